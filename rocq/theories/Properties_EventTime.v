(** C60-C62: timers of the event manager and time arithmetic. *)
From Coq Require Import Permutation Sorted.
From Verif Require Import Base RbTree RbTreeProofs EventTime EventTimeProofs.
Local Open Scope Z_scope.

(** ** C60.  Full statement: a timer never expires before its deadline, and at any time the loop waits for the earliest
    deadline among the registered timers.

    [sp_run os] is the list of registered timers after the history [os], with their exact deadlines;
    [ts_moved = None]: no timer was restarted without being registered again. *)
(** The event the loop waits for has the earliest deadline (missing: histories in which a restarted timer has not been
    registered again, see [timer_restart_refuted]). *)
Theorem timer_nearest_partial : forall f hs os, ev_all_legal (mgr_init f hs) sp_init os -> Forall op_normal os -> ts_moved (sp_run os) = None ->
  exists s r, ev_run (mgr_init f hs) os = Ok s /\ nearest s = Ok r /\
    match r with
    | None => forall t, In t (ts (sp_run os)) -> t_finite t = false
    | Some e => exists t, In t (ts (sp_run os)) /\ t_id t = e /\ t_finite t = true /\
        forall u, In u (ts (sp_run os)) -> t_finite u = true -> micros (t_deadline t) <= micros (t_deadline u)
    end.
Proof.
  intros f hs os L O MV. destruct (timers_served f hs os L O) as (s & E & H). destruct (H MV) as ((r & R & P) & _). eauto.
Qed.
Print Assumptions timer_nearest_partial.
(** When the loop looks at the clock and nothing else is ready, the handlers that run are exactly those of the timers
    marked before and those whose deadline lies in the current second or earlier (missing: the microseconds, see
    [timer_early_refuted], and marks of earlier looks at the clock, see [timer_stale_mark_refuted]). *)
Theorem timer_served_partial : forall f hs os, ev_all_legal (mgr_init f hs) sp_init os -> Forall op_normal os -> ts_moved (sp_run os) = None ->
  forall now, exists s s1 s2, ev_run (mgr_init f hs) os = Ok s /\ ev_update s now = Ok s1 /\
    ev_fire s1 = Ok (s2, map t_id (filter (fun t => t_due t || (t_finite t && (sec (t_deadline t) <=? sec now))) (ts (sp_run os)))).
Proof.
  intros f hs os L O MV now. destruct (timers_served f hs os L O) as (s & E & H). destruct (H MV) as (_ & K). destruct (K now) as (s1 & s2 & E1 & E2). exists s, s1, s2. auto.
Qed.
Print Assumptions timer_served_partial.
(** So no overdue timer is passed over, and none is served a second or more before its deadline unless it was marked by
    an earlier look at the clock. *)
Theorem timer_never_a_second_early_partial : forall f hs os now, ev_all_legal (mgr_init f hs) sp_init os -> Forall op_normal os -> normal now ->
  ts_moved (sp_run os) = None -> (forall t, In t (ts (sp_run os)) -> t_due t = false) ->
  exists s s1 s2 fired, ev_run (mgr_init f hs) os = Ok s /\ ev_update s now = Ok s1 /\ ev_fire s1 = Ok (s2, fired) /\
    (forall e, In e fired -> exists t, In t (ts (sp_run os)) /\ t_id t = e /\ t_finite t = true /\ micros (t_deadline t) < micros now + 1000000) /\
    (forall t, In t (ts (sp_run os)) -> t_finite t = true -> micros (t_deadline t) <= micros now -> In (t_id t) fired).
Proof. exact never_more_than_a_second. Qed.
Print Assumptions timer_never_a_second_early_partial.
Definition ex_ev : nat -> event := fun _ => mkEvent (mkTv (-1) (-1)) (mkTv 0 0) false false false.
Definition ex_timers : list evop :=
  [ EInit 1; ERegister 1 false (mkTv 10 0) false false (mkTv 100 900000) 501; EInit 2; ERegister 2 false (mkTv 3 200000) false false (mkTv 101 900000) 502;
    EInit 3; ERegister 3 false (mkTv (-1) (-1)) true false (mkTv 102 0) 503; EInit 4; ERegister 4 false (mkTv 60 0) false false (mkTv 102 0) 504;
    ERestart 2 (mkTv 103 0); ERegister 2 true (mkTv 3 200000) false true (mkTv 103 0) 502; EUnregister 4 ].
Example timer_example : ev_all_legal (mgr_init ex_ev (fun _ => None)) sp_init ex_timers /\ Forall op_normal ex_timers /\
  ts (sp_run ex_timers) = [mkTimer 1 (mkTv 110 900000) (mkTv 10 0) true false; mkTimer 2 (mkTv 106 200000) (mkTv 3 200000) true false; mkTimer 3 (mkTv 0 0) (mkTv (-1) (-1)) false false] /\
  ts_moved (sp_run ex_timers) = None.
Proof. split; [apply ev_all_legalb_ok; vm_compute; reflexivity|]. split; [apply op_normalb_ok; vm_compute; reflexivity|]. split; vm_compute; reflexivity. Qed.
(** The microseconds are ignored: a timer of 1.5 seconds set at 0.6 is served at 2.05, before its deadline 2.1. *)
Theorem timer_early_refuted : exists f hs os now t s s1 s2, ev_all_legal (mgr_init f hs) sp_init os /\ Forall op_normal os /\ ts_moved (sp_run os) = None /\
  ts (sp_run os) = [t] /\ t_due t = false /\ micros now < micros (t_deadline t) /\
  ev_run (mgr_init f hs) os = Ok s /\ ev_update s now = Ok s1 /\ ev_fire s1 = Ok (s2, [t_id t]).
Proof.
  set (os := [EInit 1; ERegister 1 false (mkTv 1 500000) false false (mkTv 0 600000) 501]).
  assert (L : ev_all_legal (mgr_init ex_ev (fun _ => None)) sp_init os) by (apply ev_all_legalb_ok; vm_compute; reflexivity).
  assert (O : Forall op_normal os) by (apply op_normalb_ok; vm_compute; reflexivity).
  assert (MV : ts_moved (sp_run os) = None) by reflexivity.
  destruct (timer_served_partial ex_ev (fun _ => None) os L O MV (mkTv 2 50000)) as (s & s1 & s2 & E1 & E2 & E3).
  exists ex_ev, (fun _ => None), os, (mkTv 2 50000), (mkTimer 1 (mkTv 2 100000) (mkTv 1 500000) true false), s, s1, s2.
  split; [exact L|]. split; [exact O|]. split; [exact MV|]. split; [vm_compute; reflexivity|]. split; [reflexivity|]. split; [vm_compute; reflexivity|].
  split; [exact E1|]. split; [exact E2|]. rewrite E3. f_equal.
Qed.
Print Assumptions timer_early_refuted.
(** A mark is never taken back: a timer that was overdue when the loop looked at the clock, but whose event was handled
    and registered again with a new deadline 60 seconds ahead, is served at once. *)
Theorem timer_stale_mark_refuted : exists f hs os now t s s1 s2, ev_all_legal (mgr_init f hs) sp_init os /\ Forall op_normal os /\ ts_moved (sp_run os) = None /\
  ts (sp_run os) = [t] /\ micros now + 59000000 <= micros (t_deadline t) /\
  ev_run (mgr_init f hs) os = Ok s /\ ev_update s now = Ok s1 /\ ev_fire s1 = Ok (s2, [t_id t]).
Proof.
  set (os := [EInit 1; ERegister 1 false (mkTv 10 0) false false (mkTv 0 0) 501; EUpdate (mkTv 10 0); ERegister 1 true (mkTv 60 0) false false (mkTv 10 0) 501]).
  assert (L : ev_all_legal (mgr_init ex_ev (fun _ => None)) sp_init os) by (apply ev_all_legalb_ok; vm_compute; reflexivity).
  assert (O : Forall op_normal os) by (apply op_normalb_ok; vm_compute; reflexivity).
  assert (MV : ts_moved (sp_run os) = None) by reflexivity.
  destruct (timer_served_partial ex_ev (fun _ => None) os L O MV (mkTv 11 0)) as (s & s1 & s2 & E1 & E2 & E3).
  exists ex_ev, (fun _ => None), os, (mkTv 11 0), (mkTimer 1 (mkTv 70 0) (mkTv 60 0) true true), s, s1, s2.
  split; [exact L|]. split; [exact O|]. split; [exact MV|]. split; [vm_compute; reflexivity|]. split; [vm_compute; discriminate|].
  split; [exact E1|]. split; [exact E2|]. rewrite E3. f_equal.
Qed.
Print Assumptions timer_stale_mark_refuted.

(** ** C61.  Full statement: re-arming a registered timer keeps all timers findable in deadline order. *)
(** After every history of registrations, re-registrations with a new or with the moved deadline, unregistrations and
    expiries, the index lists exactly the timers, in the order of their deadlines, and every timer finds its own entry
    (missing: a restart that has not been followed by a registration). *)
Theorem timer_index_partial : forall f hs os, ev_all_legal (mgr_init f hs) sp_init os -> Forall op_normal os -> ts_moved (sp_run os) = None ->
  exists s, ev_run (mgr_init f hs) os = Ok s /\
    Permutation (map (fun n => pl_data (snd n)) (els nat nat (m_tree s))) (map t_id (filter t_finite (ts (sp_run os)))) /\
    StronglySorted (before_in_time (sp_run os)) (map (fun n => pl_data (snd n)) (els nat nat (m_tree s))) /\
    (forall t, In t (ts (sp_run os)) -> t_finite t = true ->
       exists a, rb_handles (m_tree s) (t_id t) = Some a /\ In (a, mkPayload (t_id t) (t_id t) (Some (t_id t))) (els nat nat (m_tree s))).
Proof. exact timers_findable. Qed.
Print Assumptions timer_index_partial.
(** Re-arming never breaks anything for good: the next registration of the restarted event is successful (it is part of
    [timer_index_partial]: [ex_timers] has a restart).  But in between the index is wrong: the loop waits for the restarted
    timer although another one has an earlier deadline, and passes over the other one when it is overdue. *)
Theorem timer_restart_refuted : exists f hs os s s1 t u now, ev_all_legal (mgr_init f hs) sp_init os /\ Forall op_normal os /\
  ts (sp_run os) = [t; u] /\ t_finite t = true /\ t_finite u = true /\ micros (t_deadline u) < micros (t_deadline t) /\
  ev_run (mgr_init f hs) os = Ok s /\ nearest s = Ok (Some (t_id t)) /\
  micros (t_deadline u) + 1000000 <= micros now /\ ev_update s now = Ok s1 /\ e_expired (m_ev s1 (t_id u)) = false.
Proof.
  set (os := [EInit 1; ERegister 1 false (mkTv 10 0) false false (mkTv 0 0) 501; EInit 2; ERegister 2 false (mkTv 20 0) false false (mkTv 0 0) 502; ERestart 1 (mkTv 9 0)]).
  assert (L : ev_all_legal (mgr_init ex_ev (fun _ => None)) sp_init (os ++ [ERestart 1 (mkTv 15 0)])) by (apply ev_all_legalb_ok; vm_compute; reflexivity).
  assert (O : Forall op_normal (os ++ [ERestart 1 (mkTv 15 0)])) by (apply op_normalb_ok; vm_compute; reflexivity).
  destruct (ev_run (mgr_init ex_ev (fun _ => None)) (os ++ [ERestart 1 (mkTv 15 0)])) as [s|] eqn:E1; [|vm_compute in E1; discriminate].
  destruct (ev_update s (mkTv 22 0)) as [s1|] eqn:E2; [|vm_compute in E1; injection E1 as <-; vm_compute in E2; discriminate].
  exists ex_ev, (fun _ => None), (os ++ [ERestart 1 (mkTv 15 0)]), s, s1, (mkTimer 1 (mkTv 25 0) (mkTv 10 0) true false), (mkTimer 2 (mkTv 20 0) (mkTv 20 0) true false), (mkTv 22 0).
  split; [exact L|]. split; [exact O|]. split; [vm_compute; reflexivity|]. split; [reflexivity|]. split; [reflexivity|]. split; [vm_compute; reflexivity|]. split; [exact E1|].
  vm_compute in E1. injection E1 as <-. split; [vm_compute; reflexivity|]. split; [vm_compute; discriminate|]. split; [exact E2|]. vm_compute in E2. injection E2 as <-. vm_compute. reflexivity.
Qed.
Print Assumptions timer_restart_refuted.

(** ** C62.  Full statement: sums and differences of (seconds, microseconds) pairs denote the exact sum or difference and
    are normalised; the wait handed to the poller is within one millisecond of the true remaining time and never negative
    for a future deadline. *)
(** Sums, for all times. *)
Theorem time_sum_exact : forall now t, normal now -> normal t ->
  micros (add_from_now now t) = micros now + micros t /\ normal (add_from_now now t).
Proof. exact add_spec. Qed.
Print Assumptions time_sum_exact.
Example time_sum_example : normal (mkTv 100 700000) /\ normal (mkTv 2 400000) /\ add_from_now (mkTv 100 700000) (mkTv 2 400000) = mkTv 103 100000.
Proof. repeat split; cbn; lia. Qed.
Theorem time_milliseconds_exact : forall ms, 0 <= ms -> micros (fly_msec ms) = 1000 * ms /\ normal (fly_msec ms).
Proof. exact msec_spec. Qed.
Print Assumptions time_milliseconds_exact.
Example time_milliseconds_example : 0 <= 1234 /\ fly_msec 1234 = mkTv 1 234000.
Proof. split; [lia|reflexivity]. Qed.
(** Differences and comparisons, for seconds that fit into an int (missing: other values, see
    [time_difference_refuted]). *)
Theorem time_difference_partial : forall a b, normal a -> normal b -> int_sec a -> int_sec b ->
  (exists d, sub_time a b = Ok d /\ micros d = micros a - micros b /\ normal d) /\
  cmp_time a b = Ok (match micros a ?= micros b with Lt => -1 | Eq => 0 | Gt => 1 end).
Proof. intros a b NA NB IA IB. split; [apply sub_spec; assumption|apply cmp_spec; assumption]. Qed.
Print Assumptions time_difference_partial.
Example time_difference_example : normal (mkTv 1700000000 100) /\ normal (mkTv 1699999999 200) /\ int_sec (mkTv 1700000000 100) /\ int_sec (mkTv 1699999999 200) /\
  sub_time (mkTv 1700000000 100) (mkTv 1699999999 200) = Ok (mkTv 0 999900) /\ cmp_time (mkTv 1700000000 100) (mkTv 1699999999 200) = Ok 1.
Proof. unfold normal, int_sec. cbn [sec usec]. repeat split; try lia; reflexivity. Qed.
(** From January 2038 on the seconds are truncated: the later of two times one second apart compares as the earlier, or
    the subtraction overflows. *)
Theorem time_difference_refuted : exists a b c, normal a /\ normal b /\ normal c /\ micros b < micros a /\ cmp_time a c = Ok (-1) /\ micros c < micros a /\
  sub_time a b = UB SignedOverflow.
Proof. exists (mkTv 2147483648 0), (mkTv 2147483647 0), (mkTv 0 0). unfold normal. cbn [sec usec]. repeat split; try lia; vm_compute; reflexivity. Qed.
Print Assumptions time_difference_refuted.
(** The wait, for deadlines within 23 days (missing: longer ones, see [poll_wait_refuted]). *)
Theorem poll_wait_partial : forall t now, normal t -> normal now -> Z.abs (sec t - sec now) <= 2000000 -> micros now <= micros t ->
  0 <= poll_timeout (Some t) now /\ -1000 < 1000 * poll_timeout (Some t) now - (micros t - micros now) < 1000.
Proof.
  intros t now NT NN D L. destruct (milli_spec t now NT NN D) as (B & P). specialize (P L). cbn [poll_timeout]. destruct (Z.ltb_spec (milli_diff t now) 0); [lia|]. auto.
Qed.
Print Assumptions poll_wait_partial.
Example poll_wait_example : normal (mkTv 1700000060 1500) /\ normal (mkTv 1700000000 900) /\ Z.abs (1700000060 - 1700000000) <= 2000000 /\
  micros (mkTv 1700000000 900) <= micros (mkTv 1700000060 1500) /\ poll_timeout (Some (mkTv 1700000060 1500)) (mkTv 1700000000 900) = 60000.
Proof. unfold normal, micros. cbn [sec usec]. repeat split; try lia. Qed.
(** An overdue deadline is not waited for. *)
Theorem poll_overdue_partial : forall t now, normal t -> normal now -> Z.abs (sec t - sec now) <= 2000000 -> micros t <= micros now ->
  0 <= poll_timeout (Some t) now <= 0.
Proof.
  intros t now NT NN D L. destruct (milli_spec t now NT NN D) as (B & _). cbn [poll_timeout]. destruct (Z.ltb_spec (milli_diff t now) 0); lia.
Qed.
Print Assumptions poll_overdue_partial.
Example poll_overdue_example : poll_timeout (Some (mkTv 5 0)) (mkTv 6 0) = 0 /\ poll_timeout None (mkTv 6 0) = -1.
Proof. split; reflexivity. Qed.
(** A timer of 30 days: the number of milliseconds does not fit into an int and the loop does not wait at all. *)
Theorem poll_wait_refuted : exists t now, normal t /\ normal now /\ micros now + 2592000000000 <= micros t /\ milli_diff t now < 0 /\ poll_timeout (Some t) now = 0.
Proof. exists (mkTv 1702592000 0), (mkTv 1700000000 0). unfold normal, micros. cbn [sec usec]. repeat split; try lia; vm_compute; reflexivity. Qed.
Print Assumptions poll_wait_refuted.
