(** Proofs about EventTime.v. *)
From Coq Require Import Permutation Sorted.
From Verif Require Import Base RbTree RbTreeProofs EventTime.
Local Open Scope Z_scope.
Ltac Zify.zify_post_hook ::= Z.div_mod_to_equations.

(** ** Time arithmetic *)
(** The number of microseconds a pair denotes. *)
Definition micros (t : tv) : Z := 1000000 * sec t + usec t.
Definition normal (t : tv) : Prop := 0 <= usec t < 1000000.
(** Seconds that fit into an int (until January 2038). *)
Definition int_sec (t : tv) : Prop := 0 <= sec t <= 2147483647.

Lemma to_int_id z : -2147483648 <= z <= 2147483647 -> to_int z = z.
Proof. unfold to_int. intros H. rewrite Z.mod_small by lia. lia. Qed.
Lemma add_spec now t : normal now -> normal t -> micros (add_from_now now t) = micros now + micros t /\ normal (add_from_now now t).
Proof. unfold add_from_now, micros, normal. intros N T. destruct (Z.leb_spec 1000000 (usec now + usec t)); cbn [sec usec]; lia. Qed.
Lemma sub_spec a b : normal a -> normal b -> int_sec a -> int_sec b ->
  exists d, sub_time a b = Ok d /\ micros d = micros a - micros b /\ normal d.
Proof.
  unfold sub_time, int_sub, micros, normal, int_sec. intros NA NB IA IB. rewrite !to_int_id by lia.
  replace ((-2147483648 <=? sec a - sec b) && (sec a - sec b <=? 2147483647)) with true by lia. cbn [obind].
  eexists. split; [reflexivity|]. destruct (Z.ltb_spec (usec a - usec b) 0); cbn [sec usec]; lia.
Qed.
Lemma cmp_spec a b : normal a -> normal b -> int_sec a -> int_sec b ->
  cmp_time a b = Ok (match micros a ?= micros b with Lt => -1 | Eq => 0 | Gt => 1 end).
Proof.
  unfold cmp_time, int_sub, micros, normal, int_sec. intros NA NB IA IB. rewrite !to_int_id by lia.
  replace ((-2147483648 <=? sec a - sec b) && (sec a - sec b <=? 2147483647)) with true by lia. cbn [obind]. f_equal.
  destruct (Z.ltb_spec 0 (sec a - sec b)); [|destruct (Z.ltb_spec (sec a - sec b) 0); [|destruct (Z.ltb_spec 0 (usec a - usec b)); [|destruct (Z.ltb_spec (usec a - usec b) 0)]]];
  destruct (Z.compare_spec (1000000 * sec a + usec a) (1000000 * sec b + usec b)); lia.
Qed.
Lemma msec_spec ms : 0 <= ms -> micros (fly_msec ms) = 1000 * ms /\ normal (fly_msec ms).
Proof.
  intros H. unfold fly_msec, micros, normal. cbn [sec usec]. rewrite Z.quot_div_nonneg, Z.rem_mod_nonneg by lia. lia.
Qed.
Lemma quot_bounds z : -1000 < 1000 * Z.quot z 1000 - z < 1000.
Proof. pose proof (Z.quot_rem' z 1000). pose proof (Z.rem_bound_abs z 1000 ltac:(lia)). lia. Qed.
Lemma quot_nonneg z : 0 <= z -> 0 <= Z.quot z 1000.
Proof. intros H. apply Z.quot_pos; lia. Qed.
(** The wait handed to the poller. *)
Lemma milli_spec t now : normal t -> normal now -> Z.abs (sec t - sec now) <= 2000000 ->
  -1000 < 1000 * milli_diff t now - (micros t - micros now) < 1000 /\ (micros now <= micros t -> 0 <= milli_diff t now).
Proof.
  unfold milli_diff, normal, micros. intros NT NN D. pose proof (quot_bounds (usec t - usec now)) as Q.
  rewrite (to_int_id (1000 * (sec t - sec now))) by lia.
  assert (B : -1000 < Z.quot (usec t - usec now) 1000 < 1000) by lia.
  rewrite to_int_id by lia. split; [lia|]. intros L.
  destruct (Z_le_gt_dec 0 (usec t - usec now)) as [P|P].
  - pose proof (quot_nonneg _ P). lia.
  - lia.
Qed.

(** ** The order of the tree *)
Lemma event_cmp_order dl : total_order (event_cmp dl).
Proof.
  unfold event_cmp. split; [|split].
  - intros a b. split.
    + destruct (sec (dl a) ?= sec (dl b)); try discriminate. destruct (usec (dl a) ?= usec (dl b)); try discriminate. apply Nat.compare_eq.
    + intros ->. rewrite !Z.compare_refl. apply Nat.compare_refl.
  - intros a b. rewrite (Z.compare_antisym (sec (dl a)) (sec (dl b))), (Z.compare_antisym (usec (dl a)) (usec (dl b))), (Nat.compare_antisym a b).
    destruct (sec (dl a) ?= sec (dl b)); cbn [CompOpp]; try reflexivity. destruct (usec (dl a) ?= usec (dl b)); reflexivity.
  - intros a b c.
    destruct (Z.compare_spec (sec (dl a)) (sec (dl b))); try discriminate;
    destruct (Z.compare_spec (sec (dl b)) (sec (dl c))); try discriminate; intros H1 H2;
    destruct (Z.compare_spec (sec (dl a)) (sec (dl c))); try reflexivity; try lia.
    destruct (Z.compare_spec (usec (dl a)) (usec (dl b))); try discriminate;
    destruct (Z.compare_spec (usec (dl b)) (usec (dl c))); try discriminate;
    destruct (Z.compare_spec (usec (dl a)) (usec (dl c))); try reflexivity; try lia.
    rewrite Nat.compare_lt_iff in *. lia.
Qed.
Lemma cmp_lt dl a b : normal (dl a) -> normal (dl b) -> event_cmp dl a b = Lt -> micros (dl a) <= micros (dl b).
Proof.
  unfold event_cmp, normal, micros. intros NA NB.
  destruct (Z.compare_spec (sec (dl a)) (sec (dl b))); try discriminate; [|lia].
  destruct (Z.compare_spec (usec (dl a)) (usec (dl b))); try discriminate; lia.
Qed.
Lemma cmp_sec dl a b : event_cmp dl a b = Lt -> sec (dl a) <= sec (dl b).
Proof. unfold event_cmp. destruct (Z.compare_spec (sec (dl a)) (sec (dl b))); try discriminate; lia. Qed.

Notation key := (fun x : nat * payload nat nat => pl_key (snd x)).
Notation Els := (els nat nat).
Lemma sorted_ext c c' l : (forall x y, In x (map key l) -> In y (map key l) -> c x y = c' x y) ->
  sorted nat nat c l -> sorted nat nat c' l.
Proof.
  induction l as [|a l IH]; intros E; [auto|]. cbn [sorted]. intros (H & S). split.
  - intros y I. unfold klt, key_of. rewrite <- E; [apply (H y I)|left; reflexivity|right; apply (in_map key); exact I].
  - apply IH; [|exact S]. intros x y X Y. apply E; right; assumption.
Qed.
Lemma Inv_ext c c' t : (forall x y, In x (map key (Els t)) -> In y (map key (Els t)) -> c x y = c' x y) ->
  Inv nat nat c t -> Inv nat nat c' t.
Proof. intros E (A & B & C). split; [exact A|]. split; [|exact C]. eapply sorted_ext; eassumption. Qed.
Lemma Inv_dl dl dl' t : (forall x, In x (map key (Els t)) -> dl x = dl' x) -> Inv nat nat (event_cmp dl) t -> Inv nat nat (event_cmp dl') t.
Proof. intros E. apply Inv_ext. intros x y X Y. unfold event_cmp. rewrite (E x X), (E y Y). reflexivity. Qed.
(** Nothing in the invariant depends on the handles of events that are not in the tree. *)
Lemma Inv_handles c t hs : Inv nat nat c t -> (forall id p h, In (id, p) (Els t) -> pl_handle p = Some h -> hs h = rb_handles t h) ->
  Inv nat nat c (mkRb (rb_root t) (rb_count t) hs).
Proof.
  intros (A & B & C & D & F) H. unfold Inv, els in *. cbn [rb_root rb_count rb_handles]. repeat (split; [assumption|]).
  intros id p h I P. rewrite (H id p h I P). eapply F; eassumption.
Qed.

(** ** The specification: a list of registered timers *)
Record timer := mkTimer { t_id : nat; t_deadline : tv; t_timeout : tv; t_finite : bool; t_due : bool }.
(** The state: the registered timers, initialised events that are not registered, the event whose deadline was moved
    since its last registration. *)
Record timers := mkTimers { ts : list timer; ts_new : list nat; ts_moved : option nat }.
Definition on_timer (e : nat) (f : timer -> timer) (l : list timer) : list timer := map (fun t => if (t_id t =? e)%nat then f t else t) l.
Definition sp_step (now_plus : tv -> tv -> tv) (s : timers) (o : evop) : timers :=
  match o with
  | EInit e => mkTimers (ts s) (e :: ts_new s) (ts_moved s)
  | ERegister e false tmo inf _ now _ =>
    mkTimers (ts s ++ [mkTimer e (if inf then mkTv 0 0 else now_plus now tmo) tmo (negb inf) false]) (filter (fun x => negb (x =? e)%nat) (ts_new s)) None
  | ERegister e true tmo inf inh now _ =>
    mkTimers (on_timer e (fun t => mkTimer e (if inf || inh then t_deadline t else now_plus now tmo) tmo (negb inf) (t_due t)) (ts s)) (ts_new s) None
  | EUnregister e => mkTimers (filter (fun t => negb (t_id t =? e)%nat) (ts s)) (ts_new s)
                              (match ts_moved s with Some x => if (x =? e)%nat then None else Some x | None => None end)
  | ERestart e now => mkTimers (on_timer e (fun t => mkTimer e (now_plus now (t_timeout t)) (t_timeout t) (t_finite t) (t_due t)) (ts s)) (ts_new s) (Some e)
  | EUpdate now => mkTimers (map (fun t => if t_finite t && (sec (t_deadline t) <=? sec now) then mkTimer (t_id t) (t_deadline t) (t_timeout t) (t_finite t) true else t) (ts s)) (ts_new s) (ts_moved s)
  | EFire => mkTimers (filter (fun t => negb (t_due t)) (ts s)) (ts_new s) (ts_moved s)
  end.
Definition sp_init : timers := mkTimers [] [] None.
(** The exact sum of two times, normalised. *)
Definition later (now t : tv) : tv := let z := micros now + micros t in mkTv (z / 1000000) (z mod 1000000).
Definition sp_run (os : list evop) : timers := fold_left (sp_step later) os sp_init.
Definition registered (s : timers) (e : nat) : Prop := In e (map t_id (ts s)).

(** What the callers respect.  [node_free]: the memory allocated for a tree node is not in use by the tree. *)
Definition node_free (s : mgr) (e : nat) (modify : bool) (a : nat) : Prop :=
  match (if modify then match rb_handles (m_tree s) e with None => Ok (m_tree s) | Some n => rb_delete (m_tree s) n end else Ok (m_tree s)) with
  | Ok t => ~ In a (addresses t)
  | UB _ => True
  end.
Definition ev_legal (s : mgr) (sp : timers) (o : evop) : Prop :=
  match o with
  | EInit e => ~ registered sp e
  | ERegister e md _ _ _ _ a =>
    node_free s e md a /\ (if md then registered sp e else In e (ts_new sp) /\ ~ registered sp e) /\ (forall x, ts_moved sp = Some x -> x = e)
  | EUnregister e => registered sp e
  | ERestart e _ => (exists t, In t (ts sp) /\ t_id t = e /\ t_finite t = true) /\ (forall x, ts_moved sp = Some x -> x = e)
  | EUpdate _ => ts_moved sp = None
  | EFire => ts_moved sp = None
  end.
Fixpoint ev_all_legal (s : mgr) (sp : timers) (os : list evop) : Prop :=
  match os with
  | [] => True
  | o :: t => ev_legal s sp o /\ forall s', ev_step s o = Ok s' -> ev_all_legal s' (sp_step later sp o) t
  end.
(** The times given are normalised: the clock always, the timeout unless the event has none. *)
Definition op_normal (o : evop) : Prop :=
  match o with
  | ERegister _ _ tmo inf _ now _ => normal now /\ (inf = false -> normal tmo)
  | ERestart _ now => normal now
  | EUpdate now => normal now
  | _ => True
  end.
Lemma later_add now t : normal now -> normal t -> add_from_now now t = later now t.
Proof.
  intros N T. destruct (add_spec now t N T) as (M & NR). unfold later. rewrite <- M. clear M. destruct (add_from_now now t) as [s u]. unfold normal, micros in *. cbn [sec usec] in *. f_equal; lia.
Qed.
Lemma later_normal now t : normal (later now t).
Proof. unfold later, normal. cbn [usec]. lia. Qed.
Definition normal_timers (s : timers) : Prop := forall t, In t (ts s) -> normal (t_deadline t) /\ (t_finite t = true -> normal (t_timeout t)).
Lemma on_timer_ext e f g l : (forall t, In t l -> t_id t = e -> f t = g t) -> on_timer e f l = on_timer e g l.
Proof. intros H. apply map_ext_in. intros t T. destruct (Nat.eqb_spec (t_id t) e); auto. Qed.
Lemma sp_step_later s o m : normal_timers s -> op_normal o -> NoDup (map t_id (ts s)) -> ev_legal m s o -> sp_step add_from_now s o = sp_step later s o.
Proof.
  intros N O ND L. destruct o as [e|e md tmo inf inh now a|e|e now|now|]; try reflexivity.
  - destruct O as (O1 & O2). destruct md, inf; try reflexivity; cbn [sp_step orb]; rewrite later_add by auto; reflexivity.
  - cbn [sp_step]. f_equal. apply on_timer_ext. intros t T E. destruct L as ((u & U1 & U2 & U3) & _).
    assert (t = u). { assert (EE : t_id t = t_id u) by congruence. clear - ND T EE U1. revert ND T U1. induction (ts s) as [|x l IH]; intros ND T U; [destruct T|]. cbn [map] in ND. inversion ND as [|? ? NX ND']; subst.
      destruct T as [->|T], U as [->|U]; auto; exfalso; apply NX; [rewrite EE|rewrite <- EE]; apply in_map; assumption. }
    subst u. rewrite later_add; [reflexivity|exact O|]. apply N; assumption.
Qed.
Lemma normal_step s o m : normal_timers s -> op_normal o -> ev_legal m s o -> normal_timers (sp_step later s o).
Proof.
  intros N O L t. destruct o as [e|e md tmo inf inh now a|e|e now|now|]; cbn [sp_step ts].
  - apply N.
  - destruct O as (O1 & O2). destruct md; cbn [ts].
    + unfold on_timer. rewrite in_map_iff. intros (u & E & U). specialize (N u U). destruct (t_id u =? e)%nat; [|subst; exact N]. subst t. cbn [t_deadline t_finite t_timeout]. split; [|destruct inf; [discriminate|auto]].
      destruct (inf || inh); [apply N|apply later_normal].
    + rewrite in_app_iff. intros [T|[<-|[]]]; [apply N; exact T|]. cbn [t_deadline t_finite t_timeout]. destruct inf; cbn [negb]; (split; [|auto; discriminate]); [split; cbn; lia|apply later_normal].
  - intros T. apply filter_In in T as (T & _). apply N. exact T.
  - unfold on_timer. rewrite in_map_iff. intros (u & E & U). specialize (N u U). destruct (t_id u =? e)%nat; [|subst; exact N]. subst t. cbn [t_deadline t_finite t_timeout]. split; [apply later_normal|apply N].
  - rewrite in_map_iff. intros (u & E & U). specialize (N u U). destruct (_ && _); subst; exact N.
  - intros T. apply filter_In in T as (T & _). apply N. exact T.
Qed.

(** ** Refinement *)
Definition view (f : nat -> event) (e : nat) : timer := mkTimer e (e_abs (f e)) (e_timeout (f e)) (negb (e_infinite (f e))) (e_expired (f e)).
Definition pl (e : nat) : payload nat nat := mkPayload e e (Some e).
Definition fin (f : nat -> event) (e : nat) : bool := negb (e_infinite (f e)).
Definition tree_ok (dl0 : nat -> tv) (f : nat -> event) (q : list nat) (t : rbstate nat nat) : Prop :=
  Inv nat nat (event_cmp dl0) t /\ refines nat nat t (map pl (filter (fin f) q)) /\
  (forall e, In e q -> fin f e = false -> rb_handles t e = None).
Definition MInv (s : mgr) (sp : timers) : Prop :=
  NoDup (m_queue s) /\ map (view (m_ev s)) (m_queue s) = ts sp /\
  (forall e, In e (ts_new sp) -> ~ In e (m_queue s) /\ e_abs (m_ev s e) = mkTv 0 0 /\ e_expired (m_ev s e) = false /\ rb_handles (m_tree s) e = None) /\
  (forall x, ts_moved sp = Some x -> In x (m_queue s)) /\
  exists dl0, (forall x, In x (m_queue s) -> ts_moved sp <> Some x -> dl0 x = deadlines (m_ev s) x) /\ tree_ok dl0 (m_ev s) (m_queue s) (m_tree s).

Lemma ids_queue s sp : MInv s sp -> map t_id (ts sp) = m_queue s.
Proof. intros (_ & V & _). rewrite <- V, map_map. apply map_id. Qed.
Lemma registered_queue s sp e : MInv s sp -> (registered sp e <-> In e (m_queue s)).
Proof. intros M. unfold registered. rewrite (ids_queue s sp M). reflexivity. Qed.
Lemma refines_keys t l : refines nat nat t (map pl l) -> forall x, In x (map key (Els t)) <-> In x l.
Proof.
  intros R x. unfold refines in R. apply (Permutation_map (@pl_key nat nat)) in R. rewrite !map_map in R. cbn [pl pl_key] in R.
  rewrite map_id in R. split; apply Permutation_in; [exact R|symmetry; exact R].
Qed.
Lemma refines_in t l id p : refines nat nat t (map pl l) -> In (id, p) (Els t) -> exists e, In e l /\ p = pl e.
Proof.
  intros R I. apply (in_map snd) in I. cbn [snd] in I. apply (Permutation_in _ R) in I. apply in_map_iff in I as (e & <- & I). eauto.
Qed.
(** Changing the deadline function outside the tree. *)
Lemma tree_ok_dl dl dl' f q t : (forall x, In x q -> fin f x = true -> dl x = dl' x) -> tree_ok dl f q t -> tree_ok dl' f q t.
Proof.
  intros E (I & R & H). split; [|auto]. eapply Inv_dl; [|exact I]. intros x X. apply (refines_keys _ _ R) in X. apply filter_In in X as (X & F). auto.
Qed.
Lemma filter_drop f e q : (In e q -> fin f e = false) -> filter (fun x => fin f x && negb (x =? e)%nat) q = filter (fin f) q.
Proof. intros H. apply filter_ext_in. intros x X. destruct (Nat.eqb_spec x e) as [->|]; [rewrite (H X); reflexivity|apply andb_true_r]. Qed.
(** Taking an event out of the tree. *)
Lemma drop_ok dl f q t e : NoDup q -> In e q -> tree_ok dl f q t ->
  exists t', (match rb_handles t e with None => Ok t | Some n => rb_delete t n end) = Ok t' /\
    Inv nat nat (event_cmp dl) t' /\ refines nat nat t' (map pl (filter (fun x => fin f x && negb (x =? e)%nat) q)) /\
    rb_handles t' e = None /\ (forall e', In e' q -> fin f e' = false -> rb_handles t' e' = None) /\
    (forall e', ~ In e' q -> rb_handles t' e' = rb_handles t e').
Proof.
  intros ND IQ (I & R & H). destruct (fin f e) eqn:F.
  - assert (IT : exists a, In (a, pl e) (Els t)).
    { assert (X : In (pl e) (map snd (Els t))) by (apply (Permutation_in _ (Permutation_sym R)); apply in_map; apply filter_In; auto). apply in_map_iff in X as ([a p] & <- & X). cbn [snd]. eauto. }
    destruct IT as (a & IT). pose proof I as (_ & _ & _ & _ & HK). rewrite (HK a (pl e) e IT eq_refl).
    apply in_split in IT as (A & B & El). destruct (event_cmp_order dl) as (T1 & T2 & T3).
    destruct (delete_inv nat nat (event_cmp dl) t A a (pl e) B I El) as (t' & D & I' & M & FR & NU).
    exists t'. split; [exact D|]. split; [exact I'|]. split; [|split; [exact (NU e eq_refl)|split]].
    + unfold refines. rewrite M. unfold refines in R. rewrite El in R.
      assert (P1 : Permutation (pl e :: map snd (A ++ B)) (pl e :: map pl (filter (fun x => fin f x && negb (x =? e)%nat) q))).
      { etransitivity; [|etransitivity; [exact R|]].
        - rewrite !map_app. cbn [map snd]. apply Permutation_middle.
        - change (pl e :: map pl (filter (fun x => fin f x && negb (x =? e)%nat) q)) with (map pl (e :: filter (fun x => fin f x && negb (x =? e)%nat) q)).
          apply Permutation_map. clear - ND IQ F. induction q as [|x q IH]; [destruct IQ|]. inversion ND as [|? ? NX ND']; subst. cbn [filter]. destruct (Nat.eqb_spec x e) as [->|NE].
          + rewrite F. cbn [andb negb]. constructor. rewrite filter_drop by contradiction. reflexivity.
          + destruct IQ as [E|IQ]; [contradiction|]. cbn [negb]. rewrite andb_true_r. specialize (IH ND' IQ). destruct (fin f x); [|exact IH]. etransitivity; [apply perm_skip; exact IH|apply perm_swap]. }
      apply Permutation_cons_inv in P1. exact P1.
    + intros e' Ie' F'. rewrite FR; [apply H; assumption|]. intros p P. rewrite <- El in P. apply (Permutation_in _ R) in P.
      apply in_map_iff in P as (x & <- & X). apply filter_In in X as (_ & X). cbn. intros [= ->]. congruence.
    + intros e' Ie'. apply FR. intros p P. rewrite <- El in P. apply (Permutation_in _ R) in P.
      apply in_map_iff in P as (x & <- & X). apply filter_In in X as (X & _). cbn. intros [= ->]. contradiction.
  - rewrite (H e IQ F). exists t. split; [reflexivity|]. split; [exact I|]. split; [|auto].
    rewrite filter_drop by auto. exact R.
Qed.
(** Inserting an event that is not in the tree. *)
Lemma insert_ok dl t l e a : Inv nat nat (event_cmp dl) t -> refines nat nat t (map pl l) -> ~ In e l -> ~ In a (addresses t) ->
  exists t', rb_step (event_cmp dl) t (OInsert a e e (Some e)) = Ok t' /\ Inv nat nat (event_cmp dl) t' /\ refines nat nat t' (map pl (e :: l)) /\
    (forall x, x <> e -> rb_handles t' x = rb_handles t x).
Proof.
  intros I R NI NA. destruct (event_cmp_order dl) as (T1 & T2 & T3).
  assert (NK : existsb (key_is nat nat (event_cmp dl) e) (map pl l) = false).
  { apply not_true. intros X. apply existsb_exists in X as (p & P & K). apply (key_is_spec nat nat (event_cmp dl) T1) in K. apply in_map_iff in P as (x & <- & P). cbn in K. congruence. }
  assert (L : legal_op nat nat (event_cmp dl) t (map pl l) (OInsert a e e (Some e))).
  { split; [exact NA|]. intros i [= <-]. split; [|exact NK]. apply not_true. intros X. apply existsb_exists in X as (p & P & K).
    apply in_map_iff in P as (x & <- & P). unfold handle_is in K. cbn in K. apply Nat.eqb_eq in K. congruence. }
  destruct (step_refines nat nat (event_cmp dl) T1 T2 T3 t (map pl l) _ I R L) as (t' & E & I' & R'). exists t'. split; [exact E|]. split; [exact I'|]. split.
  - cbn [spec_step] in R'. rewrite NK in R'. exact R'.
  - intros x NX. cbn [rb_step] in E. destruct (rb_insert_spec nat nat (event_cmp dl) T1 T2 T3 t a e e (Some e) I) as (s1 & r & E1 & HS & _). rewrite E1 in E. cbn [obind] in E. injection E as <-.
    cbn [rb_handles]. rewrite HS. unfold set_handle. destruct (Nat.eqb_spec x e); [contradiction|reflexivity].
Qed.

Lemma view_other f e v q : ~ In e q -> map (view (set_ev f e v)) q = map (view f) q.
Proof. intros NI. apply map_ext_in. intros x X. unfold view, set_ev. destruct (Nat.eqb_spec x e) as [->|]; [contradiction|reflexivity]. Qed.
Lemma fin_other f e v q : ~ In e q -> filter (fin (set_ev f e v)) q = filter (fin f) q.
Proof. intros NI. apply filter_ext_in. intros x X. unfold fin, set_ev. destruct (Nat.eqb_spec x e) as [->|]; [contradiction|reflexivity]. Qed.
Lemma view_on f e v q g : (forall x, x = e -> view (set_ev f e v) x = g (view f x)) -> map (view (set_ev f e v)) q = on_timer e g (map (view f) q).
Proof.
  intros G. unfold on_timer. rewrite map_map. apply map_ext. intros x. cbn [view t_id]. destruct (Nat.eqb_spec x e) as [->|NE]; [apply G; reflexivity|].
  unfold view, set_ev. destruct (Nat.eqb_spec x e); [contradiction|reflexivity].
Qed.
Lemma deadlines_set f e v x : deadlines (set_ev f e v) x = if (x =? e)%nat then e_abs v else deadlines f x.
Proof. unfold deadlines, set_ev. destruct (x =? e)%nat; reflexivity. Qed.
Lemma fin_set f e v x : fin (set_ev f e v) x = if (x =? e)%nat then negb (e_infinite v) else fin f x.
Proof. unfold fin, set_ev. destruct (x =? e)%nat; reflexivity. Qed.
Lemma perm_fin f e v q : NoDup q -> In e q -> e_infinite v = false ->
  Permutation (e :: filter (fun x => fin f x && negb (x =? e)%nat) q) (filter (fin (set_ev f e v)) q).
Proof.
  intros ND IQ F. induction q as [|x q IH]; [destruct IQ|]. inversion ND as [|? ? NX ND']; subst. cbn [filter]. rewrite fin_set. destruct (Nat.eqb_spec x e) as [->|NE].
  - rewrite F. cbn [negb]. rewrite andb_false_r. constructor. rewrite fin_other by exact NX. rewrite filter_drop by contradiction. reflexivity.
  - destruct IQ as [E|IQ]; [contradiction|]. cbn [negb]. rewrite andb_true_r. specialize (IH ND' IQ). destruct (fin f x); [|exact IH]. etransitivity; [apply perm_swap|apply perm_skip; exact IH].
Qed.
Lemma fin_inf f e v q : NoDup q -> e_infinite v = true -> filter (fin (set_ev f e v)) q = filter (fun x => fin f x && negb (x =? e)%nat) q.
Proof. intros _ F. apply filter_ext. intros x. rewrite fin_set. destruct (x =? e)%nat; [rewrite F, andb_false_r; reflexivity|rewrite andb_true_r; reflexivity]. Qed.

Lemma handle_free dl f q t e : tree_ok dl f q t -> ~ In e q -> forall id p h, In (id, p) (Els t) -> pl_handle p = Some h -> h <> e.
Proof.
  intros (_ & R & _) NE id p h IE P. destruct (refines_in _ _ _ _ R IE) as (x & X & ->). cbn in P. injection P as <-. apply filter_In in X as (X & _). congruence.
Qed.
Lemma tree_ok_ev dl f f' q t : (forall x, In x q -> fin f x = fin f' x) -> tree_ok dl f q t -> tree_ok dl f' q t.
Proof.
  intros E (I & R & H). split; [exact I|]. split.
  - rewrite (filter_ext_in (fin f') (fin f)); [exact R|]. intros x X. symmetry. auto.
  - intros x X F. apply H; [exact X|]. rewrite E by exact X. exact F.
Qed.

Lemma init_ok s sp e : MInv s sp -> ~ registered sp e -> MInv (ev_init s e) (sp_step add_from_now sp (EInit e)).
Proof.
  intros M NR. assert (NI : ~ In e (m_queue s)) by (rewrite <- registered_queue by exact M; exact NR). destruct M as (ND & V & NW & MV & dl0 & D & TO).
  unfold ev_init, MInv. cbn [sp_step m_queue m_ev m_tree ts ts_new ts_moved]. split; [exact ND|]. split; [rewrite view_other by exact NI; exact V|]. split; [|split; [exact MV|]].
  - intros x X. unfold set_ev. cbn [set_handle rb_handles]. destruct (Nat.eqb_spec x e) as [->|NE]; [auto|]. destruct X as [X|X]; [congruence|]. auto.
  - exists dl0. split.
    + intros x X NM. rewrite deadlines_set. destruct (Nat.eqb_spec x e) as [->|]; [contradiction|]. auto.
    + pose proof TO as (I & R & H). split; [|split].
      * apply Inv_handles; [exact I|]. intros id p h IE P. cbn [set_handle]. destruct (Nat.eqb_spec h e) as [->|]; [|reflexivity]. exfalso. exact (handle_free _ _ _ _ _ TO NI _ _ _ IE P eq_refl).
      * rewrite fin_other by exact NI. exact R.
      * intros x X F. rewrite fin_set in F. cbn [rb_handles set_handle]. destruct (Nat.eqb_spec x e) as [->|]; [reflexivity|]. auto.
Qed.

Lemma register_ok s sp e md tmo inf inh now a : MInv s sp -> ev_legal s sp (ERegister e md tmo inf inh now a) ->
  exists s', ev_register s e md tmo inf inh now a = Ok s' /\ MInv s' (sp_step add_from_now sp (ERegister e md tmo inf inh now a)).
Proof.
  intros M (NF & RG & MO). pose proof M as (ND & V & NW & MV & dl0 & D & TO). unfold ev_register, node_free in *. destruct md; cbn [negb].
  - apply (registered_queue s sp e M) in RG. destruct (drop_ok dl0 _ _ _ e ND RG TO) as (t1 & E1 & I1 & R1 & H1 & H2 & H3). rewrite E1 in NF |- *. cbn [obind].
    match goal with |- context [set_ev (m_ev s) e ?v] => set (v' := v) end.
    assert (AV : e_abs v' = if inf || inh then e_abs (m_ev s e) else add_from_now now tmo) by (subst v'; destruct inf, inh; reflexivity).
    assert (IV : e_infinite v' = inf) by (subst v'; destruct inf, inh; reflexivity).
    assert (TV : e_timeout v' = tmo /\ e_expired v' = e_expired (m_ev s e)) by (subst v'; destruct inf, inh; split; reflexivity). clearbody v'.
    assert (I2 : Inv nat nat (event_cmp (deadlines (set_ev (m_ev s) e v'))) t1).
    { eapply Inv_dl; [|exact I1]. intros x X. apply (refines_keys _ _ R1) in X. apply filter_In in X as (X & F). apply andb_true_iff in F as (_ & F). apply negb_true_iff in F. rewrite deadlines_set, F.
      apply D; [exact X|]. intros Q. apply MO in Q as ->. rewrite Nat.eqb_refl in F. discriminate. }
    assert (G : forall t, Inv nat nat (event_cmp (deadlines (set_ev (m_ev s) e v'))) t -> refines nat nat t (map pl (filter (fin (set_ev (m_ev s) e v')) (m_queue s))) ->
                (forall x, x <> e -> rb_handles t x = rb_handles t1 x) -> (inf = true -> rb_handles t e = None) ->
                MInv (mkMgr (set_ev (m_ev s) e v') (m_queue s) t) (sp_step add_from_now sp (ERegister e true tmo inf inh now a))).
    { intros t It Rt Ht He. unfold MInv. cbn [sp_step m_queue m_ev m_tree ts ts_new ts_moved]. split; [exact ND|]. split; [|split; [|split; [discriminate|]]].
      - rewrite <- V. apply view_on. intros x ->. unfold view, set_ev. rewrite Nat.eqb_refl. cbn [t_deadline t_due]. destruct TV as (-> & ->). rewrite AV, IV. reflexivity.
      - intros x X. destruct (NW x X) as (N1 & N2 & N3 & N4). assert (NE : x <> e) by congruence. unfold set_ev. destruct (Nat.eqb_spec x e); [contradiction|].
        rewrite Ht, H3 by assumption. auto.
      - exists (deadlines (set_ev (m_ev s) e v')). split; [reflexivity|]. split; [exact It|]. split; [exact Rt|].
        intros x X F. rewrite fin_set in F. destruct (Nat.eqb_spec x e) as [->|NE]; [apply He; destruct inf; [reflexivity|rewrite IV in F; discriminate]|]. rewrite Ht by exact NE. auto. }
    destruct inf; cbn [negb obind].
    + eexists. split; [reflexivity|]. apply G; [exact I2|rewrite fin_inf by assumption; exact R1|reflexivity|auto].
    + destruct (insert_ok _ t1 _ e a I2 R1) as (t & E & It & Rt & Ht); [intros X; apply filter_In in X as (_ & F); rewrite Nat.eqb_refl, andb_false_r in F; discriminate|exact NF|].
      rewrite E. cbn [obind]. eexists. split; [reflexivity|]. apply G; [exact It| |exact Ht|discriminate].
      unfold refines in *. etransitivity; [exact Rt|]. apply Permutation_map. apply perm_fin; assumption.
  - destruct RG as (IN & NR). assert (NI : ~ In e (m_queue s)) by (rewrite <- registered_queue by exact M; exact NR). destruct (NW e IN) as (_ & N2 & N3 & N4).
    match goal with |- context [set_ev (m_ev s) e ?v] => set (v' := v) end.
    assert (AV : e_abs v' = if inf then mkTv 0 0 else add_from_now now tmo) by (subst v'; destruct inf; cbn [negb e_abs set_abs]; congruence).
    assert (IV : e_infinite v' = inf) by (subst v'; destruct inf; reflexivity).
    assert (TV : e_timeout v' = tmo /\ e_expired v' = false) by (subst v'; destruct inf; split; cbn; congruence). clearbody v'.
    destruct TO as (I & R & H).
    assert (I2 : Inv nat nat (event_cmp (deadlines (set_ev (m_ev s) e v'))) (m_tree s)).
    { eapply Inv_dl; [|exact I]. intros x X. apply (refines_keys _ _ R) in X. apply filter_In in X as (X & F). rewrite deadlines_set. destruct (Nat.eqb_spec x e) as [->|]; [contradiction|].
      apply D; [exact X|]. intros Q. apply MO in Q. contradiction. }
    assert (Q : filter (fin (set_ev (m_ev s) e v')) (m_queue s ++ [e]) = filter (fin (m_ev s)) (m_queue s) ++ if inf then [] else [e]).
    { rewrite filter_app, fin_other by exact NI. f_equal. cbn [filter]. rewrite fin_set, Nat.eqb_refl, IV. destruct inf; reflexivity. }
    assert (G : forall t, Inv nat nat (event_cmp (deadlines (set_ev (m_ev s) e v'))) t -> refines nat nat t (map pl (filter (fin (set_ev (m_ev s) e v')) (m_queue s ++ [e]))) ->
                (forall x, x <> e -> rb_handles t x = rb_handles (m_tree s) x) -> (inf = true -> rb_handles t e = None) ->
                MInv (mkMgr (set_ev (m_ev s) e v') (m_queue s ++ [e]) t) (sp_step add_from_now sp (ERegister e false tmo inf inh now a))).
    { intros t It Rt Ht He. unfold MInv. cbn [sp_step m_queue m_ev m_tree ts ts_new ts_moved]. split; [|split; [|split; [|split; [discriminate|]]]].
      - apply (Permutation_NoDup (l := e :: m_queue s)); [apply Permutation_cons_append|constructor; assumption].
      - rewrite map_app, view_other by exact NI. rewrite V. cbn [map]. do 2 f_equal. unfold view, set_ev. rewrite Nat.eqb_refl. destruct TV as (-> & ->). rewrite AV, IV. reflexivity.
      - intros x X. apply filter_In in X as (X & F). apply negb_true_iff, Nat.eqb_neq in F. destruct (NW x X) as (M1 & M2 & M3 & M4). unfold set_ev. destruct (Nat.eqb_spec x e); [contradiction|].
        rewrite Ht by assumption. split; [|auto]. rewrite in_app_iff. intros [Y|[Y|[]]]; congruence.
      - exists (deadlines (set_ev (m_ev s) e v')). split; [reflexivity|]. split; [exact It|]. split; [exact Rt|].
        intros x X F. rewrite fin_set in F. apply in_app_iff in X. destruct (Nat.eqb_spec x e) as [->|NE]; [apply He; destruct inf; [reflexivity|rewrite IV in F; discriminate]|].
        rewrite Ht by exact NE. destruct X as [X|[X|[]]]; [auto|congruence]. }
    destruct inf; cbn [negb obind].
    + eexists. split; [reflexivity|]. apply G; [exact I2|rewrite Q, app_nil_r; exact R|reflexivity|auto].
    + destruct (insert_ok _ (m_tree s) _ e a I2 R) as (t & E & It & Rt & Ht); [intros X; apply filter_In in X as (X & _); contradiction|exact NF|].
      rewrite E. cbn [obind]. eexists. split; [reflexivity|]. apply G; [exact It| |exact Ht|discriminate].
      unfold refines in *. etransitivity; [exact Rt|]. apply Permutation_map. rewrite Q. apply Permutation_cons_append.
Qed.
Lemma NoDup_filter' {A} (f : A -> bool) l : NoDup l -> NoDup (filter f l).
Proof. apply NoDup_filter. Qed.
Lemma filter_view f p q : filter (fun t => p (t_id t)) (map (view f) q) = map (view f) (filter p q).
Proof. induction q as [|x q IH]; [reflexivity|]. cbn [map filter view t_id]. destruct (p x); cbn [map]; congruence. Qed.
Lemma filter_comm {A} (f g : A -> bool) l : filter f (filter g l) = filter (fun x => f x && g x) l.
Proof. induction l as [|x l IH]; [reflexivity|]. cbn [filter]. destruct (g x); cbn [filter]; [rewrite andb_true_r; destruct (f x); congruence|rewrite andb_false_r; exact IH]. Qed.
Lemma unregister_ok s sp e : MInv s sp -> registered sp e ->
  exists s', ev_unregister s e = Ok s' /\ MInv s' (sp_step add_from_now sp (EUnregister e)) /\ m_ev s' = m_ev s /\ m_queue s' = filter (fun x => negb (x =? e)%nat) (m_queue s).
Proof.
  intros M RG. apply (registered_queue s sp e M) in RG. destruct M as (ND & V & NW & MV & dl0 & D & TO). unfold ev_unregister.
  destruct (drop_ok dl0 _ _ _ e ND RG TO) as (t1 & E1 & I1 & R1 & H1 & H2 & H3). rewrite E1. cbn [obind]. eexists. split; [reflexivity|]. split; [|split; reflexivity].
  unfold MInv. cbn [sp_step m_queue m_ev m_tree ts ts_new ts_moved]. split; [apply NoDup_filter; exact ND|]. split; [|split; [|split]].
  - rewrite <- V. symmetry. apply (filter_view (m_ev s) (fun x => negb (x =? e)%nat)).
  - intros x X. destruct (NW x X) as (N1 & N2 & N3 & N4). rewrite filter_In, H3 by exact N1. split; [intros (Y & _); contradiction|auto].
  - intros x. destruct (ts_moved sp) as [y|] eqn:MVE; [|discriminate]. destruct (Nat.eqb_spec y e) as [->|NE]; [discriminate|]. intros [= <-]. apply filter_In. split; [auto|]. apply negb_true_iff, Nat.eqb_neq. exact NE.
  - exists dl0. split.
    + intros x X NM. apply filter_In in X as (X & F). apply negb_true_iff, Nat.eqb_neq in F. apply D; [exact X|]. intros MVE. rewrite MVE in NM. destruct (Nat.eqb_spec x e); [contradiction|]. apply NM. reflexivity.
    + split; [exact I1|]. split; [rewrite filter_comm; exact R1|]. intros x X F. apply filter_In in X as (X & _). auto.
Qed.
Lemma restart_ok s sp e now : MInv s sp -> ev_legal s sp (ERestart e now) -> MInv (ev_restart s e now) (sp_step add_from_now sp (ERestart e now)).
Proof.
  intros M ((t & T1 & T2 & _) & MO). assert (RG : registered sp e) by (rewrite <- T2; apply in_map; exact T1). clear t T1 T2. apply (registered_queue s sp e M) in RG. destruct M as (ND & V & NW & MV & dl0 & D & TO). unfold ev_restart, MInv. cbn [sp_step m_queue m_ev m_tree ts ts_new ts_moved].
  split; [exact ND|]. split; [|split; [|split; [intros x [= <-]; exact RG|]]].
  - rewrite <- V. apply view_on. intros x ->. unfold view, set_ev. rewrite Nat.eqb_refl. reflexivity.
  - intros x X. destruct (NW x X) as (N1 & N2). assert (NE : x <> e) by congruence. unfold set_ev. destruct (Nat.eqb_spec x e); [contradiction|]. auto.
  - exists dl0. split.
    + intros x X NM. rewrite deadlines_set. destruct (Nat.eqb_spec x e) as [->|NE]; [congruence|]. apply D; [exact X|]. intros Q. apply MO in Q. contradiction.
    + eapply tree_ok_ev; [|exact TO]. intros x _. rewrite fin_set. destruct (Nat.eqb_spec x e) as [->|]; reflexivity.
Qed.

(** ** Expiry *)
Lemma expired_spec dl now : forall t, sorted nat nat (event_cmp dl) (el nat nat t) -> (forall n, In n (el nat nat t) -> pl_data (snd n) = pl_key (snd n)) ->
  forall x, In x (expired_in dl now t) <-> In x (map key (el nat nat t)) /\ sec (dl x) <= sec now.
Proof.
  induction t as [|c id l IHl p r IHr]; intros S DK x; cbn [expired_in el map]; [cbn [In]; tauto|]. cbn [el] in S, DK. apply sorted_mid in S as (Sl & Sr & Lp & Pr & _).
  specialize (IHl Sl (fun n I => DK n (in_or_app _ _ _ (or_introl I)))). specialize (IHr Sr (fun n I => DK n (in_or_app _ (_ :: _) _ (or_intror (or_intror I))))).
  rewrite map_app. cbn [map]. rewrite in_app_iff. cbn [In snd]. pose proof (DK (id, p) (in_or_app _ (_ :: _) _ (or_intror (or_introl eq_refl)))) as DP. cbn [snd] in DP.
  destruct (Z.ltb_spec (sec now) (sec (dl (pl_key p)))) as [L|L].
  - rewrite IHl. split; [tauto|]. intros ([X|[X|X]] & Y); [tauto| |].
    + exfalso. subst x. lia.
    + exfalso. apply in_map_iff in X as (n & <- & X). apply Pr in X. unfold klt, key_of in X. apply cmp_sec in X. cbn [snd] in X. cbn beta in Y. lia.
  - cbn [In]. rewrite in_app_iff, IHl, IHr, DP. split; [|tauto]. intros [<-|[X|X]]; [split; [tauto|lia]|tauto|tauto].
Qed.
Lemma tree_now s sp : MInv s sp -> ts_moved sp = None -> tree_ok (deadlines (m_ev s)) (m_ev s) (m_queue s) (m_tree s).
Proof. intros (_ & _ & _ & _ & dl0 & D & TO) MV. eapply tree_ok_dl; [|exact TO]. intros x X _. apply D; [exact X|congruence]. Qed.
Lemma data_key t l : refines nat nat t (map pl l) -> forall n, In n (Els t) -> pl_data (snd n) = pl_key (snd n).
Proof. intros R [id p] I. destruct (refines_in _ _ _ _ R I) as (e & _ & ->). reflexivity. Qed.
Lemma empty_count dl f q t : tree_ok dl f q t -> rb_count t = 0%nat -> filter (fin f) q = [].
Proof.
  intros (I & R & _) C. destruct I as (_ & _ & _ & N & _). rewrite C in N. unfold refines in R. destruct (Els t); [|discriminate]. cbn [map] in R. apply Permutation_nil in R. destruct (filter (fin f) q); [reflexivity|discriminate].
Qed.
Lemma count_root dl f q t : tree_ok dl f q t -> rb_count t <> 0%nat -> exists r, rb_root t = RNode r /\ Els t = el nat nat r /\ r <> E.
Proof.
  intros (I & _ & _) C. destruct I as (A & _ & _ & N & _). unfold els in *. destruct (rb_root t) as [| |r]; cbn in N; try congruence. exists r. split; [reflexivity|]. split; [reflexivity|]. intros ->. cbn in N. congruence.
Qed.
Lemma update_ok s sp now : MInv s sp -> ts_moved sp = None -> exists s', ev_update s now = Ok s' /\ MInv s' (sp_step add_from_now sp (EUpdate now)) /\ m_queue s' = m_queue s.
Proof.
  intros M MV. pose proof (tree_now s sp M MV) as TO. destruct M as (ND & V & NW & MV' & dl0 & D & _). unfold ev_update. destruct (Nat.eqb_spec (rb_count (m_tree s)) 0) as [C|C].
  - eexists. split; [reflexivity|]. split; [|reflexivity]. pose proof (empty_count _ _ _ _ TO C) as F. unfold MInv. cbn [sp_step m_queue m_ev m_tree ts ts_new ts_moved]. split; [exact ND|]. split; [|split; [exact NW|split; [exact MV'|]]].
    + rewrite <- V, map_map. apply map_ext_in. intros x X. cbn [view t_finite]. destruct (e_infinite (m_ev s x)) eqn:EI; [reflexivity|].
      assert (Y : In x (filter (fin (m_ev s)) (m_queue s))) by (apply filter_In; unfold fin; rewrite EI; auto). rewrite F in Y. destruct Y.
    + exists (deadlines (m_ev s)). split; [reflexivity|exact TO].
  - destruct (count_root _ _ _ _ TO C) as (r & Er & EL & _). rewrite Er. eexists. split; [reflexivity|]. split; [|reflexivity]. pose proof TO as (I & R & H).
    assert (X : forall x, existsb (Nat.eqb x) (expired_in (deadlines (m_ev s)) now r) = true <-> In x (filter (fin (m_ev s)) (m_queue s)) /\ sec (e_abs (m_ev s x)) <= sec now).
    { intros x. rewrite existsb_exists. rewrite <- (refines_keys _ _ R x), EL. change (e_abs (m_ev s x)) with (deadlines (m_ev s) x).
      rewrite <- expired_spec; [|rewrite <- EL; apply I|rewrite <- EL; apply (data_key _ _ R)]. split; [intros (y & Y & ->%Nat.eqb_eq); exact Y|intros Y; exists x; split; [exact Y|apply Nat.eqb_refl]]. }
    unfold MInv. cbn [sp_step m_queue m_ev m_tree ts ts_new ts_moved]. split; [exact ND|]. split; [|split; [|split; [exact MV'|]]].
    + rewrite <- V, map_map. apply map_ext_in. intros x IX. specialize (X x). cbn [view t_finite t_deadline t_id t_timeout]. unfold view at 1. destruct (existsb _ _).
      * destruct (proj1 X eq_refl) as (F & L). apply filter_In in F as (_ & F). unfold fin in F. cbn [set_expired e_abs e_timeout e_infinite e_expired]. rewrite F. cbn [andb]. destruct (Z.leb_spec (sec (e_abs (m_ev s x))) (sec now)); [reflexivity|lia].
      * destruct (negb (e_infinite (m_ev s x))) eqn:F; [|unfold view; rewrite F; reflexivity]. cbn [andb]. destruct (Z.leb_spec (sec (e_abs (m_ev s x))) (sec now)); [|unfold view; rewrite F; reflexivity].
        exfalso. assert (false = true) by (apply X; split; [apply filter_In; auto|assumption]). discriminate.
    + intros x IX. destruct (NW x IX) as (N1 & N2 & N3 & N4). specialize (X x). destruct (existsb _ _); [|auto]. destruct (proj1 X eq_refl) as (F & _). apply filter_In in F as (F & _). contradiction.
    + exists (deadlines (m_ev s)). split.
      * intros x _ _. unfold deadlines. destruct (existsb _ _); reflexivity.
      * eapply tree_ok_ev; [|exact TO]. intros x _. unfold fin. destruct (existsb _ _); reflexivity.
Qed.
Lemma fire_loop_ok : forall q s sp fired, MInv s sp -> ts_moved sp = None -> NoDup q -> (forall x, In x q -> In x (m_queue s)) ->
  exists s', fire_loop q s fired = Ok (s', fired ++ filter (fun e => e_expired (m_ev s e)) q) /\ m_ev s' = m_ev s /\
    MInv s' (mkTimers (filter (fun t => negb (t_due t && existsb (Nat.eqb (t_id t)) q)) (ts sp)) (ts_new sp) None).
Proof.
  induction q as [|e q IH]; intros s sp fired M MV ND SUB.
  - exists s. cbn [fire_loop filter]. rewrite app_nil_r. split; [reflexivity|]. split; [reflexivity|]. destruct sp as [l nw mv]. cbn [ts ts_new ts_moved] in *. subst mv.
    replace (filter _ l) with l; [exact M|]. symmetry. clear. induction l as [|t l IH]; [reflexivity|]. cbn [filter existsb]. rewrite andb_false_r. cbn [negb]. f_equal. exact IH.
  - inversion ND as [|? ? NX ND']; subst. cbn [fire_loop filter]. destruct (e_expired (m_ev s e)) eqn:EX.
    + destruct (unregister_ok s sp e M) as (s1 & E1 & M1 & V1 & Q1); [apply (registered_queue s sp e M); apply SUB; left; reflexivity|]. rewrite E1. cbn [obind].
      destruct (IH s1 _ (fired ++ [e]) M1) as (s' & E & V & M'); [cbn [sp_step ts_moved]; rewrite MV; reflexivity|exact ND'|intros x X; rewrite Q1; apply filter_In; split; [apply SUB; right; exact X|apply negb_true_iff, Nat.eqb_neq; congruence]|].
      exists s'. split; [rewrite E, V1, <- app_assoc; reflexivity|]. split; [congruence|]. cbn [sp_step ts ts_new] in M'. rewrite filter_comm in M'. destruct M as (_ & VW & _).
      rewrite (filter_ext_in _ (fun t => negb (t_due t && existsb (Nat.eqb (t_id t)) q) && negb (t_id t =? e)%nat)); [exact M'|].
      intros t T. rewrite <- VW in T. apply in_map_iff in T as (x & <- & X). cbn [view t_due t_id existsb]. destruct (Nat.eqb_spec x e) as [->|NE]; [rewrite EX; cbn [orb negb andb]; rewrite andb_false_r; reflexivity|cbn [orb negb]; rewrite andb_true_r; reflexivity].
    + destruct (IH s sp fired M MV ND') as (s' & E & V & M'); [intros x X; apply SUB; right; exact X|]. exists s'. split; [exact E|]. split; [exact V|]. destruct M as (_ & VW & _).
      rewrite (filter_ext_in _ (fun t => negb (t_due t && existsb (Nat.eqb (t_id t)) q))); [exact M'|].
      intros t T. rewrite <- VW in T. apply in_map_iff in T as (x & <- & X). cbn [view t_due t_id existsb]. destruct (Nat.eqb_spec x e) as [->|NE]; [rewrite EX; reflexivity|reflexivity].
Qed.
Lemma fire_ok s sp : MInv s sp -> ts_moved sp = None ->
  exists s', ev_fire s = Ok (s', map t_id (filter t_due (ts sp))) /\ MInv s' (sp_step add_from_now sp EFire).
Proof.
  intros M MV. destruct (fire_loop_ok (m_queue s) s sp [] M MV) as (s' & E & V & M'); [apply M|auto|]. exists s'. unfold ev_fire. rewrite E. cbn [app]. pose proof M as (_ & VW & _). split.
  - do 2 f_equal. rewrite <- VW. clear. induction (m_queue s) as [|x q IH]; [reflexivity|]. cbn [map filter view t_due]. destruct (e_expired (m_ev s x)); cbn [map t_id view]; congruence.
  - cbn [sp_step]. rewrite MV. rewrite (filter_ext_in _ (fun t => negb (t_due t && existsb (Nat.eqb (t_id t)) (m_queue s)))); [exact M'|].
    intros t T. rewrite <- VW in T. apply in_map_iff in T as (x & <- & X). cbn [view t_due t_id]. replace (existsb (Nat.eqb x) (m_queue s)) with true; [rewrite andb_true_r; reflexivity|].
    symmetry. apply existsb_exists. exists x. split; [exact X|apply Nat.eqb_refl].
Qed.

Lemma ev_step_ok s sp o : MInv s sp -> ev_legal s sp o -> exists s', ev_step s o = Ok s' /\ MInv s' (sp_step add_from_now sp o).
Proof.
  intros M L. destruct o as [e|e md tmo inf inh now a|e|e now|now|]; cbn [ev_step].
  - eexists. split; [reflexivity|]. apply init_ok; assumption.
  - apply register_ok; assumption.
  - destruct (unregister_ok s sp e M L) as (s' & E & M' & _). eauto.
  - eexists. split; [reflexivity|]. apply restart_ok; assumption.
  - destruct (update_ok s sp now M L) as (s' & E & M' & _). eauto.
  - destruct (fire_ok s sp M L) as (s' & E & M'). rewrite E. eexists. split; [reflexivity|]. exact M'.
Qed.
Lemma ev_run_ok : forall os s sp, MInv s sp -> normal_timers sp -> Forall op_normal os -> ev_all_legal s sp os ->
  exists s', ev_run s os = Ok s' /\ MInv s' (fold_left (sp_step later) os sp) /\ normal_timers (fold_left (sp_step later) os sp).
Proof.
  induction os as [|o os IH]; intros s sp M N O L; [exists s; auto|]. destruct L as (L & K). inversion O as [|? ? O1 O2]; subst. destruct (ev_step_ok s sp o M L) as (s1 & E & M1). cbn [ev_run fold_left]. rewrite E. cbn [obind].
  rewrite (sp_step_later sp o s N O1) in M1; [|rewrite (ids_queue s sp M); apply M|exact L]. apply IH; [exact M1|eapply normal_step; eassumption|exact O2|apply K; exact E].
Qed.
Lemma mgr_init_ok f hs : MInv (mgr_init f hs) sp_init.
Proof.
  unfold MInv, mgr_init, sp_init. cbn [m_queue m_ev m_tree ts ts_new ts_moved]. split; [constructor|]. split; [reflexivity|]. split; [intros e []|]. split; [discriminate|].
  exists (fun _ => mkTv 0 0). split; [intros x []|]. split; [apply init_inv|]. split; [exact (proj2 (init_inv nat nat (event_cmp (fun _ => mkTv 0 0)) hs))|]. intros x [].
Qed.

(** ** The nearest timer *)
Lemma leftmost_head : forall l p, match l with E => leftmost l p = pl_data p | T _ _ _ _ _ => exists n r, el nat nat l = n :: r /\ leftmost l p = pl_data (snd n) end.
Proof.
  induction l as [|c id l IHl p' r _]; intros p; [reflexivity|]. cbn [leftmost el]. destruct l as [|c2 id2 l2 p2 r2].
  - eexists _, _. split; [reflexivity|reflexivity].
  - destruct (IHl p') as (n & r' & E & L). rewrite E. eexists _, _. split; [reflexivity|exact L].
Qed.
Lemma nearest_ok s sp : MInv s sp -> ts_moved sp = None -> (forall t, In t (ts sp) -> t_finite t = true -> normal (t_deadline t)) ->
  exists r, nearest s = Ok r /\
    match r with
    | None => forall t, In t (ts sp) -> t_finite t = false
    | Some e => exists t, In t (ts sp) /\ t_id t = e /\ t_finite t = true /\ forall u, In u (ts sp) -> t_finite u = true -> micros (t_deadline t) <= micros (t_deadline u)
    end.
Proof.
  intros M MV NORM. pose proof (tree_now s sp M MV) as TO. destruct M as (ND & V & _). unfold nearest. destruct (Nat.eqb_spec (rb_count (m_tree s)) 0) as [C|C].
  - eexists. split; [reflexivity|]. cbn beta iota. pose proof (empty_count _ _ _ _ TO C) as F. intros t T. rewrite <- V in T. apply in_map_iff in T as (x & <- & X). cbn [view t_finite].
    destruct (negb (e_infinite (m_ev s x))) eqn:EI; [|reflexivity]. assert (Y : In x (filter (fin (m_ev s)) (m_queue s))) by (apply filter_In; auto). rewrite F in Y. destruct Y.
  - destruct (count_root _ _ _ _ TO C) as (r & Er & EL & NE). rewrite Er. destruct r as [|c id l p r]; [congruence|]. eexists. split; [reflexivity|]. cbn beta iota.
    destruct TO as (I & R & _).
    assert (HD : exists n rest, Els (m_tree s) = n :: rest /\ leftmost l p = pl_data (snd n)).
    { rewrite EL. cbn [el]. pose proof (leftmost_head l p) as LH. destruct l as [|c2 id2 l2 p2 r2]; [eexists _, _; split; [reflexivity|exact LH]|]. destruct LH as (n & r' & E & L). rewrite E. eexists _, _. split; [reflexivity|exact L]. }
    destruct HD as (n & rest & EN & LM). rewrite LM, (data_key _ _ R n) by (rewrite EN; left; reflexivity).
    assert (KI : In (pl_key (snd n)) (filter (fin (m_ev s)) (m_queue s))) by (apply (refines_keys _ _ R); rewrite EN; left; reflexivity). apply filter_In in KI as (K1 & K2).
    assert (IV : In (view (m_ev s) (pl_key (snd n))) (ts sp)) by (rewrite <- V; apply in_map; exact K1).
    exists (view (m_ev s) (pl_key (snd n))). split; [exact IV|]. split; [reflexivity|]. split; [exact K2|]. intros u U F.
    pose proof (NORM _ IV K2) as N1. pose proof (NORM _ U F) as N2. rewrite <- V in U. apply in_map_iff in U as (x & <- & X). cbn [view t_finite t_deadline] in *.
    assert (KX : In x (map key (Els (m_tree s)))) by (apply (refines_keys _ _ R); apply filter_In; auto). rewrite EN in KX. destruct I as (_ & SO & _). rewrite EN in SO. destruct SO as (SO & _).
    destruct KX as [<-|KX]; [lia|]. apply in_map_iff in KX as (m & <- & KX). apply SO in KX. unfold klt, key_of in KX. exact (cmp_lt (deadlines (m_ev s)) _ _ N1 N2 KX).
Qed.

(** ** The properties *)
(** The timers that are served when the manager looks at the clock at [now]. *)
Definition due_at (now : tv) (t : timer) : bool := t_due t || (t_finite t && (sec (t_deadline t) <=? sec now)).
Lemma served s sp now : MInv s sp -> ts_moved sp = None ->
  exists s1 s2, ev_update s now = Ok s1 /\ ev_fire s1 = Ok (s2, map t_id (filter (due_at now) (ts sp))) /\
    MInv s2 (mkTimers (filter (fun t => negb (due_at now t)) (ts sp)) (ts_new sp) None).
Proof.
  intros M MV. destruct (update_ok s sp now M MV) as (s1 & E1 & M1 & _). destruct (fire_ok s1 _ M1) as (s2 & E2 & M2); [exact MV|]. exists s1, s2. split; [exact E1|].
  cbn [sp_step ts ts_new ts_moved] in E2, M2. rewrite MV in M2.
  assert (X1 : forall l, map t_id (filter t_due (map (fun t => if t_finite t && (sec (t_deadline t) <=? sec now) then mkTimer (t_id t) (t_deadline t) (t_timeout t) (t_finite t) true else t) l)) = map t_id (filter (due_at now) l)).
  { induction l as [|t l IH]; [reflexivity|]. cbn [map filter]. unfold due_at at 1. destruct (t_finite t && (sec (t_deadline t) <=? sec now)) eqn:F.
    - rewrite orb_true_r. cbn [t_due map t_id]. congruence.
    - rewrite orb_false_r. destruct (t_due t); cbn [map]; congruence. }
  assert (X2 : forall l, filter (fun t => negb (t_due t)) (map (fun t => if t_finite t && (sec (t_deadline t) <=? sec now) then mkTimer (t_id t) (t_deadline t) (t_timeout t) (t_finite t) true else t) l) = filter (fun t => negb (due_at now t)) l).
  { induction l as [|t l IH]; [reflexivity|]. cbn [map filter]. unfold due_at at 1. destruct (t_finite t && (sec (t_deadline t) <=? sec now)) eqn:F.
    - rewrite orb_true_r. cbn [t_due negb]. exact IH.
    - rewrite orb_false_r. destruct (t_due t); cbn [negb]; congruence. }
  rewrite X1 in E2. rewrite X2 in M2. auto.
Qed.

Lemma timers_served f hs os : ev_all_legal (mgr_init f hs) sp_init os -> Forall op_normal os ->
  exists s, ev_run (mgr_init f hs) os = Ok s /\
    (ts_moved (sp_run os) = None ->
      (exists r, nearest s = Ok r /\
        match r with
        | None => forall t, In t (ts (sp_run os)) -> t_finite t = false
        | Some e => exists t, In t (ts (sp_run os)) /\ t_id t = e /\ t_finite t = true /\
            forall u, In u (ts (sp_run os)) -> t_finite u = true -> micros (t_deadline t) <= micros (t_deadline u)
        end) /\
      (forall now, exists s1 s2, ev_update s now = Ok s1 /\ ev_fire s1 = Ok (s2, map t_id (filter (due_at now) (ts (sp_run os)))))).
Proof.
  intros L O. destruct (ev_run_ok os _ _ (mgr_init_ok f hs)) as (s & E & M & N); [intros t []|exact O|exact L|]. exists s. split; [exact E|]. intros MV. split.
  - apply nearest_ok; [exact M|exact MV|]. intros t T _. apply N. exact T.
  - intros now. destruct (served s _ now M MV) as (s1 & s2 & E1 & E2 & _). eauto.
Qed.
Lemma due_spec now t : normal now -> normal (t_deadline t) -> t_due t = false ->
  (due_at now t = true -> t_finite t = true /\ micros (t_deadline t) < micros now + 1000000) /\
  (t_finite t = true -> micros (t_deadline t) <= micros now -> due_at now t = true).
Proof.
  unfold due_at, normal, micros. intros N D ->. cbn [orb]. split.
  - intros H. apply andb_true_iff in H as (F & L). split; [exact F|]. lia.
  - intros -> L. cbn [andb]. lia.
Qed.
Lemma sp_normal f hs os : ev_all_legal (mgr_init f hs) sp_init os -> Forall op_normal os -> normal_timers (sp_run os).
Proof. intros L O. destruct (ev_run_ok os _ _ (mgr_init_ok f hs)) as (s & E & M & N); [intros t []|exact O|exact L|]. exact N. Qed.
(** Timers and the seconds they are served at, when no earlier look at the clock has already marked them. *)
Lemma never_more_than_a_second f hs os now : ev_all_legal (mgr_init f hs) sp_init os -> Forall op_normal os -> normal now ->
  ts_moved (sp_run os) = None -> (forall t, In t (ts (sp_run os)) -> t_due t = false) ->
  exists s s1 s2 fired, ev_run (mgr_init f hs) os = Ok s /\ ev_update s now = Ok s1 /\ ev_fire s1 = Ok (s2, fired) /\
    (forall e, In e fired -> exists t, In t (ts (sp_run os)) /\ t_id t = e /\ t_finite t = true /\ micros (t_deadline t) < micros now + 1000000) /\
    (forall t, In t (ts (sp_run os)) -> t_finite t = true -> micros (t_deadline t) <= micros now -> In (t_id t) fired).
Proof.
  intros L O NN MV ND. pose proof (sp_normal f hs os L O) as N. destruct (timers_served f hs os L O) as (s & E & H). destruct (H MV) as (_ & H2). destruct (H2 now) as (s1 & s2 & E1 & E2).
  exists s, s1, s2, (map t_id (filter (due_at now) (ts (sp_run os)))). split; [exact E|]. split; [exact E1|]. split; [exact E2|]. split.
  - intros e I. apply in_map_iff in I as (t & <- & I). apply filter_In in I as (I & D). exists t. split; [exact I|]. split; [reflexivity|]. apply (due_spec now t NN (proj1 (N t I)) (ND t I)). exact D.
  - intros t I F D. apply in_map, filter_In. split; [exact I|]. apply (due_spec now t NN (proj1 (N t I)) (ND t I)); assumption.
Qed.
(** The tree. *)
Definition before_in_time (s : timers) (a b : nat) : Prop :=
  forall t u, In t (ts s) -> In u (ts s) -> t_id t = a -> t_id u = b -> micros (t_deadline t) <= micros (t_deadline u).
Lemma timers_findable f hs os : ev_all_legal (mgr_init f hs) sp_init os -> Forall op_normal os -> ts_moved (sp_run os) = None ->
  exists s, ev_run (mgr_init f hs) os = Ok s /\
    Permutation (map (fun n => pl_data (snd n)) (Els (m_tree s))) (map t_id (filter t_finite (ts (sp_run os)))) /\
    StronglySorted (before_in_time (sp_run os)) (map (fun n => pl_data (snd n)) (Els (m_tree s))) /\
    (forall t, In t (ts (sp_run os)) -> t_finite t = true -> exists a, rb_handles (m_tree s) (t_id t) = Some a /\ In (a, pl (t_id t)) (Els (m_tree s))).
Proof.
  intros L O MV. destruct (ev_run_ok os _ _ (mgr_init_ok f hs)) as (s & E & M & N); [intros t []|exact O|exact L|]. exists s. split; [exact E|]. change (fold_left (sp_step later) os sp_init) with (sp_run os) in *.
  pose proof (tree_now s _ M MV) as TO. destruct TO as (I & R & _). destruct M as (ND & V & _). split; [|split].
  - pose proof (Permutation_map (@pl_data nat nat) R) as P. rewrite !map_map in P. cbn [pl pl_data] in P. rewrite map_id in P. etransitivity; [exact P|]. rewrite <- V. clear.
    induction (m_queue s) as [|x q IH]; [constructor|]. cbn [map filter view t_finite]. unfold fin at 1. destruct (negb (e_infinite (m_ev s x))); [cbn [map t_id view]; constructor; exact IH|exact IH].
  - destruct I as (_ & SO & _). pose proof (data_key _ _ R) as DK. pose proof (refines_keys _ _ R) as RK.
    assert (KI : forall n, In n (Els (m_tree s)) -> In (pl_key (snd n)) (m_queue s)) by (intros n X; apply (in_map key) in X; apply RK in X; apply filter_In in X; apply X). clear R RK.
    induction (Els (m_tree s)) as [|n l IH]; [constructor|]. cbn [map]. destruct SO as (S1 & S2). constructor; [apply IH; [exact S2|intros m X; apply DK; right; exact X|intros m X; apply KI; right; exact X]|].
    apply Forall_map, Forall_forall. intros m X t u T U Et Eu. pose proof (N t T) as (NT & _). pose proof (N u U) as (NU & _). rewrite <- V in T, U. apply in_map_iff in T as (x & <- & T). apply in_map_iff in U as (y & <- & U).
    cbn [view t_id t_deadline] in *. subst x y. rewrite (DK n) in * by (left; reflexivity). rewrite (DK m) in * by (right; exact X). specialize (S1 m X). exact (cmp_lt (deadlines (m_ev s)) _ _ NT NU S1).
  - intros t T F. rewrite <- V in T. apply in_map_iff in T as (x & <- & T). cbn [view t_id t_finite] in *.
    assert (X : In (pl x) (map snd (Els (m_tree s)))) by (apply (Permutation_in _ (Permutation_sym R)); apply in_map; apply filter_In; auto). apply in_map_iff in X as ([a p] & X & Y). cbn [snd] in X. subst p.
    exists a. split; [|exact Y]. destruct I as (_ & _ & _ & _ & HK). exact (HK a (pl x) x Y eq_refl).
Qed.

(** Boolean legality for examples. *)
Definition ev_legalb (s : mgr) (sp : timers) (o : evop) : bool :=
  let reg e := existsb (Nat.eqb e) (map t_id (ts sp)) in
  let moved e := match ts_moved sp with Some x => (x =? e)%nat | None => true end in
  match o with
  | EInit e => negb (reg e)
  | ERegister e md _ _ _ _ a =>
    match (if md then match rb_handles (m_tree s) e with None => Ok (m_tree s) | Some n => rb_delete (m_tree s) n end else Ok (m_tree s)) with
    | Ok t => negb (existsb (Nat.eqb a) (addresses t)) | UB _ => true end &&
    (if md then reg e else existsb (Nat.eqb e) (ts_new sp) && negb (reg e)) && moved e
  | EUnregister e => reg e
  | ERestart e _ => existsb (fun t => (t_id t =? e)%nat && t_finite t) (ts sp) && moved e
  | EUpdate _ | EFire => match ts_moved sp with None => true | Some _ => false end
  end.
Fixpoint ev_all_legalb (s : mgr) (sp : timers) (os : list evop) : bool :=
  match os with
  | [] => true
  | o :: t => ev_legalb s sp o && match ev_step s o with Ok s' => ev_all_legalb s' (sp_step later sp o) t | UB _ => true end
  end.
Lemma eqb_in e l : existsb (Nat.eqb e) l = true <-> In e l.
Proof. rewrite existsb_exists. split; [intros (x & X & ->%Nat.eqb_eq); exact X|intros X; exists e; split; [exact X|apply Nat.eqb_refl]]. Qed.
Lemma eqb_notin e l : negb (existsb (Nat.eqb e) l) = true -> ~ In e l.
Proof. rewrite negb_true_iff. intros H X. apply eqb_in in X. congruence. Qed.
Lemma movedb sp e : match ts_moved sp with Some x => (x =? e)%nat | None => true end = true -> forall x, ts_moved sp = Some x -> x = e.
Proof. intros H x X. rewrite X in H. apply Nat.eqb_eq. exact H. Qed.
Lemma ev_legalb_ok s sp o : ev_legalb s sp o = true -> ev_legal s sp o.
Proof.
  destruct o as [e|e md tmo inf inh now a|e|e now|now|]; cbn [ev_legalb ev_legal]; intros H.
  - apply eqb_notin. exact H.
  - apply andb_true_iff in H as (H & H3). apply andb_true_iff in H as (H1 & H2). split; [|split; [|apply movedb; exact H3]].
    + unfold node_free. destruct (if md then _ else _); [apply eqb_notin; exact H1|exact Logic.I].
    + destruct md; [apply eqb_in; exact H2|]. apply andb_true_iff in H2 as (H2 & H4). split; [apply eqb_in; exact H2|apply eqb_notin; exact H4].
  - apply eqb_in. exact H.
  - apply andb_true_iff in H as (H1 & H2). split; [|apply movedb; exact H2]. apply existsb_exists in H1 as (t & T & B). apply andb_true_iff in B as (B1 & B2). apply Nat.eqb_eq in B1. eauto.
  - destruct (ts_moved sp); [discriminate|reflexivity].
  - destruct (ts_moved sp); [discriminate|reflexivity].
Qed.
Lemma ev_all_legalb_ok : forall os s sp, ev_all_legalb s sp os = true -> ev_all_legal s sp os.
Proof.
  induction os as [|o os IH]; intros s sp H; [exact Logic.I|]. cbn [ev_all_legalb ev_all_legal] in *. apply andb_true_iff in H as (H1 & H2). split; [apply ev_legalb_ok; exact H1|].
  intros s' E. rewrite E in H2. apply IH. exact H2.
Qed.
Definition op_normalb (o : evop) : bool :=
  let nb t := (0 <=? usec t) && (usec t <? 1000000) in
  match o with
  | ERegister _ _ tmo inf _ now _ => nb now && (inf || nb tmo)
  | ERestart _ now => nb now
  | EUpdate now => nb now
  | _ => true
  end.
Lemma op_normalb_ok os : forallb op_normalb os = true -> Forall op_normal os.
Proof.
  intros H. apply Forall_forall. intros o I. rewrite forallb_forall in H. specialize (H o I). destruct o as [e|e md tmo inf inh now a|e|e now|now|]; cbn [op_normalb op_normal] in *; unfold normal; try exact Logic.I; [|lia|lia].
  split; [lia|]. intros ->. cbn [orb] in H. lia.
Qed.
