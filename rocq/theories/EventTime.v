(** Timers of the event manager: src/event.c and src/event.h.

    Only monitorable events are considered (regular files and directories have no timer).  The address of an event is a
    number; &event->rbnode is the handle variable of the same number, event->rbtree_elem is ordered like the event. *)
From Verif Require Import Base RbTree.
Local Open Scope Z_scope.

(** struct timeval. *)
Record tv := mkTv { sec : Z; usec : Z }.
(** Conversion of a long to int (modulo 2^32, gcc). *)
Definition to_int (z : Z) : Z := (z + 2147483648) mod 4294967296 - 2147483648.
(** int subtraction. *)
Definition int_sub (a b : Z) : outcome Z :=
  if (-2147483648 <=? a - b) && (a - b <=? 2147483647) then Ok (a - b) else UB SignedOverflow.

(** ** Time arithmetic (64-bit arithmetic is not bounded in the model) *)
(** __fly_add_time_from_now, event.c:245-256; [now] is the result of gettimeofday. *)
Definition add_from_now (now t : tv) : tv :=
  let s := sec now + sec t in
  let u := usec now + usec t in
  if 1000000 <=? u then mkTv (s + 1) (u - 1000000) else mkTv s u.
(** fly_sub_time, event.c:640-650; fly_sub_time_from_base, 652-662, is the same with another destination. *)
Definition sub_time (a b : tv) : outcome tv :=
  obind (int_sub (to_int (sec a)) (to_int (sec b))) (fun s =>
    let u := usec a - usec b in
    Ok (if u <? 0 then mkTv (s - 1) (u + 1000000) else mkTv s u)).
(** fly_cmp_time, event.c:560-577. *)
Definition cmp_time (a b : tv) : outcome Z :=
  obind (int_sub (to_int (sec a)) (to_int (sec b))) (fun ds =>
    Ok (if 0 <? ds then 1 else if ds <? 0 then -1
        else let du := usec a - usec b in if 0 <? du then 1 else if du <? 0 then -1 else 0)).
(** fly_sec, event.c:588-593. *)
Definition fly_sec (s : Z) : tv := mkTv s 0.
(** fly_msec, event.c:594-599. *)
Definition fly_msec (ms : Z) : tv := mkTv (Z.quot ms 1000) (1000 * Z.rem ms 1000).
(** fly_minus_time, event.c:601-604. *)
Definition minus_time (t : tv) : bool := to_int (sec t) <? 0.
(** fly_milli_diff_time_from_now, event.c:733-745. *)
Definition milli_diff (t now : tv) : Z :=
  to_int (to_int (1000 * (sec t - sec now)) + Z.quot (usec t - usec now) 1000).
(** The timeout given to epoll_wait, event.c:852-866: -1 without timer. *)
Definition poll_timeout (nearest : option tv) (now : tv) : Z :=
  match nearest with
  | None => -1
  | Some t => let m := milli_diff t now in if m <? 0 then 0 else m
  end.

(** ** The timers *)
(** struct fly_event, event.h:103-190: the fields used here. *)
Record event := mkEvent { e_timeout : tv; e_abs : tv; e_infinite : bool; e_inherit : bool; e_expired : bool }.
(** struct fly_event_manager: the events, the queue "monitorable" in order and the tree. *)
Record mgr := mkMgr { m_ev : nat -> event; m_queue : list nat; m_tree : rbstate nat nat }.
Definition set_ev (f : nat -> event) (e : nat) (v : event) : nat -> event := fun x => if (x =? e)%nat then v else f x.
(** __fly_event_cmp, event.c:89-125, for the current deadlines. *)
Definition event_cmp (dl : nat -> tv) (a b : nat) : comparison :=
  match sec (dl a) ?= sec (dl b) with
  | Eq => match usec (dl a) ?= usec (dl b) with Eq => Nat.compare a b | c => c end
  | c => c
  end.
Definition deadlines (f : nat -> event) (x : nat) : tv := e_abs (f x).
(** fly_event_manager_init, event.c:43-81. *)
Definition mgr_init (f : nat -> event) (hs : nat -> option nat) : mgr := mkMgr f [] (rb_init hs).
(** fly_event_init, event.c:188-243, and the setting of the timeout. *)
Definition ev_init (s : mgr) (e : nat) : mgr :=
  let t := m_tree s in
  mkMgr (set_ev (m_ev s) e (mkEvent (mkTv (-1) (-1)) (mkTv 0 0) false false false)) (m_queue s)
        (mkRb (rb_root t) (rb_count t) (set_handle (Some e) None (rb_handles t))).
(** fly_event_register, event.c:299-417, with the fields timeout and tflag as set by the caller before the call.
    [modify] is the flag FLY_MODIFY; [a] is the address of the memory allocated for the tree node. *)
Definition set_abs (v : event) (t : tv) : event := mkEvent (e_timeout v) t (e_infinite v) (e_inherit v) (e_expired v).
Definition ev_register (s : mgr) (e : nat) (modify : bool) (timeout : tv) (infinite inherit : bool) (now : tv) (a : nat) : outcome mgr :=
  let v := mkEvent timeout (e_abs (m_ev s e)) infinite inherit (e_expired (m_ev s e)) in
  if negb modify then
    let v' := if negb infinite then set_abs v (add_from_now now timeout) else v in
    let f := set_ev (m_ev s) e v' in
    obind (if negb infinite then rb_step (event_cmp (deadlines f)) (m_tree s) (OInsert a e e (Some e)) else Ok (m_tree s)) (fun t =>
      Ok (mkMgr f (m_queue s ++ [e]) t))
  else
    obind (match rb_handles (m_tree s) e with None => Ok (m_tree s) | Some n => rb_delete (m_tree s) n end) (fun t1 =>
      let v' := if negb infinite && negb inherit then set_abs v (add_from_now now timeout) else v in
      let f := set_ev (m_ev s) e v' in
      obind (if negb infinite then rb_step (event_cmp (deadlines f)) t1 (OInsert a e e (Some e)) else Ok t1) (fun t =>
        Ok (mkMgr f (m_queue s) t))).
(** fly_event_unregister, event.c:475-558; epoll_ctl succeeds.  The event is freed. *)
Definition ev_unregister (s : mgr) (e : nat) : outcome mgr :=
  obind (match rb_handles (m_tree s) e with None => Ok (m_tree s) | Some n => rb_delete (m_tree s) n end) (fun t =>
    Ok (mkMgr (m_ev s) (filter (fun x => negb (x =? e)%nat) (m_queue s)) t)).
(** fly_timeout_restart, event.c:579-586: the key is changed while it is in the tree. *)
Definition ev_restart (s : mgr) (e : nat) (now : tv) : mgr :=
  mkMgr (set_ev (m_ev s) e (set_abs (m_ev s e) (add_from_now now (e_timeout (m_ev s e))))) (m_queue s) (m_tree s).
(** __fly_nearest_event, event.c:606-618. *)
Fixpoint leftmost (l : tree nat nat) (p : payload nat nat) : nat :=
  match l with E => pl_data p | T _ _ l' p' _ => leftmost l' p' end.
Definition nearest (s : mgr) : outcome (option nat) :=
  if (rb_count (m_tree s) =? 0)%nat then Ok None
  else match rb_root (m_tree s) with
  | RNode (T _ _ l p _) => Ok (Some (leftmost l p))
  | RNode E => UB NullDeref
  | RNull => UB NullDeref
  | RFreed => UB UseAfterFree
  end.
(** __fly_expired_from_rbtree, event.c:676-708: the events it marks. *)
Fixpoint expired_in (dl : nat -> tv) (now : tv) (t : tree nat nat) : list nat :=
  match t with
  | E => []
  | T _ _ l p r =>
    if sec now <? sec (dl (pl_key p)) then expired_in dl now l
    else pl_data p :: expired_in dl now l ++ expired_in dl now r
  end.
(** __fly_update_event_timeout, event.c:710-731. *)
Definition set_expired (v : event) : event := mkEvent (e_timeout v) (e_abs v) (e_infinite v) (e_inherit v) true.
Definition ev_update (s : mgr) (now : tv) : outcome mgr :=
  if (rb_count (m_tree s) =? 0)%nat then Ok s
  else match rb_root (m_tree s) with
  | RNode t => Ok (mkMgr (fun x => if existsb (Nat.eqb x) (expired_in (deadlines (m_ev s)) now t) then set_expired (m_ev s x) else m_ev s x) (m_queue s) (m_tree s))
  | RNull => UB NullDeref
  | RFreed => UB UseAfterFree
  end.
(** __fly_expired_event, event.c:620-638, with the events whose expired handler is called (finite timers have one; the
    effect of the handler itself is not modelled). *)
Fixpoint fire_loop (q : list nat) (s : mgr) (fired : list nat) : outcome (mgr * list nat) :=
  match q with
  | [] => Ok (s, fired)
  | e :: q' => if e_expired (m_ev s e) then obind (ev_unregister s e) (fun s' => fire_loop q' s' (fired ++ [e]))
               else fire_loop q' s fired
  end.
Definition ev_fire (s : mgr) : outcome (mgr * list nat) := fire_loop (m_queue s) s [].

(** What the callers do. *)
Inductive evop :=
| EInit (e : nat)
| ERegister (e : nat) (modify : bool) (timeout : tv) (infinite inherit : bool) (now : tv) (a : nat)
| EUnregister (e : nat)
| ERestart (e : nat) (now : tv)
| EUpdate (now : tv)
| EFire.
Definition ev_step (s : mgr) (o : evop) : outcome mgr :=
  match o with
  | EInit e => Ok (ev_init s e)
  | ERegister e md t i h now a => ev_register s e md t i h now a
  | EUnregister e => ev_unregister s e
  | ERestart e now => Ok (ev_restart s e now)
  | EUpdate now => ev_update s now
  | EFire => obind (ev_fire s) (fun r => Ok (fst r))
  end.
Fixpoint ev_run (s : mgr) (os : list evop) : outcome mgr :=
  match os with [] => Ok s | o :: t => obind (ev_step s o) (fun s' => ev_run s' t) end.
