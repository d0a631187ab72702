(** Model of the dependencies between HTTP/2 streams: PRIORITY frames, src/v2.c:1906-1929, __fly_hv2_priority_deps_add, 1013-1035,
    fly_hv2_priority_rebalance, 1037-1059; of how streams come and go: 278-316, 335-371, 376-425 (line 424), 1525-1539, 1755-1760.

    Nothing else reads what is kept here (deps, dnext, weight): the order of the responses does not depend on it.  Simplified: streams
    get ids in increasing order (338), so that an id stands for the memory of its stream; no limit of concurrent streams (the default,
    342).  The frames' other effects are in H2Conn.v; a connection error does not keep the payload from being looked at. *)
From Verif Require Import Base.
Local Open Scope N_scope.

(** The part of struct fly_hv2_stream, v2.h:169-203, about dependencies; the pointers are ids.  dprev is written but never read. *)
Record node := mkNode { d_weight : N; d_count : nat; d_deps : N; d_next : N }.
Definition mem := N -> option node.
Definition set (m : mem) (x : N) (v : node) : mem := fun y => if y =? x then Some v else m y.
Definition del (m : mem) (x : N) : mem := fun y => if y =? x then None else m y.
Definition deref (m : mem) (x : N) : outcome node := match m x with Some v => Ok v | None => UB UseAfterFree end.
(** Assignments through a pointer. *)
Definition put_next (m : mem) (x y : N) : outcome mem := obind (deref m x) (fun v => Ok (set m x (mkNode (d_weight v) (d_count v) (d_deps v) y))).
Definition put_deps (m : mem) (x y : N) : outcome mem := obind (deref m x) (fun v => Ok (set m x (mkNode (d_weight v) (d_count v) y (d_next v)))).
Definition put_count (m : mem) (x : N) (k : nat) : outcome mem := obind (deref m x) (fun v => Ok (set m x (mkNode (d_weight v) k (d_deps v) (d_next v)))).
Definition put_weight (m : mem) (x w : N) : outcome mem := obind (deref m x) (fun v => Ok (set m x (mkNode w (d_count v) (d_deps v) (d_next v)))).
(** src->dep_count++. *)
Definition inc_count (m : mem) (x : N) : outcome mem := obind (deref m x) (fun v => put_count m x (S (d_count v))).

(** __fly_hv2_create_stream, v2.c:278-316; FLY_HV2_STREAM_DEFAULT_WEIGHT is 16 (v2.h). *)
Definition fresh_node (x : N) : node := mkNode 16 0 x x.

(** The loop of __fly_hv2_priority_deps_add, v2.c:1016-1034, at [n]; [fuel] bounds the turns. *)
Fixpoint add_loop (fuel : nat) (m : mem) (dist src n : N) : outcome mem :=
  match fuel with
  | O => UB Diverges
  | S fuel =>
    obind (deref m n) (fun vn =>
    obind (deref m dist) (fun vd =>
    if d_next vn =? d_deps vd then
      obind (put_next m n src) (fun m =>
      obind (deref m dist) (fun vd => obind (put_next m src (d_deps vd)) (fun m => inc_count m src)))
    else
      obind (deref m src) (fun vs =>
      if d_weight vn <? d_weight vs then
        obind (deref m (d_next vn)) (fun _ =>
        obind (put_next m src (d_next vn)) (fun m =>
        obind (if n =? d_deps vd then put_deps m dist src else put_next m n src) (fun m => inc_count m src)))
      else add_loop fuel m dist src (d_next vn))))
  end.
Definition deps_add (fuel : nat) (m : mem) (dist src : N) : outcome mem :=
  obind (deref m dist) (fun vd => add_loop fuel m dist src (d_deps vd)).

(** fly_hv2_priority_rebalance, v2.c:1037-1059: the stream [dep] is looked up (1525-1539; the root stream is always there); if there is
    none __p is NULL. *)
Definition rebalance (fuel : nat) (m : mem) (s dep : N) (excl : bool) : outcome mem :=
  match m dep with
  | None => UB NullDeref
  | Some vp =>
    if excl then
      obind (if Nat.eqb (d_count vp) 0 then Ok m else deps_add fuel m dep s) (fun m =>
      obind (put_deps m dep s) (fun m => put_count m dep 1))
    else if Nat.eqb (d_count vp) 0 then
      obind (put_deps m dep s) (fun m =>
      obind (deref m dep) (fun vp => obind (put_next m s (d_deps vp)) (fun m => put_count m dep 1)))
    else deps_add fuel m dep s
  end.

(** fly_hv2_weight, v2.c:997-1010, assigned to an uint8_t (v2.c:1917-1921). *)
Definition weight_of (byte : N) : N := (byte + 1) mod 256.

(** The streams, and max_sid. *)
Record st := mkSt { s_mem : mem; s_max : N }.
Definition start : st := mkSt (set (fun _ => None) 0 (fresh_node 0)) 0.
(** The stream a frame belongs to, v2.c:1755-1760, and fly_hv2_create_stream, v2.c:335-371; [None]: the frame is not looked at. *)
Definition stream_for (x : N) (s : st) : option st :=
  match s_mem s x with
  | Some _ => Some s
  | None => if (x <=? s_max s) || N.even x then None else Some (mkSt (set (s_mem s) x (fresh_node x)) x)
  end.
(** [Prio x excl dep w]: a PRIORITY frame on the stream [x].  [Other x]: another frame.  [Close x]: the stream's response is complete
    (v2.c:5329): its memory is freed, no pointer to it is changed. *)
Inductive ev := Prio (x : N) (excl : bool) (dep byte : N) | Other (x : N) | Close (x : N).
Definition step (fuel : nat) (s : st) (e : ev) : outcome st :=
  match e with
  | Prio x excl dep byte =>
    match stream_for x s with
    | None => Ok s
    | Some s => obind (put_weight (s_mem s) x (weight_of byte)) (fun m => obind (rebalance fuel m x dep excl) (fun m => Ok (mkSt m (s_max s))))
    end
  | Other x => Ok match stream_for x s with None => s | Some s => s end
  | Close x => Ok (if x =? 0 then s else mkSt (del (s_mem s) x) (s_max s))
  end.
Fixpoint run (fuel : nat) (s : st) (es : list ev) : outcome st :=
  match es with
  | [] => Ok s
  | e :: t => obind (step fuel s e) (fun s => run fuel s t)
  end.
