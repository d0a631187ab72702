(** Model of src/bllist.h and src/queue.h: intrusive circular doubly linked lists and queues.

    The memory of the link fields: an address is a [nat]; [nx]/[pv] are the fields next/prev of
    struct fly_bllist (bllist.h:4-7) and struct fly_queue (queue.h:11-16), [cnt]/[hd] the fields
    count/head of struct fly_queue.  Assignments are performed one after the other as in the
    source; the container an element is embedded in (fly_container_of) is not modelled. *)
From Coq Require Import ZArith.
From Verif Require Import Base.

Record lmem := mkLmem { nx : nat -> nat; pv : nat -> nat; cnt : nat -> Z; hd : nat -> nat }.
Definition set {A} (f : nat -> A) (a : nat) (v : A) : nat -> A := fun x => if x =? a then v else f x.
Definition set_nx m a v := mkLmem (set (nx m) a v) (pv m) (cnt m) (hd m).
Definition set_pv m a v := mkLmem (nx m) (set (pv m) a v) (cnt m) (hd m).
Definition set_cnt m a v := mkLmem (nx m) (pv m) (set (cnt m) a v) (hd m).
Definition set_hd m a v := mkLmem (nx m) (pv m) (cnt m) (set (hd m) a v).

(** fly_bllist_init, bllist.h:9-13. *)
Definition bl_init (m : lmem) (b : nat) : lmem := set_pv (set_nx m b b) b b.
(** fly_bllist_add_tail, bllist.h:15-21. *)
Definition bl_add_tail (m : lmem) (h n : nat) : lmem :=
  let m := set_pv m n (pv m h) in
  let m := set_nx m n h in
  let m := set_nx m (pv m h) n in
  set_pv m h n.
(** fly_bllist_add_head, bllist.h:23-29. *)
Definition bl_add_head (m : lmem) (h n : nat) : lmem :=
  let m := set_pv m n h in
  let m := set_nx m n (nx m h) in
  let m := set_pv m (nx m h) n in
  set_nx m h n.
(** fly_bllist_remove, bllist.h:31-35. *)
Definition bl_remove (m : lmem) (n : nat) : lmem :=
  let m := set_nx m (pv m n) (nx m n) in
  set_pv m (nx m n) (pv m n).
(** fly_for_each_bllist (bllist.h:40-41) / fly_for_each_queue (queue.h:119-120): the elements
    visited; None when the loop does not end within [fuel] iterations. *)
Fixpoint for_each (fuel : nat) (m : lmem) (start cur : nat) : option (list nat) :=
  if cur =? start then Some []
  else match fuel with
       | 0 => None
       | S fuel' => match for_each fuel' m start (nx m cur) with Some t => Some (cur :: t) | None => None end
       end.
Definition forwards fuel m h := for_each fuel m h (nx m h).
(** The same loop following prev (v2.c walks some queues backwards). *)
Fixpoint for_each_prev (fuel : nat) (m : lmem) (start cur : nat) : option (list nat) :=
  if cur =? start then Some []
  else match fuel with
       | 0 => None
       | S fuel' => match for_each_prev fuel' m start (pv m cur) with Some t => Some (cur :: t) | None => None end
       end.
Definition backwards fuel m h := for_each_prev fuel m h (pv m h).

(** fly_queue_init, queue.h:99-105. *)
Definition q_init (m : lmem) (h : nat) : lmem := set_hd (set_pv (set_nx (set_cnt m h 0%Z) h h) h h) h h.
(** fly_queue_push, queue.h:23-30. *)
Definition q_push (m : lmem) (h n : nat) : lmem :=
  let m := set_pv m n (pv m h) in
  let m := set_nx m n h in
  let m := set_nx m (pv m h) n in
  let m := set_pv m h n in
  let m := set_cnt m h (cnt m h + 1)%Z in
  set_hd m n h.
(** fly_queue_pop, queue.h:32-40: the removed element is returned. *)
Definition q_pop (m : lmem) (h : nat) : lmem * nat :=
  let l := pv m h in
  let m := set_nx m (pv m l) (nx m l) in
  let m := set_pv m (nx m l) (pv m l) in
  let m := set_cnt m h (cnt m h - 1)%Z in
  (m, l).
(** fly_queue_remove, queue.h:92-97. *)
Definition q_remove (m : lmem) (x : nat) : lmem :=
  let m := set_pv m (nx m x) (pv m x) in
  let m := set_nx m (pv m x) (nx m x) in
  set_cnt m (hd m x) (cnt m (hd m x) - 1)%Z.
(** fly_queue_last, queue.h:42-45; fly_is_queue_empty, queue.h:114-117; fly_queue_count, 18-21. *)
Definition q_last (m : lmem) (h : nat) : nat := pv m h.
Definition q_is_empty (m : lmem) (h : nat) : bool := nx m h =? h.
Definition q_count (m : lmem) (h : nat) : Z := cnt m h.

Inductive lop :=
| LAddTail (h n : nat) | LAddHead (h n : nat) | LRemove (n : nat)
| QPush (h n : nat) | QPop (h : nat) | QRemove (n : nat).
Definition lstep (m : lmem) (o : lop) : lmem :=
  match o with
  | LAddTail h n => bl_add_tail m h n
  | LAddHead h n => bl_add_head m h n
  | LRemove n => bl_remove m n
  | QPush h n => q_push m h n
  | QPop h => fst (q_pop m h)
  | QRemove n => q_remove m n
  end.
Definition lrun (m : lmem) (os : list lop) : lmem := fold_left lstep os m.
