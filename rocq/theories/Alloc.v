(** Model of src/alloc.c: memory pools.

    [w_live] is the set of blocks obtained from malloc and not yet freed, as far as pools are
    concerned (block descriptors and their payloads); free of anything else is undefined
    behaviour.  malloc is an oracle: the addresses it returns are operands of the operations (a
    failing malloc ends the process, alloc.c:38-43).  The list pool->blocks is a sequence (justified
    by C04); the index pool->rbtree is the model of RbTree.v.  Not tracked: the memory of the
    index's own nodes and of the pool structs, and the sizes. *)
From Verif Require Import Base RbTree.

(** struct fly_pool_block, alloc.h:44-49: descriptor address and entry. *)
Record block := mkBlock { bk_addr : nat; bk_entry : nat }.
(** struct fly_pool, alloc.h:58-70. *)
Record pool := mkPool { po_id : nat; po_blocks : list block; po_tree : rbstate nat nat; po_size : nat; po_self_delete : bool }.
(** struct fly_pool_manager, alloc.h:51-54, with the heap. *)
Record world := mkWorld { w_live : list nat; w_pools : list pool; w_total : nat }.
(** fly_pool_manager_init, alloc.c:102-113. *)
Definition manager_init : world := mkWorld [] [] 0.

Definition remove_addr (a : nat) (l : list nat) : list nat := filter (fun x => negb (x =? a)) l.
(** free(3), __fly_free alloc.c:47-51. *)
Definition hfree (live : list nat) (a : nat) : outcome (list nat) :=
  if existsb (Nat.eqb a) live then Ok (remove_addr a live) else UB UseAfterFree.

Definition no_handles : nat -> option nat := fun _ => None.
(** __fly_create_pool, alloc.c:137-152 (the flag is set by context.c:15, 22 right after creation). *)
Definition create_pool (w : world) (pid : nat) (sd : bool) : world :=
  mkWorld (w_live w) (w_pools w ++ [mkPool pid [] (rb_init no_handles) 0 sd]) (S (w_total w)).

(** __fly_palloc, alloc.c:73-100: [b] and [e] are the addresses malloc returned for the descriptor
    and the memory, [r] the one for the index node.  The entry is the result. *)
Definition palloc (live : list nat) (p : pool) (b e r : nat) : outcome (list nat * pool) :=
  obind (rb_insert Nat.compare (po_tree p) r e b None) (fun '(t, _) =>
  Ok (e :: b :: live, mkPool (po_id p) (po_blocks p ++ [mkBlock b e]) t (S (po_size p)) (po_self_delete p))).

(** fly_pbfree, alloc.c:161-183. *)
Definition pbfree (live : list nat) (p : pool) (ptr : nat) : outcome (list nat * pool) :=
  if (po_size p =? 0) || (rb_count (po_tree p) =? 0) then Ok (live, p)
  else obind (rb_lookup Nat.compare (po_tree p) ptr) (fun r =>
  match r with
  | None => Ok (live, p)
  | Some (dn, pl) =>
    let db := pl_data pl in
    match List.find (fun bk => bk_addr bk =? db) (po_blocks p) with
    | None => UB UseAfterFree
    | Some bk =>
      let blocks := filter (fun bk => negb (bk_addr bk =? db)) (po_blocks p) in
      obind (rb_delete (po_tree p) dn) (fun t =>
      obind (hfree live (bk_entry bk)) (fun live =>
      obind (hfree live db) (fun live =>
      Ok (live, mkPool (po_id p) blocks t (po_size p - 1) (po_self_delete p)))))
    end
  end).

(** The loop of fly_delete_pool, alloc.c:206-213. *)
Fixpoint free_blocks (live : list nat) (bs : list block) : outcome (list nat) :=
  match bs with
  | [] => Ok live
  | bk :: t => obind (hfree live (bk_entry bk)) (fun live => obind (hfree live (bk_addr bk)) (fun live => free_blocks live t))
  end.

Definition find_pool (w : world) (pid : nat) : option pool := List.find (fun p => po_id p =? pid) (w_pools w).
Definition set_pool (ps : list pool) (q : pool) : list pool := map (fun p => if po_id p =? po_id q then q else p) ps.
Definition drop_pool (ps : list pool) (pid : nat) : list pool := filter (fun p => negb (po_id p =? pid)) ps.

(** fly_delete_pool, alloc.c:200-219. *)
Definition delete_pool (w : world) (pid : nat) : outcome world :=
  match find_pool w pid with
  | None => UB UseAfterFree
  | Some p => obind (free_blocks (w_live w) (po_blocks p)) (fun live =>
              Ok (mkWorld live (drop_pool (w_pools w) pid) (w_total w - 1)))
  end.
(** fly_release_all_pool, alloc.c:115-128: the successor is read before the pool is deleted. *)
Fixpoint release_pools (w : world) (ps : list pool) : outcome world :=
  match ps with
  | [] => Ok w
  | p :: t => if po_self_delete p then release_pools w t else obind (delete_pool w (po_id p)) (fun w => release_pools w t)
  end.
Definition release_all (w : world) : outcome world :=
  if w_total w =? 0 then Ok w else release_pools w (w_pools w).

Inductive aop :=
| ACreate (pid : nat) (sd : bool) | AAlloc (pid b e r : nat) | AFree (pid ptr : nat) | ADelete (pid : nat) | AReleaseAll.
Definition on_pool (w : world) (pid : nat) (f : list nat -> pool -> outcome (list nat * pool)) : outcome world :=
  match find_pool w pid with
  | None => UB UseAfterFree
  | Some p => obind (f (w_live w) p) (fun '(live, q) => Ok (mkWorld live (set_pool (w_pools w) q) (w_total w)))
  end.
Definition astep (w : world) (o : aop) : outcome world :=
  match o with
  | ACreate pid sd => Ok (create_pool w pid sd)
  | AAlloc pid b e r => on_pool w pid (fun live p => palloc live p b e r)
  | AFree pid ptr => on_pool w pid (fun live p => pbfree live p ptr)
  | ADelete pid => delete_pool w pid
  | AReleaseAll => release_all w
  end.
Fixpoint arun (w : world) (os : list aop) : outcome world :=
  match os with [] => Ok w | o :: t => obind (astep w o) (fun w => arun w t) end.
