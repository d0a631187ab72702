(** Properties C01-C03: the ordered index.

    [spec_run cmp [] os] is the abstract map after the operations [os]: a list of entries (key,
    value, handle); inserting a present key changes nothing, deletion removes the entries with
    that key / that handle.  [legal] is what the callers must respect: malloc returns unused
    memory, a handle variable registers one element at a time and under an absent key, and only
    registered handles are deleted.  [total_order cmp]: the comparison is a total order. *)
From Coq Require Import Permutation.
From Verif Require Import Base RbTree RbTreeProofs.

(** ** C01.  Every legal run succeeds (no undefined behaviour, the rebalancing loops terminate)
    and leaves an index with exactly the entries of the map: the count is the number of entries,
    keys are unique, and a lookup (on a non-empty index) returns the entry with that key if there
    is one and nothing otherwise. *)
Theorem index_is_map : forall (K V : Type) (cmp : K -> K -> comparison), total_order cmp ->
  forall os hs, legal K V cmp (rb_init hs) [] os ->
  exists s, rb_run cmp (rb_init hs) os = Ok s /\
    rb_count s = length (spec_run K V cmp [] os) /\
    NoDup (map pl_key (spec_run K V cmp [] os)) /\
    (forall k, spec_run K V cmp [] os <> [] -> exists r, rb_lookup cmp s k = Ok r /\
       match r with
       | Some (_, p) => In p (spec_run K V cmp [] os) /\ pl_key p = k
       | None => forall p, In p (spec_run K V cmp [] os) -> pl_key p <> k
       end).
Proof. exact index_is_map_proof. Qed.
Print Assumptions index_is_map.

(** Inserting a present key changes nothing and returns the node of the existing entry. *)
Theorem index_insert_present : forall (K V : Type) (cmp : K -> K -> comparison), total_order cmp ->
  forall os hs s p a d h, legal K V cmp (rb_init hs) [] os -> rb_run cmp (rb_init hs) os = Ok s ->
  In p (spec_run K V cmp [] os) ->
  exists s' r, rb_insert cmp s a (pl_key p) d h = Ok (s', r) /\ rb_root s' = rb_root s /\ rb_count s' = rb_count s /\
    rb_lookup cmp s (pl_key p) = Ok (Some (r, p)).
Proof. exact index_insert_present_proof. Qed.
Print Assumptions index_insert_present.

(** The guard "non-empty" is needed: looking a key up in an index that never had an element
    dereferences NULL, and in one whose last element was deleted reads freed memory. *)
Theorem index_lookup_empty_refuted : exists (os1 os2 : list (rbop nat nat)) s1 s2 hs,
  legal nat nat Nat.compare (rb_init hs) [] os1 /\ legal nat nat Nat.compare (rb_init hs) [] os2 /\
  rb_run Nat.compare (rb_init hs) os1 = Ok s1 /\ rb_lookup Nat.compare s1 7 = UB NullDeref /\
  rb_run Nat.compare (rb_init hs) os2 = Ok s2 /\ rb_lookup Nat.compare s2 7 = UB UseAfterFree.
Proof.
  exists [], [OInsert 100 7 0 None; ODeleteKey 7], (rb_init (fun _ => None)). eexists. exists (fun _ => None).
  split; [exact I|]. split; [apply legalb_legal; vm_compute; reflexivity|].
  split; [reflexivity|]. split; [reflexivity|]. split; [vm_compute; reflexivity|]. reflexivity.
Qed.
Print Assumptions index_lookup_empty_refuted.

Definition ex_ops : list (rbop nat nat) :=
  [OInsert 100 5 50 (Some 0); OInsert 101 3 30 (Some 1); OInsert 102 8 80 (Some 2); OInsert 103 1 10 None;
   OInsert 104 4 40 (Some 4); OInsert 105 7 70 (Some 5); OInsert 106 9 90 (Some 6); OInsert 107 5 99 None;
   ODelete 0; ODeleteKey 3; ODeleteKey 77; OInsert 108 2 20 (Some 0); ODelete 2].
Example index_is_map_example : legal nat nat Nat.compare (rb_init (fun _ => None)) [] ex_ops /\
  spec_run nat nat Nat.compare [] ex_ops =
    [mkPayload 2 20 (Some 0); mkPayload 9 90 (Some 6); mkPayload 7 70 (Some 5); mkPayload 4 40 (Some 4); mkPayload 1 10 None].
Proof. split; [apply legalb_legal; vm_compute; reflexivity|vm_compute; reflexivity]. Qed.

(** ** C02.  After every legal run the in-order walk of the index lists exactly the entries of the
    map in strictly ascending key order, the root is black, no red node has a red child and all
    paths to a leaf have equally many black nodes ([rb]), and a lookup compares at most 2*log2(n+1) keys. *)
Theorem index_sorted_balanced : forall (K V : Type) (cmp : K -> K -> comparison), total_order cmp ->
  forall os hs s, legal K V cmp (rb_init hs) [] os -> rb_run cmp (rb_init hs) os = Ok s ->
  match rb_root s with
  | RNode t => (forall A x B y C, el K V t = A ++ x :: B ++ y :: C -> cmp (pl_key (snd x)) (pl_key (snd y)) = Lt) /\
               Permutation (map snd (el K V t)) (spec_run K V cmp [] os) /\
               (exists m, rb K V Black m t) /\
               (forall k, visits cmp k t <= 2 * Nat.log2 (rb_count s + 1))
  | _ => spec_run K V cmp [] os = []
  end.
Proof. exact index_sorted_balanced_proof. Qed.
Print Assumptions index_sorted_balanced.

Example index_sorted_balanced_example : exists s, rb_run Nat.compare (rb_init (fun _ => None)) ex_ops = Ok s /\
  map (fun x => pl_key (snd x)) (els nat nat s) = [1; 2; 4; 7; 9].
Proof. eexists. split; vm_compute; reflexivity. Qed.

(** ** C03.  While an element is registered, its handle holds the address of the node that carries
    it, and deleting through the handle succeeds, clears this handle, keeps every other registered
    element reachable both by key and through its own handle, and touches no other variable. *)
Theorem index_handles : forall (K V : Type) (cmp : K -> K -> comparison), total_order cmp ->
  forall os hs s p h, legal K V cmp (rb_init hs) [] os -> rb_run cmp (rb_init hs) os = Ok s ->
  In p (spec_run K V cmp [] os) -> pl_handle p = Some h ->
  (exists a, rb_handles s h = Some a /\ rb_lookup cmp s (pl_key p) = Ok (Some (a, p))) /\
  (exists s', rb_step cmp s (ODelete h) = Ok s' /\ rb_handles s' h = None /\
     (forall q hq, In q (spec_run K V cmp [] os) -> q <> p -> pl_handle q = Some hq ->
        exists a, rb_handles s' hq = Some a /\ rb_lookup cmp s' (pl_key q) = Ok (Some (a, q))) /\
     (forall j, (forall q, In q (spec_run K V cmp [] os) -> pl_handle q <> Some j) -> rb_handles s' j = rb_handles s j)).
Proof. exact index_handles_proof. Qed.
Print Assumptions index_handles.

(** Without "under an absent key" this fails: a second element inserted under the same key is given
    the handle of the first one, and deleting it removes the first element from the index (two
    mounts containing a file with the same relative name, src/mount.c:979). *)
Theorem index_duplicate_key_refuted : exists (os : list (rbop nat nat)) s s',
  rb_run Nat.compare (rb_init (fun _ => None)) os = Ok s /\ rb_lookup Nat.compare s 7 = Ok (Some (100, mkPayload 7 70 (Some 0))) /\
  rb_step Nat.compare s (ODelete 1) = Ok s' /\ rb_lookup Nat.compare s' 7 = Ok None /\ rb_handles s' 0 = None /\ rb_handles s' 1 = Some 100.
Proof.
  exists [OInsert 100 7 70 (Some 0); OInsert 101 8 80 (Some 2); OInsert 102 7 71 (Some 1)].
  eexists. eexists. split; [vm_compute; reflexivity|]. split; [reflexivity|]. split; [vm_compute; reflexivity|]. auto.
Qed.
Print Assumptions index_duplicate_key_refuted.

(** The node address itself is not stable: deleting another element may free the node an element
    was stored in (which is why the handles are updated). *)
Theorem index_node_address_refuted : exists (os : list (rbop nat nat)) s s',
  legal nat nat Nat.compare (rb_init (fun _ => None)) [] os /\
  rb_run Nat.compare (rb_init (fun _ => None)) os = Ok s /\ rb_handles s 2 = Some 102 /\
  rb_step Nat.compare s (ODelete 0) = Ok s' /\ rb_handles s' 2 = Some 100 /\ ~ In 102 (addresses s').
Proof.
  exists [OInsert 100 5 50 (Some 0); OInsert 101 3 30 (Some 1); OInsert 102 8 80 (Some 2)].
  eexists. eexists. split; [apply legalb_legal; vm_compute; reflexivity|].
  split; [vm_compute; reflexivity|]. split; [reflexivity|]. split; [vm_compute; reflexivity|]. split; [reflexivity|].
  vm_compute. intros [H|[H|H]]; try discriminate; exact H.
Qed.
Print Assumptions index_node_address_refuted.

Example index_handles_example : exists s a, rb_run Nat.compare (rb_init (fun _ => None)) ex_ops = Ok s /\
  rb_handles s 6 = Some a /\ rb_lookup Nat.compare s 9 = Ok (Some (a, mkPayload 9 90 (Some 6))).
Proof. eexists. eexists. split; [vm_compute; reflexivity|]. split; vm_compute; reflexivity. Qed.
