(** Model of src/rbtree.c: the ordered index (red-black tree).

    The heap is abstracted as follows.  A node struct is its address [id], its colour and its
    payload (key, data, node_data); the parent pointers are represented by a zipper: a node under
    consideration is a focus subtree plus the list of frames up to the root (so "node->parent" is
    the first frame, and nil_node is [E]).  [node_data] is the address [h] of a pointer variable of
    the caller; the contents of these variables is the memory [handles] (None = NULL). *)
From Verif Require Import Base.

Inductive color := Red | Black.

Section RbTree.
Variables K V : Type.
(** tree->cmp(k1, k2, cmpdata): SMALL/EQUAL/BIG; cmpdata is a parameter of the comparison only. *)
Variable cmp : K -> K -> comparison.

(** struct fly_rb_node, src/rbtree.h:57-66. *)
Record payload := mkPayload { pl_key : K; pl_data : V; pl_handle : option nat }.
Inductive tree := E | T (c : color) (id : nat) (l : tree) (p : payload) (r : tree).
(** FL: the focus is the left child of this node; FR: it is the right child. *)
Inductive frame :=
| FL (c : color) (id : nat) (p : payload) (r : tree)
| FR (c : color) (id : nat) (l : tree) (p : payload).

Definition plug1 (f : frame) (t : tree) : tree :=
  match f with FL c id p r => T c id t p r | FR c id l p => T c id l p t end.
Fixpoint plug (path : list frame) (t : tree) : tree :=
  match path with [] => t | f :: path' => plug path' (plug1 f t) end.
Definition f_color (f : frame) : color := match f with FL c _ _ _ => c | FR c _ _ _ => c end.
Definition t_color (t : tree) : color := match t with E => Black | T c _ _ _ _ => c end.
(** fly_rb_color_update, src/rbtree.c:225-230 (nil keeps its colour). *)
Definition paint (c : color) (t : tree) : tree :=
  match t with E => E | T _ id l p r => T c id l p r end.
Definition is_red (t : tree) : bool := match t_color t with Red => true | Black => false end.
Definition is_root (path : list frame) : bool := match path with [] => true | _ => false end.

(** fly_rb_rotate_left / _right, src/rbtree.c:177-223, on the subtree [t] at path [path]: the
    assert fails on a nil child; when the node is the root fly_rb_root (112-117) paints the new
    root black. *)
Definition rotate_left (path : list frame) (t : tree) : outcome tree :=
  match t with
  | T c x a p (T d y b q e) => Ok (T (if is_root path then Black else d) y (T c x a p b) q e)
  | _ => UB NullDeref
  end.
Definition rotate_right (path : list frame) (t : tree) : outcome tree :=
  match t with
  | T c x (T d y a q b) p e => Ok (T (if is_root path then Black else d) y a q (T c x b p e))
  | _ => UB NullDeref
  end.

(** ** Lookup *)
(** The while loop of fly_rb_node_from_key, src/rbtree.c:279-293: address and data of the node. *)
Fixpoint find (k : K) (t : tree) : option (nat * payload) :=
  match t with
  | E => None
  | T _ id l p r =>
    match cmp k (pl_key p) with Gt => find k r | Eq => Some (id, p) | Lt => find k l end
  end.
(** Number of nodes compared by that loop. *)
Fixpoint visits (k : K) (t : tree) : nat :=
  match t with
  | E => 0
  | T _ _ l p r => S (match cmp k (pl_key p) with Gt => visits k r | Eq => 0 | Lt => visits k l end)
  end.

(** ** Insertion *)
(** The descent of fly_rb_tree_insert_node, src/rbtree.c:348-376. *)
Inductive descent := DExists (id : nat) (p : payload) | DPath (path : list frame).
Fixpoint descend (k : K) (t : tree) (path : list frame) : descent :=
  match t with
  | E => DPath path
  | T c id l p r =>
    match cmp k (pl_key p) with
    | Eq => DExists id p
    | Lt => descend k l (FL c id p r :: path)
    | Gt => descend k r (FR c id l p :: path)
    end
  end.

(** The fix-up loop, src/rbtree.c:378-424.  The focus is "node"; the result is the whole tree.
    After the rotations the parent of node is black, so the loop ends and node is not the root:
    the tree is returned directly.  A red parent without grandparent makes the code rotate the nil
    node (assert): excluded by the invariant. *)
Fixpoint insert_fix (fuel : nat) (node : tree) (path : list frame) : outcome tree :=
  match fuel with
  | 0 => UB Diverges
  | S fuel' =>
    match path with
    | [] => Ok (paint Black node)                                     (* 423-424 *)
    | p :: path1 =>
      match f_color p with
      | Black => Ok (plug path node)
      | Red =>
        match path1 with
        | [] => UB NullDeref
        | FL gc g gp u :: path2 =>                                    (* 382: p is a left child *)
          if is_red u then
            insert_fix fuel' (T Red g (paint Black (plug1 p node)) gp (paint Black u)) path2
          else
            obind (match p with
                   | FR _ _ _ _ => rotate_left path1 (plug1 p node)   (* 391-394 *)
                   | FL _ _ _ _ => Ok (plug1 p node)
                   end) (fun sub =>
            obind (rotate_right path2 (T Red g (paint Black sub) gp u)) (fun t => Ok (plug path2 t)))
        | FR gc g u gp :: path2 =>                                    (* 401: p is a right child *)
          if is_red u then
            insert_fix fuel' (T Red g (paint Black u) gp (paint Black (plug1 p node))) path2
          else
            obind (match p with
                   | FL _ _ _ _ => rotate_right path1 (plug1 p node)  (* 410-413 *)
                   | FR _ _ _ _ => Ok (plug1 p node)
                   end) (fun sub =>
            obind (rotate_left path2 (T Red g u gp (paint Black sub))) (fun t => Ok (plug path2 t)))
        end
      end
    end
  end.

(** struct fly_rb_tree, src/rbtree.h:11-20, with the memory of the handles.  tree->root is NULL
    before the first insertion and dangling (freed, src/rbtree.c:98-105) after the last deletion. *)
Inductive root := RNull | RFreed | RNode (t : tree).
Record rbstate := mkRb { rb_root : root; rb_count : nat; rb_handles : nat -> option nat }.
(** fly_rb_tree_init, src/rbtree.c:35-44. *)
Definition rb_init (hs : nat -> option nat) : rbstate := mkRb RNull 0 hs.

Definition set_handle (h : option nat) (v : option nat) (hs : nat -> option nat) : nat -> option nat :=
  match h with None => hs | Some i => fun j => if j =? i then v else hs j end.

(** fly_rb_tree_insert + fly_rb_tree_insert_node, src/rbtree.c:296-426.  [a] is the address
    returned by malloc for the new node.  The result is the returned node address. *)
Definition rb_insert (s : rbstate) (a : nat) (k : K) (d : V) (h : option nat) : outcome (rbstate * nat) :=
  let hs := set_handle h (Some a) (rb_handles s) in                   (* 315-317 *)
  let node := T Red a E (mkPayload k d h) E in
  if rb_count s =? 0 then Ok (mkRb (RNode (paint Black node)) 1 hs, a)    (* 343-346, 71-81 *)
  else match rb_root s with
  | RNull => UB NullDeref
  | RFreed => UB UseAfterFree
  | RNode t =>
    match descend k t [] with
    | DExists id _ => Ok (mkRb (rb_root s) (rb_count s) hs, id)       (* 351-353 *)
    | DPath path => obind (insert_fix (S (length path)) node path) (fun t' => Ok (mkRb (RNode t') (S (rb_count s)) hs, a))
    end
  end.

(** fly_rb_node_from_key / fly_rb_node_data_from_key, src/rbtree.c:261-294. *)
Definition rb_lookup (s : rbstate) (k : K) : outcome (option (nat * payload)) :=
  match rb_root s with
  | RNull => UB NullDeref
  | RFreed => UB UseAfterFree
  | RNode t => Ok (find k t)
  end.

(** ** Deletion *)
(** __fly_rb_delete_rebalance from label "recursion", src/rbtree.c:499-629, with "node" the focus
    and __p its parent frame.  When the sibling is nil both side tests compare nil pointers, but
    then no branch below distinguishes the sides (its children are black). *)
Fixpoint delete_fix (fuel : nat) (node : tree) (path : list frame) : outcome tree :=
  match fuel with
  | 0 => UB Diverges
  | S fuel' =>
    match path with
    | [] => Ok node                                                   (* 500-501 *)
    | FL c p pp s :: path1 =>
      match s with
      | T Red sid sl sp sr =>                                         (* 508-536 *)
        obind (rotate_left path1 (T c p node pp s)) (fun _ =>
        delete_fix fuel' node (FL Red p pp sl :: FL Black sid sp sr :: path1))
      | E =>
        match c with
        | Black => delete_fix fuel' (T Black p node pp E) path1
        | Red => Ok (plug path1 (T Black p node pp E))
        end
      | T Black sid sl sp sr =>
        match is_red sl, is_red sr with
        | false, false =>
          match c with
          | Black => delete_fix fuel' (T Black p node pp (paint Red s)) path1   (* 546-552 *)
          | Red => Ok (plug path1 (T Black p node pp (paint Red s)))            (* 560-563 *)
          end
        | true, false =>                                              (* 571-578 *)
          match rotate_right (FR c p node pp :: path1) s with
          | Ok (T _ x a q b) => delete_fix fuel' node (FL c p pp (T Black x a q (paint Red b)) :: path1)
          | Ok E => UB NullDeref
          | UB u => UB u
          end
        | _, true =>                                                  (* 601-610 *)
          match rotate_left path1 (T c p node pp s) with
          | Ok (T _ x a q b) => Ok (plug path1 (T c x (paint Black a) q (paint Black b)))
          | Ok E => UB NullDeref
          | UB u => UB u
          end
        end
      end
    | FR c p s pp :: path1 =>
      match s with
      | T Red sid sl sp sr =>
        obind (rotate_right path1 (T c p s pp node)) (fun _ =>
        delete_fix fuel' node (FR Red p sr pp :: FR Black sid sl sp :: path1))
      | E =>
        match c with
        | Black => delete_fix fuel' (T Black p E pp node) path1
        | Red => Ok (plug path1 (T Black p E pp node))
        end
      | T Black sid sl sp sr =>
        match is_red sr, is_red sl with
        | false, false =>
          match c with
          | Black => delete_fix fuel' (T Black p (paint Red s) pp node) path1
          | Red => Ok (plug path1 (T Black p (paint Red s) pp node))
          end
        | true, false =>                                              (* 586-593 *)
          match rotate_left (FL c p pp node :: path1) s with
          | Ok (T _ x a q b) => delete_fix fuel' node (FR c p (T Black x (paint Red a) q b) pp :: path1)
          | Ok E => UB NullDeref
          | UB u => UB u
          end
        | _, true =>                                                  (* 618-627 *)
          match rotate_right path1 (T c p s pp node) with
          | Ok (T _ x a q b) => Ok (plug path1 (T c x (paint Black a) q (paint Black b)))
          | Ok E => UB NullDeref
          | UB u => UB u
          end
        end
      end
    end
  end.
(** __fly_rb_delete_rebalance, src/rbtree.c:488-499. *)
Definition rebalance (node : tree) (path : list frame) : outcome tree :=
  if is_red node then Ok (plug path (paint Black node))
  else delete_fix (4 * length path + 4) node path.

(** The position of the node struct at address [a]. *)
Fixpoint locate (a : nat) (t : tree) (path : list frame) : option (tree * list frame) :=
  match t with
  | E => None
  | T c id l p r =>
    if id =? a then Some (t, path)
    else match locate a l (FL c id p r :: path) with
         | Some x => Some x
         | None => locate a r (FR c id l p :: path)
         end
  end.

(** The loop of fly_rb_min_from_node, src/rbtree.c:88-95, started at the right child [t]: colour,
    address, payload and right child of the minimum, and the path to it. *)
Fixpoint min_path (c : color) (id : nat) (l : tree) (p : payload) (r : tree) (path : list frame) :
  color * nat * payload * tree * list frame :=
  match l with
  | E => (c, id, p, r, path)
  | T lc lid ll lp lr => min_path lc lid ll lp lr (FL c id p r :: path)
  end.

(** fly_rb_delete, src/rbtree.c:641-771, of the node at address [a]; a pointer to no node of the
    tree is a dangling pointer. *)
Definition rb_delete (s : rbstate) (a : nat) : outcome rbstate :=
  if rb_count s =? 0 then Ok s
  else match rb_root s with
  | RNull => UB NullDeref
  | RFreed => UB UseAfterFree
  | RNode t =>
    match locate a t [] with
    | None => UB UseAfterFree
    | Some (E, _) => UB NullDeref
    | Some (T c id l p r, path) =>
      match l, r with
      | E, E =>                                                       (* 663-689 *)
        let hs := set_handle (pl_handle p) None (rb_handles s) in
        match path with
        | [] => Ok (mkRb RFreed 0 hs)                                 (* 668-673, 98-105 *)
        | _ => obind (match c with Black => rebalance E path | Red => Ok (plug path E) end)
                     (fun t' => Ok (mkRb (RNode t') (rb_count s - 1) hs))
        end
      | _, E =>                                                       (* 693-719 *)
        let target := if is_root path then paint Black l else l in
        obind (match c with Black => rebalance target path | Red => Ok (plug path target) end)
              (fun t' => Ok (mkRb (RNode t') (rb_count s - 1) (set_handle (pl_handle p) None (rb_handles s))))
      | _, T rc rid rl rp rr =>                                       (* 723-760 *)
        match min_path rc rid rl rp rr [] with
        | (mc, mid, mp, mrc, path0) =>
          let hs := set_handle (pl_handle mp) (Some id) (set_handle (pl_handle p) None (rb_handles s)) in
          let path' := path0 ++ FR c id l mp :: path in
          obind (match mc with Black => rebalance mrc path' | Red => Ok (plug path' mrc) end)
                (fun t' => Ok (mkRb (RNode t') (rb_count s - 1) hs))
        end
      end
    end
  end.

(** ** How the index is used *)
(** [OInsert a k d h]: "x->rbnode = fly_rb_tree_insert(t, d, k, &x->rbnode)" (event.c:322,
      mount.c:375, 979, 1131, worker.c:312) when h = Some _, plain insertion when None (alloc.c:91);
    [ODelete h]: fly_rb_delete(t, x->rbnode) (event.c:363, 495, mount.c:149);
    [ODeleteKey k]: lookup and delete (alloc.c:167-177, guarded by the element count). *)
Inductive rbop := OInsert (a : nat) (k : K) (d : V) (h : option nat) | ODelete (h : nat) | ODeleteKey (k : K).
Definition rb_step (s : rbstate) (o : rbop) : outcome rbstate :=
  match o with
  | OInsert a k d h =>
    obind (rb_insert s a k d h) (fun '(s', r) =>
      Ok (mkRb (rb_root s') (rb_count s') (set_handle h (Some r) (rb_handles s'))))
  | ODelete h => match rb_handles s h with None => UB NullDeref | Some a => rb_delete s a end
  | ODeleteKey k =>
    if rb_count s =? 0 then Ok s
    else obind (rb_lookup s k) (fun r => match r with None => Ok s | Some (a, _) => rb_delete s a end)
  end.
Fixpoint rb_run (s : rbstate) (os : list rbop) : outcome rbstate :=
  match os with [] => Ok s | o :: t => obind (rb_step s o) (fun s' => rb_run s' t) end.
End RbTree.

Arguments mkPayload {K V}. Arguments pl_key {K V}. Arguments pl_data {K V}. Arguments pl_handle {K V}.
Arguments E {K V}. Arguments T {K V}. Arguments FL {K V}. Arguments FR {K V}.
Arguments plug1 {K V}. Arguments plug {K V}. Arguments f_color {K V}. Arguments t_color {K V}.
Arguments paint {K V}. Arguments is_red {K V}. Arguments is_root {K V}.
Arguments rotate_left {K V}. Arguments rotate_right {K V}.
Arguments find {K V}. Arguments visits {K V}. Arguments DExists {K V}. Arguments DPath {K V}.
Arguments descend {K V}. Arguments insert_fix {K V}. Arguments RNull {K V}. Arguments RFreed {K V}.
Arguments RNode {K V}. Arguments mkRb {K V}. Arguments rb_root {K V}. Arguments rb_count {K V}.
Arguments rb_handles {K V}. Arguments rb_init {K V}. Arguments rb_insert {K V}. Arguments rb_lookup {K V}.
Arguments delete_fix {K V}. Arguments rebalance {K V}. Arguments locate {K V}. Arguments min_path {K V}.
Arguments rb_delete {K V}. Arguments OInsert {K V}. Arguments ODelete {K V}. Arguments ODeleteKey {K V}.
Arguments rb_step {K V}. Arguments rb_run {K V}.
