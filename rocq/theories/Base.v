(** Shared vocabulary: bytes, byte strings, C outcomes. *)
From Coq Require Export String Ascii.
From Coq Require Export List Arith NArith ZArith Bool Lia.
From Coq Require Export ZifyBool ZifyNat ZifyN.
Export ListNotations.

(** A byte is an [N]; [byte_ok] bounds it.  (C: [uint8_t] / [char].) *)
Definition byte_ok (b : N) : Prop := (b < 256)%N.
Definition byte_okb (b : N) : bool := (b <? 256)%N.
Definition bytes_ok (l : list N) : Prop := Forall byte_ok l.

(** C string literal -> bytes without the terminating NUL. *)
Fixpoint bs (s : string) : list N :=
  match s with
  | EmptyString => []
  | String c r => N_of_ascii c :: bs r
  end.

(** Undefined behaviour (or non-termination) reached by the C code, kept as a
    distinct outcome instead of being assumed away. *)
Inductive ub : Type :=
| NullDeref        (* dereference of a NULL pointer *)
| OutOfBounds      (* read or write outside an object *)
| UseAfterFree     (* access to released memory *)
| SignedOverflow   (* overflow of a signed integer, or over-wide shift *)
| Diverges.        (* the loop does not terminate / model fuel exhausted *)

(** Result of a modelled function: normal return or undefined behaviour. *)
Inductive outcome (A : Type) : Type :=
| Ok (a : A)
| UB (u : ub).
Arguments Ok {A} a.
Arguments UB {A} u.

Definition obind {A B} (o : outcome A) (f : A -> outcome B) : outcome B :=
  match o with Ok a => f a | UB u => UB u end.

(** Byte string equality (used for comparisons done by memcmp/strncmp == 0). *)
Fixpoint bytes_eqb (a b : list N) : bool :=
  match a, b with
  | [], [] => true
  | x :: a', y :: b' => (x =? y)%N && bytes_eqb a' b'
  | _, _ => false
  end.

Lemma bytes_eqb_eq a b : bytes_eqb a b = true <-> a = b.
Proof.
  revert b; induction a as [|x a IH]; destruct b as [|y b]; cbn [bytes_eqb];
    split; intros H; try discriminate; try reflexivity.
  - apply andb_true_iff in H as [H1 H2]. apply N.eqb_eq in H1. apply IH in H2. congruence.
  - inversion H; subst. apply andb_true_iff; split; [apply N.eqb_refl | now apply IH].
Qed.

Lemma bytes_eqb_refl a : bytes_eqb a a = true.
Proof. now apply bytes_eqb_eq. Qed.

Lemma bytes_eqb_neq a b : bytes_eqb a b = false <-> a <> b.
Proof.
  split; intros H.
  - intros E. apply bytes_eqb_eq in E. congruence.
  - destruct (bytes_eqb a b) eqn:E; [|reflexivity]. apply bytes_eqb_eq in E. contradiction.
Qed.

(** [a] is a prefix of [b]. *)
Fixpoint is_prefix (a b : list N) : bool :=
  match a, b with
  | [], _ => true
  | x :: a', y :: b' => (x =? y)%N && is_prefix a' b'
  | _ :: _, [] => false
  end.

Lemma is_prefix_spec a b : is_prefix a b = true <-> exists r, b = a ++ r.
Proof.
  revert b; induction a as [|x a IH]; intros b; cbn [is_prefix].
  - split; [intros _; now exists b | reflexivity].
  - destruct b as [|y b].
    + split; [discriminate | intros [r H]; discriminate].
    + rewrite andb_true_iff, N.eqb_eq, IH. split.
      * intros [-> [r ->]]. now exists r.
      * intros [r H]. cbn in H. inversion H; subst. split; [reflexivity | now exists r].
Qed.

Lemma skipn_skipn {A} (x y : nat) (l : list A) : skipn x (skipn y l) = skipn (x + y) l.
Proof.
  revert l; induction y as [|y IH]; intros l.
  - now rewrite Nat.add_0_r.
  - destruct l as [|a l].
    + rewrite !skipn_nil. reflexivity.
    + rewrite <- plus_n_Sm. cbn [skipn]. apply IH.
Qed.
