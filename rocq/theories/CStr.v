(** C library string functions used by several modules.

    A C string is represented by its bytes before the terminating NUL (so the list contains no 0);
    the functions below model the libc functions on such strings.  [memory] lists are the bytes of
    an object from a pointer to the end of the object; reading behind the end is [OutOfBounds]. *)
From Verif Require Import Base.

(** [strncmp(a, b, n) == 0]. *)
Fixpoint strncmp_eqb (n : nat) (a b : list N) : bool :=
  match n with
  | 0 => true
  | S n' =>
    match a, b with
    | [], [] => true
    | x :: a', y :: b' => (x =? y)%N && strncmp_eqb n' a' b'
    | _, _ => false
    end
  end.
(** [strcmp(a, b) == 0]. *)
Definition strcmp_eqb : list N -> list N -> bool := bytes_eqb.

(** A byte read from an object. *)
Definition rd (mem : list N) (i : nat) : outcome N :=
  match nth_error mem i with Some b => Ok b | None => UB OutOfBounds end.

Definition no_nul (s : list N) : Prop := Forall (fun b => b <> 0%N) s.
Definition no_nulb (s : list N) : bool := forallb (fun b => negb (b =? 0)%N) s.
Lemma no_nulb_ok s : no_nulb s = true <-> no_nul s.
Proof.
  unfold no_nulb, no_nul. rewrite forallb_forall, Forall_forall.
  split; intros H x Hx; specialize (H x Hx).
  - destruct (N.eqb_spec x 0); [discriminate|assumption].
  - destruct (N.eqb_spec x 0); [contradiction|reflexivity].
Qed.

(** [strncmp(a, b, strlen(b)) == 0] says that [b] is a prefix of [a]. *)
Lemma strncmp_prefix : forall b a, strncmp_eqb (length b) a b = is_prefix b a.
Proof.
  induction b as [|y b IH]; intros a; cbn [length strncmp_eqb is_prefix]; [reflexivity|].
  destruct a as [|x a]; [reflexivity|]. rewrite IH, (N.eqb_sym x y). reflexivity.
Qed.

Lemma strncmp_min_eq : forall n a b, strncmp_eqb n a b = true -> length a = length b -> (length a <= n)%nat -> a = b.
Proof.
  induction n as [|n IH]; intros a b H L Hn.
  - destruct a; [|cbn in Hn; lia]. destruct b; [reflexivity|discriminate].
  - destruct a as [|x a], b as [|y b]; cbn in *; try discriminate; [reflexivity|].
    apply andb_true_iff in H as [H1 H2]. apply N.eqb_eq in H1. f_equal; [exact H1|]. apply IH; auto; lia.
Qed.

(** [strncmp(a, b, n)]: sign of the first difference (unsigned bytes). *)
Fixpoint strncmp (n : nat) (a b : list N) : comparison :=
  match n with
  | 0 => Eq
  | S n' =>
    match a, b with
    | [], [] => Eq
    | [], _ :: _ => Lt
    | _ :: _, [] => Gt
    | x :: a', y :: b' => match (x ?= y)%N with Eq => strncmp n' a' b' | c => c end
    end
  end.

(** Decimal digits of a number, as printed by [%d] / [%zu] / [%ld] for non-negative arguments. *)
Fixpoint dec_loop (fuel : nat) (n : N) (acc : list N) : list N :=
  match fuel with
  | 0 => acc
  | S f => let acc := (48 + n mod 10)%N :: acc in
           if (n / 10 =? 0)%N then acc else dec_loop f (n / 10)%N acc
  end.
Definition dec (n : N) : list N := dec_loop (S (N.to_nat (N.log2 n))) n [].

Definition is_digit (b : N) : bool := (48 <=? b)%N && (b <=? 57)%N.
(** Value of a string of decimal digits (specification). *)
Definition dec_value (s : list N) : N := fold_left (fun v b => 10 * v + (b - 48))%N s 0%N.

Lemma dec_value_from s v : fold_left (fun v b => 10 * v + (b - 48))%N s v = (v * 10 ^ N.of_nat (length s) + dec_value s)%N.
Proof.
  unfold dec_value. revert v. induction s as [|b s IH]; intros v; cbn [fold_left length].
  - rewrite N.mul_1_r. lia.
  - rewrite IH. rewrite (IH (10 * 0 + (b - 48))%N).
    rewrite Nat2N.inj_succ, N.pow_succ_r by lia. ring.
Qed.
Lemma dec_value_app a b : dec_value (a ++ b) = (dec_value a * 10 ^ N.of_nat (length b) + dec_value b)%N.
Proof. unfold dec_value at 1. rewrite fold_left_app. apply dec_value_from. Qed.

Lemma dec_loop_acc : forall fuel n acc, dec_loop fuel n acc = dec_loop fuel n [] ++ acc.
Proof.
  induction fuel as [|f IH]; intros n acc; cbn [dec_loop]; [reflexivity|].
  destruct (n / 10 =? 0)%N; [reflexivity|].
  rewrite IH, (IH _ [_]), <- app_assoc. reflexivity.
Qed.
Lemma dec_loop_spec : forall fuel n, (n < 2 ^ N.of_nat fuel)%N -> 
  fuel <> 0%nat ->
  Forall (fun b => is_digit b = true) (dec_loop fuel n []) /\ dec_value (dec_loop fuel n []) = n /\
  (exists d t, dec_loop fuel n [] = d :: t /\ (n <> 0%N -> d <> 48%N) /\ (n = 0%N -> t = [])).
Proof.
  induction fuel as [|f IH]; intros n Hn Hf; [contradiction|]. cbn [dec_loop].
  pose proof (N.div_mod n 10 ltac:(lia)) as D. pose proof (N.mod_lt n 10 ltac:(lia)) as M.
  destruct (N.eqb_spec (n / 10) 0) as [Z|Z].
  - split; [constructor; [unfold is_digit; lia|constructor]|]. split.
    + unfold dec_value; cbn [fold_left]. lia.
    + eexists _, []. split; [reflexivity|]. split; [lia|reflexivity].
  - rewrite dec_loop_acc.
    assert (f <> 0%nat). { intros ->. cbn in Hn. assert (n = 0)%N by lia. subst. cbn in Z. lia. }
    assert (n / 10 < 2 ^ N.of_nat f)%N.
    { rewrite Nat2N.inj_succ, N.pow_succ_r in Hn by lia. apply N.div_lt_upper_bound; [lia|].
      assert (0 < 2 ^ N.of_nat f)%N by (apply N.neq_0_lt_0, N.pow_nonzero; lia). lia. }
    destruct (IH (n / 10)%N) as (F & V & d & t & E & Nz & Z'); [assumption..|].
    split; [apply Forall_app; split; [exact F|constructor; [unfold is_digit; lia|constructor]]|]. split.
    + rewrite dec_value_app, V. cbn [length]. unfold dec_value; cbn [fold_left]. change (10 ^ N.of_nat 1)%N with 10%N. lia.
    + exists d, (t ++ [48 + n mod 10]%N). rewrite E. split; [reflexivity|]. split; [auto|]. intros ->. cbn in Z. lia.
Qed.
Lemma dec_fuel n : (n < 2 ^ N.of_nat (S (N.to_nat (N.log2 n))))%N.
Proof.
  rewrite Nat2N.inj_succ, N2Nat.id. destruct (N.eqb_spec n 0) as [->|Hz]; [reflexivity|].
  apply N.log2_spec. lia.
Qed.
(** [dec n] consists of digits, denotes n, and has no leading zero. *)
Lemma dec_spec n : Forall (fun b => is_digit b = true) (dec n) /\ dec_value (dec n) = n /\
  exists d t, dec n = d :: t /\ (n <> 0%N -> d <> 48%N) /\ (n = 0%N -> t = []).
Proof. apply dec_loop_spec; [apply dec_fuel|discriminate]. Qed.
Lemma dec_digits n : Forall (fun b => is_digit b = true) (dec n). Proof. apply dec_spec. Qed.
Lemma dec_value_dec n : dec_value (dec n) = n. Proof. apply dec_spec. Qed.
Lemma dec_inj a b : dec a = dec b -> a = b.
Proof. intros H. rewrite <- (dec_value_dec a), H. apply dec_value_dec. Qed.
