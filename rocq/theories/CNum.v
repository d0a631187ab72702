(** strtol/strtoll/atoll of glibc on a 64-bit machine, base 10 (used by header.c:324, conf.c, v2.c).
    atoll is undefined for values out of range by the C standard; glibc's saturates like strtoll. *)
From Verif Require Import Base CStr.
Local Open Scope N_scope.

(** isspace(3), C locale. *)
Definition c_isspace (b : N) : bool := (b =? 32) || ((9 <=? b) && (b <=? 13)).
Fixpoint skip_spaces (s : list N) : list N :=
  match s with c :: t => if c_isspace c then skip_spaces t else s | [] => [] end.
Fixpoint lead_digits (s : list N) : list N :=
  match s with c :: t => if is_digit c then c :: lead_digits t else [] | [] => [] end.
Definition long_max : Z := 9223372036854775807.
Definition long_min : Z := (-9223372036854775808).
Definition clamp (z : Z) : Z := if (long_max <? z)%Z then long_max else if (z <? long_min)%Z then long_min else z.
Definition strtoll (s : list N) : Z :=
  match skip_spaces s with
  | 45 :: t => clamp (- Z.of_N (dec_value (lead_digits t)))
  | 43 :: t => clamp (Z.of_N (dec_value (lead_digits t)))
  | t => clamp (Z.of_N (dec_value (lead_digits t)))
  end.
(** The C string at the beginning of an array of bytes. *)
Fixpoint cstr (s : list N) : list N :=
  match s with c :: t => if c =? 0 then [] else c :: cstr t | [] => [] end.

Lemma cstr_no_nul s : no_nul s -> cstr s = s.
Proof. induction 1 as [|c s H F IH]; [reflexivity|]. cbn [cstr]. apply N.eqb_neq in H. rewrite H, IH. reflexivity. Qed.
Lemma lead_digits_all ds r : Forall (fun b => is_digit b = true) ds -> (match r with [] => True | c :: _ => is_digit c = false end) ->
  lead_digits (ds ++ r) = ds.
Proof.
  intros F R. induction F as [|c ds H F IH]; cbn [app].
  - destruct r as [|c r]; [reflexivity|]. cbn [lead_digits]. rewrite R. reflexivity.
  - cbn [lead_digits]. rewrite H, IH. reflexivity.
Qed.
Lemma skip_spaces_ws ws r : Forall (fun b => c_isspace b = true) ws -> (match r with [] => True | c :: _ => c_isspace c = false end) ->
  skip_spaces (ws ++ r) = r.
Proof.
  intros F R. induction F as [|c ws H F IH]; cbn [app].
  - destruct r as [|c r]; [reflexivity|]. cbn [skip_spaces]. rewrite R. reflexivity.
  - cbn [skip_spaces]. rewrite H. exact IH.
Qed.
Lemma digit_not_space c : is_digit c = true -> c_isspace c = false /\ c <> 45 /\ c <> 43.
Proof. unfold is_digit, c_isspace. lia. Qed.
(** A number written in digits, possibly followed by something else. *)
Lemma strtoll_digits ds r : Forall (fun b => is_digit b = true) ds -> ds <> [] -> (match r with [] => True | c :: _ => is_digit c = false end) ->
  strtoll (ds ++ r) = Z.min long_max (Z.of_N (dec_value ds)).
Proof.
  intros F NE R. destruct ds as [|c ds]; [contradiction|]. inversion F as [|? ? C _]; subst.
  destruct (digit_not_space c C) as (S1 & S2 & S3). unfold strtoll. cbn [app skip_spaces]. rewrite S1.
  pose proof (lead_digits_all (c :: ds) r F R) as L. cbn [app] in L.
  assert (E : (match c :: ds ++ r with
    | 45 :: t => clamp (- Z.of_N (dec_value (lead_digits t)))
    | 43 :: t => clamp (Z.of_N (dec_value (lead_digits t)))
    | t => clamp (Z.of_N (dec_value (lead_digits t)))
    end) = clamp (Z.of_N (dec_value (lead_digits (c :: ds ++ r))))).
  { destruct c as [|p]; [reflexivity|]. repeat (destruct p as [p|p|]; try reflexivity); contradiction. }
  rewrite E, L. pose proof (N2Z.is_nonneg (dec_value (c :: ds))) as NN. unfold clamp.
  destruct (Z.ltb_spec long_max (Z.of_N (dec_value (c :: ds)))); [unfold long_max in *; lia|].
  destruct (Z.ltb_spec (Z.of_N (dec_value (c :: ds))) long_min); unfold long_max, long_min in *; lia.
Qed.
