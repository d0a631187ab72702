(** Proofs about Hpack.v against the specification HpackSpec.v. *)
From Verif Require Import Base Hpack HpackSpec.
Ltac Zify.zify_post_hook ::= Z.div_mod_to_equations.

Lemma byte_all (P : N -> bool) : forallb P (map N.of_nat (seq 0 256)) = true -> forall b, (b < 256)%N -> P b = true.
Proof.
  intros H b Hb. rewrite forallb_forall in H. apply H. apply in_map_iff. exists (N.to_nat b).
  split; [lia|]. apply in_seq. lia.
Qed.
Lemma land127 x : N.land x 127 = (x mod 128)%N.
Proof. change 127%N with (N.ones 7). now rewrite N.land_ones. Qed.
Lemma land128 b : (b < 256)%N -> (N.land b 128 =? 0)%N = (b <? 128)%N.
Proof.
  intros H. apply Bool.eqb_prop.
  apply (byte_all (fun b => Bool.eqb (N.land b 128 =? 0)%N (b <? 128)%N)); [vm_compute; reflexivity|exact H].
Qed.
Lemma land_mask x bits : N.land x (mask bits) = (x mod 2 ^ bits)%N.
Proof. unfold mask. rewrite <- N.pred_sub, <- N.ones_equiv. apply N.land_ones. Qed.
Lemma pow_pos b : (1 <= 2 ^ b)%N.
Proof. assert (2 ^ b <> 0)%N by (apply N.pow_nonzero; discriminate). lia. Qed.

(** ** Integers *)
Lemma int_loop_spec rest : forall fuel n number power used,
  (n < 128 ^ N.of_nat (S fuel))%N -> (n * 2 ^ power < 2 ^ 31)%N -> (number + n * 2 ^ power < 2 ^ 32)%N -> (power < 31)%N ->
  int_loop (tail_octets fuel n ++ rest) number power used
  = Ok ((number + n * 2 ^ power)%N, (used + N.of_nat (length (tail_octets fuel n)))%N, rest).
Proof.
  induction fuel as [|f IH]; intros n number power used Hn Hp Hs Hw.
  - change (N.of_nat 1) with 1%N in Hn. rewrite N.pow_1_r in Hn. cbn [tail_octets app int_loop length].
    destruct (N.leb_spec 31 power); [lia|]. rewrite land127, N.mod_small by lia.
    destruct (N.leb_spec (2 ^ 31) (n * 2 ^ power)); [lia|]. rewrite land128 by lia.
    destruct (N.ltb_spec n 128); [|lia]. unfold u32. rewrite N.mod_small by lia. reflexivity.
  - cbn [tail_octets]. destruct (N.ltb_spec n 128) as [L|G].
    + cbn [app int_loop length].
      destruct (N.leb_spec 31 power); [lia|]. rewrite land127, N.mod_small by lia.
      destruct (N.leb_spec (2 ^ 31) (n * 2 ^ power)); [lia|]. rewrite land128 by lia.
      destruct (N.ltb_spec n 128); [|lia]. unfold u32. rewrite N.mod_small by lia. reflexivity.
    + cbn [app int_loop length].
      destruct (N.leb_spec 31 power); [lia|]. rewrite land127.
      assert (E1 : ((n mod 128 + 128) mod 128 = n mod 128)%N) by lia. rewrite E1.
      assert (B1 : (n mod 128 * 2 ^ power <= n * 2 ^ power)%N) by (apply N.mul_le_mono_r; lia).
      destruct (N.leb_spec (2 ^ 31) (n mod 128 * 2 ^ power)); [lia|]. rewrite land128 by lia.
      destruct (N.ltb_spec (n mod 128 + 128) 128); [lia|].
      unfold u32. rewrite N.mod_small by lia.
      assert (E2 : (n / 128 * 2 ^ (power + 7) + n mod 128 * 2 ^ power = n * 2 ^ power)%N).
      { rewrite N.pow_add_r. change (2 ^ 7)%N with 128%N. rewrite (N.mul_comm (2 ^ power)), N.mul_assoc, <- N.mul_add_distr_r.
        f_equal. lia. }
      rewrite IH; [f_equal; f_equal; f_equal; lia| | lia | lia |].
      * rewrite Nat2N.inj_succ, N.pow_succ_r' in Hn. apply N.div_lt_upper_bound; lia.
      * assert (1 <= n / 128)%N by lia.
        assert (2 ^ (power + 7) < 2 ^ 31)%N.
        { eapply N.le_lt_trans; [|exact Hp]. rewrite <- E2.
          transitivity (1 * 2 ^ (power + 7))%N; [lia|]. transitivity (n / 128 * 2 ^ (power + 7))%N; [apply N.mul_le_mono_r; lia|lia]. }
        apply N.pow_lt_mono_r_iff in H3; lia.
Qed.
Lemma size_bound v : (v < 128 ^ N.of_nat (S (N.size_nat v)))%N.
Proof.
  assert (v < 2 ^ N.size v)%N by apply N.size_gt.
  assert (E : N.of_nat (N.size_nat v) = N.size v).
  { destruct v as [|p]; [reflexivity|]. cbn [N.size_nat N.size]. clear H. induction p as [p IH|p IH|]; cbn [Pos.size_nat Pos.size]; try (rewrite Nat2N.inj_succ, IH); reflexivity. }
  rewrite Nat2N.inj_succ, N.pow_succ_r', E.
  assert (2 ^ N.size v <= 128 ^ N.size v)%N by (apply N.pow_le_mono_l; lia).
  assert (1 <= 128 ^ N.size v)%N by (assert (128 ^ N.size v <> 0)%N by (apply N.pow_nonzero; discriminate); lia). lia.
Qed.
Lemma mask_val b : mask b = (2 ^ b - 1)%N.
Proof. reflexivity. Qed.
Lemma flags_mod bits flags x : flags_ok bits flags -> (x < 2 ^ bits)%N -> ((flags + x) mod 2 ^ bits = x)%N.
Proof.
  intros (B & F & M) X. pose proof (pow_pos bits). rewrite N.add_mod by lia. rewrite M, N.add_0_l, N.mod_mod by lia. now apply N.mod_small.
Qed.
Theorem integer_decode bits flags v rest : flags_ok bits flags -> (v < 2 ^ 31 + 2 ^ bits - 1)%N ->
  hp_integer bits (rfc_int bits flags v ++ rest) = Ok (v, N.of_nat (length (rfc_int bits flags v)), rest).
Proof.
  intros F V. pose proof (pow_pos bits) as P. assert (P8 : (2 ^ bits <= 256)%N).
  { change 256%N with (2 ^ 8)%N. apply N.pow_le_mono_r; [discriminate|]. unfold flags_ok in F. lia. }
  unfold rfc_int. destruct (N.ltb_spec v (2 ^ bits - 1)) as [L|G].
  - cbn [app hp_integer length]. rewrite land_mask, (flags_mod _ _ _ F) by lia.
    rewrite mask_val. destruct (N.eqb_spec v (2 ^ bits - 1)); [lia|]. reflexivity.
  - cbn [app hp_integer length]. rewrite land_mask, (flags_mod _ _ _ F) by lia. rewrite mask_val, N.eqb_refl.
    pose proof (size_bound v) as SB.
    rewrite int_loop_spec; try rewrite N.pow_0_r; try lia.
    f_equal. f_equal. f_equal; lia.
Qed.
Lemma integer_overflow rest : hp_integer 7 (rfc_int 7 0 (2 ^ 31 + 127) ++ rest) = UB SignedOverflow.
Proof. reflexivity. Qed.

Lemma lor128 x : (x < 128)%N -> N.lor (x + 128) 128 = (x + 128)%N.
Proof.
  intros H. apply N.eqb_eq. pose proof (byte_all (fun b => if (b <? 128)%N then (N.lor (b + 128) 128 =? b + 128)%N else true)
    ltac:(vm_compute; reflexivity) x ltac:(lia)) as Q.
  cbn beta in Q. destruct (N.ltb_spec x 128); [exact Q|lia].
Qed.
Lemma set_loop_value rest : forall fuel now, (now < 128 ^ N.of_nat (S fuel))%N -> tail_value (set_loop (S fuel) now ++ rest) = Some (now, rest).
Proof.
  induction fuel as [|f IH]; intros now H.
  - change (now < 128)%N in H. cbn [set_loop]. destruct (N.ltb_spec now 128); [|lia].
    cbn [app tail_value]. rewrite land127, N.mod_small by lia. destruct (N.ltb_spec now 128); [reflexivity|lia].
  - change (set_loop (S (S f)) now) with (if (now <? 128)%N then [N.land now 127] else N.lor (now mod 128 + 128) 128 :: set_loop (S f) (now / 128)).
    destruct (N.ltb_spec now 128).
    + cbn [app tail_value]. rewrite land127, N.mod_small by lia. destruct (N.ltb_spec now 128); [reflexivity|lia].
    + cbn [app tail_value]. rewrite lor128 by lia. destruct (N.ltb_spec (now mod 128 + 128) 128); [lia|].
      rewrite IH. { f_equal. f_equal. lia. }
      rewrite Nat2N.inj_succ, N.pow_succ_r' in H. apply N.div_lt_upper_bound; lia.
Qed.
Lemma ldiff_flags bits flags : flags_ok bits flags -> N.ldiff flags (mask bits) = flags.
Proof.
  intros (B & F & M). apply N.bits_inj. intro i. rewrite N.ldiff_spec.
  destruct (N.testbit flags i) eqn:T; [|reflexivity]. rewrite <- land_mask in M.
  assert (Z : N.testbit (N.land flags (mask bits)) i = false) by (rewrite M; apply N.bits_0).
  rewrite N.land_spec, T in Z. cbn in Z. now rewrite Z.
Qed.
Lemma lor_low bits flags x : flags_ok bits flags -> ((N.lor flags x) mod 2 ^ bits = x mod 2 ^ bits)%N.
Proof.
  intros (B & F & M). rewrite <- !land_mask, N.land_lor_distr_l. rewrite <- land_mask in M. now rewrite M, N.lor_0_l.
Qed.
Lemma lor_high bits flags x : (N.lor flags x / 2 ^ bits = N.lor (flags / 2 ^ bits) (x / 2 ^ bits))%N.
Proof. rewrite <- !N.shiftr_div_pow2. apply N.shiftr_lor. Qed.
Lemma lor_add bits flags x : flags_ok bits flags -> (x < 2 ^ bits)%N -> N.lor flags x = (flags + x)%N.
Proof.
  intros F X. pose proof (pow_pos bits).
  rewrite (N.div_mod (N.lor flags x) (2 ^ bits)), (N.div_mod (flags + x) (2 ^ bits)) by lia.
  rewrite (lor_low _ _ _ F), (flags_mod _ _ _ F X), (N.mod_small x) by lia. f_equal. f_equal.
  rewrite lor_high, (N.div_small x) by lia. rewrite N.lor_0_r. destruct F as (B & F & M).
  symmetry. rewrite (N.div_mod flags (2 ^ bits)) at 1 by lia. rewrite M, N.add_0_r.
  rewrite N.mul_comm, N.add_comm, N.div_add by lia. rewrite (N.div_small x) by lia. lia.
Qed.
(** The condition under which an integer that does not fit the prefix is encoded correctly. *)
Definition lucky (bits flags v : N) : Prop := (N.lor flags (v mod 256) = flags + (2 ^ bits - 1) /\ v - (2 ^ bits - 1) < 2 ^ 31)%N.
Definition decodes_to (bits flags v : N) (rest : list N) (l : list N) : Prop :=
  rfc_decode_int bits l = Some (v, rest) /\ exists b t, l = b :: t /\ (b / 2 ^ bits = flags / 2 ^ bits)%N.
Lemma dm (n b : N) : (1 <= b -> n = b * (n / b) + n mod b)%N.
Proof. intros. apply N.div_mod. lia. Qed.
Lemma flags_plus_div bits flags x : flags_ok bits flags -> (x < 2 ^ bits)%N -> ((flags + x) / 2 ^ bits = flags / 2 ^ bits)%N.
Proof.
  intros F X. pose proof (pow_pos bits). rewrite <- (lor_add _ _ _ F X), lor_high, (N.div_small x) by lia. apply N.lor_0_r.
Qed.
Theorem integer_encode bits flags v rest : flags_ok bits flags -> (v < 2 ^ 32)%N ->
  (v < 2 ^ bits - 1 \/ lucky bits flags v)%N <-> decodes_to bits flags v rest (hp_set_integer bits flags v ++ rest).
Proof.
  intros F V. pose proof (pow_pos bits) as P. unfold hp_set_integer. rewrite (ldiff_flags _ _ F), mask_val.
  destruct (N.ltb_spec v (2 ^ bits - 1)) as [L|G].
  - split; [intros _|left; exact L]. rewrite (lor_add _ _ _ F) by lia. split.
    + cbn [app rfc_decode_int]. rewrite (flags_mod _ _ _ F) by lia. destruct (N.ltb_spec v (2 ^ bits - 1)); [reflexivity|lia].
    + eexists _, _. split; [reflexivity|]. apply flags_plus_div; [exact F|lia].
  - assert (D : (2 ^ bits <= 256 /\ (2 ^ bits | 256))%N).
    { destruct F as (B & _). split; [change 256%N with (2 ^ 8)%N; apply N.pow_le_mono_r; [discriminate|lia]|].
      exists (2 ^ (8 - bits))%N. rewrite <- N.pow_add_r. replace (8 - bits + bits)%N with 8%N by lia. reflexivity. }
    set (w := (v mod 256)%N) in *.
    cbn [app]. unfold decodes_to. cbn [rfc_decode_int]. rewrite (lor_low _ _ _ F).
    assert (W : (w mod 2 ^ bits < 2 ^ bits)%N) by (apply N.mod_lt; lia).
    destruct (N.ltb_spec (v - (2 ^ bits - 1)) (2 ^ 31)) as [S1|S1].
    + rewrite set_loop_value by (eapply N.lt_trans; [exact S1|reflexivity]).
      destruct (N.ltb_spec (w mod 2 ^ bits) (2 ^ bits - 1)) as [W1|W1].
      * split; [|intros [H _]; exfalso; injection H as H; lia].
        intros [X|[X _]]; [lia|]. exfalso. fold w in X. assert (Q := f_equal (fun x => (x mod 2 ^ bits)%N) X). cbn beta in Q.
        rewrite (lor_low _ _ _ F), (flags_mod _ _ _ F) in Q by lia. lia.
      * assert (W2 : (w mod 2 ^ bits = 2 ^ bits - 1)%N) by lia. rewrite W2.
        replace (2 ^ bits - 1 + (v - (2 ^ bits - 1)))%N with v by lia. split.
        -- intros [X|[X _]]; [lia|]. split; [reflexivity|]. eexists _, _. split; [reflexivity|].
           fold w in X. rewrite X. apply flags_plus_div; [exact F|lia].
        -- intros [_ (b & t & Q & H)]. right. split; [|exact S1]. injection Q as <- _. fold w.
           rewrite (dm (N.lor flags w) (2 ^ bits)), H, (lor_low _ _ _ F), W2 by lia.
           destruct F as (B & F & M). pose proof (dm flags (2 ^ bits) P) as D1. rewrite M, N.add_0_r in D1. f_equal. symmetry. exact D1.
    + split; [intros [X|[_ X]]; lia|]. intros [H _]. exfalso. cbn [app tail_value] in H. rewrite land127 in H.
      set (z := ((v - (2 ^ bits - 1)) mod 128)%N) in *.
      assert (Z : (z < 128)%N) by (apply N.mod_lt; discriminate). clearbody z.
      destruct (N.ltb_spec z 128); [|lia]. change (2 ^ 31)%N with 2147483648%N in S1. clear V.
      destruct D as [D _]. clearbody w. set (u := (w mod 2 ^ bits)%N) in *. clearbody u. set (m := (2 ^ bits)%N) in *. clearbody m. clear F.
      destruct (N.ltb_spec u (m - 1)); injection H as H; lia.
Qed.
(** An integer below the full prefix is encoded as the RFC does. *)
Lemma set_small bits flags v : flags_ok bits flags -> (v < 2 ^ bits - 1)%N -> hp_set_integer bits flags v = rfc_int bits flags v.
Proof.
  intros F L. unfold hp_set_integer, rfc_int. rewrite (ldiff_flags _ _ F), mask_val.
  destruct (N.ltb_spec v (2 ^ bits - 1)); [|lia]. now rewrite (lor_add _ _ _ F) by lia.
Qed.

(** ** Dynamic table *)
Lemma esize_eq f : esize f = entry_size f.
Proof. reflexivity. Qed.
Lemma tsize_cons f l : tsize (f :: l) = (esize f + tsize l)%N.
Proof. reflexivity. Qed.
Lemma tsize_app a b : tsize (a ++ b) = (tsize a + tsize b)%N.
Proof. induction a as [|x a IH]; cbn [app]; [reflexivity|]. rewrite !tsize_cons, IH. lia. Qed.
Lemma fits_all : forall l max, (tsize l <= max)%N -> fits max l = l.
Proof.
  induction l as [|f l IH]; intros max H; [reflexivity|]. rewrite tsize_cons in H. cbn [fits].
  destruct (N.leb_spec (esize f) max); [|lia]. f_equal. apply IH. lia.
Qed.
Lemma fits_snoc e : forall l max, (max < tsize (l ++ [e]))%N -> fits max (l ++ [e]) = fits max l.
Proof.
  induction l as [|f l IH]; intros max H.
  - cbn [app fits]. cbn [app] in H. rewrite tsize_cons in H. change (tsize []) with 0%N in H. destruct (N.leb_spec (esize e) max); [lia|reflexivity].
  - cbn [app] in *. rewrite tsize_cons in H. cbn [fits]. destruct (N.leb_spec (esize f) max); [|reflexivity]. f_equal. apply IH. lia.
Qed.
Lemma fits_fits : forall l a b, (a <= b)%N -> fits a (fits b l) = fits a l.
Proof.
  induction l as [|f l IH]; intros a b H; [reflexivity|]. cbn [fits].
  destruct (N.leb_spec (esize f) b), (N.leb_spec (esize f) a); cbn [fits]; try reflexivity; try lia.
  - destruct (N.leb_spec (esize f) a); [|lia]. f_equal. apply IH. lia.
  - destruct (N.leb_spec (esize f) a); [lia|reflexivity].
Qed.
Lemma fits_le : forall l max, (tsize (fits max l) <= max)%N.
Proof.
  induction l as [|f l IH]; intros max; cbn [fits]; [change (tsize []) with 0%N; lia|].
  destruct (N.leb_spec (esize f) max); [|change (tsize []) with 0%N; lia]. rewrite tsize_cons. specialize (IH (max - esize f)%N). lia.
Qed.
Lemma fits_longest : forall l max, exists rest, l = fits max l ++ rest /\ (tsize (fits max l) <= max)%N /\
  (rest = [] \/ exists e t, rest = e :: t /\ max < tsize (fits max l) + esize e)%N.
Proof.
  induction l as [|f l IH]; intros max.
  - exists []. split; [reflexivity|]. split; [apply fits_le|now left].
  - cbn [fits]. destruct (N.leb_spec (esize f) max) as [L|G].
    + destruct (IH (max - esize f)%N) as (rest & E & B & C). exists rest. split; [cbn [app]; congruence|]. rewrite tsize_cons.
      split; [lia|]. destruct C as [C|(e & t & C1 & C2)]; [now left|right]. exists e, t. split; [exact C1|lia].
    + exists (f :: l). split; [reflexivity|]. split; [change (tsize []) with 0%N; lia|]. right. exists f, l.
      split; [reflexivity|]. change (tsize []) with 0%N. lia.
Qed.
(** The counters agree with the entries. *)
Definition counted (d : dtable) : Prop :=
  dt_size d = tsize (dt_entries d) /\ dt_count d = N.of_nat (length (dt_entries d)) /\ dt_max_index d = (N.of_nat (length (dt_entries d)) + 61)%N.
Lemma evict_spec limit : forall fuel d, counted d -> length (dt_entries d) <= fuel ->
  exists d', dt_evict fuel limit d = Ok d' /\ counted d' /\ dt_entries d' = fits limit (dt_entries d).
Proof.
  induction fuel as [|k IH]; intros d (S1 & C1 & M1) L; cbn [dt_evict]; destruct (N.ltb_spec limit (dt_size d)) as [Q|Q].
  - exfalso. destruct (dt_entries d); cbn [length] in L; [|lia]. rewrite S1 in Q. change (tsize []) with 0%N in Q. lia.
  - exists d. split; [reflexivity|]. split; [now repeat split|]. symmetry. apply fits_all. lia.
  - destruct (rev (dt_entries d)) as [|e t] eqn:R.
    + exfalso. assert (E : dt_entries d = []) by (rewrite <- (rev_involutive (dt_entries d)), R; reflexivity).
      rewrite E in S1. rewrite S1 in Q. change (tsize []) with 0%N in Q. lia.
    + assert (E : dt_entries d = rev t ++ [e]) by (rewrite <- (rev_involutive (dt_entries d)), R; reflexivity).
      assert (Ln : length (dt_entries d) = S (length (rev t))) by (rewrite E, app_length; cbn; lia).
      assert (Ts : tsize (dt_entries d) = (tsize (rev t) + esize e)%N).
      { rewrite E, tsize_app. cbn [tsize fold_right]. lia. }
      destruct (IH (dt_remove d)) as (d' & R1 & R2 & R3).
      * unfold dt_remove. destruct (N.eqb_spec (dt_count d) 0); [lia|]. rewrite R. unfold counted. cbn [dt_entries dt_size dt_count dt_max_index].
        rewrite <- esize_eq. split; [lia|]. split; lia.
      * unfold dt_remove. destruct (N.eqb_spec (dt_count d) 0); [lia|]. rewrite R. cbn [dt_entries]. lia.
      * exists d'. split; [exact R1|]. split; [exact R2|]. rewrite R3. unfold dt_remove.
        destruct (N.eqb_spec (dt_count d) 0); [lia|]. rewrite R. cbn [dt_entries]. rewrite E. symmetry. apply fits_snoc.
        rewrite tsize_app. cbn [tsize fold_right]. lia.
  - exists d. split; [reflexivity|]. split; [now repeat split|]. symmetry. apply fits_all. lia.
Qed.
Lemma add_spec limit d f : counted d -> exists d', dt_add limit d f = Ok d' /\ counted d' /\ dt_entries d' = fits limit (f :: dt_entries d).
Proof.
  intros (S1 & C1 & M1). unfold dt_add. apply evict_spec.
  - unfold counted. cbn [dt_entries dt_size dt_count dt_max_index length]. rewrite tsize_cons, <- esize_eq. unfold STATIC. split; [lia|]. split; lia.
  - cbn [dt_entries]. lia.
Qed.
Fixpoint adds (limit : N) (d : dtable) (l : list field) : outcome dtable :=
  match l with [] => Ok d | f :: t => obind (dt_add limit d f) (fun d' => adds limit d' t) end.
Lemma adds_spec limit : forall l d hist, counted d -> dt_entries d = fits limit hist ->
  exists d', adds limit d l = Ok d' /\ counted d' /\ dt_entries d' = fits limit (rev l ++ hist).
Proof.
  induction l as [|f l IH]; intros d hist C E.
  - exists d. cbn [adds rev app]. auto.
  - destruct (add_spec limit d f C) as (d1 & A1 & A2 & A3). cbn [adds]. rewrite A1. cbn [obind].
    destruct (IH d1 (f :: hist) A2) as (d2 & B1 & B2 & B3).
    + rewrite A3, E. cbn [fits]. destruct (N.leb_spec (esize f) limit); [|reflexivity]. f_equal. apply fits_fits. lia.
    + exists d2. split; [exact B1|]. split; [exact B2|]. rewrite B3. cbn [rev]. now rewrite <- app_assoc.
Qed.
Lemma init_counted : counted dt_init.
Proof. repeat split. Qed.
Theorem dynamic_table limit ins : exists d rest, adds limit dt_init ins = Ok d /\ rev ins = dt_entries d ++ rest /\
  (tsize (dt_entries d) <= limit)%N /\ (rest = [] \/ exists e t, rest = e :: t /\ limit < tsize (dt_entries d) + esize e)%N /\
  forall i, (62 <= i)%N -> lookup d (i - 1) = match nth_error (dt_entries d) (N.to_nat (i - 62)) with Some f => f | None => ([], []) end.
Proof.
  destruct (adds_spec limit ins dt_init [] init_counted eq_refl) as (d & A1 & (S1 & C1 & M1) & A3). rewrite app_nil_r in A3.
  destruct (fits_longest (rev ins) limit) as (rest & E & B & C). exists d, rest. rewrite A3 in *.
  split; [exact A1|]. split; [exact E|]. split; [exact B|]. split; [exact C|].
  intros i I. unfold lookup, STATIC. destruct (N.ltb_spec (i - 1) 61); [lia|]. rewrite A3, M1.
  replace (i - 1 - 61)%N with (i - 62)%N by lia.
  destruct (N.ltb_spec (i - 1) (N.of_nat (length (fits limit (rev ins))) + 61)); [reflexivity|].
  destruct (nth_error (fits limit (rev ins)) (N.to_nat (i - 62))) eqn:X; [|reflexivity].
  assert (Y : nth_error (fits limit (rev ins)) (N.to_nat (i - 62)) <> None) by congruence. apply nth_error_Some in Y. lia.
Qed.

(** ** Static table *)
Definition as_field (e : list N * option (list N)) : hfield := (fst e, match snd e with Some v => v | None => [] end).
Definition static_chk (i : N) : bool :=
  match nth_error static_table (N.to_nat (i - 1)), nth_error rfc_static (N.to_nat (i - 1)) with
  | Some e, Some r => ((i =? 41)%N || bytes_eqb (fst (as_field e)) (fst r)) &&
                      ((i =? 16)%N || (i =? 17)%N || bytes_eqb (snd (as_field e)) (snd r))
  | _, _ => false
  end.
Lemma static_all i : (1 <= i <= 61)%N -> static_chk i = true.
Proof.
  intros H. pose proof (byte_all (fun i => if (1 <=? i)%N && (i <=? 61)%N then static_chk i else true) ltac:(vm_compute; reflexivity) i ltac:(lia)) as Q.
  cbn beta in Q. destruct (N.leb_spec 1 i), (N.leb_spec i 61); cbn [andb] in Q; try lia; exact Q.
Qed.
Lemma lookup_static d i : (1 <= i <= 61)%N -> exists r, resolve (dt_entries d) i = Some r /\
  (i <> 41%N -> fst (lookup d (i - 1)) = fst r) /\ (i <> 16%N -> i <> 17%N -> snd (lookup d (i - 1)) = snd r).
Proof.
  intros H. pose proof (static_all i H) as Q. unfold static_chk in Q. unfold resolve, lookup, STATIC.
  destruct (N.eqb_spec i 0); [lia|]. destruct (N.leb_spec i 61); [|lia]. destruct (N.ltb_spec (i - 1) 61); [|lia].
  destruct (nth_error static_table (N.to_nat (i - 1))) as [[nm vl]|]; [|discriminate].
  destruct (nth_error rfc_static (N.to_nat (i - 1))) as [r|]; [|discriminate]. exists r. split; [reflexivity|].
  unfold as_field in Q. cbn [fst snd] in *. apply andb_prop in Q as [Q1 Q2].
  split.
  - intros X. apply orb_prop in Q1 as [Q1|Q1]; [lia|]. now apply bytes_eqb_eq in Q1.
  - intros X Y. apply orb_prop in Q2 as [Q2|Q2]; [lia|]. now apply bytes_eqb_eq in Q2.
Qed.
Lemma wrap_index i : (1 <= i < 2 ^ 32)%N -> u32 (i + 2 ^ 32 - 1) = (i - 1)%N.
Proof.
  intros H. unfold u32. replace (i + 2 ^ 32 - 1)%N with (i - 1 + 1 * 2 ^ 32)%N by lia.
  rewrite N.mod_add by discriminate. apply N.mod_small. lia.
Qed.
Lemma lookup_resolve d i r : counted d -> resolve (dt_entries d) i = Some r ->
  (i <> 41%N -> fst (lookup d (i - 1)) = fst r) /\ (i <> 16%N -> i <> 17%N -> snd (lookup d (i - 1)) = snd r).
Proof.
  intros (S1 & C1 & M1) H. destruct (N.leb_spec i 61) as [L|G].
  - destruct (N.eqb_spec i 0) as [->|]; [discriminate|]. destruct (lookup_static d i) as (r' & E & A); [lia|].
    rewrite E in H. injection H as ->. exact A.
  - unfold resolve in H. destruct (N.eqb_spec i 0); [lia|]. destruct (N.leb_spec i 61); [lia|].
    unfold lookup, STATIC. destruct (N.ltb_spec (i - 1) 61); [lia|]. replace (i - 1 - 61)%N with (i - 62)%N by lia.
    assert (Y : nth_error (dt_entries d) (N.to_nat (i - 62)) <> None) by congruence. apply nth_error_Some in Y.
    destruct (N.ltb_spec (i - 1) (dt_max_index d)); [|lia]. rewrite H. auto.
Qed.

(** ** Huffman *)
Lemma huffman_bits_ok : huffman_table = map (fun '(s, c, l) => (s, code_bits (N.to_nat l) c)) huffman_codes.
Proof. vm_compute. reflexivity. Qed.
Lemma match_code_app rest : forall code c b, match_code code c = Some b -> match_code code (c ++ rest) = Some b.
Proof.
  induction code as [|x code IH]; intros c b H; cbn [match_code] in *.
  - now destruct (c ++ rest).
  - destruct c as [|y c]; [discriminate|]. cbn [app match_code]. destruct (Bool.eqb x y); [now apply IH|exact H].
Qed.
Fixpoint code_chk (t : list (N * list bool)) (c : list bool) (s : N) : bool :=
  match t with
  | [] => false
  | (sym, code) :: r => match match_code code c with
                        | Some true => (sym =? s)%N && (length code =? length c)
                        | Some false => code_chk r c s
                        | None => false
                        end
  end.
Lemma code_chk_sound rest c s : forall t, code_chk t c s = true -> find_code t (c ++ rest) = Ok (Some (s, length c)).
Proof.
  induction t as [|[sym code] t IH]; intros H; cbn [code_chk find_code] in *; [discriminate|].
  destruct (match_code code c) as [[]|] eqn:M; try discriminate; rewrite (match_code_app rest _ _ _ M).
  - apply andb_prop in H as [A B]. apply N.eqb_eq in A. apply Nat.eqb_eq in B. rewrite A, B. reflexivity.
  - now apply IH.
Qed.
Definition good (b : N) : Prop := (b < 256 /\ b <> 13)%N.
Lemma find_rfc s rest : good s -> find_code huffman_table (rfc_code s ++ rest) = Ok (Some (s, length (rfc_code s))).
Proof.
  intros [L N13]. apply code_chk_sound.
  pose proof (byte_all (fun s => (s =? 13)%N || code_chk huffman_table (rfc_code s) s) ltac:(vm_compute; reflexivity) s L) as Q.
  cbn beta in Q. apply orb_prop in Q as [Q|Q]; [lia|exact Q].
Qed.
Lemma code_shape s : (s < 256)%N -> 5 <= length (rfc_code s) <= 30 /\ forallb (fun b => b) (rfc_code s) = false.
Proof.
  intros L. pose proof (byte_all (fun s => (5 <=? length (rfc_code s)) && (length (rfc_code s) <=? 30) && negb (forallb (fun b => b) (rfc_code s)))
    ltac:(vm_compute; reflexivity) s L) as Q. cbn beta in Q. apply andb_prop in Q as [Q1 Q2]. apply andb_prop in Q1 as [Q0 Q1].
  apply Nat.leb_le in Q0, Q1. split; [lia|]. now apply negb_true_iff in Q2.
Qed.
Lemma forallb_repeat n : forallb (fun b : bool => b) (repeat true n) = true.
Proof. induction n; cbn; auto. Qed.
Lemma huff_len s : Forall good s -> length s <= length (huff_bits s) <= 30 * length s.
Proof.
  induction 1 as [|b s [G _] F IH]; cbn [huff_bits flat_map length]; [lia|]. rewrite app_length. fold (huff_bits s).
  destruct (code_shape b G) as [H _]. lia.
Qed.
Lemma huff_loop_spec rest : forall s pad start len out fuel,
  Forall good s -> pad < 8 -> start < 8 -> (8 * len = N.of_nat (length (huff_bits s) + pad + start))%N -> (len < 2 ^ 32)%N ->
  (N.of_nat (length out + length s) <= 20000)%N -> length s < fuel ->
  huff_loop fuel (huff_bits s ++ repeat true pad ++ rest) start len out = Ok (Some (out ++ s)).
Proof.
  induction s as [|c s IH]; intros pad start len out fuel F P St L32 LB OB FU.
  - destruct fuel as [|f]; [lia|]. cbn [huff_bits flat_map length app] in *. cbn [huff_loop]. rewrite app_nil_r.
    destruct (N.eqb_spec len 0) as [->|Z]; [reflexivity|].
    assert (len = 1%N) by lia. subst len. rewrite N.eqb_refl. assert (8 - start = pad) by lia. rewrite H.
    rewrite firstn_app, repeat_length, Nat.sub_diag, firstn_O, app_nil_r.
    rewrite firstn_all2 by (rewrite repeat_length; lia). rewrite forallb_repeat.
    rewrite app_length, repeat_length. destruct (Nat.leb_spec pad (pad + length rest)); [reflexivity|lia].
  - inversion F as [|? ? G F']; subst. destruct fuel as [|f]; [lia|]. cbn [length] in *.
    change (huff_bits (c :: s)) with (rfc_code c ++ huff_bits s) in *. rewrite app_length in L32.
    destruct (code_shape c (proj1 G)) as [CS CO]. cbn [huff_loop].
    destruct (N.eqb_spec len 0) as [->|Z]; [lia|].
    assert (X : (len =? 1)%N && forallb (fun b => b) (firstn (8 - start) ((rfc_code c ++ huff_bits s) ++ repeat true pad ++ rest)) = false).
    { destruct (N.eqb_spec len 1) as [->|]; [|reflexivity]. cbn [andb]. rewrite <- app_assoc, firstn_app.
      rewrite firstn_all2 by lia. rewrite forallb_app, CO. reflexivity. }
    rewrite X. cbn [andb]. rewrite <- app_assoc, (find_rfc c _ G). cbn [obind].
    unfold HUFF_CAP. destruct (N.leb_spec 20000 (N.of_nat (length out))); [lia|].
    rewrite skipn_app, skipn_all2, Nat.sub_diag by lia. cbn [app skipn].
    set (n := length (rfc_code c)) in *. clearbody n.
    assert (U : u32 (len + 2 ^ 32 - N.of_nat ((start + n) / 8)) = (len - N.of_nat ((start + n) / 8))%N).
    { unfold u32. assert (N.of_nat ((start + n) / 8) <= len)%N by lia.
      replace (len + 2 ^ 32 - N.of_nat ((start + n) / 8))%N with (len - N.of_nat ((start + n) / 8) + 1 * 2 ^ 32)%N by lia.
      rewrite N.mod_add by discriminate. apply N.mod_small. lia. }
    rewrite U. destruct G as [G1 G2]. rewrite N.mod_small by exact G1. rewrite IH; [now rewrite <- app_assoc|exact F'|exact P| | | | |].
    + apply Nat.mod_upper_bound. discriminate.
    + lia.
    + lia.
    + rewrite app_length. cbn [length]. lia.
    + lia.
Qed.
Lemma pack_bits : forall k l, length l = 8 * k -> bits_of (pack l) = l /\ length (pack l) = k /\ Forall (fun b => b < 256)%N (pack l).
Proof.
  induction k as [|k IH]; intros l H.
  - destruct l; [|discriminate]. repeat split. constructor.
  - destruct l as [|a [|b [|c [|d [|e [|f [|g [|h l]]]]]]]]; cbn [length] in H; try lia.
    destruct (IH l) as (A & B & C); [lia|]. cbn [pack length]. unfold bits_of in *. cbn [flat_map]. rewrite A. split; [|split].
    + destruct a, b, c, d, e, f, g, h; reflexivity.
    + lia.
    + constructor; [|exact C]. destruct a, b, c, d, e, f, g, h; reflexivity.
Qed.
Lemma rfc_huffman_bits s : exists k, bits_of (rfc_huffman s) = huff_bits s ++ repeat true (pad_len (length (huff_bits s))) /\
  length (rfc_huffman s) = k /\ 8 * k = length (huff_bits s) + pad_len (length (huff_bits s)) /\ pad_len (length (huff_bits s)) < 8.
Proof.
  set (n := length (huff_bits s)). assert (P : pad_len n < 8) by (apply Nat.mod_upper_bound; discriminate).
  assert (M : (n + pad_len n) mod 8 = 0) by (unfold pad_len; lia).
  exists ((n + pad_len n) / 8). destruct (pack_bits ((n + pad_len n) / 8) (huff_bits s ++ repeat true (pad_len n))) as (A & B & _).
  { rewrite app_length, repeat_length. fold n. lia. }
  unfold rfc_huffman. fold n. split; [exact A|]. split; [exact B|]. split; [lia|exact P].
Qed.
Theorem huffman_decode_spec s rest : Forall good s -> (N.of_nat (length s) <= 20000)%N ->
  huffman_decode (rfc_huffman s ++ rest) (N.of_nat (length (rfc_huffman s))) = Ok (Some s).
Proof.
  intros G L. destruct (rfc_huffman_bits s) as (k & B & K & E & P). unfold huffman_decode.
  unfold bits_of. rewrite flat_map_app. fold (bits_of (rfc_huffman s)). fold (bits_of rest). rewrite B, <- app_assoc.
  pose proof (huff_len s G) as H. rewrite K. rewrite huff_loop_spec; [reflexivity|exact G|exact P|lia|lia| | |].
  - change (2 ^ 32)%N with 4294967296%N. lia.
  - cbn [length]. lia.
  - rewrite app_length. lia.
Qed.

(** ** Representations *)
Definition str_ok (huff : bool) (s : list N) : Prop :=
  if huff then Forall good s /\ (N.of_nat (length s) <= 20000)%N else (N.of_nat (length s) < 2 ^ 31)%N.
Lemma rfc_int_head bits flags v : exists t, rfc_int bits flags v = (flags + N.min v (2 ^ bits - 1))%N :: t.
Proof.
  unfold rfc_int. destruct (N.ltb_spec v (2 ^ bits - 1)); eexists; (replace (N.min v (2 ^ bits - 1)) with v by lia; reflexivity) ||
    (replace (N.min v (2 ^ bits - 1)) with (2 ^ bits - 1)%N by lia; reflexivity).
Qed.
Lemma take_app o rest : take (N.of_nat (length o)) (o ++ rest) = Ok o.
Proof.
  unfold take. rewrite app_length. destruct (N.leb_spec (N.of_nat (length o)) (N.of_nat (length o + length rest))); [|lia].
  rewrite Nat2N.id, firstn_app, firstn_all, Nat.sub_diag, firstn_O. now rewrite app_nil_r.
Qed.
Lemma skip_app o rest : skip (N.of_nat (length o)) (o ++ rest) = Ok rest.
Proof.
  unfold skip. rewrite app_length. destruct (N.leb_spec (N.of_nat (length o)) (N.of_nat (length o + length rest))); [|lia].
  rewrite Nat2N.id, skipn_app, skipn_all, Nat.sub_diag. reflexivity.
Qed.
Lemma huff_octets s : Forall good s -> (N.of_nat (length s) <= 20000)%N -> (N.of_nat (length (rfc_huffman s)) < 2 ^ 31)%N.
Proof.
  intros G L. destruct (rfc_huffman_bits s) as (k & B & K & E & P). pose proof (huff_len s G).
  change (2 ^ 31)%N with 2147483648%N. lia.
Qed.
Lemma string_spec huff s rest : str_ok huff s -> (N.of_nat (length (enc_string huff s)) < 2 ^ 32)%N ->
  string_lit (enc_string huff s ++ rest) = Ok (Some (s, N.of_nat (length (enc_string huff s)), rest)).
Proof.
  unfold enc_string. set (o := if huff then rfc_huffman s else s). set (fl := if huff then 128%N else 0%N).
  intros S0 B. rewrite <- app_assoc.
  destruct (rfc_int_head 7 fl (N.of_nat (length o))) as (t & E).
  assert (F : flags_ok 7 fl) by (unfold fl; destruct huff; repeat split; (reflexivity || discriminate)).
  assert (L : (N.of_nat (length o) < 2 ^ 31)%N) by (unfold o; destruct huff; [apply huff_octets; apply S0|exact S0]).
  pose proof (integer_decode 7 fl (N.of_nat (length o)) (o ++ rest) F ltac:(lia)) as I. unfold string_lit.
  assert (H : is_huffman (fl + N.min (N.of_nat (length o)) (2 ^ 7 - 1)) = huff).
  { unfold is_huffman. rewrite land128; [|unfold fl; destruct huff; lia].
    unfold fl. destruct huff; [destruct (N.ltb_spec (128 + N.min (N.of_nat (length o)) (2 ^ 7 - 1)) 128)|destruct (N.ltb_spec (0 + N.min (N.of_nat (length o)) (2 ^ 7 - 1)) 128)]; (reflexivity || lia). }
  rewrite app_length in B. rewrite E in *. cbn [app] in *. rewrite I. cbn [obind]. rewrite H.
  assert (D : (if huff then huffman_decode (o ++ rest) (N.of_nat (length o)) else obind (take (N.of_nat (length o)) (o ++ rest)) (fun s => Ok (Some s))) = Ok (Some s)).
  { unfold o. destruct huff; [apply huffman_decode_spec; apply S0|]. rewrite take_app. reflexivity. }
  rewrite D. cbn [obind]. rewrite skip_app. cbn [obind]. unfold u32. rewrite N.mod_small by (cbn [length] in *; lia).
  f_equal. f_equal. f_equal. f_equal. cbn [length]. rewrite app_length. lia.
Qed.
Definition of_mode (m : mode) : itype := match m with Incremental => IUpdate | WithoutIndexing => INoUpdate | NeverIndexed => INoIndex end.
Lemma class_index m k : (1 <= k <= 2 ^ mode_bits m - 1)%N ->
  is_index (mode_flags m + k) = false /\ classify (mode_flags m + k) = Some (of_mode m) /\ is_literal (mode_flags m + k) = false.
Proof.
  intros H.
  pose proof (byte_all (fun k => if (1 <=? k)%N && (k <=? 2 ^ mode_bits m - 1)%N then negb (is_index (mode_flags m + k)) &&
    match classify (mode_flags m + k), of_mode m with Some IUpdate, IUpdate | Some INoUpdate, INoUpdate | Some INoIndex, INoIndex => true | _, _ => false end &&
    negb (is_literal (mode_flags m + k)) else true) ltac:(destruct m; vm_compute; reflexivity) k ltac:(destruct m; cbn [mode_bits] in H; lia)) as Q.
  cbn beta in Q. destruct (N.leb_spec 1 k), (N.leb_spec k (2 ^ mode_bits m - 1)); cbn [andb] in Q; try lia.
  apply andb_prop in Q as [Q Q3]. apply andb_prop in Q as [Q1 Q2]. apply negb_true_iff in Q1, Q3. split; [exact Q1|]. split; [|exact Q3].
  destruct (classify (mode_flags m + k)) as [[]|], m; cbn in Q2; try discriminate; reflexivity.
Qed.
Lemma class_indexed k : (k <= 127)%N -> is_index (128 + k) = true.
Proof. intros H. unfold is_index. rewrite land128 by lia. destruct (N.ltb_spec (128 + k) 128); [lia|reflexivity]. Qed.
(** What is excluded for one representation: the wrong static entries, the misread first octet 0x10,
    size updates, strings that are too long, and (Huffman coded) carriage returns. *)
Definition rep_ok (r : rep) : Prop :=
  match r with
  | Indexed i => i <> 16%N /\ i <> 17%N /\ i <> 41%N
  | Literal m n h v => match n with NameIndex i => i <> 41%N | NameLit h s => m <> NeverIndexed /\ str_ok h s end /\ str_ok h v
  | SizeUpdate _ => False
  end.
Lemma len_tsize : forall l : list hfield, (32 * N.of_nat (length l) <= tsize l)%N.
Proof. induction l as [|f l IH]; [reflexivity|]. rewrite tsize_cons. cbn [length]. unfold esize. lia. Qed.
Lemma resolve_bound d i r limit : (tsize (dt_entries d) <= limit)%N -> (limit < 2 ^ 31)%N -> resolve (dt_entries d) i = Some r -> (1 <= i < 2 ^ 31)%N.
Proof.
  intros T L H. unfold resolve in H. destruct (N.eqb_spec i 0); [discriminate|]. destruct (N.leb_spec i 61); [lia|].
  assert (Y : nth_error (dt_entries d) (N.to_nat (i - 62)) <> None) by congruence. apply nth_error_Some in Y.
  pose proof (len_tsize (dt_entries d)). lia.
Qed.
Lemma u32_add a b : (a + b < 2 ^ 32)%N -> u32 (a + b) = (a + b)%N.
Proof. intros. unfold u32. now apply N.mod_small. Qed.
Lemma field_spec limit d r rest total h : counted d -> (tsize (dt_entries d) <= limit)%N -> (limit < 2 ^ 31)%N -> rep_ok r ->
  (total + N.of_nat (length (enc_rep r)) < 2 ^ 32)%N ->
  forall tab' fs, meaning limit (dt_entries d) r = Some (limit, tab', fs) ->
  exists d', parse_field limit (enc_rep r ++ rest) total h d = Ok (FNext (total + N.of_nat (length (enc_rep r))) rest (h ++ fs) d') /\
    counted d' /\ dt_entries d' = tab' /\ (tsize tab' <= limit)%N.
Proof.
  intros C T LM RO TB tab' fs M. destruct r as [i|m n hv v|k]; [| |contradiction].
  - cbn [meaning] in M. destruct (resolve (dt_entries d) i) as [f|] eqn:R; [|discriminate]. injection M as <- <-.
    pose proof (resolve_bound _ _ _ _ T LM R) as IB. destruct (lookup_resolve d i f C R) as [R1 R2]. destruct RO as (N16 & N17 & N41).
    exists d. split; [|auto]. cbn [enc_rep] in *.
    destruct (rfc_int_head 7 128 i) as (t & E).
    pose proof (integer_decode 7 128 i rest ltac:(repeat split; (reflexivity || discriminate)) ltac:(lia)) as I.
    unfold parse_field. rewrite E in *. cbn [app] in *. rewrite (class_indexed _) by lia. rewrite I. cbn [obind].
    rewrite u32_add by lia. rewrite wrap_index by lia. f_equal. f_equal. f_equal. f_equal.
    rewrite (surjective_pairing (lookup d (i - 1))), R1, R2 by assumption. symmetry. apply surjective_pairing.
  - cbn [meaning] in M. destruct RO as [NO VO].
    destruct (match n with NameIndex i => option_map fst (resolve (dt_entries d) i) | NameLit _ s => Some s end) as [name|] eqn:NM; [|discriminate].
    injection M as <- <-.
    assert (ADD : exists d', match of_mode m with IUpdate => dt_add limit d (name, v) | _ => Ok d end = Ok d' /\ counted d' /\
              dt_entries d' = match m with Incremental => fits limit ((name, v) :: dt_entries d) | _ => dt_entries d end /\
              (tsize (match m with Incremental => fits limit ((name, v) :: dt_entries d) | _ => dt_entries d end) <= limit)%N).
    { destruct m; cbn [of_mode]; [|exists d; auto|exists d; auto].
      destruct (add_spec limit d (name, v) C) as (d' & A1 & A2 & A3). exists d'. split; [exact A1|]. split; [exact A2|]. split; [exact A3|]. apply fits_le. }
    destruct ADD as (d' & A1 & A2 & A3 & A4). exists d'. split; [|auto]. cbn [enc_rep] in *. rewrite app_length in TB.
    assert (FL : flags_ok (mode_bits m) (mode_flags m)) by (destruct m; repeat split; (reflexivity || discriminate)).
    destruct n as [i|hn s].
    + destruct (resolve (dt_entries d) i) as [f|] eqn:R; [|discriminate]. cbn [option_map] in NM. injection NM as NM.
      pose proof (resolve_bound _ _ _ _ T LM R) as IB. destruct (lookup_resolve d i f C R) as [R1 _].
      destruct (rfc_int_head (mode_bits m) (mode_flags m) i) as (t & E).
      assert (P8 : (2 <= 2 ^ mode_bits m)%N) by (destruct m; discriminate).
      pose proof (integer_decode (mode_bits m) (mode_flags m) i (enc_string hv v ++ rest) FL ltac:(lia)) as I.
      destruct (class_index m (N.min i (2 ^ mode_bits m - 1))) as (K1 & K2 & K3); [lia|].
      rewrite <- app_assoc. unfold parse_field. rewrite !app_length. rewrite E in *. cbn [app] in *. rewrite K1, K2, K3.
      replace (prefix_of (of_mode m)) with (mode_bits m) by (destruct m; reflexivity).
      rewrite I. cbn [obind]. rewrite string_spec by (assumption || lia). cbn [obind].
      rewrite wrap_index by lia. rewrite R1 by assumption. rewrite NM, A1. cbn [obind].
      rewrite !u32_add by (try rewrite u32_add by lia; lia). rewrite !Nat2N.inj_add. reflexivity.
    + injection NM as <-. destruct NO as [MN SO].
      assert (E : rfc_int (mode_bits m) (mode_flags m) 0 = [mode_flags m]) by (destruct m; reflexivity).
      rewrite E in *. cbn [app length] in *. rewrite <- app_assoc. unfold parse_field.
      assert (K : is_index (mode_flags m) = false /\ classify (mode_flags m) = Some (of_mode m) /\ is_literal (mode_flags m) = true)
        by (destruct m; [repeat split|repeat split|contradiction]).
      destruct K as (K1 & K2 & K3). rewrite K1, K2, K3.
      rewrite string_spec by (assumption || lia). cbn [obind]. rewrite string_spec by (assumption || lia). cbn [obind].
      rewrite A1. cbn [obind]. rewrite app_length, Nat2N.inj_succ, Nat2N.inj_add.
      assert (X : u32 (1 + N.of_nat (length (enc_string hn s)) + N.of_nat (length (enc_string hv v)))
                  = (1 + N.of_nat (length (enc_string hn s)) + N.of_nat (length (enc_string hv v)))%N) by (apply u32_add; lia).
      rewrite X, u32_add by lia. f_equal. f_equal. lia.
Qed.
Lemma meaning_limit limit tab r m' tab' fs : rep_ok r -> meaning limit tab r = Some (m', tab', fs) -> m' = limit.
Proof.
  intros RO M. destruct r as [i|m n hv v|k]; [| |contradiction]; cbn [meaning] in M.
  - destruct (resolve tab i); [|discriminate]. congruence.
  - destruct (match n with NameIndex i => option_map fst (resolve tab i) | NameLit _ s => Some s end); [|discriminate]. congruence.
Qed.
Lemma enc_rep_pos r : 1 <= length (enc_rep r).
Proof.
  destruct r as [i|m n hv v|k]; cbn [enc_rep].
  - destruct (rfc_int_head 7 128 i) as (t & ->). cbn [length]. lia.
  - rewrite app_length. destruct n as [i|hn s]; [destruct (rfc_int_head (mode_bits m) (mode_flags m) i) as (t & ->); cbn [length]; lia|].
    rewrite app_length. destruct (rfc_int_head (mode_bits m) (mode_flags m) 0) as (t & ->). cbn [length]. lia.
  - destruct (rfc_int_head 5 32 k) as (t & ->). cbn [length]. lia.
Qed.
Lemma block_loop limit rest : (limit < 2 ^ 31)%N -> forall rs d total h fuel len, counted d -> (tsize (dt_entries d) <= limit)%N -> Forall rep_ok rs ->
  len = (total + N.of_nat (length (enc_block rs)))%N -> (len < 2 ^ 32)%N -> length rs < fuel ->
  forall hs tab', meaning_block limit (dt_entries d) rs = Some (hs, tab') ->
  exists d', parse_loop fuel limit len (enc_block rs ++ rest) total h d = Ok (PDone (h ++ hs) d') /\ counted d' /\ dt_entries d' = tab' /\ (tsize tab' <= limit)%N.
Proof.
  intros LM. induction rs as [|r rs IH]; intros d total h fuel len C T RO -> LB FU hs tab' M.
  - cbn [meaning_block] in M. injection M as <- <-. exists d. cbn [enc_block flat_map length app] in *. rewrite N.add_0_r, app_nil_r.
    destruct fuel; [lia|]. cbn [parse_loop]. rewrite N.ltb_irrefl. auto.
  - inversion RO as [|? ? R1 R2]; subst. cbn [meaning_block] in M.
    destruct (meaning limit (dt_entries d) r) as [[[m1 tab1] fs]|] eqn:M1; [|discriminate].
    pose proof (meaning_limit _ _ _ _ _ _ R1 M1). subst m1.
    destruct (meaning_block limit tab1 rs) as [[hs1 tab2]|] eqn:M2; [|discriminate]. injection M as <- <-.
    change (enc_block (r :: rs)) with (enc_rep r ++ enc_block rs) in *. rewrite app_length, Nat2N.inj_add in *.
    pose proof (enc_rep_pos r) as EP. destruct fuel as [|f]; [lia|]. cbn [parse_loop length] in *.
    destruct (N.ltb_spec total (total + (N.of_nat (length (enc_rep r)) + N.of_nat (length (enc_block rs))))); [|lia].
    rewrite <- app_assoc. destruct (field_spec limit d r (enc_block rs ++ rest) total h C T LM R1 ltac:(lia) _ _ M1) as (d1 & P & C1 & E1 & T1).
    rewrite P. cbn [obind]. subst tab1.
    destruct (IH d1 (total + N.of_nat (length (enc_rep r)))%N (h ++ fs) f (total + (N.of_nat (length (enc_rep r)) + N.of_nat (length (enc_block rs))))%N
      C1 T1 R2 ltac:(lia) LB ltac:(lia) _ _ M2) as (d2 & Q & Q2).
    exists d2. rewrite Q, <- app_assoc. split; [reflexivity|exact Q2].
Qed.
Lemma enc_block_len rs : length rs <= length (enc_block rs).
Proof.
  induction rs as [|r rs IH]; [cbn; lia|]. change (enc_block (r :: rs)) with (enc_rep r ++ enc_block rs). rewrite app_length.
  pose proof (enc_rep_pos r). cbn [length]. lia.
Qed.
(** A table as it arises from a history. *)
Definition table_is (limit : N) (d : dtable) (tab : list hfield) : Prop := counted d /\ dt_entries d = tab /\ (tsize tab <= limit)%N.
Theorem block_decode limit d tab rs rest hs tab' : (limit < 2 ^ 31)%N -> table_is limit d tab -> Forall rep_ok rs ->
  (N.of_nat (length (enc_block rs)) < 2 ^ 32)%N -> meaning_block limit tab rs = Some (hs, tab') ->
  exists d', parse_headers limit (N.of_nat (length (enc_block rs))) (enc_block rs ++ rest) d = Ok (PDone hs d') /\ table_is limit d' tab'.
Proof.
  intros LM (C & <- & T) RO LB M. unfold parse_headers, table_is.
  destruct (block_loop limit rest LM rs d 0 [] (S (length (enc_block rs ++ rest))) (N.of_nat (length (enc_block rs))) C T RO ltac:(lia) LB) with (hs := hs) (tab' := tab') as (d' & P & Q).
  - rewrite app_length. pose proof (enc_block_len rs). lia.
  - exact M.
  - exists d'. auto.
Qed.
(** First octets. *)
Lemma first_octets b : (b < 256)%N ->
  is_index b = (128 <=? b)%N /\ (is_index b = false -> classify b = (if 64 <=? b then Some IUpdate else if b <? 16 then Some INoUpdate else if b <? 32 then Some INoIndex else None)%N).
Proof.
  intros H.
  pose proof (byte_all (fun b => Bool.eqb (is_index b) (128 <=? b)%N && (is_index b ||
    match classify b, (if 64 <=? b then Some IUpdate else if b <? 16 then Some INoUpdate else if b <? 32 then Some INoIndex else None)%N with
    | Some IUpdate, Some IUpdate | Some INoUpdate, Some INoUpdate | Some INoIndex, Some INoIndex | None, None => true | _, _ => false end))
    ltac:(vm_compute; reflexivity) b H) as Q. cbn beta in Q. apply andb_prop in Q as [Q1 Q2]. apply Bool.eqb_prop in Q1. split; [exact Q1|].
  intros I. rewrite I in Q2. cbn [orb] in Q2.
  destruct (classify b) as [[]|], (if 64 <=? b then Some IUpdate else if b <? 16 then Some INoUpdate else if b <? 32 then Some INoIndex else None)%N as [[]|];
    try discriminate; reflexivity.
Qed.
Lemma size_update_rejected limit len b rest d : (32 <= b < 64)%N -> (0 < len)%N -> parse_headers limit len (b :: rest) d = Ok PError.
Proof.
  intros H L. unfold parse_headers. cbn [parse_loop length]. destruct (N.ltb_spec 0 len); [|lia]. unfold parse_field.
  destruct (first_octets b ltac:(lia)) as [F1 F2]. assert (I : is_index b = false) by (rewrite F1; destruct (N.leb_spec 128 b); [lia|reflexivity]).
  rewrite I, (F2 I). destruct (N.leb_spec 64 b), (N.ltb_spec b 16), (N.ltb_spec b 32); try lia. reflexivity.
Qed.

(** ** Encoding of response headers *)
Definition plain (f : hfield) : Prop :=
  (forall n v, In (n, v) rfc_static -> is_prefix n (fst f) = true -> n = fst f) /\
  (forall v, In (fst f, v) rfc_static -> v <> [] -> is_prefix v (snd f) = true -> v = snd f) /\
  (fst f = bs "accept-language" -> is_prefix (bs "gzip, deflate") (snd f) = false).
Definition plainb (f : hfield) : bool :=
  forallb (fun e => (negb (is_prefix (fst e) (fst f)) || bytes_eqb (fst e) (fst f)) &&
                    (negb (bytes_eqb (fst e) (fst f)) || match snd e with [] => true | _ => negb (is_prefix (snd e) (snd f)) || bytes_eqb (snd e) (snd f) end)) rfc_static
  && (negb (bytes_eqb (fst f) (bs "accept-language")) || negb (is_prefix (bs "gzip, deflate") (snd f))).
Lemma plainb_ok f : plainb f = true -> plain f.
Proof.
  intros H. apply andb_prop in H as [H1 H2]. rewrite forallb_forall in H1. split; [|split].
  - intros n v I P. specialize (H1 _ I). cbn [fst snd] in H1. apply andb_prop in H1 as [H1 _]. rewrite P in H1. cbn [negb orb] in H1. now apply bytes_eqb_eq.
  - intros v I NZ P. specialize (H1 _ I). cbn [fst snd] in H1. apply andb_prop in H1 as [_ H1]. rewrite bytes_eqb_refl in H1. cbn [negb orb] in H1.
    destruct v; [congruence|]. rewrite P in H1. cbn [negb orb] in H1. now apply bytes_eqb_eq.
  - intros E. rewrite E, bytes_eqb_refl in H2. cbn [negb orb] in H2. now apply negb_true_iff.
Qed.
Lemma static_search f : forall l j, match search_static l j f with
  | FoundField k => exists n v, nth_error l (N.to_nat (k - j)) = Some (n, Some v) /\ (j <= k < j + N.of_nat (length l))%N /\ is_prefix n (fst f) = true /\ is_prefix v (snd f) = true
  | FoundName k => exists n, nth_error l (N.to_nat (k - j)) = Some (n, None) /\ (j <= k < j + N.of_nat (length l))%N /\ is_prefix n (fst f) = true
  | NotFound => True
  end.
Proof.
  induction l as [|[n v] l IH]; intros j; cbn [search_static]; [exact Logic.I|]. unfold prefix_eq. specialize (IH (j + 1)%N).
  assert (STEP : match search_static l (j + 1) f with
  | FoundField k => exists n0 v0, nth_error ((n, v) :: l) (N.to_nat (k - j)) = Some (n0, Some v0) /\ (j <= k < j + N.of_nat (length ((n, v) :: l)))%N /\ is_prefix n0 (fst f) = true /\ is_prefix v0 (snd f) = true
  | FoundName k => exists n0, nth_error ((n, v) :: l) (N.to_nat (k - j)) = Some (n0, None) /\ (j <= k < j + N.of_nat (length ((n, v) :: l)))%N /\ is_prefix n0 (fst f) = true
  | NotFound => True end).
  { destruct (search_static l (j + 1) f) as [k|k|]; [destruct IH as (n0 & v0 & A & B & D)|destruct IH as (n0 & A & B & D)|exact Logic.I];
      [exists n0, v0|exists n0]; cbn [length]; replace (N.to_nat (k - j)) with (S (N.to_nat (k - (j + 1)))) by lia; cbn [nth_error]; (split; [exact A|split; [lia|exact D]]). }
  destruct v as [v|].
  - destruct (is_prefix n (fst f)) eqn:P1; [destruct (is_prefix v (snd f)) eqn:P2|]; cbn [andb]; [|exact STEP|exact STEP].
    exists n, v. rewrite N.sub_diag. cbn [N.to_nat nth_error length]. repeat split; try assumption; lia.
  - destruct (is_prefix n (fst f)) eqn:P1; [|exact STEP].
    exists n. rewrite N.sub_diag. cbn [N.to_nat nth_error length]. repeat split; try assumption; lia.
Qed.
Lemma dynamic_search f : forall l j, (forall n v, In (n, v) l -> n = [] \/ is_prefix n (fst f) = false) -> search_dynamic l j f = NotFound.
Proof.
  induction l as [|[n v] l IH]; intros j H; [reflexivity|]. cbn [search_dynamic].
  assert (Q : match n with [] => false | _ => prefix_eq n (fst f) end = false).
  { destruct (H n v (or_introl eq_refl)) as [->|P]; [reflexivity|]. destruct n; [reflexivity|exact P]. }
  rewrite Q. cbn [andb]. assert (R : search_dynamic l (j + 1) f = NotFound) by (apply IH; intros; apply (H n0 v0); now right).
  rewrite R. destruct v; reflexivity.
Qed.
Definition rep_of (d : dtable) (f : hfield) : rep :=
  match search_table d f with
  | FoundField j => Indexed (j + 1)
  | FoundName j => Literal Incremental (NameIndex (j + 1)) false (snd f)
  | NotFound => Literal Incremental (NameLit false (fst f)) false (snd f)
  end.
Definition short (f : hfield) : Prop := length (fst f) < 127 /\ length (snd f) < 127.
Definition foreign (d : dtable) (f : hfield) : Prop := forall n v, In (n, v) (dt_entries d) -> n = [] \/ is_prefix n (fst f) = false.
Lemma put_string_rfc s : length s < 127 -> put_string s = enc_string false s.
Proof.
  intros L. unfold put_string, enc_string. rewrite set_small; [reflexivity|repeat split; (reflexivity || discriminate)|].
  change (2 ^ 7 - 1)%N with 127%N. lia.
Qed.
Lemma resolve_at tab j e : (j < 61)%N -> nth_error static_table (N.to_nat j) = Some e -> exists r, nth_error rfc_static (N.to_nat j) = Some r /\
  resolve tab (j + 1) = Some r /\ (j <> 40%N -> fst r = fst e) /\ (j <> 15%N -> j <> 16%N -> snd r = snd (as_field e)).
Proof.
  intros H E. pose proof (static_all (j + 1) ltac:(lia)) as Q. unfold static_chk in Q. replace (j + 1 - 1)%N with j in Q by lia.
  rewrite E in Q. destruct (nth_error rfc_static (N.to_nat j)) as [r|] eqn:R; [|discriminate]. exists r. split; [reflexivity|].
  unfold resolve. destruct (N.eqb_spec (j + 1) 0); [lia|]. destruct (N.leb_spec (j + 1) 61); [|lia].
  replace (j + 1 - 1)%N with j by lia. split; [exact R|]. apply andb_prop in Q as [Q1 Q2]. split.
  - intros X. apply orb_prop in Q1 as [Q1|Q1]; [lia|]. apply bytes_eqb_eq in Q1. symmetry. exact Q1.
  - intros X Y. apply orb_prop in Q2 as [Q2|Q2]; [lia|]. apply bytes_eqb_eq in Q2. symmetry. exact Q2.
Qed.
Lemma put_field_ok d f : plain f -> short f -> foreign d f ->
  put_field d f = enc_rep (rep_of d f) /\ forall max tab, exists tab', meaning max tab (rep_of d f) = Some (max, tab', [f]).
Proof.
  intros (P1 & P2 & P3) [S1 S2] FD. pose proof (static_search f static_table 0) as SS. unfold put_field, rep_of, search_table.
  destruct (search_static static_table 0 f) as [k|k|] eqn:SR.
  - destruct SS as (n & v & A & B & D1 & D2). rewrite N.sub_0_r in A. change (0 + N.of_nat (length static_table))%N with 61%N in B.
    split.
    + cbn [enc_rep]. apply set_small; [repeat split; (reflexivity || discriminate)|]. change (2 ^ 7 - 1)%N with 127%N. lia.
    + intros max tab. exists tab. cbn [meaning]. destruct (resolve_at tab k _ ltac:(lia) A) as (r & R0 & R & R1 & R2). rewrite R.
      cbn [fst as_field snd] in *.
      assert (K40 : k <> 40%N) by (intros ->; vm_compute in A; discriminate).
      assert (K15 : k <> 15%N) by (intros ->; vm_compute in A; discriminate).
      specialize (R1 K40). apply nth_error_In in R0. rewrite (surjective_pairing r) in R0. rewrite R1 in R0.
      assert (NE : n = fst f) by (apply (P1 _ _ R0 D1)). rewrite NE in A, R0, R1. clear NE D1 n.
      assert (K16 : k <> 16%N).
      { intros ->. vm_compute in A. injection A as A1 A2. rewrite <- A2 in D2. change (is_prefix (bs "gzip, deflate") (snd f) = true) in D2. rewrite P3 in D2; [discriminate|symmetry; exact A1]. }
      specialize (R2 K15 K16). rewrite R2 in R0.
      assert (VN : v <> []).
      { intros ->. pose proof (nth_error_In _ _ A) as I. revert I. generalize (fst f) as nm. clear.
        intros nm I. cut (forallb (fun e => match snd e with Some [] => false | _ => true end) static_table = true); [|vm_compute; reflexivity].
        intros Q. rewrite forallb_forall in Q. specialize (Q _ I). discriminate Q. }
      assert (VE : v = snd f) by (apply (P2 _ R0 VN D2)). rewrite VE in R2. rewrite (surjective_pairing r), R1, R2, <- surjective_pairing. reflexivity.
  - destruct SS as (n & A & B & D1). rewrite N.sub_0_r in A. change (0 + N.of_nat (length static_table))%N with 61%N in B.
    split.
    + cbn [enc_rep mode_bits mode_flags]. rewrite set_small; [|repeat split; (reflexivity || discriminate)|change (2 ^ 6 - 1)%N with 63%N; lia].
      now rewrite put_string_rfc.
    + intros max tab. destruct (resolve_at tab k _ ltac:(lia) A) as (r & R0 & R & R1 & R2).
      cbn [meaning]. rewrite R. cbn [option_map]. eexists. f_equal. f_equal. f_equal. 
      assert (K40 : k <> 40%N).
      { intros ->. vm_compute in A. injection A as A1. subst n.
        assert (X : is_prefix (bs "if-none-match") (fst f) = true).
        { revert D1. generalize (fst f). clear. intros l D1. change (bs "if-none-match") with (firstn 13 (bs "if-none-matcho")).
          apply is_prefix_spec in D1 as (t & ->). reflexivity. }
        pose proof (P1 (bs "if-none-match") [] ltac:(unfold rfc_static; repeat (first [left; reflexivity|right])) X) as Y. rewrite <- Y in D1. discriminate D1. }
      specialize (R1 K40). cbn [fst] in R1. apply nth_error_In in R0. rewrite (surjective_pairing r), R1 in R0.
      pose proof (P1 _ _ R0 D1) as NE. rewrite R1, NE. symmetry. apply surjective_pairing.
  - rewrite (dynamic_search f _ _ FD). split.
    + cbn [enc_rep mode_bits mode_flags]. rewrite set_small; [|repeat split; (reflexivity || discriminate)|reflexivity].
      rewrite !put_string_rfc by assumption. now rewrite app_assoc.
    + intros max tab. cbn [meaning]. eexists. f_equal. f_equal. f_equal. symmetry. apply surjective_pairing.
Qed.
Theorem put_block_ok d h : Forall (fun f => plain f /\ short f /\ foreign d f) h -> (N.of_nat (length (flat_map (put_field d) h)) < 1000)%N ->
  exists rs, put_block d h = Ok (enc_block rs) /\ forall max tab, exists tab', meaning_block max tab rs = Some (h, tab').
Proof.
  intros F L. exists (map (rep_of d) h).
  assert (E : flat_map (put_field d) h = enc_block (map (rep_of d) h) /\ forall max tab, exists tab', meaning_block max tab (map (rep_of d) h) = Some (h, tab')).
  { clear L. induction F as [|f h (P & S0 & FD) F IH].
    - split; [reflexivity|]. intros max tab. exists tab. reflexivity.
    - destruct IH as [E M]. destruct (put_field_ok d f P S0 FD) as [E1 M1]. cbn [flat_map map].
      change (enc_block (rep_of d f :: map (rep_of d) h)) with (enc_rep (rep_of d f) ++ enc_block (map (rep_of d) h)).
      split; [congruence|]. intros max tab. destruct (M1 max tab) as (t1 & X1). destruct (M max t1) as (t2 & X2).
      exists t2. cbn [meaning_block]. rewrite X1, X2. reflexivity. }
  destruct E as [E M]. split; [|exact M]. unfold put_block, BLOCK_CAP. destruct (N.leb_spec 1000 (N.of_nat (length (flat_map (put_field d) h)))); [lia|].
  now rewrite E.
Qed.
(** An index without entry is not an error: a header with an empty name is added. *)
Lemma bad_index limit d tab i rest total h : (limit < 2 ^ 31)%N -> table_is limit d tab -> resolve tab i = None -> (i < 2 ^ 31)%N ->
  parse_field limit (rfc_int 7 128 i ++ rest) total h d = Ok (FNext (u32 (total + N.of_nat (length (rfc_int 7 128 i)))) rest (h ++ [([], [])]) d).
Proof.
  intros LM ((S1 & C1 & M1) & <- & T) R IB.
  destruct (rfc_int_head 7 128 i) as (t & E).
  pose proof (integer_decode 7 128 i rest ltac:(repeat split; (reflexivity || discriminate)) ltac:(lia)) as J.
  unfold parse_field. rewrite E in *. cbn [app] in *. rewrite (class_indexed _) by lia. rewrite J. cbn [obind].
  assert (L : lookup d (u32 (i + 2 ^ 32 - 1)) = ([], [])); [|now rewrite L].
  pose proof (len_tsize (dt_entries d)) as LT. unfold resolve in R. destruct (N.eqb_spec i 0) as [->|NZ].
  - change (u32 (0 + 2 ^ 32 - 1)) with (2 ^ 32 - 1)%N. unfold lookup, STATIC. destruct (N.ltb_spec (2 ^ 32 - 1) 61); [lia|].
    destruct (N.ltb_spec (2 ^ 32 - 1) (dt_max_index d)); [lia|reflexivity].
  - rewrite wrap_index by lia. destruct (N.leb_spec i 61) as [L|G].
    + exfalso. apply nth_error_None in R. change (length rfc_static) with 61 in R. lia.
    + unfold lookup, STATIC. destruct (N.ltb_spec (i - 1) 61); [lia|]. apply nth_error_None in R.
      destruct (N.ltb_spec (i - 1) (dt_max_index d)); [lia|reflexivity].
Qed.
(** The result buffer: the bytes written before the overrun. *)
Lemma huff_loop_overrun rest : forall s pad start len out fuel,
  Forall good s -> pad < 8 -> start < 8 -> (8 * len = N.of_nat (length (huff_bits s) + pad + start))%N -> (len < 2 ^ 32)%N ->
  (N.of_nat (length out) <= 20000)%N -> (20000 < N.of_nat (length out + length s))%N -> length s < fuel ->
  huff_loop fuel (huff_bits s ++ repeat true pad ++ rest) start len out = UB OutOfBounds.
Proof.
  induction s as [|c s IH]; intros pad start len out fuel F P St L32 LB O1 O2 FU.
  - cbn [length] in O2. lia.
  - inversion F as [|? ? G F']; subst. destruct fuel as [|f]; [lia|]. cbn [length] in *.
    change (huff_bits (c :: s)) with (rfc_code c ++ huff_bits s) in *. rewrite app_length in L32.
    destruct (code_shape c (proj1 G)) as [CS CO]. cbn [huff_loop].
    destruct (N.eqb_spec len 0) as [->|Z]; [lia|].
    assert (X : (len =? 1)%N && forallb (fun b => b) (firstn (8 - start) ((rfc_code c ++ huff_bits s) ++ repeat true pad ++ rest)) = false).
    { destruct (N.eqb_spec len 1) as [->|]; [|reflexivity]. cbn [andb]. rewrite <- app_assoc, firstn_app.
      rewrite firstn_all2 by lia. rewrite forallb_app, CO. reflexivity. }
    rewrite X. cbn [andb]. rewrite <- app_assoc, (find_rfc c _ G). cbn [obind].
    unfold HUFF_CAP. destruct (N.leb_spec 20000 (N.of_nat (length out))); [reflexivity|].
    rewrite skipn_app, skipn_all2, Nat.sub_diag by lia. cbn [app skipn].
    set (n := length (rfc_code c)) in *. clearbody n.
    assert (U : u32 (len + 2 ^ 32 - N.of_nat ((start + n) / 8)) = (len - N.of_nat ((start + n) / 8))%N).
    { unfold u32. assert (N.of_nat ((start + n) / 8) <= len)%N by lia.
      replace (len + 2 ^ 32 - N.of_nat ((start + n) / 8))%N with (len - N.of_nat ((start + n) / 8) + 1 * 2 ^ 32)%N by lia.
      rewrite N.mod_add by discriminate. apply N.mod_small. lia. }
    rewrite U. apply IH; [exact F'|exact P| | | | | |].
    + apply Nat.mod_upper_bound. discriminate.
    + lia.
    + lia.
    + rewrite app_length. cbn [length]. lia.
    + rewrite app_length. cbn [length]. lia.
    + lia.
Qed.
(** Every string of more than 20000 bytes overruns the buffer (below 10^8 bytes, so that no length wraps). *)
Lemma huffman_overrun_all s rest : Forall good s -> (20000 < N.of_nat (length s) < 100000000)%N ->
  huffman_decode (rfc_huffman s ++ rest) (N.of_nat (length (rfc_huffman s))) = UB OutOfBounds.
Proof.
  intros G L. destruct (rfc_huffman_bits s) as (k & B & K & E & P). unfold huffman_decode.
  unfold bits_of. rewrite flat_map_app. fold (bits_of (rfc_huffman s)). fold (bits_of rest). rewrite B, <- app_assoc.
  pose proof (huff_len s G) as H. rewrite K. rewrite huff_loop_overrun; [reflexivity|exact G|exact P|lia|lia| | | |].
  - change (2 ^ 32)%N with 4294967296%N. lia.
  - cbn [length]. lia.
  - cbn [length]. lia.
  - rewrite app_length. lia.
Qed.
Lemma huffman_overrun : exists s, Forall good s /\ huffman_decode (rfc_huffman s) (N.of_nat (length (rfc_huffman s))) = UB OutOfBounds.
Proof.
  exists (repeat 97%N (N.to_nat 20001)). assert (G : Forall good (repeat 97%N (N.to_nat 20001))).
  { apply Forall_forall. intros x I. apply repeat_spec in I. subst x. split; [reflexivity|discriminate]. }
  split; [exact G|]. rewrite <- (app_nil_r (rfc_huffman _)) at 1. apply huffman_overrun_all; [exact G|].
  rewrite repeat_length, N2Nat.id. split; reflexivity.
Qed.
