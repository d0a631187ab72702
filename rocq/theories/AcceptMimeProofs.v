(** Proofs about AcceptMime.v. *)
From Verif Require Import Base CStr AcceptEnc AcceptEncProofs Machine AcceptMime.

(** ** Grammar *)
(** One media range (RFC 7231 section 5.3.2): type, subtype, parameters with the white space behind
    each ';', and an optional weight 0.d, 0.dd or 0.ddd. *)
Record mitem := mkMI { t_type : list N; t_sub : list N; t_params : list (list N * list N * list N); t_weight : option (list N * list N) }.
Definition render_params (l : list (list N * list N * list N)) : list N :=
  flat_map (fun '(s, n, v) => bs ";" ++ s ++ n ++ bs "=" ++ v) l.
Definition render_mweight (w : option (list N * list N)) : list N :=
  match w with None => [] | Some (s, ds) => bs ";" ++ s ++ bs "q=0." ++ ds end.
Definition render_mitem (it : mitem) : list N := t_type it ++ bs "/" ++ t_sub it ++ render_params (t_params it) ++ render_mweight (t_weight it).
Definition token (s : list N) : Prop := s <> [] /\ Forall (fun b => rfc_tchar b = true) s.
Definition param_ok (p : list N * list N * list N) : Prop := let '(s, n, v) := p in ows s /\ token n /\ n <> bs "q" /\ token v.
Definition mitem_ok (it : mitem) : Prop :=
  token (t_type it) /\ length (t_type it) < 30 /\ token (t_sub it) /\ length (t_sub it) < 30 /\ Forall param_ok (t_params it) /\
  match t_weight it with None => True | Some (s, ds) => ows s /\ 1 <= length ds <= 3 /\ Forall (fun b => is_digit b = true) ds end.
(** An element that may be followed by a comma: with parameters it needs a weight. *)
Definition closed (it : mitem) : Prop := t_params it = [] \/ t_weight it <> None.
Definition meaning (it : mitem) : range :=
  mkRange (t_type it) (t_sub it) (match t_weight it with None => 100%Z | Some (_, ds) => percent (WZero ds) end)
          (map (fun '(_, n, v) => (firstn 30 n, firstn 30 v)) (t_params it)) [].
Fixpoint render_mrest (l : list (list N * mitem)) : list N :=
  match l with [] => [] | (s, it) :: t => s ++ render_mitem it ++ render_mrest t end.
Definition render_accept (it : mitem) (l : list (list N * mitem)) : list N := render_mitem it ++ render_mrest l.
Fixpoint all_but_last_closed (it : mitem) (l : list (list N * mitem)) : Prop :=
  match l with [] => True | (_, it') :: t => closed it /\ all_but_last_closed it' t end.

(** ** Termination *)
Definition mrank (st : mstatus) : nat :=
  match st with
  | M_TYPE => 0 | M_INIT => 1 | M_ADDED => 2 | M_ADD => 3 | M_COMMA | M_END => 4 | M_TOKL => 0 | M_OWS2 => 1 | M_SEMI => 2 | M_OWS1 => 3
  | M_SUBTYPE => 5 | M_SLASH => 6 | M_MAYBEQ => 1 | M_TOKEND => 5 | M_TOKR => 6 | M_EQ => 7 | M_QL => 1 | M_QS => 0 | M_QEND => 5 | M_QR => 6
  | W_EQ | W_1INT | W_0INT => 0 | W_1DEC | W_0DEC => 5 | W_1PT | W_0PT => 6
  | X_OWS1 => 0 | X_TOKEND => 5 | X_TOKL => 6 | X_OWS2 => 7 | X_SEMI => 7 | X_TOKR => 6 | X_EQ => 7 | X_QL => 1 | X_QS => 0 | X_QR => 6
  end.
Definition mmeasure (s : mstate) : nat := 8 * length (m_ptr s) + mrank (m_st s).
Lemma mrank_le st : mrank st <= 7. Proof. destruct st; cbn; lia. Qed.
Lemma m_step_decreases s s' : m_step s = Ok (Next s') -> mmeasure s' < mmeasure s.
Proof.
  unfold m_step. destruct s as [st p v acc]. cbn [m_ptr m_st m_loc m_acc]. destruct p as [|c p]; [discriminate|].
  assert (ADV : forall st' v' a', mmeasure (mkM st' p v' a') < mmeasure (mkM st (c :: p) v acc)).
  { intros st' v' a'. unfold mmeasure. cbn [m_ptr m_st length]. pose proof (mrank_le st'). lia. }
  assert (GO : forall st' v' a', mrank st' < mrank st -> mmeasure (mkM st' (c :: p) v' a') < mmeasure (mkM st (c :: p) v acc)).
  { intros. unfold mmeasure. cbn [m_ptr m_st]. lia. }
  destruct st; cbv zeta; cbn [tl];
    repeat first [ match goal with |- (if ?b then _ else _) = _ -> _ => destruct b end
                 | match goal with |- obind ?o _ = _ -> _ => destruct o; cbn [obind]; [|discriminate] end ];
    try (intros H; try discriminate H; injection H as <-; first [apply ADV | apply GO; cbn [mrank]; lia]; fail).
  unfold m_add. cbn [m_ptr m_loc m_acc].
  destruct (am_quality _) as [q|]; cbn [obind]; [|discriminate]. destruct (q =? -1)%Z; [discriminate|].
  destruct (type_from_str _ _) as [[t|]|]; cbn [obind]; try discriminate.
  destruct (subtype_from_str _ _); cbn [obind]; [|discriminate]. intros H. injection H as <-. apply GO. cbn; lia.
Qed.
Lemma copy_total p n : copy p n <> UB Diverges.
Proof. destruct n; cbn; [discriminate|]. destruct p as [s|]; [|discriminate]. destruct (length s) eqn:?; [discriminate|]. destruct (n <=? n0); discriminate. Qed.
Lemma q_chars_total l : q_chars l <> UB Diverges.
Proof. induction l as [|x l IH]; cbn [q_chars]; [discriminate|]. destruct (_ || _ || _); [|discriminate]. destruct (q_chars l); cbn [obind]; [discriminate|congruence]. Qed.
Lemma quality_total q : quality_from_str q <> UB Diverges.
Proof.
  unfold quality_from_str. destruct q as [[|x l]|]; try discriminate. destruct (ae_one x); [discriminate|].
  pose proof (q_chars_total (x :: l)) as T. destruct (q_chars (x :: l)); cbn [obind]; [|congruence].
  destruct (_ <=? _); [discriminate|]. cbv zeta. destruct (_ || _); discriminate.
Qed.
Lemma qstring_total p : am_qstring p <> UB Diverges.
Proof. destruct p as [|c [|d t]]; cbn; try discriminate; destruct (am_qdtext c); try discriminate; destruct (c =? 92)%N; discriminate. Qed.
Lemma add_param_total v : add_param v <> UB Diverges.
Proof.
  unfold add_param. cbv zeta. pose proof (copy_total (v_pl v) (Nat.min (v_pllen v) MAX)) as A. pose proof (copy_total (v_pr v) (Nat.min (v_prlen v) MAX)) as B.
  destruct (copy (v_pl v) _); cbn [obind]; [|congruence]. destruct (copy (v_pr v) _); cbn [obind]; congruence.
Qed.
Lemma add_ext_total v : add_ext v <> UB Diverges.
Proof.
  unfold add_ext. cbv zeta. pose proof (copy_total (v_xl v) (Nat.min (v_xllen v) MAX)) as A. pose proof (copy_total (v_xr v) (Nat.min (v_xrlen v) MAX)) as B.
  destruct (copy (v_xl v) _); cbn [obind]; [|congruence]. destruct (copy (v_xr v) _); cbn [obind]; congruence.
Qed.
Lemma m_step_total s : m_step s <> UB Diverges.
Proof.
  unfold m_step. destruct s as [st p v acc]. cbn [m_ptr m_st m_loc m_acc]. destruct p as [|c p]; [discriminate|].
  pose proof (qstring_total (c :: p)) as Q. pose proof (add_param_total v) as AP. pose proof (add_ext_total v) as AX.
  destruct st; cbv zeta;
    repeat first [ match goal with |- (if ?b then _ else _) <> _ => destruct b end
                 | match goal with |- obind ?o _ <> _ => destruct o; cbn [obind] end ]; try discriminate; try congruence.
  unfold m_add. cbn [m_ptr m_loc m_acc]. pose proof (quality_total (v_qv v)) as T. unfold am_quality.
  destruct (quality_from_str _) as [q|]; cbn [obind]; [|congruence]. destruct (q =? -1)%Z; [discriminate|].
  assert (TT : type_from_str (v_type v) (v_tlen v) <> UB Diverges).
  { unfold type_from_str. destruct (v_type v) as [s|]; [|discriminate]. destruct (find _ _); [discriminate|]. destruct (_ <=? _); [discriminate|].
    pose proof (copy_total (Some s) (v_tlen v)). destruct (copy _ _); cbn [obind]; congruence. }
  destruct (type_from_str _ _) as [[t|]|]; cbn [obind]; try congruence.
  assert (TS : subtype_from_str (v_sub v) (v_slen v) <> UB Diverges).
  { unfold subtype_from_str. destruct (_ <=? _); [discriminate|]. apply copy_total. }
  destruct (subtype_from_str _ _); cbn [obind]; congruence.
Qed.
Lemma m_parse_total value : m_parse value <> UB Diverges.
Proof.
  apply (run_total m_step mmeasure m_step_decreases m_step_total). unfold mmeasure. cbn [m_ptr m_st mrank]. rewrite app_length. cbn [length]. lia.
Qed.
Lemma m_parse_ends value r : ends m_step (mkM M_INIT (value ++ [0%N]) loc0 []) r -> r <> UB Diverges -> m_parse value = r.
Proof.
  intros E N. apply (ends_run m_step mmeasure m_step_decreases m_step_total _ _ _ E N).
  unfold mmeasure. cbn [m_ptr m_st mrank]. rewrite app_length. cbn [length]. lia.
Qed.

(** ** Decoding *)
Lemma tchar_am b : rfc_tchar b = true ->
  am_token b = true /\ am_space b = false /\ (b =? 59)%N = false /\ (b =? 44)%N = false /\ (b =? 0)%N = false /\ (b =? 47)%N = false /\ (b =? 61)%N = false /\ (b =? 34)%N = false.
Proof.
  intros H.
  assert (B : (b < 128)%N).
  { unfold rfc_tchar in H. apply orb_true_iff in H as [H|H]; [lia|]. apply existsb_exists in H as (x & I & E). apply N.eqb_eq in E. subst x.
    cbn in I. intuition (subst; reflexivity). }
  assert (A : forallb (fun n => let b := N.of_nat n in implb (rfc_tchar b) (am_token b && negb (am_space b) && negb (b =? 59)%N && negb (b =? 44)%N && negb (b =? 0)%N && negb (b =? 47)%N && negb (b =? 61)%N && negb (b =? 34)%N)) (seq 0 128) = true) by (vm_compute; reflexivity).
  rewrite forallb_forall in A. specialize (A (N.to_nat b)). cbv zeta in A. rewrite N2Nat.id, H in A. cbn [implb] in A.
  assert (I : In (N.to_nat b) (seq 0 128)) by (apply in_seq; lia). specialize (A I).
  rewrite !andb_true_iff, !negb_true_iff in A. tauto.
Qed.
Notation mreach := (reach m_step).
Ltac mconc := apply reach_step; reflexivity.
Lemma reach_tokens st (Hst : st = M_TYPE \/ st = M_SUBTYPE \/ st = M_TOKL \/ st = M_TOKR) s rest v a : Forall (fun b => rfc_tchar b = true) s ->
  mreach (mkM st (s ++ rest) v a) (mkM st rest v a).
Proof.
  intros F. induction F as [|b s H F IH]; [apply reach_refl|]. cbn [app]. destruct (tchar_am b H) as (A1 & A2 & A3 & A4 & A5 & A6 & A7 & A8).
  eapply reach_trans; [|exact IH]. apply reach_step. unfold m_step. cbn [m_ptr m_st m_loc m_acc tl].
  destruct Hst as [->|[->|[->| ->]]]; rewrite ?A1, ?A2, ?A3, ?A4, ?A5, ?A6, ?A7; reflexivity.
Qed.
Lemma reach_ows2 s rest v a : ows s -> mreach (mkM M_OWS2 (s ++ rest) v a) (mkM M_OWS2 rest v a).
Proof.
  intros F. induction F as [|b s H F IH]; [apply reach_refl|]. cbn [app]. eapply reach_trans; [|exact IH]. apply reach_step. destruct H as [->| ->]; reflexivity.
Qed.
Lemma reach_mdigits ds rest v a : Forall (fun b => is_digit b = true) ds -> v_dec v + length ds <= 3 ->
  mreach (mkM W_0DEC (ds ++ rest) v a) (mkM W_0DEC rest (set_dec (v_dec v + length ds) v) a).
Proof.
  intros F. revert v. induction F as [|b s H F IH]; intros v L; cbn [app length] in *.
  - rewrite Nat.add_0_r. destruct v; apply reach_refl.
  - apply reach_trans with (b := mkM W_0DEC (s ++ rest) (set_dec (S (v_dec v)) v) a).
    + apply reach_step. unfold m_step. cbn [m_ptr m_st m_loc m_acc tl]. rewrite H. cbn [andb].
      replace (v_dec v <? 3) with true by (symmetry; apply Nat.ltb_lt; lia). reflexivity.
    + replace (v_dec v + S (length s)) with (S (v_dec v) + length s) by lia. apply (IH (set_dec (S (v_dec v)) v)). cbn [set_dec v_dec]. lia.
Qed.
Lemma reach_seps s rest v a : Forall (fun b => b = 44%N \/ b = 32%N \/ b = 9%N) s -> mreach (mkM M_ADDED (s ++ rest) v a) (mkM M_ADDED rest v a).
Proof.
  intros F. induction F as [|b s H F IH]; [apply reach_refl|]. cbn [app]. eapply reach_trans; [|exact IH]. apply reach_step. destruct H as [->|[->| ->]]; reflexivity.
Qed.
Lemma pdiff_app s rest : pdiff rest (Some (s ++ rest)) = length s.
Proof. unfold pdiff. rewrite app_length. lia. Qed.
Lemma copy_app s rest n : n <= length s -> copy (Some (s ++ rest)) n = Ok (firstn n s).
Proof.
  intros L. destruct n as [|n]; [reflexivity|]. cbn [copy]. replace (S n <=? length (s ++ rest)) with true.
  - rewrite firstn_app. replace (S n - length s) with 0 by lia. cbn [firstn]. rewrite app_nil_r. reflexivity.
  - symmetry. apply Nat.leb_le. rewrite app_length. lia.
Qed.
Lemma type_spec ty rest : length ty < 30 -> type_from_str (Some (ty ++ rest)) (length ty) = Ok (Some ty).
Proof.
  intros L. unfold type_from_str. destruct (find _ _) as [t|] eqn:E.
  - apply find_some in E as [_ E]. apply andb_true_iff in E as [E1 E2]. apply Nat.eqb_eq in E1.
    assert (t = ty); [|subst; reflexivity]. clear L. revert ty E1 E2. induction t as [|x t IH]; intros [|y ty] E1 E2; cbn [length] in *; try lia; [reflexivity|].
    cbn [app strncmp_eqb] in E2. apply andb_true_iff in E2 as [X E2]. apply N.eqb_eq in X. subst y. f_equal. apply IH; [lia|exact E2].
  - replace (MAX <=? length ty) with false by (symmetry; apply Nat.leb_gt; unfold MAX; lia). rewrite copy_app by lia. cbn [obind].
    rewrite firstn_all. reflexivity.
Qed.
(** What the parser knows about the current element after its subtype. *)
Record known (it : mitem) (v : locals) (ps : list (list N * list N)) : Prop := {
  k_type : exists rest, v_type v = Some (t_type it ++ rest);
  k_tlen : v_tlen v = length (t_type it);
  k_sub : exists rest, v_sub v = Some (t_sub it ++ rest);
  k_slen : v_slen v = length (t_sub it);
  k_params : v_params v = ps;
  k_exts : v_exts v = [];
  k_qv : v_qv v = None;
  k_dec : v_dec v = 0 }.
Lemma reach_head it rest e v a : mitem_ok it -> e = 0%N \/ e = 44%N \/ e = 59%N ->
  exists v', known it v' [] /\ mreach (mkM M_INIT (t_type it ++ bs "/" ++ t_sub it ++ e :: rest) v a)
    (mkM (if (e =? 0)%N then M_END else if (e =? 44)%N then M_COMMA else M_SEMI) (if (e =? 59)%N then rest else e :: rest) v' a).
Proof.
  intros ([NT FT] & LT & [NS FS] & LS & _ & _) E.
  set (P := t_type it ++ bs "/" ++ t_sub it ++ e :: rest).
  set (Q := t_sub it ++ e :: rest).
  set (v1 := set_type P (reset v)).
  set (v2 := set_tlen (length (t_type it)) v1).
  set (v3 := set_slen (length (t_sub it)) (set_sub Q v2)).
  exists v3. split. { constructor; try reflexivity; [exists (bs "/" ++ Q); reflexivity|exists (e :: rest); reflexivity]. }
  apply reach_trans with (b := mkM M_TYPE P v1 a).
  { apply reach_step. unfold v1, P. destruct (t_type it) as [|b ty] eqn:Et; [contradiction|]. inversion FT as [|? ? H F']; subst.
    destruct (tchar_am b H) as (A1 & _). unfold m_step. cbn [m_ptr m_st app]. rewrite A1. reflexivity. }
  unfold P at 1. eapply reach_trans; [apply reach_tokens; [auto|exact FT]|]. cbn [app bs].
  apply reach_trans with (b := mkM M_SLASH Q v2 a).
  { apply reach_step. unfold m_step. cbn [m_ptr m_st]. change (47 =? 47)%N with true. cbn [tl m_loc m_acc].
    replace (pdiff _ (v_type v1)) with (length (t_type it)); [reflexivity|].
    unfold v1, set_type. cbn [v_type]. symmetry. apply (pdiff_app (t_type it) (bs "/" ++ Q)). }
  apply reach_trans with (b := mkM M_SUBTYPE Q (set_sub Q v2) a).
  { apply reach_step. unfold Q. destruct (t_sub it) as [|b sb] eqn:Es; [contradiction|]. inversion FS as [|? ? H F']; subst.
    destruct (tchar_am b H) as (A1 & _). unfold m_step. cbn [m_ptr m_st app]. rewrite A1. reflexivity. }
  unfold Q at 1. eapply reach_trans; [apply reach_tokens; [auto|exact FS]|].
  apply reach_step. unfold m_step. cbn [m_ptr m_st m_loc].
  replace (pdiff (e :: rest) (v_sub (set_sub Q v2))) with (length (t_sub it)) by (symmetry; apply (pdiff_app (t_sub it) (e :: rest))).
  fold v3. destruct E as [->|[->| ->]]; reflexivity.
Qed.
(** The white space behind a ';' and the first character of a name. *)
Lemma reach_semi s b rest v a : ows s -> am_token b = true -> am_space b = false ->
  mreach (mkM M_SEMI (s ++ b :: rest) v a)
    (if (b =? 113)%N then mkM M_MAYBEQ rest (set_pl (Some (b :: rest)) v) a else mkM M_TOKL (b :: rest) (set_pl (Some (b :: rest)) v) a).
Proof.
  intros O T S0.
  assert (K : forall st, st = M_SEMI \/ st = M_OWS2 -> mreach (mkM st (b :: rest) v a)
    (if (b =? 113)%N then mkM M_MAYBEQ rest (set_pl (Some (b :: rest)) v) a else mkM M_TOKL (b :: rest) (set_pl (Some (b :: rest)) v) a)).
  { intros st [->| ->]; apply reach_step; unfold m_step; cbn [m_ptr m_st tl]; rewrite S0, T; destruct (b =? 113)%N; reflexivity. }
  destruct s as [|x s]; [apply K; auto|]. inversion O as [|? ? H O']; subst.
  apply reach_trans with (b := mkM M_OWS2 ((x :: s) ++ b :: rest) v a); [destruct H as [->| ->]; mconc|].
  eapply reach_trans; [apply reach_ows2; exact O|]. apply K; auto.
Qed.
Lemma reach_param it p rest e v a ps : known it v ps -> param_ok p -> e = 0%N \/ e = 59%N ->
  let '(s, n, w) := p in
  exists v', known it v' (ps ++ [(firstn 30 n, firstn 30 w)]) /\
    mreach (mkM M_SEMI (s ++ n ++ bs "=" ++ w ++ e :: rest) v a) (mkM (if (e =? 0)%N then M_END else M_SEMI) (if (e =? 0)%N then e :: rest else rest) v' a).
Proof.
  destruct p as [[s n] w]. intros K (O & [NN FN] & NQ & [NW FW]) E.
  set (B := bs "=" ++ w ++ e :: rest). set (W := w ++ e :: rest).
  set (v1 := set_pl (Some (n ++ B)) v). set (v2 := set_pllen (length n) v1). set (v3 := set_prlen (length w) (set_pr W v2)).
  assert (AP : add_param v3 = Ok (set_params (v_params v3 ++ [(firstn 30 n, firstn 30 w)]) (set_pllen (Nat.min (length n) 30) (set_prlen (Nat.min (length w) 30) v3)))).
  { unfold add_param. cbv zeta. change (v_pl v3) with (Some (n ++ B)). change (v_pllen v3) with (length n).
    change (v_prlen v3) with (length w). change (v_pr v3) with (Some W). unfold MAX, W.
    rewrite copy_app by lia. cbn [obind]. rewrite copy_app by lia. cbn [obind].
    replace (firstn (Nat.min (length n) 30) n) with (firstn 30 n); [replace (firstn (Nat.min (length w) 30) w) with (firstn 30 w); [reflexivity|]|].
    - destruct (Nat.min_spec (length w) 30) as [[L ->]|[L ->]]; [rewrite !firstn_all2 by lia; reflexivity|reflexivity].
    - destruct (Nat.min_spec (length n) 30) as [[L ->]|[L ->]]; [rewrite !firstn_all2 by lia; reflexivity|reflexivity]. }
  set (v4 := set_params (v_params v3 ++ [(firstn 30 n, firstn 30 w)]) (set_pllen (Nat.min (length n) 30) (set_prlen (Nat.min (length w) 30) v3))) in *.
  exists v4. split. { destruct K as [K1 K2 K3 K4 K5 K6 K7 K8]. constructor; try assumption. unfold v4. cbn. rewrite K5. reflexivity. }
  clearbody v4. destruct n as [|b n]; [contradiction|]. inversion FN as [|? ? H FN']; subst x l.
  destruct (tchar_am b H) as (A1 & A2 & A3 & A4 & A5 & A6 & A7 & A8).
  assert (R1 : mreach (mkM M_SEMI (s ++ (b :: n) ++ B) v a) (mkM M_TOKL B v1 a)).
  { cbn [app]. eapply reach_trans; [apply reach_semi; assumption|]. change (b :: n ++ B) with ((b :: n) ++ B). fold v1. destruct (b =? 113)%N eqn:Eb.
    - apply N.eqb_eq in Eb. subst b. destruct n as [|b2 n]; [exfalso; apply NQ; reflexivity|].
      inversion FN' as [|? ? H2 FN'']; subst. destruct (tchar_am b2 H2) as (_ & _ & _ & _ & _ & _ & C & _).
      apply reach_trans with (b := mkM M_TOKL ((b2 :: n) ++ B) v1 a).
      + apply reach_step. unfold m_step. cbn [m_ptr m_st app]. rewrite C. reflexivity.
      + apply reach_tokens; auto.
    - apply reach_tokens; auto. }
  eapply reach_trans; [exact R1|]. unfold B at 1. cbn [bs app].
  apply reach_trans with (b := mkM M_EQ W v2 a).
  { apply reach_step. unfold m_step. cbn [m_ptr m_st m_loc]. change (61 =? 61)%N with true. cbn [tl].
    replace (pdiff _ (v_pl v1)) with (length (b :: n)); [reflexivity|]. symmetry. apply (pdiff_app (b :: n) B). }
  apply reach_trans with (b := mkM M_TOKR W (set_pr W v2) a).
  { apply reach_step.
    assert (HW : exists c t, W = c :: t /\ rfc_tchar c = true).
    { unfold W. clear - NW FW. destruct w as [|c t]; [contradiction|]. inversion FW; subst. exists c, (t ++ e :: rest). split; [reflexivity|assumption]. }
    destruct HW as (c & t & HW & H2).
    destruct (tchar_am c H2) as (C1 & _ & _ & _ & _ & _ & _ & C8). unfold m_step. cbn [m_ptr m_st app]. rewrite HW, C8, C1. reflexivity. }
  unfold W at 1. eapply reach_trans; [apply reach_tokens; [auto|exact FW]|].
  apply reach_trans with (b := mkM M_TOKEND (e :: rest) v3 a).
  { apply reach_step. unfold m_step. cbn [m_ptr m_st m_loc].
    replace (pdiff _ (v_pr (set_pr W v2))) with (length w) by (symmetry; apply (pdiff_app w (e :: rest))). fold v3.
    destruct E as [->| ->]; reflexivity. }
  apply reach_step. unfold m_step. cbn [m_ptr m_st m_loc]. rewrite AP. cbn [obind]. destruct E as [->| ->]; reflexivity.
Qed.
(** The state behind a parameter list. *)
Definition after (e : N) : mstatus := if (e =? 0)%N then M_END else M_COMMA.
Lemma add_spec it v q w ps e rest a : mitem_ok it -> v_type v = Some (t_type it ++ w) -> v_tlen v = length (t_type it) ->
  (exists r, v_sub v = Some (t_sub it ++ r)) -> v_slen v = length (t_sub it) -> v_params v = ps -> v_exts v = [] ->
  quality_from_str (v_qv v) = Ok q -> (q <> -1)%Z ->
  mreach (mkM (after e) (e :: rest) v a) (mkM M_ADDED (e :: rest) v (a ++ [mkRange (t_type it) (t_sub it) q ps []])).
Proof.
  intros (_ & LT & _ & LS & _) K1 K2 [r K3] K4 K5 K6 Q NQ.
  apply reach_trans with (b := mkM M_ADD (e :: rest) v a). { unfold after. destruct (e =? 0)%N; mconc. }
  apply reach_step. unfold m_step. cbn [m_ptr m_st]. unfold m_add, am_quality. cbn [m_loc m_ptr m_acc]. rewrite Q. cbn [obind].
  replace (q =? -1)%Z with false by lia. rewrite K1, K2, type_spec by exact LT. cbn [obind].
  unfold subtype_from_str. rewrite K4, K3. replace (MAX <=? length (t_sub it)) with false by (symmetry; apply Nat.leb_gt; unfold MAX; lia).
  rewrite copy_app by lia. cbn [obind]. rewrite firstn_all, K5, K6. reflexivity.
Qed.
Lemma percent_not_neg w : weight_ok w -> (percent w <> -1)%Z.
Proof.
  intros _. unfold percent. cbv zeta. destruct (_ || _) eqn:E; [|lia].
  assert (H : (thousandths w = 290 \/ thousandths w = 570 \/ thousandths w = 580)%N) by (rewrite !orb_true_iff, !N.eqb_eq in E; tauto).
  destruct H as [->|[->| ->]]; discriminate.
Qed.
(** From behind a ';' to the next element. *)
Lemma reach_weight_tail it s ds rest e v a ps : mitem_ok it -> known it v ps -> ows s -> 1 <= length ds <= 3 -> Forall (fun b => is_digit b = true) ds -> follow e ->
  exists v', mreach (mkM M_SEMI (s ++ bs "q=0." ++ ds ++ e :: rest) v a)
                    (mkM M_ADDED (e :: rest) v' (a ++ [mkRange (t_type it) (t_sub it) (percent (WZero ds)) ps []])).
Proof.
  intros OK [[w K1] K2 K3 K4 K5 K6 K7 K8] O L F Fo.
  set (Q := bs "0." ++ ds ++ e :: rest).
  set (v1 := set_pl None (set_pl (Some (bs "q=" ++ Q)) v)). set (v2 := set_qv Q v1).
  exists (set_dec (0 + length ds) v2).
  eapply reach_trans; [apply (reach_semi s 113%N (bs "=0." ++ ds ++ e :: rest)); [exact O|reflexivity|reflexivity]|].
  change (113 =? 113)%N with true. cbv iota.
  apply reach_trans with (b := mkM W_EQ Q v1 a); [mconc|].
  apply reach_trans with (b := mkM W_0INT (bs "." ++ ds ++ e :: rest) v2 a); [mconc|].
  apply reach_trans with (b := mkM W_0PT (ds ++ e :: rest) v2 a); [mconc|].
  apply reach_trans with (b := mkM W_0DEC (ds ++ e :: rest) v2 a).
  { destruct ds as [|b ds]; [cbn in L; lia|]. inversion F as [|? ? H F']; subst. apply reach_step. unfold m_step. cbn [m_ptr m_st app]. rewrite H. reflexivity. }
  assert (D : v_dec v2 = 0) by exact K8.
  eapply reach_trans; [apply reach_mdigits; [exact F|rewrite D; lia]|]. rewrite D.
  apply reach_trans with (b := mkM (after e) (e :: rest) (set_dec (0 + length ds) v2) a); [destruct Fo as [->| ->]; mconc|].
  apply (add_spec it _ _ w ps); try assumption.
  - assert (R : render_weight (WZero ds) = bs "0." ++ ds) by (destruct ds; [cbn in L; lia|reflexivity]).
    change (v_qv (set_dec (0 + length ds) v2)) with (Some Q). unfold Q. rewrite app_assoc, <- R.
    apply quality_spec; [exact (conj (proj2 L) F)|destruct Fo as [->| ->]; reflexivity|destruct Fo as [->| ->]; discriminate].
  - apply percent_not_neg. exact (conj (proj2 L) F).
Qed.
Lemma reach_tail it : forall ps qs rest e v a, mitem_ok it -> known it v qs -> Forall param_ok ps -> follow e ->
  (ps <> [] \/ t_weight it <> None) -> (e = 44%N -> t_weight it <> None) ->
  exists v' x y z, render_params ps ++ render_mweight (t_weight it) ++ e :: rest = 59%N :: x /\
    mreach (mkM M_SEMI x v a)
      (mkM M_ADDED (e :: rest) v' (a ++ [mkRange (t_type it) (t_sub it) y z []])) /\
    y = (match t_weight it with None => 100%Z | Some (_, ds) => percent (WZero ds) end) /\
    z = qs ++ map (fun '(_, n, v) => (firstn 30 n, firstn 30 v)) ps.
Proof.
  induction ps as [|p ps IH]; intros qs rest e v a OK K F Fo NE C.
  - destruct NE as [NE|NE]; [contradiction|]. pose proof OK as OK'. destruct OK' as (_ & _ & _ & _ & _ & W).
    destruct (t_weight it) as [[s ds]|] eqn:Ew; [|contradiction]. destruct W as (O & L & FD).
    destruct (reach_weight_tail it s ds rest e v a qs OK K O L FD Fo) as [v' R].
    exists v'. eexists. exists (percent (WZero ds)), (qs ++ []). split; [|split; [|split; reflexivity]].
    + cbn [render_params flat_map render_mweight app bs]. repeat (rewrite <- app_assoc; cbn [app]). reflexivity.
    + rewrite app_nil_r. exact R.
  - destruct p as [[s n] w]. inversion F as [|? ? P F']; subst.
    destruct (t_weight it) as [wt|] eqn:Ew.
    + assert (NX : exists x, render_params ps ++ render_mweight (Some wt) ++ e :: rest = 59%N :: x).
      { destruct ps as [|[[s2 n2] w2] ps]; destruct wt; cbn [render_params flat_map render_mweight app bs]; eexists; repeat (rewrite <- app_assoc; cbn [app]); reflexivity. }
      destruct NX as [x NX].
      pose proof (reach_param it (s, n, w) x 59%N v a qs K P (or_intror eq_refl)) as RP. cbv beta iota in RP. destruct RP as (v1 & K1 & R1).
      assert (NWt : Some wt <> None) by discriminate.
      destruct (IH _ rest e v1 a OK K1 F' Fo (or_intror NWt) (fun _ => NWt)) as (v' & x' & y & z & E1 & R2 & E2 & E3).
      exists v', (s ++ n ++ bs "=" ++ w ++ 59%N :: x), y, z. split; [|split; [|split]].
      * rewrite <- NX. cbn [render_params flat_map bs app]. repeat (rewrite <- app_assoc; cbn [app]). reflexivity.
      * eapply reach_trans; [exact R1|]. change (59 =? 0)%N with false. cbv iota. rewrite NX in E1. injection E1 as <-. exact R2.
      * exact E2.
      * rewrite E3. cbn [map]. rewrite <- app_assoc. reflexivity.
    + assert (Ee : e = 0%N) by (destruct Fo as [->| ->]; [reflexivity|exfalso; exact (C eq_refl eq_refl)]). subst e.
      destruct ps as [|p2 ps].
      * pose proof (reach_param it (s, n, w) rest 0%N v a qs K P (or_introl eq_refl)) as RP. cbv beta iota in RP. destruct RP as (v1 & K1 & R1).
        exists v1, (s ++ n ++ bs "=" ++ w ++ 0%N :: rest), 100%Z, (qs ++ [(firstn 30 n, firstn 30 w)]). split; [|split; [|split; reflexivity]].
        -- cbn [render_params flat_map render_mweight bs app]. repeat (rewrite <- app_assoc; cbn [app]). reflexivity.
        -- eapply reach_trans; [exact R1|]. destruct K1 as [[w' Q1] Q2 Q3 Q4 Q5 Q6 Q7 Q8].
           apply (add_spec it _ _ w' _ 0%N); try assumption; [rewrite Q7; reflexivity|discriminate].
      * assert (NX : exists x, render_params (p2 :: ps) ++ render_mweight None ++ 0%N :: rest = 59%N :: x).
        { destruct p2 as [[s2 n2] w2]; cbn [render_params flat_map render_mweight app bs]; eexists; repeat (rewrite <- app_assoc; cbn [app]); reflexivity. }
        destruct NX as [x NX].
        pose proof (reach_param it (s, n, w) x 59%N v a qs K P (or_intror eq_refl)) as RP. cbv beta iota in RP. destruct RP as (v1 & K1 & R1).
        assert (NWt : 0%N = 44%N -> (None : option (list N * list N)) <> None) by discriminate. assert (Np : p2 :: ps <> []) by discriminate.
        destruct (IH _ rest 0%N v1 a OK K1 F' Fo (or_introl Np) NWt) as (v' & x' & y & z & E1 & R2 & E2 & E3).
        exists v', (s ++ n ++ bs "=" ++ w ++ 59%N :: x), y, z. split; [|split; [|split]].
        -- rewrite <- NX. cbn [render_params flat_map bs app]. repeat (rewrite <- app_assoc; cbn [app]). reflexivity.
        -- eapply reach_trans; [exact R1|]. change (59 =? 0)%N with false. cbv iota. rewrite NX in E1. injection E1 as <-. exact R2.
        -- exact E2.
        -- rewrite E3. cbn [map]. rewrite <- app_assoc. reflexivity.
Qed.
Lemma reach_item it rest e v a : mitem_ok it -> follow e -> (e = 44%N -> closed it) ->
  exists v', mreach (mkM M_INIT (render_mitem it ++ e :: rest) v a) (mkM M_ADDED (e :: rest) v' (a ++ [meaning it])).
Proof.
  intros OK Fo C.
  assert (D : (t_params it = [] /\ t_weight it = None) \/ (t_params it <> [] \/ t_weight it <> None)).
  { destruct (t_params it); [destruct (t_weight it); [right; right; discriminate|left; auto]|right; left; discriminate]. }
  destruct D as [[P W]|NE].
  - destruct (reach_head it rest e v a OK) as (v1 & K & R); [destruct Fo as [->| ->]; auto|].
    exists v1. unfold render_mitem, meaning. rewrite P, W. cbn [render_params flat_map render_mweight map].
    replace ((t_type it ++ bs "/" ++ t_sub it ++ [] ++ []) ++ e :: rest) with (t_type it ++ bs "/" ++ t_sub it ++ e :: rest)
      by (cbn [app]; rewrite app_nil_r; repeat (rewrite <- app_assoc; cbn [app]); reflexivity).
    apply reach_trans with (b := mkM (after e) (e :: rest) v1 a); [destruct Fo as [->| ->]; exact R|].
    destruct K as [[w' Q1] Q2 Q3 Q4 Q5 Q6 Q7 Q8]. apply (add_spec it _ _ w'); try assumption; [rewrite Q7; reflexivity|discriminate].
  - pose proof OK as (_ & _ & _ & _ & FP & _).
    assert (C' : e = 44%N -> t_weight it <> None).
    { intros E. destruct (C E) as [H|H]; [|exact H]. destruct NE as [N|N]; [contradiction|exact N]. }
    assert (NX : exists x, render_params (t_params it) ++ render_mweight (t_weight it) ++ e :: rest = 59%N :: x).
    { destruct (t_params it) as [|[[s n] w] ps]; destruct (t_weight it) as [[s2 ds]|]; cbn [render_params flat_map render_mweight app bs];
      try (eexists; repeat (rewrite <- app_assoc; cbn [app]); reflexivity). destruct NE; contradiction. }
    destruct NX as [x NX].
    destruct (reach_head it x 59%N v a OK) as (v1 & K & R); [auto|]. change (59 =? 0)%N with false in R. change (59 =? 44)%N with false in R. change (59 =? 59)%N with true in R. cbv iota in R.
    destruct (reach_tail it (t_params it) [] rest e v1 a OK K FP Fo NE C') as (v' & x' & y & z & E1 & R2 & E2 & E3).
    exists v'. unfold render_mitem, meaning.
    replace ((t_type it ++ bs "/" ++ t_sub it ++ render_params (t_params it) ++ render_mweight (t_weight it)) ++ e :: rest)
      with (t_type it ++ bs "/" ++ t_sub it ++ render_params (t_params it) ++ render_mweight (t_weight it) ++ e :: rest)
      by (repeat (rewrite <- app_assoc; cbn [app]); reflexivity).
    rewrite NX. eapply reach_trans; [exact R|]. rewrite NX in E1. injection E1 as <-. rewrite <- E2. cbn [app] in E3. rewrite <- E3. exact R2.
Qed.
Lemma reach_list : forall l it v a, mitem_ok it -> Forall (fun p => sep_ok (fst p) /\ mitem_ok (snd p)) l -> all_but_last_closed it l ->
  ends m_step (mkM M_INIT (render_accept it l ++ [0%N]) v a) (Ok (MSuccess (a ++ map meaning (it :: map snd l)))).
Proof.
  induction l as [|[s it'] l IH]; intros it v a OK F C.
  - unfold render_accept. cbn [render_mrest map]. rewrite app_nil_r. destruct (reach_item it [] 0%N v a OK (or_introl eq_refl) ltac:(discriminate)) as (v' & R).
    eapply ends_reach; [exact R|]. apply ends_done. reflexivity.
  - inversion F as [|? ? [[t [Es Ft]] OK'] F']; subst. cbn [fst snd] in *. destruct C as [C1 C2]. subst s.
    unfold render_accept. cbn [render_mrest]. rewrite <- app_assoc. cbn [app].
    destruct (reach_item it ((t ++ render_mitem it' ++ render_mrest l) ++ [0%N]) 44%N v a OK (or_intror eq_refl) (fun _ => C1)) as (v' & R).
    eapply ends_reach; [exact R|].
    eapply ends_reach with (s' := mkM M_ADDED (render_accept it' l ++ [0%N]) v' (a ++ [meaning it])).
    { change (44%N :: (t ++ render_mitem it' ++ render_mrest l) ++ [0%N]) with ((44%N :: (t ++ render_mitem it' ++ render_mrest l)) ++ [0%N]).
      change (44%N :: (t ++ render_mitem it' ++ render_mrest l)) with ((44%N :: t) ++ render_accept it' l). rewrite <- app_assoc. apply reach_seps. constructor; auto. }
    eapply ends_reach with (s' := mkM M_INIT (render_accept it' l ++ [0%N]) v' (a ++ [meaning it])).
    { pose proof OK' as ([NT FT] & _). unfold render_accept, render_mitem. destruct (t_type it') as [|b ty] eqn:Et; [contradiction|].
      inversion FT as [|? ? H FT']; subst. destruct (tchar_am b H) as (A1 & A2 & A3 & A4 & A5 & _). apply reach_step. unfold m_step. cbn [m_ptr m_st app].
      rewrite A5, A2, A4. reflexivity. }
    pose proof (IH it' v' (a ++ [meaning it]) OK' F' C2) as E. cbn [map] in E |- *. rewrite <- app_assoc in E. exact E.
Qed.
Lemma accept_decoded it l : mitem_ok it -> Forall (fun p => sep_ok (fst p) /\ mitem_ok (snd p)) l -> all_but_last_closed it l ->
  m_parse (render_accept it l) = Ok (MSuccess (map meaning (it :: map snd l))).
Proof. intros OK F C. apply m_parse_ends; [|discriminate]. exact (reach_list l it loc0 [] OK F C). Qed.
Lemma accept_result it l : mitem_ok it -> Forall (fun p => sep_ok (fst p) /\ mitem_ok (snd p)) l -> all_but_last_closed it l ->
  fly_accept_mime (Some (render_accept it l)) =
  Ok (if existsb (fun g => (0 <? g_q g)%Z) (map meaning (it :: map snd l)) then AmOk (map meaning (it :: map snd l)) else Am406).
Proof.
  intros OK F C. unfold fly_accept_mime. rewrite (accept_decoded it l OK F C). cbn [obind map].
  destruct (existsb _ _); reflexivity.
Qed.

(** ** Rejected values *)
Lemma reach_to_weight ty sub s rest v a : token ty -> length ty < 30 -> token sub -> length sub < 30 -> ows s ->
  exists v', mreach (mkM M_INIT (ty ++ bs "/" ++ sub ++ bs ";" ++ s ++ bs "q=" ++ rest) v a) (mkM W_EQ rest v' a).
Proof.
  intros T LT U LU O. set (it := mkMI ty sub [] None).
  assert (OK : mitem_ok it) by (repeat split; cbn; auto; try apply T; try apply U).
  destruct (reach_head it (s ++ bs "q=" ++ rest) 59%N v a OK) as (v1 & K & R); [auto|]. cbn [t_type t_sub it] in R.
  eexists. eapply reach_trans; [exact R|]. change (59 =? 0)%N with false. change (59 =? 44)%N with false. change (59 =? 59)%N with true. cbv iota.
  eapply reach_trans; [apply (reach_semi s 113%N (61%N :: rest)); [exact O|reflexivity|reflexivity]|]. change (113 =? 113)%N with true. cbv iota. mconc.
Qed.
(** A weight of 1, in whatever notation, is a syntax error. *)
Lemma accept_one_rejected ty sub s rest : token ty -> length ty < 30 -> token sub -> length sub < 30 -> ows s ->
  m_parse (ty ++ bs "/" ++ sub ++ bs ";" ++ s ++ bs "q=1" ++ rest) = Ok MPerror.
Proof.
  intros T LT U LU O. apply m_parse_ends; [|discriminate].
  replace ((ty ++ bs "/" ++ sub ++ bs ";" ++ s ++ bs "q=1" ++ rest) ++ [0%N]) with (ty ++ bs "/" ++ sub ++ bs ";" ++ s ++ bs "q=" ++ (49%N :: (rest ++ [0%N])))
    by (cbn [bs app]; repeat (rewrite <- app_assoc; cbn [app]); reflexivity).
  destruct (reach_to_weight ty sub s (49%N :: (rest ++ [0%N])) loc0 [] T LT U LU O) as [v' R]. eapply ends_reach; [exact R|].
  set (v2 := set_qv (49%N :: (rest ++ [0%N])) v'). eapply ends_reach with (s' := mkM W_1INT (rest ++ [0%N]) v2 []); [mconc|]. clearbody v2. clear R.
  destruct rest as [|c rest]; [apply ends_done; reflexivity|]. cbn [app].
  destruct (c =? 46)%N eqn:E.
  - eapply ends_reach with (s' := mkM W_1PT (rest ++ [0%N]) v2 []); [apply reach_step; unfold m_step; cbn [m_ptr m_st]; rewrite E; reflexivity|].
    destruct rest as [|d rest]; [apply ends_done; reflexivity|]. cbn [app]. destruct (d =? 49)%N eqn:E2.
    + eapply ends_reach with (s' := mkM W_1DEC (d :: rest ++ [0%N]) v2 []); [apply reach_step; unfold m_step; cbn [m_ptr m_st]; rewrite E2; reflexivity|]. apply N.eqb_eq in E2. subst d. apply ends_done. reflexivity.
    + apply ends_done. unfold m_step. cbn [m_ptr m_st]. rewrite E2. reflexivity.
  - apply ends_done. unfold m_step. cbn [m_ptr m_st]. rewrite E. reflexivity.
Qed.
(** White space in front of a ';' is a syntax error. *)
Lemma accept_space_rejected ty sub s rest : token ty -> token sub -> ows s -> s <> [] ->
  m_parse (ty ++ bs "/" ++ sub ++ s ++ bs ";" ++ rest) = Ok MPerror.
Proof.
  intros [NT FT] [NS FS] O Ne. apply m_parse_ends; [|discriminate].
  replace ((ty ++ bs "/" ++ sub ++ s ++ bs ";" ++ rest) ++ [0%N]) with (ty ++ bs "/" ++ sub ++ s ++ 59%N :: (rest ++ [0%N]))
    by (cbn [bs app]; repeat (rewrite <- app_assoc; cbn [app]); reflexivity).
  set (Z := s ++ 59%N :: (rest ++ [0%N])).
  eapply ends_reach with (s' := mkM M_TYPE (ty ++ bs "/" ++ sub ++ Z) (set_type (ty ++ bs "/" ++ sub ++ Z) (reset loc0)) []).
  { destruct ty as [|b ty]; [contradiction|]. inversion FT as [|? ? H FT']; subst. destruct (tchar_am b H) as (A1 & _). apply reach_step. unfold m_step. cbn [m_ptr m_st app]. rewrite A1. reflexivity. }
  eapply ends_reach; [apply reach_tokens; [auto|exact FT]|]. cbn [bs app].
  set (v1 := set_type _ _). set (v2 := set_tlen (pdiff (47%N :: sub ++ Z) (v_type v1)) v1).
  eapply ends_reach with (s' := mkM M_SLASH (sub ++ Z) v2 []); [mconc|]. clearbody v2. clear v1.
  eapply ends_reach with (s' := mkM M_SUBTYPE (sub ++ Z) (set_sub (sub ++ Z) v2) []).
  { destruct sub as [|b sub]; [contradiction|]. inversion FS as [|? ? H FS']; subst. destruct (tchar_am b H) as (A1 & _). apply reach_step. unfold m_step. cbn [m_ptr m_st app]. rewrite A1. reflexivity. }
  eapply ends_reach; [apply reach_tokens; [auto|exact FS]|].
  assert (K : forall v, ends m_step (mkM M_OWS1 Z v []) (Ok MPerror)).
  { intros v. unfold Z. clear Z Ne. induction O as [|x s H O IH]; cbn [app].
    - eapply ends_reach; [mconc|]. apply ends_done. reflexivity.
    - eapply ends_reach; [|exact IH]. destruct H as [->| ->]; mconc. }
  destruct s as [|x s]; [contradiction|]. inversion O as [|? ? H O']; subst.
  eapply ends_reach; [|apply K]. unfold Z. cbn [app]. destruct H as [->| ->]; mconc.
Qed.
