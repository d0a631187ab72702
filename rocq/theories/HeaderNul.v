(** Header sections with a NUL byte or with a line that does not begin like a field: what header_phase (ReqFlow.v) makes of
    them. *)
From Coq Require Import Lia.
From Verif Require Import Base CStr CNum Names NamesProofs Buffer BufferProofs AcceptEncProofs Machine Reqline ReqlineProofs Header HeaderProofs ReqFlow.
Local Open Scope N_scope.

(** ** Specification *)
(** Text that begins like a field, as far as the byte before a NUL. *)
Inductive begun : list N -> Prop :=
| begun_name n : n <> [] -> Forall name_char n -> begun n
| begun_value n ws v : n <> [] -> Forall name_char n -> ws <> [] -> ows ws -> v <> [] -> Forall value_char v -> (forall c t, v = c :: t -> c <> 32 /\ c <> 9) ->
    begun (n ++ bs ":" ++ ws ++ v).
(** A byte with which no field begins and that does not end the section. *)
Definition odd_start (c : N) : Prop := field_name_char c = false /\ c <> 13 /\ c <> 10 /\ c <> 0.
Lemma odd_blank : odd_start 32.
Proof. repeat split; discriminate. Qed.

(** ** One line *)
Section LINE.
Variable b : buffer.
Hypothesis W : wf b.
Notation S_ := (stream b).
Notation P := (ptr_at (b_chains b) 0).
Notation el := (el b).
Lemma n_name : forall n i p nl np pre rest k r, Forall name_char n -> S_ = pre ++ n ++ rest -> length pre = i -> P i = Some p ->
  (forall q, P (i + length n) = Some q -> el k (mkHst HFieldName q np (nl + length n) None 0) r) ->
  el (k + length n) (mkHst HFieldName p np nl None 0) r.
Proof.
  induction n as [|c n IH]; intros i p nl np pre rest k r F E L Hp K.
  - cbn [length] in *. rewrite !Nat.add_0_r in *. apply K. exact Hp.
  - inversion F as [|? ? Hc F']; subst. destruct (name_char_class c Hc) as (C1 & C2 & C3). cbn [app length] in *. rewrite Nat.add_succ_r.
    assert (X : nth_error S_ (length pre) = Some c) by (rewrite E; apply nth_mid).
    eapply (el_brk b W _ _ (mkHst HFieldName p np (S nl) None 0) (length pre) c); [reflexivity|exact Hp|exact X| |].
    { unfold hl_step. cbn [hs_ptr hs_st hs_name hs_nlen hs_value hs_vlen]. rewrite (ld b W _ _ _ Hp X). cbn [obind].
      apply N.eqb_neq in C2, C3. rewrite C2, C3, C1. reflexivity. }
    intros q Q. cbn [hs_st hs_name hs_nlen hs_value hs_vlen]. eapply (IH (S (length pre)) q (S nl) np (pre ++ [c]) rest); [exact F'|rewrite E, <- app_assoc; reflexivity|rewrite app_length; cbn; lia|exact Q|].
    intros q' Q'. replace (S nl + length n)%nat with (nl + S (length n))%nat by lia. apply K. rewrite <- Q'. f_equal. lia.
Qed.
Lemma n_value : forall v i p np nl vp vl pre rest k r, Forall value_char v -> S_ = pre ++ v ++ rest -> length pre = i -> P i = Some p ->
  (forall q, P (i + length v) = Some q -> el k (mkHst HFieldValue q np nl vp (vl + length v)) r) ->
  el (k + length v) (mkHst HFieldValue p np nl vp vl) r.
Proof.
  induction v as [|c n IH]; intros i p np nl vp vl pre rest k r F E L Hp K.
  - cbn [length] in *. rewrite !Nat.add_0_r in *. apply K. exact Hp.
  - inversion F as [|? ? Hc F']; subst. unfold value_char in Hc. cbn [app length] in *. rewrite Nat.add_succ_r.
    assert (X : nth_error S_ (length pre) = Some c) by (rewrite E; apply nth_mid).
    eapply (el_brk b W _ _ (mkHst HFieldValue p np nl vp (S vl)) (length pre) c); [reflexivity|exact Hp|exact X| |].
    { unfold hl_step. cbn [hs_ptr hs_st hs_name hs_nlen hs_value hs_vlen]. rewrite (ld b W _ _ _ Hp X). cbn [obind].
      replace (c =? 13) with false by lia. replace (c =? 10) with false by lia. replace (c =? 0) with false by lia.
      replace (field_content c) with true by (unfold field_content, vchar; lia). reflexivity. }
    intros q Q. cbn [hs_st hs_name hs_nlen hs_value hs_vlen]. eapply (IH (S (length pre)) q np nl vp (S vl) (pre ++ [c]) rest); [exact F'|rewrite E, <- app_assoc; reflexivity|rewrite app_length; cbn; lia|exact Q|].
    intros q' Q'. replace (S vl + length n)%nat with (vl + S (length n))%nat by lia. apply K. rewrite <- Q'. f_equal. lia.
Qed.
Lemma begun_itm t rest p0 : begun t -> S_ = t ++ 0 :: rest -> P 0 = Some p0 -> parse_header_line b p0 = Ok LItm.
Proof.
  intros B E P0. pose proof (stream_mem_size b W) as MS. unfold parse_header_line. rewrite E, app_length in MS. cbn [length] in MS.
  assert (FIRST : forall n r0 k r, n <> [] -> Forall name_char n -> S_ = n ++ r0 ->
    (forall q, P (length n) = Some q -> el k (mkHst HFieldName q (Some p0) (length n) None 0) r) -> el (S (k + length n)) (mkHst HInit p0 None 0 None 0) r).
  { intros n r0 k r N1 N2 E1 K. destruct n as [|c n]; [contradiction|]. inversion N2 as [|? ? Hc N3]; subst. destruct (name_char_class c Hc) as (C1 & C2 & C3).
    assert (X0 : nth_error S_ 0 = Some c) by (rewrite E1; reflexivity).
    eapply el_step. { unfold hl_step. cbn [hs_ptr hs_st]. rewrite (ld b W _ _ _ P0 X0). cbn [obind]. rewrite C1. reflexivity. }
    cbn [hs_ptr hs_nlen hs_value hs_vlen]. eapply (n_name (c :: n) 0 p0 0 (Some p0) []); [exact N2|exact E1|reflexivity|exact P0|]. exact K. }
  destruct B as [n N1 N2|n ws v N1 N2 W1 W2 V1 V2 V3].
  - eapply (el_run b (S (1 + length n))); [|lia]. eapply FIRST; eauto. intros q Q. apply el_done. unfold hl_step. cbn [hs_ptr hs_st].
    rewrite (ld b W _ _ 0 Q) by (rewrite E; apply nth_mid). reflexivity.
  - assert (E1 : S_ = n ++ 58 :: ws ++ v ++ 0 :: rest) by (rewrite E; change (bs ":") with [58]; rewrite <- app_assoc; cbn [app]; rewrite <- app_assoc; reflexivity).
    assert (E2 : S_ = (n ++ [58]) ++ ws ++ v ++ 0 :: rest) by (rewrite E1; rewrite <- app_assoc; reflexivity).
    assert (E3 : S_ = (n ++ 58 :: ws) ++ v ++ 0 :: rest) by (rewrite E1; rewrite <- app_assoc; reflexivity).
    assert (E4 : S_ = (n ++ 58 :: ws ++ v) ++ 0 :: rest) by (rewrite E1; rewrite <- app_assoc; cbn [app]; rewrite <- app_assoc; reflexivity).
    rewrite !app_length in MS. cbn [bs length] in MS.
    eapply (el_run b (S ((4 + length v + length ws) + length n))); [|change (length (bs ":")) with 1%nat in MS; lia]. eapply FIRST; eauto. intros q1 Q1.
    replace (4 + length v + length ws)%nat with (S (3 + length v + length ws)) by lia.
    assert (X1 : nth_error S_ (length n) = Some 58) by (rewrite E1; apply nth_mid).
    eapply (el_brk b W _ _ (mkHst HColon q1 (Some p0) (length n) None 0) _ 58); [reflexivity|exact Q1|exact X1| |].
    { unfold hl_step. cbn [hs_ptr hs_st]. rewrite (ld b W _ _ _ Q1 X1). reflexivity. }
    intros q2 Q2. cbn [hs_st hs_name hs_nlen hs_value hs_vlen].
    destruct ws as [|w ws]; [contradiction|]. inversion W2 as [|? ? Hw W3]; subst.
    assert (X2 : nth_error S_ (S (length n)) = Some w).
    { rewrite E2. replace (S (length n)) with (length (n ++ [58])) by (rewrite app_length; cbn; lia). apply nth_mid. }
    apply el_weaken with (k := S (S (1 + length v) + length (w :: ws))); [|lia].
    eapply el_step.
    { unfold hl_step. cbn [hs_ptr hs_st]. rewrite (ld b W _ _ _ Q2 X2). cbn [obind]. replace (hd_ows w) with true by (unfold hd_ows; lia). reflexivity. }
    cbn [hgo hs_ptr hs_st hs_name hs_nlen hs_value hs_vlen].
    eapply (e_ows b W (w :: ws) (S (length n)) q2); [exact W2|exact E2|rewrite app_length; cbn; lia|exact Q2|].
    intros q3 Q3. destruct v as [|d v]; [contradiction|]. inversion V2 as [|? ? Hd V4]; subst. unfold value_char in Hd. destruct (V3 d v eq_refl) as (D1 & D2).
    assert (X3 : nth_error S_ (S (length n) + length (w :: ws)) = Some d).
    { rewrite E3. replace (S (length n) + length (w :: ws))%nat with (length (n ++ 58 :: w :: ws)) by (rewrite app_length; cbn; lia). apply nth_mid. }
    eapply el_step.
    { unfold hl_step. cbn [hs_ptr hs_st]. rewrite (ld b W _ _ _ Q3 X3). cbn [obind].
      replace (hd_ows d) with false by (unfold hd_ows; lia). replace (d =? 13) with false by lia. replace (d =? 0) with false by lia.
      replace (field_content d) with true by (unfold field_content, vchar; lia). reflexivity. }
    cbn [hs_ptr hs_st hs_name hs_nlen hs_value hs_vlen]. eapply (n_value (d :: v) (S (length n) + length (w :: ws)) q3); [exact V2|exact E3|rewrite app_length; cbn; lia|exact Q3|].
    intros q4 Q4. apply el_done. unfold hl_step. cbn [hs_ptr hs_st]. rewrite (ld b W _ _ 0 Q4); [reflexivity|].
    rewrite E4. replace (S (length n) + length (w :: ws) + length (d :: v))%nat with (length (n ++ 58 :: (w :: ws) ++ d :: v)) by (rewrite app_length; cbn [length]; rewrite app_length; cbn; lia). apply nth_mid.
Qed.
End LINE.
Lemma find_lf_nul : forall t n r, ~ In 10 t -> ~ In 0 t -> find_lf (t ++ 0 :: r) n = Ok None.
Proof.
  induction t as [|c t IH]; intros n r A B; [reflexivity|]. cbn [app find_lf]. cbn [In] in A, B.
  destruct (N.eqb_spec c 10); [subst; tauto|]. destruct (N.eqb_spec c 0); [subst; tauto|]. apply IH; tauto.
Qed.
Lemma odd_fatal b ch c t rest : wf b -> b_chains b = [ch] -> stream b = c :: t ++ 0 :: rest -> odd_start c -> ~ In 10 t -> ~ In 0 t ->
  parse_header_line b (0%nat, c_use ch) = Ok LFatal.
Proof.
  intros W BC E (O1 & O2 & O3 & O4) T1 T2. unfold parse_header_line. eapply (el_run b 1); [|lia]. apply el_done. unfold hl_step. cbn [hs_ptr hs_st].
  assert (P0 : ptr_at (b_chains b) 0 0 = Some (0%nat, c_use ch)) by (destruct (first_use_ok b W) as (c' & t' & BC' & _ & P0); rewrite BC in BC'; injection BC' as <- <-; exact P0).
  rewrite (ld b W 0 _ c P0) by (rewrite E; reflexivity). cbn [obind]. rewrite O1.
  replace (end_of_header c) with false by (unfold end_of_header; lia). replace (c =? 0) with false by lia.
  unfold h_error. cbn [fst snd]. rewrite BC. cbn [nth_error].
  pose proof W as (W0 & _). destruct (wf_mem _ _ _ W0) as (tail & T3 & _). fold (stream b) in T3. rewrite E in T3.
  assert (M : skipn (c_use ch) (c_data ch) = mem (b_chains b)) by (rewrite BC; cbn; now rewrite app_nil_r).
  rewrite M, T3. change ((c :: t ++ 0 :: rest) ++ tail) with (c :: (t ++ 0 :: rest) ++ tail). rewrite <- app_assoc. cbn [app].
  change (c :: t ++ 0 :: rest ++ tail) with ((c :: t) ++ 0 :: rest ++ tail). rewrite find_lf_nul; [reflexivity| |]; cbn [In]; intros [X|X]; (congruence || tauto).
Qed.

(** ** The lines before *)
Lemma lines_prefix : forall ls fuel b ch ci rest, wf b -> b_chains b = [ch] -> Forall plain_line ls -> stream b = lines_text ls ++ rest ->
  exists hs b' ch', parse_header_loop (length ls + fuel) b (0%nat, c_use ch) ci = parse_header_loop fuel b' (0%nat, c_use ch') (mkHci (hc_chain ci ++ hs) (hc_count ci + length hs)) /\
    parsed ls hs /\ wf b' /\ b_chains b' = [ch'] /\ stream b' = rest.
Proof.
  induction ls as [|l ls IH]; intros fuel b ch ci rest W BC F E.
  - exists [], b, ch. cbn [length Nat.add]. rewrite app_nil_r, Nat.add_0_r. destruct ci. split; [reflexivity|]. split; [constructor|]. auto.
  - inversion F as [|? ? F1 F2]; subst. cbn [length Nat.add parse_header_loop]. cbn [lines_text flat_map] in E. fold (lines_text ls) in E. rewrite <- !app_assoc in E. cbn [app] in E.
    destruct (one_line b ch l _ W BC E F1) as (r & R & PO). rewrite R. cbn [obind].
    pose proof (one_len b l _ E) as OL. destruct (one_ptr b ch l _ W BC E (length l + 1) ltac:(lia)) as (Q & _). destruct (one_ptr b ch l _ W BC E 0 ltac:(lia)) as (P0 & _). rewrite Nat.add_0_r in P0.
    destruct (next_line_ok b _ _ (length l + 1) W ltac:(lia) ltac:(lia) Q P0) as (b' & p' & k & NL & W' & SB & P' & K1 & K2).
    assert (B1 : exists ch', b_chains b' = [ch'] /\ p' = (0%nat, c_use ch')).
    { destruct (first_use_ok b' W') as (c' & t' & BC' & _ & P1). rewrite BC, BC' in K1. cbn in K1. destruct t'; [|cbn in K1; lia]. exists c'. split; [exact BC'|]. congruence. }
    destruct B1 as (ch' & BC' & ->).
    assert (E' : stream b' = lines_text ls ++ rest).
    { rewrite SB, E. change (l ++ 10 :: lines_text ls ++ rest) with (l ++ [10] ++ lines_text ls ++ rest). rewrite app_assoc. replace (length l + 1)%nat with (length (l ++ [10])) by (rewrite app_length; reflexivity).
      rewrite skipn_app, skipn_all, Nat.sub_diag. reflexivity. }
    destruct PO as [(n & v & vp & -> & LF & o & HO & HV)|(-> & NF)].
    + rewrite (one_addb b ch l _ n v vp o ci W BC E LF HO HV). cbn [obind]. rewrite NL. cbn [obind fst snd].
      destruct (IH fuel b' ch' (mkHci (hc_chain ci ++ [mkHdr (Some (map lowercase n)) (Some v)]) (S (hc_count ci))) rest W' BC' F2 E') as (hs & b'' & ch'' & R' & PH & W'' & BC'' & S'').
      exists (mkHdr (Some (map lowercase n)) (Some v) :: hs), b'', ch''. rewrite R'. cbn [hc_chain hc_count length]. rewrite <- app_assoc. cbn [app]. replace (S (hc_count ci) + length hs)%nat with (hc_count ci + S (length hs))%nat by lia.
      split; [reflexivity|]. split; [constructor; assumption|]. auto.
    + rewrite NL. cbn [obind fst snd]. destruct (IH fuel b' ch' ci rest W' BC' F2 E') as (hs & b'' & ch'' & R' & PH & W'' & BC'' & S'').
      exists hs, b'', ch''. rewrite R'. split; [reflexivity|]. split; [apply parsed_dropped; assumption|]. auto.
Qed.
Lemma lines_many ls : (length ls <= length (lines_text ls))%nat.
Proof. induction ls as [|f fs IH]; [cbn; lia|]. cbn [lines_text flat_map length]. fold (lines_text fs). rewrite !app_length. cbn. lia. Qed.
Lemma operation_after b ls rest : wf b -> length (b_chains b) = 1%nat -> Forall plain_line ls -> stream b = lines_text ls ++ rest ->
  exists hs b' ch' f, reqheader_operation b = parse_header_loop (S f) b' (0%nat, c_use ch') (mkHci hs (length hs)) /\ parsed ls hs /\ wf b' /\ b_chains b' = [ch'] /\ stream b' = rest.
Proof.
  intros W L F E. destruct (first_use_ok b W) as (c & t & BC & FU & P0). unfold reqheader_operation. rewrite FU. cbn [obind].
  rewrite BC in L. destruct t; [|discriminate]. pose proof (stream_mem_size b W) as MS. rewrite E, app_length in MS. pose proof (lines_many ls).
  replace (S (mem_size b)) with (length ls + S (mem_size b - length ls))%nat by lia.
  destruct (lines_prefix ls (S (mem_size b - length ls)) b c header_init rest W BC F E) as (hs & b' & ch' & R & PH & W' & BC' & S').
  exists hs, b', ch', (mem_size b - length ls)%nat. rewrite R. auto.
Qed.

(** ** The request *)
Local Open Scope nat_scope.
Lemma use_pos q c t : wf (q_buf q) -> stream (q_buf q) = c :: t -> (b_use_len (q_buf q) =? 0) = false.
Proof. intros (_ & _ & _ & U & _) E. fold (stream (q_buf q)) in *. rewrite U, E. reflexivity. Qed.
Lemma odd_line_400 e q src fin os r ls c t rest : wf (q_buf q) -> length (b_chains (q_buf q)) = 1 -> q_hd q = true -> q_line q = Some r -> l_version r = Some V1_1 ->
  Forall plain_line ls -> stream (q_buf q) = lines_text ls ++ c :: t ++ 0%N :: rest -> odd_start c -> ~ In 10%N t -> ~ In 0%N t ->
  exists q' hs, header_phase e q src fin os = Ok (VStatus 400 q', src) /\ hc_chain (q_hdr q') = hs /\ parsed ls hs.
Proof.
  intros W L QH QL QV F E O T1 T2. destruct (operation_after _ _ _ W L F E) as (hs & b' & ch' & f & R & PH & W' & BC' & S').
  unfold header_phase. cbn [set_phase q_hd q_buf q_line]. rewrite QH. cbn [negb].
  assert (U : (b_use_len (q_buf q) =? 0) = false). { destruct (stream (q_buf q)) as [|x xs] eqn:X; [destruct (lines_text ls); discriminate|]. eapply use_pos; eassumption. }
  rewrite U, R. cbn [parse_header_loop]. rewrite (odd_fatal b' ch' c t rest W' BC' S' O T1 T2). cbn [obind].
  unfold respond. cbn [set_buf set_hdr set_phase q_line]. rewrite QL, QV. cbn [obind]. do 2 eexists. split; [reflexivity|]. split; [reflexivity|]. exact PH.
Qed.
Lemma begun_waits e q src fin os ls t rest : wf (q_buf q) -> length (b_chains (q_buf q)) = 1 -> q_hd q = true ->
  Forall plain_line ls -> stream (q_buf q) = lines_text ls ++ t ++ 0%N :: rest -> begun t ->
  exists q', header_phase e q src fin os = Ok (VWait q', src) /\ stream (q_buf q') = t ++ 0%N :: rest.
Proof.
  intros W L QH F E B. destruct (operation_after _ _ _ W L F E) as (hs & b' & ch' & f & R & PH & W' & BC' & S').
  unfold header_phase. cbn [set_phase q_hd q_buf q_line]. rewrite QH. cbn [negb].
  assert (U : (b_use_len (q_buf q) =? 0) = false). { destruct (stream (q_buf q)) as [|x xs] eqn:X; [destruct (lines_text ls); [destruct t|]; discriminate|]. eapply use_pos; eassumption. }
  rewrite U, R. cbn [parse_header_loop]. 
  assert (P0 : ptr_at (b_chains b') 0 0 = Some (0, c_use ch')) by (destruct (first_use_ok b' W') as (c' & t' & BC & _ & P0); rewrite BC' in BC; injection BC as <- <-; rewrite BC'; rewrite BC' in P0; exact P0).
  rewrite (begun_itm b' W' t rest _ B S' P0). cbn [obind]. eexists. split; [reflexivity|]. exact S'.
Qed.
