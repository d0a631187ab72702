From Verif Require Import Base CStr CNum Buffer BufferProofs Names NamesProofs AcceptEncProofs Machine Reqline ReqlineProofs Header.
Local Open Scope N_scope.

(** ** Pointers after the release of a prefix *)
Lemma ptr_at_shift : forall cs ci k i, ptr_at cs (ci + k) i = option_map (fun p => (fst p + k, snd p)%nat) (ptr_at cs ci i).
Proof.
  induction cs as [|c t IH]; intros ci k i; [reflexivity|]. cbn [ptr_at]. destruct (i <? c_act c)%nat; [reflexivity|].
  rewrite <- IH. reflexivity.
Qed.
Lemma ptr_at_skip : forall pre t ci i, ptr_at (pre ++ t) ci (list_sum (map c_act pre) + i) = ptr_at t (ci + length pre) i.
Proof.
  induction pre as [|c pre IH]; intros t ci i; [cbn; rewrite Nat.add_0_r; reflexivity|].
  unfold list_sum in *. cbn [app ptr_at map fold_right length].
  destruct (Nat.ltb_spec (c_act c + fold_right Nat.add 0 (map c_act pre) + i) (c_act c))%nat; [lia|].
  replace (c_act c + fold_right Nat.add 0 (map c_act pre) + i - c_act c)%nat with (fold_right Nat.add 0 (map c_act pre) + i)%nat by lia.
  rewrite IH. f_equal. lia.
Qed.
Lemma ptr_at_use c t ci n i : (n < c_act c)%nat ->
  ptr_at (mkChain (c_data c) (c_use c + n) (c_unuse c) :: t) ci i = ptr_at (c :: t) ci (n + i).
Proof.
  intros H. cbn [ptr_at]. unfold c_act, c_len in *. cbn [c_data c_use c_unuse] in *.
  destruct (Nat.ltb_spec i (length (c_data c) - (c_use c + n)))%nat as [A|A]; destruct (Nat.ltb_spec (n + i) (length (c_data c) - c_use c))%nat as [B|B]; try lia.
  - f_equal. f_equal. lia.
  - f_equal. lia.
Qed.
Definition shifted (k : nat) (o o' : option ptr) : Prop :=
  match o with Some p => (k <= fst p)%nat /\ o' = Some ((fst p - k)%nat, snd p) | None => o' = None end.
Lemma shifted_back k o : shifted k (option_map (fun p : ptr => (fst p + k, snd p)%nat) o) o.
Proof. destruct o as [[a b]|]; [|reflexivity]. cbn. split; [lia|]. f_equal. f_equal. lia. Qed.
Lemma release_ptr b n b' : wf b -> (n <= length (stream b))%nat -> release b n = Ok b' ->
  exists k, length (b_chains b) = (length (b_chains b') + k)%nat /\
    (forall i, shifted k (ptr_at (b_chains b) 0 (n + i)) (ptr_at (b_chains b') 0 i)).
Proof.
  intros W H R. destruct (wf_last b W) as (pre & l & E & Wp & Wl & L). destruct W as (W & C & M & U & P).
  assert (Hcs : exists c t, b_chains b = c :: t).
  { destruct (b_chains b); [destruct pre; discriminate|eauto]. }
  destruct Hcs as (c & t & Ec). unfold release in R. rewrite Ec in R.
  destruct (Nat.ltb_spec n (c_act c)) as [Hlt|Hge].
  - injection R as <-. cbn [b_chains]. rewrite Ec. exists 0%nat. split; [cbn; lia|]. intros i. rewrite ptr_at_use by exact Hlt.
    destruct (ptr_at (c :: t) 0 (n + i)) as [[x y]|]; [|reflexivity]. cbn. split; [lia|]. rewrite Nat.sub_0_r. reflexivity.
  - rewrite <- Ec, E in R.
    destruct (count_delete_spec (b_per b) pre l true n 0 Wp Wl) as (k & pre2 & Q1 & Q2 & Q3 & Q4 & Q5); [lia| |].
    { unfold stream in H. rewrite E in H. exact H. }
    rewrite Q1 in R. rewrite firstn_app in R. replace (k - length pre)%nat with 0%nat in R by lia. cbn [firstn] in R. rewrite app_nil_r in R.
    destruct (delete_k_spec k b) as (b1 & D1 & D2 & D3 & D4 & D5 & D6).
    { rewrite E, app_length. cbn. lia. }
    rewrite D1 in R. cbn [obind] in R. rewrite D2, E, skipn_app in R.
    replace (k - length pre)%nat with 0%nat in R by lia. cbn [skipn] in R. rewrite <- Q3 in R. cbn [Nat.add] in *.
    assert (Hpk : (0 < k)%nat).
    { destruct k; [|lia]. exfalso. cbn [firstn flat_map length skipn] in *. subst pre2. rewrite <- E, Ec in Q5. lia. }
    assert (Wn : wf_chains (b_per b) false (pre2 ++ [l])).
    { apply wf_chains_split. split.
      - rewrite Q3. pose proof (full_pre_skipn (b_per b) k pre true Wp) as X. destruct k; [lia|exact X].
      - destruct pre as [|a pre]; [cbn in Q2; lia|]. cbn [last_first] in *. destruct pre2; exact Wl. }
    destruct (pre2 ++ [l]) as [|nc nt] eqn:En; [destruct pre2; discriminate|].
    assert (Un0 : c_use nc = 0%nat).
    { destruct nt as [|d nt]; cbn [wf_chains] in Wn; intuition. }
    injection R as <-. cbn [b_chains].
    assert (EB : b_chains b = firstn k pre ++ nc :: nt).
    { rewrite E, <- En, Q3, app_assoc, firstn_skipn. reflexivity. }
    assert (LK : length (firstn k pre) = k) by (rewrite firstn_length; lia).
    exists k. split; [rewrite EB, app_length, LK; cbn [length]; lia|]. intros i.
    pose proof (full_pre_act (b_per b) _ true (full_pre_firstn _ k _ _ Wp)) as FA.
    set (tot := length (flat_map c_view (firstn k pre))) in *.
    rewrite EB. replace (n + i)%nat with (list_sum (map c_act (firstn k pre)) + (n - tot + i))%nat by lia. rewrite ptr_at_skip, LK.
    rewrite <- (ptr_at_use nc nt _ (n - tot) i) by lia. rewrite Un0. cbn [Nat.add].
    rewrite (ptr_at_shift _ 0 k). apply shifted_back.
Qed.

(** ** Walking through the received bytes *)
Section LINE.
Variable b : buffer.
Hypothesis W : wf b.
Notation S_ := (stream b).
Notation P := (ptr_at (b_chains b) 0).
Lemma ld i p x : P i = Some p -> nth_error S_ i = Some x -> load b p = Ok x.
Proof.
  intros Hp Hx. pose proof W as (W0 & _). destruct (wf_mem _ _ _ W0) as (tail & T1 & T2 & _). fold (stream b) in T1.
  assert (L : (i < length S_)%nat) by (apply nth_error_Some; congruence).
  destruct (P_step b W i p) as (A & _); [rewrite T1, app_length; lia|exact Hp|]. rewrite A, T1, nth_error_app1, Hx by exact L. reflexivity.
Qed.
Lemma adv1 i p x : P i = Some p -> nth_error S_ i = Some x -> exists q, update_chain b p 1 = Some q /\ P (S i) = Some q.
Proof.
  intros Hp Hx. assert (L : (i < length S_)%nat) by (apply nth_error_Some; congruence). destruct p as [ci off].
  pose proof (mem_stream b W) as MS. destruct (P_total b W (S i)) as (q & Q); [lia|]. exists q. split; [|exact Q].
  rewrite (update_chain_spec b i ci off 1 W Hp) by lia. rewrite Nat.add_1_r. exact Q.
Qed.
(** Ends with [r] after at most [k] steps. *)
Definition el (k : nat) (s : hst) (r : outcome lres) : Prop := exists n, (n <= k)%nat /\ forall f, run (hl_step b) (n + f) s = r.
Lemma el_step k s s' r : hl_step b s = Ok (Next s') -> el k s' r -> el (S k) s r.
Proof. intros H (n & L & K). exists (S n). split; [lia|]. intros f. cbn [plus run]. rewrite H. cbn [obind]. apply K. Qed.
Lemma el_done k s r : hl_step b s = Ok (Done r) -> el (S k) s (Ok r).
Proof. intros H. exists 1%nat. split; [lia|]. intros f. cbn [plus run]. rewrite H. reflexivity. Qed.
Lemma el_ub k s u : hl_step b s = UB u -> el (S k) s (UB u).
Proof. intros H. exists 1%nat. split; [lia|]. intros f. cbn [plus run]. rewrite H. reflexivity. Qed.
Lemma el_weaken k k' s r : el k s r -> (k <= k')%nat -> el k' s r.
Proof. intros (n & L & K) G. exists n. split; [lia|exact K]. Qed.
Lemma el_run k s r f : el k s r -> (k <= f)%nat -> run (hl_step b) f s = r.
Proof. intros (n & L & K) G. replace f with (n + (f - n))%nat by lia. apply K. Qed.
(** One byte consumed. *)
Lemma el_brk k s s1 i x r : hs_ptr s1 = hs_ptr s -> P i = Some (hs_ptr s) -> nth_error S_ i = Some x -> hl_step b s = h_brk b s1 ->
  (forall q, P (S i) = Some q -> el k (mkHst (hs_st s1) q (hs_name s1) (hs_nlen s1) (hs_value s1) (hs_vlen s1)) r) -> el (S k) s r.
Proof.
  intros E Hp Hx HS K. destruct (adv1 i _ x Hp Hx) as (q & U & Q). eapply el_step; [|exact (K q Q)]. rewrite HS. unfold h_brk. rewrite E, U. reflexivity.
Qed.
Lemma nth_mid (l1 l2 : list N) x : nth_error (l1 ++ x :: l2) (length l1) = Some x.
Proof. induction l1; [reflexivity|assumption]. Qed.

Definition name_char (c : N) : Prop := rfc_tchar c = true.
Lemma name_char_class c : name_char c -> field_name_char c = true /\ c <> 58 /\ c <> 0.
Proof.
  intros H. destruct (rfc_tchar_class c H) as (_ & _ & _ & _ & Z).
  assert (B : c < 128).
  { unfold name_char, rfc_tchar in H. apply orb_true_iff in H as [H|H]; [lia|]. apply existsb_exists in H as (x & I & E). apply N.eqb_eq in E. subst x. cbn in I. intuition (subst; reflexivity). }
  assert (A : forallb (fun n => let b := N.of_nat n in implb (rfc_tchar b) (field_name_char b && negb (b =? 58) && negb (b =? 0))) (seq 0 128) = true) by (vm_compute; reflexivity).
  rewrite forallb_forall in A. specialize (A (N.to_nat c)). cbv zeta in A. rewrite N2Nat.id, H in A. cbn [implb] in A.
  specialize (A ltac:(apply in_seq; lia)). lia.
Qed.
Lemma e_name : forall n i p nl np pre rest k r, Forall name_char n -> S_ = pre ++ n ++ 58 :: rest -> length pre = i -> P i = Some p ->
  (forall q, P (i + length n) = Some q -> el k (mkHst HFieldName q np (nl + length n) None 0) r) ->
  el (k + length n) (mkHst HFieldName p np nl None 0) r.
Proof.
  induction n as [|c n IH]; intros i p nl np pre rest k r F E L Hp K.
  - cbn [length] in *. rewrite !Nat.add_0_r in *. apply K. exact Hp.
  - inversion F as [|? ? Hc F']; subst. destruct (name_char_class c Hc) as (C1 & C2 & C3). cbn [app length] in *. rewrite Nat.add_succ_r.
    assert (X : nth_error S_ (length pre) = Some c) by (rewrite E; apply nth_mid).
    eapply (el_brk _ _ (mkHst HFieldName p np (S nl) None 0) (length pre) c); [reflexivity|exact Hp|exact X| |].
    { unfold hl_step. cbn [hs_ptr hs_st hs_name hs_nlen hs_value hs_vlen]. rewrite (ld _ _ _ Hp X). cbn [obind].
      apply N.eqb_neq in C2, C3. rewrite C2, C3, C1. reflexivity. }
    intros q Q. cbn [hs_st hs_name hs_nlen hs_value hs_vlen]. eapply (IH (S (length pre)) q (S nl) np (pre ++ [c]) rest); [exact F'|rewrite E, <- app_assoc; reflexivity|rewrite app_length; cbn; lia|exact Q|].
    intros q' Q'. replace (S nl + length n)%nat with (nl + S (length n))%nat by lia. apply K. rewrite <- Q'. f_equal. lia.
Qed.
Lemma e_ows : forall ws i p np nl pre rest k r, ows ws -> S_ = pre ++ ws ++ rest -> length pre = i -> P i = Some p ->
  (forall q, P (i + length ws) = Some q -> el k (mkHst HOws1 q np nl None 0) r) ->
  el (k + length ws) (mkHst HOws1 p np nl None 0) r.
Proof.
  induction ws as [|c n IH]; intros i p np nl pre rest k r F E L Hp K.
  - cbn [length] in *. rewrite !Nat.add_0_r in *. apply K. exact Hp.
  - inversion F as [|? ? Hc F']; subst. cbn [app length] in *. rewrite Nat.add_succ_r.
    assert (X : nth_error S_ (length pre) = Some c) by (rewrite E; apply nth_mid).
    eapply (el_brk _ _ (mkHst HOws1 p np nl None 0) (length pre) c); [reflexivity|exact Hp|exact X| |].
    { unfold hl_step. cbn [hs_ptr hs_st hs_name hs_nlen hs_value hs_vlen]. rewrite (ld _ _ _ Hp X). cbn [obind].
      replace (hd_ows c) with true by (unfold hd_ows; lia). reflexivity. }
    intros q Q. cbn [hs_st hs_name hs_nlen hs_value hs_vlen]. eapply (IH (S (length pre)) q np nl (pre ++ [c]) rest); [exact F'|rewrite E, <- app_assoc; reflexivity|rewrite app_length; cbn; lia|exact Q|].
    intros q' Q'. apply K. rewrite <- Q'. f_equal. lia.
Qed.
(** Visible characters, blanks and tabs. *)
Definition value_char (c : N) : Prop := 32 <= c <= 126 \/ c = 9.
Lemma e_value : forall v i p np nl vp vl pre rest k r, Forall value_char v -> S_ = pre ++ v ++ 13 :: rest -> length pre = i -> P i = Some p ->
  (forall q, P (i + length v) = Some q -> el k (mkHst HFieldValue q np nl vp (vl + length v)) r) ->
  el (k + length v) (mkHst HFieldValue p np nl vp vl) r.
Proof.
  induction v as [|c n IH]; intros i p np nl vp vl pre rest k r F E L Hp K.
  - cbn [length] in *. rewrite !Nat.add_0_r in *. apply K. exact Hp.
  - inversion F as [|? ? Hc F']; subst. unfold value_char in Hc. cbn [app length] in *. rewrite Nat.add_succ_r.
    assert (X : nth_error S_ (length pre) = Some c) by (rewrite E; apply nth_mid).
    eapply (el_brk _ _ (mkHst HFieldValue p np nl vp (S vl)) (length pre) c); [reflexivity|exact Hp|exact X| |].
    { unfold hl_step. cbn [hs_ptr hs_st hs_name hs_nlen hs_value hs_vlen]. rewrite (ld _ _ _ Hp X). cbn [obind].
      replace (c =? 13) with false by lia. replace (c =? 10) with false by lia. replace (c =? 0) with false by lia.
      replace (field_content c) with true by (unfold field_content, vchar; lia). reflexivity. }
    intros q Q. cbn [hs_st hs_name hs_nlen hs_value hs_vlen]. eapply (IH (S (length pre)) q np nl vp (S vl) (pre ++ [c]) rest); [exact F'|rewrite E, <- app_assoc; reflexivity|rewrite app_length; cbn; lia|exact Q|].
    intros q' Q'. replace (S vl + length n)%nat with (vl + S (length n))%nat by lia. apply K. rewrite <- Q'. f_equal. lia.
Qed.
Lemma e_crlf i p np nl vp vl pre rest st : (st = HFieldValue \/ st = HOws1) -> S_ = pre ++ 13 :: 10 :: rest -> length pre = i -> P i = Some p ->
  exists q, P (i + 2) = Some q /\ el 4 (mkHst st p np nl vp vl) (Ok (LSuccess q np nl vp vl)).
Proof.
  intros ST E L Hp. assert (X : nth_error S_ i = Some 13) by (rewrite E, <- L; apply nth_mid).
  assert (Y : nth_error S_ (S i) = Some 10). { rewrite E. replace (S i) with (length (pre ++ [13])) by (rewrite app_length; cbn; lia). change (pre ++ 13 :: 10 :: rest) with (pre ++ [13] ++ 10 :: rest). rewrite app_assoc. apply nth_mid. }
  assert (exists q1, update_chain b p 1 = Some q1 /\ P (S i) = Some q1) as (q1 & U1 & Q1) by (eapply adv1; eassumption).
  assert (exists q2, update_chain b q1 1 = Some q2 /\ P (S (S i)) = Some q2) as (q2 & U2 & Q2) by (eapply adv1; eassumption).
  exists q2. replace (i + 2)%nat with (S (S i)) by lia. split; [exact Q2|].
  assert (exists x, load b q2 = Ok x) as (x & X2).
  { pose proof W as (W0 & _). destruct (wf_mem _ _ _ W0) as (tail & T1 & T2 & _). fold (stream b) in T1.
    assert (LT : (S (S i) < length (mem (b_chains b)))%nat) by (pose proof (mem_stream b W); assert (S i < length S_)%nat by (apply nth_error_Some; congruence); lia).
    destruct (P_step b W _ _ LT Q2) as (A & _). rewrite A. destruct (nth_error (mem (b_chains b)) (S (S i))) eqn:Z; [eauto|]. apply nth_error_None in Z. lia. }
  eapply el_step; [|eapply el_step; [|eapply el_step; [|apply el_done]]].
  - unfold hl_step. cbn [hs_ptr hs_st hs_name hs_nlen hs_value hs_vlen]. rewrite (ld _ _ _ Hp X). cbn [obind].
    destruct ST as [-> | ->]; [change (13 =? 13) with true|change (hd_ows 13) with false; change (13 =? 13) with true]; unfold h_brk; cbn [hgo hs_ptr]; rewrite U1; reflexivity.
  - unfold hl_step. cbn [hgo hs_ptr hs_st hs_name hs_nlen hs_value hs_vlen]. rewrite (ld _ _ _ Q1 Y). cbn [obind].
    change (10 =? 10) with true. unfold h_brk; cbn [hgo hs_ptr]; rewrite U2; reflexivity.
  - unfold hl_step. cbn [hgo hs_ptr hs_st hs_name hs_nlen hs_value hs_vlen]. rewrite X2. reflexivity.
  - unfold hl_step. cbn [hgo hs_ptr hs_st hs_name hs_nlen hs_value hs_vlen]. rewrite X2. reflexivity.
Qed.
End LINE.

(** ** Specification of a header section *)
(** One field as written by the client: name, white space after the colon, value. *)
Record field := mkField { f_name : list N; f_ws : list N; f_value : list N }.
Definition field_text (f : field) : list N := f_name f ++ bs ":" ++ f_ws f ++ f_value f ++ CRLF.
(** Upper-case ASCII letters are replaced by lower-case ones. *)
Definition lowercase (c : N) : N :=
  match List.find (fun e => fst e =? c) (combine (bs "ABCDEFGHIJKLMNOPQRSTUVWXYZ") (bs "abcdefghijklmnopqrstuvwxyz")) with
  | Some e => snd e
  | None => c
  end.
Definition delivered (f : field) : hdr := mkHdr (Some (map lowercase (f_name f))) (Some (f_value f)).
(** A field with a token as name, white space after the colon and a value that does not begin with white space. *)
Definition field_ok (f : field) : Prop :=
  f_name f <> [] /\ Forall name_char (f_name f) /\ ows (f_ws f) /\ f_ws f <> [] /\ Forall value_char (f_value f) /\
  (forall c t, f_value f = c :: t -> c <> 32 /\ c <> 9).
(** The number of the block the i-th unread byte lies in. *)
Definition block (b : buffer) (i : nat) : nat := match ptr_at (b_chains b) 0 i with Some p => fst p | None => length (b_chains b) end.
(** The field at offset [o]: its name lies in one block, and its value begins in that block or in a block that is
    not the last one. *)
Definition placed (b : buffer) (o : nat) (f : field) : Prop :=
  block b (o + length (f_name f) - 1) = block b o /\
  (f_value f = [] \/ block b (o + length (f_name f) + 1 + length (f_ws f)) = block b o \/
   (S (block b (o + length (f_name f) + 1 + length (f_ws f))) < length (b_chains b))%nat).
Fixpoint all_placed (b : buffer) (o : nat) (fs : list field) : Prop :=
  match fs with [] => True | f :: t => placed b o f /\ all_placed b (o + length (field_text f)) t end.
Definition section (fs : list field) : list N := flat_map field_text fs ++ CRLF.

Lemma lower_lowercase c : lower c = lowercase c.
Proof.
  destruct (N.ltb_spec c 128) as [H|H].
  - assert (A : forallb (fun n => lower (N.of_nat n) =? lowercase (N.of_nat n)) (seq 0 128) = true) by (vm_compute; reflexivity).
    rewrite forallb_forall in A. specialize (A (N.to_nat c) ltac:(apply in_seq; lia)). rewrite N2Nat.id in A. lia.
  - unfold lower, lowercase. replace ((65 <=? c) && (c <=? 90)) with false by lia.
    destruct (List.find _ _) as [e|] eqn:E; [|reflexivity]. exfalso. apply List.find_some in E as [I E]. apply N.eqb_eq in E. subst c.
    assert (A : forallb (fun e => fst e <? 128) (combine (bs "ABCDEFGHIJKLMNOPQRSTUVWXYZ") (bs "abcdefghijklmnopqrstuvwxyz")) = true) by (vm_compute; reflexivity).
    rewrite forallb_forall in A. specialize (A e I). lia.
Qed.
Lemma field_text_length f : length (field_text f) = (length (f_name f) + 1 + length (f_ws f) + length (f_value f) + 2)%nat.
Proof. unfold field_text. rewrite !app_length. cbn. lia. Qed.
Lemma stream_mem_size b : wf b -> (length (stream b) < mem_size b)%nat.
Proof. intros W. pose proof (mem_stream b W). pose proof (mem_size_ge b). lia. Qed.
Lemma first_use_ok b : wf b -> exists c t, b_chains b = c :: t /\ first_use b = Ok (0%nat, c_use c) /\ ptr_at (b_chains b) 0 0 = Some (0%nat, c_use c).
Proof.
  intros (W & _). pose proof (ptr_at_0 _ _ _ W) as P0. unfold first_use. destruct (b_chains b) as [|c t]; [destruct P0|]. eauto.
Qed.
Lemma line_success b f rest p0 : wf b -> field_ok f -> stream b = field_text f ++ rest -> ptr_at (b_chains b) 0 0 = Some p0 ->
  exists q vp, parse_header_line b p0 = Ok (LSuccess q (Some p0) (length (f_name f)) vp (length (f_value f))) /\
    ptr_at (b_chains b) 0 (length (field_text f)) = Some q /\
    (f_value f <> [] -> exists pv, vp = Some pv /\ ptr_at (b_chains b) 0 (length (f_name f) + 1 + length (f_ws f)) = Some pv).
Proof.
  intros W (N1 & N2 & W1 & W2 & V1 & V2) E P0. destruct f as [n ws v]. cbn [f_name f_ws f_value] in *.
  assert (E1 : stream b = [] ++ n ++ 58 :: (ws ++ v ++ 13 :: 10 :: rest)).
  { rewrite E. unfold field_text, CRLF, CR, LF. cbn [f_name f_ws f_value bs app]. rewrite <- !app_assoc. cbn [app]. rewrite <- !app_assoc. reflexivity. }
  assert (E2 : stream b = (n ++ [58]) ++ ws ++ (v ++ 13 :: 10 :: rest)) by (rewrite E1; cbn [app]; rewrite <- app_assoc; reflexivity).
  assert (E3 : stream b = (n ++ 58 :: ws) ++ v ++ 13 :: (10 :: rest)) by (rewrite E1; cbn [app]; rewrite <- app_assoc; reflexivity).
  assert (E4 : stream b = (n ++ 58 :: ws ++ v) ++ 13 :: 10 :: rest) by (rewrite E1; cbn [app]; rewrite <- app_assoc; cbn [app]; rewrite <- app_assoc; reflexivity).
  pose proof (stream_mem_size b W) as MS. rewrite E, app_length, field_text_length in MS. cbn [f_name f_ws f_value] in MS.
  rewrite field_text_length. cbn [f_name f_ws f_value].
  destruct (P_total b W (length n + 1 + length ws)) as (pv & Pv).
  { pose proof (mem_stream b W) as G. rewrite E, app_length, field_text_length in G. cbn [f_name f_ws f_value] in G. lia. }
  set (vp := match v with [] => None | _ => Some pv end).
  assert (L4 : length (n ++ 58 :: ws ++ v) = (length n + 1 + length ws + length v)%nat) by (rewrite app_length; cbn [length]; rewrite app_length; lia).
  destruct (P_total b W (length n + 1 + length ws + length v)) as (p4 & P4).
  { pose proof (mem_stream b W) as G. rewrite E, app_length, field_text_length in G. cbn [f_name f_ws f_value] in G. lia. }
  destruct (e_crlf b W (length n + 1 + length ws + length v) p4 (Some p0) (length n) vp (length v) (n ++ 58 :: ws ++ v) rest (match v with [] => HOws1 | _ => HFieldValue end)) as (q & Q & K4);
    [destruct v; auto|exact E4|exact L4|exact P4|].
  exists q, vp. split; [|split; [exact Q|intros NV; exists pv; split; [unfold vp; destruct v; [contradiction|reflexivity]|exact Pv]]].
  unfold parse_header_line. eapply (el_run b (length n + (3 + (length ws + (5 + length v))) + 1)); [|lia].
  destruct n as [|c n]; [contradiction|]. inversion N2 as [|? ? Hc N3]; subst. destruct (name_char_class c Hc) as (C1 & C2 & C3).
  assert (X0 : nth_error (stream b) 0 = Some c) by (rewrite E1; reflexivity).
  rewrite Nat.add_1_r. eapply el_step.
  { unfold hl_step. cbn [hs_ptr hs_st]. rewrite (ld b W _ _ _ P0 X0). cbn [obind]. rewrite C1. reflexivity. }
  cbn [hs_ptr hs_nlen hs_value hs_vlen]. rewrite Nat.add_comm. eapply (e_name b W (c :: n) 0 p0 0 (Some p0) []); [exact N2|exact E1|reflexivity|exact P0|].
  cbn [Nat.add]. intros q1 Q1.
  assert (X1 : nth_error (stream b) (length (c :: n)) = Some 58) by (rewrite E1; cbn [app]; apply (nth_mid (c :: n))).
  eapply (el_brk b W _ _ (mkHst HColon q1 (Some p0) (length (c :: n)) None 0) _ 58); [reflexivity|exact Q1|exact X1| |].
  { unfold hl_step. cbn [hs_ptr hs_st]. rewrite (ld b W _ _ _ Q1 X1). reflexivity. }
  intros q2 Q2. cbn [hs_st hs_name hs_nlen hs_value hs_vlen].
  destruct ws as [|w ws]; [contradiction|]. inversion W1 as [|? ? Hw W3]; subst.
  assert (X2 : nth_error (stream b) (S (length (c :: n))) = Some w).
  { rewrite E2. replace (S (length (c :: n))) with (length ((c :: n) ++ [58])) by (rewrite app_length; cbn; lia). apply nth_mid. }
  eapply el_step.
  { unfold hl_step. cbn [hs_ptr hs_st]. rewrite (ld b W _ _ _ Q2 X2). cbn [obind]. replace (hd_ows w) with true by (unfold hd_ows; lia). reflexivity. }
  cbn [hgo hs_ptr hs_st hs_name hs_nlen hs_value hs_vlen].
  apply el_weaken with (k := (4 + length v + 1 + length (w :: ws))%nat); [|cbn [length]; lia].
  eapply (e_ows b W (w :: ws) (S (length (c :: n))) q2); [exact W1|exact E2|rewrite app_length; cbn; lia|exact Q2|].
  intros q3 Q3. replace (S (length (c :: n)) + length (w :: ws))%nat with (length (c :: n) + 1 + length (w :: ws))%nat in Q3 by lia.
  destruct v as [|d v].
  - cbn [length] in *. rewrite Nat.add_0_r in P4. rewrite Q3 in P4. injection P4 as <-. apply el_weaken with (k := 4%nat); [exact K4|lia].
  - rewrite Q3 in Pv. injection Pv as <-.
    inversion V1 as [|? ? Hd V3]; subst. unfold value_char in Hd. destruct (V2 d v eq_refl) as (D1 & D2).
    assert (X3 : nth_error (stream b) (length (c :: n) + 1 + length (w :: ws)) = Some d).
    { rewrite E3. replace (length (c :: n) + 1 + length (w :: ws))%nat with (length ((c :: n) ++ 58 :: w :: ws)) by (rewrite app_length; cbn; lia). apply nth_mid. }
    rewrite Nat.add_1_r. eapply el_step.
    { unfold hl_step. cbn [hs_ptr hs_st]. rewrite (ld b W _ _ _ Q3 X3). cbn [obind].
      replace (hd_ows d) with false by (unfold hd_ows; lia). replace (d =? 13) with false by lia. replace (d =? 0) with false by lia.
      replace (field_content d) with true by (unfold field_content, vchar; lia). reflexivity. }
    cbn [hs_ptr hs_st hs_name hs_nlen hs_value hs_vlen]. eapply (e_value b W (d :: v) (length (c :: n) + 1 + length (w :: ws)) q3); [exact V1|exact E3|rewrite app_length; cbn; lia|exact Q3|].
    intros q4 Q4. rewrite P4 in Q4. injection Q4 as <-. exact K4.
Qed.
Lemma next_line_ok b q p0 n : wf b -> (0 < n)%nat -> (n <= length (stream b))%nat -> ptr_at (b_chains b) 0 n = Some q -> ptr_at (b_chains b) 0 0 = Some p0 ->
  exists b' p' k, next_line b q p0 = Ok (b', p') /\ wf b' /\ stream b' = skipn n (stream b) /\ ptr_at (b_chains b') 0 0 = Some p' /\
    length (b_chains b) = (length (b_chains b') + k)%nat /\ (forall i, shifted k (ptr_at (b_chains b) 0 (n + i)) (ptr_at (b_chains b') 0 i)).
Proof.
  intros W N0 NL Q P0. destruct (release_spec b n W NL) as (b' & R & W' & SB & _). destruct (release_ptr b n b' W NL R) as (k & K1 & K2).
  pose proof (K2 0%nat) as K3. rewrite Nat.add_0_r, Q in K3. cbn [shifted] in K3. destruct K3 as (K3 & K4).
  exists b', ((fst q - k)%nat, snd q), k. split; [|auto].
  unfold next_line, ptr_len. pose proof (mem_stream b W) as MS. pose proof (mem_size_ge b) as MG.
  assert (PL : ptr_len_loop (S (mem_size b)) b p0 q p0 false false 0 = Ok (Z.of_nat n)).
  { change false with (0 <? 0)%nat at 2. change 0%Z with (Z.of_nat 0). apply (ptr_len_loop_spec b W); [lia|lia|exact Q|exact P0|lia|lia|exact P0]. }
  destruct (first_use_ok b W) as (c & t & BC & _ & P0'). rewrite P0' in P0. injection P0 as <-. rewrite BC in *. rewrite PL. cbn [obind]. rewrite Nat2Z.id, R. cbn [obind].
  rewrite K1. replace (length (b_chains b') + k - length (b_chains b'))%nat with k by lia.
  unfold shift_ptr. replace (fst q <? k)%nat with false by (symmetry; apply Nat.ltb_ge; exact K3). reflexivity.
Qed.
Lemma mem_first b c t : b_chains b = c :: t -> exists r, mem (b_chains b) = c_mem c ++ r.
Proof. intros ->. unfold mem. cbn [flat_map]. eauto. Qed.
Lemma addb_ok b f rest p0 vp ci : wf b -> field_ok f -> stream b = field_text f ++ rest -> ptr_at (b_chains b) 0 0 = Some p0 ->
  (f_value f <> [] -> exists pv, vp = Some pv /\ ptr_at (b_chains b) 0 (length (f_name f) + 1 + length (f_ws f)) = Some pv) ->
  placed b 0 f ->
  header_addb b ci (Some p0) (length (f_name f)) vp (length (f_value f)) = Ok (mkHci (hc_chain ci ++ [delivered f]) (S (hc_count ci))).
Proof.
  intros W (N1 & N2 & W1 & W2 & V1 & V2) E P0 HV (B1 & B2).
  destruct (first_use_ok b W) as (c & t & BC & _ & P0'). rewrite P0' in P0. injection P0 as <-.
  pose proof (mem_stream b W) as MS. pose proof (field_text_length f) as FL.
  assert (LS : (length (field_text f) <= length (stream b))%nat) by (rewrite E, app_length; lia).
  assert (LN : (0 < length (f_name f))%nat) by (destruct (f_name f); [contradiction|cbn; lia]).
  assert (BL0 : block b 0 = 0%nat) by (unfold block; rewrite P0'; reflexivity).
  cbn [Nat.add] in B1, B2. rewrite BL0 in B1, B2.
  assert (NA : (length (f_name f) <= c_act c)%nat).
  { unfold block in B1. destruct (P_total b W (length (f_name f) - 1)) as (p & Pp); [lia|]. rewrite Pp in B1.
    rewrite BC in Pp. cbn [ptr_at] in Pp. destruct (Nat.ltb_spec (length (f_name f) - 1) (c_act c)) as [A|A]; [lia|].
    apply ptr_at_ge in Pp. lia. }
  unfold header_addb, buf_copy.
  assert (MN : memcpy b (0%nat, c_use c) 0 (length (f_name f)) = Ok (f_name f)).
  { rewrite (BufferProofs.memcpy_spec b 0 0 (c_use c) _ W P0') by lia. cbn [skipn]. rewrite E. unfold field_text. rewrite <- app_assoc. rewrite firstn_exact. reflexivity. }
  assert (CN : contiguous b (0%nat, c_use c) (length (f_name f)) = Ok (f_name f)).
  { unfold contiguous. cbn [fst snd]. rewrite BC. cbn [nth_error].
    unfold c_act, c_len in NA. destruct (Nat.ltb_spec (length (c_data c)) (c_use c + length (f_name f))) as [A|A]; [lia|]. f_equal.
    destruct (mem_first b c t BC) as (r & MR). pose proof W as (W0 & _). destruct (wf_mem _ _ _ W0) as (tail & T1 & _). fold (stream b) in T1.
    assert (X : firstn (length (f_name f)) (c_mem c ++ r) = f_name f).
    { rewrite <- MR, T1, E. unfold field_text. rewrite <- !app_assoc. apply firstn_exact. }
    rewrite firstn_app in X. rewrite c_mem_length in X. unfold c_act, c_len in X. replace (length (f_name f) - (length (c_data c) - c_use c))%nat with 0%nat in X by lia.
    cbn [firstn] in X. rewrite app_nil_r in X. exact X. }
  assert (CV : (match length (f_value f), vp with 0%nat, _ => Ok [] | _, None => UB NullDeref | _, Some p => memcpy b p 0 (length (f_value f)) end) = Ok (f_value f)).
  { destruct (f_value f) as [|d v] eqn:EV; [reflexivity|]. destruct (HV ltac:(discriminate)) as (pv & -> & PV). cbn [length]. destruct pv as [vi vo].
    change (S (length v)) with (length (d :: v)). rewrite (memcpy_earlier_spec b _ vi vo 0 _ W PV).
    - rewrite E. unfold field_text. rewrite EV. f_equal. replace (length (f_name f) + 1 + length (f_ws f))%nat with (length (f_name f ++ bs ":" ++ f_ws f)) by (rewrite !app_length; cbn; lia).
      replace ((f_name f ++ bs ":" ++ f_ws f ++ (d :: v) ++ CRLF) ++ rest) with ((f_name f ++ bs ":" ++ f_ws f) ++ ((d :: v) ++ CRLF ++ rest)) by (rewrite <- !app_assoc; reflexivity).
      rewrite skipn_app, skipn_all, Nat.sub_diag. cbn [skipn]. rewrite app_nil_l. apply firstn_exact.
    - cbn [length] in *. lia.
    - lia.
    - unfold block in B2. rewrite PV in B2. cbn [fst] in B2. destruct B2 as [B2|[B2|B2]]; [discriminate|left; lia|right; exact B2]. }
  destruct (f_name f) as [|nc nt] eqn:EN; [contradiction|]. cbn [length] in MN, CN |- *. rewrite MN. cbn [obind]. rewrite CN. cbn [obind]. rewrite CV. cbn [obind].
  unfold delivered, padded. rewrite EN, Nat.sub_diag. cbn [repeat]. rewrite app_nil_r. do 5 f_equal. cbn [map]. f_equal; [f_equal; [apply lower_lowercase|apply map_ext; exact lower_lowercase]].
Qed.
Lemma block_shift b b' k n i : length (b_chains b) = (length (b_chains b') + k)%nat ->
  (forall i, shifted k (ptr_at (b_chains b) 0 (n + i)) (ptr_at (b_chains b') 0 i)) -> block b (n + i) = (block b' i + k)%nat.
Proof.
  intros L H. specialize (H i). unfold block. destruct (ptr_at (b_chains b) 0 (n + i)) as [p|]; cbn [shifted] in H.
  - destruct H as (H & ->). cbn [fst]. lia.
  - rewrite H. exact L.
Qed.
Lemma placed_shift b b' k n : length (b_chains b) = (length (b_chains b') + k)%nat ->
  (forall i, shifted k (ptr_at (b_chains b) 0 (n + i)) (ptr_at (b_chains b') 0 i)) -> forall fs o, Forall field_ok fs -> all_placed b (n + o) fs -> all_placed b' o fs.
Proof.
  intros L H. pose proof (fun i => block_shift b b' k n i L H) as B. induction fs as [|f fs IH]; intros o F A; [exact Logic.I|].
  inversion F as [|? ? (FN & _) F']; subst. assert (LN : (0 < length (f_name f))%nat) by (destruct (f_name f); [contradiction|cbn; lia]).
  cbn [all_placed] in *. destruct A as ((A1 & A2) & A3). split; [|apply IH; [exact F'|]; replace (n + (o + length (field_text f)))%nat with (n + o + length (field_text f))%nat by lia; exact A3].
  replace (n + o + length (f_name f) - 1)%nat with (n + (o + length (f_name f) - 1))%nat in A1 by lia.
  replace (n + o + length (f_name f) + 1 + length (f_ws f))%nat with (n + (o + length (f_name f) + 1 + length (f_ws f)))%nat in A2 by lia.
  rewrite !B in A1. rewrite !B in A2. unfold placed. split; [lia|]. destruct A2 as [A2|[A2|A2]]; [auto|right; left; lia|right; right; lia].
Qed.
Lemma line_end b p0 c rest : wf b -> end_of_header c = true -> stream b = c :: rest -> ptr_at (b_chains b) 0 0 = Some p0 -> parse_header_line b p0 = Ok LEnd.
Proof.
  intros W C E P0. unfold parse_header_line. eapply (el_run b 1); [|lia]. apply el_done. unfold hl_step. cbn [hs_ptr hs_st].
  rewrite (ld b W 0 p0 c P0) by (rewrite E; reflexivity). cbn [obind]. rewrite C.
  assert (X : field_name_char c = false). { unfold end_of_header in C. apply orb_true_iff in C as [C|C]; apply N.eqb_eq in C; subst c; reflexivity. }
  rewrite X. reflexivity.
Qed.
Lemma section_loop : forall fs fuel b p ci rest, wf b -> Forall field_ok fs -> all_placed b 0 fs -> stream b = section fs ++ rest -> ptr_at (b_chains b) 0 0 = Some p -> (length fs < fuel)%nat ->
  exists b', parse_header_loop fuel b p ci = Ok (HSuccess (mkHci (hc_chain ci ++ map delivered fs) (hc_count ci + length fs)) b') /\ wf b' /\ stream b' = rest.
Proof.
  induction fs as [|f fs IH]; intros fuel b p ci rest W F A E P0 FU; (destruct fuel as [|fuel]; [cbn in FU; lia|]).
  - cbn [parse_header_loop]. unfold section in E. cbn [flat_map app CRLF] in E. rewrite (line_end b p CR (LF :: rest) W eq_refl E P0). cbn [obind].
    destruct (release_spec b 2 W) as (b' & R & W' & SB & _); [rewrite E; cbn; lia|]. rewrite R. cbn [obind].
    exists b'. cbn [map length]. rewrite app_nil_r, Nat.add_0_r. destruct ci. split; [reflexivity|]. split; [exact W'|]. rewrite SB, E. reflexivity.
  - inversion F as [|? ? F1 F2]; subst. cbn [all_placed] in A. destruct A as (A1 & A2). cbn [parse_header_loop].
    unfold section in E. cbn [flat_map] in E. rewrite <- !app_assoc in E.
    destruct (line_success b f _ p W F1 E P0) as (q & vp & PL & Q & HV). rewrite PL. cbn [obind].
    rewrite (addb_ok b f _ p vp ci W F1 E P0 HV A1). cbn [obind].
    destruct (next_line_ok b q p (length (field_text f)) W) as (b' & p' & k & NL & W' & SB & P' & K1 & K2);
      [rewrite field_text_length; lia|rewrite E, app_length; lia|exact Q|exact P0|]. rewrite NL. cbn [obind fst snd].
    destruct (IH fuel b' p' (mkHci (hc_chain ci ++ [delivered f]) (S (hc_count ci))) rest W' F2) as (b'' & R & W'' & S'').
    + eapply (placed_shift b b' k); [exact K1|exact K2|exact F2|]. rewrite Nat.add_0_r. exact A2.
    + rewrite SB, E, skipn_app, skipn_all, Nat.sub_diag. unfold section. rewrite <- app_assoc. reflexivity.
    + exact P'.
    + cbn [length] in FU. lia.
    + exists b''. rewrite R. cbn [hc_chain hc_count map length]. rewrite <- app_assoc. cbn [app]. replace (S (hc_count ci) + length fs)%nat with (hc_count ci + S (length fs))%nat by lia. auto.
Qed.
Lemma section_delivered fs b rest : wf b -> Forall field_ok fs -> all_placed b 0 fs -> stream b = section fs ++ rest ->
  exists b', reqheader_operation b = Ok (HSuccess (mkHci (map delivered fs) (length fs)) b') /\ wf b' /\ stream b' = rest.
Proof.
  intros W F A E. destruct (first_use_ok b W) as (c & t & BC & FU & P0). unfold reqheader_operation. rewrite FU. cbn [obind].
  destruct (section_loop fs (S (mem_size b)) b _ header_init rest W F A E P0) as (b' & R & W' & S').
  { pose proof (stream_mem_size b W) as MS. rewrite E in MS. unfold section in MS. rewrite !app_length in MS.
    assert (G : (length fs <= length (flat_map field_text fs))%nat).
    { clear. induction fs as [|f fs IH]; [cbn; lia|]. cbn [flat_map length]. rewrite app_length, field_text_length. lia. }
    lia. }
  exists b'. rewrite R. auto.
Qed.
Lemma one_block_placed b fs : forall o, length (b_chains b) = 1%nat -> wf b -> Forall field_ok fs -> (o + length (flat_map field_text fs) <= length (stream b))%nat -> all_placed b o fs.
Proof.
  induction fs as [|f fs IH]; intros o L W F H; [exact Logic.I|]. inversion F as [|? ? F1 F2]; subst. cbn [flat_map] in H. rewrite app_length, field_text_length in H.
  cbn [all_placed]. split; [|apply IH; [exact L|exact W|exact F2|rewrite field_text_length; lia]].
  pose proof (mem_stream b W) as MS.
  assert (Z : forall i, (i < length (stream b))%nat -> block b i = 0%nat).
  { intros i Hi. unfold block. destruct (P_total b W i) as (p & Pp); [lia|]. rewrite Pp. destruct (b_chains b) as [|c [|d t]]; try discriminate.
    cbn [ptr_at] in Pp. destruct (i <? c_act c)%nat; [injection Pp as <-; reflexivity|discriminate]. }
  unfold placed. rewrite !Z by lia. split; [reflexivity|]. right; left; reflexivity.
Qed.

(** ** Arbitrary lines in one block *)
(** [line_field l name value]: the line [l] (without its line feed) is a field. *)
Definition any_name_char (c : N) : Prop := 33 <= c <= 126 /\ c <> 58 /\ c <> 59.
Inductive line_field : list N -> list N -> list N -> Prop :=
| lf_crlf name ws value : Forall any_name_char name -> ows ws -> ws <> [] -> Forall value_char value ->
    (forall c t, value = c :: t -> c <> 32 /\ c <> 9) -> line_field (name ++ bs ":" ++ ws ++ value ++ [13]) name value
| lf_lf name ws value : Forall any_name_char name -> ows ws -> ws <> [] -> Forall value_char value ->
    (forall c t, value = c :: t -> c <> 32 /\ c <> 9) -> value <> [] -> line_field (name ++ bs ":" ++ ws ++ value) name value.
(** A line: not empty, not beginning with CR, without line feed and NUL. *)
Definition plain_line (l : list N) : Prop := l <> [] /\ hd 0 l <> 13 /\ ~ In 10 l /\ ~ In 0 l.

Lemma any_name_class c : field_name_char c = true /\ c <> 58 <-> any_name_char c.
Proof. unfold field_name_char, rl_tchar, any_name_char, vchar, fly_numeral, fly_alpha. lia. Qed.

Lemma span_unique (Q : N -> Prop) : forall x y c d t u, Forall Q x -> Forall Q y -> ~ Q c -> ~ Q d -> x ++ c :: t = y ++ d :: u -> x = y /\ c = d /\ t = u.
Proof.
  induction x as [|a x IH]; intros [|e y] c d t u F G H K EQ; cbn [app] in EQ; injection EQ as E1 E2; subst.
  - auto.
  - inversion G; contradiction.
  - inversion F; contradiction.
  - inversion F; inversion G; subst. destruct (IH y c d t u) as (-> & -> & ->); auto.
Qed.
Definition is_ows (c : N) : Prop := c = 32 \/ c = 9.
Lemma field_shape l n v : line_field l n v -> exists w ws e, l ++ [10] = n ++ 58 :: (w :: ws) ++ v ++ e ++ [10] /\ Forall any_name_char n /\ ows (w :: ws) /\ Forall value_char v /\
  (forall c t, v = c :: t -> c <> 32 /\ c <> 9) /\ (e = [13] \/ (e = [] /\ v <> [])).
Proof.
  intros H. inversion H as [? ws ? N0 W0 W1 V0 V1|? ws ? N0 W0 W1 V0 V1 V2]; subst; (destruct ws as [|w ws]; [contradiction|]); exists w, ws.
  - exists [13]. split; [repeat (rewrite <- app_assoc; cbn [app bs]); reflexivity|auto 10].
  - exists []. split; [repeat (rewrite <- app_assoc; cbn [app bs]); reflexivity|auto 10].
Qed.
Lemma not_any58 : ~ any_name_char 58. Proof. unfold any_name_char. lia. Qed.
Lemma nf_name l pre c tl : l ++ [10] = pre ++ c :: tl -> Forall any_name_char pre -> ~ any_name_char c -> c <> 58 -> ~ exists n v, line_field l n v.
Proof.
  intros E F C1 C2 (n & v & H). apply field_shape in H as (w & ws & e & EL & N0 & _). rewrite E in EL.
  destruct (span_unique any_name_char _ _ _ _ _ _ F N0 C1 not_any58 EL) as (_ & -> & _). contradiction.
Qed.
Lemma field_tail l name X : l ++ [10] = name ++ 58 :: X -> Forall any_name_char name -> forall n v, line_field l n v ->
  exists w ws e, X = (w :: ws) ++ v ++ e ++ [10] /\ ows (w :: ws) /\ Forall value_char v /\ (forall c t, v = c :: t -> c <> 32 /\ c <> 9) /\ (e = [13] \/ (e = [] /\ v <> [])).
Proof.
  intros E F n v H. apply field_shape in H as (w & ws & e & EL & N0 & R). rewrite E in EL.
  destruct (span_unique any_name_char _ _ _ _ _ _ F N0 not_any58 not_any58 EL) as (_ & _ & ->). exists w, ws, e. auto.
Qed.
Lemma nf_colon l name c tl : l ++ [10] = name ++ 58 :: c :: tl -> Forall any_name_char name -> hd_ows c = false -> ~ exists n v, line_field l n v.
Proof.
  intros E F C (n & v & H). destruct (field_tail _ _ _ E F n v H) as (w & ws & e & EQ & W & _). cbn [app] in EQ. injection EQ as -> _. pose proof (Forall_inv W) as Hw. cbv beta in Hw. unfold hd_ows in C. lia.
Qed.
Lemma field_val l name ws c tl : l ++ [10] = name ++ 58 :: ws ++ c :: tl -> Forall any_name_char name -> ows ws -> ~ is_ows c -> forall n v, line_field l n v ->
  exists e, c :: tl = v ++ e ++ [10] /\ Forall value_char v /\ (e = [13] \/ (e = [] /\ v <> [])).
Proof.
  intros E F W C n v H. destruct (field_tail _ _ _ E F n v H) as (w & ws' & e & EQ & W' & V0 & V1 & HE). exists e.
  assert (X : exists d t, v ++ e ++ [10] = d :: t /\ ~ is_ows d).
  { destruct v as [|d v]; [|exists d; eexists; split; [reflexivity|]; destruct (V1 d v eq_refl); unfold is_ows; lia].
    destruct HE as [-> |(-> & ?)]; [|contradiction]. exists 13, [10]. split; [reflexivity|unfold is_ows; lia]. }
  destruct X as (d & t & X & D). rewrite X in *. destruct (span_unique is_ows _ _ _ _ _ _ W W' C D EQ) as (_ & -> & ->). auto.
Qed.
Lemma nf_ows l name ws c tl : l ++ [10] = name ++ 58 :: ws ++ c :: tl -> Forall any_name_char name -> ows ws -> ~ is_ows c -> c <> 13 -> ~ value_char c -> ~ exists n v, line_field l n v.
Proof.
  intros E F W C C1 C2 (n & v & H). destruct (field_val _ _ _ _ _ E F W C n v H) as (e & EQ & V & HE). destruct v as [|d v].
  - destruct HE as [-> |(_ & ?)]; [|contradiction]. cbn in EQ. injection EQ as -> _. contradiction.
  - cbn [app] in EQ. injection EQ as -> _. inversion V; contradiction.
Qed.
Lemma field_end l name ws v c tl : l ++ [10] = name ++ 58 :: ws ++ v ++ c :: tl -> Forall any_name_char name -> ows ws -> Forall value_char v -> (forall d t, v ++ c :: tl = d :: t -> ~ is_ows d) -> ~ value_char c ->
  forall n v', line_field l n v' -> (c = 13 /\ tl = [10]) \/ (c = 10 /\ tl = []).
Proof.
  intros E F W V HD C n v' H. destruct (v ++ c :: tl) as [|d t] eqn:X; [destruct v; discriminate|].
  destruct (field_val _ _ _ _ _ E F W (HD d t eq_refl) n v' H) as (e & EQ & V' & HE). rewrite <- X in EQ.
  assert (N13 : ~ value_char 13) by (unfold value_char; lia). assert (N10 : ~ value_char 10) by (unfold value_char; lia).
  destruct HE as [-> |(-> & _)]; cbn [app] in EQ.
  - left. destruct (span_unique value_char _ _ _ _ _ _ V V' C N13 EQ) as (_ & -> & ->). auto.
  - right. destruct (span_unique value_char _ _ _ _ _ _ V V' C N10 EQ) as (_ & -> & ->). auto.
Qed.

Section ONE.
Variable b : buffer.
Variable ch : chain.
Variable l rest : list N.
Hypothesis W : wf b.
Hypothesis BC : b_chains b = [ch].
Hypothesis E : stream b = l ++ 10 :: rest.
Hypothesis PL : plain_line l.
Notation P := (ptr_at (b_chains b) 0).
Notation L := (length l).
Lemma one_len : (L + 1 <= length (stream b))%nat. Proof. rewrite E, app_length. cbn. lia. Qed.
Lemma one_ptr i : (i <= L + 1)%nat -> P i = Some (0%nat, (c_use ch + i)%nat) /\ (i < c_act ch)%nat.
Proof.
  intros H. pose proof one_len. pose proof (mem_stream b W) as MS. destruct (P_total b W i) as (p & Hp); [lia|].
  rewrite BC in *. cbn [ptr_at] in *. destruct (Nat.ltb_spec i (c_act ch)); [auto|discriminate].
Qed.
Lemma one_load i c : nth_error (l ++ [10]) i = Some c -> load b (0%nat, (c_use ch + i)%nat) = Ok c.
Proof.
  intros H. assert (Hi : (i < L + 1)%nat) by (assert (i < length (l ++ [10%N]))%nat by (apply nth_error_Some; congruence); rewrite app_length in *; cbn in *; lia).
  eapply (ld b W i); [apply one_ptr; lia|]. rewrite E. change (l ++ 10 :: rest) with (l ++ [10] ++ rest). rewrite app_assoc, nth_error_app1; [exact H|].
  rewrite app_length. cbn. lia.
Qed.
Lemma one_adv i : (i <= L)%nat -> update_chain b (0%nat, (c_use ch + i)%nat) 1 = Some (0%nat, (c_use ch + S i)%nat).
Proof.
  intros H. pose proof one_len. destruct (one_ptr i ltac:(lia)) as (P1 & _). destruct (one_ptr (S i) ltac:(lia)) as (P2 & _).
  rewrite (update_chain_spec b i _ _ 1 W P1) by lia. rewrite Nat.add_1_r. exact P2.
Qed.
Lemma find_lf_ok : forall x n r, ~ In 10 x -> ~ In 0 x -> find_lf (x ++ 10 :: r) n = Ok (Some (S (n + length x))).
Proof.
  induction x as [|c x IH]; intros n r H1 H2; cbn [app find_lf length].
  - change (10 =? 10) with true. cbn. rewrite Nat.add_0_r. reflexivity.
  - replace (c =? 10) with false by (symmetry; apply N.eqb_neq; intros ->; apply H1; left; reflexivity).
    replace (c =? 0) with false by (symmetry; apply N.eqb_neq; intros ->; apply H2; left; reflexivity).
    rewrite IH; [f_equal; f_equal; lia|intros Q; apply H1; right; exact Q|intros Q; apply H2; right; exact Q].
Qed.
Lemma In_skipn (x : N) : forall i y, In x (skipn i y) -> In x y.
Proof. induction i as [|i IH]; intros [|c y] H; cbn in *; auto. Qed.
Lemma one_error i : (i <= L)%nat -> h_error b (0%nat, (c_use ch + i)%nat) = Ok (Done (LError (0%nat, (c_use ch + (L + 1))%nat))).
Proof.
  intros H. destruct PL as (_ & _ & NL & NZ). unfold h_error. cbn [fst snd]. rewrite BC. cbn [nth_error].
  assert (D : exists r, skipn (c_use ch + i) (c_data ch) = skipn i l ++ 10 :: r).
  { pose proof W as (W0 & _). destruct (wf_mem _ _ _ W0) as (tail & T1 & _). fold (stream b) in T1. rewrite BC in T1. unfold mem in T1. cbn [flat_map] in T1. rewrite app_nil_r in T1.
    exists (rest ++ tail). rewrite Nat.add_comm, <- skipn_skipn. fold (c_mem ch). rewrite T1, E, <- app_assoc. rewrite skipn_app.
    replace (i - L)%nat with 0%nat by lia. reflexivity. }
  destruct D as (r & ->). rewrite find_lf_ok; [|intros Q; apply NL, (In_skipn _ i _ Q)|intros Q; apply NZ, (In_skipn _ i _ Q)].
  cbn [obind]. rewrite skipn_length. do 4 f_equal. lia.
Qed.

(** The invariant of the loop. *)
Definition at_ (i : nat) (s : hst) : Prop := hs_ptr s = (0%nat, (c_use ch + i)%nat).
Definition K (s : hst) (i : nat) : Prop :=
  match hs_st s with
  | HInit => i = 0%nat /\ hs_nlen s = 0%nat /\ hs_value s = None /\ hs_vlen s = 0%nat
  | HFieldName => exists r, l = firstn i l ++ r /\ i = length (firstn i l) /\ Forall any_name_char (firstn i l) /\ hs_name s = Some (0%nat, c_use ch) /\
                  hs_nlen s = i /\ hs_value s = None /\ hs_vlen s = 0%nat
  | HColon => exists name r, l = name ++ 58 :: r /\ i = S (length name) /\ Forall any_name_char name /\ hs_name s = Some (0%nat, c_use ch) /\
              hs_nlen s = length name /\ hs_value s = None /\ hs_vlen s = 0%nat
  | HOws1 => exists name ws r, l = name ++ 58 :: ws ++ r /\ i = (S (length name) + length ws)%nat /\ Forall any_name_char name /\ ows ws /\
             (ws <> [] \/ exists c, nth_error (l ++ [10]) i = Some c /\ hd_ows c = true) /\ hs_name s = Some (0%nat, c_use ch) /\
             hs_nlen s = length name /\ hs_value s = None /\ hs_vlen s = 0%nat
  | HFieldValue => exists name ws v r, l = name ++ 58 :: ws ++ v ++ r /\ i = (S (length name) + length ws + length v)%nat /\ Forall any_name_char name /\ ows ws /\ ws <> [] /\
             Forall value_char v /\ (match v with c :: _ => c <> 32 /\ c <> 9 | [] => exists c, nth_error (l ++ [10]) i = Some c /\ hd_ows c = false /\ field_content c = true end) /\
             hs_name s = Some (0%nat, c_use ch) /\ hs_nlen s = length name /\ hs_value s = Some (0%nat, (c_use ch + (S (length name) + length ws))%nat) /\ hs_vlen s = length v
  | HCr => exists name ws v r, l = name ++ 58 :: ws ++ v ++ 13 :: r /\ i = (S (length name) + length ws + length v + 1)%nat /\ Forall any_name_char name /\ ows ws /\ ws <> [] /\
             Forall value_char v /\ (match v with c :: _ => c <> 32 /\ c <> 9 | [] => True end) /\
             hs_name s = Some (0%nat, c_use ch) /\ hs_nlen s = length name /\ (v <> [] -> hs_value s = Some (0%nat, (c_use ch + (S (length name) + length ws))%nat)) /\ hs_vlen s = length v
  | _ => exists name ws v e, l = name ++ 58 :: ws ++ v ++ e /\ i = (L + 1)%nat /\ Forall any_name_char name /\ ows ws /\ ws <> [] /\
             Forall value_char v /\ (match v with c :: _ => c <> 32 /\ c <> 9 | [] => True end) /\ (e = [13] \/ (e = [] /\ v <> [])) /\
             hs_name s = Some (0%nat, c_use ch) /\ hs_nlen s = length name /\ (v <> [] -> hs_value s = Some (0%nat, (c_use ch + (S (length name) + length ws))%nat)) /\ hs_vlen s = length v
  end.
Definition inv (s : hst) : Prop := exists i, at_ i s /\ (i <= L + 1)%nat /\ (i <= L \/ hs_st s = HLf \/ hs_st s = HNext)%nat /\ K s i.
Definition post (r : lres) : Prop :=
  (exists name v vp, r = LSuccess (0%nat, (c_use ch + (L + 1))%nat) (Some (0%nat, c_use ch)) (length name) vp (length v) /\ line_field l name v /\
     exists o, (o <= L)%nat /\ (v <> [] -> vp = Some (0%nat, (c_use ch + o)%nat) /\ exists r', skipn o l = v ++ r')) \/
  (r = LError (0%nat, (c_use ch + (L + 1))%nat) /\ ~ exists n v, line_field l n v).
Definition rank (s : hst) : nat := match hs_st s with HInit => 7 | HFieldName => 6 | HColon => 5 | HOws1 => 4 | HFieldValue => 3 | HCr => 2 | HLf => 1 | HNext => 0 end.
Definition meas (s : hst) : nat := (L + 1 + c_use ch - snd (hs_ptr s)) + rank s.
Definition good (s : hst) (o : outcome hsres) : Prop :=
  match o with Ok (Next s') => inv s' /\ (meas s' < meas s)%nat | Ok (Done r) => post r | UB _ => False end.
Lemma good_err s i : at_ i s -> (i <= L)%nat -> (~ exists n v, line_field l n v) -> good s (h_error b (hs_ptr s)).
Proof. intros A H NF. rewrite A, one_error by exact H. cbn [good]. right. auto. Qed.
Lemma here i c x r : nth_error (l ++ [10]) i = Some c -> l = x ++ r -> i = length x -> exists tl, l ++ [10] = x ++ c :: tl.
Proof.
  intros H E1 E2. rewrite E1, <- app_assoc in *. rewrite nth_error_app2 in H by lia. subst i. rewrite Nat.sub_diag in H. destruct (r ++ [10]) as [|d t]; [discriminate|]. injection H as ->. eauto.
Qed.
Lemma good_brk s s1 i : at_ i s -> at_ i s1 -> (i <= L)%nat -> (rank s1 <= rank s)%nat ->
  (S i <= L \/ hs_st s1 = HLf \/ hs_st s1 = HNext)%nat -> 
  K (mkHst (hs_st s1) (0%nat, (c_use ch + S i)%nat) (hs_name s1) (hs_nlen s1) (hs_value s1) (hs_vlen s1)) (S i) -> good s (h_brk b s1).
Proof.
  intros A0 A1 H R O HK. unfold h_brk. rewrite A1, one_adv by exact H. cbn [good]. split.
  - exists (S i). split; [reflexivity|]. split; [lia|]. split; [exact O|exact HK].
  - unfold meas. rewrite A0. cbn [hs_ptr snd]. replace (rank (mkHst (hs_st s1) (0%nat, (c_use ch + S i)%nat) (hs_name s1) (hs_nlen s1) (hs_value s1) (hs_vlen s1))) with (rank s1) by reflexivity. lia.
Qed.
Lemma nth_split i c : nth_error (l ++ [10]) i = Some c -> (i <= L)%nat ->
  (exists r, (i < L)%nat /\ l = firstn i l ++ c :: r /\ c <> 10 /\ c <> 0) \/ (i = L /\ c = 10).
Proof.
  intros H HL. destruct PL as (_ & _ & NL & NZ). destruct (Nat.eq_dec i L) as [->|NE].
  - right. split; [reflexivity|]. pose proof (nth_mid l [] 10) as Q. congruence.
  - left. rewrite nth_error_app1 in H by lia. apply nth_error_split in H as (l1 & l2 & E1 & E2). exists l2. split; [lia|].
    assert (F : firstn i l = l1). { rewrite E1, <- E2, firstn_app, Nat.sub_diag, firstn_all. apply app_nil_r. }
    split; [rewrite F; exact E1|]. split; intros ->; [apply NL|apply NZ]; rewrite E1; apply in_or_app; right; left; reflexivity.
Qed.
Lemma tail_split (x r r' : list N) i c : l = x ++ r -> i = length x -> l = firstn i l ++ c :: r' -> r = c :: r'.
Proof. intros E1 -> E2. rewrite E1 in E2 at 2. rewrite firstn_app, Nat.sub_diag, firstn_all in E2. cbn [firstn] in E2. rewrite app_nil_r, E1 in E2. apply app_inv_head in E2. exact E2. Qed.
Lemma tail_end (x r : list N) : l = x ++ r -> L = length x -> r = [].
Proof. intros E1 E2. rewrite E1, app_length in E2. destruct r; [reflexivity|]. cbn in E2. lia. Qed.
Lemma step_good s : inv s -> good s (hl_step b s).
Proof.
  intros (i & A & I1 & I2 & HK).
  assert (LD : i = (L + 1)%nat \/ exists c, nth_error (l ++ [10]) i = Some c /\ load b (hs_ptr s) = Ok c).
  { destruct (Nat.eq_dec i (L + 1)) as [->|NE]; [left; reflexivity|right].
    destruct (nth_error (l ++ [10]) i) as [c|] eqn:X; [|apply nth_error_None in X; rewrite app_length in X; cbn in X; lia].
    exists c. split; [reflexivity|]. rewrite A. apply one_load. exact X. }
  unfold K in HK. unfold hl_step. destruct (hs_st s) eqn:ST.
  - (* INIT *) destruct HK as (-> & K1 & K2 & K3). destruct LD as [LD|(c & X & ->)]; [lia|]. cbn [obind].
    destruct PL as (P1 & P2 & P3 & P4). destruct l as [|d t] eqn:EL; [contradiction|]. cbn [hd] in P2. cbn in X. injection X as ->. 
    destruct (field_name_char c) eqn:FN.
    + cbn [good]. split.
      * exists 0%nat. split; [exact A|]. split; [lia|]. split; [left; lia|]. unfold K; cbn [hs_st]. exists (c :: t). cbn. rewrite <- EL in *. rewrite A, Nat.add_0_r, K1. auto 10.
      * unfold meas, rank. cbn [hs_ptr hs_st]. rewrite ST. lia.
    + rewrite <- EL in *. replace (end_of_header c) with false.
      2: { symmetry. unfold end_of_header. apply orb_false_iff. split; apply N.eqb_neq; [|exact P2]. intros ->. apply P3. rewrite EL. left. reflexivity. }
      replace (c =? 0) with false by (symmetry; apply N.eqb_neq; intros ->; apply P4; rewrite EL; left; reflexivity).
      apply (good_err s _ A); [lia|]. apply (nf_name l [] c (t ++ [10])); [rewrite EL; reflexivity|constructor| |]; [intros Q; apply any_name_class in Q; destruct Q; congruence|intros ->; discriminate FN].
  - (* FIELD_NAME *) destruct HK as (r & K1 & K2 & K3 & K4 & K5 & K6 & K7). destruct LD as [LD|(c & X & ->)]; [destruct I2 as [?|[?|?]]; [lia|discriminate|discriminate]|]. cbn [obind]. assert (HL : (i <= L)%nat) by (destruct I2 as [?|[?|?]]; [lia|discriminate|discriminate]).
    destruct (nth_split i c X HL) as [(r' & Hi & E' & C1 & C2)|(-> & ->)].
    + destruct (N.eqb_spec c 58) as [->|C3].
      * apply (good_brk s (hgo s HColon) i A A HL); [unfold rank; rewrite ST; cbn; try rewrite ST; lia|left; lia|]. unfold K. cbn [hgo hs_st hs_name hs_nlen hs_value hs_vlen].
        exists (firstn i l), r'. split; [exact E'|]. rewrite <- K2. rewrite K5. auto 10.
      * apply N.eqb_neq in C2. rewrite C2. destruct (field_name_char c) eqn:FN.
        2: { apply (good_err s i A); [lia|]. destruct (here i c _ _ X K1 K2) as (tl & T). apply (nf_name l _ _ _ T K3); [intros Q; apply any_name_class in Q; destruct Q; congruence|exact C3]. }
        apply (good_brk s (mkHst HFieldName (hs_ptr s) (hs_name s) (S (hs_nlen s)) (hs_value s) (hs_vlen s)) i A A HL); [unfold rank; rewrite ST; cbn; try rewrite ST; lia|left; lia|]. unfold K. cbn [hs_st hs_name hs_nlen hs_value hs_vlen].
        exists r'. rewrite K5. assert (FS : firstn (S i) l = firstn i l ++ [c]).
        { rewrite E' at 1. rewrite firstn_app. rewrite <- K2. replace (S i - i)%nat with 1%nat by lia. rewrite firstn_all2 by lia. reflexivity. }
        rewrite FS. split; [rewrite <- app_assoc; exact E'|]. split; [rewrite app_length; cbn; lia|]. split; [|auto 10].
        apply Forall_app. split; [exact K3|]. constructor; [|constructor]. apply any_name_class. auto.
    + change (10 =? 58) with false. change (10 =? 0) with false. change (field_name_char 10) with false. apply (good_err s L A); [lia|]. destruct (here L 10 _ _ X K1 K2) as (tl & T). apply (nf_name l _ _ _ T K3); [unfold any_name_char; lia|lia].
  - (* COLON *) destruct HK as (name & r & K1 & K2 & K3 & K4 & K5 & K6 & K7). destruct LD as [LD|(c & X & ->)]; [destruct I2 as [?|[?|?]]; [lia|discriminate|discriminate]|]. cbn [obind].
    assert (HL : (i <= L)%nat) by (destruct I2 as [?|[?|?]]; [lia|discriminate|discriminate]).
    destruct (hd_ows c) eqn:HO.
    2: { apply (good_err s i A); [lia|]. destruct (here i c (name ++ [58]) r X) as (tl & T); [rewrite K1, <- app_assoc; reflexivity|rewrite app_length; cbn; lia|]. rewrite <- app_assoc in T. exact (nf_colon l _ _ _ T K3 HO). }
    cbn [good]. split.
    + exists i. split; [exact A|]. split; [lia|]. split; [left; lia|]. unfold K. cbn [hgo hs_st hs_name hs_nlen hs_value hs_vlen]. exists name, [], r. cbn [app length]. split; [exact K1|]. split; [lia|]. split; [exact K3|]. split; [constructor|]. split; [right; eauto|auto].
    + unfold meas, rank. cbn [hgo hs_ptr hs_st]. rewrite ST. lia.
  - (* OWS1 *) destruct HK as (name & ws & r & K1 & K2 & K3 & KW & KX & K4 & K5 & K6 & K7). destruct LD as [LD|(c & X & ->)]; [destruct I2 as [?|[?|?]]; [lia|discriminate|discriminate]|]. cbn [obind].
    assert (HL : (i <= L)%nat) by (destruct I2 as [?|[?|?]]; [lia|discriminate|discriminate]).
    assert (E1 : l = (name ++ 58 :: ws) ++ r) by (rewrite K1, <- app_assoc; reflexivity).
    assert (E2 : i = length (name ++ 58 :: ws)) by (rewrite app_length; cbn [length]; lia).
    destruct (nth_split i c X HL) as [(r' & Hi & E' & C1 & C2)|(-> & ->)].
    + pose proof (tail_split _ _ _ _ _ E1 E2 E') as ->. destruct (hd_ows c) eqn:HO.
      * apply (good_brk s s i A A HL); [unfold rank; rewrite ST; cbn; try rewrite ST; lia|left; lia|]. unfold K. cbn [hs_st hs_name hs_nlen hs_value hs_vlen]. rewrite ST.
        exists name, (ws ++ [c]), r'. rewrite <- app_assoc. cbn [app]. split; [exact K1|]. split; [rewrite app_length; cbn; lia|]. split; [exact K3|].
        split; [apply Forall_app; split; [exact KW|constructor; [unfold hd_ows in HO; lia|constructor]]|]. split; [left; destruct ws; discriminate|auto].
      * assert (WN : ws <> []). { destruct KX as [KX|(c' & X' & KX)]; [exact KX|]. rewrite X in X'. injection X' as <-. congruence. }
        destruct (N.eqb_spec c 13) as [->|C3].
        -- apply (good_brk s (hgo s HCr) i A A HL); [unfold rank; rewrite ST; cbn; try rewrite ST; lia|left; lia|]. unfold K. cbn [hgo hs_st hs_name hs_nlen hs_value hs_vlen].
           exists name, ws, [], r'. cbn [app length]. split; [exact K1|]. split; [lia|]. split; [exact K3|]. split; [exact KW|]. split; [exact WN|]. split; [constructor|]. split; [exact Logic.I|]. split; [exact K4|]. split; [exact K5|]. split; [contradiction|exact K7].
        -- apply N.eqb_neq in C2. rewrite C2. destruct (field_content c) eqn:FC.
           2: { apply (good_err s i A); [lia|]. destruct (here i c _ _ X E1 E2) as (tl & T). rewrite <- app_assoc in T.
                apply (nf_ows l _ _ _ _ T K3 KW); [unfold hd_ows in HO; unfold is_ows; lia|exact C3|unfold field_content, vchar in FC; unfold value_char; lia]. }
           cbn [good]. split.
           ++ exists i. split; [exact A|]. split; [lia|]. split; [left; lia|]. unfold K. cbn [hs_st hs_name hs_nlen hs_value hs_vlen].
              exists name, ws, [], (c :: r'). cbn [app length]. split; [exact K1|]. split; [lia|]. split; [exact K3|]. split; [exact KW|]. split; [exact WN|]. split; [constructor|].
              split; [eauto|]. split; [exact K4|]. split; [exact K5|]. split; [rewrite A, K2; reflexivity|exact K7].
           ++ unfold meas, rank. cbn [hs_ptr hs_st]. rewrite ST. lia.
    + change (hd_ows 10) with false. change (10 =? 13) with false. change (10 =? 0) with false. change (field_content 10) with false. apply (good_err s L A); [lia|]. destruct (here L 10 _ _ X E1 E2) as (tl & T). rewrite <- app_assoc in T.
      apply (nf_ows l _ _ _ _ T K3 KW); [unfold is_ows; lia|lia|unfold value_char; lia].
  - (* FIELD_VALUE *) destruct HK as (name & ws & v & r & K1 & K2 & K3 & KW & KX & KV & KC & K4 & K5 & K6 & K7). destruct LD as [LD|(c & X & ->)]; [destruct I2 as [?|[?|?]]; [lia|discriminate|discriminate]|]. cbn [obind].
    assert (HL : (i <= L)%nat) by (destruct I2 as [?|[?|?]]; [lia|discriminate|discriminate]).
    assert (E1 : l = (name ++ 58 :: ws ++ v) ++ r) by (rewrite K1, <- app_assoc; cbn [app]; rewrite <- app_assoc; reflexivity).
    assert (E2 : i = length (name ++ 58 :: ws ++ v)) by (rewrite app_length; cbn [length]; rewrite app_length; lia).
    destruct (nth_split i c X HL) as [(r' & Hi & E' & C1 & C2)|(-> & ->)].
    + pose proof (tail_split _ _ _ _ _ E1 E2 E') as ->. destruct (N.eqb_spec c 13) as [->|C3].
      * apply (good_brk s (hgo s HCr) i A A HL); [unfold rank; rewrite ST; cbn; try rewrite ST; lia|left; lia|]. unfold K. cbn [hgo hs_st hs_name hs_nlen hs_value hs_vlen].
        exists name, ws, v, r'. split; [exact K1|]. split; [lia|]. split; [exact K3|]. split; [exact KW|]. split; [exact KX|]. split; [exact KV|]. split; [destruct v; [exact Logic.I|exact KC]|]. auto.
      * apply N.eqb_neq in C1, C2. rewrite C1, C2. destruct (field_content c) eqn:FC.
        2: { apply (good_err s i A); [lia|]. destruct (here i c _ _ X E1 E2) as (tl & T). rewrite <- app_assoc in T. cbn [app] in T. rewrite <- app_assoc in T.
             intros (n & v' & HF). destruct (field_end l _ _ _ _ _ T K3 KW KV) with (n := n) (v' := v') as [(-> & _)|(-> & _)]; try assumption; try congruence; try discriminate.
             - intros d t ED. destruct v as [|dd vv]; cbn [app] in ED; injection ED as -> _; [|unfold is_ows; lia].
               destruct KC as (c' & X' & _ & FC'). rewrite X in X'. injection X' as <-. congruence.
             - unfold field_content, vchar in FC. unfold value_char. lia. }
        apply (good_brk s (mkHst HFieldValue (hs_ptr s) (hs_name s) (hs_nlen s) (hs_value s) (S (hs_vlen s))) i A A HL); [unfold rank; rewrite ST; cbn; try rewrite ST; lia|left; lia|]. unfold K. cbn [hs_st hs_name hs_nlen hs_value hs_vlen].
        exists name, ws, (v ++ [c]), r'. rewrite <- app_assoc. cbn [app]. split; [exact K1|]. split; [rewrite app_length; cbn; lia|]. split; [exact K3|]. split; [exact KW|]. split; [exact KX|].
        split; [apply Forall_app; split; [exact KV|constructor; [unfold value_char; unfold field_content, vchar in FC; lia|constructor]]|].
        split; [|split; [exact K4|split; [exact K5|split; [exact K6|rewrite app_length; cbn; lia]]]].
        destruct v as [|d v]; [|exact KC]. cbn [app]. destruct KC as (c' & X' & HO & _). rewrite X in X'. injection X' as <-. unfold hd_ows in HO. lia.
    + change (10 =? 13) with false. change (10 =? 10) with true. apply (good_brk s (hgo s HLf) L A A HL); [unfold rank; rewrite ST; cbn; lia|right; left; reflexivity|]. unfold K. cbn [hgo hs_st hs_name hs_nlen hs_value hs_vlen].
      pose proof (tail_end _ _ E1 E2) as ->. exists name, ws, v, []. split; [exact K1|]. split; [lia|]. split; [exact K3|]. split; [exact KW|]. split; [exact KX|]. split; [exact KV|].
      assert (VN : v <> []). { destruct v; [|discriminate]. destruct KC as (c' & X' & _ & HO). rewrite X in X'. injection X' as <-. discriminate HO. }
      split; [destruct v; [exact Logic.I|exact KC]|]. split; [right; auto|]. auto.
  - (* CR *) destruct HK as (name & ws & v & r & K1 & K2 & K3 & KW & KX & KV & KC & K4 & K5 & K6 & K7). destruct LD as [LD|(c & X & ->)]; [destruct I2 as [?|[?|?]]; [lia|discriminate|discriminate]|]. cbn [obind].
    assert (HL : (i <= L)%nat) by (destruct I2 as [?|[?|?]]; [lia|discriminate|discriminate]).
    assert (E1 : l = (name ++ 58 :: ws ++ v ++ [13]) ++ r) by (rewrite K1, <- app_assoc; cbn [app]; rewrite <- !app_assoc; reflexivity).
    assert (E2 : i = length (name ++ 58 :: ws ++ v ++ [13])) by (rewrite app_length; cbn [length]; rewrite !app_length; cbn [length]; lia).
    destruct (nth_split i c X HL) as [(r' & Hi & E' & C1 & C2)|(-> & ->)].
    + apply N.eqb_neq in C1, C2. rewrite C1, C2. apply (good_err s _ A); [lia|].
      destruct (here i c _ _ X E1 E2) as (tl & T). repeat (rewrite <- app_assoc in T; cbn [app] in T).
      intros (n & v' & HF). destruct (field_end l _ _ _ _ _ T K3 KW KV) with (n := n) (v' := v') as [(_ & T2)|(T2 & _)]; try assumption; try congruence; try discriminate; [| |injection T2 as -> _; discriminate].
      * intros d t ED. destruct v as [|dd vv]; cbn [app] in ED; injection ED as <- _; unfold is_ows; lia.
      * unfold value_char. lia.
    + change (10 =? 10) with true. apply (good_brk s (hgo s HLf) L A A HL); [unfold rank; rewrite ST; cbn; lia|right; left; reflexivity|]. unfold K. cbn [hgo hs_st hs_name hs_nlen hs_value hs_vlen].
      pose proof (tail_end _ _ E1 E2) as ->. exists name, ws, v, [13]. split; [exact K1|]. split; [lia|]. split; [exact K3|]. split; [exact KW|]. split; [exact KX|]. split; [exact KV|].
      split; [destruct v; [exact Logic.I|exact KC]|]. split; [left; reflexivity|]. auto.
  - (* LF *) destruct HK as (name & ws & v & e & K1 & K2 & HK).
    assert (LO : exists x, load b (hs_ptr s) = Ok x).
    { rewrite A. destruct (one_ptr i ltac:(lia)) as (P1 & _). pose proof (mem_stream b W) as MS. pose proof one_len.
      assert (LT : (i < length (mem (b_chains b)))%nat) by lia. destruct (P_step b W _ _ LT P1) as (AA & _). rewrite AA. destruct (nth_error (mem (b_chains b)) i) eqn:Z; [eauto|]. apply nth_error_None in Z. lia. }
    destruct LO as (x & ->). cbn [obind good]. split.
    + exists i. split; [exact A|]. split; [lia|]. split; [right; right; reflexivity|]. unfold K. cbn [hgo hs_st hs_name hs_nlen hs_value hs_vlen]. exists name, ws, v, e. auto.
    + unfold meas, rank. cbn [hgo hs_ptr hs_st]. rewrite ST. lia.
  - (* NEXT *) destruct HK as (name & ws & v & e & K1 & K2 & K3 & KW & KX & KV & KC & KE & K4 & K5 & K6 & K7).
    assert (LO : exists x, load b (hs_ptr s) = Ok x).
    { rewrite A. destruct (one_ptr i ltac:(lia)) as (P1 & _). pose proof (mem_stream b W) as MS. pose proof one_len.
      assert (LT : (i < length (mem (b_chains b)))%nat) by lia. destruct (P_step b W _ _ LT P1) as (AA & _). rewrite AA. destruct (nth_error (mem (b_chains b)) i) eqn:Z; [eauto|]. apply nth_error_None in Z. lia. }
    destruct LO as (x & ->). cbn [obind good]. left. exists name, v, (hs_value s). rewrite A, K2, K4, K5, K7. split; [reflexivity|].
    assert (VC : forall c t, v = c :: t -> c <> 32 /\ c <> 9) by (intros c t ->; exact KC).
    split.
    + rewrite K1. destruct KE as [-> |(-> & NV)]; [apply lf_crlf; assumption|]. rewrite app_nil_r. apply lf_lf; assumption.
    + exists (S (length name) + length ws)%nat. split; [rewrite K1, app_length; cbn [length]; rewrite app_length; lia|]. intros NV. split; [exact (K6 NV)|]. exists e.
      rewrite K1. replace (S (length name) + length ws)%nat with (length (name ++ 58 :: ws)) by (rewrite app_length; cbn; lia).
      replace (name ++ 58 :: ws ++ v ++ e) with ((name ++ 58 :: ws) ++ v ++ e) by (rewrite <- app_assoc; reflexivity). rewrite skipn_app, skipn_all, Nat.sub_diag. reflexivity.
Qed.
Lemma run_good : forall f s, inv s -> (meas s < f)%nat -> exists r, run (hl_step b) f s = Ok r /\ post r.
Proof.
  induction f as [|f IH]; intros s I M; [lia|]. cbn [run]. pose proof (step_good s I) as G. destruct (hl_step b s) as [[s'|r]|u]; cbn [good obind] in *; [|eauto|contradiction].
  destruct G as (I' & M'). apply IH; [exact I'|lia].
Qed.
Lemma one_line : exists r, parse_header_line b (0%nat, c_use ch) = Ok r /\ post r.
Proof.
  unfold parse_header_line. pose proof one_len as OL. apply run_good.
  - exists 0%nat. split; [unfold at_; cbn; f_equal; lia|]. split; [lia|]. split; [left; lia|]. unfold K. cbn. auto.
  - unfold meas, rank. cbn [hs_ptr hs_st snd]. pose proof (stream_mem_size b W). lia.
Qed.
End ONE.

Lemma one_addb b ch l rest n v vp o ci : wf b -> b_chains b = [ch] -> stream b = l ++ 10 :: rest -> line_field l n v -> (o <= length l)%nat ->
  (v <> [] -> vp = Some (0%nat, (c_use ch + o)%nat) /\ exists r', skipn o l = v ++ r') ->
  header_addb b ci (Some (0%nat, c_use ch)) (length n) vp (length v) = Ok (mkHci (hc_chain ci ++ [mkHdr (Some (map lowercase n)) (Some v)]) (S (hc_count ci))).
Proof.
  intros W BC E LF HO HV. pose proof (one_ptr b ch l rest W BC E) as OP. pose proof (mem_stream b W) as MS.
  assert (LN : exists r', l = n ++ r') by (inversion LF; subst; eauto). destruct LN as (r1 & E1).
  pose proof (one_len b l rest E) as OL. assert (LL : length l = (length n + length r1)%nat) by (rewrite E1, app_length; reflexivity).
  destruct (OP 0%nat ltac:(lia)) as (P0 & A0). rewrite Nat.add_0_r in P0.
  assert (ES : stream b = n ++ (r1 ++ 10 :: rest)) by (rewrite E, E1, <- app_assoc; reflexivity).
  assert (NA : (length n < c_act ch)%nat) by (destruct (OP (length n) ltac:(lia)); assumption).
  assert (MN : memcpy b (0%nat, c_use ch) 0 (length n) = Ok n).
  { rewrite (BufferProofs.memcpy_spec b 0 0 (c_use ch) _ W P0) by lia. cbn [skipn]. rewrite ES, firstn_exact. reflexivity. }
  assert (CN : contiguous b (0%nat, c_use ch) (length n) = Ok n).
  { unfold contiguous. cbn [fst snd]. rewrite BC. cbn [nth_error].
    unfold c_act, c_len in NA. destruct (Nat.ltb_spec (length (c_data ch)) (c_use ch + length n)) as [A|A]; [lia|]. f_equal.
    destruct (mem_first b ch [] BC) as (r & MR). pose proof W as (W0 & _). destruct (wf_mem _ _ _ W0) as (tail & T1 & _). fold (stream b) in T1.
    assert (X : firstn (length n) (c_mem ch ++ r) = n). { rewrite <- MR, T1, ES, <- app_assoc. apply firstn_exact. }
    rewrite firstn_app in X. rewrite c_mem_length in X. unfold c_act, c_len in X. replace (length n - (length (c_data ch) - c_use ch))%nat with 0%nat in X by lia.
    cbn [firstn] in X. rewrite app_nil_r in X. exact X. }
  assert (CV : buf_copy b vp (length v) = Ok v).
  { unfold buf_copy. destruct v as [|d v]; [reflexivity|]. destruct (HV ltac:(discriminate)) as (-> & r' & SK). cbn [length].
    change (S (length v)) with (length (d :: v)). assert (LV : (o + length (d :: v) <= length l)%nat).
    { apply (f_equal (@length N)) in SK. rewrite skipn_length, app_length in SK. cbn [length] in *. lia. }
    destruct (OP o ltac:(lia)) as (PO & _). rewrite (memcpy_earlier_spec b _ 0 _ 0 _ W PO).
    - f_equal. rewrite E, skipn_app. replace (o - length l)%nat with 0%nat by lia. rewrite SK, <- app_assoc. apply firstn_exact.
    - cbn [length] in *. lia.
    - lia.
    - left. reflexivity. }
  unfold header_addb. rewrite CV. assert (BN : buf_copy b (Some (0%nat, c_use ch)) (length n) = Ok n) by (unfold buf_copy; destruct n as [|x n]; [reflexivity|]; exact MN).
  rewrite BN. cbn [obind]. replace (match length n with 0%nat => Ok [] | S _ => contiguous b (0%nat, c_use ch) (length n) end) with (Ok n) by (destruct n as [|x n]; [reflexivity|symmetry; exact CN]).
  cbn [obind]. unfold padded. rewrite Nat.sub_diag. cbn [repeat]. rewrite app_nil_r. do 5 f_equal. f_equal. apply map_ext. exact lower_lowercase.
Qed.
(** The fields of a list of lines: lines that are not fields are left out. *)
Inductive parsed : list (list N) -> list hdr -> Prop :=
| parsed_nil : parsed [] []
| parsed_field l n v ls hs : line_field l n v -> parsed ls hs -> parsed (l :: ls) (mkHdr (Some (map lowercase n)) (Some v) :: hs)
| parsed_dropped l ls hs : (~ exists n v, line_field l n v) -> parsed ls hs -> parsed (l :: ls) hs.
Definition lines_text (ls : list (list N)) : list N := flat_map (fun l => l ++ [10]) ls.
Lemma lines_loop : forall ls fuel b ch ci e1 e2 rest, wf b -> b_chains b = [ch] -> Forall plain_line ls -> e1 = 13 \/ e1 = 10 -> stream b = lines_text ls ++ e1 :: e2 :: rest -> (length ls < fuel)%nat ->
  exists hs b', parse_header_loop fuel b (0%nat, c_use ch) ci = Ok (HSuccess (mkHci (hc_chain ci ++ hs) (hc_count ci + length hs)) b') /\ parsed ls hs /\ wf b' /\ stream b' = rest.
Proof.
  induction ls as [|l ls IH]; intros fuel b ch ci e1 e2 rest W BC F HE E FU; (destruct fuel as [|fuel]; [cbn in FU; lia|]).
  - cbn [parse_header_loop]. cbn [lines_text flat_map app] in E.
    assert (P0 : ptr_at (b_chains b) 0 0 = Some (0%nat, c_use ch)) by (destruct (first_use_ok b W) as (c & t & BC' & _ & P0); rewrite BC in BC'; injection BC' as <- <-; exact P0).
    rewrite (line_end b _ e1 (e2 :: rest) W) by (try assumption; unfold end_of_header; destruct HE as [-> | ->]; reflexivity). cbn [obind].
    destruct (release_spec b 2 W) as (b' & R & W' & SB & _); [rewrite E; cbn; lia|]. rewrite R. cbn [obind].
    exists [], b'. cbn [length]. rewrite app_nil_r, Nat.add_0_r. destruct ci. split; [reflexivity|]. split; [constructor|]. split; [exact W'|]. rewrite SB, E. reflexivity.
  - inversion F as [|? ? F1 F2]; subst. cbn [parse_header_loop]. cbn [lines_text flat_map] in E. fold (lines_text ls) in E. rewrite <- !app_assoc in E. cbn [app] in E.
    destruct (one_line b ch l _ W BC E F1) as (r & R & PO). rewrite R. cbn [obind].
    pose proof (one_len b l _ E) as OL. destruct (one_ptr b ch l _ W BC E (length l + 1) ltac:(lia)) as (Q & _). destruct (one_ptr b ch l _ W BC E 0 ltac:(lia)) as (P0 & _). rewrite Nat.add_0_r in P0.
    destruct (next_line_ok b _ _ (length l + 1) W ltac:(lia) ltac:(lia) Q P0) as (b' & p' & k & NL & W' & SB & P' & K1 & K2).
    assert (B1 : exists ch', b_chains b' = [ch'] /\ p' = (0%nat, c_use ch')).
    { destruct (first_use_ok b' W') as (c' & t' & BC' & _ & P1). rewrite BC, BC' in K1. cbn in K1. destruct t'; [|cbn in K1; lia]. exists c'. split; [exact BC'|]. congruence. }
    destruct B1 as (ch' & BC' & ->).
    assert (E' : stream b' = lines_text ls ++ e1 :: e2 :: rest).
    { rewrite SB, E. change (l ++ 10 :: lines_text ls ++ e1 :: e2 :: rest) with (l ++ [10] ++ lines_text ls ++ e1 :: e2 :: rest). rewrite app_assoc. replace (length l + 1)%nat with (length (l ++ [10])) by (rewrite app_length; reflexivity).
      rewrite skipn_app, skipn_all, Nat.sub_diag. reflexivity. }
    cbn [length] in FU. destruct PO as [(n & v & vp & -> & LF & o & HO & HV)|(-> & NF)].
    + rewrite (one_addb b ch l _ n v vp o ci W BC E LF HO HV). cbn [obind]. rewrite NL. cbn [obind fst snd].
      destruct (IH fuel b' ch' (mkHci (hc_chain ci ++ [mkHdr (Some (map lowercase n)) (Some v)]) (S (hc_count ci))) e1 e2 rest W' BC' F2 HE E' ltac:(lia)) as (hs & b'' & R' & PH & W'' & S'').
      exists (mkHdr (Some (map lowercase n)) (Some v) :: hs), b''. rewrite R'. cbn [hc_chain hc_count length]. rewrite <- app_assoc. cbn [app]. replace (S (hc_count ci) + length hs)%nat with (hc_count ci + S (length hs))%nat by lia.
      split; [reflexivity|]. split; [constructor; assumption|]. auto.
    + rewrite NL. cbn [obind fst snd]. destruct (IH fuel b' ch' ci e1 e2 rest W' BC' F2 HE E' ltac:(lia)) as (hs & b'' & R' & PH & W'' & S'').
      exists hs, b''. rewrite R'. split; [reflexivity|]. split; [apply parsed_dropped; assumption|]. auto.
Qed.
Lemma header_language b ls e1 e2 rest : wf b -> length (b_chains b) = 1%nat -> Forall plain_line ls -> e1 = 13 \/ e1 = 10 -> stream b = lines_text ls ++ e1 :: e2 :: rest ->
  exists hs b', reqheader_operation b = Ok (HSuccess (mkHci hs (length hs)) b') /\ parsed ls hs /\ wf b' /\ stream b' = rest.
Proof.
  intros W L F HE E. destruct (first_use_ok b W) as (c & t & BC & FU & P0). unfold reqheader_operation. rewrite FU. cbn [obind].
  rewrite BC in L. destruct t; [|discriminate].
  destruct (lines_loop ls (S (mem_size b)) b c header_init e1 e2 rest W BC F HE E) as (hs & b' & R & PH & W' & S').
  { pose proof (stream_mem_size b W) as MS. rewrite E in MS. rewrite app_length in MS.
    assert (G : (length ls <= length (lines_text ls))%nat).
    { clear. induction ls as [|f fs IH]; [cbn; lia|]. cbn [lines_text flat_map length]. fold (lines_text fs). rewrite !app_length. cbn. lia. }
    lia. }
  exists hs, b'. rewrite R. auto.
Qed.
Lemma line_field_inj l n v n' v' : line_field l n v -> line_field l n' v' -> n = n' /\ v = v'.
Proof.
  intros H H'. pose proof (field_shape _ _ _ H) as (w & ws & e & E1 & N1 & W1 & V1 & D1 & HE1).
  pose proof (field_shape _ _ _ H') as (w2 & ws2 & e2 & E2 & N2 & _).
  assert (n = n'). { rewrite E1 in E2. destruct (span_unique any_name_char _ _ _ _ _ _ N1 N2 not_any58 not_any58 E2) as (-> & _). reflexivity. }
  subst n'. split; [reflexivity|]. clear E2.
  assert (X : exists d t, v ++ e ++ [10] = d :: t /\ ~ is_ows d).
  { destruct v as [|d v]; [|exists d; eexists; split; [reflexivity|]; destruct (D1 d v eq_refl); unfold is_ows; lia].
    destruct HE1 as [-> |(-> & ?)]; [|contradiction]. exists 13, [10]. split; [reflexivity|unfold is_ows; lia]. }
  destruct X as (d & t & X & D). rewrite X in E1. destruct (field_val _ _ _ _ _ E1 N1 W1 D n v' H') as (e' & EQ & V' & HE'). rewrite <- X in EQ.
  assert (N13 : ~ value_char 13) by (unfold value_char; lia). assert (N10 : ~ value_char 10) by (unfold value_char; lia).
  destruct HE1 as [-> |(-> & _)], HE' as [-> |(-> & _)]; cbn [app] in EQ; (eapply (span_unique value_char) in EQ; [destruct EQ as (? & _); assumption|assumption..]).
Qed.

(** ** Looking fields up *)
(** Equal up to the case of ASCII letters. *)
Definition same_name (a b : list N) : Prop := map lowercase a = map lowercase b.
Lemma lowercase_nz c : lowercase c = 0 -> c = 0.
Proof. rewrite <- lower_lowercase. unfold lower. destruct (_ && _) eqn:B; lia. Qed.
Lemma name_no_nul n : Forall name_char n -> no_nul (map lowercase n).
Proof.
  intros F. apply Forall_forall. intros x I. apply in_map_iff in I as (c & <- & I). rewrite Forall_forall in F. destruct (name_char_class c (F c I)) as (_ & _ & Z). intros Q. apply Z, lowercase_nz, Q.
Qed.
Lemma value_no_nul v : Forall value_char v -> no_nul v.
Proof. apply Forall_impl. unfold value_char. lia. Qed.
(** The first field called [name] in any letter case. *)
Definition first_field (fs : list field) (name : list N) (f : field) : Prop :=
  exists a c, fs = a ++ f :: c /\ same_name (f_name f) name /\ Forall (fun g => ~ same_name (f_name g) name) a.
Definition no_field (fs : list field) (name : list N) : Prop := Forall (fun g => ~ same_name (f_name g) name) fs.
Lemma cl_step f n : f_name f <> [] -> Forall name_char (f_name f) -> n = map lowercase (f_name f) ->
  (strcmp_eqb (cstr n) (bs "Content-Length") || strcmp_eqb (cstr n) (bs "content-length"))%bool = bytes_eqb n (bs "content-length").
Proof.
  intros NE F ->. rewrite (cstr_no_nul _ (name_no_nul _ F)). unfold strcmp_eqb.
  replace (bytes_eqb (map lowercase (f_name f)) (bs "Content-Length")) with false; [reflexivity|].
  symmetry. apply not_true_iff_false. intros Q. apply bytes_eqb_eq in Q. destruct (f_name f) as [|c t]; [contradiction|]. cbn [map] in Q. injection Q as Q _.
  rewrite <- lower_lowercase in Q. unfold lower in Q. destruct (_ && _) eqn:B; lia.
Qed.
Lemma cl_loop_skip a r : Forall field_ok a -> no_field a (bs "Content-Length") -> content_length_loop (map delivered a ++ r) = content_length_loop r.
Proof.
  intros F. induction F as [|f a (NE & F1 & _) F IH]; intros NF; [reflexivity|]. inversion NF as [|? ? H NF']; subst. cbn [map app content_length_loop delivered h_name h_value].
  destruct (map lowercase (f_name f)) as [|c t] eqn:EM; [destruct (f_name f); [contradiction|discriminate]|]. rewrite (cl_step f (c :: t) NE F1 (eq_sym EM)).
  replace (bytes_eqb (c :: t) (bs "content-length")) with false; [apply IH, NF'|]. symmetry. apply not_true_iff_false. intros Q. apply bytes_eqb_eq in Q. apply H. unfold same_name. rewrite EM, Q. reflexivity.
Qed.
Lemma content_length_found fs f ds : Forall field_ok fs -> first_field fs (bs "Content-Length") f -> Forall (fun b => is_digit b = true) ds -> ds <> [] -> f_value f = ds ->
  content_length (mkHci (map delivered fs) (length fs)) = Ok (Z.min long_max (Z.of_N (dec_value ds))).
Proof.
  intros F (a & c & -> & SN & NA) D NE EV. apply Forall_app in F as (Fa & Fc). inversion Fc as [|? ? (N1 & N2 & _ & _ & V & _) _]; subst.
  unfold content_length. cbn [hc_count hc_chain]. rewrite app_length. cbn [length]. replace (length a + S (length c) =? 0)%nat with false by (symmetry; apply Nat.eqb_neq; lia).
  rewrite map_app, cl_loop_skip by assumption. cbn [map content_length_loop delivered h_name h_value].
  destruct (map lowercase (f_name f)) as [|x t] eqn:EM; [destruct (f_name f); [contradiction|discriminate]|]. rewrite (cl_step f (x :: t) N1 N2 (eq_sym EM)).
  unfold same_name in SN. rewrite EM in SN. rewrite SN. change (bytes_eqb (map lowercase (bs "Content-Length")) (bs "content-length")) with true. cbv iota.
  rewrite (cstr_no_nul _ (value_no_nul _ V)). rewrite <- (app_nil_r (f_value f)) at 1. rewrite strtoll_digits; [reflexivity|exact D|exact NE|exact Logic.I].
Qed.
Lemma content_length_absent fs : Forall field_ok fs -> no_field fs (bs "Content-Length") -> content_length (mkHci (map delivered fs) (length fs)) = Ok 0%Z.
Proof.
  intros F NF. unfold content_length. cbn [hc_count hc_chain]. destruct (length fs =? 0)%nat; [reflexivity|]. rewrite <- (app_nil_r (map delivered fs)), cl_loop_skip by assumption. reflexivity.
Qed.
Lemma same_ignore_spec : forall a b, length a = length b -> same_ignore_case a b (length a) = Ok (bytes_eqb (map lowercase a) (map lowercase b)).
Proof.
  induction a as [|x a IH]; intros [|y b] L; try discriminate; [reflexivity|]. cbn [length same_ignore_case map]. rewrite !lower_lowercase. cbn [bytes_eqb]. destruct (lowercase x =? lowercase y); [|reflexivity].
  apply IH. cbn in L. lia.
Qed.
Lemma strncmp_same_len a b : no_nul a -> length a = length b -> strncmp_eqb (length a) (cstr a) b = bytes_eqb a b.
Proof.
  intros NZ L. rewrite cstr_no_nul by exact NZ. revert b L. induction NZ as [|x a H F IH]; intros [|y b] L; try discriminate; [reflexivity|].
  cbn [length strncmp_eqb bytes_eqb]. destruct (x =? y); cbn [andb]; [|reflexivity]. apply IH. cbn in L. lia.
Qed.
Lemma expect_spec fs : Forall field_ok fs ->
  exists r, check_expect_100 (mkHci (map delivered fs) (length fs)) = Ok r /\
    (r = true <-> exists f, In f fs /\ same_name (f_name f) (bs "Expect") /\ same_name (f_value f) (bs "100-continue")).
Proof.
  unfold check_expect_100. cbn [hc_chain]. induction 1 as [|f fs (N1 & N2 & W1 & W2 & V & _) F IH].
  - exists false. split; [reflexivity|]. split; [discriminate|]. intros (f & [] & _).
  - destruct IH as (r & R & IH). cbn [map expect_loop delivered h_name h_value].
    set (n := map lowercase (f_name f)). destruct (Nat.eqb_spec (length n) (length (bs "expect"))) as [LN|LN]; cbn [andb].
    + rewrite (strncmp_same_len n (bs "expect") (name_no_nul _ N2) LN). destruct (bytes_eqb n (bs "expect")) eqn:EN; cbn [andb].
      * apply bytes_eqb_eq in EN. destruct (Nat.eqb_spec (length (f_value f)) (length (bs "100-continue"))) as [LV|LV].
        -- rewrite same_ignore_spec by exact LV. cbn [obind]. destruct (bytes_eqb (map lowercase (f_value f)) (map lowercase (bs "100-continue"))) eqn:EV.
           ++ apply bytes_eqb_eq in EV. exists true. split; [reflexivity|]. split; [|reflexivity]. intros _. exists f. split; [left; reflexivity|]. split; [exact EN|exact EV].
           ++ exists r. split; [exact R|]. rewrite IH. split; intros (g & I & G1 & G2); exists g; [split; [right; exact I|auto]|]. destruct I as [<-|I]; [|auto]. unfold same_name in G2. rewrite G2, bytes_eqb_refl in EV. discriminate.
        -- exists r. split; [exact R|]. rewrite IH. split; intros (g & I & G1 & G2); exists g; [split; [right; exact I|auto]|]. destruct I as [<-|I]; [|auto]. apply (f_equal (@length N)) in G2. rewrite !map_length in G2. contradiction.
      * exists r. split; [exact R|]. rewrite IH. split; intros (g & I & G1 & G2); exists g; [split; [right; exact I|auto]|]. destruct I as [<-|I]; [|auto]. unfold same_name in G1. fold n in G1. rewrite G1 in EN. discriminate.
    + exists r. split; [exact R|]. rewrite IH. split; intros (g & I & G1 & G2); exists g; [split; [right; exact I|auto]|]. destruct I as [<-|I]; [|auto]. apply (f_equal (@length N)) in G1. fold n in G1. rewrite map_length in G1. contradiction.
Qed.
Lemma cookie_spec f : field_ok f -> is_cookie (delivered f) = true <-> same_name (f_name f) (bs "Cookie").
Proof.
  intros (N1 & N2 & _). unfold is_cookie, delivered, same_name. cbn [h_name]. set (n := map lowercase (f_name f)).
  destruct (Nat.eqb_spec (length n) 6) as [L|L]; cbn [andb].
  - replace 6%nat with (length n). rewrite (strncmp_same_len n (bs "cookie") (name_no_nul _ N2) L). rewrite bytes_eqb_eq. reflexivity.
  - split; [discriminate|]. intros Q. rewrite Q in L. contradiction.
Qed.
(** A name with an upper-case letter never equals a delivered one. *)
Lemma find_name_upper fs x : Forall field_ok fs -> (exists c, In c x /\ 65 <= c <= 90) -> forall i, find_name (map delivered fs) x i = Ok None.
Proof.
  intros F (c & I & C). induction F as [|f fs (N1 & N2 & _) F IH]; intros i; [reflexivity|]. cbn [map find_name]. unfold name_is. cbn [delivered h_name obind].
  rewrite (cstr_no_nul _ (name_no_nul _ N2)). unfold strcmp_eqb. replace (bytes_eqb (map lowercase (f_name f)) x) with false; [apply IH|].
  symmetry. apply not_true_iff_false. intros Q. apply bytes_eqb_eq in Q. subst x. apply in_map_iff in I as (d & E & _). rewrite <- lower_lowercase in E. unfold lower in E. destruct (_ && _) eqn:B; lia.
Qed.
Lemma connection_keep_always fs : Forall field_ok fs -> connection_keep (mkHci (map delivered fs) (length fs)) = Ok true.
Proof.
  intros F. unfold connection_keep. cbn [hc_count hc_chain]. destruct (length fs =? 0)%nat; [reflexivity|]. rewrite find_name_upper; [reflexivity|exact F|exists 67; cbn; split; [auto|lia]].
Qed.
Lemma content_encoding_none fs : Forall field_ok fs -> content_encoding (mkHci (map delivered fs) (length fs)) = Ok None.
Proof.
  intros F. unfold content_encoding. cbn [hc_count hc_chain]. destruct (length fs =? 0)%nat; [reflexivity|]. rewrite find_name_upper; [reflexivity|exact F|exists 67; cbn; split; [auto|lia]].
Qed.

(** ** Editing the list *)
(** An entry as name and value; a NULL value is the empty one. *)
Definition entry (h : hdr) : list N * list N := (match h_name h with Some n => n | None => [] end, match h_value h with Some v => v | None => [] end).
Definition entries (ci : hci) : list (list N * list N) := map entry (hc_chain ci).
(** Every name is a C string that can be compared, and the count is the number of entries. *)
Definition hwf (ci : hci) : Prop := Forall (fun h => exists n, h_name h = Some n /\ no_nul n) (hc_chain ci) /\ hc_count ci = length (hc_chain ci).
Definition edit_name (n : list N) : Prop := n <> [] /\ no_nul n.
Inductive edit := EAdd (n v : list N) (front : bool) | EAddIfno (n v : list N) | EAddVerIfno (n v : list N) | EAddModify (n v : list N) | EDelete (n : list N).
Definition ename (e : edit) : list N := match e with EAdd n _ _ | EAddIfno n _ | EAddVerIfno n _ | EAddModify n _ | EDelete n => n end.
Definition do_edit (ci : hci) (e : edit) : outcome hci :=
  match e with
  | EAdd n v f => Ok (header_add0 ci n v f)
  | EAddIfno n v => header_add_ifno ci n v
  | EAddVerIfno n v => header_add_ver_ifno ci n v
  | EAddModify n v => header_addmodify ci n v
  | EDelete n => obind (header_delete ci n) (fun r => Ok (fst r))
  end.
Fixpoint do_edits (ci : hci) (es : list edit) : outcome hci :=
  match es with [] => Ok ci | e :: t => obind (do_edit ci e) (fun ci' => do_edits ci' t) end.
(** The effect each edit should have on the list of entries. *)
Definition named (n : list N) (l : list (list N * list N)) : Prop := In n (map fst l).
Inductive edit_effect : edit -> list (list N * list N) -> list (list N * list N) -> Prop :=
| ef_back n v l : edit_effect (EAdd n v false) l (l ++ [(n, v)])
| ef_front n v l : edit_effect (EAdd n v true) l ((n, v) :: l)
| ef_ifno_there n v l : named n l -> edit_effect (EAddIfno n v) l l
| ef_ifno_absent n v l : ~ named n l -> edit_effect (EAddIfno n v) l (l ++ [(n, v)])
| ef_vifno_there n v l : named n l -> edit_effect (EAddVerIfno n v) l l
| ef_vifno_absent n v l : ~ named n l -> edit_effect (EAddVerIfno n v) l (l ++ [(n, v)])
| ef_mod_there n v v0 a c : ~ named n a -> edit_effect (EAddModify n v) (a ++ (n, v0) :: c) (a ++ (n, v) :: c)
| ef_mod_absent n v l : ~ named n l -> edit_effect (EAddModify n v) l (l ++ [(n, v)])
| ef_del_there n v0 a c : ~ named n a -> edit_effect (EDelete n) (a ++ (n, v0) :: c) (a ++ c)
| ef_del_absent n l : ~ named n l -> edit_effect (EDelete n) l l.

Lemma find_name_spec l n : Forall (fun h => exists n, h_name h = Some n /\ no_nul n) l -> forall i,
  (exists a h c, l = a ++ h :: c /\ h_name h = Some n /\ ~ named n (map entry a) /\ find_name l n i = Ok (Some (i + length a)%nat)) \/
  (~ named n (map entry l) /\ find_name l n i = Ok None).
Proof.
  induction 1 as [|h l (m & HM & NZ) F IH]; intros i; [right; split; [intros []|reflexivity]|]. cbn [find_name]. unfold name_is. rewrite HM. cbn [obind]. rewrite (cstr_no_nul _ NZ). unfold strcmp_eqb.
  destruct (bytes_eqb m n) eqn:E.
  - left. apply bytes_eqb_eq in E. subst m. exists [], h, l. split; [reflexivity|]. split; [exact HM|]. split; [intros []|]. rewrite Nat.add_0_r. reflexivity.
  - assert (MN : m <> n) by (intros ->; rewrite bytes_eqb_refl in E; discriminate).
    destruct (IH (S i)) as [(a & g & c & -> & G & NA & R)|(NA & R)].
    + left. exists (h :: a), g, c. split; [reflexivity|]. split; [exact G|]. split; [|rewrite R; cbn [length]; do 2 f_equal; lia].
      intros Q. cbn in Q. unfold named in NA. destruct Q as [Q|Q]; [rewrite HM in Q; contradiction|apply NA, Q].
    + right. split; [|exact R]. intros Q. cbn in Q. destruct Q as [Q|Q]; [rewrite HM in Q; contradiction|apply NA, Q].
Qed.
Lemma find_len_spec' l n : Forall (fun h => exists n, h_name h = Some n /\ no_nul n) l ->
  exists r, find_len_name l n = Ok r /\ (r = true <-> named n (map entry l)).
Proof.
  induction 1 as [|h l (m & HM & NZ) F (r & R & IH)]; [exists false; split; [reflexivity|]; split; [discriminate|intros []]|].
  cbn [find_len_name]. unfold h_nlen. rewrite HM. unfold named. cbn [map entry fst In]. rewrite HM. cbn [entry fst].
  destruct (Nat.eqb_spec (length m) (length n)) as [L|L]; cbn [negb].
  - rewrite <- L, (strncmp_same_len m n NZ L). destruct (bytes_eqb m n) eqn:E.
    + exists true. split; [reflexivity|]. split; [intros _; left; apply bytes_eqb_eq, E|reflexivity].
    + exists r. split; [exact R|]. rewrite IH. unfold named. split; [auto|]. intros [->|Q]; [rewrite bytes_eqb_refl in E; discriminate|exact Q].
  - exists r. split; [exact R|]. rewrite IH. unfold named. split; [auto|]. intros [->|Q]; [contradiction|exact Q].
Qed.
Lemma entry_new n v : n <> [] -> entry (new_hdr n v) = (n, v).
Proof. intros NE. unfold entry, new_hdr. cbn. destruct n; [contradiction|]. destruct v; reflexivity. Qed.
Lemma set_value_mid a h c v : set_value (a ++ h :: c) (length a) v = a ++ mkHdr (h_name h) (Some v) :: c.
Proof. induction a as [|x a IH]; [reflexivity|]. cbn [app length set_value]. rewrite IH. reflexivity. Qed.
Lemma remove_at_mid a h c : remove_at (a ++ h :: c) (length a) = a ++ c.
Proof. induction a as [|x a IH]; [reflexivity|]. cbn [app length remove_at]. rewrite IH. reflexivity. Qed.
Lemma add0_wf ci n v f : hwf ci -> edit_name n -> hwf (header_add0 ci n v f) /\ entries (header_add0 ci n v f) = (if f then (n, v) :: entries ci else entries ci ++ [(n, v)]).
Proof.
  intros (F & C) (NE & NZ). assert (NH : exists m, h_name (new_hdr n v) = Some m /\ no_nul m) by (exists n; unfold new_hdr; destruct n; [contradiction|auto]).
  unfold hwf, header_add0, entries. cbn [hc_chain hc_count]. destruct f.
  - split; [split; [constructor; assumption|cbn; lia]|]. cbn [map]. rewrite entry_new by exact NE. reflexivity.
  - split; [split; [apply Forall_app; auto|rewrite app_length; cbn; lia]|]. rewrite map_app. cbn [map]. rewrite entry_new by exact NE. reflexivity.
Qed.
Lemma edit_ok ci e : hwf ci -> edit_name (ename e) -> exists ci', do_edit ci e = Ok ci' /\ hwf ci' /\ edit_effect e (entries ci) (entries ci').
Proof.
  intros HW EN. pose proof HW as (F & C). destruct e as [n v f|n v|n v|n v|n]; cbn [ename do_edit] in *.
  - exists (header_add0 ci n v f). destruct (add0_wf ci n v f HW EN) as (A & B). split; [reflexivity|]. split; [exact A|]. rewrite B. destruct f; constructor.
  - unfold header_add_ifno. destruct (find_name_spec (hc_chain ci) n F 0) as [(a & h & c & E & HN & NA & R)|(NA & R)]; rewrite R; cbn [obind].
    + exists ci. split; [reflexivity|]. split; [exact HW|]. apply ef_ifno_there. unfold named, entries. rewrite E, !map_app. apply in_or_app. right. left. unfold entry. rewrite HN. reflexivity.
    + unfold header_add. destruct (add0_wf ci n v false HW EN) as (A & B). eexists. split; [reflexivity|]. split; [exact A|]. rewrite B. apply ef_ifno_absent. exact NA.
  - unfold header_add_ver_ifno. destruct (find_len_spec' (hc_chain ci) n F) as (r & R & IFF). rewrite R. cbn [obind]. destruct r.
    + exists ci. split; [reflexivity|]. split; [exact HW|]. apply ef_vifno_there. apply IFF. reflexivity.
    + unfold header_add. destruct (add0_wf ci n v false HW EN) as (A & B). eexists. split; [reflexivity|]. split; [exact A|]. rewrite B. apply ef_vifno_absent. intros Q. apply IFF in Q. discriminate.
  - unfold header_addmodify. destruct (find_name_spec (hc_chain ci) n F 0) as [(a & h & c & E & HN & NA & R)|(NA & R)]; rewrite R; cbn [obind].
    + eexists. split; [reflexivity|]. cbn [Nat.add]. rewrite E in *. rewrite set_value_mid. unfold hwf, entries. cbn [hc_chain hc_count]. rewrite E. split.
      * split; [|rewrite C, !app_length; reflexivity]. apply Forall_app in F as (F1 & F2). apply Forall_app. split; [exact F1|]. inversion F2 as [|? ? F3 F4]; subst. constructor; [exact F3|exact F4].
      * rewrite !map_app. cbn [map]. replace (entry h) with (n, snd (entry h)) by (unfold entry; rewrite HN; reflexivity). replace (entry (mkHdr (h_name h) (Some v))) with (n, v) by (unfold entry; cbn; rewrite HN; reflexivity).
        apply ef_mod_there. exact NA.
    + unfold header_add. destruct (add0_wf ci n v false HW EN) as (A & B). eexists. split; [reflexivity|]. split; [exact A|]. rewrite B. apply ef_mod_absent. exact NA.
  - unfold header_delete. destruct (find_name_spec (hc_chain ci) n F 0) as [(a & h & c & E & HN & NA & R)|(NA & R)]; rewrite R; cbn [obind fst].
    + eexists. split; [reflexivity|]. cbn [Nat.add]. rewrite E in *. rewrite remove_at_mid. unfold hwf, entries. cbn [hc_chain hc_count]. rewrite E. split.
      * split; [|rewrite C, !app_length; cbn [length]; lia]. apply Forall_app in F as (F1 & F2). apply Forall_app. split; [exact F1|]. inversion F2; assumption.
      * rewrite !map_app. cbn [map]. replace (entry h) with (n, snd (entry h)) by (unfold entry; rewrite HN; reflexivity). apply ef_del_there. exact NA.
    + exists ci. split; [reflexivity|]. split; [exact HW|]. apply ef_del_absent. exact NA.
Qed.
(** The states of the list along a sequence of edits. *)
Inductive edits_effect : list edit -> list (list N * list N) -> list (list N * list N) -> Prop :=
| efs_nil l : edits_effect [] l l
| efs_cons e es l l1 l2 : edit_effect e l l1 -> edits_effect es l1 l2 -> edits_effect (e :: es) l l2.
Lemma edits_ok es : forall ci, hwf ci -> Forall (fun e => edit_name (ename e)) es ->
  exists ci', do_edits ci es = Ok ci' /\ hwf ci' /\ edits_effect es (entries ci) (entries ci').
Proof.
  induction es as [|e es IH]; intros ci HW F; [exists ci; split; [reflexivity|]; split; [exact HW|constructor]|].
  inversion F as [|? ? F1 F2]; subst. destruct (edit_ok ci e HW F1) as (ci1 & E1 & W1 & EF). cbn [do_edits]. rewrite E1. cbn [obind].
  destruct (IH ci1 W1 F2) as (ci2 & E2 & W2 & EF2). exists ci2. split; [exact E2|]. split; [exact W2|]. econstructor; eassumption.
Qed.
Lemma parsed_hwf ls hs : parsed ls hs -> hwf (mkHci hs (length hs)).
Proof.
  intros P. split; [|reflexivity]. cbn [hc_chain]. induction P as [|l n v ls hs H P IH|]; [constructor| |assumption]. constructor; [|exact IH]. eexists. split; [reflexivity|].
  apply Forall_forall. intros x I. apply in_map_iff in I as (c & <- & I). assert (A : any_name_char c) by (inversion H; subst; match goal with G : Forall any_name_char n |- _ => rewrite Forall_forall in G; apply G, I end).
  intros Q. apply lowercase_nz in Q. unfold any_name_char in A. lia.
Qed.
Lemma no_space_dropped : forall n c v b rest, wf b -> length (b_chains b) = 1%nat -> n <> [] -> Forall name_char n -> Forall value_char (c :: v) -> c <> 32 -> c <> 9 ->
  stream b = n ++ bs ":" ++ (c :: v) ++ CRLF ++ CRLF ++ rest ->
  exists b', reqheader_operation b = Ok (HSuccess (mkHci [] 0) b') /\ stream b' = rest.
Proof.
  intros n c v b rest W L NE FN FV C1 C2 E. set (l := n ++ bs ":" ++ (c :: v) ++ [13]).
  assert (FA : Forall any_name_char n) by (eapply Forall_impl; [|exact FN]; intros x Hx; apply any_name_class; destruct (name_char_class x Hx) as (A & B & _); auto).
  assert (IL : forall x, In x l -> any_name_char x \/ x = 58 \/ value_char x \/ x = 13).
  { intros x I. unfold l in I. rewrite !in_app_iff in I. destruct I as [I|[I|[I|I]]].
    - left. rewrite Forall_forall in FA. apply FA, I.
    - right; left. destruct I as [<-|[]]. reflexivity.
    - right; right; left. rewrite Forall_forall in FV. apply FV, I.
    - right; right; right. destruct I as [<-|[]]. reflexivity. }
  assert (PL : plain_line l).
  { split; [|split; [|split]].
    - destruct n; [contradiction|discriminate].
    - unfold l. destruct n as [|x n]; [contradiction|]. cbn. inversion FA as [|? ? A _]; subst. unfold any_name_char in A. lia.
    - intros I. apply IL in I. unfold any_name_char, value_char in I. lia.
    - intros I. apply IL in I. unfold any_name_char, value_char in I. lia. }
  destruct (header_language b [l] 13 10 rest W L) as (hs & b' & R & P & _ & S').
  - constructor; [exact PL|constructor].
  - auto.
  - rewrite E. unfold lines_text, l, CRLF, CR, LF. cbn [flat_map]. repeat (rewrite <- app_assoc; cbn [app]). reflexivity.
  - exists b'. inversion P as [|? n0 v0 ? hs0 LF0 P0|? ? ? NF P0]; subst.
    + exfalso. apply (nf_colon l n c (v ++ [13; 10])) with (2 := FA).
      * unfold l. repeat (rewrite <- app_assoc; cbn [app bs]). reflexivity.
      * unfold hd_ows. lia.
      * eauto.
    + inversion P0; subst. split; [exact R|reflexivity].
Qed.
Lemma filter_none (n : list N) (l : list (list N * list N)) : ~ named n l -> filter (fun e => bytes_eqb (fst e) n) l = [] /\ filter (fun e => negb (bytes_eqb (fst e) n)) l = l.
Proof.
  induction l as [|e l IH]; intros H; [auto|]. cbn [filter]. destruct (bytes_eqb (fst e) n) eqn:Q.
  - exfalso. apply H. left. apply bytes_eqb_eq, Q.
  - cbn [negb]. destruct IH as (-> & ->); [intros I; apply H; right; exact I|]. auto.
Qed.
Lemma replace_exact : forall ci n v, hwf ci -> edit_name n -> (length (filter (fun e => bytes_eqb (fst e) n) (entries ci)) <= 1)%nat ->
  exists ci', header_addmodify ci n v = Ok ci' /\ filter (fun e => bytes_eqb (fst e) n) (entries ci') = [(n, v)] /\
    filter (fun e => negb (bytes_eqb (fst e) n)) (entries ci') = filter (fun e => negb (bytes_eqb (fst e) n)) (entries ci).
Proof.
  intros ci n v HW EN HL. destruct (edit_ok ci (EAddModify n v) HW EN) as (ci' & R & _ & EF). exists ci'. split; [exact R|].
  assert (T : forall v : list N, bytes_eqb (fst (n, v)) n = true) by (intros; apply bytes_eqb_refl).
  remember (EAddModify n v) as e eqn:Ee. destruct EF as [| | | | | |n1 v1 v0 a c NA|n1 v1 l NA| |]; try discriminate; injection Ee as -> ->.
  - destruct (filter_none n a NA) as (F1 & F2). rewrite !filter_app in *. cbn [filter] in *. rewrite !T in *. rewrite F1, F2 in *. cbn [app length negb] in *.
    destruct (filter (fun e => bytes_eqb (fst e) n) c); [|cbn in HL; lia]. auto.
  - destruct (filter_none n _ NA) as (F1 & F2). rewrite !filter_app. cbn [filter]. rewrite T, F1, F2. cbn [app negb]. rewrite app_nil_r. auto.
Qed.

(** A field checked by computation. *)
Definition field_okb (f : field) : bool :=
  negb (bytes_eqb (f_name f) []) && forallb rfc_tchar (f_name f) && forallb hd_ows (f_ws f) && negb (bytes_eqb (f_ws f) []) && forallb field_content (f_value f) &&
  match f_value f with c :: _ => negb (hd_ows c) | [] => true end.
Lemma field_okb_ok f : field_okb f = true -> field_ok f.
Proof.
  unfold field_okb, field_ok. rewrite !andb_true_iff, !negb_true_iff. intros (((((A & B) & C) & D) & E) & G).
  split; [intros Q; rewrite Q in A; discriminate|]. split; [apply Forall_forall; intros x I; rewrite forallb_forall in B; exact (B x I)|].
  split; [apply Forall_forall; intros x I; rewrite forallb_forall in C; specialize (C x I); unfold hd_ows in C; lia|].
  split; [intros Q; rewrite Q in D; discriminate|]. split; [apply Forall_forall; intros x I; rewrite forallb_forall in E; specialize (E x I); unfold field_content, vchar in E; unfold value_char; lia|].
  intros c t Q. rewrite Q in G. unfold hd_ows in G. lia.
Qed.
Lemma fields_okb_ok fs : forallb field_okb fs = true -> Forall field_ok fs.
Proof. intros H. apply Forall_forall. intros f I. rewrite forallb_forall in H. apply field_okb_ok, H, I. Qed.
