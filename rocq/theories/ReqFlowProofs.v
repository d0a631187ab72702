(** Proofs about ReqFlow.v. *)
From Verif Require Import Base CStr CNum Buffer BufferProofs Names NamesProofs AcceptEncProofs Machine Reqline ReqlineSpec ReqlineProofs Header HeaderProofs ReqFlow.
From Verif Require AcceptEnc AcceptMime AcceptCL Route Mount Cache.
Local Open Scope nat_scope.

(** ** The room left in a buffer *)
Definition first_off (b : buffer) : nat := match b_chains b with c :: _ => c_use c | [] => 0 end.
Lemma chains_span per : forall cs f c t, wf_chains per f cs -> cs = c :: t -> forall l, last_opt cs = Some l ->
  length (flat_map c_view cs) + c_use c + c_unuse l = length cs * per.
Proof.
  induction cs as [|a cs IH]; intros f c t W E l L; [discriminate|]. injection E as -> ->. destruct t as [|d t].
  - destruct W as (W1 & W2 & W3 & W4). injection L as ->. cbn [flat_map]. rewrite app_nil_r, c_view_length by exact W3. unfold c_written in *. cbn [length]. lia.
  - pose proof (wf_chains_cons _ _ _ _ _ W) as Wt. destruct W as (H1 & H2 & H3 & H4 & _).
    specialize (IH false d t Wt eq_refl l L).
    destruct (c_act_full per f c) as (A1 & A2 & A3); [unfold full_chain; auto|].
    assert (U : c_use d = 0) by (destruct t; cbn [wf_chains] in Wt; intuition).
    change (flat_map c_view (c :: d :: t)) with (c_view c ++ flat_map c_view (d :: t)). rewrite app_length. unfold c_act in *.
    change (length (c :: d :: t) * per) with (per + length (d :: t) * per). lia.
Qed.
Lemma span_eq b : wf b -> room b + length (stream b) + first_off b = b_max b * b_per b.
Proof.
  intros W. destruct (wf_last b W) as (pre & l & E & Wp & Wl & L). destruct W as (W & C & M & U & P).
  destruct (b_chains b) as [|c t] eqn:EC; [destruct W|]. unfold room, lunuse_len, first_off, stream. rewrite EC, L.
  pose proof (chains_span (b_per b) (c :: t) true c t W eq_refl l L) as S. rewrite C. 
  assert (b_max b * b_per b = length (c :: t) * b_per b + (b_max b - length (c :: t)) * b_per b).
  { rewrite <- Nat.mul_add_distr_r. f_equal. lia. } lia.
Qed.
Lemma release_off b n b' : wf b -> release b n = Ok b' -> first_off b' <= first_off b + n.
Proof.
  intros (W & _) R. unfold release in R. unfold first_off. destruct (b_chains b) as [|c t]; [discriminate|]. destruct (n <? c_act c).
  - injection R as <-. cbn. lia.
  - destruct (count_delete (c :: t) n 0) as (k, total). destruct (delete_k k b) as [b1|]; [|discriminate]. cbn [obind] in R.
    destruct (b_chains b1) as [|x t1]; [discriminate|]. injection R as <-. cbn. lia.
Qed.
Lemma release_room b n b' : wf b -> n <= length (stream b) -> release b n = Ok b' -> room b <= room b' /\ b_max b' = b_max b /\ b_per b' = b_per b.
Proof.
  intros W H R. destruct (release_spec b n W H) as (b2 & R2 & W2 & S2 & M2 & P2 & _). rewrite R in R2. injection R2 as <-.
  pose proof (release_off b n b' W R) as O. pose proof (span_eq b W) as E. pose proof (span_eq b' W2) as E'. rewrite M2, P2 in E'. rewrite S2, skipn_length in E'. lia.
Qed.
Lemma map_last_off f l : (forall c, c_use (f c) = c_use c) -> match map_last f l with c :: _ => c_use c | [] => 0 end = match l with c :: _ => c_use c | [] => 0 end.
Proof. intros F. destruct l as [|c [|d t]]; cbn; auto. Qed.
Lemma map_last_nil f l : map_last f l = [] <-> l = [].
Proof. destruct l as [|c [|d t]]; cbn; split; congruence. Qed.
Lemma update_off : forall fuel junk b i r, update_loop fuel junk b i = Ok r -> b_chains b <> [] ->
  first_off (match r with UpdSuccess b' | UpdLimit b' => b' end) = first_off b.
Proof.
  induction fuel as [|fuel IH]; intros junk b i r H NE; [discriminate|]. cbn [update_loop] in H. destruct (last_opt (b_chains b)) as [l|]; [|discriminate].
  destruct (c_unuse l <=? i).
  - unfold add_chain in H. cbn [b_max b_count b_chains b_per b_use_len] in H. destruct (b_max b <=? b_count b).
    + injection H as <-. unfold first_off. cbn [b_chains]. apply map_last_off. reflexivity.
    + apply IH in H; [|cbn [b_chains]; destruct (map_last _ _); discriminate]. rewrite H. unfold first_off. cbn [b_chains].
      set (f := fun c => mkChain (c_data c) (c_use c) 0) in *. pose proof (map_last_off f (b_chains b) ltac:(reflexivity)) as M.
      destruct (map_last f (b_chains b)) as [|x y] eqn:EM; [apply map_last_nil in EM; contradiction|]. cbn [app]. exact M.
  - injection H as <-. unfold first_off. cbn [b_chains]. apply map_last_off. reflexivity.
Qed.
(** Receiving: the chunk is appended and takes its length from the room. *)
Lemma recv_ok junk b d : wf b -> length junk = b_per b -> length d <= lunuse_len b -> length d < room b ->
  exists b', update_buffer junk (write_last b d) (length d) = Ok (UpdSuccess b') /\ wf b' /\ stream b' = stream b ++ d /\
    room b' = room b - length d /\ b_max b' = b_max b /\ b_per b' = b_per b /\ first_off b' = first_off b.
Proof.
  intros W J L R. pose proof (recv_chunk_spec junk b d W J L) as S. unfold recv_chunk in S. replace (length d <=? lunuse_len b) with true in S by (symmetry; apply Nat.leb_le; exact L).
  assert (C : (length d <? lunuse_len b) || (b_count b <? b_max b) = true).
  { apply orb_true_iff. destruct (Nat.ltb_spec (length d) (lunuse_len b)) as [|G]; [auto|]. right. apply Nat.ltb_lt. unfold room in R. destruct (Nat.le_gt_cases (b_max b) (b_count b)); [|assumption]. replace (b_max b - b_count b) with 0 in R by lia. lia. }
  rewrite C in S. destruct S as (b' & U & W' & S' & M' & P'). exists b'.
  assert (F : first_off b' = first_off b).
  { pose proof (update_off _ _ _ _ _ U) as X. cbn beta iota in X. rewrite X.
    - unfold first_off, write_last. cbn [b_chains]. apply map_last_off. reflexivity.
    - unfold write_last. cbn [b_chains]. rewrite map_last_nil. destruct W as (W & _). destruct (b_chains b); [destruct W|discriminate]. }
  pose proof (span_eq b W) as E. pose proof (span_eq b' W') as E'. rewrite M', P', F, S', app_length in E'. split; [exact U|]. split; [exact W'|]. split; [exact S'|]. split; [lia|]. auto.
Qed.

(** ** Searching the memory *)
Lemma scan_found b pat j : wf b -> pat = CRLF \/ pat = CRLF2 -> occurs pat (mem (b_chains b)) j -> (forall j', j' < j -> ~ occurs pat (mem (b_chains b)) j') ->
  j + length pat < length (mem (b_chains b)) -> no_crcr (mem (b_chains b)) j -> exists q, strstr_after b pat = Ok (Some q).
Proof.
  intros W Hp O F L NC. pose proof W as (W0 & _). pose proof (ptr_at_0 _ _ _ W0) as P0.
  assert (Hne : pat <> []) by (destruct Hp as [->| ->]; discriminate).
  assert (exists c t, b_chains b = c :: t /\ ptr_at (b_chains b) 0 0 = Some (0, c_use c)) as (c & t & EC & P1) by (destruct (b_chains b); [destruct P0|eauto]).
  assert (ES : strstr_after b pat = strstr_loop (S (mem_size b)) b (0, c_use c) pat) by (unfold strstr_after; rewrite EC; reflexivity). rewrite ES.
  destruct (strstr_loop_spec b W pat Hne (S (mem_size b)) 0 (0, c_use c)) as (r & R & _ & B); [lia|pose proof (mem_size_ge b); lia|exact P1|].
  destruct (B j) as (q & -> & _); [lia|exact O|exact F|exact L| |rewrite R; eauto].
  destruct Hp as [->| ->]; [apply skip_ok_crlf|apply skip_ok_crlf2]; assumption.
Qed.
Lemma scan_none b pat : wf b -> pat <> [] -> (forall j, ~ occurs pat (mem (b_chains b)) j) -> strstr_after b pat = Ok None.
Proof.
  intros W Hne NO. destruct (strstr_spec b W pat Hne) as (r & R & A & _). rewrite R. destruct r as [q|]; [|reflexivity].
  destruct (A q eq_refl) as (j & OJ & _). destruct (NO j OJ).
Qed.

(** ** Lines *)
Definition lines_text (ls : list (list N)) : list N := flat_map (fun x => x ++ CRLF) ls.
Definition line_ok (x : list N) : Prop := x <> [] /\ no_ctl x.
Lemma no_ctl_nth x i : no_ctl x -> i < length x -> nth_error x i <> Some CR /\ nth_error x i <> Some LF.
Proof.
  intros H L. destruct (nth_error x i) as [c|] eqn:E; [|split; discriminate]. apply nth_error_In in E. unfold no_ctl in H. rewrite Forall_forall in H. destruct (H c E). unfold CR, LF. split; congruence.
Qed.
Lemma nth_in_line x rest i : no_ctl x -> nth_error (x ++ CRLF ++ rest) i = Some CR -> i = length x \/ length x + 2 <= i.
Proof.
  intros H E. destruct (Nat.lt_ge_cases i (length x)) as [L|L]; [rewrite nth_error_app1 in E by exact L; destruct (no_ctl_nth x i H L); contradiction|].
  rewrite nth_error_app2 in E by exact L. destruct (i - length x) as [|[|k]] eqn:K; [left; lia|discriminate|right; lia].
Qed.
Lemma after_line x rest i : nth_error (x ++ CRLF ++ rest) (length x + 2 + i) = nth_error rest i.
Proof. rewrite app_assoc. rewrite nth_error_app2 by (rewrite app_length; cbn; lia). f_equal. rewrite app_length. cbn. lia. Qed.
Lemma occurs_shift pat x rest j : occurs pat (x ++ CRLF ++ rest) (length x + 2 + j) -> j <= length rest -> occurs pat rest j.
Proof.
  intros O L. apply occurs_nth in O as [O _]. apply occurs_nth. split; [|exact L]. intros k Hk. rewrite <- (O k Hk). rewrite <- Nat.add_assoc. symmetry. apply after_line.
Qed.
Lemma head_not_cr ls post : Forall line_ok ls -> ls <> [] -> nth_error (lines_text ls ++ post) 0 <> Some CR.
Proof.
  intros F NE. destruct ls as [|x ls]; [contradiction|]. inversion F as [|? ? (X1 & X2) _]; subst. destruct x as [|c x]; [contradiction|]. cbn. apply Forall_inv in X2. unfold CR. intros E. injection E as ->. destruct X2; congruence.
Qed.
Lemma lines_len x ls : length (lines_text (x :: ls)) = length x + 2 + length (lines_text ls).
Proof. unfold lines_text. cbn [flat_map]. rewrite !app_length. cbn. lia. Qed.
Lemma lines_crlf2 post : forall ls j, Forall line_ok ls -> ls <> [] -> occurs CRLF2 (lines_text ls ++ CRLF ++ post) j -> length (lines_text ls) <= j + 2.
Proof.
  induction ls as [|x ls IH]; intros j F NE O; [contradiction|]. inversion F as [|? ? (X1 & X2) F']; subst. rewrite lines_len.
  assert (EQ : lines_text (x :: ls) ++ CRLF ++ post = x ++ CRLF ++ (lines_text ls ++ CRLF ++ post)) by (unfold lines_text; cbn [flat_map]; rewrite <- !app_assoc; reflexivity).
  rewrite EQ in O. pose proof O as O'. apply occurs_nth in O as [O OL]. pose proof (O 0 ltac:(cbn; lia)) as O0. rewrite Nat.add_0_r in O0. cbn [CRLF2 nth_error] in O0.
  apply nth_in_line in O0; [|exact X2]. destruct O0 as [->|G].
  - specialize (O 2 ltac:(cbn; lia)). cbn [CRLF2 nth_error] in O. replace (length x + 2) with (length x + 2 + 0) in O by lia. rewrite after_line in O.
    destruct ls as [|y ls]; [cbn; lia|]. exfalso. apply (head_not_cr (y :: ls) (CRLF ++ post) F'); [discriminate|exact O].
  - replace j with (length x + 2 + (j - length x - 2)) in O' by lia. apply occurs_shift in O'.
    + destruct ls as [|y ls]; [cbn; lia|]. specialize (IH _ F' ltac:(discriminate) O'). lia.
    + rewrite (app_length x), (app_length CRLF) in OL. change (length CRLF) with 2 in OL. clear -OL G. lia.
Qed.
Lemma lines_nocrcr post : forall ls, Forall line_ok ls -> no_crcr (lines_text ls ++ CRLF ++ post) (length (lines_text ls)).
Proof.
  induction ls as [|x ls IH]; intros F t Ht E; [cbn in Ht; lia|]. inversion F as [|? ? (X1 & X2) F']; subst. rewrite lines_len in Ht.
  assert (EQ : lines_text (x :: ls) ++ CRLF ++ post = x ++ CRLF ++ (lines_text ls ++ CRLF ++ post)) by (unfold lines_text; cbn [flat_map]; rewrite <- !app_assoc; reflexivity).
  rewrite EQ in E |- *. pose proof E as E0. apply nth_in_line in E; [|exact X2]. destruct E as [->|G].
  - replace (S (length x)) with (length x + 1) by lia. rewrite nth_error_app2 by lia. replace (length x + 1 - length x) with 1 by lia. cbn. discriminate.
  - replace t with (length x + 2 + (t - length x - 2)) in E0 by lia. rewrite after_line in E0.
    replace (S t) with (length x + 2 + S (t - length x - 2)) by lia. rewrite after_line. apply (IH F'); [lia|exact E0].
Qed.
Lemma lines_occurs post : forall ls, ls <> [] -> occurs CRLF2 (lines_text ls ++ CRLF ++ post) (length (lines_text ls) - 2).
Proof.
  intros ls NE. destruct (exists_last NE) as (ls' & x & ->). unfold lines_text. rewrite flat_map_app. cbn [flat_map]. rewrite app_nil_r.
  exists (flat_map (fun x0 => x0 ++ CRLF) ls' ++ x), post. rewrite <- !app_assoc. split; [reflexivity|]. rewrite !app_length. cbn. lia.
Qed.
Definition field_line (f : field) : list N := f_name f ++ bs ":" ++ f_ws f ++ f_value f.
Lemma section_lines fs : section fs = lines_text (map field_line fs) ++ CRLF.
Proof. unfold section. f_equal. unfold lines_text. induction fs as [|f fs IH]; [reflexivity|]. cbn [map flat_map]. rewrite IH. f_equal. unfold field_text, field_line. rewrite <- !app_assoc. reflexivity. Qed.
(** Scanning [k] received bytes of a text for the end of its first line, and for the end of its lines. *)
Lemma firstn_app_ge (a b : list N) k : length a <= k -> firstn k (a ++ b) = a ++ firstn (k - length a) b.
Proof. intros H. rewrite firstn_app. rewrite firstn_all2 by exact H. reflexivity. Qed.
Lemma occurs_prefix pat x tail k j : (forall i, i < length pat -> nth_error (firstn k x ++ tail) (j + i) = nth_error pat i) -> k <= length x -> pat <> [] ->
  last pat 0%N = 10%N -> ~ In 10%N tail -> j + length pat <= k /\ occurs pat x j.
Proof.
  intros O K NE LP NT. assert (LK : length (firstn k x) = k) by (rewrite firstn_length; lia).
  assert (LL : 0 < length pat) by (destruct pat; [contradiction|cbn; lia]).
  assert (J : j + length pat <= k).
  { destruct (Nat.le_gt_cases (j + length pat) k) as [|G]; [assumption|exfalso]. specialize (O (length pat - 1) ltac:(lia)).
    assert (EL : nth_error pat (length pat - 1) = Some 10%N).
    { destruct (exists_last NE) as (p & c & ->). rewrite last_last in LP. subst c. rewrite app_length. cbn. rewrite nth_error_app2 by lia. replace (length p + 1 - 1 - length p) with 0 by lia. reflexivity. }
    rewrite EL in O. rewrite nth_error_app2 in O by lia. apply nth_error_In in O. contradiction. }
  split; [exact J|]. apply occurs_nth. split; [|lia]. intros i Hi. rewrite <- (O i Hi). rewrite nth_error_app1 by lia. symmetry. apply nth_firstn. lia.
Qed.
Lemma scan_line b x post tail k : wf b -> no_ctl x -> mem (b_chains b) = firstn k (x ++ CRLF ++ post) ++ tail -> k <= length (x ++ CRLF ++ post) -> ~ In 10%N tail ->
  length x + 2 < length (mem (b_chains b)) -> exists r, strstr_after b [13; 10]%N = Ok r /\ is_some r = (length x + 2 <=? k).
Proof.
  intros W X M K NT L. change [13; 10]%N with CRLF. destruct (Nat.leb_spec (length x + 2) k) as [G|G].
  - assert (EM : mem (b_chains b) = x ++ CRLF ++ (firstn (k - length x - 2) post ++ tail)).
    { rewrite M, firstn_app_ge by lia. rewrite firstn_app_ge by (cbn; lia). rewrite <- !app_assoc. reflexivity. }
    destruct (no_ctl_first x (firstn (k - length x - 2) post ++ tail) X) as (O & F & NC). fold CRLF_ in EM. change CRLF with CRLF_ in EM. rewrite <- EM in O, F, NC.
    destruct (scan_found b CRLF (length x) W (or_introl eq_refl) O F L NC) as (q & Q). exists (Some q). auto.
  - exists None. split; [|reflexivity]. apply scan_none; [exact W|discriminate|]. intros j O. apply occurs_nth in O as [O _]. rewrite M in O.
    apply occurs_prefix in O; [|exact K|discriminate|reflexivity|exact NT]. destruct O as (J & O). cbn [CRLF length] in J.
    destruct (no_ctl_first x post X) as (_ & F & _). apply (F j); [lia|exact O].
Qed.
Lemma scan_lines b ls post tail k : wf b -> Forall line_ok ls -> ls <> [] -> mem (b_chains b) = firstn k (lines_text ls ++ CRLF ++ post) ++ tail ->
  k <= length (lines_text ls ++ CRLF ++ post) -> ~ In 10%N tail -> length (lines_text ls) + 2 < length (mem (b_chains b)) ->
  exists r, strstr_after b [13; 10; 13; 10]%N = Ok r /\ is_some r = (length (lines_text ls) + 2 <=? k).
Proof.
  intros W X NE M K NT L. change [13; 10; 13; 10]%N with CRLF2. set (n := length (lines_text ls)) in *.
  assert (N2 : 2 <= n). { unfold n. destruct ls as [|y ls]; [contradiction|]. rewrite lines_len. lia. }
  destruct (Nat.leb_spec (n + 2) k) as [G|G].
  - assert (EM : mem (b_chains b) = lines_text ls ++ CRLF ++ (firstn (k - n - 2) post ++ tail)).
    { rewrite M, firstn_app_ge by lia. rewrite firstn_app_ge by (cbn; lia). rewrite <- !app_assoc. reflexivity. }
    set (post' := firstn (k - n - 2) post ++ tail) in *.
    destruct (scan_found b CRLF2 (n - 2) W (or_intror eq_refl)) as (q & Q).
    + rewrite EM. apply lines_occurs. exact NE.
    + intros j' Hj O. rewrite EM in O. apply lines_crlf2 in O; [|exact X|exact NE]. fold n in O. lia.
    + cbn [CRLF2 length]. lia.
    + rewrite EM. intros t Ht. apply lines_nocrcr; [exact X|]. fold n. lia.
    + exists (Some q). auto.
  - exists None. split; [|reflexivity]. apply scan_none; [exact W|discriminate|]. intros j O. apply occurs_nth in O as [O _]. rewrite M in O.
    apply occurs_prefix in O; [|exact K|discriminate|reflexivity|exact NT]. destruct O as (J & O). cbn [CRLF2 length] in J.
    apply lines_crlf2 in O; [|exact X|exact NE]. fold n in O. lia.
Qed.

(** ** A buffer of one block *)
Definition one (mx per : nat) (rcv tail : list N) (use : nat) : buffer := mkBuffer [mkChain (rcv ++ tail) use (length tail)] 1 mx per (length rcv - use).
Section ONE.
Variables (mx per : nat) (rcv tail : list N) (use : nat).
Hypotheses (H1 : length rcv + length tail = per) (H2 : tail <> []) (H3 : use <= length rcv) (H4 : 1 <= mx).
Notation b := (one mx per rcv tail use).
Lemma tail_pos : 0 < length tail. Proof. destruct tail; [contradiction|cbn; lia]. Qed.
Lemma one_stream : stream b = skipn use rcv.
Proof.
  unfold stream, one. cbn [b_chains flat_map]. rewrite app_nil_r. unfold c_view, c_written, c_len. cbn [c_data c_use c_unuse]. rewrite app_length.
  replace (length rcv + length tail - length tail - use) with (length rcv - use) by lia. rewrite skipn_app. replace (use - length rcv) with 0 by lia. cbn [skipn].
  rewrite firstn_app, skipn_length, Nat.sub_diag. cbn [firstn]. rewrite app_nil_r. apply firstn_all2. rewrite skipn_length. lia.
Qed.
Lemma one_wf : wf b.
Proof.
  pose proof tail_pos. unfold wf. rewrite one_stream, skipn_length. cbn [one b_chains b_count b_max b_per b_use_len length wf_chains].
  unfold c_len, c_written, c_len. cbn [c_data c_use c_unuse]. rewrite app_length. repeat split; try lia; discriminate.
Qed.
Lemma one_mem : mem (b_chains b) = skipn use rcv ++ tail.
Proof. unfold mem, one. cbn [b_chains flat_map]. rewrite app_nil_r. unfold c_mem. cbn [c_data c_use]. rewrite skipn_app. replace (use - length rcv) with 0 by lia. reflexivity. Qed.
Lemma one_lunuse : lunuse_len b = length tail. Proof. reflexivity. Qed.
Lemma one_off : first_off b = use. Proof. reflexivity. Qed.
Lemma one_room : room b + length rcv = mx * per.
Proof. pose proof (span_eq b one_wf) as E. rewrite one_stream, one_off, skipn_length in E. cbn [one b_max b_per] in E. lia. Qed.
Variable d : list N.
Hypothesis (H5 : length d <= length tail).
Lemma one_write : write_last b d = mkBuffer [mkChain ((rcv ++ d) ++ skipn (length d) tail) use (length tail)] 1 mx per (length rcv - use).
Proof.
  unfold write_last, one. cbn [b_chains b_count b_max b_per b_use_len map_last]. repeat f_equal. unfold write_at, c_written, c_len. cbn [c_data c_use c_unuse].
  rewrite app_length. replace (length rcv + length tail - length tail) with (length rcv) by lia. rewrite firstn_app, Nat.sub_diag, firstn_all. cbn [firstn]. rewrite app_nil_r, <- app_assoc. f_equal. f_equal.
  rewrite skipn_app. rewrite skipn_all2 by lia. cbn [app]. f_equal. lia.
Qed.
Lemma one_write_mem : mem (b_chains (write_last b d)) = skipn use (rcv ++ d) ++ skipn (length d) tail.
Proof. rewrite one_write. unfold mem. cbn [b_chains flat_map]. rewrite app_nil_r. unfold c_mem. cbn [c_data c_use]. rewrite skipn_app, app_length. replace (use - (length rcv + length d)) with 0 by lia. reflexivity. Qed.
Lemma one_write_wf : wf (write_last b d).
Proof. apply write_last_wf; [apply one_wf|exact H5]. Qed.
Lemma one_append junk : length d < length tail -> update_buffer junk (write_last b d) (length d) = Ok (UpdSuccess (one mx per (rcv ++ d) (skipn (length d) tail) use)).
Proof.
  intros L. rewrite one_write. unfold update_buffer. cbn [update_loop b_chains last_opt c_unuse]. replace (length tail <=? length d) with false by (symmetry; apply Nat.leb_gt; exact L).
  cbn [map_last b_count b_max b_per b_use_len]. unfold one. cbn [c_data c_use c_unuse]. rewrite skipn_length, app_length. replace (length rcv - use + length d) with (length rcv + length d - use) by lia. reflexivity.
Qed.
End ONE.

(** ** Releasing from the first block *)
Lemma wf_first b : wf b -> exists c t, b_chains b = c :: t /\ length (c_data c) = b_per b /\ c_use c <= b_per b.
Proof.
  intros (W & _). destruct (b_chains b) as [|c [|d t]]; [destruct W| |]; exists c; eexists; (split; [reflexivity|]); cbn [wf_chains] in W; unfold c_written, c_len in *; intuition lia.
Qed.
Lemma release_first b n : wf b -> first_off b + n < b_per b -> n <= length (stream b) ->
  exists b', release b n = Ok b' /\ wf b' /\ stream b' = skipn n (stream b) /\ first_off b' = first_off b + n /\ room b' = room b /\ b_max b' = b_max b /\ b_per b' = b_per b.
Proof.
  intros W O L. destruct (release_spec b n W L) as (b' & R & W' & S' & M' & P' & _). exists b'.
  assert (F : first_off b' = first_off b + n).
  { destruct (wf_first b W) as (c & t & EC & LC & UC). unfold first_off in *. rewrite EC in *. unfold release in R. rewrite EC in R. unfold c_act, c_len in R. rewrite LC in R.
    destruct (Nat.ltb_spec n (b_per b - c_use c)) as [G|G]; [|lia]. injection R as <-. reflexivity. }
  pose proof (span_eq b W) as E. pose proof (span_eq b' W') as E'. rewrite M', P', S', F, skipn_length in E'.
  split; [exact R|]. split; [exact W'|]. split; [exact S'|]. split; [exact F|]. split; [lia|]. auto.
Qed.
Lemma release_one mx per rcv tail u n : length rcv + length tail = per -> tail <> [] -> u + n <= length rcv ->
  release (one mx per rcv tail u) n = Ok (one mx per rcv tail (u + n)).
Proof.
  intros L NT H. assert (0 < length tail) by (destruct tail; [contradiction|cbn; lia]). unfold release, one. cbn [b_chains]. unfold c_act, c_len. cbn [c_data c_use]. rewrite app_length.
  destruct (Nat.ltb_spec n (length rcv + length tail - u)) as [G|G]; [|lia]. cbn [c_unuse b_count b_max b_per b_use_len]. replace (length rcv - u - n) with (length rcv - (u + n)) by lia. reflexivity.
Qed.
(** The header of a message that lies in the first block. *)
Lemma block_first b i : wf b -> first_off b + i < b_per b -> block b i = 0.
Proof.
  intros W H. destruct (wf_first b W) as (c & t & EC & LC & UC). unfold block, first_off in *. rewrite EC in *. cbn [ptr_at]. unfold c_act, c_len. rewrite LC.
  destruct (Nat.ltb_spec i (b_per b - c_use c)) as [G|G]; [reflexivity|lia].
Qed.
Lemma first_block_placed b fs : forall o, wf b -> Forall field_ok fs -> first_off b + o + length (flat_map field_text fs) <= b_per b -> all_placed b o fs.
Proof.
  induction fs as [|f fs IH]; intros o W F H; [exact Logic.I|]. pose proof (Forall_inv F) as F1. pose proof (Forall_inv_tail F) as F2. cbn [flat_map] in H. rewrite app_length, field_text_length in H.
  cbn [all_placed]. split; [|apply IH; [exact W|exact F2|rewrite field_text_length; lia]].
  unfold placed. rewrite !(block_first b) by (try exact W; lia). split; [reflexivity|]. right; left; reflexivity.
Qed.
Lemma next_line_release b q p0 n b' p' : wf b -> (0 < n)%nat -> (n <= length (stream b))%nat -> ptr_at (b_chains b) 0 n = Some q -> ptr_at (b_chains b) 0 0 = Some p0 ->
  next_line b q p0 = Ok (b', p') -> release b n = Ok b'.
Proof.
  intros W N0 NL Q P0 H. unfold next_line, ptr_len in H. pose proof (mem_stream b W) as MS. pose proof (mem_size_ge b) as MG.
  assert (PL : ptr_len_loop (S (mem_size b)) b p0 q p0 false false 0 = Ok (Z.of_nat n)).
  { change false with (0 <? 0)%nat at 2. change 0%Z with (Z.of_nat 0). apply (ptr_len_loop_spec b W); [lia|lia|exact Q|exact P0|lia|lia|exact P0]. }
  destruct (first_use_ok b W) as (c & t & BC & _ & P0'). rewrite P0' in P0. injection P0 as <-. rewrite BC in *. rewrite PL in H. cbn [obind] in H. rewrite Nat2Z.id in H.
  destruct (release b n) as [b2|]; [|discriminate]. cbn [obind] in H. destruct (shift_ptr q _); [|discriminate]. cbn [obind] in H. congruence.
Qed.
Lemma section_room : forall fs fuel b p ci ci' b' rest, wf b -> Forall field_ok fs -> all_placed b 0 fs -> stream b = section fs ++ rest -> ptr_at (b_chains b) 0 0 = Some p -> (length fs < fuel)%nat ->
  parse_header_loop fuel b p ci = Ok (HSuccess ci' b') -> room b <= room b' /\ b_max b' = b_max b /\ b_per b' = b_per b.
Proof.
  induction fs as [|f fs IH]; intros fuel b p ci ci' b' rest W F A E P0 FU H; (destruct fuel as [|fuel]; [cbn in FU; lia|]).
  - cbn [parse_header_loop] in H. unfold section in E. cbn [flat_map app CRLF] in E. rewrite (line_end b p CR (LF :: rest) W eq_refl E P0) in H. cbn [obind] in H.
    destruct (release b 2) as [b2|] eqn:R; [|discriminate]. cbn [obind] in H. injection H as <- <-. apply (release_room b 2 b2 W); [rewrite E; cbn; lia|exact R].
  - pose proof (Forall_inv F) as F1. pose proof (Forall_inv_tail F) as F2. cbn [all_placed] in A. destruct A as (A1 & A2). cbn [parse_header_loop] in H.
    unfold section in E. cbn [flat_map] in E. rewrite <- !app_assoc in E.
    destruct (line_success b f _ p W F1 E P0) as (q & vp & PL & Q & HV). rewrite PL in H. cbn [obind] in H.
    rewrite (addb_ok b f _ p vp ci W F1 E P0 HV A1) in H. cbn [obind] in H.
    assert (L0 : 0 < length (field_text f)) by (rewrite field_text_length; lia).
    assert (L1 : length (field_text f) <= length (stream b)) by (rewrite E, app_length; lia).
    destruct (next_line_ok b q p (length (field_text f)) W L0 L1 Q P0) as (b2 & p' & k & NL & W' & SB & P' & K1 & K2). rewrite NL in H. cbn [obind fst snd] in H.
    pose proof (next_line_release b q p _ b2 p' W L0 L1 Q P0 NL) as R.
    destruct (release_room b _ b2 W L1 R) as (Q1 & Q2 & Q3).
    assert (X : room b2 <= room b' /\ b_max b' = b_max b2 /\ b_per b' = b_per b2); [|destruct X as (R1 & R2 & R3); split; [lia|]; split; congruence].
    eapply (IH fuel b2 p' _ _ _ rest W' F2); [| |exact P'| |exact H].
    + eapply (placed_shift b b2 k); [exact K1|exact K2|exact F2|]. rewrite Nat.add_0_r. exact A2.
    + rewrite SB, E, skipn_app, skipn_all, Nat.sub_diag. unfold section. rewrite <- app_assoc. reflexivity.
    + cbn [length] in FU. lia.
Qed.
Lemma header_delivered fs b rest : wf b -> Forall field_ok fs -> stream b = section fs ++ rest -> first_off b + length (section fs) <= b_per b ->
  exists b', reqheader_operation b = Ok (HSuccess (mkHci (map delivered fs) (length fs)) b') /\ wf b' /\ stream b' = rest /\ room b <= room b' /\ b_max b' = b_max b /\ b_per b' = b_per b.
Proof.
  intros W F E O. assert (A : all_placed b 0 fs). { apply first_block_placed; [exact W|exact F|]. unfold section in O. rewrite app_length in O. lia. }
  destruct (section_delivered fs b rest W F A E) as (b' & R & W' & S'). exists b'. split; [exact R|]. split; [exact W'|]. split; [exact S'|].
  destruct (first_use_ok b W) as (c & t & BC & FU & P0). unfold reqheader_operation in R. rewrite FU in R. cbn [obind] in R.
  apply (section_room fs _ b _ header_init _ b' rest W F A E P0) in R; [exact R|].
  pose proof (stream_mem_size b W) as MS. rewrite E in MS. unfold section in MS. rewrite !app_length in MS.
  assert (G : (length fs <= length (flat_map field_text fs))%nat).
  { clear. induction fs as [|f fs IH]; [cbn; lia|]. cbn [flat_map length]. rewrite app_length, field_text_length. lia. }
  lia.
Qed.
(** The request line is taken off the buffer. *)
Lemma accepted_release b l r more : ~ In 10%N l -> parse_reqline (l ++ CRLF) = Ok (Some r) -> (Z.of_nat (length l + 2) < 8000)%Z -> wf b -> stream b = l ++ CRLF ++ more ->
  exists b', request_operation b = Ok (Accepted r b') /\ release b (length l + 2) = Ok b'.
Proof.
  intros NL PR LEN W SB. destruct (reqline_sound (l ++ CRLF)) as (o & E & PO). rewrite PR in E. injection E as <-. destruct PO as (m & path & q & v & FL & _).
  destruct (fly_line_split _ _ _ _ _ FL) as (x & rest & EX & CX). destruct (no_lf_split _ _ _ NL CX EX) as [-> ->]. clear EX FL.
  destruct (no_ctl_first x more CX) as (O & F & NC). change CRLF_ with CRLF in *. rewrite <- SB in O, F, NC.
  destruct (crlf_found b CRLF (length x) W (or_introl eq_refl) O F NC) as (p & S1 & PQ). change (length CRLF) with 2 in PQ.
  assert (OL : length x + 2 <= length (stream b)) by (rewrite SB, !app_length; cbn; lia).
  pose proof W as (W0 & _). pose proof (ptr_at_0 _ _ _ W0) as P0. unfold request_operation.
  change [13; 10]%N with CRLF. destruct (b_chains b) as [|c t] eqn:BC; [destruct P0|]. rewrite S1. cbn [obind]. unfold ptr_len. rewrite BC.
  pose proof (mem_stream b W) as MS. rewrite BC in MS.
  assert (PL : ptr_len_loop (S (mem_size b)) b (0%nat, c_use c) p (0%nat, c_use c) false false 0 = Ok (Z.of_nat (length x + 2))).
  { change false with (0 <? 0)%nat at 2. change 0%Z with (Z.of_nat 0). apply (ptr_len_loop_spec b W); rewrite ?BC; [lia|lia|exact PQ|exact P0|lia| |exact P0].
    pose proof (mem_size_ge b) as G. rewrite BC in G. lia. }
  rewrite PL. cbn [obind]. unfold request_line_max. replace (8000 <=? Z.of_nat (length x + 2))%Z with false by (symmetry; apply Z.leb_gt; exact LEN). rewrite Nat2Z.id.
  rewrite (BufferProofs.memcpy_spec b 0 0 (c_use c) (length x + 2) W); [|rewrite BC; exact P0|lia]. cbn [obind skipn].
  assert (FE : firstn (length x + 2) (stream b) = x ++ CRLF). { rewrite SB, app_assoc. replace (length x + 2) with (length (x ++ CRLF)) by (rewrite app_length; cbn; lia). apply firstn_exact. }
  rewrite FE, PR. cbn [obind].
  destruct (release_spec b (length x + 2) W OL) as (b' & R & W' & SB' & _). rewrite R. cbn [obind]. eauto.
Qed.

(** ** Receiving a request *)
Lemma value_no_ctl v : Forall value_char v -> no_ctl v.
Proof. intros F. eapply Forall_impl; [|exact F]. intros c H. unfold value_char in H. cbn in H. lia. Qed.
Lemma name_no_ctl v : Forall name_char v -> no_ctl v.
Proof.
  intros F. eapply Forall_impl; [|exact F]. intros c H. cbn. split; intros ->; discriminate H.
Qed.
Lemma ows_no_ctl v : ows v -> no_ctl v.
Proof. intros F. eapply Forall_impl; [|exact F]. intros c [->| ->]; split; discriminate. Qed.
Lemma field_line_ok f : field_ok f -> line_ok (field_line f).
Proof.
  intros (N1 & N2 & W1 & W2 & V & _). split.
  - unfold field_line. destruct (f_name f); [contradiction|discriminate].
  - unfold field_line. repeat apply no_ctl_app; auto using name_no_ctl, ows_no_ctl, value_no_ctl. repeat constructor; discriminate.
Qed.
Lemma set_buf_self q : set_buf q (q_buf q) = q. Proof. destruct q. reflexivity. Qed.
Lemma prefix_firstn (a b c : list N) : a = b ++ c -> b = firstn (length b) a.
Proof. intros ->. rewrite firstn_app, Nat.sub_diag, firstn_all. cbn [firstn]. rewrite app_nil_r. reflexivity. Qed.

Lemma taken : forall k (src : list N), src = firstn k src ++ skipn (length (firstn k src)) src.
Proof. induction k; intros [|x src]; cbn [firstn length skipn app]; try reflexivity. f_equal. apply IHk. Qed.


(** ** What can be seen of a verdict *)
Inductive seen :=
| SWait | SClosed | SError | SBadLine | SDecode
| SStatus (n : N)
| SHandler (rt : Route.route) (ps : list (Route.param * list N)) (line : option reqline) (h : hci) (body : option (list N))
| SFile (f : Mount.pfile).
Definition view (v : verdict) : seen :=
  match v with
  | VWait _ => SWait
  | VClosed => SClosed
  | VError => SError
  | VBadLine => SBadLine
  | VDecode => SDecode
  | VStatus n _ => SStatus n
  | VHandler rt ps q => SHandler rt ps (q_line q) (q_hdr q) (q_body q)
  | VFile f _ => SFile f
  end.
Definition final (e : env) (r : reqline) (ci : hci) (body : option (list N)) : outcome seen :=
  match l_method r with
  | None => UB NullDeref
  | Some m =>
    obind (Route.found_route (e_regs e) (l_uri r ++ e_after e) (length (l_uri r)) m) (fun o =>
    match o with
    | None =>
      obind (Mount.static_content (e_cfg e) (e_mnt e) m (l_uri r ++ e_after e) (length (l_uri r))) (fun s =>
      match s with
      | Mount.S405 => Ok (SStatus 405)
      | Mount.S404 => Ok (SStatus 404)
      | Mount.SFile f => obind (Cache.not_modified (e_instant e) ci (e_etag e f) (e_lm e f)) (fun same => Ok (if same then SStatus 304 else SFile f))
      end)
    | Some rt =>
      obind (Route.capture rt (l_uri r ++ e_after e) (length (l_uri r))) (fun ps =>
      Ok (match ps with
          | None => SStatus 500
          | Some ps => if e_null e (Route.rt_handler rt) then SStatus 500 else SHandler rt ps (Some r) ci body
          end))
    end)
  end.
(** The verdict carries the request line and the fields of the request. *)
Definition settled (r : reqline) (ci : hci) (v : verdict) : Prop :=
  waiting v = None /\ match v with VStatus _ q | VFile _ q | VHandler _ _ q => q_line q = Some r /\ q_hdr q = ci | _ => True end.
Lemma final_ok e q r ci body : q_line q = Some r -> l_version r = Some V1_1 -> q_hdr q = ci -> q_body q = body ->
  (exists v s, end_of_parse e q = Ok v /\ final e r ci body = Ok s /\ view v = s /\ settled r ci v) \/ (exists u, end_of_parse e q = UB u /\ final e r ci body = UB u).
Proof.
  intros QL V QH QB. unfold end_of_parse, final. cbn [set_phase q_line q_hdr q_body]. rewrite QL, QH. destruct (l_method r) as [m|]; [|right; eauto].
  assert (RS : forall v, respond (set_phase q PResponse) v = Ok v) by (intros v; unfold respond; cbn [set_phase q_line]; rewrite QL, V; reflexivity).
  destruct (Route.found_route _ _ _ _) as [[rt|]|u]; cbn [obind]; [| |right; eauto].
  - destruct (Route.capture _ _ _) as [[ps|]|u]; cbn [obind]; [| |right; eauto].
    + destruct (e_null e (Route.rt_handler rt)); rewrite RS; left; do 2 eexists; (split; [reflexivity|]); (split; [reflexivity|]); (split; [|split; [reflexivity|split; assumption]]).
      * reflexivity.
      * cbn [view set_phase q_line q_hdr q_body]. rewrite QL, QH, QB. reflexivity.
    + rewrite RS. left. do 2 eexists. split; [reflexivity|]. split; [reflexivity|]. split; [reflexivity|]. split; [reflexivity|split; assumption].
  - destruct (Mount.static_content _ _ _ _ _) as [[f| |]|u]; cbn [obind]; [| | |right; eauto].
    + destruct (Cache.not_modified _ _ _ _) as [same|u]; cbn [obind]; [|right; eauto]. destruct same; rewrite RS; left; do 2 eexists; (split; [reflexivity|]); (split; [reflexivity|]); (split; [reflexivity|]); (split; [reflexivity|split; assumption]).
    + rewrite RS. left. do 2 eexists. split; [reflexivity|]. split; [reflexivity|]. split; [reflexivity|]. split; [reflexivity|split; assumption].
    + rewrite RS. left. do 2 eexists. split; [reflexivity|]. split; [reflexivity|]. split; [reflexivity|]. split; [reflexivity|split; assumption].
Qed.

(** ** Receiving a body *)
Lemma receive_body : forall os q src got, q_sl q = true -> q_hd q = true -> q_disc q = false -> wf (q_buf q) -> length src < room (q_buf q) ->
  exists st q' src' os' d b', receive q src false os got = Ok (st, q', src', os') /\ src = d ++ src' /\ q' = set_buf q b' /\ wf b' /\ stream b' = stream (q_buf q) ++ d /\
    length src' < room b' /\ (st = RSuccess \/ st = RBlock /\ d = [] /\ got = false /\ b' = q_buf q).
Proof.
  induction os as [|(k, junk) os IH]; intros q src got QS QH QD W R.
  { exists (if negb (q_disc q) && got then RSuccess else RBlock), q, src, [], [], (q_buf q). cbn [receive]. rewrite set_buf_self, app_nil_r, QD. repeat (split; [first [reflexivity|assumption]|]). destruct got; cbn; auto 10. }
  destruct src as [|x src0].
  { exists (if negb (q_disc q) && got then RSuccess else RBlock), q, [], os, [], (q_buf q). cbn [receive]. rewrite set_buf_self, !app_nil_r, QD. repeat (split; [first [reflexivity|assumption]|]). destruct got; cbn; auto 10. }
  cbn [receive]. set (src := x :: src0) in *.
  assert (LP : 0 < lunuse_len (q_buf q)).
  { destruct (wf_last _ W) as (pre & l & E & Wp & Wl & L). unfold lunuse_len. rewrite L. destruct Wl as (_ & Wl & _). lia. }
  set (d := firstn (Nat.min (S k) (lunuse_len (q_buf q))) src).
  assert (LD : length d <= lunuse_len (q_buf q)) by (unfold d; rewrite firstn_length; lia).
  assert (DN : d <> []). { unfold d, src. destruct (Nat.min (S k) (lunuse_len (q_buf q))) eqn:EM; [lia|]. discriminate. }
  set (src' := skipn (length d) src). assert (ED : src = d ++ src') by apply taken.
  assert (LS : length src = length d + length src') by (rewrite ED at 1; apply app_length).
  destruct (recv_ok (fresh (b_per (write_last (q_buf q) d)) junk) (q_buf q) d W) as (b2 & B2 & W2 & S2 & R2 & M2 & P2 & O2).
  { rewrite fresh_length. reflexivity. } { exact LD. } { lia. }
  destruct d as [|d0 d1] eqn:ED0; [contradiction|]. rewrite <- ED0 in *. rewrite QS, QH, QD. cbn [obind orb]. rewrite B2. cbn [obind].
  assert (QE : set_flags q true true = q) by (destruct q; cbn in *; subst; reflexivity). rewrite QE.
  destruct (IH (set_buf q b2) src' true) as (st & q' & src2 & os' & d2 & b' & R1 & E1 & -> & W' & S' & R' & ST); cbn [set_buf q_sl q_hd q_disc q_buf]; auto; [lia|].
  exists st, (set_buf (set_buf q b2) b'), src2, os', (d ++ d2), b'. split; [exact R1|]. split; [rewrite ED, E1, app_assoc; reflexivity|]. split; [reflexivity|]. split; [exact W'|].
  split; [cbn [set_buf q_buf] in S'; rewrite S', S2, app_assoc; reflexivity|]. split; [exact R'|]. destruct ST as [->|(_ & _ & G & _)]; [auto|discriminate].
Qed.

(** ** Discarding a body *)
Definition spare (b : buffer) : Prop := exists pre c, b_chains b = pre ++ [c] /\ 0 < c_unuse c /\ c_unuse c <= length (c_data c).
Lemma wf_spare b : wf b -> spare b.
Proof.
  intros W. destruct (wf_last b W) as (pre & l & E & Wp & Wl & L). exists pre, l. split; [exact E|]. destruct Wl as (Wc & Wl & _). unfold c_len in *. lia.
Qed.
Lemma map_last_app f pre c : map_last f (pre ++ [c]) = pre ++ [f c].
Proof. induction pre as [|a pre IH]; [reflexivity|]. cbn [app]. destruct pre as [|a' pre]; [reflexivity|]. cbn [map_last app] in *. rewrite IH. reflexivity. Qed.
Lemma last_opt_app (pre : list chain) c : last_opt (pre ++ [c]) = Some c.
Proof. induction pre as [|a pre IH]; [reflexivity|]. destruct pre; [reflexivity|]. exact IH. Qed.
Lemma spare_lunuse b : spare b -> 0 < lunuse_len b.
Proof. intros (pre & c & E & A & B). unfold lunuse_len. rewrite E, last_opt_app. exact A. Qed.
Lemma spare_reset b d : spare b -> length d <= lunuse_len b -> spare (reset_last (write_last b d)).
Proof.
  intros (pre & c & E & A & B) L. unfold lunuse_len in L. rewrite E, last_opt_app in L. unfold reset_last, write_last. cbn [b_chains]. rewrite E, map_last_app. cbn [b_chains]. rewrite map_last_app.
  eexists pre, _. split; [reflexivity|]. cbn [c_unuse c_data c_use]. unfold c_len. cbn [c_data].
  assert (LW : length (write_at (c_data c) (c_written c) d) = length (c_data c)).
  { unfold write_at, c_written, c_len. rewrite !app_length, firstn_length, skipn_length. lia. }
  rewrite LW. lia.
Qed.
Lemma receive_discard : forall os q src got, q_sl q = true -> q_hd q = true -> q_disc q = true -> spare (q_buf q) ->
  exists q' src' os' d b', receive q src false os got = Ok (RBlock, q', src', os') /\ src = d ++ src' /\ q' = add_dlen (set_buf q b') (length d) /\ spare b'.
Proof.
  induction os as [|(k, junk) os IH]; intros q src got QS QH QD W.
  { exists q, src, [], [], (q_buf q). rewrite set_buf_self. cbn [receive]. rewrite QD. cbn. repeat (split; [first [reflexivity|assumption]|]). split; [|exact W]. destruct q. unfold add_dlen. cbn. rewrite Z.add_0_r. reflexivity. }
  destruct src as [|x src0].
  { exists q, [], os, [], (q_buf q). rewrite set_buf_self. cbn [receive]. rewrite QD. cbn. repeat (split; [first [reflexivity|assumption]|]). split; [|exact W]. destruct q. unfold add_dlen. cbn. rewrite Z.add_0_r. reflexivity. }
  cbn [receive]. set (src := x :: src0) in *. pose proof (spare_lunuse _ W) as LP.
  set (d := firstn (Nat.min (S k) (lunuse_len (q_buf q))) src).
  assert (LD : length d <= lunuse_len (q_buf q)) by (unfold d; rewrite firstn_length; lia).
  assert (DN : d <> []). { unfold d, src. destruct (Nat.min (S k) (lunuse_len (q_buf q))) eqn:EM; [lia|]. discriminate. }
  set (src' := skipn (length d) src). assert (ED : src = d ++ src') by apply taken.
  destruct d as [|d0 d1] eqn:ED0; [contradiction|]. rewrite <- ED0 in *. rewrite QS, QH, QD. cbn [obind orb].
  assert (QE : set_flags q true true = q) by (destruct q; cbn in *; subst; reflexivity). rewrite QE.
  destruct (IH (add_dlen (set_buf q (reset_last (write_last (q_buf q) d))) (length d)) src' true) as (q' & src2 & os' & d2 & b' & R1 & E1 & -> & W'); cbn [add_dlen set_buf q_sl q_hd q_disc q_buf]; auto using spare_reset.
  eexists _, src2, os', (d ++ d2), b'. split; [exact R1|]. split; [rewrite ED, E1, app_assoc; reflexivity|]. split; [|exact W'].
  destruct q. unfold add_dlen, set_buf. cbn. rewrite app_length. f_equal. lia.
Qed.

Section FLOW.
Variables (e : env) (per : nat) (l : list N) (r : reqline) (fs : list field) (payload : list N).
Notation mx := (connect_chain_max (e_max e) per).
Definition text : list N := l ++ CRLF ++ section fs.
Definition sent : list N := text ++ payload.
Hypotheses (NL : ~ In 10%N l) (PR : parse_reqline (l ++ CRLF) = Ok (Some r)) (LEN : (Z.of_nat (length l + 2) < 8000)%Z).
Hypotheses (FS : Forall field_ok fs) (NE : fs <> []) (FIT : length text < per) (CAP0 : per < mx * per \/ length sent < mx * per).

Lemma line_good : line_ok l.
Proof.
  destruct (reqline_sound (l ++ CRLF)) as (o & E & PO). rewrite PR in E. injection E as <-. destruct PO as (m & path & q & v & FL & _).
  destruct (fly_line_split _ _ _ _ _ FL) as (x & rest & EX & CX). destruct (no_lf_split _ _ _ NL CX EX) as [-> ->]. split; [|exact CX].
  intros ->. vm_compute in PR. discriminate.
Qed.
Lemma fields_good : Forall line_ok (map field_line fs).
Proof. apply Forall_map. eapply Forall_impl; [|exact FS]. intros f. apply field_line_ok. Qed.
Lemma mx_pos : 1 <= mx. Proof. unfold connect_chain_max. apply Nat.le_add_l. Qed.

Definition use (s : bool) : nat := if s then length l + 2 else 0.
Definition stop (s : bool) : nat := if s then length text else length l + 2.
Definition lines (s : bool) : list (list N) := if s then map field_line fs else l :: map field_line fs.
Lemma lines_good s : Forall line_ok (lines s) /\ lines s <> [].
Proof.
  destruct s; cbn [lines]; split; try discriminate.
  - apply fields_good.
  - destruct fs; [contradiction|discriminate].
  - constructor; [apply line_good|apply fields_good].
Qed.
Lemma sent_lines s : skipn (use s) sent = lines_text (lines s) ++ CRLF ++ payload.
Proof.
  unfold sent, text. rewrite section_lines. destruct s; cbn [use lines].
  - rewrite <- !app_assoc. rewrite app_assoc. rewrite skipn_app. rewrite skipn_all2 by (rewrite app_length; cbn; lia). rewrite app_length. cbn [CRLF length app].
    replace (length l + 2 - (length l + 2)) with 0 by lia. reflexivity.
  - cbn [skipn]. unfold lines_text. cbn [flat_map]. rewrite <- !app_assoc. reflexivity.
Qed.
Lemma lines_length s : length (lines_text (lines s)) + 2 + use s = length text.
Proof.
  unfold text. rewrite section_lines, !app_length. destruct s; cbn [use lines CRLF length]; [lia|]. rewrite lines_len. lia.
Qed.
Lemma stop_text s : use s < stop s /\ stop s <= length text /\ length l + 2 <= stop s.
Proof. pose proof (lines_length true). cbn [use] in *. destruct s; cbn [use stop]; lia. Qed.

(** The two scans after [d] was written behind the bytes received so far. *)
Lemma scans s rcv tail d src : sent = (rcv ++ d) ++ src -> length rcv + length tail = per -> tail <> [] -> use s <= length rcv -> length d <= length tail -> ~ In 10%N tail ->
  (s = false -> exists x, strstr_after (write_last (one mx per rcv tail (use s)) d) [13; 10]%N = Ok x /\ is_some x = (length l + 2 <=? length (rcv ++ d))) /\
  (exists x, strstr_after (write_last (one mx per rcv tail (use s)) d) [13; 10; 13; 10]%N = Ok x /\ is_some x = (length text <=? length (rcv ++ d))).
Proof.
  intros E L TN U LD NT. pose proof (one_write_wf mx per rcv tail (use s) L TN U mx_pos d LD) as W.
  pose proof (one_write_mem mx per rcv tail (use s) L U mx_pos d LD) as M.
  assert (LM : length (mem (b_chains (write_last (one mx per rcv tail (use s)) d))) + use s = per).
  { rewrite M, app_length, !skipn_length, app_length. lia. }
  assert (NT' : ~ In 10%N (skipn (length d) tail)). { intros I. apply NT. rewrite <- (firstn_skipn (length d) tail). apply in_or_app. auto. }
  pose proof (prefix_firstn _ _ _ E) as P.
  assert (LP : length (rcv ++ d) <= length sent) by (rewrite E, (app_length (rcv ++ d)); lia).
  pose proof (stop_text s) as ST. split.
  - intros ->. cbn [use] in *. cbn [skipn] in M. apply (scan_line _ l (section fs ++ payload) (skipn (length d) tail)); auto.
    + apply line_good.
    + rewrite M. f_equal. rewrite P at 1. f_equal. unfold sent, text. rewrite <- !app_assoc. reflexivity.
    + unfold sent, text in LP. rewrite <- !app_assoc in LP. exact LP.
    + lia.
  - pose proof (lines_length s) as LL. destruct (lines_good s) as (LG & LN).
    destruct (scan_lines (write_last (one mx per rcv tail (use s)) d) (lines s) payload (skipn (length d) tail) (length (rcv ++ d) - use s) W LG LN) as (x & X1 & X2).
    + rewrite M. f_equal. rewrite P at 1. rewrite <- sent_lines. rewrite firstn_skipn_swap. f_equal. f_equal. rewrite app_length. lia.
    + rewrite <- sent_lines, skipn_length. lia.
    + exact NT'.
    + lia.
    + exists x. split; [exact X1|]. rewrite X2. rewrite <- LL. rewrite app_length in *. destruct (Nat.leb_spec (length (lines_text (lines s)) + 2) (length rcv + length d - use s)); destruct (Nat.leb_spec (length (lines_text (lines s)) + 2 + use s) (length rcv + length d)); try reflexivity; lia.
Qed.

Definition clean1 (s : bool) (rcv : list N) (b : buffer) : Prop :=
  exists tail, b = one mx per rcv tail (use s) /\ length rcv + length tail = per /\ ~ In 10%N tail.
Definition got_buf (s : bool) (rcv : list N) (b : buffer) : Prop :=
  wf b /\ stream b = skipn (use s) rcv /\ first_off b = use s /\ room b + length rcv = mx * per /\ b_max b = mx /\ b_per b = per /\ (length rcv < length text -> clean1 s rcv b).
Lemma tail_nonempty s (rcv tail : list N) : length rcv + length tail = per -> length rcv < stop s -> tail <> [].
Proof. intros L S ->. pose proof (stop_text s). cbn in L. lia. Qed.
Lemma receive_scan s : forall os q rcv src got, q_sl q = s -> q_hd q = false -> q_disc q = false -> clean1 s rcv (q_buf q) -> sent = rcv ++ src ->
  use s <= length rcv -> length rcv < stop s ->
  exists st q' src' os' rcv', receive q src false os got = Ok (st, q', src', os') /\ sent = rcv' ++ src' /\ use s <= length rcv' /\
    ((length rcv' < stop s /\ (st = RBlock \/ st = RSuccess) /\ exists b', q' = set_buf q b' /\ clean1 s rcv' b') \/
     (st = RSuccess /\ stop s <= length rcv' /\ exists b', q' = set_buf (set_flags q true (length text <=? length rcv')) b' /\ got_buf s rcv' b')).
Proof.
  induction os as [|(k, junk) os IH]; intros q rcv src got QS QH QD QB E U SS.
  { exists (if negb (q_disc q) && got then RSuccess else RBlock), q, src, [], rcv. split; [reflexivity|]. split; [exact E|]. split; [exact U|]. left. split; [exact SS|].
    split; [destruct (negb (q_disc q) && got); auto|]. exists (q_buf q). rewrite set_buf_self. auto. }
  destruct src as [|x src0].
  { exists (if negb (q_disc q) && got then RSuccess else RBlock), q, [], os, rcv. split; [reflexivity|]. split; [exact E|]. split; [exact U|]. left. split; [exact SS|].
    split; [destruct (negb (q_disc q) && got); auto|]. exists (q_buf q). rewrite set_buf_self. auto. }
  cbn [receive]. destruct QB as (tail & QB & LT & NT). pose proof (tail_nonempty s rcv tail LT SS) as TN. pose proof (tail_pos mx per rcv tail (use s) LT TN U mx_pos) as TP.
  rewrite QB. change (lunuse_len (one mx per rcv tail (use s))) with (length tail).
  set (src := x :: src0) in *. set (d := firstn (Nat.min (S k) (length tail)) src).
  assert (LD : length d <= length tail) by (unfold d; rewrite firstn_length; lia).
  assert (DN : d <> []). { unfold d, src. destruct (Nat.min (S k) (length tail)) eqn:EM; [lia|]. discriminate. }
  set (src' := skipn (length d) src).
  assert (ED : src = d ++ src') by apply taken.
  assert (E' : sent = (rcv ++ d) ++ src') by (rewrite <- app_assoc, <- ED; exact E).
  destruct (scans s rcv tail d src' E' LT TN U LD NT) as (SC1 & x2 & SC2 & SC2').
  assert (G1 : exists sl, (if q_sl q then Ok false else obind (strstr_after (write_last (one mx per rcv tail (use s)) d) [13; 10]%N) (fun r => Ok (is_some r))) = Ok sl /\
     sl = (negb s && (length l + 2 <=? length (rcv ++ d)))).
  { rewrite QS. destruct s; [eexists; split; reflexivity|]. destruct (SC1 eq_refl) as (x1 & -> & X). cbn [obind negb andb]. eauto. }
  destruct G1 as (sl & -> & SL). cbn [obind]. rewrite QH, SC2. cbn [obind orb]. rewrite SC2', QD.
  assert (W : wf (one mx per rcv tail (use s))) by (apply one_wf; auto using mx_pos).
  pose proof (one_room mx per rcv tail (use s) LT TN U mx_pos) as RM.
  assert (LS : length sent = length rcv + length d + length src') by (rewrite E', !app_length; lia).
  destruct (recv_ok (fresh (b_per (write_last (one mx per rcv tail (use s)) d)) junk) (one mx per rcv tail (use s)) d W) as (b2 & B2 & W2 & S2 & R2 & M2 & P2 & O2).
  { rewrite fresh_length. reflexivity. } { exact LD. } { lia. }
  destruct d as [|d0 d1] eqn:ED0; [contradiction|]. rewrite <- ED0 in *. rewrite B2. cbn [obind].
  assert (STOP : (sl || (length text <=? length (rcv ++ d))) = (stop s <=? length (rcv ++ d))).
  { rewrite SL. pose proof (stop_text s) as (A1 & A2 & A3). destruct s; cbn [stop negb andb orb] in *; [reflexivity|].
    destruct (Nat.leb_spec (length l + 2) (length (rcv ++ d))); [reflexivity|]. cbn [orb]. apply Nat.leb_gt. lia. }
  rewrite STOP. clear STOP.
  assert (ONE : length (rcv ++ d) < length text -> clean1 s (rcv ++ d) b2).
  { intros G. rewrite app_length in G. assert (LD' : length d < length tail) by lia. rewrite (one_append mx per rcv tail (use s) LT U mx_pos d LD) in B2 by exact LD'. injection B2 as <-.
    exists (skipn (length d) tail). split; [reflexivity|]. split; [rewrite app_length, skipn_length; lia|]. intros I. apply NT. rewrite <- (firstn_skipn (length d) tail). apply in_or_app. auto. }
  destruct (Nat.leb_spec (stop s) (length (rcv ++ d))) as [G|G].
  - exists RSuccess, (set_buf (set_flags q true (length text <=? length (rcv ++ d))) b2), src', os, (rcv ++ d).
    assert (QSL : q_sl q || sl = true).
    { rewrite QS, SL. destruct s; cbn [orb negb andb]; [reflexivity|]. apply Nat.leb_le. exact G. }
    rewrite QSL. split; [reflexivity|]. split; [exact E'|]. split; [rewrite app_length; lia|]. right. split; [reflexivity|]. split; [exact G|]. exists b2. split; [reflexivity|].
    split; [exact W2|]. split; [rewrite S2, (one_stream mx per rcv tail (use s) LT U mx_pos), skipn_app; replace (use s - length rcv) with 0 by lia; reflexivity|].
    split; [rewrite O2; reflexivity|]. split; [rewrite R2, app_length; lia|]. split; [rewrite M2; reflexivity|]. split; [rewrite P2; reflexivity|]. exact ONE.
  - pose proof (stop_text s) as (A1 & A2 & A3).
    assert (HF : (length text <=? length (rcv ++ d)) = false) by (apply Nat.leb_gt; lia).
    assert (SF : sl = false). { rewrite SL. destruct s; [reflexivity|]. cbn [negb andb stop] in *. apply Nat.leb_gt. exact G. }
    rewrite HF, SF, orb_false_r.
    assert (QE : set_flags q (q_sl q) false = q) by (destruct q; cbn in *; subst; reflexivity). rewrite QE.
    destruct (IH (set_buf q b2) (rcv ++ d) src' true) as (st & q' & src2 & os' & rcv' & R1 & R2' & R3 & R4); cbn [set_buf q_sl q_hd q_disc q_buf]; auto.
    + apply ONE. lia.
    + rewrite app_length. lia.
    + exists st, q', src2, os', rcv'. split; [exact R1|]. split; [exact R2'|]. split; [exact R3|].
      destruct R4 as [(Q1 & Q2 & b' & -> & Q4)|(Q1 & Q2 & b' & -> & Q4)]; [left|right]; (split; [assumption|]); (split; [assumption|]); exists b'; (split; [reflexivity|assumption]).
Qed.

(** ** The request line and the header have arrived *)
Notation ci := (mkHci (map delivered fs) (length fs)).
Hypothesis (VER : l_version r = Some V1_1).
Variables (a : option (option N)) (n : nat) (ex : bool).
Hypotheses (AC : accept_phase ci = Ok a) (CL : content_length ci = Ok (Z.of_nat n)) (NB : (Z.of_nat n < 2 ^ 64)%Z)
           (EX : check_expect_100 ci = Ok ex) (CE : content_encoding ci = Ok None) (CAP : a = None -> ex = false -> n <> 0 -> n <= e_max e -> length sent < mx * per).
(** What is decided about the request, and how many bytes it takes. *)
Definition decision : outcome seen :=
  match a with
  | Some (Some k) => Ok (SStatus k)
  | Some None => Ok SError
  | None =>
    if n =? 0 then final e r ci None
    else if ex then Ok (SStatus (if e_max e <? n then 417%N else 100%N))
    else if e_max e <? n then Ok (SStatus 413)
    else final e r ci (Some (firstn n payload))
  end.
Definition need : nat := length text + match a with None => if ex then 0 else n | _ => 0 end.
Definition WL (rcv : list N) (q : req) : Prop :=
  (q_phase q = PInit \/ q_phase q = PLine) /\ q_sl q = false /\ q_hd q = false /\ q_disc q = false /\ q_body q = None /\ q_dlen q = 0%Z /\ clean1 false rcv (q_buf q) /\ length rcv < length l + 2.
Definition WH (rcv : list N) (q : req) : Prop :=
  q_phase q = PHeader /\ q_sl q = true /\ q_hd q = false /\ q_disc q = false /\ q_body q = None /\ q_dlen q = 0%Z /\ q_line q = Some r /\ clean1 true rcv (q_buf q) /\
  length l + 2 <= length rcv < length text.
Definition WB (rcv src : list N) (q : req) : Prop :=
  q_phase q = PBody /\ q_sl q = true /\ q_hd q = true /\ q_disc q = false /\ q_body q = None /\ q_line q = Some r /\ q_hdr q = ci /\
  wf (q_buf q) /\ stream (q_buf q) = skipn (length text) rcv /\ length src < room (q_buf q) /\ length text <= length rcv /\
  a = None /\ n <> 0 /\ ex = false /\ n <= e_max e.
Definition WD (rcv : list N) (q : req) : Prop :=
  q_phase q = PBody /\ q_sl q = true /\ q_hd q = true /\ q_disc q = true /\ q_line q = Some r /\ q_hdr q = ci /\ spare (q_buf q) /\
  q_dlen q = Z.of_nat (length rcv - length text) /\ length text <= length rcv /\ a = None /\ n <> 0 /\ ex = false /\ e_max e < n.
Definition Inv (rcv src : list N) (q : req) : Prop := sent = rcv ++ src /\ length rcv < need /\ (WL rcv q \/ WH rcv q \/ WB rcv src q \/ WD rcv q).
Definition turned (o : outcome (verdict * list N)) : Prop :=
  (exists rcv q src, o = Ok (VWait q, src) /\ Inv rcv src q) \/
  (exists rcv src v s, sent = rcv ++ src /\ need <= length rcv /\ o = Ok (v, src) /\ decision = Ok s /\ view v = s /\ settled r ci v) \/
  (exists u, o = UB u /\ decision = UB u).

Lemma size_n : size_t (Z.of_nat n) = Z.of_nat n.
Proof. unfold size_t. apply Z.mod_small. lia. Qed.
Lemma respond_ok q v : q_line q = Some r -> respond q v = Ok v.
Proof. intros H. unfold respond. rewrite H, VER. reflexivity. Qed.
Lemma use_len b : wf b -> b_use_len b = length (stream b).
Proof. intros (_ & _ & _ & U & _). exact U. Qed.
Lemma discard_ok q rcv src os : sent = rcv ++ src -> q_phase q = PBody -> q_sl q = true -> q_hd q = true -> q_line q = Some r -> q_hdr q = ci -> spare (q_buf q) ->
  q_dlen q = Z.of_nat (length rcv - length text) -> length text <= length rcv -> a = None -> n <> 0 -> ex = false -> e_max e < n ->
  turned (discard q (Z.of_nat n) src false os).
Proof.
  intros E QP QS QH QL QC SP QD TR A0 N0 E0 OV. assert (ND : need = length text + n) by (unfold need; rewrite A0, E0; reflexivity).
  assert (DE : decision = Ok (SStatus 413)).
  { unfold decision. rewrite A0, E0. apply Nat.eqb_neq in N0. rewrite N0. replace (e_max e <? n) with true by (symmetry; apply Nat.ltb_lt; exact OV). reflexivity. }
  assert (RR : mkReqline (l_method r) (l_uri r) (l_query r) (Some V1_1) = r) by (rewrite <- VER; destruct r; reflexivity).
  unfold discard. cbn [set_disc q_dlen]. rewrite QD. destruct (Z.leb_spec (Z.of_nat n) (Z.of_nat (length rcv - length text))) as [G|G].
  - right; left. exists rcv, src. do 2 eexists. split; [exact E|]. split; [lia|]. split; [reflexivity|]. split; [exact DE|]. split; [reflexivity|]. split; [reflexivity|]. cbn [set_line set_disc add_dlen set_buf q_line q_hdr]. rewrite QL, RR. split; [reflexivity|exact QC].
  - destruct (receive_discard os (set_disc q true) src false) as (q' & src' & os' & d & b' & R & ES & -> & SP'); cbn [set_disc q_sl q_hd q_disc q_buf]; auto. rewrite R. cbn [obind].
    assert (E' : sent = (rcv ++ d) ++ src') by (rewrite <- app_assoc, <- ES; exact E).
    cbn [add_dlen set_buf set_disc q_dlen]. rewrite QD.
    replace (Z.of_nat (length rcv - length text) + Z.of_nat (length d))%Z with (Z.of_nat (length (rcv ++ d) - length text)) by (rewrite app_length; lia).
    destruct (Z.ltb_spec (Z.of_nat (length (rcv ++ d) - length text)) (Z.of_nat n)) as [G2|G2].
    + left. exists (rcv ++ d). do 2 eexists. split; [reflexivity|]. split; [exact E'|]. split; [rewrite app_length in *; lia|]. right; right; right.
      unfold WD. cbn [add_dlen set_buf set_disc q_phase q_sl q_hd q_disc q_line q_hdr q_buf q_dlen]. repeat (split; [first [assumption|reflexivity]|]).
      split; [rewrite QD, app_length; lia|]. split; [rewrite app_length; lia|]. auto.
    + right; left. exists (rcv ++ d), src'. do 2 eexists. split; [exact E'|]. split; [rewrite app_length in *; lia|]. split; [reflexivity|]. split; [exact DE|]. split; [reflexivity|]. split; [reflexivity|]. cbn [set_line set_disc add_dlen set_buf q_line q_hdr]. rewrite QL, RR. split; [reflexivity|exact QC].
Qed.
Lemma done_turned e0 q0 rcv src : sent = rcv ++ src -> need <= length rcv ->
  ((exists v s, e0 = Ok v /\ q0 = Ok s /\ view v = s /\ settled r ci v) \/ (exists u, e0 = UB u /\ q0 = UB u)) -> decision = q0 ->
  turned (obind e0 (fun v => Ok (v, src))).
Proof.
  intros E ND [(v & s & -> & -> & V & W)|(u & -> & ->)] D.
  - right; left. exists rcv, src, v, s. cbn [obind]. auto 10.
  - right; right. exists u. auto.
Qed.
Lemma body_ok q rcv src os : sent = rcv ++ src -> q_sl q = true -> q_hd q = true -> q_line q = Some r -> q_hdr q = ci -> q_body q = None ->
  wf (q_buf q) -> stream (q_buf q) = skipn (length text) rcv -> (ex = false -> n <= e_max e -> length src < room (q_buf q)) -> length text <= length rcv -> q_disc q = false ->
  (e_max e < n -> q_dlen q = Z.of_nat (length rcv - length text)) -> a = None -> n <> 0 -> turned (body_phase e q src false os).
Proof.
  intros E QS QH QL QC QB W SB RM TR QD DL A0 N0. unfold body_phase. cbn [set_phase q_hdr]. rewrite QC, CL. cbn [obind]. rewrite size_n, EX. cbn [obind].
  pose proof (Nat.eqb_neq n 0) as (_ & NB0). specialize (NB0 N0).
  assert (OV : (Z.of_nat (e_max e) <? Z.of_nat n)%Z = (e_max e <? n)). { destruct (Nat.ltb_spec (e_max e) n); [apply Z.ltb_lt|apply Z.ltb_ge]; lia. } rewrite OV.
  assert (TL : length (stream (q_buf q)) = length rcv - length text) by (rewrite SB, skipn_length; reflexivity).
  assert (EXC : ex = true \/ ex = false) by (destruct ex; auto). destruct EXC as [E0|E0]; rewrite E0.
  { right; left. exists rcv, src. rewrite respond_ok by exact QL. do 2 eexists. split; [exact E|]. split; [unfold need; rewrite A0, E0; lia|]. split; [reflexivity|].
    split; [unfold decision; rewrite A0, NB0, E0; reflexivity|]. split; [reflexivity|]. split; [reflexivity|split; assumption]. }
  destruct (Nat.ltb_spec (e_max e) n) as [G|G].
  { apply (discard_ok _ rcv); cbn [set_phase q_phase q_sl q_hd q_line q_hdr q_buf q_dlen]; auto using wf_spare. }
  assert (ND : need = length text + n) by (unfold need; rewrite A0, E0; reflexivity). specialize (RM E0 G).
  cbn [set_phase q_buf]. rewrite (use_len _ W), TL.
  destruct (Nat.eqb_spec (length rcv - length text) 0) as [Z0|Z0]; cbn [orb].
  { left. exists rcv. do 2 eexists. split; [reflexivity|]. split; [exact E|]. split; [lia|]. right; right; left. unfold WB. cbn [set_phase q_phase q_sl q_hd q_disc q_body q_line q_hdr q_buf]. auto 20. }
  destruct (Z.ltb_spec (Z.of_nat (length rcv - length text)) (Z.of_nat n)) as [G2|G2].
  { left. exists rcv. do 2 eexists. split; [reflexivity|]. split; [exact E|]. split; [lia|]. right; right; left. unfold WB. cbn [set_phase q_phase q_sl q_hd q_disc q_body q_line q_hdr q_buf]. auto 20. }
  rewrite CE. cbn [obind]. pose proof W as (W0 & _). pose proof (ptr_at_0 _ _ _ W0) as P0. destruct (b_chains (q_buf q)) as [|c t] eqn:BC; [destruct P0|].
  rewrite Nat2Z.id. rewrite (BufferProofs.memcpy_spec (q_buf q) 0 0 (c_use c) n W); [|rewrite BC; exact P0|lia]. cbn [obind skipn].
  destruct (release_spec (q_buf q) n W) as (b' & R & W' & SB' & _); [lia|]. rewrite R. cbn [obind].
  assert (BD : firstn n (stream (q_buf q)) = firstn n payload).
  { rewrite SB. assert (P : payload = skipn (length text) rcv ++ src).
    { assert (X : skipn (length text) sent = payload) by (unfold sent; rewrite skipn_app, skipn_all, Nat.sub_diag; reflexivity). rewrite <- X, E, skipn_app. replace (length text - length rcv) with 0 by lia. reflexivity. }
    rewrite P, firstn_app. rewrite skipn_length. replace (n - (length rcv - length text)) with 0 by lia. cbn [firstn]. rewrite app_nil_r. reflexivity. }
  rewrite BD. eapply (done_turned _ (final e r ci (Some (firstn n payload))) rcv src E); [lia| |].
  - apply final_ok; auto.
  - unfold decision. rewrite A0, NB0, E0. replace (e_max e <? n) with false by (symmetry; apply Nat.ltb_ge; exact G). reflexivity.
Qed.
(** After the whole header has been received. *)
Lemma header_ok q rcv src os : sent = rcv ++ src -> q_sl q = true -> q_hd q = true -> q_line q = Some r -> q_body q = None -> q_disc q = false -> q_dlen q = 0%Z ->
  got_buf true rcv (q_buf q) -> length text <= length rcv -> turned (header_phase e q src false os).
Proof.
  intros E QS QH QL QB QD DL (W & SB & OF & RM & MX & PB & _) TR. unfold header_phase. cbn [set_phase q_hd q_buf]. rewrite QH. cbn [negb].
  assert (SS : stream (q_buf q) = section fs ++ skipn (length text) rcv).
  { rewrite SB. pose proof (prefix_firstn _ _ _ E) as P. rewrite P at 1. unfold sent, text. rewrite <- !app_assoc. rewrite (app_assoc l). cbn [use].
    rewrite firstn_app_ge by (unfold text in TR; rewrite !app_length in *; lia). rewrite skipn_app. rewrite skipn_all2 by (rewrite app_length; cbn; lia). rewrite app_length. change (length CRLF) with 2. rewrite Nat.sub_diag. cbn [skipn app].
    rewrite firstn_app_ge by (unfold text in TR; rewrite !app_length in TR; cbn in TR; lia). f_equal.
    assert (X : sent = rcv ++ src) by exact E. unfold sent in X. pose proof (f_equal (skipn (length text)) X) as Y. rewrite skipn_app, skipn_all, Nat.sub_diag in Y. cbn [skipn app] in Y.
    rewrite skipn_app in Y. replace (length text - length rcv) with 0 in Y by lia. cbn [skipn] in Y. rewrite Y.
    replace (length rcv - (length l + 2) - length (section fs)) with (length (skipn (length text) rcv)) by (rewrite skipn_length; unfold text; rewrite !app_length; cbn; lia).
    rewrite firstn_app, firstn_all, Nat.sub_diag. cbn [firstn]. apply app_nil_r. }
  assert (TX : length text = length l + 2 + length (section fs)) by (unfold text; rewrite !app_length; cbn; lia).
  rewrite (use_len _ W). assert (SL : 2 <= length (section fs)) by (unfold section; rewrite app_length; cbn; lia).
  destruct (Nat.eqb_spec (length (stream (q_buf q))) 0) as [Z0|Z0]; [rewrite SS, app_length in Z0; lia|].
  destruct (header_delivered fs (q_buf q) (skipn (length text) rcv) W FS SS) as (b' & R & W' & SB' & RM' & MX' & PB'); [rewrite OF, PB; cbn [use]; lia|].
  rewrite R. cbn [obind]. rewrite AC. cbn [obind].
  assert (LS : length sent = length rcv + length src) by (rewrite E, app_length; reflexivity).
  assert (AA : (exists k, a = Some (Some k)) \/ a = Some None \/ a = None) by (destruct a as [[k|]|]; eauto). destruct AA as [(k & A0)|[A0|A0]]; rewrite A0.
  - right; left. exists rcv, src. rewrite respond_ok by exact QL. do 2 eexists. split; [exact E|]. split; [unfold need; rewrite A0; lia|]. split; [reflexivity|].
    split; [unfold decision; rewrite A0; reflexivity|]. split; [reflexivity|]. split; [reflexivity|split; [exact QL|reflexivity]].
  - right; left. exists rcv, src. do 2 eexists. split; [exact E|]. split; [unfold need; rewrite A0; lia|]. split; [reflexivity|].
    split; [unfold decision; rewrite A0; reflexivity|]. split; [reflexivity|]. split; [reflexivity|exact Logic.I].
  - rewrite CL. cbn [obind]. destruct (Z.eqb_spec (Z.of_nat n) 0) as [N0|N0].
    + eapply (done_turned _ (final e r ci None) rcv src E).
      * unfold need. rewrite A0. destruct ex; lia.
      * apply final_ok; auto.
      * unfold decision. rewrite A0. replace (n =? 0) with true by (symmetry; apply Nat.eqb_eq; lia). reflexivity.
    + apply (body_ok _ rcv src os E); cbn [add_dlen set_buf set_hdr set_phase q_sl q_hd q_line q_hdr q_body q_buf q_disc q_dlen]; auto.
      * intros E0 G. assert (LC : length sent < mx * per) by (apply CAP; auto; lia). lia.
      * intros _. rewrite DL, (use_len _ W'), SB', skipn_length. reflexivity.
      * lia.
Qed.
(** After the request line has been received, and perhaps more. *)
Lemma line_accepted rcv src b : sent = rcv ++ src -> got_buf false rcv b -> length l + 2 <= length rcv ->
  exists b', request_operation b = Ok (Accepted r b') /\ got_buf true rcv b'.
Proof.
  intros E (W & SB & OF & RM & MX & PB & CB) LR. cbn [use skipn] in *.
  assert (TX : length text = length l + 2 + length (section fs)) by (unfold text; rewrite !app_length; cbn; lia).
  assert (SS : exists more, rcv = l ++ CRLF ++ more).
  { pose proof (prefix_firstn _ _ _ E) as P. unfold sent, text in P. rewrite <- !app_assoc in P. rewrite firstn_app_ge in P by lia. rewrite firstn_app_ge in P by (cbn; lia). eauto. }
  destruct SS as (more & SS). rewrite SS in SB at 1. destruct (accepted_release b l r more NL PR LEN W SB) as (b' & OP & RL). exists b'. split; [exact OP|].
  assert (LSB : length (stream b) = length rcv) by (rewrite SB, SS; reflexivity).
  destruct (release_first b (length l + 2) W) as (b2 & R2 & W2 & S2 & O2 & RM2 & MX2 & PB2); [rewrite OF, PB; lia|lia|]. rewrite RL in R2. injection R2 as <-.
  split; [exact W2|]. split; [rewrite S2, SB, SS; reflexivity|]. split; [rewrite O2, OF; reflexivity|]. split; [lia|]. split; [congruence|]. split; [congruence|].
  intros LT. destruct (CB LT) as (tail & BE & LTL & NT). cbn [use] in BE. rewrite BE in RL. rewrite release_one in RL; [|exact LTL| |cbn; lia].
  - injection RL as <-. exists tail. auto.
  - intros ->. cbn in LTL. lia.
Qed.
Lemma line_waits rcv src b : sent = rcv ++ src -> clean1 false rcv b -> length rcv < length l + 2 -> request_operation b = Ok NotReady.
Proof.
  intros E (tail & -> & LT & NT) LR. cbn [use]. pose proof (stop_text true) as ST. cbn [use stop] in ST.
  assert (TN : tail <> []) by (intros ->; cbn in LT; lia).
  apply operation_none; [apply one_wf; auto using mx_pos; lia|]. rewrite one_mem by (auto using mx_pos; lia). cbn [skipn]. intros j O. apply occurs_nth in O as [O _].
  pose proof (prefix_firstn _ _ _ E) as P. rewrite P in O.
  assert (LP : length rcv <= length sent) by (rewrite E, app_length; lia).
  apply occurs_prefix in O; [|exact LP|discriminate|reflexivity|exact NT]. destruct O as (J & O). cbn [CRLF length] in J.
  destruct line_good as (_ & X). destruct (no_ctl_first l (section fs ++ payload) X) as (_ & F & _). apply (F j); [lia|].
  unfold sent, text in O. rewrite <- !app_assoc in O. exact O.
Qed.
Lemma need_text : length text <= need. Proof. unfold need. lia. Qed.
Lemma turn_ok rcv src q os : Inv rcv src q -> turned (turn e q src false os).
Proof.
  intros (E & ND & IV). pose proof need_text as NT. pose proof (stop_text false) as (ST1 & ST2 & _). pose proof (stop_text true) as (ST3 & _). cbn [use stop] in *. destruct IV as [IV|[IV|[IV|IV]]].
  - destruct IV as (QP & QS & QH & QD & QB & DL & CB & LR). unfold turn. rewrite QD.
    destruct (receive_scan false os q rcv src false QS QH QD CB E) as (st & q' & src' & os' & rcv' & R & E' & _ & RES); [cbn; lia|exact LR|]. rewrite R. cbn [obind].
    destruct RES as [(LR' & ST & b' & -> & CB')|(-> & LR' & b' & -> & GB)]; cbn [stop] in LR'.
    + left. exists rcv'. destruct ST as [->| ->].
      * do 2 eexists. split; [reflexivity|]. split; [exact E'|]. split; [lia|]. left. unfold WL. cbn [set_buf q_phase q_sl q_hd q_disc q_body q_dlen q_buf]. auto 10.
      * cbn [set_buf q_phase]. assert (X : (match q_phase q with PHeader => header_phase e (set_buf q b') src' false os' | PBody => body_phase e (set_buf q b') src' false os' | _ => line_phase e (set_buf q b') src' false os' end) = line_phase e (set_buf q b') src' false os') by (destruct QP as [->| ->]; reflexivity).
        rewrite X. unfold line_phase. cbn [set_phase set_buf q_buf]. rewrite (line_waits rcv' src' b' E' CB' LR'). cbn [obind].
        do 2 eexists. split; [reflexivity|]. split; [exact E'|]. split; [lia|]. left. unfold WL. cbn [set_phase set_buf q_phase q_sl q_hd q_disc q_body q_dlen q_buf]. auto 10.
    + set (q1 := set_buf (set_flags q true (length text <=? length rcv')) b').
      assert (X : (match q_phase q1 with PHeader => header_phase e q1 src' false os' | PBody => body_phase e q1 src' false os' | _ => line_phase e q1 src' false os' end) = line_phase e q1 src' false os') by (unfold q1; cbn [set_buf set_flags q_phase]; destruct QP as [->| ->]; reflexivity).
      rewrite X. unfold line_phase. cbn [set_phase q1 set_buf q_buf]. destruct (line_accepted rcv' src' b' E' GB LR') as (b2 & -> & GB2). cbn [obind].
      destruct (Nat.leb_spec (length text) (length rcv')) as [G|G].
      * apply (header_ok _ rcv'); cbn [set_phase set_line set_buf set_flags q_sl q_hd q_line q_body q_disc q_dlen q_buf]; auto.
      * unfold header_phase. cbn [set_phase set_line set_buf set_flags q_hd negb]. left. exists rcv'. do 2 eexists. split; [reflexivity|]. split; [exact E'|]. split; [lia|].
        right; left. unfold WH. cbn [set_phase set_line set_buf set_flags q_phase q_sl q_hd q_disc q_body q_dlen q_line q_buf]. destruct GB2 as (_ & _ & _ & _ & _ & _ & CB2). auto 12.
  - destruct IV as (QP & QS & QH & QD & QB & DL & QL & CB & LR). unfold turn. rewrite QD.
    destruct (receive_scan true os q rcv src false QS QH QD CB E) as (st & q' & src' & os' & rcv' & R & E' & UR & RES); [cbn; lia|cbn; lia|]. rewrite R. cbn [obind].
    destruct RES as [(LR' & ST & b' & -> & CB')|(-> & LR' & b' & -> & GB)]; cbn [stop use] in *.
    + left. exists rcv'. destruct ST as [->| ->].
      * do 2 eexists. split; [reflexivity|]. split; [exact E'|]. split; [lia|]. right; left. unfold WH. cbn [set_buf q_phase q_sl q_hd q_disc q_body q_dlen q_line q_buf]. auto 12.
      * cbn [set_buf q_phase]. rewrite QP. unfold header_phase. cbn [set_phase set_buf q_hd]. rewrite QH. cbn [negb]. 
        do 2 eexists. split; [reflexivity|]. split; [exact E'|]. split; [lia|]. right; left. unfold WH. cbn [set_phase set_buf q_phase q_sl q_hd q_disc q_body q_dlen q_line q_buf]. auto 12.
    + replace (length text <=? length rcv') with true by (symmetry; apply Nat.leb_le; exact LR'). cbn [set_buf set_flags q_phase]. rewrite QP.
      apply (header_ok _ rcv'); cbn [set_phase set_line set_buf set_flags q_sl q_hd q_line q_body q_disc q_dlen q_buf]; auto.
  - destruct IV as (QP & QS & QH & QD & QB & QL & QC & W & SB & RM & TR & A0 & N0 & E0 & OV). unfold turn. rewrite QD.
    destruct (receive_body os q src false QS QH QD W RM) as (st & q' & src' & os' & d & b' & R & ES & -> & W' & S' & RM' & ST). rewrite R. cbn [obind].
    destruct ST as [->|(-> & -> & _ & ->)].
    + cbn [set_buf q_phase]. rewrite QP. apply (body_ok _ (rcv ++ d)); cbn [set_buf q_sl q_hd q_line q_hdr q_body q_buf q_disc q_dlen]; auto.
      * rewrite <- app_assoc, <- ES. exact E.
      * rewrite S', SB, skipn_app. replace (length text - length rcv) with 0 by lia. reflexivity.
      * rewrite app_length. lia.
      * lia.
    + left. exists rcv, (set_buf q (q_buf q)), src'. cbn [app] in ES. subst src'. rewrite set_buf_self. split; [reflexivity|]. split; [exact E|]. split; [exact ND|]. right; right; left. unfold WB. auto 20.
  - destruct IV as (QP & QS & QH & QD & QL & QC & SP & DL & TR & A0 & N0 & E0 & OV). unfold turn. rewrite QD.
    unfold body_phase. cbn [set_phase q_hdr]. rewrite QC, CL. cbn [obind]. rewrite size_n, EX. cbn [obind]. rewrite E0.
    replace (Z.of_nat (e_max e) <? Z.of_nat n)%Z with true by (symmetry; apply Z.ltb_lt; lia).
    apply (discard_ok _ rcv); cbn [set_phase q_phase q_sl q_hd q_line q_hdr q_buf q_dlen]; auto.
Qed.
Lemma serve_ok : forall ts rcv src q, Inv rcv src q ->
  (exists rcv' src' q', serve e q src false ts = Ok (VWait q', src', []) /\ Inv rcv' src' q') \/
  (exists rcv' src' v s ts', sent = rcv' ++ src' /\ need <= length rcv' /\ serve e q src false ts = Ok (v, src', ts') /\ decision = Ok s /\ view v = s /\ settled r ci v) \/
  (exists u, serve e q src false ts = UB u /\ decision = UB u).
Proof.
  induction ts as [|t ts IH]; intros rcv src q IV; [left; exists rcv, src, q; auto|]. cbn [serve].
  destruct (turn_ok rcv src q t IV) as [(rcv' & q' & src' & -> & IV')|[(rcv' & src' & v & s & E & ND & -> & D & V & WT)|(u & -> & D)]].
  - cbn [waiting]. apply (IH rcv'). exact IV'.
  - rewrite (proj1 WT). right; left. exists rcv', src', v, s, ts. auto 10.
  - right; right. exists u. auto.
Qed.
Lemma init_inv junk : ~ In 10%N junk -> exists q, init_req junk (e_max e) per = Some q /\ Inv [] sent q.
Proof.
  intros J. pose proof (stop_text false) as (ST1 & ST2 & _). pose proof need_text as NT. cbn [use stop] in *.
  set (t := fresh per junk). assert (LT : length t = per) by apply fresh_length.
  assert (NT10 : ~ In 10%N t).
  { intros I. unfold t, fresh in I. assert (I2 : In 10%N (junk ++ repeat 0%N per)) by (rewrite <- (firstn_skipn per (junk ++ repeat 0%N per)); apply in_or_app; auto).
    apply in_app_or in I2 as [I2|I2]; [exact (J I2)|]. apply repeat_spec in I2. discriminate. }
  assert (B : buf_init t 1 mx per = Some (one mx per [] t 0)).
  { unfold buf_init. cbn [init_chains]. unfold add_chain. cbn [b_max b_count]. replace (mx <=? 0) with false by (symmetry; apply Nat.leb_gt; pose proof mx_pos; lia). reflexivity. }
  unfold init_req. fold t. rewrite B. eexists. split; [reflexivity|]. split; [reflexivity|]. split; [cbn; lia|]. left.
  unfold WL. cbn [q_phase q_sl q_hd q_disc q_body q_dlen q_buf length]. do 6 (split; [auto|]). split; [|lia]. exists t. auto.
Qed.
End FLOW.
