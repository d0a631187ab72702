(** What the access log says (AccessLog.v). *)
From Verif Require Import Base CStr CNum Buffer BufferProofs Names Status NamesProofs Reqline ReqlineSpec ReqlineProofs Header HeaderProofs Encode EncodeProofs ReqFlow ReqFlowProofs ReqFlowLaws.
From Verif Require Import Response ResponseProofs Mime PyBridge PyBridgeProofs Server ServerProofs AccessLog.
From Verif Require AcceptEnc Route RouteProofs Mount MountProofs H2Req H2ReqProofs H2ReqLaws.
Local Open Scope nat_scope.

(** ** Specification *)
(** The line a reader of the log expects for an exchange: who asked, the request line, who answered, the status as in the
    status line of the answer. *)
Definition full_entry (h : ends) (line status : list N) : list N :=
  n_peer h ++ bs ":" ++ n_peer_port h ++ bs " (" ++ line ++ bs ") --> " ++ n_host h ++ bs ":" ++ n_port h ++ bs " (" ++ status ++ bs ")" ++ [10%N].
(** What is written: the line if it has at most 296 bytes, otherwise 296 bytes of it, three dots and a zero byte. *)
Definition entry (h : ends) (line status : list N) : list N :=
  let s := full_entry h line status in if length s <=? 296 then s else firstn 296 s ++ bs "..." ++ [0%N].
(** The lines of a file. *)
Fixpoint file_lines (cur l : list N) : list (list N) :=
  match l with
  | [] => match cur with [] => [] | _ => [cur] end
  | 10%N :: t => cur :: file_lines [] t
  | c :: t => file_lines (cur ++ [c]) t
  end.

(** ** The text *)
Lemma printed_short size s : length s < size -> printed size s = s ++ repeat 0%N (size - length s).
Proof.
  intros L. unfold printed. rewrite (firstn_all2 s) by lia. rewrite firstn_app, firstn_all2 by lia. f_equal.
  replace size with ((size - length s) + length s) at 2 by lia. rewrite repeat_app, firstn_app, repeat_length, Nat.sub_diag, app_nil_r. apply firstn_all2. rewrite repeat_length. lia.
Qed.
Lemma logcontent_text h line t ex : stcode_explain t = Some ex -> logcontent h line t = Ok (entry h line (dec_z (code_from_type t) ++ bs " " ++ ex)).
Proof.
  intros E. unfold logcontent. rewrite E. unfold entry. set (s := full_entry _ _ _).
  replace (text h line (code_from_type t) ex) with s by (unfold s, full_entry, text; rewrite <- !app_assoc; reflexivity).
  change (max_length LOG_LENGTH) with 297. change (suffix_at LOG_LENGTH) with 296. change LOG_LENGTH with 300. clearbody s. f_equal.
  destruct (Nat.leb_spec 297 (length s)) as [L|L].
  - replace (length s <=? 296) with false by (symmetry; apply Nat.leb_gt; lia). unfold patch. change (length SUFFIX) with 3.
    f_equal; [|f_equal].
    + unfold printed. rewrite firstn_firstn. change (Nat.min 296 300) with 296. rewrite firstn_app, firstn_firstn. change (Nat.min 296 (300 - 1)) with 296.
      rewrite firstn_length. replace (296 - Nat.min (300 - 1) (length s)) with 0 by lia. rewrite firstn_O, app_nil_r. reflexivity.
    + unfold printed. change (300 - 1) with 299. change (296 + 3) with 299. rewrite <- (firstn_skipn 299 s) at 1.
      rewrite firstn_app. rewrite skipn_app.
      rewrite (skipn_all2 (firstn 300 _)) by (rewrite !firstn_length; lia). cbn [app].
      assert (LF : length (firstn 299 (firstn 299 s ++ skipn 299 s)) = Nat.min 299 (length s)) by (rewrite firstn_skipn, firstn_length; reflexivity). rewrite firstn_length, LF.
      replace (299 - Nat.min 300 (Nat.min 299 (length s))) with (299 - length s) by lia. replace (300 - Nat.min 299 (length s)) with (S (299 - length s)) by lia.
      assert (K : 299 - length s <= 2) by lia. destruct (299 - length s) as [|[|[|k]]]; try reflexivity. lia.
  - replace (length s <=? 296) with true by (symmetry; apply Nat.leb_le; lia). rewrite printed_short by lia. rewrite firstn_app, Nat.sub_diag, firstn_O, app_nil_r. apply firstn_all.
Qed.

(** ** The response that is sent *)
Lemma respond_sent_n k v r ios : response_event k v r ios = obind (sent_response k v r) (fun x => let '(r', y, p) := x in send_ready v r' y p ios).
Proof.
  revert r. induction k as [|k IH]; intros r; [reflexivity|]. cbn [response_event sent_response].
  assert (O : forall c, obind (status_response v c []) (fun r' => response_event k v r' ios) = obind (obind (status_response v c []) (fun r' => sent_response k v r')) (fun x => let '(r', y, p) := x in send_ready v r' y p ios)).
  { intros c. destruct (status_response v c []) as [r'|u]; cbn [obind]; [apply IH|reflexivity]. }
  destruct (prepare v r) as [[y| |]|u]; cbn [obind]; try apply O; [|reflexivity].
  destruct (layout v r y) as [[p|]|u]; cbn [obind]; try apply O; reflexivity.
Qed.
Lemma sent_text_n k v r r' y p : sent_response k v r = Ok (r', y, p) ->
  exists vs ex rest, version_str (r_version r') = Some vs /\ stcode_explain (r_code r') = Some ex /\ p = vs ++ bs " " ++ (dec_z (code_from_type (r_code r')) ++ bs " " ++ ex) ++ CRLF ++ rest.
Proof.
  revert r. induction k as [|k IH]; intros r E; [discriminate|]. cbn [sent_response] in E.
  assert (O : forall c, obind (status_response v c []) (fun r' => sent_response k v r') = Ok (r', y, p) -> exists r1, sent_response k v r1 = Ok (r', y, p)).
  { intros c Q. destruct (status_response v c []) as [r1|u]; [exists r1; exact Q|discriminate Q]. }
  destruct (prepare v r) as [[y0| |]|u]; cbn [obind] in E; try (destruct (O _ E) as (r1 & Q); exact (IH r1 Q)); [|discriminate E].
  destruct (layout v r y0) as [[p0|]|u] eqn:L; cbn [obind] in E; try (destruct (O _ E) as (r1 & Q); exact (IH r1 Q)); [|discriminate E]. injection E as <- <- <-.
  unfold layout in L. unfold status_line in L. destruct (version_str (r_version r)) as [vs|]; [|discriminate L]. destruct (stcode_explain (r_code r)) as [ex|]; [|discriminate L].
  destruct (_ =? STATUS_LINE_MAX); [discriminate L|]. destruct (STATUS_LINE_MAX <? _); [discriminate L|]. cbn [obind] in L. destruct (content_bytes r y0) as [c|u]; cbn [obind] in L; [|discriminate L].
  destruct (_ <? _) in L; [discriminate L|]. injection L as <-. clear IH O.
  match goal with |- context [fresh ?a ?b] => generalize (fresh a b) end. intros tail. exists vs, ex, (lines (y_header y0) ++ CRLF ++ c ++ tail). split; [reflexivity|]. split; [reflexivity|].
  change CRLF with [13; 10]%N. change (bs " ") with [32%N]. cbn [app]. rewrite <- !app_assoc. cbn [app]. rewrite <- !app_assoc. cbn [app]. rewrite <- !app_assoc. reflexivity.
Qed.
Lemma write_done p ios : forall total w t, write p total ios = (w, Done, t) -> length p <= total + length w.
Proof.
  induction ios as [|i ios IH]; intros total w t E; cbn [write] in E; (destruct (Nat.leb_spec (length p) total) as [L|L]; [injection E as <- <-; cbn; lia|]); [discriminate E|].
  destruct i as [n| | |]; [|apply IH in E; lia|discriminate E|discriminate E].
  destruct (write p (total + Nat.min n (length p - total)) ios) as ((w1, s1), t1) eqn:W1. injection E as <- -> <-. apply IH in W1. rewrite app_length, firstn_length. lia.
Qed.

(** ** The line *)
Lemma raw_line_first x rest : no_ctl x -> raw_line (x ++ CRLF ++ rest) = x ++ CRLF.
Proof.
  induction x as [|c x IH]; intros F; [reflexivity|]. inversion F as [|? ? (A & B) F']; subst. cbn [app raw_line]. rewrite (IH F').
  destruct (N.eq_dec c 13) as [->|NC]; [contradiction|]. destruct c as [|p]; [reflexivity|]. repeat (destruct p as [p|p|]; try reflexivity); contradiction.
Qed.
Lemma until_eol_line x rest : no_ctl x -> no_nul x -> until_eol (x ++ CRLF ++ rest) = x.
Proof.
  induction x as [|c x IH]; intros F G; [reflexivity|]. inversion F as [|? ? (A & B) F']; subst. inversion G as [|? ? Z G']; subst. cbn [app until_eol].
  replace ((c =? 0) || (c =? 13) || (c =? 10))%N with false by lia. rewrite IH by assumption. reflexivity.
Qed.
Lemma encoded_no_nul (ok : N -> Prop) s : (forall c, ok c -> c <> 0%N) -> encoded ok s -> no_nul s.
Proof.
  intros H. induction 1 as [|c s C _ IH|a b s A B _ IH]; [constructor|constructor; [exact (H c C)|exact IH]|].
  assert (X : forall c, HEXDIG c -> c <> 0%N) by (intros c [C|[C|C]]; unfold DIGIT in *; lia). constructor; [discriminate|]. constructor; [exact (X a A)|]. constructor; [exact (X b B)|exact IH].
Qed.
Lemma in_not c l : In c l -> forallb (fun x => negb (x =? 0)%N) l = true -> c <> 0%N.
Proof. intros I F Z. rewrite forallb_forall in F. specialize (F c I). rewrite Z in F. discriminate F. Qed.
Lemma unreserved_nul c : UNRESERVED c -> c <> 0%N.
Proof. intros [[C|C]|[C|C]]; [lia|lia|unfold DIGIT in C; lia|exact (in_not c _ C eq_refl)]. Qed.
Lemma pchar_nul c : PCHAR c -> c <> 0%N.
Proof. intros [C|[C|C]]; [exact (unreserved_nul c C)|exact (in_not c _ C eq_refl)|exact (in_not c _ C eq_refl)]. Qed.
Lemma userinfo_nul c : USERINFO c -> c <> 0%N.
Proof. intros [C|[C|C]]; [exact (unreserved_nul c C)|exact (in_not c _ C eq_refl)|exact (in_not c _ C eq_refl)]. Qed.
Lemma abs_path_no_nul p : abs_path p -> no_nul p.
Proof. intros (_ & E). revert E. apply encoded_no_nul. intros c [C| ->]; [exact (pchar_nul c C)|discriminate]. Qed.
Lemma query_no_nul q : query_text q -> no_nul q.
Proof. apply encoded_no_nul. intros c [C|[->| ->]]; [exact (pchar_nul c C)|discriminate|discriminate]. Qed.
Lemma target_no_nul m t path q : fly_target m t path q -> no_nul t.
Proof.
  intros [m' p _ A|m' p _ A|m' p q' _ A _ Q|u h d _ U _ H _ D].
  - exact (abs_path_no_nul _ A).
  - apply Forall_app. split; [exact (abs_path_no_nul _ A)|apply (no_nulb_ok (bs "?")); reflexivity].
  - apply Forall_app. split; [exact (abs_path_no_nul _ A)|]. apply Forall_app. split; [apply (no_nulb_ok (bs "?")); reflexivity|exact (query_no_nul _ Q)].
  - apply Forall_app. split; [revert U; apply encoded_no_nul; apply userinfo_nul|]. apply Forall_app. split; [apply (no_nulb_ok (bs "@")); reflexivity|].
    apply Forall_app. split; [revert H; apply Forall_impl; intros c [[C|C]|C]; unfold DIGIT in *; lia|]. apply Forall_app. split; [apply (no_nulb_ok (bs ":")); reflexivity|].
    revert D. apply Forall_impl. intros c C. unfold DIGIT in C. lia.
Qed.
Lemma line_no_nul l m path q v : ~ In 10%N l -> fly_line (l ++ CRLF) m path q v -> no_ctl l /\ no_nul l.
Proof.
  intros NL FL. destruct (fly_line_split _ _ _ _ _ FL) as (x & rest0 & EX & CX). destruct (no_lf_split _ _ _ NL CX EX) as [-> _]. split; [exact CX|]. clear CX EX rest0.
  remember (x ++ CRLF) as l0 eqn:E. destruct FL as [m s1 t path q s2 k v rest FT (k1 & ->) (k2 & ->)].
  set (y := method_spelling m ++ repeat 32%N (S k1) ++ t ++ repeat 32%N (S k2) ++ concat (repeat (bs "HTTP") k) ++ bs "/" ++ version_number v).
  assert (NY : no_nul y).
  { unfold y, no_nul. rewrite !Forall_app. split; [destruct m; apply no_nulb_ok; reflexivity|]. split; [apply Forall_forall; intros c C; apply repeat_spec in C as ->; discriminate|].
    split; [exact (target_no_nul _ _ _ _ FT)|]. split; [apply Forall_forall; intros c C; apply repeat_spec in C as ->; discriminate|].
    split; [clear; induction k as [|k IH]; cbn [repeat concat]; [apply Forall_nil|apply Forall_app; split; [apply (no_nulb_ok (bs "HTTP")); reflexivity|exact IH]]|].
    split; [apply (no_nulb_ok (bs "/")); reflexivity|destruct v; apply no_nulb_ok; reflexivity]. }
  assert (EY : y ++ ReqlineSpec.CRLF_ ++ rest = x ++ CRLF) by (rewrite <- E; unfold y; rewrite <- !app_assoc; reflexivity).
  clearbody y. clear E FT. rename x into l.
  (* l is a prefix of y, or y is one of l *)
  assert (P : exists z, y = l ++ z \/ l = y ++ z).
  { clear -EY. generalize (ReqlineSpec.CRLF_ ++ rest) CRLF EY. clear. intros a b. revert l. induction y as [|c y IH]; intros l E; [exists l; right; reflexivity|].
    destruct l as [|d l]; [exists (c :: y); left; reflexivity|]. injection E as -> E. destruct (IH l E) as (z & [->| ->]); exists z; auto. }
  destruct P as (z & [P|P]); [rewrite P in NY; apply Forall_app in NY; apply NY|].
  rewrite P in EY. rewrite <- app_assoc in EY. apply app_inv_head in EY. destruct z as [|a z]; [rewrite app_nil_r in P; rewrite P; exact NY|].
  exfalso. apply NL. rewrite P. destruct z as [|b z]; cbn in EY; [injection EY as <- E2; discriminate E2|]. injection EY as <- <- _. apply in_or_app. right. right. left. reflexivity.
Qed.

(** ** Whole connections *)
(** The records [recs] tell of the exchanges [xs], of which the client got [outs]: for every answer that was written to
    its end one record, with the line of its request and the status of its status line; for an answer that was not, none. *)
Definition pieces (out out' : list N) : Prop := exists ns, out' = flat_map (fun n => firstn n out) ns.
Inductive journal (h : ends) : list exchange -> list (list N) -> list (list N) -> Prop :=
| jn_none xs : journal h xs [] []
| jn_record q ts ios xs status rest out' outs recs : let out := bs "HTTP/1.1 " ++ status ++ CRLF ++ rest in
    ~ In 13%N status -> pieces out out' -> length out <= length out' -> journal h xs outs recs ->
    journal h ((q, ts, ios) :: xs) (out' :: outs) (entry h (w_line q) status :: recs)
| jn_unfinished q ts ios xs out out' : pieces out out' -> (forall k n t, ios = repeat Blocked k ++ Took n :: t -> n < length out) ->
    journal h ((q, ts, ios) :: xs) [out'] [].

Lemma explain_no_cr c ex : stcode_explain c = Some ex -> ~ In 13%N (dec_z (code_from_type c) ++ bs " " ++ ex).
Proof. destruct c; intros E; try discriminate E; injection E as <-; intros I; vm_compute in I; intuition discriminate. Qed.
Section SITE.
Context {W : Type} (s : site W) (enc : AcceptEnc.coding -> list N -> list N) (os : list MountProofs.mop) (h : ends).
Lemma logged_line w q v out f w' : proper s os q -> settled (w_parsed q) (mkHci (map delivered (w_fields q)) (length (w_fields q))) v -> replied s enc w q (view v) out f w' ->
  log_line (line_of (text_of q) (w_after q) v) = Ok (w_line q).
Proof.
  intros (FI & _) (_ & ST) RP. destruct FI as (NL & FL & LM & LV & _). destruct (line_no_nul _ _ _ _ _ NL FL) as (NC & NN).
  assert (X : forall q', q_line q' = Some (w_parsed q) -> log_line (match q_line q' with
      | None => None
      | Some l => Some (mkRline (Some (raw_line (text_of q))) (l_method l) (Some (l_uri l ++ w_after q, length (l_uri l))) (l_version l)) end) = Ok (w_line q)).
  { intros q' ->. cbn [log_line g_version g_raw]. rewrite LV. unfold text_of. rewrite (raw_line_first _ _ NC). f_equal. rewrite <- (app_nil_r CRLF). apply until_eol_line; assumption. }
  destruct v as [| | | |n' q'|rt ps q'|f' q'|]; cbn [line_of]; try (apply X; apply ST); inversion RP.
Qed.
(** An answer of [replied] begins with a status line of HTTP/1.1. *)
Lemma replied_http w q sn out f w' : replied s enc w q sn out f w' -> exists t, out = bs "HTTP/1.1 " ++ t.
Proof. intros [n reason acc IR AG|rt ps hh body x w1 a reason acc fs1 res fs|f0 acc res AG FR]; unfold wire; try unfold spec_line; rewrite <- ?app_assoc; eexists; reflexivity. Qed.
Theorem conversation_logged : env_ok (s_renv s) enc -> ordinary s enc -> sendable s enc -> ~ In 10%N (s_junk s) ->
  forall xs w, Forall (fun x => proper s os (fst (fst x))) xs ->
  exists outs st w' recs, converse s w [] (map round_of xs) = Ok (outs, st, w') /\ dialogue s enc os w xs outs st w' /\
    converse_log h s w [] (map round_of xs) = Ok recs /\ journal h xs outs recs.
Proof.
  intros V ORD SND J. induction xs as [|((q, ts), ios) xs IH]; intros w P; [exists [], Open, w, []; split; [reflexivity|split; [constructor|split; [reflexivity|constructor]]]|].
  pose proof (Forall_inv P) as PQ. pose proof (Forall_inv_tail P) as PT. cbn [fst] in PQ. clear P. pose proof PQ as PQ'. destruct PQ' as (FI & SV & DC & AS & LB & NH & NE & BD).
  cbn [map round_of converse converse_log]. cbn [rd_sent rd_after rd_turns rd_ios app].
  destruct (request_settled (with_after (s_env s) (w_after q)) os (s_per s) (w_line q) (w_method q) (w_parsed q) (w_path q) (w_fields q) (w_len q) (w_body q) (s_junk s) ts (w_check q) FI SV DC AS J)
    as (rq & k & IQ & AW & OUT). change (e_max (with_after (s_env s) (w_after q))) with (e_max (s_env s)) in IQ. rewrite IQ.
  fold (text_of q) in OUT. pose proof (text_length q) as TL. set (hl := length (w_line q ++ CRLF ++ section (w_fields q))) in *.
  assert (KN : k = w_len q).
  { destruct BD as [BD|(BD & BE)]; [destruct AW as [(_ & _ & K)|[(_ & _ & K)|(sn & _ & K)]]; lia|].
    destruct AW as [(_ & _ & K)|[(_ & EX & K)|(sn & S & K)]]; [exact K|contradiction|]. rewrite BD in AS. pose proof (says_fun _ _ _ AS S). discriminate. }
  destruct OUT as [(rcv & src & q' & SE & ALL & LR & PR)|(rcv & src & v & ts' & SE & ALL & LR & AN & ST)]; rewrite SE; apply (f_equal (@length N)) in ALL; rewrite app_length in ALL.
  - cbn [reply]. exists [], Reading, w, []. split; [reflexivity|]. split; [|split; [reflexivity|constructor]]. apply dg_reading. intros NT. destruct PR as [->|PR]; [cbn in ALL; lia|]. specialize (PR NT). lia.
  - assert (SN : src = []) by (destruct src; [reflexivity|cbn [length] in ALL; lia]). subst src.
    destruct (reply_ok s enc os w q v PQ V ORD SND AN ST) as (rv & res & out & f & w1 & RP & RD & RS). rewrite RP.
    pose proof (logged_line w q v out f w1 PQ ST RD) as LL. destruct (replied_http _ _ _ _ _ _ RD) as (tt & HT).
    (* the response that is sent *)
    assert (SR : exists r' y p, sent_response 2 rv res = Ok (r', y, p)).
    { destruct (RS []) as (o1 & f1 & E & _). unfold Response.respond in E. rewrite respond_sent_n in E. destruct (sent_response 2 rv res) as [((r', y), p)|u]; [eauto|discriminate E]. }
    destruct SR as (r' & y & p & SR). destruct (sent_text_n _ _ _ _ _ _ SR) as (vs & ex & rest & EV & EE & EP). set (status := dec_z (code_from_type (r_code r')) ++ bs " " ++ ex) in *.
    assert (OP : out = p).
    { destruct (RS [Took (length out + length p)]) as (o1 & f1 & E & (_ & PO)). destruct (PO 0 _ [] eq_refl) as (-> & _); [lia|].
      unfold Response.respond in E. rewrite respond_sent_n, SR in E. cbn [obind] in E. unfold send_ready in E. cbn [write] in E.
      destruct (Nat.leb_spec (length p) 0) as [L0|L0]; [rewrite EP in L0; destruct vs; cbn [app length] in L0; [change (bs " ") with [32%N] in L0; cbn in L0; lia|lia]|].
      rewrite Nat.sub_0_r in E. replace (Nat.min (length out + length p) (length p)) with (length p) in E by lia. cbn [Nat.add write] in E. rewrite Nat.leb_refl in E.
      destruct (after r' y) as [f2|u]; cbn [obind] in E; [|discriminate E]. injection E as E _. rewrite firstn_all, app_nil_r in E. symmetry. exact E. }
    assert (HV : vs = bs "HTTP/1.1").
    { rewrite <- OP, HT in EP. destruct (r_version r'); injection EV as <-; first [reflexivity|discriminate EP]. }
    assert (OE : out = bs "HTTP/1.1 " ++ status ++ CRLF ++ rest) by (rewrite OP, EP, HV; reflexivity).
    (* the record *)
    assert (RC : record_of h rv res (line_of (text_of q) (w_after q) v) ios = Ok (match write p 0 ios with (_, Done, _) => Some (entry h (w_line q) status) | _ => None end)).
    { unfold record_of. rewrite SR. cbn [obind]. destruct (write p 0 ios) as ((x, [| | |]), t0); try reflexivity. rewrite LL. cbn [obind]. rewrite (logcontent_text h _ _ ex EE). reflexivity. }
    rewrite RC. cbn [obind]. destruct (RS ios) as (out' & f' & RE & PO). rewrite RE.
    pose proof RE as RE'. unfold Response.respond in RE'. rewrite respond_sent_n, SR in RE'. cbn [obind] in RE'. unfold send_ready in RE'.
    destruct (write p 0 ios) as ((x, wst), t0) eqn:WR.
    assert (UNF : wst <> Done -> forall k n t, ios = repeat Blocked k ++ Took n :: t -> n < length out).
    { intros ND k0 n t EI. destruct (Nat.lt_ge_cases n (length out)) as [L|L]; [exact L|exfalso]. apply ND. rewrite EI in WR. rewrite <- OP in WR. rewrite write_blocks in WR; [congruence|].
      split; [rewrite OE; cbn; lia|exact L]. }
    assert (PI : pieces out out') by apply PO.
    assert (DN : wst = Done -> length out <= length out').
    { intros ->. pose proof (write_done _ _ _ _ _ WR) as L. rewrite OP. destruct (after r' y); cbn [obind] in RE'; [|discriminate RE']. injection RE' as <- _. exact L. }
    assert (KEEP : f' = FKeep -> wst = Done).
    { intros ->. destruct wst; try discriminate RE'. reflexivity. }
    destruct f'.
    + specialize (KEEP eq_refl). subst wst. destruct (IH w1 PT) as (outs & st & w2 & recs & CV & DG & CL & JN). rewrite CV, CL. do 4 eexists. split; [reflexivity|]. split; [eapply dg_keep; eassumption|]. split; [reflexivity|].
      cbn [app]. specialize (DN eq_refl). clear RS PO RE RE'. rewrite OE in PI, DN. apply (jn_record h q ts ios xs status rest out' outs recs); [exact (explain_no_cr _ _ EE)|exact PI|exact DN|exact JN].
    + do 4 eexists. split; [reflexivity|]. split; [eapply (dg_close _ _ _ _ _ _ _ _ _ _ _ _ FClose); try eassumption; discriminate|]. split; [reflexivity|].
      destruct wst; try (apply jn_unfinished with (out := out); [exact PI|apply UNF; discriminate]).
      specialize (DN eq_refl). clear RS PO RE RE'. rewrite OE in PI, DN. apply (jn_record h q ts ios xs status rest out' [] []); [exact (explain_no_cr _ _ EE)|exact PI|exact DN|constructor].
    + do 4 eexists. split; [reflexivity|]. split; [eapply (dg_close _ _ _ _ _ _ _ _ _ _ _ _ FError); try eassumption; discriminate|]. split; [reflexivity|].
      destruct wst; try (apply jn_unfinished with (out := out); [exact PI|apply UNF; discriminate]).
      specialize (DN eq_refl). clear RS PO RE RE'. rewrite OE in PI, DN. apply (jn_record h q ts ios xs status rest out' [] []); [exact (explain_no_cr _ _ EE)|exact PI|exact DN|constructor].
    + do 4 eexists. split; [reflexivity|]. split; [eapply (dg_close _ _ _ _ _ _ _ _ _ _ _ _ FWait); try eassumption; discriminate|]. split; [reflexivity|].
      destruct wst; try (apply jn_unfinished with (out := out); [exact PI|apply UNF; discriminate]).
      specialize (DN eq_refl). clear RS PO RE RE'. rewrite OE in PI, DN. apply (jn_record h q ts ios xs status rest out' [] []); [exact (explain_no_cr _ _ EE)|exact PI|exact DN|constructor].
Qed.
End SITE.

(** ** The lines of the file *)
Definition no_lf (l : list N) : Prop := ~ In 10%N l.
(** An entry without its line feed. *)
Definition shown (h : ends) (line status : list N) : list N :=
  n_peer h ++ bs ":" ++ n_peer_port h ++ bs " (" ++ line ++ bs ") --> " ++ n_host h ++ bs ":" ++ n_port h ++ bs " (" ++ status ++ bs ")".
Definition ends_ok (h : ends) : Prop := no_lf (n_peer h) /\ no_lf (n_peer_port h) /\ no_lf (n_host h) /\ no_lf (n_port h).
Lemma full_shown h line status : full_entry h line status = shown h line status ++ [10%N].
Proof. unfold full_entry, shown. rewrite <- !app_assoc. reflexivity. Qed.
Lemma no_lf_app a b : no_lf a -> no_lf b -> no_lf (a ++ b).
Proof. intros A B I. apply in_app_iff in I. intuition. Qed.
Lemma no_lf_bs s : forallb (fun c => negb (c =? 10)%N) s = true -> no_lf s.
Proof. intros H I. rewrite forallb_forall in H. specialize (H _ I). discriminate H. Qed.
Lemma shown_no_lf h line status : ends_ok h -> no_lf line -> no_lf status -> no_lf (shown h line status).
Proof.
  intros (A & B & C & D) L S. unfold shown. repeat (apply no_lf_app; [first [assumption|apply no_lf_bs; reflexivity]|]). apply no_lf_bs. reflexivity.
Qed.
Lemma file_lines_step l : forall cur t, no_lf l -> file_lines cur (l ++ t) = file_lines (cur ++ l) t.
Proof.
  induction l as [|c l IH]; intros cur t L; [rewrite app_nil_r; reflexivity|]. assert (C : c <> 10%N) by (intros ->; apply L; left; reflexivity).
  assert (LL : no_lf l) by (intros I; apply L; right; exact I). specialize (IH (cur ++ [c]) t LL). rewrite <- app_assoc in IH. cbn [app] in IH. rewrite <- IH. cbn [app file_lines].
  destruct c as [|p]; [reflexivity|]. do 4 (destruct p as [p|p|]; try reflexivity). contradiction C. reflexivity.
Qed.
Lemma file_lines_end cur l t : no_lf l -> file_lines cur (l ++ 10%N :: t) = (cur ++ l) :: file_lines [] t.
Proof. intros L. rewrite file_lines_step by exact L. reflexivity. Qed.
(** A record of the file: what is put before it (the time and the process), the line of the request, the status. *)
Definition logged := (list N * list N * list N)%type.
Definition in_file (h : ends) (x : logged) : list N := let '(hd, line, status) := x in hd ++ entry h line status.
Definition logged_ok (h : ends) (x : logged) : Prop := let '(hd, line, status) := x in no_lf hd /\ no_lf line /\ no_lf status /\ length (full_entry h line status) <= 296.
Theorem one_line_each h xs : ends_ok h -> Forall (logged_ok h) xs ->
  file_lines [] (flat_map (in_file h) xs) = map (fun x => let '(hd, line, status) := x in hd ++ shown h line status) xs.
Proof.
  intros EO. induction 1 as [|((hd, line), status) xs (A & B & C & L) _ IH]; [reflexivity|]. cbn [flat_map map in_file]. unfold entry. apply Nat.leb_le in L. rewrite L.
  rewrite full_shown, <- !app_assoc. cbn [app]. rewrite app_assoc, file_lines_end by (apply no_lf_app; [exact A|apply shown_no_lf; assumption]). rewrite IH. reflexivity.
Qed.
Lemma long_no_lf h line status : ends_ok h -> no_lf line -> no_lf status -> 296 < length (full_entry h line status) -> no_lf (entry h line status) /\ length (entry h line status) = 300.
Proof.
  intros EO L S G. unfold entry. replace (length _ <=? 296) with false by (symmetry; apply Nat.leb_gt; exact G). split.
  - apply no_lf_app; [|apply no_lf_bs; reflexivity]. rewrite full_shown in *. rewrite app_length in G. cbn [length] in G. rewrite firstn_app. replace (296 - length (shown h line status)) with 0 by lia.
    rewrite firstn_O, app_nil_r. intros I. apply (shown_no_lf h line status EO L S). rewrite <- (firstn_skipn 296). apply in_app_iff. left. exact I.
  - rewrite app_length, firstn_length. cbn [length bs app]. change (length (bs "..." ++ [0%N])) with 4. lia.
Qed.
(** What comes after a long record stands on its line. *)
Theorem long_joined h hd line status t : ends_ok h -> no_lf hd -> no_lf line -> no_lf status -> 296 < length (full_entry h line status) ->
  file_lines [] (in_file h (hd, line, status) ++ t) = file_lines (hd ++ firstn 296 (full_entry h line status) ++ bs "..." ++ [0%N]) t.
Proof.
  intros EO A L S G. cbn [in_file]. pose proof (long_no_lf h line status EO L S G) as (E & _). rewrite file_lines_step by (apply no_lf_app; assumption). cbn [app].
  unfold entry. replace (length _ <=? 296) with false by (symmetry; apply Nat.leb_gt; exact G). reflexivity.
Qed.

(** ** HTTP/2 *)
Lemma spelling_name m : Route.method_name m = method_spelling m.
Proof. destruct m; reflexivity. Qed.
Lemma cstr_stop v : no_nul v -> cstr (v ++ [0%N]) = v.
Proof. induction 1 as [|c v C _ IH]; [reflexivity|]. cbn [app cstr]. destruct (N.eqb_spec c 0) as [->|_]; [contradiction C; reflexivity|]. f_equal. exact IH. Qed.
Theorem h2_logged_exact conn fs m v : Forall H2ReqLaws.clean fs -> H2ReqLaws.names_request fs m v ->
  obind (h2_rline conn (map H2ReqLaws.stored fs)) log_line = Ok (match H2Req.target_parse m v with
    | Ok (Some (u, Some _)) => firstn (length (method_spelling m) + 1 + length u + 7) (method_spelling m ++ bs " " ++ v ++ bs " HTTP/2")
    | _ => method_spelling m ++ bs " " ++ v ++ bs " HTTP/2" end).
Proof.
  intros CL NR. assert (NV : no_nul v). { destruct NR as (_ & _ & (f & (LF & EV))). subst v. destruct LF as (a & b & -> & _). apply Forall_app in CL as (_ & CL). apply Forall_inv in CL. apply CL. }
  unfold h2_rline. rewrite (proj2 (H2ReqLaws.line_exact conn fs m v CL) NR). cbn [obind]. destruct (H2ReqProofs.target_sound m v) as (o & E & HT). rewrite E. cbn [obind log_line g_version].
  f_equal. unfold hv2_line. cbn [g_method g_uri g_version version_str]. rewrite (cstr_stop v NV), spelling_name.
  assert (ALL : firstn (length (method_spelling m) + 1 + length v + 7) (method_spelling m ++ bs " " ++ v ++ bs " HTTP/2") = method_spelling m ++ bs " " ++ v ++ bs " HTTP/2").
  { apply firstn_all2. rewrite !app_length. cbn [length bs]. change (length (bs " ")) with 1. change (length (bs " HTTP/2")) with 7. lia. }
  assert (CUT : forall n, length (method_spelling m) + 1 + n + 1 + length (bs "HTTP/2") + 1 - 1 = length (method_spelling m) + 1 + n + 7) by (intros n; change (length (bs "HTTP/2")) with 6; lia).
  change (match version_str V2 with Some f => f | None => [] end) with (bs "HTTP/2").
  assert (TXT : forall n, firstn (length (method_spelling m) + 1 + n + 1 + length (bs "HTTP/2") + 1 - 1) (method_spelling m ++ bs " " ++ v ++ bs " " ++ bs "HTTP/2") = firstn (length (method_spelling m) + 1 + n + 7) (method_spelling m ++ bs " " ++ v ++ bs " HTTP/2")) by (intros n; rewrite CUT; reflexivity).
  destruct o as [(u, [q|])|].
  - apply TXT.
  - replace u with v by (inversion HT; reflexivity). rewrite <- ALL. apply TXT.
  - rewrite <- ALL. apply TXT.
Qed.

Corollary h2_logged_plain conn fs m v : Forall H2ReqLaws.clean fs -> H2ReqLaws.names_request fs m v -> H2ReqProofs.h2_target m v v None ->
  obind (h2_rline conn (map H2ReqLaws.stored fs)) log_line = Ok (method_spelling m ++ bs " " ++ v ++ bs " HTTP/2").
Proof. intros CL NR HT. rewrite (h2_logged_exact conn fs m v CL NR). rewrite (proj2 (H2ReqProofs.target_exact m v v None) HT). reflexivity. Qed.
Corollary h2_logged_query conn fs m v u q : Forall H2ReqLaws.clean fs -> H2ReqLaws.names_request fs m v -> H2ReqProofs.h2_target m v u (Some q) -> length u + 7 <= length v ->
  obind (h2_rline conn (map H2ReqLaws.stored fs)) log_line = Ok (method_spelling m ++ bs " " ++ firstn (length u + 7) v).
Proof.
  intros CL NR HT LE. rewrite (h2_logged_exact conn fs m v CL NR). rewrite (proj2 (H2ReqProofs.target_exact m v u (Some q)) HT). f_equal.
  rewrite <- Nat.add_assoc, <- Nat.add_assoc, firstn_app_2. f_equal. change (1 + (length u + 7)) with (length (bs " ") + (length u + 7)). rewrite firstn_app_2. f_equal.
  rewrite firstn_app. replace (length u + 7 - length v) with 0 by lia. rewrite firstn_O, app_nil_r. reflexivity.
Qed.
(** No target has a line feed behind its first slash. *)
Lemma lf_refused m t : H2Req.target_parse m (47%N :: 10%N :: t) = Ok None.
Proof.
  destruct (H2ReqProofs.target_sound m (47%N :: 10%N :: t)) as (o & E & HT). destruct o as [(u, q)|]; [exfalso|exact E].
  assert (P10 : ~ H2ReqProofs.PATHC 10). { intros [P|P]; [apply pchar_class in P; discriminate P|discriminate P]. }
  assert (EN : forall s t', encoded H2ReqProofs.PATHC s -> s ++ t' = 47%N :: 10%N :: t -> (exists c t'', t' = c :: t'' /\ (c = 63%N \/ c = 32%N)) \/ t' = [] -> False).
  { intros s t' EN ES T. inversion EN as [|c s' C EN'|a b s' A B EN']; subst s.
    - destruct T as [(c & t'' & -> & C)| ->]; [|discriminate ES]. injection ES as E1 E2. destruct C as [->| ->]; discriminate E1.
    - injection ES as E1 E2. inversion EN' as [|c1 s1 C1 EN1|a b s1 A B EN1]; subst s'.
      + destruct T as [(c2 & t'' & -> & C2)| ->]; [|discriminate E2]. injection E2 as E2 _. destruct C2 as [->| ->]; discriminate E2.
      + injection E2 as E2 _. subst c1. apply P10. exact C1.
      + discriminate E2.
    - discriminate ES. }
  remember (47%N :: 10%N :: t) as v eqn:EV. destruct HT as [k|k t0 M|k p PP|k p PP|k p q PP NQ FQ|k p t0 AP|k p q t0 AP NQ QT]; try (destruct k as [|k]; [cbn [repeat app] in EV|discriminate EV]).
  - discriminate EV.
  - discriminate EV.
  - apply (EN p []); [apply H2ReqProofs.plain_encoded; apply PP|apply app_nil_r|right; reflexivity].
  - apply (EN p [63%N]); [apply H2ReqProofs.plain_encoded; apply PP|reflexivity|left; eauto].
  - apply (EN p (63%N :: q)); [apply H2ReqProofs.plain_encoded; apply PP|reflexivity|left; eauto].
  - apply (EN p (32%N :: t0)); [apply AP|reflexivity|left; eauto].
  - apply (EN p (63%N :: q ++ 32%N :: t0)); [apply AP|reflexivity|left; eauto].
Qed.
(** An HTTP/2 client writes the lines of the log it likes. *)
Theorem h2_forged e conn fs n m x y b h hd : Forall H2ReqLaws.clean fs -> H2ReqLaws.names_request fs m (47%N :: 10%N :: x ++ 10%N :: y) ->
  ends_ok h -> no_lf hd -> no_lf x -> no_lf y -> length (full_entry h (method_spelling m ++ bs " " ++ (47%N :: 10%N :: x ++ 10%N :: y) ++ bs " HTTP/2") (bs "400 Bad Request")) <= 296 ->
  H2Req.h2_answer e conn (mkHci (map H2ReqLaws.stored fs) n) b = Ok (H2Req.HStatus 400) /\
  exists line a c, obind (h2_rline conn (map H2ReqLaws.stored fs)) log_line = Ok line /\ logcontent h line S400 = Ok (entry h line (bs "400 Bad Request")) /\
    file_lines [] (in_file h (hd, line, bs "400 Bad Request")) = [a; x; c].
Proof.
  intros CL NR EO HD X Y LE. pose proof (lf_refused m (x ++ 10%N :: y)) as R. split.
  - unfold H2Req.h2_answer. cbn [hc_chain]. rewrite (proj2 (H2ReqLaws.line_exact conn fs m _ CL) NR). cbn [obind]. rewrite R. reflexivity.
  - eexists _, (hd ++ n_peer h ++ bs ":" ++ n_peer_port h ++ bs " (" ++ method_spelling m ++ bs " /"), _. split; [rewrite (h2_logged_exact conn fs m _ CL NR), R; reflexivity|]. split; [apply (logcontent_text h _ S400 (bs "Bad Request")); reflexivity|].
    cbn [in_file]. unfold entry. apply Nat.leb_le in LE. rewrite LE. unfold full_entry. destruct EO as (E1 & E2 & E3 & E4).
    rewrite <- !app_assoc. cbn [app]. rewrite <- !app_assoc. cbn [app].
    replace (hd ++ n_peer h ++ bs ":" ++ n_peer_port h ++ bs " (" ++ method_spelling m ++ bs " " ++ 47%N :: 10%N :: x ++ 10%N :: y ++ bs " HTTP/2" ++ bs ") --> " ++ n_host h ++ bs ":" ++ n_port h ++ bs " (" ++ bs "400 Bad Request" ++ bs ")" ++ [10%N])
      with ((hd ++ n_peer h ++ bs ":" ++ n_peer_port h ++ bs " (" ++ method_spelling m ++ bs " /") ++ 10%N :: x ++ 10%N :: (y ++ bs " HTTP/2" ++ bs ") --> " ++ n_host h ++ bs ":" ++ n_port h ++ bs " (" ++ bs "400 Bad Request" ++ bs ")") ++ [10%N])
      by (rewrite <- !app_assoc; reflexivity).
    assert (SM : no_lf (method_spelling m)) by (destruct m; apply no_lf_bs; reflexivity).
    rewrite file_lines_end by (repeat (apply no_lf_app; [first [assumption|apply no_lf_bs; reflexivity]|]); apply no_lf_bs; reflexivity).
    rewrite file_lines_end by exact X.
    rewrite file_lines_end by (repeat (apply no_lf_app; [first [assumption|apply no_lf_bs; reflexivity]|]); apply no_lf_bs; reflexivity).
    reflexivity.
Qed.
