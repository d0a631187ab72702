(** What a client sees of a whole HTTP/1.1 connection (Server.v). *)
From Verif Require Import Base CStr CNum Buffer BufferProofs Names Status NamesProofs Reqline ReqlineSpec Header HeaderProofs Encode EncodeProofs ReqFlow ReqFlowProofs ReqFlowLaws.
From Verif Require Import Response ResponseProofs Mime PyBridge PyBridgeProofs Server.
From Verif Require AcceptEnc Route RouteProofs Mount MountProofs.
Local Open Scope nat_scope.

(** ** Specification *)
(** A request as the client sends it: the line, what it says, the path without leading slashes, the fields, the declared
    length, the body; [w_after]: the bytes of the line behind the path; [w_check]: what the Accept checks say. *)
Record wreq := mkWreq { w_line : list N; w_method : method; w_parsed : reqline; w_path : list N; w_fields : list field;
                        w_len : nat; w_body : list N; w_after : list N; w_check : option seen }.
Definition text_of (q : wreq) : list N := w_line q ++ CRLF ++ section (w_fields q) ++ w_body q.
(** What was agreed about the coding of the content. *)
Inductive agreed (fs : list field) : option (list (AcceptEnc.coding * Z) * AcceptEnc.decision) -> Prop :=
| ag_ok v l d : picks of_encoding fs v -> AcceptEnc.accept_encoding v = Ok (AcceptEnc.EncOk l d) -> agreed fs (Some (l, d))
| ag_no v r : picks of_encoding fs v -> AcceptEnc.accept_encoding v = Ok r -> enc_says r <> None -> agreed fs None.
Section SITE.
Context {W : Type} (s : site W) (enc : AcceptEnc.coding -> list N -> list N) (os : list MountProofs.mop).
(** A request the theorem speaks of: those of [fits] and [served] (ReqFlowLaws.v) that are sent completely, are not HEAD
    requests, do not make the handler give up, and, when they have a body, pass the Accept checks and do not ask for 100. *)
Definition proper (q : wreq) : Prop :=
  let e := with_after (s_env s) (w_after q) in
  ReqFlowLaws.fits e (s_per s) (w_line q) (w_method q) (w_parsed q) (w_fields q) (w_len q) (w_body q) /\
  served e os (w_parsed q) (w_method q) (w_path q) /\ declares (w_fields q) (w_len q) /\ accept_says (w_fields q) (w_check q) /\
  length (w_body q) = w_len q /\ w_method q <> HEAD /\ w_check q <> Some SError /\ (w_len q = 0 \/ (w_check q = None /\ ~ expects_100 (w_fields q))).
Definition env_at (q : wreq) acc : renv := with_request (s_renv s) acc (Route.allow_value (e_regs (s_env s)) (l_uri (w_parsed q) ++ w_after q)).
(** The answer: its bytes, what becomes of the connection, and the next state of the application. *)
Inductive replied (w : W) (q : wreq) : seen -> list N -> fate -> W -> Prop :=
| rp_status n reason acc : In (Z.of_N n, reason) rfc_reasons -> agreed (w_fields q) acc ->
    replied w q (SStatus n) (wire (spec_line (Z.of_N n) reason) (status_fields (env_at q acc) (type_from_long (Z.of_N n)) []) []) (if (n =? 413)%N then FClose else FKeep) w
| rp_handler rt ps h body x w' a reason acc fs1 res fs :
    s_app s w rt ps (w_parsed q) h body = (x, w') -> documented (s_debug s) (s_terr s) x a -> In (a_status a, reason) rfc_reasons -> agreed (w_fields q) acc ->
    defaulted (s_defaults s rt) (a_fields a) fs1 -> says (env_at q acc) a fs1 res ->
    let c := coding_used (env_at q acc) res in let content := coded enc c (a_content a) in
    final_fields (env_at q acc) res c (length content) fs ->
    replied w q (SHandler rt ps (Some (w_parsed q)) h body) (wire (spec_line (a_status a) reason) fs content) (fate_of fs) w'
| rp_file f acc res : agreed (w_fields q) acc -> file_response (env_at q acc) (s_file s f) = Ok res ->
    let c := coding_used (env_at q acc) res in let content := coded enc c (f_data (s_file s f)) in
    replied w q (SFile f) (wire (bs "HTTP/1.1 200 OK" ++ [13; 10]%N) (file_fields (env_at q acc) (s_file s f) c (length content)) content) FKeep w.
(** What reaches the client of an answer [out] with fate [f]: pieces of it, each from its start (Properties_Response has a refutation of more);
    the answer itself when the socket takes it at once, perhaps after blocking first. *)
Definition passed_on (out : list N) (f : fate) (ios : list io) (out' : list N) (f' : fate) : Prop :=
  (exists ns, out' = flat_map (fun n => firstn n out) ns) /\
  forall k n t, ios = repeat Blocked k ++ Took n :: t -> length out <= n -> out' = out /\ f' = f.
Definition standing_of (f : fate) : standing := match f with FKeep => Open | FClose => Closed | FError => Dropped | FWait => Writing end.
(** Exchanges one after the other on a connection: every request is answered with its own answer before the next one is
    read, until an answer closes the connection or a request is not complete; a request that is complete is answered at
    the latest when there were as many turns of the event loop as it has bytes. *)
Definition exchange := (wreq * list (list offer) * list io)%type.
Inductive dialogue : W -> list exchange -> list (list N) -> standing -> W -> Prop :=
| dg_end w : dialogue w [] [] Open w
| dg_reading w q ts ios xs : (Forall (fun t => t <> []) ts -> length ts < length (text_of q)) -> dialogue w ((q, ts, ios) :: xs) [] Reading w
| dg_keep w q ts ios xs sn out f out' outs st w1 w2 :
    answered (with_after (s_env s) (w_after q)) (MountProofs.srun [] os) (w_parsed q) (w_method q) (w_path q) (w_fields q) (w_len q) (w_body q) sn ->
    replied w q sn out f w1 -> passed_on out f ios out' FKeep -> dialogue w1 xs outs st w2 -> dialogue w ((q, ts, ios) :: xs) (out' :: outs) st w2
| dg_close w q ts ios xs sn out f out' f' w1 :
    answered (with_after (s_env s) (w_after q)) (MountProofs.srun [] os) (w_parsed q) (w_method q) (w_path q) (w_fields q) (w_len q) (w_body q) sn ->
    replied w q sn out f w1 -> passed_on out f ios out' f' -> f' <> FKeep -> dialogue w ((q, ts, ios) :: xs) [out'] (standing_of f') w1.
Definition round_of (x : exchange) : round := let '(q, ts, ios) := x in mkRound (text_of q) (w_after q) ts ios.
(** The application: every outcome is documented and can be sent (C84), for all its states. *)
Definition ordinary : Prop :=
  (forall rt, fields_ok (s_defaults s rt)) /\
  forall w rt ps r h b x w', s_app s w rt ps r h b = (x, w') -> exists a reason, documented (s_debug s) (s_terr s) x a /\ fields_ok (a_fields a) /\ In (a_type a) mime_names /\
    length (a_content a) <= v_max (s_renv s) /\ In (a_status a, reason) rfc_reasons /\ ~ In (a_status a) bad_codes /\
    (length (a_content a) < v_threshold (s_renv s) \/
     forall acc allow fs1 res, acc <> None -> no_nul allow -> says (with_request (s_renv s) acc allow) a fs1 res -> deliverable (with_request (s_renv s) acc allow) enc res).
(** The files: every one can be sent (C63). *)
Definition sendable : Prop := forall f, let F := s_file s f in
  f_over F = false /\ no_nul (f_etag F) /\ no_nul (f_lastmod F) /\ no_nul (f_mime F) /\ f_size F = length (f_data F) /\
  forall acc allow res, acc <> None -> no_nul allow -> file_response (with_request (s_renv s) acc allow) F = Ok res -> sane (with_request (s_renv s) acc allow) enc res /\ deliverable (with_request (s_renv s) acc allow) enc res.

(** ** Proofs *)
Lemma method_no_nul m : no_nul (Route.method_name m).
Proof. destruct m; apply no_nulb_ok; reflexivity. Qed.
Lemma join_no_nul ms : no_nul (Route.join_names ms).
Proof.
  induction ms as [|m [|m' t] IH]; cbn [Route.join_names]; [constructor|apply method_no_nul|]. apply Forall_app. split; [apply method_no_nul|]. apply Forall_app. split; [apply (no_nulb_ok (bs ", ")); reflexivity|exact IH].
Qed.
Lemma at_ok acc allow : env_ok (s_renv s) enc -> no_nul allow -> env_ok (with_request (s_renv s) acc allow) enc.
Proof. intros V A. destruct V. constructor; auto. Qed.
Lemma negotiated_ok fs o : Forall field_ok fs -> accept_says fs o -> exists acc, negotiated (mkHci (map delivered fs) (length fs)) = Ok acc /\ agreed fs acc /\ (o = None -> acc <> None).
Proof.
  intros F S. unfold negotiated. destruct (picks_lookup find_ae of_encoding fs eq_refl find_ae_spec F) as (v & -> & P). cbn [obind].
  assert (X : exists r, AcceptEnc.accept_encoding v = Ok r /\ (o = None -> enc_says r = None)).
  { inversion S as [v0 r s0 V R E|v0 r v1 r1 s0 V R E|v0 r v1 r1 v2 r2 s0 V R E|v0 r v1 r1 v2 r2 v3 r3 o' V R E]; subst; rewrite (picks_fun _ _ _ _ P V); exists r; (split; [exact R|]); auto; discriminate. }
  destruct X as (r & R & O). rewrite R. cbn [obind]. eexists. split; [reflexivity|]. destruct r; (split; [|intros Q; specialize (O Q); try discriminate O; discriminate]).
  all: first [eapply ag_ok; eassumption|eapply ag_no; [eassumption|eassumption|discriminate]].
Qed.
(** The status codes of the answers. *)
Lemma codes n : In n [400; 404; 405; 406; 413; 500]%N -> exists reason, code_for n = Some (type_from_long (Z.of_N n)) /\ In (Z.of_N n, reason) rfc_reasons /\ ~ In (Z.of_N n) bad_codes /\ type_from_long (Z.of_N n) <> S100 /\
  (match type_from_long (Z.of_N n) with S413 => FClose | _ => FKeep end) = (if (n =? 413)%N then FClose else FKeep) /\ type_from_long (Z.of_N n) <> S304.
Proof.
  intros I. cbn in I.
  repeat (destruct I as [<-|I]; [eexists; split; [reflexivity|]; split; [cbn; repeat first [left; reflexivity|right]|]; split; [intros Q; vm_compute in Q; intuition discriminate|]; split; [discriminate|]; split; [reflexivity|discriminate]|]).
  contradiction.
Qed.
Lemma says_codes fs sn : accept_says fs (Some sn) -> sn = SError \/ exists n, sn = SStatus n /\ In n [400; 404; 405; 406; 413; 500]%N.
Proof.
  intros S. inversion S as [v r s0 V R E|v r v1 r1 s0 V R E V1 R1 E1|v r v1 r1 v2 r2 s0 V R E V1 R1 E1 V2 R2 E2|v r v1 r1 v2 r2 v3 r3 o' V R E V1 R1 E1 V2 R2 E2 V3 R3 E3]; subst.
  - destruct r; try discriminate E; injection E as <-; right; eexists; (split; [reflexivity|]); cbn; auto 10.
  - destruct r1; try discriminate E1; injection E1 as <-; auto; right; eexists; (split; [reflexivity|]); cbn; auto 10.
  - destruct r2; try discriminate E2; injection E2 as <-; right; eexists; (split; [reflexivity|]); cbn; auto 10.
  - match goal with Q : cl_says r3 = Some sn |- _ => destruct r3; try discriminate Q; injection Q as <- end; right; eexists; (split; [reflexivity|]); cbn; auto 10.
Qed.
Lemma respond_passed v r sl : able v enc r sl ->
  exists fs, final_fields v r (coding_used v r) (length (coded enc (coding_used v r) (payload r))) fs /\
    forall ios, exists out' f', Response.respond v r ios = Ok (out', f') /\ passed_on (wire sl fs (coded enc (coding_used v r) (payload r))) (fate_of fs) ios out' f'.
Proof.
  intros A. destruct (event_ok v enc r sl 1 A) as (fs & FF & E). exists fs. split; [exact FF|].
  destruct A as (_ & _ & _ & SL). destruct (wire_long sl fs (coded enc (coding_used v r) (payload r)) (status_line_HT _ _ _ SL)) as (q & WQ).
  set (o := wire sl fs _) in *. intros ios. unfold Response.respond. rewrite E. destruct (write_prefixes o ios 0) as (ns & P). destruct (write o 0 ios) as ((x, st), t) eqn:WR. cbn [fst] in P.
  assert (X : forall f', (forall k n t, ios = repeat Blocked k ++ Took n :: t -> length o <= n -> f' = fate_of fs) -> passed_on o (fate_of fs) ios x f').
  { intros f' Y. split; [exists ns; exact P|]. intros k n t' EI L. split; [|exact (Y k n t' EI L)]. rewrite EI in WR. rewrite write_blocks in WR by (split; [rewrite WQ; cbn [length]; lia|exact L]). congruence. }
  assert (D : forall k n t, ios = repeat Blocked k ++ Took n :: t -> length o <= n -> st = Done).
  { intros k n t' EI L. rewrite EI in WR. rewrite write_blocks in WR by (split; [rewrite WQ; cbn [length]; lia|exact L]). congruence. }
  destruct st; eexists; eexists; (split; [reflexivity|]); apply X; intros k n t' EI L; specialize (D k n t' EI L); try discriminate D; reflexivity.
Qed.
Lemma file_able v f : env_ok v enc -> f_over f = false -> no_nul (f_etag f) -> no_nul (f_lastmod f) -> no_nul (f_mime f) -> f_size f = length (f_data f) ->
  exists r, file_response v f = Ok r /\ (sane v enc r -> deliverable v enc r -> able v enc r (bs "HTTP/1.1 200 OK" ++ [13; 10]%N)) /\ payload r = f_data f /\
    forall n fs, final_fields v r (coding_used v r) n fs -> fs = file_fields v f (coding_used v r) n.
Proof.
  intros V O E1 E2 E3 SZ. destruct (file_header v enc f V O E1 E2 E3) as (h & R & H & EH). eexists. split; [exact R|].
  set (r := mkRes V1_1 S200 h None (Some f) (f_size f) false false (Some (f_coding f))) in *. split; [intros S D; split; [exact S|]; split; [exact D|]; split; reflexivity|]. split; [reflexivity|].
  intros n fs (fs0 & G & EF). inversion G as [Y|? ? ? ? P]; subst; try discriminate. change (r_header r) with h in EF. rewrite EH in EF. cbn [app] in EF.
  apply (mod_there (bs "Content-Length") _ _ [] _ _ EF). intros [].
Qed.
(** The answer to one verdict. *)
Lemma reply_ok w q v : proper q -> env_ok (s_renv s) enc -> ordinary -> sendable ->
  answered (with_after (s_env s) (w_after q)) (MountProofs.srun [] os) (w_parsed q) (w_method q) (w_path q) (w_fields q) (w_len q) (w_body q) (view v) ->
  settled (w_parsed q) (mkHci (map delivered (w_fields q)) (length (w_fields q))) v ->
  exists rv res out f w', reply s w (w_after q) v = Some (Ok (rv, res), w') /\ replied w q (view v) out f w' /\
    forall ios, exists out' f', Response.respond rv res ios = Ok (out', f') /\ passed_on out f ios out' f'.
Proof.
  intros (FI & SV & DC & AS & LB & NH & NE & BD) V ORD SND AN (_ & ST).
  assert (FS : Forall field_ok (w_fields q)) by apply FI. destruct (negotiated_ok _ _ FS AS) as (acc & NG & AG & AN0).
  assert (VA : env_ok (env_at q acc) enc) by (apply at_ok; [exact V|apply join_no_nul]).
  assert (RE : forall q', q_line q' = Some (w_parsed q) -> q_hdr q' = mkHci (map delivered (w_fields q)) (length (w_fields q)) -> renv_for s (w_after q) q' = Ok (env_at q acc)).
  { intros q' L H. unfold renv_for. rewrite H, NG. cbn [obind]. rewrite L. reflexivity. }
  assert (STATUS : forall n q', view v = SStatus n -> In n [400; 404; 405; 406; 413; 500]%N -> v = VStatus n q' -> q_line q' = Some (w_parsed q) -> q_hdr q' = mkHci (map delivered (w_fields q)) (length (w_fields q)) ->
    exists rv res out f w', reply s w (w_after q) v = Some (Ok (rv, res), w') /\ replied w q (view v) out f w' /\
      forall ios, exists out' f', Response.respond rv res ios = Ok (out', f') /\ passed_on out f ios out' f').
  { intros n q' EV I -> L H. destruct (codes n I) as (reason & CF & IR & NB & N1 & FT & N3). cbn [reply view]. rewrite CF, (RE q' L H). cbn [obind].
    destruct (status_lines _ _ IR NB) as (SL & _). unfold app_status_line in SL.
    destruct (status_ok (env_at q acc) enc (type_from_long (Z.of_N n)) [] (spec_line (Z.of_N n) reason) VA (Forall_nil _) SL N1) as (res & R & A & CU & PL & U).
    destruct (respond_passed _ _ _ A) as (fs & FF & X). rewrite CU, PL in *. cbn [coded length] in *. apply U in FF. subst fs.
    replace (match type_from_long (Z.of_N n) with S304 => _ | _ => Ok [] end) with (Ok (A := list N) []) by (destruct (type_from_long (Z.of_N n)); try reflexivity; contradiction).
    cbn [obind]. rewrite R. cbn [obind]. do 5 eexists. split; [reflexivity|]. split; [apply rp_status; eassumption|]. rewrite <- FT, <- (status_fate (env_at q acc) (type_from_long (Z.of_N n)) []). exact X. }
  assert (DISP : forall body, accept_says (w_fields q) None -> dispatched (with_after (s_env s) (w_after q)) (MountProofs.srun [] os) (w_parsed q) (w_method q) (w_path q) (w_fields q) body (view v) ->
    exists rv res out f w', reply s w (w_after q) v = Some (Ok (rv, res), w') /\ replied w q (view v) out f w' /\
      forall ios, exists out' f', Response.respond rv res ios = Ok (out', f') /\ passed_on out f ios out' f').
  { intros body S0 D. assert (AC : acc <> None) by (apply AN0; exact (says_fun _ _ _ AS S0)).
    inversion D as [a rt c ps ER SE FA CA NU ES|a rt c ER SE FA NU ES|f FA EM FN RG ES|FA EM RG ES|FA RG ES].
    - destruct v as [| | | | |rt' ps' q'| |]; try discriminate ES. cbn [view] in ES. destruct ST as (L & H). injection ES as <- <- EL EH EB. cbn [reply view]. rewrite L, H, <- EB.
      destruct ORD as (DF & ORD). destruct (s_app s w rt ps (w_parsed q) (mkHci (map delivered (w_fields q)) (length (w_fields q))) body) as (x, w') eqn:EA. destruct (ORD _ _ _ _ _ _ _ _ EA) as (ans & reason & DO & FO & TY & MX & IR & NB & DL).
      assert (HD : (match l_method (w_parsed q) with Some m => method_eqb m HEAD | None => false end) = false).
      { destruct FI as (_ & _ & LM & _). rewrite LM. destruct (w_method q); try reflexivity. contradiction. }
      rewrite HD, (RE q' L H). cbn [obind].
      destruct (handler_says (env_at q acc) enc (s_debug s) (s_terr s) (s_defaults s rt) x ans VA DO (DF rt) FO TY MX) as (res & fs1 & AW & DE & SY).
      rewrite AW. cbn [obind].
      assert (AB : able (env_at q acc) enc res (spec_line (a_status ans) reason)).
      { split; [apply (says_sane _ _ _ _ _ VA SY); right; exact AC|]. split.
        - destruct DL as [DL|DL]; [exact (proj1 (says_small _ _ _ _ _ VA SY DL))|exact (DL _ _ _ _ AC (join_no_nul _) SY)].
        - destruct SY as (h & -> & _). split; [reflexivity|]. exact (proj1 (status_lines _ _ IR NB)). }
      destruct (respond_passed _ _ _ AB) as (fs & FF & X). rewrite (says_payload _ _ _ _ SY) in *. do 5 eexists. split; [reflexivity|]. split; [eapply rp_handler; eassumption|]. exact X.
    - destruct v as [| | | |n' q'| | |]; try discriminate ES. cbn in ES. injection ES as <-. destruct ST as (L & H). refine (STATUS 500%N q' eq_refl _ eq_refl L H). cbn; auto 10.
    - destruct v as [| | | | | |f' q'|]; try discriminate ES. cbn [view] in ES. injection ES as <-. destruct ST as (L & H). cbn [reply view]. rewrite (RE q' L H). cbn [obind].
      destruct (SND f) as (O & E1 & E2 & E3 & SZ & OK). destruct (file_able (env_at q acc) (s_file s f) VA O E1 E2 E3 SZ) as (res & R & AB & PL & U).
      rewrite R. cbn [obind]. destruct (OK _ _ _ AC (join_no_nul _) R) as (SA & DL). destruct (respond_passed _ _ _ (AB SA DL)) as (fs & FF & X). rewrite PL in *. apply U in FF. subst fs.
      do 5 eexists. split; [reflexivity|]. split; [apply rp_file; eassumption|]. exact X.
    - destruct v as [| | | |n' q'| | |]; try discriminate ES. cbn in ES. injection ES as <-. destruct ST as (L & H). refine (STATUS 405%N q' eq_refl _ eq_refl L H). cbn; auto 10.
    - destruct v as [| | | |n' q'| | |]; try discriminate ES. cbn in ES. injection ES as <-. destruct ST as (L & H). refine (STATUS 404%N q' eq_refl _ eq_refl L H). cbn; auto 10. }
  inversion AN as [x S ES|S N0 X L ES|S N0 X L ES|S N0 X L ES|x S N0 D ES|x S N0 X L D ES]; subst;
    try (destruct BD as [BD|(_ & BD)]; contradiction).
  - pose proof (says_fun _ _ _ AS S) as Q. destruct (says_codes _ _ S) as [E|(n & E & I)]; [rewrite Q, E in NE; contradiction|].
    destruct v as [| | | |n' q'| | |]; try discriminate E. cbn in E. injection E as ->. destruct ST as (L & H). exact (STATUS n q' eq_refl I eq_refl L H).
  - destruct v as [| | | |n' q'| | |]; try discriminate ES. cbn in ES. injection ES as <-. destruct ST as (L' & H). refine (STATUS 413%N q' eq_refl _ eq_refl L' H). cbn; auto 10.
  - apply (DISP None); assumption.
  - apply (DISP (Some (firstn (w_len q) (w_body q)))); assumption.
Qed.
Lemma text_length q : length (text_of q) = length (w_line q ++ CRLF ++ section (w_fields q)) + length (w_body q).
Proof. unfold text_of. rewrite !app_length. lia. Qed.
Theorem conversation : env_ok (s_renv s) enc -> ordinary -> sendable -> ~ In 10%N (s_junk s) ->
  forall xs w, Forall (fun x => proper (fst (fst x))) xs -> exists outs st w', converse s w [] (map round_of xs) = Ok (outs, st, w') /\ dialogue w xs outs st w'.
Proof.
  intros V ORD SND J. induction xs as [|((q, ts), ios) xs IH]; intros w P; [exists [], Open, w; split; [reflexivity|constructor]|].
  pose proof (Forall_inv P) as PQ. pose proof (Forall_inv_tail P) as PT. cbn [fst] in PQ. clear P. pose proof PQ as PQ'. destruct PQ' as (FI & SV & DC & AS & LB & NH & NE & BD).
  cbn [map round_of converse]. cbn [rd_sent rd_after rd_turns rd_ios app].
  destruct (request_settled (with_after (s_env s) (w_after q)) os (s_per s) (w_line q) (w_method q) (w_parsed q) (w_path q) (w_fields q) (w_len q) (w_body q) (s_junk s) ts (w_check q) FI SV DC AS J)
    as (rq & k & IQ & AW & OUT). change (e_max (with_after (s_env s) (w_after q))) with (e_max (s_env s)) in IQ. rewrite IQ.
  fold (text_of q) in OUT. pose proof (text_length q) as TL. set (hl := length (w_line q ++ CRLF ++ section (w_fields q))) in *.
  assert (KN : k = w_len q).
  { destruct BD as [BD|(BD & BE)]; [destruct AW as [(_ & _ & K)|[(_ & _ & K)|(sn & _ & K)]]; lia|].
    destruct AW as [(_ & _ & K)|[(_ & EX & K)|(sn & S & K)]]; [exact K|contradiction|]. rewrite BD in AS. pose proof (says_fun _ _ _ AS S). discriminate. }
  destruct OUT as [(rcv & src & q' & SE & ALL & LR & PR)|(rcv & src & v & ts' & SE & ALL & LR & AN & ST)]; rewrite SE; apply (f_equal (@length N)) in ALL; rewrite app_length in ALL.
  - cbn [reply]. exists [], Reading, w. split; [reflexivity|]. apply dg_reading. intros NT. destruct PR as [->|PR]; [cbn in ALL; lia|]. specialize (PR NT). lia.
  - assert (SN : src = []) by (destruct src; [reflexivity|cbn [length] in ALL; lia]). subst src.
    destruct (reply_ok w q v PQ V ORD SND AN ST) as (rv & res & out & f & w1 & RP & RD & RS). rewrite RP. destruct (RS ios) as (out' & f' & RE & PO). rewrite RE.
    destruct f'.
    + destruct (IH w1 PT) as (outs & st & w2 & CV & DG). rewrite CV. do 3 eexists. split; [reflexivity|]. eapply dg_keep; eassumption.
    + do 3 eexists. split; [reflexivity|]. eapply (dg_close _ _ _ _ _ _ _ _ _ FClose); try eassumption. discriminate.
    + do 3 eexists. split; [reflexivity|]. eapply (dg_close _ _ _ _ _ _ _ _ _ FError); try eassumption. discriminate.
    + do 3 eexists. split; [reflexivity|]. eapply (dg_close _ _ _ _ _ _ _ _ _ FWait); try eassumption. discriminate.
Qed.
(** With enough turns no request stays unanswered unless the connection ends. *)
Lemma dialogue_complete w xs outs st w' : dialogue w xs outs st w' ->
  Forall (fun x => let '(q, ts, _) := x in Forall (fun t => t <> []) ts /\ length (text_of q) <= length ts) xs ->
  st <> Reading /\ length outs <= length xs /\ (st = Open -> length outs = length xs).
Proof.
  induction 1 as [w|w q ts ios xs H|w q ts ios xs sn out f out' outs st w1 w2 AN RP PO DG IH|w q ts ios xs sn out f out' f' w1 AN RP PO NF]; intros F.
  - split; [discriminate|]. cbn. auto.
  - apply Forall_inv in F as (NT & L). specialize (H NT). lia.
  - destruct (IH (Forall_inv_tail F)) as (A & B & C). split; [exact A|]. cbn [length]. split; [lia|]. intros E. specialize (C E). lia.
  - cbn [length]. destruct f'; [contradiction| | |]; (split; [discriminate|]); (split; [lia|]); discriminate.
Qed.
End SITE.
