From Verif Require Import Base CStr Names Status Mime CNum NamesProofs Header HeaderProofs Buffer BufferProofs Encode EncodeProofs Response ResponseProofs PyBridge PyBridgeProofs Redirect.
From Verif Require AcceptEnc H2Resp H2RespProofs.
From Coq Require Import Permutation.

(** ** Specification *)
(** The content an argument stands for. *)
Inductive content_of : arg -> list N -> Prop :=
| co_none : content_of ANone []
| co_str s : content_of (AStr s) s
| co_bytes b : content_of (ABytes b) b.
(** The redirections that have a reason phrase. *)
Definition known_redirects : list (Z * string) := [(300, "Multiple Choices"); (301, "Moved Permanently"); (302, "Found"); (303, "See Other"); (304, "Not Modified"); (307, "Temporary Redirect")]%Z%string.
(** The fields of a redirection, in the order in which they are sent. *)
Definition redirect_fields (v : renv) (l c : list N) : list (list N * list N) :=
  [(bs "location", l); (bs "Content-Type", bs "text/plain"); (bs "Date", v_date v); (bs "Server", v_server v); (bs "Content-Length", dec (N.of_nat (length c)))].

(** ** The function *)
Lemma redirect_ok loc st body p : redirect loc st body = Some p <->
  exists z l c, st = Some z /\ loc = AStr l /\ content_of body c /\ (300 <= z < 400)%Z /\ p = mkPy z [(bs "location", l)] c (bs "text/plain").
Proof.
  unfold redirect. split.
  - destruct st as [z|]; [|discriminate]. destruct ((z <? 300) || (400 <=? z))%Z eqn:E; [discriminate|]. apply orb_false_iff in E. destruct E as (E1 & E2).
    destruct loc as [|l| |]; try discriminate. intros H. exists z, l.
    destruct body as [|b|b|]; try discriminate; injection H as <-; eexists; (split; [reflexivity|]); (split; [reflexivity|]); (split; [constructor|]); (split; [lia|reflexivity]).
  - intros (z & l & c & -> & -> & C & R & ->). replace ((z <? 300) || (400 <=? z))%Z with false by (symmetry; apply orb_false_iff; split; lia).
    destruct C; reflexivity.
Qed.
Lemma redirect_doc loc st body p debug terr trace : redirect loc st body = Some p ->
  returns_redirect trace loc st body = Returned (PResp p) /\ documented debug terr (returns_redirect trace loc st body) (mkReply (p_status p) (p_header p) (p_body p) (p_ctype p)).
Proof. intros E. unfold returns_redirect. rewrite E. split; [reflexivity|constructor]. Qed.
Lemma location_field l : no_nul l -> fields_ok [(bs "location", l)].
Proof. intros Z. constructor; [|constructor]. cbn [fst snd]. split; [split; [discriminate|apply no_nulb_ok; reflexivity]|exact Z]. Qed.
Lemma plain_type : In (bs "text/plain") mime_names.
Proof. cbn. auto 80. Qed.
Lemma known_reasons z reason : In (z, reason) known_redirects -> In (z, reason) rfc_reasons /\ ~ In z bad_codes.
Proof.
  intros I. cbn in I. repeat (destruct I as [I|I]; [injection I as <- <-; split; [cbn; auto 60|cbn; intuition discriminate]|]). contradiction.
Qed.
Lemma unknown_reasons z : (300 <= z < 400)%Z -> (forall reason, ~ In (z, reason) known_redirects) -> forall reason, ~ In (z, reason) rfc_reasons.
Proof.
  intros R U reason I. apply (U reason). cbn in I. cbn.
  repeat (destruct I as [I|I]; [injection I as <- <-; first [exfalso; lia|auto 10]|]). contradiction.
Qed.

(** ** What is sent *)
Theorem redirect_exact v enc debug terr trace z l body c reason : env_ok v enc -> content_of body c -> no_nul l -> In (z, reason) known_redirects ->
  small v c -> length c < v_threshold v -> (c = [] -> v_default v (type_from_long z) = None) ->
  exists r, answer v false debug terr [] (returns_redirect trace (AStr l) (Some z) body) = Ok r /\
    let w := wire (spec_line z reason) (redirect_fields v l c) c in
    forall k n ios, length w <= n -> respond v r (repeat Blocked k ++ Took n :: ios) = Ok (w, FKeep).
Proof.
  intros V C Z I S TH DF. destruct (known_reasons z reason I) as (IR & NB).
  assert (RZ : (300 <= z < 400)%Z) by (cbn in I; repeat (destruct I as [I|I]; [injection I as <- <-; lia|]); contradiction).
  set (p := mkPy z [(bs "location", l)] c (bs "text/plain")).
  assert (RD : redirect (AStr l) (Some z) body = Some p) by (apply redirect_ok; exists z, l, c; repeat (split; [first [reflexivity|assumption]|]); reflexivity).
  destruct (redirect_doc _ _ _ _ debug terr trace RD) as (X & _). rewrite X.
  destruct (resp_bridge v p (location_field l Z) plain_type S) as (h0 & B & H0 & E0).
  unfold answer. change (wrapper debug terr [] (Returned (PResp p))) with (Some (PResp p)). rewrite B. cbn [obind].
  match goal with |- context [finish v ?r0] => destruct (finish_steps v enc r0 V H0) as (h & R & H & E) end. rewrite R. eexists. split; [reflexivity|].
  cbn [r_header] in E. cbv zeta in E. rewrite E0 in E. set (r := mkRes _ _ h _ _ _ _ _ _).
  change (entries h = [(bs "location", l); (bs "Content-Type", bs "text/plain"); (bs "Date", v_date v); (bs "Server", v_server v)]) in E.
  assert (Y : says v (mkReply z [(bs "location", l)] c (bs "text/plain")) [(bs "location", l)] r).
  { exists h. split; [reflexivity|]. split; [exact H|]. rewrite E. eexists. split; [reflexivity|]. apply Permutation_refl. }
  destruct (says_able v enc _ _ r reason V Y IR NB TH) as (A & CU). destruct (respond_exact v enc r _ A) as (fs & FF & W). rewrite CU, (says_payload _ _ _ _ Y) in *. cbn [coded a_content a_status] in *.
  assert (EF : fs = redirect_fields v l c).
  { destruct FF as (fs0 & G & EF). rewrite app_nil_r in EF. destruct G as [_|? ? ? B1 _ D1].
    - apply mod_absent in EF; [|cbn [r r_header]; rewrite E; unnamed]. cbn [r r_header] in EF. rewrite E in EF. exact EF.
    - exfalso. cbn [r r_body r_code] in B1, D1. destruct c; [|discriminate B1]. cbn [a_status p_status p] in D1. rewrite (DF eq_refl) in D1. discriminate D1. }
  subst fs. exact W.
Qed.
(** A redirection without a reason phrase. *)
Theorem redirect_unknown v enc debug terr trace ds z l body c : env_ok v enc -> content_of body c -> no_nul l -> fields_ok ds -> (300 <= z < 400)%Z -> (forall reason, ~ In (z, reason) known_redirects) ->
  small v c -> length c < v_threshold v ->
  exists r, answer v false debug terr ds (returns_redirect trace (AStr l) (Some z) body) = Ok r /\ forall ios, respond v r ios = UB NullDeref.
Proof.
  intros V C Z FD RZ U S TH. set (p := mkPy z [(bs "location", l)] c (bs "text/plain")).
  assert (RD : redirect (AStr l) (Some z) body = Some p) by (apply redirect_ok; exists z, l, c; repeat (split; [first [reflexivity|assumption]|]); reflexivity).
  destruct (redirect_doc _ _ _ _ debug terr trace RD) as (_ & D).
  refine (unknown_status v enc debug terr ds _ _ V D FD (location_field l Z) plain_type S _ TH). exact (unknown_reasons z RZ U).
Qed.
Theorem redirect_head v enc debug terr trace ds loc st body : env_ok v enc -> refused_with v (answer v true debug terr ds (returns_redirect trace loc st body)) S500.
Proof.
  intros V. destruct (redirect loc st body) as [p|] eqn:E.
  - destruct (redirect_doc _ _ _ _ debug terr trace E) as (X & D). apply (head_refused v enc debug terr ds _ _ V D). right. rewrite X. split; [discriminate|intros b; discriminate].
  - unfold returns_redirect. rewrite E. apply (head_refused v enc debug terr ds _ _ V (doc_exc debug terr trace)). right. split; [discriminate|intros b; discriminate].
Qed.
(** ** HTTP/2 *)
Theorem redirect_h2 e debug terr trace z l body c : content_of body c -> (300 <= z < 400)%Z -> length c <= v_max (H2Resp.e_v e) ->
  exists r, H2Resp.handler_answer2 e false debug terr [] (returns_redirect trace (AStr l) (Some z) body) = Ok r /\ H2Resp.p2_code r = type_from_long z /\
    H2Resp.p2_body r = c_body c /\ In (bs "location", l) (H2RespProofs.pairs (H2Resp.p2_fields r)).
Proof.
  intros C RZ S. set (p := mkPy z [(bs "location", l)] c (bs "text/plain")).
  assert (RD : redirect (AStr l) (Some z) body = Some p) by (apply redirect_ok; exists z, l, c; repeat (split; [first [reflexivity|assumption]|]); reflexivity).
  destruct (redirect_doc _ _ _ _ debug terr trace RD) as (X & _). rewrite X.
  destruct (mime_from_str (bs "text/plain")) as [m|] eqn:M; [|vm_compute in M; discriminate M].
  destruct (H2RespProofs.handler_pairs e debug terr [] (Returned (PResp p)) p eq_refl (fits _ _ S) m M) as (r & R & K & B & _ & _ & _ & P).
  { constructor; [discriminate|constructor]. }
  exists r. split; [exact R|]. split; [exact K|]. split; [exact B|]. rewrite P.
  assert (EN : forall n w fs f, In f fs -> In f (H2RespProofs.ensure n w fs)) by (intros n w fs f F; unfold H2RespProofs.ensure; destruct (existsb _ _); [exact F|apply in_or_app; left; exact F]).
  do 4 apply EN. left. reflexivity.
Qed.
