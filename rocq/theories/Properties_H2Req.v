(** Properties C107, C108 and C109: requests over HTTP/2 (model: H2Req.v; specification: the first part of H2ReqProofs.v
    and the definitions of H2ReqLaws.v). *)
From Verif Require Import Base CStr CNum Names NamesProofs Buffer Reqline ReqlineSpec ReqlineProofs Header HeaderProofs ReqFlow ReqFlowProofs ReqFlowLaws H2Req H2ReqProofs H2ReqLaws.
From Verif Require Route RouteProofs Mount MountProofs Properties_Mount Properties_ReqFlow.
Local Open Scope N_scope.

(** ** C107.  Full statement (false, see below): every :path RFC 7540 section 8.1.2.3 allows is split at the question mark
    into the path and the query, every other one is refused, and so are field lists that are not one :method, one :scheme
    and one :path followed by regular fields.  The two theorems say exactly which targets and which fields are taken. *)
Theorem h2_target_exact : forall m v u q, target_parse m v = Ok (Some (u, q)) <-> h2_target m v u q.
Proof. exact target_exact. Qed.
Print Assumptions h2_target_exact.
Theorem h2_target_total : forall m v, exists o, target_parse m v = Ok o.
Proof. intros m v. destruct (target_sound m v) as (o & E & _). exists o. exact E. Qed.
Print Assumptions h2_target_total.
Example h2_target_ex : h2_target GET (bs "/a/b?x=1&y=/") (bs "/a/b") (Some (bs "x=1&y=/")) /\ target_parse GET (bs "/a/b?x=1&y=/") = Ok (Some (bs "/a/b", Some (bs "x=1&y=/"))).
Proof.
  assert (E : target_parse GET (bs "/a/b?x=1&y=/") = Ok (Some (bs "/a/b", Some (bs "x=1&y=/")))) by (vm_compute; reflexivity).
  split; [apply target_exact|]; exact E.
Qed.
Theorem h2_line_exact : forall conn fs m u, Forall clean fs ->
  line_from_header conn (map stored fs) = Ok (Some (m, u)) <->
  Forall harmless fs /\ (exists f, last_of (kind_of (bs ":method")) fs f /\ starts (method_spelling m) (snd f)) /\ (exists f, last_of (kind_of (bs ":path")) fs f /\ snd f = u).
Proof. exact line_exact. Qed.
Print Assumptions h2_line_exact.
Theorem h2_line_total : forall conn fs, Forall clean fs -> exists o, line_from_header conn (map stored fs) = Ok o.
Proof. exact line_total. Qed.
Print Assumptions h2_line_total.
Definition ex_ps : list sent_field := [(bs ":method", bs "POST"); (bs ":scheme", bs "http"); (bs ":path", bs "/a"); (bs ":authority", bs "x")].
Lemma ex_clean : Forall clean ex_ps.
Proof. repeat (apply Forall_cons; [split; apply no_nulb_ok; reflexivity|]). constructor. Qed.
Lemma ex_pseudo : Forall pseudo_field ex_ps.
Proof. repeat (apply Forall_cons; [eexists; reflexivity|]). constructor. Qed.
Lemma ex_names : names_request ex_ps POST (bs "/a").
Proof. apply (proj1 (line_exact http ex_ps POST (bs "/a") ex_clean)). vm_compute. reflexivity. Qed.
Example h2_line_ex : Forall clean ex_ps /\ names_request ex_ps POST (bs "/a") /\ line_from_header http (map stored ex_ps) = Ok (Some (POST, bs "/a")).
Proof. split; [exact ex_clean|]. split; [exact ex_names|]. vm_compute. reflexivity. Qed.
(** Finding: no target with a percent-encoded octet is accepted, in the path or in the query, although the same target is
    accepted over HTTP/1.1 (C14). *)
Theorem h2_percent_rejected : forall m p q, abs_path p -> query_text q -> In 37 (p ++ q) ->
  (q = [] -> target_parse m p = Ok None) /\ target_parse m (p ++ 63 :: q) = Ok None.
Proof. exact percent_rejected. Qed.
Print Assumptions h2_percent_rejected.
Theorem h2_percent_refuted : exists p q, abs_path p /\ query_text q /\ (exists r, parse_reqline (bs "GET " ++ p ++ 63 :: q ++ bs " HTTP/1.1" ++ [13; 10]) = Ok (Some r) /\ l_uri r = p) /\
  target_parse GET p = Ok None /\ target_parse GET (p ++ 63 :: q) = Ok None.
Proof.
  exists (bs "/a%20b"), (bs "x=1"). split; [|split; [|split; [eexists; split; vm_compute; reflexivity|split; vm_compute; reflexivity]]].
  - split; [eexists; reflexivity|]. apply enc_char; [right; reflexivity|]. apply enc_char; [left; apply pchar_class; reflexivity|].
    apply enc_pct; [apply hex_class; reflexivity|apply hex_class; reflexivity|]. apply enc_char; [left; apply pchar_class; reflexivity|]. apply enc_nil.
  - repeat (apply enc_char; [left; apply pchar_class; reflexivity|]). apply enc_nil.
Qed.
Print Assumptions h2_percent_refuted.
(** The question mark of an empty query stays in the path; what follows a space is kept in the path; a target of blanks is
    a path; "*" may be followed by anything. *)
Theorem h2_target_refuted :
  target_parse GET (bs "/a?") = Ok (Some (bs "/a?", None)) /\ target_parse GET (bs "/a b c") = Ok (Some (bs "/a b c", None)) /\
  target_parse GET (bs "  ") = Ok (Some (bs "  ", None)) /\ target_parse OPTIONS (bs "*/../x") = Ok (Some (bs "*/../x", None)).
Proof. repeat split; vm_compute; reflexivity. Qed.
Print Assumptions h2_target_refuted.
(** Two :path fields (the last one counts), no :scheme, a pseudo-header field behind a regular one, a name that only
    begins like one, a method that only begins like one: all accepted; a scheme that is not http is not. *)
Theorem h2_pseudo_refuted :
  line_from_header http (map stored [(bs ":pathological", bs "/b"); (bs ":path", bs "/a"); (bs ":method", bs "GETTING"); (bs "x", bs "y"); (bs ":path", bs "/c")]) = Ok (Some (GET, bs "/c")) /\
  line_from_header http (map stored [(bs ":method", bs "GET"); (bs ":path", bs "/"); (bs ":scheme", bs "ftp")]) = Ok None.
Proof. split; vm_compute; reflexivity. Qed.
Print Assumptions h2_pseudo_refuted.
(** Finding: an empty :method or :scheme value (stored as NULL when the name is sent in full, v2.c:4150-4195) behind any
    acceptable fields crashes the worker. *)
Theorem h2_empty_method_crashes : forall conn fs x rest, Forall clean fs -> Forall harmless fs -> x = bs ":method" \/ x = bs ":scheme" ->
  line_from_header conn (map stored fs ++ new_hdr x [] :: rest) = UB NullDeref.
Proof. exact empty_pseudo_crashes. Qed.
Print Assumptions h2_empty_method_crashes.
Theorem h2_empty_method_refuted : exists hs, length hs = 3%nat /\ line_from_header http hs = UB NullDeref.
Proof. exists [new_hdr (bs ":path") (bs "/"); new_hdr (bs ":method") []; new_hdr (bs "x") (bs "y")]. split; [reflexivity|]. vm_compute. reflexivity. Qed.
Print Assumptions h2_empty_method_refuted.

(** ** C108.  Full statement (false, see below): a request over HTTP/2 gets the answer the same request gets over HTTP/1.1.
    [answered] is the relation of C19.  Proved for every site, every list of pseudo-header fields that names a target (see
    C107), every list of regular fields with values, every declared length within the limit and every way to cut the body
    into DATA frames.  Missing: percent-encoded targets (refused), empty field values (see below), Expect, bodies with a
    Content-Encoding (C119), and the header and status lines the response gets (H2Conn.v, Response.v). *)
Theorem h2_same_answer_partial : forall e os conn ps fs m v uri query r p n junk ds o, Forall clean ps -> Forall pseudo_field ps -> Forall regular fs ->
  names_request ps m v -> h2_target m v uri query -> r = mkReqline (Some m) uri query (Some V2) -> served e os r m p -> declares fs n -> (n = 0%nat \/ uncoded fs) -> accept_says fs o ->
  ~ expects_100 fs -> (n <= e_max e)%nat -> total ds = n ->
  exists s s', h2_request e conn (list_of ps fs) junk ds = Ok s' /\ alike (list_of ps fs) s s' /\ answered e (MountProofs.srun [] os) r m p fs n (concat ds) s.
Proof. exact h2_same. Qed.
Print Assumptions h2_same_answer_partial.
(** Without the assumptions on the length: what is answered in every case. *)
Theorem h2_answer_exact_partial : forall e os conn ps fs m v uri query r p n junk ds o, Forall clean ps -> Forall pseudo_field ps -> Forall regular fs ->
  names_request ps m v -> h2_target m v uri query -> r = mkReqline (Some m) uri query (Some V2) -> served e os r m p -> declares fs n -> (n = 0%nat \/ uncoded fs) -> accept_says fs o ->
  exists s, h2_request e conn (list_of ps fs) junk ds = Ok s /\ h2_says e (MountProofs.srun [] os) r m p fs (list_of ps fs) n junk ds s.
Proof. exact h2_settled. Qed.
Print Assumptions h2_answer_exact_partial.
Definition ex_fs : list field := Properties_ReqFlow.ex_fs.
Definition ex_e : env := Properties_ReqFlow.e0.
Example h2_same_answer_ex : Forall clean ex_ps /\ Forall pseudo_field ex_ps /\ Forall regular ex_fs /\ names_request ex_ps POST (bs "/a") /\ h2_target POST (bs "/a") (bs "/a") None /\
  served ex_e [] (mkReqline (Some POST) (bs "/a") None (Some V2)) POST (bs "a") /\ declares ex_fs 5 /\ uncoded ex_fs /\ accept_says ex_fs None /\ ~ expects_100 ex_fs /\
  h2_request ex_e http (list_of ex_ps ex_fs) [] [bs "he"; []; bs "llo"] =
    Ok (HHandler (Route.mkRoute (bs "/a") POST 0 []) [] (mkReqline (Some POST) (bs "/a") None (Some V2)) (list_of ex_ps ex_fs) (Some (bs "hello"))).
Proof.
  destruct Properties_ReqFlow.request_answered_ex as (_ & (S1 & S2 & S3 & _) & DC & AS & _).
  split; [exact ex_clean|]. split; [exact ex_pseudo|]. split.
  { assert (F : Forall field_ok ex_fs) by (apply fields_okb_ok; reflexivity). inversion F as [|? ? F1 F2]; subst. inversion F2 as [|? ? F3 _]; subst. apply Forall_cons; [split; [exact F1|discriminate]|]. apply Forall_cons; [split; [exact F3|discriminate]|]. constructor. }
  split; [exact ex_names|]. split; [apply target_exact; vm_compute; reflexivity|]. split.
  { split; [exact S1|]. split; [exact S2|]. split; [exact S3|]. split; [reflexivity|]. split; [intros I; vm_compute in I; intuition discriminate|]. split; [exists 1%nat; reflexivity|]. split; [exact Logic.I|discriminate]. }
  split; [exact DC|]. split; [constructor; [|constructor; [|constructor]]; intros Q; discriminate Q|]. split; [exact AS|]. split.
  { intros (f & I & E & _). destruct I as [<-|[<-|[]]]; discriminate E. }
  vm_compute. reflexivity.
Qed.
(** Finding: an Accept-Language field with an empty value crashes the worker, whatever the request. *)
Theorem h2_empty_language_crashes : forall e conn ps v m uri query, Forall clean ps -> Forall pseudo_field ps -> names_request ps m v -> h2_target m v uri query ->
  h2_request e conn (mkHci (map stored ps ++ [new_hdr (bs "accept-language") []]) (length ps + 1)) [] [] = UB NullDeref.
Proof. exact empty_language_crashes. Qed.
Print Assumptions h2_empty_language_crashes.
Theorem h2_empty_language_refuted : exists e ps, names_request ps POST (bs "/a") /\
  h2_request e http (mkHci (map stored ps ++ [new_hdr (bs "accept-language") []]) (length ps + 1)) [] [] = UB NullDeref.
Proof.
  exists ex_e, ex_ps. split; [exact ex_names|]. apply (empty_language_crashes _ _ _ (bs "/a") POST (bs "/a") None ex_clean ex_pseudo ex_names). apply target_exact. vm_compute. reflexivity.
Qed.
Print Assumptions h2_empty_language_refuted.

(** Conditional requests for mounted files: the name a client has to use over HTTP/2 (in lower case) has no effect, the one it must not use
    has.  304 is answered exactly if the value is the file's tag. *)
Definition ex_site (t : list N) : option env :=
  match MountProofs.mrun Properties_Mount.ex_cfg Mount.mount_init Properties_Mount.ex_history with
  | Ok (Some mt) => Some (mkEnv 100 [] Properties_Mount.ex_cfg mt (fun _ => t) (fun _ => []) (fun _ => None) (fun _ => false) [])
  | _ => None
  end.
Definition ask_file (e : env) (name value : list N) : outcome hseen :=
  h2_request e http (mkHci (map stored [(bs ":method", bs "GET"); (bs ":path", bs "/css/index.html"); (name, value)]) 3) [] [].
Theorem h2_conditional_refuted : exists e f, ex_site (bs "tag") = Some e /\ Mount.f_name f = bs "css/index.html" /\ ask_file e (bs "if-none-match") (bs "tag") = Ok (HFile f) /\ ask_file e (bs "If-None-Match") (bs "tag") = Ok (HStatus 304) /\ ask_file e (bs "If-None-Match") (bs "old") = Ok (HFile f).
Proof.
  eexists. exists (Mount.mkPf 2 (bs "css/index.html") false). split; [vm_compute; reflexivity|]. split; [reflexivity|].
  split; [vm_compute; reflexivity|]. split; vm_compute; reflexivity.
Qed.
Print Assumptions h2_conditional_refuted.

(** ** C109.  Full statement (false, see below): the handler's body is the concatenation of the payloads of the DATA frames.
    Exactly: the body for every declared length and every list of payloads, with [None] for a closed connection. *)
Theorem h2_body_exact_partial : forall max n junk ds, (Z.of_nat n < 2 ^ 64)%Z -> data_frames max (Z.of_nat n) junk BNone ds =
  if (total ds =? 0)%nat then Some BNone
  else if (max <? n)%nat then Some BDiscard
  else if (n <? total ds)%nat then None
  else Some (BOpen (concat ds ++ skipn (total ds) (fresh n junk)) (total ds)).
Proof. exact frames_exact. Qed.
Print Assumptions h2_body_exact_partial.
Example h2_body_ex : option_map body_of (data_frames 100 5 [7; 7] BNone [bs "he"; []; bs "llo"]) = Some (Some (bs "hello")).
Proof. reflexivity. Qed.
(** If the frames bring as many bytes as were declared, the body is their concatenation, however it is cut. *)
Theorem h2_body_declared : forall max junk ds, concat ds <> [] -> (length (concat ds) <= max)%nat -> (Z.of_nat (length (concat ds)) < 2 ^ 64)%Z ->
  option_map body_of (data_frames max (Z.of_nat (length (concat ds))) junk BNone ds) = Some (Some (concat ds)).
Proof. exact body_declared. Qed.
Print Assumptions h2_body_declared.
(** Finding: without Content-Length (which HTTP/2 does not require) any body closes the connection. *)
Theorem h2_undeclared_body_closes : forall max junk ds, concat ds <> [] -> data_frames max 0 junk BNone ds = None.
Proof. exact undeclared_body. Qed.
Print Assumptions h2_undeclared_body_closes.
Theorem h2_undeclared_body_refuted : exists ds, concat ds = bs "hello" /\ h2_request ex_e http (list_of ex_ps []) [] ds = Ok HFail.
Proof. exists [bs "hello"]. split; [reflexivity|]. vm_compute. reflexivity. Qed.
Print Assumptions h2_undeclared_body_refuted.
(** Finding: if the frames bring fewer bytes than declared the handler gets memory that was never written. *)
Theorem h2_short_body_refuted : exists junk ds rt r ci, concat ds = bs "he" /\
  h2_request ex_e http (list_of ex_ps ex_fs) junk ds = Ok (HHandler rt [] r ci (Some (bs "he" ++ bs "KEY"))) /\ skipn 2 junk = bs "KEY".
Proof. exists (bs "12KEY"), [bs "he"]. do 3 eexists. split; [reflexivity|]. split; vm_compute; reflexivity. Qed.
Print Assumptions h2_short_body_refuted.
