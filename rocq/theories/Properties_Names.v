(** Properties C26 (names), C35 (MIME types of files), C66 (status codes), C85 (protocol negotiation). *)
From Verif Require Import Base CStr Names Status Mime NamesProofs.

(** ** C26.  Request-line tokens (HTTP/1).  [mem] is any memory with at least [len] readable bytes:
    a token is recognised as method [m] exactly when it is spelled like [m], and rejected exactly
    when it is no method's spelling; no byte outside the token is read. *)
Theorem names_method_token_exact : forall mem len m, len <= length mem ->
  (match_method_len mem len = Ok (Some m) <-> firstn len mem = method_spelling m) /\
  (match_method_len mem len = Ok None <-> forall m', firstn len mem <> method_spelling m').
Proof. exact method_len_exact. Qed.
Print Assumptions names_method_token_exact.
Example names_method_token_exact_ex : match_method_len (bs "DELETE /x") 6 = Ok (Some DELETE) /\ match_method_len (bs "DELET /x") 5 = Ok None.
Proof. split; reflexivity. Qed.

Theorem names_version_token_exact : forall mem len v, len <= length mem ->
  (match_version_len mem len = Ok (Some v) <-> firstn len mem = version_number v) /\
  (match_version_len mem len = Ok None <-> forall v', firstn len mem <> version_number v').
Proof. exact version_len_exact. Qed.
Print Assumptions names_version_token_exact.
Example names_version_token_exact_ex : match_version_len (bs "1.1") 3 = Ok (Some V1_1) /\ match_version_len (bs "1.0") 3 = Ok None.
Proof. split; reflexivity. Qed.

(** Every type maps to its name, and the name maps back to the type. *)
Theorem names_type_roundtrip : forall m s v,
  method_name_of_type m = Some (method_spelling m) /\ match_method_name (method_spelling m) = Some m /\
  match_method_len (method_spelling m) (length (method_spelling m)) = Ok (Some m) /\
  scheme_name_of_type s = Some (scheme_spelling s) /\
  match_version_alpn (version_protocol v) = Ok (Some v) /\
  match_version_len (version_number v) (length (version_number v)) = Ok (Some v).
Proof. intros m s v. destruct m, s, v; repeat split. Qed.
Print Assumptions names_type_roundtrip.

(** Methods of HTTP/2 requests and of registered routes: exactly the strings that *begin* with a
    method name are taken, so the full claim (equality) holds only for strings that are no proper
    extension of a method name. *)
Theorem names_method_string_partial : forall s m, (forall m' r, s = method_spelling m' ++ r -> r = []) ->
  (match_method_name s = Some m <-> s = method_spelling m).
Proof.
  intros s m H. rewrite method_name_prefix, is_prefix_spec. split.
  - intros [r E]. rewrite E, (H m r E). apply app_nil_r.
  - intros ->. exists []. symmetry. apply app_nil_r.
Qed.
Print Assumptions names_method_string_partial.
Theorem names_method_string_prefix : forall s m, match_method_name s = Some m <-> exists r, s = method_spelling m ++ r.
Proof. intros s m. rewrite method_name_prefix. apply is_prefix_spec. Qed.
Print Assumptions names_method_string_prefix.
Theorem names_method_string_refuted : exists s m, match_method_name s = Some m /\ s <> method_spelling m.
Proof. exists (bs "GETAWAY"), GET. split; [reflexivity|discriminate]. Qed.
Print Assumptions names_method_string_refuted.

(** Schemes: every string beginning with "http" is taken as http; https is never recognised; the
    check used for absolute-form request targets rejects everything. *)
Theorem names_scheme_result : forall s,
  match_scheme_name s = (if is_prefix (bs "http") s then Some http else None).
Proof. exact scheme_name_result. Qed.
Print Assumptions names_scheme_result.
Theorem names_scheme_refuted : match_scheme_name (scheme_spelling https) = Some http /\
  (forall s, match_scheme_name s <> Some https) /\ match_scheme_name (bs "httpfoo") = Some http.
Proof.
  split; [reflexivity|]. split; [|reflexivity]. intros s. rewrite scheme_name_result. destruct (is_prefix _ s); discriminate.
Qed.
Print Assumptions names_scheme_refuted.
Theorem names_absolute_scheme_refuted : forall mem e, is_fly_scheme mem e = Ok false.
Proof. exact is_fly_scheme_false. Qed.
Print Assumptions names_absolute_scheme_refuted.
(** The variants with an end character accept proper prefixes of a name. *)
Theorem names_with_end_refuted : match_method_with_end (bs "P ") 32%N = Ok (Some POST) /\ match_version_with_end (bs "1 ") 32%N = Ok (Some V1_1).
Proof. split; reflexivity. Qed.
Print Assumptions names_with_end_refuted.

(** ** C85.  TLS negotiation: whatever list of (at most 127 bytes long) protocol names the client
    offers, the server answers with h2 if offered, else http/1.1 if offered, else with none, and the
    connection speaks HTTP/2 exactly when h2 was offered. *)
Theorem alpn_negotiation : forall names, names <> [] -> Forall (fun n => 1 <= length n < 128) names ->
  exists v, negotiated (alpn_wire names) = Ok (Some v) /\ (v = V2 <-> In (bs "h2") names) /\
  (forall p, ssl_alpn (alpn_wire names) = Ok (Some p) <->
     (p = bs "h2" /\ In p names) \/ (p = bs "http/1.1" /\ In p names /\ ~ In (bs "h2") names)).
Proof.
  intros names Hn F. destruct (negotiated_spec names Hn F) as [E1 E2]. rewrite E1, E2. eexists. split; [reflexivity|].
  cbn [version_protocol List.find]. rewrite <- (existsb_In names (bs "h2")).
  assert (Q : forall p, ((p = bs "h2" /\ In p names) \/ (p = bs "http/1.1" /\ In p names /\ ~ existsb (fun n => bytes_eqb n (bs "h2")) names = true))
     <-> ((p = bs "h2" /\ existsb (fun n => bytes_eqb n (bs "h2")) names = true) \/ (p = bs "http/1.1" /\ existsb (fun n => bytes_eqb n (bs "http/1.1")) names = true /\ existsb (fun n => bytes_eqb n (bs "h2")) names = false))).
  { intros p. rewrite !not_true_iff_false. split; (intros [[-> H]|[-> [H K]]]; [left; split; [reflexivity|now apply existsb_In]|right; split; [reflexivity|split; [now apply existsb_In|exact K]]]). }
  split; [destruct (existsb _ names); split; congruence|].
  intros p. rewrite <- (existsb_In names (bs "h2")), Q. destruct (existsb (fun n => bytes_eqb n (bs "h2")) names).
  - split; [intros H; injection H as <-; left; auto|]. intros [[-> _]|[_ [_ H]]]; [reflexivity|discriminate].
  - destruct (existsb (fun n => bytes_eqb n (bs "http/1.1")) names).
    + split; [intros H; injection H as <-; right; auto|]. intros [[_ H]|[-> _]]; [discriminate|reflexivity].
    + split; [discriminate|]. intros [[_ H]|[_ [H _]]]; discriminate.
Qed.
Print Assumptions alpn_negotiation.
Example alpn_negotiation_ex : negotiated (alpn_wire [bs "spdy/3"; bs "http/1.1"; bs "h2"]) = Ok (Some V2)
  /\ negotiated (alpn_wire [bs "acme-tls/1"]) = Ok (Some V1_1).
Proof. split; reflexivity. Qed.
(** Names of 128 to 255 bytes are legal (RFC 7301) but their length octet is read as negative: the
    scan leaves the client's list. *)
Theorem alpn_negotiation_refuted : exists names, names <> [] /\ Forall (fun n => 1 <= length n < 256) names /\
  In (bs "h2") names /\ negotiated (alpn_wire names) = UB OutOfBounds.
Proof.
  exists [repeat 97%N 200; bs "h2"]. split; [discriminate|].
  split; [repeat constructor; vm_compute; lia|]. split; [cbn; auto|]. vm_compute. reflexivity.
Qed.
Print Assumptions alpn_negotiation_refuted.

(** ** C35.  The Content-Type of a file is determined by what follows the last dot of its name. *)
Theorem mime_by_last_dot : forall path,
  (forall ext t, has_ext path ext -> known_type ext = Some t -> file_content_type path = Ok t) /\
  (forall ext, has_ext path ext -> known_type ext = None -> file_content_type path = Ok (bs "text/plain")) /\
  (~ In 46%N path -> file_content_type path = Ok (bs "text/plain")).
Proof. exact file_content_type_spec. Qed.
Print Assumptions mime_by_last_dot.
Example mime_by_last_dot_ex : has_ext (bs "a/b.tar.html") (bs "html") /\ known_type (bs "html") = Some (bs "text/html")
  /\ file_content_type (bs "a/b.tar.html") = Ok (bs "text/html") /\ file_content_type (bs "README") = Ok (bs "text/plain").
Proof.
  split; [exists (bs "a/b.tar"); split; [reflexivity|vm_compute; intuition discriminate]|]. repeat split.
Qed.
(** A content type named by the application: known names are found; for any other name the search
    runs off the end of the table (the intended answer is "not found", i.e. a 500 response). *)
Theorem mime_by_name_partial : forall s, In s mime_names -> exists m, mime_from_str s = Ok m /\ mt_name m = s.
Proof. intros s. apply mime_from_str_spec. Qed.
Print Assumptions mime_by_name_partial.
Example mime_by_name_partial_ex : In (bs "text/css") mime_names.
Proof. cbn. auto 10. Qed.
Theorem mime_by_name_refuted : forall s, ~ In s mime_names -> mime_from_str s = UB OutOfBounds.
Proof. intros s. apply mime_from_str_spec. Qed.
Print Assumptions mime_by_name_refuted.
Example mime_by_name_refuted_ex : ~ In (bs "image/png") mime_names.
Proof. cbn. intuition discriminate. Qed.

(** ** C66.  For every status code with a registered meaning that fly lists, except the three
    below, the code chosen by a handler is sent with its reason phrase, in both protocols. *)
Theorem status_codes_partial : forall c r, In (c, r) rfc_reasons -> ~ In c [410; 411; 505]%Z ->
  app_status_line c = Ok (Some (bs "HTTP/1.1 " ++ code_digits c ++ bs " " ++ bs r ++ [13%N; 10%N])) /\
  app_status_v2 c = Ok (code_digits c).
Proof. exact status_lines. Qed.
Print Assumptions status_codes_partial.
Example status_codes_partial_ex : In (404%Z, "Not Found"%string) rfc_reasons /\ ~ In 404%Z [410; 411; 505]%Z /\
  app_status_line 404 = Ok (Some (bs "HTTP/1.1 404 Not Found" ++ [13%N; 10%N])).
Proof. split; [cbn; auto 60|]. split; [cbn; intuition discriminate|]. reflexivity. Qed.
(** 410 is sent with the phrase of 411, 411 cannot be sent, 505 is misspelled. *)
Theorem status_codes_refuted :
  app_status_line 410 = Ok (Some (bs "HTTP/1.1 410 Length Required" ++ [13%N; 10%N])) /\
  app_status_line 411 = UB NullDeref /\ app_status_v2 411 = UB NullDeref /\
  app_status_line 505 = Ok (Some (bs "HTTP/1.1 505 HTTP Version Not SUpported" ++ [13%N; 10%N])).
Proof. repeat split. Qed.
Print Assumptions status_codes_refuted.
(** Any integer that is not one of these codes is accepted from the handler and then printed from a
    NULL string instead of being rejected. *)
Theorem status_other_integers_refuted : forall l, (forall r, ~ In (l, r) rfc_reasons) ->
  app_status_line l = UB NullDeref /\ app_status_v2 l = UB NullDeref.
Proof.
  intros l H. unfold app_status_line, app_status_v2. rewrite (type_from_long_unknown l H). split; reflexivity.
Qed.
Print Assumptions status_other_integers_refuted.
Example status_other_integers_refuted_ex : forall r, ~ In (418%Z, r) rfc_reasons.
Proof. intros r I. cbn in I. repeat (destruct I as [E|I]; [discriminate E|]). exact I. Qed.
