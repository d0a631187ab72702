(** Multipart bodies: theorems.  [received fields body] is what a handler finds as the body of a request with the given
    fields; [body_of b ps body] says that [body] is the multipart text with boundary [b] for the parts [ps]. *)
From Verif Require Import Base CStr Mime Multipart MultipartProofs.
Local Open Scope N_scope.

(** ** C76 *)
(** For every boundary, every list of parts and every way of writing them (preamble, blanks around the colons, epilogue)
    the handler sees exactly the fields and contents of the parts, in order.  Missing with respect to RFC 2046 and 7578:
    fields whose names do not begin with "Content-", contents that begin with a NUL or contain "--" and the boundary
    inside a line, blanks after the delimiter, and other ways of giving the boundary (all refuted below). *)
Theorem multipart_exact_partial : forall fields b ps body,
  first_ct fields (ct_value b) -> good_boundary b -> ps <> [] -> body_of b ps body ->
  received fields body = Ok (Parts ps).
Proof. exact received_exact. Qed.
Print Assumptions multipart_exact_partial.

Definition CRLF : list N := crlf.
Definition ex_fields (v : list N) : list (list N * list N) := [(bs "Host", bs "h"); (bs "Content-Type", v)].
Definition ex_line (n v : string) : list N := bs n ++ bs ": " ++ bs v ++ CRLF.
Example multipart_exact_nonvacuous :
  let fields := ex_fields (ct_value (bs "xx")) in
  let body := bs "hello" ++ CRLF ++
    bs "--xx" ++ CRLF ++ ex_line "Content-Disposition" "form-data; name=a" ++ CRLF ++ bs "1--x" ++ CRLF ++
    bs "--xx" ++ CRLF ++ ex_line "Content-Disposition" "form-data; name=b" ++ ex_line "Content-Type" "text/plain" ++ CRLF ++ CRLF ++
    bs "--xx--" ++ bs "bye" in
  first_ct fields (ct_value (bs "xx")) /\ good_boundary (bs "xx") /\
  body_of (bs "xx") [([(bs "Content-Disposition", bs "form-data; name=a")], bs "1--x");
                     ([(bs "Content-Disposition", bs "form-data; name=b"); (bs "Content-Type", bs "text/plain")], [])] body /\
  received fields body =
    Ok (Parts [([(bs "Content-Disposition", bs "form-data; name=a")], bs "1--x");
               ([(bs "Content-Disposition", bs "form-data; name=b"); (bs "Content-Type", bs "text/plain")], [])]).
Proof.
  assert (L : forall n v, good_name (bs n) -> good_value (bs v) -> line_of (bs n, bs v) (ex_line n v)).
  { intros n v Hn Hv. unfold ex_line. change (bs ": ") with ([58] ++ [32]).
    apply (LineOf (bs n) (bs v) [] [32]); auto. constructor; [now left|constructor]. }
  assert (V : forall v, subb crlf v = false -> match v with x :: _ => negb ((x =? 32) || (x =? 9)) | [] => true end = true -> good_value v).
  { intros v H1 H2. split; [now apply subb_sub|]. intros x r -> [J|J]; subst; discriminate. }
  assert (Nm : forall n r, n = bs "Content-" ++ r -> forallb (fun x => negb ((x =? 32) || (x =? 9) || (x =? 58))) n = true -> good_name n).
  { intros n r E H. split; [now exists r|]. intros x Hx. rewrite forallb_forall in H. specialize (H x Hx).
    apply negb_true_iff, orb_false_iff in H as [H H3]. apply orb_false_iff in H as [H1 H2].
    apply N.eqb_neq in H1, H2, H3. split; [|exact H3]. intros [J|J]; contradiction. }
  assert (GN1 : good_name (bs "Content-Disposition")) by (apply (Nm _ (bs "Disposition")); reflexivity).
  assert (GN2 : good_name (bs "Content-Type")) by (apply (Nm _ (bs "Type")); reflexivity).
  split; [|split; [|split]].
  - exists [(bs "Host", bs "h")], (bs "Content-Type"), []. split; [reflexivity|]. split; [now left|].
    intros h [<-|[]]. split; discriminate.
  - split; [discriminate|]. vm_compute. intuition discriminate.
  - exists (bs "hello" ++ CRLF). eexists. exists (bs "bye"). split; [|split].
    + right. exists (bs "hello"). split; [reflexivity|]. apply subb_sub. reflexivity.
    + eapply MoreParts.
      * eapply MoreLines; [apply L; [exact GN1|apply V; reflexivity]|apply NoLines].
      * split; [apply subb_sub; reflexivity|intros r; discriminate].
      * eapply MoreParts; [|split; [apply subb_sub; reflexivity|intros r; discriminate]|apply NoParts].
        eapply MoreLines; [apply L; [exact GN1|apply V; reflexivity]|].
        eapply MoreLines; [apply L; [exact GN2|apply V; reflexivity]|apply NoLines].
    + vm_compute. reflexivity.
  - vm_compute. reflexivity.
Qed.

(** Whatever the body, well-formed or not: the contents a handler sees are disjoint pieces of the body it was sent, in
    their order in the body. *)
Theorem multipart_contents_pieces : forall fields body l, received fields body = Ok (Parts l) -> pieces (map snd l) body.
Proof. exact received_pieces. Qed.
Print Assumptions multipart_contents_pieces.
Example multipart_contents_pieces_nonvacuous :
  received (ex_fields (ct_value (bs "x"))) (bs "--x" ++ CRLF ++ CRLF ++ bs "a" ++ CRLF ++ bs "--y --x?") =
  Ok (Parts [([], bs "a" ++ CRLF ++ bs "--")]).
Proof. vm_compute. reflexivity. Qed.

(** The parser ends for every request. *)
Theorem multipart_terminates : forall fields body, received fields body <> UB Diverges.
Proof. exact received_total. Qed.
Print Assumptions multipart_terminates.
Example multipart_terminates_nonvacuous :
  received (ex_fields (ct_value (bs "-"))) (bs "------------") = Ok (Raw (bs "------------")).
Proof. vm_compute. reflexivity. Qed.

(** ** Where it fails *)
(** After well-formed parts [ps] (possibly none), a part with a field whose name does not begin with "Content-" — RFC 7578
    4.8 says to ignore such a field, and field names are case-insensitive — is dropped with everything behind it; if it
    is the first part the handler is given the whole body as plain bytes. *)
Theorem foreign_field_drops_rest : forall fields b ps fs ls k body,
  first_ct fields (ct_value b) -> good_boundary b -> lines_of fs ls ->
  (8 <= length k)%nat -> (forall r, k <> bs "Content-" ++ r) -> (forall r, k <> crlf ++ r) ->
  body_upto b ps (crlf ++ ls ++ k) body ->
  received fields body = Ok (match ps with [] => Raw body | _ => Parts ps end).
Proof. exact received_foreign. Qed.
Print Assumptions foreign_field_drops_rest.
Theorem field_case_refuted : exists body,
  body = bs "--b" ++ CRLF ++ ex_line "content-disposition" "form-data; name=a" ++ CRLF ++ bs "1" ++ CRLF ++ bs "--b--" /\
  received (ex_fields (ct_value (bs "b"))) body = Ok (Raw body).
Proof. eexists. split; [reflexivity|]. vm_compute. reflexivity. Qed.
Print Assumptions field_case_refuted.

(** Anything but "--" or a line break directly after a delimiter (RFC 2046 allows blanks there) ends the parsing: later
    parts are lost. *)
Theorem padding_drops_rest : forall fields b ps c d r body,
  first_ct fields (ct_value b) -> good_boundary b -> [c; d] <> dashes -> [c; d] <> crlf ->
  body_upto b ps (c :: d :: r) body ->
  received fields body = Ok (match ps with [] => Raw body | _ => Parts ps end).
Proof. exact received_padding. Qed.
Print Assumptions padding_drops_rest.
Theorem padding_refuted : exists body,
  body = bs "--b " ++ CRLF ++ ex_line "Content-Disposition" "form-data; name=a" ++ CRLF ++ bs "1" ++ CRLF ++ bs "--b--" /\
  received (ex_fields (ct_value (bs "b"))) body = Ok (Raw body).
Proof. eexists. split; [reflexivity|]. vm_compute. reflexivity. Qed.
Print Assumptions padding_refuted.

(** A part whose content begins with a NUL byte (a file of zeros, say) is given to the handler with empty content, and all
    parts behind it are lost.  (A content of one NUL, or of NUL and then "--" or a line break, is a further special case.) *)
Theorem nul_content_drops_rest : forall fields b ps fs ls c d r body,
  first_ct fields (ct_value b) -> good_boundary b -> lines_of fs ls -> [c; d] <> dashes -> [c; d] <> crlf ->
  body_upto b ps (crlf ++ ls ++ crlf ++ 0 :: c :: d :: r) body ->
  received fields body = Ok (Parts (ps ++ [(fs, [])])).
Proof. exact received_nul. Qed.
Print Assumptions nul_content_drops_rest.
Theorem nul_content_refuted : exists body,
  body = bs "--b" ++ CRLF ++ CRLF ++ [0; 1; 2] ++ CRLF ++ bs "--b" ++ CRLF ++ CRLF ++ bs "2" ++ CRLF ++ bs "--b--" /\
  received (ex_fields (ct_value (bs "b"))) body = Ok (Parts [([], [])]).
Proof. eexists. split; [reflexivity|]. vm_compute. reflexivity. Qed.
Print Assumptions nul_content_refuted.

(** A body that ends right after a delimiter is read beyond its end. *)
Theorem cut_body_overruns : forall fields b ps body,
  first_ct fields (ct_value b) -> good_boundary b -> body_upto b ps [] body ->
  received fields body = UB OutOfBounds.
Proof. exact received_cut. Qed.
Print Assumptions cut_body_overruns.
Example cut_body_overruns_nonvacuous : body_upto (bs "b") [] [] (bs "--b").
Proof. exists [], []. split; [now left|]. split; [constructor|reflexivity]. Qed.
(** So is any multipart body whose last byte is a minus sign, whatever the boundary. *)
Theorem last_minus_refuted : received (ex_fields (ct_value (bs "b"))) (bs "a-") = UB OutOfBounds.
Proof. vm_compute. reflexivity. Qed.
Print Assumptions last_minus_refuted.

(** "--" and the boundary inside a line is not a delimiter, but it is taken for one. *)
Theorem inner_delimiter_refuted : exists body,
  body = bs "--b" ++ CRLF ++ CRLF ++ bs "x--b--y" ++ CRLF ++ bs "--b--" /\
  received (ex_fields (ct_value (bs "b"))) body = Ok Fails.
Proof. eexists. split; [reflexivity|]. vm_compute. reflexivity. Qed.
Print Assumptions inner_delimiter_refuted.

(** Content types that mean the same: without a space before the parameter the handler is given plain bytes, and with a
    quoted boundary or another parameter before it the delimiters are not found and the "--" at the end of the body makes
    the parser read beyond it. *)
Theorem boundary_spelling_refuted : exists body,
  body = bs "--b" ++ CRLF ++ CRLF ++ bs "1" ++ CRLF ++ bs "--b--" /\
  received (ex_fields (bs "multipart/form-data; boundary=b")) body = Ok (Parts [([], bs "1")]) /\
  received (ex_fields (bs "multipart/form-data;boundary=b")) body = Ok (Raw body) /\
  received (ex_fields (bs "multipart/form-data; boundary=""b""")) body = UB OutOfBounds /\
  received (ex_fields (bs "multipart/form-data; charset=utf-8; boundary=b")) body = UB OutOfBounds.
Proof.
  eexists. split; [reflexivity|]. split; [vm_compute; reflexivity|]. split; [vm_compute; reflexivity|].
  split; vm_compute; reflexivity.
Qed.
Print Assumptions boundary_spelling_refuted.

(** ** C99 *)
(** A request without a content type, or with one of the nine other types that fly knows, gets its body to the handler as
    it was sent. *)
Theorem known_type_plain_partial : forall fields body,
  (forall n v, In (n, v) fields -> n = bs "Content-Type" \/ n = bs "content-type" ->
     exists m r, In m mimes /\ mt_name m <> bs "multipart/form-data" /\ v = mt_name m ++ r) ->
  received fields body = Ok (Raw body).
Proof. exact received_plain. Qed.
Print Assumptions known_type_plain_partial.
Example known_type_plain_nonvacuous : received (ex_fields (bs "application/json; charset=utf-8")) (bs "[1]") = Ok (Raw (bs "[1]")) /\
  exists m r, In m mimes /\ mt_name m <> bs "multipart/form-data" /\ bs "application/json; charset=utf-8" = mt_name m ++ r.
Proof.
  split; [vm_compute; reflexivity|]. exists (mkMime (bs "application/json") []), (bs "; charset=utf-8").
  split; [cbn; tauto|]. split; [discriminate|reflexivity].
Qed.
(** A request with a body whose content type is not one of the ten that fly knows overruns the table of types before the
    handler is called. *)
Theorem unknown_type_refuted :
  received (ex_fields (bs "application/x-www-form-urlencoded")) (bs "a=1") = UB OutOfBounds.
Proof. vm_compute. reflexivity. Qed.
Print Assumptions unknown_type_refuted.
Theorem unknown_type_overruns : forall fields v body, first_ct fields v ->
  (forall m, In m mimes -> forall r, v <> mt_name m ++ r) -> received fields body = UB OutOfBounds.
Proof. exact received_unknown. Qed.
Print Assumptions unknown_type_overruns.
Example unknown_type_overruns_nonvacuous : first_ct (ex_fields (bs "image/png")) (bs "image/png") /\
  (forall m, In m mimes -> forall r, bs "image/png" <> mt_name m ++ r).
Proof.
  split.
  - exists [(bs "Host", bs "h")], (bs "Content-Type"), []. split; [reflexivity|]. split; [now left|].
    intros h [<-|[]]. split; discriminate.
  - intros m H r E. repeat (destruct H as [<-|H]; [discriminate|]). exact H.
Qed.
