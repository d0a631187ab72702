(** C15-C17: header fields. *)
From Verif Require Import Base CStr CNum Names NamesProofs Buffer BufferProofs AcceptEncProofs Machine Reqline ReqlineProofs Header HeaderProofs.
Local Open Scope N_scope.

(** ** C15.  Full statement (false, see the refutations): for every sequence of well-formed header
    fields (name ":" OWS value OWS) the request has exactly this sequence of fields, names in lower case. *)
(** For a buffer of any number of blocks.  Missing: fields without white space after the colon, white space
    after the value, and fields that are not [placed] (name over two blocks, or value beginning in the
    last block when the name is in an earlier one). *)
Theorem headers_delivered_partial : forall fs b rest, wf b -> Forall field_ok fs -> all_placed b 0 fs -> stream b = section fs ++ rest ->
  exists b', reqheader_operation b = Ok (HSuccess (mkHci (map delivered fs) (length fs)) b') /\ wf b' /\ stream b' = rest.
Proof. exact (fun fs b rest W F A E => section_delivered fs b rest W F A E). Qed.
Print Assumptions headers_delivered_partial.
(** The same when everything is in one block, as it is with the default block size of 4096 bytes for
    a request that fits. *)
Theorem headers_delivered_one_block_partial : forall fs b rest, wf b -> length (b_chains b) = 1%nat -> Forall field_ok fs -> stream b = section fs ++ rest ->
  exists b', reqheader_operation b = Ok (HSuccess (mkHci (map delivered fs) (length fs)) b') /\ wf b' /\ stream b' = rest.
Proof.
  intros fs b rest W L F E. apply section_delivered; [exact W|exact F| |exact E]. apply one_block_placed; [exact L|exact W|exact F|]. rewrite E. unfold section. rewrite !app_length. cbn. lia.
Qed.
Print Assumptions headers_delivered_one_block_partial.
(** Arbitrary lines (no NUL) in one block: exactly the lines of [line_field] give a field, in order, and
    the others are skipped.  Two bytes are dropped at the end of the section. *)
Theorem headers_language_partial : forall b ls e1 e2 rest, wf b -> length (b_chains b) = 1%nat -> Forall plain_line ls -> e1 = 13 \/ e1 = 10 ->
  stream b = lines_text ls ++ e1 :: e2 :: rest ->
  exists hs b', reqheader_operation b = Ok (HSuccess (mkHci hs (length hs)) b') /\ parsed ls hs /\ wf b' /\ stream b' = rest.
Proof. exact header_language. Qed.
Print Assumptions headers_language_partial.
(** Each line gives at most one field. *)
Theorem header_line_unique : forall l n v n' v', line_field l n v -> line_field l n' v' -> n = n' /\ v = v'.
Proof. exact line_field_inj. Qed.
Print Assumptions header_line_unique.

Definition ex_fields : list field := [mkField (bs "Host") (bs " ") (bs "a.ex"); mkField (bs "X-Empty") (bs "  ") []; mkField (bs "host") (bs " ") (bs "b c")].
(** Two blocks of 32 bytes. *)
Definition ex_two (l : list N) : buffer :=
  mkBuffer [mkChain (firstn 32 l) 0 0; mkChain (skipn 32 l ++ repeat 0 (64 - length l)) 0 (64 - length l)] 2 9 32 (length l).
Definition ex_one (l : list N) : buffer := mkBuffer [mkChain (l ++ repeat 0 (64 - length l)) 0 (64 - length l)] 1 9 64 (length l).
Lemma ex_fields_ok : Forall field_ok ex_fields.
Proof. apply fields_okb_ok. reflexivity. Qed.
Example headers_delivered_example :
  wf (ex_two (section ex_fields ++ bs "body")) /\ all_placed (ex_two (section ex_fields ++ bs "body")) 0 ex_fields /\
  stream (ex_two (section ex_fields ++ bs "body")) = section ex_fields ++ bs "body" /\
  exists b', reqheader_operation (ex_two (section ex_fields ++ bs "body")) =
    Ok (HSuccess (mkHci [mkHdr (Some (bs "host")) (Some (bs "a.ex")); mkHdr (Some (bs "x-empty")) (Some []); mkHdr (Some (bs "host")) (Some (bs "b c"))] 3) b').
Proof.
  split; [unfold wf; vm_compute; repeat split; try lia; try discriminate|]. split; [vm_compute; auto 10|]. split; [reflexivity|].
  eexists. vm_compute. reflexivity.
Qed.
Example headers_language_example : Forall plain_line [bs "a: b" ++ [13]; bs "no colon"] /\ line_field (bs "a: b" ++ [13]) (bs "a") (bs "b") /\
  exists b', reqheader_operation (ex_one (lines_text [bs "a: b" ++ [13]; bs "no colon"] ++ [13; 10])) = Ok (HSuccess (mkHci [mkHdr (Some (bs "a")) (Some (bs "b"))] 1) b').
Proof.
  split; [|split].
  - constructor; [|constructor; [|constructor]]; (split; [discriminate|]; split; [vm_compute; discriminate|]; split; vm_compute; intuition discriminate).
  - apply (lf_crlf (bs "a") (bs " ") (bs "b")).
    + repeat (constructor; [vm_compute; repeat split; discriminate|]); constructor.
    + repeat (constructor; [auto|]); constructor.
    + discriminate.
    + repeat (constructor; [left; vm_compute; split; discriminate|]); constructor.
    + intros c t E. injection E as <- _. lia.
  - eexists. vm_compute. reflexivity.
Qed.

(** "name:value" without white space after the colon is skipped, whatever the name and the value. *)
Theorem header_no_space_dropped : forall n c v b rest, wf b -> length (b_chains b) = 1%nat -> n <> [] -> Forall name_char n -> Forall value_char (c :: v) -> c <> 32 -> c <> 9 ->
  stream b = n ++ bs ":" ++ (c :: v) ++ CRLF ++ CRLF ++ rest ->
  exists b', reqheader_operation b = Ok (HSuccess (mkHci [] 0) b') /\ stream b' = rest.
Proof. exact no_space_dropped. Qed.
Print Assumptions header_no_space_dropped.
Theorem header_no_space_refuted : exists n v b rest, Forall name_char n /\ Forall value_char v /\ wf b /\ stream b = n ++ bs ":" ++ v ++ CRLF ++ CRLF ++ rest /\
  exists b', reqheader_operation b = Ok (HSuccess (mkHci [] 0) b').
Proof.
  exists (bs "Content-Length"), (bs "5"), (ex_one (bs "Content-Length:5" ++ CRLF ++ CRLF)), []. split; [repeat (constructor; [reflexivity|]); constructor|].
  split; [repeat (constructor; [left; vm_compute; split; discriminate|]); constructor|]. split; [unfold wf; vm_compute; repeat split; try lia; try discriminate|]. split; [reflexivity|].
  exists (mkBuffer [mkChain (bs "Content-Length:5" ++ CRLF ++ CRLF ++ repeat 0 44) 20 44] 1 9 64 0). vm_compute. reflexivity.
Qed.
Print Assumptions header_no_space_refuted.
(** White space after the value becomes part of the value. *)
Theorem header_trailing_space_refuted : exists n v b, Forall name_char n /\ Forall value_char v /\ wf b /\ stream b = n ++ bs ": " ++ v ++ bs " " ++ CRLF ++ CRLF /\
  exists b', reqheader_operation b = Ok (HSuccess (mkHci [mkHdr (Some n) (Some (v ++ bs " "))] 1) b').
Proof.
  exists (bs "expect"), (bs "100-continue"), (ex_one (bs "expect: 100-continue " ++ CRLF ++ CRLF)). split; [repeat (constructor; [reflexivity|]); constructor|].
  split; [repeat (constructor; [left; vm_compute; split; discriminate|]); constructor|]. split; [unfold wf; vm_compute; repeat split; try lia; try discriminate|]. split; [reflexivity|].
  exists (mkBuffer [mkChain (bs "expect: 100-continue " ++ CRLF ++ CRLF ++ repeat 0 39) 25 39] 1 9 64 0). vm_compute. reflexivity.
Qed.
Print Assumptions header_trailing_space_refuted.
(** A value that begins in the last block while the name is in an earlier one is replaced by NUL bytes. *)
Theorem header_block_boundary_refuted : exists fs b, wf b /\ Forall field_ok fs /\ stream b = section fs /\
  exists b', reqheader_operation b = Ok (HSuccess (mkHci [mkHdr (Some (bs "a-name-of-twenty-nine-letters")) (Some [0; 0; 0])] 1) b').
Proof.
  exists [mkField (bs "a-name-of-twenty-nine-letters") (bs "  ") (bs "123")], (ex_two (section [mkField (bs "a-name-of-twenty-nine-letters") (bs "  ") (bs "123")])).
  split; [unfold wf; vm_compute; repeat split; try lia; try discriminate|]. split; [|split; [reflexivity|]].
  - apply fields_okb_ok. reflexivity.
  - eexists. vm_compute. reflexivity.
Qed.
Print Assumptions header_block_boundary_refuted.
(** A name over two blocks is read past the end of the first block. *)
Theorem header_name_boundary_refuted : exists fs b, wf b /\ Forall field_ok fs /\ stream b = section fs /\ reqheader_operation b = UB OutOfBounds.
Proof.
  exists [mkField (bs "a-name-of-more-than-thirty-two-letters") (bs " ") (bs "123")], (ex_two (section [mkField (bs "a-name-of-more-than-thirty-two-letters") (bs " ") (bs "123")])).
  split; [unfold wf; vm_compute; repeat split; try lia; try discriminate|]. split; [|split; [reflexivity|]].
  - apply fields_okb_ok. reflexivity.
  - vm_compute. reflexivity.
Qed.
Print Assumptions header_name_boundary_refuted.

(** ** C16.  Full statement (false, see the refutations): a field is found by its name whatever letter
    case the client used. *)
(** Content-Length: the first field so called counts. *)
Theorem content_length_any_case_partial : forall fs, Forall field_ok fs ->
  (forall f ds, first_field fs (bs "Content-Length") f -> Forall (fun b => is_digit b = true) ds -> ds <> [] -> f_value f = ds ->
     content_length (mkHci (map delivered fs) (length fs)) = Ok (Z.min long_max (Z.of_N (dec_value ds)))) /\
  (no_field fs (bs "Content-Length") -> content_length (mkHci (map delivered fs) (length fs)) = Ok 0%Z).
Proof. intros fs F. split; [intros f ds; exact (content_length_found fs f ds F)|exact (content_length_absent fs F)]. Qed.
Print Assumptions content_length_any_case_partial.
Theorem expect_any_case_partial : forall fs, Forall field_ok fs ->
  exists r, check_expect_100 (mkHci (map delivered fs) (length fs)) = Ok r /\
    (r = true <-> exists f, In f fs /\ same_name (f_name f) (bs "Expect") /\ same_name (f_value f) (bs "100-continue")).
Proof. exact expect_spec. Qed.
Print Assumptions expect_any_case_partial.
Theorem cookie_any_case_partial : forall f, field_ok f -> is_cookie (delivered f) = true <-> same_name (f_name f) (bs "Cookie").
Proof. exact cookie_spec. Qed.
Print Assumptions cookie_any_case_partial.
Definition ex_length_fields : list field := [mkField (bs "host") (bs " ") (bs "a"); mkField (bs "cONTENT-lENGTH") (bs " ") (bs "12"); mkField (bs "EXPECT") (bs " ") (bs "100-Continue")].
Example lookup_example : Forall field_ok ex_length_fields /\
  first_field ex_length_fields (bs "Content-Length") (mkField (bs "cONTENT-lENGTH") (bs " ") (bs "12")) /\
  content_length (mkHci (map delivered ex_length_fields) 3) = Ok 12%Z /\ check_expect_100 (mkHci (map delivered ex_length_fields) 3) = Ok true.
Proof.
  split; [|split; [|split; reflexivity]].
  - apply fields_okb_ok. reflexivity.
  - exists [mkField (bs "host") (bs " ") (bs "a")], [mkField (bs "EXPECT") (bs " ") (bs "100-Continue")]. split; [reflexivity|]. split; [reflexivity|]. constructor; [|constructor]. vm_compute. discriminate.
Qed.
(** The Connection and Content-Encoding fields of a request are never found, in no letter case. *)
Theorem connection_never_found : forall fs, Forall field_ok fs -> connection_keep (mkHci (map delivered fs) (length fs)) = Ok true.
Proof. exact connection_keep_always. Qed.
Print Assumptions connection_never_found.
Theorem content_encoding_never_found : forall fs, Forall field_ok fs -> content_encoding (mkHci (map delivered fs) (length fs)) = Ok None.
Proof. exact content_encoding_none. Qed.
Print Assumptions content_encoding_never_found.
Theorem lookup_any_case_refuted : exists f, field_ok f /\ same_name (f_name f) (bs "Connection") /\ f_value f = bs "close" /\
  connection_keep (mkHci [delivered f] 1) = Ok true /\ connection_keep (mkHci [mkHdr (Some (bs "Connection")) (Some (bs "close"))] 1) = Ok false.
Proof.
  exists (mkField (bs "Connection") (bs " ") (bs "close")). split; [|split; [reflexivity|split; [reflexivity|split; reflexivity]]].
  apply field_okb_ok. reflexivity.
Qed.
Print Assumptions lookup_any_case_refuted.

(** ** C17.  Full statement (false for duplicate names and empty names, see the refutations): every
    sequence of edits has the effects of [edit_effect] and the count is the number of entries. *)
(** Missing: an edit never uses an empty name; when a name occurs twice, add-or-replace changes the
    first of the entries only. *)
Theorem header_edits_partial : forall es ci, hwf ci -> Forall (fun e => edit_name (ename e)) es ->
  exists ci', do_edits ci es = Ok ci' /\ hwf ci' /\ edits_effect es (entries ci) (entries ci').
Proof. intros es ci. exact (edits_ok es ci). Qed.
Print Assumptions header_edits_partial.
(** The lists the edits begin with: the new list and any list received from the client. *)
Theorem header_lists_start : hwf header_init /\ forall ls hs, parsed ls hs -> hwf (mkHci hs (length hs)).
Proof. split; [split; [constructor|reflexivity]|exact parsed_hwf]. Qed.
Print Assumptions header_lists_start.
(** Add-or-replace of a name that occurs at most once leaves exactly the new value. *)
Theorem header_replace_exact : forall ci n v, hwf ci -> edit_name n -> (length (filter (fun e => bytes_eqb (fst e) n) (entries ci)) <= 1)%nat ->
  exists ci', header_addmodify ci n v = Ok ci' /\ filter (fun e => bytes_eqb (fst e) n) (entries ci') = [(n, v)] /\
    filter (fun e => negb (bytes_eqb (fst e) n)) (entries ci') = filter (fun e => negb (bytes_eqb (fst e) n)) (entries ci).
Proof. exact replace_exact. Qed.
Print Assumptions header_replace_exact.
Example header_edits_example : Forall (fun e => edit_name (ename e)) [EAdd (bs "a") (bs "1") false; EAddIfno (bs "a") (bs "2"); EAddModify (bs "b") (bs "3"); EAddModify (bs "a") (bs "4"); EDelete (bs "b")] /\
  exists ci, do_edits header_init [EAdd (bs "a") (bs "1") false; EAddIfno (bs "a") (bs "2"); EAddModify (bs "b") (bs "3"); EAddModify (bs "a") (bs "4"); EDelete (bs "b")] = Ok ci /\
    entries ci = [(bs "a", bs "4")] /\ hc_count ci = 1%nat.
Proof.
  split; [repeat (constructor; [split; [discriminate|repeat (constructor; [discriminate|]); constructor]|]); constructor|].
  eexists. split; [vm_compute; reflexivity|]. split; reflexivity.
Qed.
(** Of two entries with the same name the second keeps its old value. *)
Theorem header_replace_duplicates_refuted : exists ci n v ci', hwf ci /\ edit_name n /\ header_addmodify ci n v = Ok ci' /\ exists v', In (n, v') (entries ci') /\ v' <> v.
Proof.
  exists (mkHci [mkHdr (Some (bs "a")) (Some (bs "1")); mkHdr (Some (bs "a")) (Some (bs "2"))] 2), (bs "a"), (bs "3").
  exists (mkHci [mkHdr (Some (bs "a")) (Some (bs "3")); mkHdr (Some (bs "a")) (Some (bs "2"))] 2).
  split; [split; [repeat (constructor; [eexists; split; [reflexivity|repeat (constructor; [discriminate|]); constructor]|]); constructor|reflexivity]|].
  split; [split; [discriminate|repeat (constructor; [discriminate|]); constructor]|]. split; [reflexivity|]. exists (bs "2"). split; [right; left; reflexivity|discriminate].
Qed.
Print Assumptions header_replace_duplicates_refuted.
(** After a field with an empty name was added, the next edit dereferences NULL. *)
Theorem header_empty_name_refuted : exists es, do_edits header_init es = UB NullDeref.
Proof. exists [EAdd [] (bs "1") false; EAddIfno (bs "date") (bs "x")]. reflexivity. Qed.
Print Assumptions header_empty_name_refuted.
(** Removing a field that is there with fly_remove_header_chain reads the released field. *)
Theorem header_remove_chain_refuted : exists ci n, hwf ci /\ edit_name n /\ named n (entries ci) /\ remove_header_chain ci n = UB UseAfterFree.
Proof.
  exists (mkHci [mkHdr (Some (bs "a")) (Some (bs "1"))] 1), (bs "a").
  split; [split; [repeat (constructor; [eexists; split; [reflexivity|repeat (constructor; [discriminate|]); constructor]|]); constructor|reflexivity]|].
  split; [split; [discriminate|repeat (constructor; [discriminate|]); constructor]|]. split; [left; reflexivity|reflexivity].
Qed.
Print Assumptions header_remove_chain_refuted.
