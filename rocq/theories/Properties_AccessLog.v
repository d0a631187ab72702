(** Property C120: the access log (model: AccessLog.v; specification: the first part of AccessLogProofs.v, [journal],
    [shown]). *)
From Verif Require Import Base CStr CNum Buffer BufferProofs Names Status NamesProofs Reqline ReqlineSpec ReqlineProofs Header HeaderProofs Encode EncodeProofs ReqFlow ReqFlowProofs ReqFlowLaws.
From Verif Require Import Response ResponseProofs Mime PyBridge PyBridgeProofs Server ServerProofs AccessLog AccessLogProofs.
From Verif Require AcceptEnc Route RouteProofs Mount MountProofs H2Req H2ReqProofs H2ReqLaws Properties_Response Properties_ReqFlow Properties_Server Properties_H2Req.
Local Open Scope nat_scope.

(** ** C120.  Full statement (false, see below): every response that was sent is one line of the access log, which names
    the client, the request line as it was sent and the status, and no other line is in it.

    Over HTTP/1.1, for every connection of C106: each answer that was written to its end left one record, in order, with
    the line of its request and the status of its own status line, and an answer that was not left none. *)
Theorem access_log_exact_partial : forall (W : Type) (s : site W) enc os h, env_ok (s_renv s) enc -> ordinary s enc -> sendable s enc -> ~ In 10%N (s_junk s) ->
  forall xs w, Forall (fun x => proper s os (fst (fst x))) xs ->
  exists outs st w' recs, converse s w [] (map round_of xs) = Ok (outs, st, w') /\ dialogue s enc os w xs outs st w' /\
    converse_log h s w [] (map round_of xs) = Ok recs /\ journal h xs outs recs.
Proof. exact @conversation_logged. Qed.
Print Assumptions access_log_exact_partial.
Definition ex_h : ends := mkEnds (bs "10.0.0.9") (bs "50000") (bs "10.0.0.1") (bs "80").
(** The hypotheses are those of Properties_Server.conversation_ex; the second answer is not written to its end. *)
Example access_log_ex : converse_log ex_h Properties_Server.counter 0 [] (map round_of [(Properties_Server.q_get, [[(3, [])]; [(200, [])]], [Blocked; Took 500]);
    (Properties_Server.q_post, [[(3, [])]; [(200, [])]; [(200, []); (200, [])]], [Took 500]); (Properties_Server.q_get, [[(200, [])]], [Took 50])]) =
  Ok [bs "10.0.0.9:50000 (GET / HTTP/1.1) --> 10.0.0.1:80 (200 OK)" ++ [10%N]; bs "10.0.0.9:50000 (POST /a HTTP/1.1) --> 10.0.0.1:80 (200 OK)" ++ [10%N]].
Proof. vm_compute. reflexivity. Qed.

(** Records of at most 296 bytes: one line of the file each. *)
Theorem access_log_one_line_each : forall h xs, ends_ok h -> Forall (logged_ok h) xs ->
  file_lines [] (flat_map (in_file h) xs) = map (fun x => let '(hd, line, status) := x in hd ++ shown h line status) xs.
Proof. exact one_line_each. Qed.
Print Assumptions access_log_one_line_each.
Lemma ex_h_ok : ends_ok ex_h.
Proof. repeat split; apply no_lf_bs; reflexivity. Qed.
Example access_log_one_line_each_ex : Forall (logged_ok ex_h) [(bs "t (1): ", bs "GET / HTTP/1.1", bs "200 OK"); (bs "t (2): ", bs "GET /a HTTP/1.1", bs "404 Not Found")] /\
  file_lines [] (flat_map (in_file ex_h) [(bs "t (1): ", bs "GET / HTTP/1.1", bs "200 OK"); (bs "t (2): ", bs "GET /a HTTP/1.1", bs "404 Not Found")]) =
    [bs "t (1): 10.0.0.9:50000 (GET / HTTP/1.1) --> 10.0.0.1:80 (200 OK)"; bs "t (2): 10.0.0.9:50000 (GET /a HTTP/1.1) --> 10.0.0.1:80 (404 Not Found)"].
Proof.
  split; [|vm_compute; reflexivity].
  apply Forall_cons; [|apply Forall_cons; [|apply Forall_nil]]; (split; [apply no_lf_bs; reflexivity|split; [apply no_lf_bs; reflexivity|split; [apply no_lf_bs; reflexivity|apply Nat.leb_le; reflexivity]]]).
Qed.

(** ** Findings *)
(** A longer record loses its end, the status with it, and its line feed: whatever is logged next is on the same line. *)
Theorem access_log_long_joined : forall h hd line status t, ends_ok h -> no_lf hd -> no_lf line -> no_lf status -> 296 < length (full_entry h line status) ->
  file_lines [] (in_file h (hd, line, status) ++ t) = file_lines (hd ++ firstn 296 (full_entry h line status) ++ bs "..." ++ [0%N]) t.
Proof. exact long_joined. Qed.
Print Assumptions access_log_long_joined.
Definition long_line : list N := bs "GET /" ++ repeat 97%N 250 ++ bs " HTTP/1.1".
Theorem access_log_refuted : exists line, fly_line (line ++ CRLF) GET (bs "/" ++ repeat 97%N 250) None V1_1 /\
  length (file_lines [] (flat_map (in_file ex_h) [(bs "t: ", line, bs "200 OK"); (bs "t: ", bs "GET / HTTP/1.1", bs "200 OK")])) = 1.
Proof.
  exists long_line. split; [apply reqline_exact; vm_compute; reflexivity|]. cbn [flat_map]. rewrite app_nil_r.
  rewrite access_log_long_joined; [|exact ex_h_ok|apply no_lf_bs; reflexivity|apply no_lf_bs; reflexivity|apply no_lf_bs; reflexivity|apply Nat.ltb_lt; reflexivity].
  cbn [in_file]. unfold entry. replace (length _ <=? 296) with true by (symmetry; apply Nat.leb_le, Nat.leb_le; reflexivity). cbv iota. rewrite (full_shown ex_h (bs "GET / HTTP/1.1")), (app_assoc (bs "t: ") _ [10%N]).
  rewrite file_lines_end by (apply no_lf_app; [apply no_lf_bs; reflexivity|apply shown_no_lf; [exact ex_h_ok|apply no_lf_bs; reflexivity|apply no_lf_bs; reflexivity]]). reflexivity.
Qed.
Print Assumptions access_log_refuted.

(** HTTP/2: the line is the method, the value of :path and the version if there is no query ... *)
Theorem h2_log_exact : forall conn fs m v, Forall H2ReqLaws.clean fs -> H2ReqLaws.names_request fs m v -> H2ReqProofs.h2_target m v v None ->
  obind (h2_rline conn (map H2ReqLaws.stored fs)) log_line = Ok (method_spelling m ++ bs " " ++ v ++ bs " HTTP/2").
Proof. exact h2_logged_plain. Qed.
Print Assumptions h2_log_exact.
Example h2_log_ex : Forall H2ReqLaws.clean Properties_H2Req.ex_ps /\ H2ReqLaws.names_request Properties_H2Req.ex_ps POST (bs "/a") /\ H2ReqProofs.h2_target POST (bs "/a") (bs "/a") None /\
  obind (h2_rline http (map H2ReqLaws.stored Properties_H2Req.ex_ps)) log_line = Ok (bs "POST /a HTTP/2").
Proof. split; [exact Properties_H2Req.ex_clean|]. split; [exact Properties_H2Req.ex_names|]. split; [apply H2ReqProofs.target_exact|]; vm_compute; reflexivity. Qed.
(** ... and with a query only seven bytes behind the path are kept: a query of six bytes takes the place of the version and
    a longer one is cut. *)
Theorem h2_log_query_cut : forall conn fs m v u q, Forall H2ReqLaws.clean fs -> H2ReqLaws.names_request fs m v -> H2ReqProofs.h2_target m v u (Some q) -> length u + 7 <= length v ->
  obind (h2_rline conn (map H2ReqLaws.stored fs)) log_line = Ok (method_spelling m ++ bs " " ++ firstn (length u + 7) v).
Proof. exact h2_logged_query. Qed.
Print Assumptions h2_log_query_cut.
Theorem h2_log_refuted : exists fs, Forall H2ReqLaws.clean fs /\ H2ReqLaws.names_request fs GET (bs "/a?user=eve&x=1") /\ H2ReqProofs.h2_target GET (bs "/a?user=eve&x=1") (bs "/a") (Some (bs "user=eve&x=1")) /\
  obind (h2_rline http (map H2ReqLaws.stored fs)) log_line = Ok (bs "GET /a?user=e").
Proof.
  exists [(bs ":method", bs "GET"); (bs ":scheme", bs "http"); (bs ":path", bs "/a?user=eve&x=1")].
  assert (CL : Forall H2ReqLaws.clean [(bs ":method", bs "GET"); (bs ":scheme", bs "http"); (bs ":path", bs "/a?user=eve&x=1")]).
  { repeat (apply Forall_cons; [split; apply no_nulb_ok; reflexivity|]). constructor. }
  split; [exact CL|]. split; [apply (proj1 (H2ReqLaws.line_exact http _ GET _ CL)); vm_compute; reflexivity|]. split; [apply H2ReqProofs.target_exact; vm_compute; reflexivity|vm_compute; reflexivity].
Qed.
Print Assumptions h2_log_refuted.
(** An HTTP/2 client writes whole lines of its own into the log: the request is answered 400, and between the two halves of
    its record stands any text [x]. *)
Theorem h2_log_forged : forall e conn fs n m x y b h hd, Forall H2ReqLaws.clean fs -> H2ReqLaws.names_request fs m (47%N :: 10%N :: x ++ 10%N :: y) ->
  ends_ok h -> no_lf hd -> no_lf x -> no_lf y -> length (full_entry h (method_spelling m ++ bs " " ++ (47%N :: 10%N :: x ++ 10%N :: y) ++ bs " HTTP/2") (bs "400 Bad Request")) <= 296 ->
  H2Req.h2_answer e conn (mkHci (map H2ReqLaws.stored fs) n) b = Ok (H2Req.HStatus 400) /\
  exists line a c, obind (h2_rline conn (map H2ReqLaws.stored fs)) log_line = Ok line /\ logcontent h line S400 = Ok (entry h line (bs "400 Bad Request")) /\
    file_lines [] (in_file h (hd, line, bs "400 Bad Request")) = [a; x; c].
Proof. exact h2_forged. Qed.
Print Assumptions h2_log_forged.
Definition forged : list N := bs "t (1): 10.0.0.7:50001 (GET /admin HTTP/1.1) --> 10.0.0.1:80 (200 OK)".
Definition forging : list H2ReqLaws.sent_field := [(bs ":method", bs "GET"); (bs ":scheme", bs "http"); (bs ":path", 47%N :: 10%N :: forged ++ 10%N :: [])].
Theorem h2_log_forged_refuted : exists fs line, H2ReqLaws.names_request fs GET (47%N :: 10%N :: forged ++ 10%N :: []) /\
  obind (h2_rline http (map H2ReqLaws.stored fs)) log_line = Ok line /\
  In (bs "t (1): " ++ shown (mkEnds (bs "10.0.0.7") (bs "50001") (bs "10.0.0.1") (bs "80")) (bs "GET /admin HTTP/1.1") (bs "200 OK")) (file_lines [] (in_file ex_h (bs "t (1): ", line, bs "400 Bad Request"))).
Proof.
  assert (CL : Forall H2ReqLaws.clean forging) by (repeat (apply Forall_cons; [split; apply no_nulb_ok; reflexivity|]); constructor).
  assert (NR : H2ReqLaws.names_request forging GET (47%N :: 10%N :: forged ++ 10%N :: [])) by (apply (proj1 (H2ReqLaws.line_exact http _ GET _ CL)); vm_compute; reflexivity).
  destruct (h2_log_forged Properties_ReqFlow.e0 http forging 3 GET forged [] H2Req.BNone ex_h (bs "t (1): ") CL NR ex_h_ok) as (_ & line & a & c & LL & _ & FL);
    try (apply no_lf_bs; reflexivity); [apply Nat.leb_le; vm_compute; reflexivity|].
  exists forging, line. split; [exact NR|]. split; [exact LL|]. rewrite FL. right. left. reflexivity.
Qed.
Print Assumptions h2_log_forged_refuted.
