(** Properties C81, C84 and the rest of C67: what becomes of the result of a handler (model: PyBridge.v; specification: the
    first part of PyBridgeProofs.v). *)
From Verif Require Import Base CStr Names Status Mime CNum NamesProofs Header HeaderProofs Buffer BufferProofs Encode EncodeProofs Response ResponseProofs PyBridge PyBridgeProofs.
From Verif Require AcceptEnc Properties_Response.
From Coq Require Import Permutation.
Local Open Scope nat_scope.

(** ** C81.  For every list of default headers and every response: the fields of the response stay as they are and in
    front; a default is added iff neither a field nor an earlier default has its name, whatever the case of the letters. *)
Theorem defaults_never_override : forall ds hs, defaulted ds hs (add_defaults ds hs).
Proof. exact add_defaults_ok. Qed.
(** After that every default name is there, and a second application adds nothing. *)
Theorem defaults_present : forall ds hs d, In d ds -> exists h, In h (add_defaults ds hs) /\ same_name (fst h) (fst d).
Proof. intros ds hs. exact (defaulted_names ds hs _ (add_defaults_ok ds hs)). Qed.
Example defaults_ex : add_defaults [(bs "X-A", bs "1"); (bs "x-b", bs "2"); (bs "X-B", bs "3"); (bs "SERVER", bs "4")] [(bs "server", bs "mine")] =
  [(bs "server", bs "mine"); (bs "X-A", bs "1"); (bs "x-b", bs "2")].
Proof. vm_compute. reflexivity. Qed.
(** The wrapper hands exactly these fields on, for every outcome that is documented. *)
Theorem wrapper_defaults : forall debug terr ds x a, documented debug terr x a -> ds <> [] ->
  exists fs, wrapper debug terr ds x = Some (PResp (mkPy (a_status a) fs (a_content a) (a_type a))) /\ defaulted ds (a_fields a) fs.
Proof.
  intros debug terr ds x a D NE. destruct (wrapper_spec debug terr ds x a D) as [(E & _)|W]; [contradiction|]. eexists. split; [exact W|]. apply add_defaults_ok.
Qed.
Example wrapper_defaults_ex : wrapper false [] [(bs "X-A", bs "1")] (Returned (PStr (bs "hi"))) = Some (PResp (mkPy 200 [(bs "X-A", bs "1")] (bs "hi") (bs "text/plain"))).
Proof. vm_compute. reflexivity. Qed.

(** ** C84.  Full statement: for every outcome of a handler the client receives the documented answer.
    Partial: the method is not HEAD, the type is in the table of the server, the status has a reason phrase and is none
    of 410, 411, 505 (Properties_Names), names and values are C strings, and the content is within the limit.  What
    happens otherwise is stated below. *)
(** The response made by the server. *)
Theorem handler_mapped_partial : forall v enc debug terr ds x a, env_ok v enc -> documented debug terr x a -> fields_ok ds -> fields_ok (a_fields a) -> In (a_type a) mime_names ->
  length (a_content a) <= v_max v ->
  exists r fs1, answer v false debug terr ds x = Ok r /\ defaulted ds (a_fields a) fs1 /\ says v a fs1 r.
Proof. exact handler_says. Qed.
(** What is sent: content below the threshold of encoding arrives as it is ... *)
Theorem handler_sent_partial : forall v enc debug terr ds x a reason, env_ok v enc -> documented debug terr x a -> fields_ok ds -> fields_ok (a_fields a) -> In (a_type a) mime_names ->
  length (a_content a) <= v_max v -> In (a_status a, reason) rfc_reasons -> ~ In (a_status a) bad_codes -> length (a_content a) < v_threshold v ->
  exists r fs1 fs, answer v false debug terr ds x = Ok r /\ defaulted ds (a_fields a) fs1 /\ completed v (a_type a) fs1 (entries (r_header r)) /\
    final_fields v r None (length (a_content a)) fs /\
    let w := wire (spec_line (a_status a) reason) fs (a_content a) in
    forall k n ios, length w <= n -> respond v r (repeat Blocked k ++ Took n :: ios) = Ok (w, fate_of fs).
Proof. exact handler_sent. Qed.
(** ... longer content in the negotiated coding. *)
Theorem handler_coded_partial : forall v enc debug terr ds x a reason, env_ok v enc -> documented debug terr x a -> fields_ok ds -> fields_ok (a_fields a) -> In (a_type a) mime_names ->
  length (a_content a) <= v_max v -> In (a_status a, reason) rfc_reasons -> ~ In (a_status a) bad_codes -> v_accept v <> None ->
  exists r fs1, answer v false debug terr ds x = Ok r /\ defaulted ds (a_fields a) fs1 /\ completed v (a_type a) fs1 (entries (r_header r)) /\
    (deliverable v enc r -> let c := coding_used v r in let content := coded enc c (a_content a) in
     exists fs, final_fields v r c (length content) fs /\
      let w := wire (spec_line (a_status a) reason) fs content in
      forall k n ios, length w <= n -> respond v r (repeat Blocked k ++ Took n :: ios) = Ok (w, fate_of fs)).
Proof. exact handler_coded. Qed.
(** A text or bytes: every byte sent is known. *)
Theorem text_sent_exact : forall v enc debug terr s x, env_ok v enc -> x = Returned (PStr s) \/ x = Returned (PBytes s) -> s <> [] -> length s <= v_max v -> length s < v_threshold v ->
  exists r, answer v false debug terr [] x = Ok r /\
    let w := wire (bs "HTTP/1.1 200 OK" ++ [13; 10]%N)
      [(bs "Date", v_date v); (bs "Server", v_server v); (bs "Content-Type", bs "text/plain"); (bs "Content-Length", dec (N.of_nat (length s)))] s in
    forall k n ios, length w <= n -> respond v r (repeat Blocked k ++ Took n :: ios) = Ok (w, FKeep).
Proof. exact text_sent. Qed.
Definition ex_v := Properties_Response.ex_v 20 100 Properties_Response.gzip_ok.
Lemma ex_env : env_ok ex_v Properties_Response.ex_enc.
Proof. apply Properties_Response.ex_env. lia. Qed.
Definition nofound : ran := RaisedHttp 404 (Some (bs "no such cat")) [(bs "X-Cat", bs "tom")].
Example handler_ex : documented false [] nofound (mkReply 404 [(bs "X-Cat", bs "tom")] (bs "no such cat") (bs "text/plain")) /\
  fields_ok [(bs "x-cat", bs "d"); (bs "X-Dog", bs "rex")] /\ In (404%Z, "Not Found"%string) rfc_reasons /\ ~ In 404%Z bad_codes /\
  obind (answer ex_v false false [] [(bs "x-cat", bs "d"); (bs "X-Dog", bs "rex")] nofound) (fun r => respond ex_v r [Took 1000]) =
    Ok (bs "HTTP/1.1 404 Not Found" ++ [13;10]%N ++ bs "X-Cat: tom" ++ [13;10]%N ++ bs "X-Dog: rex" ++ [13;10]%N ++ bs "Content-Type: text/plain" ++ [13;10]%N ++ bs "Date: now" ++ [13;10]%N ++
        bs "Server: fly" ++ [13;10]%N ++ bs "Content-Length: 11" ++ [13;10;13;10]%N ++ bs "no such cat", FKeep).
Proof.
  split; [constructor|]. split; [repeat constructor; try discriminate; apply no_nulb_ok; reflexivity|]. split; [cbn; auto 60|]. split; [cbn; intuition discriminate|]. vm_compute. reflexivity.
Qed.
(** An unexpected exception: 500, and its text is never sent in production. *)
Theorem traceback_hidden : forall v enc terr ds t, env_ok v enc -> fields_ok ds ->
  exists r fs1, answer v false false terr ds (RaisedOther t) = Ok r /\ defaulted ds [] fs1 /\ says v (mkReply 500 [] [] (bs "text/plain")) fs1 r.
Proof.
  intros v enc terr ds t V F. apply (handler_says v enc false terr ds (RaisedOther t) _ V (doc_exc false terr t) F); [constructor|cbn; auto|apply Nat.le_0_l].
Qed.
(** The answer does not depend on the text at all. *)
Theorem traceback_independent : forall v head terr terr' ds t t', answer v head false terr ds (RaisedOther t) = answer v head false terr' ds (RaisedOther t').
Proof. reflexivity. Qed.
Example traceback_ex : obind (answer ex_v false true [] [] (RaisedOther (bs "boom"))) (fun r => respond ex_v r [Took 1000]) =
  Ok (bs "HTTP/1.1 500 Internal Server Error" ++ [13;10]%N ++ bs "Content-Type: text/plain" ++ [13;10]%N ++ bs "Date: now" ++ [13;10]%N ++
        bs "Server: fly" ++ [13;10]%N ++ bs "Content-Length: 4" ++ [13;10;13;10]%N ++ bs "boom", FKeep).
Proof. vm_compute. reflexivity. Qed.
(** A value of any other type is refused with 500 (in debug mode with the traceback: [documented]). *)
Theorem other_value_500 : forall v enc head terr ds, env_ok v enc -> refused_with v (answer v head false terr ds (Returned POther)) S500.
Proof. exact other_refused. Qed.

(** ** C67.  Content over the limit is answered 413, and is never sent, whatever the outcome was; content within the limit
    is never refused ([handler_mapped_partial]; its coded form may be: Properties_Response.within_limit_refuted). *)
Theorem over_limit_413 : forall v enc debug terr ds x a, env_ok v enc -> documented debug terr x a -> v_max v < length (a_content a) ->
  refused_with v (answer v false debug terr ds x) S413.
Proof. exact too_long_refused. Qed.
Example over_limit_ex : documented false [] (Returned (PBytes (repeat 97%N 101))) (mkReply 200 [] (repeat 97%N 101) (bs "text/plain")) /\ v_max ex_v < length (repeat 97%N 101).
Proof. split; [constructor|]. apply Nat.ltb_lt. vm_compute. reflexivity. Qed.
(** HEAD and a bytes result: also 413. *)
Theorem over_limit_head_413 : forall v enc debug terr b, env_ok v enc -> v_max v < length b -> refused_with v (answer v true debug terr [] (Returned (PBytes b))) S413.
Proof. intros v enc debug terr b V O. unfold answer, wrapper, bridge. rewrite (over _ _ O). apply (refusal v enc S413 V). auto. Qed.

(** ** Where C84 fails *)
(** HEAD: whatever the handler does except returning None or bytes, and always with default headers, the answer is 500. *)
Theorem head_500 : forall v enc debug terr ds x a, env_ok v enc -> documented debug terr x a -> (ds <> [] \/ (x <> Returned PNone /\ forall b, x <> Returned (PBytes b))) ->
  refused_with v (answer v true debug terr ds x) S500.
Proof. exact head_refused. Qed.
Theorem head_refuted : exists v x a, documented false [] x a /\ a_status a = 404%Z /\ a_content a = [] /\
  exists w, obind (answer v true false [] [] x) (fun r => respond v r [Took 1000]) = Ok (w, FKeep) /\ exists q, w = bs "HTTP/1.1 500 Internal Server Error" ++ q.
Proof.
  exists ex_v, (RaisedHttp 404 None []). eexists. split; [constructor|]. split; [reflexivity|]. split; [reflexivity|].
  eexists. split; [vm_compute; reflexivity|]. eexists. vm_compute. reflexivity.
Qed.
(** HEAD and bytes: the content is sent; the client takes it for the start of the next response. *)
Theorem head_content_sent : forall v enc debug terr b, env_ok v enc -> b <> [] -> length b <= v_max v -> length b < v_threshold v ->
  exists r, answer v true debug terr [] (Returned (PBytes b)) = Ok r /\
    let w := wire (bs "HTTP/1.1 200 OK" ++ [13; 10]%N)
      [(bs "Date", v_date v); (bs "Server", v_server v); (bs "Content-Type", bs "text/plain"); (bs "Content-Length", dec (N.of_nat (length b)))] b in
    forall k n ios, length w <= n -> respond v r (repeat Blocked k ++ Took n :: ios) = Ok (w, FKeep).
Proof. intros v enc debug terr b V NE S TH. exact (text_sent v enc debug terr b _ V (or_intror eq_refl) NE S TH). Qed.
Theorem head_content_refuted : exists v a, obind (answer v true false [] [] (Returned (PBytes (bs "HTTP/1.1 200 OK")))) (fun r => respond v r [Took 1000]) = Ok (a ++ [13;10;13;10]%N ++ bs "HTTP/1.1 200 OK", FKeep).
Proof.
  exists ex_v, (bs "HTTP/1.1 200 OK" ++ [13;10]%N ++ bs "Date: now" ++ [13;10]%N ++ bs "Server: fly" ++ [13;10]%N ++ bs "Content-Type: text/plain" ++ [13;10]%N ++ bs "Content-Length: 15").
  vm_compute. reflexivity.
Qed.
(** A type outside the table: the search runs past its end. *)
Theorem handler_type_overruns : forall v debug terr ds p, ~ In (p_ctype p) mime_names -> length (p_body p) <= v_max v ->
  answer v false debug terr ds (Returned (PResp p)) = UB OutOfBounds.
Proof. exact unknown_type. Qed.
Theorem handler_type_refuted : exists v p, p_ctype p = bs "image/svg+xml" /\ answer v false false [] [] (Returned (PResp p)) = UB OutOfBounds.
Proof. exists ex_v, (py_response 200 None None (bs "image/svg+xml")). split; [reflexivity|]. vm_compute. reflexivity. Qed.
(** A status without a row: a NULL string is printed (glibc prints "(null)", after the code -1). *)
Theorem unknown_status_crashes : forall v enc debug terr ds x a, env_ok v enc -> documented debug terr x a -> fields_ok ds -> fields_ok (a_fields a) -> In (a_type a) mime_names ->
  length (a_content a) <= v_max v -> (forall reason, ~ In (a_status a, reason) rfc_reasons) -> length (a_content a) < v_threshold v ->
  exists r, answer v false debug terr ds x = Ok r /\ forall ios, respond v r ios = UB NullDeref.
Proof. exact unknown_status. Qed.
(** This concerns exceptions that fly/exceptions.py itself provides (lines 26-109). *)
Definition provided : list Z := [400; 401; 403; 404; 405; 406; 407; 408; 409; 410; 411; 412; 413; 414; 415; 416; 417; 418; 421; 422; 423; 424; 425; 426; 428; 429; 431; 451;
  500; 501; 502; 503; 504; 505; 506; 507; 508; 510; 511]%Z.
Theorem provided_exceptions_crash : forall st, In st [411; 412; 418; 421; 422; 423; 424; 425; 428; 429; 431; 451; 506; 507; 508; 510; 511]%Z ->
  In st provided /\ exists v r, answer v false false [] [] (RaisedHttp st None []) = Ok r /\ respond v r [Took 1000] = UB NullDeref.
Proof.
  intros st I. cbn in I.
  repeat (destruct I as [<-|I]; [split; [cbn; auto 60|]; exists ex_v; eexists; split; [vm_compute; reflexivity|vm_compute; reflexivity]|]). contradiction.
Qed.
Theorem provided_exceptions_refuted : exists st, In st provided /\ exists v r, answer v false false [] [] (RaisedHttp st None []) = Ok r /\ respond v r [Took 1000] = UB NullDeref.
Proof. exists 418%Z. apply provided_exceptions_crash. cbn. auto. Qed.
(** The other ones are answered with their status. *)
Theorem provided_exceptions_partial : forall st, In st provided -> ~ In st [411; 412; 418; 421; 422; 423; 424; 425; 428; 429; 431; 451; 506; 507; 508; 510; 511]%Z ->
  exists sl, app_status_line st = Ok (Some sl) /\ is_prefix (bs "HTTP/1.1 " ++ code_digits st ++ bs " ") sl = true.
Proof.
  intros st I NI. cbn in I. repeat (destruct I as [<-|I]; [first [eexists; split; [vm_compute; reflexivity|vm_compute; reflexivity]|exfalso; apply NI; cbn; auto 30]|]). contradiction.
Qed.
(** The argument header= of Response is dropped. *)
Theorem header_argument_dropped : forall st hs b t, py_response st hs b t = py_response st None b t.
Proof. reflexivity. Qed.
Theorem header_argument_refuted : exists hs v r, hs = [(bs "X-A", bs "1")] /\ answer v false false [] [] (Returned (PResp (plain_response 200 (Some hs) (Some (bs "hi"))))) = Ok r /\ ~ In (bs "X-A", bs "1") (entries (r_header r)).
Proof.
  eexists. exists ex_v. eexists. split; [reflexivity|]. split; [vm_compute; reflexivity|]. vm_compute. intuition discriminate.
Qed.
(** JSONResponse of an empty list or dict sends no content, which is no JSON text. *)
Theorem json_empty_refuted : exists v r, answer v false false [] [] (Returned (PResp (json_response 200 None (Some (0, bs "[]"))))) = Ok r /\ payload r = [].
Proof. exists ex_v. eexists. split; [vm_compute; reflexivity|reflexivity]. Qed.
Theorem json_sent_partial : forall st hs n dumps, 0 < n -> p_body (json_response st hs (Some (n, dumps))) = dumps /\ p_ctype (json_response st hs (Some (n, dumps))) = bs "application/json".
Proof. intros st hs n dumps L. unfold json_response. replace (0 <? n) with true by (symmetry; apply Nat.ltb_lt; exact L). auto. Qed.
(** A field named content-type does not stop the server from adding Content-Type. *)
Theorem two_types_refuted : exists v r, answer v false false [] [] (Returned (PResp (py_add_header (bs "content-type") (bs "text/css") (plain_response 200 None (Some (bs "hi")))))) = Ok r /\
  In (bs "content-type", bs "text/css") (entries (r_header r)) /\ In (bs "Content-Type", bs "text/plain") (entries (r_header r)).
Proof. exists ex_v. eexists. split; [vm_compute; reflexivity|]. split; vm_compute; auto. Qed.
(** A value is sent as it is, so one with a line end makes a field of its own: the fields the client reads are not those
    of the response. *)
Theorem response_splitting_refuted : exists v r w a b,
  answer v false false [] [] (Returned (PResp (py_add_header (bs "X-Name") (bs "tom" ++ [13;10]%N ++ bs "Set-Cookie: id=1") (plain_response 200 None (Some (bs "hi")))))) = Ok r /\
  respond v r [Took 1000] = Ok (w, FKeep) /\ w = a ++ [13;10]%N ++ bs "X-Name: tom" ++ [13;10]%N ++ bs "Set-Cookie: id=1" ++ [13;10]%N ++ b.
Proof.
  exists ex_v. do 2 eexists. exists (bs "HTTP/1.1 200 OK"). eexists. split; [vm_compute; reflexivity|]. split; [vm_compute; reflexivity|]. vm_compute. reflexivity.
Qed.
Print Assumptions defaults_never_override.
Print Assumptions defaults_present.
Print Assumptions wrapper_defaults.
Print Assumptions handler_mapped_partial.
Print Assumptions handler_sent_partial.
Print Assumptions handler_coded_partial.
Print Assumptions text_sent_exact.
Print Assumptions traceback_hidden.
Print Assumptions traceback_independent.
Print Assumptions other_value_500.
Print Assumptions over_limit_413.
Print Assumptions over_limit_head_413.
Print Assumptions head_500.
Print Assumptions head_refuted.
Print Assumptions head_content_sent.
Print Assumptions head_content_refuted.
Print Assumptions handler_type_overruns.
Print Assumptions handler_type_refuted.
Print Assumptions unknown_status_crashes.
Print Assumptions provided_exceptions_crash.
Print Assumptions provided_exceptions_refuted.
Print Assumptions provided_exceptions_partial.
Print Assumptions header_argument_dropped.
Print Assumptions header_argument_refuted.
Print Assumptions json_empty_refuted.
Print Assumptions json_sent_partial.
Print Assumptions two_types_refuted.
Print Assumptions response_splitting_refuted.
