(** Properties C20, C63, C64, C65, C94, C95 and part of C67 about HTTP/1.1 responses (model: Response.v; specification:
    the first part of ResponseProofs.v). *)
From Verif Require Import Base CStr Names Status CNum Header HeaderProofs Buffer BufferProofs Encode EncodeProofs Response ResponseProofs.
From Verif Require AcceptEnc ReqFlow Properties_ReqFlow.
Local Open Scope nat_scope.

(** ** C63.  For every response the server or a handler makes ([sane]) whose content can be coded ([deliverable]), every
    negotiated coding and every state of memory: the bytes given to the socket are the status line, one line per field,
    an empty line and the coded content, and nothing else; Content-Encoding names the coding; the connection is kept as
    the Connection field says. *)
(** Partial: content that is not [deliverable] is treated below; the write must take everything at once (C64). *)
Theorem response_layout_partial : forall v enc r sl, able v enc r sl ->
  exists fs, final_fields v r (coding_used v r) (length (coded enc (coding_used v r) (payload r))) fs /\
    forall k n ios, length (wire sl fs (coded enc (coding_used v r) (payload r))) <= n ->
      respond v r (repeat Blocked k ++ Took n :: ios) = Ok (wire sl fs (coded enc (coding_used v r) (payload r)), fate_of fs).
Proof. exact respond_exact. Qed.
(** The compressor of the examples: it puts one byte in front. *)
Definition ex_enc (_ : AcceptEnc.coding) (d : list N) : list N := 31%N :: d.
Definition ex_v (th max : nat) (acc : option (list (AcceptEnc.coding * Z) * AcceptEnc.decision)) : renv :=
  mkRenv th acc (fun _ => stored) max [7%N] (fun c => match c with S404 => Some (12, bs "text/html") | _ => None end) (bs "fly") (bs "now") (bs "GET").
Definition gzip_ok : option (list (AcceptEnc.coding * Z) * AcceptEnc.decision) := Some ([(AcceptEnc.CGzip, 100%Z)], AcceptEnc.DUse 0 AcceptEnc.CGzip).
Definition ex_h : hci := header_add header_init (bs "X-A") (bs "1").
Definition ex_body (b : list N) : response := mkRes V1_1 S200 ex_h (Some b) None 0 false false None.
Lemma ex_env th max acc : 0 < th -> env_ok (ex_v th max acc) ex_enc.
Proof. intros T. constructor; try exact T; try (apply no_nulb_ok; reflexivity); [intros c; exact stored_lawful|]. intros c n m E. destruct c; try discriminate E. injection E as <- <-. apply no_nulb_ok. reflexivity. Qed.
Lemma ex_hok : hok ex_h.
Proof.
  apply hok_add; [split; [split; [constructor|reflexivity]|constructor]|split; [discriminate|apply no_nulb_ok; reflexivity]|apply no_nulb_ok; reflexivity].
Qed.
Example response_layout_ex : able (ex_v 3 100 gzip_ok) ex_enc (ex_body (bs "hello")) (bs "HTTP/1.1 200 OK" ++ [13; 10]%N) /\
  respond (ex_v 3 100 gzip_ok) (ex_body (bs "hello")) [Blocked; Took 1000] =
    Ok (bs "HTTP/1.1 200 OK" ++ [13;10]%N ++ bs "X-A: 1" ++ [13;10]%N ++ bs "Content-Encoding: gzip" ++ [13;10]%N ++ bs "Content-Length: 6" ++ [13;10]%N ++ [13;10;31]%N ++ bs "hello", FKeep).
Proof.
  split; [|vm_compute; reflexivity]. split; [|split; [|split; reflexivity]].
  - constructor; try apply (ex_env 3 100 gzip_ok ltac:(lia)); try (intros; discriminate); try apply ex_hok; auto.
  - unfold deliverable. cbn [stored_used stored_de r_body ex_body]. change (coding_used (ex_v 3 100 gzip_ok) (ex_body (bs "hello"))) with (Some AcceptEnc.CGzip).
    unfold encodable. cbn [AcceptEnc.c_type]. split; [apply Nat.ltb_lt; vm_compute; reflexivity|left; discriminate].
Qed.
(** The answers to failed requests, for all status codes but 100: their fields, no content, and 413 is the only one
    after which the connection is closed. *)
Theorem status_response_exact : forall v enc c etag sl, env_ok v enc -> no_nul etag -> status_line V1_1 c = Ok (Some sl) -> c <> S100 ->
  exists r, status_response v c etag = Ok r /\ forall k n ios, length (wire sl (status_fields v c etag) []) <= n ->
    respond v r (repeat Blocked k ++ Took n :: ios) = Ok (wire sl (status_fields v c etag) [], match c with S413 => FClose | _ => FKeep end).
Proof. intros v enc c etag sl. exact (status_event v enc c etag sl 1). Qed.
Example status_response_ex : obind (status_response (ex_v 3 100 None) S413 []) (fun r => respond (ex_v 3 100 None) r [Took 1000]) =
  Ok (bs "HTTP/1.1 413 Payload Too Large" ++ [13;10]%N ++ bs "Server: fly" ++ [13;10]%N ++ bs "Date: now" ++ [13;10]%N ++ bs "Connection: close" ++ [13;10]%N ++ bs "Content-Length: 0" ++ [13;10;13;10]%N, FClose).
Proof. vm_compute. reflexivity. Qed.
(** A file below the threshold is sent as it is. *)
Theorem small_file_exact : forall v enc f, env_ok v enc -> f_over f = false -> no_nul (f_etag f) -> no_nul (f_lastmod f) -> no_nul (f_mime f) ->
  f_size f = length (f_data f) -> f_de f = None -> f_size f < v_threshold v ->
  exists r, file_response v f = Ok r /\
    let w := wire (bs "HTTP/1.1 200 OK" ++ [13; 10]%N) (file_fields v f None (length (f_data f))) (f_data f) in
    forall k n ios, length w <= n -> respond v r (repeat Blocked k ++ Took n :: ios) = Ok (w, FKeep).
Proof.
  intros v enc f V O E1 E2 E3 SZ DE TH. destruct (file_header v enc f V O E1 E2 E3) as (h & R & H & _). destruct (file_served v enc f V O E1 E2 E3 SZ) as (r & R' & X).
  rewrite R in R'. injection R' as <-. eexists. split; [exact R|]. destruct (small_file_ok v enc f h V H DE SZ TH) as (S & D & CU). specialize (X S D). rewrite CU in X. exact X.
Qed.
(** A file the worker has compressed is sent in this form to a client that accepts gzip. *)
Theorem gzip_file_exact : forall v enc f l d, env_ok v enc -> no_nul (f_etag f) -> no_nul (f_lastmod f) -> no_nul (f_mime f) ->
  f_size f = length (f_data f) -> f_de f = None -> v_threshold v <= f_size f <= v_max v -> AcceptEnc.c_type (f_coding f) = AcceptEnc.EGzip ->
  length (enc (f_coding f) (f_data f)) < encbuf_chain_max (v_max v) * PER -> v_accept v = Some (l, d) -> AcceptEnc.matching l (f_coding f) = true ->
  exists f' r, preencode v f = Ok (Some f') /\ file_response v f' = Ok r /\
    let content := enc (f_coding f) (f_data f) in
    let w := wire (bs "HTTP/1.1 200 OK" ++ [13; 10]%N) (file_fields v f (Some (f_coding f)) (length content)) content in
    forall k n ios, length w <= n -> respond v r (repeat Blocked k ++ Took n :: ios) = Ok (w, FKeep).
Proof.
  intros v enc f l d V E1 E2 E3 SZ DE TH CT LT VA MT. destruct (gzip_stored v enc f V SZ DE TH CT LT) as (g & PE & OV & GC & W & STR & CL).
  set (f' := mkRfile _ _ _ _ _ _ _ _) in PE. destruct (file_header v enc f' V eq_refl E1 E2 E3) as (h & R & H & _). destruct (file_served v enc f' V eq_refl E1 E2 E3 SZ) as (r & R' & X).
  assert (RE : r = mkRes V1_1 S200 h None (Some f') (f_size f') false false (Some (f_coding f'))) by congruence. subst r. exists f'. eexists. split; [exact PE|]. split; [exact R|].
  destruct (stored_file_ok v enc f' g h l d V H SZ (proj1 TH) eq_refl OV W) as (S & D & CU); try assumption; try (rewrite GC; assumption); [rewrite GC, CT; discriminate|].
  specialize (X S D). rewrite CU, GC in X. unfold coded in X. rewrite CT in X. exact X.
Qed.
Definition ex_file (d : list N) : rfile := mkRfile (length d) d AcceptEnc.CGzip None false (bs "e") (bs "m") (bs "t").
Example gzip_file_ex : exists f' r, preencode (ex_v 3 100 gzip_ok) (ex_file (bs "hello")) = Ok (Some f') /\ file_response (ex_v 3 100 gzip_ok) f' = Ok r /\
  respond (ex_v 3 100 gzip_ok) r [Took 1000] = Ok (wire (bs "HTTP/1.1 200 OK" ++ [13; 10]%N) (file_fields (ex_v 3 100 gzip_ok) (ex_file (bs "hello")) (Some AcceptEnc.CGzip) 6) (31%N :: bs "hello"), FKeep).
Proof. do 2 eexists. split; [vm_compute; reflexivity|]. split; [vm_compute; reflexivity|vm_compute; reflexivity]. Qed.

(** ** C64.  Full statement: the client receives exactly the message, however the writes are split.  This is false: every
    send starts again at the first byte. *)
(** Whatever the kernel does the client gets beginnings of the message, one after the other; every message taken in two
    parts arrives as a beginning and another beginning; no message survives a first write of one byte. *)
Theorem split_writes_restart : forall v enc r sl, able v enc r sl ->
  exists fs, final_fields v r (coding_used v r) (length (coded enc (coding_used v r) (payload r))) fs /\
    let w := wire sl fs (coded enc (coding_used v r) (payload r)) in
    (forall ios, exists ns f, respond v r ios = Ok (flat_map (fun n => firstn n w) ns, f)) /\
    (forall n ios, 0 < n < length w -> respond v r (Took n :: Took (length w) :: ios) = Ok (firstn n w ++ firstn (length w - n) w, fate_of fs)) /\
    firstn 1 w ++ firstn (length w - 1) w <> w.
Proof. exact respond_split. Qed.
Theorem short_write_refuted : exists v enc r sl w w' f f', able v enc r sl /\ respond v r [Took 1000] = Ok (w, f) /\ respond v r [Took 10; Took 1000] = Ok (w', f') /\ w' <> w.
Proof.
  exists (ex_v 3 100 gzip_ok), ex_enc, (ex_body (bs "hello")), (bs "HTTP/1.1 200 OK" ++ [13; 10]%N). do 4 eexists. split; [apply response_layout_ex|].
  split; [vm_compute; reflexivity|]. split; [vm_compute; reflexivity|]. intros E. discriminate E.
Qed.

(** ** C65.  Full statement (false, see below): the Content-Length of a response is the number of bytes of its content. *)
(** Proved: the first field named Content-Length is right in every [able] response ([response_layout_partial]), and it is the only
    one if the handler gave none, or one spelled like this. *)
Theorem content_length_partial : forall v r c n fs, final_fields v r c n fs ->
  first_length fs = Some (dec (N.of_nat n)) /\
  (lengths (entries (r_header r)) = [] \/
   (exists x, lengths (entries (r_header r)) = [(bs "Content-Length", x)]) /\ (r_body r <> None \/ r_pf r <> None \/ v_default v (r_code r) = None) ->
   lengths fs = [(bs "Content-Length", dec (N.of_nat n))]).
Proof. intros v r c n fs F. split; [exact (first_length_ok v r c n fs F)|exact (lengths_unique v r c n fs F)]. Qed.
Example content_length_ex : exists fs, final_fields (ex_v 3 100 gzip_ok) (ex_body (bs "hello")) (Some AcceptEnc.CGzip) 6 fs /\ lengths fs = [(bs "Content-Length", bs "6")].
Proof.
  destruct (respond_exact _ _ _ _ (proj1 response_layout_ex)) as (fs & F & _). exists fs. split; [exact F|]. apply (content_length_partial _ _ _ _ _ F). left. reflexivity.
Qed.
(** A handler that spells the name differently: two lengths, one of them wrong. *)
Theorem two_lengths_refuted : exists v enc r w f a b, env_ok v enc /\ respond v r [Took 1000] = Ok (w, f) /\
  w = a ++ bs "content-length: 9" ++ [13; 10]%N ++ b /\ payload r = bs "abc" /\ b = bs "Content-Length: 3" ++ [13;10;13;10]%N ++ bs "abc".
Proof.
  exists (ex_v 10 100 gzip_ok), ex_enc, (mkRes V1_1 S200 (header_add header_init (bs "content-length") (bs "9")) (Some (bs "abc")) None 0 false false None).
  do 2 eexists. exists (bs "HTTP/1.1 200 OK" ++ [13; 10]%N). eexists. split; [apply ex_env; lia|]. split; [vm_compute; reflexivity|]. split; [vm_compute; reflexivity|]. split; reflexivity.
Qed.
(** A compressed file, and a client whose Accept-Encoding names only unknown codings: the beginning of the compressed form,
    as long as the file, without Content-Encoding and with the length of the compressed form. *)
Theorem unknown_coding_refuted : exists v f f' r, AcceptEnc.accept_encoding (Some (bs "foo")) = Ok (AcceptEnc.EncOk [] AcceptEnc.DNone) /\ v_accept v = Some ([], AcceptEnc.DNone) /\
  f_data f = bs "hello" /\ preencode v f = Ok (Some f') /\ file_response v f' = Ok r /\
  respond v r [Took 1000] = Ok (wire (bs "HTTP/1.1 200 OK" ++ [13; 10]%N) (file_fields v f None 6) (31%N :: bs "hell"), FKeep).
Proof.
  exists (ex_v 3 100 (Some ([], AcceptEnc.DNone))), (ex_file (bs "hello")). do 2 eexists. split; [vm_compute; reflexivity|]. split; [reflexivity|]. split; [reflexivity|].
  split; [vm_compute; reflexivity|]. split; [vm_compute; reflexivity|vm_compute; reflexivity].
Qed.
(** A body whose brotli form is longer than 4096 bytes: the length agrees with what is sent, but it is cut. *)
Theorem br_body_cut : forall v enc r b l i c sl, env_ok v enc -> hok (r_header r) -> r_body r = Some b -> r_pf r = None -> r_dont r = false -> r_back r = false ->
  status_line (r_version r) (r_code r) = Ok (Some sl) ->
  v_threshold v <= length b -> v_accept v = Some (l, AcceptEnc.DUse i c) -> AcceptEnc.c_type c = AcceptEnc.EBr -> PER < length (enc c b) -> PER <= v_max v ->
  exists fs, first_length fs = Some (dec (N.of_nat PER)) /\ In (bs "Content-Encoding", bs "br") fs /\
    let w := wire sl fs (firstn PER (enc c b)) in
    forall k n ios, length w <= n -> respond v r (repeat Blocked k ++ Took n :: ios) = Ok (w, fate_of fs).
Proof. exact br_truncated. Qed.

(** ** C20.  Full statement (false): the connection is kept iff the response says keep-alive, what the response says comes
    from the request, and failures close. *)
(** Proved in [response_layout_partial]: kept iff there is no Connection field or the first says keep-alive. *)
Theorem connection_partial : forall v enc r sl, able v enc r sl ->
  exists fs, final_fields v r (coding_used v r) (length (coded enc (coding_used v r) (payload r))) fs /\
    forall k n ios, length (wire sl fs (coded enc (coding_used v r) (payload r))) <= n ->
      exists w, respond v r (repeat Blocked k ++ Took n :: ios) = Ok (w, if match conn_value fs with None | Some [] => true | Some x => bytes_eqb x (bs "keep-alive") end then FKeep else FClose).
Proof.
  intros v enc r sl A. destruct (respond_exact v enc r sl A) as (fs & F & X). exists fs. split; [exact F|]. intros k n ios L. eexists. rewrite (X k n ios L). unfold fate_of.
  destruct (conn_value fs) as [[|]|]; reflexivity.
Qed.
Example connection_ex : exists w, respond (ex_v 10 100 gzip_ok) (mkRes V1_1 S200 (header_add header_init (bs "Connection") (bs "close")) (Some (bs "abc")) None 0 false false None) [Took 1000] = Ok (w, FClose).
Proof. eexists. vm_compute. reflexivity. Qed.
(** A request that asks to close, answered 404: the response says keep-alive and the connection is kept. *)
Theorem request_close_refuted : exists e per v r w,
  Properties_ReqFlow.seen_by (ReqFlow.connection e [] per 1 (bs "GET /none HTTP/1.1" ++ [13;10]%N ++ bs "Connection: close" ++ [13;10;13;10]%N) false [[(200, [])]]) = Ok [(404, [])] /\
  status_response v S404 [] = Ok r /\ respond v r [Took 1000] = Ok (w, FKeep).
Proof. exists Properties_ReqFlow.e0, 200, (ex_v 3 100 None). do 2 eexists. split; [vm_compute; reflexivity|]. split; [vm_compute; reflexivity|vm_compute; reflexivity]. Qed.
(** 400 and 500 keep the connection; only 413 and the 400 before there is a request close it. *)
Theorem failures_close_refuted : exists v r r' w w', status_response v S400 [] = Ok r /\ respond v r [Took 1000] = Ok (w, FKeep) /\ status_response v S500 [] = Ok r' /\ respond v r' [Took 1000] = Ok (w', FKeep).
Proof. exists (ex_v 3 100 None). do 4 eexists. split; [vm_compute; reflexivity|]. split; [vm_compute; reflexivity|]. split; [vm_compute; reflexivity|vm_compute; reflexivity]. Qed.
(** "100 Continue" uses the response after it is released. *)
Theorem continue_crashes : forall v enc etag, env_ok v enc -> no_nul etag ->
  exists r m, status_response v S100 etag = Ok r /\ forall n ios, m <= n -> respond v r (Took n :: ios) = UB UseAfterFree.
Proof. exact status_continue. Qed.

(** ** C94.  Full statement: the content registered for a status code is sent with it.  False of every response: see
    [status_response_exact], whose content is empty whatever [v_default] says; its type is named all the same. *)
Theorem default_content_refuted : exists v r w, v_default v S404 = Some (12, bs "text/html") /\ status_response v S404 [] = Ok r /\ respond v r [Took 1000] = Ok (w, FKeep) /\
  w = wire (bs "HTTP/1.1 404 Not Found" ++ [13;10]%N) [(bs "Server", bs "fly"); (bs "Date", bs "now"); (bs "Connection", bs "keep-alive"); (bs "Content-Length", bs "0"); (bs "Content-Type", bs "text/html")] [].
Proof. exists (ex_v 3 100 None). do 2 eexists. split; [reflexivity|]. split; [vm_compute; reflexivity|]. split; [vm_compute; reflexivity|vm_compute; reflexivity]. Qed.

(** ** C95.  Full statement: a client that accepts a coding the server knows gets the content or a refusal.  False: *)
(** Accept-Encoding: identity, and a file not below the threshold: the worker dereferences NULL. *)
Theorem identity_file_crashes : forall v r f l i c sl ios, hok (r_header r) -> r_body r = None -> r_pf r = Some f -> f_de f = None -> r_dont r = false ->
  v_threshold v <= r_count r -> v_accept v = Some (l, AcceptEnc.DUse i c) -> AcceptEnc.c_type c = AcceptEnc.EIdentity ->
  status_line (r_version r) (r_code r) = Ok (Some sl) -> respond v r ios = UB NullDeref.
Proof. exact identity_file_crash. Qed.
Theorem identity_refuted : exists v l d r, AcceptEnc.accept_encoding (Some (bs "identity")) = Ok (AcceptEnc.EncOk l d) /\ v_accept v = Some (l, d) /\
  file_response v (ex_file (bs "hello")) = Ok r /\ respond v r [Took 1000] = UB NullDeref.
Proof.
  exists (ex_v 3 100 (Some ([(AcceptEnc.CIdentity, 100%Z)], AcceptEnc.DUse 0 AcceptEnc.CIdentity))). do 3 eexists. split; [vm_compute; reflexivity|]. split; [reflexivity|].
  split; [vm_compute; reflexivity|vm_compute; reflexivity].
Qed.
(** deflate: a body with a long result crashes the worker, a file is never sent. *)
Theorem deflate_body_crashes : forall v enc r b l i c ios, lawful (v_codec v c) enc -> hok (r_header r) -> r_body r = Some b -> r_pf r = None -> r_dont r = false ->
  v_threshold v <= length b -> v_accept v = Some (l, AcceptEnc.DUse i c) -> AcceptEnc.c_type c = AcceptEnc.EDeflate -> PER < length (enc b) -> respond v r ios = UB NullDeref.
Proof. exact deflate_body_crash. Qed.
Theorem deflate_file_not_sent : forall v enc r f l i c, env_ok v enc -> hok (r_header r) -> r_body r = None -> r_pf r = Some f -> f_de f = None -> r_dont r = false ->
  v_threshold v <= r_count r -> v_accept v = Some (l, AcceptEnc.DUse i c) -> AcceptEnc.c_type c = AcceptEnc.EDeflate ->
  refused v r S413 \/ refused v r S500 \/ exists u, forall ios, respond v r ios = UB u.
Proof. exact deflate_file_refused. Qed.
(** What holds: content that the gzip buffer cannot take is refused with 413 or 500. *)
Theorem gzip_overflow_refused_partial : forall v enc r b l i c, env_ok v enc -> hok (r_header r) -> r_body r = Some b -> r_pf r = None -> r_dont r = false ->
  v_threshold v <= length b -> v_accept v = Some (l, AcceptEnc.DUse i c) -> AcceptEnc.c_type c = AcceptEnc.EGzip ->
  encbuf_chain_max (v_max v) * PER <= length (enc c b) -> refused v r S413 \/ refused v r S500.
Proof. exact gzip_refused. Qed.
Definition wide : list N := repeat 97%N (N.to_nat 4095).
Example gzip_overflow_ex : encbuf_chain_max (N.to_nat 4095) * PER <= length (ex_enc AcceptEnc.CGzip wide) /\
  exists w, respond (ex_v 3 (N.to_nat 4095) gzip_ok) (ex_body wide) [Took (N.to_nat 5000)] = Ok (w, FClose).
Proof. split; [apply Nat.leb_le; vm_compute; reflexivity|]. eexists. vm_compute. reflexivity. Qed.

(** ** C67 (files and coded content; handler bodies: Properties_PyBridge).  A mounted file over the limit is answered 413 if
    it is not below the threshold of coding. *)
Theorem oversize_file_413_partial : forall v f, v_threshold v <= f_size f -> v_max v < f_size f -> f_over f = false ->
  exists f', preencode v f = Ok (Some f') /\ file_response v f' = status_response v S413 [].
Proof. exact oversize_file. Qed.
(** A file over the limit and below the threshold is sent. *)
Theorem oversize_file_refuted : exists v f f' r w, v_max v < f_size f /\ preencode v f = Ok (Some f') /\ file_response v f' = Ok r /\ respond v r [Took 1000] = Ok (w, FKeep) /\ exists a, w = a ++ f_data f.
Proof.
  exists (ex_v 10 3 None), (ex_file (bs "hello")). do 3 eexists. split; [apply Nat.ltb_lt; reflexivity|]. split; [vm_compute; reflexivity|]. split; [vm_compute; reflexivity|]. split; [vm_compute; reflexivity|].
  exists (wire (bs "HTTP/1.1 200 OK" ++ [13; 10]%N) (file_fields (ex_v 10 3 None) (ex_file (bs "hello")) None 5) []). vm_compute. reflexivity.
Qed.
(** A body within the limit is refused if its coded form does not fit. *)
Theorem within_limit_refuted : exists v enc r b w, env_ok v enc /\ r = ex_body b /\ length b <= v_max v /\ respond v r [Took (N.to_nat 5000)] = Ok (w, FClose) /\ refusal_wire v S413 = w.
Proof.
  exists (ex_v 3 (N.to_nat 4095) gzip_ok), ex_enc, (ex_body wide), wide. eexists. split; [apply ex_env; lia|]. split; [reflexivity|]. split; [apply Nat.leb_le; vm_compute; reflexivity|].
  split; [vm_compute; reflexivity|vm_compute; reflexivity].
Qed.
Print Assumptions response_layout_partial.
Print Assumptions status_response_exact.
Print Assumptions small_file_exact.
Print Assumptions gzip_file_exact.
Print Assumptions split_writes_restart.
Print Assumptions short_write_refuted.
Print Assumptions content_length_partial.
Print Assumptions two_lengths_refuted.
Print Assumptions unknown_coding_refuted.
Print Assumptions br_body_cut.
Print Assumptions connection_partial.
Print Assumptions request_close_refuted.
Print Assumptions failures_close_refuted.
Print Assumptions continue_crashes.
Print Assumptions default_content_refuted.
Print Assumptions identity_file_crashes.
Print Assumptions identity_refuted.
Print Assumptions deflate_body_crashes.
Print Assumptions deflate_file_not_sent.
Print Assumptions gzip_overflow_refused_partial.
Print Assumptions oversize_file_413_partial.
Print Assumptions oversize_file_refuted.
Print Assumptions within_limit_refuted.
