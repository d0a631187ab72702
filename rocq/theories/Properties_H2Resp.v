(** Properties C112-C115 about responses over HTTP/2 (model: H2Resp.v; specification: the first part of H2RespProofs.v). *)
From Verif Require Import Base CStr Names Status CNum Header HeaderProofs Buffer BufferProofs Encode EncodeProofs Response ResponseProofs.
From Verif Require Import HpackSpec Hpack HpackProofs H2Frame H2FrameProofs H2Frag H2FragProofs H2Resp H2RespProofs.
From Verif Require AcceptEnc H2Write H2WriteProofs Mime PyBridge Properties_Response.
Local Open Scope nat_scope.

(** ** C112.  Full statement (false, see below): the client gets, for every response, one header block that means the fields of
    the response, and its content coded as negotiated. *)
(** Partial: content that can be delivered, fields that survive the encoding of header blocks (C59), less than 1000 bytes of
    them (C50), a socket that takes what it is given (C110), no uncoded default content. *)
Theorem h2_answer_delivered_partial : forall junk e enc r st sid win m k, fit2 junk e enc r st -> (sid < 2 ^ 31)%N -> (N.of_nat (length (sent_content enc e r)) < 2 ^ 24)%N ->
  block_size (sent_fields e r st (used e r) (length (sent_content enc e r))) <= m -> 9 <= m -> 2 <= k -> length (sent_content enc e r) <= k ->
  exists rs w1 w2 s', (forall max tab, exists tab', meaning_block max tab rs = Some (sent_fields e r st (used e r) (length (sent_content enc e r)), tab')) /\
    deliver junk e r sid win [repeat (H2Write.Took m) k; repeat (H2Write.Took m) k; repeat (H2Write.Took m) k] = Ok (w1 ++ w2, [], s', H2Write.RDone) /\
    is_frame 1 (if bare e r then 5 else 4) sid (enc_block rs) w1 /\
    (sent_content enc e r = [] -> w2 = []) /\
    (sent_content enc e r <> [] -> is_frame 0 (if (Z.of_nat (length (sent_content enc e r)) <? win)%Z then 1 else 0) sid (sent_content enc e r) w2).
Proof. exact deliver_ok. Qed.
Print Assumptions h2_answer_delivered_partial.
Definition ex_e (th max : nat) acc (def : option dfile) : env2 := mkEnv2 (Properties_Response.ex_v th max acc) (fun c => match c with S404 => def | _ => None end) dt_init.
Definition ex_r (b : list N) : resp2 := mkResp2 S200 (add2 dt_init [] (bs "x-a") (bs "1")) (Some b) None 0 false None.
Definition clearb (f : list N * list N) : bool := plainb f && (length (fst f) <? 127) && (length (snd f) <? 127).
Lemma clearb_ok f : clearb f = true -> clear dt_init f.
Proof.
  intros E. apply andb_prop in E as (E & E3). apply andb_prop in E as (E1 & E2). split; [apply plainb_ok, E1|]. split; [split; apply Nat.ltb_lt; assumption|]. intros n v [].
Qed.
Lemma clearb_all l : forallb clearb l = true -> Forall (clear dt_init) l.
Proof. intros E. rewrite forallb_forall in E. apply Forall_forall. intros f X. apply clearb_ok, E, X. Qed.
Example h2_answer_ex : fit2 (repeat 7%N 10) (ex_e 3 100 Properties_Response.gzip_ok None) Properties_Response.ex_enc (ex_r (bs "hello")) (bs "200") /\
  deliver (repeat 7%N 10) (ex_e 3 100 Properties_Response.gzip_ok None) (ex_r (bs "hello")) 1 65535 [[H2Write.Took 100; H2Write.Took 100]; [H2Write.Took 100]; [H2Write.Took 100]] =
  Ok ([0; 0; 17; 1; 4; 0; 0; 0; 1]%N ++ [136; 64; 3]%N ++ bs "x-a" ++ [1; 49; 90; 4]%N ++ bs "gzip" ++ [92; 1; 54]%N ++ [0; 0; 6; 0; 1; 0; 0; 0; 1]%N ++ 31%N :: bs "hello", [], H2Write.mkR H2Write.PEnd 6 0, H2Write.RDone).
Proof.
  split; [|vm_compute; reflexivity]. constructor.
  - constructor; try (intros; discriminate); try (right; reflexivity); try (intros; exact stored_lawful); try (split; [constructor|reflexivity]); try constructor.
  - unfold deliverable. cbn [stored_used stored_de r_body view ex_r p2_body]. change (coding_used (e_v (ex_e 3 100 Properties_Response.gzip_ok None)) (view (ex_e 3 100 Properties_Response.gzip_ok None) (ex_r (bs "hello")))) with (Some AcceptEnc.CGzip).
    unfold encodable. cbn [AcceptEnc.c_type]. split; [apply Nat.ltb_lt; vm_compute; reflexivity|left; discriminate].
  - apply made_add2; [constructor|discriminate].
  - reflexivity.
  - intros (X & _). apply X. reflexivity.
  - apply clearb_all. vm_compute. reflexivity.
  - apply Nat.ltb_lt. vm_compute. reflexivity.
  - reflexivity.
Qed.
(** The answers to failed requests: one frame, which ends the stream; no field Connection, names in lower case. *)
Theorem h2_status_delivered : forall junk e enc c etag st sid win m k, (forall c, lawful (v_codec (e_v e) c) (enc c)) -> 0 < v_threshold (e_v e) -> e_default e c = None -> str_from_type c = Some st ->
  let fs := (bs ":status", st) :: status_list2 (e_v e) c etag ++ [(bs "content-length", bs "0")] in
  Forall (clear (e_table e)) fs -> block_size fs < BUF_MAX * BUF_PER -> length junk = BUF_PER -> (sid < 2 ^ 31)%N -> block_size fs <= m -> 9 <= m -> 2 <= k ->
  exists rs w s', (forall max tab, exists tab', meaning_block max tab rs = Some (fs, tab')) /\ is_frame 1 5 sid (enc_block rs) w /\
    deliver junk e (status_response2 e c etag) sid win [repeat (H2Write.Took m) k; repeat (H2Write.Took m) k; repeat (H2Write.Took m) k] = Ok (w, [], s', H2Write.RDone).
Proof.
  intros junk e enc c etag st sid win m k V TH D ST fs CL SZ J SID M M9 K. destruct (status_fit junk e enc c etag st V TH D ST CL SZ J) as (U & SC & B & F).
  assert (SF : sent_fields e (status_response2 e c etag) st None (length (@nil N)) = fs) by exact (status_sent e c etag st D).
  pose proof (deliver_ok junk e enc _ st sid win m k F SID) as X. rewrite SC, U, SF, B in X.
  destruct (X eq_refl M M9 K (Nat.le_0_l k)) as (rs & w1 & w2 & s' & ME & DL & F1 & W2 & _).
  rewrite (W2 eq_refl), app_nil_r in DL. exists rs, w1, s'. split; [exact ME|]. split; [exact F1|exact DL].
Qed.
Print Assumptions h2_status_delivered.
Example h2_status_ex : exists s', deliver (repeat 7%N 10) (ex_e 3 100 None None) (status_response2 (ex_e 3 100 None None) S404 []) 5 100 [[H2Write.Took 100; H2Write.Took 100]; []; []] =
  Ok ([0; 0; 14; 1; 5; 0; 0; 0; 5]%N ++ [141; 118; 3]%N ++ bs "fly" ++ [97; 3]%N ++ bs "now" ++ [92; 1; 48]%N ++ [], [], s', H2Write.RDone) /\
  Forall (clear dt_init) ((bs ":status", bs "404") :: status_list2 (Properties_Response.ex_v 3 100 None) S404 [] ++ [(bs "content-length", bs "0")]).
Proof. eexists. split; [vm_compute; reflexivity|]. apply clearb_all. vm_compute. reflexivity. Qed.
(** A file below the threshold. *)
Theorem h2_file_delivered : forall junk e enc f sid win m k, (forall c, lawful (v_codec (e_v e) c) (enc c)) -> f_over f = false -> f_size f = length (f_data f) -> f_de f = None -> f_size f < v_threshold (e_v e) ->
  let fs := [(bs ":status", bs "200"); (bs "content-length", dec (N.of_nat (f_size f))); (bs "etag", f_etag f); (bs "date", v_date (e_v e)); (bs "last-modified", f_lastmod f); (bs "content-type", f_mime f)] in
  Forall (clear (e_table e)) fs -> block_size fs < BUF_MAX * BUF_PER -> length junk = BUF_PER -> (sid < 2 ^ 31)%N -> (N.of_nat (length (f_data f)) < 2 ^ 24)%N -> block_size fs <= m -> 9 <= m -> 2 <= k -> length (f_data f) <= k ->
  exists rs w1 w2 s', (forall max tab, exists tab', meaning_block max tab rs = Some (fs, tab')) /\
    deliver junk e (file_response2 e f) sid win [repeat (H2Write.Took m) k; repeat (H2Write.Took m) k; repeat (H2Write.Took m) k] = Ok (w1 ++ w2, [], s', H2Write.RDone) /\
    is_frame 1 4 sid (enc_block rs) w1 /\ (f_data f = [] -> w2 = []) /\
    (f_data f <> [] -> is_frame 0 (if (Z.of_nat (length (f_data f)) <? win)%Z then 1 else 0) sid (f_data f) w2).
Proof.
  intros junk e enc f sid win m k V O SZ DE TH fs CL BL J SID C24 M M9 K KC. destruct (file_fit junk e enc f V O SZ DE TH CL BL J) as (U & SC & B & F).
  assert (SF : sent_fields e (file_response2 e f) (bs "200") None (length (f_data f)) = fs) by (rewrite <- SZ; exact (proj1 (file_pairs e f None (f_size f) O))).
  pose proof (deliver_ok junk e enc _ (bs "200") sid win m k F SID) as X. rewrite SC, U, SF, B in X. exact (X C24 M M9 K KC).
Qed.
Print Assumptions h2_file_delivered.
Definition ex_f (d : list N) : rfile := Properties_Response.ex_file d.
Example h2_file_ex : Forall (clear dt_init) (file_list2 (Properties_Response.ex_v 10 100 None) (ex_f (bs "hello")) None 5) /\
  exists s', deliver (repeat 7%N 10) (ex_e 10 100 None None) (file_response2 (ex_e 10 100 None None) (ex_f (bs "hello"))) 1 100 [[H2Write.Took 100; H2Write.Took 100]; [H2Write.Took 100]; [H2Write.Took 100]] =
  Ok (fh_bytes 31 1 4 false 1 ++ [136; 92; 1; 53; 98; 1; 101; 97; 3]%N ++ bs "now" ++ [108; 1; 109; 64; 12]%N ++ bs "content-type" ++ [1; 116]%N ++ fh_bytes 5 0 1 false 1 ++ bs "hello", [], s', H2Write.RDone).
Proof. split; [apply clearb_all; vm_compute; reflexivity|]. eexists. vm_compute. reflexivity. Qed.
(** The fields of a handler's Response: its own under lower-case names, then content-type, date and server if missing. *)
Theorem h2_handler_fields : forall e debug terr ds x p, PyBridge.wrapper debug terr ds x = Some (PyBridge.PResp p) -> PyBridge.too_long (e_v e) (PyBridge.p_body p) = false ->
  forall m, Mime.mime_from_str (PyBridge.p_ctype p) = Ok m -> Forall (fun f => fst f <> []) (PyBridge.p_header p) ->
  exists r, handler_answer2 e false debug terr ds x = Ok r /\ p2_code r = type_from_long (PyBridge.p_status p) /\ p2_body r = PyBridge.c_body (PyBridge.p_body p) /\ p2_pf r = None /\ p2_dont r = false /\ Forall (made (e_table e)) (p2_fields r) /\
   pairs (p2_fields r) = ensure (bs "content-type") (bs "text/plain") (ensure (bs "server") (v_server (e_v e)) (ensure (bs "date") (v_date (e_v e))
      (ensure (bs "content-type") (Mime.mt_name m) (map (fun f => (map lower (fst f), snd f)) (PyBridge.p_header p))))).
Proof. exact handler_pairs. Qed.
Print Assumptions h2_handler_fields.
Example h2_handler_ex : exists r, handler_answer2 (ex_e 10 100 None None) false false [] [] (PyBridge.Returned (PyBridge.PResp (PyBridge.py_add_header (bs "X-Up") (bs "Va") (PyBridge.html_response 200 None (Some (bs "hi")))))) = Ok r /\
  pairs (p2_fields r) = [(bs "x-up", bs "Va"); (bs "content-type", bs "text/html"); (bs "date", bs "now"); (bs "server", bs "fly")] /\ p2_body r = Some (bs "hi").
Proof. eexists. split; [vm_compute; reflexivity|]. split; vm_compute; reflexivity. Qed.
(** Exactly one content-length, which is the length of the content sent, unless the handler gave two. *)
Theorem h2_one_content_length : forall e r st c n, rcbs e r = None -> length (lengths2 (pairs (p2_fields r))) <= 1 -> lengths2 (sent_fields e r st c n) = [dec (N.of_nat n)].
Proof. exact one_length. Qed.
Print Assumptions h2_one_content_length.
Example h2_one_content_length_ex : let r := mkResp2 S200 (add2 dt_init [] (bs "content-length") (bs "999")) (Some (bs "abc")) None 0 false None in
  rcbs (ex_e 10 100 None None) r = None /\ sent_fields (ex_e 10 100 None None) r (bs "200") None 3 = [(bs ":status", bs "200"); (bs "content-length", bs "3")].
Proof. split; vm_compute; reflexivity. Qed.

(** Content whose coded form does not fit the buffer: over HTTP/1.1 the answer is 413 or 500 (C95); over HTTP/2 the response is
    used after its release, for every body, in every state. *)
Theorem h2_refusal_crashes : forall junk e enc r b l i c, (forall c, lawful (v_codec (e_v e) c) (enc c)) -> str_from_type (p2_code r) <> None -> p2_body r = Some b -> p2_pf r = None -> p2_dont r = false ->
  v_threshold (e_v e) <= length b -> v_accept (e_v e) = Some (l, AcceptEnc.DUse i c) -> AcceptEnc.c_type c = AcceptEnc.EGzip ->
  encbuf_chain_max (v_max (e_v e)) * PER <= length (enc c b) -> answer2 junk e r = UB UseAfterFree.
Proof. exact gzip_crash. Qed.
Print Assumptions h2_refusal_crashes.
Theorem h2_refusal_refuted : exists junk e r b, p2_body r = Some b /\ length b <= v_max (e_v e) /\ answer2 junk e r = UB UseAfterFree.
Proof.
  exists (repeat 7%N 10), (ex_e 3 (N.to_nat 4095) Properties_Response.gzip_ok None), (ex_r Properties_Response.wide), Properties_Response.wide.
  split; [reflexivity|]. split; [apply Nat.leb_le; vm_compute; reflexivity|].
  apply (h2_refusal_crashes _ _ Properties_Response.ex_enc _ Properties_Response.wide [(AcceptEnc.CGzip, 100%Z)] 0 AcceptEnc.CGzip).
  - intros c. exact stored_lawful.
  - discriminate.
  - reflexivity.
  - reflexivity.
  - reflexivity.
  - apply Nat.leb_le. vm_compute. reflexivity.
  - reflexivity.
  - reflexivity.
  - apply Nat.leb_le. vm_compute. reflexivity.
Qed.
Print Assumptions h2_refusal_refuted.
(** A file or default content, not coded beforehand and not below the threshold, and a client that prefers identity. *)
Theorem h2_identity_crashes : forall junk e r l i c st, str_from_type (p2_code r) = Some st -> p2_body r = None -> bare e r = false ->
  (forall f, p2_pf r = Some f -> f_de f = None /\ v_threshold (e_v e) <= p2_count r /\ 0 < p2_count r) -> (forall f, rcbs e r = Some f -> df_de f = None /\ v_threshold (e_v e) <= df_size f /\ 0 < df_size f) ->
  p2_dont r = false -> v_accept (e_v e) = Some (l, AcceptEnc.DUse i c) -> AcceptEnc.c_type c = AcceptEnc.EIdentity ->
  length junk = BUF_PER -> Forall (made (e_table e)) (p2_fields r) ->
  (forall n, n = match p2_pf r, rcbs e r with Some f, _ => p2_count r | None, Some f => df_size f | None, None => 0 end ->
    Forall (clear (e_table e)) (sent_fields e r st (Some c) n) /\ block_size (sent_fields e r st (Some c) n) < BUF_MAX * BUF_PER) ->
  answer2 junk e r = UB NullDeref.
Proof. exact identity_crash. Qed.
Print Assumptions h2_identity_crashes.
Definition only_identity : option (list (AcceptEnc.coding * Z) * AcceptEnc.decision) := Some ([(AcceptEnc.CIdentity, 100%Z)], AcceptEnc.DUse 0 AcceptEnc.CIdentity).
Theorem h2_identity_refuted : exists junk e l d f, AcceptEnc.accept_encoding (Some (bs "identity")) = Ok (AcceptEnc.EncOk l d) /\ v_accept (e_v e) = Some (l, d) /\
  answer2 junk e (file_response2 e f) = UB NullDeref.
Proof. exists (repeat 7%N 10), (ex_e 3 100 only_identity None). do 2 eexists. exists (ex_f (bs "hello")). split; [vm_compute; reflexivity|]. split; [reflexivity|vm_compute; reflexivity]. Qed.
Print Assumptions h2_identity_refuted.
(** The content registered for a status code is never sent uncoded: the worker does not return from the call. *)
Theorem h2_default_content_hangs_worker : forall junk e r f st sid win m k ts rest, str_from_type (p2_code r) = Some st -> rcbs e r = Some f -> df_de f = None -> 0 < df_size f ->
  df_size f < v_threshold (e_v e) \/ p2_dont r = true -> length junk = BUF_PER -> Forall (made (e_table e)) (p2_fields r) ->
  Forall (clear (e_table e)) (sent_fields e r st None (df_size f)) -> block_size (sent_fields e r st None (df_size f)) < BUF_MAX * BUF_PER ->
  block_size (sent_fields e r st None (df_size f)) <= m -> 9 <= m -> 2 <= k ->
  deliver junk e r sid win (repeat (H2Write.Took m) k :: [H2Write.Took 9] :: ts :: rest) = UB Diverges.
Proof. exact default_hang. Qed.
Print Assumptions h2_default_content_hangs_worker.
Definition page : dfile := mkDfile 5 (bs "<404>") (bs "text/html") None.
Theorem h2_default_content_refuted : exists junk e f tss, e_default e S404 = Some f /\ df_data f = bs "<404>" /\ deliver junk e (status_response2 e S404 []) 1 100 tss = UB Diverges.
Proof. exists (repeat 7%N 10), (ex_e 10 100 None (Some page)), page, [[H2Write.Took 100; H2Write.Took 100]; [H2Write.Took 9]; [H2Write.Took 100]]. split; [reflexivity|]. split; [reflexivity|vm_compute; reflexivity]. Qed.
Print Assumptions h2_default_content_refuted.
(** A handler's status code that the server does not know. *)
Theorem h2_unknown_status_crashes : forall junk e r, str_from_type (p2_code r) = None -> answer2 junk e r = UB NullDeref.
Proof. exact no_status. Qed.
Print Assumptions h2_unknown_status_crashes.
Theorem h2_unknown_status_refuted : exists junk e x r, x = PyBridge.Returned (PyBridge.PResp (PyBridge.py_response 299 None (Some (bs "hi")) (bs "text/plain"))) /\
  handler_answer2 e false false [] [] x = Ok r /\ answer2 junk e r = UB NullDeref.
Proof. exists (repeat 7%N 10), (ex_e 10 100 None None). do 2 eexists. split; [reflexivity|]. split; [vm_compute; reflexivity|vm_compute; reflexivity]. Qed.
Print Assumptions h2_unknown_status_refuted.

(** ** C113.  Full statement (false, see below): every response ends its stream. *)
Definition end_stream (fl : N) : bool := N.testbit fl 0.
(** Partial: the response has no content at all, or content that is not empty and smaller than both windows. *)
Theorem h2_stream_ended_partial : forall junk e enc r st sid win m k, fit2 junk e enc r st -> (sid < 2 ^ 31)%N -> (N.of_nat (length (sent_content enc e r)) < 2 ^ 24)%N ->
  block_size (sent_fields e r st (used e r) (length (sent_content enc e r))) <= m -> 9 <= m -> 2 <= k -> length (sent_content enc e r) <= k ->
  bare e r = true /\ sent_content enc e r = [] \/ bare e r = false /\ sent_content enc e r <> [] /\ (Z.of_nat (length (sent_content enc e r)) < win)%Z ->
  exists before ty fl pay last s', deliver junk e r sid win [repeat (H2Write.Took m) k; repeat (H2Write.Took m) k; repeat (H2Write.Took m) k] = Ok (before ++ last, [], s', H2Write.RDone) /\
    is_frame ty fl sid pay last /\ end_stream fl = true /\ (before = [] \/ exists ty' fl' pay', is_frame ty' fl' sid pay' before /\ end_stream fl' = false).
Proof.
  intros junk e enc r st sid win m k F SID C24 M M9 K KC [(B & Z)|(B & NE & W)]; destruct (deliver_ok junk e enc r st sid win m k F SID C24 M M9 K KC) as (rs & w1 & w2 & s' & _ & DL & F1 & W2 & W3); rewrite B in F1.
  - rewrite (W2 Z), app_nil_r in DL. exists [], 1%N, 5%N, (enc_block rs), w1, s'. split; [exact DL|]. split; [exact F1|]. split; [reflexivity|left; reflexivity].
  - specialize (W3 NE). replace (Z.of_nat (length (sent_content enc e r)) <? win)%Z with true in W3 by (symmetry; apply Z.ltb_lt; exact W). exists w1, 0%N, 1%N, (sent_content enc e r), w2, s'. split; [exact DL|]. split; [exact W3|].
    split; [reflexivity|]. right. exists 1%N, 4%N, (enc_block rs). split; [exact F1|reflexivity].
Qed.
Print Assumptions h2_stream_ended_partial.
(** Empty content, an empty file for example: the frame does not end the stream and nothing follows it. *)
Theorem h2_empty_content_unended : forall junk e enc r st sid win m k, fit2 junk e enc r st -> (sid < 2 ^ 31)%N ->
  block_size (sent_fields e r st (used e r) (length (sent_content enc e r))) <= m -> 9 <= m -> 2 <= k -> bare e r = false -> sent_content enc e r = [] ->
  exists fl pay w s', deliver junk e r sid win [repeat (H2Write.Took m) k; repeat (H2Write.Took m) k; repeat (H2Write.Took m) k] = Ok (w, [], s', H2Write.RDone) /\
    is_frame 1 fl sid pay w /\ end_stream fl = false.
Proof.
  intros junk e enc r st sid win m k F SID M M9 K B Z. destruct (deliver_ok junk e enc r st sid win m k F SID) as (rs & w1 & w2 & s' & _ & DL & F1 & W2 & _); try assumption; try (rewrite Z; cbn [length]; (reflexivity || lia)).
  rewrite (W2 Z), app_nil_r in DL. rewrite B in F1. exists 4%N, (enc_block rs), w1, s'. split; [exact DL|]. split; [exact F1|reflexivity].
Qed.
Print Assumptions h2_empty_content_unended.
Theorem h2_stream_ended_refuted : exists e f tss w s', f_data f = [] /\ deliver (repeat 7%N 10) e (file_response2 e f) 1 65535 tss = Ok (fh_bytes (N.of_nat (length w)) 1 4 false 1 ++ w, [], s', H2Write.RDone).
Proof. exists (ex_e 10 100 None None), (ex_f []), [[H2Write.Took 100; H2Write.Took 100]; []; []], ([136; 92; 1; 48; 98; 1; 101; 97; 3]%N ++ bs "now" ++ [108; 1; 109; 64; 12]%N ++ bs "content-type" ++ [1; 116]%N). eexists. split; [reflexivity|]. vm_compute. reflexivity. Qed.
Print Assumptions h2_stream_ended_refuted.
(** Content as long as the smaller window or longer. *)
Theorem h2_full_window_unended : forall junk e enc r st sid win m k, fit2 junk e enc r st -> (sid < 2 ^ 31)%N -> (N.of_nat (length (sent_content enc e r)) < 2 ^ 24)%N ->
  block_size (sent_fields e r st (used e r) (length (sent_content enc e r))) <= m -> 9 <= m -> 2 <= k -> length (sent_content enc e r) <= k ->
  bare e r = false -> sent_content enc e r <> [] -> (win <= Z.of_nat (length (sent_content enc e r)))%Z ->
  exists fl1 pay1 w1 fl2 w2 s', deliver junk e r sid win [repeat (H2Write.Took m) k; repeat (H2Write.Took m) k; repeat (H2Write.Took m) k] = Ok (w1 ++ w2, [], s', H2Write.RDone) /\
    is_frame 1 fl1 sid pay1 w1 /\ is_frame 0 fl2 sid (sent_content enc e r) w2 /\ end_stream fl1 = false /\ end_stream fl2 = false.
Proof.
  intros junk e enc r st sid win m k F SID C24 M M9 K KC B NE W. destruct (deliver_ok junk e enc r st sid win m k F SID C24 M M9 K KC) as (rs & w1 & w2 & s' & _ & DL & F1 & _ & W3). rewrite B in F1.
  specialize (W3 NE). replace (Z.of_nat (length (sent_content enc e r)) <? win)%Z with false in W3 by (symmetry; apply Z.ltb_ge; exact W).
  exists 4%N, (enc_block rs), w1, 0%N, w2, s'. split; [exact DL|]. split; [exact F1|]. split; [exact W3|]. split; reflexivity.
Qed.
Print Assumptions h2_full_window_unended.
Theorem h2_full_window_refuted : exists e b tss w s', length b = 5 /\ deliver (repeat 7%N 10) e (ex_r b) 1 5 tss = Ok (w ++ fh_bytes 5 0 0 false 1 ++ b, [], s', H2Write.RDone).
Proof.
  exists (ex_e 10 100 None None), (bs "hello"), [[H2Write.Took 100; H2Write.Took 100]; [H2Write.Took 100]; [H2Write.Took 100]], ([0; 0; 11; 1; 4; 0; 0; 0; 1; 136; 64; 3]%N ++ bs "x-a" ++ [1; 49; 92; 1; 53]%N).
  eexists. split; [reflexivity|]. vm_compute. reflexivity.
Qed.
Print Assumptions h2_full_window_refuted.

(** ** C114.  Full statement: no DATA frame is larger than the window the client has opened or than the frame size it accepts.
    False of every content that is longer: it is always sent as one frame. *)
Theorem h2_content_in_one_frame : forall junk e enc r st sid win m k, fit2 junk e enc r st -> (sid < 2 ^ 31)%N -> (N.of_nat (length (sent_content enc e r)) < 2 ^ 24)%N ->
  block_size (sent_fields e r st (used e r) (length (sent_content enc e r))) <= m -> 9 <= m -> 2 <= k -> length (sent_content enc e r) <= k -> sent_content enc e r <> [] ->
  exists w1 w2 fl s', deliver junk e r sid win [repeat (H2Write.Took m) k; repeat (H2Write.Took m) k; repeat (H2Write.Took m) k] = Ok (w1 ++ w2, [], s', H2Write.RDone) /\
    is_frame 0 fl sid (sent_content enc e r) w2.
Proof.
  intros junk e enc r st sid win m k F SID C24 M M9 K KC NE. destruct (deliver_ok junk e enc r st sid win m k F SID C24 M M9 K KC) as (rs & w1 & w2 & s' & _ & DL & _ & _ & W3).
  exists w1, w2. eexists. exists s'. split; [exact DL|]. exact (W3 NE).
Qed.
Print Assumptions h2_content_in_one_frame.
Theorem h2_window_respected_refuted : exists e b tss w s', length b = 5 /\ deliver (repeat 7%N 10) e (ex_r b) 1 2 tss = Ok (w ++ fh_bytes 5 0 0 false 1 ++ b, [], s', H2Write.RDone).
Proof.
  exists (ex_e 10 100 None None), (bs "hello"), [[H2Write.Took 100; H2Write.Took 100]; [H2Write.Took 100]; [H2Write.Took 100]], ([0; 0; 11; 1; 4; 0; 0; 0; 1; 136; 64; 3]%N ++ bs "x-a" ++ [1; 49; 92; 1; 53]%N).
  eexists. split; [reflexivity|]. vm_compute. reflexivity.
Qed.
Print Assumptions h2_window_respected_refuted.
Theorem h2_frame_size_refuted : exists e f tss w1 w2 fl s', (16384 < N.of_nat (length (f_data f)))%N /\ deliver (repeat 7%N 10) e (file_response2 e f) 1 65535 tss = Ok (w1 ++ w2, [], s', H2Write.RDone) /\ is_frame 0 fl 1 (f_data f) w2.
Proof.
  pose (d := repeat 97%N (N.to_nat 20000)). assert (LD : length d = N.to_nat 20000) by apply repeat_length.
  pose (f := mkRfile (N.to_nat 20000) d AcceptEnc.CGzip None false (bs "e") (bs "m") (bs "t")). pose (e := ex_e (N.to_nat 30000) 100 None None).
  assert (FL : file_list2 (e_v e) f None (f_size f) = [(bs ":status", bs "200"); (bs "content-length", bs "20000"); (bs "etag", bs "e"); (bs "date", bs "now"); (bs "last-modified", bs "m"); (bs "content-type", bs "t")]).
  { unfold file_list2. cbn [f_size f]. rewrite N2Nat.id. reflexivity. }
  assert (CLE : Forall (clear (e_table e)) (file_list2 (e_v e) f None (f_size f))) by (rewrite FL; apply clearb_all; vm_compute; reflexivity).
  assert (BLE : block_size (file_list2 (e_v e) f None (f_size f)) = 86) by (rewrite FL; vm_compute; reflexivity).
  destruct (h2_file_delivered (repeat 7%N 10) e Properties_Response.ex_enc f 1 65535 (N.to_nat 20000) (N.to_nat 20000)) as (rs & w1 & w2 & s' & _ & DL & _ & _ & W).
  - intros c. exact stored_lawful.
  - reflexivity.
  - symmetry. exact LD.
  - reflexivity.
  - cbn [f_size f e ex_e e_v Properties_Response.ex_v v_threshold]. lia.
  - exact CLE.
  - change (block_size (file_list2 (e_v e) f None (f_size f)) < BUF_MAX * BUF_PER). rewrite BLE. unfold BUF_MAX, BUF_PER. lia.
  - reflexivity.
  - reflexivity.
  - cbn [f_data f]. rewrite LD. reflexivity.
  - change (block_size (file_list2 (e_v e) f None (f_size f)) <= N.to_nat 20000). rewrite BLE. lia.
  - lia.
  - lia.
  - cbn [f_data f]. rewrite LD. apply Nat.le_refl.
  - exists e, f. do 2 eexists. exists w2. eexists. exists s'. split; [cbn [f_data f]; rewrite LD; reflexivity|]. split; [exact DL|]. apply W. cbn [f_data f]. intros Z. rewrite Z in LD. cbn in LD. lia.
Qed.
Print Assumptions h2_frame_size_refuted.

(** ** C115.  Full statement (false): the header names an application uses are not changed by the server. *)
(** After an HTTP/2 response every later response that uses the same str objects has them in lower case; other objects are as
    they were. *)
Theorem python_names_after : forall m l l', fst (http1_names (snd (http2_names m l)) l') = map (fun i => if existsb (Nat.eqb i) l then map lower (m i) else m i) l' /\
  fst (http2_names m l) = map (fun i => map lower (m i)) l.
Proof. exact names_after. Qed.
Print Assumptions python_names_after.
Theorem python_names_refuted : exists m l, fst (http1_names m l) = [bs "X-Request-Id"] /\ fst (http1_names (snd (http2_names m l)) l) = [bs "x-request-id"].
Proof. exists (fun _ => bs "X-Request-Id"), [0]. split; vm_compute; reflexivity. Qed.
Print Assumptions python_names_refuted.
