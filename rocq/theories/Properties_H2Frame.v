(** Properties C42-C44, C51, C52: HTTP/2 frame codecs.
    [octets_at s i l]: the octets [l] occur at offset [i] of the received bytes [s];
    [ptr_at chains 0 i = Some p]: [p] points to offset [i] (blocks may end anywhere). *)
From Verif Require Import Base Buffer BufferProofs H2Frame H2FrameProofs.
Local Open Scope N_scope.

(** ** C42 *)
(** A header written by the server is read back unchanged, however it is split over blocks. *)
Theorem h2_frame_header_roundtrip : forall b i p ln ty fl r sid, wf b -> ptr_at (b_chains b) 0 i = Some p ->
  ln < 2 ^ 24 -> ty < 256 -> fl < 256 -> sid < 2 ^ 31 ->
  octets_at (stream b) i (fh_bytes ln ty fl r sid) ->
  fh_length b p = Ok ln /\ fh_type b p = Ok ty /\ fh_flags b p = Ok fl /\ fh_sid b p = Ok sid /\
  fh_payload b p = Ok (ptr_at (b_chains b) 0 (i + 9)).
Proof. exact frame_header_roundtrip. Qed.
Print Assumptions h2_frame_header_roundtrip.

(** Any nine octets decode as RFC 7540 section 4.1 says; the reserved bit does not matter. *)
Theorem h2_frame_header_decode : forall b i p l, wf b -> ptr_at (b_chains b) 0 i = Some p ->
  length l = 9%nat -> octets_at (stream b) i l -> bytes_ok l ->
  fh_length b p = Ok (be (firstn 3 l)) /\ fh_type b p = Ok (nth 3 l 0) /\ fh_flags b p = Ok (nth 4 l 0) /\
  fh_sid b p = Ok (be (skipn 5 l) mod 2 ^ 31) /\ fh_payload b p = Ok (ptr_at (b_chains b) 0 (i + 9)).
Proof. exact frame_header_decode. Qed.
Print Assumptions h2_frame_header_decode.

Definition ex_hdr : buffer := recv_all 4 6 (bs "xx" ++ fh_bytes 66051 5 37 true 2130706433 ++ bs "yy").
Example h2_frame_header_example : exists p, wf ex_hdr /\ ptr_at (b_chains ex_hdr) 0 2 = Some p /\
  octets_at (stream ex_hdr) 2 (fh_bytes 66051 5 37 true 2130706433) /\ fh_sid ex_hdr p = Ok 2130706433.
Proof.
  eexists. split; [solve_wf|]. split; [vm_compute; reflexivity|]. split; vm_compute; reflexivity.
Qed.

(** The accessor of the reserved bit looks at the wrong bit (bit 0 of the octet instead of bit 7). *)
Theorem h2_reserved_bit_refuted : exists b p r, wf b /\ ptr_at (b_chains b) 0 0 = Some p /\
  octets_at (stream b) 0 (fh_bytes 0 4 0 r 0) /\ fh_r b p <> Ok r.
Proof.
  exists (recv_all 16 2 (fh_bytes 0 4 0 true 0)), (0%nat, 0%nat), true.
  split; [solve_wf|]. split; [reflexivity|]. split; [vm_compute; reflexivity|]. vm_compute. discriminate.
Qed.
Print Assumptions h2_reserved_bit_refuted.

(** ** C43 *)
(** Full statement: for every list [ss] of settings, [parse_settings (length ss)] of the emitted
    payload is [ss].  It holds for at most one setting only. *)
Theorem h2_settings_payload_partial : forall junk ss, (length ss <= 1)%nat ->
  (forall s, In s ss -> fst s < 2 ^ 16 /\ snd s < 2 ^ 32) ->
  firstn 9 (send_settings_frame junk ss) = fh_bytes (6 * N.of_nat (length ss)) 4 0 false 0 /\
  parse_settings (length ss) (skipn 9 (send_settings_frame junk ss)) = ss.
Proof.
  intros junk ss L H. split; [reflexivity|]. unfold send_settings_frame.
  destruct ss as [|s [|? ?]]; [reflexivity| |cbn [length] in L; lia].
  destruct (H s (or_introl eq_refl)) as [H1 H2].
  change (skipn 9 (fh_bytes (6 * N.of_nat (length [s])) FRAME_SETTINGS 0 false 0 ++ ?x)) with x.
  change (6 * length [s])%nat with 6%nat. rewrite settings_one by assumption. apply parse_setting_bytes; assumption.
Qed.
Print Assumptions h2_settings_payload_partial.

(** What any emitted frame really carries: the last pair first, everything else is the unwritten
    memory of the fresh payload. *)
Theorem h2_settings_payload_only_last : forall junk ss s, fst s < 2 ^ 16 -> snd s < 2 ^ 32 ->
  parse_settings 1 (skipn 9 (send_settings_frame junk (ss ++ [s]))) = [s].
Proof.
  intros junk ss s H1 H2. unfold send_settings_frame.
  change (skipn 9 (fh_bytes (6 * N.of_nat (length (ss ++ [s]))) FRAME_SETTINGS 0 false 0 ++ ?x)) with x.
  rewrite settings_last.
  - rewrite parse_app by reflexivity. apply parse_setting_bytes; assumption.
  - rewrite fresh_length, app_length. cbn [length]. lia.
Qed.
Print Assumptions h2_settings_payload_only_last.

Theorem h2_settings_payload_refuted : exists junk ss,
  (forall s, In s ss -> fst s < 2 ^ 16 /\ snd s < 2 ^ 32) /\
  parse_settings (length ss) (skipn 9 (send_settings_frame junk ss)) <> ss.
Proof.
  exists [], [(3, 100); (4, 65535)]. split.
  - intros s [<-|[<-|[]]]; split; reflexivity.
  - vm_compute. discriminate.
Qed.
Print Assumptions h2_settings_payload_refuted.

(** ** C44 *)
(** Parameters are read and applied in order of appearance wherever block boundaries fall
    ([apply_all] stops at the first error). *)
Theorem h2_settings_in_order : forall b i p s k, wf b -> ptr_at (b_chains b) 0 i = Some p ->
  (i + 6 * k <= length (stream b))%nat ->
  peer_settings b p (6 * k) s = Ok (apply_all s (parse_settings k (skipn i (stream b)))).
Proof.
  intros b i p s k W P L. unfold peer_settings.
  replace ((6 * k + 5) / 6)%nat with k by (rewrite Nat.mul_comm, Nat.add_comm, Nat.div_add by lia; reflexivity).
  apply peer_settings_loop_spec; assumption.
Qed.
Print Assumptions h2_settings_in_order.

(** Agreement with RFC 7540 section 6.5.2 ([rfc_settings]: same resulting parameters, same error)
    provided MAX_FRAME_SIZE and MAX_HEADER_LIST_SIZE values lie in 2^14..2^24-1 and
    INITIAL_WINDOW_SIZE is set at most once, with the stored value equal to the connection window.
    Missing: the remaining payloads, where the property is false (refuted below). *)
Theorem h2_settings_rfc_partial : forall b i p s k, wf b -> ptr_at (b_chains b) 0 i = Some p ->
  (i + 6 * k <= length (stream b))%nat ->
  let ss := parse_settings k (skipn i (stream b)) in
  Forall in_range ss ->
  (count_iws ss = 0%nat \/ (count_iws ss = 1%nat /\ Z.of_N (p_initial_window_size s) = ps_window_size s)) ->
  exists r, peer_settings b p (6 * k) s = Ok r /\ res_matches r (rfc_settings s ss).
Proof. exact peer_settings_rfc. Qed.
Print Assumptions h2_settings_rfc_partial.

(** Unknown parameters change nothing and never fail. *)
Theorem h2_settings_unknown_ignored : forall s id v, id = 0 \/ 6 < id -> apply_setting s id v = SetSuccess s.
Proof.
  intros s id v H. unfold apply_setting.
  replace (id =? 1) with false by lia. replace (id =? 2) with false by lia. replace (id =? 3) with false by lia.
  replace (id =? 4) with false by lia. replace (id =? 5) with false by lia. replace (id =? 6) with false by lia.
  reflexivity.
Qed.
Print Assumptions h2_settings_unknown_ignored.

(** ENABLE_PUSH other than 0/1 is a protocol error, INITIAL_WINDOW_SIZE above 2^31-1 a
    flow-control error, exactly. *)
Theorem h2_settings_enable_push : forall s v, apply_setting s 2 v = SetProtocolError s <-> 1 < v.
Proof.
  intros s v. unfold apply_setting. cbn [N.eqb Pos.eqb]. destruct ((v =? 0) || (v =? 1)) eqn:E; split; intros H; try discriminate; try reflexivity; lia.
Qed.
Print Assumptions h2_settings_enable_push.
Theorem h2_settings_initial_window : forall s v, apply_setting s 4 v = SetFlowControlError s <-> 2147483647 < v.
Proof.
  intros s v. unfold apply_setting, WINDOW_SIZE_MAX. cbn [N.eqb Pos.eqb]. destruct (2147483647 <? v) eqn:E; split; intros H; try discriminate; try reflexivity; lia.
Qed.
Print Assumptions h2_settings_initial_window.

Definition default_pset : pset := mkPset 4096 1 100 65535 16384 1048576 65535.
Definition ex_settings : buffer :=
  recv_all 5 8 (setting_bytes (1, 8192) ++ setting_bytes (9, 7) ++ setting_bytes (4, 1000) ++ setting_bytes (2, 2)).
Example h2_settings_example : exists p, wf ex_settings /\ ptr_at (b_chains ex_settings) 0 0 = Some p /\
  (0 + 6 * 4 <= length (stream ex_settings))%nat /\
  Forall in_range (parse_settings 4 (stream ex_settings)) /\ count_iws (parse_settings 4 (stream ex_settings)) = 1%nat /\
  peer_settings ex_settings p 18 default_pset = Ok (SetSuccess (mkPset 8192 1 100 1000 16384 1048576 65535)) /\
  peer_settings ex_settings p 24 default_pset = Ok (SetProtocolError (mkPset 8192 1 100 1000 16384 1048576 65535)).
Proof.
  exists (0%nat, 0%nat). split; [solve_wf|]. split; [vm_compute; reflexivity|]. split; [vm_compute; lia|].
  split.
  { replace (parse_settings 4 (stream ex_settings)) with [(1, 8192); (9, 7); (4, 1000); (2, 2)] by (vm_compute; reflexivity).
    repeat (apply Forall_nil || (apply Forall_cons; [unfold in_range; cbn [fst snd]; lia|])). }
  split; [vm_compute; reflexivity|]. split; vm_compute; reflexivity.
Qed.

(** MAX_FRAME_SIZE below 2^14 (here 0) or above 2^24-1 must be a connection error; it is accepted. *)
Theorem h2_settings_max_frame_size_refuted : forall s v, v < 16384 \/ 16777215 < v ->
  rfc_setting s 5 v = RfcProtocolError /\ exists s', apply_setting s 5 v = SetSuccess s'.
Proof.
  intros s v H. cbn [rfc_setting]. replace ((16384 <=? v) && (v <=? 16777215)) with false by lia.
  split; [reflexivity|]. eexists. reflexivity.
Qed.
Print Assumptions h2_settings_max_frame_size_refuted.

(** A second INITIAL_WINDOW_SIZE does not end up as the value the peer sent. *)
Theorem h2_settings_initial_window_value_refuted : exists s v s', v <= 2147483647 /\
  apply_setting s 4 v = SetSuccess s' /\ p_initial_window_size s' <> v.
Proof.
  exists (mkPset 4096 1 100 1000 16384 1048576 65535), 65535. eexists.
  split; [lia|]. split; [reflexivity|]. vm_compute. discriminate.
Qed.
Print Assumptions h2_settings_initial_window_value_refuted.

(** Any MAX_HEADER_LIST_SIZE is legal; small ones are answered with a connection error. *)
Theorem h2_settings_max_header_list_refuted : exists s v, apply_setting s 6 v = SetProtocolError s /\
  exists s', rfc_setting s 6 v = RfcOk s'.
Proof. exists default_pset, 8192. split; [reflexivity|]. eexists. reflexivity. Qed.
Print Assumptions h2_settings_max_header_list_refuted.

(** A payload whose length is not a multiple of 6 is read beyond its end: the following frame's
    octets are applied as a setting. *)
Theorem h2_settings_overread_refuted : exists b p s s', wf b /\ ptr_at (b_chains b) 0 0 = Some p /\
  peer_settings b p 1 s = Ok (SetSuccess s') /\ p_header_table_size s' <> p_header_table_size s.
Proof.
  exists (recv_all 64 2 ([0] ++ fh_bytes 65536 0 0 false 0)), (0%nat, 0%nat), default_pset. eexists.
  split; [solve_wf|]. split; [reflexivity|]. split; [vm_compute; reflexivity|]. vm_compute. discriminate.
Qed.
Print Assumptions h2_settings_overread_refuted.

(** ** C51 *)
(** Full statement: whenever [unpad] (RFC 7540 section 6.1) yields [content], the bytes handed on
    are [content].  It holds when the frame is not padded or its pad length is 0. *)
Theorem h2_data_content_partial : forall b i p ln fl content, wf b -> ptr_at (b_chains b) 0 i = Some p ->
  ln < 4294967296 -> (i + N.to_nat ln <= length (stream b))%nat ->
  unpad fl (firstn (N.to_nat ln) (skipn i (stream b))) = Some content ->
  (N.testbit fl 3 = true -> octet_at (stream b) i = 0) ->
  exists q n j, data_content b p ln fl = Ok (q, n) /\ ptr_at (b_chains b) 0 j = Some q /\
    firstn (N.to_nat n) (skipn j (stream b)) = content /\ N.to_nat n = length content.
Proof. exact data_content_spec. Qed.
Print Assumptions h2_data_content_partial.

Theorem h2_headers_content_partial : forall b i p ln fl c1 content, wf b -> ptr_at (b_chains b) 0 i = Some p ->
  ln < 4294967296 -> (i + N.to_nat ln <= length (stream b))%nat ->
  unpad fl (firstn (N.to_nat ln) (skipn i (stream b))) = Some c1 -> strip_priority fl c1 = Some content ->
  (N.testbit fl 3 = true -> octet_at (stream b) i = 0) ->
  exists q n j, headers_content b p ln fl = Ok (q, n) /\ ptr_at (b_chains b) 0 j = Some q /\
    firstn (N.to_nat n) (skipn j (stream b)) = content /\ N.to_nat n = length content.
Proof. exact headers_content_spec. Qed.
Print Assumptions h2_headers_content_partial.

Definition ex_data : buffer := recv_all 4 6 ([0] ++ [128; 0; 0; 3; 15] ++ bs "hello").
Example h2_content_example : exists p q, wf ex_data /\ ptr_at (b_chains ex_data) 0 0 = Some p /\
  unpad 40 (firstn 11 (stream ex_data)) = Some ([128; 0; 0; 3; 15] ++ bs "hello") /\
  strip_priority 40 ([128; 0; 0; 3; 15] ++ bs "hello") = Some (bs "hello") /\
  headers_content ex_data p 11 40 = Ok (q, 5) /\ ptr_at (b_chains ex_data) 0 6 = Some q.
Proof.
  exists (0%nat, 0%nat). eexists. split; [solve_wf|]. split; [vm_compute; reflexivity|]. split; [vm_compute; reflexivity|].
  split; [reflexivity|]. split; vm_compute; reflexivity.
Qed.

(** With a non-zero pad length the padding is handed to the application as content. *)
Theorem h2_padding_refuted : exists b p ln fl content q n, wf b /\ ptr_at (b_chains b) 0 0 = Some p /\
  unpad fl (firstn (N.to_nat ln) (stream b)) = Some content /\
  data_content b p ln fl = Ok (q, n) /\ headers_content b p ln fl = Ok (q, n) /\
  ptr_at (b_chains b) 0 1 = Some q /\
  content = bs "hi" /\ firstn (N.to_nat n) (skipn 1 (stream b)) = bs "hi" ++ [0; 0; 0].
Proof.
  exists (recv_all 16 2 ([3] ++ bs "hi" ++ [0; 0; 0])), (0%nat, 0%nat), 6, 8. eexists. eexists. eexists.
  split; [solve_wf|]. split; [reflexivity|]. split; [vm_compute; reflexivity|]. split; [vm_compute; reflexivity|].
  split; [vm_compute; reflexivity|]. split; [vm_compute; reflexivity|]. split; vm_compute; reflexivity.
Qed.
Print Assumptions h2_padding_refuted.

(** A padded DATA frame of length 0 makes the length wrap to 2^32-1. *)
Theorem h2_padded_empty_refuted : exists b p q, wf b /\ ptr_at (b_chains b) 0 0 = Some p /\
  data_content b p 0 8 = Ok (q, 4294967295).
Proof.
  exists (recv_all 16 2 (bs "next")), (0%nat, 0%nat). eexists. split; [solve_wf|]. split; vm_compute; reflexivity.
Qed.
Print Assumptions h2_padded_empty_refuted.

(** ** C52 *)
(** Emitted frames, decoded by the RFC 7540 layout (9 header octets, then the payload). *)
Theorem h2_rst_stream_frame : forall sid code, sid < 2 ^ 31 -> code < 2 ^ 32 ->
  let f := send_rst_stream_frame sid code in
  firstn 9 f = fh_bytes 4 3 0 false sid /\ length f = 13%nat /\ be (skipn 9 f) = code.
Proof. intros sid code _ H. split; [reflexivity|]. split; [reflexivity|]. apply be4. exact H. Qed.
Print Assumptions h2_rst_stream_frame.
Theorem h2_goaway_frame : forall last r code, last < 2 ^ 31 -> code < 2 ^ 32 ->
  let f := send_goaway_frame last r code in
  firstn 9 f = fh_bytes 8 7 0 false 0 /\ length f = 17%nat /\
  be (mask_first (firstn 4 (skipn 9 f))) = last /\ be (skipn 13 f) = code.
Proof.
  intros last r code H1 H2. split; [reflexivity|]. split; [reflexivity|].
  cbn [send_goaway_frame goaway_payload skipn app fh_bytes firstn mask_first].
  rewrite mask_lor by (apply byte3_lt; exact H1).
  split; [apply be4; change (2 ^ 31) with 2147483648 in H1; change (2 ^ 32) with 4294967296; lia|apply be4; exact H2].
Qed.
Print Assumptions h2_goaway_frame.
Theorem h2_window_update_frame : forall sid inc, sid < 2 ^ 31 -> inc < 2 ^ 31 ->
  let f := send_window_update_frame sid inc in
  firstn 9 f = fh_bytes 4 8 0 false sid /\ length f = 13%nat /\ be (skipn 9 f) = inc.
Proof.
  intros sid inc _ H. split; [reflexivity|]. split; [reflexivity|].
  change (be [N.lor 0 (byte_of inc 3); byte_of inc 2; byte_of inc 1; byte_of inc 0] = inc). rewrite N.lor_0_l. apply be4.
  change (2 ^ 31) with 2147483648 in H; change (2 ^ 32) with 4294967296; lia.
Qed.
Print Assumptions h2_window_update_frame.
Theorem h2_ping_payload : forall data, data < 2 ^ 64 -> be (skipn 9 (send_ping_frame data)) = data.
Proof. intros data H. apply (be8 data H). Qed.
Print Assumptions h2_ping_payload.

(** Received fields of 1, 2, 4 and 8 octets decode the same wherever block boundaries fall, and the
    cursor ends just behind the field. *)
Theorem h2_fields_boundary_independent : forall b i p l, wf b -> ptr_at (b_chains b) 0 i = Some p ->
  octets_at (stream b) i l ->
  (length l = 1%nat -> exists q, read_pad b p = Ok (be l, q) /\ ptr_at (b_chains b) 0 (i + 1) = Some q) /\
  (length l = 2%nat -> exists q, read_setting_id b p = Ok (be l, q) /\ ptr_at (b_chains b) 0 (i + 2) = Some q) /\
  (length l = 4%nat -> exists q, read32 b p = Ok (be l, q) /\ read_setting_value b p = Ok (be l, q) /\ ptr_at (b_chains b) 0 (i + 4) = Some q) /\
  (length l = 8%nat -> exists q, read64 b p = Ok (be l, q) /\ ptr_at (b_chains b) 0 (i + 8) = Some q).
Proof.
  intros b i p l W P O. unfold read_pad, read_setting_id, read32, read_setting_value, read64.
  split; [|split; [|split]]; intros L;
    destruct (read_spec b i p _ l W P O L ltac:(lia)) as (q & -> & Q); exists q; auto.
Qed.
Print Assumptions h2_fields_boundary_independent.

(** 31-bit fields: correct when the field and the octet behind it lie in one block ... *)
Theorem h2_31bit_contiguous_partial : forall b i p v c r, wf b -> ptr_at (b_chains b) 0 i = Some p -> v < 2 ^ 31 ->
  octets_at (stream b) i (window_update_payload v r) ->
  nth_error (b_chains b) (fst p) = Some c -> (snd p + 4 <= c_len c - 1)%nat ->
  exists q, read31 b p = Ok (v, q) /\ ptr_at (b_chains b) 0 (i + 4) = Some q.
Proof. exact read31_flat. Qed.
Print Assumptions h2_31bit_contiguous_partial.

(** ... or anywhere when bit 7 of the value and the reserved bit are clear ... *)
Theorem h2_31bit_anywhere_partial : forall b i p v, wf b -> ptr_at (b_chains b) 0 i = Some p -> v < 2 ^ 31 -> v mod 256 < 128 ->
  octets_at (stream b) i (window_update_payload v false) ->
  exists q, read31 b p = Ok (v, q) /\ ptr_at (b_chains b) 0 (i + 4) = Some q.
Proof. exact read31_any. Qed.
Print Assumptions h2_31bit_anywhere_partial.

(** ... but not in general: WINDOW_UPDATE 65535 at the end of a block is read as 65407. *)
Theorem h2_31bit_boundary_refuted : exists b i p v q, wf b /\ ptr_at (b_chains b) 0 i = Some p /\ v = 65535 /\
  octets_at (stream b) i (window_update_payload v false) /\ read31 b p = Ok (65407, q).
Proof.
  exists (recv_all 5 3 (bs "xyz" ++ window_update_payload 65535 false)), 3%nat, (0%nat, 3%nat), 65535. eexists.
  split; [solve_wf|]. split; [reflexivity|]. split; [reflexivity|]. split; vm_compute; reflexivity.
Qed.
Print Assumptions h2_31bit_boundary_refuted.

(** The answer to a PING is sent with frame type GOAWAY and without the ACK flag. *)
Theorem h2_ping_frame_refuted : forall data,
  nth 3 (send_ping_frame data) 0 = FRAME_GOAWAY /\ FRAME_GOAWAY <> FRAME_PING /\ nth 4 (send_ping_frame data) 0 = 0.
Proof. intros data. split; [reflexivity|]. split; [discriminate|reflexivity]. Qed.
Print Assumptions h2_ping_frame_refuted.

Example h2_fields_example : exists b p, wf b /\ ptr_at (b_chains b) 0 1 = Some p /\ octets_at (stream b) 1 [1; 2; 3; 4] /\
  read32 b p = Ok (16909060, (1%nat, 2%nat)).
Proof.
  exists (recv_all 3 4 [9; 1; 2; 3; 4; 8]), (0%nat, 1%nat). split; [solve_wf|]. split; [reflexivity|].
  split; vm_compute; reflexivity.
Qed.
