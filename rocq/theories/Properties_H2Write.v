(** Properties of the bytes written to an HTTP/2 connection (C110, C111). *)
From Verif Require Import Base Buffer BufferProofs H2Write H2WriteProofs.

Definition ex_hd : list N := [0; 0; 2; 1; 4; 0; 0; 0; 1]%N.
Definition ex_h : list N := [0; 0; 3; 0; 1; 0; 0; 0; 1]%N.
Definition ex_frame : qframe := mkQf ex_hd [136; 130]%N FHeader.
Definition ex_buf : buffer := mkBuffer [mkChain [1; 2]%N 0 0; mkChain [3; 0]%N 0 1] 2 5 2 3.
Lemma ex_buf_wf : wf ex_buf.
Proof. unfold wf, ex_buf; cbn; repeat split; auto with arith; discriminate. Qed.

(** If a send takes nothing or at least [m] bytes, where every frame header and queued payload fits in [m], then whatever
    the splitting into turns and however the content is split, the receiver has a beginning of the frames followed by one
    DATA frame, and all of it when the response is finished. *)
Theorem h2_wire_exact_partial : forall h c q m tss, length h = HLEN -> writable c -> Forall fresh_frame q -> Forall (fits m) q -> HLEN <= m ->
  Forall (Forall (whole m)) tss -> Forall (Forall no_intr) tss ->
  exists w q' s' r, turns h c q r_start tss = Ok (w, q', s', r) /\ (r = RDone -> w = wire q h c) /\ (exists w', w ++ w' = wire q h c) /\
   (Forall (Forall fair) tss -> r = RDone \/ r = RWait).
Proof. exact wire_exact. Qed.
Print Assumptions h2_wire_exact_partial.
(** The same with every pattern of short writes: the content arrives once and in order; before each part
    of the frames in front of it the receiver may see beginnings of that part. *)
Theorem h2_wire_any_partial : forall h c q tss, length h = HLEN -> writable c -> Forall fresh_frame q -> Forall (Forall no_intr) tss ->
  exists w q' s' r, turns h c q r_start tss = Ok (w, q', s', r) /\
   (r = RDone -> exists wq wh, w = wq ++ wh ++ content_of c /\ frames_seen (parts q) wq /\ pieces h wh) /\
   (Forall (Forall fair) tss -> r = RDone \/ r = RWait) /\ (~ is_file c -> Forall (Forall no_fail) tss -> r <> RExit).
Proof. exact wire_any. Qed.
Print Assumptions h2_wire_any_partial.
(** A socket that takes what it is given: three turns are enough. *)
Theorem h2_wire_complete : forall h c q m k, length h = HLEN -> writable c -> q <> [] -> Forall fresh_frame q -> Forall (fits m) q -> HLEN <= m ->
  2 * length q <= k -> content_len c <= k -> 1 <= k ->
  exists s', turns h c q r_start [repeat (Took m) k; repeat (Took m) k; repeat (Took m) k] = Ok (wire q h c, [], s', RDone) /\ rs_fase s' = PEnd.
Proof. exact wire_ready. Qed.
Print Assumptions h2_wire_complete.
Example h2_wire_ex : length ex_h = HLEN /\ writable (CEncoded ex_buf 3) /\ Forall fresh_frame [ex_frame] /\ Forall (fits 9) [ex_frame] /\
  turns ex_h (CEncoded ex_buf 3) [ex_frame] r_start [[Took 9; Again]; [Took 9]; [Again]; [Took 9]; [Took 1; Again]; [Took 1; Took 9]] =
  Ok (ex_hd ++ [136; 130]%N ++ ex_h ++ [1; 2; 3]%N, [], mkR PEnd 3 0, RDone).
Proof.
  split; [reflexivity|]. split; [split; [exact ex_buf_wf|reflexivity]|]. split; [repeat constructor|]. split; [|reflexivity].
  constructor; [|constructor]. split; cbn; repeat constructor.
Qed.
(** The frames themselves do not survive a short write: when the socket takes [k] bytes of a frame header, or of a payload,
    and is then full, these bytes are written again. *)
Theorem h2_short_header_repeated : forall hd pay h c q s k rest, length hd = HLEN -> 0 < k < HLEN ->
  turns h c (mkQf hd pay FHeader :: q) s ([Took k; Again] :: rest) =
  obind (turns h c (mkQf hd pay FHeader :: q) s rest) (fun y => let '(w, q', s', r) := y in Ok (firstn k hd ++ w, q', s', r)).
Proof. exact short_header_repeats. Qed.
Print Assumptions h2_short_header_repeated.
Theorem h2_short_payload_repeated : forall hd pay h c q s k rest, 0 < k < length pay ->
  turns h c (mkQf hd pay FPayload :: q) s ([Took k; Again] :: rest) =
  obind (turns h c (mkQf hd pay FPayload :: q) s rest) (fun y => let '(w, q', s', r) := y in Ok (firstn k pay ++ w, q', s', r)).
Proof. exact short_payload_repeats. Qed.
Print Assumptions h2_short_payload_repeated.
(** The header of a DATA frame is broken by every short write, even without blocking. *)
Theorem h2_short_data_header_broken : forall h c k rest, length h = HLEN -> 0 < content_len c -> 0 < k < HLEN ->
  turns h c [] r_start ([Took k; Took (HLEN - k)] :: rest) =
  obind (turns h c [] (mkR PData 0 0) rest) (fun y => let '(w, q', s', r) := y in Ok (firstn k h ++ firstn (HLEN - k) h ++ w, q', s', r)).
Proof. exact short_data_header. Qed.
Print Assumptions h2_short_data_header_broken.
Theorem h2_short_write_refuted : exists h c q tss w q' s', length h = HLEN /\ writable c /\ Forall fresh_frame q /\ Forall (Forall fair) tss /\ Forall (Forall no_intr) tss /\
  turns h c q r_start tss = Ok (w, q', s', RDone) /\ w <> wire q h c.
Proof.
  exists ex_h, (CBody [1; 2; 3]%N), [ex_frame], [[Took 4; Again]; [Took 9; Took 2]; [Took 9]; [Took 3]].
  exists (firstn 4 ex_hd ++ ex_hd ++ [136; 130]%N ++ ex_h ++ [1; 2; 3]%N), [], (mkR PEnd 3 0).
  split; [reflexivity|]. split; [exact Logic.I|]. split; [repeat constructor|]. split; [repeat constructor|]. split; [repeat constructor|]. split; [reflexivity|discriminate].
Qed.
Print Assumptions h2_short_write_refuted.
(** A signal during the write of coded content: one byte is written twice and the last is missing. *)
Theorem h2_interrupted_write_refuted : exists h c tss w s', length h = HLEN /\ writable c /\ Forall (Forall fair) tss /\
  turns h c [] r_start tss = Ok (w, [], s', RDone) /\ w = h ++ [1; 1; 2]%N /\ content_of c = [1; 2; 3]%N.
Proof.
  exists ex_h, (CEncoded ex_buf 3), [[Took 9]; [Took 1; Intr; Took 2]], (ex_h ++ [1; 1; 2]%N), (mkR PEnd 3 0).
  split; [reflexivity|]. split; [split; [exact ex_buf_wf|reflexivity]|]. split; [repeat constructor|]. split; [reflexivity|]. split; reflexivity.
Qed.
Print Assumptions h2_interrupted_write_refuted.

(** A default content that is not coded is never sent: the worker does not come back from the call, whatever the socket does,
    and serves nobody any more. *)
Theorem h2_default_content_hangs : forall h d n ts rest, length h = HLEN -> 0 < n ->
  turns h (CDefault d n) [] r_start ([Took HLEN] :: ts :: rest) = UB Diverges.
Proof. exact default_hangs. Qed.
Print Assumptions h2_default_content_hangs.
(** Nor does it if a file has become shorter than it was when it was registered. *)
Theorem h2_short_file_hangs : forall h d n k rest, length h = HLEN -> length d < n -> length d <= k ->
  turns h (CFile d n) [] r_start ([Took HLEN] :: [Took k] :: rest) = UB Diverges.
Proof. exact short_file_hangs. Qed.
Print Assumptions h2_short_file_hangs.
Theorem h2_response_finished_refuted : exists h c tss, length h = HLEN /\ Forall (Forall fair) tss /\ turns h c [] r_start tss = UB Diverges.
Proof.
  exists ex_h, (CDefault [60; 62]%N 2), [[Took HLEN]; [Took 2]]. split; [reflexivity|]. split; [repeat constructor|]. reflexivity.
Qed.
Print Assumptions h2_response_finished_refuted.

(** If the peer goes away (EPIPE) while anything but a file is written, the worker stays, whatever the history of the writes. *)
Theorem h2_gone_client_closes_partial : forall h c q tss, length h = HLEN -> writable c -> Forall fresh_frame q -> Forall (Forall no_intr) tss ->
  ~ is_file c -> Forall (Forall no_fail) tss -> exists w q' s' r, turns h c q r_start tss = Ok (w, q', s', r) /\ r <> RExit.
Proof.
  intros h c q tss H1 H2 H3 H4 H5 H6. destruct (wire_any h c q tss H1 H2 H3 H4) as (w & q' & s' & r & E & _ & _ & X).
  exists w, q', s', r. split; [exact E|exact (X H5 H6)].
Qed.
Print Assumptions h2_gone_client_closes_partial.
Example h2_gone_client_ex : writable (CBody [1; 2; 3]%N) /\ ~ is_file (CBody [1; 2; 3]%N) /\
  turns ex_h (CBody [1; 2; 3]%N) [ex_frame] r_start [[Took 9; Took 2]; [Took 9]; [Took 1; Pipe]] =
  Ok (ex_hd ++ [136; 130]%N ++ ex_h ++ [1]%N, [], mkR PData 1 0, RClosed).
Proof. split; [exact Logic.I|]. split; [intros []|reflexivity]. Qed.
(** While a file is written the worker ends, and with it all its connections. *)
Theorem h2_gone_download_ends_worker : forall h d n ts rest, length h = HLEN -> 0 < n <= length d ->
  turns h (CFile d n) [] r_start ([Took HLEN] :: (Pipe :: ts) :: rest) = Ok (h, [], mkR PData 0 0, RExit).
Proof. exact gone_file_exits. Qed.
Print Assumptions h2_gone_download_ends_worker.
(** A connection reset does so while any frame is written. *)
Theorem h2_reset_ends_worker : forall h c f q s ts rest, fresh_frame f ->
  turns h c (f :: q) s ((Fail :: ts) :: rest) = Ok ([], f :: q, s, RExit).
Proof. exact reset_exits. Qed.
Print Assumptions h2_reset_ends_worker.
Theorem h2_gone_client_refuted : exists h c tss w q' s', length h = HLEN /\ writable c /\ Forall (Forall no_fail) tss /\ Forall (Forall no_intr) tss /\
  turns h c [] r_start tss = Ok (w, q', s', RExit).
Proof.
  exists ex_h, (CFile [1; 2; 3]%N 3), [[Took 9]; [Took 1; Pipe]], (ex_h ++ [1]%N), [], (mkR PData 1 1).
  split; [reflexivity|]. split; [cbn; repeat constructor|]. split; [repeat constructor|]. split; [repeat constructor|]. reflexivity.
Qed.
Print Assumptions h2_gone_client_refuted.
