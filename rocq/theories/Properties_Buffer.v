(** Properties C06-C09: the receive buffer. *)
From Verif Require Import Base Buffer BufferProofs.

(** ** C06.  [sent] is everything the peer sends; a connection runs any schedule [os] of kernel
    deliveries (of any sizes), consumptions and refreshes.  It never hits undefined behaviour; the
    bytes handed out are always a prefix of [sent], and as long as the limit has not been reported
    handed-out bytes ++ readable bytes ++ undelivered bytes is exactly [sent]. *)
Theorem buffer_byte_stream : forall sent junk max per os, 0 < max -> 0 < per ->
  exists b0 c, buf_init (fresh per junk) 1 max per = Some b0 /\
    krun (mkConn sent b0 [] false) os = Ok c /\
    (k_over c = false -> sent = k_out c ++ stream (k_buf c) ++ k_src c) /\
    (exists rest, sent = k_out c ++ rest).
Proof.
  intros sent junk max per os Hm Hp.
  destruct (krun_start sent junk max per os Hm Hp) as (b0 & c & I & R & K1 & _ & _ & K2 & _).
  exists b0, c. split; [exact I|]. split; [exact R|]. split; [intros O; apply (K2 O)|exact K1].
Qed.
Print Assumptions buffer_byte_stream.

(** Chunking does not matter: two runs (different chunk sizes, memory contents, interleavings) that
    have handed out equally many bytes have handed out the same bytes. *)
Theorem buffer_chunking_independent : forall sent junk1 junk2 max per os1 os2 c1 c2 b1 b2, 0 < max -> 0 < per ->
  buf_init (fresh per junk1) 1 max per = Some b1 -> buf_init (fresh per junk2) 1 max per = Some b2 ->
  krun (mkConn sent b1 [] false) os1 = Ok c1 -> krun (mkConn sent b2 [] false) os2 = Ok c2 ->
  length (k_out c1) = length (k_out c2) -> k_out c1 = k_out c2.
Proof. exact krun_same_bytes. Qed.
Print Assumptions buffer_chunking_independent.

Example buffer_byte_stream_example :
  exists b0 c, buf_init (fresh 3 []) 1 4 3 = Some b0 /\
    krun (mkConn (bs "GET / HTTP") b0 [] false)
         [BRecv 2 []; BConsume 1; BRecv 9 (bs "zzz"); BRecv 9 []; BConsume 3; BRecv 1 []] = Ok c /\
    k_out c = bs "GET " /\ stream (k_buf c) = bs "/ H" /\ k_src c = bs "TTP" /\ k_over c = false.
Proof.
  eexists. eexists. split; [vm_compute; reflexivity|]. split; [vm_compute; reflexivity|].
  vm_compute. auto.
Qed.

(** With two initial blocks (FLY_CONNECT_BUFFER_INIT_LEN=2, accepted by the configuration) the
    first block stays empty while data is written to the last one: what is consumed is the
    uninitialised content of the first block, not the bytes sent. *)
Theorem buffer_two_initial_blocks_refuted :
  exists sent junk max per os b0 c, 0 < max /\ 0 < per /\ buf_init (fresh per junk) 2 max per = Some b0 /\
    krun (mkConn sent b0 [] false) os = Ok c /\ k_over c = false /\
    ~ (exists rest, sent = k_out c ++ rest).
Proof.
  exists (bs "GET"), (bs "xxxx"), 4, 4, [BRecv 3 []; BConsume 3]. eexists. eexists.
  split; [lia|]. split; [lia|]. split; [vm_compute; reflexivity|]. split; [vm_compute; reflexivity|].
  split; [reflexivity|]. intros (rest & H). vm_compute in H. discriminate.
Qed.
Print Assumptions buffer_two_initial_blocks_refuted.

(** ** C07 *)
(** The block count never exceeds the limit, whatever happens on the connection; overflow is
    reported (sticky) exactly with all blocks in use. *)
Theorem buffer_capacity : forall sent junk max per os, 0 < max -> 0 < per ->
  exists b0 c, buf_init (fresh per junk) 1 max per = Some b0 /\
    krun (mkConn sent b0 [] false) os = Ok c /\
    b_count (k_buf c) <= max /\ (k_over c = true -> b_count (k_buf c) = max).
Proof.
  intros sent junk max per os Hm Hp.
  destruct (krun_start sent junk max per os Hm Hp) as (b0 & c & I & R & _ & _ & K1 & _ & K2).
  exists b0, c. auto.
Qed.
Print Assumptions buffer_capacity.

(** Appending [n] bytes succeeds (and then accounts for exactly [n] more bytes) iff [n] is smaller
    than the free space counting unallocated blocks; otherwise the limit error is reported. *)
Theorem buffer_append_refused_iff_full : forall junk b n, wf b -> length junk = b_per b ->
  exists r, update_buffer junk b n = Ok r /\
    match r with
    | UpdSuccess b' => n < room b /\ wf b' /\ b_max b' = b_max b /\ b_count b' <= b_max b /\ b_use_len b' = b_use_len b + n
    | UpdLimit b' => room b <= n /\ b_count b' = b_max b
    end.
Proof. exact append_iff. Qed.
Print Assumptions buffer_append_refused_iff_full.

(** The configured limit leaves room for a body of the maximum length. *)
Theorem connect_buffer_capacity : forall max_len per, 0 < per -> max_len < connect_chain_max max_len per * per.
Proof. exact chain_max_capacity. Qed.
Print Assumptions connect_buffer_capacity.

(** A buffer never holds as many unread bytes as its nominal capacity (one byte stays free). *)
Theorem buffer_never_full : forall b, wf b -> length (stream b) < b_max b * b_per b.
Proof. exact stream_bound. Qed.
Print Assumptions buffer_never_full.

Example buffer_capacity_example :
  exists b0, buf_init (fresh 3 []) 1 2 3 = Some b0 /\ wf b0 /\ room b0 = 6 /\
    (exists b', update_buffer (fresh 3 []) b0 5 = Ok (UpdSuccess b')) /\
    (exists b', update_buffer (fresh 3 []) b0 6 = Ok (UpdLimit b')).
Proof.
  eexists. split; [vm_compute; reflexivity|]. split; [|split; [vm_compute; reflexivity|split; eexists; vm_compute; reflexivity]].
  unfold wf; vm_compute; repeat split; try lia; try discriminate.
Qed.

(** ** C08 *)
(** Copying [len] bytes from stream offset [i], given the block the pointer lies in, yields exactly
    the stream bytes [i .. i+len). *)
Theorem buffer_copy_exact : forall b i ci off len, wf b -> ptr_at (b_chains b) 0 i = Some (ci, off) ->
  i + len <= length (stream b) -> memcpy b (ci, off) ci len = Ok (firstn len (skipn i (stream b))).
Proof. exact memcpy_spec. Qed.
Print Assumptions buffer_copy_exact.

(** The same when an earlier block is given, provided the pointer is not in the last block. *)
Theorem buffer_copy_from_earlier_block : forall b i ci off k len, wf b -> ptr_at (b_chains b) 0 i = Some (ci, off) ->
  i + len <= length (stream b) -> k <= ci -> (k = ci \/ S ci < length (b_chains b)) ->
  memcpy b (ci, off) k len = Ok (firstn len (skipn i (stream b))).
Proof. exact memcpy_earlier_spec. Qed.
Print Assumptions buffer_copy_from_earlier_block.

(** Advancing a pointer across blocks reaches the pointer [len] stream bytes further. *)
Theorem buffer_advance_exact : forall b i ci off len, wf b -> ptr_at (b_chains b) 0 i = Some (ci, off) ->
  i + len <= length (stream b) -> update_chain b (ci, off) len = ptr_at (b_chains b) 0 (i + len).
Proof. exact update_chain_spec. Qed.
Print Assumptions buffer_advance_exact.

(** A concrete three-block buffer. *)
Definition ex_buf : buffer :=
  mkBuffer [mkChain (bs "abcd") 1 0; mkChain (bs "efgh") 0 0; mkChain (bs "ij?!") 0 2] 3 9 4 9.
Lemma ex_buf_wf : wf ex_buf.
Proof. unfold wf; vm_compute; repeat split; try lia; try discriminate. Qed.
Example buffer_copy_example :
  wf ex_buf /\ ptr_at (b_chains ex_buf) 0 2 = Some (0, 3) /\ memcpy ex_buf (0, 3) 0 7 = Ok (bs "defghij") /\
  update_chain ex_buf (0, 3) 5 = Some (2, 0).
Proof. split; [exact ex_buf_wf|]. vm_compute. auto. Qed.

(** The restriction is needed: with the first block given and the source in the last block (a header
    line that starts in one block and whose value lies in the last one, header.c:171,181) nothing
    is copied. *)
Theorem buffer_copy_last_block_refuted : exists b i ci off k len, wf b /\
  ptr_at (b_chains b) 0 i = Some (ci, off) /\ i + len <= length (stream b) /\ k <= ci /\
  memcpy b (ci, off) k len <> Ok (firstn len (skipn i (stream b))).
Proof.
  exists ex_buf, 7, 2, 0, 0, 2. split; [exact ex_buf_wf|]. split; [reflexivity|].
  split; [vm_compute; lia|]. split; [lia|]. vm_compute. discriminate.
Qed.
Print Assumptions buffer_copy_last_block_refuted.

(** ** C09.  Full statement (false, see the refutations): a search succeeds iff the string occurs in
    the unread bytes, at its first occurrence. *)
(** The searched-for HTTP/1 delimiters are found at their first occurrence, provided no CR directly
    follows another CR before it. Missing: patterns in general, and CR CR. *)
Theorem buffer_search_finds_delimiter_partial : forall b pat j, wf b -> (pat = CRLF \/ pat = CRLF2) ->
  occurs pat (stream b) j -> (forall j', j' < j -> ~ occurs pat (stream b) j') -> no_crcr (stream b) j ->
  exists q, strstr_after b pat = Ok (Some q) /\ ptr_at (b_chains b) 0 (j + length pat) = Some q.
Proof. exact crlf_found. Qed.
Print Assumptions buffer_search_finds_delimiter_partial.

(** Whatever is found is an occurrence in the memory of the blocks (not necessarily in the
    received part of it). *)
Theorem buffer_search_sound_partial : forall b pat q, wf b -> pat <> [] -> strstr_after b pat = Ok (Some q) ->
  exists j, occurs pat (mem (b_chains b)) j.
Proof. exact found_real. Qed.
Print Assumptions buffer_search_sound_partial.

Definition ex_line : buffer :=
  mkBuffer [mkChain (bs "GET ") 0 0; mkChain (bs "/" ++ CRLF ++ bs "?") 0 1] 2 9 4 7.
Example buffer_search_example : wf ex_line /\ occurs CRLF (stream ex_line) 5 /\
  strstr_after ex_line CRLF = Ok (Some (1, 3)).
Proof.
  split; [unfold wf; vm_compute; repeat split; try lia; try discriminate|].
  split; [exists (bs "GET /"), []; split; reflexivity|reflexivity].
Qed.

Theorem buffer_search_misses_refuted : exists b j, wf b /\ occurs CRLF (stream b) j /\
  strstr_after b CRLF = Ok None.
Proof.
  exists (mkBuffer [mkChain (bs "a" ++ [CR; CR; LF] ++ bs "bcdefg") 0 6] 1 9 10 4), 2.
  split; [unfold wf; vm_compute; repeat split; try lia; try discriminate|].
  split; [exists (bs "a" ++ [CR]), []; split; reflexivity|vm_compute; reflexivity].
Qed.
Print Assumptions buffer_search_misses_refuted.

Theorem buffer_search_reads_stale_memory_refuted : exists b q, wf b /\
  (forall j, ~ occurs CRLF (stream b) j) /\ strstr_after b CRLF = Ok (Some q).
Proof.
  exists (mkBuffer [mkChain (bs "ab" ++ [CR; LF] ++ bs "cd") 0 4] 1 9 6 2), (0, 4).
  split; [unfold wf; vm_compute; repeat split; try lia; try discriminate|].
  split; [|vm_compute; reflexivity].
  intros j (pre & post & H & _). apply (f_equal (fun l => existsb (N.eqb CR) l)) in H.
  rewrite !existsb_app in H. destruct (existsb (N.eqb CR) pre); vm_compute in H; discriminate.
Qed.
Print Assumptions buffer_search_reads_stale_memory_refuted.
