(** Property C93: content codings (model: Encode.v; the law assumed of zlib and brotli: [lawful], EncodeProofs.v). *)
From Verif Require Import Base Buffer BufferProofs Encode EncodeProofs.
Local Open Scope nat_scope.

(** ** C93.  Full statement (false, see below): for every content and every coding the encoder yields exactly what the
    compressor yields, or reports that it does not fit. *)
(** gzip: exact if the result is shorter than the buffer may become, otherwise an error, for bodies and files, for every
    compressor that keeps the law, every block size and limit and all contents of fresh memory. *)
Theorem gzip_lossless : forall z enc per max junk src, lawful z enc -> 0 < per -> 0 < max -> length junk = per ->
  if length (enc (source_data src)) <? max * per
  then exists b, encode KGzip z per junk max src = Ok (EOk b (length (enc (source_data src)))) /\ wf b /\ stream b = enc (source_data src)
  else encode KGzip z per junk max src = Ok EBuffer \/ encode KGzip z per junk max src = Ok EError.
Proof. exact gzip_exact. Qed.
Example gzip_lossless_ex : lawful stored (fun d => 31%N :: d) /\
  (exists b, encode KGzip stored 4 [9;9;9;9]%N 3 (FromFile (bs "0123456789")) = Ok (EOk b 11) /\ stream b = 31%N :: bs "0123456789") /\
  encode KGzip stored 4 [9;9;9;9]%N 2 (FromFile (bs "0123456789")) = Ok EBuffer.
Proof. split; [exact stored_lawful|]. split; [eexists; split; [vm_compute; reflexivity|reflexivity]|vm_compute; reflexivity]. Qed.
(** A compressor that fails, at whatever call, is never taken for one that has finished: the encoding is complete or an
    error is reported. *)
Theorem gzip_never_truncated : forall z enc per max junk src, fallible z enc -> 0 < per -> 0 < max -> length junk = per ->
  (exists b, encode KGzip z per junk max src = Ok (EOk b (length (enc (source_data src)))) /\ wf b /\ stream b = enc (source_data src) /\
     length (enc (source_data src)) < max * per) \/
  (encode KGzip z per junk max src = Ok EBuffer /\ max * per <= length (enc (source_data src))) \/
  encode KGzip z per junk max src = Ok EError.
Proof. exact gzip_fails. Qed.
Theorem br_never_truncated_partial : forall z enc per max junk src, fallible z enc -> 0 < per -> 0 < max -> length junk = per ->
  length (enc (source_data src)) < per ->
  (exists b, encode KBr z per junk max src = Ok (EOk b (length (enc (source_data src)))) /\ wf b /\ stream b = enc (source_data src)) \/
  encode KBr z per junk max src = Ok EError.
Proof. exact br_fails. Qed.
Example never_truncated_ex : fallible brittle (fun d => 31%N :: d) /\
  encode KGzip brittle 4 [9;9;9;9]%N 3 (FromFile (bs "01234" ++ [0%N])) = Ok EError /\
  encode KBr brittle 8 (repeat 9%N 8) 3 (FromBody (bs "0123" ++ [0%N])) = Ok EError /\
  (exists b, encode KGzip brittle 4 [9;9;9;9]%N 3 (FromFile (bs "012345")) = Ok (EOk b 7)).
Proof. split; [exact brittle_fallible|]. split; [vm_compute; reflexivity|]. split; [vm_compute; reflexivity|]. eexists. vm_compute. reflexivity. Qed.
(** brotli: exact if the result is shorter than one block.  Missing: longer results, which are cut (below). *)
Theorem br_lossless_partial : forall z enc per max junk src, lawful z enc -> 0 < per -> 0 < max -> length junk = per ->
  length (enc (source_data src)) < per ->
  exists b, encode KBr z per junk max src = Ok (EOk b (length (enc (source_data src)))) /\ wf b /\ stream b = enc (source_data src).
Proof. exact br_small. Qed.
(** deflate: exact for bodies whose result is shorter than one block.  Missing: everything else, which fails (below). *)
Theorem deflate_lossless_partial : forall z enc per max junk d, lawful z enc -> 0 < per -> 0 < max -> length junk = per ->
  length (enc d) < per -> exists b, encode KDeflate z per junk max (FromBody d) = Ok (EOk b (length (enc d))) /\ wf b /\ stream b = enc d.
Proof. exact deflate_small. Qed.
Example small_ex : exists b b', encode KBr stored 8 (repeat 9%N 8) 2 (FromBody (bs "hello")) = Ok (EOk b 6) /\ stream b = 31%N :: bs "hello" /\
  encode KDeflate stored 8 (repeat 9%N 8) 2 (FromBody (bs "hello")) = Ok (EOk b' 6) /\ stream b' = 31%N :: bs "hello".
Proof. do 2 eexists. split; [vm_compute; reflexivity|]. split; [reflexivity|]. split; [vm_compute; reflexivity|reflexivity]. Qed.
(** Finding: of a body whose brotli form is longer than a block exactly the first block is kept, and this is reported as
    success. *)
Theorem br_cut : forall z enc per max junk d, lawful z enc -> 0 < per -> 1 < max -> length junk = per -> per < length (enc d) ->
  exists b, encode KBr z per junk max (FromBody d) = Ok (EOk b per) /\ wf b /\ stream b = firstn per (enc d).
Proof. exact br_truncates. Qed.
Theorem br_lossless_refuted : exists z enc per max junk src b n, lawful z enc /\ length junk = per /\ length (enc (source_data src)) < max * per /\
  encode KBr z per junk max src = Ok (EOk b n) /\ stream b <> enc (source_data src).
Proof.
  exists stored, (fun d => 31%N :: d), 4, 9, [9;9;9;9]%N, (FromBody (bs "hello")). do 2 eexists. split; [exact stored_lawful|]. split; [reflexivity|].
  split; [apply Nat.ltb_lt; reflexivity|]. split; [vm_compute; reflexivity|vm_compute; discriminate].
Qed.
(** Finding: a body whose deflate form is longer than a block crashes the worker (the decoder's buffer is used). *)
Theorem deflate_long_crashes : forall z enc per max junk d, lawful z enc -> 0 < per -> 0 < max -> length junk = per -> per < length (enc d) ->
  encode KDeflate z per junk max (FromBody d) = UB NullDeref.
Proof. exact deflate_large. Qed.
Theorem deflate_lossless_refuted : exists z enc per max junk d, lawful z enc /\ length junk = per /\ length (enc d) < max * per /\
  encode KDeflate z per junk max (FromBody d) = UB NullDeref.
Proof.
  exists stored, (fun d => 31%N :: d), 4, 9, [9;9;9;9]%N, (bs "hello"). split; [exact stored_lawful|]. split; [reflexivity|]. split; [apply Nat.ltb_lt; reflexivity|vm_compute; reflexivity].
Qed.
(** Finding: deflate never succeeds on a file. *)
Theorem deflate_file_never : forall z enc per max junk d, lawful z enc -> 0 < per -> 0 < max -> length junk = per ->
  forall b n, encode KDeflate z per junk max (FromFile d) <> Ok (EOk b n).
Proof. exact deflate_file. Qed.
Print Assumptions gzip_lossless.
Print Assumptions gzip_never_truncated.
Print Assumptions br_never_truncated_partial.
Print Assumptions br_lossless_partial.
Print Assumptions deflate_lossless_partial.
Print Assumptions br_cut.
Print Assumptions br_lossless_refuted.
Print Assumptions deflate_long_crashes.
Print Assumptions deflate_lossless_refuted.
Print Assumptions deflate_file_never.
