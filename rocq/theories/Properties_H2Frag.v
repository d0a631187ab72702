(** Property C50: response header blocks in frames. *)
From Verif Require Import Base H2Frame H2Frag H2FragProofs Hpack HpackSpec HpackProofs.
Local Open Scope nat_scope.

(** Missing from the full statement: blocks of 1000 bytes or more.  For every frame size limit, the
    block of a list of field representations is sent as one HEADERS frame followed by CONTINUATION
    frames whose payloads concatenate to the block; only the last frame carries END_HEADERS (and
    END_STREAM if there is no content); each payload is below the limit if each field is. *)
Theorem header_block_partial junk maxp nocontent fields : length junk = 10 -> 0 < maxp -> length (concat fields) < 1000 ->
  exists pre f, send_headers junk maxp nocontent fields = Ok (pre ++ [f]) /\
    match pre ++ [f] with g :: t => hf_type g = 1%N /\ Forall (fun g => hf_type g = 9%N) t | [] => False end /\
    Forall (fun g => hf_flags g = 0%N) pre /\ hf_flags f = (if nocontent then 5 else 4)%N /\
    flat_map hf_payload (pre ++ [f]) = concat fields /\
    (Forall (fun g => length g < maxp) fields -> Forall (fun g => length (hf_payload g) < maxp) (pre ++ [f])).
Proof.
  intros J M R. destruct (send_headers_ok junk maxp nocontent fields J M R) as (pre & f & E & S & F & L & C & B).
  exists pre, f. split; [exact E|]. split; [destruct pre; exact S|]. auto.
Qed.
Print Assumptions header_block_partial.
Example header_block_split : exists junk, length junk = 10 /\
  send_headers junk 16 true [bs "field-one"; bs "field-two"; bs "three"; bs "4"] =
    Ok [mkHF 1 0 (bs "field-one"); mkHF 9 5 (bs "field-twothree4")].
Proof. exists (repeat 7%N 10). split; vm_compute; reflexivity. Qed.
(** With the frame size the server uses this is always a single HEADERS frame, and what a client
    decodes from it is the list of header fields (together with C59). *)
Theorem header_block_frame_partial junk nocontent d h : length junk = 10 ->
  Forall (fun f => plain f /\ short f /\ foreign d f) h -> length (flat_map (put_field d) h) < 1000 ->
  exists rs, send_headers junk MAX_FRAME nocontent (map (put_field d) h) = Ok [mkHF 1 (if nocontent then 5 else 4) (enc_block rs)] /\
    forall max tab, exists tab', meaning_block max tab rs = Some (h, tab').
Proof.
  intros J F L. destruct (put_block_ok d h F) as (rs & E & M); [lia|]. exists rs. split; [|exact M].
  rewrite send_headers_one; [|exact J|rewrite <- flat_map_concat_map; exact L]. rewrite <- flat_map_concat_map.
  unfold put_block in E. destruct (BLOCK_CAP <=? N.of_nat (length (flat_map (put_field d) h)))%N; [discriminate|]. injection E as ->.
  destruct nocontent; reflexivity.
Qed.
Print Assumptions header_block_frame_partial.
Example header_block_frame_nonvacuous : exists junk, length junk = 10 /\
  send_headers junk MAX_FRAME false (map (put_field dt_init) [(bs ":status", bs "200"); (bs "content-length", bs "5")]) = Ok [mkHF 1 4 [136; 92; 1; 53]%N].
Proof. exists (repeat 255%N 10). split; vm_compute; reflexivity. Qed.
(** Every block of 1000 to 16383 bytes ends in a NULL dereference. *)
Theorem header_block_long_crashes junk nocontent fields : length junk = 10 ->
  1000 <= length (concat fields) -> length (concat fields) < MAX_FRAME ->
  send_headers junk MAX_FRAME nocontent fields = UB NullDeref.
Proof. exact (send_headers_long junk nocontent fields). Qed.
Print Assumptions header_block_long_crashes.
Theorem header_block_refuted : exists junk h, length junk = 10 /\ Forall (fun f => plain f /\ short f /\ foreign dt_init f) h /\
  send_headers junk MAX_FRAME false (map (put_field dt_init) h) = UB NullDeref.
Proof.
  exists (repeat 0%N 10), (repeat (bs "x-long-name", repeat 97%N 100) 9). split; [reflexivity|]. split; [|vm_compute; reflexivity].
  apply Forall_forall. intros f I. apply repeat_spec in I. subst f. split; [apply plainb_ok; vm_compute; reflexivity|]. split; [split; apply Nat.ltb_lt; reflexivity|intros n v []].
Qed.
Print Assumptions header_block_refuted.
(** A field that alone reaches the limit gives a HEADERS frame without payload and a frame that exceeds
    the limit. *)
Theorem header_field_oversize_refuted : exists junk maxp fields fs, length junk = 10 /\ send_headers junk maxp false fields = Ok fs /\
  Exists (fun f => maxp < length (hf_payload f)) fs /\ Exists (fun f => hf_payload f = []) fs.
Proof.
  exists (repeat 0%N 10), 8, [bs "a-long-field"], [mkHF 1 0 []; mkHF 9 4 (bs "a-long-field")]. split; [reflexivity|]. split; [vm_compute; reflexivity|].
  split; [apply Exists_cons_tl, Exists_cons_hd; cbn; lia|apply Exists_cons_hd; reflexivity].
Qed.
Print Assumptions header_field_oversize_refuted.
