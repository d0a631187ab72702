(** Theorems for C53 - C59. *)
From Verif Require Import Base Hpack HpackSpec HpackProofs.

(** C53 (full claim: every integer below 2^32).  With any prefix size and any flag bits, the RFC
    encoding of an integer is decoded to it, and exactly its octets are consumed.  Missing: integers
    of 2^31 + 2^N - 1 and more. *)
Theorem hpack_integer_decode_partial : forall bits flags v rest, flags_ok bits flags -> (v < 2 ^ 31 + 2 ^ bits - 1)%N ->
  hp_integer bits (rfc_int bits flags v ++ rest) = Ok (v, N.of_nat (length (rfc_int bits flags v)), rest).
Proof. exact integer_decode. Qed.
Print Assumptions hpack_integer_decode_partial.
Example hpack_integer_decode_ex : flags_ok 5 32 /\ (1337 < 2 ^ 31 + 2 ^ 5 - 1)%N /\ rfc_int 5 32 1337 = [63; 154; 10]%N /\
  hp_integer 5 [63; 154; 10; 7]%N = Ok (1337, 3, [7])%N.
Proof. repeat split; (reflexivity || discriminate). Qed.
(** Finding: an integer that fits 32 bits overflows int arithmetic. *)
Theorem hpack_integer_decode_refuted : exists v, (v < 2 ^ 32)%N /\ forall rest, hp_integer 7 (rfc_int 7 0 v ++ rest) = UB SignedOverflow.
Proof. exists (2 ^ 31 + 127)%N. split; [reflexivity|exact integer_overflow]. Qed.
Print Assumptions hpack_integer_decode_refuted.

(** C54 (full claim: every integer).  Exactly the integers below the full prefix, and those whose low
    octet happens to have the prefix bits set and no other bit outside the flags, are encoded so that
    an RFC decoder reads them back and the flags are kept. *)
Theorem hpack_integer_encode_partial : forall bits flags v rest, flags_ok bits flags -> (v < 2 ^ 32)%N ->
  ((v < 2 ^ bits - 1)%N \/ lucky bits flags v) <-> decodes_to bits flags v rest (hp_set_integer bits flags v ++ rest).
Proof. exact integer_encode. Qed.
Print Assumptions hpack_integer_encode_partial.
Example hpack_integer_encode_ex : flags_ok 7 0 /\ (100 < 2 ^ 7 - 1)%N /\ lucky 7 0 127 /\ hp_set_integer 7 0 127 = rfc_int 7 0 127.
Proof. repeat split; (reflexivity || discriminate). Qed.
(** Finding: the length 200 of a string literal is sent as the Huffman flag and the length 72. *)
Theorem hpack_integer_encode_refuted : exists v rest, (v < 2 ^ 32)%N /\ rfc_decode_int 7 (hp_set_integer 7 0 v ++ rest) <> Some (v, rest) /\
  is_huffman (hd 0%N (hp_set_integer 7 0 v)) = true.
Proof. exists 200%N, []. split; [reflexivity|]. split; [discriminate|reflexivity]. Qed.
Print Assumptions hpack_integer_encode_refuted.

(** C55 (full claim: histories of insertions and size changes).  After any history of insertions the
    table holds, newest first, the longest run of newest entries whose sizes fit the maximum, and the
    indices from 62 on address it in that order.  Missing: changes of the maximum size. *)
Theorem hpack_dynamic_table_partial : forall limit ins, exists d rest, adds limit dt_init ins = Ok d /\ rev ins = dt_entries d ++ rest /\
  (tsize (dt_entries d) <= limit)%N /\ (rest = [] \/ exists e t, rest = e :: t /\ (limit < tsize (dt_entries d) + esize e)%N) /\
  forall i, (62 <= i)%N -> lookup d (i - 1) = match nth_error (dt_entries d) (N.to_nat (i - 62)) with Some f => f | None => ([], []) end.
Proof. exact dynamic_table. Qed.
Print Assumptions hpack_dynamic_table_partial.
Example hpack_dynamic_table_ex : exists d, adds 70 dt_init [(bs "a", bs "1"); (bs "b", bs "2"); (bs "c", bs "3")] = Ok d /\
  dt_entries d = [(bs "c", bs "3"); (bs "b", bs "2")] /\ lookup d 61 = (bs "c", bs "3").
Proof. eexists. split; [vm_compute; reflexivity|]. split; reflexivity. Qed.
(** Finding: every block with a size update is rejected, although RFC 7541 requires one after the
    table size was reduced. *)
Theorem hpack_dynamic_table_refuted : forall limit max len b rest d, (0 < len)%N -> enc_rep (SizeUpdate max) = b :: rest ->
  forall more, parse_headers limit len (b :: more) d = Ok PError.
Proof.
  intros limit max len b rest d L E more. apply size_update_rejected; [|lia]. cbn [enc_rep] in E.
  destruct (rfc_int_head 5 32 max) as (t & E'). rewrite E' in E. change (2 ^ 5 - 1)%N with 31%N in E. assert (X : b = (32 + N.min max 31)%N) by congruence. lia.
Qed.
Print Assumptions hpack_dynamic_table_refuted.
Example hpack_dynamic_table_refuted_ex : enc_rep (SizeUpdate 4096) = [63; 225; 31]%N /\ meaning_block 4096 [] [SizeUpdate 4096; Indexed 2] = Some ([(bs ":method", bs "GET")], []).
Proof. split; reflexivity. Qed.

(** C56 (full claim: all 61 entries).  Every index resolves to the name of RFC 7541 Appendix A,
    except 41, and to its value, except 16 and 17. *)
Theorem hpack_static_table_partial : forall d i, (1 <= i <= 61)%N -> exists r, nth_error rfc_static (N.to_nat (i - 1)) = Some r /\
  (i <> 41%N -> fst (lookup d (i - 1)) = fst r) /\ (i <> 16%N -> i <> 17%N -> snd (lookup d (i - 1)) = snd r).
Proof.
  intros d i H. destruct (lookup_static d i H) as (r & E & A). exists r. split; [|exact A]. unfold resolve in E.
  destruct (N.eqb_spec i 0); [lia|]. destruct (N.leb_spec i 61); [exact E|lia].
Qed.
Print Assumptions hpack_static_table_partial.
Example hpack_static_table_ex : (1 <= 8 <= 61)%N /\ lookup dt_init (8 - 1) = (bs ":status", bs "200").
Proof. split; [lia|reflexivity]. Qed.
(** Finding: the entries 16, 17 and 41. *)
Theorem hpack_static_table_refuted : forall d,
  (lookup d 15 = (bs "accept-encoding", []) /\ nth_error rfc_static 15 = Some (bs "accept-encoding", bs "gzip, deflate")) /\
  (lookup d 16 = (bs "accept-language", bs "gzip, deflate") /\ nth_error rfc_static 16 = Some (bs "accept-language", [])) /\
  (lookup d 40 = (bs "if-none-matcho", []) /\ nth_error rfc_static 40 = Some (bs "if-none-match", [])).
Proof. intros d. repeat split. Qed.
Print Assumptions hpack_static_table_refuted.

(** C57 (full claim: all byte strings).  The canonical Huffman code of Appendix B of every byte string
    without carriage return, of at most 20000 bytes, is decoded to that string. *)
Theorem hpack_huffman_partial : forall s rest, Forall (fun b => b < 256 /\ b <> 13)%N s -> (N.of_nat (length s) <= 20000)%N ->
  huffman_decode (rfc_huffman s ++ rest) (N.of_nat (length (rfc_huffman s))) = Ok (Some s).
Proof. exact huffman_decode_spec. Qed.
Print Assumptions hpack_huffman_partial.
Example hpack_huffman_ex : rfc_huffman (bs "www.example.com") = [241; 227; 194; 229; 242; 58; 107; 160; 171; 144; 244; 255]%N /\
  Forall (fun b => b < 256 /\ b <> 13)%N (bs "www.example.com").
Proof. split; [vm_compute; reflexivity|]. repeat (constructor; [split; [reflexivity|discriminate]|]). constructor. Qed.
(** Findings: the code of byte 13 is wrong in the table, so that the server aborts on it; and the
    encoding of 20001 bytes overruns the result buffer. *)
Theorem hpack_huffman_refuted :
  huffman_decode (rfc_huffman [13%N]) (N.of_nat (length (rfc_huffman [13%N]))) = Ok None /\
  (exists s, Forall good s /\ huffman_decode (rfc_huffman s) (N.of_nat (length (rfc_huffman s))) = UB OutOfBounds).
Proof. split; [vm_compute; reflexivity|]. exact huffman_overrun. Qed.
Print Assumptions hpack_huffman_refuted.

(** C58 (full claim: every first octet and the representation it starts).  The first octet alone is
    classified as section 6 prescribes; 001xxxxx (size update) is unknown. *)
Theorem hpack_first_octet : forall b, (b < 256)%N ->
  is_index b = (128 <=? b)%N /\
  (is_index b = false -> classify b = (if 64 <=? b then Some IUpdate else if b <? 16 then Some INoUpdate else if b <? 32 then Some INoIndex else None)%N).
Proof. exact first_octets. Qed.
Print Assumptions hpack_first_octet.
Example hpack_first_octet_ex : is_index 130 = true /\ is_index 66 = false /\ classify 66 = Some IUpdate /\ classify 4 = Some INoUpdate /\ classify 17 = Some INoIndex.
Proof. repeat split. Qed.
(** Every block of representations (without size updates, never-indexed literal names, the three wrong
    static entries and overlong strings) is decoded to the fields and leaves the table that RFC 7541
    prescribes, whatever follows the block. *)
Theorem hpack_block_partial : forall limit d tab rs rest hs tab', (limit < 2 ^ 31)%N -> table_is limit d tab -> Forall rep_ok rs ->
  (N.of_nat (length (enc_block rs)) < 2 ^ 32)%N -> meaning_block limit tab rs = Some (hs, tab') ->
  exists d', parse_headers limit (N.of_nat (length (enc_block rs))) (enc_block rs ++ rest) d = Ok (PDone hs d') /\ table_is limit d' tab'.
Proof. exact block_decode. Qed.
Print Assumptions hpack_block_partial.
Example hpack_block_ex :
  let rs := [Indexed 2; Literal Incremental (NameIndex 1) true (bs "www.example.com"); Literal WithoutIndexing (NameLit true (bs "x-y")) false (bs "1"); Indexed 62] in
  table_is 4096 dt_init [] /\ Forall rep_ok rs /\
  meaning_block 4096 [] rs = Some ([(bs ":method", bs "GET"); (bs ":authority", bs "www.example.com"); (bs "x-y", bs "1"); (bs ":authority", bs "www.example.com")],
                                   [(bs ":authority", bs "www.example.com")]).
Proof.
  cbn zeta. split; [repeat split; discriminate|]. split; [|vm_compute; reflexivity].
  repeat (constructor; [cbn [rep_ok str_ok]; repeat split; try discriminate; try (repeat (constructor; [split; [reflexivity|discriminate]|]); constructor)|]). constructor.
Qed.
(** Findings: a never-indexed field with a literal name loses its name (the name is taken as value);
    an index without entry, and index 0, yield a field with an empty name instead of an error. *)
Theorem hpack_never_indexed_refuted : exists name value rest total,
  meaning 4096 [] (Literal NeverIndexed (NameLit false name) false value) = Some (4096%N, [], [(name, value)]) /\
  parse_field 4096 (enc_rep (Literal NeverIndexed (NameLit false name) false value)) 0 [] dt_init = Ok (FNext total rest [([], name)] dt_init) /\ rest <> [].
Proof. exists (bs "a"), (bs "b"), (enc_string false (bs "b")), 3%N. split; [reflexivity|]. split; [vm_compute; reflexivity|discriminate]. Qed.
Print Assumptions hpack_never_indexed_refuted.
Theorem hpack_bad_index_refuted : forall limit d tab i rest total h, (limit < 2 ^ 31)%N -> table_is limit d tab -> resolve tab i = None -> (i < 2 ^ 31)%N ->
  parse_field limit (rfc_int 7 128 i ++ rest) total h d = Ok (FNext (u32 (total + N.of_nat (length (rfc_int 7 128 i)))) rest (h ++ [([], [])]) d).
Proof. exact bad_index. Qed.
Print Assumptions hpack_bad_index_refuted.
Example hpack_bad_index_ex : resolve [] 62 = None /\ resolve [] 0 = None /\ table_is 4096 dt_init [] /\
  parse_headers 4096 1 [190]%N dt_init = Ok (PDone [([], [])] dt_init).
Proof. repeat split; discriminate. Qed.

(** C59 (full claim: all header lists).  The block built for a response is an RFC encoding of exactly
    its header list, for every state of the peer's table, provided that: no name has the name of
    another static entry as a proper prefix and no value has the static value of its name as a proper
    prefix; names and values are shorter than 127 bytes; no entry of the table used for requests has
    a name that is a prefix of the name; the block has fewer than 1000 bytes. *)
Theorem hpack_response_block_partial : forall d h, Forall (fun f => plain f /\ short f /\ foreign d f) h ->
  (N.of_nat (length (flat_map (put_field d) h)) < 1000)%N ->
  exists rs, put_block d h = Ok (enc_block rs) /\ forall max tab, exists tab', meaning_block max tab rs = Some (h, tab').
Proof. exact put_block_ok. Qed.
Print Assumptions hpack_response_block_partial.
Example hpack_response_block_ex :
  let h := [(bs ":status", bs "200"); (bs "content-length", bs "5"); (bs "content-type", bs "text/plain"); (bs "x-frame-options", bs "DENY")] in
  Forall (fun f => plain f /\ short f /\ foreign dt_init f) h /\
  put_block dt_init h = Ok (136 :: 92 :: 1 :: 53 :: 95 :: 10 :: bs "text/plain" ++ 64 :: 15 :: bs "x-frame-options" ++ 4 :: bs "DENY")%N.
Proof.
  cbn zeta. split; [|vm_compute; reflexivity].
  repeat (constructor; [split; [apply plainb_ok; vm_compute; reflexivity|split; [split; apply Nat.ltb_lt; reflexivity|intros n v []]]|]). constructor.
Qed.
(** Findings: "server-timing" is sent as "server"; a field that the client had indexed is sent as an
    index into the table of the other direction; a value of 200 bytes announces a Huffman string;
    a list longer than the buffer ends in a NULL dereference. *)
Theorem hpack_response_block_refuted :
  (put_block dt_init [(bs "server-timing", bs "a")] = Ok (enc_block [Literal Incremental (NameIndex 54) false (bs "a")]) /\
   resolve [] 54 = Some (bs "server", [])) /\
  (exists d, adds 4096 dt_init [(bs "x-a", bs "b")] = Ok d /\ put_block d [(bs "x-a", bs "b")] = Ok (enc_block [Indexed 62]) /\ resolve [] 62 = None) /\
  (exists b, put_block dt_init [(bs "x", repeat 97%N 200)] = Ok b /\ firstn 4 b = [64; 1; 120; 200]%N) /\
  put_block dt_init (repeat (bs "x-long-name", repeat 97%N 100) 9) = UB NullDeref.
Proof.
  split; [split; [vm_compute; reflexivity|reflexivity]|]. split.
  - eexists. split; [vm_compute; reflexivity|]. split; [vm_compute; reflexivity|reflexivity].
  - split; [eexists; split; [vm_compute; reflexivity|reflexivity]|vm_compute; reflexivity].
Qed.
Print Assumptions hpack_response_block_refuted.
