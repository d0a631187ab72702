(** Model of the HTTP/2 frame header and payload codecs in src/v2.c.

    The little-endian branches are modelled (the big-endian ones differ only where noted); a C
    pointer into the receive buffer is a [ptr] of Buffer.v. *)
From Verif Require Import Base Buffer.
Local Open Scope N_scope.

(** ** Integers in network order (the specification side of this file). *)
Definition be (l : list N) : N := fold_left (fun a x => a * 256 + x) l 0.
Definition byte_of (v : N) (k : N) : N := (v / 2 ^ (8 * k)) mod 256.

(** ** Writers *)
(** fly_fh_setting, src/v2.c:2142-2170. *)
Definition fh_bytes (length type flags : N) (r : bool) (sid : N) : list N :=
  [byte_of length 2; byte_of length 1; byte_of length 0; type; flags;
   N.lor (if r then 128 else 0) (byte_of sid 3); byte_of sid 2; byte_of sid 1; byte_of sid 0].

(** __fly_goaway_payload, src/v2.c:1264-1292. *)
Definition goaway_payload (last_sid : N) (r : bool) (code : N) : list N :=
  [N.lor (if r then 128 else 0) (byte_of last_sid 3); byte_of last_sid 2; byte_of last_sid 1; byte_of last_sid 0;
   byte_of code 3; byte_of code 2; byte_of code 1; byte_of code 0].
(** fly_send_window_update_frame, payload part, src/v2.c:1358-1373. *)
Definition window_update_payload (size : N) (r : bool) : list N :=
  [N.lor (if r then 128 else 0) (byte_of size 3); byte_of size 2; byte_of size 1; byte_of size 0].
(** fly_send_rst_stream_frame, payload part, src/v2.c:1396-1408. *)
Definition rst_stream_payload (code : N) : list N :=
  [byte_of code 3; byte_of code 2; byte_of code 1; byte_of code 0].
(** fly_send_ping_frame, src/v2.c:1219-1262: the 8 opaque octets; the frame type written in the
    header is FLY_HV2_FRAME_TYPE_GOAWAY (line 1229), flags 0. *)
Definition ping_payload (data : N) : list N :=
  map (byte_of data) [7; 6; 5; 4; 3; 2; 1; 0].
Definition FRAME_DATA := 0. Definition FRAME_HEADERS := 1. Definition FRAME_PRIORITY := 2.
Definition FRAME_RST_STREAM := 3. Definition FRAME_SETTINGS := 4. Definition FRAME_PUSH_PROMISE := 5.
Definition FRAME_PING := 6. Definition FRAME_GOAWAY := 7. Definition FRAME_WINDOW_UPDATE := 8.
Definition FRAME_CONTINUATION := 9.
Definition send_ping_frame (data : N) : list N := fh_bytes 8 FRAME_GOAWAY 0 false 0 ++ ping_payload data.
Definition send_rst_stream_frame (sid code : N) : list N :=
  fh_bytes 4 FRAME_RST_STREAM 0 false sid ++ rst_stream_payload code.
Definition send_goaway_frame (last_sid : N) (r : bool) (code : N) : list N :=
  fh_bytes 8 FRAME_GOAWAY 0 false 0 ++ goaway_payload last_sid r code.
Definition send_window_update_frame (sid size : N) : list N :=
  fh_bytes 4 FRAME_WINDOW_UPDATE 0 false sid ++ window_update_payload size false.

(** fly_settings_frame_payload_set, src/v2.c:2172-2203: [pl] is the freshly allocated payload; the
    cursor [pl] is not advanced inside the loop, so every pair is stored at offset 0. *)
Definition setting_bytes (s : N * N) : list N :=
  [byte_of (fst s) 1; byte_of (fst s) 0;
   byte_of (snd s) 3; byte_of (snd s) 2; byte_of (snd s) 1; byte_of (snd s) 0].
Definition settings_payload_set (pl : list N) (ss : list (N * N)) : list N :=
  fold_left (fun pl s => write_at pl 0 (setting_bytes s)) ss pl.
(** fly_send_settings_frame with ack = false, src/v2.c:3239-3278. [junk]: fresh memory. *)
Definition send_settings_frame (junk : list N) (ss : list (N * N)) : list N :=
  fh_bytes (6 * N.of_nat (length ss)) FRAME_SETTINGS 0 false 0 ++
  settings_payload_set (fresh (6 * length ss) junk) ss.

(** ** Readers *)
(** Offset of lptr in the block of [p]. *)
Definition lptr_off (b : buffer) (p : ptr) : option nat :=
  match nth_error (b_chains b) (fst p) with Some c => Some (c_len c - 1)%nat | None => None end.

(** Sequential bytes through fly_update_chain(.., 1): the unrolled "chain path" of all readers,
    e.g. src/v2.c:886-894; a NULL result that is dereferenced is undefined behaviour. Returns the
    pointer after the last byte, as stored back into *pl. *)
Fixpoint rd_chain (b : buffer) (p : ptr) (n : nat) : outcome (list N * ptr) :=
  match n with
  | O => Ok ([], p)
  | S n' =>
    obind (load b p) (fun x =>
      match update_chain b p 1 with
      | None => match n' with O => Ok ([x], (length (b_chains b), O)) | _ => UB NullDeref end
      | Some p' => obind (rd_chain b p' n') (fun r => Ok (x :: fst r, snd r))
      end)
  end.
(** The "contiguous path", e.g. src/v2.c:903-907: plain indexing. *)
Fixpoint rd_flat (b : buffer) (p : ptr) (n : nat) : outcome (list N * ptr) :=
  match n with
  | O => Ok ([], p)
  | S n' => obind (load b p) (fun x => obind (rd_flat b (fst p, S (snd p)) n') (fun r => Ok (x :: fst r, snd r)))
  end.
(** The choice made by every reader: "(*pl + n) > (*__c)->lptr". *)
Definition chain_path (b : buffer) (p : ptr) (n : nat) : outcome bool :=
  match lptr_off b p with Some l => Ok (l <? snd p + n)%nat | None => UB NullDeref end.
Definition rd (b : buffer) (p : ptr) (n : nat) : outcome (list N * ptr) :=
  obind (chain_path b p n) (fun cp => if cp then rd_chain b p n else rd_flat b p n).

Definition uint_of (r : list N * ptr) : N * ptr := (be (fst r), snd r).

(** __fly_hv2_32bit, src/v2.c:877-912 (error codes). *)
Definition read32 b p : outcome (N * ptr) := obind (rd b p 4) (fun r => Ok (uint_of r)).
(** fly_hv2_settings_id, src/v2.c:1060-1087. *)
Definition read_setting_id b p : outcome (N * ptr) := obind (rd b p 2) (fun r => Ok (uint_of r)).
(** fly_hv2_settings_value, src/v2.c:1104-1146. *)
Definition read_setting_value b p : outcome (N * ptr) := obind (rd b p 4) (fun r => Ok (uint_of r)).
(** fly_opaque_data, src/v2.c:802-875. *)
Definition read64 b p : outcome (N * ptr) := obind (rd b p 8) (fun r => Ok (uint_of r)).
(** fly_hv2_pad_length, src/v2.c:783-796. *)
Definition read_pad b p : outcome (N * ptr) := obind (rd b p 1) (fun r => Ok (uint_of r)).
(** fly_hv2_weight, src/v2.c:997-1011: octet + 1. *)
Definition read_weight b p : outcome (N * ptr) :=
  obind (rd b p 1) (fun r => Ok (be (fst r) + 1, snd r)).
(** __fly_hv2_31bit, src/v2.c:933-975: on the chain path of the little-endian branch the mask 0x7f
    is applied to the least significant octet instead of the most significant one (line 958). *)
Definition mask7 (x : N) : N := N.land x 127.
Definition mask_first (l : list N) : list N := match l with x :: t => mask7 x :: t | [] => [] end.
Definition mask_last (l : list N) : list N :=
  match rev l with x :: t => rev (mask7 x :: t) | [] => [] end.
Definition read31 b p : outcome (N * ptr) :=
  obind (chain_path b p 4) (fun cp =>
    if cp then obind (rd_chain b p 4) (fun r => Ok (be (mask_last (fst r)), snd r))
    else obind (rd_flat b p 4) (fun r => Ok (be (mask_first (fst r)), snd r))).
(** The big-endian branch of the same function (lines 939-946) masks the first octet. *)
Definition read31_big_endian b p : outcome (N * ptr) :=
  obind (rd b p 4) (fun r => Ok (be (mask_first (fst r)), snd r)).
(** fly_hv2_31bit_nb, src/v2.c:914-931 (reads a frame in contiguous memory). *)
Definition read31_nb (l : list N) : N := be (mask_first (firstn 4 l)).
(** fly_hv2_flag, src/v2.c:798-801. *)
Definition read_flag b p : outcome bool := obind (load b p) (fun x => Ok (N.testbit x 7)).

(** fly_hv2_length_from_frame_header, src/v2.c:79-113. *)
Definition fh_length b p : outcome N := obind (rd b p 3) (fun r => Ok (be (fst r))).
(** fly_hv2_type_from_frame_header / _flags_, src/v2.c:115-139. *)
Definition fh_field (k : nat) b p : outcome N :=
  obind (chain_path b p k) (fun cp =>
    if cp then match update_chain b p k with Some q => load b q | None => UB NullDeref end
    else load b (fst p, snd p + k)%nat).
Definition fh_type := fh_field 3.
Definition fh_flags := fh_field 4.
(** fly_hv2_r_from_frame_header, src/v2.c:141-151: bit 0 of octet 5. *)
Definition fh_r b p : outcome bool := obind (fh_field 5 b p) (fun x => Ok (N.testbit x 0)).
(** fly_hv2_sid_from_frame_header, src/v2.c:153-194. *)
Definition fh_sid b p : outcome N :=
  obind (chain_path b p 9) (fun cp =>
    if cp then
      match update_chain b p 5 with
      | Some q => obind (rd_chain b q 4) (fun r => Ok (be (mask_first (fst r))))
      | None => UB NullDeref
      end
    else obind (rd_flat b (fst p, snd p + 5)%nat 4) (fun r => Ok (be (mask_first (fst r))))).
(** fly_hv2_frame_payload_from_frame_header, src/v2.c:196-203. *)
Definition fh_payload b p : outcome (option ptr) :=
  obind (chain_path b p 9) (fun cp =>
    if cp then Ok (update_chain b p 9) else Ok (Some (fst p, snd p + 9)%nat)).

(** ** The SETTINGS interpreter *)
(** The peer parameters of struct fly_hv2_state (src/v2.h) touched by fly_hv2_peer_settings, and
    the connection window_size it reads. *)
Record pset := mkPset {
  p_header_table_size : N; p_enable_push : N; p_max_concurrent_streams : N;
  p_initial_window_size : N; p_max_frame_size : N; p_max_header_list_size : N; ps_window_size : Z }.
Inductive set_res := SetSuccess (s : pset) | SetProtocolError (s : pset) | SetFlowControlError (s : pset).

Definition WINDOW_SIZE_MAX := 2147483647.     (* FLY_HV2_WINDOW_SIZE_MAX, v2.h *)
Definition MAX_FRAME_SIZE_MAX := 16777215.    (* FLY_HV2_MAX_FRAME_SIZE_MAX, v2.h *)
Definition MAX_FRAME_SIZE_DEFAULT := 16384.   (* FLY_HV2_MAX_FRAME_SIZE_DEFAULT, v2.h *)
Definition u32 (z : Z) : N := Z.to_N (z mod 4294967296).

(** One iteration of the switch in fly_hv2_peer_settings, src/v2.c:1177-1208. *)
Definition apply_setting (s : pset) (id value : N) : set_res :=
  let upd_hts v := mkPset v (p_enable_push s) (p_max_concurrent_streams s) (p_initial_window_size s) (p_max_frame_size s) (p_max_header_list_size s) (ps_window_size s) in
  if id =? 1 then SetSuccess (upd_hts value)
  else if id =? 2 then
    if (value =? 0) || (value =? 1)
    then SetSuccess (mkPset (p_header_table_size s) value (p_max_concurrent_streams s) (p_initial_window_size s) (p_max_frame_size s) (p_max_header_list_size s) (ps_window_size s))
    else SetProtocolError s
  else if id =? 3 then
    SetSuccess (mkPset (p_header_table_size s) (p_enable_push s) value (p_initial_window_size s) (p_max_frame_size s) (p_max_header_list_size s) (ps_window_size s))
  else if id =? 4 then
    if WINDOW_SIZE_MAX <? value then SetFlowControlError s
    else SetSuccess (mkPset (p_header_table_size s) (p_enable_push s) (p_max_concurrent_streams s)
                            (u32 (Z.of_N value - (Z.of_N (p_initial_window_size s) - ps_window_size s)))
                            (p_max_frame_size s) (p_max_header_list_size s) (ps_window_size s))
  else if id =? 5 then
    SetSuccess (mkPset (p_header_table_size s) (p_enable_push s) (p_max_concurrent_streams s) (p_initial_window_size s)
                       (if MAX_FRAME_SIZE_MAX <? value then MAX_FRAME_SIZE_MAX else value)
                       (p_max_header_list_size s) (ps_window_size s))
  else if id =? 6 then
    if (MAX_FRAME_SIZE_DEFAULT <=? value) && (value <=? MAX_FRAME_SIZE_MAX)
    then SetSuccess (mkPset (p_header_table_size s) (p_enable_push s) (p_max_concurrent_streams s) (p_initial_window_size s) (p_max_frame_size s) value (ps_window_size s))
    else SetProtocolError s
  else SetSuccess s.

(** fly_hv2_peer_settings, src/v2.c:1169-1214. [k] is the number of iterations of the while loop:
    ceil(len/6). *)
Fixpoint peer_settings_loop (k : nat) (b : buffer) (p : ptr) (s : pset) : outcome set_res :=
  match k with
  | O => Ok (SetSuccess s)
  | S k' =>
    obind (read_setting_id b p) (fun '(id, p1) =>
    obind (read_setting_value b p1) (fun '(v, p2) =>
      match apply_setting s id v with
      | SetSuccess s' => peer_settings_loop k' b p2 s'
      | e => Ok e
      end))
  end.
Definition peer_settings (b : buffer) (p : ptr) (len : nat) (s : pset) : outcome set_res :=
  peer_settings_loop ((len + 5) / 6)%nat b p s.

(** ** Payload extraction for DATA and HEADERS frames (the part of fly_hv2_request_event_handler
    before the content is handed on).
    DATA: src/v2.c:1806-1812; HEADERS: 1857-1872.  Both return the pointer and the (uint32_t)
    length passed to fly_hv2_parse_data / fly_hv2_parse_headers. *)
Definition FLAG_PADDED := 8. Definition FLAG_PRIORITY := 32.
Definition u32sub (a k : N) : N := u32 (Z.of_N a - Z.of_N k).
Definition data_content (b : buffer) (pl : ptr) (length flags : N) : outcome (ptr * N) :=
  if N.testbit flags 3
  then obind (read_pad b pl) (fun '(_, p1) => Ok (p1, u32sub length 1))
  else Ok (pl, length).
Definition headers_content (b : buffer) (pl : ptr) (length flags : N) : outcome (ptr * N) :=
  obind (if N.testbit flags 3
         then obind (read_pad b pl) (fun '(_, p1) => Ok (p1, u32sub length 1))
         else Ok (pl, length)) (fun '(p1, l1) =>
  if N.testbit flags 5
  then obind (read31 b p1) (fun '(_, p2) => obind (read_weight b p2) (fun '(_, p3) => Ok (p3, u32sub l1 5)))
  else Ok (p1, l1)).
