(** Model of the framing of response header blocks: fly_send_headers_frame and
    __fly_send_headers_frame, src/v2.c:3139-3160 and 3195-3237. *)
From Verif Require Import Base Buffer H2Frame.
Local Open Scope nat_scope.

(** FLY_SEND_HEADERS_FRAME_BUFFER_{INIT_LEN,CHAIN_MAX,PER_LEN}, src/v2.c:3197-3199. *)
Definition BUF_INIT := 1. Definition BUF_MAX := 100. Definition BUF_PER := 10.
(** Flags, src/v2.h:268-269 (FLY_HV2_FRAME_TYPE_HEADERS_END_STREAM, ..._END_HEADERS). *)
Definition F_END_STREAM : N := 1. Definition F_END_HEADERS : N := 4.

(** A byte of __fly_payload_from_headers or fly_hv2_set_integer (src/v2.c:2336-2341, 3849-3890):
    a store through fly_buffer_lunuse_ptr, then fly_update_buffer(buf, 1) whose result is ignored.  In
    a full last block unuse_ptr is the address of its last byte (src/buffer.c:126).  [junk] is the
    content of fresh memory. *)
Definition put_byte (junk : list N) (b : buffer) (x : N) : outcome buffer :=
  let b1 := if lunuse_len b =? 0
            then mkBuffer (map_last (fun c => mkChain (write_at (c_data c) (c_len c - 1) [x]) (c_use c) (c_unuse c)) (b_chains b))
                          (b_count b) (b_max b) (b_per b) (b_use_len b)
            else write_last b [x] in
  obind (update_buffer junk b1 1) (fun r => match r with UpdSuccess b' | UpdLimit b' => Ok b' end).
(** __fly_payload_from_headers, src/v2.c:2288-2397, for a field whose representation is [l]
    ([put_field] of Hpack.v); the result is the length of [l]. *)
Fixpoint put_bytes (junk : list N) (b : buffer) (l : list N) : outcome buffer :=
  match l with
  | [] => Ok b
  | x :: t => obind (put_byte junk b x) (fun b' => put_bytes junk b' t)
  end.

(** struct fly_hv2_send_frame as far as header blocks use it. *)
Record hframe := mkHF { hf_type : N; hf_flags : N; hf_payload : list N }.
(** __fly_send_headers_frame, src/v2.c:3139-3160. *)
Definition make_frame (b : buffer) (total : nat) (over : bool) (flag : N) : outcome hframe :=
  match b_chains b with
  | [] => UB NullDeref
  | c :: _ => obind (memcpy b (0, c_use c) 0 total) (fun p =>
      Ok (mkHF (if over then FRAME_CONTINUATION else FRAME_HEADERS) flag p))
  end.
(** The loop of fly_send_headers_frame, src/v2.c:3212-3228; [maxp] is max_frame_size. *)
Fixpoint frag_loop (junk : list N) (maxp : nat) (fields : list (list N)) (b : buffer) (total : nat) (over : bool)
    (out : list hframe) : outcome (buffer * nat * bool * list hframe) :=
  match fields with
  | [] => Ok (b, total, over, out)
  | f :: t =>
    obind (put_bytes junk b f) (fun b1 =>
      if maxp <=? total + length f then
        obind (make_frame b1 total over 0) (fun fr =>
        obind (release b1 total) (fun b2 =>
          frag_loop junk maxp t b2 (length f) true (out ++ [fr])))
      else frag_loop junk maxp t b1 (total + length f) over out)
  end.
(** fly_send_headers_frame, src/v2.c:3195-3237.  [nocontent]: res->type == FLY_RESPONSE_TYPE_NOCONTENT.
    The result is the list of frames queued.  fly_buffer_init returns NULL only without memory. *)
Definition send_headers (junk : list N) (maxp : nat) (nocontent : bool) (fields : list (list N)) : outcome (list hframe) :=
  match buf_init junk BUF_INIT BUF_MAX BUF_PER with
  | None => UB NullDeref
  | Some b =>
    obind (frag_loop junk maxp fields b 0 false []) (fun '(b, total, over, out) =>
      let flag := N.lor F_END_HEADERS (if nocontent then F_END_STREAM else 0%N) in
      obind (make_frame b total over flag) (fun fr => Ok (out ++ [fr])))
  end.
(** max_frame_size of the server, FLY_HV2_MAX_FRAME_SIZE_DEFAULT (src/v2.h:135); it is never changed. *)
Definition MAX_FRAME : nat := N.to_nat 16384.
(** fly_fh_setting (src/v2.c:3157) and the payload: the bytes of the frame. *)
Definition hf_wire (sid : N) (f : hframe) : list N :=
  fh_bytes (N.of_nat (length (hf_payload f))) (hf_type f) (hf_flags f) false sid ++ hf_payload f.
