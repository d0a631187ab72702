(** Model of the three content encoders of src/encode.c: fly_gzip_encode (190-318), fly_br_encode
    (414-540) and fly_deflate_encode (624-747).  zlib and brotli are an abstract stream compressor;
    the buffers are those of Buffer.v. *)
From Verif Require Import Base Buffer.

(** The result of one call of deflate(3) or BrotliEncoderCompressStream(3): [ZEnd] is Z_STREAM_END or
    BrotliEncoderIsFinished, [ZBuf] Z_BUF_ERROR, [ZErr] any other failure. *)
Inductive zstatus := ZOk | ZEnd | ZBuf | ZErr.
(** A stream compressor.  [z_step s inp fin avail] is one call with the input [inp] available, the
    finishing flag [fin] (Z_FINISH, BROTLI_OPERATION_FINISH) and [avail] bytes of output space: the
    next state, how many bytes of input were taken, the bytes put out and the status.  [z_close] is
    "deflateEnd(...) == Z_OK". *)
Record codec := mkCodec {
  z_state : Type;
  z_init : z_state;
  z_step : z_state -> list N -> bool -> nat -> z_state * nat * list N * zstatus;
  z_close : z_state -> bool }.

(** de->type and the input, encode.h:70-96: FLY_DE_ENCODE with target_already_alloc (a response body
    in memory) or FLY_DE_FROM_PATH (an open file, here its contents; a read of a regular file returns
    as many bytes as are asked for and left). *)
Inductive source := FromBody (d : list N) | FromFile (d : list N).
Definition source_data (s : source) : list N := match s with FromBody d | FromFile d => d end.
Inductive kind := KGzip | KDeflate | KBr.
(** FLY_RESPONSE_ENCBUF_PER_LEN, FLY_RESPONSE_DECBUF_PER_LEN (response.h:233,236) and the same
    constants of worker.h:49,52. *)
Definition PER : nat := N.to_nat 4096.
(** FLY_RESPONSE_ENCBUF_CHAIN_MAX, response.h:237, worker.h:53. *)
Definition encbuf_chain_max (size : nat) : nat := S (size / PER).

(** FLY_ENCODE_SUCCESS with encbuf and contlen; FLY_ENCODE_ERROR; FLY_ENCODE_BUFFER_ERROR. *)
Inductive enc_result := EOk (b : buffer) (contlen : nat) | EError | EBuffer.

Section ENCODE.
Variable k : kind.
Variable z : codec.
Variable per : nat.                      (* size of a block of encbuf and of decbuf *)
Variable junk : list N.                  (* contents of fresh memory *)

(** The locals of the loop: the stream, the input not yet taken (next_in, avail_in), the part of the
    file not yet read, "flush == Z_FINISH", encbuf, the bytes put into its last block since the last
    fly_update_buffer (their number is orig_available_out - avail_out), orig_available_out and
    contlen. *)
Record zst := mkZ { zs : z_state z; zin : list N; zsrc : source; zfin : bool; zbuf : buffer; zcur : list N; zorig : nat; zcont : nat }.
Inductive zres := ZNext (s : zst) | ZStop (s : zst) | ZRet (r : enc_result).
(** "buffer_error:" and "error:"; brotli has no deflateEnd. *)
Definition buffer_error (s : z_state z) : enc_result :=
  match k with KBr => EBuffer | _ => if z_close z s then EBuffer else EError end.
(** Taking more input, encode.c:237-265, 451-483, 665-697. *)
Definition fetch (s : zst) : zst :=
  let want := match k with KBr => true | _ => negb (zfin s) end in
  if want && (match zin s with [] => true | _ => false end) then
    match zsrc s with
    | FromBody d => mkZ (zs s) d (zsrc s) true (zbuf s) (zcur s) (zorig s) (zcont s)
    | FromFile d =>
      let chunk := firstn per d in
      (* the limit is fly_buf_act_len(chain), but fly_buffer_luse_len(de->decbuf), which is 0, in
         fly_deflate_encode (693) *)
      let fin := match k with KDeflate => false | _ => (length chunk <? per) end in
      mkZ (zs s) chunk (FromFile (skipn per d)) fin (zbuf s) (zcur s) (zorig s) (zcont s)
    end
  else s.
(** fly_buf_act_len(fly_buffer_last_chain(de->encbuf)). *)
Definition last_act (b : buffer) : nat := match last_opt (b_chains b) with Some c => c_act c | None => 0 end.
(** "if (avail_out == 0)", encode.c:280-289, 500-509, 709-718: a new block.  fly_deflate_encode
    updates decbuf instead of encbuf: decbuf is NULL for a body in memory, and has a single block
    with chain_max 1 for a file, so that the update fails. *)
Definition refill (s : zst) : outcome zres :=
  if length (zcur s) <? zorig s then Ok (ZNext s)
  else
    match k with
    | KDeflate => match zsrc s with FromBody _ => UB NullDeref | FromFile _ => Ok (ZRet EError) end
    | _ =>
      obind (update_buffer junk (write_last (zbuf s) (zcur s)) (last_act (zbuf s))) (fun r => match r with
        | UpdLimit _ => Ok (ZRet (buffer_error (zs s)))
        | UpdSuccess b' => Ok (ZNext (mkZ (zs s) (zin s) (zsrc s) (zfin s) b' [] (lunuse_len b') (zcont s + last_act (zbuf s))))
        end)
    end.
(** One iteration. *)
Definition zstep (s0 : zst) : outcome zres :=
  let s := fetch s0 in
  let '(st, n, out, status) := z_step z (zs s) (zin s) (zfin s) (zorig s - length (zcur s)) in
  let s1 := mkZ st (skipn n (zin s)) (zsrc s) (zfin s) (zbuf s) (zcur s ++ out) (zorig s) (zcont s) in
  match status with
  | ZErr => Ok (ZRet EError)
  | ZBuf => match k with KBr => refill s1 | _ => Ok (ZRet (buffer_error st)) end
  | ZEnd => Ok (ZStop s1)
  | ZOk => refill s1
  end.
(** The loop: "while(status != Z_STREAM_END)", but "while(op != BROTLI_OPERATION_FINISH)" in
    fly_br_encode (452). *)
Fixpoint zloop (fuel : nat) (s : zst) : outcome zres :=
  match fuel with
  | 0 => UB Diverges
  | S f =>
    match k, zfin s with
    | KBr, true => Ok (ZStop s)
    | _, _ => obind (zstep s) (fun r => match r with ZNext s' => zloop f s' | r => Ok r end)
    end
  end.
(** After the loop, encode.c:291-300, 511-520, 720-729. *)
Definition zfinish (r : zres) : outcome enc_result :=
  match r with
  | ZRet r => Ok r
  | ZNext _ => UB Diverges
  | ZStop s =>
    obind (update_buffer junk (write_last (zbuf s) (zcur s)) (length (zcur s))) (fun u => match u with
      | UpdLimit _ => Ok (buffer_error (zs s))
      | UpdSuccess b' =>
        if match k with KBr => true | _ => z_close z (zs s) end then Ok (EOk b' (zcont s + length (zcur s))) else Ok EError
      end)
  end.
(** The whole encoder on an encbuf with at most [max] blocks, made by fly_buffer_init(pool, 1, max,
    per) (response.c:660-664, worker.c:1090-1092).  The number of iterations is bounded by the number
    of reads plus the number of blocks. *)
Definition zfuel (max : nat) (src : source) : nat := length (source_data src) / per + max + 4.
Definition encode (max : nat) (src : source) : outcome enc_result :=
  match buf_init junk 1 max per with
  | None => UB NullDeref
  | Some b => obind (zloop (zfuel max src) (mkZ (z_init z) [] src false b [] (last_act b) 0)) zfinish
  end.
End ENCODE.
