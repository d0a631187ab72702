(** Model of the beginning of an HTTP/2 connection: fly_hv2_init_handler, src/v2.c:635-735, with
    fly_hv2_init_connection_preface, 428-446, and fly_buffer_memcmp, src/buffer.c:274-307.

    The receive buffer is that of Buffer.v.  Simplified: what the request handler does with the frames after the preface is in H2Conn.v;
    chain_max is what it is after 648-653.  fly_receive_v2 (521-633) is one recv. *)
From Verif Require Import Base Buffer.

(** FLY_CONNECTION_PREFACE, v2.h:12-13. *)
Definition preface : list N := bs "PRI * HTTP/2.0" ++ [13; 10; 13; 10]%N ++ bs "SM" ++ [13; 10; 13; 10]%N.

(** FLY_BUFFER_MEMCMP_EQUAL, ..._BIG and ..._SMALL (which of the two depends on the addresses, buffer.c:287; the caller does not ask),
    ..._OVERFLOW. *)
Inductive cmp := CEqual | CDiffer | COverflow.
(** FLY_BUF_HALF, buffer.c:151; see Buffer.v. *)
Definition half (c : chain) : bool := (0 <? c_unuse c) && (c_unuse c <? c_len c).
(** The loop buffer.c:285-304; [dist]: as many bytes as maxlen says.  The byte is compared before it is asked whether it was received.
    fly_buffer_next_chain of the last block is NULL. *)
Fixpoint cmp_loop (b : buffer) (ci off : nat) (dist : list N) : outcome cmp :=
  match dist with
  | [] => Ok CEqual
  | d :: t =>
    match nth_error (b_chains b) ci with
    | None => UB NullDeref
    | Some c =>
      match nth_error (c_data c) off with
      | None => UB OutOfBounds
      | Some x =>
        if negb (N.eqb d x) then Ok CDiffer
        else if N.eqb x 0 then Ok CEqual
        else if half c && (c_written c <=? off) then Ok COverflow
        else if c_len c - 1 <=? off then
          match nth_error (b_chains b) (S ci) with
          | None => UB NullDeref
          | Some c' => cmp_loop b (S ci) (c_use c') t
          end
        else cmp_loop b ci (S off) t
      end
    end
  end.
(** fly_buffer_memcmp as it is called, v2.c:437: from the first unread byte.  The loop 279-283 ends at once: use_ptr is in the block. *)
Definition memcmp (b : buffer) (dist : list N) : outcome cmp :=
  match b_chains b with
  | [] => UB NullDeref
  | c :: _ => cmp_loop b 0 (c_use c) dist
  end.

(** Where the connection is: the handler waits for more bytes, the frames that follow the preface are looked at, the connection has
    got a connection error, it is closed.  The bytes the kernel still has and the buffer. *)
Inductive place := Waiting | Accepted | Refused | Closed.
Record st := mkSt { s_place : place; s_buf : buffer; s_src : list N }.

(** The labels connection_preface and continuation, v2.c:686-717.  After an error, too, the length of the preface is released.  A
    comparison that overflows although there are enough bytes is done again and again (716-717). *)
Definition check (b : buffer) (src : list N) : outcome st :=
  obind (memcmp b preface) (fun r =>
  match r with
  | COverflow => if length preface <? b_use_len b then UB Diverges else Ok (mkSt Waiting b src)
  | CEqual => obind (release b (length preface)) (fun b => Ok (mkSt Accepted b src))
  | CDiffer => obind (release b (length preface)) (fun b => Ok (mkSt Refused b src))
  end).

(** [Recv k junk]: the socket is readable and gives at most [k] bytes, fresh blocks contain [junk].  [Eof]: the client has closed. *)
Inductive ev := Recv (k : nat) (junk : list N) | Eof.
(** fly_hv2_init_handler, v2.c:635-735. *)
Definition step (s : st) (e : ev) : outcome st :=
  match s_place s with
  | Waiting =>
    match e with
    | Eof => Ok (mkSt Closed (s_buf s) (s_src s))
    | Recv k junk =>
      match firstn (Nat.min k (lunuse_len (s_buf s))) (s_src s) with
      | [] => if length preface <? b_use_len (s_buf s) then check (s_buf s) (s_src s) else Ok s
      | d => obind (recv_chunk (fresh (b_per (s_buf s)) junk) (s_buf s) d) (fun r =>
             match r with
             | UpdSuccess b => check b (skipn (length d) (s_src s))
             | UpdLimit b => Ok (mkSt Closed b (skipn (length d) (s_src s)))
             end)
      end
    end
  | _ => Ok s
  end.
Fixpoint run (s : st) (es : list ev) : outcome st :=
  match es with
  | [] => Ok s
  | e :: t => obind (step s e) (fun s => run s t)
  end.
(** A connection on which the client sends [src]: one block of [per] bytes containing [junk] (connect.c:41-48 with one initial block). *)
Definition start (junk : list N) (max per : nat) (src : list N) : st :=
  mkSt Waiting (mkBuffer [mkChain (fresh per junk) 0 per] 1 max per 0) src.
