(** Writing to an HTTP/2 connection: src/v2.c:2557-2880 (fly_send_data_frame), 2433-2532 (__fly_send_data_fh), 2882-2982
    (fly_state_send_frame), 3280-3360 (__fly_send_frame).  H2Conn.v has the order of the frames, the windows and the
    streams; here are the bytes.  The writes over TLS are not modelled. *)
From Verif Require Import Base Buffer.

(** What send(2) or sendfile(2) returns: a number of bytes, or -1 with EAGAIN, EINTR, EPIPE or another errno (util.h:43-48;
    ECONNRESET, say).  A call that is never answered is the end of the list. *)
Inductive ev := Took (n : nat) | Again | Intr | Pipe | Fail.
(** How a call ends: all is written; the event is registered again; the connection is closed (fly_hv2_close_handle, or at
    the next event, v2.c:1645, when peer_closed is set); the worker ends (fly_error_error, err.c:539-548, does not return);
    -1. *)
Inductive res := RDone | RWait | RClosed | RExit | RError.

(** ** Queued frames *)
(** send_fase, v2.h:60-64; a frame whose fase is END is no longer in the queue. *)
Inductive fase := FHeader | FPayload.
(** struct fly_hv2_send_frame as used here, v2.h:48-75: frame_header, payload (payload_len bytes), send_fase. *)
Record qframe := mkQf { qf_head : list N; qf_pay : list N; qf_fase : fase }.
(** FLY_HV2_FRAME_HEADER_LENGTH, v2.h. *)
Definition HLEN : nat := 9.
(** __fly_send_frame, v2.c:3280-3360, from the loop on; [total] is 0 at the start of every call. *)
Fixpoint send_frame (f : qframe) (total : nat) (ws : list ev) : list N * qframe * res * list ev :=
  if match qf_fase f with FPayload => length (qf_pay f) <=? total | FHeader => false end then ([], f, RDone, ws)
  else match ws with
  | [] => ([], f, RWait, [])
  | Took n :: t =>
    match qf_fase f with
    | FHeader =>
      let k := Nat.min n (HLEN - total) in
      let '(w, f', r, t') := if HLEN <=? total + k then send_frame (mkQf (qf_head f) (qf_pay f) FPayload) 0 t else send_frame f (total + k) t in
      (firstn k (skipn total (qf_head f)) ++ w, f', r, t')
    | FPayload =>
      let k := Nat.min n (length (qf_pay f) - total) in
      let '(w, f', r, t') := send_frame f (total + k) t in
      (firstn k (skipn total (qf_pay f)) ++ w, f', r, t')
    end
  | Again :: t => ([], f, RWait, t)
  | Intr :: t => send_frame f total t
  | Pipe :: t => ([], f, RClosed, t)
  | Fail :: t => ([], f, RExit, t)
  end.
(** fly_state_send_frame, v2.c:2882-2982: what is written and the queue that is left. *)
Fixpoint send_queue (q : list qframe) (ws : list ev) : list N * list qframe * res * list ev :=
  match q with
  | [] => ([], [], RDone, ws)
  | f :: t =>
    let '(w, f', r, ws') := send_frame f 0 ws in
    match r with
    | RDone => let '(w', t', r', ws'') := send_queue t ws' in (w ++ w', t', r', ws'')
    | _ => (w, f' :: t, r, ws')
    end
  end.

(** ** The header of a DATA frame *)
(** __fly_send_data_fh, v2.c:2433-2532: every send is given the whole header; res->blocking is never set, so that a blocked
    call is made again from the start with a new header. *)
Fixpoint data_head (h : list N) (total : nat) (ws : list ev) : list N * res * list ev :=
  if HLEN <=? total then ([], RDone, ws)
  else match ws with
  | [] => ([], RWait, [])
  | Took n :: t => let k := Nat.min n HLEN in let '(w, r, t') := data_head h (total + k) t in (firstn k h ++ w, r, t')
  | Again :: t => ([], RWait, t)
  | Pipe :: t => ([], RClosed, t)
  | Intr :: t | Fail :: t => ([], RError, t)
  end.

(** ** The content *)
(** FLY_RESPONSE_TYPE_BODY, v2.c:2667-2715; [total] is byte_from_start at the start of a call and after it. *)
Fixpoint send_body (b : list N) (total : nat) (ws : list ev) : list N * nat * res * list ev :=
  if length b <=? total then ([], total, RDone, ws)
  else match ws with
  | [] => ([], total, RWait, [])
  | Took n :: t =>
    let k := Nat.min n (length b - total) in
    let '(w, total', r, t') := send_body b (total + k) t in (firstn k (skipn total b) ++ w, total', r, t')
  | Again :: t => ([], total, RWait, t)
  | Intr :: t => send_body b total t
  | Pipe :: t => ([], total, RClosed, t)
  | Fail :: t => ([], total, RExit, t)
  end.
(** FLY_LEN_UNTIL_CHAIN_LPTR, buffer.h:162-165; unuse_ptr of a full block is its last byte (buffer.c:125). *)
Definition len_until (b : buffer) (p : ptr) : outcome nat :=
  match nth_error (b_chains b) (fst p) with
  | None => UB OutOfBounds
  | Some c => let u := if c_unuse c =? 0 then c_len c - 1 else c_written c in
              Ok (if S (fst p) =? length (b_chains b) then u - snd p else u - snd p + 1)
  end.
Definition bytes_at (b : buffer) (p : ptr) (k : nat) : outcome (list N) :=
  match nth_error (b_chains b) (fst p) with
  | None => UB OutOfBounds
  | Some c => if snd p + k <=? c_len c then Ok (firstn k (skipn (snd p) (c_data c))) else UB OutOfBounds
  end.
(** FLY_RESPONSE_TYPE_ENCODED, v2.c:2600-2666, from the call of fly_update_chain on: [p] is send_ptr, [move] numsend.  After
    EINTR numsend is -1, so that the pointer goes back by one byte. *)
Fixpoint send_encoded (g : buffer) (len : nat) (p : ptr) (move total : nat) (ws : list ev) : outcome (list N * nat * res * list ev) :=
  match update_chain g p move with
  | None => UB NullDeref
  | Some p =>
    match ws with
    | [] => Ok ([], total, RWait, [])
    | Took n :: t =>
      obind (len_until g p) (fun l =>
      let k := Nat.min n l in
      obind (bytes_at g p k) (fun w =>
      if len <=? total + k then Ok (w, total + k, RDone, t)
      else obind (send_encoded g len p k (total + k) t) (fun x => let '(w', total', r, t') := x in Ok (w ++ w', total', r, t'))))
    | Again :: t => Ok ([], total, RWait, t)
    | Intr :: t => match p with (ci, S off) => send_encoded g len (ci, off) 0 total t | (_, 0) => UB OutOfBounds end
    | Pipe :: t => Ok ([], total, RClosed, t)
    | Fail :: t => Ok ([], total, RExit, t)
    end
  end.
(** FLY_RESPONSE_TYPE_PATH_FILE, v2.c:2716-2784, with [limit] = count; FLY_RESPONSE_TYPE_DEFAULT, 2785-2840, with [limit] =
    response_len.  [d]: the bytes of the file; [off]: res->offset.  sendfile(2) returns 0 if it is asked for nothing or
    [off] is at the end, whatever the socket is ready for, and the loop goes on for ever.  Every errno but EAGAIN ends
    the worker. *)
Fixpoint send_file (d : list N) (count limit off total : nat) (ws : list ev) : outcome (list N * nat * nat * res * list ev) :=
  if limit <=? total then Ok ([], off, total, RDone, ws)
  else if (count - total =? 0) || (length d <=? off) then UB Diverges
  else match ws with
  | [] => Ok ([], off, total, RWait, [])
  | Took n :: t =>
    let k := Nat.min n (Nat.min (count - total) (length d - off)) in
    obind (send_file d count limit (off + k) (total + k) t) (fun x => let '(w, off', total', r, t') := x in Ok (firstn k (skipn off d) ++ w, off', total', r, t'))
  | Again :: t => Ok ([], off, total, RWait, t)
  | Intr :: t | Pipe :: t | Fail :: t => Ok ([], off, total, RExit, t)
  end.

(** ** A response *)
(** res->type with what it needs: body; de->encbuf and contlen; pf->fd (its bytes) and count; rcbs->fd and fs.st_size (for
    which count is 0, response.c:83: nothing sets it for a default content). *)
Inductive content := CBody (b : list N) | CEncoded (g : buffer) (len : nat) | CFile (d : list N) (count : nat) | CDefault (d : list N) (size : nat).
(** The response when its header block is written: fase before or in the frame header, in the data, or finished
    (end_send_data); byte_from_start; offset. *)
Inductive rfase := PHead | PData | PEnd.
Record rstate := mkR { rs_fase : rfase; rs_total : nat; rs_off : nat }.
Definition r_start : rstate := mkR PHead 0 0.
(** response_len, v2.c:5118-5155. *)
Definition content_len (c : content) : nat := match c with CBody b => length b | CEncoded _ n => n | CFile _ n => n | CDefault _ n => n end.
(** One call of fly_send_data_frame in state half closed (remote), with credit in both windows; [h]: the header of the frame.
    At "success" (v2.c:2845-2862) everything has been sent. *)
Definition send_data (h : list N) (c : content) (s : rstate) (ws : list ev) : outcome (list N * rstate * res) :=
  let finished := mkR PEnd (content_len c) (rs_off s) in
  match rs_fase s with
  | PHead =>
    if content_len c =? 0 then Ok ([], finished, RDone)
    else let '(w, r, _) := data_head h 0 ws in Ok (w, match r with RDone => mkR PData 0 (rs_off s) | _ => mkR PHead 0 (rs_off s) end, match r with RDone => RWait | _ => r end)
  | PData =>
    match c with
    | CBody b => let '(w, total, r, _) := send_body b (rs_total s) ws in Ok (w, match r with RDone => finished | _ => mkR PData total (rs_off s) end, r)
    | CEncoded g n => match b_chains g with
        | [] => UB OutOfBounds
        | c0 :: _ => obind (send_encoded g n (0, c_use c0) (rs_total s) (rs_total s) ws) (fun x => let '(w, total, r, _) := x in
                 Ok (w, match r with RDone => finished | _ => mkR PData total (rs_off s) end, r))
        end
    | CFile d n => obind (send_file d n n (rs_off s) (rs_total s) ws) (fun x => let '(w, off, total, r, _) := x in
                 Ok (w, match r with RDone => mkR PEnd n off | _ => mkR PData total off end, r))
    | CDefault d n => obind (send_file d 0 n (rs_off s) (rs_total s) ws) (fun x => let '(w, off, _, r, _) := x in
                 Ok (w, match r with RDone => mkR PEnd n off | _ => mkR PData (rs_total s) off end, r))
    end
  | PEnd => Ok ([], s, RDone)
  end.
(** The connection while one response is written: its queued frames and the response.  One turn is one call of
    fly_hv2_request_event_handler with FLY_WRITE (v2.c:1651-1660): the queue first, then the data. *)
Definition turn (h : list N) (c : content) (q : list qframe) (s : rstate) (ws : list ev) : outcome (list N * list qframe * rstate * res) :=
  match q with
  | [] => obind (send_data h c s ws) (fun x => let '(w, s', r) := x in Ok (w, [], s', r))
  | _ => let '(w, q', r, _) := send_queue q ws in Ok (w, q', s, match r with RDone => RWait | _ => r end)
  end.
Fixpoint turns (h : list N) (c : content) (q : list qframe) (s : rstate) (tss : list (list ev)) : outcome (list N * list qframe * rstate * res) :=
  match tss with
  | [] => Ok ([], q, s, match q, rs_fase s with [], PEnd => RDone | _, _ => RWait end)
  | ts :: rest => obind (turn h c q s ts) (fun x => let '(w, q', s', r) := x in
      match r with
      | RWait => obind (turns h c q' s' rest) (fun y => let '(w', q'', s'', r') := y in Ok (w ++ w', q'', s'', r'))
      | _ => Ok (w, q', s', r)
      end)
  end.
