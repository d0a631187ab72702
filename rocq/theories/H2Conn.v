(** Model of the HTTP/2 connection of src/v2.c: streams, the handling of received frames,
    the queue of frames to be sent, the responses and their flow control.

    A received frame is given by its header fields and the number its payload holds; the
    reading of those from the buffer is modelled in H2Frame.v.  The result of decoding a header
    block (Hpack.v), of applying settings (H2Frame.v) and of the application's handler are
    parameters of an event ([oracle]).  Stream priorities, timers, the log and the memory pools
    are not modelled.  A frame is sent whole or not at all. *)
From Verif Require Import Base.
Open Scope N_scope.

(** enum fly_hv2_stream_state, src/v2.h:159-167. *)
Inductive sstate := Idle | ReservedLocal | ReservedRemote | Open | HalfLocal | HalfRemote | Closed.
Definition sstate_eqb (a b : sstate) : bool :=
  match a, b with
  | Idle, Idle | ReservedLocal, ReservedLocal | ReservedRemote, ReservedRemote | Open, Open
  | HalfLocal, HalfLocal | HalfRemote, HalfRemote | Closed, Closed => true
  | _, _ => false
  end.

(** struct fly_hv2_stream, src/v2.h:170-203: the fields used below.  [t_body] is the number of
    body bytes stored and body_len (None: request->body is NULL), [t_last] type and flags of the last
    received frame recorded in stream->frames. *)
Record stream := mkStream {
  t_id : N; t_state : sstate; t_peh : bool; t_can : bool; t_esh : bool; t_esd : bool;
  t_pwin : Z; t_body : option (N * N); t_discard : bool; t_last : option (N * N) }.

(** struct fly_hv2_send_frame, src/v2.h:40-72: the queued frames by kind. *)
Inductive kind :=
| KSettings | KSettingsAck | KPing
| KGoaway (code : N) | KRst (code : N) | KWindow (inc : N)
| KHeaders (endstream : bool).
Record qframe := mkQ { q_sid : N; q_kind : kind }.

(** What is put on the connection: queued frames, the header of a DATA frame (stream, length,
    END_STREAM) and bytes of its payload. *)
Inductive item := WFrame (q : qframe) | WDataHeader (sid len : N) (es : bool) | WData (sid n : N).

(** fly_response_t, src/response.h: fase, response_len, byte_from_start, and whether the type
    is FLY_RESPONSE_TYPE_NOCONTENT. *)
Inductive rphase := PHeader | PData | PLog.
Record resp := mkResp { p_sid : N; p_len : N; p_nocontent : bool; p_phase : rphase; p_sent : N }.

(** enum fly_hv2_connection_state, src/v2.h:78-83 (the states reached). *)
Inductive cphase := Preface | Communication.
(** [Failed]: fly_hv2_emergency; [Aborted]: FLY_NOT_COME_HERE. *)
Inductive status := Running | Disconnected | Failed | Aborted.

(** struct fly_hv2_state, src/v2.h:90-151.  [c_opened], [c_handled], [c_wire] and [c_credit]
    are not in the code; they record what was observable: the streams created with the send
    window they got, the requests given to the handler, everything sent, and the increments of
    the WINDOW_UPDATE frames that were acted on. *)
Record conn := mkConn {
  c_streams : list stream; c_count : Z; c_max_sid : N; c_max_handled : N;
  c_goaway : bool; c_goaway_lsid : N; c_phase : cphase;
  c_win : Z; c_pinit : Z; c_limit : option N; c_maxlen : N;
  c_sendq : list qframe; c_resps : list resp; c_status : status;
  c_opened : list (N * Z); c_handled : list N; c_wire : list item; c_credit : list (N * N) }.

Definition set_streams x (s : conn) := mkConn x (c_count s) (c_max_sid s) (c_max_handled s)
  (c_goaway s) (c_goaway_lsid s) (c_phase s) (c_win s) (c_pinit s) (c_limit s) (c_maxlen s)
  (c_sendq s) (c_resps s) (c_status s) (c_opened s) (c_handled s) (c_wire s) (c_credit s).
Definition set_count x (s : conn) := mkConn (c_streams s) x (c_max_sid s) (c_max_handled s)
  (c_goaway s) (c_goaway_lsid s) (c_phase s) (c_win s) (c_pinit s) (c_limit s) (c_maxlen s)
  (c_sendq s) (c_resps s) (c_status s) (c_opened s) (c_handled s) (c_wire s) (c_credit s).
Definition set_max_sid x (s : conn) := mkConn (c_streams s) (c_count s) x (c_max_handled s)
  (c_goaway s) (c_goaway_lsid s) (c_phase s) (c_win s) (c_pinit s) (c_limit s) (c_maxlen s)
  (c_sendq s) (c_resps s) (c_status s) (c_opened s) (c_handled s) (c_wire s) (c_credit s).
Definition set_max_handled x (s : conn) := mkConn (c_streams s) (c_count s) (c_max_sid s) x
  (c_goaway s) (c_goaway_lsid s) (c_phase s) (c_win s) (c_pinit s) (c_limit s) (c_maxlen s)
  (c_sendq s) (c_resps s) (c_status s) (c_opened s) (c_handled s) (c_wire s) (c_credit s).
Definition set_goaway x (s : conn) := mkConn (c_streams s) (c_count s) (c_max_sid s) (c_max_handled s)
  x (c_goaway_lsid s) (c_phase s) (c_win s) (c_pinit s) (c_limit s) (c_maxlen s)
  (c_sendq s) (c_resps s) (c_status s) (c_opened s) (c_handled s) (c_wire s) (c_credit s).
Definition set_lsid x (s : conn) := mkConn (c_streams s) (c_count s) (c_max_sid s) (c_max_handled s)
  (c_goaway s) x (c_phase s) (c_win s) (c_pinit s) (c_limit s) (c_maxlen s)
  (c_sendq s) (c_resps s) (c_status s) (c_opened s) (c_handled s) (c_wire s) (c_credit s).
Definition set_phase x (s : conn) := mkConn (c_streams s) (c_count s) (c_max_sid s) (c_max_handled s)
  (c_goaway s) (c_goaway_lsid s) x (c_win s) (c_pinit s) (c_limit s) (c_maxlen s)
  (c_sendq s) (c_resps s) (c_status s) (c_opened s) (c_handled s) (c_wire s) (c_credit s).
Definition set_win x (s : conn) := mkConn (c_streams s) (c_count s) (c_max_sid s) (c_max_handled s)
  (c_goaway s) (c_goaway_lsid s) (c_phase s) x (c_pinit s) (c_limit s) (c_maxlen s)
  (c_sendq s) (c_resps s) (c_status s) (c_opened s) (c_handled s) (c_wire s) (c_credit s).
Definition set_pinit x (s : conn) := mkConn (c_streams s) (c_count s) (c_max_sid s) (c_max_handled s)
  (c_goaway s) (c_goaway_lsid s) (c_phase s) (c_win s) x (c_limit s) (c_maxlen s)
  (c_sendq s) (c_resps s) (c_status s) (c_opened s) (c_handled s) (c_wire s) (c_credit s).
Definition set_sendq x (s : conn) := mkConn (c_streams s) (c_count s) (c_max_sid s) (c_max_handled s)
  (c_goaway s) (c_goaway_lsid s) (c_phase s) (c_win s) (c_pinit s) (c_limit s) (c_maxlen s)
  x (c_resps s) (c_status s) (c_opened s) (c_handled s) (c_wire s) (c_credit s).
Definition set_resps x (s : conn) := mkConn (c_streams s) (c_count s) (c_max_sid s) (c_max_handled s)
  (c_goaway s) (c_goaway_lsid s) (c_phase s) (c_win s) (c_pinit s) (c_limit s) (c_maxlen s)
  (c_sendq s) x (c_status s) (c_opened s) (c_handled s) (c_wire s) (c_credit s).
Definition set_status x (s : conn) := mkConn (c_streams s) (c_count s) (c_max_sid s) (c_max_handled s)
  (c_goaway s) (c_goaway_lsid s) (c_phase s) (c_win s) (c_pinit s) (c_limit s) (c_maxlen s)
  (c_sendq s) (c_resps s) x (c_opened s) (c_handled s) (c_wire s) (c_credit s).
Definition log_opened x (s : conn) := mkConn (c_streams s) (c_count s) (c_max_sid s) (c_max_handled s)
  (c_goaway s) (c_goaway_lsid s) (c_phase s) (c_win s) (c_pinit s) (c_limit s) (c_maxlen s)
  (c_sendq s) (c_resps s) (c_status s) (c_opened s ++ [x]) (c_handled s) (c_wire s) (c_credit s).
Definition log_handled x (s : conn) := mkConn (c_streams s) (c_count s) (c_max_sid s) (c_max_handled s)
  (c_goaway s) (c_goaway_lsid s) (c_phase s) (c_win s) (c_pinit s) (c_limit s) (c_maxlen s)
  (c_sendq s) (c_resps s) (c_status s) (c_opened s) (c_handled s ++ [x]) (c_wire s) (c_credit s).
Definition log_wire x (s : conn) := mkConn (c_streams s) (c_count s) (c_max_sid s) (c_max_handled s)
  (c_goaway s) (c_goaway_lsid s) (c_phase s) (c_win s) (c_pinit s) (c_limit s) (c_maxlen s)
  (c_sendq s) (c_resps s) (c_status s) (c_opened s) (c_handled s) (c_wire s ++ [x]) (c_credit s).
Definition log_credit x (s : conn) := mkConn (c_streams s) (c_count s) (c_max_sid s) (c_max_handled s)
  (c_goaway s) (c_goaway_lsid s) (c_phase s) (c_win s) (c_pinit s) (c_limit s) (c_maxlen s)
  (c_sendq s) (c_resps s) (c_status s) (c_opened s) (c_handled s) (c_wire s) (c_credit s ++ [x]).

Definition st_state x (t : stream) := mkStream (t_id t) x (t_peh t) (t_can t) (t_esh t) (t_esd t)
  (t_pwin t) (t_body t) (t_discard t) (t_last t).
Definition st_peh x (t : stream) := mkStream (t_id t) (t_state t) x (t_can t) (t_esh t) (t_esd t)
  (t_pwin t) (t_body t) (t_discard t) (t_last t).
Definition st_can x (t : stream) := mkStream (t_id t) (t_state t) (t_peh t) x (t_esh t) (t_esd t)
  (t_pwin t) (t_body t) (t_discard t) (t_last t).
Definition st_esh x (t : stream) := mkStream (t_id t) (t_state t) (t_peh t) (t_can t) x (t_esd t)
  (t_pwin t) (t_body t) (t_discard t) (t_last t).
Definition st_esd x (t : stream) := mkStream (t_id t) (t_state t) (t_peh t) (t_can t) (t_esh t) x
  (t_pwin t) (t_body t) (t_discard t) (t_last t).
Definition st_pwin x (t : stream) := mkStream (t_id t) (t_state t) (t_peh t) (t_can t) (t_esh t) (t_esd t)
  x (t_body t) (t_discard t) (t_last t).
Definition st_body x (t : stream) := mkStream (t_id t) (t_state t) (t_peh t) (t_can t) (t_esh t) (t_esd t)
  (t_pwin t) x (t_discard t) (t_last t).
Definition st_discard x (t : stream) := mkStream (t_id t) (t_state t) (t_peh t) (t_can t) (t_esh t) (t_esd t)
  (t_pwin t) (t_body t) x (t_last t).
Definition st_last x (t : stream) := mkStream (t_id t) (t_state t) (t_peh t) (t_can t) (t_esh t) (t_esd t)
  (t_pwin t) (t_body t) (t_discard t) x.

(** __fly_hv2_create_stream, src/v2.c:278-316. *)
Definition new_stream (pinit : Z) (id : N) : stream :=
  mkStream id Idle false false false false pinit None false None.

(** fly_hv2_state_init, src/v2.c:467-512, with fly_hv2_default_settings, src/v2.c:205-221, after
    the connection preface (fly_hv2_init_handler, src/v2.c:703-707).  [limit] is
    max_concurrent_streams (None: no limit, the default), [maxlen] max_request_content_length. *)
Definition conn_init (limit : option N) (maxlen : N) : conn :=
  mkConn [new_stream 65535 0] 1 0 0 false 0 Preface 65535 65535 limit maxlen
         [] [] Running [] [] [] [].

(** fly_hv2_stream_search_from_sid, src/v2.c:1525-1539. *)
Definition find_stream (sid : N) (s : conn) : option stream :=
  if sid =? 0 then hd_error (c_streams s)
  else List.find (fun t => t_id t =? sid) (c_streams s).
(** Assignments through a pointer to the stream with this identifier. *)
Definition upd (sid : N) (f : stream -> stream) (s : conn) : conn :=
  set_streams (map (fun t => if t_id t =? sid then f t else t) (c_streams s)) s.

(** Error codes, src/v2.h (FLY_HV2_PROTOCOL_ERROR and following). *)
Definition PROTOCOL_ERROR := 1. Definition INTERNAL_ERROR := 2. Definition FLOW_CONTROL_ERROR := 3.
Definition STREAM_CLOSED := 5. Definition FRAME_SIZE_ERROR := 6. Definition COMPRESSION_ERROR := 9.

(** __fly_hv2_add_yet_send_frame, src/v2.c:3176-3193: a frame is at the same time in the queue
    of its stream and in that of the connection; the former is the part of the latter with the
    stream's identifier. *)
Definition enqueue (q : qframe) (s : conn) : conn := set_sendq (c_sendq s ++ [q]) s.
Definition yetsend (sid : N) (s : conn) : list qframe := filter (fun q => q_sid q =? sid) (c_sendq s).
(** __fly_hv2_send_error, src/v2.c:3507-3521: fly_send_goaway_frame, src/v2.c:1294-1317, and
    fly_send_rst_stream_frame, src/v2.c:1378-1416. *)
Definition conn_error (code : N) (s : conn) : conn := set_goaway true (enqueue (mkQ 0 (KGoaway code)) s).
Definition stream_error (sid code : N) (s : conn) : conn :=
  upd sid (st_state Closed) (enqueue (mkQ sid (KRst code)) s).

(** fly_hv2_create_stream, src/v2.c:335-371, for a stream of the client.  None is NULL. *)
Definition create_stream (sid : N) (s : conn) : conn * bool :=
  if sid <=? c_max_sid s then (conn_error PROTOCOL_ERROR s, false)
  else if match c_limit s with Some m => Z.of_N m <=? c_count s | None => false end%Z
  then (conn_error PROTOCOL_ERROR s, false)
  else if negb (sid =? 0) && (sid mod 2 =? 0) then (conn_error PROTOCOL_ERROR s, false)
  else (log_opened (sid, c_pinit s) (set_max_sid sid (set_count (c_count s + 1)%Z
          (set_streams (c_streams s ++ [new_stream (c_pinit s) sid]) s))), true).

(** fly_hv2_close_stream, src/v2.c:376-422. *)
Definition close_stream (sid : N) (s : conn) : conn :=
  set_sendq (filter (fun q => negb (q_sid q =? sid)) (c_sendq s))
    (set_count (c_count s - 1)%Z
      (set_streams (filter (fun t => negb (t_id t =? sid)) (c_streams s)) s)).

(** The search of fly_send_window_update_frame, src/v2.c:1339-1356, through the frames of the
    stream: one pass from the first frame that can be combined; [retry] starts again, but
    the frames passed over stay passed over because update_size only grows, so that one pass
    is enough ([coalesce_again] in H2ConnProofs.v shows that a second one finds nothing).
    The additions are of uint32_t. *)
Fixpoint coalesce (sid : N) (size : N) (q : list qframe) : N * list qframe :=
  match q with
  | [] => (size, [])
  | x :: t =>
    match q_kind x with
    | KWindow u => if (q_sid x =? sid) && ((size + u) mod 4294967296 <=? 2147483647)
                   then coalesce sid ((size + u) mod 4294967296) t
                   else let (n, r) := coalesce sid size t in (n, x :: r)
    | _ => let (n, r) := coalesce sid size t in (n, x :: r)
    end
  end.
(** fly_send_window_update_frame, src/v2.c:1319-1376. *)
Definition window_update (sid : N) (size : N) (s : conn) : conn :=
  let (n, q) := coalesce sid size (c_sendq s) in
  enqueue (mkQ sid (KWindow n)) (set_sendq q s).

(** fly_hv2_parse_data, src/v2.c:4580-4663.  [cl] is fly_content_length of the request's
    header.  None is FLY_HV2_PARSE_DATA_ERROR. *)
Definition parse_data (t : stream) (len cl : N) (s : conn) : option conn :=
  let sid := t_id t in
  if len =? 0 then Some s
  else if t_discard t then Some (window_update 0 len (window_update sid len s))
  else
    match t_body t with
    | None => if c_maxlen s <? cl
              then Some (window_update 0 len (window_update sid len (upd sid (st_discard true) s)))
              else if cl <? len then None
              else Some (window_update sid len (window_update 0 len
                           (upd sid (st_body (Some (len, cl))) s)))
    | Some (n, total) =>
      if total <? n + len then None
      else Some (window_update sid len (window_update 0 len
                   (upd sid (st_body (Some (n + len, total))) s)))
    end.

(** fly_hv2_emergency, src/v2.c:3526-3549: one GOAWAY frame is sent at once and everything is
    closed. *)
Definition emergency (s : conn) : conn :=
  set_status Failed (log_wire (WFrame (mkQ 0 (KGoaway INTERNAL_ERROR))) s).

(** The end of fly_send_data_frame, src/v2.c:2845-2862 ([success]), for the first response of the
    queue; all of it has been sent. *)
Definition set_head (r : resp) (s : conn) : conn :=
  match c_resps s with _ :: rest => set_resps (r :: rest) s | [] => s end.
Definition with_phase p (r : resp) := mkResp (p_sid r) (p_len r) (p_nocontent r) p (p_sent r).
Definition finish (t : stream) (r : resp) (s : conn) : conn :=
  if sstate_eqb (t_state t) HalfRemote
  then set_head (with_phase PLog r) (upd (t_id t) (fun t => st_esd true (st_state Closed t)) s)
  else set_head (with_phase PData r) (upd (t_id t) (st_esh true) s).

(** fly_send_data_frame, src/v2.c:2557-2880, for the first response of the queue.  [n] is what
    the next send() accepts (0: it would block).  Contents from memory, encoded contents and
    files are sent alike; FLY_RESPONSE_TYPE_DEFAULT and the writing of the frame header in
    pieces are not modelled.  The length on the wire has 24 bits (fly_fh_setting). *)
Definition send_data (t : stream) (r : resp) (n : N) (s : conn) : conn :=
  match p_phase r with
  | PData =>
    if p_nocontent r then set_status Aborted s
    else if p_len r <=? p_sent r then finish t r s
    else
      let k := N.min n (p_len r - p_sent r) in
      if k =? 0 then s
      else
        let r' := mkResp (p_sid r) (p_len r) (p_nocontent r) PData (p_sent r + k) in
        let s1 := set_head r' (log_wire (WData (t_id t) k)
                    (set_win (c_win s - Z.of_N k)%Z
                      (upd (t_id t) (fun t => st_pwin (t_pwin t - Z.of_N k)%Z t) s))) in
        if p_len r <=? p_sent r + k then finish t r' s1 else s1
  | _ =>
    if ((t_pwin t <=? 0) || (c_win s <=? 0))%Z then s
    else if p_len r =? 0 then finish t r s
    else
      let room := Z.min (t_pwin t) (c_win s) in
      set_head (mkResp (p_sid r) (p_len r) (p_nocontent r) PData 0)
        (log_wire (WDataHeader (t_id t) (p_len r mod 16777216) (Z.of_N (p_len r) <? room)%Z) s)
  end.

(** The label [log] of fly_hv2_response_event, src/v2.c:5300-5335, after
    fly_hv2_remove_response. *)
Definition response_done (t : stream) (s : conn) : conn :=
  let s := set_max_handled (N.max (c_max_handled s) (t_id t)) s in
  if sstate_eqb (t_state t) Closed then close_stream (t_id t) s else s.

(** fly_hv2_response_event, src/v2.c:5067-5360, for the first response of the queue (called by
    fly_hv2_responses, src/v2.c:4772-4784).  A response whose stream is gone holds a pointer to
    freed memory. *)
Definition response_event (r : resp) (n : N) (s : conn) : outcome conn :=
  match List.find (fun t => t_id t =? p_sid r) (c_streams s) with
  | None => UB UseAfterFree
  | Some t =>
    if t_esd t then Ok (response_done t (set_resps (tl (c_resps s)) s))
    else if t_esh t then Ok (send_data t r n s)
    else Ok s
  end.

(** fly_hv2_response_event for a response just made by the handler.  With a stream whose
    headers or data are already sent it goes on with those phases, although the new response
    is not in the queue (its length is still 0).  In a state other than half-closed (remote) it
    makes a 500 response and calls itself: without end.  The header block is queued as
    one HEADERS frame (fly_send_headers_frame, modelled in H2Frag.v). *)
Definition new_response (sid len : N) (nocontent : bool) (s : conn) : outcome conn :=
  match List.find (fun t => t_id t =? sid) (c_streams s) with
  | None => UB UseAfterFree
  | Some t =>
    if t_esd t then Ok (response_done t s)
    else if t_esh t then
      if ((t_pwin t <=? 0) || (c_win s <=? 0))%Z then Ok s
      else if sstate_eqb (t_state t) HalfRemote
      then Ok (upd sid (fun t => st_esd true (st_state Closed t)) s)
      else Ok s
    else if sstate_eqb (t_state t) HalfRemote then
      Ok (enqueue (mkQ sid (KHeaders nocontent))
           (set_resps (c_resps s ++ [mkResp sid (if nocontent then 0 else len) nocontent PHeader 0]) s))
    else UB Diverges
  end.

(** Results that depend on the rest of the server: [o_hpack] fly_hv2_parse_headers succeeded;
    [o_settings] the result of fly_hv2_peer_settings; [o_cl] the request's Content-Length;
    [o_resp] the length of the response's content and whether there is none (None: the handler
    of the request failed with -1). *)
Inductive settings_res := SOk (pinit : N) | SFlow | SProto.
Record oracle := mkOracle { o_hpack : bool; o_settings : settings_res; o_cl : N; o_resp : option (N * bool) }.

(** fly_hv2_response_event_handler, src/v2.c:4838-5030. *)
Definition handle_request (sid : N) (o : oracle) (s : conn) : outcome conn :=
  let s := log_handled sid s in
  match o_resp o with
  | None => Ok (emergency s)
  | Some (len, nc) => new_response sid len nc s
  end.

(** A received frame: type, flags, stream, payload length, and the number in the payload
    (increment of WINDOW_UPDATE, last stream identifier of GOAWAY). *)
Record frame := mkFrame { f_type : N; f_flags : N; f_sid : N; f_len : N; f_val : N }.
Definition END_STREAM (f : frame) := N.testbit (f_flags f) 0.
Definition END_HEADERS (f : frame) := N.testbit (f_flags f) 2.
Definition PADDED (f : frame) := N.testbit (f_flags f) 3.
Definition ACK (f : frame) := N.testbit (f_flags f) 0.

(** src/v2.c:1824-1835 and 1889-1893: answer when the request is complete. *)
Definition answer_if_complete (sid : N) (o : oracle) (s : conn) : outcome conn :=
  match find_stream sid s with
  | None => UB UseAfterFree
  | Some t =>
    if sstate_eqb (t_state t) HalfRemote && (t_peh t || t_can t)
    then handle_request sid o (upd sid (st_can true) s)
    else Ok s
  end.

(** FLY_HV2_FRAME_TYPE_DATA, src/v2.c:1792-1838. *)
Definition recv_data (t : stream) (f : frame) (o : oracle) (s : conn) : outcome conn :=
  let sid := t_id t in
  let s := if sid =? 0 then conn_error PROTOCOL_ERROR s else s in
  let s := match t_state t with Open | HalfLocal => s | _ => stream_error sid STREAM_CLOSED s end in
  let len := if PADDED f then (if f_len f =? 0 then 4294967295 else f_len f - 1) else f_len f in
  match parse_data t len (o_cl o) s with
  | None => Ok (emergency s)
  | Some s =>
    let s := if END_STREAM f then upd sid (st_state HalfRemote) s else s in
    answer_if_complete sid o s
  end.
(** FLY_HV2_FRAME_TYPE_HEADERS, src/v2.c:1839-1897. *)
Definition recv_headers (t : stream) (f : frame) (o : oracle) (s : conn) : outcome conn :=
  let sid := t_id t in
  let s := if sid =? 0 then conn_error PROTOCOL_ERROR s else s in
  let s := match t_state t with
           | Idle => upd sid (st_state Open) s
           | ReservedLocal | Open | HalfRemote => s
           | _ => stream_error sid STREAM_CLOSED s
           end in
  let s := if o_hpack o then s else conn_error COMPRESSION_ERROR s in
  let s := if END_STREAM f then upd sid (st_state HalfRemote) s else s in
  let s := if END_HEADERS f then upd sid (st_peh true) s else s in
  answer_if_complete sid o s.
(** FLY_HV2_FRAME_TYPE_PRIORITY, src/v2.c:1899-1922; the dependency tree is not modelled. *)
Definition recv_priority (t : stream) (f : frame) (s : conn) : outcome conn :=
  let s := if t_id t =? 0 then conn_error PROTOCOL_ERROR s else s in
  Ok (if f_len f =? 5 then s else stream_error (t_id t) FRAME_SIZE_ERROR s).
(** FLY_HV2_FRAME_TYPE_RST_STREAM, src/v2.c:1923-1934. *)
Definition recv_rst (t : stream) (f : frame) (s : conn) : outcome conn :=
  let s := if t_id t =? 0 then conn_error PROTOCOL_ERROR s else s in
  let s := if sstate_eqb (t_state t) Idle then conn_error PROTOCOL_ERROR s else s in
  let s := if f_len f =? 4 then s else conn_error FRAME_SIZE_ERROR s in
  Ok (upd (t_id t) (st_state Closed) s).
(** FLY_HV2_FRAME_TYPE_SETTINGS, src/v2.c:1935-1977.  first_send_settings is only set by a
    function that is never called, so every SETTINGS frame is answered with the server's own. *)
Definition recv_settings (f : frame) (o : oracle) (s : conn) : outcome conn :=
  let s := if f_sid f =? 0 then s else conn_error PROTOCOL_ERROR s in
  let s := if f_len f mod 6 =? 0 then s else conn_error FRAME_SIZE_ERROR s in
  if ACK f then Ok s
  else
    let s := enqueue (mkQ (f_sid f) KSettings) s in
    match o_settings o with
    | SFlow => Ok (conn_error FLOW_CONTROL_ERROR s)
    | SProto => Ok (conn_error PROTOCOL_ERROR s)
    | SOk pinit => Ok (set_phase Communication (enqueue (mkQ (f_sid f) KSettingsAck) (set_pinit (Z.of_N pinit) s)))
    end.
(** FLY_HV2_FRAME_TYPE_PUSH_PROMISE, src/v2.c:1978-1996 (enable_push is 1); the stream is looked
    up, and exists, before it is created. *)
Definition recv_push (t : stream) (f : frame) (s : conn) : outcome conn :=
  let s := if f_sid f =? 0 then conn_error PROTOCOL_ERROR s else s in
  let s := match t_state t with Open | HalfRemote => s | _ => conn_error PROTOCOL_ERROR s end in
  let s := match find_stream (f_sid f) s with Some _ => conn_error PROTOCOL_ERROR s | None => s end in
  let (s, ok) := create_stream (f_sid f) s in
  Ok (if ok then s else emergency s).
(** FLY_HV2_FRAME_TYPE_PING, src/v2.c:1997-2010. *)
Definition recv_ping (f : frame) (s : conn) : outcome conn :=
  let s := if f_sid f =? 0 then s else conn_error PROTOCOL_ERROR s in
  let s := if f_len f =? 8 then s else conn_error FRAME_SIZE_ERROR s in
  Ok (enqueue (mkQ 0 KPing) s).
(** FLY_HV2_FRAME_TYPE_GOAWAY, src/v2.c:2011-2029, with fly_hv2_goaway, src/v2.c:1508-1523 (the
    error code is that of the frame: not modelled). *)
Definition recv_goaway (f : frame) (s : conn) : outcome conn :=
  let s := if f_sid f =? 0 then s else conn_error PROTOCOL_ERROR s in
  let s := set_lsid (f_val f) (set_goaway true s) in
  Ok (if f_val f <=? c_max_handled s then conn_error 0 s else s).
(** FLY_HV2_FRAME_TYPE_WINDOW_UPDATE, src/v2.c:2030-2053.  The windows are ssize_t: with
    increments below 2^31 they cannot overflow in practice. *)
Definition recv_window_update (t : stream) (f : frame) (s : conn) : outcome conn :=
  let s := if f_len f =? 4 then s else conn_error FRAME_SIZE_ERROR s in
  let s := if f_val f =? 0
           then (if f_sid f =? 0 then stream_error (t_id t) PROTOCOL_ERROR s
                 else conn_error PROTOCOL_ERROR s)
           else s in
  let s := log_credit (f_sid f, f_val f) s in
  Ok (if f_sid f =? 0 then set_win (c_win s + Z.of_N (f_val f))%Z s
      else upd (t_id t) (fun t => st_pwin (t_pwin t + Z.of_N (f_val f))%Z t) s).
(** FLY_HV2_FRAME_TYPE_CONTINUATION, src/v2.c:2054-2078.  The frames of the root stream are not
    recorded: what is then read as a frame is the head of the list. *)
Definition recv_continuation (t : stream) (f : frame) (s : conn) : outcome conn :=
  match t_last t with
  | None => UB OutOfBounds
  | Some (ty, fl) =>
    let s := if ((ty =? 1) || (ty =? 5) || (ty =? 9)) && negb (N.testbit fl 2)
             then s else conn_error PROTOCOL_ERROR s in
    Ok (if END_HEADERS f then upd (t_id t) (st_peh true) s else s)
  end.

(** One turn of the loop of fly_hv2_request_event_handler, src/v2.c:1632-2100, for a frame that is
    complete in the buffer; max_frame_size is FLY_HV2_MAX_FRAME_SIZE_DEFAULT and never changes. *)
Definition recv_frame (f : frame) (o : oracle) (s : conn) : outcome conn :=
  let s := if 16384 <? f_len f then conn_error PROTOCOL_ERROR s else s in
  let (s, ok) := match find_stream (f_sid f) s with
                 | Some _ => (s, true)
                 | None => create_stream (f_sid f) s
                 end in
  if negb ok then Ok s
  else
    let s := if f_sid f =? 0 then s else upd (f_sid f) (st_last (Some (f_type f, f_flags f))) s in
    match find_stream (f_sid f) s with
    | None => UB UseAfterFree
    | Some t =>
      match c_phase s, f_type f =? 4 with
      | Preface, false => Ok (conn_error PROTOCOL_ERROR s)
      | _, _ =>
        match f_type f with
        | 0 => recv_data t f o s
        | 1 => recv_headers t f o s
        | 2 => recv_priority t f s
        | 3 => recv_rst t f s
        | 4 => recv_settings f o s
        | 5 => recv_push t f s
        | 6 => recv_ping f s
        | 7 => recv_goaway f s
        | 8 => recv_window_update t f s
        | 9 => recv_continuation t f s
        | _ => Ok s
        end
      end
    end.

(** fly_state_send_frame, src/v2.c:2882-2984: the next frame of the queue goes out. *)
Definition send_frame (q : qframe) (s : conn) : conn :=
  let s := log_wire (WFrame q) (set_sendq (tl (c_sendq s)) s) in
  match q_kind q with
  | KHeaders _ => upd (q_sid q) (st_esh true) s
  | _ => s
  end.

(** The loop of fly_hv2_goaway_handle, src/v2.c:1474-1506.  Each closed stream leads back to the
    first one, so the streams are closed from the front until one is kept.  fly_send_frame,
    src/v2.c:2986-3010, reads the link of a frame it has freed as soon as one frame was sent. *)
Fixpoint goaway_loop (ts : list stream) (n : N) (o : oracle) (s : conn) : outcome conn :=
  match ts with
  | [] => Ok (set_status Disconnected s)
  | t :: rest =>
    if negb (t_peh t) || (negb (t_can t) && match yetsend (t_id t) s with [] => true | _ => false end)
    then goaway_loop rest n o (close_stream (t_id t) s)
    else match yetsend (t_id t) s with
         | _ :: _ => if n =? 0 then Ok s else UB UseAfterFree
         | [] => handle_request (t_id t) o s
         end
  end.
Definition goaway_handle (n : N) (o : oracle) (s : conn) : outcome conn :=
  if (c_goaway_lsid s <? c_max_handled s) || (c_count s =? 0)%Z then Ok (set_status Disconnected s)
  else goaway_loop (c_streams s) n o s.

(** An event of the connection: a frame is complete in the buffer, the socket is writable ([n]: what
    it accepts), or the peer has closed the connection. *)
Inductive event := ERecv (f : frame) (o : oracle) | EWrite (n : N) (o : oracle) | EEof (o : oracle).

(** The beginning of fly_hv2_request_event_handler, src/v2.c:1641-1662. *)
Definition step (s : conn) (e : event) : outcome conn :=
  match c_status s with
  | Running =>
    if c_goaway s then
      match e with
      | ERecv _ o => goaway_handle 0 o s
      | EWrite n o => goaway_handle n o s
      | EEof o => goaway_handle 0 o s
      end
    else
      match e with
      | ERecv f o => recv_frame f o s
      | EWrite n _ =>
        match c_sendq s with
        | q :: _ => Ok (if n =? 0 then s else send_frame q s)
        | [] => match c_resps s with
                | r :: _ => response_event r n s
                | [] => Ok s
                end
        end
      | EEof _ => Ok (set_status Disconnected s)
      end
  | _ => Ok s
  end.
Fixpoint run (s : conn) (es : list event) : outcome conn :=
  match es with
  | [] => Ok s
  | e :: t => obind (step s e) (fun s' => run s' t)
  end.
