(** Model of the HTTP/1.1 request handler, src/request.c: receiving a request from a socket, phase by phase, up to the
    choice of the response.  The phases themselves are modelled in Reqline.v (request line), Header.v (header fields),
    AcceptEnc.v, AcceptMime.v, AcceptCL.v (Accept headers), Route.v, Mount.v and Cache.v. *)
From Verif Require Import Base CStr CNum Names Buffer Reqline Header.
From Verif Require AcceptEnc AcceptMime AcceptCL Route Mount Cache.
Local Open Scope nat_scope.

(** enum fly_request_fase, request.h:54-60, as stored in the event. *)
Inductive phase := PInit | PLine | PHeader | PBody | PResponse.

(** struct fly_request, request.h:70-120, and the buffer of its connection.
    [q_sl] receive_status_line, [q_hd] receive_header, [q_disc] discard_body, [q_dlen] discard_length (its size_t range is
    not modelled: it counts received bytes), [q_line] request_line (NULL until it has been parsed; the code stores a line
    that failed to parse as well, but then the request is answered at once), [q_hdr] header, [q_body] the body. *)
Record req := mkReq { q_phase : phase; q_sl : bool; q_hd : bool; q_disc : bool; q_dlen : Z;
                      q_line : option reqline; q_hdr : hci; q_body : option (list N); q_buf : buffer }.
Definition set_phase (q : req) (p : phase) : req := mkReq p (q_sl q) (q_hd q) (q_disc q) (q_dlen q) (q_line q) (q_hdr q) (q_body q) (q_buf q).
Definition set_flags (q : req) (sl hd : bool) : req := mkReq (q_phase q) sl hd (q_disc q) (q_dlen q) (q_line q) (q_hdr q) (q_body q) (q_buf q).
Definition set_buf (q : req) (b : buffer) : req := mkReq (q_phase q) (q_sl q) (q_hd q) (q_disc q) (q_dlen q) (q_line q) (q_hdr q) (q_body q) b.
Definition set_line (q : req) (l : option reqline) : req := mkReq (q_phase q) (q_sl q) (q_hd q) (q_disc q) (q_dlen q) l (q_hdr q) (q_body q) (q_buf q).
Definition set_hdr (q : req) (h : hci) : req := mkReq (q_phase q) (q_sl q) (q_hd q) (q_disc q) (q_dlen q) (q_line q) h (q_body q) (q_buf q).
Definition set_body (q : req) (d : list N) : req := mkReq (q_phase q) (q_sl q) (q_hd q) (q_disc q) (q_dlen q) (q_line q) (q_hdr q) (Some d) (q_buf q).
Definition set_disc (q : req) (d : bool) : req := mkReq (q_phase q) (q_sl q) (q_hd q) d (q_dlen q) (q_line q) (q_hdr q) (q_body q) (q_buf q).
Definition add_dlen (q : req) (n : nat) : req := mkReq (q_phase q) (q_sl q) (q_hd q) (q_disc q) (q_dlen q + Z.of_nat n)%Z (q_line q) (q_hdr q) (q_body q) (q_buf q).

(** fly_request_init, request.c:17-51, with the new buffer of a connection, connect.c:46-53 and fly_connect_buffer_refresh
    (connect.c), called when a connection is accepted and again after each response that keeps the connection
    (response.c:265-303).  [None]: fly_buffer_init failed. *)
Definition init_req (junk : list N) (max per : nat) : option req :=
  match buf_init (fresh per junk) 1 (connect_chain_max max per) per with
  | Some b => Some (mkReq PInit false false false 0 None header_init None b)
  | None => None
  end.

(** What one recv call finds: up to [S k] bytes have arrived; [junk] is the memory of a block allocated meanwhile. *)
Definition offer := (nat * list N)%type.
(** FLY_REQUEST_RECEIVE_*, request.h. *)
Inductive rstat := RSuccess | REnd | RBlock | ROver.

(** __c of request.c:1110-1114: the last block is used again from its start; the buffer's use_len is left alone. *)
Definition reset_last (b : buffer) : buffer :=
  mkBuffer (map_last (fun c => mkChain (c_data c) 0 (c_len c)) (b_chains b)) (b_count b) (b_max b) (b_per b) (b_use_len b).
Definition is_some {A} (o : option A) : bool := match o with Some _ => true | None => false end.

(** fly_request_receive, request.c:1002-1150, without TLS; EINTR (the call is repeated) and other errors of recv are not
    modelled.  [src]: the bytes the peer has sent or will send that have not been delivered; [fin]: the peer closes its
    side behind them.  A call without an offer finds nothing (EAGAIN).  [got] is "total > 0". The scans for the end of
    the line and of the header run over the written memory before the block's counters are advanced (1082-1108). *)
Fixpoint receive (q : req) (src : list N) (fin : bool) (os : list offer) (got : bool) : outcome (rstat * req * list N * list offer) :=
  match os with
  | [] => Ok (if negb (q_disc q) && got then RSuccess else RBlock, q, src, [])
  | (k, junk) :: os' =>
    match src with
    | [] => if fin then Ok (REnd, q, src, os')
            else Ok (if negb (q_disc q) && got then RSuccess else RBlock, q, src, os')
    | _ =>
      let d := firstn (Nat.min (S k) (lunuse_len (q_buf q))) src in
      let src' := skipn (length d) src in
      match d with
      | [] => Ok (REnd, q, src, os')                          (* recv with length 0 returns 0 *)
      | _ =>
        let b1 := write_last (q_buf q) d in
        obind (if q_sl q then Ok false else obind (strstr_after b1 [13; 10]%N) (fun r => Ok (is_some r))) (fun sl =>
        obind (if q_hd q then Ok false else obind (strstr_after b1 [13; 10; 13; 10]%N) (fun r => Ok (is_some r))) (fun hd =>
        let q1 := set_flags q (q_sl q || sl) (q_hd q || hd) in
        if q_disc q then receive (add_dlen (set_buf q1 (reset_last b1)) (length d)) src' fin os' true
        else
          obind (update_buffer (fresh (b_per b1) junk) b1 (length d)) (fun u =>
          match u with
          | UpdLimit b2 => Ok (ROver, set_buf q1 b2, src', os')
          | UpdSuccess b2 => if sl || hd then Ok (RSuccess, set_buf q1 b2, src', os')
                             else receive (set_buf q1 b2) src' fin os' true
          end)))
      end
    end
  end.

(** ** Looking the Accept headers up *)
(** __fly_accept_encoding, encode.c:754-776: any name that begins with "accept-encoding". *)
Fixpoint find_ae (l : list hdr) : outcome (option (list N)) :=
  match l with
  | [] => Ok None
  | h :: t =>
    match h_name h, h_value h with
    | Some (x :: n), Some (y :: v) => if strncmp_eqb 15 (cstr (x :: n)) (bs "accept-encoding") then Ok (Some (y :: v)) else find_ae t
    | _, _ => find_ae t
    end
  end.
(** __fly_accept_mime, mime.c:141-160. *)
Fixpoint find_am (l : list hdr) : outcome (option (list N)) :=
  match l with
  | [] => Ok None
  | h :: t =>
    match h_name h, h_value h with
    | Some (x :: n), Some v => if strcmp_eqb (cstr (x :: n)) (bs "Accept") || strcmp_eqb (cstr (x :: n)) (bs "accept") then Ok (Some v) else find_am t
    | _, _ => find_am t
    end
  end.
(** __fly_accept_charset, charset.c:29-48. *)
Fixpoint find_ac (l : list hdr) : outcome (option (list N)) :=
  match l with
  | [] => Ok None
  | h :: t =>
    match h_name h, h_value h with
    | Some (x :: n), Some (y :: v) => if strcmp_eqb (cstr (x :: n)) (bs "accept-charset") then Ok (Some (y :: v)) else find_ac t
    | _, _ => find_ac t
    end
  end.
(** __fly_accept_lang, lang.c:28-46; the value may be NULL, which the parser then reads. *)
Fixpoint find_al (l : list hdr) : outcome (option (list N)) :=
  match l with
  | [] => Ok None
  | h :: t =>
    match h_name h with
    | Some (x :: n) => if strcmp_eqb (cstr (x :: n)) (bs "accept-language")
                       then match h_value h with Some v => Ok (Some v) | None => UB NullDeref end else find_al t
    | _ => find_al t
    end
  end.
Definition lookup (find : list hdr -> outcome (option (list N))) (ci : hci) : outcome (option (list N)) :=
  if hc_count ci =? 0 then Ok None else find (hc_chain ci).

(** ** The end of the request *)
(** What the handler does with a request: wait for more bytes, close the connection, give up ("return -1": the event
    loop drops the event), answer with a status code, call the handler of a route, send a file.  [VBadLine] is the 400
    response built on a new request (fly_400_event_norequest), [VDecode]: the body is to be decoded (not modelled). *)
Inductive verdict :=
| VWait (q : req)
| VClosed
| VError
| VBadLine
| VStatus (n : N) (q : req)
| VHandler (r : Route.route) (params : list (Route.param * list N)) (q : req)
| VFile (f : Mount.pfile) (q : req)
| VDecode.

(** The server: max_request_content_length, the routes, the mounted files with their validators, and [e_null]: the
    handlers that return NULL.  [e_after]: the bytes of the request line behind the path. *)
Record env := mkEnv { e_max : nat; e_regs : list Route.route; e_cfg : Mount.mcfg; e_mnt : Mount.mnt;
                      e_etag : Mount.pfile -> list N; e_lm : Mount.pfile -> list N; e_instant : list N -> option Z;
                      e_null : nat -> bool; e_after : list N }.

(** The response functions fly_100_response ... fly_500_response, fly_304_response and fly_respf (response.c:806-1380): each
    evaluates is_fly_request_http_v2, that is req->request_line->version->type, and follows req->stream, which
    fly_request_init does not set, when the request line said HTTP/2. *)
Definition respond (q : req) (v : verdict) : outcome verdict :=
  match q_line q with
  | None => UB NullDeref
  | Some l => match l_version l with
              | Some V1_1 => Ok v
              | Some V2 => UB OutOfBounds
              | None => UB NullDeref
              end
  end.
(** request.c:1560-1563: the 413 response sets a request line and its version first. *)
Definition respond_413 (q : req) : outcome verdict :=
  Ok (VStatus 413 (set_line q (Some (match q_line q with
    | Some l => mkReqline (l_method l) (l_uri l) (l_query l) (Some V1_1)
    | None => mkReqline None [] None (Some V1_1)
    end)))).

(** __fase_end_of_parse, request.c:1491-1547 and response_path, 1599-1607.  The multipart parser (request.c:1488) is not
    modelled. *)
Definition end_of_parse (e : env) (q0 : req) : outcome verdict :=
  let q := set_phase q0 PResponse in
  match q_line q with
  | None => UB NullDeref
  | Some l =>
    match l_method l with
    | None => UB NullDeref
    | Some m =>
      let u := l_uri l ++ e_after e in
      let n := length (l_uri l) in
      obind (Route.found_route (e_regs e) u n m) (fun r =>
      match r with
      | None =>
        obind (Mount.static_content (e_cfg e) (e_mnt e) m u n) (fun s =>
        match s with
        | Mount.S405 => respond q (VStatus 405 q)
        | Mount.S404 => respond q (VStatus 404 q)
        | Mount.SFile f =>
          obind (Cache.not_modified (e_instant e) (q_hdr q) (e_etag e f) (e_lm e f)) (fun same =>
            if same then respond q (VStatus 304 q) else respond q (VFile f q))
        end)
      | Some rt =>
        obind (Route.capture rt u n) (fun ps =>
        match ps with
        | None => respond q (VStatus 500 q)
        | Some ps => if e_null e (Route.rt_handler rt) then respond q (VStatus 500 q)
                     else respond q (VHandler rt ps q)
        end)
      end)
    end
  end.

(** The conversion of fly_content_length's long to size_t, request.c:1396-1397. *)
Definition size_t (z : Z) : Z := (z mod 2 ^ 64)%Z.

(** __fly_discard_body, request.c:956-994.  In discard mode fly_request_receive only returns when the socket is empty or at
    the end of the stream, so that one call decides. *)
Definition discard (q : req) (cl : Z) (src : list N) (fin : bool) (os : list offer) : outcome (verdict * list N) :=
  let q := set_disc q true in
  if (cl <=? q_dlen q)%Z then obind (respond_413 q) (fun v => Ok (v, src))
  else obind (receive q src fin os false) (fun r =>
    let '(st, q', src', _) := r in
    match st with
    | REnd => Ok (VClosed, src')
    | _ => if (q_dlen q' <? cl)%Z then Ok (VWait q', src') else obind (respond_413 q') (fun v => Ok (v, src'))
    end).

(** __fase_body, request.c:1388-1489. *)
Definition body_phase (e : env) (q0 : req) (src : list N) (fin : bool) (os : list offer) : outcome (verdict * list N) :=
  let q := set_phase q0 PBody in
  let done o := obind o (fun v => Ok (v, src)) in
  obind (content_length (q_hdr q)) (fun z =>
  let cl := size_t z in
  let over := (Z.of_nat (e_max e) <? cl)%Z in
  obind (check_expect_100 (q_hdr q)) (fun ex =>
  if ex then done (respond q (VStatus (if over then 417 else 100)%N q))
  else if over then discard q cl src fin os
  else if (b_use_len (q_buf q) =? 0) || (Z.of_nat (b_use_len (q_buf q)) <? cl)%Z then Ok (VWait q, src)
  else
    obind (content_encoding (q_hdr q)) (fun ce =>
    match ce with
    | Some v => obind (AcceptEnc.supported_content_encoding v) (fun _ => Ok (VDecode, src))
    | None =>
      match b_chains (q_buf q) with
      | [] => UB NullDeref
      | c :: _ =>
        obind (memcpy (q_buf q) (0, c_use c) 0 (Z.to_nat cl)) (fun d =>
        obind (release (q_buf q) (Z.to_nat cl)) (fun b =>
        done (end_of_parse e (set_buf (set_body q d) b))))
      end
    end))).

(** The four Accept checks, request.c:1319-1376: [Some (Some n)] is a status, [Some None] gives up. *)
Definition accept_phase (ci : hci) : outcome (option (option N)) :=
  obind (lookup find_ae ci) (fun v =>
  obind (AcceptEnc.accept_encoding v) (fun r =>
  match r with
  | AcceptEnc.Enc400 => Ok (Some (Some 400%N))
  | AcceptEnc.Enc406 => Ok (Some (Some 406%N))
  | AcceptEnc.EncOk _ _ =>
    obind (lookup find_am ci) (fun v =>
    obind (AcceptMime.fly_accept_mime v) (fun r =>
    match r with
    | AcceptMime.Am400 => Ok (Some (Some 400%N))
    | AcceptMime.AmError => Ok (Some None)
    | AcceptMime.Am406 => Ok (Some (Some 406%N))
    | AcceptMime.AmOk _ =>
      obind (lookup find_ac ci) (fun v =>
      obind (AcceptCL.fly_accept_charset v) (fun r =>
      match r with
      | AcceptCL.Cl400 => Ok (Some (Some 400%N))
      | AcceptCL.Cl406 => Ok (Some (Some 406%N))
      | AcceptCL.ClOk _ =>
        obind (lookup find_al ci) (fun v =>
        obind (AcceptCL.fly_accept_language v) (fun r =>
        match r with
        | AcceptCL.Cl400 => Ok (Some (Some 400%N))
        | AcceptCL.Cl406 => Ok (Some (Some 406%N))
        | AcceptCL.ClOk _ => Ok None
        end))
      end))
    end))
  end)).

(** __fase_header, request.c:1284-1386.  The buffer is handed to the parser when the end of the header has been seen and
    bytes are unread (fly_get_header_lines_buf, request.c:96-100). *)
Definition header_phase (e : env) (q0 : req) (src : list N) (fin : bool) (os : list offer) : outcome (verdict * list N) :=
  let q := set_phase q0 PHeader in
  let done o := obind o (fun v => Ok (v, src)) in
  if negb (q_hd q) then Ok (VWait q, src)
  else if b_use_len (q_buf q) =? 0 then Ok (VWait q, src)
  else obind (reqheader_operation (q_buf q)) (fun r =>
    match r with
    | HError ci b => done (let q := set_buf (set_hdr q ci) b in respond q (VStatus 400 q))
    | HItm ci b => Ok (VWait (set_buf (set_hdr q ci) b), src)
    | HSuccess ci b =>
      let q := set_buf (set_hdr q ci) b in
      obind (accept_phase ci) (fun a =>
      match a with
      | Some (Some n) => done (respond q (VStatus n q))
      | Some None => Ok (VError, src)
      | None =>
        obind (content_length ci) (fun z =>
        if (z =? 0)%Z then done (end_of_parse e q)
        else body_phase e (add_dlen q (b_use_len b)) src fin os)
      end)
    end).

(** __fase_request_line, request.c:1258-1282. *)
Definition line_phase (e : env) (q0 : req) (src : list N) (fin : bool) (os : list offer) : outcome (verdict * list N) :=
  let q := set_phase q0 PLine in
  obind (request_operation (q_buf q)) (fun r =>
  match r with
  | NotReady => Ok (VWait q, src)
  | E400 => Ok (VBadLine, src)
  | E414 => obind (respond q (VStatus 414 q)) (fun v => Ok (v, src))
  | Accepted l b => header_phase e (set_buf (set_line q (Some l)) b) src fin os
  end).

(** fly_request_event_handler, request.c:1193-1640: one call, when the socket is readable. *)
Definition turn (e : env) (q : req) (src : list N) (fin : bool) (os : list offer) : outcome (verdict * list N) :=
  if q_disc q then body_phase e q src fin os
  else obind (receive q src fin os false) (fun r =>
    let '(st, q', src', os') := r in
    match st with
    | REnd => Ok (VClosed, src')
    | RBlock => Ok (VWait q', src')
    | ROver => obind (respond_413 q') (fun v => Ok (v, src'))
    | RSuccess =>
      match q_phase q' with
      | PHeader => header_phase e q' src' fin os'
      | PBody => body_phase e q' src' fin os'
      | _ => line_phase e q' src' fin os'
      end
    end).

Definition waiting (v : verdict) : option req := match v with VWait q => Some q | _ => None end.
(** The event loop calls the handler until it has decided. *)
Fixpoint serve (e : env) (q : req) (src : list N) (fin : bool) (ts : list (list offer)) {struct ts} : outcome (verdict * list N * list (list offer)) :=
  match ts with
  | [] => Ok (VWait q, src, [])
  | t :: ts' =>
    match turn e q src fin t with
    | UB u => UB u
    | Ok (v, src') =>
      match waiting v with
      | Some q' => serve e q' src' fin ts'
      | None => Ok (v, src', ts')
      end
    end
  end.

(** fly_after_response, response.c:494-525, for the responses the verdicts stand for: 413 and the 400 built without a
    request say "Connection: close", the others keep the connection (response.c:806-1380); the response of a handler
    keeps it unless the handler added a Connection header (here: it did not).  A kept connection gets a new buffer and a
    new request (response.c:265-303); bytes already read into the old buffer are gone.  [per]: the block size. *)
Definition keeps (v : verdict) : bool :=
  match v with
  | VStatus n _ => negb (n =? 413)%N
  | VHandler _ _ _ | VFile _ _ => true
  | VWait _ | VClosed | VError | VBadLine | VDecode => false
  end.
(** [n] bounds the number of requests of the connection that are looked at. *)
Fixpoint connection (e : env) (junk : list N) (per : nat) (n : nat) (src : list N) (fin : bool) (ts : list (list offer)) {struct n} : outcome (list verdict) :=
  match n with
  | 0 => Ok []
  | S n' =>
    match init_req junk (e_max e) per with
    | None => UB NullDeref
    | Some q =>
      match serve e q src fin ts with
      | UB u => UB u
      | Ok (v, src', ts') =>
        if keeps v then obind (connection e junk per n' src' fin ts') (fun vs => Ok (v :: vs)) else Ok [v]
      end
    end
  end.
