(** From a new connection to the HTTP handlers: src/connect.c, the TLS handshake in src/ssl.c, and the part of the event
    manager (src/event.c) that runs handlers, removes events and serves timeouts, for one listening socket of a worker.

    Not modelled: failures of epoll_ctl other than for an unknown descriptor, of memory allocation and of the logs; the log
    events; signals; what the HTTP handlers do, of which only the effect on the event is given ([serve]; see Server.v and
    the modules on HTTP/2).  Addresses of events are numbers that are never used twice, and the connection made for an event
    has the same number.  Times are seconds, as the timers compare them (EventTime.v). *)
From Verif Require Import Base Names.
Local Open Scope nat_scope.

(** ** What the system answers *)
(** accept4, connect.c:205; [named] is the success of getnameinfo in fly_connect_init (95-110).  [AccFail]: any error but
    EAGAIN. *)
Inductive acc := Accepted (fd : nat) (named : bool) | AccBlock | AccFail.
(** recv with MSG_PEEK for one byte, connect.c:280-291. *)
Inductive peek := PeekByte (b : N) | PeekEof | PeekBlock | PeekFail.
(** SSL_accept, ssl.c:189-226: finished with the protocol selected ([[]] for none), wants to read, wants to write, end of
    the connection (SSL_ERROR_SYSCALL with errno 0 or EPIPE), any other failure. *)
Inductive hs := HsDone (alpn : list N) | HsRead | HsWrite | HsEof | HsFail.
(** epoll's EPOLLIN, EPOLLOUT. *)
Inductive row := Rd | Wr.
(** What an HTTP handler does with its event: register it again with the same deadline (FLY_INHERIT), register it for the
    next request (response.c:265-303), release the connection and set FLY_CLOSE_EV. *)
Inductive serve := Keep (r : row) | Renew | Finish.
(** The answers to the calls one run of a handler may make. *)
Record answers := mkAnswers { a_accept : acc; a_peek : peek; a_tls : hs; a_serve : serve }.

(** ** State *)
(** The handlers of an event: fly_accept_listen_socket_handler, fly_recognize_protocol_of_connected,
    __fly_ssl_accept_blocking_handler, the handlers of HTTP/1.1 and HTTP/2, fly_response_event for a refused client. *)
Inductive handler := HListen | HPeek | HTls | HHttp (v : version) | HRefuse.
(** The handlers of a timeout: fly_listen_socket_end_handler, fly_accept_end_timeout_handler, and those of requests,
    responses (request.c:1168-1186, response.c:225-244) and HTTP/2 (v2.c:1437-1471), which release the connection. *)
Inductive xhandler := XListenEnd | XAcceptEnd | XServe.
(** fail_close: none, fly_fail_recognize_protocol, those of requests and responses. *)
Inductive failclose := FNone | FRecognize | FServe.
(** The member flag, event.h:262-275, as far as it is set by the modelled code. *)
Inductive eflag := FZero | FPersistent | FModify | FClose.
(** struct fly_event, event.h:103-190.  The data pointers are connections, or objects that hold the connection. *)
Record event := mkEvent {
  e_fd : nat; e_row : row; e_flag : eflag; e_infinite : bool; e_deadline : Z; e_expired : bool;
  e_handler : handler; e_xhandler : option xhandler; e_fail : failclose; e_term : bool;
  e_data : option nat; e_xdata : option nat; e_enddata : option nat }.
(** struct fly_connect, connect.h:18-43: the descriptor, FLY_SSL_CONNECT, whether the SSL object is allocated, the protocol. *)
Record conn := mkConn { c_fd : nat; c_tls : bool; c_ssl : bool; c_version : option version }.
(** The worker: FLY_SOCKINFO_SSL, request_timeout, the queue "monitorable" with the events, the interest list of epoll
    (descriptor, the event's address, what to wait for), the open sockets, the connections. *)
Record world := mkWorld {
  w_secure : bool; w_timeout : Z;
  w_events : list (nat * event); w_epoll : list (nat * (nat * row)); w_open : list nat;
  w_conns : list (nat * conn); w_next : nat }.

Fixpoint assoc {A} (k : nat) (l : list (nat * A)) : option A :=
  match l with [] => None | (x, v) :: t => if x =? k then Some v else assoc k t end.
Definition drop {A} (k : nat) (l : list (nat * A)) : list (nat * A) := filter (fun p => negb (fst p =? k)) l.
Definition change {A} (k : nat) (f : A -> A) (l : list (nat * A)) : list (nat * A) :=
  map (fun p => (fst p, if fst p =? k then f (snd p) else snd p)) l.
Definition with_events (w : world) (l : list (nat * event)) : world :=
  mkWorld (w_secure w) (w_timeout w) l (w_epoll w) (w_open w) (w_conns w) (w_next w).
Definition with_epoll (w : world) (l : list (nat * (nat * row))) : world :=
  mkWorld (w_secure w) (w_timeout w) (w_events w) l (w_open w) (w_conns w) (w_next w).
Definition with_conns (w : world) (l : list (nat * conn)) : world :=
  mkWorld (w_secure w) (w_timeout w) (w_events w) (w_epoll w) (w_open w) l (w_next w).
(** An access through the address of an event. *)
Definition event_at (w : world) (id : nat) : outcome event :=
  match assoc id (w_events w) with Some e => Ok e | None => UB UseAfterFree end.
Definition set_event (w : world) (id : nat) (e : event) : world := with_events w (change id (fun _ => e) (w_events w)).

(** close(2): the kernel forgets the descriptor in the interest list. *)
Definition sys_close (w : world) (fd : nat) : world :=
  mkWorld (w_secure w) (w_timeout w) (w_events w) (drop fd (w_epoll w)) (filter (fun x => negb (x =? fd)) (w_open w)) (w_conns w) (w_next w).
(** SSL_free for a connection: fly_ssl_accept_free (ssl.c:124-127), fly_ssl_connected_release (129-132). *)
Definition ssl_free (w : world) (c : nat) : outcome world :=
  match assoc c (w_conns w) with
  | None => UB UseAfterFree
  | Some k => if c_ssl k then Ok (with_conns w (change c (fun k => mkConn (c_fd k) (c_tls k) false (c_version k)) (w_conns w))) else UB UseAfterFree
  end.
(** fly_connect_release, connect.c:77-92, with fly_socket_close, server.c:202-210. *)
Definition connect_release (w : world) (c : option nat) : outcome world :=
  match c with
  | None => UB NullDeref
  | Some c =>
    match assoc c (w_conns w) with
    | None => UB UseAfterFree
    | Some k => obind (if c_tls k then ssl_free w c else Ok w) (fun w1 =>
        let w2 := sys_close w1 (c_fd k) in
        Ok (with_conns w2 (drop c (w_conns w2))))
    end
  end.

(** fly_event_register, event.c:300-474, for FLY_MODIFY: the deadline is set again unless FLY_INHERIT is set; EPOLL_CTL_MOD.
    The result says whether epoll knew the descriptor; if not, an error is added to the event. *)
Definition register_again (w : world) (id : nat) (e : event) (r : row) (deadline : option Z) : world * bool :=
  let e' := mkEvent (e_fd e) r FModify (e_infinite e) (match deadline with Some d => d | None => e_deadline e end) (e_expired e)
              (e_handler e) (e_xhandler e) (e_fail e) (e_term e) (e_data e) (e_xdata e) (e_enddata e) in
  let w1 := set_event w id e' in
  match assoc (e_fd e) (w_epoll w1) with
  | Some _ => (with_epoll w1 (change (e_fd e) (fun _ => (id, r)) (w_epoll w1)), true)
  | None => (w1, false)
  end.
(** The same for a new event. *)
Definition register_new (w : world) (e : event) : world :=
  mkWorld (w_secure w) (w_timeout w) (w_events w ++ [(w_next w, e)]) (w_epoll w ++ [(e_fd e, (w_next w, e_row e))]) (w_open w) (w_conns w) (S (w_next w)).
(** fly_event_unregister, event.c:476-557: EPOLL_CTL_DEL unless FLY_CLOSE_EV; the event is freed. *)
Definition unregister (w : world) (id : nat) : outcome world :=
  obind (event_at w id) (fun e =>
    let w1 := with_events w (drop id (w_events w)) in
    Ok (match e_flag e with FClose => w1 | _ => with_epoll w1 (drop (e_fd e) (w_epoll w1)) end)).

(** ** Handlers *)
(** What a handler returns (0 or -1) and whether it has added an error of level FLY_ERR_ERR to the event. *)
Record result := mkResult { r_world : world; r_ok : bool; r_err : bool }.
Definition done (w : world) : outcome result := Ok (mkResult w true false).
Definition again (p : world * bool) : outcome result := Ok (mkResult (fst p) true (negb (snd p))).
Definition set_flag (e : event) (f : eflag) : event :=
  mkEvent (e_fd e) (e_row e) f (e_infinite e) (e_deadline e) (e_expired e) (e_handler e) (e_xhandler e) (e_fail e) (e_term e) (e_data e) (e_xdata e) (e_enddata e).
Definition set_handlers (e : event) (h : handler) (x : xhandler) (fc : failclose) (data xdata : option nat) : event :=
  mkEvent (e_fd e) (e_row e) (e_flag e) (e_infinite e) (e_deadline e) (e_expired e) h (Some x) fc (e_term e) data xdata (e_enddata e).
Definition set_expired (e : event) (b : bool) : event :=
  mkEvent (e_fd e) (e_row e) (e_flag e) (e_infinite e) (e_deadline e) b (e_handler e) (e_xhandler e) (e_fail e) (e_term e) (e_data e) (e_xdata e) (e_enddata e).

(** The HTTP handlers, by their effect; the data of the event leads to the connection. *)
Definition serve_http (now : Z) (w : world) (id : nat) (a : answers) : outcome result :=
  obind (event_at w id) (fun e =>
    match a_serve a with
    | Keep r => again (register_again w id e r None)
    | Renew => again (register_again w id (set_expired e false) Rd (Some (now + w_timeout w)%Z))
    | Finish => obind (connect_release w (e_data e)) (fun w1 => done (set_event w1 id (set_flag e FClose)))
    end).
(** fly_listen_connected, connect.c:115-166: the event goes to HTTP/1.1 or HTTP/2.  FLY_EVENT_END_HANDLER (event.h:221-225)
    sets event_data.  HTTP/2 leaves fail_close as it is. *)
Definition listen_connected (now : Z) (w : world) (id : nat) (a : answers) : outcome result :=
  obind (event_at w id) (fun e =>
    match e_data e with
    | None => UB NullDeref
    | Some c =>
      match assoc c (w_conns w) with
      | None => UB UseAfterFree
      | Some k =>
        match c_version k with
        | None => UB NullDeref
        | Some v =>
          let fc := match v with V1_1 => FServe | V2 => e_fail e end in
          serve_http now (set_event w id (set_flag (set_handlers e (HHttp v) XServe fc (Some c) (Some c)) FModify)) id a
        end
      end
    end).
(** __fly_ssl_accept_event_handler, ssl.c:180-280.  [c] is __ac->connect. *)
Definition ssl_accept (now : Z) (w : world) (id : nat) (c : nat) (a : answers) : outcome result :=
  obind (event_at w id) (fun e =>
    let blocking r := again (register_again w id (set_expired (set_handlers e HTls XAcceptEnd (e_fail e) (Some c) (e_xdata e)) false) r None) in
    match a_tls a with
    | HsRead => blocking Rd
    | HsWrite => blocking Wr
    | HsFail => obind (connect_release w (Some c)) (fun w1 => done (set_event w1 id (set_flag e FClose)))
    | HsEof => obind (ssl_free w c) (fun w1 => done (set_event w1 id (set_flag e FClose)))
    | HsDone alpn =>
      obind (match_version_alpn alpn) (fun v =>
        match v with
        | None => UB UseAfterFree   (* __ac is freed at 238 and used at 275 *)
        | Some v =>
          listen_connected now (with_conns (set_event w id (set_handlers e (e_handler e) XAcceptEnd (e_fail e) (Some c) (e_xdata e)))
                               (change c (fun k => mkConn (c_fd k) (c_tls k) (c_ssl k) (Some v)) (w_conns w))) id a
        end)
    end).
(** fly_accept_listen_socket_ssl_handler, ssl.c:65-122; SSL_new and SSL_set_fd succeed. *)
Definition start_tls (now : Z) (w : world) (id : nat) (c : nat) (a : answers) : outcome result :=
  obind (event_at w id) (fun e =>
    ssl_accept now (set_event (with_conns w (change c (fun k => mkConn (c_fd k) true true (c_version k)) (w_conns w)))
                     id (set_handlers e (e_handler e) XAcceptEnd (e_fail e) (Some c) (Some c))) id c a).
(** fly_400_event_norequest, response.c:920-966. *)
Definition refuse (w : world) (id : nat) (c : nat) : outcome result :=
  obind (event_at w id) (fun e =>
    again (register_again w id (set_handlers e HRefuse XServe FServe (Some c) (Some c)) Wr None)).
(** fly_recognize_protocol_of_connected, connect.c:262-341. *)
Definition recognize (now : Z) (w : world) (id : nat) (a : answers) : outcome result :=
  obind (event_at w id) (fun e =>
    match e_data e with
    | None => UB NullDeref
    | Some c =>
      let disconnect := obind (connect_release w (Some c)) (fun w1 => done (set_event w1 id (set_flag e FClose))) in
      match assoc c (w_conns w) with
      | None => UB UseAfterFree
      | Some _ =>
        match a_peek a with
        | PeekBlock => again (register_again w id e Rd None)
        | PeekEof => disconnect
        | PeekFail => Ok (mkResult w false true)
        | PeekByte b =>
          if (b =? 22)%N then (if w_secure w then start_tls now w id c a else disconnect)
          else if w_secure w then refuse w id c else listen_connected now w id a
        end
      end
    end).
(** fly_accept_listen_socket_handler, connect.c:185-260, with fly_connect_init, 14-61 (NULL when getnameinfo fails).
    "conn_sock == EMFILE" compares the descriptor, which is -1. *)
Definition accept_handler (now : Z) (w : world) (a : answers) : outcome result :=
  match a_accept a with
  | AccBlock => done w
  | AccFail => Ok (mkResult w false true)
  | Accepted fd named =>
    let c := if named then Some (w_next w) else None in
    let e := mkEvent fd Rd FZero false (now + w_timeout w)%Z false HPeek (Some XListenEnd) FRecognize false c c None in
    let k := mkConn fd false false default_version in
    let w1 := mkWorld (w_secure w) (w_timeout w) (w_events w) (w_epoll w) (w_open w ++ [fd])
                (if named then w_conns w ++ [(w_next w, k)] else w_conns w) (w_next w) in
    done (register_new w1 e)
  end.
(** e->handler(e). *)
Definition run_handler (now : Z) (w : world) (id : nat) (a : answers) : outcome result :=
  obind (event_at w id) (fun e =>
    match e_handler e with
    | HListen => accept_handler now w a
    | HPeek => recognize now w id a
    | HTls => match e_data e with None => UB NullDeref | Some c => ssl_accept now w id c a end
    | HHttp _ | HRefuse => serve_http now w id a
    end).

(** ** The event loop *)
(** The worker goes on, or exits with a status. *)
Inductive fate := Alive (w : world) | Gone (status : Z).
(** FLY_ERR_ERR, err.h:62-68. *)
Definition exit_err : Z := 12%Z.
(** __fly_event_handle_failure_log, event.c:954-979: the descriptor is closed unless the flag is FLY_CLOSE_EV. *)
Definition failure (w : world) (id : nat) : outcome world :=
  obind (event_at w id) (fun e =>
    match e_flag e with
    | FClose => Ok w
    | _ =>
      obind (match e_fail e with
             | FNone => Ok (sys_close w (e_fd e))
             | FRecognize => connect_release w (e_xdata e)
             | FServe => connect_release w (e_data e)
             end) (fun w1 => Ok (set_event w1 id (set_flag e FClose)))
    end).
(** fly_nodelete, event.h:270-275. *)
Definition nodelete (e : event) : bool := match e_flag e with FPersistent | FModify => true | _ => false end.
(** fly_event_handle, event.c:994-1088, and the end of the loop body of __fly_event_handle, 824-834: errors of level
    FLY_ERR_ERR and failures of an event with if_fail_term end the process. *)
Definition handle_event (now : Z) (w : world) (id : nat) (a : answers) : outcome fate :=
  obind (event_at w id) (fun _ =>
  obind (run_handler now w id a) (fun r =>
  obind (if r_ok r then Ok (r_world r) else failure (r_world r) id) (fun w1 =>
    if r_err r then Ok (Gone exit_err)
    else obind (event_at w1 id) (fun e =>
      if e_term e && negb (r_ok r) then Ok (Gone exit_err)
      else if nodelete e then Ok (Alive w1) else obind (unregister w1 id) (fun w2 => Ok (Alive w2)))))).
(** __fly_event_handle, event.c:789-843, for the addresses that epoll_wait has stored. *)
Fixpoint handle_all (now : Z) (l : list (nat * answers)) (w : world) : outcome fate :=
  match l with
  | [] => Ok (Alive w)
  | (id, a) :: t => obind (handle_event now w id a) (fun f => match f with Alive w' => handle_all now t w' | Gone s => Ok (Gone s) end)
  end.
(** __fly_update_event_timeout, event.c:714-734. *)
Definition mark (now : Z) (w : world) : world :=
  with_events w (map (fun p => (fst p, if negb (e_infinite (snd p)) && (e_deadline (snd p) <=? now)%Z then set_expired (snd p) true else snd p)) (w_events w)).
(** The handlers of a timeout.  fly_listen_socket_end_handler, connect.c:343-352, takes end_event_data. *)
Definition run_xhandler (w : world) (id : nat) (e : event) (x : xhandler) : outcome world :=
  match x with
  | XListenEnd => connect_release (set_event w id (set_flag e FClose)) (e_enddata e)
  | XAcceptEnd => match e_xdata e with
                  | None => UB NullDeref
                  | Some c => obind (ssl_free w c) (fun w1 => connect_release (set_event w1 id (set_flag e FClose)) (e_enddata e))
                  end
  | XServe => connect_release (set_event w id (set_flag e FClose)) (e_data e)
  end.
(** __fly_expired_event, event.c:624-645. *)
Fixpoint expire (ids : list nat) (w : world) : outcome world :=
  match ids with
  | [] => Ok w
  | id :: t =>
    obind (event_at w id) (fun e =>
      match e_expired e, e_xhandler e with
      | true, Some x => obind (run_xhandler w id e x) (fun w1 => obind (unregister w1 id) (expire t))
      | _, _ => expire t w
      end)
  end.
(** One iteration of fly_event_handler, event.c:845-907.  [ready] are the descriptors reported by epoll_wait with the answers
    their handlers will get; epoll reports no descriptor it does not know.  Only when nothing is reported are timeouts
    served. *)
Definition reported (w : world) (ready : list (nat * answers)) : list (nat * answers) :=
  flat_map (fun p => match assoc (fst p) (w_epoll w) with Some (id, _) => [(id, snd p)] | None => [] end) ready.
Definition turn (w : world) (now : Z) (ready : list (nat * answers)) : outcome fate :=
  let w1 := mark now w in
  match reported w1 ready with
  | [] => obind (expire (map fst (w_events w1)) w1) (fun w2 => Ok (Alive w2))
  | l => handle_all now l w1
  end.
Fixpoint turns (w : world) (l : list (Z * list (nat * answers))) : outcome fate :=
  match l with
  | [] => Ok (Alive w)
  | (now, ready) :: t => obind (turn w now ready) (fun f => match f with Alive w' => turns w' t | Gone s => Ok (Gone s) end)
  end.
(** The worker after fly_wainting_for_connection_event, worker.c:861-888. *)
Definition listening (secure : bool) (timeout : Z) (fd : nat) : world :=
  mkWorld secure timeout
    [(0, mkEvent fd Rd FPersistent true 0%Z false HListen None FNone true None None None)] [(fd, (0, Rd))] [fd] [] 1.
