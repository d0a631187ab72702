(** Model of an HTTP/1.1 connection as a whole, without TLS: the request handler (ReqFlow.v), the application (PyBridge.v) and the response
    path (Response.v) put together as src/request.c:1193-1640, src/response.c:265-303 and 494-508 do it. *)
From Verif Require Import Base CStr Names Status Header Buffer Reqline Encode ReqFlow Response PyBridge.
From Verif Require AcceptEnc Route Mount.

(** A server: the environment of the request handler ([e_after] is replaced per request), the environment of the responses
    ([v_accept] and [v_allow] are replaced per request), the block size and the fresh memory of the receive buffer, and for each
    registered file what is sent of it.
    [s_app]: the application, a function of its state (of type [W]), the route, the captured values, the request line, the
    header and the body (the dictionary of pyserver.c is made of these).  [s_defaults]: the default headers of a route. *)
Record site (W : Type) := mkSite {
  s_env : env; s_renv : renv; s_per : nat; s_junk : list N; s_file : Mount.pfile -> rfile;
  s_debug : bool; s_terr : list N; s_defaults : Route.route -> list (list N * list N);
  s_app : W -> Route.route -> list (Route.param * list N) -> reqline -> hci -> option (list N) -> ran * W }.
Arguments mkSite {W}. Arguments s_env {W}. Arguments s_renv {W}. Arguments s_per {W}. Arguments s_junk {W}. Arguments s_file {W}.
Arguments s_debug {W}. Arguments s_terr {W}. Arguments s_defaults {W}. Arguments s_app {W}.

(** The memory behind the path is that of the request line just received. *)
Definition with_after (e : env) (after : list N) : env :=
  mkEnv (e_max e) (e_regs e) (e_cfg e) (e_mnt e) (e_etag e) (e_lm e) (e_instant e) (e_null e) after.
Definition with_request (v : renv) (acc : option (list (AcceptEnc.coding * Z) * AcceptEnc.decision)) (allow : list N) : renv :=
  mkRenv (v_threshold v) acc (v_codec v) (v_max v) (v_junk v) (v_default v) (v_server v) (v_date v) allow.
(** req->encoding, as fly_accept_encoding left it (encode.c:700-752); it is not looked at in the answers to requests it refused. *)
Definition negotiated (ci : hci) : outcome (option (list (AcceptEnc.coding * Z) * AcceptEnc.decision)) :=
  obind (lookup find_ae ci) (fun v => obind (AcceptEnc.accept_encoding v) (fun r =>
    Ok (match r with AcceptEnc.EncOk l d => Some (l, d) | _ => None end))).
Definition renv_for {W} (s : site W) (after : list N) (q : req) : outcome renv :=
  obind (negotiated (q_hdr q)) (fun acc =>
  Ok (with_request (s_renv s) acc (match q_line q with Some l => Route.allow_value (e_regs (s_env s)) (l_uri l ++ after) | None => [] end))).

(** The response functions the request handler calls (request.c:1258-1640). *)
Definition code_for (n : N) : option stcode :=
  match n with
  | 100 => Some S100 | 304 => Some S304 | 400 => Some S400 | 404 => Some S404 | 405 => Some S405 | 406 => Some S406
  | 413 => Some S413 | 414 => Some S414 | 417 => Some S417 | 500 => Some S500 | _ => None
  end%N.
(** [None]: there is no response.  The entity tag of a 304 response is that of the file of the request. *)
Definition reply {W} (s : site W) (w : W) (after : list N) (v : verdict) : option (outcome (renv * response) * W) :=
  let mk (o : outcome renv) (f : renv -> outcome response) := obind o (fun v => obind (f v) (fun r => Ok (v, r))) in
  match v with
  | VWait _ | VClosed | VError | VDecode => None
  | VBadLine => Some (mk (Ok (with_request (s_renv s) None [])) norequest_response, w)
  | VStatus n q =>
    Some (match code_for n with
          | None => UB OutOfBounds
          | Some c =>
            mk (renv_for s after q) (fun v =>
            obind (match c, q_line q with
                   | S304, Some l =>
                     obind (Mount.static_content (e_cfg (s_env s)) (e_mnt (s_env s)) GET (l_uri l ++ after) (length (l_uri l))) (fun o =>
                     Ok (match o with Mount.SFile f => e_etag (s_env s) f | _ => [] end))
                   | _, _ => Ok []
                   end) (status_response v c))
          end, w)
  | VFile f q => Some (mk (renv_for s after q) (fun v => file_response v (s_file s f)), w)
  | VHandler rt ps q =>
    match q_line q with
    | None => Some (UB NullDeref, w)
    | Some l =>
      let '(x, w') := s_app s w rt ps l (q_hdr q) (q_body q) in
      let head := match l_method l with Some m => method_eqb m HEAD | None => false end in
      Some (mk (renv_for s after q) (fun v => answer v head (s_debug s) (s_terr s) (s_defaults s rt) x), w')
    end
  end.

(** One exchange as the client makes it: what it sends, the memory behind the path, the turns of the event loop while the request is
    read and the results of the writes of the response. *)
Record round := mkRound { rd_sent : list N; rd_after : list N; rd_turns : list (list offer); rd_ios : list io }.
(** How the connection stands: ready for another request, waiting for the rest of a request, closed, the response not
    written, dropped by the event loop. *)
Inductive standing := Open | Reading | Closed | Writing | Dropped.
(** A kept connection starts over with a new request and a new buffer (__fly_response_reuse_handler, response.c:265-303).  [left]:
    what the socket holds of earlier exchanges.  The result: the bytes the client gets for each request. *)
Fixpoint converse {W} (s : site W) (w : W) (left : list N) (rs : list round) : outcome (list (list N) * standing * W) :=
  match rs with
  | [] => Ok ([], Open, w)
  | r :: rs' =>
    match init_req (s_junk s) (e_max (s_env s)) (s_per s) with
    | None => UB NullDeref
    | Some q =>
      match serve (with_after (s_env s) (rd_after r)) q (left ++ rd_sent r) false (rd_turns r) with
      | UB u => UB u
      | Ok (v, src, _) =>
        match reply s w (rd_after r) v with
        | None => Ok ([], match v with VWait _ => Reading | VClosed => Closed | _ => Dropped end, w)
        | Some (UB u, _) => UB u
        | Some (Ok (rv, res), w') =>
          match Response.respond rv res (rd_ios r) with
          | UB u => UB u
          | Ok (out, FKeep) =>
            match converse s w' src rs' with UB u => UB u | Ok (outs, e, w'') => Ok (out :: outs, e, w'') end
          | Ok (out, FClose) => Ok ([out], Closed, w')
          | Ok (out, FError) => Ok ([out], Dropped, w')
          | Ok (out, FWait) => Ok ([out], Writing, w')
          end
        end
      end
    end
  end.
