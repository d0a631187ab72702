(** Model of the access log: the text of a record (src/response.c:306-409), the line of the request in it, and which
    records an HTTP/1.1 connection leaves (src/response.c:748-765).  How records get into the file: Log.v. *)
From Verif Require Import Base CStr CNum Names Status Header Buffer Reqline Encode ReqFlow Response PyBridge Server.
From Verif Require H2Req.

(** ** The text of a record *)
(** Memory of [size] bytes, all zero (log.c:564-566), after snprintf with the text [s]. *)
Definition printed (size : nat) (s : list N) : list N := firstn size (firstn (size - 1) s ++ repeat 0%N size).
(** The names of the two ends as getnameinfo wrote them (connect.c:96-104, server.c:104), without the terminating zero. *)
Record ends := mkEnds { n_peer : list N; n_peer_port : list N; n_host : list N; n_port : list N }.
(** The format of response.c:386. *)
Definition text (h : ends) (line : list N) (code : Z) (explain : list N) : list N :=
  n_peer h ++ bs ":" ++ n_peer_port h ++ bs " (" ++ line ++ bs ") --> " ++ n_host h ++ bs ":" ++ n_port h ++ bs " (" ++ dec_z code ++ bs " " ++ explain ++ bs ")" ++ [10%N].
(** FLY_RESPONSE_LOG_LENGTH, response.h:146; FLY_LOGMAX_SUFFIX, fly_maxlog_length and fly_maxlog_suffix_point, log.h:100-102. *)
Definition LOG_LENGTH := 300.
Definition SUFFIX : list N := bs "...".
Definition max_length (n : nat) : nat := n - length SUFFIX.
Definition suffix_at (n : nat) : nat := n - 1 - length SUFFIX.
Definition patch (mem : list N) (at_ : nat) (s : list N) : list N := firstn at_ mem ++ s ++ skipn (at_ + length s) mem.
(** __fly_response_logcontent, response.c:365-409, from the texts of its arguments: the contlen bytes of content that are
    written to the file (log.c:443-448).  contlen stays what it was when the text is too long.  The length of the text is
    assumed to be below INT_MAX. *)
Definition logcontent (h : ends) (line : list N) (t : stcode) : outcome (list N) :=
  match stcode_explain t with
  | None => UB NullDeref
  | Some ex =>
    let s := text h line (code_from_type t) ex in
    let mem := printed LOG_LENGTH s in
    Ok (if max_length LOG_LENGTH <=? length s then patch mem (suffix_at LOG_LENGTH) SUFFIX else firstn (length s) mem)
  end.

(** ** The line of the request *)
(** struct fly_request_line as far as it is logged: the copy of the line (request.c:661-667), the method, the memory from
    uri.ptr on with uri.len, the version. *)
Record rline := mkRline { g_raw : option (list N); g_method : option method; g_uri : option (list N * nat); g_version : option version }.
(** fly_log_request_line_modify, response.c:306-314: the line up to the first NUL, CR or LF. *)
Fixpoint until_eol (l : list N) : list N :=
  match l with
  | c :: t => if ((c =? 0) || (c =? 13) || (c =? 10))%N then [] else c :: until_eol t
  | [] => []
  end.
(** FLY_RESPONSE_NONSTRING, response.h:147. *)
Definition NONSTRING : list N := bs "?".
(** fly_log_request_line_hv2, response.c:316-363: the path is printed up to the next NUL, the size counts uri.len bytes. *)
Definition hv2_line (g : rline) : list N :=
  match g_method g, g_uri g, g_version g with
  | Some m, Some (mem, len), Some v =>
    match version_str v with
    | Some full =>
      let name := Route.method_name m in
      let size := length name + 1 + len + 1 + length full + 1 in
      firstn (size - 1) (name ++ bs " " ++ cstr mem ++ bs " " ++ full)
    | None => NONSTRING
    end
  | _, _, _ => NONSTRING
  end.
(** __FLY_RESPONSE_LOGCONTENT_REQUEST_LINE and its use, response.c:370-376 and 392. *)
Definition log_line (o : option rline) : outcome (list N) :=
  match o with
  | None => Ok NONSTRING
  | Some g =>
    match g_version g with
    | None => UB NullDeref
    | Some V2 => Ok (hv2_line g)
    | Some _ => Ok (match g_raw g with Some l => until_eol l | None => NONSTRING end)
    end
  end.

(** ** Which records a connection leaves *)
(** The response fly_response_event sends in the end (Response.v's [response_event] without the writing). *)
Fixpoint sent_response (fuel : nat) (v : renv) (r : response) {struct fuel} : outcome (response * ready * list N) :=
  match fuel with
  | 0 => UB Diverges
  | S f =>
    let other c := obind (status_response v c []) (fun r' => sent_response f v r') in
    obind (prepare v r) (fun p => match p with
      | P413 => other S413
      | P500 => other S500
      | PSend y => obind (layout v r y) (fun o => match o with
          | None => other S500
          | Some p => Ok (r, y, p)
          end)
      end)
  end.
(** response.c:730-750: a record is made when the last byte is written, and only then. *)
Definition record_of (h : ends) (v : renv) (r : response) (o : option rline) (ios : list io) : outcome (option (list N)) :=
  obind (sent_response 2 v r) (fun x => let '(r', _, p) := x in
  match write p 0 ios with
  | (_, Done, _) => obind (log_line o) (fun l => obind (logcontent h l (r_code r')) (fun c => Ok (Some c)))
  | _ => Ok None
  end).
(** The bytes up to the first CRLF with it: what __fly_request_operation copies (request.c:651-667; Buffer.v and ReqFlow.v
    model the search). *)
Fixpoint raw_line (l : list N) : list N :=
  match l with
  | 13%N :: 10%N :: _ => [13%N; 10%N]
  | c :: t => c :: raw_line t
  | [] => []
  end.
(** The request line the response's request has: request.c:650-667, response.c:938-940 for a line that was not understood. *)
Definition line_of (bytes after : list N) (v : verdict) : option rline :=
  let of q := match q_line q with
              | None => None
              | Some l => Some (mkRline (Some (raw_line bytes)) (l_method l) (Some (l_uri l ++ after, length (l_uri l))) (l_version l))
              end in
  match v with
  | VStatus _ q | VFile _ q | VHandler _ _ q => of q
  | VBadLine => Some (mkRline None None None (Some V1_1))
  | _ => None
  end.
(** The records of a connection: the run of Server.v's [converse], of which the records are kept instead of the bytes. *)
Fixpoint converse_log {W} (h : ends) (s : site W) (w : W) (left : list N) (rs : list round) : outcome (list (list N)) :=
  match rs with
  | [] => Ok []
  | r :: rs' =>
    match init_req (s_junk s) (e_max (s_env s)) (s_per s) with
    | None => UB NullDeref
    | Some q =>
      match serve (with_after (s_env s) (rd_after r)) q (left ++ rd_sent r) false (rd_turns r) with
      | UB u => UB u
      | Ok (v, src, _) =>
        match reply s w (rd_after r) v with
        | None => Ok []
        | Some (UB u, _) => UB u
        | Some (Ok (rv, res), w') =>
          obind (record_of h rv res (line_of (left ++ rd_sent r) (rd_after r) v) (rd_ios r)) (fun o =>
          let here := match o with Some c => [c] | None => [] end in
          match Response.respond rv res (rd_ios r) with
          | UB u => UB u
          | Ok (_, FKeep) => match converse_log h s w' src rs' with UB u => UB u | Ok cs => Ok (here ++ cs) end
          | Ok (_, _) => Ok here
          end)
        end
      end
    end
  end.

(** ** HTTP/2 *)
(** The request line of an HTTP/2 request when it is logged, from what v2.c:4689-4765 took out of the fields: uri.ptr is the
    value of :path (v2.c:4739), to whose length uri.len is set and which the target's parser shortens only when there is a
    query (request.c:1731-1737).  Simplified: requests without a whole request line are left out ([None]). *)
Definition h2_rline (conn : scheme) (hs : list hdr) : outcome (option rline) :=
  obind (H2Req.line_from_header conn hs) (fun l =>
  match l with
  | None => Ok None
  | Some (m, v) => obind (H2Req.target_parse m v) (fun t =>
      Ok (Some (mkRline None (Some m) (Some (v ++ [0%N], match t with Some (u, _) => length u | None => length v end)) (Some V2))))
  end).
