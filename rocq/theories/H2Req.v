(** Requests over HTTP/2: src/v2.c:4580-4663 (fly_hv2_parse_data), 4669-4765 (the request line from the pseudo-header
    fields) and 4840-5030 (fly_hv2_response_event_handler), with src/request.c:1646-1750 (fly_hv2_request_target_parse).

    The list of fields is what HPACK decoding left (Hpack.v); a value is a NUL-terminated object ([None]: the NULL pointer
    that fly_header_add leaves for an empty value). *)
From Verif Require Import Base CStr CNum Names Buffer Reqline Header ReqFlow Machine.
From Verif Require AcceptEnc Route Mount Cache.
Local Open Scope N_scope.

(** ** The request target *)
(** enum of fly_hv2_request_target_parse, request.c:1652-1659. *)
Inductive tstatus := TInit | TOrigin | TQuestion | TQuery | TAsterisk | TEnd.
(** Its local variables, request.c:1649-1651: a pointer is the list of the bytes from it to the end of the value's object. *)
Record tst := mkT { t_st : tstatus; t_ptr : list N; t_len : Z; t_tlen : nat; t_query : option (list N); t_qlen : nat }.
Definition t_go (s : tst) st := mkT st (t_ptr s) (t_len s) (t_tlen s) (t_query s) (t_qlen s).
Definition t_at (s : tst) p := mkT (t_st s) p (t_len s) (t_tlen s) (t_query s) (t_qlen s).
(** The results: -1, or the request's path and query. *)
Definition tres := option (list N * option (list N)).
Definition t_cont (s : tst) : outcome (sres tst tres) := Ok (Next s).
Definition t_err : outcome (sres tst tres) := Ok (Done None).
(** The end of the loop, request.c:1741-1747. *)
Definition t_brk (s : tst) : outcome (sres tst tres) :=
  let l := (t_len s - 1)%Z in
  if (l =? 0)%Z then t_cont (mkT TEnd (t_ptr s) l (t_tlen s) (t_query s) (match t_query s with Some q => diff q (tl (t_ptr s)) | None => t_qlen s end))
  else t_cont (mkT (t_st s) (tl (t_ptr s)) l (t_tlen s) (t_query s) (t_qlen s)).
(** One iteration, request.c:1683-1748; [v] is the value the parse began with. *)
Definition t_step (m : method) (v : list N) (s : tst) : outcome (sres tst tres) :=
  match t_st s with
  | TInit => obind (rd (t_ptr s) 0) (fun c =>
      if c =? 32 then t_brk s
      else if (c =? 42) && method_eqb m OPTIONS then t_cont (t_go s TAsterisk)
      else if c =? 47 then t_cont (t_go s TOrigin) else t_err)
  | TOrigin => obind (rd (t_ptr s) 0) (fun c =>
      if c =? 47 then t_brk s
      else obind (pchar (t_ptr s)) (fun r => match r with
        | Some p => t_brk (t_at s p)
        | None => if c =? 32 then t_cont (t_go s TEnd)
                  else if c =? 63 then t_brk (mkT TQuestion (t_ptr s) (t_len s) (diff (v ++ [0]) (t_ptr s)) (t_query s) (t_qlen s))
                  else t_err
        end))
  | TQuestion => obind (query_char (t_ptr s)) (fun r => match r with
        | Some p => t_brk (mkT TQuery p (t_len s) (t_tlen s) (Some p) (t_qlen s))
        | None => t_err
        end)
  | TQuery => obind (query_char (t_ptr s)) (fun r => match r with
        | Some p => t_brk (t_at s p)
        | None => obind (rd (t_ptr s) 0) (fun c =>
            if c =? 32 then t_cont (mkT TEnd (t_ptr s) (t_len s) (t_tlen s) (t_query s) (match t_query s with Some q => diff q (t_ptr s) | None => t_qlen s end))
            else t_err)
        end)
  | TAsterisk => match t_query s with
        | Some _ => if Nat.eqb (t_tlen s) 1 then t_cont (t_go s TEnd) else t_err
        | None => t_cont (t_go s TEnd)
        end
  | TEnd => Ok (Done (Some (match t_query s with
        | Some q => (firstn (t_tlen s) v, Some (firstn (t_qlen s) q))
        | None => (v, None)
        end)))
  end.
Definition t_start (v : list N) : tst := mkT TInit (v ++ [0]) (Z.of_nat (length v)) (length v) None 0.
(** fly_hv2_request_target_parse, request.c:1646-1752. *)
Definition target_parse (m : method) (v : list N) : outcome tres := run (t_step m v) (3 * length v + 10)%nat (t_start v).

(** ** The request line *)
(** fly_pseudo_request, v2.c:4674-4680. *)
Inductive pseudo := PMethod | PScheme | PAuthority | PPath.
Definition pseudo_request : list (list N * pseudo) :=
  [(bs ":method", PMethod); (bs ":scheme", PScheme); (bs ":authority", PAuthority); (bs ":path", PPath)].
Record pline := mkPline { pl_method : option method; pl_scheme : option scheme; pl_uri : option (list N) }.
(** One field, v2.c:4704-4748; [None]: -1. *)
Definition line_field (h : hdr) (l : pline) : outcome (option pline) :=
  match h_name h with
  | None | Some [] => Ok (Some l)
  | Some (c :: n) =>
    if negb (c =? 58) then Ok (Some l)
    else match List.find (fun e => strncmp_eqb (length (fst e)) (cstr (c :: n)) (fst e)) pseudo_request with
         | None => Ok None
         | Some (_, PMethod) => match h_value h with
             | None => UB NullDeref
             | Some v => Ok (match match_method_name (cstr v) with Some m => Some (mkPline (Some m) (pl_scheme l) (pl_uri l)) | None => None end)
             end
         | Some (_, PScheme) => match h_value h with
             | None => UB NullDeref
             | Some v => Ok (match match_scheme_name (cstr v) with Some s => Some (mkPline (pl_method l) (Some s) (pl_uri l)) | None => None end)
             end
         | Some (_, PAuthority) => Ok (Some l)
         | Some (_, PPath) => Ok (Some (mkPline (pl_method l) (pl_scheme l) (h_value h)))
         end
  end.
Fixpoint line_fields (hs : list hdr) (l : pline) : outcome (option pline) :=
  match hs with
  | [] => Ok (Some l)
  | h :: t => obind (line_field h l) (fun r => match r with None => Ok None | Some l' => line_fields t l' end)
  end.
(** fly_hv2_request_line_from_header, v2.c:4689-4765; [conn] is the scheme of the connection, which fly_request_line_init
    (request.c:71-87) sets first. *)
Definition line_from_header (conn : scheme) (hs : list hdr) : outcome (option (method * list N)) :=
  obind (line_fields hs (mkPline None (Some conn) None)) (fun r => Ok (match r with
    | Some (mkPline (Some m) (Some _) (Some u)) => Some (m, u)
    | _ => None
    end)).

(** ** The body *)
(** The state of a request's body: nothing yet, refused, or [size] bytes of memory of which the first [used] are filled. *)
Inductive h2body := BNone | BDiscard | BOpen (mem : list N) (used : nat).
(** fly_hv2_parse_data, v2.c:4580-4663, for one DATA frame whose content (with its padding, see H2Conn.v) is [d]; [cl] is
    fly_content_length of the request's fields, [max] the limit, [junk] what the allocator returns.  [None]: the connection
    is closed (v2.c:1820).  The window updates are in H2Conn.v. *)
Definition data_frame (max : nat) (cl : Z) (junk : list N) (b : h2body) (d : list N) : option h2body :=
  match d with
  | [] => Some b
  | _ =>
    let fill mem used := if (length mem <? used + length d)%nat then None
                         else Some (BOpen (firstn used mem ++ d ++ skipn (used + length d) mem) (used + length d)) in
    match b with
    | BDiscard => Some BDiscard
    | BNone => if (Z.of_nat max <? size_t cl)%Z then Some BDiscard else fill (fresh (Z.to_nat (size_t cl)) junk) 0%nat
    | BOpen mem used => fill mem used
    end
  end.
Fixpoint data_frames (max : nat) (cl : Z) (junk : list N) (b : h2body) (ds : list (list N)) : option h2body :=
  match ds with
  | [] => Some b
  | d :: t => match data_frame max cl junk b d with Some b' => data_frames max cl junk b' t | None => None end
  end.
(** What a handler sees: body_len bytes, whatever was received. *)
Definition body_of (b : h2body) : option (list N) := match b with BOpen mem _ => Some mem | _ => None end.

(** ** The answer *)
(** What becomes of the request: an error of the connection ("return -1" leads to fly_hv2_emergency), a status, a file or a
    handler's call. *)
Inductive hseen :=
| HFail
| HStatus (n : N)
| HFile (f : Mount.pfile)
| HHandler (r : Route.route) (ps : list (Route.param * list N)) (l : reqline) (ci : hci) (body : option (list N)).
(** __response, v2.c:4936-5000; the response functions reach the stream through the request (v2.c:4848), so that the
    version test of ReqFlow.v's [respond] does no harm here. *)
Definition h2_final (e : env) (m : method) (r : reqline) (ci : hci) (body : option (list N)) : outcome hseen :=
  let u := l_uri r ++ e_after e in
  let n := length (l_uri r) in
  obind (Route.found_route (e_regs e) u n m) (fun o =>
  match o with
  | None =>
    obind (Mount.static_content (e_cfg e) (e_mnt e) m u n) (fun s =>
    match s with
    | Mount.S405 => Ok (HStatus 405)
    | Mount.S404 => Ok (HStatus 404)
    | Mount.SFile f => obind (Cache.not_modified (e_instant e) ci (e_etag e f) (e_lm e f)) (fun same => Ok (if same then HStatus 304 else HFile f))
    end)
  | Some rt =>
    obind (Route.capture rt u n) (fun ps =>
    Ok (match ps with
        | None => HStatus 500
        | Some ps => if e_null e (Route.rt_handler rt) then HStatus 500 else HHandler rt ps r ci body
        end))
  end).
(** fly_content_encoding_s, header.c:370-389 and 396-399: unlike fly_content_encoding it asks for the name in lower case. *)
Definition content_encoding_s (ci : hci) : outcome (option (list N)) :=
  if (hc_count ci =? 0)%nat then Ok None
  else obind (find_name (hc_chain ci) (bs "content-encoding") 0) (fun r => match r with
    | None => Ok None
    | Some i => match nth_error (hc_chain ci) i with Some h => Ok (h_value h) | None => Ok None end
    end).
(** t->decode(de) with de->type set to FLY_DE_DECODE (body.c:60), as the functions return before they read anything:
    fly_gzip_decode FLY_DECODE_ERROR (encode.c:115-116), fly_br_decode and fly_deflate_decode FLY_DECODE_TYPE_ERROR
    (encode.c:323-324, 540-541; the values: encode.h:147-149), fly_identity_decode 0 (encode.c:749); the row of "*" has no
    function (encode.h:28).  The server is assumed to be built with zlib and Brotli. *)
Definition decode_now (c : AcceptEnc.coding) : outcome Z :=
  match c with
  | AcceptEnc.CGzip | AcceptEnc.CXGzip => Ok (-1)%Z
  | AcceptEnc.CDeflate | AcceptEnc.CBr => Ok (-3)%Z
  | AcceptEnc.CIdentity => Ok 0%Z
  | AcceptEnc.CAny => UB NullDeref
  end.
(** fly_decode_nowbody, body.c:47-81: request->body is NULL until DATA arrives (request.c:27); only -1 is a failure; the
    new body is what is in decbuf, to which nothing was written (use_len 0, buffer.c:20, 324).  [None]: failure. *)
Definition decode_nowbody (c : AcceptEnc.coding) (b : h2body) : outcome (option (list N)) :=
  match b with
  | BOpen _ _ => obind (decode_now c) (fun z => Ok (if (z =? -1)%Z then None else Some []))
  | _ => UB NullDeref
  end.
(** fly_hv2_response_event_handler, v2.c:4840-5030.  The multipart parser (v2.c:4933) is in Multipart.v; cookies
    (v2.c:4859) are in Header.v: neither changes which answer is given. *)
Definition h2_answer (e : env) (conn : scheme) (ci : hci) (b : h2body) : outcome hseen :=
  obind (line_from_header conn (hc_chain ci)) (fun l =>
  match l with
  | None => Ok (HStatus 400)
  | Some (m, v) =>
    obind (target_parse m v) (fun t =>
    match t with
    | None => Ok (HStatus 400)
    | Some (uri, query) =>
      match b with
      | BDiscard => Ok (HStatus 413)
      | _ =>
        obind (accept_phase ci) (fun a =>
        match a with
        | Some (Some n) => Ok (HStatus n)
        | Some None => Ok HFail
        | None =>
          let r := mkReqline (Some m) uri query (Some V2) in
          obind (content_length ci) (fun z =>
          if (size_t z =? 0)%Z then h2_final e m r ci (body_of b)
          else obind (content_encoding_s ci) (fun ce =>
            match ce with
            | Some x =>
              obind (AcceptEnc.supported_content_encoding x) (fun t =>
              obind (decode_nowbody t b) (fun d =>
              match d with
              | None => Ok HFail
              | Some d => h2_final e m r ci (Some d)
              end))
            | None => h2_final e m r ci (body_of b)
            end))
        end)
      end
    end)
  end).
(** A request: its fields in one header block, then its DATA frames. *)
Definition h2_request (e : env) (conn : scheme) (ci : hci) (junk : list N) (ds : list (list N)) : outcome hseen :=
  obind (content_length ci) (fun z =>
  match data_frames (e_max e) z junk BNone ds with
  | None => Ok HFail
  | Some b => h2_answer e conn ci b
  end).
