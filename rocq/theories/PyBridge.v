(** Model of what becomes of the result of a Python handler: fly/response.py, the wrapper
    _BaseRoute.handler of fly/_base.py, the end of pyfly_route_handler in src/pyserver.c and the
    defined-route branch of fly_request_event_handler in src/request.c, for HTTP/1.1.
    Python strings are their UTF-8 bytes.  Not modelled: allocation failures, handlers that define
    their own subclasses of _fly_response, BaseExceptions that are not Exceptions, str(e) of exception
    contents that are not str, and the HTTP/2 case (there the names are lower-cased inside the Python
    string, pyserver.c:787-790; see H2Resp.v). *)
From Verif Require Import Base CStr Names Status Mime Header Response.

(** ** fly/response.py *)
(** A Response object, response.py:40-97: status_code, header, body, content_type. *)
Record pyresp := mkPy { p_status : Z; p_header : list (list N * list N); p_body : list N; p_ctype : list N }.
(** Response.__init__, response.py:50-74: [header] is checked and not used. *)
Definition py_response (status : Z) (header : option (list (list N * list N))) (body : option (list N)) (ctype : list N) : pyresp :=
  mkPy status [] (match body with Some b => b | None => [] end) ctype.
(** Response.add_header, response.py:95-99. *)
Definition py_add_header (n v : list N) (r : pyresp) : pyresp := mkPy (p_status r) (p_header r ++ [(n, v)]) (p_body r) (p_ctype r).
(** PlainResponse, HTMLResponse, response.py:112-146. *)
Definition plain_response (status : Z) header (body : option (list N)) : pyresp := py_response status header body (bs "text/plain").
Definition html_response (status : Z) header (body : option (list N)) : pyresp := py_response status header body (bs "text/html").
(** JSONResponse, response.py:148-168.  A list or dict is given by len() and json.dumps of it. *)
Definition json_response (status : Z) header (body : option (nat * list N)) : pyresp :=
  py_response status header (match body with Some (n, dumps) => if 0 <? n then Some dumps else None | None => None end) (bs "application/json").

(** ** fly/_base.py *)
Inductive pyval := PNone | PStr (s : list N) | PBytes (b : list N) | PResp (r : pyresp) | POther.
(** What the handler did.  [trace]: what traceback.format_exc() gives in the except clause. *)
Inductive ran := Returned (x : pyval) | RaisedHttp (status : Z) (content : option (list N)) (headers : list (list N * list N)) | RaisedOther (trace : list N).
(** str.lower() of a header name (_base.py:89); letters outside ASCII are left alone. *)
Definition lname (n : list N) : list N := map lower n.
(** _base.py:85-96. *)
Definition has_name (n : list N) (hs : list (list N * list N)) : bool := existsb (fun j => bytes_eqb (lname (fst j)) (lname n)) hs.
Fixpoint add_defaults (ds hs : list (list N * list N)) : list (list N * list N) :=
  match ds with
  | [] => hs
  | i :: t => add_defaults t (if has_name (fst i) hs then hs else hs ++ [i])
  end.
(** _BaseRoute.handler, _base.py:39-97.  None: an exception leaves the function (the attribute
    encode of a result that is no str, line 83).  [terr]: the traceback of the TypeError of line 60. *)
Definition wrapper (debug : bool) (terr : list N) (ds : list (list N * list N)) (x : ran) : option pyval :=
  let failed t := PResp (py_response 500 None (if debug then Some t else None) (bs "text/plain")) in
  let res := match x with
             | Returned POther => if debug then failed terr else POther
             | Returned v => v
             | RaisedHttp st c hs =>
               let r := py_response st None (match c with Some (_ :: _) => c | _ => None end) (bs "text/plain") in
               PResp (fold_left (fun r h => py_add_header (fst h) (snd h) r) hs r)
             | RaisedOther t => failed t
             end in
  match ds with
  | [] => Some res
  | _ =>
    match (match res with
           | PResp r => Some r
           | PNone => Some (py_response 200 None None (bs "text/plain"))
           | PBytes b => Some (py_response 200 None (Some b) (bs "text/plain"))
           | PStr s => Some (py_response 200 None (Some s) (bs "text/plain"))
           | POther => None
           end) with
    | Some r => Some (PResp (mkPy (p_status r) (add_defaults ds (p_header r)) (p_body r) (p_ctype r)))
    | None => None
    end
  end.

(** ** src/pyserver.c *)
(** The body of a response, pyserver.c:742-757 = 862-869 = 885-897: none when it is empty. *)
Definition c_body (b : list N) : option (list N) := match b with [] => None | _ => Some b end.
Definition too_long (v : renv) (b : list N) : bool := (0 <? length b) && (v_max v <? length b).
(** A response without header: fly_response_init, response.c:68-96, then fly_response_header_init. *)
Definition plain (b : list N) : response := mkRes V1_1 S200 header_init (c_body b) None 0 false false None.
(** pyserver.c:704-917.  [head]: the method is HEAD. *)
Definition bridge (v : renv) (head : bool) (x : option pyval) : outcome response :=
  let r500 := status_response v S500 [] in
  let r413 := status_response v S413 [] in
  match x with
  | None => r500
  | Some (PResp p) =>
    if head then r500
    else if too_long v (p_body p) then r413
    else
      let h := fold_left (fun h e => header_add h (fst e) (snd e)) (p_header p) header_init in
      obind (mime_from_str (p_ctype p)) (fun m =>
      obind (header_add_ifno h (bs "Content-Type") (mt_name m)) (fun h =>
      Ok (mkRes V1_1 (type_from_long (p_status p)) h (c_body (p_body p)) None 0 false false None)))
  | Some (PStr s) => if head then r500 else if too_long v s then r413 else Ok (plain s)
  | Some (PBytes b) => if too_long v b then r413 else Ok (plain b)
  | Some PNone => Ok (plain [])
  | Some POther => r500
  end.

(** ** src/request.c *)
(** request.c:1537-1548. *)
Definition finish (v : renv) (r : response) : outcome response :=
  obind (add_date v (r_header r)) (fun h => obind (add_server v h) (fun h => obind (header_add_ifno h (bs "Content-Type") (bs "text/plain")) (fun h =>
  Ok (mkRes (r_version r) (r_code r) h (r_body r) (r_pf r) (r_count r) (r_dont r) (r_back r) (r_coding r))))).
(** The response to a request that a handler answered. *)
Definition answer (v : renv) (head debug : bool) (terr : list N) (ds : list (list N * list N)) (x : ran) : outcome response :=
  obind (bridge v head (wrapper debug terr ds x)) (finish v).
