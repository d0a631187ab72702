(** Model of the HTTP/1.1 response path, src/response.c: building a response (806-1380), choosing its
    content and coding (fly_response_event, 527-782), laying it out (fly_response_set_send_ptr,
    1390-1585), writing it to the socket (fly_response_send, 1587-1660) and what happens to the
    connection (fly_after_response, 494-508). *)
From Verif Require Import Base CStr Names Status Header Buffer Encode.
From Verif Require AcceptEnc.

Notation coding := AcceptEnc.coding (only parsing).
(** struct fly_de as used here (encode.h:70-96): coding, encbuf, contlen, overflow. *)
Record de := mkDe { d_coding : coding; d_buf : buffer; d_contlen : nat; d_over : bool }.
(** struct fly_mount_parts_file as used here (mount.h:36-70): fs.st_size, what reading the open
    descriptor returns, encode_type, de (when "encoded" is set), overflow, and the values of ETag,
    Last-Modified and Content-Type. *)
Record rfile := mkRfile { f_size : nat; f_data : list N; f_coding : coding; f_de : option de; f_over : bool;
                          f_etag : list N; f_lastmod : list N; f_mime : list N }.
(** struct fly_response as it comes to fly_response_event (response.h:140-180): version, status_code,
    header, body, pf, count, dont_encode, the flag FLY_RESPONSE_BACK_TO_REQUEST_100 and encoding_type.
    [offset] and byte_from_start are 0 in every response of the server; rcbs is NULL in every HTTP/1
    response. *)
Record response := mkRes { r_version : version; r_code : stcode; r_header : hci; r_body : option (list N); r_pf : option rfile;
                           r_count : nat; r_dont : bool; r_back : bool; r_coding : option coding }.
(** What is outside: the threshold of encoding, the codings negotiated for the request (NULL before
    fly_accept_encoding ran), the compressors, max_response_content_length, the contents of fresh
    memory, the default content of a status code (its size and MIME type), the values of Server, Date
    and Allow. *)
Record renv := mkRenv { v_threshold : nat; v_accept : option (list (coding * Z) * AcceptEnc.decision);
                        v_codec : coding -> codec; v_max : nat; v_junk : list N; v_default : stcode -> option (nat * list N);
                        v_server : list N; v_date : list N; v_allow : list N }.

(** ** Building responses *)
(** fly_header_add and the fly_header_add_ifno family. *)
Definition base (c : stcode) (h : hci) : response := mkRes V1_1 c h None None 0 false false None.
(** fly_add_server, fly_add_date, fly_add_connection, header.c:400-420, 500-512, 580-588. *)
Definition add_server (v : renv) (h : hci) : outcome hci := header_add_ifno h (bs "Server") (v_server v).
Definition add_date (v : renv) (h : hci) : outcome hci := header_add_ifno h (bs "Date") (v_date v).
Definition add_connection (keep : bool) (h : hci) : hci := header_add h (bs "Connection") (if keep then bs "keep-alive" else bs "close").
Definition add_allow (v : renv) (h : hci) : hci := header_add h (bs "Allow") (v_allow v).
(** fly_100_response, fly_304_response, fly_400_response ... fly_500_response, response.c:806-1300.
    [etag]: the entity tag of the 304 response. *)
Definition status_header (v : renv) (allow : bool) (etag : option (list N)) (keep : bool) : outcome hci :=
  let h := if allow then add_allow v header_init else header_init in
  obind (add_server v h) (fun h => obind (add_date v h) (fun h =>
    let h := match etag with Some t => header_add h (bs "ETag") t | None => h end in
    Ok (add_connection keep h))).
Definition status_response (v : renv) (c : stcode) (etag : list N) : outcome response :=
  let allow := match c with S405 | S414 | S415 | S417 => true | _ => false end in
  let keep := match c with S413 => false | _ => true end in
  obind (status_header v allow (match c with S304 => Some etag | _ => None end) keep) (fun h =>
    let r := base c h in
    Ok (mkRes V1_1 c h None None 0 (match c with S406 => true | _ => false end)     (* fly_406_event, response.c:1036 *)
              (match c with S100 => true | _ => false end) None)).
(** fly_400_event_norequest, response.c:908-956. *)
Definition norequest_response (v : renv) : outcome response :=
  obind (status_header v false None false) (fun h => Ok (base S400 h)).
(** fly_respf, response.c:1323-1354. *)
Definition file_response (v : renv) (f : rfile) : outcome response :=
  if f_over f then status_response v S413 []
  else
    let h := header_add header_init (bs "Content-Length") (dec (N.of_nat (f_size f))) in
    let h := header_add h (bs "ETag") (f_etag f) in
    obind (add_date v h) (fun h =>
    let h := header_add h (bs "Last-Modified") (f_lastmod f) in
    obind (header_add_ifno h (bs "Content-Type") (f_mime f)) (fun h =>
      Ok (mkRes V1_1 S200 (add_connection true h) None (Some f) (f_size f) false false (Some (f_coding f))))).

(** ** Content and coding: fly_response_event, response.c:550-724 *)
(** enum fly_response_type, response.h:152-158 (DEFAULT is never reached, see above). *)
Inductive rtype := TEncoded | TBody | TPathFile | TNoContent.
(** The response when it is laid out: header, type, response_len, de. *)
Record ready := mkReady { y_header : hci; y_type : rtype; y_len : nat; y_de : option de }.
Inductive prepared := PSend (y : ready) | P413 | P500.
(** fly_add_content_length, header.c:527-544. *)
Definition set_content_length (h : hci) (n : nat) : outcome hci := header_addmodify h (bs "Content-Length") (dec (N.of_nat n)).
(** fly_add_content_encoding, header.c:514-525: the name of the first row of the type. *)
Definition enc_name (c : coding) : list N :=
  match AcceptEnc.c_type c with AcceptEnc.EGzip => bs "gzip" | AcceptEnc.EDeflate => bs "deflate" | AcceptEnc.EIdentity => bs "identity"
  | AcceptEnc.EBr => bs "br" | AcceptEnc.EAsterisk => bs "*" end.
(** The encode member of the row, encode.c:5-17; the asterisk has none. *)
Definition kind_of (c : coding) : option kind :=
  match AcceptEnc.c_type c with AcceptEnc.EGzip => Some KGzip | AcceptEnc.EDeflate => Some KDeflate | AcceptEnc.EBr => Some KBr | _ => None end.
Definition run_encode (v : renv) (c : coding) (src : source) : outcome enc_result :=
  match kind_of c with
  | None => UB NullDeref
  | Some k => encode k (v_codec v c) PER (fresh PER (v_junk v)) (encbuf_chain_max (v_max v)) src
  end.
(** response.c:553-562: the default content of a status code. *)
Definition add_default (v : renv) (r : response) : outcome hci :=
  match r_body r, r_pf r with
  | None, None =>
    match v_default v (r_code r) with
    | None => Ok (r_header r)
    | Some (size, mime) => header_add_ifno (header_add (r_header r) (bs "Content-Length") (dec (N.of_nat size))) (bs "Content-Type") mime
    end
  | _, _ => Ok (r_header r)
  end.
(** response.c:564-598: type, response_len, original_response_len, de, encoded, encoding_type. *)
Record start := mkStart { s_type : rtype; s_len : nat; s_orig : nat; s_de : option de; s_encoded : bool; s_coding : option coding }.
Definition begin (r : response) : start :=
  match r_body r with
  | Some b => mkStart TBody (length b) 0 None false (r_coding r)
  | None =>
    match r_pf r with
    | Some f =>
      match f_de f with
      | Some d => mkStart TEncoded (d_contlen d) (f_size f) (Some d) true (Some (d_coding d))
      | None => mkStart TPathFile (r_count r) (r_count r) None false (r_coding r)
      end
    | None => mkStart TNoContent 0 0 None false (r_coding r)
    end
  end.
(** response.c:604-608: the coding of a file stored encoded must be among those accepted. *)
Definition check_match (v : renv) (s : start) : outcome start :=
  if s_encoded s then
    match v_accept v, s_coding s with
    | Some (l, _), Some c => Ok (if AcceptEnc.matching l c then s else mkStart (s_type s) (s_orig s) (s_orig s) (s_de s) false (s_coding s))
    | _, _ => UB NullDeref
    end
  else Ok s.
(** response.c:610-617. *)
Definition choose (v : renv) (s : start) (h : hci) : outcome (start * hci) :=
  let named c h := match c with Some c => header_add h (bs "Content-Encoding") (enc_name c) | None => h end in
  let with_coding c := mkStart (s_type s) (s_len s) (s_orig s) (s_de s) (s_encoded s) c in
  if s_encoded s then Ok (s, named (s_coding s) h)
  else if v_threshold v <=? s_len s then
    match v_accept v with
    | None => UB NullDeref
    | Some (_, d) => let c := AcceptEnc.decided_type d in Ok (with_coding c, named c h)
    end
  else Ok (with_coding None, h).
(** response.c:620-724. *)
Definition encode_content (v : renv) (r : response) (s : start) (h : hci) : outcome prepared :=
  let finish (s : start) :=
    match s_de s with
    | Some d => if d_over d then Ok P413
                else obind (set_content_length h (d_contlen d)) (fun h => Ok (PSend (mkReady h (s_type s) (s_len s) (s_de s))))
    | None => obind (set_content_length h (s_len s)) (fun h => Ok (PSend (mkReady h (s_type s) (s_len s) (s_de s))))
    end in
  match s_encoded s, s_coding s with
  | false, Some c =>
    match AcceptEnc.c_type c with
    | AcceptEnc.EIdentity => obind (set_content_length h (s_len s)) (fun h => Ok (PSend (mkReady h TBody (s_len s) (s_de s))))
    | _ =>
      match (match r_pf r with Some f => Some (FromFile (f_data f)) | None => match r_body r with Some b => Some (FromBody b) | None => None end end) with
      | None => UB OutOfBounds                                             (* FLY_NOT_COME_HERE: the process is aborted *)
      | Some src =>
        obind (run_encode v c src) (fun e => match e with
          | EError => Ok P500
          | EBuffer => Ok P413
          | EOk b n => let d := mkDe c b n false in finish (mkStart TEncoded n (s_orig s) (Some d) true (Some c))
          end)
      end
    end
  | _, _ => finish s
  end.
Definition prepare (v : renv) (r : response) : outcome prepared :=
  obind (add_default v r) (fun h =>
  let s := begin r in
  if r_dont r then obind (set_content_length h (s_len s)) (fun h => Ok (PSend (mkReady h (s_type s) (s_len s) (s_de s))))
  else obind (check_match v s) (fun s => obind (choose v s h) (fun sh => encode_content v r (fst sh) (snd sh)))).

(** ** Layout: fly_response_set_send_ptr, response.c:1390-1585 *)
Definition CRLF_ : list N := [13; 10]%N.
(** "name: value\r\n", response.c:1434-1438 and 1486-1495. *)
Definition hdr_line (h : hdr) : list N :=
  (match h_name h with Some n => n | None => [] end) ++ bs ": " ++ (match h_value h with Some v => v | None => [] end) ++ CRLF_.
Definition hdr_len (h : hdr) : nat := h_nlen h + 2 + h_vlen h + 2.
Definition lines (h : hci) : list N := if hc_count h =? 0 then [] else flat_map hdr_line (hc_chain h).
Definition lines_len (h : hci) : nat := if hc_count h =? 0 then 0 else fold_right (fun x n => hdr_len x + n) 0 (hc_chain h).
(** The content, response.c:1508-1577.  The read loop of a file ends at the end of the file or when
    count bytes are read. *)
Definition content_bytes (r : response) (y : ready) : outcome (list N) :=
  match y_type y with
  | TEncoded => match y_de y with
                | None => UB NullDeref
                | Some d => match b_chains (d_buf d) with
                            | [] => UB OutOfBounds
                            | c :: _ => memcpy (d_buf d) (0, c_use c) 0 (y_len y)
                            end
                end
  | TBody => match r_body r with None => UB NullDeref | Some b => Ok b end
  | TPathFile => match r_pf r with None => UB NullDeref | Some f => Ok (firstn (r_count r) (f_data f)) end
  | TNoContent => Ok []
  end.
(** send_ptr with its send_len bytes: what was copied, and fresh memory where nothing was copied.
    None: -1. *)
Definition layout (v : renv) (r : response) (y : ready) : outcome (option (list N)) :=
  obind (status_line (r_version r) (r_code r)) (fun o => match o with
    | None => Ok None
    | Some sl =>
      let total := length sl + lines_len (y_header y) + 2 + y_len y in
      obind (content_bytes r y) (fun c =>
        let w := sl ++ lines (y_header y) ++ CRLF_ ++ c in
        if total <? length w then UB OutOfBounds else Ok (Some (w ++ fresh (total - length w) (v_junk v))))
    end).

(** ** Writing: fly_response_send, response.c:1587-1660 *)
(** The result of one send(2): some bytes are taken, the call would block, the peer is gone
    (FLY_SEND_DISCONNECTION), another error.  SSL_write is not modelled. *)
Inductive io := Took (n : nat) | Blocked | Gone | Broken.
Inductive sent := Done | Waiting | Lost | Failed.
(** [p] is send_ptr, [total] as in the code: send is always given the start of send_ptr (ptr is not
    moved) and the number of bytes left.  When the call blocks the event is registered again
    (fly_response_send_blocking, 510-522) and fly_response_event runs again from the start, as
    byte_from_start is never changed; the layout is made again and is the same. *)
Fixpoint write (p : list N) (total : nat) (ios : list io) : list N * sent * list io :=
  if length p <=? total then ([], Done, ios)
  else
    match ios with
    | [] => ([], Waiting, [])
    | Took n :: t =>
      let n := Nat.min n (length p - total) in
      let '(w, s, t') := write p (total + n) t in (firstn n p ++ w, s, t')
    | Blocked :: t => write p 0 t
    | Gone :: t => ([], Lost, t)
    | Broken :: t => ([], Failed, t)
    end.

(** ** The event: fly_response_event *)
(** What the client got and what becomes of the connection: kept for another request, closed, left as
    it is (an error is returned to the event loop), or the write is not finished. *)
Inductive fate := FKeep | FClose | FError | FWait.
(** After the last byte: response.c:746-765 and fly_after_response, 494-508.  With
    FLY_RESPONSE_BACK_TO_REQUEST_100 the response is released and then used. *)
Definition after (r : response) (y : ready) : outcome fate :=
  if r_back r then UB UseAfterFree
  else obind (connection_keep (y_header y)) (fun k => Ok (if k then FKeep else FClose)).
Definition send_ready (v : renv) (r : response) (y : ready) (p : list N) (ios : list io) : outcome (list N * fate) :=
  let '(w, s, _) := write p 0 ios in
  match s with
  | Done => obind (after r y) (fun f => Ok (w, f))
  | Waiting => Ok (w, FWait)
  | Lost => Ok (w, FClose)
  | Failed => Ok (w, FError)
  end.
(** "response_413:", "response_500:", response.c:767-782. *)
Fixpoint response_event (fuel : nat) (v : renv) (r : response) (ios : list io) {struct fuel} : outcome (list N * fate) :=
  match fuel with
  | 0 => UB Diverges
  | S f =>
    let other c := obind (status_response v c []) (fun r' => response_event f v r' ios) in
    obind (prepare v r) (fun p => match p with
      | P413 => other S413
      | P500 => other S500
      | PSend y => obind (layout v r y) (fun o => match o with
          | None => other S500
          | Some p => send_ready v r y p ios
          end)
      end)
  end.
(** Two levels are enough (ResponseProofs). *)
Definition respond (v : renv) (r : response) (ios : list io) : outcome (list N * fate) := response_event 2 v r ios.

(** ** Files stored encoded: fly_preencode_pf, worker.c:1073-1122 *)
(** [None]: the worker gives up (FLY_PREENCODE_FILE_ENCODE_ERROR). *)
Definition preencode (v : renv) (f : rfile) : outcome (option rfile) :=
  let with_de b n o po := mkRfile (f_size f) (f_data f) (f_coding f) (Some (mkDe (f_coding f) b n o)) po (f_etag f) (f_lastmod f) (f_mime f) in
  if f_size f <? v_threshold v then Ok (Some f)
  else if f_size f <=? v_max v then
    obind (run_encode v (f_coding f) (FromFile (f_data f))) (fun e => match e with
      | EError => Ok None
      | EBuffer => Ok (Some (with_de (mkBuffer [] 0 0 PER 0) 0 true false))
      | EOk b n => Ok (Some (with_de b n false false))
      end)
  else Ok (Some (with_de (mkBuffer [] 0 0 PER 0) 0 true true)).
