(** Model of HTTP/2 responses: their construction (src/response.c:806-1354, src/pyserver.c:704-917 and
    src/v2.c:4955-4985), the choice of content and coding and the header block (fly_hv2_response_event,
    src/v2.c:5067-5360).  The frames of the block are those of H2Frag.v, the writing is that of H2Write.v.
    The stream is half closed (remote), as it is when a request is answered (v2.c:5093). *)
From Verif Require Import Base CStr Names Status Mime Header Buffer Encode Response PyBridge Hpack H2Frame H2Frag.
From Verif Require AcceptEnc H2Write.

(** ** Fields *)
(** struct fly_hdr_c as used here: name and value, and what fly_header_add_v2 found in the tables when the field was added
    (index, name_index, static_table, dynamic_table).  No field contains a zero byte. *)
Record xfield := mkX { x_name : list N; x_value : list N; x_found : found }.
(** fly_header_add_v2, v2.c:5362-5420; [d]: the table of chain_info->state. *)
Definition add2 (d : dtable) (h : list xfield) (n v : list N) : list xfield := h ++ [mkX n v (search_table d (n, v))].
Definition add2_front (d : dtable) (h : list xfield) (n v : list N) : list xfield := mkX n v (search_table d (n, v)) :: h.
(** fly_header_add, header.c:117-123: nothing is looked up. *)
Definition add1 (h : list xfield) (n v : list N) : list xfield := h ++ [mkX n v NotFound].
(** fly_header_add_ver_ifno, header.c:126-146. *)
Definition has (h : list xfield) (n : list N) : bool := existsb (fun x => bytes_eqb (x_name x) n) h.
Definition add2_ifno (d : dtable) (h : list xfield) (n v : list N) : list xfield := if has h n then h else add2 d h n v.
Definition add1_ifno (h : list xfield) (n v : list N) : list xfield := if has h n then h else add1 h n v.
(** fly_header_addmodify with hv2, header.c:217-242; the name of a field without name is a null pointer. *)
Fixpoint modify (h : list xfield) (n v : list N) : outcome (option (list xfield)) :=
  match h with
  | [] => Ok None
  | x :: t =>
    match x_name x with
    | [] => UB NullDeref
    | m => if bytes_eqb m n then Ok (Some (mkX m v (x_found x) :: t))
           else obind (modify t n v) (fun o => Ok (option_map (cons x) o))
    end
  end.
Definition addmodify2 (d : dtable) (h : list xfield) (n v : list N) : outcome (list xfield) :=
  obind (modify h n v) (fun o => Ok (match o with Some h' => h' | None => add2 d h n v end)).
(** __fly_payload_from_headers, v2.c:2288-2397 (cf. put_field of Hpack.v). *)
Definition put_x (x : xfield) : list N :=
  match x_found x with
  | FoundField j => hp_set_integer 7 128 (j + 1)
  | FoundName j => hp_set_integer 6 64 (j + 1) ++ put_string (x_value x)
  | NotFound => hp_set_integer 6 64 0 ++ put_string (x_name x) ++ put_string (x_value x)
  end.

(** ** Responses *)
(** struct fly_response_content_by_stcode, response.h: the default content of a status code: fs.st_size, what reading its
    descriptor returns, the name of its MIME type, de (when "encoded" is set, fly_preencode_frc, worker.c:1126-1176). *)
Record dfile := mkDfile { df_size : nat; df_data : list N; df_mime : list N; df_de : option de }.
(** The environment: that of Response.v (v_default is not used), the default contents and the table. *)
Record env2 := mkEnv2 { e_v : renv; e_default : stcode -> option dfile; e_table : dtable }.
(** struct fly_response: status_code, header, body, pf, count, dont_encode, encoding_type. *)
Record resp2 := mkResp2 { p2_code : stcode; p2_fields : list xfield; p2_body : option (list N); p2_pf : option rfile; p2_count : nat; p2_dont : bool; p2_coding : option coding }.
(** fly_100_response ... fly_500_response, response.c:806-1300, with is_fly_request_http_v2: no Connection field; dont_encode
    is not set by fly_406_response. *)
Definition status_fields2 (e : env2) (allow : bool) (etag : option (list N)) : list xfield :=
  let d := e_table e in
  let h := if allow then add2 d [] (bs "allow") (v_allow (e_v e)) else [] in
  let h := add2_ifno d h (bs "server") (v_server (e_v e)) in
  let h := add2_ifno d h (bs "date") (v_date (e_v e)) in
  match etag with Some t => add2 d h (bs "etag") t | None => h end.
Definition status_response2 (e : env2) (c : stcode) (etag : list N) : resp2 :=
  let allow := match c with S405 | S414 | S415 | S417 => true | _ => false end in
  mkResp2 c (status_fields2 e allow (match c with S304 => Some etag | _ => None end)) None None 0 false None.
(** fly_respf, response.c:1323-1354. *)
Definition file_response2 (e : env2) (f : rfile) : resp2 :=
  let d := e_table e in
  if f_over f then status_response2 e S413 []
  else
    let h := add2 d [] (bs "content-length") (dec (N.of_nat (f_size f))) in
    let h := add2 d h (bs "etag") (f_etag f) in
    let h := add2_ifno d h (bs "date") (v_date (e_v e)) in
    let h := add2 d h (bs "last-modified") (f_lastmod f) in
    let h := add1_ifno h (bs "content-type") (f_mime f) in
    mkResp2 S200 h None (Some f) (f_size f) false (Some (f_coding f)).
(** pyserver.c:704-917; the names of the handler's fields are made lower-case, 794-797. *)
Definition plain2 (b : list N) : resp2 := mkResp2 S200 [] (c_body b) None 0 false None.
Definition bridge2 (e : env2) (head : bool) (x : option pyval) : outcome resp2 :=
  let r500 := Ok (status_response2 e S500 []) in
  let r413 := Ok (status_response2 e S413 []) in
  match x with
  | None => r500
  | Some (PResp p) =>
    if head then r500
    else if too_long (e_v e) (p_body p) then r413
    else
      let h := fold_left (fun h f => add2 (e_table e) h (map lower (fst f)) (snd f)) (p_header p) [] in
      obind (mime_from_str (p_ctype p)) (fun m =>
      Ok (mkResp2 (type_from_long (p_status p)) (add1_ifno h (bs "content-type") (mt_name m)) (c_body (p_body p)) None 0 false None))
  | Some (PStr s) => if head then r500 else if too_long (e_v e) s then r413 else Ok (plain2 s)
  | Some (PBytes b) => if too_long (e_v e) b then r413 else Ok (plain2 b)
  | Some PNone => Ok (plain2 [])
  | Some POther => r500
  end.
(** v2.c:4966-4981. *)
Definition finish2 (e : env2) (r : resp2) : resp2 :=
  let h := add2_ifno (e_table e) (p2_fields r) (bs "date") (v_date (e_v e)) in
  let h := add2_ifno (e_table e) h (bs "server") (v_server (e_v e)) in
  let h := add1_ifno h (bs "content-type") (bs "text/plain") in
  mkResp2 (p2_code r) h (p2_body r) (p2_pf r) (p2_count r) (p2_dont r) (p2_coding r).
Definition handler_answer2 (e : env2) (head debug : bool) (terr : list N) (ds : list (list N * list N)) (x : ran) : outcome resp2 :=
  obind (bridge2 e head (wrapper debug terr ds x)) (fun r => Ok (finish2 e r)).

(** ** Content and coding: fly_hv2_response_event, v2.c:5105-5278 *)
(** res->rcbs, v2.c:5110-5119. *)
Definition rcbs (e : env2) (r : resp2) : option dfile :=
  match p2_body r, p2_pf r with None, None => e_default e (p2_code r) | _, _ => None end.
(** enum fly_response_type, response.h:90-96. *)
Inductive htype := HEncoded | HBody | HFile | HDefault | HNone.
Record start2 := mkStart2 { t_type : htype; t_len : nat; t_orig : nat; t_de : option de; t_encoded : bool; t_coding : option coding }.
(** v2.c:5121-5155. *)
Definition begin2 (e : env2) (r : resp2) : start2 :=
  match p2_body r, p2_pf r, rcbs e r with
  | Some b, _, _ => mkStart2 HBody (length b) 0 None false (p2_coding r)
  | None, Some f, _ =>
    match f_de f with
    | Some d => mkStart2 HEncoded (d_contlen d) (f_size f) (Some d) true (Some (d_coding d))
    | None => mkStart2 HFile (p2_count r) (p2_count r) None false (p2_coding r)
    end
  | None, None, Some f =>
    match df_de f with
    | Some d => mkStart2 HEncoded (d_contlen d) (df_size f) (Some d) true (Some (d_coding d))
    | None => mkStart2 HDefault (df_size f) (df_size f) None false (p2_coding r)
    end
  | None, None, None => mkStart2 HNone 0 0 None false (p2_coding r)
  end.
(** What is decided: the coding named in content-encoding, response_len, type, de and the value of content-length; or a jump
    to response_413 or response_500. *)
Inductive decided := DSend (named : option coding) (len : nat) (ty : htype) (d : option de) (clen : nat) | D413 | D500.
(** v2.c:5271-5277. *)
Definition settle (named : option coding) (len : nat) (ty : htype) (d : option de) : decided :=
  match d with
  | Some x => if d_over x then D413 else DSend named len ty d (d_contlen x)
  | None => DSend named len ty d len
  end.
(** v2.c:5176-5268: the coding [c] is chosen and the content is not yet coded. *)
Definition encode2 (e : env2) (r : resp2) (s : start2) (c : coding) : outcome decided :=
  match AcceptEnc.c_type c with
  | AcceptEnc.EIdentity => Ok (DSend (Some c) (t_len s) HBody (t_de s) (t_len s))
  | _ =>
    match (match p2_pf r, rcbs e r, p2_body r with
           | Some f, _, _ => Some (FromFile (f_data f))
           | None, Some f, _ => Some (FromFile (df_data f))
           | None, None, Some b => Some (FromBody b)
           | None, None, None => None
           end) with
    | None => UB OutOfBounds                                             (* FLY_NOT_COME_HERE: the process is aborted *)
    | Some src => obind (run_encode (e_v e) c src) (fun o => Ok (match o with
        | EError => D500
        | EBuffer => D413
        | EOk b n => settle (Some c) n HEncoded (Some (mkDe c b n false))
        end))
    end
  end.
(** v2.c:5157-5278. *)
Definition decide (e : env2) (r : resp2) : outcome decided :=
  let s := begin2 e r in
  if p2_dont r then Ok (DSend None (t_len s) (t_type s) (t_de s) (t_len s))
  else
    (* fly_encoding_matching, 5164-5168 *)
    obind (if t_encoded s then
             match v_accept (e_v e), t_coding s with
             | Some (l, _), Some c => Ok (AcceptEnc.matching l c)
             | _, _ => UB NullDeref
             end
           else Ok false) (fun enc =>
    let len := if t_encoded s && negb enc then t_orig s else t_len s in
    (* 5170-5175 *)
    if enc then Ok (settle (t_coding s) len (t_type s) (t_de s))
    else if v_threshold (e_v e) <=? len then
      match v_accept (e_v e) with
      | None => UB NullDeref
      | Some (_, x) =>
        match AcceptEnc.decided_type x with
        | Some c => encode2 e r (mkStart2 (t_type s) len (t_orig s) (t_de s) false (Some c)) c
        | None => Ok (settle None len (t_type s) (t_de s))
        end
      end
    else Ok (settle None len (t_type s) (t_de s))).

(** ** The answer *)
(** The fields as they are sent, v2.c:5103-5119, 5159-5175 and 5273-5277; [st]: the value of :status (status_value_v2 of
    Status.v). *)
Definition fields2 (e : env2) (r : resp2) (st : list N) (named : option coding) (clen : nat) : outcome (list xfield) :=
  let d := e_table e in
  let h := add2_front d (p2_fields r) (bs ":status") st in
  let h := match rcbs e r with
           | Some f => add1_ifno (add2 d h (bs "content-length") (dec (N.of_nat (df_size f)))) (bs "content-type") (df_mime f)
           | None => h
           end in
  let h := match named with Some c => add2 d h (bs "content-encoding") (enc_name c) | None => h end in
  addmodify2 d h (bs "content-length") (dec (N.of_nat clen)).
(** What fly_send_data_frame sends (H2Write.v); a body that is a null pointer is used unless response_len is 0
    (v2.c:2582, 2667-2715). *)
Definition content2 (e : env2) (r : resp2) (len : nat) (ty : htype) (d : option de) : outcome H2Write.content :=
  if len =? 0 then Ok (H2Write.CBody [])
  else match ty with
  | HBody => match p2_body r with Some b => Ok (H2Write.CBody b) | None => UB NullDeref end
  | HEncoded => match d with Some x => Ok (H2Write.CEncoded (d_buf x) len) | None => UB NullDeref end
  | HFile => match p2_pf r with Some f => Ok (H2Write.CFile (f_data f) len) | None => UB NullDeref end
  | HDefault => match rcbs e r with Some f => Ok (H2Write.CDefault (df_data f) len) | None => UB NullDeref end
  | HNone => Ok (H2Write.CBody [])
  end.
(** fly_hv2_response_event: the frames of the header block and the content.  response_413 and response_500, v2.c:5343-5359:
    fly_hv2_remove_response releases the response (4792-4811, it was put into the queue at 5099), then fly_response_release
    is given it again.  [junk]: the contents of fresh memory. *)
Definition answer2 (junk : list N) (e : env2) (r : resp2) : outcome (list hframe * H2Write.content) :=
  obind (status_value_v2 (p2_code r)) (fun st =>
  obind (decide e r) (fun o => match o with
    | D413 | D500 => UB UseAfterFree
    | DSend named len ty d clen =>
      obind (fields2 e r st named clen) (fun h =>
      obind (send_headers junk MAX_FRAME (match ty with HNone => true | _ => false end) (map put_x h)) (fun fr =>
      obind (content2 e r len ty d) (fun c => Ok (fr, c))))
    end)).
(** The header of the DATA frame, v2.c:2585-2592 and 2433-2440; [w]: the smaller of the two windows. *)
Definition data_header (sid : N) (w : Z) (c : H2Write.content) : list N :=
  let n := H2Write.content_len c in
  fh_bytes (N.of_nat n) FRAME_DATA (if (Z.of_nat n <? w)%Z then 1 else 0) false sid.
(** The frames as they are queued (__fly_hv2_add_yet_send_frame, v2.c:3178-3192). *)
Definition queued (sid : N) (f : hframe) : H2Write.qframe :=
  H2Write.mkQf (fh_bytes (N.of_nat (length (hf_payload f))) (hf_type f) (hf_flags f) false sid) (hf_payload f) H2Write.FHeader.
(** The bytes of the connection while the answer is written. *)
Definition deliver (junk : list N) (e : env2) (r : resp2) (sid : N) (w : Z) (tss : list (list H2Write.ev)) :=
  obind (answer2 junk e r) (fun a => H2Write.turns (data_header sid w (snd a)) (snd a) (map (queued sid) (fst a)) H2Write.r_start tss).

(** ** The names in Python strings *)
(** pyserver.c:789-797: PyUnicode_AsUTF8AndSize gives the buffer of the str object itself, which is overwritten.  [heap]: the
    text of every str object; a handler's result names its fields by objects. *)
Definition sheap := nat -> list N.
Definition lower_name (m : sheap) (i : nat) : sheap := fun j => if j =? i then map lower (m j) else m j.
Definition http2_names (m : sheap) (l : list nat) : list (list N) * sheap :=
  let m' := fold_left lower_name l m in (map m' l, m').
Definition http1_names (m : sheap) (l : list nat) : list (list N) * sheap := (map m l, m).
