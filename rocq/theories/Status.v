(** Model of the status codes of src/response.c. *)
From Verif Require Import Base CStr Names.

(** enum status_code_type, response.h:18-60. *)
Inductive stcode :=
| S100 | S101 | S200 | S201 | S202 | S203 | S204 | S205
| S300 | S301 | S302 | S303 | S304 | S307
| S400 | S401 | S402 | S403 | S404 | S405 | S406 | S407 | S408 | S409 | S410 | S411
| S413 | S414 | S415 | S416 | S417 | S426
| S500 | S501 | S502 | S503 | S504 | S505 | SInvalid.
Scheme Equality for stcode.

(** fly_status_code, response.h:131-138; default_path is not read anywhere and omitted. *)
Record st_row := mkRow { sr_code : Z; sr_type : stcode; sr_str : list N; sr_explain : list N; sr_required : list (list N) }.
(** responses[], response.c:15-60 (without the terminator). *)
Definition responses : list st_row :=
  [mkRow 100 S100 (bs "100") (bs "Continue") [];
   mkRow 101 S101 (bs "101") (bs "Switching Protocols") [bs "Upgrade"];
   mkRow 200 S200 (bs "200") (bs "OK") [];
   mkRow 201 S201 (bs "201") (bs "Created") [];
   mkRow 202 S202 (bs "202") (bs "Accepted") [];
   mkRow 203 S203 (bs "203") (bs "Non-Authoritative Information") [];
   mkRow 204 S204 (bs "204") (bs "No Content") [];
   mkRow 205 S205 (bs "205") (bs "Reset Content") [];
   mkRow 300 S300 (bs "300") (bs "Multiple Choices") [];
   mkRow 301 S301 (bs "301") (bs "Moved Permanently") [bs "Location"];
   mkRow 302 S302 (bs "302") (bs "Found") [bs "Location"];
   mkRow 303 S303 (bs "303") (bs "See Other") [bs "Location"];
   mkRow 304 S304 (bs "304") (bs "Not Modified") [];
   mkRow 307 S307 (bs "307") (bs "Temporary Redirect") [bs "Location"];
   mkRow 400 S400 (bs "400") (bs "Bad Request") [];
   mkRow 401 S401 (bs "401") (bs "Unauthorized") [];
   mkRow 402 S402 (bs "402") (bs "Payment Required") [];
   mkRow 403 S403 (bs "403") (bs "Forbidden") [];
   mkRow 404 S404 (bs "404") (bs "Not Found") [];
   mkRow 405 S405 (bs "405") (bs "Method Not Allowed") [bs "Allow"];
   mkRow 406 S406 (bs "406") (bs "Not Acceptable") [];
   mkRow 407 S407 (bs "407") (bs "Proxy Authentication Required") [];
   mkRow 408 S408 (bs "408") (bs "Request Timeout") [bs "Connection"];
   mkRow 409 S409 (bs "409") (bs "Conflict") [];
   mkRow 409 S409 (bs "409") (bs "Gone") [];
   mkRow 410 S410 (bs "410") (bs "Length Required") [];
   mkRow 413 S413 (bs "413") (bs "Payload Too Large") [bs "Retry-After"];
   mkRow 414 S414 (bs "414") (bs "URI Too Long") [];
   mkRow 415 S415 (bs "415") (bs "Unsupported Media Type") [];
   mkRow 416 S416 (bs "416") (bs "Range Not Satisfiable") [];
   mkRow 417 S417 (bs "417") (bs "Expectation Failed") [];
   mkRow 426 S426 (bs "426") (bs "Upgrade Required") [bs "Upgrade"];
   mkRow 500 S500 (bs "500") (bs "Internal Server Error") [];
   mkRow 501 S501 (bs "501") (bs "Not Implemented") [];
   mkRow 502 S502 (bs "502") (bs "Bad Gateway") [];
   mkRow 503 S503 (bs "503") (bs "Service Unavailable") [];
   mkRow 504 S504 (bs "504") (bs "Gateway Timeout") [];
   mkRow 505 S505 (bs "505") (bs "HTTP Version Not SUpported") []].

Definition row_of_type (t : stcode) : option st_row := List.find (fun r => stcode_beq (sr_type r) t) responses.
(** __fly_status_code_from_type, response.c:167-174. *)
Definition code_from_type (t : stcode) : Z := match row_of_type t with Some r => sr_code r | None => -1 end.
(** fly_status_code_from_long, response.c:176-183. *)
Definition type_from_long (l : Z) : stcode :=
  match List.find (fun r => (sr_code r =? l)%Z) responses with Some r => sr_type r | None => SInvalid end.
(** fly_status_code_str_from_type, response.c:185-192. *)
Definition str_from_type (t : stcode) : option (list N) := option_map sr_str (row_of_type t).
(** fly_stcode_explain, response.c:208-215. *)
Definition stcode_explain (t : stcode) : option (list N) := option_map sr_explain (row_of_type t).

Definition dec_z (z : Z) : list N := match z with Zneg p => bs "-" ++ dec (Npos p) | _ => dec (Z.to_N z) end.
(** FLY_STATUS_LINE_MAX, header.h:13. *)
Definition STATUS_LINE_MAX := 50%nat.
(** __fly_status_line, response.c:193-206, and its use at response.c:1409-1415 and 1472: the bytes of
    the status line.  Passing NULL for "%s" is undefined.  None: -1 (unknown version, or a line of
    exactly FLY_STATUS_LINE_MAX bytes).  A longer line would be truncated by snprintf and then read
    behind the array. *)
Definition status_line (v : version) (t : stcode) : outcome (option (list N)) :=
  match version_str v with
  | None => Ok None
  | Some vs =>
    match stcode_explain t with
    | None => UB NullDeref
    | Some ex =>
      let line := vs ++ bs " " ++ dec_z (code_from_type t) ++ bs " " ++ ex ++ [13%N; 10%N] in
      if length line =? STATUS_LINE_MAX then Ok None
      else if STATUS_LINE_MAX <? length line then UB OutOfBounds
      else Ok (Some line)
    end
  end.
(** The value of the pseudo header :status, fly_status_code_pseudo_headers, v2.c:5039-5046 (strlen of
    a NULL pointer when the type has no row). *)
Definition status_value_v2 (t : stcode) : outcome (list N) :=
  match str_from_type t with Some s => Ok s | None => UB NullDeref end.
(** What is sent for a handler's Response with status code [l]: pyserver.c:844-845, then the above. *)
Definition app_status_line (l : Z) : outcome (option (list N)) := status_line V1_1 (type_from_long l).
Definition app_status_v2 (l : Z) : outcome (list N) := status_value_v2 (type_from_long l).

