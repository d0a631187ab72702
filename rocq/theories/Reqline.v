(** Request line: src/request.c:72-89, 101-234 (character classes), 236-641 (__fly_parse_reqline)
    and 643-685 (__fly_request_operation), with src/buffer.c:236-271 (fly_buffer_ptr_len).

    A pointer into the copy of the line is the list of the bytes from it to the end of the
    object (the line, then the terminating NUL stored at request.c:666), so a pointer difference is a
    difference of lengths.  The results stored in req->request_line are the fields of [reqline]; uri and
    query are kept as the bytes they delimit.  The scheme, which comes from the connection and not
    from the line (request.c:83-86), and the path parameters are not part of this model. *)
From Verif Require Import Base CStr Names Machine Buffer.
Local Open Scope N_scope.

(** ** Character classes *)
(** fly_ualpha, fly_lalpha, fly_alpha, fly_numeral, fly_alpha_numeral: char.h:52-94. *)
Definition fly_alpha (c : N) : bool := ((65 <=? c) && (c <=? 90)) || ((97 <=? c) && (c <=? 122)).
Definition fly_numeral (c : N) : bool := (48 <=? c) && (c <=? 57).
Definition fly_alpha_numeral (c : N) : bool := fly_alpha c || fly_numeral c.
(** __fly_vchar, request.c:101-104. *)
Definition vchar (c : N) : bool := (33 <=? c) && (c <=? 126).
(** __fly_sub_delims, request.c:110-117. *)
Definition sub_delims (c : N) : bool :=
  (c =? 33) || (c =? 36) || (c =? 38) || (c =? 39) || (c =? 40) || (c =? 41) || (c =? 42) || (c =? 43) || (c =? 44) ||
  (c =? 59) || (c =? 61).
(** __fly_hexdigit, request.c:119-122. *)
Definition hexdigit (c : N) : bool :=
  ((48 <=? c) && (c <=? 57)) || ((97 <=? c) && (c <=? 102)) || ((65 <=? c) && (c <=? 70)).
(** __fly_tchar, __fly_token, __fly_method: request.c:124-140. *)
Definition rl_tchar (c : N) : bool :=
  (c =? 33) || (c =? 35) || (c =? 36) || (c =? 37) || (c =? 38) || (c =? 39) || (c =? 42) || (c =? 43) || (c =? 45) ||
  (c =? 46) || (c =? 94) || (c =? 95) || (c =? 96) || (c =? 124) || (c =? 126) ||
  fly_numeral c || fly_alpha c || (negb (c =? 59) && vchar c).
(** __fly_unreserved, request.c:142-148. *)
Definition unreserved (c : N) : bool :=
  fly_alpha c || fly_numeral c || (c =? 61) || (c =? 46) || (c =? 95) || (c =? 126) || (c =? 45).
(** __fly_pct_encoded, request.c:150-163: Some p' is "true, with the pointer moved to p'".  The
    remaining length is passed by address but "len -= 2" changes the local pointer, not the length. *)
Definition pct_encoded (p : list N) : outcome (option (list N)) :=
  obind (rd p 0) (fun c => if negb (c =? 37) then Ok None else
  obind (rd p 1) (fun a => if negb (hexdigit a) then Ok None else
  obind (rd p 2) (fun b => if negb (hexdigit b) then Ok None else Ok (Some (skipn 2 p))))).
(** __fly_pchar and __fly_segment, request.c:165-176. *)
Definition pchar (p : list N) : outcome (option (list N)) :=
  obind (rd p 0) (fun c =>
    if unreserved c || (c =? 58) || sub_delims c || (c =? 64) then Ok (Some p) else pct_encoded p).
(** __fly_query, request.c:178-183. *)
Definition query_char (p : list N) : outcome (option (list N)) :=
  obind (pchar p) (fun r => match r with
    | Some p' => Ok (Some p')
    | None => obind (rd p 0) (fun c => Ok (if (c =? 47) || (c =? 63) then Some p else None))
    end).
(** __fly_hier_part, request.c:185-190. *)
Definition hier_part (p : list N) : outcome bool :=
  obind (rd p 0) (fun c => if negb (c =? 47) then Ok false else obind (rd p 1) (fun d => Ok (d =? 47))).
(** __fly_userinfo, request.c:192-197. *)
Definition userinfo (p : list N) : outcome (option (list N)) :=
  obind (rd p 0) (fun c => if unreserved c || sub_delims c || (c =? 58) then Ok (Some p) else pct_encoded p).
(** __fly_http, request.c:209-218: Some p' when the text "HTTP" is at p; the pointer is left at its
    last letter and 3 is subtracted from the length. *)
Definition http_name (p : list N) : outcome (option (list N)) :=
  obind (rd p 0) (fun a => if negb (a =? 72) then Ok None else
  obind (rd p 1) (fun b => if negb (b =? 84) then Ok None else
  obind (rd p 2) (fun c => if negb (c =? 84) then Ok None else
  obind (rd p 3) (fun d => if negb (d =? 80) then Ok None else Ok (Some (skipn 3 p)))))).
(** __fly_request_method, request.c:220-239: the first method with the same first letter, if its whole
    name is at [p]; None is -1. *)
Fixpoint same_name (name p : list N) (i : nat) : outcome bool :=
  match name with
  | [] => Ok true
  | y :: name' => obind (rd p i) (fun x => if y =? x then same_name name' p (S i) else Ok false)
  end.
Definition request_method (p : list N) : outcome (option method) :=
  obind (rd p 0) (fun c =>
    match List.find (fun e => c =? hd 0 (fst e)) methods with
    | None => Ok None
    | Some (n, m) => obind (same_name n p 0) (fun r => Ok (if r then Some m else None))
    end).

(** ** __fly_parse_reqline *)
(** The enumeration at request.c:245-272. *)
Inductive rstatus := SInit | SMethod | SMethodSpace | SOrigin | SOriginQuestion | SOriginQuery | SAbsolute
  | SAbsoluteColon | SAbsoluteQuestion | SAbsoluteQuery | SAuthority | SUserinfo | SAtsign | SHost | SColon | SPort
  | SAsterisk | SEndTarget | STargetSpace | SHttpName | SHttpSlash | SMajor | SPoint | SMinor | SEndVersion | SCR | SLF
  | SSuccess.
(** The locals of request.c:241-243 and the fields of req->request_line that are assigned. [r_uri]
    and [r_qset] are the pairs stored by fly_uri_set (uri.h:42-46) and fly_query_set (request.h:142-147). *)
Record rst := mkRst {
  r_st : rstatus; r_ptr : list N; r_len : Z;
  r_methodp : list N; r_target : list N; r_tlen : nat; r_query : option (list N); r_qlen : nat; r_verp : list N; r_vlen : nat;
  r_method : option method; r_uri : list N; r_qset : option (list N); r_version : option version }.
Record reqline := mkReqline { l_method : option method; l_uri : list N; l_query : option (list N); l_version : option version }.

Definition go (s : rst) (st : rstatus) : rst :=
  mkRst st (r_ptr s) (r_len s) (r_methodp s) (r_target s) (r_tlen s) (r_query s) (r_qlen s) (r_verp s) (r_vlen s)
        (r_method s) (r_uri s) (r_qset s) (r_version s).
(** [ptr] and [len] changed (__fly_pct_encoded, __fly_http). *)
Definition at_ptr (s : rst) (p : list N) (l : Z) : rst :=
  mkRst (r_st s) p l (r_methodp s) (r_target s) (r_tlen s) (r_query s) (r_qlen s) (r_verp s) (r_vlen s)
        (r_method s) (r_uri s) (r_qset s) (r_version s).
Definition set_methodp (s : rst) (p : list N) : rst :=
  mkRst (r_st s) (r_ptr s) (r_len s) p (r_target s) (r_tlen s) (r_query s) (r_qlen s) (r_verp s) (r_vlen s)
        (r_method s) (r_uri s) (r_qset s) (r_version s).
Definition set_method (s : rst) (m : option method) : rst :=
  mkRst (r_st s) (r_ptr s) (r_len s) (r_methodp s) (r_target s) (r_tlen s) (r_query s) (r_qlen s) (r_verp s) (r_vlen s)
        m (r_uri s) (r_qset s) (r_version s).
Definition set_target (s : rst) (p : list N) : rst :=
  mkRst (r_st s) (r_ptr s) (r_len s) (r_methodp s) p (r_tlen s) (r_query s) (r_qlen s) (r_verp s) (r_vlen s)
        (r_method s) (r_uri s) (r_qset s) (r_version s).
Definition set_tlen (s : rst) (n : nat) : rst :=
  mkRst (r_st s) (r_ptr s) (r_len s) (r_methodp s) (r_target s) n (r_query s) (r_qlen s) (r_verp s) (r_vlen s)
        (r_method s) (r_uri s) (r_qset s) (r_version s).
Definition set_query (s : rst) (p : list N) : rst :=
  mkRst (r_st s) (r_ptr s) (r_len s) (r_methodp s) (r_target s) (r_tlen s) (Some p) (r_qlen s) (r_verp s) (r_vlen s)
        (r_method s) (r_uri s) (r_qset s) (r_version s).
Definition set_qlen (s : rst) (n : nat) : rst :=
  mkRst (r_st s) (r_ptr s) (r_len s) (r_methodp s) (r_target s) (r_tlen s) (r_query s) n (r_verp s) (r_vlen s)
        (r_method s) (r_uri s) (r_qset s) (r_version s).
Definition set_verp (s : rst) (p : list N) : rst :=
  mkRst (r_st s) (r_ptr s) (r_len s) (r_methodp s) (r_target s) (r_tlen s) (r_query s) (r_qlen s) p (r_vlen s)
        (r_method s) (r_uri s) (r_qset s) (r_version s).
Definition set_vlen (s : rst) (n : nat) : rst :=
  mkRst (r_st s) (r_ptr s) (r_len s) (r_methodp s) (r_target s) (r_tlen s) (r_query s) (r_qlen s) (r_verp s) n
        (r_method s) (r_uri s) (r_qset s) (r_version s).
Definition set_uri (s : rst) (u : list N) (q : option (list N)) : rst :=
  mkRst (r_st s) (r_ptr s) (r_len s) (r_methodp s) (r_target s) (r_tlen s) (r_query s) (r_qlen s) (r_verp s) (r_vlen s)
        (r_method s) u q (r_version s).
Definition set_version (s : rst) (v : option version) : rst :=
  mkRst (r_st s) (r_ptr s) (r_len s) (r_methodp s) (r_target s) (r_tlen s) (r_query s) (r_qlen s) (r_verp s) (r_vlen s)
        (r_method s) (r_uri s) (r_qset s) v.

Definition is_lf (st : rstatus) : bool := match st with SLF => true | _ => false end.
Notation rres := (sres rst (option reqline)) (only parsing).
(** "goto error": request.c:638-640. *)
Definition err : outcome rres := Ok (Done None).
(** "continue". *)
Definition cont (s : rst) : outcome rres := Ok (Next s).
(** "break": request.c:630-637. *)
Definition brk (s : rst) : outcome rres :=
  let s' := at_ptr s (tl (r_ptr s)) (r_len s - 1)%Z in
  if (r_len s' <=? 0)%Z && negb (is_lf (r_st s')) then err else cont s'.
(** "if (class(&ptr, &len)) break;": [k] is what follows when the test fails, [st] the new state. *)
Definition adv (s : rst) (r : outcome (option (list N))) (f : rst -> rst) (k : outcome rres) : outcome rres :=
  obind r (fun o => match o with Some p => brk (f (at_ptr s p (r_len s))) | None => k end).
Definition diff (a b : list N) : nat := (length a - length b)%nat.

(** One iteration of the loop at request.c:280-637. *)
Definition rl_step (s : rst) : outcome rres :=
  obind (rd (r_ptr s) 0) (fun c =>
  match r_st s with
  | SInit => if rl_tchar c then cont (go (set_methodp s (r_ptr s)) SMethod) else err
  | SMethod =>
    if rl_tchar c then brk s
    else if c =? 32 then
      obind (match_method_len (r_methodp s) (diff (r_methodp s) (r_ptr s))) (fun m =>
        match m with None => err | Some _ => cont (go (set_method s m) SMethodSpace) end)
    else err
  | SMethodSpace =>
    if c =? 32 then brk s else
    let s := set_target s (r_ptr s) in
    obind (request_method (r_methodp s)) (fun m =>
      match m with
      | Some CONNECT => cont (go s SAuthority)
      | _ =>
        if (c =? 42) && (match m with Some OPTIONS => true | _ => false end) then cont (go s SAsterisk)
        else if c =? 47 then cont (go s SOrigin) else cont (go s SAbsolute)
      end)
  | SOrigin =>
    if c =? 47 then brk s else
    adv s (pchar (r_ptr s)) (fun s => s)
      (if c =? 32 then cont (go (set_tlen s (diff (r_target s) (r_ptr s))) SEndTarget)
       else if c =? 63 then brk (go (set_tlen s (diff (r_target s) (r_ptr s))) SOriginQuestion)
       else err)
  | SOriginQuestion =>
    if c =? 32 then cont (go s SEndTarget)
    else adv s (query_char (r_ptr s)) (fun s => go (set_query s (r_ptr s)) SOriginQuery) err
  | SOriginQuery =>
    adv s (query_char (r_ptr s)) (fun s => s)
      (if c =? 32
       then cont (go (set_qlen s (diff (match r_query s with Some q => q | None => [] end) (r_ptr s))) SEndTarget) else err)
  | SAbsolute =>
    obind (is_fly_scheme (r_ptr s) 58) (fun r => if negb r then err else if c =? 58 then brk (go s SAbsoluteColon) else err)
  | SAbsoluteColon =>
    obind (hier_part (r_ptr s)) (fun r =>
      if negb r then err
      else if c =? 63 then brk (go (set_tlen s (diff (r_target s) (r_ptr s))) SAbsoluteQuestion) else err)
  | SAbsoluteQuestion =>
    if c =? 32 then cont (go s SEndTarget)
    else adv s (query_char (r_ptr s)) (fun s => go (set_query s (r_ptr s)) SAbsoluteQuery) err
  | SAbsoluteQuery =>
    adv s (query_char (r_ptr s)) (fun s => s)
      (if c =? 32
       then cont (go (set_qlen s (diff (match r_query s with Some q => q | None => [] end) (r_ptr s))) SEndTarget) else err)
  | SAuthority =>
    adv s (userinfo (r_ptr s)) (fun s => go s SUserinfo)
      (if fly_alpha_numeral c then brk (go s SHost) else err)
  | SUserinfo =>
    adv s (userinfo (r_ptr s)) (fun s => s) (if c =? 64 then brk (go s SAtsign) else err)
  | SAtsign => if fly_alpha_numeral c then brk (go s SHost) else err
  | SHost => if fly_alpha_numeral c then brk s else if c =? 58 then brk (go s SColon) else err
  | SColon => if fly_numeral c then brk (go s SPort) else err
  | SPort => if fly_numeral c then brk s else if c =? 32 then cont (go s SEndTarget) else err
  | SAsterisk => err                                        (* no case: "default", request.c:622-628 *)
  | SEndTarget =>
    cont (go (set_uri s (firstn (r_tlen s) (r_target s))
                (match r_query s with Some q => Some (firstn (r_qlen s) q) | None => r_qset s end)) STargetSpace)
  | STargetSpace => if c =? 32 then brk s else cont (go s SHttpName)
  | SHttpName =>
    obind (http_name (r_ptr s)) (fun o => match o with
      | Some p => brk (at_ptr s p (r_len s - 3)%Z)
      | None => if c =? 47 then brk (go s SHttpSlash) else err
      end)
  | SHttpSlash => if fly_numeral c then brk (go (set_verp s (r_ptr s)) SMajor) else err
  | SMajor =>
    if c =? 46 then brk (go s SPoint)
    else if c =? 13 then brk (go (set_vlen s (diff (r_verp s) (r_ptr s))) SEndVersion) else err
  | SPoint => if fly_numeral c then brk (go s SMinor) else err
  | SMinor => if c =? 13 then brk (go (set_vlen s (diff (r_verp s) (r_ptr s))) SEndVersion) else err
  | SEndVersion =>
    obind (match_version_len (r_verp s) (r_vlen s)) (fun v =>
      match v with None => err | Some _ => cont (go (set_version s v) SCR) end)
  | SCR => if c =? 10 then brk (go s SLF) else err
  | SLF => cont (go s SSuccess)
  | SSuccess => Ok (Done (Some (mkReqline (r_method s) (r_uri s) (r_qset s) (r_version s))))
  end).
(** The initial state: request.c:273-279. *)
Definition rl_init (line : list N) : rst :=
  mkRst SInit (line ++ [0]) (Z.of_nat (length line)) [] [] 0 None 0 [] 0 None [] None None.
(** __fly_parse_reqline on the line and its length; the fuel is shown to be enough (ReqlineProofs). *)
Definition parse_reqline (line : list N) : outcome (option reqline) :=
  run rl_step (11 * length line + 30) (rl_init line).

(** ** __fly_request_operation *)
Definition ptr_eqb (p q : ptr) : bool := ((fst p =? fst q) && (snd p =? snd q))%nat.
(** fly_buffer_ptr_len, buffer.c:236-271. (The reads are only of pointers, [bufp_inc] makes the same
    moves; "return 0" at the end of the last block.) *)
Fixpoint ptr_len_loop (fuel : nat) (b : buffer) (p p1 p2 : ptr) (f1 f2 : bool) (len : Z) : outcome Z :=
  match fuel with
  | O => UB Diverges
  | S fuel' =>
    let f2 := f2 || (negb (ptr_eqb p p1) && ptr_eqb p p2) in
    let f1 := f1 || ptr_eqb p p1 in
    if f1 && f2 then Ok len else
    let len := if f1 then (len - 1)%Z else if f2 then (len + 1)%Z else len in
    if bufp_end b p then Ok 0%Z else ptr_len_loop fuel' b (bufp_inc b p) p1 p2 f1 f2 len
  end.
Definition ptr_len (b : buffer) (p1 p2 : ptr) : outcome Z :=
  match b_chains b with
  | [] => UB NullDeref
  | c :: _ => ptr_len_loop (S (mem_size b)) b (0%nat, c_use c) p1 p2 false false 0
  end.

(** FLY_REQUEST_LINE_MAX, request.h:23. *)
Definition request_line_max : Z := 8000.
Inductive op_result := NotReady | E414 | E400 | Accepted (r : reqline) (b : buffer).
(** __fly_request_operation, request.c:643-685, on the first chain of the connection's buffer
    (request.c:91-94). Allocation is assumed to succeed. *)
Definition request_operation (b : buffer) : outcome op_result :=
  match b_chains b with
  | [] => UB NullDeref
  | c :: _ =>
    obind (strstr_after b [13; 10]) (fun r =>
      match r with
      | None => Ok NotReady
      | Some rptr =>
        obind (ptr_len b rptr (0%nat, c_use c)) (fun n =>
          if (request_line_max <=? n)%Z then Ok E414
          else
            obind (memcpy b (0%nat, c_use c) 0 (Z.to_nat n)) (fun line =>
            obind (parse_reqline line) (fun p =>
              match p with
              | None => Ok E400
              | Some r => obind (release b (Z.to_nat n)) (fun b' => Ok (Accepted r b'))
              end)))
      end)
  end.
