(** Model of the Accept-Encoding handling of src/encode.c (built with zlib and brotli).

    A pointer into the header value is the list of bytes from it up to and including the terminating
    NUL, so "*ptr" is the head of the list and "ptr++" the tail. *)
From Coq Require Import SpecFloat.
From Verif Require Import Base CStr.

(** ** Character classes, encode.c:895-973 (char is signed: bytes >= 128 are negative). *)
Definition ae_alpha (c : N) : bool := ((65 <=? c) && (c <=? 90) || (97 <=? c) && (c <=? 122))%N.
Definition ae_number (c : N) : bool := ((48 <=? c) && (c <=? 57))%N.
Definition ae_vchar (c : N) : bool := ((33 <=? c) && (c <=? 126))%N.
(** The characters listed one by one in encode.c:923-926 are all covered by the vchar disjunct or
    the alphanumerics. *)
Definition ae_tchar (c : N) : bool :=
  ae_alpha c || ae_number c || existsb (N.eqb c) (bs "!#$%&'*+-.^_`|~") || (ae_vchar c && negb (c =? 59)%N).
Definition ae_space (c : N) : bool := (c =? 32)%N || (c =? 9)%N.
Definition ae_semicolon (c : N) : bool := (c =? 59)%N.
Definition ae_q (c : N) : bool := (c =? 113)%N.
Definition ae_one (c : N) : bool := (c =? 49)%N.
Definition ae_zero (c : N) : bool := (c =? 48)%N.
Definition ae_zeros (c : N) : bool := (c =? 0)%N.
Definition ae_point (c : N) : bool := (c =? 46)%N.
Definition ae_equal (c : N) : bool := (c =? 61)%N.
Definition ae_comma (c : N) : bool := (c =? 44)%N.

(** ** Codings *)
(** enum __fly_encoding_type, encode.h:30-41. *)
Inductive etype := EGzip | EDeflate | EIdentity | EBr | EAsterisk.
Definition etype_eqb (a b : etype) : bool :=
  match a, b with EGzip, EGzip | EDeflate, EDeflate | EIdentity, EIdentity | EBr, EBr | EAsterisk, EAsterisk => true | _, _ => false end.
(** Index of a row of the table (pointers to rows are compared by the code). *)
Inductive coding := CGzip | CXGzip | CDeflate | CIdentity | CBr | CAny.
Definition coding_eqb (a b : coding) : bool :=
  match a, b with CGzip, CGzip | CXGzip, CXGzip | CDeflate, CDeflate | CIdentity, CIdentity | CBr, CBr | CAny, CAny => true | _, _ => false end.
(** __fly_encodes[], encode.c:5-17. *)
Definition c_type (c : coding) : etype :=
  match c with CGzip | CXGzip => EGzip | CDeflate => EDeflate | CIdentity => EIdentity | CBr => EBr | CAny => EAsterisk end.
Definition c_name (c : coding) : list N :=
  match c with CGzip => bs "gzip" | CXGzip => bs "x-gzip" | CDeflate => bs "deflate" | CIdentity => bs "identity" | CBr => bs "br" | CAny => bs "*" end.
Definition c_prio (c : coding) : Z :=
  match c with CGzip => 100 | CXGzip => 90 | CDeflate => 75 | CIdentity => 1 | CBr => 30 | CAny => 0 end.
Definition encodes : list coding := [CGzip; CXGzip; CDeflate; CIdentity; CBr; CAny].

(** tolower(3), C locale. *)
Definition tolower (b : N) : N := if (65 <=? b)%N && (b <=? 90)%N then (b + 32)%N else b.
(** fly_encoding_from_name, encode.c:89-106: enc_name has 20 bytes. *)
Definition encoding_from_name (name : list N) : outcome (option coding) :=
  if 20 <=? length name then UB OutOfBounds
  else Ok (List.find (fun c => strcmp_eqb (c_name c) (map tolower name)) encodes).
(** __fly_asterisk and __fly_most_priority, encode.c:51-69. *)
Definition most_priority : coding :=
  fold_left (fun m e => if (c_prio m <? c_prio e)%Z then e else m) [CXGzip; CDeflate; CIdentity; CBr; CAny] CGzip.

(** __fly_memcpy_name, encode.c:808-819: the bytes copied to a destination of [size] bytes; [i] is
    the number of bytes copied so far.  The terminator is written behind them. *)
Fixpoint memcpy_name (fuel i size : nat) (src : list N) (src_len maxlen : nat) : outcome (list N) :=
  match fuel with
  | 0 => UB Diverges
  | S f =>
    if maxlen <=? i then Ok []
    else match src with
    | [] => UB OutOfBounds
    | b :: src' =>
      if size <=? i then UB OutOfBounds
      else match src' with
      | [] => UB OutOfBounds
      | n :: _ =>
        if ae_space n || ae_semicolon n || ae_comma n || (src_len <=? S i)
        then if size <=? S i then UB OutOfBounds else Ok [b]
        else obind (memcpy_name f (S i) size src' src_len maxlen) (fun t => Ok (b :: t))
      end
    end
  end.
(** strlen(3). *)
Fixpoint strlen (s : list N) : outcome nat :=
  match s with [] => UB OutOfBounds | b :: t => if (b =? 0)%N then Ok 0 else obind (strlen t) (fun n => Ok (S n)) end.
(** FLY_ENCNAME_MAXLEN, encode.h:173. *)
Definition ENCNAME_MAXLEN := 20.

(** ** Quality values *)
(** FLY_ENCQVALUE_MAXLEN, encode.h:175. *)
Definition ENCQVALUE_MAXLEN := 6.
(** Characters copied by the loop encode.c:1296-1297. *)
Fixpoint q_chars (s : list N) : outcome (list N) :=
  match s with
  | [] => UB OutOfBounds
  | b :: t => if ae_zero b || ae_point b || ae_number b then obind (q_chars t) (fun r => Ok (b :: r)) else Ok []
  end.
Fixpoint span_digits (s : list N) : list N * list N :=
  match s with
  | [] => ([], [])
  | b :: t => if is_digit b then let '(d, r) := span_digits t in (b :: d, r) else ([], s)
  end.
(** IEEE binary64 arithmetic of the standard library's SpecFloat (round to nearest even). *)
Definition b64 (n : N) : spec_float := binary_normalize 53 1024 (Z.of_N n) 0 false.
(** atof(3) on a string of digits and points: the correctly rounded quotient (numerator and
    denominator are below 2^53, hence exact). *)
Definition atof (s : list N) : spec_float :=
  let '(ip, r) := span_digits s in
  let fp := match r with 46%N :: r' => fst (span_digits r') | _ => [] end in
  SFdiv 53 1024 (b64 (dec_value (ip ++ fp))) (b64 (10 ^ N.of_nat (length fp))%N).
(** Conversion of a double to int (truncation). *)
Definition to_int (f : spec_float) : Z :=
  match f with
  | S754_finite s m e =>
    let v := match e with Zneg p => (Zpos m / 2 ^ Zpos p)%Z | _ => (Zpos m * 2 ^ e)%Z end in
    if s then (- v)%Z else v
  | _ => 0%Z
  end.
(** __fly_quality_value_from_str, encode.c:1288-1306; [None] is the NULL pointer. *)
Definition quality_from_str (q : option (list N)) : outcome Z :=
  match q with
  | None => Ok 100%Z
  | Some [] => UB OutOfBounds
  | Some (b :: t) =>
    if ae_one b then Ok 100%Z
    else obind (q_chars (b :: t)) (fun cs =>
      if ENCQVALUE_MAXLEN <=? length cs then UB OutOfBounds
      else let v := atof cs in
           if SFltb v (b64 0) || SFltb (b64 1) v then Ok (-1)%Z
           else Ok (to_int (SFmul 53 1024 v (b64 100))))
  end.

(** ** The parser *)
Inductive pstatus :=
| P_INIT | P_NAME | P_WSPACE | P_SEMICOLON | P_SPACE_AFTER | P_Q | P_EQUAL | P_ZERO_INT | P_ONE_INT
| P_ZERO_POINT | P_ONE_POINT | P_ZERO_DEC | P_ONE_DEC | P_LAST_SPACE | P_COMMA | P_ADD.
(** The local variables of __fly_parse_ae and the list e->accepts (struct __fly_encoding,
    encode.h:109-117, without the flag use, which is false at this point). *)
Record pstate := mkP { p_status : pstatus; p_ptr : list N; p_name : option (list N); p_qv : option (list N);
                       p_dec : nat; p_acc : list (coding * Z) }.
Inductive pres := PNext (s : pstate) | PError | PSuccess (acc : list (coding * Z)).
Definition goto (s : pstate) (st : pstatus) : outcome pres := Ok (PNext (mkP st (p_ptr s) (p_name s) (p_qv s) (p_dec s) (p_acc s))).
Definition advance (s : pstate) : outcome pres := Ok (PNext (mkP (p_status s) (tl (p_ptr s)) (p_name s) (p_qv s) (p_dec s) (p_acc s))).
(** The case __FLY_PARSE_AE_ADD, encode.c:1216-1246. *)
Definition parse_add (s : pstate) (c : N) : outcome pres :=
  let name := match p_name s with Some n => n | None => bs "*" ++ [0%N] end in
  obind (strlen name) (fun len =>
  obind (memcpy_name (S ENCNAME_MAXLEN) 0 ENCNAME_MAXLEN name len ENCNAME_MAXLEN) (fun encname =>
  let encname := firstn (ENCNAME_MAXLEN - 1) encname in
  obind (encoding_from_name encname) (fun ty =>
  obind (quality_from_str (p_qv s)) (fun q =>
  let acc := match ty with Some t => p_acc s ++ [(t, q)] | None => p_acc s end in
  if ae_zeros c then Ok (PSuccess acc)
  else Ok (PNext (mkP P_INIT (p_ptr s) (p_name s) (p_qv s) (p_dec s) acc)))))).
(** One iteration of the loop of __fly_parse_ae, encode.c:1001-1252. *)
Definition parse_step (s : pstate) : outcome pres :=
  match p_ptr s with
  | [] => UB OutOfBounds
  | c :: _ =>
    if negb (ae_tchar c) && negb (ae_semicolon c) && negb (ae_space c) && negb (ae_zeros c) then Ok PError
    else match p_status s with
    | P_INIT =>                                                                     (* 1007-1020 *)
      if ae_tchar c then Ok (PNext (mkP P_NAME (p_ptr s) (Some (p_ptr s)) (p_qv s) 0 (p_acc s)))
      else if ae_zeros c then Ok (PNext (mkP P_ADD (p_ptr s) (p_name s) (p_qv s) 0 (p_acc s)))
      else Ok PError
    | P_NAME =>                                                                     (* 1021-1041 *)
      if ae_space c then goto s P_WSPACE
      else if ae_semicolon c then goto s P_SEMICOLON
      else if ae_comma c then goto s P_COMMA
      else if ae_zeros c then goto s P_ADD
      else if ae_tchar c && negb (ae_space c) && negb (ae_semicolon c) then advance s
      else Ok PError
    | P_WSPACE => if ae_space c then advance s else if ae_semicolon c then goto s P_SEMICOLON else Ok PError
    | P_SEMICOLON =>
      if ae_semicolon c then advance s else if ae_space c then goto s P_SPACE_AFTER else if ae_q c then goto s P_Q else Ok PError
    | P_SPACE_AFTER => if ae_space c then advance s else if ae_q c then goto s P_Q else Ok PError
    | P_Q => if ae_q c then advance s else if ae_equal c then goto s P_EQUAL else Ok PError
    | P_EQUAL =>                                                                    (* 1080-1095 *)
      if ae_equal c then advance s
      else if ae_one c then Ok (PNext (mkP P_ONE_INT (p_ptr s) (p_name s) (Some (p_ptr s)) (p_dec s) (p_acc s)))
      else if ae_zero c then Ok (PNext (mkP P_ZERO_INT (p_ptr s) (p_name s) (Some (p_ptr s)) (p_dec s) (p_acc s)))
      else Ok PError
    | P_ONE_INT =>
      if ae_one c then advance s else if ae_space c then goto s P_LAST_SPACE else if ae_point c then goto s P_ONE_POINT
      else if ae_zeros c then goto s P_ADD else if ae_comma c then goto s P_COMMA else Ok PError
    | P_ZERO_INT =>
      if ae_zero c then advance s else if ae_space c then goto s P_LAST_SPACE else if ae_point c then goto s P_ZERO_POINT
      else if ae_zeros c then goto s P_ADD else if ae_comma c then goto s P_COMMA else Ok PError
    | P_ONE_POINT => if ae_point c then advance s else if ae_zero c then goto s P_ONE_DEC else Ok PError
    | P_ZERO_POINT => if ae_point c then advance s else if ae_number c then goto s P_ZERO_DEC else Ok PError
    | P_ONE_DEC =>                                                                  (* 1154-1173 *)
      if ae_zero c && (p_dec s <? 3) then advance (mkP P_ONE_DEC (p_ptr s) (p_name s) (p_qv s) (S (p_dec s)) (p_acc s))
      else let s := mkP P_ONE_DEC (p_ptr s) (p_name s) (p_qv s) (p_dec s + (if ae_zero c then 1 else 0)) (p_acc s) in
      if ae_zeros c then goto s P_ADD else if ae_space c then goto s P_LAST_SPACE else if ae_comma c then goto s P_COMMA else Ok PError
    | P_ZERO_DEC =>                                                                 (* 1174-1193 *)
      if ae_number c && (p_dec s <? 3) then advance (mkP P_ZERO_DEC (p_ptr s) (p_name s) (p_qv s) (S (p_dec s)) (p_acc s))
      else let s := mkP P_ZERO_DEC (p_ptr s) (p_name s) (p_qv s) (p_dec s + (if ae_number c then 1 else 0)) (p_acc s) in
      if ae_zeros c then goto s P_ADD else if ae_space c then goto s P_LAST_SPACE else if ae_comma c then goto s P_COMMA else Ok PError
    | P_LAST_SPACE => if ae_space c then advance s else if ae_comma c then goto s P_COMMA else goto s P_ADD
    | P_COMMA => if ae_comma c || ae_space c then advance s else goto s P_ADD
    | P_ADD => parse_add s c
    end
  end.
Inductive ae_result := AeError | AeSuccess (acc : list (coding * Z)).
Fixpoint parse_run (fuel : nat) (s : pstate) : outcome ae_result :=
  match fuel with
  | 0 => UB Diverges
  | S f => obind (parse_step s) (fun r => match r with PNext s' => parse_run f s' | PError => Ok AeError | PSuccess a => Ok (AeSuccess a) end)
  end.
(** __fly_parse_ae, encode.c:975-1254, on the NUL-terminated value [v]. *)
Definition parse_ae (v : list N) : outcome ae_result :=
  parse_run (13 * length v + 26) (mkP P_INIT (v ++ [0%N]) None None 0 []).

(** ** The decision *)
(** __fly_decide_encoding, encode.c:1308-1343: index of the entry that gets "use", with the maximum
    quality reached. *)
Fixpoint decide_loop (i : nat) (l : list (coding * Z)) (best : option (nat * coding * Z)) : option (nat * coding * Z) :=
  match l with
  | [] => best
  | (c, q) :: t =>
    let max := match best with Some (_, _, m) => m | None => 0%Z end in
    let ok := (0 <? q)%Z && (max <? q)%Z && match best with Some (_, b, _) => (c_prio b <? c_prio c)%Z | None => true end in
    decide_loop (S i) t (if ok then Some (i, c, q) else best)
  end.
(** Result of fly_accept_encoding, encode.c:847-893 and 1256-1286: the accepted list (after the
    replacement of "*" at encode.c:1337-1341) and the entry in use. *)
Inductive decision := DNone | DUse (i : nat) (c : coding) | DNotAcceptable.
Definition decide (l : list (coding * Z)) : decision :=
  match l with
  | [] => DNone
  | _ => match decide_loop 0 l None with
         | None => DNotAcceptable
         | Some (i, c, _) => DUse i (if coding_eqb c CAny then most_priority else c)
         end
  end.
(** The accepted codings as later seen by fly_encoding_matching. *)
Fixpoint set_coding (l : list (coding * Z)) (i : nat) (c : coding) : list (coding * Z) :=
  match l, i with [] , _ => [] | (_, q) :: t, 0 => (c, q) :: t | e :: t, S i' => e :: set_coding t i' c end.
Definition accepted (l : list (coding * Z)) : list (coding * Z) :=
  match decide l with DUse i c => set_coding l i c | _ => l end.
Inductive enc_outcome := EncOk (l : list (coding * Z)) (d : decision) | Enc400 | Enc406.
(** [None]: no Accept-Encoding header (or an empty one), encode.c:863-874. *)
Definition accept_encoding (v : option (list N)) : outcome enc_outcome :=
  let fin l := match decide l with DNotAcceptable => Enc406 | d => EncOk (accepted l) d end in
  match v with
  | None => Ok (fin [(CAny, 100%Z)])
  | Some v => obind (parse_ae v) (fun r => match r with AeError => Ok Enc400 | AeSuccess l => Ok (fin l) end)
  end.
(** fly_decided_encoding_type, encode.c:1361-1375. *)
Definition decided_type (d : decision) : option coding := match d with DUse _ c => Some c | _ => None end.
(** fly_encoding_matching, encode.c:1440-1451. *)
Definition matching (l : list (coding * Z)) (ty : coding) : bool := existsb (fun e => etype_eqb (c_type (fst e)) (c_type ty)) l.
(** The coding named in Content-Encoding, fly_response_event, response.c:566-616 (the same code in
    v2.c:5123-5175): [pre] is the coding of a pre-encoded file, [over] the result of
    fly_over_encoding_threshold (response.c:611). *)
Definition response_coding (l : list (coding * Z)) (d : decision) (pre : option coding) (over : bool) : option coding :=
  match pre with
  | Some p => if matching l p then Some p else if over then decided_type d else None
  | None => if over then decided_type d else None
  end.

(** fly_supported_content_encoding, encode.c:1393-1401: the loop does not test for the terminating
    row, whose name is NULL. *)
Definition supported_content_encoding (v : list N) : outcome coding :=
  match List.find (fun c => strcmp_eqb (c_name c) v) encodes with Some c => Ok c | None => UB NullDeref end.
