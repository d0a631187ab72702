(** Model of the multipart body parser of src/body.c and of what a handler is given as body
    (src/pyserver.c).

    A pointer into the body is the list of the bytes from it to the end of the body; a read through
    an empty list is out of bounds.  The end of the body is the end of the allocation
    (request.c:1479, body.c:70/108).  Failures of fly_pballoc are not modelled. *)
From Verif Require Import Base CStr Mime.

Definition CR : N := 13.
Definition LF : N := 10.
Definition SP : N := 32.
Definition HT : N := 9.
Definition MINUS : N := 45.
Definition COLON : N := 58.

(** [p\[0\] == a && p\[1\] == b], reading the second byte only if the first one matches
    (fly_cr/fly_lf/fly_minus tests of body.c:189, 249, 327, 346, 349). *)
Definition two (a b : N) (s : list N) : outcome bool :=
  match s with
  | [] => UB OutOfBounds
  | x :: t => if (x =? a)%N then match t with [] => UB OutOfBounds | y :: _ => Ok (y =? b)%N end
              else Ok false
  end.

(** strncmp(ptr, pre, strlen(pre)) == 0 on memory that is not NUL-terminated, body.c:143: stops at the
    first difference. *)
Fixpoint strncmp_mem (pre s : list N) : outcome bool :=
  match pre with
  | [] => Ok true
  | p :: pre' => match s with
                 | [] => UB OutOfBounds
                 | x :: t => if (x =? p)%N then strncmp_mem pre' t else Ok false
                 end
  end.

(** The states of __fly_multipart_parse_line (body.c:122-131) that read a byte; INIT, ADD and END are
    folded into [parse_line].  The bytes of name and value read so far are kept in reverse. *)
Inductive lstate := LName | LNameSpace | LColon | LColonSpace | LValue.

(** Result of a line: [None] is the error return. [Some (name, value, rest)]: the pointer is left at LF. *)
Definition lres := option (list N * list N * list N).

(** The loop body.c:140-211 after INIT; [last_ptr] is the last byte of the body (body.c:257), so the
    loop runs while two bytes remain and consuming all but the last byte is an error (line 209). *)
Fixpoint line_loop (st : lstate) (name value : list N) (s : list N) {struct s} : outcome lres :=
  match s with
  | [] => UB OutOfBounds
  | c :: t =>
    let next st' name' value' :=
      if length t <=? 1 then Ok None else line_loop st' name' value' t in
    let in_value :=
      match t with
      | [] => UB OutOfBounds
      | d :: _ => if (c =? CR)%N && (d =? LF)%N
                  then if length t <=? 1 then Ok None else Ok (Some (rev name, rev value, t))
                  else next LValue name (c :: value)
      end in
    let blank := (c =? SP)%N || (c =? HT)%N in
    match st with
    | LName => if blank then next LNameSpace name value
               else if (c =? COLON)%N then next LColon name value
               else next LName (c :: name) value
    | LNameSpace => if blank then next LNameSpace name value
                    else if (c =? COLON)%N then next LColon name value
                    else Ok None
    | LColon => if blank then next LColonSpace name value else in_value
    | LColonSpace => if blank then next LColonSpace name value else in_value
    | LValue => in_value
    end
  end.

(** __fly_multipart_parse_line, body.c:120-215. *)
Definition parse_line (s : list N) : outcome lres :=
  obind (strncmp_mem (bs "Content-") s) (fun b =>
  if b then line_loop LName [] [] s else Ok None).

(** __fly_multipart_header_parse, body.c:247-267: the loop, then the empty line.  When fewer than two
    bytes remain the pointer leaves the body; the next read is out of bounds in either case. *)
Fixpoint header_parse (fuel : nat) (s : list N) (acc : list (list N * list N)) : outcome (option (list (list N * list N) * list N)) :=
  match fuel with
  | 0 => UB Diverges
  | S f =>
    if length s <=? 1 then Ok (Some (rev acc, []))
    else obind (two CR LF s) (fun e =>
      if e then Ok (Some (rev acc, skipn 2 s))
      else obind (parse_line s) (fun r =>
        match r with
        | None => Ok None
        | Some (name, value, rest) => header_parse f (tl rest) ((name, value) :: acc)
        end))
  end.

(** struct fly_body_parts, body.h: headers, ptr (as an offset into the body) and parts_len (size_t;
    a negative number stands for its wrapped value). *)
Record part := mkPart { p_headers : list (list N * list N); p_off : nat; p_len : Z }.

(** body.c:333-338: the parts_len of the last part is set at every "--" (FLY_CRLF_LENGTH = 2).  [parts]
    is kept with the last part first. *)
Definition close_last (pos : nat) (parts : list part) : list part :=
  match parts with
  | [] => []
  | p :: r => mkPart (p_headers p) (p_off p) (Z.of_nat pos - Z.of_nat (p_off p) - 2) :: r
  end.

(** Where the parser is: looking for "--" (body.c:326-331) or comparing byte [i] of the boundary
    (body.c:342). *)
Inductive mode := Scan | Cmp (i : nat).

(** boundary[i]: the value of the field is NUL-terminated (header.c:87-91, 175-179). *)
Definition boundary_at (b : list N) (i : nat) : outcome N :=
  match nth_error b i with
  | Some x => Ok x
  | None => if i =? length b then Ok 0%N else UB OutOfBounds
  end.

(** The loops body.c:326-374.  [total] is the length of the body, used to turn pointers into offsets.
    Every iteration consumes a byte, so the fuel [S (length body)] is never exhausted
    (MultipartProofs.go_total). *)
Fixpoint go (fuel : nat) (b : list N) (total : nat) (m : mode) (s : list N) (parts : list part) : outcome (list part) :=
  match fuel with
  | 0 => UB Diverges
  | S f =>
    match m with
    | Scan =>
      match s with
      | [] => Ok parts
      | _ :: t =>
        obind (two MINUS MINUS s) (fun d =>
        if d then go f b total (Cmp 0) (skipn 2 s) (close_last (total - length s) parts)
        else go f b total Scan t parts)
      end
    | Cmp i =>
      obind (boundary_at b i) (fun x =>
      match s with
      | [] => UB OutOfBounds
      | c :: t =>
        if negb (x =? c)%N then go f b total Scan t parts
        else if S i <? length b then go f b total (Cmp (S i)) t parts
        else
          obind (two MINUS MINUS t) (fun e =>
          if e then Ok parts
          else obind (two CR LF t) (fun l =>
          if negb l then Ok parts
          else if length t <=? 2 then Ok parts
          else obind (header_parse (length t) (skipn 2 t) []) (fun r =>
          match r with
          | None => Ok parts
          | Some (hs, rest) =>
            go f b total (Cmp (S i)) rest (mkPart hs (total - length rest) 0 :: parts)
          end)))
      end)
    end
  end.

(** The loops body.c:302-316: seek a character, giving up when only one byte is left; applied to ';', to
    ' ' and to '='. *)
Fixpoint seek (ch : N) (s : list N) : option (list N) :=
  match s with
  | [] => None
  | c :: t => if (c =? ch)%N then Some s else if length t <=? 1 then None else seek ch t
  end.
(** body.c:299-320: everything after the '='. *)
Definition boundary_of (value : list N) : option (list N) :=
  match seek 59 value with
  | None => None
  | Some s1 => match seek SP s1 with
               | None => None
               | Some s2 => match seek 61 s2 with
                            | None => None
                            | Some s3 => Some (tl s3)
                            end
               end
  end.

(** What the handler finds in the request dictionary as "body", pyserver.c:616-699: the bytes, or the
    list of parts; [Fails] is response_500 (PyByteArray_FromStringAndSize refuses a negative size).
    The decoding of names and values as UTF-8 is not modelled. *)
Inductive hbody := Raw (b : list N) | Parts (l : list (list (list N * list N) * list N)) | Fails.

(** pyserver.c:676: the content of one part. *)
Definition content (body : list N) (p : part) : list N :=
  firstn (Z.to_nat (p_len p)) (skipn (p_off p) body).
Definition handler_body (body : list N) (parts : list part) : hbody :=
  match parts with
  | [] => Raw body                                            (* body->multipart is false *)
  | _ => if existsb (fun p => (p_len p <? 0)%Z) parts then Fails
         else Parts (map (fun p => (p_headers p, content body p)) (rev parts))
  end.

(** The test of a field name in body.c:288-291 and header.c:332-333. *)
Definition is_ct (h : list N * list N) : bool :=
  strcmp_eqb (fst h) (bs "Content-Type") || strcmp_eqb (fst h) (bs "content-type").

(** fly_is_multipart_form_data, header.c:321-340 (field values non-NULL). *)
Fixpoint is_multipart (hs : list (list N * list N)) : outcome bool :=
  match hs with
  | [] => Ok false
  | h :: r => if is_ct h
              then obind (mime_from_strn (snd h)) (fun m =>
                   if bytes_eqb (mt_name m) (bs "multipart/form-data") then Ok true else is_multipart r)
              else is_multipart r
  end.

(** request.c:1485-1486 (the same in v2.c:4938-4939) with fly_body_parse_multipart, body.c:269-375, and
    then the body given to the handler.  The request has fields, so the first test (body.c:283) does
    not return. *)
Definition received (hs : list (list N * list N)) (body : list N) : outcome hbody :=
  obind (is_multipart hs) (fun g =>
  if negb g then Ok (Raw body)
  else match List.find is_ct hs with
       | None => Ok (Raw body)
       | Some h =>
         match boundary_of (snd h) with
         | None => Ok (Raw body)
         | Some b => obind (go (S (length body)) b (length body) Scan body []) (fun ps =>
                     Ok (handler_body body ps))
         end
       end).
