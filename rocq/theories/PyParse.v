(** Model of fly/_parse.py and fly/cookie.py, and of the part of src/pyserver.c that makes Python strings of the fields of a
    request.  A Python string is the list of its code points ([pystr]); bytes stay lists of bytes.
    Not modelled: the name of a multipart part (lines 65-89), JSON bodies, the FormData classes (pydantic). *)
From Verif Require Import Base CStr Route.
Local Open Scope N_scope.

Definition pystr := list N.

(** ** Python strings (CPython) *)
(** Code points that may be encoded: no surrogates. *)
Definition scalar (c : N) : bool := (c <? 0xD800) || ((0xE000 <=? c) && (c <? 0x110000)).
(** str.encode("utf-8") of one code point. *)
Definition utf8_char (c : N) : list N :=
  if c <? 0x80 then [c]
  else if c <? 0x800 then [0xC0 + c / 64; 0x80 + c mod 64]
  else if c <? 0x10000 then [0xE0 + c / 4096; 0x80 + c / 64 mod 64; 0x80 + c mod 64]
  else [0xF0 + c / 262144; 0x80 + c / 4096 mod 64; 0x80 + c / 64 mod 64; 0x80 + c mod 64].
Definition utf8 (s : pystr) : list N := flat_map utf8_char s.
(** bytes.decode("utf-8"), PyUnicode_FromStringAndSize: strict; [None] is a UnicodeDecodeError. *)
Definition cont (b : N) : bool := (0x80 <=? b) && (b <? 0xC0).
Definition take (c : N) (ok : bool) (r : option pystr) : option pystr := if ok then option_map (cons c) r else None.
Fixpoint undec (b : list N) : option pystr :=
  match b with
  | [] => Some []
  | a :: t =>
    if a <? 0x80 then take a true (undec t)
    else if a <? 0xC2 then None
    else if a <? 0xE0 then
      match t with
      | x :: t => take ((a - 0xC0) * 64 + (x - 0x80)) (cont x) (undec t)
      | _ => None
      end
    else if a <? 0xF0 then
      match t with
      | x :: y :: t => let c := (a - 0xE0) * 4096 + (x - 0x80) * 64 + (y - 0x80) in take c (cont x && cont y && (0x800 <=? c) && scalar c) (undec t)
      | _ => None
      end
    else if a <? 0xF5 then
      match t with
      | x :: y :: z :: t => let c := (a - 0xF0) * 262144 + (x - 0x80) * 4096 + (y - 0x80) * 64 + (z - 0x80) in take c (cont x && cont y && cont z && (0x10000 <=? c) && scalar c) (undec t)
      | _ => None
      end
    else None
  end.
(** str.split with a separator of one character. *)
Fixpoint split (c : N) (s : pystr) : list pystr :=
  match s with
  | [] => [[]]
  | x :: r => if x =? c then [] :: split c r else match split c r with p :: ps => (x :: p) :: ps | [] => [[x]] end
  end.
(** The white space of str.strip. *)
Definition space (c : N) : bool :=
  ((9 <=? c) && (c <=? 13)) || ((28 <=? c) && (c <=? 32)) || (c =? 133) || (c =? 160) || (c =? 5760) || ((8192 <=? c) && (c <=? 8202)) ||
  (c =? 8232) || (c =? 8233) || (c =? 8239) || (c =? 8287) || (c =? 12288).
Fixpoint lstrip (s : pystr) : pystr := match s with c :: r => if space c then lstrip r else s | [] => [] end.
Definition strip (s : pystr) : pystr := rev (lstrip (rev (lstrip s))).
(** str.lower; [lo] gives the lower case of the code points outside ASCII (the two forms of the letter sigma are taken as one). *)
Definition lower_ascii (c : N) : N := if (65 <=? c) && (c <=? 90) then c + 32 else c.
Definition lower (lo : N -> pystr) (s : pystr) : pystr := flat_map (fun c => if c <? 128 then [lower_ascii c] else lo c) s.
(** str.replace('-', '_'), str.replace('+', ' ') *)
Definition replace (a b : N) (s : pystr) : pystr := map (fun c => if c =? a then b else c) s.
(** int of a string, CPython PyLong_FromString with base 10: white space around, a sign, digits with single underscores
    between them.  [lim]: the greatest number of digits, 0 if there is no limit (before Python 3.10.7).  Digits outside ASCII are not
    modelled: a request line has none. *)
Definition digit (c : N) : bool := (48 <=? c) && (c <=? 57).
Fixpoint digits (acc : Z) (prev : bool) (s : pystr) : option Z :=
  match s with
  | [] => if prev then Some acc else None
  | c :: r => if digit c then digits (10 * acc + Z.of_N (c - 48))%Z true r
              else if (c =? 95) && prev then digits acc false r else None
  end.
Definition py_int (lim : nat) (s : pystr) : option Z :=
  let s := strip s in
  let '(neg, d) := match s with 45 :: r => (true, r) | 43 :: r => (false, r) | _ => (false, s) end in
  if (0 <? lim)%nat && (lim <? length (filter digit d))%nat then None
  else option_map (fun z => if neg : bool then (- z)%Z else z) (digits 0 false d).

(** ** urllib.parse *)
Definition hexval (c : N) : option N :=
  if digit c then Some (c - 48) else if (65 <=? c) && (c <=? 70) then Some (c - 55) else if (97 <=? c) && (c <=? 102) then Some (c - 87) else None.
(** unquote_to_bytes of an ASCII string. *)
Fixpoint pct (s : list N) : list N :=
  match s with
  | [] => []
  | c :: r =>
    if c =? 37 then
      match r with
      | a :: b :: r' =>
        match hexval a, hexval b with
        | Some x, Some y => 16 * x + y :: pct r'
        | _, _ => c :: pct r
        end
      | _ => c :: pct r
      end
    else c :: pct r
  end.
(** bytes.decode('utf-8', 'replace'); [bad] is what it makes of bytes that are not UTF-8. *)
Definition undec_replace (bad : list N -> pystr) (b : list N) : pystr := match undec b with Some s => s | None => bad b end.
(** unquote: the ASCII parts of the string are decoded one by one. [acc]: the part before, reversed. *)
Fixpoint unquote_go (bad : list N -> pystr) (acc : list N) (s : pystr) : pystr :=
  match s with
  | [] => undec_replace bad (pct (rev acc))
  | c :: r => if c <? 128 then unquote_go bad (c :: acc) r else undec_replace bad (pct (rev acc)) ++ c :: unquote_go bad [] r
  end.
Definition unquote (bad : list N -> pystr) (s : pystr) : pystr := unquote_go bad [] s.
Definition unquote_plus (bad : list N -> pystr) (s : pystr) : pystr := unquote bad (replace 43 32 s).

(** ** fly/_parse.py *)
(** next(i, None) twice on the pieces between '='. *)
Definition pair_of (item : pystr) : pystr * option pystr :=
  match split 61 item with
  | n :: v :: _ => (n, Some v)
  | [n] => (n, None)
  | [] => ([], None)
  end.
(** parse_cookie, lines 44-63. *)
Definition parse_cookie (headers : list pystr) : list (pystr * option pystr) :=
  flat_map (fun h => map (fun item => let '(n, v) := pair_of item in (strip n, option_map strip v)) (split 59 h)) headers.
(** _parse_application_x_www_form_urlencoded, 91-103: a dictionary; [None]: the body is not UTF-8 and an exception is raised. *)
Fixpoint dict_set (k : pystr) (v : option pystr) (d : list (pystr * option pystr)) : list (pystr * option pystr) :=
  match d with
  | [] => [(k, v)]
  | (k', v') :: t => if bytes_eqb k k' then (k, v) :: t else (k', v') :: dict_set k v t
  end.
Definition parse_form (bad : list N -> pystr) (body : list N) : option (list (pystr * option pystr)) :=
  match undec body with
  | None => None
  | Some s => Some (fold_left (fun d item => let '(n, v) := pair_of item in dict_set (strip n) (option_map strip v) d) (split 38 (unquote_plus bad s)) [])
  end.
(** _parse_query, 168-178. *)
Definition parse_query (bad : list N -> pystr) (q : pystr) : list (pystr * option pystr) :=
  map (fun i => let '(n, v) := pair_of i in (unquote bad n, option_map (unquote bad) v)) (split 38 q).
(** _convert_to_lower, 113-115. *)
Definition convert (lo : N -> pystr) (s : pystr) : pystr := replace 45 95 (lower lo s).
(** _get_cookie, _get_header, the loop of _get_query_params, 118-134, 181-188: the first field with the name. *)
Fixpoint get (lo : N -> pystr) (name : pystr) (l : list (pystr * option pystr)) : option pystr :=
  match l with
  | [] => None
  | (n, v) :: t => if bytes_eqb (convert lo n) name then v else get lo name t
  end.
(** _get_path_params, 136-166.  [flt]: float of a string. *)
Inductive pyvalue := VInt (z : Z) | VFloat (f : N) | VBool (b : bool) | VStr (s : pystr).
Inductive raised := Raise404 | RaiseKey | RaiseAttribute.
Fixpoint get_path (lo : N -> pystr) (lim : nat) (flt : pystr -> option N) (name : pystr) (ps : list (param * pystr)) : raised + option pyvalue :=
  match ps with
  | [] => inr None
  | (p, v) :: t =>
    if bytes_eqb name (convert lo (pm_name p)) then
      match pm_type p with
      | PInt => match py_int lim v with Some z => inr (Some (VInt z)) | None => inl Raise404 end
      | PFloat => match flt v with Some f => inr (Some (VFloat f)) | None => inl Raise404 end
      | PBool => inr (Some (VBool (match v with [] => false | _ => true end)))
      | PStr => inr (Some (VStr v))
      end
    else get_path lo lim flt name t
  end.

(** ** parse_func_args, 275-338 *)
(** The dictionary of a request: its keys, and the entries the lookups use. *)
Record prequest := mkRequest { rq_keys : list pystr; rq_path : list (param * pystr); rq_query : option pystr;
                               rq_header : list (pystr * option pystr); rq_cookie : list pystr }.
Definition has (k : pystr) (rq : prequest) : bool := existsb (bytes_eqb k) (rq_keys rq).
(** request.pop *)
Definition pop (k : pystr) (rq : prequest) : prequest :=
  mkRequest (filter (fun x => negb (bytes_eqb k x)) (rq_keys rq)) (rq_path rq) (rq_query rq) (rq_header rq) (rq_cookie rq).
Definition entry {A} (k : pystr) (rq : prequest) (x : A) (none : A) : A := if has k rq then x else none.
(** Annotations of an argument; FormData classes are not modelled. *)
Inductive ann := NoAnn | AnRequest | AnHeader | AnBody | AnCookie | AnPath | AnQuery.
Inductive arg := ANone | AText (s : pystr) | AVal (v : pyvalue) | AEntry (k : pystr) | AWhole.
Definition text_arg (o : option pystr) : arg := match o with Some s => AText s | None => ANone end.
Section ARGS.
  Context (bad : list N -> pystr) (lo : N -> pystr) (lim : nat) (flt : pystr -> option N).
  Definition query_fields (q : option pystr) : list (pystr * option pystr) := match q with Some q => parse_query bad q | None => [] end.
  (** _check_with_annotation, 227-272: it reads the dictionary as it is then. *)
  Definition annotated (rq : prequest) (a : ann) (i : pystr) : raised + arg :=
    match a with
    | AnRequest => inr (if bytes_eqb i (bs "request") then AWhole else entry i rq (AEntry i) ANone)
    | AnHeader => inr (text_arg (get lo i (entry (bs "header") rq (rq_header rq) [])))
    | AnBody => inr (entry (bs "body") rq (AEntry (bs "body")) ANone)
    | AnCookie => inr (text_arg (get lo i (entry (bs "cookie") rq (parse_cookie (rq_cookie rq)) [])))
    | AnPath => match get_path lo lim flt i (entry (bs "path_params") rq (rq_path rq) []) with inl e => inl e | inr (Some v) => inr (AVal v) | inr None => inr ANone end
    | AnQuery => inr (text_arg (get lo i (entry (bs "query") rq (query_fields (rq_query rq)) [])))
    | NoAnn => inl RaiseKey
    end.
  (** The loop 286-326.  The four sources of an argument that is no entry are read once, before the loop ([rq0]). *)
  Definition unannotated (rq0 rq : prequest) (i : pystr) : raised + (arg * prequest) :=
    if bytes_eqb i (bs "request") then inr (AWhole, rq)
    else if has i rq then inr (AEntry i, pop i rq)
    else
      match get_path lo lim flt i (entry (bs "path_params") rq0 (rq_path rq0) []) with
      | inl e => inl e
      | inr (Some v) => inr (AVal v, rq)
      | inr None =>
        match get lo i (entry (bs "query") rq0 (query_fields (rq_query rq0)) []), get lo i (entry (bs "cookie") rq0 (parse_cookie (rq_cookie rq0)) []),
              get lo i (entry (bs "header") rq0 (rq_header rq0) []) with
        | Some s, _, _ => inr (AText s, rq)
        | None, Some s, _ => inr (AText s, rq)
        | None, None, Some s => inr (AText s, rq)
        | None, None, None => inl RaiseKey
        end
      end.
  Fixpoint bind_args (rq0 rq : prequest) (args : list (pystr * ann)) : raised + list arg :=
    match args with
    | [] => inr []
    | (i, a) :: t =>
      match (match a with NoAnn => unannotated rq0 rq i | _ => match annotated rq a i with inl e => inl e | inr x => inr (x, rq) end end) with
      | inl e => inl e
      | inr (x, rq) => match bind_args rq0 rq t with inl e => inl e | inr xs => inr (x :: xs) end
      end
    end.
  (** Line 282: the dictionary has a "cookie" entry from here on. *)
  Definition with_cookie (rq : prequest) : prequest :=
    mkRequest (bs "cookie" :: rq_keys rq) (rq_path rq) (rq_query rq) (rq_header rq) (if has (bs "cookie") rq then rq_cookie rq else []).
  (** [varkw]: the function takes ** arguments; line 329 reads self._func_args, which no line sets. *)
  Definition parse_func_args (rq : prequest) (args : list (pystr * ann)) (varkw : bool) : raised + list arg :=
    match bind_args (with_cookie rq) (with_cookie rq) args with
    | inl e => inl e
    | inr xs => if varkw then inl RaiseAttribute else inr xs
    end.
End ARGS.

(** ** fly/cookie.py *)
Inductive samesite := Strict | Lax | SNone.
Record cookie_opts := mkCo { co_max_age : option Z; co_secure : bool; co_http_only : bool; co_domain : option pystr; co_path : option pystr; co_samesite : option samesite }.
Definition samesite_text (s : samesite) : pystr := match s with Strict => bs "Strict" | Lax => bs "Lax" | SNone => bs "None" end.
Definition gap : pystr := bs "; ".
(** header_value_from_cookie, 9-61, for a value that is a string ([text]: str of an int); zero and empty options are false. *)
Definition set_cookie (text : Z -> pystr) (name value : pystr) (o : cookie_opts) : pystr :=
  name ++ 61 :: value ++
  match co_max_age o with Some z => if (z =? 0)%Z then [] else gap ++ bs "Max-Age=" ++ text z | None => [] end ++
  (if co_secure o then gap ++ bs "Secure" else []) ++
  (if co_http_only o then gap ++ bs "HttpOnly" else []) ++
  match co_domain o with Some ((_ :: _) as d) => gap ++ bs "Domain=" ++ d | _ => [] end ++
  match co_path o with Some ((_ :: _) as p) => gap ++ bs "Path=" ++ p | _ => [] end ++
  match co_samesite o with Some s => gap ++ bs "SameSite=" ++ samesite_text s | None => [] end.

(** ** src/pyserver.c: the header entry of the dictionary, lines 383-458 *)
(** A name or value that is not UTF-8: PyUnicode_FromStringAndSize returns NULL, and PyDict_SetItemString is called with it
    (394-399). *)
Fixpoint header_entry (l : list (list N * list N)) : outcome (list (pystr * pystr)) :=
  match l with
  | [] => Ok []
  | (n, v) :: t =>
    match undec n, undec v with
    | Some n, Some v => obind (header_entry t) (fun r => Ok ((n, v) :: r))
    | _, _ => UB NullDeref
    end
  end.
