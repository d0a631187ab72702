(** Header fields: the parser of a received header section (src/request.c:686-950), the list of
    fields and its operations (src/header.c) and the functions that look a field up. *)
From Verif Require Import Base CStr CNum Buffer Machine Names Reqline.
Local Open Scope N_scope.

(** struct fly_hdr_chain, header.h:27-50: name and value; None is a NULL pointer.  The lengths are the
    lengths of the lists ([h_nlen], [h_vlen]); the terminating NUL is left out.  The HTTP/2 and
    cookie marks are not modelled here. *)
Record hdr := mkHdr { h_name : option (list N); h_value : option (list N) }.
Definition h_nlen (h : hdr) : nat := match h_name h with Some n => length n | None => 0 end.
Definition h_vlen (h : hdr) : nat := match h_value h with Some v => length v | None => 0 end.
(** struct fly_hdr_chain_info, header.h:53-60. *)
Record hci := mkHci { hc_chain : list hdr; hc_count : nat }.
(** fly_header_init, header.c:15-24. *)
Definition header_init : hci := mkHci [] 0.

(** ** __fly_parse_header_line, request.c:736-868 *)
(** __fly_header_field_name, __fly_ows, __fly_field_content: request.c:688-702. *)
Definition field_name_char : N -> bool := rl_tchar.
Definition hd_ows (c : N) : bool := (c =? 32) || (c =? 9).
Definition field_content (c : N) : bool := vchar c || (c =? 32) || (c =? 9).
(** __fly_end_of_header, request.c:708-716. *)
Definition end_of_header (c : N) : bool := (c =? 10) || (c =? 13).
(** The enumeration at request.c:738-748 (OWS2 is never entered). *)
Inductive hstatus := HInit | HFieldName | HColon | HOws1 | HFieldValue | HCr | HLf | HNext.
(** The locals of request.c:750 and the output parameters. *)
Record hst := mkHst { hs_st : hstatus; hs_ptr : ptr; hs_name : option ptr; hs_nlen : nat; hs_value : option ptr; hs_vlen : nat }.
Inductive lres :=
| LSuccess (p : ptr) (name : option ptr) (nlen : nat) (value : option ptr) (vlen : nat)   (* _FLY_PARSE_SUCCESS *)
| LEnd                                                                                (* _FLY_PARSE_END_OF_HEADER *)
| LError (p : ptr)                                                                    (* _FLY_PARSE_ERROR *)
| LFatal                                                                              (* _FLY_PARSE_FATAL *)
| LItm.                                                                               (* _FLY_PARSE_ITM *)
Notation hsres := (sres hst lres) (only parsing).
Definition hgo (s : hst) (st : hstatus) : hst := mkHst st (hs_ptr s) (hs_name s) (hs_nlen s) (hs_value s) (hs_vlen s).
(** strchr(ptr, LF) and the loop "while (!fly_lf( *ptr++ ))" (request.c:849-856) on the bytes of the
    block from ptr on: how far ptr moves, None if a NUL comes first. *)
Fixpoint find_lf (l : list N) (n : nat) : outcome (option nat) :=
  match l with
  | [] => UB OutOfBounds
  | c :: t => if c =? 10 then Ok (Some (S n)) else if c =? 0 then Ok None else find_lf t (S n)
  end.
(** "error:", request.c:848-858. *)
Definition h_error (b : buffer) (p : ptr) : outcome hsres :=
  match nth_error (b_chains b) (fst p) with
  | None => UB OutOfBounds
  | Some c => obind (find_lf (skipn (snd p) (c_data c)) 0) (fun r => match r with
      | None => Ok (Done LFatal)
      | Some n => Ok (Done (LError (fst p, snd p + n)%nat))
      end)
  end.
(** "break": request.c:834-837; a NULL result is then given to strchr. *)
Definition h_brk (b : buffer) (s : hst) : outcome hsres :=
  match update_chain b (hs_ptr s) 1 with
  | None => UB NullDeref
  | Some p => Ok (Next (mkHst (hs_st s) p (hs_name s) (hs_nlen s) (hs_value s) (hs_vlen s)))
  end.
(** One iteration of the loop at request.c:755-838. *)
Definition hl_step (b : buffer) (s : hst) : outcome hsres :=
  obind (load b (hs_ptr s)) (fun c =>
  match hs_st s with
  | HInit =>
    if field_name_char c then Ok (Next (mkHst HFieldName (hs_ptr s) (Some (hs_ptr s)) (hs_nlen s) (hs_value s) (hs_vlen s)))
    else if end_of_header c then Ok (Done LEnd)
    else if c =? 0 then Ok (Done LItm)
    else h_error b (hs_ptr s)
  | HFieldName =>
    if c =? 58 then h_brk b (hgo s HColon)
    else if c =? 0 then Ok (Done LItm)
    else if field_name_char c then h_brk b (mkHst HFieldName (hs_ptr s) (hs_name s) (S (hs_nlen s)) (hs_value s) (hs_vlen s))
    else h_error b (hs_ptr s)
  | HColon => if hd_ows c then Ok (Next (hgo s HOws1)) else h_error b (hs_ptr s)
  | HOws1 =>
    if hd_ows c then h_brk b s
    else if c =? 13 then h_brk b (hgo s HCr)
    else if c =? 0 then Ok (Done LItm)                       (* for LF only the status changes, request.c:796-798 *)
    else if field_content c then Ok (Next (mkHst HFieldValue (hs_ptr s) (hs_name s) (hs_nlen s) (Some (hs_ptr s)) (hs_vlen s)))
    else h_error b (hs_ptr s)
  | HFieldValue =>
    if c =? 13 then h_brk b (hgo s HCr)
    else if c =? 10 then h_brk b (hgo s HLf)
    else if c =? 0 then Ok (Done LItm)
    else if field_content c then h_brk b (mkHst HFieldValue (hs_ptr s) (hs_name s) (hs_nlen s) (hs_value s) (S (hs_vlen s)))
    else h_error b (hs_ptr s)
  | HCr => if c =? 10 then h_brk b (hgo s HLf) else if c =? 0 then Ok (Done LItm) else h_error b (hs_ptr s)
  | HLf => Ok (Next (hgo s HNext))
  | HNext => Ok (Done (LSuccess (hs_ptr s) (hs_name s) (hs_nlen s) (hs_value s) (hs_vlen s)))
  end).
(** The fuel is enough for every well-formed buffer (HeaderProofs). *)
Definition parse_header_line (b : buffer) (p : ptr) : outcome lres :=
  run (hl_step b) (3 * mem_size b + 8) (mkHst HInit p None 0 None 0).

(** ** fly_header_addb, header.c:158-188 *)
(** fly_alpha_lower, char.h:73-76. *)
Definition lower (c : N) : N := if (65 <=? c) && (c <=? 90) then c + 32 else c.
(** name[0..n-1] read through a plain pointer, header.c:171-172. *)
Definition contiguous (b : buffer) (p : ptr) (n : nat) : outcome (list N) :=
  match nth_error (b_chains b) (fst p) with
  | None => UB OutOfBounds
  | Some c => if (length (c_data c) <? snd p + n)%nat then UB OutOfBounds else Ok (firstn n (skipn (snd p) (c_data c)))
  end.
Definition buf_copy (b : buffer) (p : option ptr) (n : nat) : outcome (list N) :=
  match n, p with 0%nat, _ => Ok [] | _, None => UB NullDeref | _, Some p => memcpy b p 0 n end.
(** The destination is cleared first (header.c:168, 178), so bytes that are not copied are NUL. *)
Definition padded (n : nat) (l : list N) : list N := l ++ repeat 0 (n - length l).
Definition header_addb (b : buffer) (ci : hci) (name : option ptr) (nlen : nat) (value : option ptr) (vlen : nat) : outcome hci :=
  obind (buf_copy b name nlen) (fun _ =>
  obind (match nlen, name with 0%nat, _ => Ok [] | _, None => UB NullDeref | _, Some p => contiguous b p nlen end) (fun n =>
  obind (buf_copy b value vlen) (fun v =>
    Ok (mkHci (hc_chain ci ++ [mkHdr (Some (map lower n)) (Some (padded vlen v))]) (S (hc_count ci)))))).

(** ** __fly_parse_header, request.c:870-937 *)
Inductive hp_result := HSuccess (ci : hci) (b : buffer) | HItm (ci : hci) (b : buffer) | HError (ci : hci) (b : buffer).
(** The first block's use pointer. *)
Definition first_use (b : buffer) : outcome ptr :=
  match b_chains b with [] => UB NullDeref | c :: _ => Ok (0%nat, c_use c) end.
(** A pointer into block ci after the release of the first [k] blocks. *)
Definition shift_ptr (p : ptr) (k : nat) : outcome ptr := if (fst p <? k)%nat then UB UseAfterFree else Ok ((fst p - k)%nat, snd p).
(** The bytes of the line are released and ptr moved: request.c:918-922. *)
Definition next_line (b : buffer) (p from : ptr) : outcome (buffer * ptr) :=
  obind (ptr_len b p from) (fun n =>
  obind (release b (Z.to_nat n)) (fun b' =>
  obind (shift_ptr p (length (b_chains b) - length (b_chains b'))) (fun p' => Ok (b', p')))).
Fixpoint parse_header_loop (fuel : nat) (b : buffer) (p : ptr) (ci : hci) : outcome hp_result :=
  match fuel with
  | O => UB Diverges
  | S f =>
    obind (parse_header_line b p) (fun r =>
      match r with
      | LEnd => obind (release b 2) (fun b' => Ok (HSuccess ci b'))
      | LFatal => Ok (HError ci b)
      | LItm => Ok (HItm ci b)
      | LError q => obind (next_line b q p) (fun bp => parse_header_loop f (fst bp) (snd bp) ci)
      | LSuccess q name nlen value vlen =>
        obind (header_addb b ci name nlen value vlen) (fun ci' =>
        obind (next_line b q p) (fun bp => parse_header_loop f (fst bp) (snd bp) ci'))
      end)
  end.
(** fly_reqheader_operation, request.c:939-948: a new list is made on every call. *)
Definition reqheader_operation (b : buffer) : outcome hp_result :=
  obind (first_use b) (fun p => parse_header_loop (S (mem_size b)) b p header_init).

(** ** The list of fields *)
(** strcmp(c->name, name) == 0; a NULL name is dereferenced. *)
Definition name_is (h : hdr) (name : list N) : outcome bool :=
  match h_name h with None => UB NullDeref | Some n => Ok (strcmp_eqb (cstr n) name) end.
(** __fly_header_add, header.c:69-97. *)
Definition new_hdr (name value : list N) : hdr :=
  mkHdr (match name with [] => None | _ => Some name end) (match value with [] => None | _ => Some value end).
Definition header_add0 (ci : hci) (name value : list N) (beginning : bool) : hci :=
  mkHci (if beginning then new_hdr name value :: hc_chain ci else hc_chain ci ++ [new_hdr name value]) (S (hc_count ci)).
(** fly_header_add, header.c:117-123. *)
Definition header_add (ci : hci) (name value : list N) : hci := header_add0 ci name value false.
(** The position of the first field whose name is [name]. *)
Fixpoint find_name (l : list hdr) (name : list N) (i : nat) : outcome (option nat) :=
  match l with
  | [] => Ok None
  | h :: t => obind (name_is h name) (fun e => if e then Ok (Some i) else find_name t name (S i))
  end.
(** fly_header_add_ifno, header.c:99-115. *)
Definition header_add_ifno (ci : hci) (name value : list N) : outcome hci :=
  obind (find_name (hc_chain ci) name 0) (fun r => Ok (match r with Some _ => ci | None => header_add ci name value end)).
(** fly_header_add_ver_ifno with hv2 false, header.c:126-146: the lengths are compared first. *)
Fixpoint find_len_name (l : list hdr) (name : list N) : outcome bool :=
  match l with
  | [] => Ok false
  | h :: t =>
    if negb (h_nlen h =? length name)%nat then find_len_name t name
    else match h_name h with
         | None => match name with [] => Ok true | _ => UB NullDeref end        (* strncmp(NULL, name, 0) *)
         | Some n => if strncmp_eqb (length name) (cstr n) name then Ok true else find_len_name t name
         end
  end.
Definition header_add_ver_ifno (ci : hci) (name value : list N) : outcome hci :=
  obind (find_len_name (hc_chain ci) name) (fun r => Ok (if r then ci else header_add ci name value)).
(** Replace the value of field number [i]. *)
Fixpoint set_value (l : list hdr) (i : nat) (value : list N) : list hdr :=
  match l, i with
  | [], _ => []
  | h :: t, O => mkHdr (h_name h) (Some value) :: t
  | h :: t, S i' => h :: set_value t i' value
  end.
(** fly_header_addmodify with hv2 false, header.c:218-242. *)
Definition header_addmodify (ci : hci) (name value : list N) : outcome hci :=
  obind (find_name (hc_chain ci) name 0) (fun r => Ok (match r with
    | Some i => mkHci (set_value (hc_chain ci) i value) (hc_count ci)
    | None => header_add ci name value
    end)).
(** Remove the field number [i]. *)
Fixpoint remove_at (l : list hdr) (i : nat) : list hdr :=
  match l, i with [], _ => [] | _ :: t, O => t | h :: t, S i' => h :: remove_at t i' end.
(** fly_header_delete, header.c:244-262; the bool is "the result is 0". *)
Definition header_delete (ci : hci) (name : list N) : outcome (hci * bool) :=
  obind (find_name (hc_chain ci) name 0) (fun r => Ok (match r with
    | Some i => (mkHci (remove_at (hc_chain ci) i) (hc_count ci - 1), true)
    | None => (ci, false)
    end)).
(** fly_remove_header_chain, header.c:667-692: after a field was removed and released, the loop reads
    the next pointer from the released field (fly_for_each_bllist, bllist.h). *)
Fixpoint remove_chain_loop (l : list hdr) (name : list N) : outcome (list hdr) :=
  match l with
  | [] => Ok []
  | h :: t =>
    if negb (h_nlen h =? length name)%nat then obind (remove_chain_loop t name) (fun r => Ok (h :: r))
    else match h_name h with
         | None => match name with [] => UB UseAfterFree | _ => UB NullDeref end
         | Some n => if strncmp_eqb (length name) (cstr n) name then UB UseAfterFree
                     else obind (remove_chain_loop t name) (fun r => Ok (h :: r))
         end
  end.
Definition remove_header_chain (ci : hci) (name : list N) : outcome hci :=
  if (hc_count ci =? 0)%nat then Ok ci
  else obind (remove_chain_loop (hc_chain ci) name) (fun l => Ok (mkHci l (hc_count ci - (length (hc_chain ci) - length l)))).

(** ** Looking fields up *)
(** fly_content_length, header.c:316-333; the result is a long long. *)
Fixpoint content_length_loop (l : list hdr) : outcome Z :=
  match l with
  | [] => Ok 0%Z
  | h :: t =>
    match h_name h with
    | None => content_length_loop t
    | Some [] => content_length_loop t
    | Some n =>
      if (strcmp_eqb (cstr n) (bs "Content-Length") || strcmp_eqb (cstr n) (bs "content-length"))
      then match h_value h with None => content_length_loop t | Some v => Ok (strtoll (cstr v)) end
      else content_length_loop t
    end
  end.
Definition content_length (ci : hci) : outcome Z :=
  if (hc_count ci =? 0)%nat then Ok 0%Z else content_length_loop (hc_chain ci).
(** fly_connection, header.c:357-385: true is keep-alive. *)
Definition connection_keep (ci : hci) : outcome bool :=
  if (hc_count ci =? 0)%nat then Ok true
  else obind (find_name (hc_chain ci) (bs "Connection") 0) (fun r => match r with
    | None => Ok true
    | Some i => match nth_error (hc_chain ci) i with
                | Some (mkHdr _ (Some v)) => Ok (strcmp_eqb (cstr v) (bs "keep-alive"))
                | _ => Ok true
                end
    end).
(** fly_content_encoding, header.c:387-411. *)
Definition content_encoding (ci : hci) : outcome (option (list N)) :=
  if (hc_count ci =? 0)%nat then Ok None
  else obind (find_name (hc_chain ci) (bs "Content-Encoding") 0) (fun r => match r with
    | None => Ok None
    | Some i => match nth_error (hc_chain ci) i with Some h => Ok (h_value h) | None => Ok None end
    end).
(** fly_same_string_ignore_lu, char.h:136-144. *)
Fixpoint same_ignore_case (a b : list N) (n : nat) : outcome bool :=
  match n with
  | O => Ok true
  | S n' => match a, b with
            | x :: a', y :: b' => if lower x =? lower y then same_ignore_case a' b' n' else Ok false
            | _, _ => UB OutOfBounds
            end
  end.
(** fly_check_expect_100, header.c:642-665. *)
Fixpoint expect_loop (l : list hdr) : outcome bool :=
  match l with
  | [] => Ok false
  | h :: t =>
    match h_name h, h_value h with
    | Some n, Some v =>
      if (length n =? length (bs "expect"))%nat && strncmp_eqb (length n) (cstr n) (bs "expect") && (length v =? length (bs "100-continue"))%nat
      then obind (same_ignore_case v (bs "100-continue") (length v)) (fun r => if r then Ok true else expect_loop t)
      else expect_loop t
    | _, _ => expect_loop t                                   (* the other length is 0: no match *)
    end
  end.
Definition check_expect_100 (ci : hci) : outcome bool := expect_loop (hc_chain ci).
(** fly_is_cookie, header.c:610-619, used by fly_check_cookie, 626-640. *)
Definition is_cookie (h : hdr) : bool :=
  match h_name h with
  | Some n => (length n =? 6)%nat && strncmp_eqb 6 (cstr n) (bs "cookie")
  | None => false
  end.
