(** Model of src/charset.c (Accept-Charset) and src/lang.c (Accept-Language): the two parsers differ
    only in the size of the name array, which is the parameter [maxlen] (FLY_CHARSET_MAXLEN = 30,
    charset.h:7; FLY_LANG_MAXLEN = 10, lang.h:7), and in that a tab counts as white space in lang.c
    only (parameter [tab]).  Line numbers are those of charset.c; lang.c has the
    same code 11 lines further down.

    A pointer into the header value is the list of bytes from it up to and including the NUL. *)
From Verif Require Import Base CStr.

(** __fly_tchar, charset.c:84-92 (the characters listed one by one are covered by vchar). *)
Definition cl_tchar (c : N) : bool := ((33 <=? c) && (c <=? 126))%N && negb (c =? 59)%N.
(** fly_space, char.h:12-15; __fly_space, lang.c:110-113. *)
Definition cl_space (tab : bool) (c : N) : bool := (c =? 32)%N || (c =? 9)%N && tab.
Definition cl_comma (c : N) : bool := (c =? 44)%N.

(** The local enum of __fly_ac_parse, charset.c:147-166. *)
Inductive lstatus :=
| L_INIT | L_NAME | L_OWS1 | L_SEMI | L_OWS2 | L_Q | L_EQ | L_1INT | L_1PT | L_1DEC | L_0INT | L_0PT | L_0DEC
| L_COMMA | L_ADD | L_ADDEND | L_END.
(** Local variables, and the list cs->charsets: name and quality in thousandths.  The code keeps the
    quality as a float; the model keeps the exact decimal. *)
Record lstate := mkL { l_status : lstatus; l_ptr : list N; l_name : option (list N); l_qv : option (list N);
                       l_dec : nat; l_acc : list (list N * N) }.
Inductive lres := LNext (s : lstate) | LError | LSuccess (acc : list (list N * N)).

(** __fly_cname_cpy, charset.c:370-378: [n] bytes are left in the array. *)
Fixpoint name_cpy (n : nat) (src : list N) {struct src} : outcome (list N) :=
  match src with
  | [] => UB OutOfBounds
  | b :: t =>
    if cl_tchar b && negb (cl_comma b)
    then match n with
         | 0 => UB OutOfBounds               (* i++ < MAXLEN failed; the terminator is written behind the array *)
         | S n' => obind (name_cpy n' t) (fun r => Ok (b :: r))
         end
    else match n with 0 => UB OutOfBounds | _ => Ok [] end
  end.
Fixpoint digits_of (s : list N) : list N :=
  match s with [] => [] | b :: t => if is_digit b then b :: digits_of t else [] end.
(** __fly_qvalue_from_str, charset.c:363-368; atof(3) of "0" or "0." and at most three digits (the
    parser lets nothing else through), in thousandths. *)
Definition qvalue (q : option (list N)) : N :=
  match q with
  | None => 1000%N
  | Some s => match s with
              | 49%N :: _ => 1000%N
              | 48%N :: 46%N :: t => let d := digits_of t in (dec_value d * 1000 / 10 ^ N.of_nat (length d))%N
              | _ => 0%N
              end
  end.
(** One iteration of the loop of __fly_ac_parse, charset.c:173-303. *)
Definition cl_step (tab : bool) (maxlen : nat) (s : lstate) : outcome lres :=
  let stay st := Ok (LNext (mkL st (l_ptr s) (l_name s) (l_qv s) (l_dec s) (l_acc s))) in
  let next st := Ok (LNext (mkL st (tl (l_ptr s)) (l_name s) (l_qv s) (l_dec s) (l_acc s))) in
  let nextq st := Ok (LNext (mkL st (tl (l_ptr s)) (l_name s) (Some (l_ptr s)) (l_dec s) (l_acc s))) in
  let nextd st := Ok (LNext (mkL st (tl (l_ptr s)) (l_name s) (l_qv s) (S (l_dec s)) (l_acc s))) in
  match l_ptr s with
  | [] => UB OutOfBounds
  | c :: _ =>
    match l_status s with
    | L_INIT =>                                                                        (* 176-185 *)
      if cl_tchar c then Ok (LNext (mkL L_NAME (l_ptr s) (Some (l_ptr s)) None 0 (l_acc s))) else Ok LError
    | L_NAME =>                                                                        (* 186-198 *)
      if cl_comma c then stay L_COMMA else if (c =? 0)%N then stay L_ADD else if (c =? 59)%N then next L_SEMI
      else if cl_space tab c then stay L_OWS1 else if cl_tchar c then next L_NAME else Ok LError
    | L_OWS1 => if cl_space tab c then next L_OWS1 else if (c =? 59)%N then next L_SEMI else Ok LError
    | L_SEMI => if cl_space tab c then next L_OWS2 else if (c =? 113)%N then next L_Q else Ok LError
    | L_OWS2 => if cl_space tab c then next L_OWS2 else if (c =? 113)%N then next L_Q else Ok LError
    | L_Q => if (c =? 61)%N then next L_EQ else Ok LError
    | L_EQ => if (c =? 49)%N then nextq L_1INT else if (c =? 48)%N then nextq L_0INT else Ok LError
    | L_1INT => if (c =? 46)%N then next L_1PT else if cl_comma c then stay L_COMMA else if (c =? 0)%N then stay L_ADD else Ok LError
    | L_1PT => if (c =? 48)%N then stay L_1DEC else Ok LError
    | L_1DEC => if (c =? 48)%N && (l_dec s <? 3) then nextd L_1DEC
                else if cl_comma c then stay L_COMMA else if (c =? 0)%N then stay L_ADD else Ok LError
    | L_0INT => if (c =? 46)%N then next L_0PT else if cl_comma c then stay L_COMMA else if (c =? 0)%N then stay L_ADD else Ok LError
    | L_0PT => if is_digit c then stay L_0DEC else Ok LError
    | L_0DEC => if is_digit c && (l_dec s <? 3) then nextd L_0DEC
                else if cl_comma c then stay L_COMMA else if (c =? 0)%N then stay L_ADD else Ok LError
    | L_COMMA => stay L_ADD                                                             (* 275-276 *)
    | L_ADD =>                                                                         (* 277-289 *)
      match l_name s with
      | None => UB NullDeref
      | Some n => obind (name_cpy maxlen n) (fun nm =>
                  Ok (LNext (mkL L_ADDEND (l_ptr s) (l_name s) (l_qv s) (l_dec s) (l_acc s ++ [(nm, qvalue (l_qv s))]))))
      end
    | L_ADDEND => if cl_space tab c || cl_comma c then next L_ADDEND else if (c =? 0)%N then stay L_END else stay L_INIT
    | L_END => Ok (LSuccess (l_acc s))
    end
  end.
Inductive cl_result := ClError | ClSuccess (l : list (list N * N)).
Fixpoint cl_run (tab : bool) (maxlen fuel : nat) (s : lstate) : outcome cl_result :=
  match fuel with
  | 0 => UB Diverges
  | S f => obind (cl_step tab maxlen s) (fun r =>
           match r with LNext s' => cl_run tab maxlen f s' | LError => Ok ClError | LSuccess a => Ok (ClSuccess a) end)
  end.
(** __fly_ac_parse, charset.c:133-307. *)
Definition cl_parse (tab : bool) (maxlen : nat) (v : list N) : outcome cl_result :=
  cl_run tab maxlen (11 * length v + 22) (mkL L_INIT (v ++ [0%N]) None None 0 []).
(** fly_accept_charset, charset.c:317-361 ([None]: no such header).  The caller answers 400 for the
    syntax error and 406 for not acceptable (request.c:1348-1373). *)
Inductive cl_outcome := ClOk (l : list (list N * N)) | Cl400 | Cl406.
Definition accept_cl (tab : bool) (maxlen : nat) (v : option (list N)) : outcome cl_outcome :=
  match v with
  | None => Ok (ClOk [(bs "*", 1000%N)])
  | Some v => obind (cl_parse tab maxlen v) (fun r =>
      match r with
      | ClError => Ok Cl400
      | ClSuccess [] => Ok Cl400
      | ClSuccess l => if existsb (fun e => (0 <? snd e)%N) l then Ok (ClOk l) else Ok Cl406
      end)
  end.
Definition CHARSET_MAXLEN := 30.
Definition LANG_MAXLEN := 10.
(** __fly_accept_charset, charset.c:29-48, ignores an empty value; __fly_accept_lang, lang.c:28-46, does not. *)
Definition fly_accept_charset (v : option (list N)) : outcome cl_outcome := accept_cl false CHARSET_MAXLEN (match v with Some [] => None | v => v end).
Definition fly_accept_language (v : option (list N)) : outcome cl_outcome := accept_cl true LANG_MAXLEN v.
