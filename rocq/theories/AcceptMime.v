(** Model of the Accept header parser of src/mime.c (__fly_accept_mime_parse, 351-895, and the
    functions around it).  A pointer into the header value is the list of bytes from it up to and
    including the NUL; [None] is the NULL pointer. *)
From Verif Require Import Base CStr Machine AcceptEnc.

(** ** Character classes, mime.c:219-349; plain char is signed, so a byte >= 0x80 is in no class
    (obs_text, 334-337, converts a negative char to unsigned and compares with 0xFF). *)
(** __fly_tchar, __fly_token, __fly_type, __fly_subtype, 272-296: the characters listed one by one are covered. *)
Definition am_token (c : N) : bool := ((33 <=? c) && (c <=? 126))%N && negb (c =? 59)%N.
Definition am_space (c : N) : bool := (c =? 32)%N || (c =? 9)%N.
Definition am_vchar (c : N) : bool := ((33 <=? c) && (c <=? 126))%N.
(** __fly_qdtext, 326-332. *)
Definition am_qdtext (c : N) : bool :=
  am_space c || (c =? 33)%N || ((35 <=? c) && (c <=? 91))%N || ((93 <=? c) && (c <=? 126))%N.
(** __fly_quoted_string, 339-349. *)
Definition am_qstring (p : list N) : outcome bool :=
  match p with
  | [] => UB OutOfBounds
  | c :: t => if am_qdtext c then Ok true
              else if (c =? 92)%N then match t with [] => UB OutOfBounds | d :: _ => Ok (am_space d || am_vchar d) end
              else Ok false
  end.

(** The local enum, mime.c:361-401 (WEIGHT_Q and WEIGHT_OWS2 are never entered). *)
Inductive mstatus :=
| M_INIT | M_TYPE | M_SLASH | M_SUBTYPE | M_OWS1 | M_SEMI | M_MAYBEQ | M_OWS2 | M_TOKL | M_EQ | M_TOKR | M_TOKEND
| M_QL | M_QS | M_QR | M_QEND
| W_EQ | W_1INT | W_1PT | W_1DEC | W_0INT | W_0PT | W_0DEC
| X_OWS1 | X_SEMI | X_OWS2 | X_TOKL | X_EQ | X_TOKR | X_QL | X_QS | X_QR | X_TOKEND
| M_COMMA | M_ADD | M_ADDED | M_END.
Notation ptr := (option (list N)).
(** Local variables, mime.c:353-356, and the parameter and extension lists of [__nm]. *)
Record locals := mkLoc { v_type : ptr; v_tlen : nat; v_sub : ptr; v_slen : nat; v_pl : ptr; v_pllen : nat; v_pr : ptr; v_prlen : nat;
                         v_qv : ptr; v_xl : ptr; v_xllen : nat; v_xr : ptr; v_xrlen : nat; v_dec : nat;
                         v_params : list (list N * list N); v_exts : list (list N * list N) }.
(** struct __fly_mime, mime.h:171-185: the type name, the subtype (its "*" form sets the flag
    asterisk), the quality in percent, parameters, extensions. *)
Record range := mkRange { g_type : list N; g_sub : list N; g_q : Z; g_params : list (list N * list N); g_exts : list (list N * list N) }.
Record mstate := mkM { m_st : mstatus; m_ptr : list N; m_loc : locals; m_acc : list range }.
Inductive mres := MError | MPerror | MSuccess (l : list range).

Definition set_type p v := mkLoc (Some p) (v_tlen v) (v_sub v) (v_slen v) (v_pl v) (v_pllen v) (v_pr v) (v_prlen v) (v_qv v) (v_xl v) (v_xllen v) (v_xr v) (v_xrlen v) (v_dec v) (v_params v) (v_exts v).
Definition set_tlen n v := mkLoc (v_type v) n (v_sub v) (v_slen v) (v_pl v) (v_pllen v) (v_pr v) (v_prlen v) (v_qv v) (v_xl v) (v_xllen v) (v_xr v) (v_xrlen v) (v_dec v) (v_params v) (v_exts v).
Definition set_sub p v := mkLoc (v_type v) (v_tlen v) (Some p) (v_slen v) (v_pl v) (v_pllen v) (v_pr v) (v_prlen v) (v_qv v) (v_xl v) (v_xllen v) (v_xr v) (v_xrlen v) (v_dec v) (v_params v) (v_exts v).
Definition set_slen n v := mkLoc (v_type v) (v_tlen v) (v_sub v) n (v_pl v) (v_pllen v) (v_pr v) (v_prlen v) (v_qv v) (v_xl v) (v_xllen v) (v_xr v) (v_xrlen v) (v_dec v) (v_params v) (v_exts v).
Definition set_pl p v := mkLoc (v_type v) (v_tlen v) (v_sub v) (v_slen v) p (v_pllen v) (v_pr v) (v_prlen v) (v_qv v) (v_xl v) (v_xllen v) (v_xr v) (v_xrlen v) (v_dec v) (v_params v) (v_exts v).
Definition set_pllen n v := mkLoc (v_type v) (v_tlen v) (v_sub v) (v_slen v) (v_pl v) n (v_pr v) (v_prlen v) (v_qv v) (v_xl v) (v_xllen v) (v_xr v) (v_xrlen v) (v_dec v) (v_params v) (v_exts v).
Definition set_pr p v := mkLoc (v_type v) (v_tlen v) (v_sub v) (v_slen v) (v_pl v) (v_pllen v) (Some p) (v_prlen v) (v_qv v) (v_xl v) (v_xllen v) (v_xr v) (v_xrlen v) (v_dec v) (v_params v) (v_exts v).
Definition set_prlen n v := mkLoc (v_type v) (v_tlen v) (v_sub v) (v_slen v) (v_pl v) (v_pllen v) (v_pr v) n (v_qv v) (v_xl v) (v_xllen v) (v_xr v) (v_xrlen v) (v_dec v) (v_params v) (v_exts v).
Definition set_qv p v := mkLoc (v_type v) (v_tlen v) (v_sub v) (v_slen v) (v_pl v) (v_pllen v) (v_pr v) (v_prlen v) (Some p) (v_xl v) (v_xllen v) (v_xr v) (v_xrlen v) (v_dec v) (v_params v) (v_exts v).
Definition set_xl p v := mkLoc (v_type v) (v_tlen v) (v_sub v) (v_slen v) (v_pl v) (v_pllen v) (v_pr v) (v_prlen v) (v_qv v) (Some p) (v_xllen v) (v_xr v) (v_xrlen v) (v_dec v) (v_params v) (v_exts v).
Definition set_xllen n v := mkLoc (v_type v) (v_tlen v) (v_sub v) (v_slen v) (v_pl v) (v_pllen v) (v_pr v) (v_prlen v) (v_qv v) (v_xl v) n (v_xr v) (v_xrlen v) (v_dec v) (v_params v) (v_exts v).
Definition set_xr p v := mkLoc (v_type v) (v_tlen v) (v_sub v) (v_slen v) (v_pl v) (v_pllen v) (v_pr v) (v_prlen v) (v_qv v) (v_xl v) (v_xllen v) (Some p) (v_xrlen v) (v_dec v) (v_params v) (v_exts v).
Definition set_xrlen n v := mkLoc (v_type v) (v_tlen v) (v_sub v) (v_slen v) (v_pl v) (v_pllen v) (v_pr v) (v_prlen v) (v_qv v) (v_xl v) (v_xllen v) (v_xr v) n (v_dec v) (v_params v) (v_exts v).
Definition set_dec n v := mkLoc (v_type v) (v_tlen v) (v_sub v) (v_slen v) (v_pl v) (v_pllen v) (v_pr v) (v_prlen v) (v_qv v) (v_xl v) (v_xllen v) (v_xr v) (v_xrlen v) n (v_params v) (v_exts v).
Definition set_params l v := mkLoc (v_type v) (v_tlen v) (v_sub v) (v_slen v) (v_pl v) (v_pllen v) (v_pr v) (v_prlen v) (v_qv v) (v_xl v) (v_xllen v) (v_xr v) (v_xrlen v) (v_dec v) l (v_exts v).
Definition set_exts l v := mkLoc (v_type v) (v_tlen v) (v_sub v) (v_slen v) (v_pl v) (v_pllen v) (v_pr v) (v_prlen v) (v_qv v) (v_xl v) (v_xllen v) (v_xr v) (v_xrlen v) (v_dec v) (v_params v) l.
(** The assignments of MEDIA_RANGE_INIT, mime.c:411-424; ext_tokenl_len and ext_tokenr_len keep their values. *)
Definition reset (v : locals) : locals := mkLoc None 0 None 0 None 0 None 0 None None (v_xllen v) None (v_xrlen v) 0 [] [].
Definition loc0 : locals := mkLoc None 0 None 0 None 0 None 0 None None 0 None 0 0 [] [].

(** FLY_ACCEPT_PARAM_MAXLEN, FLY_ACCEPT_EXT_MAXLEN, FLY_MIME_TYPE_MAXLEN, FLY_MIME_SUBTYPE_MAXLEN, mime.h:117-148. *)
Definition MAX := 30.
(** [p - q], where [q] points to an earlier byte; the difference with NULL is larger than any array. *)
Definition pdiff (p : list N) (q : ptr) : nat := match q with Some q => length q - length p | None => S MAX end.
(** memcpy of [n] bytes; of 0 bytes it touches nothing. *)
Definition copy (p : ptr) (n : nat) : outcome (list N) :=
  match n with
  | 0 => Ok []
  | _ => match p with None => UB NullDeref | Some s => if n <=? length s then Ok (firstn n s) else UB OutOfBounds end
  end.
(** __fly_accept_qvalue_from_str, mime.c:986-1005: the same code as encode.c:1288-1306. *)
Definition am_quality := quality_from_str.
(** __fly_mime_type_list, mime.c:897-905. *)
Definition type_list : list (list N) := [bs "text"; bs "image"; bs "application"; bs "*"; bs "multipart"; bs "unknown"].
(** __fly_accept_type_from_str, mime.c:951-973; [None] is -1. *)
Definition type_from_str (p : ptr) (n : nat) : outcome (option (list N)) :=
  match p with
  | None => UB NullDeref
  | Some s =>
    match find (fun t => (length t =? n) && strncmp_eqb n t s) type_list with
    | Some t => Ok (Some t)
    | None => if MAX <=? n then Ok None else obind (copy p n) (fun t => Ok (Some t))
    end
  end.
(** __fly_accept_subtype_from_str, mime.c:976-984: the array has 30 bytes, the length is not checked;
    with exactly 30 bytes strcmp reads past the end.  (When the subtype is not "*" the flag asterisk
    keeps the indeterminate value of the fresh block; the model does not represent the flag.) *)
Definition subtype_from_str (p : ptr) (n : nat) : outcome (list N) :=
  if MAX <=? n then UB OutOfBounds else copy p n.
(** The case ADD, mime.c:852-866. *)
Definition m_add (s : mstate) : outcome (sres mstate mres) :=
  let v := m_loc s in
  obind (am_quality (v_qv v)) (fun q =>
  if (q =? -1)%Z then Ok (Done MError) else
  obind (type_from_str (v_type v) (v_tlen v)) (fun t =>
  match t with
  | None => Ok (Done MPerror)
  | Some t => obind (subtype_from_str (v_sub v) (v_slen v)) (fun st =>
      Ok (Next (mkM M_ADDED (m_ptr s) v (m_acc s ++ [mkRange t st q (v_params v) (v_exts v)]))))
  end)).
(** The block of TOKENEND and QUOTED_TOKENEND, mime.c:565-582 and 617-634: the (clipped) copies are appended. *)
Definition add_param (v : locals) : outcome locals :=
  let nl := Nat.min (v_pllen v) MAX in
  let nr := Nat.min (v_prlen v) MAX in
  obind (copy (v_pl v) nl) (fun l => obind (copy (v_pr v) nr) (fun r =>
  Ok (set_params (v_params v ++ [(l, r)]) (set_pllen nl (set_prlen nr v))))).
(** The block of EXT_TOKENEND, mime.c:824-840. *)
Definition add_ext (v : locals) : outcome locals :=
  let nl := Nat.min (v_xllen v) MAX in
  let nr := Nat.min (v_xrlen v) MAX in
  obind (copy (v_xl v) nl) (fun l => obind (copy (v_xr v) nr) (fun r =>
  Ok (set_exts (v_exts v ++ [(l, r)]) (set_xllen nl (set_xrlen nr v))))).

(** One iteration of the loop, mime.c:407-890 (allocation failures are not modelled). *)
Definition m_step (s : mstate) : outcome (sres mstate mres) :=
  let p := m_ptr s in
  let v := m_loc s in
  let stay st v := Ok (Next (mkM st p v (m_acc s))) in              (* "continue" *)
  let next st v := Ok (Next (mkM st (tl p) v (m_acc s))) in         (* "break", then ptr++ *)
  let perror := Ok (Done MPerror) in
  match p with
  | [] => UB OutOfBounds
  | c :: _ =>
    match m_st s with
    | M_INIT => if am_token c then stay M_TYPE (set_type p (reset v)) else perror
    | M_TYPE => if (c =? 47)%N then next M_SLASH (set_tlen (pdiff p (v_type v)) v) else if am_token c then next M_TYPE v else perror
    | M_SLASH => if am_token c then stay M_SUBTYPE (set_sub p v) else perror
    | M_SUBTYPE =>
      let v' := set_slen (pdiff p (v_sub v)) v in
      if (c =? 44)%N then stay M_COMMA v' else if (c =? 0)%N then stay M_END v' else if am_token c then next M_SUBTYPE v
      else if am_space c then stay M_OWS1 v' else if (c =? 59)%N then next M_SEMI v' else perror
    | M_OWS1 => if am_space c then next M_OWS1 v else if (c =? 59)%N then stay M_SEMI v else perror
    | M_SEMI => if am_space c then stay M_OWS2 v else if (c =? 113)%N then next M_MAYBEQ (set_pl (Some p) v)
                else if am_token c then stay M_TOKL (set_pl (Some p) v) else perror
    | M_MAYBEQ => if (c =? 61)%N then next W_EQ (set_pl None v) else stay M_TOKL v
    | M_OWS2 => if am_space c then next M_OWS2 v else if (c =? 113)%N then next M_MAYBEQ (set_pl (Some p) v)
                else if am_token c then stay M_TOKL (set_pl (Some p) v) else perror
    | M_TOKL => if (c =? 61)%N then next M_EQ (set_pllen (pdiff p (v_pl v)) v) else if am_token c then next M_TOKL v else perror
    | M_EQ => if (c =? 34)%N then next M_QL v else if am_token c then stay M_TOKR (set_pr p v) else perror
    | M_TOKR => if am_token c then next M_TOKR v else stay M_TOKEND (set_prlen (pdiff p (v_pr v)) v)
    | M_TOKEND | M_QEND =>
      obind (add_param v) (fun v =>
      if (c =? 0)%N then stay M_END v else if am_space c then stay M_OWS1 v else if (c =? 59)%N then next M_SEMI v else perror)
    | M_QL => obind (am_qstring p) (fun b => if b then stay M_QS (set_pr p v) else perror)
    | M_QS => obind (am_qstring p) (fun b => if b then next M_QS v else if (c =? 34)%N then next M_QR v else perror)
    | M_QR => stay M_QEND v
    | W_EQ => if (c =? 49)%N then next W_1INT (set_qv p v) else if (c =? 48)%N then next W_0INT (set_qv p v) else perror
    | W_1INT => if (c =? 46)%N then next W_1PT v else perror
    | W_1PT => if (c =? 49)%N then stay W_1DEC v else perror
    | W_1DEC => if (c =? 48)%N && (v_dec v <? 3) then next W_1DEC (set_dec (S (v_dec v)) v)
                else if am_space c then stay X_OWS1 v else if (c =? 0)%N then stay M_END v else perror
    | W_0INT => if (c =? 46)%N then next W_0PT v else perror
    | W_0PT => if is_digit c then stay W_0DEC v else perror
    | W_0DEC => if is_digit c && (v_dec v <? 3) then next W_0DEC (set_dec (S (v_dec v)) v)
                else if am_space c then stay X_OWS1 v else if (c =? 59)%N then next X_SEMI v
                else if (c =? 44)%N then stay M_COMMA v else if (c =? 0)%N then stay M_END v else perror
    | X_OWS1 => if am_space c then next X_OWS1 v else if (c =? 59)%N then next X_SEMI v else perror
    | X_SEMI => if am_space c then next X_OWS2 v else if am_token c then stay X_TOKL v else perror
    | X_OWS2 => if am_space c then next X_OWS2 v else if am_token c then stay X_TOKL (set_xl p v) else perror
    | X_TOKL => if (c =? 61)%N then next X_EQ (set_xllen (pdiff p (v_xl v)) v) else if am_token c then next X_TOKL v
                else if am_space c then stay X_TOKEND (set_xllen (pdiff p (v_xl v)) v) else perror
    | X_EQ => if (c =? 34)%N then next X_QL v else if am_token c then stay X_TOKR (set_xr p v) else perror
    | X_TOKR => if (c =? 44)%N then stay X_TOKEND (set_xrlen (pdiff p (v_xr v)) v) else if am_token c then next X_TOKR v
                else stay X_TOKEND (set_xrlen (pdiff p (v_xr v)) v)
    | X_QL => obind (am_qstring p) (fun b => if b then stay X_QS (set_xr p v) else perror)
    | X_QS => if (c =? 34)%N then next X_QR (set_xrlen (pdiff p (v_xr v)) v)
              else obind (am_qstring p) (fun b => if b then next X_QS v else perror)
    | X_QR => stay X_TOKEND v
    | X_TOKEND => obind (add_ext v) (fun v => if (c =? 44)%N then stay M_COMMA v else stay X_OWS1 v)
    | M_COMMA | M_END => stay M_ADD v
    | M_ADD => m_add s
    | M_ADDED => if (c =? 0)%N then Ok (Done (MSuccess (m_acc s))) else if am_space c || (c =? 44)%N then next M_ADDED v else stay M_INIT v
    end
  end.
(** __fly_accept_mime_parse, mime.c:351-895. *)
Definition m_parse (value : list N) : outcome mres :=
  run m_step (8 * length value + 17) (mkM M_INIT (value ++ [0%N]) loc0 []).
(** fly_accept_mime, mime.c:182-217, with __fly_accept_parse, 1007-1039 ([None]: no Accept header,
    "*/*" is assumed).  The caller answers 400 or 406, or gives up the request (request.c:1334-1345). *)
Inductive am_result := AmOk (l : list range) | Am400 | Am406 | AmError.
Definition fly_accept_mime (value : option (list N)) : outcome am_result :=
  match value with
  | None => Ok (AmOk [mkRange (bs "*") (bs "*") 100 [] []])
  | Some v => obind (m_parse v) (fun r =>
      match r with
      | MError => Ok AmError
      | MPerror => Ok Am400
      | MSuccess [] => Ok Am400
      | MSuccess l => if existsb (fun g => (0 <? g_q g)%Z) l then Ok (AmOk l) else Ok Am406
      end)
  end.
