(** Model of src/method.c, src/scheme.c, src/version.c and the protocol negotiation of src/ssl.c. *)
From Verif Require Import Base CStr.

(** enum method_type, method.h:9-19. *)
Inductive method := GET | HEAD | POST | PUT | DELETE | CONNECT | OPTIONS | TRACE | PATCH.
Definition method_eqb (a b : method) : bool :=
  match a, b with
  | GET, GET | HEAD, HEAD | POST, POST | PUT, PUT | DELETE, DELETE | CONNECT, CONNECT
  | OPTIONS, OPTIONS | TRACE, TRACE | PATCH, PATCH => true
  | _, _ => false
  end.
(** methods[], method.c:4-15 (without the NULL terminator). *)
Definition methods : list (list N * method) :=
  [(bs "GET", GET); (bs "HEAD", HEAD); (bs "POST", POST); (bs "PUT", PUT); (bs "DELETE", DELETE);
   (bs "CONNECT", CONNECT); (bs "OPTIONS", OPTIONS); (bs "TRACE", TRACE); (bs "PATCH", PATCH)].

(** fly_match_method_name, method.c:17-29, and fly_match_method_name_e, method.c:90-98, on a
    NUL-terminated string. *)
Definition match_method_name (s : list N) : option method :=
  option_map snd (List.find (fun m => strncmp_eqb (length (fst m)) s (fst m)) methods).

(** The loop "while(*__ptr++ == *ptr++) if ( *__ptr == end) return m" of method.c:44-47 and
    version.c:40-43: [mem] is the object of the input from the pointer, [name] the table string with
    its terminator, [i] the index of the compared byte. *)
Fixpoint with_end_loop (mem name : list N) (i : nat) (e : N) : outcome bool :=
  match name with
  | [] => UB OutOfBounds
  | y :: name' =>
    obind (rd mem i) (fun x =>
    if (x =? y)%N then obind (rd mem (S i)) (fun z => if (z =? e)%N then Ok true else with_end_loop mem name' (S i) e)
    else Ok false)
  end.
Fixpoint find_with_end {A} (tbl : list (list N * A)) (mem : list N) (e : N) : outcome (option A) :=
  match tbl with
  | [] => Ok None
  | (n, a) :: t => obind (with_end_loop mem (n ++ [0%N]) 0 e) (fun r => if r then Ok (Some a) else find_with_end t mem e)
  end.
(** fly_match_method_name_with_end, method.c:31-50. *)
Definition match_method_with_end (mem : list N) (e : N) : outcome (option method) := find_with_end methods mem e.

(** The loop "while(*__ptr == *ptr){ if (++i == len) return m; ...}" of method.c:69-75 and
    version.c:59-65; [len] is the number of bytes still to be matched. *)
Fixpoint len_loop (mem name : list N) (i len : nat) : outcome bool :=
  match name with
  | [] => UB OutOfBounds
  | y :: name' =>
    obind (rd mem i) (fun x => if (x =? y)%N then (if S i =? len then Ok true else len_loop mem name' (S i) len) else Ok false)
  end.
Fixpoint find_len {A} (tbl : list (list N * A)) (mem : list N) (len : nat) : outcome (option A) :=
  match tbl with
  | [] => Ok None
  | (n, a) :: t =>
    if length n =? len then obind (len_loop mem (n ++ [0%N]) 0 len) (fun r => if r then Ok (Some a) else find_len t mem len)
    else find_len t mem len
  end.
(** fly_match_method_name_len, method.c:52-78. *)
Definition match_method_len (mem : list N) (len : nat) : outcome (option method) := find_len methods mem len.
(** fly_match_method_type, method.c:80-88: the table entry of a type (its name). *)
Definition method_name_of_type (m : method) : option (list N) :=
  option_map fst (List.find (fun e => method_eqb (snd e) m) methods).

(** ** Schemes *)
(** enum fly_scheme_e, scheme.h:6-9. *)
Inductive scheme := http | https.
Definition scheme_eqb (a b : scheme) : bool := match a, b with http, http | https, https => true | _, _ => false end.
Definition scheme_int (s : scheme) : Z := match s with http => 0 | https => 1 end.
(** schemes[], scheme.c:4-8. *)
Definition schemes : list (list N * scheme) := [(bs "http", http); (bs "https", https)].
(** is_fly_scheme, scheme.c:10-20: the loop runs while the type is > 0, and the first type is 0.
    (Only the result is modelled: the moves of the caller's pointer and of the table's name
    pointers happen in iterations that are never reached.) *)
Fixpoint is_scheme_loop (tbl : list (list N * scheme)) (mem : list N) (e : N) : outcome bool :=
  match tbl with
  | [] => Ok false
  | (n, s) :: t =>
    if (0 <? scheme_int s)%Z
    then obind (with_end_loop mem (n ++ [0%N]) 0 e) (fun r => if r then Ok true else is_scheme_loop t mem e)
    else Ok false
  end.
Definition is_fly_scheme (mem : list N) (e : N) : outcome bool := is_scheme_loop schemes mem e.
(** fly_match_scheme_name, scheme.c:22-31. *)
Definition match_scheme_name (s : list N) : option scheme :=
  option_map snd (List.find (fun m => strncmp_eqb (length (fst m)) s (fst m)) schemes).
(** fly_match_scheme_type, scheme.c:33-41. *)
Definition scheme_name_of_type (s : scheme) : option (list N) :=
  option_map fst (List.find (fun e => scheme_eqb (snd e) s) schemes).

(** ** Versions *)
(** enum fly_version_type, version.h:7-10. *)
Inductive version := V2 | V1_1.
Definition version_eqb (a b : version) : bool := match a, b with V2, V2 | V1_1, V1_1 => true | _, _ => false end.
(** struct fly_http_version, version.h:13-18. *)
Record http_version := mkVersion { v_full : list N; v_number : list N; v_alpn : list N; v_type : version }.
(** versions[], version.c:6-10. *)
Definition versions : list http_version :=
  [mkVersion (bs "HTTP/2") (bs "2") (bs "h2") V2; mkVersion (bs "HTTP/1.1") (bs "1.1") (bs "http/1.1") V1_1].
(** fly_version_str, version.c:12-22. *)
Definition version_str (v : version) : option (list N) :=
  option_map v_full (List.find (fun e => version_eqb (v_type e) v) versions).
(** fly_match_version_with_end, version.c:33-46. *)
Definition match_version_with_end (mem : list N) (e : N) : outcome (option version) :=
  find_with_end (map (fun v => (v_number v, v_type v)) versions) mem e.
(** fly_match_version_len, version.c:48-68. *)
Definition match_version_len (mem : list N) (len : nat) : outcome (option version) :=
  find_len (map (fun v => (v_number v, v_type v)) versions) mem len.
(** toupper(3) in the C locale. *)
Definition toupper (b : N) : N := if (97 <=? b)%N && (b <=? 122)%N then (b - 32)%N else b.
(** fly_match_version, version.c:70-82: the result and the input string as it is left. *)
Definition match_version (s : list N) : option version * list N :=
  let s := map toupper s in
  (option_map v_type (List.find (fun v => strcmp_eqb s (v_full v)) versions), s).
(** fly_default_http_version, version.c:105-115 (FLY_HTTP_DEFAULT_VERSION, version.h:31). *)
Definition default_version : option version :=
  option_map v_type (List.find (fun v => version_eqb (v_type v) V1_1) versions).
(** __fly_version_alpn_cmp, version.c:84-91: [dist] is the table string with its terminator. *)
Fixpoint alpn_cmp (dist ver : list N) : outcome bool :=
  match ver with
  | [] => Ok true
  | x :: ver' => match dist with
                 | [] => UB OutOfBounds
                 | y :: dist' => if (x =? y)%N then alpn_cmp dist' ver' else Ok false
                 end
  end.
Fixpoint alpn_find (tbl : list http_version) (ver : list N) : outcome (option version) :=
  match tbl with
  | [] => Ok None
  | v :: t => obind (alpn_cmp (v_alpn v ++ [0%N]) ver) (fun r => if r then Ok (Some (v_type v)) else alpn_find t ver)
  end.
(** fly_match_version_from_alpn, version.c:93-103: [ver] are the [len] bytes given ([] also stands
    for a NULL pointer). *)
Definition match_version_alpn (ver : list N) : outcome (option version) :=
  match ver with [] => Ok default_version | _ => alpn_find versions ver end.

(** ** TLS application protocol negotiation, ssl.c *)
(** A byte read as a signed char. *)
Definition schar (b : N) : Z := if (b <? 128)%N then Z.of_N b else Z.of_N b - 256.
(** Read of the client's list at a (possibly negative) offset. *)
Definition rdz (mem : list N) (i : Z) : outcome N := if (i <? 0)%Z then UB OutOfBounds else rd mem (Z.to_nat i).
(** The loop of __fly_ssl_strcmp, ssl.c:139-146, for equal lengths: [d1] is not empty. *)
Fixpoint ssl_cmp_loop (d1 mem : list N) (i : Z) : outcome bool :=
  match d1 with
  | [] => UB OutOfBounds
  | y :: d1' => obind (rdz mem i) (fun x =>
      if (x =? y)%N then match d1' with [] => Ok true | _ => ssl_cmp_loop d1' mem (i + 1) end else Ok false)
  end.
(** __fly_ssl_strcmp, ssl.c:134-148: the length of the second string is a char converted to size_t,
    so a negative one never equals. *)
Definition ssl_strcmp (d1 mem : list N) (i len : Z) : outcome bool :=
  if (Z.of_nat (length d1) =? len)%Z then ssl_cmp_loop d1 mem i else Ok false.
(** __fly_ssl_alpn_cmp, ssl.c:150-164; [ptr] is relative to the list. *)
Fixpoint ssl_alpn_cmp (fuel : nat) (alpn mem : list N) (ptr : Z) : outcome bool :=
  match fuel with
  | 0 => UB Diverges
  | S f =>
    obind (rdz mem ptr) (fun b =>
    let len := schar b in
    let ptr := (ptr + 1)%Z in
    obind (ssl_strcmp alpn mem ptr len) (fun r =>
    if r then Ok true
    else if (Z.of_nat (length mem) - 1 <=? ptr + len - 1)%Z then Ok false
    else ssl_alpn_cmp f alpn mem (ptr + len)))
  end.
Fixpoint ssl_alpn_loop (tbl : list http_version) (mem : list N) : outcome (option (list N)) :=
  match tbl with
  | [] => Ok None
  | v :: t => obind (ssl_alpn_cmp (S (length mem)) (v_alpn v) mem 0) (fun r =>
              if r then Ok (Some (v_alpn v)) else ssl_alpn_loop t mem)
  end.
(** __fly_ssl_alpn, ssl.c:166-178: the selected protocol name, None for SSL_TLSEXT_ERR_NOACK. *)
Definition ssl_alpn (mem : list N) : outcome (option (list N)) := ssl_alpn_loop versions mem.
(** The version of the connection, ssl.c:227-228: OpenSSL reports the selected name, or no name. *)
Definition negotiated (mem : list N) : outcome (option version) :=
  obind (ssl_alpn mem) (fun r => match_version_alpn (match r with Some n => n | None => [] end)).
