(** Routes: registration and matching (src/route.c), the Allow header (header.c:535-579). *)
From Verif Require Import Base CStr CNum Names Reqline.
Local Open Scope N_scope.

(** enum fly_path_param_type, uri.h:15-21. *)
Inductive ptype := PInt | PFloat | PBool | PStr.
(** struct fly_param, uri.h:23-31: variable and type of a registered parameter (its number is its position). *)
Record param := mkParam { pm_name : list N; pm_type : ptype }.
(** struct fly_route, route.h:24-35: the handler is a number. *)
Record route := mkRoute { rt_path : list N; rt_method : method; rt_handler : nat; rt_params : list param }.

(** ** Registration *)
(** fly_pp_var_first, fly_pp_var: route.c:131-138; fly_underscore, char.h. *)
Definition var_first (c : N) : bool := fly_alpha c || (c =? 95).
Definition var_char (c : N) : bool := fly_alpha c || fly_numeral c || (c =? 95).
(** fly_space(c) || fly_ht(c). *)
Definition pp_blank (c : N) : bool := (c =? 32) || (c =? 9).
(** fly_pp_get_type, route.c:139-165.  The text only has to begin with the name of a type and to be longer; "bool"
    gives the type of "float" (route.c:157).  The pointer it moves is not used afterwards. *)
Definition get_type (p : list N) : option ptype :=
  if (length (bs "int") <? length p)%nat && is_prefix (bs "int") p then Some PInt
  else if (length (bs "float") <? length p)%nat && is_prefix (bs "float") p then Some PFloat
  else if (length (bs "bool") <? length p)%nat && is_prefix (bs "bool") p then Some PFloat
  else if (length (bs "str") <? length p)%nat && is_prefix (bs "str") p then Some PStr
  else None.
(** enum fly_ppt_status, route.c:209-218; TYPE and END are executed at once. *)
Inductive ppst := QInit | QStart | QSpace | QVar | QVarSpace | QColon.
(** The loop at route.c:227-313 on the text from '{' to the end of the path.  [var] is the variable read so far.
    A transition with "continue" into VAR is followed by the "break" of VAR (the character is the same). *)
Fixpoint parse_param (p : list N) (st : ppst) (var : list N) : outcome (option param) :=
  match p with
  | [] => UB OutOfBounds
  | c :: t =>
    let brk st' var' := match t with
                        | [] => if c =? 125 then parse_param t st' var' else Ok None        (* route.c:303-305 *)
                        | _ => parse_param t st' var'
                        end in
    let fin ty := match var with [] => Ok None | _ => Ok (Some (mkParam var ty)) end in     (* END, route.c:290-297 *)
    match st with
    | QInit => if c =? 123 then brk QStart var else Ok None
    | QStart => if pp_blank c then brk QSpace var else if var_first c then brk QVar [c] else Ok None
    | QSpace => if pp_blank c then brk QSpace var else if var_first c then brk QVar [c] else Ok None
    | QVar =>
      if var_first c then brk QVar (var ++ [c])
      else if var_char c then brk QVar (var ++ [c])
      else if pp_blank c then brk QVarSpace var
      else if c =? 58 then brk QColon var
      else if c =? 125 then fin PStr else Ok None
    | QVarSpace => if pp_blank c then brk QVarSpace var else if c =? 58 then brk QColon var else if c =? 125 then fin PStr else Ok None
    | QColon =>
      if pp_blank c then brk QColon var
      else if fly_alpha c then match get_type p with None => Ok None | Some ty => fin ty end
      else Ok None
    end
  end.
(** FLY_RR_PARSE_PATH_PARAM_*: a syntax and an internal error have the same effect (route.c:84-105). *)
Inductive pp_result := PPok (ps : list param) | PPnobracket | PPsyntax.
(** fly_rr_parse_path_param, route.c:183-350.  memchr for '}' is given the size of the whole path although it
    starts at '{' (route.c:203): when there is no '}' it reads behind the path, where only one NUL is allocated. *)
Fixpoint parse_params (size : nat) (s : list N) : outcome pp_result :=
  match s with
  | [] => Ok (PPok [])
  | c :: t =>
    if c =? 123 then
      if existsb (fun x => x =? 125) s then
        obind (parse_param s QInit []) (fun r => match r with
          | None => Ok PPsyntax
          | Some p => obind (parse_params size t) (fun r => Ok (match r with PPok ps => PPok (p :: ps) | e => e end))
          end)
      else if (size <=? S (length s))%nat then Ok PPnobracket else UB OutOfBounds
    else parse_params size t
  end.
(** fly_register_route, route.c:33-113; every method has an entry in methods[]. *)
Inductive reg_result := RegOk (regs : list route) | RegError.
Definition register (regs : list route) (path : list N) (m : method) (h : nat) : outcome reg_result :=
  obind (parse_params (length path) path) (fun r => Ok (match r with
    | PPok ps => RegOk (regs ++ [mkRoute path m h ps])
    | _ => RegError
    end)).

(** ** Matching *)
(** memchr(s, c, n) on the bytes that may be read: the offset. *)
Fixpoint memchr (l : list N) (c : N) : option nat :=
  match l with [] => None | x :: t => if x =? c then Some 0%nat else option_map S (memchr t c) end.
(** fly_match_param_uri, route.c:354-423.  [u] is the memory at uri->ptr (the path is its first [ulen] bytes); the
    route's path is followed by a NUL.  The offset added to i is counted from the beginning of the uri (route.c:413). *)
Fixpoint match_loop (fuel : nat) (r u : list N) (ulen i j : nat) : outcome bool :=
  match fuel with
  | O => UB Diverges
  | S f =>
    if negb (i <? ulen)%nat then Ok (j =? length r)%nat
    else
      let cmp i j := obind (rd u i) (fun uc => obind (rd (r ++ [0]) j) (fun rc =>
                       if negb (uc =? rc) then Ok false else match_loop f r u ulen (S i) (S j))) in
      obind (rd (r ++ [0]) j) (fun rc =>
        if rc =? 123 then
          match memchr (skipn j r) 47, memchr (firstn (ulen - i) (skipn i u)) 47 with
          | None, Some _ => Ok false
          | Some _, None => Ok false
          | None, None => Ok true
          | Some _, Some k =>
            match memchr (skipn j r) 125 with
            | None => UB OutOfBounds
            | Some e => cmp (i + (i + k))%nat (j + e)%nat
            end
          end
        else cmp i j)
  end.
Definition match_param_uri (r u : list N) (ulen : nat) : outcome bool := match_loop (S ulen) r u ulen 0 0.
(** fly_found_route, route.c:425-450. *)
Fixpoint found_route (regs : list route) (u : list N) (ulen : nat) (m : method) : outcome (option route) :=
  match regs with
  | [] => Ok None
  | r :: t =>
    match rt_params r with
    | [] => if (length (rt_path r) =? ulen)%nat && strncmp_eqb ulen (cstr (rt_path r)) (cstr u) && method_eqb (rt_method r) m
            then Ok (Some r) else found_route t u ulen m
    | _ => obind (match_param_uri (rt_path r) u ulen) (fun e => if e then Ok (Some r) else found_route t u ulen m)
    end
  end.
(** fly_parse_path_params_from_request, route.c:522-588: the values in order with their parameter;
    None is the result -1.  A missing slash in the route's path would be an invalid pointer difference. *)
Fixpoint capture_loop (fuel : nat) (r : list N) (ps : list param) (u : list N) (ulen i j : nat) : outcome (option (list (param * list N))) :=
  match fuel with
  | O => UB Diverges
  | S f =>
    if negb (i <? ulen)%nat then Ok (Some [])
    else obind (rd (r ++ [0]) j) (fun rc =>
      if rc =? 123 then
        match ps with
        | [] => Ok None
        | p :: ps' =>
          match memchr (firstn (ulen - i) (skipn i u)) 47 with
          | None => Ok (Some [(p, firstn (ulen - i) (skipn i u))])
          | Some k =>
            match memchr (skipn j r) 47 with
            | None => UB NullDeref
            | Some e => obind (capture_loop f r ps' u ulen (S (i + k)) (S (j + e))) (fun l =>
                          Ok (option_map (cons (p, firstn k (skipn i u))) l))
            end
          end
        end
      else capture_loop f r ps u ulen (S i) (S j))
  end.
Definition capture (r : route) (u : list N) (ulen : nat) : outcome (option (list (param * list N))) :=
  match rt_params r with [] => Ok (Some []) | _ => capture_loop (S ulen) (rt_path r) (rt_params r) u ulen 0 0 end.

(** ** fly_valid_method (route.c:452-497) and fly_add_allow (header.c:535-579) *)
(** Every route is compared as if it had no parameter (the test at route.c:483 is always true); [u] is the memory at
    uri->ptr: the comparison is not bounded by the length of the path. *)
Definition valid_method (regs : list route) (u : list N) : list method :=
  GET :: map rt_method (filter (fun r => strncmp_eqb (length (rt_path r)) (cstr (rt_path r)) (cstr u) && negb (method_eqb (rt_method r) GET)) regs).
Definition method_name (m : method) : list N := match method_name_of_type m with Some n => n | None => [] end.
Fixpoint join_names (ms : list method) : list N :=
  match ms with [] => [] | [m] => method_name m | m :: t => method_name m ++ bs ", " ++ join_names t end.
Definition allow_value (regs : list route) (u : list N) : list N := join_names (valid_method regs u).
