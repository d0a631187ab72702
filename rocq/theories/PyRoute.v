(** Model of the route table of an application: fly/route.py, the decorators of fly/app.py (lines 161-232), the CORS
    functions of fly/cors.py and the preparation of the table when the server starts (app.py:252-273).
    Strings are their UTF-8 bytes.  Not modelled: the checks of argument types, printing of requests, and lists of default
    headers shared by several routes (a handler that has an attribute default_headers and several routes). *)
From Verif Require Import Base PyBridge.

(** A handler: one of the application, or one made by _option (cors.py:43-75). *)
Inductive phandler := HApp (n : nat) | HPreflight (origin : list N) (methods headers expose : list (list N)) (cred : bool) (max_age : option Z).
(** The dictionary of a route, route.py:55-64, with default_headers and only_debug_default_headers of its base. *)
Record proute := mkPR { q_uri : list N; q_method : list N; q_handler : phandler; q_debug_route : bool; q_only_debug : bool;
                        q_defaults : list (list N * list N); q_debug_names : list (list N) }.
Inductive pyerror := ValueError | AttributeError.

(** ** Registration *)
(** re.match of "^/(.*/?)*$", route.py:9, 46-51: the text behind the first slash has no line end, except that "$" also
    matches before a line end that ends the text; group(0) is what was matched. *)
Fixpoint no_newline (u : list N) : bool := match u with [] => true | c :: r => negb (c =? 10)%N && no_newline r end.
Definition drop_newline (u : list N) : list N := match rev u with 10%N :: r => rev r | _ => u end.
Definition uri_match (u : list N) : option (list N) :=
  match u with
  | 47%N :: _ => let g := drop_newline u in if no_newline g then Some g else None
  | _ => None
  end.
(** re.sub of "(/{2,})" by "/", route.py:10, 53. *)
Fixpoint collapse (u : list N) : list N :=
  match u with
  | [] => []
  | 47%N :: ((47%N :: _) as r) => collapse r
  | c :: r => c :: collapse r
  end.
Definition same_route (m u : list N) (r : proute) : bool := bytes_eqb (q_method r) m && bytes_eqb (q_uri r) u.
(** Route.register_route, route.py:20-70. *)
Definition register (u : list N) (f : phandler) (m : list N) (debug_route only_debug : bool) (defaults : list (list N * list N)) (rs : list proute) : pyerror + list proute :=
  match uri_match u with
  | None => inl ValueError
  | Some g =>
    let u := collapse g in
    if existsb (same_route m u) rs then inl ValueError
    else inr (rs ++ [mkPR u m f debug_route only_debug defaults []])
  end.
(** Fly.route, app.py:161-203: in production mode a debug route is not registered. *)
Definition app_route (debug : bool) (u : list N) (f : phandler) (m : list N) (debug_route only_debug : bool) (defaults : list (list N * list N)) (rs : list proute) : pyerror + list proute :=
  if negb debug && debug_route then inr rs else register u f m debug_route only_debug defaults rs.

(** ** CORS *)
(** _Cors, cors.py:240-280. *)
Record policy := mkPolicy { o_origin : list N; o_methods : list (list N); o_headers : list (list N); o_expose : list (list N);
                            o_cred : bool; o_max_age : option Z; o_only_debug : bool }.
Definition OPTIONS : list N := bs "OPTIONS".
Definition ACAO := bs "Access-Control-Allow-Origin".
Definition ACAM := bs "Access-Control-Allow-Methods".
Definition ACAH := bs "Access-Control-Allow-Headers".
Definition ACEH := bs "Access-Control-Expose-Headers".
Definition ACAC := bs "Access-Control-Allow-Credentials".
(** ','.join *)
Fixpoint join (l : list (list N)) : list N := match l with [] => [] | [x] => x | x :: r => x ++ 44%N :: join r end.
(** The headers appended to the defaults of a route, cors.py:302-341 = 177-219. *)
Definition opt {A} (b : bool) (x : A) : list A := if b then [x] else [].
Definition some_of (l : list (list N)) : bool := match l with [] => false | _ => true end.
Definition cors_defaults (o : policy) : list (list N * list N) :=
  [(ACAO, o_origin o)] ++ opt (some_of (o_methods o)) (ACAM, join (o_methods o)) ++ opt (some_of (o_headers o)) (ACAH, join (o_headers o)) ++
  opt (some_of (o_expose o)) (ACEH, join (o_expose o)) ++ opt (o_cred o) (ACAC, bs "true").
(** The names appended to only_debug_default_headers: the first one always. *)
Definition cors_debug_names (o : policy) : list (list N) :=
  [ACAO] ++ if o_only_debug o then opt (some_of (o_methods o)) ACAM ++ opt (some_of (o_headers o)) ACAH ++ opt (some_of (o_expose o)) ACEH ++ opt (o_cred o) ACAC else [].
Definition add_cors (o : policy) (r : proute) : proute :=
  mkPR (q_uri r) (q_method r) (q_handler r) (q_debug_route r) (q_only_debug r) (q_defaults r ++ cors_defaults o) (q_debug_names r ++ cors_debug_names o).
Definition preflight_of (o : policy) : phandler := HPreflight (o_origin o) (o_methods o) (o_headers o) (o_expose o) (o_cred o) (o_max_age o).
(** What the handler made by _option returns, cors.py:55-71.  [text]: str of an int. *)
Definition preflight_response (text : Z -> list N) (origin : list N) (methods headers expose : list (list N)) (cred : bool) (max_age : option Z) : pyresp :=
  fold_left (fun r h => py_add_header (fst h) (snd h) r)
    ([(ACAO, origin)] ++ opt (some_of methods) (ACAM, join methods) ++ opt (some_of headers) (ACAH, join headers) ++ opt (some_of expose) (ACEH, join expose) ++
     opt cred (ACAC, bs "true") ++ match max_age with Some a => [(bs "Access-Control-Max-Age", text a)] | None => [] end)
    (py_response 200 None None (bs "text/plain")).
Definition update (i : nat) (f : proute -> proute) (rs : list proute) : list proute :=
  match nth_error rs i with Some r => firstn i rs ++ f r :: skipn (S i) rs | None => rs end.
(** _Cors._apply_route, cors.py:282-341, for the route at position [i]. *)
Definition apply_one (debug : bool) (o : policy) (i : nat) (r : proute) (rs : list proute) : pyerror + list proute :=
  match app_route debug (q_uri r) (preflight_of o) OPTIONS (q_debug_route r) (o_only_debug o) [] rs with
  | inl e => inl e
  | inr rs => inr (update i (add_cors o) rs)
  end.
(** _Cors.apply_route, cors.py:343-359: the loop runs over the list it appends to. *)
Fixpoint apply_loop (fuel : nat) (debug : bool) (o : policy) (i : nat) (rs : list proute) : outcome (pyerror + list proute) :=
  match fuel with
  | 0 => UB Diverges
  | S f =>
    match nth_error rs i with
    | None => Ok (inr rs)
    | Some r =>
      if bytes_eqb (q_method r) OPTIONS then apply_loop f debug o (S i) rs
      else if existsb (fun j => bytes_eqb (q_uri j) (q_uri r) && bytes_eqb (q_method j) OPTIONS) rs then apply_loop f debug o (S i) rs
      else match apply_one debug o i r rs with
           | inl e => Ok (inl e)
           | inr rs => apply_loop f debug o (S i) rs
           end
    end
  end.
Definition apply_cors (debug : bool) (o : policy) (rs : list proute) : outcome (pyerror + list proute) := apply_loop (S (2 * length rs)) debug o 0 rs.
(** The decorator allow_cors, cors.py:130-221 ([func.route] has the path as written, app.py:183-188), applied to a function
    decorated with method [m] and path [u] before. *)
Fixpoint last_index (p : proute -> bool) (i : nat) (rs : list proute) : option nat :=
  match rs with
  | [] => None
  | r :: t => match last_index p (S i) t with Some k => Some k | None => if p r then Some i else None end
  end.
Definition allow_cors (debug : bool) (o : policy) (u m : list N) (debug_route : bool) (rs : list proute) : pyerror + list proute :=
  if o_only_debug o && negb debug then inr rs
  else match app_route debug u (preflight_of o) OPTIONS debug_route (o_only_debug o) [] rs with
       | inl e => inl e
       | inr rs =>
         match last_index (same_route m u) 0 rs with
         | None => inl AttributeError
         | Some i => inr (update i (add_cors o) rs)
         end
       end.

(** ** Production mode *)
(** Route._production_routes, route.py:113-124. *)
Definition production_routes (debug : bool) (rs : list proute) : list proute := if debug then rs else filter (fun r => negb (q_debug_route r)) rs.
(** list.remove: the first element that is equal. *)
Definition hdr_eqb (a b : list N * list N) : bool := bytes_eqb (fst a) (fst b) && bytes_eqb (snd a) (snd b).
Fixpoint remove_first (x : list N * list N) (l : list (list N * list N)) : list (list N * list N) :=
  match l with [] => [] | y :: r => if hdr_eqb x y then r else y :: remove_first x r end.
(** The inner loop of remove_default_headers_with_debug, _base.py:110-114.  [pre]: what the iterator has passed; when an
    element is removed the next one takes its place and is passed without being looked at. *)
Fixpoint drop_named (n : list N) (pre l : list (list N * list N)) : list (list N * list N) :=
  match l with
  | [] => pre
  | j :: t =>
    if bytes_eqb n (fst j) then
      let pre := if existsb (hdr_eqb j) pre then remove_first j pre ++ [j] else pre in
      match t with
      | [] => pre
      | y :: t' => drop_named n (pre ++ [y]) t'
      end
    else drop_named n (pre ++ [j]) t
  end.
(** remove_default_headers_with_debug, _base.py:109-114. *)
Definition strip_debug (r : proute) : proute :=
  mkPR (q_uri r) (q_method r) (q_handler r) (q_debug_route r) (q_only_debug r) (fold_left (fun l n => drop_named n [] l) (q_debug_names r) (q_defaults r)) (q_debug_names r).
(** The loop of remove_only_debug_headers, route.py:126-139, over the list it removes from (list.remove finds the route itself:
    no other has its method and uri).  The base of a removed route is not used any more. *)
Fixpoint drop_only_debug (rs : list proute) : list proute :=
  match rs with
  | [] => []
  | r :: t => if q_only_debug r then match t with [] => [] | y :: t' => y :: drop_only_debug t' end
              else strip_debug r :: drop_only_debug t
  end.
Definition remove_only_debug (debug : bool) (rs : list proute) : list proute := if debug then rs else drop_only_debug rs.
(** What _start_server does with the table, app.py:260-268. *)
Definition startup (debug : bool) (cors : option policy) (rs : list proute) : outcome (pyerror + list proute) :=
  let rs := production_routes debug rs in
  obind (match cors with Some o => apply_cors debug o rs | None => Ok (inr rs) end) (fun x => match x with
    | inl e => Ok (inl e)
    | inr rs => Ok (inr (remove_only_debug debug rs))
    end).

(** ** What an application does before it starts *)
Inductive pyop := OpRoute (u : list N) (n : nat) (m : list N) (debug_route only_debug : bool) (defaults : list (list N * list N))
                | OpCors (o : policy) (u m : list N) (debug_route : bool).
(** An operation that raises leaves the table as it was, or, for AttributeError, with the new OPTIONS route. *)
Definition do_op (debug : bool) (rs : list proute) (x : pyop) : list proute :=
  match x with
  | OpRoute u n m d od df => match app_route debug u (HApp n) m d od df rs with inl _ => rs | inr rs => rs end
  | OpCors o u m d =>
    match allow_cors debug o u m d rs with
    | inr rs => rs
    | inl ValueError => rs
    | inl AttributeError => match app_route debug u (preflight_of o) OPTIONS d (o_only_debug o) [] rs with inl _ => rs | inr rs => rs end
    end
  end.
Definition table (debug : bool) (ops : list pyop) : list proute := fold_left (do_op debug) ops [].
