(** Properties of how fields of a request reach a Python handler, and of cookies.  Proofs: [PyParseProofs]. *)
From Verif Require Import Base CStr Route PyParse PyParseProofs.
Local Open Scope N_scope.

(** ** Cookies (C77) *)
(** A browser keeps exactly the name and the value given, whatever the attributes. *)
Theorem cookie_kept : forall text name value o, name_ok name -> value_ok value -> keeps (set_cookie text name value o) name value.
Proof. exact set_cookie_kept. Qed.
Theorem cookie_kept_only : forall text n v n' v', keeps text n v -> keeps text n' v' -> n = n' /\ v = v'.
Proof. exact keeps_fun. Qed.
(** What it sends back is read as it was set.  Missing: values with '='. *)
Theorem cookie_round_trip_partial : forall text name value o n v, name_ok name -> value_ok value -> ~ In 61 value ->
  keeps (set_cookie text name value o) n v -> parse_cookie [sent [(n, v)]] = [(name, Some value)].
Proof. exact cookie_trip. Qed.
(** Any number of cookies in any number of header fields, in their order. *)
Theorem cookies_round_trip_partial : forall jars, Forall (fun jar => jar <> [] /\ Forall (fun c => name_ok (fst c) /\ value_ok (snd c) /\ ~ In 61 (snd c)) jar) jars ->
  parse_cookie (map sent jars) = map (fun c => (fst c, Some (snd c))) (concat jars).
Proof. exact cookies_all. Qed.
(** A value loses everything from its first '=' on. *)
Theorem cookie_value_cut : forall text name a b o n v, name_ok name -> value_ok (a ++ 61 :: b) -> ~ In 61 a ->
  keeps (set_cookie text name (a ++ 61 :: b) o) n v -> parse_cookie [sent [(n, v)]] = [(name, Some (strip a))].
Proof. exact cookie_cut. Qed.
Theorem cookie_equals_refuted : exists n v, sent [(n, v)] = bs "token=YQ==" /\ parse_cookie [sent [(n, v)]] <> [(n, Some v)].
Proof. exists (bs "token"), (bs "YQ=="). split; [reflexivity|]. vm_compute. discriminate. Qed.
Example cookie_ex : parse_cookie [sent [(bs "id", bs "7"); (bs "lang", bs "en")]; bs " a = b ;c"] = [(bs "id", Some (bs "7")); (bs "lang", Some (bs "en")); (bs "a", Some (bs "b")); (bs "c", None)].
Proof. vm_compute. reflexivity. Qed.
(** Two cookies whose names differ in case or in '-' for '_' are one to a handler: it gets the first. *)
Theorem first_of_names : forall lo name a n v b, Forall (fun f => ~ names lo name (fst f)) a -> names lo name n -> get lo name (a ++ (n, v) :: b) = v.
Proof. exact get_first. Qed.
Theorem cookie_case_refuted : exists h, parse_cookie [h] = [(bs "SID", Some (bs "1")); (bs "sid", Some (bs "2"))] /\ get (fun c => [c]) (bs "sid") (parse_cookie [h]) = Some (bs "1").
Proof. exists (bs "SID=1; sid=2"). split; vm_compute; reflexivity. Qed.
(** An argument with a capital letter finds no field, whatever the request. *)
Theorem capital_finds_nothing : forall lo lim flt name c, lower_law lo -> In c name -> 65 <= c <= 90 -> (forall l, get lo name l = None) /\ (forall ps, get_path lo lim flt name ps = inr None).
Proof. intros lo lim flt name c L I C. split; [intros l; exact (get_capital lo name c l L I C)|intros ps; exact (get_path_capital lo lim flt name c ps L I C)]. Qed.
Theorem capital_refuted : exists name l, In (name, Some (bs "1")) l /\ get (fun c => [c]) name l = None.
Proof. exists (bs "userId"), [(bs "userId", Some (bs "1"))]. split; [left; reflexivity|vm_compute; reflexivity]. Qed.
(** A name of lower-case letters, digits and '_' finds itself. *)
Theorem plain_name_found : forall lo n, plain_name n -> names lo n n.
Proof. exact plain_names. Qed.

(** ** Cookie attributes (C105) *)
(** The header has the name, the value and the attributes asked for, in a fixed order.  Missing: Max-Age 0, empty Domain and Path. *)
Theorem cookie_attributes_partial : forall text name value o, co_max_age o <> Some 0%Z -> co_domain o <> Some [] -> co_path o <> Some [] ->
  set_cookie text name value o = cookie_line name value (asked text o).
Proof. exact set_cookie_text. Qed.
(** Max-Age 0, which tells a browser to drop the cookie, is left out. *)
Theorem max_age_zero_lost : forall text name value o, co_max_age o = Some 0%Z ->
  set_cookie text name value o = set_cookie text name value (mkCo None (co_secure o) (co_http_only o) (co_domain o) (co_path o) (co_samesite o)).
Proof. exact set_cookie_zero. Qed.
Theorem max_age_zero_refuted : exists text o, co_max_age o = Some 0%Z /\ set_cookie text (bs "a") (bs "b") o = bs "a=b".
Proof. exists (fun _ => bs "0"), (mkCo (Some 0%Z) false false None None None). split; reflexivity. Qed.
(** A ';' in the value starts an attribute that was not asked for. *)
Theorem value_adds_attributes : forall text name v a o, ~ In 59 a -> stripped a -> attribute (set_cookie text name (v ++ 59 :: a) o) a.
Proof. exact value_injects. Qed.
Example attributes_ex : set_cookie (fun _ => bs "60") (bs "a") (bs "b; Domain=evil") (mkCo (Some 60%Z) true true None (Some (bs "/")) (Some Lax)) = bs "a=b; Domain=evil; Max-Age=60; Secure; HttpOnly; Path=/; SameSite=Lax".
Proof. vm_compute. reflexivity. Qed.

(** ** Query and form fields (C78) *)
(** Every list of fields, percent-encoded in any way, is read from a query as it was. *)
Theorem query_round_trip : forall bad fs t, fs <> [] -> readable fs -> fields_text quoted fs t -> parse_query bad t = map (fun f => (fst f, Some (snd f))) fs.
Proof. exact query_ok. Qed.
(** An encoder that writes '+' for a blank: every blank is read as '+'. *)
Theorem query_blank_lost : forall bad fs t, fs <> [] -> readable fs -> fields_text form_quoted fs t ->
  parse_query bad t = map (fun f => (plus_for_blank (fst f), Some (plus_for_blank (snd f)))) fs.
Proof. exact query_plus. Qed.
Theorem query_blank_refuted : exists fs t, fields_text form_quoted fs t /\ parse_query (fun _ => []) t <> map (fun f => (fst f, Some (snd f))) fs.
Proof.
  exists [(bs "q", bs "a b")], (bs "q=a+b"). split; [|vm_compute; discriminate].
  exists [bs "q=a+b"]. split; [|reflexivity]. constructor; [|constructor]. exists (bs "q"), (bs "a+b"). split; [|split; [|reflexivity]]; repeat (constructor; try (vm_compute; intuition discriminate)).
Qed.
(** A form is read as it was; of fields of one name the last stays.  Missing: names and values with '&' or '=' or blanks around. *)
Theorem form_round_trip_partial : forall bad fs t, fs <> [] -> readable fs -> Forall plain_field fs -> fields_text form_quoted fs t ->
  exists d, parse_form bad t = Some d /\ forall k, dict_get k d = option_map Some (last_value k fs).
Proof. exact form_ok. Qed.
(** The body is decoded before it is cut: an encoded '&' in a value starts another field, which replaces a field of its name. *)
Theorem form_value_splits : forall bad n v m w t, encodable n -> encodable (v ++ 38 :: m ++ 61 :: w) -> plain_field (n, v) -> plain_field (m, w) ->
  fields_text form_quoted [(n, v ++ 38 :: m ++ 61 :: w)] t ->
  exists d, parse_form bad t = Some d /\ (n <> m -> dict_get n d = Some (Some v)) /\ dict_get m d = Some (Some w).
Proof. exact form_amp. Qed.
Theorem form_refuted : parse_form (fun _ => []) (bs "comment=a%26admin%3D1") = Some [(bs "comment", Some (bs "a")); (bs "admin", Some (bs "1"))].
Proof. vm_compute. reflexivity. Qed.

(** ** Typed path parameters (C79) *)
(** The first parameter of the name, converted as its type says; a text that is no number is answered with 404. *)
Theorem path_parameter : forall lo lim flt name a p v b, Forall (fun q => ~ names lo name (pm_name (fst q))) a -> names lo name (pm_name p) ->
  get_path lo lim flt name (a ++ (p, v) :: b) =
  match pm_type p with
  | PInt => match py_int lim v with Some z => inr (Some (VInt z)) | None => inl Raise404 end
  | PFloat => match flt v with Some f => inr (Some (VFloat f)) | None => inl Raise404 end
  | PBool => inr (Some (VBool (match v with [] => false | _ => true end)))
  | PStr => inr (Some (VStr v))
  end.
Proof. exact path_value. Qed.
(** The int of a text is the number its digits write. *)
Theorem path_int : forall lim t z, py_int lim t = Some z <->
  (exists w1 s w2, t = w1 ++ s ++ w2 /\ whitespace w1 /\ whitespace w2 /\ int_text s z) /\ (lim = 0 \/ (count_digits t <= lim))%nat.
Proof. exact int_spec. Qed.
Example path_int_ex : py_int 4300 (bs "-1_024") = Some (-1024)%Z /\ py_int 4300 (bs "1e3") = None /\ py_int 4300 (bs "") = None.
Proof. split; [|split]; vm_compute; reflexivity. Qed.
(** A bool parameter is True for every text but the empty one. *)
Theorem path_bool_true : forall lo lim flt name p c v b, names lo name (pm_name p) -> pm_type p = PBool -> get_path lo lim flt name ((p, c :: v) :: b) = inr (Some (VBool true)).
Proof. intros lo lim flt name p c v b M T. etransitivity; [exact (path_value lo lim flt name [] p (c :: v) b (Forall_nil _) M)|]. rewrite T. reflexivity. Qed.
Theorem path_bool_refuted : exists p, pm_type p = PBool /\ get_path (fun c => [c]) 4300 (fun _ => None) (bs "on") [(p, bs "false")] = inr (Some (VBool true)).
Proof. exists (mkParam (bs "on") PBool). split; vm_compute; reflexivity. Qed.

(** ** Handler arguments (C103) *)
(** Every argument gets what its annotation or its name says, or the handler is not called.  Missing: arguments one of which
    is named like an entry another one reads; FormData classes. *)
Theorem arguments_exact_partial : forall bad lo lim flt rq args, separate args ->
  match parse_func_args bad lo lim flt rq args false with
  | inr xs => Forall2 (passed bad lo lim flt rq) args xs
  | inl e => exists a x b xs, args = a ++ x :: b /\ Forall2 (passed bad lo lim flt rq) a xs /\ refused bad lo lim flt rq x e
  end.
Proof. exact args_spec. Qed.
Definition ex_rq := mkRequest [bs "header"; bs "cookie"; bs "query"; bs "path_params"; bs "body"] [(mkParam (bs "id") PInt, bs "12")] (Some (bs "q=x%20y&id=5"))
  [(bs "user-agent", Some (bs "curl"))] [bs "sid=9"].
Example arguments_ex : separate [(bs "id", NoAnn); (bs "q", NoAnn); (bs "sid", AnCookie); (bs "user_agent", NoAnn); (bs "body", NoAnn); (bs "x", AnQuery); (bs "request", NoAnn)] /\
  parse_func_args (fun _ => []) (fun c => [c]) 4300 (fun _ => None) ex_rq [(bs "id", NoAnn); (bs "q", NoAnn); (bs "sid", AnCookie); (bs "user_agent", NoAnn); (bs "body", NoAnn); (bs "x", AnQuery); (bs "request", NoAnn)] false =
  inr [AVal (VInt 12); AText (bs "x y"); AText (bs "9"); AText (bs "curl"); AEntry (bs "body"); ANone; AWhole].
Proof.
  split; [|vm_compute; reflexivity]. split; [repeat (constructor; [cbn; intuition discriminate|]); constructor|].
  intros i j a I1 I2 NA E. cbn [In] in I1, I2. repeat (destruct I2 as [I2|I2]; [injection I2 as <- <-; try contradiction; repeat (destruct I1 as [I1|I1]; [injection I1 as <-; discriminate|try discriminate]); contradiction|]). contradiction.
Qed.
(** A handler that takes ** arguments is never called. *)
Theorem kwargs_handler_fails : forall bad lo lim flt rq args, exists e, parse_func_args bad lo lim flt rq args true = inl e.
Proof. exact varkw_raises. Qed.
(** An argument named header and without annotation takes the header fields from the arguments behind it. *)
Theorem header_argument_takes_all : forall bad lo lim flt rq i, is_entry rq (bs "header") ->
  parse_func_args bad lo lim flt rq [(bs "header", NoAnn); (i, AnHeader)] false = inr [AEntry (bs "header"); ANone].
Proof. exact entry_taken. Qed.
Theorem arguments_refuted : exists rq i v, in_header (fun c => [c]) rq i v /\
  parse_func_args (fun _ => []) (fun c => [c]) 4300 (fun _ => None) rq [(bs "header", NoAnn); (i, AnHeader)] false = inr [AEntry (bs "header"); ANone].
Proof.
  exists ex_rq, (bs "user_agent"), (bs "curl"). split; [|vm_compute; reflexivity]. split; [left; reflexivity|]. exists [], (bs "user-agent"), []. split; [reflexivity|]. split; [constructor|vm_compute; reflexivity].
Qed.

(** ** Header fields that are no UTF-8 (C104) *)
Theorem headers_delivered : forall hs, Forall (fun h => encodable (fst h) /\ encodable (snd h)) hs -> header_entry (map (fun h => (utf8 (fst h), utf8 (snd h))) hs) = Ok hs.
Proof. exact headers_ok. Qed.
Theorem header_not_utf8_crashes : forall a n v b, not_utf8 n \/ not_utf8 v -> header_entry (a ++ (n, v) :: b) = UB NullDeref.
Proof. exact headers_crash. Qed.
Theorem header_bytes_refuted : exists n v, n = bs "x" /\ v = [233] /\ header_entry [(n, v)] = UB NullDeref.
Proof. exists (bs "x"), [233]. split; [reflexivity|]. split; reflexivity. Qed.
Example headers_crash_ex : not_utf8 [233].
Proof.
  intros (s & S & E). destruct s as [|c s]; [discriminate|]. apply (f_equal undec) in E. rewrite undec_utf8 in E by exact S. discriminate.
Qed.
Example headers_ex : header_entry [(bs "x", [195; 169])] = Ok [(bs "x", [233])].
Proof. vm_compute. reflexivity. Qed.
Print Assumptions cookie_kept.
Print Assumptions cookie_kept_only.
Print Assumptions cookie_round_trip_partial.
Print Assumptions cookies_round_trip_partial.
Print Assumptions cookie_value_cut.
Print Assumptions cookie_equals_refuted.
Print Assumptions first_of_names.
Print Assumptions cookie_case_refuted.
Print Assumptions capital_finds_nothing.
Print Assumptions capital_refuted.
Print Assumptions plain_name_found.
Print Assumptions cookie_attributes_partial.
Print Assumptions max_age_zero_lost.
Print Assumptions max_age_zero_refuted.
Print Assumptions value_adds_attributes.
Print Assumptions query_round_trip.
Print Assumptions query_blank_lost.
Print Assumptions query_blank_refuted.
Print Assumptions form_round_trip_partial.
Print Assumptions form_value_splits.
Print Assumptions form_refuted.
Print Assumptions path_parameter.
Print Assumptions path_int.
Print Assumptions path_bool_true.
Print Assumptions path_bool_refuted.
Print Assumptions arguments_exact_partial.
Print Assumptions kwargs_handler_fails.
Print Assumptions header_argument_takes_all.
Print Assumptions arguments_refuted.
Print Assumptions headers_delivered.
Print Assumptions header_not_utf8_crashes.
Print Assumptions header_bytes_refuted.
