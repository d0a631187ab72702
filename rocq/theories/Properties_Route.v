(** C21-C25: routes. *)
From Verif Require Import Base CStr CNum Names NamesProofs AcceptEncProofs Reqline Route RouteProofs.
Local Open Scope N_scope.

(** ** C21.  Full statement: a request is dispatched to the first registered route whose method and path are equal to
    the request's (when no parameter route matches), and to none if there is none. *)
(** Tables of routes without parameters: the full statement.  [rest] is what follows the path in memory. *)
Theorem route_static_first : forall regs uri rest m,
  Forall (fun r => params_of (rt_path r) [] /\ rt_params r = [] /\ no0 (rt_path r)) regs -> no0 uri ->
  (exists a r c, regs = a ++ r :: c /\ rt_path r = uri /\ rt_method r = m /\ Forall (fun x => ~ (rt_path x = uri /\ rt_method x = m)) a /\
     found_route regs (uri ++ rest) (length uri) m = Ok (Some r)) \/
  (Forall (fun x => ~ (rt_path x = uri /\ rt_method x = m)) regs /\ found_route regs (uri ++ rest) (length uri) m = Ok None).
Proof.
  intros regs uri rest m F NU.
  assert (NB : Forall (fun r => ~ In 123 (rt_path r)) regs).
  { revert F. apply Forall_impl. intros r (P & _ & _). apply (params_none _ _ P). reflexivity. }
  assert (FS : Forall simple regs).
  { revert F. apply Forall_impl. intros [p m' h ps] (P & E & Z). cbn [rt_params rt_path] in *. subst ps. apply static_simple; [apply (params_none _ _ P); reflexivity|exact Z]. }
  assert (W : forall l, Forall (fun r => ~ In 123 (rt_path r)) l -> Forall (fun x => ~ selects x uri m) l -> Forall (fun x => ~ (rt_path x = uri /\ rt_method x = m)) l).
  { intros l NL. revert NL. induction 1 as [|x l NX _ IH]; intros H; inversion H; subst; constructor; [|auto]. rewrite static_selects in * by exact NX. assumption. }
  destruct (found_spec regs uri rest m FS NU) as [(a & r & c & E & S & A & Q)|(A & Q)].
  - left. exists a, r, c. subst regs. apply Forall_app in NB as (NA & NR). apply Forall_inv in NR. apply static_selects in S as (S1 & S2); [|exact NR]. auto 10.
  - right. auto.
Qed.
Print Assumptions route_static_first.
Definition ex_static : list route := [mkRoute (bs "/a") POST 1 []; mkRoute (bs "/a") GET 2 []; mkRoute (bs "/ab") GET 3 []; mkRoute (bs "/a") GET 4 []].
Lemma no0_check l : forallb (fun x => negb (x =? 0)) l = true -> no0 l.
Proof. intros H I. rewrite forallb_forall in H. apply H in I. discriminate. Qed.
Example route_static_first_example :
  Forall (fun r => params_of (rt_path r) [] /\ rt_params r = [] /\ no0 (rt_path r)) ex_static /\
  found_route ex_static (bs "/a HTTP/1.1") 2 GET = Ok (Some (mkRoute (bs "/a") GET 2 [])) /\
  found_route ex_static (bs "/abc HTTP/1.1") 4 GET = Ok None.
Proof.
  split; [|split; vm_compute; reflexivity].
  repeat (apply Forall_cons; [split; [apply (params_exact 9); vm_compute; reflexivity|split; [reflexivity|apply no0_check; vm_compute; reflexivity]]|]). constructor.
Qed.
(** Tables that also have routes with parameters none of which is followed by a slash (missing: other parameter
    routes).  [selects] says which requests a route takes: a parameter route takes every method. *)
Theorem route_first_partial : forall regs uri rest m, Forall simple regs -> no0 uri ->
  (exists a r c, regs = a ++ r :: c /\ selects r uri m /\ Forall (fun x => ~ selects x uri m) a /\ found_route regs (uri ++ rest) (length uri) m = Ok (Some r)) \/
  (Forall (fun x => ~ selects x uri m) regs /\ found_route regs (uri ++ rest) (length uri) m = Ok None).
Proof. exact found_spec. Qed.
Print Assumptions route_first_partial.
Definition ex_user : route := mkRoute (bs "/user/{id: int}") POST 5 [mkParam (bs "id") PInt].
Lemma ex_user_simple : simple ex_user.
Proof.
  repeat split; [apply (params_exact 15); vm_compute; reflexivity|apply no0_check; vm_compute; reflexivity|].
  intros pre inner E NP. change (rt_path ex_user) with (bs "/user/" ++ 123 :: bs "id: int}") in E.
  apply split_unique in E as (_ & <-); [|vm_compute; intros H; repeat (destruct H as [H|H]; [discriminate|]); exact H|exact NP].
  vm_compute. intros H. repeat (destruct H as [H|H]; [discriminate|]). exact H.
Qed.
Example route_first_example : Forall simple [mkRoute (bs "/a") POST 1 []; ex_user; mkRoute (bs "/user/9") GET 2 []] /\
  found_route [mkRoute (bs "/a") POST 1 []; ex_user; mkRoute (bs "/user/9") GET 2 []] (bs "/user/7 ") 7 GET = Ok (Some ex_user).
Proof.
  split; [|vm_compute; reflexivity].
  apply Forall_cons; [|apply Forall_cons; [apply ex_user_simple|apply Forall_cons; [|constructor]]].
  all: apply static_simple; [vm_compute; intros H; repeat (destruct H as [H|H]; [discriminate|]); exact H|apply no0_check; vm_compute; reflexivity].
Qed.
(** Consequently an exact route registered for the request's method and path can be passed over for an earlier
    parameter route registered for another method. *)
Theorem route_static_shadowed_refuted : exists regs uri m r, Forall simple regs /\ no0 uri /\ In r regs /\ rt_path r = uri /\ rt_method r = m /\
  exists r', found_route regs (uri ++ [32]) (length uri) m = Ok (Some r') /\ rt_method r' <> m.
Proof.
  exists [ex_user; mkRoute (bs "/user/9") GET 2 []], (bs "/user/9"), GET, (mkRoute (bs "/user/9") GET 2 []).
  split. { constructor; [apply ex_user_simple|]. constructor; [|constructor]. apply static_simple; [vm_compute; intros H; repeat (destruct H as [H|H]; [discriminate|]); exact H|apply no0_check; vm_compute; reflexivity]. }
  split; [apply no0_check; vm_compute; reflexivity|]. split; [right; left; reflexivity|]. split; [reflexivity|]. split; [reflexivity|].
  exists ex_user. split; [vm_compute; reflexivity|discriminate].
Qed.
Print Assumptions route_static_shadowed_refuted.

(** ** C22.  Full statement: a route with parameters is only selected for requests with its method.  It is false:
    the method plays no role at all. *)
Theorem route_param_ignores_method : forall r u n m m', rt_params r <> [] -> found_route [r] u n m = found_route [r] u n m'.
Proof. exact param_ignores_method. Qed.
Print Assumptions route_param_ignores_method.
Example route_param_ignores_method_example : rt_params ex_user <> [] /\ found_route [ex_user] (bs "/user/7 ") 7 DELETE = Ok (Some ex_user).
Proof. split; [discriminate|vm_compute; reflexivity]. Qed.
Theorem route_param_method_refuted : exists r uri m, params_of (rt_path r) (rt_params r) /\ rt_params r <> [] /\ rt_method r <> m /\
  found_route [r] (uri ++ [32]) (length uri) m = Ok (Some r).
Proof.
  exists ex_user, (bs "/user/7"), GET. split; [apply ex_user_simple|]. split; [discriminate|]. split; [discriminate|vm_compute; reflexivity].
Qed.
Print Assumptions route_param_method_refuted.
(** Routes without parameters respect the method. *)
Theorem route_static_respects_method_partial : forall regs u n m r, found_route regs u n m = Ok (Some r) -> rt_params r = [] -> rt_method r = m.
Proof.
  intros regs u n m r. induction regs as [|x t IH]; cbn [found_route]; [discriminate|]. destruct (rt_params x) as [|p ps] eqn:P.
  - destruct ((_ && _) && _)%bool eqn:B; [|exact IH]. intros [= <-] _. apply andb_true_iff in B as (_ & B). apply method_eqb_spec. exact B.
  - destruct (match_param_uri (rt_path x) u n) as [[]|]; cbn [obind]; [intros [= <-] E; congruence|exact IH|discriminate].
Qed.
Print Assumptions route_static_respects_method_partial.
Example route_static_respects_method_example : found_route ex_static (bs "/a ") 2 GET = Ok (Some (mkRoute (bs "/a") GET 2 [])).
Proof. vm_compute. reflexivity. Qed.

(** ** C23.  Full statement: if a path matches a parameter route every parameter receives the text of its segment;
    paths that do not have the route's shape do not match. *)
(** Matching, for routes whose parameters are not followed by a slash: exactly the paths made of the text before
    the parameter and one non-empty segment. *)
Theorem route_match_partial : forall pre inner uri rest, ~ In 123 pre -> ~ In 47 inner ->
  exists e, match_param_uri (pre ++ bs "{" ++ inner) (uri ++ rest) (length uri) = Ok e /\
    (e = true <-> exists v, uri = pre ++ v /\ v <> [] /\ ~ In 47 v).
Proof. exact match_uri_trailing. Qed.
Print Assumptions route_match_partial.
Example route_match_example :
  match_param_uri (bs "/user/" ++ bs "{" ++ bs "id}") (bs "/user/ab" ++ bs " x") 8 = Ok true /\
  match_param_uri (bs "/user/" ++ bs "{" ++ bs "id}") (bs "/user/" ++ bs " x") 6 = Ok false /\
  match_param_uri (bs "/user/" ++ bs "{" ++ bs "id}") (bs "/user/a/b" ++ bs " x") 9 = Ok false.
Proof. vm_compute. auto. Qed.
(** Capturing, for every pattern of literal and parameter segments: each parameter receives exactly its segment.
    (Missing for the full statement: that such a path is matched at all, which is false with a parameter in the middle.) *)
Theorem route_capture_partial : forall qs m h ps rest, Forall piece_ok qs -> params_of (pattern qs) ps -> length (values qs) = length ps ->
  capture (mkRoute (pattern qs) m h ps) (uri_of qs ++ rest) (length (uri_of qs)) = Ok (Some (combine ps (values qs))).
Proof. exact capture_spec. Qed.
Print Assumptions route_capture_partial.
Definition ex_pieces : list piece := [PLit (bs "user"); PPar (bs "id: int") (bs "42"); PLit (bs "post/by"); PPar (bs "name") (bs "x%20y")].
Example route_capture_example : Forall piece_ok ex_pieces /\ pattern ex_pieces = bs "/user/{id: int}/post/by/{name}" /\ uri_of ex_pieces = bs "/user/42/post/by/x%20y" /\
  params_of (pattern ex_pieces) [mkParam (bs "id") PInt; mkParam (bs "name") PStr] /\
  capture (mkRoute (pattern ex_pieces) GET 0 [mkParam (bs "id") PInt; mkParam (bs "name") PStr]) (uri_of ex_pieces ++ bs " HTTP") (length (uri_of ex_pieces)) =
    Ok (Some [(mkParam (bs "id") PInt, bs "42"); (mkParam (bs "name") PStr, bs "x%20y")]).
Proof.
  split; [|split; [reflexivity|split; [reflexivity|split; [apply (params_exact 30); vm_compute; reflexivity|vm_compute; reflexivity]]]].
  repeat constructor; cbn [piece_ok]; repeat split; try discriminate; vm_compute; intros H; repeat (destruct H as [H|H]; [discriminate|]); exact H.
Qed.
(** A parameter followed by a slash: the route is never selected when the request's memory has no closing brace. *)
Theorem route_mid_parameter_never_matches : forall pre inner u ulen, ~ In 123 pre -> In 47 inner -> ~ In 125 u ->
  match_param_uri (pre ++ bs "{" ++ inner) u ulen <> Ok true.
Proof. intros pre inner u ulen NP I NU. exact (match_mid pre inner u ulen NP I NU (S ulen) 0 ltac:(lia)). Qed.
Print Assumptions route_mid_parameter_never_matches.
Theorem route_mid_parameter_refuted : exists qs m h ps, Forall piece_ok qs /\ params_of (pattern qs) ps /\ length (values qs) = length ps /\
  found_route [mkRoute (pattern qs) m h ps] (uri_of qs ++ bs " HTTP/1.1") (length (uri_of qs)) m = Ok None.
Proof.
  exists ex_pieces, GET, 0%nat, [mkParam (bs "id") PInt; mkParam (bs "name") PStr].
  split; [apply route_capture_example|]. split; [apply route_capture_example|]. split; [reflexivity|vm_compute; reflexivity].
Qed.
Print Assumptions route_mid_parameter_refuted.
(** The comparison after a parameter in the middle can read behind the memory of the request. *)
Theorem route_mid_parameter_memory_refuted : exists path ps uri, params_of path ps /\ no0 uri /\
  match_param_uri path uri (length uri) = UB OutOfBounds.
Proof.
  exists (bs "/users/{id}/x"), [mkParam (bs "id") PStr], (bs "/users/12345/x"). split; [apply (params_exact 13); vm_compute; reflexivity|].
  split; [apply no0_check; vm_compute; reflexivity|vm_compute; reflexivity].
Qed.
Print Assumptions route_mid_parameter_memory_refuted.
(** Text after the parameter is ignored. *)
Theorem route_suffix_refuted : exists path ps uri, params_of path ps /\ match_param_uri path (uri ++ [32]) (length uri) = Ok true /\
  (forall v, uri <> bs "/a/" ++ v ++ bs ".html") /\ path = bs "/a/{x}.html".
Proof.
  exists (bs "/a/{x}.html"), [mkParam (bs "x") PStr], (bs "/a/b"). split; [apply (params_exact 11); vm_compute; reflexivity|]. split; [vm_compute; reflexivity|]. split; [|reflexivity].
  intros v E. apply (f_equal (@length N)) in E. rewrite !app_length in E. cbn in E. lia.
Qed.
Print Assumptions route_suffix_refuted.

(** ** C24.  Full statement: registering a pattern succeeds iff it is well-formed and records the declared name and
    type of each parameter. *)
(** Well-formed patterns over the types int, float, str and without type (missing: bool): the declared names and
    types are recorded in order, the route is added behind the others. *)
Theorem route_registered_partial : forall ds regs m h, Forall decl_ok ds ->
  register regs (concat (map decl_text ds)) m h = Ok (RegOk (regs ++ [mkRoute (concat (map decl_text ds)) m h (concat (map declared ds))])).
Proof. intros ds regs m h F. apply register_exact. eexists. split; [apply pattern_params; exact F|reflexivity]. Qed.
Print Assumptions route_registered_partial.
Definition ex_decls : list decl := [DLit (bs "/a/"); DTyped (bs " ") (bs "_id2") [] (bs " ") PInt []; DLit (bs "/x}/"); DVar [] (bs "n") (bs " ")].
Example route_registered_example : Forall decl_ok ex_decls /\ concat (map decl_text ex_decls) = bs "/a/{ _id2: int}/x}/{n }" /\
  register [] (bs "/a/{ _id2: int}/x}/{n }") GET 7 = Ok (RegOk [mkRoute (bs "/a/{ _id2: int}/x}/{n }") GET 7 [mkParam (bs "_id2") PInt; mkParam (bs "n") PStr]]).
Proof.
  split; [|split; [reflexivity|vm_compute; reflexivity]].
  assert (W : ows (bs " ")) by (repeat constructor; left; reflexivity). assert (W0 : ows []) by constructor.
  assert (V1 : is_var (bs "_id2")). { exists 95, (bs "id2"). split; [reflexivity|]. split; [reflexivity|]. repeat constructor. }
  assert (V2 : is_var (bs "n")). { exists 110, []. split; [reflexivity|]. split; [reflexivity|constructor]. }
  constructor; [|constructor; [|constructor; [|constructor; [|constructor]]]]; cbn [decl_ok].
  - vm_compute. intros H. repeat (destruct H as [H|H]; [discriminate|]). exact H.
  - repeat split; try assumption. discriminate.
  - vm_compute. intros H. repeat (destruct H as [H|H]; [discriminate|]). exact H.
  - repeat split; assumption.
Qed.
(** Every path: exactly the paths of [params_of] are registered, and when every opening brace is closed all others
    are rejected and the table is unchanged. *)
Theorem route_registration_exact : forall regs path m h,
  (forall regs', register regs path m h = Ok (RegOk regs') <-> exists ps, params_of path ps /\ regs' = regs ++ [mkRoute path m h ps]) /\
  ((forall a b, path = a ++ bs "{" ++ b -> In 125 b) -> (register regs path m h = Ok RegError <-> forall ps, ~ params_of path ps)).
Proof. intros regs path m h. split; [intros regs'; apply register_exact|exact (register_error regs path m h)]. Qed.
Print Assumptions route_registration_exact.
Example route_registration_exact_example : params_of (bs "/{a}") [mkParam (bs "a") PStr] /\ register [] (bs "/{1a}") GET 0 = Ok RegError.
Proof. split; [apply (params_exact 4); vm_compute; reflexivity|vm_compute; reflexivity]. Qed.
(** A parameter declared bool is recorded as a float. *)
Theorem route_bool_refuted : exists path n, path = bs "/f/{" ++ n ++ bs ": bool}" /\ is_var n /\
  register [] path GET 0 = Ok (RegOk [mkRoute path GET 0 [mkParam n PFloat]]).
Proof.
  exists (bs "/f/{on: bool}"), (bs "on"). split; [reflexivity|]. split; [|vm_compute; reflexivity].
  exists 111, (bs "n"). split; [reflexivity|]. split; [reflexivity|]. repeat constructor.
Qed.
Print Assumptions route_bool_refuted.
Theorem route_bool_never_recorded : forall path ps p, params_of path ps -> In p ps -> pm_type p <> PBool.
Proof.
  intros path ps p. induction 1 as [|c t ps C _ IH|t q ps PT I _ IH]; [intros []|exact IH|]. intros [<-|J]; [|exact (IH J)].
  inversion PT as [ws v tl ty W V A]; subst. cbn [pm_type]. inversion A; subst; [discriminate|]. intros ->.
  match goal with H : In _ type_names |- _ => cbn in H; destruct H as [H|[H|[H|[H|[]]]]]; discriminate end.
Qed.
Print Assumptions route_bool_never_recorded.
(** Unknown types that begin with the name of a type are accepted. *)
Theorem route_type_prefix_refuted : exists path, path = bs "/f/{on: integer}" /\
  register [] path GET 0 = Ok (RegOk [mkRoute path GET 0 [mkParam (bs "on") PInt]]).
Proof. eexists. split; [reflexivity|vm_compute; reflexivity]. Qed.
Print Assumptions route_type_prefix_refuted.
(** Without a closing brace the search reads behind the path. *)
Theorem route_no_brace_refuted : exists path, no0 path /\ register [] path GET 0 = UB OutOfBounds.
Proof. exists (bs "/ab/{id"). split; [apply no0_check; vm_compute; reflexivity|vm_compute; reflexivity]. Qed.
Print Assumptions route_no_brace_refuted.

(** ** C25.  Full statement: a 405 answer lists exactly the methods for which the resource has a handler, each once. *)
(** [list_elements] reads a comma separated list.  What is listed: GET, and the methods other than GET of all routes whose path the request's memory begins with. *)
Theorem allow_methods_exact : forall regs u m, Forall (fun r => no0 (rt_path r)) regs ->
  (In (method_spelling m) (list_elements (allow_value regs u)) <-> m = GET \/ (m <> GET /\ exists r t, In r regs /\ rt_method r = m /\ u = rt_path r ++ t)) /\
  (forall x, In x (list_elements (allow_value regs u)) -> exists m', x = method_spelling m').
Proof. exact allow_spec. Qed.
Print Assumptions allow_methods_exact.
(** If the only registered path the request begins with is its own, the list has exactly the methods of the
    resource besides GET (missing: paths that are prefixes of one another, GET, and "each once"). *)
Theorem allow_methods_partial : forall regs uri rest m, Forall (fun r => no0 (rt_path r)) regs ->
  (forall r t, In r regs -> uri ++ rest = rt_path r ++ t -> rt_path r = uri) -> m <> GET ->
  (In (method_spelling m) (list_elements (allow_value regs (uri ++ rest))) <-> exists r, In r regs /\ rt_path r = uri /\ rt_method r = m).
Proof.
  intros regs uri rest m F U G. rewrite (proj1 (allow_spec regs (uri ++ rest) m F)). split.
  - intros [E|(_ & r & t & I & <- & E)]; [contradiction|]. exists r. split; [exact I|]. split; [exact (U r t I E)|reflexivity].
  - intros (r & I & <- & <-). right. split; [exact G|]. exists r, rest. auto.
Qed.
Print Assumptions allow_methods_partial.
Example allow_methods_example : allow_value [mkRoute (bs "/a") POST 1 []; mkRoute (bs "/b") PUT 1 []; mkRoute (bs "/a") DELETE 1 []] (bs "/a ") = bs "GET, POST, DELETE" /\
  (forall r t, In r [mkRoute (bs "/a") POST 1 []; mkRoute (bs "/b") PUT 1 []; mkRoute (bs "/a") DELETE 1 []] -> bs "/a" ++ bs " " = rt_path r ++ t -> rt_path r = bs "/a").
Proof.
  split; [vm_compute; reflexivity|]. intros r t [<-|[<-|[<-|[]]]] E; try reflexivity. discriminate.
Qed.
Theorem allow_duplicate_refuted : exists regs u, Forall (fun r => no0 (rt_path r)) regs /\ allow_value regs u = bs "GET, POST, POST".
Proof.
  exists [mkRoute (bs "/a") POST 1 []; mkRoute (bs "/a") POST 2 []], (bs "/a "). split; [|vm_compute; reflexivity].
  repeat (apply Forall_cons; [apply no0_check; vm_compute; reflexivity|]). constructor.
Qed.
Print Assumptions allow_duplicate_refuted.
Theorem allow_prefix_refuted : exists regs uri m, Forall (fun r => no0 (rt_path r)) regs /\ m <> GET /\ In m (valid_method regs (uri ++ [32])) /\ forall r, In r regs -> rt_path r <> uri.
Proof.
  exists [mkRoute (bs "/a") POST 1 []], (bs "/abc"), POST. split; [apply Forall_cons; [apply no0_check; vm_compute; reflexivity|constructor]|]. split; [discriminate|]. split; [vm_compute; auto|].
  intros r [<-|[]]. discriminate.
Qed.
Print Assumptions allow_prefix_refuted.
(** GET is listed whatever is registered. *)
Theorem allow_get_refuted : exists regs uri, In GET (valid_method regs (uri ++ [32])) /\ forall r, In r regs -> rt_method r <> GET.
Proof. exists [mkRoute (bs "/a") POST 1 []], (bs "/a"). split; [left; reflexivity|]. intros r [<-|[]]. discriminate. Qed.
Print Assumptions allow_get_refuted.
