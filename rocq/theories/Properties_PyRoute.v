(** Properties C80, C82, C83 and C102: the route table of an application (model: PyRoute.v; specification: the first part of
    PyRouteProofs.v). *)
From Verif Require Import Base PyBridge PyBridgeProofs PyRoute PyRouteProofs.
Local Open Scope nat_scope.

(** A policy and routes for the examples. *)
Definition ex_policy (only_debug : bool) : policy := mkPolicy (bs "*") [bs "GET"; bs "POST"] [] [] true (Some 60%Z) only_debug.
Definition ex_r (u m : list N) (n : nat) (d od : bool) : pyop := OpRoute u n m d od [].

(** ** C83.  Whatever an application registers, in whatever order and with whatever errors: no two routes of its table have
    the same method and path, and every path begins with a slash, has no line end and no run of slashes. *)
Theorem routes_unique : forall debug ops, NoDup (map key (table debug ops)) /\ Forall clean (table debug ops).
Proof. exact table_good. Qed.
(** A registration with a path appends one route, with the path normalised and everything else as given, unless the table has
    that method and path; then, and if the text is no path, it raises and nothing changes. *)
Theorem register_exact : forall u f m d od df rs, registers u f m d od df rs (register u f m d od df rs).
Proof. exact register_spec. Qed.
(** The normalised path is determined by the path, and normalising it again changes nothing. *)
Theorem normalised_once : forall u w w', collapsed u w -> (collapsed u w' -> w = w') /\ collapsed w w.
Proof. intros u w w' C. split; [exact (collapsed_unique u w w' C)|exact (collapsed_idem u w C)]. Qed.
Example register_ex : table true [ex_r (bs "//a///b/") (bs "GET") 1 false false; ex_r (bs "/a/b/") (bs "GET") 2 false false; ex_r (bs "/a//b/") (bs "POST") 3 false false; ex_r (bs "a") (bs "GET") 4 false false] =
  [mkPR (bs "/a/b/") (bs "GET") (HApp 1) false false [] []; mkPR (bs "/a/b/") (bs "POST") (HApp 3) false false [] []].
Proof. vm_compute. reflexivity. Qed.
Example normalised_ex : collapsed (bs "//a///b/") (bs "/a/b/").
Proof. exact (collapse_spec (bs "//a///b/")). Qed.

(** ** C80.  For every table an application can make and every policy, applying the policy ends without an error, and then
    every path answers OPTIONS; every route keeps its place, method, path, handler and flags; exactly the first route with
    another method of a path without an OPTIONS route gets the headers of the policy; and only the OPTIONS routes of these
    paths are new. *)
Theorem cors_preflight : forall debug o ops rs, rs = production_routes debug (table debug ops) ->
  exists rs', apply_cors debug o rs = Ok (inr rs') /\ cors_applied o rs rs'.
Proof.
  intros debug o ops rs ->. destruct (production_ready debug (table debug ops) (table_good debug ops)) as (G & D). exact (apply_cors_ok debug o _ G D).
Qed.
(** An OPTIONS route that was there is still there as it was. *)
Theorem own_options_kept : forall o rs rs' r, cors_applied o rs rs' -> In r rs -> q_method r = OPTIONS -> In r rs'.
Proof. exact options_kept. Qed.
(** What the new routes answer: the fields of the policy and no others, each once, and no content. *)
Theorem preflight_grants : forall text o, let r := preflight_response text (o_origin o) (o_methods o) (o_headers o) (o_expose o) (o_cred o) (o_max_age o) in
  p_status r = 200%Z /\ p_body r = [] /\ (forall h, In h (p_header r) <-> granted text o h) /\ NoDup (map fst (p_header r)).
Proof. exact preflight_answer. Qed.
Example cors_ex : apply_cors true (ex_policy false) (table true [ex_r (bs "/a") (bs "GET") 1 false false; ex_r (bs "/a") (bs "POST") 2 false false; ex_r (bs "/b") (bs "OPTIONS") 3 false false; ex_r (bs "/b") (bs "GET") 4 false false]) =
  Ok (inr [mkPR (bs "/a") (bs "GET") (HApp 1) false false [(ACAO, bs "*"); (ACAM, bs "GET,POST"); (ACAC, bs "true")] [ACAO];
           mkPR (bs "/a") (bs "POST") (HApp 2) false false [] []; mkPR (bs "/b") (bs "OPTIONS") (HApp 3) false false [] [];
           mkPR (bs "/b") (bs "GET") (HApp 4) false false [] [];
           mkPR (bs "/a") OPTIONS (preflight_of (ex_policy false)) false false [] []]).
Proof. vm_compute. reflexivity. Qed.
Example preflight_ex : p_header (preflight_response (fun _ => bs "60") (bs "*") [bs "GET"; bs "POST"] [] [] true (Some 60%Z)) =
  [(ACAO, bs "*"); (ACAM, bs "GET,POST"); (ACAC, bs "true"); (bs "Access-Control-Max-Age", bs "60")].
Proof. vm_compute. reflexivity. Qed.
(** The preparation of the table never fails, in either mode, with a policy or without. *)
Theorem startup_never_fails : forall debug cors ops, exists rs', startup debug cors (table debug ops) = Ok (inr rs').
Proof. intros debug cors ops. exact (startup_total debug cors _ (table_good debug ops)). Qed.
(** The decorator allow_cors gives the route of its function the headers and its path an OPTIONS route, if the path is written
    without runs of slashes and has no OPTIONS route. *)
Theorem decorator_exact : forall debug o u m d a r b, (o_only_debug o = false \/ debug = true) -> (debug = true \/ d = false) -> good_table (a ++ r :: b) -> key r = (m, u) -> m <> OPTIONS -> ~ answers_options u (a ++ r :: b) ->
  allow_cors debug o u m d (a ++ r :: b) = inr (a ++ add_cors o r :: b ++ [mkPR u OPTIONS (preflight_of o) d (o_only_debug o) [] []]).
Proof. exact allow_cors_ok. Qed.
Example decorator_ex : allow_cors true (ex_policy true) (bs "/a") (bs "GET") false (table true [ex_r (bs "/a") (bs "GET") 1 false false]) =
  inr [add_cors (ex_policy true) (mkPR (bs "/a") (bs "GET") (HApp 1) false false [] []); mkPR (bs "/a") OPTIONS (preflight_of (ex_policy true)) false true [] []].
Proof. vm_compute. reflexivity. Qed.
(** With a path that registration normalises it always raises. *)
Theorem decorator_unnormalised_raises : forall o u m d ops, ~ (path_of u u /\ collapsed u u) -> exists e, allow_cors true o u m d (table true ops) = inl e.
Proof. intros o u m d ops. exact (allow_cors_unclean o u m d _ (table_good true ops)). Qed.
Theorem decorator_slashes_refuted : exists o u m d rs, rs = table true [ex_r u m 1 d false] /\ rs <> [] /\ allow_cors true o u m d rs = inl AttributeError.
Proof. exists (ex_policy false), (bs "/a//b"), (bs "GET"), false. eexists. split; [reflexivity|]. split; [vm_compute; discriminate|vm_compute; reflexivity]. Qed.
(** So it does on a debug route in production mode: the program cannot start. *)
Theorem decorator_debug_route_raises : forall o u m rs, o_only_debug o = false -> ~ In (m, u) (map key rs) -> allow_cors false o u m true rs = inl AttributeError.
Proof. exact allow_cors_debug_route. Qed.

(** ** C82.  Full statement: in production mode no route flagged debug_route or only_debug remains and every other route does.
    Partial: no policy, and no two routes flagged only_debug follow each other directly. *)
Theorem production_exact_partial : forall ops rs, rs = table false ops -> spaced (production_routes false rs) ->
  exists rs', startup false None rs = Ok (inr rs') /\ subseq (map core rs') (map core rs) /\
    forall c, In c (map core rs') <-> exists r, In r rs /\ c = core r /\ q_debug_route r = false /\ q_only_debug r = false.
Proof. intros ops rs ->. exact (production_startup _ (table_good false ops)). Qed.
(** Without the restriction: no route flagged debug_route remains and no unflagged one is lost. *)
Theorem production_keeps_unflagged : forall cors ops rs, rs = table false ops -> exists rs', startup false cors rs = Ok (inr rs') /\ (forall r', In r' rs' -> q_debug_route r' = false) /\
  forall r, In r rs -> q_debug_route r = false -> q_only_debug r = false -> In (core r) (map core rs').
Proof. intros cors ops rs ->. exact (production_keeps cors _ (table_good false ops)). Qed.
Example production_ex : exists rs, rs = table false [ex_r (bs "/a") (bs "GET") 1 false true; ex_r (bs "/b") (bs "GET") 2 false false; ex_r (bs "/c") (bs "GET") 3 true false; ex_r (bs "/d") (bs "GET") 4 false true] /\
  startup false None rs = Ok (inr [mkPR (bs "/b") (bs "GET") (HApp 2) false false [] []]).
Proof. eexists. split; [reflexivity|]. vm_compute. reflexivity. Qed.
(** A route flagged only_debug that directly follows the first flagged one remains, in every table. *)
Theorem adjacent_flag_survives : forall p x y t, Forall (fun r => q_only_debug r = false) p -> q_only_debug x = true -> In y (drop_only_debug (p ++ x :: y :: t)).
Proof. exact drop_second. Qed.
Theorem production_refuted : exists ops r rs', startup false None (table false ops) = Ok (inr rs') /\ In r rs' /\ q_only_debug r = true.
Proof.
  exists [ex_r (bs "/a") (bs "GET") 1 false true; ex_r (bs "/b") (bs "GET") 2 false true], (mkPR (bs "/b") (bs "GET") (HApp 2) false true [] []). eexists.
  split; [vm_compute; reflexivity|]. split; [left; reflexivity|reflexivity].
Qed.
(** A policy meant for debugging only, and two paths: in production an OPTIONS route that grants it is served. *)
Theorem debug_policy_served : forall o ops rs r1 r2, rs = table false ops -> o_only_debug o = true -> (forall r, In r rs -> q_debug_route r = false /\ q_only_debug r = false) ->
  In r1 rs -> In r2 rs -> q_uri r1 <> q_uri r2 -> ~ answers_options (q_uri r1) rs -> ~ answers_options (q_uri r2) rs ->
  exists rs' r, startup false (Some o) rs = Ok (inr rs') /\ In r rs' /\ q_method r = OPTIONS /\ q_only_debug r = true /\ q_handler r = preflight_of o.
Proof. intros o ops rs r1 r2 ->. exact (cors_only_debug_remains o _ r1 r2 (table_good false ops)). Qed.
Example debug_policy_ex : startup false (Some (ex_policy true)) (table false [ex_r (bs "/a") (bs "GET") 1 false false; ex_r (bs "/b") (bs "GET") 2 false false]) =
  Ok (inr [mkPR (bs "/a") (bs "GET") (HApp 1) false false [] [ACAO; ACAM; ACAC]; mkPR (bs "/b") (bs "GET") (HApp 2) false false [] [ACAO; ACAM; ACAC];
           mkPR (bs "/b") OPTIONS (preflight_of (ex_policy true)) false true [] []]).
Proof. vm_compute. reflexivity. Qed.

(** ** C102.  Full statement: with a policy every response of every route carries Access-Control-Allow-Origin.
    Partial: debug mode, and the first route of a path without an OPTIONS route. *)
Theorem origin_granted_partial : forall o ops rs a r b, rs = table true ops -> rs = a ++ r :: b -> gets rs a r ->
  exists rs', startup true (Some o) rs = Ok (inr rs') /\ In (add_cors o r) rs' /\
    forall debug terr x d, documented debug terr x d -> exists fs, wrapper debug terr (q_defaults (add_cors o r)) x = Some (PResp (mkPy (a_status d) fs (a_content d) (a_type d))) /\
      exists h, In h fs /\ same_name (fst h) ACAO.
Proof. intros o ops rs a r b E. apply debug_origin. rewrite E. apply table_good. Qed.
(** With it the other fields of the policy and no others: credentials, methods and headers only if the policy has them. *)
Theorem policy_fields_exact : forall text o r, exists fs, q_defaults (add_cors o r) = q_defaults r ++ fs /\ NoDup (map fst fs) /\ forall h, In h fs <-> granted text o h /\ fst h <> bs "Access-Control-Max-Age".
Proof. exact policy_fields. Qed.
(** Every other route is left as it was, so its responses have no field of the policy. *)
Theorem later_methods_unchanged : forall o rs rs' a r b, cors_applied o rs rs' -> rs = a ++ r :: b -> ~ gets rs a r -> In r rs'.
Proof. exact not_gets_same. Qed.
Theorem second_method_refuted : exists ops o r rs', startup true (Some o) (table true ops) = Ok (inr rs') /\ In r rs' /\ q_method r = bs "POST" /\ q_defaults r = [].
Proof.
  exists [ex_r (bs "/a") (bs "GET") 1 false false; ex_r (bs "/a") (bs "POST") 2 false false], (ex_policy false), (mkPR (bs "/a") (bs "POST") (HApp 2) false false [] []). eexists.
  split; [vm_compute; reflexivity|]. split; [right; left; reflexivity|]. split; reflexivity.
Qed.
(** In production mode no route keeps the header, although the policy is not for debugging only. *)
Theorem production_origin_lost : forall o ops rs, rs = table false ops -> o_only_debug o = false -> (forall r, In r rs -> q_only_debug r = false /\ q_debug_names r = [] /\ ~ In ACAO (map fst (q_defaults r))) ->
  exists rs', startup false (Some o) rs = Ok (inr rs') /\ forall r, In r rs' -> ~ In ACAO (map fst (q_defaults r)).
Proof. intros o ops rs ->. exact (production_no_origin o _ (table_good false ops)). Qed.
Example production_origin_ex : startup false (Some (ex_policy false)) (table false [ex_r (bs "/a") (bs "GET") 1 false false]) =
  Ok (inr [mkPR (bs "/a") (bs "GET") (HApp 1) false false [(ACAM, bs "GET,POST"); (ACAC, bs "true")] [ACAO]; mkPR (bs "/a") OPTIONS (preflight_of (ex_policy false)) false false [] []]).
Proof. vm_compute. reflexivity. Qed.
Theorem production_origin_refuted : exists o ops r rs', o_only_debug o = false /\ startup false (Some o) (table false ops) = Ok (inr rs') /\ In r rs' /\ q_method r = bs "GET" /\ ~ In ACAO (map fst (q_defaults r)).
Proof.
  exists (ex_policy false), [ex_r (bs "/a") (bs "GET") 1 false false], (mkPR (bs "/a") (bs "GET") (HApp 1) false false [(ACAM, bs "GET,POST"); (ACAC, bs "true")] [ACAO]). eexists.
  split; [reflexivity|]. split; [exact production_origin_ex|]. split; [left; reflexivity|]. split; [reflexivity|]. vm_compute. intuition discriminate.
Qed.

Print Assumptions routes_unique.
Print Assumptions register_exact.
Print Assumptions normalised_once.
Print Assumptions cors_preflight.
Print Assumptions own_options_kept.
Print Assumptions preflight_grants.
Print Assumptions startup_never_fails.
Print Assumptions decorator_exact.
Print Assumptions decorator_unnormalised_raises.
Print Assumptions decorator_slashes_refuted.
Print Assumptions decorator_debug_route_raises.
Print Assumptions production_exact_partial.
Print Assumptions production_keeps_unflagged.
Print Assumptions adjacent_flag_survives.
Print Assumptions production_refuted.
Print Assumptions debug_policy_served.
Print Assumptions origin_granted_partial.
Print Assumptions later_methods_unchanged.
Print Assumptions second_method_refuted.
Print Assumptions production_origin_lost.
Print Assumptions production_origin_refuted.
Print Assumptions policy_fields_exact.
