(** Property C135: redirections (model: Redirect.v; specification: the first part of RedirectProofs.v). *)
From Verif Require Import Base CStr Names Status Mime CNum NamesProofs Header HeaderProofs Buffer BufferProofs Encode EncodeProofs Response ResponseProofs PyBridge PyBridgeProofs Redirect RedirectProofs.
From Verif Require AcceptEnc Properties_Response H2Resp H2RespProofs Properties_H2Resp.
Local Open Scope nat_scope.

(** ** C135.  Full statement: a handler that returns redirect(location, status, body) answers every request with that status
    and exactly one Location field, whose value is the location, for every 3xx status. *)
(** The function makes a response iff the status is a 3xx number, the location a str and the body None, a str or bytes. *)
Theorem redirect_accepts_iff : forall loc st body p, redirect loc st body = Some p <->
  exists z l c, st = Some z /\ loc = AStr l /\ content_of body c /\ (300 <= z < 400)%Z /\ p = mkPy z [(bs "location", l)] c (bs "text/plain").
Proof. exact redirect_ok. Qed.
(** For the statuses with a reason phrase every byte sent is known.  Partial: not HEAD, no other status, and a location
    without NUL bytes. *)
Theorem redirect_sent_partial : forall v enc debug terr trace z l body c reason, env_ok v enc -> content_of body c -> no_nul l -> In (z, reason) known_redirects ->
  length c <= v_max v -> length c < v_threshold v -> (c = [] -> v_default v (type_from_long z) = None) ->
  exists r, answer v false debug terr [] (returns_redirect trace (AStr l) (Some z) body) = Ok r /\
    let w := wire (spec_line z reason) (redirect_fields v l c) c in
    forall k n ios, length w <= n -> respond v r (repeat Blocked k ++ Took n :: ios) = Ok (w, FKeep).
Proof. exact redirect_exact. Qed.
Definition ex_v := Properties_Response.ex_v 20 100 Properties_Response.gzip_ok.
Example redirect_sent_ex : env_ok ex_v Properties_Response.ex_enc /\ In (307%Z, "Temporary Redirect"%string) known_redirects /\
  obind (answer ex_v false false [] [] (returns_redirect [] (AStr (bs "/new")) (Some 307%Z) (AStr (bs "gone")))) (fun r => respond ex_v r [Took 1000]) =
    Ok (bs "HTTP/1.1 307 Temporary Redirect" ++ [13;10]%N ++ bs "location: /new" ++ [13;10]%N ++ bs "Content-Type: text/plain" ++ [13;10]%N ++ bs "Date: now" ++ [13;10]%N ++
        bs "Server: fly" ++ [13;10]%N ++ bs "Content-Length: 4" ++ [13;10;13;10]%N ++ bs "gone", FKeep).
Proof. split; [apply Properties_Response.ex_env; lia|]. split; [cbn; auto 10|]. vm_compute. reflexivity. Qed.
(** Every other 3xx status, among them 308, makes the worker print a NULL string. *)
Theorem redirect_other_status_crashes : forall v enc debug terr trace ds z l body c, env_ok v enc -> content_of body c -> no_nul l -> fields_ok ds -> (300 <= z < 400)%Z ->
  (forall reason, ~ In (z, reason) known_redirects) -> length c <= v_max v -> length c < v_threshold v ->
  exists r, answer v false debug terr ds (returns_redirect trace (AStr l) (Some z) body) = Ok r /\ forall ios, respond v r ios = UB NullDeref.
Proof. exact redirect_unknown. Qed.
Theorem redirect_308_refuted : exists v r, answer v false false [] [] (returns_redirect [] (AStr (bs "/new")) (Some 308%Z) ANone) = Ok r /\ respond v r [Took 1000] = UB NullDeref.
Proof. exists ex_v. eexists. split; [vm_compute; reflexivity|]. vm_compute. reflexivity. Qed.
(** A HEAD request is never redirected: the answer is 500. *)
Theorem redirect_head_500 : forall v enc debug terr trace ds loc st body, env_ok v enc -> refused_with v (answer v true debug terr ds (returns_redirect trace loc st body)) S500.
Proof. exact redirect_head. Qed.
Theorem redirect_head_refuted : exists v w, obind (answer v true false [] [] (returns_redirect [] (AStr (bs "/new")) (Some 301%Z) ANone)) (fun r => respond v r [Took 1000]) = Ok (w, FKeep) /\
  exists q, w = bs "HTTP/1.1 500 Internal Server Error" ++ q.
Proof. exists ex_v. eexists. split; [vm_compute; reflexivity|]. eexists. vm_compute. reflexivity. Qed.
(** Wrong arguments are exceptions of the handler: 500, and the text stays on the server in production. *)
Theorem redirect_wrong_arguments : forall v enc terr trace loc st body, env_ok v enc -> redirect loc st body = None ->
  exists r fs1, answer v false false terr [] (returns_redirect trace loc st body) = Ok r /\ says v (mkReply 500 [] [] (bs "text/plain")) fs1 r.
Proof.
  intros v enc terr trace loc st body V E. unfold returns_redirect. rewrite E.
  destruct (handler_says v enc false terr [] (RaisedOther trace) _ V (doc_exc false terr trace) (Forall_nil _) (Forall_nil _) plain_type (Nat.le_0_l _)) as (r & fs1 & A & _ & S).
  exists r, fs1. split; [exact A|exact S].
Qed.
Example redirect_wrong_ex : redirect (AStr (bs "/new")) (Some 200%Z) ANone = None /\ redirect (ABytes (bs "/new")) (Some 301%Z) ANone = None /\ redirect (AStr (bs "/new")) (Some 400%Z) ANone = None /\
  redirect (AStr (bs "/new")) None ANone = None /\ redirect (AStr (bs "/new")) (Some 301%Z) AOther = None.
Proof. repeat (split; [reflexivity|]). reflexivity. Qed.
(** A location is sent as it is: one with a line end sets a cookie. *)
Theorem redirect_splitting_refuted : exists v w a b, obind (answer v false false [] [] (returns_redirect [] (AStr (bs "/" ++ [13;10]%N ++ bs "Set-Cookie: id=1")) (Some 302%Z) ANone)) (fun r => respond v r [Took 1000]) = Ok (w, FKeep) /\
  w = a ++ [13;10]%N ++ bs "location: /" ++ [13;10]%N ++ bs "Set-Cookie: id=1" ++ [13;10]%N ++ b.
Proof.
  exists ex_v. eexists. exists (bs "HTTP/1.1 302 Found"). eexists. split; [vm_compute; reflexivity|]. vm_compute. reflexivity.
Qed.
(** Over HTTP/2 the response has the status, the content and the field location. *)
Theorem redirect_over_h2 : forall e debug terr trace z l body c, content_of body c -> (300 <= z < 400)%Z -> length c <= v_max (H2Resp.e_v e) ->
  exists r, H2Resp.handler_answer2 e false debug terr [] (returns_redirect trace (AStr l) (Some z) body) = Ok r /\ H2Resp.p2_code r = type_from_long z /\
    H2Resp.p2_body r = c_body c /\ In (bs "location", l) (H2RespProofs.pairs (H2Resp.p2_fields r)).
Proof. exact redirect_h2. Qed.
Example redirect_over_h2_ex : exists r, H2Resp.handler_answer2 (Properties_H2Resp.ex_e 10 100 None None) false false [] [] (returns_redirect [] (AStr (bs "/new")) (Some 303%Z) ANone) = Ok r /\
  H2Resp.p2_code r = S303 /\ H2RespProofs.pairs (H2Resp.p2_fields r) = [(bs "location", bs "/new"); (bs "content-type", bs "text/plain"); (bs "date", bs "now"); (bs "server", bs "fly")].
Proof. eexists. split; [vm_compute; reflexivity|]. split; vm_compute; reflexivity. Qed.

Print Assumptions redirect_accepts_iff.
Print Assumptions redirect_sent_partial.
Print Assumptions redirect_other_status_crashes.
Print Assumptions redirect_308_refuted.
Print Assumptions redirect_head_500.
Print Assumptions redirect_head_refuted.
Print Assumptions redirect_wrong_arguments.
Print Assumptions redirect_splitting_refuted.
Print Assumptions redirect_over_h2.
