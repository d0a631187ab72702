(** Property C106: a whole HTTP/1.1 connection (model: Server.v; specification: the first part of ServerProofs.v). *)
From Verif Require Import Base CStr CNum Buffer BufferProofs Names Status NamesProofs Reqline ReqlineSpec ReqlineProofs Header HeaderProofs Encode EncodeProofs ReqFlow ReqFlowProofs ReqFlowLaws.
From Verif Require Import Response ResponseProofs Mime PyBridge PyBridgeProofs Server ServerProofs.
From Verif Require AcceptEnc Route RouteProofs Mount MountProofs Properties_Response Properties_ReqFlow.
Local Open Scope nat_scope.

(** ** C106.  Full statement (false, see below): every request on a connection is answered with its own answer, in order.
    Proved for every site, every application with a state of any type, every list of requests that are [proper] and each
    sent when the one before is answered, every way the bytes arrive and every way the socket takes the answers: the bytes
    the client gets are those of [dialogue].  Missing: a request sent before the answer to the one before (lost, see
    pipelined_refuted), bodies of refused requests (see below), HEAD, TLS, HTTP/2. *)
Theorem conversation_exact_partial : forall (W : Type) (s : site W) enc os, env_ok (s_renv s) enc -> ordinary s enc -> sendable s enc -> ~ In 10%N (s_junk s) ->
  forall xs w, Forall (fun x => proper s os (fst (fst x))) xs ->
  exists outs st w', converse s w [] (map round_of xs) = Ok (outs, st, w') /\ dialogue s enc os w xs outs st w'.
Proof. exact @conversation. Qed.
Print Assumptions conversation_exact_partial.
(** If every request has got a turn per byte, none is left unanswered: the connection is open only if every request was answered. *)
Theorem conversation_complete : forall (W : Type) (s : site W) enc os w xs outs st w', dialogue s enc os w xs outs st w' ->
  Forall (fun x => let '(q, ts, _) := x in Forall (fun t => t <> []) ts /\ length (text_of q) <= length ts) xs ->
  st <> Reading /\ length outs <= length xs /\ (st = Open -> length outs = length xs).
Proof.
  intros W s enc os w xs outs st w' D F. destruct (dialogue_complete s enc os w xs outs st w' D F) as (A & B & C). split; [exact A|]. split; [exact B|]. exact C.
Qed.
Print Assumptions conversation_complete.

(** A site with an application that counts its calls. *)
Definition nl : list N := [13; 10]%N.
Definition counter : site nat :=
  mkSite Properties_ReqFlow.e0 (Properties_Response.ex_v 50 100 None) 64 [] (fun _ => Properties_Response.ex_file (bs "f")) false [] (fun _ => [(bs "X-D", bs "1")])
    (fun n rt ps r h b => (Returned (PStr (match b with Some b => firstn 20 b | None => [48 + N.of_nat n mod 10]%N end)), S n)).
Definition q_post : wreq := mkWreq Properties_ReqFlow.ex_line POST Properties_ReqFlow.ex_r (bs "a") Properties_ReqFlow.ex_fs 5 (bs "hello") (bs " HTTP/1.1" ++ nl) None.
Definition host : list field := [mkField (bs "Host") (bs " ") (bs "x")].
Definition q_get : wreq := mkWreq (bs "GET / HTTP/1.1") GET (mkReqline (Some GET) (bs "/") None (Some V1_1)) [] host 0 [] (bs " HTTP/1.1" ++ nl) None.
Definition answer_of (b : list N) : list N := bs "HTTP/1.1 200 OK" ++ nl ++ bs "X-D: 1" ++ nl ++ bs "Content-Type: text/plain" ++ nl ++ bs "Date: now" ++ nl ++ bs "Server: fly" ++ nl ++
  bs "Content-Length: " ++ dec (N.of_nat (length b)) ++ nl ++ nl ++ b.
Example conversation_ex : env_ok (s_renv counter) Properties_Response.ex_enc /\ ordinary counter Properties_Response.ex_enc /\ sendable counter Properties_Response.ex_enc /\
  proper counter [] q_post /\ proper counter [] q_get /\
  converse counter 0 [] (map round_of [(q_get, [[(3, [])]; [(200, [])]], [Blocked; Took 500]); (q_post, [[(3, [])]; [(200, [])]; [(200, []); (200, [])]], [Took 500]); (q_get, [[(200, [])]], [Took 500]); (q_get, [[(5, [])]], [])]) =
    Ok ([answer_of (bs "0"); answer_of (bs "hello"); answer_of (bs "2")], Reading, 3).
Proof.
  split; [apply Properties_Response.ex_env; lia|]. split.
  { split; [intros rt; repeat constructor; try discriminate; apply no_nulb_ok; reflexivity|].
    intros w rt ps r h b x w' E. injection E as <- <-. do 2 eexists. split; [constructor|]. cbn [a_fields a_type a_content a_status].
    split; [constructor|]. split; [cbn; auto|].
    assert (L : length (match b with Some b => firstn 20 b | None => [48 + N.of_nat w mod 10]%N end) <= 20) by (destruct b; [rewrite firstn_length; lia|cbn [length]; lia]).
    split; [apply (Nat.le_trans _ 20); [exact L|apply Nat.leb_le; reflexivity]|]. split; [cbn; auto 60|]. split; [cbn; intuition discriminate|]. left. apply (Nat.le_lt_trans _ 20); [exact L|apply Nat.ltb_lt; reflexivity]. }
  split.
  { intros f. cbn [s_file counter]. split; [reflexivity|]. split; [apply no_nulb_ok; reflexivity|]. split; [apply no_nulb_ok; reflexivity|]. split; [apply no_nulb_ok; reflexivity|]. split; [reflexivity|].
    intros acc allow res AC NA R. set (v := with_request _ acc allow) in *.
    assert (VA : env_ok v Properties_Response.ex_enc) by (apply at_ok; [apply Properties_Response.ex_env; lia|exact NA]).
    destruct (file_header v Properties_Response.ex_enc (Properties_Response.ex_file (bs "f")) VA eq_refl) as (h & R' & H & _); try (apply no_nulb_ok; reflexivity).
    rewrite R in R'. injection R' as ->. destruct (small_file_ok v Properties_Response.ex_enc (Properties_Response.ex_file (bs "f")) h VA H eq_refl eq_refl) as (A & B & _); [apply Nat.ltb_lt; reflexivity|]. auto. }
  assert (RS : Forall RouteProofs.simple (e_regs (s_env counter))).
  { apply Forall_cons; [|apply Forall_cons; [exact Properties_ReqFlow.ex_simple|apply Forall_cons; [|constructor]]]; apply RouteProofs.static_simple; intros I; vm_compute in I; intuition discriminate. }
  assert (F : Forall field_ok Properties_ReqFlow.ex_fs) by (apply fields_okb_ok; reflexivity).
  assert (F' : Forall field_ok host) by (apply fields_okb_ok; reflexivity).
  split.
  { destruct Properties_ReqFlow.request_answered_ex as (_ & _ & DC & AS & _). split; [|split; [|split; [exact DC|split; [exact AS|]]]].
    - split; [intros I; vm_compute in I; intuition discriminate|]. split; [apply reqline_exact; reflexivity|]. split; [reflexivity|]. split; [reflexivity|]. split; [reflexivity|].
      split; [exact F|]. split; [discriminate|]. split; apply Nat.ltb_lt; reflexivity.
    - split; [exact RS|split; [exact Logic.I|split; [reflexivity|split; [reflexivity|]]]].
      split; [intros I; vm_compute in I; intuition discriminate|]. split; [exists 1; reflexivity|]. split; [exact Logic.I|discriminate].
    - split; [reflexivity|]. split; [discriminate|]. split; [discriminate|]. right. split; [reflexivity|]. intros (f & [<-|[<-|[]]] & Q & _); discriminate Q. }
  split.
  { split; [|split; [|split; [left; split; [constructor; [intros Q; discriminate Q|constructor]|reflexivity]|split]]].
    - split; [intros I; vm_compute in I; intuition discriminate|]. split; [apply reqline_exact; reflexivity|]. split; [reflexivity|]. split; [reflexivity|]. split; [reflexivity|].
      split; [exact F'|]. split; [discriminate|]. split; apply Nat.ltb_lt; reflexivity.
    - split; [exact RS|split; [exact Logic.I|split; [reflexivity|split; [reflexivity|]]]].
      split; [intros I; vm_compute in I; intuition discriminate|]. split; [exists 1; reflexivity|]. split; [exact Logic.I|intros _; exact Logic.I].
    - eapply (as_language _ None _ None _ None _ None); try reflexivity;
        (cbn [picks]; repeat (constructor; [first [intros (Q & _)|intros Q]; first [discriminate Q|destruct Q as (? & Q); discriminate Q]|]); constructor).
    - split; [reflexivity|]. split; [discriminate|]. split; [discriminate|]. left. reflexivity. }
  vm_compute. reflexivity.
Qed.

(** ** Findings *)
(** The body of a request that is refused for its Accept field is not read: what arrives of it after the refusal is taken
    for the next request, and the application runs it. *)
Definition wide : site nat := mkSite (s_env counter) (s_renv counter) 200 [] (s_file counter) false [] (s_defaults counter) (s_app counter).
Definition refused_head : list N := bs "POST /a HTTP/1.1" ++ nl ++ bs "Accept: a" ++ nl ++ bs "Content-Length: 27" ++ nl ++ nl.
Theorem refused_body_refuted : exists (s : site nat) head body, length body = 27 /\
  converse s 0 [] [mkRound (head ++ body) (bs " HTTP/1.1" ++ nl) [[(length head - 1, [])]] [Took 500]; mkRound [] (bs " HTTP/1.1" ++ nl) [[(200, [])]] [Took 500]] =
    Ok ([bs "HTTP/1.1 400 Bad Request" ++ nl ++ bs "Server: fly" ++ nl ++ bs "Date: now" ++ nl ++ bs "Connection: keep-alive" ++ nl ++ bs "Content-Length: 0" ++ nl ++ nl; answer_of (bs "0")], Open, 1).
Proof. exists wide, refused_head, Properties_ReqFlow.get. split; [reflexivity|vm_compute; reflexivity]. Qed.
Print Assumptions refused_body_refuted.
(** The answer 100 that an Expect field asks for: its response is released and then used. *)
Theorem expect_conversation_refuted : exists (s : site nat) text,
  converse s 0 [] [mkRound text (bs " HTTP/1.1" ++ nl) [[(200, [])]] [Took 500]] = UB UseAfterFree.
Proof.
  exists wide, (bs "POST /a HTTP/1.1" ++ nl ++ bs "Content-Length: 5" ++ nl ++ bs "Expect: 100-continue" ++ nl ++ nl). vm_compute. reflexivity.
Qed.
Print Assumptions expect_conversation_refuted.
