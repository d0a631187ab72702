(** Properties C18, C19 and part of C14 about the HTTP/1.1 request handler (model: ReqFlow.v; specification:
    ReqFlowLaws.v). *)
From Verif Require Import Base CStr CNum Buffer BufferProofs Names Reqline ReqlineSpec ReqlineProofs Header HeaderProofs ReqFlow ReqFlowProofs ReqFlowLaws.
From Verif Require Route RouteProofs Mount MountProofs.
Local Open Scope nat_scope.

(** ** C19.  Full statement (false, see the refutations below): the answer to every complete request is given by the first
    failing check. *)
(** Proved: for every HTTP/1.1 request whose line and well-formed fields end inside the first block of the buffer, every
    environment (routes without a slash behind a parameter, any history of mounts), every way the bytes arrive and every
    state of fresh memory without line feeds, the handler waits as long as bytes it needs are missing and otherwise
    answers as [answered] says: the first Accept check that objects, then 417/100/413 for the body, then the first route
    that takes the request, then the mounted files.  Missing: malformed fields (skipped, see below), longer header
    blocks, requests without fields, HTTP/2 in the line, TLS, multipart bodies. *)
Theorem request_answered_partial : forall e os per l m r p fs n payload junk ts o,
  fits e per l m r fs n payload -> served e os r m p -> declares fs n -> accept_says fs o -> ~ In 10%N junk ->
  let all := l ++ CRLF ++ section fs ++ payload in
  exists q k, init_req junk (e_max e) per = Some q /\ awaited fs n k /\
  ((exists rcv src q', serve e q all false ts = Ok (VWait q', src, []) /\ all = rcv ++ src /\ length rcv < length (l ++ CRLF ++ section fs) + k) \/
   (exists rcv src v ts', serve e q all false ts = Ok (v, src, ts') /\ all = rcv ++ src /\ length (l ++ CRLF ++ section fs) + k <= length rcv /\
      answered e (MountProofs.srun [] os) r m p fs n payload (view v))).
Proof. exact request_answered. Qed.
Print Assumptions request_answered_partial.
(** [answered] is one answer: the same status, the same handler with the same arguments, or a file of the same name; only
    the answer to a method other than GET for the name of a directory may be 404 or 405. *)
Theorem answer_determined : forall e sp r m p fs n payload s s',
  answered e sp r m p fs n payload s -> answered e sp r m p fs n payload s' ->
  s = s' \/ (exists f f', s = SFile f /\ s' = SFile f' /\ Mount.f_name f = Mount.f_name f') \/
  (m <> GET /\ MountProofs.registered sp (MountProofs.wanted (e_cfg e) p) true /\
   ((s = SStatus 404 /\ s' = SStatus 405) \/ (s = SStatus 405 /\ s' = SStatus 404))).
Proof. exact answer_unique. Qed.
Print Assumptions answer_determined.

Definition nl : list N := [13; 10]%N.
Definition e0 : env := mkEnv 100 [Route.mkRoute (bs "/a") POST 0 []; Route.mkRoute (bs "/u/{id}") GET 1 [Route.mkParam (bs "id") Route.PStr]; Route.mkRoute (bs "/") GET 2 []]
  (Mount.mkMcfg 10 10 (bs "index.html")) Mount.mount_init (fun _ => []) (fun _ => []) (fun _ => None) (fun _ => false) (bs " HTTP/1.1" ++ nl).
Definition ex_fs : list field := [mkField (bs "Host") (bs " ") (bs "x"); mkField (bs "Content-Length") (bs " ") (bs "5")].
Definition ex_line : list N := bs "POST /a HTTP/1.1".
Definition ex_r : reqline := mkReqline (Some POST) (bs "/a") None (Some V1_1).
Lemma ex_simple : RouteProofs.simple (Route.mkRoute (bs "/u/{id}") GET 1 [Route.mkParam (bs "id") Route.PStr]).
Proof.
  repeat split; [apply (RouteProofs.params_exact 7); vm_compute; reflexivity|intros H; vm_compute in H; intuition discriminate|].
  intros pre inner E NP. change (Route.rt_path _) with (bs "/u/" ++ 123%N :: bs "id}") in E.
  apply RouteProofs.split_unique in E as (_ & <-); [|intros H; vm_compute in H; intuition discriminate|exact NP]. intros H; vm_compute in H; intuition discriminate.
Qed.
Example request_answered_ex :
  fits e0 64 ex_line POST ex_r ex_fs 5 (bs "helloGET") /\ served e0 [] ex_r POST (bs "a") /\ declares ex_fs 5 /\ accept_says ex_fs None /\
  exists q q' ts', init_req [] 100 64 = Some q /\
    serve e0 q (ex_line ++ CRLF ++ section ex_fs ++ bs "helloGET") false [[(3, [])]; [(200, [])]; [(200, []); (200, [])]] =
      Ok (VHandler (Route.mkRoute (bs "/a") POST 0 []) [] q', [], ts') /\ q_body q' = Some (bs "hello").
Proof.
  assert (F : Forall field_ok ex_fs) by (apply fields_okb_ok; reflexivity).
  split.
  { split; [intros I; vm_compute in I; intuition discriminate|]. split; [apply reqline_exact; reflexivity|]. split; [reflexivity|]. split; [reflexivity|]. split; [reflexivity|].
    split; [exact F|]. split; [discriminate|]. split; apply Nat.ltb_lt; reflexivity. }
  split.
  { split; [|split; [exact Logic.I|split; [reflexivity|split; [reflexivity|]]]].
    - apply Forall_cons; [|apply Forall_cons; [exact ex_simple|apply Forall_cons; [|constructor]]]; apply RouteProofs.static_simple; intros I; vm_compute in I; intuition discriminate.
    - split; [intros I; vm_compute in I; intuition discriminate|]. split; [exists 1; reflexivity|]. split; [exact Logic.I|discriminate]. }
  split.
  { right. exists (mkField (bs "Content-Length") (bs " ") (bs "5")). split; [|split; [repeat constructor|split; [discriminate|split; [reflexivity|vm_compute; discriminate]]]].
    exists [mkField (bs "Host") (bs " ") (bs "x")], []. split; [reflexivity|]. split; [reflexivity|]. constructor; [|constructor]. intros Q. discriminate Q. }
  split.
  { eapply (as_language _ None _ None _ None _ None); try reflexivity;
      (cbn [picks]; repeat (constructor; [first [intros (Q & _)|intros Q]; first [discriminate Q|destruct Q as (? & Q); discriminate Q]|]); constructor). }
  do 3 eexists. split; [vm_compute; reflexivity|]. split; [vm_compute; reflexivity|]. reflexivity.
Qed.

(** A request line that is not accepted is answered 400 without a request and the connection is closed, however it is
    delivered and whatever follows it. *)
Theorem bad_line_rejected : forall e per l rest junk ts, no_ctl l -> length l + 2 < per ->
  (per < connect_chain_max (e_max e) per * per \/ length (l ++ CRLF ++ rest) < connect_chain_max (e_max e) per * per) ->
  ~ In 10%N junk -> (Z.of_nat (length l + 2) < 8000)%Z -> (forall m path q v, ~ fly_line (l ++ CRLF) m path q v) ->
  exists q, init_req junk (e_max e) per = Some q /\
  ((exists rcv src q', serve e q (l ++ CRLF ++ rest) false ts = Ok (VWait q', src, []) /\ l ++ CRLF ++ rest = rcv ++ src /\ length rcv < length l + 2 /\ (Forall (fun t => t <> []) ts -> length ts <= length rcv)) \/
   (exists rcv src ts', serve e q (l ++ CRLF ++ rest) false ts = Ok (VBadLine, src, ts') /\ l ++ CRLF ++ rest = rcv ++ src /\ length l + 2 <= length rcv)).
Proof.
  intros e per l rest junk ts NC FT CP J LE NF. apply bad_line; auto. destruct (reqline_sound (l ++ CRLF)) as ([r|] & E & P); [|exact E].
  destruct P as (m & path & q & v & F & _). destruct (NF _ _ _ _ F).
Qed.
Print Assumptions bad_line_rejected.
Example bad_line_ex : no_ctl (bs "GET http://a/ HTTP/1.1") /\ parse_reqline (bs "GET http://a/ HTTP/1.1" ++ CRLF) = Ok None /\ keeps VBadLine = false.
Proof. split; [repeat (constructor; [split; discriminate|]); constructor|]. split; reflexivity. Qed.
(** Finding (C14): every request line of 8000 bytes or more crashes the worker: the 414 response reads the version of a
    request line that does not exist. *)
Theorem long_line_crashes : forall e per l rest junk ts, no_ctl l -> length l + 2 < per ->
  (per < connect_chain_max (e_max e) per * per \/ length (l ++ CRLF ++ rest) < connect_chain_max (e_max e) per * per) ->
  ~ In 10%N junk -> (8000 <= Z.of_nat (length l + 2))%Z ->
  exists q, init_req junk (e_max e) per = Some q /\
  ((exists rcv src q', serve e q (l ++ CRLF ++ rest) false ts = Ok (VWait q', src, []) /\ l ++ CRLF ++ rest = rcv ++ src /\ length rcv < length l + 2 /\ (Forall (fun t => t <> []) ts -> length ts <= length rcv)) \/
   serve e q (l ++ CRLF ++ rest) false ts = UB NullDeref).
Proof. intros. apply long_line; auto. Qed.
Print Assumptions long_line_crashes.
Definition long : list N := bs "GET /" ++ repeat 97%N (N.to_nat 8000).
Definition e1 : env := mkEnv (N.to_nat 20000) [] (Mount.mkMcfg 10 10 (bs "index.html")) Mount.mount_init (fun _ => []) (fun _ => []) (fun _ => None) (fun _ => false) [].
Theorem long_line_414_refuted : exists e per l rest ts q, no_ctl l /\ length l + 2 < per /\ (8000 <= Z.of_nat (length l + 2))%Z /\
  init_req [] (e_max e) per = Some q /\ serve e q (l ++ CRLF ++ rest) false ts = UB NullDeref.
Proof.
  assert (L : length long = N.to_nat 8005) by (unfold long; rewrite app_length, repeat_length; change (length (bs "GET /")) with 5; lia).
  assert (NC : no_ctl long).
  { unfold no_ctl, long. apply Forall_app. split; [repeat (constructor; [split; discriminate|]); constructor|]. apply Forall_forall. intros x I. apply repeat_spec in I as ->. split; discriminate. }
  assert (A1 : length long + 2 < N.to_nat 9000) by lia.
  assert (A2 : length (long ++ CRLF ++ []) < connect_chain_max (e_max e1) (N.to_nat 9000) * N.to_nat 9000).
  { rewrite app_nil_r, app_length, L. change (length CRLF) with 2. unfold connect_chain_max. cbn [e1 e_max].
    generalize (N.to_nat 20000 / N.to_nat 9000). intros n. assert (N.to_nat 9000 <= (n + 1) * N.to_nat 9000) by (rewrite Nat.mul_add_distr_r, Nat.mul_1_l; apply Nat.le_add_l). lia. }
  assert (A3 : (8000 <= Z.of_nat (length long + 2))%Z) by lia.
  set (ts := repeat [(0, @nil N)] (length long + 2)).
  destruct (long_line_crashes e1 (N.to_nat 9000) long [] [] ts NC A1 (or_intror A2) (fun X => X) A3) as (q & I & [(rcv & src & q' & _ & _ & A & B)|C]).
  - exfalso. assert (F : Forall (fun t : list offer => t <> []) ts) by (apply Forall_forall; intros t T; apply repeat_spec in T as ->; discriminate). specialize (B F). unfold ts in B. rewrite repeat_length in B. lia.
  - exists e1, (N.to_nat 9000), long, [], ts, q. split; [exact NC|]. split; [exact A1|]. split; [exact A3|]. split; [exact I|exact C].
Qed.
Print Assumptions long_line_414_refuted.

(** ** C18.  Full statement (false, see the refutations): exactly the declared bytes are the body, the bytes behind them are
    left for the next request, a declared length over the limit is answered 413. *)
(** Proved, under the hypotheses of [request_answered_partial]: a handler that is called for a request with a body has got
    all of it and exactly it: the declared number of bytes behind the header block; without a declared length it gets no
    body. *)
Theorem body_exact_partial : forall e os per l m r p fs n payload junk ts rt ps src q q' ts' o,
  fits e per l m r fs n payload -> served e os r m p -> declares fs n -> accept_says fs o -> ~ In 10%N junk ->
  init_req junk (e_max e) per = Some q -> serve e q (l ++ CRLF ++ section fs ++ payload) false ts = Ok (VHandler rt ps q', src, ts') ->
  q_body q' = (if n =? 0 then None else Some (firstn n payload)) /\ n <= e_max e /\ length (firstn n payload) = n /\ q_line q' = Some r /\ q_hdr q' = mkHci (map delivered fs) (length fs).
Proof.
  intros e os per l m r p fs n payload junk ts rt ps src q q' ts' o FT SV DC AS J IQ SE.
  destruct (request_answered e os per l m r p fs n payload junk ts o FT SV DC AS J) as (q0 & k & I0 & AW & R). rewrite IQ in I0. injection I0 as <-.
  destruct R as [(rcv & s & q2 & E & _)|(rcv & s & v & t2 & E & E1 & LN & AN)]; rewrite SE in E; [discriminate|]. injection E as <- <- <-.
  assert (HB : forall body, dispatched e (MountProofs.srun [] os) r m p fs body (view (VHandler rt ps q')) -> q_body q' = body /\ q_line q' = Some r /\ q_hdr q' = mkHci (map delivered fs) (length fs)).
  { intros body D. inversion D. auto. }
  inversion AN as [s S ES|S N0 X L ES|S N0 X L ES|S N0 X L ES|s S N0 D ES|s S N0 X L D ES]; subst.
  - exfalso. inversion S; subst; try (destruct r0; discriminate); try (destruct r1; discriminate); try (destruct r2; discriminate); destruct r3; discriminate.
  - destruct (HB _ D) as (-> & ? & ?). auto 10 using Nat.le_0_l.
  - destruct (HB _ D) as (-> & ? & ?). apply Nat.eqb_neq in N0 as ->. repeat split; auto.
    destruct AW as [(_ & _ & ->)|[(_ & Y & _)|(s & Y & _)]]; [|contradiction|pose proof (says_fun _ _ _ S Y); discriminate].
    apply (f_equal (@length N)) in E1. rewrite !app_length in *. rewrite firstn_length. lia.
Qed.
Print Assumptions body_exact_partial.
(** A length over the limit: 413 once the declared bytes have been received (and thrown away), and the connection is
    closed. *)
Theorem oversize_413_partial : forall e os per l m r p fs n payload junk ts,
  fits e per l m r fs n payload -> served e os r m p -> declares fs n -> accept_says fs None -> ~ expects_100 fs -> e_max e < n -> ~ In 10%N junk ->
  exists q, init_req junk (e_max e) per = Some q /\
  let all := l ++ CRLF ++ section fs ++ payload in
  ((exists rcv src q', serve e q all false ts = Ok (VWait q', src, []) /\ all = rcv ++ src /\ length rcv < length (l ++ CRLF ++ section fs) + n) \/
   (exists rcv src q' ts', serve e q all false ts = Ok (VStatus 413 q', src, ts') /\ keeps (VStatus 413 q') = false /\ all = rcv ++ src /\ length (l ++ CRLF ++ section fs) + n <= length rcv)).
Proof.
  intros e os per l m r p fs n payload junk ts FT SV DC AS NX OV J.
  destruct (request_answered e os per l m r p fs n payload junk ts None FT SV DC AS J) as (q & k & I & AW & R). exists q. split; [exact I|]. intros all.
  destruct AW as [(_ & _ & ->)|[(_ & Y & _)|(s & Y & _)]]; [|contradiction|pose proof (says_fun _ _ _ AS Y); discriminate].
  destruct R as [R|(rcv & s & v & t2 & E & E1 & LN & AN)]; [left; exact R|right].
  inversion AN as [x S ES|S N0 X L ES|S N0 X L ES|S N0 X L ES|x S N0 D ES|x S N0 X L D ES]; subst; try contradiction; try lia; [pose proof (says_fun _ _ _ AS S); discriminate|].
  destruct v as [| | | |n0 q0| | |]; try discriminate ES. cbn in ES. injection ES as <-. exists rcv, s, q0, t2. split; [exact E|]. split; [reflexivity|]. split; [exact E1|exact LN].
Qed.
Print Assumptions oversize_413_partial.
Definition big : list field := [mkField (bs "Content-Length") (bs " ") (bs "1000")].
Example oversize_ex : exists q q' ts', init_req [] 100 64 = Some q /\ fits e0 64 ex_line POST ex_r big (N.to_nat 1000) (repeat 97%N (N.to_nat 1000)) /\
  serve e0 q (ex_line ++ CRLF ++ section big ++ repeat 97%N (N.to_nat 1000)) false (repeat [(N.to_nat 150, []); (N.to_nat 150, [])] 50) = Ok (VStatus 413 q', [], ts').
Proof.
  do 3 eexists. split; [vm_compute; reflexivity|]. split.
  { split; [intros I; vm_compute in I; intuition discriminate|]. split; [apply reqline_exact; reflexivity|]. split; [reflexivity|]. split; [reflexivity|]. split; [reflexivity|].
    split; [apply fields_okb_ok; reflexivity|]. split; [discriminate|]. split; [apply Nat.ltb_lt; reflexivity|]. apply Nat.leb_le; reflexivity. }
  vm_compute. reflexivity.
Qed.

(** ** Findings *)
Definition kind (v : verdict) : nat * list N :=
  match v with VWait _ => (0, []) | VClosed => (1, []) | VError => (2, []) | VBadLine => (3, []) | VStatus n _ => (N.to_nat n, [])
  | VHandler r _ q => (1000 + Route.rt_handler r, match q_body q with Some b => b | None => [] end) | VFile _ _ => (1001, []) | VDecode => (1002, []) end.
Definition seen_by (o : outcome (list verdict)) : outcome (list (nat * list N)) := match o with Ok l => Ok (map kind l) | UB u => UB u end.
Definition get : list N := bs "GET / HTTP/1.1" ++ nl ++ bs "Host: x" ++ nl ++ nl.
Definition post (n : list N) : list N := bs "POST /a HTTP/1.1" ++ nl ++ bs "Content-Length: " ++ n ++ nl ++ nl.
(** Two requests sent one after the other without waiting: the second is read with the first and thrown away with its
    buffer; it is answered if it happens to arrive later. *)
Theorem pipelined_refuted : exists e per a b,
  seen_by (connection e [] per 3 (a ++ b) false [[(length a - 1, [])]; [(length b, [])]; [(9, [])]]) = Ok [(1002, []); (1002, []); (0, [])] /\
  seen_by (connection e [] per 3 (a ++ b) false [[(length a + length b, [])]; [(9, [])]; [(9, [])]]) = Ok [(1002, []); (0, [])].
Proof. exists e0, 200, get, get. split; vm_compute; reflexivity. Qed.
Print Assumptions pipelined_refuted.
(** A client that closes its sending side behind a complete request with a body gets no answer. *)
Theorem half_close_refuted : exists e per,
  seen_by (connection e [] per 1 (post (bs "5") ++ bs "hello") false [[(200, [])]; [(200, [])]]) = Ok [(1000, bs "hello")] /\
  seen_by (connection e [] per 1 (post (bs "5") ++ bs "hello") true [[(200, [])]; [(200, [])]]) = Ok [(1000, bs "hello")] /\
  seen_by (connection e [] per 1 (post (bs "5") ++ bs "hello") true [[(38, [])]; [(200, []); (200, [])]]) = Ok [(1, [])].
Proof. exists e0, 200. repeat split; vm_compute; reflexivity. Qed.
Print Assumptions half_close_refuted.
(** A body within the limit is refused with 413: the buffer holds the header block too.  Here 100 bytes are allowed and 98 sent. *)
Theorem body_within_limit_refuted : exists e per n body, n <= e_max e /\ length body = n /\
  seen_by (connection e [] per 1 (post (dec (N.of_nat n)) ++ body) false [[(300, []); (300, []); (300, [])]; [(300, []); (300, []); (300, [])]; [(300, []); (300, [])]]) = Ok [(413, [])].
Proof. exists e0, 64, 98, (repeat 97%N 98). split; [apply Nat.leb_le; reflexivity|]. split; [reflexivity|vm_compute; reflexivity]. Qed.
Print Assumptions body_within_limit_refuted.
(** A request that ends exactly at the end of a block of the buffer is never answered. *)
Theorem block_boundary_refuted : exists e per, length get = per /\
  (forall k, seen_by (connection e [] per 1 get false ([(200, [])] :: repeat [(200, [])] k)) = Ok [(0, [])]) /\
  seen_by (connection e [] (S per) 1 get false [[(200, [])]]) = Ok [(1002, [])].
Proof.
  exists e0, 27. split; [reflexivity|]. split; [|vm_compute; reflexivity]. intros k. unfold connection.
  destruct (init_req [] (e_max e0) 27) as [q|] eqn:I; [|discriminate]. vm_compute in I. injection I as <-. cbn [serve].
  match goal with |- context [turn e0 ?q ?s ?f ?o] => remember (turn e0 q s f o) as t eqn:ET end. vm_compute in ET. subst t. cbn [waiting].
  match goal with |- context [serve e0 ?q0 [] false _] => set (q1 := q0) end.
  assert (W : forall k, serve e0 q1 [] false (repeat [(200, [])] k) = Ok (VWait q1, [], [])).
  { clear k. induction k as [|k IH]; [reflexivity|]. cbn [repeat serve]. replace (turn e0 q1 [] false [(200, [])]) with (Ok (VWait q1, @nil N)) by (vm_compute; reflexivity). cbn [waiting]. exact IH. }
  rewrite W. reflexivity.
Qed.
Print Assumptions block_boundary_refuted.
(** A request line that says HTTP/2 makes the response follow a pointer that was never set. *)
Theorem version_two_refuted : exists e per,
  seen_by (connection e [] per 1 (bs "GET /nothing HTTP/2" ++ nl ++ bs "Host: x" ++ nl ++ nl) false [[(200, [])]]) = UB OutOfBounds.
Proof. exists e0, 200. vm_compute. reflexivity. Qed.
Print Assumptions version_two_refuted.
(** A negative length is taken for a length over the limit: the client waits for ever. *)
Theorem negative_length_refuted : exists e per,
  seen_by (connection e [] per 1 (post (bs "-1")) false [[(200, [])]; [(200, [])]; [(200, [])]]) = Ok [(0, [])].
Proof. exists e0, 200. vm_compute. reflexivity. Qed.
Print Assumptions negative_length_refuted.
(** A header line without a colon is skipped, not answered 400. *)
Theorem malformed_header_refuted : exists e per,
  seen_by (connection e [] per 1 (bs "GET / HTTP/1.1" ++ nl ++ bs "no colon here" ++ nl ++ bs "Host: x" ++ nl ++ nl) false [[(200, [])]]) = Ok [(1002, [])].
Proof. exists e0, 200. vm_compute. reflexivity. Qed.
Print Assumptions malformed_header_refuted.
(** The name accept-encodings counts as Accept-Encoding. *)
Theorem accept_encodings_refuted : exists e per,
  seen_by (connection e [] per 1 (bs "GET / HTTP/1.1" ++ nl ++ bs "Accept-Encodings: br;q=0" ++ nl ++ nl) false [[(200, [])]]) = Ok [(406, [])].
Proof. exists e0, 200. vm_compute. reflexivity. Qed.
Print Assumptions accept_encodings_refuted.
