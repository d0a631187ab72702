(** Property C119: request bodies with a Content-Encoding (model: ReqFlow.v and H2Req.v; specification: [coded],
    [no_such_coding] in H2ReqLaws.v and the relations of C19 and C108). *)
From Verif Require Import Base CStr CNum Names NamesProofs Buffer BufferProofs Reqline ReqlineSpec ReqlineProofs Header HeaderProofs ReqFlow ReqFlowProofs ReqFlowLaws H2Req H2ReqProofs H2ReqLaws.
From Verif Require Route RouteProofs Mount MountProofs Properties_ReqFlow Properties_H2Req.
Local Open Scope N_scope.

(** ** C119.  Full statement (false, see below): the handler gets the body of a request with a Content-Encoding decoded, and
    a coding the server does not know is answered 415 (or another status).  What happens instead, for every such request: *)
(** Over HTTP/1.1 the field is never looked at: the handler gets the coded bytes as they were sent, whatever the coding. *)
Theorem coded_body_as_sent : forall e os per l m r p fs n payload junk ts x,
  fits e per l m r fs n payload -> served e os r m p -> declares fs n -> coded fs x -> accept_says fs None -> ~ expects_100 fs -> (0 < n <= e_max e)%nat -> ~ In 10 junk ->
  let all := l ++ CRLF ++ section fs ++ payload in
  exists q, init_req junk (e_max e) per = Some q /\
  ((exists rcv src q', serve e q all false ts = Ok (VWait q', src, []) /\ all = rcv ++ src /\ length rcv < length (l ++ CRLF ++ section fs) + n)%nat \/
   (exists src v ts', serve e q all false ts = Ok (v, src, ts') /\ dispatched e (MountProofs.srun [] os) r m p fs (Some (firstn n payload)) (view v))).
Proof.
  intros e os per l m r p fs n payload junk ts x FT SV DC CO AS NX NM NJ all.
  destruct (request_answered e os per l m r p fs n payload junk ts None FT SV DC AS NJ) as (q & k & IQ & AW & H). exists q. split; [exact IQ|]. destruct H as [(rcv & src & q' & A & B & C)|(rcv & src & v & ts' & A & _ & _ & D)].
  - left. exists rcv, src, q'. split; [exact A|]. split; [exact B|]. destruct AW as [(_ & _ & ->)|[(_ & X & _)|(s & X & _)]]; [exact C|contradiction|]. discriminate (says_fun _ _ _ AS X).
  - right. exists src, v, ts'. split; [exact A|]. inversion D as [s X|? ? X|? ? X|? ? ? X|s ? X|s ? ? ? ? DI]; subst; try contradiction; try (exfalso; lia); [discriminate (says_fun _ _ _ AS X)|exact DI].
Qed.
Print Assumptions coded_body_as_sent.
(** Over HTTP/2 a body in gzip fails the connection, one in deflate or br, and even one in no coding at all, is delivered
    empty, and any other name crashes the worker.  (Names are compared exactly, so "GZIP" is another name.) *)
Theorem h2_coded_body : forall e os conn ps fs m v uri query r p n junk ds x, Forall clean ps -> Forall pseudo_field ps -> Forall regular fs ->
  names_request ps m v -> h2_target m v uri query -> r = mkReqline (Some m) uri query (Some V2) -> served e os r m p -> declares fs n -> coded fs x -> accept_says fs None ->
  (0 < n <= e_max e)%nat -> (0 < total ds <= n)%nat ->
  (In x [bs "gzip"; bs "x-gzip"] -> h2_request e conn (list_of ps fs) junk ds = Ok HFail) /\
  (In x [bs "deflate"; bs "identity"; bs "br"] -> exists s s', h2_request e conn (list_of ps fs) junk ds = Ok s' /\ alike (list_of ps fs) s s' /\ dispatched e (MountProofs.srun [] os) r m p fs (Some []) s) /\
  (no_such_coding x -> h2_request e conn (list_of ps fs) junk ds = UB NullDeref).
Proof. exact h2_coded. Qed.
Print Assumptions h2_coded_body.
(** With a length and a coding but no DATA the worker crashes, whatever the coding. *)
Theorem h2_coded_without_data : forall e os conn ps fs m v uri query r p n junk ds x, Forall clean ps -> Forall pseudo_field ps -> Forall regular fs ->
  names_request ps m v -> h2_target m v uri query -> r = mkReqline (Some m) uri query (Some V2) -> served e os r m p -> declares fs n -> coded fs x -> accept_says fs None ->
  (0 < n)%nat -> concat ds = [] -> h2_request e conn (list_of ps fs) junk ds = UB NullDeref.
Proof. exact h2_coded_no_data. Qed.
Print Assumptions h2_coded_without_data.

Definition cd_fs (x : list N) : list field := Properties_ReqFlow.ex_fs ++ [mkField (bs "Content-Encoding") (bs " ") x].
Lemma cd_declares x : declares (cd_fs x) 5.
Proof.
  right. exists (mkField (bs "Content-Length") (bs " ") (bs "5")). split; [|split; [repeat constructor|split; [discriminate|split; [reflexivity|vm_compute; discriminate]]]].
  exists [mkField (bs "Host") (bs " ") (bs "x")], [mkField (bs "Content-Encoding") (bs " ") x]. split; [reflexivity|]. split; [reflexivity|]. constructor; [|constructor]. intros Q. discriminate Q.
Qed.
Lemma cd_accept x : accept_says (cd_fs x) None.
Proof.
  eapply (as_language _ None _ None _ None _ None); try reflexivity;
    (cbn [picks]; repeat (constructor; [first [intros (Q & _)|intros Q]; first [discriminate Q|destruct Q as (? & Q); discriminate Q]|]); constructor).
Qed.
Lemma cd_coded x : coded (cd_fs x) x.
Proof.
  exists Properties_ReqFlow.ex_fs, (mkField (bs "Content-Encoding") (bs " ") x), []. split; [reflexivity|]. split; [|split; reflexivity].
  constructor; [|constructor; [|constructor]]; intros Q; discriminate Q.
Qed.
Lemma cd_served v : served Properties_ReqFlow.e0 [] (mkReqline (Some POST) (bs "/a") None (Some v)) POST (bs "a").
Proof.
  destruct Properties_ReqFlow.request_answered_ex as (_ & (S1 & S2 & S3 & _) & _). split; [exact S1|]. split; [exact S2|]. split; [exact S3|]. split; [reflexivity|].
  split; [intros I; vm_compute in I; intuition discriminate|]. split; [exists 1%nat; reflexivity|]. split; [exact Logic.I|discriminate].
Qed.
Lemma cd_expects x : ~ expects_100 (cd_fs x).
Proof. intros (f & I & E & _). destruct I as [<-|[<-|[<-|[]]]]; discriminate E. Qed.
Lemma cd_regular x : Forall field_ok (cd_fs x) -> x <> [] -> Forall regular (cd_fs x).
Proof.
  intros F NX. inversion F as [|? ? F1 G1]; subst. inversion G1 as [|? ? F2 G2]; subst. inversion G2 as [|? ? F3 _]; subst.
  apply Forall_cons; [split; [exact F1|discriminate]|]. apply Forall_cons; [split; [exact F2|discriminate]|]. apply Forall_cons; [split; [exact F3|exact NX]|]. constructor.
Qed.
(** The gzip header's first bytes reach the handler. *)
Example coded_body_as_sent_ex :
  fits Properties_ReqFlow.e0 128 Properties_ReqFlow.ex_line POST Properties_ReqFlow.ex_r (cd_fs (bs "gzip")) 5 [31; 139; 8; 0; 0] /\
  served Properties_ReqFlow.e0 [] Properties_ReqFlow.ex_r POST (bs "a") /\ declares (cd_fs (bs "gzip")) 5 /\ coded (cd_fs (bs "gzip")) (bs "gzip") /\ accept_says (cd_fs (bs "gzip")) None /\
  ~ expects_100 (cd_fs (bs "gzip")) /\
  exists q q' ts', init_req [] 100 128 = Some q /\
    serve Properties_ReqFlow.e0 q (Properties_ReqFlow.ex_line ++ CRLF ++ section (cd_fs (bs "gzip")) ++ [31; 139; 8; 0; 0]) false [[(3, [])]; [(200, [])]; [(200, []); (200, [])]]%nat =
      Ok (VHandler (Route.mkRoute (bs "/a") POST 0 []) [] q', [], ts') /\ q_body q' = Some [31; 139; 8; 0; 0].
Proof.
  split.
  { split; [intros I; vm_compute in I; intuition discriminate|]. split; [apply reqline_exact; reflexivity|]. split; [reflexivity|]. split; [reflexivity|]. split; [reflexivity|].
    split; [apply fields_okb_ok; reflexivity|]. split; [discriminate|]. split; apply Nat.ltb_lt; reflexivity. }
  split; [apply cd_served|]. split; [apply cd_declares|]. split; [apply cd_coded|]. split; [apply cd_accept|]. split; [apply cd_expects|].
  do 3 eexists. split; [vm_compute; reflexivity|]. split; [vm_compute; reflexivity|]. reflexivity.
Qed.
Lemma cd_h2 x : Forall field_ok (cd_fs x) -> x <> [] -> let ps := Properties_H2Req.ex_ps in
  Forall clean ps /\ Forall pseudo_field ps /\ Forall regular (cd_fs x) /\ names_request ps POST (bs "/a") /\ h2_target POST (bs "/a") (bs "/a") None /\
  served Properties_ReqFlow.e0 [] (mkReqline (Some POST) (bs "/a") None (Some V2)) POST (bs "a") /\ declares (cd_fs x) 5 /\ coded (cd_fs x) x /\ accept_says (cd_fs x) None.
Proof.
  intros F NX ps. split; [exact Properties_H2Req.ex_clean|]. split; [exact Properties_H2Req.ex_pseudo|]. split; [exact (cd_regular x F NX)|]. split; [exact Properties_H2Req.ex_names|].
  split; [apply target_exact; vm_compute; reflexivity|]. split; [apply cd_served|]. split; [apply cd_declares|]. split; [apply cd_coded|apply cd_accept].
Qed.
Example h2_coded_body_ex : let ps := Properties_H2Req.ex_ps in let fs := cd_fs (bs "identity") in
  (Forall clean ps /\ Forall pseudo_field ps /\ Forall regular fs /\ names_request ps POST (bs "/a") /\ h2_target POST (bs "/a") (bs "/a") None /\
   served Properties_ReqFlow.e0 [] (mkReqline (Some POST) (bs "/a") None (Some V2)) POST (bs "a") /\ declares fs 5 /\ coded fs (bs "identity") /\ accept_says fs None) /\
  no_such_coding (bs "GZIP") /\ total [bs "he"; bs "llo"] = 5%nat.
Proof.
  split; [apply cd_h2; [apply fields_okb_ok; reflexivity|discriminate]|]. split; [|reflexivity]. intros I. vm_compute in I. intuition discriminate.
Qed.
(** Witnesses: five bytes that are not coded at all arrive as none; a gzip body fails the connection; "GZIP" crashes the worker. *)
Theorem h2_coded_body_refuted :
  h2_request Properties_ReqFlow.e0 http (list_of Properties_H2Req.ex_ps (cd_fs (bs "identity"))) [] [bs "he"; bs "llo"] =
    Ok (HHandler (Route.mkRoute (bs "/a") POST 0 []) [] (mkReqline (Some POST) (bs "/a") None (Some V2)) (list_of Properties_H2Req.ex_ps (cd_fs (bs "identity"))) (Some [])) /\
  h2_request Properties_ReqFlow.e0 http (list_of Properties_H2Req.ex_ps (cd_fs (bs "gzip"))) [] [[31; 139; 8; 0; 0]] = Ok HFail /\
  h2_request Properties_ReqFlow.e0 http (list_of Properties_H2Req.ex_ps (cd_fs (bs "GZIP"))) [] [[31; 139; 8; 0; 0]] = UB NullDeref.
Proof. repeat split; vm_compute; reflexivity. Qed.
Print Assumptions h2_coded_body_refuted.
(** The same fields and bytes get two answers: over HTTP/1.1 the handler sees them, over HTTP/2 the connection fails. *)
Theorem coded_body_refuted : exists fs body, declares fs (length body) /\ coded fs (bs "gzip") /\
  (exists q q' ts', init_req [] 100 128 = Some q /\
    serve Properties_ReqFlow.e0 q (Properties_ReqFlow.ex_line ++ CRLF ++ section fs ++ body) false [[(3, [])]; [(200, [])]; [(200, []); (200, [])]]%nat =
      Ok (VHandler (Route.mkRoute (bs "/a") POST 0 []) [] q', [], ts') /\ q_body q' = Some body) /\
  h2_request Properties_ReqFlow.e0 http (list_of Properties_H2Req.ex_ps fs) [] [body] = Ok HFail.
Proof.
  exists (cd_fs (bs "gzip")), [31; 139; 8; 0; 0]. destruct coded_body_as_sent_ex as (_ & _ & DC & CO & _ & _ & H). split; [exact DC|]. split; [exact CO|]. split; [exact H|]. vm_compute. reflexivity.
Qed.
Print Assumptions coded_body_refuted.
