(** What a client sees of the HTTP/1.1 request handler of ReqFlow.v, stated without its helpers. *)
From Verif Require Import Base CStr CNum Buffer BufferProofs Names NamesProofs AcceptEncProofs Machine Reqline ReqlineSpec ReqlineProofs Header HeaderProofs ReqFlow ReqFlowProofs.
From Verif Require AcceptEnc AcceptMime AcceptCL Route RouteProofs Mount MountProofs Cache CacheProofs.
Local Open Scope nat_scope.

(** ** Captured values *)
(** A request takes the value of the only parameter its route can have before a slash. *)
Definition captured (rt : Route.route) (uri : list N) (ps : list (Route.param * list N)) : Prop :=
  (~ In 123%N (Route.rt_path rt) /\ ps = []) \/
  (exists pre inner v p t, Route.rt_path rt = pre ++ 123%N :: inner /\ ~ In 123%N pre /\ uri = pre ++ v /\ Route.rt_params rt = p :: t /\ ps = [(p, v)]).
Lemma params_brace path ps : RouteProofs.params_of path ps -> (In 123%N path <-> ps <> []).
Proof.
  induction 1 as [|c t ps C _ IH|t p ps _ _ _ IH]; [split; [intros []|congruence]| |split; [discriminate|left; reflexivity]].
  rewrite <- IH. split; [intros [E|I]; [contradiction|exact I]|right; assumption].
Qed.
Lemma capture_selected rt uri rest m : RouteProofs.simple rt -> RouteProofs.selects rt uri m ->
  exists ps, Route.capture rt (uri ++ rest) (length uri) = Ok (Some ps) /\ captured rt uri ps.
Proof.
  intros (PO & _ & _) S. pose proof (params_brace _ _ PO) as PB. unfold Route.capture. destruct S as [(NI & _ & _)|(pre & inner & v & EP & NP & EU & NV & SV)].
  - destruct (Route.rt_params rt) as [|p t] eqn:EQ; [|destruct NI; apply PB; discriminate]. exists []. split; [reflexivity|]. left. auto.
  - destruct (Route.rt_params rt) as [|p t] eqn:EQ; [exfalso; apply (proj1 PB); [rewrite EP; apply in_or_app; right; left; reflexivity|reflexivity]|].
    exists [(p, v)]. split; [|right; exists pre, inner, v, p, t; rewrite EQ; auto].
    assert (L : length uri = length pre + length v) by (rewrite EU, app_length; reflexivity).
    replace (S (length uri)) with (length pre + S (length v)) by lia.
    pose proof (RouteProofs.capture_skip pre (S (length v)) [] (123%N :: inner) (p :: t) [] (v ++ rest) (length uri) NP) as CS. cbn [app length Nat.add] in CS. rewrite EP, EU, <- app_assoc. rewrite <- EU.
    rewrite CS by lia. cbn [Route.capture_loop]. assert (0 < length v) by (destruct v; [contradiction|cbn; lia]).
    replace (negb (length pre <? length uri)) with false by (symmetry; apply negb_false_iff, Nat.ltb_lt; lia).
    unfold rd. rewrite nth_error_app1 by (rewrite app_length; cbn; lia). rewrite nth_error_app2, Nat.sub_diag by lia. cbn [nth_error obind N.eqb Pos.eqb].
    rewrite RouteProofs.skipn_len. replace (length uri - length pre) with (length v) by lia. rewrite firstn_app, firstn_all, Nat.sub_diag. cbn [firstn]. rewrite app_nil_r.
    apply RouteProofs.memchr_none in SV. rewrite SV. reflexivity.
Qed.

(** ** Routing and files *)
(** The answer to a request that has passed every check: the first route that takes it, else the file of that name. *)
Inductive dispatched (e : env) (sp : list MountProofs.smount) (r : reqline) (m : method) (p : list N) (fs : list field) (body : option (list N)) : seen -> Prop :=
| di_handler a rt c ps : e_regs e = a ++ rt :: c -> RouteProofs.selects rt (l_uri r) m -> Forall (fun x => ~ RouteProofs.selects x (l_uri r) m) a -> captured rt (l_uri r) ps ->
    e_null e (Route.rt_handler rt) = false -> dispatched e sp r m p fs body (SHandler rt ps (Some r) (mkHci (map delivered fs) (length fs)) body)
| di_null a rt c : e_regs e = a ++ rt :: c -> RouteProofs.selects rt (l_uri r) m -> Forall (fun x => ~ RouteProofs.selects x (l_uri r) m) a ->
    e_null e (Route.rt_handler rt) = true -> dispatched e sp r m p fs body (SStatus 500)
| di_file f : Forall (fun x => ~ RouteProofs.selects x (l_uri r) m) (e_regs e) -> m = GET -> Mount.f_name f = MountProofs.wanted (e_cfg e) p ->
    MountProofs.registered sp (MountProofs.wanted (e_cfg e) p) false -> dispatched e sp r m p fs body (SFile f)
| di_405 : Forall (fun x => ~ RouteProofs.selects x (l_uri r) m) (e_regs e) -> m <> GET ->
    (MountProofs.registered sp (MountProofs.wanted (e_cfg e) p) false \/ MountProofs.registered sp (MountProofs.wanted (e_cfg e) p) true) ->
    dispatched e sp r m p fs body (SStatus 405)
| di_404 : Forall (fun x => ~ RouteProofs.selects x (l_uri r) m) (e_regs e) -> ~ MountProofs.registered sp (MountProofs.wanted (e_cfg e) p) false ->
    dispatched e sp r m p fs body (SStatus 404).
(** A server after any history of its mounts, with routes whose parameters are not followed by a slash, and a path: any
    number of slashes before [p]. *)
Definition served (e : env) (os : list MountProofs.mop) (r : reqline) (m : method) (p : list N) : Prop :=
  Forall RouteProofs.simple (e_regs e) /\ MountProofs.mlegal_all (e_cfg e) [] os /\ MountProofs.mrun (e_cfg e) Mount.mount_init os = Ok (Some (e_mnt e)) /\
  l_method r = Some m /\ RouteProofs.no0 (l_uri r) /\ (exists k, l_uri r = repeat 47%N k ++ p) /\ MountProofs.no_lead p /\ (p = [] -> MountProofs.no_lead (e_after e)).
Lemma final_spec e os r m p fs body : Forall field_ok fs -> served e os r m p ->
  exists s, final e r (mkHci (map delivered fs) (length fs)) body = Ok s /\ dispatched e (MountProofs.srun [] os) r m p fs body s.
Proof.
  intros FS (RS & ML & MR & LM & NZ & (k & EU) & NP & NA). unfold final. rewrite LM.
  destruct (RouteProofs.found_spec (e_regs e) (l_uri r) (e_after e) m RS NZ) as [(a & rt & c & ER & SE & FA & FR)|(FA & FR)]; rewrite FR; cbn [obind].
  - assert (SI : RouteProofs.simple rt) by (rewrite Forall_forall in RS; apply RS; rewrite ER; apply in_or_app; right; left; reflexivity).
    destruct (capture_selected rt (l_uri r) (e_after e) m SI SE) as (ps & CP & CA). rewrite CP. cbn [obind]. destruct (e_null e (Route.rt_handler rt)) eqn:EN.
    + eexists. split; [reflexivity|]. eapply di_null; eauto.
    + eexists. split; [reflexivity|]. eapply di_handler; eauto.
  - destruct (MountProofs.mrun_ok (e_cfg e) os Mount.mount_init MountProofs.init_MInv ML) as (s & E & MI & V). rewrite MR in E. injection E as <-.
    destruct (MountProofs.static_spec (e_cfg e) (e_mnt e) m k p (e_after e) MI NP NA) as (res & SC & SP). change (MountProofs.view Mount.mount_init) with (@nil MountProofs.smount) in V.
    rewrite V in SP.
    assert (LE : length (l_uri r) = k + length p) by (rewrite EU, app_length, repeat_length; reflexivity).
    rewrite LE. rewrite EU, <- app_assoc, SC. cbn [obind]. destruct res as [f| |].
    + rewrite CacheProofs.not_modified_delivered by exact FS. cbn [obind]. eexists. split; [reflexivity|]. destruct SP as (? & ? & ?). apply di_file; assumption.
    + eexists. split; [reflexivity|]. apply di_404; assumption.
    + eexists. split; [reflexivity|]. destruct SP. apply di_405; assumption.
Qed.

(** ** A request line that is refused *)
Lemma in_firstn_le {A} (x : A) : forall a b s, a <= b -> In x (firstn a s) -> In x (firstn b s).
Proof. intros a b s L I. replace (firstn a s) with (firstn a (firstn b s)) in I by (rewrite firstn_firstn; f_equal; lia). rewrite <- (firstn_skipn a). apply in_or_app. auto. Qed.
Section LINE.
Variables (e : env) (per : nat) (l rest : list N).
Notation mx := (connect_chain_max (e_max e) per).
Definition stream_of : list N := l ++ CRLF ++ rest.
Hypotheses (NC : no_ctl l) (FITL : length l + 2 < per) (CAPL : per < mx * per \/ length stream_of < mx * per).

Lemma mx1 : 1 <= mx. Proof. unfold connect_chain_max. apply Nat.le_add_l. Qed.
Definition lclean (rcv : list N) (b : buffer) : Prop := exists tail, b = one mx per rcv tail 0 /\ length rcv + length tail = per /\ ~ In 10%N tail.
Lemma lscan_line rcv tail d src : stream_of = (rcv ++ d) ++ src -> length rcv + length tail = per -> tail <> [] -> length d <= length tail -> ~ In 10%N tail ->
  (exists x, strstr_after (write_last (one mx per rcv tail 0) d) [13; 10]%N = Ok x /\ is_some x = (length l + 2 <=? length (rcv ++ d))) /\
  (exists x, strstr_after (write_last (one mx per rcv tail 0) d) [13; 10; 13; 10]%N = Ok x /\ (length (rcv ++ d) < length l + 2 -> x = None)).
Proof.
  intros E L TN LD NT. pose proof (one_write_wf mx per rcv tail 0 L TN (Nat.le_0_l _) mx1 d LD) as W.
  pose proof (one_write_mem mx per rcv tail 0 L (Nat.le_0_l _) mx1 d LD) as M. cbn [skipn] in M.
  assert (LM : length (mem (b_chains (write_last (one mx per rcv tail 0) d))) = per) by (rewrite M, app_length, !skipn_length, app_length; lia).
  assert (NT' : ~ In 10%N (skipn (length d) tail)). { intros I. apply NT. rewrite <- (firstn_skipn (length d) tail). apply in_or_app. auto. }
  pose proof (prefix_firstn _ _ _ E) as P.
  assert (LP : length (rcv ++ d) <= length stream_of) by (rewrite E, (app_length (rcv ++ d)); lia). split.
  - apply (scan_line _ l rest (skipn (length d) tail)); auto.
    + rewrite M. f_equal. exact P.
    + lia.
  - destruct (strstr_spec _ W [13; 10; 13; 10]%N ltac:(discriminate)) as (x & X & A & _). exists x. split; [exact X|]. intros G.
    rewrite scan_none in X; [congruence|exact W|discriminate|]. intros j O. change [13; 10; 13; 10]%N with (CRLF ++ CRLF) in O.
    assert (I : In 10%N (mem (b_chains (write_last (one mx per rcv tail 0) d)))).
    { destruct O as (pre & post & -> & _). apply in_or_app. right. right; left; reflexivity. }
    rewrite M in I. apply in_app_or in I as [I|I]; [|exact (NT' I)]. rewrite P in I. unfold stream_of in I.
    assert (I' : In 10%N (firstn (length l + 1) (l ++ CRLF ++ rest))).
    { apply (in_firstn_le 10%N (length (rcv ++ d))); [lia|exact I]. }
    rewrite firstn_app_ge in I' by lia. replace (length l + 1 - length l) with 1 in I' by lia. cbn [CRLF app firstn] in I'. apply in_app_or in I' as [I'|[I'|[]]]; [|discriminate I'].
    unfold no_ctl in NC. rewrite Forall_forall in NC. destruct (NC _ I') as [_ Q]. congruence.
Qed.
Lemma receive_line : forall os q rcv src got, q_sl q = false -> q_hd q = false -> q_disc q = false -> lclean rcv (q_buf q) -> stream_of = rcv ++ src -> length rcv < length l + 2 ->
  exists st q' src' os' rcv', receive q src false os got = Ok (st, q', src', os') /\ stream_of = rcv' ++ src' /\ (length rcv <= length rcv' /\ (os <> [] -> src <> [] -> length rcv < length rcv')) /\
    ((length rcv' < length l + 2 /\ (st = RBlock \/ st = RSuccess) /\ exists b', q' = set_buf q b' /\ lclean rcv' b') \/
     (st = RSuccess /\ length l + 2 <= length rcv' /\ exists hd b', q' = set_buf (set_flags q true hd) b' /\ wf b' /\ stream b' = rcv')).
Proof.
  induction os as [|(k, junk) os IH]; intros q rcv src got QS QH QD QB E SS.
  { exists (if negb (q_disc q) && got then RSuccess else RBlock), q, src, [], rcv. split; [reflexivity|]. split; [exact E|]. split; [split; [lia|contradiction]|]. left. split; [exact SS|].
    split; [destruct (negb (q_disc q) && got); auto|]. exists (q_buf q). rewrite set_buf_self. auto. }
  destruct src as [|x src0].
  { exists (if negb (q_disc q) && got then RSuccess else RBlock), q, [], os, rcv. split; [reflexivity|]. split; [exact E|]. split; [split; [lia|contradiction]|]. left. split; [exact SS|].
    split; [destruct (negb (q_disc q) && got); auto|]. exists (q_buf q). rewrite set_buf_self. auto. }
  cbn [receive]. destruct QB as (tail & QB & LT & NT). assert (TN : tail <> []) by (intros ->; cbn in LT; lia).
  rewrite QB. change (lunuse_len (one mx per rcv tail 0)) with (length tail).
  set (src := x :: src0) in *. set (d := firstn (Nat.min (S k) (length tail)) src).
  assert (TP : 0 < length tail) by (destruct tail; [contradiction|cbn; lia]).
  assert (LD : length d <= length tail) by (unfold d; rewrite firstn_length; lia).
  assert (DN : d <> []). { unfold d, src. destruct (Nat.min (S k) (length tail)) eqn:EM; [lia|]. discriminate. }
  set (src' := skipn (length d) src).
  assert (ED : src = d ++ src') by apply taken.
  assert (E' : stream_of = (rcv ++ d) ++ src') by (rewrite <- app_assoc, <- ED; exact E).
  destruct (lscan_line rcv tail d src' E' LT TN LD NT) as ((x1 & SC1 & SC1') & x2 & SC2 & SC2').
  rewrite QS, QH, SC1. cbn [obind]. rewrite SC2. cbn [obind orb]. rewrite SC1', QD.
  assert (W : wf (one mx per rcv tail 0)) by (apply one_wf; auto using mx1; lia).
  pose proof (one_room mx per rcv tail 0 LT TN (Nat.le_0_l _) mx1) as RM.
  assert (LS : length stream_of = length rcv + length d + length src') by (rewrite E', !app_length; lia).
  destruct (recv_ok (fresh (b_per (write_last (one mx per rcv tail 0) d)) junk) (one mx per rcv tail 0) d W) as (b2 & B2 & W2 & S2 & R2 & M2 & P2 & O2).
  { rewrite fresh_length. reflexivity. } { exact LD. } { lia. }
  destruct d as [|d0 d1] eqn:ED0; [contradiction|]. rewrite <- ED0 in *. rewrite B2. cbn [obind].
  destruct (Nat.leb_spec (length l + 2) (length (rcv ++ d))) as [G|G].
  - cbn [orb]. do 4 eexists. exists (rcv ++ d). split; [reflexivity|]. split; [exact E'|]. split; [rewrite app_length; split; [lia|intros _ _; rewrite ED0; cbn [length]; lia]|]. right. split; [reflexivity|]. split; [exact G|].
    do 2 eexists. split; [reflexivity|]. split; [exact W2|]. rewrite S2, (one_stream mx per rcv tail 0 LT (Nat.le_0_l _) mx1). reflexivity.
  - rewrite (SC2' G). cbn [is_some orb].
    assert (QE : set_flags q false false = q) by (destruct q; cbn in *; subst; reflexivity). rewrite QE.
    assert (ONE : lclean (rcv ++ d) b2).
    { rewrite app_length in G. assert (LD' : length d < length tail) by lia. rewrite (one_append mx per rcv tail 0 LT (Nat.le_0_l _) mx1 d LD) in B2 by exact LD'. injection B2 as <-.
      exists (skipn (length d) tail). split; [reflexivity|]. split; [rewrite app_length, skipn_length; lia|]. intros I. apply NT. rewrite <- (firstn_skipn (length d) tail). apply in_or_app. auto. }
    destruct (IH (set_buf q b2) (rcv ++ d) src' true) as (st & q' & src2 & os' & rcv' & R1 & R2' & R3 & R4); cbn [set_buf q_sl q_hd q_disc q_buf]; auto.
    exists st, q', src2, os', rcv'. split; [exact R1|]. split; [exact R2'|].
    split; [rewrite app_length in R3; split; [lia|intros _ _; rewrite ED0 in R3; cbn [length] in R3; lia]|].
    destruct R4 as [(Q1 & Q2 & b' & -> & Q4)|(Q1 & Q2 & hd & b' & -> & Q4)]; [left|right]; (split; [assumption|]); (split; [assumption|]); [exists b'|exists hd, b']; (split; [reflexivity|assumption]).
Qed.
Lemma lwaits rcv src b : stream_of = rcv ++ src -> lclean rcv b -> length rcv < length l + 2 -> request_operation b = Ok NotReady.
Proof.
  intros E (tail & -> & LT & NT) LR. assert (TN : tail <> []) by (intros ->; cbn in LT; lia).
  apply operation_none; [apply one_wf; auto using mx1; lia|]. rewrite one_mem by (auto using mx1; lia). cbn [skipn]. intros j O. apply occurs_nth in O as [O _].
  pose proof (prefix_firstn _ _ _ E) as P. rewrite P in O.
  assert (LP : length rcv <= length stream_of) by (rewrite E, app_length; lia).
  apply occurs_prefix in O; [|exact LP|discriminate|reflexivity|exact NT]. destruct O as (J & O). cbn [CRLF length] in J.
  destruct (no_ctl_first l rest NC) as (_ & F & _). apply (F j); [lia|exact O].
Qed.
Definition LInv (rcv src : list N) (q : req) : Prop :=
  stream_of = rcv ++ src /\ length rcv < length l + 2 /\ (q_phase q = PInit \/ q_phase q = PLine) /\ q_sl q = false /\ q_hd q = false /\ q_disc q = false /\ q_line q = None /\ lclean rcv (q_buf q).
(** What the line leads to once it has arrived. *)
Definition line_end : outcome verdict -> Prop := fun o =>
  if (8000 <=? Z.of_nat (length l + 2))%Z then o = UB NullDeref
  else match parse_reqline (l ++ CRLF) with Ok (Some _) => True | _ => o = Ok VBadLine end.
Lemma turn_line rcv src q os : LInv rcv src q ->
  (exists rcv' src' q', turn e q src false os = Ok (VWait q', src') /\ LInv rcv' src' q' /\ (os <> [] -> length rcv < length rcv')) \/
  (exists rcv' src', stream_of = rcv' ++ src' /\ length l + 2 <= length rcv' /\ line_end (obind (turn e q src false os) (fun x => Ok (fst x))) /\
     (forall v s, turn e q src false os = Ok (v, s) -> s = src' \/ line_end (Ok v) /\ exists r, parse_reqline (l ++ CRLF) = Ok (Some r))).
Proof.
  intros (E & LR & QP & QS & QH & QD & QL & CB). unfold turn. rewrite QD.
  destruct (receive_line os q rcv src false QS QH QD CB E LR) as (st & q' & src' & os' & rcv' & R & E' & MON & RES). rewrite R. cbn [obind].
  assert (PR : os <> [] -> length rcv < length rcv').
  { intros ON. apply (proj2 MON ON). intros ->. apply (f_equal (@length _)) in E. unfold stream_of in E. rewrite app_nil_r, !app_length in E. cbn [CRLF length] in E. lia. }
  assert (PH : forall q2 s2 o2, q_phase q2 = q_phase q -> (match q_phase q2 with PHeader => header_phase e q2 s2 false o2 | PBody => body_phase e q2 s2 false o2 | _ => line_phase e q2 s2 false o2 end) = line_phase e q2 s2 false o2).
  { intros q2 s2 o2 ->. destruct QP as [->| ->]; reflexivity. }
  destruct RES as [(LR' & ST & b' & -> & CB')|(-> & LR' & hd & b' & -> & W & SB)].
  - left. exists rcv'. destruct ST as [->| ->].
    + do 2 eexists. split; [reflexivity|]. split; [|exact PR]. unfold LInv. cbn [set_buf q_phase q_sl q_hd q_disc q_line q_buf]. auto 10.
    + rewrite PH by reflexivity. unfold line_phase. cbn [set_phase set_buf q_buf]. rewrite (lwaits rcv' src' b' E' CB' LR'). cbn [obind].
      do 2 eexists. split; [reflexivity|]. split; [|exact PR]. unfold LInv. cbn [set_phase set_buf q_phase q_sl q_hd q_disc q_line q_buf]. auto 10.
  - right. exists rcv', src'. split; [exact E'|]. split; [exact LR'|]. rewrite PH by reflexivity. unfold line_phase. cbn [set_phase set_buf set_flags q_buf].
    assert (SX : exists more, rcv' = l ++ CRLF ++ more).
    { exists (skipn (length l + 2) rcv'). pose proof (prefix_firstn _ _ _ E') as P. rewrite <- (firstn_skipn (length l + 2) rcv') at 1. rewrite app_assoc. f_equal.
      rewrite P, firstn_firstn, Nat.min_l by exact LR'. unfold stream_of. rewrite firstn_app_ge by lia. replace (length l + 2 - length l) with 2 by lia. reflexivity. }
    destruct SX as (more & EM). rewrite EM in SB. destruct (no_ctl_first l more NC) as (O & F & CC). change CRLF_ with CRLF in O, F, CC. rewrite <- SB in O, F, CC.
    pose proof (operation_line b' (length l) W O F CC) as OL. unfold line_end. rewrite SB in OL. replace (firstn (length l + 2) (l ++ CRLF ++ more)) with (l ++ CRLF) in OL.
    2:{ rewrite firstn_app_ge by lia. replace (length l + 2 - length l) with 2 by lia. reflexivity. }
    destruct (8000 <=? Z.of_nat (length l + 2))%Z.
    + rewrite OL. cbn [obind]. unfold respond. cbn [set_phase set_buf set_flags q_line]. rewrite QL. cbn [obind]. split; [reflexivity|]. discriminate.
    + destruct (reqline_sound (l ++ CRLF)) as (o & PE & _). destruct (parse_reqline (l ++ CRLF)) as [[r|]|u] eqn:EP.
      * split; [exact Logic.I|]. intros v s _. right. split; [exact Logic.I|eauto].
      * rewrite OL. cbn [obind fst]. split; [reflexivity|]. intros v s Q. injection Q as _ <-. left. reflexivity.
      * discriminate PE.
Qed.
Lemma line_init junk : ~ In 10%N junk -> exists q, init_req junk (e_max e) per = Some q /\ LInv [] stream_of q.
Proof.
  intros J. set (t := fresh per junk). assert (LT : length t = per) by apply fresh_length.
  assert (NT10 : ~ In 10%N t).
  { intros I. unfold t, fresh in I. assert (I2 : In 10%N (junk ++ repeat 0%N per)) by (rewrite <- (firstn_skipn per (junk ++ repeat 0%N per)); apply in_or_app; auto).
    apply in_app_or in I2 as [I2|I2]; [exact (J I2)|]. apply repeat_spec in I2. discriminate. }
  assert (B : buf_init t 1 mx per = Some (one mx per [] t 0)).
  { unfold buf_init. cbn [init_chains]. unfold add_chain. cbn [b_max b_count]. replace (mx <=? 0) with false by (symmetry; apply Nat.leb_gt; pose proof mx1; lia). reflexivity. }
  unfold init_req. fold t. rewrite B. eexists. split; [reflexivity|]. split; [reflexivity|]. split; [cbn; lia|]. cbn [q_phase q_sl q_hd q_disc q_line q_buf]. do 5 (split; [auto|]). exists t. auto.
Qed.
(** A line the parser refuses is answered 400 on a new request, however it is delivered. *)
Lemma bad_line junk ts : ~ In 10%N junk -> (Z.of_nat (length l + 2) < 8000)%Z -> parse_reqline (l ++ CRLF) = Ok None ->
  exists q, init_req junk (e_max e) per = Some q /\
  ((exists rcv src q', serve e q stream_of false ts = Ok (VWait q', src, []) /\ stream_of = rcv ++ src /\ length rcv < length l + 2 /\ (Forall (fun t => t <> []) ts -> length ts <= length rcv)) \/
   (exists rcv src ts', serve e q stream_of false ts = Ok (VBadLine, src, ts') /\ stream_of = rcv ++ src /\ length l + 2 <= length rcv)).
Proof.
  intros J LE PB. destruct (line_init junk J) as (q & I & IV). exists q. split; [exact I|]. clear I.
  assert (G : forall ts rcv src q, LInv rcv src q -> 
    (exists rcv1 src' q', serve e q src false ts = Ok (VWait q', src', []) /\ stream_of = rcv1 ++ src' /\ length rcv1 < length l + 2 /\ (Forall (fun t => t <> []) ts -> length rcv + length ts <= length rcv1)) \/
    (exists rcv src' ts', serve e q src false ts = Ok (VBadLine, src', ts') /\ stream_of = rcv ++ src' /\ length l + 2 <= length rcv)).
  { clear ts q IV. induction ts as [|t ts IH]; intros rcv src q IV.
    - left. exists rcv, src, q. destruct IV as (E & LR & _). split; [reflexivity|]. split; [exact E|]. split; [exact LR|]. cbn; lia.
    - cbn [serve]. destruct (turn_line rcv src q t IV) as [(rcv' & src' & q' & -> & IV' & PR)|(rcv' & src' & E & LR & LE1 & SR)].
      + cbn [waiting]. destruct (IH rcv' src' q' IV') as [(rcv1 & s1 & q1 & A1 & A2 & A3 & A4)|X]; [|right; exact X].
        left. exists rcv1, s1, q1. do 3 (split; [assumption|]). intros F. inversion F as [|? ? F1 F2]; subst. specialize (A4 F2). specialize (PR F1). cbn [length]. lia.
      + unfold line_end in LE1. replace (8000 <=? Z.of_nat (length l + 2))%Z with false in LE1 by (symmetry; apply Z.leb_gt; exact LE). rewrite PB in LE1.
        destruct (turn e q src false t) as [[v s]|u]; [|discriminate LE1]. injection LE1 as ->. cbn [waiting]. right. exists rcv', src', ts.
        destruct (SR _ _ eq_refl) as [->|(_ & r & X)]; [auto|congruence]. }
  exact (G ts [] _ q IV).
Qed.
(** A line of 8000 bytes or more: the 414 response dereferences a NULL request line. *)
Lemma long_line junk ts : ~ In 10%N junk -> (8000 <= Z.of_nat (length l + 2))%Z ->
  exists q, init_req junk (e_max e) per = Some q /\
  ((exists rcv src q', serve e q stream_of false ts = Ok (VWait q', src, []) /\ stream_of = rcv ++ src /\ length rcv < length l + 2 /\ (Forall (fun t => t <> []) ts -> length ts <= length rcv)) \/
   serve e q stream_of false ts = UB NullDeref).
Proof.
  intros J LE. destruct (line_init junk J) as (q & I & IV). exists q. split; [exact I|]. clear I.
  assert (G : forall ts rcv src q, LInv rcv src q -> 
    (exists rcv1 src' q', serve e q src false ts = Ok (VWait q', src', []) /\ stream_of = rcv1 ++ src' /\ length rcv1 < length l + 2 /\ (Forall (fun t => t <> []) ts -> length rcv + length ts <= length rcv1)) \/
    serve e q src false ts = UB NullDeref).
  { clear ts q IV. induction ts as [|t ts IH]; intros rcv src q IV.
    - left. exists rcv, src, q. destruct IV as (E & LR & _). split; [reflexivity|]. split; [exact E|]. split; [exact LR|]. cbn; lia.
    - cbn [serve]. destruct (turn_line rcv src q t IV) as [(rcv' & src' & q' & -> & IV' & PR)|(rcv' & src' & E & LR & LE1 & SR)].
      + cbn [waiting]. destruct (IH rcv' src' q' IV') as [(rcv1 & s1 & q1 & A1 & A2 & A3 & A4)|X]; [|right; exact X].
        left. exists rcv1, s1, q1. do 3 (split; [assumption|]). intros F. inversion F as [|? ? F1 F2]; subst. specialize (A4 F2). specialize (PR F1). cbn [length]. lia.
      + unfold line_end in LE1. replace (8000 <=? Z.of_nat (length l + 2))%Z with true in LE1 by (symmetry; apply Z.leb_le; exact LE).
        destruct (turn e q src false t) as [[v s]|u]; [discriminate LE1|]. injection LE1 as ->. right. reflexivity. }
  exact (G ts [] _ q IV).
Qed.
End LINE.

(** ** The Accept checks *)
(** The value of the first field with property [P]. *)
Definition picks (P : field -> Prop) (fs : list field) (v : option (list N)) : Prop :=
  match v with
  | Some x => exists a f c, fs = a ++ f :: c /\ P f /\ Forall (fun g => ~ P g) a /\ x = f_value f
  | None => Forall (fun g => ~ P g) fs
  end.
(** The fields the checks look at: any name that begins with accept-encoding, and exact names otherwise. *)
Definition of_encoding (f : field) : Prop := (exists t, map lowercase (f_name f) = bs "accept-encoding" ++ t) /\ f_value f <> [].
Definition of_mime (f : field) : Prop := same_name (f_name f) (bs "Accept").
Definition of_charset (f : field) : Prop := same_name (f_name f) (bs "Accept-Charset") /\ f_value f <> [].
Definition of_language (f : field) : Prop := same_name (f_name f) (bs "Accept-Language").
Lemma picks_loop (find : list hdr -> outcome (option (list N))) (P : field -> Prop) :
  find [] = Ok None ->
  (forall f t, field_ok f -> (P f /\ find (delivered f :: t) = Ok (Some (f_value f))) \/ (~ P f /\ find (delivered f :: t) = find t)) ->
  forall fs, Forall field_ok fs -> exists v, find (map delivered fs) = Ok v /\ picks P fs v.
Proof.
  intros H0 H1. induction 1 as [|f fs FO F IH]; [exists None; split; [exact H0|constructor]|]. cbn [map].
  destruct (H1 f (map delivered fs) FO) as [(Pf & E)|(Pf & E)]; rewrite E.
  - eexists. split; [reflexivity|]. exists [], f, fs. auto.
  - destruct IH as (v & V & PV). exists v. split; [exact V|]. destruct v as [x|]; cbn [picks] in *; [|constructor; assumption].
    destruct PV as (a & g & c & -> & PG & NA & ->). exists (f :: a), g, c. auto.
Qed.
Lemma picks_lookup find P fs : find [] = Ok None ->
  (forall f t, field_ok f -> (P f /\ find (delivered f :: t) = Ok (Some (f_value f))) \/ (~ P f /\ find (delivered f :: t) = find t)) ->
  Forall field_ok fs -> exists v, lookup find (mkHci (map delivered fs) (length fs)) = Ok v /\ picks P fs v.
Proof.
  intros H0 H1 F. unfold lookup. cbn [hc_count hc_chain]. destruct fs as [|f fs]; [exists None; split; [reflexivity|constructor]|]. cbn [length Nat.eqb].
  apply picks_loop; assumption.
Qed.
Lemma lower_name f x : field_ok f -> strcmp_eqb (cstr (map lowercase (f_name f))) (map lowercase x) = true <-> same_name (f_name f) x.
Proof.
  intros (_ & N2 & _). rewrite (cstr_no_nul _ (name_no_nul _ N2)). unfold strcmp_eqb, same_name. split; [apply bytes_eqb_eq|]. intros ->. apply bytes_eqb_refl.
Qed.
Lemma name_cons f : field_ok f -> exists x n, map lowercase (f_name f) = x :: n.
Proof. intros (N1 & _). destruct (f_name f); [contradiction|]. cbn. eauto. Qed.
Lemma find_ae_spec f t : field_ok f -> (of_encoding f /\ find_ae (delivered f :: t) = Ok (Some (f_value f))) \/ (~ of_encoding f /\ find_ae (delivered f :: t) = find_ae t).
Proof.
  intros FO. destruct (name_cons f FO) as (x & n & EN). unfold of_encoding. cbn [find_ae delivered h_name h_value]. rewrite EN.
  destruct (f_value f) as [|y v] eqn:EV; [right; split; [intros (_ & Q); congruence|reflexivity]|]. rewrite <- EN.
  destruct FO as (_ & N2 & _). rewrite (cstr_no_nul _ (name_no_nul _ N2)). change 15 with (length (bs "accept-encoding")). rewrite strncmp_prefix.
  destruct (is_prefix (bs "accept-encoding") (map lowercase (f_name f))) eqn:PX.
  - left. apply is_prefix_spec in PX as (u & PX). split; [split; [eauto|discriminate]|reflexivity].
  - right. split; [|reflexivity]. intros ((u & Q) & _). assert (is_prefix (bs "accept-encoding") (map lowercase (f_name f)) = true); [|congruence].
    apply is_prefix_spec. eauto.
Qed.
Lemma find_am_spec f t : field_ok f -> (of_mime f /\ find_am (delivered f :: t) = Ok (Some (f_value f))) \/ (~ of_mime f /\ find_am (delivered f :: t) = find_am t).
Proof.
  intros FO. destruct (name_cons f FO) as (x & n & EN). unfold of_mime. cbn [find_am delivered h_name h_value]. rewrite EN. rewrite <- EN.
  pose proof (lower_name f (bs "Accept") FO) as LN. change (map lowercase (bs "Accept")) with (bs "accept") in LN.
  assert (UP : strcmp_eqb (cstr (map lowercase (f_name f))) (bs "Accept") = false).
  { destruct FO as (_ & N2 & _). rewrite (cstr_no_nul _ (name_no_nul _ N2)). apply not_true_iff_false. intros Q. apply bytes_eqb_eq in Q. rewrite EN in Q. injection Q as Q _.
    destruct (f_name f) as [|c r]; [discriminate EN|]. injection EN as EN _. rewrite Q in EN. rewrite <- lower_lowercase in EN. unfold lower in EN. destruct (_ && _)%bool eqn:B; lia. }
  rewrite UP. cbn [orb]. destruct (strcmp_eqb _ (bs "accept")); [left|right]; (split; [|reflexivity]); [apply LN; reflexivity|]. intros Q. apply LN in Q. discriminate Q.
Qed.
Lemma find_ac_spec f t : field_ok f -> (of_charset f /\ find_ac (delivered f :: t) = Ok (Some (f_value f))) \/ (~ of_charset f /\ find_ac (delivered f :: t) = find_ac t).
Proof.
  intros FO. destruct (name_cons f FO) as (x & n & EN). unfold of_charset. cbn [find_ac delivered h_name h_value]. rewrite EN.
  destruct (f_value f) as [|y v] eqn:EV; [right; split; [intros (_ & Q); congruence|reflexivity]|]. rewrite <- EN.
  pose proof (lower_name f (bs "Accept-Charset") FO) as LN. change (map lowercase (bs "Accept-Charset")) with (bs "accept-charset") in LN.
  destruct (strcmp_eqb _ (bs "accept-charset")); [left|right]; (split; [|reflexivity]); [split; [apply LN; reflexivity|discriminate]|]. intros (Q & _). apply LN in Q. discriminate Q.
Qed.
Lemma find_al_spec f t : field_ok f -> (of_language f /\ find_al (delivered f :: t) = Ok (Some (f_value f))) \/ (~ of_language f /\ find_al (delivered f :: t) = find_al t).
Proof.
  intros FO. destruct (name_cons f FO) as (x & n & EN). unfold of_language. cbn [find_al delivered h_name h_value]. rewrite EN. rewrite <- EN.
  pose proof (lower_name f (bs "Accept-Language") FO) as LN. change (map lowercase (bs "Accept-Language")) with (bs "accept-language") in LN.
  destruct (strcmp_eqb _ (bs "accept-language")); [left|right]; (split; [|reflexivity]); [apply LN; reflexivity|]. intros Q. apply LN in Q. discriminate Q.
Qed.
(** [None]: nothing objects. *)
Definition enc_says (r : AcceptEnc.enc_outcome) : option seen :=
  match r with AcceptEnc.Enc400 => Some (SStatus 400) | AcceptEnc.Enc406 => Some (SStatus 406) | AcceptEnc.EncOk _ _ => None end.
Definition mime_says (r : AcceptMime.am_result) : option seen :=
  match r with AcceptMime.Am400 => Some (SStatus 400) | AcceptMime.Am406 => Some (SStatus 406) | AcceptMime.AmError => Some SError | AcceptMime.AmOk _ => None end.
Definition cl_says (r : AcceptCL.cl_outcome) : option seen :=
  match r with AcceptCL.Cl400 => Some (SStatus 400) | AcceptCL.Cl406 => Some (SStatus 406) | AcceptCL.ClOk _ => None end.
(** The first check that objects decides: encoding, media type, charset, language. *)
Inductive accept_says (fs : list field) : option seen -> Prop :=
| as_enc v r s : picks of_encoding fs v -> AcceptEnc.accept_encoding v = Ok r -> enc_says r = Some s -> accept_says fs (Some s)
| as_mime v r v1 r1 s : picks of_encoding fs v -> AcceptEnc.accept_encoding v = Ok r -> enc_says r = None ->
    picks of_mime fs v1 -> AcceptMime.fly_accept_mime v1 = Ok r1 -> mime_says r1 = Some s -> accept_says fs (Some s)
| as_charset v r v1 r1 v2 r2 s : picks of_encoding fs v -> AcceptEnc.accept_encoding v = Ok r -> enc_says r = None ->
    picks of_mime fs v1 -> AcceptMime.fly_accept_mime v1 = Ok r1 -> mime_says r1 = None ->
    picks of_charset fs v2 -> AcceptCL.fly_accept_charset v2 = Ok r2 -> cl_says r2 = Some s -> accept_says fs (Some s)
| as_language v r v1 r1 v2 r2 v3 r3 o : picks of_encoding fs v -> AcceptEnc.accept_encoding v = Ok r -> enc_says r = None ->
    picks of_mime fs v1 -> AcceptMime.fly_accept_mime v1 = Ok r1 -> mime_says r1 = None ->
    picks of_charset fs v2 -> AcceptCL.fly_accept_charset v2 = Ok r2 -> cl_says r2 = None ->
    picks of_language fs v3 -> AcceptCL.fly_accept_language v3 = Ok r3 -> cl_says r3 = o -> accept_says fs o.
Lemma picks_fun P fs v w : picks P fs v -> picks P fs w -> v = w.
Proof.
  assert (G : forall fs x w, picks P fs (Some x) -> picks P fs w -> w = Some x).
  { clear. intros fs x w (a & f & c & -> & PF & NA & ->) W. destruct w as [y|]; cbn [picks] in W.
    - destruct W as (a' & f' & c' & E & PF' & NA' & ->). revert a' E NA'. induction NA as [|g a NG NA IH]; intros [|g' a'] E NA'; cbn [app] in E.
      + injection E as -> _. reflexivity.
      + injection E as -> _. inversion NA'; contradiction.
      + injection E as -> _. contradiction.
      + injection E as -> E. apply (IH a' E). inversion NA'; assumption.
    - exfalso. rewrite Forall_app in W. destruct W as (_ & W). inversion W; contradiction. }
  intros V W. destruct v as [x|]; [symmetry; eapply G; eauto|]. destruct w as [y|]; [|reflexivity]. eapply G; eauto.
Qed.
Definition as_seen (a : option (option N)) : option seen := match a with Some (Some n) => Some (SStatus n) | Some None => Some SError | None => None end.
Lemma accept_phase_says fs o : Forall field_ok fs -> accept_says fs o -> exists a, accept_phase (mkHci (map delivered fs) (length fs)) = Ok a /\ as_seen a = o.
Proof.
  intros F S. unfold accept_phase.
  destruct (picks_lookup find_ae of_encoding fs eq_refl find_ae_spec F) as (w & -> & W). cbn [obind].
  destruct (picks_lookup find_am of_mime fs eq_refl find_am_spec F) as (w1 & L1 & W1).
  destruct (picks_lookup find_ac of_charset fs eq_refl find_ac_spec F) as (w2 & L2 & W2).
  destruct (picks_lookup find_al of_language fs eq_refl find_al_spec F) as (w3 & L3 & W3).
  inversion S as [v r s V R E|v r v1 r1 s V R E V1 R1 E1|v r v1 r1 v2 r2 s V R E V1 R1 E1 V2 R2 E2|v r v1 r1 v2 r2 v3 r3 o' V R E V1 R1 E1 V2 R2 E2 V3 R3 E3]; subst;
    rewrite (picks_fun _ _ _ _ W V), R; cbn [obind]; (destruct r; cbn [enc_says] in E; try discriminate E); try (injection E as <-; eexists; split; reflexivity);
    rewrite L1; cbn [obind]; rewrite (picks_fun _ _ _ _ W1 V1), R1; cbn [obind]; (destruct r1; cbn [mime_says] in E1; try discriminate E1); try (injection E1 as <-; eexists; split; reflexivity);
    rewrite L2; cbn [obind]; rewrite (picks_fun _ _ _ _ W2 V2), R2; cbn [obind]; (destruct r2; cbn [cl_says] in E2; try discriminate E2); try (injection E2 as <-; eexists; split; reflexivity);
    rewrite L3; cbn [obind]; rewrite (picks_fun _ _ _ _ W3 V3), R3; cbn [obind]; destruct r3; eexists; split; reflexivity.
Qed.

(** ** The answer *)
(** The length of the body a request declares: 0 without the field, otherwise the decimal digits of the first one. *)
Definition declares (fs : list field) (n : nat) : Prop :=
  (no_field fs (bs "Content-Length") /\ n = 0) \/
  (exists f, first_field fs (bs "Content-Length") f /\ Forall (fun b => is_digit b = true) (f_value f) /\ f_value f <> [] /\ N.of_nat n = dec_value (f_value f) /\ (Z.of_nat n <= long_max)%Z).
Definition expects_100 (fs : list field) : Prop := exists f, In f fs /\ same_name (f_name f) (bs "Expect") /\ same_name (f_value f) (bs "100-continue").
Inductive answered (e : env) (sp : list MountProofs.smount) (r : reqline) (m : method) (p : list N) (fs : list field) (n : nat) (payload : list N) : seen -> Prop :=
| an_refused s : accept_says fs (Some s) -> answered e sp r m p fs n payload s
| an_417 : accept_says fs None -> n <> 0 -> expects_100 fs -> e_max e < n -> answered e sp r m p fs n payload (SStatus 417)
| an_100 : accept_says fs None -> n <> 0 -> expects_100 fs -> n <= e_max e -> answered e sp r m p fs n payload (SStatus 100)
| an_413 : accept_says fs None -> n <> 0 -> ~ expects_100 fs -> e_max e < n -> answered e sp r m p fs n payload (SStatus 413)
| an_empty s : accept_says fs None -> n = 0 -> dispatched e sp r m p fs None s -> answered e sp r m p fs n payload s
| an_body s : accept_says fs None -> n <> 0 -> ~ expects_100 fs -> n <= e_max e -> dispatched e sp r m p fs (Some (firstn n payload)) s -> answered e sp r m p fs n payload s.
(** The number of bytes behind the header block that must have arrived before the answer is given. *)
Definition awaited (fs : list field) (n k : nat) : Prop :=
  (accept_says fs None /\ ~ expects_100 fs /\ k = n) \/ (accept_says fs None /\ expects_100 fs /\ k = 0) \/ (exists s, accept_says fs (Some s) /\ k = 0).
(** A request for which the theorem speaks: an accepted HTTP/1.1 line, well-formed fields, at least one, the line and the
    fields within one block of the buffer, and everything sent within the buffer unless the declared length is over the
    limit. *)
Definition fits (e : env) (per : nat) (l : list N) (m : method) (r : reqline) (fs : list field) (n : nat) (payload : list N) : Prop :=
  ~ In 10%N l /\ fly_line (l ++ CRLF) m (l_uri r) (l_query r) V1_1 /\ l_method r = Some m /\ l_version r = Some V1_1 /\ (Z.of_nat (length l + 2) < 8000)%Z /\
  Forall field_ok fs /\ fs <> [] /\ length (l ++ CRLF ++ section fs) < per /\
  (if e_max e <? n then per <= e_max e else length (l ++ CRLF ++ section fs ++ payload) < connect_chain_max (e_max e) per * per).
Lemma declares_length fs n : Forall field_ok fs -> declares fs n -> content_length (mkHci (map delivered fs) (length fs)) = Ok (Z.of_nat n) /\ (Z.of_nat n < 2 ^ 64)%Z.
Proof.
  intros F [(NF & ->)|(f & FF & DG & NV & EN & LM)].
  - split; [apply content_length_absent; assumption|reflexivity].
  - split; [|unfold long_max in LM; lia]. rewrite (content_length_found fs f (f_value f) F FF DG NV eq_refl). f_equal. rewrite <- EN. lia.
Qed.
(** ** Progress *)
(** While bytes are there, every turn of the event loop that finds some takes at least one. *)
Lemma receive_shrinks fin : forall os q src got st q' src' os', receive q src fin os got = Ok (st, q', src', os') -> length src' <= length src.
Proof.
  induction os as [|(k, junk) os IH]; intros q src got st q' src' os' E; cbn [receive] in E; [injection E as _ _ <- _; lia|].
  destruct src as [|x src0]; [destruct fin; injection E as _ _ <- _; cbn; lia|]. set (src := x :: src0) in *.
  set (d := firstn (Nat.min (S k) (lunuse_len (q_buf q))) src) in *. pose proof (skipn_length (length d) src) as LS. destruct d as [|d0 d1] eqn:ED; [injection E as _ _ <- _; lia|].
  rewrite <- ED in *.
  destruct (if q_sl q then _ else _) as [sl|u]; cbn [obind] in E; [|discriminate E]. destruct (if q_hd q then _ else _) as [hd|u]; cbn [obind] in E; [|discriminate E].
  destruct (q_disc q); [apply IH in E; lia|]. destruct (update_buffer _ _ _) as [[b2|b2]|u]; cbn [obind] in E; try discriminate E.
  - destruct (sl || hd); [injection E as _ _ <- _; lia|apply IH in E; lia].
  - injection E as _ _ <- _; lia.
Qed.
Lemma receive_takes fin os q src got st q' src' os' : 0 < lunuse_len (q_buf q) -> os <> [] -> src <> [] -> receive q src fin os got = Ok (st, q', src', os') -> length src' < length src.
Proof.
  intros LU NO NS E. destruct os as [|(k, junk) os]; [contradiction|]. destruct src as [|x src0]; [contradiction|]. cbn [receive] in E. set (src := x :: src0) in *.
  set (d := firstn (Nat.min (S k) (lunuse_len (q_buf q))) src) in *. pose proof (skipn_length (length d) src) as LS.
  assert (DN : length d <> 0). { unfold d, src. rewrite firstn_length. cbn [length]. lia. } assert (LN : length src <> 0) by discriminate.
  destruct d as [|d0 d1] eqn:ED; [contradiction|]. rewrite <- ED in *.
  destruct (if q_sl q then _ else _) as [sl|u]; cbn [obind] in E; [|discriminate E]. destruct (if q_hd q then _ else _) as [hd|u]; cbn [obind] in E; [|discriminate E].
  destruct (q_disc q); [apply receive_shrinks in E; lia|]. destruct (update_buffer _ _ _) as [[b2|b2]|u]; cbn [obind] in E; try discriminate E.
  - destruct (sl || hd); [injection E as _ _ <- _; lia|apply receive_shrinks in E; lia].
  - injection E as _ _ <- _; lia.
Qed.
Lemma obind_src (o : outcome verdict) (src : list N) v src' : obind o (fun v => Ok (v, src)) = Ok (v, src') -> src' = src.
Proof. destruct o; [|discriminate]. cbn. intros E. injection E as _ <-. reflexivity. Qed.
Lemma discard_shrinks q cl src fin os v src' : discard q cl src fin os = Ok (v, src') -> length src' <= length src.
Proof.
  unfold discard. intros E. destruct (cl <=? _)%Z; [apply obind_src in E as ->; lia|]. destruct (receive _ _ _ _ _) as [[[[st q2] s2] o2]|u] eqn:R; [|discriminate E]. cbn [obind] in E. apply receive_shrinks in R.
  destruct st; try (injection E as _ <-; exact R); (destruct (_ <? _)%Z; [injection E as _ <-; exact R|apply obind_src in E as ->; exact R]).
Qed.
Lemma body_shrinks e q src fin os v src' : body_phase e q src fin os = Ok (v, src') -> length src' <= length src.
Proof.
  unfold body_phase. intros E. destruct (content_length _) as [z|u]; cbn [obind] in E; [|discriminate E]. destruct (check_expect_100 _) as [ex|u]; cbn [obind] in E; [|discriminate E].
  destruct ex; [apply obind_src in E as ->; lia|]. destruct (_ <? _)%Z; [exact (discard_shrinks _ _ _ _ _ _ _ E)|]. destruct (_ || _)%bool; [injection E as _ <-; lia|].
  destruct (content_encoding _) as [[ce|]|u]; cbn [obind] in E; [| |discriminate E].
  - destruct (AcceptEnc.supported_content_encoding _); cbn [obind] in E; [|discriminate E]. injection E as _ <-. lia.
  - destruct (b_chains _); [discriminate E|]. destruct (memcpy _ _ _ _) as [d|u]; cbn [obind] in E; [|discriminate E]. destruct (release _ _) as [b|u]; cbn [obind] in E; [|discriminate E].
    apply obind_src in E as ->; lia.
Qed.
Lemma header_shrinks e q src fin os v src' : header_phase e q src fin os = Ok (v, src') -> length src' <= length src.
Proof.
  unfold header_phase. intros E. destruct (negb _); [injection E as _ <-; lia|]. destruct (_ =? 0); [injection E as _ <-; lia|].
  destruct (reqheader_operation _) as [[ci b|ci b|ci b]|u]; cbn [obind] in E; try discriminate E.
  1: destruct (accept_phase ci) as [[[k|]|]|u]; cbn [obind] in E; try discriminate E; [apply obind_src in E as ->; lia|injection E as _ <-; lia|].
    destruct (content_length ci) as [z|u]; cbn [obind] in E; [|discriminate E]. destruct (z =? 0)%Z; [apply obind_src in E as ->; lia|exact (body_shrinks _ _ _ _ _ _ _ E)].
  all: first [injection E as _ <-|apply obind_src in E as ->]; lia.
Qed.
Lemma line_shrinks e q src fin os v src' : line_phase e q src fin os = Ok (v, src') -> length src' <= length src.
Proof.
  unfold line_phase. intros E. destruct (request_operation _) as [[| | |l b]|u]; cbn [obind] in E; try discriminate E; try (injection E as _ <-; lia).
  - apply obind_src in E as ->; lia.
  - exact (header_shrinks _ _ _ _ _ _ _ E).
Qed.
Lemma turn_shrinks e q src os v src' : turn e q src false os = Ok (v, src') -> length src' <= length src.
Proof.
  unfold turn. intros E. destruct (q_disc q); [exact (body_shrinks _ _ _ _ _ _ _ E)|]. destruct (receive _ _ _ _ _) as [[[[st q2] s2] o2]|u] eqn:R; [|discriminate E]. cbn [obind] in E. apply receive_shrinks in R.
  destruct st; try (injection E as _ <-; exact R); try (apply obind_src in E as ->; exact R).
  destruct (q_phase q2); first [apply line_shrinks in E|apply header_shrinks in E|apply body_shrinks in E]; lia.
Qed.
Lemma serve_shrinks e : forall ts q src v src' x, serve e q src false ts = Ok (v, src', x) -> length src' <= length src.
Proof.
  induction ts as [|t ts IH]; intros q src v s2 x E; cbn [serve] in E; [injection E as _ <- _; lia|]. destruct (turn e q src false t) as [(v0, s0)|u] eqn:ET; [|discriminate E]. apply turn_shrinks in ET.
  destruct (waiting v0); [apply IH in E; lia|injection E as _ <- _; assumption].
Qed.
Lemma turn_takes e q src os v src' : q_disc q = false -> 0 < lunuse_len (q_buf q) -> os <> [] -> src <> [] -> turn e q src false os = Ok (v, src') -> length src' < length src.
Proof.
  unfold turn. intros QD LU NO NS E. rewrite QD in E. destruct (receive _ _ _ _ _) as [[[[st q2] s2] o2]|u] eqn:R; [|discriminate E]. cbn [obind] in E. apply receive_takes in R; auto.
  destruct st; try (injection E as _ <-; exact R); try (apply obind_src in E as ->; exact R).
  destruct (q_phase q2); first [apply line_shrinks in E|apply header_shrinks in E|apply body_shrinks in E]; lia.
Qed.

(** ** What is answered *)
Theorem request_settled e os per l m r p fs n payload junk ts o : fits e per l m r fs n payload -> served e os r m p -> declares fs n -> accept_says fs o -> ~ In 10%N junk ->
  let all := l ++ CRLF ++ section fs ++ payload in
  exists q k, init_req junk (e_max e) per = Some q /\ awaited fs n k /\
  ((exists rcv src q', serve e q all false ts = Ok (VWait q', src, []) /\ all = rcv ++ src /\ length rcv < length (l ++ CRLF ++ section fs) + k /\
      (src = [] \/ (Forall (fun t => t <> []) ts -> length ts <= length rcv))) \/
   (exists rcv src v ts', serve e q all false ts = Ok (v, src, ts') /\ all = rcv ++ src /\ length (l ++ CRLF ++ section fs) + k <= length rcv /\
      answered e (MountProofs.srun [] os) r m p fs n payload (view v) /\ settled r (mkHci (map delivered fs) (length fs)) v)).
Proof.
  intros (NL & FL & LMM & LV & LEN & FS & NE & FIT & CAP) SV DC AS J all.
  assert (PR : parse_reqline (l ++ CRLF) = Ok (Some r)).
  { apply reqline_exact in FL. destruct r as [lm lu lq lv]. cbn [l_uri l_query l_method l_version] in *. subst. exact FL. }
  destruct (accept_phase_says fs o FS AS) as (a & AC & AO).
  destruct (declares_length fs n FS DC) as (CL & NB).
  destruct (expect_spec fs FS) as (ex & EX & EXS). fold (expects_100 fs) in EXS.
  pose proof (content_encoding_none fs FS) as CE.
  assert (ALL : all = sent l fs payload) by (unfold all, sent, text; rewrite <- !app_assoc; reflexivity).
  assert (CAP' : per < connect_chain_max (e_max e) per * per \/ length (sent l fs payload) < connect_chain_max (e_max e) per * per).
  { destruct (Nat.ltb_spec (e_max e) n); [left|right; rewrite <- ALL; exact CAP]. unfold connect_chain_max. assert (per <> 0) by lia.
    pose proof (Nat.div_le_mono per (e_max e) per ltac:(assumption) CAP) as D. rewrite Nat.div_same in D by assumption. clear -D H0. nia. }
  assert (CAP1 : a = None -> ex = false -> n <> 0 -> n <= e_max e -> length (sent l fs payload) < connect_chain_max (e_max e) per * per).
  { intros _ _ _ LE. replace (e_max e <? n) with false in CAP by (symmetry; apply Nat.ltb_ge; exact LE). rewrite <- ALL. exact CAP. }
  destruct (init_inv e per l r fs payload LEN FIT CAP' a n ex EX CAP1 junk J) as (q & I & IV).
  exists q, (need l fs a n ex - length (text l fs)). split; [exact I|].
  assert (NT : length (text l fs) <= need l fs a n ex) by (unfold need; lia).
  assert (AW : awaited fs n (need l fs a n ex - length (text l fs))).
  { unfold awaited, need. replace (_ + _ - _) with (match a with None => if ex then 0 else n | _ => 0 end) by lia. destruct a as [a|].
    - right; right. destruct o as [s|]; [exists s; auto|]. destruct a; discriminate AO.
    - cbn in AO. subst o. destruct ex; [right; left|left]; (split; [exact AS|]); (split; [|reflexivity]); [apply EXS; reflexivity|]. intros Q. apply EXS in Q. discriminate Q. }
  split; [exact AW|]. rewrite ALL.
  replace (length (l ++ CRLF ++ section fs) + (need l fs a n ex - length (text l fs))) with (need l fs a n ex) by (unfold text in *; lia).
  assert (PG : forall ts rcv src q, Inv e per l r fs payload a n ex rcv src q -> (exists q' src', serve e q src false ts = Ok (VWait q', src', [])) ->
    exists rcv' src' q', serve e q src false ts = Ok (VWait q', src', []) /\ Inv e per l r fs payload a n ex rcv' src' q' /\ (src' = [] \/ (Forall (fun t => t <> []) ts -> length rcv + length ts <= length rcv'))).
  { clear ts q I IV. induction ts as [|t ts IH]; intros rcv src q IV (q9 & s9 & S9).
    - exists rcv, src, q. split; [reflexivity|]. split; [exact IV|]. right. cbn; lia.
    - cbn [serve] in *. pose proof (turn_ok e per l r fs payload NL PR LEN FS NE FIT CAP' LV a n ex AC CL NB EX CE CAP1 rcv src q t IV) as T.
      destruct T as [(rcv' & q' & src' & T & IV')|[(rcv' & src' & v & s & _ & _ & T & _ & _ & (WT & _))|(u & T & _)]]; [|rewrite T, WT in S9; injection S9 as -> _ _; discriminate WT|rewrite T in S9; discriminate S9].
      rewrite T in S9 |- *. cbn [waiting] in S9 |- *. destruct (IH rcv' src' q' IV' (ex_intro _ q9 (ex_intro _ s9 S9))) as (rcv2 & src2 & q2 & A1 & A2 & A3).
      exists rcv2, src2, q2. split; [exact A1|]. split; [exact A2|]. destruct A3 as [A3|A3]; [left; exact A3|]. destruct src as [|x0 src0] eqn:ES.
      + left. destruct IV as (EE & _). destruct A2 as (EE2 & _).
        apply serve_shrinks in A1. apply turn_shrinks in T. destruct src2; [reflexivity|cbn [length] in *; lia].
      + right. rewrite <- ES in *. assert (NS : src <> []) by (rewrite ES; discriminate). intros F. inversion F as [|? ? F1 F2]; subst x l0. specialize (A3 F2).
        assert (TK : length src' < length src).
        { destruct IV as (EE & NDD & [IV|[IV|[IV|IV]]]).
          - destruct IV as (_ & _ & _ & QD & _ & _ & CB & LR). apply (turn_takes _ _ _ _ _ _ QD) in T; auto. destruct CB as (tl & -> & LT & _). unfold lunuse_len. clear -FIT LT LR. rewrite !app_length in FIT. cbn in *. lia.
          - destruct IV as (_ & _ & _ & QD & _ & _ & _ & CB & LR). apply (turn_takes _ _ _ _ _ _ QD) in T; auto. destruct CB as (tl & -> & LT & _). unfold lunuse_len. clear -FIT LT LR. unfold text in LR. rewrite !app_length in *. cbn in *. lia.
          - destruct IV as (_ & _ & _ & QD & _ & _ & _ & W & _). apply (turn_takes _ _ _ _ _ _ QD) in T; auto. apply spare_lunuse, wf_spare, W.
          - destruct IV as (QP & QS & QH & QD & QL & QC & SP & DL & TR & A0 & N0 & E0 & OV). unfold turn in T. rewrite QD in T. unfold body_phase in T. cbn [set_phase q_hdr] in T. rewrite QC, CL in T. cbn [obind] in T. assert (SN : size_t (Z.of_nat n) = Z.of_nat n) by (unfold size_t; apply Z.mod_small; lia). rewrite SN, EX in T. cbn [obind] in T. rewrite E0 in T.
            replace (Z.of_nat (e_max e) <? Z.of_nat n)%Z with true in T by (symmetry; apply Z.ltb_lt; lia). unfold discard in T. destruct (_ <=? _)%Z; [cbn in T; discriminate T|].
            destruct (receive _ _ _ _ _) as [[[[st q3] s3] o2]|u] eqn:R; [|discriminate T]. cbn [obind] in T. apply receive_takes in R; auto; [|cbn [set_disc set_phase q_buf]; apply spare_lunuse, SP].
            destruct st; try (injection T as _ <-; exact R); (destruct (_ <? _)%Z; [injection T as _ <-; exact R|cbn in T; discriminate T]). }
        destruct IV as (EE & _). destruct IV' as (EE' & _). rewrite EE in EE'. apply (f_equal (@length N)) in EE'. rewrite !app_length in EE'. cbn [length]. lia. }
  destruct (serve_ok e per l r fs payload NL PR LEN FS NE FIT CAP' LV a n ex AC CL NB EX CE CAP1 ts [] (sent l fs payload) q IV) as [(rcv0 & src0 & q0' & E0 & _)|[(rcv & src & v & s & ts' & E1 & E2 & E & D & V & ST)|(u & E & D)]].
  - left. destruct (PG ts [] (sent l fs payload) q IV (ex_intro _ q0' (ex_intro _ src0 E0))) as (rcv & src & q' & E & (E1 & E2 & _) & P). exists rcv, src, q'. auto.
  - right. exists rcv, src, v, ts'. split; [exact E|]. split; [exact E1|]. split; [exact E2|]. split; [|exact ST]. rewrite V. unfold decision in D.
    destruct a as [[k|]|]; cbn [as_seen] in AO; subst o.
    + injection D as <-. apply an_refused. exact AS.
    + injection D as <-. apply an_refused. exact AS.
    + destruct (Nat.eqb_spec n 0) as [N0|N0].
      * destruct (final_spec e os r m p fs None FS SV) as (s' & F & DI). rewrite F in D. injection D as <-. apply an_empty; assumption.
      * destruct ex.
        { injection D as <-. destruct (Nat.ltb_spec (e_max e) n); [apply an_417|apply an_100]; auto; apply EXS; reflexivity. }
        assert (NX : ~ expects_100 fs) by (intros Q; apply EXS in Q; discriminate Q).
        destruct (Nat.ltb_spec (e_max e) n); [injection D as <-; apply an_413; auto|].
        destruct (final_spec e os r m p fs (Some (firstn n payload)) FS SV) as (s' & F & DI). rewrite F in D. injection D as <-. apply an_body; auto; lia.
  - exfalso. unfold decision in D. destruct a as [[k|]|]; try discriminate D. destruct (n =? 0).
    + destruct (final_spec e os r m p fs None FS SV) as (s' & F & _). rewrite F in D. discriminate D.
    + destruct ex; [discriminate D|]. destruct (e_max e <? n); [discriminate D|]. destruct (final_spec e os r m p fs (Some (firstn n payload)) FS SV) as (s' & F & _). rewrite F in D. discriminate D.
Qed.
Theorem request_answered e os per l m r p fs n payload junk ts o : fits e per l m r fs n payload -> served e os r m p -> declares fs n -> accept_says fs o -> ~ In 10%N junk ->
  let all := l ++ CRLF ++ section fs ++ payload in
  exists q k, init_req junk (e_max e) per = Some q /\ awaited fs n k /\
  ((exists rcv src q', serve e q all false ts = Ok (VWait q', src, []) /\ all = rcv ++ src /\ length rcv < length (l ++ CRLF ++ section fs) + k) \/
   (exists rcv src v ts', serve e q all false ts = Ok (v, src, ts') /\ all = rcv ++ src /\ length (l ++ CRLF ++ section fs) + k <= length rcv /\
      answered e (MountProofs.srun [] os) r m p fs n payload (view v))).
Proof.
  intros FT SV DC AS J all. destruct (request_settled e os per l m r p fs n payload junk ts o FT SV DC AS J) as (q & k & I & AW & R). exists q, k. split; [exact I|]. split; [exact AW|].
  destruct R as [(rcv & src & q' & E & E1 & L & _)|(rcv & src & v & ts' & E & E1 & L & AN & _)]; [left; exists rcv, src, q'|right; exists rcv, src, v, ts']; auto.
Qed.

(** ** One answer *)
Lemma says_fun fs o o' : accept_says fs o -> accept_says fs o' -> o = o'.
Proof.
  intros A B.
  inversion A as [v r s V R E|v r v1 r1 s V R E V1 R1 E1|v r v1 r1 v2 r2 s V R E V1 R1 E1 V2 R2 E2|v r v1 r1 v2 r2 v3 r3 o1 V R E V1 R1 E1 V2 R2 E2 V3 R3 E3]; subst;
  inversion B as [w t s' W T F|w t w1 t1 s' W T F W1 T1 F1|w t w1 t1 w2 t2 s' W T F W1 T1 F1 W2 T2 F2|w t w1 t1 w2 t2 w3 t3 o2 W T F W1 T1 F1 W2 T2 F2 W3 T3 F3]; subst;
    rewrite (picks_fun _ _ _ _ W V), R in T; injection T as <-; try congruence;
    rewrite (picks_fun _ _ _ _ W1 V1), R1 in T1; injection T1 as <-; try congruence;
    rewrite (picks_fun _ _ _ _ W2 V2), R2 in T2; injection T2 as <-; try congruence;
    rewrite (picks_fun _ _ _ _ W3 V3), R3 in T3; injection T3 as <-; congruence.
Qed.
Lemma first_fun {A} (P : A -> Prop) a x c a' x' c' : a ++ x :: c = a' ++ x' :: c' -> P x -> P x' -> Forall (fun y => ~ P y) a -> Forall (fun y => ~ P y) a' -> x = x'.
Proof.
  intros E PX PX' NA. revert a' E. induction NA as [|y a NY NA IH]; intros [|y' a'] E NA'; cbn [app] in E; injection E as -> E; auto.
  - inversion NA'; contradiction.
  - contradiction.
  - apply (IH a' E). inversion NA'; assumption.
Qed.
Lemma captured_fun rt uri ps ps' : captured rt uri ps -> captured rt uri ps' -> ps = ps'.
Proof.
  intros [(N1 & ->)|(pre & inner & v & p & t & E & NP & U & PS & ->)] [(N2 & ->)|(pre' & inner' & v' & p' & t' & E' & NP' & U' & PS' & ->)]; auto.
  - destruct N1. rewrite E'. apply in_or_app. right. left. reflexivity.
  - destruct N2. rewrite E. apply in_or_app. right. left. reflexivity.
  - rewrite E in E'. apply RouteProofs.split_unique in E' as (<- & _); auto. rewrite U in U'. apply app_inv_head in U' as <-. rewrite PS in PS'. injection PS' as <- _. reflexivity.
Qed.
Definition same_answer (sp : list MountProofs.smount) (w : list N) (m : method) (s s' : seen) : Prop :=
  s = s' \/ (exists f f', s = SFile f /\ s' = SFile f' /\ Mount.f_name f = Mount.f_name f') \/
  (m <> GET /\ MountProofs.registered sp w true /\ ((s = SStatus 404 /\ s' = SStatus 405) \/ (s = SStatus 405 /\ s' = SStatus 404))).
Lemma dispatched_fun e sp r m p fs body s s' : dispatched e sp r m p fs body s -> dispatched e sp r m p fs body s' -> same_answer sp (MountProofs.wanted (e_cfg e) p) m s s'.
Proof.
  intros A B.
  assert (NR : forall a rt c, e_regs e = a ++ rt :: c -> RouteProofs.selects rt (l_uri r) m -> Forall (fun x => ~ RouteProofs.selects x (l_uri r) m) (e_regs e) -> False).
  { intros a rt c -> S F. apply Forall_app in F as (_ & F). inversion F; contradiction. }
  inversion A as [a rt c ps E S F C EN|a rt c E S F EN|f F M FN RG|F M RG|F RG]; subst s; inversion B as [a' rt' c' ps' E' S' F' C' EN'|a' rt' c' E' S' F' EN'|f' F' M' FN' RG'|F' M' RG'|F' RG']; subst s';
    try (exfalso; eapply NR; eassumption); try (left; reflexivity); try contradiction.
  - left. rewrite E in E'. pose proof (first_fun (fun x => RouteProofs.selects x (l_uri r) m) _ _ _ _ _ _ E' S S' F F') as <-. rewrite (captured_fun _ _ _ _ C C'). reflexivity.
  - rewrite E in E'. pose proof (first_fun (fun x => RouteProofs.selects x (l_uri r) m) _ _ _ _ _ _ E' S S' F F') as <-. congruence.
  - rewrite E in E'. pose proof (first_fun (fun x => RouteProofs.selects x (l_uri r) m) _ _ _ _ _ _ E' S S' F F') as <-. congruence.
  - right; left. exists f, f'. rewrite FN, FN'. auto.
  - right; right. split; [exact M|]. split; [destruct RG as [RG|RG]; [contradiction|exact RG]|auto].
  - right; right. split; [exact M'|]. split; [destruct RG' as [RG'|RG']; [contradiction|exact RG']|auto].
Qed.
Theorem answer_unique e sp r m p fs n payload s s' : answered e sp r m p fs n payload s -> answered e sp r m p fs n payload s' ->
  same_answer sp (MountProofs.wanted (e_cfg e) p) m s s'.
Proof.
  intros A B.
  inversion A as [x S|S N0 X L|S N0 X L|S N0 X L|x S N0 D|x S N0 X L D]; subst; inversion B as [x' S' E'|S' N0' X' L'|S' N0' X' L'|S' N0' X' L'|x' S' N0' D'|x' S' N0' X' L' D']; subst;
    try (pose proof (says_fun _ _ _ S S') as Q; try discriminate Q); try (injection Q as <-); try contradiction; try (exfalso; lia); try (left; reflexivity); eapply dispatched_fun; eassumption.
Qed.
