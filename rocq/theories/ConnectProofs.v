(** Specification of new connections and proofs about Connect.v. *)
From Verif Require Import Base Names Connect.
Local Open Scope nat_scope.

(** ** What a client and an operator see: sockets, what each is at and what the worker waits for *)
Inductive phase := Fresh | Handshake | Speaking (v : version) | Refusing.
Record peer := mkPeer { p_fd : nat; p_phase : phase; p_row : row; p_deadline : Z }.
(** The protocol agreed on: h2 is HTTP/2, http/1.1 or nothing is HTTP/1.1; other names are not agreed on. *)
Definition protocol (alpn : list N) : option version :=
  if bytes_eqb alpn (bs "h2") then Some V2
  else if bytes_eqb alpn (bs "http/1.1") || bytes_eqb alpn [] then Some V1_1 else None.
(** What becomes of a connection: it goes on, or it is closed; [Trouble] is what the theorems exclude. *)
Inductive move := Goes (p : peer) | Closed | Trouble.
Definition served (now timeout : Z) (fd : nat) (dl : Z) (ph : phase) (s : serve) : move :=
  match s with
  | Keep r => Goes (mkPeer fd ph r dl)
  | Renew => Goes (mkPeer fd ph Rd (now + timeout)%Z)
  | Finish => Closed
  end.
Definition shaken (now timeout : Z) (p : peer) (a : answers) : move :=
  match a_tls a with
  | HsRead => Goes (mkPeer (p_fd p) Handshake Rd (p_deadline p))
  | HsWrite => Goes (mkPeer (p_fd p) Handshake Wr (p_deadline p))
  | HsFail => Closed
  | HsEof => Trouble
  | HsDone alpn => match protocol alpn with
                   | Some v => served now timeout (p_fd p) (p_deadline p) (Speaking v) (a_serve a)
                   | None => Trouble
                   end
  end.
(** The first byte decides: 22 opens a TLS handshake. *)
Definition moved (secure : bool) (timeout now : Z) (p : peer) (a : answers) : move :=
  match p_phase p with
  | Fresh =>
    match a_peek a with
    | PeekBlock => Goes (mkPeer (p_fd p) Fresh Rd (p_deadline p))
    | PeekEof => Closed
    | PeekFail => Trouble
    | PeekByte b =>
      match (b =? 22)%N, secure with
      | true, true => shaken now timeout p a
      | true, false => Closed
      | false, true => Goes (mkPeer (p_fd p) Refusing Wr (p_deadline p))
      | false, false => served now timeout (p_fd p) (p_deadline p) (Speaking V1_1) (a_serve a)
      end
    end
  | Handshake => shaken now timeout p a
  | ph => served now timeout (p_fd p) (p_deadline p) ph (a_serve a)
  end.
(** One report: about the listening socket [lf], or about the peer with that descriptor. *)
Fixpoint at_peer (f : peer -> move) (fd : nat) (l : list peer) : option (list peer) :=
  match l with
  | [] => None
  | p :: t =>
    if p_fd p =? fd then match f p with Goes p' => Some (p' :: t) | Closed => Some t | Trouble => None end
    else option_map (cons p) (at_peer f fd t)
  end.
Definition sp_report (secure : bool) (timeout : Z) (lf : nat) (now : Z) (l : list peer) (fd : nat) (a : answers) : option (list peer) :=
  if fd =? lf then
    match a_accept a with
    | AccBlock => Some l
    | Accepted nfd true => if existsb (Nat.eqb nfd) (lf :: map p_fd l) then None else Some (l ++ [mkPeer nfd Fresh Rd (now + timeout)%Z])
    | _ => None
    end
  else at_peer (fun p => moved secure timeout now p a) fd l.
Fixpoint sp_reports (secure : bool) (timeout : Z) (lf : nat) (now : Z) (l : list peer) (ready : list (nat * answers)) : option (list peer) :=
  match ready with
  | [] => Some l
  | (fd, a) :: t => match sp_report secure timeout lf now l fd a with Some l' => sp_reports secure timeout lf now l' t | None => None end
  end.
(** Timeouts: a connection that is past its deadline is closed when nothing is reported.  One that has not got as far as
    HTTP is trouble. *)
Definition early (p : peer) : bool := match p_phase p with Fresh | Handshake => true | _ => false end.
Definition overdue (now : Z) (p : peer) : bool := (p_deadline p <=? now)%Z.
(** A turn: epoll reports every descriptor at most once and only descriptors it was given. *)
Fixpoint distinct (l : list nat) : bool := match l with [] => true | x :: t => negb (existsb (Nat.eqb x) t) && distinct t end.
Definition lawful_reports (lf : nat) (l : list peer) (ready : list (nat * answers)) : bool :=
  distinct (map fst ready) && forallb (fun fd => existsb (Nat.eqb fd) (lf :: map p_fd l)) (map fst ready).
Definition sp_turn (secure : bool) (timeout : Z) (lf : nat) (now : Z) (ready : list (nat * answers)) (l : list peer) : option (list peer) :=
  match ready with
  | [] => if existsb (fun p => early p && overdue now p) l then None else Some (filter (fun p => negb (overdue now p)) l)
  | _ => if lawful_reports lf l ready then sp_reports secure timeout lf now l ready else None
  end.
(** The clock does not go back. *)
Fixpoint sp_turns (secure : bool) (timeout : Z) (lf : nat) (last : Z) (h : list (Z * list (nat * answers))) (l : list peer) : option (list peer) :=
  match h with
  | [] => Some l
  | (now, ready) :: t =>
    if (last <=? now)%Z then match sp_turn secure timeout lf now ready l with Some l' => sp_turns secure timeout lf now t l' | None => None end
    else None
  end.
(** What is seen of the worker. *)
Definition phase_of (h : handler) : option phase :=
  match h with HListen => None | HPeek => Some Fresh | HTls => Some Handshake | HHttp v => Some (Speaking v) | HRefuse => Some Refusing end.
Definition sees (lf : nat) (w : world) (l : list peer) : Prop :=
  w_open w = lf :: map p_fd l /\
  map (fun x => (fst x, snd (snd x))) (w_epoll w) = (lf, Rd) :: map (fun p => (p_fd p, p_row p)) l /\
  map (fun x => (e_fd (snd x), phase_of (e_handler (snd x)))) (w_events w) = (lf, None) :: map (fun p => (p_fd p, Some (p_phase p))) l.

(** ** Lists with keys *)
Lemma assoc_mid {A} k (v : A) l1 l2 : ~ In k (map fst l1) -> assoc k (l1 ++ (k, v) :: l2) = Some v.
Proof.
  induction l1 as [|[x y] t IH]; intros H; cbn [assoc app].
  - rewrite Nat.eqb_refl. reflexivity.
  - destruct (Nat.eqb_spec x k) as [->|N]; [destruct H; left; reflexivity|]. apply IH. intros X. apply H. right. exact X.
Qed.
Lemma change_out {A} k (f : A -> A) l : ~ In k (map fst l) -> change k f l = l.
Proof.
  unfold change. induction l as [|[x y] t IH]; intros H; cbn [map fst snd]; [reflexivity|].
  destruct (Nat.eqb_spec x k) as [->|N]; [destruct H; left; reflexivity|]. f_equal. apply IH. intros X. apply H. right. exact X.
Qed.
Lemma change_mid {A} k (v : A) f l1 l2 : ~ In k (map fst l1) -> ~ In k (map fst l2) -> change k f (l1 ++ (k, v) :: l2) = l1 ++ (k, f v) :: l2.
Proof.
  intros H1 H2. unfold change. rewrite map_app. cbn [map fst snd]. rewrite Nat.eqb_refl.
  f_equal; [|f_equal]; apply change_out; assumption.
Qed.
Lemma drop_out {A} k (l : list (nat * A)) : ~ In k (map fst l) -> drop k l = l.
Proof.
  unfold drop. induction l as [|[x y] t IH]; intros H; cbn [filter fst]; [reflexivity|].
  destruct (Nat.eqb_spec x k) as [->|N]; [destruct H; left; reflexivity|]. cbn [negb]. f_equal. apply IH. intros X. apply H. right. exact X.
Qed.
Lemma drop_mid {A} k (v : A) l1 l2 : ~ In k (map fst l1) -> ~ In k (map fst l2) -> drop k (l1 ++ (k, v) :: l2) = l1 ++ l2.
Proof.
  intros H1 H2. unfold drop. rewrite filter_app. cbn [filter fst]. rewrite Nat.eqb_refl. cbn [negb].
  f_equal; apply drop_out; assumption.
Qed.
Lemma remove_mid k l1 l2 : ~ In k l1 -> ~ In k l2 -> filter (fun x => negb (x =? k)) (l1 ++ k :: l2) = l1 ++ l2.
Proof.
  assert (O : forall l, ~ In k l -> filter (fun x => negb (x =? k)) l = l).
  { induction l as [|x t IH]; intros H; cbn [filter]; [reflexivity|].
    destruct (Nat.eqb_spec x k) as [->|N]; [destruct H; left; reflexivity|]. cbn [negb]. f_equal. apply IH. intros X. apply H. right. exact X. }
  intros H1 H2. rewrite filter_app. cbn [filter]. rewrite Nat.eqb_refl. cbn [negb]. f_equal; apply O; assumption.
Qed.

(** ** One event among others *)
Section MID.
Variable secure : bool.
Variable timeout : Z.
Variables E1 E2 : list (nat * event).
Variables P1 P2 : list (nat * (nat * row)).
Variables O1 O2 : list nat.
Variables C1 C2 : list (nat * conn).
Variable next id fd : nat.
Hypothesis HE1 : ~ In id (map fst E1).
Hypothesis HE2 : ~ In id (map fst E2).
Hypothesis HC1 : ~ In id (map fst C1).
Hypothesis HC2 : ~ In id (map fst C2).
Hypothesis HP1 : ~ In fd (map fst P1).
Hypothesis HP2 : ~ In fd (map fst P2).
Hypothesis HO1 : ~ In fd O1.
Hypothesis HO2 : ~ In fd O2.
Definition mid (e : event) (r : row) (c : conn) : world :=
  mkWorld secure timeout (E1 ++ (id, e) :: E2) (P1 ++ (fd, (id, r)) :: P2) (O1 ++ fd :: O2) (C1 ++ (id, c) :: C2) next.
Definition shut (e : event) : world := mkWorld secure timeout (E1 ++ (id, e) :: E2) (P1 ++ P2) (O1 ++ O2) (C1 ++ C2) next.
Definition gone : world := mkWorld secure timeout (E1 ++ E2) (P1 ++ P2) (O1 ++ O2) (C1 ++ C2) next.
Lemma mid_at e r c : event_at (mid e r c) id = Ok e.
Proof. unfold event_at, mid. cbn [w_events]. rewrite assoc_mid by assumption. reflexivity. Qed.
Lemma shut_at e : event_at (shut e) id = Ok e.
Proof. unfold event_at, shut. cbn [w_events]. rewrite assoc_mid by assumption. reflexivity. Qed.
Lemma mid_set e r c e' : set_event (mid e r c) id e' = mid e' r c.
Proof. unfold set_event, with_events, mid. cbn [w_events w_secure w_timeout w_epoll w_open w_conns w_next]. rewrite change_mid by assumption. reflexivity. Qed.
Lemma shut_set e e' : set_event (shut e) id e' = shut e'.
Proof. unfold set_event, with_events, shut. cbn [w_events w_secure w_timeout w_epoll w_open w_conns w_next]. rewrite change_mid by assumption. reflexivity. Qed.
Lemma mid_conn e r c : assoc id (w_conns (mid e r c)) = Some c.
Proof. unfold mid. cbn [w_conns]. apply assoc_mid. assumption. Qed.
Lemma mid_change e r c f : with_conns (mid e r c) (change id f (w_conns (mid e r c))) = mid e r (f c).
Proof. unfold with_conns, mid. cbn [w_events w_secure w_timeout w_epoll w_open w_conns w_next]. rewrite change_mid by assumption. reflexivity. Qed.
Lemma mid_again e0 r c e r' d : e_fd e = fd -> register_again (mid e0 r c) id e r' d =
  (mid (mkEvent fd r' FModify (e_infinite e) (match d with Some d => d | None => e_deadline e end) (e_expired e)
          (e_handler e) (e_xhandler e) (e_fail e) (e_term e) (e_data e) (e_xdata e) (e_enddata e)) r' c, true).
Proof.
  intros F. unfold register_again. rewrite mid_set, F. unfold mid at 1. cbn [w_epoll]. rewrite assoc_mid by assumption.
  unfold with_epoll, mid. cbn [w_events w_secure w_timeout w_epoll w_open w_conns w_next]. rewrite change_mid by assumption. reflexivity.
Qed.
Lemma mid_ssl_free e r c : c_ssl c = true -> ssl_free (mid e r c) id = Ok (mid e r (mkConn (c_fd c) (c_tls c) false (c_version c))).
Proof. intros S1. unfold ssl_free. rewrite mid_conn, S1. rewrite mid_change. reflexivity. Qed.
Lemma mid_release e r c : c_fd c = fd -> (c_tls c = true -> c_ssl c = true) -> connect_release (mid e r c) (Some id) = Ok (shut e).
Proof.
  intros F T. unfold connect_release. rewrite mid_conn.
  assert (X : forall c', sys_close (mid e r c') (c_fd c) = mkWorld secure timeout (E1 ++ (id, e) :: E2) (P1 ++ P2) (O1 ++ O2) (C1 ++ (id, c') :: C2) next).
  { intros c'. unfold sys_close, mid. cbn [w_events w_secure w_timeout w_epoll w_open w_conns w_next]. rewrite F, drop_mid, remove_mid by assumption. reflexivity. }
  destruct (c_tls c) eqn:Q.
  - rewrite mid_ssl_free by auto. cbn [obind]. rewrite X. unfold with_conns. cbn [w_events w_secure w_timeout w_epoll w_open w_conns w_next].
    rewrite drop_mid by assumption. reflexivity.
  - cbn [obind]. rewrite X. unfold with_conns. cbn [w_events w_secure w_timeout w_epoll w_open w_conns w_next]. rewrite drop_mid by assumption. reflexivity.
Qed.
Lemma shut_unregister e : e_flag e = FClose -> unregister (shut e) id = Ok gone.
Proof.
  intros F. unfold unregister. rewrite shut_at. cbn [obind]. rewrite F. unfold with_events, shut, gone.
  cbn [w_events w_secure w_timeout w_epoll w_open w_conns w_next]. rewrite drop_mid by assumption. reflexivity.
Qed.

(** The event and the connection of a peer. *)
Record shape (last : Z) (p : peer) (e : event) (c : conn) : Prop := {
  s_fd : e_fd e = fd; s_pfd : p_fd p = fd; s_cfd : c_fd c = fd; s_row : e_row e = p_row p; s_dl : e_deadline e = p_deadline p;
  s_inf : e_infinite e = false; s_term : e_term e = false; s_flag : e_flag e = FZero \/ e_flag e = FModify;
  s_exp : e_expired e = true -> (e_deadline e <= last)%Z;
  s_data : e_data e = Some id; s_xdata : e_xdata e = Some id; s_end : e_enddata e = None;
  s_ssl : c_tls c = true -> c_ssl c = true;
  s_phase : match p_phase p with
    | Fresh => e_handler e = HPeek /\ e_xhandler e = Some XListenEnd /\ e_fail e = FRecognize /\ c_version c = Some V1_1
    | Handshake => e_handler e = HTls /\ e_xhandler e = Some XAcceptEnd /\ e_fail e = FRecognize /\ c_tls c = true
    | Speaking v => e_handler e = HHttp v /\ e_xhandler e = Some XServe
    | Refusing => e_handler e = HRefuse /\ e_xhandler e = Some XServe
    end }.

(** What the handling of the event comes to. *)
Definition comes_to (m : move) (now : Z) (o : outcome fate) : Prop :=
  match m with
  | Goes p' => exists e' c', o = Ok (Alive (mid e' (p_row p') c')) /\ shape now p' e' c'
  | Closed => o = Ok (Alive gone)
  | Trouble => True
  end.
Definition finish (o : outcome result) : outcome fate :=
  obind o (fun r =>
  obind (if r_ok r then Ok (r_world r) else failure (r_world r) id) (fun w1 =>
    if r_err r then Ok (Gone exit_err)
    else obind (event_at w1 id) (fun e =>
      if e_term e && negb (r_ok r) then Ok (Gone exit_err)
      else if nodelete e then Ok (Alive w1) else obind (unregister w1 id) (fun w2 => Ok (Alive w2))))).
Lemma handle_mid now e r c a : handle_event now (mid e r c) id a = finish (run_handler now (mid e r c) id a).
Proof. unfold handle_event. rewrite mid_at. reflexivity. Qed.
Lemma finish_again e r c : nodelete e = true -> e_term e = false -> finish (again (mid e r c, true)) = Ok (Alive (mid e r c)).
Proof. intros N T. unfold finish, again. cbn [obind fst snd negb r_ok r_err r_world]. rewrite mid_at. cbn [obind]. rewrite N, T. reflexivity. Qed.
Lemma finish_shut e : e_flag e = FClose -> e_term e = false -> finish (done (shut e)) = Ok (Alive gone).
Proof.
  intros F T. unfold finish, done. cbn [obind r_ok r_err r_world]. rewrite shut_at. cbn [obind]. rewrite T. unfold nodelete. rewrite F. cbn [andb].
  rewrite shut_unregister by exact F. reflexivity.
Qed.
(** Serving: for an event whose fields are as [shape] wants them, whatever its handlers are. *)
Lemma serve_mid now e r c a ph : e_fd e = fd -> c_fd c = fd -> e_infinite e = false -> e_term e = false ->
  (e_expired e = true -> (e_deadline e <= now)%Z) -> e_data e = Some id -> e_xdata e = Some id -> e_enddata e = None -> (c_tls c = true -> c_ssl c = true) ->
  e_xhandler e = Some XServe -> (exists v, ph = Speaking v /\ e_handler e = HHttp v) \/ (ph = Refusing /\ e_handler e = HRefuse) ->
  comes_to (served now timeout fd (e_deadline e) ph (a_serve a)) now (finish (serve_http now (mid e r c) id a)).
Proof.
  intros F CF I T X D XD EN SS XH PH. unfold serve_http. rewrite mid_at. cbn [obind]. unfold served, comes_to.
  assert (SP : forall row dl ex, (ex = true -> (dl <= now)%Z) -> shape now (mkPeer fd ph row dl)
     (mkEvent fd row FModify (e_infinite e) dl ex (e_handler e) (e_xhandler e) (e_fail e) (e_term e) (e_data e) (e_xdata e) (e_enddata e)) c).
  { intros row dl ex EX. constructor; cbn [e_fd e_row e_flag e_infinite e_deadline e_expired e_handler e_xhandler e_fail e_term e_data e_xdata e_enddata p_fd p_phase p_row p_deadline]; auto.
    destruct PH as [(v & -> & H)|(-> & H)]; auto. }
  destruct (a_serve a).
  - rewrite mid_again by exact F. do 2 eexists. split; [apply finish_again; [reflexivity|exact T]|]. apply SP. exact X.
  - rewrite mid_again by exact F. cbn [set_expired e_infinite e_deadline e_expired e_handler e_xhandler e_fail e_term e_data e_xdata e_enddata].
    do 2 eexists. split; [apply finish_again; [reflexivity|exact T]|]. apply SP. discriminate.
  - rewrite D. rewrite mid_release by assumption. cbn [obind]. rewrite shut_set. apply finish_shut; [reflexivity|exact T].
Qed.
Lemma protocol_alpn alpn v : protocol alpn = Some v -> match_version_alpn alpn = Ok (Some v).
Proof.
  unfold protocol. destruct (bytes_eqb alpn (bs "h2")) eqn:A.
  - apply bytes_eqb_eq in A. subst. intros [= <-]. reflexivity.
  - destruct (bytes_eqb alpn (bs "http/1.1")) eqn:B; cbn [orb].
    + apply bytes_eqb_eq in B. subst. intros [= <-]. reflexivity.
    + destruct (bytes_eqb alpn []) eqn:C; [|discriminate]. apply bytes_eqb_eq in C. subst. intros [= <-]. reflexivity.
Qed.
Ltac flds := cbn [e_fd e_row e_flag e_infinite e_deadline e_expired e_handler e_xhandler e_fail e_term e_data e_xdata e_enddata set_flag set_handlers set_expired
                  p_fd p_phase p_row p_deadline c_fd c_tls c_ssl c_version].
Lemma connected_mid now e r c a v : e_fd e = fd -> c_fd c = fd -> e_infinite e = false -> e_term e = false ->
  (e_expired e = true -> (e_deadline e <= now)%Z) -> e_data e = Some id -> e_enddata e = None -> (c_tls c = true -> c_ssl c = true) -> c_version c = Some v ->
  comes_to (served now timeout fd (e_deadline e) (Speaking v) (a_serve a)) now (finish (listen_connected now (mid e r c) id a)).
Proof.
  intros F CF I T X D EN SS V. unfold listen_connected. rewrite mid_at. cbn [obind]. rewrite D, mid_conn, V, mid_set.
  match goal with |- context [serve_http now (mid ?e' _ _)] => exact (serve_mid now e' r c a (Speaking v) F CF I T X eq_refl eq_refl EN SS eq_refl (or_introl (ex_intro _ v (conj eq_refl eq_refl)))) end.
Qed.
Lemma tls_mid now e r c a p : e_fd e = fd -> p_fd p = fd -> c_fd c = fd -> e_deadline e = p_deadline p -> e_infinite e = false -> e_term e = false ->
  (e_expired e = true -> (e_deadline e <= now)%Z) -> e_data e = Some id -> e_xdata e = Some id -> e_enddata e = None -> c_tls c = true -> c_ssl c = true ->
  e_fail e = FRecognize ->
  comes_to (shaken now timeout p a) now (finish (ssl_accept now (mid e r c) id id a)).
Proof.
  intros F PF CF DL I T X D XD EN CT CS FR. unfold ssl_accept. rewrite mid_at. cbn [obind]. unfold shaken.
  assert (BL : forall row, comes_to (Goes (mkPeer (p_fd p) Handshake row (p_deadline p))) now
     (finish (again (register_again (mid e r c) id (set_expired (set_handlers e HTls XAcceptEnd (e_fail e) (Some id) (e_xdata e)) false) row None)))).
  { intros row. rewrite mid_again by exact F. do 2 eexists. flds. split; [apply finish_again; [reflexivity|exact T]|].
    constructor; flds; auto; discriminate. }
  destruct (a_tls a) as [alpn| | | |].
  - destruct (protocol alpn) as [v|] eqn:PV; [|exact Logic.I]. rewrite (protocol_alpn _ _ PV). cbn [obind]. rewrite mid_set.
    replace (w_conns (mid e r c)) with (w_conns (mid (set_handlers e (e_handler e) XAcceptEnd (e_fail e) (Some id) (e_xdata e)) r c)) by reflexivity.
    rewrite mid_change. rewrite PF, <- DL.
    match goal with |- context [listen_connected now (mid ?e' _ ?c') _ _] =>
      exact (connected_mid now e' r c' a v F CF I T X eq_refl EN (fun _ => CS) eq_refl) end.
  - exact (BL Rd).
  - exact (BL Wr).
  - exact Logic.I.
  - rewrite mid_release by auto. cbn [obind]. rewrite shut_set. apply finish_shut; [reflexivity|exact T].
Qed.
Lemma event_moves last now p e c a : (last <= now)%Z -> shape last p e c ->
  comes_to (moved secure timeout now p a) now (handle_event now (mid e (p_row p) c) id a).
Proof.
  intros TM [F PF CF RW DL I T FL X D XD EN SS PH]. assert (X' : e_expired e = true -> (e_deadline e <= now)%Z) by (intros Q; specialize (X Q); lia).
  rewrite handle_mid. unfold run_handler. rewrite mid_at. cbn [obind]. unfold moved. destruct (p_phase p) as [| |v|] eqn:PP.
  - destruct PH as (HH & XX & FF & VV). rewrite HH. unfold recognize. rewrite mid_at. cbn [obind]. rewrite D, mid_conn.
    destruct (a_peek a) as [b| | |].
    + replace (w_secure (mid e (p_row p) c)) with secure by reflexivity. destruct (b =? 22)%N, secure eqn:SEC.
      * unfold start_tls. rewrite mid_at. cbn [obind]. rewrite mid_change, mid_set. unfold Connect.set_handlers.
        match goal with |- context [ssl_accept now (mid ?e' _ ?c') _ _ _] =>
          exact (tls_mid now e' (p_row p) c' a p F PF CF DL I T X' eq_refl eq_refl EN eq_refl eq_refl FF) end.
      * rewrite mid_release by assumption. cbn [obind]. rewrite shut_set. apply finish_shut; [reflexivity|exact T].
      * unfold refuse. rewrite mid_at. cbn [obind]. rewrite mid_again by exact F. do 2 eexists. flds. split; [apply finish_again; [reflexivity|exact T]|].
        constructor; flds; auto.
      * rewrite PF, <- DL. apply connected_mid; auto.
    + rewrite mid_release by assumption. cbn [obind]. rewrite shut_set. apply finish_shut; [reflexivity|exact T].
    + rewrite mid_again by exact F. do 2 eexists. flds. split; [apply finish_again; [reflexivity|exact T]|]. constructor; flds; auto.
    + exact Logic.I.
  - destruct PH as (HH & XX & FF & TT). rewrite HH, D. apply tls_mid; auto.
  - destruct PH as (HH & XX). rewrite HH. rewrite PF, <- DL. apply serve_mid; auto. left. eauto.
  - destruct PH as (HH & XX). rewrite HH. rewrite PF, <- DL. apply serve_mid; auto.
Qed.
End MID.

(** ** The worker *)
Definition the_listener (lf : nat) : event := mkEvent lf Rd FPersistent true 0%Z false HListen None FNone true None None None.
Record ent := mkEnt { n_id : nat; n_ev : event; n_conn : conn }.
Definition evs (n : list ent) := map (fun x => (n_id x, n_ev x)) n.
Definition eps (n : list ent) := map (fun x => (e_fd (n_ev x), (n_id x, e_row (n_ev x)))) n.
Definition fds (n : list ent) := map (fun x => e_fd (n_ev x)) n.
Definition cns (n : list ent) := map (fun x => (n_id x, n_conn x)) n.
Definition canon (secure : bool) (timeout : Z) (lf : nat) (n : list ent) (next : nat) : world :=
  mkWorld secure timeout ((0, the_listener lf) :: evs n) ((lf, (0, Rd)) :: eps n) (lf :: fds n) (cns n) next.
Definition fits (last : Z) (x : ent) (p : peer) : Prop := shape (n_id x) (p_fd p) last p (n_ev x) (n_conn x).
Record rep (secure : bool) (timeout : Z) (lf : nat) (last : Z) (n : list ent) (next : nat) (l : list peer) : Prop := {
  r_fits : Forall2 (fits last) n l;
  r_ids : NoDup (0 :: map n_id n);
  r_next : Forall (fun i => i < next) (0 :: map n_id n);
  r_fds : NoDup (lf :: map p_fd l) }.
Lemma fits_fds last n l : Forall2 (fits last) n l -> fds n = map p_fd l.
Proof. induction 1 as [|x p n l F _ IH]; cbn; [reflexivity|]. rewrite (s_fd _ _ _ _ _ _ F). f_equal. exact IH. Qed.
Lemma eps_keys n : map fst (eps n) = fds n.
Proof. unfold eps, fds. rewrite map_map. reflexivity. Qed.
Lemma evs_keys n : map fst (evs n) = map n_id n.
Proof. unfold evs. rewrite map_map. reflexivity. Qed.
Lemma cns_keys n : map fst (cns n) = map n_id n.
Proof. unfold cns. rewrite map_map. reflexivity. Qed.
Lemma rep_sees secure timeout lf last n next l : rep secure timeout lf last n next l -> sees lf (canon secure timeout lf n next) l.
Proof.
  intros [F _ _ _]. unfold sees, canon. cbn [w_open w_epoll w_events map fst snd e_handler the_listener phase_of e_fd].
  rewrite (fits_fds _ _ _ F). split; [reflexivity|].
  split; f_equal; induction F as [|x p n l S1 _ IH]; cbn; try reflexivity; f_equal; auto; destruct S1 as [A B C D E G H I J K L M O P].
  - rewrite A, D. reflexivity.
  - rewrite A. f_equal. destruct (p_phase p); destruct P as (-> & _); reflexivity.
Qed.
Lemma shape_later id fd last now p e c : (last <= now)%Z -> shape id fd last p e c -> shape id fd now p e c.
Proof. intros T [A B C D E G H I J K L M O P]. constructor; auto. intros X. specialize (J X). lia. Qed.
Lemma fits_later last now n l : (last <= now)%Z -> Forall2 (fits last) n l -> Forall2 (fits now) n l.
Proof. intros T. induction 1 as [|x p n l F _ IH]; constructor; auto. exact (shape_later _ _ _ _ _ _ _ T F). Qed.
(** A canonical world is one event among others. *)
Definition as_mid secure timeout lf n1 x n2 next : canon secure timeout lf (n1 ++ x :: n2) next =
  mid secure timeout ((0, the_listener lf) :: evs n1) (evs n2) ((lf, (0, Rd)) :: eps n1) (eps n2) (lf :: fds n1) (fds n2) (cns n1) (cns n2) next
    (n_id x) (e_fd (n_ev x)) (n_ev x) (e_row (n_ev x)) (n_conn x).
Proof. unfold canon, mid, evs, eps, fds, cns. rewrite !map_app. reflexivity. Qed.
Definition as_gone secure timeout lf n1 n2 next :
  gone secure timeout ((0, the_listener lf) :: evs n1) (evs n2) ((lf, (0, Rd)) :: eps n1) (eps n2) (lf :: fds n1) (fds n2) (cns n1) (cns n2) next =
  canon secure timeout lf (n1 ++ n2) next.
Proof. unfold canon, gone, evs, eps, fds, cns. rewrite !map_app. reflexivity. Qed.
Record apart (lf : nat) (n1 : list ent) (x : ent) (n2 : list ent) : Prop := {
  d_E1 : ~ In (n_id x) (map fst ((0, the_listener lf) :: evs n1)); d_E2 : ~ In (n_id x) (map fst (evs n2));
  d_C1 : ~ In (n_id x) (map fst (cns n1)); d_C2 : ~ In (n_id x) (map fst (cns n2));
  d_P1 : ~ In (e_fd (n_ev x)) (map fst ((lf, (0, Rd)) :: eps n1)); d_P2 : ~ In (e_fd (n_ev x)) (map fst (eps n2));
  d_O1 : ~ In (e_fd (n_ev x)) (lf :: fds n1); d_O2 : ~ In (e_fd (n_ev x)) (fds n2) }.
Lemma nodup_apart lf n1 x n2 : NoDup (0 :: map n_id (n1 ++ x :: n2)) -> NoDup (lf :: fds (n1 ++ x :: n2)) -> apart lf n1 x n2.
Proof.
  intros A B. rewrite map_app in A. unfold fds in B. rewrite map_app in B. cbn [map] in A, B.
  assert (A1 := NoDup_remove_2 (0 :: map n_id n1) (map n_id n2) (n_id x) A).
  assert (B1 := NoDup_remove_2 (lf :: map (fun y => e_fd (n_ev y)) n1) (map (fun y => e_fd (n_ev y)) n2) (e_fd (n_ev x)) B).
  assert (X : forall k l1 l2, ~ @In nat k (l1 ++ l2) -> ~ In k l1 /\ ~ In k l2) by (intros k l1 l2 H; split; intros Q; apply H; apply in_or_app; auto).
  apply X in A1. apply X in B1. destruct A1 as [A1 A2], B1 as [B1 B2].
  constructor; cbn [map fst]; rewrite ?evs_keys, ?cns_keys, ?eps_keys; auto. intros Q. apply A1. right. exact Q.
Qed.
Lemma rep_apart secure timeout lf last n1 x n2 next l : rep secure timeout lf last (n1 ++ x :: n2) next l -> apart lf n1 x n2.
Proof. intros R. apply nodup_apart; [exact (r_ids _ _ _ _ _ _ _ R)|]. rewrite (fits_fds _ _ _ (r_fits _ _ _ _ _ _ _ R)). exact (r_fds _ _ _ _ _ _ _ R). Qed.
Lemma fits_split last l1 p l2 : forall n, Forall2 (fits last) n (l1 ++ p :: l2) ->
  exists n1 x n2, n = n1 ++ x :: n2 /\ Forall2 (fits last) n1 l1 /\ fits last x p /\ Forall2 (fits last) n2 l2.
Proof.
  induction l1 as [|q l1 IH]; intros n F; cbn [app] in F.
  - inversion F as [|x ? n2 ? F1 F2]; subst. exists [], x, n2. refine (conj eq_refl (conj _ (conj F1 F2))). constructor.
  - inversion F as [|x ? n' ? F1 F2]; subst. destruct (IH _ F2) as (n1 & y & n2 & -> & A & B & C). exists (x :: n1), y, n2. refine (conj eq_refl (conj _ (conj B C))). constructor; auto.
Qed.
Lemma at_peer_split f fd l l' : at_peer f fd l = Some l' -> exists l1 p l2, l = l1 ++ p :: l2 /\ p_fd p = fd /\ ~ In fd (map p_fd l1) /\
  ((exists p', f p = Goes p' /\ l' = l1 ++ p' :: l2) \/ (f p = Closed /\ l' = l1 ++ l2)).
Proof.
  revert l'. induction l as [|p l IH]; intros l' H; cbn [at_peer] in H; [discriminate|].
  destruct (Nat.eqb_spec (p_fd p) fd) as [E|E].
  - exists [], p, l. split; [reflexivity|]. split; [exact E|]. split; [intros []|].
    destruct (f p) as [p'| |]; inversion H; subst; [left; eauto|right; auto].
  - destruct (at_peer f fd l) as [l0|] eqn:Q; [|discriminate]. injection H as <-.
    destruct (IH _ eq_refl) as (l1 & q & l2 & -> & A & B & C). exists (p :: l1), q, l2. split; [reflexivity|]. split; [exact A|].
    split; [intros [X|X]; [exact (E X)|exact (B X)]|]. destruct C as [(p' & X & ->)|[X ->]]; [left; eauto|right; auto].
Qed.
Lemma moved_fd secure timeout now p a p' : moved secure timeout now p a = Goes p' -> p_fd p' = p_fd p.
Proof.
  unfold moved, shaken, served. destruct (p_phase p); [destruct (a_peek a); [destruct (_ =? _)%N, secure| | |]| | |];
    try (destruct (a_tls a); try destruct (protocol _)); try destruct (a_serve a); intros H; inversion H; reflexivity.
Qed.

(** The address epoll has for a descriptor. *)
Definition whose (w : world) (fd : nat) : option nat := option_map fst (assoc fd (w_epoll w)).
Lemma assoc_app {A} k (l1 l2 : list (nat * A)) : assoc k (l1 ++ l2) = match assoc k l1 with Some v => Some v | None => assoc k l2 end.
Proof. induction l1 as [|[x v] t IH]; cbn; [reflexivity|]. destruct (x =? k); auto. Qed.
Lemma assoc_none {A} k (l : list (nat * A)) : ~ In k (map fst l) -> assoc k l = None.
Proof. induction l as [|[x v] t IH]; cbn; intros H; [reflexivity|]. destruct (Nat.eqb_spec x k); [tauto|]. apply IH. tauto. Qed.
Lemma reported_ext w w' ready : (forall fd, In fd (map fst ready) -> whose w fd = whose w' fd) -> reported w ready = reported w' ready.
Proof.
  unfold reported. induction ready as [|[fd a] t IH]; intros H; cbn [flat_map]; [reflexivity|].
  rewrite IH by (intros f I; apply H; right; exact I). f_equal.
  specialize (H fd (or_introl eq_refl)). unfold whose in H. cbn [fst snd].
  destruct (assoc fd (w_epoll w)) as [[i r]|], (assoc fd (w_epoll w')) as [[i' r']|]; cbn in H; congruence.
Qed.
Lemma nodup_snoc {A} (k : A) l : NoDup l -> ~ In k l -> NoDup (l ++ [k]).
Proof.
  induction l as [|x t IH]; cbn [app]; intros D N; [constructor; [intros []|constructor]|].
  inversion D as [|? ? D1 D2]; subst. constructor.
  - intros Q. apply in_app_or in Q. destruct Q as [Q|[Q|[]]]; [exact (D1 Q)|]. apply N. left. auto.
  - apply IH; [exact D2|]. intros Q. apply N. right. exact Q.
Qed.
Lemma known_fd g m : In g (fds m) -> assoc g (eps m) <> None.
Proof.
  unfold fds, eps. induction m as [|y m IHm]; cbn; [intros []|]. intros [A|A]; [rewrite A, Nat.eqb_refl; discriminate|].
  destruct (_ =? _); [discriminate|]. apply IHm. exact A.
Qed.
(** One report is handled as specified. *)
Lemma report_step secure timeout lf last now n next l fd a l' : (last <= now)%Z -> rep secure timeout lf last n next l ->
  sp_report secure timeout lf now l fd a = Some l' ->
  exists n' next', let w' := canon secure timeout lf n' next' in
    (exists id, whose (canon secure timeout lf n next) fd = Some id /\ handle_event now (canon secure timeout lf n next) id a = Ok (Alive w')) /\
    rep secure timeout lf now n' next' l' /\
    (forall g, g <> fd -> In g (lf :: map p_fd l) -> In g (lf :: map p_fd l') /\ whose (canon secure timeout lf n next) g = whose w' g).
Proof.
  intros T R H. unfold sp_report in H. destruct (Nat.eqb_spec fd lf) as [->|NL].
  - assert (E0 : event_at (canon secure timeout lf n next) 0 = Ok (the_listener lf)) by reflexivity.
    assert (W0 : whose (canon secure timeout lf n next) lf = Some 0) by (unfold whose, canon; cbn [w_epoll assoc]; rewrite Nat.eqb_refl; reflexivity).
    destruct (a_accept a) as [nfd named| |] eqn:AC; [destruct named; [|discriminate]| |discriminate].
    + destruct (existsb (Nat.eqb nfd) (lf :: map p_fd l)) eqn:FR; [discriminate|]. injection H as <-.
      set (x := mkEnt next (mkEvent nfd Rd FZero false (now + timeout)%Z false HPeek (Some XListenEnd) FRecognize false (Some next) (Some next) None)
                  (mkConn nfd false false default_version)).
      exists (n ++ [x]), (S next). cbn zeta. split; [|split].
      * exists 0. split; [exact W0|]. unfold handle_event. rewrite E0. cbn [obind]. unfold run_handler. rewrite E0. cbn [obind the_listener e_handler].
        unfold accept_handler. rewrite AC. unfold done. cbn [obind r_ok r_err r_world].
        match goal with |- context [event_at ?w 0] => assert (E1 : event_at w 0 = Ok (the_listener lf)) by reflexivity end. rewrite E1. cbn [obind the_listener e_term andb nodelete e_flag negb].
        f_equal. f_equal. unfold register_new, canon, evs, eps, fds, cns, x. cbn [w_secure w_timeout w_events w_epoll w_open w_conns w_next e_fd e_row].
        rewrite !map_app. reflexivity.
      * assert (NF : ~ In nfd (lf :: map p_fd l)).
        { intros I. assert (existsb (Nat.eqb nfd) (lf :: map p_fd l) = true) by (apply existsb_exists; exists nfd; split; [exact I|apply Nat.eqb_refl]). congruence. }
        destruct R as [F I B D]. constructor.
        -- apply Forall2_app; [exact (fits_later _ _ _ _ T F)|]. constructor; [|constructor]. unfold fits, x. cbn [n_id n_ev n_conn p_fd].
           constructor; cbn; auto; try discriminate.
        -- rewrite map_app. cbn [map]. rewrite app_comm_cons.  apply nodup_snoc; [exact I|].
           rewrite Forall_forall in B. intros Q. specialize (B _ Q). cbn in B. lia.
        -- rewrite map_app. cbn [map]. rewrite app_comm_cons. apply Forall_app. split.
           ++ eapply Forall_impl; [|exact B]. cbn. intros; lia.
           ++ constructor; [cbn; lia|constructor].
        -- rewrite map_app. cbn [map p_fd]. rewrite app_comm_cons. apply nodup_snoc; [exact D|exact NF].
      * intros g NG IG. split.
        -- destruct IG as [IG|IG]; [left; exact IG|right]. rewrite map_app. apply in_or_app. left. exact IG.
        -- unfold whose, canon. cbn [w_epoll assoc]. destruct (lf =? g) eqn:Q; [reflexivity|]. unfold eps. rewrite map_app, assoc_app.
           destruct (assoc g (map _ n)) eqn:QQ; [reflexivity|]. exfalso.
           destruct IG as [IG|IG]; [apply Nat.eqb_neq in Q; congruence|]. rewrite <- (fits_fds _ _ _ (r_fits _ _ _ _ _ _ _ R)) in IG.
           exact (known_fd g n IG QQ).
    + injection H as <-. exists n, next. cbn zeta. split; [|split; [|auto]].
      * exists 0. split; [exact W0|]. unfold handle_event. rewrite E0. cbn [obind]. unfold run_handler. rewrite E0. cbn [obind the_listener e_handler].
        unfold accept_handler. rewrite AC. unfold done. cbn [obind r_ok r_err r_world]. rewrite E0. reflexivity.
      * destruct R as [F I B D]. constructor; auto. exact (fits_later _ _ _ _ T F).
  - destruct (at_peer_split _ _ _ _ H) as (l1 & p & l2 & -> & PF & NI & M).
    pose proof (r_fits _ _ _ _ _ _ _ R) as F. destruct (fits_split _ _ _ _ _ F) as (n1 & x & n2 & -> & F1 & FX & F2).
    pose proof (rep_apart _ _ _ _ _ _ _ _ _ R) as [dE1 dE2 dC1 dC2 dP1 dP2 dO1 dO2].
    assert (XF : e_fd (n_ev x) = fd) by (rewrite (s_fd _ _ _ _ _ _ FX); exact PF).
    assert (XP : e_fd (n_ev x) = p_fd p) by congruence.
    assert (XR : e_row (n_ev x) = p_row p) by exact (s_row _ _ _ _ _ _ FX).
    pose proof (event_moves secure timeout ((0, the_listener lf) :: evs n1) (evs n2) ((lf, (0, Rd)) :: eps n1) (eps n2) (lf :: fds n1) (fds n2) (cns n1) (cns n2)
      next (n_id x) (e_fd (n_ev x)) dE1 dE2 dC1 dC2 dP1 dP2 dO1 dO2 last now p (n_ev x) (n_conn x) a T) as EM.
    rewrite XP in EM at 1. specialize (EM FX). rewrite <- XR in EM. rewrite <- as_mid in EM.
    assert (WH : whose (canon secure timeout lf (n1 ++ x :: n2) next) fd = Some (n_id x)).
    { unfold whose. rewrite as_mid. unfold mid. cbn [w_epoll]. rewrite <- XF. rewrite assoc_mid by exact dP1. reflexivity. }
    assert (OTH : forall g, g <> fd -> assoc g (eps (n1 ++ x :: n2)) = assoc g (eps (n1 ++ n2))).
    { intros g NG. unfold eps. rewrite !map_app, !assoc_app. destruct (assoc g _); [reflexivity|]. cbn [map assoc]. rewrite XF.
      destruct (Nat.eqb_spec fd g); [congruence|reflexivity]. }
    destruct M as [(p' & MV & ->)|[MV ->]]; rewrite MV in EM; cbn [comes_to] in EM.
    + destruct EM as (e' & c' & EM & SH). pose proof (moved_fd _ _ _ _ _ _ MV) as PF'.
      set (y := mkEnt (n_id x) e' c'). exists (n1 ++ y :: n2), next. cbn zeta.
      assert (YF : e_fd e' = e_fd (n_ev x)) by exact (s_fd _ _ _ _ _ _ SH).
      assert (YR : e_row e' = p_row p') by exact (s_row _ _ _ _ _ _ SH).
      split; [|split].
      * exists (n_id x). split; [exact WH|]. rewrite EM. do 2 f_equal. rewrite as_mid. cbn [n_id n_ev n_conn y]. rewrite YF, YR. reflexivity.
      * destruct R as [_ I B D]. constructor.
        -- apply Forall2_app; [exact (fits_later _ _ _ _ T F1)|]. constructor; [|exact (fits_later _ _ _ _ T F2)].
           unfold fits. cbn [n_id n_ev n_conn y]. rewrite PF', <- XP. exact SH.
        -- rewrite map_app in *. exact I.
        -- rewrite map_app in *. exact B.
        -- rewrite map_app in *. cbn [map] in *. rewrite PF'. exact D.
      * intros g NG IG. split.
        -- destruct IG as [IG|IG]; [left; exact IG|right]. rewrite map_app in *. cbn [map] in *. rewrite PF'. exact IG.
        -- unfold whose, canon. cbn [w_epoll assoc]. destruct (lf =? g); [reflexivity|]. rewrite (OTH g NG). unfold eps. rewrite !map_app, !assoc_app.
           destruct (assoc g _); [reflexivity|]. cbn [map assoc n_ev y]. rewrite YF, XF. destruct (Nat.eqb_spec fd g); [congruence|reflexivity].
    + exists (n1 ++ n2), next. cbn zeta. split; [|split].
      * exists (n_id x). split; [exact WH|]. rewrite EM, as_gone. reflexivity.
      * destruct R as [_ I B D]. constructor.
        -- apply Forall2_app; eapply fits_later; eassumption.
        -- rewrite map_app in *. cbn [map] in I. exact (NoDup_remove_1 (0 :: map n_id n1) (map n_id n2) (n_id x) I).
        -- rewrite map_app in *. cbn [map] in B. inversion B as [|? ? B0 B1]; subst. constructor; [exact B0|].
           apply Forall_app in B1. destruct B1 as [B1 B2]. inversion B2; subst. apply Forall_app. auto.
        -- rewrite map_app in *. cbn [map] in D. exact (NoDup_remove_1 (lf :: map p_fd l1) (map p_fd l2) (p_fd p) D).
      * intros g NG IG. split.
        -- destruct IG as [IG|IG]; [left; exact IG|right]. rewrite map_app in *. cbn [map] in IG. apply in_app_or in IG. apply in_or_app.
           destruct IG as [IG|[IG|IG]]; auto. congruence.
        -- unfold whose, canon. cbn [w_epoll assoc]. destruct (lf =? g); [reflexivity|]. rewrite (OTH g NG). reflexivity.
Qed.
Lemma distinct_nodup l : distinct l = true -> NoDup l.
Proof.
  induction l as [|x t IH]; cbn [distinct]; intros H; [constructor|]. apply andb_prop in H. destruct H as [A B]. constructor; [|apply IH; exact B].
  intros I. apply negb_true_iff in A. assert (existsb (Nat.eqb x) t = true) by (apply existsb_exists; exists x; split; [exact I|apply Nat.eqb_refl]). congruence.
Qed.
Lemma lawful_nodup lf l ready : lawful_reports lf l ready = true -> NoDup (map fst ready) /\ (forall fd, In fd (map fst ready) -> In fd (lf :: map p_fd l)).
Proof.
  unfold lawful_reports. intros H. apply andb_prop in H. destruct H as [A B]. split; [apply distinct_nodup; exact A|]. intros fd I.
  rewrite forallb_forall in B. specialize (B _ I). apply existsb_exists in B. destruct B as (x & X & E). apply Nat.eqb_eq in E. subst. exact X.
Qed.
Lemma reports_run secure timeout lf now : forall ready n next l l' last, (last <= now)%Z -> rep secure timeout lf last n next l ->
  NoDup (map fst ready) -> (forall fd, In fd (map fst ready) -> In fd (lf :: map p_fd l)) ->
  sp_reports secure timeout lf now l ready = Some l' ->
  exists n' next', handle_all now (reported (canon secure timeout lf n next) ready) (canon secure timeout lf n next) = Ok (Alive (canon secure timeout lf n' next')) /\
    rep secure timeout lf now n' next' l'.
Proof.
  induction ready as [|[fd a] t IH]; intros n next l l' last T R ND IN H.
  - injection H as <-. exists n, next. split; [reflexivity|]. destruct R as [F I B D]. constructor; auto. exact (fits_later _ _ _ _ T F).
  - cbn [sp_reports] in H. destruct (sp_report secure timeout lf now l fd a) as [l1|] eqn:E; [|discriminate].
    destruct (report_step _ _ _ _ _ _ _ _ _ _ _ T R E) as (n1 & next1 & (id & WH & HE) & R1 & KEEP). cbn [map fst] in ND, IN.
    inversion ND as [|? ? N1 N2]; subst.
    assert (K : forall g, In g (map fst t) -> In g (lf :: map p_fd l1) /\ whose (canon secure timeout lf n next) g = whose (canon secure timeout lf n1 next1) g).
    { intros g I. apply KEEP; [intros ->; exact (N1 I)|apply IN; right; exact I]. }
    destruct (IH n1 next1 l1 l' now (Z.le_refl _) R1 N2 (fun g I => proj1 (K g I)) H) as (n2 & next2 & HA & R2).
    exists n2, next2. split; [|exact R2].
    replace (reported (canon secure timeout lf n next) ((fd, a) :: t)) with ((id, a) :: reported (canon secure timeout lf n next) t).
    2:{ unfold reported. cbn [flat_map fst snd]. unfold whose in WH. destruct (assoc fd _) as [[i r]|]; cbn in WH; inversion WH; reflexivity. }
    cbn [handle_all]. rewrite HE. cbn [obind]. rewrite (reported_ext _ (canon secure timeout lf n1 next1) t) by (intros g I; exact (proj2 (K g I))). exact HA.
Qed.

(** Marking. *)
Definition marked (now : Z) (x : ent) : ent :=
  mkEnt (n_id x) (if negb (e_infinite (n_ev x)) && (e_deadline (n_ev x) <=? now)%Z then set_expired (n_ev x) true else n_ev x) (n_conn x).
Lemma mark_canon secure timeout lf n next now : mark now (canon secure timeout lf n next) = canon secure timeout lf (map (marked now) n) next.
Proof.
  unfold mark, canon, with_events. cbn [w_secure w_timeout w_events w_epoll w_open w_conns w_next].
  assert (A : map (fun p => (fst p, if negb (e_infinite (snd p)) && (e_deadline (snd p) <=? now)%Z then set_expired (snd p) true else snd p)) (evs n) = evs (map (marked now) n)).
  { unfold evs. rewrite !map_map. reflexivity. }
  assert (B : eps (map (marked now) n) = eps n).
  { unfold eps. rewrite map_map. apply map_ext. intros x. unfold marked. cbn [n_ev n_id]. destruct (negb _ && _); reflexivity. }
  assert (C : fds (map (marked now) n) = fds n).
  { unfold fds. rewrite map_map. apply map_ext. intros x. unfold marked. cbn [n_ev n_id]. destruct (negb _ && _); reflexivity. }
  assert (D : cns (map (marked now) n) = cns n) by (unfold cns; rewrite map_map; reflexivity).
  rewrite B, C, D. f_equal. cbn [map fst snd the_listener e_infinite negb andb]. rewrite A. reflexivity.
Qed.
Lemma marked_rep secure timeout lf last now n next l : (last <= now)%Z -> rep secure timeout lf last n next l ->
  rep secure timeout lf now (map (marked now) n) next l /\
  Forall2 (fun x p => e_expired (n_ev x) = overdue now p) (map (marked now) n) l.
Proof.
  intros T [F I B D]. split.
  - constructor; auto; [|rewrite map_map; exact I|rewrite map_map; exact B].
    clear I B D. induction F as [|x p n l S1 _ IH]; cbn [map]; constructor; auto. unfold fits, marked. cbn [n_id n_ev n_conn].
    destruct S1 as [A1 A2 A3 A4 A5 A6 A7 A8 A9 A10 A11 A12 A13 A14]. rewrite A6. cbn [negb andb]. destruct (Z.leb_spec (e_deadline (n_ev x)) now).
    + constructor; auto.
    + constructor; auto. intros Q. specialize (A9 Q). lia.
  - clear I B D. induction F as [|x p n l S1 _ IH]; cbn [map]; constructor; auto. unfold marked. cbn [n_ev].
    destruct S1 as [A1 A2 A3 A4 A5 A6 A7 A8 A9 A10 A11 A12 A13 A14]. rewrite A6. cbn [negb andb]. unfold overdue. rewrite <- A5.
    destruct (Z.leb_spec (e_deadline (n_ev x)) now); [reflexivity|]. destruct (e_expired (n_ev x)); [specialize (A9 eq_refl); lia|reflexivity].
Qed.
(** Timeouts. *)
Lemma expire_run secure timeout lf now next : forall n2 l2 n1 l1,
  rep secure timeout lf now (n1 ++ n2) next (l1 ++ l2) -> Forall2 (fits now) n1 l1 -> Forall2 (fits now) n2 l2 ->
  Forall2 (fun x p => e_expired (n_ev x) = overdue now p) n2 l2 ->
  if existsb (fun p => early p && overdue now p) l2
  then expire (map n_id n2) (canon secure timeout lf (n1 ++ n2) next) = UB NullDeref
  else exists n', expire (map n_id n2) (canon secure timeout lf (n1 ++ n2) next) = Ok (canon secure timeout lf n' next) /\
         rep secure timeout lf now n' next (l1 ++ filter (fun p => negb (overdue now p)) l2).
Proof.
  induction n2 as [|x n2 IH]; intros l2 n1 l1 R F1 F2 X; inversion F2 as [|? p ? l3 FX F3]; subst.
  - cbn [existsb map expire filter]. exists (n1 ++ []). split; [reflexivity|exact R].
  - inversion X as [|? ? ? ? X1 X2]; subst. cbn [existsb map expire filter].
    pose proof (rep_apart _ _ _ _ _ _ _ _ _ R) as [dE1 dE2 dC1 dC2 dP1 dP2 dO1 dO2].
    rewrite as_mid. rewrite mid_at by assumption. cbn [obind]. rewrite X1. destruct (overdue now p) eqn:OD.
    + rewrite andb_true_r. cbn [negb].
      pose proof FX as [A1 A2 A3 A4 A5 A6 A7 A8 A9 A10 A11 A12 A13 A14].
      assert (CF : c_fd (n_conn x) = e_fd (n_ev x)) by congruence.
      unfold early. destruct (p_phase p) eqn:PP; cbn [orb].
      * destruct A14 as (_ & -> & _). unfold run_xhandler. rewrite A12. reflexivity.
      * destruct A14 as (_ & -> & _ & TL). unfold run_xhandler. rewrite A11. rewrite mid_ssl_free by auto. cbn [obind]. rewrite A12. reflexivity.
      * destruct A14 as (_ & ->). unfold run_xhandler. rewrite A10, mid_set by assumption. rewrite mid_release by assumption. cbn [obind].
        rewrite shut_unregister by auto. cbn [obind]. rewrite as_gone.
        apply IH; auto. destruct R as [RF RI RB RD]. constructor.
        -- apply Forall2_app; assumption.
        -- rewrite map_app in *. exact (NoDup_remove_1 (0 :: map n_id n1) (map n_id n2) (n_id x) RI).
        -- rewrite map_app in *. cbn [map] in RB. inversion RB as [|? ? B0 B1]; subst. constructor; [exact B0|].
           apply Forall_app in B1. destruct B1 as [B1 B2]. inversion B2; subst. apply Forall_app. auto.
        -- rewrite map_app in *. exact (NoDup_remove_1 (lf :: map p_fd l1) (map p_fd l3) (p_fd p) RD).
      * destruct A14 as (_ & ->). unfold run_xhandler. rewrite A10, mid_set by assumption. rewrite mid_release by assumption. cbn [obind].
        rewrite shut_unregister by auto. cbn [obind]. rewrite as_gone.
        apply IH; auto. destruct R as [RF RI RB RD]. constructor.
        -- apply Forall2_app; assumption.
        -- rewrite map_app in *. exact (NoDup_remove_1 (0 :: map n_id n1) (map n_id n2) (n_id x) RI).
        -- rewrite map_app in *. cbn [map] in RB. inversion RB as [|? ? B0 B1]; subst. constructor; [exact B0|].
           apply Forall_app in B1. destruct B1 as [B1 B2]. inversion B2; subst. apply Forall_app. auto.
        -- rewrite map_app in *. exact (NoDup_remove_1 (lf :: map p_fd l1) (map p_fd l3) (p_fd p) RD).
    + rewrite andb_false_r. cbn [orb negb]. rewrite <- as_mid.
      specialize (IH l3 (n1 ++ [x]) (l1 ++ [p])). rewrite <- !app_assoc in IH. cbn [app] in IH. 
      apply IH; auto. apply Forall2_app; [exact F1|]. constructor; [exact FX|constructor].
Qed.
Lemma expire_all secure timeout lf last now n next l : (last <= now)%Z -> rep secure timeout lf last n next l ->
  if existsb (fun p => early p && overdue now p) l
  then turn (canon secure timeout lf n next) now [] = UB NullDeref
  else exists n', turn (canon secure timeout lf n next) now [] = Ok (Alive (canon secure timeout lf n' next)) /\
         rep secure timeout lf now n' next (filter (fun p => negb (overdue now p)) l).
Proof.
  intros T R. destruct (marked_rep _ _ _ _ _ _ _ _ T R) as [R1 X1]. unfold turn. rewrite mark_canon.
  cbn [reported flat_map]. cbn [canon w_events map fst]. rewrite evs_keys. cbn [expire].
  match goal with |- context [event_at ?w 0] => replace (event_at w 0) with (Ok (the_listener lf)) by reflexivity end. cbn [obind the_listener e_expired].
  pose proof (expire_run secure timeout lf now next (map (marked now) n) l [] [] R1 (Forall2_nil _) (r_fits _ _ _ _ _ _ _ R1) X1) as E. cbn [app] in E.
  destruct (existsb _ l).
  - unfold canon in E. unfold canon. rewrite E. reflexivity.
  - destruct E as (n' & E & R'). exists n'. split; [|exact R']. unfold canon in E. unfold canon. rewrite E. reflexivity.
Qed.
Lemma reported_some secure timeout lf last n next l fd a t : rep secure timeout lf last n next l -> In fd (lf :: map p_fd l) ->
  reported (canon secure timeout lf n next) ((fd, a) :: t) <> [].
Proof.
  intros R I. unfold reported. cbn [flat_map fst snd]. unfold canon. cbn [w_epoll assoc]. destruct (Nat.eqb_spec lf fd) as [->|N]; [discriminate|].
  destruct I as [I|I]; [congruence|]. rewrite <- (fits_fds _ _ _ (r_fits _ _ _ _ _ _ _ R)) in I. pose proof (known_fd _ _ I) as K.
  destruct (assoc fd (eps n)) as [[i r]|]; [discriminate|congruence].
Qed.
Lemma turn_reports w now ready : reported (mark now w) ready <> [] -> turn w now ready = handle_all now (reported (mark now w) ready) (mark now w).
Proof. unfold turn. destruct (reported _ _); [congruence|reflexivity]. Qed.
Lemma turn_run secure timeout lf last now ready n next l l' : (last <= now)%Z -> rep secure timeout lf last n next l ->
  sp_turn secure timeout lf now ready l = Some l' ->
  exists n' next', turn (canon secure timeout lf n next) now ready = Ok (Alive (canon secure timeout lf n' next')) /\ rep secure timeout lf now n' next' l'.
Proof.
  intros T R H. destruct ready as [|[fd a] t].
  - cbn [sp_turn] in H. pose proof (expire_all _ _ _ _ _ _ _ _ T R) as E. destruct (existsb _ l); [discriminate|]. injection H as <-.
    destruct E as (n' & E & R'). eauto.
  - unfold sp_turn in H. destruct (lawful_reports lf l ((fd, a) :: t)) eqn:L; [|discriminate].
    destruct (lawful_nodup _ _ _ L) as [ND IN]. destruct (marked_rep _ _ _ _ _ _ _ _ T R) as [R1 _].
    rewrite turn_reports.
    + rewrite mark_canon. exact (reports_run _ _ _ _ _ _ _ _ _ _ (Z.le_refl _) R1 ND IN H).
    + rewrite mark_canon. apply (reported_some _ _ _ _ _ _ _ _ _ _ R1). apply IN. left. reflexivity.
Qed.
Lemma turns_run secure timeout lf : forall h last n next l l', rep secure timeout lf last n next l ->
  sp_turns secure timeout lf last h l = Some l' ->
  exists n' next' now, turns (canon secure timeout lf n next) h = Ok (Alive (canon secure timeout lf n' next')) /\ rep secure timeout lf now n' next' l' /\
    now = fold_left (fun _ x => fst x) h last.
Proof.
  induction h as [|[now ready] t IH]; intros last n next l l' R H; cbn [sp_turns turns fold_left] in *.
  - injection H as <-. exists n, next, last. auto.
  - destruct (Z.leb_spec last now) as [T|]; [|discriminate]. destruct (sp_turn secure timeout lf now ready l) as [l1|] eqn:E; [|discriminate].
    destruct (turn_run _ _ _ _ _ _ _ _ _ _ T R E) as (n1 & next1 & TT & R1). rewrite TT. cbn [obind]. exact (IH _ _ _ _ _ R1 H).
Qed.
Lemma listening_rep secure timeout lf last : rep secure timeout lf last [] 1 [] /\ listening secure timeout lf = canon secure timeout lf [] 1.
Proof.
  split; [|reflexivity]. constructor; [constructor| | |]; cbn; repeat constructor; intros [].
Qed.
Definition clock (t0 : Z) (h : list (Z * list (nat * answers))) : Z := fold_left (fun _ x => fst x) h t0.
Lemma reach secure timeout lf t0 h l : sp_turns secure timeout lf t0 h [] = Some l ->
  exists n next, turns (listening secure timeout lf) h = Ok (Alive (canon secure timeout lf n next)) /\ rep secure timeout lf (clock t0 h) n next l.
Proof.
  intros H. destruct (listening_rep secure timeout lf t0) as [R ->]. destruct (turns_run _ _ _ _ _ _ _ _ _ R H) as (n & next & now & A & B & ->). eauto.
Qed.
Theorem connections_run secure timeout lf t0 h l : sp_turns secure timeout lf t0 h [] = Some l ->
  exists w, turns (listening secure timeout lf) h = Ok (Alive w) /\ sees lf w l.
Proof. intros H. destruct (reach _ _ _ _ _ _ H) as (n & next & A & R). exists (canon secure timeout lf n next). split; [exact A|]. exact (rep_sees _ _ _ _ _ _ _ R). Qed.
Lemma turns_app w h1 h2 : turns w (h1 ++ h2) = obind (turns w h1) (fun f => match f with Alive w' => turns w' h2 | Gone s => Ok (Gone s) end).
Proof.
  revert w. induction h1 as [|[now ready] t IH]; intros w; cbn [turns app obind]; [reflexivity|].
  destruct (turn w now ready) as [[w'|s]|u]; cbn [obind]; [apply IH|reflexivity|reflexivity].
Qed.

(** ** What the theorems exclude *)
Lemma after secure timeout lf t0 h l now ready : sp_turns secure timeout lf t0 h [] = Some l ->
  exists n next, rep secure timeout lf (clock t0 h) n next l /\
    turns (listening secure timeout lf) (h ++ [(now, ready)]) =
    turn (canon secure timeout lf n next) now ready.
Proof.
  intros H. destruct (reach _ _ _ _ _ _ H) as (n & next & A & R). exists n, next. split; [exact R|]. rewrite turns_app, A. cbn [obind turns].
  destruct (turn _ _ _) as [[w|s]|u]; reflexivity.
Qed.
(** A timeout that comes before HTTP is spoken. *)
Theorem silent_timeout_crash secure timeout lf t0 h l p now : sp_turns secure timeout lf t0 h [] = Some l -> In p l -> early p = true ->
  (clock t0 h <= now)%Z -> (p_deadline p <= now)%Z ->
  turns (listening secure timeout lf) (h ++ [(now, [])]) = UB NullDeref.
Proof.
  intros H I E T D. destruct (after secure timeout lf t0 h l now [] H) as (n & next & R & ->).
  pose proof (expire_all _ _ _ _ _ _ _ _ T R) as X. replace (existsb _ l) with true in X; [exact X|]. symmetry.
  apply existsb_exists. exists p. split; [exact I|]. rewrite E. unfold overdue. apply Z.leb_le. exact D.
Qed.
Lemma one_report secure timeout lf last now n next l1 p l2 a : (last <= now)%Z -> rep secure timeout lf last n next (l1 ++ p :: l2) ->
  exists n1 x n2, apart lf n1 x n2 /\ fits now x p /\
  turn (canon secure timeout lf n next) now [(p_fd p, a)] =
  handle_event now (canon secure timeout lf (n1 ++ x :: n2) next) (n_id x) a.
Proof.
  intros T R. destruct (marked_rep _ _ _ _ _ _ _ _ T R) as [R1 _]. rewrite turn_reports.
  2:{ rewrite mark_canon. apply (reported_some _ _ _ _ _ _ _ _ _ _ R1). right. rewrite map_app. apply in_or_app. right. left. reflexivity. }
  rewrite mark_canon. destruct (fits_split _ _ _ _ _ (r_fits _ _ _ _ _ _ _ R1)) as (n1 & x & n2 & EN & F1 & FX & F2). rewrite EN in *.
  pose proof (rep_apart _ _ _ _ _ _ _ _ _ R1) as AP. exists n1, x, n2. split; [exact AP|]. split; [exact FX|].
  assert (W : reported (canon secure timeout lf (n1 ++ x :: n2) next) [(p_fd p, a)] = [(n_id x, a)]).
  { unfold reported. cbn [flat_map fst snd]. rewrite as_mid. unfold mid. cbn [w_epoll]. rewrite <- (s_fd _ _ _ _ _ _ FX).
    rewrite assoc_mid by exact (d_P1 _ _ _ _ AP). reflexivity. }
  rewrite W. cbn [handle_all]. destruct (handle_event _ _ _ _) as [[w|s]|u]; reflexivity.
Qed.
(** accept4 fails. *)
Theorem accept_failure_exits secure timeout lf t0 h l a now : sp_turns secure timeout lf t0 h [] = Some l -> a_accept a = AccFail ->
  (clock t0 h <= now)%Z -> turns (listening secure timeout lf) (h ++ [(now, [(lf, a)])]) = Ok (Gone exit_err).
Proof.
  intros H A T. destruct (after secure timeout lf t0 h l now [(lf, a)] H) as (n & next & R & ->).
  destruct (marked_rep _ _ _ _ _ _ _ _ T R) as [R1 _]. rewrite turn_reports.
  2:{ rewrite mark_canon. apply (reported_some _ _ _ _ _ _ _ _ _ _ R1). left. reflexivity. }
  rewrite mark_canon. unfold reported. cbn [flat_map fst snd]. unfold canon at 1. cbn [w_epoll assoc]. rewrite Nat.eqb_refl. cbn [app handle_all].
  set (w := canon _ _ _ _ _). assert (E0 : event_at w 0 = Ok (the_listener lf)) by reflexivity.
  unfold handle_event. rewrite E0. cbn [obind]. unfold run_handler. rewrite E0. cbn [obind the_listener e_handler]. unfold accept_handler. rewrite A.
  cbn [obind r_ok r_world r_err]. unfold failure. rewrite E0. reflexivity.
Qed.
(** recv fails while the protocol is found out. *)
Theorem peek_failure_exits secure timeout lf t0 h l p a now : sp_turns secure timeout lf t0 h [] = Some l -> In p l -> p_phase p = Fresh ->
  a_peek a = PeekFail -> (clock t0 h <= now)%Z -> turns (listening secure timeout lf) (h ++ [(now, [(p_fd p, a)])]) = Ok (Gone exit_err).
Proof.
  intros H I PH A T. destruct (after secure timeout lf t0 h l now [(p_fd p, a)] H) as (n & next & R & ->).
  apply in_split in I. destruct I as (l1 & l2 & ->). destruct (one_report _ _ _ _ _ _ _ _ _ _ a T R) as (n1 & x & n2 & AP & FX & ->).
  destruct AP as [dE1 dE2 dC1 dC2 dP1 dP2 dO1 dO2]. pose proof FX as [A1 A2 A3 A4 A5 A6 A7 A8 A9 A10 A11 A12 A13 A14]. rewrite PH in A14. destruct A14 as (HH & _ & FF & _).
  rewrite as_mid, handle_mid by assumption. unfold run_handler. rewrite mid_at by assumption. cbn [obind]. rewrite HH. unfold recognize.
  rewrite mid_at by assumption. cbn [obind]. rewrite A10, mid_conn, A by assumption. unfold finish. cbn [obind r_ok r_world r_err]. unfold failure.
  rewrite mid_at by assumption. cbn [obind]. rewrite FF, A11. assert (CF : c_fd (n_conn x) = e_fd (n_ev x)) by congruence.
  destruct A8 as [-> | ->]; rewrite mid_release by assumption; reflexivity.
Qed.
(** The client closes during the TLS handshake. *)
Definition handshaking (secure : bool) (p : peer) (a : answers) : Prop :=
  p_phase p = Handshake \/ (p_phase p = Fresh /\ secure = true /\ a_peek a = PeekByte 22%N).
Theorem handshake_eof secure timeout lf t0 h l p a now : sp_turns secure timeout lf t0 h [] = Some l -> In p l -> handshaking secure p a ->
  a_tls a = HsEof -> (clock t0 h <= now)%Z ->
  exists w, turns (listening secure timeout lf) (h ++ [(now, [(p_fd p, a)])]) = Ok (Alive w) /\
    In (p_fd p) (w_open w) /\ ~ In (p_fd p) (map (fun x => e_fd (snd x)) (w_events w)) /\
    forall now' a', turn w now' [(p_fd p, a')] = UB UseAfterFree.
Proof.
  intros H I HS A T. destruct (after secure timeout lf t0 h l now [(p_fd p, a)] H) as (n & next & R & ->).
  apply in_split in I. destruct I as (l1 & l2 & ->). destruct (one_report _ _ _ _ _ _ _ _ _ _ a T R) as (n1 & x & n2 & AP & FX & ->).
  destruct AP as [dE1 dE2 dC1 dC2 dP1 dP2 dO1 dO2]. pose proof FX as [A1 A2 A3 A4 A5 A6 A7 A8 A9 A10 A11 A12 A13 A14].
  assert (Q : exists c', handle_event now (canon secure timeout lf (n1 ++ x :: n2) next) (n_id x) a =
     Ok (Alive (mkWorld secure timeout ((0, the_listener lf) :: evs n1 ++ evs n2) ((lf, (0, Rd)) :: eps n1 ++ (p_fd p, (n_id x, e_row (n_ev x))) :: eps n2)
       (lf :: fds n1 ++ p_fd p :: fds n2) (cns n1 ++ (n_id x, c') :: cns n2) next))).
  { rewrite as_mid, handle_mid by assumption. rewrite A1.
    assert (EF : forall e0 c0, e_fd e0 = p_fd p -> e_term e0 = false -> c_ssl c0 = true ->
      exists c', finish (n_id x) (ssl_accept now (mid secure timeout ((0, the_listener lf) :: evs n1) (evs n2) ((lf, (0, Rd)) :: eps n1) (eps n2) (lf :: fds n1) (fds n2)
        (cns n1) (cns n2) next (n_id x) (p_fd p) e0 (e_row (n_ev x)) c0) (n_id x) (n_id x) a) =
        Ok (Alive (mkWorld secure timeout ((0, the_listener lf) :: evs n1 ++ evs n2) ((lf, (0, Rd)) :: eps n1 ++ (p_fd p, (n_id x, e_row (n_ev x))) :: eps n2)
       (lf :: fds n1 ++ p_fd p :: fds n2) (cns n1 ++ (n_id x, c') :: cns n2) next))).
    { intros e0 c0 EE ET CS. unfold ssl_accept. rewrite mid_at by assumption. cbn [obind]. rewrite A, mid_ssl_free by assumption. cbn [obind]. rewrite mid_set by assumption.
      unfold finish, done. cbn [obind r_ok r_world r_err]. rewrite mid_at by assumption. cbn [obind set_flag e_term]. rewrite ET. cbn [andb nodelete e_flag].
      unfold unregister. rewrite mid_at by assumption. cbn [obind set_flag e_flag]. unfold with_events, mid. cbn [w_secure w_timeout w_events w_epoll w_open w_conns w_next].
      rewrite drop_mid by assumption. eexists. reflexivity. }
    unfold run_handler. rewrite mid_at by assumption. cbn [obind]. destruct HS as [HS|(HS & SEC & PK)].
    - rewrite HS in A14. destruct A14 as (-> & _ & _ & CT). rewrite A10. apply EF; auto.
    - rewrite HS in A14. destruct A14 as (-> & _ & _ & _). unfold recognize. rewrite mid_at by assumption. cbn [obind]. rewrite A10, mid_conn, PK by assumption.
      cbn [N.eqb Pos.eqb]. replace (w_secure (mid secure _ _ _ _ _ _ _ _ _ _ _ _ _ _ _)) with true by (cbn [mid w_secure]; auto).
      unfold start_tls. rewrite mid_at by assumption. cbn [obind]. rewrite mid_change, mid_set by assumption. apply EF; auto. }
  destruct Q as (c' & ->). eexists. split; [reflexivity|]. cbn [w_open w_events]. split; [right; apply in_or_app; right; left; reflexivity|]. rewrite A1 in dO1, dO2, dP1, dP2.
  assert (EV : forall m, map (fun x => e_fd (snd x)) (evs m) = fds m) by (intros m; unfold evs, fds; rewrite map_map; reflexivity).
  split.
  - cbn [map snd the_listener e_fd]. rewrite map_app, !EV. intros [Q|Q]; [apply dO1; left; exact Q|]. apply in_app_or in Q. destruct Q as [Q|Q]; [apply dO1; right; exact Q|exact (dO2 Q)].
  - intros now' a'. rewrite turn_reports.
    + unfold reported, mark, with_events. cbn [flat_map fst snd w_epoll w_events w_secure w_timeout w_open w_conns w_next].
      rewrite app_comm_cons, assoc_mid by exact dP1. cbn [app handle_all]. unfold handle_event, event_at. cbn [w_events].
      rewrite assoc_none; [reflexivity|]. rewrite map_map. cbn [map fst]. rewrite map_app. fold (map fst (evs n1)).
      intros [Q|Q]; [apply dE1; left; exact Q|]. apply in_app_or in Q. destruct Q as [Q|Q]; [apply dE1; right; exact Q|exact (dE2 Q)].
    + unfold reported, mark, with_events. cbn [flat_map fst snd w_epoll]. rewrite app_comm_cons, assoc_mid by exact dP1. discriminate.
Qed.
(** A worker that always has something to do serves no timeout. *)
Lemma busy_keeps secure timeout lf p : forall h last l l', sp_turns secure timeout lf last h l = Some l' -> In p l ->
  Forall (fun t => snd t <> [] /\ ~ In (p_fd p) (map fst (snd t))) h -> In p l'.
Proof.
  assert (RP : forall now ready l l', sp_reports secure timeout lf now l ready = Some l' -> In p l -> ~ In (p_fd p) (map fst ready) -> In p l').
  { intros now. induction ready as [|[fd a] t IH]; intros l l' H I N; cbn [sp_reports] in H; [injection H as <-; exact I|].
    destruct (sp_report secure timeout lf now l fd a) as [l1|] eqn:E; [|discriminate]. apply (IH l1 l' H); [|intros Q; apply N; right; exact Q].
    unfold sp_report in E. destruct (fd =? lf).
    - destruct (a_accept a) as [nfd named| |]; [destruct named; [|discriminate]; destruct (existsb _ _); [discriminate|]| |discriminate].
      + injection E as <-. apply in_or_app. left. exact I.
      + injection E as <-. exact I.
    - destruct (at_peer_split _ _ _ _ E) as (l2 & q & l3 & -> & PF & _ & M). assert (q <> p) by (intros ->; apply N; left; symmetry; exact PF).
      assert (In p l2 \/ In p l3) by (apply in_app_or in I; destruct I as [I|[I|I]]; [left; exact I|congruence|right; exact I]).
      destruct M as [(p' & _ & ->)|[_ ->]]; apply in_or_app; cbn [In]; tauto. }
  induction h as [|[now ready] t IH]; intros last l l' H I F; cbn [sp_turns] in H; [injection H as <-; exact I|].
  inversion F as [|? ? [F1 F2] F3]; subst. cbn [snd] in F1, F2. destruct (last <=? now)%Z; [|discriminate].
  destruct (sp_turn secure timeout lf now ready l) as [l1|] eqn:E; [|discriminate]. apply (IH _ _ _ H); [|exact F3].
  unfold sp_turn in E. destruct ready as [|r0 rt]; [congruence|]. destruct (lawful_reports _ _ _); [|discriminate]. exact (RP _ _ _ _ E I F2).
Qed.
Lemma sp_turns_app secure timeout lf : forall h1 last h2 l, sp_turns secure timeout lf last (h1 ++ h2) l =
  match sp_turns secure timeout lf last h1 l with Some l' => sp_turns secure timeout lf (clock last h1) h2 l' | None => None end.
Proof.
  induction h1 as [|[now ready] t IH]; intros last h2 l; cbn [app sp_turns]; [reflexivity|]. destruct (last <=? now)%Z; [|reflexivity].
  destruct (sp_turn _ _ _ _ _ _); [|reflexivity]. rewrite IH. reflexivity.
Qed.
Theorem busy_worker_keeps secure timeout lf t0 h h' l l' p : sp_turns secure timeout lf t0 h [] = Some l -> In p l ->
  sp_turns secure timeout lf (clock t0 h) h' l = Some l' -> Forall (fun t => snd t <> [] /\ ~ In (p_fd p) (map fst (snd t))) h' ->
  exists w, turns (listening secure timeout lf) (h ++ h') = Ok (Alive w) /\ In (p_fd p) (w_open w).
Proof.
  intros H I H' F. assert (Q : sp_turns secure timeout lf t0 (h ++ h') [] = Some l') by (rewrite sp_turns_app, H; exact H').
  destruct (connections_run _ _ _ _ _ _ Q) as (w & A & S1 & _). exists w. split; [exact A|]. rewrite S1. right. apply in_map.
  exact (busy_keeps _ _ _ _ _ _ _ _ H' I F).
Qed.
(** An idle worker closes what is overdue, and only that. *)
Theorem idle_worker_closes secure timeout lf t0 h l now : sp_turns secure timeout lf t0 h [] = Some l -> (clock t0 h <= now)%Z ->
  (forall p, In p l -> early p = true -> (now < p_deadline p)%Z) ->
  exists w, turns (listening secure timeout lf) (h ++ [(now, [])]) = Ok (Alive w) /\
    forall p, In p l -> (In (p_fd p) (w_open w) <-> (now < p_deadline p)%Z).
Proof.
  intros H T E.
  assert (Q : sp_turns secure timeout lf t0 (h ++ [(now, [])]) [] = Some (filter (fun p => negb (overdue now p)) l)).
  { rewrite sp_turns_app, H. cbn [sp_turns sp_turn]. destruct (Z.leb_spec (clock t0 h) now); [|lia].
    replace (existsb _ l) with false; [reflexivity|]. symmetry. apply not_true_iff_false. intros X. apply existsb_exists in X. destruct X as (p & I & X).
    apply andb_prop in X. destruct X as [X1 X2]. specialize (E p I X1). unfold overdue in X2. lia. }
  destruct (connections_run _ _ _ _ _ _ Q) as (w & A & S1 & _). exists w. split; [exact A|]. intros p I. rewrite S1.
  destruct (reach _ _ _ _ _ _ H) as (n & next & _ & R). pose proof (r_fds _ _ _ _ _ _ _ R) as ND. split.
  - intros [X|X].
    + exfalso. inversion ND as [|? ? N1 N2]; subst. apply N1. apply in_map. exact I.
    + apply in_map_iff in X. destruct X as (q & E1 & X). apply filter_In in X. destruct X as [X1 X2].
      assert (q = p). { inversion ND as [|? ? N1 N2]; subst. clear - N2 X1 I E1. induction l as [|y l IH]; [destruct X1|]. cbn [map] in N2. inversion N2 as [|? ? M1 M2]; subst.
        destruct X1 as [X1|X1], I as [I|I]; subst; auto; [exfalso; apply M1; rewrite E1; apply in_map; exact I|exfalso; apply M1; rewrite <- E1; apply in_map; exact X1]. }
      subst. unfold overdue in X2. lia.
  - intros D. right. apply in_map. apply filter_In. split; [exact I|]. unfold overdue. lia.
Qed.
(** The first byte. *)
Theorem first_byte secure timeout lf t0 h l1 fd r d l2 now a b : sp_turns secure timeout lf t0 h [] = Some (l1 ++ mkPeer fd Fresh r d :: l2) ->
  (clock t0 h <= now)%Z -> a_peek a = PeekByte b ->
  let after l := exists w, turns (listening secure timeout lf) (h ++ [(now, [(fd, a)])]) = Ok (Alive w) /\ sees lf w l in
  (secure = false -> b = 22%N -> after (l1 ++ l2)) /\
  (secure = true -> b <> 22%N -> after (l1 ++ mkPeer fd Refusing Wr d :: l2)) /\
  (secure = false -> b <> 22%N -> forall r', a_serve a = Keep r' -> after (l1 ++ mkPeer fd (Speaking V1_1) r' d :: l2)) /\
  (secure = true -> b = 22%N -> a_tls a = HsRead -> after (l1 ++ mkPeer fd Handshake Rd d :: l2)) /\
  (secure = true -> b = 22%N -> a_tls a = HsFail -> after (l1 ++ l2)).
Proof.
  intros H T PK af. destruct (reach _ _ _ _ _ _ H) as (n & next & _ & R). pose proof (r_fds _ _ _ _ _ _ _ R) as ND. rewrite map_app in ND. cbn [map p_fd] in ND.
  assert (N1 : ~ In fd (map p_fd l1)). { intros X. apply (NoDup_remove_2 (lf :: map p_fd l1) (map p_fd l2) fd ND). right. apply in_or_app. left. exact X. }
  assert (NL : fd <> lf). { intros ->. inversion ND as [|? ? N2 _]; subst. apply N2. apply in_or_app. right. left. reflexivity. }
  assert (AP : forall f, at_peer f fd (l1 ++ mkPeer fd Fresh r d :: l2) =
     match f (mkPeer fd Fresh r d) with Goes p' => Some (l1 ++ p' :: l2) | Closed => Some (l1 ++ l2) | Trouble => None end).
  { intros f. clear - N1. induction l1 as [|q t IH]; cbn [at_peer app].
    - cbn [p_fd]. rewrite Nat.eqb_refl. reflexivity.
    - destruct (Nat.eqb_spec (p_fd q) fd); [exfalso; apply N1; left; assumption|]. rewrite IH by (intros X; apply N1; right; exact X). destruct (f _); reflexivity. }
  assert (STEP : forall l, match moved secure timeout now (mkPeer fd Fresh r d) a with Goes p' => Some (l1 ++ p' :: l2) | Closed => Some (l1 ++ l2) | Trouble => None end = Some l -> af l).
  { intros l X. apply (connections_run _ _ _ t0). rewrite sp_turns_app, H. cbn [sp_turns]. destruct (Z.leb_spec (clock t0 h) now); [|lia].
    unfold sp_turn, lawful_reports. cbn [map fst distinct forallb existsb negb andb orb].
    replace (existsb (Nat.eqb fd) (map p_fd (l1 ++ mkPeer fd Fresh r d :: l2))) with true.
    2:{ symmetry. apply existsb_exists. exists fd. split; [|apply Nat.eqb_refl]. rewrite map_app. apply in_or_app. right. left. reflexivity. }
    rewrite orb_true_r. cbn [andb sp_reports]. unfold sp_report. destruct (Nat.eqb_spec fd lf); [congruence|]. rewrite AP, X. reflexivity. }
  unfold moved in STEP. cbn [p_phase p_fd p_deadline] in STEP. rewrite PK in STEP.
  repeat split.
  - intros -> ->. apply STEP. reflexivity.
  - intros -> NB. apply STEP. apply N.eqb_neq in NB. rewrite NB. reflexivity.
  - intros -> NB r' SV. apply STEP. apply N.eqb_neq in NB. rewrite NB. unfold served. rewrite SV. reflexivity.
  - intros -> -> TL. apply STEP. cbn [N.eqb Pos.eqb]. unfold shaken. rewrite TL. reflexivity.
  - intros -> -> TL. apply STEP. cbn [N.eqb Pos.eqb]. unfold shaken. rewrite TL. reflexivity.
Qed.
(** The protocol agreed on in the handshake. *)
Theorem agreed timeout lf t0 h l1 fd r d l2 now a alpn v r' : sp_turns true timeout lf t0 h [] = Some (l1 ++ mkPeer fd Handshake r d :: l2) ->
  (clock t0 h <= now)%Z -> a_tls a = HsDone alpn -> protocol alpn = Some v -> a_serve a = Keep r' ->
  exists w, turns (listening true timeout lf) (h ++ [(now, [(fd, a)])]) = Ok (Alive w) /\ sees lf w (l1 ++ mkPeer fd (Speaking v) r' d :: l2).
Proof.
  intros H T TL PV SV. destruct (reach _ _ _ _ _ _ H) as (n & next & _ & R). pose proof (r_fds _ _ _ _ _ _ _ R) as ND. rewrite map_app in ND. cbn [map p_fd] in ND.
  assert (N1 : ~ In fd (map p_fd l1)). { intros X. apply (NoDup_remove_2 (lf :: map p_fd l1) (map p_fd l2) fd ND). right. apply in_or_app. left. exact X. }
  assert (NL : fd <> lf). { intros ->. inversion ND as [|? ? N2 _]; subst. apply N2. apply in_or_app. right. left. reflexivity. }
  apply (connections_run _ _ _ t0). rewrite sp_turns_app, H. cbn [sp_turns]. destruct (Z.leb_spec (clock t0 h) now); [|lia].
  unfold sp_turn, lawful_reports. cbn [map fst distinct forallb existsb negb andb orb].
  replace (existsb (Nat.eqb fd) (map p_fd (l1 ++ mkPeer fd Handshake r d :: l2))) with true.
  2:{ symmetry. apply existsb_exists. exists fd. split; [|apply Nat.eqb_refl]. rewrite map_app. apply in_or_app. right. left. reflexivity. }
  rewrite orb_true_r. cbn [andb sp_reports]. unfold sp_report. destruct (Nat.eqb_spec fd lf); [congruence|].
  enough (X : at_peer (fun p => moved true timeout now p a) fd (l1 ++ mkPeer fd Handshake r d :: l2) = Some (l1 ++ mkPeer fd (Speaking v) r' d :: l2)) by (rewrite X; reflexivity).
  clear - N1 TL PV SV. induction l1 as [|q t IH]; cbn [at_peer app].
  - cbn [p_fd]. rewrite Nat.eqb_refl. unfold moved. cbn [p_phase]. unfold shaken. rewrite TL, PV. cbn [p_fd p_deadline]. unfold served. rewrite SV. reflexivity.
  - destruct (Nat.eqb_spec (p_fd q) fd); [exfalso; apply N1; left; assumption|]. rewrite IH by (intros X; apply N1; right; exact X). reflexivity.
Qed.
