(** Properties C45 to C49 and C89 to C92: streams, flow control and requests of an HTTP/2 connection. *)
From Verif Require Import Base H2Conn H2ConnProofs H2ConnLaws.
Local Open Scope N_scope.
Ltac computed := repeat match goal with |- _ /\ _ => split end; vm_compute; reflexivity.

(** A connection that has answered one request and received another with a body. *)
Definition visit : list event :=
  [settings; get 1 10; write 100; write 100; post 3; write 100; write 100; data 3 5 0; write 100; data 3 7 1; window 0 100; write 100; write 100; write 100; write 100].
Example visit_runs : exists s, run fresh visit = Ok s /\ c_goaway s = false /\ c_status s = Running /\ c_handled s = [1; 3] /\
  map fst (c_opened s) = [1; 3] /\ sum data_all (c_wire s) = 10%Z.
Proof. exists (final fresh visit). computed. Qed.

(** ** C45: stream identifiers *)
(** After every sequence of events the streams opened so far are odd and increasing, no two streams of
    the connection share an identifier, and the peer's open streams never exceed the limit. *)
Theorem open_streams_legal limit maxlen es s : run (conn_init limit maxlen) es = Ok s ->
  Sorted.StronglySorted N.lt (map fst (c_opened s)) /\ Forall (fun i => N.odd i = true) (map fst (c_opened s)) /\
  NoDup (map t_id (c_streams s)) /\
  Forall (fun t => t_id t = 0 \/ In (t_id t) (map fst (c_opened s))) (c_streams s) /\
  (forall m, limit = Some m -> (Z.of_nat (length (filter (fun t => negb (t_id t =? 0)%N) (c_streams s))) <= Z.of_N m)%Z).
Proof. exact (reach_legal limit maxlen es s). Qed.
Print Assumptions open_streams_legal.
(** A frame for an identifier that is not in use opens a stream exactly when the identifier is odd,
    above all earlier ones and the limit allows it; otherwise nothing is opened and the connection is
    given up with PROTOCOL_ERROR. *)
Theorem stream_opened_iff limit maxlen es s f o s' :
  run (conn_init limit maxlen) es = Ok s -> c_goaway s = false -> c_status s = Running -> step s (ERecv f o) = Ok s' ->
  (In (f_sid f) (map t_id (c_streams s)) -> c_opened s' = c_opened s) /\
  (~ In (f_sid f) (map t_id (c_streams s)) -> may_open (f_sid f) s -> c_opened s' = c_opened s ++ [(f_sid f, c_pinit s)]) /\
  (~ In (f_sid f) (map t_id (c_streams s)) -> ~ may_open (f_sid f) s ->
   c_opened s' = c_opened s /\ c_goaway s' = true /\ In (mkQ 0 (KGoaway PROTOCOL_ERROR)) (c_sendq s') /\
   c_streams s' = c_streams s /\ c_handled s' = c_handled s).
Proof. exact (opening limit maxlen es s f o s'). Qed.
Print Assumptions stream_opened_iff.
(** Nothing else opens a stream: not sending, not the end of the connection, and nothing received after
    GOAWAY. *)
Theorem stream_opened_only limit maxlen es s e s' :
  run (conn_init limit maxlen) es = Ok s -> step s e = Ok s' -> c_goaway s = true \/ ev_frame e = None -> c_opened s' = c_opened s.
Proof. exact (opening_only limit maxlen es s e s'). Qed.
Print Assumptions stream_opened_only.
Example stream_opened_nonvacuous : let s := final fresh visit in
  may_open 5 s /\ ~ may_open 4 s /\ ~ may_open 1 s /\ ~ In 5 (map t_id (c_streams s)).
Proof.
  assert (E : map fst (c_opened (final fresh visit)) = [1; 3]) by (vm_compute; reflexivity).
  assert (L : c_limit (final fresh visit) = None) by (vm_compute; reflexivity).
  cbv zeta. unfold may_open. rewrite E, L. repeat split.
  - repeat constructor.
  - intros m Q. discriminate.
  - intros [Q _]. discriminate.
  - intros [_ [Q _]]. inversion Q. subst. lia.
  - vm_compute. intros H. repeat (destruct H as [H|H]; [discriminate|]). exact H.
Qed.
(** The connection itself is counted as a stream, so the limit is one lower than configured ... *)
Theorem limit_counts_connection limit maxlen es s m :
  run (conn_init limit maxlen) es = Ok s -> c_goaway s = false -> limit = Some m ->
  (Z.of_nat (length (filter (fun t => negb (t_id t =? 0)%N) (c_streams s))) <= Z.max 0 (Z.of_N m - 1))%Z.
Proof. exact (reach_limit_root limit maxlen es s m). Qed.
Print Assumptions limit_counts_connection.
(** ... and with a limit of one the first request is refused. *)
Theorem stream_limit_refuted : exists es s s',
  run (conn_init (Some 1) 1000) es = Ok s /\ map t_id (c_streams s) = [0] /\ c_goaway s = false /\ c_status s = Running /\ c_opened s = [] /\
  step s (get 1 10) = Ok s' /\ c_opened s' = [] /\ c_handled s' = [] /\ c_goaway s' = true.
Proof.
  exists [settings], (final (conn_init (Some 1) 1000) [settings]), (final (conn_init (Some 1) 1000) [settings; get 1 10]).
  computed.
Qed.
Print Assumptions stream_limit_refuted.

(** ** C46: stream states and answers *)
(** Missing from the full statement: peers that send DATA or HEADERS on a stream on which they may not.
    What is received changes the state as the life cycle says, and no other stream's state. *)
Theorem stream_received_partial limit maxlen es s f o s' :
  polite_run (conn_init limit maxlen) es -> run (conn_init limit maxlen) es = Ok s -> c_goaway s = false -> c_status s = Running ->
  polite s (ERecv f o) -> step s (ERecv f o) = Ok s' -> c_goaway s' = false -> c_status s' = Running ->
  forall i, i <> 0 -> state_of i s' = (if i =? f_sid f then rfc_recv f (state_of i s) else state_of i s).
Proof. exact (polite_received limit maxlen es s f o s'). Qed.
Print Assumptions stream_received_partial.
(** Sending only closes streams the peer has half closed, and removes closed ones. *)
Theorem stream_sent limit maxlen es s n o s' :
  run (conn_init limit maxlen) es = Ok s -> c_goaway s = false -> c_status s = Running -> step s (EWrite n o) = Ok s' ->
  forall i, state_of i s' = state_of i s \/ (state_of i s = HalfRemote /\ state_of i s' = Closed) \/
    (state_of i s = Closed /\ ~ In i (map t_id (c_streams s'))).
Proof. exact (fun R => sent_state s n o s' (proj1 (reach_inv limit maxlen es s R))). Qed.
Print Assumptions stream_sent.
(** A closed stream stays closed, whatever happens, unless a DATA or HEADERS frame with END_STREAM
    comes in for it. *)
Theorem closed_stays_partial limit maxlen es s e s' i :
  run (conn_init limit maxlen) es = Ok s -> step s e = Ok s' -> state_of i s = Closed ->
  (forall f, ev_frame e = Some f -> f_type f <= 1 -> END_STREAM f = true -> f_sid f <> i) ->
  state_of i s' = Closed \/ ~ In i (map t_id (c_streams s')).
Proof.
  intros R S C F. destruct (reach_inv _ _ _ _ R) as [I J]. apply (closed_stays s e s' i I J S C).
  intros f E. unfold ends. destruct (f_type f <=? 1) eqn:T; [|discriminate]. destruct (END_STREAM f) eqn:X; [|discriminate].
  cbn [andb]. intros [= Q]. apply (F f E); auto. lia.
Qed.
Print Assumptions closed_stays_partial.
Example closed_stays_nonvacuous : let s := final fresh [settings; post 1; reset 1] in
  state_of 1 s = Closed /\ In 1 (map t_id (c_streams s)) /\ exists s', step s (data 1 10 0) = Ok s' /\ state_of 1 s' = Closed.
Proof. split; [vm_compute; reflexivity|]. split; [vm_compute; auto|]. exists (final fresh [settings; post 1; reset 1; data 1 10 0]). split; vm_compute; reflexivity. Qed.
(** DATA on a stream that is not open for the peer, or HEADERS on one that is closed, without END_STREAM: RST_STREAM with
    STREAM_CLOSED is queued, the stream is closed and no request is handled. *)
Theorem unexpected_frame_reset_partial : forall s f o s' t, c_status s = Running -> c_goaway s = false -> c_phase s = Communication ->
  f_sid f <> 0 -> find_stream (f_sid f) s = Some t -> END_STREAM f = false ->
  (f_type f = 0 /\ t_state t <> Open /\ t_state t <> HalfLocal) \/ (f_type f = 1 /\ (t_state t = Closed \/ t_state t = HalfLocal \/ t_state t = ReservedRemote)) ->
  step s (ERecv f o) = Ok s' ->
  c_status s' = Failed \/
  (In (mkQ (f_sid f) (KRst STREAM_CLOSED)) (c_sendq s') /\ state_of (f_sid f) s' = Closed /\ c_handled s' = c_handled s).
Proof.
  intros s f o s' t R G P NZ FS ES K E. unfold step in E. rewrite R, G in E. destruct K as [(T & A & B)|(T & A)].
  - exact (data_not_expected f o s s' t NZ FS A B P T ES E).
  - right. exact (headers_not_expected f o s s' t NZ FS A P T ES E).
Qed.
Print Assumptions unexpected_frame_reset_partial.
Example unexpected_frame_nonvacuous : let s := final fresh [settings; post 1; reset 1] in
  c_status s = Running /\ c_goaway s = false /\ c_phase s = Communication /\ (exists t, find_stream 1 s = Some t /\ t_state t = Closed) /\
  exists s', step s (data 1 10 0) = Ok s' /\ c_status s' = Running /\ In (mkQ 1 (KRst 5)) (c_sendq s').
Proof. repeat (split; [vm_compute; reflexivity|]). split; [eexists; split; vm_compute; reflexivity|]. eexists. split; [vm_compute; reflexivity|]. split; [reflexivity|vm_compute; auto 10]. Qed.
(** A reset stream is served again when DATA with END_STREAM arrives on it. *)
Theorem closed_reopened_refuted : exists es s s',
  run fresh es = Ok s /\ state_of 1 s = Closed /\ c_handled s = [] /\ step s (data 1 10 1) = Ok s' /\ state_of 1 s' = HalfRemote /\ c_handled s' = [1].
Proof.
  exists [settings; post 1; reset 1], (final fresh [settings; post 1; reset 1]), (final fresh [settings; post 1; reset 1; data 1 10 1]).
  computed.
Qed.
Print Assumptions closed_reopened_refuted.
(** Missing: the same peers.  Otherwise each request is handed to the handler once and at most one
    HEADERS frame is sent on each stream. *)
Theorem answered_once_partial limit maxlen es : polite_run (conn_init limit maxlen) es ->
  exists s, run (conn_init limit maxlen) es = Ok s /\ NoDup (c_handled s) /\ forall i, (sum (heads_w i) (c_wire s) <= 1)%Z.
Proof. exact (answered_once limit maxlen es). Qed.
Print Assumptions answered_once_partial.
Example answered_once_nonvacuous : polite_run fresh visit /\ sum (heads_w 1) (c_wire (final fresh visit)) = 1%Z.
Proof.
  split; [apply polite_runb_ok|]; vm_compute; reflexivity.
Qed.
(** A second HEADERS frame with END_STREAM on the stream: two answers. *)
Theorem answered_twice_refuted : exists es s, run fresh es = Ok s /\ c_handled s = [1; 1] /\ sum (heads_w 1) (c_wire s) = 2%Z.
Proof.
  exists [settings; get 1 10; get 1 10; write 100; write 100; write 100; write 100], (final fresh [settings; get 1 10; get 1 10; write 100; write 100; write 100; write 100]).
  computed.
Qed.
Print Assumptions answered_twice_refuted.

(** ** C47: the peer's credit *)
(** The windows the server keeps are exactly the initial windows plus all increments received minus all
    DATA bytes sent. *)
Theorem send_window_exact limit maxlen es s : run (conn_init limit maxlen) es = Ok s -> c_goaway s = false -> c_status s = Running ->
  c_win s = (65535 + sum (ev_window 0) es - sum data_all (c_wire s))%Z /\
  (forall t, In t (c_streams s) -> t_id t <> 0 -> exists w0, In (t_id t, w0) (c_opened s) /\
     t_pwin t = (w0 + sum (ev_window (t_id t)) es - sum (data_of (t_id t)) (c_wire s))%Z).
Proof. exact (windows_exact limit maxlen es s). Qed.
Print Assumptions send_window_exact.
(** Missing from the full statement: bodies larger than a window.  If no response is started whose body
    exceeds the credit there is, the DATA bytes sent never exceed the credit received. *)
Theorem sent_within_credit_partial limit maxlen es s : run (conn_init limit maxlen) es = Ok s -> paced_run (conn_init limit maxlen) es ->
  (sum data_all (c_wire s) <= 65535 + sum (ev_window 0) es)%Z /\
  (forall i w0, In (i, w0) (c_opened s) -> (sum (data_of i) (c_wire s) <= w0 + sum (ev_window i) es)%Z).
Proof. exact (paced_within_received limit maxlen es s). Qed.
Print Assumptions sent_within_credit_partial.
Example sent_within_credit_nonvacuous : paced_run fresh [settings; get 1 60000; write 1; write 1; write 1; write 1; write 60000] /\
  sum data_all (c_wire (final fresh [settings; get 1 60000; write 1; write 1; write 1; write 1; write 60000])) = 60000%Z.
Proof.
  split; [apply paced_runb_ok|]; vm_compute; reflexivity.
Qed.
(** The credit is only compared with zero: a body of 70000 bytes goes out in one frame on a window of
    65535, and the frame does not carry END_STREAM. *)
Theorem sent_within_credit_refuted : exists es s, run fresh es = Ok s /\ sum (ev_window 0) es = 0%Z /\ c_opened s = [(1, 65535%Z)] /\
  sum (data_of 1) (c_wire s) = 70000%Z /\ In (WDataHeader 1 70000 false) (c_wire s).
Proof.
  exists [settings; get 1 70000; write 1; write 1; write 1; write 1; write 70000], (final fresh [settings; get 1 70000; write 1; write 1; write 1; write 1; write 70000]).
  split; [vm_compute; reflexivity|]. split; [vm_compute; reflexivity|]. split; [vm_compute; reflexivity|]. split; [vm_compute; reflexivity|].
  vm_compute. auto 10.
Qed.
Print Assumptions sent_within_credit_refuted.
(** A body of exactly the window's size is sent completely, without END_STREAM, and the response is
    over: the client waits for more. *)
Theorem end_stream_missing_refuted : exists es s, run fresh es = Ok s /\ c_resps s = [] /\ c_sendq s = [] /\
  sum (data_of 1) (c_wire s) = 65535%Z /\ forall len, ~ In (WDataHeader 1 len true) (c_wire s).
Proof.
  exists [settings; get 1 65535; write 1; write 1; write 1; write 1; write 65535; write 1], (final fresh [settings; get 1 65535; write 1; write 1; write 1; write 1; write 65535; write 1]).
  split; [vm_compute; reflexivity|]. split; [vm_compute; reflexivity|]. split; [vm_compute; reflexivity|]. split; [vm_compute; reflexivity|].
  apply no_end. vm_compute. reflexivity.
Qed.
Print Assumptions end_stream_missing_refuted.
(** A new initial window is not applied to streams that are open: the server waits for ever although
    the peer has granted credit. *)
Theorem initial_window_ignored_refuted : exists es s, run fresh es = Ok s /\ c_pinit s = 65535%Z /\ state_of 1 s = HalfRemote /\
  c_handled s = [1] /\ sum data_all (c_wire s) = 0%Z /\ forall ns o, run s (map (fun n => EWrite n o) ns) = Ok s.
Proof.
  set (es := [settings; initial_window 0; get 1 10; initial_window 65535; write 1; write 1; write 1; write 1; write 1; write 1; write 1]).
  exists es, (final fresh es).
  split; [vm_compute; reflexivity|]. split; [vm_compute; reflexivity|]. split; [vm_compute; reflexivity|]. split; [vm_compute; reflexivity|].
  split; [vm_compute; reflexivity|]. intros ns o.
  assert (F : exists t, find (fun u => t_id u =? 1) (c_streams (final fresh es)) = Some t /\ (t_pwin t <= 0)%Z /\ t_esd t = false).
  { eexists. split; [vm_compute; reflexivity|]. split; [discriminate|reflexivity]. }
  destruct F as [t [F [W D]]].
  apply (stalled ns (mkResp 1 10 false PHeader 0) t); try (vm_compute; reflexivity); [discriminate|exact F|exact D|left; exact W].
Qed.
Print Assumptions initial_window_ignored_refuted.

(** ** C48: windows and increments *)
(** Missing from the full statement: peers whose increments add up to more than 2^31-1.  For others no
    window exceeds it. *)
Theorem window_bound_partial limit maxlen es s : run (conn_init limit maxlen) es = Ok s ->
  (65535 + sum (ev_window 0) es <= 2147483647)%Z ->
  (forall i w0, In (i, w0) (c_opened s) -> (w0 + sum (ev_window i) es <= 2147483647)%Z) ->
  (c_win s <= 2147483647)%Z /\ (forall t, In t (c_streams s) -> t_id t <> 0 -> (t_pwin t <= 2147483647)%Z).
Proof. exact (fun R => windows_bounded limit maxlen es s 2147483647%Z R). Qed.
Print Assumptions window_bound_partial.
Example window_bound_nonvacuous : let es := [settings; post 1; window 0 5; window 1 2147418112] in let s := final fresh es in
  run fresh es = Ok s /\ (65535 + sum (ev_window 0) es <= 2147483647)%Z /\
  (forall i w0, In (i, w0) (c_opened s) -> (w0 + sum (ev_window i) es <= 2147483647)%Z) /\ Exists (fun t => t_pwin t = 2147483647%Z) (c_streams s).
Proof.
  cbv zeta. split; [vm_compute; reflexivity|]. split; [vm_compute; discriminate|]. split.
  - assert (E : c_opened (final fresh [settings; post 1; window 0 5; window 1 2147418112]) = [(1, 65535%Z)]) by (vm_compute; reflexivity).
    rewrite E. intros i w0 [[= <- <-]|[]]. vm_compute. discriminate.
  - vm_compute. right. left. reflexivity.
Qed.
(** No error is raised beyond it. *)
Theorem window_overflow_refuted : exists es s, run fresh es = Ok s /\ c_win s = 4295032829%Z /\ c_goaway s = false /\ c_status s = Running /\
  c_sendq s = [mkQ 0 KSettings; mkQ 0 KSettingsAck].
Proof.
  exists [settings; window 0 2147483647; window 0 2147483647], (final fresh [settings; window 0 2147483647; window 0 2147483647]).
  computed.
Qed.
Print Assumptions window_overflow_refuted.
(** A zero increment on a stream ends the whole connection, and one on the connection resets "stream 0"
    instead of ending the connection: the scopes are exchanged. *)
Theorem zero_increment_scope_refuted : exists s s1 s2, run fresh [settings; post 1] = Ok s /\
  step s (window 1 0) = Ok s1 /\ c_goaway s1 = true /\ In (mkQ 0 (KGoaway PROTOCOL_ERROR)) (c_sendq s1) /\ state_of 1 s1 = Open /\
  step s (window 0 0) = Ok s2 /\ c_goaway s2 = false /\ In (mkQ 0 (KRst PROTOCOL_ERROR)) (c_sendq s2).
Proof.
  exists (final fresh [settings; post 1]), (final fresh [settings; post 1; window 1 0]), (final fresh [settings; post 1; window 0 0]).
  split; [vm_compute; reflexivity|]. split; [vm_compute; reflexivity|]. split; [vm_compute; reflexivity|]. split; [vm_compute; auto|].
  split; [vm_compute; reflexivity|]. split; [vm_compute; reflexivity|]. split; [vm_compute; reflexivity|]. vm_compute; auto.
Qed.
Print Assumptions zero_increment_scope_refuted.

(** ** C49: credit given to the peer *)
(** No WINDOW_UPDATE with an increment of zero or above 2^31-1 is ever sent, and the increments sent or
    queued for a stream or the connection add up exactly to the DATA bytes the server counted there
    (padded frames with one byte less). *)
Theorem window_credit_exact limit maxlen es s : Forall ev_ok es -> run (conn_init limit maxlen) es = Ok s ->
  Forall ok_w (c_wire s) /\
  (c_goaway s = false -> c_status s = Running -> forall i, alive i s -> granted i s = sum (ev_credit i) es).
Proof. exact (credit_returned limit maxlen es s). Qed.
Print Assumptions window_credit_exact.
(** Missing from the full statement: padded frames.  Without them exactly what was received is granted
    again. *)
Theorem window_credit_partial limit maxlen es s : Forall ev_unpadded es -> run (conn_init limit maxlen) es = Ok s ->
  c_goaway s = false -> c_status s = Running -> forall i, alive i s -> granted i s = sum (ev_data i) es.
Proof. exact (credit_unpadded limit maxlen es s). Qed.
Print Assumptions window_credit_partial.
Example window_credit_nonvacuous : let es := [settings; post 1; data 1 10 0; data 1 0 0; data 1 20 0; write 1; write 1; data 1 5 0] in
  Forall ev_unpadded es /\ alive 1 (final fresh es) /\ alive 0 (final fresh es) /\ run fresh es = Ok (final fresh es) /\ granted 1 (final fresh es) = 35%Z.
Proof.
  cbv zeta. split; [|split; [right; left; vm_compute; auto|split; [left; reflexivity|split; vm_compute; reflexivity]]].
  repeat (apply Forall_cons; [intros f E; cbn in E; first [discriminate E|injection E as <-; cbn; split; [lia|intros; split; [reflexivity|lia]]]|]); try apply Forall_nil.
Qed.
(** Each padded frame costs the peer a byte of credit, and a padded frame without payload is taken for
    2^32-1 bytes (here of a request whose Content-Length is above the limit). *)
Definition big (sid len fl : N) : event := ERecv (mkFrame 0 fl sid len 0) (mkOracle true (SOk 65535) 2000000 None).
Theorem window_credit_refuted :
  (exists es s, run fresh es = Ok s /\ c_goaway s = false /\ c_status s = Running /\ In 1 (map t_id (c_streams s)) /\ sum (ev_data 1) es = 100%Z /\ granted 1 s = 99%Z) /\
  (exists es s, run fresh es = Ok s /\ c_goaway s = false /\ c_status s = Running /\ sum (ev_data 1) es = 0%Z /\ In (mkQ 1 (KWindow 4294967295)) (c_sendq s)).
Proof.
  split.
  - exists [settings; post 1; data 1 100 8], (final fresh [settings; post 1; data 1 100 8]).
    split; [vm_compute; reflexivity|]. split; [vm_compute; reflexivity|]. split; [vm_compute; reflexivity|]. split; [vm_compute; auto|]. split; vm_compute; reflexivity.
  - exists [settings; post 1; big 1 0 8], (final fresh [settings; post 1; big 1 0 8]).
    split; [vm_compute; reflexivity|]. split; [vm_compute; reflexivity|]. split; [vm_compute; reflexivity|]. split; [vm_compute; reflexivity|]. vm_compute. auto.
Qed.
Print Assumptions window_credit_refuted.

(** ** C89: no access to released memory *)
(** Missing from the full statement: peers that send DATA or HEADERS on a stream on which they may not.
    Otherwise every sequence of frames, writes and answers is processed without touching a released
    stream or response. *)
Theorem frames_memory_partial limit maxlen es : polite_run (conn_init limit maxlen) es -> exists s, run (conn_init limit maxlen) es = Ok s.
Proof. exact (fun P => match answered_once limit maxlen es P with ex_intro _ s (conj R _) => ex_intro _ s R end). Qed.
Print Assumptions frames_memory_partial.
Theorem frames_memory_refuted : exists es, run fresh es = UB UseAfterFree.
Proof. exists [settings; get 1 10; get 1 10; write 100; write 100; write 100; write 100; write 100; write 100; write 100; write 100]. vm_compute. reflexivity. Qed.
Print Assumptions frames_memory_refuted.

(** ** C90: frames are sent whole *)
(** A PING that arrives between the header and the payload of a DATA frame is answered between them. *)
Theorem data_frame_split_refuted : exists es s pre, run fresh es = Ok s /\
  c_wire s = pre ++ [WDataHeader 1 10 true; WFrame (mkQ 0 KPing); WData 1 10].
Proof.
  exists [settings; get 1 10; write 100; write 100; write 100; write 100; ping; write 100; write 100], (final fresh [settings; get 1 10; write 100; write 100; write 100; write 100; ping; write 100; write 100]).
  exists [WFrame (mkQ 0 KSettings); WFrame (mkQ 0 KSettingsAck); WFrame (mkQ 1 (KHeaders false))]. split; vm_compute; reflexivity.
Qed.
Print Assumptions data_frame_split_refuted.

(** ** C91: streams do not block each other *)
(** While the first response waits for credit on its stream, however often the socket is writable
    nothing is sent for any other response. *)
Theorem stream_blocks_others limit maxlen es s r t ns o : run (conn_init limit maxlen) es = Ok s ->
  c_status s = Running -> c_goaway s = false -> c_sendq s = [] ->
  hd_error (c_resps s) = Some r -> p_phase r <> PData -> find (fun u => t_id u =? p_sid r) (c_streams s) = Some t ->
  t_esd t = false -> (t_pwin t <= 0)%Z \/ t_esh t = false ->
  run s (map (fun n => EWrite n o) ns) = Ok s.
Proof. exact (fun _ A B C D E F G H => stalled ns r t s A B C D E F G H o). Qed.
Print Assumptions stream_blocks_others.
(** Stream 1 was opened with a window of zero, stream 3 with 65535: it gets its headers but its body
    waits for credit on stream 1. *)
Definition blocked : list event := [settings; initial_window 0; get 1 10; initial_window 65535; get 3 10; write 1; write 1; write 1; write 1; write 1; write 1; write 1; write 1].
Theorem streams_independent_refuted : exists es s, run fresh es = Ok s /\ c_handled s = [1; 3] /\ c_win s = 65535%Z /\
  Exists (fun t => t_id t = 3 /\ t_pwin t = 65535%Z) (c_streams s) /\ Exists (fun r => p_sid r = 3 /\ p_len r = 10) (c_resps s) /\
  sum (data_of 3) (c_wire s) = 0%Z /\ forall ns o, run s (map (fun n => EWrite n o) ns) = Ok s.
Proof.
  exists blocked, (final fresh blocked).
  split; [vm_compute; reflexivity|]. split; [vm_compute; reflexivity|]. split; [vm_compute; reflexivity|].
  split; [vm_compute; right; right; left; split; reflexivity|]. split; [vm_compute; right; left; split; reflexivity|].
  split; [vm_compute; reflexivity|]. intros ns o.
  assert (F : exists t, find (fun u => t_id u =? 1) (c_streams (final fresh blocked)) = Some t /\ (t_pwin t <= 0)%Z /\ t_esd t = false).
  { eexists. split; [vm_compute; reflexivity|]. split; [discriminate|reflexivity]. }
  destruct F as [t [F [W D]]].
  apply (stalled ns (mkResp 1 10 false PHeader 0) t); try (vm_compute; reflexivity); [discriminate|exact F|exact D|left; exact W].
Qed.
Print Assumptions streams_independent_refuted.

(** ** C92: header blocks in several frames *)
(** A CONTINUATION frame never leads to an answer; one that ends the block ends the connection. *)
Theorem continuation_never_answered limit maxlen es s f o s' :
  run (conn_init limit maxlen) es = Ok s -> c_goaway s = false -> c_status s = Running -> f_type f = 9 -> f_sid f <> 0 ->
  step s (ERecv f o) = Ok s' ->
  c_handled s' = c_handled s /\ c_resps s' = c_resps s /\ (END_HEADERS f = true -> c_goaway s' = true).
Proof. exact (fun R => continuation_refused s f o s' (proj1 (reach_inv limit maxlen es s R))). Qed.
Print Assumptions continuation_never_answered.
Theorem continuation_request_refuted : exists s s', run fresh [settings; headers_first 1] = Ok s /\ c_goaway s = false /\
  step s (headers_rest 1) = Ok s' /\ c_handled s' = [] /\ c_goaway s' = true /\ In (mkQ 0 (KGoaway PROTOCOL_ERROR)) (c_sendq s').
Proof.
  exists (final fresh [settings; headers_first 1]), (final fresh [settings; headers_first 1; headers_rest 1]).
  split; [vm_compute; reflexivity|]. split; [vm_compute; reflexivity|]. split; [vm_compute; reflexivity|]. split; [vm_compute; reflexivity|].
  split; [vm_compute; reflexivity|]. vm_compute; auto.
Qed.
Print Assumptions continuation_request_refuted.
