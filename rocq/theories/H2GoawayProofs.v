(** Proofs: which GOAWAY frames the connection of H2Conn.v sends. *)
From Verif Require Import Base H2Conn.
From Coq Require Import Lia ZifyBool ZifyNat ZifyN.
Local Open Scope N_scope.

Definition is_goaway (q : qframe) : bool := match q_kind q with KGoaway _ => true | _ => false end.
Definition goaway_item (i : item) : bool := match i with WFrame q => is_goaway q | _ => false end.
(** Without a connection error no GOAWAY frame is waiting, and none was sent. *)
Definition quiet (s : conn) : Prop :=
  (c_goaway s = false -> forall q, In q (c_sendq s) -> is_goaway q = false) /\ (forall i, In i (c_wire s) -> goaway_item i = false) /\
  c_status s <> Failed.
(** After an emergency one was sent. *)
Definition quiet_or_failed (s : conn) : Prop := (c_status s = Failed /\ In (WFrame (mkQ 0 (KGoaway INTERNAL_ERROR))) (c_wire s)) \/ quiet s.
Lemma q_emergency s : quiet_or_failed (emergency s).
Proof. left. split; [reflexivity|]. cbn. apply in_or_app. right. now left. Qed.

Lemma q_same s s' : c_goaway s' = c_goaway s -> c_sendq s' = c_sendq s -> c_wire s' = c_wire s -> (c_status s' = Failed -> c_status s = Failed) -> quiet s -> quiet s'.
Proof. intros A B C D (Q & W & F). unfold quiet. rewrite A, B, C. refine (conj Q (conj W _)). intros X. exact (F (D X)). Qed.
Lemma q_upd sid f s : quiet s -> quiet (upd sid f s). Proof. now apply q_same. Qed.
Lemma q_enqueue q s : is_goaway q = false -> quiet s -> quiet (enqueue q s).
Proof.
  intros N (Q & W & F). split; [|split; [exact W|exact F]]. intros G x I. cbn in I. apply in_app_or in I as [I|[<-|[]]]; [now apply Q|exact N].
Qed.
Lemma q_conn_error c s : quiet s -> quiet (conn_error c s).
Proof. intros (Q & W & F). split; [discriminate|]. split; [exact W|exact F]. Qed.
Lemma q_stream_error sid c s : quiet s -> quiet (stream_error sid c s).
Proof. intros H. apply q_upd. now apply q_enqueue. Qed.
Lemma q_sendq l s : (forall q, In q l -> In q (c_sendq s)) -> quiet s -> quiet (set_sendq l s).
Proof. intros H (Q & W & F). split; [|split; [exact W|exact F]]. intros G q I. apply Q; [exact G|]. now apply H. Qed.
Lemma q_close sid s : quiet s -> quiet (close_stream sid s).
Proof. intros H. unfold close_stream. apply q_sendq; [|now apply (q_same s)]. intros q I. cbn. apply filter_In in I. tauto. Qed.
Lemma coalesce_in sid l : forall n x, In x (snd (coalesce sid n l)) -> In x l.
Proof.
  induction l as [|a l IH]; intros n x; cbn [coalesce]; [easy|].
  assert (D : In x (snd (let (m, r) := coalesce sid n l in (m, a :: r))) -> In x (a :: l)).
  { specialize (IH n x). destruct (coalesce sid n l). intros [->|H]; [now left|right; auto]. }
  destruct (q_kind a); auto. destruct (_ && _); auto. intro H. right. eauto.
Qed.
Lemma q_window sid n s : quiet s -> quiet (window_update sid n s).
Proof.
  intros H. unfold window_update. destruct (coalesce sid n (c_sendq s)) as [m q] eqn:E. apply q_enqueue; [reflexivity|]. apply q_sendq; [|exact H].
  intros x I. apply (coalesce_in sid _ n). now rewrite E.
Qed.
Lemma q_log_wire i s : goaway_item i = false -> quiet s -> quiet (log_wire i s).
Proof. intros N (Q & W & F). split; [exact Q|]. split; [|exact F]. intros x I. cbn in I. apply in_app_or in I as [I|[<-|[]]]; [now apply W|exact N]. Qed.
Lemma q_create sid s s' ok : create_stream sid s = (s', ok) -> quiet s -> quiet s'.
Proof.
  unfold create_stream. intros E H. destruct (sid <=? c_max_sid s); [injection E as <- <-; now apply q_conn_error|].
  destruct (match c_limit s with Some m => _ | None => _ end); [injection E as <- <-; now apply q_conn_error|].
  destruct (_ && _); [injection E as <- <-; now apply q_conn_error|]. injection E as <- <-. now apply (q_same s).
Qed.
Lemma q_set_head r s : quiet s -> quiet (set_head r s).
Proof. unfold set_head. destruct (c_resps s); [auto|]. now apply q_same. Qed.
Lemma q_parse t len cl s s' : parse_data t len cl s = Some s' -> quiet s -> quiet s'.
Proof.
  unfold parse_data. intros E H. destruct (len =? 0); [injection E as <-; exact H|]. destruct (t_discard t); [injection E as <-; now do 2 apply q_window|].
  destruct (t_body t) as [[n total]|].
  - destruct (total <? n + len); [discriminate|]. injection E as <-. now do 2 apply q_window; apply q_upd.
  - destruct (c_maxlen s <? cl); [injection E as <-; now do 2 apply q_window; apply q_upd|]. destruct (cl <? len); [discriminate|]. injection E as <-.
    now do 2 apply q_window; apply q_upd.
Qed.
Lemma q_finish t r s : quiet s -> quiet (finish t r s).
Proof. intros H. unfold finish. destruct (sstate_eqb _ _); apply q_set_head; now apply q_upd. Qed.
Lemma q_send_data t r n s : quiet s -> quiet (send_data t r n s).
Proof.
  intros H. unfold send_data. cbv zeta. destruct (p_phase r).
  - destruct (_ || _)%bool; [exact H|]. destruct (p_len r =? 0); [now apply q_finish|]. apply q_set_head. now apply q_log_wire.
  - destruct (p_nocontent r); [now apply (q_same s)|]. destruct (p_len r <=? p_sent r); [now apply q_finish|]. destruct (_ =? 0); [exact H|].
    assert (G : forall r', quiet (set_head r' (log_wire (WData (t_id t) (N.min n (p_len r - p_sent r))) (set_win (c_win s - Z.of_N (N.min n (p_len r - p_sent r)))%Z
      (upd (t_id t) (fun t => st_pwin (t_pwin t - Z.of_N (N.min n (p_len r - p_sent r)))%Z t) s))))).
    { intros r'. apply q_set_head. apply q_log_wire; [reflexivity|]. now apply (q_same s). }
    destruct (_ <=? _); [apply q_finish; apply G|apply G].
  - destruct (_ || _)%bool; [exact H|]. destruct (p_len r =? 0); [now apply q_finish|]. apply q_set_head. now apply q_log_wire.
Qed.
Lemma q_response_done t s : quiet s -> quiet (response_done t s).
Proof. intros H. unfold response_done. destruct (sstate_eqb _ _); [apply q_close|]; now apply (q_same s). Qed.
Lemma q_response_event r n s s' : response_event r n s = Ok s' -> quiet s -> quiet s'.
Proof.
  unfold response_event. intros E H. destruct (List.find _ _) as [t|]; [|discriminate]. destruct (t_esd t); [injection E as <-; apply q_response_done; now apply (q_same s)|].
  destruct (t_esh t); [injection E as <-; now apply q_send_data|]. injection E as <-. exact H.
Qed.
Lemma q_new_response sid len nc s s' : new_response sid len nc s = Ok s' -> quiet s -> quiet s'.
Proof.
  unfold new_response. intros E H. destruct (List.find _ _) as [t|]; [|discriminate]. destruct (t_esd t); [injection E as <-; now apply q_response_done|].
  destruct (t_esh t).
  - destruct (_ || _)%bool; [injection E as <-; exact H|]. destruct (sstate_eqb _ _); injection E as <-; [now apply q_upd|exact H].
  - destruct (sstate_eqb _ _); [|discriminate]. injection E as <-. apply q_enqueue; [reflexivity|]. now apply (q_same s).
Qed.
Lemma q_handle sid o s s' : handle_request sid o s = Ok s' -> quiet s -> quiet_or_failed s'.
Proof.
  unfold handle_request. cbv zeta. intros E H. destruct (o_resp o) as [[len nc]|]; [|injection E as <-; apply q_emergency].
  right. apply (q_new_response _ _ _ _ _ E). now apply (q_same s).
Qed.
Lemma q_answer sid o s s' : answer_if_complete sid o s = Ok s' -> quiet s -> quiet_or_failed s'.
Proof.
  unfold answer_if_complete. intros E H. destruct (find_stream sid s) as [t|]; [|discriminate]. destruct (_ && _); [|injection E as <-; now right].
  apply (q_handle _ _ _ _ E). now apply q_upd.
Qed.
Ltac qs :=
  repeat match goal with
  | |- quiet (if ?b then _ else _) => destruct b
  | |- quiet (match ?x with _ => _ end) => destruct x
  | |- quiet (conn_error _ _) => apply q_conn_error
  | |- quiet (stream_error _ _ _) => apply q_stream_error
  | |- quiet (upd _ _ _) => apply q_upd
  | |- quiet (enqueue _ _) => apply q_enqueue; [reflexivity|]
  | |- quiet (set_phase _ ?s) => apply (q_same s); [reflexivity|reflexivity|reflexivity|exact (fun h => h)|]
  | |- quiet (set_pinit _ ?s) => apply (q_same s); [reflexivity|reflexivity|reflexivity|exact (fun h => h)|]
  | |- quiet (set_lsid _ ?s) => apply (q_same s); [reflexivity|reflexivity|reflexivity|exact (fun h => h)|]
  | |- quiet (set_win _ ?s) => apply (q_same s); [reflexivity|reflexivity|reflexivity|exact (fun h => h)|]
  | |- quiet (log_credit _ ?s) => apply (q_same s); [reflexivity|reflexivity|reflexivity|exact (fun h => h)|]
  | H : quiet ?s |- quiet ?s => exact H
  end.
Lemma q_set_goaway s : quiet s -> quiet (set_goaway true s).
Proof. intros (Q & W & F). split; [discriminate|]. split; [exact W|exact F]. Qed.
Lemma q_recv f o s s' : recv_frame f o s = Ok s' -> quiet s -> quiet_or_failed s'.
Proof.
  unfold recv_frame. intros E H. set (s0 := if 16384 <? f_len f then conn_error PROTOCOL_ERROR s else s) in E.
  assert (H0 : quiet s0) by (unfold s0; qs). clearbody s0. clear H.
  destruct (match find_stream (f_sid f) s0 with Some _ => (s0, true) | None => create_stream (f_sid f) s0 end) as [s1 ok] eqn:C.
  assert (H1 : quiet s1) by (destruct (find_stream (f_sid f) s0); [injection C as <- <-; exact H0|exact (q_create _ _ _ _ C H0)]). clear C H0.
  destruct ok; cbn [negb] in E; [|injection E as <-; now right]. cbv zeta in E.
  set (s2 := if f_sid f =? 0 then s1 else upd (f_sid f) (st_last (Some (f_type f, f_flags f))) s1) in E.
  assert (H2 : quiet s2) by (unfold s2; qs). clearbody s2. clear H1.
  destruct (find_stream (f_sid f) s2) as [t|] eqn:F; [|discriminate].
  assert (BODY : match f_type f with 0 => recv_data t f o s2 | 1 => recv_headers t f o s2 | 2 => recv_priority t f s2 | 3 => recv_rst t f s2 | 4 => recv_settings f o s2
     | 5 => recv_push t f s2 | 6 => recv_ping f s2 | 7 => recv_goaway f s2 | 8 => recv_window_update t f s2 | 9 => recv_continuation t f s2 | _ => Ok s2 end = Ok s' -> quiet_or_failed s').
  { clear E. intros E.
    assert (QR : forall x, Ok x = Ok s' -> quiet x -> quiet_or_failed s') by (intros x [= <-] Q; now right).
    destruct (f_type f) as [|[[[[p|p|]|[p|p|]|]|[[p|p|]|[p|p|]|]|]|[[[p|p|]|[p|p|]|]|[[p|p|]|[p|p|]|]|]|]]; try exact (QR _ E H2);
    match type of E with
      | recv_data _ _ _ _ = _ => unfold recv_data in E; cbv zeta in E; match type of E with match parse_data t ?len ?cl ?x with _ => _ end = _ =>
          destruct (parse_data t len cl x) as [s3|] eqn:PD; [|injection E as <-; apply q_emergency] end;
          apply (q_answer _ _ _ _ E); assert (quiet s3) by (apply (q_parse _ _ _ _ _ PD); qs); qs
      | recv_continuation _ _ _ = _ => unfold recv_continuation in E; destruct (t_last t) as [[ty fl]|]; [|discriminate]; apply (QR _ E); qs
      | recv_goaway _ _ = _ => unfold recv_goaway in E; cbv zeta in E; apply (QR _ E); match goal with |- quiet (if ?b then _ else _) => destruct b end; qs; apply q_set_goaway; qs
      | recv_push _ _ _ = _ => unfold recv_push in E; cbv zeta in E; match type of E with (let (_, _) := create_stream ?a ?x in _) = _ => destruct (create_stream a x) as [s3 ok] eqn:CS end;
          assert (quiet s3) by (apply (q_create _ _ _ _ CS); qs); destruct ok; [apply (QR _ E); assumption|injection E as <-; apply q_emergency]
      | recv_rst _ _ _ = _ => unfold recv_rst in E; apply (QR _ E); cbv zeta; qs
      | recv_ping _ _ = _ => unfold recv_ping in E; apply (QR _ E); cbv zeta; qs
      | recv_window_update _ _ _ = _ => unfold recv_window_update in E; apply (QR _ E); cbv zeta; qs
      | recv_settings _ _ _ = _ => unfold recv_settings in E; cbv zeta in E; destruct (ACK f); [apply (QR _ E); qs|]; destruct (o_settings o); apply (QR _ E); qs
      | recv_priority _ _ _ = _ => unfold recv_priority in E; apply (QR _ E); cbv zeta; qs
      | recv_headers _ _ _ _ = _ => unfold recv_headers in E; cbv zeta in E; apply (q_answer _ _ _ _ E); qs
      end. }
  destruct (c_phase s2); [destruct (f_type f =? 4); [exact (BODY E)|injection E as <-; right; now apply q_conn_error]|exact (BODY E)].
Qed.
Lemma q_goaway_loop ts : forall n o s s', goaway_loop ts n o s = Ok s' -> quiet s -> quiet_or_failed s'.
Proof.
  induction ts as [|t ts IH]; intros n o s s' E H; cbn [goaway_loop] in E; [injection E as <-; right; now apply (q_same s)|].
  destruct (negb _ || _)%bool; [apply (IH _ _ _ _ E); now apply q_close|]. destruct (yetsend (t_id t) s); [exact (q_handle _ _ _ _ E H)|].
  destruct (n =? 0); [injection E as <-; now right|discriminate].
Qed.
Lemma q_goaway_handle n o s s' : goaway_handle n o s = Ok s' -> quiet s -> quiet_or_failed s'.
Proof.
  unfold goaway_handle. intros E H. destruct (_ || _)%bool; [injection E as <-; right; now apply (q_same s)|]. exact (q_goaway_loop _ _ _ _ _ E H).
Qed.
Lemma q_step s e s' : step s e = Ok s' -> quiet_or_failed s -> quiet_or_failed s'.
Proof.
  unfold step. intros E H. destruct (c_status s) eqn:ST; try (injection E as <-; exact H). destruct H as [(H & _)|H]; [congruence|].
  destruct (c_goaway s) eqn:G; [destruct e; exact (q_goaway_handle _ _ _ _ E H)|].
  destruct e as [f o|n o|o]; [exact (q_recv _ _ _ _ E H)| |injection E as <-; right; now apply (q_same s)].
  destruct (c_sendq s) as [|q t] eqn:SQ.
  - destruct (c_resps s) as [|r rs]; [injection E as <-; now right|]. right. exact (q_response_event _ _ _ _ E H).
  - injection E as <-. right. destruct (n =? 0); [exact H|]. unfold send_frame. cbv zeta.
    assert (NG : is_goaway q = false) by (apply (proj1 H G); rewrite SQ; now left).
    assert (Q1 : quiet (log_wire (WFrame q) (set_sendq (tl (c_sendq s)) s))).
    { apply q_log_wire; [exact NG|]. apply q_sendq; [|exact H]. rewrite SQ. cbn [tl]. intros x I. now right. }
    destruct (q_kind q); exact Q1.
Qed.
Lemma q_run es : forall s s', run s es = Ok s' -> quiet_or_failed s -> quiet_or_failed s'.
Proof.
  induction es as [|e es IH]; intros s s' E H; cbn [run] in E; [injection E as <-; exact H|].
  destruct (step s e) as [s1|u] eqn:S; [|discriminate]. cbn [obind] in E. apply (IH _ _ E). exact (q_step _ _ _ S H).
Qed.
Lemma init_quiet limit maxlen : quiet_or_failed (conn_init limit maxlen).
Proof. right. split; [intros _ x []|]. split; [intros x []|discriminate]. Qed.
Lemma never_goaway limit maxlen es s q : run (conn_init limit maxlen) es = Ok s -> c_status s <> Failed -> In (WFrame q) (c_wire s) -> is_goaway q = false.
Proof.
  intros R F I. destruct (q_run es _ _ R (init_quiet limit maxlen)) as [(Q & _)|(_ & W & _)]; [congruence|]. exact (W _ I).
Qed.
Lemma failed_goaway limit maxlen es s : run (conn_init limit maxlen) es = Ok s -> c_status s = Failed -> In (WFrame (mkQ 0 (KGoaway INTERNAL_ERROR))) (c_wire s).
Proof. intros R F. destruct (q_run es _ _ R (init_quiet limit maxlen)) as [(_ & Q)|(_ & _ & W)]; [exact Q|contradiction]. Qed.
