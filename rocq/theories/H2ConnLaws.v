(** Laws of the HTTP/2 connection drawn from the invariants of H2ConnProofs.v: how the states of
    streams change, when streams are opened, and how much data is sent. *)
From Coq Require Import Sorting.Sorted Relations.
From Verif Require Import Base H2Conn H2ConnProofs.
Open Scope N_scope.

(* ---------- received frames and stream states ---------- *)

(** Frames on stream 0 leave the streams of the client alone. *)
Lemma dispatch_root t f o s s' : f_sid f = 0 -> t_id t = 0 -> In 0 (ids s) -> f_type f <> 0 -> f_type f <> 1 ->
  dispatch t f o s = Ok s' -> c_status s' = Running ->
  forall i, i <> 0 -> state_of i s' = state_of i s.
Proof.
  intros Z Et Is T0 T1 H Ru i Ni. unfold dispatch in H. revert H.
  assert (C : f_type f = 2 \/ f_type f = 3 \/ f_type f = 4 \/ f_type f = 5 \/ f_type f = 6 \/ f_type f = 7 \/
    f_type f = 8 \/ f_type f = 9 \/ 9 < f_type f) by lia.
  assert (U : forall x u, In 0 (ids u) -> state_of i (upd 0 (st_state x) u) = state_of i u).
  { intros x u Iu. rewrite state_of_set by exact Iu. destruct (i =? 0) eqn:Q; [lia|reflexivity]. }
  destruct C as [T|[T|[T|[T|[T|[T|[T|[T|T]]]]]]]]; rewrite ?T.
  - unfold recv_priority. rewrite Et. intros [= <-]. cbn [N.eqb]. destruct (f_len f =? 5); [reflexivity|].
    unfold stream_error. rewrite U; [reflexivity|exact Is].
  - unfold recv_rst. rewrite Et. intros [= <-]. cbn [N.eqb].
    destruct (f_len f =? 4), (sstate_eqb _ _); (rewrite U; [reflexivity|exact Is]).
  - intro H. unfold recv_settings in H. rewrite Z in H.
    destruct (ACK f); [injection H as <-|destruct (o_settings o); injection H as <-];
      destruct (f_len f mod 6 =? 0); reflexivity.
  - intro H. exfalso. unfold recv_push in H. rewrite Z in H.
    destruct (create_stream _ _) as [s4 ok] eqn:C. destruct ok.
    + apply create_spec in C. destruct C as [L _]. lia.
    + injection H as <-. discriminate Ru.
  - intro H. unfold recv_ping in H. injection H as <-.
    destruct (f_sid f =? 0), (f_len f =? 8); reflexivity.
  - intro H. unfold recv_goaway in H. injection H as <-.
    destruct (f_sid f =? 0); cbv zeta; destruct (_ <=? _); reflexivity.
  - intro H. unfold recv_window_update in H. injection H as <-. rewrite Z, Et. cbn [N.eqb].
    destruct (f_val f =? 0), (f_len f =? 4); try reflexivity;
      unfold stream_error; match goal with |- state_of i (set_win _ (log_credit _ ?u)) = _ =>
        change (state_of i u = state_of i s) end; (rewrite U; [reflexivity|exact Is]).
  - intro H. unfold recv_continuation in H.
    destruct (t_last t) as [[ty fl]|]; [|discriminate]. injection H as <-.
    set (s1 := if _ && _ then s else _). assert (still s s1) as S by (unfold s1; destruct (_ && _); reflexivity).
    destruct (END_HEADERS f); [rewrite state_of_same by now intro|]; now apply state_of_still.
  - intro H. revert H.
    apply (type_cases (f_type f) _ _ _ _ _ _ _ _ _ _ _ (fun r => r = Ok s' -> state_of i s' = state_of i s));
      intro X; try lia. now intros [= <-].
Qed.

Theorem received_state s f o s' : SInv s -> RInv s -> PInv s -> c_goaway s = false -> c_status s = Running ->
  polite s (ERecv f o) -> step s (ERecv f o) = Ok s' -> c_goaway s' = false -> c_status s' = Running ->
  forall i, i <> 0 -> state_of i s' = if i =? f_sid f then rfc_recv f (state_of i s) else state_of i s.
Proof.
  intros I R P G Ru Po H G' Ru' i Ni. unfold step in H. rewrite Ru, G in H.
  pose proof (i_root _ I G) as Ro. rewrite recv_frame_enter in H.
  destruct (enter f s) as [s1 ok] eqn:E.
  pose proof (enter_rooted _ _ _ _ I Ro E) as R1. pose proof (enter_effs anything _ _ _ _ eq_refl I Ro E) as E1.
  assert (I1 : SInv s1) by (eapply SInv_effs; eassumption).
  pose proof (enter_polite _ _ _ _ I Ro P E) as (P1 & Is1 & Nh).
  destruct ok; cbn [negb] in H.
  2:{ injection H as <-. destruct (enter_spec _ _ _ _ I Ro E) as (s0 & _ & _ & [(X & _)|[(X & _)|(_ & _ & -> & _)]]);
      try discriminate X. discriminate G'. }
  specialize (Is1 eq_refl). specialize (Nh eq_refl).
  cbv zeta in H. set (s2 := note_last f s1) in *.
  assert (K2 : keep s1 s2) by (unfold s2, note_last; keep_chain).
  assert (Q2 : quiet s1 s2) by apply quiet_note.
  assert (I2 : SInv s2) by (eapply SInv_quiet; eassumption).
  assert (R2 : rooted s2) by (eapply rooted_quiet; eassumption).
  assert (P2 : PInv s2) by (eapply PInv_keep; eassumption).
  assert (Is2 : In (f_sid f) (ids s2)) by (now rewrite (kp_ids _ _ K2)).
  rewrite <- (kp_handled _ _ K2) in Nh.
  assert (S2 : forall j, state_of j s2 = state_of j s) by (intro; now apply enter_state).
  destruct (find_stream (f_sid f) s2) as [t|] eqn:F; [|discriminate].
  apply find_in in F as [It Et]; [|exact R2].
  assert (D : dispatch t f o s2 = Ok s').
  { unfold dispatch. destruct (c_phase s2); [|exact H].
    destruct (f_type f =? 4); [exact H|]. injection H as <-. discriminate G'. }
  clear H. destruct Po as (W0 & W1 & W9).
  assert (St : state_of (f_sid f) s = t_state t) by (rewrite <- S2, <- Et; now apply state_of_in).
  destruct (N.eq_dec (f_sid f) 0) as [Z|Z].
  - replace (i =? f_sid f) with false by lia. rewrite <- S2.
    eapply dispatch_root; try eassumption.
    + congruence.
    + now rewrite <- Z.
    + intro T. destruct (W0 T). congruence.
    + intro T. destruct (W1 T). congruence.
  - rewrite <- S2. eapply dispatch_state; try eassumption.
    + intro T. destruct (W0 T) as [_ X]. split; [congruence|]. apply Nh. now right.
    + intro T. destruct (W1 T) as [_ X]. rewrite St in *. split; [exact X|]. now apply Nh.
Qed.

(** What sending does to the states: nothing, or half-closed (remote) becomes closed, or a closed
    stream is forgotten. *)
Lemma state_of_close sid s i : state_of i (close_stream sid s) = if i =? sid then Idle else state_of i s.
Proof.
  unfold state_of, close_stream, set_sendq, set_count, set_streams. cbn [c_streams].
  induction (c_streams s) as [|a l IH]; cbn [filter List.find]; [destruct (i =? sid); reflexivity|].
  destruct (t_id a =? sid) eqn:Q; cbn [negb].
  - rewrite IH. destruct (i =? sid) eqn:J; [reflexivity|]. destruct (t_id a =? i) eqn:K; [lia|reflexivity].
  - cbn [List.find]. destruct (t_id a =? i) eqn:K; [|exact IH]. destruct (i =? sid) eqn:J; [lia|reflexivity].
Qed.
Definition sent_change (i : N) (s s' : conn) : Prop :=
  state_of i s' = state_of i s
  \/ state_of i s = HalfRemote /\ state_of i s' = Closed
  \/ state_of i s = Closed /\ ~ In i (ids s').
Lemma sent_set_head r s i : state_of i (set_head r s) = state_of i s.
Proof. unfold set_head. destruct (c_resps s); reflexivity. Qed.
Lemma sent_finish t r s i : SInv s -> In t (c_streams s) -> sent_change i s (finish t r s).
Proof.
  intros I It. unfold finish. destruct (sstate_eqb (t_state t) HalfRemote) eqn:Q.
  - destruct (N.eq_dec i (t_id t)) as [->|Ne].
    + right; left. rewrite (state_of_in _ _ I It). split; [destruct (t_state t); (discriminate || reflexivity)|].
      rewrite sent_set_head, state_of_upd by reflexivity.
      destruct (List.find _ _) as [u|] eqn:F.
      * apply find_ids in F as [_ E]. rewrite E, N.eqb_refl. reflexivity.
      * pose proof (find_none _ _ F t It) as X. cbv beta in X. lia.
    + left. rewrite sent_set_head, state_of_upd by reflexivity. unfold state_of.
      destruct (List.find _ _) as [u|] eqn:F; [|reflexivity].
      apply find_ids in F as [_ E]. rewrite E. destruct (i =? t_id t) eqn:J; [lia|reflexivity].
  - left. rewrite sent_set_head. now apply state_of_same.
Qed.
Lemma sent_first i a b c : state_of i b = state_of i a -> sent_change i b c -> sent_change i a c.
Proof. unfold sent_change. intros ->. auto. Qed.
Lemma sent_data_state t r n s i : SInv s -> In t (c_streams s) -> hd_error (c_resps s) = Some r ->
  sent_change i s (send_data t r n s).
Proof.
  intros I It Hr.
  assert (H : sent_change i s (if ((t_pwin t <=? 0) || (c_win s <=? 0))%Z then s
    else if p_len r =? 0 then finish t r s
    else set_head (mkResp (p_sid r) (p_len r) (p_nocontent r) PData 0)
        (log_wire (WDataHeader (t_id t) (p_len r mod 16777216) (Z.of_N (p_len r) <? Z.min (t_pwin t) (c_win s))%Z) s))).
  { destruct ((t_pwin t <=? 0) || _)%Z; [now left|].
    destruct (p_len r =? 0); [now apply sent_finish|]. left. now rewrite sent_set_head. }
  unfold send_data. destruct (p_phase r); try exact H. clear H.
  destruct (p_nocontent r) eqn:NC; [now left|].
  destruct (p_len r <=? p_sent r); [now apply sent_finish|].
  set (k := N.min n _). destruct (k =? 0); [now left|]. cbv zeta.
  set (r' := mkResp _ _ _ _ _).
  set (sp := log_wire (WData (t_id t) k) _). set (s1 := set_head r' sp).
  assert (S1 : state_of i s1 = state_of i s).
  { unfold s1. rewrite sent_set_head. unfold sp.
    change (state_of i (upd (t_id t) (fun t => st_pwin (t_pwin t - Z.of_N k)%Z t) s) = state_of i s).
    now apply state_of_same. }
  destruct (p_len r <=? p_sent r + k); [|now left].
  (* the stream as it is after the payload was counted *)
  set (t1 := st_pwin (t_pwin t - Z.of_N k)%Z t).
  assert (F : finish t r' s1 = finish t1 r' s1) by reflexivity. rewrite F.
  apply (sent_first i s s1); [exact S1|].
  assert (X : effs s s1).
  { unfold s1. eapply effs_trans.
    - apply rt_step. apply (e_payload anything (t_id t) k s eq_refl). now apply in_map.
    - apply set_head_effs. exists r. split; [exact Hr|]. cbn. auto. }
  apply sent_finish; [eapply SInv_effs; eassumption|].
  unfold s1, sp, set_head. destruct (c_resps _); cbn [set_resps log_wire set_win upd set_streams c_streams];
    (apply in_map_iff; exists t; split; [now rewrite N.eqb_refl|exact It]).
Qed.
Theorem sent_state s n o s' : SInv s -> c_goaway s = false -> c_status s = Running ->
  step s (EWrite n o) = Ok s' -> forall i, sent_change i s s'.
Proof.
  intros I G Ru H i. unfold step in H. rewrite Ru, G in H. destruct (c_sendq s) as [|q rest].
  - destruct (c_resps s) as [|r rs] eqn:Er; [injection H as <-; now left|].
    unfold response_event in H. destruct (List.find _ _) as [t|] eqn:F; [|discriminate].
    apply find_ids in F as [It Et]. destruct (t_esd t).
    + injection H as <-. unfold response_done. destruct (sstate_eqb (t_state t) Closed) eqn:Q; [|now left].
      unfold sent_change. rewrite state_of_close. destruct (i =? t_id t) eqn:J; [|now left].
      assert (i = t_id t) as -> by lia. right; right. rewrite (state_of_in _ _ I It).
      split; [destruct (t_state t); (discriminate || reflexivity)|].
      rewrite ids_close. intro X. apply filter_In in X as [_ X]. rewrite N.eqb_refl in X. discriminate.
    + destruct (t_esh t); injection H as <-; [|now left]. apply sent_data_state; auto. now rewrite Er.
  - injection H as <-. left. destruct (n =? 0); [reflexivity|]. unfold send_frame.
    destruct (q_kind q); try reflexivity. rewrite state_of_same by now intro. reflexivity.
Qed.

(* ---------- a closed stream stays closed ---------- *)

(** Streams of [s'] other than [x] come from streams of [s], and closed ones are still closed. *)
Definition cl (x : option N) (s s' : conn) : Prop := forall t', In t' (c_streams s') -> Some (t_id t') <> x ->
  exists t, In t (c_streams s) /\ t_id t = t_id t' /\ (t_state t = Closed -> t_state t' = Closed).
Lemma cl_same x s s' : c_streams s' = c_streams s -> cl x s s'.
Proof. intros E t' I _. rewrite E in I. exists t'. auto. Qed.
Lemma cl_refl x s : cl x s s. Proof. now apply cl_same. Qed.
Lemma cl_trans x a b c : cl x a b -> cl x b c -> cl x a c.
Proof.
  intros A B t' I N. destruct (B t' I N) as (t1 & I1 & E1 & C1).
  destruct (A t1 I1) as (t0 & I0 & E0 & C0); [now rewrite E1|]. exists t0. split; [assumption|].
  split; [congruence|auto].
Qed.
Lemma cl_upd x sid f s : (forall t, In t (c_streams s) -> t_id t = sid -> t_id (f t) = t_id t /\
   (Some sid <> x -> t_state t = Closed -> t_state (f t) = Closed)) -> cl x s (upd sid f s).
Proof.
  intros F t' I N. unfold upd, set_streams in I. cbn [c_streams] in I. apply in_map_iff in I as (t & E & I).
  exists t. split; [exact I|]. destruct (t_id t =? sid) eqn:Q; subst t'; [|auto].
  assert (t_id t = sid) as Et by lia. destruct (F t I Et) as [A B]. split; [congruence|]. apply B. congruence.
Qed.
Lemma cl_tame x sid f s : (forall t, t_id (f t) = t_id t /\ t_state (f t) = t_state t) -> cl x s (upd sid f s).
Proof. intro F. apply cl_upd. intros t _ _. destruct (F t) as [A B]. split; [exact A|]. now rewrite B. Qed.
Lemma cl_closed x sid s : cl x s (upd sid (st_state Closed) s).
Proof. apply cl_upd. now intros. Qed.
Lemma cl_ended x sid s : cl x s (upd sid (fun t => st_esd true (st_state Closed t)) s).
Proof. apply cl_upd. now intros. Qed.
Lemma cl_half sid s : cl (Some sid) s (upd sid (st_state HalfRemote) s).
Proof. apply cl_upd. intros. split; [reflexivity|]. now intro. Qed.
Lemma cl_close x sid s : cl x s (close_stream sid s).
Proof. intros t' I _. cbn in I. apply filter_In in I as [I _]. exists t'. auto. Qed.
Lemma cl_enqueue x q s : cl x s (enqueue q s). Proof. now apply cl_same. Qed.
Lemma cl_conn_error x c s : cl x s (conn_error c s). Proof. now apply cl_same. Qed.
Lemma cl_stream_error x sid c s : cl x s (stream_error sid c s).
Proof. unfold stream_error. eapply cl_trans; [apply cl_enqueue|apply cl_closed]. Qed.
Lemma cl_emergency x s : cl x s (emergency s). Proof. now apply cl_same. Qed.
Lemma cl_window x sid n s : cl x s (window_update sid n s).
Proof. apply cl_same. apply window_update_still. Qed.
Lemma cl_if x (b : bool) s s1 s2 : cl x s s1 -> cl x s s2 -> cl x s (if b then s1 else s2).
Proof. now destruct b. Qed.
Ltac cl_chain :=
  repeat first
  [ apply cl_refl | apply cl_conn_error | apply cl_stream_error | apply cl_emergency | apply cl_window
  | apply cl_enqueue | apply cl_closed | apply cl_ended | apply cl_half | apply cl_close
  | (apply cl_tame; now intro) | apply cl_if
  | match goal with
    | |- cl _ ?s (upd ?i ?f ?u) => apply (cl_trans _ s u); [|first [apply cl_closed|apply cl_ended|apply cl_half|apply cl_tame; now intro]]
    | |- cl _ ?s (conn_error ?c ?u) => apply (cl_trans _ s u); [|apply cl_conn_error]
    | |- cl _ ?s (stream_error ?i ?c ?u) => apply (cl_trans _ s u); [|apply cl_stream_error]
    | |- cl _ ?s (enqueue ?c ?u) => apply (cl_trans _ s u); [|apply cl_enqueue]
    | |- cl _ ?s (emergency ?u) => apply (cl_trans _ s u); [|apply cl_emergency]
    | |- cl _ ?s (window_update ?i ?c ?u) => apply (cl_trans _ s u); [|apply cl_window]
    | |- cl _ ?s (close_stream ?i ?u) => apply (cl_trans _ s u); [|apply cl_close]
    | |- cl _ ?s (if _ then _ else _) => apply cl_if
    end ].

Lemma cl_parse x t len c s s' : parse_data t len c s = Some s' -> cl x s s'.
Proof.
  unfold parse_data. destruct (len =? 0); [intros [= <-]; apply cl_refl|].
  destruct (t_discard t); [intros [= <-]; cl_chain|].
  destruct (t_body t) as [[n total]|].
  - destruct (total <? n + len); [discriminate|]. intros [= <-]. cl_chain.
  - destruct (c_maxlen s <? c); [intros [= <-]; cl_chain|].
    destruct (c <? len); [discriminate|]. intros [= <-]. cl_chain.
Qed.
Lemma cl_done x t s : cl x s (response_done t s).
Proof.
  unfold response_done. cbv zeta. set (s1 := set_max_handled _ s).
  assert (cl x s s1) by now apply cl_same. apply cl_if; [|assumption]. eapply cl_trans; [eassumption|apply cl_close].
Qed.
Lemma cl_handle x sid o s s' : handle_request sid o s = Ok s' -> cl x s s'.
Proof.
  unfold handle_request. set (s1 := log_handled sid s). assert (A : cl x s s1) by now apply cl_same.
  destruct (o_resp o) as [[len nc]|]; [|intros [= <-]; cl_chain; exact A].
  unfold new_response. destruct (List.find _ _) as [t|]; [|discriminate].
  destruct (t_esd t); [intros [= <-]; apply (cl_trans _ _ s1); [exact A|apply cl_done]|].
  destruct (t_esh t).
  - destruct ((t_pwin t <=? 0) || _)%Z; [intros [= <-]; exact A|].
    destruct (sstate_eqb _ _); intros [= <-]; [|exact A]. apply (cl_trans _ _ s1); [exact A|apply cl_ended].
  - destruct (sstate_eqb _ _); [|discriminate]. intros [= <-]. now apply cl_same.
Qed.
Lemma cl_answer x sid o s s' : answer_if_complete sid o s = Ok s' -> cl x s s'.
Proof.
  unfold answer_if_complete. destruct (find_stream sid s) as [t|]; [|discriminate].
  destruct (_ && _); [|intros [= <-]; apply cl_refl]. intro H. eapply cl_trans; [|eapply cl_handle; exact H]. cl_chain.
Qed.
(** The stream a received frame may bring back to half-closed (remote). *)
Definition ends (f : frame) : option N := if (f_type f <=? 1) && END_STREAM f then Some (f_sid f) else None.
Lemma cl_dispatch t f o s s' : SInv s -> In t (c_streams s) -> t_id t = f_sid f ->
  dispatch t f o s = Ok s' -> cl (ends f) s s'.
Proof.
  intros I It Et. unfold dispatch, ends.
  apply (type_cases (f_type f) _ _ _ _ _ _ _ _ _ _ _
    (fun r => r = Ok s' -> cl (if (f_type f <=? 1) && END_STREAM f then Some (f_sid f) else None) s s')); intro T; rewrite ?T; cbn [N.leb N.compare Pos.compare Pos.compare_cont andb].
  - unfold recv_data. rewrite Et. set (x := if END_STREAM f then _ else None).
    set (s1 := if f_sid f =? 0 then _ else s). set (s2 := match t_state t with Open | HalfLocal => s1 | _ => _ end).
    assert (A : cl x s s2).
    { apply (cl_trans _ _ s1); [unfold s1; cl_chain|]. unfold s2. destruct (t_state t); cl_chain. }
    destruct (parse_data _ _ _ s2) as [s3|] eqn:P; [|intros [= <-]; cl_chain; exact A].
    apply (cl_parse x) in P. intro H. apply (cl_trans _ _ s3); [eapply cl_trans; eassumption|].
    eapply cl_trans; [|eapply cl_answer; exact H]. unfold x. destruct (END_STREAM f); cl_chain.
  - unfold recv_headers. rewrite Et. set (x := if END_STREAM f then _ else None).
    set (s1 := if f_sid f =? 0 then _ else s).
    set (s2 := match t_state t with Idle => _ | ReservedLocal | Open | HalfRemote => _ | _ => _ end).
    assert (A : cl x s s2).
    { apply (cl_trans _ _ s1); [unfold s1; cl_chain|]. unfold s2. destruct (t_state t) eqn:St; cl_chain.
      apply cl_upd. intros u Iu Eu. split; [reflexivity|]. intros _ Cu.
      assert (u = t) as ->; [|congruence]. apply (unique_stream s); auto; [|congruence].
      unfold s1 in Iu. destruct (f_sid f =? 0); exact Iu. }
    intro H. apply (cl_trans _ _ s2); [exact A|]. eapply cl_trans; [|eapply cl_answer; exact H].
    unfold x. destruct (END_STREAM f); cl_chain.
  - unfold recv_priority. intros [= <-]. cl_chain.
  - unfold recv_rst. intros [= <-]. cl_chain.
  - unfold recv_settings. destruct (ACK f); [intros [= <-]; cl_chain|].
    destruct (o_settings o); intros [= <-]; cl_chain.
  - unfold recv_push. destruct (create_stream _ _) as [s4 ok] eqn:C. intros [= <-].
    set (s3 := match find_stream _ _ with Some _ => _ | None => _ end) in C.
    assert (K : c_max_sid s3 = c_max_sid s /\ c_streams s3 = c_streams s).
    { unfold s3. destruct (find_stream _ _), (t_state t), (f_sid f =? 0); split; reflexivity. }
    destruct K as [Q K]. apply create_spec in C. destruct ok.
    + exfalso. destruct C as [L _]. pose proof (i_max _ I) as M. rewrite Forall_forall in M.
      specialize (M (t_id t) (in_map _ _ _ It)). rewrite Q in L. lia.
    + destruct C as [-> _]. cl_chain. now apply cl_same.
  - unfold recv_ping. intros [= <-]. cl_chain.
  - unfold recv_goaway. intros [= <-]. set (s1 := if f_sid f =? 0 then s else _). set (s2 := set_lsid _ _).
    assert (cl None s s1) by (unfold s1; cl_chain). assert (cl None s s2) by (eapply cl_trans; [eassumption|now apply cl_same]).
    cl_chain; assumption.
  - unfold recv_window_update. intros [= <-]. set (s2 := if f_val f =? 0 then _ else _).
    assert (cl None s s2) by (unfold s2; cl_chain). set (s3 := log_credit _ s2).
    assert (cl None s s3) by (eapply cl_trans; [eassumption|now apply cl_same]).
    apply cl_if; [eapply cl_trans; [eassumption|now apply cl_same]|cl_chain; assumption].
  - unfold recv_continuation. destruct (t_last t) as [[ty fl]|]; [|discriminate]. intros [= <-]. cl_chain.
  - intros [= <-]. apply cl_refl.
Qed.
Lemma cl_goaway_loop x n o s' : forall ts s, goaway_loop ts n o s = Ok s' -> cl x s s'.
Proof.
  induction ts as [|t ts IH]; intro s; cbn [goaway_loop]; [intros [= <-]; now apply cl_same|].
  destruct (_ || _); [intro H; eapply cl_trans; [apply cl_close|eauto]|].
  destruct (yetsend _ _); [apply cl_handle|]. destruct (n =? 0); [intros [= <-]; apply cl_refl|discriminate].
Qed.

Theorem closed_stays s e s' i : SInv s -> RInv s -> step s e = Ok s' -> state_of i s = Closed ->
  (forall f, ev_frame e = Some f -> ends f <> Some i) ->
  state_of i s' = Closed \/ ~ In i (ids s').
Proof.
  intros I R H C E. pose proof (step_effs _ _ _ I R H) as X.
  assert (I' : SInv s') by (eapply SInv_effs; eassumption).
  assert (Ci : exists t, In t (c_streams s) /\ t_id t = i /\ t_state t = Closed).
  { unfold state_of in C. destruct (List.find _ _) as [t|] eqn:F; [|discriminate].
    apply find_ids in F as [A B]. eauto. }
  destruct Ci as (t & It & Et & Ct).
  assert (K : forall u, cl (match ev_frame e with Some f => ends f | None => None end) u s' ->
     (forall t', In t' (c_streams u) -> t_id t' = i -> t_state t' = Closed) ->
     state_of i s' = Closed \/ ~ In i (ids s')).
  { intros u Cu A. destruct (in_dec N.eq_dec i (ids s')) as [Ii|]; [left|now right].
    apply in_map_iff in Ii as (t' & <- & It'). rewrite state_of_in by assumption.
    destruct (Cu t' It') as (t0 & I0 & E0 & C0).
    - destruct (ev_frame e) as [f|]; [|discriminate]. intro Q. now apply (E f eq_refl).
    - apply C0. apply A; assumption. }
  assert (A0 : forall t', In t' (c_streams s) -> t_id t' = i -> t_state t' = Closed).
  { intros t' Ix Ex. assert (t' = t) as -> by (apply (unique_stream s); auto; congruence). exact Ct. }
  assert (K0 := K s).
  assert (Go : c_goaway s = true \/ c_status s <> Running -> cl (match ev_frame e with Some f => ends f | None => None end) s s').
  { unfold step in H. destruct (c_status s) eqn:Ru; try (injection H as <-; intros; apply cl_refl).
    intros [G|G]; [|congruence]. rewrite G in H.
    destruct e; unfold goaway_handle in H; (destruct (_ || _) in H; [injection H as <-; now apply cl_same|eapply cl_goaway_loop; eassumption]). }
  destruct (c_goaway s) eqn:G; [apply K0; auto|].
  destruct (c_status s) eqn:Ru; try (apply K0; [apply Go; right; discriminate|assumption]). clear Go.
  destruct e as [f o|n o|o].
  - cbn [ev_frame] in *. unfold step in H. rewrite Ru, G in H.
    pose proof (i_root _ I G) as Ro. rewrite recv_frame_enter in H. destruct (enter f s) as [s1 ok] eqn:En.
    pose proof (enter_rooted _ _ _ _ I Ro En) as R1. pose proof (enter_effs anything _ _ _ _ eq_refl I Ro En) as E1.
    assert (I1 : SInv s1) by (eapply SInv_effs; eassumption).
    pose proof (i_max _ I) as M. rewrite Forall_forall in M. specialize (M (t_id t) (in_map _ _ _ It)).
    assert (A1 : forall t', In t' (c_streams s1) -> t_id t' = i -> t_state t' = Closed).
    { unfold enter in En. set (s0 := if 16384 <? f_len f then _ else s) in En.
      assert (S0 : c_streams s0 = c_streams s /\ c_max_sid s0 = c_max_sid s) by (unfold s0; destruct (16384 <? f_len f); auto).
      destruct S0 as [S0 M0].
      destruct (find_stream (f_sid f) s0); [injection En as <- <-; rewrite S0; exact A0|].
      apply create_spec in En. destruct ok.
      - destruct En as (L & _ & _ & ->). cbn [log_opened set_max_sid set_count set_streams c_streams].
        intros t' It'. apply in_app_or in It' as [It'|[<-|[]]]; [apply A0; now rewrite <- S0|].
        cbn [new_stream t_id]. intro. exfalso. lia.
      - destruct En as [-> _]. cbn. rewrite S0. exact A0. }
    destruct ok; cbn [negb] in H; [|injection H as <-; apply (K s1); [apply cl_refl|exact A1]].
    cbv zeta in H. set (s2 := note_last f s1) in *.
    assert (C2 : cl (ends f) s1 s2) by (unfold s2, note_last; cl_chain).
    assert (Q2 : quiet s1 s2) by apply quiet_note.
    assert (I2 : SInv s2) by (eapply SInv_quiet; eassumption).
    assert (R2 : rooted s2) by (eapply rooted_quiet; eassumption).
    apply (K s1); [|exact A1]. apply (cl_trans _ _ s2); [exact C2|].
    destruct (find_stream (f_sid f) s2) as [u|] eqn:F; [|discriminate]. apply find_in in F as [Iu Eu]; [|exact R2].
    assert (D : dispatch u f o s2 = Ok s' -> cl (ends f) s2 s') by (apply cl_dispatch; assumption).
    destruct (c_phase s2); [destruct (f_type f =? 4)|]; try (apply D; exact H).
    injection H as <-. cl_chain.
  - destruct (sent_state _ _ _ _ I G Ru H i) as [A|[[A _]|[_ A]]]; [left; congruence|congruence|now right].
  - unfold step in H. rewrite Ru, G in H. injection H as <-. now left.
Qed.

(* ---------- data within the credit ---------- *)

Lemma effw_mono w s s' : effw w s s' -> eff s s'.
Proof.
  destruct 1; [now apply e_quiet|eapply e_open; first [eassumption|reflexivity]|now apply e_close|now apply e_handled|now apply e_request
    |now apply e_pop|eapply e_head; first [eassumption|reflexivity]|now apply e_grant|now apply e_payload].
Qed.
Lemma effsw_mono w s s' : effsw w s s' -> effs s s'.
Proof.
  induction 1; [apply rt_step; eapply effw_mono; eassumption|apply rt_refl|eapply effs_trans; eassumption].
Qed.

(** What receiving may do: all but send. *)
Definition received := mkPerm false true true.
(** A response is only begun when its whole content fits into both windows. *)
Definition paced (s : conn) (e : event) : Prop :=
  match e with
  | EWrite _ _ => forall r t, hd_error (c_resps s) = Some r -> p_phase r <> PData ->
      In t (c_streams s) -> t_id t = p_sid r -> (0 < t_pwin t)%Z -> (0 < c_win s)%Z ->
      (Z.of_N (p_len r) <= t_pwin t /\ Z.of_N (p_len r) <= c_win s)%Z
  | _ => True
  end.
Fixpoint paced_run (s : conn) (es : list event) : Prop :=
  match es with
  | [] => True
  | e :: t => paced s e /\ match step s e with Ok s' => paced_run s' t | UB _ => True end
  end.

Record FInv (s : conn) : Prop := mkFInv {
  f_pinit : (0 <= c_pinit s)%Z;
  f_win : (0 <= c_win s)%Z;
  f_wins : forall i w, In (i, w) (wins s) -> (0 <= w)%Z;
  f_all : forall i w0, In (i, w0) (c_opened s) ->
    (sum (data_of i) (c_wire s) <= w0 + sum (credit_of i) (c_credit s))%Z;
  f_head : forall r, hd_error (c_resps s) = Some r -> p_phase r = PData ->
    (Z.of_N (p_len r - p_sent r) <= c_win s)%Z /\
    forall w, In (p_sid r, w) (wins s) -> (Z.of_N (p_len r - p_sent r) <= w)%Z;
  f_tail : Forall (fun r => p_phase r = PHeader) (tl (c_resps s));
  f_sids : Forall (fun r => p_sid r <= c_max_sid s) (c_resps s) }.

Lemma FInv_init limit maxlen : FInv (conn_init limit maxlen).
Proof.
  constructor; cbn; try lia; try easy.
  intros i w [[= <- <-]|[]]. lia.
Qed.
Lemma FInv_quiet s s' : quiet s s' -> FInv s -> FInv s'.
Proof.
  intros Q F. destruct Q, F. constructor; rewrite ?k_win, ?k_wins, ?k_resps, ?k_opened, ?k_credit, ?k_max; auto.
  intros i w0. rewrite k_data. auto.
Qed.
Lemma credit_nonneg i l : (0 <= sum (credit_of i) l)%Z.
Proof. apply sum_nonneg. intros c _. unfold credit_of. destruct (fst c =? i); lia. Qed.
Lemma FInv_recv s s' : effw received s s' -> SInv s -> WInv s -> FInv s -> FInv s'.
Proof.
  intros E I W F. destruct E; try discriminate.
  - eapply FInv_quiet; eassumption.
  - rewrite H3. destruct F. pose proof (i_max _ I) as M. rewrite Forall_forall in M.
    constructor; unfold wins in *; cbn [log_opened set_max_sid set_count set_streams c_streams
      c_win c_credit c_wire c_opened c_resps c_pinit c_max_sid] in *; auto.
    + intros i w. rewrite map_app. intro J. apply in_app_or in J as [J|[J|[]]]; [eauto|].
      injection J as <- <-. exact f_pinit0.
    + intros i w0 J. apply in_app_or in J as [J|[J|[]]]; [auto|]. injection J as <- <-.
      destruct (w_fresh _ W sid H0) as [A B]. lia.
    + intros r Hr Pr. destruct (f_head0 r Hr Pr) as (B & C). split; [exact B|].
      intros w J. rewrite map_app in J. apply in_app_or in J as [J|[J|[]]]; [auto|].
      injection J as J _. exfalso. rewrite Forall_forall in f_sids0.
      assert (In r (c_resps s)) as Ir by (destruct (c_resps s); [discriminate|injection Hr as <-; now left]).
      specialize (f_sids0 r Ir). lia.
    + eapply Forall_impl; [|exact f_sids0]. cbn. intros. lia.
  - destruct F. constructor; unfold wins in *; cbn [close_stream set_sendq set_count set_streams c_streams
      c_win c_credit c_wire c_opened c_resps c_pinit] in *; auto.
    + intros i w J. apply in_map_iff in J as (t & Et & It). apply filter_In in It as [It _].
      apply (f_wins0 i). apply in_map_iff. eauto.
    + intros r Hr Pr. destruct (f_head0 r Hr Pr) as (B & C). split; [exact B|].
      intros w J. apply C. apply in_map_iff in J as (t & Et & It). apply filter_In in It as [It _].
      apply in_map_iff. eauto.
  - destruct F. constructor; auto.
  - destruct F. unfold respond. constructor; unfold wins in *; cbn [enqueue set_sendq set_resps log_handled c_streams
      c_win c_credit c_wire c_opened c_resps c_pinit] in *; auto.
    + intros r Hr Pr. destruct (c_resps s); [injection Hr as <-; discriminate Pr|]. auto.
    + destruct (c_resps s); [constructor|]. cbn [tl app]. apply Forall_app. split; [assumption|].
      now repeat constructor.
    + apply Forall_app. split; [assumption|]. constructor; [|constructor]. cbn [p_sid].
      pose proof (i_max _ I) as M. rewrite Forall_forall in M. now apply M.
  - unfold grant. set (s1 := log_credit (sid, v) s).
    assert (C : forall i, (sum (credit_of i) (c_credit s) <= sum (credit_of i) (c_credit s1))%Z).
    { intro i. unfold s1. cbn [log_credit c_credit]. rewrite sum_app. cbn [sum]. unfold credit_of at 3. cbn [fst snd].
      destruct (sid =? i); lia. }
    destruct F. destruct (sid =? 0).
    + constructor; auto; unfold set_win, s1 in *; cbn [c_win c_wire c_credit c_opened c_resps log_credit] in *.
      * lia.
      * intros i w0 J. specialize (f_all0 i w0 J). specialize (C i). lia.
      * intros r Hr Pr. destruct (f_head0 r Hr Pr) as (B & D). split; [lia|exact D].
    + assert (Wn : forall i w, In (i, w) (wins (upd sid (fun t => st_pwin (t_pwin t + Z.of_N v)%Z t) s1)) ->
        exists w', In (i, w') (wins s) /\ (w' <= w)%Z).
      { intros i w J. apply wins_pwin in J; [|reflexivity]. destruct (i =? sid).
        - destruct J as (t & It & <- & ->). exists (t_pwin t). split; [unfold wins; apply in_map_iff; eauto|].
          cbn [st_pwin t_pwin]. lia.
        - exists w. split; [exact J|lia]. }
      constructor; auto.
      * intros i w J. destruct (Wn i w J) as (w' & A & B). specialize (f_wins0 i w' A). lia.
      * intros i w0 J. specialize (f_all0 i w0 J). specialize (C i).
        unfold s1 in *; cbn [c_win c_wire c_credit c_opened c_resps log_credit upd set_streams] in *. lia.
      * intros r Hr Pr. destruct (f_head0 r Hr Pr) as (B & D). split; [exact B|].
        intros w J. destruct (Wn _ w J) as (w' & A' & B'). specialize (D w' A'). lia.
Qed.
Lemma FInv_recvs s s' : effsw received s s' -> SInv s -> WInv s -> FInv s -> FInv s'.
Proof.
  induction 1; intros I W F; [eapply FInv_recv; eassumption|assumption|].
  pose proof (effsw_mono _ _ _ H) as E. eauto using SInv_effs, WInv_effs.
Qed.

(** Sending.  [s1] is the state after the payload; ending a response changes no window. *)
Lemma FInv_head r r0 s : hd_error (c_resps s) = Some r0 -> p_sid r = p_sid r0 ->
  (p_phase r = PData -> (Z.of_N (p_len r - p_sent r) <= c_win s)%Z /\
    forall w, In (p_sid r, w) (wins s) -> (Z.of_N (p_len r - p_sent r) <= w)%Z) ->
  (forall i w, In (i, w) (wins s) -> (0 <= w)%Z) -> (0 <= c_win s)%Z -> (0 <= c_pinit s)%Z ->
  (forall i w0, In (i, w0) (c_opened s) ->
    (sum (data_of i) (c_wire s) <= w0 + sum (credit_of i) (c_credit s))%Z) ->
  Forall (fun r => p_phase r = PHeader) (tl (c_resps s)) ->
  Forall (fun r => p_sid r <= c_max_sid s) (c_resps s) -> FInv (set_head r s).
Proof.
  intros Hr Es Hd Hw Hc Hp Ha Ht Hs. unfold set_head. destruct (c_resps s) as [|a l]; [discriminate|].
  injection Hr as ->. constructor; auto; cbn [set_resps c_resps hd_error tl c_max_sid].
  - intros x [= <-]. exact Hd.
  - inversion Hs; subst. constructor; [|assumption]. congruence.
Qed.
Lemma FInv_finish t r r0 s : hd_error (c_resps s) = Some r0 -> p_sid r = p_sid r0 -> p_len r <= p_sent r ->
  (forall i w, In (i, w) (wins s) -> (0 <= w)%Z) -> (0 <= c_win s)%Z -> (0 <= c_pinit s)%Z ->
  (forall i w0, In (i, w0) (c_opened s) ->
    (sum (data_of i) (c_wire s) <= w0 + sum (credit_of i) (c_credit s))%Z) ->
  Forall (fun r => p_phase r = PHeader) (tl (c_resps s)) ->
  Forall (fun r => p_sid r <= c_max_sid s) (c_resps s) -> FInv (finish t r s).
Proof.
  intros Hr Es L Hw Hc Hp Ha Ht Hs. unfold finish. destruct (sstate_eqb _ _).
  - apply (FInv_head _ r0); auto; [discriminate|]. intros i w. rewrite wins_upd by now intro. apply Hw.
  - apply (FInv_head _ r0); auto; [|intros i w; rewrite wins_upd by (now intro); apply Hw].
    intros _. cbn [with_phase p_sent p_len p_sid]. rewrite wins_upd by now intro.
    replace (p_len r - p_sent r) with 0 by lia.
    split; [exact Hc|]. intros w J. apply (Hw _ w J).
Qed.
Lemma FInv_send t r n s : SInv s -> WInv s -> FInv s -> In t (c_streams s) -> t_id t = p_sid r ->
  p_sid r <> 0 -> hd_error (c_resps s) = Some r ->
  (p_phase r <> PData -> (0 < t_pwin t)%Z -> (0 < c_win s)%Z ->
    (Z.of_N (p_len r) <= t_pwin t /\ Z.of_N (p_len r) <= c_win s)%Z) ->
  FInv (send_data t r n s).
Proof.
  intros I W F It Et Zs Hr Pa.
  assert (U : forall w, In (p_sid r, w) (wins s) -> w = t_pwin t).
  { intros w J. unfold wins in J. apply in_map_iff in J as (u & Eu & Iu). injection Eu as A B.
    assert (u = t) as -> by (apply (unique_stream s); auto; congruence). now subst. }
  assert (Wt : In (p_sid r, t_pwin t) (wins s)) by (unfold wins; apply in_map_iff; exists t; now rewrite Et).
  assert (H : p_phase r <> PData -> FInv (if ((t_pwin t <=? 0) || (c_win s <=? 0))%Z then s
    else if p_len r =? 0 then finish t r s
    else set_head (mkResp (p_sid r) (p_len r) (p_nocontent r) PData 0)
        (log_wire (WDataHeader (t_id t) (p_len r mod 16777216) (Z.of_N (p_len r) <? Z.min (t_pwin t) (c_win s))%Z) s))).
  { intro Ph. destruct ((t_pwin t <=? 0) || _)%Z eqn:O; [assumption|]. apply orb_false_iff in O as [O1 O2].
    specialize (Pa Ph ltac:(lia) ltac:(lia)). destruct F.
    destruct (p_len r =? 0) eqn:Z; [apply (FInv_finish _ _ r); auto; lia|].
    apply (FInv_head _ r); auto; cbn [log_wire c_win p_phase p_len p_sent p_sid].
    - intros _. rewrite N.sub_0_r. split; [lia|]. intros w J. rewrite (U w J). lia.
    - intros i w0. cbn [log_wire c_opened c_wire c_credit]. rewrite sum_app. cbn [sum data_of].
      intro J. specialize (f_all0 i w0 J). lia. }
  unfold send_data. destruct (p_phase r) eqn:Ph; try (apply H; discriminate). clear H Pa.
  destruct (p_nocontent r); [destruct F; now constructor|].
  destruct F. destruct (f_head0 r Hr Ph) as [Fw Fs]. specialize (Fs _ Wt).
  destruct (p_len r <=? p_sent r) eqn:L; [apply (FInv_finish _ _ r); auto; lia|].
  set (k := N.min n _). destruct (k =? 0); [now constructor|]. cbv zeta.
  set (r' := mkResp _ _ _ _ _). set (sp := log_wire (WData (t_id t) k) _). set (s1 := set_head r' sp).
  assert (Wn : forall i w, In (i, w) (wins sp) ->
     if i =? p_sid r then w = (t_pwin t - Z.of_N k)%Z else In (i, w) (wins s)).
  { intros i w J. change (In (i, w) (wins (upd (t_id t) (fun t => st_pwin (t_pwin t - Z.of_N k)%Z t) s))) in J.
    apply wins_pwin in J; [|reflexivity]. rewrite Et in J. destruct (i =? p_sid r) eqn:Q; [|exact J].
    destruct J as (u & Iu & Eu & ->).
    assert (u = t) as -> by (apply (unique_stream s); auto; rewrite Eu, Et; lia). reflexivity. }
  assert (Hp : hd_error (c_resps sp) = Some r) by exact Hr.
  assert (Nw : forall i w, In (i, w) (wins sp) -> (0 <= w)%Z).
  { intros i w J. specialize (Wn i w J). destruct (i =? p_sid r); [|eauto]. lia. }
  assert (Nc : (0 <= c_win sp)%Z) by (unfold sp; cbn [log_wire set_win c_win]; lia).
  assert (Na : forall i w0, In (i, w0) (c_opened sp) ->
    (sum (data_of i) (c_wire sp) <= w0 + sum (credit_of i) (c_credit sp))%Z).
  { unfold sp. cbn [log_wire set_win upd set_streams c_opened c_wire c_credit]. intros i w0 J.
    rewrite sum_app. cbn [sum data_of]. specialize (f_all0 i w0 J).
    destruct (t_id t =? i) eqn:Q; [|lia]. assert (i = p_sid r) as -> by lia.
    destruct (w_stream _ W _ _ Wt Zs) as (w1 & Iw & Ew).
    assert (w1 = w0); [|subst; lia].
    pose proof (sorted_nodup _ (i_osorted _ I)) as D. clear -J Iw D.
    induction (c_opened s) as [|[a b] l IH]; [easy|]. cbn [map fst] in D. inversion D; subst.
    destruct J as [J|J], Iw as [Iw|Iw]; try congruence; auto.
    - injection J as -> ->. destruct H1. apply in_map_iff. exists (p_sid r, w1). auto.
    - injection Iw as -> ->. destruct H1. apply in_map_iff. exists (p_sid r, w0). auto. }
  assert (F1 : FInv s1).
  { unfold s1. apply (FInv_head _ r); auto. intros _. unfold r'. cbn [p_len p_sent p_sid]. split.
    - unfold sp. cbn [log_wire set_win c_win]. lia.
    - intros w J. specialize (Wn _ w J). rewrite N.eqb_refl in Wn. subst w. lia. }
  destruct (p_len r <=? p_sent r + k) eqn:L2; [|exact F1].
  destruct F1. apply (FInv_finish _ _ r'); auto.
  - unfold s1, set_head. destruct (c_resps sp); [discriminate|reflexivity].
  - unfold r'. cbn [p_len p_sent]. lia.
Qed.
Lemma FInv_step s e s' : SInv s -> RInv s -> WInv s -> FInv s -> paced s e -> step s e = Ok s' -> FInv s'.
Proof.
  intros I R W F Pa H. unfold step in H. destruct (c_status s) eqn:Ru; try (injection H as <-; assumption).
  destruct (c_goaway s) eqn:G.
  { destruct e; (eapply FInv_recvs; [eapply goaway_handle_effs; eassumption|..]; assumption). }
  destruct e as [f o|n o|o].
  - eapply FInv_recvs; [eapply recv_frame_effs; try eassumption; try reflexivity; apply (i_root _ I G)|..]; assumption.
  - destruct (c_sendq s) as [|q rest] eqn:Q.
    + destruct (c_resps s) as [|r rs] eqn:Er; [injection H as <-; assumption|].
      specialize (R G). rewrite Er in R. apply Forall_inv in R.
      unfold response_event in H. destruct (List.find _ _) as [t|] eqn:Fi; [|discriminate].
      apply find_ids in Fi as [It Et]. destruct (t_esd t).
      * injection H as <-. set (s1 := set_resps _ s).
        assert (F1 : FInv s1).
        { destruct F. constructor; auto; unfold s1; rewrite Er in *; cbn [set_resps c_resps tl hd_error c_max_sid] in *.
          - intros x Hx Px. destruct rs; [discriminate|]. injection Hx as ->. inversion f_tail0; congruence.
          - destruct rs; [constructor|]. now inversion f_tail0.
          - now inversion f_sids0. }
        unfold response_done. set (s2 := set_max_handled _ s1).
        assert (F2 : FInv s2) by (destruct F1; now constructor).
        assert (I2 : SInv s2) by (apply (SInv_ext s); auto).
        destruct (sstate_eqb _ _); [|exact F2].
        eapply FInv_recv; [apply (e_close received (t_id t) s2)|..]; auto.
        -- now apply in_map.
        -- intro. exfalso. lia.
        -- destruct W. now constructor.
      * destruct (t_esh t); injection H as <-; [|assumption].
        apply FInv_send; auto; [now rewrite Er|]. intros. apply (Pa r t); auto. now rewrite Er.
    + injection H as <-. destruct (n =? 0); [assumption|]. eapply FInv_quiet; [|eassumption].
      eapply quiet_send_frame; eassumption.
  - injection H as <-. destruct F; now constructor.
Qed.
Lemma paced_finv es : forall s s', SInv s -> RInv s -> WInv s -> FInv s -> paced_run s es -> run s es = Ok s' -> FInv s'.
Proof.
  induction es as [|e es IH]; intros s s' I R W F P H; cbn [run paced_run] in *; [injection H as <-; exact F|].
  destruct (step s e) as [s1|] eqn:E; cbn [obind] in H; [|discriminate]. destruct P as [Pe P].
  pose proof (step_effs _ _ _ I R E) as X.
  apply (IH s1); eauto using SInv_effs, RInv_effs, WInv_effs, FInv_step.
Qed.
Theorem paced_within limit maxlen es s : run (conn_init limit maxlen) es = Ok s -> paced_run (conn_init limit maxlen) es ->
  (sum data_all (c_wire s) <= 65535 + sum (credit_of 0) (c_credit s))%Z /\
  (forall i w0, In (i, w0) (c_opened s) -> (sum (data_of i) (c_wire s) <= w0 + sum (credit_of i) (c_credit s))%Z).
Proof.
  intros H P. assert (F : FInv s).
  { apply (paced_finv es (conn_init limit maxlen)); auto using SInv_init, WInv_init, FInv_init. intros _; constructor. }
  destruct (reach_winv _ _ _ _ H). split; [destruct F; lia|apply (f_all _ F)].
Qed.

(* ---------- opening streams ---------- *)

Lemma effw_opened w s s' : can_open w = false -> effw w s s' -> c_opened s' = c_opened s /\ c_max_sid s' = c_max_sid s.
Proof.
  intros O E. destruct E; try (split; reflexivity); try congruence.
  - now rewrite (k_opened _ _ H), (k_max _ _ H).
  - unfold set_head. destruct (c_resps s); now split.
  - unfold grant. destruct (sid =? 0); now split.
Qed.
Lemma effsw_opened w s s' : can_open w = false -> effsw w s s' -> c_opened s' = c_opened s /\ c_max_sid s' = c_max_sid s.
Proof.
  intro O. induction 1 as [? ? E|?|? ? ? _ [A B] _ [C D]]; [eapply effw_opened; eassumption|now split|].
  split; congruence.
Qed.
Lemma effw_credit w s s' : can_grant w = false -> effw w s s' -> c_credit s' = c_credit s.
Proof.
  intros O E. destruct E; try reflexivity; try congruence.
  - apply (k_credit _ _ H).
  - now rewrite H3.
  - unfold set_head. destruct (c_resps s); reflexivity.
Qed.
Lemma effsw_credit w s s' : can_grant w = false -> effsw w s s' -> c_credit s' = c_credit s.
Proof. intro O. induction 1; [eapply effw_credit; eassumption|reflexivity|congruence]. Qed.
Lemma eff_limit s s' : eff s s' -> c_limit s' = c_limit s.
Proof.
  destruct 1; try reflexivity.
  - apply (k_limit _ _ H).
  - now rewrite H3.
  - unfold set_head. destruct (c_resps s); reflexivity.
  - unfold grant. destruct (sid =? 0); reflexivity.
Qed.
Lemma effs_limit s s' : effs s s' -> c_limit s' = c_limit s.
Proof. induction 1; [now apply eff_limit|reflexivity|congruence]. Qed.
Lemma eff_top s s' : eff s s' -> c_max_sid s = last (map fst (c_opened s)) 0 -> c_max_sid s' = last (map fst (c_opened s')) 0.
Proof.
  destruct 1; intro T; try exact T.
  - now rewrite (k_opened _ _ H), (k_max _ _ H).
  - rewrite H3. cbn [log_opened set_max_sid c_max_sid c_opened set_count set_streams].
    rewrite map_app. cbn [map fst]. now rewrite last_last.
  - unfold set_head. destruct (c_resps s); exact T.
  - unfold grant. destruct (sid =? 0); exact T.
Qed.
Lemma effs_top s s' : effs s s' -> c_max_sid s = last (map fst (c_opened s)) 0 -> c_max_sid s' = last (map fst (c_opened s')) 0.
Proof. induction 1; eauto using eff_top. Qed.
(** The highest identifier is that of the stream opened last. *)
Lemma reach_top limit maxlen es s : run (conn_init limit maxlen) es = Ok s ->
  forall i, c_max_sid s < i <-> i <> 0 /\ Forall (fun j => j < i) (map fst (c_opened s)).
Proof.
  intros H i. pose proof (reach_inv _ _ _ _ H) as [I _].
  pose proof (effs_top _ _ (reach_effs _ _ _ _ H) eq_refl) as T. split.
  - intro L. split; [lia|]. eapply Forall_le_lt; [apply (i_omax _ I)|exact L].
  - intros [Z F]. rewrite T. destruct (map fst (c_opened s)) as [|a l] eqn:E; [cbn; lia|].
    rewrite Forall_forall in F. apply F. destruct (exists_last (l := a :: l)) as (l' & x & El); [discriminate|].
    rewrite El, last_last. apply in_or_app. right. now left.
Qed.
Lemma reach_limit limit maxlen es s : run (conn_init limit maxlen) es = Ok s -> c_limit s = limit.
Proof. intro H. apply (effs_limit _ _ (reach_effs _ _ _ _ H)). Qed.

(** A stream of the client may be opened. *)
Definition may_open (sid : N) (s : conn) : Prop :=
  N.odd sid = true /\ Forall (fun j => j < sid) (map fst (c_opened s)) /\
  (forall m, c_limit s = Some m -> Z.of_nat (length (c_streams s)) < Z.of_N m)%Z.
Definition no_open := mkPerm true false true.
Definition no_grant := mkPerm true true false.
Lemma opening limit maxlen es s f o s' : run (conn_init limit maxlen) es = Ok s ->
  c_goaway s = false -> c_status s = Running -> step s (ERecv f o) = Ok s' ->
  (In (f_sid f) (ids s) -> c_opened s' = c_opened s) /\
  (~ In (f_sid f) (ids s) -> may_open (f_sid f) s -> c_opened s' = c_opened s ++ [(f_sid f, c_pinit s)]) /\
  (~ In (f_sid f) (ids s) -> ~ may_open (f_sid f) s ->
     c_opened s' = c_opened s /\ c_goaway s' = true /\ In (mkQ 0 (KGoaway PROTOCOL_ERROR)) (c_sendq s')
     /\ c_streams s' = c_streams s /\ c_handled s' = c_handled s).
Proof.
  intros Hr G Ru H. destruct (reach_inv _ _ _ _ Hr) as [I R]. pose proof (reach_top _ _ _ _ Hr) as Top.
  unfold step in H. rewrite Ru, G in H. pose proof (i_root _ I G) as Ro.
  rewrite recv_frame_enter in H. destruct (enter f s) as [s1 ok] eqn:E.
  pose proof (enter_rooted _ _ _ _ I Ro E) as R1. pose proof (enter_effs anything _ _ _ _ eq_refl I Ro E) as E1.
  assert (I1 : SInv s1) by (eapply SInv_effs; eassumption).
  assert (Rest : ok = true -> c_opened s' = c_opened s1).
  { intros ->. cbn [negb] in H. cbv zeta in H. set (s2 := note_last f s1) in *.
    assert (Q2 : quiet s1 s2) by apply quiet_note.
    assert (I2 : SInv s2) by (eapply SInv_quiet; eassumption).
    assert (R2 : rooted s2) by (eapply rooted_quiet; eassumption).
    destruct (find_stream (f_sid f) s2) as [t|] eqn:F; [|discriminate]. apply find_in in F as [It Et]; [|exact R2].
    rewrite <- (k_opened _ _ Q2).
    assert (D : dispatch t f o s2 = Ok s' -> c_opened s' = c_opened s2).
    { intro D. apply (effsw_opened no_open); [reflexivity|]. eapply dispatch_effs; eauto. }
    destruct (c_phase s2); [destruct (f_type f =? 4)|]; try (apply D; exact H). now injection H as <-. }
  assert (M : may_open (f_sid f) s <-> c_max_sid s < f_sid f /\ N.odd (f_sid f) = true /\
    (forall m, c_limit s = Some m -> (c_count s < Z.of_N m)%Z)).
  { unfold may_open. rewrite Top. rewrite (i_count _ I). unfold ids. rewrite map_length.
    split; [intros (A & B & C); repeat split; auto; intro Z; now rewrite Z in A|tauto]. }
  unfold enter in E. set (s0 := if 16384 <? f_len f then _ else s) in E.
  assert (S0 : c_streams s0 = c_streams s /\ c_max_sid s0 = c_max_sid s /\ c_opened s0 = c_opened s /\ c_pinit s0 = c_pinit s
     /\ c_limit s0 = c_limit s /\ c_count s0 = c_count s /\ c_handled s0 = c_handled s) by (unfold s0; destruct (16384 <? f_len f); auto 8).
  destruct S0 as (S0 & M0 & O0 & P0 & L0 & C0 & H0).
  assert (R0 : rooted s0) by (destruct Ro as [r X]; exists r; unfold ids in *; now rewrite S0).
  destruct (find_stream (f_sid f) s0) as [u|] eqn:F.
  - injection E as <- <-. apply find_in in F as [Iu Eu]; [|exact R0]. rewrite S0 in Iu.
    assert (In (f_sid f) (ids s)) by (rewrite <- Eu; now apply in_map).
    split; [intros _; rewrite Rest; auto|]. split; intros; contradiction.
  - apply find_stream_none in F; [|exact R0]. unfold ids in F. rewrite S0 in F. fold (ids s) in F.
    split; [intro; contradiction|]. apply create_spec in E. rewrite M0, L0, C0 in E. destruct ok.
    + destruct E as (A & B & C & ->). split.
      * intros _ _. rewrite Rest by reflexivity. cbn [log_opened set_max_sid set_count set_streams c_opened].
        now rewrite O0, P0.
      * intros _ N. destruct N. apply M. auto.
    + destruct E as [-> C]. injection H as <-. split.
      * intros _ Y. exfalso. apply M in Y as (A & B & D). destruct C as [C|[C|(m & C1 & C2)]].
        -- lia.
        -- congruence.
        -- specialize (D m C1). lia.
      * intros _ _. cbn [conn_error set_goaway enqueue set_sendq c_opened c_goaway c_sendq c_streams c_handled].
        repeat split; auto. apply in_or_app. right. now left.
Qed.
(** Nothing else opens a stream. *)
Lemma opening_only limit maxlen es s e s' : run (conn_init limit maxlen) es = Ok s -> step s e = Ok s' ->
  c_goaway s = true \/ ev_frame e = None -> c_opened s' = c_opened s.
Proof.
  intros Hr H C. destruct (reach_inv _ _ _ _ Hr) as [I R]. unfold step in H.
  destruct (c_status s) eqn:Ru; try (injection H as <-; reflexivity).
  destruct (c_goaway s) eqn:G.
  - apply (effsw_opened no_open); [reflexivity|]. destruct e; eapply goaway_handle_effs; eassumption.
  - destruct C as [C|C]; [discriminate|]. destruct e as [f o|n o|o]; [discriminate| |injection H as <-; reflexivity].
    destruct (c_sendq s) as [|q rest] eqn:Q.
    + destruct (c_resps s) as [|r rs] eqn:Er; [injection H as <-; reflexivity|].
      unfold response_event in H. destruct (List.find _ _) as [t|]; [|discriminate].
      destruct (t_esd t); [injection H as <-; unfold response_done; destruct (sstate_eqb _ _); reflexivity|].
      destruct (t_esh t); injection H as <-; [|reflexivity].
      unfold send_data, finish, set_head. cbv zeta.
      repeat match goal with |- context [if ?b then _ else _] => destruct b
        | |- context [match p_phase ?r with _ => _ end] => destruct (p_phase r)
        | |- context [match c_resps ?r with _ => _ end] => destruct (c_resps r) end; reflexivity.
    + injection H as <-. destruct (n =? 0); [reflexivity|]. unfold send_frame. destruct (q_kind q); reflexivity.
Qed.

(* ---------- credit received ---------- *)

(** The increment of a received WINDOW_UPDATE frame for [i] (0: the connection). *)
Definition ev_window (i : N) (e : event) : Z :=
  match e with ERecv f _ => if (f_type f =? 8) && (f_sid f =? i) then Z.of_N (f_val f) else 0%Z | _ => 0%Z end.
Lemma step_credit s e s' i : SInv s -> RInv s -> step s e = Ok s' ->
  (sum (credit_of i) (c_credit s) <= sum (credit_of i) (c_credit s') <= sum (credit_of i) (c_credit s) + ev_window i e)%Z /\
  (c_goaway s' = false -> c_status s' = Running ->
     sum (credit_of i) (c_credit s') = sum (credit_of i) (c_credit s) + ev_window i e)%Z.
Proof.
  intros I R H.
  assert (Same : c_credit s' = c_credit s -> ev_window i e = 0%Z \/ c_goaway s' = true \/ c_status s' <> Running ->
    (sum (credit_of i) (c_credit s) <= sum (credit_of i) (c_credit s') <= sum (credit_of i) (c_credit s) + ev_window i e)%Z /\
    (c_goaway s' = false -> c_status s' = Running ->
     sum (credit_of i) (c_credit s') = sum (credit_of i) (c_credit s) + ev_window i e)%Z).
  { intros -> C. assert (0 <= ev_window i e)%Z by (unfold ev_window; destruct e; try lia; destruct (_ && _); lia).
    split; [lia|]. intros G Ru. destruct C as [C|[C|C]]; [lia|congruence|congruence]. }
  pose proof (step_effs _ _ _ I R H) as X.
  unfold step in H. destruct (c_status s) eqn:Ru;
    try (injection H as <-; apply Same; [reflexivity|right; right; congruence]).
  destruct (c_goaway s) eqn:G.
  { apply Same; [|right; left; eapply effs_goaway; eassumption].
    apply (effsw_credit no_grant); [reflexivity|]. destruct e; eapply goaway_handle_effs; eassumption. }
  destruct e as [f o|n o|o].
  - pose proof (i_root _ I G) as Ro. rewrite recv_frame_enter in H. destruct (enter f s) as [s1 ok] eqn:E.
    pose proof (enter_rooted _ _ _ _ I Ro E) as R1. pose proof (enter_effs no_grant _ _ _ _ eq_refl I Ro E) as E1.
    assert (I1 : SInv s1) by (eapply SInv_effs; eassumption).
    apply effsw_credit in E1; [|reflexivity].
    destruct ok; cbn [negb] in H.
    2:{ injection H as <-. apply Same; [exact E1|]. right; left.
        destruct (enter_spec _ _ _ _ I Ro E) as (s0 & _ & _ & [(Y & _)|[(Y & _)|(_ & _ & -> & _)]]); try discriminate Y.
        reflexivity. }
    cbv zeta in H. set (s2 := note_last f s1) in *.
    assert (Q2 : quiet s1 s2) by apply quiet_note.
    assert (I2 : SInv s2) by (eapply SInv_quiet; eassumption).
    assert (R2 : rooted s2) by (eapply rooted_quiet; eassumption).
    rewrite <- (k_credit _ _ Q2) in E1. rewrite <- E1 in *.
    destruct (find_stream (f_sid f) s2) as [t|] eqn:F; [|discriminate]. apply find_in in F as [It Et]; [|exact R2].
    assert (D : dispatch t f o s2 = Ok s' ->
      (sum (credit_of i) (c_credit s2) <= sum (credit_of i) (c_credit s') <= sum (credit_of i) (c_credit s2) + ev_window i (ERecv f o))%Z /\
      (c_goaway s' = false -> c_status s' = Running ->
     sum (credit_of i) (c_credit s') = sum (credit_of i) (c_credit s2) + ev_window i (ERecv f o))%Z).
    { intro D. destruct (N.eq_dec (f_type f) 8) as [T|T].
      - unfold dispatch in D. rewrite T in D. unfold recv_window_update in D. injection D as <-.
        set (s3 := if f_val f =? 0 then _ else _).
        assert (C3 : c_credit s3 = c_credit s2) by (unfold s3; destruct (f_val f =? 0), (f_sid f =? 0), (f_len f =? 4); reflexivity).
        unfold ev_window. rewrite T. cbn [N.eqb Pos.eqb andb].
        assert (C4 : forall u, c_credit u = c_credit s2 ++ [(f_sid f, f_val f)] ->
          sum (credit_of i) (c_credit u) = (sum (credit_of i) (c_credit s2) + if (f_sid f =? i)%N then Z.of_N (f_val f) else 0)%Z).
        { intros u ->. rewrite sum_app. cbn [sum]. unfold credit_of at 2. cbn [fst snd]. destruct (f_sid f =? i); lia. }
        match goal with |- (_ <= sum _ (c_credit ?u) <= _)%Z /\ _ => rewrite (C4 u) end.
        + destruct (f_sid f =? i); split; intros; lia.
        + destruct (f_sid f =? 0); cbn [set_win log_credit upd set_streams c_credit]; now rewrite C3.
      - apply Same.
        + apply (effsw_credit no_grant); [reflexivity|]. eapply dispatch_effs; eauto.
        + left. unfold ev_window. destruct (f_type f =? 8) eqn:Q; [lia|reflexivity]. }
    destruct (c_phase s2); [destruct (f_type f =? 4)|]; try (apply D; exact H).
    injection H as <-. apply Same; [reflexivity|]. right; now left.
  - apply Same; [|now left]. destruct (c_sendq s) as [|q rest] eqn:Q.
    + destruct (c_resps s) as [|r rs] eqn:Er; [injection H as <-; reflexivity|].
      unfold response_event in H. destruct (List.find _ _) as [t|]; [|discriminate].
      destruct (t_esd t); [injection H as <-; unfold response_done; destruct (sstate_eqb _ _); reflexivity|].
      destruct (t_esh t); injection H as <-; [|reflexivity].
      unfold send_data, finish, set_head. cbv zeta.
      repeat match goal with |- context [if ?b then _ else _] => destruct b
        | |- context [match p_phase ?r with _ => _ end] => destruct (p_phase r)
        | |- context [match c_resps ?r with _ => _ end] => destruct (c_resps r) end; reflexivity.
    + injection H as <-. destruct (n =? 0); [reflexivity|]. unfold send_frame. destruct (q_kind q); reflexivity.
  - apply Same; [now injection H as <-|now left].
Qed.
Lemma run_credit es : forall s s' i, SInv s -> RInv s -> run s es = Ok s' ->
  (sum (credit_of i) (c_credit s') <= sum (credit_of i) (c_credit s) + sum (ev_window i) es)%Z /\
  (c_goaway s' = false -> c_status s' = Running ->
     sum (credit_of i) (c_credit s') = sum (credit_of i) (c_credit s) + sum (ev_window i) es)%Z.
Proof.
  induction es as [|e es IH]; intros s s' i I R H; cbn [run sum] in *; [injection H as <-; split; intros; lia|].
  destruct (step s e) as [s1|] eqn:E; cbn [obind] in H; [|discriminate].
  pose proof (step_effs _ _ _ I R E) as X. destruct (step_credit _ _ _ i I R E) as [A B].
  assert (I1 : SInv s1) by (eapply SInv_effs; eassumption).
  assert (R1 : RInv s1) by (eapply RInv_effs; eassumption).
  destruct (IH s1 s' i I1 R1 H) as [C D]. split; [lia|]. intros G Ru.
  specialize (D G Ru). rewrite D, B; [lia| |eapply run_status; eassumption].
  destruct (c_goaway s1) eqn:Q; [|reflexivity]. pose proof (run_effs _ _ _ I1 R1 H) as Y.
  now rewrite (effs_goaway _ _ Y Q) in G.
Qed.

(* ---------- more laws ---------- *)

(** Streams of the client. *)
Definition clients (s : conn) : list stream := filter (fun t => negb (t_id t =? 0)) (c_streams s).
Lemma clients_ids s : length (clients s) = length (filter (fun i => negb (i =? 0)) (ids s)).
Proof.
  unfold clients, ids. induction (c_streams s) as [|a l IH]; cbn [filter map]; [reflexivity|].
  destruct (negb (t_id a =? 0)); cbn [length]; congruence.
Qed.
Lemma filter_length_le {A} p (l : list A) : (length (filter p l) <= length l)%nat.
Proof. induction l; cbn [filter]; [lia|]. destruct (p a); cbn [length]; lia. Qed.
Lemma filter_filter {A} (p q : A -> bool) l : (length (filter p (filter q l)) <= length (filter p l))%nat.
Proof.
  induction l as [|a l IH]; cbn [filter]; [lia|]. destruct (q a); cbn [filter]; destruct (p a); cbn [length]; lia.
Qed.
Definition within (s : conn) : Prop := forall m, c_limit s = Some m -> (Z.of_nat (length (clients s)) <= Z.of_N m)%Z.
Lemma within_ext s s' : ids s' = ids s -> c_limit s' = c_limit s -> within s -> within s'.
Proof. unfold within. intros A B. now rewrite !clients_ids, A, B. Qed.
Lemma eff_within s s' : eff s s' -> SInv s -> within s -> within s'.
Proof.
  destruct 1; intros I W; try exact W.
  - apply (within_ext s); auto; [now apply ids_quiet|now apply k_limit].
  - rewrite H3. unfold within. intros m L. unfold clients.
    cbn [log_opened set_max_sid set_count set_streams c_streams c_limit] in *. rewrite filter_app, app_length.
    specialize (H2 m L). rewrite (i_count _ I) in H2. unfold ids in H2. rewrite map_length in H2.
    pose proof (filter_length_le (fun t => negb (t_id t =? 0)) (c_streams s)).
    cbn [filter new_stream t_id]. destruct (negb (sid =? 0)); cbn [length]; lia.
  - unfold within. intros m L. rewrite clients_ids, ids_close.
    pose proof (filter_filter (fun i => negb (i =? 0)) (fun i => negb (i =? sid)) (ids s)).
    specialize (W m L). rewrite clients_ids in W. lia.
  - unfold set_head. destruct (c_resps s); exact W.
  - unfold grant. destruct (sid =? 0); [exact W|]. apply (within_ext s); [now rewrite ids_upd|reflexivity|exact W].
  - apply (within_ext s); auto. unfold payload.
    change (ids (upd sid (fun t => st_pwin (t_pwin t - Z.of_N k)%Z t) s) = ids s). now apply ids_upd.
Qed.
Lemma effs_within s s' : effs s s' -> SInv s -> within s -> within s'.
Proof. induction 1; eauto using eff_within, SInv_effs. Qed.
Lemma reach_within limit maxlen es s : run (conn_init limit maxlen) es = Ok s -> within s.
Proof.
  intro H. eapply effs_within; [eapply reach_effs; exact H|apply SInv_init|]. intros m _. cbn. lia.
Qed.

Lemma reach_legal limit maxlen es s : run (conn_init limit maxlen) es = Ok s ->
  StronglySorted N.lt (map fst (c_opened s)) /\
  Forall (fun i => N.odd i = true) (map fst (c_opened s)) /\
  NoDup (map t_id (c_streams s)) /\
  Forall (fun t => t_id t = 0 \/ In (t_id t) (map fst (c_opened s))) (c_streams s) /\
  (forall m, limit = Some m -> Z.of_nat (length (clients s)) <= Z.of_N m)%Z.
Proof.
  intro H. destruct (reach_inv _ _ _ _ H) as [I _].
  split; [apply (i_osorted _ I)|]. split; [apply (i_oodd _ I)|]. split; [apply sorted_nodup, (i_sorted _ I)|]. split.
  - pose proof (i_open _ I) as O. unfold ids in O. now rewrite Forall_map in O.
  - intros m E. apply (reach_within _ _ _ _ H). now rewrite (reach_limit _ _ _ _ H).
Qed.
(** While the connection is in use the limit also counts the stream of the connection. *)
Lemma reach_limit_root limit maxlen es s m : run (conn_init limit maxlen) es = Ok s -> c_goaway s = false ->
  limit = Some m -> (Z.of_nat (length (clients s)) <= Z.max 0 (Z.of_N m - 1))%Z.
Proof.
  intros H G E. destruct (reach_inv _ _ _ _ H) as [I _]. pose proof (i_limit _ I m) as L.
  rewrite (reach_limit _ _ _ _ H) in L. specialize (L E). rewrite (i_count _ I) in L.
  destruct (i_root _ I G) as [rest X]. rewrite clients_ids. rewrite X in *. cbn [filter N.eqb negb length] in *.
  pose proof (filter_length_le (fun i => negb (i =? 0)) rest). lia.
Qed.

(** A CONTINUATION frame never completes a request. *)
Lemma continuation_refused s f o s' : SInv s -> c_goaway s = false -> c_status s = Running ->
  f_type f = 9 -> f_sid f <> 0 -> step s (ERecv f o) = Ok s' ->
  c_handled s' = c_handled s /\ c_resps s' = c_resps s /\ (END_HEADERS f = true -> c_goaway s' = true).
Proof.
  intros I G Ru T Z H. unfold step in H. rewrite Ru, G in H. pose proof (i_root _ I G) as Ro.
  rewrite recv_frame_enter in H. destruct (enter f s) as [s1 ok] eqn:E.
  pose proof (enter_rooted _ _ _ _ I Ro E) as R1.
  assert (H1 : c_handled s1 = c_handled s /\ c_resps s1 = c_resps s /\ (ok = false -> c_goaway s1 = true)).
  { unfold enter in E. set (s0 := if 16384 <? f_len f then _ else s) in E.
    assert (c_handled s0 = c_handled s /\ c_resps s0 = c_resps s) as [A B] by (unfold s0; destruct (16384 <? f_len f); auto).
    destruct (find_stream _ _); [injection E as <- <-; split; [exact A|split; [exact B|discriminate]]|].
    apply create_spec in E. destruct ok.
    - destruct E as (_ & _ & _ & ->). cbn. split; [exact A|split; [exact B|discriminate]].
    - destruct E as [-> _]. cbn. auto. }
  destruct H1 as (A1 & B1 & C1).
  destruct ok; cbn [negb] in H; [|injection H as <-; auto].
  cbv zeta in H. set (s2 := note_last f s1) in *.
  assert (Q2 : quiet s1 s2) by apply quiet_note.
  assert (R2 : rooted s2) by (eapply rooted_quiet; eassumption).
  rewrite <- (k_handled _ _ Q2) in A1. rewrite <- (k_resps _ _ Q2) in B1.
  destruct (find_stream (f_sid f) s2) as [t|] eqn:F; [|discriminate].
  apply find_in in F as [It Et]; [|exact R2].
  assert (Lt : t_last t = Some (9, f_flags f)).
  { unfold s2, note_last in It. replace (f_sid f =? 0) with false in It by lia. unfold upd, set_streams in It.
    cbn [c_streams] in It. apply in_map_iff in It as (u & Eu & Iu).
    destruct (t_id u =? f_sid f) eqn:Q; subst t; [|lia]. cbn [st_last t_last]. now rewrite T. }
  rewrite T in H. change (9 =? 4) with false in H. destruct (c_phase s2).
  - injection H as <-. cbn. auto.
  - unfold recv_continuation in H. rewrite Lt in H. unfold END_HEADERS in *.
    destruct (N.testbit (f_flags f) 2); injection H as <-; cbn; repeat split; auto; discriminate.
Qed.

(** A response whose stream has no credit keeps every other response from being sent. *)
Lemma stalled ns r t s : c_status s = Running -> c_goaway s = false -> c_sendq s = [] ->
  hd_error (c_resps s) = Some r -> p_phase r <> PData ->
  List.find (fun u => t_id u =? p_sid r) (c_streams s) = Some t -> t_esd t = false ->
  (t_pwin t <= 0)%Z \/ t_esh t = false -> forall o, run s (map (fun n => EWrite n o) ns) = Ok s.
Proof.
  intros Ru G Q Hr Ph F D W o. induction ns as [|n ns IH]; cbn [map run]; [reflexivity|].
  assert (X : step s (EWrite n o) = Ok s).
  { unfold step. rewrite Ru, G, Q. destruct (c_resps s) as [|r0 rs] eqn:Er; [discriminate|]. injection Hr as ->.
    unfold response_event. rewrite F, D. destruct (t_esh t); [|reflexivity].
    destruct W as [W|W]; [|discriminate]. unfold send_data.
    destruct (p_phase r); try congruence; replace (t_pwin t <=? 0)%Z with true by lia; reflexivity. }
  rewrite X. exact IH.
Qed.

(** Windows, seen from the frames received and the data sent. *)
Lemma windows_exact limit maxlen es s : run (conn_init limit maxlen) es = Ok s ->
  c_goaway s = false -> c_status s = Running ->
  c_win s = (65535 + sum (ev_window 0) es - sum data_all (c_wire s))%Z /\
  forall t, In t (c_streams s) -> t_id t <> 0 -> exists w0, In (t_id t, w0) (c_opened s) /\
    t_pwin t = (w0 + sum (ev_window (t_id t)) es - sum (data_of (t_id t)) (c_wire s))%Z.
Proof.
  intros H G Ru. pose proof (reach_winv _ _ _ _ H) as W.
  assert (C : forall i, sum (credit_of i) (c_credit s) = sum (ev_window i) es).
  { intro i. destruct (run_credit es (conn_init limit maxlen) s i (SInv_init _ _)) as [_ X]; auto.
    intros _. constructor. }
  split; [rewrite (w_conn _ W), C; reflexivity|].
  intros t It Z. destruct (w_stream _ W (t_id t) (t_pwin t)) as (w0 & A & B); [unfold wins; apply in_map_iff; eauto|exact Z|].
  exists w0. split; [exact A|]. now rewrite B, C.
Qed.
Lemma data_nonneg i l : (0 <= sum (data_of i) l)%Z.
Proof. apply sum_nonneg. intros x _. destruct x; cbn [data_of]; try lia. destruct (_ =? _); lia. Qed.
Lemma data_all_nonneg l : (0 <= sum data_all l)%Z.
Proof. apply sum_nonneg. intros x _. destruct x; cbn [data_all]; lia. Qed.
Lemma windows_bounded limit maxlen es s b : run (conn_init limit maxlen) es = Ok s ->
  (65535 + sum (ev_window 0) es <= b)%Z ->
  (forall i w0, In (i, w0) (c_opened s) -> w0 + sum (ev_window i) es <= b)%Z ->
  (c_win s <= b)%Z /\ forall t, In t (c_streams s) -> t_id t <> 0 -> (t_pwin t <= b)%Z.
Proof.
  intros H B0 B. pose proof (reach_winv _ _ _ _ H) as W.
  assert (C : forall i, (sum (credit_of i) (c_credit s) <= sum (ev_window i) es)%Z).
  { intro i. destruct (run_credit es (conn_init limit maxlen) s i (SInv_init _ _)) as [X _]; auto.
    intros _. constructor. }
  split.
  - rewrite (w_conn _ W). pose proof (data_all_nonneg (c_wire s)). specialize (C 0). lia.
  - intros t It Z. destruct (w_stream _ W (t_id t) (t_pwin t)) as (w0 & A & E); [unfold wins; apply in_map_iff; eauto|exact Z|].
    specialize (B _ _ A). specialize (C (t_id t)). pose proof (data_nonneg (t_id t) (c_wire s)). lia.
Qed.
Lemma paced_within_received limit maxlen es s : run (conn_init limit maxlen) es = Ok s ->
  paced_run (conn_init limit maxlen) es ->
  (sum data_all (c_wire s) <= 65535 + sum (ev_window 0) es)%Z /\
  (forall i w0, In (i, w0) (c_opened s) -> (sum (data_of i) (c_wire s) <= w0 + sum (ev_window i) es)%Z).
Proof.
  intros H P. destruct (paced_within _ _ _ _ H P) as [A B].
  assert (C : forall i, (sum (credit_of i) (c_credit s) <= sum (ev_window i) es)%Z).
  { intro i. destruct (run_credit es (conn_init limit maxlen) s i (SInv_init _ _)) as [X _]; auto.
    intros _. constructor. }
  split; [specialize (C 0); lia|]. intros i w0 J. specialize (B i w0 J). specialize (C i). lia.
Qed.
Lemma answered_once limit maxlen es : polite_run (conn_init limit maxlen) es ->
  exists s, run (conn_init limit maxlen) es = Ok s /\ NoDup (c_handled s) /\
    forall i, (sum (heads_w i) (c_wire s) <= 1)%Z.
Proof.
  intro W. destruct (polite_run_ok es (conn_init limit maxlen)) as (s & H & P); auto using SInv_init, PInv_init.
  { intros _. constructor. }
  exists s. split; [exact H|]. split; [apply (p_once _ P)|]. intro i.
  pose proof (reach_ainv _ _ _ _ H i) as A. unfold handled_n in A.
  assert (0 <= sum (heads_q i) (c_sendq s))%Z.
  { apply sum_nonneg. intros q _. unfold heads_q. destruct (q_kind q); try lia. destruct (_ =? _); lia. }
  assert (sum (fun j => if (j =? i)%N then 1 else 0) (c_handled s) <= 1)%Z; [|lia].
  pose proof (p_once _ P) as D. clear -D. induction (c_handled s) as [|a l IH]; cbn [sum]; [lia|].
  inversion D as [|? ? N D']; subst. specialize (IH D'). destruct (a =? i) eqn:Q; [|lia].
  assert (sum (fun j => if (j =? i)%N then 1 else 0) l = 0)%Z; [|lia].
  assert (a = i) as -> by lia. clear -N. induction l as [|b l IH]; cbn [sum]; [reflexivity|].
  destruct (b =? i) eqn:Q; [destruct N; left; lia|]. rewrite IH; [reflexivity|]. intro X. apply N. now right.
Qed.
Lemma polite_received limit maxlen es s f o s' : polite_run (conn_init limit maxlen) es ->
  run (conn_init limit maxlen) es = Ok s -> c_goaway s = false -> c_status s = Running ->
  polite s (ERecv f o) -> step s (ERecv f o) = Ok s' -> c_goaway s' = false -> c_status s' = Running ->
  forall i, i <> 0 -> state_of i s' = if i =? f_sid f then rfc_recv f (state_of i s) else state_of i s.
Proof.
  intros W H. destruct (polite_run_ok es (conn_init limit maxlen)) as (s0 & H0 & P); auto using SInv_init, PInv_init.
  { intros _. constructor. }
  assert (s0 = s) as -> by congruence. destruct (reach_inv _ _ _ _ H) as [I R]. now apply received_state.
Qed.
Lemma credit_returned limit maxlen es s : Forall ev_ok es -> run (conn_init limit maxlen) es = Ok s ->
  Forall ok_w (c_wire s) /\
  (c_goaway s = false -> c_status s = Running -> forall i, alive i s -> granted i s = sum (ev_credit i) es).
Proof.
  intros V H. destruct (run_grants es (conn_init limit maxlen) s) as [[_ A] B]; auto using SInv_init.
  - intros _. constructor.
  - split; constructor.
Qed.
(** Bytes of DATA frames received for [i] (0: all streams), padding included. *)
Definition ev_data (i : N) (e : event) : Z :=
  match e with
  | ERecv f _ => if (f_type f =? 0) && ((i =? 0) || (f_sid f =? i)) then Z.of_N (f_len f) else 0%Z
  | _ => 0%Z
  end.
Definition ev_unpadded (e : event) : Prop :=
  forall f, ev_frame e = Some f -> f_len f < 16777216 /\ (f_type f = 0 -> PADDED f = false /\ f_sid f <> 0).
Lemma credit_unpadded limit maxlen es s : Forall ev_unpadded es -> run (conn_init limit maxlen) es = Ok s ->
  c_goaway s = false -> c_status s = Running -> forall i, alive i s -> granted i s = sum (ev_data i) es.
Proof.
  intros V H G Ru i A.
  assert (V' : Forall ev_ok es).
  { eapply Forall_impl; [|exact V]. intros e U f E. destruct (U f E) as [L P]. split; [exact L|].
    intros T X. destruct (P T). congruence. }
  destruct (credit_returned _ _ _ _ V' H) as [_ B]. rewrite (B G Ru i A). apply sum_ext.
  intros e Ie. rewrite Forall_forall in V. specialize (V e Ie). destruct e as [f o| |]; try reflexivity.
  destruct (V f eq_refl) as [_ P]. cbn [ev_credit ev_data]. unfold data_credit, data_bytes, here.
  destruct (f_type f =? 0) eqn:T; [|reflexivity]. destruct (P ltac:(lia)) as [-> Z]. cbn [andb].
  destruct (f_sid f =? i) eqn:Q; destruct (i =? 0) eqn:J; cbn [orb]; lia.
Qed.

(* ---------- concrete runs ---------- *)

Definition final (s : conn) (es : list event) : conn := match run s es with Ok s' => s' | UB _ => s end.
Definition answer (n : N) : oracle := mkOracle true (SOk 65535) 100000 (Some (n, false)).
Definition fresh : conn := conn_init None 1000000.
Definition settings : event := ERecv (mkFrame 4 0 0 0 0) (answer 10).
(** A request without body on a stream, answered with [n] bytes. *)
Definition get (sid n : N) : event := ERecv (mkFrame 1 5 sid 20 0) (answer n).
Definition post (sid : N) : event := ERecv (mkFrame 1 4 sid 20 0) (answer 10).
Definition data (sid len fl : N) : event := ERecv (mkFrame 0 fl sid len 0) (answer 10).
Definition window (sid v : N) : event := ERecv (mkFrame 8 0 sid 4 v) (answer 10).
Definition write (n : N) : event := EWrite n (answer 10).
Definition reset (sid : N) : event := ERecv (mkFrame 3 0 sid 4 0) (answer 10).
Definition ping : event := ERecv (mkFrame 6 0 0 8 0) (answer 10).
(** SETTINGS with a new initial window. *)
Definition initial_window (n : N) : event := ERecv (mkFrame 4 0 0 6 0) (mkOracle true (SOk n) 0 None).
(** A header block in two frames. *)
Definition headers_first (sid : N) : event := ERecv (mkFrame 1 1 sid 20 0) (answer 10).
Definition headers_rest (sid : N) : event := ERecv (mkFrame 9 4 sid 20 0) (answer 10).
(** Boolean versions of [polite_run] and [paced_run], to check the concrete runs. *)
Definition st_is (a b : sstate) : bool :=
  match a, b with Idle, Idle | Open, Open => true | _, _ => false end.
Lemma st_is_eq a b : st_is a b = true -> a = b.
Proof. destruct a, b; cbn; congruence. Qed.
Definition politeb (s : conn) (e : event) : bool :=
  match e with
  | ERecv f _ =>
      (if f_type f =? 0 then negb (f_sid f =? 0) && st_is (state_of (f_sid f) s) Open else true) &&
      (if f_type f =? 1 then negb (f_sid f =? 0) && (st_is (state_of (f_sid f) s) Idle || st_is (state_of (f_sid f) s) Open) else true) &&
      (if f_type f =? 9 then negb (f_sid f =? 0) else true)
  | _ => true
  end.
Fixpoint polite_runb (s : conn) (es : list event) : bool :=
  match es with
  | [] => true
  | e :: t => negb (c_goaway s) && politeb s e && match step s e with Ok s' => polite_runb s' t | UB _ => true end
  end.
Lemma polite_runb_ok es : forall s, polite_runb s es = true -> polite_run s es.
Proof.
  induction es as [|e t IH]; intros s H; [exact Logic.I|]. cbn [polite_runb] in H. cbn [polite_run].
  apply andb_true_iff in H as [H R]. apply andb_true_iff in H as [G P].
  split; [destruct (c_goaway s); [discriminate|reflexivity]|]. split.
  - destruct e as [f o| |]; try exact Logic.I. cbn [politeb] in P. cbn [polite].
    apply andb_true_iff in P as [P C]. apply andb_true_iff in P as [A B].
    split; [intros T|split; intros T]; [split|split|].
    + rewrite T in A. cbn in A. apply andb_true_iff in A as [A1 A2]. lia.
    + rewrite T in A. cbn in A. apply andb_true_iff in A as [A1 A2]. apply st_is_eq, A2.
    + rewrite T in B. cbn in B. apply andb_true_iff in B as [A1 A2]. lia.
    + rewrite T in B. cbn in B. apply andb_true_iff in B as [A1 A2]. apply orb_true_iff in A2 as [A2|A2]; apply st_is_eq in A2; auto.
    + rewrite T in C. cbn in C. lia.
  - destruct (step s e); auto.
Qed.
Definition pacedb (s : conn) (e : event) : bool :=
  match e with
  | EWrite _ _ =>
      match c_resps s with
      | [] => true
      | r :: _ => forallb (fun t => negb (t_id t =? p_sid r) || (Z.of_N (p_len r) <=? t_pwin t)%Z) (c_streams s) && (Z.of_N (p_len r) <=? c_win s)%Z
      end
  | _ => true
  end.
Fixpoint paced_runb (s : conn) (es : list event) : bool :=
  match es with
  | [] => true
  | e :: t => pacedb s e && match step s e with Ok s' => paced_runb s' t | UB _ => true end
  end.
Lemma paced_runb_ok es : forall s, paced_runb s es = true -> paced_run s es.
Proof.
  induction es as [|e t IH]; intros s H; [exact Logic.I|]. cbn [paced_runb] in H. cbn [paced_run].
  apply andb_true_iff in H as [P R]. split.
  - destruct e as [f o|n o|o]; try exact Logic.I. cbn [pacedb] in P. cbn [paced]. intros r u H1 H2 H3 H4 _ _.
    destruct (c_resps s) as [|r0 q]; [discriminate|]. injection H1 as ->. apply andb_true_iff in P as [P W].
    rewrite forallb_forall in P. specialize (P u H3). rewrite H4, N.eqb_refl in P. cbn [negb orb] in P. lia.
  - destruct (step s e); auto.
Qed.
Lemma no_end i l : existsb (fun w => match w with WDataHeader j _ true => j =? i | _ => false end) l = false ->
  forall len, ~ In (WDataHeader i len true) l.
Proof.
  intros E len H. assert (X : existsb (fun w => match w with WDataHeader j _ true => j =? i | _ => false end) l = true).
  { apply existsb_exists. eexists. split; [exact H|]. apply N.eqb_refl. }
  congruence.
Qed.

(** ** Frames a stream may not receive *)
Lemma coalesce_keeps x sid q : (forall u, q_kind x <> KWindow u) -> forall size, In x q -> In x (snd (coalesce sid size q)).
Proof.
  intros K. induction q as [|y q IH]; intros size I; [exact I|]. cbn [coalesce]. destruct I as [->|I].
  - destruct (q_kind x) eqn:E; try (destruct (coalesce sid size q) as [n r]; left; reflexivity). destruct (K _ eq_refl).
  - destruct (q_kind y) eqn:KY; try (specialize (IH size I); destruct (coalesce sid size q) as [n r]; right; exact IH).
    match goal with |- context [if ?c then _ else _] => destruct c end; [apply IH, I|]. specialize (IH size I). destruct (coalesce sid size q) as [n r]. right. exact IH.
Qed.
Lemma window_update_keeps x sid n s : (forall u, q_kind x <> KWindow u) -> In x (c_sendq s) -> In x (c_sendq (window_update sid n s)).
Proof.
  intros K I. unfold window_update. pose proof (coalesce_keeps x sid (c_sendq s) K n I) as J. destruct (coalesce sid n (c_sendq s)) as [m q].
  unfold enqueue, set_sendq. cbn [c_sendq]. apply in_or_app. left. exact J.
Qed.
Lemma window_update_handled sid n s : c_handled (window_update sid n s) = c_handled s.
Proof. unfold window_update. destruct (coalesce _ _ _). reflexivity. Qed.
Lemma parse_data_keeps x t len cl s s' : (forall u, q_kind x <> KWindow u) -> parse_data t len cl s = Some s' -> In x (c_sendq s) ->
  In x (c_sendq s') /\ c_handled s' = c_handled s.
Proof.
  intros K E I. unfold parse_data in E.
  destruct (len =? 0); [injection E as <-; auto|].
  destruct (t_discard t); [injection E as <-; rewrite !window_update_handled; split; [|reflexivity]; (apply window_update_keeps; [exact K|]; apply window_update_keeps; [exact K|]; exact I)|].
  destruct (t_body t) as [[n tot]|].
  - destruct (tot <? n + len); [discriminate|]. injection E as <-. rewrite !window_update_handled. split; [|reflexivity]. (apply window_update_keeps; [exact K|]; apply window_update_keeps; [exact K|]; exact I).
  - destruct (c_maxlen s <? cl); [injection E as <-; rewrite !window_update_handled; split; [|reflexivity]; (apply window_update_keeps; [exact K|]; apply window_update_keeps; [exact K|]; exact I)|].
    destruct (cl <? len); [discriminate|]. injection E as <-. rewrite !window_update_handled. split; [|reflexivity]. (apply window_update_keeps; [exact K|]; apply window_update_keeps; [exact K|]; exact I).
Qed.
Lemma state_find sid s : sid <> 0 -> state_of sid s = match find_stream sid s with Some t => t_state t | None => Idle end.
Proof. intros NZ. unfold state_of, find_stream. replace (sid =? 0) with false by (symmetry; apply N.eqb_neq, NZ). reflexivity. Qed.
Lemma find_upd sid g s t : (forall t, t_id (g t) = t_id t) -> List.find (fun t => t_id t =? sid) (c_streams s) = Some t ->
  List.find (fun t => t_id t =? sid) (c_streams (upd sid g s)) = Some (g t).
Proof.
  intros G. unfold upd, set_streams. cbn [c_streams]. induction (c_streams s) as [|y l IH]; [discriminate|]. cbn [List.find map].
  destruct (t_id y =? sid) eqn:E; [intros [= ->]; rewrite G, E; reflexivity|]. rewrite E. exact IH.
Qed.
Lemma data_not_expected f o s s' t : f_sid f <> 0 -> find_stream (f_sid f) s = Some t -> t_state t <> Open -> t_state t <> HalfLocal -> c_phase s = Communication ->
  f_type f = 0 -> END_STREAM f = false -> recv_frame f o s = Ok s' ->
  c_status s' = Failed \/
  (In (mkQ (f_sid f) (KRst STREAM_CLOSED)) (c_sendq s') /\ state_of (f_sid f) s' = Closed /\ c_handled s' = c_handled s).
Proof.
  intros NZ FS NO NL PH TY ES E. unfold recv_frame in E.
  set (s0 := if 16384 <? f_len f then conn_error PROTOCOL_ERROR s else s) in E.
  assert (S0 : c_streams s0 = c_streams s /\ c_phase s0 = c_phase s /\ c_handled s0 = c_handled s) by (unfold s0; destruct (16384 <? f_len f); auto).
  destruct S0 as (S1 & S2 & S3). assert (FS0 : find_stream (f_sid f) s0 = Some t) by (unfold find_stream in *; rewrite S1; exact FS).
  rewrite FS0 in E. cbn [negb] in E. replace (f_sid f =? 0) with false in E by (symmetry; apply N.eqb_neq, NZ).
  set (s1 := upd (f_sid f) (st_last (Some (f_type f, f_flags f))) s0) in E.
  assert (F0 : List.find (fun t => t_id t =? f_sid f) (c_streams s0) = Some t) by (unfold find_stream in FS0; replace (f_sid f =? 0) with false in FS0 by (symmetry; apply N.eqb_neq, NZ); exact FS0).
  assert (TID : t_id t = f_sid f) by (apply find_some in F0 as (_ & Q); apply N.eqb_eq, Q).
  pose proof (find_upd (f_sid f) (st_last (Some (f_type f, f_flags f))) s0 t (fun _ => eq_refl) F0) as F1. fold s1 in F1.
  assert (FS1 : find_stream (f_sid f) s1 = Some (st_last (Some (f_type f, f_flags f)) t)) by (unfold find_stream; replace (f_sid f =? 0) with false by (symmetry; apply N.eqb_neq, NZ); exact F1).
  rewrite FS1 in E. set (t1 := st_last (Some (f_type f, f_flags f)) t) in *. change (c_phase s1) with (c_phase s0) in E. rewrite S2, PH, TY in E.
  unfold recv_data in E. change (t_id t1) with (t_id t) in E. change (t_state t1) with (t_state t) in E. rewrite TID in E. replace (f_sid f =? 0) with false in E by (symmetry; apply N.eqb_neq, NZ).
  replace (match t_state t with Open | HalfLocal => s1 | _ => stream_error (f_sid f) STREAM_CLOSED s1 end) with (stream_error (f_sid f) STREAM_CLOSED s1) in E by (destruct (t_state t); try reflexivity; contradiction).
  set (s2 := stream_error (f_sid f) STREAM_CLOSED s1) in E. rewrite ES in E.
  assert (I2 : In (mkQ (f_sid f) (KRst STREAM_CLOSED)) (c_sendq s2)) by (unfold s2, stream_error, upd, enqueue, set_streams, set_sendq; cbn [c_sendq]; apply in_or_app; right; left; reflexivity).
  assert (C2 : state_of (f_sid f) s2 = Closed).
  { unfold state_of, s2, stream_error. rewrite (find_upd (f_sid f) (st_state Closed) (enqueue (mkQ (f_sid f) (KRst STREAM_CLOSED)) s1) t1 (fun _ => eq_refl)); [reflexivity|exact F1]. }
  destruct (parse_data t1 _ (o_cl o) s2) as [s3|] eqn:PD; [|injection E as <-; left; reflexivity]. right.
  destruct (parse_data_keeps (mkQ (f_sid f) (KRst STREAM_CLOSED)) _ _ _ _ _ ltac:(discriminate) PD I2) as (I3 & H3).
  pose proof (parse_state _ _ _ _ _ (f_sid f) PD) as C3. rewrite C2 in C3.
  unfold answer_if_complete in E. rewrite (state_find _ _ NZ) in C3. destruct (find_stream (f_sid f) s3) as [t3|] eqn:F3; [|discriminate C3]. rewrite C3 in E. cbn [sstate_eqb andb] in E.
  injection E as <-. split; [exact I3|]. split; [rewrite (state_find _ _ NZ), F3; exact C3|]. rewrite H3. exact S3.
Qed.

Lemma headers_not_expected f o s s' t : f_sid f <> 0 -> find_stream (f_sid f) s = Some t -> t_state t = Closed \/ t_state t = HalfLocal \/ t_state t = ReservedRemote -> c_phase s = Communication ->
  f_type f = 1 -> END_STREAM f = false -> recv_frame f o s = Ok s' ->
  (In (mkQ (f_sid f) (KRst STREAM_CLOSED)) (c_sendq s') /\ state_of (f_sid f) s' = Closed /\ c_handled s' = c_handled s).
Proof.
  intros NZ FS ST PH TY ES E. unfold recv_frame in E.
  set (s0 := if 16384 <? f_len f then conn_error PROTOCOL_ERROR s else s) in E.
  assert (S0 : c_streams s0 = c_streams s /\ c_phase s0 = c_phase s /\ c_handled s0 = c_handled s) by (unfold s0; destruct (16384 <? f_len f); auto).
  destruct S0 as (S1 & S2 & S3). assert (FS0 : find_stream (f_sid f) s0 = Some t) by (unfold find_stream in *; rewrite S1; exact FS).
  rewrite FS0 in E. cbn [negb] in E. replace (f_sid f =? 0) with false in E by (symmetry; apply N.eqb_neq, NZ).
  set (s1 := upd (f_sid f) (st_last (Some (f_type f, f_flags f))) s0) in E.
  assert (F0 : List.find (fun t => t_id t =? f_sid f) (c_streams s0) = Some t) by (unfold find_stream in FS0; replace (f_sid f =? 0) with false in FS0 by (symmetry; apply N.eqb_neq, NZ); exact FS0).
  assert (TID : t_id t = f_sid f) by (apply find_some in F0 as (_ & Q); apply N.eqb_eq, Q).
  pose proof (find_upd (f_sid f) (st_last (Some (f_type f, f_flags f))) s0 t (fun _ => eq_refl) F0) as F1. fold s1 in F1.
  assert (FS1 : find_stream (f_sid f) s1 = Some (st_last (Some (f_type f, f_flags f)) t)) by (unfold find_stream; replace (f_sid f =? 0) with false by (symmetry; apply N.eqb_neq, NZ); exact F1).
  rewrite FS1 in E. set (t1 := st_last (Some (f_type f, f_flags f)) t) in *. change (c_phase s1) with (c_phase s0) in E. rewrite S2, PH, TY in E.
  unfold recv_headers in E. change (t_id t1) with (t_id t) in E. change (t_state t1) with (t_state t) in E. rewrite TID in E. replace (f_sid f =? 0) with false in E by (symmetry; apply N.eqb_neq, NZ).
  replace (match t_state t with Idle => upd (f_sid f) (st_state Open) s1 | ReservedLocal | Open | HalfRemote => s1 | _ => stream_error (f_sid f) STREAM_CLOSED s1 end) with (stream_error (f_sid f) STREAM_CLOSED s1) in E
    by (destruct ST as [->|[->| ->]]; reflexivity).
  set (s2 := stream_error (f_sid f) STREAM_CLOSED s1) in E. rewrite ES in E.
  assert (I2 : In (mkQ (f_sid f) (KRst STREAM_CLOSED)) (c_sendq s2)) by (unfold s2, stream_error, upd, enqueue, set_streams, set_sendq; cbn [c_sendq]; apply in_or_app; right; left; reflexivity).
  assert (F2 : List.find (fun t => t_id t =? f_sid f) (c_streams s2) = Some (st_state Closed t1))
    by (unfold s2, stream_error; apply (find_upd (f_sid f) (st_state Closed) (enqueue (mkQ (f_sid f) (KRst STREAM_CLOSED)) s1) t1 (fun _ => eq_refl)); exact F1).
  set (s3 := if o_hpack o then s2 else conn_error COMPRESSION_ERROR s2) in E.
  assert (I3 : In (mkQ (f_sid f) (KRst STREAM_CLOSED)) (c_sendq s3)) by (unfold s3; destruct (o_hpack o); [exact I2|]; unfold conn_error, enqueue, set_goaway, set_sendq; cbn [c_sendq]; apply in_or_app; left; exact I2).
  assert (F3 : List.find (fun t => t_id t =? f_sid f) (c_streams s3) = Some (st_state Closed t1)) by (unfold s3; destruct (o_hpack o); exact F2).
  assert (H3 : c_handled s3 = c_handled s) by (unfold s3; destruct (o_hpack o); exact S3).
  set (s4 := if END_HEADERS f then upd (f_sid f) (st_peh true) s3 else s3) in E.
  assert (I4 : In (mkQ (f_sid f) (KRst STREAM_CLOSED)) (c_sendq s4)) by (unfold s4; destruct (END_HEADERS f); exact I3).
  assert (H4 : c_handled s4 = c_handled s) by (unfold s4; destruct (END_HEADERS f); exact H3).
  assert (F4 : exists t4, find_stream (f_sid f) s4 = Some t4 /\ t_state t4 = Closed).
  { unfold find_stream. replace (f_sid f =? 0) with false by (symmetry; apply N.eqb_neq, NZ). unfold s4. destruct (END_HEADERS f); [|eexists; split; [exact F3|reflexivity]].
    eexists. split; [exact (find_upd (f_sid f) (st_peh true) s3 _ (fun _ => eq_refl) F3)|reflexivity]. }
  destruct F4 as (t4 & F4 & C4). unfold answer_if_complete in E. rewrite F4, C4 in E. cbn [sstate_eqb andb] in E. injection E as <-.
  split; [exact I4|]. split; [rewrite (state_find _ _ NZ), F4; exact C4|exact H4].
Qed.
