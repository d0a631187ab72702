(** Proofs about the HTTP/2 connection (H2Conn.v). *)
From Coq Require Import Sorted Relations.
From Coq Require Import ZifyBool ZifyNat ZifyN.
From Verif Require Import Base H2Conn.
Open Scope N_scope.

(* ---------- specification ---------- *)

(** Bytes of DATA payload sent, in all and on one stream. *)
Definition data_of (i : N) (w : item) : Z :=
  match w with WData j n => if j =? i then Z.of_N n else 0%Z | _ => 0%Z end.
Definition data_all (w : item) : Z := match w with WData _ n => Z.of_N n | _ => 0%Z end.
Fixpoint sum {A} (f : A -> Z) (l : list A) : Z :=
  match l with [] => 0%Z | x :: t => (f x + sum f t)%Z end.
(** The credit of one WINDOW_UPDATE frame for stream [i] (0: the connection). *)
Definition credit_of (i : N) (c : N * N) : Z := if fst c =? i then Z.of_N (snd c) else 0%Z.

(** HEADERS frames of stream [i] among queued frames and on the wire. *)
Definition heads_q (i : N) (q : qframe) : Z :=
  match q_kind q with KHeaders _ => if q_sid q =? i then 1%Z else 0%Z | _ => 0%Z end.
Definition heads_w (i : N) (w : item) : Z := match w with WFrame q => heads_q i q | _ => 0%Z end.
(** Increments granted to the peer for stream [i]. *)
Definition grant_q (i : N) (q : qframe) : Z :=
  match q_kind q with KWindow u => if q_sid q =? i then Z.of_N u else 0%Z | _ => 0%Z end.
Definition grant_w (i : N) (w : item) : Z := match w with WFrame q => grant_q i q | _ => 0%Z end.

Lemma sum_app {A} (f : A -> Z) a b : sum f (a ++ b) = (sum f a + sum f b)%Z.
Proof. induction a; cbn [sum app]; [lia|rewrite IHa; lia]. Qed.
Lemma sum_ext {A} (f g : A -> Z) l : (forall x, In x l -> f x = g x) -> sum f l = sum g l.
Proof.
  induction l; intro E; cbn [sum]; [reflexivity|].
  rewrite (E a) by now left. rewrite IHl; [reflexivity|]. intros x I; apply E; now right.
Qed.
Lemma sum_nonneg {A} (f : A -> Z) l : (forall x, In x l -> 0 <= f x)%Z -> (0 <= sum f l)%Z.
Proof.
  induction l; intro E; cbn [sum]; [lia|].
  specialize (IHl (fun x I => E x (or_intror I))). specialize (E a (or_introl eq_refl)). lia.
Qed.
Lemma sum_filter {A} (f : A -> Z) p l :
  (forall x, In x l -> p x = false -> f x = 0%Z) -> sum f (filter p l) = sum f l.
Proof.
  induction l; intro E; cbn [sum filter]; [reflexivity|].
  destruct (p a) eqn:P; cbn [sum]; rewrite IHl; try lia; try (intros x I; apply E; now right).
  rewrite (E a (or_introl eq_refl) P). lia.
Qed.
Lemma sum_filter_le {A} (f : A -> Z) p l :
  (forall x, In x l -> 0 <= f x)%Z -> (sum f (filter p l) <= sum f l)%Z.
Proof.
  induction l; intro E; cbn [sum filter]; [lia|].
  pose proof (E a (or_introl eq_refl)).
  assert (sum f (filter p l) <= sum f l)%Z by (apply IHl; intros x I; apply E; now right).
  destruct (p a); cbn [sum]; lia.
Qed.

(* ---------- ids and windows of the streams ---------- *)

Definition ids (s : conn) : list N := map t_id (c_streams s).
Definition wins (s : conn) : list (N * Z) := map (fun t => (t_id t, t_pwin t)) (c_streams s).

Lemma ids_wins s : ids s = map fst (wins s).
Proof. unfold ids, wins. rewrite map_map. reflexivity. Qed.

(** What most operations leave alone. *)
Record quiet (s s' : conn) : Prop := mkQuiet {
  k_wins : wins s' = wins s;
  k_count : c_count s' = c_count s;
  k_max : c_max_sid s' = c_max_sid s;
  k_opened : c_opened s' = c_opened s;
  k_limit : c_limit s' = c_limit s;
  k_maxlen : c_maxlen s' = c_maxlen s;
  k_win : c_win s' = c_win s;
  k_credit : c_credit s' = c_credit s;
  k_resps : c_resps s' = c_resps s;
  k_handled : c_handled s' = c_handled s;
  k_goaway : c_goaway s' = false -> c_goaway s = false;
  k_data : forall i, sum (data_of i) (c_wire s') = sum (data_of i) (c_wire s);
  k_data_all : sum data_all (c_wire s') = sum data_all (c_wire s);
  k_pinit : (0 <= c_pinit s -> 0 <= c_pinit s')%Z;
  k_heads : forall i, (sum (heads_q i) (c_sendq s') + sum (heads_w i) (c_wire s')
                     = sum (heads_q i) (c_sendq s) + sum (heads_w i) (c_wire s))%Z }.

Lemma quiet_refl s : quiet s s.
Proof. constructor; auto. Qed.
Lemma quiet_trans a b c : quiet a b -> quiet b c -> quiet a c.
Proof.
  intros [] []; constructor; try congruence; auto; congruence.
Qed.
Ltac qt := eapply quiet_trans; [|solve [eauto with quiet]].

(** An update of a stream that keeps its identifier and window. *)
Definition tame (f : stream -> stream) := forall t, t_id (f t) = t_id t /\ t_pwin (f t) = t_pwin t.
Lemma wins_upd sid f s : tame f -> wins (upd sid f s) = wins s.
Proof.
  intro T. unfold wins, upd, set_streams. cbn [c_streams]. rewrite map_map. apply map_ext. intro t.
  destruct (t_id t =? sid); [|reflexivity]. destruct (T t) as [A B]. now rewrite A, B.
Qed.
Lemma quiet_upd sid f s : tame f -> quiet s (upd sid f s).
Proof. intro T. constructor; try reflexivity; auto. now apply wins_upd. Qed.
Lemma quiet_enqueue q s : (forall b, q_kind q <> KHeaders b) -> quiet s (enqueue q s).
Proof.
  intro K. constructor; try reflexivity; auto.
  intro i. unfold enqueue, set_sendq. cbn [c_sendq c_wire]. rewrite sum_app. cbn [sum].
  unfold heads_q. destruct (q_kind q); try lia. now destruct (K endstream).
Qed.
Lemma quiet_conn_error c s : quiet s (conn_error c s).
Proof.
  unfold conn_error. eapply quiet_trans.
  - apply (quiet_enqueue (mkQ 0 (KGoaway c))). discriminate.
  - constructor; try reflexivity; try discriminate. auto.
Qed.
Lemma tame_state x : tame (st_state x). Proof. now intro. Qed.
Lemma tame_peh x : tame (st_peh x). Proof. now intro. Qed.
Lemma tame_can x : tame (st_can x). Proof. now intro. Qed.
Lemma tame_esh x : tame (st_esh x). Proof. now intro. Qed.
Lemma tame_body x : tame (st_body x). Proof. now intro. Qed.
Lemma tame_discard x : tame (st_discard x). Proof. now intro. Qed.
Lemma tame_last x : tame (st_last x). Proof. now intro. Qed.
Lemma tame_end : tame (fun t => st_esd true (st_state Closed t)). Proof. now intro. Qed.
#[export] Hint Resolve tame_state tame_peh tame_can tame_esh tame_body tame_discard tame_last tame_end
  quiet_refl quiet_upd quiet_conn_error : quiet.
Lemma quiet_stream_error sid c s : quiet s (stream_error sid c s).
Proof.
  unfold stream_error. eapply quiet_trans; [|apply quiet_upd, tame_state].
  apply quiet_enqueue. discriminate.
Qed.
#[export] Hint Resolve quiet_stream_error : quiet.

Lemma coalesce_heads sid i q : forall size,
  sum (heads_q i) (snd (coalesce sid size q)) = sum (heads_q i) q.
Proof.
  induction q as [|x q IH]; intro size; cbn [coalesce sum]; [reflexivity|].
  destruct (q_kind x) eqn:K;
    try (destruct (coalesce sid size q) as [n r] eqn:E; cbn [snd sum];
         specialize (IH size); rewrite E in IH; cbn [snd] in IH; lia).
  destruct ((q_sid x =? sid) && _).
  - rewrite IH. unfold heads_q at 2. rewrite K. lia.
  - destruct (coalesce sid size q) as [n r] eqn:E; cbn [snd sum].
    specialize (IH size); rewrite E in IH; cbn [snd] in IH; lia.
Qed.
Lemma quiet_window_update sid n s : quiet s (window_update sid n s).
Proof.
  unfold window_update. destruct (coalesce sid n (c_sendq s)) as [m q] eqn:E.
  eapply quiet_trans; [|apply quiet_enqueue; discriminate].
  constructor; try reflexivity; auto.
  intro i. unfold set_sendq. cbn [c_sendq c_wire].
  pose proof (coalesce_heads sid i (c_sendq s) n) as H. rewrite E in H. cbn [snd] in H. lia.
Qed.
#[export] Hint Resolve quiet_window_update : quiet.
Lemma quiet_parse_data t len cl s s' : parse_data t len cl s = Some s' -> quiet s s'.
Proof.
  unfold parse_data. destruct (len =? 0); [intros [= <-]; auto with quiet|].
  destruct (t_discard t); [intros [= <-]; eapply quiet_trans; eauto with quiet|].
  destruct (t_body t) as [[n total]|].
  - destruct (total <? n + len); [discriminate|]. intros [= <-].
    eapply quiet_trans; [apply quiet_upd, tame_body|]. eapply quiet_trans; eauto with quiet.
  - destruct (c_maxlen s <? cl).
    + intros [= <-]. eapply quiet_trans; [apply quiet_upd, tame_discard|]. eapply quiet_trans; eauto with quiet.
    + destruct (cl <? len); [discriminate|]. intros [= <-].
      eapply quiet_trans; [apply quiet_upd, tame_body|]. eapply quiet_trans; eauto with quiet.
Qed.
Lemma quiet_emergency s : quiet s (emergency s).
Proof.
  constructor; try reflexivity; auto; intros; unfold emergency, set_status, log_wire;
    cbn [c_wire c_sendq]; rewrite ?sum_app; cbn [sum data_of data_all heads_w heads_q q_kind]; lia.
Qed.
#[export] Hint Resolve quiet_emergency : quiet.

(* ---------- the structure of the stream list ---------- *)

Record SInv (s : conn) : Prop := mkSInv {
  i_sorted : StronglySorted N.lt (ids s);
  i_max : Forall (fun i => i <= c_max_sid s) (ids s);
  i_open : Forall (fun i => i = 0 \/ In i (map fst (c_opened s))) (ids s);
  i_osorted : StronglySorted N.lt (map fst (c_opened s));
  i_omax : Forall (fun i => i <= c_max_sid s) (map fst (c_opened s));
  i_oodd : Forall (fun i => N.odd i = true) (map fst (c_opened s));
  i_count : c_count s = Z.of_nat (length (ids s));
  i_limit : forall m, c_limit s = Some m -> (c_count s <= Z.max 1 (Z.of_N m))%Z;
  i_root : c_goaway s = false -> exists rest, ids s = 0 :: rest }.

Lemma SInv_quiet s s' : quiet s s' -> SInv s -> SInv s'.
Proof.
  intros Q I. destruct Q, I.
  assert (E : ids s' = ids s) by (rewrite !ids_wins; now rewrite k_wins0).
  constructor; rewrite ?E, ?k_count0, ?k_max0, ?k_opened0, ?k_limit0; auto.
Qed.
Lemma SInv_init limit maxlen : SInv (conn_init limit maxlen).
Proof.
  constructor; cbn; auto; try (repeat constructor; fail).
  - repeat constructor. lia.
  - intros m E. lia.
  - eexists; reflexivity.
Qed.

Lemma sorted_snoc (l : list N) x :
  StronglySorted N.lt l -> Forall (fun i => i < x) l -> StronglySorted N.lt (l ++ [x]).
Proof.
  induction 1 as [|a l S IH F]; intro B; cbn [app].
  - repeat constructor.
  - inversion B; subst. constructor; [auto|]. apply Forall_app. split; [assumption|]. now constructor.
Qed.
Lemma sorted_nodup (l : list N) : StronglySorted N.lt l -> NoDup l.
Proof.
  induction 1 as [|a l S IH F]; constructor; [|assumption].
  intro I. rewrite Forall_forall in F. specialize (F _ I). lia.
Qed.
Lemma sorted_filter {A} (f : A -> N) p (l : list A) :
  StronglySorted N.lt (map f l) -> StronglySorted N.lt (map f (filter p l)).
Proof.
  induction l as [|a l IH]; intro S; cbn [filter map] in *; [constructor|].
  inversion S as [|? ? S' F]; subst. specialize (IH S').
  destruct (p a); [|assumption]. cbn [map]. constructor; [assumption|].
  rewrite Forall_forall in *. intros x I. apply in_map_iff in I as (b & E & I).
  apply filter_In in I as [I _]. apply F. apply in_map_iff. eauto.
Qed.
Lemma Forall_le_lt (l : list N) m x : Forall (fun i => i <= m) l -> m < x -> Forall (fun i => i < x) l.
Proof. intros F L. eapply Forall_impl; [|exact F]. cbn. intros; lia. Qed.

(** What a successful creation does, and when it happens. *)
Definition opens (sid : N) (s s' : conn) : Prop :=
  s' = log_opened (sid, c_pinit s) (set_max_sid sid (set_count (c_count s + 1)%Z
          (set_streams (c_streams s ++ [new_stream (c_pinit s) sid]) s))).
Lemma create_spec sid s s' ok : create_stream sid s = (s', ok) ->
  if ok then c_max_sid s < sid /\ N.odd sid = true /\
             (forall m, c_limit s = Some m -> (c_count s < Z.of_N m)%Z) /\ opens sid s s'
  else s' = conn_error PROTOCOL_ERROR s /\
       (sid <= c_max_sid s \/ N.odd sid = false \/
        exists m, c_limit s = Some m /\ (Z.of_N m <= c_count s)%Z).
Proof.
  unfold create_stream. destruct (sid <=? c_max_sid s) eqn:A; [intros [= <- <-]; split; [reflexivity|lia]|].
  destruct (match c_limit s with Some m => _ | None => _ end) eqn:B.
  - intros [= <- <-]. split; [reflexivity|]. right; right. destruct (c_limit s); [|discriminate].
    eexists; split; [reflexivity|]. lia.
  - destruct (negb (sid =? 0) && (sid mod 2 =? 0)) eqn:C; intros [= <- <-].
    + split; [reflexivity|]. right; left.
      rewrite <- N.negb_even. apply Bool.negb_false_iff, N.even_spec.
      apply andb_true_iff in C as [_ C]. exists (sid / 2). pose proof (N.div_mod sid 2). lia.
    + split; [lia|]. split; [|split].
      * rewrite <- N.negb_even. apply Bool.negb_true_iff. destruct (N.even sid) eqn:E; [|reflexivity].
        apply N.even_spec in E as [k ->]. rewrite (N.mul_comm 2 k), N.mod_mul in C by lia. lia.
      * intros m E. rewrite E in B. lia.
      * reflexivity.
Qed.
Lemma SInv_opens sid s s' : SInv s -> c_max_sid s < sid -> N.odd sid = true ->
  (forall m, c_limit s = Some m -> (c_count s < Z.of_N m)%Z) -> opens sid s s' -> SInv s'.
Proof.
  intros [] L O M ->.
  assert (E : forall x, ids (log_opened x (set_max_sid sid (set_count (c_count s + 1)%Z
     (set_streams (c_streams s ++ [new_stream (c_pinit s) sid]) s)))) = ids s ++ [sid]).
  { intro x. unfold ids, log_opened, set_max_sid, set_count, set_streams. cbn [c_streams].
    now rewrite map_app. }
  constructor; rewrite ?E; unfold log_opened, set_max_sid, set_count, set_streams;
    cbn [c_max_sid c_opened c_count c_limit c_goaway]; rewrite ?map_app; cbn [map fst].
  - apply sorted_snoc; [assumption|]. eapply Forall_le_lt; eassumption.
  - apply Forall_app; split; [|repeat constructor; lia]. eapply Forall_impl; [|exact i_max0]. cbn; lia.
  - apply Forall_app; split.
    + eapply Forall_impl; [|exact i_open0]. intros i [|]; [now left|right]. apply in_or_app. now left.
    + constructor; [|constructor]. right. apply in_or_app. right. now left.
  - apply sorted_snoc; [assumption|]. eapply Forall_le_lt; eassumption.
  - apply Forall_app; split; [|repeat constructor; lia]. eapply Forall_impl; [|exact i_omax0]. cbn; lia.
  - apply Forall_app; split; [assumption|repeat constructor; assumption].
  - rewrite app_length. cbn [length]. lia.
  - intros m E2. specialize (M _ E2). lia.
  - intro G. destruct (i_root0 G) as [rest ->]. eexists; reflexivity.
Qed.
Lemma filter_id {A} p (l : list A) : (forall x, In x l -> p x = true) -> filter p l = l.
Proof.
  induction l; intro H; cbn [filter]; [reflexivity|].
  rewrite (H a (or_introl eq_refl)). f_equal. apply IHl. intros; apply H; now right.
Qed.
Lemma length_remove sid (l : list stream) : StronglySorted N.lt (map t_id l) ->
  In sid (map t_id l) ->
  S (length (filter (fun t => negb (t_id t =? sid)) l)) = length l.
Proof.
  induction l as [|a l IH]; intros S I; cbn [map filter length] in *; [easy|].
  inversion S as [|? ? S' F]; subst.
  destruct (t_id a =? sid) eqn:E; cbn [negb].
  - f_equal. apply N.eqb_eq in E. rewrite filter_id; [reflexivity|]. intros x Ix.
    rewrite Forall_forall in F. specialize (F (t_id x) (in_map _ _ _ Ix)). lia.
  - cbn [length]. f_equal. apply IH; [assumption|]. destruct I as [I|I]; [lia|assumption].
Qed.
Lemma ids_close sid s : ids (close_stream sid s) = filter (fun i => negb (i =? sid)) (ids s).
Proof.
  unfold ids, close_stream, set_sendq, set_count, set_streams. cbn [c_streams].
  induction (c_streams s) as [|a l IH]; cbn [filter map]; [reflexivity|].
  destruct (negb (t_id a =? sid)); cbn [map]; now rewrite IH.
Qed.
(** Closing a stream of the list; the root stream only once GOAWAY was decided. *)
Lemma SInv_close sid s : SInv s -> In sid (ids s) -> (sid = 0 -> c_goaway s = true) ->
  SInv (close_stream sid s).
Proof.
  intros [] I G.
  constructor; try (rewrite ids_close); unfold close_stream, set_sendq, set_count, set_streams;
    cbn [c_max_sid c_opened c_count c_limit c_goaway]; auto.
  - rewrite <- (map_id (filter _ _)). apply sorted_filter. now rewrite map_id.
  - apply Forall_forall. intros x Ix. apply filter_In in Ix as [Ix _]. rewrite Forall_forall in i_max0. auto.
  - apply Forall_forall. intros x Ix. apply filter_In in Ix as [Ix _]. rewrite Forall_forall in i_open0. auto.
  - rewrite i_count0. rewrite <- ids_close. unfold ids, close_stream, set_sendq, set_count, set_streams.
    cbn [c_streams]. rewrite !map_length. pose proof (length_remove sid (c_streams s) i_sorted0 I). lia.
  - intros m E. specialize (i_limit0 m E). lia.
  - intro F. destruct (i_root0 F) as [rest E]. rewrite E. cbn [filter].
    destruct (0 =? sid) eqn:Z; [|eexists; reflexivity].
    assert (sid = 0) by lia. rewrite (G H) in F. discriminate.
Qed.

Definition rooted (s : conn) : Prop := exists rest, ids s = 0 :: rest.
Lemma find_in sid s t : find_stream sid s = Some t -> rooted s ->
  In t (c_streams s) /\ t_id t = sid.
Proof.
  unfold find_stream. destruct (sid =? 0) eqn:Z.
  - intros H [rest E]. unfold ids in E.
    destruct (c_streams s) as [|a l]; [discriminate|]. cbn [map hd_error] in *.
    injection H as <-. injection E as E _. split; [now left|]. lia.
  - intros H _. apply find_some in H as [A B]. split; [assumption|lia].
Qed.
Lemma find_ids sid (l : list stream) t : List.find (fun t => t_id t =? sid) l = Some t ->
  In t l /\ t_id t = sid.
Proof. intro H. apply find_some in H as [A B]. split; [assumption|lia]. Qed.
Lemma find_stream_none sid s : find_stream sid s = None -> rooted s -> ~ In sid (ids s).
Proof.
  unfold find_stream. destruct (sid =? 0) eqn:Z.
  - intros H [rest E]. unfold ids in E.
    destruct (c_streams s); [discriminate|discriminate].
  - intros H _ I. apply in_map_iff in I as (t & E & I).
    pose proof (find_none _ _ H t I) as Q. cbv beta in Q. lia.
Qed.
Lemma find_stream_some sid s : In sid (ids s) -> exists t, find_stream sid s = Some t.
Proof.
  intro I. unfold find_stream. destruct (sid =? 0).
  - unfold ids in I. destruct (c_streams s); [easy|]. eexists; reflexivity.
  - destruct (List.find _ _) eqn:E; [eauto|]. apply in_map_iff in I as (t & <- & I).
    pose proof (find_none _ _ E t I) as Q. cbv beta in Q. lia.
Qed.

(* ---------- every step is made of a few effects ---------- *)

Definition respond (sid len : N) (nc : bool) (s : conn) : conn :=
  enqueue (mkQ sid (KHeaders nc))
    (set_resps (c_resps s ++ [mkResp sid (if nc then 0 else len) nc PHeader 0]) s).
Definition grant (sid v : N) (s : conn) : conn :=
  let s := log_credit (sid, v) s in
  if sid =? 0 then set_win (c_win s + Z.of_N v)%Z s
  else upd sid (fun t => st_pwin (t_pwin t + Z.of_N v)%Z t) s.
Definition payload (sid k : N) (s : conn) : conn :=
  log_wire (WData sid k) (set_win (c_win s - Z.of_N k)%Z
    (upd sid (fun t => st_pwin (t_pwin t - Z.of_N k)%Z t) s)).

(** What an event is allowed to do. *)
Record perm := mkPerm { can_send : bool; can_open : bool; can_grant : bool }.
Definition anything := mkPerm true true true.
Section Effects.
Variable w : perm.
Inductive effw : conn -> conn -> Prop :=
| e_quiet s s' : quiet s s' -> effw s s'
| e_open sid s s' : can_open w = true -> c_max_sid s < sid -> N.odd sid = true ->
    (forall m, c_limit s = Some m -> (c_count s < Z.of_N m)%Z) -> opens sid s s' -> effw s s'
| e_close sid s : In sid (ids s) -> (sid = 0 -> c_goaway s = true) -> effw s (close_stream sid s)
| e_handled sid s : In sid (ids s) -> effw s (log_handled sid s)
| e_request sid len nc s : In sid (ids s) -> sid <> 0 \/ c_goaway s = true -> effw s (respond sid len nc (log_handled sid s))
| e_pop s : can_send w = true -> effw s (set_resps (tl (c_resps s)) s)
| e_head r r0 s : can_send w = true -> hd_error (c_resps s) = Some r0 -> p_sid r = p_sid r0 -> p_nocontent r = p_nocontent r0 ->
    p_len r = p_len r0 -> effw s (set_head r s)
| e_grant sid v s : can_grant w = true -> In sid (ids s) -> effw s (grant sid v s)
| e_payload sid k s : can_send w = true -> In sid (ids s) -> effw s (payload sid k s).
Definition effsw : conn -> conn -> Prop := clos_refl_trans conn effw.

Lemma effs_quiet s s' : quiet s s' -> effsw s s'.
Proof. intro; apply rt_step, e_quiet; assumption. Qed.
Lemma effs_trans a b c : effsw a b -> effsw b c -> effsw a c.
Proof. intros; eapply rt_trans; eassumption. Qed.

Lemma ids_upd sid f s : (forall t, t_id (f t) = t_id t) -> ids (upd sid f s) = ids s.
Proof.
  intro T. unfold ids, upd, set_streams. cbn [c_streams]. rewrite map_map. apply map_ext. intro t.
  destruct (t_id t =? sid); [apply T|reflexivity].
Qed.
Lemma ids_quiet s s' : quiet s s' -> ids s' = ids s.
Proof. intro Q. rewrite !ids_wins. now rewrite (k_wins _ _ Q). Qed.
Lemma SInv_ext s s' : SInv s -> ids s' = ids s -> c_count s' = c_count s -> c_max_sid s' = c_max_sid s ->
  c_opened s' = c_opened s -> c_limit s' = c_limit s -> c_goaway s' = c_goaway s -> SInv s'.
Proof. intros [] A B C D E F. constructor; rewrite ?A, ?B, ?C, ?D, ?E, ?F; auto. Qed.

Lemma SInv_eff s s' : effw s s' -> SInv s -> SInv s'.
Proof.
  destruct 1; intro I.
  - eapply SInv_quiet; eassumption.
  - eapply SInv_opens; eassumption.
  - apply SInv_close; assumption.
  - apply (SInv_ext s); auto.
  - apply (SInv_ext s); auto.
  - apply (SInv_ext s); auto.
  - apply (SInv_ext s); auto; unfold set_head; destruct (c_resps s); reflexivity.
  - unfold grant. destruct (sid =? 0); [apply (SInv_ext s); auto|].
    apply (SInv_ext s); auto. rewrite ids_upd; reflexivity.
  - apply (SInv_ext s); auto. unfold payload.
    change (ids (upd sid (fun t => st_pwin (t_pwin t - Z.of_N k)%Z t) s) = ids s).
    apply ids_upd. reflexivity.
Qed.
Lemma SInv_effs s s' : effsw s s' -> SInv s -> SInv s'.
Proof. induction 1; eauto using SInv_eff. Qed.

(** A request given to the handler. *)
Lemma new_response_effs sid len nc s s' : SInv s -> sid <> 0 \/ c_goaway s = true ->
  new_response sid len nc (log_handled sid s) = Ok s' -> effsw s s'.
Proof.
  intros I G. unfold new_response.
  destruct (List.find _ (c_streams (log_handled sid s))) as [t|] eqn:F; [|discriminate].
  apply find_ids in F as [Ft Et]. cbn [log_handled c_streams] in Ft.
  assert (In sid (ids s)) as Is by (subst sid; now apply in_map).
  assert (H : effsw s (log_handled sid s)) by (apply rt_step; now constructor).
  destruct (t_esd t).
  - intros [= <-]. unfold response_done. eapply effs_trans; [exact H|].
    assert (Q : quiet (log_handled sid s) (set_max_handled (N.max (c_max_handled (log_handled sid s)) (t_id t)) (log_handled sid s)))
      by (constructor; auto).
    eapply effs_trans; [apply effs_quiet; exact Q|].
    destruct (sstate_eqb (t_state t) Closed); [|apply rt_refl].
    apply rt_step. rewrite Et. constructor; [exact Is|]. intro Z. destruct G; [easy|assumption].
  - destruct (t_esh t).
    + destruct ((t_pwin t <=? 0) || _)%Z; [intros [= <-]; exact H|].
      destruct (sstate_eqb (t_state t) HalfRemote); intros [= <-]; [|exact H].
      eapply effs_trans; [exact H|]. apply effs_quiet, quiet_upd, tame_end.
    + destruct (sstate_eqb (t_state t) HalfRemote); [|discriminate].
      intros [= <-]. apply rt_step. apply (e_request sid len nc s Is G).
Qed.
Lemma handle_effs sid o s s' : SInv s -> In sid (ids s) -> sid <> 0 \/ c_goaway s = true ->
  handle_request sid o s = Ok s' -> effsw s s'.
Proof.
  intros I Is G. unfold handle_request. destruct (o_resp o) as [[len nc]|].
  - apply new_response_effs; assumption.
  - intros [= <-]. eapply effs_trans; [apply rt_step; now apply (e_handled sid)|].
    apply effs_quiet, quiet_emergency.
Qed.
Lemma answer_effs sid o s s' : SInv s -> sid <> 0 \/ c_goaway s = true -> In sid (ids s) ->
  answer_if_complete sid o s = Ok s' -> effsw s s'.
Proof.
  intros I G Is. unfold answer_if_complete. destruct (find_stream sid s) as [t|]; [|discriminate].
  destruct (_ && _); [|intros [= <-]; apply rt_refl].
  intro H. eapply effs_trans; [apply effs_quiet, quiet_upd, tame_can|].
  eapply handle_effs; [|..|exact H].
  - eapply SInv_quiet; [apply quiet_upd, tame_can|assumption].
  - rewrite ids_upd by reflexivity. assumption.
  - exact G.
Qed.

Lemma if_quiet (b : bool) s1 s2 s : quiet s s1 -> quiet s s2 -> quiet s (if b then s1 else s2).
Proof. now destruct b. Qed.

Lemma goaway_quiet s s' : quiet s s' -> c_goaway s = true -> c_goaway s' = true.
Proof. intros Q G. destruct (c_goaway s') eqn:E; [reflexivity|]. now rewrite (k_goaway _ _ Q E) in G. Qed.

(** DATA and HEADERS before the answer. *)
Lemma recv_data_effs t f o s s' : SInv s -> In t (c_streams s) ->
  recv_data t f o s = Ok s' -> effsw s s'.
Proof.
  intros I It. unfold recv_data.
  set (s1 := if t_id t =? 0 then _ else s).
  assert (Q1 : quiet s s1) by (apply if_quiet; auto with quiet).
  set (s2 := match t_state t with Open | HalfLocal => s1 | _ => _ end).
  assert (Q2 : quiet s s2) by (eapply quiet_trans; [exact Q1|]; subst s2; destruct (t_state t); auto with quiet).
  destruct (parse_data _ _ _ s2) as [s3|] eqn:P.
  - apply quiet_parse_data in P.
    assert (Q3 : quiet s s3) by (eapply quiet_trans; eassumption).
    set (s4 := if END_STREAM f then _ else s3).
    assert (Q4 : quiet s s4) by (eapply quiet_trans; [exact Q3|]; apply if_quiet; auto with quiet).
    intro H. eapply effs_trans; [apply effs_quiet; exact Q4|].
    eapply answer_effs; [|..|exact H].
    + eapply SInv_quiet; eassumption.
    + destruct (N.eq_dec (t_id t) 0) as [Z|]; [right|now left].
      assert (c_goaway s1 = true) by (unfold s1; rewrite Z; reflexivity).
      assert (Q14 : quiet s1 s4).
      { apply (quiet_trans _ s3); [|unfold s4; apply if_quiet; auto with quiet].
        eapply quiet_trans; [|exact P]. subst s2. destruct (t_state t); auto with quiet. }
      eapply goaway_quiet; eassumption.
    + rewrite (ids_quiet _ _ Q4). now apply in_map.
  - intros [= <-]. apply effs_quiet. eapply quiet_trans; [exact Q2|]. apply quiet_emergency.
Qed.
Lemma recv_headers_effs t f o s s' : SInv s -> In t (c_streams s) ->
  recv_headers t f o s = Ok s' -> effsw s s'.
Proof.
  intros I It. unfold recv_headers.
  set (s1 := if t_id t =? 0 then _ else s).
  assert (Q1 : quiet s s1) by (apply if_quiet; auto with quiet).
  set (s2 := match t_state t with Idle => _ | ReservedLocal | Open | HalfRemote => s1 | _ => _ end).
  assert (Q2 : quiet s1 s2) by (subst s2; destruct (t_state t); auto with quiet).
  set (s3 := if o_hpack o then s2 else _).
  assert (Q3 : quiet s2 s3) by (apply if_quiet; auto with quiet).
  set (s4 := if END_STREAM f then _ else s3).
  assert (Q4 : quiet s3 s4) by (apply if_quiet; auto with quiet).
  set (s5 := if END_HEADERS f then _ else s4).
  assert (Q5 : quiet s4 s5) by (apply if_quiet; auto with quiet).
  assert (Q15 : quiet s1 s5) by eauto using quiet_trans.
  assert (Q : quiet s s5) by eauto using quiet_trans.
  intro H. eapply effs_trans; [apply effs_quiet; exact Q|].
  eapply answer_effs; [|..|exact H].
  - eapply SInv_quiet; eassumption.
  - destruct (N.eq_dec (t_id t) 0) as [Z|]; [right|now left].
    eapply goaway_quiet; [exact Q15|]. unfold s1. rewrite Z. reflexivity.
  - rewrite (ids_quiet _ _ Q). now apply in_map.
Qed.
Lemma recv_push_quiet t f s s' : SInv s -> In (f_sid f) (ids s) ->
  recv_push t f s = Ok s' -> quiet s s'.
Proof.
  intros I It. unfold recv_push.
  set (s1 := if f_sid f =? 0 then _ else s).
  assert (Q1 : quiet s s1) by (apply if_quiet; auto with quiet).
  set (s2 := match t_state t with Open | HalfRemote => s1 | _ => _ end).
  assert (Q2 : quiet s1 s2) by (subst s2; destruct (t_state t); auto with quiet).
  set (s3 := match find_stream (f_sid f) s2 with Some _ => _ | None => s2 end).
  assert (Q3 : quiet s2 s3) by (subst s3; destruct (find_stream _ _); auto with quiet).
  assert (Q : quiet s s3) by eauto using quiet_trans.
  destruct (create_stream (f_sid f) s3) as [s4 ok] eqn:C. apply create_spec in C.
  pose proof (i_max _ I) as M. rewrite Forall_forall in M. specialize (M _ It).
  rewrite (k_max _ _ Q) in C.
  destruct ok; [destruct C; lia|]. destruct C as [-> _].
  intros [= <-]. eapply quiet_trans; [exact Q|]. eapply quiet_trans; [apply quiet_conn_error|apply quiet_emergency].
Qed.

Lemma quiet_priority t f s s' : recv_priority t f s = Ok s' -> quiet s s'.
Proof.
  unfold recv_priority. intros [= <-].
  eapply quiet_trans; [|apply if_quiet; auto with quiet]. apply if_quiet; auto with quiet.
Qed.
Lemma quiet_rst t f s s' : recv_rst t f s = Ok s' -> quiet s s'.
Proof.
  unfold recv_rst. intros [= <-]. eapply quiet_trans; [|apply quiet_upd, tame_state].
  eapply quiet_trans; [|apply if_quiet; auto with quiet].
  eapply quiet_trans; [|apply if_quiet; auto with quiet]. apply if_quiet; auto with quiet.
Qed.
Lemma quiet_settings f o s s' : recv_settings f o s = Ok s' -> quiet s s'.
Proof.
  unfold recv_settings.
  set (s1 := if f_sid f =? 0 then s else _).
  assert (Q1 : quiet s s1) by (apply if_quiet; auto with quiet).
  set (s2 := if f_len f mod 6 =? 0 then s1 else _).
  assert (Q2 : quiet s s2) by (eapply quiet_trans; [exact Q1|]; apply if_quiet; auto with quiet).
  destruct (ACK f); [intros [= <-]; exact Q2|].
  assert (Q3 : quiet s (enqueue (mkQ (f_sid f) KSettings) s2))
    by (eapply quiet_trans; [exact Q2|]; apply quiet_enqueue; discriminate).
  destruct (o_settings o); intros [= <-]; eapply quiet_trans; try exact Q3; auto with quiet.
  set (s3 := enqueue _ s2) in *.
  apply (quiet_trans _ (set_pinit (Z.of_N pinit) s3)); [constructor; auto; intros; apply N2Z.is_nonneg|].
  eapply quiet_trans; [apply (quiet_enqueue (mkQ (f_sid f) KSettingsAck)); discriminate|].
  constructor; auto.
Qed.
Lemma quiet_ping f s s' : recv_ping f s = Ok s' -> quiet s s'.
Proof.
  unfold recv_ping. intros [= <-]. eapply quiet_trans; [|apply quiet_enqueue; discriminate].
  eapply quiet_trans; [|apply if_quiet; auto with quiet]. apply if_quiet; auto with quiet.
Qed.
Lemma quiet_goaway f s s' : recv_goaway f s = Ok s' -> quiet s s'.
Proof.
  unfold recv_goaway. intros [= <-].
  set (s1 := if f_sid f =? 0 then s else _).
  assert (Q1 : quiet s s1) by (apply if_quiet; auto with quiet).
  set (s2 := set_lsid _ _).
  assert (Q2 : quiet s1 s2) by (constructor; auto; discriminate).
  eapply quiet_trans; [|apply if_quiet; auto with quiet]. eapply quiet_trans; eassumption.
Qed.
Lemma quiet_continuation t f s s' : recv_continuation t f s = Ok s' -> quiet s s'.
Proof.
  unfold recv_continuation. destruct (t_last t) as [[ty fl]|]; [|discriminate]. intros [= <-].
  set (s1 := if _ && _ then s else _).
  assert (Q1 : quiet s s1) by (apply if_quiet; auto with quiet).
  eapply quiet_trans; [exact Q1|]. apply if_quiet; auto with quiet.
Qed.
Lemma recv_window_effs t f s s' : can_grant w = true -> In t (c_streams s) -> t_id t = f_sid f ->
  recv_window_update t f s = Ok s' -> effsw s s'.
Proof.
  intros Gw It E. unfold recv_window_update. intros [= <-].
  set (s1 := if f_len f =? 4 then s else _).
  assert (Q1 : quiet s s1) by (apply if_quiet; auto with quiet).
  set (s2 := if f_val f =? 0 then _ else s1).
  assert (Q2 : quiet s1 s2) by (unfold s2; apply if_quiet; auto with quiet; apply if_quiet; auto with quiet).
  assert (Q : quiet s s2) by eauto using quiet_trans.
  eapply effs_trans; [apply effs_quiet; exact Q|].
  assert (Is : In (f_sid f) (ids s2)) by (rewrite (ids_quiet _ _ Q), <- E; now apply in_map).
  apply rt_step. pose proof (e_grant (f_sid f) (f_val f) s2 Gw Is) as X. unfold grant in X.
  rewrite E. exact X.
Qed.

(** Type codes. *)
Lemma type_cases (ty : N) {A} (a0 a1 a2 a3 a4 a5 a6 a7 a8 a9 d : A) (P : A -> Prop) :
  (ty = 0 -> P a0) -> (ty = 1 -> P a1) -> (ty = 2 -> P a2) -> (ty = 3 -> P a3) -> (ty = 4 -> P a4) ->
  (ty = 5 -> P a5) -> (ty = 6 -> P a6) -> (ty = 7 -> P a7) -> (ty = 8 -> P a8) -> (ty = 9 -> P a9) ->
  (9 < ty -> P d) ->
  P match ty with 0 => a0 | 1 => a1 | 2 => a2 | 3 => a3 | 4 => a4 | 5 => a5 | 6 => a6 | 7 => a7
    | 8 => a8 | 9 => a9 | _ => d end.
Proof.
  intros. destruct (N.ltb_spec 9 ty) as [L|L].
  - destruct ty as [|p]; [lia|]. do 4 (destruct p as [p|p|]; try (apply H9; lia); auto). all: apply H9; lia.
  - assert (C : ty = 0 \/ ty = 1 \/ ty = 2 \/ ty = 3 \/ ty = 4 \/ ty = 5 \/ ty = 6 \/ ty = 7 \/ ty = 8 \/ ty = 9) by lia.
    repeat (destruct C as [->|C]; [auto|]). subst; auto.
Qed.

(** The frame before its handler runs: the state it starts from and the stream found. *)
Definition enter (f : frame) (s : conn) : conn * bool :=
  let s := if 16384 <? f_len f then conn_error PROTOCOL_ERROR s else s in
  match find_stream (f_sid f) s with
  | Some _ => (s, true)
  | None => create_stream (f_sid f) s
  end.
Definition note_last (f : frame) (s : conn) : conn :=
  if f_sid f =? 0 then s else upd (f_sid f) (st_last (Some (f_type f, f_flags f))) s.
Lemma recv_frame_enter f o s : recv_frame f o s =
  let (s1, ok) := enter f s in
  if negb ok then Ok s1
  else let s2 := note_last f s1 in
    match find_stream (f_sid f) s2 with
    | None => UB UseAfterFree
    | Some t =>
      match c_phase s2, f_type f =? 4 with
      | Preface, false => Ok (conn_error PROTOCOL_ERROR s2)
      | _, _ =>
        match f_type f with
        | 0 => recv_data t f o s2
        | 1 => recv_headers t f o s2
        | 2 => recv_priority t f s2
        | 3 => recv_rst t f s2
        | 4 => recv_settings f o s2
        | 5 => recv_push t f s2
        | 6 => recv_ping f s2
        | 7 => recv_goaway f s2
        | 8 => recv_window_update t f s2
        | 9 => recv_continuation t f s2
        | _ => Ok s2
        end
      end
    end.
Proof. reflexivity. Qed.

Lemma quiet_note f s : quiet s (note_last f s).
Proof. unfold note_last. apply if_quiet; auto with quiet. Qed.
Lemma rooted_quiet s s' : quiet s s' -> rooted s -> rooted s'.
Proof. intros Q [r E]. exists r. now rewrite (ids_quiet _ _ Q). Qed.

(** Entering either finds the stream, or opens it, or refuses it. *)
Lemma enter_spec f s s1 ok : SInv s -> rooted s -> enter f s = (s1, ok) ->
  exists s0, quiet s s0 /\ (c_goaway s0 = c_goaway s \/ (c_goaway s0 = true /\ 16384 < f_len f)) /\
   ((ok = true /\ s1 = s0 /\ In (f_sid f) (ids s))
    \/ (ok = true /\ ~ In (f_sid f) (ids s) /\ c_max_sid s < f_sid f /\ N.odd (f_sid f) = true /\
        (forall m, c_limit s = Some m -> (c_count s < Z.of_N m)%Z) /\ opens (f_sid f) s0 s1)
    \/ (ok = false /\ ~ In (f_sid f) (ids s) /\ s1 = conn_error PROTOCOL_ERROR s0 /\
        (f_sid f <= c_max_sid s \/ N.odd (f_sid f) = false \/
         exists m, c_limit s = Some m /\ (Z.of_N m <= c_count s)%Z))).
Proof.
  intros I R. unfold enter. set (s0 := if 16384 <? f_len f then _ else s).
  assert (Q : quiet s s0) by (apply if_quiet; auto with quiet).
  intro E. exists s0. split; [exact Q|]. split.
  { unfold s0. destruct (16384 <? f_len f) eqn:L; [right; split; [reflexivity|lia]|now left]. }
  destruct (find_stream (f_sid f) s0) as [t|] eqn:F.
  - injection E as <- <-. left. repeat split.
    apply find_in in F as [A B]; [|eapply rooted_quiet; eassumption].
    rewrite <- (ids_quiet _ _ Q), <- B. now apply in_map.
  - apply find_stream_none in F; [|eapply rooted_quiet; eassumption].
    rewrite (ids_quiet _ _ Q) in F. apply create_spec in E.
    rewrite (k_max _ _ Q), (k_limit _ _ Q), (k_count _ _ Q) in E.
    destruct ok; [right; left|right; right]; tauto.
Qed.
Lemma enter_effs f s s1 ok : can_open w = true -> SInv s -> rooted s -> enter f s = (s1, ok) -> effsw s s1.
Proof.
  intros Ow I R E. destruct (enter_spec _ _ _ _ I R E) as (s0 & Q & _ & [(_ & -> & _)|[(_ & _ & A & B & C & D)|(_ & _ & -> & _)]]).
  - apply effs_quiet, Q.
  - eapply effs_trans; [apply effs_quiet, Q|]. apply rt_step. eapply e_open; eauto.
    + now rewrite (k_max _ _ Q).
    + rewrite (k_limit _ _ Q), (k_count _ _ Q). assumption.
  - apply effs_quiet. eauto using quiet_trans with quiet.
Qed.
Lemma enter_rooted f s s1 ok : SInv s -> rooted s -> enter f s = (s1, ok) -> rooted s1.
Proof.
  intros I R E. destruct (enter_spec _ _ _ _ I R E) as (s0 & Q & _ & [(_ & -> & _)|[(_ & _ & A & B & C & D)|(_ & _ & -> & _)]]).
  - eapply rooted_quiet; eassumption.
  - rewrite D. assert (rooted s0) as [r X] by (eapply rooted_quiet; eassumption).
    exists (r ++ [f_sid f]). unfold ids in *. cbn [log_opened set_max_sid set_count set_streams c_streams].
    rewrite map_app, X. reflexivity.
  - eapply rooted_quiet; [apply quiet_conn_error|]. eapply rooted_quiet; eassumption.
Qed.

Lemma recv_frame_effs f o s s' : can_open w = true -> can_grant w = true -> SInv s -> rooted s -> recv_frame f o s = Ok s' -> effsw s s'.
Proof.
  intros Ow Gw I R. rewrite recv_frame_enter. destruct (enter f s) as [s1 ok] eqn:E.
  pose proof (enter_effs _ _ _ _ Ow I R E) as E1. pose proof (enter_rooted _ _ _ _ I R E) as R1.
  destruct ok; cbn [negb]; [|intros [= <-]; exact E1].
  cbv zeta. set (s2 := note_last f s1).
  assert (Q2 : quiet s1 s2) by apply quiet_note.
  assert (E2 : effsw s s2) by (eapply effs_trans; [exact E1|apply effs_quiet, Q2]).
  assert (I2 : SInv s2) by (eapply SInv_effs; eassumption).
  assert (R2 : rooted s2) by (eapply rooted_quiet; eassumption).
  destruct (find_stream (f_sid f) s2) as [t|] eqn:F; [|discriminate].
  apply find_in in F as [It Et]; [|exact R2].
  assert (H : forall r, (r = Ok s' -> effsw s2 s') -> r = Ok s' -> effsw s s')
    by (intros r X Y; eapply effs_trans; eauto).
  assert (D : match f_type f with
        | 0 => recv_data t f o s2 | 1 => recv_headers t f o s2 | 2 => recv_priority t f s2
        | 3 => recv_rst t f s2 | 4 => recv_settings f o s2 | 5 => recv_push t f s2
        | 6 => recv_ping f s2 | 7 => recv_goaway f s2 | 8 => recv_window_update t f s2
        | 9 => recv_continuation t f s2 | _ => Ok s2 end = Ok s' -> effsw s2 s').
  { apply (type_cases (f_type f) _ _ _ _ _ _ _ _ _ _ _ (fun r => r = Ok s' -> effsw s2 s')); intro T.
    - apply recv_data_effs; assumption.
    - apply recv_headers_effs; assumption.
    - intro; eapply effs_quiet, quiet_priority; eassumption.
    - intro; eapply effs_quiet, quiet_rst; eassumption.
    - intro; eapply effs_quiet, quiet_settings; eassumption.
    - intro; eapply effs_quiet, recv_push_quiet; try eassumption. rewrite <- Et. now apply in_map.
    - intro; eapply effs_quiet, quiet_ping; eassumption.
    - intro; eapply effs_quiet, quiet_goaway; eassumption.
    - apply recv_window_effs; assumption.
    - intro; eapply effs_quiet, quiet_continuation; eassumption.
    - intros [= <-]. apply rt_refl. }
  destruct (c_phase s2); [destruct (f_type f =? 4)|]; try (apply H; exact D).
  apply H. intros [= <-]. apply effs_quiet, quiet_conn_error.
Qed.

End Effects.
Notation eff := (effw anything).
Notation effs := (effsw anything).

(* ---------- sending ---------- *)

Lemma quiet_send_frame q rest s : c_sendq s = q :: rest -> quiet s (send_frame q s).
Proof.
  intro E. unfold send_frame. set (s1 := log_wire (WFrame q) _).
  assert (Q : quiet s s1).
  { constructor; try reflexivity; auto; intros; unfold s1, log_wire, set_sendq; cbn [c_wire c_sendq];
      rewrite ?sum_app; cbn [sum data_of data_all heads_w]; try lia.
    rewrite E. cbn [tl sum]. lia. }
  destruct (q_kind q); try exact Q. eapply quiet_trans; [exact Q|]. auto with quiet.
Qed.
(** [r] is the first response as far as its identity goes. *)
Definition is_head (r : resp) (s : conn) : Prop :=
  exists r0, hd_error (c_resps s) = Some r0 /\ p_sid r = p_sid r0 /\ p_nocontent r = p_nocontent r0 /\ p_len r = p_len r0.
Lemma set_head_effs r s : is_head r s -> effs s (set_head r s).
Proof. intros (r0 & A & B & C & D). apply rt_step. eapply e_head; eauto. Qed.
Lemma finish_effs t r s : is_head r s -> effs s (finish t r s).
Proof.
  intro H. unfold finish. destruct (sstate_eqb (t_state t) HalfRemote).
  - eapply effs_trans; [apply effs_quiet, quiet_upd, tame_end|]. apply set_head_effs. exact H.
  - eapply effs_trans; [apply effs_quiet, quiet_upd, tame_esh|]. apply set_head_effs. exact H.
Qed.
Lemma quiet_header sid n es s : quiet s (log_wire (WDataHeader sid n es) s).
Proof.
  constructor; try reflexivity; auto; intros; unfold log_wire; cbn [c_wire c_sendq];
    rewrite ?sum_app; cbn [sum data_of data_all heads_w]; lia.
Qed.
Lemma send_data_effs t r n s : In t (c_streams s) -> is_head r s -> effs s (send_data t r n s).
Proof.
  intros It Hr. assert (Is : In (t_id t) (ids s)) by now apply in_map.
  assert (H : effs s (if ((t_pwin t <=? 0) || (c_win s <=? 0))%Z then s
    else if p_len r =? 0 then finish t r s
    else set_head (mkResp (p_sid r) (p_len r) (p_nocontent r) PData 0)
        (log_wire (WDataHeader (t_id t) (p_len r mod 16777216) (Z.of_N (p_len r) <? Z.min (t_pwin t) (c_win s))%Z) s))).
  { destruct ((t_pwin t <=? 0) || _)%Z; [apply rt_refl|].
    destruct (p_len r =? 0); [now apply finish_effs|].
    eapply effs_trans; [apply effs_quiet, quiet_header|]. apply set_head_effs. exact Hr. }
  unfold send_data. destruct (p_phase r); try exact H. clear H.
  destruct (p_nocontent r) eqn:NC; [apply effs_quiet; constructor; auto|].
  destruct (p_len r <=? p_sent r); [now apply finish_effs|].
  set (k := N.min n _). destruct (k =? 0); [apply rt_refl|]. cbv zeta.
  set (r' := mkResp _ _ _ _ _). set (s1 := set_head r' _).
  assert (H : effs s s1).
  { eapply effs_trans; [apply rt_step, (e_payload anything (t_id t) k s eq_refl Is)|]. apply set_head_effs.
    destruct Hr as (r0 & A & B & C & D). exists r0. cbn. repeat split; try assumption; congruence. }
  destruct (p_len r <=? p_sent r + k); [|exact H]. eapply effs_trans; [exact H|]. apply finish_effs.
  destruct Hr as (r0 & A & B & C & D). exists r'. split; [|auto]. unfold s1, set_head.
  cbn [log_wire set_win c_resps upd set_streams]. destruct (c_resps s); [discriminate|]. reflexivity.
Qed.
Lemma response_event_effs r n s s' : SInv s -> c_goaway s = false -> p_sid r <> 0 ->
  hd_error (c_resps s) = Some r -> response_event r n s = Ok s' -> effs s s'.
Proof.
  intros I G Z Hr. unfold response_event. destruct (List.find _ _) as [t|] eqn:F; [|discriminate].
  apply find_ids in F as [It Et].
  destruct (t_esd t).
  - intros [= <-]. eapply effs_trans; [apply rt_step, e_pop; reflexivity|].
    set (s1 := set_resps _ s). unfold response_done.
    set (s2 := set_max_handled _ s1).
    assert (Q2 : quiet s1 s2) by (constructor; auto).
    eapply effs_trans; [apply effs_quiet, Q2|].
    destruct (sstate_eqb (t_state t) Closed); [|apply rt_refl].
    apply rt_step. constructor; [now apply in_map|]. intro; congruence.
  - destruct (t_esh t); intros [= <-]; [apply send_data_effs; [assumption|exists r; auto]|apply rt_refl].
Qed.
Lemma goaway_loop_effs w n o s' : forall ts s, SInv s -> c_goaway s = true ->
  (forall t, In t ts -> In (t_id t) (ids s)) -> NoDup (map t_id ts) ->
  goaway_loop ts n o s = Ok s' -> effsw w s s'.
Proof.
  induction ts as [|t ts IH]; intros s I G A D; cbn [goaway_loop].
  - intros [= <-]. apply effs_quiet. constructor; auto.
  - inversion D as [|? ? N D']; subst.
    assert (It : In (t_id t) (ids s)) by (apply A; now left).
    destruct (negb (t_peh t) || _).
    + intro H.
      assert (X : effw w s (close_stream (t_id t) s)) by (constructor; auto).
      eapply effs_trans; [apply rt_step; exact X|].
      apply IH; auto.
      * eapply SInv_eff; eassumption.
      * intros u Iu. rewrite ids_close. apply filter_In. split; [apply A; now right|].
        destruct (N.eqb_spec (t_id u) (t_id t)) as [Eq|]; [|reflexivity].
        destruct N. rewrite <- Eq. now apply in_map.
    + destruct (yetsend (t_id t) s).
      * apply handle_effs; auto.
      * destruct (n =? 0); [intros [= <-]; apply rt_refl|discriminate].
Qed.
Lemma goaway_handle_effs w n o s s' : SInv s -> c_goaway s = true -> goaway_handle n o s = Ok s' -> effsw w s s'.
Proof.
  intros I G. unfold goaway_handle. destruct (_ || _).
  - intros [= <-]. apply effs_quiet. constructor; auto.
  - apply goaway_loop_effs; auto.
    + intros t It. now apply in_map.
    + apply sorted_nodup. apply (i_sorted _ I).
Qed.

(** Responses always belong to a stream of the client until the connection is given up. *)
Definition RInv (s : conn) : Prop := c_goaway s = false -> Forall (fun r => p_sid r <> 0) (c_resps s).
Lemma RInv_eff s s' : eff s s' -> RInv s -> RInv s'.
Proof.
  unfold RInv. destruct 1; intros R G'.
  - rewrite (k_resps _ _ H). apply R. now apply (k_goaway _ _ H).
  - rewrite H3 in *. apply R, G'.
  - apply R, G'.
  - apply R, G'.
  - cbn in *. destruct H0; [|congruence]. apply Forall_app. split; [now apply R|]. now constructor.
  - cbn in *. specialize (R G'). destruct (c_resps s); [constructor|]. now inversion R.
  - unfold set_head in *. destruct (c_resps s) as [|a l] eqn:E; [discriminate|]. cbn in *.
    injection H0 as ->. specialize (R G'). inversion R; subst. constructor; congruence.
  - unfold grant in *. destruct (sid =? 0); apply R, G'.
  - apply R, G'.
Qed.
Lemma RInv_effs s s' : effs s s' -> RInv s -> RInv s'.
Proof. induction 1; eauto using RInv_eff. Qed.

Theorem step_effs s e s' : SInv s -> RInv s -> step s e = Ok s' -> effs s s'.
Proof.
  intros I R. unfold step. destruct (c_status s); try (intros [= <-]; apply rt_refl).
  destruct (c_goaway s) eqn:G.
  - destruct e; now apply goaway_handle_effs.
  - destruct e as [f o|n o|o].
    + apply recv_frame_effs; [reflexivity|reflexivity|assumption|]. apply (i_root _ I G).
    + destruct (c_sendq s) as [|q rest] eqn:Q.
      * destruct (c_resps s) as [|r rs] eqn:Er; [intros [= <-]; apply rt_refl|].
        apply response_event_effs; auto; [|now rewrite Er].
        specialize (R G). rewrite Er in R. now inversion R.
      * intros [= <-]. destruct (n =? 0); [apply rt_refl|]. eapply effs_quiet, quiet_send_frame; eassumption.
    + intros [= <-]. apply effs_quiet. constructor; auto.
Qed.
Lemma run_effs es : forall s s', SInv s -> RInv s -> run s es = Ok s' -> effs s s'.
Proof.
  induction es as [|e es IH]; intros s s' I R; cbn [run].
  - intros [= <-]. apply rt_refl.
  - destruct (step s e) as [s1|] eqn:E; cbn [obind]; [|discriminate]. intro H.
    pose proof (step_effs _ _ _ I R E) as X. eapply effs_trans; [exact X|].
    apply IH; eauto using SInv_effs, RInv_effs.
Qed.
Lemma reach_effs limit maxlen es s : run (conn_init limit maxlen) es = Ok s -> effs (conn_init limit maxlen) s.
Proof. apply run_effs; [apply SInv_init|]. intros _; constructor. Qed.
Lemma reach_inv limit maxlen es s : run (conn_init limit maxlen) es = Ok s -> SInv s /\ RInv s.
Proof.
  intro H. apply reach_effs in H. split; [eapply SInv_effs; [exact H|apply SInv_init]|].
  eapply RInv_effs; [exact H|]. intros _; constructor.
Qed.

(* ---------- window accounting ---------- *)

Record WInv (s : conn) : Prop := mkWInv {
  w_conn : c_win s = (65535 + sum (credit_of 0) (c_credit s) - sum data_all (c_wire s))%Z;
  w_stream : forall i w, In (i, w) (wins s) -> i <> 0 ->
    exists w0, In (i, w0) (c_opened s) /\
      w = (w0 + sum (credit_of i) (c_credit s) - sum (data_of i) (c_wire s))%Z;
  w_fresh : forall i, c_max_sid s < i ->
    sum (credit_of i) (c_credit s) = 0%Z /\ sum (data_of i) (c_wire s) = 0%Z }.

Lemma WInv_init limit maxlen : WInv (conn_init limit maxlen).
Proof.
  constructor.
  - reflexivity.
  - intros i w [[= <- <-]|[]] Z. now destruct Z.
  - intros i _. now split.
Qed.
Lemma in_wins_ids i w s : In (i, w) (wins s) -> In i (ids s).
Proof. intro I. rewrite ids_wins. apply in_map_iff. exists (i, w). auto. Qed.
Lemma wins_pwin sid f s : (forall t, t_id (f t) = t_id t) ->
  forall i w, In (i, w) (wins (upd sid f s)) ->
  if i =? sid then exists t, In t (c_streams s) /\ t_id t = i /\ w = t_pwin (f t) else In (i, w) (wins s).
Proof.
  intros F i w I. unfold wins, upd, set_streams in I. cbn [c_streams] in I. rewrite map_map in I.
  apply in_map_iff in I as (t & E & I). destruct (t_id t =? sid) eqn:T.
  - injection E as <- <-. rewrite F, T. eauto.
  - injection E as <- <-. rewrite T. unfold wins. apply in_map_iff. eauto.
Qed.
Lemma sum_one_other {A} (f : A -> Z) l x : f x = 0%Z -> sum f (l ++ [x]) = sum f l.
Proof. intro E. rewrite sum_app. cbn [sum]. lia. Qed.

Lemma WInv_eff s s' : eff s s' -> SInv s -> WInv s -> WInv s'.
Proof.
  intros E I W. destruct W as [wc ws wf]. pose proof (i_max _ I) as M. rewrite Forall_forall in M. destruct E.
  - destruct H. constructor.
    + rewrite k_win0, k_credit0, k_data_all0. exact wc.
    + intro i. rewrite k_wins0, k_opened0, k_credit0, k_data0. apply ws.
    + intro i. rewrite k_max0, k_credit0, k_data0. apply wf.
  - rewrite H3. constructor; unfold wins; cbn [log_opened set_max_sid set_count set_streams c_streams
      c_win c_credit c_wire c_opened c_max_sid]; auto.
    + intros i w Iw Z. rewrite map_app in Iw. apply in_app_or in Iw as [Iw|[Iw|[]]].
      * destruct (ws i w Iw Z) as (w0 & A & B). exists w0. split; [apply in_or_app; now left|assumption].
      * injection Iw as <- <-. exists (c_pinit s). split; [apply in_or_app; right; now left|].
        destruct (wf sid H0) as [-> ->]. cbn [new_stream t_pwin]. lia.
    + intros i L. apply wf. lia.
  - constructor; auto.
    + intros i w Iw. apply ws. unfold wins in *. apply in_map_iff in Iw as (t & A & B).
      apply in_map_iff. exists t. split; [assumption|].
      unfold close_stream in B. cbn [set_sendq set_count set_streams c_streams] in B.
      now apply filter_In in B as [B _].
  - constructor; auto.
  - constructor; auto.
  - constructor; auto.
  - unfold set_head. destruct (c_resps s); constructor; auto.
  - unfold grant. destruct (sid =? 0) eqn:Z.
    + assert (sid = 0) as -> by lia.
      constructor; cbn [log_credit set_win c_win c_credit c_wire c_opened c_max_sid]; auto.
      * rewrite sum_app. cbn [sum]. unfold credit_of at 2. cbn [fst snd]. rewrite N.eqb_refl. lia.
      * intros i w Iw Zi. rewrite sum_one_other; [apply ws; assumption|].
        unfold credit_of. cbn [fst]. destruct (0 =? i) eqn:Q; [lia|reflexivity].
      * intros i L. rewrite sum_one_other; [apply wf; assumption|].
        unfold credit_of. cbn [fst]. destruct (0 =? i) eqn:Q; [lia|reflexivity].
    + set (s1 := log_credit (sid, v) s). pose proof (M _ H0) as Ms.
      constructor; cbn [upd set_streams c_win c_credit c_wire c_opened c_max_sid].
      * unfold s1; cbn [log_credit c_credit c_win c_wire]. rewrite sum_one_other; [exact wc|].
        unfold credit_of. cbn [fst]. now rewrite Z.
      * intros i w Iw Zi. apply wins_pwin in Iw; [|reflexivity].
        unfold s1; cbn [log_credit c_credit c_opened c_wire].
        destruct (i =? sid) eqn:Q.
        -- destruct Iw as (t & It & Et & ->). assert (i = sid) as -> by lia.
           destruct (ws sid (t_pwin t)) as (w0 & A & B); [|assumption|].
           { unfold wins. apply in_map_iff. exists t. split; [now rewrite Et|exact It]. }
           exists w0. split; [exact A|]. rewrite sum_app. cbn [sum st_pwin t_pwin].
           unfold credit_of at 2. cbn [fst snd]. rewrite N.eqb_refl. lia.
        -- rewrite sum_one_other; [apply ws; assumption|]. unfold credit_of. cbn [fst].
           destruct (sid =? i) eqn:Q'; [lia|reflexivity].
      * intros i L. unfold s1 in *; cbn [log_credit c_credit c_opened c_wire c_max_sid] in *.
        rewrite sum_one_other; [apply wf; assumption|]. unfold credit_of. cbn [fst].
        destruct (sid =? i) eqn:Q'; [lia|reflexivity].
  - pose proof (M _ H0) as Ms. unfold payload.
    constructor; cbn [log_wire set_win upd set_streams c_win c_credit c_wire c_opened c_max_sid].
    + rewrite sum_app. cbn [sum data_all]. lia.
    + intros i w Iw Zi.
      assert (Iw' : In (i, w) (wins (upd sid (fun t => st_pwin (t_pwin t - Z.of_N k)%Z t) s))) by exact Iw.
      apply wins_pwin in Iw'; [|reflexivity]. clear Iw. destruct (i =? sid) eqn:Q.
      * destruct Iw' as (t & It & Et & ->). assert (i = sid) as -> by lia.
        destruct (ws sid (t_pwin t)) as (w0 & A & B); [|assumption|].
        { unfold wins. apply in_map_iff. exists t. split; [now rewrite Et|exact It]. }
        exists w0. split; [exact A|]. rewrite sum_app. cbn [sum st_pwin t_pwin data_of].
        rewrite N.eqb_refl. lia.
      * rewrite sum_one_other; [apply ws; assumption|]. cbn [data_of].
        destruct (sid =? i) eqn:Q'; [lia|reflexivity].
    + intros i L. rewrite sum_one_other; [apply wf; assumption|]. cbn [data_of].
      destruct (sid =? i) eqn:Q'; [lia|reflexivity].
Qed.
Lemma WInv_effs s s' : effs s s' -> SInv s -> WInv s -> WInv s'.
Proof. induction 1; eauto using WInv_eff, SInv_effs. Qed.
Lemma reach_winv limit maxlen es s : run (conn_init limit maxlen) es = Ok s -> WInv s.
Proof. intro H. eapply WInv_effs; [eapply reach_effs; exact H|apply SInv_init|apply WInv_init]. Qed.

(* ---------- answers ---------- *)

Definition handled_n (i : N) (s : conn) : Z := sum (fun j => if j =? i then 1%Z else 0%Z) (c_handled s).
(** HEADERS frames queued or sent for a stream never outnumber the requests handled on it. *)
Definition AInv (s : conn) : Prop := forall i,
  (sum (heads_q i) (c_sendq s) + sum (heads_w i) (c_wire s) <= handled_n i s)%Z.

Lemma AInv_eff s s' : eff s s' -> AInv s -> AInv s'.
Proof.
  intros E A i. specialize (A i). unfold handled_n in *. destruct E.
  - destruct H. rewrite k_heads0, k_handled0. exact A.
  - rewrite H3. exact A.
  - unfold close_stream. cbn [set_sendq set_count set_streams c_sendq c_wire c_handled].
    pose proof (sum_filter_le (heads_q i) (fun q => negb (q_sid q =? sid)) (c_sendq s)) as F.
    lapply F; [lia|]. intros q _. unfold heads_q. destruct (q_kind q); try lia. destruct (q_sid q =? i)%N; lia.
  - cbn [log_handled c_sendq c_wire c_handled]. rewrite sum_app. cbn [sum]. destruct (sid =? i); lia.
  - unfold respond. cbn [enqueue set_sendq set_resps log_handled c_sendq c_wire c_handled].
    rewrite !sum_app. cbn [sum heads_q q_kind q_sid].
    destruct (sid =? i); lia.
  - exact A.
  - unfold set_head. destruct (c_resps s); exact A.
  - unfold grant. destruct (sid =? 0); exact A.
  - unfold payload. cbn [log_wire set_win upd set_streams c_sendq c_wire c_handled].
    rewrite sum_app. cbn [sum heads_w]. lia.
Qed.
Lemma AInv_effs s s' : effs s s' -> AInv s -> AInv s'.
Proof. induction 1; eauto using AInv_eff. Qed.
Lemma reach_ainv limit maxlen es s : run (conn_init limit maxlen) es = Ok s -> AInv s.
Proof. intro H. eapply AInv_effs; [eapply reach_effs; exact H|]. intro i. cbn. lia. Qed.

(* ---------- credit granted to the peer ---------- *)

(** [n] bytes for [sid] as seen by [i]. *)
Definition here (sid i n : N) : Z := if sid =? i then Z.of_N n else 0%Z.
Definition granted (i : N) (s : conn) : Z := (sum (grant_q i) (c_sendq s) + sum (grant_w i) (c_wire s))%Z.
Definition ok_q (q : qframe) : Prop :=
  match q_kind q with KWindow u => 1 <= u <= 2147483647 | _ => True end.
Definition ok_w (w : item) : Prop := match w with WFrame q => ok_q q | _ => True end.
Definition qvalid (s : conn) : Prop := Forall ok_q (c_sendq s) /\ Forall ok_w (c_wire s).

Lemma coalesce_spec sid q : forall size, 1 <= size <= 2147483647 -> Forall ok_q q ->
  let (n, r) := coalesce sid size q in
  1 <= n <= 2147483647 /\ Forall ok_q r /\
  (forall i, (sum (grant_q i) r + here sid i n
             = sum (grant_q i) q + here sid i size)%Z).
Proof.
  induction q as [|x q IH]; intros size V F; cbn [coalesce].
  { split; [assumption|]. split; [constructor|]. intro i. reflexivity. }
  inversion F as [|? ? Ox F']; subst.
  assert (D : forall size, 1 <= size <= 2147483647 ->
    let (n, r) := (let (n, r) := coalesce sid size q in (n, x :: r)) in
    1 <= n <= 2147483647 /\ Forall ok_q r /\
    (forall i, (sum (grant_q i) r + here sid i n
             = sum (grant_q i) (x :: q) + here sid i size)%Z)).
  { intros z Vz. specialize (IH z Vz F'). destruct (coalesce sid z q) as [n r].
    destruct IH as (A & B & C). split; [assumption|]. split; [now constructor|].
    intro i. specialize (C i). cbn [sum]. lia. }
  destruct (q_kind x) eqn:K; try (apply D; assumption).
  destruct ((q_sid x =? sid) && ((size + inc) mod 4294967296 <=? 2147483647)) eqn:T; [|apply D; assumption].
  unfold ok_q in Ox. rewrite K in Ox. apply andb_true_iff in T as [T1 T2].
  rewrite N.mod_small in T2 |- * by lia.
  specialize (IH (size + inc)). lapply IH; [clear IH; intro IH|lia]. specialize (IH F').
  destruct (coalesce sid (size + inc) q) as [n r]. destruct IH as (A & B & C).
  split; [assumption|]. split; [assumption|]. intro i. specialize (C i). cbn [sum].
  unfold grant_q at 2. rewrite K. assert (q_sid x = sid) as -> by lia.
  unfold here in *; destruct (sid =? i)%N; lia.
Qed.

(** A second pass of the search changes nothing. *)
Lemma coalesce_again sid q : forall size, 1 <= size <= 2147483647 -> Forall ok_q q ->
  let (n, r) := coalesce sid size q in coalesce sid n r = (n, r).
Proof.
  assert (Mono : forall q size, 1 <= size <= 2147483647 -> Forall ok_q q -> size <= fst (coalesce sid size q)).
  { clear. induction q as [|x q IH]; intros size V F; cbn [coalesce]; [cbn; lia|].
    inversion F as [|? ? Ox F']; subst.
    assert (D : size <= fst (let (n, r) := coalesce sid size q in (n, x :: r))).
    { specialize (IH size V F'). destruct (coalesce sid size q); exact IH. }
    destruct (q_kind x) eqn:K; try exact D.
    destruct ((q_sid x =? sid) && _) eqn:T; [|exact D].
    unfold ok_q in Ox. rewrite K in Ox. apply andb_true_iff in T as [T1 T2].
    rewrite N.mod_small in T2 |- * by lia. specialize (IH (size + inc)). lapply IH; [|lia]. intro J.
    specialize (J F'). lia. }
  assert (Skip : forall q size n, 1 <= size <= 2147483647 -> Forall ok_q q ->
    n = fst (coalesce sid size q) -> n <= 2147483647 -> coalesce sid n (snd (coalesce sid size q)) = (n, snd (coalesce sid size q))).
  { clear -Mono. induction q as [|x q IH]; intros size n V F E L; cbn [coalesce]; [reflexivity|].
    inversion F as [|? ? Ox F']; subst x0 l.
    assert (D : (forall u, q_kind x = KWindow u -> q_sid x = sid -> 2147483647 < size + u) ->
      n = fst (let (n, r) := coalesce sid size q in (n, x :: r)) ->
      let y := snd (let (n, r) := coalesce sid size q in (n, x :: r)) in
      coalesce sid n y = (n, y)).
    { intros X E'. specialize (IH size n V F'). pose proof (Mono q size V F') as Mn.
      destruct (coalesce sid size q) as [m r]. cbn [fst snd] in *.
      specialize (IH E' L). cbn [coalesce].
      destruct (q_kind x) eqn:K; try (rewrite IH; reflexivity).
      destruct ((q_sid x =? sid) && ((n + inc) mod 4294967296 <=? 2147483647)) eqn:T; [|rewrite IH; reflexivity].
      exfalso. apply andb_true_iff in T as [T1 T2]. specialize (X inc eq_refl ltac:(lia)).
      unfold ok_q in Ox. rewrite K in Ox. rewrite N.mod_small in T2 by lia. lia. }
    cbn [coalesce] in E.
    destruct (q_kind x) eqn:K; try (apply D; [discriminate|exact E]).
    destruct ((q_sid x =? sid) && ((size + inc) mod 4294967296 <=? 2147483647)) eqn:T.
    - unfold ok_q in Ox. rewrite K in Ox. apply andb_true_iff in T as [T1 T2].
      rewrite N.mod_small in * by lia. apply IH; auto. lia.
    - apply D; [|exact E]. intros u [= <-] Es. rewrite Es, N.eqb_refl in T. cbn [andb] in T.
      unfold ok_q in Ox. rewrite K in Ox. rewrite N.mod_small in T by lia. lia. }
  intros size V F. pose proof (coalesce_spec sid q size V F) as S.
  specialize (Skip q size (fst (coalesce sid size q)) V F eq_refl).
  destruct (coalesce sid size q) as [n r]. cbn [fst snd] in Skip. apply Skip. lia.
Qed.

Definition calm (s s' : conn) : Prop :=
  (forall i, granted i s' = granted i s) /\ (qvalid s -> qvalid s').
Lemma calm_refl s : calm s s. Proof. split; auto. Qed.
Lemma calm_trans a b c : calm a b -> calm b c -> calm a c.
Proof. intros [A B] [C D]. split; [intro i; now rewrite C|auto]. Qed.
Lemma calm_same s s' : c_sendq s' = c_sendq s -> c_wire s' = c_wire s -> calm s s'.
Proof. intros A B. unfold calm, granted, qvalid. rewrite A, B. auto. Qed.
Lemma calm_upd sid f s : calm s (upd sid f s). Proof. now apply calm_same. Qed.
Definition is_window (q : qframe) : bool := match q_kind q with KWindow _ => true | _ => false end.
Lemma calm_enqueue q s : is_window q = false -> calm s (enqueue q s).
Proof.
  intro K. unfold is_window in K. split.
  - intro i. unfold granted, enqueue. cbn [set_sendq c_sendq c_wire]. rewrite sum_app. cbn [sum].
    unfold grant_q at 2. destruct (q_kind q); try discriminate; lia.
  - intros [A B]. split; [|exact B]. cbn. apply Forall_app. split; [assumption|].
    constructor; [|constructor]. unfold ok_q. destruct (q_kind q); try discriminate; exact I.
Qed.
Lemma calm_conn_error c s : calm s (conn_error c s).
Proof. unfold conn_error. eapply calm_trans; [apply (calm_enqueue (mkQ 0 (KGoaway c))); reflexivity|now apply calm_same]. Qed.
Lemma calm_stream_error sid c s : calm s (stream_error sid c s).
Proof. unfold stream_error. eapply calm_trans; [apply (calm_enqueue (mkQ sid (KRst c))); reflexivity|apply calm_upd]. Qed.
Lemma calm_if (b : bool) s s1 s2 : calm s s1 -> calm s s2 -> calm s (if b then s1 else s2).
Proof. now destruct b. Qed.
Lemma calm_wire w s : (forall i, grant_w i w = 0%Z) -> ok_w w -> calm s (log_wire w s).
Proof.
  intros A B. split.
  - intro i. unfold granted, log_wire. cbn [c_sendq c_wire]. rewrite sum_app. cbn [sum]. rewrite A. lia.
  - intros [C D]. split; [exact C|]. cbn. apply Forall_app. split; [assumption|]. now constructor.
Qed.
Lemma calm_emergency s : calm s (emergency s).
Proof.
  unfold emergency. eapply calm_trans; [apply (calm_wire (WFrame (mkQ 0 (KGoaway INTERNAL_ERROR)))); [reflexivity|exact I]|now apply calm_same].
Qed.
#[export] Hint Resolve calm_refl calm_upd calm_conn_error calm_stream_error calm_if calm_emergency : calm.

Lemma window_update_spec sid n s : 1 <= n <= 2147483647 -> qvalid s ->
  qvalid (window_update sid n s) /\
  forall i, granted i (window_update sid n s) = (granted i s + here sid i n)%Z.
Proof.
  intros V [A B]. unfold window_update. pose proof (coalesce_spec sid (c_sendq s) n V A) as S.
  destruct (coalesce sid n (c_sendq s)) as [m q]. destruct S as (Vm & Fq & C). split.
  - split; [|exact B]. cbn. apply Forall_app. split; [assumption|]. constructor; [exact Vm|constructor].
  - intro i. unfold granted, enqueue. cbn [set_sendq c_sendq c_wire]. rewrite sum_app. cbn [sum grant_q q_kind q_sid].
    specialize (C i). unfold here in *; destruct (sid =? i)%N; lia.
Qed.
Lemma qvalid_upd sid f s : qvalid s -> qvalid (upd sid f s). Proof. auto. Qed.
Lemma parse_data_grants t len cl s s' : len <= 2147483647 -> qvalid s -> parse_data t len cl s = Some s' ->
  qvalid s' /\ forall i, granted i s' = (granted i s + here (t_id t) i len
                                                    + here i 0 len)%Z.
Proof.
  intros L V. unfold parse_data. destruct (len =? 0) eqn:Z.
  { intros [= <-]. split; [assumption|]. intro i. unfold here. destruct (t_id t =? i)%N, (i =? 0)%N; lia. }
  assert (R : 1 <= len <= 2147483647) by lia. clear Z.
  assert (T1 : forall s0, qvalid s0 -> (forall i, granted i s0 = granted i s) ->
    qvalid (window_update 0 len (window_update (t_id t) len s0)) /\
    forall i, granted i (window_update 0 len (window_update (t_id t) len s0))
      = (granted i s + here (t_id t) i len + here i 0 len)%Z).
  { intros s0 V0 G0. destruct (window_update_spec (t_id t) len s0 R V0) as [A B].
    destruct (window_update_spec 0 len _ R A) as [C D]. split; [assumption|]. intro i.
    rewrite D, B, G0. unfold here. rewrite (N.eqb_sym 0 i). lia. }
  assert (T2 : forall s0, qvalid s0 -> (forall i, granted i s0 = granted i s) ->
    qvalid (window_update (t_id t) len (window_update 0 len s0)) /\
    forall i, granted i (window_update (t_id t) len (window_update 0 len s0))
      = (granted i s + here (t_id t) i len + here i 0 len)%Z).
  { intros s0 V0 G0. destruct (window_update_spec 0 len s0 R V0) as [A B].
    destruct (window_update_spec (t_id t) len _ R A) as [C D]. split; [assumption|]. intro i.
    rewrite D, B, G0. unfold here. rewrite (N.eqb_sym 0 i). lia. }
  destruct (t_discard t); [intros [= <-]; apply T1; auto|].
  destruct (t_body t) as [[n total]|].
  - destruct (total <? n + len); [discriminate|]. intros [= <-]. apply T2; auto.
  - destruct (c_maxlen s <? cl); [intros [= <-]; apply T1; auto|].
    destruct (cl <? len); [discriminate|]. intros [= <-]. apply T2; auto.
Qed.
Lemma close_grants sid s : qvalid s -> qvalid (close_stream sid s) /\
  forall i, i <> sid -> granted i (close_stream sid s) = granted i s.
Proof.
  intros [A B]. split.
  - split; [|exact B]. cbn. apply Forall_forall. intros q I. apply filter_In in I as [I _].
    rewrite Forall_forall in A. auto.
  - intros i D. unfold granted, close_stream. cbn [set_sendq c_sendq c_wire set_count set_streams].
    rewrite sum_filter; [reflexivity|]. intros q _ E. unfold grant_q.
    destruct (q_kind q); try reflexivity. destruct (q_sid q =? i) eqn:Q; [lia|reflexivity].
Qed.
(** After a request on [sid] was handled. *)
Lemma handle_grants sid o s s' : qvalid s -> handle_request sid o s = Ok s' ->
  qvalid s' /\ (forall i, i <> sid \/ In i (ids s') -> granted i s' = granted i s).
Proof.
  intros V. unfold handle_request. destruct (o_resp o) as [[len nc]|].
  2:{ intros [= <-]. pose proof (calm_emergency (log_handled sid s)) as [A B].
      split; [apply B; exact V|]. intros i _. apply A. }
  unfold new_response. destruct (List.find _ _) as [t|] eqn:F; [|discriminate].
  apply find_ids in F as [It Et].
  destruct (t_esd t).
  { intros [= <-]. unfold response_done. rewrite Et.
    destruct (sstate_eqb (t_state t) Closed); [|split; auto].
    set (s1 := set_max_handled _ _). assert (V1 : qvalid s1) by exact V.
    destruct (close_grants sid s1 V1) as [A B]. split; [assumption|].
    intros i D. destruct (N.eq_dec i sid) as [->|Ne]; [|now rewrite B].
    exfalso. destruct D as [D|D]; [easy|]. rewrite ids_close in D. apply filter_In in D as [_ D].
    rewrite N.eqb_refl in D. discriminate. }
  destruct (t_esh t).
  { destruct (_ || _)%Z; [intros [= <-]; split; auto|].
    destruct (sstate_eqb _ _); intros [= <-]; split; auto. }
  destruct (sstate_eqb _ _); [|discriminate]. intros [= <-].
  assert (C : calm s (enqueue (mkQ sid (KHeaders nc)) (set_resps (c_resps (log_handled sid s) ++
     [mkResp sid (if nc then 0 else len) nc PHeader 0]) (log_handled sid s)))).
  { apply (calm_trans _ (set_resps (c_resps (log_handled sid s) ++
     [mkResp sid (if nc then 0 else len) nc PHeader 0]) (log_handled sid s)));
    [now apply calm_same|]. apply (calm_enqueue (mkQ sid (KHeaders nc))). reflexivity. }
  destruct C as [A B]. split; auto.
Qed.

Lemma answer_grants sid o s s' : qvalid s -> answer_if_complete sid o s = Ok s' ->
  qvalid s' /\ (forall i, i <> sid \/ In i (ids s') -> granted i s' = granted i s).
Proof.
  intros V. unfold answer_if_complete. destruct (find_stream sid s) as [t|]; [|discriminate].
  destruct (_ && _); [|intros [= <-]; auto].
  intro H. apply handle_grants in H; [|exact V]. exact H.
Qed.
(** Bytes of a DATA frame for which credit is given back. *)
Definition data_bytes (f : frame) : N := if PADDED f then f_len f - 1 else f_len f.
Lemma recv_data_grants t f o s s' : qvalid s -> f_len f < 16777216 -> (PADDED f = true -> 1 <= f_len f) ->
  recv_data t f o s = Ok s' ->
  qvalid s' /\ (c_status s' = Running -> forall i, i <> t_id t \/ In i (ids s') -> granted i s' =
    (granted i s + here (t_id t) i (data_bytes f) + here i 0 (data_bytes f))%Z).
Proof.
  intros V L P. unfold recv_data.
  set (s1 := if t_id t =? 0 then _ else s).
  assert (Q1 : calm s s1) by (apply calm_if; auto with calm).
  set (s2 := match t_state t with Open | HalfLocal => s1 | _ => _ end).
  assert (Q2 : calm s1 s2) by (subst s2; destruct (t_state t); auto with calm).
  assert (Q : calm s s2) by (eapply calm_trans; eassumption). destruct Q as [Qg Qv].
  replace (if PADDED f then if f_len f =? 0 then 4294967295 else f_len f - 1 else f_len f)
    with (data_bytes f).
  2:{ unfold data_bytes. destruct (PADDED f); [|reflexivity]. specialize (P eq_refl).
      destruct (f_len f =? 0) eqn:Z; [lia|reflexivity]. }
  assert (D : data_bytes f <= 2147483647) by (unfold data_bytes; destruct (PADDED f); lia).
  destruct (parse_data t (data_bytes f) (o_cl o) s2) as [s3|] eqn:E.
  - apply parse_data_grants in E; auto. destruct E as [V3 G3].
    set (s4 := if END_STREAM f then _ else s3).
    assert (Q4 : calm s3 s4) by (apply calm_if; auto with calm). destruct Q4 as [Q4g Q4v].
    intro H. apply answer_grants in H; auto. destruct H as [V' G']. split; [assumption|].
    intros _ i Ii. rewrite G' by assumption. rewrite Q4g, G3, Qg. unfold here. lia.
  - intros [= <-]. destruct (calm_emergency s2) as [_ B]. split; auto. discriminate.
Qed.
Lemma recv_headers_grants t f o s s' : qvalid s -> recv_headers t f o s = Ok s' ->
  qvalid s' /\ (forall i, i <> t_id t \/ In i (ids s') -> granted i s' = granted i s).
Proof.
  intros V. unfold recv_headers.
  set (s1 := if t_id t =? 0 then _ else s).
  assert (Q1 : calm s s1) by (apply calm_if; auto with calm).
  set (s2 := match t_state t with Idle => _ | ReservedLocal | Open | HalfRemote => s1 | _ => _ end).
  assert (Q2 : calm s1 s2) by (subst s2; destruct (t_state t); auto with calm).
  set (s3 := if o_hpack o then s2 else _).
  assert (Q3 : calm s2 s3) by (apply calm_if; auto with calm).
  set (s4 := if END_STREAM f then _ else s3).
  assert (Q4 : calm s3 s4) by (apply calm_if; auto with calm).
  set (s5 := if END_HEADERS f then _ else s4).
  assert (Q5 : calm s4 s5) by (apply calm_if; auto with calm).
  assert (Q : calm s s5) by eauto 6 using calm_trans. destruct Q as [Qg Qv].
  intro H. apply answer_grants in H; [|auto]. destruct H as [V' G']. split; [assumption|].
  intros i Ii. rewrite G' by assumption. apply Qg.
Qed.
Ltac calm_chain :=
  repeat match goal with
  | |- calm ?s (if ?b then _ else _) => apply calm_if
  | |- calm ?s ?s => apply calm_refl
  | |- calm ?s (conn_error _ ?u) => apply (calm_trans _ u); [|apply calm_conn_error]
  | |- calm ?s (stream_error _ _ ?u) => apply (calm_trans _ u); [|apply calm_stream_error]
  | |- calm ?s (emergency ?u) => apply (calm_trans _ u); [|apply calm_emergency]
  | |- calm ?s (upd _ _ ?u) => apply (calm_trans _ u); [|apply calm_upd]
  | |- calm ?s (enqueue ?q ?u) => apply (calm_trans _ u); [|apply (calm_enqueue q); reflexivity]
  | |- calm ?s (set_phase _ ?u) => apply (calm_trans _ u); [|now apply calm_same]
  | |- calm ?s (set_pinit _ ?u) => apply (calm_trans _ u); [|now apply calm_same]
  | |- calm ?s (set_lsid _ ?u) => apply (calm_trans _ u); [|now apply calm_same]
  | |- calm ?s (set_goaway _ ?u) => apply (calm_trans _ u); [|now apply calm_same]
  | |- calm ?s (log_credit _ ?u) => apply (calm_trans _ u); [|now apply calm_same]
  | |- calm ?s (set_win _ ?u) => apply (calm_trans _ u); [|now apply calm_same]
  end.
Lemma calm_create sid s s' ok : create_stream sid s = (s', ok) -> calm s s'.
Proof.
  intro H. apply create_spec in H. destruct ok.
  - destruct H as (_ & _ & _ & ->). now apply calm_same.
  - destruct H as [-> _]. apply calm_conn_error.
Qed.
Definition dispatch t f o s : outcome conn :=
  match f_type f with
  | 0 => recv_data t f o s | 1 => recv_headers t f o s | 2 => recv_priority t f s
  | 3 => recv_rst t f s | 4 => recv_settings f o s | 5 => recv_push t f s
  | 6 => recv_ping f s | 7 => recv_goaway f s | 8 => recv_window_update t f s
  | 9 => recv_continuation t f s | _ => Ok s end.
Lemma others_calm t f o s s' : f_type f <> 0 -> f_type f <> 1 -> dispatch t f o s = Ok s' -> calm s s'.
Proof.
  intros N0 N1. unfold dispatch.
  apply (type_cases (f_type f) _ _ _ _ _ _ _ _ _ _ _ (fun r => r = Ok s' -> calm s s')); intro T; try easy; clear T N0 N1.
  - unfold recv_priority. intros [= <-]. calm_chain.
  - unfold recv_rst. intros [= <-]. calm_chain.
  - unfold recv_settings. destruct (ACK f); [intros [= <-]; calm_chain|].
    destruct (o_settings o); intros [= <-]; calm_chain.
  - unfold recv_push. set (s1 := if f_sid f =? 0 then _ else s).
    assert (Q1 : calm s s1) by (unfold s1; calm_chain).
    set (s2 := match t_state t with Open | HalfRemote => s1 | _ => _ end).
    assert (Q2 : calm s1 s2) by (subst s2; destruct (t_state t); calm_chain).
    set (s3 := match find_stream (f_sid f) s2 with Some _ => _ | None => s2 end).
    assert (Q3 : calm s2 s3) by (subst s3; destruct (find_stream _ _); calm_chain).
    destruct (create_stream (f_sid f) s3) as [s4 ok] eqn:C. apply calm_create in C.
    intros [= <-]. assert (calm s s4) by eauto using calm_trans. destruct ok; [assumption|].
    calm_chain. assumption.
  - unfold recv_ping. intros [= <-]. calm_chain.
  - unfold recv_goaway. intros [= <-]. calm_chain.
  - unfold recv_window_update. intros [= <-]. calm_chain.
  - unfold recv_continuation. destruct (t_last t) as [[ty fl]|]; [|discriminate]. intros [= <-]. calm_chain.
  - intros [= <-]. apply calm_refl.
Qed.
Definition frame_ok (f : frame) : Prop :=
  f_len f < 16777216 /\ (f_type f = 0 -> PADDED f = true -> 1 <= f_len f).
Definition data_credit (i : N) (f : frame) : Z :=
  if f_type f =? 0 then (here (f_sid f) i (data_bytes f) + here i 0 (data_bytes f))%Z else 0%Z.

Lemma answer_goaway sid o s s' : answer_if_complete sid o s = Ok s' -> c_goaway s' = c_goaway s.
Proof.
  unfold answer_if_complete. destruct (find_stream sid s); [|discriminate].
  destruct (_ && _); [|intros [= <-]; reflexivity].
  unfold handle_request. destruct (o_resp o) as [[len nc]|]; [|intros [= <-]; reflexivity].
  unfold new_response. destruct (List.find _ _); [|discriminate].
  destruct (t_esd s1); [intros [= <-]; unfold response_done; destruct (sstate_eqb _ _); reflexivity|].
  destruct (t_esh s1).
  - destruct (_ || _)%Z; [intros [= <-]; reflexivity|]. destruct (sstate_eqb _ _); intros [= <-]; reflexivity.
  - destruct (sstate_eqb _ _); [|discriminate]. intros [= <-]; reflexivity.
Qed.
Lemma recv_data_root t f o s s' : t_id t = 0 -> recv_data t f o s = Ok s' -> c_goaway s' = true.
Proof.
  intros Z. unfold recv_data. rewrite Z. cbn [N.eqb].
  set (s2 := match t_state t with Open | HalfLocal => conn_error PROTOCOL_ERROR s | _ => _ end).
  assert (G2 : c_goaway s2 = true) by (subst s2; destruct (t_state t); reflexivity).
  destruct (parse_data _ _ _ s2) as [s3|] eqn:P.
  - apply quiet_parse_data in P. apply goaway_quiet in P; [|exact G2].
    intro H. apply answer_goaway in H. rewrite H. destruct (END_STREAM f); exact P.
  - intros [= <-]. exact G2.
Qed.
Lemma recv_headers_root t f o s s' : t_id t = 0 -> recv_headers t f o s = Ok s' -> c_goaway s' = true.
Proof.
  intros Z. unfold recv_headers. rewrite Z. cbn [N.eqb].
  set (s2 := match t_state t with Idle => _ | ReservedLocal | Open | HalfRemote => _ | _ => _ end).
  assert (G2 : c_goaway s2 = true) by (subst s2; destruct (t_state t); reflexivity).
  intro H. apply answer_goaway in H. rewrite H.
  destruct (END_HEADERS f), (END_STREAM f), (o_hpack o); exact G2 || reflexivity.
Qed.

(** Streams whose queued frames were not dropped: those still there or not yet opened. *)
Definition alive (i : N) (s : conn) : Prop := i = 0 \/ In i (ids s) \/ c_max_sid s < i.
Lemma eff_max s s' : eff s s' -> c_max_sid s <= c_max_sid s'.
Proof.
  destruct 1; try reflexivity.
  - rewrite (k_max _ _ H). reflexivity.
  - rewrite H3. cbn. lia.
  - unfold set_head. destruct (c_resps s); reflexivity.
  - unfold grant. destruct (sid =? 0); reflexivity.
Qed.
Lemma effs_max s s' : effs s s' -> c_max_sid s <= c_max_sid s'.
Proof. induction 1; [now apply eff_max|reflexivity|lia]. Qed.
Lemma eff_goaway s s' : eff s s' -> c_goaway s = true -> c_goaway s' = true.
Proof.
  destruct 1; intro G; try exact G.
  - eapply goaway_quiet; eassumption.
  - rewrite H3. exact G.
  - unfold set_head. destruct (c_resps s); exact G.
  - unfold grant. destruct (sid =? 0); exact G.
Qed.
Lemma effs_goaway s s' : effs s s' -> c_goaway s = true -> c_goaway s' = true.
Proof. induction 1; eauto using eff_goaway. Qed.
Lemma eff_alive i s s' : eff s s' -> alive i s' -> alive i s.
Proof.
  unfold alive. destruct 1; intro A; try exact A.
  - rewrite (ids_quiet _ _ H), (k_max _ _ H) in A. exact A.
  - rewrite H3 in A. unfold ids in *. cbn [log_opened set_max_sid set_count set_streams c_streams c_max_sid] in A.
    rewrite map_app in A. destruct A as [|[A|A]]; [now left| |right; right; lia].
    apply in_app_or in A as [A|[A|[]]]; [auto|]. cbn [new_stream t_id] in A. right; right; lia.
  - rewrite ids_close in A. destruct A as [|[A|A]]; auto. apply filter_In in A as [A _]. auto.
  - unfold set_head in A. destruct (c_resps s); exact A.
  - unfold grant in A. destruct (sid =? 0); [exact A|]. rewrite ids_upd in A by reflexivity. exact A.
  - unfold payload in A.
    change (ids (log_wire _ _)) with (ids (upd sid (fun t => st_pwin (t_pwin t - Z.of_N k)%Z t) s)) in A.
    rewrite ids_upd in A by reflexivity. exact A.
Qed.
Lemma effs_alive i s s' : effs s s' -> alive i s' -> alive i s.
Proof. induction 1; eauto using eff_alive. Qed.

Lemma recv_frame_grants f o s s' : SInv s -> rooted s -> qvalid s -> frame_ok f ->
  recv_frame f o s = Ok s' ->
  qvalid s' /\ (c_goaway s' = false -> c_status s' = Running -> forall i, alive i s' ->
    granted i s' = (granted i s + data_credit i f)%Z).
Proof.
  intros I R V [L P]. rewrite recv_frame_enter. destruct (enter f s) as [s1 ok] eqn:E.
  assert (C1 : calm s s1).
  { unfold enter in E. set (s0 := if 16384 <? f_len f then _ else s) in E.
    assert (calm s s0) by (unfold s0; calm_chain). destruct (find_stream _ _); [injection E as <- <-; assumption|].
    eapply calm_trans; [eassumption|]. eapply calm_create; eassumption. }
  pose proof (enter_rooted _ _ _ _ I R E) as R1. pose proof (enter_effs anything _ _ _ _ eq_refl I R E) as E1.
  destruct ok; cbn [negb].
  2:{ intros [= <-]. split; [now apply C1|]. intro G. exfalso.
      destruct (enter_spec _ _ _ _ I R E) as (s0 & _ & _ & [(X & _)|[(X & _)|(_ & _ & -> & _)]]); try discriminate X.
      discriminate G. }
  cbv zeta. set (s2 := note_last f s1).
  assert (C2 : calm s s2) by (eapply calm_trans; [exact C1|]; unfold s2, note_last; calm_chain).
  assert (R2 : rooted s2) by (eapply rooted_quiet; [apply quiet_note|exact R1]).
  assert (E2 : effs s s2) by (eapply effs_trans; [exact E1|apply effs_quiet, quiet_note]).
  assert (I2 : SInv s2) by (eapply SInv_effs; eassumption).
  assert (M2 : f_sid f <= c_max_sid s2).
  { pose proof (i_max _ I2) as M. rewrite Forall_forall in M. apply M.
    destruct (find_stream (f_sid f) s2) as [t|] eqn:F.
    - apply find_in in F as [It Et]; [|exact R2]. rewrite <- Et. now apply in_map.
    - exfalso. apply find_stream_none in F; [|exact R2]. apply F. unfold s2.
      rewrite (ids_quiet _ _ (quiet_note f s1)).
      destruct (enter_spec _ _ _ _ I R E) as (s0 & Q & _ & [(_ & -> & X)|[(_ & _ & _ & _ & _ & X)|(X & _)]]).
      + now rewrite (ids_quiet _ _ Q).
      + rewrite X. unfold ids. cbn [log_opened set_max_sid set_count set_streams c_streams].
        rewrite map_app. apply in_or_app. right. now left.
      + discriminate X. }
  destruct C2 as [Cg Cv].
  destruct (find_stream (f_sid f) s2) as [t|] eqn:F; [|discriminate].
  apply find_in in F as [It Et]; [|exact R2].
  change (match f_type f with
        | 0 => recv_data t f o s2 | 1 => recv_headers t f o s2 | 2 => recv_priority t f s2
        | 3 => recv_rst t f s2 | 4 => recv_settings f o s2 | 5 => recv_push t f s2
        | 6 => recv_ping f s2 | 7 => recv_goaway f s2 | 8 => recv_window_update t f s2
        | 9 => recv_continuation t f s2 | _ => Ok s2 end) with (dispatch t f o s2).
  assert (D : dispatch t f o s2 = Ok s' ->
    qvalid s' /\ (c_goaway s' = false -> c_status s' = Running -> forall i, alive i s' ->
    granted i s' = (granted i s + data_credit i f)%Z)).
  { unfold data_credit. rewrite <- Et. destruct (N.eq_dec (f_type f) 0) as [T|T0]; [|destruct (N.eq_dec (f_type f) 1) as [T|T1]].
    - unfold dispatch. rewrite T. cbn [N.eqb]. intro H. pose proof (recv_data_root t f o s2 s') as Z.
      pose proof H as H'. apply recv_data_grants in H'; auto. destruct H' as [A B]. split; [assumption|].
      intros G S i Ii. rewrite B; auto; [rewrite Cg; lia|].
      assert (M' : c_max_sid s2 <= c_max_sid s') by (eapply effs_max, recv_data_effs; eassumption).
      destruct Ii as [->|[Ii|Ii]]; [|now right|left; lia]. left. intro Q. rewrite Z in G; [discriminate| |exact H]. congruence.
    - unfold dispatch. rewrite T. cbn [N.eqb]. intro H. pose proof (recv_headers_root t f o s2 s') as Z.
      pose proof H as H'. apply recv_headers_grants in H'; auto. destruct H' as [A B]. split; [assumption|].
      intros G S i Ii. rewrite B; auto; [rewrite Cg; lia|].
      assert (M' : c_max_sid s2 <= c_max_sid s') by (eapply effs_max, recv_headers_effs; eassumption).
      destruct Ii as [->|[Ii|Ii]]; [|now right|left; lia]. left. intro Q. rewrite Z in G; [discriminate| |exact H]. congruence.
    - intro H. pose proof (others_calm t f o s2 s' T0 T1 H) as [Og Ov].
      split; [auto|]. intros _ _ i _. rewrite Og, Cg. replace (f_type f =? 0) with false by lia. lia. }
  destruct (c_phase s2); [destruct (f_type f =? 4)|]; try exact D.
  intros [= <-]. split; [apply calm_conn_error; auto|discriminate].
Qed.

Lemma send_frame_calm q rest s : c_sendq s = q :: rest -> calm s (send_frame q s).
Proof.
  intro E. unfold send_frame. set (s1 := log_wire (WFrame q) _).
  assert (C : calm s s1).
  { split.
    - intro i. unfold granted, s1, log_wire, set_sendq. cbn [c_sendq c_wire]. rewrite E, sum_app.
      cbn [tl sum grant_w]. lia.
    - intros [A B]. rewrite E in A. inversion A; subst. split; unfold s1, log_wire, set_sendq; cbn [c_sendq c_wire].
      + rewrite E. assumption.
      + apply Forall_app. split; [assumption|]. now constructor. }
  destruct (q_kind q); exact C.
Qed.
Lemma calm_set_head r s : calm s (set_head r s).
Proof. unfold set_head. destruct (c_resps s); now apply calm_same. Qed.
Lemma calm_finish t r s : calm s (finish t r s).
Proof.
  unfold finish. destruct (sstate_eqb _ _); (eapply calm_trans; [|apply calm_set_head]); apply calm_upd.
Qed.
Lemma calm_send_data t r n s : calm s (send_data t r n s).
Proof.
  assert (H : calm s (if ((t_pwin t <=? 0) || (c_win s <=? 0))%Z then s
    else if p_len r =? 0 then finish t r s
    else set_head (mkResp (p_sid r) (p_len r) (p_nocontent r) PData 0)
        (log_wire (WDataHeader (t_id t) (p_len r mod 16777216) (Z.of_N (p_len r) <? Z.min (t_pwin t) (c_win s))%Z) s))).
  { destruct ((t_pwin t <=? 0) || _)%Z; [apply calm_refl|].
    destruct (p_len r =? 0); [apply calm_finish|].
    eapply calm_trans; [|apply calm_set_head]. apply calm_wire; [reflexivity|exact I]. }
  unfold send_data. destruct (p_phase r); try exact H. clear H.
  destruct (p_nocontent r); [now apply calm_same|].
  destruct (p_len r <=? p_sent r); [apply calm_finish|].
  set (k := N.min n _). destruct (k =? 0); [apply calm_refl|]. cbv zeta.
  set (r' := mkResp _ _ _ _ _). set (s1 := set_head r' _).
  assert (C : calm s s1).
  { unfold s1. eapply calm_trans; [|apply calm_set_head].
    eapply calm_trans; [|apply calm_wire; [reflexivity|exact I]].
    eapply calm_trans; [|now apply calm_same]. apply calm_upd. }
  destruct (p_len r <=? p_sent r + k); [|exact C]. eapply calm_trans; [exact C|apply calm_finish].
Qed.
Lemma response_event_grants r n s s' : SInv s -> qvalid s -> p_sid r <> 0 -> response_event r n s = Ok s' ->
  qvalid s' /\ forall i, alive i s' -> granted i s' = granted i s.
Proof.
  intros I V Z. unfold response_event. destruct (List.find _ _) as [t|] eqn:F; [|discriminate].
  apply find_ids in F as [It Et].
  pose proof (i_max _ I) as M. rewrite Forall_forall in M. specialize (M (t_id t) (in_map _ _ _ It)).
  destruct (t_esd t).
  - intros [= <-]. unfold response_done.
    destruct (sstate_eqb (t_state t) Closed); [|split; [exact V|reflexivity]].
    set (s1 := set_max_handled _ _). assert (V1 : qvalid s1) by exact V.
    destruct (close_grants (t_id t) s1 V1) as [A B]. split; [assumption|].
    intros i D. destruct (N.eq_dec i (t_id t)) as [->|Ne]; [|now rewrite B].
    exfalso. destruct D as [D|[D|D]]; [congruence| |cbn in D; lia].
    rewrite ids_close in D. apply filter_In in D as [_ D]. rewrite N.eqb_refl in D. discriminate.
  - destruct (t_esh t); intros [= <-]; [|auto]. destruct (calm_send_data t r n s). auto.
Qed.
Lemma goaway_loop_valid n o s' : forall ts s, qvalid s -> goaway_loop ts n o s = Ok s' -> qvalid s'.
Proof.
  induction ts as [|t ts IH]; intros s V; cbn [goaway_loop].
  - intros [= <-]. exact V.
  - destruct (negb (t_peh t) || _).
    + apply IH. now apply close_grants.
    + destruct (yetsend (t_id t) s).
      * intro H. now apply handle_grants in H.
      * destruct (n =? 0); [intros [= <-]; assumption|discriminate].
Qed.
Lemma goaway_handle_valid n o s s' : qvalid s -> goaway_handle n o s = Ok s' -> qvalid s'.
Proof.
  intro V. unfold goaway_handle. destruct (_ || _); [intros [= <-]; exact V|]. now apply goaway_loop_valid.
Qed.
Definition ev_frame (e : event) : option frame := match e with ERecv f _ => Some f | _ => None end.
Definition ev_ok (e : event) : Prop := forall f, ev_frame e = Some f -> frame_ok f.
Definition ev_credit (i : N) (e : event) : Z := match e with ERecv f _ => data_credit i f | _ => 0%Z end.

Lemma step_grants s e s' : SInv s -> RInv s -> qvalid s -> ev_ok e -> step s e = Ok s' ->
  qvalid s' /\ (c_goaway s' = false -> c_status s' = Running -> forall i, alive i s' ->
    granted i s' = (granted i s + ev_credit i e)%Z).
Proof.
  intros I R V O H. pose proof (step_effs _ _ _ I R H) as E. unfold step in H.
  destruct (c_status s) eqn:St; try (injection H as <-; split; [assumption|intros _ B; congruence]).
  destruct (c_goaway s) eqn:G.
  - assert (V' : qvalid s') by (destruct e; eapply goaway_handle_valid; eassumption).
    split; [assumption|]. intro G'. rewrite (effs_goaway _ _ E G) in G'. discriminate.
  - destruct e as [f o|n o|o].
    + apply recv_frame_grants in H; auto. apply (i_root _ I G).
    + cbn [ev_credit]. destruct (c_sendq s) as [|q rest] eqn:Q.
      * destruct (c_resps s) as [|r rs] eqn:Er; [injection H as <-; split; [assumption|intros; lia]|].
        apply response_event_grants in H; auto.
        -- destruct H as [A B]. split; [assumption|]. intros _ _ i Ai. rewrite B by assumption. lia.
        -- specialize (R G). rewrite Er in R. now inversion R.
      * injection H as <-. assert (C : calm s (if n =? 0 then s else send_frame q s)).
        { destruct (n =? 0); [apply calm_refl|]. eapply send_frame_calm; eassumption. }
        destruct C as [A B]. split; [auto|]. intros _ _ i _. rewrite A. lia.
    + injection H as <-. split; [exact V|]. discriminate.
Qed.
Lemma step_status s e s' : step s e = Ok s' -> c_status s' = Running -> c_status s = Running.
Proof. unfold step. destruct (c_status s) eqn:E; auto; intros [= <-]; congruence. Qed.
Lemma run_status es : forall s s', run s es = Ok s' -> c_status s' = Running -> c_status s = Running.
Proof.
  induction es as [|e es IH]; intros s s'; cbn [run]; [intros [= <-]; auto|].
  destruct (step s e) as [s1|] eqn:E; cbn [obind]; [|discriminate]. intros H S.
  eapply step_status; [eassumption|]. eapply IH; eassumption.
Qed.
Lemma run_grants es : forall s s', SInv s -> RInv s -> qvalid s -> Forall ev_ok es -> run s es = Ok s' ->
  qvalid s' /\ (c_goaway s' = false -> c_status s' = Running -> forall i, alive i s' ->
    granted i s' = (granted i s + sum (ev_credit i) es)%Z).
Proof.
  induction es as [|e es IH]; intros s s' I R V O; cbn [run sum].
  - intros [= <-]. split; [assumption|]. intros; lia.
  - destruct (step s e) as [s1|] eqn:E; cbn [obind]; [|discriminate]. intro H.
    inversion O as [|? ? Oe Oes]; subst.
    pose proof (step_effs _ _ _ I R E) as X.
    destruct (step_grants _ _ _ I R V Oe E) as [V1 G1].
    assert (I1 : SInv s1) by eauto using SInv_effs. assert (R1 : RInv s1) by eauto using RInv_effs.
    destruct (IH s1 s' I1 R1 V1 Oes H) as [V' G']. split; [assumption|].
    intros G S i A. rewrite (G' G S i A).
    pose proof (run_effs _ _ _ I1 R1 H) as Y.
    rewrite G1.
    + lia.
    + destruct (c_goaway s1) eqn:Q; [|reflexivity]. now rewrite (effs_goaway _ _ Y Q) in G.
    + eapply run_status; eassumption.
    + eapply effs_alive; eassumption.
Qed.

(* ---------- a peer that keeps to the stream states ---------- *)

Definition state_of (sid : N) (s : conn) : sstate :=
  match List.find (fun t => t_id t =? sid) (c_streams s) with Some t => t_state t | None => Idle end.
(** DATA only on open streams, HEADERS only on idle or open ones, no CONTINUATION on stream 0. *)
Definition polite (s : conn) (e : event) : Prop :=
  match e with
  | ERecv f _ =>
    (f_type f = 0 -> f_sid f <> 0 /\ state_of (f_sid f) s = Open) /\
    (f_type f = 1 -> f_sid f <> 0 /\ (state_of (f_sid f) s = Idle \/ state_of (f_sid f) s = Open)) /\
    (f_type f = 9 -> f_sid f <> 0)
  | _ => True
  end.
Definition done (t : stream) : Prop := t_state t = HalfRemote \/ t_state t = Closed.

Record PInv (s : conn) : Prop := mkPInv {
  p_done : forall t, In t (c_streams s) -> In (t_id t) (c_handled s) -> done t;
  p_flags : forall t, In t (c_streams s) -> t_esh t = true \/ t_esd t = true -> In (t_id t) (c_handled s);
  p_queue : forall q b, In q (c_sendq s) -> q_kind q = KHeaders b -> In (q_sid q) (c_handled s);
  p_alive : forall r, In r (c_resps s) -> In (p_sid r) (ids s) /\ In (p_sid r) (c_handled s);
  p_distinct : NoDup (map p_sid (c_resps s));
  p_once : NoDup (c_handled s);
  p_max : forall i, In i (c_handled s) -> i <= c_max_sid s }.

Record keep (s s' : conn) : Prop := mkKeep {
  kp_ids : ids s' = ids s;
  kp_max : c_max_sid s' = c_max_sid s;
  kp_handled : c_handled s' = c_handled s;
  kp_resps : c_resps s' = c_resps s;
  kp_streams : forall t', In t' (c_streams s') -> exists t, In t (c_streams s) /\ t_id t = t_id t' /\
    (done t -> done t') /\ (t_esh t' = true -> t_esh t = true) /\ (t_esd t' = true -> t_esd t = true);
  kp_q : forall q b, In q (c_sendq s') -> q_kind q = KHeaders b -> In q (c_sendq s) }.

Lemma keep_refl s : keep s s.
Proof. constructor; auto. intros t I. exists t. auto 6. Qed.
Lemma keep_trans a b c : keep a b -> keep b c -> keep a c.
Proof.
  intros [] []. constructor; try congruence.
  - intros t I. destruct (kp_streams1 t I) as (u & Iu & E & A & B & C).
    destruct (kp_streams0 u Iu) as (v & Iv & E' & A' & B' & C'). exists v. repeat split; auto. congruence.
  - intros q x I K. eauto.
Qed.
Lemma PInv_keep s s' : keep s s' -> PInv s -> PInv s'.
Proof.
  intros [] []. constructor; rewrite ?kp_ids0, ?kp_max0, ?kp_handled0, ?kp_resps0; auto.
  - intros t' I H. destruct (kp_streams0 t' I) as (t & It & E & A & _). apply A, p_done0; auto. now rewrite E.
  - intros t' I H. destruct (kp_streams0 t' I) as (t & It & E & _ & B & C). rewrite <- E.
    apply p_flags0; [assumption|]. destruct H; auto.
  - intros q b I K. eauto.
Qed.
Lemma keep_same s s' : c_streams s' = c_streams s -> c_sendq s' = c_sendq s -> c_max_sid s' = c_max_sid s ->
  c_handled s' = c_handled s -> c_resps s' = c_resps s -> keep s s'.
Proof.
  intros A B C D E. constructor; auto; [unfold ids; now rewrite A| |].
  - intros t I. exists t. rewrite A in I. auto 6.
  - intros q b I. now rewrite B in I.
Qed.
Lemma keep_upd sid f s : (forall t, In t (c_streams s) -> t_id t = sid -> t_id (f t) = sid /\ (done t -> done (f t)) /\
    (t_esh (f t) = true -> t_esh t = true) /\ (t_esd (f t) = true -> t_esd t = true)) -> keep s (upd sid f s).
Proof.
  intro H. constructor; try reflexivity; auto.
  - unfold ids, upd, set_streams. cbn [c_streams]. rewrite map_map. apply map_ext_in. intros t I.
    destruct (t_id t =? sid) eqn:E; [|reflexivity]. destruct (H t I) as [A _]; [lia|]. lia.
  - intros t' I. unfold upd, set_streams in I. cbn [c_streams] in I. apply in_map_iff in I as (t & E & I).
    exists t. split; [assumption|]. destruct (t_id t =? sid) eqn:Q; subst t'; [|auto 6].
    destruct (H t I) as (A & B & C & D); [lia|]. split; [lia|]. auto.
Qed.
Lemma keep_enqueue q s : (forall b, q_kind q <> KHeaders b) -> keep s (enqueue q s).
Proof.
  intro K. constructor; try reflexivity.
  - intros t I. exists t. auto 6.
  - intros q' b I E. cbn in I. apply in_app_or in I as [I|[<-|[]]]; [assumption|]. now destruct (K b).
Qed.
Lemma keep_conn_error c s : keep s (conn_error c s).
Proof. unfold conn_error. eapply keep_trans; [apply (keep_enqueue (mkQ 0 (KGoaway c))); discriminate|now apply keep_same]. Qed.
Lemma keep_closed sid s : keep s (upd sid (st_state Closed) s).
Proof. apply keep_upd. intros t I <-. repeat split; auto. now right. Qed.
Lemma keep_half sid s : keep s (upd sid (st_state HalfRemote) s).
Proof. apply keep_upd. intros t I <-. repeat split; auto. now left. Qed.
Lemma keep_stream_error sid c s : keep s (stream_error sid c s).
Proof. unfold stream_error. eapply keep_trans; [apply (keep_enqueue (mkQ sid (KRst c))); discriminate|apply keep_closed]. Qed.
Lemma keep_if (b : bool) s s1 s2 : keep s s1 -> keep s s2 -> keep s (if b then s1 else s2).
Proof. now destruct b. Qed.
Lemma keep_peh sid x s : keep s (upd sid (st_peh x) s). Proof. apply keep_upd. intros t I <-. auto. Qed.
Lemma keep_can sid x s : keep s (upd sid (st_can x) s). Proof. apply keep_upd. intros t I <-. auto. Qed.
Lemma keep_body sid x s : keep s (upd sid (st_body x) s). Proof. apply keep_upd. intros t I <-. auto. Qed.
Lemma keep_discard sid x s : keep s (upd sid (st_discard x) s). Proof. apply keep_upd. intros t I <-. auto. Qed.
Lemma keep_last sid x s : keep s (upd sid (st_last x) s). Proof. apply keep_upd. intros t I <-. auto. Qed.
Lemma keep_window_update sid n s : keep s (window_update sid n s).
Proof.
  unfold window_update. destruct (coalesce sid n (c_sendq s)) as [m q] eqn:E.
  apply (keep_trans _ (set_sendq q s)); [|apply keep_enqueue; discriminate].
  constructor; try reflexivity.
  - intros t I. exists t. auto 6.
  - cbn. intros x b I _.
    assert (G : forall l size, In x (snd (coalesce sid size l)) -> In x l).
    { clear. induction l as [|a l IH]; intros size; cbn [coalesce]; [easy|].
      assert (D : In x (snd (let (n, r) := coalesce sid size l in (n, a :: r))) -> In x (a :: l)).
      { specialize (IH size). destruct (coalesce sid size l). intros [->|H]; [now left|right; auto]. }
      destruct (q_kind a); auto. destruct (_ && _); auto. intro H. right. eauto. }
    apply (G _ n). now rewrite E.
Qed.
Lemma keep_parse t len cl s s' : parse_data t len cl s = Some s' -> keep s s'.
Proof.
  unfold parse_data. destruct (len =? 0); [intros [= <-]; apply keep_refl|].
  destruct (t_discard t); [intros [= <-]; eauto using keep_trans, keep_window_update|].
  destruct (t_body t) as [[n total]|].
  - destruct (total <? n + len); [discriminate|]. intros [= <-].
    eapply keep_trans; [apply keep_body|]. eauto using keep_trans, keep_window_update.
  - destruct (c_maxlen s <? cl).
    + intros [= <-]. eapply keep_trans; [apply keep_discard|]. eauto using keep_trans, keep_window_update.
    + destruct (cl <? len); [discriminate|]. intros [= <-].
      eapply keep_trans; [apply keep_body|]. eauto using keep_trans, keep_window_update.
Qed.
Lemma keep_emergency s : keep s (emergency s). Proof. now apply keep_same. Qed.
Ltac keep_chain :=
  repeat match goal with
  | |- keep ?s (if ?b then _ else _) => apply keep_if
  | |- keep ?s ?s => apply keep_refl
  | |- keep ?s (conn_error _ ?u) => apply (keep_trans _ u); [|apply keep_conn_error]
  | |- keep ?s (stream_error _ _ ?u) => apply (keep_trans _ u); [|apply keep_stream_error]
  | |- keep ?s (emergency ?u) => apply (keep_trans _ u); [|apply keep_emergency]
  | |- keep ?s (upd _ (st_state Closed) ?u) => apply (keep_trans _ u); [|apply keep_closed]
  | |- keep ?s (upd _ (st_state HalfRemote) ?u) => apply (keep_trans _ u); [|apply keep_half]
  | |- keep ?s (upd _ (st_peh _) ?u) => apply (keep_trans _ u); [|apply keep_peh]
  | |- keep ?s (upd _ (st_last _) ?u) => apply (keep_trans _ u); [|apply keep_last]
  | |- keep ?s (upd _ (fun t => st_pwin _ t) ?u) =>
      apply (keep_trans _ u); [|apply keep_upd; let E := fresh in intros ? ? E; rewrite <- E; auto]
  | |- keep ?s (enqueue ?q ?u) => apply (keep_trans _ u); [|apply (keep_enqueue q); discriminate]
  | |- keep ?s (set_phase _ ?u) => apply (keep_trans _ u); [|now apply keep_same]
  | |- keep ?s (set_pinit _ ?u) => apply (keep_trans _ u); [|now apply keep_same]
  | |- keep ?s (set_lsid _ ?u) => apply (keep_trans _ u); [|now apply keep_same]
  | |- keep ?s (set_goaway _ ?u) => apply (keep_trans _ u); [|now apply keep_same]
  | |- keep ?s (log_credit _ ?u) => apply (keep_trans _ u); [|now apply keep_same]
  | |- keep ?s (set_win _ ?u) => apply (keep_trans _ u); [|now apply keep_same]
  end.

Lemma unique_stream s t u : SInv s -> In t (c_streams s) -> In u (c_streams s) -> t_id t = t_id u -> t = u.
Proof.
  intros I. pose proof (i_sorted _ I) as S. unfold ids in S. clear I. revert S.
  generalize (c_streams s) as l. induction l as [|a l IH]; intros S It Iu E; [easy|].
  cbn [map] in S. inversion S as [|? ? S' F]; subst. rewrite Forall_forall in F.
  destruct It as [->|It], Iu as [->|Iu]; auto.
  - specialize (F (t_id u) (in_map _ _ _ Iu)). lia.
  - specialize (F (t_id t) (in_map _ _ _ It)). lia.
Qed.
Lemma state_of_in s t : SInv s -> In t (c_streams s) -> state_of (t_id t) s = t_state t.
Proof.
  intros I It. unfold state_of. destruct (List.find _ _) as [u|] eqn:F.
  - apply find_ids in F as [Iu E]. now rewrite (unique_stream s u t I Iu It E).
  - pose proof (find_none _ _ F t It) as Q. cbv beta in Q. lia.
Qed.
Lemma state_of_out s i : ~ In i (ids s) -> state_of i s = Idle.
Proof.
  intro N. unfold state_of. destruct (List.find _ _) as [u|] eqn:F; [|reflexivity].
  apply find_ids in F as [Iu E]. destruct N. rewrite <- E. now apply in_map.
Qed.

(** The answer to a request, for a stream not yet answered. *)
Lemma polite_answer sid o s : SInv s -> rooted s -> PInv s -> In sid (ids s) -> ~ In sid (c_handled s) ->
  exists s', answer_if_complete sid o s = Ok s' /\ PInv s'.
Proof.
  intros I R P Is Nh. unfold answer_if_complete.
  destruct (find_stream_some sid s Is) as [t F]. rewrite F. apply find_in in F as [It Et]; [|exact R].
  destruct (sstate_eqb (t_state t) HalfRemote && (t_peh t || t_can t)) eqn:C; [|eauto].
  apply andb_true_iff in C as [C _].
  assert (St : t_state t = HalfRemote) by (destruct (t_state t); try discriminate; reflexivity). clear C.
  set (s1 := upd sid (st_can true) s).
  assert (P1 : PInv s1) by (eapply PInv_keep; [apply keep_can|exact P]).
  assert (I1 : SInv s1) by (eapply SInv_quiet; [apply quiet_upd, tame_can|exact I]).
  assert (Is1 : In sid (ids s1)) by (unfold s1; rewrite ids_upd by reflexivity; exact Is).
  assert (S1 : forall u, In u (c_streams s1) -> t_id u = sid -> t_state u = HalfRemote).
  { intros u Iu Eu. unfold s1, upd, set_streams in Iu. cbn [c_streams] in Iu. apply in_map_iff in Iu as (v & E & Iv).
    assert (t_id v = sid) by (destruct (t_id v =? sid) eqn:Q; subst u; [exact Eu|lia]).
    assert (v = t) by (apply (unique_stream s); auto; congruence). subst v.
    destruct (t_id t =? sid) in E; subst u; exact St. }
  unfold handle_request.
  assert (Ph : PInv (log_handled sid s1)).
  { destruct P1. constructor; cbn [log_handled c_streams c_handled c_sendq c_resps c_max_sid]; auto.
    - intros u Iu Hu. apply in_app_or in Hu as [Hu|[Hu|[]]]; [auto|]. left. apply S1; auto.
    - intros u Iu Hu. apply in_or_app. left. auto.
    - intros q b Iq K. apply in_or_app. left. eauto.
    - intros r Ir. destruct (p_alive0 r Ir). split; [assumption|]. apply in_or_app. now left.
    - rewrite <- rev_involutive, rev_app_distr. apply NoDup_rev. cbn. constructor; [|now apply NoDup_rev].
      intro X. apply in_rev in X. now apply Nh.
    - intros i Ii. apply in_app_or in Ii as [Ii|[<-|[]]]; [auto|].
      pose proof (i_max _ I1) as M. rewrite Forall_forall in M. auto. }
  destruct (o_resp o) as [[len nc]|].
  2:{ eexists. split; [reflexivity|]. eapply PInv_keep; [apply keep_emergency|exact Ph]. }
  unfold new_response. cbn [log_handled c_streams].
  destruct (List.find (fun t0 => t_id t0 =? sid) (c_streams s1)) as [u|] eqn:F.
  2:{ exfalso. apply in_map_iff in Is1 as (v & E & Iv). pose proof (find_none _ _ F v Iv) as Q. cbv beta in Q. lia. }
  apply find_ids in F as [Iu Eu]. rewrite (S1 u Iu Eu). cbn [sstate_eqb].
  destruct (t_esd u) eqn:D. { destruct Nh. rewrite <- Eu. apply (p_flags _ P1); auto. }
  destruct (t_esh u) eqn:H. { destruct Nh. rewrite <- Eu. apply (p_flags _ P1); auto. }
  eexists. split; [reflexivity|]. destruct Ph. 
  constructor; cbn [enqueue set_sendq set_resps log_handled c_streams c_handled c_sendq c_resps c_max_sid] in *; auto.
  - intros q b Iq K. apply in_app_or in Iq as [Iq|[<-|[]]]; [eauto|]. cbn. apply in_or_app. right. now left.
  - intros r Ir. apply in_app_or in Ir as [Ir|[<-|[]]]; [auto|]. cbn. split; [exact Is1|]. apply in_or_app. right. now left.
  - rewrite map_app. cbn [map p_sid]. rewrite <- rev_involutive, rev_app_distr. apply NoDup_rev.
    cbn. constructor; [|now apply NoDup_rev]. intro X. apply in_rev in X. apply in_map_iff in X as (r & E & Ir).
    apply Nh. rewrite <- E. apply (p_alive _ P1). exact Ir.
Qed.

Lemma polite_data t f o s : SInv s -> rooted s -> PInv s -> In t (c_streams s) -> ~ In (t_id t) (c_handled s) ->
  exists s', recv_data t f o s = Ok s' /\ PInv s'.
Proof.
  intros I R P It Nh. unfold recv_data.
  set (s1 := if t_id t =? 0 then _ else s).
  assert (K1 : keep s s1) by (unfold s1; keep_chain).
  assert (Q1 : quiet s s1) by (apply if_quiet; auto with quiet).
  set (s2 := match t_state t with Open | HalfLocal => s1 | _ => _ end).
  assert (K2 : keep s s2) by (apply (keep_trans _ s1); [exact K1|]; subst s2; destruct (t_state t); keep_chain).
  assert (Q2 : quiet s s2) by (eapply quiet_trans; [exact Q1|]; subst s2; destruct (t_state t); auto with quiet).
  destruct (parse_data _ _ _ s2) as [s3|] eqn:E.
  - pose proof (keep_parse _ _ _ _ _ E) as K3. apply quiet_parse_data in E.
    set (s4 := if END_STREAM f then _ else s3).
    assert (K : keep s s4) by (apply (keep_trans _ s2); [exact K2|]; apply (keep_trans _ s3); [exact K3|]; unfold s4; keep_chain).
    assert (Q4 : quiet s s4).
    { eapply quiet_trans; [exact Q2|]. eapply quiet_trans; [exact E|]. unfold s4. apply if_quiet; auto with quiet. }
    apply polite_answer.
    + eapply SInv_quiet; eassumption.
    + eapply rooted_quiet; eassumption.
    + eapply PInv_keep; eassumption.
    + rewrite (kp_ids _ _ K). now apply in_map.
    + now rewrite (kp_handled _ _ K).
  - eexists. split; [reflexivity|]. eapply PInv_keep; [|exact P]. keep_chain. exact K2.
Qed.
Lemma polite_headers t f o s : SInv s -> rooted s -> PInv s -> In t (c_streams s) -> ~ In (t_id t) (c_handled s) ->
  exists s', recv_headers t f o s = Ok s' /\ PInv s'.
Proof.
  intros I R P It Nh. unfold recv_headers.
  set (s1 := if t_id t =? 0 then _ else s).
  assert (K1 : keep s s1) by (unfold s1; keep_chain).
  assert (Q1 : quiet s s1) by (apply if_quiet; auto with quiet).
  assert (I1 : SInv s1) by (eapply SInv_quiet; eassumption).
  set (s2 := match t_state t with Idle => _ | ReservedLocal | Open | HalfRemote => s1 | _ => _ end).
  assert (K2 : keep s1 s2).
  { subst s2. destruct (t_state t) eqn:St; keep_chain. apply keep_upd. intros u Iu Eu.
    assert (u = t) as ->.
    { apply (unique_stream s1); auto. unfold s1. destruct (t_id t =? 0); exact It. }
    split; [reflexivity|]. split; [|auto]. intros [X|X]; congruence. }
  assert (Q2 : quiet s1 s2) by (subst s2; destruct (t_state t); auto with quiet).
  set (s3 := if o_hpack o then s2 else _).
  assert (Q3 : quiet s2 s3) by (apply if_quiet; auto with quiet).
  set (s4 := if END_STREAM f then _ else s3).
  assert (Q4 : quiet s3 s4) by (apply if_quiet; auto with quiet).
  set (s5 := if END_HEADERS f then _ else s4).
  assert (Q5 : quiet s4 s5) by (apply if_quiet; auto with quiet).
  assert (Q : quiet s s5) by eauto 7 using quiet_trans.
  assert (K25 : keep s2 s5).
  { apply (keep_trans _ s4); [apply (keep_trans _ s3)|]; [unfold s3|unfold s4|unfold s5]; keep_chain. }
  assert (K : keep s s5) by eauto 7 using keep_trans.
  apply polite_answer.
  - eapply SInv_quiet; eassumption.
  - eapply rooted_quiet; eassumption.
  - eapply PInv_keep; eassumption.
  - rewrite (kp_ids _ _ K). now apply in_map.
  - now rewrite (kp_handled _ _ K).
Qed.
Lemma keep_push t f s : SInv s -> In (f_sid f) (ids s) -> exists s', recv_push t f s = Ok s' /\ keep s s'.
Proof.
  intros I Is. unfold recv_push.
  set (s1 := if f_sid f =? 0 then _ else s).
  assert (K1 : keep s s1) by (unfold s1; keep_chain).
  set (s2 := match t_state t with Open | HalfRemote => s1 | _ => _ end).
  assert (K2 : keep s1 s2) by (subst s2; destruct (t_state t); keep_chain).
  set (s3 := match find_stream (f_sid f) s2 with Some _ => _ | None => s2 end).
  assert (K3 : keep s2 s3) by (subst s3; destruct (find_stream _ _); keep_chain).
  assert (K : keep s s3) by eauto using keep_trans.
  destruct (create_stream (f_sid f) s3) as [s4 ok] eqn:C. apply create_spec in C.
  pose proof (i_max _ I) as M. rewrite Forall_forall in M. specialize (M _ Is).
  rewrite (kp_max _ _ K) in C.
  destruct ok; [destruct C; lia|]. destruct C as [-> _].
  eexists. split; [reflexivity|]. keep_chain. exact K.
Qed.
Lemma polite_others t f o s : SInv s -> In (f_sid f) (ids s) ->
  f_type f <> 0 -> f_type f <> 1 -> (f_type f = 9 -> t_last t <> None) ->
  exists s', dispatch t f o s = Ok s' /\ keep s s'.
Proof.
  intros I Is N0 N1 N9. unfold dispatch. revert N0 N1 N9.
  apply (type_cases (f_type f) _ _ _ _ _ _ _ _ _ _ _ (fun r => f_type f <> 0 -> f_type f <> 1 ->
    (f_type f = 9 -> t_last t <> None) -> exists s', r = Ok s' /\ keep s s')); intros T N0 N1 N9; try easy.
  - eexists; split; [reflexivity|]. keep_chain.
  - eexists; split; [reflexivity|]. keep_chain.
  - unfold recv_settings. destruct (ACK f); [eexists; split; [reflexivity|]; keep_chain|].
    destruct (o_settings o); eexists; (split; [reflexivity|]); keep_chain.
  - now apply keep_push.
  - eexists; split; [reflexivity|]. keep_chain.
  - eexists; split; [reflexivity|]. keep_chain.
  - eexists; split; [reflexivity|]. keep_chain.
  - unfold recv_continuation. destruct (t_last t) as [[ty fl]|]; [|now destruct (N9 T)].
    eexists; split; [reflexivity|]. keep_chain.
  - eexists; split; [reflexivity|]. apply keep_refl.
Qed.

Lemma enter_polite f s s1 ok : SInv s -> rooted s -> PInv s -> enter f s = (s1, ok) ->
  PInv s1 /\ (ok = true -> In (f_sid f) (ids s1)) /\
  (ok = true -> state_of (f_sid f) s = Idle \/ state_of (f_sid f) s = Open -> ~ In (f_sid f) (c_handled s1)).
Proof.
  intros I R P E.
  unfold enter in E. set (s0 := if 16384 <? f_len f then _ else s) in E.
    assert (K0 : keep s s0) by (unfold s0; keep_chain).
    assert (P0 : PInv s0) by (eapply PInv_keep; eassumption).
    assert (Q0 : quiet s s0) by (apply if_quiet; auto with quiet).
    assert (R0 : rooted s0) by (eapply rooted_quiet; eassumption).
    destruct (find_stream (f_sid f) s0) as [t|] eqn:F.
    - injection E as <- <-. apply find_in in F as [It Et]; [|exact R0]. split; [assumption|].
      split; [intros _; rewrite <- Et; now apply in_map|]. intros _ St Hh.
      assert (exists u, In u (c_streams s) /\ t_id u = f_sid f) as (u & Iu & Eu).
      { assert (In (f_sid f) (ids s)) as A by (rewrite <- (kp_ids _ _ K0), <- Et; now apply in_map).
        apply in_map_iff in A as (u & A & B). eauto. }
      rewrite (kp_handled _ _ K0) in Hh. rewrite <- Eu in *. rewrite (state_of_in s u I Iu) in St.
      destruct (p_done _ P u Iu Hh); destruct St; congruence.
    - apply find_stream_none in F; [|exact R0]. apply create_spec in E. destruct ok.
      + destruct E as (L & _ & _ & ->).
        assert (Nh : ~ In (f_sid f) (c_handled s0)) by (intro A; apply (p_max _ P0) in A; lia).
        split; [|split; [intros _|intros _ _; exact Nh]].
        * destruct P0. constructor; cbn [log_opened set_max_sid set_count set_streams c_streams c_handled c_sendq c_resps c_max_sid]; auto.
          -- intros t It Ht. apply in_app_or in It as [It|[<-|[]]]; [auto|]. now destruct Nh.
          -- intros t It Ht. apply in_app_or in It as [It|[<-|[]]]; [auto|]. cbn in Ht. now destruct Ht.
          -- intros r Ir. destruct (p_alive0 r Ir). split; [|assumption].
             unfold ids. cbn [log_opened set_max_sid set_count set_streams c_streams]. rewrite map_app. apply in_or_app. now left.
          -- intros i Ii. specialize (p_max0 i Ii). lia.
        * unfold ids. cbn [log_opened set_max_sid set_count set_streams c_streams]. rewrite map_app. apply in_or_app. right. now left.
      + destruct E as [-> _]. split; [|split; discriminate]. eapply PInv_keep; [|exact P0]. keep_chain.
Qed.
Lemma polite_recv f o s : SInv s -> rooted s -> PInv s -> polite s (ERecv f o) ->
  exists s', recv_frame f o s = Ok s' /\ PInv s'.
Proof.
  intros I R P (W0 & W1 & W9). rewrite recv_frame_enter. destruct (enter f s) as [s1 ok] eqn:E.
  pose proof (enter_rooted _ _ _ _ I R E) as R1. pose proof (enter_effs anything _ _ _ _ eq_refl I R E) as E1.
  assert (I1 : SInv s1) by (eapply SInv_effs; eassumption).
  pose proof (enter_polite _ _ _ _ I R P E) as X.
  destruct X as (P1 & Is1 & Nh).
  destruct ok; cbn [negb]; [|eauto]. specialize (Is1 eq_refl). specialize (Nh eq_refl).
  cbv zeta. set (s2 := note_last f s1).
  assert (K2 : keep s1 s2) by (unfold s2, note_last; keep_chain).
  assert (Q2 : quiet s1 s2) by apply quiet_note.
  assert (I2 : SInv s2) by (eapply SInv_quiet; eassumption).
  assert (R2 : rooted s2) by (eapply rooted_quiet; eassumption).
  assert (P2 : PInv s2) by (eapply PInv_keep; eassumption).
  assert (Is2 : In (f_sid f) (ids s2)) by (now rewrite (kp_ids _ _ K2)).
  rewrite <- (kp_handled _ _ K2) in Nh.
  destruct (find_stream_some (f_sid f) s2 Is2) as [t F]. rewrite F. apply find_in in F as [It Et]; [|exact R2].
  assert (D : exists s', dispatch t f o s2 = Ok s' /\ PInv s').
  { destruct (N.eq_dec (f_type f) 0) as [T|T0]; [|destruct (N.eq_dec (f_type f) 1) as [T|T1]].
    - unfold dispatch. rewrite T. destruct (W0 T) as [_ St]. apply polite_data; auto. rewrite Et. apply Nh. now right.
    - unfold dispatch. rewrite T. destruct (W1 T) as [_ St]. apply polite_headers; auto. rewrite Et. apply Nh. exact St.
    - destruct (polite_others t f o s2) as (s' & A & B); auto.
      + intro T. specialize (W9 T). intro L.
        unfold s2, note_last in It. destruct (f_sid f =? 0) eqn:Z; [lia|].
        unfold upd, set_streams in It. cbn [c_streams] in It. apply in_map_iff in It as (v & A & _).
        destruct (t_id v =? f_sid f) eqn:Q; subst t; [discriminate L|]. lia.
      + exists s'. split; [assumption|]. eapply PInv_keep; eassumption. }
  unfold dispatch in D. destruct (c_phase s2); [destruct (f_type f =? 4)|]; try exact D.
  eexists. split; [reflexivity|]. eapply PInv_keep; [|exact P2]. keep_chain.
Qed.

(* sending, for the peer above *)
Lemma PInv_send_frame q rest s : c_sendq s = q :: rest -> PInv s -> PInv (send_frame q s).
Proof.
  intros E P. unfold send_frame. set (s1 := log_wire (WFrame q) _).
  assert (K : keep s s1).
  { constructor; try reflexivity.
    - intros t I. exists t. auto 6.
    - unfold s1. cbn [log_wire set_sendq c_sendq]. intros x b I _. rewrite E in *. right. exact I. }
  pose proof (PInv_keep _ _ K P) as P1. destruct (q_kind q) as [| | | | | |es] eqn:Kq; try exact P1.
  assert (Hq : In (q_sid q) (c_handled s)) by (apply (p_queue _ P q es); [rewrite E; now left|assumption]).
  destruct P1. constructor; auto.
  - intros t It Ht. unfold upd, set_streams in It. cbn [c_streams] in It. apply in_map_iff in It as (u & A & B).
    destruct (t_id u =? q_sid q); subst t; [|auto]. apply (p_done0 u B Ht).
  - intros t It Ht. unfold upd, set_streams in It. cbn [c_streams] in It. apply in_map_iff in It as (u & A & B).
    destruct (t_id u =? q_sid q) eqn:Q; subst t; [|auto]. cbn [st_esh t_id]. cbn. replace (t_id u) with (q_sid q) by lia. exact Hq.
  - intros r Ir. destruct (p_alive0 r Ir). split; [|assumption]. rewrite ids_upd by reflexivity. assumption.
Qed.
Lemma PInv_head r r0 rest s : c_resps s = r0 :: rest -> p_sid r = p_sid r0 -> PInv s -> PInv (set_head r s).
Proof.
  intros E Es P. unfold set_head. rewrite E. destruct P. rewrite E in *.
  constructor; auto; cbn [set_resps c_resps ids c_streams c_handled map] in *.
  - intros x [<-|Ix]; [rewrite Es; apply p_alive0; now left|apply p_alive0; now right].
  - now rewrite Es.
Qed.
(** A stream whose response is being sent: flags and final state may be set. *)
Lemma PInv_upd sid f s : In sid (c_handled s) -> PInv s ->
  (forall t, t_id (f t) = t_id t /\ (done t -> done (f t))) -> PInv (upd sid f s).
Proof.
  intros Hs [] T. constructor; auto.
  - intros t It Ht. unfold upd, set_streams in It. cbn [c_streams] in It. apply in_map_iff in It as (u & A & B).
    destruct (t_id u =? sid); subst t; [|auto]. apply T. apply (p_done0 u B). destruct (T u) as [X _]. rewrite X in Ht. exact Ht.
  - intros t It Ht. unfold upd, set_streams in It. cbn [c_streams] in It. apply in_map_iff in It as (u & A & B).
    destruct (t_id u =? sid) eqn:Q; subst t; [|auto]. destruct (T u) as [X _]. rewrite X.
    replace (t_id u) with sid by lia. exact Hs.
  - intros r Ir. destruct (p_alive0 r Ir). split; [|assumption]. rewrite ids_upd by apply T. assumption.
Qed.
Lemma PInv_same s s' : c_streams s' = c_streams s -> c_sendq s' = c_sendq s -> c_max_sid s' = c_max_sid s ->
  c_handled s' = c_handled s -> c_resps s' = c_resps s -> PInv s -> PInv s'.
Proof. intros. eapply PInv_keep; [|eassumption]. now apply keep_same. Qed.
Lemma PInv_finish t r r0 rest s : c_resps s = r0 :: rest -> p_sid r = p_sid r0 -> In (t_id t) (c_handled s) ->
  PInv s -> PInv (finish t r s).
Proof.
  intros E Es Ht P. unfold finish. destruct (sstate_eqb (t_state t) HalfRemote).
  - apply (PInv_head _ r0 rest); [exact E|exact Es|]. apply PInv_upd; auto.
    intro u. split; [reflexivity|]. intros _. now right.
  - apply (PInv_head _ r0 rest); [exact E|exact Es|]. apply PInv_upd; auto.
Qed.
Lemma PInv_send_data t r n rest s : c_resps s = r :: rest -> In (t_id t) (c_handled s) -> PInv s ->
  PInv (send_data t r n s).
Proof.
  intros E Ht P.
  assert (H : PInv (if ((t_pwin t <=? 0) || (c_win s <=? 0))%Z then s
    else if p_len r =? 0 then finish t r s
    else set_head (mkResp (p_sid r) (p_len r) (p_nocontent r) PData 0)
        (log_wire (WDataHeader (t_id t) (p_len r mod 16777216) (Z.of_N (p_len r) <? Z.min (t_pwin t) (c_win s))%Z) s))).
  { destruct ((t_pwin t <=? 0) || _)%Z; [assumption|].
    destruct (p_len r =? 0); [eapply PInv_finish; eauto|].
    apply (PInv_head _ r rest); [exact E|reflexivity|]. now apply (PInv_same s). }
  unfold send_data. destruct (p_phase r); try exact H. clear H.
  destruct (p_nocontent r); [now apply (PInv_same s)|].
  destruct (p_len r <=? p_sent r); [eapply PInv_finish; eauto|].
  set (k := N.min n _). destruct (k =? 0); [assumption|]. cbv zeta.
  set (r' := mkResp _ _ _ _ _). set (s1 := set_head r' _).
  assert (H : PInv s1).
  { unfold s1. apply (PInv_head _ r rest); [exact E|reflexivity|].
    apply (PInv_same (upd (t_id t) (fun t => st_pwin (t_pwin t - Z.of_N k)%Z t) s)); try reflexivity.
    apply PInv_upd; auto. }
  destruct (p_len r <=? p_sent r + k); [|exact H].
  apply (PInv_finish _ _ r' rest); [|reflexivity| |exact H].
  - unfold s1, set_head. cbn [log_wire set_win upd set_streams c_resps]. rewrite E. reflexivity.
  - unfold s1, set_head. cbn [log_wire set_win upd set_streams c_resps]. rewrite E. exact Ht.
Qed.
Lemma polite_response r n rest s : SInv s -> PInv s -> c_resps s = r :: rest ->
  exists s', response_event r n s = Ok s' /\ PInv s'.
Proof.
  intros I P E. unfold response_event.
  destruct (p_alive _ P r) as [Ir Hr]; [rewrite E; now left|].
  destruct (List.find _ _) as [t|] eqn:F.
  2:{ exfalso. apply in_map_iff in Ir as (v & Ev & Iv). pose proof (find_none _ _ F v Iv) as Q. cbv beta in Q. lia. }
  apply find_ids in F as [It Et].
  destruct (t_esd t).
  - eexists. split; [reflexivity|]. rewrite E. cbn [tl].
    unfold response_done. cbv zeta. set (s1 := set_max_handled _ (set_resps rest s)).
    assert (P1 : PInv s1).
    { destruct P. rewrite E in *. constructor; auto.
      - intros x Ix. apply p_alive0. now right.
      - cbn [map] in p_distinct0. now inversion p_distinct0. }
    destruct (sstate_eqb (t_state t) Closed); [|exact P1].
    pose proof (p_distinct _ P) as D. rewrite E in D. cbn [map] in D. inversion D as [|? ? Nr D']; subst.
    destruct P1. constructor; auto.
    + intros u Iu. cbn in Iu. apply filter_In in Iu as [Iu _]. now apply p_done0.
    + intros u Iu. cbn in Iu. apply filter_In in Iu as [Iu _]. now apply p_flags0.
    + intros q b Iq. cbn in Iq. apply filter_In in Iq as [Iq _]. intro Kq; exact (p_queue0 q b Iq Kq).
    + intros x Ix. destruct (p_alive0 x Ix). split; [|assumption]. rewrite ids_close. apply filter_In. split; [assumption|].
      destruct (p_sid x =? t_id t) eqn:Q; [|reflexivity]. exfalso. apply Nr. rewrite <- Et.
      replace (t_id t) with (p_sid x) by lia. now apply in_map.
  - destruct (t_esh t); [|eauto]. eexists. split; [reflexivity|]. apply (PInv_send_data _ _ _ rest); auto.
    now rewrite Et.
Qed.

Theorem polite_step s e : SInv s -> RInv s -> PInv s -> c_goaway s = false -> polite s e ->
  exists s', step s e = Ok s' /\ PInv s'.
Proof.
  intros I R P G W. unfold step. destruct (c_status s); eauto. rewrite G.
  destruct e as [f o|n o|o].
  - apply polite_recv; auto. apply (i_root _ I G).
  - destruct (c_sendq s) as [|q rest] eqn:Q.
    + destruct (c_resps s) as [|r rs] eqn:Er; [eauto|]. now apply (polite_response r n rs).
    + destruct (n =? 0); eexists; (split; [reflexivity|]); [assumption|]. now apply (PInv_send_frame q rest).
  - eexists. split; [reflexivity|]. now apply (PInv_same s).
Qed.
(** A run in which the peer keeps to the rules, up to the moment the connection is given up. *)
Fixpoint polite_run (s : conn) (es : list event) : Prop :=
  match es with
  | [] => True
  | e :: t => c_goaway s = false /\ polite s e /\
    match step s e with Ok s' => polite_run s' t | UB _ => True end
  end.
Lemma PInv_init limit maxlen : PInv (conn_init limit maxlen).
Proof.
  constructor; cbn; try easy; try constructor.
  intros t [<-|[]] [H|H]; discriminate H.
Qed.
Lemma polite_run_ok es : forall s, SInv s -> RInv s -> PInv s -> polite_run s es ->
  exists s', run s es = Ok s' /\ PInv s'.
Proof.
  induction es as [|e es IH]; intros s I R P W; cbn [run polite_run] in *; [eauto|].
  destruct W as (G & We & W). destruct (polite_step s e I R P G We) as (s1 & E & P1). rewrite E in *.
  cbn [obind]. pose proof (step_effs _ _ _ I R E) as X.
  apply IH; eauto using SInv_effs, RInv_effs.
Qed.

(* ---------- stream states ---------- *)

Lemma find_map (f : stream -> stream) i l : (forall t, t_id (f t) = t_id t) ->
  List.find (fun t => t_id t =? i) (map f l) = option_map f (List.find (fun t => t_id t =? i) l).
Proof.
  intro H. induction l as [|a l IH]; cbn [map List.find option_map]; [reflexivity|].
  rewrite H. destruct (t_id a =? i); [reflexivity|exact IH].
Qed.
Lemma state_of_upd sid f s i : (forall t, t_id (f t) = t_id t) ->
  state_of i (upd sid f s) =
  match List.find (fun t => t_id t =? i) (c_streams s) with
  | Some t => if t_id t =? sid then t_state (f t) else t_state t
  | None => Idle end.
Proof.
  intro H. unfold state_of, upd, set_streams. cbn [c_streams]. rewrite find_map.
  2:{ intro t. destruct (t_id t =? sid); [apply H|reflexivity]. }
  destruct (List.find _ _) as [t|]; [|reflexivity]. cbn [option_map]. now destruct (t_id t =? sid).
Qed.
Lemma state_of_set sid x s i : In sid (ids s) ->
  state_of i (upd sid (st_state x) s) = if i =? sid then x else state_of i s.
Proof.
  intro I. rewrite state_of_upd by reflexivity. unfold state_of.
  destruct (List.find _ _) as [t|] eqn:F.
  - apply find_ids in F as [_ E]. rewrite E. destruct (i =? sid); reflexivity.
  - destruct (i =? sid) eqn:Q; [|reflexivity]. exfalso. apply in_map_iff in I as (v & E & Iv).
    pose proof (find_none _ _ F v Iv) as X. cbv beta in X. lia.
Qed.
Lemma state_of_same sid f s i : (forall t, t_id (f t) = t_id t /\ t_state (f t) = t_state t) ->
  state_of i (upd sid f s) = state_of i s.
Proof.
  intro H. rewrite state_of_upd by apply H. unfold state_of. destruct (List.find _ _) as [t|]; [|reflexivity].
  destruct (t_id t =? sid); [apply H|reflexivity].
Qed.
Definition still (s s' : conn) : Prop := c_streams s' = c_streams s.
Lemma state_of_still s s' i : still s s' -> state_of i s' = state_of i s.
Proof. unfold still, state_of. now intros ->. Qed.

(** RFC 7540, 5.1: what receiving a frame does to its stream, seen from the server. *)
Definition rfc_recv (f : frame) (st : sstate) : sstate :=
  match f_type f with
  | 0 => if END_STREAM f then HalfRemote else st
  | 1 => if END_STREAM f then HalfRemote else match st with Idle => Open | _ => st end
  | 2 => if f_len f =? 5 then st else Closed
  | 3 => Closed
  | _ => st
  end.

Lemma window_update_still sid n s : still s (window_update sid n s).
Proof. unfold window_update. destruct (coalesce _ _ _). reflexivity. Qed.
Lemma parse_state t len cl s s' i : parse_data t len cl s = Some s' -> state_of i s' = state_of i s.
Proof.
  assert (W : forall sid n u, state_of i (window_update sid n u) = state_of i u)
    by (intros; apply state_of_still, window_update_still).
  unfold parse_data. destruct (len =? 0); [intros [= <-]; reflexivity|].
  destruct (t_discard t); [intros [= <-]; now rewrite !W|].
  destruct (t_body t) as [[n total]|].
  - destruct (total <? n + len); [discriminate|]. intros [= <-]. rewrite !W. now apply state_of_same.
  - destruct (c_maxlen s <? cl); [intros [= <-]; rewrite !W; now apply state_of_same|].
    destruct (cl <? len); [discriminate|]. intros [= <-]. rewrite !W. now apply state_of_same.
Qed.
(** An answer on a stream that has none yet does not change any state. *)
Lemma answer_state sid o s s' i : PInv s -> ~ In sid (c_handled s) ->
  answer_if_complete sid o s = Ok s' -> state_of i s' = state_of i s.
Proof.
  intros P Nh. unfold answer_if_complete. destruct (find_stream sid s) as [t|]; [|discriminate].
  destruct (_ && _); [|intros [= <-]; reflexivity].
  unfold handle_request. set (s1 := log_handled sid _).
  assert (S1 : state_of i s1 = state_of i s) by (apply (state_of_same sid); now intro).
  destruct (o_resp o) as [[len nc]|]; [|intros [= <-]; exact S1].
  unfold new_response. destruct (List.find _ _) as [u|] eqn:F; [|discriminate].
  apply find_ids in F as [Iu Eu]. unfold s1 in Iu. cbn [log_handled upd set_streams c_streams] in Iu.
  apply in_map_iff in Iu as (v & Ev & Iv).
  assert (Fl : t_id v = sid /\ t_esd u = t_esd v /\ t_esh u = t_esh v).
  { destruct (t_id v =? sid) eqn:Q; subst u; [|auto]. repeat split; lia. }
  destruct Fl as (Idv & -> & ->).
  destruct (t_esd v) eqn:D. { destruct Nh. rewrite <- Idv. apply (p_flags _ P); auto. }
  destruct (t_esh v) eqn:H. { destruct Nh. rewrite <- Idv. apply (p_flags _ P); auto. }
  destruct (sstate_eqb _ _); [|discriminate]. intros [= <-]. exact S1.
Qed.

(** The state seen by the handler. *)
Lemma enter_state f s s1 i : SInv s -> rooted s -> enter f s = (s1, true) -> state_of i (note_last f s1) = state_of i s.
Proof.
  intros I R E.
  assert (N : state_of i (note_last f s1) = state_of i s1).
  { unfold note_last. destruct (f_sid f =? 0); [reflexivity|]. now apply state_of_same. }
  rewrite N. unfold enter in E. set (s0 := if 16384 <? f_len f then _ else s) in E.
  assert (S0 : state_of i s0 = state_of i s) by (unfold s0; destruct (16384 <? f_len f); reflexivity).
  destruct (find_stream (f_sid f) s0); [injection E as <-; exact S0|].
  apply create_spec in E. destruct E as (_ & _ & _ & ->). rewrite <- S0.
  unfold state_of. cbn [log_opened set_max_sid set_count set_streams c_streams].
  clear. generalize (c_pinit s0) as w, (c_streams s0) as l. intros w l.
  induction l as [|a l IH]; cbn [app List.find].
  - cbn [new_stream t_id]. destruct (f_sid f =? i); reflexivity.
  - destruct (t_id a =? i); [reflexivity|exact IH].
Qed.
Lemma dispatch_effs w t f o s s' : (f_type f = 8 -> can_grant w = true) -> SInv s -> rooted s -> In t (c_streams s) -> t_id t = f_sid f ->
  dispatch t f o s = Ok s' -> effsw w s s'.
Proof.
  intros Gw I R It Et. unfold dispatch.
  apply (type_cases (f_type f) _ _ _ _ _ _ _ _ _ _ _ (fun r => r = Ok s' -> effsw w s s')); intro T.
  - apply recv_data_effs; assumption.
  - apply recv_headers_effs; assumption.
  - intro; eapply effs_quiet, quiet_priority; eassumption.
  - intro; eapply effs_quiet, quiet_rst; eassumption.
  - intro; eapply effs_quiet, quiet_settings; eassumption.
  - intro; eapply effs_quiet, recv_push_quiet; try eassumption. rewrite <- Et. now apply in_map.
  - intro; eapply effs_quiet, quiet_ping; eassumption.
  - intro; eapply effs_quiet, quiet_goaway; eassumption.
  - apply recv_window_effs; auto.
  - intro; eapply effs_quiet, quiet_continuation; eassumption.
  - intros [= <-]. apply rt_refl.
Qed.
Lemma dispatch_goaway t f o s s' : SInv s -> rooted s -> In t (c_streams s) -> t_id t = f_sid f ->
  dispatch t f o s = Ok s' -> effs s s'.
Proof. apply dispatch_effs. reflexivity. Qed.

Lemma dispatch_state t f o s s' : SInv s -> rooted s -> PInv s -> In t (c_streams s) -> t_id t = f_sid f ->
  (f_type f = 0 -> t_state t = Open /\ ~ In (f_sid f) (c_handled s)) ->
  (f_type f = 1 -> (t_state t = Idle \/ t_state t = Open) /\ ~ In (f_sid f) (c_handled s)) ->
  dispatch t f o s = Ok s' -> c_goaway s' = false -> c_status s' = Running -> f_sid f <> 0 ->
  forall i, state_of i s' = if i =? f_sid f then rfc_recv f (state_of i s) else state_of i s.
Proof.
  intros I R P It Et W0 W1 H G Ru Z i.
  assert (Is : In (f_sid f) (ids s)) by (rewrite <- Et; now apply in_map).
  pose proof (dispatch_goaway t f o s s' I R It Et H) as E.
  assert (Gs : c_goaway s = false) by (destruct (c_goaway s) eqn:Q; [now rewrite (effs_goaway _ _ E Q) in G|reflexivity]).
  assert (Sid : state_of (f_sid f) s = t_state t) by (rewrite <- Et; now apply state_of_in).
  assert (Same : forall x, state_of i s' = state_of i s -> x = state_of i s ->
     state_of i s' = if i =? f_sid f then x else state_of i s)
    by (intros x A ->; destruct (i =? f_sid f); exact A).
  unfold dispatch in H. unfold rfc_recv in *. revert H.
  destruct (N.eq_dec (f_type f) 0) as [T|T0].
  { rewrite T in *. destruct (W0 eq_refl) as [St Nh]. clear W0 W1. intro H.
    unfold recv_data in H. rewrite Et, St in H. replace (f_sid f =? 0) with false in H by lia. cbv zeta in H.
    destruct (parse_data t _ _ s) as [s3|] eqn:Pd; [|injection H as <-; discriminate Ru].
    pose proof (keep_parse _ _ _ _ _ Pd) as K3. pose proof (parse_state _ _ _ _ _ i Pd) as S3.
    set (s4 := if END_STREAM f then _ else s3) in H.
    assert (K4 : keep s s4) by (apply (keep_trans _ s3); [exact K3|]; unfold s4; keep_chain).
    apply answer_state with (i := i) in H.
    + rewrite H. unfold s4. destruct (END_STREAM f).
      * rewrite state_of_set, S3; [reflexivity|]. rewrite (kp_ids _ _ K3). exact Is.
      * rewrite S3. destruct (i =? f_sid f); reflexivity.
    + eapply PInv_keep; eassumption.
    + rewrite (kp_handled _ _ K4). exact Nh. }
  destruct (N.eq_dec (f_type f) 1) as [T|T1].
  { rewrite T in *. destruct (W1 eq_refl) as [St Nh]. clear W0 W1 T0. intro H.
    unfold recv_headers in H. rewrite Et in H. replace (f_sid f =? 0) with false in H by lia. cbv zeta in H.
    set (s2 := match t_state t with Idle => _ | ReservedLocal | Open | HalfRemote => s | _ => _ end) in H.
    assert (K2 : keep s s2).
    { subst s2. destruct St as [St|St]; rewrite St; keep_chain. apply keep_upd. intros u Iu Eu.
      assert (u = t) as -> by (apply (unique_stream s); auto; congruence).
      split; [exact Et|]. split; [|auto]. intros [X|X]; congruence. }
    assert (S2 : state_of i s2 = if i =? f_sid f then Open else state_of i s).
    { unfold s2. destruct St as [St|St]; rewrite St.
      - now apply state_of_set.
      - destruct (i =? f_sid f) eqn:Q; [|reflexivity]. replace i with (f_sid f) by lia. congruence. }
    set (s3 := if o_hpack o then s2 else _) in H.
    assert (K3 : keep s2 s3) by (unfold s3; keep_chain).
    assert (S3 : state_of i s3 = state_of i s2) by (unfold s3; destruct (o_hpack o); reflexivity).
    set (s4 := if END_STREAM f then _ else s3) in H.
    assert (K4 : keep s3 s4) by (unfold s4; keep_chain).
    assert (S4 : state_of i s4 = if END_STREAM f then if i =? f_sid f then HalfRemote else state_of i s else state_of i s2).
    { unfold s4. destruct (END_STREAM f); [|exact S3]. rewrite state_of_set.
      - rewrite S3, S2. destruct (i =? f_sid f); reflexivity.
      - rewrite (kp_ids _ _ K3), (kp_ids _ _ K2). exact Is. }
    set (s5 := if END_HEADERS f then _ else s4) in H.
    assert (K5 : keep s4 s5) by (unfold s5; keep_chain).
    assert (S5 : state_of i s5 = state_of i s4) by (unfold s5; destruct (END_HEADERS f); [now apply state_of_same|reflexivity]).
    assert (K : keep s s5) by eauto 7 using keep_trans.
    apply answer_state with (i := i) in H.
    - rewrite H, S5, S4. destruct (END_STREAM f); [reflexivity|]. rewrite S2.
      destruct (i =? f_sid f) eqn:Q; [|reflexivity]. replace i with (f_sid f) by lia. rewrite Sid.
      destruct St as [-> | ->]; reflexivity.
    - eapply PInv_keep; eassumption.
    - rewrite (kp_handled _ _ K). exact Nh. }
  clear W0 W1.
  assert (C : f_type f = 2 \/ f_type f = 3 \/ f_type f = 4 \/ f_type f = 5 \/ f_type f = 6 \/ f_type f = 7 \/
    f_type f = 8 \/ f_type f = 9 \/ 9 < f_type f) by lia.
  destruct C as [T|[T|[T|[T|[T|[T|[T|[T|T]]]]]]]]; rewrite ?T.
  - unfold recv_priority. intros [= <-]. rewrite Et in *. replace (f_sid f =? 0) with false by lia.
    destruct (f_len f =? 5); [destruct (i =? f_sid f); reflexivity|].
    unfold stream_error. change (state_of i s) with (state_of i (enqueue (mkQ (f_sid f) (KRst FRAME_SIZE_ERROR)) s)).
    apply state_of_set. exact Is.
  - unfold recv_rst. intros [= <-]. rewrite Et in *. replace (f_sid f =? 0) with false in * by lia.
    set (s1 := if sstate_eqb _ _ then _ else s). set (s2 := if f_len f =? 4 then s1 else _).
    assert (still s s2) as S by (unfold s2, s1; destruct (f_len f =? 4), (sstate_eqb _ _); reflexivity).
    rewrite state_of_set by (unfold ids; rewrite S; exact Is). now rewrite (state_of_still _ _ i S).
  - intro H. apply Same; [|reflexivity]. unfold recv_settings in H.
    replace (f_sid f =? 0) with false in H by lia.
    destruct (ACK f); [injection H as <-|destruct (o_settings o); injection H as <-];
      destruct (f_len f mod 6 =? 0); reflexivity.
  - intro H. apply Same; [|reflexivity]. exfalso. unfold recv_push in H.
    destruct (create_stream _ _) as [s4 ok] eqn:C. destruct ok.
    + apply create_spec in C. destruct C as [L _].
      pose proof (i_max _ I) as M. rewrite Forall_forall in M. specialize (M _ Is).
      replace (f_sid f =? 0) with false in L by lia.
      destruct (t_state t), (find_stream _ _) in L; cbn in L; lia.
    + injection H as <-. discriminate Ru.
  - intro H. apply Same; [|reflexivity]. unfold recv_ping in H. injection H as <-.
    destruct (f_sid f =? 0), (f_len f =? 8); reflexivity.
  - intro H. apply Same; [|reflexivity]. unfold recv_goaway in H. injection H as <-.
    destruct (f_sid f =? 0); cbv zeta; destruct (_ <=? _); reflexivity.
  - intro H. apply Same; [|reflexivity]. unfold recv_window_update in H. injection H as <-.
    replace (f_sid f =? 0) with false in * by lia. rewrite state_of_same by now intro.
    destruct (f_val f =? 0), (f_len f =? 4); reflexivity.
  - intro H. apply Same; [|reflexivity]. unfold recv_continuation in H.
    destruct (t_last t) as [[ty fl]|]; [|discriminate]. injection H as <-.
    set (s1 := if _ && _ then s else _). assert (still s s1) as S by (unfold s1; destruct (_ && _); reflexivity).
    destruct (END_HEADERS f); [rewrite state_of_same by now intro|]; now apply state_of_still.
  - intro H. apply Same.
    + revert H. apply (type_cases (f_type f) _ _ _ _ _ _ _ _ _ _ _ (fun r => r = Ok s' -> state_of i s' = state_of i s));
        intro; lia || now intros [= <-].
    + destruct (f_type f) as [|p]; [lia|]. destruct p as [[p|p|]|[p|p|]|]; try lia; reflexivity.
Qed.
