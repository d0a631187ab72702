(** Proofs about the dependencies between HTTP/2 streams (model: H2Prio.v). *)
From Verif Require Import Base H2Prio.
From Coq Require Import Lia ZifyBool ZifyNat ZifyN.
Local Open Scope N_scope.

(** ** Specification *)
(** The streams that are there after a history, the root stream included, and the largest id so far. *)
Record view := mkView { v_open : list N; v_top : N }.
Definition opens (x : N) (v : view) : Prop := ~ In x (v_open v) /\ v_top v < x /\ N.odd x = true.
Inductive moves : view -> ev -> view -> Prop :=
| mv_open v e x : (exists p d b, e = Prio x p d b) \/ e = Other x -> opens x v -> moves v e (mkView (x :: v_open v) x)
| mv_same v e x : (exists p d b, e = Prio x p d b) \/ e = Other x -> ~ opens x v -> moves v e v
| mv_close v x : x <> 0 -> moves v (Close x) (mkView (filter (fun y => negb (y =? x)) (v_open v)) (v_top v))
| mv_root v : moves v (Close 0) v.
Inductive history : list ev -> view -> Prop :=
| hi_nil : history [] (mkView [0] 0)
| hi_snoc es v e v' : history es v -> moves v e v' -> history (es ++ [e]) v'.
(** Every dependency is a stream that is there when the frame arrives (or the frame's own). *)
Definition known (es : list ev) : Prop := forall a x p d b t v, es = a ++ Prio x p d b :: t -> history (a ++ [Prio x p d b]) v -> In x (v_open v) -> In d (v_open v).
(** The streams PRIORITY frames speak of. *)
Definition named (es : list ev) (x : N) : Prop := exists y p d b, In (Prio y p d b) es /\ (x = y \/ x = d).
Definition closes_others (es : list ev) : Prop := forall x, In (Close x) es -> ~ named es x.

(** ** Memory *)
Lemma set_same m x v : set m x v x = Some v. Proof. unfold set. now rewrite N.eqb_refl. Qed.
Lemma set_other m x v y : y <> x -> set m x v y = m y. Proof. unfold set. intros H. destruct (N.eqb_spec y x); congruence. Qed.
Definition live (m : mem) (x : N) : Prop := exists v, m x = Some v.
Lemma set_live m x v y : live m x -> (live (set m x v) y <-> live m y).
Proof. intros (u & L). unfold live. destruct (N.eq_dec y x) as [->|H]; [rewrite set_same|rewrite set_other by exact H]; split; eauto. Qed.

(** [P]: the streams PRIORITY frames may speak of.  Every pointer leads to a stream that is there: its own or one of those. *)
Definition sound_node (P : N -> Prop) (m : mem) (x : N) (v : node) : Prop := (d_deps v = x \/ P (d_deps v) /\ live m (d_deps v)) /\ (d_next v = x \/ P (d_next v) /\ live m (d_next v)).
Definition sound (P : N -> Prop) (m : mem) : Prop := forall x v, m x = Some v -> sound_node P m x v.
Definition good (P : N -> Prop) (m : mem) (r : outcome mem) : Prop := match r with Ok m' => sound P m' /\ (forall y, live m' y <-> live m y) | UB u => u = Diverges end.

Lemma sound_live P m x v y : sound P m -> m x = Some v -> (y = d_deps v \/ y = d_next v) -> live m y.
Proof. intros S E [->| ->]; destruct (S x v E) as (A & B); [destruct A as [->|(_ & A)]|destruct B as [->|(_ & B)]]; try assumption; eexists; exact E. Qed.
Lemma live_deref m x : live m x -> exists v, m x = Some v /\ deref m x = Ok v.
Proof. intros (v & E). exists v. unfold deref. now rewrite E. Qed.
Lemma sound_set P m x v : live m x -> sound P m -> (d_deps v = x \/ P (d_deps v) /\ live m (d_deps v)) -> (d_next v = x \/ P (d_next v) /\ live m (d_next v)) ->
  good P m (Ok (set m x v)).
Proof.
  intros L S A B. split; [|intros y; exact (set_live m x v y L)]. intros y u E. unfold sound_node. pose proof (fun z => set_live m x v z L) as LV.
  destruct (N.eq_dec y x) as [->|H].
  - rewrite set_same in E. injection E as <-. rewrite !LV. tauto.
  - rewrite set_other in E by exact H. rewrite !LV. exact (S y u E).
Qed.
(** A value for a pointer: one's own id, one of the named streams, or what another named stream points to. *)
Lemma put_next_good P m x y : live m x -> sound P m -> y = x \/ P y /\ live m y -> good P m (put_next m x y).
Proof. intros L S H. destruct (live_deref m x L) as (v & E & D). unfold put_next. rewrite D. cbn [obind]. apply sound_set; cbn; try assumption. exact (proj1 (S x v E)). Qed.
Lemma put_deps_good P m x y : live m x -> sound P m -> y = x \/ P y /\ live m y -> good P m (put_deps m x y).
Proof. intros L S H. destruct (live_deref m x L) as (v & E & D). unfold put_deps. rewrite D. cbn [obind]. apply sound_set; cbn; try assumption. exact (proj2 (S x v E)). Qed.
Lemma put_count_good P m x k : live m x -> sound P m -> good P m (put_count m x k).
Proof. intros L S. destruct (live_deref m x L) as (v & E & D). unfold put_count. rewrite D. cbn [obind]. destruct (S x v E). apply sound_set; assumption. Qed.
Lemma put_weight_good P m x k : live m x -> sound P m -> good P m (put_weight m x k).
Proof. intros L S. destruct (live_deref m x L) as (v & E & D). unfold put_weight. rewrite D. cbn [obind]. destruct (S x v E). apply sound_set; assumption. Qed.
Lemma inc_count_good P m x : live m x -> sound P m -> good P m (inc_count m x).
Proof. intros L S. destruct (live_deref m x L) as (v & E & D). unfold inc_count. rewrite D. cbn [obind]. now apply put_count_good. Qed.
Lemma good_bind P m r f : good P m r -> (forall m', sound P m' -> (forall y, live m' y <-> live m y) -> good P m (f m')) -> good P m (obind r f).
Proof. destruct r as [m'|u]; cbn; [intros (S & L) H; now apply H|auto]. Qed.
Lemma good_trans P m m' r : (forall y, live m' y <-> live m y) -> good P m' r -> good P m r.
Proof. destruct r as [m2|u]; cbn; [|auto]. intros E (S & L). split; [exact S|]. intros y. rewrite L. apply E. Qed.

Lemma add_loop_good P fuel : forall m dist src n, sound P m -> live m dist -> live m src -> live m n -> P dist -> P src -> P n -> good P m (add_loop fuel m dist src n).
Proof.
  induction fuel as [|fuel IH]; intros m dist src n S LD LS LN PD PS PN; [reflexivity|]. cbn [add_loop].
  destruct (live_deref m n LN) as (vn & En & Dn). destruct (live_deref m dist LD) as (vd & Ed & Dd). rewrite Dn, Dd. cbn [obind].
  assert (PX : P (d_next vn)) by (destruct (S n vn En) as (_ & [->|(X & _)]); assumption).
  assert (LX : live m (d_next vn)) by (exact (sound_live P m n vn _ S En (or_intror eq_refl))).
  destruct (N.eqb_spec (d_next vn) (d_deps vd)) as [Q|Q].
  - apply good_bind; [apply put_next_good; auto|]. intros m' S' L'.
    destruct (live_deref m' dist) as (vd' & Ed' & Dd'); [now apply L'|]. rewrite Dd'. cbn [obind]. apply (good_trans P m m'); [exact L'|].
    assert (PX' : P (d_deps vd')) by (destruct (S' dist vd' Ed') as ([->|(X & _)] & _); assumption).
    assert (LX' : live m' (d_deps vd')) by (exact (sound_live P m' dist vd' _ S' Ed' (or_introl eq_refl))).
    apply good_bind; [apply put_next_good; [now apply L'|exact S'|auto]|]. intros m2 S2 L2. apply (good_trans P m' m2); [exact L2|]. apply inc_count_good; [apply L2, L'; exact LS|exact S2].
  - destruct (live_deref m src LS) as (vs & Es & Ds). rewrite Ds. cbn [obind]. destruct (d_weight vn <? d_weight vs).
    + destruct (live_deref m _ LX) as (vx & Ex & Dx). rewrite Dx. cbn [obind].
      apply good_bind; [apply put_next_good; auto|]. intros m' S' L'. apply (good_trans P m m'); [exact L'|].
      apply good_bind.
      * destruct (n =? d_deps vd); [apply put_deps_good|apply put_next_good]; try (now apply L'); try exact S'; right; (split; [exact PS|now apply L']).
      * intros m2 S2 L2. apply (good_trans P m' m2); [exact L2|]. apply inc_count_good; [apply L2, L'; exact LS|exact S2].
    + apply IH; assumption.
Qed.
Lemma deps_add_good P fuel m dist src : sound P m -> live m dist -> live m src -> P dist -> P src -> good P m (deps_add fuel m dist src).
Proof.
  intros S LD LS PD PS. unfold deps_add. destruct (live_deref m dist LD) as (vd & E & D). rewrite D. cbn [obind].
  apply add_loop_good; try assumption; [exact (sound_live P m dist vd _ S E (or_introl eq_refl))|]. destruct (S dist vd E) as ([->|(X & _)] & _); assumption.
Qed.
Lemma rebalance_good P fuel m s dep excl : sound P m -> live m s -> live m dep -> P s -> P dep -> good P m (rebalance fuel m s dep excl).
Proof.
  intros S LS LD PS PD. unfold rebalance. destruct LD as (vp & E). assert (LD : live m dep) by (eexists; exact E). rewrite E. destruct excl.
  - apply good_bind; [destruct (Nat.eqb _ 0); [split; [exact S|tauto]|now apply deps_add_good]|]. intros m1 S1 L1. apply (good_trans P m m1); [exact L1|].
    apply good_bind; [apply put_deps_good; [now apply L1|exact S1|right; split; [exact PS|now apply L1]]|]. intros m2 S2 L2. apply (good_trans P m1 m2); [exact L2|].
    apply put_count_good; [apply L2, L1; exact LD|exact S2].
  - destruct (Nat.eqb _ 0); [|now apply deps_add_good].
    apply good_bind; [apply put_deps_good; [exact LD|exact S|auto]|]. intros m1 S1 L1. apply (good_trans P m m1); [exact L1|].
    destruct (live_deref m1 dep) as (v1 & E1 & D1); [now apply L1|]. rewrite D1. cbn [obind].
    apply good_bind.
    + apply put_next_good; [now apply L1|exact S1|]. right. split; [destruct (S1 dep v1 E1) as ([->|(X & _)] & _); assumption|]. exact (sound_live P m1 dep v1 _ S1 E1 (or_introl eq_refl)).
    + intros m2 S2 L2. apply (good_trans P m1 m2); [exact L2|]. apply put_count_good; [apply L2, L1; exact LD|exact S2].
Qed.

(** ** Histories *)
Definition agrees (s : st) (v : view) : Prop := (forall x, live (s_mem s) x <-> In x (v_open v)) /\ s_max s = v_top v /\ In 0 (v_open v).
Lemma even_odd x : N.even x = negb (N.odd x). Proof. unfold N.odd. now rewrite negb_involutive. Qed.
Lemma stream_for_spec P x s v : agrees s v -> sound P (s_mem s) -> (P 0) ->
  match stream_for x s with
  | None => ~ opens x v /\ ~ In x (v_open v)
  | Some s' => sound P (s_mem s') /\ live (s_mem s') x /\ (opens x v /\ agrees s' (mkView (x :: v_open v) x) \/ ~ opens x v /\ s' = s)
  end.
Proof.
  intros (A & M & Z) S P0. unfold stream_for, opens. destruct (s_mem s x) as [u|] eqn:E.
  - assert (L : live (s_mem s) x) by (eexists; exact E). split; [exact S|]. split; [exact L|]. right. split; [|reflexivity]. rewrite A in L. tauto.
  - assert (NI : ~ In x (v_open v)) by (intros I; apply A in I as (w & I); congruence). rewrite even_odd.
    destruct (_ || _)%bool eqn:B.
    + split; [|exact NI]. intros (_ & T & O). rewrite O in B. cbn [negb] in B. rewrite orb_false_r in B. lia.
    + apply orb_false_elim in B as (B1 & B2). apply negb_false_iff in B2. cbn [s_mem].
      split; [|split; [eexists; apply set_same|]].
      * intros y w F. destruct (N.eq_dec y x) as [->|H]; [rewrite set_same in F; injection F as <-; split; left; reflexivity|].
        rewrite set_other in F by exact H. assert (LL : forall z, live (s_mem s) z -> live (set (s_mem s) x (fresh_node x)) z).
        { intros z (q & Q). destruct (N.eq_dec z x) as [->|H2]; [eexists; apply set_same|]. exists q. now rewrite set_other. }
        destruct (S y w F) as ([X|(X & X')] & [Y|(Y & Y')]); split; auto.
      * left. split; [split; [exact NI|]; split; [lia|exact B2]|]. split; [|split; [reflexivity|right; exact Z]]. cbn [v_open In s_mem]. intros z. destruct (N.eq_dec z x) as [->|H].
        -- split; [now left|]. intros _. eexists. apply set_same.
        -- unfold live. rewrite set_other by exact H. split; [intros L; right; now apply A|intros [L|L]; [congruence|now apply A]].
Qed.

Lemma history_snoc es e v' : history (es ++ [e]) v' -> exists v, history es v /\ moves v e v'.
Proof. intros H. inversion H as [Q|es1 v e1 v1 H1 H2 Q]; [destruct es; discriminate|]. apply app_inj_tail in Q as (-> & ->). eauto. Qed.
Lemma moves_prio v x p d b v' : moves v (Prio x p d b) v' -> (opens x v /\ v' = mkView (x :: v_open v) x) \/ (~ opens x v /\ v' = v).
Proof. intros H. inversion H as [v0 e y Q O|v0 e y Q O| |]; subst; (destruct Q as [(? & ? & ? & Q)|Q]; [injection Q as -> -> -> ->|discriminate]); auto. Qed.
Lemma moves_other v x v' : moves v (Other x) v' -> (opens x v /\ v' = mkView (x :: v_open v) x) \/ (~ opens x v /\ v' = v).
Proof. intros H. inversion H as [v0 e y Q O|v0 e y Q O| |]; subst; (destruct Q as [(? & ? & ? & Q)|Q]; [discriminate|injection Q as ->]); auto. Qed.

Lemma run_app fuel es : forall s e, run fuel s (es ++ [e]) = obind (run fuel s es) (fun s => step fuel s e).
Proof. induction es as [|x es IH]; intros s e; cbn [run app obind]; [destruct (step fuel s e); reflexivity|]. destruct (step fuel s x); cbn [obind]; [apply IH|reflexivity]. Qed.
Definition opens_dec x v : {opens x v} + {~ opens x v}.
Proof.
  unfold opens. destruct (in_dec N.eq_dec x (v_open v)); [right; tauto|]. destruct (v_top v <? x) eqn:T; [|right; lia]. destruct (N.odd x) eqn:O; [left|right; intros (_ & _ & X); discriminate].
  split; [assumption|]. split; [lia|reflexivity].
Qed.

(** No history of known dependencies that closes no named stream touches freed memory. *)
Lemma safe (P : N -> Prop) fuel : forall es v, P 0 -> (forall x, named es x -> P x) -> (forall x, In (Close x) es -> ~ P x) -> known es -> history es v ->
  match run fuel start es with Ok s => agrees s v /\ sound P (s_mem s) | UB u => u = Diverges end.
Proof.
  intros es v P0. revert v. induction es as [|e es IH] using rev_ind; intros v PN PC K H.
  - inversion H as [Q|? ? ? ? ? ? Q]; [|destruct es; discriminate]. cbn [run]. split.
    + split; [|split; [reflexivity|left; reflexivity]]. intros x. cbn [start s_mem v_open In]. unfold live. destruct (N.eq_dec x 0) as [->|N]; [rewrite set_same|rewrite set_other by exact N]; split; eauto.
      * intros (u & U). discriminate.
      * intros [E|[]]. congruence.
    + intros x u E. cbn [start s_mem] in E. destruct (N.eq_dec x 0) as [->|N]; [rewrite set_same in E; injection E as <-; split; left; reflexivity|]. rewrite set_other in E by exact N. discriminate.
  - apply history_snoc in H as (v0 & H0 & MV). rewrite run_app.
    assert (KE : known es). { intros a x p d b t w Q HW. apply (K a x p d b (t ++ [e]) w); [rewrite Q, <- app_assoc; reflexivity|exact HW]. }
    specialize (IH v0 (fun x Hx => PN x ltac:(destruct Hx as (y & p & d & b & I & O); exists y, p, d, b; split; [apply in_or_app; now left|exact O]))
                     (fun x Hx => PC x ltac:(apply in_or_app; now left)) KE H0).
    destruct (run fuel start es) as [s|u]; cbn [obind]; [|exact IH]. destruct IH as (AG & S). destruct e as [x p d b|x|x]; cbn [step].
    + pose proof (stream_for_spec P x s v0 AG S P0) as SF. pose proof (moves_prio _ _ _ _ _ _ MV) as MP.
      destruct (stream_for x s) as [s1|].
      * destruct SF as (S1 & L1 & SF).
        assert (AG1 : agrees s1 v) by (destruct SF as [(O & A)|(O & ->)], MP as [(O' & ->)|(O' & ->)]; try contradiction; assumption).
        assert (DV : In d (v_open v)).
        { apply (K es x p d b [] v); [reflexivity|eapply hi_snoc; eassumption|]. now apply (proj1 AG1). }
        assert (PX : P x /\ P d). { split; apply PN; exists x, p, d, b; (split; [apply in_or_app; right; now left|tauto]). }
        assert (G : good P (s_mem s1) (obind (put_weight (s_mem s1) x (weight_of b)) (fun m => rebalance fuel m x d p))).
        { apply good_bind; [now apply put_weight_good|]. intros m' S' L'. apply (good_trans P _ m'); [exact L'|]. destruct PX. apply rebalance_good; try assumption; apply L'; [exact L1|]. now apply (proj1 AG1). }
        destruct (put_weight (s_mem s1) x (weight_of b)) as [m1|u]; cbn [obind] in *; [|exact G].
        destruct (rebalance fuel m1 x d p) as [m2|u]; cbn [obind] in *; [|exact G]. destruct G as (G1 & G2). split; [|exact G1].
        destruct AG1 as (A1 & A2 & A3). split; [|split; assumption]. cbn [s_mem]. intros y. rewrite G2. apply A1.
      * destruct SF as (NO & _). destruct MP as [(O & _)|(_ & ->)]; [contradiction|]. split; assumption.
    + pose proof (stream_for_spec P x s v0 AG S P0) as SF. pose proof (moves_other _ _ _ MV) as MP.
      destruct (stream_for x s) as [s1|].
      * destruct SF as (S1 & L1 & SF). split; [|exact S1]. destruct SF as [(O & A)|(O & ->)], MP as [(O' & ->)|(O' & ->)]; try contradiction; assumption.
      * destruct SF as (NO & _). destruct MP as [(O & _)|(_ & ->)]; [contradiction|]. split; assumption.
    + assert (NP : ~ P x) by (apply PC, in_or_app; right; now left). destruct (N.eqb_spec x 0) as [->|N]; [contradiction|].
      assert (EV : v = mkView (filter (fun y => negb (y =? x)) (v_open v0)) (v_top v0)).
      { inversion MV as [? ? ? [(? & ? & ? & Q)|Q]|? ? ? [(? & ? & ? & Q)|Q]| |]; subst; try discriminate; [reflexivity|congruence]. }
      destruct AG as (A1 & A2 & A3). assert (LD : forall y, live (del (s_mem s) x) y <-> live (s_mem s) y /\ y <> x).
      { intros y. unfold live, del. destruct (N.eqb_spec y x) as [->|Q]; [split; [intros (u & U); discriminate|tauto]|tauto]. }
      split.
      * rewrite EV. split; [|split; [exact A2|]]; cbn [s_mem v_open]; [intros y; rewrite filter_In, LD, A1|apply filter_In; split; [exact A3|]]; destruct (N.eqb_spec y x) || destruct (N.eqb_spec 0 x); cbn; try tauto; try congruence; intuition congruence.
      * cbn [s_mem]. intros y u E. assert (NX : y <> x) by (unfold del in E; destruct (N.eqb_spec y x); congruence).
        assert (E' : s_mem s y = Some u) by (unfold del in E; destruct (N.eqb_spec y x); congruence).
        destruct (S y u E') as ([X|(X & X')] & [Y|(Y & Y')]); split; try (left; assumption); right; (split; [assumption|]); apply LD; (split; [assumption|]); intros Q; rewrite Q in *; contradiction.
Qed.

(** ** Streams that depend on the root stream *)
(** The frames: stream and weight byte. *)
Definition to_root (e : N * N) : ev := Prio (fst e) false 0 (snd e).
(** Ids as a client uses them; nobody is heavier than an earlier one, except the one just before. *)
Fixpoint ids_from (k : N) (l : list (N * N)) : Prop := match l with [] => True | (x, _) :: t => k < x /\ N.odd x = true /\ ids_from x t end.
Definition calm (l : list (N * N)) : Prop := forall a y b z c, l = a ++ y :: b ++ z :: c -> b <> [] -> weight_of (snd z) <= weight_of (snd y).
(** What following the pointers finds: these streams, then the first again. *)
Fixpoint follows (m : mem) (first : N) (l : list N) : Prop :=
  match l with
  | [] => True
  | x :: t => (exists v, m x = Some v /\ d_next v = match t with y :: _ => y | [] => first end) /\ follows m first t
  end.
Definition children (m : mem) (l : list N) : Prop := exists v, m 0 = Some v /\ match l with [] => d_count v = 0%nat | x :: _ => d_deps v = x /\ d_count v <> 0%nat end /\ follows m (d_deps v) l.

Definition wt (m : mem) (x w : N) : Prop := exists v, m x = Some v /\ d_weight v = w.
Lemma follows_ext m m' first l : (forall x, In x l -> m' x = m x) -> follows m first l -> follows m' first l.
Proof.
  induction l as [|x t IH]; intros E; [auto|]. cbn [follows]. intros ((v & A & B) & C). split; [exists v; rewrite E by (now left); auto|]. apply IH; [|exact C]. intros y I. apply E. now right.
Qed.
(** The whole of the way to the end of the list. *)
Lemma append src first w : forall l n m fuel, (length l < fuel)%nat -> follows m first (n :: l) -> (forall v, m 0 = Some v -> d_deps v = first) -> live m 0 ->
  ~ In src (n :: l) -> ~ In 0 (n :: l) -> src <> 0 -> NoDup (n :: l) -> ~ In first l -> wt m src w -> (forall a z, n :: l = a ++ [z] -> Forall (fun y => exists w', wt m y w' /\ w <= w') a) ->
  exists m' vs, add_loop fuel m 0 src n = Ok m' /\ follows m' first (n :: l ++ [src]) /\ m' src = Some vs /\ d_weight vs = w /\ m' 0 = m 0 /\
    (forall y, y <> src -> ~ In y (n :: l) -> m' y = m y) /\ (forall y u, wt m y u -> wt m' y u).
Proof.
  induction l as [|y l IH]; intros n m [|fuel] F FO R L0 NS N0 S0 ND NF (vs & Es & Ws) W; try (cbn in F; lia).
  - destruct FO as ((v & En & Nx) & _). destruct L0 as (v0 & E0). pose proof (R v0 E0) as D0.
    assert (SN : src <> n) by (intros ->; apply NS; now left). assert (ZN : 0 <> n) by (intros <-; apply N0; now left).
    cbn [add_loop]. unfold deref at 1 2. rewrite En, E0. cbn [obind]. rewrite Nx, D0, N.eqb_refl.
    unfold put_next at 1, deref at 1. rewrite En. cbn [obind]. unfold deref at 1. rewrite set_other by exact ZN. rewrite E0. cbn [obind]. rewrite D0.
    unfold put_next, deref at 1. rewrite set_other by exact SN. rewrite Es. cbn [obind]. unfold inc_count, deref at 1. rewrite set_same. cbn [obind].
    unfold put_count, deref. rewrite set_same. cbn [obind d_weight d_count d_deps d_next].
    eexists. eexists. split; [reflexivity|]. cbn [app follows]. rewrite !set_same.
    split; [|split; [reflexivity|split; [exact Ws|]]].
    + split; [|split; [|exact Logic.I]]; eexists; (split; [first [reflexivity|rewrite 2 set_other by congruence; rewrite set_same; reflexivity]|reflexivity]).
    + split; [rewrite !set_other by congruence; first [exact E0|reflexivity]|]. split.
      * intros z Z1 Z2. assert (z <> n) by (intros ->; apply Z2; now left). rewrite !set_other by assumption. reflexivity.
      * intros z u (q & Q & U). unfold wt. destruct (N.eq_dec z src) as [->|Z1]; [rewrite set_same; eexists; split; [reflexivity|]; cbn; congruence|]. rewrite 2 set_other by exact Z1.
        destruct (N.eq_dec z n) as [->|Z2]; [rewrite set_same; eexists; split; [reflexivity|]; cbn; congruence|]. rewrite set_other by exact Z2. eauto.
  - destruct FO as ((v & En & Nx) & FO). pose proof L0 as (v0 & E0). pose proof (R v0 E0) as D0.
    assert (ZN : 0 <> n) by (intros <-; apply N0; now left).
    cbn [add_loop]. unfold deref at 1 2. rewrite En, E0. cbn [obind]. rewrite Nx, D0. destruct (N.eqb_spec y first) as [Q|Q]; [exfalso; apply NF; now left|].
    unfold deref at 1. rewrite Es. cbn [obind].
    assert (WN : w <= d_weight v).
    { destruct (exists_last (l := y :: l) ltac:(discriminate)) as (a & z & AZ). specialize (W (n :: a) z ltac:(now rewrite AZ)). inversion W as [|? ? (w' & (q & Q1 & Q2) & LE) _]; subst. rewrite En in Q1. injection Q1 as <-. exact LE. }
    replace (d_weight v <? d_weight vs) with false by lia.
    destruct (IH y m fuel) as (m' & vs' & A & B & C & D & E & G & H); try assumption.
    + cbn in F |- *. lia.
    + intros I. apply NS. now right.
    + intros I. apply N0. now right.
    + now inversion ND.
    + intros I. apply NF. now right.
    + exists vs. auto.
    + intros a z AZ. specialize (W (n :: a) z ltac:(now rewrite AZ)). now inversion W.
    + exists m', vs'. split; [exact A|]. split; [|split; [exact C|]; split; [exact D|]; split; [congruence|]; split; [|exact H]].
      * cbn [app follows] in *. split; [|exact B]. exists v. split; [|exact Nx]. rewrite G; [exact En| |]; [intros ->; apply NS; now left|]. inversion ND; assumption.
      * intros z Z1 Z2. apply G; [exact Z1|]. intros I. apply Z2. now right.
Qed.

Lemma ids_gt k l : ids_from k l -> Forall (fun e => k < fst e) l.
Proof. revert k. induction l as [|(x & b) t IH]; intros k; [constructor|]. intros (A & _ & B). constructor; [exact A|]. eapply Forall_impl; [|exact (IH x B)]. cbn. intros e Q. lia. Qed.
Lemma ids_snoc k l x b : ids_from k (l ++ [(x, b)]) -> ids_from k l /\ N.odd x = true /\ k < x /\ Forall (fun e => fst e < x) l.
Proof.
  revert k. induction l as [|(y & c) t IH]; intros k; cbn [app ids_from]; [intros (A & B & _); auto|]. intros (A & B & C). destruct (IH y C) as (D & E & F & G).
  split; [auto|]. split; [exact E|]. split; [lia|]. constructor; [exact F|exact G].
Qed.
Definition top (l : list (N * N)) : N := last (map fst l) 0.
Lemma top_snoc l e : top (l ++ [e]) = fst e. Proof. unfold top. rewrite map_app. apply last_last. Qed.
Lemma top_in l : top l = 0 \/ In (top l) (map fst l).
Proof. induction l as [|e l _] using rev_ind; [now left|]. right. rewrite top_snoc, map_app. apply in_or_app. right. now left. Qed.

Lemma siblings fuel : forall l, (length l <= fuel)%nat -> ids_from 0 l -> calm l ->
  exists s, run fuel start (map to_root l) = Ok s /\ children (s_mem s) (map fst l) /\ s_max s = top l /\ Forall (fun e => wt (s_mem s) (fst e) (weight_of (snd e))) l /\
    (forall x, live (s_mem s) x <-> x = 0 \/ In x (map fst l)) /\ NoDup (map fst l).
Proof.
  induction l as [|(x & b) l IH] using rev_ind; intros F ID C.
  - exists start. split; [reflexivity|]. split; [exists (fresh_node 0); split; [reflexivity|]; split; [reflexivity|exact Logic.I]|]. split; [reflexivity|]. split; [constructor|]. split; [|constructor].
    intros x. cbn [start s_mem map In]. unfold live. destruct (N.eq_dec x 0) as [->|H]; [rewrite set_same|rewrite set_other by exact H]; split; eauto; try tauto. intros (u & U). discriminate.
  - apply ids_snoc in ID as (ID & OX & PX & LT). destruct IH as (s & R & CH & MX & WT & LV & ND); [rewrite app_length in F; cbn in F; lia|exact ID| |].
    { intros a y c z d E. apply (C a y c z (d ++ [(x, b)])). rewrite E. rewrite <- !app_assoc. cbn. rewrite <- !app_assoc. reflexivity. }
    rewrite map_app. cbn [map]. unfold to_root at 2. cbn [fst snd]. rewrite run_app, R. cbn [obind step].
    assert (NI : ~ In x (map fst l)). { intros I. apply in_map_iff in I as (e & E & I). rewrite Forall_forall in LT. specialize (LT e I). lia. }
    assert (X0 : x <> 0) by lia.
    assert (SX : s_mem s x = None). { destruct (s_mem s x) eqn:E; [|reflexivity]. exfalso. assert (L : live (s_mem s) x) by (eexists; exact E). apply LV in L as [L|L]; [congruence|contradiction]. }
    unfold stream_for. rewrite SX. replace ((x <=? s_max s) || N.even x)%bool with false.
    2:{ rewrite even_odd, OX. cbn [negb]. rewrite orb_false_r. destruct (top_in l) as [E|I]; [lia|]. rewrite <- MX in I. apply in_map_iff in I as (e & E & I). rewrite Forall_forall in LT. specialize (LT e I). lia. }
    cbn [s_mem s_max]. unfold put_weight, deref at 1. rewrite set_same. cbn [obind fresh_node d_count d_deps d_next].
    set (m := set (set (s_mem s) x (fresh_node x)) x (mkNode (weight_of b) 0 x x)).
    assert (MX' : m x = Some (mkNode (weight_of b) 0 x x)) by (apply set_same). assert (MO : forall y, y <> x -> m y = s_mem s y) by (intros y Y; unfold m; rewrite !set_other by exact Y; reflexivity).
    destruct CH as (v0 & E0 & H0 & FO). assert (M0 : m 0 = Some v0) by (rewrite MO by congruence; exact E0).
    unfold rebalance. rewrite M0. destruct l as [|(y & c) l].
    + cbn [map] in *. rewrite H0. cbn [Nat.eqb]. unfold put_deps, deref at 1. rewrite M0. cbn [obind]. unfold deref at 1. rewrite set_same. cbn [obind d_deps].
      unfold put_next, deref at 1. rewrite set_other by exact X0. rewrite MX'. cbn [obind d_weight d_count d_deps]. unfold put_count, deref. rewrite set_other by congruence. rewrite set_same. cbn [obind d_weight d_deps d_next].
      set (m1 := set _ _ _). assert (Q0 : m1 0 = Some (mkNode (d_weight v0) 1 x (d_next v0))) by apply set_same. assert (QX : m1 x = Some (mkNode (weight_of b) 0 x x)) by (unfold m1; rewrite set_other by exact X0; apply set_same).
      exists (mkSt m1 x). split; [reflexivity|]. cbn [s_mem s_max app map fst snd]. split; [|split; [reflexivity|split; [|split]]].
      * eexists. split; [exact Q0|]. cbn [d_deps d_count]. split; [split; [reflexivity|discriminate]|]. cbn [follows]. split; [|exact Logic.I]. eexists. split; [exact QX|reflexivity].
      * constructor; [|constructor]. eexists. split; [exact QX|reflexivity].
      * intros z. cbn [In]. destruct (N.eq_dec z x) as [->|Z]; [split; [auto|]; intros _; eexists; exact QX|]. destruct (N.eq_dec z 0) as [->|Z0]; [split; [auto|]; intros _; eexists; exact Q0|].
        unfold live, m1. rewrite 2 set_other by assumption. rewrite set_other by exact Z0. rewrite MO by exact Z. split; [intros L; apply LV in L as [L|[]]; congruence|intuition congruence].
      * constructor; [intros []|constructor].
    + cbn [map fst] in H0, FO, NI, ND. destruct H0 as (D0 & K0). replace (Nat.eqb (d_count v0) 0) with false by (symmetry; now apply Nat.eqb_neq).
      unfold deps_add, deref. rewrite M0. cbn [obind]. rewrite D0 in FO |- *.
      assert (N0 : ~ In 0 (y :: map fst l)). { intros I. pose proof (ids_gt 0 _ ID) as G. rewrite Forall_forall in G. change (y :: map fst l) with (map fst ((y, c) :: l)) in I. apply in_map_iff in I as (e & E & I). specialize (G e I). lia. }
      destruct (append x y (weight_of b) (map fst l) y m fuel) as (m' & vs & A & B & C1 & D & E & G & H); try assumption.
      * rewrite app_length in F. cbn [length] in F. rewrite map_length. lia.
      * eapply follows_ext; [|exact FO]. intros z I. apply MO. intros ->. contradiction.
      * intros v V. rewrite M0 in V. injection V as <-. exact D0.
      * eexists. exact M0.
      * now inversion ND.
      * eexists. split; [exact MX'|reflexivity].
      * intros a z AZ. apply Forall_forall. intros u U. change (y :: map fst l) with (map fst ((y, c) :: l)) in AZ.
        destruct (in_split u a U) as (a1 & a2 & ->). rewrite <- app_assoc in AZ. cbn [app] in AZ.
        apply map_eq_app in AZ as (l1 & l2 & E1 & E2 & E3). apply map_eq_cons in E3 as (e & l3 & E4 & E5 & E6).
        assert (N3 : l3 <> []) by (intros ->; symmetry in E6; destruct a2; discriminate).
        exists (weight_of (snd e)). split.
        -- rewrite Forall_forall in WT. specialize (WT e ltac:(rewrite E1, E4; apply in_or_app; right; now left)). rewrite E5 in WT. destruct WT as (q & Q1 & Q2). exists q. split; [|exact Q2]. rewrite MO; [exact Q1|]. intros ->. congruence.
        -- apply (C l1 e l3 (x, b) []); [|exact N3]. rewrite E1, E4, <- app_assoc. reflexivity.
      * rewrite A. cbn [obind]. exists (mkSt m' x). split; [reflexivity|]. cbn [s_mem s_max app map fst snd]. rewrite map_app. cbn [map fst].
        split; [|split; [|split; [|split]]].
        -- exists v0. split; [rewrite E; exact M0|]. split; [split; assumption|]. rewrite D0. exact B.
        -- change ((y, c) :: l ++ [(x, b)]) with (((y, c) :: l) ++ [(x, b)]). now rewrite top_snoc.
        -- change ((y, c) :: l ++ [(x, b)]) with (((y, c) :: l) ++ [(x, b)]). apply Forall_app. split.
           ++ rewrite Forall_forall in WT |- *. intros e I. apply H. destruct (WT e I) as (q & Q1 & Q2). exists q. split; [|exact Q2]. rewrite MO; [exact Q1|]. intros EX. rewrite Forall_forall in LT. specialize (LT e I). cbv beta in LT. lia.
           ++ constructor; [|constructor]. eexists. split; [exact C1|exact D].
        -- intros z. change (y :: map fst l ++ [x]) with ((y :: map fst l) ++ [x]). rewrite in_app_iff. cbn [map fst] in LV. destruct (N.eq_dec z x) as [->|Z]; [split; [intros _; right; right; now left|]; intros _; eexists; exact C1|].
           assert (KL : live m' z <-> live m z).
           { destruct (in_dec N.eq_dec z (y :: map fst l)) as [I|I]; [|unfold live; rewrite (G z Z I); tauto].
             assert (LZ : live m z) by (unfold live; rewrite MO by exact Z; apply LV; now right). split; [intros _; exact LZ|]. intros (q & Q). destruct (H z (d_weight q)) as (q' & Q' & _); [exists q; auto|]. eexists. exact Q'. }
           rewrite KL. unfold live. rewrite MO by exact Z. fold (live (s_mem s) z). rewrite LV. cbn [In]. intuition congruence.
        -- change (y :: map fst l ++ [x]) with ((y :: map fst l) ++ [x]). clear - ND NI. assert (X : forall q : list N, NoDup q -> ~ In x q -> NoDup (q ++ [x])).
           { induction q as [|h q IQ]; intros K J; [constructor; [intros []|constructor]|]. inversion K as [|? ? K1 K2]; subst. cbn [app]. constructor; [|apply IQ; [exact K2|intros I; apply J; now right]].
             rewrite in_app_iff. intros [I|[I|[]]]; [contradiction|]. apply J. left. congruence. }
           apply X; assumption.
Qed.

(** ** What goes wrong *)
Lemma moves_total v e : exists v', moves v e v'.
Proof.
  destruct e as [x p d b|x|x].
  - destruct (opens_dec x v) as [O|O]; eexists; [eapply mv_open|eapply mv_same]; eauto.
  - destruct (opens_dec x v) as [O|O]; eexists; [eapply mv_open|eapply mv_same]; eauto.
  - destruct (N.eq_dec x 0) as [->|H]; eexists; [apply mv_root|now apply mv_close].
Qed.
Lemma history_total es : exists v, history es v.
Proof. induction es as [|e es (v & H)] using rev_ind; [eexists; constructor|]. destruct (moves_total v e) as (v' & M). exists v'. eapply hi_snoc; eassumption. Qed.
Lemma safe_all fuel es u : known es -> (forall x, In (Close x) es -> x <> 0 /\ ~ named es x) -> run fuel start es = UB u -> u = Diverges.
Proof.
  intros K C R. destruct (history_total es) as (v & H). pose proof (safe (fun x => x = 0 \/ named es x) fuel es v (or_introl eq_refl) (fun x h => or_intror h)) as S.
  rewrite R in S. apply S; [|exact K|exact H]. intros x I. destruct (C x I). tauto.
Qed.

Lemma unknown fuel s x p d b : stream_for x s <> None -> s_mem s d = None -> d <> x -> step fuel s (Prio x p d b) = UB NullDeref.
Proof.
  intros SF E N. cbn [step]. destruct (stream_for x s) as [s1|] eqn:Q; [|contradiction].
  assert (X : exists v, s_mem s1 x = Some v /\ s_mem s1 d = None).
  { unfold stream_for in Q. destruct (s_mem s x) as [v|] eqn:V; [injection Q as <-; eauto|]. destruct (_ || _)%bool; [discriminate|]. injection Q as <-. cbn [s_mem]. rewrite set_same, set_other by exact N. eauto. }
  destruct X as (v & V & D). unfold put_weight, deref. rewrite V. cbn [obind]. unfold rebalance. rewrite set_other by exact N. now rewrite D.
Qed.
(** A stream nothing was ever sent on is not there. *)
Definition spoken (es : list ev) (x : N) : Prop := exists e, In e es /\ (e = Other x \/ exists p d b, e = Prio x p d b).
Lemma put_none m x y z m' : z <> x -> (put_next m x y = Ok m' \/ put_deps m x y = Ok m' \/ put_weight m x y = Ok m') -> m' z = m z.
Proof. intros N [H|[H|H]]; unfold put_next, put_deps, put_weight, deref in H; destruct (m x); cbn [obind] in H; try discriminate; injection H as <-; now apply set_other. Qed.
Lemma dom_put m x (f : node -> node) m' z : obind (deref m x) (fun v => Ok (set m x (f v))) = Ok m' -> (m' z = None <-> m z = None).
Proof. unfold deref. destruct (m x) as [v|] eqn:E; cbn [obind]; [|discriminate]. intros H. injection H as <-. destruct (N.eq_dec z x) as [->|N]; [rewrite set_same, E; split; discriminate|]. rewrite set_other by exact N. tauto. Qed.
Definition same_dom (m : mem) (r : outcome mem) : Prop := forall m', r = Ok m' -> forall z, m' z = None <-> m z = None.
Lemma sd_put m x f : same_dom m (obind (deref m x) (fun v => Ok (set m x (f v)))). Proof. intros m' H z. eapply dom_put. exact H. Qed.
Lemma sd_bind m r f : same_dom m r -> (forall m', same_dom m' (f m')) -> same_dom m (obind r f).
Proof. intros A B m2 H z. destruct r as [m'|u]; [|discriminate]. cbn [obind] in H. rewrite (B m' m2 H z). exact (A m' eq_refl z). Qed.
Lemma sd_val {A} m (r : outcome A) f : (forall v, same_dom m (f v)) -> same_dom m (obind r f).
Proof. intros B. destruct r as [v|u]; cbn [obind]; [apply B|]. intros m' H. discriminate. Qed.
Lemma sd_next m x y : same_dom m (put_next m x y). Proof. exact (sd_put m x (fun v => mkNode (d_weight v) (d_count v) (d_deps v) y)). Qed.
Lemma sd_deps m x y : same_dom m (put_deps m x y). Proof. exact (sd_put m x (fun v => mkNode (d_weight v) (d_count v) y (d_next v))). Qed.
Lemma sd_count m x k : same_dom m (put_count m x k). Proof. exact (sd_put m x (fun v => mkNode (d_weight v) k (d_deps v) (d_next v))). Qed.
Lemma sd_weight m x k : same_dom m (put_weight m x k). Proof. exact (sd_put m x (fun v => mkNode k (d_count v) (d_deps v) (d_next v))). Qed.
Lemma sd_inc m x : same_dom m (inc_count m x). Proof. apply sd_val. intros v. apply sd_count. Qed.
Lemma sd_loop fuel : forall m dist src n, same_dom m (add_loop fuel m dist src n).
Proof.
  induction fuel as [|fuel IH]; intros m dist src n; [intros m' H; discriminate|]. cbn [add_loop]. apply sd_val. intros vn. apply sd_val. intros vd. destruct (_ =? _).
  - apply sd_bind; [apply sd_next|]. intros m1. apply sd_val. intros v. apply sd_bind; [apply sd_next|]. intros m2. apply sd_inc.
  - apply sd_val. intros vs. destruct (_ <? _); [|apply IH]. apply sd_val. intros v. apply sd_bind; [apply sd_next|]. intros m1. apply sd_bind; [destruct (_ =? _); [apply sd_deps|apply sd_next]|]. intros m2. apply sd_inc.
Qed.
Lemma sd_rebalance fuel m s d p : same_dom m (rebalance fuel m s d p).
Proof.
  unfold rebalance. destruct (m d) as [vp|]; [|intros m' H; discriminate]. destruct p.
  - apply sd_bind; [destruct (Nat.eqb _ _); [intros m' H; injection H as <-; tauto|]; unfold deps_add; apply sd_val; intros v; apply sd_loop|]. intros m1. apply sd_bind; [apply sd_deps|]. intros m2. apply sd_count.
  - destruct (Nat.eqb _ _); [|unfold deps_add; apply sd_val; intros v; apply sd_loop]. apply sd_bind; [apply sd_deps|]. intros m1. apply sd_val. intros v. apply sd_bind; [apply sd_next|]. intros m2. apply sd_count.
Qed.
Lemma absent fuel x : x <> 0 -> forall es s, run fuel start es = Ok s -> ~ spoken es x -> s_mem s x = None.
Proof.
  intros X0. induction es as [|e es IH] using rev_ind; intros s R NS; [injection R as <-; cbn; now rewrite set_other by exact X0|].
  rewrite run_app in R. destruct (run fuel start es) as [s0|u]; cbn [obind] in R; [|discriminate].
  assert (E0 : s_mem s0 x = None). { apply IH; [reflexivity|]. intros (e' & I & O). apply NS. exists e'. split; [apply in_or_app; now left|exact O]. }
  assert (NE : ~ (e = Other x \/ exists p d b, e = Prio x p d b)). { intros O. apply NS. exists e. split; [apply in_or_app; right; now left|exact O]. }
  assert (SF : forall y s1, y <> x -> stream_for y s0 = Some s1 -> s_mem s1 x = None).
  { intros y s1 N Q. unfold stream_for in Q. destruct (s_mem s0 y); [injection Q as <-; exact E0|]. destruct (_ || _)%bool; [discriminate|]. injection Q as <-. cbn [s_mem]. rewrite set_other by congruence. exact E0. }
  destruct e as [y p d b|y|y]; cbn [step] in R.
  - assert (N : y <> x) by (intros ->; apply NE; eauto). destruct (stream_for y s0) as [s1|] eqn:Q; [|injection R as <-; exact E0]. specialize (SF y s1 N Q).
    destruct (put_weight (s_mem s1) y (weight_of b)) as [m1|u] eqn:W; cbn [obind] in R; [|discriminate]. destruct (rebalance fuel m1 y d p) as [m2|u] eqn:B; cbn [obind] in R; [|discriminate]. injection R as <-. cbn [s_mem].
    apply (sd_rebalance _ _ _ _ _ _ B). now apply (sd_weight _ _ _ _ W).
  - assert (N : y <> x) by (intros ->; apply NE; eauto). injection R as <-. destruct (stream_for y s0) as [s1|] eqn:Q; [exact (SF y s1 N Q)|exact E0].
  - injection R as <-. destruct (y =? 0); [exact E0|]. cbn [s_mem]. unfold del. destruct (x =? y); [reflexivity|exact E0].
Qed.
Lemma unknown_run fuel es s x p d b : run fuel start es = Ok s -> stream_for x s <> None -> d <> 0 -> d <> x -> ~ spoken es d -> run fuel start (es ++ [Prio x p d b]) = UB NullDeref.
Proof. intros R SF D0 DX NS. rewrite run_app, R. cbn [obind]. apply unknown; [exact SF|now apply (absent fuel d D0 es)|exact DX]. Qed.

(** Round and round. *)
Lemma round m d a b c : (exists v, m 0 = Some v /\ d_deps v = c) -> (exists v, m a = Some v /\ d_next v = b) -> (exists v, m b = Some v /\ d_next v = a) -> a <> c -> b <> c ->
  forall wd wa wb, wt m d wd -> wt m a wa -> wt m b wb -> wd <= wa -> wd <= wb -> forall fuel, add_loop fuel m 0 d a = UB Diverges /\ add_loop fuel m 0 d b = UB Diverges.
Proof.
  intros (v0 & E0 & D0) (va & Ea & Na) (vb & Eb & Nb) AC BC wd wa wb (vd & Ed & Wd) (va' & Ea' & Wa) (vb' & Eb' & Wb) LA LB.
  rewrite Ea in Ea'. injection Ea' as <-. rewrite Eb in Eb'. injection Eb' as <-.
  induction fuel as [|fuel (IA & IB)]; [split; reflexivity|]. split; cbn [add_loop]; unfold deref; rewrite E0, Ed, ?Ea, ?Eb; cbn [obind]; rewrite ?Na, ?Nb, D0.
  - destruct (N.eqb_spec b c); [contradiction|]. replace (d_weight va <? d_weight vd) with false by lia. exact IB.
  - destruct (N.eqb_spec a c); [contradiction|]. replace (d_weight vb <? d_weight vd) with false by lia. exact IA.
Qed.
Lemma opened fuel s x b : s_mem s x = None -> s_max s < x -> N.odd x = true ->
  step fuel s (to_root (x, b)) = obind (rebalance fuel (set (set (s_mem s) x (fresh_node x)) x (mkNode (weight_of b) 0 x x)) x 0 false) (fun m => Ok (mkSt m x)).
Proof.
  intros E M O. unfold to_root. cbn [fst snd step]. unfold stream_for. rewrite E, even_odd, O. cbn [negb]. rewrite orb_false_r. replace (x <=? s_max s) with false by lia.
  cbn [s_mem s_max]. unfold put_weight, deref at 1. rewrite set_same. reflexivity.
Qed.
Lemma hangs fuel a b c d wa wb wc wd : (2 <= fuel)%nat -> 0 < a < b -> b < c < d -> N.odd a = true -> N.odd b = true -> N.odd c = true -> N.odd d = true ->
  weight_of wa < weight_of wc -> weight_of wd <= weight_of wa -> weight_of wd <= weight_of wb ->
  (exists s, run fuel start (map to_root [(a, wa); (b, wb); (c, wc)]) = Ok s) /\ run fuel start (map to_root [(a, wa); (b, wb); (c, wc); (d, wd)]) = UB Diverges.
Proof.
  intros F AB CD Oa Ob Oc Od WAC WDA WDB.
  destruct (siblings fuel [(a, wa); (b, wb)]) as (s & R & CH & MX & WT & LV & ND); [exact F|cbn; lia| |].
  { intros x y z w t E NZ. exfalso. destruct x as [|? [|? x]]; [|destruct z; discriminate|destruct x; discriminate]. destruct z as [|q z]; [contradiction|]. injection E as _ _ E. destruct z; discriminate. }
  destruct CH as (v0 & E0 & (D0 & K0) & ((va & Ea & Na) & (vb & Eb & Nb) & _)). cbn [map fst] in *. rewrite D0 in Nb.
  pose proof (Forall_inv WT) as Wa. pose proof (Forall_inv (Forall_inv_tail WT)) as Wb. cbn [fst snd] in Wa, Wb. clear WT.
  assert (EC : forall x, x <> 0 -> x <> a -> x <> b -> s_mem s x = None). { intros x X0 Xa Xb. destruct (s_mem s x) eqn:E; [|reflexivity]. exfalso. assert (L : live (s_mem s) x) by (eexists; exact E). apply LV in L. cbn [In] in L. intuition congruence. }
  change (top _) with b in MX. destruct Wa as (va' & Ea' & Wa). rewrite Ea in Ea'. injection Ea' as <-. destruct Wb as (vb' & Eb' & Wb). rewrite Eb in Eb'. injection Eb' as <-.
  (* The third frame. *)
  set (m0 := set (set (s_mem s) c (fresh_node c)) c (mkNode (weight_of wc) 0 c c)).
  assert (MO : forall y, y <> c -> m0 y = s_mem s y) by (intros y Y; unfold m0; rewrite !set_other by exact Y; reflexivity). assert (MC : m0 c = Some (mkNode (weight_of wc) 0 c c)) by apply set_same.
  assert (S3 : exists m, step fuel s (to_root (c, wc)) = Ok (mkSt m c) /\ (exists v, m 0 = Some v /\ d_deps v = c /\ d_count v <> 0%nat) /\ (exists v, m c = Some v /\ d_next v = b /\ d_weight v = weight_of wc) /\
    (forall y, y <> 0 -> y <> c -> m y = s_mem s y)).
  { rewrite opened; [|apply EC; lia|lia|exact Oc]. fold m0. unfold rebalance. rewrite (MO 0) by lia. rewrite E0. replace (Nat.eqb (d_count v0) 0) with false by (symmetry; now apply Nat.eqb_neq).
    unfold deps_add, deref at 1. rewrite (MO 0) by lia. rewrite E0. cbn [obind]. rewrite D0. destruct fuel as [|fuel]; [lia|]. cbn [add_loop].
    unfold deref at 1 2. rewrite (MO 0), (MO a) by lia. rewrite E0, Ea. cbn [obind]. rewrite Na, D0. destruct (N.eqb_spec b a); [lia|]. unfold deref at 1. rewrite MC. cbn [obind d_weight]. rewrite Wa.
    replace (weight_of wa <? weight_of wc) with true by lia. unfold deref at 1. rewrite (MO b) by lia. rewrite Eb. cbn [obind]. unfold put_next at 1, deref at 1. rewrite MC. cbn [obind d_weight d_count d_deps]. rewrite N.eqb_refl.
    unfold put_deps, deref at 1. rewrite set_other by lia. rewrite (MO 0) by lia. rewrite E0. cbn [obind]. unfold inc_count, deref at 1. rewrite set_other by lia. rewrite set_same. cbn [obind].
    unfold put_count, deref. rewrite set_other by lia. rewrite set_same. cbn [obind d_weight d_count d_deps d_next]. eexists. split; [reflexivity|].
    split; [eexists; split; [rewrite set_other by lia; apply set_same|split; [reflexivity|exact K0]]|]. split; [eexists; split; [apply set_same|split; reflexivity]|].
    intros y Y0 Yc. rewrite 3 set_other by assumption. now apply MO. }
  destruct S3 as (m & S3 & (u0 & U0 & DU & KU) & (uc & Uc & Nc & Wc) & MS).
  assert (R3 : run fuel start (map to_root [(a, wa); (b, wb); (c, wc)]) = Ok (mkSt m c)).
  { change (map to_root [(a, wa); (b, wb); (c, wc)]) with ([to_root (a, wa); to_root (b, wb)] ++ [to_root (c, wc)]). rewrite run_app, R. exact S3. }
  split; [eexists; exact R3|].
  match goal with |- run _ _ ?l = _ => change l with (map to_root [(a, wa); (b, wb); (c, wc)] ++ [to_root (d, wd)]) end. rewrite run_app, R3. cbn [obind].
  rewrite opened; [|cbn [s_mem]; rewrite MS by lia; apply EC; lia|cbn [s_max]; lia|exact Od]. cbn [s_mem].
  set (m1 := set (set m d (fresh_node d)) d (mkNode (weight_of wd) 0 d d)).
  assert (M1 : forall y, y <> d -> m1 y = m y) by (intros y Y; unfold m1; rewrite !set_other by exact Y; reflexivity). assert (MD : m1 d = Some (mkNode (weight_of wd) 0 d d)) by apply set_same.
  assert (X : add_loop fuel m1 0 d c = UB Diverges).
  { destruct fuel as [|fuel]; [lia|]. cbn [add_loop]. unfold deref. rewrite (M1 c), (M1 0) by lia. rewrite U0, Uc. cbn [obind]. rewrite Nc, DU. destruct (N.eqb_spec b c); [lia|]. rewrite MD. cbn [obind d_weight]. rewrite Wc.
    replace (weight_of wc <? weight_of wd) with false by lia.
    refine (proj2 (round m1 d a b c _ _ _ _ _ (weight_of wd) (weight_of wa) (weight_of wb) _ _ _ WDA WDB fuel)); try lia.
    - exists u0. rewrite M1 by lia. auto.
    - exists va. rewrite M1, MS by lia. auto.
    - exists vb. rewrite M1, MS by lia. auto.
    - eexists. split; [exact MD|reflexivity].
    - exists va. rewrite M1, MS by lia. auto.
    - exists vb. rewrite M1, MS by lia. auto. }
  unfold rebalance. rewrite (M1 0) by lia. rewrite U0. replace (Nat.eqb (d_count u0) 0) with false by (symmetry; now apply Nat.eqb_neq).
  unfold deps_add, deref. rewrite (M1 0) by lia. rewrite U0. cbn [obind]. rewrite DU, X. reflexivity.
Qed.

(** A stream that depends on the root stream is answered and closed; the next one touches its memory. *)
Lemma closed_sibling fuel l a wa c wc : (S (length l) <= fuel)%nat -> ids_from 0 ((a, wa) :: l) -> calm ((a, wa) :: l) -> top ((a, wa) :: l) < c -> N.odd c = true ->
  run fuel start (map to_root ((a, wa) :: l) ++ [Close a; to_root (c, wc)]) = UB UseAfterFree.
Proof.
  intros F ID CA TC OC. destruct (siblings fuel ((a, wa) :: l) F ID CA) as (s & R & (v0 & E0 & (D0 & K0) & _) & MX & _ & LV & _).
  change [Close a; to_root (c, wc)] with ([Close a] ++ [to_root (c, wc)]). rewrite app_assoc, !run_app, R. cbn [obind step]. destruct ID as (PA & _ & ID').
  destruct (N.eqb_spec a 0); [lia|]. cbn [obind]. pose proof (ids_gt a l ID') as GT.
  assert (MC : forall x, In x (map fst ((a, wa) :: l)) -> x <= top ((a, wa) :: l)).
  { clear - ID' GT PA. revert a wa PA ID' GT. induction l as [|(y & b) l IH]; intros a wa PA ID' GT x I; [destruct I as [<-|[]]; cbn; lia|].
    destruct ID' as (A & B & C). change (top ((a, wa) :: (y, b) :: l)) with (top ((y, b) :: l)). pose proof (ids_gt y l C) as GY. destruct I as [<-|I]; [|apply (IH y b); try assumption; lia].
    specialize (IH y b ltac:(lia) C GY y (or_introl eq_refl)). cbn [fst]. lia. }
  assert (AT : a <= top ((a, wa) :: l)) by (apply MC; now left).
  assert (SC : s_mem s c = None). { destruct (s_mem s c) eqn:E; [|reflexivity]. exfalso. assert (L : live (s_mem s) c) by (eexists; exact E). apply LV in L as [L|L]; [lia|]. apply MC in L. lia. }
  rewrite opened; [|cbn [s_mem]; unfold del; destruct (c =? a); [reflexivity|exact SC]|cbn [s_max]; lia|exact OC]. cbn [s_mem].
  unfold rebalance. rewrite 2 set_other by lia. unfold del at 1. destruct (N.eqb_spec 0 a); [lia|]. rewrite E0. replace (Nat.eqb (d_count v0) 0) with false by (symmetry; now apply Nat.eqb_neq).
  unfold deps_add, deref at 1. rewrite 2 set_other by lia. unfold del at 1. destruct (N.eqb_spec 0 a); [lia|]. rewrite E0. cbn [obind]. rewrite D0.
  destruct fuel as [|fuel]; [lia|]. cbn [add_loop map fst]. unfold deref at 1. rewrite 2 set_other by lia. unfold del. rewrite N.eqb_refl. reflexivity.
Qed.

(** [known] is decidable. *)
Definition there (x : N) (v : view) : bool := existsb (N.eqb x) (v_open v).
Definition vstep (v : view) (e : ev) : view :=
  match e with
  | Prio x _ _ _ | Other x => if negb (there x v) && (v_top v <? x) && N.odd x then mkView (x :: v_open v) x else v
  | Close x => if x =? 0 then v else mkView (filter (fun y => negb (y =? x)) (v_open v)) (v_top v)
  end.
Lemma there_in x v : there x v = true <-> In x (v_open v).
Proof. unfold there. rewrite existsb_exists. split; [intros (y & I & E); apply N.eqb_eq in E; now subst|]. intros I. exists x. now rewrite N.eqb_refl. Qed.
Lemma opens_bool x v : opens x v <-> negb (there x v) && (v_top v <? x) && N.odd x = true.
Proof.
  unfold opens. rewrite <- there_in, !andb_true_iff, negb_true_iff, N.ltb_lt. destruct (there x v); split; intros H; try tauto; intuition discriminate.
Qed.
Lemma moves_vstep v e v' : moves v e v' -> v' = vstep v e.
Proof.
  intros M. inversion M as [v0 e0 x Q O|v0 e0 x Q O|v0 x Q|v0]; subst.
  1,2: rewrite opens_bool in O; destruct Q as [(p & d & b & ->)| ->]; cbn [vstep]; [|]; first [rewrite O; reflexivity|destruct (_ && _)%bool; [contradiction O; reflexivity|reflexivity]].
  - cbn [vstep]. destruct (N.eqb_spec x 0); [contradiction|reflexivity].
  - reflexivity.
Qed.
Lemma history_view es v : history es v -> v = fold_left vstep es (mkView [0] 0).
Proof. induction 1 as [|es v e v' H IH M]; [reflexivity|]. rewrite fold_left_app. cbn [fold_left]. rewrite <- IH. now apply moves_vstep. Qed.
Fixpoint knownb (v : view) (es : list ev) : bool :=
  match es with
  | [] => true
  | e :: t => match e with Prio x _ d _ => implb (there x (vstep v e)) (there d (vstep v e)) | _ => true end && knownb (vstep v e) t
  end.
Lemma knownb_split : forall a v x p d b t, knownb v (a ++ Prio x p d b :: t) = true -> In x (v_open (fold_left vstep (a ++ [Prio x p d b]) v)) -> In d (v_open (fold_left vstep (a ++ [Prio x p d b]) v)).
Proof.
  induction a as [|e a IH]; intros v x p d b t K I.
  - cbn [app knownb fold_left] in *. apply andb_true_iff in K as (K & _). apply there_in in I. rewrite I in K. now apply there_in.
  - cbn [app knownb fold_left] in *. apply andb_true_iff in K as (_ & K). exact (IH _ _ _ _ _ _ K I).
Qed.
Lemma knownb_ok es : knownb (mkView [0] 0) es = true -> known es.
Proof. intros K a x p d b t v -> H I. apply history_view in H. subst v. eapply knownb_split; eassumption. Qed.

(** ** What a frame changes (used by C129). *)
Definition same_weights (m m' : mem) : Prop := forall y, option_map d_weight (m' y) = option_map d_weight (m y).
Lemma sw_refl m : same_weights m m. Proof. intro y. reflexivity. Qed.
Lemma sw_trans m1 m2 m3 : same_weights m1 m2 -> same_weights m2 m3 -> same_weights m1 m3.
Proof. intros A B y. rewrite B. apply A. Qed.
Lemma sw_set m x v v' : m x = Some v -> d_weight v' = d_weight v -> same_weights m (set m x v').
Proof. intros E W y. unfold set. destruct (N.eqb_spec y x) as [->|]; [rewrite E; cbn; rewrite W; reflexivity|reflexivity]. Qed.
Lemma deref_ok m x v : deref m x = Ok v -> m x = Some v.
Proof. unfold deref. destruct (m x); [congruence|discriminate]. Qed.
Lemma sw_put_next m x y m' : put_next m x y = Ok m' -> same_weights m m'.
Proof. unfold put_next. destruct (deref m x) as [v|] eqn:E; cbn [obind]; [|discriminate]. intros [= <-]. apply (sw_set m x v); [apply deref_ok; exact E|reflexivity]. Qed.
Lemma sw_put_deps m x y m' : put_deps m x y = Ok m' -> same_weights m m'.
Proof. unfold put_deps. destruct (deref m x) as [v|] eqn:E; cbn [obind]; [|discriminate]. intros [= <-]. apply (sw_set m x v); [apply deref_ok; exact E|reflexivity]. Qed.
Lemma sw_put_count m x y m' : put_count m x y = Ok m' -> same_weights m m'.
Proof. unfold put_count. destruct (deref m x) as [v|] eqn:E; cbn [obind]; [|discriminate]. intros [= <-]. apply (sw_set m x v); [apply deref_ok; exact E|reflexivity]. Qed.
Lemma sw_inc_count m x m' : inc_count m x = Ok m' -> same_weights m m'.
Proof. unfold inc_count. destruct (deref m x) as [v|] eqn:E; cbn [obind]; [|discriminate]. apply sw_put_count. Qed.
Ltac stp H E := match type of H with obind ?o _ = Ok _ => destruct o eqn:E; cbn [obind] in H; [|discriminate H] end.
Lemma sw_add_loop fuel : forall m dist src n m', add_loop fuel m dist src n = Ok m' -> same_weights m m'.
Proof.
  induction fuel as [|fuel IH]; intros m dist src n m' H; [discriminate H|]. cbn [add_loop] in H.
  stp H E1. stp H E2. destruct (d_next _ =? d_deps _).
  - stp H E3. stp H E4. stp H E5. eapply sw_trans; [eapply sw_put_next; exact E3|]. eapply sw_trans; [eapply sw_put_next; exact E5|]. eapply sw_inc_count. exact H.
  - stp H E3. destruct (d_weight _ <? d_weight _); [|exact (IH _ _ _ _ _ H)].
    stp H E4. stp H E5. stp H E6. eapply sw_trans; [eapply sw_put_next; exact E5|].
    eapply sw_trans; [|eapply sw_inc_count; exact H]. destruct (n =? _); [eapply sw_put_deps; exact E6|eapply sw_put_next; exact E6].
Qed.
Lemma sw_rebalance fuel m s d e m' : rebalance fuel m s d e = Ok m' -> same_weights m m'.
Proof.
  unfold rebalance. destruct (m d) as [v|]; [|discriminate]. intro H. destruct e.
  - stp H E1. stp H E2. eapply sw_trans; [|eapply sw_trans; [eapply sw_put_deps; exact E2|eapply sw_put_count; exact H]].
    destruct (Nat.eqb _ _); [injection E1 as <-; apply sw_refl|]. unfold deps_add in E1. stp E1 E3. eapply sw_add_loop; exact E1.
  - destruct (Nat.eqb _ _).
    + stp H E1. stp H E2. stp H E3. eapply sw_trans; [eapply sw_put_deps; exact E1|]. eapply sw_trans; [eapply sw_put_next; exact E3|eapply sw_put_count; exact H].
    + unfold deps_add in H. stp H E3. eapply sw_add_loop; exact H.
Qed.
Lemma run_snoc fuel es e : forall s s', run fuel s (es ++ [e]) = Ok s' -> exists s1, run fuel s es = Ok s1 /\ step fuel s1 e = Ok s'.
Proof.
  induction es as [|f es IH]; intros s s' H; cbn [app run] in H |- *.
  - stp H E. injection H as <-. exists s. auto.
  - stp H E. apply IH. exact H.
Qed.
(** A frame that is looked at leaves its stream with the weight it says (cut to eight bits). *)
Lemma weight_kept fuel es x p d b s' : run fuel start (es ++ [Prio x p d b]) = Ok s' ->
  (exists s1, run fuel start es = Ok s1 /\ stream_for x s1 = None) \/ option_map d_weight (s_mem s' x) = Some ((b + 1) mod 256).
Proof.
  intro H. apply run_snoc in H as (s1 & R & H). cbn [step] in H. destruct (stream_for x s1) as [s2|] eqn:F; [|left; exists s1; auto].
  right. stp H E1. stp H E2. injection H as <-. cbn [s_mem]. apply sw_rebalance in E2. rewrite E2.
  unfold put_weight in E1. stp E1 E3. injection E1 as <-. unfold set. rewrite N.eqb_refl. reflexivity.
Qed.
(** No other stream's weight is changed. *)
Lemma weights_other fuel es x p d b s1 s' y : run fuel start es = Ok s1 -> step fuel s1 (Prio x p d b) = Ok s' -> y <> x ->
  option_map d_weight (s_mem s' y) = option_map d_weight (s_mem s1 y).
Proof.
  intros R H NE. cbn [step] in H. destruct (stream_for x s1) as [s2|] eqn:F; [|injection H as <-; reflexivity].
  stp H E1. stp H E2. injection H as <-. cbn [s_mem]. apply sw_rebalance in E2. rewrite E2.
  unfold put_weight in E1. stp E1 E3. injection E1 as <-. unfold set at 1. destruct (N.eqb_spec y x); [contradiction|].
  unfold stream_for in F. destruct (s_mem s1 x); [injection F as <-; reflexivity|]. destruct (_ || _); [discriminate F|]. injection F as <-. cbn [s_mem].
  unfold set. destruct (N.eqb_spec y x); [contradiction|reflexivity].
Qed.
(** The exclusive flag: the stream becomes the only one its dependency counts, and its first. *)
Lemma exclusive_only fuel es x d b s' s1 : run fuel start es = Ok s1 -> stream_for x s1 <> None -> step fuel s1 (Prio x true d b) = Ok s' ->
  option_map (fun v => (d_deps v, d_count v)) (s_mem s' d) = Some (x, 1%nat).
Proof.
  intros R F H. cbn [step] in H. destruct (stream_for x s1) as [s2|]; [|contradiction]. stp H E1. stp H E2. injection H as <-. cbn [s_mem].
  unfold rebalance in E2. destruct (a d) as [v|]; [|discriminate E2]. stp E2 E3. stp E2 E4.
  unfold put_deps in E4. stp E4 E5. injection E4 as <-. unfold put_count in E2. stp E2 E6. injection E2 as <-.
  apply deref_ok in E6. unfold set in E6 |- *. rewrite N.eqb_refl in E6 |- *. injection E6 as <-. reflexivity.
Qed.
(** The first stream that depends on another one is found there. *)
Lemma first_child fuel es x d b s' s1 v : run fuel start es = Ok s1 -> s_mem s1 x = None -> stream_for x s1 <> None -> s_mem s1 d = Some v -> d_count v = 0%nat ->
  step fuel s1 (Prio x false d b) = Ok s' -> option_map (fun v => (d_deps v, d_count v)) (s_mem s' d) = Some (x, 1%nat).
Proof.
  intros R X F D C H. cbn [step] in H. assert (ND : d <> x) by congruence. unfold stream_for in *. rewrite X in *. destruct (_ || _); [contradiction|].
  stp H E1. stp H E2. injection H as <-. cbn [s_mem] in *.
  assert (A : a d = Some v).
  { unfold put_weight in E1. stp E1 E3. injection E1 as <-. unfold set. destruct (N.eqb_spec d x); [contradiction|]. exact D. }
  unfold rebalance in E2. rewrite A, C in E2. cbn [Nat.eqb] in E2. stp E2 E3. stp E2 E4. stp E2 E5.
  unfold put_deps in E3. stp E3 E6. injection E3 as <-. unfold put_next in E5. stp E5 E7. injection E5 as <-. unfold put_count in E2. stp E2 E8. injection E2 as <-.
  apply deref_ok in E8. unfold set in E8 |- *. rewrite N.eqb_refl in E8 |- *. destruct (N.eqb_spec d x); [contradiction|]. injection E8 as <-. reflexivity.
Qed.
