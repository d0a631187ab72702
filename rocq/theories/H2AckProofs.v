(** Proofs about the server's own SETTINGS frames. *)
From Verif Require Import Base Buffer BufferProofs CNum H2Frame H2FrameProofs H2Ack.
From Coq Require Import Lia ZifyBool ZifyNat.
Local Open Scope nat_scope.

(** ** What is observed *)
Definition received (h : list ev) : nat := length (filter (fun e => match e with RSettings _ _ => true | _ => false end) h).
Definition acks (h : list ev) : nat := length (filter (fun e => match e with RAck => true | _ => false end) h).
Definition on_wire (w : list item) : nat := length (filter (fun i => match i with WOwn _ => true | _ => false end) w).
(** Own frames sent since the last acknowledgement. *)
Definition unacked (w : list item) : nat := fold_left (fun n i => match i with WOwn _ => S n | WOther => n | Acked => 0 end) w 0.
(** Acknowledgements come only when all of the server's SETTINGS frames have been sent. *)
Definition timely (ss : list (N * N)) (l : pset) (h : list ev) : Prop :=
  forall h1 h2 s, h = h1 ++ RAck :: h2 -> run ss (start l) h1 = Ok s -> on_wire (s_log s) = received h1.
(** A client acknowledges no more SETTINGS frames than it has got. *)
Definition polite (ss : list (N * N)) (l : pset) (h : list ev) : Prop :=
  forall h1 h2 s, h = h1 ++ h2 -> run ss (start l) h1 = Ok s -> acks h1 <= on_wire (s_log s).

(** ** Lists and memory *)
Lemma run_app ss h1 : forall h2 s, run ss s (h1 ++ h2) = obind (run ss s h1) (fun s => run ss s h2).
Proof.
  induction h1 as [|e h1 IH]; intros h2 s; [reflexivity|]. cbn [app run]. destruct (step ss s e); cbn [obind]; [apply IH|reflexivity].
Qed.
Lemma run_one ss s e : run ss s [e] = step ss s e.
Proof. cbn [run]. destruct (step ss s e); reflexivity. Qed.
Lemma look_new m x f y : look ((x, f) :: m) y = if x =? y then Some f else look m y.
Proof. unfold look. cbn [find fst]. destruct (x =? y); reflexivity. Qed.
Lemma look_free m x y : look (free m x) y = if x =? y then None else look m y.
Proof.
  unfold look, free. induction m as [|[k f] m IH]; cbn [filter find fst].
  - destruct (x =? y); reflexivity.
  - destruct (Nat.eqb_spec k x) as [->|K]; cbn [negb].
    + rewrite IH. destruct (Nat.eqb_spec x y) as [->|]; reflexivity.
    + cbn [find fst]. destruct (Nat.eqb_spec k y) as [->|Y].
      * destruct (Nat.eqb_spec x y) as [->|]; [congruence|reflexivity].
      * exact IH.
Qed.
Lemma received_app a b : received (a ++ b) = received a + received b.
Proof. unfold received. rewrite filter_app, app_length. reflexivity. Qed.
Lemma on_wire_app a b : on_wire (a ++ b) = on_wire a + on_wire b.
Proof. unfold on_wire. rewrite filter_app, app_length. reflexivity. Qed.
Lemma unacked_app a i : unacked (a ++ [i]) = match i with WOwn _ => S (unacked a) | WOther => unacked a | Acked => 0 end.
Proof. unfold unacked. rewrite fold_left_app. cbn [fold_left]. destruct i; reflexivity. Qed.

Definition own (s : st) (x : nat) : bool := existsb (Nat.eqb x) (s_own s).
Lemma own_in s x : own s x = true <-> In x (s_own s).
Proof.
  unfold own. rewrite existsb_exists. split.
  - intros (y & H & E). apply Nat.eqb_eq in E. now subst.
  - intros H. exists x. split; [exact H|apply Nat.eqb_refl].
Qed.
Definition owns (s : st) (q : list nat) : nat := length (filter (own s) q).
Lemma owns_cons s x q : owns s (x :: q) = (if own s x then 1 else 0) + owns s q.
Proof. unfold owns. cbn [filter]. destruct (own s x); reflexivity. Qed.
Lemma owns_app s a b : owns s (a ++ b) = owns s a + owns s b.
Proof. unfold owns. rewrite filter_app, app_length. reflexivity. Qed.
Lemma owns_pos s q : 0 < owns s q -> exists x, In x q /\ In x (s_own s).
Proof.
  induction q as [|x q IH]; [cbn; lia|]. rewrite owns_cons. destruct (own s x) eqn:O.
  - intros _. exists x. split; [now left|now apply own_in].
  - intros H. destruct IH as (y & Y1 & Y2); [lia|]. exists y. split; [now right|exact Y2].
Qed.
Lemma owns_none s q x : owns s q = 0 -> In x q -> ~ In x (s_own s).
Proof.
  induction q as [|y q IH]; [now intros _ []|]. rewrite owns_cons. destruct (own s y) eqn:O; [lia|].
  intros Z [->|I]; [|now apply IH]. intros H. apply own_in in H. congruence.
Qed.

Lemma last_of_app q x : last_of (q ++ [x]) = Some x.
Proof. unfold last_of. rewrite rev_app_distr. reflexivity. Qed.
Lemma last_of_in q x : last_of q = Some x -> In x q.
Proof. unfold last_of. intros H. apply in_rev. destruct (rev q); [discriminate|]. injection H as ->. now left. Qed.

Definition live (m : list (nat * fr)) (q : list nat) : Prop := forall x, In x q -> look m x <> None.
Lemma push_live m q x : live m q -> push m q x = Ok (q ++ [x]).
Proof.
  intros L. unfold push, touch. destruct (last_of q) as [y|] eqn:E; [|reflexivity].
  unfold deref. destruct (look m y) eqn:K; [reflexivity|]. now destruct (L y (last_of_in _ _ E)).
Qed.
Lemma push_ok m q x r : push m q x = Ok r -> r = q ++ [x].
Proof. unfold push. destruct (touch m (last_of q)); cbn [obind]; congruence. Qed.
Lemma touch_live m t : live m t -> touch m (hd_error t) = Ok tt.
Proof.
  intros L. destruct t as [|y t]; [reflexivity|]. cbn [hd_error touch]. unfold deref.
  destruct (look m y) eqn:K; [reflexivity|]. now destruct (L y (or_introl eq_refl)).
Qed.

(** ** The acknowledgement *)
Lemma ack_loop_ok q : forall m l, live m q -> NoDup q -> exists m' l', ack_loop q m l = Ok (m', l') /\
  (forall y, In y q -> look m' y = None) /\ (forall y, ~ In y q -> look m' y = look m y).
Proof.
  induction q as [|x q IH]; intros m l L D.
  - exists m, l. split; [reflexivity|]. split; [now intros y []|reflexivity].
  - cbn [ack_loop]. unfold deref. destruct (look m x) as [f|] eqn:K; [|now destruct (L x (or_introl eq_refl))].
    cbn [obind]. rewrite touch_live by (intros y Y; apply L; now right). cbn [obind].
    inversion D as [|? ? NX D']; subst.
    destruct (IH (free m x) (set_limits l (f_pay f))) as (m' & l' & E & A & B).
    { intros y Y. rewrite look_free. destruct (Nat.eqb_spec x y) as [->|]; [contradiction|]. apply L. now right. }
    { exact D'. }
    exists m', l'. split; [exact E|]. split.
    + intros y [->|Y]; [|now apply A]. rewrite B by exact NX. rewrite look_free, Nat.eqb_refl. reflexivity.
    + intros y Y. rewrite B by (intros H; apply Y; now right). rewrite look_free.
      destruct (Nat.eqb_spec x y) as [->|]; [destruct Y; now left|reflexivity].
Qed.

(** ** Sending *)
Lemma send_loop_dead q : forall n m w x, In x q -> look m x = None -> length q <= n -> send_loop n q m w = UB UseAfterFree.
Proof.
  induction q as [|y q IH]; intros n m w x I K G; [destruct I|]. cbn [send_loop]. unfold deref at 1. destruct (look m y) as [f|] eqn:F; [|reflexivity].
  cbn [obind]. destruct n as [|n]; [cbn [length] in G; lia|].
  destruct I as [->|I]; [congruence|].
  destruct (touch m (hd_error q)) as [[]|u] eqn:T; cbn [obind].
  - apply (IH n _ _ x I); [|cbn [length] in G; lia]. destruct (f_need f); [exact K|]. rewrite look_free. destruct (y =? x); [reflexivity|exact K].
  - destruct q as [|z q]; [discriminate T|]. cbn [hd_error touch] in T. unfold deref in T. destruct (look m z); [discriminate T|].
    cbn [obind] in T. congruence.
Qed.

(** ** The invariant of every execution *)
Record inv (ss : list (N * N)) (h : list ev) (s : st) : Prop := mkInv {
  i_send_lt : forall x, In x (s_send s) -> x < s_next s;
  i_send_nd : NoDup (s_send s);
  i_own_lt : forall x, In x (s_own s) -> x < s_next s;
  i_mem : forall x f, look (s_mem s) x = Some f -> x < s_next s /\ (f_need f = true <-> In x (s_own s)) /\
            (f_need f = true -> In x (s_ack s) /\ exists junk, f_pay f = settings_payload_set (fresh (6 * length ss) junk) ss);
  i_ack : forall x, In x (s_ack s) -> In x (s_own s) /\ look (s_mem s) x <> None;
  i_ack_nd : NoDup (s_ack s);
  i_made : length (s_own s) = received h;
  i_count : length (s_own s) = on_wire (s_log s) + owns s (s_send s);
  i_pay : forall p, In (WOwn p) (s_log s) -> exists junk, p = settings_payload_set (fresh (6 * length ss) junk) ss }.

Lemma inv_start ss l : inv ss [] (start l).
Proof.
  constructor; unfold start; cbn; try (now intros ? []); try constructor; try reflexivity; try discriminate; contradiction.
Qed.
Lemma NoDup_snoc (q : list nat) x : NoDup q -> ~ In x q -> NoDup (q ++ [x]).
Proof.
  intros D N. rewrite <- (rev_involutive q). change (rev (rev q) ++ [x]) with (rev (x :: rev q)). apply NoDup_rev. constructor.
  - intros H. apply N. now apply in_rev.
  - now apply NoDup_rev.
Qed.

Lemma inv_own ss h s junk l s' : inv ss h s -> send_own ss junk s = Ok s' -> inv ss (h ++ [RSettings junk l]) s'.
Proof.
  intros I E. unfold send_own in E.
  destruct (push _ (s_ack s) (s_next s)) as [a|] eqn:A; [|discriminate E]. cbn [obind] in E.
  destruct (push _ (s_send s) (s_next s)) as [q|] eqn:Q; [|discriminate E]. cbn [obind] in E.
  apply push_ok in A. apply push_ok in Q. injection E as <-. subst a q.
  assert (NS : ~ In (s_next s) (s_send s)) by (intros H; apply (i_send_lt _ _ _ I) in H; lia).
  assert (NO : ~ In (s_next s) (s_own s)) by (intros H; apply (i_own_lt _ _ _ I) in H; lia).
  assert (NA : ~ In (s_next s) (s_ack s)) by (intros H; apply (i_ack _ _ _ I) in H; tauto).
  constructor; cbn [s_send s_next s_own s_mem s_ack s_log s_lim].
  - intros x H. apply in_app_or in H. destruct H as [H|[<-|[]]]; [apply (i_send_lt _ _ _ I) in H|]; lia.
  - apply NoDup_snoc; [apply (i_send_nd _ _ _ I)|exact NS].
  - intros x [<-|H]; [lia|]. apply (i_own_lt _ _ _ I) in H. lia.
  - intros x f. rewrite look_new. destruct (Nat.eqb_spec (s_next s) x) as [<-|X].
    + intros H. injection H as <-. cbn [f_need f_pay]. split; [lia|]. split; [split; [now left|reflexivity]|].
      intros _. split; [apply in_or_app; right; now left|]. exists junk. reflexivity.
    + intros H. destruct (i_mem _ _ _ I x f H) as (H1 & H2 & H3). split; [lia|]. split.
      * rewrite H2. split; [now right|]. intros [C|C]; [contradiction|exact C].
      * intros F. destruct (H3 F) as (H4 & H5). split; [apply in_or_app; now left|exact H5].
  - intros x H. apply in_app_or in H. destruct H as [H|[<-|[]]].
    + destruct (i_ack _ _ _ I x H) as (H1 & H2). split; [now right|]. rewrite look_new. destruct (s_next s =? x); [discriminate|exact H2].
    + split; [now left|]. rewrite look_new, Nat.eqb_refl. discriminate.
  - apply NoDup_snoc; [apply (i_ack_nd _ _ _ I)|exact NA].
  - rewrite received_app. cbn. rewrite (i_made _ _ _ I). lia.
  - cbn [length]. rewrite (i_count _ _ _ I).
    unfold owns. rewrite filter_app, app_length. cbn [filter]. unfold own. cbn [s_own existsb]. rewrite Nat.eqb_refl. cbn [orb length].
    assert (EQ : filter (fun x => (x =? s_next s) || existsb (Nat.eqb x) (s_own s)) (s_send s) = filter (fun x => existsb (Nat.eqb x) (s_own s)) (s_send s)).
    { apply filter_ext_in. intros x H. destruct (Nat.eqb_spec x (s_next s)) as [->|]; [contradiction|reflexivity]. }
    rewrite EQ. lia.
  - apply (i_pay _ _ _ I).
Qed.

Lemma inv_lim ss h s l : inv ss h s -> inv ss h (mkSt (s_mem s) (s_next s) (s_send s) (s_ack s) l (s_own s) (s_log s)).
Proof. intros [A B C D E F G H K]. constructor; assumption. Qed.

Lemma inv_other_h ss h h' s s' : received h' = received h -> inv ss h s -> send_other s = Ok s' -> inv ss h' s'.
Proof.
  intros R I E. unfold send_other in E. destruct (push _ (s_send s) (s_next s)) as [q|] eqn:Q; [|discriminate E]. cbn [obind] in E.
  apply push_ok in Q. injection E as <-. subst q.
  assert (NS : ~ In (s_next s) (s_send s)) by (intros H; apply (i_send_lt _ _ _ I) in H; lia).
  assert (NO : ~ In (s_next s) (s_own s)) by (intros H; apply (i_own_lt _ _ _ I) in H; lia).
  constructor; cbn [s_send s_next s_own s_mem s_ack s_log s_lim].
  - intros x H. apply in_app_or in H. destruct H as [H|[<-|[]]]; [apply (i_send_lt _ _ _ I) in H|]; lia.
  - apply NoDup_snoc; [apply (i_send_nd _ _ _ I)|exact NS].
  - intros x H. apply (i_own_lt _ _ _ I) in H. lia.
  - intros x f. rewrite look_new. destruct (Nat.eqb_spec (s_next s) x) as [<-|X].
    + intros H. injection H as <-. cbn [f_need f_pay]. split; [lia|]. split; [|discriminate]. split; [discriminate|contradiction].
    + intros H. destruct (i_mem _ _ _ I x f H) as (H1 & H2 & H3). split; [lia|]. split; assumption.
  - intros x H. destruct (i_ack _ _ _ I x H) as (H1 & H2). split; [exact H1|]. rewrite look_new. destruct (s_next s =? x); [discriminate|exact H2].
  - apply (i_ack_nd _ _ _ I).
  - rewrite R. apply (i_made _ _ _ I).
  - rewrite (i_count _ _ _ I). change (owns _ (s_send s ++ [s_next s])) with (owns s (s_send s ++ [s_next s])). rewrite owns_app, owns_cons.
    destruct (own s (s_next s)) eqn:O; [apply own_in in O; contradiction|]. cbn. lia.
  - apply (i_pay _ _ _ I).
Qed.

Lemma recv_ack_ok ss h s : inv ss h s -> exists m l, recv_ack s = Ok (mkSt m (s_next s) (s_send s) [] l (s_own s) (s_log s ++ [Acked])) /\
  ack_loop (s_ack s) (s_mem s) (s_lim s) = Ok (m, l) /\
  (forall y, In y (s_ack s) -> look m y = None) /\ (forall y, ~ In y (s_ack s) -> look m y = look (s_mem s) y).
Proof.
  intros I. destruct (ack_loop_ok (s_ack s) (s_mem s) (s_lim s)) as (m & l & E & A & B).
  - intros x X. apply (i_ack _ _ _ I x X).
  - apply (i_ack_nd _ _ _ I).
  - exists m, l. unfold recv_ack. rewrite E. split; [reflexivity|]. split; [reflexivity|]. split; assumption.
Qed.
Lemma inv_ack ss h s s' : inv ss h s -> recv_ack s = Ok s' -> inv ss (h ++ [RAck]) s'.
Proof.
  intros I E. destruct (recv_ack_ok ss h s I) as (m & l & E' & _ & A & B). rewrite E' in E. injection E as <-.
  constructor; cbn [s_send s_next s_own s_mem s_ack s_log s_lim].
  - apply (i_send_lt _ _ _ I).
  - apply (i_send_nd _ _ _ I).
  - apply (i_own_lt _ _ _ I).
  - intros x f H. destruct (in_dec Nat.eq_dec x (s_ack s)) as [X|X]; [rewrite (A x X) in H; discriminate|].
    rewrite (B x X) in H. destruct (i_mem _ _ _ I x f H) as (H1 & H2 & H3). split; [exact H1|]. split; [exact H2|].
    intros F. destruct (H3 F). contradiction.
  - intros x [].
  - constructor.
  - rewrite received_app. cbn. rewrite (i_made _ _ _ I). lia.
  - rewrite on_wire_app. cbn. rewrite (i_count _ _ _ I). unfold owns, own. cbn [s_own]. lia.
  - intros p H. apply in_app_or in H. destruct H as [H|[H|[]]]; [|discriminate]. now apply (i_pay _ _ _ I).
Qed.

Lemma inv_send_loop ss h n : forall s q' m' w', inv ss h s -> send_loop n (s_send s) (s_mem s) (s_log s) = Ok (q', m', w') ->
  inv ss h (mkSt m' (s_next s) q' (s_ack s) (s_lim s) (s_own s) w').
Proof.
  induction n as [|n IH]; intros s q' m' w' I E; destruct (s_send s) as [|x q] eqn:Q; cbn [send_loop] in E.
  1, 3: injection E as <- <- <-; destruct I as [A B C D E F G H K]; constructor; cbn [s_send s_next s_own s_mem s_ack s_log s_lim]; try assumption;
    [intros ? []|constructor|]; rewrite Q in H; exact H.
  - destruct (deref (s_mem s) x) as [f|]; [|discriminate E]. cbn [obind] in E. injection E as <- <- <-. rewrite <- Q.
    destruct I as [A B C D E F G H K]; constructor; assumption.
  - destruct (deref (s_mem s) x) as [f|] eqn:K; [|discriminate E]. cbn [obind] in E.
    destruct (touch (s_mem s) (hd_error q)) as [[]|]; [|discriminate E]. cbn [obind] in E.
    assert (KF : look (s_mem s) x = Some f) by (unfold deref in K; destruct (look (s_mem s) x); [congruence|discriminate K]).
    destruct (i_mem _ _ _ I x f KF) as (KL & KO & KA).
    set (m := if f_need f then s_mem s else free (s_mem s) x) in E.
    set (w := s_log s ++ [if f_need f then WOwn (f_pay f) else WOther]) in E.
    specialize (IH (mkSt m (s_next s) q (s_ack s) (s_lim s) (s_own s) w) q' m' w'). cbn [s_send s_next s_own s_mem s_ack s_log s_lim] in IH.
    apply IH; [|exact E]. clear IH E.
    pose proof (i_send_nd _ _ _ I) as ND. rewrite Q in ND. inversion ND as [|? ? NX ND']; subst.
    assert (LM : forall y g, look m y = Some g -> look (s_mem s) y = Some g).
    { intros y g. unfold m. destruct (f_need f); [tauto|]. rewrite look_free. destruct (x =? y); [discriminate|tauto]. }
    constructor; cbn [s_send s_next s_own s_mem s_ack s_log s_lim].
    + intros y Y. apply (i_send_lt _ _ _ I). rewrite Q. now right.
    + exact ND'.
    + apply (i_own_lt _ _ _ I).
    + intros y g H. apply (i_mem _ _ _ I y g). now apply LM.
    + intros y H. destruct (i_ack _ _ _ I y H) as (H1 & H2). split; [exact H1|]. unfold m. destruct (f_need f) eqn:FN; [exact H2|].
      rewrite look_free. destruct (Nat.eqb_spec x y) as [->|]; [|exact H2]. apply KO in H1. discriminate.
    + apply (i_ack_nd _ _ _ I).
    + apply (i_made _ _ _ I).
    + rewrite (i_count _ _ _ I), Q. unfold w. rewrite on_wire_app.
      change (owns (mkSt m (s_next s) q (s_ack s) (s_lim s) (s_own s) (s_log s ++ [if f_need f then WOwn (f_pay f) else WOther])) q) with (owns s q).
      rewrite owns_cons. destruct (own s x) eqn:O.
      * apply own_in in O. apply KO in O. rewrite O. cbn. lia.
      * destruct (f_need f) eqn:FN; [|cbn; lia]. assert (C : In x (s_own s)) by now apply KO. apply own_in in C. congruence.
    + intros p H. unfold w in H. apply in_app_or in H. destruct H as [H|[H|[]]]; [now apply (i_pay _ _ _ I)|].
      destruct (f_need f) eqn:FN; [|discriminate H]. injection H as <-. now apply KA.
Qed.

Lemma inv_step ss h s e s' : inv ss h s -> step ss s e = Ok s' -> inv ss (h ++ [e]) s'.
Proof.
  intros I E. destruct e as [junk l| | |n]; cbn [step] in E.
  - unfold recv_settings in E. destruct (send_own ss junk s) as [s1|] eqn:O; [|discriminate E]. cbn [obind] in E.
    apply (inv_own ss h s junk l) in O; [|exact I]. eapply inv_other_h; [reflexivity| |exact E]. apply inv_lim. exact O.
  - eapply inv_other_h; [|exact I|exact E]. rewrite received_app. cbn. lia.
  - now apply inv_ack with s.
  - unfold writable in E. destruct (send_loop n _ _ _) as [[[q m] w]|] eqn:L; [|discriminate E]. cbn [obind] in E. injection E as <-.
    apply inv_send_loop with (ss := ss) (h := h) in L; [|exact I]. destruct L as [A B C D E F G H K]; constructor; try assumption.
    rewrite received_app. cbn. rewrite Nat.add_0_r. exact G.
Qed.
Lemma inv_run ss l h : forall s, run ss (start l) h = Ok s -> inv ss h s.
Proof.
  induction h as [|e h IH] using rev_ind; intros s E.
  - injection E as <-. apply inv_start.
  - rewrite run_app in E. destruct (run ss (start l) h) as [s1|] eqn:R; [|discriminate E]. cbn [obind] in E. rewrite run_one in E.
    apply inv_step with s1; [now apply IH|exact E].
Qed.

(** ** Acknowledgements that come too early *)
Lemma early_ack ss l h s n : run ss (start l) h = Ok s -> on_wire (s_log s) < received h -> length (s_send s) <= n ->
  run ss (start l) (h ++ [RAck; Writable n]) = UB UseAfterFree.
Proof.
  intros R W G. pose proof (inv_run _ _ _ _ R) as I. rewrite run_app, R. cbn [obind run step].
  destruct (recv_ack_ok ss h s I) as (m & l' & E & _ & A & B). rewrite E. cbn [obind]. unfold writable. cbn [s_send s_mem s_log].
  destruct (owns_pos s (s_send s)) as (x & X1 & X2); [pose proof (i_count _ _ _ I); pose proof (i_made _ _ _ I); lia|].
  rewrite (send_loop_dead (s_send s) n m _ x X1); [reflexivity| |exact G].
  destruct (in_dec Nat.eq_dec x (s_ack s)) as [Y|Y]; [now apply A|]. rewrite (B x Y).
  destruct (look (s_mem s) x) as [f|] eqn:K; [|reflexivity]. destruct (i_mem _ _ _ I x f K) as (_ & O & H). apply O in X2. destruct (H X2). contradiction.
Qed.
Lemma early_ack_at_once ss l h s junk l' n : run ss (start l) h = Ok s -> s_send s = [] ->
  run ss (start l) (h ++ [RSettings junk l'; RAck; Writable n]) = UB UseAfterFree.
Proof.
  intros R Q. pose proof (inv_run _ _ _ _ R) as I.
  change [RSettings junk l'; RAck; Writable n] with ([RSettings junk l'] ++ [RAck; Writable n]). rewrite app_assoc.
  assert (S1 : exists s1 x q, run ss (start l) (h ++ [RSettings junk l']) = Ok s1 /\ s_send s1 = x :: q /\ In x (s_own s1) /\ In x (s_ack s1)).
  { rewrite run_app, R. cbn [obind run step]. unfold recv_settings, send_own. rewrite Q.
    rewrite push_live by (intros y Y; rewrite look_new; destruct (s_next s =? y); [discriminate|]; apply (i_ack _ _ _ I y Y)).
    cbn [obind]. rewrite (push_live _ []) by (intros y []). cbn [obind]. unfold send_other. cbn [s_mem s_next s_send s_ack s_lim s_own s_log].
    rewrite push_live; [|intros y [<-|[]]; rewrite look_new; replace (S (s_next s) =? s_next s) with false by lia; rewrite look_new, Nat.eqb_refl; discriminate].
    cbn [obind]. eexists _, _, _. split; [reflexivity|]. cbn [s_send s_own s_ack app]. split; [reflexivity|]. split; [now left|]. apply in_or_app. right. now left. }
  destruct S1 as (s1 & x & q & R1 & Q1 & O1 & A1). pose proof (inv_run _ _ _ _ R1) as I1.
  rewrite run_app, R1. cbn [obind run step]. destruct (recv_ack_ok ss _ s1 I1) as (m & l2 & E & _ & A & _). rewrite E. cbn [obind].
  unfold writable. cbn [s_send s_mem s_log]. rewrite Q1. cbn [send_loop]. unfold deref. rewrite (A x A1). reflexivity.
Qed.

(** ** Timely acknowledgements *)
Record good (s : st) : Prop := mkGood {
  g_live : live (s_mem s) (s_send s);
  g_sub : forall x, In x (s_send s) -> In x (s_own s) -> In x (s_ack s);
  g_num : length (s_ack s) = unacked (s_log s) + owns s (s_send s) }.
Lemma good_start l : good (start l).
Proof. constructor; cbn; [intros ? []|intros ? []|reflexivity]. Qed.

Lemma send_own_ok ss h s junk : inv ss h s -> good s -> exists s', send_own ss junk s = Ok s' /\ good s'.
Proof.
  intros I G. unfold send_own.
  rewrite push_live by (intros y Y; rewrite look_new; destruct (s_next s =? y); [discriminate|]; apply (i_ack _ _ _ I y Y)). cbn [obind].
  rewrite push_live by (intros y Y; rewrite look_new; destruct (s_next s =? y); [discriminate|]; now apply (g_live _ G)). cbn [obind].
  eexists. split; [reflexivity|].
  assert (NS : ~ In (s_next s) (s_send s)) by (intros H; apply (i_send_lt _ _ _ I) in H; lia).
  constructor; cbn [s_send s_next s_own s_mem s_ack s_log s_lim].
  - intros x H. rewrite look_new. destruct (Nat.eqb_spec (s_next s) x) as [EX|X]; [discriminate|].
    apply in_app_or in H. destruct H as [H|[H|[]]]; [now apply (g_live _ G)|congruence].
  - intros x H1 H2. apply in_app_or in H1. destruct H1 as [H1|[<-|[]]]; apply in_or_app; [|right; now left]. left.
    destruct H2 as [H2|H2]; [subst; contradiction|]. now apply (g_sub _ G).
  - rewrite app_length. cbn [length]. rewrite (g_num _ G).
    unfold owns. rewrite filter_app, app_length. cbn [filter]. unfold own. cbn [s_own existsb]. rewrite Nat.eqb_refl. cbn [orb length].
    assert (EQ : filter (fun x => (x =? s_next s) || existsb (Nat.eqb x) (s_own s)) (s_send s) = filter (fun x => existsb (Nat.eqb x) (s_own s)) (s_send s)).
    { apply filter_ext_in. intros x H. destruct (Nat.eqb_spec x (s_next s)) as [->|]; [contradiction|reflexivity]. }
    rewrite EQ. lia.
Qed.
Lemma send_other_ok ss h s : inv ss h s -> good s -> exists s', send_other s = Ok s' /\ good s'.
Proof.
  intros I G. unfold send_other.
  rewrite push_live by (intros y Y; rewrite look_new; destruct (s_next s =? y); [discriminate|]; now apply (g_live _ G)). cbn [obind].
  eexists. split; [reflexivity|].
  assert (NO : ~ In (s_next s) (s_own s)) by (intros H; apply (i_own_lt _ _ _ I) in H; lia).
  constructor; cbn [s_send s_next s_own s_mem s_ack s_log s_lim].
  - intros x H. rewrite look_new. destruct (Nat.eqb_spec (s_next s) x) as [EX|X]; [discriminate|].
    apply in_app_or in H. destruct H as [H|[H|[]]]; [now apply (g_live _ G)|congruence].
  - intros x H1 H2. apply in_app_or in H1. destruct H1 as [H1|[<-|[]]]; [now apply (g_sub _ G)|contradiction].
  - rewrite (g_num _ G). change (owns _ (s_send s ++ [s_next s])) with (owns s (s_send s ++ [s_next s])). rewrite owns_app, owns_cons.
    destruct (own s (s_next s)) eqn:O; [apply own_in in O; contradiction|]. cbn. lia.
Qed.
Lemma send_loop_ok ss h n : forall s, inv ss h s -> good s -> exists q m w, send_loop n (s_send s) (s_mem s) (s_log s) = Ok (q, m, w) /\
  good (mkSt m (s_next s) q (s_ack s) (s_lim s) (s_own s) w) /\ (length (s_send s) <= n -> q = []).
Proof.
  induction n as [|n IH]; intros s I G.
  - exists (s_send s), (s_mem s), (s_log s). split; [|split].
    + destruct (s_send s) as [|x q] eqn:Q; [reflexivity|]. cbn [send_loop]. unfold deref. destruct (look (s_mem s) x) eqn:K; [reflexivity|].
      destruct (g_live _ G x); [rewrite Q; now left|exact K].
    + destruct G. constructor; assumption.
    + intros L. destruct (s_send s); [reflexivity|cbn in L; lia].
  - destruct (s_send s) as [|x q] eqn:Q.
    + exists [], (s_mem s), (s_log s). split; [reflexivity|]. split; [|reflexivity]. destruct G as [A B C]. rewrite Q in *. constructor; assumption.
    + pose proof (i_send_nd _ _ _ I) as ND. rewrite Q in ND. inversion ND as [|? ? NX ND']; subst.
      pose proof (g_live _ G) as LV. rewrite Q in LV.
      assert (LQ : live (s_mem s) q) by (intros y Y; apply LV; now right).
      destruct (look (s_mem s) x) as [f|] eqn:K; [|destruct (LV x (or_introl eq_refl)); exact K].
      cbn [send_loop]. unfold deref at 1. rewrite K. cbn [obind]. rewrite (touch_live _ _ LQ). cbn [obind].
      set (s1 := mkSt (if f_need f then s_mem s else free (s_mem s) x) (s_next s) q (s_ack s) (s_lim s) (s_own s) (s_log s ++ [if f_need f then WOwn (f_pay f) else WOther])).
      assert (I1 : inv ss h s1).
      { unfold s1. apply (inv_send_loop ss h 1 s); [exact I|]. rewrite Q. cbn [send_loop]. unfold deref at 1. rewrite K. cbn [obind]. rewrite (touch_live _ _ LQ). cbn [obind].
        destruct q as [|y q]; [reflexivity|]. cbn [send_loop]. unfold deref. destruct (look (if f_need f then s_mem s else free (s_mem s) x) y) eqn:KY; [reflexivity|].
        exfalso. destruct (f_need f); [apply (LQ y (or_introl eq_refl)); exact KY|]. rewrite look_free in KY.
        destruct (Nat.eqb_spec x y) as [->|]; [apply NX; now left|]. apply (LQ y (or_introl eq_refl)). exact KY. }
      assert (G1 : good s1).
      { unfold s1. constructor; cbn [s_send s_next s_own s_mem s_ack s_log s_lim].
        - intros y Y. destruct (f_need f); [now apply LQ|]. rewrite look_free. destruct (Nat.eqb_spec x y) as [->|]; [contradiction|now apply LQ].
        - intros y Y1 Y2. apply (g_sub _ G); [rewrite Q; now right|exact Y2].
        - rewrite (g_num _ G), Q, unacked_app.
          match goal with |- _ = _ + owns ?s' q => change (owns s' q) with (owns s q) end. rewrite owns_cons.
          destruct (i_mem _ _ _ I x f K) as (_ & KO & _). destruct (own s x) eqn:O.
          + apply own_in in O. apply KO in O. rewrite O. lia.
          + destruct (f_need f) eqn:FN; [|lia]. assert (C : In x (s_own s)) by now apply KO. apply own_in in C. congruence. }
      destruct (IH s1 I1 G1) as (q' & m' & w' & E & G' & L'). unfold s1 in E, G', L'. cbn [s_send s_next s_own s_mem s_ack s_log s_lim] in E, G', L'.
      exists q', m', w'. split; [exact E|]. split; [exact G'|]. intros L. apply L'. cbn [length] in L. lia.
Qed.

Lemma timely_prefix ss l h e : timely ss l (h ++ [e]) -> timely ss l h.
Proof. intros T h1 h2 s E R. apply (T h1 (h2 ++ [e]) s); [|exact R]. rewrite E, <- app_assoc. reflexivity. Qed.
Lemma timely_run ss l h : timely ss l h -> exists s, run ss (start l) h = Ok s /\ good s.
Proof.
  induction h as [|e h IH] using rev_ind; intros T.
  - exists (start l). split; [reflexivity|apply good_start].
  - destruct (IH (timely_prefix _ _ _ _ T)) as (s & R & G). pose proof (inv_run _ _ _ _ R) as I.
    rewrite run_app, R. cbn [obind]. rewrite run_one. destruct e as [junk l'| | |n]; cbn [step].
    + unfold recv_settings. destruct (send_own_ok ss h s junk I G) as (s1 & E1 & G1). rewrite E1. cbn [obind].
      apply (inv_own ss h s junk l') in E1; [|exact I].
      apply (send_other_ok ss (h ++ [RSettings junk l'])); [apply inv_lim; exact E1|]. destruct G1; constructor; assumption.
    + apply (send_other_ok ss h); assumption.
    + destruct (recv_ack_ok ss h s I) as (m & l' & E & _ & A & B). eexists. split; [exact E|].
      assert (Z : owns s (s_send s) = 0).
      { pose proof (T h [] s eq_refl R). pose proof (i_count _ _ _ I). pose proof (i_made _ _ _ I). lia. }
      constructor; cbn [s_send s_next s_own s_mem s_ack s_log s_lim].
      * intros x X. rewrite B; [now apply (g_live _ G)|]. intros Y. apply (i_ack _ _ _ I) in Y. apply (owns_none s (s_send s) x Z X). tauto.
      * intros x X Y. now destruct (owns_none s (s_send s) x Z X).
      * rewrite unacked_app. cbn [length]. match goal with |- _ = _ + owns ?s' ?q => change (owns s' q) with (owns s q) end. lia.
    + unfold writable. destruct (send_loop_ok ss h n s I G) as (q & m & w & E & G' & _). rewrite E. cbn [obind]. eexists. split; [reflexivity|exact G'].
Qed.
Lemma timely_safe ss l h : timely ss l h -> exists s, run ss (start l) h = Ok s /\ on_wire (s_log s) <= received h /\
  forall p, In (WOwn p) (s_log s) -> exists junk, p = settings_payload_set (fresh (6 * length ss) junk) ss.
Proof.
  intros T. destruct (timely_run ss l h T) as (s & R & _). exists s. split; [exact R|]. pose proof (inv_run _ _ _ _ R) as I.
  split; [pose proof (i_count _ _ _ I); pose proof (i_made _ _ _ I); lia|apply (i_pay _ _ _ I)].
Qed.
Lemma all_sent ss l h s n : timely ss l h -> run ss (start l) h = Ok s -> length (s_send s) <= n ->
  exists s', run ss (start l) (h ++ [Writable n]) = Ok s' /\ s_send s' = [] /\ on_wire (s_log s') = received h.
Proof.
  intros T R L. destruct (timely_run ss l h T) as (s0 & R0 & G). rewrite R in R0. injection R0 as <-.
  pose proof (inv_run _ _ _ _ R) as I. destruct (send_loop_ok ss h n s I G) as (q & m & w & E & _ & Q). specialize (Q L). subst q.
  assert (R1 : run ss (start l) (h ++ [Writable n]) = Ok (mkSt m (s_next s) [] (s_ack s) (s_lim s) (s_own s) w)).
  { rewrite run_app, R. cbn [obind]. rewrite run_one. cbn [step]. unfold writable. rewrite E. reflexivity. }
  eexists. split; [exact R1|]. split; [reflexivity|]. pose proof (inv_run _ _ _ _ R1) as I1.
  pose proof (i_count _ _ _ I1) as C. pose proof (i_made _ _ _ I1) as M. rewrite received_app in M. cbn in C, M |- *. lia.
Qed.

(** ** Closing *)
Lemma close_send_ok : forall q m n, live m q -> NoDup q -> exists m', close_send q m n = Ok (m', n - length (filter (fun x => match look m x with Some f => f_need f | None => false end) q)) /\
  (forall y, In y q -> look m' y = None) /\ (forall y, ~ In y q -> look m' y = look m y).
Proof.
  induction q as [|x q IH]; intros m n L D.
  - exists m. split; [cbn; now rewrite Nat.sub_0_r|]. split; [now intros y []|reflexivity].
  - cbn [close_send]. unfold deref. destruct (look m x) as [f|] eqn:K; [|now destruct (L x (or_introl eq_refl))].
    cbn [obind]. rewrite touch_live by (intros y Y; apply L; now right). cbn [obind].
    inversion D as [|? ? NX D']; subst.
    destruct (IH (free m x) (if f_need f then n - 1 else n)) as (m' & E & A & B).
    { intros y Y. rewrite look_free. destruct (Nat.eqb_spec x y) as [->|]; [contradiction|]. apply L. now right. }
    { exact D'. }
    exists m'. split; [|split].
    + rewrite E. f_equal. f_equal. cbn [filter]. rewrite K.
      rewrite (filter_ext_in (fun z => match look (free m x) z with Some f0 => f_need f0 | None => false end) (fun z => match look m z with Some f0 => f_need f0 | None => false end)).
      * destruct (f_need f); cbn [length]; lia.
      * intros z Z. rewrite look_free. destruct (Nat.eqb_spec x z) as [->|]; [contradiction|reflexivity].
    + intros y [->|Y]; [|now apply A]. rewrite B by exact NX. rewrite look_free, Nat.eqb_refl. reflexivity.
    + intros y Y. rewrite B by (intros H; apply Y; now right). rewrite look_free.
      destruct (Nat.eqb_spec x y) as [->|]; [destruct Y; now left|reflexivity].
Qed.
Lemma close_ack_ok : forall q m, live m q -> NoDup q -> exists m', close_ack q m = Ok m'.
Proof.
  induction q as [|x q IH]; intros m L D; [exists m; reflexivity|]. cbn [close_ack]. unfold deref.
  destruct (look m x) as [f|] eqn:K; [|now destruct (L x (or_introl eq_refl))]. cbn [obind]. inversion D as [|? ? NX D']; subst. apply IH; [|exact D'].
  intros y Y. rewrite look_free. destruct (Nat.eqb_spec x y) as [->|]; [contradiction|]. apply L. now right.
Qed.
Lemma close_ack_dead : forall q m x, In x q -> look m x = None -> close_ack q m = UB UseAfterFree.
Proof.
  induction q as [|y q IH]; intros m x I K; [destruct I|]. cbn [close_ack]. unfold deref. destruct (look m y) eqn:F; [|reflexivity]. cbn [obind].
  destruct I as [->|I]; [congruence|]. apply (IH _ x I). rewrite look_free. destruct (y =? x); [reflexivity|exact K].
Qed.
Lemma close_exact ss l h s : timely ss l h -> run ss (start l) h = Ok s ->
  (close s = UB UseAfterFree <-> on_wire (s_log s) < received h /\ 0 < unacked (s_log s)) /\ (close s = UB UseAfterFree \/ exists m, close s = Ok m).
Proof.
  intros T R. destruct (timely_run ss l h T) as (s0 & R0 & G). rewrite R in R0. injection R0 as <-.
  pose proof (inv_run _ _ _ _ R) as I.
  destruct (close_send_ok (s_send s) (s_mem s) (length (s_ack s)) (g_live _ G) (i_send_nd _ _ _ I)) as (m & E & A & B).
  assert (C : length (filter (fun x => match look (s_mem s) x with Some f => f_need f | None => false end) (s_send s)) = owns s (s_send s)).
  { unfold owns. f_equal. apply filter_ext_in. intros x X. pose proof (g_live _ G x X) as LX. destruct (look (s_mem s) x) as [f|] eqn:K; [|congruence].
    destruct (i_mem _ _ _ I x f K) as (_ & KO & _). destruct (own s x) eqn:O.
    - apply own_in in O. now apply KO.
    - destruct (f_need f) eqn:FN; [|reflexivity]. assert (H : In x (s_own s)) by now apply KO. apply own_in in H. congruence. }
  rewrite C in E. unfold close. rewrite E. cbn [obind].
  pose proof (g_num _ G) as N. pose proof (i_count _ _ _ I) as CT. pose proof (i_made _ _ _ I) as M.
  replace (length (s_ack s) - owns s (s_send s)) with (unacked (s_log s)) by lia.
  destruct (unacked (s_log s)) as [|k] eqn:U.
  - split; [split; [discriminate|lia]|]. right. now exists m.
  - destruct (Nat.eq_dec (owns s (s_send s)) 0) as [Z|Z].
    + destruct (close_ack_ok (s_ack s) m) as (m' & E').
      * intros x X. destruct (i_ack _ _ _ I x X) as (XO & XL). rewrite B; [exact XL|]. intros Y. now apply (owns_none s (s_send s) x Z Y).
      * apply (i_ack_nd _ _ _ I).
      * rewrite E'. split; [split; [discriminate|lia]|]. right. now exists m'.
    + destruct (owns_pos s (s_send s)) as (x & X1 & X2); [lia|].
      rewrite (close_ack_dead (s_ack s) m x); [|now apply (g_sub _ G)|now apply A]. split; [split; [lia|reflexivity]|now left].
Qed.

(** ** The limits *)
Lemma set_limits_one l id v : (id < 65536)%N -> (v < 4294967296)%N -> set_limits l (setting_bytes (id, v)) = set_limit l id (v mod 65536)%N.
Proof.
  intros H1 H2. unfold setting_bytes. cbn [fst snd set_limits]. rewrite be2, be4 by assumption. reflexivity.
Qed.
Lemma ack_limits_none l h s : run [] (start l) h = Ok s -> exists s', run [] (start l) (h ++ [RAck]) = Ok s' /\ s_lim s' = s_lim s.
Proof.
  intros R. pose proof (inv_run _ _ _ _ R) as I. destruct (recv_ack_ok [] h s I) as (m & l' & E & K & _).
  rewrite run_app, R. cbn [obind]. rewrite run_one. cbn [step]. rewrite E. eexists. split; [reflexivity|]. cbn [s_lim].
  assert (P : forall x f, In x (s_ack s) -> look (s_mem s) x = Some f -> f_pay f = []).
  { intros x f X F. destruct (i_mem _ _ _ I x f F) as (_ & O & P). destruct (P (proj2 O (proj1 (i_ack _ _ _ I x X)))) as (_ & junk & ->). reflexivity. }
  clear E. revert P K. generalize (s_mem s) (s_lim s). induction (s_ack s) as [|x q IH]; intros mm ll P K; cbn [ack_loop] in K; [congruence|].
  unfold deref in K. destruct (look mm x) as [f|] eqn:F; [|discriminate K]. cbn [obind] in K. destruct (touch mm (hd_error q)); [|discriminate K]. cbn [obind] in K.
  rewrite (P x f (or_introl eq_refl) F) in K. cbn [set_limits] in K. apply IH in K; [exact K|].
  intros y g Y H. rewrite look_free in H. destruct (x =? y); [discriminate H|]. apply (P y g); [now right|exact H].
Qed.
Lemma set_limit_idem l id v : set_limit (set_limit l id v) id v = set_limit l id v.
Proof.
  unfold set_limit. destruct (id =? 1)%N eqn:E1; [reflexivity|]. destruct (id =? 2)%N eqn:E2; [reflexivity|]. destruct (id =? 3)%N eqn:E3; [reflexivity|].
  destruct (id =? 4)%N eqn:E4; [reflexivity|]. destruct (id =? 5)%N eqn:E5; [reflexivity|]. destruct (id =? 6)%N eqn:E6; reflexivity.
Qed.
Lemma ack_limits_one id v l h s : (id < 65536)%N -> (v < 4294967296)%N -> timely [(id, v)] l h -> run [(id, v)] (start l) h = Ok s -> 0 < unacked (s_log s) ->
  exists s', run [(id, v)] (start l) (h ++ [RAck]) = Ok s' /\ s_lim s' = set_limit (s_lim s) id (v mod 65536)%N.
Proof.
  intros H1 H2 T R U. destruct (timely_run _ l h T) as (s0 & R0 & G). rewrite R in R0. injection R0 as <-.
  pose proof (inv_run _ _ _ _ R) as I. destruct (recv_ack_ok [(id, v)] h s I) as (m & l' & E & K & _).
  rewrite run_app, R. cbn [obind]. rewrite run_one. cbn [step]. rewrite E. eexists. split; [reflexivity|]. cbn [s_lim].
  assert (P : forall x f, In x (s_ack s) -> look (s_mem s) x = Some f -> f_pay f = setting_bytes (id, v)).
  { intros x f X F. destruct (i_mem _ _ _ I x f F) as (_ & O & P). destruct (P (proj2 O (proj1 (i_ack _ _ _ I x X)))) as (_ & junk & ->).
    change (6 * length [(id, v)]) with 6. apply settings_one; assumption. }
  assert (LA : s_ack s <> []) by (intros Z; pose proof (g_num _ G) as N; rewrite Z in N; cbn in N; lia).
  assert (GEN : forall q mm ll, (forall x f, In x q -> look mm x = Some f -> f_pay f = setting_bytes (id, v)) -> forall r, ack_loop q mm ll = Ok (m, r) ->
    r = match q with [] => ll | _ => set_limit ll id (v mod 65536)%N end).
  { clear - H1 H2. induction q as [|x q IH]; intros mm ll P r K; cbn [ack_loop] in K; [congruence|].
    unfold deref in K. destruct (look mm x) as [f|] eqn:F; [|discriminate K]. cbn [obind] in K. destruct (touch mm (hd_error q)); [|discriminate K]. cbn [obind] in K.
    rewrite (P x f (or_introl eq_refl) F) in K. rewrite set_limits_one in K by assumption.
    apply IH in K; [|intros y g Y H; rewrite look_free in H; destruct (x =? y); [discriminate H|]; apply (P y g); [now right|exact H]].
    destruct q; [exact K|]. rewrite set_limit_idem in K. exact K. }
  rewrite (GEN _ _ _ P _ K). destruct (s_ack s); [congruence|reflexivity].
Qed.
(** The limit with the number [id], 0 if there is none. *)
Definition limit (id : N) (l : pset) : N :=
  match id with
  | 1 => p_header_table_size l | 2 => p_enable_push l | 3 => p_max_concurrent_streams l | 4 => p_initial_window_size l
  | 5 => p_max_frame_size l | 6 => p_max_header_list_size l | _ => 0
  end%N.
Lemma limit_cases id : (id = 1 \/ id = 2 \/ id = 3 \/ id = 4 \/ id = 5 \/ id = 6 \/ (((1 <=? id) && (id <=? 6)) = false /\ forall l, limit id l = 0))%N.
Proof.
  destruct id as [|p]; [do 6 right; split; [reflexivity|reflexivity]|].
  do 3 (try destruct p as [p|p|]); try (now (do 6 right; split; [lia|reflexivity])); auto 8.
Qed.
Lemma limit_set id v l : (v < 65536)%N -> (limit id (set_limit l id v) = if (1 <=? id) && (id <=? 6) then v else 0)%N /\
  forall j, j <> id -> limit j (set_limit l id v) = limit j l.
Proof.
  intros V. assert (M : (MAX_FRAME_SIZE_MAX <? v)%N = false) by (unfold MAX_FRAME_SIZE_MAX; lia).
  destruct (limit_cases id) as [->|[->|[->|[->|[->|[->|(O & Z)]]]]]]; try (split; [cbn; try rewrite M; reflexivity|];
    intros j J; destruct (limit_cases j) as [->|[->|[->|[->|[->|[->|(_ & Z)]]]]]]; try congruence; try (now rewrite !Z); reflexivity).
  rewrite O. split; [apply Z|]. intros j J. unfold set_limit.
  repeat match goal with |- context [(id =? ?c)%N] => replace (id =? c)%N with false by lia end. reflexivity.
Qed.
Lemma ack_limit_values id v l h s : (id < 65536)%N -> (v < 4294967296)%N -> timely [(id, v)] l h -> run [(id, v)] (start l) h = Ok s -> 0 < unacked (s_log s) ->
  exists s', run [(id, v)] (start l) (h ++ [RAck]) = Ok s' /\
    (limit id (s_lim s') = if (1 <=? id)%N && (id <=? 6)%N then v mod 65536 else 0)%N /\ forall j, j <> id -> limit j (s_lim s') = limit j (s_lim s).
Proof.
  intros H1 H2 T R U. destruct (ack_limits_one id v l h s H1 H2 T R U) as (s' & R' & E). exists s'. split; [exact R'|]. rewrite E.
  apply limit_set. apply N.mod_lt. discriminate.
Qed.

(** ** What is announced, and the client's limits without acknowledgements (C124). *)
Lemma env_from_in id0 env : forall id v, In (id, v) (env_from id0 env) <-> exists k s, (id = id0 + N.of_nat k)%N /\ nth_error env k = Some (Some s) /\ v = u32 (strtoll s).
Proof.
  revert id0. induction env as [|[s|] env IH]; intros id0 id v; cbn [env_from].
  - split; [intros []|]. intros (k & s & _ & E & _). destruct k; discriminate E.
  - cbn [In]. rewrite IH. split.
    + intros [[= <- <-]|(k & s' & A & B & C)].
      * exists 0, s. split; [lia|]. split; reflexivity.
      * exists (S k), s'. split; [lia|]. split; assumption.
    + intros ([|k] & s' & A & B & C); cbn [nth_error] in B.
      * injection B as <-. left. f_equal; [lia|auto].
      * right. exists k, s'. split; [lia|]. split; assumption.
  - rewrite IH. split.
    + intros (k & s' & A & B & C). exists (S k), s'. split; [lia|]. split; assumption.
    + intros ([|k] & s' & A & B & C); cbn [nth_error] in B; [discriminate B|]. exists k, s'. split; [lia|]. split; assumption.
Qed.
(** The limits the client announced last. *)
Definition announced (l : pset) (h : list ev) : pset := fold_left (fun l e => match e with RSettings _ l' => l' | _ => l end) h l.
Lemma send_other_lim s s' : send_other s = Ok s' -> s_lim s' = s_lim s.
Proof. unfold send_other. destruct (push _ _ _); cbn [obind]; [|discriminate]. intros [= <-]. reflexivity. Qed.
Lemma run_announced ss h : forall s s', (forall e, In e h -> e <> RAck) -> run ss s h = Ok s' -> s_lim s' = announced (s_lim s) h.
Proof.
  induction h as [|e h IH]; intros s s' NA R; cbn [run] in R; [injection R as <-; reflexivity|].
  destruct (step ss s e) as [s1|] eqn:E; cbn [obind] in R; [|discriminate R].
  rewrite (IH s1 s' (fun x I => NA x (or_intror I)) R). unfold announced. cbn [fold_left]. f_equal.
  destruct e as [junk l'| | |n]; cbn [step] in E.
  - unfold recv_settings in E. destruct (send_own ss junk s) as [s2|]; cbn [obind] in E; [|discriminate E]. apply send_other_lim in E. exact E.
  - apply send_other_lim. exact E.
  - destruct (NA RAck (or_introl eq_refl) eq_refl).
  - unfold writable in E. destruct (send_loop _ _ _ _) as [[[q m] w]|]; cbn [obind] in E; [|discriminate E]. injection E as <-. reflexivity.
Qed.
