(** Proofs about opening the listening socket. *)
From Verif Require Import Base Status Listen.
From Coq Require Import NArith ZArith List Bool Arith Lia ZifyBool ZifyNat ZifyN.
Import ListNotations.
Local Open Scope nat_scope.

(** ** Specification. *)
(** An address a socket can be bound to. *)
Definition usable (a : addr) : Prop := a_socket a = true /\ a_nonblock a = true /\ a_reuse a = true /\ a_bind a = true.
(** An address whose socket is created but cannot be made non-blocking. *)
Definition stuck (a : addr) : Prop := a_socket a = true /\ a_nonblock a = false.
(** An address that is passed over. *)
Definition skipped (a : addr) : Prop :=
  a_socket a = false \/ stuck a \/ (a_socket a = true /\ a_nonblock a = true /\ a_reuse a = true /\ a_bind a = false).
(** All addresses before the i-th are passed over. *)
Definition reached (l : list addr) (i : nat) : Prop := forall j b, j < i -> nth_error l j = Some b -> skipped b.
(** The addresses the configuration asks for. *)
Definition addresses (w : world) (u : setup) (l : list addr) : Prop := w_resolve w (u_host u) (dec_z (u_port u)) = Some l.
(** With TLS, both paths are given, short enough and there. *)
Definition ssl_ready (w : world) (u : setup) : Prop :=
  u_ssl u = true -> exists c k, u_crt u = Some c /\ u_key u = Some k /\ (N.of_nat (length c) < 4096)%N /\ (N.of_nat (length k) < 4096)%N /\
    w_real w c <> None /\ w_real w k <> None.
(** The socket of the i-th address was created and forgotten. *)
Definition forgotten (w : world) (u : setup) (i : nat) : Prop :=
  exists l b, addresses w u l /\ reached l i /\ nth_error l i = Some b /\ stuck b.

Lemma reached_cons a t n : reached (a :: t) (S n) <-> skipped a /\ reached t n.
Proof.
  split.
  - intro H. split.
    + apply (H 0); [lia|reflexivity].
    + intros j b L E. apply (H (S j)); [lia|exact E].
  - intros [A H] [|j] b L E; cbn [nth_error] in E.
    + injection E as <-. exact A.
    + apply (H j); [lia|exact E].
Qed.
Lemma reached_0 l : reached l 0.
Proof. intros j b L. lia. Qed.

(** ** The loop. *)
Definition left (l : list addr) (i : nat) (x : nat) : Prop :=
  exists j b, x = i + j /\ nth_error l j = Some b /\ stuck b /\ reached l j.
Lemma left_skip a t i x : skipped a -> ~ stuck a -> (left (a :: t) i x <-> left t (S i) x).
Proof.
  intros S NS. split.
  - intros (j & b & E & A & B & C). destruct j as [|j]; cbn [nth_error] in A.
    + injection A as <-. contradiction.
    + exists j, b. apply reached_cons in C. repeat split; [lia|exact A|exact (proj1 B)|exact (proj2 B)|exact (proj2 C)].
  - intros (j & b & E & A & B & C). exists (Datatypes.S j), b. split; [lia|]. split; [exact A|]. split; [exact B|].
    apply reached_cons. exact (conj S C).
Qed.
Lemma left_stuck a t i x : stuck a -> (left (a :: t) i x <-> x = i \/ left t (S i) x).
Proof.
  intros S. split.
  - intros (j & b & E & A & B & C). destruct j as [|j]; cbn [nth_error] in A.
    + left. lia.
    + right. exists j, b. apply reached_cons in C. split; [lia|]. split; [exact A|]. split; [exact B|exact (proj2 C)].
  - intros [->|(j & b & E & A & B & C)].
    + exists 0, a. split; [lia|]. split; [reflexivity|]. split; [exact S|apply reached_0].
    + exists (Datatypes.S j), b. split; [lia|]. split; [exact A|]. split; [exact B|].
      apply reached_cons. split; [right; left; exact S|exact C].
Qed.
Lemma left_stop a t i x : ~ skipped a -> ~ left (a :: t) i x.
Proof.
  intros NS (j & b & E & A & B & C). destruct j as [|j]; cbn [nth_error] in A.
  - injection A as <-. apply NS. right. left. exact B.
  - apply reached_cons in C. exact (NS (proj1 C)).
Qed.

Lemma bind_loop_spec l : forall i op,
  match bind_loop l i op with
  | inl op' => (forall x, In x op' <-> In x op \/ left l i x) /\
      exists n a, nth_error l n = Some a /\ reached l n /\ a_socket a = true /\ a_nonblock a = true /\ a_reuse a = false
  | inr (op', None) => (forall x, In x op' <-> In x op \/ left l i x) /\ reached l (length l)
  | inr (op', Some (k, a)) => (forall x, In x op' <-> In x op \/ x = k \/ left l i x) /\
      exists n, k = i + n /\ nth_error l n = Some a /\ reached l n /\ usable a
  end.
Proof.
  induction l as [|a t IH]; intros i op; cbn [bind_loop].
  - split; [|apply reached_0]. intro x. split; [auto|]. intros [H|(j & b & _ & E & _)]; [exact H|destruct j; discriminate E].
  - destruct (a_socket a) eqn:E1; cbn [negb].
    2: { assert (S : skipped a) by (left; exact E1). assert (NS : ~ stuck a) by (intros [Q _]; congruence).
         specialize (IH (Datatypes.S i) op). destruct (bind_loop t (Datatypes.S i) op) as [op'|[op' [[k b]|]]].
         - destruct IH as [I (n & b & A & B & C)]. split.
           + intro x. rewrite I, (left_skip a t i x S NS). reflexivity.
           + exists (Datatypes.S n), b. split; [exact A|]. split; [apply reached_cons; auto|exact C].
         - destruct IH as [I (n & A & B & C & D)]. split.
           + intro x. rewrite I, (left_skip a t i x S NS). reflexivity.
           + exists (Datatypes.S n). split; [lia|]. split; [exact B|]. split; [apply reached_cons; auto|exact D].
         - destruct IH as [I R]. split.
           + intro x. rewrite I, (left_skip a t i x S NS). reflexivity.
           + cbn [length]. apply reached_cons. auto. }
    destruct (a_nonblock a) eqn:E2; cbn [negb].
    2: { assert (S : stuck a) by (split; assumption).
         assert (SK : skipped a) by (right; left; exact S).
         specialize (IH (Datatypes.S i) (op ++ [i])). destruct (bind_loop t (Datatypes.S i) (op ++ [i])) as [op'|[op' [[k b]|]]].
         - destruct IH as [I (n & b & A & B & C)]. split.
           + intro x. rewrite I, (left_stuck a t i x S), in_app_iff. cbn [In]. intuition congruence.
           + exists (Datatypes.S n), b. split; [exact A|]. split; [apply reached_cons; auto|exact C].
         - destruct IH as [I (n & A & B & C & D)]. split.
           + intro x. rewrite I, (left_stuck a t i x S), in_app_iff. cbn [In]. intuition congruence.
           + exists (Datatypes.S n). split; [lia|]. split; [exact B|]. split; [apply reached_cons; auto|exact D].
         - destruct IH as [I R]. split.
           + intro x. rewrite I, (left_stuck a t i x S), in_app_iff. cbn [In]. intuition congruence.
           + cbn [length]. apply reached_cons. auto. }
    destruct (a_reuse a) eqn:E3; cbn [negb].
    2: { assert (NS : ~ skipped a) by (intros [Q|[[_ Q]|(_ & _ & Q & _)]]; congruence). split.
         - intro x. split; [auto|]. intros [H|H]; [exact H|destruct (left_stop a t i x NS H)].
         - exists 0, a. split; [reflexivity|]. split; [apply reached_0|auto]. }
    destruct (a_bind a) eqn:E4.
    + assert (NS : ~ skipped a) by (intros [Q|[[_ Q]|(_ & _ & _ & Q)]]; congruence). split.
      * intro x. rewrite in_app_iff. cbn [In]. split.
        -- intros [H|[H|[]]]; auto.
        -- intros [H|[->|H]]; auto. destruct (left_stop a t i x NS H).
      * exists 0. split; [lia|]. split; [reflexivity|]. split; [apply reached_0|]. split; [exact E1|]. split; [exact E2|]. split; assumption.
    + assert (S : skipped a) by (right; right; auto). assert (NS : ~ stuck a) by (intros [_ Q]; congruence).
      specialize (IH (Datatypes.S i) op). destruct (bind_loop t (Datatypes.S i) op) as [op'|[op' [[k b]|]]].
      * destruct IH as [I (n & b & A & B & C)]. split.
        -- intro x. rewrite I, (left_skip a t i x S NS). reflexivity.
        -- exists (Datatypes.S n), b. split; [exact A|]. split; [apply reached_cons; auto|exact C].
      * destruct IH as [I (n & A & B & C & D)]. split.
        -- intro x. rewrite I, (left_skip a t i x S NS). reflexivity.
        -- exists (Datatypes.S n). split; [lia|]. split; [exact B|]. split; [apply reached_cons; auto|exact D].
      * destruct IH as [I R]. split.
        -- intro x. rewrite I, (left_skip a t i x S NS). reflexivity.
        -- cbn [length]. apply reached_cons. auto.
Qed.

Lemma usable_not_skipped a : usable a -> ~ skipped a.
Proof. intros (A & B & C & D) [Q|[[_ Q]|(_ & _ & _ & Q)]]; congruence. Qed.
Lemma refused_not_skipped a : a_socket a = true -> a_nonblock a = true -> a_reuse a = false -> ~ skipped a.
Proof. intros A B C [Q|[[_ Q]|(_ & _ & Q & _)]]; congruence. Qed.
(** Only one address can end the loop. *)
Lemma stop_unique l n m a b : nth_error l n = Some a -> reached l n -> ~ skipped a -> nth_error l m = Some b -> reached l m -> ~ skipped b -> n = m.
Proof.
  intros A R S B Q T. destruct (Nat.lt_total n m) as [H|[H|H]]; [|exact H|].
  - destruct (S (Q n a H A)).
  - destruct (T (R m b H B)).
Qed.

(** ** Listening. *)
Lemma ssl_path_ok w s r : ssl_path w s = Ok r -> (N.of_nat (length s) < 4096)%N /\ r = w_real w s.
Proof. unfold ssl_path, PATH_MAX. destruct (4096 <? N.of_nat (length s) + 1)%N eqn:E; [discriminate|]. intros [= <-]. split; [lia|reflexivity]. Qed.
Lemma ssl_path_short w s : (N.of_nat (length s) < 4096)%N -> ssl_path w s = Ok (w_real w s).
Proof. intro H. unfold ssl_path, PATH_MAX. destruct (4096 <? N.of_nat (length s) + 1)%N eqn:E; [lia|reflexivity]. Qed.

Lemma listening_iff w u i : (exists r, socket_init w u = Ok r /\ f_verdict r = Listening i) <->
  exists l a, addresses w u l /\ reached l i /\ nth_error l i = Some a /\ usable a /\ a_name a = true /\ a_listen a = true /\ ssl_ready w u.
Proof.
  unfold socket_init, addresses, ssl_ready. split.
  - intros (r & E & V). destruct (w_resolve w (u_host u) (dec_z (u_port u))) as [l|]; [|injection E as <-; discriminate V].
    pose proof (bind_loop_spec l 0 []) as B. destruct (bind_loop l 0 []) as [op|[op [[k a]|]]]; [injection E as <-; discriminate V| |injection E as <-; discriminate V].
    destruct B as [_ (n & K & A & R & U)]. cbn [Nat.add] in K. subst n.
    destruct (a_name a) eqn:E1; cbn [negb] in E; [|injection E as <-; discriminate V].
    destruct (a_listen a) eqn:E2; cbn [negb] in E; [|injection E as <-; discriminate V].
    destruct (u_ssl u) eqn:E3; cbn [negb] in E.
    2: { injection E as <-. injection V as <-. exists l, a. split; [reflexivity|]. split; [exact R|]. split; [exact A|]. split; [exact U|].
         split; [exact E1|]. split; [exact E2|discriminate]. }
    destruct (u_crt u) as [c|]; [|injection E as <-; discriminate V].
    destruct (u_key u) as [q|]; [|injection E as <-; discriminate V].
    destruct (ssl_path w c) as [rc|] eqn:P1; cbn [obind] in E; [|discriminate E].
    destruct rc as [rc|]; [|injection E as <-; discriminate V].
    destruct (ssl_path w q) as [rq|] eqn:P2; cbn [obind] in E; [|discriminate E].
    destruct rq as [rq|]; [|injection E as <-; discriminate V].
    injection E as <-. injection V as <-. apply ssl_path_ok in P1, P2. exists l, a.
    split; [reflexivity|]. split; [exact R|]. split; [exact A|]. split; [exact U|]. split; [exact E1|]. split; [exact E2|].
    intros _. exists c, q. destruct P1 as [L1 Q1], P2 as [L2 Q2]. split; [reflexivity|]. split; [reflexivity|]. split; [exact L1|]. split; [exact L2|].
    split; [rewrite <- Q1; discriminate|rewrite <- Q2; discriminate].
  - intros (l & a & -> & R & A & U & E1 & E2 & H).
    pose proof (bind_loop_spec l 0 []) as B. destruct (bind_loop l 0 []) as [op|[op [[k b]|]]].
    + destruct B as [_ (n & b & A' & R' & C1 & C2 & C3)]. exfalso.
      pose proof (stop_unique l i n a b A R (usable_not_skipped a U) A' R' (refused_not_skipped b C1 C2 C3)) as ->. rewrite A in A'. injection A' as <-.
      destruct U as (_ & _ & U & _). congruence.
    + destruct B as [_ (n & K & A' & R' & U')]. cbn [Nat.add] in K. subst n.
      pose proof (stop_unique l i k a b A R (usable_not_skipped a U) A' R' (usable_not_skipped b U')) as <-. rewrite A in A'. injection A' as <-.
      rewrite E1, E2. cbn [negb]. destruct (u_ssl u); cbn [negb].
      * destruct (H eq_refl) as (c & q & -> & -> & L1 & L2 & N1 & N2). rewrite (ssl_path_short w c L1). cbn [obind].
        destruct (w_real w c) as [rc|]; [|contradiction]. rewrite (ssl_path_short w q L2). cbn [obind].
        destruct (w_real w q) as [rq|]; [|contradiction]. eexists. split; reflexivity.
      * eexists. split; reflexivity.
    + destruct B as [_ Q]. exfalso. apply (usable_not_skipped a U). apply (Q i a); [|exact A]. apply nth_error_Some. congruence.
Qed.

(** ** What stays open. *)
Lemma left_forgotten w u l x : addresses w u l -> (left l 0 x <-> forgotten w u x).
Proof.
  intro A. split.
  - intros (j & b & E & B & C & D). cbn [Nat.add] in E. subst j. exists l, b. auto.
  - intros (l' & b & A' & B & C & D). unfold addresses in *. rewrite A in A'. injection A' as <-. exists x, b. auto.
Qed.
Lemma give_up_in op i x : In x (f_open (give_up op i)) <-> In x op /\ x <> i.
Proof. unfold give_up. cbn [f_open]. rewrite filter_In. destruct (Nat.eqb_spec x i); cbn [negb]; intuition congruence. Qed.

Lemma open_iff w u r : socket_init w u = Ok r -> forall x, In x (f_open r) <-> f_verdict r = Listening x \/ forgotten w u x.
Proof.
  unfold socket_init. destruct (w_resolve w (u_host u) (dec_z (u_port u))) as [l|] eqn:W.
  2: { intros [= <-] x. cbn [f_open f_verdict In]. split; [tauto|]. intros [H|(l & b & A & _)]; [discriminate H|unfold addresses in A; congruence]. }
  intros E x. rewrite <- (left_forgotten w u l x W).
  pose proof (bind_loop_spec l 0 []) as B. destruct (bind_loop l 0 []) as [op|[op [[k a]|]]].
  - injection E as <-. destruct B as [B _]. cbn [f_open f_verdict]. rewrite B. cbn [In]. intuition discriminate.
  - destruct B as [B (n & K & A & R & U)]. cbn [Nat.add] in K. subst n.
    assert (G : In x (f_open (give_up op k)) <-> f_verdict (give_up op k) = Listening x \/ left l 0 x).
    { rewrite give_up_in, B. cbn [In give_up f_verdict]. split.
      - intros [[[]|[H|H]] N]; [congruence|auto].
      - intros [H|H]; [discriminate H|]. split; [auto|]. intros ->. destruct H as (j & b & Q & A' & S & _). cbn [Nat.add] in Q. subst j.
        rewrite A in A'. injection A' as <-. destruct S as [_ S], U as (_ & U & _). congruence. }
    assert (O : forall p, In x (f_open (mkAfter op (Listening k) p)) <-> f_verdict (mkAfter op (Listening k) p) = Listening x \/ left l 0 x).
    { intro p. cbn [f_open f_verdict]. rewrite B. cbn [In]. split.
      - intros [[]|[->|H]]; auto.
      - intros [[= ->]|H]; auto. }
    destruct (a_name a); cbn [negb] in E; [|injection E as <-; exact G].
    destruct (a_listen a); cbn [negb] in E; [|injection E as <-; exact G].
    destruct (u_ssl u); cbn [negb] in E; [|injection E as <-; apply O].
    destruct (u_crt u) as [c|]; [|injection E as <-; exact G].
    destruct (u_key u) as [q|]; [|injection E as <-; exact G].
    destruct (ssl_path w c) as [[rc|]|]; cbn [obind] in E; [|injection E as <-; exact G|discriminate E].
    destruct (ssl_path w q) as [[rq|]|]; cbn [obind] in E; [|injection E as <-; exact G|discriminate E].
    injection E as <-. apply O.
  - injection E as <-. destruct B as [B _]. cbn [f_open f_verdict]. rewrite B. cbn [In]. intuition discriminate.
Qed.

(** ** A refused option. *)
Definition refused (w : world) (u : setup) : Prop :=
  exists l i a, addresses w u l /\ reached l i /\ nth_error l i = Some a /\ a_socket a = true /\ a_nonblock a = true /\ a_reuse a = false.
Lemma untold_iff w u : (exists r, socket_init w u = Ok r /\ f_verdict r = Fails false) <-> refused w u.
Proof.
  unfold socket_init, refused, addresses. split.
  - intros (r & E & V). destruct (w_resolve w (u_host u) (dec_z (u_port u))) as [l|]; [|injection E as <-; discriminate V].
    pose proof (bind_loop_spec l 0 []) as B. destruct (bind_loop l 0 []) as [op|[op [[k a]|]]].
    + destruct B as [_ (n & a & A & R & C)]. exists l, n, a. auto.
    + destruct (a_name a); cbn [negb] in E; [|injection E as <-; discriminate V].
      destruct (a_listen a); cbn [negb] in E; [|injection E as <-; discriminate V].
      destruct (u_ssl u); cbn [negb] in E; [|injection E as <-; discriminate V].
      destruct (u_crt u) as [c|]; [|injection E as <-; discriminate V].
      destruct (u_key u) as [q|]; [|injection E as <-; discriminate V].
      destruct (ssl_path w c) as [[rc|]|]; cbn [obind] in E; [|injection E as <-; discriminate V|discriminate E].
      destruct (ssl_path w q) as [[rq|]|]; cbn [obind] in E; [injection E as <-; discriminate V|injection E as <-; discriminate V|discriminate E].
    + injection E as <-. discriminate V.
  - intros (l & i & a & -> & R & A & C1 & C2 & C3).
    pose proof (bind_loop_spec l 0 []) as B. destruct (bind_loop l 0 []) as [op|[op [[k b]|]]].
    + eexists. split; reflexivity.
    + destruct B as [_ (n & K & A' & R' & U)]. exfalso.
      pose proof (stop_unique l i n a b A R (refused_not_skipped a C1 C2 C3) A' R' (usable_not_skipped b U)) as <-. rewrite A in A'. injection A' as <-.
      destruct U as (_ & _ & U & _). congruence.
    + destruct B as [_ Q]. exfalso. apply (refused_not_skipped a C1 C2 C3). apply (Q i a); [|exact A]. apply nth_error_Some. congruence.
Qed.
(** A long path. *)
Definition long_path (w : world) (u : setup) : Prop :=
  exists l i a c k, addresses w u l /\ reached l i /\ nth_error l i = Some a /\ usable a /\ a_name a = true /\ a_listen a = true /\
    u_ssl u = true /\ u_crt u = Some c /\ u_key u = Some k /\
    ((4096 <= N.of_nat (length c))%N \/ (w_real w c <> None /\ (4096 <= N.of_nat (length k))%N)).
Lemma ub_iff w u e : socket_init w u = UB e <-> e = OutOfBounds /\ long_path w u.
Proof.
  unfold socket_init, long_path, addresses. split.
  - intro E. destruct (w_resolve w (u_host u) (dec_z (u_port u))) as [l|]; [|discriminate E].
    pose proof (bind_loop_spec l 0 []) as B. destruct (bind_loop l 0 []) as [op|[op [[k a]|]]]; [discriminate E| |discriminate E].
    destruct B as [_ (n & K & A & R & U)]. cbn [Nat.add] in K. subst n.
    destruct (a_name a) eqn:E1; cbn [negb] in E; [|discriminate E].
    destruct (a_listen a) eqn:E2; cbn [negb] in E; [|discriminate E].
    destruct (u_ssl u) eqn:E3; cbn [negb] in E; [|discriminate E].
    destruct (u_crt u) as [c|]; [|discriminate E]. destruct (u_key u) as [q|]; [|discriminate E].
    unfold ssl_path, PATH_MAX in E. destruct (4096 <? N.of_nat (length c) + 1)%N eqn:L1; cbn [obind] in E.
    + injection E as <-. split; [reflexivity|]. exists l, k, a, c, q. repeat (split; [first [reflexivity|assumption]|]). left. lia.
    + destruct (w_real w c) as [rc|] eqn:RC; [|discriminate E].
      destruct (4096 <? N.of_nat (length q) + 1)%N eqn:L2; cbn [obind] in E; [|destruct (w_real w q); discriminate E].
      injection E as <-. split; [reflexivity|]. exists l, k, a, c, q. repeat (split; [first [reflexivity|assumption]|]). right. split; [rewrite RC; discriminate|lia].
  - intros [-> (l & i & a & c & q & -> & R & A & U & E1 & E2 & -> & -> & -> & H)].
    pose proof (bind_loop_spec l 0 []) as B. destruct (bind_loop l 0 []) as [op|[op [[k b]|]]].
    + destruct B as [_ (n & b & A' & R' & C1 & C2 & C3)]. exfalso.
      pose proof (stop_unique l i n a b A R (usable_not_skipped a U) A' R' (refused_not_skipped b C1 C2 C3)) as ->. rewrite A in A'. injection A' as <-.
      destruct U as (_ & _ & U & _). congruence.
    + destruct B as [_ (n & K & A' & R' & U')]. cbn [Nat.add] in K. subst n.
      pose proof (stop_unique l i k a b A R (usable_not_skipped a U) A' R' (usable_not_skipped b U')) as <-. rewrite A in A'. injection A' as <-.
      rewrite E1, E2. cbn [negb]. unfold ssl_path, PATH_MAX. destruct (4096 <? N.of_nat (length c) + 1)%N eqn:L1; cbn [obind]; [reflexivity|].
      destruct H as [H|[H1 H2]]; [lia|]. destruct (w_real w c); [|contradiction].
      destruct (4096 <? N.of_nat (length q) + 1)%N eqn:L2; cbn [obind]; [reflexivity|lia].
    + destruct B as [_ Q]. exfalso. apply (usable_not_skipped a U). apply (Q i a); [|exact A]. apply nth_error_Some. congruence.
Qed.
Lemma start_ub_iff w u : (exists e, start w u = UB e) <-> refused w u \/ long_path w u.
Proof.
  unfold start. rewrite <- untold_iff. split.
  - intros [e E]. destruct (socket_init w u) as [r|e'] eqn:S; cbn [obind] in E.
    + destruct (f_verdict r) as [i|[|]] eqn:V; try discriminate E. left. exists r. auto.
    + right. apply (ub_iff w u e'). exact S.
  - intros [(r & S & V)|L].
    + rewrite S. cbn [obind]. rewrite V. eexists. reflexivity.
    + rewrite (proj2 (ub_iff w u OutOfBounds) (conj eq_refl L)). eexists. reflexivity.
Qed.
