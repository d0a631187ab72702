(** Proofs about WorkerSig.v. *)
From Verif Require Import WorkerSig.
From Coq Require Import ZArith List Bool Lia.
From Coq Require Import ZifyBool.
Import ListNotations.
Local Open Scope Z_scope.

(** * Specification *)
(** The signals a serving worker goes on after: an interrupt from the terminal, a closed connection, a new size of the
    terminal, and the master's message about mounted files. *)
Inductive harmless : Z -> Prop := h_int : harmless 2 | h_usr1 : harmless 10 | h_pipe : harmless 13 | h_winch : harmless 28.
(** Every signal a program can be sent. *)
Definition signal (s : Z) : Prop := 1 <= s <= 64.
(** Was signal [s] sent, by anybody? *)
Definition was_sent (s : Z) (os : list op) : Prop := In (Send s) os \/ (s = 10 /\ In Notify os).
Definition sends (o : op) : nat := match o with Send _ | Notify => 1 | _ => 0 end.
Definition reads (o : op) : nat := match o with Read => 1 | _ => 0 end.
Definition total (f : op -> nat) (os : list op) : nat := fold_right (fun o n => (f o + n)%nat) 0%nat os.

Lemma lookup_harmless s : harmless s <-> exists a, lookup s table = Some a.
Proof.
  split.
  - intros []; eexists; reflexivity.
  - intros (a & E). unfold table, lookup, INT, PIPE, WINCH, USR1 in E.
    destruct (Z.eqb_spec 2 s) as [<-|_]; [constructor|]. destruct (Z.eqb_spec 13 s) as [<-|_]; [constructor|].
    destruct (Z.eqb_spec 28 s) as [<-|_]; [constructor|]. destruct (Z.eqb_spec 10 s) as [<-|_]; [constructor|discriminate].
Qed.
Lemma lookup_usr1 s : lookup s table = Some Scan <-> s = 10.
Proof.
  split; [|intros ->; reflexivity]. intro E. unfold table, lookup, INT, PIPE, WINCH, USR1 in E.
  destruct (Z.eqb_spec 2 s); [discriminate|]. destruct (Z.eqb_spec 13 s); [discriminate|]. destruct (Z.eqb_spec 28 s); [discriminate|].
  destruct (Z.eqb_spec 10 s); [congruence|discriminate].
Qed.
Lemma is_in_spec s l : is_in s l = true <-> In s l.
Proof. unfold is_in. rewrite existsb_exists. split; [intros (x & I & E); apply Z.eqb_eq in E; subst; exact I|intro I; exists s; split; [exact I|apply Z.eqb_refl]]. Qed.
Lemma insert_in s x l : In x (insert s l) <-> x = s \/ In x l.
Proof.
  induction l as [|h t IH]; [cbn; intuition|]. cbn [insert]. destruct (before s h); cbn [In]; [intuition|]. rewrite IH. intuition.
Qed.
Lemma insert_len s l : length (insert s l) = S (length l).
Proof. induction l as [|h t IH]; [reflexivity|]. cbn [insert]. destruct (before s h); cbn [length]; congruence. Qed.
Lemma enqueue_in s x l : In x (enqueue s l) <-> x = s \/ In x l.
Proof.
  unfold enqueue. destruct ((s <? 32) && is_in s l) eqn:E; [|apply insert_in].
  apply andb_true_iff in E as (_ & E). apply is_in_spec in E. split; [auto|intros [->|I]; auto].
Qed.
Lemma enqueue_len s l : (length (enqueue s l) <= S (length l))%nat.
Proof. unfold enqueue. destruct (_ && _); [lia|rewrite insert_len; lia]. Qed.
Lemma without_in x xs l : In x (without xs l) <-> In x l /\ ~ In x xs.
Proof. unfold without. rewrite filter_In, negb_true_iff, <- not_true_iff_false, is_in_spec. reflexivity. Qed.
Lemma without_len xs l : (length (without xs l) <= length l)%nat.
Proof. induction l as [|h t IH]; [cbn; lia|]. unfold without in *. cbn [filter length]. destruct (negb _); cbn [length]; lia. Qed.

Lemma run_app inh w os os' : run inh w (os ++ os') = run inh (run inh w os) os'.
Proof. apply fold_left_app. Qed.
Lemma step_ended inh w o : w_phase w <> Starting -> w_phase w <> Serving -> w_phase (step inh w o) = w_phase w.
Proof.
  intros A B. destruct o; cbn [step]; unfold send, begin, read; try reflexivity.
  - destruct (_ || _); [reflexivity|]. destruct (w_phase w) eqn:E; congruence.
  - cbn. destruct (w_phase w) eqn:E; cbn; congruence.
  - destruct (w_phase w) eqn:E; congruence.
  - destruct (w_phase w) eqn:E; congruence.
Qed.
Lemma run_ended inh os : forall w, w_phase w <> Starting -> w_phase w <> Serving -> w_phase (run inh w os) = w_phase w.
Proof.
  induction os as [|o os IH]; intros w A B; [reflexivity|]. unfold run. cbn [fold_left]. fold (run inh (step inh w o) os).
  rewrite IH; rewrite step_ended; auto.
Qed.

(** ** What ends a worker *)
Definition by_signal (os : list op) (w : worker) : Prop :=
  (forall x, In x (w_pending w) -> was_sent x os) /\
  (forall st s, w_phase w = Exited st s -> st = 0 /\ was_sent s os /\ ~ harmless s) /\
  (forall s, w_phase w = Killed s -> was_sent s os).
Lemma was_sent_more s os o : was_sent s os -> was_sent s (os ++ [o]).
Proof. intros [H|(E & H)]; [left|right; split; [exact E|]]; apply in_or_app; auto. Qed.
Lemma by_keep os w : (forall x, In x (w_pending w) -> was_sent x os) -> w_phase w = Starting \/ w_phase w = Serving -> by_signal os w.
Proof. intros P [W|W]; (split; [exact P|]); split; rewrite W; intros; discriminate. Qed.
Lemma by_kill os w s : (forall x, In x (w_pending w) -> was_sent x os) -> was_sent s os -> by_signal os (set_phase (Killed s) w).
Proof. intros P S. split; [exact P|]. split; cbn; [intros; discriminate|]. intros z E. injection E as <-. exact S. Qed.
Lemma send_by inh s w os : by_signal os w -> was_sent s os -> by_signal os (send inh s w).
Proof.
  intros B S. unfold send. destruct (_ || _); [exact B|]. pose proof (proj1 B) as P. destruct (w_phase w) eqn:W; [| |exact B|exact B].
  - unfold deliver. destruct (_ && _); [exact B|]. destruct (s =? CONT); [apply by_keep; auto|].
    destruct (dfl_ignored s); [exact B|]. destruct (dfl_stops s); [apply by_keep; auto|]. apply by_kill; auto.
  - assert (Q : forall l, (forall x, In x l -> x = s \/ In x (w_pending w)) -> forall x, In x l -> was_sent x os).
    { intros l H x J. destruct (H _ J) as [->|J']; auto. }
    unfold queue. destruct (s =? STOP); [apply by_keep; [cbn; apply Q; intros x J; apply without_in in J; tauto|auto]|].
    destruct (unblockable s); [apply by_kill; auto|].
    destruct (s =? CONT); [apply by_keep; [cbn; apply Q; intros x J; apply enqueue_in in J as [->|J]; [auto|]; apply without_in in J; tauto|auto]|].
    destruct (dfl_stops s); [apply by_keep; [cbn; apply Q; intros x J; apply enqueue_in in J as [->|J]; [auto|]; apply without_in in J; tauto|auto]|].
    apply by_keep; [cbn; apply Q; intros x J; apply enqueue_in in J; tauto|auto].
Qed.
Lemma step_by inh w o os : by_signal os w -> by_signal (os ++ [o]) (step inh w o).
Proof.
  intros (P & X & K).
  assert (B : by_signal (os ++ [o]) w).
  { split; [intros x I; apply was_sent_more, P, I|]. split; [intros st s E; destruct (X st s E) as (A & C & D); split; [exact A|split; [apply was_sent_more, C|exact D]]|].
    intros s E. apply was_sent_more, K, E. }
  destruct o; cbn [step].
  - apply send_by; [exact B|]. left. apply in_or_app. right. left. reflexivity.
  - exact B.
  - apply send_by; [exact B|]. right. split; [reflexivity|]. apply in_or_app. right. left. reflexivity.
  - unfold begin. destruct (w_phase w) eqn:W; try exact B. destruct (w_stopped w); [exact B|].
    destruct B as (P' & _). split; [exact P'|]. split; cbn; intros; discriminate.
  - unfold read. destruct (w_phase w) eqn:W; try exact B. destruct (w_stopped w); [exact B|]. destruct (w_pending w) as [|s t] eqn:L; [exact B|].
    destruct B as (P' & _). rewrite L in P'. unfold handle. destruct (lookup s table) as [[|]|] eqn:E.
    + split; [cbn; intros x I; apply P'; right; exact I|]. split; cbn; rewrite W; intros; discriminate.
    + split; [cbn; intros x I; apply P'; right; exact I|]. split; cbn; rewrite W; intros; discriminate.
    + split; [cbn; intros x I; apply P'; right; exact I|]. split; cbn; intros; [|discriminate]. injection H as <- <-.
      split; [reflexivity|]. split; [apply P'; left; reflexivity|]. intro H. apply lookup_harmless in H as (a & H). congruence.
Qed.
Lemma run_by inh os : by_signal os (run inh init os).
Proof.
  induction os as [|o os IH] using rev_ind; [split; [intros x []|split; cbn; intros; discriminate]|].
  rewrite run_app. cbn. apply step_by, IH.
Qed.
Lemma ended_by inh os st s : w_phase (run inh init os) = Exited st s -> st = 0 /\ was_sent s os /\ ~ harmless s.
Proof. apply (proj1 (proj2 (run_by inh os))). Qed.

(** ** What does not *)
Definition fine (w : worker) : Prop := w_phase w = Serving /\ forall x, In x (w_pending w) -> harmless x.
Lemma send_fine inh s w : fine w -> harmless s -> fine (send inh s w).
Proof.
  intros (W & P) H. assert (Q : fine (set_pending (enqueue s (w_pending w)) w)).
  { split; [exact W|]. cbn. intros x I. apply enqueue_in in I as [->|I]; auto. }
  unfold send. rewrite W. destruct H; exact Q.
Qed.
Lemma step_fine inh w o : fine w -> (forall s, o = Send s -> harmless s) -> fine (step inh w o).
Proof.
  intros F H. destruct o; cbn [step].
  - apply send_fine; auto.
  - exact F.
  - apply send_fine; [exact F|constructor].
  - destruct F as (W & P). unfold begin. rewrite W. split; assumption.
  - pose proof F as (W & P). unfold read. rewrite W. destruct (w_stopped w); [exact F|]. destruct (w_pending w) as [|s t] eqn:L; [exact F|].
    assert (Hs : harmless s) by (apply P; left; reflexivity). apply lookup_harmless in Hs as (a & E). unfold handle. rewrite E.
    destruct a; split; cbn; auto; intros x I; apply P; right; exact I.
Qed.
Lemma harmless_serves inh os : forall w, fine w -> (forall s, In (Send s) os -> harmless s) -> w_phase (run inh w os) = Serving.
Proof.
  induction os as [|o os IH]; intros w F H; [exact (proj1 F)|]. unfold run. cbn [fold_left]. fold (run inh (step inh w o) os).
  apply IH; [apply step_fine; [exact F|]; intros s ->; apply H; left; reflexivity|]. intros s I. apply H. right. exact I.
Qed.

(** ** Ending signals are read in the end *)
Lemma waits_step inh w o s : ~ harmless s -> ~ In s [18; 20; 21; 22] -> o <> Send 19 ->
  w_phase w = Serving -> w_stopped w = false -> In s (w_pending w) ->
  let w' := step inh w o in
  w_phase w' <> Serving \/
  (w_phase w' = Serving /\ w_stopped w' = false /\ In s (w_pending w') /\ (length (w_pending w') + reads o <= length (w_pending w) + sends o)%nat).
Proof.
  intros NH NJ NS W T I.
  assert (G : forall z v, v = w \/ v = told w -> z <> 19 -> let w' := send inh z v in w_phase w' <> Serving \/
    (w_phase w' = Serving /\ w_stopped w' = false /\ In s (w_pending w') /\ (length (w_pending w') <= S (length (w_pending w)))%nat)).
  { intros z v V Nz. assert (V' : w_phase v = Serving /\ w_stopped v = false /\ w_pending v = w_pending w) by (destruct V as [->| ->]; auto). clear V.
    destruct V' as (V1 & V2 & V3). unfold send. destruct (_ || _); [right; rewrite V1, V2, V3; repeat split; auto; lia|]. rewrite V1. unfold queue. rewrite V3.
    destruct (Z.eqb_spec z STOP) as [E|_]; [unfold STOP in E; congruence|]. destruct (unblockable z); [left; discriminate|].
    destruct (z =? CONT).
    - right. cbn. repeat split; auto.
      + apply enqueue_in. right. apply without_in. split; [exact I|]. intro J. apply NJ. cbn in *. intuition.
      + pose proof (enqueue_len z (without [20; 21; 22] (w_pending w))). pose proof (without_len [20; 21; 22] (w_pending w)). lia.
    - destruct (dfl_stops z); right; cbn; repeat split; auto.
      + apply enqueue_in. right. apply without_in. split; [exact I|]. intro J. apply NJ. cbn in *. unfold CONT in J. intuition.
      + pose proof (enqueue_len z (without [CONT] (w_pending w))). pose proof (without_len [CONT] (w_pending w)). lia.
      + apply enqueue_in. right. exact I.
      + apply enqueue_len. }
  destruct o; cbn [step reads sends].
  - destruct (G s0 w (or_introl eq_refl)) as [A|(A & B & C & D)]; [congruence|left; exact A|right; repeat split; auto; lia].
  - right. repeat split; auto; cbn; lia.
  - destruct (G USR1 (told w) (or_intror eq_refl)) as [A|(A & B & C & D)]; [discriminate|left; exact A|right; repeat split; auto; lia].
  - right. unfold begin. rewrite W. split; [exact W|]. split; [exact T|]. split; [exact I|lia].
  - unfold read. rewrite W, T. destruct (w_pending w) as [|h t] eqn:L; [destruct I|]. unfold handle. destruct (lookup h table) as [a|] eqn:E; [|left; discriminate].
    assert (N : h <> s) by (intros ->; apply NH, lookup_harmless; eauto). destruct I as [I|I]; [contradiction|].
    right. destruct a; cbn; repeat split; auto; lia.
Qed.
Lemma queue_phase s w : w_phase w = Serving -> w_phase (queue s w) <> Starting.
Proof. intro W. unfold queue. destruct (s =? STOP), (unblockable s), (s =? CONT), (dfl_stops s); cbn; rewrite ?W; discriminate. Qed.
Lemma send_phase inh s w : w_phase w = Serving -> w_phase (send inh s w) <> Starting.
Proof. intro W. unfold send. rewrite W. destruct (_ || _); [rewrite W; discriminate|apply queue_phase, W]. Qed.
Lemma not_back inh w o : w_phase w = Serving -> w_phase (step inh w o) <> Starting.
Proof.
  intro W. destruct o; cbn [step]; [apply send_phase, W|cbn; rewrite W; discriminate|apply send_phase, W|unfold begin; rewrite W, W; discriminate|].
  unfold read. rewrite W. destruct (w_stopped w); [rewrite W; discriminate|]. destruct (w_pending w) as [|h t]; [rewrite W; discriminate|].
  unfold handle. destruct (lookup h table) as [[|]|]; cbn; rewrite ?W; discriminate.
Qed.
Lemma waits_run inh s : ~ harmless s -> ~ In s [18; 20; 21; 22] -> forall os w, ~ In (Send 19) os ->
  w_phase w = Serving -> w_stopped w = false -> In s (w_pending w) -> w_phase (run inh w os) = Serving ->
  In s (w_pending (run inh w os)) /\ (length (w_pending (run inh w os)) + total reads os <= length (w_pending w) + total sends os)%nat.
Proof.
  intros NH NJ. induction os as [|o os IH]; intros w NS W T I E; [cbn; split; [exact I|lia]|].
  unfold run in *. cbn [fold_left] in *. fold (run inh (step inh w o) os) in *.
  destruct (waits_step inh w o s NH NJ) as [A|(A & B & C & D)]; auto; [intros ->; apply NS; left; reflexivity| |].
  - destruct (w_phase (step inh w o)) eqn:P; [|contradiction| |].
    + exfalso. exact (not_back inh w o W P).
    + rewrite run_ended in E by (rewrite P; discriminate). congruence.
    + rewrite run_ended in E by (rewrite P; discriminate). congruence.
  - destruct (IH _ (fun H => NS (or_intror H)) A B C E) as (F & G). split; [exact F|].
    change (total reads (o :: os)) with (reads o + total reads os)%nat. change (total sends (o :: os)) with (sends o + total sends os)%nat. fold (run inh (step inh w o) os) in G. lia.
Qed.
Lemma ending_read inh s w os : ~ harmless s -> ~ In s [18; 20; 21; 22] -> ~ In (Send 19) os ->
  w_phase w = Serving -> w_stopped w = false -> In s (w_pending w) -> (length (w_pending w) + total sends os <= total reads os)%nat ->
  w_phase (run inh w os) <> Serving.
Proof.
  intros NH NJ NS W T I L E. destruct (waits_run inh s NH NJ os w NS W T I E) as (F & G).
  destruct (w_pending (run inh w os)) as [|h t]; [destruct F|cbn in G; lia].
Qed.
(** A signal that has arrived is pending. *)
Lemma sent_pending inh s w : signal s -> ~ In s [9; 19; 32; 33] -> w_phase w = Serving -> In s (w_pending (send inh s w)) /\ w_phase (send inh s w) = Serving.
Proof.
  intros (A & B) NU W. unfold send. destruct (Z.ltb_spec s 1); [lia|]. destruct (Z.ltb_spec 64 s); [lia|]. cbn [orb]. rewrite W. unfold queue.
  destruct (Z.eqb_spec s STOP) as [->|_]; [destruct NU; cbn; auto|].
  destruct (unblockable s) eqn:U; [apply is_in_spec in U; contradiction|].
  destruct (s =? CONT); [split; [cbn; apply enqueue_in; auto|exact W]|]. destruct (dfl_stops s); (split; [cbn; apply enqueue_in; auto|exact W]).
Qed.

(** ** The master's messages *)
Definition knows (inh : Z -> bool) (w : worker) : Prop :=
  (w_seen w <= w_now w)%nat /\ (w_notified w <= w_now w)%nat /\
  match w_phase w with
  | Starting => (w_notified w <= w_seen w)%nat
  | Serving => (w_notified w <= w_seen w)%nat \/ In 10 (w_pending w)
  | _ => True
  end.
Lemma send_knows inh s w : knows inh w -> knows inh (send inh s w).
Proof.
  intros (A & B & C). unfold send. destruct (_ || _); [repeat split; auto|]. destruct (w_phase w) eqn:W; [| |repeat split; auto; rewrite W; exact C..].
  - unfold deliver. destruct (_ && _); [repeat split; auto; rewrite W; exact C|]. destruct (s =? CONT); [repeat split; auto; cbn; rewrite W; exact C|].
    destruct (dfl_ignored s); [repeat split; auto; rewrite W; exact C|]. destruct (dfl_stops s); [repeat split; auto; cbn; rewrite W; exact C|]. repeat split; auto.
  - assert (Q : forall l, (In 10 (w_pending w) -> In 10 l) -> (w_notified w <= w_seen w)%nat \/ In 10 l) by (intros l H; destruct C; auto).
    unfold queue. destruct (s =? STOP).
    { split; [exact A|split; [exact B|]]. cbn. rewrite W. apply Q. intro J. apply without_in. split; [exact J|]. cbn. unfold CONT. intuition discriminate. }
    destruct (unblockable s); [split; [exact A|split; [exact B|exact I]]|].
    destruct (s =? CONT).
    { split; [exact A|split; [exact B|]]. cbn. rewrite W. apply Q. intro J. apply enqueue_in. right. apply without_in. split; [exact J|]. cbn. intuition discriminate. }
    destruct (dfl_stops s).
    { split; [exact A|split; [exact B|]]. cbn. rewrite W. apply Q. intro J. apply enqueue_in. right. apply without_in. split; [exact J|]. cbn. unfold CONT. intuition discriminate. }
    split; [exact A|split; [exact B|]]. cbn. rewrite W. apply Q. intro J. apply enqueue_in. auto.
Qed.
Lemma step_knows inh w o : inh 10 = false -> knows inh w -> knows inh (step inh w o).
Proof.
  intros N K. destruct o; cbn [step].
  - apply send_knows, K.
  - destruct K as (A & B & C). repeat split; cbn; [lia|lia|exact C].
  - destruct K as (A & B & C). unfold send. cbn [USR1 Z.ltb Z.compare orb Pos.compare Pos.compare_cont]. change (w_phase (told w)) with (w_phase w). destruct (w_phase w) eqn:W.
    + unfold deliver. change (inh USR1) with (inh 10). rewrite N. repeat split; cbn; lia.
    + cbn. repeat split; cbn; [lia|lia|]. rewrite W. right. apply enqueue_in. left. reflexivity.
    + repeat split; cbn; [lia|lia|]. rewrite W. exact I.
    + repeat split; cbn; [lia|lia|]. rewrite W. exact I.
  - destruct K as (A & B & C). unfold begin. destruct (w_phase w) eqn:W; [|repeat split; auto; rewrite W; auto..].
    destruct (w_stopped w); [repeat split; auto; rewrite W; auto|]. repeat split; auto. cbn. auto.
  - pose proof K as (A & B & C). unfold read. destruct (w_phase w) eqn:W; try exact K. destruct (w_stopped w); [exact K|]. destruct (w_pending w) as [|s t] eqn:L; [exact K|].
    unfold handle. destruct (lookup s table) as [[|]|] eqn:E.
    + repeat split; auto. cbn. rewrite W. destruct C as [C|[->|C]]; [auto|discriminate E|auto].
    + repeat split; cbn; [lia|lia|]. rewrite W. left. lia.
    + repeat split; auto.
Qed.
Lemma run_knows inh os : inh 10 = false -> knows inh (run inh init os).
Proof.
  intro N. induction os as [|o os IH] using rev_ind; [repeat split; cbn; lia|]. rewrite run_app. cbn. apply step_knows; assumption.
Qed.
Lemma messages_kept inh os : inh 10 = false -> let w := run inh init os in
  w_phase w = Serving -> w_pending w = [] -> (w_notified w <= w_seen w <= w_now w)%nat.
Proof. intros N w W P. destruct (run_knows inh os N) as (A & _ & C). fold w in A, C. rewrite W, P in C. destruct C as [C|[]]. lia. Qed.
Lemma all_told inh os : inh 10 = false -> let w := run inh init (os ++ [Notify]) in
  w_phase w = Serving -> forall os', (forall o, In o os' -> o = Read) -> w_phase (run inh w os') = Serving -> w_pending (run inh w os') = [] -> w_seen (run inh w os') = w_now w.
Proof.
  intros N w W os' R W' P'. assert (H : forall v l, (forall o, In o l -> o = Read) -> w_now (run inh v l) = w_now v /\ w_notified (run inh v l) = w_notified v).
  { clear. intros v l. revert v. induction l as [|o l IH]; intros v R; [auto|]. unfold run. cbn [fold_left]. fold (run inh (step inh v o) l).
    destruct (IH (step inh v o) (fun x I => R x (or_intror I))) as (A & B). rewrite A, B. rewrite (R o (or_introl eq_refl)). cbn [step]. unfold read, handle.
    destruct (w_phase v), (w_stopped v), (w_pending v) as [|s t]; auto. destruct (lookup s table) as [[|]|]; auto. }
  destruct (H w os' R) as (A & B).
  assert (T : w_notified w = w_now w).
  { unfold w. rewrite run_app. cbn. set (v := run inh init os). unfold send. cbn. unfold deliver, queue. cbn.
    destruct (w_phase v); repeat match goal with |- context [if ?b then _ else _] => destruct b end; reflexivity. }
  unfold w in *. rewrite <- run_app in *. pose proof (messages_kept inh ((os ++ [Notify]) ++ os') N) as M. cbv zeta in M. specialize (M W' P'). lia.
Qed.

(** ** The start of a worker *)
Definition ends_by_default (s : Z) : Prop := signal s /\ ~ In s [17; 18; 19; 20; 21; 22; 23; 28].
Lemma start_killed inh w s : inh s = false -> w_phase w = Starting -> (w_phase (send inh s w) = Killed s <-> ends_by_default s).
Proof.
  intros N W. unfold send, ends_by_default, signal. destruct (Z.ltb_spec s 1) as [L|L]; [cbn [orb]; rewrite W; split; [discriminate|lia]|].
  destruct (Z.ltb_spec 64 s) as [M|M]; [cbn [orb]; rewrite W; split; [discriminate|lia]|]. cbn [orb]. rewrite W. unfold deliver. rewrite N, andb_false_r.
  destruct (Z.eqb_spec s CONT) as [->|E1]; [cbn; rewrite W; split; [discriminate|intros (_ & H); destruct H; unfold CONT; auto]|].
  destruct (dfl_ignored s) eqn:D1; [apply is_in_spec in D1; rewrite W; split; [discriminate|intros (_ & H); destruct H; cbn in *; intuition]|].
  destruct (dfl_stops s) eqn:D2; [apply is_in_spec in D2; cbn; rewrite W; split; [discriminate|intros (_ & H); destruct H; cbn in *; intuition]|].
  cbn. split; [|reflexivity]. intros _. split; [lia|]. intro I. unfold dfl_ignored, dfl_stops in *.
  rewrite <- not_true_iff_false, is_in_spec in D1. rewrite <- not_true_iff_false, is_in_spec in D2. unfold CONT in E1. cbn in I, D1, D2. intuition.
Qed.
Lemma continued_ends inh w : w_phase w = Serving -> w_pending w = [] ->
  w_phase (run inh w [Send 19; Send 18; Read]) = Exited 0 18.
Proof. destruct w. cbn. intros -> ->. reflexivity. Qed.
Lemma starved inh n : let w := run inh init [Begin; Send 15] in
  w_phase (run inh w (concat (repeat [Touch; Notify; Read] n))) = Serving /\ In 15 (w_pending (run inh w (concat (repeat [Touch; Notify; Read] n)))).
Proof.
  cbv zeta. assert (G : forall v, w_phase v = Serving -> w_stopped v = false -> w_pending v = [15] ->
    let u := run inh v (concat (repeat [Touch; Notify; Read] n)) in w_phase u = Serving /\ In 15 (w_pending u)).
  { induction n as [|m IH]; intros v A B C; [cbn; rewrite A, C; cbn; auto|]. cbn [repeat concat]. rewrite run_app. apply IH.
    - destruct v; cbn in *; subst; reflexivity.
    - destruct v; cbn in *; subst; reflexivity.
    - destruct v; cbn in *; subst; reflexivity. }
  apply G; reflexivity.
Qed.
Lemma read_scans inh w t : w_phase w = Serving -> w_stopped w = false -> w_pending w = 10 :: t ->
  let w' := step inh w Read in w_seen w' = w_now w /\ w_pending w' = t /\ w_phase w' = Serving.
Proof. destruct w. cbn. intros -> -> ->. repeat split. Qed.
