(** * Proofs about the master process *)
From Coq Require Import ZArith List Bool Lia Permutation.
From Verif Require Import Base Master.
Import ListNotations.
Open Scope Z_scope.

(** ** Specification vocabulary *)

(** The number of workers the configuration asks for. *)
Definition target (r x : Z) : Z := Z.max 0 (Z.min r x).

(** A process that exists and has not terminated. *)
Definition alive (m : master) (p : Z) : bool :=
  match pstate_of p (procs m) with
  | Some PRunning | Some PStopped => true
  | _ => false
  end.

(** The children that have not terminated. *)
Definition live (m : master) : list Z :=
  map fst (filter (fun q => match snd q with PZombie => false | _ => true end) (procs m)).

Definition tracked (m : master) (p : Z) : bool := existsb (Z.eqb p) (workers m).

(** A signal by which a worker announces a pid announces its own; no other
    restriction on what other processes send. *)
Definition honest (e : event) : Prop :=
  match e with
  | Outside i => i_sig i = SIGUSR1 -> i_val i = i_pid i
  | _ => True
  end.

Definition no_chld (l : list info) : Prop := Forall (fun i => i_sig i <> SIGCHLD) l.

(** Nothing about a child is waiting to be handled. *)
Definition quiet (m : master) : Prop := hand m = None /\ no_chld (pending m).

Definition death (c : code) : Prop :=
  match c with Exited _ | Killed | Dumped => True | _ => False end.

(** A history in which workers only terminate, no worker terminates while the
    notice of an earlier termination is still pending, none terminates before
    the signal descriptor exists unless it is read, and only workers announce
    pids. *)
Definition calm_step (m : master) (e : event) : Prop :=
  match e with
  | Child _ c => death c /\ no_chld (pending m)
  | Register => no_chld (pending m)
  | Outside i => i_sig i <> SIGCHLD /\ (i_sig i = SIGUSR1 -> i_val i = i_pid i)
  | _ => True
  end.

Fixpoint calm (m : master) (es : list event) : Prop :=
  match es with
  | [] => True
  | e :: r => calm_step m e /\ calm (step m e) r
  end.

(** The next [n] answers of fork are pids that are positive, different and in
    no use. *)
Definition usable (fs : list (option Z)) (n : nat) (m : master) : Prop :=
  exists ps, firstn n fs = map Some ps /\ length ps = n /\ NoDup ps /\
    Forall (fun p => 0 < p /\ pstate_of p (procs m) = None) ps.

(** ** Lists *)

Lemma existsb_eqb_In p l : existsb (fun q => q =? p) l = true <-> In p l.
Proof.
  rewrite existsb_exists. split.
  - intros [q [Q E]]. apply Z.eqb_eq in E. now subst.
  - intros H. exists p. now rewrite Z.eqb_refl.
Qed.

Lemma tracked_In m p : tracked m p = true <-> In p (workers m).
Proof.
  unfold tracked. rewrite existsb_exists. split.
  - intros [q [Q E]]. apply Z.eqb_eq in E. now subst.
  - intros H. exists p. now rewrite Z.eqb_refl.
Qed.

Lemma drop_first_length p l : In p l -> S (length (drop_first p l)) = length l.
Proof.
  induction l as [|q r IH]; cbn; [tauto|].
  intros H. destruct (Z.eqb_spec q p); [reflexivity|].
  destruct H as [H|H]; [lia|]. cbn. now rewrite IH.
Qed.

Lemma drop_first_sub p q l : In q (drop_first p l) -> In q l.
Proof.
  induction l as [|a r IH]; cbn; [tauto|].
  destruct (Z.eqb_spec a p); cbn; intuition.
Qed.

Lemma drop_first_other p q l : q <> p -> In q l -> In q (drop_first p l).
Proof.
  intros N. induction l as [|a r IH]; cbn; [tauto|].
  destruct (Z.eqb_spec a p); cbn; intros [H|H]; subst; auto; congruence.
Qed.

Lemma drop_first_nodup p l : NoDup l -> NoDup (drop_first p l).
Proof.
  induction 1 as [|a r A N IH]; cbn; [constructor|].
  destruct (Z.eqb_spec a p); auto. constructor; auto.
  intros B. apply A. now apply drop_first_sub in B.
Qed.

Lemma drop_first_gone p l : NoDup l -> ~ In p (drop_first p l).
Proof.
  induction 1 as [|a r A N IH]; cbn; [tauto|].
  destruct (Z.eqb_spec a p); [now subst|]. cbn. intros [B|B]; auto.
Qed.

Lemma rename_same p l : rename_first p p l = l.
Proof.
  induction l as [|a r IH]; cbn; [reflexivity|].
  destruct (Z.eqb_spec a p); subst; [reflexivity|]. now rewrite IH.
Qed.

Lemma rename_length a b l : length (rename_first a b l) = length l.
Proof.
  induction l as [|q r IH]; cbn; [reflexivity|].
  destruct (q =? a); cbn; lia.
Qed.

(** ** The process table *)

Lemma pstate_In p l : pstate_of p l <> None <-> In p (map fst l).
Proof.
  induction l as [|[q s] r IH]; cbn; [tauto|].
  destruct (Z.eqb_spec p q); [subst; split; auto; discriminate|].
  rewrite IH. split; [now right|]. intros [H|H]; [congruence|auto].
Qed.

Lemma pstate_none p l : pstate_of p l = None <-> ~ In p (map fst l).
Proof.
  rewrite <- pstate_In. destruct (pstate_of p l) as [s|].
  - split; [discriminate|]. intros H. exfalso. apply H. discriminate.
  - split; [congruence|auto].
Qed.

Lemma pstate_set p q s l :
  pstate_of p (set_pstate q s l) =
  if p =? q then match pstate_of q l with Some _ => Some s | None => None end
  else pstate_of p l.
Proof.
  induction l as [|[a t] r IH]; cbn; [now destruct (p =? q)|].
  destruct (Z.eqb_spec q a); cbn.
  - subst a. destruct (Z.eqb_spec p q); [subst; reflexivity|reflexivity].
  - rewrite IH. destruct (Z.eqb_spec p q); [|reflexivity].
    subst. destruct (Z.eqb_spec q a); [congruence|reflexivity].
Qed.

Lemma fst_set q s l : map fst (set_pstate q s l) = map fst l.
Proof.
  induction l as [|[a t] r IH]; cbn; [reflexivity|].
  destruct (q =? a); cbn; congruence.
Qed.

Lemma pstate_reap_other p q l : p <> q -> pstate_of p (reap q l) = pstate_of p l.
Proof.
  intros N. induction l as [|[a t] r IH]; cbn; [reflexivity|].
  destruct (Z.eqb_spec q a); cbn.
  - subst. destruct (Z.eqb_spec p a); [congruence|reflexivity].
  - now rewrite IH.
Qed.

Lemma reap_sub p q l : In p (map fst (reap q l)) -> In p (map fst l).
Proof.
  induction l as [|[a t] r IH]; cbn; [tauto|].
  destruct (q =? a); cbn; intuition.
Qed.

Lemma reap_nodup q l : NoDup (map fst l) -> NoDup (map fst (reap q l)).
Proof.
  induction l as [|[a t] r IH]; cbn; intros N; [constructor|].
  inversion_clear N as [|? ? A B].
  destruct (q =? a); cbn; auto. constructor; auto.
  intros C. apply A. now apply reap_sub in C.
Qed.

Lemma pstate_reap_same q l : NoDup (map fst l) -> pstate_of q (reap q l) = None.
Proof.
  induction l as [|[a t] r IH]; cbn; intros N; [reflexivity|].
  inversion_clear N as [|? ? A B].
  destruct (Z.eqb_spec q a); cbn.
  - subst. now apply pstate_none.
  - destruct (Z.eqb_spec q a); [congruence|auto].
Qed.

Lemma pstate_app p l k :
  pstate_of p (l ++ k) =
  match pstate_of p l with Some s => Some s | None => pstate_of p k end.
Proof.
  induction l as [|[a t] r IH]; cbn; [reflexivity|].
  destruct (p =? a); auto.
Qed.

Lemma pstate_running p ps :
  pstate_of p (map (fun q => (q, PRunning)) ps) =
  if existsb (Z.eqb p) ps then Some PRunning else None.
Proof.
  induction ps as [|q r IH]; cbn; [reflexivity|].
  destruct (p =? q); cbn; auto.
Qed.

Lemma live_alive m p : NoDup (map fst (procs m)) -> In p (live m) <-> alive m p = true.
Proof.
  unfold live, alive. induction (procs m) as [|[a t] r IH]; cbn; intros N.
  - split; [tauto|discriminate].
  - inversion_clear N as [|? ? A B]. specialize (IH B).
    destruct (Z.eqb_spec p a).
    + subst a. destruct t; cbn; split; auto; try discriminate.
      intros C. exfalso. apply A. rewrite in_map_iff in C.
      destruct C as [x [X Y]]. apply filter_In in Y as [Y _].
      rewrite <- X. now apply in_map.
    + destruct t; cbn; rewrite <- IH; intuition; congruence.
Qed.

Lemma live_nodup m : NoDup (map fst (procs m)) -> NoDup (live m).
Proof.
  unfold live. induction (procs m) as [|[a t] r IH]; cbn; intros N; [constructor|].
  inversion_clear N as [|? ? A B]. specialize (IH B).
  destruct t; cbn; auto; constructor; auto;
    intros C; apply A; rewrite in_map_iff in C;
    destruct C as [x [X Y]]; apply filter_In in Y as [Y _];
    rewrite <- X; now apply in_map.
Qed.

(** ** Spawning *)

(** [m'] is [m] with the processes [ps] added as workers. *)
Definition grown (m : master) (ps : list Z) (m' : master) : Prop :=
  m' = mkMaster (req m) (maxw m) (now m + Z.of_nat (length ps)) (workers m ++ ps) (ph m)
         (procs m ++ map (fun q => (q, PRunning)) ps) (pending m) (hand m)
         (outs m ++ map Forked ps) /\
  NoDup ps /\ Forall (fun p => 0 < p /\ pstate_of p (procs m) = None) ps.

Lemma grown_nil m : grown m [] m.
Proof.
  split; [|split; constructor].
  destruct m; cbn. rewrite Z.add_0_r, !app_nil_r. reflexivity.
Qed.

Lemma fork_grown f m m' :
  master_fork f m = Some m' -> exists p, f = Some p /\ grown m [p] m'.
Proof.
  unfold master_fork. destruct f as [p|]; [|discriminate].
  destruct (pstate_of p (procs m)) eqn:E; [discriminate|].
  destruct (Z.leb_spec p 0); [discriminate|].
  intros [= <-]. exists p. split; [reflexivity|].
  split; [destruct m; reflexivity|].
  split; [constructor; [intros []|constructor]|].
  constructor; [auto|constructor].
Qed.

Lemma grown_trans m ps m1 qs m2 : grown m ps m1 -> grown m1 qs m2 -> grown m (ps ++ qs) m2.
Proof.
  intros [-> [N F]] [-> [N' F']]; cbn in *.
  split; [|split].
  - rewrite app_length, !map_app, Nat2Z.inj_add, <- !app_assoc, Z.add_assoc. reflexivity.
  - clear - N N' F'. induction N as [|a r A N IH]; cbn; auto.
    constructor.
    + rewrite in_app_iff. intros [B|B]; [auto|].
      rewrite Forall_forall in F'. destruct (F' _ B) as [_ E].
      rewrite pstate_app in E. destruct (pstate_of a (procs m)); [discriminate|].
      rewrite pstate_running in E. cbn in E. rewrite Z.eqb_refl in E. discriminate.
    + apply IH. eapply Forall_impl; [|exact F']. cbn. intros b [B C]. split; auto.
      rewrite pstate_app in *. destruct (pstate_of b (procs m)); [discriminate|].
      cbn in C. destruct (b =? a); [discriminate|auto].
  - apply Forall_app. split; auto. eapply Forall_impl; [|exact F'].
    cbn. intros b [B C]. split; auto. rewrite pstate_app in C.
    destruct (pstate_of b (procs m)); [discriminate|auto].
Qed.

Lemma spawn_loop_cases fuel : forall fs m,
  (exists w m', spawn_loop fuel fs m = set_ph (Down w) m' /\ req m' = req m /\ maxw m' = maxw m) \/
  (exists ps, grown m ps (spawn_loop fuel fs m) /\
     ~ (now m + Z.of_nat (length ps) < req m /\ now m + Z.of_nat (length ps) < maxw m) /\
     (ps = [] \/ (now m + Z.of_nat (length ps) <= req m /\ now m + Z.of_nat (length ps) <= maxw m))).
Proof.
  induction fuel as [|k IH]; intros fs m; cbn [spawn_loop].
  - destruct ((now m <? req m) && (now m <? maxw m)) eqn:E.
    + left. eauto.
    + right. exists []. split; [apply grown_nil|]. split; [cbn; lia|auto].
  - destruct ((now m <? req m) && (now m <? maxw m)) eqn:E.
    + destruct (master_fork (hd None fs) m) as [m'|] eqn:F; [|left; eauto].
      apply fork_grown in F as [p [_ G]].
      assert (R : req m' = req m /\ maxw m' = maxw m /\ now m' = now m + 1)
        by (destruct G as [-> _]; cbn; auto).
      destruct R as [R1 [R2 R3]].
      destruct (IH (tl fs) m') as [[w [m2 [H [A B]]]]|[ps [H [A B]]]].
      * left. exists w, m2. rewrite H. split; [auto|]. split; congruence.
      * right. exists (p :: ps). split; [eapply (grown_trans m [p]); eauto|].
        rewrite R1, R2, R3 in *. cbn [length]. rewrite Nat2Z.inj_succ.
        split; [lia|]. right. destruct B as [->|B]; [cbn in *|]; lia.
    + right. exists []. split; [apply grown_nil|]. split; [cbn; lia|auto].
Qed.

(** Spawning either takes the master down or completes the pool. *)
Lemma worker_spawn_cases fs m :
  0 <= now m <= target (req m) (maxw m) ->
  (exists w m', worker_spawn fs m = set_ph (Down w) m' /\ req m' = req m /\ maxw m' = maxw m) \/
  (exists ps, grown m ps (worker_spawn fs m) /\
     now m + Z.of_nat (length ps) = target (req m) (maxw m) /\ 0 < req m) .
Proof.
  unfold worker_spawn, target. intros T.
  destruct (Z.leb_spec (req m) 0); [left; eauto|].
  destruct (spawn_loop_cases (Z.to_nat (req m - now m)) fs m) as [H0|[ps [G [A B]]]]; [auto|].
  right. exists ps. split; [auto|]. split; [|auto].
  destruct B as [->|B]; [cbn in *|]; lia.
Qed.

(** With enough usable answers of fork the master does not go down. *)
Lemma fork_usable p fs n m :
  usable (p :: fs) (S n) m ->
  exists m', master_fork p m = Some m' /\ usable fs n m' /\ exists q, grown m [q] m'.
Proof.
  intros [ps [F [L [N Q]]]].
  destruct ps as [|q qs]; [discriminate|]. cbn in F.
  injection F as -> F. injection L as L.
  inversion_clear N as [|? ? A B]. inversion_clear Q as [|? ? C D].
  destruct C as [C1 C2].
  unfold master_fork. rewrite C2. destruct (Z.leb_spec q 0); [lia|].
  eexists. split; [reflexivity|]. split.
  - exists qs. split; [auto|]. split; [auto|]. split; [auto|].
    apply Forall_forall. intros r R. rewrite Forall_forall in D.
    destruct (D _ R) as [R1 R2]. split; [auto|]. cbn. rewrite pstate_app, R2. cbn.
    destruct (Z.eqb_spec r q); [subst; contradiction|reflexivity].
  - exists q. split; [destruct m; reflexivity|].
    split; [constructor; [intros []|constructor]|]. constructor; [auto|constructor].
Qed.

Lemma spawn_loop_usable n : forall fuel fs m,
  usable fs n m -> Z.of_nat n = target (req m) (maxw m) - now m -> 0 <= now m ->
  (n <= fuel)%nat ->
  exists ps, grown m ps (spawn_loop fuel fs m) /\ length ps = n.
Proof.
  induction n as [|n IH]; intros fuel fs m U E P L; unfold target in *.
  - destruct fuel; cbn [spawn_loop];
      (destruct ((now m <? req m) && (now m <? maxw m)) eqn:X; [lia|]);
      exists []; split; auto using grown_nil.
  - destruct fuel as [|fuel]; [lia|]. cbn [spawn_loop].
    destruct ((now m <? req m) && (now m <? maxw m)) eqn:X; [|lia].
    destruct fs as [|f fs]; [destruct U as [[|q qs] [U1 [U2 _]]]; discriminate|].
    destruct (fork_usable _ _ _ _ U) as [m' [F [U' [q G]]]].
    cbn [hd tl]. rewrite F.
    assert (R : req m' = req m /\ maxw m' = maxw m /\ now m' = now m + 1)
      by (destruct G as [-> _]; cbn; auto).
    destruct R as [R1 [R2 R3]].
    destruct (IH fuel fs m' U') as [ps [G' L']]; unfold target;
      rewrite ?R1, ?R2, ?R3; try lia.
    exists (q :: ps). split; [|cbn; lia].
    exact (grown_trans m [q] m' ps _ G G').
Qed.

Lemma worker_spawn_usable fs m :
  usable fs (Z.to_nat (target (req m) (maxw m) - now m)) m ->
  0 < req m -> 0 <= now m <= target (req m) (maxw m) ->
  exists ps, grown m ps (worker_spawn fs m) /\
    now m + Z.of_nat (length ps) = target (req m) (maxw m).
Proof.
  intros U R N. unfold worker_spawn. destruct (Z.leb_spec (req m) 0); [lia|].
  destruct (spawn_loop_usable _ (Z.to_nat (req m - now m)) fs m U) as [ps [G L]].
  - lia.
  - lia.
  - unfold target in *. lia.
  - exists ps. split; [auto|]. lia.
Qed.

(** ** The count of workers *)

Definition up (m : master) : Prop := ph m = Spawned \/ ph m = Serving.

Definition Count (r x : Z) (m : master) : Prop :=
  req m = r /\ maxw m = x /\
  (ph m = Fresh -> now m = 0 /\ workers m = [] /\ procs m = [] /\ hand m = None) /\
  (up m -> 0 < r /\ now m = Z.of_nat (length (workers m)) /\ now m = target r x).

Lemma not_up_down w m : ~ up (set_ph (Down w) m).
Proof. intros [H|H]; discriminate. Qed.
Lemma not_up_ended w m : ~ up (set_ph (Ended w) m).
Proof. intros [H|H]; discriminate. Qed.

Lemma remove_frame p m :
  req (remove_worker p m) = req m /\ maxw (remove_worker p m) = maxw m /\
  ph (remove_worker p m) = ph m /\ procs (remove_worker p m) = procs m /\
  pending (remove_worker p m) = pending m /\ hand (remove_worker p m) = hand m /\
  outs (remove_worker p m) = outs m.
Proof. unfold remove_worker. destruct (existsb _ _); cbn; tauto. Qed.

Lemma remove_workers p m :
  workers (remove_worker p m) = drop_first p (workers m).
Proof.
  unfold remove_worker. destruct (existsb _ _) eqn:E; [reflexivity|].
  assert (H : ~ In p (workers m)).
  { rewrite <- existsb_eqb_In. congruence. }
  clear E. induction (workers m) as [|a r IH]; cbn; [reflexivity|].
  destruct (Z.eqb_spec a p); [subst; cbn in H; tauto|].
  rewrite <- IH; [reflexivity|]. cbn in H. tauto.
Qed.

Lemma remove_count p m :
  now m = Z.of_nat (length (workers m)) ->
  now (remove_worker p m) = Z.of_nat (length (workers (remove_worker p m))) /\
  now (remove_worker p m) <= now m.
Proof.
  unfold remove_worker. destruct (existsb _ _) eqn:E; [|lia]. cbn.
  apply existsb_eqb_In in E. apply drop_first_length in E. lia.
Qed.

Lemma signal_all_spec fuel : forall m,
  (length (workers m) <= fuel)%nat ->
  workers (signal_all fuel m) = [] /\
  outs (signal_all fuel m) = outs m ++ map (fun p => Sent p SIGTERM) (workers m) /\
  req (signal_all fuel m) = req m /\ maxw (signal_all fuel m) = maxw m /\
  procs (signal_all fuel m) = procs m /\
  now (signal_all fuel m) = now m - Z.of_nat (length (workers m)) /\
  pending (signal_all fuel m) = pending m.
Proof.
  induction fuel as [|k IH]; intros m L; cbn [signal_all].
  - destruct (workers m); [cbn; rewrite app_nil_r; repeat split; lia|cbn in L; lia].
  - destruct (workers m) as [|p r] eqn:W; [cbn; rewrite app_nil_r; repeat split; auto; lia|].
    assert (R : remove_worker p (add_out (Sent p SIGTERM) m) =
                set_now (now m - 1) (set_workers r (add_out (Sent p SIGTERM) m))).
    { unfold remove_worker. cbn. rewrite W. cbn. rewrite Z.eqb_refl. reflexivity. }
    rewrite R.
    destruct (IH (set_now (now m - 1) (set_workers r (add_out (Sent p SIGTERM) m)))
                ltac:(cbn in *; lia)) as [A [B [C [D [E [F G]]]]]].
    cbn in *. rewrite A, B, C, D, E, F, G, <- app_assoc. repeat split; auto. lia.
Qed.

Lemma default_spec m :
  let m' := default_handler m in
  ph m' = Ended MASTER_SIGNAL_END /\ workers m' = [] /\ procs m' = procs m /\
  outs m' = outs m ++ map (fun p => Sent p SIGTERM) (workers m) /\
  req m' = req m /\ maxw m' = maxw m /\ now m' = now m - Z.of_nat (length (workers m)).
Proof.
  cbn zeta. unfold default_handler.
  destruct (signal_all_spec (length (workers m)) m (le_n _)) as [A [B [C [D [E [F G]]]]]].
  cbn. repeat split; auto.
Qed.

Lemma raise_frame i m :
  req (raise i m) = req m /\ maxw (raise i m) = maxw m /\ ph (raise i m) = ph m /\
  now (raise i m) = now m /\ workers (raise i m) = workers m /\
  procs (raise i m) = procs m /\ hand (raise i m) = hand m /\ outs (raise i m) = outs m.
Proof. unfold raise. destruct (existsb _ _); cbn; tauto. Qed.

Lemma child_frame p c m :
  req (child p c m) = req m /\ maxw (child p c m) = maxw m /\ ph (child p c m) = ph m /\
  now (child p c m) = now m /\ workers (child p c m) = workers m /\
  hand (child p c m) = hand m /\ outs (child p c m) = outs m /\
  map fst (procs (child p c m)) = map fst (procs m).
Proof.
  unfold child. destruct (pstate_of p (procs m)) as [s|]; [|tauto].
  destruct (next_state s c) as [t|]; [|tauto].
  destruct (raise_frame (mkInfo SIGCHLD p c 0) (set_procs (set_pstate p t (procs m)) m))
    as [A [B [C [D [E [F [G H]]]]]]].
  rewrite A, B, C, D, E, F, G, H. cbn. rewrite fst_set. tauto.
Qed.

Lemma read_frame n m :
  req (read_signal n m) = req m /\ maxw (read_signal n m) = maxw m /\
  ph (read_signal n m) = ph m /\ now (read_signal n m) = now m /\
  workers (read_signal n m) = workers m /\ procs (read_signal n m) = procs m /\
  outs (read_signal n m) = outs m.
Proof.
  unfold read_signal. destruct (hand m); [tauto|].
  destruct (take_sig n (pending m)) as [[i r]|]; cbn; tauto.
Qed.

Lemma notify_frame l : forall m,
  req (notify_loop l m) = req m /\ maxw (notify_loop l m) = maxw m /\
  now (notify_loop l m) = now m /\ workers (notify_loop l m) = workers m /\
  procs (notify_loop l m) = procs m /\ pending (notify_loop l m) = pending m /\
  hand (notify_loop l m) = hand m /\
  (ph (notify_loop l m) = ph m \/ ph (notify_loop l m) = Down NotifyFailed).
Proof.
  induction l as [|p r IH]; intros m; cbn; [tauto|].
  destruct (pstate_of p (procs m)); cbn; [|tauto].
  destruct (IH (add_out (Sent p SIGUSR1) m)) as [A [B [C [D [E [F [G H]]]]]]].
  cbn in *. tauto.
Qed.

Lemma kill_frame fuel : forall ws m,
  req (kill_loop fuel ws m) = req m /\ maxw (kill_loop fuel ws m) = maxw m.
Proof.
  induction fuel as [|k IH]; intros ws m; cbn; [tauto|].
  destruct (workers m) as [|p r]; [tauto|]. cbn.
  destruct (procs m) as [|[q s] l]; cbn; [tauto|].
  match goal with |- context [kill_loop k ?w ?x] => destruct (IH w x) as [A B] end.
  rewrite A, B.
  match goal with |- context [remove_worker ?p ?x] =>
    destruct (remove_frame p x) as [C [D _]] end.
  rewrite C, D. cbn. tauto.
Qed.

Lemma reload_frame ws m :
  req (reload ws m) = req m /\ maxw (reload ws m) = maxw m /\ ~ up (reload ws m) /\
  ph (reload ws m) <> Fresh.
Proof.
  unfold reload. destruct (kill_frame (length (workers m)) ws m) as [A B].
  destruct (ph (kill_loop _ ws m)) eqn:E; cbn; rewrite ?A, ?B;
    repeat split; unfold up; cbn; rewrite ?E; try intros [H|H]; try congruence; discriminate.
Qed.

Lemma step_count r x m e : Count r x m -> Count r x (step m e).
Proof.
  intros K. pose proof K as [Q [X [F U]]]. unfold step.
  destruct (ph m) eqn:P; try exact K.
  - (* Fresh *)
    destruct (F eq_refl) as [F1 [F2 [F3 F4]]].
    destruct e; try exact K.
    + (* Spawn *)
      destruct (worker_spawn_cases fs m) as [[w [m' [E [A B]]]]|[ps [G [A B]]]].
      { unfold target. lia. }
      * rewrite E. cbn. split; [cbn; congruence|]. split; [cbn; congruence|].
        split; [intros H; discriminate|intros H; now apply not_up_down in H].
      * destruct G as [G [N Y]]. rewrite G. cbn. rewrite P. cbn.
        split; [auto|]. split; [auto|]. split; [intros H; discriminate|].
        intros _. cbn. subst r x. split; [auto|]. rewrite F2. cbn. lia.
    + destruct (child_frame p c m) as [A [B [C [D [E [G [H I]]]]]]].
      unfold Count, up. rewrite A, B, C, D, E, G, P.
      rewrite F3 in I.
      assert (procs (child p c m) = []) by (destruct (procs (child p c m)); [auto|discriminate]).
      split; [auto|]. split; [auto|]. split; [auto|]. intros [J|J]; discriminate.
    + match goal with |- context [raise ?i m] =>
        destruct (raise_frame i m) as [A [B [C [D [E [G [H I]]]]]]] end.
      unfold Count, up. rewrite A, B, C, D, E, G, H, P.
      split; [auto|]. split; [auto|]. split; [auto|]. intros [J|J]; discriminate.
  - (* Spawned *)
    destruct (U (or_introl P)) as [U1 [U2 U3]].
    destruct e; try exact K.
    + unfold register, Count, up. cbn. split; [auto|]. split; [auto|].
      split; [discriminate|auto].
    + destruct (child_frame p c m) as [A [B [C [D [E [G [H I]]]]]]].
      unfold Count, up. rewrite A, B, C, D, E, P. split; [auto|]. split; [auto|]. split; [discriminate|auto].
    + match goal with |- context [raise ?i m] =>
        destruct (raise_frame i m) as [A [B [C [D [E [G [H I]]]]]]] end.
      unfold Count, up. rewrite A, B, C, D, E, P. split; [auto|]. split; [auto|]. split; [discriminate|auto].
  - (* Serving *)
    destruct (U (or_intror P)) as [U1 [U2 U3]].
    destruct e; try exact K.
    + destruct (child_frame p c m) as [A [B [C [D [E [G [H I]]]]]]].
      unfold Count, up. rewrite A, B, C, D, E, P. split; [auto|]. split; [auto|]. split; [discriminate|auto].
    + match goal with |- context [raise ?i m] =>
        destruct (raise_frame i m) as [A [B [C [D [E [G [H I]]]]]]] end.
      unfold Count, up. rewrite A, B, C, D, E, P. split; [auto|]. split; [auto|]. split; [discriminate|auto].
    + destruct (read_frame n m) as [A [B [C [D [E [G H]]]]]].
      unfold Count, up. rewrite A, B, C, D, E, P. split; [auto|]. split; [auto|]. split; [discriminate|auto].
    + destruct (hand m) as [i|]; [|exact K].
      assert (DH : Count r x (default_handler (set_hand None m))).
      { destruct (default_spec (set_hand None m)) as [A [B [C [D [E [G H]]]]]].
        unfold Count, up. rewrite A, E, G. cbn.
        split; [auto|]. split; [auto|]. split; [discriminate|]. intros [J|J]; discriminate. }
      assert (HN : Count r x (set_hand None m)).
      { unfold Count, up. cbn. rewrite P. split; [auto|]. split; [auto|]. split; [discriminate|auto]. }
      unfold handle.
      destruct (i_sig i =? SIGCHLD).
      2:{ destruct (i_sig i =? SIGINT); [auto|].
          destruct (i_sig i =? SIGTERM); [auto|].
          destruct (i_sig i =? SIGWINCH); [auto|].
          destruct (i_sig i =? SIGUSR1); [|auto].
          unfold Count, up. cbn. rewrite P, rename_length.
          split; [auto|]. split; [auto|]. split; [discriminate|auto]. }
      unfold sigchld. cbn [procs set_hand].
      destruct (pstate_of (i_pid i) (procs m)) as [s|].
      2:{ split; [auto|]. split; [auto|]. split; [intros J; discriminate|].
          intros J; now apply not_up_down in J. }
      set (m1 := match s with PZombie => _ | _ => _ end).
      assert (M1 : req m1 = r /\ maxw m1 = x /\ ph m1 = Serving /\ now m1 = now m /\
                   workers m1 = workers m).
      { subst m1. destruct s; cbn; repeat split; auto. }
      clearbody m1. destruct M1 as [N1 [N2 [N3 [N4 N5]]]].
      destruct (judge (i_code i)).
      * unfold rebalance.
        destruct (remove_frame (i_pid i) m1) as [R1 [R2 [R3 [R4 [R5 [R6 R7]]]]]].
        destruct (remove_count (i_pid i) m1) as [S1 S2]; [congruence|].
        set (m2 := remove_worker (i_pid i) m1) in *.
        destruct (Z.leb_spec (now m2) (maxw m2)) as [L|L].
        2:{ unfold Count, up. split; [congruence|]. split; [congruence|].
            rewrite R3, N3. split; [discriminate|]. intros _. split; [auto|].
            split; [auto|]. unfold target in *. lia. }
        destruct (worker_spawn_cases fs m2) as [[w [m' [E [A B]]]]|[ps [G [A B]]]].
        { rewrite R1, R2, N1, N2. lia. }
        { rewrite E. split; [cbn; congruence|]. split; [cbn; congruence|].
          split; [intros J; discriminate|intros J; now apply not_up_down in J]. }
        destruct G as [G _]. rewrite G. unfold Count, up. cbn.
        rewrite R3, N3. split; [congruence|]. split; [congruence|].
        split; [discriminate|]. intros _. split; [auto|].
        rewrite app_length. rewrite R1, R2, N1, N2 in A. split; lia.
      * destruct (default_spec m1) as [A [B [C [D [E [G H]]]]]].
        unfold Count, up. rewrite A, E, G.
        split; [auto|]. split; [auto|]. split; [discriminate|]. intros [J|J]; discriminate.
      * split; [auto|]. split; [auto|]. split; [intros J; discriminate|].
        intros J; now apply not_up_down in J.
    + destruct (hand m) as [i|]; [exact K|].
      destruct (notify_frame (workers m) m) as [A [B [C [D [E [G [H I]]]]]]].
      unfold Count, up. rewrite A, B, C, D, E.
      split; [auto|]. split; [auto|].
      destruct I as [I|I]; rewrite I; rewrite ?P; split; auto; try discriminate;
      intros [J|J]; discriminate.
    + destruct (hand m) as [i|]; [exact K|].
      destruct (reload_frame ws m) as [A [B [C D]]].
      unfold Count. rewrite A, B. split; [auto|]. split; [auto|]. split; tauto.
Qed.

Lemma run_app m a b : run m (a ++ b) = run (run m a) b.
Proof. unfold run. apply fold_left_app. Qed.

Lemma count_init r x : Count r x (init r x).
Proof. repeat split; auto. all: intros; exfalso; destruct H; discriminate. Qed.

Lemma run_count r x es : Count r x (run (init r x) es).
Proof.
  unfold run. generalize (count_init r x). generalize (init r x).
  induction es as [|e r0 IH]; intros m C; cbn; auto using step_count.
Qed.

Lemma count_exact r x es m :
  run (init r x) es = m -> up m ->
  now m = Z.of_nat (length (workers m)) /\ now m = target r x.
Proof.
  intros <- U. destruct (run_count r x es) as [_ [_ [_ H]]].
  destruct (H U) as [_ H']. exact H'.
Qed.

(** Once the master has ended or is down it does nothing more. *)
Lemma run_over es m : (forall e, step m e = m) -> run m es = m.
Proof.
  intros H. unfold run. induction es as [|e r IH]; cbn; [reflexivity|].
  now rewrite H.
Qed.

Lemma ended_stays r es m : ph m = Ended r -> run m es = m.
Proof. intros H. apply run_over. intros e. unfold step. now rewrite H. Qed.

(** ** Workers and processes *)

Definition Table (m : master) : Prop :=
  (ph m = Fresh -> workers m = [] /\ procs m = [] /\ hand m = None) /\
  (ph m = Fresh \/ up m ->
   NoDup (map fst (procs m)) /\ NoDup (workers m) /\
   (forall p, In p (workers m) -> In p (map fst (procs m))) /\
   Forall (fun i => i_sig i = SIGUSR1 -> i_val i = i_pid i) (pending m) /\
   (forall i, hand m = Some i -> i_sig i = SIGUSR1 -> i_val i = i_pid i)).

Lemma grown_table m ps m' :
  grown m ps m' ->
  NoDup (map fst (procs m)) -> NoDup (workers m) ->
  (forall p, In p (workers m) -> In p (map fst (procs m))) ->
  NoDup (map fst (procs m')) /\ NoDup (workers m') /\
  (forall p, In p (workers m') -> In p (map fst (procs m'))).
Proof.
  intros [-> [N F]] A B C. cbn. rewrite map_app, map_map. cbn. rewrite map_id.
  assert (D : forall p, In p ps -> ~ In p (map fst (procs m))).
  { intros p Q. rewrite Forall_forall in F. destruct (F _ Q) as [_ E].
    now apply pstate_none. }
  assert (J : forall l, NoDup l -> (forall p, In p ps -> ~ In p l) -> NoDup (l ++ ps)).
  { intros l L. induction L as [|a r X L IH]; cbn; intros H; auto. constructor.
    - rewrite in_app_iff. intros [Y|Y]; [auto|]. apply (H _ Y). now left.
    - apply IH. intros p Q R. apply (H _ Q). now right. }
  split; [apply J; auto|]. split.
  - apply J; auto. intros p Q R. apply (D _ Q). auto.
  - intros p. rewrite !in_app_iff. intros [H|H]; auto.
Qed.

Lemma take_sig_In n l i r : take_sig n l = Some (i, r) ->
  i_sig i = n /\ In i l /\ (forall j, In j r -> In j l).
Proof.
  revert i r. induction l as [|a l IH]; cbn; [discriminate|]. intros i r.
  destruct (Z.eqb_spec (i_sig a) n).
  - intros [= <- <-]. auto.
  - destruct (take_sig n l) as [[j r']|]; [|discriminate].
    intros [= <- <-]. destruct (IH j r' eq_refl) as [A [B C]].
    split; [auto|]. split; [auto|]. intros k [K|K]; auto.
Qed.

Lemma raise_pending i m (P : info -> Prop) :
  Forall P (pending m) -> P i -> Forall P (pending (raise i m)).
Proof.
  intros F H. unfold raise. destruct (existsb _ _); [auto|]. cbn.
  apply Forall_app. auto.
Qed.

Lemma child_pending p c m (P : info -> Prop) :
  Forall P (pending m) -> P (mkInfo SIGCHLD p c 0) -> Forall P (pending (child p c m)).
Proof.
  intros F H. unfold child. destruct (pstate_of p (procs m)) as [s|]; [|auto].
  destruct (next_state s c); [|auto]. now apply raise_pending.
Qed.

(** What handling the record [i] leaves behind, when the master stays up. *)
Lemma handle_cases i fs m :
  ph m = Serving -> ph (handle i fs m) = Serving ->
  (i_sig i = SIGCHLD /\ judge (i_code i) = VDecrement /\
   exists s ps m1,
     pstate_of (i_pid i) (procs m) = Some s /\
     m1 = remove_worker (i_pid i)
            (match s with PZombie => set_procs (reap (i_pid i) (procs m)) m | _ => m end) /\
     grown m1 ps (handle i fs m)) \/
  (i_sig i = SIGWINCH /\ handle i fs m = m) \/
  (i_sig i = SIGUSR1 /\
   handle i fs m = set_workers (rename_first (i_val i) (i_pid i) (workers m)) m).
Proof.
  intros P. unfold handle.
  assert (D : ph (default_handler m) = Serving -> False).
  { destruct (default_spec m) as [A _]. congruence. }
  destruct (Z.eqb_spec (i_sig i) SIGCHLD) as [E|E].
  - intros H. left. split; [auto|]. unfold sigchld in *.
    destruct (pstate_of (i_pid i) (procs m)) as [s|]; [|discriminate H].
    set (m0 := match s with PZombie => _ | _ => _ end) in *.
    assert (P0 : ph m0 = Serving) by (subst m0; destruct s; auto).
    destruct (judge (i_code i)); [split; [auto|]| |discriminate H].
    + exists s. unfold rebalance in *.
      destruct (remove_frame (i_pid i) m0) as [R1 [R2 [R3 [R4 [R5 [R6 R7]]]]]].
      set (m1 := remove_worker (i_pid i) m0) in *.
      destruct (now m1 <=? maxw m1).
      * unfold worker_spawn in *. destruct (req m1 <=? 0); [discriminate H|].
        destruct (spawn_loop_cases (Z.to_nat (req m1 - now m1)) fs m1)
          as [[w [m' [A _]]]|[ps [G _]]]; [rewrite A in H; discriminate H|].
        exists ps, m1. auto.
      * exists [], m1. auto using grown_nil.
    + exfalso. destruct (default_spec m0) as [A _]. congruence.
  - destruct (Z.eqb_spec (i_sig i) SIGINT); [tauto|].
    destruct (Z.eqb_spec (i_sig i) SIGTERM); [tauto|].
    destruct (Z.eqb_spec (i_sig i) SIGWINCH); [auto|].
    destruct (Z.eqb_spec (i_sig i) SIGUSR1); [auto|tauto].
Qed.

Lemma handle_phase i fs m :
  ph m = Serving -> ph (handle i fs m) <> Serving ->
  ph (handle i fs m) <> Fresh /\ ph (handle i fs m) <> Spawned.
Proof.
  intros P. unfold handle.
  assert (D : ph (default_handler m) <> Fresh /\ ph (default_handler m) <> Spawned).
  { destruct (default_spec m) as [A _]. rewrite A. split; discriminate. }
  destruct (i_sig i =? SIGCHLD).
  - unfold sigchld. destruct (pstate_of (i_pid i) (procs m)) as [s|];
      [|cbn; intros _; split; discriminate].
    set (m0 := match s with PZombie => _ | _ => _ end) in *.
    assert (P0 : ph m0 = Serving) by (subst m0; destruct s; auto).
    destruct (judge (i_code i)).
    + unfold rebalance.
      destruct (remove_frame (i_pid i) m0) as [R1 [R2 [R3 _]]].
      set (m1 := remove_worker (i_pid i) m0) in *.
      destruct (now m1 <=? maxw m1); [|rewrite R3, P0; congruence].
      unfold worker_spawn. destruct (req m1 <=? 0); [cbn; split; discriminate|].
      destruct (spawn_loop_cases (Z.to_nat (req m1 - now m1)) fs m1)
        as [[w [m' [A _]]]|[ps [[A _] _]]]; rewrite A; cbn; [split; discriminate|].
      rewrite R3, P0. congruence.
    + destruct (default_spec m0) as [A _]. rewrite A. split; discriminate.
    + cbn. split; discriminate.
  - destruct (i_sig i =? SIGINT); [auto|].
    destruct (i_sig i =? SIGTERM); [auto|].
    destruct (i_sig i =? SIGWINCH); [rewrite P; congruence|].
    destruct (i_sig i =? SIGUSR1); [cbn; rewrite P; congruence|auto].
Qed.

Lemma step_table m e : honest e -> Table m -> Table (step m e).
Proof.
  intros Ho [F U]. unfold step.
  destruct (ph m) eqn:P;
    try (split; rewrite P; [discriminate|unfold up; rewrite P; intros [H|[H|H]]; discriminate]).
  - (* Fresh *)
    destruct (U (or_introl eq_refl)) as [U1 [U2 [U3 [U4 U5]]]].
    destruct (F eq_refl) as [F1 [F2 F3]].
    assert (Same : Table m) by (split; rewrite ?P; auto).
    destruct e; auto.
    + assert (C : (exists w m', worker_spawn fs m = set_ph (Down w) m') \/
                  (exists ps, grown m ps (worker_spawn fs m))).
      { unfold worker_spawn. destruct (req m <=? 0); [left; eauto|].
        destruct (spawn_loop_cases (Z.to_nat (req m - now m)) fs m)
          as [[w [m' [A _]]]|[ps [G _]]]; [left|right]; eauto. }
      destruct C as [[w [m' E]]|[ps G]].
      * rewrite E. cbn. split; [discriminate|unfold up; cbn; intros [H|[H|H]]; discriminate].
      * destruct (grown_table _ _ _ G U1 U2 U3) as [A [B C]].
        pose proof G as [G' _].
        assert (PH : ph (worker_spawn fs m) = Fresh) by (rewrite G'; exact P).
        rewrite PH. split; [discriminate|]. intros _. cbn.
        split; [auto|]. split; [auto|]. split; [auto|].
        rewrite G'. cbn. auto.
    + destruct (child_frame p c m) as [A [B [C [D [E [G [H I]]]]]]].
      split; rewrite C, ?E, ?G; unfold up; rewrite ?C, ?E, ?G, ?I.
      * intros _. split; [auto|]. split; [|auto]. rewrite F2 in I.
        destruct (procs (child p c m)); [auto|discriminate].
      * intros _. repeat split; auto. apply child_pending; [auto|]. cbn. discriminate.
    + match goal with |- context [raise ?i m] => set (j := i);
        destruct (raise_frame j m) as [A [B [C [D [E [G [H I]]]]]]] end.
      split; rewrite C, ?E, ?G, ?H; unfold up; rewrite ?C, ?E, ?G, ?H.
      * auto.
      * intros _. repeat split; auto. apply raise_pending; auto.
  - (* Spawned *)
    destruct (U (or_intror (or_introl P))) as [U1 [U2 [U3 [U4 U5]]]].
    assert (Same : Table m) by (split; rewrite ?P; [discriminate|auto]).
    destruct e; auto.
    + unfold register. split; [discriminate|]. cbn. intros _. repeat split; auto.
      apply Forall_forall. intros i Q. apply filter_In in Q as [Q _].
      rewrite Forall_forall in U4. auto.
    + destruct (child_frame p c m) as [A [B [C [D [E [G [H I]]]]]]].
      split; rewrite C, ?P, ?E, ?G; [discriminate|]. unfold up; rewrite ?C, ?E, ?G, ?I.
      intros _. repeat split; auto. apply child_pending; [auto|]. cbn. discriminate.
    + match goal with |- context [raise ?i m] => set (j := i);
        destruct (raise_frame j m) as [A [B [C [D [E [G [H I]]]]]]] end.
      split; rewrite C, ?P, ?E, ?G, ?H; [discriminate|]. unfold up; rewrite ?C, ?E, ?G, ?H.
      intros _. repeat split; auto. apply raise_pending; auto.
  - (* Serving *)
    destruct (U (or_intror (or_intror P))) as [U1 [U2 [U3 [U4 U5]]]].
    assert (Same : Table m) by (split; rewrite ?P; [discriminate|auto]).
    destruct e; auto.
    + destruct (child_frame p c m) as [A [B [C [D [E [G [H I]]]]]]].
      split; rewrite C, ?P, ?E, ?G; [discriminate|]. unfold up; rewrite ?C, ?E, ?G, ?I.
      intros _. repeat split; auto. apply child_pending; [auto|]. cbn. discriminate.
    + match goal with |- context [raise ?i m] => set (j := i);
        destruct (raise_frame j m) as [A [B [C [D [E [G [H I]]]]]]] end.
      split; rewrite C, ?P, ?E, ?G, ?H; [discriminate|]. unfold up; rewrite ?C, ?E, ?G, ?H.
      intros _. repeat split; auto. apply raise_pending; auto.
    + destruct (read_frame n m) as [A [B [C [D [E [G H]]]]]].
      split; rewrite C, ?P; [discriminate|]. unfold up. rewrite C, E, G. intros _.
      unfold read_signal. destruct (hand m) as [h|] eqn:Hh.
      * rewrite Hh. repeat split; auto.
      * destruct (take_sig n (pending m)) as [[i r]|] eqn:T; cbn; [|rewrite Hh; repeat split; auto].
        apply take_sig_In in T as [T1 [T2 T3]]. rewrite Forall_forall in U4.
        repeat split; auto.
        { apply Forall_forall. auto. }
        { intros j [= <-]. auto. }
    + destruct (hand m) as [i|] eqn:Hh; [|auto].
      set (m0 := set_hand None m).
      assert (P0 : ph m0 = Serving) by exact P.
      assert (DC : ph (handle i fs m0) = Serving \/ ph (handle i fs m0) <> Serving)
        by (destruct (ph (handle i fs m0)); auto; right; discriminate).
      destruct DC as [HS|HS].
      2:{ destruct (handle_phase i fs m0 P0 HS) as [A B].
          split; [tauto|]. intros [C|[C|C]]; tauto. }
      split; [rewrite HS; discriminate|]. intros _.
      destruct (handle_cases i fs m0 P0 HS) as
        [[A [B [s [ps [m1 [C [D G]]]]]]]|[[A B]|[A B]]].
      * assert (T1 : NoDup (map fst (procs m1)) /\ NoDup (workers m1) /\
                     (forall p, In p (workers m1) -> In p (map fst (procs m1))) /\
                     pending m1 = pending m /\ hand m1 = None).
        { subst m1. set (mx := match s with PZombie => _ | _ => _ end).
          destruct (remove_frame (i_pid i) mx) as [R1 [R2 [R3 [R4 [R5 [R6 R7]]]]]].
          rewrite R4, R5, R6, remove_workers.
          assert (W : workers mx = workers m) by (subst mx; destruct s; reflexivity).
          rewrite W. split; [|split; [|split; [|split]]].
          - subst mx. destruct s; cbn; auto using reap_nodup.
          - now apply drop_first_nodup.
          - intros p Q. pose proof (drop_first_gone (i_pid i) _ U2) as NG.
            assert (p <> i_pid i) by congruence.
            apply drop_first_sub in Q. apply U3 in Q.
            subst mx. destruct s; cbn; auto.
            apply pstate_In. rewrite pstate_reap_other; auto. now apply pstate_In.
          - subst mx. destruct s; reflexivity.
          - subst mx. destruct s; reflexivity. }
        destruct T1 as [T1 [T2 [T3 [T4 T5]]]].
        destruct (grown_table _ _ _ G T1 T2 T3) as [X [Y Z]].
        split; [auto|]. split; [auto|]. split; [auto|].
        destruct G as [G _]. rewrite G. cbn. rewrite T4, T5. split; [auto|discriminate].
      * rewrite B. cbn. repeat split; auto. discriminate.
      * rewrite B. cbn. rewrite (U5 i eq_refl A), rename_same.
        repeat split; auto. discriminate.
    + destruct (hand m) as [i|] eqn:Hh; [auto|].
      destruct (notify_frame (workers m) m) as [A [B [C [D [E [G [H I]]]]]]].
      destruct I as [I|I].
      * split; rewrite I, ?P; [discriminate|]. rewrite D, E, G, H, Hh.
        intros _. repeat split; auto.
      * split; rewrite I; [discriminate|]. unfold up. rewrite I. intros [J|[J|J]]; discriminate.
    + destruct (hand m) as [i|] eqn:Hh; [auto|].
      destruct (reload_frame ws m) as [A [B [C D]]].
      split; [tauto|]. tauto.
Qed.

Lemma table_init r x : Table (init r x).
Proof.
  split; cbn; [auto|]. intros _. repeat split; try constructor; try tauto. discriminate.
Qed.

Lemma run_table r x es : Forall honest es -> Table (run (init r x) es).
Proof.
  intros H. unfold run. generalize (table_init r x). generalize (init r x).
  induction H as [|e l A B IH]; intros m T; cbn; auto using step_table.
Qed.

(** ** Counting live workers *)

Lemma filter_split {A} (f : A -> bool) l :
  (length (filter f l) + length (filter (fun x => negb (f x)) l) = length l)%nat.
Proof. induction l as [|a r IH]; cbn; [reflexivity|]. destruct (f a); cbn; lia. Qed.

Lemma same_length {A} (l k : list A) :
  NoDup l -> NoDup k -> (forall x, In x l <-> In x k) -> length l = length k.
Proof.
  intros A1 A2 E. apply Permutation_length. now apply NoDup_Permutation.
Qed.

Lemma accounting r x es m :
  Forall honest es -> run (init r x) es = m -> up m ->
  Z.of_nat (length (live m)) + Z.of_nat (length (filter (fun p => negb (alive m p)) (workers m)))
  = target r x + Z.of_nat (length (filter (fun p => negb (tracked m p)) (live m))).
Proof.
  intros H E U. destruct (count_exact _ _ _ _ E U) as [C1 C2].
  pose proof (run_table r x es H) as T. rewrite E in T. destruct T as [_ T].
  destruct (T (or_intror U)) as [T1 [T2 _]].
  pose proof (filter_split (tracked m) (live m)) as A.
  pose proof (filter_split (alive m) (workers m)) as B.
  assert (L : length (filter (tracked m) (live m)) = length (filter (alive m) (workers m))).
  { apply same_length; [apply NoDup_filter, live_nodup; auto|now apply NoDup_filter|].
    intros p. rewrite !filter_In, tracked_In, live_alive; tauto. }
  lia.
Qed.

(** ** A missed death *)

Definition unnoticed (p : Z) (m : master) : Prop :=
  In p (workers m) /\ pstate_of p (procs m) = Some PZombie /\
  Forall (fun i => ~ (i_sig i = SIGCHLD /\ i_pid i = p)) (pending m) /\
  (forall i, hand m = Some i -> ~ (i_sig i = SIGCHLD /\ i_pid i = p)) /\
  Forall (fun i => i_sig i = SIGUSR1 -> i_val i = i_pid i) (pending m) /\
  (forall i, hand m = Some i -> i_sig i = SIGUSR1 -> i_val i = i_pid i).

(** A signal from outside that is not a SIGCHLD in the dead worker's name. *)
Definition real (p : Z) (e : event) : Prop :=
  honest e /\
  match e with Outside i => ~ (i_sig i = SIGCHLD /\ i_pid i = p) | _ => True end.

Lemma step_unnoticed p m e :
  real p e -> ph m = Serving -> unnoticed p m -> ph (step m e) = Serving ->
  unnoticed p (step m e).
Proof.
  intros [Ho Re] P [W [Z0 [Pe [Ha [Us Uh]]]]] S'. unfold step in *. rewrite P in *.
  assert (Same : unnoticed p m) by (repeat split; auto).
  destruct e; auto.
  - destruct (child_frame p0 c m) as [A [B [C [D [E [G [H I]]]]]]].
    unfold unnoticed. rewrite E, G. split; [auto|].
    assert (Q : pstate_of p (procs (child p0 c m)) = Some PZombie /\
                Forall (fun i => ~ (i_sig i = SIGCHLD /\ i_pid i = p)) (pending (child p0 c m))).
    { unfold child. destruct (pstate_of p0 (procs m)) as [s|] eqn:PS; [|auto].
      destruct (next_state s c) as [t|] eqn:NS; [|auto].
      assert (p <> p0).
      { intros ->. rewrite Z0 in PS. injection PS as <-. destruct c; discriminate NS. }
      destruct (raise_frame (mkInfo SIGCHLD p0 c 0) (set_procs (set_pstate p0 t (procs m)) m))
        as [_ [_ [_ [_ [_ [K _]]]]]].
      rewrite K. cbn. rewrite pstate_set. destruct (Z.eqb_spec p p0); [congruence|].
      split; [auto|]. apply raise_pending; [auto|]. cbn. intros [_ X]. congruence. }
    destruct Q as [Q1 Q2]. split; [auto|]. split; [auto|]. split; [auto|]. split; [|auto].
    apply child_pending; [auto|]. cbn. discriminate.
  - match goal with |- context [raise ?i m] => set (j := i) in *;
      destruct (raise_frame j m) as [A [B [C [D [E [G [H I]]]]]]] end.
    unfold unnoticed. rewrite E, G, H. repeat split; auto; apply raise_pending; auto.
  - destruct (read_frame n m) as [A [B [C [D [E [G H]]]]]].
    unfold unnoticed. rewrite E, G. split; [auto|]. split; [auto|].
    unfold read_signal. destruct (hand m) as [h|] eqn:Hh; [rewrite Hh; auto|].
    destruct (take_sig n (pending m)) as [[i r]|] eqn:T; cbn; [|rewrite Hh; auto].
    apply take_sig_In in T as [T1 [T2 T3]]. rewrite Forall_forall in Us, Pe.
    split; [apply Forall_forall; auto|]. split; [intros j [= <-]; auto|].
    split; [apply Forall_forall; auto|intros j [= <-]; auto].
  - destruct (hand m) as [i|] eqn:Hh; [|auto].
    set (m0 := set_hand None m) in *.
    destruct (handle_cases i fs m0 P S') as
        [[A [B [s [ps [m1 [C [D G]]]]]]]|[[A B]|[A B]]].
    + assert (NP : p <> i_pid i) by (intros ->; apply (Ha i eq_refl); auto).
      destruct G as [G _]. rewrite G.
      set (mx := match s with PZombie => _ | _ => _ end) in D.
      destruct (remove_frame (i_pid i) mx) as [R1 [R2 [R3 [R4 [R5 [R6 R7]]]]]].
      rewrite <- D in *.
      assert (X : workers mx = workers m /\ pending mx = pending m /\ hand mx = None /\
                  pstate_of p (procs mx) = Some PZombie).
      { subst mx. destruct s; cbn; repeat split; auto. now rewrite pstate_reap_other. }
      destruct X as [X1 [X2 [X3 X4]]].
      unfold unnoticed; cbn. rewrite pstate_app, R4, X4, R5, X2, R6, X3.
      split.
      { rewrite in_app_iff. left. rewrite D, remove_workers, X1. now apply drop_first_other. }
      split; [auto|]. split; [auto|]. split; [discriminate|]. split; [auto|discriminate].
    + rewrite B. unfold unnoticed; cbn. repeat split; auto; discriminate.
    + rewrite B. unfold unnoticed; cbn. rewrite (Uh i eq_refl A), rename_same.
      repeat split; auto; discriminate.
  - destruct (hand m) as [i|] eqn:Hh; [auto|].
    destruct (notify_frame (workers m) m) as [A [B [C [D [E [G [H I]]]]]]].
    unfold unnoticed. rewrite D, E, G, H, Hh. repeat split; auto; discriminate.
  - destruct (hand m) as [i|] eqn:Hh; [auto|].
    destruct (reload_frame ws m) as [A [B [C D]]]. exfalso. apply C. now right.
Qed.

Lemma step_serving m e : ph (step m e) = Serving -> ph m = Serving \/ e = Register.
Proof.
  unfold step. destruct (ph m) eqn:P; auto; try congruence.
  - destruct e; try congruence.
    + intros H. exfalso.
      assert (C : (exists w m', worker_spawn fs m = set_ph (Down w) m') \/
                  (exists ps, grown m ps (worker_spawn fs m))).
      { unfold worker_spawn. destruct (req m <=? 0); [left; eauto|].
        destruct (spawn_loop_cases (Z.to_nat (req m - now m)) fs m)
          as [[w [m' [A _]]]|[ps [G _]]]; [left|right]; eauto. }
      destruct C as [[w [m' E]]|[ps [G _]]].
      * rewrite E in H. discriminate H.
      * rewrite G in H. cbn in H. rewrite P in H. discriminate H.
    + destruct (child_frame p c m) as [_ [_ [C _]]]. congruence.
    + match goal with |- context [raise ?i m] =>
        destruct (raise_frame i m) as [_ [_ [C _]]] end. congruence.
  - destruct e; try congruence; auto.
    + destruct (child_frame p c m) as [_ [_ [C _]]]. congruence.
    + match goal with |- context [raise ?i m] =>
        destruct (raise_frame i m) as [_ [_ [C _]]] end. congruence.
Qed.

Lemma step_down m e : ph m <> Serving -> ph m <> Spawned -> ph m <> Fresh -> step m e = m.
Proof. unfold step. destruct (ph m); congruence. Qed.

Lemma step_serving_out m e : ph m = Serving ->
  ph (step m e) <> Fresh /\ ph (step m e) <> Spawned.
Proof.
  intros P. unfold step. rewrite P. destruct e; try (rewrite P; split; discriminate).
  - destruct (child_frame p c m) as [_ [_ [C _]]]. rewrite C, P. split; discriminate.
  - match goal with |- context [raise ?i m] =>
        destruct (raise_frame i m) as [_ [_ [C _]]] end. rewrite C, P. split; discriminate.
  - destruct (read_frame n m) as [_ [_ [C _]]]. rewrite C, P. split; discriminate.
  - destruct (hand m) as [i|]; [|rewrite P; split; discriminate].
    assert (DC : ph (handle i fs (set_hand None m)) = Serving \/
                 ph (handle i fs (set_hand None m)) <> Serving)
      by (destruct (ph (handle i fs (set_hand None m))); auto; right; discriminate).
    destruct DC as [H|H]; [rewrite H; split; discriminate|].
    now apply handle_phase.
  - destruct (hand m) as [i|]; [rewrite P; split; discriminate|].
    destruct (notify_frame (workers m) m) as [_ [_ [_ [_ [_ [_ [_ [I|I]]]]]]]];
      rewrite I, ?P; split; discriminate.
  - destruct (hand m) as [i|]; [rewrite P; split; discriminate|].
    destruct (reload_frame ws m) as [_ [_ [C D]]].
    split; [auto|]. intros E. apply C. now left.
Qed.

Lemma run_serving_back es : forall m,
  ph m = Serving -> ph (run m es) = Serving ->
  forall k, ph (run m (firstn k es)) = Serving.
Proof.
  induction es as [|e r IH]; intros m P Q k; [now rewrite firstn_nil|].
  destruct k as [|k]; [exact P|]. cbn in *.
  apply IH; auto.
  destruct (ph (step m e)) eqn:E; auto;
    destruct (step_serving_out m e P) as [A B]; try congruence.
  - fold (run (step m e) r) in Q. rewrite (ended_stays _ _ _ E) in Q. congruence.
  - fold (run (step m e) r) in Q.
    rewrite run_over in Q; [congruence|]. intros e'. apply step_down; congruence.
Qed.

Lemma run_unnoticed p es : forall m,
  Forall (real p) es -> ph m = Serving -> unnoticed p m -> ph (run m es) = Serving ->
  unnoticed p (run m es).
Proof.
  induction es as [|e r IH]; intros m F P U Q; [exact U|].
  inversion_clear F as [|? ? A B].
  pose proof (run_serving_back (e :: r) m P Q 1) as S1. cbn in S1.
  cbn in *. apply IH; auto. apply step_unnoticed; auto.
Qed.

(** ** Calm histories *)

Definition notices (m : master) : list info :=
  filter (fun i => i_sig i =? SIGCHLD)
    ((match hand m with Some i => [i] | None => [] end) ++ pending m).

Definition Calm (m : master) : Prop :=
  (ph m = Fresh -> workers m = [] /\ procs m = []) /\
  (ph m = Fresh \/ up m ->
   (forall p, In p (workers m) <-> In p (map fst (procs m))) /\
   (forall p s, pstate_of p (procs m) = Some s -> s = PRunning \/ s = PZombie) /\
   (forall p, pstate_of p (procs m) = Some PZombie <-> In p (map i_pid (notices m))) /\
   NoDup (map i_pid (notices m)) /\
   (forall i, In i (notices m) -> death (i_code i))).

Lemma no_chld_filter l : no_chld l -> filter (fun i => i_sig i =? SIGCHLD) l = [].
Proof.
  induction 1 as [|i r A B IH]; cbn; [reflexivity|].
  destruct (Z.eqb_spec (i_sig i) SIGCHLD); [contradiction|auto].
Qed.

Lemma no_chld_existsb l : no_chld l -> existsb (fun j => i_sig j =? SIGCHLD) l = false.
Proof.
  induction 1 as [|i r A B IH]; cbn; [reflexivity|].
  destruct (Z.eqb_spec (i_sig i) SIGCHLD); [contradiction|auto].
Qed.

Lemma calm_step_honest m e : calm_step m e -> honest e.
Proof. destruct e; cbn; tauto. Qed.

Lemma calm_honest es : forall m, calm m es -> Forall honest es.
Proof.
  induction es as [|e r IH]; intros m; cbn; [constructor|].
  intros [A B]. constructor; [now apply calm_step_honest in A|eauto].
Qed.

(** Equal in everything the calm invariant speaks about. *)
Lemma calm_ext m m' :
  (ph m' = Fresh -> ph m = Fresh) -> (up m' -> up m \/ ph m = Fresh) ->
  workers m' = workers m -> procs m' = procs m -> notices m' = notices m ->
  Calm m -> Calm m'.
Proof.
  intros A B C D E [F G]. unfold Calm. rewrite C, D, E.
  split; [auto|]. intros [H|H]; apply G; [left; auto|].
  destruct (B H); auto.
Qed.

Lemma notices_raise i m :
  i_sig i <> SIGCHLD -> notices (raise i m) = notices m.
Proof.
  intros N. unfold raise. destruct (existsb _ _); [reflexivity|].
  unfold notices. cbn. rewrite !filter_app. cbn.
  destruct (Z.eqb_spec (i_sig i) SIGCHLD); [contradiction|].
  now rewrite app_nil_r.
Qed.

Lemma notices_read n m : notices (read_signal n m) = notices m \/
  Permutation (notices (read_signal n m)) (notices m).
Proof.
  unfold read_signal. destruct (hand m) as [h|] eqn:H; [auto|].
  destruct (take_sig n (pending m)) as [[i r]|] eqn:T; [|auto]. right.
  unfold notices. cbn. rewrite H. cbn [app].
  assert (P : Permutation (i :: r) (pending m)).
  { clear H. revert i r T. induction (pending m) as [|a l IH]; cbn; [discriminate|].
    intros i r. destruct (i_sig a =? n); [intros [= <- <-]; apply Permutation_refl|].
    destruct (take_sig n l) as [[j r']|]; [|discriminate].
    intros [= <- <-]. rewrite perm_swap. constructor. auto. }
  clear - P.
  assert (G : forall (l k : list info), Permutation l k ->
    Permutation (filter (fun j => i_sig j =? SIGCHLD) l) (filter (fun j => i_sig j =? SIGCHLD) k)).
  { induction 1; cbn; auto.
    - destruct (_ =? _); auto.
    - destruct (i_sig x =? SIGCHLD), (i_sig y =? SIGCHLD); auto. constructor.
    - etransitivity; eauto. }
  apply (G _ _ P).
Qed.

Lemma calm_child m p c :
  Table m -> Calm m -> death c -> no_chld (pending m) ->
  ph m = Fresh \/ up m -> Calm (child p c m).
Proof.
  intros [T1 T2] [F C] D N PH. destruct (C PH) as [C1 [C2 [C3 [C4 C5]]]].
  unfold child. destruct (pstate_of p (procs m)) as [s|] eqn:PS; [|split; auto].
  destruct (next_state s c) as [t|] eqn:NS; [|split; auto].
  assert (t = PZombie /\ s = PRunning) as [-> ->].
  { destruct (C2 _ _ PS) as [->| ->]; destruct c; cbn in *; try tauto; try discriminate;
      injection NS as <-; auto. }
  unfold raise. cbn [pending set_procs i_sig]. rewrite (no_chld_existsb _ N).
  set (mm := set_pending _ _).
  assert (NE : notices mm = notices m ++ [mkInfo SIGCHLD p c 0]).
  { unfold notices. cbn. rewrite !filter_app. cbn. now rewrite app_assoc. }
  assert (PM : procs mm = set_pstate p PZombie (procs m)) by reflexivity.
  assert (WM : workers mm = workers m) by reflexivity.
  assert (HM : ph mm = ph m) by reflexivity.
  clearbody mm. unfold Calm, up. rewrite PM, WM, HM. split.
  - intros H. destruct (F H) as [_ E]. rewrite E in PS. discriminate.
  - intros _. rewrite fst_set. split; [auto|]. split.
    { intros q u. rewrite pstate_set. destruct (Z.eqb_spec q p); [|apply C2].
      rewrite PS. intros [= <-]. auto. }
    rewrite NE, map_app. cbn [map i_pid].
    assert (NP : ~ In p (map i_pid (notices m))).
    { rewrite <- C3, PS. discriminate. }
    split.
    { intros q. rewrite pstate_set, in_app_iff, <- C3. cbn.
      destruct (Z.eqb_spec q p).
      - subst. rewrite PS. tauto.
      - split; [auto|]. intros [H|[H|[]]]; [auto|congruence]. }
    split.
    { apply (Permutation_NoDup (l := p :: map i_pid (notices m))).
      - apply Permutation_cons_append.
      - now constructor. }
    intros i. rewrite in_app_iff. intros [H|[<-|[]]]; auto.
Qed.

Lemma in_notices_head i m :
  hand m = Some i -> i_sig i = SIGCHLD ->
  notices m = i :: notices (set_hand None m).
Proof.
  intros H S0. unfold notices. rewrite H. cbn.
  destruct (Z.eqb_spec (i_sig i) SIGCHLD); [reflexivity|contradiction].
Qed.

Lemma notices_hand_other i m :
  hand m = Some i -> i_sig i <> SIGCHLD ->
  notices (set_hand None m) = notices m.
Proof.
  intros H S0. unfold notices. rewrite H. cbn.
  destruct (Z.eqb_spec (i_sig i) SIGCHLD); [contradiction|reflexivity].
Qed.

Lemma grown_calm m ps m' :
  grown m ps m' -> Table m -> Calm m -> ph m = Fresh \/ up m ->
  (forall p, In p (workers m') <-> In p (map fst (procs m'))) /\
   (forall p s, pstate_of p (procs m') = Some s -> s = PRunning \/ s = PZombie) /\
   (forall p, pstate_of p (procs m') = Some PZombie <-> In p (map i_pid (notices m'))) /\
   NoDup (map i_pid (notices m')) /\
   (forall i, In i (notices m') -> death (i_code i)).
Proof.
  intros [G [N F]] [_ T] [_ C] PH. destruct (C PH) as [C1 [C2 [C3 [C4 C5]]]].
  assert (NE : notices m' = notices m) by (rewrite G; reflexivity).
  rewrite NE. rewrite G. cbn.
  split.
  { intros p. rewrite map_app, map_map, !in_app_iff, C1. cbn. rewrite map_id. tauto. }
  split.
  { intros p s. rewrite pstate_app, pstate_running.
    destruct (pstate_of p (procs m)) eqn:E; [intros [= <-]; eauto|].
    destruct (existsb _ _); intros [= <-]. auto. }
  split; [|auto].
  intros p. rewrite <- C3, pstate_app, pstate_running.
  destruct (pstate_of p (procs m)) eqn:E; [tauto|].
  destruct (existsb _ _); split; discriminate.
Qed.

Lemma step_calm m e : Table m -> calm_step m e -> Calm m -> Calm (step m e).
Proof.
  intros T K C. unfold step.
  destruct (ph m) eqn:P; auto.
  - (* Fresh *)
    destruct e; auto.
    + assert (Cs : (exists w m', worker_spawn fs m = set_ph (Down w) m') \/
                  (exists ps, grown m ps (worker_spawn fs m))).
      { unfold worker_spawn. destruct (req m <=? 0); [left; eauto|].
        destruct (spawn_loop_cases (Z.to_nat (req m - now m)) fs m)
          as [[w [m' [A _]]]|[ps [G _]]]; [left|right]; eauto. }
      destruct Cs as [[w [m' E]]|[ps G]].
      * rewrite E. cbn. split; [discriminate|unfold up; cbn; intros [H|[H|H]]; discriminate].
      * pose proof (grown_calm _ _ _ G T C (or_introl P)) as GC.
        assert (PH : ph (worker_spawn fs m) = Fresh) by (destruct G as [G _]; rewrite G; exact P).
        rewrite PH. split; [discriminate|]. intros _. exact GC.
    + destruct K. apply calm_child; auto.
    + match goal with |- context [raise ?i m] => set (j := i);
        destruct (raise_frame j m) as [A [B [C' [D [E [G [H I]]]]]]] end.
      apply (calm_ext m); auto; unfold up; rewrite ?C'; auto.
      apply notices_raise. apply K.
  - (* Spawned *)
    assert (U : up m) by (left; auto).
    destruct e; auto.
    + apply (calm_ext m); auto; cbn; try discriminate.
      unfold notices, register. cbn [hand pending set_ph set_pending].
      rewrite !filter_app. f_equal.
      rewrite (no_chld_filter _ K). apply no_chld_filter.
      apply Forall_forall. intros i H.
      apply filter_In in H as [H _]. exact (proj1 (Forall_forall _ _) K i H).
    + destruct K. apply calm_child; auto.
    + match goal with |- context [raise ?i m] => set (j := i);
        destruct (raise_frame j m) as [A [B [C' [D [E [G [H I]]]]]]] end.
      apply (calm_ext m); auto; unfold up; rewrite ?C'; auto.
      apply notices_raise. apply K.
  - (* Serving *)
    assert (U : up m) by (right; auto).
    destruct e; auto.
    + destruct K. apply calm_child; auto.
    + match goal with |- context [raise ?i m] => set (j := i);
        destruct (raise_frame j m) as [A [B [C' [D [E [G [H I]]]]]]] end.
      apply (calm_ext m); auto; unfold up; rewrite ?C'; auto.
      apply notices_raise. apply K.
    + destruct (read_frame n m) as [A [B [C' [D [E [G H]]]]]].
      destruct (notices_read n m) as [N|N].
      * apply (calm_ext m); auto; unfold up; rewrite ?C'; auto.
      * destruct C as [F C]. split; [rewrite C', P; discriminate|]. intros _.
        destruct (C (or_intror U)) as [C1 [C2 [C3 [C4 C5]]]].
        rewrite E, G. split; [auto|]. split; [auto|].
        assert (NP : Permutation (map i_pid (notices (read_signal n m))) (map i_pid (notices m)))
          by now apply Permutation_map.
        split.
        { intros p. rewrite C3. split; apply Permutation_in; [symmetry|]; auto. }
        split; [apply (Permutation_NoDup (l := map i_pid (notices m))); [symmetry|]; auto|].
        intros i Hi. apply C5. apply (Permutation_in _ N Hi).
    + destruct (hand m) as [i|] eqn:Hh; [|auto].
      set (m0 := set_hand None m) in *.
      assert (P0 : ph m0 = Serving) by exact P.
      assert (DC : ph (handle i fs m0) = Serving \/ ph (handle i fs m0) <> Serving)
        by (destruct (ph (handle i fs m0)); auto; right; discriminate).
      destruct DC as [HS|HS].
      2:{ destruct (handle_phase i fs m0 P0 HS) as [A B].
          split; [tauto|]. intros [D|[D|D]]; tauto. }
      destruct T as [T1 T2]. destruct (T2 (or_intror U)) as [T3 [T4 [T5 [T6 T7]]]].
      pose proof C as [F C']. destruct (C' (or_intror U)) as [C1 [C2 [C3 [C4 C5]]]].
      destruct (handle_cases i fs m0 P0 HS) as
        [[A [B [s [ps [m1 [D [E G]]]]]]]|[[A B]|[A B]]].
      * pose proof (in_notices_head i m Hh A) as NH. fold m0 in NH.
        assert (ZP : pstate_of (i_pid i) (procs m) = Some PZombie).
        { apply C3. rewrite NH. now left. }
        change (procs m0) with (procs m) in *.
        rewrite ZP in D. injection D as <-.
        destruct (remove_frame (i_pid i) (set_procs (reap (i_pid i) (procs m)) m0))
          as [R1 [R2 [R3 [R4 [R5 [R6 R7]]]]]].
        pose proof (remove_workers (i_pid i) (set_procs (reap (i_pid i) (procs m)) m0)) as RW.
        rewrite <- E in *. cbn in R3, R4, R5, R6, RW.
        assert (NM : notices m1 = notices m0).
        { unfold notices. rewrite R5, R6. reflexivity. }
        assert (TM : Table m1).
        { split; [rewrite R3, P; discriminate|]. intros _. rewrite R4, R5, R6, RW.
          split; [now apply reap_nodup|]. split; [now apply drop_first_nodup|].
          split; [|split; [auto|discriminate]].
          intros p Q. pose proof (drop_first_gone (i_pid i) _ T4) as NG.
          assert (p <> i_pid i) by congruence.
          apply drop_first_sub in Q. apply T5 in Q.
          apply pstate_In. rewrite pstate_reap_other; auto. now apply pstate_In. }
        assert (CM : Calm m1).
        { split; [rewrite R3, P; discriminate|]. intros _. rewrite R4, RW, NM.
          rewrite NH in C3, C4, C5. cbn in C3, C4. inversion_clear C4 as [|? ? Y1 Y2].
          split.
          { intros p. split.
            - intros Q. pose proof (drop_first_gone (i_pid i) _ T4) as NG.
              assert (p <> i_pid i) by congruence.
              apply drop_first_sub in Q. apply T5 in Q.
              apply pstate_In. rewrite pstate_reap_other; auto. now apply pstate_In.
            - intros Q. assert (p <> i_pid i).
              { intros ->. apply pstate_In in Q. apply Q. now apply pstate_reap_same. }
              apply drop_first_other; [auto|]. apply C1. now apply reap_sub in Q. }
          split.
          { intros p u. destruct (Z.eq_dec p (i_pid i)) as [->|Np].
            - rewrite pstate_reap_same; [discriminate|auto].
            - rewrite pstate_reap_other; eauto. }
          split.
          { intros p. destruct (Z.eq_dec p (i_pid i)) as [->|Np].
            - rewrite pstate_reap_same; [|auto]. split; [discriminate|tauto].
            - rewrite pstate_reap_other; [|auto]. rewrite C3. intuition congruence. }
          split; [auto|]. intros j Hj. apply C5. now right. }
        split; [rewrite HS; discriminate|]. intros _.
        apply (grown_calm m1 ps); auto. right. right. now rewrite R3.
      * assert (NE : notices m0 = notices m)
          by (apply (notices_hand_other i); [auto|rewrite A; discriminate]).
        rewrite B. apply (calm_ext m); auto.
      * assert (NE : notices m0 = notices m)
          by (apply (notices_hand_other i); [auto|rewrite A; discriminate]).
        rewrite B. rewrite (T7 i Hh A), rename_same.
        apply (calm_ext m); auto.
    + destruct (hand m) as [i|] eqn:Hh; [auto|].
      destruct (notify_frame (workers m) m) as [A [B [C' [D [E [G [H I]]]]]]].
      apply (calm_ext m); auto.
      * destruct I as [I|I]; rewrite I; [auto|discriminate].
      * unfold notices. now rewrite G, H.
    + destruct (hand m) as [i|] eqn:Hh; [auto|].
      destruct (reload_frame ws m) as [A [B [C' D]]].
      split; [tauto|]. tauto.
Qed.

Lemma calm_init r x : Calm (init r x).
Proof.
  split; cbn; [auto|]. intros _. split; [tauto|]. split; [discriminate|].
  split; [intros p; split; [discriminate|tauto]|]. split; [constructor|tauto].
Qed.

Lemma run_calm es : forall m, Table m -> Calm m -> calm m es -> Calm (run m es).
Proof.
  induction es as [|e r IH]; intros m T C; cbn; [auto|].
  intros [A B]. apply IH; auto.
  - apply step_table; [now apply calm_step_honest in A|auto].
  - now apply step_calm.
Qed.

Lemma quiet_notices m : quiet m -> notices m = [].
Proof.
  intros [H N]. unfold notices. rewrite H. cbn. now apply no_chld_filter.
Qed.

Lemma calm_live r x es m :
  calm (init r x) es -> run (init r x) es = m -> up m -> quiet m ->
  Permutation (live m) (workers m) /\
  Z.of_nat (length (live m)) = target r x /\
  (forall p, In p (map fst (procs m)) -> pstate_of p (procs m) = Some PRunning).
Proof.
  intros K E U Q.
  pose proof (run_table r x es (calm_honest _ _ K)) as T. rewrite E in T.
  pose proof (run_calm es _ (table_init r x) (calm_init r x) K) as C. rewrite E in C.
  destruct T as [_ T]. destruct (T (or_intror U)) as [T1 [T2 _]].
  destruct C as [_ C]. destruct (C (or_intror U)) as [C1 [C2 [C3 _]]].
  rewrite (quiet_notices _ Q) in C3. cbn in C3.
  assert (R : forall p, In p (map fst (procs m)) -> pstate_of p (procs m) = Some PRunning).
  { intros p H. apply pstate_In in H.
    destruct (pstate_of p (procs m)) as [s|] eqn:PS; [|congruence].
    destruct (C2 _ _ PS) as [->| ->]; [auto|]. exfalso. now apply (C3 p). }
  assert (P : Permutation (live m) (workers m)).
  { apply NoDup_Permutation; [now apply live_nodup|auto|].
    intros p. rewrite live_alive by auto. unfold alive. rewrite C1. split.
    - intros H. apply pstate_In. destruct (pstate_of p (procs m)); congruence.
    - intros H. now rewrite (R p H). }
  split; [auto|]. split; [|auto].
  rewrite (Permutation_length P). destruct (count_exact _ _ _ _ E U). lia.
Qed.

(** ** Termination *)

(** Signals that end the server: every one but SIGCHLD, SIGWINCH and SIGUSR1. *)
Definition ends (n : Z) : Prop := n <> SIGCHLD /\ n <> SIGWINCH /\ n <> SIGUSR1.

Lemma handle_ends i fs m : ends (i_sig i) -> handle i fs m = default_handler m.
Proof.
  intros [A [B C]]. unfold handle.
  destruct (Z.eqb_spec (i_sig i) SIGCHLD); [contradiction|].
  destruct (i_sig i =? SIGINT); [auto|]. destruct (i_sig i =? SIGTERM); [auto|].
  destruct (Z.eqb_spec (i_sig i) SIGWINCH); [contradiction|].
  destruct (Z.eqb_spec (i_sig i) SIGUSR1); [contradiction|auto].
Qed.

Definition fatal (c : code) : Prop := c = Exited ERR_EMERG \/ c = Exited ERR_CRIT.

Lemma fatal_judge c : fatal c -> judge c = VTerminate.
Proof. intros [->| ->]; reflexivity. Qed.

(** The records that end the server. *)
Definition ending (i : info) (m : master) : Prop :=
  ends (i_sig i) \/
  (i_sig i = SIGCHLD /\ fatal (i_code i) /\ pstate_of (i_pid i) (procs m) <> None).

Lemma ending_signals m i fs :
  ph m = Serving -> hand m = Some i -> ending i m ->
  let m' := step m (Handle fs) in
  ph m' = Ended MASTER_SIGNAL_END /\
  outs m' = outs m ++ map (fun p => Sent p SIGTERM) (workers m) /\
  workers m' = [] /\
  forall es, run m' es = m'.
Proof.
  intros P H E. cbn zeta.
  assert (X : exists l, step m (Handle fs) = default_handler (set_procs l (set_hand None m))).
  { unfold step. rewrite P, H. destruct E as [E|[E [F G]]].
    - exists (procs m). rewrite handle_ends by auto. destruct m; reflexivity.
    - unfold handle. rewrite E. cbn. unfold sigchld. cbn.
      destruct (pstate_of (i_pid i) (procs m)) as [s|]; [|congruence].
      rewrite (fatal_judge _ F).
      exists (match s with PZombie => reap (i_pid i) (procs m) | _ => procs m end).
      destruct s, m; reflexivity. }
  destruct X as [l X]. rewrite X.
  destruct (default_spec (set_procs l (set_hand None m))) as [A [B [C [D _]]]].
  cbn in *. split; [auto|]. split; [auto|]. split; [auto|].
  intros es. now apply (ended_stays MASTER_SIGNAL_END).
Qed.

(** ** Deaths *)

Definition benign (c : code) : Prop :=
  c = Exited SUCCESS_EXIT \/ c = Exited ERR_ERR \/ c = Killed \/ c = Dumped.

Lemma benign_judge c : benign c -> judge c = VDecrement.
Proof. intros [->|[->|[->| ->]]]; reflexivity. Qed.

Lemma dec_replaced r x es m i fs s :
  Forall honest es -> run (init r x) es = m -> ph m = Serving -> 0 <= x ->
  hand m = Some i -> i_sig i = SIGCHLD -> judge (i_code i) = VDecrement ->
  In (i_pid i) (workers m) -> pstate_of (i_pid i) (procs m) = Some s ->
  let pl := match s with PZombie => reap (i_pid i) (procs m) | _ => procs m end in
  usable fs 1 (set_procs pl m) ->
  exists q, hd None fs = Some q /\
  let m' := step m (Handle fs) in
  ph m' = Serving /\
  workers m' = drop_first (i_pid i) (workers m) ++ [q] /\
  now m' = target r x /\
  ~ In (i_pid i) (drop_first (i_pid i) (workers m)) /\
  (s = PZombie -> pstate_of (i_pid i) pl = None) /\
  procs m' = pl ++ [(q, PRunning)] /\
  outs m' = outs m ++ [Forked q].
Proof.
  intros Ho E P X Hh Si Be W Z0 pl Us.
  assert (U : up m) by (right; auto).
  pose proof (run_count r x es) as Cn. rewrite E in Cn.
  destruct Cn as [Q1 [Q2 [_ Q3]]]. destruct (Q3 U) as [Q4 [Q5 Q6]].
  pose proof (run_table r x es Ho) as T. rewrite E in T.
  destruct T as [_ T]. destruct (T (or_intror U)) as [T1 [T2 _]].
  set (mx := set_procs pl (set_hand None m)).
  assert (ST : step m (Handle fs) = rebalance fs (remove_worker (i_pid i) mx)).
  { unfold step. rewrite P, Hh. unfold handle. rewrite Si. cbn. unfold sigchld. cbn.
    rewrite Z0, Be. subst mx pl. destruct s, m; reflexivity. }
  assert (RM : remove_worker (i_pid i) mx =
               set_now (now m - 1) (set_workers (drop_first (i_pid i) (workers m)) mx)).
  { unfold remove_worker. cbn. apply existsb_eqb_In in W. now rewrite W. }
  rewrite RM in ST. set (m2 := set_now _ _) in ST.
  pose proof (drop_first_length _ _ W) as DL.
  assert (N2 : now m2 = now m - 1) by reflexivity.
  assert (M2 : maxw m2 = x /\ req m2 = r) by (split; cbn; congruence).
  destruct M2 as [M2 M3].
  assert (NX : target r x <= x) by (unfold target; lia).
  unfold rebalance in ST. destruct (Z.leb_spec (now m2) (maxw m2)); [|lia].
  assert (U2 : usable fs (Z.to_nat (target (req m2) (maxw m2) - now m2)) m2).
  { rewrite M2, M3, N2. replace (Z.to_nat _) with 1%nat by lia. exact Us. }
  destruct (worker_spawn_usable fs m2 U2) as [ps [G L]]; [lia|rewrite M2, M3, N2; lia|].
  rewrite M2, M3, N2 in L.
  destruct ps as [|q [|? ?]]; cbn in L; [lia| |lia].
  exists q.
  assert (HQ : hd None fs = Some q).
  { destruct Us as [us [V1 [V2 [V3 V4]]]].
    assert (FN : (Z.to_nat (req m2 - now m2) > 0)%nat) by (unfold target in *; lia).
    clear ST. destruct G as [G _]. unfold worker_spawn in G.
    destruct (req m2 <=? 0) eqn:RQ; [lia|].
    destruct (Z.to_nat (req m2 - now m2)) as [|k]; [lia|]. cbn [spawn_loop] in G.
    destruct ((now m2 <? req m2) && (now m2 <? maxw m2)) eqn:CD; [|unfold target in *; lia].
    destruct us as [|u [|? ?]]; try discriminate V2.
    destruct fs as [|f fs]; [discriminate|]. cbn in V1. injection V1 as ->. cbn [hd tl] in *.
    destruct (master_fork (Some u) m2) as [m3|] eqn:MF.
    2:{ apply (f_equal ph) in G. cbn in G. congruence. }
    apply fork_grown in MF as [u' [[= <-] MF]].
    destruct (spawn_loop_cases k fs m3) as [[w [m' [A _]]]|[ps [G' _]]].
    { rewrite A in G. apply (f_equal ph) in G. cbn in G. congruence. }
    destruct (grown_trans _ _ _ _ _ MF G') as [GT _]. rewrite GT in G.
    apply (f_equal workers) in G. cbn in G. apply app_inv_head in G. congruence. }
  split; [auto|]. cbn zeta. rewrite ST. destruct G as [G _]. rewrite G. cbn.
  split; [auto|]. split; [auto|]. split; [lia|].
  split; [now apply drop_first_gone|]. split; [|auto].
  intros ->. now apply pstate_reap_same.
Qed.

Lemma death_replaced r x es m i fs :
  Forall honest es -> run (init r x) es = m -> ph m = Serving -> 0 <= x ->
  hand m = Some i -> i_sig i = SIGCHLD -> benign (i_code i) ->
  In (i_pid i) (workers m) -> pstate_of (i_pid i) (procs m) = Some PZombie ->
  usable fs 1 (set_procs (reap (i_pid i) (procs m)) m) ->
  exists q, hd None fs = Some q /\
  let m' := step m (Handle fs) in
  ph m' = Serving /\
  workers m' = drop_first (i_pid i) (workers m) ++ [q] /\
  now m' = target r x /\
  ~ In (i_pid i) (drop_first (i_pid i) (workers m)) /\
  pstate_of (i_pid i) (reap (i_pid i) (procs m)) = None /\
  procs m' = reap (i_pid i) (procs m) ++ [(q, PRunning)] /\
  outs m' = outs m ++ [Forked q].
Proof.
  intros Ho E P X Hh Si Be W Z0 Us.
  destruct (dec_replaced r x es m i fs PZombie Ho E P X Hh Si (benign_judge _ Be) W Z0 Us)
    as [q [A [B [C [D [F [G [H I]]]]]]]].
  exists q. repeat split; auto.
Qed.

(** A worker that is stopped (or continued) is replaced although it lives on,
    and it is not tracked any more. *)
Lemma stop_replaced r x es m i fs s :
  Forall honest es -> run (init r x) es = m -> ph m = Serving -> 0 <= x ->
  hand m = Some i -> i_sig i = SIGCHLD -> i_code i = Stopped \/ i_code i = Trapped ->
  In (i_pid i) (workers m) -> pstate_of (i_pid i) (procs m) = Some s -> s <> PZombie ->
  usable fs 1 m ->
  let m' := step m (Handle fs) in
  ph m' = Serving /\ alive m' (i_pid i) = true /\ tracked m' (i_pid i) = false /\
  now m' = target r x /\
  exists q, outs m' = outs m ++ [Forked q] /\ alive m q = false /\ alive m' q = true.
Proof.
  intros Ho E P X Hh Si Be W Z0 NZ Us. cbn zeta.
  assert (J : judge (i_code i) = VDecrement) by (destruct Be as [->| ->]; reflexivity).
  pose proof (dec_replaced r x es m i fs s Ho E P X Hh Si J W Z0) as R. cbn zeta in R.
  replace (match s with PZombie => reap (i_pid i) (procs m) | _ => procs m end)
    with (procs m) in R by (destruct s; congruence).
  assert (US : usable fs 1 (set_procs (procs m) m)) by exact Us.
  destruct (R US) as [q [A [B [C [D [F [_ [H I]]]]]]]].
  assert (QN : pstate_of q (procs m) = None).
  { destruct Us as [us [V1 [V2 [V3 V4]]]].
    destruct us as [|u [|? ?]]; try discriminate V2.
    destruct fs as [|f fs]; [discriminate|]. cbn in V1, A. injection V1 as ->.
    injection A as ->. inversion_clear V4. tauto. }
  assert (QD : i_pid i <> q) by congruence.
  split; [auto|]. split.
  { unfold alive. rewrite H, pstate_app, Z0. destruct s; congruence. }
  split.
  { destruct (tracked _ _) eqn:T; [|auto]. apply tracked_In in T. rewrite C in T.
    apply in_app_iff in T as [T|[T|[]]]; [contradiction|congruence]. }
  split; [auto|]. exists q. split; [auto|]. unfold alive. rewrite QN. split; [auto|].
  rewrite H, pstate_app, QN. cbn. now rewrite Z.eqb_refl.
Qed.

(** The content of a mounted directory changed: every worker is told. *)
Lemma notify_all l : forall m,
  (forall p, In p l -> pstate_of p (procs m) <> None) ->
  notify_loop l m = mkMaster (req m) (maxw m) (now m) (workers m) (ph m) (procs m)
    (pending m) (hand m) (outs m ++ map (fun p => Sent p SIGUSR1) l).
Proof.
  induction l as [|p r IH]; intros m H; cbn.
  - rewrite app_nil_r. destruct m; reflexivity.
  - destruct (pstate_of p (procs m)) eqn:E; [|exfalso; apply (H p); cbn; auto].
    rewrite IH; [|intros q Q; cbn; apply H; cbn; auto]. cbn. now rewrite <- app_assoc.
Qed.

Lemma change_told r x es m :
  Forall honest es -> run (init r x) es = m -> ph m = Serving -> hand m = None ->
  let m' := step m Change in
  ph m' = Serving /\ workers m' = workers m /\
  outs m' = outs m ++ map (fun p => Sent p SIGUSR1) (workers m).
Proof.
  intros Ho E P H. cbn zeta.
  pose proof (run_table r x es Ho) as T. rewrite E in T.
  destruct T as [_ T]. destruct (T (or_intror (or_intror P))) as [T1 [T2 [T3 _]]].
  unfold step. rewrite P, H, notify_all.
  - cbn. auto.
  - intros p Q. apply pstate_In. auto.
Qed.

(** A record that takes the master down sends nothing to the workers. *)
Lemma down_silent m i fs :
  ph m = Serving -> hand m = Some i -> i_sig i = SIGCHLD ->
  (pstate_of (i_pid i) (procs m) = None \/
   (exists st, i_code i = Exited st /\ st <> SUCCESS_EXIT /\ st <> ERR_EMERG /\
               st <> ERR_CRIT /\ st <> ERR_ERR) \/
   i_code i = CodeOther) ->
  exists w, let m' := step m (Handle fs) in
  ph m' = Down w /\ outs m' = outs m /\ workers m' = workers m.
Proof.
  intros P H S0 C. unfold step. rewrite P, H. unfold handle. rewrite S0. cbn.
  unfold sigchld. cbn.
  destruct (pstate_of (i_pid i) (procs m)) as [s|] eqn:PS.
  2:{ exists WaitFailed. auto. }
  assert (J : exists w, judge (i_code i) = VDown w).
  { destruct C as [C|[[st [-> [A [B [C D]]]]]| ->]]; [discriminate| |eexists; reflexivity].
    unfold judge. apply Z.eqb_neq in A, B, C, D. rewrite A, B, C, D.
    eexists; reflexivity. }
  destruct J as [w ->]. exists w. destruct s; auto.
Qed.

(** Reload: every worker is signalled, none is left in the table. *)
Lemma kill_all fuel : forall ws m,
  (length (workers m) <= fuel)%nat -> ph m = Serving ->
  (length (workers m) <= length (procs m))%nat ->
  ph (kill_loop fuel ws m) = Serving /\
  workers (kill_loop fuel ws m) = [] /\
  outs (kill_loop fuel ws m) = outs m ++ map (fun p => Sent p SIGTERM) (workers m).
Proof.
  induction fuel as [|k IH]; intros ws m L P Le; cbn [kill_loop].
  - destruct (workers m) eqn:W; [|cbn in L; lia]. cbn. rewrite app_nil_r. auto.
  - destruct (workers m) as [|p r] eqn:W; [cbn; rewrite app_nil_r; auto|].
    cbn [procs add_out]. destruct (procs m) as [|[q s] l] eqn:PR; [cbn in Le; lia|].
    match goal with |- context [reap ?w _] => set (v := w) end.
    assert (RM : remove_worker p (set_procs (reap v ((q, s) :: l)) (add_out (Sent p SIGTERM) m)) =
                 set_now (now m - 1) (set_workers r
                   (set_procs (reap v ((q, s) :: l)) (add_out (Sent p SIGTERM) m)))).
    { unfold remove_worker. cbn [workers set_procs add_out]. rewrite W. cbn.
      rewrite Z.eqb_refl. reflexivity. }
    rewrite RM.
    assert (RL : forall v0 (l0 : list (Z * pstate)), (length l0 <= S (length (reap v0 l0)))%nat).
    { intros v0 l0. induction l0 as [|[a t] l1 IH1]; cbn; [lia|].
      destruct (v0 =? a); cbn; lia. }
    specialize (RL v ((q, s) :: l)). cbn [length] in *.
    match goal with |- context [kill_loop k ?a ?b] => set (m2 := b); specialize (IH a m2) end.
    assert (L1 : (length (workers m2) <= k)%nat) by (cbn [m2 workers set_now set_workers]; lia).
    assert (L2 : (length (workers m2) <= length (procs m2))%nat).
    { unfold m2. cbn [workers procs set_now set_workers set_procs]. lia. }
    destruct (IH L1 P L2) as [A [B C]].
    rewrite A, B, C. cbn. rewrite <- app_assoc. auto.
Qed.

Lemma reload_signals r x es m ws :
  Forall honest es -> run (init r x) es = m -> ph m = Serving -> hand m = None ->
  let m' := step m (ReloadFile ws) in
  ph m' = Ended MASTER_RELOAD /\ workers m' = [] /\ now m' = 0 /\
  outs m' = outs m ++ map (fun p => Sent p SIGTERM) (workers m) /\
  forall es', run m' es' = m'.
Proof.
  intros Ho E P H. cbn zeta.
  pose proof (run_table r x es Ho) as T. rewrite E in T.
  destruct T as [_ T]. destruct (T (or_intror (or_intror P))) as [T1 [T2 [T3 _]]].
  assert (LE : (length (workers m) <= length (procs m))%nat).
  { rewrite <- (map_length fst (procs m)). now apply NoDup_incl_length. }
  destruct (kill_all (length (workers m)) ws m (le_n _) P LE) as [A [B C]].
  unfold step. rewrite P, H. unfold reload. rewrite A. cbn.
  split; [auto|]. split; [auto|]. split; [auto|]. split; [auto|].
  intros es'. now apply (ended_stays MASTER_RELOAD).
Qed.
