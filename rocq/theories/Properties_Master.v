(** * Properties of the master process (C68, C69, C70, C96, C97, C98) *)
From Coq Require Import ZArith List Bool Lia Permutation.
From Verif Require Import Base Master MasterProofs.
Import ListNotations.
Open Scope Z_scope.

(** Two workers wanted, pids 101 and 102. *)
Definition boot : list event := [Spawn [Some 101; Some 102]; Register].
Definition up2 : master := run (init 2 8) boot.

(** ** C68: the size of the pool

    In every history whatever - any order of exits, crashes, stops, signals
    from anybody, any answers of fork - as long as the master is up, its
    count is the number of workers it tracks and that number is
    min(requested, maximum). *)
Theorem worker_count_exact :
  forall r x es m, run (init r x) es = m -> up m ->
  now m = Z.of_nat (length (workers m)) /\ now m = target r x.
Proof. exact count_exact. Qed.
Print Assumptions worker_count_exact.

Example worker_count_exact_ex :
  let m := run up2 [Child 101 Killed; ReadSig SIGCHLD; Handle [Some 103]] in
  up m /\ workers m = [102; 103] /\ now m = 2.
Proof. vm_compute. auto. Qed.

Example worker_count_capped_ex :
  let m := run (init 5 3) [Spawn [Some 7; Some 8; Some 9; Some 10; Some 11]; Register] in
  up m /\ workers m = [7; 8; 9].
Proof. vm_compute. auto. Qed.

(** The notice of a death by signal, by a normal exit or by an exit after an
    error removes exactly that worker from the table, reaps it and puts one
    new process in its place. *)
Theorem dead_worker_replaced :
  forall r x es m i fs,
  Forall honest es -> run (init r x) es = m -> ph m = Serving -> 0 <= x ->
  hand m = Some i -> i_sig i = SIGCHLD -> benign (i_code i) ->
  In (i_pid i) (workers m) -> pstate_of (i_pid i) (procs m) = Some PZombie ->
  usable fs 1 (set_procs (reap (i_pid i) (procs m)) m) ->
  exists q, hd None fs = Some q /\
  let m' := step m (Handle fs) in
  ph m' = Serving /\
  workers m' = drop_first (i_pid i) (workers m) ++ [q] /\
  now m' = target r x /\
  ~ In (i_pid i) (drop_first (i_pid i) (workers m)) /\
  pstate_of (i_pid i) (reap (i_pid i) (procs m)) = None /\
  procs m' = reap (i_pid i) (procs m) ++ [(q, PRunning)] /\
  outs m' = outs m ++ [Forked q].
Proof. exact death_replaced. Qed.
Print Assumptions dead_worker_replaced.

Example dead_worker_replaced_ex :
  let m := run up2 [Child 101 (Exited ERR_ERR); ReadSig SIGCHLD] in
  hand m = Some (mkInfo SIGCHLD 101 (Exited ERR_ERR) 0) /\
  pstate_of 101 (procs m) = Some PZombie /\
  usable [Some 103] 1 (set_procs (reap 101 (procs m)) m) /\
  workers (step m (Handle [Some 103])) = [102; 103].
Proof.
  cbn zeta. split; [vm_compute; reflexivity|]. split; [vm_compute; reflexivity|].
  split; [|vm_compute; reflexivity].
  exists [103]. split; [reflexivity|]. split; [reflexivity|].
  split; [constructor; [intros []|constructor]|].
  constructor; [split; [lia|vm_compute; reflexivity]|constructor].
Qed.

(** ** C69: every dead worker is replaced

    Full statement: whatever the timing of deaths, stops and continuations,
    once everything pending has been handled exactly min(requested, maximum)
    workers are alive.  It is false (below).  What holds in every history: the
    number of live workers is that number, minus the workers the master
    believes in although they are dead, plus the live workers it has
    forgotten. *)
Theorem live_workers_accounted :
  forall r x es m,
  Forall honest es -> run (init r x) es = m -> up m ->
  Z.of_nat (length (live m)) + Z.of_nat (length (filter (fun p => negb (alive m p)) (workers m)))
  = target r x + Z.of_nat (length (filter (fun p => negb (tracked m p)) (live m))).
Proof. exact accounting. Qed.
Print Assumptions live_workers_accounted.

Example live_workers_accounted_ex :
  let m := run up2 [Child 101 Stopped; ReadSig SIGCHLD; Handle [Some 103]; Child 102 Killed] in
  up m /\ live m = [101; 103] /\
  filter (fun p => negb (alive m p)) (workers m) = [102] /\
  filter (fun p => negb (tracked m p)) (live m) = [101].
Proof. vm_compute. auto. Qed.

(** In calm histories - workers only terminate, each notice is read before
    the next worker terminates, none terminates before the signal descriptor
    is registered without being read - the full statement holds: at every
    quiet moment the live processes are exactly the tracked workers, all of
    them run, and there are min(requested, maximum) of them.
    Missing for the full statement: histories that are not calm. *)
Theorem calm_pool_complete_partial :
  forall r x es m,
  calm (init r x) es -> run (init r x) es = m -> up m -> quiet m ->
  Permutation (live m) (workers m) /\
  Z.of_nat (length (live m)) = target r x /\
  (forall p, In p (map fst (procs m)) -> pstate_of p (procs m) = Some PRunning).
Proof. exact calm_live. Qed.
Print Assumptions calm_pool_complete_partial.

Definition calm_history : list event :=
  boot ++ [Child 102 Killed; ReadSig SIGCHLD; Child 101 (Exited SUCCESS_EXIT);
           Handle [Some 103]; ReadSig SIGCHLD; Handle [Some 104]].

Ltac calm_steps :=
  repeat match goal with
  | |- _ /\ _ => split
  | |- True => exact Logic.I
  | |- no_chld _ => vm_compute; repeat constructor; discriminate
  end.

Example calm_pool_complete_ex :
  calm (init 2 8) calm_history /\
  (let m := run (init 2 8) calm_history in
   ph m = Serving /\ hand m = None /\ pending m = [] /\ live m = [103; 104]).
Proof.
  split; [|vm_compute; auto].
  unfold calm_history, boot. cbn [app calm calm_step death].
  calm_steps.
Qed.

(** Two workers die before the master reads its signals: the second notice is
    dropped, and when everything has been handled only one worker lives. *)
Theorem every_dead_worker_replaced_refuted :
  exists es m, Forall honest es /\ run (init 2 8) es = m /\ ph m = Serving /\
    hand m = None /\ pending m = [] /\
    workers m = [102; 103] /\ live m = [103].
Proof.
  exists (boot ++ [Child 101 Killed; Child 102 Killed; ReadSig SIGCHLD; Handle [Some 103]]).
  eexists. split; [repeat constructor|]. split; [vm_compute; reflexivity|].
  vm_compute. auto 8.
Qed.
Print Assumptions every_dead_worker_replaced_refuted.

(** The loss is permanent: a worker whose death went unnoticed is counted as a
    worker for as long as the master serves, whatever else happens. *)
Theorem unnoticed_death_never_noticed :
  forall p es m,
  Forall (real p) es -> ph m = Serving -> unnoticed p m -> ph (run m es) = Serving ->
  In p (workers (run m es)) /\ alive (run m es) p = false.
Proof.
  intros p es m F P U Q. destruct (run_unnoticed p es m F P U Q) as [A [B _]].
  split; [exact A|]. unfold alive. now rewrite B.
Qed.
Print Assumptions unnoticed_death_never_noticed.

Example unnoticed_death_ex :
  let m := run up2 [Child 101 Killed; Child 102 Killed; ReadSig SIGCHLD; Handle [Some 103]] in
  unnoticed 102 m /\
  ph (run m [Child 103 Killed; ReadSig SIGCHLD; Handle [Some 104]]) = Serving.
Proof.
  cbn zeta. split; [|vm_compute; reflexivity]. unfold unnoticed.
  split; [vm_compute; auto|]. split; [vm_compute; reflexivity|].
  split; [vm_compute; constructor|]. split; [vm_compute; discriminate|].
  split; [vm_compute; constructor|vm_compute; discriminate].
Qed.

(** A worker that dies before the signal descriptor is registered is lost the
    same way: registering throws the pending notice away. *)
Theorem early_death_lost_refuted :
  exists es m, Forall honest es /\ run (init 2 8) es = m /\ ph m = Serving /\
    hand m = None /\ pending m = [] /\ workers m = [101; 102] /\ live m = [102].
Proof.
  exists [Spawn [Some 101; Some 102]; Child 101 (Exited SUCCESS_EXIT); Register].
  eexists. split; [repeat constructor|]. split; [vm_compute; reflexivity|].
  vm_compute. auto 8.
Qed.
Print Assumptions early_death_lost_refuted.

(** Stopping a worker (SIGSTOP, a debugger) makes the master forget it and
    start another one: the stopped worker is alive, not tracked, and a new
    process exists. *)
Theorem stopped_worker_forgotten :
  forall r x es m i fs s,
  Forall honest es -> run (init r x) es = m -> ph m = Serving -> 0 <= x ->
  hand m = Some i -> i_sig i = SIGCHLD -> i_code i = Stopped \/ i_code i = Trapped ->
  In (i_pid i) (workers m) -> pstate_of (i_pid i) (procs m) = Some s -> s <> PZombie ->
  usable fs 1 m ->
  let m' := step m (Handle fs) in
  ph m' = Serving /\ alive m' (i_pid i) = true /\ tracked m' (i_pid i) = false /\
  now m' = target r x /\
  exists q, outs m' = outs m ++ [Forked q] /\ alive m q = false /\ alive m' q = true.
Proof. exact stop_replaced. Qed.
Print Assumptions stopped_worker_forgotten.

Example stopped_worker_forgotten_ex :
  let m := run up2 [Child 101 Stopped; ReadSig SIGCHLD] in
  hand m = Some (mkInfo SIGCHLD 101 Stopped 0) /\ In 101 (workers m) /\
  pstate_of 101 (procs m) = Some PStopped /\ usable [Some 103] 1 m.
Proof.
  cbn zeta. split; [vm_compute; reflexivity|]. split; [vm_compute; auto|].
  split; [vm_compute; reflexivity|].
  exists [103]. split; [reflexivity|]. split; [reflexivity|].
  split; [constructor; [intros []|constructor]|].
  constructor; [split; [lia|vm_compute; reflexivity]|constructor].
Qed.

(** After a stop and a continuation, one worker too many serves. *)
Theorem stop_continue_pool_refuted :
  exists es m, Forall honest es /\ run (init 2 8) es = m /\ ph m = Serving /\
    hand m = None /\ pending m = [] /\ workers m = [102; 103] /\
    procs m = [(101, PRunning); (102, PRunning); (103, PRunning)].
Proof.
  exists (boot ++ [Child 101 Stopped; ReadSig SIGCHLD; Handle [Some 103];
                   Child 101 Continued; ReadSig SIGCHLD; Handle []]).
  eexists. split; [repeat constructor|]. split; [vm_compute; reflexivity|].
  vm_compute. auto 8.
Qed.
Print Assumptions stop_continue_pool_refuted.

(** ** C70 and C96: ending the server

    The notice of a worker's emergency or critical exit, and every signal but
    SIGCHLD, SIGWINCH and SIGUSR1, makes the master send SIGTERM to each
    tracked worker, once and in order, and to nobody else; it starts nothing,
    returns, and does nothing any more. *)
Theorem ending_signals_tracked :
  forall m i fs,
  ph m = Serving -> hand m = Some i -> ending i m ->
  let m' := step m (Handle fs) in
  ph m' = Ended MASTER_SIGNAL_END /\
  outs m' = outs m ++ map (fun p => Sent p SIGTERM) (workers m) /\
  workers m' = [] /\
  forall es, run m' es = m'.
Proof. exact ending_signals. Qed.
Print Assumptions ending_signals_tracked.

Example ending_signals_tracked_ex :
  let m := run up2 [Child 102 (Exited ERR_CRIT); ReadSig SIGCHLD] in
  ph m = Serving /\ hand m = Some (mkInfo SIGCHLD 102 (Exited ERR_CRIT) 0) /\
  ending (mkInfo SIGCHLD 102 (Exited ERR_CRIT) 0) m /\
  outs (step m (Handle [])) =
    [Forked 101; Forked 102; Sent 101 SIGTERM; Sent 102 SIGTERM].
Proof.
  cbn zeta. split; [vm_compute; reflexivity|]. split; [vm_compute; reflexivity|].
  split; [|vm_compute; reflexivity].
  right. split; [reflexivity|]. split; [right; reflexivity|]. vm_compute. discriminate.
Qed.

(** In a calm history every live worker is signalled.  The master is at a
    quiet moment when the signal arrives; it is read and handled.
    Missing for the full statement: histories that are not calm. *)
Theorem stop_reaches_every_worker_partial :
  forall r x es m n from v fs,
  calm (init r x) es -> run (init r x) es = m -> ph m = Serving -> quiet m ->
  pending m = [] -> ends n ->
  let m' := run m [Outside (mkInfo n from CodeOther v); ReadSig n; Handle fs] in
  ph m' = Ended MASTER_SIGNAL_END /\
  exists l, outs m' = outs m ++ map (fun p => Sent p SIGTERM) l /\ Permutation l (live m).
Proof.
  intros r x es m n from v fs K E P Q Pe En. cbn zeta.
  destruct (calm_live r x es m K E (or_intror P) Q) as [Pm _].
  set (i := mkInfo n from CodeOther v).
  set (m1 := set_hand (Some i) m).
  assert (S2 : run m [Outside i; ReadSig n; Handle fs] = step m1 (Handle fs)).
  { destruct Q as [Qh _]. unfold run. cbn [fold_left]. f_equal. unfold m1.
    clear - P Pe Qh. destruct m. cbn in P, Pe, Qh. subst. cbn.
    rewrite Z.eqb_refl. reflexivity. }
  destruct (ending_signals m1 i fs P eq_refl (or_introl En)) as [A [B _]].
  rewrite S2. split; [exact A|]. exists (workers m). split; [exact B|].
  now apply Permutation_sym.
Qed.
Print Assumptions stop_reaches_every_worker_partial.

Example stop_reaches_every_worker_ex :
  ends SIGTERM /\
  outs (run (run (init 2 8) calm_history)
     [Outside (mkInfo SIGTERM 1 CodeOther 0); ReadSig SIGTERM; Handle []]) =
  [Forked 101; Forked 102; Forked 103; Forked 104; Sent 103 SIGTERM; Sent 104 SIGTERM].
Proof. split; [repeat split; discriminate|vm_compute; reflexivity]. Qed.

(** C70 is false without calm, twice.  A worker that was stopped once is not
    signalled and survives the server. *)
Theorem fatal_signals_all_refuted :
  exists es m m', Forall honest es /\ run (init 2 8) es = m /\ ph m = Serving /\
    hand m = Some (mkInfo SIGCHLD 102 (Exited ERR_EMERG) 0) /\
    step m (Handle []) = m' /\ ph m' = Ended MASTER_SIGNAL_END /\
    alive m' 101 = true /\ ~ In (Sent 101 SIGTERM) (outs m').
Proof.
  exists (boot ++ [Child 101 Stopped; ReadSig SIGCHLD; Handle [Some 103];
                   Child 101 Continued; ReadSig SIGCHLD; Handle [];
                   Child 102 (Exited ERR_EMERG); ReadSig SIGCHLD]).
  eexists. eexists. split; [repeat constructor|]. split; [vm_compute; reflexivity|].
  split; [vm_compute; reflexivity|]. split; [vm_compute; reflexivity|].
  split; [vm_compute; reflexivity|]. split; [vm_compute; reflexivity|].
  split; [vm_compute; reflexivity|]. vm_compute. intuition discriminate.
Qed.
Print Assumptions fatal_signals_all_refuted.

(** An emergency exit whose notice is dropped does not stop the service. *)
Theorem fatal_exit_missed_refuted :
  exists es m, Forall honest es /\ run (init 2 8) es = m /\
    In (Child 102 (Exited ERR_EMERG)) es /\ ph m = Serving /\
    hand m = None /\ pending m = [] /\ alive m 103 = true /\
    ~ In (Sent 103 SIGTERM) (outs m).
Proof.
  exists (boot ++ [Child 101 Killed; Child 102 (Exited ERR_EMERG);
                   ReadSig SIGCHLD; Handle [Some 103]]).
  eexists. split; [repeat constructor|]. split; [vm_compute; reflexivity|].
  split; [vm_compute; auto|]. split; [vm_compute; reflexivity|].
  split; [vm_compute; reflexivity|]. split; [vm_compute; reflexivity|].
  split; [vm_compute; reflexivity|]. vm_compute. intuition discriminate.
Qed.
Print Assumptions fatal_exit_missed_refuted.

(** Window-size changes, and a worker announcing its own pid, change nothing. *)
Theorem harmless_signals :
  forall m i fs, ph m = Serving -> hand m = Some i ->
  i_sig i = SIGWINCH \/ (i_sig i = SIGUSR1 /\ i_val i = i_pid i) ->
  step m (Handle fs) = set_hand None m.
Proof.
  intros m i fs P H E. unfold step. rewrite P, H. unfold handle.
  destruct E as [->|[-> E]]; cbn; [reflexivity|].
  rewrite E, rename_same. destruct m; reflexivity.
Qed.
Print Assumptions harmless_signals.

Example harmless_signals_ex :
  hand (run up2 [Outside (mkInfo SIGUSR1 102 CodeOther 102); ReadSig SIGUSR1]) =
  Some (mkInfo SIGUSR1 102 CodeOther 102).
Proof. vm_compute. reflexivity. Qed.

(** ** C97: a worker's death does not take the server down

    Full statement: whatever way a worker dies, the master stays up or ends
    after telling its workers.  It holds for deaths by signal and exits with
    the statuses 0, 10, 11 and 12 ([dead_worker_replaced],
    [ending_signals_tracked]); it is false for every other exit status, and
    for a notice about a process that is already gone: the master vanishes
    without a word to its workers. *)
Theorem master_dies_silently :
  forall m i fs,
  ph m = Serving -> hand m = Some i -> i_sig i = SIGCHLD ->
  (pstate_of (i_pid i) (procs m) = None \/
   (exists st, i_code i = Exited st /\ st <> SUCCESS_EXIT /\ st <> ERR_EMERG /\
               st <> ERR_CRIT /\ st <> ERR_ERR) \/
   i_code i = CodeOther) ->
  exists w, let m' := step m (Handle fs) in
  ph m' = Down w /\ outs m' = outs m /\ workers m' = workers m.
Proof. exact down_silent. Qed.
Print Assumptions master_dies_silently.

(** exit(1) of a worker, as when its initialisation fails (master.c 972,
    ssl.c 307): the master is gone, the other worker goes on alone. *)
Theorem worker_exit_orphans_refuted :
  exists es m, Forall honest es /\ run (init 2 8) es = m /\
    In (Child 101 (Exited 1)) es /\ ph m = Down UnknownStatus /\
    live m = [102] /\ outs m = [Forked 101; Forked 102].
Proof.
  exists (boot ++ [Child 101 (Exited 1); ReadSig SIGCHLD; Handle [Some 103]]).
  eexists. split; [repeat constructor|]. split; [vm_compute; reflexivity|].
  vm_compute. auto 12.
Qed.
Print Assumptions worker_exit_orphans_refuted.

(** A worker is stopped, the notice is read, and the worker is killed before
    the master asks about it: the wait for the stop reaps it, the wait for the
    death fails, the master is gone. *)
Theorem stop_kill_race_refuted :
  exists es m, Forall honest es /\ run (init 2 8) es = m /\
    ph m = Down WaitFailed /\ live m = [102; 103] /\
    outs m = [Forked 101; Forked 102; Forked 103].
Proof.
  exists (boot ++ [Child 101 Stopped; ReadSig SIGCHLD; Child 101 Killed;
                   Handle [Some 103]; ReadSig SIGCHLD; Handle []]).
  eexists. split; [repeat constructor|]. split; [vm_compute; reflexivity|].
  vm_compute. auto.
Qed.
Print Assumptions stop_kill_race_refuted.

(** ** C98: notices to the workers

    When the content of a mounted directory changes, each tracked worker is
    told, once, and nothing else happens. *)
Theorem change_reaches_tracked :
  forall r x es m,
  Forall honest es -> run (init r x) es = m -> ph m = Serving -> hand m = None ->
  let m' := step m Change in
  ph m' = Serving /\ workers m' = workers m /\
  outs m' = outs m ++ map (fun p => Sent p SIGUSR1) (workers m).
Proof. exact change_told. Qed.
Print Assumptions change_reaches_tracked.

Example change_reaches_tracked_ex :
  outs (step up2 Change) = [Forked 101; Forked 102; Sent 101 SIGUSR1; Sent 102 SIGUSR1].
Proof. vm_compute. reflexivity. Qed.

(** A change of the application file ends the master for a restart: each
    tracked worker gets SIGTERM, none is left in the table, none is started. *)
Theorem reload_signals_tracked :
  forall r x es m ws,
  Forall honest es -> run (init r x) es = m -> ph m = Serving -> hand m = None ->
  let m' := step m (ReloadFile ws) in
  ph m' = Ended MASTER_RELOAD /\ workers m' = [] /\ now m' = 0 /\
  outs m' = outs m ++ map (fun p => Sent p SIGTERM) (workers m) /\
  forall es', run m' es' = m'.
Proof. exact reload_signals. Qed.
Print Assumptions reload_signals_tracked.

Example reload_signals_tracked_ex :
  ph (step up2 (ReloadFile [102; 101])) = Ended MASTER_RELOAD /\
  procs (step up2 (ReloadFile [102; 101])) = [].
Proof. vm_compute. auto. Qed.

(** A worker the master has forgotten is not told about changed content. *)
Theorem change_reaches_all_refuted :
  exists es m, Forall honest es /\ run (init 2 8) es = m /\ ph m = Serving /\
    alive m 101 = true /\ ~ In (Sent 101 SIGUSR1) (outs (step m Change)).
Proof.
  exists (boot ++ [Child 101 Stopped; ReadSig SIGCHLD; Handle [Some 103];
                   Child 101 Continued; ReadSig SIGCHLD; Handle []]).
  eexists. split; [repeat constructor|]. split; [vm_compute; reflexivity|].
  split; [vm_compute; reflexivity|]. split; [vm_compute; reflexivity|].
  vm_compute. intuition discriminate.
Qed.
Print Assumptions change_reaches_all_refuted.
