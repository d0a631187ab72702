(** Properties C136 and C137: changes of the application's file (model: AppReload.v; specification: the first part of
    AppReloadProofs.v). *)
From Verif Require Import Base AppReload AppReloadProofs.
From Coq Require Import NArith ZArith List Bool.
Import ListNotations.

(** ** C136.  Full statement (false, see below): a change of the application's file restarts the server in debug mode, nothing
    else does, and in production nothing is restarted. *)
(** For every series of actions on the file the first one the kernel reports decides: closing the file after writing ends
    the master, every other one restarts it. *)
Theorem app_change_exact : forall path debug wd m pre a post, server (Some path) debug wd = Some m -> Forall silent pre -> ~ silent a ->
  after m wd (pre ++ a :: post) = Some (match a with CloseWritten => Aborts | _ => Reloads end).
Proof. exact after_first. Qed.
(** Reading the file, and writing to it without closing it, is not noticed. *)
Theorem app_silent_unnoticed : forall m wd l, Forall silent l -> after m wd l = None.
Proof. exact after_silent. Qed.
(** Every series is of one of these kinds. *)
Theorem app_change_cases : forall l, Forall silent l \/ exists pre a post, l = pre ++ a :: post /\ Forall silent pre /\ ~ silent a.
Proof. exact first_loud. Qed.
(** For every mask, whatever the kernel does with it. *)
Theorem app_mask_exact : forall path debug wd m mask, server (Some path) debug wd = Some m ->
  (reload m wd mask = Reloads <-> In mask [IN_MODIFY; IN_ATTRIB; IN_DELETE_SELF; IN_MOVE_SELF]) /\
  (reload m wd mask = Aborts <-> ~ In mask [IN_MODIFY; IN_ATTRIB; IN_DELETE_SELF; IN_MOVE_SELF]) /\ (forall wd', wd' <> wd -> reload m wd' mask = Fails).
Proof. exact reload_iff. Qed.
Example app_change_ex : exists m, server (Some (bs "/app.py")) true 1 = Some m /\ after m 1 [Read; Attributes; Write; CloseWritten] = Some Reloads /\
  after m 1 [Read; Write; Write; CloseWritten; Attributes] = Some Aborts /\ after m 1 [Remove] = Some Reloads /\ after m 1 [Read; Write] = None.
Proof. eexists. split; [reflexivity|]. repeat split; vm_compute; reflexivity. Qed.
(** Where C136 fails.  Saving the file, which is to open it, write and close it, ends the master by a failed assertion. *)
Theorem app_save_refuted : exists m, server (Some (bs "/app.py")) true 1 = Some m /\ after m 1 [Read; Write; CloseWritten] = Some Aborts.
Proof. eexists. split; [reflexivity|]. vm_compute. reflexivity. Qed.
(** Production makes no difference: the server is watched and restarted (or ended) all the same. *)
Theorem app_debug_irrelevant : forall path wd, server path true wd = server path false wd.
Proof. reflexivity. Qed.
Theorem app_production_refuted : exists m, server (Some (bs "/app.py")) false 1 = Some m /\ after m 1 [Attributes] = Some Reloads.
Proof. eexists. split; [reflexivity|]. vm_compute. reflexivity. Qed.
(** A server with no application file (an application typed at a prompt) does not start. *)
Theorem app_no_file : forall debug wd, server None debug wd = None.
Proof. reflexivity. Qed.
(** At the end of every server, by a signal as by a reload, the list of paths is read after it was freed. *)
Theorem server_end_use_after_free : forall path debug wd m x mem, server (Some path) debug wd = Some m -> release [x] m mem = UB UseAfterFree.
Proof. exact release_freed. Qed.
Theorem server_end_refuted : exists m, server (Some (bs "/app.py")) true 1 = Some m /\ release [0] m (fun _ => true) = UB UseAfterFree.
Proof. eexists. split; reflexivity. Qed.

(** ** C137.  Full statement (false, see below): a mistake in the application's file does not end the server process; the next
    change is tried again. *)
(** Partial: as long as every version of the file can be executed, has a Fly object, is configured and there when it is
    looked at, the process goes on, whether or not the server can be started. *)
Theorem app_mistakes_survived_partial : forall p es, p <> Over -> Forall sound es -> run false p es <> Over.
Proof. intros p es. exact (run_alive es p). Qed.
Example app_mistakes_ex : Forall sound [Reloaded (LFly Raises) (Some 5%Z); Poll (Some 5%Z) (LFly Runs); Poll (Some 6%Z) (LFly Raises); Poll (Some 7%Z) (LFly Runs)] /\
  run false Serving [Reloaded (LFly Raises) (Some 5%Z); Poll (Some 5%Z) (LFly Runs)] = Polling 5 /\
  run false Serving [Reloaded (LFly Raises) (Some 5%Z); Poll (Some 5%Z) (LFly Runs); Poll (Some 6%Z) (LFly Raises); Poll (Some 7%Z) (LFly Runs)] = Serving.
Proof. split; [repeat constructor; discriminate|]. split; vm_compute; reflexivity. Qed.
(** A start that failed is tried again at the first poll that finds another time, and only then. *)
Theorem app_retry_exact : forall d t t' s, step d (Polling t) (Poll (Some t') (LFly s)) = if Z.eqb t' t then Polling t else run_app s (Some t').
Proof. reflexivity. Qed.
(** Where C137 fails: a version that cannot be executed (a syntax error), that has no Fly object, or that cannot be configured
    ends the process for good, and so does a file that is not there at the moment of a poll. *)
Theorem app_bad_version_ends : forall d now m es, (m = LRaises \/ m = LNone \/ m = LFly BadConf) -> run d Serving (Reloaded m now :: es) = Over.
Proof. intros d now m es K. cbn [run fold_left step]. destruct d; [apply (run_over true)|]. destruct K as [->|[->| ->]]; apply (run_over false). Qed.
Theorem app_missing_file_ends : forall d t m es, run d (Polling t) (Poll None m :: es) = Over.
Proof. intros d t m es. exact (run_over d es). Qed.
Theorem app_daemon_ends : forall m now es, run true Serving (Reloaded m now :: es) = Over.
Proof. intros m now es. exact (run_over true es). Qed.
Theorem app_mistakes_refuted : exists es, es = [Reloaded LRaises (Some 5%Z); Poll (Some 6%Z) (LFly Runs); Reloaded (LFly Runs) (Some 6%Z)] /\ run false Serving es = Over.
Proof. eexists. split; reflexivity. Qed.

Print Assumptions app_change_exact.
Print Assumptions app_silent_unnoticed.
Print Assumptions app_change_cases.
Print Assumptions app_mask_exact.
Print Assumptions app_save_refuted.
Print Assumptions app_debug_irrelevant.
Print Assumptions app_production_refuted.
Print Assumptions app_no_file.
Print Assumptions server_end_use_after_free.
Print Assumptions server_end_refuted.
Print Assumptions app_mistakes_survived_partial.
Print Assumptions app_retry_exact.
Print Assumptions app_bad_version_ends.
Print Assumptions app_missing_file_ends.
Print Assumptions app_daemon_ends.
Print Assumptions app_mistakes_refuted.
