(** Properties of the pid file and of the daemon.  [dirs] says which directories exist, a disk gives the contents of files. *)
From Verif Require Import Base CStr CNum Status Conf Daemon DaemonProofs.
From Coq Require Import Lia.
Local Open Scope Z_scope.

(** * C125: the pid file names the server that runs *)
(** What is promised: while a server runs, the file holds its pid. *)
Definition pid_file_right (w : world) : Prop :=
  forall p c, w_server w = Some (p, c) -> k_create c = true -> exists t, w_disk w (pid_path (k_cwd c)) = Some t /\ strtoll t = p.

(** A server that is no daemon has its pid in the file from the start on, whatever happens until somebody removes the file. *)
Theorem pid_file_names_server_partial :
  forall dirs d c p p1 p2 h, k_create c = true -> k_daemon c = false -> dirs (log_dir (k_cwd c)) = true -> d (pid_path (k_cwd c)) = None ->
  0 < p <= long_max -> ~ In (Remove (pid_path (k_cwd c))) h ->
  exists t, w_server (step dirs (mkW d None) (Start c p p1 p2)) = Some (p, c) /\ strtoll t = p /\
    w_disk (run dirs (step dirs (mkW d None) (Start c p p1 p2)) h) (pid_path (k_cwd c)) = Some t.
Proof.
  intros dirs d c p p1 p2 h C D L F P N. destruct (start_writes dirs (mkW d None) c p p1 p2 eq_refl C L F P) as (t & W & V & S). rewrite D in S.
  exists t. split; [exact S|]. split; [exact V|]. now apply run_keeps.
Qed.
Print Assumptions pid_file_names_server_partial.

(** A daemon's file holds the number of the process that started it and has ended; the server is another process. *)
Theorem daemon_pid_file_wrong :
  forall dirs d c p p1 p2, k_create c = true -> k_daemon c = true -> dirs (log_dir (k_cwd c)) = true -> d (pid_path (k_cwd c)) = None ->
  0 < p <= long_max -> p2 <> p -> ~ pid_file_right (step dirs (mkW d None) (Start c p p1 p2)).
Proof.
  intros dirs d c p p1 p2 C D L F P NE R. destruct (start_writes dirs (mkW d None) c p p1 p2 eq_refl C L F P) as (t & W & V & S). rewrite D in S.
  destruct (R p2 c S C) as (t' & W' & V'). congruence.
Qed.
Print Assumptions daemon_pid_file_wrong.

(** The file is never removed by the server: it is there after the server has ended, with the same contents, for as long as nobody else
    removes it ... *)
Theorem pid_file_stays :
  forall dirs w h q t, w_disk w q = Some t -> ~ In (Remove q) h -> w_disk (run dirs w h) q = Some t.
Proof. exact (fun dirs w h q t => run_keeps dirs h w q t). Qed.
Print Assumptions pid_file_stays.

(** ... and so of all the starts in a directory with a pid file, at most one succeeds. *)
Theorem pid_file_one_start :
  forall dirs cwd w h, ~ In (Remove (pid_path cwd)) h -> (starts dirs cwd w h <= 1)%nat.
Proof. exact (fun dirs cwd w h => one_start dirs cwd h w). Qed.
Print Assumptions pid_file_one_start.
Theorem pid_file_second_start_fails :
  forall dirs w h c p p1 p2 t, w_disk w (pid_path (k_cwd c)) = Some t -> ~ In (Remove (pid_path (k_cwd c))) h -> k_create c = true ->
  w_server (run dirs w h) = None -> w_server (step dirs (run dirs w h) (Start c p p1 p2)) = None.
Proof. exact second_start. Qed.
Print Assumptions pid_file_second_start_fails.

(** In debug mode a change of the application is to start the server again; with a pid file it ends the server. *)
Theorem pid_file_change_ends :
  forall dirs w p c t, w_server w = Some (p, c) -> k_create c = true -> k_debug c = true -> w_disk w (pid_path (k_cwd c)) = Some t ->
  w_server (step dirs w Change) = None.
Proof. exact change_ends. Qed.
Print Assumptions pid_file_change_ends.
Theorem daemon_change_ends :
  forall dirs w p c, w_server w = Some (p, c) -> k_daemon c = true -> k_debug c = true -> w_server (step dirs w Change) = None.
Proof. exact change_ends_daemon. Qed.
Print Assumptions daemon_change_ends.
Theorem plain_change_goes_on :
  forall dirs w p c, w_server w = Some (p, c) -> k_create c = false -> k_daemon c = false -> w_server (step dirs w Change) = Some (p, c).
Proof. exact change_goes_on. Qed.
Print Assumptions plain_change_goes_on.

(** The configured path of the file changes nothing: not the disk, not the servers. *)
Theorem pid_file_path_ignored :
  forall dirs f d h, w_disk (run dirs (mkW d None) (map (reev f) h)) = w_disk (run dirs (mkW d None) h) /\
    option_map fst (w_server (run dirs (mkW d None) (map (reev f) h))) = option_map fst (w_server (run dirs (mkW d None) h)).
Proof. exact path_ignored. Qed.
Print Assumptions pid_file_path_ignored.

Definition here_cfg (daemon debug : bool) : cfg := mkCfg true (bs "/run/fly.pid") daemon debug (bs "/srv").
Definition no_files : disk := fun _ => None.
Example pid_file_ex : w_disk (step (fun _ => true) (mkW no_files None) (Start (here_cfg false false) 4711 0 0)) (bs "/srv/log/fly.pid") = Some (bs "4711").
Proof. vm_compute. reflexivity. Qed.
Example daemon_pid_file_ex :
  let w := step (fun _ => true) (mkW no_files None) (Start (here_cfg true false) 4711 4712 4713) in
  w_disk w (bs "/srv/log/fly.pid") = Some (bs "4711") /\ option_map fst (w_server w) = Some 4713.
Proof. split; vm_compute; reflexivity. Qed.
Example pid_file_starts_ex :
  starts (fun _ => true) (bs "/srv") (mkW no_files None) [Start (here_cfg false false) 4711 0 0; Stop; Start (here_cfg false false) 4720 0 0] = 1%nat /\
  starts (fun _ => true) (bs "/srv") (mkW no_files None) [Start (here_cfg false false) 4711 0 0; Stop; Remove (bs "/srv/log/fly.pid"); Start (here_cfg false false) 4720 0 0] = 2%nat.
Proof. split; vm_compute; reflexivity. Qed.
Theorem pid_file_refuted : exists dirs h, ~ pid_file_right (run dirs (mkW no_files None) h).
Proof.
  exists (fun _ => true), [Start (here_cfg true false) 4711 4712 4713].
  apply (daemon_pid_file_wrong (fun _ => true) no_files (here_cfg true false) 4711 4712 4713); try reflexivity; unfold long_max; lia.
Qed.
Print Assumptions pid_file_refuted.
Theorem pid_file_restart_refuted :
  exists dirs d c p q, k_create c = true /\ (forall x, dirs x = true) /\ w_server (run dirs (mkW d None) [Start c p 0 0]) <> None /\
    w_server (run dirs (mkW d None) [Start c p 0 0; Stop; Start c q 0 0]) = None.
Proof.
  exists (fun _ => true), no_files, (here_cfg false false), 4711, 4720. split; [reflexivity|]. split; [reflexivity|]. split; [vm_compute; discriminate|].
  vm_compute. reflexivity.
Qed.
Print Assumptions pid_file_restart_refuted.

(** * C126: a daemon lets its terminal go *)
(** What is promised: a server that has become a daemon has no descriptor open on the terminal. *)
Definition lets_terminal_go (t : fds) : Prop := forall i, fd t i <> Some Terminal.

(** When the log files and the socket have descriptors above 2 and all descriptors are below the limit: 0, 1 and 2 are /dev/null, the
    log files and the socket are as before, all others are closed. *)
Theorem daemon_descriptors_partial :
  forall keep lim t, (forall i, (i < 3)%nat -> ~ In i keep) -> 3 <= lim < 2147483648 -> (forall i x, fd t i = Some x -> Z.of_nat i < lim) ->
  exists t', run_daemon keep lim true true t = Some t' /\
    forall i, fd t' i = if (Nat.ltb i 3) then Some Null else if existsb (Nat.eqb i) keep then fd t i else None.
Proof. exact detached. Qed.
Print Assumptions daemon_descriptors_partial.
Theorem daemon_lets_terminal_go_partial :
  forall keep lim t, (forall i, (i < 3)%nat -> ~ In i keep) -> (forall i, In i keep -> fd t i <> Some Terminal) -> 3 <= lim < 2147483648 ->
  (forall i x, fd t i = Some x -> Z.of_nat i < lim) ->
  exists t', run_daemon keep lim true true t = Some t' /\ lets_terminal_go t'.
Proof.
  intros keep lim t K N L B. destruct (detached keep lim t K L B) as (t' & R & F). exists t'. split; [exact R|]. intros i. rewrite F.
  destruct (Nat.ltb i 3); [discriminate|]. destruct (existsb (Nat.eqb i) keep) eqn:E; [|discriminate]. apply N. now apply kept_in.
Qed.
Print Assumptions daemon_lets_terminal_go_partial.

(** When the server was started with descriptor 0 closed, a log file or the socket is descriptor 0.  Then what goes wrong is not noticed:
    the server runs, without a descriptor 2, which a client's connection can get. *)
Theorem daemon_closed_stdin :
  forall keep lim t x, In 0%nat keep -> ~ In 1%nat keep -> ~ In 2%nat keep -> 3 <= lim < 2147483648 -> fd t 0 = Some x ->
  exists t', run_daemon keep lim true true t = Some t' /\ fd t' 0 = Some x /\ fd t' 1 = Some Null /\ fd t' 2 = None.
Proof. exact not_detached. Qed.
Print Assumptions daemon_closed_stdin.
(** Where the number of open files is not limited nothing is closed, and this is not noticed either: the server runs on its terminal. *)
Theorem daemon_unlimited_keeps_all :
  forall keep lim t x, int_of_long lim <= 0 -> fd t 0 = Some x ->
  exists t', run_daemon keep lim true true t = Some t' /\ forall i y, fd t i = Some y -> fd t' i = Some y.
Proof. exact nothing_closed. Qed.
Print Assumptions daemon_unlimited_keeps_all.
Definition on_terminal : fds := [(0, Terminal); (1, Terminal); (2, Terminal); (3, LogFile 0); (4, LogFile 1); (5, LogFile 2); (6, Other 0); (7, Listen)]%nat.
Example daemon_ex : option_map (fun t => map (fd t) (seq 0 9)) (run_daemon [3; 4; 5; 7]%nat 1024 true true on_terminal) =
  Some [Some Null; Some Null; Some Null; Some (LogFile 0); Some (LogFile 1); Some (LogFile 2); None; Some Listen; None].
Proof. vm_compute. reflexivity. Qed.
Example daemon_closed_stdin_ex :
  option_map (fun t => map (fd t) (seq 0 6)) (run_daemon [0; 3; 4; 5]%nat 1024 true true [(0, LogFile 0); (1, Terminal); (2, Terminal); (3, LogFile 1); (4, LogFile 2); (5, Listen)]%nat) =
  Some [Some (LogFile 0); Some Null; None; Some (LogFile 1); Some (LogFile 2); Some Listen].
Proof. vm_compute. reflexivity. Qed.
Theorem daemon_lets_terminal_go_refuted :
  exists keep lim t t', run_daemon keep lim true true t = Some t' /\ ~ lets_terminal_go t'.
Proof.
  destruct (nothing_closed [3; 4; 5; 7]%nat 18446744073709551615 on_terminal Terminal) as (t' & R & K); [vm_compute; discriminate|reflexivity|].
  exists [3; 4; 5; 7]%nat, 18446744073709551615, on_terminal, t'. split; [exact R|]. intros G. apply (G 0%nat). now apply K.
Qed.
Print Assumptions daemon_lets_terminal_go_refuted.
