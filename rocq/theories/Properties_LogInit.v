(** Property theorems: the log files.  See DESIGN.md. *)
From Verif Require Import Base LogInit LogInitProofs.
From Coq Require Import NArith ZArith List Bool.
Import ListNotations.
Local Open Scope nat_scope.

(** C131: a record is written once, with its head, to the file of its kind in the log directory when that file was
    opened, and to no other file. *)
Theorem log_file_partial w u g k head body fd : log_init w u = Ok g ->
  (opened w u k fd -> written (File fd) (emit g k head body) = [head ++ body]) /\
  (~ opened w u k fd -> written (File fd) (emit g k head body) = []).
Proof. intro I. exact (conj (emit_file_opened w u g k head body fd I) (emit_file_not w u g k head body fd I)). Qed.
Print Assumptions log_file_partial.

(** C131: the three kinds of log have three different files. *)
Theorem log_files_differ w u k k' p : log_at w u k p -> log_at w u k' p -> k = k'.
Proof. exact (log_at_kind w u k k' p). Qed.
Print Assumptions log_files_differ.

(** C131: standard output gets the text, without its head, once for each of the two options that is switched on. *)
Theorem log_stdout_copies w u g k head body : log_init w u = Ok g ->
  written Stdout (emit g k head body) = repeat (before_nul body) (times (u_stdout u) + times (u_stderr u)).
Proof. exact (emit_stdout w u g k head body). Qed.
Print Assumptions log_stdout_copies.

(** C131: nothing is ever written to standard error, whatever the options are. *)
Theorem log_stderr_never g k head body : written Stderr (emit g k head body) = [].
Proof. exact (emit_stderr g k head body). Qed.
Print Assumptions log_stderr_never.

(** C131: opening the logs reads behind an array exactly when the name of the log directory has 4081 or 4082 bytes. *)
Theorem log_path_memory w u : (exists e, log_init w u = UB e) <->
  exists d r, u_path u = Some d /\ w_real w d = Some r /\ (N.of_nat (length r) = 4081 \/ N.of_nat (length r) = 4082)%N.
Proof. exact (log_init_ub_iff w u). Qed.
Print Assumptions log_path_memory.

(** A log directory where the error log cannot be opened. *)
Definition ex_world : world :=
  mkWorld (fun s => if bytes_eqb s (bs "log") then Some (bs "/srv/log") else None)
    (fun p => if bytes_eqb p (bs "/srv/log/fly_access.log") then Some (5, false)
              else if bytes_eqb p (bs "/srv/log/fly_notice.log") then Some (6, false) else None).
Definition ex_setup : setup := mkSetup (Some (bs "log")) true true.
Definition ex_logs : logs := mkLogs (mkLog (Some 5) false true true) (mkLog None false true true) (mkLog (Some 6) false true true).
Example ex_init : log_init ex_world ex_setup = Ok ex_logs.
Proof. vm_compute. reflexivity. Qed.
Example ex_opened : opened ex_world ex_setup Access 5.
Proof. exists (bs "/srv/log/fly_access.log"), false. split; [exact (at_access ex_world ex_setup (bs "log") (bs "/srv/log") eq_refl eq_refl)|]. split; [reflexivity|vm_compute; reflexivity]. Qed.
Example ex_emit : emit ex_logs Access (bs "12:00 (7): ") (bs "GET /") = [(Stdout, bs "GET /"); (Stdout, bs "GET /"); (File 5, bs "12:00 (7): GET /")].
Proof. vm_compute. reflexivity. Qed.
Example ex_differ : log_at ex_world ex_setup Error (bs "/srv/log/fly_error.log").
Proof. exact (at_error ex_world ex_setup (bs "log") (bs "/srv/log") eq_refl eq_refl). Qed.

(** C131: with only the option for standard error, the text appears on standard output. *)
Theorem log_stderr_refuted : exists w u g, u_stderr u = true /\ u_stdout u = false /\ log_init w u = Ok g /\
  emit g Notice (bs "12:00 (7): ") (bs "started") = [(Stdout, bs "started"); (File 6, bs "12:00 (7): started")].
Proof.
  exists ex_world, (mkSetup (Some (bs "log")) false true). eexists. split; [reflexivity|]. split; [reflexivity|]. split; [vm_compute; reflexivity|vm_compute; reflexivity].
Qed.
Print Assumptions log_stderr_refuted.

(** C131: a log file that cannot be opened stops nothing; its records are written nowhere. *)
Theorem log_lost_refuted : exists w u g, u_path u = Some (bs "log") /\ log_init w u = Ok g /\ forall head body, emit g Error head body = [].
Proof.
  exists ex_world, (mkSetup (Some (bs "log")) false false). eexists. split; [reflexivity|]. split; [vm_compute; reflexivity|]. intros. reflexivity.
Qed.
Print Assumptions log_lost_refuted.

(** C131: the name of a directory that exists can be just too long: one zero is missing. *)
Theorem log_path_refuted : exists w u r, u_path u = Some (bs "log") /\ w_real w (bs "log") = Some r /\ N.of_nat (length r) = 4081%N /\ log_init w u = UB OutOfBounds.
Proof.
  destruct some_long as [r L]. destruct (log_init_long r L) as (w & u & A & B & C). exists w, u, r. auto.
Qed.
Print Assumptions log_path_refuted.
