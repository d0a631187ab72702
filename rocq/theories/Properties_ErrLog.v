(** Property theorems: errors and the records about them.  See DESIGN.md. *)
From Verif Require Import Base CStr LogInit LogInitProofs ErrLog ErrLogProofs.
From Coq Require Import NArith ZArith List Bool.
Import ListNotations.
Local Open Scope nat_scope.

(** A server with the log directory /log and standard output switched on. *)
Definition ex_logs : logs := mkLogs (mkLog (Some 5) false true false) (mkLog (Some 6) false true false) (mkLog (Some 7) false true false).
Definition ex_sys : errsys := mkSys (Some (mkCtx ex_logs true false)) 4321.
Definition ex_kernel : kernel := mkKernel (fun _ => true) (fun _ => true).
(** The log files of the same server without a log directory. *)
Definition ex_nologs : logs := mkLogs (mkLog None false true false) (mkLog None false true false) (mkLog None false true false).

(** C138: an error of a handler that is to end the process ends it, with the status of its level, whatever the log files are. *)
Theorem error_end_status s k date errtext l st text es : fatal l st -> exists w, event_errors s k date errtext ((l, text) :: es) = Exits st w.
Proof. exact (fatal_end s k date errtext l st text es). Qed.
Print Assumptions error_end_status.

(** C138: with an error log that can be written, the record with the message comes first, also on the outputs switched on. *)
Theorem error_end_recorded_partial s k date errtext x fd l st text es : fatal l st -> l <> EMERG -> short_text text -> s_ctx s = Some x ->
  l_file (g_error (x_logs x)) = Some fd -> works k fd -> real_pid s ->
  exists w, event_errors s k date errtext ((l, text) :: es) = Exits st ((File fd, error_line s text) :: also x (error_line s text) ++ w).
Proof. exact (fatal_recorded s k date errtext x fd l st text es). Qed.
Print Assumptions error_end_recorded_partial.

(** C138: with a notice log as well, everything that is written: the message and the end of the process. *)
Theorem error_end_exact s k date errtext x fd nfd l st text es t : fatal l st -> short_text text -> s_ctx s = Some x ->
  l_file (g_error (x_logs x)) = Some fd -> works k fd -> l_file (g_notice (x_logs x)) = Some nfd -> works k nfd -> real_pid s -> end_line s l t ->
  event_errors s k date errtext ((l, text) :: es) = Exits st ((File fd, error_line s text) :: also x (error_line s text) ++ (File nfd, t) :: also x t).
Proof. exact (fatal_exact s k date errtext x fd nfd l st text es t). Qed.
Print Assumptions error_end_exact.
Example error_end_exact_ex : fatal ERR 12 /\ short_text (bs "recv error") /\ works ex_kernel 6 /\ works ex_kernel 7 /\ real_pid ex_sys /\
  event_errors ex_sys ex_kernel [] [] [(ERR, bs "recv error")] = Exits 12
    [ (File 6, bs "[4321] Occurred error. Worker process is gone. recv error" ++ [10%N]); (Stdout, bs "[4321] Occurred error. Worker process is gone. recv error" ++ [10%N]);
      (File 7, bs "[ERROR] process(4321) was terminated by error." ++ [10%N]); (Stdout, bs "[ERROR] process(4321) was terminated by error." ++ [10%N]) ].
Proof.
  split; [constructor|]. split; [split; [apply Nat.leb_le; reflexivity|cbv; intuition discriminate]|]. split; [split; reflexivity|]. split; [split; reflexivity|].
  split; [cbv; discriminate|]. reflexivity.
Qed.

(** C138: an emergency error of a handler: the first 199 bytes of its record. *)
Theorem emergency_event_recorded s k date errtext x fd text es : short_text text -> s_ctx s = Some x -> l_file (g_error (x_logs x)) = Some fd -> works k fd ->
  let r := firstn (N.to_nat 199) (emergency_line s date text errtext) in
  exists w, event_errors s k date errtext ((EMERG, text) :: es) = Exits 10 ((File fd, r) :: also x r ++ w).
Proof. exact (emergency_event s k date errtext x fd text es). Qed.
Print Assumptions emergency_event_recorded.

(** C138: without an error log nothing is written at all, not even to the outputs switched on and the notice log. *)
Theorem error_without_file_silent s k date errtext x l st text es : fatal l st -> s_ctx s = Some x -> l_file (g_error (x_logs x)) = None ->
  event_errors s k date errtext ((l, text) :: es) = Exits st [].
Proof. exact (fatal_silent s k date errtext x l st text es). Qed.
Print Assumptions error_without_file_silent.

(** C138: also when it cannot be locked or written. *)
Theorem error_refused_silent s k date errtext x fd l st text es : fatal l st -> l <> EMERG -> s_ctx s = Some x -> l_file (g_error (x_logs x)) = Some fd -> ~ works k fd ->
  event_errors s k date errtext ((l, text) :: es) = Exits st [].
Proof. exact (refused_silent s k date errtext x fd l st text es). Qed.
Print Assumptions error_refused_silent.
Example error_refused_silent_ex : ~ works (mkKernel (fun _ => true) (fun fd => negb (fd =? 6))) 6 /\ works (mkKernel (fun _ => true) (fun fd => negb (fd =? 6))) 7.
Proof. split; [intros (_ & W); discriminate W|split; reflexivity]. Qed.

(** C138: an error at a place where the process cannot go on (no memory) ends it with the status of errors; with both logs,
    everything that is written, for messages of up to 999 bytes. *)
Theorem exit_error_status s k text : exists w, exit_error s k text = Exits 12 w.
Proof. exact (exit_always s k text). Qed.
Print Assumptions exit_error_status.
Theorem exit_error_recorded s k x fd nfd text : long_text text -> s_ctx s = Some x -> l_file (g_error (x_logs x)) = Some fd -> works k fd ->
  l_file (g_notice (x_logs x)) = Some nfd -> works k nfd -> real_pid s ->
  let t := line [bs "[ERROR] process("; dec (s_pid s); bs ") was terminated by error."] in
  exit_error s k text = Exits 12 ((File fd, error_line s text) :: also x (error_line s text) ++ (File nfd, t) :: also x t).
Proof. exact (exit_exact s k x fd nfd text). Qed.
Print Assumptions exit_error_recorded.
Example exit_error_recorded_ex : exit_error ex_sys ex_kernel (bs "no memory") = Exits 12
    [ (File 6, bs "[4321] Occurred error. Worker process is gone. no memory" ++ [10%N]); (Stdout, bs "[4321] Occurred error. Worker process is gone. no memory" ++ [10%N]);
      (File 7, bs "[ERROR] process(4321) was terminated by error." ++ [10%N]); (Stdout, bs "[ERROR] process(4321) was terminated by error." ++ [10%N]) ].
Proof. reflexivity. Qed.

(** C138: an emergency error that is raised directly leaves no record, whatever the log files are: the process exits
    without one or its behaviour is undefined. *)
Theorem emergency_never_recorded s k text date errtext :
  emergency s k text date errtext = Exits 10 [] \/ exists f, emergency s k text date errtext = Faults f [].
Proof. exact (emergency_unrecorded s k text date errtext). Qed.
Print Assumptions emergency_never_recorded.

(** C138: it is undefined exactly when there is an error log that can be locked. *)
Theorem emergency_faults_iff s k text date errtext : (exists f w, emergency s k text date errtext = Faults f w) <->
  (exists x fd, s_ctx s = Some x /\ l_file (g_error (x_logs x)) = Some fd /\ k_lock k fd = true).
Proof. exact (emergency_faults s k text date errtext). Qed.
Print Assumptions emergency_faults_iff.

(** C138: the message of a worker that cannot start is lost although its error log works: snprintf reads what it writes. *)
Theorem emergency_refuted : exists s k x fd text, s_ctx s = Some x /\ l_file (g_error (x_logs x)) = Some fd /\ works k fd /\ short_text text /\
  forall date errtext, emergency s k text date errtext = Faults Overlap [].
Proof.
  exists ex_sys, ex_kernel, (mkCtx ex_logs true false), 6, (bs "worker setting error."). split; [reflexivity|]. split; [reflexivity|]. split; [split; reflexivity|].
  split; [split; [apply Nat.leb_le; reflexivity|cbv; intuition discriminate]|]. intros. reflexivity.
Qed.
Print Assumptions emergency_refuted.

(** C138: records on standard output are asked for and none is written. *)
Theorem error_stdout_refuted : exists w u g, u_stdout u = true /\ log_init w u = Ok g /\
  forall k date errtext text pid, event_errors (mkSys (Some (mkCtx g (u_stdout u) (u_stderr u))) pid) k date errtext [(ERR, text)] = Exits 12 [].
Proof.
  exists (mkWorld (fun _ => None) (fun _ => None)), (mkSetup None true false), ex_nologs. split; [reflexivity|]. split; [reflexivity|].
  intros. exact (fatal_silent (mkSys (Some (mkCtx ex_nologs true false)) pid) k date errtext (mkCtx ex_nologs true false) ERR 12 text [] fatal_err eq_refl eq_refl).
Qed.
Print Assumptions error_stdout_refuted.

(** C139: nothing is written and nothing ends without an error. *)
Theorem no_error_goes_on s k date errtext : event_errors s k date errtext [] = Returns [].
Proof. reflexivity. Qed.
Print Assumptions no_error_goes_on.

(** C139: only the first error of an event counts. *)
Theorem first_error_only s k date errtext e es : event_errors s k date errtext (e :: es) = event_errors s k date errtext [e].
Proof. exact (only_first s k date errtext e es). Qed.
Print Assumptions first_error_only.

(** C139: every error that is only to be logged makes the worker use freed memory, whatever the log files are. *)
Theorem logged_error_crashes s k date errtext l text es : (forall st, ~ fatal l st) ->
  exists w, event_errors s k date errtext ((l, text) :: es) = Faults Freed w.
Proof. exact (nonfatal_faults s k date errtext l text es). Qed.
Print Assumptions logged_error_crashes.

(** C139: before that, the record of its level has been written to the notice log. *)
Theorem logged_error_partial s k date errtext x nfd l text t es : short_text text -> s_ctx s = Some x ->
  l_file (g_notice (x_logs x)) = Some nfd -> works k nfd -> real_pid s -> info_line s text l t ->
  event_errors s k date errtext ((l, text) :: es) = Faults Freed ((File nfd, t) :: also x t).
Proof. exact (nonfatal_exact s k date errtext x nfd l text t es). Qed.
Print Assumptions logged_error_partial.
Example logged_error_ex : info_line ex_sys (bs "a") ALERT (bs "[ALERT] pid: (4321). a" ++ [10%N]) /\
  event_errors ex_sys ex_kernel [] [] [(ALERT, bs "a")] = Faults Freed [(File 7, bs "[ALERT] pid: (4321). a" ++ [10%N]); (Stdout, bs "[ALERT] pid: (4321). a" ++ [10%N])].
Proof. split; [exact (il_alert ex_sys (bs "a"))|reflexivity]. Qed.

(** C139: the one error of this kind in the code, a protocol that no version has (ssl.c:229-236). *)
Theorem logged_error_refuted : exists s k l text, (forall st, ~ fatal l st) /\ forall date errtext w, event_errors s k date errtext [(l, text)] <> Returns w.
Proof. exists ex_sys, ex_kernel, ALERT, (bs "invalid alpn error in SSL/TLS negotiation."). split; [intros st F; inversion F|]. intros. discriminate. Qed.
Print Assumptions logged_error_refuted.

(** C140: the records of one run in a file that has just been opened are written over what is there. *)
Theorem error_log_exact_partial old rs : f_bytes (file_run (open_file old) (map ErrOp rs)) = concat rs ++ skipn (length (concat rs)) old.
Proof. exact (errs_exact old rs). Qed.
Print Assumptions error_log_exact_partial.

(** C140: they are kept in their order, from the first ordinary record of the run on also after what is there. *)
Theorem error_log_after_record old rs r os : f_bytes (file_run (open_file old) (map ErrOp rs ++ LogOp r :: os)) =
  concat rs ++ skipn (length (concat rs)) old ++ r ++ concat (map text_of os).
Proof. exact (after_log old rs r os). Qed.
Print Assumptions error_log_after_record.

(** C140: in a new file nothing is lost. *)
Theorem error_log_new_file os : f_bytes (file_run (open_file []) os) = concat (map text_of os).
Proof. exact (run_empty os). Qed.
Print Assumptions error_log_new_file.

(** C140: when what earlier runs have left is still there. *)
Theorem error_log_kept_iff old rs : kept old (f_bytes (file_run (open_file old) (map ErrOp rs))) <->
  firstn (length (concat rs)) old = firstn (length old) (concat rs).
Proof. exact (errs_kept_iff old rs). Qed.
Print Assumptions error_log_kept_iff.
Example error_log_kept_ex : kept (bs "a") (f_bytes (file_run (open_file (bs "a")) (map ErrOp [bs "ab"]))) /\
  ~ kept (bs "ba") (f_bytes (file_run (open_file (bs "ba")) (map ErrOp [bs "a"]))).
Proof. split; [exists (bs "b"); reflexivity|intros (t & E); discriminate E]. Qed.

(** C140: a server that runs twice and ends with an error each time has the second record only. *)
Theorem error_log_kept_refuted : exists r1 r2, length r1 = length r2 /\ r1 <> r2 /\
  f_bytes (file_run (open_file (f_bytes (file_run (open_file []) [ErrOp r1]))) [ErrOp r2]) = r2.
Proof. exists (error_line (mkSys None 4321) (bs "a")), (error_line (mkSys None 4399) (bs "b")). split; [reflexivity|]. split; [intro E; discriminate E|reflexivity]. Qed.
Print Assumptions error_log_kept_refuted.
