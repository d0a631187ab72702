(** Property theorems: signals sent to a worker.  See DESIGN.md. *)
From Verif Require Import WorkerSig WorkerSigProofs.
From Coq Require Import ZArith List Bool.
Import ListNotations.
Local Open Scope Z_scope.

(** A worker that was started again: no action is inherited. *)
Definition plain : Z -> bool := fun _ => false.

(** C141: a worker exits by itself because of a signal only with status 0, only when that signal was sent, and never because
    of an interrupt from the terminal, a closed connection, a new terminal size or a message about mounted files. *)
Theorem worker_exit_cause inh os st s : w_phase (run inh init os) = Exited st s -> st = 0 /\ was_sent s os /\ ~ harmless s.
Proof. exact (ended_by inh os st s). Qed.
Print Assumptions worker_exit_cause.

(** C141: however many of these it gets, in whatever order, a serving worker goes on. *)
Theorem worker_harmless_partial inh w os : w_phase w = Serving -> (forall x, In x (w_pending w) -> harmless x) ->
  (forall s, In (Send s) os -> harmless s) -> w_phase (run inh w os) = Serving.
Proof. intros W P. exact (harmless_serves inh os w (conj W P)). Qed.
Print Assumptions worker_harmless_partial.
Example worker_harmless_ex : harmless 2 /\ harmless 28 /\
  w_phase (run plain init [Begin; Send 2; Send 28; Notify; Send 13; Read; Read; Send 2; Read; Read; Read]) = Serving /\
  w_pending (run plain init [Begin; Send 2; Send 28; Notify; Send 13; Read; Read; Send 2; Read; Read; Read]) = [].
Proof. split; [constructor|]. split; [constructor|]. split; reflexivity. Qed.

(** C141: every other signal that can be blocked waits for a serving worker and ends it within as many reads as there are
    signals before and after it. *)
Theorem worker_signal_waits inh s w : signal s -> ~ In s [9; 19; 32; 33] -> w_phase w = Serving ->
  In s (w_pending (send inh s w)) /\ w_phase (send inh s w) = Serving.
Proof. exact (sent_pending inh s w). Qed.
Print Assumptions worker_signal_waits.
Theorem worker_signal_ends inh s w os : ~ harmless s -> ~ In s [18; 20; 21; 22] -> ~ In (Send 19) os ->
  w_phase w = Serving -> w_stopped w = false -> In s (w_pending w) -> (length (w_pending w) + total sends os <= total reads os)%nat ->
  w_phase (run inh w os) <> Serving.
Proof. exact (ending_read inh s w os). Qed.
Print Assumptions worker_signal_ends.
Example worker_signal_ends_ex :
  let w := run plain init [Begin; Send 28; Send 15; Send 10] in
  w_phase w = Serving /\ w_stopped w = false /\ w_pending w = [10; 15; 28] /\ ~ harmless 15 /\
  w_phase (run plain w [Read]) = Serving /\ w_phase (run plain w [Read; Read; Read]) = Exited 0 15.
Proof. repeat split; try reflexivity. intro H; inversion H. Qed.

(** C141: a signal that no program ends for by default ends a worker: one that is stopped and continued. *)
Theorem worker_continued_ends inh w : w_phase w = Serving -> w_pending w = [] -> w_phase (run inh w [Send 19; Send 18; Read]) = Exited 0 18.
Proof. exact (continued_ends inh w). Qed.
Print Assumptions worker_continued_ends.
Theorem worker_ignored_refuted : exists s inh w, In s [17; 18; 23; 28] /\ w_phase w = Serving /\ w_pending w = [] /\
  w_phase (run inh w [Send s; Read]) = Exited 0 s.
Proof. exists 17, plain, (run plain init [Begin]). split; [left; reflexivity|]. repeat split. Qed.
Print Assumptions worker_ignored_refuted.

(** C141: a request to end is put off for as long as the master has changes to tell of. *)
Theorem worker_term_starved_refuted : forall n, exists inh w os, w_phase w = Serving /\ In 15 (w_pending w) /\ w_stopped w = false /\
  (n <= total reads os)%nat /\ w_phase (run inh w os) = Serving.
Proof.
  intro n. exists plain, (run plain init [Begin; Send 15]), (concat (repeat [Touch; Notify; Read] n)).
  split; [reflexivity|]. split; [left; reflexivity|]. split; [reflexivity|]. split; [|exact (proj1 (starved plain n))].
  induction n as [|n IH]; [apply le_n|]. cbn [repeat concat]. apply le_n_S. exact IH.
Qed.
Print Assumptions worker_term_starved_refuted.

(** C142: while a worker serves, no message of the master about mounted files is lost, however many come before the worker
    reads one: when nothing is left to read, it has looked at the files after the last message. *)
Theorem worker_messages_kept inh os : inh 10 = false -> let w := run inh init os in
  w_phase w = Serving -> w_pending w = [] -> (w_notified w <= w_seen w <= w_now w)%nat.
Proof. exact (messages_kept inh os). Qed.
Print Assumptions worker_messages_kept.
Theorem worker_up_to_date inh os : inh 10 = false -> let w := run inh init (os ++ [Notify]) in
  w_phase w = Serving -> forall os', (forall o, In o os' -> o = Read) -> w_phase (run inh w os') = Serving -> w_pending (run inh w os') = [] ->
  w_seen (run inh w os') = w_now w.
Proof. exact (all_told inh os). Qed.
Print Assumptions worker_up_to_date.
Example worker_up_to_date_ex : let w := run plain init ([Begin; Touch; Notify; Touch; Touch] ++ [Notify]) in
  w_phase w = Serving /\ w_pending w = [10] /\ w_seen w = 0%nat /\ w_pending (run plain w [Read]) = [] /\ w_seen (run plain w [Read]) = 3%nat.
Proof. repeat split. Qed.

(** C142: a message that is read makes the worker look at the files as they are then, also at changes not yet told of. *)
Theorem worker_scan_current inh w t : w_phase w = Serving -> w_stopped w = false -> w_pending w = 10 :: t ->
  let w' := step inh w Read in w_seen w' = w_now w /\ w_pending w' = t /\ w_phase w' = Serving.
Proof. exact (read_scans inh w t). Qed.
Print Assumptions worker_scan_current.
Example worker_scan_current_ex : let w := run plain init [Begin; Touch; Notify; Touch] in w_phase w = Serving /\ w_stopped w = false /\ w_pending w = [10] /\ w_now w = 2%nat /\ w_notified w = 1%nat.
Proof. repeat split. Qed.

(** C142: before it serves, a worker has no function for signals: exactly those that end a program by default kill it. *)
Theorem worker_start_killed_iff inh w s : inh s = false -> w_phase w = Starting -> (w_phase (send inh s w) = Killed s <-> ends_by_default s).
Proof. exact (start_killed inh w s). Qed.
Print Assumptions worker_start_killed_iff.

(** C142: a message about mounted files kills a worker that is starting. *)
Theorem worker_start_message_refuted : exists inh os, (forall s, ~ In (Send s) os) /\ w_phase (run inh init os) = Killed 10.
Proof. exists plain, [Touch; Notify; Begin]. split; [intros s [H|[H|[H|[]]]]; discriminate H|reflexivity]. Qed.
Print Assumptions worker_start_message_refuted.
