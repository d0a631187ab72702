(** Signals sent to a worker (src/worker.c, src/fsignal.c, src/master.c), on Linux with signalfd. *)
From Coq Require Import ZArith List Bool.
Import ListNotations.
Local Open Scope Z_scope.

Definition INT : Z := 2.
Definition KILL : Z := 9.
Definition USR1 : Z := 10.
Definition PIPE : Z := 13.
Definition TERM : Z := 15.
Definition CHLD : Z := 17.
Definition CONT : Z := 18.
Definition STOP : Z := 19.
Definition WINCH : Z := 28.
Definition is_in (s : Z) (l : list Z) : bool := existsb (Z.eqb s) l.

(** [Starting]: from the fork (master.c:960) to the registration of the signals (worker.c:510-552); [Exited]: exit(0) in
    fly_worker_signal_default_handler, worker.c:410-425, because of signal [sig]; [Killed]: the default action. *)
Inductive phase := Starting | Serving | Exited (status sig : Z) | Killed (sig : Z).
(** A worker.  [w_pending]: the signals that are blocked and not read yet, in the order in which signalfd gives them.  The
    content of the mount points has a version: [w_now] is what is there, [w_notified] the one the master has told of last,
    [w_seen] the one of the last scan (fly_worker_signal_change_mnt_content, worker.c:1009-1066; Mount.v has its effect).
    Simplified: a scan happens at once; the records in the notice log are not modelled. *)
Record worker := mkWorker { w_phase : phase; w_stopped : bool; w_pending : list Z; w_now : nat; w_notified : nat; w_seen : nat }.
(** After the fork: nothing is pending, and the list of files is the master's. *)
Definition init : worker := mkWorker Starting false [] 0 0 0.
Definition set_phase p w := mkWorker p (w_stopped w) (w_pending w) (w_now w) (w_notified w) (w_seen w).
Definition set_stopped b w := mkWorker (w_phase w) b (w_pending w) (w_now w) (w_notified w) (w_seen w).
Definition set_pending l w := mkWorker (w_phase w) (w_stopped w) l (w_now w) (w_notified w) (w_seen w).
Definition touch w := mkWorker (w_phase w) (w_stopped w) (w_pending w) (S (w_now w)) (w_notified w) (w_seen w).
Definition told w := mkWorker (w_phase w) (w_stopped w) (w_pending w) (w_now w) (w_now w) (w_seen w).
Definition scan w := mkWorker (w_phase w) (w_stopped w) (w_pending w) (w_now w) (w_notified w) (w_now w).

(** ** The kernel (signal(7), signalfd(2)): part of the trusted base *)
(** The order of signalfd: the signals of faults first, then by number; equal ones (real-time signals) in the order of arrival. *)
Definition of_fault (s : Z) : bool := is_in s [4; 5; 7; 8; 11; 31].
Definition before (a b : Z) : bool := if Bool.eqb (of_fault a) (of_fault b) then a <? b else of_fault a.
Fixpoint insert (s : Z) (l : list Z) : list Z :=
  match l with [] => [s] | h :: t => if before s h then s :: h :: t else h :: insert s t end.
(** A standard signal is pending once at most. *)
Definition enqueue (s : Z) (l : list Z) : list Z := if (s <? 32) && is_in s l then l else insert s l.
Definition without (xs l : list Z) : list Z := filter (fun s => negb (is_in s xs)) l.
(** The default action: the signals that are ignored, and those that stop a process. *)
Definition dfl_ignored (s : Z) : bool := is_in s [17; 18; 23; 28].
Definition dfl_stops (s : Z) : bool := is_in s [19; 20; 21; 22].
(** Signals that sigfillset and sigprocmask leave alone: KILL and STOP, and the two that the C library keeps for itself. *)
Definition unblockable (s : Z) : bool := is_in s [9; 19; 32; 33].

(** ** A signal arrives *)
(** Before the registration no signal is blocked: the child unblocks them all, master.c:976-979.  [inherited]: the signals
    that the program around the server has given an action that does not end the process; none for a worker started after the
    first ones (fly_refresh_signal, fsignal.c:71-82, in the master: master.c:400).  Simplified: a stopped worker ends when the
    signal arrives rather than when it goes on. *)
Definition deliver (inherited : Z -> bool) (s : Z) (w : worker) : worker :=
  if negb (unblockable s) && inherited s then w
  else if s =? CONT then set_stopped false w
  else if dfl_ignored s then w
  else if dfl_stops s then set_stopped true w
  else set_phase (Killed s) w.
(** After it (worker.c:520-531): every signal that can be blocked is, and waits for signalfd, also one that is ignored by
    default.  A stop signal takes back a continue signal and vice versa. *)
Definition queue (s : Z) (w : worker) : worker :=
  if s =? STOP then set_stopped true (set_pending (without [CONT] (w_pending w)) w)
  else if unblockable s then set_phase (Killed s) w
  else if s =? CONT then set_stopped false (set_pending (enqueue s (without [20; 21; 22] (w_pending w))) w)
  else if dfl_stops s then set_pending (enqueue s (without [CONT] (w_pending w))) w
  else set_pending (enqueue s (w_pending w)) w.
Definition send (inherited : Z -> bool) (s : Z) (w : worker) : worker :=
  if (s <? 1) || (64 <? s) then w
  else match w_phase w with Starting => deliver inherited s w | Serving => queue s w | _ => w end.

(** ** The worker *)
(** fly_worker_signals, worker.c:56-63: the function for a signal. *)
Inductive action := Ignore | Scan.
Definition table : list (Z * action) := [(INT, Ignore); (PIPE, Ignore); (WINCH, Ignore); (USR1, Scan)].
Fixpoint lookup (s : Z) (t : list (Z * action)) : option action :=
  match t with [] => None | (n, a) :: r => if n =? s then Some a else lookup s r end.
(** __fly_wsignal_handle, worker.c:427-455. *)
Definition handle (s : Z) (w : worker) : worker :=
  match lookup s table with
  | Some Ignore => w
  | Some Scan => scan w
  | None => set_phase (Exited 0 s) w
  end.
(** One turn of the loop of __fly_worker_signal_handler, worker.c:477-487. *)
Definition read (w : worker) : worker :=
  match w_phase w, w_stopped w, w_pending w with
  | Serving, false, s :: t => handle s (set_pending t w)
  | _, _, _ => w
  end.
(** __fly_worker_signal_event, worker.c:510-552, succeeds. *)
Definition begin (w : worker) : worker :=
  match w_phase w, w_stopped w with Starting, false => set_phase Serving w | _, _ => w end.

(** What happens: a signal is sent; the content of a mount point changes; the master tells of it (master.c:1086-1090);
    the worker registers its signals; it reads one. *)
Inductive op := Send (s : Z) | Touch | Notify | Begin | Read.
Definition step (inherited : Z -> bool) (w : worker) (o : op) : worker :=
  match o with
  | Send s => send inherited s w
  | Touch => touch w
  | Notify => send inherited USR1 (told w)
  | Begin => begin w
  | Read => read w
  end.
Definition run (inherited : Z -> bool) (w : worker) (os : list op) : worker := fold_left (step inherited) os w.
