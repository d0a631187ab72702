(** * The master process: its table of workers and the signals it acts on

    Models /repo/src/master.c (worker table, spawning, SIGCHLD and the
    terminating signals, reload, notification of content changes), the signal
    entry points of /repo/src/fsignal.c, and the behaviour of the kernel these
    functions rely on.

    The kernel part is small and is part of the trusted base: a process table
    of the master's children, one pending record per standard signal number
    (a second instance of a pending standard signal is dropped, signal(7)),
    [fork] returning a pid that no process uses, [waitpid] reaping a zombie,
    and [kill]/[sigqueue] failing exactly for pids that are not in the table.

    Not modelled: SIGKILL/SIGSTOP of the master itself, the pid file,
    memory release, log output, and the non-signalfd (kqueue) build. *)
From Coq Require Import ZArith List Bool Lia.
From Verif Require Import Base.
Import ListNotations.
Open Scope Z_scope.

(** Signal numbers used by master.c 54-61 and worker.h 58 (Linux, x86-64). *)
Definition SIGINT : Z := 2.
Definition SIGUSR1 : Z := 10.
Definition SIGTERM : Z := 15.
Definition SIGCHLD : Z := 17.
Definition SIGWINCH : Z := 28.

(** Exit statuses of a worker: FLY_WORKER_SUCCESS_EXIT (worker.h 45) and
    enum fly_error_level (err.h 62-68). *)
Definition SUCCESS_EXIT : Z := 0.
Definition ERR_EMERG : Z := 10.
Definition ERR_CRIT : Z := 11.
Definition ERR_ERR : Z := 12.

(** si_code of a SIGCHLD (master.c 100-211).  [CodeOther] stands for every
    code that is not a CLD_ one, as carried by a signal sent with kill(2) or
    sigqueue(3). *)
Inductive code :=
| Continued
| Dumped
| Exited (status : Z)
| Killed
| Stopped
| Trapped
| CodeOther.

(** The fields of struct signalfd_siginfo that master.c reads: ssi_signo,
    ssi_pid, ssi_code with ssi_status (master.c 91-110), ssi_int (325). *)
Record info := mkInfo {
  i_sig : Z;
  i_pid : Z;
  i_code : code;
  i_val : Z
}.

(** State of a child in the kernel's process table. *)
Inductive pstate := PRunning | PStopped | PZombie.

(** Why the master process is gone without having gone through its normal
    end: fly_emergency_verror (err.c 480-497) calls exit without touching the
    workers; master.c 177 asserts on an unknown exit status; event.c 1079-1085
    exits on a failed handler. *)
Inductive why :=
| BadRequest      (* master.c 888-892: no worker requested *)
| ForkFailed      (* master.c 898-901 *)
| WaitFailed      (* master.c 89-97, 696-700 *)
| UnknownStatus   (* master.c 175-187 *)
| UnknownCode     (* master.c 200-209 *)
| NotifyFailed    (* master.c 1072-1076, event.c 1079-1085 *)
| NoExit.         (* the spawn loop does not end: never happens *)

(** Where the master is: [Fresh] after fly_master_init (649-682), [Spawned]
    after the first fly_master_worker_spawn (pyserver.c 1159), [Serving] once
    the signal file descriptor is registered (398-436, 708-760), [Ended r]
    after fly_master_process has returned r (782-792), [Down w] when the
    process is gone. *)
Inductive phase :=
| Fresh
| Spawned
| Serving
| Ended (r : Z)
| Down (w : why).

Definition MASTER_SIGNAL_END : Z := 1.   (* master.h 76 *)
Definition MASTER_RELOAD : Z := 2.       (* master.h 77 *)

(** What the master does to other processes. *)
Inductive out :=
| Sent (pid sig : Z)
| Forked (pid : Z).

(** struct fly_master (master.h 29-48): req_workers, now_workers and the list
    of workers (by pid, in list order); FLY_WORKER_MAX as read by
    fly_worker_max_limit (64-67; the configuration does not change while the
    server runs).  [procs], [pending] belong to the kernel; [hand] is the
    record that read(2) on the signal descriptor has returned and that is not
    handled yet (373-383).  [outs] lists what the master did, oldest first. *)
Record master := mkMaster {
  req : Z;
  maxw : Z;
  now : Z;
  workers : list Z;
  ph : phase;
  procs : list (Z * pstate);
  pending : list info;
  hand : option info;
  outs : list out
}.

Definition set_now v m := mkMaster (req m) (maxw m) v (workers m) (ph m) (procs m) (pending m) (hand m) (outs m).
Definition set_workers v m := mkMaster (req m) (maxw m) (now m) v (ph m) (procs m) (pending m) (hand m) (outs m).
Definition set_ph v m := mkMaster (req m) (maxw m) (now m) (workers m) v (procs m) (pending m) (hand m) (outs m).
Definition set_procs v m := mkMaster (req m) (maxw m) (now m) (workers m) (ph m) v (pending m) (hand m) (outs m).
Definition set_pending v m := mkMaster (req m) (maxw m) (now m) (workers m) (ph m) (procs m) v (hand m) (outs m).
Definition set_hand v m := mkMaster (req m) (maxw m) (now m) (workers m) (ph m) (procs m) (pending m) v (outs m).
Definition add_out o m := mkMaster (req m) (maxw m) (now m) (workers m) (ph m) (procs m) (pending m) (hand m) (outs m ++ [o]).

(** fly_master_init, master.c 649-682, with [r] the configured FLY_WORKER
    (fly_workers_count 511-514) and [x] the configured FLY_WORKER_MAX. *)
Definition init (r x : Z) : master :=
  mkMaster r x 0 [] Fresh [] [] None [].

(** ** The kernel *)

(** Entry of a pid in the process table. *)
Fixpoint pstate_of (p : Z) (l : list (Z * pstate)) : option pstate :=
  match l with
  | [] => None
  | (q, s) :: r => if p =? q then Some s else pstate_of p r
  end.

(** Change of the entry of a pid. *)
Fixpoint set_pstate (p : Z) (s : pstate) (l : list (Z * pstate)) : list (Z * pstate) :=
  match l with
  | [] => []
  | (q, t) :: r => if p =? q then (q, s) :: r else (q, t) :: set_pstate p s r
  end.

(** Removal of the entry of a pid (the process has been waited for). *)
Fixpoint reap (p : Z) (l : list (Z * pstate)) : list (Z * pstate) :=
  match l with
  | [] => []
  | (q, t) :: r => if p =? q then r else (q, t) :: reap p r
  end.

(** A signal is generated for the master: all signals are blocked from the
    first fork on (master.c 955-958), so the record stays pending, unless one
    with the same number is pending already, in which case it is dropped. *)
Definition raise (i : info) (m : master) : master :=
  if existsb (fun j => i_sig j =? i_sig i) (pending m) then m
  else set_pending (pending m ++ [i]) m.

(** A child changes state.  [None]: the change is impossible in the child's
    present state. *)
Definition next_state (s : pstate) (c : code) : option pstate :=
  match s, c with
  | PRunning, Exited _ => Some PZombie
  | PRunning, Killed | PStopped, Killed => Some PZombie
  | PRunning, Dumped | PStopped, Dumped => Some PZombie
  | PRunning, Stopped => Some PStopped
  | PRunning, Trapped => Some PStopped
  | PStopped, Continued => Some PRunning
  | _, _ => None
  end.

(** Child [p] changes state by [c] and SIGCHLD is generated (the handler is
    installed without SA_NOCLDSTOP, fsignal.c 69-79: stops count). *)
Definition child (p : Z) (c : code) (m : master) : master :=
  match pstate_of p (procs m) with
  | None => m
  | Some s =>
    match next_state s c with
    | None => m
    | Some t => raise (mkInfo SIGCHLD p c 0) (set_procs (set_pstate p t (procs m)) m)
    end
  end.

(** ** The table of workers *)

(** fly_add_worker, master.c 914-918. *)
Definition add_worker (p : Z) (m : master) : master :=
  set_workers (workers m ++ [p]) m.

(** The list operation of fly_remove_worker, 925-934: only the first entry
    with that pid. *)
Fixpoint drop_first (p : Z) (l : list Z) : list Z :=
  match l with
  | [] => []
  | q :: r => if q =? p then r else q :: drop_first p r
  end.

(** fly_remove_worker, master.c 920-936: the count goes down only when the
    worker is found. *)
Definition remove_worker (p : Z) (m : master) : master :=
  if existsb (fun q => q =? p) (workers m)
  then set_now (now m - 1) (set_workers (drop_first p (workers m)) m)
  else m.

(** __fly_master_fork, master.c 948-1021, in the parent.  [f] is what fork(2)
    returned; [None] is -1.  A pid that some process uses is never returned
    by the kernel: such an answer is read as a failure.  The malloc and time
    failures of 990-998 are not modelled. *)
Definition master_fork (f : option Z) (m : master) : option master :=
  match f with
  | None => None
  | Some p =>
    match pstate_of p (procs m) with
    | Some _ => None
    | None =>
      if p <=? 0 then None
      else Some (add_worker p
             (add_out (Forked p)
               (set_procs (procs m ++ [(p, PRunning)])
                 (set_now (now m + 1) m))))
    end
  end.

(** The loop of __fly_master_worker_spawn, master.c 895-902.  [fs] are the
    answers of fork, one per call; when they run out, fork fails. *)
Fixpoint spawn_loop (fuel : nat) (fs : list (option Z)) (m : master) : master :=
  if (now m <? req m) && (now m <? maxw m) then
    match fuel with
    | O => set_ph (Down NoExit) m
    | S k =>
      match master_fork (hd None fs) m with
      | None => set_ph (Down ForkFailed) m
      | Some m' => spawn_loop k (tl fs) m'
      end
    end
  else m.

(** __fly_master_worker_spawn, master.c 885-903; fly_master_worker_spawn
    (905-912) with a mounted directory. *)
Definition worker_spawn (fs : list (option Z)) (m : master) : master :=
  if req m <=? 0 then set_ph (Down BadRequest) m
  else spawn_loop (Z.to_nat (req m - now m)) fs m.

(** __fly_workers_rebalance, master.c 72-80. *)
Definition rebalance (fs : list (option Z)) (m : master) : master :=
  if now m <=? maxw m then worker_spawn fs m else m.

(** ** Signals *)

(** The loop of fly_master_signal_default_handler, master.c 254-261, and of
    fly_kill_workers without its wait: signal the first worker, remove it,
    start again. *)
Fixpoint signal_all (fuel : nat) (m : master) : master :=
  match fuel with
  | O => m
  | S k =>
    match workers m with
    | [] => m
    | p :: _ => signal_all k (remove_worker p (add_out (Sent p SIGTERM) m))
    end
  end.

(** fly_master_signal_default_handler, master.c 236-271: SIGTERM to every
    worker, then the master process function returns
    FLY_MASTER_SIGNAL_END. *)
Definition default_handler (m : master) : master :=
  set_ph (Ended MASTER_SIGNAL_END) (signal_all (length (workers m)) m).

(** What __fly_sigchld does after waitpid, by code and status
    (master.c 100-211). *)
Inductive verdict := VDecrement | VTerminate | VDown (w : why).
Definition judge (c : code) : verdict :=
  match c with
  | Continued | Dumped | Killed | Stopped | Trapped => VDecrement
  | Exited st =>
    if st =? SUCCESS_EXIT then VDecrement
    else if st =? ERR_EMERG then VTerminate
    else if st =? ERR_CRIT then VTerminate
    else if st =? ERR_ERR then VDecrement
    else VDown UnknownStatus
  | CodeOther => VDown UnknownCode
  end.

(** __fly_sigchld, master.c 82-234: waitpid with WNOHANG (89-97) fails only
    when the pid is no child any more; it reaps a zombie and leaves every
    other child alone. *)
Definition sigchld (i : info) (fs : list (option Z)) (m : master) : master :=
  match pstate_of (i_pid i) (procs m) with
  | None => set_ph (Down WaitFailed) m
  | Some s =>
    let m1 := match s with
              | PZombie => set_procs (reap (i_pid i) (procs m)) m
              | _ => m
              end in
    match judge (i_code i) with
    | VDecrement => rebalance fs (remove_worker (i_pid i) m1)
    | VTerminate => default_handler m1
    | VDown w => set_ph (Down w) m1
    end
  end.

(** The list operation of fly_master_notice_worker_daemon_pid, 345-357: the
    first worker with the old pid gets the new one. *)
Fixpoint rename_first (old new : Z) (l : list Z) : list Z :=
  match l with
  | [] => []
  | q :: r => if q =? old then new :: r else q :: rename_first old new r
  end.

(** __fly_msignal_handle, master.c 273-302, with the table of 54-61: SIGCHLD,
    SIGINT and SIGTERM (no handler: default), SIGWINCH (FLY_SIG_IGN,
    fsignal.h 50), SIGUSR1 (317-359); a number that is not in the table is
    handled by the default handler (300). *)
Definition handle (i : info) (fs : list (option Z)) (m : master) : master :=
  if i_sig i =? SIGCHLD then sigchld i fs m
  else if i_sig i =? SIGINT then default_handler m
  else if i_sig i =? SIGTERM then default_handler m
  else if i_sig i =? SIGWINCH then m
  else if i_sig i =? SIGUSR1
  then set_workers (rename_first (i_val i) (i_pid i) (workers m)) m
  else default_handler m.

(** Numbers whose pending record is thrown away when their action is set to
    the default one, because the default is to ignore them: SIGCHLD (17),
    SIGCONT (18), SIGURG (23), SIGWINCH (28) (sigaction(2), fsignal.c 69-79
    called from master.c 404). *)
Definition default_ignored (n : Z) : bool :=
  (n =? 17) || (n =? 18) || (n =? 23) || (n =? 28).

(** __fly_master_signal_event, master.c 398-436: default actions, then the
    signal descriptor. *)
Definition register (m : master) : master :=
  set_ph Serving
    (set_pending (filter (fun i => negb (default_ignored (i_sig i))) (pending m)) m).

(** First pending record with that number, and the others. *)
Fixpoint take_sig (n : Z) (l : list info) : option (info * list info) :=
  match l with
  | [] => None
  | i :: r =>
    if i_sig i =? n then Some (i, r)
    else match take_sig n r with
         | Some (j, r') => Some (j, i :: r')
         | None => None
         end
  end.

(** read(2) on the signal descriptor, master.c 373-374.  Which of several
    pending numbers comes first is left open. *)
Definition read_signal (n : Z) (m : master) : master :=
  match hand m with
  | Some _ => m
  | None =>
    match take_sig n (pending m) with
    | Some (i, r) => set_hand (Some i) (set_pending r m)
    | None => m
    end
  end.

(** The loops of __fly_inotify_in_mp (1070-1075) and its siblings: tell every
    worker about changed content; stops at the first failure, which ends the
    master (master.c 1563, event.c 1079-1085). *)
Fixpoint notify_loop (l : list Z) (m : master) : master :=
  match l with
  | [] => m
  | p :: r =>
    match pstate_of p (procs m) with
    | Some _ => notify_loop r (add_out (Sent p SIGUSR1) m)
    | None => set_ph (Down NotifyFailed) m
    end
  end.

(** The loop of fly_kill_workers, master.c 689-706: SIGTERM to the first
    worker, wait for any child ([ws]: the pids wait(2) returns, first child of
    the table when it names no child), remove the worker, start again. *)
Fixpoint kill_loop (fuel : nat) (ws : list Z) (m : master) : master :=
  match fuel with
  | O => m
  | S k =>
    match workers m with
    | [] => m
    | p :: _ =>
      let m1 := add_out (Sent p SIGTERM) m in
      match procs m1 with
      | [] => set_ph (Down WaitFailed) m1
      | (q, _) :: _ =>
        let w := match pstate_of (hd 0 ws) (procs m1) with
                 | Some _ => hd 0 ws
                 | None => q
                 end in
        kill_loop k (tl ws) (remove_worker p (set_procs (reap w (procs m1)) m1))
      end
    end
  end.

(** __fly_reload, master.c 1621-1656: fly_kill_workers, then the master
    process function returns FLY_MASTER_RELOAD. *)
Definition reload (ws : list Z) (m : master) : master :=
  let m' := kill_loop (length (workers m)) ws m in
  match ph m' with
  | Down _ => m'
  | _ => set_ph (Ended MASTER_RELOAD) (set_now 0 m')
  end.

(** ** Events *)
Inductive event :=
| Spawn (fs : list (option Z))      (* pyserver.c 1159 *)
| Register                          (* master.c 724 *)
| Child (p : Z) (c : code)          (* a child changes state *)
| Outside (i : info)                (* a signal sent by some process *)
| ReadSig (n : Z)                   (* master.c 374 *)
| Handle (fs : list (option Z))     (* master.c 381 *)
| Change                            (* content of a mounted directory changed *)
| ReloadFile (ws : list Z).         (* the application file changed *)

(** One event.  A signal from outside never carries a CLD_ code (the kernel
    reserves them), which [Outside] enforces by overwriting the code.  An
    event that cannot occur in the present phase does nothing; in particular
    nothing happens any more once the master has ended or is down, except that
    its children go on living, which is not followed further. *)
Definition step (m : master) (e : event) : master :=
  match ph m with
  | Ended _ | Down _ => m
  | _ =>
    match e with
    | Child p c => child p c m
    | Outside i => raise (mkInfo (i_sig i) (i_pid i) CodeOther (i_val i)) m
    | Spawn fs =>
      match ph m with
      | Fresh =>
        let m' := worker_spawn fs m in
        match ph m' with Fresh => set_ph Spawned m' | _ => m' end
      | _ => m
      end
    | Register => match ph m with Spawned => register m | _ => m end
    | ReadSig n => match ph m with Serving => read_signal n m | _ => m end
    | Handle fs =>
      match ph m, hand m with
      | Serving, Some i => handle i fs (set_hand None m)
      | _, _ => m
      end
    | Change => match ph m, hand m with
                | Serving, None => notify_loop (workers m) m
                | _, _ => m
                end
    | ReloadFile ws => match ph m, hand m with
                       | Serving, None => reload ws m
                       | _, _ => m
                       end
    end
  end.

(** A history. *)
Definition run (m : master) (es : list event) : master := fold_left step es m.
