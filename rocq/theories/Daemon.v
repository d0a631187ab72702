(** Model of the pid file and of the daemon: src/master.c:799-822, 1580-1583, src/util.c:28-101, src/context.h:56-78,
    src/pyserver.c:998-1000, 1141-1170, fly/app.py:86-118, 257-300.

    Simplified: one server at a time; the rest of the configuration succeeds; a file is made and written as a whole; closing a descriptor
    succeeds; pids are given (the kernel's choice).  Not modelled: the directory's permissions, umask, the session. *)
From Verif Require Import Base CStr CNum Status Conf.
Local Open Scope Z_scope.

(** ** The pid file *)
(** FLY_PID_FILE, conf.h:10-11: "./log/fly.pid", in the working directory. *)
Definition log_dir (cwd : list N) : list N := cwd ++ bs "/log".
Definition pid_path (cwd : list N) : list N := cwd ++ bs "/log/fly.pid".
Definition disk := list N -> option (list N).
Definition put (d : disk) (p t : list N) : disk := fun q => if bytes_eqb q p then Some t else d q.
Definition del (d : disk) (p : list N) : disk := fun q => if bytes_eqb q p then None else d q.
(** fly_create_pidfile_noexit, master.c:799-822; O_EXCL: the file must not be there.  None: -1. *)
Definition create_pidfile (dirs : list N -> bool) (d : disk) (cwd : list N) (pid : Z) : option disk :=
  if dirs (log_dir cwd) then match d (pid_path cwd) with Some _ => None | None => Some (put d (pid_path cwd) (dec_z pid)) end else None.

(** What is configured: create_pidfile, pidfile_path, daemon, debug; the directory the server is started in. *)
Record cfg := mkCfg { k_create : bool; k_path : list N; k_daemon : bool; k_debug : bool; k_cwd : list N }.
(** __pyfly_configure, pyserver.c:998-1000. *)
Definition configure (dirs : list N -> bool) (d : disk) (c : cfg) (pid : Z) : option disk := if k_create c then create_pidfile dirs d (k_cwd c) pid else Some d.

(** The server that runs: its pid and what it was configured with. *)
Record world := mkW { w_disk : disk; w_server : option (Z * cfg) }.
(** [Start c p p1 p2]: the process [p] starts a server; the forks of a daemon give [p1] and [p2].  [Stop]: a signal.  [Change]: the
    application's file is changed.  [Remove]: somebody removes a file. *)
Inductive ev := Start (c : cfg) (p p1 p2 : Z) | Stop | Change | Remove (path : list N).
(** _start_server, app.py:257-300: configure, then run, pyserver.c:1141-1170.  On a change (app.py:290-300 and 86-118) a daemon ends
    (sys.exit(result)); other servers are configured again in the same process.  A failing configuration ends the process
    (app.py:95-96). *)
Definition step (dirs : list N -> bool) (w : world) (e : ev) : world :=
  match e with
  | Start c p p1 p2 =>
    match w_server w with
    | Some _ => w
    | None => match configure dirs (w_disk w) c p with Some d => mkW d (Some (if k_daemon c then p2 else p, c)) | None => w end
    end
  | Stop => mkW (w_disk w) None
  | Change =>
    match w_server w with
    | Some (p, c) =>
      if k_debug c then
        if k_daemon c then mkW (w_disk w) None
        else match configure dirs (w_disk w) c p with Some d => mkW d (Some (p, c)) | None => mkW (w_disk w) None end
      else w
    | None => w
    end
  | Remove q => mkW (del (w_disk w) q) (w_server w)
  end.
Definition run (dirs : list N -> bool) (w : world) (h : list ev) : world := fold_left (step dirs) h w.

(** ** The daemon *)
(** Descriptors and what they are open on. *)
Inductive target := Terminal | Null | LogFile (k : nat) | Listen | Other (k : nat).
Definition fds := list (nat * target).
Definition fd (t : fds) (i : nat) : option target := option_map snd (find (fun e => Nat.eqb (fst e) i) t).
(** open: the lowest descriptor that is free. *)
Fixpoint lowest (fuel i : nat) (t : fds) : nat := match fuel with O => i | S k => match fd t i with None => i | Some _ => lowest k (S i) t end end.
Definition free_fd (t : fds) : nat := lowest (S (length t)) 0 t.
Definition set_fd (t : fds) (i : nat) (x : target) : fds := (i, x) :: filter (fun e => negb (Nat.eqb (fst e) i)) t.
(** is_fly_log_fd, is_fly_listen_socket, context.h:56-78: the descriptors that are kept. *)
Definition kept (keep : list nat) (i : nat) : bool := existsb (Nat.eqb i) keep.
(** The loop util.c:67-75: [lim] is RLIMIT_NOFILE, converted to int. *)
Definition close_all (keep : list nat) (lim : Z) (t : fds) : fds :=
  filter (fun e => negb (Z.of_nat (fst e) <? int_of_long lim) || kept keep (fst e)) t.
(** util.c:77-100: the results FLY_DAEMON_SUCCESS and FLY_DAEMON_OPEN_ERROR. *)
Definition std_null (t : fds) : Z * fds :=
  let n := free_fd t in
  let t := set_fd t n Null in
  if Nat.eqb n 0 then (0, set_fd (set_fd t 1 Null) 2 Null) else (-6, t).
(** fly_daemon, util.c:28-101, in the process that goes on; [f1], [f2]: the forks succeed.  FLY_DAEMON_FORK_ERROR is -1. *)
Definition daemon (keep : list nat) (lim : Z) (f1 f2 : bool) (t : fds) : Z * fds :=
  if f1 then if f2 then std_null (close_all keep lim t) else (-1, t) else (-1, t).
(** __pyfly_run, pyserver.c:1148-1154: only -1 is an error.  [Some]: the server runs with these descriptors. *)
Definition run_daemon (keep : list nat) (lim : Z) (f1 f2 : bool) (t : fds) : option fds :=
  let '(r, t) := daemon keep lim f1 f2 t in if r =? -1 then None else Some t.
