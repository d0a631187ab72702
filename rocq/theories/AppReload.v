(** What a running server does when the file of its application changes (src/master.c, fly/app.py).  What becomes of the
    workers is modelled in Master.v. *)
From Verif Require Import Base.
From Coq Require Import NArith ZArith List Bool Arith.
Import ListNotations.

(** ** The master process *)
(** Masks of inotify(7). *)
Definition IN_ACCESS : N := 1.
Definition IN_MODIFY : N := 2.
Definition IN_ATTRIB : N := 4.
Definition IN_CLOSE_WRITE : N := 8.
Definition IN_CLOSE_NOWRITE : N := 16.
Definition IN_OPEN : N := 32.
Definition IN_DELETE_SELF : N := 1024.
Definition IN_MOVE_SELF : N := 2048.
Definition IN_IGNORED : N := 32768.
(** The mask of inotify_add_watch, master.c:1767-1768. *)
Definition watched : N := N.lor IN_CLOSE_WRITE (N.lor IN_DELETE_SELF (N.lor IN_MOVE_SELF (N.lor IN_ATTRIB IN_IGNORED))).
(** What the kernel puts in the queue: the events that are asked for (and IN_IGNORED always). *)
Definition queued (masks : list N) : list N := filter (fun m => negb (N.land m watched =? 0)%N) masks.

(** struct fly_watch_path, with its watch descriptor. *)
Record wpath := mkWp { p_path : option (list N); p_wd : Z }.
(** master->reload_filepath, reload_pathcount, detect_reload. *)
Record master := mkMaster { g_paths : list wpath; g_count : nat; g_detect : bool }.
Definition master_init : master := mkMaster [] 0 false.
(** fly_master_setreload, master.c:1585-1595: called by run with the path and the debug flag, pyserver.c:1158; the flag is
    stored in [configure], which nothing reads. *)
Definition setreload (path : option (list N)) (debug : bool) (m : master) : master :=
  mkMaster (g_paths m ++ [mkWp path 0]) (S (g_count m)) true.
(** __fly_master_reload_filepath, master.c:1749-1800.  None: it fails, and the server is not started (master.c:742-746).
    [watch]: inotify_add_watch, with NULL for no path (EFAULT). *)
Fixpoint add_watches (watch : option (list N) -> option Z) (l : list wpath) : option (list wpath) :=
  match l with
  | [] => Some []
  | p :: t => match watch (p_path p) with
              | None => None
              | Some wd => option_map (cons (mkWp (p_path p) wd)) (add_watches watch t)
              end
  end.
Definition reload_filepath (watch : option (list N) -> option Z) (m : master) : option master :=
  if (g_count m =? 0) || negb (g_detect m) then Some m
  else option_map (fun l => mkMaster l (g_count m) (g_detect m)) (add_watches watch (g_paths m)).

(** What the handler does: the master goes back to Python and says FLY_MASTER_RELOAD; assert(0) ends it (FLY_NOT_COME_HERE,
    util.h:37); it fails. *)
Inductive did := Reloads | Aborts | Fails.
(** __fly_search_wp, master.c:1599-1617. *)
Definition search_wp (m : master) (wd : Z) : option wpath := List.find (fun p => Z.eqb (p_wd p) wd) (g_paths m).
(** __fly_reload, master.c:1621-1656. *)
Definition reload (m : master) (wd : Z) (mask : N) : did :=
  match search_wp m wd with
  | None => Fails
  | Some _ =>
    if (mask =? IN_ATTRIB)%N then Reloads
    else if (mask =? IN_MODIFY)%N then Reloads
    else if (mask =? IN_MOVE_SELF)%N then Reloads
    else if (mask =? IN_DELETE_SELF)%N then Reloads
    else Aborts
  end.
(** __fly_master_reload_filepath_handler, master.c:1698-1726: up to 17 events are read at one time and the first is handled.
    None: there is no event, and nothing happens. *)
Definition handler (m : master) (queue : list (Z * N)) : option did :=
  match queue with
  | [] => None
  | (wd, mask) :: _ => Some (reload m wd mask)
  end.

(** The loop of fly_master_release over the paths, master.c:533-541: the next element is read from the one that has just
    been freed (fly_for_each_bllist, bllist.h:40-41).  [mem]: which elements are allocated. *)
Fixpoint free_paths (l : list nat) (mem : nat -> bool) : outcome (nat -> bool) :=
  match l with
  | [] => Ok mem
  | x :: t =>
    let mem' := fun y => if y =? x then false else mem y in
    if mem' x then free_paths t mem' else UB UseAfterFree
  end.
(** The part of fly_master_release that concerns them; [at_]: where they are. *)
Definition release (at_ : list nat) (m : master) (mem : nat -> bool) : outcome (nat -> bool) :=
  if 0 <? g_count m then free_paths at_ mem else Ok mem.

(** ** The Python side, fly/app.py *)
(** What _start_server does (app.py:257-307) until the server runs or fails: it runs; a configuration error; another
    exception. *)
Inductive started := Runs | BadConf | Raises.
(** What executing the file does (app.py:110-112): it raises an exception; no name of the module is a Fly object; one is. *)
Inductive loaded := LRaises | LNone | LFly (s : started).
(** The process: the server runs; _watch_dog polls the file, whose time was [t] at first; the process has ended. *)
Inductive proc := Serving | Polling (t : Z) | Over.
(** _run up to the point where it waits, app.py:86-106.  [now]: st_mtime of the file, None if it cannot be read: os.stat
    raises (app.py:57). *)
Definition run_app (s : started) (now : option Z) : proc :=
  match s with
  | Runs => Serving
  | BadConf => Over
  | Raises => match now with Some t => Polling t | None => Over end
  end.
(** The rest of _run and _run_server, app.py:108-124.  A Fly object is made anew by __init__, which sets _ran to False
    (app.py:161); if the module makes none the old one is found, with _ran True, and the process exits.  Simplified: the
    module does not call run() itself (it is not __main__), and does not end the process. *)
Definition load (m : loaded) (now : option Z) : proc :=
  match m with
  | LRaises => Over
  | LNone => Over
  | LFly s => run_app s now
  end.
(** What happens: the C code returns FLY_MASTER_RELOAD (app.py:300-301; [daemon]: app.py:297-298); _watch_dog looks at the
    file (app.py:56-81). *)
Inductive ev := Reloaded (m : loaded) (now : option Z) | Poll (now : option Z) (m : loaded).
Definition step (daemon : bool) (p : proc) (e : ev) : proc :=
  match p, e with
  | Serving, Reloaded m now => if daemon then Over else load m now
  | Polling t, Poll None _ => Over
  | Polling t, Poll (Some t') m => if Z.eqb t' t then Polling t else load m (Some t')
  | _, _ => p
  end.
Definition run (daemon : bool) (p : proc) (es : list ev) : proc := fold_left (step daemon) es p.
