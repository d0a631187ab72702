(** The signals of the program around a server: src/master.c:400-412, 542, 578-682, 954-958, src/fsignal.c:7-43, 71-95, on
    Linux with signalfd. *)
From Coq Require Import ZArith List Bool.
Import ListNotations.
Local Open Scope Z_scope.

(** fly_signals, fsignal.c:7-43, up to the -1: the numbers on Linux. *)
Definition signals : list Z :=
  [1; 2; 3; 4; 5; 6; 7; 8; 9; 10; 11; 12; 13; 14; 15; 17; 18; 19; 21; 22; 23; 24; 25; 26; 27; 28; 29; 30; 31].
(** Those the loops change: SIGKILL and SIGSTOP are left out (fsignal.c:74-78, master.c:581-582, 616). *)
Definition changed : list Z := filter (fun s => negb (s =? 9) && negb (s =? 19)) signals.

(** What a process does upon a signal: the default, nothing, or a function of the program. *)
Inductive act := Dfl | Ign | Func (f : nat).
(** A process: its actions, which signals are blocked,
    those that wait, and what was done about those that have arrived. *)
Record proc := mkProc { p_act : Z -> act; p_blocked : Z -> bool; p_wait : list Z; p_done : list (Z * act) }.
Definition set_act f p := mkProc f (p_blocked p) (p_wait p) (p_done p).
Definition set_blocked b p := mkProc (p_act p) b (p_wait p) (p_done p).
Definition set_wait l p := mkProc (p_act p) (p_blocked p) l (p_done p).
Definition did s p := mkProc (p_act p) (p_blocked p) (p_wait p) (p_done p ++ [(s, p_act p s)]).

(** ** The kernel: part of the trusted base *)
Inductive op :=
| Act (s : Z) (a : act)     (* sigaction *)
| BlockAll                  (* sigprocmask(SIG_BLOCK) of sigfillset *)
| UnblockAll                (* sigprocmask(SIG_UNBLOCK) of sigfillset *)
| Arrive (s : Z)            (* somebody sends a signal *)
| Take.                     (* signalfd gives the first one that waits *)
Definition put (f : Z -> act) (s : Z) (a : act) : Z -> act := fun x => if x =? s then a else f x.
(** A waiting signal is dropped when its action becomes to ignore it. *)
Definition ignores (s : Z) (a : act) : bool := match a with Ign => true | Dfl => existsb (Z.eqb s) [17; 18; 23; 28] | Func _ => false end.
(** Simplified: SIGKILL and SIGSTOP do not arrive; all waiting signals are let through by [UnblockAll] in their order; an
    action that ends the process is only noted. *)
Definition step (p : proc) (o : op) : proc :=
  match o with
  | Act s a =>
    let p' := set_act (put (p_act p) s a) p in
    if ignores s a then set_wait (filter (fun x => negb (x =? s)) (p_wait p)) p' else p'
  | BlockAll => set_blocked (fun _ => true) p
  | UnblockAll => fold_left (fun q s => did s q) (p_wait p) (set_wait [] (set_blocked (fun _ => false) p))
  | Arrive s => if p_blocked p s then set_wait (p_wait p ++ [s]) p else did s p
  | Take => match p_wait p with [] => p | _ :: t => set_wait t p end
  end.
Definition run (p : proc) (os : list op) : proc := fold_left step os p.

(** ** The server *)
(** __fly_master_get_now_sighandler, master.c:578-604, at fly_master_init: the list orig_sighandler. *)
Definition saved (p : proc) : list (Z * act) := map (fun s => (s, p_act p s)) changed.
(** What a master does to the signals of its process: every fork blocks them (master.c:954-958; [forks]: how many more), the
    start sets the default actions (fly_refresh_signal) and blocks them (fly_signal_register), the release puts the saved
    actions back and then unblocks (__fly_master_set_orig_sighandler, master.c:606-647). *)
Definition start : list op := map (fun s => Act s Dfl) changed ++ [BlockAll].
Definition release (l : list (Z * act)) : list op := map (fun x => Act (fst x) (snd x)) l ++ [UnblockAll].
Definition server (p : proc) (forks : nat) : list op := BlockAll :: start ++ repeat BlockAll forks ++ release (saved p).
