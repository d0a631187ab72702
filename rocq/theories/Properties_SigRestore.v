(** Property theorems: the signals of the program around a server.  See DESIGN.md. *)
From Verif Require Import SigRestore SigRestoreProofs.
From Coq Require Import ZArith List Bool.
Import ListNotations.
Local Open Scope Z_scope.

(** A program with a function for interrupts, as Python has. *)
Definition py : proc := mkProc (fun s => if s =? 2 then Func 0 else Dfl) (fun _ => false) [] [].

(** C144: after a server has run, every signal has the action it had before, whatever signals arrived and were read. *)
Theorem signal_actions_restored p os s : history p os -> p_act (run p os) s = p_act p s.
Proof. exact (actions_back p os s). Qed.
Print Assumptions signal_actions_restored.
Example signal_actions_ex : history py (Arrive 2 :: BlockAll :: Arrive 15 :: start ++ [Take; Arrive 2] ++ release (saved py)) /\
  p_act (run py (BlockAll :: start)) 2 = Dfl /\
  p_done (run py (Arrive 2 :: BlockAll :: Arrive 15 :: start ++ [Take; Arrive 2] ++ release (saved py))) = [(2, Func 0); (2, Func 0)].
Proof. split; [exists 0%nat; reflexivity|]. split; reflexivity. Qed.

(** C144: no signal that arrives at any time, before, while or after the server runs, meets another action than the
    program's own one; it is read by the server or treated as the program has said. *)
Theorem signal_actions_own p os s a : open_ p -> p_done p = [] -> history p os -> In (s, a) (p_done (run p os)) -> a = p_act p s.
Proof. exact (own_action p os s a). Qed.
Print Assumptions signal_actions_own.
Example signal_actions_own_ex : open_ py /\ p_done py = [] /\ history py (server py 3).
Proof. split; [split; reflexivity|]. split; [reflexivity|]. exists 3%nat. reflexivity. Qed.

(** C144: afterwards no signal is blocked; that is as before exactly when none was. *)
Theorem signals_unblocked p os s : history p os -> p_blocked (run p os) s = false.
Proof. exact (unblocked p os s). Qed.
Print Assumptions signals_unblocked.
Theorem signal_mask_kept_iff p os : history p os -> ((forall s, p_blocked (run p os) s = p_blocked p s) <-> forall s, p_blocked p s = false).
Proof. exact (mask_iff p os). Qed.
Print Assumptions signal_mask_kept_iff.

(** C144: a signal that the program has blocked is let through when the server ends. *)
Theorem signal_mask_refuted : exists p os, history p os /\ p_blocked p 12 = true /\ In (12, Dfl) (p_done (run p os)).
Proof.
  exists (mkProc (fun _ => Dfl) (fun s => s =? 12) [12] []), (server (mkProc (fun _ => Dfl) (fun s => s =? 12) [12] []) 0).
  split; [exists 0%nat; reflexivity|]. split; [reflexivity|]. vm_compute. left. reflexivity.
Qed.
Print Assumptions signal_mask_refuted.
