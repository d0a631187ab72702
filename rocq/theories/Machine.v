(** A loop "while (true) { switch (status) ... }": iteration of a step function.  Shared by the
    models of the hand-written parsers of /repo/src (mime.c, request.c, header.c, conf.c, ...); it
    corresponds to the C loop itself and to nothing else. *)
From Verif Require Import Base.

Section MACHINE.
Context {St R : Type}.
Inductive sres := Next (s : St) | Done (r : R).
Variable step : St -> outcome sres.
(** [fuel] iterations; running out of fuel is the outcome [UB Diverges]. *)
Fixpoint run (fuel : nat) (s : St) : outcome R :=
  match fuel with
  | 0 => UB Diverges
  | S f => obind (step s) (fun r => match r with Next s' => run f s' | Done r => Ok r end)
  end.

Lemma run_mono : forall f s r, run f s = r -> r <> UB Diverges -> forall g, f <= g -> run g s = r.
Proof.
  induction f as [|f IH]; intros s r H N g L; [cbn in H; congruence|]. destruct g as [|g]; [lia|].
  cbn [run] in *. destruct (step s) as [[s'|a]|u]; cbn [obind] in *; try assumption.
  apply (IH s' r H N). lia.
Qed.
Definition reach (s s' : St) : Prop := exists n, forall f, run (n + f) s = run f s'.
Lemma reach_refl s : reach s s. Proof. exists 0. reflexivity. Qed.
Lemma reach_trans a b c : reach a b -> reach b c -> reach a c.
Proof. intros [n H] [m K]. exists (n + m). intros f. rewrite <- Nat.add_assoc, H. apply K. Qed.
Lemma reach_step s s' : step s = Ok (Next s') -> reach s s'.
Proof. intros H. exists 1. intros f. cbn [plus run]. rewrite H. reflexivity. Qed.
(** [s] ends with result [r] (or undefined behaviour), whatever the fuel, if there is enough. *)
Definition ends (s : St) (r : outcome R) : Prop := exists n, forall f, run (n + f) s = r.
Lemma ends_reach s s' r : reach s s' -> ends s' r -> ends s r.
Proof. intros [n H] [m K]. exists (n + m). intros f. rewrite <- Nat.add_assoc, H. apply K. Qed.
Lemma ends_done s r : step s = Ok (Done r) -> ends s (Ok r).
Proof. intros H. exists 1. intros f. cbn [plus run]. rewrite H. reflexivity. Qed.
Lemma ends_ub s u : step s = UB u -> ends s (UB u).
Proof. intros H. exists 1. intros f. cbn [plus run]. rewrite H. reflexivity. Qed.

Variable measure : St -> nat.
Hypothesis step_decreases : forall s s', step s = Ok (Next s') -> measure s' < measure s.
Hypothesis step_total : forall s, step s <> UB Diverges.
Lemma run_total : forall fuel s, measure s < fuel -> run fuel s <> UB Diverges.
Proof.
  induction fuel as [|f IH]; intros s L; [lia|]. cbn [run].
  destruct (step s) as [[s'|a]|u] eqn:E; cbn [obind]; try discriminate.
  - apply IH. apply step_decreases in E. lia.
  - intros H. injection H as ->. exact (step_total s E).
Qed.
Lemma ends_run s r g : ends s r -> r <> UB Diverges -> measure s < g -> run g s = r.
Proof.
  intros [n H] N L. destruct (le_lt_dec n g) as [Hl|Hl].
  - replace g with (n + (g - n)) by lia. apply H.
  - pose proof (run_total g s L) as T. pose proof (H 0) as H0. rewrite Nat.add_0_r in H0. rewrite <- H0. symmetry.
    apply (run_mono g); [reflexivity|exact T|lia].
Qed.
(** Every state ends somehow. *)
Lemma run_ends s g : measure s < g -> ends s (run g s).
Proof. intros L. exists g. intros f. apply (run_mono g); [reflexivity|apply run_total; exact L|lia]. Qed.

Variable inv : St -> Prop.
Variable post : R -> Prop.
Hypothesis step_inv : forall s, inv s -> match step s with Ok (Next s') => inv s' | Ok (Done r) => post r | UB _ => True end.
Lemma run_inv : forall fuel s r, inv s -> run fuel s = Ok r -> post r.
Proof.
  induction fuel as [|f IH]; intros s r I H; [discriminate H|]. cbn [run] in H. pose proof (step_inv s I) as P.
  destruct (step s) as [[s'|a]|u]; cbn [obind] in H; [exact (IH s' r P H)|injection H as ->; exact P|discriminate].
Qed.
End MACHINE.
Arguments sres : clear implicits.
