(** Proofs about SigRestore.v. *)
From Verif Require Import SigRestore.
From Coq Require Import ZArith List Bool Lia.
Import ListNotations.
Local Open Scope Z_scope.

(** * Specification *)
(** The server's own operations of a history, without the signals that arrive and are read. *)
Definition own (o : op) : bool := match o with Arrive _ | Take => false | _ => true end.
(** A history in which a server runs from its first fork to its release, while signals arrive and are read at any time. *)
Definition history (p : proc) (os : list op) : Prop := exists forks, filter own os = server p forks.
(** A program that has blocked no signal. *)
Definition open_ (p : proc) : Prop := (forall s, p_blocked p s = false) /\ p_wait p = [].

(** The actions after the remaining operations. *)
Fixpoint final (rest : list op) (f : Z -> act) : Z -> act :=
  match rest with [] => f | Act s a :: t => final t (put f s a) | _ :: t => final t f end.
Lemma final_app a b f : final (a ++ b) f = final b (final a f).
Proof. revert f. induction a as [|o a IH]; intro f; [reflexivity|]. destruct o; cbn; apply IH. Qed.
Lemma final_ext a : forall f g s, f s = g s -> final a f s = final a g s.
Proof.
  induction a as [|o a IH]; intros f g s E; [exact E|]. destruct o; cbn; try (apply IH; exact E). apply IH. unfold put. destruct (s =? s0); [reflexivity|exact E].
Qed.
Lemma final_blocks n f : final (repeat BlockAll n) f = f.
Proof. induction n as [|n IH]; [reflexivity|exact IH]. Qed.
Lemma final_saved (g : Z -> act) l : forall f s, final (map (fun x => Act (fst x) (snd x)) (map (fun s => (s, g s)) l)) f s = if existsb (Z.eqb s) l then g s else f s.
Proof.
  induction l as [|h l IH]; intros f s; [reflexivity|]. cbn [map final existsb fst snd]. rewrite IH. unfold put.
  destruct (Z.eqb_spec s h) as [->|N]; cbn [orb]; [|reflexivity]. destruct (existsb _ _); reflexivity.
Qed.
Lemma final_dfl l : forall f s, final (map (fun s => Act s Dfl) l) f s = if existsb (Z.eqb s) l then Dfl else f s.
Proof.
  induction l as [|h l IH]; intros f s; [reflexivity|]. cbn [map final existsb]. rewrite IH. unfold put. destruct (Z.eqb_spec s h) as [->|N]; cbn [orb]; [|reflexivity].
  destruct (existsb _ _); reflexivity.
Qed.
Lemma final_gen (g : Z -> act) l n s : final (BlockAll :: (map (fun s => Act s Dfl) l ++ [BlockAll]) ++ repeat BlockAll n ++ map (fun x => Act (fst x) (snd x)) (map (fun s => (s, g s)) l) ++ [UnblockAll]) g s = g s.
Proof.
  change (final ((map (fun s => Act s Dfl) l ++ [BlockAll]) ++ repeat BlockAll n ++ map (fun x => Act (fst x) (snd x)) (map (fun s => (s, g s)) l) ++ [UnblockAll]) g s = g s).
  rewrite !final_app, final_blocks. change (final (map (fun x => Act (fst x) (snd x)) (map (fun s => (s, g s)) l)) (final (map (fun s => Act s Dfl) l) g) s = g s).
  rewrite final_saved, final_dfl. destruct (existsb _ _); reflexivity.
Qed.
Lemma final_server p forks s : final (server p forks) (p_act p) s = p_act p s.
Proof. exact (final_gen (p_act p) changed forks s). Qed.

Definition quiet (o : op) : Prop := match o with Act _ _ | BlockAll => True | _ => False end.
Lemma server_shape p forks : exists mid, server p forks = BlockAll :: mid ++ [UnblockAll] /\ Forall quiet mid.
Proof.
  exists (start ++ repeat BlockAll forks ++ map (fun x => Act (fst x) (snd x)) (saved p)). split; [unfold server, release; rewrite !app_assoc; reflexivity|].
  apply Forall_app. split; [apply Forall_app; split; [apply Forall_map, Forall_forall; intros; exact I|repeat constructor]|].
  apply Forall_app. split; [apply Forall_forall; intros x H; apply repeat_spec in H; subst; exact I|apply Forall_map, Forall_forall; intros; exact I].
Qed.

Lemma did_all l : forall q, p_act (fold_left (fun q s => did s q) l q) = p_act q /\ p_blocked (fold_left (fun q s => did s q) l q) = p_blocked q /\
  p_wait (fold_left (fun q s => did s q) l q) = p_wait q /\ p_done (fold_left (fun q s => did s q) l q) = p_done q ++ map (fun s => (s, p_act q s)) l.
Proof.
  induction l as [|s l IH]; intro q; [cbn; rewrite app_nil_r; auto|]. cbn [fold_left map]. destruct (IH (did s q)) as (A & B & C & D).
  rewrite A, B, C, D. cbn. rewrite <- app_assoc. auto.
Qed.

(** What holds while [rest] is still to be done. *)
Definition good (orig : Z -> act) (rest : list op) (p : proc) : Prop :=
  (forall s a, In (s, a) (p_done p) -> a = orig s) /\ (forall s, final rest (p_act p) s = orig s) /\
  ( (exists mid, rest = BlockAll :: mid ++ [UnblockAll] /\ Forall quiet mid /\ (forall s, p_act p s = orig s) /\ open_ p)
  \/ (exists mid, rest = mid ++ [UnblockAll] /\ Forall quiet mid /\ forall s, p_blocked p s = true)
  \/ (rest = [] /\ open_ p) ).
Lemma good_arrive orig rest p s : good orig rest p -> good orig rest (step p (Arrive s)).
Proof.
  intros (D & F & S). cbn [step]. destruct (p_blocked p s) eqn:B.
  - split; [exact D|]. split; [exact F|]. destruct S as [(mid & _ & _ & _ & O & _)|[S|(_ & O & _)]]; [rewrite O in B; discriminate|right; left; exact S|rewrite O in B; discriminate].
  - assert (A : p_act p s = orig s).
    { destruct S as [(mid & _ & _ & A & _)|[(mid & _ & _ & A)|(-> & _)]]; [apply A|rewrite A in B; discriminate|apply F]. }
    split; [|split; [exact F|exact S]]. cbn. intros x a I. apply in_app_or in I as [I|[I|[]]]; [apply D, I|]. injection I as <- <-. exact A.
Qed.
Lemma good_take orig rest p : good orig rest p -> good orig rest (step p Take).
Proof.
  intros (D & F & S). cbn [step]. destruct (p_wait p) as [|w t] eqn:W; [split; [exact D|split; [exact F|exact S]]|].
  split; [exact D|]. split; [exact F|]. destruct S as [(mid & _ & _ & _ & _ & O)|[S|(_ & _ & O)]]; [congruence|right; left; exact S|congruence].
Qed.
Lemma good_own orig o rest p : own o = true -> good orig (o :: rest) p -> good orig rest (step p o).
Proof.
  intros NO (D & F & S). destruct S as [(mid & E & Q & A & O)|[(mid & E & Q & B)|(E & _)]]; [| |discriminate].
  - injection E as -> ->. cbn [step]. split; [exact D|]. split; [exact F|]. right. left. exists mid. repeat split; auto.
  - destruct mid as [|o' mid].
    + injection E as -> ->. cbn [step]. set (q := set_wait [] (set_blocked (fun _ => false) p)). destruct (did_all (p_wait p) q) as (X & Y & Z & W).
      cbn [final] in F. split; [|split].
      * intros s a I. rewrite W in I. apply in_app_or in I as [I|I]; [apply D, I|]. apply in_map_iff in I as (z & E & _). injection E as <- <-. apply F.
      * cbn [final]. rewrite X. exact F.
      * right. right. split; [reflexivity|]. split; [rewrite Y; reflexivity|rewrite Z; reflexivity].
    + injection E as -> ->. inversion Q as [|? ? Q1 Q2]; subst. destruct o'; try contradiction; cbn [step].
      * assert (G : forall l, good orig (mid ++ [UnblockAll]) (set_wait l (set_act (put (p_act p) s a) p))).
        { intro l. split; [exact D|]. split; [exact F|]. right. left. exists mid. repeat split; auto. }
        destruct (ignores s a); [apply G|exact (G (p_wait p))].
      * split; [exact D|]. split; [exact F|]. right. left. exists mid. repeat split; auto.
Qed.
Lemma good_run orig os : forall rest p, filter own os = rest -> good orig rest p -> good orig [] (run p os).
Proof.
  induction os as [|o os IH]; intros rest p E G; [cbn in E; subst; exact G|]. unfold run. cbn [fold_left]. fold (run (step p o) os). cbn [filter] in E.
  destruct (own o) eqn:NO.
  - subst rest. apply (IH (filter own os)); [reflexivity|]. apply good_own; assumption.
  - apply (IH rest); [exact E|]. destruct o; try discriminate; [apply good_arrive, G|apply good_take, G].
Qed.
Lemma good_history p os : open_ p -> p_done p = [] -> history p os -> good (p_act p) [] (run p os).
Proof.
  intros O D (forks & E). apply (good_run (p_act p) os (server p forks) p E). split; [rewrite D; intros s a []|]. split; [apply final_server|].
  left. destruct (server_shape p forks) as (mid & S & Q). exists mid. repeat split; auto; apply O.
Qed.
Lemma own_action p os s a : open_ p -> p_done p = [] -> history p os -> In (s, a) (p_done (run p os)) -> a = p_act p s.
Proof. intros O D H. apply (proj1 (good_history p os O D H)). Qed.

(** The actions are restored whatever the program had blocked and whatever arrives. *)
Lemma step_act p o : p_act (step p o) = match o with Act s a => put (p_act p) s a | _ => p_act p end.
Proof.
  destruct o; cbn [step]; [destruct (ignores s a); reflexivity|reflexivity|rewrite (proj1 (did_all _ _)); reflexivity|destruct (p_blocked p s); reflexivity|destruct (p_wait p); reflexivity].
Qed.
Lemma run_act os : forall p, p_act (run p os) = final (filter own os) (p_act p).
Proof.
  induction os as [|o os IH]; intro p; [reflexivity|]. unfold run. cbn [fold_left]. fold (run (step p o) os). rewrite IH, step_act. destruct o; reflexivity.
Qed.
Lemma actions_back p os s : history p os -> p_act (run p os) s = p_act p s.
Proof. intros (forks & E). rewrite run_act, E. apply final_server. Qed.

(** Afterwards nothing is blocked. *)
Lemma unblocked_from os : forall p, (forall s, p_blocked p s = false) -> filter own os = [] -> forall s, p_blocked (run p os) s = false.
Proof.
  induction os as [|o os IH]; intros p B E s; [apply B|]. unfold run. cbn [fold_left]. fold (run (step p o) os). cbn [filter] in E. destruct o; try discriminate E.
  - apply IH; [|exact E]. intro x. cbn [step]. rewrite B. cbn. apply B.
  - apply IH; [|exact E]. intro x. cbn [step]. destruct (p_wait p); apply B.
Qed.
Lemma unblocked_run os : forall p l, filter own os = l ++ [UnblockAll] -> forall s, p_blocked (run p os) s = false.
Proof.
  induction os as [|o os IH]; intros p l E s; [destruct l; discriminate|]. unfold run. cbn [fold_left]. fold (run (step p o) os). cbn [filter] in E.
  destruct (own o) eqn:NO; [|exact (IH _ _ E s)]. destruct l as [|x l]; [|injection E as _ E; exact (IH _ _ E s)].
  injection E as -> E. apply unblocked_from; [|exact E]. intro x. cbn [step]. rewrite (proj1 (proj2 (did_all _ _))). reflexivity.
Qed.
Lemma unblocked p os s : history p os -> p_blocked (run p os) s = false.
Proof. intros (forks & E). destruct (server_shape p forks) as (mid & S & _). rewrite S in E. exact (unblocked_run os p (BlockAll :: mid) E s). Qed.
Lemma mask_iff p os : history p os -> ((forall s, p_blocked (run p os) s = p_blocked p s) <-> forall s, p_blocked p s = false).
Proof. intro H. split; intros E s; [rewrite <- E; apply unblocked, H|rewrite E; apply unblocked, H]. Qed.
