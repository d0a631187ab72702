(** Proofs about the pid file and the daemon. *)
From Verif Require Import Base CStr CNum Status Conf Daemon.
From Coq Require Import Lia ZifyBool ZifyNat ZifyN.
Local Open Scope Z_scope.

(** ** The pid file *)
Lemma put_same d p t : put d p t p = Some t.
Proof. unfold put. rewrite bytes_eqb_refl. reflexivity. Qed.
Lemma put_other d p t q : q <> p -> put d p t q = d q.
Proof. intros H. unfold put. destruct (bytes_eqb q p) eqn:E; [|reflexivity]. apply bytes_eqb_eq in E. contradiction. Qed.
Lemma del_other d p q : q <> p -> del d p q = d q.
Proof. intros H. unfold del. destruct (bytes_eqb q p) eqn:E; [|reflexivity]. apply bytes_eqb_eq in E. contradiction. Qed.
Lemma read_pid p : 0 < p <= long_max -> strtoll (dec_z p) = p.
Proof.
  intros H. unfold dec_z. destruct p as [|p|p]; [lia| |lia]. rewrite <- (app_nil_r (dec _)). rewrite strtoll_digits.
  - rewrite dec_value_dec. lia.
  - apply dec_digits.
  - intros E. pose proof (dec_value_dec (Z.to_N (Z.pos p))) as V. rewrite E in V. cbn in V. lia.
  - exact Logic.I.
Qed.
Lemma start_writes dirs w c p p1 p2 : w_server w = None -> k_create c = true -> dirs (log_dir (k_cwd c)) = true -> w_disk w (pid_path (k_cwd c)) = None ->
  0 < p <= long_max ->
  exists t, w_disk (step dirs w (Start c p p1 p2)) (pid_path (k_cwd c)) = Some t /\ strtoll t = p /\
    w_server (step dirs w (Start c p p1 p2)) = Some (if k_daemon c then p2 else p, c).
Proof.
  intros S C D F P. cbn [step]. rewrite S. unfold configure, create_pidfile. rewrite C, D, F. cbn [w_disk w_server]. exists (dec_z p).
  split; [apply put_same|]. split; [now apply read_pid|reflexivity].
Qed.

Lemma configure_keeps dirs d c p d' q t : configure dirs d c p = Some d' -> d q = Some t -> d' q = Some t.
Proof.
  unfold configure, create_pidfile. destruct (k_create c); [|congruence]. destruct (dirs _); [|discriminate]. destruct (d (pid_path (k_cwd c))) eqn:E; [discriminate|].
  intros H F. injection H as <-. rewrite put_other; [exact F|]. intros ->. congruence.
Qed.
Lemma step_keeps dirs w e q t : w_disk w q = Some t -> e <> Remove q -> w_disk (step dirs w e) q = Some t.
Proof.
  intros F N. destruct e as [c p p1 p2| | |r]; cbn [step].
  - destruct (w_server w); [exact F|]. destruct (configure dirs (w_disk w) c p) as [d|] eqn:E; [|exact F]. cbn [w_disk]. eapply configure_keeps; eassumption.
  - exact F.
  - destruct (w_server w) as [[p c]|]; [|exact F]. destruct (k_debug c); [|exact F]. destruct (k_daemon c); [exact F|].
    destruct (configure dirs (w_disk w) c p) as [d|] eqn:E; [|exact F]. cbn [w_disk]. eapply configure_keeps; eassumption.
  - cbn [w_disk]. rewrite del_other; [exact F|]. intros ->. now apply N.
Qed.
Lemma run_keeps dirs h : forall w q t, w_disk w q = Some t -> ~ In (Remove q) h -> w_disk (run dirs w h) q = Some t.
Proof.
  induction h as [|e h IH]; intros w q t F N; [exact F|]. cbn [run fold_left]. apply IH.
  - apply step_keeps; [exact F|]. intros ->. apply N. now left.
  - intros H. apply N. now right.
Qed.
Lemma second_start dirs w h c p p1 p2 t : w_disk w (pid_path (k_cwd c)) = Some t -> ~ In (Remove (pid_path (k_cwd c))) h -> k_create c = true ->
  w_server (run dirs w h) = None -> w_server (step dirs (run dirs w h) (Start c p p1 p2)) = None.
Proof.
  intros F N C S. pose proof (run_keeps dirs h w _ t F N) as F'. cbn [step]. rewrite S. unfold configure, create_pidfile. rewrite C, F'.
  destruct (dirs _); exact S.
Qed.
(** How many of the starts of a history were successful. *)
Fixpoint starts (dirs : list N -> bool) (cwd : list N) (w : world) (h : list ev) : nat :=
  match h with
  | [] => 0
  | e :: h => (match e, w_server w, w_server (step dirs w e) with
               | Start c _ _ _, None, Some _ => if k_create c && bytes_eqb (k_cwd c) cwd then 1 else 0
               | _, _, _ => 0
               end + starts dirs cwd (step dirs w e) h)%nat
  end.
Lemma starts_none dirs cwd h : forall w t, w_disk w (pid_path cwd) = Some t -> ~ In (Remove (pid_path cwd)) h -> starts dirs cwd w h = 0%nat.
Proof.
  induction h as [|e h IH]; intros w t F N; [reflexivity|]. cbn [starts].
  rewrite (IH _ t); [|apply step_keeps; [exact F|]; intros ->; apply N; now left|intros H; apply N; now right].
  destruct e as [c p p1 p2| | |r]; try reflexivity. destruct (w_server w) eqn:S; [reflexivity|].
  destruct (k_create c && bytes_eqb (k_cwd c) cwd) eqn:K; [|destruct (w_server (step dirs w (Start c p p1 p2))); reflexivity].
  apply andb_true_iff in K. destruct K as (K1 & K2). apply bytes_eqb_eq in K2. subst cwd.
  pose proof (second_start dirs w [] c p p1 p2 t F (fun x => x) K1 S) as Q. cbn [run fold_left] in Q. rewrite Q. reflexivity.
Qed.
Lemma one_start dirs cwd h : forall w, ~ In (Remove (pid_path cwd)) h -> (starts dirs cwd w h <= 1)%nat.
Proof.
  induction h as [|e h IH]; intros w N; [cbn; lia|]. cbn [starts].
  assert (N' : ~ In (Remove (pid_path cwd)) h) by (intros H; apply N; now right).
  assert (Z0 : (0 + starts dirs cwd (step dirs w e) h <= 1)%nat) by now apply IH.
  destruct e as [c p p1 p2| | |r]; try exact Z0. destruct (w_server w) eqn:S; [exact Z0|].
  destruct (w_server (step dirs w (Start c p p1 p2))) as [x|] eqn:S'; [|exact Z0].
  destruct (k_create c && bytes_eqb (k_cwd c) cwd) eqn:K; [|exact Z0].
  apply andb_true_iff in K. destruct K as (K1 & K2). apply bytes_eqb_eq in K2. subst cwd.
  rewrite (starts_none dirs (k_cwd c) h _ (dec_z p)); [lia| |exact N'].
  cbn [step] in S' |- *. rewrite S in S' |- *. unfold configure, create_pidfile in S' |- *. rewrite K1 in S' |- *.
  destruct (dirs _); [|cbn in S'; congruence]. destruct (w_disk w (pid_path (k_cwd c))); [cbn in S'; congruence|]. cbn [w_disk]. apply put_same.
Qed.

Lemma change_ends dirs w p c t : w_server w = Some (p, c) -> k_create c = true -> k_debug c = true -> w_disk w (pid_path (k_cwd c)) = Some t ->
  w_server (step dirs w Change) = None.
Proof.
  intros S C G F. cbn [step]. rewrite S, G. destruct (k_daemon c); [reflexivity|]. unfold configure, create_pidfile. rewrite C, F. destruct (dirs _); reflexivity.
Qed.
Lemma change_ends_daemon dirs w p c : w_server w = Some (p, c) -> k_daemon c = true -> k_debug c = true -> w_server (step dirs w Change) = None.
Proof. intros S D G. cbn [step]. rewrite S, G, D. reflexivity. Qed.
Lemma change_goes_on dirs w p c : w_server w = Some (p, c) -> k_create c = false -> k_daemon c = false -> w_server (step dirs w Change) = Some (p, c).
Proof. intros S C D. cbn [step]. rewrite S, D. unfold configure. rewrite C. destruct (k_debug c); [reflexivity|exact S]. Qed.

(** The configured path has no effect. *)
Definition repath (f : list N -> list N) (c : cfg) : cfg := mkCfg (k_create c) (f (k_path c)) (k_daemon c) (k_debug c) (k_cwd c).
Definition reev (f : list N -> list N) (e : ev) : ev := match e with Start c p p1 p2 => Start (repath f c) p p1 p2 | e => e end.
Definition same (f : list N -> list N) (a b : world) : Prop :=
  w_disk a = w_disk b /\ w_server a = option_map (fun '(p, c) => (p, repath f c)) (w_server b).
Lemma same_step dirs f a b e : same f a b -> same f (step dirs a (reev f e)) (step dirs b e).
Proof.
  intros (D & S). destruct e as [c p p1 p2| | |r]; cbn [step reev].
  - rewrite S. destruct (w_server b) as [[p0 c0]|] eqn:B; cbn [option_map].
    + split; [exact D|]. rewrite S, B. reflexivity.
    + rewrite D. change (configure dirs (w_disk b) (repath f c) p) with (configure dirs (w_disk b) c p).
      destruct (configure dirs (w_disk b) c p) as [d|]; [split; reflexivity|]. split; [exact D|]. rewrite S, B. reflexivity.
  - split; [exact D|reflexivity].
  - rewrite S. destruct (w_server b) as [[p0 c0]|] eqn:B; cbn [option_map].
    + cbn [repath k_debug k_daemon]. destruct (k_debug c0); [|split; [exact D|rewrite S, B; reflexivity]].
      destruct (k_daemon c0); [split; [exact D|reflexivity]|]. rewrite D. change (configure dirs (w_disk b) (repath f c0) p0) with (configure dirs (w_disk b) c0 p0).
      destruct (configure dirs (w_disk b) c0 p0); split; reflexivity.
    + split; [exact D|]. rewrite S, B. reflexivity.
  - split; [cbn [w_disk]; now rewrite D|exact S].
Qed.
Lemma same_run dirs f h : forall a b, same f a b -> same f (run dirs a (map (reev f) h)) (run dirs b h).
Proof.
  induction h as [|e h IH]; intros a b S; [exact S|]. cbn [map run fold_left]. apply IH. now apply same_step.
Qed.
Lemma path_ignored dirs f d h : w_disk (run dirs (mkW d None) (map (reev f) h)) = w_disk (run dirs (mkW d None) h) /\
  option_map fst (w_server (run dirs (mkW d None) (map (reev f) h))) = option_map fst (w_server (run dirs (mkW d None) h)).
Proof.
  destruct (same_run dirs f h (mkW d None) (mkW d None)) as (D & S); [split; reflexivity|]. split; [exact D|]. rewrite S.
  destruct (w_server (run dirs (mkW d None) h)) as [[p c]|]; reflexivity.
Qed.

(** ** The daemon *)
Lemma fd_filter g t i : fd (filter (fun e => g (fst e)) t) i = if g i then fd t i else None.
Proof.
  unfold fd. induction t as [|[k x] t IH]; cbn [filter find fst]; [destruct (g i); reflexivity|].
  destruct (Nat.eqb_spec k i) as [->|K].
  - destruct (g i) eqn:G.
    + cbn [find fst]. rewrite Nat.eqb_refl. reflexivity.
    + rewrite IH. reflexivity.
  - destruct (g k) eqn:G.
    + cbn [find fst]. replace (Nat.eqb k i) with false by lia. exact IH.
    + exact IH.
Qed.
Lemma fd_set t i x j : fd (set_fd t i x) j = if Nat.eqb i j then Some x else fd t j.
Proof.
  unfold set_fd. change (fd ((i, x) :: ?l) j) with (fd ((i, x) :: l) j). unfold fd at 1. cbn [find fst].
  destruct (Nat.eqb i j) eqn:E; [reflexivity|].
  change (option_map snd (find (fun e => Nat.eqb (fst e) j) (filter (fun e => negb (Nat.eqb (fst e) i)) t))) with
    (fd (filter (fun e => (fun k => negb (Nat.eqb k i)) (fst e)) t) j).
  rewrite (fd_filter (fun k => negb (Nat.eqb k i))). replace (Nat.eqb j i) with false by lia. reflexivity.
Qed.
Lemma fd_close keep lim t i : fd (close_all keep lim t) i = if negb (Z.of_nat i <? int_of_long lim) || kept keep i then fd t i else None.
Proof. unfold close_all. exact (fd_filter (fun k => negb (Z.of_nat k <? int_of_long lim) || kept keep k) t i). Qed.
Lemma free_zero t : fd t 0 = None -> free_fd t = 0%nat.
Proof. intros H. unfold free_fd. cbn [lowest]. rewrite H. reflexivity. Qed.
Lemma free_pos t x : fd t 0 = Some x -> free_fd t <> 0%nat.
Proof.
  intros H. unfold free_fd. cbn [lowest]. rewrite H.
  assert (G : forall k i, (1 <= i)%nat -> (1 <= lowest k i t)%nat).
  { clear. induction k as [|k IH]; intros i I; cbn [lowest]; [exact I|]. destruct (fd t i); [apply IH; lia|exact I]. }
  pose proof (G (length t) 1%nat ltac:(lia)). lia.
Qed.
Lemma kept_in keep i : kept keep i = true <-> In i keep.
Proof.
  unfold kept. rewrite existsb_exists. split.
  - intros (y & H & E). apply Nat.eqb_eq in E. now subst.
  - intros H. exists i. split; [exact H|apply Nat.eqb_refl].
Qed.

Lemma detached keep lim t : (forall i, (i < 3)%nat -> ~ In i keep) -> 3 <= lim < 2147483648 -> (forall i x, fd t i = Some x -> Z.of_nat i < lim) ->
  exists t', run_daemon keep lim true true t = Some t' /\
    forall i, fd t' i = if (Nat.ltb i 3) then Some Null else if existsb (Nat.eqb i) keep then fd t i else None.
Proof.
  intros K L B. unfold run_daemon, daemon.
  assert (LI : int_of_long lim = lim) by (unfold int_of_long; rewrite Z.mod_small; lia).
  assert (C : forall i, fd (close_all keep lim t) i = if kept keep i then fd t i else None).
  { intros i. rewrite fd_close, LI. destruct (kept keep i); [rewrite orb_true_r; reflexivity|]. rewrite orb_false_r.
    destruct (Z.ltb_spec (Z.of_nat i) lim) as [I|I]; [reflexivity|]. cbn [negb]. destruct (fd t i) eqn:F; [|reflexivity]. apply B in F. lia. }
  assert (NK : forall i, (i < 3)%nat -> kept keep i = false).
  { intros i I. destruct (kept keep i) eqn:E; [|reflexivity]. apply kept_in in E. now destruct (K i I). }
  unfold std_null. rewrite (free_zero (close_all keep lim t)) by (rewrite C, NK by lia; reflexivity). cbn [Nat.eqb].
  change (0 =? -1) with false. cbv iota. eexists. split; [reflexivity|]. intros i. rewrite !fd_set, C.
  destruct i as [|[|[|i]]]; try reflexivity.
Qed.
Lemma not_detached keep lim t x : In 0%nat keep -> ~ In 1%nat keep -> ~ In 2%nat keep -> 3 <= lim < 2147483648 -> fd t 0 = Some x ->
  exists t', run_daemon keep lim true true t = Some t' /\ fd t' 0 = Some x /\ fd t' 1 = Some Null /\ fd t' 2 = None.
Proof.
  intros K0 K1 K2 L F. unfold run_daemon, daemon.
  assert (LI : int_of_long lim = lim) by (unfold int_of_long; rewrite Z.mod_small; lia).
  set (u := close_all keep lim t).
  assert (U0 : fd u 0 = Some x) by (unfold u; rewrite fd_close; apply kept_in in K0; rewrite K0, orb_true_r; exact F).
  assert (UN : forall i, (i < 3)%nat -> ~ In i keep -> fd u i = None).
  { intros i I N. unfold u. rewrite fd_close, LI. destruct (kept keep i) eqn:E; [apply kept_in in E; contradiction|]. rewrite orb_false_r.
    replace (Z.of_nat i <? lim) with true by lia. reflexivity. }
  assert (LEN : (1 <= length u)%nat) by (destruct u; [discriminate U0|cbn; lia]).
  assert (FR : free_fd u = 1%nat).
  { unfold free_fd. cbn [lowest]. rewrite U0. destruct (length u) as [|k]; [lia|]. cbn [lowest]. rewrite UN by (lia || exact K1). reflexivity. }
  unfold std_null. rewrite FR. cbn [Nat.eqb]. change (-6 =? -1) with false. cbv iota. eexists. split; [reflexivity|]. rewrite !fd_set. cbn [Nat.eqb].
  split; [exact U0|]. split; [reflexivity|]. apply UN; [lia|exact K2].
Qed.

(** The descriptor open gives is free. *)
Lemma fd_in t i x : fd t i = Some x -> In i (map fst t).
Proof.
  unfold fd. destruct (find (fun e => Nat.eqb (fst e) i) t) as [[k y]|] eqn:E; [|discriminate]. intros _.
  apply find_some in E. destruct E as (H & K). cbn [fst] in K. apply Nat.eqb_eq in K. subst k. exact (in_map fst _ _ H).
Qed.
Lemma lowest_free t k : forall i, fd t (lowest k i t) = None \/ (forall j, (i <= j < i + k)%nat -> fd t j <> None).
Proof.
  induction k as [|k IH]; intros i; cbn [lowest]; [right; intros j J; lia|].
  destruct (fd t i) eqn:E; [|now left]. destruct (IH (S i)) as [H|H]; [now left|]. right. intros j J.
  destruct (Nat.eq_dec j i) as [->|D]; [congruence|]. apply H. lia.
Qed.
Lemma free_fd_free t : fd t (free_fd t) = None.
Proof.
  unfold free_fd. destruct (lowest_free t (S (length t)) 0) as [H|H]; [exact H|]. exfalso.
  assert (I : incl (seq 0 (S (length t))) (map fst t)).
  { intros j J. apply in_seq in J. destruct (fd t j) as [x|] eqn:E; [exact (fd_in _ _ _ E)|]. now destruct (H j J). }
  pose proof (NoDup_incl_length (seq_NoDup (S (length t)) 0) I) as L. rewrite seq_length, map_length in L. lia.
Qed.
(** With a limit whose conversion to int is not positive (that of RLIM_INFINITY) nothing is closed. *)
Lemma nothing_closed keep lim t x : int_of_long lim <= 0 -> fd t 0 = Some x ->
  exists t', run_daemon keep lim true true t = Some t' /\ forall i y, fd t i = Some y -> fd t' i = Some y.
Proof.
  intros L F. unfold run_daemon, daemon.
  assert (U : forall i, fd (close_all keep lim t) i = fd t i).
  { intros i. rewrite fd_close. replace (Z.of_nat i <? int_of_long lim) with false by lia. reflexivity. }
  unfold std_null. destruct (Nat.eqb (free_fd (close_all keep lim t)) 0) eqn:E.
  - apply Nat.eqb_eq in E. rewrite <- U in F. exfalso. exact (free_pos _ _ F E).
  - change (-6 =? -1) with false. cbv iota. eexists. split; [reflexivity|]. intros i y H. rewrite fd_set, U.
    destruct (Nat.eqb_spec (free_fd (close_all keep lim t)) i) as [Q|Q]; [|exact H].
    rewrite <- Q, <- U, free_fd_free in H. discriminate H.
Qed.
