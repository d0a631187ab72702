(** Property C121: changes below a mount point are noticed (model: Watch.v; specification: the first part of
    WatchProofs.v, [tree], [gentle], [mirrors]). *)
From Coq Require Import Lia.
From Verif Require Import Base Watch WatchProofs WatchMoreProofs.
Local Open Scope nat_scope.

(** ** C121.  Full statement (false, see below): whatever is made, written, changed, renamed or removed below a mount point
    while the server runs, the master knows the files that there are, tells the workers of every change, and goes on.

    The master keeps up and there are no renamings and no new names in directories of the start: then for every tree and
    every history it goes on and knows exactly what there is.  Missing: the cases refuted below; the removal of
    directories. *)
Theorem watch_follows_partial : forall d0 next os fuel, tree d0 next -> Forall (gentle d0) os -> 2 <= fuel ->
  exists k m, (let '(k0, m0) := start d0 next in live fuel k0 m0 os) = MOn k m /\ mirrors m (k_disk k).
Proof. exact watch_follows. Qed.
Print Assumptions watch_follows_partial.
Definition ex_tree : list ent := [mkEnt [bs "sub"; bs "a"] 1 false; mkEnt [bs "sub"] 2 true; mkEnt [bs "b"] 3 false].
Lemma ex_tree_ok : tree ex_tree 4.
Proof.
  constructor.
  - repeat constructor; cbn; intuition discriminate.
  - repeat constructor; cbn; intuition discriminate.
  - cbn. intuition subst; cbn; lia.
  - cbn. intuition subst; discriminate.
  - cbn. intuition subst; cbn; auto. right. exists (mkEnt [bs "sub"] 2 true). cbn. auto.
  - lia.
Qed.
Definition ex_ops : list dop := [DNew [bs "new"] true; DNew [bs "new"; bs "x"] false; DWrite [bs "new"; bs "x"]; DWrite [bs "sub"; bs "a"]; DUnlink [bs "b"]; DGone 3; DMoveOut [bs "sub"; bs "a"]; DMoveIn [bs "b"]].
Lemma ex_ops_gentle : Forall (gentle ex_tree) ex_ops.
Proof.
  repeat (apply Forall_cons; [cbn; try exact Logic.I; intros (e & X & P & D); cbn in X; intuition (subst; cbn in P, D; discriminate)|]). constructor.
Qed.
Example watch_follows_ex : (let '(k0, m0) := start ex_tree 4 in match live 2 k0 m0 ex_ops with MOn k m => Some (map e_path (k_disk k), map w_path (m_files m), m_told m) | _ => None end) =
  Some ([[bs "sub"]; [bs "new"]; [bs "new"; bs "x"]; [bs "b"]], [[bs "sub"]; [bs "new"]; [bs "new"; bs "x"]; [bs "b"]], 8).
Proof. vm_compute. reflexivity. Qed.

(** Every one of these changes is told to the workers, which then read the mount point again (C86). *)
Theorem watch_tells_partial : forall d0 k m o k1 fuel, reached d0 k m -> gentle d0 o -> changes o -> disk_step k o = Some k1 -> 2 <= fuel ->
  exists k2 m2, handle_all fuel k1 m = MOn k2 m2 /\ m_told m < m_told m2 /\ k_disk k2 = k_disk k1 /\ mirrors m2 (k_disk k1).
Proof. exact watch_tells. Qed.
Print Assumptions watch_tells_partial.
Lemma ex_reached os r : Forall (gentle ex_tree) os -> (let '(k0, m0) := start ex_tree 4 in live 2 k0 m0 os) = r -> forall k m, r = MOn k m -> reached ex_tree k m.
Proof. intros G E k m ->. exists 4, 2, os. split; [exact ex_tree_ok|]. split; [lia|]. split; [exact G|exact E]. Qed.
Example watch_tells_ex : exists k m k1, reached ex_tree k m /\ disk_step k (DChmod [bs "new"; bs "x"]) = Some k1 /\ k_queue k1 = [(6, EAttrib)].
Proof.
  pose proof (ex_reached ex_ops _ ex_ops_gentle eq_refl) as R. vm_compute in R. specialize (R _ _ eq_refl).
  eexists. eexists. eexists. split; [exact R|]. split; vm_compute; reflexivity.
Qed.

(** A file that is replaced by renaming another one over it: when the old one is gone, the master knows what there is. *)
Theorem replaced_file_known : forall d0 k m p q i j fuel, reached d0 k m -> file_at (k_disk k) p = Some i -> file_at (k_disk k) q = Some j -> p <> q -> ~ is_dir d0 (removelast q) -> 4 <= fuel ->
  exists k1 k2 m2 k3 k4 m4, disk_step k (DRename p q) = Some k1 /\ handle_all fuel k1 m = MOn k2 m2 /\ disk_step k2 (DGone j) = Some k3 /\ handle_all fuel k3 m2 = MOn k4 m4 /\
    m_told m < m_told m2 /\ mirrors m4 (k_disk k4).
Proof. exact watch_replaced. Qed.
Print Assumptions replaced_file_known.
Example replaced_file_ex : exists k m, reached ex_tree k m /\ file_at (k_disk k) [bs "new"; bs "x"] = Some 5 /\ file_at (k_disk k) [bs "b"] = Some 6 /\ ~ is_dir ex_tree (removelast [bs "b"]).
Proof.
  pose proof (ex_reached ex_ops _ ex_ops_gentle eq_refl) as R. vm_compute in R. specialize (R _ _ eq_refl).
  eexists. eexists. split; [exact R|]. split; [vm_compute; reflexivity|]. split; [vm_compute; reflexivity|].
  intros (e & X & P & D). cbn in X. intuition (subst; cbn in P, D; discriminate).
Qed.

(** A new directory of the mount point that already has contents when the master reads the event: everything in it is
    known and watched as what it is. *)
Theorem new_directory_scanned : forall k m n e q, NoDup (map e_ino (k_disk k)) -> NoDup (map e_path (k_disk k)) -> In e (k_disk k) -> e_path e = [n] -> e_dir e = true ->
  k_queue k = (m_rwd m, ECreate n) :: q -> (forall x, In x (k_disk k) -> here [n] (e_path x) -> unwatched k m x) ->
  exists k2 m2, handle k m = MOn k2 m2 /\ m_told m2 = S (m_told m) /\ (forall x, watched k m x -> watched k2 m2 x) /\ forall x, In x (k_disk k) -> here [n] (e_path x) -> watched k2 m2 x.
Proof. exact watch_scans. Qed.
Print Assumptions new_directory_scanned.
Definition scan_kern : option kern :=
  let '(k0, _) := start ex_tree 4 in
  match disk_step k0 (DNew [bs "n"] true) with
  | Some k1 => match disk_step k1 (DNew [bs "n"; bs "d"] true) with Some k2 => disk_step k2 (DNew [bs "n"; bs "d"; bs "x"] false) | None => None end
  | None => None
  end.
Example new_directory_ex : exists k, scan_kern = Some k /\ let m := snd (start ex_tree 4) in
  k_queue k = [(m_rwd m, ECreate (bs "n"))] /\ (forall x, In x (k_disk k) -> here [bs "n"] (e_path x) -> unwatched k m x) /\
  match handle k m with MOn k2 m2 => map (fun w => (h_ino w, h_mp w)) (skipn 4 (k_watch k2)) = [(5, true); (6, false); (4, true)] | _ => False end.
Proof.
  eexists. split; [vm_compute; reflexivity|]. split; [vm_compute; reflexivity|]. split; [|vm_compute; reflexivity].
  intros x X H. cbn in X. destruct X as [<-|[<-|[<-|[<-|[<-|[<-|[]]]]]]]; destruct H as [H|H]; vm_compute in H; try discriminate H; split; vm_compute; reflexivity.
Qed.

(** ** What goes wrong *)
(** A new name in a directory that was there when the server started is not noticed: no event, the workers are not told. *)
Theorem start_directory_blind : forall d0 k m p o k1 fuel, reached d0 k m -> is_dir d0 (removelast p) -> makes p o -> disk_step k o = Some k1 ->
  handle_all fuel k1 m = MOn k1 m /\ In p (map e_path (k_disk k1)) /\ ~ In p (map w_path (m_files m)).
Proof. exact watch_blind. Qed.
Print Assumptions start_directory_blind.
(** Nor is anything that ever happens below a directory made there. *)
Theorem start_directory_dark : forall d0 k m p k1 os fuel, reached d0 k m -> is_dir d0 (removelast p) -> disk_step k (DNew p true) = Some k1 -> Forall (under p) os ->
  exists k', live fuel k1 m os = MOn k' m.
Proof. exact watch_dark. Qed.
Print Assumptions start_directory_dark.
Definition dark_ops : list dop := [DNew [bs "sub"; bs "n"; bs "x"] false; DWrite [bs "sub"; bs "n"; bs "x"]; DRename [bs "sub"; bs "n"; bs "x"] [bs "sub"; bs "n"; bs "y"]].
Theorem start_directory_refuted : exists d0 next fuel os k m, tree d0 next /\ 2 <= fuel /\ (let '(k0, m0) := start d0 next in live fuel k0 m0 os) = MOn k m /\
  m_told m = 0 /\ In [bs "sub"; bs "n"; bs "y"] (map e_path (k_disk k)) /\ ~ mirrors m (k_disk k).
Proof.
  exists ex_tree, 4, 9, (DNew [bs "sub"; bs "n"] true :: dark_ops). eexists. eexists. split; [exact ex_tree_ok|]. split; [lia|].
  split; [vm_compute; reflexivity|]. split; [reflexivity|]. split; [cbn; auto 8|]. intros (_ & M).
  specialize (M [bs "sub"; bs "n"; bs "y"] false). destruct M as (_ & M). cbn in M. intuition congruence.
Qed.
Print Assumptions start_directory_refuted.
Example start_directory_ex : Forall (under [bs "sub"; bs "n"]) dark_ops /\ is_dir ex_tree (removelast [bs "sub"; bs "n"]).
Proof. split; [repeat constructor|]. exists (mkEnt [bs "sub"] 2 true). cbn. auto. Qed.

(** A file that is renamed below the mount point is known under its new name, but its watch is gone: that it is written,
    that it changes and that it is removed is not noticed any more. *)
Theorem renamed_file_lost : forall d0 k m p q fuel, reached d0 k m -> (exists i, file_at (k_disk k) p = Some i) -> free_at (k_disk k) q = true -> ~ is_dir d0 (removelast q) -> 3 <= fuel ->
  exists k1 k2 m2, disk_step k (DRename p q) = Some k1 /\ handle_all fuel k1 m = MOn k2 m2 /\ k_disk k2 = k_disk k1 /\ m_told m < m_told m2 /\
    forall o, touches q o -> exists k3, disk_step k2 o = Some k3 /\ forall n, handle_all n k3 m2 = MOn k3 m2.
Proof. exact watch_renamed. Qed.
Print Assumptions renamed_file_lost.
(** A file that does not exist stays in the master's list. *)
Theorem renamed_file_refuted : exists d0 next fuel os k m, tree d0 next /\ 3 <= fuel /\ (let '(k0, m0) := start d0 next in live fuel k0 m0 (os ++ [DUnlink [bs "c"]])) = MOn k m /\
  (exists k', (let '(k0, m0) := start d0 next in live fuel k0 m0 os) = MOn k' m) /\ known m [bs "c"] = true /\ ~ In [bs "c"] (map e_path (k_disk k)).
Proof.
  exists ex_tree, 4, 9, [DRename [bs "b"] [bs "c"]; DWrite [bs "c"]]. eexists. eexists. split; [exact ex_tree_ok|]. split; [lia|].
  split; [vm_compute; reflexivity|]. split; [eexists; vm_compute; reflexivity|]. split; [reflexivity|]. cbn. intuition discriminate.
Qed.
Print Assumptions renamed_file_refuted.

(** A file that is made and removed before the master reads the event, or written and removed, stops the server: the master
    and all of its workers. *)
Theorem made_and_removed_stops : forall d0 k m p o fuel, reached d0 k m -> free_at (k_disk k) p = true -> ~ is_dir d0 (removelast p) -> leaves p o -> 1 <= fuel ->
  exists k1 k2, disk_step k (DNew p false) = Some k1 /\ disk_step k1 o = Some k2 /\ handle_all fuel k2 m = MStop.
Proof. exact watch_stops_new. Qed.
Print Assumptions made_and_removed_stops.
Theorem written_and_removed_stops : forall d0 k m p o fuel, reached d0 k m -> (exists i, file_at (k_disk k) p = Some i) -> leaves p o -> 2 <= fuel ->
  exists k1 k2, disk_step k (DWrite p) = Some k1 /\ disk_step k1 o = Some k2 /\ handle_all fuel k2 m = MStop.
Proof. exact watch_stops_written. Qed.
Print Assumptions written_and_removed_stops.
Theorem removal_refuted : exists d0 next k m o1 o2 k1 k2, tree d0 next /\ start d0 next = (k, m) /\ disk_step k o1 = Some k1 /\ disk_step k1 o2 = Some k2 /\
  forall fuel, 1 <= fuel -> handle_all fuel k2 m = MStop.
Proof.
  exists ex_tree, 4. eexists. eexists. exists (DNew [bs "t"] false), (DUnlink [bs "t"]). eexists. eexists. split; [exact ex_tree_ok|].
  split; [vm_compute; reflexivity|]. split; [vm_compute; reflexivity|]. split; [vm_compute; reflexivity|].
  intros [|n] N; [lia|]. reflexivity.
Qed.
Print Assumptions removal_refuted.
Example removal_ex : exists k m, reached ex_tree k m /\ free_at (k_disk k) [bs "new"; bs "t"] = true /\ ~ is_dir ex_tree (removelast [bs "new"; bs "t"]) /\ leaves [bs "new"; bs "t"] (DUnlink [bs "new"; bs "t"]) /\
  file_at (k_disk k) [bs "new"; bs "x"] = Some 5.
Proof.
  pose proof (ex_reached ex_ops _ ex_ops_gentle eq_refl) as R. vm_compute in R. specialize (R _ _ eq_refl).
  eexists. eexists. split; [exact R|]. split; [vm_compute; reflexivity|]. split; [|split; [left; reflexivity|vm_compute; reflexivity]].
  intros (e & X & P & D). cbn in X. intuition (subst; cbn in P, D; discriminate).
Qed.
