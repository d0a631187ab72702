(** Property theorems: what a worker opens before it serves.  See DESIGN.md. *)
From Verif Require Import Base Status WorkerStart WorkerStartProofs.
From Coq Require Import NArith ZArith List Bool Lia.
Import ListNotations.
Local Open Scope nat_scope.

(** C133.  Full statement (false, see below): a worker starts whatever the files of the mount points are. *)
Definition files_stop_nobody : Prop := forall m mounts routes, mounts <> [] -> exists rs, open_files m mounts routes = inr rs.

(** A worker gets past the files exactly when there is a mount point or a route, and every file that is encoded
    beforehand can be opened and encoded (or is found too large). *)
Theorem worker_files_partial m mounts routes : (exists rs, open_files m mounts routes = inr rs) <->
  (mounts <> [] \/ routes <> 0) /\ forall l f, In l mounts -> In f l -> fine m f.
Proof. exact (open_files_ok m mounts routes). Qed.
Print Assumptions worker_files_partial.

(** What it did with each of them: open if its path is there and it can be opened, encoded if it is regular and large
    enough, and not so large that it does not fit. *)
Theorem worker_files_ready m mounts routes rs : open_files m mounts routes = inr rs -> Forall2 (becomes m) (concat mounts) rs.
Proof. exact (open_files_becomes m mounts routes rs). Qed.
Print Assumptions worker_files_ready.

Definition ex_limits : limits := mkLimits 1024 1000000.
Definition ex_small : file := mkFile true true true 10 true EncOk.
Definition ex_large : file := mkFile true true true 5000 true EncOk.
Definition ex_huge : file := mkFile true true true 2000000 true EncFails.
Definition ex_gone : file := mkFile false false true 5000 true EncOk.
Example worker_files_ex : open_files ex_limits [[ex_small; ex_large]; []; [ex_huge; ex_gone]] 0 =
  inr [mkReady true None; mkReady true (Some false); mkReady true (Some true); mkReady false None].
Proof. vm_compute. reflexivity. Qed.
Example worker_files_ex_fine : Forall (fine ex_limits) [ex_small; ex_large; ex_huge; ex_gone].
Proof.
  apply Forall_forall. intros f I. assert (R : exists rs, open_files ex_limits [[ex_small; ex_large; ex_huge; ex_gone]] 0 = inr rs) by (eexists; vm_compute; reflexivity).
  apply worker_files_partial in R as [_ R]. exact (R _ f (or_introl eq_refl) I).
Qed.

(** C133: one large file that can no longer be opened (its mode was changed, say) stops every new worker. *)
Theorem worker_unreadable_stops m mounts routes l f : In l mounts -> In f l -> w_join f = true -> w_opens f = false -> encoded_early m f ->
  exists y, open_files m mounts routes = inl y.
Proof.
  intros A B J O E. destruct (open_files m mounts routes) as [y|rs] eqn:H; [exists y; reflexivity|]. exfalso.
  destruct (proj1 (worker_files_partial m mounts routes) (ex_intro _ rs H)) as [_ F]. destruct (F l f A B) as [Q|[_ Q]]; [congruence|]. destruct (Q E) as [Q' _]. congruence.
Qed.
Print Assumptions worker_unreadable_stops.
Theorem worker_files_refuted : ~ files_stop_nobody.
Proof.
  intro H. destruct (H ex_limits [[mkFile true false true 5000 true EncOk]] 0 ltac:(discriminate)) as [rs R]. vm_compute in R. discriminate R.
Qed.
Print Assumptions worker_files_refuted.
(** C133: a small one stops nothing, but is served without being open. *)
Theorem worker_unopened_refuted : exists f rs, open_files ex_limits [[f]] 0 = inr rs /\ w_join f = true /\ map y_open rs = [false].
Proof. exists (mkFile true false true 10 true EncOk). eexists. split; [vm_compute; reflexivity|]. split; reflexivity. Qed.
Print Assumptions worker_unopened_refuted.

(** C134: with a directory of default contents, the content found for a status code is exactly the page
    "<directory>/<code>.html" when it can be read and opened (and did not get descriptor 0). *)
Theorem default_pages_exact m w dir p l : asks w dir p -> open_defaults m w dir = Ok (inr l) ->
  forall r fd, In r responses -> ((exists c, default_for l (sr_type r) = Some c /\ k_path c = page p (sr_code r) /\ k_fd c = fd) <-> there w (page p (sr_code r)) fd /\ 0 < fd).
Proof. exact (defaults_exact m w dir p l). Qed.
Print Assumptions default_pages_exact.
(** C134: the worker gets past them exactly when the name of the directory has at most 4086 bytes and every page there
    that is encoded beforehand can be. *)
Theorem default_pages_start_partial m w dir p : asks w dir p -> ((exists l, open_defaults m w dir = Ok (inr l)) <->
  (N.of_nat (length p) <= 4086)%N /\ forall r, In r responses -> page_fine m w (page p (sr_code r))).
Proof. exact (defaults_start m w dir p). Qed.
Print Assumptions default_pages_start_partial.
(** C134: memory is written that must not be exactly when the name of the directory is longer than that. *)
Theorem default_pages_memory m w dir : (exists u, open_defaults m w dir = UB u) <-> exists p, asks w dir p /\ (4086 < N.of_nat (length p))%N.
Proof. exact (defaults_ub m w dir). Qed.
Print Assumptions default_pages_memory.
(** C134: without a directory, or with something else of that name, there is no default content and nothing stops. *)
Theorem default_pages_none m w dir t : (forall d, dir = Some d -> v_dir w d = false) -> exists l, open_defaults m w dir = Ok (inr l) /\ default_for l t = None.
Proof.
  intro H. destruct (defaults_none m w dir t) as [(d & A & B)|R]; [|specialize (H d A); congruence|exact R].
  intros p (d & A & B & _). specialize (H d A). congruence.
Qed.
Print Assumptions default_pages_none.

Definition ex_world (e : enc) : world := mkWorld (fun d => bytes_eqb d (bs "pages")) (fun _ => Some (bs "/srv/pages"))
  (fun p => bytes_eqb p (bs "/srv/pages/404.html") || bytes_eqb p (bs "/srv/pages/500.html")) (fun p => if bytes_eqb p (bs "/srv/pages/404.html") then Some 8 else None)
  (fun _ => true) (fun _ => 5000%Z) (fun _ => true) (fun _ => e).
Example default_pages_ex : exists l, open_defaults ex_limits (ex_world EncOk) (Some (bs "pages")) = Ok (inr l) /\
  default_for l S404 = Some (mkContent S404 (bs "/srv/pages/404.html") 8 (Some false)) /\ default_for l S500 = None /\ default_for l S403 = None.
Proof. eexists. split; [vm_compute; reflexivity|]. split; [vm_compute; reflexivity|]. split; vm_compute; reflexivity. Qed.
Example default_pages_asks : asks (ex_world EncOk) (Some (bs "pages")) (bs "/srv/pages").
Proof. exists (bs "pages"). split; [reflexivity|]. split; [vm_compute; reflexivity|reflexivity]. Qed.
Example default_pages_fine : forall r, In r responses -> page_fine ex_limits (ex_world EncOk) (page (bs "/srv/pages") (sr_code r)).
Proof.
  apply (default_pages_start_partial ex_limits (ex_world EncOk) (Some (bs "pages")) (bs "/srv/pages") default_pages_asks).
  destruct default_pages_ex as (l & R & _). exists l. exact R.
Qed.
(** C134: one page that cannot be encoded stops every worker. *)
Theorem default_pages_refuted : exists w, asks w (Some (bs "pages")) (bs "/srv/pages") /\ open_defaults ex_limits w (Some (bs "pages")) = Ok (inl BadEncode).
Proof. exists (ex_world EncFails). split; [exact default_pages_asks|vm_compute; reflexivity]. Qed.
Print Assumptions default_pages_refuted.
