(** The master's watch over a mount point: src/mount.c:640-678 (fly_mount_inotify), 939-987 (fly_inotify_add_watch), 242-383
    (__fly_nftw), 1235-1310 (fly_inotify_rm_watch), src/master.c:1033-1093 (__fly_inotify_in_mp), 1175-1267
    (__fly_inotify_in_pf), 1389-1414, 1455-1507 and 1532-1570, in the inotify build.

    Simplifications: one mount point, which itself is neither moved nor removed; directories are made but not moved or
    removed (the removal of a watched directory is in Mount.v); the index, the hashes and the limits are left out
    (Mount.v); sigqueue to the workers succeeds (Master.v); the kernel's queue of events does not overflow.  A path is the
    list of its components below the mount point. *)
From Verif Require Import Base.
Local Open Scope nat_scope.

Definition bpath := list (list N).
Definition path_dec : forall p q : bpath, {p = q} + {p <> q} := list_eq_dec (list_eq_dec N.eq_dec).
Definition path_eqb (p q : bpath) : bool := if path_dec p q then true else false.

(** ** The kernel: a part of the trusted base (inotify(7)) *)
(** An object of the file system below the mount point: its path, its inode and whether it is a directory.  The inode of the
    mount point is 0. *)
Record ent := mkEnt { e_path : bpath; e_ino : nat; e_dir : bool }.
(** What an event says; a name is of an object in the watched directory. *)
Inductive what := ECreate (n : list N) | EMovedTo (n : list N) | EModify | EAttrib | EDeleteSelf | EMoveSelf | EIgnored.
(** A watch: the inode, the descriptor, and whether its mask is FLY_INOTIFY_WATCH_FLAG_MP or FLY_INOTIFY_WATCH_FLAG_PF. *)
Record watch := mkWatch { h_ino : nat; h_wd : nat; h_mp : bool }.
Record kern := mkK { k_disk : list ent; k_ino : nat; k_watch : list watch; k_wd : nat; k_queue : list (nat * what) }.
(** mount.h:144-145. *)
Definition wants (mp : bool) (x : what) : bool :=
  match x with
  | ECreate _ | EMovedTo _ => mp
  | EModify | EAttrib => negb mp
  | EDeleteSelf | EMoveSelf | EIgnored => true
  end.
Definition entry_at (d : list ent) (p : bpath) : option ent := List.find (fun e => path_eqb (e_path e) p) d.
Definition watch_of (k : kern) (i : nat) : option watch := List.find (fun w => h_ino w =? i) (k_watch k).
Definition with_queue (k : kern) (q : list (nat * what)) : kern := mkK (k_disk k) (k_ino k) (k_watch k) (k_wd k) q.
Definition emit (k : kern) (i : nat) (x : what) : kern :=
  match watch_of k i with
  | Some w => if wants (h_mp w) x then with_queue k (k_queue k ++ [(h_wd w, x)]) else k
  | None => k
  end.
(** The inode of a directory. *)
Definition dir_ino (d : list ent) (p : bpath) : option nat :=
  match p with
  | [] => Some 0
  | _ => match entry_at d p with Some e => if e_dir e then Some (e_ino e) else None | None => None end
  end.
Definition emit_parent (k : kern) (p : bpath) (x : what) : kern :=
  match dir_ino (k_disk k) (removelast p) with Some i => emit k i x | None => k end.
(** inotify_add_watch: an inode that is watched keeps its descriptor. *)
Definition inotify_add (k : kern) (i : nat) (mp : bool) : kern * nat :=
  match watch_of k i with
  | Some w => (mkK (k_disk k) (k_ino k) (map (fun v => if h_ino v =? i then mkWatch i (h_wd v) mp else v) (k_watch k)) (k_wd k) (k_queue k), h_wd w)
  | None => (mkK (k_disk k) (k_ino k) (k_watch k ++ [mkWatch i (k_wd k) mp]) (S (k_wd k)) (k_queue k), k_wd k)
  end.
(** inotify_rm_watch; [None]: EINVAL. *)
Definition inotify_rm (k : kern) (wd : nat) : option kern :=
  if existsb (fun w => h_wd w =? wd) (k_watch k)
  then Some (mkK (k_disk k) (k_ino k) (filter (fun w => negb (h_wd w =? wd)) (k_watch k)) (k_wd k) (k_queue k ++ [(wd, EIgnored)]))
  else None.
(** What other processes do below the mount point.  [DGone]: the last reference to an inode that has no name is dropped. *)
Inductive dop :=
| DNew (p : bpath) (dir : bool) | DMoveIn (p : bpath) | DWrite (p : bpath) | DChmod (p : bpath) | DUnlink (p : bpath) | DMoveOut (p : bpath) | DRename (p q : bpath) | DGone (i : nat).
Definition with_disk (k : kern) (d : list ent) : kern := mkK d (k_ino k) (k_watch k) (k_wd k) (k_queue k).
Definition without (d : list ent) (p : bpath) : list ent := filter (fun e => negb (path_eqb (e_path e) p)) d.
Definition file_at (d : list ent) (p : bpath) : option nat := match entry_at d p with Some e => if e_dir e then None else Some (e_ino e) | None => None end.
(** A new name. *)
Definition free_at (d : list ent) (p : bpath) : bool :=
  match p, entry_at d p, dir_ino d (removelast p) with _ :: _, None, Some _ => true | _, _, _ => false end.
(** [None]: the system call fails.  The attributes and the contents of a file that has a name are also told to the watch of
    its directory; the change of the number of links is told to the file alone. *)
Definition disk_step (k : kern) (o : dop) : option kern :=
  let d := k_disk k in
  match o with
  | DNew p dir =>
    if free_at d p then Some (emit_parent (mkK (d ++ [mkEnt p (k_ino k) dir]) (S (k_ino k)) (k_watch k) (k_wd k) (k_queue k)) p (ECreate (last p []))) else None
  | DMoveIn p =>
    if free_at d p then Some (emit_parent (mkK (d ++ [mkEnt p (k_ino k) false]) (S (k_ino k)) (k_watch k) (k_wd k) (k_queue k)) p (EMovedTo (last p []))) else None
  | DWrite p => match file_at d p with Some i => Some (emit (emit_parent k p EModify) i EModify) | None => None end
  | DChmod p => match file_at d p with Some i => Some (emit (emit_parent k p EAttrib) i EAttrib) | None => None end
  | DUnlink p => match file_at d p with Some i => Some (emit (with_disk k (without d p)) i EAttrib) | None => None end
  | DMoveOut p => match file_at d p with Some i => Some (emit (with_disk k (without d p)) i EMoveSelf) | None => None end
  | DRename p q =>
    match file_at d p with
    | Some i =>
      if path_eqb p q then None
      else if free_at d q then Some (emit (emit_parent (with_disk k (without d p ++ [mkEnt q i false])) q (EMovedTo (last q []))) i EMoveSelf)
      else match file_at d q with
           | Some j => Some (emit (emit (emit_parent (with_disk k (without (without d q) p ++ [mkEnt q i false])) q (EMovedTo (last q []))) j EAttrib) i EMoveSelf)
           | None => None
           end
    | None => None
    end
  | DGone i =>
    if (i =? 0) || existsb (fun e => e_ino e =? i) d then None
    else match watch_of k i with
         | Some w => Some (mkK d (k_ino k) (filter (fun v => negb (h_ino v =? i)) (k_watch k)) (k_wd k) (k_queue k ++ [(h_wd w, EDeleteSelf); (h_wd w, EIgnored)]))
         | None => Some k
         end
  end.

(** ** The master *)
(** A struct fly_mount_parts_file: a number that stands for its address, its name, whether it is a directory, its watch
    descriptor. *)
Record wfile := mkWf { w_id : nat; w_path : bpath; w_dir : bool; w_wd : nat }.
(** The files of the mount point in the order of the list, the descriptor of the mount point's watch, and how often the
    workers have been sent FLY_SIGNAL_CHANGE_MNT_CONTENT. *)
Record master := mkM { m_files : list wfile; m_next : nat; m_rwd : nat; m_told : nat }.
Definition tell (m : master) : master := mkM (m_files m) (m_next m) (m_rwd m) (S (m_told m)).
(** [MStop]: the handler fails, which ends the workers and the master (event.c:973, 1079-1086; master.c:1025-1030, 1563).
    [MElse]: not modelled here. [MBusy]: the bound on the number of events is reached. *)
Inductive mres := MOn (k : kern) (m : master) | MStop | MElse | MBusy.
(** A new struct with its watch: mount.c:956-985 and 334-376. *)
Definition add_file (k : kern) (m : master) (e : ent) (mp : bool) : kern * master :=
  let '(k', wd) := inotify_add k (e_ino e) mp in
  (k', mkM (m_files m ++ [mkWf (m_next m) (e_path e) (e_dir e) wd]) (S (m_next m)) (m_rwd m) (m_told m)).
(** Strictly below a directory. *)
Fixpoint below (p q : bpath) : bool :=
  match p, q with
  | [], _ :: _ => true
  | a :: p', b :: q' => (if list_eq_dec N.eq_dec a b then true else false) && below p' q'
  | _, [] => false
  end.
Definition known (m : master) (p : bpath) : bool := existsb (fun f => path_eqb (w_path f) p) (m_files m).
(** __fly_nftw, mount.c:242-383, with an inotify descriptor: everything below a directory that is not known yet.  The order
    is that of the list; the code meets the contents of a directory before the directory. *)
Fixpoint nftw (k : kern) (m : master) (p : bpath) (es : list ent) : kern * master :=
  match es with
  | [] => (k, m)
  | e :: t => if below p (e_path e) && negb (known m (e_path e)) then let '(k', m') := add_file k m e (e_dir e) in nftw k' m' p t else nftw k m p t
  end.
(** fly_inotify_add_watch, mount.c:939-987; realpath fails if the object is gone. *)
Definition watch_new (k : kern) (m : master) (p : bpath) : mres :=
  match entry_at (k_disk k) p with
  | None => MStop
  | Some e =>
    let '(k1, m1) := if e_dir e then nftw k m p (k_disk k) else (k, m) in
    let '(k2, m2) := add_file k1 m1 e (e_dir e) in MOn k2 m2
  end.
(** fly_parts_file_remove, mount.c:145-153. *)
Definition drop_file (m : master) (f : wfile) : master := mkM (filter (fun g => negb (w_id g =? w_id f)) (m_files m)) (m_next m) (m_rwd m) (m_told m).
Definition telling (r : mres) : mres := match r with MOn k m => MOn k (tell m) | r => r end.
(** __fly_inotify_in_mp, master.c:1033-1093. *)
Definition in_mp (k : kern) (m : master) (x : what) : mres :=
  match x with
  | ECreate n | EMovedTo n => telling (watch_new k m [n])
  | EDeleteSelf | EMoveSelf => MElse
  | _ => MOn k (tell m)
  end.
Definition on_disk (k : kern) (p : bpath) : bool := match entry_at (k_disk k) p with Some _ => true | None => false end.
(** __fly_inotify_in_pf, master.c:1175-1267; fly_inotify_rm_watch (mount.c:1235-1310) for a file: inotify_rm_watch unless the
    file was found deleted. *)
Definition in_pf (k : kern) (m : master) (f : wfile) (x : what) : mres :=
  match x with
  | EDeleteSelf => if w_dir f then MElse else MOn k (tell (drop_file m f))
  | EMoveSelf => if w_dir f then MElse else match inotify_rm k (w_wd f) with None => MStop | Some k' => MOn k' (tell (drop_file m f)) end
  | ECreate n | EMovedTo n => if w_dir f then telling (watch_new k m (w_path f ++ [n])) else MOn k (tell m)
  | EModify => if w_dir f then MOn k (tell m) else if on_disk k (w_path f) then MOn k (tell m) else MStop
  | EAttrib => if w_dir f then MOn k (tell m) else if on_disk k (w_path f) then MOn k (tell m) else MOn k (tell (drop_file m f))
  | EIgnored => MOn k (tell m)
  end.
(** __fly_inotify_handle, master.c:1389-1414, for the oldest event. *)
Definition handle (k : kern) (m : master) : mres :=
  match k_queue k with
  | [] => MOn k m
  | (wd, x) :: q =>
    let k := with_queue k q in
    if wd =? m_rwd m then in_mp k m x
    else match List.find (fun f => w_wd f =? wd) (m_files m) with
         | Some f => in_pf k m f x
         | None => MOn k m
         end
  end.
(** __fly_master_inotify_handler, master.c:1455-1507: until no event is left. *)
Fixpoint handle_all (fuel : nat) (k : kern) (m : master) : mres :=
  match k_queue k with
  | [] => MOn k m
  | _ => match fuel with
         | 0 => MBusy
         | S n => match handle k m with MOn k' m' => handle_all n k' m' | r => r end
         end
  end.
(** fly_mount (no watches yet, mount.c:353) and then fly_mount_inotify, mount.c:640-678: every object but the mount point is
    watched as a file is. *)
Fixpoint watch_all (k : kern) (m : master) (es : list ent) : kern * master :=
  match es with
  | [] => (k, m)
  | e :: t => let '(k', m') := add_file k m e false in watch_all k' m' t
  end.
Definition start (d : list ent) (next : nat) : kern * master :=
  let '(k, wd) := inotify_add (mkK d next [] 1 []) 0 true in watch_all k (mkM [] 0 wd 0) d.
(** The master keeps up: it handles what an operation gives before the next one. *)
Fixpoint live (fuel : nat) (k : kern) (m : master) (os : list dop) : mres :=
  match os with
  | [] => MOn k m
  | o :: t => match disk_step k o with
              | None => live fuel k m t
              | Some k1 => match handle_all fuel k1 m with MOn k2 m2 => live fuel k2 m2 t | r => r end
              end
  end.
