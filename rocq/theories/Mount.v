(** Mounted files: src/mount.c, and the parts of src/worker.c and src/request.c that use them.

    Simplifications: system calls succeed unless said otherwise; path names stay below the buffer sizes (PATH_MAX,
    NAME_MAX; longer ones are skipped by the code); the content hash, the MIME type and the watches of a file are not
    part of this model.  A struct fly_mount_parts_file is its number [f_id] (numbers are never used twice, so that reuse
    of freed memory is not modelled), which also stands for the address of its field rbnode and for the address of its
    node in the index.  Strings are lists of bytes without the terminating NUL and contain no NUL. *)
From Verif Require Import Base CStr Names RbTree.
Local Open Scope N_scope.

(** __fly_mount_search_cmp, mount.c:1344-1373; the length of [c1] is cmpdata. *)
Definition search_cmp (c1 c2 : list N) : comparison :=
  match strncmp (Nat.min (length c2) (length c1)) c1 c2 with
  | Eq => Nat.compare (length c1) (length c2)
  | c => c
  end.

(** ** Paths *)
(** The loop "while (*src++ == *mount_point++)", mount.c:160 and worker.c:200: what is left of [src]. *)
Fixpoint strip_loop (src mp : list N) : outcome (list N) :=
  match src, mp with
  | x :: s, y :: m => if x =? y then strip_loop s m else Ok s
  | _ :: s, [] => Ok s                   (* a byte against the NUL of mount_point *)
  | [], _ => UB OutOfBounds              (* src is behind its NUL *)
  end.
(** __fly_path_cpy_with_mp, mount.c:155-168, and __fly_path_cpy, worker.c:196-206 (into a buffer of NULs). *)
Definition path_cpy (src mp : list N) : outcome (list N) :=
  obind (strip_loop src mp) (fun s => Ok (match s with 47 :: t => t | _ => s end)).
(** snprintf("%s/%s"), mount.c:267. *)
Definition snpath (a b : list N) : list N := a ++ 47 :: b.
(** fly_join_path, mount.c:524-547, where realpath has nothing to do but to collapse two slashes between the parts (no
    symbolic links, no dots). *)
Definition join_path (a b : list N) : list N :=
  match rev a with 47 :: _ => a ++ b | _ => a ++ 47 :: b end.
(** The loops of fly_pf_from_parts_by_fullpath, mount.c:817-822. *)
Fixpoint strip_full (path mp : list N) : outcome (list N) :=
  match path, mp with
  | x :: p, y :: m => if x =? y then match m with [] => Ok p | _ => strip_full p m end else Ok p
  | _ :: p, [] => Ok p
  | [], _ => UB OutOfBounds
  end.
Fixpoint skip_slashes (l : list N) : list N := match l with 47 :: t => skip_slashes t | _ => l end.

(** ** State *)
(** struct fly_mount_parts_file, mount.h:29-53. *)
Record pfile := mkPf { f_id : nat; f_name : list N; f_dir : bool }.
(** struct fly_mount_parts, mount.h:55-77, [p_id] stands for its address. *)
Record mpart := mkPart { p_id : nat; p_path : list N; p_number : nat; p_files : list pfile; p_count : nat }.
(** struct fly_mount, mount.h:81-90. *)
Record mnt := mkMnt { m_parts : list mpart; m_count : nat; m_fcount : nat; m_rb : rbstate (list N) pfile; m_next : nat }.
(** The options mount_max, file_max and index_path. *)
Record mcfg := mkMcfg { c_mount_max : nat; c_file_max : nat; c_index : list N }.
(** fly_mount_init, mount.c:22-44. *)
Definition mount_init : mnt := mkMnt [] 0 0 (rb_init (fun _ => None)) 0.

Definition get_part (s : mnt) (pid : nat) : option mpart := List.find (fun p => (p_id p =? pid)%nat) (m_parts s).
Definition set_part (ps : list mpart) (pid : nat) (g : mpart -> mpart) : list mpart := map (fun p => if (p_id p =? pid)%nat then g p else p) ps.

(** fly_parts_file_add, mount.c:97-103. *)
Definition file_add (s : mnt) (pid : nat) (pf : pfile) : mnt :=
  mkMnt (set_part (m_parts s) pid (fun p => mkPart (p_id p) (p_path p) (p_number p) (p_files p ++ [pf]) (S (p_count p)))) (m_count s) (S (m_fcount s)) (m_rb s) (m_next s).
(** A new struct, its node in the index and its place in the list: mount.c:334-376, 971-980, worker.c:236-312. *)
Definition insert_file (s : mnt) (pid : nat) (name : list N) (dir : bool) : outcome mnt :=
  let pf := mkPf (m_next s) name dir in
  obind (rb_step search_cmp (m_rb s) (OInsert (m_next s) name pf (Some (m_next s)))) (fun rb =>
  Ok (file_add (mkMnt (m_parts s) (m_count s) (m_fcount s) rb (S (m_next s))) pid pf)).
(** fly_parts_file_remove, mount.c:144-153. *)
Definition file_remove (s : mnt) (pid : nat) (id : nat) : outcome mnt :=
  match get_part s pid with
  | None => UB UseAfterFree
  | Some p =>
    if existsb (fun f => (f_id f =? id)%nat) (p_files p) then
      obind (match rb_handles (m_rb s) id with None => Ok (m_rb s) | Some _ => rb_step search_cmp (m_rb s) (ODelete id) end) (fun rb =>
      Ok (mkMnt (set_part (m_parts s) pid (fun p => mkPart (p_id p) (p_path p) (p_number p) (filter (fun f => negb (f_id f =? id)%nat) (p_files p)) (pred (p_count p))))
                (m_count s) (pred (m_fcount s)) rb (m_next s)))
    else UB UseAfterFree
  end.

(** ** Walking the file system *)
Inductive fsnode := FFile | FDir (es : list (list N * fsnode)).
Definition is_dir (n : fsnode) : bool := match n with FDir _ => true | FFile => false end.
(** fly_pf_from_parts_with_path, mount.c:121-141. *)
Definition pf_with_path (s : mnt) (pid : nat) (full : list N) : bool :=
  match get_part s pid with
  | None => false
  | Some p => negb (p_count p =? 0)%nat && existsb (fun f => bytes_eqb (snpath (p_path p) (f_name f)) full) (p_files p)
  end.
(** __fly_nftw, mount.c:237-382, with infd = -1: the boolean is false for the return value -1. *)
Fixpoint nftw (limit : nat) (pid : nat) (mp : list N) (n : fsnode) (s : mnt) (path : list N) {struct n} : outcome (mnt * bool) :=
  match n with
  | FFile => Ok (s, false)                                             (* opendir *)
  | FDir es =>
    if (limit <? m_fcount s)%nat then Ok (s, false)
    else (fix entries (es : list (list N * fsnode)) (s : mnt) : outcome (mnt * bool) :=
      match es with
      | [] => Ok (s, true)
      | (name, child) :: t =>
        let full := snpath path name in
        obind (match child with FDir _ => nftw limit pid mp child s full | FFile => Ok (s, true) end) (fun '(s1, ok) =>
        if ok then
          if pf_with_path s1 pid full then entries t s1
          else obind (path_cpy full mp) (fun rel => obind (insert_file s1 pid rel (is_dir child)) (fun s2 => entries t s2))
        else Ok (s1, false))
      end) es s
  end.
(** fly_mount, mount.c:384-452, for a directory; [MBroken]: -1 is returned, but the freed mount point is still in the list. *)
Inductive mres := MDone (s : mnt) | MLimit | MBroken | MExit.
Definition fly_mount (cfg : mcfg) (s : mnt) (pid : nat) (path : list N) (es : list (list N * fsnode)) : outcome mres :=
  if (c_mount_max cfg =? m_count s)%nat then Ok MLimit
  else
    let s1 := mkMnt (m_parts s ++ [mkPart pid path (m_count s) [] 0]) (S (m_count s)) (m_fcount s) (m_rb s) (m_next s) in
    obind (nftw (c_file_max cfg) pid path (FDir es) s1 path) (fun '(s2, ok) => Ok (if ok then MDone s2 else MBroken)).
(** fly_unmount, mount.c:454-491: the first mount point with this path. *)
Fixpoint remove_path (path : list N) (ps : list mpart) : option (list mpart) :=
  match ps with
  | [] => None
  | p :: t => if bytes_eqb (p_path p) path then Some t else option_map (cons p) (remove_path path t)
  end.
Definition fly_unmount (s : mnt) (path : list N) : mres :=
  if (m_count s =? 0)%nat then MDone s
  else match remove_path path (m_parts s) with
  | None => MDone s
  | Some ps => if (pred (m_count s) =? 0)%nat then MExit else MDone (mkMnt ps (pred (m_count s)) (m_fcount s) (m_rb s) (m_next s))
  end.
(** fly_mount_number, mount.c:493-506; None: an error code. *)
Definition mount_number (s : mnt) (path : list N) : option nat :=
  if (m_count s =? 0)%nat then None else option_map p_number (List.find (fun p => bytes_eqb (p_path p) path) (m_parts s)).
(** fly_mount_files_count, mount.c:1319-1331. *)
Definition files_count (s : mnt) (number : nat) : option nat :=
  option_map p_count (List.find (fun p => (p_number p =? number)%nat) (m_parts s)).

(** ** The worker after a change notification *)
(** fly_pf_from_parts, mount.c:784-802. *)
Definition pf_from_parts (s : mnt) (pid : nat) (path : list N) : outcome (option pfile) :=
  match get_part s pid with
  | None => UB UseAfterFree
  | Some p => if (p_count p =? 0)%nat then Ok None
              else obind (rb_lookup search_cmp (m_rb s) path) (fun r => Ok (option_map (fun q => pl_data (snd q)) r))
  end.
(** fly_pf_from_parts_by_fullpath, mount.c:804-828. *)
Definition pf_by_fullpath (s : mnt) (pid : nat) (full mp : list N) : outcome (option pfile) :=
  match get_part s pid with
  | None => UB UseAfterFree
  | Some p => if (p_count p =? 0)%nat then Ok None
              else obind (strip_full full mp) (fun rest => pf_from_parts s pid (skip_slashes rest))
  end.
(** __fly_work_add_nftw, worker.c:208-320. *)
Fixpoint work_add (pid : nat) (mp : list N) (n : fsnode) (s : mnt) (path : list N) {struct n} : outcome mnt :=
  match n with
  | FFile => Ok s
  | FDir es =>
    (fix entries (es : list (list N * fsnode)) (s : mnt) : outcome mnt :=
      match es with
      | [] => Ok s
      | (name, child) :: t =>
        let full := join_path path name in
        obind (match child with FDir _ => work_add pid mp child s full | FFile => Ok s end) (fun s1 =>
        obind (pf_by_fullpath s1 pid full mp) (fun r =>
        match r with
        | Some _ => entries t s1
        | None => obind (path_cpy full mp) (fun rel => obind (insert_file s1 pid rel (is_dir child)) (fun s2 => entries t s2))
        end))
      end) es s
  end.
(** __fly_work_del_nftw, worker.c:322-358; [present name]: stat finds the file. *)
Fixpoint remove_all (s : mnt) (pid : nat) (present : list N -> bool) (fs : list pfile) : outcome mnt :=
  match fs with
  | [] => Ok s
  | f :: t => if present (f_name f) then remove_all s pid present t else obind (file_remove s pid (f_id f)) (fun s' => remove_all s' pid present t)
  end.
Definition work_del (s : mnt) (pid : nat) (present : list N -> bool) : outcome mnt :=
  match get_part s pid with None => UB UseAfterFree | Some p => remove_all s pid present (p_files p) end.
(** __fly_work_unmount, worker.c:360-378, and fly_inotify_rmmp, mount.c:1172-1233, for a mount point without directories. *)
Definition work_unmount (s : mnt) (pid : nat) : outcome mres :=
  match get_part s pid with
  | None => UB UseAfterFree
  | Some p => obind (remove_all s pid (fun _ => false) (p_files p)) (fun s' => Ok (fly_unmount s' (p_path p)))
  end.
(** What stat finds below a directory: the relative path names, in the order of a walk that lists a directory after its
    entries. *)
Fixpoint names_below (prefix : list N) (n : fsnode) {struct n} : list (list N * bool) :=
  match n with
  | FFile => []
  | FDir es => (fix go (es : list (list N * fsnode)) : list (list N * bool) :=
      match es with
      | [] => []
      | (name, child) :: t => names_below (prefix ++ name ++ [47]) child ++ (prefix ++ name, is_dir child) :: go t
      end) es
  end.
Definition present_in (es : list (list N * fsnode)) (name : list N) : bool := existsb (fun x => bytes_eqb (fst x) name) (names_below [] (FDir es)).
(** fly_worker_signal_change_mnt_content, worker.c:1009-1066, for mount points [pids] in the order of the list; [fs pid]
    is None if the mount point has disappeared: the loop then continues from the freed struct. *)
Fixpoint work_sync (fs : nat -> option (list (list N * fsnode))) (pids : list nat) (s : mnt) : outcome mres :=
  match pids with
  | [] => Ok (MDone s)
  | pid :: t =>
    match get_part s pid with
    | None => UB UseAfterFree
    | Some p =>
      match fs pid with
      | None => obind (work_unmount s pid) (fun r => match r with MDone _ => UB UseAfterFree | r => Ok r end)
      | Some es =>
        obind (work_add pid (p_path p) (FDir es) s (p_path p)) (fun s1 =>
        obind (work_del s1 pid (present_in es)) (fun s2 => work_sync fs t s2))
      end
    end
  end.

(** ** Looking files up *)
(** fly_found_content_from_path, mount.c:583-642; [mem]: the bytes from uri->ptr up to a NUL, the first [len] of them are
    the path; the byte behind the path is not a slash, so that len does not wrap. *)
Fixpoint skip_lead (mem : list N) (len : nat) : list N * nat :=
  match mem with 47 :: t => skip_lead t (pred len) | _ => (mem, len) end.
Definition found_content (cfg : mcfg) (s : mnt) (mem : list N) (len : nat) : outcome (option pfile) :=
  if (m_fcount s =? 0)%nat then Ok None
  else
    let '(fn, n) := skip_lead mem len in
    let '(fn, n) := if (n =? 0)%nat then (c_index cfg, length (c_index cfg)) else (fn, n) in
    obind (rb_lookup search_cmp (m_rb s) (firstn n fn)) (fun r =>
    match r with
    | None => Ok None
    | Some (_, q) =>
      if f_dir (pl_data q) then
        obind (rb_lookup search_cmp (m_rb s) (snpath fn (c_index cfg))) (fun r2 =>
        match r2 with None => Ok None | Some _ => Ok (Some (pl_data q)) end)
      else Ok (Some (pl_data q))
    end).
(** request.c:1499-1519, when no route was found. *)
Inductive sres := SFile (f : pfile) | S404 | S405.
Definition static_content (cfg : mcfg) (s : mnt) (m : method) (mem : list N) (len : nat) : outcome sres :=
  obind (found_content cfg s mem len) (fun r =>
  Ok match r with
     | Some f => if method_eqb m GET then if f_dir f then S404 else SFile f else S405
     | None => S404
     end).

(** ** A watched directory disappears *)
Fixpoint find_next (id : nat) (fs : list pfile) : option (pfile * option nat) :=
  match fs with
  | [] => None
  | f :: t => if (f_id f =? id)%nat then Some (f, match t with [] => None | g :: _ => Some (f_id g) end) else find_next id t
  end.
(** fly_inotify_rm_watch, mount.c:1235-1317.  The loop in lines 1261-1262 never ends if the name of the directory has a
    slash, since strchr finds the same slash again.  [fuel] bounds the depth of the recursion, the inner loop follows
    the saved pointers to the next element. *)
Fixpoint rm_watch (fuel : nat) (s : mnt) (pid : nat) (pf : pfile) {struct fuel} : outcome mnt :=
  match fuel with
  | O => UB Diverges
  | S fuel' =>
    match get_part s pid with
    | None => UB UseAfterFree
    | Some p =>
      if (p_count p =? 0)%nat then Ok s
      else
        obind
          (if f_dir pf then
             if existsb (N.eqb 47) (f_name pf) then UB Diverges
             else (fix loop (n : nat) (s : mnt) (cur : option nat) {struct n} : outcome mnt :=
               match cur with
               | None => Ok s
               | Some id =>
                 match n with
                 | O => UB Diverges
                 | S n' =>
                   match get_part s pid with
                   | None => UB UseAfterFree
                   | Some p =>
                     match find_next id (p_files p) with
                     | None => UB UseAfterFree
                     | Some (f, next) =>
                       if negb (length (f_name pf) =? length (f_name f))%nat && strncmp_eqb (length (f_name pf)) (f_name f) (f_name pf) then
                         obind (rm_watch fuel' s pid f) (fun s' => loop n' s' next)
                       else loop n' s next
                     end
                   end
                 end
               end) (S (length (p_files p))) s (match p_files p with [] => None | f :: _ => Some (f_id f) end)
           else Ok s)
          (fun s' => file_remove s' pid (f_id pf))
    end
  end.
