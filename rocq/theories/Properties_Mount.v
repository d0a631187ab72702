(** Mounted files: theorems.  A history is a list of [mop]; [srun [] os] is what is registered after it. *)
From Verif Require Import Base CStr Names RbTree RbTreeProofs Mount MountProofs.
Local Open Scope N_scope.

(** ** C28 *)
(** The comparison of file names is the dictionary order of their bytes, a total order that is equal only on identical names. *)
Theorem file_order_lexicographic : forall a b, search_cmp a b = lex a b.
Proof. exact search_lex. Qed.
Print Assumptions file_order_lexicographic.
Theorem file_order_total : (forall a, search_cmp a a = Eq) /\ (forall a b, search_cmp a b = Eq -> a = b) /\
  (forall a b, search_cmp a b = Lt <-> search_cmp b a = Gt) /\ (forall a b c, search_cmp a b = Lt -> search_cmp b c = Lt -> search_cmp a c = Lt).
Proof.
  destruct search_order as (T1 & T2 & T3). split; [intros a; apply T1; reflexivity|]. split; [intros a b H; apply T1; exact H|]. split; [|exact T3].
  intros a b. rewrite (T2 a b). destruct (search_cmp a b); cbn [CompOpp]; split; congruence.
Qed.
Print Assumptions file_order_total.
Example file_order_nonvacuous : search_cmp (bs "a") (bs "a/b") = Lt /\ search_cmp (bs "b") (bs "a.txt") = Gt.
Proof. split; reflexivity. Qed.

(** ** C27 *)
(** After every history a request path p (any number of leading slashes before it, any bytes behind it) is answered with
    the registered file of exactly that name, the index file for the empty path, and with nothing if there is none; a
    method other than GET is answered 405.  Missing: the same relative name below two mount points (refuted below). *)
Theorem static_lookup_partial : forall cfg os, mlegal_all cfg [] os ->
  exists s, mrun cfg mount_init os = Ok (Some s) /\
  forall m k p rest, no_lead p -> (p = [] -> no_lead rest) ->
  exists r, static_content cfg s m (repeat 47 k ++ p ++ rest) (k + length p) = Ok r /\
    match r with
    | SFile f => m = GET /\ f_name f = wanted cfg p /\ registered (srun [] os) (wanted cfg p) false
    | S405 => m <> GET /\ (registered (srun [] os) (wanted cfg p) false \/ registered (srun [] os) (wanted cfg p) true)
    | S404 => ~ registered (srun [] os) (wanted cfg p) false
    end.
Proof.
  intros cfg os L. destruct (mrun_ok cfg os mount_init init_MInv L) as (s & E & M & V). exists s. split; [exact E|]. intros m k p rest NP NR.
  change (view mount_init) with (@nil smount) in V. rewrite <- V. apply static_spec; assumption.
Qed.
Print Assumptions static_lookup_partial.
Definition ex_cfg := mkMcfg 4 100 (bs "index.html").
Definition ex_tree : list (list N * fsnode) := [(bs "index.html", FFile); (bs "css", FDir [(bs "a.css", FFile); (bs "index.html", FFile)])].
Definition ex_history : list mop :=
  [OMount 0 (bs "/srv/www") ex_tree; OAdd 0 (bs "new.txt") false; OMount 1 (bs "/srv/img") [(bs "x.png", FFile)];
   ORemove 0 (bs "css/a.css"); OSync [(0%nat, (bs "late.js", FFile) :: ex_tree); (1%nat, [])]].
Example static_lookup_nonvacuous : mlegal_all ex_cfg [] ex_history /\
  map fst (flat_map q_files (srun [] ex_history)) = [bs "index.html"; bs "css/index.html"; bs "css"; bs "late.js"; bs "css/a.css"] /\
  exists s f, mrun ex_cfg mount_init ex_history = Ok (Some s) /\ static_content ex_cfg s GET (bs "/css/index.html HTTP/1.1") 15 = Ok (SFile f) /\ f_name f = bs "css/index.html".
Proof.
  split; [apply mlegal_allb_ok; vm_compute; reflexivity|]. split; [vm_compute; reflexivity|].
  eexists. eexists. split; [vm_compute; reflexivity|]. split; [vm_compute; reflexivity|]. reflexivity.
Qed.
(** The same name below two mount points: after the second file has been removed the first is still registered, but is no
    longer found. *)
Theorem static_lookup_refuted : exists cfg os s p, mrun cfg mount_init os = Ok (Some s) /\
  registered (view s) p false /\ static_content cfg s GET (47 :: p) (S (length p)) = Ok S404.
Proof.
  exists ex_cfg, [OMount 0 (bs "/a") [(bs "x", FFile); (bs "y", FFile)]; OMount 1 (bs "/b") [(bs "x", FFile)]; ORemove 1 (bs "x")]. eexists. exists (bs "x").
  split; [vm_compute; reflexivity|]. split; [vm_compute; tauto|]. vm_compute. reflexivity.
Qed.
Print Assumptions static_lookup_refuted.

(** ** C29 *)
(** The claim is false: a request for a directory is never answered with a file, whatever the directory contains. *)
Theorem directory_never_served : forall cfg os, mlegal_all cfg [] os ->
  exists s, mrun cfg mount_init os = Ok (Some s) /\
  forall k p rest, no_lead p -> (p = [] -> no_lead rest) -> registered (srun [] os) (wanted cfg p) true ->
  static_content cfg s GET (repeat 47 k ++ p ++ rest) (k + length p) = Ok S404.
Proof.
  intros cfg os L. destruct (mrun_ok cfg os mount_init init_MInv L) as (s & E & M & V). exists s. split; [exact E|]. intros k p rest NP NR R.
  change (view mount_init) with (@nil smount) in V. rewrite <- V in R. destruct (static_spec cfg s GET k p rest M NP NR) as (r & Er & H).
  destruct r as [f| |]; [|exact Er|destruct H as (H & _); contradiction]. destruct H as (_ & _ & H). pose proof (registered_unique _ _ _ _ M H R). discriminate.
Qed.
Print Assumptions directory_never_served.
Theorem directory_index_refuted : exists cfg os s d, mrun cfg mount_init os = Ok (Some s) /\ registered (view s) d true /\
  registered (view s) (d ++ 47 :: c_index cfg) false /\ static_content cfg s GET (47 :: d) (S (length d)) = Ok S404.
Proof.
  exists ex_cfg, [OMount 0 (bs "/srv/www") ex_tree]. eexists. exists (bs "css"). split; [vm_compute; reflexivity|]. split; [vm_compute; tauto|]. split; [vm_compute; tauto|]. vm_compute. reflexivity.
Qed.
Print Assumptions directory_index_refuted.
Example directory_never_served_nonvacuous : mlegal_all ex_cfg [] ex_history /\ registered (srun [] ex_history) (bs "css") true /\ no_lead (bs "css").
Proof. split; [apply mlegal_allb_ok; vm_compute; reflexivity|]. split; [vm_compute; tauto|exact Logic.I]. Qed.

(** ** C30 *)
(** After every history the total and the number reported for each mount number are the numbers of registered files. *)
Theorem file_counts_partial : forall cfg os, mlegal_all cfg [] os ->
  exists s, mrun cfg mount_init os = Ok (Some s) /\
    m_fcount s = length (flat_map q_files (srun [] os)) /\ m_count s = length (srun [] os) /\
    (forall n, files_count s n = option_map (fun q => length (q_files q)) (List.find (fun q => (q_num q =? n)%nat) (srun [] os))).
Proof.
  intros cfg os L. destruct (mrun_ok cfg os mount_init init_MInv L) as (s & E & M & V). exists s. split; [exact E|].
  change (view mount_init) with (@nil smount) in V. rewrite <- V. split; [|split].
  - rewrite (fcount_names _ M). unfold names. apply map_length.
  - destruct M as (_ & _ & _ & _ & _ & _ & MC). rewrite MC. unfold view. symmetry. apply map_length.
  - intros n. apply count_spec. exact M.
Qed.
Print Assumptions file_counts_partial.
Example file_counts_nonvacuous : mlegal_all ex_cfg [] ex_history /\
  exists s, mrun ex_cfg mount_init ex_history = Ok (Some s) /\ m_fcount s = 5%nat /\ files_count s 0 = Some 5%nat /\ files_count s 1 = Some 0%nat /\ files_count s 2 = None.
Proof. split; [apply mlegal_allb_ok; vm_compute; reflexivity|]. eexists. split; [vm_compute; reflexivity|]. repeat split. Qed.
(** The maximum is only looked at when a directory is entered. *)
Theorem file_maximum_refuted : exists cfg os s, mrun cfg mount_init os = Ok (Some s) /\ (c_file_max cfg < m_fcount s)%nat.
Proof.
  exists (mkMcfg 4 1 (bs "i")), [OMount 0 (bs "/a") [(bs "x", FFile); (bs "y", FFile); (bs "z", FFile)]]. eexists. split; [vm_compute; reflexivity|]. cbn [c_file_max m_fcount]. lia.
Qed.
Print Assumptions file_maximum_refuted.
(** fly_unmount leaves the files of the mount point in the total and in the index. *)
Theorem unmount_count_refuted : exists cfg os s path s', mrun cfg mount_init os = Ok (Some s) /\ fly_unmount s path = MDone s' /\
  (length (all_files s') < m_fcount s')%nat.
Proof.
  exists ex_cfg, [OMount 0 (bs "/a") [(bs "x", FFile)]; OMount 1 (bs "/b") [(bs "y", FFile)]]. eexists. exists (bs "/a"). eexists.
  split; [vm_compute; reflexivity|]. split; [vm_compute; reflexivity|]. vm_compute. lia.
Qed.
Print Assumptions unmount_count_refuted.

(** ** C31 *)
(** When a directory d (directly below the mount point) disappears, the entries whose name begins with the name d are
    dropped and nothing else; if every such name continues with a slash, these are exactly the files below d.  Missing:
    directories below the mount point's subdirectories (the first theorem of the two after it) and directories below d. *)
Theorem removed_directory_partial : forall cfg os, mlegal_all cfg [] os ->
  exists s, mrun cfg mount_init os = Ok (Some s) /\
  forall fuel pid p pf, get_part s pid = Some p -> In pf (p_files p) -> f_dir pf = true -> ~ In 47 (f_name pf) ->
    (forall f, In f (p_files p) -> is_prefix (f_name pf) (f_name f) = true -> f = pf \/ f_dir f = false) ->
  exists s', rm_watch (S (S fuel)) s pid pf = Ok s' /\
    view s' = on_mount pid (filter (fun e => negb (is_prefix (f_name pf) (fst e)))) (srun [] os).
Proof.
  intros cfg os L. destruct (mrun_ok cfg os mount_init init_MInv L) as (s & E & M & V). exists s. split; [exact E|]. change (view mount_init) with (@nil smount) in V. rewrite <- V.
  intros fuel pid p pf G If Dr NS FL. destruct (rm_dir_ok fuel s pid p pf M G If NS) as (s' & E' & _ & _ & V'); [|exact Dr|exists s'; auto].
  intros f Hf SB. unfold strictly_below in SB. apply andb_prop in SB as (SL & SP). destruct (FL f Hf SP) as [->|D]; [rewrite Nat.eqb_refl in SL; discriminate|exact D].
Qed.
Print Assumptions removed_directory_partial.
Definition ex_rm : list mop := [OMount 0 (bs "/srv") [(bs "doc", FDir [(bs "a", FFile); (bs "b", FFile)]); (bs "index.html", FFile)]].
Example removed_directory_nonvacuous : mlegal_all ex_cfg [] ex_rm /\
  exists s p, mrun ex_cfg mount_init ex_rm = Ok (Some s) /\ get_part s 0 = Some p /\ In (mkPf 2 (bs "doc") true) (p_files p) /\
    (forall f, In f (p_files p) -> is_prefix (bs "doc") (f_name f) = true -> f = mkPf 2 (bs "doc") true \/ f_dir f = false) /\
    on_mount 0 (filter (fun e => negb (is_prefix (bs "doc") (fst e)))) (srun [] ex_rm) = [mkSm 0 (bs "/srv") 0 [(bs "index.html", false)]].
Proof.
  split; [apply mlegal_allb_ok; vm_compute; reflexivity|]. eexists. eexists. split; [vm_compute; reflexivity|]. split; [vm_compute; reflexivity|].
  split; [cbn [p_files]; right; right; left; reflexivity|]. split; [|vm_compute; reflexivity].
  intros f [<-|[<-|[<-|[<-|[]]]]] _; cbn [f_dir]; auto.
Qed.
(** The removal of a directory whose name contains a slash never ends. *)
Theorem removed_subdirectory_diverges : forall fuel s pid p pf, get_part s pid = Some p -> p_count p <> 0%nat -> f_dir pf = true -> In 47 (f_name pf) ->
  rm_watch fuel s pid pf = UB Diverges.
Proof.
  intros [|fuel] s pid p pf G C D I; [reflexivity|]. rewrite rm_watch_eq, G, D. destruct (Nat.eqb_spec (p_count p) 0) as [X|_]; [contradiction|].
  assert (X : existsb (N.eqb 47) (f_name pf) = true) by (apply existsb_exists; exists 47; auto). rewrite X. reflexivity.
Qed.
Print Assumptions removed_subdirectory_diverges.
Theorem removed_directory_refuted : exists cfg os s p pf f s', mrun cfg mount_init os = Ok (Some s) /\ get_part s 0 = Some p /\ In pf (p_files p) /\ f_dir pf = true /\
  In f (p_files p) /\ f_name f = f_name pf ++ bs ".txt" /\ rm_watch 5 s 0 pf = Ok s' /\ ~ registered (view s') (f_name f) false.
Proof.
  exists ex_cfg, [OMount 0 (bs "/srv") [(bs "doc", FDir [(bs "a", FFile)]); (bs "doc.txt", FFile)]]. eexists. eexists. exists (mkPf 1 (bs "doc") true), (mkPf 2 (bs "doc.txt") false). eexists.
  split; [vm_compute; reflexivity|]. split; [vm_compute; reflexivity|]. split; [cbn [p_files]; right; left; reflexivity|]. split; [reflexivity|].
  split; [cbn [p_files]; right; right; left; reflexivity|]. split; [reflexivity|]. split; [vm_compute; reflexivity|]. vm_compute. tauto.
Qed.
Print Assumptions removed_directory_refuted.
Theorem removed_subdirectory_refuted : exists cfg os s p pf, mrun cfg mount_init os = Ok (Some s) /\ get_part s 0 = Some p /\ In pf (p_files p) /\ f_dir pf = true /\
  forall fuel, rm_watch fuel s 0 pf = UB Diverges.
Proof.
  exists ex_cfg, [OMount 0 (bs "/srv") [(bs "a", FDir [(bs "b", FDir [])])]]. eexists. eexists. exists (mkPf 0 (bs "a/b") true).
  split; [vm_compute; reflexivity|]. split; [vm_compute; reflexivity|]. split; [left; reflexivity|]. split; [reflexivity|].
  intros fuel. eapply removed_subdirectory_diverges; [vm_compute; reflexivity|discriminate|reflexivity|vm_compute; tauto].
Qed.
Print Assumptions removed_subdirectory_refuted.

(** ** C32 *)
(** As long as no mount point disappears, the i-th mount point has number i, and it is found by its path. *)
Theorem mount_numbers_partial : forall cfg os, mlegal_all cfg [] os -> Forall stays os ->
  map q_num (srun [] os) = seq 0 (length (srun [] os)) /\
  exists s, mrun cfg mount_init os = Ok (Some s) /\ view s = srun [] os /\
  forall path, mount_number s path = option_map q_num (List.find (fun q => bytes_eqb (q_path q) path) (srun [] os)).
Proof.
  intros cfg os L F. split; [apply numbers_seq; [exact F|reflexivity]|]. destruct (mrun_ok cfg os mount_init init_MInv L) as (s & E & M & V). exists s. split; [exact E|].
  change (view mount_init) with (@nil smount) in V. split; [exact V|]. intros path. rewrite <- V. apply number_spec. exact M.
Qed.
Print Assumptions mount_numbers_partial.
Example mount_numbers_nonvacuous : mlegal_all ex_cfg [] ex_history /\ Forall stays ex_history /\ map q_num (srun [] ex_history) = [0; 1]%nat.
Proof. split; [apply mlegal_allb_ok; vm_compute; reflexivity|]. split; [repeat constructor|vm_compute; reflexivity]. Qed.
Theorem mount_numbers_refuted : exists cfg os s p q, mlegal_all cfg [] os /\ mrun cfg mount_init os = Ok (Some s) /\
  get_part s 1 = Some p /\ get_part s 2 = Some q /\ p_path p <> p_path q /\ p_number p = p_number q.
Proof.
  exists ex_cfg, [OMount 0 (bs "/a") [(bs "x", FFile)]; OMount 1 (bs "/b") [(bs "y", FFile)]; OGone 0; OMount 2 (bs "/c") [(bs "z", FFile)]]. eexists. eexists. eexists.
  split; [apply mlegal_allb_ok; vm_compute; reflexivity|]. split; [vm_compute; reflexivity|]. split; [vm_compute; reflexivity|]. split; [vm_compute; reflexivity|].
  split; [discriminate|reflexivity].
Qed.
Print Assumptions mount_numbers_refuted.

(** ** C33 *)
(** Joining and stripping a mount point: the master's way for all mount points, with or without trailing slash, the
    worker's way for mount points without. *)
Theorem relative_path_partial : forall mp rel, no_lead rel -> path_cpy (snpath mp rel) mp = Ok rel /\
  (no_trail mp -> path_cpy (join_path mp rel) mp = Ok rel /\ exists r, strip_full (join_path mp rel) mp = Ok r /\ skip_slashes r = rel).
Proof.
  intros mp rel NL. split; [apply path_cpy_join; exact NL|]. intros NT. rewrite join_path_no by exact NT. split; [apply path_cpy_join; exact NL|apply strip_full_join; exact NL].
Qed.
Print Assumptions relative_path_partial.
Example relative_path_nonvacuous : no_lead (bs "css/a.css") /\ no_trail (bs "/srv/www") /\ snpath (bs "/srv/www") (bs "css/a.css") = bs "/srv/www/css/a.css".
Proof. repeat split. Qed.
(** The worker drops the first byte of a name below a mount point that ends with a slash. *)
Theorem worker_slash_drops_byte : forall mp c rel, c <> 47 -> no_lead rel -> path_cpy (join_path (mp ++ [47]) (c :: rel)) (mp ++ [47]) = Ok rel.
Proof.
  intros mp c rel NC NL. unfold join_path. rewrite rev_app_distr. cbn [rev app]. unfold path_cpy. rewrite strip_loop_app. cbn [obind]. destruct rel as [|d r]; [reflexivity|]. f_equal.
  unfold no_lead in NL. destruct d as [|d]; [reflexivity|]. do 6 (destruct d as [d|d|]; try reflexivity). contradiction.
Qed.
Print Assumptions worker_slash_drops_byte.
Theorem relative_path_refuted : exists mp rel, no_lead rel /\ path_cpy (join_path mp rel) mp <> Ok rel.
Proof. exists (bs "/"), (bs "etc"). split; [exact Logic.I|]. vm_compute. discriminate. Qed.
Print Assumptions relative_path_refuted.

(** ** C86 *)
(** After a change notification the names registered for each mount point are exactly the names found below it, as long as
    no relative name exists below two mount points. *)
Theorem notification_partial : forall cfg os l, mlegal_all cfg [] (os ++ [OSync l]) ->
  exists s, mrun cfg mount_init (os ++ [OSync l]) = Ok (Some s) /\
  (forall pid es q, In (pid, es) l -> In q (view s) -> q_id q = pid ->
     forall x, In x (map fst (q_files q)) <-> In x (map fst (names_below [] (FDir es)))) /\
  (forall q, ~ In (q_id q) (map fst l) -> (In q (view s) <-> In q (srun [] os))) /\
  map q_id (view s) = map q_id (srun [] os).
Proof.
  intros cfg os l L. destruct (mrun_ok cfg _ mount_init init_MInv L) as (s & E & M & V). change (view mount_init) with (@nil smount) in V. exists s. split; [exact E|].
  assert (ND : NoDup (map fst l)).
  { clear - L. revert L. generalize (@nil smount) as sp. induction os as [|o os IH]; intros sp L; [destruct L as ((ND & _) & _); exact ND|]. destruct L as (_ & L). exact (IH _ L). }
  unfold srun in V. rewrite fold_left_app in V. cbn [fold_left sstep] in V. fold (srun [] os) in V. rewrite V. split; [|split].
  - intros pid es q I Q Eq. eapply sync_result; eassumption.
  - intros q NI. exact (sync_other l (srun [] os) (q_id q) q NI eq_refl).
  - generalize (srun [] os) as sp. clear. induction l as [|x l IH]; intros sp; [reflexivity|]. cbn [fold_left]. rewrite IH. unfold sync1. apply on_ids.
Qed.
Print Assumptions notification_partial.
Example notification_nonvacuous : mlegal_all ex_cfg [] ([OMount 0 (bs "/srv/www") ex_tree] ++ [OSync [(0%nat, [(bs "index.html", FFile); (bs "n", FDir [(bs "a", FFile)])])]]) /\
  map q_files (srun [] ([OMount 0 (bs "/srv/www") ex_tree] ++ [OSync [(0%nat, [(bs "index.html", FFile); (bs "n", FDir [(bs "a", FFile)])])]])) =
  [[(bs "index.html", false); (bs "n/a", false); (bs "n", true)]].
Proof. split; [apply mlegal_allb_ok; vm_compute; reflexivity|vm_compute; reflexivity]. Qed.
(** A file that has moved from the second mount point to the first is lost. *)
Theorem notification_moved_refuted : exists cfg os s, mrun cfg mount_init os = Ok (Some s) /\
  os = [OMount 0 (bs "/a") [(bs "k", FFile)]; OMount 1 (bs "/b") [(bs "x", FFile)]; OSync [(0%nat, [(bs "k", FFile); (bs "x", FFile)]); (1%nat, [])]] /\
  ~ registered (view s) (bs "x") false.
Proof. exists ex_cfg. eexists. eexists. split; [|split; [reflexivity|]]; vm_compute; [reflexivity|]. intros [H|[]]. discriminate. Qed.
Print Assumptions notification_moved_refuted.
(** When one of several mount points has disappeared, the loop over the mount points continues from freed memory. *)
Theorem notification_gone_refuted : exists cfg os s, mlegal_all cfg [] os /\ mrun cfg mount_init os = Ok (Some s) /\
  work_sync (fun pid => if (pid =? 0)%nat then None else Some [(bs "x", FFile)]) [0; 1]%nat s = UB UseAfterFree.
Proof.
  exists ex_cfg, [OMount 0 (bs "/a") [(bs "k", FFile)]; OMount 1 (bs "/b") [(bs "x", FFile)]]. eexists. split; [apply mlegal_allb_ok; vm_compute; reflexivity|]. split; [vm_compute; reflexivity|]. vm_compute. reflexivity.
Qed.
Print Assumptions notification_gone_refuted.
