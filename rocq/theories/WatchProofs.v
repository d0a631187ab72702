(** Proofs about the master's watch: an invariant that links the list of files, the watches and the file system. *)
From Coq Require Import Lia Bool.
From Verif Require Import Base Watch.
Local Open Scope nat_scope.

(** ** Specification *)
(** A tree below the mount point: distinct paths and inodes, every object in a directory. *)
Definition is_dir (d : list ent) (p : bpath) : Prop := exists e, In e d /\ e_path e = p /\ e_dir e = true.
Record tree (d : list ent) (next : nat) : Prop := mkTree {
  t_paths : NoDup (map e_path d);
  t_inos : NoDup (map e_ino d);
  t_range : forall e, In e d -> 0 < e_ino e < next;
  t_named : forall e, In e d -> e_path e <> [];
  t_parent : forall e, In e d -> removelast (e_path e) = [] \/ is_dir d (removelast (e_path e));
  t_next : 0 < next }.
(** No new name in a directory that was there when the server started, and no renaming. *)
Definition gentle (d0 : list ent) (o : dop) : Prop :=
  match o with
  | DNew p _ | DMoveIn p => ~ is_dir d0 (removelast p)
  | DRename _ _ => False
  | _ => True
  end.
(** The drop of the last reference to a file without a name is no change below the mount point. *)
Definition changes (o : dop) : Prop := match o with DGone _ => False | _ => True end.
(** The master knows the paths that there are, each once. *)
Definition mirrors (m : master) (d : list ent) : Prop :=
  NoDup (map w_path (m_files m)) /\
  forall p dir, In (p, dir) (map (fun f => (w_path f, w_dir f)) (m_files m)) <-> In (p, dir) (map (fun e => (e_path e, e_dir e)) d).

(** ** Lists *)
Lemma path_eqb_eq p q : path_eqb p q = true <-> p = q.
Proof. unfold path_eqb. destruct (path_dec p q); intuition congruence. Qed.
Lemma path_eqb_refl p : path_eqb p p = true.
Proof. apply path_eqb_eq. reflexivity. Qed.
Lemma path_eqb_neq p q : path_eqb p q = false <-> p <> q.
Proof. unfold path_eqb. destruct (path_dec p q); intuition congruence. Qed.
Lemma nodup_inj {A B} (f : A -> B) (l : list A) x y : NoDup (map f l) -> In x l -> In y l -> f x = f y -> x = y.
Proof.
  induction l as [|a l IH]; cbn; [easy|]. intros H X Y E. inversion H; subst.
  destruct X as [->|X], Y as [->|Y]; auto.
  - exfalso. apply H2. rewrite E. now apply in_map.
  - exfalso. apply H2. rewrite <- E. now apply in_map.
Qed.
Lemma nodup_app {A B} (f : A -> B) (l : list A) x : NoDup (map f l) -> ~ In (f x) (map f l) -> NoDup (map f (l ++ [x])).
Proof.
  intros H N. rewrite map_app. cbn. induction l as [|a l IH]; cbn.
  - constructor; [easy|constructor].
  - inversion H; subst. constructor.
    + rewrite in_app_iff. cbn. intros [X|[X|[]]]; [easy|]. apply N. cbn. left. now symmetry.
    + apply IH; auto. intros X. apply N. now right.
Qed.
Lemma nodup_filter {A B} (f : A -> B) (g : A -> bool) (l : list A) : NoDup (map f l) -> NoDup (map f (filter g l)).
Proof.
  induction l as [|a l IH]; cbn; intros H; [constructor|]. inversion H; subst.
  destruct (g a); cbn; auto. constructor; auto. intros X. apply H2.
  apply in_map_iff in X. destruct X as (y & E & Y). apply filter_In in Y. rewrite <- E. now apply in_map.
Qed.
Lemma find_unique {A B} (f : A -> B) (t : A -> bool) (l : list A) x :
  NoDup (map f l) -> In x l -> t x = true -> (forall y, In y l -> t y = true -> f y = f x) -> List.find t l = Some x.
Proof.
  intros H X T U. destruct (List.find t l) as [y|] eqn:E.
  - apply find_some in E. destruct E as (Y & TY). f_equal. eapply nodup_inj; eauto.
  - exfalso. eapply find_none in E; eauto. congruence.
Qed.
Lemma find_absent {A} (t : A -> bool) (l : list A) : (forall y, In y l -> t y = false) -> List.find t l = None.
Proof. induction l as [|a l IH]; cbn; intros H; [easy|]. rewrite (H a (or_introl eq_refl)). apply IH. auto. Qed.

Lemma entry_in d p e : entry_at d p = Some e -> In e d /\ e_path e = p.
Proof. unfold entry_at. intros E. apply find_some in E. destruct E as (X & Y). apply path_eqb_eq in Y. auto. Qed.
Lemma entry_of d e : NoDup (map e_path d) -> In e d -> entry_at d (e_path e) = Some e.
Proof. intros H X. unfold entry_at. eapply (find_unique e_path); eauto; [apply path_eqb_refl|]. intros y _ Y. now apply path_eqb_eq. Qed.
Lemma entry_none d p : entry_at d p = None -> ~ In p (map e_path d).
Proof.
  unfold entry_at. intros E X. apply in_map_iff in X. destruct X as (e & P & X). eapply find_none in E; eauto.
  cbv beta in E. rewrite path_eqb_neq in E. now apply E.
Qed.
Lemma entry_absent d p : ~ In p (map e_path d) -> entry_at d p = None.
Proof.
  intros H. unfold entry_at. apply find_absent. intros y Y. apply path_eqb_neq. intros E. apply H. rewrite <- E. now apply in_map.
Qed.
Lemma file_in d p i : file_at d p = Some i -> In (mkEnt p i false) d.
Proof.
  unfold file_at. destruct (entry_at d p) as [e|] eqn:E; [|discriminate]. apply entry_in in E. destruct E as (X & P).
  destruct e as [p' i' []]; cbn in *; [discriminate|]. intros Y. injection Y as <-. now subst.
Qed.
Lemma watch_at k w : NoDup (map h_ino (k_watch k)) -> In w (k_watch k) -> watch_of k (h_ino w) = Some w.
Proof.
  intros H X. unfold watch_of. eapply (find_unique h_ino); eauto; [apply Nat.eqb_refl|]. intros y _ Y. now apply Nat.eqb_eq.
Qed.

(** ** The invariant *)
(** Which watch an object has: a directory that was there at the start is watched as a file is. *)
Definition started (d0 : list ent) (p : bpath) : bool := existsb (fun e => e_dir e && path_eqb (e_path e) p) d0.
Lemma started_ok d0 p : started d0 p = true <-> is_dir d0 p.
Proof.
  unfold started, is_dir. rewrite existsb_exists. split; intros (e & X & Y); exists e.
  - apply andb_true_iff in Y. destruct Y as (Y & Z). apply path_eqb_eq in Z. auto.
  - destruct Y as (Y & Z). rewrite Z, Y, path_eqb_refl. auto.
Qed.
Definition mask (d0 : list ent) (e : ent) : bool := e_dir e && negb (started d0 (e_path e)).
Record inv (d0 : list ent) (k : kern) (m : master) : Prop := mkInv {
  v_tree : tree (k_disk k) (k_ino k);
  v_winos : NoDup (map h_ino (k_watch k));
  v_wwds : NoDup (map h_wd (k_watch k));
  v_wrange : forall w, In w (k_watch k) -> h_wd w < k_wd k /\ h_ino w < k_ino k;
  v_root : In (mkWatch 0 (m_rwd m) true) (k_watch k);
  v_ids : NoDup (map w_id (m_files m));
  v_idr : forall f, In f (m_files m) -> w_id f < m_next m;
  v_paths : NoDup (map w_path (m_files m));
  v_files : forall f, In f (m_files m) -> exists e, In e (k_disk k) /\ w_path f = e_path e /\ w_dir f = e_dir e /\ In (mkWatch (e_ino e) (w_wd f) (mask d0 e)) (k_watch k);
  v_ents : forall e, In e (k_disk k) -> exists f, In f (m_files m) /\ w_path f = e_path e;
  v_start : forall p, is_dir d0 p -> is_dir (k_disk k) p;
  v_nil : started d0 [] = false;
  v_queue : k_queue k = [] }.

Lemma inv_mirrors d0 k m : inv d0 k m -> mirrors m (k_disk k).
Proof.
  intros V. split; [apply V|]. intros p dir. rewrite !in_map_iff. split.
  - intros (f & E & X). destruct (v_files _ _ _ V f X) as (e & Y & P & D & _). exists e. split; auto. congruence.
  - intros (e & E & X). destruct (v_ents _ _ _ V e X) as (f & Y & P). exists f. split; auto.
    destruct (v_files _ _ _ V f Y) as (e' & Y' & P' & D & _).
    assert (e' = e) as -> by (eapply nodup_inj; [apply (t_paths _ _ (v_tree _ _ _ V))|auto|auto|congruence]). congruence.
Qed.

(** An object's struct and watch. *)
Lemma inv_ent d0 k m e : inv d0 k m -> In e (k_disk k) ->
  exists f, In f (m_files m) /\ w_path f = e_path e /\ w_dir f = e_dir e /\ In (mkWatch (e_ino e) (w_wd f) (mask d0 e)) (k_watch k).
Proof.
  intros V X. destruct (v_ents _ _ _ V e X) as (f & Y & P). exists f.
  destruct (v_files _ _ _ V f Y) as (e' & Y' & P' & D & W).
  assert (e' = e) as -> by (eapply nodup_inj; [apply (t_paths _ _ (v_tree _ _ _ V))|auto|auto|congruence]). auto.
Qed.
(** The struct of a descriptor. *)
Lemma inv_find d0 k m f : inv d0 k m -> In f (m_files m) -> List.find (fun g => w_wd g =? w_wd f) (m_files m) = Some f.
Proof.
  intros V X. eapply (find_unique w_path); [apply V|auto|apply Nat.eqb_refl|]. intros g Y E. apply Nat.eqb_eq in E.
  destruct (v_files _ _ _ V f X) as (e & _ & P & _ & W). destruct (v_files _ _ _ V g Y) as (e' & D' & P' & _ & W').
  destruct (v_files _ _ _ V f X) as (e2 & D2 & P2 & _ & W2).
  assert (Q : mkWatch (e_ino e') (w_wd g) (mask d0 e') = mkWatch (e_ino e2) (w_wd f) (mask d0 e2)) by (eapply (nodup_inj h_wd); [apply V|auto|auto|cbn; auto]).
  injection Q as Q _ _. assert (e' = e2) as -> by (eapply (nodup_inj e_ino); [apply (t_inos _ _ (v_tree _ _ _ V))|auto|auto|auto]). congruence.
Qed.
Lemma inv_rwd d0 k m f : inv d0 k m -> In f (m_files m) -> w_wd f <> m_rwd m.
Proof.
  intros V X E. destruct (v_files _ _ _ V f X) as (e & D & P & _ & W).
  assert (Q : mkWatch (e_ino e) (w_wd f) (mask d0 e) = mkWatch 0 (m_rwd m) true) by (eapply (nodup_inj h_wd); [apply V|auto|apply V|cbn; auto]).
  injection Q as Q _ _. pose proof (t_range _ _ (v_tree _ _ _ V) e D). lia.
Qed.

(** The start. *)
Lemma inotify_new k i mp : ~ In i (map h_ino (k_watch k)) ->
  inotify_add k i mp = (mkK (k_disk k) (k_ino k) (k_watch k ++ [mkWatch i (k_wd k) mp]) (S (k_wd k)) (k_queue k), k_wd k).
Proof.
  intros H. unfold inotify_add. replace (watch_of k i) with (@None watch); [reflexivity|]. symmetry. apply find_absent. intros y Y. apply Nat.eqb_neq.
  intros E. apply H. rewrite <- E. now apply in_map.
Qed.
Lemma watch_all_ok d0 next es : forall pre k m, tree d0 next -> d0 = pre ++ es ->
  k_disk k = d0 -> k_ino k = next -> k_queue k = [] ->
  NoDup (map h_ino (k_watch k)) -> NoDup (map h_wd (k_watch k)) ->
  (forall w, In w (k_watch k) -> h_wd w < k_wd k /\ (h_ino w = 0 \/ In (h_ino w) (map e_ino pre))) ->
  In (mkWatch 0 (m_rwd m) true) (k_watch k) ->
  NoDup (map w_id (m_files m)) -> (forall f, In f (m_files m) -> w_id f < m_next m) ->
  map w_path (m_files m) = map e_path pre ->
  (forall f, In f (m_files m) -> exists e, In e pre /\ w_path f = e_path e /\ w_dir f = e_dir e /\ In (mkWatch (e_ino e) (w_wd f) false) (k_watch k)) ->
  m_told m = 0 ->
  let '(k', m') := watch_all k m es in inv d0 k' m' /\ m_told m' = 0.
Proof.
  induction es as [|e es IH]; intros pre k m T S D I Q W1 W2 W3 R F1 F2 F3 F4 F5; cbn [watch_all].
  - rewrite app_nil_r in S. subst pre. split; [|auto]. constructor; auto.
    + now rewrite D, I.
    + intros w X. destruct (W3 w X) as (A & [B|B]); split; auto.
      * rewrite B, I. apply T.
      * apply in_map_iff in B. destruct B as (e & B & Y). rewrite <- B, I. apply T. auto.
    + rewrite F3. apply T.
    + intros f X. destruct (F4 f X) as (e & A & B & C & E). exists e. rewrite D. repeat (split; auto).
      replace (mask d0 e) with false; [auto|]. unfold mask. destruct (e_dir e) eqn:Z; [|reflexivity].
      replace (started d0 (e_path e)) with true; [reflexivity|]. symmetry. apply started_ok. exists e. auto.
    + intros e X. rewrite D in X. assert (Y : In (e_path e) (map w_path (m_files m))) by (rewrite F3; now apply in_map).
      apply in_map_iff in Y. destruct Y as (f & Y & Z). exists f. auto.
    + now rewrite D.
    + destruct (started d0 []) eqn:X; [|reflexivity]. apply started_ok in X. destruct X as (e & X & Y & _). exfalso. now apply (t_named _ _ T e X).
  - unfold add_file.
    assert (N : ~ In (e_ino e) (map e_ino pre)).
    { pose proof (t_inos _ _ T) as H. rewrite S, map_app in H. cbn in H. apply NoDup_remove_2 in H. rewrite in_app_iff in H. tauto. }
    assert (Z : 0 < e_ino e) by (apply (t_range _ _ T); rewrite S, in_app_iff; cbn; auto).
    assert (NW : ~ In (e_ino e) (map h_ino (k_watch k))).
    { intros X. apply in_map_iff in X. destruct X as (w & X & Y). destruct (W3 w Y) as (_ & [A|A]); [lia|]. rewrite X in A. auto. }
    rewrite inotify_new by auto. apply (IH (pre ++ [e])); cbn [k_disk k_ino k_queue k_watch k_wd m_files m_next m_rwd m_told]; auto.
    + now rewrite <- app_assoc.
    + apply nodup_app; auto.
    + apply nodup_app; auto. cbn. intros X. apply in_map_iff in X. destruct X as (w & X & Y). destruct (W3 w Y). lia.
    + intros w X. apply in_app_iff in X. destruct X as [X|[<-|[]]].
      * destruct (W3 w X) as (A & B). split; [lia|]. rewrite map_app, in_app_iff. tauto.
      * cbn. split; [lia|]. right. rewrite map_app, in_app_iff. cbn. auto.
    + apply in_app_iff. auto.
    + apply nodup_app; auto. cbn. intros X. apply in_map_iff in X. destruct X as (f & X & Y). pose proof (F2 f Y). lia.
    + intros f X. apply in_app_iff in X. destruct X as [X|[<-|[]]]; cbn; [pose proof (F2 f X)|]; lia.
    + now rewrite !map_app, F3.
    + intros f X. apply in_app_iff in X. destruct X as [X|[<-|[]]].
      * destruct (F4 f X) as (e' & A & B & C & E). exists e'. rewrite !in_app_iff. auto 6.
      * exists e. cbn. rewrite !in_app_iff. cbn. auto 8.
Qed.
Lemma start_inv d next : tree d next -> let '(k, m) := start d next in inv d k m /\ m_told m = 0.
Proof.
  intros T. unfold start. rewrite inotify_new by (cbn; easy). cbn [k_disk k_ino k_watch k_wd k_queue app].
  apply (watch_all_ok d next d [] _ _ T); cbn; auto; try (now constructor).
  - constructor; [easy|constructor].
  - constructor; [easy|constructor].
  - intros w [<-|[]]. cbn. lia.
  - easy.
  - easy.
Qed.

(** ** One operation and its events *)
Lemma emit_in k w x : NoDup (map h_ino (k_watch k)) -> In w (k_watch k) ->
  emit k (h_ino w) x = if wants (h_mp w) x then with_queue k (k_queue k ++ [(h_wd w, x)]) else k.
Proof. intros H X. unfold emit. now rewrite watch_at. Qed.
Lemma emit_disk k i x : k_disk (emit k i x) = k_disk k.
Proof. unfold emit. destruct (watch_of k i) as [w|]; [destruct (wants _ _)|]; reflexivity. Qed.
(** What the watch of a directory is told. *)
Definition dir_mask (d0 : list ent) (p : bpath) : bool := negb (started d0 p).
Lemma parent_watch d0 k m p i : inv d0 k m -> dir_ino (k_disk k) p = Some i ->
  exists w, In w (k_watch k) /\ h_ino w = i /\ h_mp w = dir_mask d0 p /\
  (p = [] /\ h_wd w = m_rwd m \/ p <> [] /\ exists f, In f (m_files m) /\ w_path f = p /\ w_dir f = true /\ w_wd f = h_wd w).
Proof.
  intros V E. unfold dir_ino in E. destruct p as [|a p].
  - injection E as <-. exists (mkWatch 0 (m_rwd m) true). repeat (split; [apply V || reflexivity|]).
    split; [unfold dir_mask; now rewrite (v_nil _ _ _ V)|]. auto.
  - destruct (entry_at (k_disk k) (a :: p)) as [e|] eqn:X; [|discriminate]. apply entry_in in X. destruct X as (X & P).
    destruct (e_dir e) eqn:D; [|discriminate]. injection E as <-.
    destruct (inv_ent _ _ _ _ V X) as (f & F & FP & FD & W). exists (mkWatch (e_ino e) (w_wd f) (mask d0 e)).
    split; [auto|]. split; [auto|]. split.
    + cbn. unfold mask, dir_mask. now rewrite D, P.
    + right. split; [easy|]. exists f. repeat split; congruence.
Qed.

(** The directory of a free name. *)
Lemma free_ok d p : free_at d p = true -> p <> [] /\ entry_at d p = None /\ exists i, dir_ino d (removelast p) = Some i.
Proof.
  unfold free_at. destruct p as [|a p]; [discriminate|]. destruct (entry_at d (a :: p)); [discriminate|].
  destruct (dir_ino d (removelast (a :: p))) as [i|]; [|discriminate]. intros _. repeat split; [easy|]. eauto.
Qed.
Lemma entry_app d e p : e_path e <> p -> entry_at (d ++ [e]) p = entry_at d p.
Proof.
  intros N. unfold entry_at. induction d as [|a d IH]; cbn.
  - apply path_eqb_neq in N. now rewrite N.
  - destruct (path_eqb (e_path a) p); auto.
Qed.
Lemma dir_app d e p i : entry_at d (e_path e) = None -> dir_ino d p = Some i -> dir_ino (d ++ [e]) p = Some i.
Proof.
  intros N H. unfold dir_ino in *. destruct p as [|a p]; [auto|].
  rewrite entry_app; [auto|]. intros E. rewrite <- E, N in H. discriminate.
Qed.
Lemma dir_is d p i : dir_ino d p = Some i -> p = [] \/ is_dir d p.
Proof.
  unfold dir_ino. destruct p as [|a p]; [auto|]. destruct (entry_at d (a :: p)) as [e|] eqn:E; [|discriminate].
  apply entry_in in E. destruct E as (X & P). destruct (e_dir e) eqn:D; [|discriminate]. intros _. right. exists e. auto.
Qed.
Lemma below_self p : below p p = false.
Proof. induction p as [|a p IH]; cbn; [reflexivity|]. rewrite IH. apply andb_false_r. Qed.
Lemma nftw_none k m p es : (forall e, In e es -> below p (e_path e) = true -> known m (e_path e) = true) -> nftw k m p es = (k, m).
Proof.
  induction es as [|e es IH]; cbn; intros H; [reflexivity|].
  destruct (below p (e_path e)) eqn:B; [rewrite (H e (or_introl eq_refl) B)|]; cbn; apply IH; auto.
Qed.
Lemma known_in m f : In f (m_files m) -> known m (w_path f) = true.
Proof. intros X. unfold known. apply existsb_exists. exists f. split; [auto|apply path_eqb_refl]. Qed.
Lemma inv_fresh_wd d0 k m : inv d0 k m -> ~ In (k_wd k) (map h_wd (k_watch k)).
Proof. intros V X. apply in_map_iff in X. destruct X as (w & X & Y). destruct (v_wrange _ _ _ V w Y). lia. Qed.
Lemma inv_fresh_ino d0 k m : inv d0 k m -> ~ In (k_ino k) (map h_ino (k_watch k)).
Proof. intros V X. apply in_map_iff in X. destruct X as (w & X & Y). destruct (v_wrange _ _ _ V w Y). lia. Qed.
Lemma tree_add d n p dir i : tree d n -> p <> [] -> entry_at d p = None -> dir_ino d (removelast p) = Some i -> tree (d ++ [mkEnt p n dir]) (S n).
Proof.
  intros T P E D. pose proof (t_next _ _ T). constructor.
  - apply nodup_app; [apply T|]. now apply entry_none.
  - apply nodup_app; [apply T|]. cbn. intros X. apply in_map_iff in X. destruct X as (e & X & Y). pose proof (t_range _ _ T e Y). lia.
  - intros e X. apply in_app_iff in X. destruct X as [X|[<-|[]]]; cbn; [pose proof (t_range _ _ T e X)|]; lia.
  - intros e X. apply in_app_iff in X. destruct X as [X|[<-|[]]]; cbn; [now apply T|auto].
  - assert (G : forall q, is_dir d q -> is_dir (d ++ [mkEnt p n dir]) q).
    { intros q (e & X & Y). exists e. rewrite in_app_iff. auto. }
    intros e X. apply in_app_iff in X. destruct X as [X|[<-|[]]]; cbn.
    + destruct (t_parent _ _ T e X); auto.
    + apply dir_is in D. destruct D; auto.
  - lia.
Qed.
(** The object that is new. *)
Lemma watch_new_ok d0 k m p dir : inv d0 k m -> free_at (k_disk k) p = true ->
  exists k2 m2, watch_new (mkK (k_disk k ++ [mkEnt p (k_ino k) dir]) (S (k_ino k)) (k_watch k) (k_wd k) []) m p = MOn k2 m2 /\ inv d0 k2 m2 /\
    m_told m2 = m_told m /\ k_disk k2 = k_disk k ++ [mkEnt p (k_ino k) dir].
Proof.
  intros V F. apply free_ok in F. destruct F as (P & E & i & D). set (e := mkEnt p (k_ino k) dir).
  assert (T : tree (k_disk k ++ [e]) (S (k_ino k))) by (eapply tree_add; eauto; apply V).
  unfold watch_new. cbn [k_disk]. replace (entry_at (k_disk k ++ [e]) p) with (Some e)
    by (symmetry; change p with (e_path e); apply entry_of; [apply T|rewrite in_app_iff; cbn; auto]).
  set (k1 := mkK _ _ _ _ _).
  assert (N : (if e_dir e then nftw k1 m p (k_disk k ++ [e]) else (k1, m)) = (k1, m)).
  { destruct (e_dir e); [|reflexivity]. apply nftw_none. intros e' X B. apply in_app_iff in X. destruct X as [X|[<-|[]]].
    - destruct (v_ents _ _ _ V e' X) as (f & Y & Q). rewrite <- Q. now apply known_in.
    - cbn in B. now rewrite below_self in B. }
  rewrite N. unfold add_file. rewrite inotify_new by exact (inv_fresh_ino _ _ _ V). unfold k1. cbn [k_disk k_ino k_watch k_wd k_queue].
  eexists; eexists; split; [reflexivity|]. split; [|split; reflexivity].
  assert (NP : ~ In p (map w_path (m_files m))).
  { intros X. apply in_map_iff in X. destruct X as (f & X & Y). destruct (v_files _ _ _ V f Y) as (e' & Z & Q & _).
    apply entry_none in E. apply E. rewrite <- X, Q. now apply in_map. }
  assert (M : mask d0 e = dir).
  { unfold mask. cbn. destruct dir; [|reflexivity]. destruct (started d0 p) eqn:X; [|reflexivity]. exfalso. apply started_ok in X.
    apply (v_start _ _ _ V) in X. destruct X as (e' & X & Q & _). apply entry_none in E. apply E. rewrite <- Q. now apply in_map. }
  constructor; cbn [k_disk k_ino k_watch k_wd k_queue m_files m_next m_rwd]; auto.
  - apply nodup_app; [apply V|]. eapply inv_fresh_ino; eauto.
  - apply nodup_app; [apply V|]. eapply inv_fresh_wd; eauto.
  - intros w X. apply in_app_iff in X. destruct X as [X|[<-|[]]]; cbn; [pose proof (v_wrange _ _ _ V w X)|]; lia.
  - rewrite in_app_iff. left. apply V.
  - apply nodup_app; [apply V|]. cbn. intros X. apply in_map_iff in X. destruct X as (f & X & Y). pose proof (v_idr _ _ _ V f Y). lia.
  - intros f X. apply in_app_iff in X. destruct X as [X|[<-|[]]]; cbn; [pose proof (v_idr _ _ _ V f X)|]; lia.
  - apply nodup_app; [apply V|auto].
  - intros f X. apply in_app_iff in X. destruct X as [X|[<-|[]]].
    + destruct (v_files _ _ _ V f X) as (e' & A & B & C & G). exists e'. rewrite !in_app_iff. auto 6.
    + exists e. cbn [w_path w_dir w_wd]. rewrite !in_app_iff, M. cbn. auto 8.
  - intros e' X. apply in_app_iff in X. destruct X as [X|[<-|[]]].
    + destruct (v_ents _ _ _ V e' X) as (f & Y & Q). exists f. rewrite in_app_iff. auto.
    + eexists. rewrite in_app_iff. cbn. split; [right; left; reflexivity|reflexivity].
  - intros q X. apply (v_start _ _ _ V) in X. destruct X as (e' & X & Y). exists e'. rewrite in_app_iff. auto.
  - apply V.
Qed.

(** Neither telling the workers nor the queue matters. *)
Lemma inv_tell d0 k m : inv d0 k m -> inv d0 k (tell m).
Proof. intros []. constructor; auto. Qed.
Lemma handle_done n k m : k_queue k = [] -> handle_all n k m = MOn k m.
Proof. intros E. destruct n; cbn [handle_all]; now rewrite E. Qed.
Lemma handle_more n k m a q : k_queue k = a :: q -> handle_all (S n) k m = match handle k m with MOn k' m' => handle_all n k' m' | r => r end.
Proof. intros E. cbn [handle_all]. now rewrite E. Qed.
Lemma removelast_nil {A} (p : list A) x : p <> [] -> removelast p = [] -> [last p x] = p.
Proof. intros N E. rewrite (app_removelast_last x N) at 2. now rewrite E. Qed.
Lemma handle_root k m x q : k_queue k = (m_rwd m, x) :: q -> handle k m = in_mp (with_queue k q) m x.
Proof. intros E. unfold handle. now rewrite E, Nat.eqb_refl. Qed.
Lemma handle_file d0 k m f x q : inv d0 k m -> In f (m_files m) -> forall k', k_queue k' = (w_wd f, x) :: q -> handle k' m = in_pf (with_queue k' q) m f x.
Proof.
  intros V F k' E. unfold handle. rewrite E. pose proof (inv_rwd _ _ _ _ V F) as N. apply Nat.eqb_neq in N. rewrite N.
  now rewrite (inv_find _ _ _ _ V F).
Qed.
Lemma handle_other k m wd x q : k_queue k = (wd, x) :: q -> wd <> m_rwd m -> (forall f, In f (m_files m) -> w_wd f <> wd) ->
  handle k m = MOn (with_queue k q) m.
Proof.
  intros E N F. unfold handle. rewrite E. apply Nat.eqb_neq in N. rewrite N. replace (List.find _ _) with (@None wfile); [reflexivity|].
  symmetry. apply find_absent. intros f X. apply Nat.eqb_neq. auto.
Qed.

(** A new name in a directory whose watch tells of it. *)
Lemma new_ok d0 k m p dir x fuel : inv d0 k m -> free_at (k_disk k) p = true -> ~ is_dir d0 (removelast p) -> 1 <= fuel ->
  x = ECreate (last p []) \/ x = EMovedTo (last p []) ->
  exists k2 m2, handle_all fuel (emit_parent (mkK (k_disk k ++ [mkEnt p (k_ino k) dir]) (S (k_ino k)) (k_watch k) (k_wd k) (k_queue k)) p x) m = MOn k2 m2 /\
    inv d0 k2 m2 /\ m_told m < m_told m2 /\ k_disk k2 = k_disk k ++ [mkEnt p (k_ino k) dir].
Proof.
  intros V F G N X. destruct (free_ok _ _ F) as (P & E & i & D). rewrite (v_queue _ _ _ V).
  set (k1 := mkK _ _ _ _ _). unfold emit_parent.
  replace (dir_ino (k_disk k1) (removelast p)) with (Some i) by (symmetry; apply dir_app; auto).
  destruct (parent_watch _ _ _ _ _ V D) as (w & W & WI & WM & WP). subst i.
  rewrite emit_in; [|apply V|exact W]. rewrite WM. unfold dir_mask.
  assert (S0 : started d0 (removelast p) = false).
  { destruct (started d0 (removelast p)) eqn:Z; [|reflexivity]. exfalso. apply G. now apply started_ok. }
  rewrite S0. cbn [negb]. replace (wants true x) with true by (destruct X as [-> | ->]; reflexivity).
  change (k_queue k1 ++ [(h_wd w, x)]) with [(h_wd w, x)]. destruct fuel as [|fuel]; [lia|]. erewrite handle_more by reflexivity.
  destruct (watch_new_ok _ _ _ p dir V F) as (k2 & m2 & A & B & C & K).
  assert (H : handle (with_queue k1 [(h_wd w, x)]) m = MOn k2 (tell m2)).
  { destruct WP as [(Q & R)|(Q & f & F1 & F2 & F3 & F4)].
    - erewrite handle_root by (cbn; rewrite R; reflexivity). destruct X as [-> | ->]; cbn [in_mp]; rewrite (removelast_nil p [] P Q); unfold with_queue, k1; cbn [k_disk k_ino k_watch k_wd k_queue]; now rewrite A.
    - erewrite handle_file by (eauto; cbn; rewrite F4; reflexivity).
      destruct X as [-> | ->]; cbn [in_pf]; rewrite F3, F2, <- (app_removelast_last [] P); unfold with_queue, k1; cbn [k_disk k_ino k_watch k_wd k_queue]; now rewrite A. }
  rewrite H. exists k2, (tell m2). rewrite handle_done by apply B. split; [reflexivity|]. split; [now apply inv_tell|].
  split; [cbn; lia|auto].
Qed.

(** A file is written, or its attributes change. *)
Lemma parent_in d0 k m e : inv d0 k m -> In e (k_disk k) -> exists i, dir_ino (k_disk k) (removelast (e_path e)) = Some i.
Proof.
  intros V X. destruct (t_parent _ _ (v_tree _ _ _ V) e X) as [E|(e' & Y & P & D)].
  - rewrite E. cbn. eauto.
  - unfold dir_ino. destruct (removelast (e_path e)) as [|a p] eqn:Q; [eauto|]. rewrite <- P, entry_of; [|apply V|auto]. rewrite D. eauto.
Qed.
Lemma on_disk_in k e : NoDup (map e_path (k_disk k)) -> In e (k_disk k) -> on_disk k (e_path e) = true.
Proof. intros N X. unfold on_disk. now rewrite entry_of. Qed.
Lemma touched_ok d0 k m p i x fuel : inv d0 k m -> file_at (k_disk k) p = Some i -> x = EModify \/ x = EAttrib -> 2 <= fuel ->
  exists m2, handle_all fuel (emit (emit_parent k p x) i x) m = MOn k m2 /\ inv d0 k m2 /\ m_told m < m_told m2.
Proof.
  intros V F X N. apply file_in in F. destruct (inv_ent _ _ _ _ V F) as (f & F1 & F2 & F3 & W). cbn in F2, F3, W.
  destruct (parent_in _ _ _ _ V F) as (j & J). cbn in J. unfold emit_parent. rewrite J.
  destruct (parent_watch _ _ _ _ _ V J) as (w & W' & WI & WM & WP). subst j. rewrite (emit_in k w x) by (auto; apply V). rewrite WM.
  assert (OD : forall q, on_disk (with_queue k q) (w_path f) = true).
  { intros q. rewrite F2. change p with (e_path (mkEnt p i false)). apply on_disk_in; [apply V|auto]. }
  assert (K : with_queue k [] = k) by (rewrite <- (v_queue _ _ _ V); now destruct k).
  assert (last_step : forall n m', 1 <= n -> m_files m' = m_files m -> m_rwd m' = m_rwd m -> handle_all n (with_queue k [(w_wd f, x)]) m' = MOn k (tell m')).
  { intros n m' Hn M1 M2. destruct n as [|n]; [lia|]. erewrite handle_more by reflexivity. unfold handle. cbn [k_queue with_queue].
    rewrite M1, M2, (inv_find _ _ _ _ V F1). pose proof (inv_rwd _ _ _ _ V F1) as R. apply Nat.eqb_neq in R. rewrite R.
    change (with_queue (with_queue k [(w_wd f, x)]) []) with (with_queue k []).
    destruct X as [-> | ->]; cbn [in_pf]; rewrite F3, OD, handle_done by reflexivity; now rewrite K. }
  assert (E2 : forall k', k_watch k' = k_watch k -> emit k' i x = with_queue k' (k_queue k' ++ [(w_wd f, x)])).
  { intros k' E. change i with (h_ino (mkWatch i (w_wd f) (mask d0 (mkEnt p i false)))). rewrite emit_in; [|rewrite E; apply V|rewrite E; exact W].
    cbn [h_mp h_wd]. unfold mask. cbn [e_dir andb]. now destruct X as [-> | ->]. }
  destruct (wants (dir_mask d0 (removelast p)) x) eqn:P.
  - rewrite E2 by reflexivity. cbn [with_queue k_queue]. rewrite (v_queue _ _ _ V). cbn [app].
    change (with_queue (with_queue k [(h_wd w, x)]) [(h_wd w, x); (w_wd f, x)]) with (with_queue k [(h_wd w, x); (w_wd f, x)]).
    destruct fuel as [|fuel]; [lia|]. erewrite handle_more by reflexivity.
    assert (H : handle (with_queue k [(h_wd w, x); (w_wd f, x)]) m = MOn (with_queue k [(w_wd f, x)]) (tell m)).
    { destruct WP as [(Q & R)|(Q & g & G1 & G2 & G3 & G4)].
      - exfalso. rewrite Q in P. unfold dir_mask in P. rewrite (v_nil _ _ _ V) in P. now destruct X as [-> | ->].
      - erewrite handle_file by (eauto; cbn; rewrite G4; reflexivity). destruct X as [-> | ->]; cbn [in_pf]; now rewrite G3. }
    rewrite H. rewrite last_step by (auto; lia). eexists. split; [reflexivity|]. split; [do 2 apply inv_tell; auto|cbn; lia].
  - rewrite E2 by reflexivity. rewrite (v_queue _ _ _ V). cbn [app]. rewrite last_step by (auto; lia).
    eexists. split; [reflexivity|]. split; [apply inv_tell; auto|cbn; lia].
Qed.

(** A file loses its name. *)
Lemma without_in d p e : In e (without d p) <-> In e d /\ e_path e <> p.
Proof. unfold without. rewrite filter_In, negb_true_iff, path_eqb_neq. reflexivity. Qed.
Lemma tree_without d n p i : tree d n -> In (mkEnt p i false) d -> tree (without d p) n.
Proof.
  intros T X. constructor.
  - apply nodup_filter, T.
  - apply nodup_filter, T.
  - intros e Y. apply without_in in Y. now apply T.
  - intros e Y. apply without_in in Y. now apply T.
  - intros e Y. apply without_in in Y. destruct (t_parent _ _ T e (proj1 Y)) as [E|(e' & A & B & C)]; [auto|]. right. exists e'.
    split; [|auto]. apply without_in. split; [auto|]. intros Q.
    assert (Z : e' = mkEnt p i false) by (eapply nodup_inj; [apply T|auto|auto|auto]). subst e'. discriminate.
  - apply T.
Qed.
Lemma dropped_inv d0 k m p i f ws : inv d0 k m -> In (mkEnt p i false) (k_disk k) -> In f (m_files m) -> w_path f = p ->
  (forall w, In w ws -> In w (k_watch k)) -> NoDup (map h_ino ws) -> NoDup (map h_wd ws) -> (forall w, In w (k_watch k) -> h_ino w <> i -> In w ws) ->
  inv d0 (mkK (without (k_disk k) p) (k_ino k) ws (k_wd k) []) (drop_file m f).
Proof.
  intros V X F P W1 W2 W3 W4.
  assert (Z : 0 < i) by apply (t_range _ _ (v_tree _ _ _ V) _ X).
  assert (DF : forall g, In g (m_files (drop_file m f)) <-> In g (m_files m) /\ w_path g <> p).
  { intros g. unfold drop_file. cbn. rewrite filter_In, negb_true_iff, Nat.eqb_neq. split; intros (A & B); split; auto; intros E; apply B.
    - f_equal. eapply (nodup_inj w_path); [apply V|auto|auto|congruence].
    - assert (g = f) as -> by (eapply (nodup_inj w_id); [apply V|auto|auto|auto]). auto. }
  constructor; cbn [k_disk k_ino k_watch k_wd k_queue]; auto.
  - eapply tree_without; [apply V|eauto].
  - intros w Y. apply V. auto.
  - cbn. apply W4; [apply V|cbn; lia].
  - cbn. apply nodup_filter, V.
  - intros g G. apply DF in G. apply V. tauto.
  - cbn. apply nodup_filter, V.
  - intros g G. apply DF in G. destruct G as (G & N). destruct (v_files _ _ _ V g G) as (e & A & B & C & D). exists e.
    rewrite without_in. repeat split; auto; [congruence|]. apply W4; [auto|]. cbn. intros E. apply N. rewrite B.
    assert (Q : e = mkEnt p i false) by (eapply (nodup_inj e_ino); [apply (t_inos _ _ (v_tree _ _ _ V))|auto|auto|auto]). now subst e.
  - intros e Y. apply without_in in Y. destruct Y as (Y & N). destruct (v_ents _ _ _ V e Y) as (g & A & B). exists g. rewrite DF. split; [split; congruence|auto].
  - intros q Y. apply (v_start _ _ _ V) in Y. destruct Y as (e & A & B & C). exists e. split; [|auto]. apply without_in. split; [auto|]. intros Q.
    assert (R : e = mkEnt p i false) by (eapply nodup_inj; [apply (t_paths _ _ (v_tree _ _ _ V))|auto|auto|auto]). subst e. discriminate.
  - apply V.
Qed.
Lemma gone_name d p : entry_at (without d p) p = None.
Proof. apply entry_absent. intros X. apply in_map_iff in X. destruct X as (e & E & Y). apply without_in in Y. tauto. Qed.
Lemma unlinked_ok d0 k m p i fuel : inv d0 k m -> file_at (k_disk k) p = Some i -> 1 <= fuel ->
  exists k2 m2, handle_all fuel (emit (with_disk k (without (k_disk k) p)) i EAttrib) m = MOn k2 m2 /\ inv d0 k2 m2 /\ m_told m < m_told m2 /\
    k_disk k2 = without (k_disk k) p.
Proof.
  intros V F N. apply file_in in F. destruct (inv_ent _ _ _ _ V F) as (f & F1 & F2 & F3 & W). cbn in F2, F3, W.
  change i with (h_ino (mkWatch i (w_wd f) (mask d0 (mkEnt p i false)))). rewrite emit_in; [|apply V|exact W].
  cbn [h_mp h_wd]. unfold mask. cbn [e_dir andb wants negb with_disk k_queue]. rewrite (v_queue _ _ _ V). cbn [app].
  destruct fuel as [|fuel]; [lia|]. erewrite handle_more by reflexivity. erewrite handle_file by (eauto; reflexivity). cbn [in_pf]. rewrite F3.
  match goal with |- context [on_disk ?a ?b] => assert (OD : on_disk a b = false) by (unfold on_disk; cbn [with_queue with_disk k_disk]; now rewrite F2, gone_name) end.
  rewrite OD. cbv iota.
  rewrite handle_done by reflexivity. eexists; eexists. split; [reflexivity|]. split; [|split; [cbn; lia|reflexivity]].
  apply inv_tell. unfold with_queue, with_disk; cbn [k_disk k_ino k_watch k_wd]. eapply dropped_inv; eauto; apply V.
Qed.
Lemma rm_ok k wd w : In w (k_watch k) -> h_wd w = wd ->
  inotify_rm k wd = Some (mkK (k_disk k) (k_ino k) (filter (fun w => negb (h_wd w =? wd)) (k_watch k)) (k_wd k) (k_queue k ++ [(wd, EIgnored)])).
Proof. intros X E. unfold inotify_rm. replace (existsb _ _) with true; [reflexivity|]. symmetry. apply existsb_exists. exists w. split; [auto|]. now apply Nat.eqb_eq. Qed.
Lemma moved_out_ok d0 k m p i fuel : inv d0 k m -> file_at (k_disk k) p = Some i -> 2 <= fuel ->
  exists k2 m2, handle_all fuel (emit (with_disk k (without (k_disk k) p)) i EMoveSelf) m = MOn k2 m2 /\ inv d0 k2 m2 /\ m_told m < m_told m2 /\
    k_disk k2 = without (k_disk k) p.
Proof.
  intros V F N. apply file_in in F. destruct (inv_ent _ _ _ _ V F) as (f & F1 & F2 & F3 & W). cbn in F2, F3, W.
  set (w := mkWatch i (w_wd f) (mask d0 (mkEnt p i false))) in *.
  change i with (h_ino w). rewrite emit_in; [|apply V|exact W].
  cbn [h_mp h_wd w]. unfold mask. cbn [e_dir andb wants negb with_disk k_queue]. rewrite (v_queue _ _ _ V). cbn [app].
  destruct fuel as [|[|fuel]]; [lia|lia|]. erewrite handle_more by reflexivity. erewrite handle_file by (eauto; reflexivity). cbn [in_pf]. rewrite F3.
  rewrite (rm_ok _ _ w); [|exact W|reflexivity]. unfold with_queue, with_disk; cbn [k_disk k_ino k_watch k_wd k_queue app].
  assert (WS : forall v, In v (filter (fun v => negb (h_wd v =? w_wd f)) (k_watch k)) <-> In v (k_watch k) /\ h_ino v <> i).
  { intros v. rewrite filter_In, negb_true_iff, Nat.eqb_neq. split; intros (A & B); split; auto; intros E; apply B.
    - assert (v = w) as -> by (eapply (nodup_inj h_ino); [apply V|auto|auto|auto]). reflexivity.
    - assert (v = w) as -> by (eapply (nodup_inj h_wd); [apply V|auto|auto|auto]). reflexivity. }
  erewrite handle_more by reflexivity. erewrite handle_other; [|reflexivity| |].
  - rewrite handle_done by reflexivity. eexists; eexists. split; [reflexivity|]. split; [|split; [cbn; lia|reflexivity]].
    apply inv_tell. unfold with_queue, with_disk; cbn [k_disk k_ino k_watch k_wd]. eapply dropped_inv; eauto.
    + intros v Y. apply WS in Y. tauto.
    + apply nodup_filter, V.
    + apply nodup_filter, V.
    + intros v Y Z. apply WS. auto.
  - cbn. eapply inv_rwd; eauto.
  - cbn. intros g G E. apply filter_In in G. destruct G as (G & H). apply negb_true_iff, Nat.eqb_neq in H. apply H.
    pose proof (inv_find _ _ _ _ V G) as A. rewrite E, (inv_find _ _ _ _ V F1) in A. injection A as A. congruence.
Qed.
Lemma gone_ok d0 k m i k1 fuel : inv d0 k m -> disk_step k (DGone i) = Some k1 -> 2 <= fuel ->
  exists k2, handle_all fuel k1 m = MOn k2 m /\ inv d0 k2 m /\ k_disk k2 = k_disk k.
Proof.
  intros V E N. cbn [disk_step] in E. destruct (_ || _) eqn:B; [discriminate|]. apply orb_false_iff in B. destruct B as (B & C). apply Nat.eqb_neq in B.
  assert (NI : ~ In i (map e_ino (k_disk k))).
  { intros X. apply in_map_iff in X. destruct X as (e & X & Y). apply not_true_iff_false in C. apply C. apply existsb_exists. exists e. split; [auto|]. now apply Nat.eqb_eq. }
  destruct (watch_of k i) as [w|] eqn:W.
  2:{ injection E as <-. rewrite handle_done by apply V. exists k. auto. }
  injection E as <-. rewrite (v_queue _ _ _ V). cbn [app]. unfold watch_of in W. apply find_some in W. destruct W as (W & WI). apply Nat.eqb_eq in WI.
  assert (NR : h_wd w <> m_rwd m).
  { intros X. assert (Q : w = mkWatch 0 (m_rwd m) true) by (eapply (nodup_inj h_wd); [apply V|auto|apply V|auto]). subst w. cbn in WI. lia. }
  assert (NF : forall f, In f (m_files m) -> w_wd f <> h_wd w).
  { intros f F X. destruct (v_files _ _ _ V f F) as (e & A & _ & _ & D).
    assert (Q : mkWatch (e_ino e) (w_wd f) (mask d0 e) = w) by (eapply (nodup_inj h_wd); [apply V|auto|auto|auto]). subst w. cbn in WI. apply NI. rewrite <- WI. now apply in_map. }
  destruct fuel as [|[|fuel]]; [lia|lia|]. erewrite handle_more by reflexivity. erewrite handle_other; [|reflexivity|auto|auto].
  erewrite handle_more by reflexivity. erewrite handle_other; [|reflexivity|auto|auto]. rewrite handle_done by reflexivity.
  eexists. split; [reflexivity|]. split; [|reflexivity]. unfold with_queue; cbn [k_disk k_ino k_watch k_wd].
  assert (WS : forall v, In v (filter (fun v => negb (h_ino v =? i)) (k_watch k)) <-> In v (k_watch k) /\ h_ino v <> i).
  { intros v. rewrite filter_In, negb_true_iff, Nat.eqb_neq. tauto. }
  constructor; cbn [k_disk k_ino k_watch k_wd k_queue]; try apply V.
  - apply nodup_filter, V.
  - apply nodup_filter, V.
  - intros v Y. apply WS in Y. apply V. tauto.
  - apply WS. split; [apply V|cbn; lia].
  - intros f F. destruct (v_files _ _ _ V f F) as (e & A & P & D & G). exists e. repeat (split; [auto|]). apply WS. split; [auto|]. cbn. intros X. apply NI.
    rewrite <- X. now apply in_map.
  - reflexivity.
Qed.

(** ** Histories *)
Lemma parent_disk k p x : k_disk (emit_parent k p x) = k_disk k.
Proof. unfold emit_parent. destruct (dir_ino _ _); [apply emit_disk|reflexivity]. Qed.
Lemma step_ok d0 k m o k1 fuel : inv d0 k m -> gentle d0 o -> disk_step k o = Some k1 -> 2 <= fuel ->
  exists k2 m2, handle_all fuel k1 m = MOn k2 m2 /\ inv d0 k2 m2 /\ (changes o -> m_told m < m_told m2) /\ k_disk k2 = k_disk k1.
Proof.
  intros V G E N. destruct o as [p dir|p|p|p|p|p|p q|i]; cbn [gentle] in G; try easy.
  - cbn [disk_step] in E. destruct (free_at (k_disk k) p) eqn:F; [|discriminate]. injection E as <-.
    destruct (new_ok d0 k m p dir (ECreate (last p [])) fuel V F G) as (k2 & m2 & A & B & C & D); [lia|auto|].
    exists k2, m2. rewrite parent_disk. auto.
  - cbn [disk_step] in E. destruct (free_at (k_disk k) p) eqn:F; [|discriminate]. injection E as <-.
    destruct (new_ok d0 k m p false (EMovedTo (last p [])) fuel V F G) as (k2 & m2 & A & B & C & D); [lia|auto|].
    exists k2, m2. rewrite parent_disk. auto.
  - cbn [disk_step] in E. destruct (file_at (k_disk k) p) as [i|] eqn:F; [|discriminate]. injection E as <-.
    destruct (touched_ok d0 k m p i EModify fuel V F) as (m2 & A & B & C); [auto|auto|]. exists k, m2. rewrite emit_disk, parent_disk. auto.
  - cbn [disk_step] in E. destruct (file_at (k_disk k) p) as [i|] eqn:F; [|discriminate]. injection E as <-.
    destruct (touched_ok d0 k m p i EAttrib fuel V F) as (m2 & A & B & C); [auto|auto|]. exists k, m2. rewrite emit_disk, parent_disk. auto.
  - cbn [disk_step] in E. destruct (file_at (k_disk k) p) as [i|] eqn:F; [|discriminate]. injection E as <-.
    destruct (unlinked_ok d0 k m p i fuel V F) as (k2 & m2 & A & B & C & D); [lia|]. exists k2, m2. rewrite emit_disk. auto.
  - cbn [disk_step] in E. destruct (file_at (k_disk k) p) as [i|] eqn:F; [|discriminate]. injection E as <-.
    destruct (moved_out_ok d0 k m p i fuel V F) as (k2 & m2 & A & B & C & D); [lia|]. exists k2, m2. rewrite emit_disk. auto.
  - destruct (gone_ok d0 k m i k1 fuel V E N) as (k2 & A & B & C). exists k2, m. refine (conj A (conj B (conj _ _))); [easy|].
    rewrite C. cbn [disk_step] in E. destruct (_ || _); [discriminate|]. destruct (watch_of k i); injection E as <-; reflexivity.
Qed.
Lemma live_ok d0 os : forall fuel k m, inv d0 k m -> Forall (gentle d0) os -> 2 <= fuel -> exists k2 m2, live fuel k m os = MOn k2 m2 /\ inv d0 k2 m2.
Proof.
  induction os as [|o os IH]; intros fuel k m V G N; cbn [live]; [eauto|]. inversion G; subst.
  destruct (disk_step k o) as [k1|] eqn:E; [|auto]. destruct (step_ok _ _ _ _ _ _ V H1 E N) as (k2 & m2 & A & B & _). rewrite A. auto.
Qed.
(** The states in which the rest is stated: the master has kept up with any gentle history. *)
Definition reached (d0 : list ent) (k : kern) (m : master) : Prop :=
  exists next fuel os, tree d0 next /\ 2 <= fuel /\ Forall (gentle d0) os /\ (let '(k0, m0) := start d0 next in live fuel k0 m0 os) = MOn k m.
Lemma reached_inv d0 k m : reached d0 k m -> inv d0 k m.
Proof.
  intros (next & fuel & os & T & N & G & E). pose proof (start_inv d0 next T) as V. destruct (start d0 next) as (k0, m0). destruct V as (V & _).
  destruct (live_ok d0 os fuel k0 m0 V G N) as (k2 & m2 & A & B). rewrite A in E. injection E as <- <-. auto.
Qed.
Lemma watch_follows d0 next os fuel : tree d0 next -> Forall (gentle d0) os -> 2 <= fuel ->
  exists k m, (let '(k0, m0) := start d0 next in live fuel k0 m0 os) = MOn k m /\ mirrors m (k_disk k).
Proof.
  intros T G N. pose proof (start_inv d0 next T) as V. destruct (start d0 next) as (k0, m0). destruct V as (V & _).
  destruct (live_ok d0 os fuel k0 m0 V G N) as (k2 & m2 & A & B). exists k2, m2. split; [auto|]. eapply inv_mirrors; eauto.
Qed.
Lemma watch_tells d0 k m o k1 fuel : reached d0 k m -> gentle d0 o -> changes o -> disk_step k o = Some k1 -> 2 <= fuel ->
  exists k2 m2, handle_all fuel k1 m = MOn k2 m2 /\ m_told m < m_told m2 /\ k_disk k2 = k_disk k1 /\ mirrors m2 (k_disk k1).
Proof.
  intros R G C E N. apply reached_inv in R. destruct (step_ok _ _ _ _ _ _ R G E N) as (k2 & m2 & A & B & T & D). exists k2, m2.
  refine (conj A (conj (T C) (conj D _))). rewrite <- D. eapply inv_mirrors; eauto.
Qed.

(** ** New names in the directories of the start *)
Lemma blind_emit d0 k m p x e : inv d0 k m -> is_dir d0 (removelast p) -> entry_at (k_disk k) (e_path e) = None -> (exists n, x = ECreate n \/ x = EMovedTo n) ->
  forall k', k_disk k' = k_disk k ++ [e] -> k_watch k' = k_watch k -> emit_parent k' p x = k'.
Proof.
  intros V S F X k' D W. pose proof (v_start _ _ _ V _ S) as (e' & A & B & C).
  unfold emit_parent. destruct (dir_ino (k_disk k') (removelast p)) as [i|] eqn:I; [|reflexivity].
  assert (J : dir_ino (k_disk k) (removelast p) = Some (e_ino e')).
  { unfold dir_ino. destruct (removelast p) as [|a r] eqn:Q.
    - exfalso. now apply (t_named _ _ (v_tree _ _ _ V) e' A).
    - rewrite <- B, entry_of; [|apply V|auto]. now rewrite C. }
  rewrite D, (dir_app _ _ _ _ F J) in I. injection I as <-.
  destruct (parent_watch _ _ _ _ _ V J) as (w & W1 & W2 & W3 & _). rewrite <- W2, emit_in; [|rewrite W; apply V|rewrite W; auto].
  rewrite W3. unfold dir_mask. apply started_ok in S. rewrite S. now destruct X as (n & [-> | ->]).
Qed.
Definition makes (p : bpath) (o : dop) : Prop := o = DMoveIn p \/ exists dir, o = DNew p dir.
Lemma blind_step d0 k m p o k1 : inv d0 k m -> is_dir d0 (removelast p) -> makes p o -> disk_step k o = Some k1 ->
  exists dir, k1 = mkK (k_disk k ++ [mkEnt p (k_ino k) dir]) (S (k_ino k)) (k_watch k) (k_wd k) [] /\ free_at (k_disk k) p = true /\ (forall d, o = DNew p d -> dir = d).
Proof.
  intros V S M E. destruct M as [-> |(dir & ->)]; cbn [disk_step] in E; (destruct (free_at (k_disk k) p) eqn:F; [|discriminate]); injection E as <-;
    destruct (free_ok _ _ F) as (P & A & _).
  - exists false. split; [|split; [auto|discriminate]]. erewrite (blind_emit d0 k m p _ (mkEnt p (k_ino k) false)); eauto. now rewrite (v_queue _ _ _ V).
  - exists dir. split; [|split; [auto|intros d Q; now injection Q]]. erewrite (blind_emit d0 k m p _ (mkEnt p (k_ino k) dir)); eauto. now rewrite (v_queue _ _ _ V).
Qed.
Lemma new_unknown d0 k m p : inv d0 k m -> free_at (k_disk k) p = true -> ~ In p (map w_path (m_files m)).
Proof.
  intros V F X. destruct (free_ok _ _ F) as (_ & E & _). apply in_map_iff in X. destruct X as (f & X & Y).
  destruct (v_files _ _ _ V f Y) as (e' & Z & Q & _). apply entry_none in E. apply E. rewrite <- X, Q. now apply in_map.
Qed.
Lemma watch_blind d0 k m p o k1 fuel : reached d0 k m -> is_dir d0 (removelast p) -> makes p o -> disk_step k o = Some k1 ->
  handle_all fuel k1 m = MOn k1 m /\ In p (map e_path (k_disk k1)) /\ ~ In p (map w_path (m_files m)).
Proof.
  intros R S M E. apply reached_inv in R. destruct (blind_step _ _ _ _ _ _ R S M E) as (dir & -> & F & _). split; [now apply handle_done|].
  split; [|eapply new_unknown; eauto]. cbn. rewrite map_app, in_app_iff. cbn. auto.
Qed.
(** Nothing below a directory made there is noticed. *)
Definition under (p : bpath) (o : dop) : Prop :=
  match o with
  | DNew q _ | DMoveIn q | DWrite q | DChmod q | DUnlink q | DMoveOut q => below p q = true
  | DRename q r => below p q = true /\ below p r = true
  | DGone _ => False
  end.
Definition here (p q : bpath) : Prop := q = p \/ below p q = true.
Lemma below_app p q : below p q = true <-> exists r, r <> [] /\ q = p ++ r.
Proof.
  revert q. induction p as [|a p IH]; intros q; cbn.
  - destruct q as [|b q]; split; [discriminate|intros (r & N & E); congruence|intros _; exists (b :: q); easy|reflexivity].
  - destruct q as [|b q]; [split; [discriminate|intros (r & _ & E); discriminate]|]. rewrite andb_true_iff, IH. split.
    + intros (E & r & N & ->). destruct (list_eq_dec N.eq_dec a b) as [-> |]; [|discriminate]. eauto.
    + intros (r & N & E). injection E as -> ->. destruct (list_eq_dec N.eq_dec a a); [eauto|congruence].
Qed.
Lemma below_parent p q : below p q = true -> here p (removelast q).
Proof.
  intros H. apply below_app in H. destruct H as (r & N & ->). rewrite removelast_app by auto. destruct r as [|a r]; [easy|].
  destruct r as [|b r].
  - left. cbn. apply app_nil_r.
  - right. apply below_app. exists (removelast (a :: b :: r)). split; [cbn; discriminate|reflexivity].
Qed.
Lemma here_nonnil p q : p <> [] -> here p q -> q <> [].
Proof. intros N [-> |H]; [auto|]. intros ->. destruct p; [easy|discriminate]. Qed.
Record dark (K : nat) (p : bpath) (k : kern) : Prop := mkDark {
  r_watch : forall w, In w (k_watch k) -> h_ino w < K;
  r_ents : forall e, In e (k_disk k) -> here p (e_path e) -> K <= e_ino e;
  r_next : K <= k_ino k;
  r_queue : k_queue k = [] }.
Lemma dark_emit K k i x : (forall w, In w (k_watch k) -> h_ino w < K) -> K <= i -> emit k i x = k.
Proof.
  intros W L. unfold emit. replace (watch_of k i) with (@None watch); [reflexivity|]. symmetry. apply find_absent. intros w X. apply Nat.eqb_neq.
  pose proof (W w X). lia.
Qed.
Lemma dark_parent K p q k x : p <> [] -> (forall w, In w (k_watch k) -> h_ino w < K) -> (forall e, In e (k_disk k) -> here p (e_path e) -> K <= e_ino e) ->
  below p q = true -> emit_parent k q x = k.
Proof.
  intros P W E B. unfold emit_parent. destruct (dir_ino (k_disk k) (removelast q)) as [i|] eqn:D; [|reflexivity].
  apply (dark_emit K); [auto|]. apply below_parent in B. pose proof (here_nonnil _ _ P B). unfold dir_ino in D.
  destruct (removelast q) as [|a r]; [easy|]. destruct (entry_at (k_disk k) (a :: r)) as [e|] eqn:X; [|discriminate]. apply entry_in in X.
  destruct X as (X & Q). destruct (e_dir e); [|discriminate]. injection D as <-. apply E; [auto|]. now rewrite Q.
Qed.
Lemma dark_step K p k o k1 : p <> [] -> dark K p k -> under p o -> disk_step k o = Some k1 -> dark K p k1.
Proof.
  intros P [W E X Q] U S. destruct o as [q dir|q|q|q|q|q|q r|i]; cbn [under] in U; cbn [disk_step] in S; try easy.
  - destruct (free_at (k_disk k) q); [|discriminate]. injection S as <-. unfold with_disk.
    assert (E' : forall e, In e (k_disk k ++ [mkEnt q (k_ino k) dir]) -> here p (e_path e) -> K <= e_ino e) by (intros e Y; apply in_app_iff in Y; destruct Y as [Y|[<-|[]]]; [auto|cbn; auto]).
    rewrite (dark_parent K p) by auto. constructor; cbn; auto.
  - destruct (free_at (k_disk k) q); [|discriminate]. injection S as <-. unfold with_disk.
    assert (E' : forall e, In e (k_disk k ++ [mkEnt q (k_ino k) false]) -> here p (e_path e) -> K <= e_ino e) by (intros e Y; apply in_app_iff in Y; destruct Y as [Y|[<-|[]]]; [auto|cbn; auto]).
    rewrite (dark_parent K p) by auto. constructor; cbn; auto.
  - destruct (file_at (k_disk k) q) as [i|] eqn:F; [|discriminate]. injection S as <-. unfold with_disk. apply file_in in F. rewrite (dark_parent K p) by auto.
    rewrite (dark_emit K); [constructor; auto|auto|]. apply (E _ F). now right.
  - destruct (file_at (k_disk k) q) as [i|] eqn:F; [|discriminate]. injection S as <-. unfold with_disk. apply file_in in F. rewrite (dark_parent K p) by auto.
    rewrite (dark_emit K); [constructor; auto|auto|]. apply (E _ F). now right.
  - destruct (file_at (k_disk k) q) as [i|] eqn:F; [|discriminate]. injection S as <-. unfold with_disk. apply file_in in F.
    rewrite (dark_emit K); [|auto|apply (E _ F); now right]. constructor; cbn; auto. intros e Y. apply without_in in Y. apply E. tauto.
  - destruct (file_at (k_disk k) q) as [i|] eqn:F; [|discriminate]. injection S as <-. unfold with_disk. apply file_in in F.
    rewrite (dark_emit K); [|auto|apply (E _ F); now right]. constructor; cbn; auto. intros e Y. apply without_in in Y. apply E. tauto.
  - destruct U as (U1 & U2). destruct (file_at (k_disk k) q) as [i|] eqn:F; [|discriminate]. apply file_in in F.
    assert (L : K <= i) by (apply (E _ F); now right).
    destruct (path_eqb q r); [discriminate|]. destruct (free_at (k_disk k) r).
    + injection S as <-. unfold with_disk.
      assert (E' : forall e, In e (without (k_disk k) q ++ [mkEnt r i false]) -> here p (e_path e) -> K <= e_ino e) by (intros e Y; apply in_app_iff in Y; destruct Y as [Y|[<-|[]]]; [apply without_in in Y; apply E; tauto|cbn; auto]).
      rewrite (dark_parent K p) by auto. rewrite (dark_emit K) by auto. constructor; cbn; auto.
    + destruct (file_at (k_disk k) r) as [j|] eqn:G; [|discriminate]. injection S as <-. unfold with_disk. apply file_in in G.
      assert (L' : K <= j) by (apply (E _ G); now right).
      assert (E' : forall e, In e (without (without (k_disk k) r) q ++ [mkEnt r i false]) -> here p (e_path e) -> K <= e_ino e) by (intros e Y; apply in_app_iff in Y; destruct Y as [Y|[<-|[]]]; [apply without_in in Y; destruct Y as (Y & _); apply without_in in Y; apply E; tauto|cbn; auto]).
      rewrite (dark_parent K p) by auto. rewrite (dark_emit K _ j) by auto. rewrite (dark_emit K _ i) by auto. constructor; cbn; auto.
Qed.
Lemma dark_live K p os : forall fuel k m, p <> [] -> dark K p k -> Forall (under p) os -> exists k', live fuel k m os = MOn k' m.
Proof.
  induction os as [|o os IH]; intros fuel k m P D U; cbn [live]; [eauto|]. inversion U; subst.
  destruct (disk_step k o) as [k1|] eqn:E; [|auto]. pose proof (dark_step _ _ _ _ _ P D H1 E) as D1. rewrite handle_done by apply D1. auto.
Qed.
Lemma watch_dark d0 k m p k1 os fuel : reached d0 k m -> is_dir d0 (removelast p) -> disk_step k (DNew p true) = Some k1 -> Forall (under p) os ->
  exists k', live fuel k1 m os = MOn k' m.
Proof.
  intros R S E U. apply reached_inv in R. assert (M : makes p (DNew p true)) by (right; eauto).
  destruct (blind_step _ _ _ _ _ _ R S M E) as (dir & -> & F & _). destruct (free_ok _ _ F) as (P & N & _).
  apply (dark_live (k_ino k) p); auto. constructor; cbn; auto.
  - intros w X. apply (v_wrange _ _ _ R w X).
  - intros e X H. apply in_app_iff in X. destruct X as [X|[<-|[]]]; [|cbn; auto]. exfalso.
    assert (G : forall r q e, q = p ++ r -> In e (k_disk k) -> e_path e = q -> False).
    { clear - R N P. intros r. induction r as [|a r IH] using rev_ind; intros q e Q X Y.
      - apply entry_none in N. apply N. rewrite app_nil_r in Q. rewrite <- Q, <- Y. now apply in_map.
      - destruct (t_parent _ _ (v_tree _ _ _ R) e X) as [Z|(e' & A & B & C)].
        + rewrite Y, Q, app_assoc, removelast_last in Z. destruct p; [easy|discriminate].
        + rewrite Y, Q, app_assoc, removelast_last in B. eapply IH; eauto. }
    destruct H as [H|H].
    + eapply (G []); eauto. rewrite app_nil_r. auto.
    + apply below_app in H. destruct H as (r & _ & H). eapply (G r); eauto.
Qed.

(** ** A file that is renamed *)
Lemma add_again k w i mp : NoDup (map h_ino (k_watch k)) -> In w (k_watch k) -> h_ino w = i -> h_mp w = mp -> inotify_add k i mp = (k, h_wd w).
Proof.
  intros N X <- <-. unfold inotify_add. rewrite watch_at by auto. f_equal.
  replace (map _ (k_watch k)) with (k_watch k); [now destruct k|]. symmetry. rewrite <- (map_id (k_watch k)) at 2. apply map_ext_in. intros v Y.
  destruct (h_ino v =? h_ino w) eqn:E; [|reflexivity]. apply Nat.eqb_eq in E. assert (v = w) as -> by (eapply nodup_inj; eauto). now destruct w.
Qed.
Lemma find_app_l {A} (t : A -> bool) l r x : List.find t l = Some x -> List.find t (l ++ r) = Some x.
Proof. induction l as [|a l IH]; cbn; [discriminate|]. destruct (t a); auto. Qed.
Lemma find_app_r {A} (t : A -> bool) l x : (forall y, In y l -> t y = false) -> t x = true -> List.find t (l ++ [x]) = Some x.
Proof. induction l as [|a l IH]; cbn; intros H T; [now rewrite T|]. rewrite (H a (or_introl eq_refl)). apply IH; auto. Qed.
Lemma dir_without d p q i : NoDup (map e_path d) -> In (mkEnt p i false) d -> dir_ino (without d p) q = dir_ino d q.
Proof.
  intros N X. unfold dir_ino. destruct q as [|a r]; [reflexivity|]. destruct (path_dec p (a :: r)) as [E|E].
  - subst p. rewrite gone_name. pose proof (entry_of d _ N X) as H. cbn [e_path] in H. now rewrite H.
  - replace (entry_at (without d p) (a :: r)) with (entry_at d (a :: r)); [reflexivity|]. unfold entry_at, without. induction d as [|e d IH]; cbn; [reflexivity|].
    clear X. assert (IH' : List.find (fun e => path_eqb (e_path e) (a :: r)) d = List.find (fun e => path_eqb (e_path e) (a :: r)) (filter (fun e => negb (path_eqb (e_path e) p)) d)).
    { clear - E. induction d as [|e d IH]; cbn; [reflexivity|]. destruct (path_eqb (e_path e) p) eqn:B; cbn.
      - apply path_eqb_eq in B. subst p. apply path_eqb_neq in E. now rewrite E.
      - now rewrite IH. }
    destruct (path_eqb (e_path e) p) eqn:B; cbn.
    + apply path_eqb_eq in B. subst p. pose proof E as E'. apply path_eqb_neq in E'. now rewrite E'.
    + now rewrite IH'.
Qed.
(** The state of things after a renaming within the mount point and its events. *)
Lemma renamed_ok d0 k m p q i fuel : inv d0 k m -> file_at (k_disk k) p = Some i -> free_at (k_disk k) q = true -> ~ is_dir d0 (removelast q) -> 3 <= fuel ->
  exists k1 m2 f, disk_step k (DRename p q) = Some k1 /\ In f (m_files m) /\ w_path f = p /\
    handle_all fuel k1 m = MOn (mkK (without (k_disk k) p ++ [mkEnt q i false]) (k_ino k) (filter (fun w => negb (h_wd w =? w_wd f)) (k_watch k)) (k_wd k) []) m2 /\
    m_files m2 = filter (fun g => negb (w_id g =? w_id f)) (m_files m) ++ [mkWf (m_next m) q false (w_wd f)] /\ m_rwd m2 = m_rwd m /\ m_told m < m_told m2 /\
    In (mkWatch i (w_wd f) false) (k_watch k).
Proof.
  intros V F FQ G N. destruct (free_ok _ _ FQ) as (P & E & j & J). pose proof F as FA. apply file_in in F.
  destruct (inv_ent _ _ _ _ V F) as (f & F1 & F2 & F3 & W). cbn in F2, F3, W. unfold mask in W. cbn [e_dir andb] in W.
  set (d := without (k_disk k) p ++ [mkEnt q i false]).
  assert (PQ : p <> q).
  { intros <-. pose proof (entry_of _ _ (t_paths _ _ (v_tree _ _ _ V)) F) as H. cbn in H. congruence. }
  assert (EQ : entry_at (without (k_disk k) p) q = None).
  { apply entry_absent. intros X. apply in_map_iff in X. destruct X as (e & X & Y). apply without_in in Y. apply entry_none in E. apply E. rewrite <- X. apply in_map. tauto. }
  assert (DJ : dir_ino d (removelast q) = Some j) by (apply dir_app; [exact EQ|erewrite dir_without; [exact J|apply V|eauto]]).
  assert (ED : entry_at d q = Some (mkEnt q i false)).
  { unfold d, entry_at. apply find_app_r; [|apply path_eqb_refl]. intros y Y. apply path_eqb_neq. intros Z. apply entry_none in EQ. apply EQ. rewrite <- Z. now apply in_map. }
  assert (S0 : started d0 (removelast q) = false).
  { destruct (started d0 (removelast q)) eqn:Z; [|reflexivity]. exfalso. apply G. now apply started_ok. }
  destruct (parent_watch _ _ _ _ _ V J) as (w & W1 & W2 & W3 & WP). unfold dir_mask in W3. rewrite S0 in W3. cbn in W3.
  set (k0 := with_disk k d).
  assert (D1 : disk_step k (DRename p q) = Some (with_queue k0 [(h_wd w, EMovedTo (last q [])); (w_wd f, EMoveSelf)])).
  { cbn [disk_step]. rewrite FA, FQ. apply path_eqb_neq in PQ. rewrite PQ. f_equal. fold d. fold k0. unfold emit_parent.
    change (k_disk k0) with d. rewrite DJ, <- W2, emit_in; [|apply V|exact W1]. rewrite W3. cbn [wants].
    change i with (h_ino (mkWatch i (w_wd f) false)). rewrite emit_in; [|apply V|exact W]. cbn [h_mp wants h_wd].
    unfold with_queue at 1. cbn [k_disk k_ino k_watch k_wd k_queue with_queue]. change (k_queue k0) with (k_queue k). rewrite (v_queue _ _ _ V). reflexivity. }
  set (m1 := mkM (m_files m ++ [mkWf (m_next m) q false (w_wd f)]) (S (m_next m)) (m_rwd m) (m_told m)).
  assert (A1 : watch_new (with_queue k0 [(w_wd f, EMoveSelf)]) m q = MOn (with_queue k0 [(w_wd f, EMoveSelf)]) m1).
  { unfold watch_new. change (k_disk (with_queue k0 [(w_wd f, EMoveSelf)])) with d. rewrite ED. cbn [e_dir]. unfold add_file. cbn [e_ino e_path e_dir].
    rewrite (add_again _ (mkWatch i (w_wd f) false) i false); [reflexivity|apply V|exact W|reflexivity|reflexivity]. }
  assert (H1 : handle (with_queue k0 [(h_wd w, EMovedTo (last q [])); (w_wd f, EMoveSelf)]) m = MOn (with_queue k0 [(w_wd f, EMoveSelf)]) (tell m1)).
  { destruct WP as [(Q & R)|(Q & g & G1 & G2 & G3 & G4)].
    - erewrite handle_root by (cbn; rewrite R; reflexivity). cbn [in_mp]. rewrite (removelast_nil q [] P Q).
      change (with_queue (with_queue k0 [(h_wd w, EMovedTo (last q [])); (w_wd f, EMoveSelf)]) [(w_wd f, EMoveSelf)]) with (with_queue k0 [(w_wd f, EMoveSelf)]). now rewrite A1.
    - erewrite handle_file by (eauto; cbn; rewrite G4; reflexivity). cbn [in_pf]. rewrite G3, G2, <- (app_removelast_last [] P).
      change (with_queue (with_queue k0 [(h_wd w, EMovedTo (last q [])); (w_wd f, EMoveSelf)]) [(w_wd f, EMoveSelf)]) with (with_queue k0 [(w_wd f, EMoveSelf)]). now rewrite A1. }
  pose proof (inv_rwd _ _ _ _ V F1) as NR. apply Nat.eqb_neq in NR.
  set (k2 := mkK d (k_ino k) (filter (fun w => negb (h_wd w =? w_wd f)) (k_watch k)) (k_wd k) [(w_wd f, EIgnored)]).
  assert (H2 : handle (with_queue k0 [(w_wd f, EMoveSelf)]) (tell m1) = MOn k2 (tell (drop_file (tell m1) f))).
  { unfold handle. cbn [with_queue k_queue m_rwd tell m1 m_files]. rewrite NR. rewrite (find_app_l _ _ _ _ (inv_find _ _ _ _ V F1)). cbn [in_pf]. rewrite F3.
    rewrite (rm_ok _ _ (mkWatch i (w_wd f) false)); [reflexivity|exact W|reflexivity]. }
  assert (NI : (m_next m =? w_id f) = false) by (apply Nat.eqb_neq; pose proof (v_idr _ _ _ V f F1); lia).
  assert (FM : m_files (tell (drop_file (tell m1) f)) = filter (fun g => negb (w_id g =? w_id f)) (m_files m) ++ [mkWf (m_next m) q false (w_wd f)]).
  { cbn. rewrite filter_app. cbn. now rewrite NI. }
  assert (H3 : handle k2 (tell (drop_file (tell m1) f)) = MOn (with_queue k2 []) (tell (tell (drop_file (tell m1) f)))).
  { unfold handle. cbn [k2 k_queue]. change (m_rwd (tell (drop_file (tell m1) f))) with (m_rwd m). rewrite NR, FM, find_app_r; [reflexivity| |apply Nat.eqb_refl].
    intros g Y. apply filter_In in Y. destruct Y as (Y & Z). apply Nat.eqb_neq. intros X. apply negb_true_iff, Nat.eqb_neq in Z. apply Z.
    pose proof (inv_find _ _ _ _ V Y) as B. rewrite X, (inv_find _ _ _ _ V F1) in B. injection B as B. congruence. }
  destruct fuel as [|[|[|fuel]]]; [lia|lia|lia|]. eexists; exists (tell (tell (drop_file (tell m1) f))); exists f. split; [exact D1|]. split; [auto|]. split; [auto|].
  split; [|split; [exact FM|split; [reflexivity|split; [|exact W]]]].
  - erewrite handle_more by reflexivity. rewrite H1. erewrite handle_more by reflexivity. rewrite H2. erewrite handle_more by reflexivity. rewrite H3.
    rewrite handle_done by reflexivity. reflexivity.
  - cbn. lia.
Qed.
(** From then on neither what is written into the file nor its removal is noticed. *)
Definition touches (q : bpath) (o : dop) : Prop := o = DWrite q \/ o = DChmod q \/ o = DUnlink q \/ o = DMoveOut q.
Lemma watch_renamed d0 k m p q fuel : reached d0 k m -> (exists i, file_at (k_disk k) p = Some i) -> free_at (k_disk k) q = true -> ~ is_dir d0 (removelast q) -> 3 <= fuel ->
  exists k1 k2 m2, disk_step k (DRename p q) = Some k1 /\ handle_all fuel k1 m = MOn k2 m2 /\ k_disk k2 = k_disk k1 /\ m_told m < m_told m2 /\
    forall o, touches q o -> exists k3, disk_step k2 o = Some k3 /\ forall n, handle_all n k3 m2 = MOn k3 m2.
Proof.
  intros R (i & F) FQ G N. apply reached_inv in R. destruct (renamed_ok _ _ _ _ _ _ _ R F FQ G N) as (k1 & m2 & f & D & F1 & F2 & H & M & RW & T & W).
  eexists k1, _, m2. split; [exact D|]. split; [exact H|].
  assert (DK : k_disk k1 = without (k_disk k) p ++ [mkEnt q i false]).
  { cbn [disk_step] in D. rewrite F, FQ in D. destruct (path_eqb p q); [discriminate|]. injection D as <-. now rewrite emit_disk, parent_disk. }
  split; [symmetry; exact DK|]. split; [auto|]. set (k2 := mkK _ _ _ _ _).
  destruct (free_ok _ _ FQ) as (P & E & j & J). pose proof F as FA. apply file_in in FA.
  assert (EQ : ~ In q (map e_path (without (k_disk k) p))).
  { intros X. apply in_map_iff in X. destruct X as (e & X & Y). apply without_in in Y. apply entry_none in E. apply E. rewrite <- X. apply in_map. tauto. }
  assert (FQ2 : file_at (k_disk k2) q = Some i).
  { unfold file_at. cbn [k2 k_disk]. unfold entry_at. erewrite find_app_r; [reflexivity| |apply path_eqb_refl]. intros y Y. apply path_eqb_neq. intros Z. apply EQ. rewrite <- Z. now apply in_map. }
  assert (NW : forall k' x, k_watch k' = k_watch k2 -> emit k' i x = k').
  { intros k' x WK. unfold emit. replace (watch_of k' i) with (@None watch); [reflexivity|]. symmetry. apply find_absent. rewrite WK. cbn [k2 k_watch]. intros v Y. apply filter_In in Y.
    destruct Y as (Y & Z). apply Nat.eqb_neq. intros X. assert (Q : v = mkWatch i (w_wd f) false) by (eapply (nodup_inj h_ino); [apply R|auto|auto|auto]). subst v. cbn in Z. now rewrite Nat.eqb_refl in Z. }
  assert (S0 : started d0 (removelast q) = false).
  { destruct (started d0 (removelast q)) eqn:Z; [|reflexivity]. exfalso. apply G. now apply started_ok. }
  destruct (parent_watch _ _ _ _ _ R J) as (w & W1 & W2 & W3 & WP). unfold dir_mask in W3. rewrite S0 in W3. cbn in W3.
  assert (NP : forall x, x = EModify \/ x = EAttrib -> emit_parent k2 q x = k2).
  { intros x X. unfold emit_parent. replace (dir_ino (k_disk k2) (removelast q)) with (Some j).
    2:{ symmetry. apply dir_app; [now apply entry_absent|]. erewrite dir_without; [exact J|apply R|eauto]. }
    unfold emit. destruct (watch_of k2 j) as [v|] eqn:Z; [|reflexivity]. apply find_some in Z. destruct Z as (Z & Z2). apply Nat.eqb_eq in Z2. cbn [k2 k_watch] in Z. apply filter_In in Z.
    destruct Z as (Z & _). assert (v = w) as -> by (eapply (nodup_inj h_ino); [apply R|auto|auto|congruence]). rewrite W3. now destruct X as [-> | ->]. }
  intros o [-> |[-> |[-> | ->]]]; cbn [disk_step]; rewrite FQ2; eexists; (split; [reflexivity|]); intros n; apply handle_done;
    rewrite ?(NP EModify), ?(NP EAttrib) by auto; rewrite NW by reflexivity; reflexivity.
Qed.

(** ** A file that is gone before its event is handled *)
Definition leaves (p : bpath) (o : dop) : Prop := o = DUnlink p \/ o = DMoveOut p.
Lemma stop_new d0 k m p o fuel : inv d0 k m -> free_at (k_disk k) p = true -> ~ is_dir d0 (removelast p) -> leaves p o -> 1 <= fuel ->
  exists k1 k2, disk_step k (DNew p false) = Some k1 /\ disk_step k1 o = Some k2 /\ handle_all fuel k2 m = MStop.
Proof.
  intros V F G L N. destruct (free_ok _ _ F) as (P & E & i & D). set (e := mkEnt p (k_ino k) false).
  assert (S0 : started d0 (removelast p) = false).
  { destruct (started d0 (removelast p)) eqn:Z; [|reflexivity]. exfalso. apply G. now apply started_ok. }
  destruct (parent_watch _ _ _ _ _ V D) as (w & W1 & W2 & W3 & WP). unfold dir_mask in W3. rewrite S0 in W3. cbn in W3.
  set (k1 := mkK (k_disk k ++ [e]) (S (k_ino k)) (k_watch k) (k_wd k) [(h_wd w, ECreate (last p []))]).
  assert (H1 : disk_step k (DNew p false) = Some k1).
  { cbn [disk_step]. rewrite F. f_equal. unfold emit_parent. cbn [k_disk]. fold e. rewrite (dir_app _ e _ _ E D). rewrite <- W2, emit_in; [|apply V|exact W1]. rewrite W3. cbn [wants].
    unfold with_queue. cbn [k_disk k_ino k_watch k_wd k_queue]. now rewrite (v_queue _ _ _ V). }
  assert (FP : file_at (k_disk k1) p = Some (k_ino k)).
  { unfold file_at. cbn [k1 k_disk]. unfold entry_at. erewrite find_app_r; [reflexivity| |apply path_eqb_refl]. intros y Y. apply path_eqb_neq. intros Z. apply entry_none in E. apply E. rewrite <- Z. now apply in_map. }
  set (k2 := with_disk k1 (without (k_disk k1) p)).
  assert (NW : forall x, emit k2 (k_ino k) x = k2).
  { intros x. unfold emit. replace (watch_of k2 (k_ino k)) with (@None watch); [reflexivity|]. symmetry. apply find_absent. intros v Y. apply Nat.eqb_neq. pose proof (v_wrange _ _ _ V v Y). lia. }
  exists k1, k2. split; [exact H1|]. split.
  - destruct L as [-> | ->]; cbn [disk_step]; rewrite FP; f_equal; apply NW.
  - destruct fuel as [|fuel]; [lia|]. erewrite handle_more by reflexivity.
    assert (A : watch_new (with_queue k2 []) m p = MStop) by (unfold watch_new; change (k_disk (with_queue k2 [])) with (without (k_disk k1) p); now rewrite gone_name).
    replace (handle k2 m) with MStop; [reflexivity|]. symmetry. destruct WP as [(Q & R)|(Q & g & G1 & G2 & G3 & G4)].
    + erewrite handle_root by (cbn; rewrite R; reflexivity). cbn [in_mp]. rewrite (removelast_nil p [] P Q). now rewrite A.
    + erewrite handle_file by (eauto; cbn; rewrite G4; reflexivity). cbn [in_pf]. rewrite G3, G2, <- (app_removelast_last [] P). now rewrite A.
Qed.
Lemma emit_queue k i x : exists l, emit k i x = with_queue k (k_queue k ++ l).
Proof.
  unfold emit. destruct (watch_of k i) as [w|]; [destruct (wants (h_mp w) x)|]; eauto; exists []; rewrite app_nil_r; now destruct k.
Qed.
Lemma stop_written d0 k m p o fuel : inv d0 k m -> (exists i, file_at (k_disk k) p = Some i) -> leaves p o -> 2 <= fuel ->
  exists k1 k2, disk_step k (DWrite p) = Some k1 /\ disk_step k1 o = Some k2 /\ handle_all fuel k2 m = MStop.
Proof.
  intros V (i & F) L N. pose proof F as FI. apply file_in in FI. destruct (inv_ent _ _ _ _ V FI) as (f & F1 & F2 & F3 & W). cbn in F2, F3, W.
  unfold mask in W. cbn [e_dir andb] in W.
  destruct (parent_in _ _ _ _ V FI) as (j & J). cbn in J. destruct (parent_watch _ _ _ _ _ V J) as (w & W' & WI & WM & WP).
  assert (Q : exists l, (l = [] \/ exists g, l = [(w_wd g, EModify)] /\ In g (m_files m) /\ w_dir g = true) /\
    disk_step k (DWrite p) = Some (with_queue k (l ++ [(w_wd f, EModify)]))).
  { exists (if started d0 (removelast p) then [(h_wd w, EModify)] else []). split.
    - destruct (started d0 (removelast p)) eqn:S; [|auto]. right. destruct WP as [(Q & _)|(Q & g & G1 & G2 & G3 & G4)].
      + rewrite Q, (v_nil _ _ _ V) in S. discriminate.
      + exists g. rewrite G4. auto.
    - cbn [disk_step]. rewrite F. f_equal. unfold emit_parent. rewrite J. rewrite <- WI, (emit_in k w) by (auto; apply V). rewrite WM. unfold dir_mask.
      assert (E2 : forall k', k_watch k' = k_watch k -> emit k' i EModify = with_queue k' (k_queue k' ++ [(w_wd f, EModify)])).
      { intros k' E. change i with (h_ino (mkWatch i (w_wd f) false)). now rewrite emit_in; [|rewrite E; apply V|rewrite E; exact W]. }
      destruct (started d0 (removelast p)); cbn [negb wants]; rewrite E2 by reflexivity; cbn [with_queue k_queue]; rewrite (v_queue _ _ _ V); reflexivity. }
  destruct Q as (l & LF & H1). exists (with_queue k (l ++ [(w_wd f, EModify)])).
  assert (H2 : exists r, disk_step (with_queue k (l ++ [(w_wd f, EModify)])) o = Some (with_queue (with_disk k (without (k_disk k) p)) (l ++ (w_wd f, EModify) :: r))).
  { destruct L as [-> | ->]; cbn [disk_step]; change (k_disk (with_queue k (l ++ [(w_wd f, EModify)]))) with (k_disk k); rewrite F.
    - destruct (emit_queue (with_disk (with_queue k (l ++ [(w_wd f, EModify)])) (without (k_disk k) p)) i EAttrib) as (r & E). exists r. rewrite E. cbn [k_queue with_disk with_queue]. now rewrite <- app_assoc.
    - destruct (emit_queue (with_disk (with_queue k (l ++ [(w_wd f, EModify)])) (without (k_disk k) p)) i EMoveSelf) as (r & E). exists r. rewrite E. cbn [k_queue with_disk with_queue]. now rewrite <- app_assoc. }
  destruct H2 as (r & H2). eexists. split; [exact H1|]. split; [exact H2|]. set (k0 := with_disk k (without (k_disk k) p)).
  assert (B : forall n m', 1 <= n -> m_files m' = m_files m -> m_rwd m' = m_rwd m -> handle_all n (with_queue k0 ((w_wd f, EModify) :: r)) m' = MStop).
  { intros n m' Hn M1 M2. destruct n as [|n]; [lia|]. erewrite handle_more by reflexivity. unfold handle. cbn [k_queue with_queue].
    rewrite M1, M2, (inv_find _ _ _ _ V F1). pose proof (inv_rwd _ _ _ _ V F1) as R. apply Nat.eqb_neq in R. rewrite R. cbn [in_pf]. rewrite F3.
    match goal with |- context [on_disk ?a ?b] => assert (OD : on_disk a b = false) by (unfold on_disk; cbn [k0 with_queue with_disk k_disk]; now rewrite F2, gone_name) end.
    now rewrite OD. }
  destruct LF as [-> |(g & -> & G1 & G2)]; cbn [app].
  - apply B; auto. lia.
  - destruct fuel as [|fuel]; [lia|]. erewrite handle_more by reflexivity. erewrite handle_file by (eauto; reflexivity). cbn [in_pf]. rewrite G2.
    change (with_queue (with_queue k0 ((w_wd g, EModify) :: (w_wd f, EModify) :: r)) ((w_wd f, EModify) :: r)) with (with_queue k0 ((w_wd f, EModify) :: r)). apply B; auto. lia.
Qed.
Lemma watch_stops_new d0 k m p o fuel : reached d0 k m -> free_at (k_disk k) p = true -> ~ is_dir d0 (removelast p) -> leaves p o -> 1 <= fuel ->
  exists k1 k2, disk_step k (DNew p false) = Some k1 /\ disk_step k1 o = Some k2 /\ handle_all fuel k2 m = MStop.
Proof. intros R. apply reached_inv in R. now apply (stop_new d0). Qed.
Lemma watch_stops_written d0 k m p o fuel : reached d0 k m -> (exists i, file_at (k_disk k) p = Some i) -> leaves p o -> 2 <= fuel ->
  exists k1 k2, disk_step k (DWrite p) = Some k1 /\ disk_step k1 o = Some k2 /\ handle_all fuel k2 m = MStop.
Proof. intros R. apply reached_inv in R. now apply (stop_written d0). Qed.
