(** More about the master's watch: files that are replaced, and what is already in a new directory. *)
From Coq Require Import Lia Bool.
From Verif Require Import Base Watch WatchProofs.
Local Open Scope nat_scope.

(** ** A file that is replaced by renaming another one over it *)
Section Replace.
Variables (d0 : list ent) (k : kern) (m : master) (p q : bpath) (i j : nat).
Hypotheses (V : inv d0 k m) (FP : file_at (k_disk k) p = Some i) (FQ : file_at (k_disk k) q = Some j) (PQ : p <> q) (G : ~ is_dir d0 (removelast q)).

Let d := without (without (k_disk k) q) p ++ [mkEnt q i false].

Lemma rep_in : In (mkEnt p i false) (k_disk k) /\ In (mkEnt q j false) (k_disk k).
Proof. split; apply file_in; assumption. Qed.
Lemma rep_not_free : free_at (k_disk k) q = false.
Proof.
  unfold free_at. unfold file_at in FQ. destruct q as [|a r]; [reflexivity|]. destruct (entry_at (k_disk k) (a :: r)); [reflexivity|discriminate].
Qed.
Lemma rep_entry : entry_at d q = Some (mkEnt q i false).
Proof.
  unfold d, entry_at. apply find_app_r; [|apply path_eqb_refl]. intros y Y. apply without_in in Y. destruct Y as (Y & _). apply without_in in Y. apply path_eqb_neq. tauto.
Qed.
Lemma rep_ino : i <> j.
Proof.
  destruct rep_in as (A & B). intro E. subst j. assert (X : mkEnt p i false = mkEnt q i false) by (eapply (nodup_inj e_ino); [apply (t_inos _ _ (v_tree _ _ _ V))|auto|auto|reflexivity]).
  injection X as X. contradiction.
Qed.
Lemma rep_gone : existsb (fun e => e_ino e =? j) d = false.
Proof.
  destruct rep_in as (A & B). apply not_true_iff_false. intro X. apply existsb_exists in X. destruct X as (e & X & E). apply Nat.eqb_eq in E.
  unfold d in X. apply in_app_or in X. destruct X as [X|[<-|[]]]; [|cbn in E; apply rep_ino; exact E].
  apply without_in in X. destruct X as (X & _). apply without_in in X. destruct X as (X & N).
  assert (Z : e = mkEnt q j false) by (eapply (nodup_inj e_ino); [apply (t_inos _ _ (v_tree _ _ _ V))|auto|auto|exact E]). subst e. apply N. reflexivity.
Qed.
Lemma rep_nonnil : q <> [].
Proof. destruct rep_in as (_ & B). exact (t_named _ _ (v_tree _ _ _ V) _ B). Qed.

Lemma replaced_ok fuel : 4 <= fuel -> exists k1 k2 m2 k3 k4 m4,
  disk_step k (DRename p q) = Some k1 /\ handle_all fuel k1 m = MOn k2 m2 /\ disk_step k2 (DGone j) = Some k3 /\ handle_all fuel k3 m2 = MOn k4 m4 /\
  k_disk k4 = d /\ mirrors m4 d /\ m_told m < m_told m2.
Proof.
  intro N. destruct rep_in as (IP & IQ).
  destruct (inv_ent _ _ _ _ V IP) as (f & F1 & F2 & F3 & W). cbn [e_path e_ino e_dir] in F2, F3, W. unfold mask in W. cbn [e_dir andb] in W.
  destruct (inv_ent _ _ _ _ V IQ) as (g & G1 & G2 & G3 & WG). cbn [e_path e_ino e_dir] in G2, G3, WG. unfold mask in WG. cbn [e_dir andb] in WG.
  assert (FG : f <> g) by congruence.
  destruct (parent_in _ _ _ _ V IQ) as (a & J). cbn [e_path] in J.
  assert (S0 : started d0 (removelast q) = false).
  { destruct (started d0 (removelast q)) eqn:Z; [|reflexivity]. exfalso. apply G. now apply started_ok. }
  destruct (parent_watch _ _ _ _ _ V J) as (w & W1 & W2 & W3 & WP). unfold dir_mask in W3. rewrite S0 in W3. cbn in W3.
  assert (DJ : dir_ino d (removelast q) = Some a).
  { unfold d. apply dir_app.
    - cbn [e_path]. apply entry_absent. intros X. apply in_map_iff in X. destruct X as (e & X & Y). apply without_in in Y. destruct Y as (Y & _). apply without_in in Y. tauto.
    - assert (T : tree (without (k_disk k) q) (k_ino k)) by (eapply tree_without; [apply V|eauto]).
      rewrite (dir_without _ p _ i); [|apply T|apply without_in; split; [auto|exact PQ]].
      rewrite (dir_without _ q _ j); [exact J|apply V|auto]. }
  set (k0 := with_disk k d).
  assert (D1 : disk_step k (DRename p q) = Some (with_queue k0 [(h_wd w, EMovedTo (last q [])); (w_wd g, EAttrib); (w_wd f, EMoveSelf)])).
  { cbn [disk_step]. rewrite FP, rep_not_free, FQ. pose proof PQ as PQ'. apply path_eqb_neq in PQ'. rewrite PQ'. f_equal. fold d. fold k0. unfold emit_parent.
    change (k_disk k0) with d. rewrite DJ, <- W2, emit_in; [|apply V|exact W1]. rewrite W3. cbn [wants].
    change j with (h_ino (mkWatch j (w_wd g) false)). rewrite emit_in; [|apply V|exact WG]. cbn [h_mp wants h_wd negb].
    change i with (h_ino (mkWatch i (w_wd f) false)). rewrite emit_in; [|apply V|exact W]. cbn [h_mp wants h_wd].
    unfold with_queue. cbn [k_disk k_ino k_watch k_wd k_queue]. change (k_queue k0) with (k_queue k). rewrite (v_queue _ _ _ V). reflexivity. }
  pose proof rep_nonnil as P.
  set (m1 := mkM (m_files m ++ [mkWf (m_next m) q false (w_wd f)]) (S (m_next m)) (m_rwd m) (m_told m)).
  set (q1 := [(w_wd g, EAttrib); (w_wd f, EMoveSelf)]).
  assert (A1 : watch_new (with_queue k0 q1) m q = MOn (with_queue k0 q1) m1).
  { unfold watch_new. change (k_disk (with_queue k0 q1)) with d. rewrite rep_entry. cbn [e_dir]. unfold add_file. cbn [e_ino e_path e_dir].
    rewrite (add_again _ (mkWatch i (w_wd f) false) i false); [reflexivity|apply V|exact W|reflexivity|reflexivity]. }
  assert (H1 : handle (with_queue k0 ((h_wd w, EMovedTo (last q [])) :: q1)) m = MOn (with_queue k0 q1) (tell m1)).
  { destruct WP as [(Q & R)|(Q & h & X1 & X2 & X3 & X4)].
    - erewrite handle_root by (cbn [with_queue k_queue]; rewrite R; reflexivity). cbn [in_mp]. rewrite (removelast_nil q [] P Q).
      change (with_queue (with_queue k0 ((h_wd w, EMovedTo (last q [])) :: q1)) q1) with (with_queue k0 q1). now rewrite A1.
    - erewrite handle_file by (eauto; cbn [with_queue k_queue]; rewrite X4; reflexivity). cbn [in_pf]. rewrite X3, X2, <- (app_removelast_last [] P).
      change (with_queue (with_queue k0 ((h_wd w, EMovedTo (last q [])) :: q1)) q1) with (with_queue k0 q1). now rewrite A1. }
  pose proof (inv_rwd _ _ _ _ V F1) as NR. apply Nat.eqb_neq in NR. pose proof (inv_rwd _ _ _ _ V G1) as NG. apply Nat.eqb_neq in NG.
  assert (H2 : handle (with_queue k0 q1) (tell m1) = MOn (with_queue k0 [(w_wd f, EMoveSelf)]) (tell (tell m1))).
  { unfold handle, q1. cbn [with_queue k_queue m_rwd tell m1 m_files]. rewrite NG. rewrite (find_app_l _ _ _ _ (inv_find _ _ _ _ V G1)). cbn [in_pf]. rewrite G3.
    unfold on_disk. cbn [k_disk with_queue k0 with_disk]. rewrite G2, rep_entry. reflexivity. }
  set (ws := filter (fun w => negb (h_wd w =? w_wd f)) (k_watch k)).
  set (k2 := mkK d (k_ino k) ws (k_wd k) [(w_wd f, EIgnored)]).
  set (m3 := tell (drop_file (tell (tell m1)) f)).
  assert (H3 : handle (with_queue k0 [(w_wd f, EMoveSelf)]) (tell (tell m1)) = MOn k2 m3).
  { unfold handle. cbn [with_queue k_queue m_rwd tell m1 m_files]. rewrite NR. rewrite (find_app_l _ _ _ _ (inv_find _ _ _ _ V F1)). cbn [in_pf]. rewrite F3.
    rewrite (rm_ok _ _ (mkWatch i (w_wd f) false)); [reflexivity|exact W|reflexivity]. }
  assert (NI : (m_next m =? w_id f) = false) by (apply Nat.eqb_neq; pose proof (v_idr _ _ _ V f F1); lia).
  assert (NJ : (m_next m =? w_id g) = false) by (apply Nat.eqb_neq; pose proof (v_idr _ _ _ V g G1); lia).
  set (fs := filter (fun h => negb (w_id h =? w_id f)) (m_files m)).
  assert (FM : m_files m3 = fs ++ [mkWf (m_next m) q false (w_wd f)]).
  { cbn. rewrite filter_app. cbn. now rewrite NI. }
  assert (NF : forall h, In h fs -> (w_wd h =? w_wd f) = false).
  { intros h Y. apply filter_In in Y. destruct Y as (Y & Z). apply Nat.eqb_neq. intros X. apply negb_true_iff, Nat.eqb_neq in Z. apply Z.
    pose proof (inv_find _ _ _ _ V Y) as B. rewrite X, (inv_find _ _ _ _ V F1) in B. injection B as B. congruence. }
  assert (H4 : handle k2 m3 = MOn (with_queue k2 []) (tell m3)).
  { unfold handle. cbn [k2 k_queue]. change (m_rwd m3) with (m_rwd m). rewrite NR, FM, find_app_r; [reflexivity|exact NF|apply Nat.eqb_refl]. }
  assert (IG : In g fs).
  { apply filter_In. split; [exact G1|]. apply negb_true_iff, Nat.eqb_neq. intro E. apply FG. symmetry. eapply (nodup_inj w_id); [apply V|auto|auto|exact E]. }
  assert (WD : w_wd g <> w_wd f) by (intro E; pose proof (NF g IG) as X; rewrite E, Nat.eqb_refl in X; discriminate X).
  assert (WJ : watch_of (with_queue k2 []) j = Some (mkWatch j (w_wd g) false)).
  { change j with (h_ino (mkWatch j (w_wd g) false)) at 1. apply watch_at; cbn [with_queue k2 k_watch].
    - apply nodup_filter, V.
    - apply filter_In. split; [exact WG|]. cbn [h_wd]. apply negb_true_iff, Nat.eqb_neq. exact WD. }
  set (k3 := mkK d (k_ino k) (filter (fun v => negb (h_ino v =? j)) ws) (k_wd k) [(w_wd g, EDeleteSelf); (w_wd g, EIgnored)]).
  assert (D3 : disk_step (with_queue k2 []) (DGone j) = Some k3).
  { cbn [disk_step]. change (k_disk (with_queue k2 [])) with d. rewrite rep_gone. pose proof (t_range _ _ (v_tree _ _ _ V) _ IQ) as R. cbn [e_ino] in R.
    replace (j =? 0) with false by (symmetry; apply Nat.eqb_neq; lia). cbn [orb]. rewrite WJ. reflexivity. }
  set (m4 := tell (drop_file (tell m3) g)).
  assert (FIND : List.find (fun h => w_wd h =? w_wd g) (m_files (tell m3)) = Some g).
  { change (m_files (tell m3)) with (m_files m3). rewrite FM. apply find_app_l. eapply (find_unique w_path); [apply nodup_filter, V|exact IG|apply Nat.eqb_refl|].
    intros y Y E. apply Nat.eqb_eq in E. apply filter_In in Y. destruct Y as (Y & _). pose proof (inv_find _ _ _ _ V Y) as B. rewrite E, (inv_find _ _ _ _ V G1) in B. injection B as B. congruence. }
  assert (H5 : handle k3 (tell m3) = MOn (with_queue k3 [(w_wd g, EIgnored)]) m4).
  { unfold handle. cbn [k3 k_queue]. change (m_rwd (tell m3)) with (m_rwd m). rewrite NG, FIND. cbn [in_pf]. rewrite G3. reflexivity. }
  assert (FM4 : m_files m4 = filter (fun h => negb (w_id h =? w_id g)) fs ++ [mkWf (m_next m) q false (w_wd f)]).
  { change (m_files m4) with (filter (fun h => negb (w_id h =? w_id g)) (m_files m3)). rewrite FM, filter_app. cbn [filter w_id]. now rewrite NJ. }
  assert (IN4 : forall h, In h (filter (fun h => negb (w_id h =? w_id g)) fs) <-> In h (m_files m) /\ w_path h <> p /\ w_path h <> q).
  { intro h. unfold fs. rewrite !filter_In, !negb_true_iff, !Nat.eqb_neq. split.
    - intros ((Y & Z1) & Z2). split; [exact Y|]. split; intro E; [apply Z1|apply Z2]; f_equal; (eapply (nodup_inj w_path); [apply V|auto|auto|congruence]).
    - intros (Y & Z1 & Z2). split; [split; [exact Y|]|]; intro E; [apply Z1; rewrite <- F2|apply Z2; rewrite <- G2]; f_equal; (eapply (nodup_inj w_id); [apply V|auto|auto|exact E]). }
  assert (H6 : handle (with_queue k3 [(w_wd g, EIgnored)]) m4 = MOn (with_queue k3 []) m4).
  { unfold handle. cbn [with_queue k3 k_queue]. change (m_rwd m4) with (m_rwd m). rewrite NG, FM4. rewrite find_absent; [reflexivity|].
    intros y Y. apply in_app_or in Y. destruct Y as [Y|[<-|[]]].
    - apply IN4 in Y. destruct Y as (Y & _ & Z). apply Nat.eqb_neq. intro E. pose proof (inv_find _ _ _ _ V Y) as B. rewrite E, (inv_find _ _ _ _ V G1) in B. injection B as B. congruence.
    - cbn [w_wd]. apply Nat.eqb_neq. auto. }
  assert (MIR : mirrors m4 d).
  { pose proof (inv_mirrors _ _ _ V) as (MN & MM). split.
    - rewrite FM4. apply nodup_app.
      + apply nodup_filter, nodup_filter, V.
      + cbn [w_path]. intro X. apply in_map_iff in X. destruct X as (h & X & Y). apply IN4 in Y. tauto.
    - intros r dir. rewrite FM4. unfold d. rewrite !map_app, !in_app_iff. cbn [map In w_path w_dir e_path e_dir]. rewrite !in_map_iff. split.
      + intros [(h & E & Y)|[E|[]]]; [left|right; left; exact E]. apply IN4 in Y. destruct Y as (Y & Z1 & Z2). destruct (v_files _ _ _ V h Y) as (e & E1 & E2 & E3 & _).
        exists e. split; [congruence|]. apply without_in. split; [apply without_in; split; [auto|congruence]|congruence].
      + intros [(e & E & Y)|[E|[]]]; [left|right; left; exact E]. apply without_in in Y. destruct Y as (Y & Z1). apply without_in in Y. destruct Y as (Y & Z2).
        destruct (inv_ent _ _ _ _ V Y) as (h & E1 & E2 & E3 & _). exists h. split; [congruence|]. apply IN4. split; [auto|]. split; congruence. }
  destruct fuel as [|[|[|[|fuel]]]]; [lia|lia|lia|lia|].
  eexists; exists (with_queue k2 []), (tell m3), k3, (with_queue k3 []), m4. split; [exact D1|]. split.
  { erewrite handle_more by reflexivity. fold q1. rewrite H1. erewrite handle_more by reflexivity. rewrite H2. erewrite handle_more by reflexivity. rewrite H3. erewrite handle_more by reflexivity. rewrite H4.
    rewrite handle_done by reflexivity. reflexivity. }
  split; [exact D3|]. split.
  { erewrite handle_more by reflexivity. rewrite H5. erewrite handle_more by reflexivity. rewrite H6. rewrite handle_done by reflexivity. reflexivity. }
  split; [reflexivity|]. split; [exact MIR|]. cbn. lia.
Qed.
End Replace.
Lemma watch_replaced d0 k m p q i j fuel : reached d0 k m -> file_at (k_disk k) p = Some i -> file_at (k_disk k) q = Some j -> p <> q -> ~ is_dir d0 (removelast q) -> 4 <= fuel ->
  exists k1 k2 m2 k3 k4 m4, disk_step k (DRename p q) = Some k1 /\ handle_all fuel k1 m = MOn k2 m2 /\ disk_step k2 (DGone j) = Some k3 /\ handle_all fuel k3 m2 = MOn k4 m4 /\
    m_told m < m_told m2 /\ mirrors m4 (k_disk k4).
Proof.
  intros R FP FQ PQ G N. destruct (replaced_ok d0 k m p q i j (reached_inv _ _ _ R) FP FQ PQ G fuel N) as (k1 & k2 & m2 & k3 & k4 & m4 & A & B & C & D & E & M & T).
  exists k1, k2, m2, k3, k4, m4. rewrite E. auto 8.
Qed.

(** ** What is already in a new directory *)
(** The master has a struct for the object, and the kernel a watch of its kind with the descriptor of the struct. *)
Definition watched (k : kern) (m : master) (e : ent) : Prop :=
  exists f, In f (m_files m) /\ w_path f = e_path e /\ w_dir f = e_dir e /\ watch_of k (e_ino e) = Some (mkWatch (e_ino e) (w_wd f) (e_dir e)).
Definition unwatched (k : kern) (m : master) (e : ent) : Prop := watch_of k (e_ino e) = None /\ known m (e_path e) = false.

Lemma add_file_watched k m e : watch_of k (e_ino e) = None -> let '(k', m') := add_file k m e (e_dir e) in watched k' m' e.
Proof.
  intro W. unfold add_file, inotify_add. rewrite W. eexists. split; [apply in_or_app; right; left; reflexivity|]. cbn [w_path w_dir w_wd]. split; [reflexivity|]. split; [reflexivity|].
  unfold watch_of in *. cbn [k_watch]. apply find_app_r; [|apply Nat.eqb_refl]. intros y Y. exact (find_none _ _ W y Y).
Qed.
Lemma add_file_keeps k m e x : watch_of k (e_ino e) = None -> watched k m x -> let '(k', m') := add_file k m e (e_dir e) in watched k' m' x.
Proof.
  intros W (f & F1 & F2 & F3 & F4). unfold add_file, inotify_add. rewrite W. exists f. split; [apply in_or_app; left; exact F1|]. split; [exact F2|]. split; [exact F3|].
  unfold watch_of in *. cbn [k_watch]. apply find_app_l. exact F4.
Qed.
Lemma add_file_leaves k m e x : watch_of k (e_ino e) = None -> e_ino x <> e_ino e -> e_path x <> e_path e -> unwatched k m x ->
  let '(k', m') := add_file k m e (e_dir e) in unwatched k' m' x.
Proof.
  intros W NI NP (A & B). unfold add_file, inotify_add. rewrite W. split.
  - unfold watch_of in *. cbn [k_watch]. apply find_absent. intros y Y. apply in_app_or in Y. destruct Y as [Y|[<-|[]]]; [exact (find_none _ _ A y Y)|]. cbn [h_ino]. apply Nat.eqb_neq. auto.
  - unfold known in *. cbn [m_files]. rewrite existsb_app, B. cbn [existsb w_path orb]. rewrite orb_false_r. apply path_eqb_neq. auto.
Qed.
Lemma add_file_same k m e mp : let '(k', m') := add_file k m e mp in k_disk k' = k_disk k.
Proof. unfold add_file, inotify_add. destruct (watch_of k (e_ino e)); reflexivity. Qed.

Lemma nftw_ok p es : forall k m, NoDup (map e_ino es) -> NoDup (map e_path es) -> (forall e, In e es -> below p (e_path e) = true -> unwatched k m e) ->
  let '(k', m') := nftw k m p es in
  (forall e, In e es -> below p (e_path e) = true -> watched k' m' e) /\ (forall x, watched k m x -> watched k' m' x) /\
  (forall x, unwatched k m x -> (forall e, In e es -> below p (e_path e) = true -> e_ino x <> e_ino e /\ e_path x <> e_path e) -> unwatched k' m' x).
Proof.
  induction es as [|e es IH]; intros k m NI NP U; cbn [nftw]; [split; [intros e []|split; auto]|].
  inversion NI as [|? ? NI1 NI2]; subst. inversion NP as [|? ? NP1 NP2]; subst.
  destruct (below p (e_path e)) eqn:B.
  - destruct (U e (or_introl eq_refl) B) as (UW & UK). rewrite UK. cbn [andb negb].
    pose proof (add_file_watched k m e UW) as AW. pose proof (fun x => add_file_keeps k m e x UW) as AK. pose proof (fun x => add_file_leaves k m e x UW) as AL.
    destruct (add_file k m e (e_dir e)) as [k1 m1].
    assert (U1 : forall x, In x es -> below p (e_path x) = true -> unwatched k1 m1 x).
    { intros x X BX. apply AL; [| |apply U; [right; exact X|exact BX]]; intro E; [apply NI1|apply NP1]; rewrite <- E; apply in_map; exact X. }
    specialize (IH k1 m1 NI2 NP2 U1). destruct (nftw k1 m1 p es) as [k2 m2]. destruct IH as (H1 & H2 & H3). split; [|split].
    + intros x [<-|X] BX; [apply H2; exact AW|apply H1; assumption].
    + intros x X. apply H2, AK, X.
    + intros x X S. apply H3; [apply AL; [apply (S e (or_introl eq_refl) B)|apply (S e (or_introl eq_refl) B)|exact X]|]. intros y Y. apply S. right. exact Y.
  - cbn [andb]. assert (U1 : forall x, In x es -> below p (e_path x) = true -> unwatched k m x) by (intros x X; apply U; right; exact X).
    specialize (IH k m NI2 NP2 U1). destruct (nftw k m p es) as [k2 m2]. destruct IH as (H1 & H2 & H3). split; [|split].
    + intros x [<-|X] BX; [congruence|apply H1; assumption].
    + exact H2.
    + intros x X S. apply H3; [exact X|]. intros y Y. apply S. right. exact Y.
Qed.
Lemma scanned k m p e : NoDup (map e_ino (k_disk k)) -> NoDup (map e_path (k_disk k)) -> In e (k_disk k) -> e_path e = p -> e_dir e = true ->
  (forall x, In x (k_disk k) -> here p (e_path x) -> unwatched k m x) ->
  exists k2 m2, watch_new k m p = MOn k2 m2 /\ (forall x, watched k m x -> watched k2 m2 x) /\ forall x, In x (k_disk k) -> here p (e_path x) -> watched k2 m2 x.
Proof.
  intros NI NP I E D U. unfold watch_new. rewrite <- E, (entry_of _ _ NP I), D, E.
  pose proof (nftw_ok p (k_disk k) k m NI NP (fun x X B => U x X (or_intror B))) as H. destruct (nftw k m p (k_disk k)) as [k1 m1]. destruct H as (H1 & H2 & H3).
  assert (UE : unwatched k1 m1 e).
  { apply H3; [apply U; [exact I|left; exact E]|]. intros x X B. split; intro Q.
    - assert (e = x) by (eapply (nodup_inj e_ino); eauto). subst x. rewrite E, below_self in B. discriminate B.
    - rewrite <- Q, E, below_self in B. discriminate B. }
  destruct UE as (UW & UK). rewrite <- D. pose proof (add_file_watched k1 m1 e UW) as AW. pose proof (fun x => add_file_keeps k1 m1 e x UW) as AK.
  destruct (add_file k1 m1 e (e_dir e)) as [k2 m2]. exists k2, m2. split; [reflexivity|]. split; [intros x X; apply AK, H2, X|].
  intros x X [Q|B]; [|apply AK, H1; assumption]. assert (x = e) as -> by (eapply (nodup_inj e_path); [exact NP|auto|auto|congruence]). exact AW.
Qed.
(** The event of the mount point about a new directory. *)
Lemma watch_scans k m n e q : NoDup (map e_ino (k_disk k)) -> NoDup (map e_path (k_disk k)) -> In e (k_disk k) -> e_path e = [n] -> e_dir e = true ->
  k_queue k = (m_rwd m, ECreate n) :: q -> (forall x, In x (k_disk k) -> here [n] (e_path x) -> unwatched k m x) ->
  exists k2 m2, handle k m = MOn k2 m2 /\ m_told m2 = S (m_told m) /\ (forall x, watched k m x -> watched k2 m2 x) /\ forall x, In x (k_disk k) -> here [n] (e_path x) -> watched k2 m2 x.
Proof.
  intros NI NP I E D Q U. erewrite handle_root by exact Q. cbn [in_mp].
  destruct (scanned (with_queue k q) m [n] e NI NP I E D U) as (k2 & m2 & W & A & B). rewrite W. exists k2, (tell m2). split; [reflexivity|]. split.
  - cbn. f_equal. clear A B. unfold watch_new in W. destruct (entry_at _ _) as [e'|]; [|discriminate W].
    assert (NT : forall p es k m, m_told (snd (nftw k m p es)) = m_told m).
    { intros p es. induction es as [|x es IH]; intros k' m'; cbn [nftw]; [reflexivity|]. destruct (_ && _); [|apply IH]. unfold add_file. destruct (inotify_add _ _ _). rewrite IH. reflexivity. }
    destruct (e_dir e').
    + pose proof (NT [n] (k_disk (with_queue k q)) (with_queue k q) m) as T. destruct (nftw _ _ _ _) as [k1 m1]. unfold add_file in W. destruct (inotify_add _ _ _). injection W as _ <-. exact T.
    + unfold add_file in W. destruct (inotify_add _ _ _). injection W as _ <-. reflexivity.
  - split; [intros x X; exact (A x X)|intros x X H; exact (B x X H)].
Qed.
