From Coq Require Import Permutation.
From Verif Require Import Base RbTree RbTreeProofs Alloc.

(** ** Specification: which blocks are outstanding in which pool. *)
Record apool := mkApool { ap_id : nat; ap_sd : bool; ap_blocks : list block }.
Definition asp_on (pid : nat) (f : list block -> list block) (A : list apool) : list apool :=
  map (fun p => if ap_id p =? pid then mkApool (ap_id p) (ap_sd p) (f (ap_blocks p)) else p) A.
Definition asp_step (A : list apool) (o : aop) : list apool :=
  match o with
  | ACreate pid sd => A ++ [mkApool pid sd []]
  | AAlloc pid b e _ => asp_on pid (fun bs => bs ++ [mkBlock b e]) A
  | AFree pid ptr => asp_on pid (filter (fun bk => negb (bk_entry bk =? ptr))) A
  | ADelete pid => filter (fun p => negb (ap_id p =? pid)) A
  | AReleaseAll => filter ap_sd A
  end.
Definition asp_run (A : list apool) (os : list aop) : list apool := fold_left asp_step os A.
Definition baddrs (bs : list block) : list nat := concat (map (fun bk => [bk_entry bk; bk_addr bk]) bs).
Definition outstanding (A : list apool) : list nat := concat (map (fun p => baddrs (ap_blocks p)) A).

(** Legal use: pools are used between creation and deletion, and malloc returns unused memory. *)
Definition aop_ok (w : world) (A : list apool) (o : aop) : Prop :=
  match o with
  | ACreate pid _ => ~ In pid (map ap_id A)
  | AAlloc pid b e r => In pid (map ap_id A) /\ b <> e /\ ~ In b (outstanding A) /\ ~ In e (outstanding A) /\
      (forall p, find_pool w pid = Some p -> ~ In r (addresses (po_tree p)))
  | AFree pid _ | ADelete pid => In pid (map ap_id A)
  | AReleaseAll => True
  end.
Fixpoint aops_ok (w : world) (A : list apool) (os : list aop) : Prop :=
  match os with
  | [] => True
  | o :: t => aop_ok w A o /\ forall w', astep w o = Ok w' -> aops_ok w' (asp_step A o) t
  end.

Definition view (p : pool) : apool := mkApool (po_id p) (po_self_delete p) (po_blocks p).
Definition pay (bk : block) : payload nat nat := mkPayload (bk_entry bk) (bk_addr bk) None.
Definition pool_ok (p : pool) : Prop :=
  po_size p = length (po_blocks p) /\ Inv nat nat Nat.compare (po_tree p) /\
  refines nat nat (po_tree p) (map pay (po_blocks p)).
Definition WInv (w : world) (A : list apool) : Prop :=
  map view (w_pools w) = A /\ NoDup (map ap_id A) /\ w_total w = length (w_pools w) /\
  Permutation (w_live w) (outstanding A) /\ NoDup (w_live w) /\ Forall pool_ok (w_pools w).

Lemma hfree_ok live a R : NoDup live -> Permutation live (a :: R) ->
  exists l', hfree live a = Ok l' /\ Permutation l' R /\ NoDup l'.
Proof.
  intros ND P. unfold hfree.
  assert (Hin : In a live) by (eapply Permutation_in; [symmetry; exact P|left; reflexivity]).
  replace (existsb (Nat.eqb a) live) with true by (symmetry; apply existsb_exists; exists a; split; [exact Hin|apply Nat.eqb_refl]).
  eexists. split; [reflexivity|].
  assert (NDR : NoDup (a :: R)) by (eapply Permutation_NoDup; eassumption).
  apply NoDup_cons_iff in NDR as (N1 & N2).
  assert (PF : Permutation (remove_addr a live) R).
  { unfold remove_addr.
    assert (G : forall (l l' : list nat), Permutation l l' -> Permutation (filter (fun x => negb (x =? a)) l) (filter (fun x => negb (x =? a)) l')).
    { induction 1; cbn [filter]; [constructor|destruct (negb (x =? a)); [constructor; assumption|assumption]| |etransitivity; eassumption].
      destruct (negb (x =? a)), (negb (y =? a)); try reflexivity. constructor. }
    rewrite (G _ _ P). cbn [filter]. rewrite Nat.eqb_refl. cbn [negb].
    clear - N1. induction R as [|x R IH]; [reflexivity|]. cbn [filter]. destruct (Nat.eqb_spec x a) as [->|].
    - exfalso. apply N1. left. reflexivity.
    - cbn [negb]. constructor. apply IH. intros H. apply N1. right. exact H. }
  split; [exact PF|]. eapply Permutation_NoDup; [symmetry; exact PF|exact N2].
Qed.

Lemma free_blocks_ok : forall bs live R, NoDup live -> Permutation live (baddrs bs ++ R) ->
  exists l', free_blocks live bs = Ok l' /\ Permutation l' R /\ NoDup l'.
Proof.
  induction bs as [|bk bs IH]; intros live R ND P; [exists live; auto|].
  cbn [free_blocks]. unfold baddrs in P. cbn [map concat app] in P.
  destruct (hfree_ok live (bk_entry bk) _ ND P) as (l1 & -> & P1 & N1). cbn [obind].
  destruct (hfree_ok l1 (bk_addr bk) _ N1 P1) as (l2 & -> & P2 & N2). cbn [obind].
  apply IH; assumption.
Qed.

Lemma nodup_app_split {A} (a b : list A) : NoDup (a ++ b) -> NoDup a /\ NoDup b /\ (forall x, In x a -> ~ In x b).
Proof.
  induction a as [|x a IH]; intros H; [split; [constructor|split; [exact H|intros ? []]]|].
  cbn [app] in H. apply NoDup_cons_iff in H as (H1 & H2). destruct (IH H2) as (I1 & I2 & I3). split; [|split].
  - constructor; [intros Hx; apply H1, in_or_app; left; exact Hx|exact I1].
  - exact I2.
  - intros y [<-|Hy]; [intros Hy; apply H1, in_or_app; right; exact Hy|apply I3, Hy].
Qed.

(** Focusing on one pool. *)
Lemma focus w A pid : WInv w A -> In pid (map ap_id A) ->
  exists P1 p P2, w_pools w = P1 ++ p :: P2 /\ po_id p = pid /\ find_pool w pid = Some p /\ pool_ok p /\
    A = map view P1 ++ view p :: map view P2 /\
    (forall q, po_id q = pid -> set_pool (w_pools w) q = P1 ++ q :: P2) /\
    drop_pool (w_pools w) pid = P1 ++ P2 /\
    (forall f, asp_on pid f A = map view P1 ++ mkApool pid (po_self_delete p) (f (po_blocks p)) :: map view P2) /\
    filter (fun p => negb (ap_id p =? pid)) A = map view P1 ++ map view P2.
Proof.
  intros (E & ND & Tot & PL & NL & FP) Hin. subst A. apply in_map_iff in Hin as (x & Ex & Hx). apply in_map_iff in Hx as (p & <- & Hp).
  cbn [view ap_id] in Ex. apply in_split in Hp as (P1 & P2 & E). exists P1, p, P2. rewrite E in *.
  rewrite map_app in ND. cbn [map] in ND. rewrite map_app in ND. cbn [map view ap_id] in ND.
  assert (Nm : forall q, In q (P1 ++ P2) -> po_id q <> pid).
  { intros q Hq Eq. apply NoDup_remove_2 in ND. apply ND.
    rewrite <- !map_app, map_map. cbn [view ap_id]. rewrite Ex, <- Eq. apply (in_map po_id), Hq. }
  assert (N1 : forall q, In q P1 -> po_id q <> pid) by (intros q Hq; apply Nm, in_or_app; auto).
  assert (N2 : forall q, In q P2 -> po_id q <> pid) by (intros q Hq; apply Nm, in_or_app; auto).
  split; [reflexivity|]. split; [exact Ex|]. split.
  { unfold find_pool. rewrite E. clear - N1 Ex. induction P1 as [|q P1 IH]; cbn [app List.find].
    - rewrite Ex, Nat.eqb_refl. reflexivity.
    - rewrite (proj2 (Nat.eqb_neq _ _) (N1 q (or_introl eq_refl))). apply IH. intros q' Hq'. apply N1. right. exact Hq'. }
  split; [rewrite Forall_forall in FP; apply FP, in_or_app; right; left; reflexivity|].
  split; [rewrite map_app; reflexivity|]. split.
  { intros q Eq. unfold set_pool. rewrite map_app. cbn [map]. rewrite Eq, Ex, Nat.eqb_refl.
    assert (G : forall P, (forall q, In q P -> po_id q <> pid) -> map (fun p0 => if po_id p0 =? pid then q else p0) P = P).
    { induction P as [|y P IH]; intros HP; [reflexivity|]. cbn [map]. rewrite (proj2 (Nat.eqb_neq _ _) (HP y (or_introl eq_refl))).
      rewrite IH; [reflexivity|]. intros z Hz. apply HP. right. exact Hz. }
    rewrite (G P1 N1), (G P2 N2). reflexivity. }
  split.
  { unfold drop_pool. rewrite filter_app. cbn [filter]. rewrite Ex, Nat.eqb_refl. cbn [negb].
    assert (G : forall P, (forall q, In q P -> po_id q <> pid) -> filter (fun p0 => negb (po_id p0 =? pid)) P = P).
    { induction P as [|y P IH]; intros HP; [reflexivity|]. cbn [filter]. rewrite (proj2 (Nat.eqb_neq _ _) (HP y (or_introl eq_refl))). cbn [negb].
      rewrite IH; [reflexivity|]. intros z Hz. apply HP. right. exact Hz. }
    rewrite (G P1 N1), (G P2 N2). reflexivity. }
  split.
  { intros f. unfold asp_on. rewrite !map_app. cbn [map view ap_id ap_sd ap_blocks]. rewrite Ex, Nat.eqb_refl.
    assert (G : forall P, (forall q, In q P -> po_id q <> pid) ->
      map (fun p0 => if ap_id p0 =? pid then mkApool (ap_id p0) (ap_sd p0) (f (ap_blocks p0)) else p0) (map view P) = map view P).
    { induction P as [|y P IH]; intros HP; [reflexivity|]. cbn [map view ap_id]. rewrite (proj2 (Nat.eqb_neq _ _) (HP y (or_introl eq_refl))).
      rewrite IH; [reflexivity|]. intros z Hz. apply HP. right. exact Hz. }
    rewrite (G P1 N1), (G P2 N2). reflexivity. }
  { rewrite map_app, filter_app. cbn [map filter view ap_id]. rewrite Ex, Nat.eqb_refl. cbn [negb].
    assert (G : forall P, (forall q, In q P -> po_id q <> pid) -> filter (fun p0 => negb (ap_id p0 =? pid)) (map view P) = map view P).
    { induction P as [|y P IH]; intros HP; [reflexivity|]. cbn [map filter view ap_id]. rewrite (proj2 (Nat.eqb_neq _ _) (HP y (or_introl eq_refl))). cbn [negb].
      rewrite IH; [reflexivity|]. intros z Hz. apply HP. right. exact Hz. }
    rewrite (G P1 N1), (G P2 N2). reflexivity. }
Qed.

Lemma outstanding_mid P1 p P2 : Permutation (outstanding (P1 ++ p :: P2)) (baddrs (ap_blocks p) ++ outstanding (P1 ++ P2)).
Proof.
  unfold outstanding. rewrite !map_app, !concat_app. cbn [map concat].
  exact (Permutation_app_swap_app _ (baddrs (ap_blocks p)) _).
Qed.

Lemma ids_same P1 (p q : apool) P2 : ap_id p = ap_id q -> map ap_id (P1 ++ p :: P2) = map ap_id (P1 ++ q :: P2).
Proof. intros E. rewrite !map_app. cbn [map]. rewrite E. reflexivity. Qed.

Lemma palloc_ok p b e r live : pool_ok p -> ~ In e (map bk_entry (po_blocks p)) -> ~ In r (addresses (po_tree p)) ->
  exists t, palloc live p b e r = Ok (e :: b :: live, mkPool (po_id p) (po_blocks p ++ [mkBlock b e]) t (S (po_size p)) (po_self_delete p)) /\
    pool_ok (mkPool (po_id p) (po_blocks p ++ [mkBlock b e]) t (S (po_size p)) (po_self_delete p)).
Proof.
  intros (Z1 & HI & Rf) Ne Nr. destruct nat_total_order as (T1 & T2 & T3).
  destruct (step_refines nat nat Nat.compare T1 T2 T3 (po_tree p) _ (OInsert r e b None) HI Rf) as (s' & St & HI' & Rf').
  { cbn [legal_op]. split; [exact Nr|discriminate]. }
  cbn [rb_step] in St. unfold palloc. destruct (rb_insert Nat.compare (po_tree p) r e b None) as [[t r']|u] eqn:Ei; [|discriminate St].
  cbn [obind set_handle] in *. injection St as <-. exists t. split; [reflexivity|].
  destruct t as [rt ct ht]. cbn [rb_root rb_count rb_handles] in *. cbn [po_size po_blocks po_tree].
  split; [cbn [po_size po_blocks]; rewrite app_length; cbn [length]; lia|]. split; [exact HI'|].
  cbn [spec_step] in Rf'.
  assert (Ex : existsb (key_is nat nat Nat.compare e) (map pay (po_blocks p)) = false).
  { apply not_true. intros H. apply existsb_exists in H as (x & Hx & Kx). apply in_map_iff in Hx as (bk & <- & Hbk).
    apply (key_is_spec nat nat Nat.compare T1) in Kx. cbn [pay pl_key] in Kx. apply Ne. rewrite <- Kx. apply in_map. exact Hbk. }
  rewrite Ex in Rf'. cbn [po_tree po_blocks]. rewrite map_app. cbn [map pay bk_entry bk_addr].
  unfold refines in *. rewrite Rf'. apply Permutation_cons_append.
Qed.

Lemma in_split_unique {A} (f : A -> nat) (l : list A) x : NoDup (map f l) -> In x l ->
  exists a b, l = a ++ x :: b /\ filter (fun y => negb (f y =? f x)) l = a ++ b /\ List.find (fun y => f y =? f x) l = Some x.
Proof.
  intros ND H. apply in_split in H as (a & b & ->). exists a, b. split; [reflexivity|].
  rewrite map_app in ND. cbn [map] in ND. apply NoDup_remove_2 in ND.
  assert (N : forall y, In y (a ++ b) -> f y <> f x) by (intros y Hy E; apply ND; rewrite <- E, <- map_app; apply in_map, Hy).
  split.
  - rewrite filter_app. cbn [filter]. rewrite Nat.eqb_refl. cbn [negb].
    assert (G : forall l, (forall y, In y l -> f y <> f x) -> filter (fun y => negb (f y =? f x)) l = l).
    { induction l as [|y l IH]; intros HP; [reflexivity|]. cbn [filter]. rewrite (proj2 (Nat.eqb_neq _ _) (HP y (or_introl eq_refl))). cbn [negb].
      rewrite IH; [reflexivity|]. intros z Hz. apply HP. right. exact Hz. }
    rewrite !G; [reflexivity| |]; intros y Hy; apply N, in_or_app; auto.
  - clear ND. induction a as [|y a IH]; cbn [app List.find].
    + rewrite Nat.eqb_refl. reflexivity.
    + rewrite (proj2 (Nat.eqb_neq _ _) (N y (or_introl eq_refl))). apply IH. intros z Hz. apply N. right. exact Hz.
Qed.

Lemma baddrs_app a b : baddrs (a ++ b) = baddrs a ++ baddrs b.
Proof. unfold baddrs. rewrite map_app. apply concat_app. Qed.
Lemma baddrs_nodup bs : NoDup (baddrs bs) -> NoDup (map bk_entry bs) /\ NoDup (map bk_addr bs).
Proof.
  induction bs as [|bk bs IH]; intros H; [split; constructor|]. unfold baddrs in *. cbn [map concat app] in *.
  apply NoDup_cons_iff in H as (H1 & H). apply NoDup_cons_iff in H as (H2 & H). destruct (IH H) as (I1 & I2).
  assert (Sub : forall x, In x bs -> In (bk_entry x) (concat (map (fun bk => [bk_entry bk; bk_addr bk]) bs)) /\
                                   In (bk_addr x) (concat (map (fun bk => [bk_entry bk; bk_addr bk]) bs))).
  { intros x Hx. split; apply in_concat; exists [bk_entry x; bk_addr x]; (split; [apply in_map_iff; eauto|cbn; auto]). }
  split; constructor; [|exact I1| |exact I2].
  - intros Hx. apply in_map_iff in Hx as (y & Ey & Hy). apply H1. right. rewrite <- Ey. apply Sub, Hy.
  - intros Hx. apply in_map_iff in Hx as (y & Ey & Hy). apply H2. rewrite <- Ey. apply Sub, Hy.
Qed.

Lemma pbfree_ok p ptr live R : pool_ok p -> NoDup live -> Permutation live (baddrs (po_blocks p) ++ R) ->
  exists live' t, let bs' := filter (fun bk => negb (bk_entry bk =? ptr)) (po_blocks p) in
    let q := mkPool (po_id p) bs' t (length bs') (po_self_delete p) in
    pbfree live p ptr = Ok (live', q) /\ pool_ok q /\ Permutation live' (baddrs bs' ++ R) /\ NoDup live'.
Proof.
  intros (Z1 & HI & Rf) ND PL. destruct nat_total_order as (T1 & T2 & T3). cbn zeta.
  assert (Cn : rb_count (po_tree p) = length (po_blocks p)).
  { pose proof HI as (_ & _ & _ & -> & _). rewrite <- (map_length snd). rewrite (Permutation_length Rf). apply map_length. }
  assert (NDb : NoDup (baddrs (po_blocks p))) by (apply (Permutation_NoDup PL), nodup_app_split in ND; tauto).
  destruct (baddrs_nodup _ NDb) as (NDe & NDa).
  unfold pbfree. rewrite Cn, Z1. destruct (po_blocks p) as [|bk0 bs0] eqn:Eb.
  { cbn [length Nat.eqb orb filter]. exists live, (po_tree p). split.
    - destruct p as [i bl t z sd]. cbn in *. subst. reflexivity.
    - split; [|split; assumption]. split; [reflexivity|]. cbn [po_tree po_blocks]. split; assumption. }
  rewrite <- Eb in *. replace (length (po_blocks p) =? 0) with false by (rewrite Eb; reflexivity). cbn [orb].
  assert (Nem : map pay (po_blocks p) <> []) by (rewrite Eb; discriminate).
  destruct (lookup_refines nat nat Nat.compare T1 T2 T3 (po_tree p) _ ptr HI Rf Nem) as (rr & Lk & Hr).
  pose proof (step_refines nat nat Nat.compare T1 T2 T3 (po_tree p) _ (ODeleteKey ptr) HI Rf I) as (s' & St & HI' & Rf').
  cbn [rb_step] in St. rewrite Cn in St. replace (length (po_blocks p) =? 0) with false in St by (rewrite Eb; reflexivity).
  rewrite Lk in St |- *. cbn [obind] in St |- *.
  destruct rr as [[dn pl]|].
  - destruct Hr as (Hin & Hk & _). apply in_map_iff in Hin as (bk & <- & Hbk). cbn [pay pl_key pl_data] in Hk |- *.
    destruct (in_split_unique bk_addr _ bk NDa Hbk) as (a & b & E1 & E2 & E3). rewrite E3, E2.
    rewrite St. cbn [obind].
    destruct (in_split_unique bk_entry _ bk NDe Hbk) as (a' & b' & E1' & E2' & _).
    assert (EQ : a ++ b = a' ++ b').
    { rewrite E1 in NDa. assert (X : a ++ bk :: b = a' ++ bk :: b') by congruence.
      clear - X NDa. rewrite map_app in NDa. cbn [map] in NDa. revert a' X. induction a as [|x a IH]; intros [|y a'] X; cbn [app] in *.
      - congruence.
      - injection X as <- X. cbn [map app] in NDa. apply NoDup_cons_iff in NDa as (N1 & _). exfalso. apply N1. rewrite X, map_app. apply in_or_app. right. left. reflexivity.
      - injection X as -> X. cbn [map app] in NDa. apply NoDup_cons_iff in NDa as (N1 & _). exfalso. apply N1. apply in_or_app. right. left. reflexivity.
      - injection X as -> X. cbn [map app] in NDa. apply NoDup_cons_iff in NDa as (_ & N2). f_equal. apply IH; assumption. }
    rewrite Hk in E2'. rewrite E2', <- EQ.
    assert (PL2 : Permutation live (bk_entry bk :: bk_addr bk :: baddrs (a ++ b) ++ R)).
    { rewrite PL, E1, !baddrs_app. change (baddrs (bk :: b)) with (bk_entry bk :: bk_addr bk :: baddrs b).
      change (bk_entry bk :: bk_addr bk :: (baddrs a ++ baddrs b) ++ R) with ([bk_entry bk; bk_addr bk] ++ (baddrs a ++ baddrs b) ++ R).
      change (bk_entry bk :: bk_addr bk :: baddrs b) with ([bk_entry bk; bk_addr bk] ++ baddrs b).
      rewrite (Permutation_app_swap_app (baddrs a) [bk_entry bk; bk_addr bk] (baddrs b)), <- !app_assoc. reflexivity. }
    destruct (hfree_ok live _ _ ND PL2) as (l1 & -> & P1 & N1). cbn [obind].
    destruct (hfree_ok l1 _ _ N1 P1) as (l2 & -> & P2 & N2). cbn [obind].
    exists l2, s'. assert (Ln : length (po_blocks p) = S (length (a ++ b))) by (rewrite E1, !app_length; cbn [length]; lia).
    rewrite Ln, Nat.sub_succ, Nat.sub_0_r. split; [reflexivity|]. split; [|split; assumption].
    split; [reflexivity|]. cbn [po_tree po_blocks]. split; [exact HI'|].
    unfold refines in *. rewrite Rf'. cbn [spec_step]. rewrite EQ, <- E2'.
    clear - T1. induction (po_blocks p) as [|x l IH]; [constructor|]. cbn [map filter pay].
    replace (key_is nat nat Nat.compare ptr (pay x)) with (bk_entry x =? ptr).
    + destruct (bk_entry x =? ptr); cbn [negb]; [exact IH|]. cbn [map]. constructor. exact IH.
    + unfold key_is. cbn [pay pl_key]. destruct (Nat.compare_spec ptr (bk_entry x)) as [->|H|H]; [apply Nat.eqb_refl|apply Nat.eqb_neq; lia|apply Nat.eqb_neq; lia].
  - exists live, (po_tree p).
    assert (Fl : filter (fun bk => negb (bk_entry bk =? ptr)) (po_blocks p) = po_blocks p).
    { assert (H : forall x, In x (po_blocks p) -> bk_entry x <> ptr) by (intros x Hx; exact (Hr (pay x) (in_map pay _ _ Hx))).
      clear - H. induction (po_blocks p) as [|x l IH]; [reflexivity|]. cbn [filter]. rewrite (proj2 (Nat.eqb_neq _ _) (H x (or_introl eq_refl))). cbn [negb].
      rewrite IH; [reflexivity|]. intros y Hy. apply H. right. exact Hy. }
    rewrite Fl. split.
    + destruct p as [i bl t z sd]. cbn in *. subst. reflexivity.
    + split; [|split; assumption]. split; [reflexivity|]. cbn [po_tree po_blocks]. split; assumption.
Qed.

Lemma delete_pool_ok w A pid : WInv w A -> In pid (map ap_id A) ->
  exists w', delete_pool w pid = Ok w' /\ WInv w' (filter (fun p => negb (ap_id p =? pid)) A) /\ w_pools w' = drop_pool (w_pools w) pid.
Proof.
  intros HW Hin. destruct (focus w A pid HW Hin) as (P1 & p & P2 & E & Ep & Fp & Pok & EA & _ & Dp & _ & Fl).
  pose proof HW as (V & ND & Tot & PL & NL & FP). unfold delete_pool. rewrite Fp.
  assert (PL' : Permutation (w_live w) (baddrs (po_blocks p) ++ outstanding (map view P1 ++ map view P2))).
  { rewrite PL, EA. apply (outstanding_mid (map view P1) (view p)). }
  destruct (free_blocks_ok (po_blocks p) (w_live w) _ NL PL') as (l' & -> & P' & N'). cbn [obind].
  eexists. split; [reflexivity|]. split; [|reflexivity]. rewrite Fl, Dp.
  split; [cbn [w_pools]; apply map_app|]. split.
  { rewrite EA in ND. rewrite map_app in *. cbn [map] in ND. apply NoDup_remove_1 in ND. exact ND. }
  split; [cbn [w_pools w_total]; rewrite Tot, E, !app_length; cbn [length]; lia|].
  split; [exact P'|]. split; [exact N'|]. cbn [w_pools]. rewrite E in FP. apply Forall_app in FP as (F1 & F2). inversion F2; subst.
  apply Forall_app. auto.
Qed.

Lemma filter_comm_and {A} (f g : A -> bool) l : filter f (filter g l) = filter (fun x => g x && f x) l.
Proof.
  induction l as [|x l IH]; [reflexivity|]. cbn [filter]. destruct (g x); cbn [filter andb]; [destruct (f x); rewrite IH; reflexivity|exact IH].
Qed.
Lemma filter_true {A} (l : list A) : filter (fun _ => true) l = l.
Proof. induction l as [|x l IH]; [reflexivity|]. cbn [filter]. rewrite IH. reflexivity. Qed.

Lemma release_pools_ok : forall ps w A, WInv w A -> (forall p, In p ps -> In p (w_pools w)) -> NoDup (map po_id ps) ->
  exists w', release_pools w ps = Ok w' /\ WInv w' (filter (fun a => negb (existsb (fun p => (po_id p =? ap_id a) && negb (po_self_delete p)) ps)) A).
Proof.
  induction ps as [|p ps IH]; intros w A HW Sub ND; cbn [release_pools existsb].
  { exists w. split; [reflexivity|]. cbn [negb]. rewrite filter_true. exact HW. }
  cbn [map] in ND. apply NoDup_cons_iff in ND as (N1 & N2).
  destruct (po_self_delete p) eqn:Sd.
  - destruct (IH w A HW) as (w' & E & HW'); [intros q Hq; apply Sub; right; exact Hq|exact N2|].
    exists w'. split; [exact E|]. erewrite filter_ext; [exact HW'|]. intros a. cbn [negb]. rewrite andb_false_r. reflexivity.
  - pose proof HW as (V & _).
    assert (Hin : In (po_id p) (map ap_id A)).
    { rewrite <- V, map_map. cbn [view ap_id]. apply in_map_iff. exists p. split; [reflexivity|apply Sub; left; reflexivity]. }
    destruct (delete_pool_ok w A (po_id p) HW Hin) as (w1 & E1 & HW1 & Ps). rewrite E1. cbn [obind].
    destruct (IH w1 _ HW1) as (w' & E & HW'); [|exact N2|].
    + intros q Hq. rewrite Ps. unfold drop_pool. apply filter_In. split; [apply Sub; right; exact Hq|].
      apply negb_true_iff, Nat.eqb_neq. intros Eq. apply N1. rewrite <- Eq. apply in_map. exact Hq.
    + exists w'. split; [exact E|]. rewrite filter_comm_and in HW'. erewrite filter_ext; [exact HW'|].
      intros a. cbn [negb]. rewrite andb_true_r, negb_orb, (Nat.eqb_sym (ap_id a)). reflexivity.
Qed.

Lemma pool_update w A pid p q live P1 P2 bs' : WInv w A -> w_pools w = P1 ++ p :: P2 -> po_id p = pid ->
  A = map view P1 ++ view p :: map view P2 ->
  view q = mkApool pid (po_self_delete p) bs' -> pool_ok q -> NoDup live ->
  Permutation live (baddrs bs' ++ outstanding (map view P1 ++ map view P2)) ->
  WInv (mkWorld live (P1 ++ q :: P2) (w_total w)) (map view P1 ++ mkApool pid (po_self_delete p) bs' :: map view P2).
Proof.
  intros (V & ND & Tot & PL & NL & FP) E Ep EA Vq Pq Nl Pl. split.
  { cbn [w_pools]. rewrite map_app. cbn [map]. rewrite Vq. reflexivity. }
  split.
  { rewrite EA in ND. rewrite (ids_same _ _ (view p)); [exact ND|]. cbn [view ap_id]. congruence. }
  split; [cbn [w_total w_pools]; rewrite Tot, E, !app_length; reflexivity|].
  split.
  { cbn [w_live]. rewrite Pl. symmetry. apply (outstanding_mid (map view P1) (mkApool pid (po_self_delete p) bs')). }
  split; [exact Nl|]. cbn [w_pools]. rewrite E in FP. apply Forall_app in FP as (F1 & F2). inversion F2; subst. apply Forall_app. split; [exact F1|].
  constructor; assumption.
Qed.

Lemma astep_ok w A o : WInv w A -> aop_ok w A o -> exists w', astep w o = Ok w' /\ WInv w' (asp_step A o).
Proof.
  intros HW L. destruct o as [pid sd|pid b e r|pid ptr|pid|]; cbn [astep asp_step aop_ok] in *.
  - eexists. split; [reflexivity|]. destruct HW as (V & ND & Tot & PL & NL & FP). unfold create_pool.
    split; [cbn [w_pools]; rewrite map_app, V; reflexivity|]. split.
    { rewrite map_app. cbn [map ap_id]. apply (Permutation_NoDup (l := pid :: map ap_id A)); [apply Permutation_cons_append|constructor; assumption]. }
    split; [cbn [w_total w_pools]; rewrite Tot, app_length; cbn [length]; lia|].
    split; [cbn [w_live]; rewrite PL; unfold outstanding; rewrite map_app, concat_app; cbn [map concat ap_blocks]; rewrite app_nil_r; reflexivity|].
    split; [exact NL|]. cbn [w_pools]. apply Forall_app. split; [exact FP|]. constructor; [|constructor].
    split; [reflexivity|]. cbn [po_tree po_blocks map]. apply init_inv.
  - destruct L as (Hin & Hbe & Hb & He & Hr).
    destruct (focus w A pid HW Hin) as (P1 & p & P2 & E & Ep & Fp & Pok & EA & St & _ & On & _).
    unfold on_pool. rewrite Fp.
    pose proof HW as (V & ND & Tot & PL & NL & FP).
    assert (PO : Permutation (outstanding A) (baddrs (po_blocks p) ++ outstanding (map view P1 ++ map view P2))).
    { rewrite EA. apply (outstanding_mid (map view P1) (view p)). }
    assert (Ne : ~ In e (map bk_entry (po_blocks p))).
    { intros H. apply He. eapply Permutation_in; [symmetry; exact PO|]. apply in_or_app. left. apply in_map_iff in H as (bk & <- & Hbk).
      unfold baddrs. apply in_concat. exists [bk_entry bk; bk_addr bk]. split; [apply in_map_iff; eauto|left; reflexivity]. }
    destruct (palloc_ok p b e r (w_live w) Pok Ne (Hr p Fp)) as (t & -> & Pq). cbn [obind].
    eexists. split; [reflexivity|]. rewrite St by exact Ep. rewrite On.
    eapply pool_update; [exact HW|exact E|exact Ep|exact EA|cbn [view po_id po_self_delete po_blocks]; rewrite Ep; reflexivity|exact Pq| |].
    + constructor.
      * intros [H|H]; [exact (Hbe H)|]. apply He. eapply Permutation_in; eassumption.
      * constructor; [|exact NL]. intros H. apply Hb. eapply Permutation_in; eassumption.
    + rewrite baddrs_app. change (baddrs [mkBlock b e]) with [e; b]. rewrite PL, PO.
      change (e :: b :: baddrs (po_blocks p) ++ outstanding (map view P1 ++ map view P2)) with ([e; b] ++ baddrs (po_blocks p) ++ outstanding (map view P1 ++ map view P2)).
      rewrite <- app_assoc. apply Permutation_app_swap_app.
  - destruct (focus w A pid HW L) as (P1 & p & P2 & E & Ep & Fp & Pok & EA & St & _ & On & _).
    unfold on_pool. rewrite Fp. pose proof HW as (V & ND & Tot & PL & NL & FP).
    assert (PO : Permutation (w_live w) (baddrs (po_blocks p) ++ outstanding (map view P1 ++ map view P2))).
    { rewrite PL, EA. apply (outstanding_mid (map view P1) (view p)). }
    destruct (pbfree_ok p ptr (w_live w) _ Pok NL PO) as (live' & t & -> & Pq & Pl & Nl). cbn [obind].
    eexists. split; [reflexivity|]. rewrite St by exact Ep. rewrite On.
    eapply pool_update; [exact HW|exact E|exact Ep|exact EA|cbn [view po_id po_self_delete po_blocks]; rewrite Ep; reflexivity|exact Pq|exact Nl|exact Pl].
  - destruct (delete_pool_ok w A pid HW L) as (w' & E & HW' & _). eauto.
  - unfold release_all. pose proof HW as (V & ND & Tot & _). destruct (w_total w =? 0) eqn:Z.
    + apply Nat.eqb_eq in Z. rewrite Z in Tot. exists w. split; [reflexivity|].
      assert (w_pools w = []) by (destruct (w_pools w); [reflexivity|discriminate]). rewrite H in V. subst A. exact HW.
    + assert (NDp : NoDup (map po_id (w_pools w))) by (rewrite <- V, map_map in ND; exact ND).
      destruct (release_pools_ok (w_pools w) w A HW (fun p H => H) NDp) as (w' & E & HW'). exists w'. split; [exact E|].
      erewrite filter_ext_in; [exact HW'|]. intros a Ha. cbn beta. rewrite <- V in Ha. apply in_map_iff in Ha as (p & <- & Hp). cbn [view ap_sd ap_id].
      destruct (po_self_delete p) eqn:Sd.
      * symmetry. apply negb_true_iff, not_true. intros H. apply existsb_exists in H as (q & Hq & Hc). apply andb_true_iff in Hc as (H1 & H2).
        apply Nat.eqb_eq in H1.
        assert (q = p).
        { clear - NDp H1 Hp Hq. induction (w_pools w) as [|x l IH]; [destruct Hp|]. cbn [map] in NDp. apply NoDup_cons_iff in NDp as (N1 & N2).
          destruct Hp as [->|Hp], Hq as [->|Hq]; auto; exfalso; apply N1; [rewrite <- H1|rewrite H1]; apply in_map; assumption. }
        subst q. rewrite Sd in H2. discriminate.
      * symmetry. apply negb_false_iff. apply existsb_exists. exists p. split; [exact Hp|]. rewrite Nat.eqb_refl, Sd. reflexivity.
Qed.

Lemma arun_ok : forall os w A, WInv w A -> aops_ok w A os -> exists w', arun w os = Ok w' /\ WInv w' (asp_run A os).
Proof.
  induction os as [|o os IH]; intros w A HW L; [exists w; auto|]. destruct L as (L1 & L2).
  destruct (astep_ok w A o HW L1) as (w1 & E & HW1). cbn [arun asp_run fold_left]. rewrite E. cbn [obind]. apply IH; [exact HW1|apply L2; exact E].
Qed.

Lemma winv_init : WInv manager_init [].
Proof. repeat split; try constructor. Qed.

(** Executable legality for examples. *)
Definition aop_okb (w : world) (A : list apool) (o : aop) : bool :=
  let inb x l := existsb (Nat.eqb x) l in
  match o with
  | ACreate pid _ => negb (inb pid (map ap_id A))
  | AAlloc pid b e r => inb pid (map ap_id A) && negb (b =? e) && negb (inb b (outstanding A)) && negb (inb e (outstanding A)) &&
      match find_pool w pid with Some p => negb (inb r (addresses (po_tree p))) | None => true end
  | AFree pid _ | ADelete pid => inb pid (map ap_id A)
  | AReleaseAll => true
  end.
Fixpoint aops_okb (w : world) (A : list apool) (os : list aop) : bool :=
  match os with
  | [] => true
  | o :: t => aop_okb w A o && match astep w o with Ok w' => aops_okb w' (asp_step A o) t | UB _ => true end
  end.
Lemma inb_in x l : existsb (Nat.eqb x) l = true <-> In x l.
Proof.
  rewrite existsb_exists. split; [intros (y & H & E); apply Nat.eqb_eq in E; congruence|intros H; exists x; split; [exact H|apply Nat.eqb_refl]].
Qed.
Lemma inb_nin x l : negb (existsb (Nat.eqb x) l) = true -> ~ In x l.
Proof. intros H Hin. apply inb_in in Hin. rewrite Hin in H. discriminate. Qed.
Lemma aops_okb_ok : forall os w A, aops_okb w A os = true -> aops_ok w A os.
Proof.
  induction os as [|o os IH]; intros w A H; cbn [aops_okb aops_ok] in *; [exact I|].
  apply andb_true_iff in H as (H1 & H2). split; [|intros w' E; rewrite E in H2; apply IH, H2].
  destruct o as [pid sd|pid b e r|pid ptr|pid|]; cbn [aop_okb aop_ok] in *; [apply inb_nin, H1| |apply inb_in, H1|apply inb_in, H1|exact I].
  repeat (apply andb_true_iff in H1 as (H1 & ?)). split; [apply inb_in, H1|]. split; [apply Nat.eqb_neq, negb_true_iff; assumption|].
  split; [apply inb_nin; assumption|]. split; [apply inb_nin; assumption|]. intros p Fp. rewrite Fp in *. apply inb_nin; assumption.
Qed.

Lemma free_unknown w A pid ptr : WInv w A -> In pid (map ap_id A) ->
  (forall a bk, In a A -> ap_id a = pid -> In bk (ap_blocks a) -> bk_entry bk <> ptr) ->
  astep w (AFree pid ptr) = Ok w.
Proof.
  intros HW Hin Hn. destruct (focus w A pid HW Hin) as (P1 & p & P2 & E & Ep & Fp & Pok & EA & St & _).
  cbn [astep]. unfold on_pool. rewrite Fp.
  assert (Pb : pbfree (w_live w) p ptr = Ok (w_live w, p)).
  { unfold pbfree. destruct ((po_size p =? 0) || (rb_count (po_tree p) =? 0)) eqn:Z; [reflexivity|].
    apply orb_false_iff in Z as (Z1 & Z2). apply Nat.eqb_neq in Z1. destruct Pok as (Sz & HI & Rf). destruct nat_total_order as (T1 & T2 & T3).
    assert (Nem : map pay (po_blocks p) <> []) by (destruct (po_blocks p); [cbn [length] in Sz; lia|discriminate]).
    destruct (lookup_refines nat nat Nat.compare T1 T2 T3 (po_tree p) _ ptr HI Rf Nem) as (rr & -> & Hr). cbn [obind].
    destruct rr as [[dn pl]|]; [|reflexivity]. destruct Hr as (H1 & H2 & _). apply in_map_iff in H1 as (bk & <- & Hbk). exfalso.
    apply (Hn (view p) bk); [rewrite EA; apply in_or_app; right; left; reflexivity|exact Ep|exact Hbk|exact H2]. }
  rewrite Pb. cbn [obind]. rewrite St by exact Ep. rewrite <- E. destruct w; reflexivity.
Qed.
