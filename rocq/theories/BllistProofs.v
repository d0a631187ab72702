From Coq Require Import ZArith Permutation.
From Verif Require Import Base Bllist.

(** ** Specification: a family of sequences, one per list head. *)
Definition family := list (nat * list nat).
Definition all_addrs (F : family) : list nat := concat (map (fun hl => fst hl :: snd hl) F).
Definition sp_upd (h : nat) (f : list nat -> list nat) (F : family) : family :=
  map (fun hl => if fst hl =? h then (fst hl, f (snd hl)) else hl) F.
Definition sp_step (F : family) (o : lop) : family :=
  match o with
  | LAddTail h n | QPush h n => sp_upd h (fun l => l ++ [n]) F
  | LAddHead h n => sp_upd h (fun l => n :: l) F
  | LRemove n | QRemove n => map (fun hl => (fst hl, filter (fun x => negb (x =? n)) (snd hl))) F
  | QPop h => sp_upd h (fun l => removelast l) F
  end.
Definition sp_run (F : family) (os : list lop) : family := fold_left sp_step os F.
(** Legal use: only unlinked elements are added, only linked ones removed, pop needs a non-empty
    queue; with [q] only queue operations are used. *)
Definition lop_ok (q : bool) (F : family) (o : lop) : Prop :=
  match o with
  | LAddTail h n | LAddHead h n => q = false /\ In h (map fst F) /\ ~ In n (all_addrs F)
  | LRemove n => q = false /\ exists h l, In (h, l) F /\ In n l
  | QPush h n => In h (map fst F) /\ ~ In n (all_addrs F)
  | QPop h => exists l, In (h, l) F /\ l <> []
  | QRemove n => exists h l, In (h, l) F /\ In n l
  end.
Fixpoint lops_ok (q : bool) (F : family) (os : list lop) : Prop :=
  match os with [] => True | o :: t => lop_ok q F o /\ lops_ok q (sp_step F o) t end.

(** ** Linked segments *)
Fixpoint linked (n p : nat -> nat) (xs : list nat) : Prop :=
  match xs with
  | a :: t => match t with b :: _ => n a = b /\ p b = a /\ linked n p t | [] => True end
  | [] => True
  end.
Lemma linked_cons n p a b t : linked n p (a :: b :: t) <-> n a = b /\ p b = a /\ linked n p (b :: t).
Proof. reflexivity. Qed.

Lemma linked_app n p xs a ys : linked n p (xs ++ a :: ys) <-> linked n p (xs ++ [a]) /\ linked n p (a :: ys).
Proof.
  induction xs as [|x xs IH]; [cbn [app]; split; [intros H; split; [exact I|exact H]|intros [_ H]; exact H]|].
  destruct xs as [|y xs].
  - cbn [app]. rewrite linked_cons. cbn [linked]. tauto.
  - cbn [app] in *. rewrite !linked_cons, IH. tauto.
Qed.
Lemma linked_frame n p n' p' xs : (forall y, In y (removelast xs) -> n' y = n y) -> (forall y, In y (tl xs) -> p' y = p y) ->
  linked n p xs -> linked n' p' xs.
Proof.
  induction xs as [|x xs IH]; intros H1 H2 L; [exact I|]. destruct xs as [|y xs]; [exact I|].
  apply linked_cons in L as (L1 & L2 & L3). apply linked_cons. cbn [tl] in H2. split; [|split].
  - rewrite H1; [exact L1|left; reflexivity].
  - rewrite H2; [exact L2|left; reflexivity].
  - apply IH; [| |exact L3].
    + intros z Hz. apply H1. right. exact Hz.
    + intros z Hz. apply H2. right. exact Hz.
Qed.
Definition ring m h l : Prop := linked (nx m) (pv m) (h :: l ++ [h]).

Lemma removelast_snoc (l : list nat) x : removelast (l ++ [x]) = l.
Proof. rewrite removelast_app by discriminate. cbn [removelast]. apply app_nil_r. Qed.
Lemma removelast_ring (h : nat) l : removelast (h :: l ++ [h]) = h :: l.
Proof. change (h :: l ++ [h]) with ((h :: l) ++ [h]). apply removelast_snoc. Qed.
Lemma tl_ring (h : nat) (l : list nat) : tl (h :: l ++ [h]) = l ++ [h]. Proof. reflexivity. Qed.

(** The neighbours of a position. *)
Lemma around (h : nat) A B : exists A' a b B', h :: A = A' ++ [a] /\ B ++ [h] = b :: B'.
Proof.
  destruct (exists_last (l := h :: A) ltac:(discriminate)) as (A' & a & E1).
  destruct B as [|b B]; [exists A', a, h, []|exists A', a, b, (B ++ [h])]; split; [exact E1|reflexivity|exact E1|reflexivity].
Qed.

Lemma ring_split m h A B A' a b B' : h :: A = A' ++ [a] -> B ++ [h] = b :: B' ->
  ring m h (A ++ B) <-> linked (nx m) (pv m) (A' ++ [a]) /\ nx m a = b /\ pv m b = a /\ linked (nx m) (pv m) (b :: B').
Proof.
  intros E1 E2. unfold ring. rewrite <- app_assoc, E2. change (h :: A ++ b :: B') with ((h :: A) ++ b :: B').
  rewrite E1, <- app_assoc. cbn [app]. rewrite (linked_app _ _ A' a (b :: B')), linked_cons. reflexivity.
Qed.
Lemma ring_split3 m h A x B A' a b B' : h :: A = A' ++ [a] -> B ++ [h] = b :: B' ->
  ring m h (A ++ x :: B) <-> linked (nx m) (pv m) (A' ++ [a]) /\ nx m a = x /\ pv m x = a /\
                             nx m x = b /\ pv m b = x /\ linked (nx m) (pv m) (b :: B').
Proof.
  intros E1 E2. unfold ring. rewrite <- app_assoc. cbn [app]. rewrite E2. change (h :: A ++ x :: b :: B') with ((h :: A) ++ x :: b :: B').
  rewrite E1, <- app_assoc. cbn [app]. rewrite (linked_app _ _ A' a (x :: b :: B')), !linked_cons. tauto.
Qed.

(** Disjointness facts at a position. *)
Lemma pos_facts (h : nat) A B A' a b B' : NoDup (h :: A ++ B) -> h :: A = A' ++ [a] -> B ++ [h] = b :: B' ->
  ~ In a A' /\ ~ In b (tl (A' ++ [a])) /\ ~ In a (removelast (b :: B')) /\ ~ In b B'.
Proof.
  intros ND E1 E2.
  assert (Ra : removelast (b :: B') = B) by (rewrite <- E2; apply removelast_snoc).
  assert (Ta : tl (A' ++ [a]) = A) by (rewrite <- E1; reflexivity).
  rewrite Ra, Ta. change (h :: A ++ B) with ((h :: A) ++ B) in ND. rewrite E1 in ND.
  pose proof ND as ND2. rewrite <- app_assoc in ND2. cbn [app] in ND2. apply NoDup_remove_2 in ND2.
  split; [intros H; apply ND2, in_or_app; left; exact H|].
  split.
  { rewrite <- E1 in ND. cbn [app] in ND. apply NoDup_cons_iff in ND as (N1 & N2). intros H.
    assert (Hb : In b (B ++ [h])) by (rewrite E2; left; reflexivity). apply in_app_or in Hb as [Hb|[->|[]]].
    - apply in_split in H as (A1 & A2 & ->). rewrite <- app_assoc in N2. cbn [app] in N2. apply NoDup_remove_2 in N2.
      apply N2. apply in_or_app. right. apply in_or_app. right. exact Hb.
    - apply N1. apply in_or_app. left. exact H. }
  split; [intros H; apply ND2, in_or_app; right; exact H|].
  rewrite <- E1 in ND. cbn [app] in ND. apply NoDup_cons_iff in ND as (N1 & N2).
  destruct B as [|b0 B]; cbn [app] in E2; injection E2 as <- <-; [intros []|]. intros H. apply in_app_or in H as [H|[<-|[]]].
  - apply NoDup_remove_2 in N2. apply N2, in_or_app. right. exact H.
  - apply N1. apply in_or_app. right. left. reflexivity.
Qed.

Lemma set_eq {A} (f : nat -> A) a v : set f a v a = v. Proof. unfold set. now rewrite Nat.eqb_refl. Qed.
Lemma set_neq {A} (f : nat -> A) a v x : x <> a -> set f a v x = f x.
Proof. intros H. unfold set. now rewrite (proj2 (Nat.eqb_neq x a) H). Qed.

(** [relink m m' a x b]: the new memory has a <-> x <-> b resp. a <-> b and is unchanged elsewhere. *)
Lemma remove_ring m m' h A x B : NoDup (h :: A ++ x :: B) -> ring m h (A ++ x :: B) ->
  (forall y, y <> pv m x -> nx m' y = nx m y) -> (forall y, y <> nx m x -> pv m' y = pv m y) ->
  nx m' (pv m x) = nx m x -> pv m' (nx m x) = pv m x ->
  ring m' h (A ++ B) /\ In (pv m x) (h :: A ++ x :: B) /\ In (nx m x) (h :: A ++ x :: B).
Proof.
  intros ND R F1 F2 W1 W2. destruct (around h A B) as (A' & a & b & B' & E1 & E2).
  apply (ring_split3 _ _ _ _ _ _ _ _ _ E1 E2) in R as (L1 & Na & Px & Nx & Pb & L2). rewrite Px, Nx in *.
  assert (ND2 : NoDup (h :: A ++ B)).
  { change (h :: A ++ x :: B) with ((h :: A) ++ x :: B) in ND. apply NoDup_remove_1 in ND. exact ND. }
  destruct (pos_facts _ _ _ _ _ _ _ ND2 E1 E2) as (P1 & P2 & P3 & P4).
  split.
  - apply (ring_split _ _ _ _ _ _ _ _ E1 E2). split; [|split; [exact W1|split; [exact W2|]]].
    + eapply linked_frame; [| |exact L1].
      * rewrite removelast_snoc. intros y Hy. apply F1. intros ->. exact (P1 Hy).
      * intros y Hy. apply F2. intros ->. exact (P2 Hy).
    + eapply linked_frame; [| |exact L2].
      * intros y Hy. apply F1. intros ->. exact (P3 Hy).
      * cbn [tl]. intros y Hy. apply F2. intros ->. exact (P4 Hy).
  - split.
    + assert (In a (h :: A)) by (rewrite E1; apply in_or_app; right; left; reflexivity).
      change (h :: A ++ x :: B) with ((h :: A) ++ x :: B). apply in_or_app. left. assumption.
    + assert (Hb : In b (B ++ [h])) by (rewrite E2; left; reflexivity). apply in_app_or in Hb as [Hb|[->|[]]].
      * right. apply in_or_app. right. right. exact Hb.
      * left. reflexivity.
Qed.

Lemma insert_ring m m' h A x B A' a b B' : NoDup (h :: A ++ B) -> ~ In x (h :: A ++ B) -> ring m h (A ++ B) ->
  h :: A = A' ++ [a] -> B ++ [h] = b :: B' ->
  (forall y, y <> a -> y <> x -> nx m' y = nx m y) -> (forall y, y <> b -> y <> x -> pv m' y = pv m y) ->
  nx m' a = x -> pv m' x = a -> nx m' x = b -> pv m' b = x ->
  ring m' h (A ++ x :: B).
Proof.
  intros ND Hx R E1 E2 F1 F2 W1 W2 W3 W4. destruct (pos_facts _ _ _ _ _ _ _ ND E1 E2) as (P1 & P2 & P3 & P4).
  apply (ring_split _ _ _ _ _ _ _ _ E1 E2) in R as (L1 & Na & Pb & L2).
  apply (ring_split3 _ _ _ _ _ _ _ _ _ E1 E2).
  assert (InA : forall y, In y (A' ++ [a]) -> y <> x).
  { intros y Hy ->. apply Hx. rewrite <- E1 in Hy. change (h :: A ++ B) with ((h :: A) ++ B). apply in_or_app. left. exact Hy. }
  assert (InB : forall y, In y (b :: B') -> y <> x).
  { intros y Hy ->. apply Hx. rewrite <- E2 in Hy. apply in_app_or in Hy as [Hy|[->|[]]]; [right; apply in_or_app; right; exact Hy|left; reflexivity]. }
  split; [|split; [exact W1|split; [exact W2|split; [exact W3|split; [exact W4|]]]]].
  - eapply linked_frame; [| |exact L1].
    + rewrite removelast_snoc. intros y Hy. apply F1; [intros ->; exact (P1 Hy)|]. apply InA, in_or_app. left. exact Hy.
    + intros y Hy. apply F2; [intros ->; exact (P2 Hy)|]. apply InA. destruct (A' ++ [a]); [destruct Hy|right; exact Hy].
  - eapply linked_frame; [| |exact L2].
    + intros y Hy. apply F1; [intros ->; exact (P3 Hy)|]. apply InB. rewrite <- E2 in Hy |- *. rewrite removelast_snoc in Hy.
      apply in_or_app. left. exact Hy.
    + cbn [tl]. intros y Hy. apply F2; [intros ->; exact (P4 Hy)|]. apply InB. right. exact Hy.
Qed.

(** ** Effects of the operations on the links *)
Lemma ring_ends m h l : ring m h l -> nx m h = List.hd h l /\ pv m h = last l h.
Proof.
  intros R. split.
  - unfold ring in R. destruct l as [|x l]; cbn [app] in R; apply linked_cons in R as (R & _); exact R.
  - destruct (exists_last (l := h :: l) ltac:(discriminate)) as (A' & a & E1).
    assert (R2 : ring m h (l ++ [])) by (rewrite app_nil_r; exact R).
    assert (E2 : [] ++ [h] = h :: []) by reflexivity.
    apply (ring_split _ _ _ _ _ _ _ _ E1 E2) in R2 as (_ & _ & P & _). rewrite P.
    destruct l as [|x l]; [destruct A' as [|? [|? ?]]; inversion E1; reflexivity|].
    assert (L : last (h :: x :: l) h = last (A' ++ [a]) h) by (rewrite E1; reflexivity).
    rewrite last_last in L. rewrite <- L. reflexivity.
Qed.

(** ** The family invariant *)
Definition FInv (q : bool) (m : lmem) (F : family) : Prop :=
  NoDup (all_addrs F) /\ (forall h l, In (h, l) F -> ring m h l) /\
  (q = true -> forall h l, In (h, l) F -> cnt m h = Z.of_nat (length l) /\ (forall x, In x l -> hd m x = h)).

Lemma all_addrs_in F h l y : In (h, l) F -> In y (h :: l) -> In y (all_addrs F).
Proof.
  intros H1 H2. unfold all_addrs. apply in_concat. exists (h :: l). split; [|exact H2].
  change (h :: l) with ((fun hl : nat * list nat => fst hl :: snd hl) (h, l)). apply in_map. exact H1.
Qed.
Lemma in_all_addrs F y : In y (all_addrs F) -> exists h l, In (h, l) F /\ In y (h :: l).
Proof.
  unfold all_addrs. intros H. apply in_concat in H as (r & H1 & H2). apply in_map_iff in H1 as ([h l] & <- & H1). eauto.
Qed.
Lemma NoDup_app_inv {A} (a b : list A) : NoDup (a ++ b) -> NoDup a /\ NoDup b /\ (forall x, In x a -> ~ In x b).
Proof.
  induction a as [|x a IH]; intros H; [split; [constructor|split; [exact H|intros ? []]]|].
  cbn [app] in H. apply NoDup_cons_iff in H as (H1 & H2). destruct (IH H2) as (I1 & I2 & I3). split; [|split].
  - constructor; [intros Hx; apply H1, in_or_app; left; exact Hx|exact I1].
  - exact I2.
  - intros y [<-|Hy]; [intros Hy; apply H1, in_or_app; right; exact Hy|apply I3, Hy].
Qed.
Lemma NoDup_app_intro {A} (a b : list A) : NoDup a -> NoDup b -> (forall x, In x a -> ~ In x b) -> NoDup (a ++ b).
Proof.
  induction a as [|x a IH]; intros H1 H2 H3; [exact H2|]. cbn [app]. apply NoDup_cons_iff in H1 as (H1 & H4). constructor.
  - intros H. apply in_app_or in H as [H|H]; [exact (H1 H)|exact (H3 x (or_introl eq_refl) H)].
  - apply IH; [exact H4|exact H2|]. intros y Hy. apply H3. right. exact Hy.
Qed.
(** Splitting the family at one list. *)
Lemma family_split F h l : In (h, l) F -> NoDup (all_addrs F) ->
  exists F1 F2, F = F1 ++ (h, l) :: F2 /\ NoDup (h :: l) /\ NoDup (all_addrs (F1 ++ F2)) /\
    (forall y, In y (h :: l) -> ~ In y (all_addrs (F1 ++ F2))).
Proof.
  intros H ND. apply in_split in H as (F1 & F2 & ->). exists F1, F2. split; [reflexivity|].
  unfold all_addrs in *. rewrite map_app, concat_app in *. cbn [map concat fst snd] in *.
  assert (P : Permutation (concat (map (fun hl : nat * list nat => fst hl :: snd hl) F1) ++ (h :: l) ++ concat (map (fun hl : nat * list nat => fst hl :: snd hl) F2))
                          ((h :: l) ++ concat (map (fun hl : nat * list nat => fst hl :: snd hl) F1) ++ concat (map (fun hl : nat * list nat => fst hl :: snd hl) F2))).
  { rewrite !app_assoc. apply Permutation_app_tail. apply Permutation_app_comm. }
  change ((h :: l) ++ concat (map (fun hl : nat * list nat => fst hl :: snd hl) F2)) with (h :: l ++ concat (map (fun hl : nat * list nat => fst hl :: snd hl) F2)) in P.
  apply (Permutation_NoDup P) in ND. apply NoDup_app_inv in ND as (N1 & N2 & N3). auto.
Qed.
Lemma all_addrs_mid F1 h l F2 : Permutation (all_addrs (F1 ++ (h, l) :: F2)) ((h :: l) ++ all_addrs (F1 ++ F2)).
Proof.
  unfold all_addrs. rewrite !map_app, !concat_app. cbn [map concat fst snd].
  exact (Permutation_app_swap_app _ (h :: l) _).
Qed.
Lemma sp_upd_split h f F1 l F2 : ~ In h (all_addrs (F1 ++ F2)) -> sp_upd h f (F1 ++ (h, l) :: F2) = F1 ++ (h, f l) :: F2.
Proof.
  intros H. unfold sp_upd. rewrite map_app. cbn [map fst snd]. rewrite Nat.eqb_refl.
  assert (G : forall G, (forall k r, In (k, r) G -> In (k, r) (F1 ++ F2)) ->
           map (fun hl : nat * list nat => if fst hl =? h then (fst hl, f (snd hl)) else hl) G = G).
  { induction G as [|[k r] G IH]; intros HG; [reflexivity|]. cbn [map fst snd].
    destruct (Nat.eqb_spec k h) as [->|Hk].
    - exfalso. apply H. eapply all_addrs_in; [apply HG; left; reflexivity|left; reflexivity].
    - rewrite IH; [reflexivity|]. intros k' r' Hr. apply HG. right. exact Hr. }
  rewrite (G F1), (G F2); [reflexivity| |]; intros k r Hr; apply in_or_app; auto.
Qed.
Lemma filter_id (l : list nat) n : ~ In n l -> filter (fun x => negb (x =? n)) l = l.
Proof.
  induction l as [|x l IH]; intros H; [reflexivity|]. cbn [filter]. destruct (Nat.eqb_spec x n) as [->|Hx].
  - exfalso. apply H. left. reflexivity.
  - cbn [negb]. rewrite IH; [reflexivity|]. intros Hn. apply H. right. exact Hn.
Qed.
Lemma sp_remove_split n h A B F1 F2 : NoDup (A ++ n :: B) -> ~ In n (all_addrs (F1 ++ F2)) ->
  map (fun hl : nat * list nat => (fst hl, filter (fun x => negb (x =? n)) (snd hl))) (F1 ++ (h, A ++ n :: B) :: F2) = F1 ++ (h, A ++ B) :: F2.
Proof.
  intros ND H. rewrite map_app. cbn [map fst snd].
  assert (G : forall G, (forall k r, In (k, r) G -> In (k, r) (F1 ++ F2)) ->
           map (fun hl : nat * list nat => (fst hl, filter (fun x => negb (x =? n)) (snd hl))) G = G).
  { induction G as [|[k r] G IH]; intros HG; [reflexivity|]. cbn [map fst snd].
    rewrite filter_id, IH; [reflexivity| |].
    - intros k' r' Hr. apply HG. right. exact Hr.
    - intros Hn. apply H. eapply all_addrs_in; [apply HG; left; reflexivity|right; exact Hn]. }
  rewrite (G F1), (G F2) by (intros k r Hr; apply in_or_app; auto).
  apply NoDup_remove_2 in ND. rewrite filter_app. cbn [filter]. rewrite Nat.eqb_refl. cbn [negb].
  rewrite !filter_id; [reflexivity| |]; intros Hn; apply ND, in_or_app; auto.
Qed.

(** Replacing one list keeps the invariant when the rest of the memory is untouched. *)
Lemma FInv_replace q m m' F1 h l l' F2 :
  FInv q m (F1 ++ (h, l) :: F2) -> NoDup (h :: l') ->
  (forall y, In y (h :: l') -> ~ In y (all_addrs (F1 ++ F2))) -> ring m' h l' ->
  (forall y, In y (all_addrs (F1 ++ F2)) -> nx m' y = nx m y /\ pv m' y = pv m y /\ cnt m' y = cnt m y /\ hd m' y = hd m y) ->
  (q = true -> cnt m' h = Z.of_nat (length l') /\ (forall x, In x l' -> hd m' x = h)) ->
  FInv q m' (F1 ++ (h, l') :: F2).
Proof.
  intros (I1 & I2 & I3) ND D R Fr Q. 
  assert (I1' : NoDup (all_addrs (F1 ++ F2))).
  { apply (Permutation_NoDup (all_addrs_mid F1 h l F2)) in I1. apply NoDup_app_inv in I1. tauto. }
  assert (Other : forall k r, In (k, r) (F1 ++ (h, l') :: F2) -> (k, r) = (h, l') \/ In (k, r) (F1 ++ F2)).
  { intros k r H. apply in_app_or in H as [H|[H|H]]; [right; apply in_or_app; auto|left; congruence|right; apply in_or_app; auto]. }
  assert (Old : forall k r, In (k, r) (F1 ++ F2) -> In (k, r) (F1 ++ (h, l) :: F2)).
  { intros k r H. apply in_app_or in H as [H|H]; apply in_or_app; [left; exact H|right; right; exact H]. }
  split; [|split].
  - apply (Permutation_NoDup (Permutation_sym (all_addrs_mid F1 h l' F2))). apply NoDup_app_intro; assumption.
  - intros k r H. destruct (Other k r H) as [E|H'].
    + injection E as -> ->. exact R.
    + specialize (I2 k r (Old _ _ H')). unfold ring in *. eapply linked_frame; [| |exact I2].
      * rewrite removelast_ring. intros y Hy. apply Fr. eapply all_addrs_in; eassumption.
      * rewrite tl_ring. intros y Hy. apply Fr. eapply all_addrs_in; [exact H'|]. apply in_app_or in Hy as [Hy|[<-|[]]]; [right; exact Hy|left; reflexivity].
  - intros Hq k r H. destruct (Other k r H) as [E|H'].
    + injection E as -> ->. apply Q, Hq.
    + destruct (I3 Hq k r (Old _ _ H')) as (C1 & C2). split.
      * rewrite (proj1 (proj2 (proj2 (Fr k ltac:(eapply all_addrs_in; [exact H'|left; reflexivity]))))). exact C1.
      * intros x Hx. rewrite (proj2 (proj2 (proj2 (Fr x ltac:(eapply all_addrs_in; [exact H'|right; exact Hx]))))). apply C2, Hx.
Qed.

Lemma last_in (l : list nat) h : In (last l h) (h :: l).
Proof.
  induction l as [|x l IH]; [left; reflexivity|]. destruct l as [|y l]; [right; left; reflexivity|].
  change (last (x :: y :: l) h) with (last (y :: l) h). destruct IH as [IH|IH]; [left; exact IH|right; right; exact IH].
Qed.
Lemma hd_in (l : list nat) h : In (List.hd h l) (h :: l).
Proof. destruct l; cbn; auto. Qed.

Lemma around_tail (h : nat) l : exists A', h :: l = A' ++ [last l h].
Proof.
  destruct (exists_last (l := h :: l) ltac:(discriminate)) as (A' & a & E1). exists A'. rewrite E1. do 2 f_equal.
  assert (L : last (h :: l) h = a) by (rewrite E1; apply last_last). rewrite <- L. destruct l; reflexivity.
Qed.

(** Insertion at the tail, whatever happens to counters. *)
Lemma add_tail_step q m m' F h n : FInv q m F -> In h (map fst F) -> ~ In n (all_addrs F) ->
  (forall y, nx m' y = set (set (nx m) n h) (pv m h) n y) ->
  (forall y, pv m' y = set (set (pv m) n (pv m h)) h n y) ->
  (forall y, y <> h -> cnt m' y = cnt m y) -> (forall y, y <> n -> hd m' y = hd m y) ->
  (q = true -> cnt m' h = (cnt m h + 1)%Z /\ hd m' n = h) ->
  FInv q m' (sp_upd h (fun l => l ++ [n]) F).
Proof.
  intros HF Hh Hn Wn Wp Wc Wh Q. apply in_map_iff in Hh as ([h0 l] & E & Hin). cbn [fst] in E. subst h0.
  destruct HF as (I1 & I2 & I3). pose proof (I2 h l Hin) as R. pose proof (fun e => I3 e h l Hin) as C.
  destruct (family_split F h l Hin I1) as (F1 & F2 & -> & N1 & N2 & N3).
  rewrite sp_upd_split by (apply N3; left; reflexivity).
  assert (Hn1 : ~ In n (h :: l)) by (intros H; apply Hn; eapply all_addrs_in; eassumption).
  assert (Hn2 : ~ In n (all_addrs (F1 ++ F2))).
  { intros H. apply Hn. apply (Permutation_in (l := (h :: l) ++ all_addrs (F1 ++ F2))); [symmetry; apply all_addrs_mid|]. apply in_or_app. right. exact H. }
  destruct (ring_ends m h l R) as (_ & Pl). pose proof (last_in l h) as Li. rewrite <- Pl in Li.
  assert (Hhn : h <> n) by (intros ->; apply Hn1; left; reflexivity).
  assert (Hln : pv m h <> n) by (intros E; rewrite E in Li; exact (Hn1 Li)).
  destruct (around_tail h l) as (A' & E1). rewrite <- Pl in E1.
  eapply FInv_replace; [split; [exact I1|split; [exact I2|exact I3]]| | | | |].
  - apply NoDup_cons_iff in N1 as (M1 & M2). constructor.
    + intros H. apply in_app_or in H as [H|[H|[]]]; [exact (M1 H)|congruence].
    + apply NoDup_app_intro; [exact M2|constructor; [intros []|constructor]|]. intros y Hy [->|[]]. apply Hn1. right. exact Hy.
  - intros y [<-|Hy]; [apply N3; left; reflexivity|]. apply in_app_or in Hy as [Hy|[<-|[]]]; [apply N3; right; exact Hy|exact Hn2].
  - eapply (insert_ring m m' h l n [] A' (pv m h) h []).
    + rewrite app_nil_r. exact N1.
    + rewrite app_nil_r. exact Hn1.
    + rewrite app_nil_r. exact R.
    + exact E1.
    + reflexivity.
    + intros y H1 H2. rewrite Wn, !set_neq by assumption. reflexivity.
    + intros y H1 H2. rewrite Wp, !set_neq by assumption. reflexivity.
    + rewrite Wn, set_eq. reflexivity.
    + rewrite Wp, set_neq, set_eq by congruence. reflexivity.
    + rewrite Wn, set_neq, set_eq by congruence. reflexivity.
    + rewrite Wp, set_eq. reflexivity.
  - intros y Hy.
    assert (y <> h) by (intros ->; apply (N3 h (or_introl eq_refl) Hy)).
    assert (y <> n) by (intros ->; exact (Hn2 Hy)).
    assert (y <> pv m h) by (intros ->; exact (N3 _ Li Hy)).
    rewrite Wn, Wp, !set_neq by assumption. auto.
  - intros Hq. destruct (C Hq) as (C1 & C2). destruct (Q Hq) as (Q1 & Q2). split; [rewrite Q1, C1, app_length; cbn [length]; lia|].
    intros x Hx. apply in_app_or in Hx as [Hx|[<-|[]]]; [|exact Q2]. rewrite Wh; [apply C2; exact Hx|]. intros ->. apply Hn1. right. exact Hx.
Qed.

Lemma add_head_step m m' F h n : FInv false m F -> In h (map fst F) -> ~ In n (all_addrs F) ->
  (forall y, nx m' y = set (set (nx m) n (nx m h)) h n y) ->
  (forall y, pv m' y = set (set (pv m) n h) (nx m h) n y) ->
  (forall y, cnt m' y = cnt m y) -> (forall y, hd m' y = hd m y) ->
  FInv false m' (sp_upd h (fun l => n :: l) F).
Proof.
  intros HF Hh Hn Wn Wp Wc Wh. apply in_map_iff in Hh as ([h0 l] & E & Hin). cbn [fst] in E. subst h0.
  destruct HF as (I1 & I2 & I3). pose proof (I2 h l Hin) as R.
  destruct (family_split F h l Hin I1) as (F1 & F2 & -> & N1 & N2 & N3).
  rewrite sp_upd_split by (apply N3; left; reflexivity).
  assert (Hn1 : ~ In n (h :: l)) by (intros H; apply Hn; eapply all_addrs_in; eassumption).
  assert (Hn2 : ~ In n (all_addrs (F1 ++ F2))).
  { intros H. apply Hn. apply (Permutation_in (l := (h :: l) ++ all_addrs (F1 ++ F2))); [symmetry; apply all_addrs_mid|]. apply in_or_app. right. exact H. }
  destruct (ring_ends m h l R) as (Pl & _). pose proof (hd_in l h) as Li. rewrite <- Pl in Li.
  assert (Hhn : h <> n) by (intros ->; apply Hn1; left; reflexivity).
  assert (Hln : nx m h <> n) by (intros E; rewrite E in Li; exact (Hn1 Li)).
  assert (E2 : exists B', l ++ [h] = nx m h :: B') by (rewrite Pl; destruct l; cbn; eauto). destruct E2 as (B' & E2).
  eapply FInv_replace; [split; [exact I1|split; [exact I2|exact I3]]| | | | |].
  - apply NoDup_cons_iff in N1 as (M1 & M2). constructor.
    + intros [H|H]; [congruence|exact (M1 H)].
    + constructor; [intros H; apply Hn1; right; exact H|exact M2].
  - intros y [<-|[<-|Hy]]; [apply N3; left; reflexivity|exact Hn2|apply N3; right; exact Hy].
  - eapply (insert_ring m m' h [] n l [] h (nx m h) B'); cbn [app].
    + exact N1.
    + exact Hn1.
    + exact R.
    + reflexivity.
    + exact E2.
    + intros y H1 H2. rewrite Wn, !set_neq by assumption. reflexivity.
    + intros y H1 H2. rewrite Wp, !set_neq by assumption. reflexivity.
    + rewrite Wn, set_eq. reflexivity.
    + rewrite Wp, set_neq, set_eq by congruence. reflexivity.
    + rewrite Wn, set_neq, set_eq by congruence. reflexivity.
    + rewrite Wp, set_eq. reflexivity.
  - intros y Hy.
    assert (y <> h) by (intros ->; apply (N3 h (or_introl eq_refl) Hy)).
    assert (y <> n) by (intros ->; exact (Hn2 Hy)).
    assert (y <> nx m h) by (intros ->; exact (N3 _ Li Hy)).
    rewrite Wn, Wp, !set_neq by assumption. auto.
  - discriminate.
Qed.

Lemma remove_step q m m' F1 F2 h A n B : FInv q m (F1 ++ (h, A ++ n :: B) :: F2) ->
  (forall y, nx m' y = set (nx m) (pv m n) (nx m n) y) ->
  (forall y, pv m' y = set (pv m) (nx m n) (pv m n) y) ->
  (forall y, y <> h -> cnt m' y = cnt m y) -> (forall y, hd m' y = hd m y) ->
  (q = true -> cnt m' h = (cnt m h - 1)%Z) ->
  FInv q m' (F1 ++ (h, A ++ B) :: F2).
Proof.
  intros HF Wn Wp Wc Wh Q. destruct HF as (I1 & I2 & I3).
  assert (Hin : In (h, A ++ n :: B) (F1 ++ (h, A ++ n :: B) :: F2)) by (apply in_or_app; right; left; reflexivity).
  pose proof (I2 _ _ Hin) as R. pose proof (fun e => I3 e _ _ Hin) as C.
  pose proof I1 as I1'. apply (Permutation_NoDup (all_addrs_mid F1 h (A ++ n :: B) F2)) in I1'.
  apply NoDup_app_inv in I1' as (N1 & N2 & N3).
  destruct (remove_ring m m' h A n B N1 R) as (R' & P1 & P2).
  { intros y Hy. rewrite Wn, set_neq by exact Hy. reflexivity. }
  { intros y Hy. rewrite Wp, set_neq by exact Hy. reflexivity. }
  { rewrite Wn, set_eq. reflexivity. }
  { rewrite Wp, set_eq. reflexivity. }
  assert (Sub : forall y, In y (h :: A ++ B) -> In y (h :: A ++ n :: B)).
  { intros y [Hy|Hy]; [left; exact Hy|right]. apply in_app_or in Hy as [Hy|Hy]; apply in_or_app; [left; exact Hy|right; right; exact Hy]. }
  eapply FInv_replace; [split; [exact I1|split; [exact I2|exact I3]]| | |exact R'| |].
  - change (h :: A ++ n :: B) with ((h :: A) ++ n :: B) in N1. apply NoDup_remove_1 in N1. exact N1.
  - intros y Hy. apply N3, Sub, Hy.
  - intros y Hy. rewrite Wn, Wp, !set_neq; [|intros ->; exact (N3 _ P2 Hy)|intros ->; exact (N3 _ P1 Hy)].
    assert (y <> h) by (intros ->; exact (N3 h (or_introl eq_refl) Hy)). auto.
  - intros Hq. destruct (C Hq) as (C1 & C2). split; [rewrite (Q Hq), C1, !app_length; cbn [length]; lia|].
    intros x Hx. rewrite Wh. apply C2. apply in_app_or in Hx as [Hx|Hx]; apply in_or_app; [left; exact Hx|right; right; exact Hx].
Qed.

Lemma step_inv q m F o : FInv q m F -> lop_ok q F o -> FInv q (lstep m o) (sp_step F o).
Proof.
  intros HF L. destruct o as [h n|h n|n|h n|h|n]; cbn [lstep sp_step lop_ok] in *.
  - destruct L as (-> & Lh & Ln).
    assert (Hhn : h <> n) by (intros ->; apply in_map_iff in Lh as ([k r] & <- & Hin); apply Ln; eapply all_addrs_in; [exact Hin|left; reflexivity]).
    eapply add_tail_step; [exact HF|exact Lh|exact Ln| | | | |discriminate]; intros y; try reflexivity.
    cbn [bl_add_tail nx pv set_pv set_nx]. rewrite (set_neq (pv m) n (pv m h) h Hhn). reflexivity.
  - destruct L as (-> & Lh & Ln).
    assert (Hhn : h <> n) by (intros ->; apply in_map_iff in Lh as ([k r] & <- & Hin); apply Ln; eapply all_addrs_in; [exact Hin|left; reflexivity]).
    eapply add_head_step; [exact HF|exact Lh|exact Ln| | | |]; intros y; try reflexivity.
    cbn [bl_add_head nx pv set_pv set_nx]. rewrite (set_neq (nx m) n (nx m h) h Hhn). reflexivity.
  - destruct L as (-> & h & l & Hin & Hn). apply in_split in Hn as (A & B & ->).
    pose proof HF as (I1 & I2 & _). pose proof (I2 _ _ Hin) as R.
    destruct (family_split F h _ Hin I1) as (F1 & F2 & -> & N1 & N2 & N3).
    rewrite sp_remove_split; [|apply NoDup_cons_iff in N1; tauto|apply N3; right; apply in_or_app; right; left; reflexivity].
    assert (Pn : pv m n <> n).
    { destruct (around h A B) as (A' & a & b & B' & E1 & E2). apply (ring_split3 _ _ _ _ _ _ _ _ _ E1 E2) in R as (_ & _ & -> & _).
      intros ->. change (h :: A ++ n :: B) with ((h :: A) ++ n :: B) in N1. apply NoDup_remove_2 in N1. apply N1, in_or_app. left. rewrite E1. apply in_or_app. right. left. reflexivity. }
    eapply remove_step; [exact HF| | | | |discriminate]; intros y; try reflexivity.
    cbn [bl_remove nx pv set_pv set_nx]. rewrite (set_neq (nx m) (pv m n) (nx m n) n) by congruence. reflexivity.
  - destruct L as (Lh & Ln).
    assert (Hhn : h <> n) by (intros ->; apply in_map_iff in Lh as ([k r] & <- & Hin); apply Ln; eapply all_addrs_in; [exact Hin|left; reflexivity]).
    eapply add_tail_step; [exact HF|exact Lh|exact Ln| | | | |].
    + intros y. cbn [q_push nx pv set_pv set_nx set_cnt set_hd]. rewrite (set_neq (pv m) n (pv m h) h Hhn). reflexivity.
    + intros y. reflexivity.
    + intros y Hy. cbn [q_push cnt set_pv set_nx set_cnt set_hd]. apply set_neq, Hy.
    + intros y Hy. cbn [q_push hd set_pv set_nx set_cnt set_hd]. apply set_neq, Hy.
    + intros _. cbn [q_push hd cnt set_pv set_nx set_cnt set_hd]. rewrite !set_eq. auto.
  - destruct L as (l & Hin & Hne). destruct (exists_last Hne) as (A & x & ->).
    pose proof HF as (I1 & I2 & I3). pose proof (I2 _ _ Hin) as R.
    destruct (family_split F h _ Hin I1) as (F1 & F2 & -> & N1 & N2 & N3).
    rewrite sp_upd_split by (apply N3; left; reflexivity). rewrite removelast_snoc.
    destruct (ring_ends m h _ R) as (_ & Pl). rewrite last_last in Pl.
    assert (Pn : pv m x <> x).
    { destruct (around h A []) as (A' & a & b & B' & E1 & E2). apply (ring_split3 _ _ _ _ _ _ _ _ _ E1 E2) in R as (_ & _ & -> & _).
      intros ->. change (h :: A ++ [x]) with ((h :: A) ++ x :: []) in N1. apply NoDup_remove_2 in N1. apply N1, in_or_app. left. rewrite E1. apply in_or_app. right. left. reflexivity. }
    replace (F1 ++ (h, A) :: F2) with (F1 ++ (h, A ++ []) :: F2) by (rewrite app_nil_r; reflexivity).
    eapply (remove_step q m _ F1 F2 h A x []); [exact HF| | | | |].
    + intros y. cbn [q_pop fst nx pv set_pv set_nx set_cnt]. rewrite Pl. reflexivity.
    + intros y. cbn [q_pop fst nx pv set_pv set_nx set_cnt]. rewrite Pl, (set_neq (nx m) (pv m x) (nx m x) x) by congruence. reflexivity.
    + intros y Hy. cbn [q_pop fst cnt set_pv set_nx set_cnt]. apply set_neq, Hy.
    + intros y. reflexivity.
    + intros _. cbn [q_pop fst cnt set_pv set_nx set_cnt]. apply set_eq.
  - destruct L as (h & l & Hin & Hn). apply in_split in Hn as (A & B & ->).
    pose proof HF as (I1 & I2 & I3). pose proof (I2 _ _ Hin) as R.
    destruct (family_split F h _ Hin I1) as (F1 & F2 & -> & N1 & N2 & N3).
    rewrite sp_remove_split; [|apply NoDup_cons_iff in N1; tauto|apply N3; right; apply in_or_app; right; left; reflexivity].
    assert (Pn : nx m n <> n).
    { destruct (around h A B) as (A' & a & b & B' & E1 & E2). apply (ring_split3 _ _ _ _ _ _ _ _ _ E1 E2) in R as (_ & _ & _ & -> & _).
      intros ->. change (h :: A ++ n :: B) with ((h :: A) ++ n :: B) in N1. apply NoDup_remove_2 in N1. apply N1.
      assert (Hb : In n (B ++ [h])) by (rewrite E2; left; reflexivity).
      apply in_app_or in Hb as [Hb|[Hb|[]]]; apply in_or_app; [right; exact Hb|left; left; exact Hb]. }
    destruct q.
    + destruct (I3 eq_refl _ _ Hin) as (C1 & C2). assert (Hh : hd m n = h) by (apply C2, in_or_app; right; left; reflexivity).
      eapply remove_step; [exact HF| | | | |].
      * intros y. cbn [q_remove nx pv set_pv set_nx set_cnt]. rewrite (set_neq (pv m) (nx m n) (pv m n) n) by congruence. reflexivity.
      * intros y. reflexivity.
      * intros y Hy. cbn [q_remove cnt hd set_pv set_nx set_cnt]. rewrite Hh. apply set_neq, Hy.
      * intros y. reflexivity.
      * intros _. cbn [q_remove cnt hd set_pv set_nx set_cnt]. rewrite Hh. apply set_eq.
    + assert (HF' : FInv false (mkLmem (nx m) (pv m) (cnt (q_remove m n)) (hd (q_remove m n))) (F1 ++ (h, A ++ n :: B) :: F2)).
      { split; [exact I1|split; [exact I2|discriminate]]. }
      eapply remove_step; [exact HF'| | | | |discriminate]; intros y; try reflexivity.
      cbn [q_remove nx pv set_pv set_nx set_cnt]. rewrite (set_neq (pv m) (nx m n) (pv m n) n) by congruence. reflexivity.
Qed.

Lemma run_inv q : forall os m F, FInv q m F -> lops_ok q F os -> FInv q (lrun m os) (sp_run F os).
Proof.
  induction os as [|o os IH]; intros m F HF L; [exact HF|]. destruct L as (L1 & L2).
  cbn [lrun sp_run fold_left]. apply IH; [apply step_inv; assumption|exact L2].
Qed.

(** ** Traversals *)
Lemma for_each_spec m h : forall l x, linked (nx m) (pv m) (x :: l ++ [h]) -> ~ In h (l) -> x <> h \/ True ->
  forall fuel, length l <= fuel -> for_each fuel m h (nx m x) = Some l.
Proof.
  induction l as [|y l IH]; intros x L Nh _ fuel Hf.
  - cbn [app] in L. apply linked_cons in L as (L & _). rewrite L. destruct fuel; cbn [for_each]; rewrite Nat.eqb_refl; reflexivity.
  - cbn [app] in L. apply linked_cons in L as (L1 & L2 & L3). rewrite L1.
    assert (Hy : y <> h) by (intros ->; apply Nh; left; reflexivity).
    destruct fuel as [|fuel]; [cbn [length] in Hf; lia|]. cbn [for_each]. rewrite (proj2 (Nat.eqb_neq y h) Hy).
    rewrite (IH y L3); [reflexivity| |right; exact I|cbn [length] in Hf; lia]. intros H. apply Nh. right. exact H.
Qed.
Lemma for_each_prev_spec m h : forall l x, linked (nx m) (pv m) (h :: rev l ++ [x]) -> ~ In h l ->
  forall fuel, length l <= fuel -> for_each_prev fuel m h (pv m x) = Some l.
Proof.
  induction l as [|y l IH]; intros x L Nh fuel Hf.
  - cbn [rev app] in L. apply linked_cons in L as (_ & L & _). rewrite L. destruct fuel; cbn [for_each_prev]; rewrite Nat.eqb_refl; reflexivity.
  - cbn [rev] in L. rewrite <- app_assoc in L. cbn [app] in L.
    change (h :: rev l ++ [y; x]) with ((h :: rev l) ++ y :: [x]) in L. apply linked_app in L as (L1 & L2).
    apply linked_cons in L2 as (_ & L2 & _). rewrite L2.
    assert (Hy : y <> h) by (intros ->; apply Nh; left; reflexivity).
    destruct fuel as [|fuel]; [cbn [length] in Hf; lia|]. cbn [for_each_prev]. rewrite (proj2 (Nat.eqb_neq y h) Hy).
    rewrite (IH y L1); [reflexivity| |cbn [length] in Hf; lia]. intros H. apply Nh. right. exact H.
Qed.

Lemma traversal q m F h l : FInv q m F -> In (h, l) F -> forall fuel, length l <= fuel ->
  forwards fuel m h = Some l /\ backwards fuel m h = Some (rev l) /\
  q_last m h = last l h /\ (q_is_empty m h = true <-> l = []).
Proof.
  intros (I1 & I2 & I3) Hin fuel Hf. pose proof (I2 _ _ Hin) as R.
  destruct (family_split F h l Hin I1) as (F1 & F2 & _ & N1 & _ & _). apply NoDup_cons_iff in N1 as (N1 & N2).
  split; [|split; [|split]].
  - apply for_each_spec; auto.
  - apply for_each_prev_spec.
    + rewrite rev_involutive. exact R.
    + intros H. apply N1. apply in_rev. exact H.
    + rewrite rev_length. exact Hf.
  - apply (ring_ends m h l R).
  - unfold q_is_empty. rewrite (proj1 (ring_ends m h l R)). destruct l as [|x l]; cbn [List.hd].
    + rewrite Nat.eqb_refl. tauto.
    + split; [|discriminate]. intros H. apply Nat.eqb_eq in H. exfalso. apply N1. left. exact H.
Qed.

Lemma init_family q (init : lmem -> nat -> lmem) (hs : list nat) m :
  (init = bl_init /\ q = false) \/ init = q_init -> NoDup hs -> FInv q (fold_left init hs m) (map (fun h => (h, [])) hs).
Proof.
  intros HI ND.
  assert (Keep : forall hs m y, ~ In y hs -> nx (fold_left init hs m) y = nx m y /\ pv (fold_left init hs m) y = pv m y /\ cnt (fold_left init hs m) y = cnt m y).
  { clear - HI. induction hs as [|h hs IH]; intros m y Hy; [auto|]. cbn [fold_left].
    destruct (IH (init m h) y ltac:(intros H; apply Hy; right; exact H)) as (-> & -> & ->).
    assert (y <> h) by (intros ->; apply Hy; left; reflexivity).
    destruct HI as [(-> & _)| ->]; cbn [bl_init q_init nx pv cnt set_nx set_pv set_cnt set_hd]; rewrite ?set_neq by assumption; auto. }
  assert (P : forall hs m, NoDup hs -> forall h, In h hs -> nx (fold_left init hs m) h = h /\ pv (fold_left init hs m) h = h /\ (init = q_init -> cnt (fold_left init hs m) h = 0%Z)).
  { clear - HI Keep. induction hs as [|k hs IH]; intros m ND h H; [destruct H|destruct H as [<-|H]]; cbn [fold_left]; apply NoDup_cons_iff in ND as (N1 & N2).
    - destruct (Keep hs (init m k) k N1) as (-> & -> & ->).
      destruct HI as [(-> & _)| ->]; cbn [bl_init q_init nx pv cnt set_nx set_pv set_cnt set_hd]; rewrite ?set_eq; auto.
      split; [reflexivity|]. split; [reflexivity|]. intros E. exfalso.
      assert (X : cnt (bl_init (mkLmem (fun _ => 0) (fun _ => 0) (fun _ => 1%Z) (fun _ => 0)) 0) 0 = cnt (q_init (mkLmem (fun _ => 0) (fun _ => 0) (fun _ => 1%Z) (fun _ => 0)) 0) 0) by (rewrite E; reflexivity).
      vm_compute in X. discriminate.
    - apply IH; assumption. }
  split; [|split].
  - unfold all_addrs. rewrite map_map. cbn [fst snd]. clear - ND. induction hs as [|h hs IH]; [constructor|].
    cbn [map concat app]. apply NoDup_cons_iff in ND as (N1 & N2). constructor; [|apply IH, N2].
    intros H. apply N1. apply in_concat in H as (r & H1 & H2). apply in_map_iff in H1 as (z & <- & H1). destruct H2 as [<-|[]]. exact H1.
  - intros h l H. apply in_map_iff in H as (z & E & H). injection E as -> <-. destruct (P hs m ND h H) as (P1 & P2 & _).
    unfold ring. cbn [app]. apply linked_cons. split; [exact P1|]. split; [exact P2|exact I].
  - intros Hq h l H. apply in_map_iff in H as (z & E & H). injection E as -> <-. destruct (P hs m ND h H) as (_ & _ & P3).
    split; [|intros ? []]. destruct HI as [(_ & E)| ->]; [congruence|]. apply P3. reflexivity.
Qed.
