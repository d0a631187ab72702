From Coq Require Import Permutation.
From Verif Require Import Base RbTree.

Section Proofs.
Variables K V : Type.
Variable cmp : K -> K -> comparison.
(** The comparison is a total order (what every comparator registered in the code is meant to be). *)
Hypothesis cmp_eq : forall a b, cmp a b = Eq <-> a = b.
Hypothesis cmp_sym : forall a b, cmp b a = CompOpp (cmp a b).
Hypothesis cmp_trans : forall a b c, cmp a b = Lt -> cmp b c = Lt -> cmp a c = Lt.

Notation tree := (tree K V).
Notation frame := (frame K V).
Notation payload := (payload K V).

(** In-order list of nodes (address, payload). *)
Fixpoint el (t : tree) : list (nat * payload) :=
  match t with E => [] | T _ id l p r => el l ++ (id, p) :: el r end.
Fixpoint before (path : list frame) : list (nat * payload) :=
  match path with
  | [] => []
  | FL _ id p r :: path' => before path'
  | FR _ id l p :: path' => before path' ++ el l ++ [(id, p)]
  end.
Fixpoint after (path : list frame) : list (nat * payload) :=
  match path with
  | [] => []
  | FL _ id p r :: path' => (id, p) :: el r ++ after path'
  | FR _ id l p :: path' => after path'
  end.

Ltac norm_app := cbn [app]; repeat (rewrite <- app_assoc; cbn [app]).

Lemma el_plug path : forall t, el (plug path t) = before path ++ el t ++ after path.
Proof.
  induction path as [|f path IH]; intros t; cbn [plug before after].
  - now rewrite app_nil_r.
  - rewrite IH. destruct f; cbn [plug1 el]; norm_app; reflexivity.
Qed.

Lemma el_paint c t : el (paint c t) = el t.
Proof. destruct t; reflexivity. Qed.

(** ** Balance *)
(** [rb c n t]: root colour [c], [n] black nodes on every path to a leaf, no red node with a red
    child. *)
Inductive rb : color -> nat -> tree -> Prop :=
| rb_E : rb Black 0 E
| rb_R n id l p r : rb Black n l -> rb Black n r -> rb Red n (T Red id l p r)
| rb_B n c1 c2 id l p r : rb c1 n l -> rb c2 n r -> rb Black (S n) (T Black id l p r).
(** [cx c n path N]: a context for a subtree of black height [n] whose parent has colour [c]. *)
Inductive cx : color -> nat -> list frame -> nat -> Prop :=
| cx_nil n : cx Black n [] n
| cx_LR n id p r path N : rb Black n r -> cx Black n path N -> cx Red n (FL Red id p r :: path) N
| cx_RR n id p l path N : rb Black n l -> cx Black n path N -> cx Red n (FR Red id l p :: path) N
| cx_LB n c c' id p r path N : rb c n r -> cx c' (S n) path N -> cx Black n (FL Black id p r :: path) N
| cx_RB n c c' id p l path N : rb c n l -> cx c' (S n) path N -> cx Black n (FR Black id l p :: path) N.

Lemma rb_color c n t : rb c n t -> t_color t = c.
Proof. intros H; inversion H; reflexivity. Qed.
Lemma rb_red c n t : rb c n t -> is_red t = match c with Red => true | Black => false end.
Proof. intros H. unfold is_red. now rewrite (rb_color _ _ _ H). Qed.

Fixpoint top (path : list frame) (c : color) : color :=
  match path with [] => c | f :: path' => top path' (f_color f) end.

Lemma plug_rb path : forall c n t N c', cx c n path N -> rb c' n t -> (c = Red -> c' = Black) ->
  rb (top path c') N (plug path t).
Proof.
  induction path as [|f path IH]; intros c n t N c' C R H; inversion C; subst; cbn [plug plug1 top f_color].
  - exact R.
  - rewrite (H eq_refl) in R. eapply IH; [eassumption|constructor; assumption|discriminate].
  - rewrite (H eq_refl) in R. eapply IH; [eassumption|constructor; assumption|discriminate].
  - eapply IH; [eassumption|econstructor; eassumption|reflexivity].
  - eapply IH; [eassumption|econstructor; eassumption|reflexivity].
Qed.

Lemma paint_black c n t : rb c n t -> exists m, rb Black m (paint Black t).
Proof. intros H; inversion H; subst; cbn [paint]; eexists; econstructor; eassumption. Qed.

Lemma paint_black_red n t : rb Red n t -> rb Black (S n) (paint Black t).
Proof. intros H; inversion H; subst. cbn [paint]. econstructor; eassumption. Qed.

Ltac inv H := inversion H; subst; clear H.

Lemma insert_fix_spec : forall fuel id l p r path c n N,
  length path < fuel -> cx c n path N -> rb Black n l -> rb Black n r -> top path Black = Black ->
  exists t' m, insert_fix fuel (T Red id l p r) path = Ok t' /\ rb Black m t' /\
    el t' = el (plug path (T Red id l p r)).
Proof.
  induction fuel as [|fuel IH]; intros id l p r path c n N F C Hl Hr Tp; [lia|].
  cbn [insert_fix]. destruct path as [|f path1].
  { exists (T Black id l p r), (S n). split; [reflexivity|]. split; [econstructor; eassumption|reflexivity]. }
  destruct (f_color f) eqn:Fc.
  2:{ exists (plug (f :: path1) (T Red id l p r)), N. split; [reflexivity|]. split; [|reflexivity].
      cbn [top] in Tp. rewrite Fc in Tp.
      assert (X : rb (top (f :: path1) Red) N (plug (f :: path1) (T Red id l p r))).
      { eapply plug_rb; [exact C|constructor; assumption|]. intros ->. inversion C; subst; discriminate. }
      cbn [top] in X. rewrite Fc, Tp in X. exact X. }
  cbn [length] in F.
  destruct path1 as [|g path2]; [cbn [top] in Tp; congruence|]. cbn [length] in F. cbn [top] in Tp.
  assert (Tp2 : path2 = [] \/ top path2 Black = Black).
  { destruct path2; [left; reflexivity|right; exact Tp]. }
  destruct g as [gc gi gp u|gc gi u gp].
  - (* parent is a left child *)
    assert (D : exists pi pp s, (f = FL Red pi pp s \/ f = FR Red pi s pp) /\ rb Black n s /\ gc = Black /\
                exists cu cg, rb cu n u /\ cx cg (S n) path2 N).
    { inv C; try discriminate.
      - match goal with H : cx Black n _ N |- _ => inv H end. do 3 eexists. split; [left; reflexivity|]. split; [assumption|]. split; [reflexivity|]. eauto.
      - match goal with H : cx Black n _ N |- _ => inv H end. do 3 eexists. split; [right; reflexivity|]. split; [assumption|]. split; [reflexivity|]. eauto. }
    destruct D as (pi & pp & s & Hf & Hs & -> & cu & cg & Hu & Cg).
    rewrite (rb_red _ _ _ Hu). destruct cu.
    + (* red uncle *)
      assert (X : rb Black (S n) (paint Black (plug1 f (T Red id l p r)))).
      { destruct Hf; subst f; cbn [plug1 paint]; econstructor; try eassumption; constructor; assumption. }
      assert (Y : rb Black (S n) (paint Black u)) by (apply paint_black_red; assumption).
      assert (TpB : top path2 Black = Black) by (destruct Tp2 as [->|?]; [reflexivity|assumption]).
      destruct (IH gi _ gp _ path2 cg (S n) N ltac:(lia) Cg X Y TpB) as (t' & m & -> & R & El).
      exists t', m. split; [reflexivity|]. split; [exact R|]. rewrite El. cbn [plug]. rewrite !el_plug.
      destruct Hf; subst f; cbn [plug1 el paint]; rewrite ?el_paint; cbn [plug1 el]; reflexivity.
    + destruct Hf; subst f; cbn [plug1 rotate_left obind paint rotate_right is_root].
      * eexists. exists N. split; [reflexivity|]. split.
        -- replace (if is_root path2 then Black else Black) with Black by (destruct path2; reflexivity).
           replace Black with (top path2 Black) at 1 by (destruct Tp2 as [->|?]; [reflexivity|assumption]).
           eapply plug_rb; [exact Cg| |reflexivity]. econstructor; constructor; assumption.
        -- cbn [plug plug1]. rewrite !el_plug. cbn [el]. norm_app. reflexivity.
      * eexists. exists N. split; [reflexivity|]. split.
        -- replace (if is_root path2 then Black else Black) with Black by (destruct path2; reflexivity).
           replace Black with (top path2 Black) at 1 by (destruct Tp2 as [->|?]; [reflexivity|assumption]).
           eapply plug_rb; [exact Cg| |reflexivity]. econstructor; constructor; assumption.
        -- cbn [plug plug1]. rewrite !el_plug. cbn [el]. norm_app. reflexivity.
  - (* parent is a right child *)
    assert (D : exists pi pp s, (f = FL Red pi pp s \/ f = FR Red pi s pp) /\ rb Black n s /\ gc = Black /\
                exists cu cg, rb cu n u /\ cx cg (S n) path2 N).
    { inv C; try discriminate.
      - match goal with H : cx Black n _ N |- _ => inv H end. do 3 eexists. split; [left; reflexivity|]. split; [assumption|]. split; [reflexivity|]. eauto.
      - match goal with H : cx Black n _ N |- _ => inv H end. do 3 eexists. split; [right; reflexivity|]. split; [assumption|]. split; [reflexivity|]. eauto. }
    destruct D as (pi & pp & s & Hf & Hs & -> & cu & cg & Hu & Cg).
    rewrite (rb_red _ _ _ Hu). destruct cu.
    + assert (X : rb Black (S n) (paint Black (plug1 f (T Red id l p r)))).
      { destruct Hf; subst f; cbn [plug1 paint]; econstructor; try eassumption; constructor; assumption. }
      assert (Y : rb Black (S n) (paint Black u)) by (apply paint_black_red; assumption).
      assert (TpB : top path2 Black = Black) by (destruct Tp2 as [->|?]; [reflexivity|assumption]).
      destruct (IH gi _ gp _ path2 cg (S n) N ltac:(lia) Cg Y X TpB) as (t' & m & -> & R & El).
      exists t', m. split; [reflexivity|]. split; [exact R|]. rewrite El. cbn [plug]. rewrite !el_plug.
      destruct Hf; subst f; cbn [plug1 el paint]; rewrite ?el_paint; cbn [plug1 el]; reflexivity.
    + destruct Hf; subst f; cbn [plug1 rotate_right obind paint rotate_left is_root].
      * eexists. exists N. split; [reflexivity|]. split.
        -- replace (if is_root path2 then Black else Black) with Black by (destruct path2; reflexivity).
           replace Black with (top path2 Black) at 1 by (destruct Tp2 as [->|?]; [reflexivity|assumption]).
           eapply plug_rb; [exact Cg| |reflexivity]. econstructor; constructor; assumption.
        -- cbn [plug plug1]. rewrite !el_plug. cbn [el]. norm_app. reflexivity.
      * eexists. exists N. split; [reflexivity|]. split.
        -- replace (if is_root path2 then Black else Black) with Black by (destruct path2; reflexivity).
           replace Black with (top path2 Black) at 1 by (destruct Tp2 as [->|?]; [reflexivity|assumption]).
           eapply plug_rb; [exact Cg| |reflexivity]. econstructor; constructor; assumption.
        -- cbn [plug plug1]. rewrite !el_plug. cbn [el]. norm_app. reflexivity.
Qed.

Definition good (t' : tree) (t : tree) : Prop := (exists m, rb Black m t') /\ el t' = el t.

Lemma close c0 n f path1 N x q A B : cx c0 n (f :: path1) N -> top (f :: path1) Black = Black ->
  rb Black n A -> rb Black n B -> exists m, rb Black m (plug path1 (T (f_color f) x A q B)).
Proof.
  intros C Tp HA HB. cbn [top] in Tp. exists N. rewrite <- Tp.
  inv C; cbn [f_color]; (eapply plug_rb; [eassumption|econstructor; eassumption|try reflexivity; discriminate]).
Qed.

Ltac els := cbn [plug plug1 el paint]; rewrite ?el_plug; cbn [plug1 el before after]; rewrite ?el_paint;
  norm_app; reflexivity.

Definition sibling (f : frame) : tree := match f with FL _ _ _ r => r | FR _ _ l _ => l end.

Lemma black_sib_step fuel f path1 node n c0 N :
  cx c0 (S n) (f :: path1) N -> top (f :: path1) Black = Black -> rb Black n node ->
  t_color (sibling f) = Black ->
  (exists t', delete_fix (S (S fuel)) node (f :: path1) = Ok t' /\ good t' (plug (f :: path1) node)) \/
  (f_color f = Black /\ exists node', delete_fix (S (S fuel)) node (f :: path1) = delete_fix (S fuel) node' path1 /\
     rb Black (S n) node' /\ el (plug path1 node') = el (plug (f :: path1) node)).
Proof.
  intros C Tp Hn Sb.
  assert (Hs : exists cs, rb cs (S n) (sibling f)) by (inv C; cbn [sibling]; eauto).
  destruct Hs as (cs & Hs). rewrite (rb_color _ _ _ Hs) in Sb. subst cs.
  inversion Hs as [| |? c1 c2 sid sl sp sr Hsl Hsr E1 E2]; subst.
  destruct f as [c p pp s|c p s pp]; cbn [sibling] in *; subst s.
  - cbn [delete_fix]. rewrite (rb_red _ _ _ Hsl), (rb_red _ _ _ Hsr). destruct c2.
    + (* far child red *)
      left. destruct c1; (cbn [rotate_left paint]; eexists; split; [reflexivity|]; split;
        [apply (close _ _ _ _ _ _ _ _ _ C Tp); [econstructor; eassumption|apply paint_black_red; assumption]|els]).
    + destruct c1.
      * (* near child red *)
        left. inversion Hsl as [|? xid xl xp xr Hxl Hxr|]; subst. cbn [rotate_right paint].
        cbn [is_red t_color]. rewrite (rb_red _ _ _ Hxl). cbn [rotate_left paint].
        eexists; split; [reflexivity|]; split;
          [apply (close _ _ _ _ _ _ _ _ _ C Tp); [econstructor; eassumption|econstructor; eassumption]|els].
      * destruct c.
        -- left. eexists; split; [reflexivity|]. split; [|els].
           cbn [top f_color] in Tp. inv C. exists N. cbn [paint].
           assert (TpB : top path1 Black = Black) by (destruct path1; [reflexivity|exact Tp]).
           rewrite <- TpB at 1. eapply plug_rb; [eassumption| |discriminate].
           econstructor; [eassumption|constructor; assumption].
        -- right. split; [reflexivity|]. eexists. split; [reflexivity|]. split; [|els].
           cbn [paint]. econstructor; [eassumption|constructor; assumption].
  - cbn [delete_fix]. rewrite (rb_red _ _ _ Hsl), (rb_red _ _ _ Hsr). destruct c1.
    + left. destruct c2; (cbn [rotate_right paint]; eexists; split; [reflexivity|]; split;
        [apply (close _ _ _ _ _ _ _ _ _ C Tp); [apply paint_black_red; assumption|econstructor; eassumption]|els]).
    + destruct c2.
      * left. inversion Hsr as [|? xid xl xp xr Hxl Hxr|]; subst. cbn [rotate_left paint].
        cbn [is_red t_color]. rewrite (rb_red _ _ _ Hxr). cbn [rotate_right paint].
        eexists; split; [reflexivity|]; split;
          [apply (close _ _ _ _ _ _ _ _ _ C Tp); [econstructor; eassumption|econstructor; eassumption]|els].
      * destruct c.
        -- left. eexists; split; [reflexivity|]. split; [|els].
           cbn [top f_color] in Tp. inv C. exists N. cbn [paint].
           assert (TpB : top path1 Black = Black) by (destruct path1; [reflexivity|exact Tp]).
           rewrite <- TpB at 1. eapply plug_rb; [eassumption| |discriminate].
           econstructor; [constructor; assumption|eassumption].
        -- right. split; [reflexivity|]. eexists. split; [reflexivity|]. split; [|els].
           cbn [paint]. econstructor; [constructor; assumption|eassumption].
Qed.

Lemma delete_fix_spec : forall path fuel node n c0 N,
  4 * length path + 2 <= fuel -> cx c0 (S n) path N -> top path Black = Black -> rb Black n node ->
  exists t', delete_fix fuel node path = Ok t' /\ good t' (plug path node).
Proof.
  induction path as [|f path1 IH]; intros fuel node n c0 N F C Tp Hn.
  { destruct fuel; [cbn in F; lia|]. exists node. split; [reflexivity|]. split; [eauto|reflexivity]. }
  cbn [length] in F. destruct fuel as [|[|fuel]]; try lia.
  destruct (t_color (sibling f)) eqn:Sc.
  - (* red sibling: its parent is black *)
    assert (D : exists c', f_color f = Black /\ cx c' (S (S n)) path1 N).
    { inv C; cbn [sibling f_color] in *;
        try (match goal with H : rb Black _ ?t, Sc : t_color ?t = Red |- _ => rewrite (rb_color _ _ _ H) in Sc; discriminate end);
        eauto. }
    destruct D as (c' & Fc & C1).
    assert (Hs : rb Red (S n) (sibling f)).
    { inv C; cbn [sibling] in *;
        match goal with H : rb ?c _ ?t, Sc : t_color ?t = Red |- _ => rewrite (rb_color _ _ _ H) in Sc; first [discriminate|subst; assumption] end. }
    inversion Hs as [|? sid sl sp sr Hsl Hsr E1 E2|]; subst.
    cbn [top] in Tp. rewrite Fc in Tp.
    destruct f as [c p pp s|c p s pp]; cbn [sibling f_color] in *; subst s c.
    + change (delete_fix (S (S fuel)) node (FL Black p pp (T Red sid sl sp sr) :: path1))
        with (delete_fix (S fuel) node (FL Red p pp sl :: FL Black sid sp sr :: path1)).
      destruct fuel as [|fuel]; [lia|].
      assert (C2 : cx Red (S n) (FL Red p pp sl :: FL Black sid sp sr :: path1) N).
      { constructor; [assumption|]. econstructor; eassumption. }
      destruct (black_sib_step fuel _ _ node n _ N C2 Tp Hn ltac:(cbn [sibling]; apply (rb_color _ _ _ Hsl))) as [(t' & X & G)|(X & _)]; [|discriminate].
      exists t'. split; [exact X|]. destruct G as [G1 G2]. split; [exact G1|]. rewrite G2. els.
    + change (delete_fix (S (S fuel)) node (FR Black p (T Red sid sl sp sr) pp :: path1))
        with (delete_fix (S fuel) node (FR Red p sr pp :: FR Black sid sl sp :: path1)).
      destruct fuel as [|fuel]; [lia|].
      assert (C2 : cx Red (S n) (FR Red p sr pp :: FR Black sid sl sp :: path1) N).
      { constructor; [assumption|]. econstructor; eassumption. }
      destruct (black_sib_step fuel _ _ node n _ N C2 Tp Hn ltac:(cbn [sibling]; apply (rb_color _ _ _ Hsr))) as [(t' & X & G)|(X & _)]; [|discriminate].
      exists t'. split; [exact X|]. destruct G as [G1 G2]. split; [exact G1|]. rewrite G2. els.
  - destruct (black_sib_step fuel f path1 node n c0 N C Tp Hn Sc) as [(t' & X & G)|(Fc & node' & X & R & El)]; [eauto|].
    rewrite X. cbn [top] in Tp. rewrite Fc in Tp.
    assert (C1 : exists c', cx c' (S (S n)) path1 N) by (inv C; cbn [f_color] in Fc; try discriminate; eauto).
    destruct C1 as (c' & C1).
    destruct (IH (S fuel) node' (S n) c' N ltac:(lia) C1 Tp R) as (t' & Y & G1 & G2).
    exists t'. split; [exact Y|]. split; [exact G1|]. rewrite G2, El. reflexivity.
Qed.

Lemma rebalance_spec path node n c c0 N : cx c0 (S n) path N -> top path Black = Black -> rb c n node ->
  exists t', rebalance node path = Ok t' /\ good t' (plug path node).
Proof.
  intros C Tp Hn. unfold rebalance. rewrite (rb_red _ _ _ Hn). destruct c.
  - eexists. split; [reflexivity|]. split.
    + exists N. rewrite <- Tp at 1. eapply plug_rb; [exact C|apply paint_black_red; exact Hn|reflexivity].
    + rewrite !el_plug, el_paint. reflexivity.
  - eapply delete_fix_spec; try eassumption. lia.
Qed.

(** ** Order *)
Notation node := (nat * payload)%type.
Definition key_of (x : node) : K := pl_key (snd x).
Definition klt (a b : K) : Prop := cmp a b = Lt.
Fixpoint sorted (l : list node) : Prop :=
  match l with [] => True | x :: t => (forall y, In y t -> klt (key_of x) (key_of y)) /\ sorted t end.

Lemma sorted_app a b : sorted (a ++ b) <-> sorted a /\ sorted b /\ forall x y, In x a -> In y b -> klt (key_of x) (key_of y).
Proof.
  induction a as [|x a IH]; cbn [app sorted].
  - split; [intros H; split; [exact I|split; [exact H|intros ? ? []]]|intros (_ & H & _); exact H].
  - rewrite IH. split.
    + intros (H1 & H2 & H3 & H4). split; [split; [|exact H2]|split; [exact H3|]].
      * intros y Hy. apply H1, in_or_app. left. exact Hy.
      * intros x' y [<-|Hx] Hy; [apply H1, in_or_app; right; exact Hy|apply H4; assumption].
    + intros ((H1 & H2) & H3 & H4). split; [|split; [exact H2|split; [exact H3|]]].
      * intros y Hy. apply in_app_or in Hy as [Hy|Hy]; [apply H1; exact Hy|apply H4; [left; reflexivity|exact Hy]].
      * intros x' y Hx Hy. apply H4; [right; exact Hx|exact Hy].
Qed.

Lemma sorted_mid a x b : sorted (a ++ x :: b) <-> sorted a /\ sorted b /\
  (forall y, In y a -> klt (key_of y) (key_of x)) /\ (forall y, In y b -> klt (key_of x) (key_of y)) /\
  (forall y z, In y a -> In z b -> klt (key_of y) (key_of z)).
Proof.
  rewrite sorted_app. cbn [sorted]. split.
  - intros (H1 & (H2 & H3) & H4). split; [exact H1|]. split; [exact H3|]. split; [|split; [exact H2|]].
    + intros y Hy. apply H4; [exact Hy|left; reflexivity].
    + intros y z Hy Hz. apply H4; [exact Hy|right; exact Hz].
  - intros (H1 & H2 & H3 & H4 & H5). split; [exact H1|]. split; [split; assumption|].
    intros y z Hy [<-|Hz]; [apply H3; exact Hy|apply H5; assumption].
Qed.

Lemma klt_irrefl a : ~ klt a a.
Proof. unfold klt. intros H. assert (cmp a a = Eq) by (apply cmp_eq; reflexivity). congruence. Qed.
Lemma cmp_gt a b : cmp a b = Gt <-> klt b a.
Proof. unfold klt. rewrite (cmp_sym a b). destruct (cmp a b); cbn; split; intros; congruence. Qed.

(** ** Lookup *)
Fixpoint lfind (k : K) (l : list node) : option node :=
  match l with
  | [] => None
  | x :: t => match cmp k (key_of x) with Eq => Some x | _ => lfind k t end
  end.
Lemma lfind_app k a b : (forall y, In y a -> key_of y <> k) -> lfind k (a ++ b) = lfind k b.
Proof.
  induction a as [|x a IH]; intros H; [reflexivity|]. cbn [app lfind].
  destruct (cmp k (key_of x)) eqn:C.
  - apply cmp_eq in C. exfalso. apply (H x); [left; reflexivity|congruence].
  - apply IH. intros y Hy. apply H. right. exact Hy.
  - apply IH. intros y Hy. apply H. right. exact Hy.
Qed.
Lemma lfind_none k a : (forall y, In y a -> key_of y <> k) -> lfind k a = None.
Proof. intros H. rewrite <- (app_nil_r a). rewrite lfind_app by exact H. reflexivity. Qed.
Lemma lfind_first k a b : (forall y, In y b -> key_of y <> k) -> lfind k (a ++ b) = lfind k a.
Proof.
  intros H. induction a as [|x a IH]; cbn [app lfind]; [apply lfind_none; exact H|].
  destruct (cmp k (key_of x)); auto.
Qed.

Lemma klt_neq a b : klt a b -> a <> b.
Proof. intros H ->. exact (klt_irrefl _ H). Qed.

Lemma find_lfind k t : sorted (el t) -> find cmp k t = lfind k (el t).
Proof.
  induction t as [|c id l IHl p r IHr]; intros S; [reflexivity|].
  cbn [el find] in *. apply sorted_mid in S as (S1 & S2 & S3 & S4 & S5). cbn [key_of snd] in *.
  destruct (cmp k (pl_key p)) eqn:C.
  - rewrite lfind_app.
    + cbn [lfind]. unfold key_of; cbn [snd]. rewrite C. reflexivity.
    + intros y Hy. apply cmp_eq in C. subst k. apply klt_neq, S3, Hy.
  - rewrite IHl by assumption. rewrite lfind_first; [reflexivity|].
    intros y [<-|Hy] Heq.
    + unfold key_of in Heq; cbn [snd] in Heq. subst k. exact (klt_irrefl _ C).
    + subst k. apply (klt_irrefl (key_of y)). eapply cmp_trans; [exact C|apply S4, Hy].
  - rewrite IHr by assumption. apply cmp_gt in C. rewrite lfind_app.
    + cbn [lfind]. unfold key_of; cbn [snd].
      destruct (cmp k (pl_key p)) eqn:C2; [|reflexivity|reflexivity].
      apply cmp_eq in C2. subst k. exfalso. exact (klt_irrefl _ C).
    + intros y Hy Heq. subst k. apply (klt_irrefl (key_of y)). eapply cmp_trans; [apply S3, Hy|exact C].
Qed.

Lemma lfind_some k l x : lfind k l = Some x -> In x l /\ key_of x = k.
Proof.
  induction l as [|y l IH]; [discriminate|]. cbn [lfind]. destruct (cmp k (key_of y)) eqn:C.
  - intros H; inversion H; subst. apply cmp_eq in C. split; [left; reflexivity|congruence].
  - intros H. apply IH in H as [H1 H2]. split; [right; exact H1|exact H2].
  - intros H. apply IH in H as [H1 H2]. split; [right; exact H1|exact H2].
Qed.
Lemma lfind_in l x : sorted l -> In x l -> lfind (key_of x) l = Some x.
Proof.
  intros S H. apply in_split in H as (a & b & ->). apply sorted_mid in S as (S1 & S2 & S3 & S4 & S5).
  rewrite lfind_app by (intros y Hy; apply klt_neq, S3, Hy).
  cbn [lfind]. replace (cmp (key_of x) (key_of x)) with Eq by (symmetry; apply cmp_eq; reflexivity). reflexivity.
Qed.

(** ** Descent *)
Definition between (k : K) (path : list frame) : Prop :=
  (forall y, In y (before path) -> klt (key_of y) k) /\ (forall y, In y (after path) -> klt k (key_of y)).

Lemma descend_spec k : forall t path c c' n N, sorted (el (plug path t)) -> between k path ->
  cx c n path N -> rb c' n t -> (c = Red -> c' = Black) -> top path c' = Black ->
  match descend cmp k t path with
  | DExists id p => In (id, p) (el (plug path t)) /\ pl_key p = k
  | DPath path' => between k path' /\ el (plug path' E) = el (plug path t) /\
                   (exists c0, cx c0 0 path' N) /\ top path' Black = Black
  end.
Proof.
  induction t as [|tc id l IHl p r IHr]; intros path c c' n N S B C R CR Tp; cbn [descend].
  { split; [exact B|]. split; [reflexivity|]. inversion R; subst. split; [eauto|exact Tp]. }
  assert (S' := S). rewrite el_plug in S'. cbn [el] in S'.
  apply sorted_app in S' as (Sb & S' & Sb2). apply sorted_app in S' as (St & Sa & Sta).
  apply sorted_mid in St as (S1 & S2 & S3 & S4 & S5). destruct B as [B1 B2].
  destruct (cmp k (pl_key p)) eqn:Ck.
  - split; [|symmetry; apply cmp_eq; exact Ck]. rewrite el_plug. cbn [el]. apply in_or_app; right. apply in_or_app; left. apply in_or_app; right. left. reflexivity.
  - assert (Tp' : top (FL tc id p r :: path) (t_color l) = Black).
    { cbn [top f_color]. rewrite <- Tp. f_equal. rewrite <- (rb_color _ _ _ R). reflexivity. }
    assert (X : exists cl nl c0, cx c0 nl (FL tc id p r :: path) N /\ rb cl nl l /\ (c0 = Red -> cl = Black)).
    { inv R.
      - destruct c; [specialize (CR eq_refl); discriminate|]. exists Black, n, Red. split; [constructor; assumption|]. auto.
      - exists c1, n0, Black. split; [econstructor; eassumption|]. split; [assumption|discriminate]. }
    destruct X as (cl & nl & c0 & C1 & R1 & CR1).
    replace (t_color l) with cl in Tp' by (symmetry; eapply rb_color; eassumption).
    specialize (IHl (FL tc id p r :: path) c0 cl nl N).
    cbn [plug plug1] in IHl. apply IHl; try assumption.
    split; cbn [before after]; [exact B1|]. intros y [<-|Hy]; [exact Ck|].
    apply in_app_or in Hy as [Hy|Hy]; [|apply B2; exact Hy]. eapply cmp_trans; [exact Ck|apply S4; exact Hy].
  - apply cmp_gt in Ck.
    assert (Tp' : top (FR tc id l p :: path) (t_color r) = Black).
    { cbn [top f_color]. rewrite <- Tp. f_equal. rewrite <- (rb_color _ _ _ R). reflexivity. }
    assert (X : exists cr nr c0, cx c0 nr (FR tc id l p :: path) N /\ rb cr nr r /\ (c0 = Red -> cr = Black)).
    { inv R.
      - destruct c; [specialize (CR eq_refl); discriminate|]. exists Black, n, Red. split; [constructor; assumption|]. auto.
      - exists c2, n0, Black. split; [econstructor; eassumption|]. split; [assumption|discriminate]. }
    destruct X as (cr & nr & c0 & C1 & R1 & CR1).
    replace (t_color r) with cr in Tp' by (symmetry; eapply rb_color; eassumption).
    specialize (IHr (FR tc id l p :: path) c0 cr nr N).
    cbn [plug plug1] in IHr. apply IHr; try assumption.
    split; cbn [before after]; [|exact B2]. intros y Hy.
    apply in_app_or in Hy as [Hy|Hy]; [apply B1; exact Hy|].
    apply in_app_or in Hy as [Hy|[<-|[]]]; [|exact Ck]. eapply cmp_trans; [apply S3; exact Hy|exact Ck].
Qed.

(** ** Locating a node *)
Lemma locate_spec a : forall t path c c' n N, In a (map fst (el t)) ->
  cx c n path N -> rb c' n t -> (c = Red -> c' = Black) ->
  exists tc l p r path' c0 c1 n1, locate a t path = Some (T tc a l p r, path') /\
    plug path' (T tc a l p r) = plug path t /\ cx c0 n1 path' N /\ rb c1 n1 (T tc a l p r) /\ (c0 = Red -> c1 = Black) /\
    top path' c1 = top path c'.
Proof.
  induction t as [|tc id l IHl p r IHr]; intros path c c' n N H C R CR; [destruct H|].
  cbn [locate]. destruct (Nat.eqb_spec id a) as [->|Hne].
  { exists tc, l, p, r, path, c, c', n. auto 10. }
  assert (X : exists cl cr nl c0, cx c0 nl (FL tc id p r :: path) N /\ cx c0 nl (FR tc id l p :: path) N /\ rb cl nl l /\ rb cr nl r /\
      (c0 = Red -> cl = Black) /\ (c0 = Red -> cr = Black)).
  { inv R.
    - destruct c; [specialize (CR eq_refl); discriminate|]. exists Black, Black, n, Red.
      split; [constructor; assumption|]. split; [constructor; assumption|]. auto.
    - exists c1, c2, n0, Black. split; [econstructor; eassumption|]. split; [econstructor; eassumption|].
      split; [assumption|]. split; [assumption|]. split; discriminate. }
  destruct X as (cl & cr & nl & c0 & C1 & C2 & R1 & R2 & CR1 & CR2).
  assert (TC : t_color (T tc id l p r) = c') by (eapply rb_color; eassumption). cbn [t_color] in TC. subst c'.
  destruct (in_dec Nat.eq_dec a (map fst (el l))) as [Hl|Hl].
  - destruct (IHl _ _ _ _ _ Hl C1 R1 CR1) as (tc' & l' & p' & r' & path' & c0' & c1' & n1 & L & P & C' & R' & CR' & Tp).
    rewrite L. exists tc', l', p', r', path', c0', c1', n1. auto 10.
  - assert (Hr : In a (map fst (el r))).
    { cbn [el] in H. rewrite map_app in H. apply in_app_or in H as [H|[H|H]]; [contradiction|cbn in H; congruence|exact H]. }
    assert (Hn : locate a l (FL tc id p r :: path) = None).
    { clear -Hl. revert Hl. generalize (FL tc id p r :: path). induction l as [|c i l1 IH1 q l2 IH2]; intros pt Hl; [reflexivity|].
      cbn [el] in Hl. rewrite map_app in Hl. cbn [map fst] in Hl. cbn [locate].
      destruct (Nat.eqb_spec i a) as [->|?]; [exfalso; apply Hl, in_or_app; right; left; reflexivity|].
      rewrite IH1 by (intros Z; apply Hl, in_or_app; left; exact Z).
      apply IH2. intros Z; apply Hl, in_or_app; right; right; exact Z. }
    rewrite Hn.
    destruct (IHr _ _ _ _ _ Hr C2 R2 CR2) as (tc' & l' & p' & r' & path' & c0' & c1' & n1 & L & P & C' & R' & CR' & Tp).
    exists tc', l', p', r', path', c0', c1', n1. auto 10.
Qed.

Lemma min_path_spec : forall l c id p r path c0 c1 n N,
  cx c0 n path N -> rb c1 n (T c id l p r) -> (c0 = Red -> c1 = Black) ->
  exists mc mid mp mrc path' c0' n', min_path c id l p r path = (mc, mid, mp, mrc, path') /\
    el (T c id l p r) ++ after path = (mid, mp) :: el mrc ++ after path' /\ before path' = before path /\
    cx c0' n' path' N /\ rb mc n' (T mc mid E mp mrc) /\ (c0' = Red -> mc = Black) /\ top path' mc = top path c1 /\
    (exists extra, path' = extra ++ path).
Proof.
  induction l as [|lc lid ll IHll lp lr _]; intros c id p r path c0 c1 n N C R CR; cbn [min_path].
  - assert (c1 = c) by (symmetry; apply (rb_color _ _ _ R)). subst c1.
    exists c, id, p, r, path, c0, n. split; [reflexivity|]. split; [reflexivity|]. split; [reflexivity|].
    split; [exact C|]. split; [exact R|]. split; [exact CR|]. split; [reflexivity|]. exists []. reflexivity.
  - assert (X : exists cl nl c2, cx c2 nl (FL c id p r :: path) N /\ rb cl nl (T lc lid ll lp lr) /\ (c2 = Red -> cl = Black)).
    { inversion R; subst.
      - destruct c0; [specialize (CR eq_refl); discriminate|]. exists Black, n, Red. split; [constructor; assumption|]. auto.
      - eexists _, _, Black. split; [econstructor; eassumption|]. split; [eassumption|discriminate]. }
    destruct X as (cl & nl & c2 & C2 & R2 & CR2).
    destruct (IHll lc lid lp lr (FL c id p r :: path) c2 cl nl N C2 R2 CR2) as
      (mc & mid & mp & mrc & path' & c0' & n' & M & El & Bf & C' & R' & CR' & Tp & extra & Ex).
    exists mc, mid, mp, mrc, path', c0', n'. split; [exact M|]. split; [rewrite <- El; cbn [el after]; norm_app; reflexivity|].
    split; [rewrite Bf; reflexivity|]. split; [exact C'|]. split; [exact R'|]. split; [exact CR'|].
    assert (c1 = c) by (symmetry; apply (rb_color _ _ _ R)). subst c1.
    split; [rewrite Tp; reflexivity|]. exists (extra ++ [FL c id p r]). rewrite Ex, <- app_assoc. reflexivity.
Qed.

Lemma min_path_app : forall (l : tree) c id p (r : tree) (a b : list frame),
  min_path c id l p r (a ++ b) = (let '(mc, mid, mp, mrc, q) := min_path c id l p r a in (mc, mid, mp, mrc, q ++ b)).
Proof.
  induction l as [|lc lid ll IHll lp lr _]; intros c id p r a b; cbn [min_path]; [reflexivity|].
  rewrite app_comm_cons. apply IHll.
Qed.

Lemma split_unique (A1 B1 A2 B2 : list node) a p1 p2 : NoDup (map fst (A1 ++ (a, p1) :: B1)) ->
  A1 ++ (a, p1) :: B1 = A2 ++ (a, p2) :: B2 -> A1 = A2 /\ p1 = p2 /\ B1 = B2.
Proof.
  revert A2. induction A1 as [|x A1 IH]; intros A2 ND H.
  - destruct A2 as [|y A2]; cbn [app] in *; [inversion H; auto|]. inversion H; subst.
    cbn [map fst] in ND. apply NoDup_cons_iff in ND as [N1 _]. exfalso. apply N1. rewrite map_app. apply in_or_app. right. left. reflexivity.
  - destruct A2 as [|y A2]; cbn [app] in *.
    + inversion H; subst. cbn [map fst] in ND. apply NoDup_cons_iff in ND as [N1 _]. exfalso. apply N1. rewrite map_app. apply in_or_app. right. left. reflexivity.
    + inversion H; subst. cbn [map] in ND. apply NoDup_cons_iff in ND as [_ ND].
      destruct (IH A2 ND ltac:(assumption)) as (-> & -> & ->). auto.
Qed.

Lemma rb0 c t : rb c 0 t -> t <> E -> exists id l p r, t = T Red id l p r /\ c = Red.
Proof. intros H Hne. inversion H; subst; [congruence|]. eauto 10. Qed.

Definition deleted (hs : nat -> option nat) (a : nat) (A B : list node) (p : payload) (t' : tree) (hs' : nat -> option nat) : Prop :=
  (el t' = A ++ B /\ hs' = set_handle (pl_handle p) None hs) \/
  (exists mid mp B', B = (mid, mp) :: B' /\ el t' = A ++ (a, mp) :: B' /\
     hs' = set_handle (pl_handle mp) (Some a) (set_handle (pl_handle p) None hs)).

Lemma top_any (path : list frame) c1 c2 : path <> [] -> top path c1 = top path c2.
Proof. destruct path; [congruence|reflexivity]. Qed.
Lemma top_black (path : list frame) c : top path c = Black -> top path Black = Black.
Proof. destruct path; [reflexivity|exact (fun H => H)]. Qed.

Lemma rb_delete_spec s t m a A p B : rb_root s = RNode t -> rb Black m t -> NoDup (map fst (el t)) ->
  el t = A ++ (a, p) :: B -> rb_count s = length (el t) ->
  exists s', rb_delete s a = Ok s' /\ rb_count s' = length (A ++ B) /\
    ((A ++ B = [] /\ rb_root s' = RFreed /\ rb_handles s' = set_handle (pl_handle p) None (rb_handles s)) \/
     (A ++ B <> [] /\ exists t' m', rb_root s' = RNode t' /\ rb Black m' t' /\ deleted (rb_handles s) a A B p t' (rb_handles s'))).
Proof.
  intros Rt Hrb ND El Cn. unfold rb_delete.
  assert (Cn2 : rb_count s = S (length (A ++ B))) by (rewrite Cn, El, !app_length; cbn [length]; lia).
  replace (rb_count s =? 0) with false by (symmetry; apply Nat.eqb_neq; lia). rewrite Rt.
  assert (Ina : In a (map fst (el t))) by (rewrite El, map_app; apply in_or_app; right; left; reflexivity).
  destruct (locate_spec a t [] Black Black m m Ina (cx_nil _) Hrb ltac:(discriminate)) as
    (tc & l & p' & r & path & c0 & c1 & n1 & L & P & C & R & CR & Tp).
  cbn [plug] in P. cbn [top] in Tp. rewrite L.
  assert (U : A = before path ++ el l /\ p = p' /\ B = el r ++ after path).
  { rewrite El in ND. apply (split_unique _ _ _ _ a p p' ND). rewrite <- El, <- P, el_plug. cbn [el]. norm_app. reflexivity. }
  destruct U as (EA & <- & EB).
  assert (Tc : c1 = tc) by (symmetry; apply (rb_color _ _ _ R)). subst c1.
  assert (TpB : top path Black = Black) by (apply (top_black _ _ Tp)).
  destruct r as [|rc rid rl rp rr].
  - destruct l as [|lc lid ll lp lr].
    + (* no child *)
      cbn [el app] in EA, EB. rewrite app_nil_r in EA. subst A B.
      destruct path as [|f path].
      { eexists. split; [reflexivity|]. split; [reflexivity|]. left. cbn. auto. }
      assert (Ne : before (f :: path) ++ after (f :: path) <> []).
      { destruct f; cbn [before after]; [destruct (before path); discriminate|]. destruct (before path); [destruct (el l)|]; discriminate. }
      destruct tc.
      * inversion R as [|? ? ? ? ? R1 R2|]; subst. inversion R1; subst.
        eexists. split; [reflexivity|]. split; [cbn [rb_count]; lia|]. right. split; [exact Ne|].
        eexists. exists m. split; [reflexivity|]. split.
        -- rewrite <- TpB. eapply plug_rb; [exact C|constructor|reflexivity].
        -- left. split; [rewrite el_plug; reflexivity|reflexivity].
      * inversion R as [| |? ? ? ? ? ? ? R1 R2]; subst. inversion R1; subst.
        destruct (rebalance_spec (f :: path) E 0 Black c0 m C TpB ltac:(constructor)) as (t' & -> & (m' & G1) & G2).
        cbn [obind]. eexists. split; [reflexivity|]. split; [cbn [rb_count]; lia|]. right. split; [exact Ne|].
        exists t', m'. split; [reflexivity|]. split; [exact G1|]. left. split; [rewrite G2, el_plug; reflexivity|reflexivity].
    + (* left child only *)
      assert (tc = Black /\ exists cl, n1 = 1 /\ rb cl 0 (T lc lid ll lp lr)) as (-> & cl & -> & Rl).
      { inversion R as [|? ? ? ? ? R1 R2|? ? ? ? ? ? ? R1 R2]; subst; inversion R2; subst; [inversion R1|eauto]. }
      destruct (rb0 _ _ Rl ltac:(discriminate)) as (? & ? & ? & ? & E1 & ->). injection E1 as -> <- <- <- <-.
      cbv beta iota zeta. set (target := if is_root path then paint Black (T Red lid ll lp lr) else T Red lid ll lp lr).
      assert (G : exists t', rebalance target path = Ok t' /\ good t' (plug path (T Red lid ll lp lr))).
      { unfold target. destruct path as [|f path]; cbn [is_root].
        - exists (T Black lid ll lp lr). split; [reflexivity|]. split; [exists 1; apply (paint_black_red _ _ Rl)|reflexivity].
        - eapply rebalance_spec; eassumption. }
            destruct G as (t' & -> & (m' & G1) & G2).
      cbn [obind]. eexists. split; [reflexivity|].
      assert (Eq1 : el t' = A ++ B) by (rewrite G2, el_plug, EA, EB; cbn [el]; norm_app; reflexivity).
      split; [cbn [rb_count]; lia|]. right.
      split; [rewrite EA; cbn [el]; intros Z; apply (f_equal (@length _)) in Z; rewrite !app_length in Z; cbn [length] in Z; lia|].
      exists t', m'. split; [reflexivity|]. split; [exact G1|]. left. auto.
  - (* right child *)
    destruct (min_path rc rid rl rp rr []) as [[[[mc mid] mp] mrc] path0] eqn:M.
    pose proof (min_path_app rl rc rid rp rr [] (FR tc a l mp :: path)) as M2. rewrite M in M2. cbn [app] in M2.
    assert (X : exists cr nr c2, cx c2 nr (FR tc a l mp :: path) m /\ rb cr nr (T rc rid rl rp rr) /\ (c2 = Red -> cr = Black)).
    { inversion R; subst.
      - destruct c0; [specialize (CR eq_refl); discriminate|]. exists Black, n1, Red. split; [constructor; assumption|]. auto.
      - eexists _, _, Black. split; [econstructor; eassumption|]. split; [eassumption|discriminate]. }
    destruct X as (cr & nr & c2 & C2 & R2 & CR2).
    destruct (min_path_spec rl rc rid rp rr (FR tc a l mp :: path) c2 cr nr m C2 R2 CR2) as
      (mc' & mid' & mp' & mrc' & path' & c0' & n' & M' & El' & Bf & C' & R' & CR' & Tp' & extra & Ex).
    clear extra Ex. rewrite M2 in M'. injection M' as <- <- <- <- <-.
    cbn [top] in Tp'. cbn [f_color] in Tp'. rewrite Tp in Tp'.
    assert (G : exists t', (match mc with Black => rebalance mrc (path0 ++ FR tc a l mp :: path)
                           | Red => Ok (plug (path0 ++ FR tc a l mp :: path) mrc) end) = Ok t' /\
                 good t' (plug (path0 ++ FR tc a l mp :: path) mrc)).
    { destruct mc.
      - eexists. split; [reflexivity|]. split; [|reflexivity]. exists m.
        inversion R' as [|? ? ? ? ? R1 Rm|]; subst.
        assert (TpB' := top_black _ _ Tp'). rewrite <- TpB'. eapply plug_rb; [exact C'|exact Rm|reflexivity].
      - inversion R' as [| |? ? ? ? ? ? ? R1 Rm]; subst. eapply rebalance_spec; [exact C'|apply (top_black _ _ Tp')|exact Rm]. }
    assert (Hm : match l with E | T _ _ _ _ _ => True end) by (destruct l; exact I). clear Hm.
    destruct G as (t' & G & (m' & G1) & G2).
    assert (Eq1 : el t' = A ++ (a, mp) :: el mrc ++ after (path0 ++ FR tc a l mp :: path)).
    { rewrite G2, el_plug, Bf, EA. cbn [before]. norm_app. reflexivity. }
    assert (Eq2 : B = (mid, mp) :: el mrc ++ after (path0 ++ FR tc a l mp :: path)).
    { rewrite EB, <- El'. reflexivity. }
    exists (mkRb (RNode t') (rb_count s - 1) (set_handle (pl_handle mp) (Some a) (set_handle (pl_handle p) None (rb_handles s)))).
    split; [destruct l; rewrite G; reflexivity|].
    split; [cbn [rb_count]; lia|]. right. split; [rewrite Eq2; destruct A; discriminate|].
    exists t', m'. split; [reflexivity|]. split; [exact G1|]. right.
    exists mid, mp, (el mrc ++ after (path0 ++ FR tc a l mp :: path)). split; [exact Eq2|]. split; [exact Eq1|]. reflexivity.
Qed.

Lemma NoDup_app_swap_cons (A B : list nat) a : NoDup (a :: A ++ B) -> NoDup (A ++ a :: B).
Proof. intros H. apply (Permutation_NoDup (l := a :: A ++ B)); [apply Permutation_middle|exact H]. Qed.

(** ** The state invariant and the abstract map *)
Definition els (s : rbstate K V) : list node := match rb_root s with RNode t => el t | _ => [] end.
Definition hok (l : list node) (hs : nat -> option nat) : Prop :=
  forall id p h, In (id, p) l -> pl_handle p = Some h -> hs h = Some id.
Definition Inv (s : rbstate K V) : Prop :=
  match rb_root s with
  | RNode t => el t <> [] /\ exists m, rb Black m t
  | _ => True
  end /\ sorted (els s) /\ NoDup (map fst (els s)) /\ rb_count s = length (els s) /\ hok (els s) (rb_handles s).

(** The specification: a list of entries (key, value, handle) in no particular order. *)
Definition handle_is (h : nat) (p : payload) : bool :=
  match pl_handle p with Some h' => h' =? h | None => false end.
Definition key_is (k : K) (p : payload) : bool := match cmp k (pl_key p) with Eq => true | _ => false end.
Definition spec_step (sp : list payload) (o : rbop K V) : list payload :=
  match o with
  | OInsert _ k d h => if existsb (key_is k) sp then sp else mkPayload k d h :: sp
  | ODelete h => filter (fun p => negb (handle_is h p)) sp
  | ODeleteKey k => filter (fun p => negb (key_is k p)) sp
  end.
(** What the callers must respect: malloc returns unused memory; a handle variable registers one
    element at a time; elements with a handle are inserted under an absent key; only live handles
    are deleted. *)
Definition legal_op (s : rbstate K V) (sp : list payload) (o : rbop K V) : Prop :=
  match o with
  | OInsert a k d h => ~ In a (map fst (els s)) /\
      (forall i, h = Some i -> existsb (handle_is i) sp = false /\ existsb (key_is k) sp = false)
  | ODelete h => existsb (handle_is h) sp = true
  | ODeleteKey _ => True
  end.
Fixpoint legal (s : rbstate K V) (sp : list payload) (os : list (rbop K V)) : Prop :=
  match os with
  | [] => True
  | o :: t => legal_op s sp o /\ forall s', rb_step cmp s o = Ok s' -> legal s' (spec_step sp o) t
  end.
Definition spec_run (sp : list payload) (os : list (rbop K V)) : list payload := fold_left spec_step os sp.

Definition refines (s : rbstate K V) (sp : list payload) : Prop := Permutation (map snd (els s)) sp.

Lemma key_is_spec k p : key_is k p = true <-> pl_key p = k.
Proof.
  unfold key_is. destruct (cmp k (pl_key p)) eqn:C; split; intros H; try discriminate; try reflexivity.
  - symmetry. apply cmp_eq. exact C.
  - subst k. assert (cmp (pl_key p) (pl_key p) = Eq) by (apply cmp_eq; reflexivity). congruence.
  - subst k. assert (cmp (pl_key p) (pl_key p) = Eq) by (apply cmp_eq; reflexivity). congruence.
Qed.
Lemma handle_is_spec h p : handle_is h p = true <-> pl_handle p = Some h.
Proof.
  unfold handle_is. destruct (pl_handle p) as [h'|]; [|split; discriminate]. rewrite Nat.eqb_eq. split; congruence.
Qed.

Lemma perm_existsb (f : payload -> bool) l l' : Permutation l l' -> existsb f l = existsb f l'.
Proof.
  intros P. destruct (existsb f l') eqn:E1.
  - apply existsb_exists in E1 as (x & Hx & Fx). apply existsb_exists. exists x. split; [|exact Fx]. eapply Permutation_in; [symmetry; exact P|exact Hx].
  - destruct (existsb f l) eqn:E2; [|reflexivity]. apply existsb_exists in E2 as (x & Hx & Fx).
    assert (existsb f l' = true) by (apply existsb_exists; exists x; split; [eapply Permutation_in; eassumption|exact Fx]). congruence.
Qed.
Lemma perm_filter (f : payload -> bool) l l' : Permutation l l' -> Permutation (filter f l) (filter f l').
Proof.
  induction 1; cbn [filter].
  - constructor.
  - destruct (f x); [constructor|]; assumption.
  - destruct (f x), (f y); try reflexivity. constructor.
  - etransitivity; eassumption.
Qed.

Lemma filter_all (f : payload -> bool) l : (forall x, In x l -> f x = true) -> filter f l = l.
Proof.
  induction l as [|x l IH]; intros H; [reflexivity|]. cbn [filter]. rewrite (H x (or_introl eq_refl)), IH; [reflexivity|].
  intros y Hy. apply H. right. exact Hy.
Qed.

(** Deleting a node in the list view keeps everything else. *)
Lemma delete_inv s A a p B : Inv s -> els s = A ++ (a, p) :: B ->
  exists s', rb_delete s a = Ok s' /\ Inv s' /\ map snd (els s') = map snd (A ++ B) /\
    (forall h, (forall q, In q (map snd (A ++ (a, p) :: B)) -> pl_handle q <> Some h) -> rb_handles s' h = rb_handles s h) /\
    (forall h, pl_handle p = Some h -> rb_handles s' h = None).
Proof.
  intros (I1 & I2 & I3 & I4 & I5) El. unfold els in *.
  destruct (rb_root s) as [| |t] eqn:Rt; [destruct A; discriminate|destruct A; discriminate|].
  destruct I1 as (_ & m & Hrb).
  destruct (rb_delete_spec s t m a A p B Rt Hrb I3 El I4) as (s' & D & Cn & Cases). exists s'. split; [exact D|].
  assert (Hp : forall h, pl_handle p = Some h -> forall id q, In (id, q) (A ++ B) -> pl_handle q <> Some h).
  { intros h Hh id q Hq Hqh.
    assert (X1 : rb_handles s h = Some a) by (apply (I5 a p h); [rewrite El; apply in_or_app; right; left; reflexivity|exact Hh]).
    assert (X2 : rb_handles s h = Some id).
    { apply (I5 id q h); [|exact Hqh]. rewrite El. apply in_app_or in Hq as [Hq|Hq]; apply in_or_app; [left; exact Hq|right; right; exact Hq]. }
    rewrite X1 in X2. inversion X2; subst id.
    rewrite El, map_app in I3. cbn [map fst] in I3. apply NoDup_remove_2 in I3. apply I3. rewrite <- map_app.
    change a with (fst (a, q)). apply in_map. exact Hq. }
  assert (Sab : sorted (A ++ B)).
  { rewrite El in I2. apply sorted_mid in I2 as (S1 & S2 & S3 & S4 & S5). apply sorted_app. auto. }
  assert (NDab : NoDup (map fst (A ++ B))).
  { rewrite El, map_app in I3. cbn [map fst] in I3. apply NoDup_remove_1 in I3. rewrite map_app. exact I3. }
  assert (Hok1 : hok (A ++ B) (set_handle (pl_handle p) None (rb_handles s))).
  { intros id q h Hq Hh. unfold set_handle. destruct (pl_handle p) as [hp|] eqn:Hhp.
    - destruct (Nat.eqb_spec h hp) as [->|]; [exfalso; eapply Hp; [reflexivity|exact Hq|exact Hh]|].
      apply (I5 id q h); [|exact Hh]. rewrite El. apply in_app_or in Hq as [Hq|Hq]; apply in_or_app; [left; exact Hq|right; right; exact Hq].
    - apply (I5 id q h); [|exact Hh]. rewrite El. apply in_app_or in Hq as [Hq|Hq]; apply in_or_app; [left; exact Hq|right; right; exact Hq]. }
  assert (Frame1 : forall h, (forall q, In q (map snd (A ++ (a, p) :: B)) -> pl_handle q <> Some h) ->
             set_handle (pl_handle p) None (rb_handles s) h = rb_handles s h).
  { intros h Hh. unfold set_handle. destruct (pl_handle p) as [hp|] eqn:Hhp; [|reflexivity].
    destruct (Nat.eqb_spec h hp) as [->|]; [|reflexivity]. exfalso. apply (Hh p); [|exact Hhp].
    rewrite map_app. apply in_or_app. right. left. reflexivity. }
  assert (Null1 : forall h, pl_handle p = Some h -> set_handle (pl_handle p) None (rb_handles s) h = None).
  { intros h Hh. rewrite Hh. unfold set_handle. rewrite Nat.eqb_refl. reflexivity. }
  destruct Cases as [(E0 & Rt' & Hs)|(Ne & t' & m' & Rt' & Hrb' & Del)].
  - assert (Lc : rb_count s' = 0) by (rewrite Cn, E0; reflexivity).
    rewrite E0 in *. unfold Inv, els. rewrite Rt'. split; [|split; [reflexivity|split; [rewrite Hs; exact Frame1|rewrite Hs; exact Null1]]].
    split; [exact I|]. split; [exact I|]. split; [constructor|]. split; [exact Lc|]. intros ? ? ? [].
  - unfold Inv, els. rewrite Rt'. destruct Del as [(E1 & Hs)|(mid & mp & B' & EB & E1 & Hs)].
    + rewrite E1. split; [|split; [reflexivity|split; [rewrite Hs; exact Frame1|rewrite Hs; exact Null1]]].
      split; [split; [exact Ne|eauto]|]. split; [exact Sab|]. split; [exact NDab|]. split; [exact Cn|]. rewrite Hs. exact Hok1.
    + subst B. rewrite E1.
      assert (Map : map snd (A ++ (a, mp) :: B') = map snd (A ++ (mid, mp) :: B')) by (rewrite !map_app; reflexivity).
      assert (KM : forall x y : node, snd x = snd y -> key_of x = key_of y) by (unfold key_of; intros x y ->; reflexivity).
      assert (Hm : forall h, pl_handle mp = Some h -> forall id q, In (id, q) (A ++ B') -> pl_handle q <> Some h).
      { intros h Hh id q Hq Hqh.
        assert (X1 : rb_handles s h = Some mid).
        { apply (I5 mid mp h); [|exact Hh]. rewrite El. apply in_or_app. right. right. left. reflexivity. }
        assert (X2 : rb_handles s h = Some id).
        { apply (I5 id q h); [|exact Hqh]. rewrite El. apply in_app_or in Hq as [Hq|Hq]; apply in_or_app; [left; exact Hq|right; right; right; exact Hq]. }
        rewrite X1 in X2. inversion X2; subst id.
        rewrite map_app in NDab. cbn [map fst] in NDab. apply NoDup_remove_2 in NDab. apply NDab. rewrite <- map_app.
        change mid with (fst (mid, q)). apply in_map. exact Hq. }
      split; [|split; [exact Map|split]].
      * split; [split; [destruct A; discriminate|eauto]|].
        split; [apply sorted_mid in Sab as (S1 & S2 & S3 & S4 & S5); apply sorted_mid; auto|].
        split.
        { rewrite El, map_app in I3. cbn [map fst] in I3. rewrite map_app. cbn [map fst].
          assert (Q : NoDup (map fst A ++ a :: mid :: map fst B')) by exact I3.
          change (map fst A ++ a :: mid :: map fst B') with (map fst A ++ [a] ++ mid :: map fst B') in Q. rewrite app_assoc in Q.
          apply NoDup_remove_1 in Q. rewrite <- app_assoc in Q. exact Q. }
        split; [rewrite Cn, !app_length; cbn [length]; lia|].
        rewrite Hs. intros id q h Hq Hh. unfold set_handle at 1.
        apply in_app_or in Hq as [Hq|[Hq|Hq]].
        -- destruct (pl_handle mp) as [hm|] eqn:Hhm.
           ++ destruct (Nat.eqb_spec h hm) as [->|]; [exfalso; eapply Hm; [reflexivity|apply in_or_app; left; exact Hq|exact Hh]|].
              apply (Hok1 id q h); [apply in_or_app; left; exact Hq|exact Hh].
           ++ apply (Hok1 id q h); [apply in_or_app; left; exact Hq|exact Hh].
        -- inversion Hq; subst id q. rewrite Hh. rewrite Nat.eqb_refl. reflexivity.
        -- destruct (pl_handle mp) as [hm|] eqn:Hhm.
           ++ destruct (Nat.eqb_spec h hm) as [->|]; [exfalso; eapply Hm; [reflexivity|apply in_or_app; right; exact Hq|exact Hh]|].
              apply (Hok1 id q h); [apply in_or_app; right; right; exact Hq|exact Hh].
           ++ apply (Hok1 id q h); [apply in_or_app; right; right; exact Hq|exact Hh].
      * rewrite Hs. intros h Hh. unfold set_handle at 1. destruct (pl_handle mp) as [hm|] eqn:Hhm; [|apply Frame1; exact Hh].
        destruct (Nat.eqb_spec h hm) as [->|]; [|apply Frame1; exact Hh]. exfalso. apply (Hh mp); [|exact Hhm].
        rewrite map_app. apply in_or_app. right. right. left. reflexivity.
      * rewrite Hs. intros h Hh. unfold set_handle at 1. destruct (pl_handle mp) as [hm|] eqn:Hhm; [|apply Null1; exact Hh].
        destruct (Nat.eqb_spec h hm) as [->|]; [|apply Null1; exact Hh].
        exfalso. eapply (Hp hm Hh mid mp); [apply in_or_app; right; left; reflexivity|exact Hhm].
Qed.

Lemma existsb_key l k : existsb (key_is k) (map snd l) = true <-> exists x : node, In x l /\ key_of x = k.
Proof.
  rewrite existsb_exists. split.
  - intros (p & Hp & Kp). apply in_map_iff in Hp as ([i q] & <- & Hx). apply key_is_spec in Kp. exists (i, q). auto.
  - intros ([i q] & Hx & Kx). exists q. split; [change q with (snd (i, q)); apply in_map; exact Hx|apply key_is_spec; exact Kx].
Qed.
Lemma not_true (b : bool) : ~ b = true -> b = false.
Proof. destruct b; congruence. Qed.

Lemma set_handle_set h v w (hs : nat -> option nat) : forall j, set_handle h v (set_handle h w hs) j = set_handle h v hs j.
Proof. intros j. unfold set_handle. destruct h as [i|]; [|reflexivity]. destruct (j =? i); reflexivity. Qed.

Lemma rb_insert_spec s a k d h : Inv s ->
  exists s' r, rb_insert cmp s a k d h = Ok (s', r) /\ rb_handles s' = set_handle h (Some a) (rb_handles s) /\
   ((existsb (key_is k) (map snd (els s)) = true /\ rb_root s' = rb_root s /\ rb_count s' = rb_count s /\
       exists q, In (r, q) (els s) /\ pl_key q = k) \/
    (existsb (key_is k) (map snd (els s)) = false /\ r = a /\ rb_count s' = S (rb_count s) /\
       exists t' m A B, rb_root s' = RNode t' /\ rb Black m t' /\ sorted (el t') /\
         els s = A ++ B /\ el t' = A ++ (a, mkPayload k d h) :: B)).
Proof.
  intros (I1 & I2 & I3 & I4 & I5). unfold rb_insert, els in *.
  destruct (rb_count s =? 0) eqn:Z.
  - apply Nat.eqb_eq in Z. rewrite Z in I4.
    assert (E0 : match rb_root s with RNode t => el t | _ => [] end = []) by (destruct (match rb_root s with RNode t => el t | _ => [] end); [reflexivity|discriminate]).
    eexists _, a. split; [reflexivity|]. split; [reflexivity|]. right. rewrite E0. split; [reflexivity|]. split; [reflexivity|].
    split; [cbn [rb_count]; lia|]. eexists _, 1, [], []. split; [reflexivity|].
    split; [cbn [paint]; econstructor; constructor|].
    split; [cbn; split; [intros ? []|exact I]|]. split; reflexivity.
  - apply Nat.eqb_neq in Z. destruct (rb_root s) as [| |t] eqn:Rt; [cbn [length] in I4; lia|cbn [length] in I4; lia|].
    destruct I1 as (Ne & m & Hrb).
    pose proof (descend_spec k t [] Black Black m m) as D. cbn [plug top] in D.
    specialize (D I2 (conj (fun y (H : In y []) => match H with end) (fun y (H : In y []) => match H with end)) (cx_nil _) Hrb ltac:(discriminate) eq_refl).
    destruct (descend cmp k t []) as [id q|path].
    + eexists _, id. split; [reflexivity|]. split; [reflexivity|]. left. destruct D as (D1 & D2).
      split; [apply existsb_key; exists (id, q); auto|]. split; [reflexivity|]. split; [reflexivity|]. exists q. auto.
    + destruct D as ((B1 & B2) & El & (c0 & C) & Tp).
      destruct (insert_fix_spec (S (length path)) a E (mkPayload k d h) E path c0 0 m ltac:(lia) C ltac:(constructor) ltac:(constructor) Tp)
        as (t' & m' & -> & Hrb' & El').
      cbn [obind]. eexists _, a. split; [reflexivity|]. split; [reflexivity|]. right.
      rewrite el_plug in El, El'. cbn [el app] in El, El'.
      split.
      { apply not_true. intros H. apply existsb_key in H as (x & Hx & Kx). rewrite <- El in Hx.
        apply in_app_or in Hx as [Hx|Hx]; [apply B1 in Hx|apply B2 in Hx]; rewrite Kx in Hx; exact (klt_irrefl _ Hx). }
      split; [reflexivity|]. split; [reflexivity|].
      exists t', m', (before path), (after path). split; [reflexivity|]. split; [exact Hrb'|]. split; [|auto].
      rewrite El'. rewrite <- El in I2. apply sorted_app in I2 as (S1 & S2 & S3). apply sorted_mid. auto.
Qed.

Lemma refines_nodup s sp : Inv s -> refines s sp -> NoDup (map pl_key sp).
Proof.
  intros (_ & I2 & _) R. apply (Permutation_NoDup (l := map pl_key (map snd (els s)))); [apply Permutation_map; exact R|].
  rewrite map_map. revert I2. generalize (els s) as l. induction l as [|x l IH]; intros S; [constructor|]. cbn [map].
  destruct S as (S1 & S2). constructor; [|apply IH; exact S2]. intros H. apply in_map_iff in H as (y & E1 & Hy).
  apply S1 in Hy. unfold key_of in Hy. rewrite E1 in Hy. exact (klt_irrefl _ Hy).
Qed.

Lemma in_els_sp s sp p : refines s sp -> (In p sp <-> exists id, In (id, p) (els s)).
Proof.
  intros R. split.
  - intros H. assert (Hm : In p (map snd (els s))) by (eapply Permutation_in; [symmetry; exact R|exact H]).
    apply in_map_iff in Hm as ([id q] & <- & Hx). eauto.
  - intros (id & H). eapply Permutation_in; [exact R|]. change p with (snd (id, p)). apply in_map. exact H.
Qed.

Lemma filter_del s sp a p A B (f : payload -> bool) : refines s sp -> els s = A ++ (a, p) :: B -> f p = false ->
  (forall q, In q (map snd (A ++ B)) -> f q = true) -> Permutation (map snd (A ++ B)) (filter f sp).
Proof.
  intros R El Fp Fo. unfold refines in R. rewrite El in R. apply (perm_filter f) in R. etransitivity; [|exact R].
  rewrite (map_app snd A ((a, p) :: B)). cbn [map snd]. rewrite filter_app. cbn [filter].
  rewrite Fp, <- filter_app, <- map_app, filter_all by exact Fo. reflexivity.
Qed.

Lemma step_refines s sp o : Inv s -> refines s sp -> legal_op s sp o ->
  exists s', rb_step cmp s o = Ok s' /\ Inv s' /\ refines s' (spec_step sp o).
Proof.
  intros HI R L. pose proof HI as (I1 & I2 & I3 & I4 & I5). destruct o as [a k d h|h|k]; cbn [rb_step spec_step legal_op] in *.
  - destruct L as (La & Lh).
    destruct (rb_insert_spec s a k d h HI) as (s1 & r & -> & Hs & Cases). cbn [obind].
    rewrite <- (perm_existsb (key_is k) _ _ R). eexists. split; [reflexivity|].
    destruct Cases as [(Ex & Rt & Cn & q & Hq & Kq)|(Ex & -> & Cn & t' & m & A & B & Rt & Hrb & Srt & El & El')].
    + rewrite Ex.
      assert (Hn : h = None).
      { destruct h as [i|]; [|reflexivity]. destruct (Lh i eq_refl) as (_ & L2).
        rewrite <- (perm_existsb (key_is k) _ _ R) in L2. congruence. }
      subst h. cbn [set_handle] in *. unfold Inv, refines, els in *. cbn [rb_root rb_count rb_handles]. rewrite Rt, Cn, Hs. auto.
    + rewrite Ex. unfold refines, Inv. cbn [rb_root rb_count rb_handles].
      match goal with |- context [els ?x] => assert (E2 : els x = A ++ (a, mkPayload k d h) :: B) by (unfold els; cbn [rb_root]; rewrite Rt; exact El') end.
      rewrite E2, Rt, El'.
      split.
      * split; [split; [destruct A; discriminate|eauto]|]. split; [rewrite <- El'; exact Srt|].
        split.
        { rewrite map_app. cbn [map fst]. apply NoDup_app_swap_cons. rewrite <- map_app, <- El. constructor; assumption. }
        split; [rewrite Cn, I4, El, !app_length; cbn [length]; lia|].
        intros id q i Hq Hi. rewrite Hs, set_handle_set.
        assert (Old : In (id, q) (els s) -> set_handle h (Some a) (rb_handles s) i = Some id).
        { intros Ho. unfold set_handle. destruct h as [j|]; [|apply (I5 id q i); assumption].
          destruct (Nat.eqb_spec i j) as [->|]; [|apply (I5 id q i); assumption].
          destruct (Lh j eq_refl) as (L1 & _). exfalso.
          assert (existsb (handle_is j) sp = true); [|congruence].
          apply existsb_exists. exists q. split; [apply (in_els_sp _ _ _ R); eauto|apply handle_is_spec; exact Hi]. }
        apply in_app_or in Hq as [Hq|[Hq|Hq]].
        -- apply Old. rewrite El. apply in_or_app. left. exact Hq.
        -- inversion Hq; subst id q. cbn [pl_handle] in Hi. subst h. unfold set_handle. rewrite Nat.eqb_refl. reflexivity.
        -- apply Old. rewrite El. apply in_or_app. right. exact Hq.
      * rewrite map_app. cbn [map snd]. rewrite <- Permutation_middle, <- map_app, <- El. constructor. exact R.
  - apply existsb_exists in L as (p & Hp & Hh). apply handle_is_spec in Hh.
    apply (in_els_sp _ _ _ R) in Hp as (a & Ha).
    rewrite (I5 a p h Ha Hh). apply in_split in Ha as (A & B & El).
    destruct (delete_inv s A a p B HI El) as (s' & -> & Hi' & Em & _). exists s'. split; [reflexivity|]. split; [exact Hi'|].
    unfold refines. rewrite Em. eapply filter_del; [exact R|exact El| |].
    + apply negb_false_iff, handle_is_spec, Hh.
    + intros q Hq. apply negb_true_iff, not_true. intros Hq2. apply handle_is_spec in Hq2.
      apply in_map_iff in Hq as ([id q'] & E1 & Hq). cbn [snd] in E1. subst q'.
      assert (X2 : rb_handles s h = Some id).
      { apply (I5 id q h); [|exact Hq2]. rewrite El. apply in_app_or in Hq as [Hq|Hq]; apply in_or_app; [left; exact Hq|right; right; exact Hq]. }
      assert (X1 : rb_handles s h = Some a) by (apply (I5 a p h); [rewrite El; apply in_or_app; right; left; reflexivity|exact Hh]).
      rewrite X1 in X2. inversion X2; subst id. rewrite El, map_app in I3. cbn [map fst] in I3. apply NoDup_remove_2 in I3.
      apply I3. rewrite <- map_app. change a with (fst (a, q)). apply in_map. exact Hq.
  - destruct (rb_count s =? 0) eqn:Z.
    + exists s. split; [reflexivity|]. split; [exact HI|].
      apply Nat.eqb_eq in Z. rewrite Z in I4. assert (E0 : els s = []) by (destruct (els s); [reflexivity|discriminate]).
      unfold refines in *. rewrite E0 in *. apply Permutation_nil in R. subst sp. constructor.
    + apply Nat.eqb_neq in Z. unfold rb_lookup. unfold els in *. destruct (rb_root s) as [| |t] eqn:Rt; [cbn [length] in I4; lia|cbn [length] in I4; lia|].
      rewrite (find_lfind k t I2). cbn [obind]. destruct (lfind k (el t)) as [[a p]|] eqn:F.
      * apply lfind_some in F as (Ha & Ka). apply in_split in Ha as (A & B & El). unfold key_of in Ka. cbn [snd] in Ka.
        assert (Els : els s = A ++ (a, p) :: B) by (unfold els; rewrite Rt; exact El).
        destruct (delete_inv s A a p B HI Els) as (s' & -> & Hi' & Em & _). exists s'. split; [reflexivity|]. split; [exact Hi'|].
        unfold refines. rewrite Em. eapply filter_del; [exact R|exact Els| |].
        -- apply negb_false_iff, key_is_spec, Ka.
        -- intros q Hq. apply negb_true_iff, not_true. intros Hq2. apply key_is_spec in Hq2.
           apply in_map_iff in Hq as ([id q'] & E1 & Hq). cbn [snd] in E1. subst q'.
           rewrite El in I2. apply sorted_mid in I2 as (S1 & S2 & S3 & S4 & S5).
           apply in_app_or in Hq as [Hq|Hq]; [apply S3 in Hq|apply S4 in Hq]; unfold key_of in Hq; cbn [snd] in Hq; rewrite Hq2, Ka in Hq; exact (klt_irrefl _ Hq).
      * exists s. split; [reflexivity|]. split; [exact HI|]. rewrite filter_all; [exact R|].
        intros q Hq. apply negb_true_iff, not_true. intros Hq2. apply key_is_spec in Hq2.
        apply (in_els_sp _ _ _ R) in Hq as (id & Hq). unfold els in Hq. rewrite Rt in Hq.
        pose proof (lfind_in (el t) (id, q) I2 Hq) as F2. unfold key_of in F2. cbn [snd] in F2. rewrite Hq2 in F2. congruence.
Qed.

Lemma run_refines : forall os s sp, Inv s -> refines s sp -> legal s sp os ->
  exists s', rb_run cmp s os = Ok s' /\ Inv s' /\ refines s' (spec_run sp os).
Proof.
  induction os as [|o os IH]; intros s sp HI R L.
  - exists s. split; [reflexivity|]. split; assumption.
  - destruct L as (L1 & L2). destruct (step_refines s sp o HI R L1) as (s1 & St & HI1 & R1).
    cbn [rb_run spec_run fold_left]. rewrite St. cbn [obind]. apply IH; [exact HI1|exact R1|apply L2; exact St].
Qed.

Lemma init_inv hs : Inv (rb_init hs) /\ refines (rb_init hs) [].
Proof. split; [|constructor]. split; [exact I|]. split; [exact I|]. split; [constructor|]. split; [reflexivity|]. intros ? ? ? []. Qed.

Lemma lookup_refines s sp k : Inv s -> refines s sp -> sp <> [] ->
  exists r, rb_lookup cmp s k = Ok r /\
    match r with
    | Some (a, p) => In p sp /\ pl_key p = k /\ (forall h, pl_handle p = Some h -> rb_handles s h = Some a)
    | None => forall p, In p sp -> pl_key p <> k
    end.
Proof.
  intros (I1 & I2 & I3 & I4 & I5) R Ne. pose proof (fun p => in_els_sp s sp p R) as IE. unfold rb_lookup, refines, els in *.
  destruct (rb_root s) as [| |t] eqn:Rt; [apply Permutation_nil in R; congruence|apply Permutation_nil in R; congruence|].
  exists (find cmp k t). split; [reflexivity|]. rewrite (find_lfind k t I2). destruct (lfind k (el t)) as [[a p]|] eqn:F.
  - apply lfind_some in F as (Ha & Ka). split; [apply IE; eauto|]. split; [exact Ka|]. intros h Hh. eapply I5; eassumption.
  - intros q Hq Kq. apply IE in Hq as (id & Hq). pose proof (lfind_in (el t) (id, q) I2 Hq) as F2.
    unfold key_of in F2. cbn [snd] in F2. rewrite Kq in F2. congruence.
Qed.

(** ** Height *)
Lemma visits_bound k c n t : rb c n t -> visits cmp k t <= 2 * n + match c with Red => 1 | Black => 0 end.
Proof.
  induction 1 as [|n id l p r H1 IH1 H2 IH2|n c1 c2 id l p r H1 IH1 H2 IH2]; cbn [visits]; [lia| |].
  - destruct (cmp k (pl_key p)); lia.
  - destruct c1, c2, (cmp k (pl_key p)); lia.
Qed.
Lemma size_bound c n t : rb c n t -> 2 ^ n <= S (length (el t)).
Proof.
  induction 1 as [|n id l p r H1 IH1 H2 IH2|n c1 c2 id l p r H1 IH1 H2 IH2]; cbn [el length Nat.pow]; rewrite ?app_length; cbn [length]; lia.
Qed.
Lemma visits_log k n t : rb Black n t -> visits cmp k t <= 2 * Nat.log2 (S (length (el t))).
Proof.
  intros H. pose proof (visits_bound k _ _ _ H) as Vb. pose proof (size_bound _ _ _ H) as Sz. cbn [Nat.add] in Vb.
  assert (n <= Nat.log2 (S (length (el t)))); [|lia].
  rewrite <- (Nat.log2_pow2 n) by lia. apply Nat.log2_le_mono. exact Sz.
Qed.
End Proofs.

(** The comparison functions supplied by the callers are total orders. *)
Definition total_order {K} (cmp : K -> K -> comparison) : Prop :=
  (forall a b, cmp a b = Eq <-> a = b) /\ (forall a b, cmp b a = CompOpp (cmp a b)) /\
  (forall a b c, cmp a b = Lt -> cmp b c = Lt -> cmp a c = Lt).
Lemma nat_total_order : total_order Nat.compare.
Proof.
  split; [exact Nat.compare_eq_iff|]. split; [exact (fun a b => Nat.compare_antisym a b)|].
  intros a b c. rewrite !Nat.compare_lt_iff. lia.
Qed.
Definition addresses {K V} (s : rbstate K V) : list nat := map fst (els K V s).

Section Top.
Variables K V : Type.
Variable cmp : K -> K -> comparison.
Hypothesis TO : total_order cmp.
Notation payload := (payload K V).

Definition legal_opb (s : rbstate K V) (sp : list payload) (o : rbop K V) : bool :=
  match o with
  | OInsert a k d h => negb (existsb (Nat.eqb a) (addresses s)) &&
      match h with None => true | Some i => negb (existsb (handle_is K V i) sp) && negb (existsb (key_is K V cmp k) sp) end
  | ODelete h => existsb (handle_is K V h) sp
  | ODeleteKey _ => true
  end.
Fixpoint legalb (s : rbstate K V) (sp : list payload) (os : list (rbop K V)) : bool :=
  match os with
  | [] => true
  | o :: t => legal_opb s sp o && match rb_step cmp s o with Ok s' => legalb s' (spec_step K V cmp sp o) t | UB _ => true end
  end.
Lemma legalb_legal : forall os s sp, legalb s sp os = true -> legal K V cmp s sp os.
Proof.
  induction os as [|o os IH]; intros s sp H; cbn [legalb legal] in *; [exact I|].
  apply andb_true_iff in H as (H1 & H2). split.
  - destruct o as [a k d h|h|k]; cbn [legal_opb legal_op] in *; [|exact H1|exact I].
    apply andb_true_iff in H1 as (H1 & H3). split.
    + intros Hin. apply negb_true_iff in H1. assert (existsb (Nat.eqb a) (addresses s) = true); [|congruence].
      apply existsb_exists. exists a. split; [exact Hin|apply Nat.eqb_refl].
    + intros i ->. apply andb_true_iff in H3 as (H3 & H4). split; apply negb_true_iff; assumption.
  - intros s' St. rewrite St in H2. apply IH, H2.
Qed.

Lemma run_from_init os hs : legal K V cmp (rb_init hs) [] os ->
  exists s, rb_run cmp (rb_init hs) os = Ok s /\ Inv K V cmp s /\ refines K V s (spec_run K V cmp [] os).
Proof.
  destruct TO as (T1 & T2 & T3). intros L. destruct (init_inv K V cmp hs) as (I0 & R0).
  exact (run_refines K V cmp T1 T2 T3 os _ _ I0 R0 L).
Qed.

Lemma index_is_map_proof os hs : legal K V cmp (rb_init hs) [] os ->
  exists s, rb_run cmp (rb_init hs) os = Ok s /\
    rb_count s = length (spec_run K V cmp [] os) /\
    NoDup (map pl_key (spec_run K V cmp [] os)) /\
    (forall k, spec_run K V cmp [] os <> [] -> exists r, rb_lookup cmp s k = Ok r /\
       match r with
       | Some (_, p) => In p (spec_run K V cmp [] os) /\ pl_key p = k
       | None => forall p, In p (spec_run K V cmp [] os) -> pl_key p <> k
       end).
Proof.
  intros L. destruct (run_from_init os hs L) as (s & R & HI & Rf). exists s. split; [exact R|].
  destruct TO as (T1 & T2 & T3).
  split; [destruct HI as (_ & _ & _ & -> & _); rewrite <- (map_length snd); apply Permutation_length; exact Rf|].
  split; [eapply refines_nodup; eassumption|]. intros k Ne.
  destruct (lookup_refines K V cmp T1 T2 T3 s _ k HI Rf Ne) as (r & Lk & Hr). exists r. split; [exact Lk|].
  destruct r as [[a p]|]; [|exact Hr]. destruct Hr as (H1 & H2 & _). auto.
Qed.

Lemma index_sorted_balanced_proof os hs s : legal K V cmp (rb_init hs) [] os -> rb_run cmp (rb_init hs) os = Ok s ->
  match rb_root s with
  | RNode t => (forall A x B y C, el K V t = A ++ x :: B ++ y :: C -> cmp (pl_key (snd x)) (pl_key (snd y)) = Lt) /\
               Permutation (map snd (el K V t)) (spec_run K V cmp [] os) /\
               (exists m, rb K V Black m t) /\
               (forall k, visits cmp k t <= 2 * Nat.log2 (rb_count s + 1))
  | _ => spec_run K V cmp [] os = []
  end.
Proof.
  intros L R. destruct (run_from_init os hs L) as (s' & R' & HI & Rf). rewrite R in R'. inversion R'; subst s'. clear R'.
  destruct TO as (T1 & T2 & T3). destruct HI as (I1 & I2 & I3 & I4 & I5). unfold refines, els in *.
  destruct (rb_root s) as [| |t] eqn:Rt; [symmetry in Rf; apply Permutation_sym, Permutation_nil in Rf; exact Rf|symmetry in Rf; apply Permutation_sym, Permutation_nil in Rf; exact Rf|].
  destruct I1 as (_ & m & Hrb). split; [|split; [exact Rf|split; [eauto|]]].
  - intros A x B y C E1. rewrite E1 in I2. apply sorted_mid in I2 as (_ & _ & _ & S4 & _); [|assumption..].
    apply S4. apply in_or_app. right. left. reflexivity.
  - intros k. rewrite I4. rewrite Nat.add_1_r. eapply visits_log; eassumption.
Qed.

Lemma index_handles_proof os hs s p h : legal K V cmp (rb_init hs) [] os -> rb_run cmp (rb_init hs) os = Ok s ->
  In p (spec_run K V cmp [] os) -> pl_handle p = Some h ->
  (exists a, rb_handles s h = Some a /\ rb_lookup cmp s (pl_key p) = Ok (Some (a, p))) /\
  (exists s', rb_step cmp s (ODelete h) = Ok s' /\ rb_handles s' h = None /\
     (forall q hq, In q (spec_run K V cmp [] os) -> q <> p -> pl_handle q = Some hq ->
        exists a, rb_handles s' hq = Some a /\ rb_lookup cmp s' (pl_key q) = Ok (Some (a, q))) /\
     (forall j, (forall q, In q (spec_run K V cmp [] os) -> pl_handle q <> Some j) -> rb_handles s' j = rb_handles s j)).
Proof.
  intros L R Hp Hh. destruct (run_from_init os hs L) as (s' & R' & HI & Rf). rewrite R in R'. inversion R'; subst s'. clear R'.
  destruct TO as (T1 & T2 & T3).
  assert (Look : forall s sp q hq, Inv K V cmp s -> refines K V s sp -> In q sp -> pl_handle q = Some hq ->
            exists a, rb_handles s hq = Some a /\ rb_lookup cmp s (pl_key q) = Ok (Some (a, q))).
  { clear s R HI Rf Hp Hh L. intros s sp q hq HI Rf Hq Hh.
    assert (Ne : sp <> []) by (intros ->; destruct Hq).
    destruct (lookup_refines K V cmp T1 T2 T3 s sp (pl_key q) HI Rf Ne) as ([[a q']|] & Lk & Hr); [|exfalso; exact (Hr q Hq eq_refl)].
    destruct Hr as (H1 & H2 & H3).
    assert (q' = q).
    { pose proof (refines_nodup K V cmp T1 s sp HI Rf) as ND. clear - ND H1 H2 Hq. induction sp as [|x sp IH]; [destruct Hq|].
      cbn [map] in ND. apply NoDup_cons_iff in ND as (N1 & N2). destruct H1 as [->|H1], Hq as [->|Hq]; auto.
      - exfalso. apply N1. rewrite H2. apply in_map. exact Hq.
      - exfalso. apply N1. rewrite <- H2. apply in_map. exact H1. }
    subst q'. exists a. split; [apply H3; exact Hh|exact Lk]. }
  split; [eapply Look; eassumption|].
  assert (Lo : legal_op K V cmp s (spec_run K V cmp [] os) (ODelete h)).
  { cbn [legal_op]. apply existsb_exists. exists p. split; [exact Hp|apply handle_is_spec; exact Hh]. }
  destruct (step_refines K V cmp T1 T2 T3 s _ (ODelete h) HI Rf Lo) as (s' & St & HI' & Rf').
  pose proof HI as (I1 & I2 & I3 & I4 & I5).
  apply (in_els_sp K V s _ p Rf) in Hp as (a & Ha).
  pose proof Ha as Hin. apply in_split in Ha as (A & B & El).
  destruct (delete_inv K V cmp s A a p B HI El) as (s2 & D & _ & _ & D1 & D2).
  assert (s2 = s').
  { cbn [rb_step] in St. rewrite (I5 a p h Hin Hh) in St. congruence. }
  subst s2. exists s'. split; [exact St|]. split; [apply D2; exact Hh|]. split.
  - intros q hq Hq Hne Hhq. eapply Look; [exact HI'|exact Rf'| |exact Hhq].
    cbn [spec_step]. apply filter_In. split; [exact Hq|]. apply negb_true_iff, not_true. intros Hx. apply handle_is_spec in Hx.
    apply Hne. apply (in_els_sp K V s _ q Rf) in Hq as (b & Hb).
    pose proof (I5 a p h Hin Hh) as X1. pose proof (I5 b q h Hb Hx) as X2. rewrite X1 in X2. inversion X2; subst b.
    rewrite El in Hb. rewrite El, map_app in I3. cbn [map fst] in I3. apply NoDup_remove_2 in I3.
    apply in_app_or in Hb as [Hb|[Hb|Hb]].
    + exfalso. apply I3. rewrite <- map_app. change a with (fst (a, q)). apply in_map, in_or_app. left. exact Hb.
    + congruence.
    + exfalso. apply I3. rewrite <- map_app. change a with (fst (a, q)). apply in_map, in_or_app. right. exact Hb.
  - intros j Hj. apply D1. rewrite <- El. intros q Hq. apply Hj. eapply Permutation_in; [exact Rf|exact Hq].
Qed.

Lemma index_insert_present_proof os hs s p a d h : legal K V cmp (rb_init hs) [] os -> rb_run cmp (rb_init hs) os = Ok s ->
  In p (spec_run K V cmp [] os) ->
  exists s' r, rb_insert cmp s a (pl_key p) d h = Ok (s', r) /\ rb_root s' = rb_root s /\ rb_count s' = rb_count s /\
    rb_lookup cmp s (pl_key p) = Ok (Some (r, p)).
Proof.
  intros L R Hp. destruct (run_from_init os hs L) as (s' & R' & HI & Rf). rewrite R in R'. inversion R'; subst s'. clear R'.
  destruct TO as (T1 & T2 & T3).
  destruct (rb_insert_spec K V cmp T1 T2 T3 s a (pl_key p) d h HI) as (s' & r & Hi & _ & Cases).
  exists s', r. split; [exact Hi|].
  assert (Ex : existsb (key_is K V cmp (pl_key p)) (map snd (els K V s)) = true).
  { rewrite (perm_existsb K V _ _ _ Rf). apply existsb_exists. exists p. split; [exact Hp|]. unfold key_is.
    replace (cmp (pl_key p) (pl_key p)) with Eq by (symmetry; apply T1; reflexivity). reflexivity. }
  destruct Cases as [(_ & Rt & Cn & q & Hq & Kq)|(Ex2 & _)]; [|congruence]. split; [exact Rt|]. split; [exact Cn|].
  pose proof HI as (I1 & I2 & I3 & I4 & I5).
  assert (q = p).
  { pose proof (refines_nodup K V cmp T1 s _ HI Rf) as ND.
    assert (H1 : In q (spec_run K V cmp [] os)) by (apply (in_els_sp K V s _ q Rf); eauto).
    clear - ND H1 Kq Hp. induction (spec_run K V cmp [] os) as [|x sp IH]; [destruct Hp|].
    cbn [map] in ND. apply NoDup_cons_iff in ND as (N1 & N2). destruct H1 as [->|H1], Hp as [->|Hp]; auto.
    - exfalso. apply N1. rewrite Kq. apply in_map. exact Hp.
    - exfalso. apply N1. rewrite <- Kq. apply in_map. exact H1. }
  subst q. unfold rb_lookup. unfold els in *. destruct (rb_root s) as [| |t]; [destruct Hq|destruct Hq|].
  rewrite (find_lfind K V cmp T1 T2 T3 (pl_key p) t I2).
  pose proof (lfind_in K V cmp T1 (el K V t) (r, p) I2 Hq) as F. unfold key_of in F. cbn [snd] in F. rewrite F. reflexivity.
Qed.
End Top.
