(** Proofs about mounted files (Mount.v). *)
From Coq Require Import Permutation.
From Verif Require Import Base CStr Names NamesProofs RbTree RbTreeProofs Mount.
Local Open Scope N_scope.

(** ** The order of file names *)
(** Specification: dictionary order. *)
Fixpoint lex (a b : list N) : comparison :=
  match a, b with
  | [], [] => Eq
  | [], _ => Lt
  | _, [] => Gt
  | x :: a', y :: b' => match x ?= y with Eq => lex a' b' | c => c end
  end.
Lemma search_lex : forall a b, search_cmp a b = lex a b.
Proof.
  unfold search_cmp. induction a as [|x a IH]; intros [|y b]; cbn [length Nat.min strncmp lex]; try reflexivity.
  destruct (x ?= y) eqn:E; try reflexivity. rewrite <- IH. cbn [Nat.compare]. reflexivity.
Qed.
Lemma lex_eq : forall a b, lex a b = Eq <-> a = b.
Proof.
  induction a as [|x a IH]; intros [|y b]; cbn [lex]; try (split; congruence).
  destruct (N.compare_spec x y) as [->|L|L].
  - rewrite IH. split; congruence.
  - split; [discriminate|]. intros [= -> _]. lia.
  - split; [discriminate|]. intros [= -> _]. lia.
Qed.
Lemma lex_anti : forall a b, lex b a = CompOpp (lex a b).
Proof.
  induction a as [|x a IH]; intros [|y b]; cbn [lex CompOpp]; try reflexivity.
  rewrite (N.compare_antisym x y). destruct (x ?= y); cbn [CompOpp]; auto.
Qed.
Lemma lex_trans : forall a b c, lex a b = Lt -> lex b c = Lt -> lex a c = Lt.
Proof.
  induction a as [|x a IH]; intros [|y b] [|z c]; cbn [lex]; try congruence.
  destruct (N.compare_spec x y) as [->|L|L]; intros H1 H2; [|clear H1|discriminate].
  - destruct (y ?= z); eauto.
  - destruct (N.compare_spec y z) as [->|L2|L2]; [|clear H2|discriminate].
    + apply N.compare_lt_iff in L. rewrite L. reflexivity.
    + assert (Q : x < z) by lia. apply N.compare_lt_iff in Q. rewrite Q. reflexivity.
Qed.
Lemma search_order : total_order search_cmp.
Proof.
  split; [|split].
  - intros a b. rewrite search_lex. apply lex_eq.
  - intros a b. rewrite !search_lex. apply lex_anti.
  - intros a b c. rewrite !search_lex. apply lex_trans.
Qed.

(** ** Relative paths *)
Lemma strip_loop_app : forall mp c rest, strip_loop (mp ++ c :: rest) mp = Ok rest.
Proof. induction mp as [|x mp IH]; intros c rest; cbn [app strip_loop]; [reflexivity|]. rewrite N.eqb_refl. apply IH. Qed.
Definition no_lead (l : list N) : Prop := match l with 47 :: _ => False | _ => True end.
Lemma path_cpy_join mp rel : no_lead rel -> path_cpy (mp ++ 47 :: rel) mp = Ok rel.
Proof.
  intros H. unfold path_cpy. rewrite strip_loop_app. cbn [obind]. destruct rel as [|c r]; [reflexivity|]. f_equal.
  unfold no_lead in H. destruct c as [|c]; [reflexivity|]. do 6 (destruct c as [c|c|]; try reflexivity). contradiction.
Qed.
Lemma path_cpy_slash mp rel : path_cpy ((mp ++ [47]) ++ 47 :: rel) mp = Ok rel.
Proof. unfold path_cpy. rewrite <- app_assoc. cbn [app]. rewrite strip_loop_app. reflexivity. Qed.
Lemma skip_slashes_no l : no_lead l -> skip_slashes l = l.
Proof.
  intros H. destruct l as [|c r]; [reflexivity|]. unfold no_lead in H. cbn [skip_slashes].
  destruct c as [|c]; [reflexivity|]. do 6 (destruct c as [c|c|]; try reflexivity). contradiction.
Qed.
Lemma strip_full_app : forall mp rest, mp <> [] -> strip_full (mp ++ rest) mp = Ok rest.
Proof.
  induction mp as [|x mp IH]; intros rest H; [congruence|]. cbn [app strip_full]. rewrite N.eqb_refl. destruct mp as [|y mp]; [reflexivity|]. apply IH. discriminate.
Qed.
Lemma strip_full_join mp rel : no_lead rel -> exists r, strip_full (mp ++ 47 :: rel) mp = Ok r /\ skip_slashes r = rel.
Proof.
  intros H. destruct mp as [|x mp].
  - exists rel. split; [reflexivity|]. apply skip_slashes_no. exact H.
  - exists (47 :: rel). split; [apply strip_full_app; discriminate|]. cbn [skip_slashes]. apply skip_slashes_no. exact H.
Qed.
Definition no_trail (l : list N) : Prop := match rev l with 47 :: _ => False | _ => True end.
Lemma join_path_no a b : no_trail a -> join_path a b = a ++ 47 :: b.
Proof.
  unfold no_trail, join_path. destruct (rev a) as [|c r]; [reflexivity|]. intros H.
  destruct c as [|c]; [reflexivity|]. do 6 (destruct c as [c|c|]; try reflexivity). contradiction.
Qed.

(** ** The index and the lists *)
Definition pl (f : pfile) : payload (list N) pfile := mkPayload (f_name f) f (Some (f_id f)).
Definition rb_ok (rb : rbstate (list N) pfile) (fs : list pfile) (next : nat) : Prop :=
  Inv (list N) pfile search_cmp rb /\ refines (list N) pfile rb (map pl fs) /\ (forall a, In a (addresses rb) -> (a < next)%nat).

Lemma rb_ok_perm rb fs fs' n : Permutation fs fs' -> rb_ok rb fs n -> rb_ok rb fs' n.
Proof. intros P (I & R & A). split; [exact I|]. split; [|exact A]. unfold refines in *. rewrite R. apply Permutation_map. exact P. Qed.
Lemma rb_ok_names rb fs n : rb_ok rb fs n -> NoDup (map f_name fs).
Proof.
  intros (I & R & _). destruct search_order as (T1 & T2 & T3). pose proof (refines_nodup (list N) pfile search_cmp T1 rb _ I R) as Q.
  rewrite map_map in Q. exact Q.
Qed.
Lemma rb_ins rb fs n name dir : rb_ok rb fs n -> (forall f, In f fs -> (f_id f < n)%nat) -> ~ In name (map f_name fs) ->
  exists rb', rb_step search_cmp rb (OInsert n name (mkPf n name dir) (Some n)) = Ok rb' /\ rb_ok rb' (mkPf n name dir :: fs) (S n).
Proof.
  intros (I & R & A) B NN. destruct search_order as (T1 & T2 & T3).
  assert (NK : existsb (key_is (list N) pfile search_cmp name) (map pl fs) = false).
  { apply not_true. intros X. apply existsb_exists in X as (p & P & K). apply (key_is_spec _ _ search_cmp T1) in K. apply in_map_iff in P as (f & <- & P).
    apply NN. cbn [pl pl_key] in K. subst name. apply in_map. exact P. }
  assert (L : legal_op (list N) pfile search_cmp rb (map pl fs) (OInsert n name (mkPf n name dir) (Some n))).
  { split; [intros X; apply A in X; lia|]. intros i [= <-]. split; [|exact NK]. apply not_true. intros X. apply existsb_exists in X as (p & P & K).
    apply in_map_iff in P as (f & <- & P). unfold handle_is in K. cbn [pl pl_handle] in K. apply Nat.eqb_eq in K. apply B in P. lia. }
  destruct (step_refines _ _ search_cmp T1 T2 T3 rb (map pl fs) _ I R L) as (rb' & E & I' & R'). exists rb'. split; [exact E|]. split; [exact I'|]. split.
  - cbn [spec_step] in R'. rewrite NK in R'. exact R'.
  - cbn [rb_step] in E. destruct (rb_insert_spec _ _ search_cmp T1 T2 T3 rb n name (mkPf n name dir) (Some n) I) as (s1 & r & E1 & HS & C).
    rewrite E1 in E. cbn [obind] in E. injection E as <-. destruct C as [(X & _)|(_ & -> & _ & t' & m & P & Q & Rt & _ & _ & El & El')].
    + rewrite (perm_existsb _ _ _ _ _ R) in X. congruence.
    + intros a. unfold addresses, els. cbn [rb_root]. rewrite Rt, El', map_app. cbn [map fst]. intros X.
      assert (Y : a = n \/ In a (addresses rb)).
      { unfold addresses, els in El |- *. rewrite El, map_app. apply in_app_or in X as [X|[X|X]]; [right; apply in_or_app; auto|left; congruence|right; apply in_or_app; auto]. }
      destruct Y as [->|Y]; [lia|]. apply A in Y. lia.
Qed.
Lemma delete_addr rb a rb' : Inv (list N) pfile search_cmp rb -> In a (addresses rb) -> rb_delete rb a = Ok rb' ->
  forall x, In x (addresses rb') -> In x (addresses rb).
Proof.
  intros (I1 & I2 & I3 & I4 & I5) Ia D. unfold addresses, els in *. destruct (rb_root rb) as [| |t] eqn:Rt; [destruct Ia|destruct Ia|].
  destruct I1 as (_ & m & Hrb). apply in_map_iff in Ia as ([a' p] & E & Ia). cbn [fst] in E. subst a'. apply in_split in Ia as (A & B & El).
  destruct (rb_delete_spec _ _ rb t m a A p B Rt Hrb I3 El I4) as (s' & D' & _ & C). rewrite D in D'. injection D' as <-.
  intros x. rewrite El. destruct C as [(_ & Rt' & _)|(_ & t' & m' & Rt' & _ & Del)]; rewrite Rt'; [intros []|].
  destruct Del as [(E1 & _)|(mid & mp & B' & -> & E1 & _)]; rewrite E1, !map_app; cbn [map fst]; intros X; apply in_app_or in X; apply in_or_app; cbn [In] in *; tauto.
Qed.
Lemma rb_del rb fs n f : rb_ok rb fs n -> NoDup (map f_id fs) -> In f fs ->
  exists rb' a, rb_handles rb (f_id f) = Some a /\ rb_step search_cmp rb (ODelete (f_id f)) = Ok rb' /\
    rb_ok rb' (filter (fun g => negb (f_id g =? f_id f)%nat) fs) n.
Proof.
  intros (I & R & A) ND If. destruct search_order as (T1 & T2 & T3).
  assert (IE : exists a, In (a, pl f) (els (list N) pfile rb)).
  { apply (in_els_sp _ _ rb _ (pl f) R). apply in_map. exact If. }
  destruct IE as (a & IE). pose proof I as (_ & _ & _ & _ & HK). pose proof (HK a (pl f) (f_id f) IE eq_refl) as Ha.
  assert (L : legal_op (list N) pfile search_cmp rb (map pl fs) (ODelete (f_id f))).
  { cbn [legal_op]. apply existsb_exists. exists (pl f). split; [apply in_map; exact If|]. unfold handle_is. cbn [pl pl_handle]. apply Nat.eqb_refl. }
  destruct (step_refines _ _ search_cmp T1 T2 T3 rb (map pl fs) _ I R L) as (rb' & E & I' & R'). exists rb', a. split; [exact Ha|]. split; [exact E|].
  split; [exact I'|]. split.
  - cbn [spec_step] in R'. unfold refines in *. rewrite R'. clear. induction fs as [|g fs IH]; [constructor|]. cbn [map filter]. unfold handle_is at 1. cbn [pl pl_handle].
    destruct (f_id g =? f_id f)%nat; cbn [negb map]; [exact IH|]. apply perm_skip. exact IH.
  - intros x X. apply A. cbn [rb_step] in E. rewrite Ha in E. eapply delete_addr; [exact I| |exact E|exact X]. apply (in_map fst) in IE. exact IE.
Qed.
Lemma rb_look rb fs n k : rb_ok rb fs n -> fs <> [] ->
  exists r, rb_lookup search_cmp rb k = Ok r /\
    match r with Some (_, p) => In (pl_data p) fs /\ f_name (pl_data p) = k | None => ~ In k (map f_name fs) end.
Proof.
  intros (I & R & _) NE. destruct search_order as (T1 & T2 & T3).
  assert (NE' : map pl fs <> []) by (destruct fs; [congruence|discriminate]).
  destruct (lookup_refines _ _ search_cmp T1 T2 T3 rb _ k I R NE') as (r & E & H). exists r. split; [exact E|]. destruct r as [[a p]|].
  - destruct H as (P & K & _). apply in_map_iff in P as (f & <- & P). cbn [pl pl_data pl_key] in *. auto.
  - intros X. apply in_map_iff in X as (f & <- & X). apply (H (pl f)); [apply in_map; exact X|reflexivity].
Qed.

(** ** The state *)
Definition all_files (s : mnt) : list pfile := flat_map p_files (m_parts s).
Definition MInv (s : mnt) : Prop :=
  rb_ok (m_rb s) (all_files s) (m_next s) /\ NoDup (map f_id (all_files s)) /\ (forall f, In f (all_files s) -> (f_id f < m_next s)%nat) /\
  NoDup (map p_id (m_parts s)) /\ (forall p, In p (m_parts s) -> p_count p = length (p_files p)) /\
  m_fcount s = length (all_files s) /\ m_count s = length (m_parts s).

(** Specification: the mount points, each with its path and the names registered below it. *)
Record smount := mkSm { q_id : nat; q_path : list N; q_num : nat; q_files : list (list N * bool) }.
Definition vfile (f : pfile) : list N * bool := (f_name f, f_dir f).
Definition vpart (p : mpart) : smount := mkSm (p_id p) (p_path p) (p_number p) (map vfile (p_files p)).
Definition view (s : mnt) : list smount := map vpart (m_parts s).
Definition names (sp : list smount) : list (list N) := map fst (flat_map q_files sp).
Definition on_mount (pid : nat) (g : list (list N * bool) -> list (list N * bool)) (sp : list smount) : list smount :=
  map (fun q => if (q_id q =? pid)%nat then mkSm (q_id q) (q_path q) (q_num q) (g (q_files q)) else q) sp.

Lemma flat_view ps : flat_map q_files (map vpart ps) = map vfile (flat_map p_files ps).
Proof. induction ps as [|p ps IH]; [reflexivity|]. cbn [map flat_map vpart q_files]. rewrite IH, map_app. reflexivity. Qed.
Lemma names_view s : names (view s) = map f_name (all_files s).
Proof. unfold names, view, all_files. rewrite flat_view, map_map. reflexivity. Qed.

Lemma set_part_other : forall ps pid g, ~ In pid (map p_id ps) -> set_part ps pid g = ps.
Proof.
  induction ps as [|p ps IH]; intros pid g NI; [reflexivity|]. cbn [set_part map]. destruct (Nat.eqb_spec (p_id p) pid) as [E|NE]; [exfalso; apply NI; left; exact E|].
  f_equal. apply IH. intros X. apply NI. right. exact X.
Qed.
Lemma set_part_split A p B g : NoDup (map p_id (A ++ p :: B)) -> set_part (A ++ p :: B) (p_id p) g = A ++ g p :: B.
Proof.
  intros ND. rewrite map_app in ND. cbn [map] in ND. apply NoDup_remove_2 in ND. unfold set_part. rewrite map_app. cbn [map]. rewrite Nat.eqb_refl.
  change (set_part A (p_id p) g ++ g p :: set_part B (p_id p) g = A ++ g p :: B).
  rewrite !set_part_other; [reflexivity| |]; intros X; apply ND; apply in_or_app; auto.
Qed.
Lemma get_part_in s pid p : get_part s pid = Some p -> In p (m_parts s) /\ p_id p = pid.
Proof. unfold get_part. intros H. apply find_some in H as (H & E). apply Nat.eqb_eq in E. auto. Qed.
Lemma get_part_of s p : NoDup (map p_id (m_parts s)) -> In p (m_parts s) -> get_part s (p_id p) = Some p.
Proof.
  unfold get_part. generalize (m_parts s) as ps. induction ps as [|q ps IH]; intros ND Ip; [destruct Ip|]. cbn [List.find]. inversion ND as [|? ? NI ND']; subst.
  destruct Ip as [->|Ip]; [rewrite Nat.eqb_refl; reflexivity|]. destruct (Nat.eqb_spec (p_id q) (p_id p)) as [E|_]; [|apply IH; assumption].
  exfalso. apply NI. rewrite E. apply in_map. exact Ip.
Qed.
Lemma get_part_some s pid : In pid (map q_id (view s)) -> exists p, get_part s pid = Some p.
Proof.
  unfold view, get_part. rewrite map_map. cbn [vpart q_id]. intros H. apply in_map_iff in H as (p & <- & Ip).
  destruct (List.find (fun q => (p_id q =? p_id p)%nat) (m_parts s)) eqn:E; [eauto|]. pose proof (find_none _ _ E p Ip) as Q. cbv beta in Q. rewrite Nat.eqb_refl in Q. discriminate.
Qed.
Lemma view_set ps pid g h : (forall p, vpart (g p) = mkSm (p_id p) (p_path p) (p_number p) (h (map vfile (p_files p)))) ->
  map vpart (set_part ps pid g) = on_mount pid h (map vpart ps).
Proof.
  intros E. unfold set_part, on_mount. rewrite !map_map. apply map_ext. intros p. cbn [vpart q_id q_path q_num q_files]. destruct (p_id p =? pid)%nat; [apply E|reflexivity].
Qed.
Lemma set_ids ps pid g : (forall p, p_id (g p) = p_id p) -> map p_id (set_part ps pid g) = map p_id ps.
Proof. intros E. unfold set_part. rewrite map_map. apply map_ext. intros p. destruct (p_id p =? pid)%nat; auto. Qed.
Lemma on_ids sp pid g : map q_id (on_mount pid g sp) = map q_id sp.
Proof. unfold on_mount. rewrite map_map. apply map_ext. intros q. destruct (q_id q =? pid)%nat; reflexivity. Qed.
Lemma set_len ps pid g : length (set_part ps pid g) = length ps.
Proof. apply map_length. Qed.

Lemma insert_ok s pid name dir : MInv s -> In pid (map q_id (view s)) -> ~ In name (names (view s)) ->
  exists s', insert_file s pid name dir = Ok s' /\ MInv s' /\ view s' = on_mount pid (fun fs => fs ++ [(name, dir)]) (view s) /\ m_count s' = m_count s.
Proof.
  intros (RB & NDi & LT & NDp & CN & FC & MC) Ip NN. rewrite names_view in NN.
  destruct (rb_ins _ _ _ name dir RB LT NN) as (rb' & E & RB'). unfold insert_file. rewrite E. cbn [obind]. eexists. split; [reflexivity|].
  destruct (get_part_some _ _ Ip) as (p & G). apply get_part_in in G as (Ip' & <-). apply in_split in Ip' as (A & B & EP).
  set (pf := mkPf (m_next s) name dir) in *.
  set (g := fun p => mkPart (p_id p) (p_path p) (p_number p) (p_files p ++ [pf]) (S (p_count p))).
  assert (SP : set_part (m_parts s) (p_id p) g = A ++ g p :: B) by (rewrite EP in NDp |- *; apply set_part_split; exact NDp).
  assert (PM : Permutation (pf :: all_files s) (flat_map p_files (set_part (m_parts s) (p_id p) g))).
  { unfold all_files. rewrite SP, EP, !flat_map_app. cbn [flat_map g p_files]. rewrite <- !app_assoc. cbn [app]. rewrite !app_assoc. apply Permutation_middle. }
  split; [|split].
  - split; [|split; [|split; [|split; [|split; [|split]]]]]; unfold file_add, all_files in *; cbn [m_rb m_parts m_next m_count m_fcount]; fold g.
    + eapply rb_ok_perm; [exact PM|exact RB'].
    + eapply Permutation_NoDup; [apply Permutation_map; exact PM|]. cbn [map]. constructor; [|exact NDi]. intros X. apply in_map_iff in X as (f & E2 & X). apply LT in X. unfold pf in E2. cbn [f_id] in E2. lia.
    + intros f X. apply (Permutation_in _ (Permutation_sym PM)) in X as [<-|X]; [cbn [pf f_id]; lia|]. apply LT in X. lia.
    + rewrite set_ids by reflexivity. exact NDp.
    + intros q Q. rewrite SP in Q. apply in_app_or in Q as [Q|[<-|Q]].
      * apply CN. rewrite EP. apply in_or_app. auto.
      * cbn [g p_count p_files]. rewrite app_length, (CN p); [cbn [length]; lia|]. rewrite EP. apply in_or_app. right. left. reflexivity.
      * apply CN. rewrite EP. apply in_or_app. right. right. exact Q.
    + apply Permutation_length in PM. cbn [length] in PM. lia.
    + rewrite set_len. exact MC.
  - unfold view, file_add. cbn [m_parts]. apply view_set. intros q. unfold vpart. cbn [p_id p_path p_number p_files]. rewrite map_app. reflexivity.
  - reflexivity.
Qed.

Lemma filter_other (A : list pfile) id : ~ In id (map f_id A) -> filter (fun f => negb (f_id f =? id)%nat) A = A.
Proof.
  induction A as [|f A IH]; intros NI; [reflexivity|]. cbn [filter]. destruct (Nat.eqb_spec (f_id f) id) as [E|NE]; [exfalso; apply NI; left; exact E|].
  cbn [negb]. f_equal. apply IH. intros X. apply NI. right. exact X.
Qed.
Lemma filter_one (A : list pfile) f B : NoDup (map f_id (A ++ f :: B)) -> filter (fun g => negb (f_id g =? f_id f)%nat) (A ++ f :: B) = A ++ B.
Proof.
  intros ND. rewrite map_app in ND. cbn [map] in ND. apply NoDup_remove_2 in ND. rewrite filter_app. cbn [filter]. rewrite Nat.eqb_refl. cbn [negb].
  rewrite !filter_other; [reflexivity| |]; intros X; apply ND; apply in_or_app; auto.
Qed.
Lemma NoDup_mid {X} (A B C : list X) : NoDup (A ++ B ++ C) -> NoDup B.
Proof.
  intros H. induction A as [|a A IH]; [|cbn [app] in H; inversion H; auto]. cbn [app] in H. revert H. induction B as [|b B IH]; intros H; [constructor|].
  cbn [app] in H. inversion H as [|? ? NI ND]; subst. constructor; [|auto]. intros X1. apply NI. apply in_or_app. auto.
Qed.
Lemma remove_ok s pid p f : MInv s -> get_part s pid = Some p -> In f (p_files p) ->
  exists s', file_remove s pid (f_id f) = Ok s' /\ MInv s' /\ m_count s' = m_count s /\ m_next s' = m_next s /\
    m_parts s' = set_part (m_parts s) pid (fun p => mkPart (p_id p) (p_path p) (p_number p) (filter (fun g => negb (f_id g =? f_id f)%nat) (p_files p)) (pred (p_count p))).
Proof.
  intros (RB & NDi & LT & NDp & CN & FC & MC) G If. pose proof G as G0. apply get_part_in in G as (Ip & <-).
  assert (Ia : In f (all_files s)) by (apply in_flat_map; eauto).
  destruct (rb_del _ _ _ f RB NDi Ia) as (rb' & a & Ha & E & RB'). unfold file_remove. rewrite G0.
  replace (existsb (fun g => (f_id g =? f_id f)%nat) (p_files p)) with true by (symmetry; apply existsb_exists; exists f; split; [exact If|apply Nat.eqb_refl]).
  rewrite Ha, E. cbn [obind]. eexists. split; [reflexivity|]. split; [|auto].
  apply in_split in Ip as (A & B & EP).
  set (g := fun p => mkPart (p_id p) (p_path p) (p_number p) (filter (fun g => negb (f_id g =? f_id f)%nat) (p_files p)) (pred (p_count p))).
  assert (SP : set_part (m_parts s) (p_id p) g = A ++ g p :: B) by (rewrite EP in NDp |- *; apply set_part_split; exact NDp).
  apply in_split in If as (C & D & EF).
  assert (NDf : NoDup (map f_id (C ++ f :: D))).
  { rewrite <- EF. unfold all_files in NDi. rewrite EP, flat_map_app in NDi. cbn [flat_map] in NDi. rewrite !map_app in NDi. apply NoDup_mid in NDi. exact NDi. }
  assert (GF : p_files (g p) = C ++ D) by (cbn [g p_files]; rewrite EF; apply filter_one; exact NDf).
  assert (AF : all_files s = (flat_map p_files A ++ C) ++ f :: (D ++ flat_map p_files B)).
  { unfold all_files. rewrite EP, flat_map_app. cbn [flat_map]. rewrite EF, <- !app_assoc. reflexivity. }
  assert (AF' : flat_map p_files (set_part (m_parts s) (p_id p) g) = (flat_map p_files A ++ C) ++ (D ++ flat_map p_files B)).
  { rewrite SP, flat_map_app. cbn [flat_map]. rewrite GF, <- !app_assoc. reflexivity. }
  split; [|split; [|split; [|split; [|split; [|split]]]]]; unfold all_files in *; cbn [m_rb m_parts m_next m_count m_fcount]; fold g.
  - rewrite AF'. rewrite AF in RB', NDi. rewrite filter_one in RB' by exact NDi. exact RB'.
  - rewrite AF'. rewrite AF in NDi. rewrite map_app in *. cbn [map] in NDi. apply NoDup_remove_1 in NDi. exact NDi.
  - intros x X. apply LT. rewrite AF. rewrite AF' in X. apply in_app_or in X as [X|X]; apply in_or_app; [auto|right; right; exact X].
  - rewrite set_ids by reflexivity. exact NDp.
  - intros q Q. rewrite SP in Q. apply in_app_or in Q as [Q|[<-|Q]].
    + apply CN. rewrite EP. apply in_or_app. auto.
    + rewrite GF. cbn [g p_count]. rewrite (CN p), EF, !app_length by (rewrite EP; apply in_or_app; right; left; reflexivity). cbn [length]. lia.
    + apply CN. rewrite EP. apply in_or_app. right. right. exact Q.
  - rewrite AF', FC, AF, !app_length. cbn [length]. rewrite !app_length. lia.
  - rewrite set_len. exact MC.
Qed.

(** ** Trees *)
(** Specification of a directory tree: entry names are not empty, contain no slash and no NUL, and are different within
    a directory. *)
Definition name_ok (n : list N) : Prop := n <> [] /\ ~ In 47 n /\ ~ In 0 n.
Inductive fs_ok : fsnode -> Prop :=
| ok_file : fs_ok FFile
| ok_dir es : Forall (fun e => name_ok (fst e) /\ fs_ok (snd e)) es -> NoDup (map fst es) -> fs_ok (FDir es).
Fixpoint fsnode_ind' (P : fsnode -> Prop) (HF : P FFile) (HD : forall es, Forall (fun e => P (snd e)) es -> P (FDir es)) (n : fsnode) : P n :=
  match n with
  | FFile => HF
  | FDir es => HD es ((fix go (es : list (list N * fsnode)) : Forall (fun e => P (snd e)) es :=
      match es with [] => Forall_nil _ | e :: t => Forall_cons e (fsnode_ind' P HF HD (snd e)) (go t) end) es)
  end.
Lemma below_cons prefix name child t :
  names_below prefix (FDir ((name, child) :: t)) = names_below (prefix ++ name ++ [47]) child ++ (prefix ++ name, is_dir child) :: names_below prefix (FDir t).
Proof. reflexivity. Qed.
Lemma below_prefix : forall n prefix, names_below prefix n = map (fun e => (prefix ++ fst e, snd e)) (names_below [] n).
Proof.
  induction n as [|es IH] using fsnode_ind'; intros prefix; [reflexivity|]. induction es as [|[name c] t IHt]; [reflexivity|].
  rewrite !below_cons. inversion IH as [|? ? H1 H2]; subst. cbn [snd] in H1. rewrite map_app. cbn [map fst snd app]. rewrite <- IHt by exact H2.
  rewrite (H1 (prefix ++ name ++ [47])), (H1 (name ++ [47])), map_map. f_equal. apply map_ext. intros e. cbn [fst snd]. f_equal. rewrite <- app_assoc. reflexivity.
Qed.
(** The first component of a path. *)
Fixpoint comp (x : list N) : list N := match x with [] => [] | c :: t => if c =? 47 then [] else c :: comp t end.
Lemma comp_app n r : ~ In 47 n -> comp (n ++ 47 :: r) = n.
Proof.
  induction n as [|c n IH]; intros H; [reflexivity|]. cbn [app comp]. destruct (N.eqb_spec c 47) as [->|_]; [exfalso; apply H; left; reflexivity|].
  rewrite IH; [reflexivity|]. intros X. apply H. right. exact X.
Qed.
Lemma comp_id n : ~ In 47 n -> comp n = n.
Proof.
  induction n as [|c n IH]; intros H; [reflexivity|]. cbn [comp]. destruct (N.eqb_spec c 47) as [->|_]; [exfalso; apply H; left; reflexivity|].
  rewrite IH; [reflexivity|]. intros X. apply H. right. exact X.
Qed.
Lemma below_comp es x : Forall (fun e => name_ok (fst e) /\ fs_ok (snd e)) es -> In x (map fst (names_below [] (FDir es))) -> In (comp x) (map fst es).
Proof.
  induction es as [|[name c] t IH]; intros F I; [destruct I|]. rewrite below_cons in I. inversion F as [|? ? ((_ & N47 & _) & _) F']; subst. cbn [fst] in N47.
  rewrite map_app in I. apply in_app_or in I as [I|I].
  - rewrite below_prefix, map_map in I. cbn [fst] in I. apply in_map_iff in I as (e & <- & _). cbn [app]. rewrite <- app_assoc. cbn [app]. rewrite comp_app by exact N47. left. reflexivity.
  - destruct I as [<-|I]; cbn [fst app map]; [left; symmetry; apply comp_id; exact N47|right; apply IH; assumption].
Qed.
Lemma map_prefix (p : list N) (l : list (list N * bool)) : map fst (map (fun e => (p ++ fst e, snd e)) l) = map (app p) (map fst l).
Proof. rewrite !map_map. reflexivity. Qed.
Lemma NoDup_map_app (p : list N) l : NoDup l -> NoDup (map (app p) l).
Proof.
  induction 1 as [|x l NI ND IH]; [constructor|]. cbn [map]. constructor; [|exact IH]. intros X. apply in_map_iff in X as (y & E & X). apply app_inv_head in E. congruence.
Qed.
Lemma NoDup_app_intro {X} (a b : list X) : NoDup a -> NoDup b -> (forall x, In x a -> In x b -> False) -> NoDup (a ++ b).
Proof.
  induction 1 as [|x a NI ND IH]; intros Nb D; [exact Nb|]. cbn [app]. constructor.
  - intros Q. apply in_app_or in Q as [Q|Q]; [contradiction|]. eapply D; [left; reflexivity|exact Q].
  - apply IH; [exact Nb|]. intros y Y1 Y2. eapply D; [right; exact Y1|exact Y2].
Qed.
Lemma below_nodup : forall n, fs_ok n -> NoDup (map fst (names_below [] n)).
Proof.
  induction n as [|es IH] using fsnode_ind'; intros W; [constructor|]. inversion W as [|? F ND]; subst. clear W.
  induction es as [|[name c] t IHt]; [constructor|]. inversion IH as [|? ? H1 H2]; subst. inversion F as [|? ? ((N0 & N47 & _) & Wc) F']; subst. cbn [fst snd] in *.
  cbn [map fst] in ND. inversion ND as [|? ? NI ND']; subst. rewrite below_cons, map_app. cbn [map fst app]. rewrite below_prefix, map_prefix.
  apply NoDup_app_intro.
  - apply NoDup_map_app. auto.
  - constructor; [|auto]. intros X. apply below_comp in X; [|exact F']. rewrite comp_id in X by exact N47. contradiction.
  - intros x X Y. apply in_map_iff in X as (r & <- & _). rewrite <- app_assoc in Y. cbn [app] in Y. destruct Y as [Y|Y].
    + apply N47. rewrite Y. apply in_or_app. right. left. reflexivity.
    + apply below_comp in Y; [|exact F']. rewrite comp_app in Y by exact N47. contradiction.
Qed.

Lemma no_lead_app p n : no_lead p -> name_ok n -> no_lead (p ++ n).
Proof.
  intros H (N0 & N47 & _). destruct p as [|c p]; [|exact H]. cbn [app]. destruct n as [|c n]; [congruence|]. unfold no_lead.
  destruct c as [|c]; [exact Logic.I|]. do 6 (destruct c as [c|c|]; try exact Logic.I). apply N47. left. reflexivity.
Qed.
Lemma no_trail_app p n : name_ok n -> no_trail (p ++ 47 :: n).
Proof.
  intros (N0 & N47 & _). unfold no_trail. rewrite rev_app_distr. cbn [rev]. rewrite <- app_assoc. destruct (rev n) as [|c r] eqn:E.
  - apply (f_equal (@rev N)) in E. rewrite rev_involutive in E. contradiction.
  - cbn [app]. assert (I : In c n) by (apply in_rev; rewrite E; left; reflexivity).
    destruct c as [|c]; [exact Logic.I|]. do 6 (destruct c as [c|c|]; try exact Logic.I). contradiction.
Qed.

(** ** Spec updates *)
Lemma on_on pid g h sp : on_mount pid g (on_mount pid h sp) = on_mount pid (fun fs => g (h fs)) sp.
Proof. unfold on_mount. rewrite map_map. apply map_ext. intros q. destruct (q_id q =? pid)%nat eqn:E; cbn [q_id q_path q_num q_files]; rewrite E; reflexivity. Qed.
Lemma on_ext pid g h sp : (forall q, In q sp -> q_id q = pid -> g (q_files q) = h (q_files q)) -> on_mount pid g sp = on_mount pid h sp.
Proof. intros E. unfold on_mount. apply map_ext_in. intros q Q. destruct (Nat.eqb_spec (q_id q) pid) as [P|_]; [rewrite (E q Q P); reflexivity|reflexivity]. Qed.
Lemma on_split pid g A q B : NoDup (map q_id (A ++ q :: B)) -> q_id q = pid ->
  on_mount pid g (A ++ q :: B) = A ++ mkSm (q_id q) (q_path q) (q_num q) (g (q_files q)) :: B.
Proof.
  intros ND <-. rewrite map_app in ND. cbn [map] in ND. apply NoDup_remove_2 in ND.
  assert (O : forall L, ~ In (q_id q) (map q_id L) -> on_mount (q_id q) g L = L).
  { induction L as [|x L IH]; intros NI; [reflexivity|]. cbn [on_mount map]. destruct (Nat.eqb_spec (q_id x) (q_id q)) as [E|_]; [exfalso; apply NI; left; exact E|].
    f_equal. apply IH. intros X. apply NI. right. exact X. }
  unfold on_mount. rewrite map_app. cbn [map]. rewrite Nat.eqb_refl. change (on_mount (q_id q) g A ++ mkSm (q_id q) (q_path q) (q_num q) (g (q_files q)) :: on_mount (q_id q) g B = A ++ mkSm (q_id q) (q_path q) (q_num q) (g (q_files q)) :: B).
  rewrite !O; [reflexivity| |]; intros X; apply ND; apply in_or_app; auto.
Qed.
Lemma names_on pid l sp : NoDup (map q_id sp) -> In pid (map q_id sp) ->
  Permutation (names (on_mount pid (fun fs => fs ++ l) sp)) (names sp ++ map fst l).
Proof.
  intros ND I. apply in_map_iff in I as (q & E & I). apply in_split in I as (A & B & ->). rewrite (on_split pid _ A q B ND E). unfold names.
  rewrite !flat_map_app. cbn [flat_map q_files]. rewrite !map_app, <- !app_assoc. apply Permutation_app_head. apply Permutation_app_head. apply Permutation_app_comm.
Qed.
Lemma view_ids s : MInv s -> NoDup (map q_id (view s)).
Proof. intros (_ & _ & _ & ND & _). unfold view. rewrite map_map. exact ND. Qed.
Lemma view_names_nodup s : MInv s -> NoDup (names (view s)).
Proof. intros (RB & _). rewrite names_view. eapply rb_ok_names. exact RB. Qed.
Lemma fcount_names s : MInv s -> m_fcount s = length (names (view s)).
Proof. intros (_ & _ & _ & _ & _ & FC & _). rewrite names_view, map_length. exact FC. Qed.
(** The mount point [pid] has the path [mp]. *)
Definition at_path (sp : list smount) (pid : nat) (mp : list N) : Prop := exists q, In q sp /\ q_id q = pid /\ q_path q = mp.
Lemma at_on sp pid mp pid' g : at_path sp pid mp -> at_path (on_mount pid' g sp) pid mp.
Proof.
  intros (q & I & E1 & E2). eexists. split; [unfold on_mount; apply in_map; exact I|]. destruct (q_id q =? pid')%nat; auto.
Qed.
Lemma at_id sp pid mp : at_path sp pid mp -> In pid (map q_id sp).
Proof. intros (q & I & <- & _). apply in_map. exact I. Qed.
Lemma at_part s pid mp : MInv s -> at_path (view s) pid mp -> exists p, get_part s pid = Some p /\ p_path p = mp.
Proof.
  intros M (q & I & E1 & E2). unfold view in I. apply in_map_iff in I as (p & <- & I). cbn [vpart q_id q_path] in *. subst pid. exists p. split; [|exact E2].
  apply get_part_of; [|exact I]. apply M.
Qed.
Lemma part_names s pid p f : get_part s pid = Some p -> In f (p_files p) -> In (f_name f) (names (view s)).
Proof. intros G I. apply get_part_in in G as (G & _). rewrite names_view. apply in_map. apply in_flat_map. eauto. Qed.

(** ** fly_mount *)
Definition nftw_entries (limit pid : nat) (mp path : list N) :=
  fix entries (es : list (list N * fsnode)) (s : mnt) : outcome (mnt * bool) :=
      match es with
      | [] => Ok (s, true)
      | (name, child) :: t =>
        let full := snpath path name in
        obind (match child with FDir _ => nftw limit pid mp child s full | FFile => Ok (s, true) end) (fun '(s1, ok) =>
        if ok then
          if pf_with_path s1 pid full then entries t s1
          else obind (path_cpy full mp) (fun rel => obind (insert_file s1 pid rel (is_dir child)) (fun s2 => entries t s2))
        else Ok (s1, false))
      end.
Lemma nftw_dir limit pid mp es s path : nftw limit pid mp (FDir es) s path = if (limit <? m_fcount s)%nat then Ok (s, false) else nftw_entries limit pid mp path es s.
Proof. reflexivity. Qed.
Lemma nftw_cons limit pid mp path name child t s : nftw_entries limit pid mp path ((name, child) :: t) s =
  obind (match child with FDir _ => nftw limit pid mp child s (snpath path name) | FFile => Ok (s, true) end) (fun '(s1, ok) =>
        if ok then
          if pf_with_path s1 pid (snpath path name) then nftw_entries limit pid mp path t s1
          else obind (path_cpy (snpath path name) mp) (fun rel => obind (insert_file s1 pid rel (is_dir child)) (fun s2 => nftw_entries limit pid mp path t s2))
        else Ok (s1, false)).
Proof. reflexivity. Qed.

Definition walked (s : mnt) (pid : nat) (l : list (list N * bool)) (s' : mnt) : Prop :=
  MInv s' /\ view s' = on_mount pid (fun fs => fs ++ l) (view s) /\ m_count s' = m_count s.
Lemma walked_nil s pid : MInv s -> walked s pid [] s.
Proof.
  intros M. split; [exact M|]. split; [|reflexivity]. unfold on_mount. rewrite <- (map_id (view s)) at 1. apply map_ext. intros [i p n fs]. cbn [q_id q_path q_num q_files].
  rewrite app_nil_r. destruct (i =? pid)%nat; reflexivity.
Qed.
Lemma walked_app s pid l1 s1 l2 s2 : walked s pid l1 s1 -> walked s1 pid l2 s2 -> walked s pid (l1 ++ l2) s2.
Proof.
  intros (M1 & V1 & C1) (M2 & V2 & C2). split; [exact M2|]. split; [|congruence]. rewrite V2, V1, on_on. apply on_ext. intros q _ _. rewrite app_assoc. reflexivity.
Qed.
Lemma walked_names s pid l s' : MInv s -> In pid (map q_id (view s)) -> walked s pid l s' -> Permutation (names (view s')) (names (view s) ++ map fst l).
Proof. intros M I (_ & V & _). rewrite V. apply names_on; [apply view_ids; exact M|exact I]. Qed.
Lemma walked_at s pid l s' mp : walked s pid l s' -> at_path (view s) pid mp -> at_path (view s') pid mp.
Proof. intros (_ & V & _) A. rewrite V. apply at_on. exact A. Qed.

Lemma nftw_ok limit pid mp : forall n prefix path s, is_dir n = true -> fs_ok n -> no_lead prefix -> path ++ [47] = mp ++ 47 :: prefix ->
  MInv s -> at_path (view s) pid mp -> (forall x, In x (map fst (names_below prefix n)) -> ~ In x (names (view s))) ->
  (m_fcount s + length (names_below prefix n) <= limit)%nat ->
  exists s', nftw limit pid mp n s path = Ok (s', true) /\ walked s pid (names_below prefix n) s'.
Proof.
  induction n as [|es IH] using fsnode_ind'; intros prefix path s D W NL EP M AT FR LM; [discriminate|].
  rewrite nftw_dir. destruct (Nat.ltb_spec limit (m_fcount s)) as [X|_]; [lia|].
  pose proof (below_nodup _ W) as ND. assert (ND' : NoDup (map fst (names_below prefix (FDir es)))) by (rewrite below_prefix, map_prefix; apply NoDup_map_app; exact ND). clear ND.
  inversion W as [|? F _]; subst. clear W D. revert s M AT FR LM ND'. induction es as [|[name c] t IHt]; intros s M AT FR LM ND.
  - exists s. split; [reflexivity|]. apply walked_nil. exact M.
  - inversion IH as [|? ? H1 H2]; subst. inversion F as [|? ? (NO & Wc) F']; subst. cbn [fst snd] in *. specialize (IHt H2 F').
    rewrite nftw_cons. rewrite below_cons in FR, LM, ND |- *. rewrite map_app in FR, ND. cbn [map fst] in FR, ND. rewrite app_length in LM. cbn [length] in LM.
    assert (EF : snpath path name = mp ++ 47 :: (prefix ++ name)).
    { unfold snpath. change (47 :: name) with ([47] ++ name). rewrite app_assoc, EP, <- app_assoc. reflexivity. }
    assert (S1 : exists s1, (match c with FDir _ => nftw limit pid mp c s (snpath path name) | FFile => Ok (s, true) end) = Ok (s1, true) /\
                 walked s pid (names_below (prefix ++ name ++ [47]) c) s1).
    { destruct c as [|es'].
      - exists s. split; [reflexivity|]. apply walked_nil. exact M.
      - apply H1; [reflexivity|exact Wc| | |exact M|exact AT| |lia].
        + rewrite app_assoc. pose proof (no_lead_app _ _ NL NO) as Q. destruct (prefix ++ name) as [|c0 r] eqn:PN; [apply app_eq_nil in PN as (_ & PN); destruct NO as (NO & _); contradiction|exact Q].
        + rewrite EF, <- !app_assoc. cbn [app]. rewrite <- !app_assoc. reflexivity.
        + intros x X. apply FR. apply in_or_app. left. exact X. }
    destruct S1 as (s1 & E1 & W1). rewrite E1. cbn [obind]. pose proof (walked_names _ _ _ _ M (at_id _ _ _ AT) W1) as P1. pose proof (walked_at _ _ _ _ _ W1 AT) as AT1.
    pose proof W1 as (M1 & V1 & _).
    assert (NI1 : ~ In (prefix ++ name) (names (view s1))).
    { intros X. apply (Permutation_in _ P1) in X. apply in_app_or in X as [X|X].
      - eapply FR; [|exact X]. apply in_or_app. right. left. reflexivity.
      - apply NoDup_remove_2 in ND. apply ND. apply in_or_app. left. exact X. }
    assert (PF : pf_with_path s1 pid (snpath path name) = false).
    { unfold pf_with_path. destruct (at_part _ _ _ M1 AT1) as (p & G & PP). rewrite G. apply andb_false_iff. right. apply not_true. intros X.
      apply existsb_exists in X as (f & If & X). apply bytes_eqb_eq in X. rewrite PP, EF in X. unfold snpath in X. apply app_inv_head in X. injection X as X.
      apply NI1. rewrite <- X. eapply part_names; eassumption. }
    rewrite PF, EF, path_cpy_join by (apply no_lead_app; assumption). cbn [obind].
    destruct (insert_ok s1 pid (prefix ++ name) (is_dir c) M1 (at_id _ _ _ AT1) NI1) as (s2 & E2 & M2 & V2 & C2). rewrite E2. cbn [obind].
    assert (W2 : walked s1 pid [(prefix ++ name, is_dir c)] s2) by (split; [exact M2|split; [exact V2|exact C2]]).
    pose proof (walked_names _ _ _ _ M1 (at_id _ _ _ AT1) W2) as P2. pose proof (walked_at _ _ _ _ _ W2 AT1) as AT2.
    assert (P3 : Permutation (names (view s2)) (names (view s) ++ map fst (names_below (prefix ++ name ++ [47]) c) ++ [prefix ++ name])).
    { rewrite P2, P1, <- app_assoc. reflexivity. }
    destruct (IHt s2 M2 AT2) as (s3 & E3 & W3).
    + intros x X Y. apply (Permutation_in _ P3) in Y. apply in_app_or in Y as [Y|Y]; [eapply FR; [|exact Y]; apply in_or_app; right; right; exact X|].
      apply in_app_or in Y as [Y|[Y|[]]].
      * apply in_split in X as (U & V & EX). rewrite EX in ND. rewrite app_comm_cons, app_assoc in ND. apply NoDup_remove_2 in ND. apply ND. apply in_or_app. left. apply in_or_app. left. exact Y.
      * subst x. apply NoDup_remove_2 in ND. apply ND. apply in_or_app. right. exact X.
    + rewrite (fcount_names _ M2), (Permutation_length P3), !app_length, map_length, <- (fcount_names _ M). cbn [length]. lia.
    + apply NoDup_remove_1 in ND. apply (NoDup_mid (map fst (names_below (prefix ++ name ++ [47]) c)) _ []). rewrite app_nil_r. exact ND.
    + exists s3. split; [exact E3|]. change (names_below (prefix ++ name ++ [47]) c ++ (prefix ++ name, is_dir c) :: names_below prefix (FDir t))
        with (names_below (prefix ++ name ++ [47]) c ++ [(prefix ++ name, is_dir c)] ++ names_below prefix (FDir t)).
      eapply walked_app; [exact W1|]. eapply walked_app; [exact W2|exact W3].
Qed.

Lemma mount_inv s pid path : MInv s -> ~ In pid (map q_id (view s)) ->
  MInv (mkMnt (m_parts s ++ [mkPart pid path (m_count s) [] 0]) (S (m_count s)) (m_fcount s) (m_rb s) (m_next s)).
Proof.
  intros (RB & NDi & LT & NDp & CN & FC & MC) NI. unfold MInv, all_files in *. cbn [m_parts m_count m_fcount m_rb m_next].
  rewrite flat_map_app. cbn [flat_map p_files app]. rewrite app_nil_r. split; [exact RB|]. split; [exact NDi|]. split; [exact LT|]. split; [|split; [|split; [exact FC|]]].
  - rewrite map_app. cbn [map p_id]. apply NoDup_app_intro; [exact NDp|constructor; [intros []|constructor]|]. intros x X [<-|[]]. apply NI. unfold view. rewrite map_map. exact X.
  - intros p P. apply in_app_or in P as [P|[<-|[]]]; [auto|reflexivity].
  - rewrite app_length. cbn [length]. lia.
Qed.
Lemma mount_ok cfg s pid path es : MInv s -> ~ In pid (map q_id (view s)) -> (length (view s) < c_mount_max cfg)%nat -> fs_ok (FDir es) ->
  (forall x, In x (map fst (names_below [] (FDir es))) -> ~ In x (names (view s))) ->
  (length (names (view s)) + length (names_below [] (FDir es)) <= c_file_max cfg)%nat ->
  exists s', fly_mount cfg s pid path es = Ok (MDone s') /\ MInv s' /\
    view s' = view s ++ [mkSm pid path (length (view s)) (names_below [] (FDir es))].
Proof.
  intros M NI LM W FR FM. pose proof (mount_inv s pid path M NI) as M1. pose proof M as (_ & _ & _ & _ & _ & FC & MC). unfold fly_mount.
  assert (MC' : m_count s = length (view s)) by (unfold view; rewrite map_length; exact MC).
  replace (c_mount_max cfg =? m_count s)%nat with false by (symmetry; apply Nat.eqb_neq; lia).
  set (s1 := mkMnt _ _ _ _ _) in *.
  assert (V1 : view s1 = view s ++ [mkSm pid path (length (view s)) []]).
  { unfold view, s1. cbn [m_parts]. rewrite map_app. cbn [map vpart p_id p_path p_number p_files]. rewrite MC', map_length. unfold view. rewrite map_length. reflexivity. }
  assert (N1 : names (view s1) = names (view s)) by (rewrite V1; unfold names; rewrite flat_map_app; cbn [flat_map q_files app]; rewrite app_nil_r; reflexivity).
  destruct (nftw_ok (c_file_max cfg) pid path (FDir es) [] path s1 eq_refl W Logic.I eq_refl M1) as (s2 & E & M2 & V2 & C2).
  - rewrite V1. exists (mkSm pid path (length (view s)) []). split; [apply in_or_app; right; left; reflexivity|auto].
  - intros x X. rewrite N1. auto.
  - unfold s1 at 1. cbn [m_fcount]. rewrite (fcount_names _ M). exact FM.
  - rewrite E. cbn [obind]. exists s2. split; [reflexivity|]. split; [exact M2|]. rewrite V2, V1.
    rewrite on_split; [reflexivity| |reflexivity]. rewrite <- V1. apply view_ids. exact M1.
Qed.

(** ** The worker: files that have appeared *)
Definition known (sp : list smount) (x : list N) : bool := existsb (bytes_eqb x) (names sp).
Lemma known_in sp x : known sp x = true <-> In x (names sp).
Proof.
  unfold known. rewrite existsb_exists. split; [intros (y & I & E); apply bytes_eqb_eq in E; congruence|]. intros I. exists x. split; [exact I|apply bytes_eqb_refl].
Qed.
Lemma known_notin sp x : known sp x = false <-> ~ In x (names sp).
Proof. rewrite <- known_in. destruct (known sp x); split; congruence. Qed.
(** No other mount point has the name. *)
Definition apart (sp : list smount) (pid : nat) (x : list N) : Prop := forall q, In q sp -> q_id q <> pid -> ~ In x (map fst (q_files q)).
Lemma apart_on sp pid g x : apart sp pid x -> apart (on_mount pid g sp) pid x.
Proof.
  intros A q I NE. unfold on_mount in I. apply in_map_iff in I as (q' & E & I). destruct (Nat.eqb_spec (q_id q') pid) as [X|X]; [subst q; cbn [q_id] in NE; contradiction|].
  subst q'. apply A; assumption.
Qed.
Lemma part_unique s p p' : MInv s -> In p (m_parts s) -> In p' (m_parts s) -> p_id p = p_id p' -> p = p'.
Proof.
  intros (_ & _ & _ & ND & _) I I' E. pose proof (get_part_of s p ND I) as G. pose proof (get_part_of s p' ND I') as G'. rewrite E in G. congruence.
Qed.
Lemma fullpath_ok s pid mp rel : MInv s -> at_path (view s) pid mp -> no_lead rel -> apart (view s) pid rel ->
  exists r, pf_by_fullpath s pid (mp ++ 47 :: rel) mp = Ok r /\ match r with Some _ => In rel (names (view s)) | None => ~ In rel (names (view s)) end.
Proof.
  intros M AT NL AP. destruct (at_part _ _ _ M AT) as (p & G & PP). unfold pf_by_fullpath. rewrite G. pose proof M as (RB & _ & _ & _ & CN & _).
  pose proof (get_part_in _ _ _ G) as (Ip & Ep). destruct (Nat.eqb_spec (p_count p) 0) as [Z|Z].
  - exists None. split; [reflexivity|]. intros X. unfold names in X. apply in_map_iff in X as (e & E1 & X). apply in_flat_map in X as (q & Q & X).
    destruct (Nat.eq_dec (q_id q) pid) as [E|NE].
    + unfold view in Q. apply in_map_iff in Q as (p' & <- & Q). cbn [vpart q_id q_files] in *. assert (P : p' = p) by (apply (part_unique s); auto; congruence).
      subst p'. rewrite (CN p Ip) in Z. apply length_zero_iff_nil in Z. rewrite Z in X. destruct X.
    + eapply AP; [exact Q|exact NE|]. rewrite <- E1. apply in_map. exact X.
  - destruct (strip_full_join mp rel NL) as (r & Es & Er). rewrite Es. cbn [obind]. rewrite Er. unfold pf_from_parts. rewrite G.
    destruct (Nat.eqb_spec (p_count p) 0) as [Z'|_]; [contradiction|].
    assert (NE : all_files s <> []).
    { intros E. rewrite (CN p Ip) in Z. destruct (p_files p) as [|f fs] eqn:PF; [apply Z; reflexivity|]. assert (X : In f (all_files s)) by (apply in_flat_map; exists p; rewrite PF; split; [exact Ip|left; reflexivity]).
      rewrite E in X. destruct X. }
    destruct (rb_look _ _ _ rel RB NE) as (r2 & E2 & H2). rewrite E2. cbn [obind]. eexists. split; [reflexivity|]. rewrite names_view. destruct r2 as [[a q]|]; cbn [option_map snd].
    + destruct H2 as (H2 & <-). apply in_map. exact H2.
    + exact H2.
Qed.

Definition work_entries (pid : nat) (mp path : list N) :=
  fix entries (es : list (list N * fsnode)) (s : mnt) : outcome mnt :=
      match es with
      | [] => Ok s
      | (name, child) :: t =>
        let full := join_path path name in
        obind (match child with FDir _ => work_add pid mp child s full | FFile => Ok s end) (fun s1 =>
        obind (pf_by_fullpath s1 pid full mp) (fun r =>
        match r with
        | Some _ => entries t s1
        | None => obind (path_cpy full mp) (fun rel => obind (insert_file s1 pid rel (is_dir child)) (fun s2 => entries t s2))
        end))
      end.
Lemma work_dir pid mp es s path : work_add pid mp (FDir es) s path = work_entries pid mp path es s.
Proof. reflexivity. Qed.
Lemma work_cons pid mp path name child t s : work_entries pid mp path ((name, child) :: t) s =
        obind (match child with FDir _ => work_add pid mp child s (join_path path name) | FFile => Ok s end) (fun s1 =>
        obind (pf_by_fullpath s1 pid (join_path path name) mp) (fun r =>
        match r with
        | Some _ => work_entries pid mp path t s1
        | None => obind (path_cpy (join_path path name) mp) (fun rel => obind (insert_file s1 pid rel (is_dir child)) (fun s2 => work_entries pid mp path t s2))
        end)).
Proof. reflexivity. Qed.
Definition fresh_of (sp : list smount) (l : list (list N * bool)) : list (list N * bool) := filter (fun e => negb (known sp (fst e))) l.
Lemma fresh_same sp sp' l : (forall x, In x (map fst l) -> (In x (names sp') <-> In x (names sp))) -> fresh_of sp' l = fresh_of sp l.
Proof.
  intros H. unfold fresh_of. apply filter_ext_in. intros e I. f_equal. specialize (H (fst e) (in_map fst _ _ I)). destruct (known sp' (fst e)) eqn:E1, (known sp (fst e)) eqn:E2; try reflexivity.
  - apply known_in in E1. apply known_notin in E2. tauto.
  - apply known_notin in E1. apply known_in in E2. tauto.
Qed.
Lemma fresh_fst sp l x : In x (map fst (fresh_of sp l)) -> In x (map fst l).
Proof. intros H. apply in_map_iff in H as (e & <- & H). apply filter_In in H as (H & _). apply in_map. exact H. Qed.

Lemma work_ok pid mp : forall n prefix path s, is_dir n = true -> fs_ok n -> no_lead prefix -> no_trail path -> path ++ [47] = mp ++ 47 :: prefix ->
  MInv s -> at_path (view s) pid mp -> (forall x, In x (map fst (names_below prefix n)) -> apart (view s) pid x) ->
  exists s', work_add pid mp n s path = Ok s' /\ walked s pid (fresh_of (view s) (names_below prefix n)) s'.
Proof.
  induction n as [|es IH] using fsnode_ind'; intros prefix path s D W NL NT EP M AT FR; [discriminate|].
  rewrite work_dir. pose proof (below_nodup _ W) as ND.
  assert (ND' : NoDup (map fst (names_below prefix (FDir es)))) by (rewrite below_prefix, map_prefix; apply NoDup_map_app; exact ND). clear ND.
  inversion W as [|? F _]; subst. clear W D. revert s M AT FR ND'. induction es as [|[name c] t IHt]; intros s M AT FR ND.
  - exists s. split; [reflexivity|]. apply walked_nil. exact M.
  - inversion IH as [|? ? H1 H2]; subst. inversion F as [|? ? (NO & Wc) F']; subst. cbn [fst snd] in *. specialize (IHt H2 F').
    rewrite work_cons. rewrite below_cons in FR, ND |- *. rewrite map_app in FR, ND. cbn [map fst] in FR, ND. rewrite join_path_no by exact NT.
    assert (EF : path ++ 47 :: name = mp ++ 47 :: (prefix ++ name)).
    { change (47 :: name) with ([47] ++ name). rewrite app_assoc, EP, <- app_assoc. reflexivity. }
    set (sub := names_below (prefix ++ name ++ [47]) c) in *. set (rest := names_below prefix (FDir t)) in *.
    assert (S1 : exists s1, (match c with FDir _ => work_add pid mp c s (path ++ 47 :: name) | FFile => Ok s end) = Ok s1 /\
                 walked s pid (fresh_of (view s) sub) s1).
    { destruct c as [|es'].
      - exists s. split; [reflexivity|]. apply walked_nil. exact M.
      - apply H1; [reflexivity|exact Wc| | | |exact M|exact AT|].
        + rewrite app_assoc. pose proof (no_lead_app _ _ NL NO) as Q. destruct (prefix ++ name) as [|c0 r] eqn:PN; [apply app_eq_nil in PN as (_ & PN); destruct NO as (NO & _); contradiction|exact Q].
        + apply no_trail_app. exact NO.
        + rewrite EF, <- !app_assoc. cbn [app]. rewrite <- !app_assoc. reflexivity.
        + intros x X. apply FR. apply in_or_app. left. exact X. }
    destruct S1 as (s1 & E1 & W1). rewrite E1. cbn [obind]. pose proof (walked_names _ _ _ _ M (at_id _ _ _ AT) W1) as P1. pose proof (walked_at _ _ _ _ _ W1 AT) as AT1.
    pose proof W1 as (M1 & V1 & _). pose proof (no_lead_app _ _ NL NO) as NLn.
    assert (NDs : ~ In (prefix ++ name) (map fst sub) /\ ~ In (prefix ++ name) (map fst rest)).
    { apply NoDup_remove_2 in ND. split; intros X; apply ND; apply in_or_app; auto. }
    assert (DS : forall x, In x (map fst rest) -> ~ In x (map fst sub)).
    { intros x X Y. apply in_split in X as (U & V & EX). rewrite EX in ND. rewrite app_comm_cons, app_assoc in ND. apply NoDup_remove_2 in ND. apply ND. apply in_or_app. left. apply in_or_app. left. exact Y. }
    assert (K1 : forall x, ~ In x (map fst sub) -> (In x (names (view s1)) <-> In x (names (view s)))).
    { intros x NX. split; intros X; [apply (Permutation_in _ P1) in X; apply in_app_or in X as [X|X]; [exact X|apply fresh_fst in X; contradiction]|].
      apply (Permutation_in _ (Permutation_sym P1)). apply in_or_app. left. exact X. }
    rewrite EF. destruct (fullpath_ok s1 pid mp (prefix ++ name) M1 AT1 NLn) as (r & ER & HR).
    { rewrite V1. apply apart_on. apply FR. apply in_or_app. right. left. reflexivity. }
    rewrite ER. cbn [obind].
    assert (AP : forall x, In x (map fst rest) -> apart (view s1) pid x).
    { intros x X. rewrite V1. apply apart_on. apply FR. apply in_or_app. right. right. exact X. }
    assert (NDr : NoDup (map fst rest)).
    { apply NoDup_remove_1 in ND. apply (NoDup_mid (map fst sub) _ []). rewrite app_nil_r. exact ND. }
    unfold fresh_of at 1. rewrite filter_app. cbn [filter fst]. fold (fresh_of (view s) sub). fold (fresh_of (view s) rest).
    destruct r as [f|].
    + apply K1 in HR; [|tauto]. apply known_in in HR. rewrite HR. cbn [negb].
      destruct (IHt s1 M1 AT1 AP NDr) as (s3 & E3 & W3). exists s3. split; [exact E3|]. eapply walked_app; [exact W1|].
      rewrite (fresh_same (view s) (view s1)) in W3; [exact W3|]. intros x X. apply K1. apply DS. exact X.
    + assert (HK : known (view s) (prefix ++ name) = false) by (apply known_notin; intros X; apply HR; apply K1; tauto). rewrite HK. cbn [negb].
      rewrite path_cpy_join by exact NLn. cbn [obind].
      destruct (insert_ok s1 pid (prefix ++ name) (is_dir c) M1 (at_id _ _ _ AT1) HR) as (s2 & E2 & M2 & V2 & C2). rewrite E2. cbn [obind].
      assert (W2 : walked s1 pid [(prefix ++ name, is_dir c)] s2) by (split; [exact M2|split; [exact V2|exact C2]]).
      pose proof (walked_names _ _ _ _ M1 (at_id _ _ _ AT1) W2) as P2. pose proof (walked_at _ _ _ _ _ W2 AT1) as AT2.
      destruct (IHt s2 M2 AT2) as (s3 & E3 & W3).
      * intros x X. rewrite V2. apply apart_on. apply AP. exact X.
      * exact NDr.
      * exists s3. split; [exact E3|]. change ((prefix ++ name, is_dir c) :: fresh_of (view s) rest) with ([(prefix ++ name, is_dir c)] ++ fresh_of (view s) rest).
        eapply walked_app; [exact W1|]. eapply walked_app; [exact W2|].
        rewrite (fresh_same (view s) (view s2)) in W3; [exact W3|]. intros x X. rewrite <- (K1 x (DS x X)). split; intros Y.
        -- apply (Permutation_in _ P2) in Y. apply in_app_or in Y as [Y|[Y|[]]]; [exact Y|]. cbn [fst] in Y. subst x. tauto.
        -- apply (Permutation_in _ (Permutation_sym P2)). apply in_or_app. left. exact Y.
Qed.

(** ** The worker: files that have disappeared *)
Definition without (x : list N) (l : list (list N * bool)) : list (list N * bool) := filter (fun e => negb (bytes_eqb (fst e) x)) l.
Lemma remove_view s pid p f : MInv s -> get_part s pid = Some p -> In f (p_files p) ->
  exists s', file_remove s pid (f_id f) = Ok s' /\ MInv s' /\ m_count s' = m_count s /\ view s' = on_mount pid (without (f_name f)) (view s) /\
    get_part s' pid = Some (mkPart (p_id p) (p_path p) (p_number p) (filter (fun g => negb (f_id g =? f_id f)%nat) (p_files p)) (pred (p_count p))).
Proof.
  intros M G If. destruct (remove_ok s pid p f M G If) as (s' & E & M' & C & NX & PS). exists s'. split; [exact E|]. split; [exact M'|]. split; [exact C|]. split.
  - unfold view. rewrite PS. unfold set_part, on_mount. rewrite !map_map. apply map_ext_in. intros q Q. cbn [vpart q_id q_path q_num q_files].
    destruct (Nat.eqb_spec (p_id q) pid) as [Eq|_]; [|reflexivity]. unfold vpart. cbn [p_id p_path p_number p_files]. f_equal.
    pose proof (get_part_in _ _ _ G) as (Ip & Ep). assert (q = p) by (apply (part_unique s); auto; congruence). subst q.
    unfold without. pose proof M as (RB & NDi & _). pose proof (rb_ok_names _ _ _ RB) as NDn.
    assert (U : forall g, In g (p_files p) -> (f_id g =? f_id f)%nat = bytes_eqb (f_name g) (f_name f)).
    { intros g Ig. assert (Ag : In g (all_files s)) by (apply in_flat_map; eauto). assert (Af : In f (all_files s)) by (apply in_flat_map; eauto).
      assert (INJ : forall (X : Type) (h : pfile -> X), NoDup (map h (all_files s)) -> h g = h f -> g = f).
      { intros X h ND E2. revert ND Ag Af. generalize (all_files s) as l. induction l as [|z l IH]; intros ND A1 A2; [destruct A1|]. cbn [map] in ND. inversion ND as [|? ? NI ND']; subst.
        destruct A1 as [->|A1], A2 as [A2|A2]; [exact A2| | |auto].
        - exfalso. apply NI. rewrite E2. apply in_map. exact A2.
        - subst z. exfalso. apply NI. rewrite <- E2. apply in_map. exact A1. }
      destruct (Nat.eqb_spec (f_id g) (f_id f)) as [E2|NE].
      - rewrite (INJ _ f_id NDi E2). symmetry. apply bytes_eqb_refl.
      - symmetry. apply not_true. intros E2. apply bytes_eqb_eq in E2. apply NE. rewrite (INJ _ f_name NDn E2). reflexivity. }
    clear - U. induction (p_files p) as [|g l IH]; [reflexivity|]. cbn [filter map]. rewrite (U g (or_introl eq_refl)). cbn [vfile fst]. 
    destruct (bytes_eqb (f_name g) (f_name f)); cbn [negb map]; [|f_equal]; apply IH; intros h H; apply U; right; exact H.
  - pose proof (get_part_in _ _ _ G) as (Ip & Ep). subst pid.
    match goal with |- _ = Some ?x => assert (Ix : In x (m_parts s')) end.
    { rewrite PS. unfold set_part. apply in_map_iff. exists p. rewrite Nat.eqb_refl. split; [reflexivity|exact Ip]. }
    match goal with |- _ = Some ?x => change (get_part s' (p_id x) = Some x) end. apply get_part_of; [apply M'|exact Ix].
Qed.
Lemma remove_all_ok pid present : forall fs s p, MInv s -> get_part s pid = Some p -> NoDup (map f_id fs) -> (forall f, In f fs -> In f (p_files p)) ->
  exists s', remove_all s pid present fs = Ok s' /\ MInv s' /\ m_count s' = m_count s /\
    view s' = on_mount pid (filter (fun e => forallb (fun f => present (f_name f) || negb (bytes_eqb (fst e) (f_name f))) fs)) (view s).
Proof.
  induction fs as [|f fs IH]; intros s p M G ND SUB; cbn [remove_all].
  - exists s. split; [reflexivity|]. split; [exact M|]. split; [reflexivity|]. unfold on_mount. rewrite <- (map_id (view s)) at 1. apply map_ext. intros [i q n l]. cbn [q_id q_path q_num q_files forallb].
    destruct (i =? pid)%nat; [|reflexivity]. f_equal. induction l as [|x l IHl]; [reflexivity|]. cbn [filter]. rewrite <- IHl. reflexivity.
  - cbn [map] in ND. inversion ND as [|? ? NI ND']; subst. destruct (present (f_name f)) eqn:PR.
    + destruct (IH s p M G ND') as (s' & E & M' & C & V); [intros g Ig; apply SUB; right; exact Ig|]. exists s'. split; [exact E|]. split; [exact M'|]. split; [exact C|].
      rewrite V. apply on_ext. intros q _ _. apply filter_ext. intros e. cbn [forallb]. rewrite PR. reflexivity.
    + destruct (remove_view s pid p f M G (SUB f (or_introl eq_refl))) as (s1 & E1 & M1 & C1 & V1 & G1). rewrite E1. cbn [obind].
      destruct (IH s1 _ M1 G1 ND') as (s' & E & M' & C & V).
      { intros g Ig. cbn [p_files]. apply filter_In. split; [apply SUB; right; exact Ig|]. apply negb_true_iff. apply Nat.eqb_neq. intros X. apply NI. rewrite <- X. apply in_map. exact Ig. }
      exists s'. split; [exact E|]. split; [exact M'|]. split; [congruence|]. rewrite V, V1, on_on. apply on_ext. intros q _ _. unfold without. cbn [forallb]. rewrite PR. clear.
      induction (q_files q) as [|e l IHl]; [reflexivity|]. cbn [filter]. destruct (bytes_eqb (fst e) (f_name f)); cbn [negb orb andb filter]; rewrite IHl; reflexivity.
Qed.
Lemma NoDup_part_ids s p : MInv s -> In p (m_parts s) -> NoDup (map f_id (p_files p)).
Proof.
  intros (_ & NDi & _) Ip. apply in_split in Ip as (A & B & E). unfold all_files in NDi. rewrite E, flat_map_app in NDi. cbn [flat_map] in NDi. rewrite !map_app in NDi. apply NoDup_mid in NDi. exact NDi.
Qed.
Lemma part_of_view s q pid p : MInv s -> In q (view s) -> q_id q = pid -> get_part s pid = Some p -> q = vpart p.
Proof.
  intros M Q E G. unfold view in Q. apply in_map_iff in Q as (p' & <- & Q). f_equal. apply get_part_in in G as (G & <-). apply (part_unique s); auto.
Qed.
Lemma remove_part_ok s pid present mp : MInv s -> at_path (view s) pid mp ->
  exists p s', get_part s pid = Some p /\ p_path p = mp /\ remove_all s pid present (p_files p) = Ok s' /\ MInv s' /\ m_count s' = m_count s /\
    view s' = on_mount pid (filter (fun e => present (fst e))) (view s).
Proof.
  intros M AT. destruct (at_part _ _ _ M AT) as (p & G & PP). exists p. pose proof (get_part_in _ _ _ G) as (Ip & Ep).
  destruct (remove_all_ok pid present (p_files p) s p M G (NoDup_part_ids _ _ M Ip) (fun f H => H)) as (s' & E & M' & C & V). exists s'.
  split; [exact G|]. split; [exact PP|]. split; [exact E|]. split; [exact M'|]. split; [exact C|]. rewrite V. apply on_ext. intros q Q Eq.
  rewrite (part_of_view s q pid p M Q Eq G). cbn [vpart q_files]. apply filter_ext_in. intros e Ie. apply in_map_iff in Ie as (f & <- & If). cbn [vfile fst].
  destruct (present (f_name f)) eqn:PR.
  - apply forallb_forall. intros g Ig. destruct (bytes_eqb (f_name f) (f_name g)) eqn:X; [|rewrite orb_true_r; reflexivity]. apply bytes_eqb_eq in X. rewrite <- X, PR. reflexivity.
  - apply not_true. intros X. rewrite forallb_forall in X. specialize (X f If). rewrite PR, bytes_eqb_refl in X. discriminate.
Qed.
Lemma work_del_ok s pid present mp : MInv s -> at_path (view s) pid mp ->
  exists s', work_del s pid present = Ok s' /\ MInv s' /\ m_count s' = m_count s /\ view s' = on_mount pid (filter (fun e => present (fst e))) (view s).
Proof.
  intros M AT. destruct (remove_part_ok s pid present mp M AT) as (p & s' & G & _ & E & H). exists s'. split; [|exact H]. unfold work_del. rewrite G. exact E.
Qed.

(** ** A mount point disappears *)
Fixpoint drop_path (path : list N) (sp : list smount) : list smount :=
  match sp with [] => [] | q :: t => if bytes_eqb (q_path q) path then t else q :: drop_path path t end.
Lemma remove_path_spec path : forall ps, In path (map p_path ps) ->
  exists A p B, ps = A ++ p :: B /\ p_path p = path /\ ~ In path (map p_path A) /\ remove_path path ps = Some (A ++ B).
Proof.
  induction ps as [|p ps IH]; intros I; [destruct I|]. cbn [remove_path]. destruct (bytes_eqb (p_path p) path) eqn:E.
  - apply bytes_eqb_eq in E. exists [], p, ps. auto.
  - destruct I as [I|I]; [cbn in I; subst path; rewrite bytes_eqb_refl in E; discriminate|]. destruct (IH I) as (A & q & B & -> & Q & NI & R). exists (p :: A), q, B. split; [reflexivity|]. split; [exact Q|]. split.
    + intros [X|X]; [cbn in X; subst path; rewrite X, bytes_eqb_refl in E; discriminate|contradiction].
    + rewrite R. reflexivity.
Qed.
Lemma unmount_ok s pid mp : MInv s -> at_path (view s) pid mp -> (forall q, In q (view s) -> q_path q = mp -> q_id q = pid) -> (1 < length (view s))%nat ->
  (forall q, In q (view s) -> q_id q = pid -> q_files q = []) ->
  exists s', fly_unmount s mp = MDone s' /\ MInv s' /\ view s' = filter (fun q => negb (q_id q =? pid)%nat) (view s).
Proof.
  intros M AT U L EM. pose proof M as (RB & NDi & LT & NDp & CN & FC & MC). unfold fly_unmount. unfold view in L. rewrite map_length in L.
  destruct (Nat.eqb_spec (m_count s) 0) as [X|_]; [lia|].
  assert (IP : In mp (map p_path (m_parts s))).
  { destruct AT as (q & Q & E1 & E2). unfold view in Q. apply in_map_iff in Q as (p & <- & Q). cbn [vpart q_path] in E2. subst mp. apply in_map. exact Q. }
  destruct (remove_path_spec mp _ IP) as (A & p & B & EP & PP & _ & R). rewrite R.
  destruct (Nat.eqb_spec (pred (m_count s)) 0) as [X|_]; [lia|]. eexists. split; [reflexivity|].
  assert (Ip : In p (m_parts s)) by (rewrite EP; apply in_or_app; right; left; reflexivity).
  assert (Eid : p_id p = pid) by (apply (U (vpart p)); [apply in_map; exact Ip|exact PP]).
  assert (EF : p_files p = []).
  { specialize (EM (vpart p) (in_map vpart _ _ Ip) Eid). cbn [vpart q_files] in EM. destruct (p_files p); [reflexivity|discriminate]. }
  assert (AF : all_files s = flat_map p_files (A ++ B)) by (unfold all_files; rewrite EP, !flat_map_app; cbn [flat_map]; rewrite EF; reflexivity).
  split.
  - unfold MInv. unfold all_files at 1 2 3 4. cbn [m_parts m_count m_fcount m_rb m_next]. rewrite <- AF. split; [exact RB|]. split; [exact NDi|]. split; [exact LT|]. split; [|split; [|split; [exact FC|]]].
    + rewrite EP in NDp. rewrite map_app in *. cbn [map] in NDp. apply NoDup_remove_1 in NDp. exact NDp.
    + intros q Q. apply CN. rewrite EP. apply in_app_or in Q as [Q|Q]; apply in_or_app; [auto|right; right; exact Q].
    + rewrite MC, EP, !app_length. cbn [length]. lia.
  - unfold view. cbn [m_parts]. rewrite EP, !map_app, filter_app. cbn [map filter vpart q_id]. rewrite Eid, Nat.eqb_refl. cbn [negb].
    rewrite EP, map_app in NDp. cbn [map] in NDp. apply NoDup_remove_2 in NDp. rewrite Eid in NDp.
    assert (O : forall W, ~ In pid (map p_id W) -> filter (fun q => negb (q_id q =? pid)%nat) (map vpart W) = map vpart W).
    { induction W as [|x W' IH]; intros NI; [reflexivity|]. cbn [map filter vpart q_id]. destruct (Nat.eqb_spec (p_id x) pid) as [E|_]; [exfalso; apply NI; left; exact E|]. cbn [negb]. f_equal.
      apply IH. intros X. apply NI. right. exact X. }
    rewrite !O; [reflexivity| |]; intros X; apply NDp; apply in_or_app; auto.
Qed.
Lemma gone_ok s pid mp : MInv s -> at_path (view s) pid mp -> (forall q, In q (view s) -> q_path q = mp -> q_id q = pid) -> (1 < length (view s))%nat ->
  exists s', work_unmount s pid = Ok (MDone s') /\ MInv s' /\ view s' = filter (fun q => negb (q_id q =? pid)%nat) (view s).
Proof.
  intros M AT U L. destruct (remove_part_ok s pid (fun _ => false) mp M AT) as (p & s1 & G & PP & E & M1 & C1 & V1). unfold work_unmount. rewrite G, E. cbn [obind]. rewrite PP.
  destruct (unmount_ok s1 pid mp M1) as (s' & E' & M' & V').
  - rewrite V1. apply at_on. exact AT.
  - intros q Q EQ. rewrite V1 in Q. unfold on_mount in Q. apply in_map_iff in Q as (q' & E1 & Q). destruct (Nat.eqb_spec (q_id q') pid) as [X|X]; [subst q; exact X|]. subst q'. apply U; assumption.
  - rewrite V1. unfold on_mount. rewrite map_length. exact L.
  - intros q Q EQ. rewrite V1 in Q. unfold on_mount in Q. apply in_map_iff in Q as (q' & E1 & Q). destruct (Nat.eqb_spec (q_id q') pid) as [X|X]; [|subst q'; contradiction].
    subst q. cbn [q_files]. clear. induction (q_files q') as [|e l IH]; [reflexivity|exact IH].
  - rewrite E'. exists s'. split; [reflexivity|]. split; [exact M'|]. rewrite V', V1. unfold on_mount. generalize (view s) as sp. clear.
    induction sp as [|q sp IH]; [reflexivity|]. cbn [map filter]. destruct (q_id q =? pid)%nat eqn:X; cbn [q_id]; rewrite X; cbn [negb]; [exact IH|]. f_equal. exact IH.
Qed.

(** ** Histories *)
(** What happens to the mounted files, as seen by the user: a directory is mounted, single files are added and removed,
    the worker is told that something has changed (and finds the given trees below the mount points), a mount point
    disappears. *)
Inductive mop :=
| OMount (pid : nat) (path : list N) (es : list (list N * fsnode))
| OAdd (pid : nat) (name : list N) (dir : bool)
| ORemove (pid : nat) (name : list N)
| OSync (trees : list (nat * list (list N * fsnode)))
| OGone (pid : nat).
Definition done (r : mres) : outcome (option mnt) := Ok (match r with MDone s => Some s | _ => None end).
Definition tree_at (l : list (nat * list (list N * fsnode))) (pid : nat) : option (list (list N * fsnode)) := option_map snd (List.find (fun x => (fst x =? pid)%nat) l).
Definition mstep (cfg : mcfg) (s : mnt) (o : mop) : outcome (option mnt) :=
  match o with
  | OMount pid path es => obind (fly_mount cfg s pid path es) done
  | OAdd pid name dir => obind (insert_file s pid name dir) (fun s' => Ok (Some s'))
  | ORemove pid name =>
    match get_part s pid with
    | None => UB UseAfterFree
    | Some p => match List.find (fun f => bytes_eqb (f_name f) name) (p_files p) with
                | None => Ok (Some s)
                | Some f => obind (file_remove s pid (f_id f)) (fun s' => Ok (Some s'))
                end
    end
  | OSync l => obind (work_sync (tree_at l) (map fst l) s) done
  | OGone pid => obind (work_unmount s pid) done
  end.
Fixpoint mrun (cfg : mcfg) (s : mnt) (os : list mop) : outcome (option mnt) :=
  match os with
  | [] => Ok (Some s)
  | o :: t => obind (mstep cfg s o) (fun r => match r with Some s' => mrun cfg s' t | None => Ok None end)
  end.
(** What is then registered. *)
Definition in_tree (es : list (list N * fsnode)) (x : list N) : bool := existsb (fun e => bytes_eqb (fst e) x) (names_below [] (FDir es)).
Definition sync1 (sp : list smount) (x : nat * list (list N * fsnode)) : list smount :=
  on_mount (fst x) (fun fs => filter (fun e => in_tree (snd x) (fst e)) fs ++ filter (fun e => negb (existsb (fun g => bytes_eqb (fst g) (fst e)) fs)) (names_below [] (FDir (snd x)))) sp.
Definition sstep (sp : list smount) (o : mop) : list smount :=
  match o with
  | OMount pid path es => sp ++ [mkSm pid path (length sp) (names_below [] (FDir es))]
  | OAdd pid name dir => on_mount pid (fun fs => fs ++ [(name, dir)]) sp
  | ORemove pid name => on_mount pid (without name) sp
  | OSync l => fold_left sync1 l sp
  | OGone pid => filter (fun q => negb (q_id q =? pid)%nat) sp
  end.
Definition srun (sp : list smount) (os : list mop) : list smount := fold_left sstep os sp.
(** The histories: new mount points get new numbers and stay within the limits, the same relative name is never registered
    twice, the mount points that are looked at exist (and have no trailing slash), and one mount point always remains. *)
Fixpoint sync_legal (sp : list smount) (l : list (nat * list (list N * fsnode))) : Prop :=
  match l with
  | [] => True
  | (pid, es) :: t => (exists mp, at_path sp pid mp /\ no_trail mp) /\ fs_ok (FDir es) /\
      (forall x, In x (map fst (names_below [] (FDir es))) -> apart sp pid x) /\ sync_legal (sync1 sp (pid, es)) t
  end.
Definition mlegal (cfg : mcfg) (sp : list smount) (o : mop) : Prop :=
  match o with
  | OMount pid path es => ~ In pid (map q_id sp) /\ (length sp < c_mount_max cfg)%nat /\ fs_ok (FDir es) /\
      (forall x, In x (map fst (names_below [] (FDir es))) -> ~ In x (names sp)) /\
      (length (names sp) + length (names_below [] (FDir es)) <= c_file_max cfg)%nat
  | OAdd pid name dir => In pid (map q_id sp) /\ ~ In name (names sp)
  | ORemove pid name => In pid (map q_id sp)
  | OSync l => NoDup (map fst l) /\ sync_legal sp l
  | OGone pid => (exists mp, at_path sp pid mp /\ forall q, In q sp -> q_path q = mp -> q_id q = pid) /\ (1 < length sp)%nat
  end.
Fixpoint mlegal_all (cfg : mcfg) (sp : list smount) (os : list mop) : Prop :=
  match os with [] => True | o :: t => mlegal cfg sp o /\ mlegal_all cfg (sstep sp o) t end.

Lemma names_part sp q e : In q sp -> In e (q_files q) -> In (fst e) (names sp).
Proof. intros Q E. unfold names. apply in_map. apply in_flat_map. eauto. Qed.
Lemma sync1_ok s pid es mp : MInv s -> at_path (view s) pid mp -> no_trail mp -> fs_ok (FDir es) -> (forall x, In x (map fst (names_below [] (FDir es))) -> apart (view s) pid x) ->
  exists p, get_part s pid = Some p /\ p_path p = mp /\ exists s1 s2, work_add pid mp (FDir es) s mp = Ok s1 /\ work_del s1 pid (present_in es) = Ok s2 /\
    MInv s2 /\ view s2 = sync1 (view s) (pid, es).
Proof.
  intros M AT NT W AP. destruct (at_part _ _ _ M AT) as (p & G & PP). exists p. split; [exact G|]. split; [exact PP|].
    destruct (work_ok pid mp (FDir es) [] mp s eq_refl W Logic.I NT eq_refl M AT AP) as (s1 & E1 & M1 & V1 & C1). 
    assert (AT1 : at_path (view s1) pid mp) by (rewrite V1; apply at_on; exact AT).
    destruct (work_del_ok s1 pid (present_in es) mp M1 AT1) as (s2 & E2 & M2 & C2 & V2). exists s1, s2. split; [exact E1|]. split; [exact E2|]. split; [exact M2|].
    unfold sync1. cbn [fst snd]. rewrite V2, V1, on_on. apply on_ext. intros q Q Eq. rewrite filter_app. f_equal.
    unfold fresh_of.
    assert (K : forall e, In e (names_below [] (FDir es)) -> known (view s) (fst e) = existsb (fun g => bytes_eqb (fst g) (fst e)) (q_files q)).
    { intros e Ie. destruct (existsb (fun g => bytes_eqb (fst g) (fst e)) (q_files q)) eqn:X.
      - apply existsb_exists in X as (g & Ig & X). apply bytes_eqb_eq in X. apply known_in. rewrite <- X. eapply names_part; eassumption.
      - apply known_notin. intros Y. unfold names in Y. apply in_map_iff in Y as (g & E3 & Y). apply in_flat_map in Y as (q' & Q' & Y).
        destruct (Nat.eq_dec (q_id q') pid) as [Eid|NE].
        + rewrite (part_of_view s q' pid p M Q' Eid G) in Y. rewrite (part_of_view s q pid p M Q Eq G) in X.
          assert (X' : existsb (fun g0 => bytes_eqb (fst g0) (fst e)) (q_files (vpart p)) = true) by (apply existsb_exists; exists g; split; [exact Y|rewrite E3; apply bytes_eqb_refl]). congruence.
        + apply (AP (fst e) (in_map fst _ _ Ie) q' Q' NE). rewrite <- E3. apply in_map. exact Y. }
    assert (H : forall l, (forall e, In e l -> In e (names_below [] (FDir es))) ->
       filter (fun e => present_in es (fst e)) (filter (fun e => negb (known (view s) (fst e))) l) = filter (fun e => negb (existsb (fun g => bytes_eqb (fst g) (fst e)) (q_files q))) l).
    { induction l as [|e l IH]; intros H; [reflexivity|]. cbn [filter]. rewrite (K e (H e (or_introl eq_refl))). destruct (existsb (fun g => bytes_eqb (fst g) (fst e)) (q_files q)); cbn [negb filter].
      - apply IH. intros x X. apply H. right. exact X.
      - assert (P : present_in es (fst e) = true) by (unfold present_in; apply existsb_exists; exists e; split; [apply H; left; reflexivity|apply bytes_eqb_refl]).
        rewrite P. f_equal. apply IH. intros x X. apply H. right. exact X. }
    apply H. auto.
Qed.
Lemma sync_ok fs : forall l s, MInv s -> (forall pid es, In (pid, es) l -> fs pid = Some es) -> sync_legal (view s) l ->
  exists s', work_sync fs (map fst l) s = Ok (MDone s') /\ MInv s' /\ view s' = fold_left sync1 l (view s).
Proof.
  induction l as [|[pid es] l IH]; intros s M FS L; [exists s; auto|]. cbn [sync_legal] in L. destruct L as ((mp & AT & NT) & W & AP & L).
  destruct (sync1_ok s pid es mp M AT NT W AP) as (p & G & PP & s1 & s2 & E1 & E2 & M2 & V2). cbn [map fst work_sync]. rewrite G, (FS pid es (or_introl eq_refl)), PP, E1. cbn [obind]. rewrite E2. cbn [obind].
  rewrite <- V2 in L. destruct (IH s2 M2 (fun i e H => FS i e (or_intror H)) L) as (s' & E & M' & V). exists s'. split; [exact E|]. split; [exact M'|]. rewrite V, V2. reflexivity.
Qed.
Lemma mstep_ok cfg s o : MInv s -> mlegal cfg (view s) o -> exists s', mstep cfg s o = Ok (Some s') /\ MInv s' /\ view s' = sstep (view s) o.
Proof.
  intros M L. destruct o as [pid path es|pid name dir|pid name|l|pid]; cbn [mstep mlegal sstep] in *.
  - destruct L as (L1 & L2 & L3 & L4 & L5). destruct (mount_ok cfg s pid path es M L1 L2 L3 L4 L5) as (s' & E & M' & V). rewrite E. exists s'. auto.
  - destruct L as (L1 & L2). destruct (insert_ok s pid name dir M L1 L2) as (s' & E & M' & V & _). rewrite E. exists s'. auto.
  - destruct (get_part_some s pid L) as (p & G). rewrite G. destruct (List.find (fun f => bytes_eqb (f_name f) name) (p_files p)) as [f|] eqn:F.
    + apply find_some in F as (If & Ef). apply bytes_eqb_eq in Ef. destruct (remove_view s pid p f M G If) as (s' & E & M' & _ & V & _). rewrite E. exists s'. split; [reflexivity|]. split; [exact M'|]. rewrite V, Ef. reflexivity.
    + exists s. split; [reflexivity|]. split; [exact M|]. unfold on_mount. rewrite <- (map_id (view s)) at 1. apply map_ext_in. intros q Q.
      destruct (Nat.eqb_spec (q_id q) pid) as [E|_]; [|reflexivity]. rewrite (part_of_view s q pid p M Q E G). unfold vpart. cbn [q_id q_path q_num q_files]. f_equal.
      unfold without. symmetry. assert (H : forall e, In e (map vfile (p_files p)) -> negb (bytes_eqb (fst e) name) = true).
      { intros e He. apply in_map_iff in He as (f & <- & If). pose proof (find_none _ _ F f If) as X. cbv beta in X. cbn [vfile fst]. rewrite X. reflexivity. }
      revert H. generalize (map vfile (p_files p)) as l. induction l as [|e l IH]; intros H; [reflexivity|]. cbn [filter]. rewrite (H e (or_introl eq_refl)). f_equal. apply IH. intros x X. apply H. right. exact X.
  - destruct L as (ND & L). destruct (sync_ok (tree_at l) l s M) as (s' & E & M' & V); [|exact L|rewrite E; exists s'; auto].
    intros pid es I. unfold tree_at. clear - ND I. induction l as [|x l IH]; [destruct I|]. cbn [List.find]. inversion ND as [|? ? NI ND']; subst. destruct I as [->|I].
    + cbn [fst]. rewrite Nat.eqb_refl. reflexivity.
    + destruct (Nat.eqb_spec (fst x) pid) as [E|_]; [exfalso; apply NI; rewrite E; apply (in_map fst) in I; exact I|auto].
  - destruct L as ((mp & AT & U) & L). destruct (gone_ok s pid mp M AT U L) as (s' & E & M' & V). rewrite E. exists s'. auto.
Qed.
Lemma init_MInv : MInv mount_init.
Proof.
  destruct (init_inv (list N) pfile search_cmp (fun _ => None)) as (I & R). split; [|split; [|split; [|split; [|split; [|split]]]]].
  - split; [exact I|]. split; [exact R|]. intros a [].
  - constructor.
  - intros f [].
  - constructor.
  - intros p [].
  - reflexivity.
  - reflexivity.
Qed.
Lemma mrun_ok cfg : forall os s, MInv s -> mlegal_all cfg (view s) os -> exists s', mrun cfg s os = Ok (Some s') /\ MInv s' /\ view s' = srun (view s) os.
Proof.
  induction os as [|o os IH]; intros s M L; [exists s; auto|]. destruct L as (L1 & L2). destruct (mstep_ok cfg s o M L1) as (s1 & E & M1 & V1). cbn [mrun]. rewrite E. cbn [obind].
  rewrite <- V1 in L2. destruct (IH s1 M1 L2) as (s' & E' & M' & V'). exists s'. split; [exact E'|]. split; [exact M'|]. rewrite V', V1. reflexivity.
Qed.

(** ** Looking files up *)
Definition registered (sp : list smount) (name : list N) (dir : bool) : Prop := In (name, dir) (flat_map q_files sp).
Lemma registered_file s name dir : registered (view s) name dir <-> exists f, In f (all_files s) /\ f_name f = name /\ f_dir f = dir.
Proof.
  unfold registered, view, all_files. rewrite flat_view, in_map_iff. split.
  - intros (f & E & I). unfold vfile in E. exists f. split; [exact I|]. split; congruence.
  - intros (f & I & <- & <-). exists f. split; [reflexivity|exact I].
Qed.
Lemma registered_unique s name d1 d2 : MInv s -> registered (view s) name d1 -> registered (view s) name d2 -> d1 = d2.
Proof.
  intros M R1 R2. pose proof (view_names_nodup _ M) as ND. unfold names, registered in *. revert ND R1 R2. generalize (flat_map q_files (view s)) as l.
  induction l as [|[x d] l IH]; intros ND R1 R2; [destruct R1|]. cbn [map fst] in ND. inversion ND as [|? ? NI ND']; subst.
  destruct R1 as [R1|R1], R2 as [R2|R2]; [congruence| | |auto].
  - injection R1 as -> ->. exfalso. apply NI. change name with (fst (name, d2)). apply in_map. exact R2.
  - injection R2 as -> ->. exfalso. apply NI. change name with (fst (name, d1)). apply in_map. exact R1.
Qed.
Lemma skip_lead_spec k p rest : no_lead p -> (p = [] -> no_lead rest) -> skip_lead (repeat 47 k ++ p ++ rest) (k + length p) = (p ++ rest, length p).
Proof.
  intros NP NR. assert (NL : no_lead (p ++ rest)) by (destruct p as [|c p]; [apply NR; reflexivity|exact NP]). clear NP NR.
  generalize (length p) as len. revert NL. generalize (p ++ rest) as m. intros m NL len. induction k as [|k IH]; [|exact IH]. cbn [repeat app Nat.add].
  destruct m as [|c m]; [reflexivity|]. unfold no_lead in NL. cbn [skip_lead]. destruct c as [|c]; [reflexivity|]. do 6 (destruct c as [c|c|]; try reflexivity). contradiction.
Qed.
(** The name that a request path asks for. *)
Definition wanted (cfg : mcfg) (p : list N) : list N := match p with [] => c_index cfg | _ => p end.
Lemma static_spec cfg s m k p rest : MInv s -> no_lead p -> (p = [] -> no_lead rest) ->
  exists r, static_content cfg s m (repeat 47 k ++ p ++ rest) (k + length p) = Ok r /\
    match r with
    | SFile f => m = GET /\ f_name f = wanted cfg p /\ registered (view s) (wanted cfg p) false
    | S405 => m <> GET /\ (registered (view s) (wanted cfg p) false \/ registered (view s) (wanted cfg p) true)
    | S404 => ~ registered (view s) (wanted cfg p) false
    end.
Proof.
  intros M NP NR. unfold static_content, found_content. pose proof M as (RB & _ & _ & _ & _ & FC & _).
  destruct (Nat.eqb_spec (m_fcount s) 0) as [Z|Z].
  - exists S404. split; [reflexivity|]. intros R. apply registered_file in R as (f & If & _). rewrite FC in Z. apply length_zero_iff_nil in Z. rewrite Z in If. destruct If.
  - rewrite skip_lead_spec by assumption.
    assert (EK : exists fn n, (if (length p =? 0)%nat then (c_index cfg, length (c_index cfg)) else (p ++ rest, length p)) = (fn, n) /\ firstn n fn = wanted cfg p).
    { destruct p as [|c p]; cbn [length Nat.eqb wanted]; eexists; eexists; (split; [reflexivity|]); [apply firstn_all|].
      change (S (length p)) with (length (c :: p)). rewrite firstn_app, firstn_all, Nat.sub_diag. apply app_nil_r. }
    destruct EK as (fn & n & -> & ->). assert (NE : all_files s <> []) by (intros E; rewrite E in FC; cbn [length] in FC; lia).
    destruct (rb_look _ _ _ (wanted cfg p) RB NE) as (r & -> & H). cbn [obind]. destruct r as [[a q]|].
    + destruct H as (If & En). destruct (f_dir (pl_data q)) eqn:Dr.
      * assert (RT : registered (view s) (wanted cfg p) true) by (apply registered_file; exists (pl_data q); auto).
        destruct (rb_look _ _ _ (snpath fn (c_index cfg)) RB NE) as (r2 & -> & _). cbn [obind].
        assert (N4 : ~ registered (view s) (wanted cfg p) false) by (intros R; pose proof (registered_unique _ _ _ _ M R RT); discriminate).
        destruct r2; cbn [obind]; [|exists S404; auto]. rewrite Dr.
        destruct (method_eqb m GET) eqn:EM; [exists S404; auto|]. exists S405. split; [reflexivity|]. split; [|auto]. intros ->. discriminate.
      * cbn [obind]. rewrite Dr. assert (RF : registered (view s) (wanted cfg p) false) by (apply registered_file; exists (pl_data q); auto).
        destruct (method_eqb m GET) eqn:EM.
        -- exists (SFile (pl_data q)). split; [reflexivity|]. split; [|auto]. destruct m; try discriminate; reflexivity.
        -- exists S405. split; [reflexivity|]. split; [|auto]. intros ->. discriminate.
    + cbn [obind]. exists S404. split; [reflexivity|]. intros R. apply registered_file in R as (f & If & En & _). apply H. rewrite <- En. apply in_map. exact If.
Qed.

(** ** Counting *)
Lemma count_spec s n : MInv s -> files_count s n = option_map (fun q => length (q_files q)) (List.find (fun q => (q_num q =? n)%nat) (view s)).
Proof.
  intros (_ & _ & _ & _ & CN & _). unfold files_count, view. revert CN. generalize (m_parts s) as ps. induction ps as [|p ps IH]; intros CN; [reflexivity|]. cbn [List.find map vpart q_num].
  destruct (p_number p =? n)%nat; [|apply IH; intros q Q; apply CN; right; exact Q]. cbn [option_map vpart q_files]. f_equal. rewrite map_length. apply CN. left. reflexivity.
Qed.
Lemma number_spec s path : MInv s -> mount_number s path = option_map q_num (List.find (fun q => bytes_eqb (q_path q) path) (view s)).
Proof.
  intros (_ & _ & _ & _ & _ & _ & MC). unfold mount_number, view. rewrite MC. destruct (m_parts s) as [|p ps]; [reflexivity|]. cbn [length Nat.eqb].
  generalize (p :: ps) as l. induction l as [|q l IH]; [reflexivity|]. cbn [List.find map vpart q_path]. destruct (bytes_eqb (p_path q) path); [reflexivity|exact IH].
Qed.
Definition stays (o : mop) : Prop := match o with OGone _ => False | _ => True end.
Lemma on_nums pid g sp : map q_num (on_mount pid g sp) = map q_num sp.
Proof. unfold on_mount. rewrite map_map. apply map_ext. intros q. destruct (q_id q =? pid)%nat; reflexivity. Qed.
Lemma on_length pid g sp : length (on_mount pid g sp) = length sp.
Proof. apply map_length. Qed.
Lemma numbers_seq : forall os sp, Forall stays os -> map q_num sp = seq 0 (length sp) -> map q_num (srun sp os) = seq 0 (length (srun sp os)).
Proof.
  induction os as [|o os IH]; intros sp F H; [exact H|]. inversion F as [|? ? S F']; subst. cbn [srun fold_left]. apply IH; [exact F'|].
  destruct o as [pid path es|pid name dir|pid name|l|pid]; cbn [sstep stays] in *; [|rewrite on_nums, on_length; exact H|rewrite on_nums, on_length; exact H| |contradiction].
  2:{ clear - H. revert sp H. induction l as [|x l IHl]; intros sp H; [exact H|]. cbn [fold_left]. apply IHl. unfold sync1. rewrite on_nums, on_length. exact H. }
  rewrite map_app, app_length, seq_app, H. reflexivity.
Qed.

(** ** A watched directory disappears *)
Definition rm_loop (fuel' pid : nat) (pf : pfile) :=
  fix loop (n : nat) (s : mnt) (cur : option nat) {struct n} : outcome mnt :=
               match cur with
               | None => Ok s
               | Some id =>
                 match n with
                 | O => UB Diverges
                 | S n' =>
                   match get_part s pid with
                   | None => UB UseAfterFree
                   | Some p =>
                     match find_next id (p_files p) with
                     | None => UB UseAfterFree
                     | Some (f, next) =>
                       if negb (length (f_name pf) =? length (f_name f))%nat && strncmp_eqb (length (f_name pf)) (f_name f) (f_name pf) then
                         obind (rm_watch fuel' s pid f) (fun s' => loop n' s' next)
                       else loop n' s next
                     end
                   end
                 end
               end.
Definition head_id (fs : list pfile) : option nat := match fs with [] => None | f :: _ => Some (f_id f) end.
Lemma rm_watch_eq fuel' s pid pf : rm_watch (S fuel') s pid pf =
    match get_part s pid with
    | None => UB UseAfterFree
    | Some p =>
      if (p_count p =? 0)%nat then Ok s
      else
        obind
          (if f_dir pf then
             if existsb (N.eqb 47) (f_name pf) then UB Diverges
             else rm_loop fuel' pid pf (S (length (p_files p))) s (head_id (p_files p))
           else Ok s)
          (fun s' => file_remove s' pid (f_id pf))
    end.
Proof. reflexivity. Qed.
Lemma rm_loop_S fuel' pid pf n' s id : rm_loop fuel' pid pf (S n') s (Some id) =
                   match get_part s pid with
                   | None => UB UseAfterFree
                   | Some p =>
                     match find_next id (p_files p) with
                     | None => UB UseAfterFree
                     | Some (f, next) =>
                       if negb (length (f_name pf) =? length (f_name f))%nat && strncmp_eqb (length (f_name pf)) (f_name f) (f_name pf) then
                         obind (rm_watch fuel' s pid f) (fun s' => rm_loop fuel' pid pf n' s' next)
                       else rm_loop fuel' pid pf n' s next
                     end
                   end.
Proof. reflexivity. Qed.
Lemma rm_loop_nil fuel' pid pf n s : rm_loop fuel' pid pf n s None = Ok s.
Proof. destruct n; reflexivity. Qed.
Lemma find_next_mid A f B : NoDup (map f_id (A ++ f :: B)) -> find_next (f_id f) (A ++ f :: B) = Some (f, head_id B).
Proof.
  intros ND. rewrite map_app in ND. cbn [map] in ND. apply NoDup_remove_2 in ND. assert (NI : ~ In (f_id f) (map f_id A)) by (intros X; apply ND; apply in_or_app; auto). clear ND.
  induction A as [|g A IH]; cbn [app find_next]; [rewrite Nat.eqb_refl; destruct B; reflexivity|]. destruct (Nat.eqb_spec (f_id g) (f_id f)) as [E|_]; [exfalso; apply NI; left; exact E|].
  apply IH. intros X. apply NI. right. exact X.
Qed.
Definition strictly_below (d x : list N) : bool := negb (length d =? length x)%nat && is_prefix d x.
Lemma rm_file s pid p f fuel : MInv s -> get_part s pid = Some p -> In f (p_files p) -> f_dir f = false -> rm_watch (S fuel) s pid f = file_remove s pid (f_id f).
Proof.
  intros M G If Df. rewrite rm_watch_eq, G, Df. pose proof M as (_ & _ & _ & _ & CN & _). apply get_part_in in G as (Ip & _). rewrite (CN p Ip).
  destruct (p_files p); [destruct If|]. reflexivity.
Qed.
Lemma rm_loop_ok fuel pid pf : forall rest pre s p n, MInv s -> get_part s pid = Some p -> p_files p = pre ++ rest -> (length rest <= n)%nat ->
  (forall f, In f rest -> strictly_below (f_name pf) (f_name f) = true -> f_dir f = false) ->
  exists s', rm_loop (S fuel) pid pf n s (head_id rest) = Ok s' /\ MInv s' /\ m_count s' = m_count s /\
    view s' = on_mount pid (filter (fun e => negb (existsb (fun f => strictly_below (f_name pf) (f_name f) && bytes_eqb (fst e) (f_name f)) rest))) (view s) /\
    exists p', get_part s' pid = Some p' /\ p_files p' = pre ++ filter (fun f => negb (strictly_below (f_name pf) (f_name f))) rest.
Proof.
  induction rest as [|f rest IH]; intros pre s p n M G EF L FL.
  - cbn [head_id]. rewrite rm_loop_nil. exists s. split; [reflexivity|]. split; [exact M|]. split; [reflexivity|]. split.
    + unfold on_mount. rewrite <- (map_id (view s)) at 1. apply map_ext. intros [i q nn l]. cbn [q_id q_path q_num q_files existsb negb].
      destruct (i =? pid)%nat; [|reflexivity]. f_equal. induction l as [|x l IHl]; [reflexivity|]. cbn [filter]. rewrite <- IHl. reflexivity.
    + exists p. split; [exact G|exact EF].
  - cbn [length] in L. destruct n as [|n]; [lia|]. cbn [head_id]. rewrite rm_loop_S, G, EF. pose proof (get_part_in _ _ _ G) as (Ip & _). pose proof (NoDup_part_ids _ _ M Ip) as ND. rewrite EF in ND.
    rewrite find_next_mid by exact ND. rewrite strncmp_prefix. fold (strictly_below (f_name pf) (f_name f)). destruct (strictly_below (f_name pf) (f_name f)) eqn:SB.
    + assert (If : In f (p_files p)) by (rewrite EF; apply in_or_app; right; left; reflexivity).
      rewrite (rm_file s pid p f fuel M G If (FL f (or_introl eq_refl) SB)).
      destruct (remove_view s pid p f M G If) as (s1 & E1 & M1 & C1 & V1 & G1). rewrite E1. cbn [obind].
      assert (EF1 : p_files (mkPart (p_id p) (p_path p) (p_number p) (filter (fun g => negb (f_id g =? f_id f)%nat) (p_files p)) (pred (p_count p))) = pre ++ rest).
      { cbn [p_files]. rewrite EF. apply filter_one. exact ND. }
      destruct (IH pre s1 _ n M1 G1 EF1) as (s' & E & M' & C & V & p' & G' & EF'); [lia|intros g Ig; apply FL; right; exact Ig|].
      exists s'. split; [exact E|]. split; [exact M'|]. split; [congruence|]. split.
      * rewrite V, V1, on_on. apply on_ext. intros q _ _. unfold without. cbn [existsb]. rewrite SB. cbn [andb]. clear.
        induction (q_files q) as [|e l IHl]; [reflexivity|]. cbn [filter]. destruct (bytes_eqb (fst e) (f_name f)); cbn [negb orb filter]; rewrite IHl; reflexivity.
      * exists p'. split; [exact G'|]. rewrite EF'. cbn [filter]. rewrite SB. reflexivity.
    + assert (EF1 : p_files p = (pre ++ [f]) ++ rest) by (rewrite EF, <- app_assoc; reflexivity).
      destruct (IH (pre ++ [f]) s p n M G EF1) as (s' & E & M' & C & V & p' & G' & EF'); [lia|intros g Ig; apply FL; right; exact Ig|].
      exists s'. split; [exact E|]. split; [exact M'|]. split; [exact C|]. split.
      * rewrite V. apply on_ext. intros q _ _. apply filter_ext. intros e. cbn [existsb]. rewrite SB. reflexivity.
      * exists p'. split; [exact G'|]. rewrite EF', <- app_assoc. cbn [filter]. rewrite SB. reflexivity.
Qed.
Lemma rm_dir_ok fuel s pid p pf : MInv s -> get_part s pid = Some p -> In pf (p_files p) -> ~ In 47 (f_name pf) ->
  (forall f, In f (p_files p) -> strictly_below (f_name pf) (f_name f) = true -> f_dir f = false) ->
  f_dir pf = true ->
  exists s', rm_watch (S (S fuel)) s pid pf = Ok s' /\ MInv s' /\ m_count s' = m_count s /\
    view s' = on_mount pid (filter (fun e => negb (is_prefix (f_name pf) (fst e)))) (view s).
Proof.
  intros M G If NS FL Dr. rewrite rm_watch_eq, G, Dr. pose proof M as (_ & _ & _ & _ & CN & _). pose proof (get_part_in _ _ _ G) as (Ip & Ep). rewrite (CN p Ip).
  destruct (p_files p) as [|f0 fs0] eqn:EF; [destruct If|]. cbn [length Nat.eqb]. rewrite <- EF in *.
  assert (EX : existsb (N.eqb 47) (f_name pf) = false).
  { apply not_true. intros X. apply existsb_exists in X as (c & Ic & X). apply N.eqb_eq in X. subst c. contradiction. }
  rewrite EX. change (S (S (length fs0))) with (S (length (f0 :: fs0))). rewrite <- EF.
  destruct (rm_loop_ok fuel pid pf (p_files p) [] s p (S (length (p_files p))) M G eq_refl ltac:(lia) FL) as (s1 & E1 & M1 & C1 & V1 & p1 & G1 & EF1). rewrite E1. cbn [obind].
  assert (If1 : In pf (p_files p1)).
  { rewrite EF1. cbn [app]. apply filter_In. split; [exact If|]. unfold strictly_below. rewrite Nat.eqb_refl. reflexivity. }
  destruct (remove_view s1 pid p1 pf M1 G1 If1) as (s2 & E2 & M2 & C2 & V2 & _). exists s2. split; [exact E2|]. split; [exact M2|]. split; [congruence|].
  rewrite V2, V1, on_on. apply on_ext. intros q Q Eq. rewrite (part_of_view s q pid p M Q Eq G). cbn [vpart q_files]. unfold without.
  assert (H : forall l, (forall e, In e l -> In e (map vfile (p_files p))) ->
    filter (fun e => negb (bytes_eqb (fst e) (f_name pf))) (filter (fun e => negb (existsb (fun f => strictly_below (f_name pf) (f_name f) && bytes_eqb (fst e) (f_name f)) (p_files p))) l) =
    filter (fun e => negb (is_prefix (f_name pf) (fst e))) l).
  { induction l as [|e l IH]; intros H; [reflexivity|]. cbn [filter]. assert (Ie := H e (or_introl eq_refl)). assert (IH' := IH (fun x X => H x (or_intror X))). clear IH H.
    apply in_map_iff in Ie as (f & <- & Ie). cbn [vfile fst].
    assert (XE : existsb (fun f1 => strictly_below (f_name pf) (f_name f1) && bytes_eqb (f_name f) (f_name f1)) (p_files p) = strictly_below (f_name pf) (f_name f)).
    { destruct (strictly_below (f_name pf) (f_name f)) eqn:SB.
      - apply existsb_exists. exists f. split; [exact Ie|]. rewrite SB, bytes_eqb_refl. reflexivity.
      - apply not_true. intros X. apply existsb_exists in X as (g & _ & X). apply andb_true_iff in X as (X1 & X2). apply bytes_eqb_eq in X2. rewrite <- X2 in X1. congruence. }
    rewrite XE. unfold strictly_below. destruct (is_prefix (f_name pf) (f_name f)) eqn:PR.
    - destruct (Nat.eqb_spec (length (f_name pf)) (length (f_name f))) as [EL|NL]; cbn [negb andb]; [|exact IH'].
      cbn [filter fst vfile]. apply is_prefix_spec in PR as (r & PR). assert (r = []) by (rewrite PR, app_length in EL; destruct r; [reflexivity|cbn [length] in EL; lia]). subst r. rewrite app_nil_r in PR.
      rewrite PR, bytes_eqb_refl. cbn [negb]. exact IH'.
    - rewrite andb_false_r. cbn [negb filter fst vfile]. assert (NB : bytes_eqb (f_name f) (f_name pf) = false).
      { apply not_true. intros X. apply bytes_eqb_eq in X. rewrite X in PR. assert (P : is_prefix (f_name pf) (f_name pf) = true) by (apply is_prefix_spec; exists []; rewrite app_nil_r; reflexivity). congruence. }
      rewrite NB. cbn [negb]. f_equal. exact IH'. }
  apply H. auto.
Qed.

(** ** After a change notification *)
Lemma sync1_files es (fs : list (list N * bool)) : forall x,
  In x (map fst (filter (fun e => in_tree es (fst e)) fs ++ filter (fun e => negb (existsb (fun g => bytes_eqb (fst g) (fst e)) fs)) (names_below [] (FDir es)))) <->
  In x (map fst (names_below [] (FDir es))).
Proof.
  intros x. rewrite map_app, in_app_iff, !in_map_iff. split.
  - intros [(e & <- & I)|(e & <- & I)]; apply filter_In in I as (I & H); [|eauto]. unfold in_tree in H. apply existsb_exists in H as (g & Ig & H). apply bytes_eqb_eq in H. eauto.
  - intros (e & <- & I). destruct (existsb (fun g => bytes_eqb (fst g) (fst e)) fs) eqn:X.
    + left. apply existsb_exists in X as (g & Ig & X). apply bytes_eqb_eq in X. exists g. split; [exact X|]. apply filter_In. split; [exact Ig|]. unfold in_tree. apply existsb_exists. exists e. split; [exact I|].
      rewrite X. apply bytes_eqb_refl.
    + right. exists e. split; [reflexivity|]. apply filter_In. split; [exact I|]. rewrite X. reflexivity.
Qed.
Lemma sync_other : forall l sp pid q, ~ In pid (map fst l) -> q_id q = pid -> (In q (fold_left sync1 l sp) <-> In q sp).
Proof.
  induction l as [|[i es] l IH]; intros sp pid q NI E; [reflexivity|]. cbn [map fst] in NI. cbn [fold_left]. rewrite (IH _ pid q) by (auto; intros X; apply NI; right; exact X).
  unfold sync1, on_mount. cbn [fst snd]. rewrite in_map_iff. split.
  - intros (q' & E' & I). destruct (Nat.eqb_spec (q_id q') i) as [X|X]; [|congruence]. exfalso. apply NI. left. subst q. cbn [q_id] in E. cbn [fst]. congruence.
  - intros I. exists q. split; [|exact I]. destruct (Nat.eqb_spec (q_id q) i) as [X|X]; [|reflexivity]. exfalso. apply NI. left. cbn [fst]. congruence.
Qed.
Lemma sync_result : forall l sp pid es q, NoDup (map fst l) -> In (pid, es) l -> In q (fold_left sync1 l sp) -> q_id q = pid ->
  forall x, In x (map fst (q_files q)) <-> In x (map fst (names_below [] (FDir es))).
Proof.
  induction l as [|[i t] l IH]; intros sp pid es q ND I Q E x; [destruct I|]. cbn [map fst] in ND. inversion ND as [|? ? NI ND']; subst. cbn [fold_left] in Q. destruct I as [I|I].
  - injection I as -> ->. rewrite (sync_other l _ (q_id q) q NI eq_refl) in Q. unfold sync1, on_mount in Q. cbn [fst snd] in Q. apply in_map_iff in Q as (q' & E' & Q).
    destruct (Nat.eqb_spec (q_id q') (q_id q)) as [X|X]; [|subst q'; contradiction]. rewrite <- E'. cbn [q_files]. apply (sync1_files es (q_files q')).
  - eapply IH; [exact ND'|exact I|exact Q|reflexivity].
Qed.

(** ** Checking histories *)
Definition name_okb (n : list N) : bool := match n with [] => false | _ => forallb (fun c => negb (c =? 47) && negb (c =? 0)) n end.
Fixpoint nodupb (l : list (list N)) : bool := match l with [] => true | x :: t => negb (existsb (bytes_eqb x) t) && nodupb t end.
Fixpoint fs_okb (n : fsnode) : bool :=
  match n with
  | FFile => true
  | FDir es => nodupb (map fst es) && (fix go (es : list (list N * fsnode)) : bool := match es with [] => true | (x, c) :: t => name_okb x && fs_okb c && go t end) es
  end.
Lemma name_okb_ok n : name_okb n = true -> name_ok n.
Proof.
  unfold name_okb. destruct n as [|c n]; [discriminate|]. intros H. rewrite forallb_forall in H. split; [discriminate|]. split; intros I; apply H in I; discriminate.
Qed.
Lemma nodupb_ok l : nodupb l = true -> NoDup l.
Proof.
  induction l as [|x l IH]; intros H; [constructor|]. cbn [nodupb] in H. apply andb_true_iff in H as (H1 & H2). constructor; [|auto]. apply negb_true_iff in H1. intros I.
  assert (X : existsb (bytes_eqb x) l = true) by (apply existsb_exists; exists x; split; [exact I|apply bytes_eqb_refl]). congruence.
Qed.
Lemma fs_okb_ok : forall n, fs_okb n = true -> fs_ok n.
Proof.
  induction n as [|es IH] using fsnode_ind'; intros H; [constructor|]. cbn [fs_okb] in H. apply andb_true_iff in H as (H1 & H2). constructor; [|apply nodupb_ok; exact H1]. clear H1.
  induction es as [|[x c] t IHt]; [constructor|]. inversion IH as [|? ? P1 P2]; subst. apply andb_true_iff in H2 as (H2 & H3). apply andb_true_iff in H2 as (H2 & H4). constructor; [|auto].
  split; [apply name_okb_ok; exact H2|auto].
Qed.
Definition no_trailb (l : list N) : bool := match rev l with 47 :: _ => false | _ => true end.
Lemma no_trailb_ok l : no_trailb l = true -> no_trail l.
Proof.
  unfold no_trailb, no_trail. destruct (rev l) as [|c r]; [auto|]. destruct c as [|c]; [auto|]. do 6 (destruct c as [c|c|]; try (intros _; exact Logic.I)). discriminate.
Qed.
Definition memb (x : list N) (l : list (list N)) : bool := existsb (bytes_eqb x) l.
Lemma memb_not x l : memb x l = false -> ~ In x l.
Proof. intros H I. assert (X : memb x l = true) by (apply existsb_exists; exists x; split; [exact I|apply bytes_eqb_refl]). congruence. Qed.
Definition apartb (sp : list smount) (pid : nat) (x : list N) : bool := forallb (fun q => (q_id q =? pid)%nat || negb (memb x (map fst (q_files q)))) sp.
Lemma apartb_ok sp pid x : apartb sp pid x = true -> apart sp pid x.
Proof.
  intros H q Q NE. unfold apartb in H. rewrite forallb_forall in H. apply H in Q. apply orb_true_iff in Q as [Q|Q]; [apply Nat.eqb_eq in Q; contradiction|].
  apply negb_true_iff in Q. apply memb_not. exact Q.
Qed.
Fixpoint nnodupb (l : list nat) : bool := match l with [] => true | x :: t => negb (existsb (Nat.eqb x) t) && nnodupb t end.
Lemma nnodupb_ok l : nnodupb l = true -> NoDup l.
Proof.
  induction l as [|x l IH]; intros H; [constructor|]. cbn [nnodupb] in H. apply andb_true_iff in H as (H1 & H2). constructor; [|auto]. apply negb_true_iff in H1. intros I.
  assert (X : existsb (Nat.eqb x) l = true) by (apply existsb_exists; exists x; split; [exact I|apply Nat.eqb_refl]). congruence.
Qed.
Definition idb (pid : nat) (sp : list smount) : bool := existsb (fun q => (q_id q =? pid)%nat) sp.
Lemma idb_in pid sp : idb pid sp = true -> In pid (map q_id sp).
Proof. intros H. apply existsb_exists in H as (q & Q & E). apply Nat.eqb_eq in E. subst pid. apply in_map. exact Q. Qed.
Lemma idb_not pid sp : idb pid sp = false -> ~ In pid (map q_id sp).
Proof. intros H I. apply in_map_iff in I as (q & <- & Q). assert (X : idb (q_id q) sp = true) by (apply existsb_exists; exists q; split; [exact Q|apply Nat.eqb_refl]). congruence. Qed.
Fixpoint sync_legalb (sp : list smount) (l : list (nat * list (list N * fsnode))) : bool :=
  match l with
  | [] => true
  | (pid, es) :: t => existsb (fun q => (q_id q =? pid)%nat && no_trailb (q_path q)) sp && fs_okb (FDir es) &&
      forallb (apartb sp pid) (map fst (names_below [] (FDir es))) && sync_legalb (sync1 sp (pid, es)) t
  end.
Lemma sync_legalb_ok : forall l sp, sync_legalb sp l = true -> sync_legal sp l.
Proof.
  induction l as [|[pid es] l IH]; intros sp H; [exact Logic.I|]. cbn [sync_legalb] in H. apply andb_true_iff in H as (H & H4). apply andb_true_iff in H as (H & H3). apply andb_true_iff in H as (H1 & H2).
  apply existsb_exists in H1 as (q & Q & H1). apply andb_true_iff in H1 as (H0 & H1). apply Nat.eqb_eq in H0. cbn [sync_legal]. split; [|split; [|split]].
  - exists (q_path q). split; [exists q; auto|]. apply no_trailb_ok. exact H1.
  - apply fs_okb_ok. exact H2.
  - intros x X. rewrite forallb_forall in H3. apply apartb_ok. apply H3. exact X.
  - apply IH. exact H4.
Qed.
Definition mlegalb (cfg : mcfg) (sp : list smount) (o : mop) : bool :=
  match o with
  | OMount pid path es => negb (idb pid sp) && (length sp <? c_mount_max cfg)%nat && fs_okb (FDir es) &&
      forallb (fun x => negb (memb x (names sp))) (map fst (names_below [] (FDir es))) && (length (names sp) + length (names_below [] (FDir es)) <=? c_file_max cfg)%nat
  | OAdd pid name dir => idb pid sp && negb (memb name (names sp))
  | ORemove pid name => idb pid sp
  | OSync l => nnodupb (map fst l) && sync_legalb sp l
  | OGone pid => existsb (fun q => (q_id q =? pid)%nat && forallb (fun q' => negb (bytes_eqb (q_path q') (q_path q)) || (q_id q' =? pid)%nat) sp) sp && (1 <? length sp)%nat
  end.
Fixpoint mlegal_allb (cfg : mcfg) (sp : list smount) (os : list mop) : bool :=
  match os with [] => true | o :: t => mlegalb cfg sp o && mlegal_allb cfg (sstep sp o) t end.
Lemma mlegalb_ok cfg sp o : mlegalb cfg sp o = true -> mlegal cfg sp o.
Proof.
  destruct o as [pid path es|pid name dir|pid name|l|pid]; cbn [mlegalb mlegal]; intros H.
  - apply andb_true_iff in H as (H & H5). apply andb_true_iff in H as (H & H4). apply andb_true_iff in H as (H & H3). apply andb_true_iff in H as (H1 & H2).
    split; [apply idb_not; apply negb_true_iff; exact H1|]. split; [apply Nat.ltb_lt; exact H2|]. split; [apply fs_okb_ok; exact H3|]. split; [|apply Nat.leb_le; exact H5].
    intros x X. rewrite forallb_forall in H4. apply H4 in X. apply negb_true_iff in X. apply memb_not. exact X.
  - apply andb_true_iff in H as (H1 & H2). split; [apply idb_in; exact H1|]. apply memb_not. apply negb_true_iff. exact H2.
  - apply idb_in. exact H.
  - apply andb_true_iff in H as (H1 & H2). split; [apply nnodupb_ok; exact H1|apply sync_legalb_ok; exact H2].
  - apply andb_true_iff in H as (H1 & H2). split; [|apply Nat.ltb_lt; exact H2]. apply existsb_exists in H1 as (q & Q & H1). apply andb_true_iff in H1 as (H0 & H1). apply Nat.eqb_eq in H0.
    exists (q_path q). split; [exists q; auto|]. intros q' Q' E. rewrite forallb_forall in H1. apply H1 in Q'. rewrite E, bytes_eqb_refl in Q'. cbn [negb orb] in Q'. apply Nat.eqb_eq. exact Q'.
Qed.
Lemma mlegal_allb_ok cfg : forall os sp, mlegal_allb cfg sp os = true -> mlegal_all cfg sp os.
Proof.
  induction os as [|o os IH]; intros sp H; [exact Logic.I|]. cbn [mlegal_allb] in H. apply andb_true_iff in H as (H1 & H2). split; [apply mlegalb_ok; exact H1|apply IH; exact H2].
Qed.
