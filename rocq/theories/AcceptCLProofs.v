(** Proofs about AcceptCL.v. *)
From Verif Require Import Base CStr AcceptEncProofs AcceptCL.

(** ** Grammar of the values fly accepts.  Weights are those of AcceptEncProofs ("0", "0.ddd",
    "1", "1.000"); names are runs of visible characters other than comma and semicolon. *)
Definition namechar (c : N) : bool := ((33 <=? c) && (c <=? 126))%N && negb (c =? 44)%N && negb (c =? 59)%N.
Section Grammar.
Variable tab : bool.
Definition white (s : list N) : Prop := Forall (fun b => b = 32%N \/ tab = true /\ b = 9%N) s.
Inductive titem : list N -> list N * N -> Prop :=
| TName nm : nm <> [] -> Forall (fun b => namechar b = true) nm -> titem nm (nm, 1000%N)
| TWeight nm s1 s2 w : nm <> [] -> Forall (fun b => namechar b = true) nm -> white s1 -> white s2 -> weight_ok w ->
    titem (nm ++ s1 ++ bs ";" ++ s2 ++ bs "q=" ++ render_weight w) (nm, thousandths w).
(** A comma followed by commas and white space. *)
Definition tsep (s : list N) : Prop :=
  exists t, s = 44%N :: t /\ Forall (fun b => b = 44%N \/ b = 32%N \/ tab = true /\ b = 9%N) t.
Inductive tlist : list N -> list (list N * N) -> Prop :=
| TFirst x e : titem x e -> tlist x [e]
| TSnoc v l s x e : tlist v l -> tsep s -> titem x e -> tlist (v ++ s ++ x) (l ++ [e])
(** Quirk: a value that begins with a comma has an element with the empty name first. *)
| TComma : tlist [] [([], 1000%N)].
Definition tvalue (v : list N) (l : list (list N * N)) : Prop :=
  v <> [] /\ (tlist v l \/ exists a s, v = a ++ s /\ tlist a l /\ tsep s).
End Grammar.

(** ** Basic facts *)
Section Proofs.
Variables (tab : bool) (maxlen : nat).
Hypothesis Hmax : 0 < maxlen.
Notation step := (cl_step tab maxlen).
Notation run := (cl_run tab maxlen).
Notation space := (cl_space tab).

Lemma namechar_class b : namechar b = true <-> cl_tchar b && negb (cl_comma b) = true.
Proof. unfold namechar, cl_tchar, cl_comma. split; lia. Qed.
Lemma name_cpy_spec nm c rest n : Forall (fun b => namechar b = true) nm -> namechar c = false ->
  name_cpy n (nm ++ c :: rest) = if length nm <? n then Ok nm else UB OutOfBounds.
Proof.
  intros F Hc. revert n. induction F as [|b nm H F IH]; intros n; cbn [app name_cpy length].
  - destruct (cl_tchar c && negb (cl_comma c)) eqn:E; [apply namechar_class in E; congruence|]. destruct n; reflexivity.
  - apply namechar_class in H. rewrite H. destruct n as [|n]; [reflexivity|]. rewrite IH.
    change (S (length nm) <? S n) with (length nm <? n). destruct (length nm <? n); reflexivity.
Qed.
Lemma digits_of_spec ds c rest : Forall (fun b => is_digit b = true) ds -> is_digit c = false -> digits_of (ds ++ c :: rest) = ds.
Proof.
  intros F Hc. induction F as [|b ds H F IH]; cbn [app digits_of]; [rewrite Hc; reflexivity|]. rewrite H, IH. reflexivity.
Qed.
Lemma qvalue_spec w c rest : weight_ok w -> is_digit c = false -> c <> 46%N -> qvalue (Some (render_weight w ++ c :: rest)) = thousandths w.
Proof.
  intros W Hc Hp. destruct w as [ds|[|k]]; try reflexivity. destruct W as [L F].
  destruct ds as [|d ds].
  - cbn. destruct (N.eqb_spec c 46); [contradiction|]. destruct c as [|p]; [reflexivity|].
    do 6 (destruct p as [p|p|]; try reflexivity). congruence.
  - change (render_weight (WZero (d :: ds))) with (48%N :: 46%N :: (d :: ds)). cbn [app qvalue thousandths].
    pose proof (digits_of_spec (d :: ds) c rest F Hc) as X. cbn [app] in X. rewrite X. clear X.
    destruct ds as [|d2 [|d3 [|d4 ds]]]; [| | |cbn in L; lia]; cbn [length Nat.sub N.of_nat]; set (x := dec_value _); clearbody x.
    + change (10 ^ N.pos (Pos.of_succ_nat 0))%N with 10%N. change (10 ^ N.pos (Pos.of_succ_nat 1))%N with 100%N.
      replace (x * 1000)%N with (x * 100 * 10)%N by lia. apply N.div_mul. lia.
    + change (10 ^ N.pos (Pos.of_succ_nat 0))%N with 10%N. change (10 ^ N.pos (Pos.of_succ_nat 1))%N with 100%N.
      replace (x * 1000)%N with (x * 10 * 100)%N by lia. apply N.div_mul. lia.
    + change (10 ^ N.pos (Pos.of_succ_nat 2))%N with 1000%N. change (10 ^ 0)%N with 1%N. rewrite N.div_mul by lia. lia.
Qed.

(** ** Runs *)
Definition lrank (st : lstatus) (c : N) : nat :=
  match st with
  | L_END => 0 | L_ADDEND => if space c || cl_comma c || (c =? 0)%N then 1 else 7
  | L_ADD => if space c || cl_comma c || (c =? 0)%N then 2 else 8
  | L_COMMA => if space c || cl_comma c || (c =? 0)%N then 3 else 9
  | L_OWS1 => 4 | L_1DEC | L_0DEC => 4 | L_NAME => 5 | L_INIT => 6 | _ => 10
  end.
Definition lmeasure (s : lstate) : nat := 11 * length (l_ptr s) + match l_ptr s with [] => 0 | c :: _ => lrank (l_status s) c end.
Lemma lrank_le st c : lrank st c <= 10.
Proof. destruct st; cbn [lrank]; try destruct (_ || _); lia. Qed.
Lemma lstep_decreases s s' : step s = Ok (LNext s') -> lmeasure s' < lmeasure s.
Proof.
  unfold cl_step. destruct s as [st ptr name qv dec acc]. cbn [l_ptr l_status l_name l_qv l_dec l_acc].
  destruct ptr as [|c ptr]; [discriminate|]. cbn [tl].
  assert (ADV : forall st' n q dc, lmeasure (mkL st' ptr n q dc acc) < lmeasure (mkL st (c :: ptr) name qv dec acc)).
  { intros. unfold lmeasure. cbn [l_ptr length l_status]. destruct ptr as [|c2 ptr]; [cbn [length]; lia|]. pose proof (lrank_le st' c2). cbn [length]. lia. }
  assert (GO : forall st' nm q dc ac, lrank st' c < lrank st c -> lmeasure (mkL st' (c :: ptr) nm q dc ac) < lmeasure (mkL st (c :: ptr) name qv dec acc)).
  { intros. unfold lmeasure. cbn [l_ptr l_status]. lia. }
  destruct st; cbv zeta;
    try (repeat match goal with |- (if ?b then _ else _) = _ -> _ => let E := fresh "E" in destruct b eqn:E end;
         intros H; try discriminate H; injection H as <-; first [apply ADV | apply GO; cbn [lrank];
           repeat match goal with |- context [if ?b then _ else _] => let E := fresh "E" in destruct b eqn:E end; try lia];
           exfalso; clear -E E0 E1; unfold cl_space, cl_comma, cl_tchar in *; lia).
  - destruct name as [n|]; [|discriminate]. destruct (name_cpy maxlen n); [|discriminate]. cbn [obind]. intros H. injection H as <-. apply GO. cbn [lrank]. destruct (_ || _); lia.
Qed.
Lemma name_cpy_total n s : name_cpy n s <> UB Diverges.
Proof.
  revert n. induction s as [|b s IH]; intros n; cbn [name_cpy]; [discriminate|]. destruct (_ && _); destruct n; try discriminate.
  specialize (IH n). destruct (name_cpy n s); cbn [obind]; [discriminate|congruence].
Qed.
Lemma lrun_total : forall fuel s, lmeasure s < fuel -> run fuel s <> UB Diverges.
Proof.
  induction fuel as [|f IH]; intros s L; [lia|]. cbn [cl_run]. destruct (step s) as [[s'| |a]|u] eqn:E; cbn [obind]; try discriminate.
  - apply IH. apply lstep_decreases in E. lia.
  - intros H. injection H as ->. unfold cl_step in E. destruct (l_ptr s) as [|c p]; [discriminate|].
    destruct (l_status s); cbv zeta in E; try (repeat match type of E with (if ?b then _ else _) = _ => destruct b end; discriminate E).
    destruct (l_name s) as [n|]; [|discriminate]. pose proof (name_cpy_total maxlen n). destruct (name_cpy maxlen n); cbn [obind] in E; [discriminate|congruence].
Qed.
Lemma lrun_mono : forall f s r, run f s = r -> r <> UB Diverges -> forall g, f <= g -> run g s = r.
Proof.
  induction f as [|f IH]; intros s r H N g L; [cbn in H; congruence|]. destruct g as [|g]; [lia|].
  cbn [cl_run] in *. destruct (step s) as [[s'| |a]|u]; cbn [obind] in *; try assumption. apply (IH s' r H N). lia.
Qed.
Definition lreach (s s' : lstate) : Prop := exists n, forall f, run (n + f) s = run f s'.
Lemma lreach_refl s : lreach s s. Proof. exists 0. reflexivity. Qed.
Lemma lreach_trans b a c : lreach a b -> lreach b c -> lreach a c.
Proof. intros [n H] [m K]. exists (n + m). intros f. rewrite <- Nat.add_assoc, H. apply K. Qed.
Lemma lreach_step s s' : step s = Ok (LNext s') -> lreach s s'.
Proof. intros H. exists 1. intros f. cbn [plus cl_run]. rewrite H. reflexivity. Qed.
Lemma lreach_result s r f : run f s = r -> r <> UB Diverges -> forall g, lmeasure s < g -> run g s = r.
Proof.
  intros K N g L. destruct (le_lt_dec f g) as [Hl|Hl]; [apply (lrun_mono f); assumption|].
  pose proof (lrun_total g s L) as T. rewrite <- K. symmetry. apply (lrun_mono g); [reflexivity|exact T|lia].
Qed.

(** ** From the grammar to success *)
Ltac conc := apply lreach_step; reflexivity.
Lemma namechar_steps b : namechar b = true -> cl_comma b = false /\ (b =? 0)%N = false /\ (b =? 59)%N = false /\ space b = false /\ cl_tchar b = true.
Proof. unfold namechar, cl_comma, cl_space, cl_tchar. intros. repeat split; lia. Qed.
Lemma lreach_name nm rest n q d a : Forall (fun b => namechar b = true) nm -> lreach (mkL L_NAME (nm ++ rest) n q d a) (mkL L_NAME rest n q d a).
Proof.
  intros F. induction F as [|b nm H F IH]; [apply lreach_refl|]. cbn [app]. destruct (namechar_steps b H) as (A & B & C & D & E).
  eapply lreach_trans; [|exact IH]. apply lreach_step. unfold cl_step. cbn [l_ptr l_status]. rewrite A, B, C, D, E. reflexivity.
Qed.
Lemma white_space b : b = 32%N \/ tab = true /\ b = 9%N -> space b = true.
Proof. unfold cl_space. intros [->|[-> ->]]; reflexivity. Qed.
Lemma lreach_ows st (Hst : st = L_OWS1 \/ st = L_OWS2) s rest n q d a : white tab s -> lreach (mkL st (s ++ rest) n q d a) (mkL st rest n q d a).
Proof.
  intros F. induction F as [|b s H F IH]; [apply lreach_refl|]. cbn [app]. eapply lreach_trans; [|exact IH]. apply lreach_step.
  pose proof (white_space b H) as W. unfold cl_step. cbn [l_ptr l_status]. rewrite W. destruct Hst as [->| ->]; reflexivity.
Qed.
Lemma lreach_sep t rest n q d a : Forall (fun b => b = 44%N \/ b = 32%N \/ tab = true /\ b = 9%N) t ->
  lreach (mkL L_ADDEND (t ++ rest) n q d a) (mkL L_ADDEND rest n q d a).
Proof.
  intros F. induction F as [|b s H F IH]; [apply lreach_refl|]. cbn [app]. eapply lreach_trans; [|exact IH]. apply lreach_step.
  unfold cl_step. cbn [l_ptr l_status]. replace (space b || cl_comma b) with true; [reflexivity|]. symmetry.
  destruct H as [->|H]; [apply orb_true_r|]. rewrite (white_space b H). reflexivity.
Qed.
Lemma lreach_digits ds rest n q d a : Forall (fun b => is_digit b = true) ds -> d + length ds <= 3 ->
  lreach (mkL L_0DEC (ds ++ rest) n q d a) (mkL L_0DEC rest n q (d + length ds) a).
Proof.
  intros F. revert d. induction F as [|b s H F IH]; intros d L; cbn [app length] in *; [rewrite Nat.add_0_r; apply lreach_refl|].
  replace (d + S (length s)) with (S d + length s) by lia. eapply lreach_trans; [|apply IH; lia]. apply lreach_step.
  unfold cl_step. cbn [l_ptr l_status l_dec]. rewrite H. replace (d <? 3) with true by (symmetry; apply Nat.ltb_lt; lia). reflexivity.
Qed.
Lemma lreach_zeros k rest n q d a : d + k <= 3 -> lreach (mkL L_1DEC (repeat 48%N k ++ rest) n q d a) (mkL L_1DEC rest n q (d + k) a).
Proof.
  revert d. induction k as [|k IH]; intros d L; cbn [app repeat] in *; [rewrite Nat.add_0_r; apply lreach_refl|].
  replace (d + S k) with (S d + k) by lia. eapply lreach_trans; [|apply IH; lia]. apply lreach_step.
  unfold cl_step. cbn [l_ptr l_status l_dec]. replace (d <? 3) with true by (symmetry; apply Nat.ltb_lt; lia). reflexivity.
Qed.
Definition lfin (e : N) : lstatus := if (e =? 0)%N then L_ADD else L_COMMA.
Lemma lreach_weight w e rest n q a : weight_ok w -> follow e ->
  exists d', lreach (mkL L_EQ (render_weight w ++ e :: rest) n q 0 a) (mkL (lfin e) (e :: rest) n (Some (render_weight w ++ e :: rest)) d' a).
Proof.
  intros W Fo.
  assert (END : forall st d q, (st = L_0INT \/ st = L_1INT \/ st = L_0DEC \/ st = L_1DEC) -> lreach (mkL st (e :: rest) n q d a) (mkL (lfin e) (e :: rest) n q d a)).
  { intros st d q0 Hst. apply lreach_step. destruct Fo as [->| ->]; destruct Hst as [->|[->|[->| ->]]]; reflexivity. }
  destruct w as [ds|k].
  - destruct W as [L F]. destruct ds as [|x ds].
    + exists 0. eapply lreach_trans; [conc|]. cbn [l_ptr tl]. apply END. auto.
    + exists (0 + length (x :: ds)). eapply lreach_trans; [conc|]. eapply lreach_trans; [conc|].
      cbn [l_ptr l_name l_qv l_dec l_acc]. change (tl (tl (render_weight (WZero (x :: ds)) ++ e :: rest))) with ((x :: ds) ++ e :: rest).
      eapply lreach_trans. { apply lreach_step. unfold cl_step. cbn [l_ptr l_status app]. inversion F as [|? ? Hx ?]; subst. rewrite Hx. cbn [l_name l_qv l_dec l_acc]. reflexivity. }
      eapply lreach_trans; [apply (lreach_digits (x :: ds) (e :: rest)); [exact F|cbn [length] in *; lia]|]. apply END. auto.
  - destruct k as [|k].
    + exists 0. eapply lreach_trans; [conc|]. cbn [l_ptr tl]. apply END. auto.
    + exists (0 + S k). eapply lreach_trans; [conc|]. eapply lreach_trans; [conc|].
      cbn [l_ptr l_name l_qv l_dec l_acc]. change (tl (tl (render_weight (WOne (S k)) ++ e :: rest))) with (repeat 48%N (S k) ++ e :: rest).
      eapply lreach_trans; [conc|]. cbn [l_ptr l_name l_qv l_dec l_acc].
      eapply lreach_trans; [apply (lreach_zeros (S k) (e :: rest)); cbn in W; lia|]. apply END. auto.
Qed.
(** Reading one element and adding it. *)
Lemma lreach_add nm c0 r0 e rest q d a qv : follow e -> Forall (fun b => namechar b = true) nm -> length nm < maxlen -> namechar c0 = false -> qvalue q = qv ->
  lreach (mkL (lfin e) (e :: rest) (Some (nm ++ c0 :: r0)) q d a) (mkL L_ADDEND (e :: rest) (Some (nm ++ c0 :: r0)) q d (a ++ [(nm, qv)])).
Proof.
  intros Fo F L Hc Hq.
  assert (A : lreach (mkL L_ADD (e :: rest) (Some (nm ++ c0 :: r0)) q d a) (mkL L_ADDEND (e :: rest) (Some (nm ++ c0 :: r0)) q d (a ++ [(nm, qv)]))).
  { apply lreach_step. unfold cl_step. cbn [l_ptr l_status l_name]. rewrite (name_cpy_spec nm c0 r0 maxlen F Hc).
    apply Nat.ltb_lt in L. rewrite L. cbn [obind l_qv]. rewrite Hq. reflexivity. }
  destruct Fo as [->| ->]; [exact A|]. eapply lreach_trans; [conc|exact A].
Qed.
Lemma lreach_item x el e rest n q d a : titem tab x el -> length (fst el) < maxlen -> follow e ->
  exists n' q' d', lreach (mkL L_INIT (x ++ e :: rest) n q d a) (mkL L_ADDEND (e :: rest) n' q' d' (a ++ [el])).
Proof.
  intros T L Fo.
  assert (INIT : forall b nm tail, Forall (fun b => namechar b = true) (b :: nm) ->
     lreach (mkL L_INIT ((b :: nm) ++ tail) n q d a) (mkL L_NAME tail (Some ((b :: nm) ++ tail)) None 0 a)).
  { intros b nm tail F. inversion F as [|? ? Hb F']; subst. destruct (namechar_steps b Hb) as (A & B & C & D & E).
    apply lreach_trans with (b := mkL L_NAME ((b :: nm) ++ tail) (Some ((b :: nm) ++ tail)) None 0 a).
    - apply lreach_step. unfold cl_step. cbn [l_ptr l_status app]. rewrite E. reflexivity.
    - apply lreach_name. exact F. }
  assert (Ne : namechar e = false) by (destruct Fo as [->| ->]; reflexivity).
  destruct T as [nm Nn F|nm s1 s2 w Nn F W1 W2 W]; cbn [fst] in L; (destruct nm as [|b nm]; [contradiction|]).
  - do 3 eexists. eapply lreach_trans; [apply INIT; exact F|].
    apply lreach_trans with (b := mkL (lfin e) (e :: rest) (Some ((b :: nm) ++ e :: rest)) None 0 a); [apply lreach_step; destruct Fo as [->| ->]; reflexivity|].
    apply lreach_add; auto.
  - rewrite <- !app_assoc.
    set (tl1 := s1 ++ bs ";" ++ s2 ++ bs "q=" ++ render_weight w ++ e :: rest).
    assert (HT : exists c0 r0, tl1 = c0 :: r0 /\ namechar c0 = false).
    { unfold tl1. destruct s1 as [|x s1]; [eexists _, _; split; reflexivity|]. inversion W1 as [|? ? Hx ?]; subst. eexists _, _. split; [reflexivity|].
      destruct Hx as [->|[_ ->]]; reflexivity. }
    destruct (lreach_weight w e rest (Some ((b :: nm) ++ tl1)) None a W Fo) as (d' & R).
    exists (Some ((b :: nm) ++ tl1)), (Some (render_weight w ++ e :: rest)), d'.
    eapply lreach_trans; [apply INIT; exact F|].
    assert (SC : lreach (mkL L_NAME tl1 (Some ((b :: nm) ++ tl1)) None 0 a) (mkL L_SEMI (s2 ++ bs "q=" ++ render_weight w ++ e :: rest) (Some ((b :: nm) ++ tl1)) None 0 a)).
    { set (nmp := Some ((b :: nm) ++ tl1)). unfold tl1. clearbody nmp. destruct s1 as [|x s1]; [conc|].
      apply lreach_trans with (b := mkL L_OWS1 ((x :: s1) ++ bs ";" ++ s2 ++ bs "q=" ++ render_weight w ++ e :: rest) nmp None 0 a).
      - apply lreach_step. unfold cl_step. cbn [l_ptr l_status app]. inversion W1 as [|? ? Hx ?]; subst. rewrite (white_space x Hx).
        destruct Hx as [->|[_ ->]]; reflexivity.
      - eapply lreach_trans; [apply lreach_ows; [auto|exact W1]|]. conc. }
    eapply lreach_trans; [exact SC|].
    assert (QQ : lreach (mkL L_SEMI (s2 ++ bs "q=" ++ render_weight w ++ e :: rest) (Some ((b :: nm) ++ tl1)) None 0 a) (mkL L_EQ (render_weight w ++ e :: rest) (Some ((b :: nm) ++ tl1)) None 0 a)).
    { generalize (Some ((b :: nm) ++ tl1)). intros nmp. destruct s2 as [|x s2]; [eapply lreach_trans; [conc|conc]|].
      apply lreach_trans with (b := mkL L_OWS2 (s2 ++ bs "q=" ++ render_weight w ++ e :: rest) nmp None 0 a).
      - apply lreach_step. unfold cl_step. cbn [l_ptr l_status app]. inversion W2 as [|? ? Hx ?]; subst. rewrite (white_space x Hx). reflexivity.
      - eapply lreach_trans; [apply lreach_ows; [auto|inversion W2; assumption]|]. eapply lreach_trans; [conc|conc]. }
    eapply lreach_trans; [exact QQ|]. eapply lreach_trans; [exact R|].
    destruct HT as (c0 & r0 & -> & Hc0). apply lreach_add; auto. apply qvalue_spec; auto; destruct Fo as [->| ->]; (reflexivity || discriminate).
Qed.
Lemma titem_head x el : titem tab x el -> exists b t, x = b :: t /\ namechar b = true.
Proof.
  intros [nm N F|nm s1 s2 w N F _ _ _]; (destruct nm as [|b nm]; [contradiction|]); inversion F; subst; eexists _, _; (split; [reflexivity|assumption]).
Qed.
Lemma lreach_list v l : tlist tab v l -> Forall (fun el => length (fst el) < maxlen) l -> forall e rest, follow e -> (v = [] -> e = 44%N) ->
  exists n' q' d', lreach (mkL L_INIT (v ++ e :: rest) None None 0 []) (mkL L_ADDEND (e :: rest) n' q' d' l).
Proof.
  induction 1 as [x el T|v l s x el TL IH S T|]; intros FL e rest Fo Hv.
  - inversion FL; subst. exact (lreach_item x el e rest None None 0 [] T H1 Fo).
  - apply Forall_app in FL as [FL1 FL2]. destruct S as (t & -> & Ft).
    destruct (IH FL1 44%N (t ++ x ++ e :: rest) (or_intror eq_refl) (fun _ => eq_refl)) as (n1 & q1 & d1 & R1).
    inversion FL2 as [|? ? Hl _]; subst. destruct (lreach_item x el e rest n1 q1 d1 l T Hl Fo) as (n2 & q2 & d2 & R2).
    exists n2, q2, d2.
    replace ((v ++ (44%N :: t) ++ x) ++ e :: rest) with (v ++ 44%N :: t ++ x ++ e :: rest) by (repeat (rewrite <- app_assoc; cbn [app]); reflexivity).
    eapply lreach_trans; [exact R1|]. eapply lreach_trans; [apply (lreach_sep (44%N :: t)); constructor; auto|].
    eapply lreach_trans; [|exact R2].
    destruct (titem_head x el T) as (b & u & -> & Hb). destruct (namechar_steps b Hb) as (A & B & C & D & E).
    apply lreach_step. unfold cl_step. cbn [l_ptr l_status app]. rewrite A, B, D. reflexivity.
  - rewrite (Hv eq_refl). exists (Some (44%N :: rest)), None, 0. cbn [app]. eapply lreach_trans; [conc|]. eapply lreach_trans; [conc|].
    cbn [l_ptr l_name l_qv l_dec l_acc]. change L_COMMA with (lfin 44).
    apply (lreach_add [] 44%N rest 44%N rest None 0 [] 1000%N); auto. right; reflexivity.
Qed.
Lemma cl_success v l : tvalue tab v l -> Forall (fun el => length (fst el) < maxlen) l -> cl_parse tab maxlen v = Ok (ClSuccess l).
Proof.
  intros (Nv & H) F. unfold cl_parse.
  assert (K : exists n q d, lreach (mkL L_INIT (v ++ [0%N]) None None 0 []) (mkL L_ADDEND [0%N] n q d l)).
  { destruct H as [T|(a & s & -> & T & (t & -> & Ft))].
    - apply (lreach_list v l T F); [left; reflexivity|intros; contradiction].
    - destruct (lreach_list a l T F 44%N (t ++ [0%N]) (or_intror eq_refl) (fun _ => eq_refl)) as (n & q & d & R).
      exists n, q, d. rewrite <- app_assoc. cbn [app]. eapply lreach_trans; [exact R|]. apply (lreach_sep (44%N :: t)). constructor; auto. }
  destruct K as (n & q & d & [m K]).
  eapply (lreach_result _ _ (m + 2)); [rewrite K; reflexivity|discriminate|].
  unfold lmeasure. cbn [l_ptr l_status]. rewrite app_length. cbn [length]. destruct (v ++ [0%N]) as [|c r]; [lia|]. pose proof (lrank_le L_INIT c). lia.
Qed.
Lemma cl_total v : cl_parse tab maxlen v <> UB Diverges.
Proof.
  unfold cl_parse. apply lrun_total. unfold lmeasure. cbn [l_ptr l_status]. rewrite app_length. cbn [length]. destruct (v ++ [0%N]) as [|c r]; [lia|]. pose proof (lrank_le L_INIT c). lia.
Qed.

(** ** From success to the grammar *)
Section Converse.
Variable v : list N.
Hypothesis Hv : no_nul v.
(** Every run of name characters fits. *)
Definition short : Prop := forall a nm b, v = a ++ nm ++ b -> Forall (fun b => namechar b = true) nm -> length nm < maxlen.
Definition hd_is (P : N -> Prop) (p : list N) : Prop := exists c t, p = c :: t /\ P c.
Definition start (pre : list N) (acc : list (list N * N)) (p : list N) : Prop :=
  (pre = [] /\ acc = []) \/ (exists a sp, tlist tab a acc /\ tsep tab sp /\ pre = a ++ sp /\ hd_is (fun c => c <> 44%N) p).
Definition nm_ok (nm : list N) : Prop := nm <> [] /\ Forall (fun b => namechar b = true) nm.
(** In an element after its name: [mid] is what follows the name up to the pointer. *)
Definition in_item (P : list N -> Prop) (pre : list N) (s : lstate) : Prop :=
  exists p0 nm mid, pre = p0 ++ nm ++ mid /\ nm_ok nm /\ P mid /\ l_name s = Some (nm ++ mid ++ l_ptr s) /\ hd_is (fun c => namechar c = false) (mid ++ l_ptr s) /\ start p0 (l_acc s) (nm ++ mid ++ l_ptr s).
Definition semi s1 s2 := s1 ++ bs ";" ++ s2.
Definition wsemi (m : list N) : Prop := exists s1 s2, m = semi s1 s2 /\ white tab s1 /\ white tab s2.
(** The same with the text [t] of the quality value read so far. *)
Definition in_q (P : list N -> nat -> Prop) (pre : list N) (s : lstate) : Prop :=
  exists t, P t (l_dec s) /\ l_qv s = Some (t ++ l_ptr s) /\ in_item (fun m => exists m0, wsemi m0 /\ m = m0 ++ bs "q=" ++ t) pre s.
Definition inv (s : lstate) : Prop :=
  l_ptr s <> [] /\ Forall (fun el => length (fst el) < maxlen) (l_acc s) /\ exists pre, v ++ [0%N] = pre ++ l_ptr s /\
  match l_status s with
  | L_INIT => start pre (l_acc s) (l_ptr s)
  | L_NAME => exists p0 nm, pre = p0 ++ nm /\ Forall (fun b => namechar b = true) nm /\ l_name s = Some (nm ++ l_ptr s) /\ l_qv s = None /\ l_dec s = 0 /\
      start p0 (l_acc s) (nm ++ l_ptr s) /\ (nm = [] -> hd_is (fun c => cl_tchar c = true) (l_ptr s))
  | L_OWS1 => l_dec s = 0 /\ in_item (white tab) pre s
  | L_SEMI => l_dec s = 0 /\ in_item (fun m => exists s1, m = semi s1 [] /\ white tab s1) pre s
  | L_OWS2 => l_dec s = 0 /\ in_item wsemi pre s
  | L_Q => l_dec s = 0 /\ in_item (fun m => exists m0, wsemi m0 /\ m = m0 ++ bs "q") pre s
  | L_EQ => l_dec s = 0 /\ in_item (fun m => exists m0, wsemi m0 /\ m = m0 ++ bs "q=") pre s
  | L_1INT => l_dec s = 0 /\ in_q (fun t _ => t = bs "1") pre s
  | L_1PT => l_dec s = 0 /\ in_q (fun t _ => t = bs "1.") pre s
  | L_1DEC => in_q (fun t d => t = bs "1." ++ repeat 48%N d /\ d <= 3) pre s /\ (l_dec s = 0 -> hd_is (fun c => c = 48%N) (l_ptr s))
  | L_0INT => l_dec s = 0 /\ in_q (fun t _ => t = bs "0") pre s
  | L_0PT => l_dec s = 0 /\ in_q (fun t _ => t = bs "0.") pre s
  | L_0DEC => in_q (fun t d => exists ds, t = bs "0." ++ ds /\ length ds = d /\ d <= 3 /\ Forall (fun b => is_digit b = true) ds) pre s /\ (l_dec s = 0 -> hd_is (fun c => is_digit c = true) (l_ptr s))
  | L_COMMA | L_ADD => exists p0 x e, pre = p0 ++ x /\ start p0 (l_acc s) (x ++ l_ptr s) /\ (titem tab x e \/ x = [] /\ p0 = [] /\ e = ([], 1000%N)) /\
      hd_is (fun c => follow c /\ (x = [] -> c = 44%N)) (l_ptr s) /\
      (exists c r, l_name s = Some (fst e ++ c :: r) /\ namechar c = false /\ Forall (fun b => namechar b = true) (fst e)) /\ qvalue (l_qv s) = snd e /\
      (exists a b, v = a ++ fst e ++ b)
  | L_ADDEND => exists a sp, tlist tab a (l_acc s) /\ (sp = [] /\ hd_is (fun c => follow c /\ (a = [] -> c = 44%N)) (l_ptr s) \/ tsep tab sp) /\ pre = a ++ sp
  | L_END => exists a sp, tlist tab a (l_acc s) /\ (sp = [] \/ tsep tab sp) /\ pre = a ++ sp /\ pre <> [] /\ hd_is (fun c => c = 0%N) (l_ptr s)
  end.
Lemma adv pre c t : v ++ [0%N] = pre ++ c :: t -> c <> 0%N -> t <> [] /\ v ++ [0%N] = (pre ++ [c]) ++ t.
Proof.
  intros E N. split; [|rewrite <- app_assoc; exact E]. intros ->. apply app_inj_tail in E as [_ E]. congruence.
Qed.
Lemma at_nul pre t : v ++ [0%N] = pre ++ 0%N :: t -> t = [] /\ pre = v.
Proof.
  intros E. destruct (@exists_last _ (0%N :: t)) as (l & x & El); [discriminate|]. rewrite El, app_assoc in E. apply app_inj_tail in E as [E _].
  destruct l as [|y l]; [cbn in El; assert (t = []) by congruence; rewrite app_nil_r in E; auto|]. exfalso. assert (y = 0%N) by (cbn in El; congruence). subst y.
  unfold no_nul in Hv. rewrite Forall_forall in Hv. apply (Hv 0%N); [|reflexivity]. rewrite E. apply in_or_app. right. left. reflexivity.
Qed.
Lemma in_v pre p nm a b : v ++ [0%N] = pre ++ p -> pre = a ++ nm ++ b -> p <> [] -> exists b', v = a ++ nm ++ b'.
Proof.
  intros E -> N. destruct (@exists_last _ p N) as (l & x & ->). rewrite app_assoc in E. apply app_inj_tail in E as [E _].
  exists (b ++ l). rewrite E, <- !app_assoc. reflexivity.
Qed.
Lemma tlist_weight p0 acc p nm m0 w : start p0 acc p -> nm_ok nm -> wsemi m0 -> weight_ok w -> titem tab (nm ++ m0 ++ bs "q=" ++ render_weight w) (nm, thousandths w).
Proof.
  intros _ [N F] (s1 & s2 & -> & W1 & W2) W. unfold semi. rewrite <- !app_assoc. constructor; assumption.
Qed.
(** Leaving a weight at a comma or the end. *)
Lemma leave_q P pre s c t w : in_q P pre s -> l_ptr s = c :: t -> follow c -> weight_ok w -> (forall x, P x (l_dec s) -> x = render_weight w) ->
  v ++ [0%N] = pre ++ l_ptr s ->
  exists p0 x e, pre = p0 ++ x /\ start p0 (l_acc s) (x ++ l_ptr s) /\ (titem tab x e \/ x = [] /\ p0 = [] /\ e = ([], 1000%N)) /\
      hd_is (fun c => follow c /\ (x = [] -> c = 44%N)) (l_ptr s) /\
      (exists c r, l_name s = Some (fst e ++ c :: r) /\ namechar c = false /\ Forall (fun b => namechar b = true) (fst e)) /\ qvalue (l_qv s) = snd e /\
      (exists a b, v = a ++ fst e ++ b).
Proof.
  intros (x & Hx & Q & (p0 & nm & mid & -> & Nm & (m0 & Hm & ->) & En & Hd & St)) Ep Fo W Hw E. rewrite (Hw x Hx) in *. clear Hw Hx x.
  exists p0, (nm ++ m0 ++ bs "q=" ++ render_weight w), (nm, thousandths w). cbn [fst snd]. split; [reflexivity|].
  split; [repeat (rewrite <- app_assoc in *; cbn [app] in * ); exact St|]. split; [left; eapply tlist_weight; eassumption|].
  split. { exists c, t. split; [exact Ep|]. split; [exact Fo|]. destruct Nm as [Nm _]. destruct nm; [contradiction|discriminate]. }
  split. { destruct Hd as (c0 & r & Hd & Nc). exists c0, r. rewrite En, Hd. destruct Nm. auto. }
  split. { rewrite Q, Ep. apply qvalue_spec; auto; destruct Fo as [->| ->]; (reflexivity || discriminate). }
  exists p0. eapply in_v with (p := l_ptr s); [exact E|reflexivity|rewrite Ep; discriminate].
Qed.
(** Reading one more character inside an element. *)
Lemma in_item_adv (P P' : list N -> Prop) pre st st' c t n q d a d' q' : (forall m, P m -> P' (m ++ [c])) ->
  in_item P pre (mkL st (c :: t) n q d a) -> in_item P' (pre ++ [c]) (mkL st' t n q' d' a).
Proof.
  intros HP (p0 & nm & mid & -> & Nm & Hm & En & Hd & St). cbn [l_ptr l_name l_acc] in *. exists p0, nm, (mid ++ [c]). cbn [l_ptr l_name l_acc].
  rewrite <- !app_assoc. cbn [app]. auto 10.
Qed.
Lemma in_q_adv (P P' : list N -> nat -> Prop) pre st st' c t n q d a d' : (forall x, P x d -> P' (x ++ [c]) d') ->
  in_q P pre (mkL st (c :: t) n q d a) -> in_q P' (pre ++ [c]) (mkL st' t n q d' a).
Proof.
  intros HP (x & Hx & Q & I). cbn [l_dec l_qv l_ptr] in *. exists (x ++ [c]). cbn [l_dec l_qv l_ptr]. split; [auto|]. split; [rewrite Q, <- app_assoc; reflexivity|].
  eapply in_item_adv; [|exact I]. intros m (m0 & Hm & ->). exists m0. split; [exact Hm|]. rewrite <- !app_assoc. reflexivity.
Qed.
Lemma white_snoc s c : white tab s -> space c = true -> white tab (s ++ [c]).
Proof.
  intros W H. apply Forall_app. split; [exact W|]. constructor; [|constructor]. unfold cl_space in H. destruct (N.eqb_spec c 32); [auto|]. destruct (N.eqb_spec c 9); [|discriminate].
  destruct tab; [auto|discriminate].
Qed.
Lemma space_not_name c : space c = true -> namechar c = false.
Proof. unfold cl_space, namechar. lia. Qed.
Lemma wsemi_snoc m c : wsemi m -> space c = true -> wsemi (m ++ [c]).
Proof.
  intros (s1 & s2 & -> & W1 & W2) S. exists s1, (s2 ++ [c]). unfold semi. rewrite <- !app_assoc. auto using white_snoc.
Qed.
Lemma step_inv s : inv s ->
  match step s with
  | Ok (LNext s') => inv s'
  | Ok LError => True
  | Ok (LSuccess l) => tvalue tab v l /\ Forall (fun el => length (fst el) < maxlen) l
  | UB _ => ~ short
  end.
Proof.
  destruct s as [st ptr n q d a]. intros (Np & Fa & pre & Ev & I). cbn [l_ptr l_status l_name l_qv l_dec l_acc] in *.
  destruct ptr as [|c t]; [contradiction|]. unfold cl_step. cbn [l_ptr l_status l_name l_qv l_dec l_acc tl].
  assert (ADV : c <> 0%N -> t <> [] /\ v ++ [0%N] = (pre ++ [c]) ++ t) by (intros; eapply adv; eassumption).
  destruct st; cbv zeta.
  - (* INIT *)
    destruct (cl_tchar c) eqn:T; [|exact I0 || exact Logic.I].
    repeat split; auto; cbn [l_ptr]; try discriminate. exists pre. split; [exact Ev|]. cbn [l_status l_name l_qv l_dec l_acc].
    exists pre, []. rewrite app_nil_r. split; [reflexivity|]. split; [constructor|]. split; [reflexivity|]. split; [reflexivity|]. split; [reflexivity|]. split; [exact I|].
    intros _. exists c, t. auto.
  - (* NAME *)
    destruct I as (p0 & nm & -> & Fn & En & Eq & Ed & St & Hnm).
    assert (Hne : cl_tchar c = false -> nm <> []). { intros T ->. destruct (Hnm eq_refl) as (c' & t' & E & T'). injection E as <- <-. congruence. }
    destruct (cl_comma c) eqn:C; [|destruct (N.eqb_spec c 0) as [Z|Z]; [|destruct (N.eqb_spec c 59) as [S|S]; [|destruct (space c) eqn:Sp; [|destruct (cl_tchar c) eqn:T; [|exact Logic.I]]]]].
    + apply N.eqb_eq in C. subst c. repeat split; auto; cbn [l_ptr]; try discriminate. exists (p0 ++ nm). split; [exact Ev|]. cbn [l_status l_name l_qv l_dec l_acc].
      exists p0, nm, (nm, 1000%N). cbn [fst snd]. split; [reflexivity|]. split; [exact St|].
      split. { destruct nm as [|b nm]; [|left; constructor; [discriminate|exact Fn]]. right. split; [reflexivity|].
        destruct St as [[-> _]|(a' & sp & _ & _ & _ & (c' & t' & E & Nc))]; [auto|]. injection E as <- <-. congruence. }
      split. { exists 44%N, t. split; [reflexivity|]. split; [right; reflexivity|auto]. }
      split. { exists 44%N, t. auto. } split; [rewrite Eq; reflexivity|].
      exists p0. eapply (in_v _ _ nm p0 []); [exact Ev|rewrite app_nil_r; reflexivity|discriminate].
    + subst c. repeat split; auto; cbn [l_ptr]; try discriminate. exists (p0 ++ nm). split; [exact Ev|]. cbn [l_status l_name l_qv l_dec l_acc].
      exists p0, nm, (nm, 1000%N). cbn [fst snd]. split; [reflexivity|]. split; [exact St|].
      split. { left. constructor; [apply Hne; reflexivity|exact Fn]. }
      split. { exists 0%N, t. split; [reflexivity|]. split; [left; reflexivity|intros; exfalso; apply Hne; auto]. }
      split. { exists 0%N, t. auto. } split; [rewrite Eq; reflexivity|].
      exists p0. eapply (in_v _ _ nm p0 []); [exact Ev|rewrite app_nil_r; reflexivity|discriminate].
    + subst c. destruct (ADV Z) as [Nt Et]. split; [exact Nt|]. split; [exact Fa|]. exists ((p0 ++ nm) ++ [59%N]). split; [exact Et|]. cbn [l_status l_name l_qv l_dec l_acc].
      split; [exact Ed|]. exists p0, nm, (semi [] []). cbn [l_ptr l_name l_acc]. split; [rewrite <- app_assoc; reflexivity|].
      split; [split; [apply Hne; reflexivity|exact Fn]|]. split; [exists []; split; [reflexivity|constructor]|]. split; [exact En|]. split; [exists 59%N, t; auto|exact St].
    + repeat split; auto; cbn [l_ptr]; try discriminate. exists (p0 ++ nm). split; [exact Ev|]. cbn [l_status l_name l_qv l_dec l_acc].
      split; [exact Ed|]. exists p0, nm, []. cbn [l_ptr l_name l_acc app]. split; [rewrite app_nil_r; reflexivity|]. pose proof (space_not_name c Sp) as Sn.
      split; [split; [apply Hne|exact Fn]|]. { unfold cl_space, cl_tchar in *. lia. }
      split; [constructor|]. split; [exact En|]. split; [exists c, t; auto|exact St].
    + destruct (ADV Z) as [Nt Et]. split; [exact Nt|]. split; [exact Fa|]. exists ((p0 ++ nm) ++ [c]). split; [exact Et|]. cbn [l_status l_name l_qv l_dec l_acc l_ptr].
      exists p0, (nm ++ [c]). split; [rewrite <- app_assoc; reflexivity|].
      split. { apply Forall_app. split; [exact Fn|]. constructor; [|constructor]. apply namechar_class. rewrite T, C. reflexivity. }
      rewrite <- !app_assoc. cbn [app]. split; [exact En|]. split; [exact Eq|]. split; [exact Ed|]. split; [exact St|]. intros X. destruct nm; discriminate.
  - (* OWS1 *)
    destruct I as [Ed I]. destruct (space c) eqn:Sp; [|destruct (N.eqb_spec c 59) as [S|S]; [|exact Logic.I]].
    + destruct ADV as [Nt Et]; [intros ->; discriminate|]. split; [exact Nt|]. split; [exact Fa|]. exists (pre ++ [c]). split; [exact Et|]. cbn [l_status l_dec]. split; [exact Ed|].
      eapply in_item_adv; [|exact I]. intros m Hm. now apply white_snoc.
    + subst c. destruct ADV as [Nt Et]; [discriminate|]. split; [exact Nt|]. split; [exact Fa|]. exists (pre ++ [59%N]). split; [exact Et|]. cbn [l_status l_dec]. split; [exact Ed|].
      eapply in_item_adv; [|exact I]. intros m Hm. exists m. split; [reflexivity|exact Hm].
  - (* SEMI *)
    destruct I as [Ed I]. destruct (space c) eqn:Sp; [|destruct (N.eqb_spec c 113) as [S|S]; [|exact Logic.I]].
    + destruct ADV as [Nt Et]; [intros ->; discriminate|]. split; [exact Nt|]. split; [exact Fa|]. exists (pre ++ [c]). split; [exact Et|]. cbn [l_status l_dec]. split; [exact Ed|].
      eapply in_item_adv; [|exact I]. intros m (s1 & -> & W). apply wsemi_snoc; [|exact Sp]. exists s1, []. split; [reflexivity|]. split; [exact W|constructor].
    + subst c. destruct ADV as [Nt Et]; [discriminate|]. split; [exact Nt|]. split; [exact Fa|]. exists (pre ++ [113%N]). split; [exact Et|]. cbn [l_status l_dec]. split; [exact Ed|].
      eapply in_item_adv; [|exact I]. intros m (s1 & -> & W). exists (semi s1 []). split; [|reflexivity]. exists s1, []. split; [reflexivity|]. split; [exact W|constructor].
  - (* OWS2 *)
    destruct I as [Ed I]. destruct (space c) eqn:Sp; [|destruct (N.eqb_spec c 113) as [S|S]; [|exact Logic.I]].
    + destruct ADV as [Nt Et]; [intros ->; discriminate|]. split; [exact Nt|]. split; [exact Fa|]. exists (pre ++ [c]). split; [exact Et|]. cbn [l_status l_dec]. split; [exact Ed|].
      eapply in_item_adv; [|exact I]. intros m Hm. now apply wsemi_snoc.
    + subst c. destruct ADV as [Nt Et]; [discriminate|]. split; [exact Nt|]. split; [exact Fa|]. exists (pre ++ [113%N]). split; [exact Et|]. cbn [l_status l_dec]. split; [exact Ed|].
      eapply in_item_adv; [|exact I]. intros m Hm. exists m. split; [exact Hm|reflexivity].
  - (* Q *)
    destruct I as [Ed I]. destruct (N.eqb_spec c 61) as [S|S]; [|exact Logic.I].
    subst c. destruct ADV as [Nt Et]; [discriminate|]. split; [exact Nt|]. split; [exact Fa|]. exists (pre ++ [61%N]). split; [exact Et|]. cbn [l_status l_dec]. split; [exact Ed|].
    eapply in_item_adv; [|exact I]. intros m (m0 & Hm & ->). exists m0. split; [exact Hm|]. rewrite <- app_assoc. reflexivity.
  - (* EQ *)
    destruct I as [Ed I]. destruct (N.eqb_spec c 49) as [S|S]; [|destruct (N.eqb_spec c 48) as [S'|S']; [|exact Logic.I]]; subst c.
    + destruct ADV as [Nt Et]; [discriminate|]. split; [exact Nt|]. split; [exact Fa|]. exists (pre ++ [49%N]). split; [exact Et|]. cbn [l_status l_dec]. split; [exact Ed|].
      exists (bs "1"). split; [reflexivity|]. split; [reflexivity|]. eapply in_item_adv; [|exact I]. intros m (m0 & Hm & ->). exists m0. split; [exact Hm|]. rewrite <- !app_assoc. reflexivity.
    + destruct ADV as [Nt Et]; [discriminate|]. split; [exact Nt|]. split; [exact Fa|]. exists (pre ++ [48%N]). split; [exact Et|]. cbn [l_status l_dec]. split; [exact Ed|].
      exists (bs "0"). split; [reflexivity|]. split; [reflexivity|]. eapply in_item_adv; [|exact I]. intros m (m0 & Hm & ->). exists m0. split; [exact Hm|]. rewrite <- !app_assoc. reflexivity.
  - (* 1INT *)
    destruct I as [Ed I]. destruct (N.eqb_spec c 46) as [S|S]; [|destruct (cl_comma c) eqn:C; [|destruct (N.eqb_spec c 0) as [Z|Z]; [|exact Logic.I]]].
    + subst c. destruct ADV as [Nt Et]; [discriminate|]. split; [exact Nt|]. split; [exact Fa|]. exists (pre ++ [46%N]). split; [exact Et|]. cbn [l_status l_dec]. split; [exact Ed|].
      eapply in_q_adv; [|exact I]. intros x ->. reflexivity.
    + apply N.eqb_eq in C. subst c. split; [exact Np|]. split; [exact Fa|]. exists pre. split; [exact Ev|]. cbn [l_status].
      eapply (leave_q _ pre (mkL L_COMMA (44%N :: t) n q d a) 44%N t (WOne 0)); [exact I|reflexivity|right; reflexivity|cbn; lia|intros x ->; reflexivity|exact Ev].
    + subst c. split; [exact Np|]. split; [exact Fa|]. exists pre. split; [exact Ev|]. cbn [l_status].
      eapply (leave_q _ pre (mkL L_ADD (0%N :: t) n q d a) 0%N t (WOne 0)); [exact I|reflexivity|left; reflexivity|cbn; lia|intros x ->; reflexivity|exact Ev].
  - (* 1PT *)
    destruct I as [Ed I]. destruct (N.eqb_spec c 48) as [S|S]; [|exact Logic.I]. subst c. split; [exact Np|]. split; [exact Fa|]. exists pre. split; [exact Ev|].
    cbn [l_status l_dec l_ptr]. split; [|intros _; exists 48%N, t; auto]. destruct I as (x & -> & Q & I). exists (bs "1."). cbn [l_dec] in *. subst d. split; [split; [reflexivity|lia]|]. split; [exact Q|exact I].
  - (* 1DEC *)
    destruct I as [I Hd]. destruct ((c =? 48)%N && (d <? 3)) eqn:S; [|destruct (cl_comma c) eqn:C; [|destruct (N.eqb_spec c 0) as [Z|Z]; [|exact Logic.I]]].
    + apply andb_true_iff in S as [S S2]. apply N.eqb_eq in S. apply Nat.ltb_lt in S2. subst c. destruct ADV as [Nt Et]; [discriminate|]. split; [exact Nt|]. split; [exact Fa|]. exists (pre ++ [48%N]). split; [exact Et|].
      cbn [l_status l_dec]. split; [|discriminate]. eapply in_q_adv; [|exact I]. intros x [-> L]. split; [|lia]. rewrite <- app_assoc. f_equal. change (repeat 48%N (S d)) with (repeat 48%N (1 + d)). rewrite Nat.add_comm, repeat_app. reflexivity.
    + apply N.eqb_eq in C. subst c. split; [exact Np|]. split; [exact Fa|]. exists pre. split; [exact Ev|]. cbn [l_status].
      destruct I as (x & [Ex Lx] & I). cbn [l_dec] in Ex, Lx.
      assert (Nd : d <> 0). { intros ->. destruct (Hd eq_refl) as (c' & t' & E & ->). discriminate. }
      eapply (leave_q (fun x _ => x = bs "1." ++ repeat 48%N d) pre (mkL L_COMMA (44%N :: t) n q d a) 44%N t (WOne d)); [exists x; split; [exact Ex|exact I]|reflexivity|right; reflexivity|exact Lx|intros y ->; destruct d; [lia|reflexivity]|exact Ev].
    + subst c. split; [exact Np|]. split; [exact Fa|]. exists pre. split; [exact Ev|]. cbn [l_status].
      destruct I as (x & [Ex Lx] & I). cbn [l_dec] in Ex, Lx.
      assert (Nd : d <> 0). { intros ->. destruct (Hd eq_refl) as (c' & t' & E & ->). discriminate. }
      eapply (leave_q (fun x _ => x = bs "1." ++ repeat 48%N d) pre (mkL L_ADD (0%N :: t) n q d a) 0%N t (WOne d)); [exists x; split; [exact Ex|exact I]|reflexivity|left; reflexivity|exact Lx|intros y ->; destruct d; [lia|reflexivity]|exact Ev].
  - (* 0INT *)
    destruct I as [Ed I]. destruct (N.eqb_spec c 46) as [S|S]; [|destruct (cl_comma c) eqn:C; [|destruct (N.eqb_spec c 0) as [Z|Z]; [|exact Logic.I]]].
    + subst c. destruct ADV as [Nt Et]; [discriminate|]. split; [exact Nt|]. split; [exact Fa|]. exists (pre ++ [46%N]). split; [exact Et|]. cbn [l_status l_dec]. split; [exact Ed|].
      eapply in_q_adv; [|exact I]. intros x ->. reflexivity.
    + apply N.eqb_eq in C. subst c. split; [exact Np|]. split; [exact Fa|]. exists pre. split; [exact Ev|]. cbn [l_status].
      eapply (leave_q _ pre (mkL L_COMMA (44%N :: t) n q d a) 44%N t (WZero [])); [exact I|reflexivity|right; reflexivity|split; [cbn; lia|constructor]|intros x ->; reflexivity|exact Ev].
    + subst c. split; [exact Np|]. split; [exact Fa|]. exists pre. split; [exact Ev|]. cbn [l_status].
      eapply (leave_q _ pre (mkL L_ADD (0%N :: t) n q d a) 0%N t (WZero [])); [exact I|reflexivity|left; reflexivity|split; [cbn; lia|constructor]|intros x ->; reflexivity|exact Ev].
  - (* 0PT *)
    destruct I as [Ed I]. destruct (is_digit c) eqn:S; [|exact Logic.I]. split; [exact Np|]. split; [exact Fa|]. exists pre. split; [exact Ev|].
    cbn [l_status l_dec l_ptr]. split; [|intros _; exists c, t; auto]. destruct I as (x & -> & Q & I). exists (bs "0."). cbn [l_dec] in *. subst d. split; [exists []; repeat split; auto|]. split; [exact Q|exact I].
  - (* 0DEC *)
    destruct I as [I Hd]. destruct (is_digit c && (d <? 3)) eqn:S; [|destruct (cl_comma c) eqn:C; [|destruct (N.eqb_spec c 0) as [Z|Z]; [|exact Logic.I]]].
    + apply andb_true_iff in S as [S S2]. apply Nat.ltb_lt in S2. destruct ADV as [Nt Et]; [intros ->; discriminate|]. split; [exact Nt|]. split; [exact Fa|]. exists (pre ++ [c]). split; [exact Et|].
      cbn [l_status l_dec]. split; [|discriminate]. eapply in_q_adv; [|exact I]. intros x (ds & -> & Ld & L & Fd). exists (ds ++ [c]). rewrite <- app_assoc. split; [reflexivity|]. rewrite app_length. cbn [length]. split; [lia|]. split; [lia|].
      apply Forall_app. split; [exact Fd|]. constructor; [exact S|constructor].
    + apply N.eqb_eq in C. subst c. split; [exact Np|]. split; [exact Fa|]. exists pre. split; [exact Ev|]. cbn [l_status].
      destruct I as (x & (ds & Ex & Ld & Lx & Fd) & I). cbn [l_dec] in Ld, Lx.
      assert (Nd : d <> 0). { intros ->. destruct (Hd eq_refl) as (c' & t' & E & D). injection E as <- <-. discriminate. }
      eapply (leave_q (fun x _ => x = bs "0." ++ ds) pre (mkL L_COMMA (44%N :: t) n q d a) 44%N t (WZero ds)); [exists x; split; [exact Ex|exact I]|reflexivity|right; reflexivity|split; [lia|exact Fd]|intros y ->; destruct ds; [cbn in Ld; lia|reflexivity]|exact Ev].
    + subst c. split; [exact Np|]. split; [exact Fa|]. exists pre. split; [exact Ev|]. cbn [l_status].
      destruct I as (x & (ds & Ex & Ld & Lx & Fd) & I). cbn [l_dec] in Ld, Lx.
      assert (Nd : d <> 0). { intros ->. destruct (Hd eq_refl) as (c' & t' & E & D). injection E as <- <-. discriminate. }
      eapply (leave_q (fun x _ => x = bs "0." ++ ds) pre (mkL L_ADD (0%N :: t) n q d a) 0%N t (WZero ds)); [exists x; split; [exact Ex|exact I]|reflexivity|left; reflexivity|split; [lia|exact Fd]|intros y ->; destruct ds; [cbn in Ld; lia|reflexivity]|exact Ev].
  - (* COMMA *)
    split; [exact Np|]. split; [exact Fa|]. exists pre. split; [exact Ev|exact I].
  - (* ADD *)
    destruct I as (p0 & x & e & -> & St & Hx & Hh & (c0 & r & En & Nc & Fn) & Hq & (a0 & b0 & Hab)). rewrite En. rewrite (name_cpy_spec (fst e) c0 r maxlen Fn Nc).
    destruct (Nat.ltb_spec (length (fst e)) maxlen) as [L|L]; cbn [obind].
    + split; [exact Np|]. split; [apply Forall_app; split; [exact Fa|constructor; [exact L|constructor]]|]. exists (p0 ++ x). split; [exact Ev|]. cbn [l_status l_acc l_ptr].
      rewrite Hq. assert (Ee : (fst e, snd e) = e) by (destruct e; reflexivity). rewrite Ee.
      exists (p0 ++ x), []. rewrite app_nil_r. destruct Hh as (c' & t' & Ec & Fc & Hc). injection Ec as <- <-.
      destruct St as [[-> ->]|(a' & sp & TL & TS & -> & Hh')].
      * cbn [app]. split; [|split; [left; split; [reflexivity|exists c, t; auto]|reflexivity]]. destruct Hx as [Hx|(-> & _ & ->)]; constructor; assumption.
      * destruct Hx as [Hx|(-> & Hp & _)].
        -- split; [rewrite <- app_assoc; econstructor; eassumption|]. split; [left; split; [reflexivity|exists c, t; split; [reflexivity|split; [exact Fc|]]]|reflexivity].
           intros Hn. exfalso. destruct TS as (u & -> & _). destruct a'; discriminate.
        -- exfalso. destruct TS as (u & -> & _). destruct a'; discriminate.
    + intros Sh. specialize (Sh a0 (fst e) b0 Hab Fn). lia.
  - (* ADDEND *)
    destruct I as (a' & sp & TL & Hs & ->). destruct (space c || cl_comma c) eqn:S; [|destruct (N.eqb_spec c 0) as [Z|Z]].
    + destruct ADV as [Nt Et]; [intros ->; discriminate|]. split; [exact Nt|]. split; [exact Fa|]. exists ((a' ++ sp) ++ [c]). split; [exact Et|]. cbn [l_status l_acc l_ptr].
      exists a', (sp ++ [c]). split; [exact TL|]. split; [|rewrite <- app_assoc; reflexivity]. right.
      destruct Hs as [(-> & (c' & t' & Ec & Fc & Hc))|(u & -> & Fu)].
      * injection Ec as <- <-. destruct Fc as [->| ->]; [discriminate|]. exists []. auto.
      * exists (u ++ [c]). split; [reflexivity|]. apply Forall_app. split; [exact Fu|]. constructor; [|constructor].
        apply orb_true_iff in S as [S|S]; [right|left; now apply N.eqb_eq].
        pose proof (white_snoc [] c (Forall_nil _) S) as W. inversion W; assumption.
    + subst c. split; [exact Np|]. split; [exact Fa|]. exists (a' ++ sp). split; [exact Ev|]. cbn [l_status l_acc l_ptr]. exists a', sp. split; [exact TL|].
      assert (Hn : a' ++ sp <> []).
      { destruct Hs as [(-> & (c' & t' & Ec & Fc & Hc))|(u & -> & Fu)]; [|destruct a'; discriminate]. injection Ec as <- <-. rewrite app_nil_r. intros ->. specialize (Hc eq_refl). discriminate. }
      destruct Hs as [(-> & _)|Hs]; repeat split; auto; exists 0%N, t; auto.
    + split; [exact Np|]. split; [exact Fa|]. exists (a' ++ sp). split; [exact Ev|]. cbn [l_status l_acc l_ptr]. right. exists a', sp. split; [exact TL|].
      destruct Hs as [(-> & (c' & t' & Ec & Fc & Hc))|Hs].
      * exfalso. injection Ec as <- <-. destruct Fc as [->| ->]; [congruence|]. rewrite orb_true_r in S. discriminate.
      * split; [exact Hs|]. split; [reflexivity|]. exists c, t. split; [reflexivity|]. intros ->. rewrite orb_true_r in S. discriminate.
  - (* END *)
    destruct I as (a' & sp & TL & Hs & -> & Hn & (c' & t' & Ec & ->)). injection Ec as -> ->. apply at_nul in Ev as [_ Ev]. rewrite <- Ev. split; [|exact Fa]. split; [exact Hn|].
    destruct Hs as [->|Hs]; [left; rewrite app_nil_r; exact TL|right; exists a', sp; auto].
Qed.
Lemma run_inv : forall f s, inv s ->
  match run f s with
  | Ok (ClSuccess l) => tvalue tab v l /\ Forall (fun el => length (fst el) < maxlen) l
  | Ok ClError => True
  | UB Diverges => True
  | UB _ => ~ short
  end.
Proof.
  induction f as [|f IH]; intros s I; [exact Logic.I|]. cbn [cl_run]. pose proof (step_inv s I) as S. destruct (step s) as [[s'| |l]|u]; cbn [obind]; [apply IH; exact S|exact Logic.I|exact S|].
  destruct u; auto.
Qed.
Lemma init_inv : inv (mkL L_INIT (v ++ [0%N]) None None 0 []).
Proof.
  split; [cbn; destruct v; discriminate|]. split; [constructor|]. exists []. split; [reflexivity|]. left. auto.
Qed.
End Converse.
Lemma cl_exact v l : no_nul v -> (cl_parse tab maxlen v = Ok (ClSuccess l) <-> tvalue tab v l /\ Forall (fun el => length (fst el) < maxlen) l).
Proof.
  intros Hv. split.
  - intros E. unfold cl_parse in E. pose proof (run_inv v Hv (11 * length v + 22) _ (init_inv v Hv)) as R. rewrite E in R. exact R.
  - intros [T F]. now apply cl_success.
Qed.
Lemma tvalue_names_in v l : tvalue tab v l -> forall el, In el l -> exists a b, v = a ++ fst el ++ b /\ Forall (fun b => namechar b = true) (fst el).
Proof.
  assert (TI : forall x e, titem tab x e -> exists b, x = fst e ++ b /\ Forall (fun b => namechar b = true) (fst e)).
  { intros x e [nm N F|nm s1 s2 w N F _ _ _]; cbn [fst]; [exists []; rewrite app_nil_r; auto|eauto]. }
  assert (TL : forall v l, tlist tab v l -> forall el, In el l -> exists a b, v = a ++ fst el ++ b /\ Forall (fun b => namechar b = true) (fst el)).
  { induction 1 as [x e T|v0 l0 s x e T IH S I|]; intros el He.
    - destruct He as [<-|[]]. destruct (TI _ _ T) as (b & -> & F). exists [], b. auto.
    - apply in_app_or in He as [He|[<-|[]]].
      + destruct (IH el He) as (a & b & -> & F). exists a, (b ++ s ++ x). rewrite <- !app_assoc. auto.
      + destruct (TI _ _ I) as (b & -> & F). exists (v0 ++ s), b. rewrite <- !app_assoc. auto.
    - destruct He as [<-|[]]. exists [], []. cbn. auto. }
  intros (_ & [T|(a & s & -> & T & _)]) el He; [eauto|]. destruct (TL _ _ T el He) as (a' & b & -> & F). exists a', (b ++ s). rewrite <- !app_assoc. auto.
Qed.
Lemma tvalue_short v l : short v -> tvalue tab v l -> Forall (fun el => length (fst el) < maxlen) l.
Proof.
  intros Sh T. apply Forall_forall. intros el He. destruct (tvalue_names_in v l T el He) as (a & b & E & F). exact (Sh a (fst el) b E F).
Qed.
Lemma cl_decides v : no_nul v -> short v -> (exists l, tvalue tab v l /\ cl_parse tab maxlen v = Ok (ClSuccess l)) \/ (cl_parse tab maxlen v = Ok ClError /\ forall l, ~ tvalue tab v l).
Proof.
  intros Hv Sh. pose proof (run_inv v Hv (11 * length v + 22) _ (init_inv v Hv)) as R. pose proof (cl_total v) as T.
  destruct (cl_parse tab maxlen v) as [[|l]|u] eqn:E; unfold cl_parse in E; rewrite E in R.
  - right. split; [reflexivity|]. intros l Tv. pose proof (cl_success v l Tv (tvalue_short v l Sh Tv)) as C. unfold cl_parse in C. congruence.
  - left. exists l. destruct R. auto.
  - destruct u; try contradiction; congruence.
Qed.
Lemma tvalue_fun v l l' : no_nul v -> short v -> tvalue tab v l -> tvalue tab v l' -> l = l'.
Proof.
  intros Hv Sh T T'. pose proof (cl_success v l T (tvalue_short v l Sh T)). pose proof (cl_success v l' T' (tvalue_short v l' Sh T')). congruence.
Qed.
Lemma tlist_nonempty v l : tlist tab v l -> l <> [].
Proof. intros [x e T|v0 l0 s x e T S I|]; [discriminate| |discriminate]. destruct l0; discriminate. Qed.
Lemma accept_exact v : no_nul v -> short v ->
  (accept_cl tab maxlen (Some v) = Ok Cl400 <-> forall l, ~ tvalue tab v l) /\
  (accept_cl tab maxlen (Some v) = Ok Cl406 <-> exists l, tvalue tab v l /\ Forall (fun e => snd e = 0%N) l) /\
  (forall l, accept_cl tab maxlen (Some v) = Ok (ClOk l) <-> tvalue tab v l /\ Exists (fun e => snd e <> 0%N) l).
Proof.
  intros Hv Sh. unfold accept_cl.
  destruct (cl_decides v Hv Sh) as [(l & T & ->)|(-> & N)]; cbn [obind].
  - assert (Nl : l <> []) by (destruct T as (_ & [T|(a & s & -> & T & _)]); eapply tlist_nonempty; eassumption).
    assert (Q : forall l', tvalue tab v l' -> l' = l) by (intros; symmetry; now apply (tvalue_fun v)).
    destruct l as [|e l]; [contradiction|]. destruct (existsb (fun e => (0 <? snd e)%N) (e :: l)) eqn:Ex.
    + apply existsb_exists in Ex as (x & Ix & Hx). apply N.ltb_lt in Hx.
      split; [|split]; [split; [discriminate|intros H; exfalso; exact (H _ T)]| |].
      * split; [discriminate|]. intros (l' & T' & F). rewrite (Q l' T') in F. rewrite Forall_forall in F. specialize (F x Ix). lia.
      * intros l'. split; [intros H; injection H as <-; split; [exact T|apply Exists_exists; exists x; split; [exact Ix|lia]]|]. intros (T' & _). rewrite (Q l' T'). reflexivity.
    + assert (F : Forall (fun e => snd e = 0%N) (e :: l)).
      { apply Forall_forall. intros x Ix. destruct (N.eq_dec (snd x) 0) as [H|H]; [exact H|]. exfalso.
        assert (K : existsb (fun e => (0 <? snd e)%N) (e :: l) = true) by (apply existsb_exists; exists x; split; [exact Ix|apply N.ltb_lt; lia]). congruence. }
      split; [|split]; [split; [discriminate|intros H; exfalso; exact (H _ T)]| |].
      * split; [intros _; exists (e :: l); auto|reflexivity].
      * intros l'. split; [discriminate|]. intros (T' & X). rewrite (Q l' T') in X. apply Exists_exists in X as (x & Ix & Hx). rewrite Forall_forall in F. specialize (F x Ix). congruence.
  - split; [|split]; [split; [intros _; exact N|reflexivity]| |].
    + split; [discriminate|]. intros (l' & T' & F). exfalso. exact (N _ T').
    + intros l'. split; [discriminate|]. intros (T' & _). exfalso. exact (N _ T').
Qed.
End Proofs.
