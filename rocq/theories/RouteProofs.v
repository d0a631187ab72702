(** Proofs about Route.v. *)
From Verif Require Import Base CStr CNum Names NamesProofs AcceptEncProofs Reqline ReqlineProofs Header HeaderProofs Route.
Local Open Scope N_scope.

(** ** Specification of patterns *)
(** A variable: a letter or underscore, then letters, digits and underscores. *)
Definition is_var (v : list N) : Prop := exists c t, v = c :: t /\ var_first c = true /\ Forall (fun c => var_char c = true) t.
(** The type names, with the type fly records. *)
Definition type_names : list (list N * ptype) := [(bs "int", PInt); (bs "float", PFloat); (bs "bool", PFloat); (bs "str", PStr)].
(** What follows the variable: blanks and a closing brace, or a colon, blanks, a type name and at least one character. *)
Inductive after : list N -> ptype -> Prop :=
| af_close ws rest : ows ws -> after (ws ++ 125 :: rest) PStr
| af_type ws ws' n ty rest : ows ws -> ows ws' -> In (n, ty) type_names -> rest <> [] -> after (ws ++ 58 :: ws' ++ n ++ rest) ty.
(** The text from an opening brace on declares the parameter. *)
Inductive param_text : list N -> param -> Prop :=
| pt ws v tl ty : ows ws -> is_var v -> after tl ty -> param_text (123 :: ws ++ v ++ tl) (mkParam v ty).
(** The parameters of a path: every opening brace begins one. *)
Inductive params_of : list N -> list param -> Prop :=
| po_nil : params_of [] []
| po_char c t ps : c <> 123 -> params_of t ps -> params_of (c :: t) ps
| po_param t p ps : param_text (123 :: t) p -> In 125 t -> params_of t ps -> params_of (123 :: t) (p :: ps).

(** ** Registration *)
Definition pq (p : list N) (st : ppst) (var : list N) : outcome (option param) := match p with [] => Ok None | _ => parse_param p st var end.
Lemma brk_pq c t st var : c <> 125 ->
  (match t with [] => if c =? 125 then parse_param t st var else Ok None | _ => parse_param t st var end) = pq t st var.
Proof. intros H. apply N.eqb_neq in H. destruct t; [rewrite H|]; reflexivity. Qed.
Lemma get_type_spec p ty : get_type p = Some ty <-> exists n rest, In (n, ty) type_names /\ p = n ++ rest /\ rest <> [].
Proof.
  unfold get_type.
  assert (A : forall n, (length n <? length p)%nat && is_prefix n p = true <-> exists rest, p = n ++ rest /\ rest <> []).
  { intros n. rewrite andb_true_iff, is_prefix_spec. split.
    - intros (L & r & ->). exists r. split; [reflexivity|]. intros ->. rewrite app_nil_r in L. apply Nat.ltb_lt in L. lia.
    - intros (r & -> & NE). split; [|eauto]. apply Nat.ltb_lt. rewrite app_length. destruct r; [contradiction|cbn; lia]. }
  unfold type_names. cbn [In].
  destruct ((length (bs "int") <? length p)%nat && is_prefix (bs "int") p) eqn:E1.
  { apply A in E1 as (r & -> & NE). split; [intros [= <-]; exists (bs "int"), r; auto|]. intros (n & r' & [[= <- <-]|[[= <- <-]|[[= <- <-]|[[= <- <-]|[]]]]] & E & _); [reflexivity|discriminate..]. }
  destruct ((length (bs "float") <? length p)%nat && is_prefix (bs "float") p) eqn:E2.
  { apply A in E2 as (r & -> & NE). split; [intros [= <-]; exists (bs "float"), r; auto|]. intros (n & r' & [[= <- <-]|[[= <- <-]|[[= <- <-]|[[= <- <-]|[]]]]] & E & _); try discriminate; reflexivity. }
  destruct ((length (bs "bool") <? length p)%nat && is_prefix (bs "bool") p) eqn:E3.
  { apply A in E3 as (r & -> & NE). split; [intros [= <-]; exists (bs "bool"), r; auto|]. intros (n & r' & [[= <- <-]|[[= <- <-]|[[= <- <-]|[[= <- <-]|[]]]]] & E & _); try discriminate; reflexivity. }
  destruct ((length (bs "str") <? length p)%nat && is_prefix (bs "str") p) eqn:E4.
  { apply A in E4 as (r & -> & NE). split; [intros [= <-]; exists (bs "str"), r; auto 10|]. intros (n & r' & [[= <- <-]|[[= <- <-]|[[= <- <-]|[[= <- <-]|[]]]]] & E & _); try discriminate; reflexivity. }
  split; [discriminate|]. intros (n & r & I & E & NE).
  assert (X : (length n <? length p)%nat && is_prefix n p = true) by (apply A; eauto).
  destruct I as [I|[I|[I|[I|[]]]]]; apply (f_equal fst) in I; cbn [fst] in I; rewrite <- I in X; [rewrite E1 in X|rewrite E2 in X|rewrite E3 in X|rewrite E4 in X]; discriminate X.
Qed.
Lemma blank_ows c : pp_blank c = true <-> c = 32 \/ c = 9. Proof. unfold pp_blank. lia. Qed.
Lemma names_alpha n ty rest : In (n, ty) type_names -> exists c t, n ++ rest = c :: t /\ fly_alpha c = true.
Proof. intros I. cbn in I. destruct I as [[= <- <-]|[[= <- <-]|[[= <- <-]|[[= <- <-]|[]]]]]; (eexists; eexists; split; [reflexivity|reflexivity]). Qed.
Lemma pq_colon : forall p var q, pq p QColon var = Ok (Some q) <->
  var <> [] /\ exists ws n ty rest, p = ws ++ n ++ rest /\ ows ws /\ In (n, ty) type_names /\ rest <> [] /\ q = mkParam var ty.
Proof.
  induction p as [|c t IH]; intros var q.
  - split; [discriminate|]. intros (_ & ws & n & ty & rest & E & _ & I & _). destruct (names_alpha n ty rest I) as (c & t & E' & _). rewrite E' in E. destruct ws; discriminate.
  - cbn [pq parse_param]. destruct (pp_blank c) eqn:B.
    + rewrite brk_pq by (unfold pp_blank in B; lia). rewrite IH. apply blank_ows in B. split; intros (NE & ws & n & ty & rest & E & W & R); (split; [exact NE|]).
      * exists (c :: ws), n, ty, rest. split; [cbn; rewrite E; reflexivity|]. split; [constructor; assumption|exact R].
      * destruct ws as [|w ws].
        -- exfalso. destruct R as (I & _). destruct (names_alpha n ty rest I) as (d & t' & E' & A). cbn [app] in E. rewrite E' in E. injection E as -> _. unfold fly_alpha in A. lia.
        -- injection E as -> E. exists ws, n, ty, rest. split; [exact E|]. split; [exact (Forall_inv_tail W)|exact R].
    + destruct (fly_alpha c) eqn:FA.
      * destruct (get_type (c :: t)) as [ty|] eqn:G.
        -- assert (X : forall o, (match var with [] => Ok None | _ => Ok (Some (mkParam var ty)) end) = Ok (Some o) <-> var <> [] /\ o = mkParam var ty).
           { intros o. destruct var; split; try discriminate; try (intros (? & ?); contradiction).
             - intros [= <-]. split; [discriminate|reflexivity].
             - intros (_ & ->). reflexivity. }
           rewrite X. split.
           ++ intros (NE & ->). split; [exact NE|]. apply get_type_spec in G as (n & rest & I & E & R). exists [], n, ty, rest. split; [exact E|]. split; [constructor|]. auto.
           ++ intros (NE & ws & n & ty' & rest & E & W & I & R & ->). split; [exact NE|]. f_equal. destruct ws as [|w ws]; [|injection E as -> _; apply Forall_inv in W; cbv beta in W; unfold fly_alpha in FA; lia].
              assert (G' : get_type (c :: t) = Some ty') by (apply get_type_spec; exists n, rest; auto). congruence.
        -- split; [discriminate|]. intros (NE & ws & n & ty' & rest & E & W & I & R & ->). destruct ws as [|w ws]; [|injection E as -> _; apply Forall_inv in W; cbv beta in W; unfold fly_alpha in FA; lia].
           assert (G' : get_type (c :: t) = Some ty') by (apply get_type_spec; exists n, rest; auto). congruence.
      * split; [discriminate|]. intros (NE & ws & n & ty' & rest & E & W & I & R & ->). destruct ws as [|w ws].
        -- destruct (names_alpha n ty' rest I) as (d & t' & E' & A). cbn [app] in E. rewrite E' in E. injection E as -> _. congruence.
        -- injection E as -> _. apply Forall_inv in W. cbv beta in W. unfold pp_blank in B. lia.
Qed.
Lemma fin_eq (var : list N) ty q : (match var with [] => Ok None | _ => Ok (Some (mkParam var ty)) end) = Ok (Some q) <-> var <> [] /\ q = mkParam var ty.
Proof.
  destruct var; split; try discriminate; try (intros (? & ?); contradiction).
  - intros [= <-]. split; [discriminate|reflexivity].
  - intros (_ & ->). reflexivity.
Qed.
(** The head of the text after the variable. *)
Lemma after_head c t ty : after (c :: t) ty -> ((c = 32 \/ c = 9) /\ after t ty) \/ (c = 125 /\ ty = PStr) \/
  (c = 58 /\ exists ws n rest, t = ws ++ n ++ rest /\ ows ws /\ In (n, ty) type_names /\ rest <> []).
Proof.
  intros H. inversion H as [ws rest W E|ws ws' n ty' rest W W' I R E]; subst.
  - destruct ws as [|w ws]; injection E as -> E; [right; left; auto|left]. split; [exact (Forall_inv W)|]. subst t. constructor. exact (Forall_inv_tail W).
  - destruct ws as [|w ws]; injection E as -> E; [right; right|left].
    + split; [reflexivity|]. exists ws', n, rest. auto.
    + split; [exact (Forall_inv W)|]. subst t. constructor; try assumption. exact (Forall_inv_tail W).
Qed.
Lemma after_nil ty : ~ after [] ty.
Proof. intros H. inversion H as [ws rest W E|ws ws' n ty' rest W W' I R E]; destruct ws; discriminate. Qed.
Lemma after_blank c t ty : c = 32 \/ c = 9 -> after t ty -> after (c :: t) ty.
Proof.
  intros C H. inversion H; subst.
  - apply (af_close (c :: ws)). constructor; assumption.
  - apply (af_type (c :: ws)); try assumption. constructor; assumption.
Qed.
Lemma pq_varspace : forall p var q, pq p QVarSpace var = Ok (Some q) <-> var <> [] /\ exists ty, after p ty /\ q = mkParam var ty.
Proof.
  induction p as [|c t IH]; intros var q.
  - split; [discriminate|]. intros (_ & ty & A & _). destruct (after_nil ty A).
  - cbn [pq parse_param]. destruct (pp_blank c) eqn:B.
    + rewrite brk_pq by (unfold pp_blank in B; lia). rewrite IH. apply blank_ows in B. split; intros (NE & ty & A & E); (split; [exact NE|]; exists ty; split; [|exact E]).
      * apply after_blank; assumption.
      * apply after_head in A as [(_ & A)|[(-> & _)|(-> & _)]]; [exact A|lia|lia].
    + destruct (N.eqb_spec c 58) as [->|C1].
      * rewrite brk_pq by lia. rewrite pq_colon. split.
        -- intros (NE & ws & n & ty & rest & -> & W & I & R & ->). split; [exact NE|]. exists ty. split; [|reflexivity]. apply (af_type [] ws); try assumption. constructor.
        -- intros (NE & ty & A & ->). split; [exact NE|]. apply after_head in A as [(A & _)|[(A & _)|(_ & ws & n & rest & -> & W & I & R)]]; [lia|lia|]. exists ws, n, ty, rest. auto.
      * destruct (N.eqb_spec c 125) as [->|C2].
        -- rewrite fin_eq. split; [intros (NE & ->)|intros (NE & ty & A & ->)]; (split; [exact NE|]).
           ++ exists PStr. split; [apply (af_close []); constructor|reflexivity].
           ++ apply after_head in A as [(A & _)|[(_ & ->)|(A & _)]]; [lia|reflexivity|lia].
        -- split; [discriminate|]. intros (NE & ty & A & _). apply after_head in A as [(A & _)|[(A & _)|(A & _)]]; [unfold pp_blank in B; lia|lia|lia].
Qed.
Lemma var_class c : var_char c = true -> pp_blank c = false /\ c <> 58 /\ c <> 125.
Proof. unfold var_char, fly_alpha, fly_numeral, pp_blank. lia. Qed.
Lemma first_var c : var_first c = true -> var_char c = true.
Proof. unfold var_char, var_first. lia. Qed.
Lemma after_not_var c t ty : after (c :: t) ty -> var_char c = false.
Proof. intros A. apply not_true_iff_false. intros V. apply var_class in V as (B & C1 & C2). apply after_head in A as [(A & _)|[(A & _)|(A & _)]]; [unfold pp_blank in B; lia|lia|lia]. Qed.
Lemma pq_var : forall p var q, pq p QVar var = Ok (Some q) <->
  exists w tl ty, p = w ++ tl /\ Forall (fun c => var_char c = true) w /\ after tl ty /\ var ++ w <> [] /\ q = mkParam (var ++ w) ty.
Proof.
  induction p as [|c t IH]; intros var q.
  - split; [discriminate|]. intros (w & tl & ty & E & _ & A & _). symmetry in E. apply app_eq_nil in E as (_ & ->). destruct (after_nil ty A).
  - assert (STEP : var_char c = true -> parse_param (c :: t) QVar var = pq t QVar (var ++ [c])).
    { intros V. destruct (var_class c V) as (_ & _ & C). cbn [parse_param]. rewrite V. destruct (var_first c); apply brk_pq; exact C. }
    change (pq (c :: t) QVar var) with (parse_param (c :: t) QVar var). destruct (var_char c) eqn:V.
    + rewrite STEP by reflexivity. rewrite IH. split.
      * intros (w & tl & ty & -> & F & A & NE & ->). exists (c :: w), tl, ty. rewrite <- app_assoc in *. cbn [app] in *. split; [reflexivity|]. split; [constructor; assumption|]. auto.
      * intros (w & tl & ty & E & F & A & NE & ->). destruct w as [|d w].
        -- cbn [app] in E. subst tl. apply after_not_var in A. congruence.
        -- injection E as <- ->. exists w, tl, ty. rewrite <- app_assoc. cbn [app]. split; [reflexivity|]. split; [exact (Forall_inv_tail F)|]. auto.
    + assert (EQ : parse_param (c :: t) QVar var = pq (c :: t) QVarSpace var).
      { cbn [pq parse_param]. rewrite V. assert (VF : var_first c = false) by (apply not_true_iff_false; intros Q; apply first_var in Q; congruence). rewrite VF. reflexivity. }
      rewrite EQ, pq_varspace. split.
      * intros (NE & ty & A & ->). exists [], (c :: t), ty. rewrite app_nil_r. cbn [app]. auto 10.
      * intros (w & tl & ty & E & F & A & NE & ->). destruct w as [|d w]; [|injection E as <- _; apply Forall_inv in F; congruence]. rewrite app_nil_r in *. cbn [app] in E. subst tl. eauto.
Qed.
Lemma start_space p var : pq p QStart var = pq p QSpace var.
Proof. destruct p; reflexivity. Qed.
Lemma pq_space : forall p q, pq p QSpace [] = Ok (Some q) <->
  exists ws v tl ty, p = ws ++ v ++ tl /\ ows ws /\ is_var v /\ after tl ty /\ q = mkParam v ty.
Proof.
  induction p as [|c t IH]; intros q.
  - split; [discriminate|]. intros (ws & v & tl & ty & E & _ & (d & u & -> & _) & _). destruct ws; discriminate.
  - cbn [pq parse_param]. destruct (pp_blank c) eqn:B.
    + rewrite brk_pq by (unfold pp_blank in B; lia). rewrite IH. apply blank_ows in B. split; intros (ws & v & tl & ty & E & W & V & A & Q).
      * exists (c :: ws), v, tl, ty. split; [cbn; rewrite E; reflexivity|]. split; [constructor; assumption|]. auto.
      * destruct ws as [|w ws].
        -- exfalso. destruct V as (d & u & -> & F & _). injection E as -> _. unfold var_first, fly_alpha in F. lia.
        -- injection E as -> E. exists ws, v, tl, ty. split; [exact E|]. split; [exact (Forall_inv_tail W)|auto].
    + destruct (var_first c) eqn:F.
      * rewrite brk_pq by (unfold var_first, fly_alpha in F; lia). rewrite pq_var. split.
        -- intros (w & tl & ty & -> & FW & A & _ & ->). exists [], (c :: w), tl, ty. split; [reflexivity|]. split; [constructor|]. split; [exists c, w; auto|auto].
        -- intros (ws & v & tl & ty & E & W & (d & u & -> & FD & FU) & A & ->). destruct ws as [|w ws].
           ++ injection E as -> ->. exists u, tl, ty. split; [reflexivity|]. split; [exact FU|]. split; [exact A|]. split; [discriminate|reflexivity].
           ++ injection E as -> _. apply Forall_inv in W. cbv beta in W. unfold pp_blank in B. lia.
      * split; [discriminate|]. intros (ws & v & tl & ty & E & W & (d & u & -> & FD & FU) & A & ->). destruct ws as [|w ws].
        -- injection E as -> _. congruence.
        -- injection E as -> _. apply Forall_inv in W. cbv beta in W. unfold pp_blank in B. lia.
Qed.
Lemma param_exact t q : parse_param (123 :: t) QInit [] = Ok (Some q) <-> param_text (123 :: t) q.
Proof.
  cbn [parse_param]. change (123 =? 123) with true. cbv iota. rewrite brk_pq by lia. rewrite start_space, pq_space. split.
  - intros (ws & v & tl & ty & -> & W & V & A & ->). constructor; assumption.
  - intros H. inversion H; subst. eauto 10.
Qed.
Lemma param_total : forall p st var, exists o, pq p st var = Ok o.
Proof.
  induction p as [|c t IH]; intros st var; [eexists; reflexivity|]. cbn [pq parse_param].
  assert (F : forall ty, exists o, (match var with [] => Ok None | _ => Ok (Some (mkParam var ty)) end) = Ok o) by (intros ty; destruct var; eauto).
  destruct st.
  - destruct (N.eqb_spec c 123); [rewrite brk_pq by lia; apply IH|eauto].
  - destruct (pp_blank c) eqn:B; [rewrite brk_pq by (unfold pp_blank in B; lia); apply IH|]. destruct (var_first c) eqn:V; [rewrite brk_pq by (unfold var_first, fly_alpha in V; lia); apply IH|eauto].
  - destruct (pp_blank c) eqn:B; [rewrite brk_pq by (unfold pp_blank in B; lia); apply IH|]. destruct (var_first c) eqn:V; [rewrite brk_pq by (unfold var_first, fly_alpha in V; lia); apply IH|eauto].
  - destruct (var_first c) eqn:V; [rewrite brk_pq by (unfold var_first, fly_alpha in V; lia); apply IH|].
    destruct (var_char c) eqn:V2; [rewrite brk_pq by (apply var_class in V2; tauto); apply IH|].
    destruct (pp_blank c) eqn:B; [rewrite brk_pq by (unfold pp_blank in B; lia); apply IH|].
    destruct (N.eqb_spec c 58); [rewrite brk_pq by lia; apply IH|]. destruct (c =? 125); [apply F|eauto].
  - destruct (pp_blank c) eqn:B; [rewrite brk_pq by (unfold pp_blank in B; lia); apply IH|].
    destruct (N.eqb_spec c 58); [rewrite brk_pq by lia; apply IH|]. destruct (c =? 125); [apply F|eauto].
  - destruct (pp_blank c) eqn:B; [rewrite brk_pq by (unfold pp_blank in B; lia); apply IH|].
    destruct (fly_alpha c); [|eauto]. destruct (get_type (c :: t)); [apply F|eauto].
Qed.
Lemma existsb_brace t : existsb (fun x => x =? 125) t = true <-> In 125 t.
Proof. rewrite existsb_exists. split; [intros (x & I & E); apply N.eqb_eq in E; subst; exact I|intros I; exists 125; auto]. Qed.
Lemma params_exact size : forall s ps, parse_params size s = Ok (PPok ps) <-> params_of s ps.
Proof.
  induction s as [|c t IH]; intros ps; [cbn; split; [intros [= <-]; constructor|intros H; inversion H; reflexivity]|].
  cbn [parse_params]. destruct (N.eqb_spec c 123) as [->|C].
  - destruct (existsb (fun x => x =? 125) (123 :: t)) eqn:X.
    + assert (I : In 125 t). { apply existsb_brace in X. destruct X as [X|X]; [lia|exact X]. }
      destruct (param_total (123 :: t) QInit []) as (o & O). change (pq (123 :: t) QInit []) with (parse_param (123 :: t) QInit []) in O. rewrite O. cbn [obind]. destruct o as [p|].
      * apply param_exact in O. destruct (parse_params size t) as [r|u] eqn:R; cbn [obind].
        -- destruct r as [ps'| |].
           ++ split; [intros [= <-]; constructor; [exact O|exact I|apply IH; reflexivity]|]. intros H. inversion H as [|? ? ? ? ?|? p' ps0 PT _ PO]; subst; [contradiction|].
              apply IH in PO. injection PO as ->. apply param_exact in PT, O. congruence.
           ++ split; [discriminate|]. intros H. inversion H as [|? ? ? ? ?|? p' ps0 PT _ PO]; subst; [contradiction|]. apply IH in PO. discriminate.
           ++ split; [discriminate|]. intros H. inversion H as [|? ? ? ? ?|? p' ps0 PT _ PO]; subst; [contradiction|]. apply IH in PO. discriminate.
        -- split; [discriminate|]. intros H. inversion H as [|? ? ? ? ?|? p' ps0 PT _ PO]; subst; [contradiction|]. apply IH in PO. discriminate.
      * split; [discriminate|]. intros H. inversion H as [|? ? ? ? ?|? p' ps0 PT _ PO]; subst; [contradiction|]. apply param_exact in PT. congruence.
    + assert (NI : ~ In 125 t). { intros I. assert (X' : existsb (fun x => x =? 125) (123 :: t) = true) by (apply existsb_brace; right; exact I). congruence. }
      destruct (size <=? S (length (123%N :: t)))%nat; (split; [discriminate|]; intros H; inversion H; subst; contradiction).
  - rewrite IH. split; [intros H; constructor; assumption|]. intros H. inversion H; subst; [assumption|contradiction].
Qed.
Lemma params_none s ps : params_of s ps -> (ps = [] <-> ~ In 123 s).
Proof.
  induction 1 as [|c t ps C _ IH|t p ps _ _ _ IH].
  - split; auto.
  - rewrite IH. split; intros H; [intros [E|I]; [congruence|contradiction]|intros I; apply H; right; exact I].
  - split; [discriminate|]. intros H. destruct H. left. reflexivity.
Qed.
(** Registering: the table grows by one route at its end, or stays as it is. *)
Lemma register_exact regs path m h regs' : register regs path m h = Ok (RegOk regs') <-> exists ps, params_of path ps /\ regs' = regs ++ [mkRoute path m h ps].
Proof.
  unfold register. destruct (parse_params (length path) path) as [r|u] eqn:E; cbn [obind].
  - destruct r as [ps| |]; (split; [|intros (ps' & P & ->); apply (params_exact (length path)) in P; rewrite E in P; try discriminate]).
    + intros [= <-]. exists ps. split; [apply (params_exact (length path)); exact E|reflexivity].
    + injection P as ->. reflexivity.
    + discriminate.
    + discriminate.
  - split; [discriminate|]. intros (ps & P & _). apply (params_exact (length path)) in P. congruence.
Qed.
(** When the path has no closing brace missing, registration is defined. *)
Lemma params_total size : forall s, (forall a b, s = a ++ 123 :: b -> In 125 b) -> exists r, parse_params size s = Ok r /\ r <> PPnobracket.
Proof.
  induction s as [|c t IH]; intros H; [eexists; split; [reflexivity|discriminate]|].
  assert (IH' : exists r, parse_params size t = Ok r /\ r <> PPnobracket). { apply IH. intros a b ->. apply (H (c :: a)). reflexivity. }
  cbn [parse_params]. destruct (N.eqb_spec c 123) as [->|C]; [|exact IH'].
  assert (X : existsb (fun x => x =? 125) (123 :: t) = true). { apply existsb_brace. right. apply (H []). reflexivity. }
  rewrite X. destruct (param_total (123 :: t) QInit []) as (o & O). change (pq (123 :: t) QInit []) with (parse_param (123 :: t) QInit []) in O. rewrite O. cbn [obind].
  destruct o as [p|]; [|eexists; split; [reflexivity|discriminate]]. destruct IH' as (r & -> & NE). cbn [obind]. eexists. split; [reflexivity|]. destruct r; congruence.
Qed.

(** ** Matching *)
Lemma memchr_none l c : memchr l c = None <-> ~ In c l.
Proof.
  induction l as [|x t IH]; cbn [memchr]; [split; auto|]. destruct (N.eqb_spec x c) as [->|N].
  - split; [discriminate|]. intros H. destruct H. left. reflexivity.
  - destruct (memchr t c); cbn [option_map].
    + split; [discriminate|]. intros H. assert (~ In c t) by (intros I; apply H; right; exact I). apply IH in H0. discriminate.
    + split; [|reflexivity]. intros _ [E|I]; [contradiction|]. apply IH; auto.
Qed.
Lemma memchr_first a c b : ~ In c a -> memchr (a ++ c :: b) c = Some (length a).
Proof.
  induction a as [|x a IH]; intros H; cbn [memchr app length]; [rewrite N.eqb_refl; reflexivity|].
  destruct (N.eqb_spec x c) as [->|N]; [destruct H; left; reflexivity|]. rewrite IH; [reflexivity|]. intros I. apply H. right. exact I.
Qed.
Lemma memchr_some l c k : memchr l c = Some k -> nth_error l k = Some c.
Proof.
  revert k. induction l as [|x t IH]; intros k; cbn [memchr]; [discriminate|]. destruct (N.eqb_spec x c) as [->|N]; [intros [= <-]; reflexivity|].
  destruct (memchr t c) as [j|]; cbn [option_map]; [|discriminate]. intros [= <-]. cbn. apply IH. reflexivity.
Qed.
Lemma rd_mid (a : list N) c b : rd (a ++ c :: b) (length a) = Ok c.
Proof. unfold rd. rewrite nth_error_app2, Nat.sub_diag by lia. reflexivity. Qed.

(** A path whose parameter is not followed by a slash. *)
Lemma match_trailing pre inner u rest : ~ In 123 pre -> ~ In 47 inner -> forall f a b v,
  pre = a ++ b -> u = a ++ v -> (length v < f)%nat ->
  exists e, match_loop f (pre ++ 123 :: inner) (u ++ rest) (length u) (length a) (length a) = Ok e /\
    (e = true <-> exists w, v = b ++ w /\ w <> [] /\ ~ In 47 w).
Proof.
  intros NP NI. induction f as [|f IH]; intros a b v EP EU F; [lia|]. cbn [match_loop].
  assert (LU : length u = (length a + length v)%nat) by (subst u; apply app_length).
  assert (LP : length pre = (length a + length b)%nat) by (subst pre; apply app_length).
  destruct v as [|c v].
  - replace (length a <? length u)%nat with false by (symmetry; apply Nat.ltb_ge; cbn [length] in LU; lia). cbn [negb].
    eexists. split; [reflexivity|]. rewrite app_length. cbn [length]. split.
    + intros E. apply Nat.eqb_eq in E. lia.
    + intros (w & E & NE & _). symmetry in E. apply app_eq_nil in E as (_ & ->). contradiction.
  - replace (length a <? length u)%nat with true by (symmetry; apply Nat.ltb_lt; cbn [length] in LU; lia). cbn [negb].
    destruct b as [|d b].
    + rewrite app_nil_r in EP. subst a. rewrite <- app_assoc. cbn [app]. rewrite rd_mid. cbn [obind]. change (123 =? 123) with true. cbv iota.
      replace (skipn (length pre) (pre ++ 123 :: inner)) with (123 :: inner) by (rewrite skipn_app, skipn_all, Nat.sub_diag; reflexivity).
      assert (M1 : memchr (123 :: inner) 47 = None). { apply memchr_none. intros [E|I]; [lia|contradiction]. }
      rewrite M1. replace (firstn (length u - length pre) (skipn (length pre) (u ++ rest))) with (c :: v).
      2:{ subst u. rewrite <- app_assoc, skipn_app, skipn_all, Nat.sub_diag. cbn [app skipn]. rewrite app_length. replace (length pre + length (c :: v) - length pre)%nat with (length (c :: v)) by lia. symmetry. apply (firstn_exact (c :: v) rest). }
      destruct (memchr (c :: v) 47) as [k|] eqn:M.
      * eexists. split; [reflexivity|]. split; [discriminate|]. intros (w & E & _ & NW). cbn [app] in E. rewrite E in M. apply memchr_none in NW. congruence.
      * apply memchr_none in M. eexists. split; [reflexivity|]. split; [intros _; exists (c :: v); repeat split; [discriminate|exact M]|reflexivity].
    + subst pre. repeat (rewrite <- app_assoc; cbn [app]). rewrite rd_mid. cbn [obind].
      assert (D : d <> 123) by (intros ->; apply NP, in_or_app; right; left; reflexivity).
      replace (d =? 123) with false by (symmetry; apply N.eqb_neq; exact D).
      replace (rd (u ++ rest) (length a)) with (@Ok N c) by (subst u; rewrite <- app_assoc; cbn [app]; symmetry; apply rd_mid). cbn [obind].
      destruct (N.eqb_spec c d) as [->|NE]; cbn [negb].
      * destruct (IH (a ++ [d]) b v) as (e & E & S).
        { rewrite <- app_assoc. reflexivity. }
        { subst u. rewrite <- app_assoc. reflexivity. }
        { cbn [length] in F. lia. }
        exists e. split.
        -- rewrite app_length in E. cbn [length] in E. rewrite Nat.add_1_r in E. repeat (rewrite <- app_assoc in E; cbn [app] in E). exact E.
        -- rewrite S. split; intros (w & EW & R); exists w; (split; [|exact R]); [cbn; rewrite EW; reflexivity|]. injection EW as ->. reflexivity.
      * eexists. split; [reflexivity|]. split; [discriminate|]. intros (w & E & _). injection E as E _. congruence.
Qed.
Lemma match_uri_trailing pre inner uri rest : ~ In 123 pre -> ~ In 47 inner ->
  exists e, match_param_uri (pre ++ 123 :: inner) (uri ++ rest) (length uri) = Ok e /\
    (e = true <-> exists w, uri = pre ++ w /\ w <> [] /\ ~ In 47 w).
Proof. intros NP NI. exact (match_trailing pre inner uri rest NP NI (S (length uri)) [] pre uri eq_refl eq_refl ltac:(lia)). Qed.
(** A path with a slash after its first parameter never matches a request whose memory has no closing brace. *)
Lemma match_mid pre inner u ulen : ~ In 123 pre -> In 47 inner -> ~ In 125 u -> forall f i,
  (i <= length pre)%nat -> match_loop f (pre ++ 123 :: inner) u ulen i i <> Ok true.
Proof.
  intros NP I NU. induction f as [|f IH]; intros i L; [discriminate|]. cbn [match_loop].
  destruct (Nat.ltb_spec i ulen) as [LT|GE]; cbn [negb].
  2:{ intros [= E]. apply Nat.eqb_eq in E. rewrite app_length in E. cbn [length] in E. lia. }
  destruct (Nat.eq_dec i (length pre)) as [->|NE].
  - rewrite <- app_assoc. cbn [app]. rewrite rd_mid. cbn [obind]. change (123 =? 123) with true. cbv iota.
    replace (skipn (length pre) (pre ++ 123 :: inner)) with (123 :: inner) by (rewrite skipn_app, skipn_all, Nat.sub_diag; reflexivity).
    destruct (memchr (123 :: inner) 47) eqn:M; [|apply memchr_none in M; destruct M; right; exact I].
    destruct (memchr (firstn (ulen - length pre) (skipn (length pre) u)) 47) as [k|]; [|discriminate].
    destruct (memchr (123 :: inner) 125) as [e|] eqn:ME; [|discriminate].
    apply memchr_some in ME.
    destruct (rd u (length pre + (length pre + k))) as [uc|x] eqn:RU; cbn [obind]; [|discriminate].
    assert (RR : rd (pre ++ 123 :: inner ++ [0]) (length pre + e) = Ok 125).
    { unfold rd. rewrite nth_error_app2 by lia. replace (length pre + e - length pre)%nat with e by lia. change (123 :: inner ++ [0]) with ((123 :: inner) ++ [0]). rewrite nth_error_app1; [rewrite ME; reflexivity|]. apply nth_error_Some. congruence. }
    rewrite RR. cbn [obind]. destruct (N.eqb_spec uc 125) as [->|]; cbn [negb]; [|discriminate]. exfalso. apply NU. unfold rd in RU.
    destruct (nth_error u (length pre + (length pre + k))) as [z|] eqn:Z; [|discriminate]. injection RU as ->. apply nth_error_In in Z. exact Z.
  - assert (exists d, nth_error pre i = Some d) as (d & D). { destruct (nth_error pre i) eqn:Z; [eauto|]. apply nth_error_None in Z. lia. }
    assert (RD : rd ((pre ++ 123 :: inner) ++ [0]) i = Ok d). { unfold rd. rewrite <- app_assoc, nth_error_app1 by lia. rewrite D. reflexivity. }
    rewrite RD. cbn [obind]. assert (d <> 123). { intros ->. apply nth_error_In in D. contradiction. }
    replace (d =? 123) with false by (symmetry; apply N.eqb_neq; assumption).
    destruct (rd u i) as [uc|]; cbn [obind]; [|discriminate]. destruct (negb (uc =? d)); [discriminate|]. apply IH. lia.
Qed.

(** ** Finding a route *)
Definition no0 (l : list N) : Prop := ~ In 0 l.
(** The routes covered: no parameter, or only parameters that no slash follows. *)
Definition simple (r : route) : Prop := params_of (rt_path r) (rt_params r) /\ no0 (rt_path r) /\
  (forall pre inner : list N, rt_path r = pre ++ 123 :: inner -> ~ In 123 pre -> ~ In 47 inner).
(** The route accepts the request. *)
Definition selects (r : route) (uri : list N) (m : method) : Prop :=
  (~ In 123 (rt_path r) /\ rt_path r = uri /\ rt_method r = m) \/
  (exists pre inner v, rt_path r = pre ++ 123 :: inner /\ ~ In 123 pre /\ uri = pre ++ v /\ v <> [] /\ ~ In 47 v).
Lemma split_first (c : N) (l : list N) : In c l -> exists a b, l = a ++ c :: b /\ ~ In c a.
Proof.
  induction l as [|x t IH]; [intros []|]. intros I. destruct (N.eq_dec x c) as [->|NE]; [exists [], t; split; [reflexivity|intros []]|].
  destruct I as [E|I]; [contradiction|]. destruct (IH I) as (a & b & -> & NA). exists (x :: a), b. split; [reflexivity|]. intros [E|J]; [contradiction|exact (NA J)].
Qed.
Lemma split_unique (c : N) a b a' b' : a ++ c :: b = a' ++ c :: b' -> ~ In c a -> ~ In c a' -> a = a' /\ b = b'.
Proof.
  revert a'. induction a as [|x a IH]; intros [|y a'] E NA NA'; cbn [app] in E.
  - injection E as ->. auto.
  - injection E as -> _. destruct NA'. left. reflexivity.
  - injection E as -> _. destruct NA. left. reflexivity.
  - injection E as -> E. destruct (IH a' E) as (-> & ->); [intros I; apply NA; right; exact I|intros I; apply NA'; right; exact I|auto].
Qed.
Lemma method_eqb_spec a b : method_eqb a b = true <-> a = b.
Proof. destruct a, b; cbn; split; congruence. Qed.
Lemma cstr_app a b : no0 a -> cstr (a ++ b) = a ++ cstr b.
Proof. induction a as [|x a IH]; intros H; [reflexivity|]. cbn [app cstr]. destruct (N.eqb_spec x 0) as [->|]; [destruct H; left; reflexivity|]. f_equal. apply IH. intros I. apply H. right. exact I. Qed.
Lemma strncmp_same : forall a b c : list N, length a = length b -> (strncmp_eqb (length b) a (b ++ c) = true <-> a = b).
Proof.
  induction a as [|x a IH]; intros [|y b] c L; try discriminate; [cbn; split; auto; destruct c; reflexivity|].
  cbn [strncmp_eqb length app]. rewrite andb_true_iff, IH by (cbn in L; lia). rewrite N.eqb_eq. split; [intros (-> & ->); reflexivity|intros [= -> ->]; auto].
Qed.
Lemma found_one r uri rest m : simple r -> no0 uri ->
  exists e : bool, (forall t, found_route (r :: t) (uri ++ rest) (length uri) m = if e then Ok (Some r) else found_route t (uri ++ rest) (length uri) m) /\ (e = true <-> selects r uri m).
Proof.
  intros (P & NZ & SI) NU. destruct (in_dec N.eq_dec 123 (rt_path r)) as [I|NI].
  - destruct (split_first 123 _ I) as (pre & inner & EP & NP). pose proof (SI pre inner EP NP) as NS.
    destruct (match_uri_trailing pre inner uri rest NP NS) as (e & E & S). exists e. split.
    + intros t. cbn [found_route]. destruct (rt_params r) as [|p ps] eqn:RP; [exfalso; apply (params_none _ _ P); auto|]. rewrite EP, E. reflexivity.
    + rewrite S. split.
      * intros (w & -> & NE & NW). right. exists pre, inner, w. auto.
      * intros [(N & _)|(pre' & inner' & v & EP' & NP' & -> & NE & NV)]; [contradiction|]. rewrite EP in EP'. apply split_unique in EP' as (-> & ->); try assumption. eauto.
  - exists ((length (rt_path r) =? length uri)%nat && strncmp_eqb (length uri) (cstr (rt_path r)) (cstr (uri ++ rest)) && method_eqb (rt_method r) m). split.
    + intros t. cbn [found_route]. apply (params_none _ _ P) in NI. rewrite NI. destruct ((_ && _) && _)%bool; reflexivity.
    + rewrite cstr_app by exact NU. replace (cstr (rt_path r)) with (rt_path r) by (symmetry; rewrite <- (app_nil_r (rt_path r)) at 1; rewrite cstr_app by exact NZ; cbn; apply app_nil_r).
      rewrite !andb_true_iff, Nat.eqb_eq, method_eqb_spec. split.
      * intros ((L & C) & M). left. apply strncmp_same in C; [|exact L]. auto.
      * intros [(_ & E & M)|(pre & inner & v & EP & _)]; [|destruct NI; rewrite EP; apply in_or_app; right; left; reflexivity].
        split; [|exact M]. split; [congruence|]. apply strncmp_same; congruence.
Qed.
Lemma found_spec regs uri rest m : Forall simple regs -> no0 uri ->
  (exists a r c, regs = a ++ r :: c /\ selects r uri m /\ Forall (fun x => ~ selects x uri m) a /\ found_route regs (uri ++ rest) (length uri) m = Ok (Some r)) \/
  (Forall (fun x => ~ selects x uri m) regs /\ found_route regs (uri ++ rest) (length uri) m = Ok None).
Proof.
  intros F NU. induction F as [|r t S F IH]; [right; split; [constructor|reflexivity]|].
  destruct (found_one r uri rest m S NU) as (e & E & Q). rewrite E. destruct e.
  - left. exists [], r, t. repeat split; [apply Q; reflexivity|constructor].
  - assert (NS : ~ selects r uri m) by (intros X; apply Q in X; discriminate). destruct IH as [(a & r' & c & -> & SE & FA & FR)|(FA & FR)].
    + left. exists (r :: a), r', c. split; [reflexivity|]. split; [exact SE|]. split; [constructor; assumption|exact FR].
    + right. split; [constructor; assumption|exact FR].
Qed.
Lemma static_selects r uri m : ~ In 123 (rt_path r) -> (selects r uri m <-> rt_path r = uri /\ rt_method r = m).
Proof.
  intros NI. split; [|intros (E & M); left; auto]. intros [(_ & E & M)|(pre & inner & v & EP & _)]; [auto|].
  destruct NI. rewrite EP. apply in_or_app. right. left. reflexivity.
Qed.
Lemma static_simple path m h : ~ In 123 path -> no0 path -> simple (mkRoute path m h []).
Proof.
  intros NI NZ. repeat split; cbn [rt_path rt_params].
  - clear NZ. induction path as [|c t IH]; constructor; [intros ->; apply NI; left; reflexivity|]. apply IH. intros I. apply NI. right. exact I.
  - exact NZ.
  - intros pre inner ->. destruct NI. apply in_or_app. right. left. reflexivity.
Qed.
Lemma param_ignores_method r u n m m' : rt_params r <> [] -> found_route [r] u n m = found_route [r] u n m'.
Proof. intros P. cbn [found_route]. destruct (rt_params r); [contradiction|reflexivity]. Qed.

(** ** Captured values *)
(** A pattern is made of segments: literal text, or a parameter with the value the request has in its place. *)
Inductive piece := PLit (s : list N) | PPar (inner v : list N).
Definition piece_ok (p : piece) : Prop := match p with PLit s => ~ In 123 s | PPar inner v => ~ In 47 inner /\ v <> [] /\ ~ In 47 v end.
Definition pat_body (p : piece) : list N := match p with PLit s => s | PPar inner _ => 123 :: inner ++ [125] end.
Definition uri_body (p : piece) : list N := match p with PLit s => s | PPar _ v => v end.
Fixpoint pattern (ps : list piece) : list N := match ps with [] => [] | p :: t => 47 :: pat_body p ++ pattern t end.
Fixpoint uri_of (ps : list piece) : list N := match ps with [] => [] | p :: t => 47 :: uri_body p ++ uri_of t end.
Fixpoint values (ps : list piece) : list (list N) := match ps with [] => [] | PLit _ :: t => values t | PPar _ v :: t => v :: values t end.

Lemma skipn_len (a b : list N) : skipn (length a) (a ++ b) = b.
Proof. rewrite skipn_app, skipn_all, Nat.sub_diag. reflexivity. Qed.
(** Characters other than an opening brace are stepped over. *)
Lemma capture_skip : forall s f r0 R ps u0 U ulen, ~ In 123 s -> (length u0 + length s <= ulen)%nat ->
  capture_loop (length s + f) (r0 ++ s ++ R) ps (u0 ++ s ++ U) ulen (length u0) (length r0) =
  capture_loop f ((r0 ++ s) ++ R) ps ((u0 ++ s) ++ U) ulen (length (u0 ++ s)) (length (r0 ++ s)).
Proof.
  induction s as [|c s IH]; intros f r0 R ps u0 U ulen NI L.
  - rewrite !app_nil_r. reflexivity.
  - cbn [length Nat.add capture_loop]. cbn [length] in L. replace (length u0 <? ulen)%nat with true by (symmetry; apply Nat.ltb_lt; lia). cbn [negb].
    replace (rd ((r0 ++ (c :: s) ++ R) ++ [0]) (length r0)) with (@Ok N c) by (repeat (rewrite <- app_assoc; cbn [app]); symmetry; apply rd_mid).
    cbn [obind]. assert (C : c <> 123) by (intros ->; apply NI; left; reflexivity). replace (c =? 123) with false by (symmetry; apply N.eqb_neq; exact C).
    specialize (IH f (r0 ++ [c]) R ps (u0 ++ [c]) U ulen).
    replace (r0 ++ (c :: s) ++ R) with ((r0 ++ [c]) ++ s ++ R) by (rewrite <- app_assoc; reflexivity).
    replace (u0 ++ (c :: s) ++ U) with ((u0 ++ [c]) ++ s ++ U) by (rewrite <- app_assoc; reflexivity).
    replace (S (length u0)) with (length (u0 ++ [c])) by (rewrite app_length; cbn [length]; lia).
    replace (S (length r0)) with (length (r0 ++ [c])) by (rewrite app_length; cbn [length]; lia).
    rewrite IH.
    + repeat (rewrite <- app_assoc; cbn [app]). reflexivity.
    + intros I. apply NI. right. exact I.
    + rewrite app_length. cbn [length]. lia.
Qed.
(** The loop just after the slash of the first segment. *)
Lemma capture_pieces : forall qs p, Forall piece_ok (p :: qs) -> forall f r0 ps u0 rest,
  (length (values (p :: qs)) <= length ps)%nat -> (length (uri_body p ++ uri_of qs) < f)%nat ->
  capture_loop f (r0 ++ pat_body p ++ pattern qs) ps (u0 ++ (uri_body p ++ uri_of qs) ++ rest) (length u0 + length (uri_body p ++ uri_of qs)) (length u0) (length r0)
  = Ok (Some (combine ps (values (p :: qs)))).
Proof.
  induction qs as [|q qs IH]; intros p F f r0 ps u0 rest LV LF.
  - inversion F as [|? ? PK _]; subst. cbn [pattern uri_of]. rewrite !app_nil_r in *. destruct p as [s|inner v]; cbn [pat_body uri_body values piece_ok] in *.
    + replace f with (length s + (f - length s))%nat by lia. replace (r0 ++ s) with (r0 ++ s ++ []) by (rewrite app_nil_r; reflexivity). rewrite capture_skip by (try lia; exact PK).
      replace (f - length s)%nat with (S (f - length s - 1)) by lia. cbn [capture_loop]. rewrite app_length, Nat.ltb_irrefl. cbn [negb]. destruct ps; reflexivity.
    + destruct PK as (NI & NV & SV). destruct f as [|f]; [lia|]. cbn [capture_loop].
      replace (length u0 <? length u0 + length v)%nat with true by (symmetry; apply Nat.ltb_lt; destruct v; [contradiction|cbn [length]; lia]). cbn [negb].
      replace (rd ((r0 ++ 123 :: inner ++ [125]) ++ [0]) (length r0)) with (@Ok N 123) by (rewrite <- app_assoc; cbn [app]; symmetry; apply rd_mid).
      cbn [obind]. change (123 =? 123) with true. cbv iota. destruct ps as [|x ps]; [cbn [length] in LV; lia|].
      rewrite skipn_len. replace (length u0 + length v - length u0)%nat with (length v) by lia. rewrite firstn_exact.
      apply memchr_none in SV. rewrite SV. destruct ps; reflexivity.
  - inversion F as [|? ? PK FQ]; subst. destruct p as [s|inner v]; cbn [pat_body uri_body values piece_ok] in *.
    + (* the literal and the slash after it are stepped over *)
      cbn [pattern uri_of] in *. set (X := uri_body q ++ uri_of qs) in *. rewrite app_length in *. cbn [length] in *.
      assert (NS : ~ In 123 (s ++ [47])). { intros I. apply in_app_or in I as [I|[I|[]]]; [contradiction|discriminate]. }
      assert (LS : length (s ++ [47]) = S (length s)) by (rewrite app_length; cbn [length]; lia).
      replace f with (length (s ++ [47%N]) + (f - S (length s)))%nat by lia.
      replace (r0 ++ s ++ 47 :: pat_body q ++ pattern qs) with (r0 ++ (s ++ [47]) ++ pat_body q ++ pattern qs) by (rewrite <- app_assoc; reflexivity).
      replace (u0 ++ (s ++ 47 :: X) ++ rest) with (u0 ++ (s ++ [47]) ++ X ++ rest) by (repeat (rewrite <- app_assoc; cbn [app]); reflexivity).
      rewrite capture_skip by (try lia; exact NS).
      replace (length u0 + (length s + S (length X)))%nat with (length (u0 ++ s ++ [47%N]) + length X)%nat by (rewrite !app_length; cbn [length]; lia).
      apply (IH q FQ); [exact LV|fold X; lia].
    + destruct PK as (NI & NV & SV). destruct f as [|f]; [lia|]. cbn [capture_loop pattern uri_of] in *. set (X := uri_body q ++ uri_of qs) in *. rewrite app_length in *. cbn [length] in *.
      replace (length u0 <? length u0 + (length v + S (length X)))%nat with true by (symmetry; apply Nat.ltb_lt; lia). cbn [negb].
      replace (rd ((r0 ++ (123 :: inner ++ [125]) ++ 47 :: pat_body q ++ pattern qs) ++ [0]) (length r0)) with (@Ok N 123) by (rewrite <- app_assoc; cbn [app]; symmetry; apply rd_mid).
      cbn [obind]. change (123 =? 123) with true. cbv iota. destruct ps as [|x ps]; [cbn [length] in LV; lia|].
      replace (skipn (length u0) (u0 ++ (v ++ 47 :: X) ++ rest)) with ((v ++ 47 :: X) ++ rest) by (symmetry; apply skipn_len).
      replace (length u0 + (length v + S (length X)) - length u0)%nat with (length (v ++ 47%N :: X)) by (rewrite app_length; cbn [length]; lia).
      rewrite firstn_exact, (memchr_first v 47 X SV).
      replace (skipn (length r0) (r0 ++ (123 :: inner ++ [125]) ++ 47 :: pat_body q ++ pattern qs)) with ((123 :: inner ++ [125]) ++ 47 :: pat_body q ++ pattern qs) by (symmetry; apply skipn_len).
      rewrite memchr_first by (intros [E|I]; [discriminate|]; apply in_app_or in I as [I|[I|[]]]; [contradiction|discriminate]).
      replace (firstn (length v) ((v ++ 47 :: X) ++ rest)) with v by (rewrite <- app_assoc; symmetry; apply firstn_exact).
      set (B := 123 :: inner ++ [125]).
      replace (r0 ++ B ++ 47 :: pat_body q ++ pattern qs) with ((r0 ++ B ++ [47]) ++ pat_body q ++ pattern qs) by (repeat (rewrite <- app_assoc; cbn [app]); reflexivity).
      replace (u0 ++ (v ++ 47 :: X) ++ rest) with ((u0 ++ v ++ [47]) ++ X ++ rest) by (repeat (rewrite <- app_assoc; cbn [app]); reflexivity).
      replace (S (length u0 + length v)) with (length (u0 ++ v ++ [47])) by (rewrite !app_length; cbn [length]; lia).
      replace (S (length r0 + length B)) with (length (r0 ++ B ++ [47])) by (rewrite !app_length; cbn [length]; lia).
      replace (length u0 + (length v + S (length X)))%nat with (length (u0 ++ v ++ [47%N]) + length X)%nat by (rewrite !app_length; cbn [length]; lia).
      unfold X. rewrite (IH q FQ f (r0 ++ B ++ [47]) ps (u0 ++ v ++ [47]) rest); [reflexivity|cbn [length] in LV; lia|fold X; lia].
Qed.
Lemma capture_spec qs m h ps rest : Forall piece_ok qs -> params_of (pattern qs) ps -> (length (values qs) = length ps)%nat ->
  capture (mkRoute (pattern qs) m h ps) (uri_of qs ++ rest) (length (uri_of qs)) = Ok (Some (combine ps (values qs))).
Proof.
  intros F P L. unfold capture. cbn [rt_params rt_path]. destruct ps as [|x ps]; [destruct (values qs); reflexivity|].
  destruct qs as [|q qs]; [discriminate|]. cbn [pattern uri_of].
  change (S (length (47 :: uri_body q ++ uri_of qs))) with (length [47%N] + S (length (uri_body q ++ uri_of qs)))%nat.
  change (47 :: pat_body q ++ pattern qs) with ([] ++ [47] ++ (pat_body q ++ pattern qs)).
  change ((47 :: uri_body q ++ uri_of qs) ++ rest) with ([] ++ [47] ++ ((uri_body q ++ uri_of qs) ++ rest)).
  pose proof (capture_skip [47] (S (length (uri_body q ++ uri_of qs))) [] (pat_body q ++ pattern qs) (x :: ps) [] ((uri_body q ++ uri_of qs) ++ rest) (length (47 :: uri_body q ++ uri_of qs))) as K.
  cbn [length] in K. cbn [length]. rewrite K.
  - cbn [app length]. apply (capture_pieces qs q F (S (length (uri_body q ++ uri_of qs))) [47] (x :: ps) [47] rest); [lia|lia].
  - intros [E|[]]. discriminate.
  - lia.
Qed.

(** ** Allow *)
Lemma strncmp_pre a b : no0 a -> (strncmp_eqb (length a) (cstr a) (cstr b) = true <-> exists r, b = a ++ r).
Proof.
  intros NZ. rewrite <- (app_nil_r a) at 2. rewrite cstr_app by exact NZ. cbn [cstr]. rewrite app_nil_r. revert b. induction a as [|x a IH]; intros b; cbn [length strncmp_eqb].
  - split; [intros _; exists b; reflexivity|reflexivity].
  - assert (X : x <> 0) by (intros ->; apply NZ; left; reflexivity). assert (NA : no0 a) by (intros I; apply NZ; right; exact I).
    destruct b as [|y b]; cbn [cstr]; [split; [discriminate|intros (r & E); discriminate]|]. destruct (N.eqb_spec y 0) as [->|Y].
    + split; [discriminate|]. intros (r & E). injection E as E _. congruence.
    + rewrite andb_true_iff, N.eqb_eq, (IH NA). split; [intros (-> & r & ->); exists r; reflexivity|intros (r & [= -> ->]); eauto].
Qed.
Lemma valid_method_spec regs u m : Forall (fun r => no0 (rt_path r)) regs ->
  (In m (valid_method regs u) <-> m = GET \/ (m <> GET /\ exists r t, In r regs /\ rt_method r = m /\ u = rt_path r ++ t)).
Proof.
  intros F. rewrite Forall_forall in F. unfold valid_method. cbn [In]. rewrite in_map_iff. split.
  - intros [<-|(r & <- & I)]; [auto|]. apply filter_In in I as (I & B). apply andb_true_iff in B as (B & G). apply strncmp_pre in B as (t & ->); [|apply F; exact I].
    right. split; [intros E; rewrite E in G; discriminate|eauto].
  - intros [->|(G & r & t & I & <- & ->)]; [auto|]. right. exists r. split; [reflexivity|]. apply filter_In. split; [exact I|]. apply andb_true_iff. split; [apply strncmp_pre; [apply F; exact I|eauto]|].
    destruct (method_eqb (rt_method r) GET) eqn:E; [apply method_eqb_spec in E; contradiction|reflexivity].
Qed.

(** ** Well-formed patterns *)
(** Literal text, a parameter without type, a parameter with a type. *)
Inductive decl := DLit (s : list N) | DVar (ws v ws2 : list N) | DTyped (ws v ws2 ws3 : list N) (ty : ptype) (ws4 : list N).
(** The spelling of a type. *)
Definition type_spelling (ty : ptype) : list N := match ty with PInt => bs "int" | PFloat => bs "float" | PBool => bs "bool" | PStr => bs "str" end.
Definition decl_text (d : decl) : list N :=
  match d with
  | DLit s => s
  | DVar ws v ws2 => bs "{" ++ ws ++ v ++ ws2 ++ bs "}"
  | DTyped ws v ws2 ws3 ty ws4 => bs "{" ++ ws ++ v ++ ws2 ++ bs ":" ++ ws3 ++ type_spelling ty ++ ws4 ++ bs "}"
  end.
Definition declared (d : decl) : list param :=
  match d with DLit _ => [] | DVar _ v _ => [mkParam v PStr] | DTyped _ v _ _ ty _ => [mkParam v ty] end.
Definition decl_ok (d : decl) : Prop :=
  match d with
  | DLit s => ~ In 123 s
  | DVar ws v ws2 => ows ws /\ is_var v /\ ows ws2
  | DTyped ws v ws2 ws3 ty ws4 => ows ws /\ is_var v /\ ows ws2 /\ ows ws3 /\ ty <> PBool /\ ows ws4
  end.
Lemma params_skip s t ps : ~ In 123 s -> params_of t ps -> params_of (s ++ t) ps.
Proof.
  intros NI P. induction s as [|c s IH]; [exact P|]. cbn [app]. constructor; [intros ->; apply NI; left; reflexivity|]. apply IH. intros I. apply NI. right. exact I.
Qed.
Lemma ows_no c ws : c <> 32 -> c <> 9 -> ows ws -> ~ In c ws.
Proof. intros A B W I. unfold ows in W. rewrite Forall_forall in W. apply W in I. lia. Qed.
Lemma var_no c v : var_char c = false -> is_var v -> ~ In c v.
Proof.
  intros C (d & t & -> & F & FT) [E|I]; [subst; apply first_var in F; congruence|]. rewrite Forall_forall in FT. apply FT in I. congruence.
Qed.
Lemma spelling_no c ty : fly_alpha c = false -> ~ In c (type_spelling ty).
Proof.
  intros C I. assert (F : forallb fly_alpha (type_spelling ty) = true) by (destruct ty; reflexivity). rewrite forallb_forall in F. apply F in I. congruence.
Qed.
Lemma pattern_params ds : Forall decl_ok ds -> params_of (concat (map decl_text ds)) (concat (map declared ds)).
Proof.
  induction 1 as [|d ds K _ IH]; [constructor|]. cbn [map concat]. destruct d as [s|ws v ws2|ws v ws2 ws3 ty ws4]; cbn [decl_text declared decl_ok app] in *.
  - apply params_skip; assumption.
  - destruct K as (W & V & W2). set (R := concat (map decl_text ds)) in *. change (bs "{") with [123]. change (bs "}") with [125]. cbn [app].
    replace ((ws ++ v ++ ws2 ++ [125]) ++ R) with (ws ++ v ++ ws2 ++ 125 :: R) by (repeat (rewrite <- app_assoc; cbn [app]); reflexivity).
    apply po_param.
    + constructor; [exact W|exact V|]. constructor. exact W2.
    + apply in_or_app; right; apply in_or_app; right; apply in_or_app; right; left; reflexivity.
    + repeat apply params_skip; [apply ows_no; [lia|lia|exact W]|apply var_no; [reflexivity|exact V]|apply ows_no; [lia|lia|exact W2]|]. constructor; [lia|exact IH].
  - destruct K as (W & V & W2 & W3 & NB & W4). set (R := concat (map decl_text ds)) in *. change (bs "{") with [123]. change (bs "}") with [125]. change (bs ":") with [58]. cbn [app].
    replace ((ws ++ v ++ ws2 ++ 58 :: ws3 ++ type_spelling ty ++ ws4 ++ [125]) ++ R) with (ws ++ v ++ ws2 ++ 58 :: ws3 ++ type_spelling ty ++ (ws4 ++ 125 :: R)) by (repeat (rewrite <- app_assoc; cbn [app]); reflexivity).
    apply po_param.
    + constructor; [exact W|exact V|]. constructor; [exact W2|exact W3| |destruct ws4; discriminate].
      destruct ty; cbn; auto; contradiction.
    + apply in_or_app; right; apply in_or_app; right; apply in_or_app; right; right. apply in_or_app; right; apply in_or_app; right; apply in_or_app; right; left; reflexivity.
    + repeat apply params_skip; [apply ows_no; [lia|lia|exact W]|apply var_no; [reflexivity|exact V]|apply ows_no; [lia|lia|exact W2]|].
      constructor; [lia|]. repeat apply params_skip; [apply ows_no; [lia|lia|exact W3]|apply spelling_no; reflexivity|apply ows_no; [lia|lia|exact W4]|]. constructor; [lia|exact IH].
Qed.
Lemma register_error regs path m h : (forall a b, path = a ++ 123 :: b -> In 125 b) ->
  (register regs path m h = Ok RegError <-> forall ps, ~ params_of path ps).
Proof.
  intros H. destruct (params_total (length path) path H) as (r & E & _). unfold register. rewrite E. cbn [obind]. split.
  - intros X ps P. apply (params_exact (length path)) in P. rewrite E in P. injection P as ->. discriminate.
  - intros X. destruct r as [ps| |]; try reflexivity. exfalso. apply (X ps). apply (params_exact (length path)). exact E.
Qed.

(** Reading a comma separated list with optional spaces before the elements (RFC 9110 5.6.1). *)
Fixpoint split_commas (l : list N) : list (list N) :=
  match l with
  | [] => [[]]
  | c :: t => if c =? 44 then [] :: split_commas t else match split_commas t with h :: r => (c :: h) :: r | [] => [[c]] end
  end.
Fixpoint strip_spaces (l : list N) : list N := match l with c :: t => if c =? 32 then strip_spaces t else l | [] => [] end.
Definition list_elements (l : list N) : list (list N) := map strip_spaces (split_commas l).
Lemma split_commas_name : forall n rest, ~ In 44 n -> split_commas (n ++ 44 :: rest) = n :: split_commas rest.
Proof.
  induction n as [|c n IH]; intros rest H; [reflexivity|]. cbn [app split_commas]. destruct (N.eqb_spec c 44) as [->|_]; [exfalso; apply H; left; reflexivity|]. rewrite IH; [reflexivity|]. intros X. apply H. right. exact X.
Qed.
Lemma split_commas_end : forall n, ~ In 44 n -> split_commas n = [n].
Proof.
  induction n as [|c n IH]; intros H; [reflexivity|]. cbn [split_commas]. destruct (N.eqb_spec c 44) as [->|_]; [exfalso; apply H; left; reflexivity|]. rewrite IH; [reflexivity|]. intros X. apply H. right. exact X.
Qed.
Lemma method_name_spelling m : method_name m = method_spelling m.
Proof. destruct m; reflexivity. Qed.
Lemma spelling_plain m : ~ In 44 (method_spelling m) /\ strip_spaces (method_spelling m) = method_spelling m.
Proof. destruct m; (split; [|reflexivity]); vm_compute; intros H; repeat (destruct H as [H|H]; [discriminate|]); exact H. Qed.
Lemma strip_split_space l : map strip_spaces (split_commas (32 :: l)) = map strip_spaces (split_commas l).
Proof. cbn [split_commas]. change (32 =? 44) with false. cbn match. destruct (split_commas l) as [|h r] eqn:E; [|reflexivity]. destruct l as [|c t]; [discriminate|]. cbn [split_commas] in E. destruct (c =? 44); [discriminate|]. destruct (split_commas t); discriminate. Qed.
Lemma join_elements : forall ms, ms <> [] -> list_elements (join_names ms) = map method_spelling ms.
Proof.
  induction ms as [|m ms IH]; intros NE; [contradiction|]. destruct (spelling_plain m) as (P1 & P2). destruct ms as [|m2 ms].
  - cbn [join_names]. rewrite method_name_spelling. unfold list_elements. rewrite split_commas_end by exact P1. cbn [map]. rewrite P2. reflexivity.
  - change (join_names (m :: m2 :: ms)) with (method_name m ++ bs ", " ++ join_names (m2 :: ms)). rewrite method_name_spelling. change (bs ", " ++ join_names (m2 :: ms)) with (44 :: 32 :: join_names (m2 :: ms)).
    unfold list_elements. rewrite split_commas_name by exact P1. cbn [map]. rewrite P2. f_equal. etransitivity; [apply strip_split_space|]. apply IH. discriminate.
Qed.
Lemma allow_spec regs u m : Forall (fun r => no0 (rt_path r)) regs ->
  (In (method_spelling m) (list_elements (allow_value regs u)) <-> m = GET \/ (m <> GET /\ exists r t, In r regs /\ rt_method r = m /\ u = rt_path r ++ t)) /\
  (forall x, In x (list_elements (allow_value regs u)) -> exists m', x = method_spelling m').
Proof.
  intros F. unfold allow_value. rewrite join_elements by discriminate. split.
  - rewrite <- valid_method_spec by exact F. split; [|apply in_map]. intros X. apply in_map_iff in X as (m' & E & X). replace m with m'; [exact X|]. destruct m, m'; try reflexivity; discriminate.
  - intros x X. apply in_map_iff in X as (m' & <- & _). eauto.
Qed.
