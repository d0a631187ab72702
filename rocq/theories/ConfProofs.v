(** Proofs about Conf.v. *)
From Verif Require Import Base CStr CNum Conf.
Local Open Scope N_scope.

(** ** The specification: what a line means *)
Definition blank (c : N) : Prop := c = 32 \/ c = 9.
Definition letter (c : N) : Prop := 65 <= c <= 90 \/ 97 <= c <= 122.
Definition name_char (c : N) : Prop := letter c \/ c = 95.
Definition value_char (c : N) : Prop := letter c \/ 48 <= c <= 57 \/ c = 46 \/ c = 47 \/ c = 45 \/ c = 95.
(** What may follow a value on the line: nothing, or white space and then anything. *)
Definition after_value (t : list N) : Prop := match t with [] => True | c :: _ => blank c \/ c = 13 end.
(** A line without its line feed: no setting, or a name and a value. *)
Inductive line_means : list N -> option (list N * list N) -> Prop :=
| lm_blank b : Forall (fun c => blank c \/ c = 13) b -> line_means b None
| lm_comment b t : Forall (fun c => blank c \/ c = 13) b -> line_means (b ++ 35 :: t) None
| lm_set b1 name b2 b3 value tail : Forall (fun c => blank c \/ c = 13) b1 -> name <> [] -> Forall name_char name -> Forall blank b2 -> Forall blank b3 ->
    value <> [] -> Forall value_char value -> after_value tail -> line_means (b1 ++ name ++ b2 ++ 61 :: b3 ++ value ++ tail) (Some (name, value)).

Lemma space_ok c : cf_space c = true <-> blank c.
Proof. unfold cf_space, blank. lia. Qed.
Lemma name_ok c : cf_name c = true <-> name_char c.
Proof. unfold cf_name, cf_alpha, name_char, letter. lia. Qed.
Lemma val_ok c : cf_value c = true <-> value_char c.
Proof. unfold cf_value, cf_alpha, value_char, letter. lia. Qed.
Ltac cls := unfold name_char, value_char, cf_name, cf_value in *; unfold blank, letter, cf_space, cf_alpha in *; lia.
Definition noLF (l : list N) : Prop := ~ In 10 l.
Lemma noLF_cons c t : noLF (c :: t) -> c <> 10 /\ noLF t.
Proof. intros H. split; [intros ->; apply H; left; reflexivity|intros X; apply H; right; exact X]. Qed.

(** State by state: what is accepted from here on, before the line feed. *)
Definition ValueEnd (v : list N) (t : list N) : Prop := exists w tail, t = w ++ tail /\ Forall value_char w /\ after_value tail /\ v = w.
Definition EqualRest (v : list N) (t : list N) : Prop := exists b w tail, t = b ++ w ++ tail /\ Forall blank b /\ w <> [] /\ Forall value_char w /\ after_value tail /\ v = w.
Definition NameEnd (v : list N) (t : list N) : Prop := exists b t', t = b ++ 61 :: t' /\ Forall blank b /\ EqualRest v t'.
Definition NameRest (n v : list N) (t : list N) : Prop := exists t', t = n ++ t' /\ Forall name_char n /\ NameEnd v t'.

Lemma pv_spec full name : forall t acc, noLF t ->
  (exists v, p_value full name acc (t ++ [10]) = LEnd name (acc ++ v) /\ ValueEnd v t) \/
  (p_value full name acc (t ++ [10]) = LSyntax /\ forall v, ~ ValueEnd v t).
Proof.
  induction t as [|c t IH]; intros acc H; cbn [app p_value].
  - left. exists []. rewrite app_nil_r. split; [reflexivity|]. exists [], []. repeat split; constructor.
  - apply noLF_cons in H as (HC & HT). destruct (cf_value c) eqn:V.
    + destruct (IH (acc ++ [c]) HT) as [(v & E & w & tail & -> & Fw & T & ->)|(E & NV)].
      * left. exists (c :: w). rewrite E. split; [rewrite <- app_assoc; reflexivity|]. exists (c :: w), tail. split; [reflexivity|]. split; [constructor; [apply val_ok; exact V|exact Fw]|auto].
      * right. split; [exact E|]. intros v (w & tail & Q & Fw & T & ->). destruct w as [|x w].
        -- cbn [app] in Q. subst tail. cbn [after_value] in T. cls.
        -- injection Q as <- Q. inversion Fw; subst. apply (NV w). exists w, tail. auto 10.
    + assert (NEG : ~ (blank c \/ c = 13) -> forall v, ~ ValueEnd v (c :: t)).
      { intros NB v (w & tail & Q & Fw & T & ->). destruct w as [|x w]; [cbn [app] in Q; subst tail; exact (NB T)|]. injection Q as <- Q. inversion Fw; subst. apply val_ok in H1. congruence. }
      assert (POS : (blank c \/ c = 13) -> ValueEnd [] (c :: t)) by (intros B; exists [], (c :: t); repeat split; [constructor|exact B]).
      destruct (cf_space c) eqn:S; [left; exists []; rewrite app_nil_r; split; [reflexivity|apply POS; left; apply space_ok; exact S]|].
      destruct (N.eqb_spec c 13) as [->|N13]; [left; exists []; rewrite app_nil_r; split; [reflexivity|apply POS; right; reflexivity]|].
      destruct (N.eqb_spec c 10) as [->|N10]; [contradiction|]. right. split; [reflexivity|]. apply NEG. cls.
Qed.
Lemma pe_spec full name : forall t, noLF t ->
  (exists v, p_equal full name (t ++ [10]) = LEnd name v /\ EqualRest v t) \/
  (p_equal full name (t ++ [10]) = LSyntax /\ forall v, ~ EqualRest v t).
Proof.
  induction t as [|c t IH]; intros H; cbn [app p_equal].
  - right. split; [reflexivity|]. intros v (b & w & tail & Q & _ & NW & _). destruct b; [|discriminate]. destruct w; [contradiction|discriminate].
  - apply noLF_cons in H as (HC & HT). destruct (cf_space c) eqn:S.
    + destruct (IH HT) as [(v & E & b & w & tail & -> & Fb & NW & Fw & T & ->)|(E & NV)].
      * left. exists w. split; [exact E|]. exists (c :: b), w, tail. repeat split; auto. constructor; [apply space_ok; exact S|exact Fb].
      * right. split; [exact E|]. intros v (b & w & tail & Q & Fb & NW & Fw & T & ->). destruct b as [|x b].
        -- destruct w as [|x w]; [contradiction|]. injection Q as <- Q. inversion Fw; subst. cls.
        -- injection Q as <- Q. inversion Fb; subst. apply (NV w). exists b, w, tail. auto 10.
    + destruct (cf_value c) eqn:V.
      * destruct (pv_spec full name t [c] HT) as [(v & E & w & tail & -> & Fw & T & ->)|(E & NV)].
        -- left. exists (c :: w). split; [exact E|]. exists [], (c :: w), tail. repeat split; auto; [discriminate|constructor; [apply val_ok; exact V|exact Fw]].
        -- right. split; [exact E|]. intros v (b & w & tail & Q & Fb & NW & Fw & T & ->). destruct b as [|x b].
           ++ destruct w as [|x w]; [contradiction|]. injection Q as <- Q. inversion Fw; subst. apply (NV w). exists w, tail. auto 10.
           ++ injection Q as <- Q. inversion Fb; subst. cls.
      * right. split; [reflexivity|]. intros v (b & w & tail & Q & Fb & NW & Fw & T & ->). destruct b as [|x b].
        -- destruct w as [|x w]; [contradiction|]. injection Q as <- Q. inversion Fw; subst. cls.
        -- injection Q as <- Q. inversion Fb; subst. cls.
Qed.
Lemma pne_spec full name : forall t, noLF t ->
  (exists v, p_name_end full name (t ++ [10]) = LEnd name v /\ NameEnd v t) \/
  (p_name_end full name (t ++ [10]) = LSyntax /\ forall v, ~ NameEnd v t).
Proof.
  induction t as [|c t IH]; intros H; cbn [app p_name_end].
  - right. split; [reflexivity|]. intros v (b & t' & Q & _). destruct b; discriminate.
  - apply noLF_cons in H as (HC & HT). destruct (cf_space c) eqn:S.
    + destruct (IH HT) as [(v & E & b & t' & -> & Fb & R)|(E & NV)].
      * left. exists v. split; [exact E|]. exists (c :: b), t'. repeat split; auto. constructor; [apply space_ok; exact S|exact Fb].
      * right. split; [exact E|]. intros v (b & t' & Q & Fb & R). destruct b as [|x b]; [injection Q as -> _; discriminate|]. injection Q as <- Q. inversion Fb; subst. apply (NV v). exists b, t'. auto.
    + destruct (N.eqb_spec c 61) as [->|N61].
      * destruct (pe_spec full name t HT) as [(v & E & R)|(E & NV)].
        -- left. exists v. split; [exact E|]. exists [], t. repeat split; auto.
        -- right. split; [exact E|]. intros v (b & t' & Q & Fb & R). destruct b as [|x b]; [injection Q as <-; exact (NV v R)|]. injection Q as <- Q. inversion Fb; subst. cls.
      * right. split; [reflexivity|]. intros v (b & t' & Q & Fb & R). destruct b as [|x b]; [injection Q as Q _; congruence|]. injection Q as <- Q. inversion Fb; subst. cls.
Qed.
Lemma pn_spec full : forall t acc, noLF t ->
  (exists n v, p_name full acc (t ++ [10]) = LEnd (acc ++ n) v /\ NameRest n v t) \/
  (p_name full acc (t ++ [10]) = LSyntax /\ forall n v, ~ NameRest n v t).
Proof.
  induction t as [|c t IH]; intros acc H; cbn [app p_name].
  - right. split; [reflexivity|]. intros n v (t' & Q & _ & b & t2 & -> & _). destruct n; destruct b; discriminate.
  - pose proof H as H0. apply noLF_cons in H as (HC & HT). assert (HEAD : forall n v, NameRest n v (c :: t) -> n = [] /\ NameEnd v (c :: t) \/ exists n', n = c :: n' /\ name_char c /\ NameRest n' v t).
    { intros n v (t' & Q & Fn & R). destruct n as [|x n]; [left; cbn [app] in Q; subst t'; auto|]. injection Q as <- Q. inversion Fn; subst. right. exists n. repeat split; auto. exists t'. auto. }
    destruct (cf_space c) eqn:S; [|destruct (N.eqb_spec c 61) as [->|N61]; [|destruct (cf_name c) eqn:NC]].
    + assert (E1 : p_name_end full acc ((c :: t) ++ [10]) = p_name_end full acc (t ++ [10])) by (cbn [app p_name_end]; rewrite S; reflexivity).
      destruct (pne_spec full acc (c :: t) H0) as [(v & E & R)|(E & NV)]; rewrite E1 in E.
      * left. exists [], v. rewrite app_nil_r. split; [exact E|]. exists (c :: t). auto.
      * right. split; [exact E|]. intros n v R. apply HEAD in R as [(_ & R)|(n' & _ & X & _)]; [exact (NV v R)|cls].
    + destruct (pne_spec full acc (61 :: t) H0) as [(v & E & R)|(E & NV)]; cbn [app p_name_end] in E; change (cf_space 61) with false in E; cbn match in E.
      * left. exists [], v. rewrite app_nil_r. split; [exact E|]. exists (61 :: t). auto.
      * right. split; [exact E|]. intros n v R. apply HEAD in R as [(_ & R)|(n' & _ & X & _)]; [exact (NV v R)|cls].
    + destruct (IH (acc ++ [c]) HT) as [(n & v & E & t' & -> & Fn & R)|(E & NV)].
      * left. exists (c :: n), v. rewrite E, <- app_assoc. split; [reflexivity|]. exists t'. repeat split; auto. constructor; [apply name_ok; exact NC|exact Fn].
      * right. split; [exact E|]. intros n v R. apply HEAD in R as [(_ & b & t' & Q & Fb & _)|(n' & _ & X & R)]; [|exact (NV n' v R)].
        destruct b as [|x b]; [injection Q as -> _; cls|]. injection Q as <- _. inversion Fb; subst. cls.
    + right. split; [reflexivity|]. intros n v R. apply HEAD in R as [(_ & b & t' & Q & Fb & _)|(n' & _ & X & R)]; [|cls].
      destruct b as [|x b]; [injection Q as -> _; cls|]. injection Q as <- _. inversion Fb; subst. cls.
Qed.

Lemma means_set n v t : NameRest n v t -> n <> [] -> line_means t (Some (n, v)).
Proof.
  intros (t1 & -> & Fn & b2 & t2 & -> & Fb & b3 & w & tail & -> & Fb3 & NW & Fw & T & ->) NN.
  exact (lm_set [] n b2 b3 w tail (Forall_nil _) NN Fn Fb Fb3 NW Fw T).
Qed.
Lemma means_skip c t m : blank c \/ c = 13 -> (line_means (c :: t) m <-> line_means t m).
Proof.
  intros B. split.
  - intros H. remember (c :: t) as l eqn:Q. destruct H as [b Fb|b u Fb|b1 n b2 b3 w tail F1 NN Fn F2 F3 NW Fw T].
    + subst b. inversion Fb; subst. apply lm_blank. assumption.
    + destruct b as [|x b]; [injection Q as <- _; exfalso; cls|]. injection Q as -> <-. inversion Fb; subst. apply lm_comment. assumption.
    + destruct b1 as [|x b1].
      * destruct n as [|x n]; [contradiction|]. injection Q as -> _. inversion Fn; subst. exfalso. cls.
      * injection Q as -> <-. inversion F1; subst. apply lm_set; assumption.
  - intros H. destruct H as [b Fb|b u Fb|b1 n b2 b3 w tail F1 NN Fn F2 F3 NW Fw T].
    + apply lm_blank. constructor; assumption.
    + apply (lm_comment (c :: b)). constructor; assumption.
    + apply (lm_set (c :: b1)); try assumption. constructor; assumption.
Qed.
Definition result_means (r : lres) (m : option (option (list N * list N))) : Prop :=
  match r with
  | LSkip => m = Some None
  | LSyntax => m = None
  | LEnd n v => m = Some (Some (n, v))
  end.
Lemma means_set_head c t m : ~ (blank c \/ c = 13) -> c <> 35 -> line_means (c :: t) m -> exists n v, m = Some (c :: n, v) /\ name_char c /\ NameRest n v t.
Proof.
  intros NB N35 H. remember (c :: t) as l eqn:Q. destruct H as [b Fb|b u Fb|b1 n b2 b3 w tail F1 NN Fn F2 F3 NW Fw T].
  - subst b. inversion Fb; subst. contradiction.
  - destruct b as [|x b]; [injection Q as <- _; contradiction|]. injection Q as -> _. inversion Fb; subst. contradiction.
  - destruct b1 as [|x b1]; [|injection Q as -> _; inversion F1; subst; contradiction]. destruct n as [|x n]; [contradiction|]. injection Q as -> <-. inversion Fn; subst.
    exists n, w. split; [reflexivity|]. split; [assumption|]. exists (b2 ++ 61 :: b3 ++ w ++ tail). repeat split; auto. exists b2, (b3 ++ w ++ tail). repeat split; auto. exists b3, w, tail. auto 10.
Qed.
(** Every line has at most one meaning, and the parser finds it. *)
Lemma pi_spec full : forall t, noLF t ->
  match p_init full (t ++ [10]) with
  | LSkip => forall m, line_means t m <-> m = None
  | LEnd n v => n <> [] /\ v <> [] /\ forall m, line_means t m <-> m = Some (n, v)
  | LSyntax => forall m, ~ line_means t m
  end.
Proof.
  induction t as [|c t IH]; intros H; cbn [app p_init].
  - intros m. split; [|intros ->; apply lm_blank; constructor]. intros X. remember [] as l eqn:Q. destruct X as [b Fb|b u Fb|b1 n b2 b3 w tail F1 NN Fn F2 F3 NW Fw T]; [reflexivity|reflexivity|].
    exfalso. destruct b1; [destruct n; [contradiction|discriminate]|discriminate].
  - apply noLF_cons in H as (HC & HT). specialize (IH HT).
    assert (BL : blank c \/ c = 13 -> match p_init full (t ++ [10]) with
      | LSkip => forall m, line_means (c :: t) m <-> m = None
      | LEnd n v => n <> [] /\ v <> [] /\ forall m, line_means (c :: t) m <-> m = Some (n, v)
      | LSyntax => forall m, ~ line_means (c :: t) m end).
    { intros B. destruct (p_init full (t ++ [10])).
      - intros m. rewrite (means_skip c t m B). apply IH.
      - intros m. rewrite (means_skip c t m B). apply IH.
      - destruct IH as (I1 & I2 & I3). split; [exact I1|]. split; [exact I2|]. intros m. rewrite (means_skip c t m B). apply I3. }
    destruct (cf_space c) eqn:S; [apply BL; left; apply space_ok; exact S|]. destruct (cf_name c) eqn:NC.
    + assert (NB : ~ (blank c \/ c = 13)) by cls. assert (N35 : c <> 35) by cls.
      destruct (pn_spec full t [c] HT) as [(n & v & E & R)|(E & NV)]; rewrite E.
      * split; [discriminate|]. split; [destruct R as (? & _ & _ & ? & ? & _ & _ & ? & ? & ? & _ & _ & NW & _ & _ & ->); exact NW|].
        assert (M : line_means (c :: t) (Some (c :: n, v))).
        { apply means_set; [|discriminate]. destruct R as (t' & -> & Fn & R). exists t'. repeat split; auto. constructor; [apply name_ok; exact NC|exact Fn]. }
        intros m. split; [|intros ->; exact M]. intros X. apply means_set_head in X as (n' & v' & -> & _ & R'); [|assumption..].
        (* the parser is a function, so the parts are determined *)
        assert (D : forall n1 v1 n2 v2, NameRest n1 v1 t -> NameRest n2 v2 t -> n1 = n2 /\ v1 = v2).
        { clear. intros n1 v1 n2 v2 (t1 & E1 & F1 & b1 & u1 & -> & Fb1 & x1 & w1 & r1 & -> & Fx1 & N1 & Fw1 & T1 & ->) (t2 & E2 & F2 & b2 & u2 & -> & Fb2 & x2 & w2 & r2 & -> & Fx2 & N2 & Fw2 & T2 & ->).
          assert (SP : forall (P : N -> Prop) (a a' r r' : list N), (forall c, P c -> forall s, r = c :: s -> False) -> (forall c, P c -> forall s, r' = c :: s -> False) -> Forall P a -> Forall P a' -> a ++ r = a' ++ r' -> a = a' /\ r = r').
          { intros P. induction a as [|x a IH]; intros [|x' a'] r r' Hr Hr' Fa Fa' E.
            - auto.
            - exfalso. inversion Fa'; subst. cbn [app] in E. eapply Hr; [eassumption|exact E].
            - exfalso. inversion Fa; subst. cbn [app] in E. symmetry in E. eapply Hr'; [eassumption|exact E].
            - injection E as <- E. inversion Fa; inversion Fa'; subst. destruct (IH a' r r' Hr Hr') as (-> & ->); auto. }
          assert (H1 : forall (b u : list N) c, Forall blank b -> name_char c -> forall s, b ++ 61 :: u = c :: s -> False).
          { intros b u c Fb Nc s Q. destruct b as [|y b]; [injection Q as <- _; cls|]. injection Q as -> _. inversion Fb; subst. cls. }
          rewrite E1 in E2. apply (SP name_char) in E2 as (-> & E2); [|intros c Nc s; apply H1; assumption..|exact F1|exact F2].
          apply (SP blank) in E2 as (_ & E2); [|intros c Bc s Q; injection Q as <- _; cls..|exact Fb1|exact Fb2]. injection E2 as E2.
          assert (H2 : forall (w r : list N) c, w <> [] -> Forall value_char w -> blank c -> forall s, w ++ r = c :: s -> False).
          { intros w r c NW Fw Bc s Q. destruct w as [|y w]; [contradiction|]. injection Q as -> _. inversion Fw; subst. cls. }
          apply (SP blank) in E2 as (_ & E2); [|intros c Bc s; apply H2; assumption..|exact Fx1|exact Fx2].
          apply (SP value_char) in E2 as (-> & _); [split; reflexivity| | |exact Fw1|exact Fw2].
          - intros c Vc s ->. cbn [after_value] in T1. cls.
          - intros c Vc s ->. cbn [after_value] in T2. cls. }
        destruct (D _ _ _ _ R R') as (-> & ->). reflexivity.
      * intros m X. apply means_set_head in X as (n' & v' & -> & _ & R'); [|assumption..]. exact (NV n' v' R').
    + destruct (N.eqb_spec c 35) as [->|N35].
      * intros m. split; [|intros ->; apply (lm_comment [] t (Forall_nil _))]. intros X. remember (35 :: t) as l eqn:Q. destruct X as [b Fb|b u Fb|b1 n b2 b3 w tail F1 NN Fn F2 F3 NW Fw T]; [reflexivity|reflexivity|].
        exfalso. destruct b1 as [|x b1]; [destruct n as [|x n]; [contradiction|]; injection Q as -> _; inversion Fn; subst; cls|]. injection Q as -> _. inversion F1; subst. cls.
      * destruct (N.eqb_spec c 13) as [->|N13]; [apply BL; right; reflexivity|]. destruct (N.eqb_spec c 10) as [->|N10]; [contradiction|].
        intros m X. apply means_set_head in X as (n' & v' & -> & X & _); [|cls|exact N35]. cls.
Qed.

(** ** Files *)
Definition is_option (name : list N) : Prop := exists c, In c configs /\ c_name c = name.
(** The value is accepted for the option: one of the documented spellings, a number that is not a multiple of 2^32
    (or begins with a zero), anything. *)
Definition number (v : list N) : Prop := v <> [] /\ Forall (fun c => 48 <= c <= 57) v.
Definition acceptable (t : ctype) (v : list N) : Prop :=
  match t with
  | CString => True
  | CBool => v = bs "true" \/ v = bs "True" \/ v = bs "false" \/ v = bs "False"
  | CInteger => number v /\ (hd 0 v = 48 \/ dec_value v < 4294967296)
  end.
Definition good_setting (m : option (list N * list N)) : Prop :=
  match m with
  | None => True
  | Some (n, v) => exists c, In c configs /\ c_name c = n /\ acceptable (c_type c) v
  end.
(** The value last given to a name. *)
Definition last_value (name : list N) (ms : list (option (list N * list N))) : option (list N) :=
  fold_left (fun r m => match m with Some (n, v) => if bytes_eqb n name then Some v else r | None => r end) ms None.
Definition file_of (lines : list (list N)) : list N := concat (map (fun l => l ++ [10]) lines).
Definition fits (l : list N) : Prop := noLF l /\ (length l <= 1022)%nat.

Lemma fgets_line : forall l n rest, noLF l -> (length l < n)%nat -> fgets n (l ++ 10 :: rest) = (l ++ [10], rest).
Proof.
  induction l as [|c l IH]; intros n rest H L; (destruct n as [|n]; [lia|]); cbn [app fgets]; [reflexivity|].
  apply noLF_cons in H as (HC & HT). destruct (N.eqb_spec c 10); [contradiction|]. cbn [length] in L. rewrite IH by (auto; lia). reflexivity.
Qed.
Lemma fgets_short : forall l n, noLF l -> (length l <= n)%nat -> fgets n l = (l, []).
Proof.
  induction l as [|c l IH]; intros n H L; [destruct n; reflexivity|]. destruct n as [|n]; [cbn in L; lia|]. cbn [fgets]. apply noLF_cons in H as (HC & HT). destruct (N.eqb_spec c 10); [contradiction|]. cbn [length] in L. rewrite IH by (auto; lia). reflexivity.
Qed.
Lemma has_LF l : existsb (fun c => (c =? 13) || (c =? 10)) (l ++ [10]) = true.
Proof. rewrite existsb_app. cbn. apply orb_true_r. Qed.

Lemma search_in_spec : forall cs i name, match item_search_in cs i name with
  | Some (j, c) => exists a b, cs = a ++ c :: b /\ j = (i + length a)%nat /\ c_name c = name /\ Forall (fun x => c_name x <> name) a
  | None => Forall (fun x => c_name x <> name) cs
  end.
Proof.
  induction cs as [|c cs IH]; intros i name; cbn [item_search_in]; [constructor|].
  destruct ((length name =? length (c_name c))%nat && strncmp_eqb (length name) name (c_name c)) eqn:E.
  - apply andb_true_iff in E as (E1 & E2). apply Nat.eqb_eq in E1. exists [], cs. repeat split; [cbn; lia| |constructor]. symmetry. apply (strncmp_min_eq (length name)); auto.
  - assert (NE : c_name c <> name). { intros <-. rewrite Nat.eqb_refl in E. cbn [andb] in E. rewrite strncmp_prefix in E. assert (X : is_prefix (c_name c) (c_name c) = true) by (apply is_prefix_spec; exists []; rewrite app_nil_r; reflexivity). congruence. }
    specialize (IH (S i) name). destruct (item_search_in cs (S i) name) as [[j c']|].
    + destruct IH as (a & b & -> & -> & Ec & F). exists (c :: a), b. repeat split; [cbn [length]; lia|exact Ec|constructor; assumption].
    + constructor; assumption.
Qed.
(** Names are unique. *)
Lemma names_unique : forall i j c d, nth_error configs i = Some c -> nth_error configs j = Some d -> c_name c = c_name d -> i = j.
Proof.
  assert (ND : NoDup (map c_name configs)).
  { assert (B : (fix nd l := match l with [] => true | x :: t => negb (existsb (bytes_eqb x) t) && nd t end) (map c_name configs) = true) by (vm_compute; reflexivity).
    revert B. generalize (map c_name configs). induction l as [|x l IH]; intros B; [constructor|]. apply andb_true_iff in B as (B1 & B2). constructor; [|auto].
    intros X. apply negb_true_iff in B1. assert (existsb (bytes_eqb x) l = true) by (apply existsb_exists; exists x; split; [exact X|apply bytes_eqb_refl]). congruence. }
  intros i j c d Ci Dj E. apply (map_nth_error c_name) in Ci, Dj. rewrite E in Ci. apply (proj1 (NoDup_nth_error _) ND); [apply nth_error_Some; rewrite Ci; discriminate|congruence].
Qed.
Lemma search_spec name : match item_search name with
  | Some (i, c) => nth_error configs i = Some c /\ c_name c = name
  | None => ~ is_option name
  end.
Proof.
  unfold item_search. pose proof (search_in_spec configs 0 name) as H. destruct (item_search_in configs 0 name) as [[j c]|].
  - destruct H as (a & b & E & -> & Ec & _). rewrite E. rewrite nth_error_app2 by lia. replace (0 + length a - length a)%nat with 0%nat by lia. split; [reflexivity|exact Ec].
  - intros (c & I & E). rewrite Forall_forall in H. exact (H c I E).
Qed.

Lemma dec_small v : number v -> strtoll v = Z.min long_max (Z.of_N (dec_value v)).
Proof.
  intros (NE & F). rewrite <- (app_nil_r v) at 1. apply strtoll_digits; [|exact NE|exact Logic.I]. eapply Forall_impl; [|exact F]. intros c H. unfold is_digit. cbn beta in H. lia.
Qed.
Lemma acceptable_ok t v : acceptable t v -> (t = CInteger -> hd 0 v = 48 \/ dec_value v <> 0) -> value_ok t v = true.
Proof.
  destruct t; cbn [acceptable value_ok]; [|reflexivity|].
  - intros (NV & R) Z. specialize (Z eq_refl). pose proof NV as (NE & F). destruct v as [|c v]; [contradiction|]. cbn [hd] in *. destruct (N.eqb_spec c 48) as [->|N48]; [cbn [negb]; rewrite andb_false_r; reflexivity|].
    destruct Z as [Z|Z]; [contradiction|]. destruct R as [R|R]; [contradiction|]. rewrite (dec_small _ NV). unfold int_of_long, long_max. cbn [negb]. rewrite andb_true_r.
    set (d := dec_value (c :: v)) in *. clearbody d. rewrite Z.min_r by lia. apply negb_true_iff, Z.eqb_neq. intros Q.
    assert (Q' : ((Z.of_N d + 2147483648) mod 4294967296 = 2147483648)%Z) by lia. pose proof (Z.div_mod (Z.of_N d + 2147483648) 4294967296 ltac:(lia)) as DM. rewrite Q' in DM. nia.
  - intros [->|[->|[->| ->]]] _; vm_compute; reflexivity.
Qed.
(** A number that does not begin with a zero is not zero. *)
Lemma number_pos v : number v -> hd 0 v = 48 \/ dec_value v <> 0.
Proof.
  intros (NE & F). destruct v as [|c v]; [contradiction|]. cbn [hd]. destruct (N.eq_dec c 48) as [->|NC]; [left; reflexivity|]. right. change (c :: v) with ([c] ++ v). rewrite dec_value_app. inversion F; subst.
  assert (X : dec_value [c] <> 0) by (unfold dec_value; cbn [fold_left]; lia). pose proof (N.pow_nonzero 10 (N.of_nat (length v)) ltac:(lia)). nia.
Qed.

Definition set_option (e : env) (m : option (list N * list N)) : env :=
  match m with
  | None => e
  | Some (n, v) => fun j => match nth_error configs j with Some c => if bytes_eqb (c_name c) n then Some v else e j | None => e j end
  end.
Lemma set_env_option e i c n v : nth_error configs i = Some c -> c_name c = n -> forall j, set_env e i v j = set_option e (Some (n, v)) j.
Proof.
  intros Hi Hn j. unfold set_env. cbn [set_option]. destruct (Nat.eqb_spec j i) as [->|NE].
  - rewrite Hi, Hn, bytes_eqb_refl. reflexivity.
  - destruct (nth_error configs j) as [d|] eqn:Hj; [|reflexivity]. destruct (bytes_eqb (c_name d) n) eqn:B; [|reflexivity]. apply bytes_eqb_eq in B. exfalso. apply NE. eapply names_unique; [exact Hj|exact Hi|congruence].
Qed.
Definition same_env (e e' : env) : Prop := forall i, e i = e' i.
Lemma conf_line_good e l m : fits l -> line_means l m -> good_setting m -> exists e', conf_line e (l ++ [10]) = Ok (SNext e') /\ same_env e' (set_option e m).
Proof.
  intros (NL & LL) M G. unfold conf_line. pose proof (pi_spec (length (l ++ [10%N]) =? buf_length - 1)%nat l NL) as P. destruct (p_init _ (l ++ [10])) as [| |n v].
  - apply P in M. subst m. eexists. split; [reflexivity|]. intros i. reflexivity.
  - exfalso. exact (P m M).
  - destruct P as (P1 & P2 & P3). apply P3 in M. subst m. rewrite has_LF. destruct n as [|n0 n]; [contradiction|]. destruct v as [|v0 v]; [contradiction|].
    cbn [good_setting] in G. destruct G as (c & Ic & En & A). pose proof (search_spec (n0 :: n)) as S. destruct (item_search (n0 :: n)) as [[i c']|]; [|exfalso; apply S; exists c; auto].
    destruct S as (Hi & En'). assert (c' = c). { apply In_nth_error in Ic as (j & Hj). assert (j = i) by (eapply names_unique; [exact Hj|exact Hi|congruence]). subst j. congruence. } subst c'.
    rewrite acceptable_ok; [|exact A|].
    + eexists. split; [reflexivity|]. intros j. apply (set_env_option e i c); assumption.
    + intros T. rewrite T in A. apply number_pos. apply A.
Qed.
Lemma conf_line_ext e e' l : same_env e e' -> match conf_line e l, conf_line e' l with
  | Ok (SNext f), Ok (SNext f') => same_env f f'
  | r, r' => r = r'
  end.
Proof.
  intros E. unfold conf_line. destruct (p_init _ l) as [| |n v]; [exact E|reflexivity|]. destruct (existsb _ l); [|reflexivity]. destruct n; [reflexivity|]. destruct v; [reflexivity|].
  destruct (item_search _) as [[i c]|]; [|reflexivity]. destruct (value_ok _ _); [|reflexivity]. intros j. unfold set_env. destruct (j =? i)%nat; [reflexivity|apply E].
Qed.
(** Good lines are read one after the other. *)
Lemma conf_loop_lines : forall lines ms, Forall2 line_means lines ms -> Forall fits lines -> Forall good_setting ms ->
  forall rest e fuel, (length (file_of lines ++ rest) < fuel)%nat ->
  exists e' fuel', same_env e' (fold_left set_option ms e) /\ conf_loop fuel e (file_of lines ++ rest) = conf_loop fuel' e' rest /\ (length rest < fuel')%nat.
Proof.
  induction 1 as [|l m lines ms M F2 IH]; intros Fl G rest e fuel L.
  - exists e, fuel. split; [intros i; reflexivity|]. split; [reflexivity|exact L].
  - inversion Fl as [|? ? L1 L2]; subst. inversion G as [|? ? G1 G2]; subst. destruct fuel as [|fuel]; [lia|].
    change (file_of (l :: lines)) with ((l ++ [10]) ++ file_of lines) in *. rewrite <- !app_assoc in *. cbn [app] in *.
    destruct (conf_line_good e l m L1 M G1) as (e1 & E1 & S1).
    destruct (IH L2 G2 rest e1 fuel) as (e' & fuel' & S & E & LF); [rewrite !app_length in *; cbn [length] in L; rewrite app_length in *; lia|].
    exists e', fuel'. split; [|split; [|exact LF]].
    + intros i. rewrite S. cbn [fold_left]. clear - S1. revert i. revert e1 S1. generalize (set_option e m). induction ms as [|x ms IH]; intros a b S1; [exact S1|]. cbn [fold_left]. apply IH.
      intros j. destruct x as [[n v]|]; cbn [set_option]; [|apply S1]. destruct (nth_error configs j); [|apply S1]. destruct (bytes_eqb _ _); [reflexivity|apply S1].
    + cbn [conf_loop]. assert (FG : fgets (buf_length - 1) (l ++ 10 :: file_of lines ++ rest) = (l ++ [10], file_of lines ++ rest)).
      { apply fgets_line; [apply L1|]. destruct L1 as (_ & L1). unfold buf_length. lia. }
      destruct (l ++ 10 :: file_of lines ++ rest) eqn:Q; [destruct l; discriminate|]. rewrite FG. cbn [fst snd]. rewrite E1. cbn [obind]. exact E.
Qed.
Lemma final_env ms e i c : nth_error configs i = Some c ->
  fold_left set_option ms e i = match last_value (c_name c) ms with Some v => Some v | None => e i end.
Proof.
  intros Hi. unfold last_value. assert (X : forall ms e r, e i = match r with Some v => Some v | None => e i end ->
    fold_left set_option ms e i = match fold_left (fun r m => match m with Some (n, v) => if bytes_eqb n (c_name c) then Some v else r | None => r end) ms r with Some v => Some v | None => e i end).
  { clear ms e. induction ms as [|m ms IH]; intros e r R; [exact R|]. cbn [fold_left]. destruct m as [[n v]|]; [|apply IH; exact R].
    assert (Q : set_option e (Some (n, v)) i = if bytes_eqb n (c_name c) then Some v else e i).
    { cbn [set_option]. rewrite Hi. replace (bytes_eqb (c_name c) n) with (bytes_eqb n (c_name c)); [reflexivity|]. destruct (bytes_eqb n (c_name c)) eqn:B1; symmetry; [apply bytes_eqb_eq in B1 as ->; apply bytes_eqb_refl|]. apply bytes_eqb_neq. apply bytes_eqb_neq in B1. congruence. }
    destruct (bytes_eqb n (c_name c)).
    - rewrite (IH _ (Some v)); [|rewrite Q; reflexivity]. rewrite Q.
      assert (Y : forall (ms : list (option (list N * list N))) (r : option (list N)), (exists x, r = Some x) -> exists x, fold_left (fun r m => match m with Some (n, v) => if bytes_eqb n (c_name c) then Some v else r | None => r end) ms r = Some x).
      { clear. induction ms as [|[[n v]|] ms IH]; intros r H; cbn [fold_left]; [exact H| |]; [|apply IH; exact H]. apply IH. destruct (bytes_eqb n (c_name c)); eauto. }
      destruct (Y ms (Some v)) as (x & ->); [eauto|]. reflexivity.
    - rewrite (IH _ r); [|rewrite Q; exact R]. rewrite Q. reflexivity. }
  apply X. reflexivity.
Qed.
Lemma config_read_good lines ms : Forall2 line_means lines ms -> Forall fits lines -> Forall good_setting ms ->
  exists e, parse_config (file_of lines) = Ok (CSuccess e) /\
    forall i c, nth_error configs i = Some c -> e i = match last_value (c_name c) ms with Some v => Some v | None => c_default c end.
Proof.
  intros M F G. unfold parse_config. rewrite <- (app_nil_r (file_of lines)). destruct (conf_loop_lines lines ms M F G [] defaults (S (length (file_of lines ++ [])))) as (e & fuel & S & E & L); [lia|].
  exists e. rewrite E. destruct fuel as [|fuel]; [cbn in L; lia|]. split; [reflexivity|]. intros i c Hi. rewrite S, (final_env ms defaults i c Hi). unfold defaults. rewrite Hi. reflexivity.
Qed.
Definition bad_line (l : list N) : Prop := (forall m, ~ line_means l m) \/ exists n v, line_means l (Some (n, v)) /\ ~ is_option n.
Lemma config_bad lines ms l rest : Forall2 line_means lines ms -> Forall fits lines -> Forall good_setting ms -> fits l -> bad_line l ->
  exists e, parse_config (file_of lines ++ l ++ 10 :: rest) = Ok (CError e).
Proof.
  intros M F G (NL & LL) B. unfold parse_config. destruct (conf_loop_lines lines ms M F G (l ++ 10 :: rest) defaults (S (length (file_of lines ++ l ++ 10%N :: rest)))) as (e & fuel & _ & E & L); [lia|].
  exists e. rewrite E. destruct fuel as [|fuel]; [lia|]. cbn [conf_loop]. assert (FG : fgets (buf_length - 1) (l ++ 10 :: rest) = (l ++ [10], rest)) by (apply fgets_line; [exact NL|unfold buf_length; lia]).
  destruct (l ++ 10 :: rest) as [|q0 q] eqn:Q; [destruct l; discriminate|]. rewrite FG. cbn [fst snd].
  assert (CL : conf_line e (l ++ [10]) = Ok SError); [|rewrite CL; reflexivity].
  unfold conf_line. pose proof (pi_spec (length (l ++ [10%N]) =? buf_length - 1)%nat l NL) as P. destruct (p_init _ (l ++ [10])) as [| |n v]; [|reflexivity|].
  - exfalso. destruct B as [B|(n & v & B & _)]; [exact (B None (proj2 (P None) eq_refl))|]. apply P in B. discriminate.
  - destruct P as (P1 & P2 & P3). rewrite has_LF. destruct B as [B|(n' & v' & B & NO)]; [exfalso; exact (B _ (proj2 (P3 _) eq_refl))|]. apply P3 in B. injection B as -> ->.
    destruct n as [|n0 n]; [contradiction|]. destruct v as [|v0 v]; [contradiction|]. pose proof (search_spec (n0 :: n)) as S. destruct (item_search (n0 :: n)) as [[i c']|]; [|reflexivity].
    destruct S as (Hi & En). exfalso. apply NO. exists c'. split; [eapply nth_error_In; exact Hi|exact En].
Qed.

(** ** The last line without line feed *)
Lemma value_nonl full : forall l n acc, ~ In 13 l -> noLF l -> full = false -> p_value full n acc l = LSyntax \/ exists v, p_value full n acc l = LEnd n v.
Proof.
  induction l as [|c l IH]; intros n acc N13 NL ->; cbn [p_value]; [left; reflexivity|]. apply noLF_cons in NL as (_ & NL). assert (N13' : ~ In 13 l) by (intros X; apply N13; right; exact X).
  destruct (cf_value c); [apply IH; auto|]. destruct (cf_space c); [right; eauto|]. destruct (_ || _); [right; eauto|left; reflexivity].
Qed.
Lemma comment_nonl : forall b t, Forall (fun c => blank c \/ c = 13) b -> forall full, p_init full (b ++ 35 :: t) = LSkip.
Proof.
  induction 1 as [|c b B Fb IH]; intros full; [reflexivity|]. cbn [app p_init]. destruct (cf_space c) eqn:S; [apply IH|]. assert (c = 13) by cls. subst c. exact (IH full).
Qed.
(** A line that is not skipped at [p_init] does not become acceptable when nothing follows it. *)
Lemma no_skip : forall l, ~ (exists b t, l = b ++ 35 :: t /\ Forall (fun c => blank c \/ c = 13) b) -> noLF l -> p_init false l <> LSkip.
Proof.
  induction l as [|c l IH]; intros H NL; cbn [p_init]; [discriminate|]. apply noLF_cons in NL as (NC & NL).
  assert (NAME : forall t acc, p_name false acc t <> LSkip).
  { assert (V : forall t n acc, p_value false n acc t <> LSkip) by (induction t as [|x t IHt]; intros n acc; cbn [p_value]; [discriminate|]; destruct (cf_value x); [apply IHt|]; destruct (cf_space x); [discriminate|]; destruct (_ || _); discriminate).
    assert (EQ : forall t n, p_equal false n t <> LSkip) by (induction t as [|x t IHt]; intros n; cbn [p_equal]; [discriminate|]; destruct (cf_space x); [apply IHt|]; destruct (cf_value x); [apply V|discriminate]).
    assert (NE : forall t n, p_name_end false n t <> LSkip) by (induction t as [|x t IHt]; intros n; cbn [p_name_end]; [discriminate|]; destruct (cf_space x); [apply IHt|]; destruct (x =? 61); [apply EQ|discriminate]).
    induction t as [|x t IHt]; intros acc; cbn [p_name]; [discriminate|]. destruct (cf_space x); [apply NE|]. destruct (x =? 61); [apply EQ|]. destruct (cf_name x); [apply IHt|discriminate]. }
  assert (REC : blank c \/ c = 13 -> p_init false l <> LSkip).
  { intros B. apply IH; [|exact NL]. intros (b & t & -> & Fb). apply H. exists (c :: b), t. split; [reflexivity|constructor; assumption]. }
  destruct (cf_space c) eqn:S; [apply REC; left; apply space_ok; exact S|]. destruct (cf_name c); [apply NAME|]. destruct (N.eqb_spec c 35) as [->|N35]; [exfalso; apply H; exists [], l; split; [reflexivity|constructor]|].
  destruct (N.eqb_spec c 13) as [->|N13]; [apply REC; right; reflexivity|]. destruct (N.eqb_spec c 10); [contradiction|discriminate].
Qed.
Definition is_comment (l : list N) : Prop := exists b t, l = b ++ 35 :: t /\ Forall (fun c => blank c \/ c = 13) b.
Lemma last_line lines ms l : Forall2 line_means lines ms -> Forall fits lines -> Forall good_setting ms -> l <> [] -> fits l -> ~ In 13 l ->
  (is_comment l -> exists e, parse_config (file_of lines ++ l) = Ok (CSuccess e) /\ same_env e (fold_left set_option ms defaults)) /\
  (~ is_comment l -> (exists e, parse_config (file_of lines ++ l) = Ok (CError e)) \/ parse_config (file_of lines ++ l) = UB OutOfBounds).
Proof.
  intros M F G NE (NL & LL) N13. unfold parse_config. destruct (conf_loop_lines lines ms M F G l defaults (S (length (file_of lines ++ l)))) as (e & fuel & SE & E & L); [lia|]. rewrite E.
  destruct fuel as [|fuel]; [lia|]. assert (FG : fgets (buf_length - 1) l = (l, [])) by (apply fgets_short; [exact NL|unfold buf_length; lia]).
  assert (SH : conf_loop (S fuel) e l = obind (conf_line e l) (fun s => match s with SNext e' => conf_loop fuel e' [] | SError => Ok (CError e) | SExit => Ok CExit end)).
  { cbn [conf_loop]. destruct l; [contradiction|]. rewrite FG. reflexivity. }
  rewrite SH. clear SH. assert (FU : (length l =? buf_length - 1)%nat = false) by (apply Nat.eqb_neq; unfold buf_length; lia). unfold conf_line. rewrite FU.
  assert (fuel <> O) by (destruct l; [contradiction|cbn in L; lia]). split.
  - intros (b & t & -> & Fb). rewrite comment_nonl by exact Fb. cbn [obind]. destruct fuel as [|fuel]; [contradiction|]. exists e. split; [reflexivity|exact SE].
  - intros NC. pose proof (no_skip l NC NL) as NS. destruct (p_init false l) as [| |n v]; [contradiction|left; exists e; reflexivity|].
    destruct (existsb (fun c => (c =? 13) || (c =? 10)) l) eqn:X; [|right; reflexivity]. apply existsb_exists in X as (c & I & X). exfalso.
    destruct (N.eqb_spec c 13) as [->|]; [exact (N13 I)|]. destruct (N.eqb_spec c 10) as [->|]; [exact (NL I)|discriminate].
Qed.

(** ** Reading options *)
Lemma env_unique i c : nth_error configs i = Some c -> env_search_in configs 0 (c_env c) = Some i.
Proof.
  assert (B : forallb (fun i => match nth_error configs i with Some c => match env_search_in configs 0 (c_env c) with Some j => (i =? j)%nat | None => false end | None => true end) (seq 0 (length configs)) = true) by (vm_compute; reflexivity).
  intros Hi. rewrite forallb_forall in B. assert (L : (i < length configs)%nat) by (apply nth_error_Some; congruence). assert (I : In i (seq 0 (length configs))) by (apply in_seq; split; [apply Nat.le_0_l|exact L]). specialize (B i I). cbv beta in B. rewrite Hi in B.
  destruct (env_search_in configs 0 (c_env c)) as [j|]; [|discriminate]. apply Nat.eqb_eq in B. congruence.
Qed.
Lemma lead_all v : Forall (fun c => 48 <= c <= 57) v -> lead_digits v = v.
Proof. intros F. rewrite <- (app_nil_r v) at 1. apply lead_digits_all; [|exact Logic.I]. eapply Forall_impl; [|exact F]. intros c H. unfold is_digit. cbn beta in H. lia. Qed.
Lemma strtol_number v : number v -> strtol_exact v = Z.of_N (dec_value v) /\ strtol_exact (45 :: v) = (- Z.of_N (dec_value v))%Z.
Proof.
  intros (NE & F). split.
  - destruct v as [|c v]; [contradiction|]. inversion F as [|? ? C _]; subst. unfold strtol_exact. cbn [skip_spaces]. replace (c_isspace c) with false by (unfold c_isspace; lia).
    pose proof (lead_all (c :: v) F) as LA. assert (K : c = 48 \/ c = 49 \/ c = 50 \/ c = 51 \/ c = 52 \/ c = 53 \/ c = 54 \/ c = 55 \/ c = 56 \/ c = 57) by lia.
    repeat (destruct K as [K|K]); subst c; rewrite LA; reflexivity.
  - unfold strtol_exact. cbn [skip_spaces]. change (c_isspace 45) with false. cbn match. rewrite lead_all by exact F. reflexivity.
Qed.
Lemma long_number e i c v : nth_error configs i = Some c -> e i = Some v -> number v -> value_long e (c_env c) = Some (Z.min long_max (Z.of_N (dec_value v))).
Proof.
  intros Hi Ei NV. unfold value_long. rewrite (env_unique i c Hi), Ei. cbv zeta. rewrite (proj1 (strtol_number v NV)). f_equal. unfold long_min, long_max.
  destruct (Z.ltb_spec (Z.of_N (dec_value v)) (-9223372036854775808)); [lia|]. cbn [orb]. destruct (Z.ltb_spec 9223372036854775807 (Z.of_N (dec_value v))); lia.
Qed.
Lemma long_negative e i c v : nth_error configs i = Some c -> e i = Some (45 :: v) -> number v -> (Z.of_N (dec_value v) <= 9223372036854775808)%Z ->
  value_long e (c_env c) = Some (- Z.of_N (dec_value v))%Z.
Proof.
  intros Hi Ei NV L. unfold value_long. rewrite (env_unique i c Hi), Ei. cbv zeta. rewrite (proj2 (strtol_number v NV)). f_equal. unfold long_min, long_max.
  destruct (Z.ltb_spec (- Z.of_N (dec_value v)) (-9223372036854775808)); [lia|]. cbn [orb]. destruct (Z.ltb_spec 9223372036854775807 (- Z.of_N (dec_value v))); lia.
Qed.
Lemma prefix4 v (w : list N) : length w = 4%nat -> strncmp_eqb 4 v w = true <-> exists t, v = w ++ t.
Proof. intros <-. rewrite strncmp_prefix. apply is_prefix_spec. Qed.
Lemma bool_exact e i c v : nth_error configs i = Some c -> e i = Some v ->
  exists b, value_bool e (c_env c) = Some b /\ (b = true <-> exists t, v = bs "true" ++ t \/ v = bs "True" ++ t).
Proof.
  intros Hi Ei. unfold value_bool. rewrite (env_unique i c Hi), Ei. eexists. split; [reflexivity|]. rewrite orb_true_iff, !prefix4 by reflexivity. split.
  - intros [(t & H)|(t & H)]; eauto.
  - intros (t & [H|H]); eauto.
Qed.
