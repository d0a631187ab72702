(** Proofs about the log file: records are never interleaved, and complete unless a write is short. *)
From Verif Require Import Base Log.
Local Open Scope nat_scope.

(** ** Specification *)
Definition text (r : rec) : list N := r_head r ++ r_body r.
(** The records process p was asked to write, in order. *)
Fixpoint logs (p : nat) (es : list ev) : list rec :=
  match es with
  | [] => []
  | ELog q r :: t => if q =? p then r :: logs p t else logs p t
  | _ :: t => logs p t
  end.
(** Nothing fails, no process is killed and every write takes all bytes; interrupted writes are allowed. *)
Definition clean_ev (e : ev) : bool :=
  match e with ELockErr _ | ESeekErr _ | EWrite _ (Some _) | EWriteErr _ | EKill _ => false | _ => true end.
Definition clean (es : list ev) : bool := forallb clean_ev es.
(** An entry of the file: who wrote it, for which record, and the pieces of the place holder and of the
    content it consists of. *)
Record entry := mkEntry { e_by : nat; e_rec : rec; e_heads : list (list N); e_bodies : list (list N); e_done : bool }.
Definition out (e : entry) : list N := concat (e_heads e) ++ concat (e_bodies e).
Definition prefix_of (l a : list N) : Prop := exists n, a = firstn n l.
Definition entry_ok (e : entry) : Prop :=
  Forall (prefix_of (r_head (e_rec e))) (e_heads e) /\ Forall (prefix_of (r_body (e_rec e))) (e_bodies e) /\
  (e_done e = true -> length (concat (e_heads e)) = length (r_head (e_rec e)) /\ length (concat (e_bodies e)) = length (r_body (e_rec e))).
Definition wrote (p : nat) (j : list entry) : list rec := map e_rec (filter (fun e => e_by e =? p) j).
(** Records accepted by a process that it has not begun to write. *)
Definition pending (c : pc) : list rec := match c with PLock r => [r] | PDead l => l | _ => [] end.

(** ** Invariant *)
Definition quiet (c : pc) : Prop := match c with PIdle | PLock _ | PDead _ => True | _ => False end.
(** Position inside a record: which text is being written and how much of it is. *)
Definition at_text (cl : bool) (e : entry) (c : list N) (total : nat) (rest : list (list N)) : Prop :=
  (c = r_head (e_rec e) /\ rest = [r_body (e_rec e)] /\ length (concat (e_heads e)) = total /\ e_bodies e = [] /\ (cl = true -> total = 0)) \/
  (c = r_body (e_rec e) /\ rest = [] /\ length (concat (e_heads e)) = length (r_head (e_rec e)) /\ length (concat (e_bodies e)) = total /\
   (cl = true -> total = 0 /\ concat (e_heads e) = r_head (e_rec e))).
Definition crit (cl : bool) (f : lfile) (e : entry) (c : pc) : Prop :=
  match c with
  | PStart c rest => at_text cl e c 0 rest
  | PCur c total rest => lf_pos f = length (lf_bytes f) /\ total <= length c /\ at_text cl e c total rest
  | PWrite c total now rest | PBack c total now rest => lf_pos f = length (lf_bytes f) /\ now = lf_pos f /\ total <= length c /\ at_text cl e c total rest
  | PUnlock true => length (concat (e_heads e)) = length (r_head (e_rec e)) /\ length (concat (e_bodies e)) = length (r_body (e_rec e)) /\
                    (cl = true -> out e = text (e_rec e))
  | PUnlock false => cl = false
  | _ => False
  end.
Definition finished (e : entry) : Prop := e_done e = true /\ out e = text (e_rec e).
Record LInv (c0 : list N) (es : list ev) (s : sys) (j : list entry) : Prop := {
  LI_bytes : lf_bytes (s_file s) = c0 ++ concat (map out j);
  LI_ok : Forall entry_ok j;
  LI_lock : match s_lock s with
    | None => (forall p, quiet (s_proc s p)) /\ (clean es = true -> Forall finished j)
    | Some p => (forall q, q <> p -> quiet (s_proc s q)) /\
        exists j' e, j = j' ++ [e] /\ e_by e = p /\ e_done e = false /\ crit (clean es) (s_file s) e (s_proc s p) /\ (clean es = true -> Forall finished j')
    end;
  LI_logs : forall p, logs p es = wrote p j ++ pending (s_proc s p);
  LI_alive : clean es = true -> forall p l, s_proc s p <> PDead l
}.
Lemma logs_app p a b : logs p (a ++ b) = logs p a ++ logs p b.
Proof. induction a as [|[]]; cbn; auto. destruct (_ =? _); cbn; rewrite IHa; reflexivity. Qed.
Lemma clean_app a b : clean (a ++ b) = clean a && clean b. Proof. apply forallb_app. Qed.
Lemma clean_false es e : clean_ev e = false -> clean (es ++ [e]) = false.
Proof. intros H. rewrite clean_app. cbn. rewrite H. apply andb_false_r. Qed.
Lemma clean_true es e : clean_ev e = true -> clean (es ++ [e]) = clean es.
Proof. intros H. rewrite clean_app. cbn. rewrite H. apply andb_true_r. Qed.
Lemma by_app p a b : wrote p (a ++ b) = wrote p a ++ wrote p b.
Proof. unfold wrote. rewrite filter_app, map_app. reflexivity. Qed.
Lemma write_end f d : lf_pos f = length (lf_bytes f) -> file_write f d = mkFile (lf_bytes f ++ d) (length (lf_bytes f) + length d).
Proof. intros H. unfold file_write. rewrite H, firstn_all, skipn_all2 by lia. rewrite app_nil_r. reflexivity. Qed.
Lemma out_snoc_head e a : e_bodies e = [] -> out (mkEntry (e_by e) (e_rec e) (e_heads e ++ [a]) [] (e_done e)) = out e ++ a.
Proof. intros H. unfold out. cbn. rewrite H, concat_app. cbn. rewrite !app_nil_r. reflexivity. Qed.
Lemma out_snoc_body e a : out (mkEntry (e_by e) (e_rec e) (e_heads e) (e_bodies e ++ [a]) (e_done e)) = out e ++ a.
Proof. unfold out. cbn. rewrite concat_app. cbn. rewrite app_nil_r, app_assoc. reflexivity. Qed.
Lemma at_text_weaken e c n rest : at_text true e c n rest -> at_text false e c n rest.
Proof. intros [(A & B & C & D & E)|(A & B & C & D & E)]; [left|right]; repeat split; auto; discriminate. Qed.
Lemma at_text_false cl e c n rest : at_text cl e c n rest -> at_text false e c n rest.
Proof. destruct cl; [apply at_text_weaken|auto]. Qed.
Lemma concat_entry_snoc (j : list entry) e a e' : out e' = out e ++ a ->
  concat (map out (j ++ [e'])) = concat (map out (j ++ [e])) ++ a.
Proof. intros H. rewrite !map_app, !concat_app. cbn. rewrite H, !app_nil_r, app_assoc. reflexivity. Qed.
(** Bytes written for the current text extend the current entry. *)
Lemma write_piece cl e c total rest n :
  at_text cl e c total rest -> entry_ok e -> e_done e = false -> n <= length c ->
  exists e', out e' = out e ++ firstn n c /\ e_by e' = e_by e /\ e_rec e' = e_rec e /\ e_done e' = false /\ entry_ok e' /\
    at_text false e' c (total + n) rest /\
    (total + n = length c -> rest = [] -> length (concat (e_heads e')) = length (r_head (e_rec e')) /\ length (concat (e_bodies e')) = length (r_body (e_rec e'))) /\
    (cl = true -> n = length c -> match rest with [] => out e' = text (e_rec e') | _ => concat (e_heads e') = r_head (e_rec e') end) /\
    (total + n = length c -> forall b t, rest = b :: t -> at_text false e' b 0 t /\ (cl = true -> n = length c -> at_text true e' b 0 t)).
Proof.
  intros [(A & B & C & D & E)|(A & B & C & D & E)] (O1 & O2 & _) Dn Hn.
  - exists (mkEntry (e_by e) (e_rec e) (e_heads e ++ [firstn n c]) [] (e_done e)).
    assert (L : length (concat (e_heads e ++ [firstn n c])) = total + n).
    { rewrite concat_app, app_length. cbn. rewrite app_nil_r, firstn_length. lia. }
    assert (Q : cl = true -> n = length c -> concat (e_heads e ++ [firstn n c]) = r_head (e_rec e)).
    { intros Cl ->. specialize (E Cl). subst total. apply length_zero_iff_nil in E. rewrite concat_app, E. cbn. rewrite app_nil_r, firstn_all. exact A. }
    repeat match goal with |- _ /\ _ => split end; try reflexivity.
    + apply out_snoc_head. exact D.
    + cbn. exact Dn.
    + unfold entry_ok; cbn. rewrite Dn. split; [|split; [constructor|discriminate]]. apply Forall_app. split; [exact O1|].
      constructor; [exists n; rewrite A; reflexivity|constructor].
    + left. cbn. repeat split; auto; discriminate.
    + intros _ ->. discriminate.
    + intros Cl N1. rewrite B. exact (Q Cl N1).
    + intros T b t R. rewrite B in R. injection R as <- <-. split.
      * right. cbn. repeat split; auto; try lia. rewrite <- A. lia.
      * intros Cl N1. right. cbn. repeat split; auto. rewrite <- A. lia.
  - exists (mkEntry (e_by e) (e_rec e) (e_heads e) (e_bodies e ++ [firstn n c]) (e_done e)).
    assert (L : length (concat (e_bodies e ++ [firstn n c])) = total + n).
    { rewrite concat_app, app_length. cbn. rewrite app_nil_r, firstn_length. lia. }
    repeat match goal with |- _ /\ _ => split end; try reflexivity.
    + apply out_snoc_body.
    + cbn. exact Dn.
    + unfold entry_ok; cbn. rewrite Dn. split; [exact O1|]. split; [|discriminate]. apply Forall_app. split; [exact O2|].
      constructor; [exists n; rewrite A; reflexivity|constructor].
    + right. cbn. repeat split; auto; discriminate.
    + intros T _. cbn. rewrite <- A. split; [exact C|lia].
    + intros Cl ->. rewrite B. destruct (E Cl) as [T0 E2]. subst total. apply length_zero_iff_nil in T0.
      unfold out, text; cbn. rewrite concat_app, T0. cbn. rewrite app_nil_r, firstn_all, E2, A. reflexivity.
    + intros _ b t R. rewrite B in R. discriminate.
Qed.

Ltac other p q := destruct (Nat.eqb_spec q p) as [->|?].
Lemma step_inv c0 es s j e s' : LInv c0 es s j -> step s e = Some s' -> exists j', LInv c0 (es ++ [e]) s' j'.
Proof.
  intros [Hb Ho Hl Hg Ha] H. destruct e as [p r|p|p|p|p|p sh|p|p|p|p]; cbn [step] in H.
  - (* ELog *)
    destruct (s_proc s p) eqn:P; try discriminate. injection H as <-. exists j.
    assert (Hp : s_lock s <> Some p). { intros Q. rewrite Q in Hl. destruct Hl as (_ & j' & e & _ & _ & _ & C & _). rewrite P in C. exact C. }
    split; cbn [s_file s_proc s_lock set_pc]; auto.
    + rewrite clean_true by reflexivity. destruct (s_lock s) as [o|].
      * destruct Hl as (Q & j' & e & E1 & E2 & E3 & C & F). split; [intros q Hq; other p q; [exact Logic.I|auto]|].
        exists j', e. other p o; [congruence|]. auto 10.
      * destruct Hl as (Q & F). split; [intros q; other p q; [exact Logic.I|auto]|exact F].
    + intros q. rewrite logs_app, Hg. cbn [logs]. rewrite (Nat.eqb_sym p q). other p q.
      * rewrite P. cbn [pending]. rewrite app_nil_r. reflexivity.
      * apply app_nil_r.
    + rewrite clean_true by reflexivity. intros Cl q l. other p q; [discriminate|auto].
  - (* ELock *)
    destruct (s_proc s p) as [|r| | | | | |] eqn:P; try discriminate. destruct (s_lock s) as [o|] eqn:Lk; [discriminate|]. injection H as <-.
    destruct Hl as (Q & F). exists (j ++ [mkEntry p r [] [] false]). split; cbn [s_file s_proc s_lock set_pc set_lock].
    + rewrite Hb, !map_app, !concat_app. cbn. rewrite !app_nil_r. reflexivity.
    + apply Forall_app. split; [exact Ho|]. constructor; [|constructor]. repeat split; cbn; try constructor; discriminate.
    + rewrite clean_true by reflexivity. split; [intros q Hq; other p q; [congruence|auto]|].
      exists j, (mkEntry p r [] [] false). rewrite Nat.eqb_refl. cbn [e_by e_done crit]. repeat split; auto. left. cbn. auto.
    + intros q. rewrite logs_app, Hg, by_app. cbn [logs]. rewrite app_nil_r. unfold wrote at 3. cbn [filter e_by]. rewrite (Nat.eqb_sym p q). other p q.
      * rewrite P. cbn. rewrite app_nil_r. reflexivity.
      * cbn. rewrite app_nil_r. reflexivity.
    + rewrite clean_true by reflexivity. intros Cl q l. other p q; [discriminate|auto].
  - (* ELockErr *)
    destruct (s_proc s p) as [|r| | | | | |] eqn:P; try discriminate. injection H as <-. exists j.
    assert (Hp : s_lock s <> Some p). { intros Q. rewrite Q in Hl. destruct Hl as (_ & j' & e & _ & _ & _ & C & _). rewrite P in C. exact C. }
    split; cbn [s_file s_proc s_lock set_pc]; auto.
    + rewrite clean_false by reflexivity. destruct (s_lock s) as [o|].
      * destruct Hl as (Q & j' & e & E1 & E2 & E3 & C & F). split; [intros q Hq; other p q; [exact Logic.I|auto]|].
        exists j', e. other p o; [congruence|]. repeat split; auto; [|discriminate].
        unfold crit in *. destruct (s_proc s o) as [| | | | | |[]|]; repeat split; try tauto; try apply (at_text_false (clean es)); try tauto; discriminate.
      * destruct Hl as (Q & F). split; [intros q; other p q; [exact Logic.I|auto]|discriminate].
    + intros q. rewrite logs_app, Hg. cbn [logs]. rewrite app_nil_r. other p q; [rewrite P|]; reflexivity.
    + rewrite clean_false by reflexivity. discriminate.
  - (* ESeek *)
    assert (Hp : s_lock s = Some p).
    { destruct (s_lock s) as [o|] eqn:Lk.
      - destruct (Nat.eq_dec o p) as [->|D]; [reflexivity|]. exfalso. destruct Hl as (Q & _). specialize (Q p ltac:(congruence)). destruct (s_proc s p); try discriminate; exact Q.
      - exfalso. destruct Hl as (Q & _). specialize (Q p). destruct (s_proc s p); try discriminate; exact Q. }
    rewrite Hp in Hl. destruct Hl as (Q & j' & e & E1 & E2 & E3 & C & F). exists j.
    assert (Go : forall c f, lf_bytes f = lf_bytes (s_file s) -> crit (clean es) f e c -> pending c = pending (s_proc s p) -> (forall l, c <> PDead l) ->
      s' = set_file (set_pc s p c) f -> LInv c0 (es ++ [ESeek p]) s' j).
    { intros c f Hf Hc Hpe Hnd ->. split; cbn [s_file s_proc s_lock set_pc set_file].
      - rewrite Hf. exact Hb.
      - exact Ho.
      - rewrite Hp, clean_true by reflexivity. split; [intros q Hq; other p q; [congruence|auto]|]. exists j', e. rewrite Nat.eqb_refl. auto 10.
      - intros q. rewrite logs_app, Hg. cbn [logs]. rewrite app_nil_r. other p q; [rewrite Hpe|]; reflexivity.
      - rewrite clean_true by reflexivity. intros Cl q l. other p q; auto. }
    destruct (s_proc s p) as [| |c rest|c total rest| |c total now rest| |] eqn:P; try discriminate; injection H as <-; cbn [crit] in C.
    + eapply (Go (PCur c 0 rest)); [| |reflexivity|discriminate|reflexivity]; [reflexivity|]. cbn [crit lf_pos lf_bytes]. repeat split; auto; lia.
    + eapply (Go (PWrite c total (lf_pos (s_file s)) rest) (s_file s)); [reflexivity| |reflexivity|discriminate|destruct s; reflexivity]. cbn [crit]. tauto.
    + eapply (Go (PCur c total rest)); [| |reflexivity|discriminate|reflexivity]; [reflexivity|]. cbn [crit lf_pos lf_bytes]. destruct C as (C1 & -> & C3 & C4). auto.
  - (* ESeekErr *)
    assert (Hp : s_lock s = Some p).
    { destruct (s_lock s) as [o|] eqn:Lk.
      - destruct (Nat.eq_dec o p) as [->|D]; [reflexivity|]. exfalso. destruct Hl as (Q & _). specialize (Q p ltac:(congruence)). destruct (s_proc s p); try discriminate; exact Q.
      - exfalso. destruct Hl as (Q & _). specialize (Q p). destruct (s_proc s p); try discriminate; exact Q. }
    rewrite Hp in Hl. destruct Hl as (Q & j' & e & E1 & E2 & E3 & C & F). exists j.
    assert (Hpe : pending (s_proc s p) = []) by (destruct (s_proc s p); try discriminate; reflexivity).
    assert (S : s' = set_pc s p (PUnlock false)) by (destruct (s_proc s p); try discriminate; congruence). subst s'.
    split; cbn [s_file s_proc s_lock set_pc]; auto.
    + rewrite Hp, clean_false by reflexivity. split; [intros q Hq; other p q; [congruence|auto]|]. exists j', e. rewrite Nat.eqb_refl. repeat split; auto; discriminate.
    + intros q. rewrite logs_app, Hg. cbn [logs]. rewrite app_nil_r. other p q; [rewrite Hpe|]; reflexivity.
    + rewrite clean_false by reflexivity. discriminate.
  - (* EWrite *)
    destruct (s_proc s p) as [| | | |c total now rest| | |] eqn:P; try discriminate.
    assert (Hp : s_lock s = Some p).
    { destruct (s_lock s) as [o|] eqn:Lk.
      - destruct (Nat.eq_dec o p) as [->|D]; [reflexivity|]. exfalso. destruct Hl as (Q & _). specialize (Q p ltac:(congruence)). rewrite P in Q. exact Q.
      - exfalso. destruct Hl as (Q & _). specialize (Q p). rewrite P in Q. exact Q. }
    rewrite Hp in Hl. destruct Hl as (Q & j' & e & E1 & E2 & E3 & C & F). rewrite P in C. cbn [crit] in C. destruct C as (C1 & C2 & C3 & C4).
    assert (Oe : entry_ok e) by (rewrite E1 in Ho; apply Forall_app in Ho as [_ Ho]; inversion Ho; assumption).
    assert (Oj : Forall entry_ok j') by (rewrite E1 in Ho; apply Forall_app in Ho as [Ho _]; exact Ho).
    assert (La : length (firstn (length c - total) c) = length c - total) by (rewrite firstn_length; lia).
    destruct sh as [n|].
    + destruct (Nat.ltb_spec n (length (firstn (length c - total) c))) as [Hn|Hn]; [|discriminate]. injection H as <-. rewrite La in Hn.
      destruct (write_piece _ _ _ _ _ n C4 Oe E3 ltac:(lia)) as (e' & W1 & W2 & W3 & W4 & W5 & W6 & W7).
      assert (Fn : firstn n (firstn (length c - total) c) = firstn n c) by (rewrite firstn_firstn; f_equal; lia). rewrite Fn.
      rewrite write_end by exact C1. exists (j' ++ [e']). split; cbn [s_file s_proc s_lock set_pc set_file lf_bytes lf_pos].
      * rewrite Hb, E1, <- app_assoc. f_equal. symmetry. apply concat_entry_snoc. exact W1.
      * apply Forall_app. auto.
      * rewrite Hp, clean_false by reflexivity. split; [intros q Hq; other p q; [congruence|auto]|].
        exists j', e'. rewrite Nat.eqb_refl. repeat split; auto; try congruence; try discriminate; cbn [crit lf_pos lf_bytes]; [rewrite app_length; reflexivity|lia].
      * intros q. rewrite logs_app, Hg. cbn [logs]. rewrite app_nil_r, E1, !by_app. f_equal; [unfold wrote at 2 4; cbn [filter]; rewrite W2; destruct (_ =? _); cbn [map]; rewrite ?W3; reflexivity|].
        other p q; [rewrite P|]; reflexivity.
      * rewrite clean_false by reflexivity. discriminate.
    + injection H as <-. rewrite La.
      destruct (write_piece _ _ _ _ _ (length c - total) C4 Oe E3 ltac:(lia)) as (e' & W1 & W2 & W3 & W4 & W5 & W6 & W7 & W8 & W9).
      rewrite write_end by exact C1. exists (j' ++ [e']).
      assert (Z0 : clean es = true -> total = 0) by (intros Cl; destruct C4 as [C4|C4]; apply C4; exact Cl).
      split; cbn [s_file s_proc s_lock set_pc set_file lf_bytes lf_pos].
      * rewrite Hb, E1, <- app_assoc. f_equal. symmetry. apply concat_entry_snoc. exact W1.
      * apply Forall_app. auto.
      * rewrite Hp, clean_true by reflexivity. split; [intros q Hq; other p q; [congruence|auto]|].
        exists j', e'. rewrite Nat.eqb_refl. split; [reflexivity|]. split; [congruence|]. split; [exact W4|]. split; [|exact F].
        destruct (Nat.eqb_spec (total + (length c - total)) (length c)) as [T|T]; [|lia].
        destruct rest as [|b t]; cbn [next_text crit].
        -- destruct (W7 T eq_refl) as [U1 U2]. repeat split; auto. intros Cl. apply W8; [exact Cl|]. specialize (Z0 Cl). lia.
        -- destruct (W9 T _ _ eq_refl) as [U1 U2]. destruct (clean es) eqn:Cl; [apply U2; [reflexivity|]; specialize (Z0 eq_refl); lia|exact U1].
      * intros q. rewrite logs_app, Hg. cbn [logs]. rewrite app_nil_r, E1, !by_app. f_equal; [unfold wrote at 2 4; cbn [filter]; rewrite W2; destruct (_ =? _); cbn [map]; rewrite ?W3; reflexivity|].
        other p q; [rewrite P|reflexivity]. destruct (_ =? _); [destruct rest|]; reflexivity.
      * rewrite clean_true by reflexivity. intros Cl q l. other p q; [|auto]. destruct (_ =? _); [destruct rest|]; discriminate.
  - (* EIntr *)
    destruct (s_proc s p) as [| | | |c total now rest| | |] eqn:P; try discriminate. injection H as <-.
    assert (Hp : s_lock s = Some p).
    { destruct (s_lock s) as [o|] eqn:Lk.
      - destruct (Nat.eq_dec o p) as [->|D]; [reflexivity|]. exfalso. destruct Hl as (Q & _). specialize (Q p ltac:(congruence)). rewrite P in Q. exact Q.
      - exfalso. destruct Hl as (Q & _). specialize (Q p). rewrite P in Q. exact Q. }
    rewrite Hp in Hl. destruct Hl as (Q & j' & e & E1 & E2 & E3 & C & F). rewrite P in C. exists j.
    split; cbn [s_file s_proc s_lock set_pc]; auto.
    + rewrite Hp, clean_true by reflexivity. split; [intros q Hq; other p q; [congruence|auto]|]. exists j', e. rewrite Nat.eqb_refl. auto 10.
    + intros q. rewrite logs_app, Hg. cbn [logs]. rewrite app_nil_r. other p q; [rewrite P|]; reflexivity.
    + rewrite clean_true by reflexivity. intros Cl q l. other p q; [discriminate|auto].
  - (* EWriteErr *)
    destruct (s_proc s p) as [| | | |c total now rest| | |] eqn:P; try discriminate. injection H as <-.
    assert (Hp : s_lock s = Some p).
    { destruct (s_lock s) as [o|] eqn:Lk.
      - destruct (Nat.eq_dec o p) as [->|D]; [reflexivity|]. exfalso. destruct Hl as (Q & _). specialize (Q p ltac:(congruence)). rewrite P in Q. exact Q.
      - exfalso. destruct Hl as (Q & _). specialize (Q p). rewrite P in Q. exact Q. }
    rewrite Hp in Hl. destruct Hl as (Q & j' & e & E1 & E2 & E3 & C & F). exists j.
    split; cbn [s_file s_proc s_lock set_pc]; auto.
    + rewrite Hp, clean_false by reflexivity. split; [intros q Hq; other p q; [congruence|auto]|]. exists j', e. rewrite Nat.eqb_refl. repeat split; auto; discriminate.
    + intros q. rewrite logs_app, Hg. cbn [logs]. rewrite app_nil_r. other p q; [rewrite P|]; reflexivity.
    + rewrite clean_false by reflexivity. discriminate.
  - (* EUnlock *)
    destruct (s_proc s p) as [| | | | | |ok|] eqn:P; try discriminate. injection H as <-.
    assert (Hp : s_lock s = Some p).
    { destruct (s_lock s) as [o|] eqn:Lk.
      - destruct (Nat.eq_dec o p) as [->|D]; [reflexivity|]. exfalso. destruct Hl as (Q & _). specialize (Q p ltac:(congruence)). rewrite P in Q. exact Q.
      - exfalso. destruct Hl as (Q & _). specialize (Q p). rewrite P in Q. exact Q. }
    rewrite Hp in Hl. destruct Hl as (Q & j' & e & E1 & E2 & E3 & C & F). rewrite P in C.
    assert (Oe : entry_ok e) by (rewrite E1 in Ho; apply Forall_app in Ho as [_ Ho]; inversion Ho; assumption).
    assert (Oj : Forall entry_ok j') by (rewrite E1 in Ho; apply Forall_app in Ho as [Ho _]; exact Ho).
    exists (j' ++ [mkEntry (e_by e) (e_rec e) (e_heads e) (e_bodies e) ok]).
    split; cbn [s_file s_proc s_lock set_pc set_lock].
    + rewrite Hb, E1, !map_app. reflexivity.
    + apply Forall_app. split; [exact Oj|]. constructor; [|constructor]. destruct Oe as (O1 & O2 & _). split; [exact O1|]. split; [exact O2|].
      cbn. intros ->. cbn [crit] in C. tauto.
    + rewrite clean_true by reflexivity. split; [intros q; other p q; [destruct ok; exact Logic.I|auto]|].
      intros Cl. apply Forall_app. split; [auto|]. constructor; [|constructor]. destruct ok; cbn [crit] in C; [|congruence].
      split; [reflexivity|]. apply C. exact Cl.
    + intros q. rewrite logs_app, Hg, E1, !by_app. cbn [logs]. rewrite app_nil_r. f_equal; [|other p q; [rewrite P; destruct ok; reflexivity|reflexivity]].
      f_equal. unfold wrote. cbn [filter e_by]. destruct (_ =? _); reflexivity.
    + rewrite clean_true by reflexivity. intros Cl q l. other p q; [|auto]. destruct ok; [discriminate|]. cbn [crit] in C. congruence.
  - (* EKill *)
    injection H as <-. exists j.
    assert (Hf : forall l, s_file (match l with Some q => if q =? p then set_lock (set_pc s p (PDead (match s_proc s p with PLock r => [r] | PDead l => l | _ => [] end))) None
       else set_pc s p (PDead (match s_proc s p with PLock r => [r] | PDead l => l | _ => [] end)) | None => set_pc s p (PDead (match s_proc s p with PLock r => [r] | PDead l => l | _ => [] end)) end) = s_file s)
      by (intros [q|]; [destruct (q =? p)|]; reflexivity).
    assert (Hpr : forall l, s_proc (match l with Some q => if q =? p then set_lock (set_pc s p (PDead (match s_proc s p with PLock r => [r] | PDead l => l | _ => [] end))) None
       else set_pc s p (PDead (match s_proc s p with PLock r => [r] | PDead l => l | _ => [] end)) | None => set_pc s p (PDead (match s_proc s p with PLock r => [r] | PDead l => l | _ => [] end)) end)
       = fun q => if q =? p then PDead (pending (s_proc s p)) else s_proc s q)
      by (intros [q|]; [destruct (q =? p)|]; reflexivity).
    split; rewrite ?Hf, ?Hpr.
    + exact Hb.
    + exact Ho.
    + destruct (s_lock s) as [o|] eqn:Lk.
      * destruct Hl as (Q & j' & e & E1 & E2 & E3 & C & F). other p o; cbn [s_lock set_lock set_pc]; rewrite ?Lk.
        -- split; [intros q; cbn [s_proc]; other p q; [exact Logic.I|auto]|]. rewrite clean_false by reflexivity. discriminate.
        -- split; [intros q Hq; other p q; [exact Logic.I|auto]|].
           exists j', e. other p o; [congruence|]. rewrite clean_false by reflexivity. repeat split; auto; [|discriminate].
           unfold crit in *. destruct (s_proc s o) as [| | | | | |[]|]; repeat split; try tauto; try apply (at_text_false (clean es)); try tauto; discriminate.
      * destruct Hl as (Q & F). cbn [s_lock set_lock set_pc]. rewrite Lk. rewrite clean_false by reflexivity. split; [intros q; other p q; [exact Logic.I|auto]|discriminate].
    + intros q. rewrite logs_app, Hg. cbn [logs]. rewrite app_nil_r. other p q; reflexivity.
    + rewrite clean_false by reflexivity. discriminate.
Qed.
Lemma run_inv : forall es' es c0 s j s', LInv c0 es s j -> run s es' = Some s' -> exists j', LInv c0 (es ++ es') s' j'.
Proof.
  induction es' as [|e es' IH]; intros es c0 s j s' Hi H; cbn [run] in H.
  - injection H as <-. exists j. rewrite app_nil_r. exact Hi.
  - destruct (step s e) as [s1|] eqn:E; [|discriminate]. destruct (step_inv _ _ _ _ _ _ Hi E) as (j1 & H1).
    change (e :: es') with ([e] ++ es'). rewrite app_assoc. eapply IH; eassumption.
Qed.
Lemma init_linv c0 pos : LInv c0 [] (init c0 pos) [].
Proof. split; cbn; auto; try constructor; try discriminate; auto. rewrite app_nil_r. reflexivity. Qed.

Lemma not_interleaved c0 pos es s : run (init c0 pos) es = Some s ->
  exists j, lf_bytes (s_file s) = c0 ++ concat (map out j) /\ Forall entry_ok j /\ forall p, logs p es = wrote p j ++ pending (s_proc s p).
Proof. intros H. destruct (run_inv _ _ _ _ _ _ (init_linv c0 pos) H) as (j & [A B _ D _]). exists j. auto. Qed.
Lemma map_finished j : Forall finished j -> map out j = map (fun e => text (e_rec e)) j.
Proof. induction 1 as [|e j (_ & E) _ IH]; [reflexivity|]. cbn. rewrite E, IH. reflexivity. Qed.
(** Who wrote which record, in the order of the file. *)
Definition recs_by (p : nat) (l : list (nat * rec)) : list rec := map snd (filter (fun x => fst x =? p) l).
Lemma by_recs p j : wrote p j = recs_by p (map (fun e => (e_by e, e_rec e)) j).
Proof. unfold wrote, recs_by. induction j as [|e j IH]; [reflexivity|]. cbn. destruct (_ =? _); cbn; rewrite IH; reflexivity. Qed.
Lemma quiet_complete c0 pos es s : clean es = true -> run (init c0 pos) es = Some s -> (forall p, s_proc s p = PIdle) ->
  exists l, lf_bytes (s_file s) = c0 ++ concat (map (fun x => text (snd x)) l) /\ forall p, recs_by p l = logs p es.
Proof.
  intros Cl H Q. destruct (run_inv _ _ _ _ _ _ (init_linv c0 pos) H) as (j & [A B C D E]). cbn [app] in *.
  exists (map (fun e => (e_by e, e_rec e)) j). destruct (s_lock s) as [o|].
  - exfalso. destruct C as (_ & j' & e & _ & _ & _ & C & _). rewrite Q in C. exact C.
  - destruct C as (_ & F). split.
    + rewrite A, (map_finished j (F Cl)), map_map. reflexivity.
    + intros p. rewrite D, Q, app_nil_r, by_recs. reflexivity.
Qed.
(** At any moment only the record of the lock's owner is incomplete, and it is at the end. *)
Lemma always_complete c0 pos es s : clean es = true -> run (init c0 pos) es = Some s ->
  exists l cur, lf_bytes (s_file s) = c0 ++ concat (map (fun x => text (snd x)) l) ++ cur /\
    match s_lock s with
    | None => cur = [] /\ forall p, logs p es = recs_by p l ++ pending (s_proc s p)
    | Some o => exists r, prefix_of (text r) cur /\ forall p, logs p es = recs_by p (l ++ [(o, r)]) ++ pending (s_proc s p)
    end.
Proof.
  intros Cl H. destruct (run_inv _ _ _ _ _ _ (init_linv c0 pos) H) as (j & [A B C D E]). cbn [app] in *.
  destruct (s_lock s) as [o|].
  - destruct C as (_ & j' & e & E1 & E2 & E3 & C & F). exists (map (fun e => (e_by e, e_rec e)) j'), (out e). split.
    + rewrite A, E1, map_app, concat_app, (map_finished j' (F Cl)), map_map. cbn. rewrite app_nil_r. reflexivity.
    + exists (e_rec e). split.
      * rewrite Cl in C. assert (T : out e = [] \/ out e = r_head (e_rec e) \/ out e = text (e_rec e)).
        { assert (T : forall c n rest, at_text true e c n rest -> out e = [] \/ out e = r_head (e_rec e)).
          { intros c n rest [(_ & _ & T1 & T2 & T3)|(_ & _ & _ & T2 & T3)].
            - left. unfold out. rewrite T2. specialize (T3 eq_refl). subst n. apply length_zero_iff_nil in T3. rewrite T3. reflexivity.
            - right. destruct (T3 eq_refl) as [T4 T5]. subst n. apply length_zero_iff_nil in T4. unfold out. rewrite T4, T5, app_nil_r. reflexivity. }
          destruct (s_proc s o) as [| |c rest|c n rest|c n w rest|c n w rest|[]|]; cbn [crit] in C; try contradiction; try discriminate.
          - destruct (T _ _ _ C); auto.
          - destruct (T _ _ _ (proj2 (proj2 C))); auto.
          - destruct (T _ _ _ (proj2 (proj2 (proj2 C)))); auto.
          - destruct (T _ _ _ (proj2 (proj2 (proj2 C)))); auto.
          - right. right. apply C. reflexivity. }
        unfold prefix_of. destruct T as [->|[->| ->]].
        -- exists 0. reflexivity.
        -- exists (length (r_head (e_rec e))). unfold text. rewrite firstn_app, firstn_all, Nat.sub_diag. cbn. rewrite app_nil_r. reflexivity.
        -- exists (length (text (e_rec e))). rewrite firstn_all. reflexivity.
      * intros p. rewrite D, E1, by_recs, map_app. cbn [map]. rewrite E2. reflexivity.
  - destruct C as (_ & F). exists (map (fun e => (e_by e, e_rec e)) j), []. split.
    + rewrite A, (map_finished j (F Cl)), map_map, app_nil_r. reflexivity.
    + split; [reflexivity|]. intros p. rewrite D, by_recs. reflexivity.
Qed.
