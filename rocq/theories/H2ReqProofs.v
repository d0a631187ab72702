(** Proofs about H2Req.v: the request target. *)
From Verif Require Import Base CStr CNum Names NamesProofs Buffer Reqline ReqlineSpec ReqlineProofs Header HeaderProofs ReqFlow Machine H2Req.
Local Open Scope N_scope.

(** ** The targets fly accepts over HTTP/2, with the path and the query it reports *)
Definition PATHC (c : N) : Prop := PCHAR c \/ c = 47.
Definition QUERYC (c : N) : Prop := PCHAR c \/ c = 47 \/ c = 63.
(** A path without percent-encoded octets. *)
Definition plain_path (p : list N) : Prop := (exists t, p = 47 :: t) /\ Forall PATHC p.
(** [ht_path], [ht_query]: as RFC 7540 section 8.1.2.3 has it, without percent-encoding.  [ht_question]: the question mark
    stays in the path.  [ht_space], [ht_query_space]: everything from a space on is ignored, and percent-encoding is
    possible.  [ht_star]: "*" may be followed by anything.  [ht_blank]: spaces only. *)
Inductive h2_target (m : method) : list N -> list N -> option (list N) -> Prop :=
| ht_blank k : h2_target m (repeat 32 (S k)) (repeat 32 (S k)) None
| ht_star k t : m = OPTIONS -> h2_target m (repeat 32 k ++ 42 :: t) (repeat 32 k ++ 42 :: t) None
| ht_path k p : plain_path p -> h2_target m (repeat 32 k ++ p) (repeat 32 k ++ p) None
| ht_question k p : plain_path p -> h2_target m (repeat 32 k ++ p ++ [63]) (repeat 32 k ++ p ++ [63]) None
| ht_query k p q : plain_path p -> q <> [] -> Forall QUERYC q -> h2_target m (repeat 32 k ++ p ++ 63 :: q) (repeat 32 k ++ p) (Some q)
| ht_space k p t : abs_path p -> h2_target m (repeat 32 k ++ p ++ 32 :: t) (repeat 32 k ++ p ++ 32 :: t) None
| ht_query_space k p q t : abs_path p -> q <> [] -> query_text q ->
    h2_target m (repeat 32 k ++ p ++ 63 :: q ++ 32 :: t) (repeat 32 k ++ p) (Some (query_seen q)).

(** ** Termination *)
Definition trank (st : tstatus) : nat := match st with TInit => 2 | TEnd => 0 | _ => 1 end.
Definition tmeasure (s : tst) : nat := (3 * length (t_ptr s) + trank (t_st s))%nat.
Lemma t_brk_decreases s s0 s' : t_brk s = Ok (Next s') -> (length (t_ptr s) <= length (t_ptr s0))%nat -> t_ptr s <> [] -> t_st s0 <> TEnd -> (tmeasure s' < tmeasure s0)%nat.
Proof.
  unfold t_brk, t_cont, tmeasure. cbv zeta. intros H L Ne NE. destruct (_ =? 0)%Z; injection H as <-; cbn [t_ptr t_st].
  - assert (0 < trank (t_st s0))%nat by (destruct (t_st s0); cbn; lia || contradiction). cbn [trank]. lia.
  - destruct (t_ptr s) as [|x p]; [contradiction|]. cbn [tl length] in *. assert (trank (t_st s) <= 2)%nat by (destruct (t_st s); cbn; lia). lia.
Qed.
Lemma t_step_decreases m v s s' : t_step m v s = Ok (Next s') -> (tmeasure s' < tmeasure s)%nat.
Proof.
  unfold t_step. destruct (t_st s) eqn:ST.
  - destruct (t_ptr s) as [|c p] eqn:P; [discriminate|]. unfold rd. cbn [nth_error obind]. intros H.
    destruct (c =? 32); [apply (t_brk_decreases _ s) in H; [exact H|lia|congruence|congruence]|].
    destruct (_ && _); [injection H as <-; unfold tmeasure; cbn; rewrite ST; cbn; lia|].
    destruct (c =? 47); [injection H as <-; unfold tmeasure; cbn; rewrite ST; cbn; lia|discriminate H].
  - destruct (t_ptr s) as [|c p] eqn:P; [discriminate|]. unfold rd. cbn [nth_error obind]. intros H.
    destruct (c =? 47); [apply (t_brk_decreases _ s) in H; [exact H|lia|congruence|congruence]|]. rewrite <- P in H.
    pose proof (pchar_shorter (t_ptr s)) as SH. destruct (pchar (t_ptr s)) as [[q|]|u]; cbn [obind] in H; [| |discriminate H].
    + destruct (SH q eq_refl). apply (t_brk_decreases _ s) in H; [exact H|assumption|assumption|congruence].
    + destruct (c =? 32); [injection H as <-; unfold tmeasure; cbn; rewrite ST; cbn; lia|].
      destruct (c =? 63); [|discriminate H]. apply (t_brk_decreases _ s) in H; [exact H|cbn; lia|cbn; congruence|congruence].
  - pose proof (query_shorter (t_ptr s)) as SH. destruct (query_char (t_ptr s)) as [[q|]|u]; cbn [obind]; [|discriminate|discriminate].
    intros H. destruct (SH q eq_refl). apply (t_brk_decreases _ s) in H; [exact H|assumption|assumption|congruence].
  - pose proof (query_shorter (t_ptr s)) as SH. destruct (query_char (t_ptr s)) as [[q|]|u]; cbn [obind]; [| |discriminate].
    + intros H. destruct (SH q eq_refl). apply (t_brk_decreases _ s) in H; [exact H|assumption|assumption|congruence].
    + destruct (rd (t_ptr s) 0) as [c|u]; cbn [obind]; [|discriminate]. destruct (c =? 32); [|discriminate]. intros H. injection H as <-. unfold tmeasure; cbn; rewrite ST; cbn; lia.
  - destruct (t_query s); [destruct (Nat.eqb _ _); [|discriminate]|]; intros H; injection H as <-; unfold tmeasure; cbn; rewrite ST; cbn; lia.
  - discriminate.
Qed.
Lemma t_brk_total s : t_brk s <> UB Diverges. Proof. unfold t_brk. cbv zeta. destruct (_ =? 0)%Z; discriminate. Qed.
Lemma t_step_total m v s : t_step m v s <> UB Diverges.
Proof.
  unfold t_step. destruct (t_st s).
  - pose proof (rd_total (t_ptr s) 0). destruct (rd _ _) as [?c|?u]; cbn [obind]; [|congruence]. destruct (_ =? 32); [apply t_brk_total|]. destruct (_ && _); [discriminate|]. destruct (_ =? 47); discriminate.
  - pose proof (rd_total (t_ptr s) 0). destruct (rd _ _) as [?c|?u]; cbn [obind]; [|congruence]. destruct (_ =? 47); [apply t_brk_total|]. pose proof (pchar_total (t_ptr s)).
    destruct (pchar _) as [[q|]|]; cbn [obind]; [apply t_brk_total| |congruence]. destruct (_ =? 32); [discriminate|]. destruct (_ =? 63); [apply t_brk_total|discriminate].
  - pose proof (query_total (t_ptr s)). destruct (query_char _) as [[q|]|]; cbn [obind]; [apply t_brk_total|discriminate|congruence].
  - pose proof (query_total (t_ptr s)). destruct (query_char _) as [[q|]|]; cbn [obind]; [apply t_brk_total| |congruence].
    pose proof (rd_total (t_ptr s) 0). destruct (rd _ _) as [?c|?u]; cbn [obind]; [|congruence]. destruct (_ =? 32); discriminate.
  - destruct (t_query s); [destruct (Nat.eqb _ _)|]; discriminate.
  - discriminate.
Qed.

Section TARGET.
Variables (m : method) (v : list N).
Notation treach := (reach (t_step m v)).
Notation tends := (ends (t_step m v)).
Lemma target_ends r : tends (t_start v) (Ok r) -> target_parse m v = Ok r.
Proof.
  intros E. apply (ends_run (t_step m v) tmeasure (t_step_decreases m v) (t_step_total m v) _ _ _ E); [discriminate|].
  unfold tmeasure, t_start. cbn [t_ptr t_st trank]. rewrite app_length. cbn [length]. lia.
Qed.

(** ** Walking over an encoded string *)
(** The two states that walk, the class they walk over. *)
Section WALK.
Variables (st : tstatus) (ok : N -> Prop).
Hypothesis WC : forall c t l n q k, ok c -> t_step m v (mkT st (c :: t) l n q k) = t_brk (mkT st (c :: t) l n q k).
Hypothesis WP : forall a b t l n q k, HEXDIG a -> HEXDIG b -> t_step m v (mkT st (37 :: a :: b :: t) l n q k) = t_brk (mkT st (b :: t) l n q k).
Hypothesis NP : ~ ok 37.
Definition last_qlen (q : option (list N)) (k : nat) : nat := match q with Some q => diff q [0] | None => k end.
Lemma walk : forall p, encoded ok p -> forall rest d n q k, (0 <= d)%Z -> p <> [] \/ (0 < Z.of_nat (length rest) + d)%Z ->
  (exists d', (d <= d')%Z /\ (Forall ok p <-> d' = d) /\ (0 < Z.of_nat (length rest) + d')%Z /\
     treach (mkT st (p ++ rest ++ [0]) (Z.of_nat (length p + length rest) + d) n q k) (mkT st (rest ++ [0]) (Z.of_nat (length rest) + d') n q k)) \/
  (rest = [] /\ d = 0%Z /\ Forall ok p /\
     exists x, treach (mkT st (p ++ rest ++ [0]) (Z.of_nat (length p + length rest) + d) n q k) (mkT TEnd x 0 n q (last_qlen q k))).
Proof.
  induction 1 as [|c p OC E IH|a b p A B E IH]; intros rest d n q k D NE.
  - left. exists d. split; [lia|]. split; [split; [reflexivity|constructor]|]. split; [destruct NE; [contradiction|lia]|]. apply reach_refl.
  - assert (STEP : t_step m v (mkT st ((c :: p) ++ rest ++ [0]) (Z.of_nat (length (c :: p) + length rest) + d) n q k) =
              t_brk (mkT st ((c :: p) ++ rest ++ [0]) (Z.of_nat (length (c :: p) + length rest) + d) n q k)) by (cbn [app]; apply WC; exact OC).
    unfold t_brk in STEP. cbn [t_st t_ptr t_len t_tlen t_query t_qlen tl app] in STEP.
    destruct (Z.eqb_spec (Z.of_nat (length (c :: p) + length rest) + d - 1) 0) as [Z0|Z0].
    + right. assert (length p = 0 /\ length rest = 0)%nat as (LP & LR) by (cbn [length] in Z0; lia). destruct p; [|discriminate LP]. destruct rest; [|discriminate LR].
      split; [reflexivity|]. split; [cbn [length] in Z0; lia|]. split; [constructor; [exact OC|constructor]|]. eexists. apply reach_step. rewrite Z0 in STEP. exact STEP.
    + replace (Z.of_nat (length (c :: p) + length rest) + d - 1)%Z with (Z.of_nat (length p + length rest) + d)%Z in STEP by (cbn [length]; lia).
      apply reach_step in STEP. destruct (IH rest d n q k D) as [(d' & D1 & D2 & D3 & R)|(R1 & R2 & R3 & x & R)].
      { destruct p; [right|left; discriminate]. cbn [length] in Z0. lia. }
      * left. exists d'. split; [exact D1|]. split; [|split; [exact D3|exact (reach_trans _ _ _ _ STEP R)]]. rewrite <- D2. split; [intros F; inversion F; assumption|intros F; constructor; assumption].
      * right. split; [exact R1|]. split; [exact R2|]. split; [constructor; assumption|]. exists x. exact (reach_trans _ _ _ _ STEP R).
  - assert (STEP : t_step m v (mkT st ((37 :: a :: b :: p) ++ rest ++ [0]) (Z.of_nat (length (37 :: a :: b :: p) + length rest) + d) n q k) =
              t_brk (mkT st ((b :: p) ++ rest ++ [0]) (Z.of_nat (length (37 :: a :: b :: p) + length rest) + d) n q k)) by (cbn [app]; apply WP; assumption).
    unfold t_brk in STEP. cbn [t_st t_ptr t_len t_tlen t_query t_qlen tl app] in STEP.
    destruct (Z.eqb_spec (Z.of_nat (length (37%N :: a :: b :: p) + length rest) + d - 1) 0) as [Z0|Z0]; [cbn [length] in Z0; lia|].
    replace (Z.of_nat (length (37%N :: a :: b :: p) + length rest) + d - 1)%Z with (Z.of_nat (length p + length rest) + (d + 2))%Z in STEP by (cbn [length]; lia).
    apply reach_step in STEP. destruct (IH rest (d + 2)%Z n q k ltac:(lia)) as [(d' & D1 & D2 & D3 & R)|(R1 & R2 & R3 & x & R)].
    { right. lia. }
    * left. exists d'. split; [lia|]. split; [split; [intros F; inversion F; contradiction|lia]|]. split; [exact D3|exact (reach_trans _ _ _ _ STEP R)].
    * lia.
Qed.
End WALK.
Lemma path_walk_c c t l n q k : PATHC c -> t_step m v (mkT TOrigin (c :: t) l n q k) = t_brk (mkT TOrigin (c :: t) l n q k).
Proof.
  intros [P| ->]; unfold t_step; cbn [t_st t_ptr]; unfold rd; cbn [nth_error obind]; [|reflexivity]. destruct (c =? 47); [reflexivity|]. rewrite (pchar_ok c t P). reflexivity.
Qed.
Lemma path_walk_p a b t l n q k : HEXDIG a -> HEXDIG b -> t_step m v (mkT TOrigin (37 :: a :: b :: t) l n q k) = t_brk (mkT TOrigin (b :: t) l n q k).
Proof. intros A B. unfold t_step. cbn [t_st t_ptr]. unfold rd. cbn [nth_error obind N.eqb Pos.eqb]. rewrite (pchar_pct a b t A B). reflexivity. Qed.
Lemma query_walk_c c t l n q k : QUERYC c -> t_step m v (mkT TQuery (c :: t) l n q k) = t_brk (mkT TQuery (c :: t) l n q k).
Proof. intros Q. unfold t_step. cbn [t_st t_ptr]. rewrite (query_ok c t Q). reflexivity. Qed.
Lemma query_walk_p a b t l n q k : HEXDIG a -> HEXDIG b -> t_step m v (mkT TQuery (37 :: a :: b :: t) l n q k) = t_brk (mkT TQuery (b :: t) l n q k).
Proof. intros A B. unfold t_step. cbn [t_st t_ptr]. rewrite (query_pct a b t A B). reflexivity. Qed.
Lemma pct_not_pchar : ~ PCHAR 37. Proof. intros H. apply pchar_class in H. discriminate H. Qed.
Lemma pct_not_path : ~ PATHC 37. Proof. intros [H|H]; [exact (pct_not_pchar H)|discriminate H]. Qed.
Lemma pct_not_query : ~ QUERYC 37. Proof. intros [H|[H|H]]; [exact (pct_not_pchar H)|discriminate H|discriminate H]. Qed.
Definition walk_path := walk TOrigin PATHC path_walk_c path_walk_p pct_not_path.
Definition walk_query := walk TQuery QUERYC query_walk_c query_walk_p pct_not_query.

(** ** The longest encoded prefix *)
Lemma pchar_not47 c t : c <> 47 -> (PCHAR c /\ pchar (c :: t) = Ok (Some (c :: t))) \/ (~ PCHAR c /\ pchar (c :: t) = pct_encoded (c :: t)).
Proof.
  intros _. assert (EQ : pchar (c :: t) = if unreserved c || (c =? 58) || sub_delims c || (c =? 64) then Ok (Some (c :: t)) else pct_encoded (c :: t)) by reflexivity. rewrite EQ.
  destruct (_ || _) eqn:E; [left; split; [apply pchar_class; exact E|reflexivity]|right; split; [|reflexivity]].
  intros P. apply pchar_class in P. congruence.
Qed.
Lemma pct_cases c t : (exists a b r, c = 37 /\ t = a :: b :: r /\ HEXDIG a /\ HEXDIG b) \/ pct_encoded ((c :: t) ++ [0]) = Ok None.
Proof.
  unfold pct_encoded, rd. cbn [app nth_error obind]. destruct (N.eqb_spec c 37) as [->|]; cbn [negb]; [|right; reflexivity].
  destruct t as [|a t]; [right; reflexivity|]. cbn [app nth_error obind]. destruct (hexdigit a) eqn:A; cbn [negb]; [|right; reflexivity].
  destruct t as [|b t]; [right; reflexivity|]. cbn [app nth_error obind]. destruct (hexdigit b) eqn:B; cbn [negb]; [|right; reflexivity].
  left. exists a, b, t. rewrite <- !hex_class. auto.
Qed.
Lemma munch_path : forall n s, (length s <= n)%nat -> exists p rest, s = p ++ rest /\ encoded PATHC p /\ (rest = [] \/ exists c t, rest = c :: t /\ ~ PATHC c /\ pchar (rest ++ [0]) = Ok None).
Proof.
  induction n as [|n IH]; intros s L.
  { destruct s; [|cbn in L; lia]. exists [], []. split; [reflexivity|]. split; [constructor|auto]. }
  destruct s as [|c t]; [exists [], []; split; [reflexivity|]; split; [constructor|auto]|]. cbn [length] in L.
  assert (GO : PATHC c -> exists p rest, c :: t = p ++ rest /\ encoded PATHC p /\ (rest = [] \/ exists c t, rest = c :: t /\ ~ PATHC c /\ pchar (rest ++ [0]) = Ok None)).
  { intros P. destruct (IH t ltac:(lia)) as (p & rest & -> & E & R). exists (c :: p), rest. split; [reflexivity|]. split; [constructor; assumption|exact R]. }
  destruct (N.eq_dec c 47) as [->|N47]; [apply GO; right; reflexivity|].
  destruct (pchar_not47 c (t ++ [0]) N47) as [(P & _)|(P & EQ)]; [apply GO; left; exact P|].
  destruct (pct_cases c t) as [(a & b & r & -> & -> & A & B)|PN].
  - cbn [length] in L. destruct (IH r ltac:(lia)) as (p & rest & -> & E & R). exists (37 :: a :: b :: p), rest. split; [reflexivity|]. split; [constructor; assumption|exact R].
  - exists [], (c :: t). split; [reflexivity|]. split; [constructor|]. right. exists c, t. split; [reflexivity|]. split; [intros [Q|Q]; contradiction|]. cbn [app] in *. rewrite EQ. exact PN.
Qed.
Lemma query_none c t : ~ QUERYC c -> pct_encoded (c :: t) = Ok None -> query_char (c :: t) = Ok None.
Proof.
  intros NQ PN. unfold query_char. destruct (N.eq_dec c 47) as [->|N47]; [exfalso; apply NQ; unfold QUERYC; auto|].
  destruct (pchar_not47 c t N47) as [(P & _)|(_ & ->)]; [exfalso; apply NQ; left; exact P|]. rewrite PN. cbn [obind]. unfold rd. cbn [nth_error obind].
  replace (c =? 47) with false by (symmetry; apply N.eqb_neq; exact N47). destruct (N.eqb_spec c 63); [exfalso; apply NQ; unfold QUERYC; auto|]. reflexivity.
Qed.
Lemma QUERYC_dec c : QUERYC c \/ ~ QUERYC c.
Proof.
  unfold QUERYC. destruct (N.eq_dec c 47), (N.eq_dec c 63); auto. destruct (unreserved c || (c =? 58) || sub_delims c || (c =? 64)) eqn:E.
  - left. left. apply pchar_class. exact E.
  - right. intros [P|[P|P]]; [apply pchar_class in P; congruence|contradiction|contradiction].
Qed.
Lemma munch_query : forall n s, (length s <= n)%nat -> exists p rest, s = p ++ rest /\ encoded QUERYC p /\ (rest = [] \/ exists c t, rest = c :: t /\ ~ QUERYC c /\ query_char (rest ++ [0]) = Ok None).
Proof.
  induction n as [|n IH]; intros s L.
  { destruct s; [|cbn in L; lia]. exists [], []. split; [reflexivity|]. split; [constructor|auto]. }
  destruct s as [|c t]; [exists [], []; split; [reflexivity|]; split; [constructor|auto]|]. cbn [length] in L.
  destruct (QUERYC_dec c) as [P|P].
  { destruct (IH t ltac:(lia)) as (p & rest & -> & E & R). exists (c :: p), rest. split; [reflexivity|]. split; [constructor; assumption|exact R]. }
  destruct (pct_cases c t) as [(a & b & r & -> & -> & A & B)|PN].
  - cbn [length] in L. destruct (IH r ltac:(lia)) as (p & rest & -> & E & R). exists (37 :: a :: b :: p), rest. split; [reflexivity|]. split; [constructor; assumption|exact R].
  - exists [], (c :: t). split; [reflexivity|]. split; [constructor|]. right. exists c, t. split; [reflexivity|]. split; [exact P|]. exact (query_none c (t ++ [0]) P PN).
Qed.
Lemma munch_spaces s : exists k rest, s = repeat 32 k ++ rest /\ (rest = [] \/ exists c t, rest = c :: t /\ c <> 32).
Proof.
  induction s as [|c t IH]; [exists 0%nat, []; auto|]. destruct (N.eq_dec c 32) as [->|NC].
  - destruct IH as (k & rest & -> & R). exists (S k), rest. auto.
  - exists 0%nat, (c :: t). split; [reflexivity|]. right. eauto.
Qed.

(** ** From the value to the result *)
Notation nv := (length v).
Lemma init_space t l n q k : t_step m v (mkT TInit (32 :: t) l n q k) = t_brk (mkT TInit (32 :: t) l n q k).
Proof. reflexivity. Qed.
Lemma init_walk : forall k rest, (0 < length rest)%nat -> treach (mkT TInit (repeat 32 k ++ rest ++ [0]) (Z.of_nat (k + length rest)) nv None 0) (mkT TInit (rest ++ [0]) (Z.of_nat (length rest)) nv None 0).
Proof.
  induction k as [|k IH]; intros rest L; [apply reach_refl|]. cbn [repeat app]. eapply reach_trans; [|exact (IH rest L)]. apply reach_step. rewrite init_space. unfold t_brk. cbn [t_st t_ptr t_len t_tlen t_query t_qlen tl].
  replace (Z.of_nat (S k + length rest) - 1 =? 0)%Z with false by (symmetry; apply Z.eqb_neq; lia). unfold t_cont. do 3 f_equal. lia.
Qed.
Lemma start_walk k rest : v = repeat 32 k ++ rest -> (0 < length rest)%nat -> treach (t_start v) (mkT TInit (rest ++ [0]) (Z.of_nat (length rest)) nv None 0).
Proof.
  intros E L. unfold t_start. replace (Z.of_nat (length v)) with (Z.of_nat (k + length rest)) by (rewrite E, app_length, repeat_length; reflexivity).
  replace (v ++ [0]) with (repeat 32 k ++ rest ++ [0]) by (rewrite E, <- app_assoc; reflexivity). apply init_walk. exact L.
Qed.
Lemma end_plain x l n k : tends (mkT TEnd x l n None k) (Ok (Some (v, None))).
Proof. apply ends_done. reflexivity. Qed.
Lemma end_query x l n q k : tends (mkT TEnd x l n (Some q) k) (Ok (Some (firstn n v, Some (firstn k q)))).
Proof. apply ends_done. reflexivity. Qed.
Lemma blank_ends k : v = repeat 32 (S k) -> tends (t_start v) (Ok (Some (v, None))).
Proof.
  intros E. assert (E' : v = repeat 32 k ++ [32]) by (rewrite E; apply spaces_snoc). eapply ends_reach; [apply (start_walk k [32] E'); cbn; lia|].
  eapply ends_reach; [apply reach_step; reflexivity|]. apply end_plain.
Qed.
Lemma star_ends k t : m = OPTIONS -> v = repeat 32 k ++ 42 :: t -> tends (t_start v) (Ok (Some (v, None))).
Proof.
  intros M E. eapply ends_reach; [apply (start_walk k _ E); cbn; lia|]. eapply ends_reach; [apply reach_step; cbn; rewrite M; reflexivity|]. eapply ends_reach; [apply reach_step; reflexivity|]. apply end_plain.
Qed.
Definition plain (p : list N) : Prop := Forall PATHC p.
(** After the path. *)
Lemma path_reach k p r : v = repeat 32 k ++ p ++ r -> abs_path p ->
  (r = [] /\ plain p /\ tends (t_start v) (Ok (Some (v, None)))) \/
  (exists d, (0 <= d)%Z /\ (plain p <-> d = 0%Z) /\ (0 < Z.of_nat (length r) + d)%Z /\ treach (t_start v) (mkT TOrigin (r ++ [0]) (Z.of_nat (length r) + d) nv None 0)).
Proof.
  intros E ((t & EP) & AP). assert (L : (0 < length (p ++ r))%nat) by (rewrite EP; cbn; lia).
  assert (R : treach (t_start v) (mkT TOrigin (p ++ r ++ [0]) (Z.of_nat (length p + length r) + 0) nv None 0)).
  { eapply reach_trans; [exact (start_walk k _ E L)|]. apply reach_step. rewrite app_length, <- app_assoc, Z.add_0_r, EP. reflexivity. }
  destruct (walk_path p AP r 0%Z nv None 0%nat) as [(d & D1 & D2 & D3 & W)|(R1 & _ & R3 & x & W)]; [lia|left; rewrite EP; discriminate| |].
  - right. exists d. split; [lia|]. split; [exact D2|]. split; [exact D3|]. exact (reach_trans _ _ _ _ R W).
  - left. split; [exact R1|]. split; [exact R3|]. eapply ends_reach; [exact (reach_trans _ _ _ _ R W)|]. apply end_plain.
Qed.
Lemma origin_nul l n q k : tends (mkT TOrigin [0] l n q k) (Ok None). Proof. apply ends_done. reflexivity. Qed.
Lemma query_nul l n q k : tends (mkT TQuery [0] l n q k) (Ok None). Proof. apply ends_done. reflexivity. Qed.
Lemma question_nul l n q k : tends (mkT TQuestion [0] l n q k) (Ok None). Proof. apply ends_done. reflexivity. Qed.
Lemma space_ends k p t : v = repeat 32 k ++ p ++ 32 :: t -> abs_path p -> tends (t_start v) (Ok (Some (v, None))).
Proof.
  intros E AP. destruct (path_reach k p _ E AP) as [(Q & _)|(d & _ & _ & _ & R)]; [discriminate Q|]. eapply ends_reach; [exact R|]. eapply ends_reach; [apply reach_step; reflexivity|]. apply end_plain.
Qed.
Lemma question_reach k p t : v = repeat 32 k ++ p ++ 63 :: t -> abs_path p ->
  (t = [] /\ plain p /\ tends (t_start v) (Ok (Some (v, None)))) \/
  (exists d, (0 <= d)%Z /\ (plain p <-> d = 0%Z) /\ (0 < Z.of_nat (length t) + d)%Z /\ treach (t_start v) (mkT TQuestion (t ++ [0]) (Z.of_nat (length t) + d) (k + length p) None 0)).
Proof.
  intros E AP. destruct (path_reach k p _ E AP) as [(Q & _)|(d & D1 & D2 & D3 & R)]; [discriminate Q|].
  assert (DF : diff (v ++ [0]) ((63 :: t) ++ [0]) = (k + length p)%nat).
  { unfold diff. rewrite E. rewrite !app_length, repeat_length. cbn [length]. lia. }
  assert (ST : t_step m v (mkT TOrigin ((63 :: t) ++ [0]) (Z.of_nat (length (63 :: t)) + d) nv None 0) =
               t_brk (mkT TQuestion ((63 :: t) ++ [0]) (Z.of_nat (length (63 :: t)) + d) (k + length p) None 0)).
  { rewrite <- DF. reflexivity. }
  unfold t_brk in ST. cbn [t_st t_ptr t_len t_tlen t_query t_qlen tl app] in ST.
  destruct (Z.eqb_spec (Z.of_nat (length (63%N :: t)) + d - 1) 0) as [Z0|Z0]; apply reach_step in ST.
  - left. cbn [length] in Z0. assert (length t = 0%nat) by lia. destruct t; [|discriminate]. split; [reflexivity|]. split; [apply D2; lia|].
    eapply ends_reach; [exact (reach_trans _ _ _ _ R ST)|]. apply end_plain.
  - right. exists d. split; [exact D1|]. split; [exact D2|]. cbn [length] in Z0. split; [lia|].
    replace (Z.of_nat (length t) + d)%Z with (Z.of_nat (length (63%N :: t)) + d - 1)%Z by (cbn [length]; lia). exact (reach_trans _ _ _ _ R ST).
Qed.
Lemma ends_same s s' r : t_step m v s = t_step m v s' -> tends s' r -> tends s r.
Proof.
  intros E (n & H). exists (S n). intros f. specialize (H (S f)). replace (S n + f)%nat with (S (n + f)) by lia. replace (n + S f)%nat with (S (n + f)) in H by lia. cbn [run] in *. rewrite E. exact H.
Qed.
Lemma seen_char c (q : list N) : c <> 37 -> query_seen (c :: q) = c :: q.
Proof. intros NC. unfold query_seen. destruct c as [|p]; [reflexivity|]. do 6 (destruct p as [p|p|]; try reflexivity). exfalso. apply NC. reflexivity. Qed.
Lemma firstn_exact (a b : list N) : firstn (length a) (a ++ b) = a.
Proof. induction a as [|x a IH]; [reflexivity|]. cbn [length app firstn]. f_equal. exact IH. Qed.
Lemma question_step q X l n k : q <> [] -> encoded QUERYC q -> t_step m v (mkT TQuestion (q ++ X) l n None k) = t_step m v (mkT TQuery (q ++ X) l n (Some (query_seen q ++ X)) k).
Proof.
  intros NE Q. destruct Q as [|c q C Q|a b q A B Q]; [contradiction| |].
  - assert (QS : query_seen (c :: q) = c :: q) by (apply seen_char; intros ->; exact (pct_not_query C)).
    rewrite QS. unfold t_step. cbn [t_st t_ptr app]. rewrite (query_ok c (q ++ X) C). cbn [obind]. reflexivity.
  - unfold t_step. cbn [t_st t_ptr app]. rewrite (query_pct a b (q ++ X) A B). cbn [obind query_seen skipn app]. reflexivity.
Qed.
Lemma firstn_path k p r : v = repeat 32 k ++ p ++ r -> firstn (k + length p) v = repeat 32 k ++ p.
Proof. intros E. rewrite E, app_assoc. replace (k + length p)%nat with (length (repeat 32 k ++ p)) by (rewrite app_length, repeat_length; reflexivity). apply firstn_exact. Qed.
Lemma diff_seen (q X : list N) : firstn (diff (q ++ X) X) (q ++ X) = q.
Proof. rewrite diff_app. apply firstn_exact. Qed.

Lemma seen_plain q : Forall QUERYC q -> query_seen q = q.
Proof. intros F. destruct F as [|c q C _]; [reflexivity|]. apply seen_char. intros ->. exact (pct_not_query C). Qed.
Lemma query_reach k p q r : v = repeat 32 k ++ p ++ 63 :: q ++ r -> abs_path p -> q <> [] -> encoded QUERYC q ->
  (r = [] /\ plain p /\ Forall QUERYC q /\ tends (t_start v) (Ok (Some (repeat 32 k ++ p, Some q)))) \/
  (exists d, (0 < Z.of_nat (length r) + d)%Z /\ (plain p /\ Forall QUERYC q <-> d = 0%Z) /\
     forall res, tends (mkT TQuery (r ++ [0]) (Z.of_nat (length r) + d) (k + length p) (Some (query_seen q ++ r ++ [0])) 0) res -> tends (t_start v) res).
Proof.
  intros E AP NE Q. destruct (question_reach k p _ E AP) as [(QN & _)|(d & D1 & D2 & D3 & R)]; [destruct q; [contradiction|discriminate QN]|].
  rewrite <- app_assoc in R. rewrite app_length in R.
  assert (S : forall res, tends (mkT TQuery (q ++ r ++ [0]) (Z.of_nat (length q + length r) + d) (k + length p) (Some (query_seen q ++ r ++ [0])) 0) res -> tends (t_start v) res).
  { intros res T. eapply ends_reach; [exact R|]. eapply ends_same; [apply question_step; assumption|exact T]. }
  destruct (walk_query q Q r d (k + length p) (Some (query_seen q ++ r ++ [0])) 0%nat D1 (or_introl NE)) as [(d' & E1 & E2 & E3 & W)|(R1 & R2 & R3 & x & W)].
  - right. exists d'. split; [exact E3|]. split.
    + rewrite D2, E2. lia.
    + intros res T. apply S. eapply ends_reach; [exact W|exact T].
  - left. split; [exact R1|]. split; [apply D2; exact R2|]. split; [exact R3|]. apply S. eapply ends_reach; [exact W|]. subst r. cbn [last_qlen app].
    pose proof (end_query x 0 (k + length p) (query_seen q ++ [0]) (diff (query_seen q ++ [0]) [0])) as EQ. rewrite diff_seen, (firstn_path k p _ E), (seen_plain q R3) in EQ. rewrite (seen_plain q R3). exact EQ.
Qed.
Lemma plain_encoded (ok : N -> Prop) s : Forall ok s -> encoded ok s.
Proof. induction 1; [apply enc_nil|apply enc_char; assumption]. Qed.
Lemma target_complete u q : h2_target m v u q -> target_parse m v = Ok (Some (u, q)).
Proof.
  intros H. apply target_ends. remember v as w eqn:EV in H. symmetry in EV. destruct H as [k|k t M|k p (PH & PP)|k p (PH & PP)|k p q (PH & PP) NQ PQ|k p t AP|k p q t AP NQ QT].
  - rewrite <- EV. apply (blank_ends k EV).
  - rewrite <- EV. apply (star_ends k t M EV).
  - rewrite <- EV. assert (AP : abs_path p) by (split; [exact PH|apply plain_encoded; exact PP]).
    destruct (path_reach k p [] ltac:(rewrite app_nil_r; exact EV) AP) as [(_ & _ & T)|(d & _ & D2 & D3 & _)]; [exact T|]. apply D2 in PP. cbn [length] in D3. lia.
  - rewrite <- EV. assert (AP : abs_path p) by (split; [exact PH|apply plain_encoded; exact PP]).
    destruct (question_reach k p [] EV AP) as [(_ & _ & T)|(d & _ & D2 & D3 & _)]; [exact T|]. apply D2 in PP. cbn [length] in D3. lia.
  - assert (AP : abs_path p) by (split; [exact PH|apply plain_encoded; exact PP]). assert (EQ : encoded QUERYC q) by (apply plain_encoded; exact PQ).
    destruct (query_reach k p q [] ltac:(rewrite app_nil_r; exact EV) AP NQ EQ) as [(_ & _ & _ & T)|(d & D3 & D2 & _)]; [exact T|]. cbn [length] in D3. destruct (proj1 D2 (conj PP PQ)). lia.
  - rewrite <- EV. exact (space_ends k p t EV AP).
  - destruct (query_reach k p q (32 :: t) EV AP NQ QT) as [(Q & _)|(d & _ & _ & S)]; [discriminate Q|]. apply S. eapply ends_reach; [apply reach_step; reflexivity|].
    cbn [t_query t_ptr t_tlen t_len]. pose proof (end_query ((32 :: t) ++ [0]) (Z.of_nat (length (32 :: t)) + d) (k + length p) (query_seen q ++ (32 :: t) ++ [0]) (diff (query_seen q ++ (32 :: t) ++ [0]) ((32 :: t) ++ [0]))) as EE.
    rewrite diff_seen, (firstn_path k p _ EV) in EE. exact EE.
Qed.
Lemma target_sound : exists o, target_parse m v = Ok o /\ match o with Some (u, q) => h2_target m v u q | None => True end.
Proof.
  assert (FIN : forall o, tends (t_start v) (Ok o) -> match o with Some (u, q) => h2_target m v u q | None => True end -> exists o, target_parse m v = Ok o /\ match o with Some (u, q) => h2_target m v u q | None => True end).
  { intros o T P. exists o. split; [apply target_ends; exact T|exact P]. }
  destruct (munch_spaces v) as (k & rest & EV & RS). destruct RS as [RS|(c & t & RS & NC)]; rewrite RS in EV.
  { rewrite app_nil_r in EV. destruct k as [|k]; [apply (FIN None); [|exact Logic.I]; rewrite EV; apply ends_done; reflexivity|].
    apply (FIN (Some (v, None))); [exact (blank_ends k EV)|]. rewrite EV. constructor. }
  destruct (N.eq_dec c 47) as [->|N47].
  2: { destruct (N.eqb c 42 && method_eqb m OPTIONS) eqn:ST.
    - apply andb_true_iff in ST as (ST1 & ST2). apply N.eqb_eq in ST1 as ->. assert (M : m = OPTIONS) by (destruct m; first [reflexivity|discriminate ST2]).
      apply (FIN (Some (v, None))); [exact (star_ends k t M EV)|]. rewrite EV. apply ht_star. exact M.
    - apply (FIN None); [|exact Logic.I]. eapply ends_reach; [apply (start_walk k _ EV); cbn; lia|]. apply ends_done. unfold t_step. cbn [t_st t_ptr app]. unfold rd. cbn [nth_error obind].
      replace (c =? 32) with false by (symmetry; apply N.eqb_neq; exact NC). rewrite ST. replace (c =? 47) with false by (symmetry; apply N.eqb_neq; exact N47). reflexivity. }
  destruct (munch_path (length (47 :: t)) (47 :: t) (le_n _)) as (p & r & ES & EP & SK). rewrite ES in EV.
  assert (AP : abs_path p).
  { split; [|exact EP]. destruct p as [|x p]; [|injection ES as <- _; eauto]. cbn [app] in ES. subst r. destruct SK as [SK|(c & t' & SK & NP & _)]; [discriminate SK|]. injection SK as <- _. destruct NP. right. reflexivity. }
  destruct SK as [->|(c & t' & -> & NPC & PN)].
  { rewrite app_nil_r in EV. destruct (path_reach k p [] ltac:(rewrite app_nil_r; exact EV) AP) as [(_ & PP & T)|(d & _ & _ & _ & R)].
    - apply (FIN _ T). rewrite EV. apply ht_path. destruct AP. split; assumption.
    - apply (FIN None); [|exact Logic.I]. eapply ends_reach; [exact R|]. apply origin_nul. }
  destruct (N.eq_dec c 32) as [->|N32]. { apply (FIN _ (space_ends k p t' EV AP)). rewrite EV. apply ht_space. exact AP. }
  destruct (N.eq_dec c 63) as [->|N63].
  2: { apply (FIN None); [|exact Logic.I]. destruct (path_reach k p _ EV AP) as [(Q & _)|(d & _ & _ & _ & R)]; [discriminate Q|]. eapply ends_reach; [exact R|]. apply ends_done. unfold t_step. cbn [t_st t_ptr]. rewrite PN. unfold rd. cbn [app nth_error obind].
    destruct (N.eqb_spec c 47) as [->|]; [destruct NPC; right; reflexivity|]. replace (c =? 32) with false by (symmetry; apply N.eqb_neq; exact N32). replace (c =? 63) with false by (symmetry; apply N.eqb_neq; exact N63). reflexivity. }
  destruct (munch_query (length t') t' (le_n _)) as (q & r & ET & EQ & SK). destruct q as [|q0 q1].
  { destruct (question_reach k p t' EV AP) as [(-> & PP & T)|(d & _ & _ & _ & R)].
    - apply (FIN _ T). rewrite EV. apply ht_question. destruct AP. split; assumption.
    - apply (FIN None); [|exact Logic.I]. eapply ends_reach; [exact R|]. cbn [app] in ET. subst r. destruct SK as [->|(x & y & -> & _ & QN)]; [apply question_nul|]. apply ends_done. unfold t_step. cbn [t_st t_ptr]. rewrite QN. reflexivity. }
  set (q := q0 :: q1) in *. assert (NQ : q <> []) by discriminate. clearbody q. subst t'.
  destruct (query_reach k p q r EV AP NQ EQ) as [(-> & PP & PQ & T)|(d & _ & _ & S)].
  - apply (FIN _ T). rewrite EV, app_nil_r. apply ht_query; [destruct AP; split; assumption|exact NQ|exact PQ].
  - destruct SK as [->|(x & y & -> & NX & QN)]; [apply (FIN None); [apply S; apply query_nul|exact Logic.I]|]. destruct (N.eq_dec x 32) as [->|N2].
    + assert (HT : h2_target m v (repeat 32 k ++ p) (Some (query_seen q))) by (rewrite EV; apply ht_query_space; assumption). exists (Some (repeat 32 k ++ p, Some (query_seen q))). split; [apply target_complete; exact HT|exact HT].
    + apply (FIN None); [|exact Logic.I]. apply S. apply ends_done. unfold t_step. cbn [t_st t_ptr]. rewrite QN. unfold rd. cbn [app nth_error obind]. replace (x =? 32) with false by (symmetry; apply N.eqb_neq; exact N2). reflexivity.
Qed.
End TARGET.
Theorem target_exact m v u q : target_parse m v = Ok (Some (u, q)) <-> h2_target m v u q.
Proof.
  split; [|apply target_complete]. intros E. destruct (target_sound m v) as (o & T & P). rewrite T in E. injection E as ->. exact P.
Qed.
