(** Specification of multipart bodies (RFC 2046 5.1.1, RFC 7578) and proofs about Multipart.v. *)
From Verif Require Import Base CStr Mime Multipart.

(** ** Specification *)
Definition sub (x l : list N) : Prop := exists u v, l = u ++ x ++ v.
Definition crlf : list N := [13; 10]%N.
Definition dashes : list N := [45; 45]%N.
Definition blank (x : N) : Prop := x = 32%N \/ x = 9%N.

Definition good_boundary (b : list N) : Prop := b <> [] /\ ~ In 13%N b.
(** A field name a part may have, with the restriction of fly that it starts with "Content-". *)
Definition good_name (n : list N) : Prop :=
  (exists r, n = bs "Content-" ++ r) /\ (forall x, In x n -> ~ blank x /\ x <> 58%N).
Definition good_value (v : list N) : Prop :=
  ~ sub crlf v /\ (forall x r, v = x :: r -> ~ blank x).
(** One field line: name, optional blanks, colon, optional blanks, value, CRLF. *)
Inductive line_of : list N * list N -> list N -> Prop :=
| LineOf n v w1 w2 : good_name n -> good_value v -> Forall blank w1 -> Forall blank w2 ->
                     line_of (n, v) (n ++ w1 ++ 58%N :: w2 ++ v ++ crlf).
Inductive lines_of : list (list N * list N) -> list N -> Prop :=
| NoLines : lines_of [] []
| MoreLines h hs l ls : line_of h l -> lines_of hs ls -> lines_of (h :: hs) (l ++ ls).
(** The content of a part does not contain "--" and the boundary and does not begin with a NUL. *)
Definition good_content (b c : list N) : Prop :=
  ~ sub (dashes ++ b) c /\ (forall r, c <> 0%N :: r).
Inductive parts_of (b : list N) : list (list (list N * list N) * list N) -> list N -> Prop :=
| NoParts : parts_of b [] []
| MoreParts hs c ls ps rest :
    lines_of hs ls -> good_content b c -> parts_of b ps rest ->
    parts_of b ((hs, c) :: ps) (dashes ++ b ++ crlf ++ ls ++ crlf ++ c ++ crlf ++ rest).
(** The preamble is empty or ends with a line break, and does not contain the delimiter. *)
Definition good_preamble (b pre : list N) : Prop :=
  pre = [] \/ exists p, pre = p ++ crlf /\ ~ sub (dashes ++ b) p.
Definition body_of (b : list N) (ps : list (list (list N * list N) * list N)) (body : list N) : Prop :=
  exists pre mid epilogue, good_preamble b pre /\ parts_of b ps mid /\
    body = pre ++ mid ++ dashes ++ b ++ dashes ++ epilogue.

(** ** Fuel *)
Lemma line_loop_len : forall s st n v n' v' rest,
  line_loop st n v s = Ok (Some (n', v', rest)) -> (length rest < length s)%nat.
Proof.
  induction s as [|c t IH]; intros st n v n' v' rest H; [discriminate|].
  cbn [line_loop] in H.
  assert (B : forall st' a b, (if length t <=? 1 then Ok None else line_loop st' a b t) = Ok (Some (n', v', rest)) ->
              (length rest < length (c :: t))%nat).
  { intros st' a b K. destruct (length t <=? 1); [discriminate|]. apply IH in K. cbn [length]. lia. }
  assert (W : match t with
      | [] => UB OutOfBounds
      | d :: _ => if (c =? CR)%N && (d =? LF)%N
                  then if length t <=? 1 then Ok None else Ok (Some (rev n, rev v, t))
                  else if length t <=? 1 then Ok None else line_loop LValue n (c :: v) t
      end = Ok (Some (n', v', rest)) -> (length rest < length (c :: t))%nat).
  { destruct t as [|d t']; [discriminate|]. destruct ((c =? CR)%N && (d =? LF)%N); [|apply B].
    destruct (length (d :: t') <=? 1); [discriminate|]. intros K.
    assert (rest = d :: t') by congruence. subst. cbn [length]. lia. }
  destruct st; destruct ((c =? SP)%N || (c =? HT)%N);
    try (destruct (c =? COLON)%N); try discriminate; eauto.
Qed.

Lemma line_loop_total : forall s st n v, (1 < length s)%nat -> line_loop st n v s <> UB Diverges.
Proof.
  induction s as [|c t IH]; intros st n v L; [cbn in L; lia|].
  cbn [line_loop].
  assert (B : forall st' a b, (if length t <=? 1 then Ok None else line_loop st' a b t) <> UB Diverges).
  { intros st' a b. destruct (length t <=? 1) eqn:E; [discriminate|]. apply IH. lia. }
  assert (W : match t with
      | [] => UB OutOfBounds
      | d :: _ => if (c =? CR)%N && (d =? LF)%N
                  then if length t <=? 1 then Ok None else Ok (Some (rev n, rev v, t))
                  else if length t <=? 1 then Ok None else line_loop LValue n (c :: v) t
      end <> UB Diverges).
  { destruct t as [|d t']; [discriminate|]. destruct ((c =? CR)%N && (d =? LF)%N); [|apply B].
    destruct (length (d :: t') <=? 1); discriminate. }
  destruct st; destruct ((c =? SP)%N || (c =? HT)%N);
    try (destruct (c =? COLON)%N); try discriminate; auto.
Qed.

Lemma strncmp_mem_total pre : forall s, strncmp_mem pre s <> UB Diverges.
Proof.
  induction pre as [|p pre IH]; intros [|x t]; cbn [strncmp_mem]; try discriminate.
  destruct (x =? p)%N; [apply IH|discriminate].
Qed.

Lemma parse_line_len s n v rest : parse_line s = Ok (Some (n, v, rest)) -> (length rest < length s)%nat.
Proof.
  unfold parse_line, obind. destruct (strncmp_mem _ s) as [[]|]; try discriminate. apply line_loop_len.
Qed.
Lemma parse_line_total s : (1 < length s)%nat -> parse_line s <> UB Diverges.
Proof.
  intros L. unfold parse_line, obind. pose proof (strncmp_mem_total (bs "Content-") s) as T.
  destruct (strncmp_mem _ s) as [[]|]; try congruence. now apply line_loop_total.
Qed.

Lemma two_total a b s : two a b s <> UB Diverges.
Proof. destruct s as [|x [|y t]]; cbn [two]; try discriminate; destruct (x =? a)%N; discriminate. Qed.

Lemma header_parse_len : forall f s acc hs rest,
  header_parse f s acc = Ok (Some (hs, rest)) -> (length rest <= length s)%nat.
Proof.
  induction f as [|f IH]; intros s acc hs rest H; [discriminate|].
  cbn [header_parse] in H. destruct (length s <=? 1) eqn:E.
  - assert (rest = []) by congruence. subst. cbn; lia.
  - unfold obind in H. destruct (two CR LF s) as [[]|] eqn:T; try discriminate.
    + assert (rest = skipn 2 s) by congruence. subst. rewrite skipn_length. lia.
    + destruct (parse_line s) as [[[[n v] r]|]|] eqn:P; try discriminate.
      apply IH in H. apply parse_line_len in P. destruct r; cbn [tl length] in *; lia.
Qed.
Lemma header_parse_total : forall f s acc, (length s < f)%nat -> header_parse f s acc <> UB Diverges.
Proof.
  induction f as [|f IH]; intros s acc L; [lia|].
  cbn [header_parse]. destruct (length s <=? 1) eqn:E; [discriminate|].
  unfold obind. pose proof (two_total CR LF s) as T.
  destruct (two CR LF s) as [[]|]; try congruence.
  pose proof (parse_line_total s ltac:(lia)) as T2.
  destruct (parse_line s) as [[[[n v] r]|]|] eqn:P; try congruence.
  apply IH. apply parse_line_len in P. destruct r; cbn [tl length] in *; lia.
Qed.

Lemma boundary_at_total b i : boundary_at b i <> UB Diverges.
Proof. unfold boundary_at. destruct (nth_error b i); [discriminate|]. destruct (i =? length b); discriminate. Qed.

Lemma go_irrel : forall f f' b total m s parts, (length s < f)%nat -> (length s < f')%nat ->
  go f b total m s parts = go f' b total m s parts.
Proof.
  induction f as [|f IH]; intros f' b total m s parts L L'; [lia|].
  destruct f' as [|f']; [lia|]. cbn [go]. destruct m as [|i].
  - destruct s as [|c t]; [reflexivity|]. unfold obind. destruct (two _ _ _) as [[]|]; [| |reflexivity];
      apply IH; rewrite ?skipn_length; cbn [length] in *; lia.
  - unfold obind. destruct (boundary_at b i); [|reflexivity].
    destruct s as [|c t]; [reflexivity|]. cbn [length] in *.
    destruct (negb _); [apply IH; lia|].
    destruct (S i <? length b); [apply IH; lia|].
    destruct (two MINUS MINUS t) as [[]|]; try reflexivity.
    destruct (two CR LF t) as [l|]; try reflexivity.
    destruct (negb l); [reflexivity|]. destruct (length t <=? 2); [reflexivity|].
    destruct (header_parse _ _ _) as [[[hs rest]|]|] eqn:P; try reflexivity.
    apply header_parse_len in P. rewrite skipn_length in P. apply IH; lia.
Qed.

Lemma go_total : forall f b total m s parts, (length s < f)%nat -> go f b total m s parts <> UB Diverges.
Proof.
  induction f as [|f IH]; intros b total m s parts L; [lia|].
  cbn [go]. destruct m as [|i].
  - destruct s as [|c t]; [discriminate|]. unfold obind. pose proof (two_total MINUS MINUS (c :: t)) as T.
    destruct (two _ _ _) as [[]|]; [| |congruence];
      apply IH; rewrite ?skipn_length; cbn [length] in *; lia.
  - unfold obind. pose proof (boundary_at_total b i) as T. destruct (boundary_at b i); [|congruence].
    destruct s as [|c t]; [discriminate|]. cbn [length] in *.
    destruct (negb _); [apply IH; lia|].
    destruct (S i <? length b); [apply IH; lia|].
    pose proof (two_total MINUS MINUS t) as T1. destruct (two MINUS MINUS t) as [[]|]; try congruence.
    pose proof (two_total CR LF t) as T2. destruct (two CR LF t) as [l|]; try congruence.
    destruct (negb l); [discriminate|]. destruct (length t <=? 2) eqn:E; [discriminate|].
    pose proof (header_parse_total (length t) (skipn 2 t) [] ltac:(rewrite skipn_length; lia)) as T3.
    destruct (header_parse _ _ _) as [[[hs rest]|]|] eqn:P; try congruence.
    apply header_parse_len in P. rewrite skipn_length in P. apply IH; lia.
Qed.

Lemma received_total hs body : received hs body <> UB Diverges.
Proof.
  unfold received, obind.
  assert (T : is_multipart hs <> UB Diverges).
  { induction hs as [|h r IH]; cbn [is_multipart]; [discriminate|].
    destruct (is_ct h); [|exact IH]. unfold obind, mime_from_strn.
    destruct (List.find _ mimes) as [m|]; [|discriminate].
    destruct (bytes_eqb _ _); [discriminate|exact IH]. }
  destruct (is_multipart hs) as [g|]; [|congruence].
  destruct (negb g); [discriminate|].
  destruct (List.find is_ct hs) as [h|]; [|discriminate].
  destruct (boundary_of (snd h)) as [b|]; [|discriminate].
  pose proof (go_total (S (length body)) b (length body) Scan body [] ltac:(lia)) as T2.
  destruct (go _ _ _ _ _ _); [discriminate|congruence].
Qed.

(** ** Equations without fuel *)
Definition G (b : list N) (total : nat) (m : mode) (s : list N) (parts : list part) : outcome (list part) :=
  go (S (length s)) b total m s parts.

Lemma G_scan_skip b total c t parts : (c <> MINUS \/ exists d r, t = d :: r /\ d <> MINUS) ->
  G b total Scan (c :: t) parts = G b total Scan t parts.
Proof.
  intros H. unfold G at 1. cbn [go].
  assert (T : two MINUS MINUS (c :: t) = Ok false).
  { cbn [two]. destruct (c =? MINUS)%N eqn:E; [|reflexivity].
    apply N.eqb_eq in E. destruct H as [H|(d & r & -> & H)]; [contradiction|].
    apply N.eqb_neq in H. now rewrite H. }
  rewrite T. cbn [obind]. apply go_irrel; cbn [length]; lia.
Qed.
Lemma G_scan_dashes b total t parts :
  G b total Scan (MINUS :: MINUS :: t) parts =
  G b total (Cmp 0) t (close_last (total - S (S (length t))) parts).
Proof.
  unfold G at 1. cbn [go two]. rewrite N.eqb_refl. cbn [obind length skipn].
  apply go_irrel; lia.
Qed.
Lemma G_scan_nil b total parts : G b total Scan [] parts = Ok parts.
Proof. reflexivity. Qed.
Lemma G_cmp_no b total i x c t parts : boundary_at b i = Ok x -> c <> x ->
  G b total (Cmp i) (c :: t) parts = G b total Scan t parts.
Proof.
  intros B E. unfold G at 1. cbn [go]. rewrite B. cbn [obind].
  replace (negb (x =? c)%N) with true by (symmetry; apply negb_true_iff, N.eqb_neq; congruence).
  apply go_irrel; cbn [length]; lia.
Qed.
Lemma G_cmp_yes b total i c t parts : nth_error b i = Some c -> (S i < length b)%nat ->
  G b total (Cmp i) (c :: t) parts = G b total (Cmp (S i)) t parts.
Proof.
  intros B L. unfold G at 1. cbn [go]. unfold boundary_at. rewrite B. cbn [obind].
  rewrite N.eqb_refl. cbn [negb]. replace (S i <? length b)%nat with true by (symmetry; apply Nat.ltb_lt; lia).
  apply go_irrel; cbn [length]; lia.
Qed.
Lemma G_cmp_end b total i c t parts : nth_error b i = Some c -> S i = length b ->
  G b total (Cmp i) (c :: MINUS :: MINUS :: t) parts = Ok parts.
Proof.
  intros B L. unfold G. cbn [go]. unfold boundary_at. rewrite B. cbn [obind].
  rewrite N.eqb_refl. cbn [negb]. replace (S i <? length b)%nat with false by (symmetry; apply Nat.ltb_ge; lia).
  cbn [two]. rewrite N.eqb_refl. reflexivity.
Qed.
Lemma G_cmp_part b total i c t hs rest parts : nth_error b i = Some c -> S i = length b ->
  t <> [] -> header_parse (S (S (length t))) t [] = Ok (Some (hs, rest)) ->
  G b total (Cmp i) (c :: CR :: LF :: t) parts =
  G b total (Cmp (length b)) rest (mkPart hs (total - length rest) 0 :: parts).
Proof.
  intros B L NE P. unfold G at 1. cbn [go]. unfold boundary_at. rewrite B. cbn [obind].
  rewrite N.eqb_refl. cbn [negb]. replace (S i <? length b)%nat with false by (symmetry; apply Nat.ltb_ge; lia).
  change (two MINUS MINUS (CR :: LF :: t)) with (Ok false). cbn [obind].
  change (two CR LF (CR :: LF :: t)) with (Ok true). cbn [obind negb length skipn].
  destruct t as [|d t]; [congruence|].
  replace (S (S (length (d :: t))) <=? 2)%nat with false by (symmetry; apply Nat.leb_gt; cbn [length]; lia).
  rewrite P. cbn [obind]. rewrite L. pose proof (header_parse_len _ _ _ _ _ P). apply go_irrel; cbn [length] in *; lia.
Qed.

(** ** Scanning *)
Lemma no_sub_tail x c l : ~ sub x (c :: l) -> ~ sub x l.
Proof. intros H (u & v & ->). apply H. exists (c :: u), v. reflexivity. Qed.
Lemma no_sub_app x a l : ~ sub x (a ++ l) -> ~ sub x l.
Proof. intros H (u & v & ->). apply H. exists (a ++ u), v. now rewrite <- app_assoc. Qed.

(** Comparing the boundary against text that does not begin with it: back to scanning inside the text or
    right after the CR that follows it. *)
Lemma cmp_fails b total (Hb : ~ In CR b) parts k : forall b2 b1 t,
  b = b1 ++ b2 -> b2 <> [] -> (forall v, t <> b2 ++ v) ->
  (exists t1 t2, t = t1 ++ t2 /\ t1 <> [] /\
     G b total (Cmp (length b1)) (t ++ CR :: k) parts = G b total Scan (t2 ++ CR :: k) parts) \/
  G b total (Cmp (length b1)) (t ++ CR :: k) parts = G b total Scan k parts.
Proof.
  induction b2 as [|x b2 IH]; intros b1 t E NE NP; [congruence|].
  assert (NB : nth_error b (length b1) = Some x).
  { rewrite E, nth_error_app2, Nat.sub_diag by lia. reflexivity. }
  assert (BA : boundary_at b (length b1) = Ok x) by (unfold boundary_at; now rewrite NB).
  destruct t as [|c t].
  - right. cbn [app]. apply (G_cmp_no b total (length b1) x); [exact BA|].
    intros EQ. apply Hb. rewrite E. apply in_or_app. right. left. congruence.
  - destruct (N.eq_dec c x) as [->|D].
    2:{ left. exists [c], t. split; [reflexivity|]. split; [discriminate|].
        cbn [app]. apply (G_cmp_no b total (length b1) x); assumption. }
    assert (b2 <> []) by (intros ->; apply (NP t); reflexivity).
    assert (L : length b = (length b1 + S (length b2))%nat) by (rewrite E, app_length; reflexivity).
    assert (1 <= length b2)%nat by (destruct b2; [congruence|cbn; lia]).
    assert (ST : G b total (Cmp (length b1)) ((x :: t) ++ CR :: k) parts
               = G b total (Cmp (length (b1 ++ [x]))) (t ++ CR :: k) parts).
    { cbn [app]. rewrite (G_cmp_yes b total (length b1) x); [|exact NB|lia].
      rewrite app_length. cbn [length]. now rewrite Nat.add_1_r. }
    destruct (IH (b1 ++ [x]) t) as [(t1 & t2 & -> & _ & Q)|Q].
    + rewrite E, <- app_assoc. reflexivity.
    + assumption.
    + intros v ->. apply (NP v). reflexivity.
    + left. exists (x :: t1), t2. split; [reflexivity|]. split; [discriminate|]. rewrite ST. exact Q.
    + right. rewrite ST. exact Q.
Qed.

(** The length recorded for the last part changes at each "--"; only the last value counts. *)
Lemma close_last_twice p q parts : close_last p (close_last q parts) = close_last p parts.
Proof. destruct parts; reflexivity. Qed.

(** Scanning text without the delimiter, then CRLF and the delimiter. *)
Lemma scan_text b total (Hb : good_boundary b) k : forall n t parts,
  (length t <= n)%nat -> ~ sub (dashes ++ b) t ->
  G b total Scan (t ++ crlf ++ dashes ++ k) parts =
  G b total (Cmp 0) k (close_last (total - S (S (length k))) parts).
Proof.
  destruct Hb as [Hne Hcr].
  assert (LFK : forall parts, G b total Scan (LF :: dashes ++ k) parts =
                G b total (Cmp 0) k (close_last (total - S (S (length k))) parts)).
  { intros parts. rewrite G_scan_skip by (left; discriminate). apply G_scan_dashes. }
  induction n as [|n IH]; intros t parts L NS.
  - destruct t; [|cbn in L; lia]. cbn [app crlf].
    change (13%N :: 10%N :: dashes ++ k) with (CR :: LF :: dashes ++ k).
    rewrite G_scan_skip by (left; discriminate). apply LFK.
  - destruct t as [|c t].
    { cbn [app crlf]. change (13%N :: 10%N :: dashes ++ k) with (CR :: LF :: dashes ++ k).
      rewrite G_scan_skip by (left; discriminate). apply LFK. }
    cbn [length] in L. pose proof (no_sub_tail _ _ _ NS) as NS'.
    destruct (N.eq_dec c MINUS) as [->|D].
    2:{ cbn [app]. rewrite G_scan_skip by (now left). apply IH; [lia|exact NS']. }
    destruct t as [|d t].
    { cbn [app crlf]. change (13%N :: 10%N :: dashes ++ k) with (CR :: LF :: dashes ++ k).
      rewrite G_scan_skip by (right; exists CR, (LF :: dashes ++ k); split; [reflexivity|discriminate]).
      rewrite G_scan_skip by (left; discriminate). apply LFK. }
    destruct (N.eq_dec d MINUS) as [->|D].
    2:{ cbn [app]. rewrite G_scan_skip by (right; eauto). apply (IH (d :: t)); [lia|exact NS']. }
    cbn [app]. rewrite G_scan_dashes.
    set (ps := close_last _ parts).
    assert (HP : forall q, close_last q ps = close_last q parts) by (intros; apply close_last_twice).
    clearbody ps. rewrite <- HP.
    change (t ++ crlf ++ dashes ++ k) with (t ++ CR :: (LF :: dashes ++ k)).
    destruct (cmp_fails b total Hcr ps (LF :: dashes ++ k) b [] t) as [(t1 & t2 & -> & NE1 & Q)|Q].
    + reflexivity.
    + assumption.
    + intros v ->. apply NS. exists [], v. reflexivity.
    + cbn [length] in Q. rewrite Q. apply (IH t2).
      * cbn [length] in L. rewrite app_length in L. lia.
      * apply (no_sub_app _ t1), (no_sub_tail _ MINUS). exact NS'.
    + cbn [length] in Q. rewrite Q. apply LFK.
Qed.

(** ** Field lines *)
Lemma strncmp_mem_prefix pre s : strncmp_mem pre (pre ++ s) = Ok true.
Proof. induction pre as [|p pre IH]; [reflexivity|]. cbn [app strncmp_mem]. now rewrite N.eqb_refl. Qed.

Lemma blank_test x : ((x =? SP)%N || (x =? HT)%N = true) <-> blank x.
Proof. unfold blank, SP, HT. rewrite orb_true_iff, !N.eqb_eq. tauto. Qed.
Lemma blank_test_no x : ~ blank x -> (x =? SP)%N || (x =? HT)%N = false.
Proof. intros H. destruct ((x =? SP)%N || (x =? HT)%N) eqn:E; [|reflexivity]. now apply blank_test in E. Qed.

Lemma loop_name : forall n acc k, (forall x, In x n -> ~ blank x /\ x <> 58%N) -> (2 <= length k)%nat ->
  line_loop LName acc [] (n ++ k) = line_loop LName (rev n ++ acc) [] k.
Proof.
  induction n as [|c n IH]; intros acc k H L; [reflexivity|].
  cbn [app line_loop]. destruct (H c (or_introl eq_refl)) as [H1 H2].
  rewrite (blank_test_no c H1). replace (c =? COLON)%N with false by (symmetry; apply N.eqb_neq; exact H2).
  replace (length (n ++ k) <=? 1)%nat with false by (symmetry; apply Nat.leb_gt; rewrite app_length; lia).
  rewrite IH; [|intros x Hx; apply H; now right|exact L].
  cbn [rev]. now rewrite <- app_assoc.
Qed.
Lemma loop_blank_name : forall w st nm k, st = LName \/ st = LNameSpace -> Forall blank w -> (1 <= length k)%nat ->
  line_loop st nm [] (w ++ 58%N :: k) = line_loop LName nm [] (58%N :: k).
Proof.
  induction w as [|c w IH]; intros st nm k HS H L.
  - cbn [app]. destruct HS as [-> | ->]; reflexivity.
  - inversion H as [|? ? H1 H2]; subst. cbn [app]. apply blank_test in H1.
    assert (E : line_loop st nm [] (c :: w ++ 58%N :: k) = line_loop LNameSpace nm [] (w ++ 58%N :: k)).
    { cbn [line_loop]. rewrite H1.
      replace (length (w ++ 58%N :: k) <=? 1)%nat with false
        by (symmetry; apply Nat.leb_gt; rewrite app_length; cbn [length]; lia).
      destruct HS as [-> | ->]; reflexivity. }
    rewrite E. apply IH; auto.
Qed.
Lemma loop_blank_value : forall w st nm k, st = LColon \/ st = LColonSpace -> Forall blank w -> (2 <= length k)%nat ->
  (forall x r, k = x :: r -> ~ blank x) ->
  line_loop st nm [] (w ++ k) = line_loop LValue nm [] k.
Proof.
  induction w as [|c w IH]; intros st nm k HS H L NB.
  - cbn [app]. destruct k as [|x r]; [cbn in L; lia|].
    specialize (NB x r eq_refl). apply blank_test_no in NB.
    cbn [line_loop]. rewrite NB. destruct HS as [-> | ->]; reflexivity.
  - inversion H as [|? ? H1 H2]; subst. cbn [app]. apply blank_test in H1.
    assert (E : line_loop st nm [] (c :: w ++ k) = line_loop LColonSpace nm [] (w ++ k)).
    { cbn [line_loop]. rewrite H1.
      replace (length (w ++ k) <=? 1)%nat with false
        by (symmetry; apply Nat.leb_gt; rewrite app_length; lia).
      destruct HS as [-> | ->]; reflexivity. }
    rewrite E. apply IH; auto.
Qed.
Lemma loop_value : forall v nm acc k, ~ sub crlf v -> (1 <= length k)%nat ->
  line_loop LValue nm acc (v ++ CR :: LF :: k) = Ok (Some (rev nm, rev acc ++ v, LF :: k)).
Proof.
  induction v as [|c v IH]; intros nm acc k NS L.
  - cbn [app line_loop]. rewrite !N.eqb_refl. cbn [andb].
    replace (length (LF :: k) <=? 1)%nat with false by (symmetry; apply Nat.leb_gt; cbn [length]; lia).
    now rewrite app_nil_r.
  - cbn [app line_loop].
    assert (E : match v ++ CR :: LF :: k with
      | [] => UB OutOfBounds
      | d :: _ => if (c =? CR)%N && (d =? LF)%N
                  then if length (v ++ CR :: LF :: k) <=? 1 then Ok None else Ok (Some (rev nm, rev acc, v ++ CR :: LF :: k))
                  else if length (v ++ CR :: LF :: k) <=? 1 then Ok None else line_loop LValue nm (c :: acc) (v ++ CR :: LF :: k)
      end = line_loop LValue nm (c :: acc) (v ++ CR :: LF :: k)).
    { assert (LE : (length (v ++ CR :: LF :: k) <=? 1)%nat = false)
        by (apply Nat.leb_gt; rewrite app_length; cbn [length]; lia).
      rewrite LE. destruct (v ++ CR :: LF :: k) as [|d r] eqn:V; [destruct v; discriminate|].
      destruct ((c =? CR)%N && (d =? LF)%N) eqn:B; [|reflexivity].
      exfalso. apply andb_true_iff in B as [B1 B2]. apply N.eqb_eq in B1, B2. subst.
      destruct v as [|d' v']; [cbn in V; discriminate|].
      cbn [app] in V. injection V as -> _. apply NS. exists [], v'. reflexivity. }
    rewrite E, IH; [|exact (no_sub_tail _ _ _ NS)|exact L].
    cbn [rev]. now rewrite <- app_assoc.
Qed.

Lemma parse_line_ok h l k : line_of h l -> (1 <= length k)%nat ->
  parse_line (l ++ k) = Ok (Some (fst h, snd h, LF :: k)).
Proof.
  intros H L. destruct H as [n v w1 w2 [[r Hr] Hn] [Hv1 Hv2] W1 W2].
  unfold parse_line.
  assert (P : strncmp_mem (bs "Content-") ((n ++ w1 ++ 58%N :: w2 ++ v ++ crlf) ++ k) = Ok true).
  { rewrite Hr, <- !app_assoc. apply strncmp_mem_prefix. }
  rewrite P. cbn [obind fst snd].
  replace ((n ++ w1 ++ 58%N :: w2 ++ v ++ crlf) ++ k) with (n ++ w1 ++ 58%N :: w2 ++ v ++ CR :: LF :: k).
  2:{ rewrite <- !app_assoc. cbn [app]. rewrite <- !app_assoc. reflexivity. }
  rewrite loop_name; [|exact Hn|].
  2:{ rewrite !app_length. cbn [length]. rewrite !app_length. cbn [length]. lia. }
  rewrite loop_blank_name; [|now left|exact W1|].
  2:{ rewrite !app_length. cbn [length]. lia. }
  rewrite app_nil_r.
  assert (E : line_loop LName (rev n) [] (58%N :: w2 ++ v ++ CR :: LF :: k)
            = line_loop LColon (rev n) [] (w2 ++ v ++ CR :: LF :: k)).
  { cbn [line_loop]. change ((58 =? SP)%N || (58 =? HT)%N) with false. change (58 =? COLON)%N with true. cbv iota.
    replace (length (w2 ++ v ++ CR :: LF :: k) <=? 1)%nat with false; [reflexivity|].
    symmetry; apply Nat.leb_gt. rewrite !app_length. cbn [length]. lia. }
  rewrite E, (loop_blank_value w2 LColon); [|now left|exact W2| |].
  - rewrite loop_value by assumption. rewrite rev_involutive. reflexivity.
  - rewrite app_length. cbn [length]. lia.
  - intros x r0 EQ. destruct v as [|c v]; cbn [app] in EQ.
    + injection EQ as <- _. intros [J|J]; discriminate.
    + injection EQ as <- _. eapply Hv2. reflexivity.
Qed.

Lemma header_parse_ok hs ls : lines_of hs ls -> forall f acc k, (length hs < f)%nat ->
  header_parse f (ls ++ CR :: LF :: k) acc = Ok (Some (rev acc ++ hs, k)).
Proof.
  induction 1 as [|h hs l ls Hl Hls IH]; intros f acc k L.
  - destruct f as [|f]; [cbn in L; lia|]. cbn [app header_parse length].
    replace (S (S (length k)) <=? 1)%nat with false by (symmetry; apply Nat.leb_gt; lia).
    cbn. now rewrite app_nil_r.
  - destruct f as [|f]; [cbn in L; lia|]. cbn [header_parse].
    assert (Q : (1 <= length (ls ++ CR :: LF :: k))%nat) by (rewrite app_length; cbn [length]; lia).
    pose proof (parse_line_ok h l (ls ++ CR :: LF :: k) Hl Q) as P.
    rewrite <- app_assoc.
    assert (C0 : exists c1 c2 r, l = c1 :: c2 :: r /\ c1 <> CR).
    { destruct Hl as [n v w1 w2 [[r0 ->] _] _ _ _].
      exists 67%N, 111%N. eexists. split; [reflexivity|discriminate]. }
    destruct C0 as (c1 & c2 & r & El & NC).
    replace (length (l ++ ls ++ CR :: LF :: k) <=? 1)%nat with false
      by (symmetry; apply Nat.leb_gt; rewrite El; cbn [app length]; lia).
    assert (T : two CR LF (l ++ ls ++ CR :: LF :: k) = Ok false).
    { rewrite El. cbn [app two]. apply N.eqb_neq in NC. now rewrite NC. }
    rewrite T. cbn [obind]. rewrite P. cbn [obind tl].
    rewrite IH by (cbn [length] in L; lia).
    destruct h as [n v]. cbn [fst snd rev]. now rewrite <- app_assoc.
Qed.

(** ** The whole body *)
(** The boundary itself, from byte [length b1] on, up to its last byte. *)
Lemma cmp_boundary b total k parts : forall b2 b1 x, b = b1 ++ b2 ++ [x] ->
  G b total (Cmp (length b1)) (b2 ++ x :: k) parts = G b total (Cmp (length (b1 ++ b2))) (x :: k) parts.
Proof.
  induction b2 as [|y b2 IH]; intros b1 x E; [now rewrite app_nil_r|].
  cbn [app]. rewrite (G_cmp_yes b total (length b1) y).
  - replace (S (length b1)) with (length (b1 ++ [y])) by (rewrite app_length; cbn; lia).
    rewrite (IH (b1 ++ [y]) x) by (rewrite E, <- app_assoc; reflexivity).
    now rewrite <- app_assoc.
  - rewrite E, nth_error_app2, Nat.sub_diag by lia. reflexivity.
  - rewrite E, app_length. cbn [app length]. rewrite app_length. cbn [length]. lia.
Qed.
Lemma cmp_last b total k parts : b <> [] -> exists x i, nth_error b i = Some x /\ S i = length b /\
  G b total (Cmp 0) (b ++ k) parts = G b total (Cmp i) (x :: k) parts.
Proof.
  intros NE. destruct (exists_last NE) as (b0 & x & E). exists x, (length b0). split; [|split].
  - rewrite E, nth_error_app2, Nat.sub_diag by lia. reflexivity.
  - rewrite E, app_length. cbn [length]. lia.
  - pose proof (cmp_boundary b total k parts b0 [] x E) as Q. cbn [length app] in Q.
    rewrite <- Q. f_equal. rewrite E at 1. now rewrite <- app_assoc.
Qed.

(** A recorded part of the given content. *)
Definition records (body : list N) (p : part) (hc : list (list N * list N) * list N) : Prop :=
  p_headers p = fst hc /\ p_len p = Z.of_nat (length (snd hc)) /\ exists k, skipn (p_off p) body = snd hc ++ k.

Lemma records_content body p hc : records body p hc -> (p_headers p, content body p) = hc.
Proof.
  intros (H1 & H2 & k & H3). destruct hc as [hs c]. cbn [fst snd] in *. unfold content.
  rewrite H1, H2, Nat2Z.id, H3, firstn_app, Nat.sub_diag, firstn_O, app_nil_r, firstn_all. reflexivity.
Qed.

Lemma skipn_done {A} (d s : list A) : skipn (length (d ++ s) - length s) (d ++ s) = s.
Proof.
  rewrite app_length, Nat.add_sub. rewrite skipn_app, skipn_all, Nat.sub_diag. reflexivity.
Qed.

Lemma delim_shape b ps mid tail : parts_of b ps mid -> exists k,
  mid ++ dashes ++ b ++ tail = dashes ++ b ++ k.
Proof.
  intros [|hs c ls ps' rest _ _ _]; [now exists tail|].
  eexists. rewrite <- !app_assoc. reflexivity.
Qed.

(** From just after the "--" of a delimiter to just after the "--" of a later one. *)
Lemma parts_loop b (Hb : good_boundary b) tail ps mid : parts_of b ps mid -> forall body done k acc,
  mid ++ dashes ++ b ++ tail = dashes ++ k -> body = done ++ k ->
  exists qs, G b (length body) (Cmp 0) k acc = G b (length body) (Cmp 0) (b ++ tail) (rev qs ++ acc) /\
             Forall2 (records body) qs ps.
Proof.
  induction 1 as [|hs c ls ps rest Hls Hc Hps IH]; intros body done k acc Ek Eb.
  - exists []. split; [|constructor]. cbn [app] in Ek. apply (app_inv_head dashes) in Ek. rewrite <- Ek. reflexivity.
  - rewrite <- !app_assoc in Ek. apply app_inv_head in Ek.
    destruct (delim_shape b ps rest tail Hps) as [k' Ek'].
    rewrite Ek' in Ek. rewrite <- Ek.
    destruct (cmp_last b (length body) (crlf ++ ls ++ crlf ++ c ++ crlf ++ dashes ++ b ++ k') acc (proj1 Hb))
      as (x & i & H1 & H2 & ->).
    set (cont := c ++ crlf ++ dashes ++ b ++ k') in *.
    change (crlf ++ ls ++ crlf ++ cont) with (CR :: LF :: ls ++ CR :: LF :: cont).
    assert (HP : header_parse (S (S (length (ls ++ CR :: LF :: cont)))) (ls ++ CR :: LF :: cont) []
                 = Ok (Some (hs, cont))).
    { rewrite (header_parse_ok hs ls Hls); [reflexivity|].
      assert (length hs <= length ls)%nat.
      { clear -Hls. induction Hls as [|h hs l ls H1 H2 IH]; [reflexivity|].
        rewrite app_length. cbn [length]. destruct H1. rewrite !app_length. cbn [length]. lia. }
      rewrite app_length. lia. }
    rewrite (G_cmp_part b (length body) i x (ls ++ CR :: LF :: cont) hs cont acc H1 H2);
      [|destruct ls; discriminate|exact HP].
    set (off := (length body - length cont)%nat).
    assert (Ebody : body = (done ++ b ++ crlf ++ ls ++ crlf) ++ cont).
    { rewrite Eb, <- Ek, <- !app_assoc. reflexivity. }
    assert (Hoff : skipn off body = cont).
    { unfold off. rewrite Ebody. apply skipn_done. }
    (* the byte compared with the NUL after the boundary *)
    assert (ST : forall qs, G b (length body) (Cmp (length b)) cont qs
      = G b (length body) (Cmp 0) (b ++ k') (close_last (length body - S (S (length (b ++ k')))) qs)).
    { intros qs. assert (BA : boundary_at b (length b) = Ok 0%N).
      { unfold boundary_at. rewrite (proj2 (nth_error_None b (length b)) (le_n _)), Nat.eqb_refl. reflexivity. }
      unfold cont. destruct c as [|c0 c].
      - cbn [app crlf]. rewrite (G_cmp_no b (length body) (length b) 0%N); [|exact BA|discriminate].
        rewrite G_scan_skip by (left; discriminate). apply G_scan_dashes.
      - cbn [app]. rewrite (G_cmp_no b (length body) (length b) 0%N); [|exact BA|].
        2:{ intros ->. destruct Hc as [_ Hc]. exact (Hc c eq_refl). }
        apply (scan_text b (length body) Hb (b ++ k') (length c)); [lia|].
        destruct Hc as [Hc _]. exact (no_sub_tail _ _ _ Hc). }
    rewrite ST.
    set (done' := done ++ b ++ crlf ++ ls ++ crlf ++ c ++ crlf ++ dashes).
    assert (Eb' : body = done' ++ b ++ k').
    { rewrite Ebody. unfold cont, done'. rewrite <- !app_assoc. reflexivity. }
    destruct (IH body done' (b ++ k') (close_last (length body - S (S (length (b ++ k')))) (mkPart hs off 0 :: acc)))
      as (qs & Q1 & Q2).
    { exact Ek'. }
    { exact Eb'. }
    cbn [close_last p_headers p_off] in Q1.
    eexists (_ :: qs). split.
    + cbn [close_last p_headers p_off]. rewrite Q1. cbn [rev]. rewrite <- app_assoc. reflexivity.
    + constructor; [|exact Q2]. unfold records. cbn [p_headers p_len p_off fst snd].
      split; [reflexivity|]. split.
      * unfold off. assert (L1 : length body = (length (done ++ b ++ crlf ++ ls ++ crlf) + length cont)%nat)
          by (rewrite Ebody at 1; apply app_length).
        assert (L2 : length cont = (length c + 4 + length (b ++ k'))%nat).
        { unfold cont. rewrite app_length. cbn [crlf dashes app length]. lia. }
        lia.
      * rewrite Hoff. unfold cont. now exists (crlf ++ dashes ++ b ++ k').
Qed.

(** Any body that begins with well-formed parts: the parser reaches the next delimiter with exactly
    these parts. *)
Definition body_upto (b : list N) (ps : list (list (list N * list N) * list N)) (tail body : list N) : Prop :=
  exists pre mid, good_preamble b pre /\ parts_of b ps mid /\ body = pre ++ mid ++ dashes ++ b ++ tail.

Lemma go_upto b ps tail body : good_boundary b -> body_upto b ps tail body ->
  exists qs, go (S (length body)) b (length body) Scan body [] = G b (length body) (Cmp 0) (b ++ tail) (rev qs) /\
             Forall2 (records body) qs ps.
Proof.
  intros Hb (pre & mid & Hpre & Hmid & ->).
  set (body := pre ++ mid ++ dashes ++ b ++ tail).
  destruct (delim_shape b ps mid tail Hmid) as [k Ek].
  assert (Eb : body = pre ++ dashes ++ b ++ k) by (unfold body; now rewrite Ek).
  assert (Eb2 : body = (pre ++ dashes) ++ b ++ k) by (rewrite Eb, <- app_assoc; reflexivity).
  change (go (S (length body)) b (length body) Scan body []) with (G b (length body) Scan body []).
  assert (ST : G b (length body) Scan body [] = G b (length body) (Cmp 0) (b ++ k) []).
  { rewrite Eb at 2. destruct Hpre as [->|(p & -> & NS)].
    - cbn [app dashes]. change (45%N :: 45%N :: b ++ k) with (MINUS :: MINUS :: b ++ k).
      now rewrite G_scan_dashes.
    - rewrite <- app_assoc. rewrite (scan_text b (length body) Hb (b ++ k) (length p)); [reflexivity|lia|exact NS]. }
  rewrite ST.
  destruct (parts_loop b Hb tail ps mid Hmid body (pre ++ dashes) (b ++ k) [] Ek Eb2) as (qs & Q1 & Q2).
  exists qs. rewrite app_nil_r in Q1. auto.
Qed.

Lemma handler_exact body qs ps : ps <> [] -> Forall2 (records body) qs ps ->
  handler_body body (rev qs) = Parts ps.
Proof.
  intros NE F. assert (qs <> []) by (inversion F; subst; congruence).
  unfold handler_body. destruct (rev qs) eqn:E.
  - apply (f_equal (@length part)) in E. rewrite rev_length in E. destruct qs; [congruence|discriminate].
  - rewrite <- E. clear E.
    assert (NN : existsb (fun p => (p_len p <? 0)%Z) (rev qs) = false).
    { destruct (existsb _ (rev qs)) eqn:X; [|reflexivity].
      apply existsb_exists in X as (q & Hq & Hl). apply in_rev in Hq.
      exfalso. clear -F Hq Hl. induction F as [|x y qs ps H F IH]; [destruct Hq|].
      destruct Hq as [->|Hq]; [|auto]. destruct H as (_ & H & _). rewrite H in Hl. lia. }
    rewrite NN, rev_involutive. f_equal. clear -F.
    induction F as [|x y qs ps H F IH]; [reflexivity|]. cbn [map]. now rewrite IH, (records_content _ _ _ H).
Qed.

(** The content type. *)
Definition ct_value (b : list N) : list N := bs "multipart/form-data; boundary=" ++ b.

Lemma mime_multipart b : mime_from_strn (ct_value b) = Ok (mkMime (bs "multipart/form-data") []).
Proof.
  unfold mime_from_strn. assert (H : forall n, (length n <=? length (ct_value b)) && strncmp_eqb (length n) (ct_value b) n
    = (length n <=? length (ct_value b)) && is_prefix n (ct_value b)).
  { intros n. now rewrite strncmp_prefix. }
  assert (E : List.find (fun m => (length (mt_name m) <=? length (ct_value b)) && strncmp_eqb (length (mt_name m)) (ct_value b) (mt_name m)) mimes
    = Some (mkMime (bs "multipart/form-data") [])); [|now rewrite E].
  unfold mimes. cbn [List.find mt_name]. rewrite !H.
  change (is_prefix (bs "text/plain") (ct_value b)) with false.
  change (is_prefix (bs "text/csv") (ct_value b)) with false.
  change (is_prefix (bs "text/html") (ct_value b)) with false.
  change (is_prefix (bs "text/css") (ct_value b)) with false.
  change (is_prefix (bs "text/xml") (ct_value b)) with false.
  change (is_prefix (bs "text/javascript") (ct_value b)) with false.
  change (is_prefix (bs "text/richtext") (ct_value b)) with false.
  change (is_prefix (bs "application/json") (ct_value b)) with false.
  change (is_prefix (bs "application/octet_stream") (ct_value b)) with false.
  change (is_prefix (bs "multipart/form-data") (ct_value b)) with true.
  rewrite !andb_false_r, andb_true_r.
  replace (length (bs "multipart/form-data") <=? length (ct_value b))%nat with true; [reflexivity|].
  symmetry; apply Nat.leb_le. unfold ct_value. rewrite app_length. cbn. lia.
Qed.

Lemma seek_skip ch c t : (c <> ch)%N -> (2 <= length t)%nat -> seek ch (c :: t) = seek ch t.
Proof.
  intros H L. cbn [seek]. apply N.eqb_neq in H. rewrite H.
  replace (length t <=? 1)%nat with false by (symmetry; apply Nat.leb_gt; lia). reflexivity.
Qed.
Lemma seek_here ch t : seek ch (ch :: t) = Some (ch :: t).
Proof. cbn [seek]. now rewrite N.eqb_refl. Qed.
Lemma seek_past ch : forall a t, ~ In ch a -> (1 <= length t)%nat -> seek ch (a ++ ch :: t) = Some (ch :: t).
Proof.
  induction a as [|c a IH]; intros t H L; [apply seek_here|].
  cbn [app]. rewrite seek_skip.
  - apply IH; [|exact L]. intros J; apply H; now right.
  - intros ->. apply H. now left.
  - rewrite app_length. cbn [length]. lia.
Qed.

Lemma boundary_ct b : b <> [] -> boundary_of (ct_value b) = Some b.
Proof.
  intros NE. assert (L : (1 <= length b)%nat) by (destruct b; [congruence|cbn; lia]).
  unfold boundary_of, ct_value.
  change (bs "multipart/form-data; boundary=" ++ b) with (bs "multipart/form-data" ++ 59%N :: (SP :: bs "boundary" ++ 61%N :: b)).
  rewrite seek_past; [|vm_compute; intuition discriminate|cbn [length]; lia].
  change (59%N :: (SP :: bs "boundary" ++ 61%N :: b)) with ([59%N] ++ SP :: (bs "boundary" ++ 61%N :: b)).
  rewrite seek_past; [|vm_compute; intuition discriminate|rewrite app_length; cbn [length]; lia].
  change (SP :: bs "boundary" ++ 61%N :: b) with ((SP :: bs "boundary") ++ 61%N :: b).
  rewrite seek_past; [reflexivity|vm_compute; intuition discriminate|exact L].
Qed.

(** The fields of a request whose first content type is the given one. *)
Definition first_ct (hs : list (list N * list N)) (v : list N) : Prop :=
  exists l n r, hs = l ++ (n, v) :: r /\ (n = bs "Content-Type" \/ n = bs "content-type") /\
  (forall h, In h l -> fst h <> bs "Content-Type" /\ fst h <> bs "content-type").

Lemma is_ct_not h : fst h <> bs "Content-Type" /\ fst h <> bs "content-type" -> is_ct h = false.
Proof.
  intros [H1 H2]. unfold is_ct, strcmp_eqb. apply bytes_eqb_neq in H1, H2. now rewrite H1, H2.
Qed.
Lemma is_ct_yes n v : n = bs "Content-Type" \/ n = bs "content-type" -> is_ct (n, v) = true.
Proof. intros [->| ->]; reflexivity. Qed.

Lemma first_ct_find hs v : first_ct hs v -> exists h, List.find is_ct hs = Some h /\ snd h = v.
Proof.
  intros (l & n & r & -> & Hn & Hl). exists (n, v). split; [|reflexivity].
  induction l as [|h l IH]; cbn [app List.find].
  - now rewrite (is_ct_yes n v Hn).
  - rewrite (is_ct_not h) by (apply Hl; now left). apply IH. intros; apply Hl; now right.
Qed.
Lemma first_ct_multipart hs b : first_ct hs (ct_value b) -> is_multipart hs = Ok true.
Proof.
  intros (l & n & r & -> & Hn & Hl).
  induction l as [|h l IH]; cbn [app is_multipart].
  - rewrite (is_ct_yes n _ Hn). cbn [snd]. rewrite mime_multipart. cbn [obind mt_name].
    now rewrite bytes_eqb_refl.
  - rewrite (is_ct_not h) by (apply Hl; now left). apply IH. intros; apply Hl; now right.
Qed.

Lemma received_go hs b body : first_ct hs (ct_value b) -> b <> [] ->
  received hs body = obind (go (S (length body)) b (length body) Scan body []) (fun ps => Ok (handler_body body ps)).
Proof.
  intros H NE. unfold received. rewrite (first_ct_multipart hs b H). cbn [obind negb].
  destruct (first_ct_find hs _ H) as (h & -> & E). now rewrite E, (boundary_ct b NE).
Qed.

(** What the handler gets when the parser stops after the given parts. *)
Definition told (body : list N) (ps : list (list (list N * list N) * list N)) : hbody :=
  match ps with [] => Raw body | _ => Parts ps end.
Lemma handler_told body qs ps : Forall2 (records body) qs ps -> handler_body body (rev qs) = told body ps.
Proof.
  intros F. destruct ps as [|p ps]; [inversion F; subst; reflexivity|].
  apply (handler_exact body qs (p :: ps)); [discriminate|exact F].
Qed.

Lemma received_upto hs b ps tail body : first_ct hs (ct_value b) -> good_boundary b -> body_upto b ps tail body ->
  exists qs x i, Forall2 (records body) qs ps /\ nth_error b i = Some x /\ S i = length b /\
  received hs body = obind (G b (length body) (Cmp i) (x :: tail) (rev qs)) (fun ps => Ok (handler_body body ps)).
Proof.
  intros H Hb B. destruct (go_upto b ps tail body Hb B) as (qs & Q & F).
  destruct (cmp_last b (length body) tail (rev qs) (proj1 Hb)) as (x & i & H1 & H2 & E).
  exists qs, x, i. rewrite (received_go hs b body H (proj1 Hb)), Q, E. auto.
Qed.

Lemma received_exact hs b ps body : first_ct hs (ct_value b) -> good_boundary b -> ps <> [] -> body_of b ps body ->
  received hs body = Ok (Parts ps).
Proof.
  intros H Hb NE (pre & mid & ep & B1 & B2 & B3).
  destruct (received_upto hs b ps (dashes ++ ep) body H Hb) as (qs & x & i & F & H1 & H2 & ->).
  { exists pre, mid. auto. }
  change (dashes ++ ep) with (MINUS :: MINUS :: ep). rewrite G_cmp_end by assumption.
  cbn [obind]. now rewrite (handler_exact body qs ps NE F).
Qed.

(** Anything but "--" or CRLF after a delimiter ends the parsing. *)
Lemma received_padding hs b ps c d r body : first_ct hs (ct_value b) -> good_boundary b ->
  [c; d] <> dashes -> [c; d] <> crlf -> body_upto b ps (c :: d :: r) body ->
  received hs body = Ok (told body ps).
Proof.
  intros H Hb N1 N2 B. destruct (received_upto hs b ps _ body H Hb B) as (qs & x & i & F & H1 & H2 & ->).
  unfold G. cbn [go]. unfold boundary_at. rewrite H1. cbn [obind]. rewrite N.eqb_refl. cbn [negb].
  replace (S i <? length b)%nat with false by (symmetry; apply Nat.ltb_ge; lia).
  assert (T : forall a e, [c; d] <> [a; e] -> two a e (c :: d :: r) = Ok false).
  { intros a e Ne. cbn [two]. destruct (c =? a)%N eqn:X; [|reflexivity]. apply N.eqb_eq in X. subst.
    destruct (d =? e)%N eqn:Y; [|reflexivity]. apply N.eqb_eq in Y. congruence. }
  rewrite (T MINUS MINUS N1). cbn [obind]. rewrite (T CR LF N2). cbn [obind negb].
  now rewrite (handler_told body qs ps F).
Qed.

(** A body that ends within two bytes after a delimiter is read past its end. *)
Lemma received_cut hs b ps body : first_ct hs (ct_value b) -> good_boundary b ->
  body_upto b ps [] body -> received hs body = UB OutOfBounds.
Proof.
  intros H Hb B. destruct (received_upto hs b ps _ body H Hb B) as (qs & x & i & F & H1 & H2 & ->).
  unfold G. cbn [go]. unfold boundary_at. rewrite H1. cbn [obind]. rewrite N.eqb_refl. cbn [negb].
  replace (S i <? length b)%nat with false by (symmetry; apply Nat.ltb_ge; lia). reflexivity.
Qed.

(** A part whose field after the lines [ls] does not begin with "Content-". *)
Lemma header_parse_foreign hs ls : lines_of hs ls -> forall f acc k, (length hs < f)%nat ->
  (8 <= length k)%nat -> (forall r, k <> bs "Content-" ++ r) -> (forall r, k <> crlf ++ r) ->
  header_parse f (ls ++ k) acc = Ok None.
Proof.
  induction 1 as [|h hs l ls Hl Hls IH]; intros f acc k L K8 K1 K2.
  - destruct f as [|f]; [cbn in L; lia|]. cbn [app header_parse].
    replace (length k <=? 1)%nat with false by (symmetry; apply Nat.leb_gt; lia).
    destruct k as [|c [|d k]]; [cbn in K8; lia|cbn in K8; lia|].
    assert (T : two CR LF (c :: d :: k) = Ok false).
    { cbn [two]. destruct (c =? CR)%N eqn:X; [|reflexivity]. apply N.eqb_eq in X. subst.
      destruct (d =? LF)%N eqn:Y; [|reflexivity]. apply N.eqb_eq in Y. subst. exfalso. apply (K2 k). reflexivity. }
    rewrite T. cbn [obind]. unfold parse_line.
    assert (P : forall pre s, (length pre <= length s)%nat -> (forall r, s <> pre ++ r) -> strncmp_mem pre s = Ok false).
    { clear. induction pre as [|p pre IH]; intros s L H; [now destruct (H s)|].
      destruct s as [|x s]; [cbn in L; lia|]. cbn [strncmp_mem]. destruct (x =? p)%N eqn:X; [|reflexivity].
      apply N.eqb_eq in X. subst. apply IH; [cbn in L; lia|]. intros r ->. apply (H r). reflexivity. }
    rewrite (P (bs "Content-") (c :: d :: k)); [reflexivity|exact K8|exact K1].
  - destruct f as [|f]; [cbn in L; lia|]. cbn [header_parse].
    assert (Q : (1 <= length (ls ++ k))%nat) by (rewrite app_length; lia).
    pose proof (parse_line_ok h l (ls ++ k) Hl Q) as P.
    rewrite <- app_assoc.
    assert (C0 : exists c1 c2 r, l = c1 :: c2 :: r /\ c1 <> CR).
    { destruct Hl as [n v w1 w2 [[r0 ->] _] _ _ _].
      exists 67%N, 111%N. eexists. split; [reflexivity|discriminate]. }
    destruct C0 as (c1 & c2 & r & El & NC).
    replace (length (l ++ ls ++ k) <=? 1)%nat with false
      by (symmetry; apply Nat.leb_gt; rewrite El; cbn [app length]; lia).
    assert (T : two CR LF (l ++ ls ++ k) = Ok false).
    { rewrite El. cbn [app two]. apply N.eqb_neq in NC. now rewrite NC. }
    rewrite T. cbn [obind]. rewrite P. cbn [obind tl].
    apply IH; auto. cbn [length] in L; lia.
Qed.

Lemma lines_length hs ls : lines_of hs ls -> (length hs <= length ls)%nat.
Proof.
  induction 1 as [|h hs l ls H1 H2 IH]; [reflexivity|].
  rewrite app_length. cbn [length]. destruct H1. rewrite !app_length. cbn [length]. lia.
Qed.

Lemma received_foreign hs b ps fs ls k body : first_ct hs (ct_value b) -> good_boundary b ->
  lines_of fs ls -> (8 <= length k)%nat -> (forall r, k <> bs "Content-" ++ r) -> (forall r, k <> crlf ++ r) ->
  body_upto b ps (crlf ++ ls ++ k) body -> received hs body = Ok (told body ps).
Proof.
  intros H Hb Hls K8 K1 K2 B. destruct (received_upto hs b ps _ body H Hb B) as (qs & x & i & F & H1 & H2 & ->).
  unfold G. cbn [go]. unfold boundary_at. rewrite H1. cbn [obind]. rewrite N.eqb_refl. cbn [negb].
  replace (S i <? length b)%nat with false by (symmetry; apply Nat.ltb_ge; lia).
  change (crlf ++ ls ++ k) with (CR :: LF :: ls ++ k).
  change (two MINUS MINUS (CR :: LF :: ls ++ k)) with (Ok false). cbn [obind].
  change (two CR LF (CR :: LF :: ls ++ k)) with (Ok true). cbn [obind negb length skipn].
  replace (S (S (length (ls ++ k))) <=? 2)%nat with false
    by (symmetry; apply Nat.leb_gt; rewrite app_length; lia).
  pose proof (lines_length fs ls Hls).
  rewrite (header_parse_foreign fs ls Hls); [|rewrite app_length; lia|exact K8|exact K1|exact K2].
  cbn [obind]. now rewrite (handler_told body qs ps F).
Qed.

(** A content that begins with a NUL: the part is given with empty content and the rest is lost. *)
Lemma received_nul hs b ps fs ls c d r body : first_ct hs (ct_value b) -> good_boundary b ->
  lines_of fs ls -> [c; d] <> dashes -> [c; d] <> crlf ->
  body_upto b ps (crlf ++ ls ++ crlf ++ 0%N :: c :: d :: r) body ->
  received hs body = Ok (Parts (ps ++ [(fs, [])])).
Proof.
  intros H Hb Hls N1 N2 B. destruct (received_upto hs b ps _ body H Hb B) as (qs & x & i & F & H1 & H2 & ->).
  set (cont := 0%N :: c :: d :: r).
  assert (HP : header_parse (S (S (length (ls ++ CR :: LF :: cont)))) (ls ++ CR :: LF :: cont) [] = Ok (Some (fs, cont))).
  { rewrite (header_parse_ok fs ls Hls); [reflexivity|]. pose proof (lines_length fs ls Hls). rewrite app_length. lia. }
  change (crlf ++ ls ++ crlf ++ cont) with (CR :: LF :: ls ++ CR :: LF :: cont).
  rewrite (G_cmp_part b (length body) i x (ls ++ CR :: LF :: cont) fs cont (rev qs) H1 H2); [|destruct ls; discriminate|exact HP].
  set (off := (length body - length cont)%nat).
  assert (E : G b (length body) (Cmp (length b)) cont (mkPart fs off 0 :: rev qs) = Ok (mkPart fs off 0 :: rev qs)).
  { unfold G. cbn [go]. unfold boundary_at.
    rewrite (proj2 (nth_error_None b (length b)) (le_n _)), Nat.eqb_refl. unfold cont. cbn [obind].
    rewrite N.eqb_refl. cbn [negb].
    replace (S (length b) <? length b)%nat with false by (symmetry; apply Nat.ltb_ge; lia).
    assert (T : forall a e, [c; d] <> [a; e] -> two a e (c :: d :: r) = Ok false).
    { intros a e Ne. cbn [two]. destruct (c =? a)%N eqn:X; [|reflexivity]. apply N.eqb_eq in X. subst.
      destruct (d =? e)%N eqn:Y; [|reflexivity]. apply N.eqb_eq in Y. congruence. }
    rewrite (T MINUS MINUS N1). cbn [obind]. rewrite (T CR LF N2). reflexivity. }
  rewrite E. cbn [obind].
  replace (mkPart fs off 0 :: rev qs) with (rev (qs ++ [mkPart fs off 0])) by (rewrite rev_app_distr; reflexivity).
  f_equal. apply handler_exact; [destruct ps; discriminate|].
  apply Forall2_app; [exact F|]. constructor; [|constructor].
  unfold records. cbn [p_headers p_len p_off fst snd length app]. split; [reflexivity|]. split; [reflexivity|].
  now exists (skipn off body).
Qed.

(** ** Any body at all: what the handler sees as contents are disjoint pieces of the body, in order. *)
Inductive pieces : list (list N) -> list N -> Prop :=
| PNil l : pieces [] l
| PCons u c cs rest : pieces cs rest -> pieces (c :: cs) (u ++ c ++ rest).

Lemma pieces_more cs l : pieces cs l -> forall k, pieces cs (l ++ k).
Proof.
  induction 1 as [l|u c cs rest H IH]; intros k; [constructor|].
  rewrite <- !app_assoc. constructor. apply IH.
Qed.
Lemma pieces_snoc cs l : pieces cs l -> forall c k, pieces (cs ++ [c]) (l ++ c ++ k).
Proof.
  induction 1 as [l|u c0 cs rest H IH]; intros c k.
  - cbn [app]. apply PCons. constructor.
  - cbn [app]. rewrite <- !app_assoc. constructor. apply IH.
Qed.

Inductive chain : nat -> list part -> Prop :=
| CNil lim : chain lim []
| CCons lim p r : (p_off p <= lim)%nat -> (Z.of_nat (p_off p) + p_len p <= Z.of_nat lim)%Z ->
                  chain (p_off p) r -> chain lim (p :: r).
Lemma chain_le lim ps : chain lim ps -> forall l', (lim <= l')%nat -> chain l' ps.
Proof. intros [|? p r H1 H2 H3] l' L; constructor; auto; lia. Qed.
Lemma chain_close pos ps : chain pos ps -> chain pos (close_last pos ps).
Proof.
  intros [|lim p r H1 H2 H3]; [constructor|]. cbn [close_last]. constructor; cbn [p_off p_len]; auto; lia.
Qed.

Lemma go_chain : forall f b total m s parts out, (length s <= total)%nat ->
  chain (total - length s) parts -> go f b total m s parts = Ok out -> chain total out.
Proof.
  induction f as [|f IH]; intros b total m s parts out L C H; [discriminate|].
  assert (FIN : Ok parts = Ok out -> chain total out).
  { intros E. assert (out = parts) by congruence. subst. apply (chain_le _ _ C). lia. }
  cbn [go] in H. destruct m as [|i].
  - destruct s as [|c t]; [auto|]. unfold obind in H. destruct (two _ _ _) as [[]|]; [| |discriminate].
    + apply (IH _ _ _ _ _ _) in H; auto.
      * rewrite skipn_length. cbn [length] in *. lia.
      * eapply chain_le; [apply chain_close, C|]. rewrite skipn_length. cbn [length] in *. lia.
    + apply (IH _ _ _ _ _ _) in H; auto; cbn [length] in *; [lia|]. apply (chain_le _ _ C). lia.
  - unfold obind in H. destruct (boundary_at b i); [|discriminate].
    destruct s as [|c t]; [discriminate|]. cbn [length] in L, C.
    assert (C' : chain (total - length t) parts) by (apply (chain_le _ _ C); lia).
    destruct (negb _); [apply (IH _ _ _ _ _ _) in H; auto; lia|].
    destruct (S i <? length b); [apply (IH _ _ _ _ _ _) in H; auto; lia|].
    destruct (two MINUS MINUS t) as [[]|]; try discriminate; auto.
    destruct (two CR LF t) as [l|]; try discriminate.
    destruct (negb l); [auto|]. destruct (length t <=? 2) eqn:E; [auto|].
    destruct (header_parse _ _ _) as [[[hs rest]|]|] eqn:P; try discriminate; auto.
    apply header_parse_len in P. rewrite skipn_length in P.
    apply (IH _ _ _ _ _ _) in H; auto; [lia|].
    constructor; cbn [p_off p_len]; [lia|lia|]. apply (chain_le _ _ C). lia.
Qed.

Lemma chain_pieces body : forall ps lim, chain lim ps -> (lim <= length body)%nat ->
  (forall p, In p ps -> (0 <= p_len p)%Z) ->
  pieces (map (content body) (rev ps)) (firstn lim body).
Proof.
  intros ps lim C. induction C as [lim|lim p r H1 H2 H3 IH]; intros L NN; [constructor|].
  cbn [rev]. rewrite map_app. cbn [map].
  assert (P : (0 <= p_len p)%Z) by (apply NN; now left).
  assert (Q : pieces (map (content body) (rev r)) (firstn (p_off p) body)).
  { apply IH; [lia|]. intros q Hq. apply NN. now right. }
  assert (E : firstn lim body = firstn (p_off p) body ++ content body p ++
              firstn (lim - p_off p - Z.to_nat (p_len p)) (skipn (p_off p + Z.to_nat (p_len p)) body)).
  { unfold content. rewrite (Nat.add_comm (p_off p)), <- skipn_skipn.
    set (o := p_off p) in *. set (n := Z.to_nat (p_len p)).
    assert (A : forall (a : nat) (l : list N) (m : nat), (a <= m)%nat -> firstn m l = firstn a l ++ firstn (m - a) (skipn a l)).
    { clear. induction a as [|a IH]; intros l m H; [now rewrite Nat.sub_0_r|].
      destruct l as [|x l]; [now rewrite !firstn_nil|].
      destruct m as [|m]; [lia|]. cbn [firstn skipn app Nat.sub]. f_equal. apply IH. lia. }
    rewrite (A o body lim H1). f_equal. apply A. lia. }
  rewrite E. now apply pieces_snoc.
Qed.

Lemma received_pieces hs body l : received hs body = Ok (Parts l) -> pieces (map snd l) body.
Proof.
  unfold received, obind. destruct (is_multipart hs) as [g|]; [|discriminate].
  destruct (negb g); [discriminate|].
  destruct (List.find is_ct hs) as [h|]; [|discriminate].
  destruct (boundary_of (snd h)) as [b|]; [|discriminate].
  destruct (go _ _ _ _ _ _) as [ps|] eqn:G0; [|discriminate].
  apply go_chain in G0; [|lia|rewrite Nat.sub_diag; constructor].
  unfold handler_body. destruct ps as [|p ps]; [discriminate|].
  destruct (existsb _ (p :: ps)) eqn:X; [discriminate|]. intros E.
  assert (El : l = map (fun p => (p_headers p, content body p)) (rev (p :: ps))) by congruence.
  subst l. rewrite map_map. cbn [snd].
  assert (NN : forall q, In q (p :: ps) -> (0 <= p_len q)%Z).
  { intros q Hq. destruct (p_len q <? 0)%Z eqn:Y; [|lia].
    assert (existsb (fun p => (p_len p <? 0)%Z) (p :: ps) = true) by (apply existsb_exists; eauto). congruence. }
  pose proof (chain_pieces body (p :: ps) (length body) G0 (le_n _) NN) as K.
  rewrite firstn_all in K. exact K.
Qed.

(** ** Parts are never merged or split at anything that is not a delimiter: see [received_exact].
    Deciding the specification, for examples. *)
Fixpoint subb (x l : list N) : bool :=
  is_prefix x l || match l with [] => false | _ :: t => subb x t end.
Lemma subb_sub x l : subb x l = false -> ~ sub x l.
Proof.
  intros H (u & v & ->). revert H. induction u as [|c u IH]; cbn [app].
  - destruct (x ++ v) eqn:E; cbn [subb]; intros H; apply orb_false_iff in H as [H _];
      rewrite <- E in H; enough (is_prefix x (x ++ v) = true) by congruence; apply is_prefix_spec; now exists v.
  - cbn [subb]. intros H. apply orb_false_iff in H as [_ H]. auto.
Qed.

Lemma received_unknown hs v body : first_ct hs v ->
  (forall m, In m mimes -> forall r, v <> mt_name m ++ r) -> received hs body = UB OutOfBounds.
Proof.
  intros (l & n & r & -> & Hn & Hl) U.
  assert (M : mime_from_strn v = UB OutOfBounds).
  { unfold mime_from_strn. destruct (List.find _ mimes) as [m|] eqn:F; [|reflexivity].
    apply find_some in F as [Hin F]. apply andb_true_iff in F as [_ F].
    rewrite strncmp_prefix in F. apply is_prefix_spec in F as [k E]. exfalso. exact (U m Hin k E). }
  unfold received.
  assert (E : is_multipart (l ++ (n, v) :: r) = UB OutOfBounds); [|now rewrite E].
  induction l as [|h l IH]; cbn [app is_multipart].
  - rewrite (is_ct_yes n _ Hn). cbn [snd]. now rewrite M.
  - rewrite (is_ct_not h) by (apply Hl; now left). apply IH. intros; apply Hl; now right.
Qed.

(** Bodies of the other known types are given as they are. *)
Lemma received_plain hs body :
  (forall n v, In (n, v) hs -> n = bs "Content-Type" \/ n = bs "content-type" ->
     exists m r, In m mimes /\ mt_name m <> bs "multipart/form-data" /\ v = mt_name m ++ r) ->
  received hs body = Ok (Raw body).
Proof.
  intros H. unfold received. assert (E : is_multipart hs = Ok false); [|now rewrite E].
  induction hs as [|[n v] hs IH]; cbn [is_multipart]; [reflexivity|].
  assert (IH' : is_multipart hs = Ok false).
  { apply IH. intros n' v' Hi. apply H. now right. }
  destruct (is_ct (n, v)) eqn:C; [|exact IH'].
  assert (Hn : n = bs "Content-Type" \/ n = bs "content-type").
  { unfold is_ct, strcmp_eqb in C. cbn [fst] in C. apply orb_true_iff in C as [C|C]; apply bytes_eqb_eq in C; auto. }
  destruct (H n v (or_introl eq_refl) Hn) as (m & r & Hm & Nm & Ev). cbn [snd].
  unfold mime_from_strn. destruct (List.find _ mimes) as [m'|] eqn:F.
  - cbn [obind]. apply find_some in F as [Hm' F]. apply andb_true_iff in F as [_ F].
    rewrite strncmp_prefix in F. apply is_prefix_spec in F as [k E].
    destruct (bytes_eqb (mt_name m') (bs "multipart/form-data")) eqn:B; [|exact IH'].
    exfalso. apply bytes_eqb_eq in B. rewrite B, Ev in E. clear -Hm Nm E.
    repeat (destruct Hm as [<-|Hm]; [try discriminate; try (now apply Nm)|]). exact Hm.
  - exfalso. eapply find_none in F; [|exact Hm]. cbn beta in F. rewrite strncmp_prefix in F.
    apply andb_false_iff in F as [F|F].
    + rewrite Ev, app_length in F. lia.
    + enough (is_prefix (mt_name m) v = true) by congruence. apply is_prefix_spec. now exists r.
Qed.
