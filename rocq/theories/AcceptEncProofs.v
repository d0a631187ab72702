(** Proofs about AcceptEnc.v. *)
From Coq Require Import SpecFloat.
From Verif Require Import Base CStr AcceptEnc.

(** ** Grammar of the header value (RFC 7231 section 5.3.4), as accepted by the theorem *)
(** Quality values: "0", "0.d", "0.dd", "0.ddd", "1", "1.0", "1.00", "1.000". *)
Inductive weight := WZero (ds : list N) | WOne (zeros : nat).
Definition render_weight (w : weight) : list N :=
  match w with
  | WZero [] => bs "0" | WZero ds => bs "0." ++ ds
  | WOne 0 => bs "1" | WOne n => bs "1." ++ repeat 48%N n
  end.
Definition weight_ok (w : weight) : Prop :=
  match w with WZero ds => length ds <= 3 /\ Forall (fun b => is_digit b = true) ds | WOne n => n <= 3 end.
(** The weight in thousandths. *)
Definition thousandths (w : weight) : N :=
  match w with WZero ds => (dec_value ds * 10 ^ N.of_nat (3 - length ds))%N | WOne _ => 1000%N end.
(** RFC 7230 token characters. *)
Definition rfc_tchar (c : N) : bool :=
  ((65 <=? c) && (c <=? 90) || (97 <=? c) && (c <=? 122) || (48 <=? c) && (c <=? 57))%N || existsb (N.eqb c) (bs "!#$%&'*+-.^_`|~").
Definition ows (s : list N) : Prop := Forall (fun b => b = 32%N \/ b = 9%N) s.
(** One list element: coding name and optional weight with the white space around it. *)
Record item := mkItem { i_name : list N; i_weight : option (list N * list N * weight * list N) }.
Definition render_item (it : item) : list N :=
  i_name it ++ match i_weight it with
               | None => []
               | Some (s1, s2, w, s3) => s1 ++ bs ";" ++ s2 ++ bs "q=" ++ render_weight w ++ s3
               end.
Definition item_ok (it : item) : Prop :=
  i_name it <> [] /\ length (i_name it) < 20 /\ Forall (fun b => rfc_tchar b = true) (i_name it) /\
  match i_weight it with None => True | Some (s1, s2, w, s3) => ows s1 /\ ows s2 /\ weight_ok w /\ ows s3 end.
(** A list: a first element, then elements each preceded by a comma and white space (more commas
    are allowed by RFC 7230 section 7). *)
Definition sep_ok (s : list N) : Prop := exists t, s = 44%N :: t /\ Forall (fun b => b = 44%N \/ b = 32%N \/ b = 9%N) t.
Fixpoint render_rest (l : list (list N * item)) : list N :=
  match l with [] => [] | (s, it) :: t => s ++ render_item it ++ render_rest t end.
Definition render (it : item) (l : list (list N * item)) : list N := render_item it ++ render_rest l.

Definition i_w (it : item) : option weight := match i_weight it with Some (_, _, w, _) => Some w | None => None end.
(** The codings fly knows, by case-insensitive name. *)
Definition known_coding (name : list N) : option coding :=
  let n := map tolower name in
  if bytes_eqb n (bs "gzip") then Some CGzip else if bytes_eqb n (bs "x-gzip") then Some CXGzip
  else if bytes_eqb n (bs "deflate") then Some CDeflate else if bytes_eqb n (bs "identity") then Some CIdentity
  else if bytes_eqb n (bs "br") then Some CBr else if bytes_eqb n (bs "*") then Some CAny else None.
(** Percentage computed from a weight: thousandths / 10 rounded down, except for three values. *)
Definition percent (w : weight) : Z :=
  let t := thousandths w in
  Z.of_N (t / 10) - (if (t =? 290)%N || (t =? 570)%N || (t =? 580)%N then 1 else 0).
(** What the parser yields: every element of a known coding, in order; the weight of an element is
    its own, or that of the nearest element before it that has one ([w0] initially), or 1. *)
Fixpoint decoded (w0 : option weight) (l : list item) : list (coding * Z) :=
  match l with
  | [] => []
  | it :: t =>
    let w := match i_w it with Some w => Some w | None => w0 end in
    let q := match w with Some w => percent w | None => 100%Z end in
    match known_coding (i_name it) with Some c => (c, q) :: decoded w t | None => decoded w t end
  end.
(** What was listed: every element of a known coding with its own weight, 1 if it has none. *)
Fixpoint listed (l : list item) : list (coding * Z) :=
  match l with
  | [] => []
  | it :: t =>
    let q := match i_w it with Some w => percent w | None => 100%Z end in
    match known_coding (i_name it) with Some c => (c, q) :: listed t | None => listed t end
  end.

(** ** Quality values *)
Lemma percent_zero_all : forallb (fun ds => Z.eqb (to_int (SFmul 53 1024 (atof (match ds with [] => bs "0" | _ => bs "0." ++ ds end)) (b64 100)))
      (percent (WZero ds)) && negb (SFltb (atof (match ds with [] => bs "0" | _ => bs "0." ++ ds end)) (b64 0)
      || SFltb (b64 1) (atof (match ds with [] => bs "0" | _ => bs "0." ++ ds end))))
   (let d := map N.of_nat (seq 48 10) in
    [] :: map (fun a => [a]) d ++ flat_map (fun a => map (fun b => [a; b]) d) d
       ++ flat_map (fun a => flat_map (fun b => map (fun c => [a; b; c]) d) d) d) = true.
Proof. vm_compute. reflexivity. Qed.
Lemma digit_in b : is_digit b = true -> In b (map N.of_nat (seq 48 10)).
Proof.
  intros H. unfold is_digit in H. apply in_map_iff. exists (N.to_nat b). split; [apply N2Nat.id|]. apply in_seq. lia.
Qed.
Lemma percent_zero ds : length ds <= 3 -> Forall (fun b => is_digit b = true) ds ->
  let s := match ds with [] => bs "0" | _ => bs "0." ++ ds end in
  to_int (SFmul 53 1024 (atof s) (b64 100)) = percent (WZero ds) /\ SFltb (atof s) (b64 0) || SFltb (b64 1) (atof s) = false.
Proof.
  intros L F s.
  assert (I : In ds (let d := map N.of_nat (seq 48 10) in
    [] :: map (fun a => [a]) d ++ flat_map (fun a => map (fun b => [a; b]) d) d
       ++ flat_map (fun a => flat_map (fun b => map (fun c => [a; b; c]) d) d) d)).
  { cbv zeta. set (d := map N.of_nat (seq 48 10)).
    assert (D : Forall (fun b => In b d) ds) by (eapply Forall_impl; [|exact F]; intros; now apply digit_in).
    clearbody d. clear F s. destruct ds as [|a [|b [|c [|x ds]]]]; [| | | |cbn in L; lia].
    - left. reflexivity.
    - inversion D; subst. right. apply in_or_app. left. apply in_map_iff. eauto.
    - inversion D as [|? ? Da D']; inversion D'; subst. right. apply in_or_app. right. apply in_or_app. left.
      apply in_flat_map. exists a. split; [assumption|]. apply in_map_iff. eauto.
    - inversion D as [|? ? Da D']; inversion D' as [|? ? Db D'']; inversion D''; subst. right. apply in_or_app. right. apply in_or_app. right.
      apply in_flat_map. exists a. split; [assumption|]. apply in_flat_map. exists b. split; [assumption|]. apply in_map_iff. eauto. }
  pose proof percent_zero_all as A. rewrite forallb_forall in A. specialize (A _ I). cbv beta in A. fold s in A.
  apply andb_true_iff in A as [A1 A2]. apply Z.eqb_eq in A1. apply negb_true_iff in A2. split; assumption.
Qed.

Lemma q_chars_spec s e rest : Forall (fun b => is_digit b = true \/ b = 46%N) s -> is_digit e = false -> e <> 46%N ->
  q_chars (s ++ e :: rest) = Ok s.
Proof.
  intros F D P. induction s as [|b s IH]; cbn [app q_chars].
  - unfold ae_zero, ae_point, ae_number. unfold is_digit in D.
    replace (_ || _ || _) with false; [reflexivity|]. symmetry. rewrite !orb_false_iff. repeat split; lia.
  - inversion F as [|? ? H F']; subst. rewrite IH by assumption. cbn [obind].
    unfold ae_zero, ae_point, ae_number. unfold is_digit in H.
    replace (_ || _ || _) with true; [reflexivity|]. symmetry. lia.
Qed.
Lemma quality_spec w e rest : weight_ok w -> is_digit e = false -> e <> 46%N ->
  quality_from_str (Some (render_weight w ++ e :: rest)) = Ok (percent w).
Proof.
  intros W D P. destruct w as [ds|n].
  - destruct W as [L F]. pose proof (percent_zero ds L F) as [Q1 Q2].
    set (s := match ds with [] => bs "0" | _ => bs "0." ++ ds end) in *.
    assert (R : render_weight (WZero ds) = s) by (destruct ds; reflexivity). rewrite R.
    assert (H : s = 48%N :: tl s) by (unfold s; destruct ds; reflexivity).
    assert (C : q_chars (s ++ e :: rest) = Ok s).
    { apply q_chars_spec; auto. unfold s. destruct ds as [|d ds]; [repeat constructor|].
      constructor; [left; reflexivity|]. constructor; [right; reflexivity|]. eapply Forall_impl; [|exact F]. auto. }
    assert (S0 : s ++ e :: rest = 48%N :: (tl s ++ e :: rest)) by (rewrite H at 1; reflexivity).
    unfold quality_from_str. rewrite S0. change (ae_one 48) with false. cbv iota. rewrite <- S0.
    rewrite C. cbn [obind]. replace (ENCQVALUE_MAXLEN <=? length s) with false.
    + cbv zeta. rewrite Q2, Q1. reflexivity.
    + symmetry. apply Nat.leb_gt. unfold s, ENCQVALUE_MAXLEN. destruct ds; cbn [length app bs] in *; lia.
  - assert (R : exists t, render_weight (WOne n) = 49%N :: t) by (destruct n; eexists; reflexivity).
    destruct R as [t R]. rewrite R. reflexivity.
Qed.

(** ** Names *)
Lemma strlen_spec s rest : no_nul s -> strlen (s ++ 0%N :: rest) = Ok (length s).
Proof.
  intros F. induction F as [|b s H F IH]; cbn [app strlen length]; [reflexivity|].
  replace (b =? 0)%N with false by lia. rewrite IH. reflexivity.
Qed.
Definition is_delim (d : N) : bool := ae_space d || ae_semicolon d || ae_comma d.
Lemma memcpy_spec : forall nm i fuel d rest len, nm <> [] -> i + length nm < 20 -> 20 - i < fuel ->
  Forall (fun b => is_delim b = false) nm -> i + length nm <= len -> (is_delim d = true \/ len = i + length nm) ->
  memcpy_name fuel i 20 (nm ++ d :: rest) len 20 = Ok nm.
Proof.
  induction nm as [|b nm IH]; intros i fuel d rest len Hn L Hf F Hl Hd; [contradiction|].
  cbn [length] in *. destruct fuel as [|f]; [lia|]. cbn [memcpy_name app].
  replace (20 <=? i) with false by (symmetry; apply Nat.leb_gt; lia).
  inversion F as [|? ? Hb F']; subst. destruct nm as [|b2 nm]; cbn [app].
  - replace (ae_space d || ae_semicolon d || ae_comma d || (len <=? S i)) with true.
    + replace (20 <=? S i) with false by (symmetry; apply Nat.leb_gt; cbn in L; lia). reflexivity.
    + symmetry. fold (is_delim d). destruct Hd as [->| ->]; [reflexivity|]. apply orb_true_iff. right. apply Nat.leb_le. cbn. lia.
  - inversion F' as [|? ? Hb2 F'']; subst. fold (is_delim b2). rewrite Hb2. cbn [orb].
    replace (len <=? S i) with false by (symmetry; apply Nat.leb_gt; cbn in Hl; lia).
    change (b2 :: nm ++ d :: rest) with ((b2 :: nm) ++ d :: rest).
    rewrite IH; [reflexivity|discriminate|cbn [length] in *; lia|lia|assumption|cbn [length] in *; lia|].
    destruct Hd as [H|H]; [left; exact H|right; cbn [length] in *; lia].
Qed.
Lemma encoding_from_name_spec nm : length nm < 20 -> encoding_from_name nm = Ok (known_coding nm).
Proof.
  intros L. unfold encoding_from_name. replace (20 <=? length nm) with false by (symmetry; apply Nat.leb_gt; lia).
  f_equal. unfold known_coding, encodes, strcmp_eqb. cbn [List.find c_name]. set (n := map tolower nm).
  assert (S : forall a, bytes_eqb a n = bytes_eqb n a).
  { intros a. destruct (bytes_eqb n a) eqn:E.
    - apply bytes_eqb_eq in E. subst a. apply bytes_eqb_refl.
    - apply bytes_eqb_neq in E. apply bytes_eqb_neq. congruence. }
  rewrite !S.
  destruct (bytes_eqb n (bs "gzip")); [reflexivity|]. destruct (bytes_eqb n (bs "x-gzip")); [reflexivity|].
  destruct (bytes_eqb n (bs "deflate")); [reflexivity|]. destruct (bytes_eqb n (bs "identity")); [reflexivity|].
  destruct (bytes_eqb n (bs "br")); [reflexivity|]. destruct (bytes_eqb n (bs "*")); reflexivity.
Qed.

(** ** Termination *)
Definition rank (st : pstatus) (c : N) : nat :=
  match st with
  | P_ADD => if ae_zeros c then 1 else 10
  | P_INIT => if ae_zeros c then 2 else 9
  | P_NAME => 8 | P_WSPACE => 6 | P_SEMICOLON => 5 | P_SPACE_AFTER => 4 | P_Q => 3 | P_EQUAL => 2
  | P_ONE_INT => if ae_one c then 1 else 5
  | P_ZERO_INT => if ae_zero c then 1 else 5
  | P_ONE_POINT | P_ZERO_POINT => 4
  | P_ONE_DEC | P_ZERO_DEC => 3
  | P_LAST_SPACE => if ae_space c then 1 else if ae_comma c then 2 else 12
  | P_COMMA => if ae_comma c || ae_space c then 1 else 11
  end.
Definition measure (s : pstate) : nat := 13 * length (p_ptr s) + match p_ptr s with [] => 0 | c :: _ => rank (p_status s) c end.
Lemma rank_le st c : rank st c <= 12.
Proof. destruct st; cbn [rank]; repeat match goal with |- context [if ?b then _ else _] => destruct b end; lia. Qed.
Lemma step_decreases s s' : parse_step s = Ok (PNext s') -> measure s' < measure s.
Proof.
  unfold parse_step. destruct s as [st ptr name qv dec acc]. cbn [p_ptr p_status p_name p_qv p_dec p_acc].
  destruct ptr as [|c ptr]; [discriminate|].
  destruct (_ && _ && _ && _); [discriminate|].
  assert (ADV : forall st' dc, measure (mkP st' ptr name qv dc acc) < measure (mkP st (c :: ptr) name qv dec acc)).
  { intros st' dc. unfold measure. cbn [p_ptr length p_status]. destruct ptr as [|c2 ptr]; [cbn [length]; lia|].
    pose proof (rank_le st' c2). cbn [length]. lia. }
  assert (GO : forall st' nm q dc ac, rank st' c < rank st c -> measure (mkP st' (c :: ptr) nm q dc ac) < measure (mkP st (c :: ptr) name qv dec acc)).
  { intros. unfold measure. cbn [p_ptr p_status]. lia. }
  unfold goto, advance. cbn [p_ptr p_status p_name p_qv p_dec p_acc tl].
  destruct st; cbv zeta;
    try (repeat match goal with |- (if ?b then _ else _) = _ -> _ => let E := fresh "E" in destruct b eqn:E end;
         intros H; try discriminate H; injection H as <-; first [apply ADV | apply GO; cbn [rank];
           unfold ae_zeros, ae_tchar, ae_alpha, ae_number, ae_vchar, ae_space, ae_comma, ae_semicolon, ae_one, ae_zero, ae_point, ae_q, ae_equal in *;
           repeat match goal with |- context [if ?b then _ else _] => let E := fresh "E" in destruct b eqn:E end; try lia]).
  - (* INIT *)
    exfalso. clear -E E0. apply N.eqb_eq in E0. subst c. discriminate.
  - (* NAME to WSPACE etc. are below; ADD *)
    unfold parse_add. cbn [p_ptr p_status p_name p_qv p_dec p_acc].
    destruct (strlen _); [|discriminate]. cbn [obind]. destruct (memcpy_name _ _ _ _ _ _); [|discriminate]. cbn [obind].
    destruct (encoding_from_name _); [|discriminate]. cbn [obind]. destruct (quality_from_str _); [|discriminate]. cbn [obind].
    destruct (ae_zeros c) eqn:Z; [discriminate|]. intros H. injection H as <-. apply GO. cbn [rank]. rewrite Z. lia.
Qed.
Lemma run_total : forall fuel s, measure s < fuel -> parse_run fuel s <> UB Diverges.
Proof.
  induction fuel as [|f IH]; intros s L; [lia|]. cbn [parse_run].
  destruct (parse_step s) as [[s'| |a]|u] eqn:E; cbn [obind]; try discriminate.
  - apply IH. apply step_decreases in E. lia.
  - intros H. injection H as ->. unfold parse_step in E. destruct (p_ptr s) as [|c p]; [discriminate|].
    destruct (_ && _ && _ && _); [discriminate|]. unfold goto, advance in E.
    destruct (p_status s); cbv zeta in E;
      try (repeat match type of E with (if ?b then _ else _) = _ => destruct b end; discriminate E).
    unfold parse_add in E. 
    assert (S0 : forall l, strlen l <> UB Diverges).
    { induction l as [|x l IHl]; cbn [strlen]; [discriminate|]. destruct (x =? 0)%N; [discriminate|]. destruct (strlen l); cbn [obind]; [discriminate|congruence]. }
    assert (M0 : forall fuel i src len, 20 - i < fuel -> memcpy_name fuel i 20 src len 20 <> UB Diverges).
    { induction fuel as [|g IHg]; intros i src len Hl; [lia|]. cbn [memcpy_name]. destruct (Nat.leb_spec 20 i); [discriminate|].
      destruct src as [|x src]; [discriminate|]. destruct src as [|y src]; [discriminate|].
      destruct (_ || _ || _ || _); [destruct (20 <=? S i); discriminate|].
      destruct (memcpy_name g (S i) 20 (y :: src) len 20) eqn:Q; cbn [obind]; [discriminate|]. intros H0. injection H0 as ->.
        revert Q. apply IHg. lia. }
    assert (Q0 : forall l, q_chars l <> UB Diverges).
    { induction l as [|x l IHl]; cbn [q_chars]; [discriminate|]. destruct (_ || _ || _); [|discriminate]. destruct (q_chars l); cbn [obind]; [discriminate|congruence]. }
    destruct (strlen _) eqn:E1; cbn [obind] in E; [|injection E as ->; exact (S0 _ E1)].
    destruct (memcpy_name _ _ _ _ _ _) eqn:E2; cbn [obind] in E; [|injection E as ->; revert E2; apply M0; unfold ENCNAME_MAXLEN; lia].
    unfold encoding_from_name in E. destruct (20 <=? _); [discriminate|]. cbn [obind] in E.
    destruct (quality_from_str _) eqn:E3; cbn [obind] in E; [destruct (ae_zeros c); discriminate|]. injection E as ->.
    unfold quality_from_str in E3. destruct (p_qv s) as [[|x l]|]; try discriminate. destruct (ae_one x); [discriminate|].
    destruct (q_chars (x :: l)) eqn:E4; cbn [obind] in E3; [|injection E3 as ->; exact (Q0 _ E4)].
    destruct (_ <=? _); [discriminate|]. cbv zeta in E3. destruct (_ || _); discriminate.
Qed.
Lemma run_mono : forall f s r, parse_run f s = r -> r <> UB Diverges -> forall g, f <= g -> parse_run g s = r.
Proof.
  induction f as [|f IH]; intros s r H N g L; [cbn in H; congruence|]. destruct g as [|g]; [lia|].
  cbn [parse_run] in *. destruct (parse_step s) as [[s'| |a]|u]; cbn [obind] in *; try assumption.
  apply (IH s' r H N). lia.
Qed.

(** ** Reachability *)
Definition reach (s s' : pstate) : Prop := exists n, forall f, parse_run (n + f) s = parse_run f s'.
Lemma reach_refl s : reach s s. Proof. exists 0. reflexivity. Qed.
Lemma reach_trans a b c : reach a b -> reach b c -> reach a c.
Proof. intros [n H] [m K]. exists (n + m). intros f. rewrite <- Nat.add_assoc, H. apply K. Qed.
Lemma reach_step s s' : parse_step s = Ok (PNext s') -> reach s s'.
Proof. intros H. exists 1. intros f. cbn [plus parse_run]. rewrite H. reflexivity. Qed.
Lemma reach_result s s' r f : reach s s' -> parse_run f s' = r -> r <> UB Diverges -> forall g, measure s < g -> parse_run g s = r.
Proof.
  intros [n H] K N g L.
  assert (parse_run (n + f) s = r) by (rewrite H; exact K).
  destruct (le_lt_dec (n + f) g) as [Hl|Hl].
  - apply (run_mono (n + f)); assumption.
  - pose proof (run_total g s L) as T. symmetry. rewrite <- H0. symmetry. symmetry. apply (run_mono g); [reflexivity|exact T|lia].
Qed.

Lemma rfc_tchar_class b : rfc_tchar b = true ->
  ae_tchar b = true /\ ae_space b = false /\ ae_semicolon b = false /\ ae_comma b = false /\ ae_zeros b = false.
Proof.
  intros H.
  assert (B : (b < 128)%N).
  { unfold rfc_tchar in H. apply orb_true_iff in H as [H|H]; [lia|]. apply existsb_exists in H as (x & I & E). apply N.eqb_eq in E. subst x.
    cbn in I. intuition (subst; reflexivity). }
  assert (A : forallb (fun n => let b := N.of_nat n in implb (rfc_tchar b) (ae_tchar b && negb (ae_space b) && negb (ae_semicolon b) && negb (ae_comma b) && negb (ae_zeros b))) (seq 0 128) = true) by (vm_compute; reflexivity).
  rewrite forallb_forall in A. specialize (A (N.to_nat b)). cbv zeta in A. rewrite N2Nat.id, H in A. cbn [implb] in A.
  assert (I : In (N.to_nat b) (seq 0 128)) by (apply in_seq; lia). specialize (A I).
  apply andb_true_iff in A as [A A5]. apply andb_true_iff in A as [A A4]. apply andb_true_iff in A as [A A3]. apply andb_true_iff in A as [A1 A2].
  rewrite negb_true_iff in A2, A3, A4, A5. auto.
Qed.

Ltac st1 := eapply reach_trans; [apply reach_step; unfold parse_step; cbn [p_ptr p_status p_name p_qv p_dec p_acc app]; cbv -[N.eqb N.leb reach app]; reflexivity|].
Ltac conc := apply reach_step; reflexivity.

Lemma reach_name nm rest n q d a : Forall (fun b => rfc_tchar b = true) nm ->
  reach (mkP P_NAME (nm ++ rest) n q d a) (mkP P_NAME rest n q d a).
Proof.
  intros F. induction F as [|b nm H F IH]; [apply reach_refl|]. cbn [app].
  destruct (rfc_tchar_class b H) as (T & S & C & M & Z).
  eapply reach_trans; [|exact IH]. apply reach_step. unfold parse_step. cbn [p_ptr p_status]. rewrite T, S, C, M, Z. reflexivity.
Qed.
Lemma reach_spaces st (Hst : st = P_WSPACE \/ st = P_SPACE_AFTER \/ st = P_LAST_SPACE) s rest n q d a : ows s ->
  reach (mkP st (s ++ rest) n q d a) (mkP st rest n q d a).
Proof.
  intros F. induction F as [|b s H F IH]; [apply reach_refl|]. cbn [app]. eapply reach_trans; [|exact IH]. apply reach_step.
  destruct Hst as [->|[->| ->]]; destruct H as [->| ->]; reflexivity.
Qed.
Lemma reach_comma s rest n q d a : Forall (fun b => b = 44%N \/ b = 32%N \/ b = 9%N) s ->
  reach (mkP P_COMMA (s ++ rest) n q d a) (mkP P_COMMA rest n q d a).
Proof.
  intros F. induction F as [|b s H F IH]; [apply reach_refl|]. cbn [app]. eapply reach_trans; [|exact IH]. apply reach_step.
  destruct H as [->|[->| ->]]; reflexivity.
Qed.
Lemma digit_class b : is_digit b = true -> ae_tchar b = true /\ ae_number b = true.
Proof.
  intros H. unfold is_digit in H. split; [|exact H]. unfold ae_tchar, ae_number. rewrite H. rewrite orb_true_r. reflexivity.
Qed.
Lemma reach_digits ds rest n q d a : Forall (fun b => is_digit b = true) ds -> d + length ds <= 3 ->
  reach (mkP P_ZERO_DEC (ds ++ rest) n q d a) (mkP P_ZERO_DEC rest n q (d + length ds) a).
Proof.
  intros F. revert d. induction F as [|b s H F IH]; intros d L; cbn [app length] in *; [rewrite Nat.add_0_r; apply reach_refl|].
  destruct (digit_class b H) as [T N]. replace (d + S (length s)) with (S d + length s) by lia.
  eapply reach_trans; [|apply IH; lia]. apply reach_step. unfold parse_step. cbn [p_ptr p_status p_dec]. rewrite T, N. cbn [negb andb].
  replace (d <? 3) with true by (symmetry; apply Nat.ltb_lt; lia). reflexivity.
Qed.
Lemma reach_zeros k rest n q d a : d + k <= 3 ->
  reach (mkP P_ONE_DEC (repeat 48%N k ++ rest) n q d a) (mkP P_ONE_DEC rest n q (d + k) a).
Proof.
  revert d. induction k as [|k IH]; intros d L; cbn [app repeat] in *; [rewrite Nat.add_0_r; apply reach_refl|].
  replace (d + S k) with (S d + k) by lia. eapply reach_trans; [|apply IH; lia]. apply reach_step. unfold parse_step. cbn [p_ptr p_status p_dec].
  change (ae_zero 48) with true. change (ae_tchar 48) with true. cbn [negb andb]. replace (d <? 3) with true by (symmetry; apply Nat.ltb_lt; lia). reflexivity.
Qed.

(** After the weight: what follows is white space, a comma or the end. *)
Definition follow (e : N) : Prop := e = 0%N \/ e = 44%N.
Definition final_status (e : N) : pstatus := if (e =? 0)%N then P_ADD else P_COMMA.
Lemma reach_weight w s3 e rest n q d a : weight_ok w -> ows s3 -> follow e -> d = 0 ->
  exists d', reach (mkP P_EQUAL (render_weight w ++ s3 ++ e :: rest) n q d a)
        (mkP (final_status e) (e :: rest) n (Some (render_weight w ++ s3 ++ e :: rest)) d' a).
Proof.
  intros W O Fo ->.
  assert (LS : forall d, reach (mkP P_LAST_SPACE (s3 ++ e :: rest) n (Some (render_weight w ++ s3 ++ e :: rest)) d a)
        (mkP (final_status e) (e :: rest) n (Some (render_weight w ++ s3 ++ e :: rest)) d a)).
  { intros d. eapply reach_trans; [apply reach_spaces; [auto|exact O]|]. destruct Fo as [->| ->]; conc. }
  assert (END : forall st d, (st = P_ZERO_INT \/ st = P_ONE_INT \/ st = P_ZERO_DEC \/ st = P_ONE_DEC) ->
     reach (mkP st (s3 ++ e :: rest) n (Some (render_weight w ++ s3 ++ e :: rest)) d a)
           (mkP (final_status e) (e :: rest) n (Some (render_weight w ++ s3 ++ e :: rest)) d a)).
  { intros st d Hst. destruct s3 as [|b s3].
    - cbn [app]. apply reach_step. destruct Fo as [->| ->]; destruct Hst as [->|[->|[->| ->]]]; unfold parse_step; cbn [p_ptr p_status];
        vm_compute (ae_tchar _); try reflexivity; cbn; rewrite ?Nat.add_0_r; reflexivity.
    - eapply reach_trans; [|apply LS]. apply reach_step. inversion O as [|? ? Hb O']; subst.
      destruct Hb as [->| ->]; destruct Hst as [->|[->|[->| ->]]]; cbn; rewrite ?Nat.add_0_r; reflexivity. }
  destruct w as [ds|k].
  - destruct W as [L F]. destruct ds as [|x ds].
    + exists 0. eapply reach_trans; [conc|]. eapply reach_trans; [conc|]. cbn [tl]. apply END. auto.
    + exists (0 + length (x :: ds)).
      assert (X : ae_tchar x = true /\ ae_number x = true) by (apply digit_class; inversion F; assumption).
      eapply reach_trans; [conc|]. eapply reach_trans; [conc|]. eapply reach_trans; [conc|]. eapply reach_trans; [conc|].
      cbn [p_ptr p_name p_qv p_dec p_acc].
      change (tl (tl (render_weight (WZero (x :: ds)) ++ s3 ++ e :: rest))) with ((x :: ds) ++ s3 ++ e :: rest).
      eapply reach_trans. { apply reach_step. unfold parse_step. cbn [p_ptr p_status app]. destruct X as [X1 X2]. rewrite X1, X2. cbn [negb andb].
        assert (ae_point x = false) by (unfold ae_point; unfold ae_number in X2; lia). rewrite H. unfold goto. cbn [p_ptr p_name p_qv p_dec p_acc]. reflexivity. }
      eapply reach_trans; [apply (reach_digits (x :: ds) (s3 ++ e :: rest)); [exact F|cbn [length] in *; lia]|]. apply END. auto.
  - destruct k as [|k].
    + exists 0. eapply reach_trans; [conc|]. eapply reach_trans; [conc|]. cbn [tl]. apply END. auto.
    + exists (0 + S k).
      eapply reach_trans; [conc|]. eapply reach_trans; [conc|]. eapply reach_trans; [conc|]. eapply reach_trans; [conc|].
      cbn [p_ptr p_name p_qv p_dec p_acc].
      change (tl (tl (render_weight (WOne (S k)) ++ s3 ++ e :: rest))) with (repeat 48%N (S k) ++ s3 ++ e :: rest). eapply reach_trans; [conc|]. cbn [p_ptr p_name p_qv p_dec p_acc].
      eapply reach_trans; [apply (reach_zeros (S k) (s3 ++ e :: rest)); cbn in W; lia|]. apply END. auto.
Qed.

(** The text of quality value pointed to by [qv] denotes the weight [w]. *)
Definition qv_is (qv : option (list N)) (w : option weight) : Prop :=
  quality_from_str qv = Ok (match w with Some w => percent w | None => 100%Z end).
Lemma weight_head w : weight_ok w -> exists c t, render_weight w = c :: t /\ (c = 48%N \/ c = 49%N).
Proof. destruct w as [[|d ds]|[|k]]; intros _; eexists _, _; (split; [reflexivity|auto]). Qed.

Lemma reach_item it e rest n q d a w0 : item_ok it -> follow e -> qv_is q w0 ->
  let s0 := mkP P_INIT (render_item it ++ e :: rest) n q d a in
  let w := match i_w it with Some w => Some w | None => w0 end in
  exists q' d', qv_is q' w /\ reach s0 (mkP (final_status e) (e :: rest) (Some (render_item it ++ e :: rest)) q' d' a).
Proof.
  intros (Nn & Ln & Fn & Hw) Fo Q. destruct it as [nm wt]. unfold render_item, i_w in *. cbn [i_name i_weight] in *. cbv zeta.
  destruct nm as [|b nm]; [contradiction|].
  assert (INIT : forall tail, reach (mkP P_INIT ((b :: nm) ++ tail) n q d a) (mkP P_NAME tail (Some ((b :: nm) ++ tail)) q 0 a)).
  { intros tail. inversion Fn as [|? ? Hb F']; subst. destruct (rfc_tchar_class b Hb) as (T & S & C & M & Z).
    eapply reach_trans. { apply reach_step. unfold parse_step. cbn [p_ptr p_status app]. rewrite T. cbn [negb andb]. reflexivity. }
    cbn [p_ptr p_name p_qv p_dec p_acc]. apply (reach_name (b :: nm)). exact Fn. }
  destruct wt as [[[[s1 s2] w] s3]|].
  - destruct Hw as (O1 & O2 & W & O3).
    replace ((b :: nm) ++ s1 ++ bs ";" ++ s2 ++ bs "q=" ++ render_weight w ++ s3) with ((b :: nm) ++ (s1 ++ bs ";" ++ s2 ++ bs "q=" ++ render_weight w ++ s3)) by reflexivity.
    rewrite <- app_assoc.
    destruct (reach_weight w s3 e rest (Some ((b :: nm) ++ (s1 ++ bs ";" ++ s2 ++ bs "q=" ++ render_weight w ++ s3) ++ e :: rest)) q 0 a W O3 Fo eq_refl) as (d' & R).
    exists (Some (render_weight w ++ s3 ++ e :: rest)), d'. split.
    { unfold qv_is. assert (Z : exists x y, s3 ++ e :: rest = x :: y /\ is_digit x = false /\ x <> 46%N).
      { destruct s3 as [|x s3]; [exists e, rest; split; [reflexivity|]; destruct Fo as [->| ->]; split; [reflexivity|discriminate|reflexivity|discriminate]|].
        exists x, (s3 ++ e :: rest). split; [reflexivity|]. inversion O3 as [|? ? [->| ->] ?]; subst; split; [reflexivity|discriminate|reflexivity|discriminate]. }
      destruct Z as (x & y & -> & D & P). apply quality_spec; assumption. }
    eapply reach_trans; [apply INIT|]. rewrite <- !app_assoc in *.
    set (nmp := Some ((b :: nm) ++ s1 ++ bs ";" ++ s2 ++ bs "q=" ++ render_weight w ++ s3 ++ e :: rest)) in *.
    (* white space, semicolon *)
    assert (SC : reach (mkP P_NAME (s1 ++ bs ";" ++ s2 ++ bs "q=" ++ render_weight w ++ s3 ++ e :: rest) nmp q 0 a)
                       (mkP P_SEMICOLON (bs ";" ++ s2 ++ bs "q=" ++ render_weight w ++ s3 ++ e :: rest) nmp q 0 a)).
    { destruct s1 as [|x s1]; [conc|].
      apply reach_trans with (b := mkP P_WSPACE ((x :: s1) ++ bs ";" ++ s2 ++ bs "q=" ++ render_weight w ++ s3 ++ e :: rest) nmp q 0 a);
        [apply reach_step|eapply reach_trans; [apply (reach_spaces P_WSPACE); [auto|exact O1]|conc]].
      inversion O1 as [|? ? [->| ->] ?]; reflexivity. }
    eapply reach_trans; [exact SC|]. eapply reach_trans; [conc|]. cbn [tl bs app p_ptr p_name p_qv p_dec p_acc].
    assert (QQ : reach (mkP P_SEMICOLON (s2 ++ bs "q=" ++ render_weight w ++ s3 ++ e :: rest) nmp q 0 a)
                       (mkP P_Q (bs "q=" ++ render_weight w ++ s3 ++ e :: rest) nmp q 0 a)).
    { destruct s2 as [|x s2]; [conc|].
      apply reach_trans with (b := mkP P_SPACE_AFTER ((x :: s2) ++ bs "q=" ++ render_weight w ++ s3 ++ e :: rest) nmp q 0 a);
        [apply reach_step|eapply reach_trans; [apply (reach_spaces P_SPACE_AFTER); [auto|exact O2]|conc]].
      inversion O2 as [|? ? [->| ->] ?]; reflexivity. }
    eapply reach_trans; [exact QQ|]. eapply reach_trans; [conc|]. eapply reach_trans; [conc|]. eapply reach_trans; [conc|]. cbn [tl bs app p_ptr p_name p_qv p_dec p_acc].
    exact R.
  - exists q, 0. split; [exact Q|]. rewrite app_nil_r. eapply reach_trans; [apply INIT|].
    destruct Fo as [->| ->]; conc.
Qed.

Lemma no_nul_app a b : no_nul (a ++ b) <-> no_nul a /\ no_nul b.
Proof. apply Forall_app. Qed.
Lemma rfc_tchar_not_nul b : rfc_tchar b = true -> b <> 0%N. Proof. intros H ->. discriminate. Qed.
Lemma weight_no_nul w : weight_ok w -> no_nul (render_weight w).
Proof.
  intros W. destruct w as [ds|k].
  - destruct W as [_ F]. assert (no_nul ds) by (eapply Forall_impl; [|exact F]; intros x Hx ->; discriminate).
    destruct ds; [repeat constructor; discriminate|]. repeat (constructor; [discriminate|]). exact H.
  - destruct k as [|k]; [repeat constructor; discriminate|]. repeat (constructor; [discriminate|]). apply Forall_forall. intros x Hx. apply repeat_spec in Hx. subst. discriminate.
Qed.
Lemma ows_no_nul s : ows s -> no_nul s.
Proof. intros F. eapply Forall_impl; [|exact F]. intros x [->| ->]; discriminate. Qed.
Lemma item_no_nul it : item_ok it -> no_nul (render_item it).
Proof.
  intros (_ & _ & F & W). unfold render_item. apply no_nul_app. split.
  - eapply Forall_impl; [|exact F]. intros. now apply rfc_tchar_not_nul.
  - destruct (i_weight it) as [[[[s1 s2] w] s3]|]; [|constructor]. destruct W as (O1 & O2 & W & O3).
    rewrite !no_nul_app. repeat split; try (now apply ows_no_nul); try (now apply weight_no_nul); repeat constructor; discriminate.
Qed.
Lemma sep_no_nul s : sep_ok s -> no_nul s.
Proof.
  intros (t & -> & F). constructor; [discriminate|]. eapply Forall_impl; [|exact F]. intros x [->|[->| ->]]; discriminate.
Qed.
Lemma rest_no_nul l : Forall (fun p => sep_ok (fst p) /\ item_ok (snd p)) l -> no_nul (render_rest l).
Proof.
  induction 1 as [|[s it] l [H1 H2] F IH]; cbn [render_rest]; [constructor|]. cbn [fst snd] in *.
  rewrite !no_nul_app. repeat split; [now apply sep_no_nul|now apply item_no_nul|exact IH].
Qed.

(** The ADD state. *)
Lemma add_step it e rest c p q d a w : item_ok it -> is_delim e = true \/ e = 0%N -> no_nul rest \/ e = 0%N -> qv_is q w ->
  let name := render_item it ++ e :: rest ++ (if (e =? 0)%N then [] else [0%N]) in
  let acc := match known_coding (i_name it) with Some t => a ++ [(t, match w with Some w => percent w | None => 100%Z end)] | None => a end in
  parse_step (mkP P_ADD (c :: p) (Some name) q d a) =
  if negb (ae_tchar c) && negb (ae_semicolon c) && negb (ae_space c) && negb (ae_zeros c) then Ok PError
  else if ae_zeros c then Ok (PSuccess acc) else Ok (PNext (mkP P_INIT (c :: p) (Some name) q d acc)).
Proof.
  intros I He Hr Q name acc. unfold parse_step. cbn [p_ptr p_status]. destruct (_ && _ && _ && _); [reflexivity|].
  unfold parse_add. cbn [p_name p_qv p_acc p_ptr p_dec].
  assert (SL : exists len, strlen name = Ok len /\ length (i_name it) <= len /\ (e <> 0%N \/ i_weight it <> None \/ len = length (i_name it))).
  { unfold name. pose proof (item_no_nul it I) as NI. destruct (N.eqb_spec e 0) as [->|Ne].
    - exists (length (render_item it)). split; [rewrite app_nil_r; now apply strlen_spec|]. unfold render_item. rewrite app_length. split; [lia|].
      right. destruct (i_weight it) as [[[[? ?] ?] ?]|]; [left; discriminate|right; cbn; lia].
    - exists (length (render_item it ++ e :: rest)). destruct Hr as [Hr| ->]; [|contradiction]. split.
      + replace (render_item it ++ e :: rest ++ [0%N]) with ((render_item it ++ e :: rest) ++ 0%N :: []) by (rewrite <- app_assoc; reflexivity).
        apply strlen_spec. apply no_nul_app. split; [exact NI|]. constructor; assumption.
      + rewrite app_length. unfold render_item. rewrite app_length. split; [lia|]. left. exact Ne. }
  destruct SL as (len & SL & L1 & L2). rewrite SL. cbn [obind].
  destruct I as (Nn & Ln & Fn & Hw).
  assert (Fd : Forall (fun b => is_delim b = false) (i_name it)).
  { eapply Forall_impl; [|exact Fn]. intros x Hx. destruct (rfc_tchar_class x Hx) as (T & S & C & M & Z). unfold is_delim. rewrite S, C, M. reflexivity. }
  assert (MC : memcpy_name (S ENCNAME_MAXLEN) 0 ENCNAME_MAXLEN name len ENCNAME_MAXLEN = Ok (i_name it)).
  { unfold name, render_item. destruct (i_weight it) as [[[[s1 s2] w'] s3]|].
    - destruct Hw as (O1 & _). rewrite <- !app_assoc. 
      destruct s1 as [|x s1]; cbn [app bs].
      + apply memcpy_spec; auto; try (unfold ENCNAME_MAXLEN; lia). 
      + rewrite <- ?app_assoc. cbn [app]. apply memcpy_spec; auto; try (unfold ENCNAME_MAXLEN; lia). left. inversion O1 as [|? ? [->| ->] ?]; reflexivity.
    - rewrite app_nil_r. apply memcpy_spec; auto; try (unfold ENCNAME_MAXLEN; lia).
      destruct He as [He| ->]; [left; exact He|]. destruct L2 as [L2|[L2|L2]]; [contradiction|contradiction|right; lia]. }
  rewrite MC. cbn [obind]. rewrite firstn_all2 by (unfold ENCNAME_MAXLEN; lia). rewrite encoding_from_name_spec by lia. cbn [obind].
  unfold qv_is in Q. rewrite Q. cbn [obind]. unfold acc. destruct (known_coding (i_name it)); reflexivity.
Qed.

Lemma decoded_run : forall l it n q d a w0, item_ok it -> Forall (fun p => sep_ok (fst p) /\ item_ok (snd p)) l -> qv_is q w0 ->
  exists f, parse_run f (mkP P_INIT (render it l ++ [0%N]) n q d a) = Ok (AeSuccess (a ++ decoded w0 (it :: map snd l))).
Proof.
  induction l as [|[s it2] l IH]; intros it n q d a w0 I F Q.
  - unfold render. cbn [render_rest map decoded]. rewrite app_nil_r.
    destruct (reach_item it 0%N [] n q d a w0 I (or_introl eq_refl) Q) as (q' & d' & Q' & R).
    cbv zeta in R. change (final_status 0) with P_ADD in R. destruct R as [m R]. exists (m + 1). rewrite R. cbn [parse_run].
    pose proof (add_step it 0%N [] 0%N [] q' d' a _ I (or_intror eq_refl) (or_intror eq_refl) Q') as A. cbv zeta in A. cbn [N.eqb app] in A.
    rewrite A. cbn [ae_zeros ae_tchar N.eqb]. vm_compute (negb (ae_tchar 0) && _ && _ && _). cbv iota. cbn [obind].
    destruct (known_coding (i_name it)); cbn [app]; rewrite ?app_nil_r; reflexivity.
  - inversion F as [|? ? [Hs I2] F']; subst. cbn [fst snd] in *. destruct Hs as (t & -> & Ft).
    unfold render. cbn [render_rest map]. 
    set (tail := render it2 l ++ [0%N]).
    assert (E1 : (render_item it ++ (44%N :: t) ++ render_item it2 ++ render_rest l) ++ [0%N] = render_item it ++ 44%N :: t ++ tail).
    { unfold tail, render. cbn [app]. rewrite <- !app_assoc. cbn [app]. rewrite <- !app_assoc. reflexivity. }
    rewrite E1.
    destruct (reach_item it 44%N (t ++ tail) n q d a w0 I (or_intror eq_refl) Q) as (q' & d' & Q' & R). cbv zeta in R. change (final_status 44) with P_COMMA in R.
    set (w := match i_w it with Some w => Some w | None => w0 end) in *.
    (* the comma state *)
    assert (R2 : reach (mkP P_COMMA (44%N :: t ++ tail) (Some (render_item it ++ 44%N :: t ++ tail)) q' d' a)
                       (mkP P_COMMA tail (Some (render_item it ++ 44%N :: t ++ tail)) q' d' a)).
    { apply (reach_comma (44%N :: t) tail). constructor; auto. }
    (* tail starts with a token character *)
    assert (HT : exists b tl0, tail = b :: tl0 /\ rfc_tchar b = true).
    { destruct I2 as (Nn & _ & Fn & _). unfold tail, render, render_item. destruct (i_name it2) as [|b nm]; [contradiction|]. inversion Fn; subst. eexists _, _. split; [reflexivity|assumption]. }
    destruct HT as (b & tl0 & HT & Hb). destruct (rfc_tchar_class b Hb) as (T & S & C & M & Z).
    assert (R3 : reach (mkP P_COMMA tail (Some (render_item it ++ 44%N :: t ++ tail)) q' d' a)
                       (mkP P_ADD tail (Some (render_item it ++ 44%N :: t ++ tail)) q' d' a)).
    { apply reach_step. unfold parse_step. cbn [p_ptr p_status]. rewrite HT. rewrite T, S, C, M, Z. reflexivity. }
    set (acc := match known_coding (i_name it) with Some ty => a ++ [(ty, match w with Some w => percent w | None => 100%Z end)] | None => a end).
    assert (R4 : reach (mkP P_ADD tail (Some (render_item it ++ 44%N :: t ++ tail)) q' d' a)
                       (mkP P_INIT tail (Some (render_item it ++ 44%N :: t ++ tail)) q' d' acc)).
    { apply reach_step.
      assert (NN : no_nul (t ++ render it2 l)).
      { apply no_nul_app. split; [assert (X : no_nul (44%N :: t)) by (apply sep_no_nul; exists t; auto); inversion X; assumption|]. unfold render. apply no_nul_app. split; [now apply item_no_nul|now apply rest_no_nul]. }
      pose proof (add_step it 44%N (t ++ render it2 l) b tl0 q' d' a w I (or_introl eq_refl) (or_introl NN) Q') as A. cbv zeta in A.
      change (44 =? 0)%N with false in A. cbv iota in A. rewrite <- HT in A.
      replace (render_item it ++ 44%N :: (t ++ render it2 l) ++ [0%N]) with (render_item it ++ 44%N :: t ++ tail) in A by (unfold tail; rewrite <- app_assoc; reflexivity).
      rewrite A. rewrite T, Z. cbn [negb andb]. reflexivity. }
    destruct (IH it2 (Some (render_item it ++ 44%N :: t ++ tail)) q' d' acc w I2 F' Q') as (f & Hf).
    pose proof (reach_trans _ _ _ R (reach_trans _ _ _ R2 (reach_trans _ _ _ R3 R4))) as [m RR].
    exists (m + f). rewrite RR. unfold tail in *. rewrite Hf. f_equal. f_equal. cbn [decoded]. fold w. unfold acc.
    destruct (known_coding (i_name it)); [rewrite <- app_assoc|]; reflexivity.
Qed.

Lemma parse_decoded it l : item_ok it -> Forall (fun p => sep_ok (fst p) /\ item_ok (snd p)) l ->
  parse_ae (render it l) = Ok (AeSuccess (decoded None (it :: map snd l))).
Proof.
  intros I F. unfold parse_ae. destruct (decoded_run l it None None 0 [] None I F eq_refl) as (f & H).
  eapply (reach_result _ _ _ f); [apply reach_refl|exact H|discriminate|].
  unfold measure. cbn [p_ptr p_status]. rewrite app_length. cbn [length].
  destruct (render it l ++ [0%N]) as [|c r]; [lia|]. pose proof (rank_le P_INIT c). lia.
Qed.
Lemma parse_total v : parse_ae v <> UB Diverges.
Proof.
  unfold parse_ae. apply run_total. unfold measure. cbn [p_ptr p_status]. rewrite app_length. cbn [length].
  destruct (v ++ [0%N]) as [|c r]; [lia|]. pose proof (rank_le P_INIT c). lia.
Qed.

(** No element without a weight comes after one with a weight. *)
Fixpoint weights_last (seen : bool) (l : list item) : Prop :=
  match l with [] => True | it :: t => (i_w it = None -> seen = false) /\ weights_last (seen || match i_w it with Some _ => true | None => false end) t end.
Lemma decoded_listed : forall l w0 seen, (seen = false -> w0 = None) -> weights_last seen l -> decoded w0 l = listed l.
Proof.
  induction l as [|it l IH]; intros w0 seen H W; [reflexivity|]. cbn [decoded listed weights_last] in *. destruct W as [W1 W2].
  destruct (i_w it) as [w|] eqn:E.
  - rewrite (IH _ (seen || true)) by (auto; rewrite orb_true_r; discriminate). reflexivity.
  - rewrite (H (W1 eq_refl)). rewrite (IH None (seen || false)) by auto. reflexivity.
Qed.

(** ** Decision *)
Definition maximal (l : list (coding * Z)) (q : Z) : Prop := Forall (fun e => snd e <= q)%Z l.
Lemma decide_loop_spec : forall l i best,
  (match best with Some (_, _, m) => (0 < m)%Z | None => True end) ->
  match decide_loop i l best with
  | None => best = None /\ Forall (fun e => snd e <= 0)%Z l
  | Some (j, c, q) => (0 < q)%Z /\ (best = Some (j, c, q) \/ (i <= j /\ nth_error l (j - i) = Some (c, q)))
  end.
Proof.
  induction l as [|[c q] l IH]; intros i best Hb; cbn [decide_loop].
  - destruct best as [[[j c] q]|]; [split; [exact Hb|left; reflexivity]|split; [reflexivity|constructor]].
  - cbv zeta. set (max := match best with Some (_, _, m) => m | None => 0%Z end).
    set (ok := _ && _ && _). specialize (IH (S i) (if ok then Some (i, c, q) else best)).
    assert (P : match (if ok then Some (i, c, q) else best) with Some (_, _, m) => (0 < m)%Z | None => True end).
    { destruct ok eqn:E; [|exact Hb]. unfold ok in E. apply andb_true_iff in E as [E _]. apply andb_true_iff in E as [E _]. lia. }
    specialize (IH P). destruct (decide_loop (S i) l _) as [[[j c'] q']|].
    + destruct IH as [H1 H2]. split; [exact H1|]. destruct H2 as [H2|[H2 H3]].
      * destruct ok; [|left; exact H2]. injection H2 as <- <- <-. right. split; [lia|]. rewrite Nat.sub_diag. reflexivity.
      * right. split; [lia|]. replace (j - i) with (S (j - S i)) by lia. exact H3.
    + destruct IH as [H1 H2]. destruct ok eqn:E; [discriminate|]. split; [exact H1|]. constructor; [|exact H2]. cbn [snd].
      unfold ok in E. subst best. cbn in E. rewrite andb_true_r in E. unfold max in E. lia.
Qed.
(** If every later entry with a higher quality also has a higher priority, the maximum is chosen. *)
Definition prio_agrees (l : list (coding * Z)) : Prop :=
  forall i j c q c' q', i < j -> nth_error l i = Some (c, q) -> nth_error l j = Some (c', q') -> (0 < q)%Z -> (q < q')%Z -> (c_prio c < c_prio c')%Z.
Lemma decide_loop_max : forall l i best,
  (match best with Some (_, _, m) => (0 < m)%Z | None => True end) ->
  (forall j c q, best = Some (j, c, q) -> forall k c' q', nth_error l k = Some (c', q') -> (q < q')%Z -> (c_prio c < c_prio c')%Z) ->
  prio_agrees l ->
  match decide_loop i l best with
  | None => True
  | Some (_, _, q) => maximal l q /\ (match best with Some (_, _, m) => (m <= q)%Z | None => True end)
  end.
Proof.
  induction l as [|[c q] l IH]; intros i best Hb Ha Hp; cbn [decide_loop].
  - destruct best as [[[j c] q]|]; [split; [constructor|lia]|exact I].
  - cbv zeta. set (max := match best with Some (_, _, m) => m | None => 0%Z end). set (ok := _ && _ && _).
    specialize (IH (S i) (if ok then Some (i, c, q) else best)).
    assert (P : match (if ok then Some (i, c, q) else best) with Some (_, _, m) => (0 < m)%Z | None => True end).
    { destruct ok eqn:E; [|exact Hb]. unfold ok in E. apply andb_true_iff in E as [E _]. apply andb_true_iff in E as [E _]. lia. }
    specialize (IH P).
    assert (A : forall j c0 q0, (if ok then Some (i, c, q) else best) = Some (j, c0, q0) -> forall k c' q', nth_error l k = Some (c', q') -> (q0 < q')%Z -> (c_prio c0 < c_prio c')%Z).
    { intros j c0 q0 E k c' q' Hk Hq. destruct ok eqn:O.
      - injection E as <- <- <-. apply (Hp 0 (S k) c q c' q'); [lia|reflexivity|exact Hk|exact P|exact Hq].
      - apply (Ha j c0 q0 E (S k) c' q' Hk Hq). }
    assert (Hp' : prio_agrees l). { intros a b ca qa cb qb L Na Nb. apply (Hp (S a) (S b)); [lia|exact Na|exact Nb]. }
    specialize (IH A Hp'). pose proof (decide_loop_spec l (S i) _ P) as DS. destruct (decide_loop (S i) l _) as [[[j' c'] q']|]; [|exact I].
    destruct IH as [M1 M2]. split.
    + constructor; [|exact M1]. cbn [snd]. destruct ok eqn:O; [exact M2|].
      destruct (Z.le_gt_cases q q'); [assumption|exfalso].
      (* q > q' >= max, so ok must hold *)
      assert (O' : ok = true).
      { unfold ok. destruct best as [[[jb cb] mb]|].
        - cbn in *. pose proof (Ha jb cb mb eq_refl 0 c q eq_refl ltac:(lia)) as X. unfold max. rewrite !andb_true_iff. repeat split; lia.
        - destruct DS as [DS _]. unfold max. rewrite !andb_true_iff. repeat split; lia. }
      congruence.
    + destruct best as [[[jb cb] mb]|]; [|exact I]. destruct ok eqn:O; [|exact M2].
      unfold ok in O. apply andb_true_iff in O as [O _]. apply andb_true_iff in O as [_ O]. unfold max in O. lia.
Qed.

Lemma decide_use l i c : decide l = DUse i c ->
  exists c0 q, nth_error l i = Some (c0, q) /\ (0 < q)%Z /\ c = (if coding_eqb c0 CAny then CGzip else c0).
Proof.
  unfold decide. destruct l as [|e l]; [discriminate|]. pose proof (decide_loop_spec (e :: l) 0 None I) as D.
  destruct (decide_loop 0 (e :: l) None) as [[[j c0] q]|]; [|discriminate]. intros H. injection H as <- <-. destruct D as [D1 [D2|[_ D2]]]; [discriminate|].
  rewrite Nat.sub_0_r in D2. eauto.
Qed.
Lemma decide_na l : decide l = DNotAcceptable <-> l <> [] /\ Forall (fun e => snd e <= 0)%Z l.
Proof.
  unfold decide. destruct l as [|e l].
  - split; [discriminate|]. intros [H _]. contradiction.
  - pose proof (decide_loop_spec (e :: l) 0 None I) as D. destruct (decide_loop 0 (e :: l) None) as [[[j c0] q]|].
    + split; [discriminate|]. intros [_ F]. destruct D as [D1 [D2|[_ D2]]]; [discriminate|]. apply nth_error_In in D2. rewrite Forall_forall in F. specialize (F _ D2). cbn in F. lia.
    + split; [|reflexivity]. intros _. split; [discriminate|apply D].
Qed.
Lemma decide_none l : decide l = DNone <-> l = [].
Proof. unfold decide. destruct l as [|e l]; [split; reflexivity|]. destruct (decide_loop 0 (e :: l) None) as [[[? ?] ?]|]; split; discriminate. Qed.
Lemma decide_max l i c : prio_agrees l -> decide l = DUse i c -> exists c0 q, nth_error l i = Some (c0, q) /\ maximal l q.
Proof.
  intros Hp H. unfold decide in H. destruct l as [|e l]; [discriminate|].
  pose proof (decide_loop_spec (e :: l) 0 None I) as D.
  pose proof (decide_loop_max (e :: l) 0 None I ltac:(intros; discriminate) Hp) as M.
  destruct (decide_loop 0 (e :: l) None) as [[[j c0] q]|]; [|discriminate]. injection H as <- _. destruct D as [D1 [D2|[_ D2]]]; [discriminate|].
  rewrite Nat.sub_0_r in D2. exists c0, q. split; [exact D2|apply M].
Qed.
Lemma etype_eqb_eq a b : etype_eqb a b = true <-> a = b. Proof. destruct a, b; split; intros H; try reflexivity; discriminate. Qed.
Lemma set_coding_types l i c0 q c : nth_error l i = Some (c0, q) -> c_type c = c_type c0 -> forall x, In x (set_coding l i c) -> exists y, In y l /\ snd y = snd x /\ c_type (fst y) = c_type (fst x).
Proof.
  revert i. induction l as [|[a b] l IH]; intros i H T x Hx; [destruct i; discriminate|].
  destruct i as [|i]; cbn [set_coding nth_error] in *.
  - injection H as -> ->. destruct Hx as [<-|Hx]; [exists (c0, q); cbn; auto|exists x; auto using in_cons].
  - destruct Hx as [<-|Hx]; [exists (a, b); cbn; auto|]. destruct (IH i H T x Hx) as (y & I & E). exists y. auto using in_cons.
Qed.
(** The coding used is one listed with positive quality, and every listed element of the same
    coding has it too. *)
Lemma used_acceptable l over pre c :
  (forall e, In e l -> c_type (fst e) <> EAsterisk) ->
  (forall e e', In e l -> In e' l -> c_type (fst e) = c_type (fst e') -> snd e = snd e') ->
  (forall p e, pre = Some p -> In e l -> c_type (fst e) = c_type p -> (0 < snd e)%Z) ->
  response_coding (accepted l) (decide l) pre over = Some c ->
  (exists e, In e l /\ c_type (fst e) = c_type c) /\ (forall e, In e l -> c_type (fst e) = c_type c -> (0 < snd e)%Z).
Proof.
  intros A U Pre R.
  assert (DD : decided_type (decide l) = Some c -> (exists e, In e l /\ c_type (fst e) = c_type c) /\ (forall e, In e l -> c_type (fst e) = c_type c -> (0 < snd e)%Z)).
  { intros H. destruct (decide l) as [|i c'|] eqn:D; cbn in H; try discriminate. injection H as ->.
    destruct (decide_use _ _ _ D) as (c0 & q & N & Q & E). apply nth_error_In in N.
    assert (c = c0). { destruct c0; cbn in E; try exact E. exfalso. exact (A _ N eq_refl). } subst c0. clear E.
    split; [exists (c, q); auto|]. intros e Ie Te. rewrite (U e (c, q) Ie N Te). exact Q. }
  unfold response_coding in R. destruct pre as [p|]; [|destruct over; [auto|discriminate]].
  destruct (matching (accepted l) p) eqn:M; [|destruct over; [auto|discriminate]]. injection R as ->.
  split; [|intros e Ie Te; now apply (Pre c e)].
  unfold matching in M. apply existsb_exists in M as (e & Ie & Te). apply etype_eqb_eq in Te. unfold accepted in Ie.
  destruct (decide l) as [|i c'|] eqn:D; [exists e; auto| |exists e; auto].
  destruct (decide_use _ _ _ D) as (c0 & q & N & Q & E).
  assert (c' = c0). { destruct c0; cbn in E; try exact E. exfalso. exact (A _ (nth_error_In _ _ N) eq_refl). } clear E. subst c'.
  destruct (set_coding_types l i c0 q c0 N eq_refl e Ie) as (y & Iy & _ & Ty). exists y. split; [exact Iy|congruence].
Qed.
Lemma percent_bounds w : weight_ok w -> (10 * percent w <= Z.of_N (thousandths w) /\ Z.of_N (thousandths w) < 10 * percent w + 19)%Z.
Proof.
  intros _. unfold percent. cbv zeta. set (t := thousandths w). clearbody t.
  pose proof (N.div_mod t 10 ltac:(lia)). pose proof (N.mod_lt t 10 ltac:(lia)).
  destruct ((t =? 290)%N || (t =? 570)%N || (t =? 580)%N) eqn:E; [|lia].
  apply orb_true_iff in E as [E|E]; [apply orb_true_iff in E as [E|E]|]; apply N.eqb_eq in E; rewrite E; vm_compute; split; congruence.
Qed.
