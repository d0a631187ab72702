From Verif Require Import Base CStr CNum Route PyParse.
Local Open Scope N_scope.

(** ** Specification *)
(** A Python string that can be encoded. *)
Definition encodable (s : pystr) : Prop := Forall (fun c => c < 0xD800 \/ 0xE000 <= c < 0x110000) s.
Definition hexdigits : list (N * N) := combine (bs "0123456789ABCDEFabcdef") [0; 1; 2; 3; 4; 5; 6; 7; 8; 9; 10; 11; 12; 13; 14; 15; 10; 11; 12; 13; 14; 15].
(** [t] is a percent encoding of the bytes [b]: a byte is written as %XX, or as it is if it is an ASCII character other than
    '%', '&' and '='. *)
Inductive quoted : list N -> list N -> Prop :=
| q_nil : quoted [] []
| q_raw c b t : c < 128 -> c <> 37 -> c <> 38 -> c <> 61 -> quoted b t -> quoted (c :: b) (c :: t)
| q_pct h1 h2 x y b t : In (h1, x) hexdigits -> In (h2, y) hexdigits -> quoted b t -> quoted (16 * x + y :: b) (37 :: h1 :: h2 :: t).
(** The same of HTML forms: a blank is written as '+', and '+' not as it is. *)
Inductive form_quoted : list N -> list N -> Prop :=
| f_nil : form_quoted [] []
| f_raw c b t : c < 128 -> c <> 37 -> c <> 38 -> c <> 61 -> c <> 43 -> c <> 32 -> form_quoted b t -> form_quoted (c :: b) (c :: t)
| f_plus b t : form_quoted b t -> form_quoted (32 :: b) (43 :: t)
| f_pct h1 h2 x y b t : In (h1, x) hexdigits -> In (h2, y) hexdigits -> 16 * x + y <> 32 -> form_quoted b t -> form_quoted (16 * x + y :: b) (37 :: h1 :: h2 :: t).
Fixpoint between (c : N) (l : list pystr) : pystr := match l with [] => [] | [x] => x | x :: r => x ++ c :: between c r end.
(** [t] is the encoding of the fields with the encoding [q] of strings. *)
Definition fields_text (q : list N -> list N -> Prop) (fs : list (pystr * pystr)) (t : pystr) : Prop :=
  exists ps, Forall2 (fun f p => exists n v, q (utf8 (fst f)) n /\ q (utf8 (snd f)) v /\ p = n ++ 61 :: v) fs ps /\ t = between 38 ps.
(** A decimal numeral, with single underscores between its digits, and its value. *)
Inductive numeral : pystr -> Z -> Prop :=
| nu_digit c : 48 <= c <= 57 -> numeral [c] (Z.of_N c - 48)
| nu_more s z c : numeral s z -> 48 <= c <= 57 -> numeral (s ++ [c]) (10 * z + (Z.of_N c - 48))
| nu_under s z c : numeral s z -> 48 <= c <= 57 -> numeral (s ++ [95; c]) (10 * z + (Z.of_N c - 48)).
Definition whitespace (s : pystr) : Prop := Forall (fun c => space c = true) s.
Inductive int_text : pystr -> Z -> Prop :=
| it_plain s z : numeral s z -> int_text s z
| it_plus s z : numeral s z -> int_text (43 :: s) z
| it_minus s z : numeral s z -> int_text (45 :: s) (- z).
(** Nothing to strip. *)
Definition stripped (s : pystr) : Prop := forall c r, (s = c :: r -> space c = false) /\ (s = r ++ [c] -> space c = false).

(** ** UTF-8 *)
Lemma undec_char c t : c < 0xD800 \/ 0xE000 <= c < 0x110000 -> undec (utf8_char c ++ t) = option_map (cons c) (undec t).
Proof.
  intros S. assert (SC : scalar c = true) by (unfold scalar; lia). unfold utf8_char.
  destruct (N.ltb_spec c 0x80) as [L1|L1]; [cbn [app undec]; replace (c <? 0x80) with true by lia; reflexivity|].
  destruct (N.ltb_spec c 0x800) as [L2|L2].
  { cbn [app undec]. pose proof (N.div_mod c 64 ltac:(discriminate)) as D. pose proof (N.mod_lt c 64 ltac:(discriminate)) as M. set (q := c / 64) in *. set (r := c mod 64) in *. clearbody q r.
    replace (0xC0 + q <? 0x80) with false by lia. replace (0xC0 + q <? 0xC2) with false by lia. replace (0xC0 + q <? 0xE0) with true by lia.
    unfold cont. replace ((0x80 <=? 0x80 + r) && (0x80 + r <? 0xC0)) with true by lia. cbn [take]. f_equal. f_equal. lia. }
  destruct (N.ltb_spec c 0x10000) as [L3|L3].
  { cbn [app undec]. pose proof (N.div_mod c 64 ltac:(discriminate)) as D. pose proof (N.mod_lt c 64 ltac:(discriminate)) as M. 
    pose proof (N.div_mod (c / 64) 64 ltac:(discriminate)) as D2. pose proof (N.mod_lt (c / 64) 64 ltac:(discriminate)) as M2. rewrite N.div_div in D2 by discriminate. change (64 * 64) with 4096 in D2.
    set (q := c / 64) in *. set (r := c mod 64) in *. set (q2 := c / 4096) in *. set (r2 := q mod 64) in *. clearbody q2 r2. clearbody q r.
    replace (0xE0 + q2 <? 0x80) with false by lia. replace (0xE0 + q2 <? 0xC2) with false by lia. replace (0xE0 + q2 <? 0xE0) with false by lia. replace (0xE0 + q2 <? 0xF0) with true by lia.
    cbv zeta. replace ((0xE0 + q2 - 0xE0) * 4096 + (0x80 + r2 - 0x80) * 64 + (0x80 + r - 0x80)) with c by lia. rewrite SC. unfold cont.
    replace ((0x80 <=? 0x80 + r2) && (0x80 + r2 <? 0xC0)) with true by lia. replace ((0x80 <=? 0x80 + r) && (0x80 + r <? 0xC0)) with true by lia. replace (0x800 <=? c) with true by lia. reflexivity. }
  cbn [app undec]. pose proof (N.div_mod c 64 ltac:(discriminate)) as D. pose proof (N.mod_lt c 64 ltac:(discriminate)) as M.
  pose proof (N.div_mod (c / 64) 64 ltac:(discriminate)) as D2. pose proof (N.mod_lt (c / 64) 64 ltac:(discriminate)) as M2. rewrite N.div_div in D2 by discriminate. change (64 * 64) with 4096 in D2.
  pose proof (N.div_mod (c / 4096) 64 ltac:(discriminate)) as D3. pose proof (N.mod_lt (c / 4096) 64 ltac:(discriminate)) as M3. rewrite N.div_div in D3 by discriminate. change (4096 * 64) with 262144 in D3.
  set (q3 := c / 262144) in *. set (r3 := c / 4096 mod 64) in *. set (q2 := c / 4096) in *. set (r2 := c / 64 mod 64) in *. set (q := c / 64) in *. set (r := c mod 64) in *. clearbody r3 r2 r. clearbody q3 q2 q.
  replace (0xF0 + q3 <? 0x80) with false by lia. replace (0xF0 + q3 <? 0xC2) with false by lia. replace (0xF0 + q3 <? 0xE0) with false by lia. replace (0xF0 + q3 <? 0xF0) with false by lia. replace (0xF0 + q3 <? 0xF5) with true by lia.
  cbv zeta. replace ((0xF0 + q3 - 0xF0) * 262144 + (0x80 + r3 - 0x80) * 4096 + (0x80 + r2 - 0x80) * 64 + (0x80 + r - 0x80)) with c by lia. rewrite SC. unfold cont.
  replace ((0x80 <=? 0x80 + r3) && (0x80 + r3 <? 0xC0)) with true by lia. replace ((0x80 <=? 0x80 + r2) && (0x80 + r2 <? 0xC0)) with true by lia. replace ((0x80 <=? 0x80 + r) && (0x80 + r <? 0xC0)) with true by lia. replace (0x10000 <=? c) with true by lia. reflexivity.
Qed.
Lemma undec_utf8 s : encodable s -> undec (utf8 s) = Some s.
Proof.
  induction 1 as [|c s S F IH]; [reflexivity|]. cbn [utf8 flat_map]. rewrite undec_char by exact S. fold (utf8 s). rewrite IH. reflexivity.
Qed.
Lemma two q r : r < 64 -> (q * 64 + r) / 64 = q /\ (q * 64 + r) mod 64 = r.
Proof.
  intros H. pose proof (N.div_mod (q * 64 + r) 64 ltac:(discriminate)) as D. pose proof (N.mod_lt (q * 64 + r) 64 ltac:(discriminate)) as M.
  set (a := (q * 64 + r) / 64) in *. set (b := (q * 64 + r) mod 64) in *. clearbody a b. lia.
Qed.
(** Nothing but encodings is decoded. *)
Lemma undec_sound : forall n b s, (length b <= n)%nat -> undec b = Some s -> encodable s /\ utf8 s = b.
Proof.
  induction n as [|n IH]; intros b s L E.
  { destruct b; [|cbn in L; lia]. injection E as <-. split; [constructor|reflexivity]. }
  destruct b as [|a t]; [injection E as <-; split; [constructor|reflexivity]|]. cbn [length] in L.
  assert (STEP : forall c ok t', (length t' <= n)%nat -> take c ok (undec t') = Some s -> (ok = true -> (c < 0xD800 \/ 0xE000 <= c < 0x110000) /\ a :: t = utf8_char c ++ t') ->
    encodable s /\ utf8 s = a :: t).
  { intros c ok t' L' T H. unfold take in T. destruct ok; [|discriminate]. destruct (undec t') as [s'|] eqn:U; [|discriminate]. injection T as <-.
    destruct (IH t' s' L' U) as (A & B). destruct (H eq_refl) as (C & D). split; [constructor; assumption|]. cbn [utf8 flat_map]. fold (utf8 s'). rewrite B. symmetry. exact D. }
  cbn [undec] in E. destruct (a <? 0x80) eqn:C1.
  { refine (STEP _ _ _ _ E _); [lia|]. intros _. split; [lia|]. unfold utf8_char. rewrite C1. reflexivity. }
  destruct (a <? 0xC2) eqn:C2; [discriminate|]. destruct (a <? 0xE0) eqn:C3.
  { destruct t as [|x t]; [discriminate|]. cbn [length] in L. refine (STEP _ _ _ _ E _); [lia|]. intros K. unfold cont in K.
    destruct (two (a - 0xC0) (x - 0x80) ltac:(lia)) as (Q & R). set (c := (a - 0xC0) * 64 + (x - 0x80)) in *.
    assert (B : 0x80 <= c < 0x800) by lia. split; [lia|]. unfold utf8_char. replace (c <? 0x80) with false by lia. replace (c <? 0x800) with true by lia.
    rewrite Q, R. cbn [app]. f_equal; [lia|]. f_equal. lia. }
  destruct (a <? 0xF0) eqn:C4.
  { destruct t as [|x [|y t]]; try discriminate. cbn [length] in L. cbv zeta in E. refine (STEP _ _ _ _ E _); [lia|]. intros K. unfold cont, scalar in K.
    destruct (two ((a - 0xE0) * 64 + (x - 0x80)) (y - 0x80) ltac:(lia)) as (Q & R). destruct (two (a - 0xE0) (x - 0x80) ltac:(lia)) as (Q2 & R2).
    set (c := (a - 0xE0) * 4096 + (x - 0x80) * 64 + (y - 0x80)) in *. replace (((a - 0xE0) * 64 + (x - 0x80)) * 64 + (y - 0x80)) with c in * by lia.
    assert (B : c < 0x10000) by lia. split; [lia|]. unfold utf8_char. replace (c <? 0x80) with false by lia. replace (c <? 0x800) with false by lia. replace (c <? 0x10000) with true by lia.
    replace (c / 4096) with (c / 64 / 64) by (rewrite N.div_div by discriminate; reflexivity). rewrite Q, R, Q2, R2. cbn [app]. f_equal; [lia|]. f_equal; [lia|]. f_equal. lia. }
  destruct (a <? 0xF5) eqn:C5; [|discriminate].
  destruct t as [|x [|y [|z t]]]; try discriminate. cbn [length] in L. cbv zeta in E. refine (STEP _ _ _ _ E _); [lia|]. intros K. unfold cont, scalar in K.
  destruct (two (((a - 0xF0) * 64 + (x - 0x80)) * 64 + (y - 0x80)) (z - 0x80) ltac:(lia)) as (Q & R).
  destruct (two ((a - 0xF0) * 64 + (x - 0x80)) (y - 0x80) ltac:(lia)) as (Q2 & R2). destruct (two (a - 0xF0) (x - 0x80) ltac:(lia)) as (Q3 & R3).
  set (c := (a - 0xF0) * 262144 + (x - 0x80) * 4096 + (y - 0x80) * 64 + (z - 0x80)) in *.
  replace ((((a - 0xF0) * 64 + (x - 0x80)) * 64 + (y - 0x80)) * 64 + (z - 0x80)) with c in * by lia.
  split; [lia|]. unfold utf8_char. replace (c <? 0x80) with false by lia. replace (c <? 0x800) with false by lia. replace (c <? 0x10000) with false by lia.
  replace (c / 262144) with (c / 64 / 64 / 64) by (rewrite !N.div_div by discriminate; reflexivity).
  replace (c / 4096) with (c / 64 / 64) by (rewrite N.div_div by discriminate; reflexivity). rewrite Q, R, Q2, R2, Q3, R3. cbn [app]. f_equal; [lia|]. f_equal; [lia|]. f_equal; [lia|]. f_equal. lia.
Qed.
Lemma undec_ascii s : Forall (fun c => c < 128) s -> undec s = Some s.
Proof. induction 1 as [|c s S F IH]; [reflexivity|]. cbn [undec]. replace (c <? 0x80) with true by lia. cbn [take]. rewrite IH. reflexivity. Qed.
Lemma utf8_ascii s : Forall (fun c => c < 128) s -> utf8 s = s.
Proof. induction 1 as [|c s S F IH]; [reflexivity|]. cbn [utf8 flat_map]. fold (utf8 s). rewrite IH. unfold utf8_char. replace (c <? 0x80) with true by lia. reflexivity. Qed.
Lemma utf8_app a b : utf8 (a ++ b) = utf8 a ++ utf8 b.
Proof. apply flat_map_app. Qed.
Lemma utf8_high c x : In x (utf8_char c) -> x = c /\ c < 128 \/ 128 <= x.
Proof.
  unfold utf8_char. destruct (N.ltb_spec c 0x80); [intros [<-|[]]; auto|]. destruct (c <? 0x800); [|destruct (c <? 0x10000)]; cbn [In]; intuition (subst; right; lia).
Qed.
Definition plus_for_blank (s : list N) : list N := map (fun c => if c =? 32 then 43 else c) s.
Lemma utf8_plus s : utf8 (plus_for_blank s) = plus_for_blank (utf8 s).
Proof.
  unfold plus_for_blank. induction s as [|c s IH]; [reflexivity|]. cbn [map utf8 flat_map]. fold (utf8 s). fold (utf8 (map (fun c => if c =? 32 then 43 else c) s)). rewrite map_app, IH. f_equal.
  destruct (N.eqb_spec c 32) as [->|NE]; [reflexivity|]. symmetry. transitivity (map (fun x => x) (utf8_char c)); [|apply map_id]. apply map_ext_in. intros x I. apply utf8_high in I. destruct (N.eqb_spec x 32); [lia|reflexivity].
Qed.

(** ** Percent encoding *)
Lemma hexval_digit h x : In (h, x) hexdigits -> hexval h = Some x /\ h < 128 /\ h <> 43 /\ x < 16.
Proof.
  assert (A : forallb (fun p => match hexval (fst p) with Some x => (x =? snd p) && (fst p <? 128) && negb (fst p =? 43) && (x <? 16) | None => false end) hexdigits = true) by (vm_compute; reflexivity).
  intros I. rewrite forallb_forall in A. specialize (A _ I). cbn [fst snd] in A. destruct (hexval h) as [y|]; [|discriminate]. repeat (apply andb_true_iff in A as (A & ?)). apply N.eqb_eq in A. subst y. split; [reflexivity|lia].
Qed.
(** Any text with the bytes [b] where a raw character is anything but '%'. *)
Inductive encodes : list N -> list N -> Prop :=
| e_nil : encodes [] []
| e_raw c b t : c < 128 -> c <> 37 -> encodes b t -> encodes (c :: b) (c :: t)
| e_pct h1 h2 x y b t : In (h1, x) hexdigits -> In (h2, y) hexdigits -> encodes b t -> encodes (16 * x + y :: b) (37 :: h1 :: h2 :: t).
Lemma encodes_app b1 t1 b2 t2 : encodes b1 t1 -> encodes b2 t2 -> encodes (b1 ++ b2) (t1 ++ t2).
Proof. induction 1; intros E; cbn [app]; [exact E|constructor; auto|econstructor; eauto]. Qed.
Lemma quoted_encodes b t : quoted b t -> encodes b t.
Proof. induction 1; econstructor; eauto. Qed.
Lemma encodes_pct b t : encodes b t -> pct t = b /\ Forall (fun c => c < 128) t.
Proof.
  induction 1 as [|c b t C N37 E (IH & F)|h1 h2 x y b t H1 H2 E (IH & F)]; [split; [reflexivity|constructor]| |].
  - cbn [pct]. replace (c =? 37) with false by lia. rewrite IH. auto.
  - apply hexval_digit in H1 as (V1 & L1 & _), H2 as (V2 & L2 & _). cbn [pct]. rewrite N.eqb_refl, V1, V2, IH. split; [reflexivity|]. constructor; [lia|]. auto.
Qed.
Lemma unquote_ascii bad s : Forall (fun c => c < 128) s -> unquote bad s = undec_replace bad (pct s).
Proof.
  intros F. unfold unquote. assert (G : forall acc, unquote_go bad acc s = undec_replace bad (pct (rev acc ++ s))); [|exact (G [])].
  induction F as [|c s C F IH]; intros acc; cbn [unquote_go]; [rewrite app_nil_r; reflexivity|]. replace (c <? 128) with true by lia. rewrite IH. cbn [rev]. rewrite <- app_assoc. reflexivity.
Qed.
Lemma unquote_encodes bad s t : encodable s -> encodes (utf8 s) t -> unquote bad t = s.
Proof. intros S E. apply encodes_pct in E as (P & F). rewrite unquote_ascii by exact F. unfold undec_replace. rewrite P, undec_utf8 by exact S. reflexivity. Qed.
Lemma quoted_clean b t c : quoted b t -> c = 38 \/ c = 61 -> ~ In c t.
Proof.
  induction 1 as [|x b t X1 X2 X3 X4 Q IH|h1 h2 x y b t H1 H2 Q IH]; intros CC; cbn [In]; [auto| |].
  - intros [->|I]; [lia|exact (IH CC I)].
  - assert (H : forallb (fun p => negb (fst p =? 38) && negb (fst p =? 61)) hexdigits = true) by (vm_compute; reflexivity). rewrite forallb_forall in H. apply H in H1, H2. cbn [fst] in H1, H2. intros [<-|[<-|[<-|I]]]; try lia. exact (IH CC I).
Qed.
(** ** Splitting *)
Lemma split_plain c s : ~ In c s -> split c s = [s].
Proof.
  induction s as [|x s IH]; intros NI; [reflexivity|]. cbn [split In] in *. replace (x =? c) with false by (symmetry; apply N.eqb_neq; tauto). rewrite IH by tauto. reflexivity.
Qed.
Lemma split_cons c a s : ~ In c a -> split c (a ++ c :: s) = a :: split c s.
Proof.
  induction a as [|x a IH]; intros NI; cbn [app split]; [rewrite N.eqb_refl; reflexivity|]. cbn [In] in NI. replace (x =? c) with false by (symmetry; apply N.eqb_neq; tauto). rewrite IH by tauto. reflexivity.
Qed.
Lemma split_between c l : l <> [] -> Forall (fun p => ~ In c p) l -> split c (between c l) = l.
Proof.
  intros NE F. induction F as [|x l X F IH]; [contradiction|]. destruct l as [|y l]; [cbn [between]; apply split_plain, X|].
  change (between c (x :: y :: l)) with (x ++ c :: between c (y :: l)). rewrite split_cons by exact X. rewrite IH by discriminate. reflexivity.
Qed.
Lemma pair_plain n v : ~ In 61 n -> ~ In 61 v -> pair_of (n ++ 61 :: v) = (n, Some v).
Proof. intros A B. unfold pair_of. rewrite split_cons by exact A. rewrite split_plain by exact B. reflexivity. Qed.
Lemma pair_cut n v w : ~ In 61 n -> ~ In 61 v -> pair_of (n ++ 61 :: v ++ 61 :: w) = (n, Some v).
Proof. intros A B. unfold pair_of. rewrite split_cons by exact A. rewrite split_cons by exact B. reflexivity. Qed.

(** ** Query *)
Definition readable (fs : list (pystr * pystr)) : Prop := Forall (fun f => encodable (fst f) /\ encodable (snd f)) fs.
Theorem query_ok bad fs t : fs <> [] -> readable fs -> fields_text quoted fs t -> parse_query bad t = map (fun f => (fst f, Some (snd f))) fs.
Proof.
  intros NE R (ps & F & ->). unfold parse_query. rewrite split_between.
  - clear NE. induction F as [|f p fs ps (n & v & QN & QV & ->) F IH]; [reflexivity|]. inversion R as [|? ? (R1 & R2) R']; subst. cbn [map]. rewrite IH by exact R'.
    rewrite pair_plain; [|exact (quoted_clean _ _ 61 QN (or_intror eq_refl))|exact (quoted_clean _ _ 61 QV (or_intror eq_refl))]. cbn [option_map]. rewrite (unquote_encodes bad (fst f) n), (unquote_encodes bad (snd f) v); auto using quoted_encodes.
  - intros ->. apply NE. inversion F. reflexivity.
  - clear NE R. induction F as [|f p fs ps (n & v & QN & QV & ->) F IH]; constructor; auto. rewrite in_app_iff. cbn [In]. intros [I|[I|I]]; [exact (quoted_clean _ _ 38 QN (or_introl eq_refl) I)|lia|exact (quoted_clean _ _ 38 QV (or_introl eq_refl) I)].
Qed.
(** A blank written as '+' is read as '+'. *)
Lemma form_quoted_encodes b t : form_quoted b t -> encodes (plus_for_blank b) t /\ encodes b (replace 43 32 t) /\ quoted (plus_for_blank b) t.
Proof.
  unfold plus_for_blank, replace. induction 1 as [|c b t C1 C2 C3 C4 C5 C6 F (I1 & I2 & I3)|b t F (I1 & I2 & I3)|h1 h2 x y b t H1 H2 NB F (I1 & I2 & I3)]; cbn [map].
  - repeat split; constructor.
  - replace (c =? 32) with false by lia. replace (c =? 43) with false by lia. split; [apply e_raw; auto|]. split; [apply e_raw; auto|apply q_raw; auto].
  - change (32 =? 32) with true. change (43 =? 43) with true. cbv iota. split; [apply e_raw; [reflexivity|discriminate|exact I1]|]. split; [apply e_raw; [reflexivity|discriminate|exact I2]|apply q_raw; [reflexivity|discriminate|discriminate|discriminate|exact I3]].
  - pose proof (hexval_digit _ _ H1) as (_ & _ & N1 & _). pose proof (hexval_digit _ _ H2) as (_ & _ & N2 & _). replace (h1 =? 43) with false by lia. replace (h2 =? 43) with false by lia. replace (16 * x + y =? 32) with false by lia.
    split; [exact (e_pct _ _ _ _ _ _ H1 H2 I1)|]. split; [exact (e_pct _ _ _ _ _ _ H1 H2 I2)|exact (q_pct _ _ _ _ _ _ H1 H2 I3)].
Qed.
Theorem query_plus bad fs t : fs <> [] -> readable fs -> fields_text form_quoted fs t ->
  parse_query bad t = map (fun f => (plus_for_blank (fst f), Some (plus_for_blank (snd f)))) fs.
Proof.
  intros NE R (ps & F & ->). set (fs' := map (fun f : pystr * pystr => (plus_for_blank (fst f), plus_for_blank (snd f))) fs).
  rewrite (query_ok bad fs').
  - unfold fs'. rewrite map_map. reflexivity.
  - unfold fs'. destruct fs; [contradiction|discriminate].
  - unfold fs'. clear -R. assert (E : forall s, encodable s -> encodable (plus_for_blank s)).
    { unfold encodable, plus_for_blank. intros s S. apply Forall_map. eapply Forall_impl; [|exact S]. cbn. intros c C. destruct (N.eqb_spec c 32); [lia|exact C]. }
    apply Forall_map. eapply Forall_impl; [|exact R]. cbn. intros f (A & B). auto.
  - exists ps. split; [|reflexivity]. unfold fs'. clear -F. induction F as [|f p fs ps (n & v & QN & QV & ->) F IH]; constructor; [|exact IH]. exists n, v. cbn [fst snd]. rewrite !utf8_plus.
    split; [apply form_quoted_encodes, QN|]. split; [apply form_quoted_encodes, QV|reflexivity].
Qed.

(** ** strip *)
Lemma lstrip_spec s : exists w, s = w ++ lstrip s /\ whitespace w /\ (forall c r, lstrip s = c :: r -> space c = false).
Proof.
  induction s as [|c s (w & E & W & H)]; [exists []; split; [reflexivity|]; split; [constructor|discriminate]|]. cbn [lstrip]. destruct (space c) eqn:S.
  - exists (c :: w). split; [cbn; congruence|]. split; [constructor; assumption|exact H].
  - exists []. split; [reflexivity|]. split; [constructor|]. intros x r Q. injection Q as <- <-. exact S.
Qed.
Lemma lstrip_app w s : whitespace w -> lstrip (w ++ s) = lstrip s.
Proof. induction 1 as [|c w C W IH]; [reflexivity|]. cbn [app lstrip]. rewrite C. exact IH. Qed.
Lemma lstrip_id s : (forall c r, s = c :: r -> space c = false) -> lstrip s = s.
Proof. destruct s as [|c s]; [reflexivity|]. intros H. cbn [lstrip]. rewrite (H c s eq_refl). reflexivity. Qed.
Lemma whitespace_rev w : whitespace w -> whitespace (rev w).
Proof. unfold whitespace. rewrite !Forall_forall. intros H x I. apply H. rewrite in_rev. exact I. Qed.
Lemma strip_id s : stripped s -> strip s = s.
Proof.
  intros S. unfold strip. rewrite (lstrip_id s) by (intros c r E; exact (proj1 (S c r) E)). rewrite lstrip_id, rev_involutive; [reflexivity|]. intros c r E. apply (proj2 (S c (rev r))). rewrite <- (rev_involutive s), E. reflexivity.
Qed.
Lemma strip_around w1 s w2 : whitespace w1 -> whitespace w2 -> stripped s -> strip (w1 ++ s ++ w2) = s.
Proof.
  intros W1 W2 S. unfold strip. rewrite lstrip_app by exact W1. destruct s as [|c s].
  - cbn [app]. assert (E : lstrip w2 = []) by (rewrite <- (app_nil_r w2), lstrip_app by exact W2; reflexivity). rewrite E. reflexivity.
  - assert (E : lstrip ((c :: s) ++ w2) = (c :: s) ++ w2) by (apply lstrip_id; intros x r Q; injection Q as <- _; exact (proj1 (S c s) eq_refl)). rewrite E, rev_app_distr, lstrip_app by (apply whitespace_rev, W2).
    rewrite lstrip_id, rev_involutive; [reflexivity|]. intros x r Q. apply (proj2 (S x (rev r))). rewrite <- (rev_involutive (c :: s)), Q. reflexivity.
Qed.
Lemma strip_spec s : exists w1 w2, s = w1 ++ strip s ++ w2 /\ whitespace w1 /\ whitespace w2 /\ stripped (strip s).
Proof.
  destruct (lstrip_spec s) as (w1 & E1 & W1 & H1). unfold strip. destruct (lstrip_spec (rev (lstrip s))) as (w2 & E2 & W2 & H2). set (u := lstrip (rev (lstrip s))) in *.
  exists w1, (rev w2). assert (E : lstrip s = rev u ++ rev w2) by (rewrite <- rev_app_distr, <- E2, rev_involutive; reflexivity). split; [rewrite <- E; exact E1|]. split; [exact W1|]. split; [apply whitespace_rev, W2|].
  intros c r. split.
  - intros Q. apply (H1 c (r ++ rev w2)). rewrite E, Q. reflexivity.
  - intros Q. apply (H2 c (rev r)). rewrite <- (rev_involutive u), Q, rev_app_distr. reflexivity.
Qed.
Lemma strip_strip s : strip (strip s) = strip s.
Proof. destruct (strip_spec s) as (_ & _ & _ & _ & _ & S). apply strip_id, S. Qed.

(** ** Forms *)
Lemma fields_decoded fs t : fs <> [] -> fields_text form_quoted fs t -> encodes (utf8 (between 38 (map (fun f => fst f ++ 61 :: snd f) fs))) (replace 43 32 t).
Proof.
  intros NE (ps & F & ->). clear NE. induction F as [|f p fs ps (n & v & QN & QV & ->) F IH]; [constructor|].
  assert (ONE : encodes (utf8 (fst f ++ 61 :: snd f)) (replace 43 32 (n ++ 61 :: v))).
  { rewrite utf8_app. unfold replace. rewrite map_app. apply encodes_app; [apply form_quoted_encodes, QN|]. change (utf8 (61 :: snd f)) with (61 :: utf8 (snd f)). cbn [map]. change (61 =? 43) with false. cbv iota. apply e_raw; [reflexivity|discriminate|apply form_quoted_encodes, QV]. }
  destruct F as [|f2 p2 fs ps Q F]; [exact ONE|]. cbn [map between] in *. rewrite utf8_app. unfold replace in *. rewrite map_app. apply encodes_app; [exact ONE|].
  change (utf8 (38 :: ?x)) with (38 :: utf8 x). cbn [map]. change (38 =? 43) with false. cbv iota. apply e_raw; [reflexivity|discriminate|exact IH].
Qed.
Definition form_fold (items : list pystr) : list (pystr * option pystr) :=
  fold_left (fun d item => let '(n, v) := pair_of item in dict_set (strip n) (option_map strip v) d) items [].
(** Whatever the fields are, the body is split after it was decoded. *)
Theorem form_decoded bad fs t : fs <> [] -> readable fs -> fields_text form_quoted fs t ->
  parse_form bad t = Some (form_fold (split 38 (between 38 (map (fun f => fst f ++ 61 :: snd f) fs)))).
Proof.
  intros NE R FT. pose proof (fields_decoded fs t NE FT) as E. set (plain := between 38 (map (fun f => fst f ++ 61 :: snd f) fs)) in *.
  assert (A : Forall (fun c => c < 128) t).
  { apply encodes_pct in E as (_ & A). unfold replace in A. rewrite Forall_forall in *. intros c I. specialize (A (if c =? 43 then 32 else c) (in_map _ _ _ I)). destruct (N.eqb_spec c 43); [lia|exact A]. }
  unfold parse_form. rewrite undec_ascii by exact A. unfold unquote_plus. rewrite (unquote_encodes bad plain); [reflexivity| |exact E].
  unfold plain. clear -R. induction R as [|f fs (R1 & R2) R IH]; [constructor|]. cbn [map]. destruct (map (fun f => fst f ++ 61 :: snd f) fs) as [|y l]; cbn [between] in *; unfold encodable in *.
  - apply Forall_app. split; [exact R1|]. constructor; [lia|exact R2].
  - apply Forall_app. split; [apply Forall_app; split; [exact R1|constructor; [lia|exact R2]]|]. constructor; [lia|exact IH].
Qed.
(** The value of the last field with the name. *)
Fixpoint last_value (k : pystr) (fs : list (pystr * pystr)) : option pystr :=
  match fs with [] => None | (n, v) :: t => match last_value k t with Some x => Some x | None => if bytes_eqb k n then Some v else None end end.
Definition dict_get (k : pystr) (d : list (pystr * option pystr)) : option (option pystr) := option_map snd (List.find (fun p => bytes_eqb k (fst p)) d).
Lemma dict_get_set k k' v d : dict_get k (dict_set k' v d) = if bytes_eqb k k' then Some v else dict_get k d.
Proof.
  unfold dict_get. induction d as [|(a, x) d IH]; cbn [dict_set List.find fst].
  - destruct (bytes_eqb k k'); reflexivity.
  - destruct (bytes_eqb k' a) eqn:E; cbn [List.find fst].
    + apply bytes_eqb_eq in E. subst a. destruct (bytes_eqb k k'); reflexivity.
    + destruct (bytes_eqb k a) eqn:E2; [|exact IH]. apply bytes_eqb_eq in E2. subst a. destruct (bytes_eqb k k') eqn:E3; [|reflexivity]. apply bytes_eqb_eq in E3. subst. rewrite bytes_eqb_refl in E. discriminate.
Qed.
Definition plain_field (f : pystr * pystr) : Prop :=
  stripped (fst f) /\ stripped (snd f) /\ ~ In 38 (fst f) /\ ~ In 61 (fst f) /\ ~ In 38 (snd f) /\ ~ In 61 (snd f).
Theorem form_ok bad fs t : fs <> [] -> readable fs -> Forall plain_field fs -> fields_text form_quoted fs t ->
  exists d, parse_form bad t = Some d /\ forall k, dict_get k d = option_map Some (last_value k fs).
Proof.
  intros NE R P FT. rewrite (form_decoded bad fs t NE R FT). eexists. split; [reflexivity|]. rewrite split_between.
  - intros k. unfold form_fold. assert (G : forall d, dict_get k (fold_left (fun d item => let '(n, v) := pair_of item in dict_set (strip n) (option_map strip v) d) (map (fun f => fst f ++ 61 :: snd f) fs) d) = match last_value k fs with Some v => Some (Some v) | None => dict_get k d end).
    { clear NE R FT. induction P as [|f fs (S1 & S2 & A1 & A2 & A3 & A4) P IH]; intros d; [reflexivity|]. cbn [map fold_left]. rewrite pair_plain by assumption. cbn [option_map]. rewrite !strip_id by assumption. rewrite IH. destruct f as (n, v). cbn [last_value fst snd].
      destruct (last_value k fs); [reflexivity|]. rewrite dict_get_set. destruct (bytes_eqb k n); reflexivity. }
    rewrite G. destruct (last_value k fs); reflexivity.
  - destruct fs; [contradiction|discriminate].
  - apply Forall_map. eapply Forall_impl; [|exact P]. intros f (_ & _ & A1 & _ & A3 & _). rewrite in_app_iff. cbn. intuition discriminate.
Qed.
(** A '&' in a value ends it, and what follows is another field. *)
Theorem form_amp bad n v m w t : encodable n -> encodable (v ++ 38 :: m ++ 61 :: w) -> plain_field (n, v) -> plain_field (m, w) -> fields_text form_quoted [(n, v ++ 38 :: m ++ 61 :: w)] t ->
  exists d, parse_form bad t = Some d /\ (n <> m -> dict_get n d = Some (Some v)) /\ dict_get m d = Some (Some w).
Proof.
  intros E1 E2 (S1 & S2 & A1 & A2 & A3 & A4) (S3 & S4 & B1 & B2 & B3 & B4) FT. cbn [fst snd] in *. assert (RD : readable [(n, v ++ 38 :: m ++ 61 :: w)]) by (constructor; [split; assumption|constructor]).
  assert (NE0 : [(n, v ++ 38 :: m ++ 61 :: w)] <> []) by discriminate. rewrite (form_decoded bad _ t NE0 RD FT). eexists. split; [reflexivity|]. cbn [map between fst snd].
  replace (n ++ 61 :: v ++ 38 :: m ++ 61 :: w) with ((n ++ 61 :: v) ++ 38 :: m ++ 61 :: w) by (rewrite <- app_assoc; reflexivity).
  rewrite split_cons by (rewrite in_app_iff; cbn; intuition discriminate). rewrite split_plain by (rewrite in_app_iff; cbn; intuition discriminate). unfold form_fold. cbn [fold_left]. rewrite !pair_plain by assumption. cbn [option_map]. rewrite !strip_id by assumption.
  rewrite !dict_get_set. split; [|rewrite bytes_eqb_refl; reflexivity]. intros NE. destruct (bytes_eqb n m) eqn:Q; [apply bytes_eqb_eq in Q; contradiction|]. rewrite bytes_eqb_refl. reflexivity.
Qed.

(** ** int *)
Lemma digit_spec c : digit c = true <-> 48 <= c <= 57.
Proof. unfold digit. lia. Qed.
Lemma digits_char c acc prev r : 48 <= c <= 57 -> digits acc prev (c :: r) = digits (10 * acc + (Z.of_N c - 48)) true r.
Proof. intros C. cbn [digits]. replace (digit c) with true by (symmetry; apply digit_spec; exact C). f_equal. lia. Qed.
Lemma numeral_digits s z : numeral s z -> forall r, digits 0 false (s ++ r) = digits z true r.
Proof.
  induction 1 as [c C|s z c N IH C|s z c N IH C]; intros r.
  - cbn [app]. rewrite digits_char by exact C. reflexivity.
  - rewrite <- app_assoc, IH. cbn [app]. apply digits_char, C.
  - rewrite <- app_assoc, IH. cbn [app]. cbn [digits]. change (digit 95) with false. change (95 =? 95) with true. cbv iota. cbn [andb]. apply (digits_char c z false r C).
Qed.
Lemma digits_numeral r : forall s z, numeral s z -> forall x, digits z true r = Some x -> numeral (s ++ r) x.
Proof.
  assert (G : forall n r, (length r <= n)%nat -> forall s z, numeral s z -> forall x, digits z true r = Some x -> numeral (s ++ r) x); [|exact (G _ r (le_n _))].
  clear r. induction n as [|n IH]; intros [|c r] L s z NU x D; cbn [length] in L; try lia.
  - cbn in D. injection D as <-. rewrite app_nil_r. exact NU.
  - cbn in D. injection D as <-. rewrite app_nil_r. exact NU.
  - destruct (digit c) eqn:C; [apply digit_spec in C; rewrite digits_char in D by exact C; replace (s ++ c :: r) with ((s ++ [c]) ++ r) by (rewrite <- app_assoc; reflexivity); apply (IH r ltac:(lia) _ _ (nu_more s z c NU C) x D)|].
    cbn [digits] in D. rewrite C in D. destruct (N.eqb_spec c 95) as [->|]; cbn [andb] in D; [|discriminate]. destruct r as [|d r]; [discriminate|]. cbn [length] in L.
    destruct (digit d) eqn:DD; [|cbn [digits] in D; rewrite DD in D; rewrite andb_false_r in D; discriminate]. apply digit_spec in DD. rewrite digits_char in D by exact DD.
    replace (s ++ 95 :: d :: r) with ((s ++ [95; d]) ++ r) by (rewrite <- app_assoc; reflexivity). apply (IH r ltac:(lia) _ _ (nu_under s z d NU DD) x D).
Qed.
Lemma digits_spec s z : digits 0 false s = Some z <-> numeral s z.
Proof.
  split.
  - destruct s as [|c r]; [discriminate|]. intros D. destruct (digit c) eqn:C; [|cbn [digits] in D; rewrite C, andb_false_r in D; discriminate].
    apply digit_spec in C. rewrite digits_char in D by exact C. change (10 * 0 + (Z.of_N c - 48))%Z with (Z.of_N c - 48)%Z in D. exact (digits_numeral r [c] _ (nu_digit c C) z D).
  - intros N. rewrite <- (app_nil_r s), (numeral_digits s z N). reflexivity.
Qed.
Lemma numeral_first s z : numeral s z -> exists c r, s = c :: r /\ 48 <= c <= 57.
Proof. induction 1 as [c C|s z c N (x & r & -> & X) C|s z c N (x & r & -> & X) C]; cbn; eauto. Qed.
Lemma numeral_last s z : numeral s z -> exists c r, s = r ++ [c] /\ 48 <= c <= 57.
Proof.
  induction 1 as [c C|s z c N _ C|s z c N _ C]; [exists c, []; auto|eauto|]. exists c, (s ++ [95]). split; [rewrite <- app_assoc; reflexivity|exact C].
Qed.
Lemma int_text_stripped s z : int_text s z -> stripped s.
Proof.
  intros T. assert (D : forall c, 48 <= c <= 57 -> space c = false) by (intros c; unfold space; lia).
  assert (X : exists c r, s = r ++ [c] /\ 48 <= c <= 57).
  { destruct T as [s z NU|s z NU|s z NU]; destruct (numeral_last _ _ NU) as (c & r & -> & C); [exists c, r; auto|exists c, (43 :: r); auto|exists c, (45 :: r); auto]. }
  destruct X as (l & q & E & L). intros c r. split.
  - destruct T as [s z NU|s z NU|s z NU]; [destruct (numeral_first _ _ NU) as (c0 & r0 & -> & C)| |]; intros Q; injection Q as <- <-; [apply D, C|reflexivity|reflexivity].
  - intros Q. rewrite E in Q. apply app_inj_tail in Q as (_ & <-). apply D, L.
Qed.
Definition count_digits (s : pystr) : nat := length (filter digit s).
Definition sgn (s : pystr) : bool * pystr := match s with 45 :: r => (true, r) | 43 :: r => (false, r) | _ => (false, s) end.
Theorem int_spec lim t z : py_int lim t = Some z <-> (exists w1 s w2, t = w1 ++ s ++ w2 /\ whitespace w1 /\ whitespace w2 /\ int_text s z) /\ (lim = 0 \/ (count_digits t <= lim))%nat.
Proof.
  assert (CD : forall w1 s w2, whitespace w1 -> whitespace w2 -> count_digits (w1 ++ s ++ w2) = count_digits s).
  { assert (W : forall w, whitespace w -> filter digit w = []). { induction 1 as [|c w C W IH]; [reflexivity|]. cbn [filter]. replace (digit c) with false by (unfold space in C; unfold digit; lia). exact IH. }
    intros w1 s w2 W1 W2. unfold count_digits. rewrite !filter_app, (W w1 W1), (W w2 W2), app_nil_r. reflexivity. }
  assert (SGN : forall s, (let '(neg, d) := sgn s in option_map (fun z => if neg : bool then (- z)%Z else z) (digits 0 false d)) = Some z <-> int_text s z).
  { intros s. destruct s as [|c r]; [split; [discriminate|inversion 1; subst; exfalso; match goal with H : numeral [] _ |- _ => destruct (numeral_first _ _ H) as (? & ? & ? & _); discriminate end]|].
    destruct (N.eq_dec c 45) as [->|N1]; [|destruct (N.eq_dec c 43) as [->|N2]].
    - cbn [sgn]. split.
      + destruct (digits 0 false r) as [x|] eqn:D; [|discriminate]. cbn. intros Q. injection Q as <-. apply it_minus. apply digits_spec, D.
      + inversion 1 as [? ? NU|? ? NU|? ? NU]; subst; [destruct (numeral_first _ _ NU) as (? & ? & Q & ?); injection Q as <- _; lia|]. apply digits_spec in NU. rewrite NU. reflexivity.
    - cbn [sgn]. split.
      + destruct (digits 0 false r) as [x|] eqn:D; [|discriminate]. cbn. intros Q. injection Q as <-. apply it_plus. apply digits_spec, D.
      + inversion 1 as [? ? NU|? ? NU|? ? NU]; subst; [destruct (numeral_first _ _ NU) as (? & ? & Q & ?); injection Q as <- _; lia|]. apply digits_spec in NU. rewrite NU. reflexivity.
    - assert (M : sgn (c :: r) = (false, c :: r)).
      { destruct c as [|p]; [reflexivity|]. do 6 (destruct p as [p|p|]; try reflexivity); contradiction. }
      rewrite M. split.
      + destruct (digits 0 false (c :: r)) as [x|] eqn:D; [|discriminate]. cbn [option_map]. intros Q. injection Q as <-. apply it_plain. apply digits_spec, D.
      + inversion 1 as [? ? NU|? ? NU|? ? NU]; subst; try contradiction. apply digits_spec in NU. rewrite NU. reflexivity. }
  assert (CS : forall s, count_digits (snd (sgn s)) = count_digits s).
  { intros s. destruct s as [|c r]; [reflexivity|]. destruct c as [|p]; [reflexivity|]. do 6 (destruct p as [p|p|]; try reflexivity). }
  unfold py_int. fold (sgn (strip t)). specialize (SGN (strip t)). specialize (CS (strip t)). destruct (strip_spec t) as (w1 & w2 & E & W1 & W2 & ST). set (u := strip t) in *.
  destruct (sgn u) as (neg, d). cbn [snd] in CS. fold (count_digits d). rewrite CS. clear CS.
  clearbody u. rewrite E, CD by assumption. clear t E. split.
  - destruct ((0 <? lim)%nat && (lim <? count_digits u)%nat) eqn:LIM; [discriminate|]. intros Q. apply SGN in Q. split; [exists w1, u, w2; auto|]. apply andb_false_iff in LIM as [LIM|LIM]; [left|right]; lia.
  - intros ((v1 & s & v2 & EQ & V1 & V2 & T) & LIM). assert (US : u = s).
    { rewrite <- (strip_around w1 u w2 W1 W2 ST), EQ. apply strip_around; [exact V1|exact V2|exact (int_text_stripped _ _ T)]. }
    subst s. replace ((0 <? lim)%nat && (lim <? count_digits u)%nat) with false by (symmetry; apply andb_false_iff; destruct LIM as [->|LIM]; [left; reflexivity|right; apply Nat.ltb_ge; exact LIM]).
    apply SGN, T.
Qed.

(** ** Looking a name up *)
(** [lo] never yields an ASCII capital letter. *)
Definition lower_law (lo : N -> pystr) : Prop := forall c x, 128 <= c -> In x (lo c) -> ~ (65 <= x <= 90).
Definition names (lo : N -> pystr) (name n : pystr) : Prop := convert lo n = name.
Lemma get_first lo name a n v b : Forall (fun f => ~ names lo name (fst f)) a -> names lo name n -> get lo name (a ++ (n, v) :: b) = v.
Proof.
  intros F M. induction F as [|(x, y) a X F IH]; cbn [app get]; [rewrite M, bytes_eqb_refl; reflexivity|]. destruct (bytes_eqb (convert lo x) name) eqn:E; [apply bytes_eqb_eq in E; contradiction|exact IH].
Qed.
Lemma get_none lo name l : Forall (fun f => ~ names lo name (fst f)) l -> get lo name l = None.
Proof.
  induction 1 as [|(x, y) a X F IH]; [reflexivity|]. cbn [get]. destruct (bytes_eqb (convert lo x) name) eqn:E; [apply bytes_eqb_eq in E; contradiction|exact IH].
Qed.
Lemma get_cases lo name l : (exists a n v b, l = a ++ (n, v) :: b /\ Forall (fun f => ~ names lo name (fst f)) a /\ names lo name n /\ get lo name l = v) \/
  (Forall (fun f => ~ names lo name (fst f)) l /\ get lo name l = None).
Proof.
  induction l as [|(n, v) l [(a & n' & v' & b & -> & F & M & G)|(F & G)]].
  - right. auto.
  - destruct (bytes_eqb (convert lo n) name) eqn:E.
    + apply bytes_eqb_eq in E. left. exists [], n, v, (a ++ (n', v') :: b). split; [reflexivity|]. split; [constructor|]. split; [exact E|]. cbn [get]. rewrite E, bytes_eqb_refl. reflexivity.
    + left. exists ((n, v) :: a), n', v', b. split; [reflexivity|]. split; [constructor; [intros X; unfold names in X; cbn [fst] in X; rewrite X, bytes_eqb_refl in E; discriminate|exact F]|]. split; [exact M|]. cbn [get]. rewrite E. exact G.
  - destruct (bytes_eqb (convert lo n) name) eqn:E.
    + apply bytes_eqb_eq in E. left. exists [], n, v, l. split; [reflexivity|]. split; [constructor|]. split; [exact E|]. cbn [get]. rewrite E, bytes_eqb_refl. reflexivity.
    + right. split; [constructor; [intros X; unfold names in X; cbn [fst] in X; rewrite X, bytes_eqb_refl in E; discriminate|exact F]|]. cbn [get]. rewrite E. exact G.
Qed.
Lemma convert_no_capital lo n : lower_law lo -> Forall (fun x => ~ (65 <= x <= 90)) (convert lo n).
Proof.
  intros L. unfold convert, replace, lower. apply Forall_map. apply Forall_forall. intros x I. apply in_flat_map in I as (c & _ & I).
  assert (X : ~ (65 <= x <= 90)).
  { destruct (N.ltb_spec c 128) as [H|H]; [|exact (L c x H I)]. destruct I as [<-|[]]. unfold lower_ascii. destruct ((65 <=? c) && (c <=? 90)) eqn:E; lia. }
  destruct (x =? 45); lia.
Qed.
Lemma capital_never lo name c : lower_law lo -> In c name -> 65 <= c <= 90 -> forall n, ~ names lo name n.
Proof.
  intros L I C n E. unfold names in E. pose proof (convert_no_capital lo n L) as F. rewrite E in F. rewrite Forall_forall in F. exact (F c I C).
Qed.
Theorem get_capital lo name c l : lower_law lo -> In c name -> 65 <= c <= 90 -> get lo name l = None.
Proof. intros L I C. apply get_none. apply Forall_forall. intros f _. exact (capital_never lo name c L I C (fst f)). Qed.
Theorem get_path_capital lo lim flt name c ps : lower_law lo -> In c name -> 65 <= c <= 90 -> get_path lo lim flt name ps = inr None.
Proof.
  intros L I C. induction ps as [|(p, v) ps IH]; [reflexivity|]. cbn [get_path]. destruct (bytes_eqb name (convert lo (pm_name p))) eqn:E; [|exact IH]. apply bytes_eqb_eq in E. symmetry in E. destruct (capital_never lo name c L I C _ E).
Qed.
(** A name of lower-case ASCII letters, digits and underscores finds itself. *)
Definition plain_name (n : pystr) : Prop := Forall (fun c => 97 <= c <= 122 \/ 48 <= c <= 57 \/ c = 95) n.
Lemma plain_names lo n : plain_name n -> names lo n n.
Proof.
  unfold names, convert, replace, lower. induction 1 as [|c n C F IH]; [reflexivity|]. cbn [flat_map]. replace (c <? 128) with true by lia. cbn [app map]. rewrite IH. f_equal. unfold lower_ascii. replace ((65 <=? c) && (c <=? 90)) with false by lia. replace (c =? 45) with false by lia. reflexivity.
Qed.
(** ** Path parameters *)
Theorem path_value lo lim flt name a p v b : Forall (fun q => ~ names lo name (pm_name (fst q))) a -> names lo name (pm_name p) ->
  get_path lo lim flt name (a ++ (p, v) :: b) =
  match pm_type p with
  | PInt => match py_int lim v with Some z => inr (Some (VInt z)) | None => inl Raise404 end
  | PFloat => match flt v with Some f => inr (Some (VFloat f)) | None => inl Raise404 end
  | PBool => inr (Some (VBool (match v with [] => false | _ => true end)))
  | PStr => inr (Some (VStr v))
  end.
Proof.
  intros F M. induction F as [|(q, w) a X F IH]; cbn [app get_path].
  - rewrite M, bytes_eqb_refl. reflexivity.
  - destruct (bytes_eqb name (convert lo (pm_name q))) eqn:E; [apply bytes_eqb_eq in E; destruct X; symmetry; exact E|exact IH].
Qed.

(** ** Cookies: what a browser does (RFC 6265, 5.2 and 5.4) *)
Definition blank (c : N) : Prop := c = 32 \/ c = 9.
Definition trimmed (s t : pystr) : Prop := exists a b, s = a ++ t ++ b /\ Forall blank a /\ Forall blank b /\ (forall c r, (t = c :: r -> ~ blank c) /\ (t = r ++ [c] -> ~ blank c)).
(** The name and value it keeps: the text up to the first ';', cut at its first '='. *)
Definition keeps (text n v : pystr) : Prop :=
  exists n0 v0 rest, text = n0 ++ 61 :: v0 ++ rest /\ ~ In 59 (n0 ++ v0) /\ ~ In 61 n0 /\ (rest = [] \/ exists r, rest = 59 :: r) /\ trimmed n0 n /\ trimmed v0 v.
(** The attributes: the texts behind each further ';', trimmed. *)
Definition attribute (text a : pystr) : Prop := exists p a0 rest, text = p ++ 59 :: a0 ++ rest /\ ~ In 59 a0 /\ (rest = [] \/ exists r, rest = 59 :: r) /\ trimmed a0 a.
(** The header it sends for the cookies it has. *)
Fixpoint sent (jar : list (pystr * pystr)) : pystr :=
  match jar with [] => [] | [(n, v)] => n ++ 61 :: v | (n, v) :: t => n ++ 61 :: v ++ bs "; " ++ sent t end.
Definition name_ok (n : pystr) : Prop := ~ In 59 n /\ ~ In 61 n /\ stripped n.
Definition value_ok (v : pystr) : Prop := ~ In 59 v /\ stripped v.
Lemma blank_space c : blank c -> space c = true.
Proof. intros [->| ->]; reflexivity. Qed.
Lemma stripped_trimmed s : stripped s -> trimmed s s.
Proof.
  intros S. exists [], []. rewrite app_nil_r. split; [reflexivity|]. split; [constructor|]. split; [constructor|]. intros c r. split; intros E B; apply blank_space in B; [rewrite (proj1 (S c r) E) in B|rewrite (proj2 (S c r) E) in B]; discriminate.
Qed.
Theorem set_cookie_kept text name value o : name_ok name -> value_ok value -> keeps (set_cookie text name value o) name value.
Proof.
  intros (N1 & N2 & N3) (V1 & V2). unfold set_cookie. eexists name, value, _. split; [reflexivity|]. split; [rewrite in_app_iff; tauto|]. split; [exact N2|]. split; [|split; apply stripped_trimmed; assumption].
  destruct o as [ma sec ho dom pa ss]. cbn [co_max_age co_secure co_http_only co_domain co_path co_samesite]. unfold gap. change (bs "; ") with [59; 32].
  destruct ma as [z|]; [destruct (z =? 0)%Z|]; cbn [app]; try (right; eexists; reflexivity); (destruct sec; cbn [app]; [right; eexists; reflexivity|]); (destruct ho; cbn [app]; [right; eexists; reflexivity|]);
    (destruct dom as [[|d0 d1]|]; cbn [app]; try (right; eexists; reflexivity)); (destruct pa as [[|p0 p1]|]; cbn [app]; try (right; eexists; reflexivity)); (destruct ss; cbn [app]; [right; eexists; reflexivity|left; reflexivity]).
Qed.
Lemma sent_split n v t : t <> [] -> ~ In 59 n -> ~ In 59 v -> split 59 (sent ((n, v) :: t)) = (n ++ 61 :: v) :: split 59 (32 :: sent t).
Proof.
  intros NE A B. destruct t as [|p t]; [contradiction|]. change (sent ((n, v) :: p :: t)) with (n ++ 61 :: v ++ bs "; " ++ sent (p :: t)). change (bs "; ") with [59; 32].
  replace (n ++ 61 :: v ++ [59; 32] ++ sent (p :: t)) with ((n ++ 61 :: v) ++ 59 :: 32 :: sent (p :: t)) by (rewrite <- app_assoc; reflexivity). apply split_cons. rewrite in_app_iff. cbn. intuition discriminate.
Qed.
(** What is read of a value: the text before its first '='. *)
Definition before_equals (v w : pystr) : Prop := ~ In 61 w /\ (v = w \/ exists r, v = w ++ 61 :: r).
Lemma pair_before n v w : ~ In 61 n -> before_equals v w -> pair_of (n ++ 61 :: v) = (n, Some w).
Proof. intros A (B & [->|(r & ->)]); [apply pair_plain; assumption|apply pair_cut; assumption]. Qed.
Lemma split_space s : split 59 (32 :: s) = match split 59 s with p :: ps => (32 :: p) :: ps | [] => [[32]] end.
Proof. reflexivity. Qed.
Lemma strip_lead s : strip (32 :: s) = strip s.
Proof. reflexivity. Qed.
Lemma pair_lead s : pair_of (32 :: s) = (32 :: fst (pair_of s), snd (pair_of s)).
Proof. unfold pair_of. cbn [split]. change (32 =? 61) with false. cbv iota. destruct (split 61 s) as [|n [|v t]] eqn:E; [destruct s; cbn in E; [discriminate|destruct (_ =? _); [discriminate|destruct (split 61 s); discriminate]]|reflexivity|reflexivity]. Qed.
Definition read_items (items : list pystr) := map (fun item => let '(n, v) := pair_of item in (strip n, option_map strip v)) items.
Lemma read_lead s : read_items (split 59 (32 :: s)) = read_items (split 59 s).
Proof.
  rewrite split_space. destruct (split 59 s) as [|p ps] eqn:E; [destruct s; cbn in E; [discriminate|destruct (_ =? _); [discriminate|destruct (split 59 s); discriminate]]|].
  unfold read_items. cbn [map]. rewrite pair_lead. destruct (pair_of p) as (n, v). cbn [fst snd]. rewrite strip_lead. reflexivity.
Qed.
Theorem cookies_read jar : jar <> [] -> Forall (fun c => name_ok (fst c) /\ value_ok (snd c)) jar ->
  exists ws, Forall2 (fun c w => before_equals (snd c) w) jar ws /\ parse_cookie [sent jar] = map (fun x => (fst (fst x), Some (strip (snd x)))) (combine jar ws).
Proof.
  intros NE F. unfold parse_cookie. cbn [flat_map]. rewrite app_nil_r. fold (read_items (split 59 (sent jar))).
  assert (BE : forall v : pystr, exists w, before_equals v w).
  { induction v as [|c v (w & A & B)]; [exists []; split; [auto|left; reflexivity]|]. destruct (N.eq_dec c 61) as [->|NE']; [exists []; split; [auto|right; exists v; reflexivity]|].
    exists (c :: w). split; [cbn; intuition|]. destruct B as [->|(r & ->)]; [left; reflexivity|right; exists r; reflexivity]. }
  induction F as [|(n, v) jar ((A1 & A2 & A3) & B1 & B2) F IH]; [contradiction|]. cbn [fst snd] in *. destruct (BE v) as (w & BW). destruct jar as [|p t].
  - exists [w]. split; [constructor; [exact BW|constructor]|]. cbn [sent combine map fst snd]. rewrite split_plain by (rewrite in_app_iff; cbn; intuition discriminate). unfold read_items. cbn [map]. rewrite (pair_before n v w A2 BW). cbn [option_map]. rewrite (strip_id n A3). reflexivity.
  - destruct (IH ltac:(discriminate)) as (ws & FW & E). exists (w :: ws). split; [constructor; assumption|]. rewrite sent_split by (try discriminate; assumption). unfold read_items. cbn [map combine fst snd]. fold (read_items (split 59 (32 :: sent (p :: t)))).
    rewrite read_lead, E, (pair_before n v w A2 BW). cbn [option_map]. rewrite (strip_id n A3). reflexivity.
Qed.
Theorem cookies_ok jar : jar <> [] -> Forall (fun c => name_ok (fst c) /\ value_ok (snd c) /\ ~ In 61 (snd c)) jar -> parse_cookie [sent jar] = map (fun c => (fst c, Some (snd c))) jar.
Proof.
  intros NE F. destruct (cookies_read jar NE) as (ws & FW & E); [eapply Forall_impl; [|exact F]; cbn; tauto|]. rewrite E. clear E NE.
  induction FW as [|(n, v) w jar ws (B1 & B2) FW IH]; [reflexivity|]. inversion F as [|? ? (_ & (_ & S) & NI) F']; subst. cbn [combine map fst snd] in *. rewrite IH by exact F'. f_equal.
  destruct B2 as [->|(r & ->)]; [rewrite strip_id by exact S; reflexivity|]. exfalso. apply NI. apply in_or_app. right. left. reflexivity.
Qed.
Lemma parse_cookie_each hs : parse_cookie hs = flat_map (fun h => parse_cookie [h]) hs.
Proof. unfold parse_cookie. induction hs as [|h hs IH]; [reflexivity|]. cbn [flat_map]. rewrite app_nil_r, IH. reflexivity. Qed.
Theorem cookies_all jars : Forall (fun jar => jar <> [] /\ Forall (fun c => name_ok (fst c) /\ value_ok (snd c) /\ ~ In 61 (snd c)) jar) jars ->
  parse_cookie (map sent jars) = map (fun c => (fst c, Some (snd c))) (concat jars).
Proof.
  intros F. rewrite parse_cookie_each. induction F as [|j js (NE & F1) F IH]; [reflexivity|]. cbn [map flat_map concat]. rewrite map_app, IH, cookies_ok by assumption. reflexivity.
Qed.
(** The attributes asked for, and no others. *)
Definition asked (text : Z -> pystr) (o : cookie_opts) : list pystr :=
  match co_max_age o with Some z => [bs "Max-Age=" ++ text z] | None => [] end ++ (if co_secure o then [bs "Secure"] else []) ++ (if co_http_only o then [bs "HttpOnly"] else []) ++
  match co_domain o with Some d => [bs "Domain=" ++ d] | None => [] end ++ match co_path o with Some p => [bs "Path=" ++ p] | None => [] end ++
  match co_samesite o with Some Strict => [bs "SameSite=Strict"] | Some Lax => [bs "SameSite=Lax"] | Some SNone => [bs "SameSite=None"] | None => [] end.
(** The text of a Set-Cookie header with these attributes. *)
Definition cookie_line (name value : pystr) (attrs : list pystr) : pystr := name ++ 61 :: value ++ concat (map (fun a => bs "; " ++ a) attrs).
Theorem set_cookie_text text name value o : co_max_age o <> Some 0%Z -> co_domain o <> Some [] -> co_path o <> Some [] ->
  set_cookie text name value o = cookie_line name value (asked text o).
Proof.
  intros A B C. unfold set_cookie, cookie_line, asked. f_equal. f_equal. f_equal. destruct o as [ma sec ho dom pa ss]. cbn [co_max_age co_secure co_http_only co_domain co_path co_samesite] in *. unfold gap.
  rewrite !map_app, !concat_app.
  assert (E1 : match ma with Some z => if (z =? 0)%Z then [] else bs "; " ++ bs "Max-Age=" ++ text z | None => [] end = concat (map (fun a => bs "; " ++ a) match ma with Some z => [bs "Max-Age=" ++ text z] | None => [] end)).
  { destruct ma as [z|]; [|reflexivity]. destruct (Z.eqb_spec z 0) as [->|]; [contradiction|]. cbn [map concat]. rewrite app_nil_r. reflexivity. }
  assert (E4 : match dom with Some ((_ :: _) as d) => bs "; " ++ bs "Domain=" ++ d | _ => [] end = concat (map (fun a => bs "; " ++ a) match dom with Some d => [bs "Domain=" ++ d] | None => [] end)).
  { destruct dom as [[|d0 d1]|]; [contradiction| |reflexivity]. cbn [map concat]. rewrite app_nil_r. reflexivity. }
  assert (E5 : match pa with Some ((_ :: _) as p) => bs "; " ++ bs "Path=" ++ p | _ => [] end = concat (map (fun a => bs "; " ++ a) match pa with Some p => [bs "Path=" ++ p] | None => [] end)).
  { destruct pa as [[|d0 d1]|]; [contradiction| |reflexivity]. cbn [map concat]. rewrite app_nil_r. reflexivity. }
  rewrite E1, E4, E5. f_equal. f_equal; [destruct sec; reflexivity|]. f_equal; [destruct ho; reflexivity|]. f_equal. f_equal. destruct ss as [[]|]; reflexivity.
Qed.
Theorem set_cookie_zero text name value o : co_max_age o = Some 0%Z ->
  set_cookie text name value o = set_cookie text name value (mkCo None (co_secure o) (co_http_only o) (co_domain o) (co_path o) (co_samesite o)).
Proof. intros E. unfold set_cookie. rewrite E. reflexivity. Qed.

(** ** Header fields as Python strings *)
Theorem headers_ok hs : Forall (fun h => encodable (fst h) /\ encodable (snd h)) hs -> header_entry (map (fun h => (utf8 (fst h), utf8 (snd h))) hs) = Ok hs.
Proof. induction 1 as [|(n, v) hs (A & B) F IH]; [reflexivity|]. cbn [map header_entry fst snd] in *. rewrite !undec_utf8 by assumption. rewrite IH. reflexivity. Qed.
(** The encoding of no string. *)
Definition not_utf8 (b : list N) : Prop := ~ exists s, encodable s /\ utf8 s = b.
Lemma not_utf8_undec b : not_utf8 b -> undec b = None.
Proof. intros H. destruct (undec b) as [s|] eqn:E; [|reflexivity]. exfalso. apply H. exists s. exact (undec_sound _ b s (le_n _) E). Qed.
Theorem headers_crash a n v b : not_utf8 n \/ not_utf8 v -> header_entry (a ++ (n, v) :: b) = UB NullDeref.
Proof.
  intros G. assert (H : undec n = None \/ undec v = None) by (destruct G as [G|G]; apply not_utf8_undec in G; auto). clear G.
  induction a as [|(x, y) a IH]; cbn [app header_entry].
  - destruct H as [->| ->]; [reflexivity|]. destruct (undec n); reflexivity.
  - destruct (undec x); [|reflexivity]. destruct (undec y); [|reflexivity]. rewrite IH. reflexivity.
Qed.

(** ** Arguments *)
(** The value of the first field of this name. *)
Definition first_field (lo : N -> pystr) (name : pystr) (l : list (pystr * option pystr)) (v : pystr) : Prop :=
  exists a n b, l = a ++ (n, Some v) :: b /\ Forall (fun f => ~ names lo name (fst f)) a /\ names lo name n.
Lemma get_field lo name l v : get lo name l = Some v <-> first_field lo name l v.
Proof.
  split.
  - intros G. destruct (get_cases lo name l) as [(a & n & w & b & E & F & M & G')|(F & G')]; [|congruence]. exists a, n, b. split; [congruence|auto].
  - intros (a & n & b & -> & F & M). apply get_first; assumption.
Qed.
(** The parameter of this name and what its text stands for; [None]: it stands for nothing. *)
Definition stands (lim : nat) (flt : pystr -> option N) (ty : ptype) (t : pystr) (r : option pyvalue) : Prop :=
  match ty with
  | PInt => match r with Some v => exists z, v = VInt z /\ py_int lim t = Some z | None => py_int lim t = None end
  | PFloat => match r with Some v => exists f, v = VFloat f /\ flt t = Some f | None => flt t = None end
  | PBool => r = Some (VBool (match t with [] => false | _ => true end))
  | PStr => r = Some (VStr t)
  end.
Definition path_field (lo : N -> pystr) (lim : nat) (flt : pystr -> option N) (name : pystr) (ps : list (param * pystr)) (r : option pyvalue) : Prop :=
  exists a p t b, ps = a ++ (p, t) :: b /\ Forall (fun q => ~ names lo name (pm_name (fst q))) a /\ names lo name (pm_name p) /\ stands lim flt (pm_type p) t r.
Lemma get_path_cases lo lim flt name ps :
  match get_path lo lim flt name ps with
  | inr (Some v) => path_field lo lim flt name ps (Some v)
  | inr None => Forall (fun q => ~ names lo name (pm_name (fst q))) ps
  | inl e => e = Raise404 /\ path_field lo lim flt name ps None
  end.
Proof.
  induction ps as [|(p, t) ps IH]; [constructor|]. cbn [get_path]. destruct (bytes_eqb name (convert lo (pm_name p))) eqn:E.
  - apply bytes_eqb_eq in E. symmetry in E.
    assert (H : forall r, stands lim flt (pm_type p) t r -> path_field lo lim flt name ((p, t) :: ps) r) by (intros r S; exists [], p, t, ps; split; [reflexivity|]; split; [constructor|]; split; [exact E|exact S]).
    destruct (pm_type p).
    + destruct (py_int lim t) eqn:Q; [|split; [reflexivity|]]; apply H; cbn; eauto.
    + destruct (flt t) eqn:Q; [|split; [reflexivity|]]; apply H; cbn; eauto.
    + apply H. reflexivity.
    + apply H. reflexivity.
  - assert (NN : ~ names lo name (pm_name p)) by (intros X; unfold names in X; rewrite X, bytes_eqb_refl in E; discriminate).
    assert (H : forall r, path_field lo lim flt name ps r -> path_field lo lim flt name ((p, t) :: ps) r).
    { intros r (a & q & u & b & -> & F & M & S). exists ((p, t) :: a), q, u, b. split; [reflexivity|]. split; [constructor; [exact NN|exact F]|]. auto. }
    destruct (get_path lo lim flt name ps) as [e|[v|]]; [destruct IH; auto|auto|constructor; [exact NN|exact IH]].
Qed.
Lemma path_field_fun lo lim flt name ps r r' : path_field lo lim flt name ps r -> path_field lo lim flt name ps r' -> r = r'.
Proof.
  intros (a & p & t & b & -> & F & M & S) (a' & p' & t' & b' & E & F' & M' & S').
  assert (Q : (p, t) = (p', t')).
  { revert a' E F'. induction a as [|x a IH]; intros [|y a'] E F'; cbn in E.
    - injection E as -> -> _. reflexivity.
    - injection E as <- _. inversion F' as [|? ? X]; subst. contradiction.
    - injection E as -> _. inversion F as [|? ? X]; subst. contradiction.
    - injection E as -> E. inversion F; inversion F'; subst. eauto. }
  injection Q as <- <-. unfold stands in *. destruct (pm_type p); [| |congruence|congruence]; destruct r, r'; try reflexivity; repeat match goal with H : exists _, _ |- _ => destruct H as (? & ? & ?) end; congruence.
Qed.
Lemma path_field_none lo lim flt name ps r : Forall (fun q => ~ names lo name (pm_name (fst q))) ps -> ~ path_field lo lim flt name ps r.
Proof. intros F (a & p & t & b & -> & _ & M & _). apply Forall_app in F as (_ & F). inversion F as [|? ? X]; subst. exact (X M). Qed.
(** The entries of the dictionary: those of the request, and "cookie". *)
Definition is_entry (rq : prequest) (k : pystr) : Prop := k = bs "cookie" \/ In k (rq_keys rq).
Section PASSED.
  Context (bad : list N -> pystr) (lo : N -> pystr) (lim : nat) (flt : pystr -> option N) (rq : prequest).
  (** Where the names of arguments are looked up. *)
  Definition in_path (i : pystr) (v : pyvalue) : Prop := In (bs "path_params") (rq_keys rq) /\ path_field lo lim flt i (rq_path rq) (Some v).
  Definition no_number (i : pystr) : Prop := In (bs "path_params") (rq_keys rq) /\ path_field lo lim flt i (rq_path rq) None.
  Definition in_query (i : pystr) (v : pystr) : Prop := In (bs "query") (rq_keys rq) /\ exists q, rq_query rq = Some q /\ first_field lo i (parse_query bad q) v.
  Definition in_cookie (i : pystr) (v : pystr) : Prop := In (bs "cookie") (rq_keys rq) /\ first_field lo i (parse_cookie (rq_cookie rq)) v.
  Definition in_header (i : pystr) (v : pystr) : Prop := In (bs "header") (rq_keys rq) /\ first_field lo i (rq_header rq) v.
  Definition absent {A} (P : A -> Prop) : Prop := forall v, ~ P v.
  (** What an argument is given: what its annotation says, or else the request, an entry of it, or the first of path, query,
      cookie and header that has it. *)
  Inductive passed : pystr * ann -> arg -> Prop :=
  | pa_request i : i = bs "request" -> passed (i, NoAnn) AWhole
  | pa_entry i : i <> bs "request" -> is_entry rq i -> passed (i, NoAnn) (AEntry i)
  | pa_path i v : i <> bs "request" -> ~ is_entry rq i -> in_path i v -> passed (i, NoAnn) (AVal v)
  | pa_query i v : i <> bs "request" -> ~ is_entry rq i -> absent (in_path i) -> ~ no_number i -> in_query i v -> passed (i, NoAnn) (AText v)
  | pa_cookie i v : i <> bs "request" -> ~ is_entry rq i -> absent (in_path i) -> ~ no_number i -> absent (in_query i) -> in_cookie i v -> passed (i, NoAnn) (AText v)
  | pa_header i v : i <> bs "request" -> ~ is_entry rq i -> absent (in_path i) -> ~ no_number i -> absent (in_query i) -> absent (in_cookie i) -> in_header i v -> passed (i, NoAnn) (AText v)
  | pa_an_request i : i = bs "request" -> passed (i, AnRequest) AWhole
  | pa_an_entry i : i <> bs "request" -> is_entry rq i -> passed (i, AnRequest) (AEntry i)
  | pa_an_nothing i : i <> bs "request" -> ~ is_entry rq i -> passed (i, AnRequest) ANone
  | pa_an_body i : In (bs "body") (rq_keys rq) -> passed (i, AnBody) (AEntry (bs "body"))
  | pa_an_nobody i : ~ In (bs "body") (rq_keys rq) -> passed (i, AnBody) ANone
  | pa_an_header i v : in_header i v -> passed (i, AnHeader) (AText v)
  | pa_an_noheader i : absent (in_header i) -> passed (i, AnHeader) ANone
  | pa_an_cookie i v : in_cookie i v -> passed (i, AnCookie) (AText v)
  | pa_an_nocookie i : absent (in_cookie i) -> passed (i, AnCookie) ANone
  | pa_an_query i v : in_query i v -> passed (i, AnQuery) (AText v)
  | pa_an_noquery i : absent (in_query i) -> passed (i, AnQuery) ANone
  | pa_an_path i v : in_path i v -> passed (i, AnPath) (AVal v)
  | pa_an_nopath i : absent (in_path i) -> ~ no_number i -> passed (i, AnPath) ANone.
  (** Why no value can be given. *)
  Inductive refused : pystr * ann -> raised -> Prop :=
  | re_number i : i <> bs "request" -> ~ is_entry rq i -> no_number i -> refused (i, NoAnn) Raise404
  | re_missing i : i <> bs "request" -> ~ is_entry rq i -> absent (in_path i) -> ~ no_number i -> absent (in_query i) -> absent (in_cookie i) -> absent (in_header i) -> refused (i, NoAnn) RaiseKey
  | re_an_number i : no_number i -> refused (i, AnPath) Raise404.
  (** The entry an annotation reads. *)
  Definition reads (i : pystr) (a : ann) : option pystr :=
    match a with NoAnn | AnRequest => Some i | AnHeader => Some (bs "header") | AnBody => Some (bs "body") | AnCookie => Some (bs "cookie") | AnPath => Some (bs "path_params") | AnQuery => Some (bs "query") end.
  (** No argument without annotation bears the name of an entry another argument reads. *)
  Definition separate (args : list (pystr * ann)) : Prop :=
    NoDup (map fst args) /\ forall i j a, In (i, NoAnn) args -> In (j, a) args -> a <> NoAnn -> reads j a <> Some i.

  Lemma has_in k r : has k r = true <-> In k (rq_keys r).
  Proof. unfold has. rewrite existsb_exists. split; [intros (x & I & E); apply bytes_eqb_eq in E; subst; exact I|intros I; exists k; split; [exact I|apply bytes_eqb_refl]]. Qed.
  Let rq0 := with_cookie rq.
  Lemma has0 k : has k rq0 = true <-> is_entry rq k.
  Proof. rewrite has_in. unfold rq0, with_cookie, is_entry. cbn [rq_keys In]. intuition. Qed.
  Lemma has0_other k : k <> bs "cookie" -> has k rq0 = true <-> In k (rq_keys rq).
  Proof. intros NE. rewrite has0. unfold is_entry. intuition. Qed.
  Lemma text_cases (o : option pystr) (P : pystr -> Prop) : (forall v, o = Some v <-> P v) -> (exists v, o = Some v /\ P v) \/ (o = None /\ absent P).
  Proof. intros H. destruct o as [v|]; [left; exists v; split; [reflexivity|]; apply H; reflexivity|right; split; [reflexivity|]; intros v X; apply H in X; discriminate]. Qed.
  Lemma header_at i v : get lo i (entry (bs "header") rq0 (rq_header rq0) []) = Some v <-> in_header i v.
  Proof.
    unfold entry, in_header. rewrite <- get_field. destruct (has (bs "header") rq0) eqn:H; cbn [rq0 with_cookie rq_header].
    - apply has0_other in H; [tauto|discriminate].
    - split; [discriminate|]. intros (I & _). apply has0_other in I; [congruence|discriminate].
  Qed.
  Lemma query_at i v : get lo i (entry (bs "query") rq0 (query_fields bad (rq_query rq0)) []) = Some v <-> in_query i v.
  Proof.
    unfold entry, in_query. destruct (has (bs "query") rq0) eqn:H; cbn [rq0 with_cookie rq_query].
    - apply has0_other in H; [|discriminate]. destruct (rq_query rq) as [q|]; cbn [query_fields]; split.
      + intros G. split; [exact H|]. exists q. split; [reflexivity|]. apply get_field, G.
      + intros (_ & q' & E & F). injection E as <-. apply get_field, F.
      + discriminate.
      + intros (_ & q' & E & _). discriminate.
    - split; [discriminate|]. intros (I & _). apply has0_other in I; [congruence|discriminate].
  Qed.
  Lemma cookie_at i v : get lo i (entry (bs "cookie") rq0 (parse_cookie (rq_cookie rq0)) []) = Some v <-> in_cookie i v.
  Proof.
    unfold entry, in_cookie. replace (has (bs "cookie") rq0) with true by (symmetry; apply has0; left; reflexivity). cbn [rq0 with_cookie rq_cookie]. rewrite <- get_field.
    destruct (has (bs "cookie") rq) eqn:H; [apply has_in in H; tauto|]. split; [discriminate|]. intros (I & _). apply has_in in I. congruence.
  Qed.
  Lemma path_at i : match get_path lo lim flt i (entry (bs "path_params") rq0 (rq_path rq0) []) with
    | inr (Some v) => in_path i v | inr None => absent (in_path i) /\ ~ no_number i | inl e => e = Raise404 /\ no_number i end.
  Proof.
    unfold entry. destruct (has (bs "path_params") rq0) eqn:H; cbn [rq0 with_cookie rq_path].
    - apply has0_other in H; [|discriminate]. pose proof (get_path_cases lo lim flt i (rq_path rq)) as C. destruct (get_path lo lim flt i (rq_path rq)) as [e|[v|]].
      + destruct C as (-> & C). split; [reflexivity|]. split; assumption.
      + split; assumption.
      + split; [intros v (_ & X)|intros (_ & X)]; exact (path_field_none _ _ _ _ _ _ C X).
    - cbn [get_path]. assert (NI : ~ In (bs "path_params") (rq_keys rq)) by (intros I; apply has0_other in I; [congruence|discriminate]). split; [intros v (X & _)|intros (X & _)]; contradiction.
  Qed.
  Lemma number_or_not i v : in_path i v -> no_number i -> False.
  Proof. intros (_ & A) (_ & B). pose proof (path_field_fun _ _ _ _ _ _ _ A B). discriminate. Qed.
  (** One argument, when the entry it reads is as it was. *)
  Lemma one_arg r i a : rq_path r = rq_path rq0 -> rq_query r = rq_query rq0 -> rq_header r = rq_header rq0 -> rq_cookie r = rq_cookie rq0 ->
    (forall k, reads i a = Some k -> has k r = has k rq0) ->
    match (match a with NoAnn => unannotated bad lo lim flt rq0 r i | _ => match annotated bad lo lim flt r a i with inl e => inl e | inr x => inr (x, r) end end) with
    | inl e => refused (i, a) e
    | inr (x, r') => passed (i, a) x /\ (r' = r \/ (a = NoAnn /\ r' = pop i r))
    end.
  Proof.
    intros E1 E2 E3 E4 RD. assert (BE : forall x y, bytes_eqb x y = true <-> x = y) by (intros x y; split; [apply bytes_eqb_eq|intros ->; apply bytes_eqb_refl]).
    destruct a; cbn [annotated].
    - unfold unannotated. destruct (bytes_eqb i (bs "request")) eqn:B; [apply BE in B; split; [apply pa_request, B|auto]|].
      assert (NR : i <> bs "request") by (intros X; apply BE in X; congruence). rewrite (RD i eq_refl). destruct (has i rq0) eqn:H; [apply has0 in H; split; [apply pa_entry; assumption|auto]|].
      assert (NE : ~ is_entry rq i) by (intros X; apply has0 in X; congruence). pose proof (path_at i) as P. destruct (get_path _ _ _ _ _) as [e|[v|]].
      + destruct P as (-> & P). apply re_number; assumption.
      + split; [apply pa_path; assumption|auto].
      + destruct P as (P1 & P2).
        destruct (text_cases _ _ (query_at i)) as [(v & -> & Q)|(-> & Q)]; [split; [apply pa_query; assumption|auto]|].
        destruct (text_cases _ _ (cookie_at i)) as [(v & -> & C)|(-> & C)]; [split; [apply pa_cookie; assumption|auto]|].
        destruct (text_cases _ _ (header_at i)) as [(v & -> & D)|(-> & D)]; [split; [apply pa_header; assumption|auto]|]. apply re_missing; assumption.
    - destruct (bytes_eqb i (bs "request")) eqn:B; [apply BE in B; split; [apply pa_an_request, B|auto]|]. assert (NR : i <> bs "request") by (intros X; apply BE in X; congruence).
      unfold entry. rewrite (RD i eq_refl). destruct (has i rq0) eqn:H; (split; [|auto]); [apply pa_an_entry; [exact NR|apply has0, H]|apply pa_an_nothing; [exact NR|intros X; apply has0 in X; congruence]].
    - replace (entry (bs "header") r (rq_header r) []) with (entry (bs "header") rq0 (rq_header rq0) []) by (unfold entry; rewrite (RD _ eq_refl), E3; reflexivity).
      destruct (text_cases _ _ (header_at i)) as [(v & -> & D)|(-> & D)]; (split; [|auto]); [apply pa_an_header, D|apply pa_an_noheader, D].
    - unfold entry. rewrite (RD _ eq_refl). destruct (has (bs "body") rq0) eqn:H; (split; [|auto]); [apply pa_an_body; apply has0_other in H; [exact H|discriminate]|apply pa_an_nobody; intros I; apply has0_other in I; [congruence|discriminate]].
    - replace (entry (bs "cookie") r (parse_cookie (rq_cookie r)) []) with (entry (bs "cookie") rq0 (parse_cookie (rq_cookie rq0)) []) by (unfold entry; rewrite (RD _ eq_refl), E4; reflexivity).
      destruct (text_cases _ _ (cookie_at i)) as [(v & -> & D)|(-> & D)]; (split; [|auto]); [apply pa_an_cookie, D|apply pa_an_nocookie, D].
    - replace (entry (bs "path_params") r (rq_path r) []) with (entry (bs "path_params") rq0 (rq_path rq0) []) by (unfold entry; rewrite (RD _ eq_refl), E1; reflexivity).
      pose proof (path_at i) as P. destruct (get_path _ _ _ _ _) as [e|[v|]]; [destruct P as (-> & P); apply re_an_number, P|split; [apply pa_an_path, P|auto]|split; [apply pa_an_nopath; apply P|auto]].
    - replace (entry (bs "query") r (query_fields bad (rq_query r)) []) with (entry (bs "query") rq0 (query_fields bad (rq_query rq0)) []) by (unfold entry; rewrite (RD _ eq_refl), E2; reflexivity).
      destruct (text_cases _ _ (query_at i)) as [(v & -> & D)|(-> & D)]; (split; [|auto]); [apply pa_an_query, D|apply pa_an_noquery, D].
  Qed.
  Lemma has_pop k i r : k <> i -> has k (pop i r) = has k r.
  Proof.
    intros NE. apply eq_true_iff_eq. rewrite !has_in. unfold pop. cbn [rq_keys]. rewrite filter_In. split; [tauto|]. intros I. split; [exact I|]. destruct (bytes_eqb i k) eqn:E; [|reflexivity]. apply bytes_eqb_eq in E. congruence.
  Qed.
  Lemma bind_spec args : separate args -> forall r, rq_path r = rq_path rq0 -> rq_query r = rq_query rq0 -> rq_header r = rq_header rq0 -> rq_cookie r = rq_cookie rq0 ->
    (forall i a k, In (i, a) args -> reads i a = Some k -> has k r = has k rq0) ->
    match bind_args bad lo lim flt rq0 r args with
    | inr xs => Forall2 passed args xs
    | inl e => exists a x b xs, args = a ++ x :: b /\ Forall2 passed a xs /\ refused x e
    end.
  Proof.
    induction args as [|(i, a) t IH]; intros (ND & SE) r E1 E2 E3 E4 RD; [constructor|]. cbn [bind_args].
    pose proof (one_arg r i a E1 E2 E3 E4 (fun k => RD i a k (or_introl eq_refl))) as O.
    destruct (match a with NoAnn => unannotated bad lo lim flt rq0 r i | _ => match annotated bad lo lim flt r a i with inl e => inl e | inr x => inr (x, r) end end) as [e|(x, r')].
    { exists [], (i, a), t, []. split; [reflexivity|]. split; [constructor|exact O]. }
    destruct O as (P & R). cbn [map fst] in ND. inversion ND as [|? ? NI ND']; subst.
    assert (SE' : separate t) by (split; [exact ND'|]; intros i' j a' I1 I2; apply (SE i' j a'); right; assumption).
    assert (H : match bind_args bad lo lim flt rq0 r' t with inr xs => Forall2 passed t xs | inl e => exists a x b xs, t = a ++ x :: b /\ Forall2 passed a xs /\ refused x e end).
    { apply (IH SE' r'); try (destruct R as [->|(_ & ->)]; cbn [pop rq_path rq_query rq_header rq_cookie]; assumption).
      intros j b k I RB. destruct R as [->|(-> & ->)]; [exact (RD j b k (or_intror I) RB)|].
      assert (NK : k <> i).
      { intros ->. assert (D : b = NoAnn \/ b <> NoAnn) by (destruct b; [left; reflexivity|right; discriminate..]). destruct D as [->|NB].
        - injection RB as ->. apply NI. apply in_map_iff. exists (i, NoAnn). auto.
        - exact (SE i j b (or_introl eq_refl) (or_intror I) NB RB). }
      rewrite has_pop by exact NK. exact (RD j b k (or_intror I) RB). }
    destruct (bind_args bad lo lim flt rq0 r' t) as [e|xs].
    - destruct H as (a' & y & b & xs & -> & F & RF). exists ((i, a) :: a'), y, b, (x :: xs). split; [reflexivity|]. split; [constructor; assumption|exact RF].
    - constructor; assumption.
  Qed.
  Theorem args_spec args : separate args ->
    match parse_func_args bad lo lim flt rq args false with
    | inr xs => Forall2 passed args xs
    | inl e => exists a x b xs, args = a ++ x :: b /\ Forall2 passed a xs /\ refused x e
    end.
  Proof.
    intros SE. unfold parse_func_args. fold rq0. pose proof (bind_spec args SE rq0 eq_refl eq_refl eq_refl eq_refl (fun _ _ _ _ _ => eq_refl)) as B. destruct (bind_args _ _ _ _ _ _ _); exact B.
  Qed.
  Theorem varkw_raises args : exists e, parse_func_args bad lo lim flt rq args true = inl e.
  Proof. unfold parse_func_args. destruct (bind_args _ _ _ _ _ _ _); eauto. Qed.
End PASSED.
(** An argument named like an entry and without annotation takes the entry from the arguments behind it. *)
Theorem entry_taken bad lo lim flt rq i : is_entry rq (bs "header") ->
  parse_func_args bad lo lim flt rq [(bs "header", NoAnn); (i, AnHeader)] false = inr [AEntry (bs "header"); ANone].
Proof.
  intros H. unfold parse_func_args. cbn [bind_args]. unfold unannotated at 1. change (bytes_eqb (bs "header") (bs "request")) with false. cbv iota. rewrite (proj2 (has0 bad flt rq _) H).
  cbn [annotated]. unfold entry. replace (has (bs "header") (pop (bs "header") (with_cookie rq))) with false; [reflexivity|]. symmetry. unfold has, pop. cbn [rq_keys]. apply not_true_iff_false. rewrite existsb_exists. intros (x & I & E). apply filter_In in I as (_ & I). rewrite E in I. discriminate.
Qed.

(** ** A browser keeps one name and one value *)
Lemma lead_fun (a a' x x' : pystr) : Forall blank a -> Forall blank a' -> (forall c r, x = c :: r -> ~ blank c) -> (forall c r, x' = c :: r -> ~ blank c) -> x <> [] -> x' <> [] -> a ++ x = a' ++ x' -> x = x'.
Proof.
  intros F. revert a'. induction F as [|c a C F IH]; intros [|c' a'] F' X X' N1 N2 E; cbn [app] in E.
  - exact E.
  - subst x. inversion F' as [|? ? C' _]; subst. destruct (X c' (a' ++ x') eq_refl C').
  - subst x'. destruct (X' c (a ++ x) eq_refl C).
  - injection E as <- E. inversion F'; subst. eauto.
Qed.
Lemma trimmed_nonblank s t : trimmed s t -> t <> [] -> exists c, In c s /\ ~ blank c.
Proof. intros (a & b & -> & _ & _ & T) NE. destruct t as [|c r]; [contradiction|]. exists c. split; [apply in_or_app; right; left; reflexivity|exact (proj1 (T c r) eq_refl)]. Qed.
Lemma trimmed_fun s t t' : trimmed s t -> trimmed s t' -> t = t'.
Proof.
  intros T T'. assert (Z : forall u u', trimmed s u -> trimmed s u' -> u = [] -> u' = []).
  { intros u u' (a & b & E & A & B & _) U ->. destruct u' as [|c r] eqn:Q; [reflexivity|]. destruct (trimmed_nonblank s _ U ltac:(discriminate)) as (x & I & NB). exfalso. subst s. cbn [app] in I. rewrite Forall_forall in A, B. apply in_app_or in I as [I|I]; auto. }
  destruct t as [|c r] eqn:Q; [symmetry; exact (Z [] t' T T' eq_refl)|]. destruct t' as [|c' r'] eqn:Q'; [discriminate (Z [] (c :: r) T' T eq_refl)|]. rewrite <- Q, <- Q' in *. assert (N1 : t <> []) by congruence. assert (N2 : t' <> []) by congruence. clear Q Q' Z.
  destruct T as (a & b & -> & A & B & H), T' as (a' & b' & E & A' & B' & H').
  assert (E2 : t ++ b = t' ++ b').
  { apply (lead_fun a a' _ _ A A'); [| | | |exact E].
    - intros x y Q. destruct t as [|z t0]; [contradiction|]. injection Q as -> _. exact (proj1 (H x t0) eq_refl).
    - intros x y Q. destruct t' as [|z t0]; [contradiction|]. injection Q as -> _. exact (proj1 (H' x t0) eq_refl).
    - destruct t; [contradiction|discriminate].
    - destruct t'; [contradiction|discriminate]. }
  assert (E3 : rev t = rev t').
  { apply (lead_fun (rev b) (rev b')); [apply Forall_rev, B|apply Forall_rev, B'| | | | |rewrite <- !rev_app_distr, E2; reflexivity].
    - intros x y Q. apply (f_equal (@rev N)) in Q. rewrite rev_involutive in Q. exact (proj2 (H x (rev y)) Q).
    - intros x y Q. apply (f_equal (@rev N)) in Q. rewrite rev_involutive in Q. exact (proj2 (H' x (rev y)) Q).
    - intros Q. apply (f_equal (@rev N)) in Q. rewrite rev_involutive in Q. contradiction.
    - intros Q. apply (f_equal (@rev N)) in Q. rewrite rev_involutive in Q. contradiction. }
  apply (f_equal (@rev N)) in E3. rewrite !rev_involutive in E3. exact E3.
Qed.
Lemma cut_fun (k : N) (x x' y y' : pystr) : ~ In k x -> ~ In k x' -> (y = [] \/ exists r, y = k :: r) -> (y' = [] \/ exists r, y' = k :: r) -> x ++ y = x' ++ y' -> x = x' /\ y = y'.
Proof.
  revert x'. induction x as [|c x IH]; intros [|c' x'] N1 N2 Y Y' E; cbn [app] in E.
  - auto.
  - exfalso. destruct Y as [->|(r & ->)]; [discriminate|]. injection E as <- _. apply N2. left. reflexivity.
  - exfalso. destruct Y' as [->|(r & ->)]; [discriminate|]. injection E as -> _. apply N1. left. reflexivity.
  - injection E as <- E. destruct (IH x') as (-> & ->); auto; [intros I; apply N1; right; exact I|intros I; apply N2; right; exact I].
Qed.
Theorem keeps_fun text n v n' v' : keeps text n v -> keeps text n' v' -> n = n' /\ v = v'.
Proof.
  intros (n0 & v0 & r0 & -> & A1 & A2 & A3 & A4 & A5) (n1 & v1 & r1 & E & B1 & B2 & B3 & B4 & B5). rewrite in_app_iff in A1, B1.
  destruct (cut_fun 61 n0 n1 (61 :: v0 ++ r0) (61 :: v1 ++ r1) A2 B2 ltac:(eauto) ltac:(eauto) E) as (<- & E'). injection E' as E'.
  destruct (cut_fun 59 v0 v1 r0 r1 ltac:(tauto) ltac:(tauto) A3 B3 E') as (<- & _). split; eapply trimmed_fun; eassumption.
Qed.
(** Set, kept and sent back. *)
Theorem cookie_trip text name value o n v : name_ok name -> value_ok value -> ~ In 61 value -> keeps (set_cookie text name value o) n v -> parse_cookie [sent [(n, v)]] = [(name, Some value)].
Proof.
  intros N V NI K. destruct (keeps_fun _ _ _ _ _ (set_cookie_kept text name value o N V) K) as (<- & <-). apply (cookies_ok [(name, value)]); [discriminate|]. constructor; [cbn [fst snd]; auto|constructor].
Qed.
Theorem cookie_cut text name a b o n v : name_ok name -> value_ok (a ++ 61 :: b) -> ~ In 61 a -> keeps (set_cookie text name (a ++ 61 :: b) o) n v -> parse_cookie [sent [(n, v)]] = [(name, Some (strip a))].
Proof.
  intros N V NI K. destruct (keeps_fun _ _ _ _ _ (set_cookie_kept text name (a ++ 61 :: b) o N V) K) as (<- & <-).
  destruct (cookies_read [(name, a ++ 61 :: b)] ltac:(discriminate)) as (ws & F & EQ); [constructor; [cbn [fst snd]; auto|constructor]|]. etransitivity; [exact EQ|]. clear EQ. inversion F as [|? w ? ws' (B1 & B2) F']; subst. inversion F'; subst. cbn [combine map fst snd] in *.
  assert (Q : w = a); [|rewrite Q; reflexivity]. destruct B2 as [B2|(r & B2)].
  - exfalso. apply B1. rewrite <- B2. apply in_or_app. right. left. reflexivity.
  - destruct (cut_fun 61 a w (61 :: b) (61 :: r) NI B1 ltac:(eauto) ltac:(eauto) B2) as (-> & _). reflexivity.
Qed.
Lemma options_tail text o : exists rest, (rest = [] \/ exists r, rest = 59 :: r) /\ forall name value, set_cookie text name value o = name ++ 61 :: value ++ rest.
Proof.
  unfold set_cookie. eexists. split; [|intros name value; reflexivity].
  destruct o as [ma sec ho dom pa ss]. cbn [co_max_age co_secure co_http_only co_domain co_path co_samesite]. unfold gap. change (bs "; ") with [59; 32].
  destruct ma as [z|]; [destruct (z =? 0)%Z|]; cbn [app]; try (right; eexists; reflexivity); (destruct sec; cbn [app]; [right; eexists; reflexivity|]); (destruct ho; cbn [app]; [right; eexists; reflexivity|]);
    (destruct dom as [[|d0 d1]|]; cbn [app]; try (right; eexists; reflexivity)); (destruct pa as [[|p0 p1]|]; cbn [app]; try (right; eexists; reflexivity)); (destruct ss; cbn [app]; [right; eexists; reflexivity|left; reflexivity]).
Qed.
Theorem value_injects text name v a o : ~ In 59 a -> stripped a -> attribute (set_cookie text name (v ++ 59 :: a) o) a.
Proof.
  intros A S. destruct (options_tail text o) as (rest & R & E). rewrite E. exists (name ++ 61 :: v), a, rest. split; [rewrite <- !app_assoc; reflexivity|]. split; [exact A|]. split; [exact R|apply stripped_trimmed, S].
Qed.
