(** What a client sees of H2Req.v, stated without its helpers. *)
From Verif Require Import Base CStr CNum Names NamesProofs Buffer Reqline ReqlineSpec ReqlineProofs Header HeaderProofs ReqFlow ReqFlowProofs ReqFlowLaws AcceptEncProofs Machine H2Req H2ReqProofs.
From Verif Require AcceptEnc AcceptMime AcceptCL Route RouteProofs Mount MountProofs Cache CacheProofs.
Local Open Scope N_scope.

(** ** Targets *)
Lemma spaces_head k (s : list N) t : repeat 32 k ++ s = 47 :: t -> k = 0%nat.
Proof. destruct k; [reflexivity|discriminate]. Qed.
Lemma pathc_not32 c : PATHC c -> c <> 32.
Proof. intros H ->. destruct H as [H|H]; [apply pchar_class in H; discriminate H|discriminate H]. Qed.
Lemma queryc_not32 c : QUERYC c -> c <> 32.
Proof. intros H ->. destruct H as [H|[H|H]]; [apply pchar_class in H; discriminate H|discriminate H|discriminate H]. Qed.
Lemma hex_not32 c : HEXDIG c -> c <> 32.
Proof. intros H ->. apply hex_class in H. discriminate H. Qed.
Lemma encoded_not32 (ok : N -> Prop) s : (forall c, ok c -> c <> 32) -> encoded ok s -> ~ In 32 s.
Proof.
  intros O. induction 1 as [|c s C E IH|a b s A B E IH]; [intros []| |].
  - intros [Q|Q]; [exact (O c C Q)|exact (IH Q)].
  - intros [Q|[Q|[Q|Q]]]; [discriminate Q|exact (hex_not32 a A Q)|exact (hex_not32 b B Q)|exact (IH Q)].
Qed.
Lemma plain_not37 (ok : N -> Prop) s : ~ ok 37 -> Forall ok s -> ~ In 37 s.
Proof. intros O F I. apply (proj1 (Forall_forall _ _) F) in I. exact (O I). Qed.
Lemma target_no_pct m v u q t : h2_target m v u q -> v = 47 :: t -> ~ In 32 v -> ~ In 37 v.
Proof.
  intros H E NS. destruct H as [k|k s M|k p (PH & PP)|k p (PH & PP)|k p q (PH & PP) NQ PQ|k p s AP|k p q s AP NQ QT].
  - discriminate E.
  - pose proof (spaces_head _ _ _ E) as ->. discriminate E.
  - destruct PH as (t' & ->). pose proof (spaces_head _ _ _ E) as ->. exact (plain_not37 _ _ pct_not_path PP).
  - pose proof (spaces_head _ _ _ E) as ->. cbn [repeat app]. intros I. apply in_app_or in I as [I|[I|[]]]; [exact (plain_not37 _ _ pct_not_path PP I)|discriminate I].
  - pose proof (spaces_head _ _ _ E) as ->. cbn [repeat app]. intros I. apply in_app_or in I as [I|[I|I]]; [exact (plain_not37 _ _ pct_not_path PP I)|discriminate I|exact (plain_not37 _ _ pct_not_query PQ I)].
  - destruct NS. apply in_or_app. right. apply in_or_app. right. left. reflexivity.
  - destruct NS. apply in_or_app. right. apply in_or_app. right. right. apply in_or_app. right. left. reflexivity.
Qed.
(** A path, and a path with a query, that contain a percent-encoded octet are refused. *)
Lemma percent_rejected m p q : abs_path p -> query_text q -> In 37 (p ++ q) ->
  (q = [] -> target_parse m p = Ok None) /\ target_parse m (p ++ 63 :: q) = Ok None.
Proof.
  intros AP QT I. destruct (proj1 AP) as (t & EP).
  assert (NP : ~ In 32 p) by (apply (encoded_not32 PATHC); [exact pathc_not32|exact (proj2 AP)]).
  assert (NQ : ~ In 32 q) by (apply (encoded_not32 QUERYC); [exact queryc_not32|exact QT]).
  assert (G : forall v, In 37 v -> ~ In 32 v -> (exists t, v = 47 :: t) -> target_parse m v = Ok None).
  { intros v IV NV (t' & EV). destruct (target_sound m v) as ([(u, x)|] & T & H); [|exact T]. destruct (target_no_pct _ _ _ _ _ H EV NV IV). }
  split.
  - intros ->. rewrite app_nil_r in I. apply G; [exact I|exact NP|eauto].
  - apply G; [| |rewrite EP; cbn [app]; eauto].
    + apply in_app_or in I as [I|I]; apply in_or_app; [left; exact I|right; right; exact I].
    + intros Q. apply in_app_or in Q as [Q|[Q|Q]]; [exact (NP Q)|discriminate Q|exact (NQ Q)].
Qed.

(** ** Pseudo-header fields *)
(** A field as the peer sent it: name and value. *)
Definition sent_field : Type := list N * list N.
Definition stored (f : sent_field) : hdr := mkHdr (Some (fst f)) (Some (snd f)).
Definition starts (p s : list N) : Prop := exists t, s = p ++ t.
(** What fly takes for a pseudo-header field of the kind [x]. *)
Definition kind_of (x : list N) (f : sent_field) : Prop := starts x (fst f).
Definition last_of (P : sent_field -> Prop) (fs : list sent_field) (f : sent_field) : Prop := exists a c, fs = a ++ f :: c /\ P f /\ Forall (fun g => ~ P g) c.
(** A field that does not spoil the request. *)
Definition harmless (f : sent_field) : Prop :=
  ~ starts (bs ":") (fst f) \/ kind_of (bs ":authority") f \/ kind_of (bs ":path") f \/
  (kind_of (bs ":method") f /\ exists m, starts (method_spelling m) (snd f)) \/ (kind_of (bs ":scheme") f /\ starts (bs "http") (snd f)).
Definition clean (f : sent_field) : Prop := no_nul (fst f) /\ no_nul (snd f).
Lemma prefix_starts p s : is_prefix p s = true <-> starts p s.
Proof. apply is_prefix_spec. Qed.
(** The effect of one field. *)
Inductive field_effect (f : sent_field) (l : pline) : option pline -> Prop :=
| fe_other : ~ starts (bs ":") (fst f) -> field_effect f l (Some l)
| fe_method m : kind_of (bs ":method") f -> starts (method_spelling m) (snd f) -> field_effect f l (Some (mkPline (Some m) (pl_scheme l) (pl_uri l)))
| fe_method_bad : kind_of (bs ":method") f -> (forall m, ~ starts (method_spelling m) (snd f)) -> field_effect f l None
| fe_scheme : kind_of (bs ":scheme") f -> starts (bs "http") (snd f) -> field_effect f l (Some (mkPline (pl_method l) (Some http) (pl_uri l)))
| fe_scheme_bad : kind_of (bs ":scheme") f -> ~ starts (bs "http") (snd f) -> field_effect f l None
| fe_authority : kind_of (bs ":authority") f -> field_effect f l (Some l)
| fe_path : kind_of (bs ":path") f -> field_effect f l (Some (mkPline (pl_method l) (pl_scheme l) (Some (snd f))))
| fe_unknown : starts (bs ":") (fst f) -> ~ kind_of (bs ":method") f -> ~ kind_of (bs ":scheme") f -> ~ kind_of (bs ":authority") f -> ~ kind_of (bs ":path") f -> field_effect f l None.
Lemma line_field_spec f l : clean f -> exists o, line_field (stored f) l = Ok o /\ field_effect f l o.
Proof.
  intros (CN & CV). destruct f as (n, v). cbn [fst snd] in *. unfold line_field, stored. cbn [h_name h_value fst snd].
  destruct n as [|c n]; [eexists; split; [reflexivity|]; apply fe_other; intros (t & E); discriminate E|].
  destruct (N.eqb_spec c 58) as [->|NC]; cbn [negb].
  2: { eexists; split; [reflexivity|]. apply fe_other. intros (t & E). cbn in E. injection E as E _. contradiction. }
  rewrite (cstr_no_nul _ CN), (cstr_no_nul _ CV). set (name := 58 :: n) in *. assert (CO : starts (bs ":") name) by (exists n; reflexivity).
  unfold pseudo_request. cbn [List.find fst]. rewrite !strncmp_prefix.
  destruct (is_prefix (bs ":method") name) eqn:E1.
  { apply prefix_starts in E1. destruct (match_method_name v) as [m|] eqn:MM; eexists; (split; [reflexivity|]).
    - apply fe_method; [exact E1|]. apply prefix_starts, method_name_prefix. exact MM.
    - apply fe_method_bad; [exact E1|]. intros m Q. apply prefix_starts, method_name_prefix in Q. cbn [snd] in Q. congruence. }
  destruct (is_prefix (bs ":scheme") name) eqn:E2.
  { apply prefix_starts in E2. rewrite scheme_name_result. destruct (is_prefix (bs "http") v) eqn:MM; eexists; (split; [reflexivity|]).
    - apply fe_scheme; [exact E2|]. apply prefix_starts. exact MM.
    - apply fe_scheme_bad; [exact E2|]. intros Q. apply prefix_starts in Q. cbn [snd] in Q. congruence. }
  destruct (is_prefix (bs ":authority") name) eqn:E3.
  { apply prefix_starts in E3. eexists; split; [reflexivity|]. apply fe_authority. exact E3. }
  destruct (is_prefix (bs ":path") name) eqn:E4.
  { apply prefix_starts in E4. eexists; split; [reflexivity|]. apply fe_path. exact E4. }
  eexists; split; [reflexivity|]. apply fe_unknown; [exact CO|..]; intros Q; apply prefix_starts in Q; unfold kind_of in *; cbn [fst] in *; congruence.
Qed.

Lemma kinds_differ x y f a b c d : kind_of (a :: b :: x) f -> kind_of (c :: d :: y) f -> b = d.
Proof. intros (t & E) (t' & E'). rewrite E in E'. cbn [app] in E'. congruence. Qed.
Lemma kind_colon x f : kind_of (58 :: x) f -> starts (bs ":") (fst f).
Proof. intros (t & E). exists (x ++ t). exact E. Qed.
Ltac kinds := repeat match goal with
  | A : kind_of ?x ?f, B : kind_of ?y ?f |- _ => exfalso; pose proof (kinds_differ _ _ _ _ _ _ _ A B); discriminate
  | A : ~ starts (bs ":") (fst ?f), B : kind_of ?y ?f |- _ => exfalso; apply A; exact (kind_colon _ _ B)
  end.
Lemma effect_harmless f l o : field_effect f l o -> (o <> None <-> harmless f).
Proof.
  unfold harmless. intros H; inversion H; subst; (split; [intros NN|]); try (intros _; discriminate); try congruence.
  - left; assumption.
  - right; right; right; left. eauto.
  - intros [A|[A|[A|[(A & m & B)|(A & B)]]]]; kinds. exfalso. apply (H1 m). exact B.
  - right; right; right; right. auto.
  - intros [A|[A|[A|[(A & m & B)|(A & B)]]]]; kinds. contradiction.
  - right; left; assumption.
  - right; right; left; assumption.
  - intros [A|[A|[A|[(A & m & B)|(A & B)]]]]; contradiction.
Qed.
Definition settles {A} (P : sent_field -> Prop) (V : sent_field -> A -> Prop) (fs : list sent_field) (before after : option A) : Prop :=
  (exists f x, last_of P fs f /\ V f x /\ after = Some x) \/ (Forall (fun g => ~ P g) fs /\ after = before).
Lemma settles_cons {A} P (V : sent_field -> A -> Prop) f fs b0 b1 a : (P f /\ (exists x, V f x /\ b1 = Some x)) \/ (~ P f /\ b1 = b0) -> settles P V fs b1 a -> settles P V (f :: fs) b0 a.
Proof.
  intros H [(g & x & (u & w & -> & PG & NW) & VG & ->)|(N & ->)].
  - left. exists g, x. split; [exists (f :: u), w; auto|auto].
  - destruct H as [(PF & x & VX & ->)|(NF & ->)].
    + left. exists f, x. split; [exists [], fs; auto|auto].
    + right. auto.
Qed.
Lemma line_fields_spec : forall fs l, Forall clean fs -> exists o, line_fields (map stored fs) l = Ok o /\
  match o with
  | Some l' => Forall harmless fs /\ settles (kind_of (bs ":method")) (fun f m => starts (method_spelling m) (snd f)) fs (pl_method l) (pl_method l') /\
               settles (kind_of (bs ":path")) (fun f u => snd f = u) fs (pl_uri l) (pl_uri l') /\ (pl_scheme l <> None -> pl_scheme l' <> None)
  | None => ~ Forall harmless fs
  end.
Proof.
  induction fs as [|f fs IH]; intros l C.
  - exists (Some l). split; [reflexivity|]. split; [constructor|]. split; [right; split; [constructor|reflexivity]|]. split; [right; split; [constructor|reflexivity]|auto].
  - inversion C as [|? ? C1 C2]; subst. destruct (line_field_spec f l C1) as (o & E & FE). cbn [map line_fields]. rewrite E. cbn [obind]. pose proof (effect_harmless f l o FE) as HF.
    destruct o as [l1|].
    2: { exists None. split; [reflexivity|]. intros F. inversion F as [|? ? F1 _]; subst. apply HF in F1. congruence. }
    destruct (IH l1 C2) as (o2 & E2 & R). exists o2. split; [exact E2|]. destruct o2 as [l2|].
    2: { intros F. inversion F; subst. contradiction. }
    destruct R as (R1 & R2 & R3 & R4). split; [constructor; [apply HF; discriminate|exact R1]|].
    inversion FE; subst; cbn [pl_method pl_scheme pl_uri] in *.
    all: (split; [eapply settles_cons; [|exact R2]|split; [eapply settles_cons; [|exact R3]|]]).
    all: try (first [exact R4|intros _; apply R4; discriminate]).
    all: first [left; split; [assumption|eexists; split; [eassumption || reflexivity|reflexivity]]|right; split; [intros Q; kinds|reflexivity]].
Qed.
Lemma last_unique P fs f g : last_of P fs f -> last_of P fs g -> f = g.
Proof.
  intros (a & c & -> & PF & NC) (a' & c' & E & PG & NC'). revert a' E. induction a as [|x a IH]; intros [|y a'] E; cbn [app] in E.
  - injection E as -> _. reflexivity.
  - injection E as -> E. exfalso. rewrite E in NC. apply Forall_app in NC as (_ & NC). inversion NC; contradiction.
  - injection E as -> E. exfalso. rewrite <- E in NC'. apply Forall_app in NC' as (_ & NC'). inversion NC'; contradiction.
  - injection E as _ E. exact (IH a' E).
Qed.
Lemma last_not_none P fs f : last_of P fs f -> ~ Forall (fun g => ~ P g) fs.
Proof. intros (a & c & -> & PF & _) F. apply Forall_app in F as (_ & F). inversion F; contradiction. Qed.
Lemma spelling_unique m m' s : starts (method_spelling m) s -> starts (method_spelling m') s -> m = m'.
Proof. intros A B. apply prefix_starts, method_name_prefix in A. apply prefix_starts, method_name_prefix in B. congruence. Qed.
Lemma line_exact conn fs m u : Forall clean fs ->
  line_from_header conn (map stored fs) = Ok (Some (m, u)) <->
  Forall harmless fs /\ (exists f, last_of (kind_of (bs ":method")) fs f /\ starts (method_spelling m) (snd f)) /\ (exists f, last_of (kind_of (bs ":path")) fs f /\ snd f = u).
Proof.
  intros C. unfold line_from_header. destruct (line_fields_spec fs (mkPline None (Some conn) None) C) as (o & E & R). rewrite E. cbn [obind]. destruct o as [l|].
  2: { split; [discriminate|]. intros (H & _). contradiction. }
  destruct R as (R1 & R2 & R3 & R4). cbn [pl_method pl_uri pl_scheme] in *. destruct l as [lm ls lu]. cbn [pl_method pl_uri pl_scheme] in *. destruct ls as [s|]; [|destruct R4; [discriminate|reflexivity]]. split.
  - intros Q. split; [exact R1|]. destruct lm as [m'|]; [|discriminate Q]. destruct lu as [u'|]; [|discriminate Q]. injection Q as -> ->. split.
    + destruct R2 as [(f & x & L & V & X)|(_ & X)]; [|discriminate X]. injection X as <-. eauto.
    + destruct R3 as [(f & x & L & V & X)|(_ & X)]; [|discriminate X]. injection X as <-. eauto.
  - intros (_ & (f & LF & SF) & (g & LG & SG)).
    destruct R2 as [(f' & x & L & V & ->)|(N & _)]; [|destruct (last_not_none _ _ _ LF N)]. destruct R3 as [(g' & y & L' & V' & ->)|(N & _)]; [|destruct (last_not_none _ _ _ LG N)].
    rewrite (last_unique _ _ _ _ LF L) in SF. rewrite (last_unique _ _ _ _ LG L') in SG. rewrite (spelling_unique _ _ _ SF V). congruence.
Qed.
Lemma line_total conn fs : Forall clean fs -> exists o, line_from_header conn (map stored fs) = Ok o.
Proof.
  intros C. unfold line_from_header. destruct (line_fields_spec fs (mkPline None (Some conn) None) C) as (o & E & _). rewrite E. cbn [obind]. eauto.
Qed.

(** ** The body *)
Definition total (ds : list (list N)) : nat := length (concat ds).
Definition fill (mem : list N) (used : nat) (d : list N) : option h2body :=
  if (length mem <? used + length d)%nat then None else Some (BOpen (firstn used mem ++ d ++ skipn (used + length d) mem) (used + length d)).
Lemma frame_open max cl junk mem used d : d <> [] -> data_frame max cl junk (BOpen mem used) d = fill mem used d.
Proof. destruct d; [contradiction|reflexivity]. Qed.
Lemma frame_first max cl junk d : d <> [] -> data_frame max cl junk BNone d = if (Z.of_nat max <? size_t cl)%Z then Some BDiscard else fill (fresh (Z.to_nat (size_t cl)) junk) 0 d.
Proof. destruct d; [contradiction|reflexivity]. Qed.
Lemma open_frames max cl junk : forall ds mem used, (used <= length mem)%nat ->
  data_frames max cl junk (BOpen mem used) ds = if (length mem <? used + total ds)%nat then None
    else Some (BOpen (firstn used mem ++ concat ds ++ skipn (used + total ds) mem) (used + total ds)).
Proof.
  induction ds as [|d ds IH]; intros mem used L; cbn [data_frames].
  - unfold total. cbn [concat length app]. rewrite Nat.add_0_r, firstn_skipn. replace (length mem <? used)%nat with false by (symmetry; apply Nat.ltb_ge; exact L). reflexivity.
  - assert (T : total (d :: ds) = (length d + total ds)%nat) by (unfold total; cbn [concat]; apply app_length).
    destruct d as [|x d]; [cbn [data_frame]; rewrite (IH mem used L), T; reflexivity|]. rewrite (frame_open max cl junk mem used (x :: d)) by discriminate. set (dd := x :: d) in *. unfold fill.
    destruct (Nat.ltb_spec (length mem) (used + length dd)) as [LT|GE].
    + replace (length mem <? used + total (dd :: ds))%nat with true by (symmetry; apply Nat.ltb_lt; lia). reflexivity.
    + assert (LM : length (firstn used mem ++ dd ++ skipn (used + length dd) mem) = length mem) by (rewrite !app_length, firstn_length, skipn_length; lia).
      rewrite IH by (rewrite LM; exact GE). rewrite LM, T, Nat.add_assoc. destruct (Nat.ltb_spec (length mem) (used + length dd + total ds)) as [L1|L1]; [reflexivity|]. do 2 f_equal.
      set (A := firstn used mem) in *. assert (LA : length (A ++ dd) = (used + length dd)%nat) by (unfold A; rewrite app_length, firstn_length; lia). cbn [concat].
      rewrite (app_assoc A dd (skipn _ mem)). rewrite <- LA at 1. rewrite firstn_exact. rewrite <- !app_assoc. do 3 f_equal.
      rewrite (app_assoc A dd (skipn _ mem)), skipn_app, LA, skipn_all2 by (rewrite LA; lia). cbn [app]. rewrite skipn_skipn. f_equal. lia.
Qed.

Lemma discard_frames max cl junk : forall ds, data_frames max cl junk BDiscard ds = Some BDiscard.
Proof. induction ds as [|[|x d] ds IH]; [reflexivity|exact IH|exact IH]. Qed.
Lemma fresh_len n junk : length (fresh n junk) = n.
Proof. unfold fresh. rewrite firstn_length, app_length, repeat_length. lia. Qed.
(** The body after all DATA frames, for a declared length [n]. *)
Lemma frames_exact max n junk ds : (Z.of_nat n < 2 ^ 64)%Z -> data_frames max (Z.of_nat n) junk BNone ds =
  if (total ds =? 0)%nat then Some BNone
  else if (max <? n)%nat then Some BDiscard
  else if (n <? total ds)%nat then None
  else Some (BOpen (concat ds ++ skipn (total ds) (fresh n junk)) (total ds)).
Proof.
  intros NB. assert (SZ : size_t (Z.of_nat n) = Z.of_nat n) by (unfold size_t; apply Z.mod_small; lia).
  induction ds as [|d ds IH]; [reflexivity|]. destruct d as [|x d]; [exact IH|]. clear IH. cbn [data_frames]. rewrite (frame_first max (Z.of_nat n) junk (x :: d)) by discriminate. set (dd := x :: d).
  assert (T : total (dd :: ds) = (length dd + total ds)%nat) by (unfold total; cbn [concat]; apply app_length).
  assert (P : (0 < length dd)%nat) by (cbn; lia). replace (total (dd :: ds) =? 0)%nat with false by (symmetry; apply Nat.eqb_neq; lia).
  rewrite SZ, Nat2Z.id. destruct (Nat.ltb_spec max n) as [LM|LM].
  - replace (Z.of_nat max <? Z.of_nat n)%Z with true by (symmetry; apply Z.ltb_lt; lia). apply discard_frames.
  - replace (Z.of_nat max <? Z.of_nat n)%Z with false by (symmetry; apply Z.ltb_ge; lia). unfold fill. rewrite fresh_len. cbn [Nat.add firstn app].
    destruct (Nat.ltb_spec n (length dd)) as [L1|L1]; [replace (n <? total (dd :: ds))%nat with true by (symmetry; apply Nat.ltb_lt; lia); reflexivity|].
    assert (LM2 : length (dd ++ skipn (length dd) (fresh n junk)) = n) by (rewrite app_length, skipn_length, fresh_len; lia).
    change (x :: d ++ skipn (length dd) (fresh n junk)) with (dd ++ skipn (length dd) (fresh n junk)).
    rewrite open_frames by (rewrite LM2; exact L1). rewrite LM2, T. destruct (Nat.ltb_spec n (length dd + total ds)); [reflexivity|]. do 2 f_equal.
    rewrite firstn_exact. cbn [concat]. rewrite <- app_assoc. do 2 f_equal. rewrite skipn_app, skipn_all2 by lia. cbn [app]. rewrite skipn_skipn. f_equal. lia.
Qed.

(** ** The answer *)
(** A field that does not begin with a colon is what HTTP/2 requires: a lower-case name; its value is not empty. *)
Definition regular (f : field) : Prop := field_ok f /\ f_value f <> [].
Definition stored_regular (f : field) : hdr := new_hdr (map lowercase (f_name f)) (f_value f).
Lemma stored_delivered fs : Forall regular fs -> map stored_regular fs = map delivered fs.
Proof.
  induction 1 as [|f fs ((N1 & _) & NV) _ IH]; [reflexivity|]. cbn [map]. rewrite IH. f_equal. unfold stored_regular, new_hdr, delivered. destruct (f_name f); [contradiction|]. destruct (f_value f); [contradiction|]. reflexivity.
Qed.
Definition pseudo_field (f : sent_field) : Prop := starts (bs ":") (fst f).
Lemma colon_name f : pseudo_field f -> exists n, fst f = 58 :: n. Proof. intros (t & E). exists t. exact E. Qed.
Lemma cstr_colon n : cstr (58 :: n) = 58 :: cstr n. Proof. reflexivity. Qed.
Lemma skip_find (find : list hdr -> outcome (option (list N))) ps t : (forall n v t, find (mkHdr (Some (58 :: n)) (Some v) :: t) = find t) -> Forall pseudo_field ps -> find (map stored ps ++ t) = find t.
Proof.
  intros H. induction 1 as [|f ps P _ IH]; [reflexivity|]. destruct (colon_name f P) as (n & E). cbn [map app]. unfold stored at 1. rewrite E, H. exact IH.
Qed.
Lemma skip_ae n v t : find_ae (mkHdr (Some (58 :: n)) (Some v) :: t) = find_ae t. Proof. destruct v; reflexivity. Qed.
Lemma skip_am n v t : find_am (mkHdr (Some (58 :: n)) (Some v) :: t) = find_am t. Proof. reflexivity. Qed.
Lemma skip_ac n v t : find_ac (mkHdr (Some (58 :: n)) (Some v) :: t) = find_ac t. Proof. destruct v; reflexivity. Qed.
Lemma skip_al n v t : find_al (mkHdr (Some (58 :: n)) (Some v) :: t) = find_al t. Proof. reflexivity. Qed.
Lemma skip_lookup find ps fs : find [] = Ok None -> (forall n v t, find (mkHdr (Some (58 :: n)) (Some v) :: t) = find t) -> Forall pseudo_field ps ->
  ReqFlow.lookup find (mkHci (map stored ps ++ map delivered fs) (length ps + length fs)) = ReqFlow.lookup find (mkHci (map delivered fs) (length fs)).
Proof.
  intros H0 H P. unfold ReqFlow.lookup. cbn [hc_count hc_chain]. rewrite (skip_find find ps _ H P).
  destruct (Nat.eqb_spec (length fs) 0) as [E|E]; [destruct fs; [|discriminate E]; cbn [map]; rewrite H0; destruct (_ =? _)%nat; reflexivity|].
  replace (length ps + length fs =? 0)%nat with false by (symmetry; apply Nat.eqb_neq; lia). reflexivity.
Qed.
Lemma skip_accept ps fs : Forall pseudo_field ps -> accept_phase (mkHci (map stored ps ++ map delivered fs) (length ps + length fs)) = accept_phase (mkHci (map delivered fs) (length fs)).
Proof.
  intros P. unfold accept_phase.
  rewrite (skip_lookup find_ae ps fs eq_refl skip_ae P), (skip_lookup find_am ps fs eq_refl skip_am P), (skip_lookup find_ac ps fs eq_refl skip_ac P), (skip_lookup find_al ps fs eq_refl skip_al P). reflexivity.
Qed.
Lemma skip_length ps fs : Forall pseudo_field ps -> content_length (mkHci (map stored ps ++ map delivered fs) (length ps + length fs)) = content_length (mkHci (map delivered fs) (length fs)).
Proof.
  intros P. unfold content_length. cbn [hc_count hc_chain].
  assert (E : content_length_loop (map stored ps ++ map delivered fs) = content_length_loop (map delivered fs)).
  { induction P as [|f ps PF _ IH]; [reflexivity|]. destruct (colon_name f PF) as (n & EN). cbn [map app]. unfold stored at 1. rewrite EN. exact IH. }
  rewrite E. destruct (Nat.eqb_spec (length fs) 0) as [L|L]; [destruct fs; [|discriminate L]; destruct (_ =? _)%nat; reflexivity|].
  replace (length ps + length fs =? 0)%nat with false by (symmetry; apply Nat.eqb_neq; lia). reflexivity.
Qed.
(** The request's first Content-Encoding field, if there is one. *)
Definition of_content_encoding (f : field) : Prop := same_name (f_name f) (bs "Content-Encoding").
Definition uncoded (fs : list field) : Prop := Forall (fun f => ~ of_content_encoding f) fs.
Definition coded (fs : list field) (x : list N) : Prop := exists a f b, fs = a ++ f :: b /\ uncoded a /\ of_content_encoding f /\ f_value f = x.
Lemma find_lower fs : Forall field_ok fs -> (uncoded fs -> forall i, find_name (map delivered fs) (bs "content-encoding") i = Ok None) /\
  (forall a f b, fs = a ++ f :: b -> uncoded a -> of_content_encoding f -> forall i, find_name (map delivered fs) (bs "content-encoding") i = Ok (Some (i + length a)%nat)).
Proof.
  intros F. change (bs "content-encoding") with (map lowercase (bs "Content-Encoding")). induction F as [|f fs FO F (IH1 & IH2)].
  - split; [reflexivity|]. intros a f b E. destruct a; discriminate E.
  - pose proof (lower_name f (bs "Content-Encoding") FO) as LN. split.
    + intros U i. inversion U as [|? ? U1 U2]; subst. cbn [map find_name]. unfold name_is. cbn [delivered h_name obind].
      destruct (strcmp_eqb _ _); [exfalso; apply U1; apply LN; reflexivity|]. apply IH1. exact U2.
    + intros a g b E U G i. cbn [map find_name]. unfold name_is. cbn [delivered h_name obind]. destruct a as [|a0 a]; injection E as -> E.
      * rewrite (proj2 LN G). cbn [length]. rewrite Nat.add_0_r. reflexivity.
      * inversion U as [|? ? U1 U2]; subst. destruct (strcmp_eqb _ _); [exfalso; apply U1; apply LN; reflexivity|].
        rewrite (IH2 a g b eq_refl U2 G (S i)). cbn [length]. do 2 f_equal. lia.
Qed.
Lemma skip_pseudo_name ps t i : Forall pseudo_field ps -> find_name (map stored ps ++ t) (bs "content-encoding") i = find_name t (bs "content-encoding") (i + length ps).
Proof.
  intros P. revert i. induction P as [|f ps PF _ IH]; intros i; [cbn [map app length]; rewrite Nat.add_0_r; reflexivity|].
  destruct (colon_name f PF) as (n & EN). cbn [map app find_name length]. unfold stored at 1, name_is. cbn [h_name]. rewrite EN, Nat.add_succ_r. exact (IH (S i)).
Qed.
Lemma skip_encoding ps fs : Forall pseudo_field ps -> Forall field_ok fs -> uncoded fs -> content_encoding_s (mkHci (map stored ps ++ map delivered fs) (length ps + length fs)) = Ok None.
Proof.
  intros P F U. unfold content_encoding_s. cbn [hc_count hc_chain]. destruct (_ =? 0)%nat; [reflexivity|].
  rewrite skip_pseudo_name by exact P. rewrite (proj1 (find_lower fs F) U). reflexivity.
Qed.
Lemma take_encoding ps fs x : Forall pseudo_field ps -> Forall field_ok fs -> coded fs x -> content_encoding_s (mkHci (map stored ps ++ map delivered fs) (length ps + length fs)) = Ok (Some x).
Proof.
  intros P F (a & f & b & E & U & C & V). unfold content_encoding_s. cbn [hc_count hc_chain].
  replace (length ps + length fs =? 0)%nat with false by (symmetry; apply Nat.eqb_neq; subst fs; rewrite app_length; cbn [length]; lia).
  rewrite skip_pseudo_name by exact P. rewrite (proj2 (find_lower fs F) a f b E U C). cbn [obind].
  replace (nth_error (map stored ps ++ map delivered fs) (0 + length ps + length a)) with (Some (delivered f)); [cbn [delivered h_value]; congruence|].
  symmetry. rewrite nth_error_app2 by (rewrite map_length; lia). rewrite map_length. replace (0 + length ps + length a - length ps)%nat with (length a) by lia.
  subst fs. rewrite map_app, nth_error_app2 by (rewrite map_length; lia). rewrite map_length, Nat.sub_diag. reflexivity.
Qed.
Lemma skip_modified instant ps fs etag lm : Forall pseudo_field ps -> Forall field_ok fs -> Cache.not_modified instant (mkHci (map stored ps ++ map delivered fs) (length ps + length fs)) etag lm = Ok false.
Proof.
  intros P F. unfold Cache.not_modified, Cache.if_none_match, Cache.if_modified_since. cbn [hc_count hc_chain].
  assert (E1 : Cache.inm_loop (map stored ps ++ map delivered fs) etag = Ok false).
  { induction P as [|f ps PF _ IH]; [exact (CacheProofs.inm_delivered fs etag F)|]. destruct (colon_name f PF) as (n & EN). cbn [map app Cache.inm_loop]. unfold stored at 1, Cache.named. cbn [h_name]. rewrite EN. exact IH. }
  assert (E2 : Cache.ims_loop instant (map stored ps ++ map delivered fs) lm = Ok false).
  { clear E1. induction P as [|f ps PF _ IH]; [exact (CacheProofs.ims_delivered instant fs lm F)|]. destruct (colon_name f PF) as (n & EN). cbn [map app Cache.ims_loop]. unfold stored at 1, Cache.named. cbn [h_name]. rewrite EN. exact IH. }
  rewrite E1, E2. destruct (_ =? 0)%nat; reflexivity.
Qed.
Lemma skip_line conn ps fs : Forall field_ok fs -> line_from_header conn (map stored ps ++ map delivered fs) = line_from_header conn (map stored ps).
Proof.
  intros F. unfold line_from_header. f_equal. generalize (mkPline None (Some conn) None). induction ps as [|f ps IH]; intros l.
  - cbn [map app]. revert l. induction F as [|f fs (N1 & N2 & _) _ IH]; intros l; [reflexivity|]. cbn [map line_fields].
    assert (E : line_field (delivered f) l = Ok (Some l)).
    { unfold line_field, delivered. cbn [h_name]. destruct (f_name f) as [|c n] eqn:EN; [contradiction|]. cbn [map]. inversion N2 as [|? ? NC _]; subst.
      destruct (N.eqb_spec (lowercase c) 58) as [Q|Q]; [|reflexivity]. exfalso. rewrite <- lower_lowercase in Q. unfold lower in Q. destruct (_ && _)%bool eqn:B; [lia|]. apply name_char_class in NC as (_ & NC & _). congruence. }
    rewrite E. cbn [obind]. apply IH.
  - cbn [map app line_fields]. destruct (line_field (stored f) l) as [[l'|]|u]; cbn [obind]; [apply IH|reflexivity|reflexivity].
Qed.

(** The HTTP/1.1 vocabulary of ReqFlowLaws.v and the one of H2Req.v. *)
Inductive alike (ci : hci) : seen -> hseen -> Prop :=
| al_status k : alike ci (SStatus k) (HStatus k)
| al_file f : alike ci (SFile f) (HFile f)
| al_error : alike ci SError HFail
| al_handler rt ps r h body : alike ci (SHandler rt ps (Some r) h body) (HHandler rt ps r ci body).
Definition list_of (ps : list sent_field) (fs : list field) : hci := mkHci (map stored ps ++ map stored_regular fs) (length ps + length fs).
Lemma h2_final_alike e os r m p ps fs body : Forall pseudo_field ps -> Forall field_ok fs -> served e os r m p ->
  exists s s', h2_final e m r (mkHci (map stored ps ++ map delivered fs) (length ps + length fs)) body = Ok s' /\ dispatched e (MountProofs.srun [] os) r m p fs body s /\
    alike (mkHci (map stored ps ++ map delivered fs) (length ps + length fs)) s s'.
Proof.
  intros P F SV. destruct (final_spec e os r m p fs body F SV) as (s & FI & DI). destruct SV as (_ & _ & _ & LM & _).
  unfold final in FI. rewrite LM in FI. unfold h2_final. cbv zeta. destruct (Route.found_route _ _ _ _) as [[rt|]|u]; cbn [obind] in *; [| |discriminate FI].
  - destruct (Route.capture _ _ _) as [[c|]|u]; cbn [obind] in *; [| |discriminate FI].
    + destruct (e_null e (Route.rt_handler rt)); injection FI as <-; eexists _, _; (split; [reflexivity|]); (split; [exact DI|]); constructor.
    + injection FI as <-. eexists _, _. split; [reflexivity|]. split; [exact DI|]. constructor.
  - destruct (Mount.static_content _ _ _ _ _) as [[f| |]|u]; cbn [obind] in *; [| | |discriminate FI].
    + rewrite CacheProofs.not_modified_delivered in FI by exact F. rewrite skip_modified by assumption. cbn [obind] in *. injection FI as <-. eexists _, _. split; [reflexivity|]. split; [exact DI|]. constructor.
    + injection FI as <-. eexists _, _. split; [reflexivity|]. split; [exact DI|]. constructor.
    + injection FI as <-. eexists _, _. split; [reflexivity|]. split; [exact DI|]. constructor.
Qed.
(** The request line the pseudo-header fields stand for. *)
Definition names_request (ps : list sent_field) (m : method) (v : list N) : Prop :=
  Forall harmless ps /\ (exists f, last_of (kind_of (bs ":method")) ps f /\ starts (method_spelling m) (snd f)) /\ (exists f, last_of (kind_of (bs ":path")) ps f /\ snd f = v).
(** What is answered to a request with [n] as its declared length and [ds] in its DATA frames. *)
Inductive h2_says (e : env) (sp : list MountProofs.smount) (r : reqline) (m : method) (p : list N) (fs : list field) (ci : hci) (n : nat) (junk : list N) (ds : list (list N)) : hseen -> Prop :=
| hs_overrun : (total ds <> 0 -> n <= e_max e -> n < total ds -> h2_says e sp r m p fs ci n junk ds HFail)%nat
| hs_413 : (total ds <> 0 -> e_max e < n -> h2_says e sp r m p fs ci n junk ds (HStatus 413))%nat
| hs_refused s s' : (total ds = 0 \/ total ds <= n <= e_max e)%nat -> accept_says fs (Some s) -> alike ci s s' -> h2_says e sp r m p fs ci n junk ds s'
| hs_empty s s' : total ds = 0%nat -> accept_says fs None -> dispatched e sp r m p fs None s -> alike ci s s' -> h2_says e sp r m p fs ci n junk ds s'
| hs_body s s' : (0 < total ds <= n)%nat -> (n <= e_max e)%nat -> accept_says fs None ->
    dispatched e sp r m p fs (Some (concat ds ++ skipn (total ds) (fresh n junk))) s -> alike ci s s' -> h2_says e sp r m p fs ci n junk ds s'.
Lemma accept_seen fs o : accept_says fs o -> match o with Some SError | Some (SStatus _) | None => True | _ => False end.
Proof.
  assert (E : forall r s, enc_says r = Some s -> match s with SStatus _ => True | _ => False end) by (intros [] s Q; inversion Q; exact Logic.I).
  assert (M : forall r s, mime_says r = Some s -> match s with SStatus _ | SError => True | _ => False end) by (intros [] s Q; inversion Q; exact Logic.I).
  assert (C : forall r s, cl_says r = Some s -> match s with SStatus _ => True | _ => False end) by (intros [] s Q; inversion Q; exact Logic.I).
  intros [v r s _ _ Q|v r v1 r1 s _ _ _ _ _ Q|v r v1 r1 v2 r2 s _ _ _ _ _ _ _ _ Q|v r v1 r1 v2 r2 v3 r3 o' _ _ _ _ _ _ _ _ _ _ _ Q].
  - apply E in Q. destruct s; auto.
  - apply M in Q. destruct s; auto.
  - apply C in Q. destruct s; auto.
  - destruct o' as [s|]; [|exact Logic.I]. apply C in Q. destruct s; auto.
Qed.
Theorem h2_settled e os conn ps fs m v uri query r p n junk ds o : Forall clean ps -> Forall pseudo_field ps -> Forall regular fs ->
  names_request ps m v -> h2_target m v uri query -> r = mkReqline (Some m) uri query (Some V2) -> served e os r m p -> declares fs n -> (n = 0%nat \/ uncoded fs) -> accept_says fs o ->
  exists s, h2_request e conn (list_of ps fs) junk ds = Ok s /\ h2_says e (MountProofs.srun [] os) r m p fs (list_of ps fs) n junk ds s.
Proof.
  intros CL PS RG NR HT ER SV DC UC AS. assert (FO : Forall field_ok fs) by (revert RG; apply Forall_impl; intros f (A & _); exact A).
  unfold list_of. rewrite (stored_delivered fs RG). set (ci := mkHci _ _). destruct (declares_length fs n FO DC) as (CN & NB).
  unfold h2_request. unfold ci at 1. rewrite skip_length by exact PS. rewrite CN. cbn [obind]. rewrite (frames_exact _ n junk ds NB).
  assert (ANS : forall b, h2_answer e conn ci b = match b with BDiscard => Ok (HStatus 413) | _ =>
      obind (accept_phase ci) (fun a => match a with Some (Some k) => Ok (HStatus k) | Some None => Ok HFail | None => h2_final e m r ci (body_of b) end) end).
  { intros b. unfold h2_answer. unfold ci at 1. cbn [hc_chain]. rewrite skip_line by exact FO. rewrite (proj2 (line_exact conn ps m v CL) NR). cbn [obind].
    rewrite (proj2 (target_exact m v uri query) HT). cbn [obind]. rewrite <- ER. destruct b; try reflexivity.
    all: destruct (accept_phase ci) as [[[k|]|]|u]; cbn [obind]; try reflexivity; cbv zeta; unfold ci at 1; rewrite skip_length by exact PS; rewrite CN; cbn [obind];
      (destruct UC as [->|UC]; [reflexivity|]); (destruct (_ =? 0)%Z; [reflexivity|]); unfold ci at 1; rewrite skip_encoding by assumption; reflexivity. }
  assert (AP : accept_phase ci = accept_phase (mkHci (map delivered fs) (length fs))) by (apply skip_accept; exact PS).
  destruct (accept_phase_says fs o FO AS) as (a & AC & AO). rewrite AC in AP. pose proof (accept_seen fs o AS) as OS.
  assert (FIN : forall b body, body_of b = body -> b <> BDiscard -> (total ds = 0%nat \/ (total ds <= n <= e_max e)%nat) ->
    ((total ds = 0%nat /\ body = None) \/ ((0 < total ds <= n)%nat /\ (n <= e_max e)%nat /\ body = Some (concat ds ++ skipn (total ds) (fresh n junk)))) ->
    exists s, h2_answer e conn ci b = Ok s /\ h2_says e (MountProofs.srun [] os) r m p fs ci n junk ds s).
  { intros b body EB NB' OK BD. rewrite ANS, AP. cbn [obind]. destruct a as [[k|]|]; cbn [as_seen] in AO; subst o.
    - exists (HStatus k). split; [destruct b; congruence|]. eapply hs_refused; [exact OK|exact AS|constructor].
    - exists HFail. split; [destruct b; congruence|]. eapply hs_refused; [exact OK|exact AS|constructor].
    - destruct (h2_final_alike e os r m p ps fs body PS FO SV) as (s & s' & FI & DI & AL). exists s'. split; [rewrite EB; destruct b; [exact FI|congruence|exact FI]|].
      destruct BD as [(T0 & ->)|(TN & NM & ->)]; [eapply hs_empty; eassumption|eapply hs_body; eassumption]. }
  destruct (Nat.eqb_spec (total ds) 0) as [T0|T0]; [apply (FIN BNone None); [reflexivity|discriminate|auto|auto]|].
  destruct (Nat.ltb_spec (e_max e) n) as [LM|LM]; [rewrite ANS; eexists; split; [reflexivity|]; apply hs_413; assumption|].
  destruct (Nat.ltb_spec n (total ds)) as [LT|LT]; [eexists; split; [reflexivity|]; apply hs_overrun; assumption|].
  eapply FIN; [reflexivity|discriminate|right; lia|right; split; [lia|split; [lia|reflexivity]]].
Qed.
Theorem h2_same e os conn ps fs m v uri query r p n junk ds o : Forall clean ps -> Forall pseudo_field ps -> Forall regular fs ->
  names_request ps m v -> h2_target m v uri query -> r = mkReqline (Some m) uri query (Some V2) -> served e os r m p -> declares fs n -> (n = 0%nat \/ uncoded fs) -> accept_says fs o ->
  ~ expects_100 fs -> (n <= e_max e)%nat -> total ds = n ->
  exists s s', h2_request e conn (list_of ps fs) junk ds = Ok s' /\ alike (list_of ps fs) s s' /\ answered e (MountProofs.srun [] os) r m p fs n (concat ds) s.
Proof.
  intros CL PS RG NR HT ER SV DC UC AS NX LE TD. destruct (h2_settled e os conn ps fs m v uri query r p n junk ds o CL PS RG NR HT ER SV DC UC AS) as (s' & E & H).
  inversion H as [H1 H2 H3|H1 H2|s x H1 H2 H3|s x H1 H2 H3 H4|s x H1 H2 H3 H4 H5]; subst s'; try lia.
  - exists s, x. split; [exact E|]. split; [exact H3|]. apply an_refused. exact H2.
  - exists s, x. split; [exact E|]. split; [exact H4|]. apply an_empty; [exact H2|lia|exact H3].
  - exists s, x. split; [exact E|]. split; [exact H5|]. apply an_body; [exact H3|lia|exact NX|exact LE|].
    rewrite skipn_all2, app_nil_r in H4 by (rewrite fresh_len; lia). rewrite firstn_all2 by (unfold total in TD; lia). exact H4.
Qed.
(** A request with a Content-Encoding field and a body of the declared length: what becomes of it. *)
Definition no_such_coding (x : list N) : Prop := ~ In x [bs "gzip"; bs "x-gzip"; bs "deflate"; bs "identity"; bs "br"].
Lemma other_coding x : no_such_coding x -> obind (AcceptEnc.supported_content_encoding x) decode_now = UB NullDeref.
Proof.
  intros NX. unfold AcceptEnc.supported_content_encoding, AcceptEnc.encodes. cbn [List.find].
  repeat match goal with |- context [strcmp_eqb ?a x] => let B := fresh "B" in destruct (strcmp_eqb a x) eqn:B;
    [apply bytes_eqb_eq in B; subst x; first [reflexivity|exfalso; apply NX; cbn; tauto]|] end. reflexivity.
Qed.
Theorem h2_coded e os conn ps fs m v uri query r p n junk ds x : Forall clean ps -> Forall pseudo_field ps -> Forall regular fs ->
  names_request ps m v -> h2_target m v uri query -> r = mkReqline (Some m) uri query (Some V2) -> served e os r m p -> declares fs n -> coded fs x -> accept_says fs None ->
  (0 < n <= e_max e)%nat -> (0 < total ds <= n)%nat ->
  (In x [bs "gzip"; bs "x-gzip"] -> h2_request e conn (list_of ps fs) junk ds = Ok HFail) /\
  (In x [bs "deflate"; bs "identity"; bs "br"] -> exists s s', h2_request e conn (list_of ps fs) junk ds = Ok s' /\ alike (list_of ps fs) s s' /\ dispatched e (MountProofs.srun [] os) r m p fs (Some []) s) /\
  (no_such_coding x -> h2_request e conn (list_of ps fs) junk ds = UB NullDeref).
Proof.
  intros CL PS RG NR HT ER SV DC CO AS NM TD. assert (FO : Forall field_ok fs) by (revert RG; apply Forall_impl; intros f (A & _); exact A).
  unfold list_of. rewrite (stored_delivered fs RG). set (ci := mkHci _ _). destruct (declares_length fs n FO DC) as (CN & NB).
  assert (RQ : h2_request e conn ci junk ds = obind (obind (AcceptEnc.supported_content_encoding x) decode_now) (fun z => if (z =? -1)%Z then Ok HFail else h2_final e m r ci (Some []))).
  { unfold h2_request. unfold ci at 1. rewrite skip_length by exact PS. rewrite CN. cbn [obind]. rewrite (frames_exact _ n junk ds NB).
    replace (total ds =? 0)%nat with false by (symmetry; apply Nat.eqb_neq; lia). replace (e_max e <? n)%nat with false by (symmetry; apply Nat.ltb_ge; lia).
    replace (n <? total ds)%nat with false by (symmetry; apply Nat.ltb_ge; lia). set (b := BOpen _ _).
    unfold h2_answer. unfold ci at 1. cbn [hc_chain]. rewrite skip_line by exact FO. rewrite (proj2 (line_exact conn ps m v CL) NR). cbn [obind].
    rewrite (proj2 (target_exact m v uri query) HT). cbn [obind]. rewrite <- ER. unfold b. 
    assert (AP : accept_phase ci = accept_phase (mkHci (map delivered fs) (length fs))) by (apply skip_accept; exact PS).
    destruct (accept_phase_says fs None FO AS) as (a & AC & AO). rewrite AC in AP. destruct a as [[k|]|]; try discriminate AO. rewrite AP. cbn [obind].
    cbv zeta. unfold ci at 1. rewrite skip_length by exact PS. rewrite CN. cbn [obind].
    replace (size_t (Z.of_nat n) =? 0)%Z with false by (symmetry; apply Z.eqb_neq; unfold size_t; rewrite Z.mod_small; lia).
    unfold ci at 1. rewrite (take_encoding ps fs x PS FO CO). cbn [obind]. destruct (AcceptEnc.supported_content_encoding x) as [c|u]; cbn [obind decode_nowbody]; [|reflexivity].
    destruct (decode_now c) as [z|u]; cbn [obind]; [|reflexivity]. destruct (z =? -1)%Z; reflexivity. }
  rewrite RQ. split; [|split].
  - intros [<-|[<-|[]]]; reflexivity.
  - destruct (h2_final_alike e os r m p ps fs (Some []) PS FO SV) as (s & s' & FI & DI & AL). intros IN. exists s, s'. split; [|split; [exact AL|exact DI]]. rewrite <- FI.
    destruct IN as [<-|[<-|[<-|[]]]]; reflexivity.
  - intros NX. rewrite (other_coding x NX). reflexivity.
Qed.
(** No DATA frame: whatever the coding, the body that is to be decoded does not exist. *)
Theorem h2_coded_no_data e os conn ps fs m v uri query r p n junk ds x : Forall clean ps -> Forall pseudo_field ps -> Forall regular fs ->
  names_request ps m v -> h2_target m v uri query -> r = mkReqline (Some m) uri query (Some V2) -> served e os r m p -> declares fs n -> coded fs x -> accept_says fs None ->
  (0 < n)%nat -> concat ds = [] -> h2_request e conn (list_of ps fs) junk ds = UB NullDeref.
Proof.
  intros CL PS RG NR HT ER SV DC CO AS NM TD. assert (FO : Forall field_ok fs) by (revert RG; apply Forall_impl; intros f (A & _); exact A).
  unfold list_of. rewrite (stored_delivered fs RG). set (ci := mkHci _ _). destruct (declares_length fs n FO DC) as (CN & NB).
  unfold h2_request. unfold ci at 1. rewrite skip_length by exact PS. rewrite CN. cbn [obind]. rewrite (frames_exact _ n junk ds NB).
  replace (total ds =? 0)%nat with true by (symmetry; apply Nat.eqb_eq; unfold total; rewrite TD; reflexivity).
  unfold h2_answer. unfold ci at 1. cbn [hc_chain]. rewrite skip_line by exact FO. rewrite (proj2 (line_exact conn ps m v CL) NR). cbn [obind].
  rewrite (proj2 (target_exact m v uri query) HT). cbn [obind]. rewrite <- ER.
  assert (AP : accept_phase ci = accept_phase (mkHci (map delivered fs) (length fs))) by (apply skip_accept; exact PS).
  destruct (accept_phase_says fs None FO AS) as (a & AC & AO). rewrite AC in AP. destruct a as [[k|]|]; try discriminate AO. rewrite AP. cbn [obind].
  cbv zeta. unfold ci at 1. rewrite skip_length by exact PS. rewrite CN. cbn [obind].
  replace (size_t (Z.of_nat n) =? 0)%Z with false by (symmetry; apply Z.eqb_neq; unfold size_t; rewrite Z.mod_small; lia).
  unfold ci at 1. rewrite (take_encoding ps fs x PS FO CO). cbn [obind]. unfold AcceptEnc.supported_content_encoding. destruct (List.find _ _) as [c|]; reflexivity.
Qed.
(** An Accept-Language field with an empty value, sent with its name in full, is stored without a value: the language check reads it. *)
Lemma empty_language_crashes e conn ps v m uri query : Forall clean ps -> Forall pseudo_field ps -> names_request ps m v -> h2_target m v uri query ->
  h2_request e conn (mkHci (map stored ps ++ [new_hdr (bs "accept-language") []]) (length ps + 1)) [] [] = UB NullDeref.
Proof.
  intros CL PS NR HT. set (ci := mkHci _ _).
  assert (CN : content_length ci = Ok 0%Z).
  { unfold content_length, ci. cbn [hc_count hc_chain]. replace (length ps + 1 =? 0)%nat with false by (symmetry; apply Nat.eqb_neq; lia).
    clear -PS. induction PS as [|f ps PF _ IH]; [reflexivity|]. destruct (colon_name f PF) as (n & EN). cbn [map app]. unfold stored at 1. rewrite EN. exact IH. }
  unfold h2_request. rewrite CN. cbn [obind data_frames]. unfold h2_answer. unfold ci at 1. cbn [hc_chain].
  assert (LN : line_from_header conn (map stored ps ++ [new_hdr (bs "accept-language") []]) = Ok (Some (m, v))).
  { rewrite <- (proj2 (line_exact conn ps m v CL) NR). unfold line_from_header. f_equal. generalize (mkPline None (Some conn) None). induction ps as [|f ps IH]; intros l; [reflexivity|].
    inversion CL; inversion PS; subst. cbn [map app line_fields]. destruct (line_field (stored f) l) as [[l'|]|u]; cbn [obind]; [|reflexivity|reflexivity].
    clear -H2 H6. revert l'. induction ps as [|g ps IH]; intros l; [reflexivity|]. inversion H2; inversion H6; subst. cbn [map app line_fields]. destruct (line_field (stored g) l) as [[l'|]|u]; cbn [obind]; [|reflexivity|reflexivity]. apply IH; assumption. }
  rewrite LN. cbn [obind]. rewrite (proj2 (target_exact m v uri query) HT). cbn [obind].
  assert (LK : forall find, (forall n v t, find (mkHdr (Some (58 :: n)) (Some v) :: t) = find t) -> ReqFlow.lookup find ci = find [new_hdr (bs "accept-language") []]).
  { intros find H. unfold ReqFlow.lookup, ci. cbn [hc_count hc_chain]. rewrite (skip_find find ps _ H PS). replace (length ps + 1 =? 0)%nat with false by (symmetry; apply Nat.eqb_neq; lia). reflexivity. }
  unfold accept_phase. rewrite (LK find_ae skip_ae), (LK find_am skip_am), (LK find_ac skip_ac), (LK find_al skip_al). reflexivity.
Qed.
(** An empty :method or :scheme. *)
Lemma empty_pseudo_crashes conn fs x rest : Forall clean fs -> Forall harmless fs -> x = bs ":method" \/ x = bs ":scheme" ->
  line_from_header conn (map stored fs ++ new_hdr x [] :: rest) = UB NullDeref.
Proof.
  intros C H X. unfold line_from_header. generalize (mkPline None (Some conn) None). intros l.
  assert (E : line_fields (map stored fs ++ new_hdr x [] :: rest) l = UB NullDeref).
  { revert l. induction fs as [|f fs IH]; intros l.
    - destruct X as [-> | ->]; reflexivity.
    - inversion C as [|? ? C1 C2]; subst. inversion H as [|? ? H1 H2]; subst. cbn [map app line_fields]. destruct (line_field_spec f l C1) as (o & EO & FE). rewrite EO. cbn [obind].
      apply (effect_harmless f l o FE) in H1. destruct o as [l'|]; [|contradiction]. apply IH; assumption. }
  rewrite E. reflexivity.
Qed.
Lemma body_declared max junk ds : concat ds <> [] -> (length (concat ds) <= max)%nat -> (Z.of_nat (length (concat ds)) < 2 ^ 64)%Z ->
  option_map body_of (data_frames max (Z.of_nat (length (concat ds))) junk BNone ds) = Some (Some (concat ds)).
Proof.
  intros NE LE B. rewrite frames_exact by exact B. unfold total. set (c := concat ds) in *. clearbody c.
  destruct (Nat.eqb_spec (length c) 0) as [Z|_]; [destruct c; [contradiction|discriminate Z]|].
  replace (max <? length c)%nat with false by (symmetry; apply Nat.ltb_ge; exact LE). rewrite Nat.ltb_irrefl. cbn [option_map body_of]. do 2 f_equal.
  rewrite skipn_all2 by (rewrite fresh_len; lia). apply app_nil_r.
Qed.
Lemma undeclared_body max junk ds : concat ds <> [] -> data_frames max 0 junk BNone ds = None.
Proof.
  intros NE. pose proof (frames_exact max 0 junk ds eq_refl) as E. change (Z.of_nat 0) with 0%Z in E. rewrite E. unfold total.
  destruct (concat ds) as [|x c]; [contradiction|]. cbn [length]. change (S (length c) =? 0)%nat with false. destruct max; reflexivity.
Qed.
