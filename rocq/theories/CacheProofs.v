(** Proofs about entity tags, conditional requests and log time. *)
From Verif Require Import Base CStr CNum Status Names NamesProofs Header HeaderProofs Cache.
Local Open Scope N_scope.

(** ** Entity tags *)
(** Two bytes the entity tag tells apart: not both 128 or more, and different. *)
Definition same_or_high (a b : N) : Prop := a = b \/ (128 <= a /\ 128 <= b).
Lemma hexdigit_inj a b : a < 16 -> b < 16 -> hexdigit a = hexdigit b -> a = b.
Proof. unfold hexdigit. destruct (N.ltb_spec a 10), (N.ltb_spec b 10); lia. Qed.
Lemma hex_byte_two b : exists x y, hex_byte b = [x; y].
Proof. unfold hex_byte. destruct (b <? 128); cbn [bs firstn app]; eauto. Qed.
Lemma hex_byte_high b : 128 <= b -> hex_byte b = [102; 102].
Proof. intros H. unfold hex_byte. destruct (N.ltb_spec b 128); [lia|]. reflexivity. Qed.
Lemma hex_byte_low b : b < 128 -> hex_byte b = [hexdigit (b / 16); hexdigit (b mod 16)].
Proof. intros H. unfold hex_byte. destruct (N.ltb_spec b 128); [reflexivity|lia]. Qed.
Lemma low_parts b : b < 128 -> b / 16 < 8 /\ b mod 16 < 16 /\ b = 16 * (b / 16) + b mod 16.
Proof.
  intros H. split; [apply N.div_lt_upper_bound; lia|]. split; [apply N.mod_lt; lia|apply N.div_mod; lia].
Qed.
Lemma hex_byte_eq a b : hex_byte a = hex_byte b <-> same_or_high a b.
Proof.
  unfold same_or_high. split.
  - intros E. destruct (N.ltb_spec a 128) as [A|A], (N.ltb_spec b 128) as [B|B].
    + left. rewrite !hex_byte_low in E by assumption. injection E as E1 E2.
      destruct (low_parts _ A) as (? & ? & ?), (low_parts _ B) as (? & ? & ?).
      apply hexdigit_inj in E1; [|lia..]. apply hexdigit_inj in E2; [|lia..]. lia.
    + exfalso. rewrite hex_byte_low, hex_byte_high in E by assumption. injection E as E1 _.
      destruct (low_parts _ A) as (? & ? & ?). unfold hexdigit in E1. destruct (N.ltb_spec (a / 16) 10); lia.
    + exfalso. rewrite hex_byte_high, hex_byte_low in E by assumption. injection E as E1 _.
      destruct (low_parts _ B) as (? & ? & ?). unfold hexdigit in E1. destruct (N.ltb_spec (b / 16) 10); lia.
    + right. lia.
  - intros [->|[A B]]; [reflexivity|]. rewrite !hex_byte_high by assumption. reflexivity.
Qed.
Lemma etag_eq d1 : forall d2, etag_of_digest d1 = etag_of_digest d2 <-> Forall2 same_or_high d1 d2.
Proof.
  induction d1 as [|a d1 IH]; intros d2.
  - destruct d2 as [|b d2]; cbn [etag_of_digest flat_map].
    + split; [constructor|reflexivity].
    + split; intros H; [|inversion H]. destruct (hex_byte_two b) as (x & y & E). rewrite E in H. discriminate.
  - destruct d2 as [|b d2].
    + split; intros H; [|inversion H]. cbn [etag_of_digest flat_map] in H. destruct (hex_byte_two a) as (x & y & E). rewrite E in H. discriminate.
    + change (etag_of_digest (a :: d1)) with (hex_byte a ++ etag_of_digest d1). change (etag_of_digest (b :: d2)) with (hex_byte b ++ etag_of_digest d2).
      destruct (hex_byte_two a) as (x & y & E), (hex_byte_two b) as (u & v & F). split.
      * intros H. rewrite E, F in H. cbn [app] in H. injection H as -> -> H. constructor; [apply hex_byte_eq; congruence|apply IH; exact H].
      * intros H. inversion H; subst. rewrite (proj2 (hex_byte_eq a b)) by assumption. f_equal. apply IH. assumption.
Qed.
Definition hex_char (c : N) : Prop := 48 <= c <= 57 \/ 97 <= c <= 102.
Lemma etag_text d : Forall (fun b => b < 256) d -> length (etag_of_digest d) = (2 * length d)%nat /\ Forall hex_char (etag_of_digest d).
Proof.
  induction 1 as [|b d B F IH]; [split; [reflexivity|constructor]|].
  change (etag_of_digest (b :: d)) with (hex_byte b ++ etag_of_digest d). destruct IH as [L H].
  destruct (hex_byte_two b) as (x & y & E). split.
  - rewrite E. cbn [app length]. lia.
  - apply Forall_app. split; [|exact H]. destruct (N.ltb_spec b 128) as [Q|Q].
    + rewrite hex_byte_low by exact Q. destruct (low_parts _ Q) as (? & ? & _). unfold hexdigit, hex_char.
      constructor; [destruct (N.ltb_spec (b / 16) 10); lia|constructor; [destruct (N.ltb_spec (b mod 16) 10); lia|constructor]].
    + rewrite hex_byte_high by exact Q. constructor; [|constructor; [|constructor]]; unfold hex_char; lia.
Qed.
Lemma low_same d1 d2 : Forall (fun b => b < 128) d1 -> Forall2 same_or_high d1 d2 -> d1 = d2.
Proof.
  intros F H. induction H as [|a b d1 d2 Q H IH]; [reflexivity|]. inversion F; subst. destruct Q as [->|[Q _]]; [|lia].
  f_equal. apply IH. assumption.
Qed.

(** ** The text whose digest is taken *)
Lemma digits_loop_neg : forall fuel a i, digits_loop fuel (- a) i = digits_loop fuel a i.
Proof.
  induction fuel as [|f IH]; intros a i; cbn [digits_loop].
  - destruct (Z.eqb_spec (- a) 0), (Z.eqb_spec a 0); try lia; reflexivity.
  - destruct (Z.eqb_spec (- a) 0), (Z.eqb_spec a 0); try lia; [reflexivity|]. rewrite Z.quot_opp_l by lia. apply IH.
Qed.
Lemma digits_loop_pos : forall fuel n i, n < 2 ^ N.of_nat fuel -> n <> 0 -> digits_loop fuel (Z.of_N n) i = Ok (i + length (dec_loop fuel n []))%nat.
Proof.
  induction fuel as [|f IH]; intros n i H Z; [cbn in H; lia|]. cbn [digits_loop dec_loop].
  destruct (Z.eqb_spec (Z.of_N n) 0); [lia|].
  assert (Q : Z.quot (Z.of_N n) 10 = Z.of_N (n / 10)) by (rewrite N2Z.inj_div; apply Z.quot_div_nonneg; lia). rewrite Q.
  destruct (N.eqb_spec (n / 10) 0) as [E|E].
  - rewrite E. destruct f; cbn [digits_loop]; cbn [Z.of_N Z.eqb length]; f_equal; lia.
  - rewrite IH; [|rewrite Nat2N.inj_succ, N.pow_succ_r in H by lia; apply N.div_lt_upper_bound; [lia|];
      assert (0 < 2 ^ N.of_nat f) by (apply N.neq_0_lt_0, N.pow_nonzero; lia); lia|exact E].
    rewrite (dec_loop_acc f _ [_]), app_length. cbn [length]. f_equal. lia.
Qed.
Lemma number_of_digits_pos p : number_of_digits_time (Zpos p) = Ok (length (dec (Npos p))).
Proof.
  unfold number_of_digits_time, dec. change (Z.abs (Zpos p)) with (Z.of_N (Npos p)).
  replace (Z.to_nat (Z.log2 (Z.of_N (Npos p)))) with (N.to_nat (N.log2 (Npos p))) by (destruct p; cbn [Z.log2 N.log2 Z.of_N]; lia).
  change (Zpos p) with (Z.of_N (Npos p)). rewrite digits_loop_pos; [reflexivity|apply dec_fuel|discriminate].
Qed.
Lemma number_of_digits_spec t :
  number_of_digits_time t = Ok (match t with Z0 => 0%nat | Zpos p => length (dec (Npos p)) | Zneg p => length (dec (Npos p)) end).
Proof.
  destruct t as [|p|p]; [reflexivity|apply number_of_digits_pos|].
  pose proof (number_of_digits_pos p) as H. unfold number_of_digits_time in *. change (Z.abs (Zneg p)) with (Z.abs (Zpos p)).
  change (Zneg p) with (- Zpos p)%Z. rewrite digits_loop_neg. exact H.
Qed.
Lemma md5_source_spec name mtime ctime :
  md5_source name mtime ctime = Ok (if (0 <? mtime)%Z && (0 <? ctime)%Z then Some (name ++ dec (Z.to_N mtime) ++ dec (Z.to_N ctime)) else None).
Proof.
  unfold md5_source. rewrite !number_of_digits_spec. cbn [obind]. f_equal. unfold ld, dec_z.
  destruct mtime as [|m|m], ctime as [|c|c]; cbn [Z.ltb Z.compare andb Z.to_N]; rewrite !app_length; cbn [bs app length];
    try change (length (dec 0)) with 1%nat; match goal with |- (if (?a <=? ?b)%nat then _ else _) = _ => destruct (Nat.leb_spec a b) end; try lia; reflexivity.
Qed.
Lemma same_length_app {A} (a b c d : list A) : length a = length c -> a ++ b = c ++ d -> a = c /\ b = d.
Proof.
  revert c. induction a as [|x a IH]; intros [|y c] L E; try discriminate; [auto|]. cbn in L, E. injection E as -> E. injection L as L.
  destruct (IH c L E) as [-> ->]. auto.
Qed.
Lemma to_N_inj a b : (0 < a)%Z -> (0 < b)%Z -> Z.to_N a = Z.to_N b -> a = b.
Proof. lia. Qed.
Lemma file_etag_spec md5 name mtime ctime :
  file_etag md5 name mtime ctime = Ok (if (0 <? mtime)%Z && (0 <? ctime)%Z then Some (etag_of_digest (md5 (name ++ dec (Z.to_N mtime) ++ dec (Z.to_N ctime)))) else None).
Proof. unfold file_etag. rewrite md5_source_spec. cbn [obind]. destruct (_ && _); reflexivity. Qed.

(** ** Conditional requests *)
Lemma named_delivered f x : field_ok f -> (exists c, In c x /\ 65 <= c <= 90) -> named (delivered f) x = false.
Proof.
  intros F U. pose proof (find_name_upper [f] x (Forall_cons _ F (Forall_nil _)) U 0%nat) as H.
  cbn [map find_name] in H. unfold name_is in H. unfold named. cbn [delivered h_name obind] in *.
  destruct (map lowercase (f_name f)); [reflexivity|]. destruct (strcmp_eqb _ _); [discriminate|reflexivity].
Qed.
Lemma inm_delivered fs etag : Forall field_ok fs -> inm_loop (map delivered fs) etag = Ok false.
Proof.
  induction 1 as [|f fs F H IH]; [reflexivity|]. cbn [map inm_loop].
  rewrite named_delivered; [exact IH|exact F|]. exists 73. split; [cbn; auto|lia].
Qed.
Lemma ims_delivered instant fs lm : Forall field_ok fs -> ims_loop instant (map delivered fs) lm = Ok false.
Proof.
  induction 1 as [|f fs F H IH]; [reflexivity|]. cbn [map ims_loop].
  rewrite named_delivered; [exact IH|exact F|]. exists 73. split; [cbn; auto|lia].
Qed.
Lemma not_modified_delivered instant fs n etag lm : Forall field_ok fs -> not_modified instant (mkHci (map delivered fs) n) etag lm = Ok false.
Proof.
  intros F. unfold not_modified, if_none_match, if_modified_since. cbn [hc_count hc_chain].
  destruct (n =? 0)%nat; cbn [obind]; [reflexivity|]. rewrite inm_delivered by exact F. cbn [obind]. apply ims_delivered. exact F.
Qed.
Lemma cmp_imt_spec instant a b : (0 <=? cmp_imt_fixdate instant a b)%Z = true <-> instant a <> None /\ instant b <> None.
Proof.
  unfold cmp_imt_fixdate. destruct (instant a) as [x|], (instant b) as [y|]; try (split; [discriminate|intros [? ?]; congruence]).
  destruct (y <=? x)%Z; split; intros; try reflexivity; split; discriminate.
Qed.
(** What a conditional request is meant to mean (RFC 9110, 13.1.1 and 13.1.3, with a single strong tag as
    the value): [names] spelled in any case. *)
Definition fold_case (s : list N) : list N := map lowercase s.
Definition field_named (x : list N) (f : field) : bool := bytes_eqb (fold_case (f_name f)) x.
Definition unmodified (instant : list N -> option Z) (fs : list field) (etag lm : list N) : bool :=
  match List.find (field_named (bs "if-none-match")) fs with
  | Some f => bytes_eqb (f_value f) etag
  | None =>
    match List.find (field_named (bs "if-modified-since")) fs with
    | Some f => match instant (f_value f), instant lm with Some a, Some b => (b <=? a)%Z | _, _ => false end
    | None => false
    end
  end.
(** The exact behaviour on a field list in which the names are spelled as the program spells them. *)
Definition exact_field (name value : list N) : hdr := mkHdr (Some name) (Some value).
Lemma ims_exact instant v lm : no_nul v ->
  if_modified_since instant (mkHci [exact_field (bs "If-Modified-Since") v] 1) lm = Ok (match instant v, instant lm with Some _, Some _ => true | _, _ => false end).
Proof.
  intros Hv. unfold if_modified_since. cbn [hc_count hc_chain Nat.eqb ims_loop]. unfold named, exact_field. cbn [h_name h_value].
  replace (strcmp_eqb (cstr (bs "If-Modified-Since")) (bs "If-Modified-Since")) with true by reflexivity.
  cbn [bs]. rewrite (cstr_no_nul _ Hv). f_equal. unfold cmp_imt_fixdate. destruct (instant v) as [a|], (instant lm) as [b|]; try reflexivity. destruct (b <=? a)%Z; reflexivity.
Qed.

(** ** Time zones in log records *)
(** The text "[UTC+h:mm]" with two-digit minutes below sixty denotes the offset ±(3600 h + 60 mm). *)
Definition offset_text (plus : bool) (h m : N) : list N :=
  bs " [UTC" ++ (if plus then bs "+" else bs "-") ++ dec h ++ bs ":" ++ [48 + m / 10; 48 + m mod 10] ++ bs "]".
Definition denotes (text : list N) (offset : Z) : Prop :=
  exists plus h m, text = offset_text plus h m /\ m < 60 /\ offset = ((if plus then 1 else -1) * (3600 * Z.of_N h + 60 * Z.of_N m))%Z.
(** A zone and instant for which the code does not mistake a legitimate value for an error. *)
Definition representable (z : zone) (t : Z) : Prop := (t <> -1 /\ t - z_std z <> -1 /\ z_std z <> 1)%Z.
Lemma logtime_eq date z t : representable z t ->
  logtime date z t = Some (date ++ bs " [UTC" ++ (if (0 <? z_std z)%Z then bs "+" else bs "-") ++ dec (Z.to_N (Z.abs (z_std z) / 3600)) ++ bs ":" ++
     (if (Z.abs (z_std z) mod 3600 <? 10)%Z then bs "0" else []) ++ dec (Z.to_N (Z.abs (z_std z) mod 3600)) ++ bs "]").
Proof.
  intros (A & B & C). unfold logtime, time_diffsec.
  destruct (Z.eqb_spec (t - z_std z) (-1)); [lia|]. destruct (Z.eqb_spec t (-1)); [lia|]. cbn [orb].
  replace (t - z_std z - t)%Z with (- z_std z)%Z by lia. destruct (Z.eqb_spec (- z_std z) (-1)); [lia|].
  rewrite Z.abs_opp. f_equal. f_equal. f_equal.
  assert (P : forall a, (0 <= a)%Z -> dec_z a = dec (Z.to_N a)) by (intros [|p|p]; try reflexivity; lia).
  rewrite !P by (try apply Z.div_pos; try apply Z.mod_pos_bound; lia).
  f_equal. destruct (Z.ltb_spec (- z_std z) 0), (Z.ltb_spec 0 (z_std z)); try lia; reflexivity.
Qed.
Lemma logtime_hours date z t : representable z t -> (z_std z mod 3600 = 0)%Z -> z_dst z = 0%Z ->
  exists text, logtime date z t = Some (date ++ text) /\ denotes text (z_std z + z_dst z).
Proof.
  intros R M D. rewrite (logtime_eq date z t R). rewrite D, Z.add_0_r.
  assert (E : (Z.abs (z_std z) mod 3600 = 0)%Z).
  { apply Z.mod_divide; [lia|]. apply Z.mod_divide in M; [|lia]. apply Z.divide_abs_r. exact M. }
  rewrite E. cbn [Z.ltb Z.compare Z.to_N]. eexists. split; [reflexivity|].
  exists (0 <? z_std z)%Z, (Z.to_N (Z.abs (z_std z) / 3600)), 0. split; [reflexivity|]. split; [lia|].
  assert (P : (0 <= Z.abs (z_std z) / 3600)%Z) by (apply Z.div_pos; lia).
  pose proof (Z.div_mod (Z.abs (z_std z)) 3600 ltac:(lia)) as DM. rewrite E in DM. rewrite Z2N.id by exact P.
  destruct (Z.ltb_spec 0 (z_std z)); lia.
Qed.
Lemma dec_no_colon n : ~ In 58 (dec n).
Proof. intros H. pose proof (proj1 (Forall_forall _ _) (dec_digits n) _ H) as Q. cbv beta in Q. unfold is_digit in Q. lia. Qed.
Lemma split_colon a b c d : ~ In 58 a -> ~ In 58 c -> a ++ 58 :: b = c ++ 58 :: d -> a = c /\ b = d.
Proof.
  revert c. induction a as [|x a IH]; intros [|y c] A C E; cbn [app] in E.
  - injection E as ->. auto.
  - injection E as <- _. exfalso. apply C. left. reflexivity.
  - injection E as -> _. exfalso. apply A. left. reflexivity.
  - injection E as -> E. destruct (IH c) as [-> ->]; [intros Q; apply A; right; exact Q|intros Q; apply C; right; exact Q|exact E|]. auto.
Qed.
Lemma two_digits m : m < 60 -> dec_value [48 + m / 10; 48 + m mod 10] = m.
Proof. intros H. unfold dec_value. cbn [fold_left]. pose proof (N.div_mod m 10 ltac:(lia)). pose proof (N.mod_lt m 10 ltac:(lia)). lia. Qed.
(** The text determines the offset. *)
Lemma offset_text_inj p h m p' h' m' : m < 60 -> m' < 60 -> offset_text p h m = offset_text p' h' m' -> p = p' /\ h = h' /\ m = m'.
Proof.
  intros M M' E. unfold offset_text in E. apply app_inv_head in E.
  assert (p = p') by (destruct p, p'; try reflexivity; discriminate). subst p'. apply app_inv_head in E.
  change (bs ":" ++ ?x) with (58 :: x) in E. cbn [app] in E. apply split_colon in E; [|apply dec_no_colon..]. destruct E as [E1 E2].
  apply dec_inj in E1. split; [reflexivity|]. split; [exact E1|]. rewrite <- (two_digits m M), <- (two_digits m' M'). f_equal.
  apply (app_inv_tail (bs "]")). exact E2.
Qed.
Lemma denotes_fun text a b : denotes text a -> denotes text b -> a = b.
Proof.
  intros (p & h & m & E & M & ->) (p' & h' & m' & E' & M' & ->). subst text. apply offset_text_inj in E' as (-> & -> & ->); auto.
Qed.
(** In an offset that is not a whole number of hours the part after the colon counts seconds, and no
    text with minutes results unless fewer than sixty seconds are left over. *)
Lemma logtime_minutes date z t : representable z t -> (60 <= Z.abs (z_std z) mod 3600)%Z ->
  exists text, logtime date z t = Some (date ++ text) /\ forall o, ~ denotes text o.
Proof.
  intros R M. rewrite (logtime_eq date z t R). eexists. split; [reflexivity|].
  intros o (p & h & m & E & Hm & _). unfold offset_text in E. apply app_inv_head in E.
  assert (Q : (0 <? z_std z)%Z = p) by (destruct (0 <? z_std z)%Z, p; try reflexivity; discriminate). rewrite Q in E. apply app_inv_head in E.
  change (bs ":" ++ ?x) with (58 :: x) in E. cbn [app] in E. apply split_colon in E; [|apply dec_no_colon..]. destruct E as [_ E].
  destruct (Z.ltb_spec (Z.abs (z_std z) mod 3600) 10); [lia|]. cbn [app] in E.
  change (48 + m / 10 :: 48 + m mod 10 :: bs "]") with ([48 + m / 10; 48 + m mod 10] ++ bs "]") in E. apply app_inv_tail in E.
  apply (f_equal dec_value) in E. rewrite dec_value_dec, (two_digits m Hm) in E. lia.
Qed.
(** While daylight saving time is in force the offset printed is the standard one. *)
Lemma logtime_dst date z t : representable z t -> (z_std z mod 60 = 0)%Z -> z_dst z <> 0%Z ->
  exists text, logtime date z t = Some (date ++ text) /\ ~ denotes text (z_std z + z_dst z).
Proof.
  intros R M D. destruct (Z.ltb_spec (Z.abs (z_std z) mod 3600) 60) as [H|H].
  - assert (E : (z_std z mod 3600 = 0)%Z).
    { apply Z.mod_divide; [lia|]. apply Z.divide_abs_r. apply Z.mod_divide; [lia|].
      apply Z.mod_divide in M; [|lia]. apply Z.divide_abs_r in M. destruct M as [k M].
      pose proof (Z.div_mod (Z.abs (z_std z)) 3600 ltac:(lia)) as DM. pose proof (Z.mod_pos_bound (Z.abs (z_std z)) 3600 ltac:(lia)). lia. }
    destruct (logtime_hours date (mkZone (z_std z) 0) t R E eq_refl) as (text & L & Dn). cbn [z_std z_dst] in *. exists text.
    split; [exact L|]. intros Q. pose proof (denotes_fun _ _ _ Q Dn). lia.
  - destruct (logtime_minutes date z t R H) as (text & E & Nd). exists text. split; [exact E|apply Nd].
Qed.
