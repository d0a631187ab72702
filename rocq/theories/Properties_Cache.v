(** Properties C34, C75, C87 and C88: entity tags, log time and conditional requests. *)
From Verif Require Import Base CStr CNum Status Names NamesProofs Header HeaderProofs Cache CacheProofs.
Local Open Scope N_scope.

(** ** C34: files whose digests differ get different entity tags *)
(** Exactly: two digests get the same tag iff they agree byte by byte, bytes of 128 or more counting as
    equal; the tag is the hexadecimal spelling, two characters per byte. *)
Theorem etag_exact d1 d2 :
  (etag_of_digest d1 = etag_of_digest d2 <-> Forall2 same_or_high d1 d2) /\
  (Forall (fun b => b < 256) d1 -> length (etag_of_digest d1) = (2 * length d1)%nat /\ Forall hex_char (etag_of_digest d1)).
Proof. exact (conj (etag_eq d1 d2) (etag_text d1)). Qed.
Print Assumptions etag_exact.
(** Missing from the full statement: digests with bytes of 128 or more. *)
Theorem etag_distinguishes_partial d1 d2 : Forall (fun b => b < 128) d1 -> d1 <> d2 -> etag_of_digest d1 <> etag_of_digest d2.
Proof. exact (fun F D E => D (low_same d1 d2 F (proj1 (etag_eq d1 d2) E))). Qed.
Print Assumptions etag_distinguishes_partial.
Example etag_distinguishes_nonvacuous :
  etag_of_digest [1; 2; 127; 10] = bs "01027f0a" /\ etag_of_digest [1; 2; 127; 11] <> etag_of_digest [1; 2; 127; 10].
Proof. split; [reflexivity|]. apply etag_distinguishes_partial; [repeat constructor; lia|discriminate]. Qed.
(** Two 16-byte digests that differ in every byte and share a tag. *)
Theorem etag_distinguishes_refuted : exists d1 d2,
  length d1 = 16%nat /\ length d2 = 16%nat /\ Forall (fun b => b < 256) d1 /\ Forall (fun b => b < 256) d2 /\
  Forall2 (fun a b => a <> b) d1 d2 /\ etag_of_digest d1 = etag_of_digest d2.
Proof.
  exists (repeat 128 16), (repeat 255 16). repeat split; try reflexivity; cbn [repeat]; repeat constructor; try lia; discriminate.
Qed.
Print Assumptions etag_distinguishes_refuted.
(** For one file, different times give different texts to digest as long as the modification times
    have the same number of digits. *)
Theorem etag_input_partial name m1 c1 m2 c2 t1 t2 :
  md5_source name m1 c1 = Ok (Some t1) -> md5_source name m2 c2 = Ok (Some t2) ->
  length (dec (Z.to_N m1)) = length (dec (Z.to_N m2)) -> (m1, c1) <> (m2, c2) -> t1 <> t2.
Proof.
  rewrite !md5_source_spec. destruct (Z.ltb_spec 0 m1), (Z.ltb_spec 0 c1), (Z.ltb_spec 0 m2), (Z.ltb_spec 0 c2); cbn [andb]; try discriminate.
  intros [= <-] [= <-] L D E. apply D. apply app_inv_head in E. apply same_length_app in E; [|exact L]. destruct E as [E1 E2].
  apply dec_inj in E1, E2. apply to_N_inj in E1, E2; congruence.
Qed.
Print Assumptions etag_input_partial.
Example etag_input_nonvacuous : md5_source (bs "index.html") 1700000000 1700000001 = Ok (Some (bs "index.html17000000001700000001")).
Proof. reflexivity. Qed.
Theorem etag_input_refuted : exists name m1 c1 m2 c2 t,
  (m1, c1) <> (m2, c2) /\ md5_source name m1 c1 = Ok (Some t) /\ md5_source name m2 c2 = Ok (Some t).
Proof. exists (bs "a"), 1%Z, 12%Z, 11%Z, 2%Z, (bs "a112"). repeat split; discriminate. Qed.
Print Assumptions etag_input_refuted.

(** ** C88: every regular file gets an entity tag *)
(** Exactly: the computation succeeds iff both times are after the epoch. *)
Theorem etag_computed_exact md5 name mtime ctime :
  exists o, file_etag md5 name mtime ctime = Ok o /\ (o <> None <-> (0 < mtime /\ 0 < ctime)%Z) /\
  (forall tag, o = Some tag -> tag = etag_of_digest (md5 (name ++ dec (Z.to_N mtime) ++ dec (Z.to_N ctime)))).
Proof.
  rewrite file_etag_spec. eexists. split; [reflexivity|]. destruct (Z.ltb_spec 0 mtime), (Z.ltb_spec 0 ctime); cbn [andb];
    (split; [split; [try congruence; lia|try discriminate; lia]|congruence]).
Qed.
Print Assumptions etag_computed_exact.
Example etag_computed_nonvacuous : file_etag (fun _ => [171; 10]) (bs "a") 5 7 = Ok (Some (bs "ff0a")).
Proof. reflexivity. Qed.
Theorem etag_computed_refuted : exists name mtime ctime, (0 <= mtime)%Z /\ (0 < ctime)%Z /\ forall md5, file_etag md5 name mtime ctime = Ok None.
Proof. exists (bs "index.html"), 0%Z, 1700000000%Z. split; [lia|]. split; [lia|]. intros md5. rewrite file_etag_spec. reflexivity. Qed.
Print Assumptions etag_computed_refuted.

(** ** C87: conditional requests *)
(** Missing: requests that carry a condition the file meets.  A request that carries none is answered
    with the file. *)
Theorem conditional_request_partial instant fs etag lm : Forall field_ok fs -> unmodified instant fs etag lm = false ->
  not_modified instant (mkHci (map delivered fs) (length fs)) etag lm = Ok (unmodified instant fs etag lm).
Proof. intros F ->. exact (not_modified_delivered instant fs _ etag lm F). Qed.
Print Assumptions conditional_request_partial.
(** No condition is ever found in a request, whatever it says. *)
Theorem conditional_request_never_found instant fs etag lm : Forall field_ok fs ->
  not_modified instant (mkHci (map delivered fs) (length fs)) etag lm = Ok false.
Proof. exact (not_modified_delivered instant fs _ etag lm). Qed.
Print Assumptions conditional_request_never_found.
Definition sample_condition := mkField (bs "If-None-Match") [32] (bs "0a1b").
Example conditional_request_nonvacuous : Forall field_ok [sample_condition; mkField (bs "Host") [32] (bs "x")] /\ 
  unmodified (fun _ => None) [mkField (bs "Host") [32] (bs "x")] (bs "0a1b") [] = false.
Proof. split; [apply fields_okb_ok; reflexivity|reflexivity]. Qed.
Theorem conditional_request_refuted : exists instant fs etag lm,
  Forall field_ok fs /\ unmodified instant fs etag lm = true /\ not_modified instant (mkHci (map delivered fs) (length fs)) etag lm = Ok false.
Proof.
  exists (fun _ => None), [sample_condition], (bs "0a1b"), []. split; [apply fields_okb_ok; reflexivity|]. split; reflexivity.
Qed.
Print Assumptions conditional_request_refuted.
(** Were the field found, 304 would be answered for every pair of dates that can be read, also when the
    file is newer than the date of the request. *)
Theorem modified_since_ignores_order instant v lm : no_nul v ->
  if_modified_since instant (mkHci [exact_field (bs "If-Modified-Since") v] 1) lm =
  Ok (match instant v, instant lm with Some _, Some _ => true | _, _ => false end).
Proof. exact (ims_exact instant v lm). Qed.
Print Assumptions modified_since_ignores_order.
Example modified_since_nonvacuous :
  if_modified_since (fun s => Some (Z.of_nat (length s))) (mkHci [exact_field (bs "If-Modified-Since") (bs "1")] 1) (bs "22") = Ok true.
Proof. reflexivity. Qed.

(** ** C75: the offset printed in log records *)
(** Missing: zones whose offset is not a whole number of hours, and daylight saving time. *)
Theorem log_offset_partial date z t : representable z t -> (z_std z mod 3600 = 0)%Z -> z_dst z = 0%Z ->
  exists text, logtime date z t = Some (date ++ text) /\ denotes text (z_std z + z_dst z).
Proof. exact (logtime_hours date z t). Qed.
Print Assumptions log_offset_partial.
Example log_offset_nonvacuous : representable (mkZone 32400 0) 1700000000 /\
  logtime (bs "2023-11-14 22:13:20") (mkZone 32400 0) 1700000000 = Some (bs "2023-11-14 22:13:20 [UTC+9:00]").
Proof. split; [unfold representable; cbn; lia|reflexivity]. Qed.
(** An offset text denotes at most one offset. *)
Theorem log_offset_unambiguous text a b : denotes text a -> denotes text b -> a = b.
Proof. exact (denotes_fun text a b). Qed.
Print Assumptions log_offset_unambiguous.
(** With a minute or more beyond the full hours the text denotes no offset at all. *)
Theorem log_offset_minutes date z t : representable z t -> (60 <= Z.abs (z_std z) mod 3600)%Z ->
  exists text, logtime date z t = Some (date ++ text) /\ forall o, ~ denotes text o.
Proof. exact (logtime_minutes date z t). Qed.
Print Assumptions log_offset_minutes.
(** While daylight saving time is in force the text is wrong in every zone. *)
Theorem log_offset_summer date z t : representable z t -> (z_std z mod 60 = 0)%Z -> z_dst z <> 0%Z ->
  exists text, logtime date z t = Some (date ++ text) /\ ~ denotes text (z_std z + z_dst z).
Proof. exact (logtime_dst date z t). Qed.
Print Assumptions log_offset_summer.
Example log_offset_summer_nonvacuous : representable (mkZone (-18000) 3600) 1700000000 /\
  logtime [] (mkZone (-18000) 3600) 1700000000 = Some (bs " [UTC-5:00]") /\ logtime [] (mkZone 19800 0) 1700000000 = Some (bs " [UTC+5:1800]").
Proof. split; [unfold representable; cbn; lia|]. split; reflexivity. Qed.
Theorem log_offset_refuted : exists date z t text,
  representable z t /\ z_dst z = 0%Z /\ logtime date z t = Some (date ++ text) /\ ~ denotes text (z_std z).
Proof.
  exists (bs "2023-11-14 22:13:20"), (mkZone 19800 0), 1700000000%Z.
  destruct (logtime_minutes (bs "2023-11-14 22:13:20") (mkZone 19800 0) 1700000000) as (text & E & Nd); [unfold representable; cbn; lia|cbn; lia|].
  exists text. split; [unfold representable; cbn; lia|]. split; [reflexivity|]. split; [exact E|apply Nd].
Qed.
Print Assumptions log_offset_refuted.
