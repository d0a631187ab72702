(** Properties C36 (Accept-Encoding decoding), C37 (the chosen coding is acceptable), C38 (most
    preferred), C39 (refused codings are not used). *)
From Verif Require Import Base CStr AcceptEnc AcceptEncProofs.

(** ** C36.  Every grammatical value (AcceptEncProofs.item_ok, sep_ok: RFC 7231 elements with names
    shorter than 20 bytes, no white space before a comma after an element without weight) is
    accepted, whatever its length, without touching memory outside the value; the result is the
    known codings in order.  The weight of an element without one is the last weight before it. *)
Theorem accept_encoding_decoded : forall it l, item_ok it -> Forall (fun p => sep_ok (fst p) /\ item_ok (snd p)) l ->
  parse_ae (render it l) = Ok (AeSuccess (decoded None (it :: map snd l))).
Proof. exact parse_decoded. Qed.
Print Assumptions accept_encoding_decoded.
Example accept_encoding_decoded_ex :
  let it := mkItem (bs "GZip") (Some (bs " ", [], WZero (bs "25"), [])) in
  let l := [(bs ", ", mkItem (bs "foo") None); (bs ",", mkItem (bs "br") (Some ([], bs " ", WOne 2, bs " ")))] in
  render it l = bs "GZip ;q=0.25, foo,br; q=1.00 " /\ decoded None (it :: map snd l) = [(CGzip, 25%Z); (CBr, 100%Z)] /\
  item_ok it /\ Forall (fun p => sep_ok (fst p) /\ item_ok (snd p)) l.
Proof.
  cbv zeta. split; [reflexivity|]. split; [vm_compute; reflexivity|]. split.
  - split; [discriminate|]. split; [cbn; lia|]. split; [repeat constructor|]. cbn. repeat split; try (repeat constructor; fail); try (constructor; auto; constructor); cbn; lia.
  - constructor; [|constructor; [|constructor]]; cbn [fst snd]; (split; [eexists; split; [reflexivity|repeat (constructor; [cbn; auto|]); constructor]|]);
      (split; [discriminate|]); (split; [cbn; lia|]); (split; [repeat constructor|]); cbn; auto. repeat split; try (repeat constructor; auto; fail); lia.
Qed.

(** The full claim (every element has its own quality, 1 when absent) holds when no element without
    a weight follows an element with one, up to the rounding described by [percent]. *)
Theorem accept_encoding_listed_partial : forall it l, item_ok it -> Forall (fun p => sep_ok (fst p) /\ item_ok (snd p)) l ->
  weights_last false (it :: map snd l) -> parse_ae (render it l) = Ok (AeSuccess (listed (it :: map snd l))).
Proof.
  intros it l I F W. rewrite (parse_decoded it l I F). f_equal. f_equal. apply (decoded_listed _ _ false); auto.
Qed.
Print Assumptions accept_encoding_listed_partial.
Example accept_encoding_listed_ex : listed [mkItem (bs "br") None; mkItem (bs "gzip") (Some ([], [], WZero (bs "5"), []))] = [(CBr, 100%Z); (CGzip, 50%Z)] /\
  weights_last false [mkItem (bs "br") None; mkItem (bs "gzip") (Some ([], [], WZero (bs "5"), []))].
Proof. split; [vm_compute; reflexivity|]. cbn. repeat split; discriminate. Qed.
(** Finding: a coding without a weight inherits the weight of an earlier element, here 0. *)
Theorem accept_encoding_default_weight_refuted : exists it l, item_ok it /\ Forall (fun p => sep_ok (fst p) /\ item_ok (snd p)) l /\
  render it l = bs "gzip;q=0, br" /\ parse_ae (render it l) = Ok (AeSuccess [(CGzip, 0%Z); (CBr, 0%Z)]) /\
  listed (it :: map snd l) = [(CGzip, 0%Z); (CBr, 100%Z)] /\ accept_encoding (Some (render it l)) = Ok Enc406.
Proof.
  exists (mkItem (bs "gzip") (Some ([], [], WZero [], []))), [(bs ", ", mkItem (bs "br") None)].
  split. { split; [discriminate|]. split; [cbn; lia|]. split; [repeat constructor|]. cbn. repeat split; try constructor; lia. }
  split. { constructor; [|constructor]. split; [eexists; split; [reflexivity|repeat (constructor; [cbn; auto|]); constructor]|]. split; [discriminate|]. split; [cbn; lia|]. split; [repeat constructor|exact I]. }
  split; [reflexivity|]. split; [vm_compute; reflexivity|]. split; vm_compute; reflexivity.
Qed.
Print Assumptions accept_encoding_default_weight_refuted.
(** Findings about the quality value: it is kept as a truncated percentage, so "q=0.29" gives 28
    and a positive quality below 0.01 becomes 0 ("not acceptable"). *)
Theorem accept_encoding_quality_refuted :
  parse_ae (bs "gzip;q=0.29") = Ok (AeSuccess [(CGzip, 28%Z)]) /\
  parse_ae (bs "br;q=0.005") = Ok (AeSuccess [(CBr, 0%Z)]) /\ accept_encoding (Some (bs "br;q=0.005")) = Ok Enc406.
Proof. repeat split; vm_compute; reflexivity. Qed.
Print Assumptions accept_encoding_quality_refuted.
(** The stored percentage never exceeds the true quality and is at most 1.9 percent below it. *)
Theorem accept_encoding_quality_bounds : forall w, weight_ok w ->
  (10 * percent w <= Z.of_N (thousandths w) /\ Z.of_N (thousandths w) < 10 * percent w + 19)%Z.
Proof. exact percent_bounds. Qed.
Print Assumptions accept_encoding_quality_bounds.
(** Finding: white space between an element without weight and the comma is a syntax error (400),
    although the grammar allows it. *)
Theorem accept_encoding_space_before_comma_refuted : accept_encoding (Some (bs "gzip , br")) = Ok Enc400.
Proof. vm_compute. reflexivity. Qed.
Print Assumptions accept_encoding_space_before_comma_refuted.
(** Finding: a token of 20 bytes overruns the 20-byte name buffer by one, and a quality of six
    characters ("00.123") its 6-byte buffer. *)
Theorem accept_encoding_overrun_refuted :
  parse_ae (bs "aaaaaaaaaaaaaaaaaaaa") = UB OutOfBounds /\ parse_ae (bs "gzip;q=00.123") = UB OutOfBounds.
Proof. split; vm_compute; reflexivity. Qed.
Print Assumptions accept_encoding_overrun_refuted.
(** Parsing ends on every input. *)
Theorem accept_encoding_terminates : forall v, parse_ae v <> UB Diverges.
Proof. exact parse_total. Qed.
Print Assumptions accept_encoding_terminates.

(** ** C37.  For all decoded lists: one coding is chosen iff some quality is positive, and it is one
    with positive quality ("*" stands for gzip); 406 iff the list is non-empty and no quality is
    positive. *)
Theorem accept_encoding_chosen_acceptable : forall l i c, decide l = DUse i c ->
  exists c0 q, nth_error l i = Some (c0, q) /\ (0 < q)%Z /\ c = (if coding_eqb c0 CAny then CGzip else c0).
Proof. exact decide_use. Qed.
Print Assumptions accept_encoding_chosen_acceptable.
Theorem accept_encoding_406_iff : forall l, decide l = DNotAcceptable <-> l <> [] /\ Forall (fun e => snd e <= 0)%Z l.
Proof. exact decide_na. Qed.
Print Assumptions accept_encoding_406_iff.
Theorem accept_encoding_none_iff : forall l, decide l = DNone <-> l = [].
Proof. exact decide_none. Qed.
Print Assumptions accept_encoding_none_iff.
Example accept_encoding_chosen_ex : decide [(CBr, 0%Z); (CAny, 30%Z)] = DUse 1 CGzip /\ decide [(CBr, 0%Z)] = DNotAcceptable.
Proof. split; reflexivity. Qed.

(** ** C38.  The chosen coding has maximal quality when every later entry of higher quality also has
    a higher built-in priority. *)
Theorem accept_encoding_most_preferred_partial : forall l i c, prio_agrees l -> decide l = DUse i c ->
  exists c0 q, nth_error l i = Some (c0, q) /\ maximal l q.
Proof. exact decide_max. Qed.
Print Assumptions accept_encoding_most_preferred_partial.
Example accept_encoding_most_preferred_ex : prio_agrees [(CBr, 20%Z); (CGzip, 80%Z)] /\ decide [(CBr, 20%Z); (CGzip, 80%Z)] = DUse 1 CGzip.
Proof.
  split; [|reflexivity]. intros [|[|i]] [|[|j]] c q c' q' L A B; try lia; cbn in A, B; try (destruct j; discriminate).
  injection A as <- <-. injection B as <- <-. reflexivity.
Qed.
(** Finding: the quality values alone do not decide; "deflate;q=0.5, br;q=1.0" chooses deflate. *)
Theorem accept_encoding_most_preferred_refuted : exists l i c c0 q,
  parse_ae (bs "deflate;q=0.5, br;q=1.0") = Ok (AeSuccess l) /\ decide l = DUse i c /\ nth_error l i = Some (c0, q) /\ ~ maximal l q.
Proof.
  exists [(CDeflate, 50%Z); (CBr, 100%Z)], 0, CDeflate, CDeflate, 50%Z. split; [vm_compute; reflexivity|]. split; [reflexivity|]. split; [reflexivity|].
  intros M. inversion M as [|? ? _ M']. inversion M' as [|? ? B _]. cbn in B. lia.
Qed.
Print Assumptions accept_encoding_most_preferred_refuted.

(** ** C39.  Without "*", with no coding listed twice with different weights, and with a pre-encoded
    file's coding not refused: the Content-Encoding used is listed, and never with quality 0. *)
Theorem accept_encoding_refused_unused_partial : forall l over pre c,
  (forall e, In e l -> c_type (fst e) <> EAsterisk) ->
  (forall e e', In e l -> In e' l -> c_type (fst e) = c_type (fst e') -> snd e = snd e') ->
  (forall p e, pre = Some p -> In e l -> c_type (fst e) = c_type p -> (0 < snd e)%Z) ->
  response_coding (accepted l) (decide l) pre over = Some c ->
  (exists e, In e l /\ c_type (fst e) = c_type c) /\ (forall e, In e l -> c_type (fst e) = c_type c -> (0 < snd e)%Z).
Proof. exact used_acceptable. Qed.
Print Assumptions accept_encoding_refused_unused_partial.
Example accept_encoding_refused_unused_ex : response_coding (accepted [(CGzip, 0%Z); (CBr, 70%Z)]) (decide [(CGzip, 0%Z); (CBr, 70%Z)]) None true = Some CBr.
Proof. reflexivity. Qed.
(** Findings: a file stored gzip-encoded is sent as gzip although the client refused gzip, and "*"
    is taken as gzip even when gzip is refused. *)
Theorem accept_encoding_refused_preencoded_refuted : exists l d,
  accept_encoding (Some (bs "gzip;q=0, identity;q=1")) = Ok (EncOk l d) /\ In (CGzip, 0%Z) l /\ response_coding l d (Some CGzip) false = Some CGzip.
Proof. eexists _, _. split; [vm_compute; reflexivity|]. split; [left; reflexivity|reflexivity]. Qed.
Print Assumptions accept_encoding_refused_preencoded_refuted.
Theorem accept_encoding_star_refuted : exists l d,
  accept_encoding (Some (bs "gzip;q=0, *;q=1")) = Ok (EncOk l d) /\ In (CGzip, 0%Z) l /\ response_coding l d None true = Some CGzip.
Proof. eexists _, _. split; [vm_compute; reflexivity|]. split; [left; reflexivity|reflexivity]. Qed.
Print Assumptions accept_encoding_star_refuted.
