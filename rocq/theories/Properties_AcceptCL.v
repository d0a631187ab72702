(** Property C40: decoding of Accept-Charset and Accept-Language. *)
From Verif Require Import Base CStr AcceptEncProofs AcceptCL AcceptCLProofs.

(** The parser succeeds with list [l] exactly on the values of the grammar [tvalue] that denote [l]
    with names that fit the array; white space in [tvalue] is SP only for charsets. *)
Theorem accept_charset_decoded : forall v l, no_nul v ->
  (cl_parse false CHARSET_MAXLEN v = Ok (ClSuccess l) <-> tvalue false v l /\ Forall (fun el => length (fst el) < 30) l).
Proof. intros v l H. apply cl_exact; [unfold CHARSET_MAXLEN; lia|exact H]. Qed.
Print Assumptions accept_charset_decoded.
Theorem accept_language_decoded : forall v l, no_nul v ->
  (cl_parse true LANG_MAXLEN v = Ok (ClSuccess l) <-> tvalue true v l /\ Forall (fun el => length (fst el) < 10) l).
Proof. intros v l H. apply cl_exact; [unfold LANG_MAXLEN; lia|exact H]. Qed.
Print Assumptions accept_language_decoded.
Example accept_language_decoded_ex : no_nul (bs "en ;	q=0.5,, fr;q=1.0") /\ tvalue true (bs "en ;	q=0.5,, fr;q=1.0") [(bs "en", 500%N); (bs "fr", 1000%N)].
Proof.
  split; [apply no_nulb_ok; reflexivity|]. apply accept_language_decoded; [apply no_nulb_ok; reflexivity|]. vm_compute. reflexivity.
Qed.
(** The grammar is not ambiguous and contains the plain lists one writes by hand: independent of the
    parser. *)
Example accept_language_grammar_ex : tvalue true (bs "en;q=0.5, fr") [(bs "en", 500%N); (bs "fr", 1000%N)].
Proof.
  split; [discriminate|]. left. change (bs "en;q=0.5, fr") with (bs "en;q=0.5" ++ bs ", " ++ bs "fr").
  change [(bs "en", 500%N); (bs "fr", 1000%N)] with ([(bs "en", 500%N)] ++ [(bs "fr", 1000%N)]).
  apply TSnoc; [apply TFirst| |].
  - change 500%N with (thousandths (WZero (bs "5"))). apply (TWeight true (bs "en") [] [] (WZero (bs "5"))); try discriminate; repeat constructor.
  - exists (bs " "). split; [reflexivity|]. constructor; [right; left; reflexivity|constructor].
  - apply TName; [discriminate|repeat constructor].
Qed.

(** Answers: 400 exactly for the values outside the grammar, 406 exactly for those whose qualities
    are all 0, and otherwise the list is delivered — provided all names are short. *)
Theorem accept_charset_answer_partial : forall v, no_nul v -> v <> [] -> short 30 v ->
  (fly_accept_charset (Some v) = Ok Cl400 <-> forall l, ~ tvalue false v l) /\
  (fly_accept_charset (Some v) = Ok Cl406 <-> exists l, tvalue false v l /\ Forall (fun e => snd e = 0%N) l) /\
  (forall l, fly_accept_charset (Some v) = Ok (ClOk l) <-> tvalue false v l /\ Exists (fun e => snd e <> 0%N) l).
Proof. intros v H N S. unfold fly_accept_charset. destruct v as [|b v]; [contradiction|]. apply accept_exact; auto. unfold CHARSET_MAXLEN. lia. Qed.
Print Assumptions accept_charset_answer_partial.
Theorem accept_language_answer_partial : forall v, no_nul v -> short 10 v ->
  (fly_accept_language (Some v) = Ok Cl400 <-> forall l, ~ tvalue true v l) /\
  (fly_accept_language (Some v) = Ok Cl406 <-> exists l, tvalue true v l /\ Forall (fun e => snd e = 0%N) l) /\
  (forall l, fly_accept_language (Some v) = Ok (ClOk l) <-> tvalue true v l /\ Exists (fun e => snd e <> 0%N) l).
Proof. intros v H S. apply accept_exact; auto. unfold LANG_MAXLEN. lia. Qed.
Print Assumptions accept_language_answer_partial.
Example accept_language_answer_ex : short 10 (bs "en, fr;q=0").
Proof.
  intros a nm b E F. assert (length (bs "en, fr;q=0") = length a + length nm + length b) by (rewrite E, !app_length; lia). cbn in H.
  destruct (Nat.lt_ge_cases (length nm) 10) as [L|L]; [exact L|]. exfalso.
  destruct a; [|cbn in H; lia]. destruct b; [|cbn in H; lia]. cbn [app] in E. rewrite app_nil_r in E. subst nm.
  rewrite Forall_forall in F. specialize (F 44%N). cbn in F. discriminate F. auto.
Qed.
(** No header: everything is accepted; an empty Accept-Charset counts as absent. *)
Theorem accept_charset_language_absent : fly_accept_charset None = Ok (ClOk [(bs "*", 1000%N)]) /\
  fly_accept_charset (Some []) = Ok (ClOk [(bs "*", 1000%N)]) /\ fly_accept_language None = Ok (ClOk [(bs "*", 1000%N)]).
Proof. repeat split. Qed.
Print Assumptions accept_charset_language_absent.
(** Parsing ends on every value. *)
Theorem accept_charset_language_terminates : forall tab maxlen v, 0 < maxlen -> cl_parse tab maxlen v <> UB Diverges.
Proof. intros. now apply cl_total. Qed.
Print Assumptions accept_charset_language_terminates.

(** Findings.  Legal white space before a comma or at the end is answered 400 (tabs too, for
    charsets); an empty Accept-Language is answered 400; a language range of ten characters
    ("zh-Hant-TW") or a charset name of thirty writes behind its array; a leading comma yields an
    element with an empty name, which makes an otherwise unacceptable list acceptable. *)
Theorem accept_language_space_refuted : fly_accept_language (Some (bs "en , fr")) = Ok Cl400 /\ fly_accept_language (Some (bs "en;q=0.5 ")) = Ok Cl400 /\
  fly_accept_charset (Some (bs "utf-8;	q=0.5")) = Ok Cl400 /\ fly_accept_language (Some []) = Ok Cl400.
Proof. repeat split; vm_compute; reflexivity. Qed.
Print Assumptions accept_language_space_refuted.
Theorem accept_language_overrun_refuted : fly_accept_language (Some (bs "zh-Hant-TW")) = UB OutOfBounds /\
  fly_accept_charset (Some (bs "extended_unix_code_packed_form")) = UB OutOfBounds.
Proof. split; vm_compute; reflexivity. Qed.
Print Assumptions accept_language_overrun_refuted.
Theorem accept_language_comma_refuted : fly_accept_language (Some (bs ",en;q=0")) = Ok (ClOk [([], 1000%N); (bs "en", 0%N)]).
Proof. vm_compute. reflexivity. Qed.
Print Assumptions accept_language_comma_refuted.
