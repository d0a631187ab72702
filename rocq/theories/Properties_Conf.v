(** C71-C73: configuration files. *)
From Verif Require Import Base CStr CNum Conf ConfProofs.
Local Open Scope N_scope.

(** ** C71.  Full statement: a configuration file made of comments, blank lines and known 'name = value' lines sets
    exactly these options to these values (last one wins), leaving the others at their default; unknown names and lines
    without value are rejected.

    [line_means l None]: [l] is blank or a comment; [line_means l (Some (n, v))]: [l] gives the option [n] the value [v];
    [last_value n ms]: the value last given to [n]. *)
(** Missing: lines longer than 1022 bytes ([config_long_comment_refuted]), values with other characters
    ([config_value_chars_refuted]), integers that are multiples of 2^32 ([config_integer_exit_refuted]). *)
Theorem config_read_partial : forall lines ms, Forall2 line_means lines ms -> Forall fits lines -> Forall good_setting ms ->
  exists e, parse_config (file_of lines) = Ok (CSuccess e) /\
    forall i c, nth_error configs i = Some c -> e i = match last_value (c_name c) ms with Some v => Some v | None => c_default c end.
Proof. exact config_read_good. Qed.
Print Assumptions config_read_partial.
Definition demo_lines : list (list N) := [bs "# fly"; []; bs "port = 80"; bs "	host=127.0.0.1 "; bs "port=8080 "; bs "ssl=True"].
Definition demo_means : list (option (list N * list N)) :=
  [None; None; Some (bs "port", bs "80"); Some (bs "host", bs "127.0.0.1"); Some (bs "port", bs "8080"); Some (bs "ssl", bs "True")].
Definition line_meansb (l : list N) (m : option (list N * list N)) : bool :=
  negb (existsb (N.eqb 10) l) &&
  match p_init false (l ++ [10]), m with
  | LSkip, None => true
  | LEnd n v, Some (n', v') => bytes_eqb n n' && bytes_eqb v v'
  | _, _ => false
  end.
Lemma line_meansb_ok l m : line_meansb l m = true -> noLF l /\ line_means l m.
Proof.
  unfold line_meansb. intros H. apply andb_true_iff in H as (H1 & H2).
  assert (NL : noLF l). { intros I. apply negb_true_iff in H1. assert (existsb (N.eqb 10) l = true) by (apply existsb_exists; exists 10; split; [exact I|reflexivity]). congruence. }
  split; [exact NL|]. pose proof (pi_spec false l NL) as P. destruct (p_init false (l ++ [10])) as [| |n v]; destruct m as [[n' v']|]; try discriminate; [apply P; reflexivity|].
  apply andb_true_iff in H2 as (A & B). apply bytes_eqb_eq in A, B. subst. apply P. reflexivity.
Qed.
Lemma lines_meanb_ok : forall ls ms, length ls = length ms -> forallb (fun p => line_meansb (fst p) (snd p) && (length (fst p) <=? 1022)%nat) (combine ls ms) = true ->
  Forall2 line_means ls ms /\ Forall fits ls.
Proof.
  induction ls as [|l ls IH]; intros [|m ms] L H; try discriminate; [split; constructor|]. cbn [combine forallb fst snd] in H. apply andb_true_iff in H as (H1 & H2). apply andb_true_iff in H1 as (H0 & H1).
  apply line_meansb_ok in H0 as (NL & M). apply Nat.leb_le in H1. destruct (IH ms) as (A & B); [cbn in L; lia|exact H2|]. split; constructor; auto. split; assumption.
Qed.
Lemma known n : existsb (fun c => bytes_eqb (c_name c) n) configs = true -> is_option n.
Proof. intros H. apply existsb_exists in H as (c & I & B). apply bytes_eqb_eq in B. exists c. auto. Qed.
Lemma unknown n : existsb (fun c => bytes_eqb (c_name c) n) configs = false -> ~ is_option n.
Proof. intros H (c & I & E). assert (existsb (fun c => bytes_eqb (c_name c) n) configs = true) by (apply existsb_exists; exists c; split; [exact I|apply bytes_eqb_eq; exact E]). congruence. Qed.
Example config_read_nonvacuous : Forall2 line_means demo_lines demo_means /\ Forall fits demo_lines /\ Forall good_setting demo_means.
Proof.
  assert (NUM : forall v, negb (length v =? 0)%nat && forallb (fun c => (48 <=? c) && (c <=? 57)) v = true -> number v).
  { intros v H. apply andb_true_iff in H as (A & B). split; [intros ->; discriminate|]. rewrite forallb_forall in B. apply Forall_forall. intros c I. specialize (B c I). cbv beta in B. lia. }
  pose proof (lines_meanb_ok demo_lines demo_means eq_refl ltac:(vm_compute; reflexivity)) as (A & B). split; [exact A|]. split; [exact B|].
  assert (P : exists c, nth_error configs 6 = Some c /\ c_name c = bs "port" /\ c_type c = CInteger) by (eexists; split; [reflexivity|split; reflexivity]).
  assert (Hh : exists c, nth_error configs 5 = Some c /\ c_name c = bs "host" /\ c_type c = CString) by (eexists; split; [reflexivity|split; reflexivity]).
  assert (Hs : exists c, nth_error configs 7 = Some c /\ c_name c = bs "ssl" /\ c_type c = CBool) by (eexists; split; [reflexivity|split; reflexivity]).
  destruct P as (cp & P1 & P2 & P3). destruct Hh as (ch & H1 & H2 & H3). destruct Hs as (cs & S1 & S2 & S3).
  apply Forall_cons; [exact Logic.I|]. apply Forall_cons; [exact Logic.I|].
  apply Forall_cons; [exists cp; split; [eapply nth_error_In; exact P1|]; split; [exact P2|]; rewrite P3; split; [apply NUM; reflexivity|right; reflexivity]|].
  apply Forall_cons; [exists ch; split; [eapply nth_error_In; exact H1|]; split; [exact H2|]; rewrite H3; exact Logic.I|].
  apply Forall_cons; [exists cp; split; [eapply nth_error_In; exact P1|]; split; [exact P2|]; rewrite P3; split; [apply NUM; reflexivity|right; reflexivity]|].
  apply Forall_cons; [exists cs; split; [eapply nth_error_In; exact S1|]; split; [exact S2|]; rewrite S3; right; left; reflexivity|]. constructor.
Qed.
(** A line that is neither blank, nor a comment, nor 'name = value' with a known name is rejected, whatever follows. *)
Theorem config_bad_line_rejected : forall lines ms l rest, Forall2 line_means lines ms -> Forall fits lines -> Forall good_setting ms ->
  fits l -> (forall m, ~ line_means l m) \/ (exists n v, line_means l (Some (n, v)) /\ ~ exists c, In c configs /\ c_name c = n) ->
  exists e, parse_config (file_of lines ++ l ++ 10 :: rest) = Ok (CError e).
Proof. exact config_bad. Qed.
Print Assumptions config_bad_line_rejected.
Example config_unknown_nonvacuous : fits (bs "prot = 80") /\ line_means (bs "prot = 80") (Some (bs "prot", bs "80")) /\ ~ (exists c, In c configs /\ c_name c = bs "prot").
Proof.
  destruct (line_meansb_ok (bs "prot = 80") (Some (bs "prot", bs "80")) ltac:(vm_compute; reflexivity)) as (A & B).
  split; [split; [exact A|vm_compute; lia]|]. split; [exact B|]. apply (unknown (bs "prot")). vm_compute. reflexivity.
Qed.
Example config_no_value_nonvacuous : fits (bs "port =") /\ forall m, ~ line_means (bs "port =") m.
Proof.
  assert (NL : noLF (bs "port =")) by (vm_compute; intuition discriminate). split; [split; [exact NL|vm_compute; lia]|].
  pose proof (pi_spec false (bs "port =") NL) as P. change (p_init false (bs "port =" ++ [10])) with LSyntax in P. exact P.
Qed.
(** A line has one meaning at most, so [config_read_partial] is not ambiguous. *)
Theorem config_meaning_unique : forall l m m', ~ In 10 l -> line_means l m -> line_means l m' -> m = m'.
Proof.
  intros l m m' NL A B. pose proof (pi_spec false l NL) as P. destruct (p_init false (l ++ [10])) as [| |n v].
  - apply P in A, B. congruence.
  - exfalso. exact (P m A).
  - destruct P as (_ & _ & P). apply P in A, B. congruence.
Qed.
Print Assumptions config_meaning_unique.
(** What follows a value and a blank on its line is ignored. *)
Theorem config_trailing_text_ignored_refuted : exists rest e i, parse_config (bs "port = 80 " ++ rest ++ [10]) = Ok (CSuccess e) /\ nth_error configs i <> None /\
  rest = bs "host = 1.2.3.4" /\ e i = Some (bs "80") /\ e 5%nat = Some (bs "0.0.0.0").
Proof.
  exists (bs "host = 1.2.3.4"). destruct (parse_config (bs "port = 80 " ++ bs "host = 1.2.3.4" ++ [10])) as [[e| |]|] eqn:E; try (vm_compute in E; discriminate).
  exists e, 6%nat. split; [reflexivity|]. split; [discriminate|]. split; [reflexivity|]. vm_compute in E. injection E as <-. split; reflexivity.
Qed.
Print Assumptions config_trailing_text_ignored_refuted.
(** A host given as an IPv6 address is a syntax error. *)
Theorem config_value_chars_refuted : exists file e, file = bs "host = ::1" ++ [10] /\ parse_config file = Ok (CError e).
Proof. exists (bs "host = ::1" ++ [10]), defaults. split; reflexivity. Qed.
Print Assumptions config_value_chars_refuted.
(** A comment of 1023 bytes or more is not skipped to its end: the rest is read as a line. *)
Theorem config_long_comment_refuted : exists t e i, ~ In 10 (35 :: t) /\ parse_config (35 :: t ++ [10]) = Ok (CSuccess e) /\ e i <> defaults i.
Proof.
  set (t := repeat 46 1022 ++ bs "port=80"). exists t. destruct (parse_config (35 :: t ++ [10])) as [[e| |]|] eqn:E; try (vm_compute in E; discriminate). exists e, 6%nat.
  split; [|split; [reflexivity|vm_compute in E; injection E as <-; vm_compute; discriminate]].
  intros I. assert (existsb (N.eqb 10) (35 :: t) = true) by (apply existsb_exists; exists 10; split; [exact I|reflexivity]). vm_compute in H. discriminate.
Qed.
Print Assumptions config_long_comment_refuted.
(** An integer that is a multiple of 2^32 ends the process. *)
Theorem config_integer_exit_refuted : exists file, file = bs "max_request_content_length = 4294967296" ++ [10] /\ parse_config file = Ok CExit.
Proof. exists (bs "max_request_content_length = 4294967296" ++ [10]). split; reflexivity. Qed.
Print Assumptions config_integer_exit_refuted.

(** ** C72.  Full statement: a file whose last line is not terminated is read like one whose last line is. *)
(** This holds if the last line is a comment. *)
Theorem config_last_comment_partial : forall lines ms b t, Forall2 line_means lines ms -> Forall fits lines -> Forall good_setting ms ->
  fits (b ++ 35 :: t) -> ~ In 13 (b ++ 35 :: t) -> Forall blank b ->
  exists e e', parse_config (file_of lines ++ b ++ 35 :: t) = Ok (CSuccess e) /\ parse_config (file_of (lines ++ [b ++ 35 :: t])) = Ok (CSuccess e') /\
    forall i, (i < length configs)%nat -> e i = e' i.
Proof.
  intros lines ms b t M F G FI N13 Fb. assert (Fb' : Forall (fun c => blank c \/ c = 13) b) by (eapply Forall_impl; [|exact Fb]; auto).
  destruct (last_line lines ms (b ++ 35 :: t) M F G) as ((e & E & S) & _); [destruct b; discriminate|exact FI|exact N13|exists b, t; auto|].
  destruct (config_read_good (lines ++ [b ++ 35 :: t]) (ms ++ [None])) as (e' & E' & S').
  - apply Forall2_app; [exact M|]. constructor; [apply lm_comment; exact Fb'|constructor].
  - apply Forall_app. split; [exact F|]. constructor; [exact FI|constructor].
  - apply Forall_app. split; [exact G|]. constructor; [exact Logic.I|constructor].
  - exists e, e'. split; [exact E|]. split; [exact E'|]. intros i L. destruct (nth_error configs i) as [c|] eqn:Hi; [|apply nth_error_None in Hi; lia].
    rewrite S, (S' i c Hi), (final_env ms defaults i c Hi). unfold last_value. rewrite fold_left_app. cbn [fold_left]. unfold defaults. rewrite Hi. reflexivity.
Qed.
Print Assumptions config_last_comment_partial.
Example config_last_comment_nonvacuous : fits ([] ++ 35 :: bs "end") /\ ~ In 13 ([] ++ 35 :: bs "end") /\ Forall blank [].
Proof. split; [split; [vm_compute; intuition discriminate|vm_compute; lia]|]. split; [vm_compute; intuition discriminate|constructor]. Qed.
(** Otherwise it fails for every file: an unterminated last line that is not a comment (and has no carriage return) is an
    error, or the search for its end runs out of the buffer. *)
Theorem config_last_line_rejected : forall lines ms l, Forall2 line_means lines ms -> Forall fits lines -> Forall good_setting ms ->
  l <> [] -> fits l -> ~ In 13 l -> ~ (exists b t, l = b ++ 35 :: t /\ Forall (fun c => blank c \/ c = 13) b) ->
  (exists e, parse_config (file_of lines ++ l) = Ok (CError e)) \/ parse_config (file_of lines ++ l) = UB OutOfBounds.
Proof. intros lines ms l M F G NE FI N13 NC. exact (proj2 (last_line lines ms l M F G NE FI N13) NC). Qed.
Print Assumptions config_last_line_rejected.
Theorem config_last_line_refuted : exists l e e' i, parse_config (l ++ [10]) = Ok (CSuccess e) /\ e i = Some (bs "80") /\ parse_config l = Ok (CError e') /\ e' i = Some (bs "1234").
Proof.
  exists (bs "port = 80"). destruct (parse_config (bs "port = 80" ++ [10])) as [[e| |]|] eqn:E; try (vm_compute in E; discriminate). exists e, defaults, 6%nat.
  split; [reflexivity|]. split; [vm_compute in E; injection E as <-; reflexivity|]. split; reflexivity.
Qed.
Print Assumptions config_last_line_refuted.
(** With a blank at the end the buffer is left. *)
Theorem config_last_line_memory_refuted : exists l, parse_config l = UB OutOfBounds /\ exists e, parse_config (l ++ [10]) = Ok (CSuccess e).
Proof.
  exists (bs "port = 80 "). split; [reflexivity|]. destruct (parse_config (bs "port = 80 " ++ [10])) as [[e| |]|] eqn:E; try (vm_compute in E; discriminate). exists e. reflexivity.
Qed.
Print Assumptions config_last_line_memory_refuted.

(** ** C73.  Full statement: integer options yield the decimal value written (clamped to the representable range);
    boolean options yield true/false exactly for the documented spellings. *)
(** Reading an option whose variable holds a number. *)
Theorem config_number_partial : forall e i c v, nth_error configs i = Some c -> v <> [] -> Forall (fun d => 48 <= d <= 57) v ->
  (e i = Some v -> value_long e (c_env c) = Some (Z.min 9223372036854775807 (Z.of_N (dec_value v)))) /\
  (e i = Some (45 :: v) -> (Z.of_N (dec_value v) <= 9223372036854775808)%Z -> value_long e (c_env c) = Some (- Z.of_N (dec_value v))%Z).
Proof. intros e i c v Hi NE F. split; [intros Ei; exact (long_number e i c v Hi Ei (conj NE F))|intros Ei; exact (long_negative e i c v Hi Ei (conj NE F))]. Qed.
Print Assumptions config_number_partial.
(** From the file to the value: the last line for the option decides (missing: numbers from 2^32 on). *)
Theorem config_number_written_partial : forall lines ms i c v, Forall2 line_means lines ms -> Forall fits lines -> Forall good_setting ms ->
  nth_error configs i = Some c -> c_type c = CInteger -> last_value (c_name c) ms = Some v -> v <> [] -> Forall (fun d => 48 <= d <= 57) v -> dec_value v < 4294967296 ->
  exists e, parse_config (file_of lines) = Ok (CSuccess e) /\ value_long e (c_env c) = Some (Z.of_N (dec_value v)).
Proof.
  intros lines ms i c v M F G Hi _ LV NE FD LT. destruct (config_read_good lines ms M F G) as (e & E & H). exists e. split; [exact E|].
  specialize (H i c Hi). rewrite LV in H. rewrite (long_number e i c v Hi H (conj NE FD)). f_equal. unfold long_max. lia.
Qed.
Print Assumptions config_number_written_partial.
Example config_number_written_nonvacuous : exists c, nth_error configs 6 = Some c /\ c_type c = CInteger /\ last_value (c_name c) demo_means = Some (bs "8080") /\ dec_value (bs "8080") = 8080.
Proof. eexists. split; [reflexivity|]. split; [reflexivity|]. split; reflexivity. Qed.
Theorem config_negative_overflow_refuted : exists e c v, nth_error configs 0 = Some c /\ e 0%nat = Some (45 :: v) /\ v = bs "9223372036854775809" /\ value_long e (c_env c) = Some 9223372036854775807%Z.
Proof. exists (fun _ => Some (bs "-9223372036854775809")). eexists. exists (bs "9223372036854775809"). split; [reflexivity|]. split; [reflexivity|]. split; reflexivity. Qed.
Print Assumptions config_negative_overflow_refuted.
(** Text after the digits is ignored. *)
Theorem config_number_text_refuted : exists e, parse_config (bs "port=80abc" ++ [10]) = Ok (CSuccess e) /\ value_long e (bs "FLY_PORT") = Some 80%Z.
Proof.
  destruct (parse_config (bs "port=80abc" ++ [10])) as [[e| |]|] eqn:E; try (vm_compute in E; discriminate). exists e. split; [reflexivity|]. vm_compute in E. injection E as <-. vm_compute. reflexivity.
Qed.
Print Assumptions config_number_text_refuted.
(** Booleans: true exactly for the values that begin with one of two spellings of true. *)
Theorem config_bool_exact : forall e i c v, nth_error configs i = Some c -> e i = Some v ->
  exists b, value_bool e (c_env c) = Some b /\ (b = true <-> exists t, v = bs "true" ++ t \/ v = bs "True" ++ t).
Proof. exact bool_exact. Qed.
Print Assumptions config_bool_exact.
(** From the file to the value, for the documented spellings. *)
Theorem config_bool_written_partial : forall lines ms i c v, Forall2 line_means lines ms -> Forall fits lines -> Forall good_setting ms ->
  nth_error configs i = Some c -> c_type c = CBool -> last_value (c_name c) ms = Some v ->
  exists e b, parse_config (file_of lines) = Ok (CSuccess e) /\ value_bool e (c_env c) = Some b /\
    (v = bs "true" \/ v = bs "True" -> b = true) /\ (v = bs "false" \/ v = bs "False" -> b = false).
Proof.
  intros lines ms i c v M F G Hi _ LV. destruct (config_read_good lines ms M F G) as (e & E & H). specialize (H i c Hi). rewrite LV in H.
  destruct (bool_exact e i c v Hi H) as (b & B & X). exists e, b. split; [exact E|]. split; [exact B|]. split.
  - intros [->| ->]; apply X; exists []; auto.
  - intros V. destruct b; [|reflexivity]. exfalso. destruct (proj1 X eq_refl) as (t & Q). destruct V as [->| ->]; destruct Q as [Q|Q]; discriminate.
Qed.
Print Assumptions config_bool_written_partial.
Example config_bool_written_nonvacuous : exists c, nth_error configs 7 = Some c /\ c_type c = CBool /\ last_value (c_name c) demo_means = Some (bs "True").
Proof. eexists. split; [reflexivity|]. split; reflexivity. Qed.
Theorem config_bool_prefix_refuted : exists e, parse_config (bs "ssl=truely-not" ++ [10]) = Ok (CSuccess e) /\ value_bool e (bs "FLY_SSL") = Some true.
Proof.
  destruct (parse_config (bs "ssl=truely-not" ++ [10])) as [[e| |]|] eqn:E; try (vm_compute in E; discriminate). exists e. split; [reflexivity|]. vm_compute in E. injection E as <-. vm_compute. reflexivity.
Qed.
Print Assumptions config_bool_prefix_refuted.
