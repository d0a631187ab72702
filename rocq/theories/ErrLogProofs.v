(** Proofs about ErrLog.v. *)
From Verif Require Import Base CStr LogInit LogInitProofs ErrLog.
From Coq Require Import NArith ZArith List Bool Arith Lia.
From Coq Require Import ZifyBool ZifyNat ZifyN.
Import ListNotations.
Local Open Scope nat_scope.

(** * Specification *)
(** The locks of a file and write work. *)
Definition works (k : kernel) (fd : nat) : Prop := k_lock k fd = true /\ k_write k fd = true.
(** Linux gives no process id above this one (PID_MAX_LIMIT). *)
Definition real_pid (s : errsys) : Prop := (s_pid s <= 4194304)%N.
(** Levels that are to end the process (err.h:63-67), and the others. *)
Inductive fatal : level -> N -> Prop := fatal_emerg : fatal EMERG 10 | fatal_crit : fatal CRIT 11 | fatal_err : fatal ERR 12.
(** A message that the array of an error holds: 199 bytes, none of them zero. *)
Definition short_text (t : list N) : Prop := length t <= N.to_nat 199 /\ ~ In 0%N t.
(** Where a text goes as well: to the outputs that are switched on. *)
Definition also (x : ctx) (text : list N) : list (dest * list N) :=
  match x_out x, x_err x with
  | true, true => [(Stdout, text); (Stderr, text)] | true, false => [(Stdout, text)] | false, true => [(Stderr, text)] | false, false => []
  end.
(** A line. *)
Definition line (parts : list (list N)) : list N := concat parts ++ [10%N].

Lemma before_nul_id t : ~ In 0%N t -> before_nul t = t.
Proof.
  induction t as [|c t IH]; intro H; [reflexivity|]. cbn [before_nul]. destruct (N.eqb_spec c 0) as [->|_]; [destruct H; left; reflexivity|].
  rewrite IH; [reflexivity|]. intro I. apply H. right. exact I.
Qed.
Lemma err_init_id t : short_text t -> err_init t = t.
Proof. intros (L & Z). unfold err_init, cut. rewrite before_nul_id by exact Z. apply firstn_all2. lia. Qed.
Lemma err_init_short t : length (err_init t) <= N.to_nat 199.
Proof. unfold err_init, cut. rewrite firstn_length. lia. Qed.
Lemma cut_id n t : length t < n -> cut n t = t.
Proof. intro H. apply firstn_all2. lia. Qed.

Lemma pid_digits n : (n <= 4194304)%N -> length (dec n) <= 7.
Proof.
  intros L. destruct (dec_spec n) as (F & V & d & t & E & D & Z). rewrite E in *. destruct (N.eq_dec n 0) as [->|NZ]; [rewrite (Z eq_refl); cbn; lia|]. specialize (D NZ).
  inversion F as [|? ? Fd _]; subst. unfold is_digit in Fd. change (d :: t) with ([d] ++ t) in L. rewrite dec_value_app in L. assert (X : dec_value [d] = (d - 48)%N) by (unfold dec_value; cbn [fold_left]; lia). rewrite X in L.
  cbn [length]. destruct (Nat.le_gt_cases 7 (length t)) as [G|G]; [|lia]. exfalso.
  assert (P : (10 ^ 7 <= 10 ^ N.of_nat (length t))%N) by (apply N.pow_le_mono_r; lia). change (10 ^ 7)%N with 10000000%N in P. nia.
Qed.

Lemma copies_also x text : copies x text = also x text.
Proof. unfold copies, also. destruct (x_out x), (x_err x); reflexivity. Qed.
Lemma part_works k x f fd text : l_file f = Some fd -> works k fd -> part k x f text = Some ((File fd, text) :: also x text).
Proof. intros F (L & W). unfold part. rewrite F, L, W, copies_also. reflexivity. Qed.

(** The records of an error that ends the process. *)
Definition error_line (s : errsys) (content : list N) : list N := line [bs "["; dec (s_pid s); bs "] Occurred error. Worker process is gone. "; content].
Inductive end_line (s : errsys) : level -> list N -> Prop :=
| end_crit : end_line s CRIT (line [bs "[CRIT] process("; dec (s_pid s); bs ") was terminated by critical error."])
| end_err : end_line s ERR (line [bs "[ERROR] process("; dec (s_pid s); bs ") was terminated by error."]).

Lemma err_text s content : real_pid s ->
  cut (length content + err_placeholder) (bs "[" ++ dec (s_pid s) ++ bs "] Occurred error. Worker process is gone. " ++ content ++ [10%N]) = error_line s content.
Proof.
  intro P. pose proof (pid_digits _ P). rewrite cut_id.
  - unfold error_line, line. cbn [concat]. rewrite app_nil_r, <- !app_assoc. reflexivity.
  - rewrite !app_length. unfold err_placeholder. cbn [length bs] in *.
    change (length (bs "[")) with 1. change (length (bs "] Occurred error. Worker process is gone. ")) with 42. change (length (bs "[9999999999999] Occurred error. Worker process is gone. ")) with 56. cbn [length]. lia.
Qed.
Lemma notice_text s l t : real_pid s -> end_line s l t ->
  cut err_notice_placeholder (bs "[" ++ level_str l ++ bs "] process(" ++ dec (s_pid s) ++
    match l with CRIT => bs ") was terminated by critical error." | _ => bs ") was terminated by error." end ++ [10%N]) = t.
Proof.
  intros P E. pose proof (pid_digits _ P). rewrite cut_id.
  - destruct E; unfold line; cbn [concat]; rewrite ?app_nil_r, <- ?app_assoc; reflexivity.
  - rewrite !app_length. change err_notice_placeholder with 64. destruct E; cbn [level_str].
    + change (length (bs "[")) with 1. change (length (bs "CRIT")) with 4. change (length (bs "] process(")) with 10. change (length (bs ") was terminated by critical error.")) with 35. cbn [length]. lia.
    + change (length (bs "[")) with 1. change (length (bs "ERROR")) with 5. change (length (bs "] process(")) with 10. change (length (bs ") was terminated by error.")) with 26. cbn [length]. lia.
Qed.

Lemma write_err_exact s k x fd nfd content l t : s_ctx s = Some x -> l_file (g_error (x_logs x)) = Some fd -> works k fd ->
  l_file (g_notice (x_logs x)) = Some nfd -> works k nfd -> real_pid s -> end_line s l t ->
  write_err s k content l = ((File fd, error_line s content) :: also x (error_line s content)) ++ ((File nfd, t) :: also x t).
Proof.
  intros C F W NF NW P E. unfold write_err. rewrite C. rewrite err_text by exact P. rewrite (part_works _ _ _ _ _ F W).
  rewrite (notice_text s l t P E). rewrite (part_works _ _ _ _ _ NF NW). reflexivity.
Qed.
Lemma write_err_file s k x fd content l : s_ctx s = Some x -> l_file (g_error (x_logs x)) = Some fd -> works k fd -> real_pid s ->
  exists w, write_err s k content l = ((File fd, error_line s content) :: also x (error_line s content)) ++ w.
Proof.
  intros C F W P. unfold write_err. rewrite C. rewrite err_text by exact P. rewrite (part_works _ _ _ _ _ F W).
  match goal with |- context [part ?a ?b ?c ?d] => destruct (part a b c d) as [w2|] end; [exists w2; reflexivity|exists []; rewrite app_nil_r; reflexivity].
Qed.
Lemma write_err_nofile s k x content l : s_ctx s = Some x -> l_file (g_error (x_logs x)) = None -> write_err s k content l = [].
Proof. intros C F. unfold write_err. rewrite C. unfold part. rewrite F. reflexivity. Qed.

Lemma fatal_end s k date errtext l st text es : fatal l st -> exists w, event_errors s k date errtext ((l, text) :: es) = Exits st w.
Proof.
  intro F. pose proof (err_init_short text) as L. destruct F; cbn [event_errors]; [|eexists; reflexivity..].
  unfold emergency_error, write_emerg. destruct (s_ctx s) as [x|]; [|eexists; reflexivity]. destruct (l_file (g_error (x_logs x))); [|eexists; reflexivity].
  destruct (k_lock k n); cbn [negb]; [|eexists; reflexivity].
  replace (EMERGE_MEMORY <? length (err_init text) + (length (err_init text) + EMERGENCY_LOG)) with false.
  2: { symmetry. apply Nat.ltb_ge. unfold EMERGE_MEMORY, EMERGENCY_LOG. lia. }
  cbv zeta. match goal with |- context [part ?a ?b ?c ?d] => destruct (part a b c d) as [w1|] end; [|eexists; reflexivity].
  match goal with |- context [part ?a ?b ?c ?d] => destruct (part a b c d) as [w2|] end; eexists; reflexivity.
Qed.
Lemma fatal_recorded s k date errtext x fd l st text es : fatal l st -> l <> EMERG -> short_text text -> s_ctx s = Some x ->
  l_file (g_error (x_logs x)) = Some fd -> works k fd -> real_pid s ->
  exists w, event_errors s k date errtext ((l, text) :: es) = Exits st ((File fd, error_line s text) :: also x (error_line s text) ++ w).
Proof.
  intros F NE T C FD W P. destruct (write_err_file s k x fd text l C FD W P) as (w & E). exists w.
  rewrite app_comm_cons, <- E. destruct F; [contradiction NE; reflexivity|cbn [event_errors]; rewrite (err_init_id _ T); reflexivity..].
Qed.
Lemma fatal_exact s k date errtext x fd nfd l st text es t : fatal l st -> short_text text -> s_ctx s = Some x ->
  l_file (g_error (x_logs x)) = Some fd -> works k fd -> l_file (g_notice (x_logs x)) = Some nfd -> works k nfd -> real_pid s -> end_line s l t ->
  event_errors s k date errtext ((l, text) :: es) = Exits st ((File fd, error_line s text) :: also x (error_line s text) ++ (File nfd, t) :: also x t).
Proof.
  intros F T C FD W NF NW P E. pose proof (write_err_exact s k x fd nfd text l t C FD W NF NW P E) as X. rewrite app_comm_cons, <- X.
  destruct F; [inversion E|cbn [event_errors]; rewrite (err_init_id _ T); reflexivity..].
Qed.
Lemma fatal_silent s k date errtext x l st text es : fatal l st -> s_ctx s = Some x -> l_file (g_error (x_logs x)) = None ->
  event_errors s k date errtext ((l, text) :: es) = Exits st [].
Proof.
  intros F C N. destruct F; cbn [event_errors].
  - unfold emergency_error, write_emerg. rewrite C, N. reflexivity.
  - unfold critical_error. rewrite (write_err_nofile _ _ _ _ _ C N). reflexivity.
  - unfold error_error. rewrite (write_err_nofile _ _ _ _ _ C N). reflexivity.
Qed.
(** An emergency error of an event: the beginning of the record. *)
Definition emergency_line (s : errsys) (date content errtext : list N) : list N :=
  line [bs "["; dec (s_pid s); bs "]("; date; bs "): Emergency Error. Process is killed. ("; content; bs ") ("; errtext; bs ")"].
Lemma emergency_event s k date errtext x fd text es : short_text text -> s_ctx s = Some x -> l_file (g_error (x_logs x)) = Some fd -> works k fd ->
  let r := firstn (N.to_nat 199) (emergency_line s date text errtext) in
  exists w, event_errors s k date errtext ((EMERG, text) :: es) = Exits 10 ((File fd, r) :: also x r ++ w).
Proof.
  intros T C FD W r. pose proof (err_init_short text) as L. cbn [event_errors]. unfold emergency_error, write_emerg. rewrite C, FD. destruct W as (WL & WW). rewrite WL. cbn [negb].
  replace (EMERGE_MEMORY <? length (err_init text) + (length (err_init text) + EMERGENCY_LOG)) with false.
  2: { symmetry. apply Nat.ltb_ge. unfold EMERGE_MEMORY, EMERGENCY_LOG. lia. }
  cbv zeta. rewrite (err_init_id _ T). rewrite (part_works _ _ _ _ _ FD (conj WL WW)).
  assert (R : cut EMERGENCY_LOG (bs "[" ++ dec (s_pid s) ++ bs "](" ++ date ++ bs "): Emergency Error. Process is killed. (" ++ text ++ bs ") (" ++ errtext ++ bs ")" ++ [10%N]) = r)
    by (unfold r, cut, EMERGENCY_LOG, emergency_line, line; cbn [concat]; rewrite app_nil_r, <- !app_assoc; reflexivity).
  rewrite R.
  match goal with |- context [part ?a ?b ?c ?d] => destruct (part a b c d) as [w2|] end; [exists w2; reflexivity|exists []; rewrite app_nil_r; reflexivity].
Qed.

Lemma emergency_cases s k text date errtext :
  (emergency s k text date errtext = Exits 10 [] /\ forall x fd, s_ctx s = Some x -> l_file (g_error (x_logs x)) = Some fd -> k_lock k fd = false) \/
  (exists f x fd, emergency s k text date errtext = Faults f [] /\ s_ctx s = Some x /\ l_file (g_error (x_logs x)) = Some fd /\ k_lock k fd = true).
Proof.
  unfold emergency, write_emerg. destruct (s_ctx s) as [x|] eqn:C; [|left; split; [reflexivity|discriminate]].
  destruct (l_file (g_error (x_logs x))) as [fd|] eqn:F.
  2: { left; split; [reflexivity|]. intros x' fd E. injection E as <-. rewrite F. discriminate. }
  destruct (k_lock k fd) eqn:L; cbn [negb].
  - right. destruct (_ <? _); [exists PastEnd, x, fd|exists Overlap, x, fd]; auto.
  - left; split; [reflexivity|]. intros x' fd' E. injection E as <-. rewrite F. intro E. injection E as <-. exact L.
Qed.
Lemma emergency_unrecorded s k text date errtext : emergency s k text date errtext = Exits 10 [] \/ exists f, emergency s k text date errtext = Faults f [].
Proof. destruct (emergency_cases s k text date errtext) as [(E & _)|(f & x & fd & E & _)]; [left; exact E|right; exists f; exact E]. Qed.
Lemma emergency_faults s k text date errtext : (exists f w, emergency s k text date errtext = Faults f w) <->
  (exists x fd, s_ctx s = Some x /\ l_file (g_error (x_logs x)) = Some fd /\ k_lock k fd = true).
Proof.
  destruct (emergency_cases s k text date errtext) as [(E & H)|(f & x & fd & E & H)]; rewrite E; split.
  - intros (f & w & X). discriminate X.
  - intros (x & fd & C & F & L). rewrite (H x fd C F) in L. discriminate L.
  - intros _. exists x, fd. exact H.
  - intros _. exists f, []. reflexivity.
Qed.

(** Errors that are only to be logged. *)
Inductive info_line (s : errsys) (text : list N) : level -> list N -> Prop :=
| il_alert : info_line s text ALERT (line [bs "[ALERT] pid: ("; dec (s_pid s); bs "). "; text])
| il_warn : info_line s text WARN (line [bs "[WARN] pid: ("; dec (s_pid s); bs "). "; text])
| il_notice : info_line s text NOTICE (line [bs "[NOTICE] pid: ("; dec (s_pid s); bs "). "; text])
| il_info : info_line s text INFO (line [bs "[NOTICE] pid: ("; dec (s_pid s); bs "). "; text])
| il_debug : info_line s text DEBUG (line [bs "[DEBUG] pid: ("; dec (s_pid s); bs "). "; text]).
Lemma info_text s text l t : real_pid s -> info_line s text l t ->
  cut (notice_placeholder + length text) (bs "[" ++ level_str (logged_level l) ++ bs "] pid: (" ++ dec (s_pid s) ++ bs "). " ++ text ++ [10%N]) = t.
Proof.
  intros P E. pose proof (pid_digits _ P). rewrite cut_id.
  - destruct E; unfold line; cbn [concat]; rewrite ?app_nil_r, <- ?app_assoc; reflexivity.
  - rewrite !app_length. change notice_placeholder with 28. change (length (bs "[")) with 1. change (length (bs "] pid: (")) with 8. change (length (bs "). ")) with 3.
    assert (length (level_str (logged_level l)) <= 6) by (destruct E; cbv; lia). cbn [length]. lia.
Qed.
Lemma nonfatal_faults s k date errtext l text es : (forall st, ~ fatal l st) -> exists w, event_errors s k date errtext ((l, text) :: es) = Faults Freed w.
Proof. intro N. destruct l; try (exfalso; eapply N; constructor); eexists; reflexivity. Qed.
Lemma nonfatal_exact s k date errtext x nfd l text t es : short_text text -> s_ctx s = Some x -> l_file (g_notice (x_logs x)) = Some nfd -> works k nfd -> real_pid s ->
  info_line s text l t -> event_errors s k date errtext ((l, text) :: es) = Faults Freed ((File nfd, t) :: also x t).
Proof.
  intros T C NF NW P I. pose proof (info_text s text l t P I) as E.
  assert (X : write_info s k text (logged_level l) = (File nfd, t) :: also x t).
  { unfold write_info. rewrite C, E, (part_works _ _ _ _ _ NF NW). reflexivity. }
  rewrite <- X. destruct I; cbn [event_errors]; rewrite (err_init_id _ T); reflexivity.
Qed.
Lemma only_first s k date errtext e es : event_errors s k date errtext (e :: es) = event_errors s k date errtext [e].
Proof. destruct e as [l t]. reflexivity. Qed.

(** * The file *)
Lemma file_run_errs old pre rs : f_bytes (file_run (mkFile (pre ++ old) (length pre)) (map ErrOp rs)) = pre ++ concat rs ++ skipn (length (concat rs)) old.
Proof.
  unfold file_run. revert old pre. induction rs as [|r rs IH]; intros old pre; cbn [map fold_left concat]; [reflexivity|].
  cbn [file_op]. unfold write_at. cbn [f_bytes f_pos].
  rewrite firstn_app, Nat.sub_diag, firstn_all, firstn_O, app_nil_r. rewrite skipn_app. rewrite (skipn_all2 pre) by lia. cbn [app].
  replace (length pre + length r - length pre) with (length r) by lia.
  rewrite app_assoc. replace (length pre + length r) with (length (pre ++ r)) by (rewrite app_length; reflexivity). rewrite IH.
  rewrite skipn_skipn, app_length. rewrite <- !app_assoc. do 4 f_equal. lia.
Qed.
Lemma file_run_app f a b : file_run f (a ++ b) = file_run (file_run f a) b.
Proof. apply fold_left_app. Qed.
(** Records of err.c in a file that has just been opened. *)
Lemma errs_exact old rs : f_bytes (file_run (open_file old) (map ErrOp rs)) = concat rs ++ skipn (length (concat rs)) old.
Proof. exact (file_run_errs old [] rs). Qed.
(** After a record of log.c nothing is lost any more. *)
Definition text_of (o : fop) : list N := match o with LogOp r => r | ErrOp r => r end.
Lemma run_at_end b os : file_run (mkFile b (length b)) os = mkFile (b ++ concat (map text_of os)) (length (b ++ concat (map text_of os))).
Proof.
  unfold file_run. revert b. induction os as [|o os IH]; intro b; cbn [map fold_left concat]; [rewrite app_nil_r; reflexivity|].
  replace (file_op (mkFile b (length b)) o) with (mkFile (b ++ text_of o) (length (b ++ text_of o))).
  - rewrite IH, <- app_assoc. reflexivity.
  - destruct o; cbn [file_op text_of]; unfold write_at; cbn [f_bytes f_pos]; rewrite firstn_all, skipn_all2 by lia; rewrite app_nil_r, app_length; reflexivity.
Qed.
Lemma after_log old rs r os : f_bytes (file_run (open_file old) (map ErrOp rs ++ LogOp r :: os)) =
  concat rs ++ skipn (length (concat rs)) old ++ r ++ concat (map text_of os).
Proof.
  rewrite file_run_app. pose proof (errs_exact old rs) as E. destruct (file_run (open_file old) (map ErrOp rs)) as [b p]. cbn [f_bytes] in E. 
  change (file_run (mkFile b p) (LogOp r :: os)) with (file_run (mkFile b (length b)) (LogOp r :: os)).
  rewrite run_at_end. cbn [f_bytes map concat text_of]. rewrite E, <- app_assoc. reflexivity.
Qed.
Lemma run_empty os : f_bytes (file_run (open_file []) os) = concat (map text_of os).
Proof. change (open_file []) with (mkFile [] (length (@nil N))). rewrite run_at_end. reflexivity. Qed.
(** What was there is still there exactly when the new records happen to begin like it. *)
Definition kept (old new : list N) : Prop := exists t, new = old ++ t.
Lemma errs_kept_iff old rs : kept old (f_bytes (file_run (open_file old) (map ErrOp rs))) <->
  firstn (length (concat rs)) old = firstn (length old) (concat rs).
Proof.
  rewrite errs_exact. set (c := concat rs). split.
  - intros (t & E). destruct (Nat.le_gt_cases (length old) (length c)) as [L|L].
    + rewrite (firstn_all2 old) by exact L. rewrite skipn_all2, app_nil_r in E by exact L. rewrite E. rewrite firstn_app, Nat.sub_diag, firstn_all, firstn_O, app_nil_r. reflexivity.
    + rewrite (firstn_all2 c) by lia. apply (f_equal (firstn (length c))) in E. rewrite !firstn_app in E. rewrite Nat.sub_diag, firstn_all, firstn_O, app_nil_r in E.
      replace (length c - length old) with 0 in E by lia. rewrite firstn_O, app_nil_r in E. symmetry. exact E.
  - intro E. destruct (Nat.le_gt_cases (length old) (length c)) as [L|L].
    + rewrite (firstn_all2 old) in E by exact L. exists (skipn (length old) c). rewrite skipn_all2, app_nil_r by exact L. rewrite E at 1. rewrite firstn_skipn. reflexivity.
    + rewrite (firstn_all2 c) in E by lia. exists []. rewrite app_nil_r. rewrite <- E at 1. apply firstn_skipn.
Qed.

(** FLY_EXIT_ERROR: a message of at most 999 bytes. *)
Definition long_text (t : list N) : Prop := length t <= N.to_nat 999 /\ ~ In 0%N t.
Lemma exit_exact s k x fd nfd text : long_text text -> s_ctx s = Some x -> l_file (g_error (x_logs x)) = Some fd -> works k fd ->
  l_file (g_notice (x_logs x)) = Some nfd -> works k nfd -> real_pid s ->
  let t := line [bs "[ERROR] process("; dec (s_pid s); bs ") was terminated by error."] in
  exit_error s k text = Exits 12 ((File fd, error_line s text) :: also x (error_line s text) ++ (File nfd, t) :: also x t).
Proof.
  intros (L & Z) C F W NF NW P t. unfold exit_error. rewrite before_nul_id by exact Z. rewrite cut_id by (unfold EMERGE_MEMORY; lia).
  rewrite (write_err_exact s k x fd nfd text ERR t C F W NF NW P (end_err s)). reflexivity.
Qed.
Lemma exit_always s k text : exists w, exit_error s k text = Exits 12 w.
Proof. eexists. reflexivity. Qed.

(** A file that refuses a record takes no part in what is written, and nothing follows. *)
Lemma write_err_refused s k x fd content l : s_ctx s = Some x -> l_file (g_error (x_logs x)) = Some fd -> ~ works k fd -> write_err s k content l = [].
Proof.
  intros C F NW. unfold write_err. rewrite C. unfold part at 1. rewrite F. destruct (k_lock k fd) eqn:L, (k_write k fd) eqn:W; try reflexivity.
  exfalso. apply NW. split; assumption.
Qed.
Lemma refused_silent s k date errtext x fd l st text es : fatal l st -> l <> EMERG -> s_ctx s = Some x -> l_file (g_error (x_logs x)) = Some fd -> ~ works k fd ->
  event_errors s k date errtext ((l, text) :: es) = Exits st [].
Proof.
  intros F NE C FD NW. destruct F; [contradiction NE; reflexivity| |]; cbn [event_errors].
  - unfold critical_error. rewrite (write_err_refused _ _ _ _ _ _ C FD NW). reflexivity.
  - unfold error_error. rewrite (write_err_refused _ _ _ _ _ _ C FD NW). reflexivity.
Qed.
