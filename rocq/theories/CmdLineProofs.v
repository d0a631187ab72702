(** Proofs about the command line (CmdLine.v). *)
From Coq Require Import Lia ZifyBool ZifyNat ZifyN.
From Verif Require Import Base CStr CNum Status Conf ConfProofs CmdLine.
Local Open Scope N_scope.

(** ** Specification *)
(** What the options say about a setting. *)
Inductive said_num (c : cmd) : list N -> Z -> Prop :=
| sn_mount_max z : o_mount_max c = Some z -> said_num c (bs "mount_max") z
| sn_workers z : o_workers c = Some z -> said_num c (bs "workers") z
| sn_encode_threshold z : o_encode_threshold c = Some z -> said_num c (bs "encode_threshold") z
| sn_port z : o_port c = Some z -> said_num c (bs "port") z
| sn_backlog z : o_backlog c = Some z -> said_num c (bs "backlog") z
| sn_max_response z : o_max_response_len c = Some z -> said_num c (bs "max_response_content_length") z
| sn_max_request z : o_max_request_len c = Some z -> said_num c (bs "max_request_content_length") z
| sn_timeout z : o_request_timeout c = Some z -> said_num c (bs "request_timeout") z.
Inductive said_str (c : cmd) : list N -> list N -> Prop :=
| ss_host s : o_host c = Some s -> said_str c (bs "host") s
| ss_crt s : o_ssl_crt_path c = Some s -> said_str c (bs "ssl_crt_path") s
| ss_key s : o_ssl_key_path c = Some s -> said_str c (bs "ssl_key_path") s
| ss_pidfile s : o_pidfile_path c = Some s -> said_str c (bs "pidfile_path") s
| ss_index s : o_index_path c = Some s -> said_str c (bs "index_path") s
| ss_log s : o_log_path c = Some s -> said_str c (bs "log_path") s.
Inductive said_flag (c : cmd) : list N -> Prop :=
| sf_ssl : o_ssl c = true -> said_flag c (bs "ssl")
| sf_stdout : o_stdout c = true -> said_flag c (bs "log_stdout")
| sf_stderr : o_stderr c = true -> said_flag c (bs "log_stderr").
Definition unsaid (c : cmd) (n : list N) : Prop := (forall z, ~ said_num c n z) /\ (forall s, ~ said_str c n s) /\ ~ said_flag c n.
(** The part of a text that is taken for a setting: its first characters, before a blank or the end. *)
Definition taken (s a : list N) : Prop := exists t, s = a ++ t /\ a <> [] /\ Forall value_char a /\ after_value t.
(** Options that can be passed on: numbers below 2^32, texts that begin with characters a setting may have. *)
Definition good_num (z : Z) : Prop := (0 <= z < 4294967296)%Z.
Definition good_str (s : list N) : Prop := ~ In 10 s /\ (length s <= 900)%nat /\ exists a, taken s a.
Definition good_options (c : cmd) : Prop := (forall n z, said_num c n z -> good_num z) /\ (forall n s, said_str c n s -> good_str s).
(** The lines of a file, ended as on Unix or on Windows. *)
Inductive eol := LF | CRLF.
Definition eol_text (e : eol) : list N := match e with LF => [10] | CRLF => [13; 10] end.
Definition text_of (ls : list (list N * eol)) : list N := concat (map (fun p => fst p ++ eol_text (snd p)) ls).
(** A configuration file, or none, that says [ms]. *)
Inductive conf_says : option (list N) -> list (option (list N * list N)) -> Prop :=
| cs_none : conf_says None []
| cs_file ls ms : Forall (fun p => ~ In 13 (fst p)) ls -> Forall2 line_means (map fst ls) ms -> Forall fits (map fst ls) -> Forall good_setting ms -> conf_says (Some (text_of ls)) ms.
(** What the file says about a setting. *)
Definition by_file (ms : list (option (list N * list N))) (c : config) : option (list N) := match last_value (c_name c) ms with Some v => Some v | None => c_default c end.

(** ** The file *)
Lemma universal_plain l rest : ~ In 13 l -> universal (l ++ rest) = l ++ universal rest.
Proof.
  induction l as [|c l IH]; intros H; [reflexivity|]. cbn [app universal]. destruct (N.eqb_spec c 13) as [->|C]; [exfalso; apply H; left; reflexivity|].
  rewrite IH; [reflexivity|]. intros X. apply H. right. exact X.
Qed.
Lemma universal_lines : forall ls rest, Forall (fun p => ~ In 13 (fst p)) ls -> universal (text_of ls ++ rest) = file_of (map fst ls) ++ universal rest.
Proof.
  induction 1 as [|[l e] ls H F IH]; [reflexivity|]. unfold text_of, file_of in *. cbn [map concat fst snd] in *. rewrite <- !app_assoc. rewrite universal_plain by exact H. f_equal.
  destruct e; cbn [eol_text app universal]; [change (10 =? 13) with false|change (13 =? 13) with true; change (10 =? 10) with true]; cbv iota; rewrite IH; reflexivity.
Qed.
Lemma file_of_app a b : file_of (a ++ b) = file_of a ++ file_of b.
Proof. unfold file_of. rewrite map_app, concat_app. reflexivity. Qed.

(** ** The lines the options give *)
Definition setting := (list N * list N)%type.
Fixpoint sets (kws : list (list N * option (list N))) : list setting :=
  match kws with
  | [] => []
  | (k, Some v) :: t => if existsb (bytes_eqb k) conf_parameters then (k, v) :: sets t else sets t
  | (_, None) :: t => sets t
  end.
Definition set_line (p : setting) : list N := fst p ++ bs " = " ++ snd p.
Lemma pars_lines : forall kws, pars kws = file_of (map set_line (sets kws)).
Proof.
  induction kws as [|[k [v|]] t IH]; [reflexivity| |exact IH]. cbn [pars sets]. destruct (existsb _ _); [|exact IH]. unfold file_of in *. cbn [map concat]. rewrite IH. unfold par, set_line. cbn [fst snd].
  rewrite <- !app_assoc. reflexivity.
Qed.
Lemma in_sets : forall kws k v, In (k, v) (sets kws) <-> In (k, Some v) kws /\ existsb (bytes_eqb k) conf_parameters = true.
Proof.
  induction kws as [|[k' [v'|]] t IH]; intros k v; cbn [sets In]; [tauto| |].
  - destruct (existsb (bytes_eqb k') conf_parameters) eqn:X; cbn [In]; rewrite IH; split.
    + intros [[= -> ->]|(A & B)]; [split; [left; reflexivity|exact X]|split; [right; exact A|exact B]].
    + intros ([[= -> ->]|A] & B); [left; reflexivity|right; split; assumption].
    + intros (A & B). split; [right; exact A|exact B].
    + intros ([[= -> ->]|A] & B); [congruence|split; assumption].
  - rewrite IH. split; [intros (A & B); split; [right; exact A|exact B]|intros ([A|A] & B); [discriminate|split; assumption]].
Qed.
Definition says (c : cmd) (n v : list N) : Prop := (exists z, said_num c n z /\ v = dec_z z) \/ said_str c n v \/ (said_flag c n /\ v = bs "True").
Lemma says_sets c n v : In (n, v) (sets (kwargs c)) <-> says c n v.
Proof.
  rewrite in_sets. split.
  - intros (I & X). unfold kwargs in I. unfold says.
    repeat (destruct I as [I|I]; [injection I as <- I; try (vm_compute in X; discriminate X);
      first [discriminate I
            |right; left; constructor; exact I
            |left; match type of I with py_int ?o = _ => destruct o as [z|] eqn:O; [|discriminate I]; injection I as <-; exists z; split; [constructor; exact O|reflexivity] end
            |right; right; match type of I with py_flag ?o = _ => destruct o eqn:O; [|discriminate I]; injection I as <-; split; [constructor; exact O|reflexivity] end]|]).
    destruct I.
  - intros [(z & S & ->)|[S|(S & ->)]]; (split; [|destruct S; reflexivity]); unfold kwargs; destruct S; match goal with H : _ = _ |- _ => rewrite H end; cbn [py_int py_flag option_map In]; tauto.
Qed.
Lemma dec_short n : n < 4294967296 -> (length (dec n) <= 10)%nat.
Proof.
  intros L. destruct (dec_spec n) as (F & V & d & t & E & D & Z). rewrite E in *. destruct (N.eq_dec n 0) as [->|NZ]; [rewrite (Z eq_refl); cbn; lia|]. specialize (D NZ).
  inversion F as [|? ? Fd _]; subst. unfold is_digit in Fd. change (d :: t) with ([d] ++ t) in L. rewrite dec_value_app in L. assert (X : dec_value [d] = d - 48) by (unfold dec_value; cbn [fold_left]; lia). rewrite X in L.
  cbn [length]. destruct (Nat.le_gt_cases 10 (length t)) as [G|G]; [|lia]. exfalso.
  assert (P : 10 ^ 10 <= 10 ^ N.of_nat (length t)) by (apply N.pow_le_mono_r; lia). change (10 ^ 10) with 10000000000 in P. nia.
Qed.
Lemma num_text z : good_num z -> number (dec_z z) /\ Forall value_char (dec_z z) /\ (length (dec_z z) <= 10)%nat /\ dec_value (dec_z z) = Z.to_N z /\ ~ In 10 (dec_z z) /\ ~ In 13 (dec_z z).
Proof.
  intros G. unfold good_num in G. assert (E : dec_z z = dec (Z.to_N z)) by (destruct z; [reflexivity|reflexivity|lia]). rewrite E.
  destruct (dec_spec (Z.to_N z)) as (F & V & d & t & ED & _). pose proof (dec_short (Z.to_N z) ltac:(lia)) as SH.
  assert (NE : dec (Z.to_N z) <> []) by (rewrite ED; discriminate).
  assert (ND : forall c, (48 <= c <= 57 -> False) -> ~ In c (dec (Z.to_N z))). { intros c C I. rewrite Forall_forall in F. apply F in I. unfold is_digit in I. apply C. lia. }
  split; [split; [exact NE|eapply Forall_impl; [|exact F]; intros c H; unfold is_digit in H; cbv beta; lia]|].
  split; [eapply Forall_impl; [|exact F]; intros c H; unfold is_digit in H; unfold value_char; lia|]. split; [exact SH|]. split; [exact V|]. split; apply ND; lia.
Qed.
Fixpoint lead (s : list N) : list N := match s with c :: t => if cf_value c then c :: lead t else [] | [] => [] end.
Lemma lead_taken : forall s a, taken s a -> lead s = a.
Proof.
  intros s a (t & -> & _ & F & T). induction F as [|c a C F IH]; cbn [app lead].
  - destruct t as [|c t]; [reflexivity|]. cbn [lead after_value] in *. destruct (cf_value c) eqn:X; [|reflexivity]. apply val_ok in X. unfold value_char, letter, blank in *. lia.
  - apply val_ok in C. rewrite C, IH. reflexivity.
Qed.
Lemma taken_whole s : s <> [] -> Forall value_char s -> taken s s.
Proof. intros N F. exists []. rewrite app_nil_r. repeat split; auto. Qed.

(** ** Every setting that an option gives is one of the table *)
Lemma num_entry c n z : said_num c n z -> exists i cf, nth_error configs i = Some cf /\ c_name cf = n /\ c_type cf = CInteger.
Proof. intros S. destruct S; [exists 0%nat|exists 2%nat|exists 4%nat|exists 6%nat|exists 14%nat|exists 15%nat|exists 16%nat|exists 17%nat]; (eexists; split; [reflexivity|]; split; reflexivity). Qed.
Lemma str_entry c n s : said_str c n s -> exists i cf, nth_error configs i = Some cf /\ c_name cf = n /\ c_type cf = CString.
Proof. intros S. destruct S; [exists 5%nat|exists 8%nat|exists 9%nat|exists 21%nat|exists 10%nat|exists 11%nat]; (eexists; split; [reflexivity|]; split; reflexivity). Qed.
Lemma flag_entry c n : said_flag c n -> exists i cf, nth_error configs i = Some cf /\ c_name cf = n /\ c_type cf = CBool.
Proof. intros S. destruct S; [exists 7%nat|exists 12%nat|exists 13%nat]; (eexists; split; [reflexivity|]; split; reflexivity). Qed.
Lemma says_name c n v : says c n v -> n <> [] /\ Forall name_char n /\ (length n <= 30)%nat.
Proof.
  assert (X : forall n, negb (length n =? 0)%nat && forallb cf_name n && (length n <=? 30)%nat = true -> n <> [] /\ Forall name_char n /\ (length n <= 30)%nat).
  { intros m H. rewrite !andb_true_iff in H. destruct H as ((A & B) & C). split; [intros ->; discriminate|]. rewrite forallb_forall in B. split; [apply Forall_forall; intros x I; apply name_ok, B, I|]. apply Nat.leb_le. exact C. }
  intros [(z & S & _)|[S|(S & _)]]; destruct S; apply X; vm_compute; reflexivity.
Qed.
(** The value an option's text comes to. *)
Lemma says_value c n v : good_options c -> says c n v -> ~ In 10 v /\ (length v <= 900)%nat /\ taken v (lead v) /\ exists i cf, nth_error configs i = Some cf /\ c_name cf = n /\ acceptable (c_type cf) (lead v).
Proof.
  intros (G1 & G2) [(z & S & ->)|[S|(S & ->)]].
  - destruct (num_text z (G1 n z S)) as (A & B & C & D & E & _). pose proof (taken_whole _ (proj1 A) B) as T. rewrite (lead_taken _ _ T).
    split; [exact E|]. split; [lia|]. split; [exact T|]. destruct (num_entry c n z S) as (i & cf & X & Y & Z). exists i, cf. rewrite Z. split; [exact X|]. split; [exact Y|].
    split; [exact A|]. right. rewrite D. specialize (G1 n z S). unfold good_num in G1. lia.
  - destruct (G2 n v S) as (A & B & a & T). rewrite (lead_taken _ _ T). split; [exact A|]. split; [exact B|]. split; [exact T|].
    destruct (str_entry c n v S) as (i & cf & X & Y & Z). exists i, cf. rewrite Z. repeat split; auto.
  - assert (T : taken (bs "True") (bs "True")) by (apply taken_whole; [discriminate|]; repeat (constructor; [unfold value_char, letter; cbn; lia|]); constructor).
    rewrite (lead_taken _ _ T). split; [vm_compute; intuition discriminate|]. split; [cbn; lia|]. split; [exact T|].
    destruct (flag_entry c n S) as (i & cf & X & Y & Z). exists i, cf. rewrite Z. split; [exact X|]. split; [exact Y|]. right; left; reflexivity.
Qed.
Lemma line_ok n v : n <> [] -> Forall name_char n -> taken v (lead v) -> line_means (set_line (n, v)) (Some (n, lead v)).
Proof.
  intros N F (t & E & A & B & T). unfold set_line. cbn [fst snd]. rewrite E at 1. change (bs " = ") with ([32] ++ 61 :: [32]). rewrite <- app_assoc. cbn [app].
  apply (lm_set [] n [32] [32] (lead v) t); [constructor|exact N|exact F|constructor; [left; reflexivity|constructor]|constructor; [left; reflexivity|constructor]|exact A|exact B|exact T].
Qed.
Definition args_mean (c : cmd) : list (option setting) := map (fun p => Some (fst p, lead (snd p))) (sets (kwargs c)).
Lemma args_ok ss : (forall n v, In (n, v) ss -> n <> [] /\ Forall name_char n /\ (length n <= 30)%nat /\ ~ In 10 v /\ (length v <= 900)%nat /\ taken v (lead v) /\ exists i cf, nth_error configs i = Some cf /\ c_name cf = n /\ acceptable (c_type cf) (lead v)) ->
  Forall2 line_means (map set_line ss) (map (fun p => Some (fst p, lead (snd p))) ss) /\ Forall fits (map set_line ss) /\ Forall good_setting (map (fun p => Some (fst p, lead (snd p))) ss).
Proof.
  induction ss as [|[n v] ss IH]; intros H; [repeat split; constructor|]. destruct IH as (A & B & C); [intros m w I; apply H; right; exact I|].
  destruct (H n v (or_introl eq_refl)) as (N & F & L & V10 & VL & T & i & cf & X & Y & Z). cbn [map fst snd]. split; [constructor; [apply line_ok; assumption|exact A]|]. split; [constructor; [|exact B]|constructor; [|exact C]].
  - unfold set_line. cbn [fst snd]. split.
    + unfold noLF. rewrite !in_app_iff. intros [I|[I|I]]; [|vm_compute in I; intuition discriminate|contradiction]. rewrite Forall_forall in F. apply F in I. unfold name_char, letter in I. lia.
    + rewrite !app_length. change (length (bs " = ")) with 3%nat. lia.
  - exists cf. split; [eapply nth_error_In; exact X|]. auto.
Qed.
Lemma options_ok c : good_options c -> Forall2 line_means (map set_line (sets (kwargs c))) (args_mean c) /\ Forall fits (map set_line (sets (kwargs c))) /\ Forall good_setting (args_mean c).
Proof.
  intros G. apply args_ok. intros n v I. apply says_sets in I. destruct (says_name c n v I) as (A & B & C). destruct (says_value c n v G I) as (D & E & F & H). auto 10.
Qed.
Definition pick (name : list N) (r : option (list N)) (m : option setting) : option (list N) := match m with Some (n, v) => if bytes_eqb n name then Some v else r | None => r end.
Lemma pick_from name : forall ss r, fold_left (pick name) ss r = match fold_left (pick name) ss None with Some v => Some v | None => r end.
Proof.
  induction ss as [|[[n v]|] ss IH]; intros r; cbn [fold_left pick]; [reflexivity| |apply IH]. destruct (bytes_eqb n name); [|apply IH]. rewrite (IH (Some v)). destruct (fold_left _ ss None); reflexivity.
Qed.
Lemma last_app name ms ss : last_value name (ms ++ ss) = match last_value name ss with Some v => Some v | None => last_value name ms end.
Proof. change (fold_left (pick name) (ms ++ ss) None = match fold_left (pick name) ss None with Some v => Some v | None => fold_left (pick name) ms None end). rewrite fold_left_app. apply pick_from. Qed.
Lemma last_none name ss : (forall v, ~ In (name, v) ss) -> last_value name (map (fun p => Some (fst p, lead (snd p))) ss) = None.
Proof.
  induction ss as [|[n v] ss IH]; intros H; [reflexivity|]. cbn [map fst snd]. 
  change (last_value name ([Some (n, lead v)] ++ map (fun p => Some (fst p, lead (snd p))) ss) = None). rewrite last_app, IH by (intros w I; apply (H w); right; exact I).
  unfold last_value. cbn [fold_left]. destruct (bytes_eqb n name) eqn:B; [|reflexivity]. apply bytes_eqb_eq in B. subst. exfalso. apply (H v). left. reflexivity.
Qed.
Definition setting_dec (p q : setting) : {p = q} + {p <> q}.
Proof. decide equality; apply (list_eq_dec N.eq_dec). Defined.
Lemma last_one name v ss : In (name, v) ss -> (forall w, In (name, w) ss -> w = v) -> last_value name (map (fun p => Some (fst p, lead (snd p))) ss) = Some (lead v).
Proof.
  induction ss as [|[n w] ss IH]; intros I U; [destruct I|]. cbn [map fst snd].
  change (last_value name ([Some (n, lead w)] ++ map (fun p => Some (fst p, lead (snd p))) ss) = Some (lead v)). rewrite last_app.
  destruct (in_dec setting_dec (name, v) ss) as [I'|NI].
  - rewrite IH; [reflexivity|exact I'|]. intros x X. apply U. right. exact X.
  - rewrite last_none.
    + destruct I as [[= -> ->]|I]; [|contradiction]. unfold last_value. cbn [fold_left]. rewrite bytes_eqb_refl. reflexivity.
    + intros x X. assert (x = v) by (apply U; right; exact X). subst. contradiction.
Qed.
Lemma says_unique c n v w : says c n v -> says c n w -> v = w.
Proof.
  intros [(z & S & ->)|[S|(S & ->)]] [(y & T & ->)|[T|(T & ->)]]; destruct S; remember (bs _) as k eqn:K in T; destruct T; try discriminate K; congruence.
Qed.

(** ** The settings the server gets *)
Lemma conf_lines conf ms : conf_says conf ms -> exists lines, (forall rest, match conf with Some t => universal (t ++ rest) | None => universal rest end = file_of lines ++ universal rest) /\ Forall2 line_means lines ms /\ Forall fits lines /\ Forall good_setting ms.
Proof.
  intros [|ls ms' H13 M F G].
  - exists []. repeat split; constructor.
  - exists (map fst ls). split; [intros rest; apply universal_lines; exact H13|]. auto.
Qed.
Lemma cmd_lines conf ms c : conf_says conf ms -> exists lines, cmd_text conf c = file_of (lines ++ map set_line (sets (kwargs c))) /\ Forall2 line_means lines ms /\ Forall fits lines /\ Forall good_setting ms.
Proof.
  intros H. destruct (conf_lines conf ms H) as (lines & E & A). exists lines. split; [|exact A]. rewrite file_of_app, <- pars_lines. unfold cmd_text. f_equal. specialize (E []).
  cbn [universal] in E. rewrite app_nil_r in E. destruct conf as [t|]; [rewrite app_nil_r in E; exact E|]. exact E.
Qed.
Definition effective (c : cmd) (ms : list (option setting)) (cf : config) : option (list N) := match last_value (c_name cf) (args_mean c) with Some v => Some v | None => by_file ms cf end.
Lemma command_env conf ms c : conf_says conf ms -> good_options c -> exists e, parse_config (cmd_text conf c) = Ok (CSuccess e) /\ forall i cf, nth_error configs i = Some cf -> e i = effective c ms cf.
Proof.
  intros S G. destruct (cmd_lines conf ms c S) as (lines & E & A & B & C). destruct (options_ok c G) as (A' & B' & C'). rewrite E.
  destruct (config_read_good (lines ++ map set_line (sets (kwargs c))) (ms ++ args_mean c)) as (e & P & V); [apply Forall2_app; assumption|apply Forall_app; auto..|].
  exists e. split; [exact P|]. intros i cf Hi. rewrite (V i cf Hi), last_app. unfold effective, by_file. destruct (last_value (c_name cf) (args_mean c)); reflexivity.
Qed.
Lemma effective_said c ms cf v : says c (c_name cf) v -> effective c ms cf = Some (lead v).
Proof.
  intros S. unfold effective, args_mean. rewrite (last_one (c_name cf) v); [reflexivity|apply says_sets; exact S|]. intros w I. apply says_sets in I. exact (says_unique c _ w v I S).
Qed.
Lemma effective_unsaid c ms cf : unsaid c (c_name cf) -> effective c ms cf = by_file ms cf.
Proof.
  intros (U1 & U2 & U3). unfold effective, args_mean. rewrite last_none; [reflexivity|]. intros v I. apply says_sets in I as [(z & S & _)|[S|(S & _)]]; [exact (U1 z S)|exact (U2 v S)|exact (U3 S)].
Qed.
Lemma str_at e i cf : nth_error configs i = Some cf -> value_str e (c_env cf) = Some (e i).
Proof. intros H. unfold value_str. rewrite (env_unique i cf H). reflexivity. Qed.
Lemma command_line_ok conf ms c : conf_says conf ms -> good_options c -> exists e, parse_config (cmd_text conf c) = Ok (CSuccess e) /\ forall i cf, nth_error configs i = Some cf ->
  (forall z, said_num c (c_name cf) z -> value_long e (c_env cf) = Some z) /\
  (forall s a, said_str c (c_name cf) s -> taken s a -> value_str e (c_env cf) = Some (Some a)) /\
  (said_flag c (c_name cf) -> value_bool e (c_env cf) = Some true) /\
  (unsaid c (c_name cf) -> value_str e (c_env cf) = Some (by_file ms cf)).
Proof.
  intros S G. destruct (command_env conf ms c S G) as (e & P & V). exists e. split; [exact P|]. intros i cf Hi. pose proof (V i cf Hi) as Vi. split; [|split; [|split]].
  - intros z Z. rewrite (effective_said c ms cf (dec_z z)) in Vi by (left; exists z; auto). destruct (num_text z (proj1 G _ z Z)) as (A & B & C & D & _).
    rewrite (lead_taken _ _ (taken_whole _ (proj1 A) B)) in Vi. rewrite (long_number e i cf _ Hi Vi A), D. f_equal. pose proof (proj1 G _ z Z) as R. unfold good_num in R. unfold long_max. lia.
  - intros s a Q T. rewrite (effective_said c ms cf s) in Vi by (right; left; exact Q). rewrite (str_at e i cf Hi), Vi, (lead_taken s a T). reflexivity.
  - intros Q. rewrite (effective_said c ms cf (bs "True")) in Vi by (right; right; auto). destruct (bool_exact e i cf _ Hi Vi) as (b & B & X). rewrite B. f_equal. apply X. exists []. right. reflexivity.
  - intros U. rewrite (effective_unsaid c ms cf U) in Vi. rewrite (str_at e i cf Hi), Vi. reflexivity.
Qed.

(** ** One option *)
Definition given (c : cmd) (n : list N) : Prop := (exists z, said_num c n z) \/ (exists s, said_str c n s) \/ said_flag c n.
Definition only (c : cmd) (n : list N) : Prop := given c n /\ forall m, given c m -> m = n.
Lemma given_says c n : given c n <-> exists v, says c n v.
Proof.
  split.
  - intros [(z & S)|[(s & S)|S]]; [exists (dec_z z); left; eauto|exists s; right; left; exact S|exists (bs "True"); right; right; auto].
  - intros (v & [(z & S & _)|[S|(S & _)]]); [left; eauto|right; left; eauto|right; right; exact S].
Qed.
Lemma unsaid_given c n : unsaid c n <-> ~ given c n.
Proof. unfold unsaid, given. split; [intros (A & B & C) [(z & S)|[(s & S)|S]]; [exact (A z S)|exact (B s S)|exact (C S)]|intros H; split; [|split]; intros; intros S; apply H; eauto]. Qed.
Lemma sets_nodup : forall kws, NoDup (map fst kws) -> NoDup (map fst (sets kws)).
Proof.
  induction kws as [|[k [v|]] t IH]; cbn [map fst sets]; intros H; [constructor| |]; inversion H as [|? ? H1 H2]; subst; [|auto]. destruct (existsb _ _); [|auto]. cbn [map fst]. constructor; [|auto].
  intros I. apply in_map_iff in I as ((k' & w) & Q & I). cbn [fst] in Q. subst k'. apply in_sets in I as (I & _). apply H1. apply in_map_iff. exists (k, Some w). auto.
Qed.
Fixpoint nodupb (l : list (list N)) : bool := match l with [] => true | x :: t => negb (existsb (bytes_eqb x) t) && nodupb t end.
Lemma nodupb_ok : forall l, nodupb l = true -> NoDup l.
Proof.
  induction l as [|x l IH]; intros B; [constructor|]. cbn [nodupb] in B. apply andb_true_iff in B as (B1 & B2). constructor; [|auto].
  intros X. apply negb_true_iff in B1. assert (existsb (bytes_eqb x) l = true) by (apply existsb_exists; exists x; split; [exact X|apply bytes_eqb_refl]). congruence.
Qed.
Lemma keys_nodup c : NoDup (map fst (sets (kwargs c))).
Proof. apply sets_nodup. change (map fst (kwargs c)) with (map fst (kwargs no_options)). apply nodupb_ok. vm_compute. reflexivity. Qed.
Lemma only_sets c n : only c n -> exists v, says c n v /\ sets (kwargs c) = [(n, v)].
Proof.
  intros (G & O). apply given_says in G as (v & S). exists v. split; [exact S|]. pose proof (keys_nodup c) as ND. pose proof (proj2 (says_sets c n v) S) as I.
  assert (ALL : forall m w, In (m, w) (sets (kwargs c)) -> m = n) by (intros m w J; apply O; apply (proj2 (given_says c m)); exists w; exact (proj1 (says_sets c m w) J)).
  destruct (sets (kwargs c)) as [|[m w] l]; [destruct I|]. assert (m = n) by (apply (ALL m w); left; reflexivity). subst m.
  destruct l as [|[m' w'] l]. { destruct I as [I|[]]. rewrite I. reflexivity. }
  exfalso. assert (m' = n) by (apply (ALL m' w'); right; left; reflexivity). subst m'. cbn [map fst] in ND. inversion ND as [|? ? X _]; subst. apply X. left. reflexivity.
Qed.
Lemma universal_id l : ~ In 13 l -> universal l = l.
Proof. intros H. rewrite <- (app_nil_r l) at 1. rewrite universal_plain by exact H. apply app_nil_r. Qed.
Lemma glued_env ls ms last n v c m : Forall (fun p => ~ In 13 (fst p)) ls -> Forall2 line_means (map fst ls) ms -> Forall fits (map fst ls) -> Forall good_setting ms ->
  ~ In 13 last -> ~ In 10 last -> (length last <= 80)%nat -> says c n v -> ~ In 10 v -> (length v <= 900)%nat -> sets (kwargs c) = [(n, v)] -> line_means (last ++ set_line (n, v)) m -> good_setting m ->
  exists e, parse_config (cmd_text (Some (text_of ls ++ last)) c) = Ok (CSuccess e) /\ forall i cf, nth_error configs i = Some cf -> e i = by_file (ms ++ [m]) cf.
Proof.
  intros H13 M F G L13 L10 LL S V10 VL E LM GM. unfold cmd_text. rewrite (universal_lines ls last H13), (universal_id last L13), pars_lines, E. cbn [map].
  assert (Q : (file_of (map fst ls) ++ last) ++ file_of [set_line (n, v)] = file_of (map fst ls ++ [last ++ set_line (n, v)])).
  { rewrite file_of_app. unfold file_of. cbn [map concat]. rewrite !app_nil_r, <- !app_assoc. reflexivity. }
  rewrite Q. destruct (says_name c n v S) as (_ & FN & LN).
  destruct (config_read_good (map fst ls ++ [last ++ set_line (n, v)]) (ms ++ [m])) as (e & P & V).
  - apply Forall2_app; [exact M|]. constructor; [exact LM|constructor].
  - apply Forall_app. split; [exact F|]. constructor; [|constructor]. unfold set_line. cbn [fst snd]. split.
    + unfold noLF. rewrite !in_app_iff. intros [I|[I|[I|I]]]; [contradiction| |vm_compute in I; intuition discriminate|contradiction]. rewrite Forall_forall in FN. apply FN in I. unfold name_char, letter in I. lia.
    + rewrite !app_length. change (length (bs " = ")) with 3%nat. lia.
  - apply Forall_app. split; [exact G|]. constructor; [exact GM|constructor].
  - exists e. split; [exact P|]. intros i cf Hi. exact (V i cf Hi).
Qed.
Lemma comment_swallows ls ms b t c n : Forall (fun p => ~ In 13 (fst p)) ls -> Forall2 line_means (map fst ls) ms -> Forall fits (map fst ls) -> Forall good_setting ms ->
  Forall blank b -> ~ In 13 t -> ~ In 10 t -> (length (b ++ 35%N :: t) <= 80)%nat -> good_options c -> only c n ->
  exists e, parse_config (cmd_text (Some (text_of ls ++ b ++ 35 :: t)) c) = Ok (CSuccess e) /\ forall i cf, nth_error configs i = Some cf -> value_str e (c_env cf) = Some (by_file ms cf).
Proof.
  intros H13 M F G B T13 T10 LL GO O. destruct (only_sets c n O) as (v & S & E). destruct (says_value c n v GO S) as (V10 & VL & _).
  assert (NB : forall x, In x b -> blank x) by (rewrite Forall_forall in B; exact B).
  destruct (glued_env ls ms (b ++ 35 :: t) n v c None H13 M F G) as (e & P & V); try assumption.
  - rewrite in_app_iff. cbn [In]. intros [I|[I|I]]; [apply NB in I; unfold blank in I; lia|discriminate|contradiction].
  - rewrite in_app_iff. cbn [In]. intros [I|[I|I]]; [apply NB in I; unfold blank in I; lia|discriminate|contradiction].
  - rewrite <- app_assoc. cbn [app]. apply lm_comment. eapply Forall_impl; [|exact B]. intros x X. left. exact X.
  - exact Logic.I.
  - exists e. split; [exact P|]. intros i cf Hi. rewrite (str_at e i cf Hi), (V i cf Hi). unfold by_file. rewrite last_app. reflexivity.
Qed.
Lemma bytes_eqb_sym a b : bytes_eqb a b = bytes_eqb b a.
Proof. destruct (bytes_eqb a b) eqn:A, (bytes_eqb b a) eqn:B; try reflexivity; [apply bytes_eqb_eq in A; subst; rewrite bytes_eqb_refl in B|apply bytes_eqb_eq in B; subst; rewrite bytes_eqb_refl in A]; discriminate. Qed.
Lemma setting_glued ls ms b1 name b2 b3 w c n : Forall (fun p => ~ In 13 (fst p)) ls -> Forall2 line_means (map fst ls) ms -> Forall fits (map fst ls) -> Forall good_setting ms ->
  Forall blank b1 -> Forall blank b2 -> Forall blank b3 -> Forall value_char w -> (exists cf, In cf configs /\ c_name cf = name /\ c_type cf = CString) ->
  (length (b1 ++ name ++ b2 ++ 61%N :: b3 ++ w) <= 80)%nat -> good_options c -> only c n ->
  exists e, parse_config (cmd_text (Some (text_of ls ++ b1 ++ name ++ b2 ++ 61 :: b3 ++ w)) c) = Ok (CSuccess e) /\ forall i cf, nth_error configs i = Some cf ->
    value_str e (c_env cf) = Some (if bytes_eqb (c_name cf) name then Some (w ++ n) else by_file ms cf).
Proof.
  intros H13 M F G B1 B2 B3 W (d & ID & ND & TD) LL GO O. destruct (only_sets c n O) as (v & S & E). destruct (says_value c n v GO S) as (V10 & VL & _). destruct (says_name c n v S) as (NE & FN & LN).
  assert (NAME : name <> [] /\ Forall name_char name).
  { assert (X : forallb (fun c => negb (length (c_name c) =? 0)%nat && forallb cf_name (c_name c)) configs = true) by (vm_compute; reflexivity).
    rewrite forallb_forall in X. specialize (X d ID). rewrite ND in X. apply andb_true_iff in X as (X1 & X2). split; [intros ->; discriminate|]. rewrite forallb_forall in X2. apply Forall_forall. intros x I. apply name_ok, X2, I. }
  destruct NAME as (N1 & N2).
  assert (CH : forall x, In x (b1 ++ name ++ b2 ++ 61 :: b3 ++ w) -> x <> 13 /\ x <> 10).
  { intros x. rewrite !in_app_iff. cbn [In]. rewrite !in_app_iff. rewrite Forall_forall in B1, B2, B3, W, N2. intros [I|[I|[I|[I|[I|I]]]]]; [apply B1 in I|apply N2 in I|apply B2 in I|subst x|apply B3 in I|apply W in I]; unfold blank, name_char, value_char, letter in *; lia. }
  destruct (glued_env ls ms (b1 ++ name ++ b2 ++ 61 :: b3 ++ w) n v c (Some (name, w ++ n)) H13 M F G) as (e & P & V); try assumption.
  - intros I. apply CH in I. tauto.
  - intros I. apply CH in I. tauto.
  - unfold set_line. cbn [fst snd]. replace ((b1 ++ name ++ b2 ++ 61 :: b3 ++ w) ++ n ++ bs " = " ++ v) with (b1 ++ name ++ b2 ++ 61 :: b3 ++ (w ++ n) ++ (bs " = " ++ v)).
    + apply lm_set; auto.
      * eapply Forall_impl; [|exact B1]. intros x X. left. exact X.
      * destruct w; [exact NE|discriminate].
      * apply Forall_app. split; [exact W|]. eapply Forall_impl; [|exact FN]. intros x X. unfold name_char, value_char in *. tauto.
      * left. left. reflexivity.
    + rewrite <- !app_assoc. cbn [app]. rewrite <- !app_assoc. reflexivity.
  - exists d. rewrite TD. exact (conj ID (conj ND Logic.I)).
  - exists e. split; [exact P|]. intros i cf Hi. rewrite (str_at e i cf Hi), (V i cf Hi). unfold by_file. rewrite last_app. unfold last_value at 1. cbn [fold_left]. rewrite (bytes_eqb_sym name). destruct (bytes_eqb (c_name cf) name); reflexivity.
Qed.

(** ** Values that cannot be passed on *)
Definition stopper (x : N) : Prop := ~ value_char x /\ ~ blank x /\ x <> 13 /\ x <> 10.
Lemma value_stops full name x t : stopper x -> forall a acc, Forall value_char a -> p_value full name acc (a ++ x :: t) = LSyntax.
Proof.
  intros (X1 & X2 & X3 & X4) a acc F. revert acc. induction F as [|c a C F IH]; intros acc; cbn [app p_value].
  - destruct (cf_value x) eqn:Q; [apply val_ok in Q; contradiction|]. destruct (cf_space x) eqn:Q2; [apply space_ok in Q2; contradiction|]. replace ((x =? 13) || (x =? 10)) with false by lia. reflexivity.
  - apply val_ok in C. rewrite C. apply IH.
Qed.
Lemma name_runs full t : forall n acc, Forall name_char n -> p_name full acc (n ++ 32 :: t) = p_name_end full (acc ++ n) t.
Proof.
  induction n as [|c n IH]; intros acc F; cbn [app p_name]; [rewrite app_nil_r; reflexivity|]. inversion F as [|? ? C F']; subst.
  replace (cf_space c) with false by (unfold name_char, letter in C; unfold cf_space; lia). replace (c =? 61) with false by (unfold name_char, letter in C; lia).
  apply name_ok in C. rewrite C, IH by exact F'. rewrite <- app_assoc. reflexivity.
Qed.
Lemma line_stops full n a x t : n <> [] -> Forall name_char n -> Forall value_char a -> stopper x -> p_init full (set_line (n, a ++ x :: t) ++ [10]) = LSyntax.
Proof.
  intros NE F A X. unfold set_line. cbn [fst snd]. destruct n as [|c n]; [contradiction|]. inversion F as [|? ? C F']; subst. change (bs " = ") with [32; 61; 32]. rewrite <- !app_assoc. cbn [app p_init].
  replace (cf_space c) with false by (unfold name_char, letter in C; unfold cf_space; lia). apply name_ok in C. rewrite C, name_runs by exact F'. cbn [app p_name_end]. change (cf_space 61) with false. change (61 =? 61) with true. cbv iota.
  cbn [p_equal]. change (cf_space 32) with true. cbv iota. destruct a as [|d a]; cbn [app p_equal].
  - destruct X as (X1 & X2 & _). destruct (cf_space x) eqn:Q2; [apply space_ok in Q2; contradiction|]. destruct (cf_value x) eqn:Q; [apply val_ok in Q; contradiction|]. reflexivity.
  - inversion A as [|? ? D A']; subst. replace (cf_space d) with false by (unfold value_char, letter in D; unfold cf_space; lia). apply val_ok in D. rewrite D. apply value_stops; assumption.
Qed.
Lemma option_stops conf ms c n s a x t : conf_says conf ms -> (forall m z, said_num c m z -> good_num z) -> (forall m r, said_str c m r -> m <> n -> good_str r) -> said_str c n s ->
  s = a ++ x :: t -> Forall value_char a -> stopper x -> ~ In 10 s -> (length s <= 900)%nat -> exists e, parse_config (cmd_text conf c) = Ok (CError e).
Proof.
  intros S GN GS Q E A X S10 SL. assert (SY : says c n s) by (right; left; exact Q). destruct (says_name c n s SY) as (NE & FN & LN).
  pose proof (proj2 (says_sets c n s) SY) as I. apply in_split in I as (pre & post & ES). destruct (cmd_lines conf ms c S) as (lines & ET & A1 & B1 & C1).
  pose proof (keys_nodup c) as ND. rewrite ES in ET, ND. rewrite map_app in ND. cbn [map fst] in ND. apply NoDup_remove_2 in ND.
  assert (PRE : forall m v, In (m, v) pre -> says c m v /\ m <> n).
  { intros m v I. split; [apply (proj1 (says_sets c m v)); rewrite ES; apply in_or_app; left; exact I|]. intros ->. apply ND. apply in_or_app. left. apply in_map_iff. exists (n, v). auto. }
  destruct (args_ok pre) as (A2 & B2 & C2).
  { intros m v I. destruct (PRE m v I) as (SM & NM). destruct (says_name c m v SM) as (Y1 & Y2 & Y3). split; [exact Y1|]. split; [exact Y2|]. split; [exact Y3|].
    destruct SM as [(z & SM & ->)|[SM|(SM & ->)]].
    - destruct (num_text z (GN m z SM)) as (Z1 & Z2 & Z3 & Z4 & Z5 & _). pose proof (taken_whole _ (proj1 Z1) Z2) as T. rewrite (lead_taken _ _ T). split; [exact Z5|]. split; [lia|]. split; [exact T|].
      destruct (num_entry c m z SM) as (i & cf & E1 & E2 & E3). exists i, cf. rewrite E3. split; [exact E1|]. split; [exact E2|]. split; [exact Z1|]. right. rewrite Z4. specialize (GN m z SM). unfold good_num in GN. lia.
    - destruct (GS m v SM NM) as (Z1 & Z2 & b & T). rewrite (lead_taken _ _ T). split; [exact Z1|]. split; [exact Z2|]. split; [exact T|].
      destruct (str_entry c m v SM) as (i & cf & E1 & E2 & E3). exists i, cf. rewrite E3. exact (conj E1 (conj E2 Logic.I)).
    - assert (T : taken (bs "True") (bs "True")) by (apply taken_whole; [discriminate|]; repeat (constructor; [unfold value_char, letter; cbn; lia|]); constructor).
      rewrite (lead_taken _ _ T). split; [vm_compute; intuition discriminate|]. split; [cbn; lia|]. split; [exact T|].
      destruct (flag_entry c m SM) as (i & cf & E1 & E2 & E3). exists i, cf. rewrite E3. split; [exact E1|]. split; [exact E2|]. right; left; reflexivity. }
  assert (TXT : cmd_text conf c = file_of (lines ++ map set_line pre) ++ set_line (n, s) ++ 10 :: file_of (map set_line post)).
  { rewrite ET, map_app, !file_of_app, <- app_assoc. cbn [map]. f_equal. f_equal. unfold file_of. cbn [map concat]. rewrite <- app_assoc. reflexivity. }
  rewrite TXT. apply (config_bad _ (ms ++ map (fun p => Some (fst p, lead (snd p))) pre)); [apply Forall2_app; assumption|apply Forall_app; auto..| |].
  - unfold set_line. cbn [fst snd]. split.
    + unfold noLF. rewrite !in_app_iff. intros [I|[I|I]]; [|vm_compute in I; intuition discriminate|contradiction]. rewrite Forall_forall in FN. apply FN in I. unfold name_char, letter in I. lia.
    + rewrite !app_length. change (length (bs " = ")) with 3%nat. lia.
  - left. assert (NL : noLF (set_line (n, s))). { unfold set_line, noLF. cbn [fst snd]. rewrite !in_app_iff. intros [I|[I|I]]; [|vm_compute in I; intuition discriminate|contradiction]. rewrite Forall_forall in FN. apply FN in I. unfold name_char, letter in I. lia. }
    pose proof (pi_spec false (set_line (n, s)) NL) as P. subst s. rewrite (line_stops false n a x t NE FN A X) in P. exact P.
Qed.

(** ** From the command line to the server *)
Definition conf_of (disk : list N -> option (list N)) (path : option (list N)) : option (list N) := match path with Some p => disk p | None => None end.
Definition starts (a : appl) (path : option (list N)) : Prop := a_loads a = true /\ (a_fly a = Some None \/ a_fly a = Some path).
Lemma launch_starts disk a path c : starts a path -> launch disk a path c = start_server (cmd_text (conf_of disk path) c).
Proof.
  intros (L & F). unfold launch. rewrite L. cbn [negb]. destruct F as [F|F]; rewrite F; destruct path as [p|]; try reflexivity. rewrite bytes_eqb_refl. reflexivity.
Qed.
Lemma dcp_unsaid c : unsaid c (bs "default_content_path").
Proof. split; [|split]; intros; intros S; remember (bs "default_content_path") as k eqn:K; destruct S; discriminate K. Qed.
Lemma launch_ok disk a path c ms : starts a path -> conf_says (conf_of disk path) ms -> good_options c ->
  (last_value (bs "default_content_path") ms = None -> exists e, launch disk a path c = Ok (Serves e) /\ forall i cf, nth_error configs i = Some cf ->
    (forall z, said_num c (c_name cf) z -> value_long e (c_env cf) = Some z) /\
    (forall s a, said_str c (c_name cf) s -> taken s a -> value_str e (c_env cf) = Some (Some a)) /\
    (said_flag c (c_name cf) -> value_bool e (c_env cf) = Some true) /\
    (unsaid c (c_name cf) -> value_str e (c_env cf) = Some (by_file ms cf))) /\
  (last_value (bs "default_content_path") ms <> None -> launch disk a path c = Ok Idle).
Proof.
  intros ST S G. rewrite (launch_starts disk a path c ST). destruct (command_line_ok _ ms c S G) as (e & P & V). unfold start_server. rewrite P. cbn [obind].
  pose (cf := mkConfig (bs "default_content_path") (bs "FLY_DEFAULT_CONTENT_PATH") None CString).
  assert (D : e default_content_path = last_value (bs "default_content_path") ms).
  { assert (H : nth_error configs default_content_path = Some cf) by reflexivity. destruct (V _ _ H) as (_ & _ & _ & U). specialize (U (dcp_unsaid c)). rewrite (str_at e _ cf H) in U. injection U as U. rewrite U. unfold by_file. cbn [c_name c_default cf].
    destruct (last_value _ ms); reflexivity. }
  rewrite D. split; intros X; [rewrite X; eauto|]. destruct (last_value _ ms); [reflexivity|contradiction].
Qed.
Lemma exit_zero disk a path c n : a_loads a = true -> launch disk a path c = Ok (Ends n) -> n = 0%Z.
Proof.
  intros L. assert (SS : forall t, start_server t = Ok (Ends n) -> n = 0%Z).
  { intros t. unfold start_server, finally_exit. destruct (parse_config t) as [[e| |]|]; cbn [obind]; [destruct (e _)| | |]; intros E; congruence. }
  unfold launch, finally_exit. rewrite L. cbn [negb]. destruct (a_fly a) as [[q|]|]; [|destruct path; apply SS|congruence]. destruct path as [p|]; [|apply SS]. destruct (bytes_eqb p q); [apply SS|congruence].
Qed.
