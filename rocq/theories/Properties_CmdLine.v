(** Property C122: the command line (model: CmdLine.v; specification: CmdLineProofs.v). *)
From Verif Require Import Base CStr CNum Status Conf ConfProofs CmdLine CmdLineProofs.
Local Open Scope N_scope.

(** Full statement (false, see below): the server runs with what the options say; where they say nothing, with what the
    configuration file says; else with the defaults; and whoever starts it is told when it does not start. *)
(** [said_num], [said_str], [said_flag]: what the options say about a setting; [conf_says]: the file consists of complete
    lines that say [ms]; [by_file]: what the file or the default gives.  The file may have the line ends of Unix or of
    Windows.  A text is taken up to the first blank ([taken]). *)
Theorem command_line_wins_partial : forall disk a path c ms, starts a path -> conf_says (conf_of disk path) ms -> good_options c ->
  last_value (bs "default_content_path") ms = None ->
  exists e, launch disk a path c = Ok (Serves e) /\ forall i cf, nth_error configs i = Some cf ->
    (forall z, said_num c (c_name cf) z -> value_long e (c_env cf) = Some z) /\
    (forall s a, said_str c (c_name cf) s -> taken s a -> value_str e (c_env cf) = Some (Some a)) /\
    (said_flag c (c_name cf) -> value_bool e (c_env cf) = Some true) /\
    (unsaid c (c_name cf) -> value_str e (c_env cf) = Some (by_file ms cf)).
Proof. intros disk a path c ms ST S G. exact (proj1 (launch_ok disk a path c ms ST S G)). Qed.

(** Concrete commands. *)
Definition ex_cmd : cmd := mkCmd None (Some 4%Z) None (Some (bs "127.0.0.1")) (Some 8080%Z) true None None None None None false false None None None None.
Definition ex_app : appl := mkApp true (Some None).
Definition ex_port : cmd := mkCmd None None None None (Some 8080%Z) false None None None None None false false None None None None.
Definition ex_lines : list (list N * eol) := [(bs "# fly", LF); (bs "port = 80", CRLF); (bs "backlog=5", LF)].
Definition ex_disk (p : list N) : option (list N) := if bytes_eqb p (bs "/f") then Some (text_of ex_lines) else None.
Lemma ex_num v : negb (length v =? 0)%nat && forallb (fun c => (48 <=? c) && (c <=? 57)) v = true -> number v.
Proof. intros H. apply andb_true_iff in H as (A & B). split; [intros ->; discriminate|]. rewrite forallb_forall in B. apply Forall_forall. intros c I. specialize (B c I). cbv beta in B. lia. Qed.
Lemma ex_says : Forall (fun p => ~ In 13 (fst p)) ex_lines /\ Forall2 line_means (map fst ex_lines) [None; Some (bs "port", bs "80"); Some (bs "backlog", bs "5")] /\
  Forall fits (map fst ex_lines) /\ Forall good_setting [None; Some (bs "port", bs "80"); Some (bs "backlog", bs "5")].
Proof.
  assert (W : forall l, forallb (fun c => cf_value c) l = true -> Forall value_char l) by (intros l H; rewrite forallb_forall in H; apply Forall_forall; intros x I; apply val_ok, H, I).
  assert (NM : forall l, forallb (fun c => cf_name c) l = true -> Forall name_char l) by (intros l H; rewrite forallb_forall in H; apply Forall_forall; intros x I; apply name_ok, H, I).
  split; [repeat (constructor; [vm_compute; intuition discriminate|]); constructor|]. split; [|split].
  - constructor; [apply (lm_comment [] (bs " fly")); constructor|]. constructor.
    { apply (lm_set [] (bs "port") [32] [32] (bs "80") []); [constructor|discriminate|apply NM; reflexivity|constructor; [left; reflexivity|constructor]|constructor; [left; reflexivity|constructor]|discriminate|apply W; reflexivity|exact Logic.I]. }
    constructor; [|constructor]. apply (lm_set [] (bs "backlog") [] [] (bs "5") []); [constructor|discriminate|apply NM; reflexivity|constructor|constructor|discriminate|apply W; reflexivity|exact Logic.I].
  - repeat (constructor; [split; [vm_compute; intuition discriminate|vm_compute; lia]|]). constructor.
  - constructor; [exact Logic.I|]. constructor; [|constructor; [|constructor]].
    + exists (mkConfig (bs "port") (bs "FLY_PORT") (Some (bs "1234")) CInteger). split; [apply (nth_error_In configs 6); reflexivity|]. split; [reflexivity|]. split; [apply ex_num; reflexivity|right; reflexivity].
    + exists (mkConfig (bs "backlog") (bs "FLY_BACKLOG") (Some (bs "1024")) CInteger). split; [apply (nth_error_In configs 14); reflexivity|]. split; [reflexivity|]. split; [apply ex_num; reflexivity|right; reflexivity].
Qed.
Lemma ex_good : good_options ex_cmd.
Proof.
  split.
  - intros n z S. destruct S as [z H|z H|z H|z H|z H|z H|z H|z H]; cbn in H; try discriminate H; injection H as <-; unfold good_num; lia.
  - intros n s S. destruct S as [s H|s H|s H|s H|s H|s H]; cbn [o_host o_ssl_crt_path o_ssl_key_path o_pidfile_path o_index_path o_log_path ex_cmd] in H; try discriminate H. injection H as <-.
    split; [vm_compute; intuition discriminate|]. split; [vm_compute; lia|]. exists (bs "127.0.0.1"). apply taken_whole; [discriminate|]. apply Forall_forall. intros x I. apply val_ok. revert x I. apply forallb_forall. reflexivity.
Qed.
Lemma ex_port_good : good_options ex_port.
Proof.
  split.
  - intros n z S. destruct S as [z H|z H|z H|z H|z H|z H|z H|z H]; cbn in H; try discriminate H; injection H as <-; unfold good_num; lia.
  - intros n s S. destruct S as [s H|s H|s H|s H|s H|s H]; discriminate H.
Qed.
Lemma ex_port_only : only ex_port (bs "port").
Proof.
  split; [left; exists 8080%Z; constructor; reflexivity|]. intros m [(z & S)|[(s & S)|S]].
  - destruct S as [z H|z H|z H|z H|z H|z H|z H|z H]; cbn in H; try discriminate H. reflexivity.
  - destruct S as [s H|s H|s H|s H|s H|s H]; discriminate H.
  - destruct S as [H|H|H]; discriminate H.
Qed.
Example command_line_ex : starts ex_app (Some (bs "/f")) /\ conf_says (conf_of ex_disk (Some (bs "/f"))) [None; Some (bs "port", bs "80"); Some (bs "backlog", bs "5")] /\ good_options ex_cmd /\
  exists e, launch ex_disk ex_app (Some (bs "/f")) ex_cmd = Ok (Serves e) /\ value_long e (bs "FLY_PORT") = Some 8080%Z /\ value_long e (bs "FLY_BACKLOG") = Some 5%Z /\ value_bool e (bs "FLY_SSL") = Some true /\ value_long e (bs "FLY_REQUEST_TIMEOUT") = Some 60%Z.
Proof.
  split; [split; [reflexivity|left; reflexivity]|]. destruct ex_says as (A & B & C & D). split; [change (conf_of ex_disk (Some (bs "/f"))) with (Some (text_of ex_lines)); apply cs_file; assumption|]. split; [exact ex_good|].
  eexists. split; [vm_compute; reflexivity|]. repeat split; vm_compute; reflexivity.
Qed.

(** Finding: a text with a blank in it is cut there without a word (this is [taken] in the theorem above). *)
Theorem command_line_blank_refuted : exists s c e, o_log_path c = Some s /\ launch ex_disk ex_app None c = Ok (Serves e) /\ s = bs "/var/my logs" /\ value_str e (bs "FLY_LOG_PATH") = Some (Some (bs "/var/my")).
Proof.
  exists (bs "/var/my logs"), (mkCmd None None None None None false None None None None (Some (bs "/var/my logs")) false false None None None None). eexists. split; [reflexivity|]. split; [vm_compute; reflexivity|]. split; reflexivity.
Qed.
(** Finding: a text with another character that the configuration file does not allow keeps the server from starting: every
    IPv6 address, every path with a '+' or a '~'. *)
Theorem command_line_text_stops : forall disk a path c ms n s b x t, starts a path -> conf_says (conf_of disk path) ms -> (forall m z, said_num c m z -> good_num z) ->
  (forall m r, said_str c m r -> m <> n -> good_str r) -> said_str c n s -> s = b ++ x :: t -> Forall value_char b -> stopper x -> ~ In 10 s -> (length s <= 900)%nat ->
  launch disk a path c = Ok (Ends 0).
Proof.
  intros disk a path c ms n s b x t ST S GN GS Q E B X S10 SL. rewrite (launch_starts disk a path c ST). unfold start_server.
  destruct (option_stops _ ms c n s b x t S GN GS Q E B X S10 SL) as (e & P). rewrite P. reflexivity.
Qed.
Definition ex_v6 : cmd := mkCmd None None None (Some (bs "::1")) None false None None None None None false false None None None None.
Example command_line_text_ex : said_str ex_v6 (bs "host") (bs "::1") /\ bs "::1" = [] ++ 58 :: bs ":1" /\ stopper 58.
Proof. split; [constructor; reflexivity|]. split; [reflexivity|]. unfold stopper, value_char, letter, blank. lia. Qed.
Theorem command_line_host_refuted : exists c, o_host c = Some (bs "::1") /\ launch ex_disk ex_app None c = Ok (Ends 0).
Proof. exists ex_v6. split; [vm_compute; reflexivity|]. vm_compute. reflexivity. Qed.

(** Findings: if the last line of the file is not ended, the line of the first option becomes part of it.  Behind a comment
    the option is ignored; behind a setting the name of the option becomes part of the value and the option is ignored. *)
Theorem unended_comment_swallows : forall ls ms b t c n, Forall (fun p => ~ In 13 (fst p)) ls -> Forall2 line_means (map fst ls) ms -> Forall fits (map fst ls) -> Forall good_setting ms ->
  Forall blank b -> ~ In 13 t -> ~ In 10 t -> (length (b ++ 35%N :: t) <= 80)%nat -> good_options c -> only c n ->
  exists e, parse_config (cmd_text (Some (text_of ls ++ b ++ 35 :: t)) c) = Ok (CSuccess e) /\ forall i cf, nth_error configs i = Some cf -> value_str e (c_env cf) = Some (by_file ms cf).
Proof. exact comment_swallows. Qed.
Theorem unended_setting_glued : forall ls ms b1 name b2 b3 w c n, Forall (fun p => ~ In 13 (fst p)) ls -> Forall2 line_means (map fst ls) ms -> Forall fits (map fst ls) -> Forall good_setting ms ->
  Forall blank b1 -> Forall blank b2 -> Forall blank b3 -> Forall value_char w -> (exists cf, In cf configs /\ c_name cf = name /\ c_type cf = CString) ->
  (length (b1 ++ name ++ b2 ++ 61%N :: b3 ++ w) <= 80)%nat -> good_options c -> only c n ->
  exists e, parse_config (cmd_text (Some (text_of ls ++ b1 ++ name ++ b2 ++ 61 :: b3 ++ w)) c) = Ok (CSuccess e) /\ forall i cf, nth_error configs i = Some cf ->
    value_str e (c_env cf) = Some (if bytes_eqb (c_name cf) name then Some (w ++ n) else by_file ms cf).
Proof. exact setting_glued. Qed.
Example unended_ex : good_options ex_port /\ only ex_port (bs "port") /\ (exists cf, In cf configs /\ c_name cf = bs "host" /\ c_type cf = CString) /\
  Forall (fun p => ~ In 13 (fst p)) ex_lines /\ Forall2 line_means (map fst ex_lines) [None; Some (bs "port", bs "80"); Some (bs "backlog", bs "5")].
Proof.
  split; [exact ex_port_good|]. split; [exact ex_port_only|]. split; [eexists; split; [apply (nth_error_In configs 5); reflexivity|]; split; reflexivity|]. split; apply ex_says.
Qed.
Theorem unended_refuted : exists f g e d, parse_config (cmd_text (Some f) ex_port) = Ok (CSuccess e) /\ f = bs "# fly" /\ value_long e (bs "FLY_PORT") = Some 1234%Z /\
  parse_config (cmd_text (Some g) ex_port) = Ok (CSuccess d) /\ g = bs "host = a.example" /\ value_str d (bs "FLY_HOST") = Some (Some (bs "a.exampleport")) /\ value_long d (bs "FLY_PORT") = Some 1234%Z.
Proof.
  exists (bs "# fly"), (bs "host = a.example"). do 2 eexists. split; [vm_compute; reflexivity|]. split; [reflexivity|]. split; [vm_compute; reflexivity|]. split; [vm_compute; reflexivity|]. repeat split; vm_compute; reflexivity.
Qed.

(** Finding: the configuration file an application names itself is not read when it is started from the command line... *)
Theorem app_config_ignored : forall disk q c, launch disk (mkApp true (Some (Some q))) None c = launch disk (mkApp true (Some None)) None c.
Proof. intros. unfold launch. cbn [a_loads a_fly negb]. reflexivity. Qed.
Theorem app_config_refuted : exists e, ex_disk (bs "/f") = Some (text_of ex_lines) /\ launch ex_disk (mkApp true (Some (Some (bs "/f")))) None no_options = Ok (Serves e) /\ value_long e (bs "FLY_PORT") = Some 1234%Z.
Proof. eexists. split; [reflexivity|]. split; [vm_compute; reflexivity|]. vm_compute. reflexivity. Qed.
(** ... and after the application's file has changed only it is: the options are forgotten. *)
Theorem reload_forgets_options : forall disk q path path' c c', relaunch disk (mkApp true (Some (Some q))) path c = relaunch disk (mkApp true (Some (Some q))) path' c'.
Proof. intros. unfold relaunch. cbn [a_fly]. reflexivity. Qed.
Theorem reload_keeps_options_partial : forall disk path c, relaunch disk (mkApp true (Some None)) path c = launch disk (mkApp true (Some None)) path c.
Proof. intros disk path c. unfold relaunch, launch. cbn [a_loads a_fly negb]. destruct path; reflexivity. Qed.
Theorem reload_refuted : exists e d, launch ex_disk (mkApp true (Some (Some (bs "/f")))) (Some (bs "/f")) ex_port = Ok (Serves e) /\ value_long e (bs "FLY_PORT") = Some 8080%Z /\
  relaunch ex_disk (mkApp true (Some (Some (bs "/f")))) (Some (bs "/f")) ex_port = Ok (Serves d) /\ value_long d (bs "FLY_PORT") = Some 80%Z.
Proof. do 2 eexists. split; [vm_compute; reflexivity|]. split; [vm_compute; reflexivity|]. split; [vm_compute; reflexivity|]. vm_compute. reflexivity. Qed.

(** Finding: no server with a default content path is ever started. *)
Theorem default_content_never_serves : forall disk a path c ms, starts a path -> conf_says (conf_of disk path) ms -> good_options c ->
  last_value (bs "default_content_path") ms <> None -> launch disk a path c = Ok Idle.
Proof. intros disk a path c ms ST S G. exact (proj2 (launch_ok disk a path c ms ST S G)). Qed.
Theorem command_default_content_refuted : exists disk, disk (bs "/f") = Some (bs "default_content_path = /srv/fly" ++ [10]) /\ launch disk ex_app (Some (bs "/f")) no_options = Ok Idle.
Proof. exists (fun _ => Some (bs "default_content_path = /srv/fly" ++ [10])). split; [vm_compute; reflexivity|]. vm_compute. reflexivity. Qed.

(** Finding: --pidfile-path does not make a pid file: without a configuration file that asks for one there is none. *)
Theorem pidfile_option_idle : forall disk a c, starts a None -> good_options c -> exists e, launch disk a None c = Ok (Serves e) /\ value_str e (bs "FLY_CREATE_PIDFILE") = Some (Some (bs "false")).
Proof.
  intros disk a c ST G. destruct (proj1 (launch_ok disk a None c [] ST cs_none G) eq_refl) as (e & E & V). exists e. split; [exact E|].
  destruct (V 20%nat (mkConfig (bs "create_pidfile") (bs "FLY_CREATE_PIDFILE") (Some (bs "false")) CBool) eq_refl) as (_ & _ & _ & U). apply U. cbn [c_name].
  split; [|split]; intros; intros S; remember (bs "create_pidfile") as k eqn:K; destruct S; discriminate K.
Qed.

(** Finding: once the application has been imported the exit status is 0, also when the configuration is rejected or when
    there is no application in the file. *)
Theorem exit_status_zero : forall disk a path c n, a_loads a = true -> launch disk a path c = Ok (Ends n) -> n = 0%Z.
Proof. exact exit_zero. Qed.
Theorem exit_status_refuted : exists disk a c, disk (bs "/f") = Some (bs "prot = 80" ++ [10]) /\ launch disk a (Some (bs "/f")) c = Ok (Ends 0) /\ a_loads a = true.
Proof. exists (fun _ => Some (bs "prot = 80" ++ [10])), ex_app, no_options. split; [reflexivity|]. split; [vm_compute; reflexivity|]. vm_compute. reflexivity. Qed.

Print Assumptions command_line_wins_partial.
Print Assumptions command_line_blank_refuted.
Print Assumptions command_line_text_stops.
Print Assumptions command_line_host_refuted.
Print Assumptions unended_comment_swallows.
Print Assumptions unended_setting_glued.
Print Assumptions unended_refuted.
Print Assumptions app_config_ignored.
Print Assumptions app_config_refuted.
Print Assumptions reload_forgets_options.
Print Assumptions reload_keeps_options_partial.
Print Assumptions reload_refuted.
Print Assumptions default_content_never_serves.
Print Assumptions command_default_content_refuted.
Print Assumptions pidfile_option_idle.
Print Assumptions exit_status_zero.
Print Assumptions exit_status_refuted.
