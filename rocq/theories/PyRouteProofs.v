From Verif Require Import Base PyBridge PyBridgeProofs PyRoute.

(** ** Specification *)
(** The text [u] is a path: it begins with a slash and has no line end; one line end behind it is ignored. *)
Definition path_of (u g : list N) : Prop := (u = g \/ u = g ++ [10%N]) /\ (exists r, g = 47%N :: r) /\ ~ In 10%N g.
(** Every maximal run of slashes becomes one slash, and nothing else changes. *)
Inductive collapsed : list N -> list N -> Prop :=
| co_nil : collapsed [] []
| co_char c u w : c <> 47%N -> collapsed u w -> collapsed (c :: u) (c :: w)
| co_run n u w : (forall r, u <> 47%N :: r) -> collapsed u w -> collapsed (repeat 47%N (S n) ++ u) (47%N :: w).
Definition key (r : proute) : list N * list N := (q_method r, q_uri r).
(** Paths of a table. *)
Definition clean (r : proute) : Prop := path_of (q_uri r) (q_uri r) /\ collapsed (q_uri r) (q_uri r).
Definition good_table (rs : list proute) : Prop := NoDup (map key rs) /\ Forall clean rs.

(** ** Registration *)
Lemma no_newline_spec u : no_newline u = true <-> ~ In 10%N u.
Proof.
  induction u as [|c u IH]; cbn [no_newline In]; [tauto|]. rewrite andb_true_iff, negb_true_iff, N.eqb_neq, IH. tauto.
Qed.
Lemma drop_newline_spec u : (exists g, u = g ++ [10%N] /\ drop_newline u = g) \/ ((forall g, u <> g ++ [10%N]) /\ drop_newline u = u).
Proof.
  unfold drop_newline. destruct (rev u) as [|c r] eqn:E.
  - right. split; [|reflexivity]. intros g ->. rewrite rev_app_distr in E. discriminate.
  - assert (U : u = rev r ++ [c]) by (rewrite <- (rev_involutive u), E; reflexivity).
    destruct (N.eq_dec c 10) as [->|NE].
    + left. exists (rev r). auto.
    + right. split.
      * intros g ->. rewrite rev_app_distr in E. injection E as <- _. contradiction.
      * destruct c as [|p]; [reflexivity|]. repeat (destruct p as [p|p|]; try reflexivity; try contradiction).
Qed.
Lemma uri_match_spec u g : uri_match u = Some g <-> path_of u g.
Proof.
  unfold path_of. split.
  - intros M. unfold uri_match in M. destruct u as [|c r]; [discriminate|].
    assert (C : c = 47%N) by (destruct c as [|p]; [discriminate|]; repeat (destruct p as [p|p|]; try discriminate; try reflexivity)). subst c.
    destruct (no_newline (drop_newline (47%N :: r))) eqn:NN; [|discriminate]. injection M as <-. apply no_newline_spec in NN.
    destruct (drop_newline_spec (47%N :: r)) as [(g & E & D)|(_ & D)]; rewrite D in *.
    + split; [auto|]. split; [|exact NN]. destruct g as [|c g]; [cbn in E; discriminate|]. injection E as <- _. eauto.
    + split; [auto|]. split; [eauto|exact NN].
  - intros (U & (r & ->) & NI). unfold uri_match. assert (D : drop_newline u = 47%N :: r).
    { destruct (drop_newline_spec u) as [(g & E & D)|(E & D)]; rewrite D.
      - destruct U as [->|U]; [|rewrite E in U; apply app_inj_tail in U as [U _]; exact U]. exfalso. apply NI. rewrite E. apply in_or_app. right. left. reflexivity.
      - destruct U as [->|U]; [reflexivity|]. exfalso. exact (E _ U). }
    assert (S : exists q, u = 47%N :: q) by (destruct U as [->| ->]; cbn; eauto). destruct S as (q & ->). rewrite D.
    replace (no_newline (47%N :: r)) with true by (symmetry; apply no_newline_spec; exact NI). reflexivity.
Qed.
Lemma collapse_char c u : c <> 47%N -> collapse (c :: u) = c :: collapse u.
Proof. intros NE. destruct c as [|p]; [reflexivity|]. do 6 (destruct p as [p|p|]; try reflexivity). contradiction. Qed.
Lemma collapse_slash u : (forall r, u <> 47%N :: r) -> collapse (47%N :: u) = 47%N :: collapse u.
Proof.
  intros H. destruct u as [|c u]; [reflexivity|]. assert (NE : c <> 47%N) by (intros ->; exact (H _ eq_refl)).
  destruct c as [|p]; [reflexivity|]. do 6 (destruct p as [p|p|]; try reflexivity). contradiction.
Qed.
Lemma collapsed_fun u w : collapsed u w -> collapse u = w.
Proof.
  induction 1 as [|c u w NE C IH|n u w H C IH]; [reflexivity|rewrite collapse_char by exact NE; congruence|].
  induction n as [|n IHn]; cbn [repeat app]; [rewrite collapse_slash by exact H; congruence|]. exact IHn.
Qed.
Lemma collapse_spec u : collapsed u (collapse u).
Proof.
  assert (G : forall n u, length u <= n -> collapsed u (collapse u)).
  { clear u. induction n as [|n IH]; intros u L; [destruct u; [constructor|cbn in L; lia]|]. destruct u as [|c u]; [constructor|]. cbn [length] in L.
    destruct (N.eq_dec c 47) as [->|NE]; [|rewrite collapse_char by exact NE; constructor; [exact NE|apply IH; lia]].
    assert (R : exists k t, 47%N :: u = repeat 47%N (S k) ++ t /\ forall r, t <> 47%N :: r).
    { clear. induction u as [|c u (k & t & E & H)]; [exists 0, []; split; [reflexivity|discriminate]|].
      destruct (N.eq_dec c 47) as [->|NE]; [exists (S k), t; split; [cbn [repeat app] in *; rewrite E; reflexivity|exact H]|].
      exists 0, (c :: u). split; [reflexivity|]. intros r Q. injection Q as -> _. contradiction. }
    destruct R as (k & t & E & H). rewrite E. assert (CT : collapsed t (collapse t)).
    { apply IH. apply (f_equal (@length _)) in E. cbn [length repeat app] in E. rewrite app_length, repeat_length in E. lia. }
    pose proof (co_run k t _ H CT) as X. rewrite (collapsed_fun _ _ X). exact X. }
  exact (G _ u (le_n _)).
Qed.
Lemma collapsed_unique u w w' : collapsed u w -> collapsed u w' -> w = w'.
Proof. intros A B. apply collapsed_fun in A, B. congruence. Qed.
Lemma collapsed_head u w : collapsed u w -> (forall r, u <> 47%N :: r) -> forall r, w <> 47%N :: r.
Proof. destruct 1 as [|c u w NE C|n u w H' C]; intros H r Q; [discriminate|injection Q as -> _; contradiction|]. apply (H (repeat 47%N n ++ u)). reflexivity. Qed.
Lemma collapsed_idem u w : collapsed u w -> collapsed w w.
Proof.
  induction 1 as [|c u w NE C IH|n u w H C IH]; [constructor|constructor; assumption|]. apply (co_run 0 w w); [|exact IH]. exact (collapsed_head _ _ C H).
Qed.
Lemma collapsed_in u w c : collapsed u w -> In c w -> In c u.
Proof.
  induction 1 as [|d u w NE C IH|n u w H C IH]; [auto| |]; intros [<-|I]; try (left; reflexivity).
  - right. auto.
  - apply in_or_app. right. auto.
Qed.
Lemma collapsed_path u g w : path_of u g -> collapsed g w -> path_of w w.
Proof.
  intros (_ & (r & ->) & NI) C. split; [auto|]. split; [|intros I; apply NI; exact (collapsed_in _ _ _ C I)].
  remember (47%N :: r) as q eqn:Q. destruct C as [|c u' w NE C|n u' w H' C]; [discriminate|injection Q as -> _; contradiction|]. eauto.
Qed.
Lemma same_route_spec m u r : same_route m u r = true <-> key r = (m, u).
Proof.
  unfold same_route, key. rewrite andb_true_iff. split.
  - intros (A & B). apply bytes_eqb_eq in A, B. congruence.
  - intros E. injection E as -> ->. rewrite !bytes_eqb_refl. auto.
Qed.
Lemma existsb_key m u rs : existsb (same_route m u) rs = true <-> In (m, u) (map key rs).
Proof.
  rewrite existsb_exists, in_map_iff. split; intros (r & A & B); exists r; [apply same_route_spec in B; auto|split; [exact B|apply same_route_spec; exact A]].
Qed.
Definition registers (u : list N) (f : phandler) (m : list N) (d od : bool) (df : list (list N * list N)) (rs : list proute) (res : pyerror + list proute) : Prop :=
  (exists g w, path_of u g /\ collapsed g w /\ ~ In (m, w) (map key rs) /\ res = inr (rs ++ [mkPR w m f d od df []])) \/
  (res = inl ValueError /\ ((forall g, ~ path_of u g) \/ exists g w, path_of u g /\ collapsed g w /\ In (m, w) (map key rs))).
Lemma register_spec u f m d od df rs : registers u f m d od df rs (register u f m d od df rs).
Proof.
  unfold registers, register. destruct (uri_match u) as [g|] eqn:M.
  - apply uri_match_spec in M. destruct (existsb (same_route m (collapse g)) rs) eqn:X.
    + right. split; [reflexivity|]. right. exists g, (collapse g). split; [exact M|]. split; [apply collapse_spec|apply existsb_key, X].
    + left. exists g, (collapse g). split; [exact M|]. split; [apply collapse_spec|]. split; [|reflexivity]. intros I. apply existsb_key in I. congruence.
  - right. split; [reflexivity|]. left. intros g P. apply uri_match_spec in P. congruence.
Qed.
Lemma good_app rs r : good_table rs -> ~ In (key r) (map key rs) -> clean r -> good_table (rs ++ [r]).
Proof.
  intros (N & F) NI C. split; [|apply Forall_app; auto]. rewrite map_app. cbn [map]. apply NoDup_Add with (a := key r) (l := map key rs); [|auto].
  rewrite <- (app_nil_r (map key rs)) at 1. apply Add_app.
Qed.
Lemma register_good u f m d od df rs rs' : good_table rs -> register u f m d od df rs = inr rs' -> good_table rs'.
Proof.
  intros G R. pose proof (register_spec u f m d od df rs) as S. rewrite R in S. destruct S as [(g & w & P & C & NI & E)|(E & _)]; [|discriminate]. injection E as ->.
  apply good_app; [exact G|exact NI|]. split; [exact (collapsed_path _ _ _ P C)|exact (collapsed_idem _ _ C)].
Qed.
Lemma app_route_good debug u f m d od df rs rs' : good_table rs -> app_route debug u f m d od df rs = inr rs' -> good_table rs'.
Proof. intros G. unfold app_route. destruct (negb debug && d); [intros E; injection E as <-; exact G|]. apply register_good, G. Qed.
Lemma update_map {A} (g : proute -> A) i f rs : (forall r, g (f r) = g r) -> map g (update i f rs) = map g rs.
Proof.
  intros H. unfold update. destruct (nth_error rs i) as [r|] eqn:E; [|reflexivity]. apply nth_error_split in E as (a & b & -> & <-).
  rewrite firstn_app, Nat.sub_diag, firstn_all. cbn [firstn]. rewrite app_nil_r. replace (skipn (S (length a)) (a ++ r :: b)) with b.
  - rewrite !map_app. cbn [map]. rewrite H. reflexivity.
  - clear. induction a as [|x a IH]; [reflexivity|exact IH].
Qed.
Lemma update_good i o rs : good_table rs -> good_table (update i (add_cors o) rs).
Proof.
  intros (N & F). split; [rewrite update_map by reflexivity; exact N|].
  assert (X : Forall (fun u => path_of u u /\ collapsed u u) (map q_uri rs)) by (apply Forall_map; exact F).
  rewrite <- (update_map q_uri i (add_cors o) rs) in X by reflexivity. apply Forall_map in X. exact X.
Qed.
Lemma do_op_good debug rs x : good_table rs -> good_table (do_op debug rs x).
Proof.
  intros G. destruct x as [u n m d od df|o u m d]; cbn [do_op].
  - destruct (app_route _ _ _ _ _ _ _ _) as [|rs'] eqn:E; [exact G|exact (app_route_good _ _ _ _ _ _ _ _ _ G E)].
  - unfold allow_cors. destruct (o_only_debug o && negb debug); [exact G|]. destruct (app_route _ _ _ _ _ _ _ _) as [[]|rs'] eqn:E; [exact G|exact G|].
    pose proof (app_route_good _ _ _ _ _ _ _ _ _ G E) as G'. destruct (last_index _ _ _); [apply update_good; exact G'|exact G'].
Qed.
Lemma table_good debug ops : good_table (table debug ops).
Proof.
  unfold table. assert (G : good_table []) by (split; constructor). revert G. generalize (@nil proute). induction ops as [|x ops IH]; intros rs G; [exact G|]. cbn [fold_left]. apply IH, do_op_good, G.
Qed.

(** ** CORS: specification *)
Definition answers_options (u : list N) (rs : list proute) : Prop := In (OPTIONS, u) (map key rs).
(** The route [r] at its place behind [pre] in the table [all] gets the headers: it is the first route of its path with
    another method than OPTIONS, and the path has no OPTIONS route. *)
Definition gets (all pre : list proute) (r : proute) : Prop :=
  q_method r <> OPTIONS /\ ~ answers_options (q_uri r) all /\ forall p, In p pre -> q_uri p = q_uri r -> q_method p = OPTIONS.
(** The table after the policy was applied. *)
Record cors_applied (o : policy) (rs rs' : list proute) : Prop := {
  ca_split : exists upd new, rs' = upd ++ new /\
    Forall2 (fun r r' => r' = r \/ r' = add_cors o r) rs upd /\
    (forall a r b, rs = a ++ r :: b -> forall r', nth_error upd (length a) = Some r' -> (r' = add_cors o r <-> gets rs a r)) /\
    Forall (fun n => exists a r b, rs = a ++ r :: b /\ gets rs a r /\ n = mkPR (q_uri r) OPTIONS (preflight_of o) (q_debug_route r) (o_only_debug o) [] []) new /\
    (forall a r b, rs = a ++ r :: b -> gets rs a r -> In (mkPR (q_uri r) OPTIONS (preflight_of o) (q_debug_route r) (o_only_debug o) [] []) new);
  ca_all : forall r, In r rs -> answers_options (q_uri r) rs';
  ca_good : good_table rs' }.

(** ** CORS: proofs *)
Lemma list_eq_dec_N (a b : list N) : {a = b} + {a <> b}.
Proof. apply list_eq_dec, N.eq_dec. Qed.
Definition has_options (u : list N) (rs : list proute) : bool := existsb (fun j => bytes_eqb (q_uri j) u && bytes_eqb (q_method j) OPTIONS) rs.
Lemma has_options_spec u rs : has_options u rs = true <-> answers_options u rs.
Proof.
  unfold has_options, answers_options. rewrite existsb_exists, in_map_iff. split.
  - intros (r & I & E). apply andb_true_iff in E as (A & B). apply bytes_eqb_eq in A, B. exists r. split; [unfold key; congruence|exact I].
  - intros (r & E & I). injection E as A B. exists r. split; [exact I|]. rewrite A, B, !bytes_eqb_refl. reflexivity.
Qed.
Definition getsb (all pre : list proute) (r : proute) : bool :=
  negb (bytes_eqb (q_method r) OPTIONS) && negb (has_options (q_uri r) all) && forallb (fun p => negb (bytes_eqb (q_uri p) (q_uri r)) || bytes_eqb (q_method p) OPTIONS) pre.
Lemma bytes_eqb_iff a b : bytes_eqb a b = true <-> a = b.
Proof. split; [apply bytes_eqb_eq|intros ->; apply bytes_eqb_refl]. Qed.
Lemma bytes_eqb_false a b : bytes_eqb a b = false <-> a <> b.
Proof. rewrite <- bytes_eqb_iff. destruct (bytes_eqb a b); split; congruence. Qed.
Lemma getsb_spec all pre r : getsb all pre r = true <-> gets all pre r.
Proof.
  unfold getsb, gets. rewrite !andb_true_iff, !negb_true_iff, bytes_eqb_false, forallb_forall.
  rewrite <- has_options_spec. split.
  - intros ((A & B) & C). split; [exact A|]. split; [congruence|]. intros p I E. specialize (C p I). rewrite E, bytes_eqb_refl in C. apply bytes_eqb_eq, C.
  - intros (A & B & C). split; [split; [exact A|destruct (has_options _ _); congruence]|]. intros p I. destruct (bytes_eqb (q_uri p) (q_uri r)) eqn:E; [|reflexivity].
    apply bytes_eqb_eq in E. cbn. apply bytes_eqb_iff. exact (C p I E).
Qed.
Section APPLY.
  Context (debug : bool) (o : policy) (all : list proute).
  Definition option_route (r : proute) : proute := mkPR (q_uri r) OPTIONS (preflight_of o) (q_debug_route r) (o_only_debug o) [] [].
  Fixpoint ideal_upd (pre rs : list proute) : list proute :=
    match rs with [] => [] | r :: t => (if getsb all pre r then add_cors o r else r) :: ideal_upd (pre ++ [r]) t end.
  Fixpoint ideal_new (pre rs : list proute) : list proute :=
    match rs with [] => [] | r :: t => (if getsb all pre r then [option_route r] else []) ++ ideal_new (pre ++ [r]) t end.
  Lemma ideal_upd_snoc pre rs r : ideal_upd pre (rs ++ [r]) = ideal_upd pre rs ++ [if getsb all (pre ++ rs) r then add_cors o r else r].
  Proof.
    revert pre. induction rs as [|x rs IH]; intros pre; cbn [app ideal_upd]; [rewrite app_nil_r; reflexivity|]. rewrite IH, <- app_assoc. reflexivity.
  Qed.
  Lemma ideal_new_snoc pre rs r : ideal_new pre (rs ++ [r]) = ideal_new pre rs ++ (if getsb all (pre ++ rs) r then [option_route r] else []).
  Proof.
    revert pre. induction rs as [|x rs IH]; intros pre; cbn [app ideal_new]; [rewrite !app_nil_r; reflexivity|]. rewrite IH, <- !app_assoc. reflexivity.
  Qed.
  Lemma ideal_upd_len pre rs : length (ideal_upd pre rs) = length rs.
  Proof. revert pre. induction rs as [|x rs IH]; intros pre; cbn [ideal_upd length]; [reflexivity|]. rewrite IH. reflexivity. Qed.
  Lemma ideal_new_len pre rs : length (ideal_new pre rs) <= length rs.
  Proof. revert pre. induction rs as [|x rs IH]; intros pre; cbn [ideal_new length]; [lia|]. rewrite app_length. specialize (IH (pre ++ [x])). destruct (getsb _ _ _); cbn [length]; lia. Qed.
  Lemma ideal_upd_key pre rs : map key (ideal_upd pre rs) = map key rs.
  Proof. revert pre. induction rs as [|x rs IH]; intros pre; cbn [ideal_upd map]; [reflexivity|]. rewrite IH. f_equal. destruct (getsb _ _ _); reflexivity. Qed.
  Lemma ideal_new_in rs n : In n (ideal_new [] rs) <-> exists a r b, rs = a ++ r :: b /\ getsb all a r = true /\ n = option_route r.
  Proof.
    assert (G : forall pre, In n (ideal_new pre rs) <-> exists a r b, rs = a ++ r :: b /\ getsb all (pre ++ a) r = true /\ n = option_route r).
    { induction rs as [|x rs IH]; intros pre; cbn [ideal_new]; [split; [intros []|]; intros (a & r & b & E & _); destruct a; discriminate|].
      rewrite in_app_iff, IH. split.
      - intros [I|(a & r & b & -> & Q & E)].
        + exists [], x, rs. rewrite app_nil_r. destruct (getsb all pre x); [destruct I as [<-|[]]; auto|destruct I].
        + exists (x :: a), r, b. rewrite <- app_assoc in Q. auto.
      - intros ([|y a] & r & b & E & Q & EN); injection E as <- ->.
        + left. rewrite app_nil_r in Q. rewrite Q. left. symmetry. exact EN.
        + right. exists a, r, b. rewrite <- app_assoc. auto. }
    exact (G []).
  Qed.
  Lemma new_options_uri pre u : (forall x, In x pre -> In x all) -> ~ answers_options u all ->
    (answers_options u (ideal_new [] pre) <-> exists p, In p pre /\ q_uri p = u /\ q_method p <> OPTIONS).
  Proof.
    intros SUB NA. unfold answers_options. rewrite in_map_iff. split.
    - intros (n & K & I). apply ideal_new_in in I as (a & r & b & -> & Q & ->). injection K as <-. exists r. split; [apply in_or_app; right; left; reflexivity|]. split; [reflexivity|].
      apply getsb_spec in Q. apply Q.
    - intros H. assert (X : exists a r b, pre = a ++ r :: b /\ q_uri r = u /\ q_method r <> OPTIONS /\ forall p, In p a -> q_uri p = u -> q_method p = OPTIONS).
      { clear SUB NA. destruct H as (p & I & E & M). induction pre as [|x pre IH]; [destruct I|].
        destruct (list_eq_dec_N (q_uri x) u) as [EU|NU].
        - destruct (list_eq_dec_N (q_method x) OPTIONS) as [EM|NM]; [|exists [], x, pre; split; [reflexivity|]; split; [exact EU|]; split; [exact NM|intros ? []]].
          destruct I as [->|I]; [contradiction|]. destruct (IH I) as (a & r & b & -> & A & B & C). exists (x :: a), r, b. split; [reflexivity|]. split; [exact A|]. split; [exact B|].
          intros q [<-|Q] E'; [exact EM|exact (C q Q E')].
        - destruct I as [->|I]; [contradiction|]. destruct (IH I) as (a & r & b & -> & A & B & C). exists (x :: a), r, b. split; [reflexivity|]. split; [exact A|]. split; [exact B|].
          intros q [<-|Q] E'; [contradiction|exact (C q Q E')]. }
      destruct X as (a & r & b & -> & EU & NM & F). exists (option_route r). split; [unfold key, option_route; cbn; rewrite EU; reflexivity|].
      apply ideal_new_in. exists a, r, b. split; [reflexivity|]. split; [|reflexivity]. apply getsb_spec. split; [exact NM|]. rewrite EU. auto.
  Qed.
  Context (NODEBUG : debug = true \/ Forall (fun r => q_debug_route r = false) all) (CL : Forall clean all).
  Lemma apply_step pre r rest : all = pre ++ r :: rest ->
    forall f, apply_loop (S f) debug o (length pre) (ideal_upd [] pre ++ (r :: rest) ++ ideal_new [] pre) =
      apply_loop f debug o (length (pre ++ [r])) (ideal_upd [] (pre ++ [r]) ++ rest ++ ideal_new [] (pre ++ [r])).
  Proof.
    intros ALL f. rewrite ideal_upd_snoc, ideal_new_snoc. cbn [app]. rewrite <- app_assoc. cbn [app]. rewrite app_length, Nat.add_1_r. cbn [length].
    cbn [apply_loop]. rewrite nth_error_app2 by (rewrite ideal_upd_len; lia). rewrite ideal_upd_len, Nat.sub_diag. cbn [nth_error].
    assert (G : getsb all pre r = negb (bytes_eqb (q_method r) OPTIONS) && negb (has_options (q_uri r) (ideal_upd [] pre ++ (r :: rest) ++ ideal_new [] pre))).
    { destruct (bytes_eqb (q_method r) OPTIONS) eqn:EM; [unfold getsb; rewrite EM; reflexivity|]. cbn [negb andb].
      assert (NM : q_method r <> OPTIONS) by (apply bytes_eqb_false; exact EM).
      assert (IN : answers_options (q_uri r) (ideal_upd [] pre ++ (r :: rest) ++ ideal_new [] pre) <-> answers_options (q_uri r) all \/ answers_options (q_uri r) (ideal_new [] pre)).
      { unfold answers_options. rewrite !map_app, ideal_upd_key, app_assoc, <- map_app, <- ALL, in_app_iff. reflexivity. }
      destruct (has_options (q_uri r) all) eqn:HA.
      - apply has_options_spec in HA. replace (has_options (q_uri r) (ideal_upd [] pre ++ (r :: rest) ++ ideal_new [] pre)) with true by (symmetry; apply has_options_spec, IN; auto).
        destruct (getsb all pre r) eqn:Q; [|reflexivity]. apply getsb_spec in Q. destruct Q as (_ & Q & _). contradiction.
      - assert (NA : ~ answers_options (q_uri r) all) by (rewrite <- has_options_spec; congruence).
        assert (SUB : forall x, In x pre -> In x all) by (intros x I; rewrite ALL; apply in_or_app; auto).
        destruct (getsb all pre r) eqn:Q; symmetry; [apply negb_true_iff|apply negb_false_iff].
        + destruct (has_options (q_uri r) (ideal_upd [] pre ++ (r :: rest) ++ ideal_new [] pre)) eqn:Z; [|reflexivity]. apply has_options_spec, IN in Z as [Z|Z]; [contradiction|].
          apply (new_options_uri pre (q_uri r) SUB NA) in Z as (p & I & E & M). apply getsb_spec in Q. destruct Q as (_ & _ & Q). destruct (M (Q p I E)).
        + apply has_options_spec, IN. right. apply (new_options_uri pre (q_uri r) SUB NA).
          destruct (existsb (fun p => bytes_eqb (q_uri p) (q_uri r) && negb (bytes_eqb (q_method p) OPTIONS)) pre) eqn:X.
          * apply existsb_exists in X as (p & I & X). apply andb_true_iff in X as (X & Y). apply bytes_eqb_eq in X. apply negb_true_iff, bytes_eqb_false in Y. eauto.
          * exfalso. assert (QT : getsb all pre r = true); [|congruence]. apply getsb_spec. split; [exact NM|]. split; [exact NA|]. intros p I E.
            destruct (list_eq_dec_N (q_method p) OPTIONS) as [Y|Y]; [exact Y|]. exfalso.
            assert (T : existsb (fun p => bytes_eqb (q_uri p) (q_uri r) && negb (bytes_eqb (q_method p) OPTIONS)) pre = true); [|congruence].
            apply existsb_exists. exists p. split; [exact I|]. rewrite E, bytes_eqb_refl. cbn. apply negb_true_iff, bytes_eqb_false, Y. }
    set (cur := ideal_upd [] pre ++ r :: rest ++ ideal_new [] pre) in *. change (existsb (fun j => bytes_eqb (q_uri j) (q_uri r) && bytes_eqb (q_method j) OPTIONS) cur) with (has_options (q_uri r) cur).
    change (ideal_upd [] pre ++ (r :: rest) ++ ideal_new [] pre) with cur in G. rewrite G.
    destruct (bytes_eqb (q_method r) OPTIONS) eqn:EM; cbn [negb andb]; [rewrite app_nil_r; reflexivity|].
    destruct (has_options (q_uri r) cur) eqn:HO; cbn [negb]; [rewrite app_nil_r; reflexivity|].
    assert (IR : In r all) by (rewrite ALL; apply in_or_app; right; left; reflexivity).
    pose proof (proj1 (Forall_forall _ _) CL r IR) as (P & C).
    assert (AR : app_route debug (q_uri r) (preflight_of o) OPTIONS (q_debug_route r) (o_only_debug o) [] cur = inr (cur ++ [option_route r])).
    { unfold app_route. replace (negb debug && q_debug_route r) with false.
      - unfold register. replace (uri_match (q_uri r)) with (Some (q_uri r)) by (symmetry; apply uri_match_spec; exact P). rewrite (collapsed_fun _ _ C).
        replace (existsb (same_route OPTIONS (q_uri r)) cur) with false; [reflexivity|]. symmetry. destruct (existsb _ cur) eqn:Z; [|reflexivity].
        apply existsb_key in Z. change (answers_options (q_uri r) cur) in Z. apply has_options_spec in Z. congruence.
      - destruct NODEBUG as [-> |D]; [reflexivity|]. rewrite (proj1 (Forall_forall _ _) D r IR), andb_false_r. reflexivity. }
    unfold apply_one. rewrite AR. f_equal. unfold update, cur. rewrite <- !app_assoc. cbn [app]. rewrite nth_error_app2 by (rewrite ideal_upd_len; lia). rewrite ideal_upd_len, Nat.sub_diag. cbn [nth_error].
    rewrite firstn_app, ideal_upd_len, Nat.sub_diag. cbn [firstn]. rewrite app_nil_r, firstn_all2 by (rewrite ideal_upd_len; lia).
    f_equal. f_equal. rewrite <- (ideal_upd_len [] pre). generalize (ideal_upd [] pre). intros l. induction l as [|x l IH]; [cbn [app skipn]; rewrite <- ?app_assoc; reflexivity|exact IH].
  Qed.
  Lemma apply_tail f a new : Forall (fun n => q_method n = OPTIONS) new -> length new < f -> apply_loop f debug o (length a) (a ++ new) = Ok (inr (a ++ new)).
  Proof.
    revert f a. induction new as [|n new IH]; intros f a F L; (destruct f as [|f]; [lia|]); cbn [apply_loop].
    - rewrite app_nil_r. replace (nth_error a (length a)) with (@None proute) by (symmetry; apply nth_error_None; lia). reflexivity.
    - rewrite nth_error_app2, Nat.sub_diag by lia. cbn [nth_error]. inversion F as [|? ? M F']; subst. rewrite M, bytes_eqb_refl.
      replace (a ++ n :: new) with ((a ++ [n]) ++ new) by (rewrite <- app_assoc; reflexivity). replace (S (length a)) with (length (a ++ [n])) by (rewrite app_length; cbn; lia).
      apply IH; [exact F'|cbn in L; lia].
  Qed.
  Lemma apply_all f pre rest : all = pre ++ rest -> length rest + length (ideal_new [] all) < f ->
    apply_loop f debug o (length pre) (ideal_upd [] pre ++ rest ++ ideal_new [] pre) = Ok (inr (ideal_upd [] all ++ ideal_new [] all)).
  Proof.
    revert f pre. induction rest as [|r rest IH]; intros f pre ALL L.
    - rewrite app_nil_r in ALL. subst pre. cbn [app]. rewrite <- (ideal_upd_len [] all). apply apply_tail; [|cbn in L; lia].
      apply Forall_forall. intros n I. apply ideal_new_in in I as (? & ? & ? & _ & _ & ->). reflexivity.
    - destruct f as [|f]; [cbn in L; lia|]. rewrite (apply_step pre r rest ALL f). apply IH; [rewrite <- app_assoc; exact ALL|cbn in L; lia].
  Qed.
End APPLY.
Lemma ideal_nth o all pre rs a r b : rs = a ++ r :: b -> nth_error (ideal_upd o all pre rs) (length a) = Some (if getsb all (pre ++ a) r then add_cors o r else r).
Proof.
  revert pre rs. induction a as [|x a IH]; intros pre rs ->; cbn [app ideal_upd length nth_error]; [rewrite app_nil_r; reflexivity|].
  rewrite (IH (pre ++ [x]) _ eq_refl), <- app_assoc. reflexivity.
Qed.
Lemma app_cons_self {A} (l m : list A) x : l ++ x :: m <> l.
Proof. intros E. apply (f_equal (@length _)) in E. rewrite app_length in E. cbn in E. lia. Qed.
Lemma add_cors_changes o r : add_cors o r <> r.
Proof.
  intros E. apply (f_equal q_defaults) in E. cbn [add_cors q_defaults] in E. unfold cors_defaults in E. exact (app_cons_self _ _ _ E).
Qed.
Theorem apply_cors_ok debug o rs : good_table rs -> debug = true \/ Forall (fun r => q_debug_route r = false) rs ->
  exists rs', apply_cors debug o rs = Ok (inr rs') /\ cors_applied o rs rs'.
Proof.
  intros (ND & CL) D. exists (ideal_upd o rs [] rs ++ ideal_new o rs [] rs). split.
  - unfold apply_cors. pose proof (apply_all debug o rs D CL (S (2 * length rs)) [] rs eq_refl) as X. cbn [length ideal_upd ideal_new app] in X. rewrite app_nil_r in X. apply X.
    pose proof (ideal_new_len o rs [] rs). lia.
  - assert (OPTS : forall r, In r rs -> answers_options (q_uri r) (ideal_upd o rs [] rs ++ ideal_new o rs [] rs)).
    { intros r I. unfold answers_options. rewrite map_app, ideal_upd_key, in_app_iff. destruct (has_options (q_uri r) rs) eqn:H; [left; apply has_options_spec; exact H|]. right.
      assert (NA : ~ answers_options (q_uri r) rs) by (rewrite <- has_options_spec; congruence). apply (new_options_uri o rs rs (q_uri r)); [auto|exact NA|]. exists r. split; [exact I|]. split; [reflexivity|].
      intros M. apply NA. unfold answers_options. apply in_map_iff. exists r. split; [unfold key; congruence|exact I]. }
    constructor; [|exact OPTS|].
    + exists (ideal_upd o rs [] rs), (ideal_new o rs [] rs). split; [reflexivity|]. split; [|split; [|split]].
      * generalize (@nil proute) as pre. generalize rs at 1 3 as l. intros l. induction l as [|x l IH]; intros pre; cbn [ideal_upd]; [constructor|]. constructor; [destruct (getsb rs pre x); auto|apply IH].
      * intros a r b E r' N. rewrite (ideal_nth o rs [] rs a r b E) in N. cbn [app] in N. injection N as <-. rewrite <- getsb_spec. destruct (getsb rs a r); [tauto|]. split; [|discriminate].
        intros Q. symmetry in Q. destruct (add_cors_changes _ _ Q).
      * apply Forall_forall. intros n I. apply ideal_new_in in I as (a & r & b & E & Q & ->). exists a, r, b. split; [exact E|]. split; [apply getsb_spec, Q|reflexivity].
      * intros a r b E Q. apply ideal_new_in. exists a, r, b. split; [exact E|]. split; [apply getsb_spec, Q|reflexivity].
    + split.
      * rewrite map_app, ideal_upd_key.
        (* new routes have new keys, one per path *)
        assert (G : forall pre t, rs = pre ++ t -> NoDup (map key rs ++ map key (ideal_new o rs [] pre)) -> NoDup (map key rs ++ map key (ideal_new o rs [] (pre ++ t)))).
        { intros pre t. revert pre. induction t as [|r t IH]; intros pre E N; [rewrite app_nil_r; exact N|].
          replace (pre ++ r :: t) with ((pre ++ [r]) ++ t) in * by (rewrite <- app_assoc; reflexivity). apply IH; [exact E|]. rewrite ideal_new_snoc, map_app, app_assoc. cbn [app].
          destruct (getsb rs pre r) eqn:Q; [|rewrite app_nil_r; exact N]. cbn [map]. apply getsb_spec in Q. destruct Q as (Q1 & Q2 & Q3).
          apply NoDup_Add with (a := key (option_route o r)) (l := map key rs ++ map key (ideal_new o rs [] pre)); [|split; [exact N|]].
          - rewrite <- (app_nil_r (map key rs ++ map key (ideal_new o rs [] pre))) at 1. apply Add_app.
          - intros I. apply in_app_or in I as [I|I]; [exact (Q2 I)|].
            assert (SUB : forall x, In x pre -> In x rs) by (intros x I'; rewrite E; apply in_or_app; left; apply in_or_app; auto).
            apply (new_options_uri o rs pre (q_uri r) SUB Q2) in I as (p & IP & EP & MP). exact (MP (Q3 p IP EP)). }
        apply (G [] rs eq_refl). cbn [ideal_new map]. rewrite app_nil_r. exact ND.
      * apply Forall_app. split.
        -- assert (X : Forall (fun k => path_of (snd k) (snd k) /\ collapsed (snd k) (snd k)) (map key rs)) by (apply Forall_map; exact CL). rewrite <- (ideal_upd_key o rs [] rs) in X. apply Forall_map in X. exact X.
        -- apply Forall_forall. intros n I. apply ideal_new_in in I as (a & r & b & E & Q & ->). change (clean r). apply (proj1 (Forall_forall _ _) CL). rewrite E. apply in_or_app. right. left. reflexivity.
Qed.

(** ** Production mode *)
(** A route without the headers. *)
Definition core (r : proute) := (q_uri r, q_method r, q_handler r, q_debug_route r, q_only_debug r).
(** No route flagged only_debug directly follows another one. *)
Definition spaced (rs : list proute) : Prop := forall a x y b, rs = a ++ x :: y :: b -> q_only_debug x = true -> q_only_debug y = false.
Lemma production_spec rs r : In r (production_routes false rs) <-> In r rs /\ q_debug_route r = false.
Proof. unfold production_routes. rewrite filter_In, negb_true_iff. reflexivity. Qed.
Lemma filter_subseq {A} (p : A -> bool) l : subseq (filter p l) l.
Proof. induction l as [|x l IH]; cbn [filter]; [constructor|]. destruct (p x); [apply sub_take|apply sub_skip]; exact IH. Qed.
Lemma strip_core r : core (strip_debug r) = core r.
Proof. reflexivity. Qed.
Lemma drop_ind (P : list proute -> Prop) : P [] -> (forall r, q_only_debug r = true -> P [r]) -> (forall r y t, q_only_debug r = true -> P t -> P (r :: y :: t)) ->
  (forall r t, q_only_debug r = false -> P t -> P (r :: t)) -> forall rs, P rs.
Proof.
  intros H0 H1 H2 H3 rs. assert (G : forall n rs, length rs <= n -> P rs); [|exact (G _ rs (le_n _))]. induction n as [|n IH]; intros [|r t] L; cbn [length] in L; try exact H0; [lia|].
  destruct (q_only_debug r) eqn:E; [|apply H3; [exact E|apply IH; lia]]. destruct t as [|y t]; [apply H1; exact E|]. apply H2; [exact E|apply IH; cbn in L; lia].
Qed.
Lemma drop_flag r y t : q_only_debug r = true -> drop_only_debug (r :: y :: t) = y :: drop_only_debug t.
Proof. intros E. cbn [drop_only_debug]. rewrite E. reflexivity. Qed.
Lemma drop_keep r t : q_only_debug r = false -> drop_only_debug (r :: t) = strip_debug r :: drop_only_debug t.
Proof. intros E. cbn [drop_only_debug]. rewrite E. reflexivity. Qed.
Lemma drop_kept rs : forall r, In r rs -> q_only_debug r = false -> In (core r) (map core (drop_only_debug rs)).
Proof.
  induction rs as [|x E|x y t E IH|x t E IH] using drop_ind; intros r I F.
  - destruct I.
  - destruct I as [->|[]]; congruence.
  - rewrite drop_flag by exact E. destruct I as [->|[->|I]]; [congruence|left; reflexivity|right; apply IH; assumption].
  - rewrite drop_keep by exact E. destruct I as [->|I]; [left; reflexivity|right; apply IH; assumption].
Qed.
Lemma drop_sub rs : subseq (map core (drop_only_debug rs)) (map core rs).
Proof.
  induction rs as [|x E|x y t E IH|x t E IH] using drop_ind.
  - constructor.
  - cbn [drop_only_debug]. rewrite E. constructor. constructor.
  - rewrite drop_flag by exact E. cbn [map]. apply sub_skip, sub_take. exact IH.
  - rewrite drop_keep by exact E. cbn [map]. rewrite strip_core. apply sub_take. exact IH.
Qed.
Lemma spaced_tl x t : spaced (x :: t) -> spaced t.
Proof. intros S a y z b -> E. apply (S (x :: a) y z b eq_refl E). Qed.
Lemma drop_spaced rs : spaced rs -> map core (drop_only_debug rs) = map core (filter (fun r => negb (q_only_debug r)) rs).
Proof.
  induction rs as [|x E|x y t E IH|x t E IH] using drop_ind; intros S.
  - reflexivity.
  - cbn [drop_only_debug filter]. rewrite E. reflexivity.
  - assert (Y : q_only_debug y = false) by exact (S [] x y t eq_refl E). rewrite drop_flag by exact E. cbn [filter]. rewrite E, Y. cbn [negb map]. f_equal. apply IH. exact (spaced_tl _ _ (spaced_tl _ _ S)).
  - rewrite drop_keep by exact E. cbn [filter]. rewrite E. cbn [negb map]. rewrite strip_core. f_equal. apply IH. exact (spaced_tl _ _ S).
Qed.
Lemma drop_second p x y t : Forall (fun r => q_only_debug r = false) p -> q_only_debug x = true -> In y (drop_only_debug (p ++ x :: y :: t)).
Proof.
  intros F E. induction F as [|r p E' F IH]; cbn [app]; [rewrite drop_flag by exact E; left; reflexivity|]. rewrite drop_keep by exact E'. right. exact IH.
Qed.
(** The whole preparation never fails. *)
Lemma NoDup_filter_keys rs (p : proute -> bool) : NoDup (map key rs) -> NoDup (map key (filter p rs)).
Proof.
  induction rs as [|r rs IH]; cbn [map filter]; [auto|]. intros N. inversion N as [|? ? NI N']; subst. destruct (p r); [|exact (IH N')]. cbn [map]. constructor; [|exact (IH N')].
  intros I. apply NI. apply in_map_iff in I as (x & E & I). apply filter_In in I as [I _]. apply in_map_iff. eauto.
Qed.
Lemma good_filter p rs : good_table rs -> good_table (filter p rs).
Proof.
  intros (N & F). split; [apply NoDup_filter_keys, N|]. apply Forall_forall. intros r I. apply filter_In in I as [I _]. exact (proj1 (Forall_forall _ _) F r I).
Qed.
Lemma production_ready debug rs : good_table rs -> good_table (production_routes debug rs) /\ (debug = true \/ Forall (fun r => q_debug_route r = false) (production_routes debug rs)).
Proof.
  intros G. destruct debug; [split; [exact G|left; reflexivity]|]. split; [apply good_filter, G|]. right. apply Forall_forall. intros r I. apply production_spec in I. apply I.
Qed.
Theorem startup_total debug cors rs : good_table rs -> exists rs', startup debug cors rs = Ok (inr rs').
Proof.
  intros G. destruct (production_ready debug rs G) as (G' & D). unfold startup. destruct cors as [o|]; [|cbn [obind]; eauto].
  destruct (apply_cors_ok debug o _ G' D) as (rs' & -> & _). cbn [obind]. eauto.
Qed.
Theorem startup_cors debug o rs : good_table rs -> exists rs1, cors_applied o (production_routes debug rs) rs1 /\ startup debug (Some o) rs = Ok (inr (remove_only_debug debug rs1)).
Proof.
  intros G. destruct (production_ready debug rs G) as (G' & D). unfold startup. destruct (apply_cors_ok debug o _ G' D) as (rs' & -> & C). exists rs'. split; [exact C|reflexivity].
Qed.
Theorem production_startup rs : good_table rs -> spaced (production_routes false rs) ->
  exists rs', startup false None rs = Ok (inr rs') /\ subseq (map core rs') (map core rs) /\
    forall c, In c (map core rs') <-> exists r, In r rs /\ c = core r /\ q_debug_route r = false /\ q_only_debug r = false.
Proof.
  intros G S. eexists. split; [reflexivity|]. cbn [remove_only_debug]. rewrite (drop_spaced _ S). split.
  - unfold production_routes. generalize (fun r => negb (q_only_debug r)), (fun r => negb (q_debug_route r)). intros p q. clear. induction rs as [|x rs IH]; cbn [filter map]; [constructor|].
    destruct (q x); [|apply sub_skip; exact IH]. cbn [filter]. destruct (p x); cbn [map]; [apply sub_take|apply sub_skip]; exact IH.
  - intros c. rewrite in_map_iff. split.
    + intros (r & <- & I). apply filter_In in I as (I & O). apply production_spec in I as (I & D). exists r. apply negb_true_iff in O. auto.
    + intros (r & I & -> & D & O). exists r. split; [reflexivity|]. apply filter_In. split; [apply production_spec; auto|]. apply negb_true_iff, O.
Qed.
(** Unflagged routes are never lost. *)
Theorem production_keeps cors rs : good_table rs -> exists rs', startup false cors rs = Ok (inr rs') /\ (forall r', In r' rs' -> q_debug_route r' = false) /\
  forall r, In r rs -> q_debug_route r = false -> q_only_debug r = false -> In (core r) (map core rs').
Proof.
  intros G. assert (X : exists rs1, startup false cors rs = Ok (inr (drop_only_debug rs1)) /\ (forall r, In r rs1 -> q_debug_route r = false) /\ (forall r, In r (production_routes false rs) -> q_only_debug r = false -> exists r1, In r1 rs1 /\ core r1 = core r)).
  { destruct cors as [o|].
    - destruct (startup_cors false o rs G) as (rs1 & C & E). exists rs1. split; [exact E|].
      destruct (ca_split _ _ _ C) as (upd & new & -> & F & _ & FN & _). split.
      + intros r I. apply in_app_or in I as [I|I].
        * assert (Y : exists r0, In r0 (production_routes false rs) /\ (r = r0 \/ r = add_cors o r0)).
          { clear -F I. induction F as [|x y l l' H F IH]; [destruct I|]. destruct I as [->|I]; [exists x; split; [left; reflexivity|exact H]|]. destruct (IH I) as (r0 & I0 & E0). exists r0. split; [right; exact I0|exact E0]. }
          destruct Y as (r0 & I0 & [->| ->]); apply production_spec in I0; apply I0.
        * apply (proj1 (Forall_forall _ _) FN) in I as (a & r0 & b & E0 & _ & ->). cbn [q_debug_route]. assert (I0 : In r0 (production_routes false rs)) by (rewrite E0; apply in_or_app; right; left; reflexivity). apply production_spec in I0. apply I0.
      + intros r I _. assert (Y : exists r1, In r1 upd /\ core r1 = core r).
        { clear -F I. induction F as [|x y l l' H F IH]; [destruct I|]. destruct I as [->|I]; [exists y; split; [left; reflexivity|destruct H as [->| ->]; reflexivity]|]. destruct (IH I) as (r1 & I1 & E1). exists r1. split; [right; exact I1|exact E1]. }
        destruct Y as (r1 & I1 & E1). exists r1. split; [apply in_or_app; auto|exact E1].
    - exists (production_routes false rs). split; [reflexivity|]. split; [intros r I; apply production_spec in I; apply I|]. intros r I _. eauto. }
  destruct X as (rs1 & E & D & K). exists (drop_only_debug rs1). split; [exact E|]. split.
  - intros r' I. assert (J : In (core r') (map core rs1)) by (apply (subseq_in _ _ (drop_sub rs1)), in_map, I). apply in_map_iff in J as (r1 & EQ & I1). apply (f_equal (fun c => snd (fst c))) in EQ. cbn in EQ. rewrite <- EQ. exact (D _ I1).
  - intros r I DR O. destruct (K r) as (r1 & I1 & E1); [apply production_spec; auto|exact O|]. rewrite <- E1. apply drop_kept; [exact I1|]. apply (f_equal snd) in E1. cbn in E1. congruence.
Qed.
(** A policy for debugging leaves an OPTIONS route in production. *)
Theorem cors_only_debug_remains o rs r1 r2 : good_table rs -> o_only_debug o = true -> (forall r, In r rs -> q_debug_route r = false /\ q_only_debug r = false) ->
  In r1 rs -> In r2 rs -> q_uri r1 <> q_uri r2 -> ~ answers_options (q_uri r1) rs -> ~ answers_options (q_uri r2) rs ->
  exists rs' r, startup false (Some o) rs = Ok (inr rs') /\ In r rs' /\ q_method r = OPTIONS /\ q_only_debug r = true /\ q_handler r = preflight_of o.
Proof.
  intros G OD NF I1 I2 NE N1 N2. destruct (startup_cors false o rs G) as (rs1 & C & E).
  assert (PR : production_routes false rs = rs).
  { unfold production_routes. clear -NF. induction rs as [|x rs IH]; cbn [filter]; [reflexivity|]. rewrite (proj1 (NF x (or_introl eq_refl))). cbn [negb]. f_equal. apply IH. intros r I. apply NF. right. exact I. }
  rewrite PR in C. pose proof (ca_all _ _ _ C) as ALL. destruct (ca_split _ _ _ C) as (upd & new & -> & F & _ & FN & _).
  assert (K : map key upd = map key rs). { clear -F. induction F as [|x y l l' H F IH]; [reflexivity|]. cbn [map]. rewrite IH. f_equal. destruct H as [->| ->]; reflexivity. }
  assert (UF : Forall (fun r => q_only_debug r = false) upd).
  { apply Forall_forall. intros r I. assert (Y : exists r0, In r0 rs /\ (r = r0 \/ r = add_cors o r0)).
    { clear -F I. induction F as [|x y l l' H F IH]; [destruct I|]. destruct I as [->|I]; [exists x; split; [left; reflexivity|exact H]|]. destruct (IH I) as (r0 & I0 & E0). exists r0. split; [right; exact I0|exact E0]. }
    destruct Y as (r0 & I0 & [->| ->]); apply (NF r0 I0). }
  assert (INN : forall r, In r rs -> ~ answers_options (q_uri r) rs -> exists n, In n new /\ q_uri n = q_uri r).
  { intros r I NA. pose proof (ALL r I) as A. unfold answers_options in A. rewrite map_app, in_app_iff, K in A. destruct A as [A|A]; [contradiction|]. apply in_map_iff in A as (n & EN & IN). injection EN as _ EN. eauto. }
  destruct (INN r1 I1 N1) as (n1 & J1 & U1). destruct (INN r2 I2 N2) as (n2 & J2 & U2).
  destruct new as [|x [|y t]]; [destruct J1|destruct J1 as [->|[]]; destruct J2 as [->|[]]; congruence|].
  assert (FX : forall n, In n (x :: y :: t) -> q_method n = OPTIONS /\ q_only_debug n = true /\ q_handler n = preflight_of o).
  { intros n I. apply (proj1 (Forall_forall _ _) FN) in I as (a & r0 & b & _ & _ & ->). cbn. auto. }
  eexists. exists y. split; [exact E|]. split; [apply drop_second; [exact UF|apply (FX x); left; reflexivity]|]. apply FX. right. left. reflexivity.
Qed.

(** ** The header Access-Control-Allow-Origin *)
Lemma drop_named_none n l : forall pre, ~ In n (map fst l) -> drop_named n pre l = pre ++ l.
Proof.
  induction l as [|j t IH]; intros pre NI; cbn [drop_named]; [rewrite app_nil_r; reflexivity|]. cbn [map In] in NI.
  replace (bytes_eqb n (fst j)) with false by (symmetry; apply bytes_eqb_false; intros E; apply NI; left; congruence). rewrite IH by tauto. rewrite <- app_assoc. reflexivity.
Qed.
Lemma drop_named_one n v a c : forall pre, ~ In n (map fst pre) -> ~ In n (map fst a) -> ~ In n (map fst c) -> drop_named n pre (a ++ (n, v) :: c) = pre ++ a ++ c.
Proof.
  induction a as [|j a IH]; intros pre NP NA NC; cbn [app drop_named fst].
  - rewrite bytes_eqb_refl. replace (existsb (hdr_eqb (n, v)) pre) with false.
    + destruct c as [|y c]; [rewrite app_nil_r; reflexivity|]. rewrite drop_named_none; [rewrite <- app_assoc; reflexivity|]. intros I. apply NC. right. exact I.
    + symmetry. destruct (existsb _ pre) eqn:X; [|reflexivity]. apply existsb_exists in X as (p & I & X). apply andb_true_iff in X as (X & _). cbn in X. apply bytes_eqb_eq in X. exfalso. apply NP. rewrite X. apply in_map, I.
  - cbn [map In] in NA. replace (bytes_eqb n (fst j)) with false by (symmetry; apply bytes_eqb_false; intros E; apply NA; left; congruence).
    rewrite IH; [rewrite <- app_assoc; reflexivity| |tauto|exact NC]. rewrite map_app, in_app_iff. cbn. tauto.
Qed.
Lemma cors_rest_names o : ~ In ACAO (map fst (tl (cors_defaults o))).
Proof.
  unfold cors_defaults, opt. cbn [tl app]. destruct (some_of (o_methods o)), (some_of (o_headers o)), (some_of (o_expose o)), (o_cred o); cbn; intuition discriminate.
Qed.
Lemma strip_origin o r : o_only_debug o = false -> q_debug_names r = [] -> ~ In ACAO (map fst (q_defaults r)) ->
  q_defaults (strip_debug (add_cors o r)) = q_defaults r ++ tl (cors_defaults o).
Proof.
  intros OD DN NI. unfold strip_debug, add_cors. cbn [q_defaults q_debug_names]. rewrite DN. unfold cors_debug_names. rewrite OD. cbn [app fold_left].
  pose proof (drop_named_one ACAO (o_origin o) (q_defaults r) (tl (cors_defaults o)) [] (fun X => X) NI (cors_rest_names o)) as X. exact X.
Qed.
Theorem production_no_origin o rs : good_table rs -> o_only_debug o = false -> (forall r, In r rs -> q_only_debug r = false /\ q_debug_names r = [] /\ ~ In ACAO (map fst (q_defaults r))) ->
  exists rs', startup false (Some o) rs = Ok (inr rs') /\ forall r, In r rs' -> ~ In ACAO (map fst (q_defaults r)).
Proof.
  intros G OD H. destruct (startup_cors false o rs G) as (rs1 & C & E). eexists. split; [exact E|]. cbn [remove_only_debug].
  assert (H1 : forall r, In r rs1 -> q_only_debug r = false /\ ((q_debug_names r = [] /\ ~ In ACAO (map fst (q_defaults r))) \/ exists r0, r = add_cors o r0 /\ q_debug_names r0 = [] /\ ~ In ACAO (map fst (q_defaults r0)))).
  { destruct (ca_split _ _ _ C) as (upd & new & -> & F & _ & FN & _). intros r I. apply in_app_or in I as [I|I].
    - assert (Y : exists r0, In r0 (production_routes false rs) /\ (r = r0 \/ r = add_cors o r0)).
      { clear -F I. induction F as [|x y l l' H F IH]; [destruct I|]. destruct I as [->|I]; [exists x; split; [left; reflexivity|exact H]|]. destruct (IH I) as (r0 & I0 & E0). exists r0. split; [right; exact I0|exact E0]. }
      destruct Y as (r0 & I0 & Y). apply production_spec in I0 as (I0 & _). destruct (H r0 I0) as (A & B & D). destruct Y as [->| ->]; split; [exact A|left; auto|exact A|right; eauto].
    - apply (proj1 (Forall_forall _ _) FN) in I as (a & r0 & b & _ & _ & ->). cbn. split; [exact OD|]. left. split; [reflexivity|auto]. }
  clear -H1 OD. induction rs1 as [|x t IH]; [intros r []|]. destruct (H1 x (or_introl eq_refl)) as (A & B). rewrite drop_keep by exact A. intros r [<-|I]; [|apply (IH (fun r I => H1 r (or_intror I)) r I)].
  destruct B as [(B1 & B2)|(r0 & -> & B1 & B2)].
  - unfold strip_debug. cbn [q_defaults]. rewrite B1. exact B2.
  - rewrite strip_origin by assumption. rewrite map_app, in_app_iff. intros [Q|Q]; [exact (B2 Q)|exact (cors_rest_names o Q)].
Qed.
(** In debug mode the routes that get the headers answer with it. *)
Theorem debug_origin o rs a r b : good_table rs -> rs = a ++ r :: b -> gets rs a r ->
  exists rs', startup true (Some o) rs = Ok (inr rs') /\ In (add_cors o r) rs' /\
    forall debug terr x d, documented debug terr x d -> exists fs, wrapper debug terr (q_defaults (add_cors o r)) x = Some (PResp (mkPy (a_status d) fs (a_content d) (a_type d))) /\
      exists h, In h fs /\ same_name (fst h) ACAO.
Proof.
  intros G E GT. destruct (startup_cors true o rs G) as (rs1 & C & S). exists rs1. split; [exact S|]. cbn [production_routes] in C. split.
  - destruct (ca_split _ _ _ C) as (upd & new & -> & F & W & _ & _). apply in_or_app. left.
    assert (L : length upd = length rs) by (clear -F; induction F; cbn; congruence).
    destruct (nth_error upd (length a)) as [r'|] eqn:N; [|apply nth_error_None in N; rewrite L, E, app_length in N; cbn in N; lia].
    assert (X : r' = add_cors o r) by (apply (W a r b E r' N), GT). subst r'. exact (nth_error_In _ _ N).
  - intros debug terr x d D. set (ds := q_defaults (add_cors o r)). destruct (wrapper_spec debug terr ds x d D) as [(Q & _)|W].
    + exfalso. unfold ds, add_cors, cors_defaults in Q. cbn [q_defaults] in Q. destruct (q_defaults r); discriminate.
    + eexists. split; [exact W|]. apply (defaulted_names ds (a_fields d) _ (add_defaults_ok ds (a_fields d)) (ACAO, o_origin o)). unfold ds, add_cors, cors_defaults. cbn [q_defaults]. apply in_or_app. right. left. reflexivity.
Qed.

(** ** The decorator allow_cors *)
Lemma last_index_spec p rs : forall i, match last_index p i rs with
  | Some k => exists a r b, rs = a ++ r :: b /\ k = i + length a /\ p r = true
  | None => forall r, In r rs -> p r = false end.
Proof.
  induction rs as [|x t IH]; intros i; cbn [last_index]; [intros r []|]. specialize (IH (S i)). destruct (last_index p (S i) t) as [k|].
  - destruct IH as (a & r & b & -> & -> & P). exists (x :: a), r, b. split; [reflexivity|]. split; [cbn; lia|exact P].
  - destruct (p x) eqn:E; [exists [], x, t; split; [reflexivity|]; split; [cbn; lia|exact E]|]. intros r [<-|I]; [exact E|exact (IH r I)].
Qed.
Theorem allow_cors_unclean o u m d rs : good_table rs -> ~ (path_of u u /\ collapsed u u) -> exists e, allow_cors true o u m d rs = inl e.
Proof.
  intros G NC. unfold allow_cors. rewrite andb_false_r. destruct (app_route _ _ _ _ _ _ _ _) as [e|rs1] eqn:E; [eauto|]. pose proof (app_route_good _ _ _ _ _ _ _ _ _ G E) as (_ & CL).
  pose proof (last_index_spec (same_route m u) rs1 0) as L. destruct (last_index (same_route m u) 0 rs1) as [k|]; [|eauto]. exfalso. destruct L as (a & r & b & -> & _ & P). apply same_route_spec in P. injection P as _ P.
  apply NC. apply Forall_app in CL as (_ & CL). inversion CL as [|? ? (C1 & C2) _]; subst. auto.
Qed.
Theorem allow_cors_debug_route o u m rs : o_only_debug o = false -> ~ In (m, u) (map key rs) -> allow_cors false o u m true rs = inl AttributeError.
Proof.
  intros OD NI. unfold allow_cors, app_route. rewrite OD. cbn [negb andb]. pose proof (last_index_spec (same_route m u) rs 0) as L. destruct (last_index (same_route m u) 0 rs) as [k|]; [|reflexivity].
  exfalso. destruct L as (a & r & b & -> & _ & P). apply same_route_spec in P. apply NI. rewrite map_app, in_app_iff. right. left. exact P.
Qed.
Theorem allow_cors_ok debug o u m d a r b : (o_only_debug o = false \/ debug = true) -> (debug = true \/ d = false) -> good_table (a ++ r :: b) -> key r = (m, u) -> m <> OPTIONS -> ~ answers_options u (a ++ r :: b) ->
  allow_cors debug o u m d (a ++ r :: b) = inr (a ++ add_cors o r :: b ++ [mkPR u OPTIONS (preflight_of o) d (o_only_debug o) [] []]).
Proof.
  intros OD DB (ND & CL) K NM NA. unfold allow_cors. replace (o_only_debug o && negb debug) with false by (destruct OD as [->| ->]; [reflexivity|rewrite andb_false_r; reflexivity]).
  assert (CR : clean r) by (apply Forall_app in CL as (_ & CL); inversion CL; assumption). injection K as KM KU. destruct CR as (P & C). rewrite KU in P, C.
  assert (AR : app_route debug u (preflight_of o) OPTIONS d (o_only_debug o) [] (a ++ r :: b) = inr ((a ++ r :: b) ++ [mkPR u OPTIONS (preflight_of o) d (o_only_debug o) [] []])).
  { unfold app_route. replace (negb debug && d) with false by (destruct DB as [->| ->]; [reflexivity|rewrite andb_false_r; reflexivity]). unfold register.
    replace (uri_match u) with (Some u) by (symmetry; apply uri_match_spec; exact P). rewrite (collapsed_fun _ _ C). destruct (existsb _ _) eqn:X; [|reflexivity]. apply existsb_key in X. contradiction. }
  rewrite AR. pose proof (last_index_spec (same_route m u) ((a ++ r :: b) ++ [mkPR u OPTIONS (preflight_of o) d (o_only_debug o) [] []]) 0) as L.
  destruct (last_index _ 0 _) as [k|].
  - destruct L as (a' & r' & b' & E & -> & Q). apply same_route_spec in Q. cbn [Nat.add].
    assert (X : a' = a /\ r' = r /\ b' = b ++ [mkPR u OPTIONS (preflight_of o) d (o_only_debug o) [] []]).
    { set (n := mkPR u OPTIONS (preflight_of o) d (o_only_debug o) [] []) in *. assert (ND' : NoDup (map key ((a ++ r :: b) ++ [n]))).
      { rewrite map_app. cbn [map]. apply NoDup_Add with (a := key n) (l := map key (a ++ r :: b)); [rewrite <- (app_nil_r (map key (a ++ r :: b))) at 1; apply Add_app|]. auto. }
      rewrite <- app_assoc in E, ND'. cbn [app] in E, ND'. set (c := b ++ [n]) in *. clearbody c. rewrite E in ND'. clear -E ND' Q KM KU. revert a E. induction a' as [|x a' IH]; intros a E; destruct a as [|y a]; cbn [app] in E; injection E as E1 E2.
      - subst. auto.
      - exfalso. subst. cbn [app map] in ND'. inversion ND' as [|? ? NI _]; subst. apply NI. rewrite Q, map_app, in_app_iff. right. left. unfold key. congruence.
      - exfalso. subst. cbn [app map] in ND'. inversion ND' as [|? ? NI _]; subst. apply NI. rewrite map_app, in_app_iff. right. left. rewrite Q. unfold key. congruence.
      - subst. cbn [app map] in ND'. inversion ND'; subst. destruct (IH ltac:(assumption) a E2) as (-> & -> & ->). auto. }
    destruct X as (-> & -> & ->). unfold update. rewrite <- app_assoc. cbn [app]. rewrite nth_error_app2, Nat.sub_diag by lia. cbn [nth_error].
    rewrite firstn_app, Nat.sub_diag, firstn_all. cbn [firstn]. rewrite app_nil_r. do 3 f_equal. clear. induction a as [|x a IH]; [reflexivity|exact IH].
  - exfalso. assert (F : same_route m u r = false) by (apply L; apply in_or_app; left; apply in_or_app; right; left; reflexivity).
    assert (T : same_route m u r = true) by (apply same_route_spec; unfold key; congruence). congruence.
Qed.
(** ** The answer to a preflight *)
Lemma fold_headers hs : forall r, fold_left (fun r h => py_add_header (fst h) (snd h) r) hs r = mkPy (p_status r) (p_header r ++ hs) (p_body r) (p_ctype r).
Proof.
  induction hs as [|(n, v) hs IH]; intros r; cbn [fold_left]; [rewrite app_nil_r; destruct r; reflexivity|]. rewrite IH. unfold py_add_header. cbn [p_status p_header p_body p_ctype fst snd]. rewrite <- app_assoc. reflexivity.
Qed.
(** The fields a policy grants. *)
Definition granted (text : Z -> list N) (o : policy) (h : list N * list N) : Prop :=
  h = (ACAO, o_origin o) \/ (o_methods o <> [] /\ h = (ACAM, join (o_methods o))) \/ (o_headers o <> [] /\ h = (ACAH, join (o_headers o))) \/
  (o_expose o <> [] /\ h = (ACEH, join (o_expose o))) \/ (o_cred o = true /\ h = (ACAC, bs "true")) \/ exists a, o_max_age o = Some a /\ h = (bs "Access-Control-Max-Age", text a).
Theorem preflight_answer text o : let r := preflight_response text (o_origin o) (o_methods o) (o_headers o) (o_expose o) (o_cred o) (o_max_age o) in
  p_status r = 200%Z /\ p_body r = [] /\ (forall h, In h (p_header r) <-> granted text o h) /\ NoDup (map fst (p_header r)).
Proof.
  cbv zeta. unfold preflight_response. rewrite fold_headers. cbn [p_status p_header p_body p_ctype py_response app].
  split; [reflexivity|]. split; [reflexivity|]. split.
  - intros h. unfold granted, opt, some_of. destruct (o_methods o), (o_headers o), (o_expose o), (o_cred o), (o_max_age o) as [a|]; cbn [app In]; intuition (try congruence; eauto);
      repeat match goal with H : exists _, _ |- _ => destruct H as (? & ? & ?) end; try discriminate; try congruence; intuition congruence.
  - unfold opt, some_of. destruct (o_methods o), (o_headers o), (o_expose o), (o_cred o), (o_max_age o); cbn [app map fst]; repeat constructor; cbn; intuition discriminate.
Qed.
Theorem not_gets_same o rs rs' a r b : cors_applied o rs rs' -> rs = a ++ r :: b -> ~ gets rs a r -> In r rs'.
Proof.
  intros C E NG. destruct (ca_split _ _ _ C) as (upd & new & -> & F & W & _ & _). apply in_or_app. left.
  rewrite E in F. apply Forall2_app_inv_l in F as (u1 & u2 & F1 & F2 & EU). inversion F2 as [|? r' ? u3 H F3]; subst.
  apply in_or_app. right. left. destruct H as [->|H]; [reflexivity|]. exfalso. apply NG. refine (proj1 (W a r b eq_refl r' _) H).
  assert (L : length a = length u1) by (clear -F1; induction F1; cbn; congruence). rewrite L, nth_error_app2, Nat.sub_diag by lia. reflexivity.
Qed.
Theorem options_kept o rs rs' r : cors_applied o rs rs' -> In r rs -> q_method r = OPTIONS -> In r rs'.
Proof.
  intros C I M. apply in_split in I as (a & b & E). apply (not_gets_same o rs rs' a r b C E). intros (NM & _). contradiction.
Qed.
(** The fields a policy puts on a route. *)
Theorem policy_fields text o r : exists fs, q_defaults (add_cors o r) = q_defaults r ++ fs /\ NoDup (map fst fs) /\ forall h, In h fs <-> granted text o h /\ fst h <> bs "Access-Control-Max-Age".
Proof.
  exists (cors_defaults o). split; [reflexivity|]. split.
  - unfold cors_defaults, opt, some_of. destruct (o_methods o), (o_headers o), (o_expose o), (o_cred o); cbn [app map fst]; repeat constructor; cbn; intuition discriminate.
  - intros h. unfold granted, cors_defaults. split.
    + intros I. assert (NE : fst h <> bs "Access-Control-Max-Age") by (unfold opt, some_of in I; destruct (o_methods o), (o_headers o), (o_expose o), (o_cred o); cbn [app In] in I; intuition (subst h; discriminate)).
      split; [|exact NE]. unfold opt, some_of in I. destruct (o_methods o), (o_headers o), (o_expose o), (o_cred o); cbn [app In] in I; intuition (try congruence; eauto).
    + intros (H & NE). unfold opt, some_of. cbn [app In]. destruct H as [H|[(A & H)|[(A & H)|[(A & H)|[(A & H)|(a & A & H)]]]]]; [left; auto|right; rewrite !in_app_iff; subst h..].
      * left. destruct (o_methods o); [contradiction|left; reflexivity].
      * right. left. destruct (o_headers o); [contradiction|left; reflexivity].
      * right. right. left. destruct (o_expose o); [contradiction|left; reflexivity].
      * right. right. right. rewrite A. left. reflexivity.
      * contradiction.
Qed.
