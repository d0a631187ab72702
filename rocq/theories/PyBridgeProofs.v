From Verif Require Import Base CStr Names Status Mime CNum NamesProofs Header HeaderProofs Buffer BufferProofs Encode EncodeProofs Response ResponseProofs PyBridge.
From Verif Require AcceptEnc.
From Coq Require Import Permutation.

(** ** Specification *)
(** Field names are compared without regard to case (RFC 9110, 5.1). *)
Definition same_letter (a b : N) : Prop := a = b \/ (65 <= a <= 90 /\ b = a + 32)%N \/ (65 <= b <= 90 /\ a = b + 32)%N.
Definition same_name : list N -> list N -> Prop := Forall2 same_letter.
Inductive subseq {A} : list A -> list A -> Prop :=
| sub_nil : subseq [] []
| sub_skip x a b : subseq a b -> subseq a (x :: b)
| sub_take x a b : subseq a b -> subseq (x :: a) (x :: b).
(** Fields [hs] with the defaults [ds]: [hs] is untouched; a default is added iff neither [hs] nor an earlier default has
    its name; the added ones are in their order, and no two have the same name. *)
Definition defaulted (ds hs r : list (list N * list N)) : Prop :=
  exists added, r = hs ++ added /\ subseq added ds /\
    (forall d, In d added <-> exists a b, ds = a ++ d :: b /\ forall h, In h (hs ++ a) -> ~ same_name (fst h) (fst d)) /\
    ForallOrdPairs (fun x y => ~ same_name (fst x) (fst y)) added.
(** What the documentation promises for each outcome of a handler. *)
Record reply := mkReply { a_status : Z; a_fields : list (list N * list N); a_content : list N; a_type : list N }.
Inductive documented (debug : bool) (terr : list N) : ran -> reply -> Prop :=
| doc_none : documented debug terr (Returned PNone) (mkReply 200 [] [] (bs "text/plain"))
| doc_str s : documented debug terr (Returned (PStr s)) (mkReply 200 [] s (bs "text/plain"))
| doc_bytes b : documented debug terr (Returned (PBytes b)) (mkReply 200 [] b (bs "text/plain"))
| doc_resp p : documented debug terr (Returned (PResp p)) (mkReply (p_status p) (p_header p) (p_body p) (p_ctype p))
| doc_http st c hs : documented debug terr (RaisedHttp st (Some c) hs) (mkReply st hs c (bs "text/plain"))
| doc_http0 st hs : documented debug terr (RaisedHttp st None hs) (mkReply st hs [] (bs "text/plain"))
| doc_exc t : documented debug terr (RaisedOther t) (mkReply 500 [] (if debug then t else []) (bs "text/plain"))
| doc_type : debug = true -> documented debug terr (Returned POther) (mkReply 500 [] terr (bs "text/plain")).
(** The server completes the fields: Content-Type, Date and Server are added unless a field with exactly this name is
    there. *)
Definition spelled (n : list N) (fs : list (list N * list N)) : bool := existsb (fun p => bytes_eqb (fst p) n) fs.
Definition completed (v : renv) (t : list N) (fs r : list (list N * list N)) : Prop :=
  exists added, r = fs ++ added /\
    Permutation added (filter (fun p => negb (spelled (fst p) fs)) [(bs "Content-Type", t); (bs "Date", v_date v); (bs "Server", v_server v)]).
(** Fields the header functions can handle. *)
Definition fields_ok (fs : list (list N * list N)) : Prop := Forall (fun p => edit_name (fst p) /\ no_nul (snd p)) fs.

(** ** Default headers *)
Lemma lower_same a b : lower a = lower b <-> same_letter a b.
Proof.
  unfold lower, same_letter. 
  destruct ((65 <=? a) && (a <=? 90))%N eqn:A, ((65 <=? b) && (b <=? 90))%N eqn:B;
  repeat match goal with H : (_ && _)%bool = true |- _ => apply andb_true_iff in H as [? ?] | H : (_ && _)%bool = false |- _ => apply andb_false_iff in H end;
  split; intros; lia.
Qed.
Lemma lname_same n m : lname n = lname m <-> same_name n m.
Proof.
  unfold lname, same_name. revert m. induction n as [|a n IH]; intros [|b m]; cbn [map]; split; intros H; try discriminate; try solve [inversion H]; try constructor.
  - injection H as H1 H2. apply lower_same, H1.
  - injection H as H1 H2. apply IH, H2.
  - inversion H; subst. f_equal; [apply lower_same; assumption|apply IH; assumption].
Qed.
Lemma has_name_spec n hs : has_name n hs = true <-> exists h, In h hs /\ same_name (fst h) n.
Proof.
  unfold has_name. rewrite existsb_exists. split; intros (h & I & E); exists h; (split; [exact I|]).
  - apply lname_same, bytes_eqb_eq, E.
  - apply lname_same in E. rewrite E. apply bytes_eqb_refl.
Qed.
Lemma same_refl n : same_name n n.
Proof. apply lname_same. reflexivity. Qed.
Lemma has_name_false n hs : has_name n hs = false <-> forall h, In h hs -> ~ same_name (fst h) n.
Proof.
  split.
  - intros E h I Q. assert (X : has_name n hs = true) by (apply has_name_spec; eauto). congruence.
  - intros H. destruct (has_name n hs) eqn:E; [|reflexivity]. apply has_name_spec in E as (h & I & Q). destruct (H h I Q).
Qed.
Lemma add_defaults_ok ds hs : defaulted ds hs (add_defaults ds hs).
Proof.
  revert hs. induction ds as [|i t IH]; intros hs; cbn [add_defaults].
  - exists []. split; [symmetry; apply app_nil_r|]. split; [constructor|]. split; [|constructor]. intros d. split; [intros []|]. intros (a & b & E & _). destruct a; discriminate.
  - destruct (has_name (fst i) hs) eqn:H.
    + destruct (IH hs) as (ad & E & S & W & F). exists ad. split; [exact E|]. split; [constructor; exact S|]. split; [|exact F].
      intros d. rewrite W. apply has_name_spec in H as (h & I & Q). split.
      * intros (a & b & -> & N). exists (i :: a), b. split; [reflexivity|]. intros g G. apply in_app_or in G as [G|[<-|G]]; [apply N, in_or_app; auto| |apply N, in_or_app; auto].
        intros Q'. apply (N h); [apply in_or_app; auto|]. apply lname_same. apply lname_same in Q, Q'. congruence.
      * intros ([|j a] & b & E' & N); cbn [app] in E'; injection E' as <- ->.
        -- exfalso. apply (N h); [rewrite app_nil_r; exact I|exact Q].
        -- exists a, b. split; [reflexivity|]. intros g G. apply N. apply in_app_or in G as [G|G]; apply in_or_app; [auto|right; right; exact G].
    + destruct (IH (hs ++ [i])) as (ad & E & S & W & F). exists (i :: ad). split; [rewrite E, <- app_assoc; reflexivity|]. split; [constructor; exact S|].
      assert (NI : forall h, In h hs -> ~ same_name (fst h) (fst i)) by (apply has_name_false; exact H). split.
      * intros d. split.
        -- intros [<-|I]; [exists [], t; rewrite app_nil_r; auto|]. apply W in I as (a & b & -> & N). exists (i :: a), b. split; [reflexivity|]. intros g G. apply N. rewrite <- app_assoc. exact G.
        -- intros ([|j a] & b & E' & N); cbn [app] in E'; injection E' as <- ->; [left; reflexivity|]. right. apply W. exists a, b. split; [reflexivity|]. intros g G. apply N. rewrite <- app_assoc in G. exact G.
      * constructor; [|exact F]. apply Forall_forall. intros d I Q. apply W in I as (a & b & _ & N). apply (N i); [apply in_or_app; left; apply in_or_app; right; left; reflexivity|exact Q].
Qed.
Lemma defaulted_names ds hs r : defaulted ds hs r -> forall d, In d ds -> exists h, In h r /\ same_name (fst h) (fst d).
Proof.
  intros (ad & -> & _ & W & _) d I. destruct (has_name (fst d) (hs ++ ad)) eqn:H; [apply has_name_spec, H|]. exfalso. pose proof (proj1 (has_name_false _ _) H) as N. clear H.
  (* the first default of this name *)
  assert (X : exists a e b, ds = a ++ e :: b /\ same_name (fst e) (fst d) /\ forall g, In g a -> ~ same_name (fst g) (fst d)).
  { clear -I. induction ds as [|x ds IH]; [destruct I|]. destruct (bytes_eqb (lname (fst x)) (lname (fst d))) eqn:E.
    - exists [], x, ds. split; [reflexivity|]. split; [apply lname_same, bytes_eqb_eq, E|intros g []].
    - destruct I as [->|I]; [rewrite bytes_eqb_refl in E; discriminate|]. destruct (IH I) as (a & e & b & -> & Q & F). exists (x :: a), e, b. split; [reflexivity|]. split; [exact Q|].
      intros g [<-|G]; [|apply F, G]. intros Q'. apply lname_same in Q'. rewrite Q', bytes_eqb_refl in E. discriminate. }
  destruct X as (a & e & b & -> & Q & F). apply (N e); [|exact Q]. apply in_or_app. right. apply W. exists a, b. split; [reflexivity|].
  apply lname_same in Q. intros g G Q'. apply lname_same in Q'. apply in_app_or in G as [G|G].
  - apply (N g); [apply in_or_app; auto|]. apply lname_same. congruence.
  - apply (F g G). apply lname_same. congruence.
Qed.
Lemma defaulted_nil hs r : defaulted [] hs r -> r = hs.
Proof. intros (ad & -> & S & _). inversion S. apply app_nil_r. Qed.
Lemma subseq_in {A} (a b : list A) : subseq a b -> forall x, In x a -> In x b.
Proof. induction 1; intros y; cbn [In]; intuition. Qed.
Lemma defaulted_fields ds hs r : defaulted ds hs r -> fields_ok ds -> fields_ok hs -> fields_ok r.
Proof.
  intros (ad & -> & S & _) D H. apply Forall_app. split; [exact H|]. apply Forall_forall. intros x I. apply (proj1 (Forall_forall _ _) D). exact (subseq_in _ _ S _ I).
Qed.

(** ** The response of the server *)
Lemma hok_init : hok header_init.
Proof. split; [split; [constructor|reflexivity]|constructor]. Qed.
Lemma hok_adds fs : fields_ok fs -> forall h, hok h -> let h' := fold_left (fun h e => header_add h (fst e) (snd e)) fs h in hok h' /\ entries h' = entries h ++ fs.
Proof.
  induction 1 as [|[n w] fs (E & Z) F IH]; intros h H; cbn [fold_left fst snd]; [rewrite app_nil_r; auto|].
  destruct (hok_add h n w H E Z) as (H' & E'). destruct (IH _ H') as (H2 & E2). split; [exact H2|]. rewrite E2, E', <- app_assoc. reflexivity.
Qed.
Lemma spelled_named n fs : spelled n fs = true <-> named n fs.
Proof.
  unfold spelled, named. rewrite existsb_exists, in_map_iff. split; intros (p & A & B); exists p; [apply bytes_eqb_eq in B; auto|split; [exact B|rewrite A; apply bytes_eqb_refl]].
Qed.
Lemma ifno_entries h n w : hok h -> edit_name n -> no_nul w ->
  exists h', header_add_ifno h n w = Ok h' /\ hok h' /\ entries h' = entries h ++ filter (fun p => negb (spelled (fst p) (entries h))) [(n, w)].
Proof.
  intros H E Z. destruct (hok_ifno h n w H E Z) as (h' & R & H' & EF). exists h'. split; [exact R|]. split; [exact H'|]. cbn [filter fst].
  remember (EAddIfno n w) as e eqn:EE. destruct EF; inversion EE; subst; clear EE.
  - match goal with Q : named n _ |- _ => apply spelled_named in Q; rewrite Q end. cbn [negb]. rewrite app_nil_r. reflexivity.
  - destruct (spelled n _) eqn:Q; [apply spelled_named in Q; contradiction|reflexivity].
Qed.
Lemma spelled_app n a b : spelled n (a ++ b) = spelled n a || spelled n b.
Proof. apply existsb_app. Qed.
Lemma ct_name : edit_name (bs "Content-Type"). Proof. split; [discriminate|apply no_nulb_ok; reflexivity]. Qed.
Lemma date_name : edit_name (bs "Date"). Proof. split; [discriminate|apply no_nulb_ok; reflexivity]. Qed.
Lemma server_name : edit_name (bs "Server"). Proof. split; [discriminate|apply no_nulb_ok; reflexivity]. Qed.
Lemma plain_value : no_nul (bs "text/plain"). Proof. apply no_nulb_ok; reflexivity. Qed.
Lemma types_ok t : In t mime_names -> no_nul t.
Proof. intros I. cbn in I. repeat (destruct I as [<-|I]; [apply no_nulb_ok; reflexivity|]). contradiction. Qed.
Definition lacks (fs : list (list N * list N)) (p : list N * list N) : list (list N * list N) := filter (fun p => negb (spelled (fst p) fs)) [p].
Lemma spelled_lacks n fs0 m w : bytes_eqb m n = false -> spelled n (lacks fs0 (m, w)) = false.
Proof. intros E. unfold lacks. cbn [filter fst]. destruct (negb _); cbn; [rewrite E|]; reflexivity. Qed.
Lemma lacks_other fs fs0 n w m x : bytes_eqb m n = false -> lacks (fs ++ lacks fs0 (m, x)) (n, w) = lacks fs (n, w).
Proof. intros E. unfold lacks at 1 3. cbn [filter fst]. rewrite spelled_app, (spelled_lacks n fs0 m x E), orb_false_r. reflexivity. Qed.
Lemma spelled_lacks_same n w fs : spelled n (fs ++ lacks fs (n, w)) = true.
Proof. rewrite spelled_app. unfold lacks. cbn [filter fst]. destruct (spelled n fs); [reflexivity|]. cbn. rewrite bytes_eqb_refl. reflexivity. Qed.
Lemma completed_of v t fs r a b c : r = fs ++ lacks fs a ++ lacks fs b ++ lacks fs c ->
  Permutation [a; b; c] [(bs "Content-Type", t); (bs "Date", v_date v); (bs "Server", v_server v)] -> completed v t fs r.
Proof.
  intros E P. eexists. split; [exact E|]. 
  assert (X : lacks fs a ++ lacks fs b ++ lacks fs c = filter (fun p => negb (spelled (fst p) fs)) [a; b; c]).
  { unfold lacks. cbn [filter]. destruct (negb (spelled (fst a) fs)), (negb (spelled (fst b) fs)), (negb (spelled (fst c) fs)); reflexivity. }
  rewrite X. clear X E. induction P; cbn [filter].
  - constructor.
  - destruct (negb _); [constructor|]; assumption.
  - destruct (negb (spelled (fst y) fs)), (negb (spelled (fst x) fs)); try apply Permutation_refl. apply perm_swap.
  - eapply Permutation_trans; eassumption.
Qed.
(** The last step, when the response has no type yet, or has one. *)
Lemma finish_steps v enc r : env_ok v enc -> hok (r_header r) ->
  exists h, finish v r = Ok (mkRes (r_version r) (r_code r) h (r_body r) (r_pf r) (r_count r) (r_dont r) (r_back r) (r_coding r)) /\ hok h /\
    let fs := entries (r_header r) in
    entries h = fs ++ lacks fs (bs "Date", v_date v) ++ lacks fs (bs "Server", v_server v) ++ lacks fs (bs "Content-Type", bs "text/plain").
Proof.
  intros V H. unfold finish, add_date, add_server.
  destruct (ifno_entries _ _ _ H date_name (eo_date _ _ V)) as (h1 & -> & H1 & E1). cbn [obind].
  destruct (ifno_entries _ _ _ H1 server_name (eo_server _ _ V)) as (h2 & -> & H2 & E2). cbn [obind].
  destruct (ifno_entries _ _ _ H2 ct_name plain_value) as (h3 & -> & H3 & E3). cbn [obind].
  exists h3. split; [reflexivity|]. split; [exact H3|]. set (fs := entries (r_header r)) in *. cbv zeta.
  fold (lacks fs (bs "Date", v_date v)) in E1. fold (lacks (entries h1) (bs "Server", v_server v)) in E2. fold (lacks (entries h2) (bs "Content-Type", bs "text/plain")) in E3.
  rewrite E1 in E2. rewrite lacks_other in E2 by reflexivity. rewrite E2 in E3. rewrite lacks_other in E3 by reflexivity. rewrite lacks_other in E3 by reflexivity.
  rewrite E3, <- !app_assoc. reflexivity.
Qed.
Lemma finish_untyped v enc r : env_ok v enc -> hok (r_header r) ->
  exists h, finish v r = Ok (mkRes (r_version r) (r_code r) h (r_body r) (r_pf r) (r_count r) (r_dont r) (r_back r) (r_coding r)) /\ hok h /\
    completed v (bs "text/plain") (entries (r_header r)) (entries h).
Proof.
  intros V H. destruct (finish_steps v enc r V H) as (h & R & H' & E). exists h. split; [exact R|]. split; [exact H'|]. eapply completed_of; [exact E|].
  eapply perm_trans; [apply perm_skip, perm_swap|]. apply perm_swap.
Qed.
Lemma finish_typed v enc r fs t : env_ok v enc -> hok (r_header r) -> entries (r_header r) = fs ++ lacks fs (bs "Content-Type", t) ->
  exists h, finish v r = Ok (mkRes (r_version r) (r_code r) h (r_body r) (r_pf r) (r_count r) (r_dont r) (r_back r) (r_coding r)) /\ hok h /\
    completed v t fs (entries h).
Proof.
  intros V H E0. destruct (finish_steps v enc r V H) as (h & R & H' & E). exists h. split; [exact R|]. split; [exact H'|].
  cbv zeta in E. rewrite E0 in E. rewrite !(lacks_other _ _ (bs "Date")) in E by reflexivity. rewrite !(lacks_other _ _ (bs "Server")) in E by reflexivity.
  replace (lacks (fs ++ lacks fs (bs "Content-Type", t)) (bs "Content-Type", bs "text/plain")) with (@nil (list N * list N)) in E
    by (unfold lacks at 1; cbn [filter fst]; rewrite spelled_lacks_same; reflexivity).
  rewrite app_nil_r, <- app_assoc in E. eapply completed_of; [exact E|]. apply Permutation_refl.
Qed.

(** ** Handlers *)
Definition small (v : renv) (b : list N) : Prop := length b <= v_max v.
Lemma fits v b : small v b -> too_long v b = false.
Proof. unfold small, too_long. intros H. apply andb_false_iff. right. apply Nat.ltb_ge. exact H. Qed.
Lemma over v b : v_max v < length b -> too_long v b = true.
Proof. intros H. unfold too_long. apply andb_true_iff. split; apply Nat.ltb_lt; lia. Qed.
(** What a response says: its status, fields and content. *)
Definition says (v : renv) (a : reply) (fs1 : list (list N * list N)) (r : response) : Prop :=
  exists h, r = mkRes V1_1 (type_from_long (a_status a)) h (c_body (a_content a)) None 0 false false None /\ hok h /\ completed v (a_type a) fs1 (entries h).
Lemma fold_headers hs r : fold_left (fun r h => py_add_header (fst h) (snd h) r) hs r = mkPy (p_status r) (p_header r ++ hs) (p_body r) (p_ctype r).
Proof.
  revert r. induction hs as [|[n w] hs IH]; intros r; cbn [fold_left fst snd]; [rewrite app_nil_r; destruct r; reflexivity|].
  rewrite IH. unfold py_add_header. cbn [p_status p_header p_body p_ctype]. rewrite <- app_assoc. reflexivity.
Qed.
(** The wrapper gives a Response with the documented contents, or, without defaults, the value itself. *)
Lemma wrapper_spec debug terr ds x a : documented debug terr x a ->
  (ds = [] /\ a_fields a = [] /\ a_status a = 200%Z /\ a_type a = bs "text/plain" /\
    ((x = Returned PNone /\ a_content a = [] \/ x = Returned (PStr (a_content a)) \/ x = Returned (PBytes (a_content a))) /\ exists w, x = Returned w /\ wrapper debug terr ds x = Some w)) \/
  wrapper debug terr ds x = Some (PResp (mkPy (a_status a) (add_defaults ds (a_fields a)) (a_content a) (a_type a))).
Proof.
  intros D. destruct D; cbn [a_status a_fields a_content a_type].
  - destruct ds; [left|right; reflexivity]. repeat (split; [reflexivity|]). split; [auto|]. eexists. split; reflexivity.
  - destruct ds; [left|right; reflexivity]. repeat (split; [reflexivity|]). split; [auto|]. eexists. split; reflexivity.
  - destruct ds; [left|right; reflexivity]. repeat (split; [reflexivity|]). split; [auto|]. eexists. split; reflexivity.
  - right. destruct ds; destruct p; reflexivity.
  - right. unfold wrapper. rewrite fold_headers. destruct ds, c; reflexivity.
  - right. unfold wrapper. rewrite fold_headers. destruct ds; reflexivity.
  - right. destruct ds, debug; reflexivity.
  - right. subst debug. destruct ds; reflexivity.
Qed.
Lemma plain_answer v enc b : env_ok v enc -> exists r, finish v (plain b) = Ok r /\ says v (mkReply 200 [] b (bs "text/plain")) [] r.
Proof.
  intros V. destruct (finish_untyped v enc (plain b) V hok_init) as (h & R & H & C). eexists. split; [exact R|]. exists h. split; [reflexivity|]. auto.
Qed.
Lemma resp_bridge v p : fields_ok (p_header p) -> In (p_ctype p) mime_names -> small v (p_body p) ->
  exists h, bridge v false (Some (PResp p)) = Ok (mkRes V1_1 (type_from_long (p_status p)) h (c_body (p_body p)) None 0 false false None) /\ hok h /\
    entries h = p_header p ++ lacks (p_header p) (bs "Content-Type", p_ctype p).
Proof.
  intros F T S. unfold bridge. rewrite (fits _ _ S). destruct (mime_from_str_spec (p_ctype p)) as (M & _). destruct (M T) as (m & -> & MN). cbn [obind]. rewrite MN.
  destruct (hok_adds _ F header_init hok_init) as (H & E). destruct (ifno_entries _ _ _ H ct_name (types_ok _ T)) as (h' & -> & H' & E'). cbn [obind].
  exists h'. split; [reflexivity|]. split; [exact H'|]. rewrite E', E. reflexivity.
Qed.
Theorem handler_says v enc debug terr ds x a : env_ok v enc -> documented debug terr x a -> fields_ok ds -> fields_ok (a_fields a) -> In (a_type a) mime_names -> small v (a_content a) ->
  exists r fs1, answer v false debug terr ds x = Ok r /\ defaulted ds (a_fields a) fs1 /\ says v a fs1 r.
Proof.
  intros V D FD FA T S. unfold answer. destruct (wrapper_spec debug terr ds x a D) as [(-> & EF & ES & ET & K & w & -> & W)|W]; rewrite W.
  - assert (exists r, obind (bridge v false (Some w)) (finish v) = Ok r /\ says v (mkReply 200 [] (a_content a) (bs "text/plain")) [] r) as (r & R & Y).
    { assert (X : bridge v false (Some w) = Ok (plain (a_content a))).
      { destruct K as [(K & EC)|[K|K]]; injection K as ->; cbn [bridge]; [rewrite EC|rewrite (fits _ _ S)|rewrite (fits _ _ S)]; reflexivity. }
      rewrite X. cbn [obind]. apply (plain_answer v enc _ V). }
    exists r, []. split; [exact R|]. split; [rewrite EF; apply add_defaults_ok|]. destruct a. cbn [a_status a_fields a_content a_type] in *. subst. exact Y.
  - set (fs1 := add_defaults ds (a_fields a)). assert (DF : defaulted ds (a_fields a) fs1) by apply add_defaults_ok.
    destruct (resp_bridge v (mkPy (a_status a) fs1 (a_content a) (a_type a))) as (h & -> & H & E); cbn [p_header p_ctype p_body]; [exact (defaulted_fields _ _ _ DF FD FA)|exact T|exact S|].
    cbn [obind p_status p_body p_header p_ctype] in *.
    destruct (finish_typed v enc (mkRes V1_1 (type_from_long (a_status a)) h (c_body (a_content a)) None 0 false false None) fs1 (a_type a) V H E) as (h' & R & H' & C).
    rewrite R. eexists. exists fs1. split; [reflexivity|]. split; [exact DF|]. exists h'. auto.
Qed.
(** ... and is sent: content below the threshold of encoding. *)
Lemma says_payload v a fs1 r : says v a fs1 r -> payload r = a_content a.
Proof. intros (h & -> & _). unfold payload. cbn [r_body r_pf]. destruct (a_content a); reflexivity. Qed.
Lemma says_sane v enc a fs1 r : env_ok v enc -> says v a fs1 r -> (length (a_content a) < v_threshold v \/ v_accept v <> None) -> sane v enc r.
Proof.
  intros V Y TH. pose proof (says_payload _ _ _ _ Y) as PL. destruct Y as (h & -> & (H1 & H2) & C). set (r := mkRes _ _ _ _ _ _ _ _ _) in *.
  assert (SD : stored_de r = None) by (unfold stored_de; destruct (r_body r); reflexivity).
  constructor; auto; try apply V; try (intros; congruence); [intros f Q; discriminate|]. intros A. right. rewrite PL. destruct TH; [auto|contradiction].
Qed.
Lemma says_small v enc a fs1 r : env_ok v enc -> says v a fs1 r -> length (a_content a) < v_threshold v -> deliverable v enc r /\ coding_used v r = None.
Proof.
  intros V Y TH. pose proof (says_payload _ _ _ _ Y) as PL. destruct Y as (h & -> & (H1 & H2) & C). set (r := mkRes _ _ _ _ _ _ _ _ _) in *.
  assert (SD : stored_de r = None) by (unfold stored_de; destruct (r_body r); reflexivity).
  assert (CU : coding_used v r = None).
  { unfold coding_used. rewrite SD, PL. replace (v_threshold v <=? length (a_content a)) with false by (symmetry; apply Nat.leb_gt; exact TH). cbn [r_dont r]. destruct (v_accept v) as [(l, d)|]; reflexivity. }
  split; [|exact CU]. unfold deliverable, stored_used. rewrite SD, CU. reflexivity.
Qed.
Lemma says_able v enc a fs1 r reason : env_ok v enc -> says v a fs1 r -> In (a_status a, reason) rfc_reasons -> ~ In (a_status a) bad_codes -> length (a_content a) < v_threshold v ->
  able v enc r (spec_line (a_status a) reason) /\ coding_used v r = None.
Proof.
  intros V Y I NB TH. destruct (says_small v enc a fs1 r V Y TH) as (DL & CU). split; [|exact CU]. split; [exact (says_sane v enc a fs1 r V Y (or_introl TH))|]. split; [exact DL|].
  destruct Y as (h & -> & _). split; [reflexivity|]. apply (status_lines _ _ I NB).
Qed.
(** Content that is coded. *)
Theorem handler_coded v enc debug terr ds x a reason : env_ok v enc -> documented debug terr x a -> fields_ok ds -> fields_ok (a_fields a) -> In (a_type a) mime_names -> small v (a_content a) ->
  In (a_status a, reason) rfc_reasons -> ~ In (a_status a) bad_codes -> v_accept v <> None ->
  exists r fs1, answer v false debug terr ds x = Ok r /\ defaulted ds (a_fields a) fs1 /\ completed v (a_type a) fs1 (entries (r_header r)) /\
    (deliverable v enc r -> let c := coding_used v r in let content := coded enc c (a_content a) in
     exists fs, final_fields v r c (length content) fs /\
      let w := wire (spec_line (a_status a) reason) fs content in
      forall k n ios, length w <= n -> respond v r (repeat Blocked k ++ Took n :: ios) = Ok (w, fate_of fs)).
Proof.
  intros V D FD FA T S I NB TH. destruct (handler_says v enc debug terr ds x a V D FD FA T S) as (r & fs1 & R & DF & Y).
  pose proof (says_sane v enc a fs1 r V Y (or_intror TH)) as SN. pose proof (says_payload _ _ _ _ Y) as PL.
  exists r, fs1. split; [exact R|]. split; [exact DF|]. split; [destruct Y as (h & -> & _ & C); exact C|]. intros DL.
  assert (A : able v enc r (spec_line (a_status a) reason)).
  { split; [exact SN|]. split; [exact DL|]. destruct Y as (h & -> & _). split; [reflexivity|]. apply (status_lines _ _ I NB). }
  destruct (respond_exact v enc r _ A) as (fs & FF & X). rewrite PL in *. exists fs. auto.
Qed.
Theorem handler_sent v enc debug terr ds x a reason : env_ok v enc -> documented debug terr x a -> fields_ok ds -> fields_ok (a_fields a) -> In (a_type a) mime_names -> small v (a_content a) ->
  In (a_status a, reason) rfc_reasons -> ~ In (a_status a) bad_codes -> length (a_content a) < v_threshold v ->
  exists r fs1 fs, answer v false debug terr ds x = Ok r /\ defaulted ds (a_fields a) fs1 /\ completed v (a_type a) fs1 (entries (r_header r)) /\
    final_fields v r None (length (a_content a)) fs /\
    let w := wire (spec_line (a_status a) reason) fs (a_content a) in
    forall k n ios, length w <= n -> respond v r (repeat Blocked k ++ Took n :: ios) = Ok (w, fate_of fs).
Proof.
  intros V D FD FA T S I NB TH. destruct (handler_says v enc debug terr ds x a V D FD FA T S) as (r & fs1 & R & DF & Y).
  destruct (says_able v enc a fs1 r reason V Y I NB TH) as (A & CU). destruct (respond_exact v enc r _ A) as (fs & FF & X). rewrite CU, (says_payload _ _ _ _ Y) in *. cbn [coded] in *.
  exists r, fs1, fs. split; [exact R|]. split; [exact DF|]. split; [|auto]. destruct Y as (h & -> & _ & C). exact C.
Qed.
(** The text a handler returns. *)
Theorem text_sent v enc debug terr s x : env_ok v enc -> x = Returned (PStr s) \/ x = Returned (PBytes s) -> s <> [] -> small v s -> length s < v_threshold v ->
  exists r, answer v false debug terr [] x = Ok r /\
    let w := wire (bs "HTTP/1.1 200 OK" ++ [13; 10]%N) [(bs "Date", v_date v); (bs "Server", v_server v); (bs "Content-Type", bs "text/plain"); (bs "Content-Length", dec (N.of_nat (length s)))] s in
    forall k n ios, length w <= n -> respond v r (repeat Blocked k ++ Took n :: ios) = Ok (w, FKeep).
Proof.
  intros V X NE S TH. assert (B : bridge v false (wrapper debug terr [] x) = Ok (plain s)) by (destruct X as [-> | ->]; cbn [wrapper bridge]; rewrite (fits _ _ S); reflexivity).
  destruct (finish_steps v enc (plain s) V hok_init) as (h & R & H & E). unfold answer. rewrite B. cbn [obind]. rewrite R. eexists. split; [reflexivity|].
  set (r := mkRes _ _ h _ _ _ _ _ _). change (entries h = [(bs "Date", v_date v); (bs "Server", v_server v); (bs "Content-Type", bs "text/plain")]) in E.
  assert (Y : says v (mkReply 200 [] s (bs "text/plain")) [] r).
  { exists h. split; [reflexivity|]. split; [exact H|]. rewrite E. eexists. split; [reflexivity|]. eapply perm_trans; [apply perm_skip, perm_swap|]. apply perm_swap. }
  destruct (says_able v enc _ [] r "OK" V Y) as (A & CU); [cbn; auto|cbn; intuition discriminate|exact TH|]. destruct (respond_exact v enc r _ A) as (fs & FF & Z). rewrite CU, (says_payload _ _ _ _ Y) in *. cbn [coded a_content] in *.
  assert (EF : fs = entries h ++ [(bs "Content-Length", dec (N.of_nat (length s)))]).
  { destruct FF as (fs0 & G & EF). rewrite app_nil_r in EF. destruct G as [_|? ? ? B1]; [|exfalso; cbn in B1; destruct s; [contradiction|discriminate]].
    apply mod_absent in EF; [exact EF|]. cbn [r r_header]. rewrite E. unnamed. }
  rewrite E in EF. cbn [app] in EF. subst fs. exact Z.
Qed.

(** ** Refusals *)
Definition refusal_fields (v : renv) (c : stcode) : list (list N * list N) :=
  [(bs "Server", v_server v); (bs "Date", v_date v); (bs "Connection", match c with S413 => bs "close" | _ => bs "keep-alive" end); (bs "Content-Type", bs "text/plain")].
Lemma refusal v enc c : env_ok v enc -> c = S500 \/ c = S413 ->
  exists h, obind (status_response v c []) (finish v) = Ok (mkRes V1_1 c h None None 0 false false None) /\ hok h /\ entries h = refusal_fields v c.
Proof.
  intros V K. unfold status_response.
  destruct (status_header_ok v enc (match c with S405 | S414 | S415 | S417 => true | _ => false end) (match c with S304 => Some [] | _ => None end)
     (match c with S413 => false | _ => true end) V) as (h & -> & H & E); [destruct K as [-> | ->]; exact Logic.I|]. cbn [obind].
  edestruct (finish_steps v enc) as (h' & R & H' & E'); [exact V| |exists h'; split; [|split; [exact H'|]]]; [|rewrite R; destruct K as [-> | ->]; reflexivity|].
  - exact H.
  - cbv zeta in E'. cbn [r_header] in E'. rewrite E', E. destruct K as [-> | ->]; reflexivity.
Qed.
Definition refused_with (v : renv) (o : outcome response) (c : stcode) : Prop :=
  exists h, o = Ok (mkRes V1_1 c h None None 0 false false None) /\ hok h /\ entries h = refusal_fields v c.
Theorem too_long_refused v enc debug terr ds x a : env_ok v enc -> documented debug terr x a -> v_max v < length (a_content a) -> refused_with v (answer v false debug terr ds x) S413.
Proof.
  intros V D O. assert (B : bridge v false (wrapper debug terr ds x) = status_response v S413 []).
  { destruct (wrapper_spec debug terr ds x a D) as [(_ & _ & _ & _ & K & w & -> & W)|W]; rewrite W; cbn [bridge p_body]; [|rewrite (over _ _ O); reflexivity].
    destruct K as [(K & EC)|[K|K]]; injection K as ->; cbn [bridge]; [rewrite EC in O; cbn in O; lia|rewrite (over _ _ O); reflexivity|rewrite (over _ _ O); reflexivity]. }
  unfold answer. rewrite B. apply (refusal v enc S413 V). auto.
Qed.
Theorem other_refused v enc head terr ds : env_ok v enc -> refused_with v (answer v head false terr ds (Returned POther)) S500.
Proof.
  intros V. assert (B : bridge v head (wrapper false terr ds (Returned POther)) = status_response v S500 []) by (destruct ds, head; reflexivity).
  unfold answer. rewrite B. apply (refusal v enc S500 V). auto.
Qed.
Theorem head_refused v enc debug terr ds x a : env_ok v enc -> documented debug terr x a -> (ds <> [] \/ (x <> Returned PNone /\ forall b, x <> Returned (PBytes b))) -> refused_with v (answer v true debug terr ds x) S500.
Proof.
  intros V D K. assert (B : bridge v true (wrapper debug terr ds x) = status_response v S500 []).
  { destruct (wrapper_spec debug terr ds x a D) as [(-> & _ & _ & _ & K2 & w & -> & W)|W]; rewrite W; [|reflexivity].
    destruct K as [K|(K & K')]; [contradiction|]. destruct K2 as [(K2 & _)|[K2|K2]]; injection K2 as ->; [contradiction|reflexivity|destruct (K' _ eq_refl)]. }
  unfold answer. rewrite B. apply (refusal v enc S500 V). auto.
Qed.
(** ** Where it goes wrong *)
Theorem unknown_type v debug terr ds p : ~ In (p_ctype p) mime_names -> small v (p_body p) -> answer v false debug terr ds (Returned (PResp p)) = UB OutOfBounds.
Proof.
  intros T S. destruct (wrapper_spec debug terr ds _ _ (doc_resp debug terr p)) as [(_ & _ & _ & _ & [(K & _)|[K|K]] & _)|W]; try discriminate.
  unfold answer. rewrite W. cbn [bridge a_content a_type p_body p_ctype]. rewrite (fits _ _ S). destruct (mime_from_str_spec (p_ctype p)) as (_ & ->); [reflexivity|exact T].
Qed.
Theorem unknown_status v enc debug terr ds x a : env_ok v enc -> documented debug terr x a -> fields_ok ds -> fields_ok (a_fields a) -> In (a_type a) mime_names -> small v (a_content a) ->
  (forall reason, ~ In (a_status a, reason) rfc_reasons) -> length (a_content a) < v_threshold v ->
  exists r, answer v false debug terr ds x = Ok r /\ forall ios, respond v r ios = UB NullDeref.
Proof.
  intros V D FD FA T S NI TH. destruct (handler_says v enc debug terr ds x a V D FD FA T S) as (r & fs1 & R & _ & Y). exists r. split; [exact R|]. intros ios.
  destruct (says_small v enc a fs1 r V Y TH) as (DL & CU). pose proof (says_sane v enc a fs1 r V Y (or_introl TH)) as SN.
  destruct (prepare_ok v enc r SN DL) as (y & P & _). unfold respond. cbn [response_event]. rewrite P. cbn [obind]. unfold layout.
  destruct Y as (h & -> & _). cbn [r_version r_code]. rewrite (type_from_long_unknown _ NI). reflexivity.
Qed.
