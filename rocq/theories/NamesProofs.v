(** Proofs about Names.v, Status.v and Mime.v. *)
From Verif Require Import Base CStr Names Status Mime.

(** ** Exact matching by length *)
Lemma rd_app m x i : (i < length m)%nat -> rd (m ++ x) i = rd m i.
Proof. intros H. unfold rd. now rewrite nth_error_app1. Qed.

Lemma len_loop_spec : forall name mem i len, name <> [] -> len = (i + length name)%nat -> (len <= length mem)%nat ->
  len_loop mem (name ++ [0%N]) i len = Ok (bytes_eqb (firstn (length name) (skipn i mem)) name).
Proof.
  induction name as [|y name IH]; intros mem i len Hn Hl Hm; [contradiction|].
  cbn [app len_loop length]. cbn [length] in Hl.
  destruct (nth_error mem i) as [x|] eqn:E; [|apply nth_error_None in E; lia].
  unfold rd. rewrite E. cbn [obind].
  assert (S1 : skipn i mem = x :: skipn (S i) mem).
  { clear -E. revert mem E. induction i as [|i IH]; intros [|a mem] E; cbn in *; try discriminate; [congruence|]. apply IH, E. }
  rewrite S1. cbn [firstn bytes_eqb].
  destruct (N.eqb_spec x y) as [->|Ny]; cbn [andb]; [|reflexivity].
  destruct name as [|z name].
  - replace (S i =? len)%nat with true by (symmetry; apply Nat.eqb_eq; cbn in Hl; lia). cbn. reflexivity.
  - replace (S i =? len)%nat with false by (symmetry; apply Nat.eqb_neq; cbn in Hl; lia).
    apply IH; [discriminate|cbn [length] in *; lia|lia].
Qed.

Lemma find_len_spec {A} : forall (tbl : list (list N * A)) mem len, Forall (fun e => fst e <> []) tbl -> (len <= length mem)%nat ->
  find_len tbl mem len = Ok (option_map snd (List.find (fun e => bytes_eqb (firstn len mem) (fst e)) tbl)).
Proof.
  induction tbl as [|[n a] tbl IH]; intros mem len F L; cbn [find_len List.find]; [reflexivity|].
  inversion F as [|? ? Hn F']; subst. cbn [fst] in *.
  destruct (Nat.eqb_spec (length n) len) as [El|Nl].
  - rewrite len_loop_spec by (auto; lia). cbn [skipn obind]. rewrite El.
    destruct (bytes_eqb (firstn len mem) n); [reflexivity|]. apply IH; assumption.
  - destruct (bytes_eqb (firstn len mem) n) eqn:B; [|apply IH; assumption].
    apply bytes_eqb_eq in B. apply (f_equal (@length N)) in B. rewrite firstn_length in B. lia.
Qed.

(** The specification of names: RFC 7231 section 4.3, RFC 5789; RFC 7230 section 2.7. *)
Definition method_spelling (m : method) : list N :=
  match m with
  | GET => bs "GET" | HEAD => bs "HEAD" | POST => bs "POST" | PUT => bs "PUT" | DELETE => bs "DELETE"
  | CONNECT => bs "CONNECT" | OPTIONS => bs "OPTIONS" | TRACE => bs "TRACE" | PATCH => bs "PATCH"
  end.
Definition version_number (v : version) : list N := match v with V2 => bs "2" | V1_1 => bs "1.1" end.
Definition version_protocol (v : version) : list N := match v with V2 => bs "h2" | V1_1 => bs "http/1.1" end.
Definition scheme_spelling (s : scheme) : list N := match s with http => bs "http" | https => bs "https" end.

Lemma find_methods s : option_map snd (List.find (fun e => bytes_eqb s (fst e)) methods) = 
  List.find (fun m => bytes_eqb s (method_spelling m)) [GET; HEAD; POST; PUT; DELETE; CONNECT; OPTIONS; TRACE; PATCH].
Proof.
  unfold methods. cbn [List.find fst snd method_spelling].
  repeat match goal with |- context [bytes_eqb s ?x] => destruct (bytes_eqb s x); [reflexivity|] end. reflexivity.
Qed.

Lemma method_len_exact mem len m : (len <= length mem)%nat ->
  (match_method_len mem len = Ok (Some m) <-> firstn len mem = method_spelling m) /\
  (match_method_len mem len = Ok None <-> forall m', firstn len mem <> method_spelling m').
Proof.
  intros L. unfold match_method_len. rewrite find_len_spec by (auto; repeat constructor; discriminate).
  rewrite find_methods. set (s := firstn len mem).
  destruct (List.find _ _) as [m0|] eqn:E.
  - assert (E0 : s = method_spelling m0) by (apply find_some in E as [_ E]; now apply bytes_eqb_eq).
    split; split.
    + intros H. injection H as <-. exact E0.
    + intros H. do 2 f_equal. rewrite H in E0. destruct m, m0; try reflexivity; discriminate.
    + discriminate.
    + intros H. exfalso. apply (H m0), E0.
  - assert (E0 : forall m', s <> method_spelling m').
    { intros m' H. apply bytes_eqb_eq in H. cbv beta in E. assert (I : In m' [GET; HEAD; POST; PUT; DELETE; CONNECT; OPTIONS; TRACE; PATCH]) by (destruct m'; cbn; auto 10).
      pose proof (find_none _ _ E m' I) as Q. cbv beta in Q. congruence. }
    split; split; intros H; try discriminate; try reflexivity; [|assumption]. exfalso. now apply (E0 m).
Qed.

Lemma version_len_exact mem len v : (len <= length mem)%nat ->
  (match_version_len mem len = Ok (Some v) <-> firstn len mem = version_number v) /\
  (match_version_len mem len = Ok None <-> forall v', firstn len mem <> version_number v').
Proof.
  intros L. unfold match_version_len. rewrite find_len_spec by (auto; repeat constructor; discriminate).
  set (s := firstn len mem). cbn [map versions v_number v_type List.find fst].
  destruct (bytes_eqb s (bs "2")) eqn:E2; [|destruct (bytes_eqb s (bs "1.1")) eqn:E1].
  - apply bytes_eqb_eq in E2. cbn [option_map snd]. split; split.
    + intros H. injection H as <-. exact E2.
    + intros H. rewrite H in E2. destruct v; [reflexivity|discriminate].
    + discriminate.
    + intros H. exfalso. apply (H V2), E2.
  - apply bytes_eqb_eq in E1. cbn [option_map snd]. split; split.
    + intros H. injection H as <-. exact E1.
    + intros H. rewrite H in E1. destruct v; [discriminate|reflexivity].
    + discriminate.
    + intros H. exfalso. apply (H V1_1), E1.
  - apply bytes_eqb_neq in E1, E2. cbn [option_map]. split; split; intros H; try discriminate; try reflexivity.
    + destruct v; cbn in H; contradiction.
    + intros [|]; assumption.
Qed.

(** ** Prefix matching *)
Lemma prefix_comparable : forall a b s, is_prefix a s = true -> is_prefix b s = true -> is_prefix a b || is_prefix b a = true.
Proof.
  induction a as [|x a IH]; intros b s Ha Hb; [reflexivity|].
  destruct b as [|y b]; [reflexivity|]. destruct s as [|z s]; [discriminate|].
  cbn [is_prefix] in *. apply andb_true_iff in Ha as [E1 Ha]. apply andb_true_iff in Hb as [E2 Hb].
  apply N.eqb_eq in E1, E2. subst. rewrite N.eqb_refl. cbn [andb]. apply (IH b s Ha Hb).
Qed.
Lemma find_prefix_unique {A} (tbl : list (list N * A)) s e :
  (forall e1 e2, In e1 tbl -> In e2 tbl -> is_prefix (fst e1) (fst e2) || is_prefix (fst e2) (fst e1) = true -> e1 = e2) ->
  In e tbl -> is_prefix (fst e) s = true -> List.find (fun m => is_prefix (fst m) s) tbl = Some e.
Proof.
  intros U I P. destruct (List.find _ tbl) as [e'|] eqn:F.
  - apply find_some in F as [I' P']. f_equal. apply U; auto. apply (prefix_comparable _ _ s); assumption.
  - pose proof (find_none _ _ F e I) as Q. cbv beta in Q. congruence.
Qed.
Lemma find_ext {A} (f g : A -> bool) l : (forall x, f x = g x) -> List.find f l = List.find g l.
Proof. intros H. induction l as [|x l IH]; cbn [List.find]; [reflexivity|]. rewrite H, IH. reflexivity. Qed.

Lemma method_name_prefix s m : match_method_name s = Some m <-> is_prefix (method_spelling m) s = true.
Proof.
  unfold match_method_name. rewrite (find_ext _ (fun e => is_prefix (fst e) s)) by (intros; apply strncmp_prefix).
  split.
  - intros H. destruct (List.find _ methods) as [e|] eqn:F; [|discriminate]. cbn in H. injection H as <-.
    apply find_some in F as [I P]. cbn in I. intuition (subst; exact P).
  - intros H. rewrite (find_prefix_unique methods s (method_spelling m, m)); [reflexivity| |destruct m; cbn; auto 10|exact H].
    intros e1 e2 I1 I2. cbn in I1, I2.
    repeat (destruct I1 as [<-|I1]); try contradiction;
    repeat (destruct I2 as [<-|I2]); try contradiction; try reflexivity; vm_compute; intros Q; discriminate Q.
Qed.

Lemma scheme_name_result s : match_scheme_name s = if is_prefix (bs "http") s then Some http else None.
Proof.
  unfold match_scheme_name, schemes. cbn [List.find fst].
  rewrite !strncmp_prefix. destruct (is_prefix (bs "http") s) eqn:H; [reflexivity|].
  destruct (is_prefix (bs "https") s) eqn:H2; [|reflexivity].
  apply is_prefix_spec in H2 as [r ->]. cbn in H. discriminate.
Qed.

Lemma is_fly_scheme_false mem e : is_fly_scheme mem e = Ok false.
Proof. reflexivity. Qed.

(** ** Types and names *)
Lemma method_type_name m : method_name_of_type m = Some (method_spelling m).
Proof. destruct m; reflexivity. Qed.
Lemma scheme_type_name s : scheme_name_of_type s = Some (scheme_spelling s).
Proof. destruct s; reflexivity. Qed.

(** ** ALPN *)
(** The wire format of the client's protocol list (RFC 7301): each name with its length octet. *)
Definition alpn_wire (names : list (list N)) : list N := flat_map (fun n => N.of_nat (length n) :: n) names.

Lemma rdz_nat mem i : rdz mem (Z.of_nat i) = rd mem i.
Proof. unfold rdz. replace (Z.of_nat i <? 0)%Z with false by lia. now rewrite Nat2Z.id. Qed.
Lemma ssl_cmp_spec : forall d1 pre n rest, d1 <> [] -> length n = length d1 ->
  ssl_cmp_loop d1 (pre ++ n ++ rest) (Z.of_nat (length pre)) = Ok (bytes_eqb n d1).
Proof.
  induction d1 as [|y d1 IH]; intros pre n rest Hd L; [contradiction|].
  destruct n as [|x n]; [discriminate|]. cbn [ssl_cmp_loop bytes_eqb]. rewrite rdz_nat. unfold rd.
  rewrite nth_error_app2, Nat.sub_diag by lia. cbn [nth_error app obind].
  destruct (N.eqb_spec x y) as [->|Nxy]; cbn [andb]; [|reflexivity].
  destruct d1 as [|z d1].
  - destruct n; [reflexivity|discriminate].
  - specialize (IH (pre ++ [y]) n rest ltac:(discriminate)). rewrite <- app_assoc in IH. cbn [app] in IH.
    rewrite app_length in IH. cbn [length] in IH. rewrite Nat2Z.inj_add in IH. apply IH. cbn in L |- *. lia.
Qed.

Lemma ssl_alpn_cmp_spec : forall names pre alpn fuel, names <> [] -> alpn <> [] ->
  Forall (fun n => 1 <= length n < 128)%nat names -> (length (alpn_wire names) <= fuel)%nat ->
  ssl_alpn_cmp fuel alpn (pre ++ alpn_wire names) (Z.of_nat (length pre)) = Ok (existsb (fun n => bytes_eqb n alpn) names).
Proof.
  induction names as [|n names IH]; intros pre alpn fuel Hn Ha F Hf; [contradiction|].
  inversion F as [|? ? B F']; subst. cbn [alpn_wire flat_map] in *. fold (alpn_wire names) in *.
  cbn [length app] in Hf. destruct fuel as [|fuel]; [lia|].
  cbn [ssl_alpn_cmp existsb]. rewrite rdz_nat. unfold rd. rewrite nth_error_app2, Nat.sub_diag by lia. cbn [nth_error app obind].
  assert (Hs : schar (N.of_nat (length n)) = Z.of_nat (length n)) by (unfold schar; replace (_ <? _)%N with true by lia; lia).
  rewrite Hs. 
  assert (C : ssl_strcmp alpn (pre ++ N.of_nat (length n) :: n ++ alpn_wire names) (Z.of_nat (length pre) + 1) (Z.of_nat (length n)) = Ok (bytes_eqb n alpn)).
  { unfold ssl_strcmp. destruct (Z.eqb_spec (Z.of_nat (length alpn)) (Z.of_nat (length n))) as [El|Nl].
    - pose proof (ssl_cmp_spec alpn (pre ++ [N.of_nat (length n)]) n (alpn_wire names) Ha ltac:(lia)) as Q.
      rewrite <- app_assoc in Q. cbn [app] in Q. rewrite app_length in Q. cbn [length] in Q. rewrite Nat2Z.inj_add in Q. exact Q.
    - f_equal. symmetry. apply bytes_eqb_neq. intros ->. contradiction. }
  rewrite C. cbn [obind]. destruct (bytes_eqb n alpn); cbn [orb]; [reflexivity|].
  rewrite !app_length. cbn [length]. rewrite app_length.
  destruct names as [|n2 names].
  - replace (_ <=? _)%Z with true by (unfold alpn_wire; cbn [flat_map app length]; lia). reflexivity.
  - replace (_ <=? _)%Z with false by (unfold alpn_wire; cbn [flat_map app length]; lia).
    rewrite app_length in Hf.
    specialize (IH (pre ++ N.of_nat (length n) :: n) alpn fuel ltac:(discriminate) Ha F' ltac:(lia)).
    rewrite <- app_assoc in IH. cbn [app] in IH. rewrite app_length in IH. cbn [length] in IH.
    rewrite <- IH. f_equal. lia.
Qed.

Lemma existsb_In names a : existsb (fun n => bytes_eqb n a) names = true <-> In a names.
Proof.
  rewrite existsb_exists. split.
  - intros (x & I & E). apply bytes_eqb_eq in E. congruence.
  - intros I. exists a. split; [exact I|apply bytes_eqb_refl].
Qed.

Lemma negotiated_spec names : names <> [] -> Forall (fun n => 1 <= length n < 128)%nat names ->
  negotiated (alpn_wire names) = Ok (Some (if existsb (fun n => bytes_eqb n (version_protocol V2)) names then V2 else V1_1)) /\
  ssl_alpn (alpn_wire names) = Ok (List.find (fun p => existsb (fun n => bytes_eqb n p) names) [version_protocol V2; version_protocol V1_1]).
Proof.
  intros Hn F. unfold negotiated, ssl_alpn, versions. cbn [ssl_alpn_loop v_alpn].
  pose proof (ssl_alpn_cmp_spec names [] (bs "h2") (S (length (alpn_wire names))) Hn ltac:(discriminate) F ltac:(lia)) as A1.
  pose proof (ssl_alpn_cmp_spec names [] (bs "http/1.1") (S (length (alpn_wire names))) Hn ltac:(discriminate) F ltac:(lia)) as A2.
  change (Z.of_nat (@length N [])) with 0%Z in A1, A2; cbn [app] in A1, A2. rewrite A1, A2. cbn [List.find version_protocol]. cbn [obind].
  destruct (existsb (fun n => bytes_eqb n (bs "h2")) names); cbn [obind].
  - split; reflexivity.
  - destruct (existsb (fun n => bytes_eqb n (bs "http/1.1")) names); split; reflexivity.
Qed.

(** ** MIME *)
(** Specification: the extension is what follows the last dot. *)
Definition has_ext (name ext : list N) : Prop := exists stem, name = stem ++ 46%N :: ext /\ ~ In 46%N ext.

Lemma after_dot_none s : after_dot s = None <-> ~ In 46%N s.
Proof.
  induction s as [|b s IH]; cbn [after_dot]; [cbn; tauto|].
  destruct (N.eqb_spec b 46) as [->|Nb].
  - split; [discriminate|]. intros H. exfalso. apply H. left; reflexivity.
  - rewrite IH. cbn. split; intros H; [intros [E|E]; auto|auto].
Qed.
Lemma after_dot_some s t : after_dot s = Some t -> exists p, s = p ++ 46%N :: t /\ ~ In 46%N p.
Proof.
  revert t. induction s as [|b s IH]; intros t H; cbn [after_dot] in H; [discriminate|].
  destruct (N.eqb_spec b 46) as [->|Nb].
  - injection H as ->. exists []. split; [reflexivity|intros []].
  - apply IH in H as (p & -> & Hp). exists (b :: p). split; [reflexivity|]. intros [E|E]; auto.
Qed.
Lemma ext_loop_spec : forall fuel s, (length s < fuel)%nat -> exists e, ext_loop fuel s = Ok e /\ ~ In 46%N e /\
  (exists stem, s = stem ++ e /\ (In 46%N s -> exists st', stem = st' ++ [46%N]) /\ (~ In 46%N s -> stem = [])).
Proof.
  induction fuel as [|f IH]; intros s L; [lia|]. cbn [ext_loop].
  destruct s as [|b s].
  - exists []. split; [reflexivity|]. split; [intros []|]. exists []. split; [reflexivity|]. split; [intros []|reflexivity].
  - destruct (after_dot (b :: s)) as [t|] eqn:E.
    + apply after_dot_some in E as (p & E & Hp). rewrite E in L |- *. rewrite app_length in L. cbn [length] in L.
      destruct (IH t ltac:(lia)) as (e & He & Hne & stem & -> & H1 & H2). exists e. split; [exact He|]. split; [exact Hne|].
      exists (p ++ 46%N :: stem). split; [now rewrite <- app_assoc|]. split.
      * intros _. destruct stem as [|x stem] using rev_ind.
        -- exists p. reflexivity.
        -- clear IHstem. destruct (in_dec N.eq_dec 46%N ((stem ++ [x]) ++ e)) as [I|I].
           ++ destruct (H1 I) as (st' & Q). apply app_inj_tail in Q as [-> ->]. exists (p ++ 46%N :: st'). now rewrite <- app_assoc.
           ++ apply H2 in I. destruct stem; discriminate.
      * intros I. exfalso. apply I. apply in_or_app. right. left. reflexivity.
    + apply after_dot_none in E. exists (b :: s). split; [reflexivity|]. split; [exact E|].
      exists []. split; [reflexivity|]. split; [intros I; contradiction|reflexivity].
Qed.
Lemma has_ext_unique name e1 e2 : has_ext name e1 -> has_ext name e2 -> e1 = e2.
Proof.
  intros (s1 & E1 & N1) (s2 & E2 & N2). subst name. revert s2 E2.
  induction s1 as [|a s1 IH]; intros s2 E2; destruct s2 as [|b s2]; cbn in E2.
  - now injection E2.
  - injection E2 as E3 E2. subst. exfalso. apply N1. apply in_or_app. right. left. reflexivity.
  - injection E2 as E3 E2. subst. exfalso. apply N2. apply in_or_app. right. left. reflexivity.
  - injection E2 as E3 E2. apply (IH s2), E2.
Qed.

(** The extensions fly knows (specification, by name). *)
Definition known_type (ext : list N) : option (list N) :=
  if bytes_eqb ext (bs "txt") then Some (bs "text/plain")
  else if bytes_eqb ext (bs "csv") then Some (bs "text/csv")
  else if bytes_eqb ext (bs "html") || bytes_eqb ext (bs "htm") then Some (bs "text/html")
  else if bytes_eqb ext (bs "css") then Some (bs "text/css")
  else if bytes_eqb ext (bs "xml") then Some (bs "text/xml")
  else if bytes_eqb ext (bs "js") then Some (bs "text/javascript")
  else if bytes_eqb ext (bs "rtf") then Some (bs "text/richtext")
  else None.

Lemma bytes_eqb_sym a b : bytes_eqb a b = bytes_eqb b a.
Proof.
  destruct (bytes_eqb a b) eqn:E.
  - apply bytes_eqb_eq in E. subst. symmetry. apply bytes_eqb_refl.
  - apply bytes_eqb_neq in E. symmetry. apply bytes_eqb_neq. congruence.
Qed.
Lemma file_content_type_spec path :
  (forall ext t, has_ext path ext -> known_type ext = Some t -> file_content_type path = Ok t) /\
  (forall ext, has_ext path ext -> known_type ext = None -> file_content_type path = Ok (bs "text/plain")) /\
  (~ In 46%N path -> file_content_type path = Ok (bs "text/plain")).
Proof.
  assert (X : forall ext, has_ext path ext -> mime_from_path path = 
     match List.find (fun m => existsb (fun e => strcmp_eqb e ext) (mt_exts m)) mimes with Some m => Ok (MTable m) | None => Ok MUnknown end).
  { intros ext H. unfold mime_from_path. 
    assert (D : In 46%N path). { destruct H as (st & -> & _). apply in_or_app. right. left. reflexivity. }
    destruct (after_dot path) eqn:E; [|apply after_dot_none in E; contradiction].
    destruct (ext_loop_spec (S (length path)) path ltac:(lia)) as (e & -> & Ne & stem & Es & H1 & _). cbn [obind].
    destruct (H1 D) as (st' & ->). replace ext with e; [reflexivity|].
    apply (has_ext_unique path); [|exact H]. exists st'. split; [rewrite Es, <- app_assoc; reflexivity|exact Ne]. }
  assert (Y : forall ext, has_ext path ext -> file_content_type path = Ok (match known_type ext with Some t => t | None => bs "text/plain" end)).
  { intros ext H. unfold file_content_type. rewrite (X ext H). clear. unfold mimes, known_type, strcmp_eqb.
    cbn [List.find mt_exts existsb]. rewrite !(bytes_eqb_sym _ ext).
    destruct (bytes_eqb ext (bs "txt")); [reflexivity|]. destruct (bytes_eqb ext (bs "csv")); [reflexivity|].
    destruct (bytes_eqb ext (bs "html")); [reflexivity|]. destruct (bytes_eqb ext (bs "htm")); [reflexivity|].
    destruct (bytes_eqb ext (bs "css")); [reflexivity|]. destruct (bytes_eqb ext (bs "xml")); [reflexivity|].
    destruct (bytes_eqb ext (bs "js")); [reflexivity|]. destruct (bytes_eqb ext (bs "rtf")); reflexivity. }
  split; [|split].
  - intros ext t H K. rewrite (Y ext H), K. reflexivity.
  - intros ext H K. rewrite (Y ext H), K. reflexivity.
  - intros H. apply after_dot_none in H. unfold file_content_type, mime_from_path. rewrite H. reflexivity.
Qed.

Definition mime_names : list (list N) :=
  [bs "text/plain"; bs "text/csv"; bs "text/html"; bs "text/css"; bs "text/xml"; bs "text/javascript"; bs "text/richtext";
   bs "application/json"; bs "application/octet_stream"; bs "multipart/form-data"].
Lemma strncmp_full s n : (length s =? length n)%nat && strncmp_eqb (length s) s n = bytes_eqb s n.
Proof.
  revert n. induction s as [|x s IH]; intros [|y n]; cbn [length Nat.eqb strncmp_eqb bytes_eqb andb]; try reflexivity.
  rewrite <- IH. destruct (x =? y)%N; cbn [andb]; [reflexivity|apply andb_false_r].
Qed.
Lemma mime_from_str_spec s : 
  (In s mime_names -> exists m, mime_from_str s = Ok m /\ mt_name m = s) /\
  (~ In s mime_names -> mime_from_str s = UB OutOfBounds).
Proof.
  unfold mime_from_str. rewrite (find_ext _ (fun m => bytes_eqb s (mt_name m))) by (intros; apply strncmp_full).
  split.
  - intros I. cbn in I. repeat (destruct I as [<-|I]; [eexists; split; [vm_compute; reflexivity|reflexivity]|]). contradiction.
  - intros NI. destruct (List.find _ mimes) as [m|] eqn:F; [|reflexivity]. exfalso. apply NI.
    apply find_some in F as [I E]. apply bytes_eqb_eq in E. subst. cbn in I |- *. 
    repeat (destruct I as [<-|I]; [cbn; auto 12|]). contradiction.
Qed.

(** ** Status codes *)
(** Specification: registered reason phrases (RFC 7231 section 6, RFC 7232 section 4.1, RFC 7233 section 4.4, RFC 7235 section 3). *)
Definition rfc_reasons : list (Z * string) :=
  [(100, "Continue"); (101, "Switching Protocols"); (200, "OK"); (201, "Created"); (202, "Accepted");
   (203, "Non-Authoritative Information"); (204, "No Content"); (205, "Reset Content"); (300, "Multiple Choices");
   (301, "Moved Permanently"); (302, "Found"); (303, "See Other"); (304, "Not Modified"); (307, "Temporary Redirect");
   (400, "Bad Request"); (401, "Unauthorized"); (402, "Payment Required"); (403, "Forbidden"); (404, "Not Found");
   (405, "Method Not Allowed"); (406, "Not Acceptable"); (407, "Proxy Authentication Required"); (408, "Request Timeout");
   (409, "Conflict"); (410, "Gone"); (411, "Length Required"); (413, "Payload Too Large"); (414, "URI Too Long");
   (415, "Unsupported Media Type"); (416, "Range Not Satisfiable"); (417, "Expectation Failed"); (426, "Upgrade Required");
   (500, "Internal Server Error"); (501, "Not Implemented"); (502, "Bad Gateway"); (503, "Service Unavailable");
   (504, "Gateway Timeout"); (505, "HTTP Version Not Supported")]%Z%string.
Definition outcome_beq (a b : outcome (option (list N))) : bool :=
  match a, b with Ok (Some x), Ok (Some y) => bytes_eqb x y | _, _ => false end.
Definition code_digits (c : Z) : list N := [48 + Z.to_N (c / 100); 48 + Z.to_N (c / 10 mod 10); 48 + Z.to_N (c mod 10)]%N.
Definition spec_line (c : Z) (r : string) : list N := bs "HTTP/1.1 " ++ code_digits c ++ bs " " ++ bs r ++ [13%N; 10%N].

Definition bad_codes : list Z := [410; 411; 505]%Z.
Lemma status_lines c r : In (c, r) rfc_reasons -> ~ In c bad_codes ->
  app_status_line c = Ok (Some (spec_line c r)) /\ app_status_v2 c = Ok (code_digits c).
Proof.
  intros I NB. 
  assert (K : forallb (fun p => existsb (Z.eqb (fst p)) bad_codes ||
      (outcome_beq (app_status_line (fst p)) (Ok (Some (spec_line (fst p) (snd p)))) &&
       match app_status_v2 (fst p) with Ok s => bytes_eqb s (code_digits (fst p)) | UB _ => false end)) rfc_reasons = true)
    by (vm_compute; reflexivity).
  rewrite forallb_forall in K. specialize (K _ I). cbn [fst snd] in K. apply orb_true_iff in K as [K|K].
  - exfalso. apply NB. apply existsb_exists in K as (x & Hx & E). apply Z.eqb_eq in E. now subst.
  - apply andb_true_iff in K as [K1 K2]. split.
    + unfold outcome_beq in K1. destruct (app_status_line c) as [[x|]|]; try discriminate. apply bytes_eqb_eq in K1. now subst.
    + destruct (app_status_v2 c); [|discriminate]. apply bytes_eqb_eq in K2. now subst.
Qed.
Lemma type_from_long_unknown l : (forall r, ~ In (l, r) rfc_reasons) -> type_from_long l = SInvalid.
Proof.
  intros H. unfold type_from_long. destruct (List.find _ responses) as [r|] eqn:F; [|reflexivity]. exfalso.
  apply find_some in F as [I E]. apply Z.eqb_eq in E. subst l.
  assert (K : forallb (fun r => existsb (fun p => fst p =? sr_code r)%Z rfc_reasons) responses = true) by (vm_compute; reflexivity).
  rewrite forallb_forall in K. specialize (K r I). apply existsb_exists in K as ([c s] & Hx & E). apply Z.eqb_eq in E. cbn in E. subst c.
  apply (H s), Hx.
Qed.
