From Verif Require Import Base CStr Names Status CNum Header HeaderProofs Buffer BufferProofs Encode EncodeProofs Response.
From Verif Require AcceptEnc.

(** ** Specification *)
(** A message on the wire: status line, one line per field, an empty line, the content. *)
Definition wire (sl : list N) (fs : list (list N * list N)) (content : list N) : list N :=
  sl ++ flat_map (fun p => fst p ++ bs ": " ++ snd p ++ [13; 10]%N) fs ++ [13; 10]%N ++ content.
(** What the response is about, before any coding. *)
Definition payload (r : response) : list N :=
  match r_body r with Some b => b | None => match r_pf r with Some f => f_data f | None => [] end end.
(** The coding of a file stored encoded. *)
Definition stored_de (r : response) : option de := match r_body r with Some _ => None | None => match r_pf r with Some f => f_de f | None => None end end.
(** The coding of the content as negotiated. *)
Definition coding_used (v : renv) (r : response) : option AcceptEnc.coding :=
  if r_dont r then None
  else match v_accept v with
       | None => None
       | Some (l, d) => AcceptEnc.response_coding l d (option_map d_coding (stored_de r)) (v_threshold v <=? length (payload r))
       end.
Definition coded (enc : AcceptEnc.coding -> list N -> list N) (c : option AcceptEnc.coding) (d : list N) : list N :=
  match c with
  | None => d
  | Some c => match AcceptEnc.c_type c with AcceptEnc.EIdentity => d | _ => enc c d end
  end.
(** The fields of the response before the coding is known. *)
Inductive given_fields (v : renv) (r : response) : list (list N * list N) -> Prop :=
| gf_plain : (r_body r <> None \/ r_pf r <> None \/ v_default v (r_code r) = None) -> given_fields v r (entries (r_header r))
| gf_default size mime fs : r_body r = None -> r_pf r = None -> v_default v (r_code r) = Some (size, mime) ->
    edit_effect (EAddIfno (bs "Content-Type") mime) (entries (r_header r) ++ [(bs "Content-Length", dec (N.of_nat size))]) fs -> given_fields v r fs.
(** The fields sent: Content-Encoding is added, Content-Length replaced or added. *)
Definition final_fields (v : renv) (r : response) (c : option AcceptEnc.coding) (n : nat) (fs : list (list N * list N)) : Prop :=
  exists fs0, given_fields v r fs0 /\
    edit_effect (EAddModify (bs "Content-Length") (dec (N.of_nat n)))
      (fs0 ++ match c with Some c => [(bs "Content-Encoding", enc_name c)] | None => [] end) fs.
(** The connection is kept unless the first field named Connection says something else than
    keep-alive. *)
Definition conn_value (fs : list (list N * list N)) : option (list N) :=
  option_map snd (List.find (fun p => bytes_eqb (fst p) (bs "Connection")) fs).
Definition fate_of (fs : list (list N * list N)) : fate :=
  match conn_value fs with
  | None => FKeep
  | Some [] => FKeep
  | Some v => if bytes_eqb v (bs "keep-alive") then FKeep else FClose
  end.

(** Values are C strings, and an absent value is a null pointer (__fly_header_add, header.c:69-97). *)
Definition values_ok (h : hci) : Prop := Forall (fun x => match h_value x with Some v => v <> [] /\ no_nul v | None => True end) (hc_chain h).

(** The environment and the response are as the server makes them. *)
Record sane (v : renv) (enc : AcceptEnc.coding -> list N -> list N) (r : response) : Prop := {
  sn_codec : forall c, lawful (v_codec v c) (enc c);
  sn_header : hwf (r_header r);
  sn_values : values_ok (r_header r);
  sn_default : forall c n m, v_default v c = Some (n, m) -> no_nul m;
  sn_one : r_body r = None \/ r_pf r = None;
  sn_file : forall f, r_pf r = Some f -> r_count r = length (f_data f) /\ f_size f = length (f_data f);
  sn_stored : forall d, stored_de r = Some d -> v_threshold v <= length (payload r) /\ r_dont r = false /\
    (d_over d = true \/ (wf (d_buf d) /\ stream (d_buf d) = enc (d_coding d) (payload r) /\ d_contlen d = length (stream (d_buf d)) /\
       AcceptEnc.c_type (d_coding d) <> AcceptEnc.EIdentity));
  sn_accept : v_accept v = None -> r_dont r = true \/ (length (payload r) < v_threshold v /\ stored_de r = None) }.
(** What the encoders can do (EncodeProofs). *)
Definition encodable (v : renv) (enc : AcceptEnc.coding -> list N -> list N) (r : response) (c : AcceptEnc.coding) : Prop :=
  match AcceptEnc.c_type c with
  | AcceptEnc.EIdentity => r_body r <> None
  | AcceptEnc.EGzip => length (enc c (payload r)) < encbuf_chain_max (v_max v) * PER /\ (r_body r <> None \/ r_pf r <> None)
  | AcceptEnc.EDeflate => length (enc c (payload r)) < PER /\ r_body r <> None
  | AcceptEnc.EBr => length (enc c (payload r)) < PER /\ (r_body r <> None \/ r_pf r <> None)
  | AcceptEnc.EAsterisk => False
  end.
(** The file is stored in a coding the client accepts. *)
Definition stored_used (v : renv) (r : response) : option de :=
  match stored_de r, v_accept v with Some d, Some (l, _) => if AcceptEnc.matching l (d_coding d) then Some d else None | _, _ => None end.
Definition deliverable (v : renv) (enc : AcceptEnc.coding -> list N -> list N) (r : response) : Prop :=
  match stored_used v r with
  | Some d => d_over d = false
  | None => match coding_used v r with Some c => encodable v enc r c | None => stored_de r = None end
  end.

(** ** Layout *)
Lemma hdr_line_len h : length (hdr_line h) = hdr_len h.
Proof.
  unfold hdr_line, hdr_len, h_nlen, h_vlen. rewrite !app_length. change (length (bs ": ")) with 2. change (length CRLF_) with 2.
  destruct (h_name h), (h_value h); cbn [length]; lia.
Qed.
Lemma lines_length h : length (lines h) = lines_len h.
Proof.
  unfold lines, lines_len. destruct (hc_count h =? 0); [reflexivity|].
  induction (hc_chain h) as [|x t IH]; [reflexivity|]. cbn [flat_map fold_right]. rewrite app_length, IH, hdr_line_len. reflexivity.
Qed.
Lemma lines_entries h : hwf h -> lines h = flat_map (fun p => fst p ++ bs ": " ++ snd p ++ [13; 10]%N) (entries h).
Proof.
  intros (_ & C). unfold lines, entries. rewrite C. destruct (hc_chain h) as [|x t] eqn:E; [reflexivity|].
  change (length (x :: t) =? 0) with false. cbv iota. generalize (x :: t). intros l. clear.
  induction l as [|y l IH]; [reflexivity|]. cbn [flat_map map]. rewrite IH. reflexivity.
Qed.
Lemma layout_exact v r y sl c : status_line (r_version r) (r_code r) = Ok (Some sl) -> hwf (y_header y) ->
  content_bytes r y = Ok c -> length c = y_len y -> layout v r y = Ok (Some (wire sl (entries (y_header y)) c)).
Proof.
  intros S H C L. unfold layout. rewrite S. cbn [obind]. rewrite C. cbn [obind]. rewrite !app_length, lines_length. change (length CRLF_) with 2.
  replace (length sl + lines_len (y_header y) + 2 + y_len y) with (length sl + (lines_len (y_header y) + (2 + length c))) by lia.
  rewrite Nat.ltb_irrefl, Nat.sub_diag. unfold fresh. cbn [firstn]. rewrite app_nil_r. rewrite (lines_entries _ H). reflexivity.
Qed.

(** ** Writing *)
Lemma write_done p t : write p (length p) t = ([], Done, t).
Proof. destruct t; cbn [write]; rewrite Nat.leb_refl; reflexivity. Qed.
Lemma write_blocks p n k ios : 0 < length p <= n -> write p 0 (repeat Blocked k ++ Took n :: ios) = (p, Done, ios).
Proof.
  intros H. induction k as [|k IH]; cbn [repeat app write].
  - replace (length p <=? 0) with false by lia. rewrite Nat.sub_0_r, Nat.min_r by lia. cbn [Nat.add].
    rewrite write_done, firstn_all, app_nil_r. reflexivity.
  - replace (length p <=? 0) with false by lia. exact IH.
Qed.
(** Whatever send takes, every piece it is given is a beginning of the message. *)
Lemma write_prefixes p ios : forall total, exists ns, fst (fst (write p total ios)) = flat_map (fun n => firstn n p) ns.
Proof.
  induction ios as [|o t IH]; intros total; cbn [write]; destruct (length p <=? total); try (exists []; reflexivity).
  destruct o; try (exists []; reflexivity).
  - destruct (IH (total + Nat.min n (length p - total))) as (ns & E).
    destruct (write p (total + Nat.min n (length p - total)) t) as ((w, s), t'). cbn [fst] in *.
    exists (Nat.min n (length p - total) :: ns). cbn [flat_map]. rewrite E. reflexivity.
  - apply IH.
Qed.
(** Two sends: the second one repeats the beginning. *)
Lemma write_two p n ios : 0 < n < length p -> write p 0 (Took n :: Took (length p) :: ios) = (firstn n p ++ firstn (length p - n) p, Done, ios).
Proof.
  intros H. cbn [write]. replace (length p <=? 0) with false by lia. rewrite Nat.sub_0_r, Nat.min_l by lia. cbn [Nat.add].
  replace (length p <=? n) with false by lia. rewrite Nat.min_r by lia. replace (n + (length p - n)) with (length p) by lia.
  rewrite write_done, app_nil_r. reflexivity.
Qed.
Lemma write_split_corrupts p a b q ios : p = a :: b :: q -> a <> b ->
  fst (fst (write p 0 (Took 1 :: Took (length p) :: ios))) <> p.
Proof.
  intros -> D. rewrite write_two by (cbn [length]; lia). cbn [fst firstn app]. intros E.
  destruct (length (a :: b :: q) - 1) as [|m] eqn:X; [cbn [length] in X; lia|]. cbn [firstn] in E. congruence.
Qed.

(** ** The header *)
Definition hok (h : hci) : Prop := hwf h /\ values_ok h.
Lemma dec_ok n : dec n <> [] /\ no_nul (dec n).
Proof.
  destruct (dec_spec n) as (D & _ & d & t & E & _). split; [rewrite E; discriminate|].
  unfold no_nul. eapply Forall_impl; [|exact D]. intros a A ->. discriminate.
Qed.
Lemma hok_add h n v : hok h -> edit_name n -> no_nul v -> hok (header_add h n v) /\ entries (header_add h n v) = entries h ++ [(n, v)].
Proof.
  intros (W & V) E Z. destruct (add0_wf h n v false W E) as (A & B). split; [|exact B]. split; [exact A|].
  unfold values_ok, header_add, header_add0. cbn [hc_chain]. apply Forall_app. split; [exact V|]. constructor; [|constructor].
  unfold new_hdr. cbn [h_value]. destruct v; [exact Logic.I|]. split; [discriminate|exact Z].
Qed.
Lemma hok_ifno h n v : hok h -> edit_name n -> no_nul v ->
  exists h', header_add_ifno h n v = Ok h' /\ hok h' /\ edit_effect (EAddIfno n v) (entries h) (entries h').
Proof.
  intros (W & V) E Z. destruct (edit_ok h (EAddIfno n v) W E) as (h' & D & W' & EF). cbn [do_edit] in D. exists h'. split; [exact D|]. split; [|exact EF]. split; [exact W'|].
  unfold header_add_ifno in D. destruct (find_name (hc_chain h) n 0) as [[i|]|]; cbn [obind] in D; [injection D as <-; exact V| |discriminate].
  injection D as <-. apply (hok_add h n v (conj W V) E Z).
Qed.
Lemma set_value_ok l v : v <> [] -> no_nul v -> forall i, Forall (fun x => match h_value x with Some v => v <> [] /\ no_nul v | None => True end) l ->
  Forall (fun x => match h_value x with Some v => v <> [] /\ no_nul v | None => True end) (set_value l i v).
Proof.
  intros NE Z. induction l as [|x l IH]; intros i F; [destruct i; constructor|]. inversion F as [|? ? F1 F2]; subst. destruct i; cbn [set_value]; constructor; auto.
  cbn [h_value]. auto.
Qed.
Lemma hok_len h n : hok h ->
  exists h', set_content_length h n = Ok h' /\ hok h' /\ edit_effect (EAddModify (bs "Content-Length") (dec (N.of_nat n))) (entries h) (entries h').
Proof.
  intros (W & V). assert (EN : edit_name (bs "Content-Length")) by (split; [discriminate|apply no_nulb_ok; reflexivity]).
  destruct (edit_ok h (EAddModify (bs "Content-Length") (dec (N.of_nat n))) W EN) as (h' & D & W' & EF). cbn [do_edit] in D.
  exists h'. split; [exact D|]. split; [|exact EF]. split; [exact W'|]. destruct (dec_ok (N.of_nat n)) as (D1 & D2).
  unfold header_addmodify in D. destruct (find_name (hc_chain h) (bs "Content-Length") 0) as [[i|]|]; cbn [obind] in D; [| |discriminate]; injection D as <-.
  - apply set_value_ok; assumption.
  - apply (hok_add h _ _ (conj W V) EN D2).
Qed.
Lemma find_first n a v c : ~ named n (map entry a) -> List.find (fun p => bytes_eqb (fst p) n) (map entry a ++ (n, v) :: c) = Some (n, v).
Proof.
  intros NA. induction a as [|x a IH]; cbn [map app List.find fst]; [rewrite bytes_eqb_refl; reflexivity|].
  destruct (bytes_eqb (fst (entry x)) n) eqn:E; [exfalso; apply NA; left; apply bytes_eqb_eq, E|]. apply IH. intros Q. apply NA. right. exact Q.
Qed.
Lemma find_absent n l : ~ named n l -> List.find (fun p => bytes_eqb (fst p) n) l = None.
Proof.
  intros NA. induction l as [|x a IH]; cbn [List.find]; [reflexivity|].
  destruct (bytes_eqb (fst x) n) eqn:E; [exfalso; apply NA; left; apply bytes_eqb_eq, E|]. apply IH. intros Q. apply NA. right. exact Q.
Qed.
Lemma keep_fate h : hok h -> obind (connection_keep h) (fun k => Ok (if k then FKeep else FClose)) = Ok (fate_of (entries h)).
Proof.
  intros ((F & C) & V). unfold connection_keep, fate_of, conn_value, entries. rewrite C.
  destruct (length (hc_chain h) =? 0) eqn:Z.
  { destruct (hc_chain h); [reflexivity|discriminate]. }
  destruct (find_name_spec (hc_chain h) (bs "Connection") F 0) as [(a & x & c & E & HN & NA & R)|(NA & R)]; rewrite R; cbn [obind].
  - rewrite E. cbn [Nat.add]. rewrite nth_error_app2, Nat.sub_diag by lia. cbn [nth_error]. rewrite map_app. cbn [map].
    replace (entry x) with (bs "Connection", snd (entry x)) by (unfold entry; rewrite HN; reflexivity).
    rewrite (find_first _ _ _ _ NA). cbn [option_map snd]. unfold values_ok in V. rewrite E in V. apply Forall_app in V as (_ & V). inversion V as [|? ? V1 _]; subst.
    unfold entry. destruct x as [xn [xv|]]; cbn [h_value snd] in *; [|reflexivity]. destruct V1 as (V1 & V2). rewrite (cstr_no_nul _ V2).
    unfold strcmp_eqb. destruct xv; [contradiction|]. reflexivity.
  - rewrite (find_absent _ _ NA). reflexivity.
Qed.

(** ** The content *)
Lemma PER_pos : 0 < PER. Proof. unfold PER. lia. Qed.
Lemma memcpy_all b : wf b -> match b_chains b with [] => UB OutOfBounds | c :: _ => memcpy b (0, c_use c) 0 (length (stream b)) end = Ok (stream b).
Proof.
  intros W. pose proof W as (W0 & _). pose proof (ptr_at_0 _ _ _ W0) as P. destruct (b_chains b) as [|c t] eqn:E; [contradiction|]. rewrite <- E in P.
  rewrite (memcpy_spec b 0 0 (c_use c) (length (stream b)) W P) by lia. cbn [skipn]. rewrite firstn_all. reflexivity.
Qed.
Lemma encoder_ok v enc r c : (forall c, lawful (v_codec v c) (enc c)) -> (r_body r = None \/ r_pf r = None) -> encodable v enc r c -> AcceptEnc.c_type c <> AcceptEnc.EIdentity ->
  exists src b, (match r_pf r with Some f => Some (FromFile (f_data f)) | None => match r_body r with Some b => Some (FromBody b) | None => None end end) = Some src /\
    run_encode v c src = Ok (EOk b (length (enc c (payload r)))) /\ wf b /\ stream b = enc c (payload r).
Proof.
  intros L ONE EN NI. unfold encodable in EN. unfold run_encode, kind_of.
  pose proof PER_pos as PP. assert (MX : 0 < encbuf_chain_max (v_max v)) by (unfold encbuf_chain_max; apply Nat.lt_0_succ).
  assert (J : length (fresh PER (v_junk v)) = PER) by apply fresh_length.
  assert (SRC : (r_body r <> None \/ r_pf r <> None) -> exists src, (match r_pf r with Some f => Some (FromFile (f_data f)) | None => match r_body r with Some b => Some (FromBody b) | None => None end end) = Some src /\ source_data src = payload r).
  { intros X. unfold payload. destruct (r_body r), (r_pf r); try (destruct ONE; discriminate); try (eexists; split; reflexivity). destruct X; contradiction. }
  destruct (AcceptEnc.c_type c); try contradiction.
  - destruct EN as (LT & X). destruct (SRC X) as (src & E & D). exists src. rewrite <- D in *.
    pose proof (gzip_exact _ _ PER (encbuf_chain_max (v_max v)) _ src (L c) PP MX J) as G.
    apply Nat.ltb_lt in LT. rewrite LT in G. destruct G as (b & G). exists b. split; [exact E|exact G].
  - destruct EN as (LT & X). destruct (r_body r) as [d|] eqn:B; [|contradiction]. destruct ONE as [ONE|ONE]; [discriminate|]. rewrite ONE.
    unfold payload in *. rewrite B in *. destruct (deflate_small _ _ PER (encbuf_chain_max (v_max v)) _ d (L c) PP MX J LT) as (b & G).
    exists (FromBody d), b. split; [reflexivity|exact G].
  - destruct EN as (LT & X). destruct (SRC X) as (src & E & D). exists src. rewrite <- D in *.
    destruct (br_small _ _ PER (encbuf_chain_max (v_max v)) _ src (L c) PP MX J LT) as (b & G). exists b. split; [exact E|exact G].
Qed.
Lemma enc_name_ok c : no_nul (enc_name c).
Proof. apply no_nulb_ok. unfold enc_name. destruct (AcceptEnc.c_type c); reflexivity. Qed.
Lemma add_default_ok v enc r : sane v enc r -> exists h, add_default v r = Ok h /\ hok h /\ given_fields v r (entries h).
Proof.
  intros S. assert (H : hok (r_header r)) by (split; [apply (sn_header _ _ _ S)|apply (sn_values _ _ _ S)]).
  unfold add_default. destruct (r_body r) as [b|] eqn:B.
  { exists (r_header r). split; [reflexivity|]. split; [exact H|]. apply gf_plain. left. rewrite B. discriminate. }
  destruct (r_pf r) as [f|] eqn:P.
  { exists (r_header r). split; [reflexivity|]. split; [exact H|]. apply gf_plain. right. left. rewrite P. discriminate. }
  destruct (v_default v (r_code r)) as [(size, mime)|] eqn:D.
  - destruct (hok_add (r_header r) (bs "Content-Length") (dec (N.of_nat size)) H) as (H1 & E1);
      [split; [discriminate|apply no_nulb_ok; reflexivity]|apply dec_ok|].
    destruct (hok_ifno _ (bs "Content-Type") mime H1) as (h & E & H2 & EF);
      [split; [discriminate|apply no_nulb_ok; reflexivity]|apply (sn_default _ _ _ S _ _ _ D)|].
    exists h. split; [exact E|]. split; [exact H2|]. rewrite E1 in EF. eapply gf_default; eassumption.
  - exists (r_header r). split; [reflexivity|]. split; [exact H|]. apply gf_plain. auto.
Qed.
Lemma named_coding h c : hok h -> hok (header_add h (bs "Content-Encoding") (enc_name c)) /\
  entries (header_add h (bs "Content-Encoding") (enc_name c)) = entries h ++ [(bs "Content-Encoding", enc_name c)].
Proof. intros H. apply hok_add; [exact H|split; [discriminate|apply no_nulb_ok; reflexivity]|apply enc_name_ok]. Qed.
(** Preparing a deliverable response. *)
Definition prepares (v : renv) (r : response) (content : list N) : Prop :=
  exists y, prepare v r = Ok (PSend y) /\ hok (y_header y) /\ final_fields v r (coding_used v r) (length content) (entries (y_header y)) /\
    content_bytes r y = Ok content /\ length content = y_len y /\
    (y_type y = TEncoded -> exists d, y_de y = Some d /\ wf (d_buf d) /\ stream (d_buf d) = content).
Lemma plain_type r : stored_de r = None -> s_type (begin r) <> TEncoded.
Proof. unfold stored_de, begin. destruct (r_body r); [discriminate|]. destruct (r_pf r) as [f|]; [|discriminate]. intros ->. discriminate. Qed.
Lemma plain_content r h : (forall f, r_pf r = Some f -> r_count r = length (f_data f) /\ f_size f = length (f_data f)) -> stored_de r = None ->
  s_encoded (begin r) = false /\ s_de (begin r) = None /\ s_len (begin r) = length (payload r) /\
  content_bytes r (mkReady h (s_type (begin r)) (s_len (begin r)) None) = Ok (payload r).
Proof.
  intros F SD. unfold stored_de in SD. unfold begin, payload, content_bytes. destruct (r_body r) as [b|] eqn:B; [cbn; auto|].
  destruct (r_pf r) as [f|] eqn:P; [|cbn; auto]. rewrite SD. cbn. destruct (F f eq_refl) as (-> & _). rewrite firstn_all. auto.
Qed.
Lemma prepare_ok v enc r : sane v enc r -> deliverable v enc r -> prepares v r (coded enc (coding_used v r) (payload r)).
Proof.
  intros S D. destruct (add_default_ok v enc r S) as (h & AD & H & GF). unfold prepares, prepare. rewrite AD. cbn [obind].
  assert (PLAIN : coding_used v r = None -> stored_de r = None -> forall s, s_type s = s_type (begin r) -> s_len s = s_len (begin r) -> s_de s = None ->
    exists y, obind (set_content_length h (s_len s)) (fun h => Ok (PSend (mkReady h (s_type s) (s_len s) (s_de s)))) = Ok (PSend y) /\ hok (y_header y) /\
      final_fields v r (coding_used v r) (length (coded enc (coding_used v r) (payload r))) (entries (y_header y)) /\
      content_bytes r y = Ok (coded enc (coding_used v r) (payload r)) /\ length (coded enc (coding_used v r) (payload r)) = y_len y /\
      (y_type y = TEncoded -> exists d, y_de y = Some d /\ wf (d_buf d) /\ stream (d_buf d) = coded enc (coding_used v r) (payload r))).
  { intros CU SD s T1 T2 T3. rewrite CU. cbn [coded]. rewrite T1, T2, T3.
    destruct (hok_len h (s_len (begin r)) H) as (h' & E & H' & EF). rewrite E. cbn [obind]. eexists. split; [reflexivity|]. cbn [y_header y_len].
    destruct (plain_content r h' (sn_file _ _ _ S) SD) as (_ & _ & L & C). split; [exact H'|]. split; [|split; [exact C|split; [symmetry; exact L|]]]; [|intros Q; elim (plain_type r SD Q)].
    exists (entries h). split; [exact GF|]. rewrite app_nil_r, <- L. exact EF. }
  destruct (r_dont r) eqn:DE.
  { assert (SD : stored_de r = None) by (destruct (stored_de r) as [d|] eqn:X; [destruct (sn_stored _ _ _ S d X) as (_ & Q & _); congruence|reflexivity]).
    destruct (plain_content r h (sn_file _ _ _ S) SD) as (_ & DN & _ & _). apply PLAIN; try assumption; try reflexivity. unfold coding_used. rewrite DE. reflexivity. }
  unfold deliverable, stored_used in D. pose proof (sn_stored _ _ _ S) as ST. pose proof (sn_accept _ _ _ S) as SA.
  destruct (stored_de r) as [d|] eqn:SD.
  - (* a file stored encoded *)
    destruct (ST d eq_refl) as (TH & _ & ENC). assert (B : r_body r = None) by (unfold stored_de in SD; destruct (r_body r); [discriminate|reflexivity]).
    unfold stored_de in SD. rewrite B in SD. destruct (r_pf r) as [f|] eqn:P; [|discriminate].
    assert (BG : begin r = mkStart TEncoded (d_contlen d) (f_size f) (Some d) true (Some (d_coding d))) by (unfold begin; rewrite B, P, SD; reflexivity).
    assert (SDE : stored_de r = Some d) by (unfold stored_de; rewrite B, P; exact SD).
    assert (PF : payload r = f_data f) by (unfold payload; rewrite B, P; reflexivity).
    destruct (sn_file _ _ _ S f P) as (CNT & SZ).
    destruct (v_accept v) as [(l, dd)|] eqn:VA; [|destruct (SA eq_refl) as [X|(X & _)]; [congruence|lia]].
    rewrite BG. unfold check_match. cbn [s_encoded s_coding]. rewrite VA. cbn [obind].
    unfold coding_used in *. rewrite DE, VA, SDE in *. cbn [option_map AcceptEnc.response_coding] in *.
    destruct (AcceptEnc.matching l (d_coding d)) eqn:M.
    + (* accepted as stored *)
      unfold choose. cbn [s_encoded s_coding obind fst snd]. unfold encode_content. cbn [s_encoded s_coding s_de s_type s_len]. rewrite D.
      destruct ENC as [X|(W & STR & CL & NI)]; [congruence|].
      destruct (named_coding h (d_coding d) H) as (H1 & E1). destruct (hok_len _ (d_contlen d) H1) as (h' & E & H' & EF). rewrite E. cbn [obind].
      eexists. split; [reflexivity|]. cbn [y_header y_len].
      assert (CC : coded enc (Some (d_coding d)) (payload r) = stream (d_buf d)) by (unfold coded; rewrite STR; destruct (AcceptEnc.c_type (d_coding d)); try reflexivity; contradiction).
      rewrite CC, <- CL. split; [exact H'|]. split; [exists (entries h); split; [exact GF|]; rewrite <- E1; exact EF|]. split; [|split; [reflexivity|intros _; exists d; auto]].
      unfold content_bytes. cbn [y_type y_de y_len]. rewrite CL. apply memcpy_all, W.
    + replace (v_threshold v <=? length (payload r)) with true in * by (symmetry; apply Nat.leb_le, TH).
      unfold choose. cbn [s_encoded s_len s_type s_orig s_de]. replace (v_threshold v <=? f_size f) with true by (symmetry; apply Nat.leb_le; rewrite SZ, <- PF; exact TH).
      rewrite VA. cbn [obind fst snd]. destruct (AcceptEnc.decided_type dd) as [c|] eqn:DT; [|discriminate].
      unfold encode_content. cbn [s_encoded s_coding s_orig].
      assert (NI : AcceptEnc.c_type c <> AcceptEnc.EIdentity) by (intros Q; unfold encodable in D; rewrite Q in D; contradiction).
      destruct (encoder_ok v enc r c (sn_codec _ _ _ S) (sn_one _ _ _ S) D NI) as (src & b & E1 & E2 & W & STR). rewrite P in E1. injection E1 as <-. rewrite P.
      destruct (named_coding h c H) as (H1 & EH). destruct (hok_len _ (length (enc c (payload r))) H1) as (h' & EL & H' & EF).
      assert (CC : coded enc (Some c) (payload r) = enc c (payload r)) by (unfold coded; destruct (AcceptEnc.c_type c); try reflexivity; contradiction).
      exists (mkReady h' TEncoded (length (enc c (payload r))) (Some (mkDe c b (length (enc c (payload r))) false))).
      split; [destruct (AcceptEnc.c_type c); try contradiction; rewrite E2; cbn [obind s_de d_over d_contlen s_type s_len]; rewrite EL; reflexivity|].
      rewrite CC. cbn [y_header y_len]. split; [exact H'|]. split; [exists (entries h); split; [exact GF|]; rewrite <- EH; exact EF|]. split; [|split; [reflexivity|intros _; eexists; split; [reflexivity|]; cbn [d_buf]; auto]].
      unfold content_bytes. cbn [y_type y_de y_len d_buf]. rewrite <- STR. apply memcpy_all, W.
  - (* not stored encoded *)
    destruct (plain_content r h (sn_file _ _ _ S) SD) as (EN & DN & LEN & _).
    unfold check_match. rewrite EN. cbn [obind]. unfold choose. rewrite EN, LEN.
    destruct (v_threshold v <=? length (payload r)) eqn:TH.
    + destruct (v_accept v) as [(l, dd)|] eqn:VA; [|destruct (SA eq_refl) as [X|(X & _)]; [congruence|apply Nat.leb_le in TH; lia]].
      unfold coding_used in *. rewrite DE, VA, SD, TH in *. cbn [option_map AcceptEnc.response_coding obind fst snd] in *.
      destruct (AcceptEnc.decided_type dd) as [c|] eqn:DT.
      * destruct (named_coding h c H) as (H1 & EH). unfold encode_content. cbn [s_encoded s_coding s_len s_de s_orig].
        destruct (AcceptEnc.c_type c) eqn:CT.
        all: try (assert (NI : AcceptEnc.c_type c <> AcceptEnc.EIdentity) by (rewrite CT; discriminate);
          destruct (encoder_ok v enc r c (sn_codec _ _ _ S) (sn_one _ _ _ S) D NI) as (src & b & E1 & E2 & W & STR);
          destruct (hok_len _ (length (enc c (payload r))) H1) as (h' & EL & H' & EF);
          rewrite E1, E2; cbn [obind s_de d_over d_contlen s_type s_len]; rewrite EL; eexists; split; [reflexivity|];
          assert (CC : coded enc (Some c) (payload r) = enc c (payload r)) by (unfold coded; rewrite CT; reflexivity);
          rewrite CC; cbn [y_header y_len]; split; [exact H'|]; split; [exists (entries h); split; [exact GF|]; rewrite <- EH; exact EF|]; split; [|split; [reflexivity|intros _; eexists; split; [reflexivity|]; cbn [d_buf]; auto]];
          unfold content_bytes; cbn [y_type y_de y_len d_buf]; rewrite <- STR; apply memcpy_all, W).
        (* identity *)
        unfold encodable in D. rewrite CT in D. destruct (r_body r) as [b|] eqn:B; [|contradiction].
        assert (PB : payload r = b) by (unfold payload; rewrite B; reflexivity).
        rewrite ?EN, ?LEN, ?DN. destruct (hok_len _ (length (payload r)) H1) as (h' & EL & H' & EF). rewrite EL. cbn [obind]. eexists. split; [reflexivity|].
        assert (CC : coded enc (Some c) (payload r) = payload r) by (unfold coded; rewrite CT; reflexivity). rewrite CC. cbn [y_header y_len].
        split; [exact H'|]. split; [exists (entries h); split; [exact GF|]; rewrite <- EH; exact EF|]. split; [|split; [reflexivity|discriminate]].
        unfold content_bytes. cbn [y_type]. rewrite B, PB. reflexivity.
      * unfold encode_content. cbn [s_encoded s_coding s_len s_de s_type]. rewrite ?EN, ?DN.
        specialize (PLAIN eq_refl eq_refl (begin r) eq_refl eq_refl DN). rewrite DN in PLAIN. rewrite ?LEN in *. exact PLAIN.
    + assert (CU : coding_used v r = None) by (unfold coding_used; rewrite DE, SD, TH; destruct (v_accept v) as [(l, dd)|]; reflexivity).
      unfold encode_content. cbn [obind fst snd s_encoded s_coding s_len s_de s_type]. rewrite ?EN, ?DN.
      specialize (PLAIN CU eq_refl (begin r) eq_refl eq_refl DN). rewrite DN in PLAIN. rewrite ?LEN in *. exact PLAIN.
Qed.

(** ** The whole event *)
Lemma status_line_HT ve c sl : status_line ve c = Ok (Some sl) -> exists q, sl = 72%N :: 84%N :: q.
Proof. destruct ve, c; intros E; vm_compute in E; first [discriminate E|injection E as <-; eexists; reflexivity]. Qed.
Definition able (v : renv) (enc : AcceptEnc.coding -> list N -> list N) (r : response) (sl : list N) : Prop :=
  sane v enc r /\ deliverable v enc r /\ r_back r = false /\ status_line (r_version r) (r_code r) = Ok (Some sl).
Lemma event_ok v enc r sl f : able v enc r sl ->
  exists fs, final_fields v r (coding_used v r) (length (coded enc (coding_used v r) (payload r))) fs /\
    forall ios, response_event (S f) v r ios =
      match write (wire sl fs (coded enc (coding_used v r) (payload r))) 0 ios with
      | (w, Done, _) => Ok (w, fate_of fs) | (w, Waiting, _) => Ok (w, FWait) | (w, Lost, _) => Ok (w, FClose) | (w, Failed, _) => Ok (w, FError)
      end.
Proof.
  intros (S & D & B & SL). destruct (prepare_ok v enc r S D) as (y & P & H & FF & C & L & _). exists (entries (y_header y)). split; [exact FF|].
  intros ios. cbn [response_event]. rewrite P. cbn [obind]. rewrite (layout_exact v r y sl _ SL (proj1 H) C L). cbn [obind]. unfold send_ready, after.
  destruct (write _ 0 ios) as ((w, s), t). destruct s; try reflexivity. rewrite B. rewrite (keep_fate _ H). reflexivity.
Qed.
Lemma wire_long sl fs c : (exists q, sl = 72%N :: 84%N :: q) -> exists q, wire sl fs c = 72%N :: 84%N :: q.
Proof. intros (q & ->). eexists. reflexivity. Qed.
Lemma respond_exact v enc r sl : able v enc r sl ->
  exists fs, final_fields v r (coding_used v r) (length (coded enc (coding_used v r) (payload r))) fs /\
    forall k n ios, length (wire sl fs (coded enc (coding_used v r) (payload r))) <= n ->
      respond v r (repeat Blocked k ++ Took n :: ios) = Ok (wire sl fs (coded enc (coding_used v r) (payload r)), fate_of fs).
Proof.
  intros A. destruct (event_ok v enc r sl 1 A) as (fs & FF & E). exists fs. split; [exact FF|]. intros k n ios L. unfold respond. rewrite E.
  destruct A as (_ & _ & _ & SL). destruct (wire_long sl fs (coded enc (coding_used v r) (payload r)) (status_line_HT _ _ _ SL)) as (q & W).
  rewrite write_blocks; [reflexivity|]. split; [rewrite W; cbn [length]; lia|exact L].
Qed.
Lemma respond_split v enc r sl : able v enc r sl ->
  exists fs, final_fields v r (coding_used v r) (length (coded enc (coding_used v r) (payload r))) fs /\
    let w := wire sl fs (coded enc (coding_used v r) (payload r)) in
    (forall ios, exists ns f, respond v r ios = Ok (flat_map (fun n => firstn n w) ns, f)) /\
    (forall n ios, 0 < n < length w -> respond v r (Took n :: Took (length w) :: ios) = Ok (firstn n w ++ firstn (length w - n) w, fate_of fs)) /\
    firstn 1 w ++ firstn (length w - 1) w <> w.
Proof.
  intros A. destruct (event_ok v enc r sl 1 A) as (fs & FF & E). exists fs. split; [exact FF|]. cbv zeta.
  destruct A as (_ & _ & _ & SL). destruct (wire_long sl fs (coded enc (coding_used v r) (payload r)) (status_line_HT _ _ _ SL)) as (q & W).
  set (w := wire sl fs _) in *. split; [|split].
  - intros ios. unfold respond. rewrite E. destruct (write_prefixes w ios 0) as (ns & P). destruct (write w 0 ios) as ((x, s), t). cbn [fst] in P. subst x. exists ns. destruct s; eexists; reflexivity.
  - intros n ios L. unfold respond. rewrite E, write_two by exact L. reflexivity.
  - pose proof (write_split_corrupts w _ _ q [] W) as X. rewrite write_two in X by (rewrite W; cbn [length]; lia). apply X. discriminate.
Qed.

(** ** Content-Length *)
Definition folded (b : N) : N := if ((65 <=? b) && (b <=? 90))%N then (b + 32)%N else b.
Definition lengths (fs : list (list N * list N)) : list (list N * list N) := filter (fun p => bytes_eqb (map folded (fst p)) (bs "content-length")) fs.
Lemma lengths_app a b : lengths (a ++ b) = lengths a ++ lengths b.
Proof. apply filter_app. Qed.
Lemma lengths_mod v fs fs' : edit_effect (EAddModify (bs "Content-Length") v) fs fs' ->
  (lengths fs = [] \/ exists x, lengths fs = [(bs "Content-Length", x)]) -> lengths fs' = [(bs "Content-Length", v)].
Proof.
  assert (LC : forall v c, lengths ((bs "Content-Length", v) :: c) = (bs "Content-Length", v) :: lengths c) by reflexivity.
  set (cl := bs "Content-Length") in *. clearbody cl. intros E H. inversion E as [| | | | | |? ? v0 a c NA| ? ? ? NA| |]; subst.
  - rewrite !lengths_app, !LC in *. destruct (lengths a) as [|y l]; cbn [app] in *.
    + destruct H as [H|(x & H)]; [discriminate|]. injection H as _ H. rewrite H. reflexivity.
    + exfalso. destruct H as [H|(x & H)]; [discriminate|]. injection H as _ H. destruct l; discriminate.
  - rewrite lengths_app, LC. destruct H as [H|(x & H)]; [rewrite H; reflexivity|]. exfalso. apply NA.
    assert (I : In (cl, x) (lengths fs)) by (rewrite H; left; reflexivity). apply filter_In in I as (I & _). apply (in_map fst) in I. exact I.
Qed.
Lemma lengths_unique v r c n fs : final_fields v r c n fs ->
  (lengths (entries (r_header r)) = [] \/ (exists x, lengths (entries (r_header r)) = [(bs "Content-Length", x)]) /\ (r_body r <> None \/ r_pf r <> None \/ v_default v (r_code r) = None)) ->
  lengths fs = [(bs "Content-Length", dec (N.of_nat n))].
Proof.
  intros (fs0 & G & E) H. apply (lengths_mod _ _ _ E). rewrite lengths_app.
  replace (lengths match c with Some c0 => [(bs "Content-Encoding", enc_name c0)] | None => [] end) with (@nil (list N * list N)) by (destruct c; reflexivity).
  rewrite app_nil_r. destruct G as [X|size mime fs0 B P D EF].
  - destruct H as [H|(H & _)]; auto.
  - destruct H as [H|(_ & [X|[X|X]])]; try congruence. right. exists (dec (N.of_nat size)).
    inversion EF as [| |? ? ? NA|? ? ? NA| | | | | |]; subst; [rewrite lengths_app, H; reflexivity|]. rewrite !lengths_app, H. reflexivity.
Qed.
Definition first_length (fs : list (list N * list N)) : option (list N) := option_map snd (List.find (fun p => bytes_eqb (fst p) (bs "Content-Length")) fs).
Lemma first_length_ok v r c n fs : final_fields v r c n fs -> first_length fs = Some (dec (N.of_nat n)).
Proof.
  intros (fs0 & _ & E). generalize dependent (fs0 ++ match c with Some c0 => [(bs "Content-Encoding", enc_name c0)] | None => [] end). intros l E.
  assert (G : forall a v k, ~ named (bs "Content-Length") a -> List.find (fun p : list N * list N => bytes_eqb (fst p) (bs "Content-Length")) (a ++ (bs "Content-Length", v) :: k) = Some (bs "Content-Length", v)).
  { intros a w k NA. induction a as [|x a IH]; cbn [app List.find fst]; [reflexivity|].
    destruct (bytes_eqb (fst x) (bs "Content-Length")) eqn:Q; [exfalso; apply NA; left; apply bytes_eqb_eq, Q|]. apply IH. intros Q'. apply NA. right. exact Q'. }
  unfold first_length. inversion E; subst; rewrite G by assumption; reflexivity.
Qed.

(** ** Responses of the server itself *)
Record env_ok (v : renv) (enc : AcceptEnc.coding -> list N -> list N) : Prop := {
  eo_codec : forall c, lawful (v_codec v c) (enc c);
  eo_server : no_nul (v_server v); eo_date : no_nul (v_date v); eo_allow : no_nul (v_allow v);
  eo_default : forall c n m, v_default v c = Some (n, m) -> no_nul m;
  eo_threshold : 0 < v_threshold v }.
(** The fields of a response to a failed request. *)
Definition status_fields (v : renv) (c : stcode) (etag : list N) : list (list N * list N) :=
  (match c with S405 | S414 | S415 | S417 => [(bs "Allow", v_allow v)] | _ => [] end) ++
  [(bs "Server", v_server v); (bs "Date", v_date v)] ++
  (match c with S304 => [(bs "ETag", etag)] | _ => [] end) ++
  [(bs "Connection", match c with S413 => bs "close" | _ => bs "keep-alive" end); (bs "Content-Length", bs "0")] ++
  (match v_default v c with Some (_, mime) => [(bs "Content-Type", mime)] | None => [] end).
Lemma mod_absent n v l fs : edit_effect (EAddModify n v) l fs -> ~ named n l -> fs = l ++ [(n, v)].
Proof.
  intros E NA. inversion E; subst; [|reflexivity]. exfalso. apply NA. unfold named. rewrite map_app. apply in_or_app. right. left. reflexivity.
Qed.
Lemma mod_there n v x a c fs : edit_effect (EAddModify n v) (a ++ (n, x) :: c) fs -> ~ named n a -> fs = a ++ (n, v) :: c.
Proof.
  intros E NA. remember (a ++ (n, x) :: c) as l eqn:EL. inversion E as [| | | | | |? ? v0 a' c' NA'| ? ? ? NA'| |]; subst.
  - match goal with Q : _ ++ _ :: _ = _ ++ _ :: _ |- _ => rename Q into H end.
    assert (X : a' = a /\ c' = c).
    { clear -H NA NA'. revert a NA H. induction a' as [|y a' IH]; intros [|z a] NA H; cbn [app] in H.
      - injection H as _ ->. auto.
      - injection H as <- _. exfalso. apply NA. left. reflexivity.
      - injection H as -> _. exfalso. apply NA'. left. reflexivity.
      - injection H as -> H. destruct (IH (fun Q => NA' (or_intror Q)) a (fun Q => NA (or_intror Q)) H) as (-> & ->). auto. }
    destruct X as (-> & ->). reflexivity.
  - exfalso. apply NA'. unfold named. rewrite map_app. apply in_or_app. right. left. reflexivity.
Qed.
Lemma ifno_absent n v l fs : edit_effect (EAddIfno n v) l fs -> ~ named n l -> fs = l ++ [(n, v)].
Proof. intros E NA. inversion E; subst; [contradiction|reflexivity]. Qed.
Ltac unnamed := unfold named; cbn [map fst app In]; let Q := fresh in intros Q; repeat match type of Q with _ \/ _ => destruct Q as [Q|Q] end; try discriminate Q; try contradiction Q.
Lemma status_header_ok v enc allow etag keep : env_ok v enc -> match etag with Some t => no_nul t | None => True end ->
  exists h, status_header v allow etag keep = Ok h /\ hok h /\
    entries h = (if allow then [(bs "Allow", v_allow v)] else []) ++ [(bs "Server", v_server v); (bs "Date", v_date v)] ++
      (match etag with Some t => [(bs "ETag", t)] | None => [] end) ++ [(bs "Connection", if keep then bs "keep-alive" else bs "close")].
Proof.
  intros V ET. unfold status_header, add_server, add_date, add_connection, add_allow.
  assert (H0 : exists h, (if allow then header_add header_init (bs "Allow") (v_allow v) else header_init) = h /\ hok h /\ entries h = if allow then [(bs "Allow", v_allow v)] else []).
  { assert (HI : hok header_init) by (split; [split; [constructor|reflexivity]|constructor]).
    destruct allow; eexists; (split; [reflexivity|]); [|auto]. apply (hok_add _ _ _ HI); [split; [discriminate|apply no_nulb_ok; reflexivity]|apply (eo_allow _ _ V)]. }
  destruct H0 as (h0 & -> & H0 & E0).
  destruct (hok_ifno h0 (bs "Server") (v_server v) H0) as (h1 & -> & H1 & F1); [split; [discriminate|apply no_nulb_ok; reflexivity]|apply (eo_server _ _ V)|]. cbn [obind].
  apply ifno_absent in F1; [|rewrite E0; destruct allow; unnamed].
  destruct (hok_ifno h1 (bs "Date") (v_date v) H1) as (h2 & -> & H2 & F2); [split; [discriminate|apply no_nulb_ok; reflexivity]|apply (eo_date _ _ V)|]. cbn [obind].
  apply ifno_absent in F2; [|rewrite F1, E0; destruct allow; unnamed].
  assert (H3 : exists h, (match etag with Some t => header_add h2 (bs "ETag") t | None => h2 end) = h /\ hok h /\ entries h = entries h2 ++ match etag with Some t => [(bs "ETag", t)] | None => [] end).
  { destruct etag as [t|]; eexists; (split; [reflexivity|]); [|rewrite app_nil_r; auto]. apply (hok_add _ _ _ H2); [split; [discriminate|apply no_nulb_ok; reflexivity]|exact ET]. }
  destruct H3 as (h3 & -> & H3 & E3). eexists. split; [reflexivity|].
  destruct (hok_add h3 (bs "Connection") (if keep then bs "keep-alive" else bs "close") H3) as (H4 & E4);
    [split; [discriminate|apply no_nulb_ok; reflexivity]|destruct keep; apply no_nulb_ok; reflexivity|].
  split; [exact H4|]. rewrite E4, E3, F2, F1, E0. rewrite <- !app_assoc. reflexivity.
Qed.
(** A response without content. *)
Lemma empty_able v enc r sl : env_ok v enc -> hok (r_header r) -> r_body r = None -> r_pf r = None -> r_back r = false ->
  status_line (r_version r) (r_code r) = Ok (Some sl) -> able v enc r sl /\ coding_used v r = None /\ payload r = [].
Proof.
  intros V (H1 & H2) B P BK SL. assert (SD : stored_de r = None) by (unfold stored_de; rewrite B, P; reflexivity). assert (PL : payload r = []) by (unfold payload; rewrite B, P; reflexivity).
  pose proof (eo_threshold _ _ V) as TH.
  assert (CU : coding_used v r = None).
  { unfold coding_used. rewrite SD, PL. replace (v_threshold v <=? length (@nil N)) with false by (symmetry; apply Nat.leb_gt; exact TH). destruct (r_dont r), (v_accept v) as [(l, d)|]; reflexivity. }
  split; [|auto]. split; [|split; [|auto]].
  - constructor; auto; try apply V; try (intros; congruence). intros _. right. rewrite PL. auto.
  - unfold deliverable, stored_used. rewrite SD, CU. reflexivity.
Qed.
Lemma status_ok v enc c etag sl : env_ok v enc -> no_nul etag -> status_line V1_1 c = Ok (Some sl) -> c <> S100 ->
  exists r, status_response v c etag = Ok r /\ able v enc r sl /\ coding_used v r = None /\ payload r = [] /\
    forall fs, final_fields v r None 0 fs -> fs = status_fields v c etag.
Proof.
  intros V ET SL NC. unfold status_response.
  destruct (status_header_ok v enc (match c with S405 | S414 | S415 | S417 => true | _ => false end) (match c with S304 => Some etag | _ => None end)
     (match c with S413 => false | _ => true end) V) as (h & -> & H & E); [destruct c; auto|]. cbn [obind].
  eexists. split; [reflexivity|].
  edestruct (empty_able v enc (mkRes V1_1 c h None None 0 (match c with S406 => true | _ => false end) (match c with S100 => true | _ => false end) None) sl V H) as (A & B & C); try reflexivity.
  { cbn. destruct c; try reflexivity. contradiction. }
  { exact SL. }
  split; [exact A|]. split; [exact B|]. split; [exact C|].
  intros fs (fs0 & G & EF). rewrite app_nil_r in EF. cbn [N.of_nat] in EF. change (dec 0) with (bs "0") in EF.
  assert (NL : ~ named (bs "Content-Length") (entries h)) by (rewrite E; destruct c; unnamed).
  assert (NT : forall x, ~ named (bs "Content-Type") (entries h ++ [(bs "Content-Length", x)])) by (intros x; rewrite E; destruct c; unnamed).
  unfold status_fields. inversion G as [X|size mime ? B1 P1 D EF1]; subst.
  - cbn [r_header] in *. cbn [r_body r_pf r_code] in X. assert (D : v_default v c = None) by (destruct X as [X|[X|X]]; [congruence|congruence|exact X]).
    rewrite (mod_absent _ _ _ _ EF NL), E, D. destruct c; reflexivity.
  - cbn [r_header r_code] in *. apply ifno_absent in EF1; [|apply NT]. subst fs0. rewrite <- app_assoc in EF. cbn [app] in EF.
    rewrite (mod_there _ _ _ _ _ _ EF NL), E, D. destruct c; reflexivity.
Qed.
Lemma status_fate v c etag : fate_of (status_fields v c etag) = match c with S413 => FClose | _ => FKeep end.
Proof. unfold status_fields. destruct c; reflexivity. Qed.
Lemma status_event v enc c etag sl f : env_ok v enc -> no_nul etag -> status_line V1_1 c = Ok (Some sl) -> c <> S100 ->
  exists r, status_response v c etag = Ok r /\ forall k n ios, length (wire sl (status_fields v c etag) []) <= n ->
    response_event (S f) v r (repeat Blocked k ++ Took n :: ios) = Ok (wire sl (status_fields v c etag) [], match c with S413 => FClose | _ => FKeep end).
Proof.
  intros V ET SL NC. destruct (status_ok v enc c etag sl V ET SL NC) as (r & R & A & CU & PL & U). exists r. split; [exact R|].
  destruct (event_ok v enc r sl f A) as (fs & FF & EV). rewrite CU, PL in *. cbn [coded length] in *. apply U in FF. subst fs.
  intros k n ios L. rewrite EV. destruct (wire_long sl (status_fields v c etag) [] (status_line_HT _ _ _ SL)) as (q & W).
  rewrite write_blocks by (split; [rewrite W; cbn [length]; lia|exact L]). rewrite status_fate. reflexivity.
Qed.
Lemma status_continue v enc etag : env_ok v enc -> no_nul etag ->
  exists r m, status_response v S100 etag = Ok r /\ forall n ios, m <= n -> (respond v r (Took n :: ios) = UB UseAfterFree).
Proof.
  intros V ET. unfold status_response. destruct (status_header_ok v enc false None true V Logic.I) as (h & -> & H & E). cbn [obind].
  destruct (empty_able v enc (mkRes V1_1 S100 h None None 0 false false None) (bs "HTTP/1.1 100 Continue" ++ [13; 10]%N) V H eq_refl eq_refl eq_refl eq_refl) as ((S & D & _ & SL) & CU & PL).
  destruct (prepare_ok v enc _ S D) as (y & P & HY & FF & C & L & _). rewrite CU, PL in *. cbn [coded] in *.
  eexists. exists (length (wire (bs "HTTP/1.1 100 Continue" ++ [13; 10]%N) (entries (y_header y)) [])). split; [reflexivity|]. intros n ios LE. unfold respond. cbn [response_event].
  change (prepare v (mkRes V1_1 S100 h None None 0 false true None)) with (prepare v (mkRes V1_1 S100 h None None 0 false false None)). rewrite P. cbn [obind].
  change (layout v (mkRes V1_1 S100 h None None 0 false true None) y) with (layout v (mkRes V1_1 S100 h None None 0 false false None) y).
  rewrite (layout_exact v _ y _ _ SL (proj1 HY) C L). cbn [obind]. unfold send_ready.
  assert (W : exists q, wire (bs "HTTP/1.1 100 Continue" ++ [13; 10]%N) (entries (y_header y)) [] = 72%N :: q) by (eexists; reflexivity). destruct W as (q & W).
  pose proof (write_blocks (wire (bs "HTTP/1.1 100 Continue" ++ [13; 10]%N) (entries (y_header y)) []) n 0 ios) as WB. cbn [repeat app] in WB.
  rewrite WB by (split; [rewrite W; cbn [length]; lia|exact LE]). reflexivity.
Qed.

(** ** Files *)
Lemma file_header v enc f : env_ok v enc -> f_over f = false -> no_nul (f_etag f) -> no_nul (f_lastmod f) -> no_nul (f_mime f) ->
  exists h, file_response v f = Ok (mkRes V1_1 S200 h None (Some f) (f_size f) false false (Some (f_coding f))) /\ hok h /\
    entries h = [(bs "Content-Length", dec (N.of_nat (f_size f))); (bs "ETag", f_etag f); (bs "Date", v_date v); (bs "Last-Modified", f_lastmod f);
                 (bs "Content-Type", f_mime f); (bs "Connection", bs "keep-alive")].
Proof.
  intros V O E1 E2 E3. unfold file_response. rewrite O. unfold add_date, add_connection.
  assert (HI : hok header_init) by (split; [split; [constructor|reflexivity]|constructor]).
  assert (NM : forall n, no_nulb n = true -> n <> [] -> edit_name n) by (intros n A B; split; [exact B|apply no_nulb_ok, A]).
  destruct (hok_add header_init (bs "Content-Length") (dec (N.of_nat (f_size f))) HI) as (H1 & F1); [apply NM; [reflexivity|discriminate]|apply dec_ok|].
  destruct (hok_add _ (bs "ETag") (f_etag f) H1) as (H2 & F2); [apply NM; [reflexivity|discriminate]|exact E1|]. rewrite F1 in F2. cbn [entries header_init hc_chain map app] in F2.
  destruct (hok_ifno _ (bs "Date") (v_date v) H2) as (h3 & -> & H3 & F3); [apply NM; [reflexivity|discriminate]|exact (eo_date _ _ V)|]. cbn [obind].
  apply ifno_absent in F3; [|rewrite F2; unnamed]. rewrite F2 in F3.
  destruct (hok_add h3 (bs "Last-Modified") (f_lastmod f) H3) as (H4 & F4); [apply NM; [reflexivity|discriminate]|exact E2|]. rewrite F3 in F4.
  destruct (hok_ifno _ (bs "Content-Type") (f_mime f) H4) as (h5 & -> & H5 & F5); [apply NM; [reflexivity|discriminate]|exact E3|]. cbn [obind].
  apply ifno_absent in F5; [|rewrite F4; unnamed]. rewrite F4 in F5.
  destruct (hok_add h5 (bs "Connection") (bs "keep-alive") H5) as (H6 & F6); [apply NM; [reflexivity|discriminate]|apply no_nulb_ok; reflexivity|]. rewrite F5 in F6.
  eexists. split; [reflexivity|]. split; [exact H6|exact F6].
Qed.
(** The fields of a file sent with [n] bytes of content in coding [c]. *)
Definition file_fields (v : renv) (f : rfile) (c : option AcceptEnc.coding) (n : nat) : list (list N * list N) :=
  [(bs "Content-Length", dec (N.of_nat n)); (bs "ETag", f_etag f); (bs "Date", v_date v); (bs "Last-Modified", f_lastmod f);
   (bs "Content-Type", f_mime f); (bs "Connection", bs "keep-alive")] ++ match c with Some c => [(bs "Content-Encoding", enc_name c)] | None => [] end.
Lemma file_served v enc f : env_ok v enc -> f_over f = false -> no_nul (f_etag f) -> no_nul (f_lastmod f) -> no_nul (f_mime f) -> f_size f = length (f_data f) ->
  exists r, file_response v f = Ok r /\ (sane v enc r -> deliverable v enc r ->
    let content := coded enc (coding_used v r) (f_data f) in
    let w := wire (bs "HTTP/1.1 200 OK" ++ [13; 10]%N) (file_fields v f (coding_used v r) (length content)) content in
    forall k n ios, length w <= n -> respond v r (repeat Blocked k ++ Took n :: ios) = Ok (w, FKeep)).
Proof.
  intros V O E1 E2 E3 SZ. destruct (file_header v enc f V O E1 E2 E3) as (h & R & H & EH). eexists. split; [exact R|]. intros S D. cbv zeta. intros k n ios L.
  set (r := mkRes V1_1 S200 h None (Some f) (f_size f) false false (Some (f_coding f))) in *.
  destruct (respond_exact v enc r (bs "HTTP/1.1 200 OK" ++ [13; 10]%N)) as (fs & (fs0 & G & EF) & X); [split; [exact S|]; split; [exact D|]; split; reflexivity|].
  change (payload r) with (f_data f) in *.
  assert (FS : fs = file_fields v f (coding_used v r) (length (coded enc (coding_used v r) (f_data f)))).
  { inversion G as [Y|? ? ? ? P]; subst; try discriminate. change (r_header r) with h in EF. rewrite EH in EF.
    cbn [app] in EF.
    apply (mod_there (bs "Content-Length") _ _ [] _ _ EF). intros []. }
  subst fs. rewrite X by exact L. reflexivity.
Qed.
(** A small file is sane and deliverable whatever the client accepts. *)
Lemma small_file_ok v enc f h : env_ok v enc -> hok h -> f_de f = None -> f_size f = length (f_data f) -> f_size f < v_threshold v ->
  let r := mkRes V1_1 S200 h None (Some f) (f_size f) false false (Some (f_coding f)) in
  sane v enc r /\ deliverable v enc r /\ coding_used v r = None.
Proof.
  intros V (H1 & H2) DE SZ TH r. assert (SD : stored_de r = None) by exact DE.
  assert (CU : coding_used v r = None).
  { unfold coding_used. rewrite SD. change (payload r) with (f_data f). rewrite <- SZ. replace (v_threshold v <=? f_size f) with false by (symmetry; apply Nat.leb_gt; exact TH). cbn [r_dont r]. destruct (v_accept v) as [(l, d)|]; reflexivity. }
  split; [|split; [|exact CU]].
  - constructor; auto; try apply V.
    + intros g G. injection G as <-. auto.
    + intros d X. congruence.
    + intros _. right. change (payload r) with (f_data f). rewrite <- SZ. auto.
  - unfold deliverable, stored_used. rewrite SD, CU. reflexivity.
Qed.

(** ** Where it goes wrong *)
Lemma identity_file_crash v r f l i c sl ios : hok (r_header r) -> r_body r = None -> r_pf r = Some f -> f_de f = None -> r_dont r = false ->
  v_threshold v <= r_count r -> v_accept v = Some (l, AcceptEnc.DUse i c) -> AcceptEnc.c_type c = AcceptEnc.EIdentity ->
  status_line (r_version r) (r_code r) = Ok (Some sl) -> respond v r ios = UB NullDeref.
Proof.
  intros H B P DE DO TH VA CT SL. unfold respond. cbn [response_event]. unfold prepare, add_default. rewrite B, P. cbn [obind].
  assert (BG : begin r = mkStart TPathFile (r_count r) (r_count r) None false (r_coding r)) by (unfold begin; rewrite B, P, DE; reflexivity).
  rewrite BG, DO. unfold check_match. cbn [s_encoded obind]. unfold choose. cbn [s_encoded s_len s_type s_orig s_de].
  replace (v_threshold v <=? r_count r) with true by (symmetry; apply Nat.leb_le; exact TH). rewrite VA. cbn [obind fst snd AcceptEnc.decided_type].
  unfold encode_content. cbn [s_encoded s_coding s_len s_de]. rewrite CT. destruct (named_coding (r_header r) c H) as (H1 & _).
  destruct (hok_len _ (r_count r) H1) as (h' & E & _). rewrite E. cbn [obind]. unfold layout. rewrite SL. cbn [obind]. unfold content_bytes. cbn [y_type]. rewrite B. reflexivity.
Qed.
(** A body that is coded: the result of the compressor decides. *)
Lemma body_coded v r b l i c : hok (r_header r) -> r_body r = Some b -> r_pf r = None -> r_dont r = false ->
  v_threshold v <= length b -> v_accept v = Some (l, AcceptEnc.DUse i c) -> AcceptEnc.c_type c <> AcceptEnc.EIdentity ->
  prepare v r = obind (run_encode v c (FromBody b)) (fun e => match e with
     | EError => Ok P500 | EBuffer => Ok P413
     | EOk o n => obind (set_content_length (header_add (r_header r) (bs "Content-Encoding") (enc_name c)) n) (fun h => Ok (PSend (mkReady h TEncoded n (Some (mkDe c o n false)))))
     end).
Proof.
  intros H B P DO TH VA CT. unfold prepare, add_default. rewrite B. cbn [obind].
  assert (BG : begin r = mkStart TBody (length b) 0 None false (r_coding r)) by (unfold begin; rewrite B; reflexivity).
  rewrite BG, DO. unfold check_match. cbn [s_encoded obind]. unfold choose. cbn [s_encoded s_len s_type s_orig s_de].
  replace (v_threshold v <=? length b) with true by (symmetry; apply Nat.leb_le; exact TH). rewrite VA. cbn [obind fst snd AcceptEnc.decided_type].
  unfold encode_content. cbn [s_encoded s_coding s_len s_de s_orig]. rewrite P, B. destruct (AcceptEnc.c_type c); try contradiction; reflexivity.
Qed.
Lemma file_coded v r f l i c : hok (r_header r) -> r_body r = None -> r_pf r = Some f -> f_de f = None -> r_dont r = false ->
  v_threshold v <= r_count r -> v_accept v = Some (l, AcceptEnc.DUse i c) -> AcceptEnc.c_type c <> AcceptEnc.EIdentity ->
  prepare v r = obind (run_encode v c (FromFile (f_data f))) (fun e => match e with
     | EError => Ok P500 | EBuffer => Ok P413
     | EOk o n => obind (set_content_length (header_add (r_header r) (bs "Content-Encoding") (enc_name c)) n) (fun h => Ok (PSend (mkReady h TEncoded n (Some (mkDe c o n false)))))
     end).
Proof.
  intros H B P DE DO TH VA CT. unfold prepare, add_default. rewrite B, P. cbn [obind].
  assert (BG : begin r = mkStart TPathFile (r_count r) (r_count r) None false (r_coding r)) by (unfold begin; rewrite B, P, DE; reflexivity).
  rewrite BG, DO. unfold check_match. cbn [s_encoded obind]. unfold choose. cbn [s_encoded s_len s_type s_orig s_de].
  replace (v_threshold v <=? r_count r) with true by (symmetry; apply Nat.leb_le; exact TH). rewrite VA. cbn [obind fst snd AcceptEnc.decided_type].
  unfold encode_content. cbn [s_encoded s_coding s_len s_de s_orig]. rewrite P. destruct (AcceptEnc.c_type c); try contradiction; reflexivity.
Qed.
Lemma chain_max_pos n : 0 < encbuf_chain_max n. Proof. unfold encbuf_chain_max. apply Nat.lt_0_succ. Qed.
Lemma deflate_body_crash v enc r b l i c ios : lawful (v_codec v c) enc -> hok (r_header r) -> r_body r = Some b -> r_pf r = None -> r_dont r = false ->
  v_threshold v <= length b -> v_accept v = Some (l, AcceptEnc.DUse i c) -> AcceptEnc.c_type c = AcceptEnc.EDeflate -> PER < length (enc b) -> respond v r ios = UB NullDeref.
Proof.
  intros L H B P DO TH VA CT BIG. unfold respond. cbn [response_event]. rewrite (body_coded v r b l i c H B P DO TH VA) by (rewrite CT; discriminate).
  unfold run_encode, kind_of. rewrite CT. rewrite (deflate_large _ _ PER (encbuf_chain_max (v_max v)) (fresh PER (v_junk v)) b L PER_pos (chain_max_pos _) (fresh_length _ _) BIG). reflexivity.
Qed.
(** The answers 413 and 500 in place of the content. *)
Definition refusal_wire (v : renv) (c : stcode) : list N :=
  match c with
  | S413 => wire (bs "HTTP/1.1 413 Payload Too Large" ++ [13; 10]%N) (status_fields v S413 []) []
  | _ => wire (bs "HTTP/1.1 500 Internal Server Error" ++ [13; 10]%N) (status_fields v S500 []) []
  end.
Definition refused (v : renv) (r : response) (c : stcode) : Prop :=
  forall k n ios, length (refusal_wire v c) <= n ->
    respond v r (repeat Blocked k ++ Took n :: ios) = Ok (refusal_wire v c, match c with S413 => FClose | _ => FKeep end).
Lemma refused_413 v enc r : env_ok v enc -> prepare v r = Ok P413 -> refused v r S413.
Proof.
  intros V P k n ios L. destruct (status_event v enc S413 [] (bs "HTTP/1.1 413 Payload Too Large" ++ [13; 10]%N) 0 V) as (r' & E & X); [constructor|reflexivity|discriminate|].
  unfold respond. cbn [response_event]. rewrite P. cbn [obind]. rewrite E. cbn [obind]. apply X. exact L.
Qed.
Lemma refused_500 v enc r : env_ok v enc -> prepare v r = Ok P500 -> refused v r S500.
Proof.
  intros V P k n ios L. destruct (status_event v enc S500 [] (bs "HTTP/1.1 500 Internal Server Error" ++ [13; 10]%N) 0 V) as (r' & E & X); [constructor|reflexivity|discriminate|].
  unfold respond. cbn [response_event]. rewrite P. cbn [obind]. rewrite E. cbn [obind]. apply X. exact L.
Qed.
(** A file asked for with deflate is never sent. *)
Lemma deflate_file_refused v enc r f l i c : env_ok v enc -> hok (r_header r) -> r_body r = None -> r_pf r = Some f -> f_de f = None -> r_dont r = false ->
  v_threshold v <= r_count r -> v_accept v = Some (l, AcceptEnc.DUse i c) -> AcceptEnc.c_type c = AcceptEnc.EDeflate ->
  refused v r S413 \/ refused v r S500 \/ exists u, forall ios, respond v r ios = UB u.
Proof.
  intros V H B P DE DO TH VA CT. assert (PR := file_coded v r f l i c H B P DE DO TH VA ltac:(rewrite CT; discriminate)).
  unfold run_encode, kind_of in PR. rewrite CT in PR.
  pose proof (deflate_file _ _ PER (encbuf_chain_max (v_max v)) (fresh PER (v_junk v)) (f_data f) (eo_codec _ _ V c) PER_pos (chain_max_pos _) (fresh_length _ _)) as DF.
  destruct (encode KDeflate (v_codec v c) PER (fresh PER (v_junk v)) (encbuf_chain_max (v_max v)) (FromFile (f_data f))) as [[b n| |]|u]; cbn [obind] in PR.
  - exfalso. exact (DF b n eq_refl).
  - right. left. exact (refused_500 v enc r V PR).
  - left. exact (refused_413 v enc r V PR).
  - right. right. exists u. intros ios. unfold respond. cbn [response_event]. rewrite PR. reflexivity.
Qed.
(** Content whose gzip form does not fit is refused. *)
Lemma gzip_refused v enc r b l i c : env_ok v enc -> hok (r_header r) -> r_body r = Some b -> r_pf r = None -> r_dont r = false ->
  v_threshold v <= length b -> v_accept v = Some (l, AcceptEnc.DUse i c) -> AcceptEnc.c_type c = AcceptEnc.EGzip ->
  encbuf_chain_max (v_max v) * PER <= length (enc c b) -> refused v r S413 \/ refused v r S500.
Proof.
  intros V H B P DO TH VA CT BIG. assert (PR := body_coded v r b l i c H B P DO TH VA ltac:(rewrite CT; discriminate)).
  unfold run_encode, kind_of in PR. rewrite CT in PR.
  pose proof (gzip_exact _ _ PER (encbuf_chain_max (v_max v)) (fresh PER (v_junk v)) (FromBody b) (eo_codec _ _ V c) PER_pos (chain_max_pos _) (fresh_length _ _)) as G.
  cbn [source_data] in G. replace (length (enc c b) <? encbuf_chain_max (v_max v) * PER) with false in G by (symmetry; apply Nat.ltb_ge; exact BIG).
  destruct G as [G|G]; rewrite G in PR; cbn [obind] in PR; [left; exact (refused_413 v enc r V PR)|right; exact (refused_500 v enc r V PR)].
Qed.
(** A body whose brotli form needs more than one block is sent cut. *)
Lemma br_truncated v enc r b l i c sl : env_ok v enc -> hok (r_header r) -> r_body r = Some b -> r_pf r = None -> r_dont r = false -> r_back r = false ->
  status_line (r_version r) (r_code r) = Ok (Some sl) ->
  v_threshold v <= length b -> v_accept v = Some (l, AcceptEnc.DUse i c) -> AcceptEnc.c_type c = AcceptEnc.EBr ->
  PER < length (enc c b) -> PER <= v_max v ->
  exists fs, first_length fs = Some (dec (N.of_nat PER)) /\ In (bs "Content-Encoding", bs "br") fs /\
    let w := wire sl fs (firstn PER (enc c b)) in
    forall k n ios, length w <= n -> respond v r (repeat Blocked k ++ Took n :: ios) = Ok (w, fate_of fs).
Proof.
  intros V H B P DO BK SL TH VA CT BIG MAX. assert (PR := body_coded v r b l i c H B P DO TH VA ltac:(rewrite CT; discriminate)).
  unfold run_encode, kind_of in PR. rewrite CT in PR.
  assert (M1 : 1 < encbuf_chain_max (v_max v)).
  { unfold encbuf_chain_max. pose proof PER_pos as PP. pose proof (Nat.div_le_lower_bound (v_max v) PER 1 ltac:(lia) ltac:(lia)) as Q. clear -Q. set (x := v_max v / PER) in *. clearbody x. lia. }
  destruct (br_truncates _ _ PER (encbuf_chain_max (v_max v)) (fresh PER (v_junk v)) b (eo_codec _ _ V c) PER_pos M1 (fresh_length _ _) BIG) as (o & G & W & STR).
  rewrite G in PR. cbn [obind] in PR. destruct (named_coding (r_header r) c H) as (H1 & EH). destruct (hok_len _ PER H1) as (h' & EL & H' & EF).
  rewrite EL in PR. cbn [obind] in PR. exists (entries h').
  assert (LEN : length (firstn PER (enc c b)) = PER) by (rewrite firstn_length; lia).
  assert (CB : content_bytes r (mkReady h' TEncoded PER (Some (mkDe c o PER false))) = Ok (firstn PER (enc c b))).
  { unfold content_bytes. cbn [y_type y_de y_len d_buf]. pose proof (memcpy_all o W) as MA. rewrite STR, LEN in MA. exact MA. }
  rewrite EH in EF. split; [|split].
  - apply (first_length_ok (mkRenv (v_threshold v) (v_accept v) (v_codec v) (v_max v) (v_junk v) (fun _ => None) (v_server v) (v_date v) (v_allow v)) r (Some c)).
    exists (entries (r_header r)). split; [apply gf_plain; right; right; reflexivity|exact EF].
  - assert (N1 : enc_name c = bs "br") by (unfold enc_name; rewrite CT; reflexivity). rewrite N1 in EF. clear -EF.
    assert (I : In (bs "Content-Encoding", bs "br") (entries (r_header r) ++ [(bs "Content-Encoding", bs "br")])) by (apply in_or_app; right; left; reflexivity).
    revert I EF. generalize (entries (r_header r) ++ [(bs "Content-Encoding", bs "br")]) (entries h'). intros l fs I EF.
    inversion EF; subst; [|apply in_or_app; left; exact I]. apply in_app_or in I as [I|[I|I]]; [apply in_or_app; left; exact I|discriminate I|apply in_or_app; right; right; exact I].
  - cbv zeta. intros k n ios L. unfold respond. cbn [response_event]. rewrite PR. cbn [obind]. rewrite (layout_exact v r (mkReady h' TEncoded PER (Some (mkDe c o PER false))) sl _ SL (proj1 H') CB LEN). cbn [obind y_header]. unfold send_ready, after.
    destruct (wire_long sl (entries h') (firstn PER (enc c b)) (status_line_HT _ _ _ SL)) as (q & WL).
    rewrite write_blocks by (split; [rewrite WL; cbn [length]; lia|exact L]). rewrite BK. cbn [y_header]. rewrite (keep_fate _ H'). reflexivity.
Qed.

(** ** The size limit of files *)
Lemma oversize_file v f : v_threshold v <= f_size f -> v_max v < f_size f -> f_over f = false ->
  exists f', preencode v f = Ok (Some f') /\ file_response v f' = status_response v S413 [].
Proof.
  intros T M O. unfold preencode. replace (f_size f <? v_threshold v) with false by (symmetry; apply Nat.ltb_ge; exact T).
  replace (f_size f <=? v_max v) with false by (symmetry; apply Nat.leb_gt; exact M). eexists. split; reflexivity.
Qed.
Lemma small_file_kept v f : f_size f < v_threshold v -> preencode v f = Ok (Some f).
Proof. intros T. unfold preencode. apply Nat.ltb_lt in T. rewrite T. reflexivity. Qed.
(** A file prepared by the worker with a coding whose compressor is right is as [sane] wants it. *)
Lemma gzip_stored v enc f : env_ok v enc -> f_size f = length (f_data f) -> f_de f = None -> v_threshold v <= f_size f <= v_max v ->
  AcceptEnc.c_type (f_coding f) = AcceptEnc.EGzip -> length (enc (f_coding f) (f_data f)) < encbuf_chain_max (v_max v) * PER ->
  exists d, preencode v f = Ok (Some (mkRfile (f_size f) (f_data f) (f_coding f) (Some d) false (f_etag f) (f_lastmod f) (f_mime f))) /\
    d_over d = false /\ d_coding d = f_coding f /\ wf (d_buf d) /\ stream (d_buf d) = enc (f_coding f) (f_data f) /\ d_contlen d = length (stream (d_buf d)).
Proof.
  intros V SZ DE (T & M) CT LT. unfold preencode. replace (f_size f <? v_threshold v) with false by (symmetry; apply Nat.ltb_ge; exact T).
  replace (f_size f <=? v_max v) with true by (symmetry; apply Nat.leb_le; exact M). unfold run_encode, kind_of. rewrite CT.
  pose proof (gzip_exact _ _ PER (encbuf_chain_max (v_max v)) (fresh PER (v_junk v)) (FromFile (f_data f)) (eo_codec _ _ V (f_coding f)) PER_pos (chain_max_pos _) (fresh_length _ _)) as G.
  cbn [source_data] in G. apply Nat.ltb_lt in LT. rewrite LT in G. destruct G as (b & -> & W & S). cbn [obind].
  exists (mkDe (f_coding f) b (length (enc (f_coding f) (f_data f))) false). split; [reflexivity|]. cbn. rewrite S. auto.
Qed.
(** Such a file is delivered in its stored form to whoever accepts gzip. *)
Lemma stored_file_ok v enc f d h l dec_ : env_ok v enc -> hok h -> f_size f = length (f_data f) -> v_threshold v <= f_size f -> f_de f = Some d -> d_over d = false ->
  wf (d_buf d) -> stream (d_buf d) = enc (d_coding d) (f_data f) -> d_contlen d = length (stream (d_buf d)) -> AcceptEnc.c_type (d_coding d) <> AcceptEnc.EIdentity ->
  v_accept v = Some (l, dec_) -> AcceptEnc.matching l (d_coding d) = true ->
  let r := mkRes V1_1 S200 h None (Some f) (f_size f) false false (Some (f_coding f)) in
  sane v enc r /\ deliverable v enc r /\ coding_used v r = Some (d_coding d).
Proof.
  intros V (H1 & H2) SZ TH DE OV W STR CL NI VA MT r. assert (SD : stored_de r = Some d) by exact DE.
  assert (CU : coding_used v r = Some (d_coding d)).
  { unfold coding_used. rewrite SD, VA. cbn [r_dont r option_map AcceptEnc.response_coding]. rewrite MT. reflexivity. }
  split; [|split; [|exact CU]].
  - constructor; auto; try apply V.
    + intros g G. injection G as <-. auto.
    + intros d' X. rewrite SD in X. injection X as <-. change (payload r) with (f_data f). rewrite <- SZ. split; [exact TH|]. split; [reflexivity|]. right. auto.
    + intros Q. congruence.
  - unfold deliverable, stored_used. rewrite SD, VA, MT. exact OV.
Qed.
