From Verif Require Import Base CStr Names Status CNum Header HeaderProofs Buffer BufferProofs Encode EncodeProofs Response ResponseProofs.
From Verif Require Import HpackSpec Hpack HpackProofs H2Frame H2FrameProofs H2Frag H2FragProofs H2Resp.
From Verif Require AcceptEnc H2Write H2WriteProofs Mime PyBridge.
Local Open Scope nat_scope.

(** ** Specification *)
(** The response as HTTP/1.1 has it, with an empty header; a default content counts as a file. *)
Definition no_default (v : renv) : renv :=
  mkRenv (v_threshold v) (v_accept v) (v_codec v) (v_max v) (v_junk v) (fun _ => None) (v_server v) (v_date v) (v_allow v).
Definition as_file (f : dfile) : rfile := mkRfile (df_size f) (df_data f) AcceptEnc.CGzip (df_de f) false [] [] (df_mime f).
Definition view (e : env2) (r : resp2) : response :=
  mkRes V1_1 (p2_code r) header_init (p2_body r)
    (match p2_pf r with Some f => Some f | None => option_map as_file (rcbs e r) end)
    (match p2_pf r, rcbs e r with None, Some f => df_size f | _, _ => p2_count r end) (p2_dont r) false (p2_coding r).
(** Its fields: :status, those of the response, those of a default content, content-encoding; then content-length is set. *)
Fixpoint set_length (n : nat) (fs : list (list N * list N)) : list (list N * list N) :=
  match fs with
  | [] => [(bs "content-length", dec (N.of_nat n))]
  | f :: t => if bytes_eqb (fst f) (bs "content-length") then (fst f, dec (N.of_nat n)) :: t else f :: set_length n t
  end.
Definition pairs (h : list xfield) : list (list N * list N) := map (fun x => (x_name x, x_value x)) h.
Definition default_fields (e : env2) (r : resp2) : list (list N * list N) :=
  match rcbs e r with
  | Some f => (bs "content-length", dec (N.of_nat (df_size f))) ::
              (if existsb (fun p => bytes_eqb (fst p) (bs "content-type")) (pairs (p2_fields r)) then [] else [(bs "content-type", df_mime f)])
  | None => []
  end.
Definition sent_fields (e : env2) (r : resp2) (st : list N) (c : option AcceptEnc.coding) (n : nat) : list (list N * list N) :=
  (bs ":status", st) :: set_length n (pairs (p2_fields r) ++ default_fields e r ++ match c with Some c => [(bs "content-encoding", enc_name c)] | None => [] end).
(** The fields were added by the functions of this server: named, and looked up in the table or not. *)
Definition made (d : dtable) (x : xfield) : Prop := x_name x <> [] /\ (x_found x = search_table d (x_name x, x_value x) \/ x_found x = NotFound).
(** Fields that survive the encoding of header blocks (C59), and their size in a block. *)
Definition clear (d : dtable) (f : list N * list N) : Prop := HpackProofs.plain f /\ short f /\ foreign d f.
Definition block_size (fs : list (list N * list N)) : nat := list_sum (map (fun f => 3 + length (fst f) + length (snd f)) fs).
(** A frame as RFC 9113, section 4.1 has it. *)
Definition is_frame (ty fl sid : N) (payload w : list N) : Prop :=
  exists hd, length hd = 9 /\ w = hd ++ payload /\ be (firstn 3 hd) = N.of_nat (length payload) /\ nth 3 hd 0%N = ty /\ nth 4 hd 0%N = fl /\ be (skipn 5 hd) = sid.

(** ** The decision is that of HTTP/1.1 *)
Definition flat (t : htype) : rtype := match t with HEncoded => TEncoded | HBody => TBody | HFile | HDefault => TPathFile | HNone => TNoContent end.
Definition hdr1 (c : option AcceptEnc.coding) (n : nat) : hci :=
  header_add (match c with Some c => header_add header_init (bs "Content-Encoding") (enc_name c) | None => header_init end) (bs "Content-Length") (dec (N.of_nat n)).
Lemma set_hdr1 c n : set_content_length (match c with Some c => header_add header_init (bs "Content-Encoding") (enc_name c) | None => header_init end) n = Ok (hdr1 c n).
Proof. destruct c; reflexivity. Qed.
Definition lift (o : outcome decided) : outcome prepared :=
  match o with
  | Ok (DSend c n ty de clen) => Ok (PSend (mkReady (hdr1 c clen) (flat ty) n de))
  | Ok D413 => Ok P413 | Ok D500 => Ok P500
  | UB u => UB u
  end.
Lemma finish_sim c n ty (de : option de) :
  match de with
  | Some d => if d_over d then Ok P413
              else obind (set_content_length (match c with Some c => header_add header_init (bs "Content-Encoding") (enc_name c) | None => header_init end) (d_contlen d)) (fun h => Ok (PSend (mkReady h (flat ty) n de)))
  | None => obind (set_content_length (match c with Some c => header_add header_init (bs "Content-Encoding") (enc_name c) | None => header_init end) n) (fun h => Ok (PSend (mkReady h (flat ty) n de)))
  end = lift (Ok (settle c n ty de)).
Proof. unfold settle. destruct de as [x|]; [destruct (d_over x); [reflexivity|]|]; rewrite set_hdr1; reflexivity. Qed.
Definition cut (s : start2) : start := mkStart (flat (t_type s)) (t_len s) (t_orig s) (t_de s) (t_encoded s) (t_coding s).
Lemma begin_sim e r : begin (view e r) = cut (begin2 e r).
Proof.
  unfold begin, begin2, view, cut. cbn [r_body r_pf r_coding r_count]. destruct (p2_body r); [reflexivity|].
  destruct (p2_pf r) as [f|]; [destruct (f_de f); reflexivity|]. destruct (rcbs e r) as [f|]; cbn [option_map]; [|reflexivity]. cbn [as_file f_de f_size]. destruct (df_de f); reflexivity.
Qed.
Lemma decide_sim e r : prepare (no_default (e_v e)) (view e r) = lift (decide e r).
Proof.
  assert (AD : add_default (no_default (e_v e)) (view e r) = Ok header_init).
  { unfold add_default. cbn [no_default v_default]. destruct (r_body (view e r)), (r_pf (view e r)); reflexivity. }
  unfold prepare, decide. rewrite AD, begin_sim. cbn [obind]. change (r_dont (view e r)) with (p2_dont r).
  set (s := begin2 e r). cbn [cut s_len s_type s_de s_encoded s_coding]. destruct (p2_dont r).
  { rewrite (set_hdr1 None). reflexivity. }
  unfold check_match. cbn [cut s_encoded s_coding]. cbn [no_default v_accept].
  assert (ENC : forall len c, encode_content (no_default (e_v e)) (view e r) (mkStart (flat (t_type s)) len (t_orig s) (t_de s) false (Some c))
                    (header_add header_init (bs "Content-Encoding") (enc_name c)) = lift (encode2 e r (mkStart2 (t_type s) len (t_orig s) (t_de s) false (Some c)) c)).
  { intros len c. unfold encode_content, encode2. cbn [s_encoded s_coding s_len s_de s_orig t_len t_de].
    assert (SRC : match r_pf (view e r) with Some f => Some (FromFile (f_data f)) | None => match r_body (view e r) with Some b => Some (FromBody b) | None => None end end =
                  match p2_pf r, rcbs e r, p2_body r with Some f, _, _ => Some (FromFile (f_data f)) | None, Some f, _ => Some (FromFile (df_data f)) | None, None, Some b => Some (FromBody b) | None, None, None => None end).
    { unfold view. cbn [r_pf r_body]. destruct (p2_pf r); [reflexivity|]. destruct (rcbs e r); reflexivity. }
    rewrite SRC. destruct (AcceptEnc.c_type c).
    1,2,4,5: destruct (match p2_pf r, rcbs e r, p2_body r with Some f, _, _ => Some (FromFile (f_data f)) | None, Some f, _ => Some (FromFile (df_data f)) | None, None, Some b => Some (FromBody b) | None, None, None => None end) as [src|]; [|reflexivity];
      change (run_encode (no_default (e_v e)) c src) with (run_encode (e_v e) c src); destruct (run_encode (e_v e) c src) as [[b n| |]|u]; cbn [obind lift]; try reflexivity;
      exact (finish_sim (Some c) n HEncoded (Some (mkDe c b n false))).
    rewrite (set_hdr1 (Some c)). reflexivity. }
  assert (CH : forall len, obind (choose (no_default (e_v e)) (mkStart (flat (t_type s)) len (t_orig s) (t_de s) false (t_coding s)) header_init)
                 (fun sh => encode_content (no_default (e_v e)) (view e r) (fst sh) (snd sh)) =
               lift (if v_threshold (e_v e) <=? len then
                       match v_accept (e_v e) with
                       | None => UB NullDeref
                       | Some (_, x) => match AcceptEnc.decided_type x with Some c => encode2 e r (mkStart2 (t_type s) len (t_orig s) (t_de s) false (Some c)) c | None => Ok (settle None len (t_type s) (t_de s)) end
                       end else Ok (settle None len (t_type s) (t_de s)))).
  { intros len. unfold choose. cbn [s_encoded s_len s_type s_orig s_de s_coding no_default v_threshold v_accept].
    destruct (v_threshold (e_v e) <=? len).
    - destruct (v_accept (e_v e)) as [(l, x)|]; [|reflexivity]. destruct (AcceptEnc.decided_type x) as [c|]; cbn [obind fst snd]; [apply ENC|].
      unfold encode_content. cbn [s_encoded s_coding s_len s_de s_type]. exact (finish_sim None len (t_type s) (t_de s)).
    - cbn [obind fst snd]. unfold encode_content. cbn [s_encoded s_coding s_len s_de s_type]. exact (finish_sim None len (t_type s) (t_de s)). }
  unfold cut. cbn [s_encoded s_type s_orig s_de s_coding s_len].
  destruct (t_encoded s) eqn:TE; cbn [andb].
  - destruct (v_accept (e_v e)) as [(l, x)|] eqn:VA; [|reflexivity]. destruct (t_coding s) as [c|] eqn:TC; [|reflexivity]. cbn [obind].
    destruct (AcceptEnc.matching l c) eqn:M; cbn [negb].
    + unfold choose. cbn [s_encoded s_coding obind fst snd]. unfold encode_content. cbn [s_encoded s_coding s_de s_len s_type].
      exact (finish_sim (Some c) (t_len s) (t_type s) (t_de s)).
    + exact (CH (t_orig s)).
  - cbn [obind]. exact (CH (t_len s)).
Qed.

(** ** Fields *)
Lemma cl_found d v : search_table d (bs "content-length", v) = FoundName 27.
Proof. reflexivity. Qed.
Lemma made_add2 d h n v : Forall (made d) h -> n <> [] -> Forall (made d) (add2 d h n v).
Proof. intros F NE. apply Forall_app. split; [exact F|]. constructor; [|constructor]. split; [exact NE|left; reflexivity]. Qed.
Lemma made_add1 d h n v : Forall (made d) h -> n <> [] -> Forall (made d) (add1 h n v).
Proof. intros F NE. apply Forall_app. split; [exact F|]. constructor; [|constructor]. split; [exact NE|right; reflexivity]. Qed.
Lemma made_add1_ifno d h n v : Forall (made d) h -> n <> [] -> Forall (made d) (add1_ifno h n v).
Proof. intros F NE. unfold add1_ifno. destruct (has h n); [exact F|apply made_add1; assumption]. Qed.
Lemma made_add2_ifno d h n v : Forall (made d) h -> n <> [] -> Forall (made d) (add2_ifno d h n v).
Proof. intros F NE. unfold add2_ifno. destruct (has h n); [exact F|apply made_add2; assumption]. Qed.
Lemma has_pairs h n : has h n = existsb (fun p => bytes_eqb (fst p) n) (pairs h).
Proof. induction h as [|x h IH]; [reflexivity|]. cbn [has existsb pairs map fst]. unfold has in IH. rewrite IH. reflexivity. Qed.
Lemma pairs_app a b : pairs (a ++ b) = pairs a ++ pairs b.
Proof. apply map_app. Qed.
Lemma pairs_cons x h : pairs (x :: h) = (x_name x, x_value x) :: pairs h.
Proof. reflexivity. Qed.
Lemma addmodify_ok d h k : Forall (made d) h ->
  exists h', addmodify2 d h (bs "content-length") (dec (N.of_nat k)) = Ok h' /\ Forall (made d) h' /\ pairs h' = set_length k (pairs h).
Proof.
  intros F. unfold addmodify2.
  assert (M : (exists h', modify h (bs "content-length") (dec (N.of_nat k)) = Ok (Some h') /\ Forall (made d) h' /\ pairs h' = set_length k (pairs h)) \/
              (modify h (bs "content-length") (dec (N.of_nat k)) = Ok None /\ set_length k (pairs h) = pairs h ++ [(bs "content-length", dec (N.of_nat k))])).
  { induction F as [|x h (NE & FD) F IH]; [right; split; reflexivity|]. cbn [modify pairs map set_length fst]. fold (pairs h).
    destruct (x_name x) as [|a n] eqn:XN; [contradiction|]. rewrite <- XN in *. destruct (bytes_eqb (x_name x) (bs "content-length")) eqn:B.
    - left. eexists. split; [reflexivity|]. split; [|reflexivity]. constructor; [|exact F]. split; [cbn [x_name]; rewrite XN; discriminate|]. cbn [x_found x_name x_value].
      apply bytes_eqb_eq in B. rewrite B in *. rewrite cl_found in FD |- *. exact FD.
    - destruct IH as [(h' & E & F' & P)|(E & P)]; rewrite E; cbn [obind option_map].
      + left. eexists. split; [reflexivity|]. split; [constructor; [split; [rewrite XN; discriminate|exact FD]|exact F']|]. cbn [pairs map]. fold (pairs h'). rewrite P. reflexivity.
      + right. split; [reflexivity|]. rewrite P. reflexivity. }
  destruct M as [(h' & E & F' & P)|(E & P)]; rewrite E; cbn [obind].
  - exists h'. auto.
  - eexists. split; [reflexivity|]. split; [apply made_add2; [exact F|discriminate]|]. unfold add2. rewrite pairs_app, P. reflexivity.
Qed.
Definition ce (c : option AcceptEnc.coding) : list (list N * list N) := match c with Some c => [(bs "content-encoding", enc_name c)] | None => [] end.
Lemma fields2_ok e r st c n : Forall (made (e_table e)) (p2_fields r) ->
  exists h, fields2 e r st c n = Ok h /\ Forall (made (e_table e)) h /\ pairs h = sent_fields e r st c n.
Proof.
  intros F. unfold fields2. set (d := e_table e) in *.
  set (h0 := add2_front d (p2_fields r) (bs ":status") st).
  assert (F0 : Forall (made d) h0) by (constructor; [split; [discriminate|left; reflexivity]|exact F]).
  set (h1 := match rcbs e r with Some f => _ | None => h0 end).
  assert (F1 : Forall (made d) h1) by (unfold h1; destruct (rcbs e r); [apply made_add1_ifno; [apply made_add2; [exact F0|discriminate]|discriminate]|exact F0]).
  assert (P1 : pairs h1 = (bs ":status", st) :: pairs (p2_fields r) ++ default_fields e r).
  { unfold h1, default_fields. destruct (rcbs e r) as [f|]; [|now rewrite app_nil_r].
    unfold add1_ifno. rewrite has_pairs. unfold add2, add1. rewrite !pairs_app, existsb_app. unfold h0, add2_front. rewrite pairs_cons. cbn [pairs map existsb fst x_name x_value].
    change (bytes_eqb (bs ":status") (bs "content-type")) with false. change (bytes_eqb (bs "content-length") (bs "content-type")) with false. rewrite orb_false_l, !orb_false_r. fold (pairs (p2_fields r)).
    destruct (existsb (fun p => bytes_eqb (fst p) (bs "content-type")) (pairs (p2_fields r))).
    - unfold h0, add2_front. rewrite pairs_app. cbn [app]. rewrite pairs_cons. reflexivity.
    - unfold h0, add2_front. rewrite !pairs_app, pairs_cons. cbn [app]. rewrite <- !app_assoc. reflexivity. }
  set (h2 := match c with Some c => _ | None => h1 end).
  assert (F2 : Forall (made d) h2) by (unfold h2; destruct c; [apply made_add2; [exact F1|discriminate]|exact F1]).
  assert (P2 : pairs h2 = pairs h1 ++ ce c) by (unfold h2, ce; destruct c; [apply pairs_app|now rewrite app_nil_r]).
  destruct (addmodify_ok d h2 n F2) as (h & E & FH & P). exists h. split; [exact E|]. split; [exact FH|]. rewrite P, P2, P1. unfold sent_fields, ce. rewrite <- app_comm_cons, <- app_assoc. reflexivity.
Qed.

(** ** The block *)
Lemma string_len s : length s < 127 -> length (put_string s) = S (length s).
Proof.
  intros L. unfold put_string. rewrite set_small; [|repeat split; (reflexivity || discriminate)|change (2 ^ 7 - 1)%N with 127%N; lia].
  rewrite app_length. unfold rfc_int. change (2 ^ 7 - 1)%N with 127%N. destruct (N.ltb_spec (N.of_nat (length s)) 127); [reflexivity|lia].
Qed.
Lemma index_len bits flags v : flags_ok bits flags -> (v < 2 ^ bits - 1)%N -> length (hp_set_integer bits flags v) = 1.
Proof. intros F L. rewrite set_small by assumption. unfold rfc_int. destruct (N.ltb_spec v (2 ^ bits - 1)); [reflexivity|lia]. Qed.
Lemma put_x_ok d x : made d x -> clear d (x_name x, x_value x) ->
  exists rp, put_x x = enc_rep rp /\ (forall max tab, exists tab', meaning max tab rp = Some (max, tab', [(x_name x, x_value x)])) /\
    length (put_x x) <= 3 + length (x_name x) + length (x_value x).
Proof.
  intros (NE & [FD|FD]) (P & (S1 & S2) & FO); cbn [fst snd] in *.
  - exists (rep_of d (x_name x, x_value x)). destruct (put_field_ok d (x_name x, x_value x) P (conj S1 S2) FO) as (E & M).
    assert (PX : put_x x = put_field d (x_name x, x_value x)) by (unfold put_x, put_field; rewrite FD; reflexivity). split; [rewrite PX; exact E|]. split; [exact M|].
    rewrite PX. unfold put_field, search_table. pose proof (static_search (x_name x, x_value x) static_table 0) as SS.
    destruct (search_static static_table 0 (x_name x, x_value x)) as [k|k|].
    + destruct SS as (n & v & _ & B & _). change (0 + N.of_nat (length static_table))%N with 61%N in B. rewrite index_len; [lia|repeat split; (reflexivity || discriminate)|change (2 ^ 7 - 1)%N with 127%N; lia].
    + destruct SS as (n & _ & B & _). change (0 + N.of_nat (length static_table))%N with 61%N in B. rewrite app_length, index_len; [|repeat split; (reflexivity || discriminate)|change (2 ^ 6 - 1)%N with 63%N; lia].
      cbn [snd]. rewrite string_len by assumption. lia.
    + rewrite (dynamic_search _ _ _ FO). rewrite !app_length, index_len; [|repeat split; (reflexivity || discriminate)|reflexivity]. cbn [fst snd]. rewrite !string_len by assumption. lia.
  - exists (Literal Incremental (NameLit false (x_name x)) false (x_value x)). unfold put_x. rewrite FD. split; [|split].
    + cbn [enc_rep mode_bits mode_flags]. rewrite set_small; [|repeat split; (reflexivity || discriminate)|reflexivity]. rewrite !put_string_rfc by assumption. now rewrite app_assoc.
    + intros max tab. cbn [meaning]. eexists. reflexivity.
    + rewrite !app_length, index_len; [|repeat split; (reflexivity || discriminate)|reflexivity]. rewrite !string_len by assumption. lia.
Qed.
Lemma block_ok d h : Forall (made d) h -> Forall (clear d) (pairs h) ->
  exists rs, concat (map put_x h) = enc_block rs /\ (forall max tab, exists tab', meaning_block max tab rs = Some (pairs h, tab')) /\ length (concat (map put_x h)) <= block_size (pairs h).
Proof.
  induction 1 as [|x h M F IH]; intros C.
  - exists []. split; [reflexivity|]. split; [intros max tab; exists tab; reflexivity|apply Nat.le_refl].
  - rewrite pairs_cons in C. inversion C as [|? ? C1 C2]; subst. destruct (IH C2) as (rs & E & ME & L). destruct (put_x_ok d x M C1) as (rp & E1 & M1 & L1).
    exists (rp :: rs). cbn [map concat]. split; [rewrite E, E1; reflexivity|]. split.
    + intros max tab. destruct (M1 max tab) as (t1 & X1). destruct (ME max t1) as (t2 & X2). exists t2. cbn [meaning_block]. rewrite X1, X2. reflexivity.
    + rewrite app_length, pairs_cons. unfold block_size. cbn [map list_sum fold_right fst snd]. unfold block_size, list_sum in L. lia.
Qed.

(** ** The decision *)
Definition used (e : env2) (r : resp2) : option AcceptEnc.coding := coding_used (e_v e) (view e r).
Definition sent_content (enc : AcceptEnc.coding -> list N -> list N) (e : env2) (r : resp2) : list N := coded enc (used e r) (payload (view e r)).
Lemma entries_add h n v : n <> [] -> entries (header_add h n v) = entries h ++ [(n, v)].
Proof. intros NE. unfold entries, header_add, header_add0. cbn [hc_chain]. rewrite map_app. cbn [map]. rewrite entry_new by exact NE. reflexivity. Qed.
Lemma entries_hdr1 c n : entries (hdr1 c n) = match c with Some c => [(bs "Content-Encoding", enc_name c)] | None => [] end ++ [(bs "Content-Length", dec (N.of_nat n))].
Proof. unfold hdr1. rewrite entries_add by discriminate. destruct c as [c|]; [rewrite entries_add by discriminate; reflexivity|reflexivity]. Qed.
Lemma decided_ok e enc r : sane (no_default (e_v e)) enc (view e r) -> deliverable (e_v e) enc (view e r) ->
  exists c ty de n, decide e r = Ok (DSend c (length (sent_content enc e r)) ty de n) /\ ce c = ce (used e r) /\ dec (N.of_nat n) = dec (N.of_nat (length (sent_content enc e r))) /\
    content_bytes (view e r) (mkReady (hdr1 c n) (flat ty) (length (sent_content enc e r)) de) = Ok (sent_content enc e r) /\
    (ty = HEncoded -> exists d, de = Some d /\ wf (d_buf d) /\ stream (d_buf d) = sent_content enc e r).
Proof.
  intros S D. destruct (prepare_ok (no_default (e_v e)) enc (view e r) S D) as (y & P & H & FF & C & L & W).
  change (coded enc (coding_used (no_default (e_v e)) (view e r)) (payload (view e r))) with (sent_content enc e r) in *.
  change (coding_used (no_default (e_v e)) (view e r)) with (used e r) in *.
  rewrite decide_sim in P. destruct (decide e r) as [[c n ty de clen| |]|u]; cbn [lift] in P; try discriminate. injection P as <-. cbn [y_len y_header y_type y_de] in *. subst n.
  exists c, ty, de, clen. split; [reflexivity|].
  assert (X : entries (hdr1 c clen) = match used e r with Some c => [(bs "Content-Encoding", enc_name c)] | None => [] end ++ [(bs "Content-Length", dec (N.of_nat (length (sent_content enc e r))))]).
  { destruct FF as (fs0 & G & EF). inversion G as [_ G0|? ? ? _ _ Z _]; [|discriminate Z]. subst fs0. change (entries (r_header (view e r))) with (@nil (list N * list N)) in EF. cbn [app] in EF.
    inversion EF as [| | | | | |m v v0 a b NA E1 E2|m v l NA E1 E2| |]; subst.
    - exfalso. destruct (used e r); [|destruct a; discriminate]. destruct a as [|? [|]]; discriminate.
    - reflexivity. }
  rewrite entries_hdr1 in X. split; [|split; [|split; [exact C|intros ->; apply W; reflexivity]]].
  - destruct c, (used e r); try discriminate X; [|reflexivity]. injection X as X _. unfold ce. rewrite X. reflexivity.
  - destruct c, (used e r); try discriminate X; injection X; auto.
Qed.

(** ** The content *)
Definition uncoded_default (e : env2) (r : resp2) : Prop := rcbs e r <> None /\ used e r = None /\ payload (view e r) <> [].
Lemma dont_type e r : p2_dont r = true -> forall c n ty de k, decide e r = Ok (DSend c n ty de k) -> ty = t_type (begin2 e r) /\ c = None.
Proof. intros D c n ty de k E. unfold decide in E. rewrite D in E. injection E as <- _ <- _ _. auto. Qed.
Lemma named_type e r c n de k : decide e r = Ok (DSend (Some c) n HDefault de k) -> False.
Proof.
  unfold decide. destruct (p2_dont r); [discriminate|]. set (s := begin2 e r).
  assert (SE : t_encoded s = true -> t_type s = HEncoded).
  { unfold s, begin2. destruct (p2_body r); [discriminate|]. destruct (p2_pf r) as [f|]; [destruct (f_de f); [reflexivity|discriminate]|]. destruct (rcbs e r) as [f|]; [destruct (df_de f); [reflexivity|discriminate]|discriminate]. }
  assert (ST : forall c n ty d m t' d' k', settle c n ty d = DSend (Some m) n t' d' k' -> ty = t' /\ c = Some m) by (intros ? ? ? d ? ? ? ?; unfold settle; destruct d as [x|]; [destruct (d_over x); [discriminate|]|]; intros Q; injection Q; auto).
  assert (SN : forall n ty d m n' t' d' k', settle None n ty d = DSend (Some m) n' t' d' k' -> False) by (intros ? ? d ? ? ? ? ?; unfold settle; destruct d as [x|]; [destruct (d_over x); discriminate|discriminate]).
  assert (EN : forall s c m n d k, encode2 e r s c = Ok (DSend (Some m) n HDefault d k) -> False).
  { intros s' c' m n' d' k'. unfold encode2.
    destruct (AcceptEnc.c_type c'); try discriminate;
      (destruct (match p2_pf r, rcbs e r, p2_body r with Some f, _, _ => Some (FromFile (f_data f)) | None, Some f, _ => Some (FromFile (df_data f)) | None, None, Some b => Some (FromBody b) | None, None, None => None end); [|discriminate]);
      (destruct (run_encode (e_v e) c' s0) as [[]|]; cbn [obind]; try discriminate). }
  destruct (t_encoded s) eqn:TE; cbn [andb].
  - destruct (v_accept (e_v e)) as [(l, x)|]; [|discriminate]. destruct (t_coding s) as [c'|]; [|discriminate]. cbn [obind]. destruct (AcceptEnc.matching l c'); cbn [negb].
    + intros Q. unfold settle in Q. destruct (t_de s) as [y|]; [destruct (d_over y); [discriminate|]|]; injection Q as _ _ Q _ _; rewrite (SE eq_refl) in Q; discriminate.
    + destruct (v_threshold (e_v e) <=? t_orig s); [|intros Q; injection Q as Q; exact (SN _ _ _ _ _ _ _ _ Q)].
      destruct (AcceptEnc.decided_type x); [apply EN|intros Q; injection Q as Q; exact (SN _ _ _ _ _ _ _ _ Q)].
  - cbn [obind]. destruct (v_threshold (e_v e) <=? t_len s); [|intros Q; injection Q as Q; exact (SN _ _ _ _ _ _ _ _ Q)].
    destruct (v_accept (e_v e)) as [(l, x)|]; [|discriminate]. destruct (AcceptEnc.decided_type x); [apply EN|intros Q; injection Q as Q; exact (SN _ _ _ _ _ _ _ _ Q)].
Qed.
Lemma type_of e r c n ty de k : decide e r = Ok (DSend c n ty de k) -> ty = t_type (begin2 e r) \/ ty = HEncoded \/ ty = HBody.
Proof.
  unfold decide. set (s := begin2 e r).
  assert (ST : forall c n t d m n' t' d' k', settle c n t d = DSend m n' t' d' k' -> t' = t) by (intros ? ? ? d ? ? ? ? ?; unfold settle; destruct d as [x|]; [destruct (d_over x); [discriminate|]|]; intros Q; injection Q; auto).
  assert (EN : forall s c m n t d k, encode2 e r s c = Ok (DSend m n t d k) -> t = HEncoded \/ t = HBody).
  { intros s' c' m n' t' d' k'. unfold encode2.
    destruct (AcceptEnc.c_type c'); try (intros Q; injection Q as _ _ <- _ _; right; reflexivity);
      (destruct (match p2_pf r, rcbs e r, p2_body r with Some f, _, _ => Some (FromFile (f_data f)) | None, Some f, _ => Some (FromFile (df_data f)) | None, None, Some b => Some (FromBody b) | None, None, None => None end) as [src|]; [|discriminate]);
      (destruct (run_encode (e_v e) c' src) as [[]|]; cbn [obind]; try discriminate; intros Q; injection Q as _ _ <- _ _; left; reflexivity). }
  destruct (p2_dont r); [intros Q; injection Q as _ _ <- _ _; left; reflexivity|].
  destruct (t_encoded s); cbn [andb].
  - destruct (v_accept (e_v e)) as [(l, x)|]; [|discriminate]. destruct (t_coding s) as [c'|]; [|discriminate]. cbn [obind]. destruct (AcceptEnc.matching l c'); cbn [negb].
    + intros Q. injection Q as Q. left. exact (ST _ _ _ _ _ _ _ _ _ Q).
    + destruct (v_threshold (e_v e) <=? t_orig s); [|intros Q; injection Q as Q; left; exact (ST _ _ _ _ _ _ _ _ _ Q)].
      destruct (AcceptEnc.decided_type x); [intros Q; right; exact (EN _ _ _ _ _ _ _ Q)|intros Q; injection Q as Q; left; exact (ST _ _ _ _ _ _ _ _ _ Q)].
  - cbn [obind]. destruct (v_threshold (e_v e) <=? t_len s); [|intros Q; injection Q as Q; left; exact (ST _ _ _ _ _ _ _ _ _ Q)].
    destruct (v_accept (e_v e)) as [(l, x)|]; [|discriminate]. destruct (AcceptEnc.decided_type x); [intros Q; right; exact (EN _ _ _ _ _ _ _ Q)|intros Q; injection Q as Q; left; exact (ST _ _ _ _ _ _ _ _ _ Q)].
Qed.
(** There is neither a body nor a file nor default content. *)
Definition bare (e : env2) (r : resp2) : bool := match p2_body r, p2_pf r, rcbs e r with None, None, None => true | _, _, _ => false end.
Lemma begin_type e r : match t_type (begin2 e r) with
  | HFile => p2_pf r <> None
  | HDefault => rcbs e r <> None
  | HNone => bare e r = true
  | _ => bare e r = false
  end.
Proof.
  unfold begin2, bare. destruct (p2_body r) as [b|]; [cbn; destruct (p2_pf r), (rcbs e r); reflexivity|].
  destruct (p2_pf r) as [f|]; [destruct (f_de f); cbn; [reflexivity|discriminate]|]. destruct (rcbs e r) as [f|]; [destruct (df_de f); cbn; [reflexivity|discriminate]|reflexivity].
Qed.
Lemma bare_type e r c n de k : bare e r = true -> decide e r = Ok (DSend c n HEncoded de k) -> False.
Proof.
  unfold bare. destruct (p2_body r) eqn:B; [discriminate|]. destruct (p2_pf r) eqn:P; [discriminate|]. destruct (rcbs e r) eqn:R; [discriminate|]. intros _.
  unfold decide. assert (S : begin2 e r = mkStart2 HNone 0 0 None false (p2_coding r)) by (unfold begin2; rewrite B, P, R; reflexivity). rewrite S. cbn [t_type t_len t_de t_encoded t_orig andb obind].
  destruct (p2_dont r); [discriminate|]. destruct (v_threshold (e_v e) <=? 0); [|discriminate]. destruct (v_accept (e_v e)) as [(l, x)|]; [|discriminate].
  destruct (AcceptEnc.decided_type x) as [c'|]; [|discriminate]. unfold encode2. rewrite B, P, R. destruct (AcceptEnc.c_type c'); discriminate.
Qed.
Lemma content_ok e enc r c ty de n : ~ uncoded_default e r ->
  decide e r = Ok (DSend c (length (sent_content enc e r)) ty de n) -> ce c = ce (used e r) ->
  content_bytes (view e r) (mkReady (hdr1 c n) (flat ty) (length (sent_content enc e r)) de) = Ok (sent_content enc e r) ->
  (ty = HEncoded -> exists d, de = Some d /\ wf (d_buf d) /\ stream (d_buf d) = sent_content enc e r) ->
  (exists x, content2 e r (length (sent_content enc e r)) ty de = Ok x /\ H2WriteProofs.content_of x = sent_content enc e r /\
    H2Write.content_len x = length (sent_content enc e r) /\ H2WriteProofs.writable x) /\
  (match ty with HNone => true | _ => false end) = bare e r.
Proof.
  intros UD D CE CB W. split.
  - unfold content2. destruct (Nat.eqb_spec (length (sent_content enc e r)) 0) as [Z|Z].
    + exists (H2Write.CBody []). apply length_zero_iff_nil in Z. rewrite Z. repeat split.
    + destruct ty; cbn [flat] in CB; unfold content_bytes in CB; cbn [y_type y_de y_len] in CB.
      * destruct (W eq_refl) as (d & -> & WF & ST). eexists. split; [reflexivity|]. cbn [H2WriteProofs.content_of H2Write.content_len H2WriteProofs.writable]. rewrite ST. rewrite firstn_all. auto.
      * change (r_body (view e r)) with (p2_body r) in CB. destruct (p2_body r) as [b|]; [|discriminate]. injection CB as <-. eexists. split; [reflexivity|]. repeat split.
      * destruct (type_of _ _ _ _ _ _ _ D) as [T|[T|T]]; try discriminate. pose proof (begin_type e r) as BT. rewrite <- T in BT. destruct (p2_pf r) as [f|] eqn:P; [|contradiction].
        assert (V1 : r_pf (view e r) = Some f) by (unfold view; cbn [r_pf]; rewrite P; reflexivity). assert (V2 : r_count (view e r) = p2_count r) by (unfold view; cbn [r_count]; rewrite P; reflexivity).
        rewrite V1, V2 in CB. injection CB as CB. eexists. split; [reflexivity|]. cbn [H2WriteProofs.content_of H2Write.content_len H2WriteProofs.writable]. rewrite <- CB.
        rewrite firstn_length. split; [|split; [reflexivity|lia]]. destruct (Nat.le_ge_cases (p2_count r) (length (f_data f))) as [L|L].
        -- rewrite Nat.min_l by exact L. reflexivity.
        -- rewrite Nat.min_r by exact L. rewrite !firstn_all2 by lia. reflexivity.
      * exfalso. apply UD. destruct (type_of _ _ _ _ _ _ _ D) as [T|[T|T]]; try discriminate. pose proof (begin_type e r) as BT. rewrite <- T in BT. split; [exact BT|].
        assert (U : used e r = None). { destruct c as [c|]; [exfalso; exact (named_type _ _ _ _ _ _ D)|]. destruct (used e r); [discriminate CE|reflexivity]. }
        split; [exact U|]. unfold sent_content in Z. rewrite U in Z. cbn [coded] in Z. intros X. rewrite X in Z. apply Z. reflexivity.
      * injection CB as CB. rewrite <- CB in Z. exfalso. apply Z. reflexivity.
  - pose proof (begin_type e r) as BT. destruct (type_of _ _ _ _ _ _ _ D) as [T|[T|T]].
    + rewrite <- T in BT. destruct ty; try (symmetry; exact BT); unfold bare.
      * destruct (p2_body r); [reflexivity|]. destruct (p2_pf r); [reflexivity|contradiction].
      * destruct (p2_body r); [reflexivity|]. destruct (p2_pf r); [reflexivity|]. destruct (rcbs e r); [reflexivity|contradiction].
    + subst ty. destruct (bare e r) eqn:B; [|reflexivity]. exfalso. exact (bare_type _ _ _ _ _ _ B D).
    + subst ty. unfold content_bytes in CB. cbn [flat y_type] in CB. change (r_body (view e r)) with (p2_body r) in CB. unfold bare. destruct (p2_body r); [reflexivity|discriminate].
Qed.

(** ** The answer *)
Record fit2 (junk : list N) (e : env2) (enc : AcceptEnc.coding -> list N -> list N) (r : resp2) (st : list N) : Prop := {
  ft_sane : sane (no_default (e_v e)) enc (view e r);
  ft_deliverable : deliverable (e_v e) enc (view e r);
  ft_made : Forall (made (e_table e)) (p2_fields r);
  ft_status : str_from_type (p2_code r) = Some st;
  ft_content : ~ uncoded_default e r;
  ft_clear : Forall (clear (e_table e)) (sent_fields e r st (used e r) (length (sent_content enc e r)));
  ft_size : block_size (sent_fields e r st (used e r) (length (sent_content enc e r))) < BUF_MAX * BUF_PER;
  ft_junk : length junk = BUF_PER }.
Lemma sent_fields_eq e r st c c' n n' : ce c = ce c' -> dec (N.of_nat n) = dec (N.of_nat n') -> sent_fields e r st c n = sent_fields e r st c' n'.
Proof.
  intros C D. unfold sent_fields. fold (ce c). fold (ce c'). rewrite C. f_equal. induction (pairs (p2_fields r) ++ default_fields e r ++ ce c') as [|f l IH]; cbn [set_length]; [rewrite D; reflexivity|].
  rewrite D, IH. reflexivity.
Qed.
Lemma answer_ok junk e enc r st : fit2 junk e enc r st ->
  exists rs c, answer2 junk e r = Ok ([mkHF FRAME_HEADERS (last_flags (bare e r)) (enc_block rs)], c) /\
    (forall max tab, exists tab', meaning_block max tab rs = Some (sent_fields e r st (used e r) (length (sent_content enc e r)), tab')) /\
    length (enc_block rs) <= block_size (sent_fields e r st (used e r) (length (sent_content enc e r))) /\
    H2WriteProofs.content_of c = sent_content enc e r /\ H2Write.content_len c = length (sent_content enc e r) /\ H2WriteProofs.writable c.
Proof.
  intros [S D M ST UD CL SZ J]. destruct (decided_ok e enc r S D) as (c & ty & de & n & DE & CE & DC & CB & W).
  destruct (content_ok e enc r c ty de n UD DE CE CB W) as ((x & X1 & X2 & X3 & X4) & TY).
  destruct (fields2_ok e r st c n M) as (h & F & MH & PH). rewrite (sent_fields_eq e r st c (used e r) n _ CE DC) in PH.
  rewrite <- PH in CL. destruct (block_ok (e_table e) h MH CL) as (rs & E & ME & L). rewrite PH in *.
  exists rs, x. split; [|split; [exact ME|]]. 2: rewrite <- E; auto.
  unfold answer2, status_value_v2. rewrite ST. cbn [obind]. rewrite DE. cbn [obind]. rewrite F. cbn [obind]. rewrite TY.
  rewrite send_headers_one; [|exact J|lia]. cbn [obind]. rewrite X1. cbn [obind]. rewrite E. reflexivity.
Qed.

Lemma header_frame ln ty fl sid pay : (ln < 2 ^ 24)%N -> (sid < 2 ^ 31)%N -> ln = N.of_nat (length pay) -> is_frame ty fl sid pay (fh_bytes ln ty fl false sid ++ pay).
Proof.
  intros L S ->. exists (fh_bytes (N.of_nat (length pay)) ty fl false sid). split; [reflexivity|]. split; [reflexivity|]. cbn [firstn fh_bytes nth skipn]. split; [apply be3; exact L|].
  split; [reflexivity|]. split; [reflexivity|]. rewrite N.lor_0_l. apply be4. change (2 ^ 31)%N with 2147483648%N in S. change (2 ^ 32)%N with 4294967296%N. lia.
Qed.
Lemma deliver_ok junk e enc r st sid win m k : fit2 junk e enc r st -> (sid < 2 ^ 31)%N -> (N.of_nat (length (sent_content enc e r)) < 2 ^ 24)%N ->
  block_size (sent_fields e r st (used e r) (length (sent_content enc e r))) <= m -> 9 <= m -> 2 <= k -> length (sent_content enc e r) <= k ->
  exists rs w1 w2 s', (forall max tab, exists tab', meaning_block max tab rs = Some (sent_fields e r st (used e r) (length (sent_content enc e r)), tab')) /\
    deliver junk e r sid win [repeat (H2Write.Took m) k; repeat (H2Write.Took m) k; repeat (H2Write.Took m) k] = Ok (w1 ++ w2, [], s', H2Write.RDone) /\
    is_frame 1 (last_flags (bare e r)) sid (enc_block rs) w1 /\
    (sent_content enc e r = [] -> w2 = []) /\
    (sent_content enc e r <> [] -> is_frame 0 (if (Z.of_nat (length (sent_content enc e r)) <? win)%Z then 1 else 0) sid (sent_content enc e r) w2).
Proof.
  intros F S24 C24 M M9 K2 KC. destruct (answer_ok junk e enc r st F) as (rs & c & A & ME & L & CO & CN & WR).
  set (f := mkHF FRAME_HEADERS (last_flags (bare e r)) (enc_block rs)) in *.
  destruct (H2WriteProofs.wire_ready (data_header sid win c) c [queued sid f] m k) as (s' & T & _); try assumption.
  - reflexivity.
  - discriminate.
  - constructor; [split; reflexivity|constructor].
  - constructor; [|constructor]. split; [exact M9|]. cbn [queued H2Write.qf_pay f hf_payload]. lia.
  - lia.
  - lia.
  - exists rs, (fh_bytes (N.of_nat (length (enc_block rs))) FRAME_HEADERS (last_flags (bare e r)) false sid ++ enc_block rs),
      (if H2Write.content_len c =? 0 then [] else data_header sid win c ++ sent_content enc e r), s'. split; [exact ME|]. split; [|split; [|split]].
    + unfold deliver. rewrite A. cbn [obind fst snd map]. rewrite T. unfold H2WriteProofs.wire. rewrite CO. cbn [flat_map]. rewrite app_nil_r. reflexivity.
    + apply header_frame; [|exact S24|reflexivity]. pose proof (ft_size _ _ _ _ _ F) as SZ. unfold BUF_MAX, BUF_PER in SZ. change (2 ^ 24)%N with 16777216%N. lia.
    + intros E. rewrite CN, E. reflexivity.
    + intros NE. rewrite CN. destruct (Nat.eqb_spec (length (sent_content enc e r)) 0) as [Z|Z]; [apply length_zero_iff_nil in Z; contradiction|].
      unfold data_header. rewrite CN. apply header_frame; [exact C24|exact S24|reflexivity].
Qed.

(** ** What goes wrong *)
Lemma no_status junk e r : str_from_type (p2_code r) = None -> answer2 junk e r = UB NullDeref.
Proof. intros E. unfold answer2, status_value_v2. rewrite E. reflexivity. Qed.
Lemma refusal_crash junk e r : str_from_type (p2_code r) <> None ->
  prepare (no_default (e_v e)) (view e r) = Ok P413 \/ prepare (no_default (e_v e)) (view e r) = Ok P500 -> answer2 junk e r = UB UseAfterFree.
Proof.
  intros ST P. unfold answer2, status_value_v2. destruct (str_from_type (p2_code r)) as [s|]; [|contradiction]. cbn [obind].
  rewrite decide_sim in P. destruct (decide e r) as [[| |]|]; cbn [lift] in P; destruct P; try discriminate; reflexivity.
Qed.
Lemma init_ok : hok header_init. Proof. split; [split; [constructor|reflexivity]|constructor]. Qed.
Lemma gzip_crash junk e enc r b l i c : (forall c, lawful (v_codec (e_v e) c) (enc c)) -> str_from_type (p2_code r) <> None -> p2_body r = Some b -> p2_pf r = None -> p2_dont r = false ->
  v_threshold (e_v e) <= length b -> v_accept (e_v e) = Some (l, AcceptEnc.DUse i c) -> AcceptEnc.c_type c = AcceptEnc.EGzip ->
  encbuf_chain_max (v_max (e_v e)) * PER <= length (enc c b) -> answer2 junk e r = UB UseAfterFree.
Proof.
  intros V ST B P DO TH VA CT BIG. apply refusal_crash; [exact ST|].
  assert (R : rcbs e r = None) by (unfold rcbs; rewrite B; reflexivity).
  assert (PR := body_coded (no_default (e_v e)) (view e r) b l i c init_ok B ltac:(unfold view; cbn [r_pf]; rewrite P, R; reflexivity) DO TH VA ltac:(rewrite CT; discriminate)).
  unfold run_encode, kind_of in PR. rewrite CT in PR. cbn [no_default v_max v_junk v_codec] in PR.
  pose proof (gzip_exact _ _ PER (encbuf_chain_max (v_max (e_v e))) (fresh PER (v_junk (e_v e))) (FromBody b) (V c) PER_pos (chain_max_pos _) (fresh_length _ _)) as G.
  cbn [source_data] in G. replace (length (enc c b) <? encbuf_chain_max (v_max (e_v e)) * PER) with false in G by (symmetry; apply Nat.ltb_ge; exact BIG).
  destruct G as [G|G]; rewrite G in PR; cbn [obind] in PR; [left|right]; exact PR.
Qed.
Lemma identity_crash junk e r l i c st : str_from_type (p2_code r) = Some st -> p2_body r = None -> bare e r = false ->
  (forall f, p2_pf r = Some f -> f_de f = None /\ v_threshold (e_v e) <= p2_count r /\ 0 < p2_count r) -> (forall f, rcbs e r = Some f -> df_de f = None /\ v_threshold (e_v e) <= df_size f /\ 0 < df_size f) ->
  p2_dont r = false -> v_accept (e_v e) = Some (l, AcceptEnc.DUse i c) -> AcceptEnc.c_type c = AcceptEnc.EIdentity ->
  length junk = BUF_PER -> Forall (made (e_table e)) (p2_fields r) ->
  (forall n, n = match p2_pf r, rcbs e r with Some f, _ => p2_count r | None, Some f => df_size f | None, None => 0 end ->
    Forall (clear (e_table e)) (sent_fields e r st (Some c) n) /\ block_size (sent_fields e r st (Some c) n) < BUF_MAX * BUF_PER) ->
  answer2 junk e r = UB NullDeref.
Proof.
  intros ST B NB FP FD DO VA CT J M CS. unfold answer2, status_value_v2. rewrite ST. cbn [obind].
  assert (D : exists n, n = match p2_pf r, rcbs e r with Some f, _ => p2_count r | None, Some f => df_size f | None, None => 0 end /\ 0 < n /\ decide e r = Ok (DSend (Some c) n HBody None n)).
  { unfold decide, begin2. unfold bare in NB. rewrite B in *. destruct (p2_pf r) as [f|] eqn:P.
    - destruct (FP f eq_refl) as (-> & TH & POS). exists (p2_count r). split; [reflexivity|]. split; [exact POS|]. rewrite DO. cbn [t_encoded t_len t_type t_de t_orig andb obind]. replace (v_threshold (e_v e) <=? p2_count r) with true by (symmetry; apply Nat.leb_le; exact TH).
      rewrite VA. cbn [AcceptEnc.decided_type]. unfold encode2. rewrite CT. reflexivity.
    - destruct (rcbs e r) as [f|] eqn:R; [|discriminate]. destruct (FD f eq_refl) as (-> & TH & POS). exists (df_size f). split; [reflexivity|]. split; [exact POS|]. rewrite DO. cbn [t_encoded t_len t_type t_de t_orig andb obind].
      replace (v_threshold (e_v e) <=? df_size f) with true by (symmetry; apply Nat.leb_le; exact TH). rewrite VA. cbn [AcceptEnc.decided_type]. unfold encode2. rewrite CT. reflexivity. }
  destruct D as (n & EN & POS & ->). cbn [obind]. destruct (fields2_ok e r st (Some c) n M) as (h & -> & MH & PH). cbn [obind].
  destruct (CS n EN) as (CL & SZ). rewrite <- PH in CL, SZ. destruct (block_ok (e_table e) h MH CL) as (rs & E & ME & L).
  rewrite send_headers_one; [|exact J|lia]. cbn [obind]. unfold content2. destruct (Nat.eqb_spec n 0); [lia|]. rewrite B. reflexivity.
Qed.
(** Default content below the threshold: the worker hangs. *)
Lemma default_hang junk e r f st sid win m k k' rest : str_from_type (p2_code r) = Some st -> rcbs e r = Some f -> df_de f = None -> 0 < df_size f ->
  df_size f < v_threshold (e_v e) \/ p2_dont r = true -> length junk = BUF_PER -> Forall (made (e_table e)) (p2_fields r) ->
  Forall (clear (e_table e)) (sent_fields e r st None (df_size f)) -> block_size (sent_fields e r st None (df_size f)) < BUF_MAX * BUF_PER ->
  block_size (sent_fields e r st None (df_size f)) <= m -> 9 <= m -> 2 <= k ->
  deliver junk e r sid win (repeat (H2Write.Took m) k :: [H2Write.Took 9] :: k' :: rest) = UB Diverges.
Proof.
  intros ST R DE POS TH J M CL SZ MB M9 K2. unfold rcbs in R. destruct (p2_body r) eqn:B; [discriminate|]. destruct (p2_pf r) eqn:P; [discriminate|].
  assert (R' : rcbs e r = Some f) by (unfold rcbs; rewrite B, P; exact R).
  assert (D : decide e r = Ok (DSend None (df_size f) HDefault None (df_size f))).
  { unfold decide. assert (S : begin2 e r = mkStart2 HDefault (df_size f) (df_size f) None false (p2_coding r)) by (unfold begin2; rewrite B, P, R', DE; reflexivity). rewrite S. cbn [t_type t_len t_de t_encoded t_orig andb obind].
    destruct (p2_dont r) eqn:DO; [reflexivity|]. destruct TH as [TH|]; [|discriminate]. replace (v_threshold (e_v e) <=? df_size f) with false by (symmetry; apply Nat.leb_gt; exact TH). reflexivity. }
  destruct (fields2_ok e r st None (df_size f) M) as (h & F & MH & PH). rewrite <- PH in CL, SZ, MB. destruct (block_ok (e_table e) h MH CL) as (rs & E & ME & L).
  assert (A : answer2 junk e r = Ok ([mkHF FRAME_HEADERS (last_flags false) (concat (map put_x h))], H2Write.CDefault (df_data f) (df_size f))).
  { unfold answer2, status_value_v2. rewrite ST. cbn [obind]. rewrite D. cbn [obind]. rewrite F. cbn [obind]. rewrite send_headers_one; [|exact J|lia]. cbn [obind]. unfold content2. destruct (Nat.eqb_spec (df_size f) 0); [lia|]. rewrite R'. reflexivity. }
  pose proof (H2WriteProofs.default_hangs (data_header sid win (H2Write.CDefault (df_data f) (df_size f))) (df_data f) (df_size f) k' rest eq_refl POS) as HG. change H2Write.HLEN with 9 in HG.
  unfold deliver. rewrite A. cbn [obind fst snd map]. revert HG. generalize ([H2Write.Took 9] :: k' :: rest). intros more HG. cbn [H2Write.turns]. unfold H2Write.turn.
  set (q := queued sid _).
  destruct (H2WriteProofs.ready_queue m [q]) with (k := k) as (k0 & EQ).
  - constructor; [split; reflexivity|constructor].
  - constructor; [|constructor]. split; [exact M9|]. cbn [q queued H2Write.qf_pay hf_payload]. lia.
  - cbn [length]. lia.
  - rewrite EQ. cbn [obind]. rewrite HG. reflexivity.
Qed.

(** ** What the responses are *)
(** A field is added unless there is one of this name. *)
Definition ensure (n v : list N) (fs : list (list N * list N)) : list (list N * list N) := if existsb (fun p => bytes_eqb (fst p) n) fs then fs else fs ++ [(n, v)].
Lemma pairs_add2 d h n v : pairs (add2 d h n v) = pairs h ++ [(n, v)]. Proof. unfold add2. rewrite pairs_app. reflexivity. Qed.
Lemma pairs_ifno2 d h n v : pairs (add2_ifno d h n v) = ensure n v (pairs h).
Proof. unfold add2_ifno, ensure. rewrite has_pairs. destruct (existsb _ _); [reflexivity|apply pairs_add2]. Qed.
Lemma pairs_ifno1 h n v : pairs (add1_ifno h n v) = ensure n v (pairs h).
Proof. unfold add1_ifno, ensure. rewrite has_pairs. destruct (existsb _ _); [reflexivity|]. unfold add1. rewrite pairs_app. reflexivity. Qed.
Definition status_list2 (v : renv) (c : stcode) (etag : list N) : list (list N * list N) :=
  match c with S405 | S414 | S415 | S417 => [(bs "allow", v_allow v)] | _ => [] end ++
  [(bs "server", v_server v); (bs "date", v_date v)] ++ match c with S304 => [(bs "etag", etag)] | _ => [] end.
Lemma status_pairs e c etag : pairs (p2_fields (status_response2 e c etag)) = status_list2 (e_v e) c etag /\ Forall (made (e_table e)) (p2_fields (status_response2 e c etag)).
Proof.
  assert (A : forall b o, pairs (status_fields2 e b o) = (if b then [(bs "allow", v_allow (e_v e))] else []) ++ [(bs "server", v_server (e_v e)); (bs "date", v_date (e_v e))] ++ match o with Some t => [(bs "etag", t)] | None => [] end).
  { intros [|] [|]; unfold status_fields2; rewrite ?pairs_add2, !pairs_ifno2, ?pairs_add2; reflexivity. }
  assert (B : forall b o, Forall (made (e_table e)) (status_fields2 e b o)).
  { intros b o. unfold status_fields2. assert (X : Forall (made (e_table e)) (add2_ifno (e_table e) (add2_ifno (e_table e) (if b then add2 (e_table e) [] (bs "allow") (v_allow (e_v e)) else []) (bs "server") (v_server (e_v e))) (bs "date") (v_date (e_v e)))).
    { apply made_add2_ifno; [|discriminate]. apply made_add2_ifno; [|discriminate]. destruct b; [apply made_add2; [constructor|discriminate]|constructor]. }
    destruct o; [apply made_add2; [exact X|discriminate]|exact X]. }
  split; [|apply B]. unfold status_response2, p2_fields. rewrite A. unfold status_list2. destruct c; reflexivity.
Qed.
Lemma status_sent e c etag st : e_default e c = None -> sent_fields e (status_response2 e c etag) st None 0 = (bs ":status", st) :: status_list2 (e_v e) c etag ++ [(bs "content-length", bs "0")].
Proof.
  intros D. unfold sent_fields, default_fields, rcbs. cbn [status_response2 p2_body p2_pf p2_code]. rewrite D, !app_nil_r, (proj1 (status_pairs e c etag)).
  unfold status_list2. destruct c; reflexivity.
Qed.
Lemma status_fit junk e enc c etag st : (forall c, lawful (v_codec (e_v e) c) (enc c)) -> 0 < v_threshold (e_v e) -> e_default e c = None -> str_from_type c = Some st ->
  Forall (clear (e_table e)) ((bs ":status", st) :: status_list2 (e_v e) c etag ++ [(bs "content-length", bs "0")]) ->
  block_size ((bs ":status", st) :: status_list2 (e_v e) c etag ++ [(bs "content-length", bs "0")]) < BUF_MAX * BUF_PER -> length junk = BUF_PER ->
  used e (status_response2 e c etag) = None /\ sent_content enc e (status_response2 e c etag) = [] /\ bare e (status_response2 e c etag) = true /\ fit2 junk e enc (status_response2 e c etag) st.
Proof.
  intros V TH D ST CL SZ J.
  assert (R : rcbs e (status_response2 e c etag) = None) by (unfold rcbs; exact D).
  assert (PL : payload (view e (status_response2 e c etag)) = []) by (unfold payload, view; cbn [r_body r_pf status_response2 p2_body p2_pf]; fold (status_response2 e c etag); rewrite R; reflexivity).
  assert (SD : stored_de (view e (status_response2 e c etag)) = None) by (unfold stored_de, view; cbn [r_body r_pf status_response2 p2_body p2_pf]; fold (status_response2 e c etag); rewrite R; reflexivity).
  assert (U : used e (status_response2 e c etag) = None).
  { unfold used, coding_used. rewrite PL, SD. cbn [view r_dont status_response2 p2_dont length option_map]. destruct (v_accept (e_v e)) as [(l, x)|]; [|reflexivity].
    replace (v_threshold (e_v e) <=? 0) with false by (symmetry; apply Nat.leb_gt; exact TH). reflexivity. }
  assert (SC : sent_content enc e (status_response2 e c etag) = []) by (unfold sent_content; rewrite U, PL; reflexivity).
  split; [exact U|]. split; [exact SC|]. split; [unfold bare; cbn [status_response2 p2_body p2_pf]; fold (status_response2 e c etag); rewrite R; reflexivity|].
  constructor.
  - constructor.
    + exact V.
    + split; [constructor|reflexivity].
    + constructor.
    + intros ? ? ? X. discriminate X.
    + left. reflexivity.
    + intros f. unfold view. cbn [r_pf status_response2 p2_pf]. fold (status_response2 e c etag). rewrite R. discriminate.
    + rewrite SD. discriminate.
    + intros _. right. rewrite PL, SD. split; [exact TH|reflexivity].
  - unfold deliverable, stored_used. rewrite SD. change (coding_used (e_v e) (view e (status_response2 e c etag))) with (used e (status_response2 e c etag)). rewrite U. reflexivity.
  - apply status_pairs.
  - exact ST.
  - intros (X & _). apply X. exact R.
  - rewrite U, SC, status_sent by exact D. exact CL.
  - rewrite U, SC, status_sent by exact D. exact SZ.
  - exact J.
Qed.
Definition file_list2 (v : renv) (f : rfile) (c : option AcceptEnc.coding) (n : nat) : list (list N * list N) :=
  [(bs ":status", bs "200"); (bs "content-length", dec (N.of_nat n)); (bs "etag", f_etag f); (bs "date", v_date v); (bs "last-modified", f_lastmod f); (bs "content-type", f_mime f)] ++ ce c.
Lemma file_pairs e f c n : f_over f = false -> sent_fields e (file_response2 e f) (bs "200") c n = file_list2 (e_v e) f c n /\ Forall (made (e_table e)) (p2_fields (file_response2 e f)) /\
  p2_code (file_response2 e f) = S200 /\ p2_body (file_response2 e f) = None /\ p2_pf (file_response2 e f) = Some f /\ p2_count (file_response2 e f) = f_size f /\ p2_dont (file_response2 e f) = false.
Proof.
  intros O. unfold file_response2. rewrite O. cbn [p2_fields p2_code p2_body p2_pf p2_count p2_dont]. split; [|split; [|auto 10]].
  - unfold sent_fields, default_fields, rcbs. cbn [p2_fields p2_body p2_pf]. fold (ce c). rewrite pairs_ifno1, pairs_add2, pairs_ifno2, !pairs_add2. cbn [pairs map app]. reflexivity.
  - apply made_add1_ifno; [|discriminate]. apply made_add2; [|discriminate]. apply made_add2_ifno; [|discriminate]. apply made_add2; [|discriminate]. apply made_add2; [constructor|discriminate].
Qed.
Lemma file_fit junk e enc f : (forall c, lawful (v_codec (e_v e) c) (enc c)) -> f_over f = false -> f_size f = length (f_data f) -> f_de f = None -> f_size f < v_threshold (e_v e) ->
  Forall (clear (e_table e)) (file_list2 (e_v e) f None (f_size f)) -> block_size (file_list2 (e_v e) f None (f_size f)) < BUF_MAX * BUF_PER -> length junk = BUF_PER ->
  let r := file_response2 e f in used e r = None /\ sent_content enc e r = f_data f /\ bare e r = false /\ fit2 junk e enc r (bs "200").
Proof.
  intros V O SZ DE TH CL BL J r. destruct (file_pairs e f None (f_size f) O) as (PP & MD & F1 & F2 & F3 & F4 & F5). fold r in PP, MD, F1, F2, F3, F4, F5. clearbody r.
  assert (R : rcbs e r = None) by (unfold rcbs; rewrite F2, F3; reflexivity).
  assert (PL : payload (view e r) = f_data f) by (unfold payload, view; cbn [r_body r_pf]; rewrite F2, F3; reflexivity).
  assert (SD : stored_de (view e r) = None) by (unfold stored_de, view; cbn [r_body r_pf]; rewrite F2, F3; exact DE).
  assert (U : used e r = None).
  { unfold used, coding_used. rewrite PL, SD. cbn [view r_dont option_map]. rewrite F5. destruct (v_accept (e_v e)) as [(l, x)|]; [|reflexivity].
    replace (v_threshold (e_v e) <=? length (f_data f)) with false by (symmetry; apply Nat.leb_gt; lia). reflexivity. }
  assert (SC : sent_content enc e r = f_data f) by (unfold sent_content; rewrite U, PL; reflexivity).
  split; [exact U|]. split; [exact SC|]. split; [unfold bare; rewrite F2, F3; reflexivity|]. constructor.
  - constructor.
    + exact V.
    + split; [constructor|reflexivity].
    + constructor.
    + intros ? ? ? X. discriminate X.
    + left. cbn [view r_body]. exact F2.
    + intros g. cbn [view r_pf r_count]. rewrite F3, F4. intros X. injection X as <-. auto.
    + rewrite SD. discriminate.
    + intros _. right. rewrite PL, SD. split; [cbn [no_default v_threshold]; lia|reflexivity].
  - unfold deliverable, stored_used. rewrite SD. change (coding_used (e_v e) (view e r)) with (used e r). rewrite U. reflexivity.
  - exact MD.
  - rewrite F1. reflexivity.
  - intros (X & _). apply X. exact R.
  - rewrite U, SC, <- SZ, PP. exact CL.
  - rewrite U, SC, <- SZ, PP. exact BL.
  - exact J.
Qed.
(** A handler's Response: its fields with lower-case names, then content-type, date and server where they are missing. *)
Lemma handler_pairs e debug terr ds x p : PyBridge.wrapper debug terr ds x = Some (PyBridge.PResp p) -> PyBridge.too_long (e_v e) (PyBridge.p_body p) = false -> forall m, Mime.mime_from_str (PyBridge.p_ctype p) = Ok m -> Forall (fun f => fst f <> []) (PyBridge.p_header p) ->
  exists r, handler_answer2 e false debug terr ds x = Ok r /\ p2_code r = type_from_long (PyBridge.p_status p) /\ p2_body r = PyBridge.c_body (PyBridge.p_body p) /\ p2_pf r = None /\ p2_dont r = false /\ Forall (made (e_table e)) (p2_fields r) /\
   pairs (p2_fields r) = ensure (bs "content-type") (bs "text/plain") (ensure (bs "server") (v_server (e_v e)) (ensure (bs "date") (v_date (e_v e))
      (ensure (bs "content-type") (Mime.mt_name m) (map (fun f => (map lower (fst f), snd f)) (PyBridge.p_header p))))).
Proof.
  intros W T m M NE. unfold handler_answer2. rewrite W. cbn [bridge2]. rewrite T, M. cbn [obind]. eexists. split; [reflexivity|]. cbn [finish2 p2_code p2_body p2_pf p2_dont p2_fields].
  assert (G : forall l h, Forall (fun f => fst f <> []) l -> Forall (made (e_table e)) h ->
     pairs (fold_left (fun h f => add2 (e_table e) h (map lower (fst f)) (snd f)) l h) = pairs h ++ map (fun f => (map lower (fst f), snd f)) l /\
     Forall (made (e_table e)) (fold_left (fun h f => add2 (e_table e) h (map lower (fst f)) (snd f)) l h)).
  { induction l as [|f l IH]; intros h Fl Fh; cbn [fold_left map]; [rewrite app_nil_r; auto|]. inversion Fl as [|? ? N1 N2]; subst.
    destruct (IH (add2 (e_table e) h (map lower (fst f)) (snd f)) N2) as (A & B). { apply made_add2; [exact Fh|]. destruct (fst f); [contradiction|discriminate]. }
    split; [|exact B]. rewrite A, pairs_add2, <- app_assoc. reflexivity. }
  destruct (G (PyBridge.p_header p) [] NE (Forall_nil _)) as (A & B).
  repeat (split; [reflexivity|]). split.
  - apply made_add1_ifno; [|discriminate]. apply made_add2_ifno; [|discriminate]. apply made_add2_ifno; [|discriminate]. apply made_add1_ifno; [|discriminate]. exact B.
  - rewrite pairs_ifno1, !pairs_ifno2, pairs_ifno1, A. reflexivity.
Qed.
(** One content-length, whatever the spelling of the handler's. *)
Definition lengths2 (fs : list (list N * list N)) : list (list N) := map snd (filter (fun p => bytes_eqb (fst p) (bs "content-length")) fs).
Lemma set_length_one n fs : length (lengths2 fs) <= 1 -> lengths2 (set_length n fs) = [dec (N.of_nat n)].
Proof.
  unfold lengths2. induction fs as [|(a, b) fs IH]; intros L; [reflexivity|]. cbn [set_length fst filter] in *. destruct (bytes_eqb a (bs "content-length")) eqn:E.
  - cbn [map length snd] in L. cbn [filter fst]. rewrite E. cbn [map snd]. f_equal. destruct (map snd (filter _ fs)); [reflexivity|cbn in L; lia].
  - cbn [filter fst]. rewrite E. apply IH. exact L.
Qed.
Lemma one_length e r st c n : rcbs e r = None -> length (lengths2 (pairs (p2_fields r))) <= 1 -> lengths2 (sent_fields e r st c n) = [dec (N.of_nat n)].
Proof.
  intros R L. unfold sent_fields. change (lengths2 ((bs ":status", st) :: ?x)) with (lengths2 x). apply set_length_one. unfold default_fields. rewrite R. cbn [app].
  unfold lengths2 in *. rewrite filter_app, map_app, app_length.
  assert (Z : filter (fun p => bytes_eqb (fst p) (bs "content-length")) (match c with Some c => [(bs "content-encoding", enc_name c)] | None => [] end) = []) by (destruct c; reflexivity).
  rewrite Z. cbn [map length]. lia.
Qed.
(** Names in str objects. *)
Lemma lowered l : forall m i, fold_left lower_name l m i = if existsb (Nat.eqb i) l then map lower (m i) else m i.
Proof.
  assert (LL : forall x, map lower (map lower x) = map lower x).
  { intros x. rewrite map_map. apply map_ext. intros a. unfold lower. destruct ((65 <=? a)%N && (a <=? 90)%N) eqn:E; [|rewrite E; reflexivity].
    apply andb_prop in E as (E1 & E2). apply N.leb_le in E1, E2. destruct ((65 <=? a + 32)%N && (a + 32 <=? 90)%N) eqn:F; [|reflexivity]. apply andb_prop in F as (F1 & F2). apply N.leb_le in F1, F2. lia. }
  induction l as [|j l IH]; intros m i; [reflexivity|]. cbn [fold_left existsb]. rewrite IH. unfold lower_name. destruct (Nat.eqb_spec i j) as [->|NE]; cbn [orb].
  - destruct (existsb (Nat.eqb j) l); [apply LL|reflexivity].
  - reflexivity.
Qed.
Lemma names_after m l l' : fst (http1_names (snd (http2_names m l)) l') = map (fun i => if existsb (Nat.eqb i) l then map lower (m i) else m i) l' /\
  fst (http2_names m l) = map (fun i => map lower (m i)) l.
Proof.
  unfold http1_names, http2_names. cbn [fst snd]. split; apply map_ext_in; intros i I1; rewrite lowered; [reflexivity|].
  replace (existsb (Nat.eqb i) l) with true; [reflexivity|]. symmetry. apply existsb_exists. exists i. split; [exact I1|apply Nat.eqb_refl].
Qed.
