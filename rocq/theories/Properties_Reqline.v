(** C10-C14: the request line. *)
From Verif Require Import Base CStr Names NamesProofs Buffer BufferProofs Reqline ReqlineSpec ReqlineProofs.
Local Open Scope N_scope.

(** ** C10.  Full statement (false, see the refutations): for every method, every origin-form target
    with an optional query and every supported version the line is accepted, and method, path, query
    and version are exactly those of the line. *)
(** Missing: the method CONNECT, queries that are empty and queries that begin with a percent-encoded octet. *)
Theorem reqline_decoded_partial : forall m path q v, m <> CONNECT -> abs_path path -> plain_query q ->
  parse_reqline (request_line m (with_query path q) v) = Ok (Some (mkReqline (Some m) path q (Some v))).
Proof. exact reqline_decoded. Qed.
Print Assumptions reqline_decoded_partial.

Lemma ex_path_ok : abs_path (bs "/a%41/b;x=1").
Proof.
  split; [eexists; reflexivity|]. change (bs "/a%41/b;x=1") with [47; 97; 37; 52; 49; 47; 98; 59; 120; 61; 49].
  apply enc_char; [auto|]. apply enc_char; [left; classes; lia|]. apply enc_pct; [classes; lia|classes; lia|].
  apply enc_char; [auto|]. repeat (apply enc_char; [left; classes; lia|]). apply enc_nil.
Qed.
Example reqline_decoded_example : abs_path (bs "/a%41/b;x=1") /\ plain_query (Some (bs "k=v")) /\
  parse_reqline (bs "PATCH /a%41/b;x=1?k=v HTTP/1.1" ++ [13; 10]) =
    Ok (Some (mkReqline (Some PATCH) (bs "/a%41/b;x=1") (Some (bs "k=v")) (Some V1_1))).
Proof.
  split; [exact ex_path_ok|]. split; [|reflexivity]. split; [discriminate|]. split; [|discriminate].
  change (bs "k=v") with [107; 61; 118]. repeat (apply enc_char; [left; classes; lia|]). apply enc_nil.
Qed.

Theorem reqline_encoded_query_refuted : exists m path q v, m <> CONNECT /\ abs_path path /\ q <> [] /\ query_text q /\
  exists q', parse_reqline (request_line m (with_query path (Some q)) v) = Ok (Some (mkReqline (Some m) path (Some q') (Some v))) /\ q' <> q.
Proof.
  exists GET, (bs "/"), (bs "%41=1"), V1_1. split; [discriminate|].
  split; [split; [eexists; reflexivity|apply enc_char; [auto|apply enc_nil]]|]. split; [discriminate|].
  split; [change (bs "%41=1") with [37; 52; 49; 61; 49]; apply enc_pct; [classes; lia|classes; lia|]; repeat (apply enc_char; [left; classes; lia|]); apply enc_nil|].
  exists (bs "1=1"). split; [reflexivity|discriminate].
Qed.
Print Assumptions reqline_encoded_query_refuted.

Theorem reqline_connect_origin_refuted : exists path, abs_path path /\ parse_reqline (request_line CONNECT path V1_1) = Ok None.
Proof. exists (bs "/a%41/b;x=1"). split; [exact ex_path_ok|reflexivity]. Qed.
Print Assumptions reqline_connect_origin_refuted.

(** ** C11.  Full statement (false, see the refutation): an accepted line is
    METHOD SP target SP HTTP/version with a supported method and version. *)
(** Exactly the lines of [fly_line] are accepted, with the method, path, query and version it gives; the
    parser never reads outside the line and always ends.  Missing with respect to the full
    statement: blanks may be repeated and the text "HTTP" may be missing or repeated. *)
Theorem reqline_language_partial : forall line,
  (forall m path q v, parse_reqline line = Ok (Some (mkReqline (Some m) path q (Some v))) <-> fly_line line m path q v) /\
  (parse_reqline line = Ok None \/ exists m path q v, parse_reqline line = Ok (Some (mkReqline (Some m) path q (Some v)))).
Proof.
  intros line. split; [intros; apply reqline_exact|]. destruct (reqline_sound line) as (o & E & P). destruct o as [r|]; [right|left; exact E].
  destruct P as (m & path & q & v & _ & ->). eauto.
Qed.
Print Assumptions reqline_language_partial.
Example reqline_language_example : fly_line (bs "GET / HTTP/2" ++ [13; 10]) GET (bs "/") None V2.
Proof.
  apply (fly_line_rest GET (bs "/") (bs "/") None V2 []). apply ft_path; [discriminate|]. split; [eexists; reflexivity|]. apply enc_char; [auto|apply enc_nil].
Qed.

Theorem reqline_malformed_accepted_refuted : exists line m path q v,
  parse_reqline line = Ok (Some (mkReqline (Some m) path q (Some v))) /\ forall m' t v', line <> request_line m' t v'.
Proof.
  exists (bs "GET / /1.1" ++ [13; 10]), GET, (bs "/"), None, V1_1. split; [reflexivity|]. intros m' t v' E.
  unfold request_line in E. change (bs "HTTP/") with ([72] ++ bs "TTP/") in E.
  assert (I : In 72 (bs "GET / /1.1" ++ [13; 10])). { rewrite E. rewrite !in_app_iff. cbn [In]. tauto. }
  vm_compute in I. intuition discriminate.
Qed.
Print Assumptions reqline_malformed_accepted_refuted.

(** ** C12.  Full statement (false, see the refutation): whatever the split, an accepted line is
    incomplete before its terminator has arrived and then gives the same result. *)
(** For a buffer of any shape.  Missing: nothing may lie in the memory behind the received bytes that
    contains a line feed (the search reads it). *)
Theorem reqline_segmentation_partial : forall l r b, ~ In 10 l -> parse_reqline (l ++ CRLF_) = Ok (Some r) -> (Z.of_nat (length l + 2) < 8000)%Z -> wf b ->
  (forall n, (n < length l + 2)%nat -> stream b = firstn n (l ++ CRLF_) -> clean_tail b -> request_operation b = Ok NotReady) /\
  (forall more, stream b = l ++ CRLF_ ++ more -> exists b', request_operation b = Ok (Accepted r b') /\ wf b' /\ stream b' = more).
Proof. exact segmentation. Qed.
Print Assumptions reqline_segmentation_partial.

Definition ex_split (n : nat) : buffer :=
  let l := firstn n (bs "GET / HTTP/1.1" ++ [13; 10]) in
  mkBuffer [mkChain (firstn 8 (l ++ repeat 0 8)) 0 (8 - length l); mkChain (skipn 8 l ++ repeat 0 (16 - length l)) 0 (16 - length l)] 2 9 8 n.
Example reqline_segmentation_example :
  parse_reqline (bs "GET / HTTP/1.1" ++ CRLF_) = Ok (Some (mkReqline (Some GET) (bs "/") None (Some V1_1))) /\
  wf (ex_split 15) /\ stream (ex_split 15) = firstn 15 (bs "GET / HTTP/1.1" ++ CRLF_) /\ clean_tail (ex_split 15) /\
  request_operation (ex_split 15) = Ok NotReady.
Proof.
  split; [reflexivity|]. split; [unfold wf; vm_compute; repeat split; try lia; try discriminate|]. split; [reflexivity|].
  split; [|reflexivity]. intros i H. change (mem (b_chains (ex_split 15))) with (bs "GET / HTTP/1.1" ++ [13; 0]).
  change (length (stream (ex_split 15))) with 15%nat in H.
  destruct i as [|i]; [lia|]. do 14 (destruct i as [|i]; [lia|]). destruct i as [|i]; [discriminate|]. destruct i; discriminate.
Qed.

(** Three bytes have arrived in a newly allocated block (fly_pballoc does not clear memory) that still
    holds an earlier request: a complete request line is found and accepted. *)
Theorem reqline_stale_memory_refuted : exists l junk b0 b r,
  ~ In 10 l /\ parse_reqline (l ++ CRLF_) = Ok (Some r) /\ buf_init junk 1 4 32 = Some b0 /\
  recv_chunk [] b0 (bs "GET") = Ok (UpdSuccess b) /\ wf b /\ stream b = firstn 3 (l ++ CRLF_) /\
  exists r' b', request_operation b = Ok (Accepted r' b') /\ r' <> r.
Proof.
  exists (bs "GET / HTTP/1.1"), (fresh 32 (bs "??? /a HTTP/1.1" ++ [13; 10])).
  exists (mkBuffer [mkChain (fresh 32 (bs "??? /a HTTP/1.1" ++ [13; 10])) 0 32] 1 4 32 0).
  exists (mkBuffer [mkChain (fresh 32 (bs "GET /a HTTP/1.1" ++ [13; 10])) 0 29] 1 4 32 3).
  exists (mkReqline (Some GET) (bs "/") None (Some V1_1)).
  split; [vm_compute; intuition discriminate|]. split; [vm_compute; reflexivity|]. split; [vm_compute; reflexivity|]. split; [vm_compute; reflexivity|].
  split; [unfold wf; vm_compute; repeat split; try lia; try discriminate|]. split; [vm_compute; reflexivity|].
  exists (mkReqline (Some GET) (bs "/a") None (Some V1_1)), (mkBuffer [mkChain (fresh 32 (bs "GET /a HTTP/1.1" ++ [13; 10])) 17 29] 1 4 32 0).
  split; [vm_compute; reflexivity|discriminate].
Qed.
Print Assumptions reqline_stale_memory_refuted.

(** ** C13.  Full statement: absolute-form targets, and "*" with OPTIONS, are accepted.  False: no target
    of a method other than CONNECT is accepted unless it begins with "/". *)
Theorem reqline_other_target_rejected : forall m c t, m <> CONNECT -> c <> 47 -> c <> 32 ->
  parse_reqline (method_spelling m ++ SP ++ c :: t) = Ok None.
Proof. exact other_target_rejected. Qed.
Print Assumptions reqline_other_target_rejected.
Theorem reqline_absolute_form_rejected : forall m host v, m <> CONNECT -> 
  parse_reqline (request_line m (bs "http://" ++ host) v) = Ok None.
Proof. intros m host v NC. exact (other_target_rejected m 104 _ NC ltac:(discriminate) ltac:(discriminate)). Qed.
Print Assumptions reqline_absolute_form_rejected.
Theorem reqline_asterisk_form_rejected : forall v, parse_reqline (request_line OPTIONS (bs "*") v) = Ok None.
Proof. intros v. exact (other_target_rejected OPTIONS 42 _ ltac:(discriminate) ltac:(discriminate) ltac:(discriminate)). Qed.
Print Assumptions reqline_asterisk_form_rejected.
Theorem reqline_target_forms_refuted : exists m t v, m <> CONNECT /\ (t = bs "http://example/" \/ (m = OPTIONS /\ t = bs "*")) /\
  parse_reqline (request_line m t v) = Ok None.
Proof. exists OPTIONS, (bs "*"), V1_1. split; [discriminate|]. split; [auto|reflexivity]. Qed.
Print Assumptions reqline_target_forms_refuted.
(** A CONNECT request needs user information before its host, and its target is then lost. *)
Theorem reqline_authority_form_refuted :
  parse_reqline (request_line CONNECT (bs "example:443") V1_1) = Ok None /\
  forall line path q v, parse_reqline line = Ok (Some (mkReqline (Some CONNECT) path q (Some v))) -> path = [] /\ q = None.
Proof.
  split; [reflexivity|]. intros line path q v H. apply reqline_exact in H.
  inversion H as [m s1 t p q0 s2 k v0 rest T S1 S2]; subst. inversion T; subst; try contradiction. auto.
Qed.
Print Assumptions reqline_authority_form_refuted.
Example reqline_authority_example : parse_reqline (bs "CONNECT u@example:443 HTTP/1.1" ++ [13; 10]) = Ok (Some (mkReqline (Some CONNECT) [] None (Some V1_1))).
Proof. reflexivity. Qed.

(** ** C14.  Full statement (false, see the refutation): a line longer than the limit is answered 414
    and not parsed; a line within the limit never is. *)
(** A line that ends with the first CRLF (and has no CR CR before it) is answered 414 exactly if it has 8000 bytes or more,
    its CRLF included. *)
Theorem reqline_limit_partial : forall b j, wf b -> occurs CRLF (stream b) j -> (forall j', (j' < j)%nat -> ~ occurs CRLF (stream b) j') ->
  no_crcr (stream b) j -> (request_operation b = Ok E414 <-> (8000 <= Z.of_nat (j + 2))%Z).
Proof.
  intros b j W O F NC. pose proof (operation_line b j W O F NC) as H. destruct (Z.leb_spec 8000 (Z.of_nat (j + 2))) as [L|L].
  - rewrite H. tauto.
  - split; [|lia]. intros E. exfalso. destruct (parse_reqline _) as [[r|]|u]; [destruct H as (b' & H & _); congruence|congruence|congruence].
Qed.
Print Assumptions reqline_limit_partial.
Definition ex_line2 : buffer := mkBuffer [mkChain (bs "GET ") 0 0; mkChain (bs "/" ++ CRLF ++ bs "?") 0 1] 2 9 4 7.
Example reqline_limit_example : wf ex_line2 /\ occurs CRLF (stream ex_line2) 5 /\ no_crcr (stream ex_line2) 5 /\ request_operation ex_line2 = Ok E400.
Proof.
  split; [unfold wf; vm_compute; repeat split; try lia; try discriminate|]. split; [exists (bs "GET /"), []; split; reflexivity|].
  split; [|reflexivity]. intros t Ht E. destruct t as [|[|[|[|[|t]]]]]; try discriminate E. lia.
Qed.
(** A line that never ends is not answered 414, however long. *)
Theorem reqline_endless_not_ready : forall n, exists b, wf b /\ stream b = repeat 65 (S n) /\ request_operation b = Ok NotReady.
Proof.
  intros n. exists (mkBuffer [mkChain (repeat 65 (S n) ++ [0]) 0 1] 1 1 (S (S n)) (S n)).
  assert (L : length (repeat 65 (S n) ++ [0]) = S (S n)) by (rewrite app_length, repeat_length; cbn; lia).
  assert (ST : stream (mkBuffer [mkChain (repeat 65 (S n) ++ [0]) 0 1] 1 1 (S (S n)) (S n)) = repeat 65 (S n)).
  { unfold stream, c_view, c_written, c_len. cbn [b_chains flat_map c_data c_unuse c_use skipn]. rewrite L, app_nil_r.
    replace (S (S n) - 1 - 0)%nat with (length (repeat 65 (S n))) by (rewrite repeat_length; lia). apply firstn_exact. }
  assert (W : wf (mkBuffer [mkChain (repeat 65 (S n) ++ [0]) 0 1] 1 1 (S (S n)) (S n))).
  { unfold wf. rewrite ST. cbn [b_per b_chains wf_chains b_count b_max b_use_len length]. unfold c_len, c_written, c_len. cbn [c_data c_unuse c_use]. rewrite L, repeat_length.
    repeat split; try lia; auto. }
  split; [exact W|]. split; [exact ST|]. apply operation_none; [exact W|]. intros j O. apply occurs_nth in O as [O _]. specialize (O 0%nat ltac:(cbn; lia)).
  rewrite Nat.add_0_r in O. apply nth_error_In in O. cbn [b_chains mem flat_map c_mem c_use c_data skipn] in O. rewrite app_nil_r in O.
  apply in_app_iff in O as [O|O]; [apply repeat_spec in O; discriminate O|destruct O as [O|O]; [discriminate O|destruct O]].
Qed.
Print Assumptions reqline_endless_not_ready.
Theorem reqline_limit_refuted : exists b, wf b /\ (8000 < Z.of_nat (length (stream b)))%Z /\ request_operation b <> Ok E414.
Proof.
  destruct (reqline_endless_not_ready (Z.to_nat 8000)) as (b & W & S & R). exists b. split; [exact W|]. split; [rewrite S, repeat_length; lia|rewrite R; discriminate].
Qed.
Print Assumptions reqline_limit_refuted.
