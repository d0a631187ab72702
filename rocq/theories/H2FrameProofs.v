From Verif Require Import Base Buffer BufferProofs H2Frame.
Local Open Scope N_scope.

(** ** Integers *)
Lemma be_app l x : be (l ++ [x]) = be l * 256 + x.
Proof. unfold be. rewrite fold_left_app. reflexivity. Qed.

Fixpoint be_bytes (n : nat) (v : N) : list N :=
  match n with O => [] | S n' => be_bytes n' (v / 256) ++ [v mod 256] end.

Lemma be_be_bytes n : forall v, be (be_bytes n v) = v mod 256 ^ N.of_nat n.
Proof.
  induction n as [|n IH]; intros v.
  - cbn. symmetry. apply N.mod_1_r.
  - cbn [be_bytes]. rewrite be_app, IH. rewrite Nat2N.inj_succ, N.pow_succ_r'.
    rewrite (N.mod_mul_r v 256 (256 ^ N.of_nat n)); [lia|lia|apply N.pow_nonzero; lia].
Qed.

Lemma byte_of_S v k : byte_of v (k + 1) = byte_of (v / 256) k.
Proof.
  unfold byte_of. rewrite N.mul_add_distr_l, N.pow_add_r, N.mul_comm, <- N.div_div by (try lia; apply N.pow_nonzero; lia).
  reflexivity.
Qed.
Lemma byte_of_0 v : byte_of v 0 = v mod 256.
Proof. unfold byte_of. change (2 ^ (8 * 0)) with 1. now rewrite N.div_1_r. Qed.

Lemma be4 v : v < 2 ^ 32 -> be [byte_of v 3; byte_of v 2; byte_of v 1; byte_of v 0] = v.
Proof.
  intros H. change 3 with (2 + 1); change 2 with (1 + 1) at 1 2; change 1 with (0 + 1).
  rewrite !byte_of_S, !byte_of_0.
  change (be (be_bytes 4 v) = v). rewrite be_be_bytes. apply N.mod_small. exact H.
Qed.
Lemma be3 v : v < 2 ^ 24 -> be [byte_of v 2; byte_of v 1; byte_of v 0] = v.
Proof.
  intros H. change 2 with (1 + 1) at 1; change 1 with (0 + 1).
  rewrite !byte_of_S, !byte_of_0.
  change (be (be_bytes 3 v) = v). rewrite be_be_bytes. apply N.mod_small. exact H.
Qed.
Lemma be2 v : v < 2 ^ 16 -> be [byte_of v 1; byte_of v 0] = v.
Proof.
  intros H. change 1 with (0 + 1). rewrite !byte_of_S, !byte_of_0.
  change (be (be_bytes 2 v) = v). rewrite be_be_bytes. apply N.mod_small. exact H.
Qed.
Lemma be8 v : v < 2 ^ 64 -> be (map (byte_of v) [7; 6; 5; 4; 3; 2; 1; 0]) = v.
Proof.
  intros H.
  change [7; 6; 5; 4; 3; 2; 1; 0] with [0+1+1+1+1+1+1+1; 0+1+1+1+1+1+1; 0+1+1+1+1+1; 0+1+1+1+1; 0+1+1+1; 0+1+1; 0+1; 0].
  cbn [map]. rewrite !byte_of_S, !byte_of_0.
  change (be (be_bytes 8 v) = v). rewrite be_be_bytes. apply N.mod_small. exact H.
Qed.

Lemma byte_of_lt v k : byte_of v k < 256.
Proof. unfold byte_of. apply N.mod_lt. lia. Qed.

Lemma byte3_lt v : v < 2 ^ 31 -> byte_of v 3 < 128.
Proof.
  intros H. unfold byte_of. change (2 ^ (8 * 3)) with 16777216.
  assert (v / 16777216 < 128) by (apply N.div_lt_upper_bound; lia).
  rewrite N.mod_small by lia. assumption.
Qed.

Lemma mask7_mod x : mask7 x = x mod 128.
Proof. unfold mask7. change 127 with (N.ones 7). rewrite N.land_ones. reflexivity. Qed.
Lemma mask7_small x : x < 128 -> mask7 x = x.
Proof. intros H. rewrite mask7_mod. apply N.mod_small. exact H. Qed.

Lemma lor_low : forall x, x < 128 -> N.lor 128 x = 128 + x.
Proof.
  assert (H : forallb (fun n => N.lor 128 (N.of_nat n) =? 128 + N.of_nat n) (seq 0 128) = true) by (vm_compute; reflexivity).
  intros x Hx. rewrite forallb_forall in H. specialize (H (N.to_nat x)).
  rewrite N2Nat.id in H. apply N.eqb_eq, H, in_seq. lia.
Qed.

Lemma mask_lor r x : x < 128 -> mask7 (N.lor (if r : bool then 128 else 0) x) = x.
Proof.
  intros H. destruct r; [rewrite lor_low by assumption|rewrite N.lor_0_l]; rewrite mask7_mod.
  - replace (128 + x) with (x + 1 * 128) by lia. rewrite N.mod_add by lia. apply N.mod_small. exact H.
  - apply N.mod_small. exact H.
Qed.

(** ** Readers over the chained buffer *)
Section Readers.
Variable b : buffer.
Hypothesis W : wf b.

Lemma mem_ge : (length (stream b) < length (mem (b_chains b)))%nat.
Proof.
  destruct W as (W0 & _). destruct (wf_mem _ _ _ W0) as (tail & T1 & T2 & _). rewrite T1, app_length. fold (stream b). lia.
Qed.

Lemma stream_nth i : (i < length (stream b))%nat -> nth_error (mem (b_chains b)) i = nth_error (stream b) i.
Proof.
  intros H. destruct W as (W0 & _). destruct (wf_mem _ _ _ W0) as (tail & T1 & _). rewrite T1. fold (stream b).
  apply nth_error_app1. exact H.
Qed.

Lemma load_spec i p : ptr_at (b_chains b) 0 i = Some p -> (i < length (stream b))%nat ->
  exists x, load b p = Ok x /\ nth_error (stream b) i = Some x.
Proof.
  intros P H. pose proof mem_ge as G.
  destruct (P_step b W i p ltac:(lia) P) as (L & _). rewrite L, stream_nth by assumption.
  destruct (nth_error (stream b) i) as [x|] eqn:E; [eauto|]. apply nth_error_None in E. lia.
Qed.

Lemma slice_S i n x : nth_error (stream b) i = Some x ->
  firstn (S n) (skipn i (stream b)) = x :: firstn n (skipn (S i) (stream b)).
Proof.
  intros H. rewrite (firstn_S_nth _ _ x) by (rewrite nth_error_skipn, Nat.add_0_r; exact H).
  rewrite skipn_skipn. reflexivity.
Qed.

Lemma rd_chain_spec : forall n i p, ptr_at (b_chains b) 0 i = Some p -> (i + n <= length (stream b))%nat ->
  exists q, rd_chain b p n = Ok (firstn n (skipn i (stream b)), q) /\ ptr_at (b_chains b) 0 (i + n) = Some q.
Proof.
  induction n as [|n IH]; intros i p P H.
  - exists p. rewrite Nat.add_0_r. auto.
  - destruct (load_spec i p P ltac:(lia)) as (x & L & X). cbn [rd_chain]. rewrite L. cbn [obind].
    destruct p as [ci off].
    rewrite (update_chain_spec b i ci off 1 W P) by lia.
    pose proof mem_ge as G. destruct (P_total b W (i + 1) ltac:(lia)) as (p' & P'). rewrite P'.
    destruct (IH (i + 1)%nat p' P' ltac:(lia)) as (q & -> & Q). cbn [obind fst snd].
    exists q. split; [|rewrite <- Q; f_equal; lia].
    rewrite (slice_S i n x X). rewrite Nat.add_1_r. reflexivity.
Qed.

Lemma ptr_at_flat : forall k i ci off, ptr_at (b_chains b) 0 i = Some (ci, off) ->
  (i < length (mem (b_chains b)))%nat ->
  (exists c, nth_error (b_chains b) ci = Some c /\ (off + k <= c_len c - 1)%nat) ->
  ptr_at (b_chains b) 0 (i + k) = Some (ci, off + k)%nat /\ (i + k < length (mem (b_chains b)))%nat.
Proof.
  pose proof W as (W0 & _).
  induction k as [|k IH]; intros i ci off P G (c & C & K).
  - rewrite !Nat.add_0_r. auto.
  - destruct (ptr_at_step _ _ _ 0 i W0 G) as (j & off' & c' & J1 & J2 & J3 & J4 & J5 & J6 & J7 & J8).
    rewrite P in J1. inversion J1; subst ci off'. cbn [Nat.add] in *. rewrite C in J2. inversion J2; subst c'.
    replace (c_len c - 1 <? S off)%nat with false in J6 by (symmetry; apply Nat.ltb_ge; lia).
    destruct J6 as [J6 J6']. destruct (IH (S i) j (S off) J6 J6') as [I1 I2]; [exists c; split; [exact C|lia]|].
    replace (i + S k)%nat with (S i + k)%nat by lia. split; [rewrite I1; f_equal; f_equal; lia|exact I2].
Qed.

Lemma chain_path_spec i p n : ptr_at (b_chains b) 0 i = Some p -> (i < length (mem (b_chains b)))%nat ->
  exists c, nth_error (b_chains b) (fst p) = Some c /\ chain_path b p n = Ok (c_len c - 1 <? snd p + n)%nat.
Proof.
  intros P G. pose proof W as (W0 & _).
  destruct (ptr_at_step _ _ _ 0 i W0 G) as (j & off' & c' & J1 & J2 & _).
  rewrite P in J1. inversion J1; subst p. cbn [fst snd Nat.add] in *. exists c'. split; [exact J2|].
  unfold chain_path, lptr_off; cbn [fst snd]. rewrite J2. reflexivity.
Qed.

Lemma rd_flat_spec : forall n i p c, ptr_at (b_chains b) 0 i = Some p -> (i + n <= length (stream b))%nat ->
  nth_error (b_chains b) (fst p) = Some c -> (snd p + n <= c_len c - 1)%nat ->
  exists q, rd_flat b p n = Ok (firstn n (skipn i (stream b)), q) /\ ptr_at (b_chains b) 0 (i + n) = Some q.
Proof.
  induction n as [|n IH]; intros i p c P H C K.
  - exists p. rewrite Nat.add_0_r. auto.
  - destruct (load_spec i p P ltac:(lia)) as (x & L & X). cbn [rd_flat]. rewrite L. cbn [obind].
    destruct p as [ci off]. cbn [fst snd] in *. pose proof mem_ge as G.
    destruct (ptr_at_flat 1 i ci off P ltac:(lia)) as [P' _]; [exists c; split; [exact C|lia]|].
    rewrite Nat.add_1_r in P'. rewrite Nat.add_1_r in P'.
    destruct (IH (S i) (ci, S off) c P' ltac:(lia) C ltac:(cbn; lia)) as (q & -> & Q). cbn [obind fst snd].
    exists q. split; [|rewrite <- Q; f_equal; lia]. rewrite (slice_S i n x X). reflexivity.
Qed.

(** Whatever the block boundaries, a reader sees the next [n] bytes of the stream and leaves the
    pointer behind them. *)
Lemma rd_spec n i p : ptr_at (b_chains b) 0 i = Some p -> (i + n <= length (stream b))%nat ->
  exists q, rd b p n = Ok (firstn n (skipn i (stream b)), q) /\ ptr_at (b_chains b) 0 (i + n) = Some q.
Proof.
  intros P H. pose proof mem_ge as G. unfold rd.
  destruct (chain_path_spec i p n P ltac:(lia)) as (c & C & ->). cbn [obind].
  destruct (Nat.ltb_spec (c_len c - 1) (snd p + n)) as [E|E].
  - apply rd_chain_spec; assumption.
  - eapply rd_flat_spec; eassumption.
Qed.

Lemma fh_field_spec k i p : ptr_at (b_chains b) 0 i = Some p -> (i + k < length (stream b))%nat ->
  exists x, fh_field k b p = Ok x /\ nth_error (stream b) (i + k) = Some x.
Proof.
  intros P H. pose proof mem_ge as G. unfold fh_field.
  destruct (chain_path_spec i p k P ltac:(lia)) as (c & C & ->). cbn [obind].
  destruct p as [ci off]. cbn [fst snd] in *.
  destruct (Nat.ltb_spec (c_len c - 1) (off + k)) as [E|E].
  - rewrite (update_chain_spec b i ci off k W P) by lia.
    destruct (P_total b W (i + k) ltac:(lia)) as (q & Q). rewrite Q. apply load_spec; [exact Q|lia].
  - destruct (ptr_at_flat k i ci off P ltac:(lia)) as [P' _]; [eauto|]. apply load_spec; [exact P'|lia].
Qed.

Lemma fh_sid_spec i p : ptr_at (b_chains b) 0 i = Some p -> (i + 9 <= length (stream b))%nat ->
  fh_sid b p = Ok (be (mask_first (firstn 4 (skipn (i + 5) (stream b))))).
Proof.
  intros P H. pose proof mem_ge as G. unfold fh_sid.
  destruct (chain_path_spec i p 9 P ltac:(lia)) as (c & C & ->). cbn [obind].
  destruct p as [ci off]. cbn [fst snd] in *.
  destruct (Nat.ltb_spec (c_len c - 1) (off + 9)) as [E|E].
  - rewrite (update_chain_spec b i ci off 5 W P) by lia.
    destruct (P_total b W (i + 5) ltac:(lia)) as (q & Q). rewrite Q.
    destruct (rd_chain_spec 4 (i + 5) q Q ltac:(lia)) as (q' & -> & _). reflexivity.
  - destruct (ptr_at_flat 5 i ci off P ltac:(lia)) as [P' _]; [exists c; split; [exact C|lia]|].
    destruct (rd_flat_spec 4 (i + 5) (ci, off + 5)%nat c P' ltac:(lia) C ltac:(cbn; lia)) as (q' & -> & _). reflexivity.
Qed.

Lemma fh_payload_spec i p : ptr_at (b_chains b) 0 i = Some p -> (i + 9 <= length (stream b))%nat ->
  fh_payload b p = Ok (ptr_at (b_chains b) 0 (i + 9)).
Proof.
  intros P H. pose proof mem_ge as G. unfold fh_payload.
  destruct (chain_path_spec i p 9 P ltac:(lia)) as (c & C & ->). cbn [obind].
  destruct p as [ci off]. cbn [fst snd] in *.
  destruct (Nat.ltb_spec (c_len c - 1) (off + 9)) as [E|E].
  - rewrite (update_chain_spec b i ci off 9 W P) by lia. reflexivity.
  - destruct (ptr_at_flat 9 i ci off P ltac:(lia)) as [P' _]; [exists c; split; [exact C|lia]|]. rewrite P'. reflexivity.
Qed.
End Readers.

(** ** Frame header *)
(** The 9 header octets [l] occur at stream offset [i]. *)
Definition octets_at (s : list N) (i : nat) (l : list N) : Prop := firstn (length l) (skipn i s) = l.

Lemma octets_at_len s i l : octets_at s i l -> l <> [] -> (i + length l <= length s)%nat.
Proof.
  unfold octets_at. intros H Hne. apply (f_equal (@length N)) in H. rewrite firstn_length, skipn_length in H.
  destruct l; [congruence|]. cbn [length] in *. lia.
Qed.

Lemma octets_at_nth s i l k x : octets_at s i l -> nth_error l k = Some x -> nth_error s (i + k) = Some x.
Proof.
  unfold octets_at. intros H E. rewrite <- nth_error_skipn.
  assert (k < length l)%nat by (apply nth_error_Some; congruence).
  rewrite <- (firstn_skipn (length l) (skipn i s)), H, nth_error_app1 by assumption. exact E.
Qed.

Lemma octets_at_sub s i l k n : octets_at s i l -> (k + n <= length l)%nat ->
  firstn n (skipn (i + k) s) = firstn n (skipn k l).
Proof.
  unfold octets_at. intros H K. rewrite <- H.
  rewrite skipn_firstn_comm, skipn_skipn, firstn_firstn. f_equal; [lia|]. f_equal. lia.
Qed.

Lemma frame_header_decode b i p l : wf b -> ptr_at (b_chains b) 0 i = Some p ->
  length l = 9%nat -> octets_at (stream b) i l -> bytes_ok l ->
  fh_length b p = Ok (be (firstn 3 l)) /\ fh_type b p = Ok (nth 3 l 0) /\ fh_flags b p = Ok (nth 4 l 0) /\
  fh_sid b p = Ok (be (skipn 5 l) mod 2 ^ 31) /\ fh_payload b p = Ok (ptr_at (b_chains b) 0 (i + 9)).
Proof.
  intros W P L O B.
  assert (Lb : (i + 9 <= length (stream b))%nat).
  { rewrite <- L. apply octets_at_len; [exact O|]. intros ->. discriminate. }
  split; [|split; [|split; [|split]]].
  - unfold fh_length. destruct (rd_spec b W 3 i p P ltac:(lia)) as (q & -> & _). cbn [obind fst].
    pose proof (octets_at_sub _ _ _ 0 3 O ltac:(lia)) as E. rewrite Nat.add_0_r in E. rewrite E. reflexivity.
  - destruct (fh_field_spec b W 3 i p P ltac:(lia)) as (x & X & E). unfold fh_type. rewrite X.
    assert (E2 : nth_error l 3 = Some (nth 3 l 0)) by (apply nth_error_nth'; lia).
    rewrite (octets_at_nth _ _ _ _ _ O E2) in E. inversion E. reflexivity.
  - destruct (fh_field_spec b W 4 i p P ltac:(lia)) as (x & X & E). unfold fh_flags. rewrite X.
    assert (E2 : nth_error l 4 = Some (nth 4 l 0)) by (apply nth_error_nth'; lia).
    rewrite (octets_at_nth _ _ _ _ _ O E2) in E. inversion E. reflexivity.
  - rewrite (fh_sid_spec b W i p P Lb). f_equal.
    rewrite (octets_at_sub _ _ _ 5 4 O) by lia.
    do 10 (destruct l as [|? l]; try discriminate L). cbn [skipn firstn mask_first].
    unfold bytes_ok in B. rewrite mask7_mod. unfold be; cbn [fold_left].
    repeat match goal with H : Forall _ (_ :: _) |- _ => inversion H; clear H; subst end.
    unfold byte_ok in *. change (2 ^ 31) with 2147483648.
    Ltac Zify.zify_post_hook ::= Z.div_mod_to_equations.
    lia.
    Ltac Zify.zify_post_hook ::= idtac.
  - apply fh_payload_spec; assumption.
Qed.

Lemma fh_bytes_length ln ty fl r sid : length (fh_bytes ln ty fl r sid) = 9%nat.
Proof. reflexivity. Qed.

Lemma frame_header_roundtrip b i p ln ty fl r sid : wf b -> ptr_at (b_chains b) 0 i = Some p ->
  ln < 2 ^ 24 -> ty < 256 -> fl < 256 -> sid < 2 ^ 31 ->
  octets_at (stream b) i (fh_bytes ln ty fl r sid) ->
  fh_length b p = Ok ln /\ fh_type b p = Ok ty /\ fh_flags b p = Ok fl /\ fh_sid b p = Ok sid /\
  fh_payload b p = Ok (ptr_at (b_chains b) 0 (i + 9)).
Proof.
  intros W P H1 H2 H3 H4 O.
  assert (Lb : (i + 9 <= length (stream b))%nat).
  { change 9%nat with (length (fh_bytes ln ty fl r sid)). apply octets_at_len; [exact O|discriminate]. }
  split; [|split; [|split; [|split]]].
  - unfold fh_length. destruct (rd_spec b W 3 i p P ltac:(lia)) as (q & -> & _). cbn [obind fst].
    pose proof (octets_at_sub _ _ _ 0 3 O ltac:(cbn; lia)) as E. rewrite Nat.add_0_r in E. rewrite E.
    f_equal. apply be3. exact H1.
  - destruct (fh_field_spec b W 3 i p P ltac:(lia)) as (x & X & E). unfold fh_type. rewrite X.
    rewrite (octets_at_nth _ _ _ 3 ty O eq_refl) in E. inversion E. reflexivity.
  - destruct (fh_field_spec b W 4 i p P ltac:(lia)) as (x & X & E). unfold fh_flags. rewrite X.
    rewrite (octets_at_nth _ _ _ 4 fl O eq_refl) in E. inversion E. reflexivity.
  - rewrite (fh_sid_spec b W i p P Lb). f_equal.
    rewrite (octets_at_sub _ _ _ 5 4 O) by (cbn; lia). cbn [skipn firstn fh_bytes mask_first].
    rewrite mask_lor by (apply byte3_lt; assumption). apply be4.
    change (2 ^ 31) with 2147483648 in H4. change (2 ^ 32) with 4294967296. lia.
  - apply fh_payload_spec; assumption.
Qed.

(** ** Payload fields *)
Lemma read_spec b i p n l : wf b -> ptr_at (b_chains b) 0 i = Some p -> octets_at (stream b) i l -> length l = n -> n <> O ->
  exists q, rd b p n = Ok (l, q) /\ ptr_at (b_chains b) 0 (i + n) = Some q.
Proof.
  intros W P O L Hn. subst n.
  destruct (rd_spec b W (length l) i p P) as (q & R & Q).
  { apply octets_at_len; [exact O|]. intros ->. cbn in Hn. lia. }
  exists q. rewrite R, O. auto.
Qed.

Lemma read31_flat b i p v c r : wf b -> ptr_at (b_chains b) 0 i = Some p -> v < 2 ^ 31 ->
  octets_at (stream b) i (window_update_payload v r) ->
  nth_error (b_chains b) (fst p) = Some c -> (snd p + 4 <= c_len c - 1)%nat ->
  exists q, read31 b p = Ok (v, q) /\ ptr_at (b_chains b) 0 (i + 4) = Some q.
Proof.
  intros W P H O C K.
  assert (Lb : (i + 4 <= length (stream b))%nat).
  { change 4%nat with (length (window_update_payload v r)). apply octets_at_len; [exact O|discriminate]. }
  unfold read31. pose proof (mem_ge b W) as G.
  destruct (chain_path_spec b W i p 4 P ltac:(lia)) as (c' & C' & ->). rewrite C in C'. inversion C'; subst c'.
  replace (c_len c - 1 <? snd p + 4)%nat with false by (symmetry; apply Nat.ltb_ge; lia). cbn [obind].
  destruct (rd_flat_spec b W 4 i p c P Lb C K) as (q & -> & Q). exists q. split; [|exact Q].
  cbn [obind fst snd]. f_equal. f_equal.
  unfold octets_at in O. change (length (window_update_payload v r)) with 4%nat in O. rewrite O.
  cbn [window_update_payload mask_first]. rewrite mask_lor by (apply byte3_lt; assumption). apply be4.
  change (2 ^ 31) with 2147483648 in H. change (2 ^ 32) with 4294967296. lia.
Qed.

(** ** SETTINGS *)
(** The pairs a peer reads from a payload (RFC 7540 section 6.5.1). *)
Fixpoint parse_settings (k : nat) (l : list N) : list (N * N) :=
  match k with
  | O => []
  | S k' => (be (firstn 2 l), be (firstn 4 (skipn 2 l))) :: parse_settings k' (skipn 6 l)
  end.

(** The interpretation the property asks for: pairs applied in order, stopping at an error. *)
Fixpoint apply_all (s : pset) (ss : list (N * N)) : set_res :=
  match ss with
  | [] => SetSuccess s
  | (id, v) :: t => match apply_setting s id v with SetSuccess s' => apply_all s' t | e => e end
  end.

Lemma peer_settings_loop_spec b : wf b -> forall k i p s, ptr_at (b_chains b) 0 i = Some p ->
  (i + 6 * k <= length (stream b))%nat ->
  peer_settings_loop k b p s = Ok (apply_all s (parse_settings k (skipn i (stream b)))).
Proof.
  intros W. induction k as [|k IH]; intros i p s P H; [reflexivity|].
  cbn [peer_settings_loop parse_settings apply_all].
  unfold read_setting_id. destruct (rd_spec b W 2 i p P ltac:(lia)) as (q & -> & Q). cbn [obind uint_of fst snd].
  unfold read_setting_value. destruct (rd_spec b W 4 (i + 2) q Q ltac:(lia)) as (q2 & -> & Q2). cbn [obind uint_of fst snd].
  rewrite skipn_skipn. replace (2 + i)%nat with (i + 2)%nat by lia.
  destruct (apply_setting s _ _); try reflexivity.
  rewrite (IH (i + 2 + 4)%nat q2 s0 Q2) by lia. rewrite skipn_skipn. replace (6 + i)%nat with (i + 2 + 4)%nat by lia. reflexivity.
Qed.

Lemma parse_setting_bytes s : fst s < 2 ^ 16 -> snd s < 2 ^ 32 -> parse_settings 1 (setting_bytes s) = [s].
Proof.
  intros H1 H2. destruct s as [id v]. unfold setting_bytes. cbn [parse_settings firstn skipn fst snd].
  rewrite be2, be4 by assumption. reflexivity.
Qed.

Lemma settings_one junk s : fst s < 2 ^ 16 -> snd s < 2 ^ 32 ->
  settings_payload_set (fresh 6 junk) [s] = setting_bytes s.
Proof.
  intros _ _. cbn [settings_payload_set fold_left]. unfold write_at. cbn [firstn app].
  change (length (setting_bytes s)) with 6%nat.
  rewrite skipn_all2 by (rewrite fresh_length; lia). apply app_nil_r.
Qed.

Lemma parse_app k : forall l1 l2, length l1 = (6 * k)%nat -> parse_settings k (l1 ++ l2) = parse_settings k l1.
Proof.
  induction k as [|k IH]; intros l1 l2 L; [reflexivity|].
  do 6 (destruct l1 as [|? l1]; [cbn in L; lia|]). cbn [app parse_settings firstn skipn length] in *.
  rewrite (IH l1 l2) by lia. reflexivity.
Qed.

(** Last-octet masking is harmless when the last octet is below 128. *)
Lemma read31_any b i p v : wf b -> ptr_at (b_chains b) 0 i = Some p -> v < 2 ^ 31 -> v mod 256 < 128 ->
  octets_at (stream b) i (window_update_payload v false) ->
  exists q, read31 b p = Ok (v, q) /\ ptr_at (b_chains b) 0 (i + 4) = Some q.
Proof.
  intros W P H H7 O.
  assert (Lb : (i + 4 <= length (stream b))%nat).
  { change 4%nat with (length (window_update_payload v false)). apply octets_at_len; [exact O|discriminate]. }
  unfold read31. pose proof (mem_ge b W) as G.
  destruct (chain_path_spec b W i p 4 P ltac:(lia)) as (c & C & ->). cbn [obind].
  assert (V : v < 2 ^ 32) by (change (2 ^ 31) with 2147483648 in H; change (2 ^ 32) with 4294967296; lia).
  pose proof O as O'. unfold octets_at in O'. change (length (window_update_payload v false)) with 4%nat in O'.
  destruct (Nat.ltb_spec (c_len c - 1) (snd p + 4)) as [E|E].
  - destruct (rd_chain_spec b W 4 i p P Lb) as (q & -> & Q). exists q. split; [|exact Q].
    cbn [obind fst snd]. rewrite O'. unfold window_update_payload, mask_last. cbn [rev app].
    rewrite N.lor_0_l, mask7_small by (rewrite byte_of_0; exact H7). now rewrite be4.
  - destruct (rd_flat_spec b W 4 i p c P Lb C E) as (q & -> & Q). exists q. split; [|exact Q].
    cbn [obind fst snd]. rewrite O'. cbn [window_update_payload mask_first].
    rewrite (mask_lor false) by (apply byte3_lt; assumption). now rewrite be4.
Qed.

Lemma settings_fold_len pl ss : (6 <= length pl)%nat -> length (settings_payload_set pl ss) = length pl.
Proof.
  revert pl. induction ss as [|s ss IH]; intros pl H; [reflexivity|].
  cbn [settings_payload_set fold_left]. change (length (settings_payload_set (write_at pl 0 (setting_bytes s)) ss) = length pl).
  assert (L : length (write_at pl 0 (setting_bytes s)) = length pl).
  { unfold write_at. cbn [firstn]. rewrite app_nil_l, app_length, skipn_length.
    change (length (setting_bytes s)) with 6%nat. lia. }
  rewrite IH; lia.
Qed.

Lemma settings_last pl ss s : (6 <= length pl)%nat ->
  settings_payload_set pl (ss ++ [s]) = setting_bytes s ++ skipn 6 (settings_payload_set pl ss).
Proof.
  intros H. unfold settings_payload_set. rewrite fold_left_app. cbn [fold_left]. unfold write_at. cbn [firstn app].
  reflexivity.
Qed.

(** ** The RFC interpretation of SETTINGS (RFC 7540 section 6.5.2). *)
Inductive rfc_res := RfcOk (s : pset) | RfcProtocolError | RfcFlowControlError.
Definition rfc_setting (s : pset) (id v : N) : rfc_res :=
  match id with
  | 1 => RfcOk (mkPset v (p_enable_push s) (p_max_concurrent_streams s) (p_initial_window_size s) (p_max_frame_size s) (p_max_header_list_size s) (ps_window_size s))
  | 2 => if v <=? 1 then RfcOk (mkPset (p_header_table_size s) v (p_max_concurrent_streams s) (p_initial_window_size s) (p_max_frame_size s) (p_max_header_list_size s) (ps_window_size s)) else RfcProtocolError
  | 3 => RfcOk (mkPset (p_header_table_size s) (p_enable_push s) v (p_initial_window_size s) (p_max_frame_size s) (p_max_header_list_size s) (ps_window_size s))
  | 4 => if v <=? 2147483647 then RfcOk (mkPset (p_header_table_size s) (p_enable_push s) (p_max_concurrent_streams s) v (p_max_frame_size s) (p_max_header_list_size s) (ps_window_size s)) else RfcFlowControlError
  | 5 => if (16384 <=? v) && (v <=? 16777215) then RfcOk (mkPset (p_header_table_size s) (p_enable_push s) (p_max_concurrent_streams s) (p_initial_window_size s) v (p_max_header_list_size s) (ps_window_size s)) else RfcProtocolError
  | 6 => RfcOk (mkPset (p_header_table_size s) (p_enable_push s) (p_max_concurrent_streams s) (p_initial_window_size s) (p_max_frame_size s) v (ps_window_size s))
  | _ => RfcOk s
  end.
Fixpoint rfc_settings (s : pset) (ss : list (N * N)) : rfc_res :=
  match ss with
  | [] => RfcOk s
  | (id, v) :: t => match rfc_setting s id v with RfcOk s' => rfc_settings s' t | e => e end
  end.
Definition res_matches (r : set_res) (r' : rfc_res) : Prop :=
  match r, r' with
  | SetSuccess s, RfcOk s' => s = s'
  | SetProtocolError _, RfcProtocolError => True
  | SetFlowControlError _, RfcFlowControlError => True
  | _, _ => False
  end.
(** In-range values of parameters 5 and 6. *)
Definition in_range (p : N * N) : Prop :=
  (fst p = 5 \/ fst p = 6) -> 16384 <= snd p <= 16777215.
Definition valid_iws (p : N * N) : bool := (fst p =? 4) && (snd p <=? 2147483647).
Definition count_iws (ss : list (N * N)) : nat := length (filter valid_iws ss).

Lemma rfc_default s id v : id <> 1 -> id <> 2 -> id <> 3 -> id <> 4 -> id <> 5 -> id <> 6 -> rfc_setting s id v = RfcOk s.
Proof. intros. unfold rfc_setting. destruct id as [|q]; [reflexivity|]. do 3 (try destruct q as [q|q|]); try reflexivity; congruence. Qed.

Lemma apply_setting_rfc s id v : in_range (id, v) -> (id = 4 -> v <= 2147483647 -> Z.of_N (p_initial_window_size s) = ps_window_size s) ->
  res_matches (apply_setting s id v) (rfc_setting s id v).
Proof.
  intros R E. unfold apply_setting. unfold in_range in R. cbn [fst snd] in R.
  destruct (N.eqb_spec id 1) as [->|n1]; [reflexivity|].
  destruct (N.eqb_spec id 2) as [->|n2].
  { cbn [rfc_setting]. destruct (N.leb_spec v 1) as [L|L].
    - assert (D : v = 0 \/ v = 1) by lia. destruct D; subst v; reflexivity.
    - replace ((v =? 0) || (v =? 1)) with false by lia. exact I. }
  destruct (N.eqb_spec id 3) as [->|n3]; [reflexivity|].
  destruct (N.eqb_spec id 4) as [->|n4].
  { cbn [rfc_setting]. unfold WINDOW_SIZE_MAX. destruct (N.leb_spec v 2147483647) as [L|L].
    - replace (2147483647 <? v) with false by lia. cbn [res_matches]. f_equal.
      rewrite (E eq_refl L). unfold u32. rewrite Z.sub_diag, Z.sub_0_r, Z.mod_small by lia. apply N2Z.id.
    - replace (2147483647 <? v) with true by lia. exact I. }
  destruct (N.eqb_spec id 5) as [->|n5].
  { cbn [rfc_setting]. specialize (R (or_introl eq_refl)). unfold MAX_FRAME_SIZE_MAX.
    replace ((16384 <=? v) && (v <=? 16777215)) with true by lia.
    replace (16777215 <? v) with false by lia. reflexivity. }
  destruct (N.eqb_spec id 6) as [->|n6].
  { cbn [rfc_setting]. specialize (R (or_intror eq_refl)). unfold MAX_FRAME_SIZE_DEFAULT, MAX_FRAME_SIZE_MAX.
    replace ((16384 <=? v) && (v <=? 16777215)) with true by lia. reflexivity. }
  rewrite rfc_default by assumption. reflexivity.
Qed.

Lemma rfc_setting_keeps s id v s' : rfc_setting s id v = RfcOk s' ->
  ps_window_size s' = ps_window_size s /\ (id <> 4 -> p_initial_window_size s' = p_initial_window_size s).
Proof.
  unfold rfc_setting. intros H.
  destruct id as [|q]; [inversion H; subst; split; reflexivity|].
  do 3 (try destruct q as [q|q|]); try (inversion H; subst; split; [reflexivity|intros; reflexivity]);
  match type of H with (if ?c then _ else _) = _ => destruct c end;
  inversion H; subst; split; try reflexivity; intros; try reflexivity; congruence.
Qed.

Lemma apply_all_rfc ss : forall s, Forall in_range ss ->
  (count_iws ss = 0%nat \/ (count_iws ss = 1%nat /\ Z.of_N (p_initial_window_size s) = ps_window_size s)) ->
  res_matches (apply_all s ss) (rfc_settings s ss).
Proof.
  induction ss as [|[id v] ss IH]; intros s F K; [reflexivity|].
  inversion F as [|? ? F1 F2]; subst. cbn [apply_all rfc_settings].
  unfold count_iws in K. cbn [filter] in K.
  assert (M : res_matches (apply_setting s id v) (rfc_setting s id v)).
  { apply apply_setting_rfc; [exact F1|]. intros -> Hv. unfold valid_iws in K. cbn [fst snd] in K.
    replace ((4 =? 4) && (v <=? 2147483647)) with true in K by lia. cbn [length] in K.
    destruct K as [K|[K1 K2]]; [lia|exact K2]. }
  destruct (apply_setting s id v) as [s1|s1|s1] eqn:A, (rfc_setting s id v) as [s2| |] eqn:B; cbn [res_matches] in M; try contradiction; try exact I.
  subst s2. apply IH; [exact F2|]. destruct (rfc_setting_keeps _ _ _ _ B) as [K1 K2].
  fold (count_iws ss) in *. destruct (valid_iws (id, v)) eqn:V; cbn [length] in K; fold (count_iws ss) in K.
  - destruct K as [K|[K _]]; [discriminate K|]. injection K as K. left. exact K.
  - destruct K as [K|[K K']]; [left; exact K|]. right. split; [exact K|]. rewrite K1, <- K'.
    f_equal. destruct (N.eq_dec id 4) as [->|n]; [|apply K2; exact n].
    unfold valid_iws in V. cbn [fst snd] in V. cbn [rfc_setting] in B.
    destruct (v <=? 2147483647) eqn:L; discriminate.
Qed.

Lemma peer_settings_rfc b i p s k : wf b -> ptr_at (b_chains b) 0 i = Some p ->
  (i + 6 * k <= length (stream b))%nat ->
  let ss := parse_settings k (skipn i (stream b)) in
  Forall in_range ss ->
  (count_iws ss = 0%nat \/ (count_iws ss = 1%nat /\ Z.of_N (p_initial_window_size s) = ps_window_size s)) ->
  exists r, peer_settings b p (6 * k) s = Ok r /\ res_matches r (rfc_settings s ss).
Proof.
  intros W P L ss F K. unfold peer_settings.
  replace ((6 * k + 5) / 6)%nat with k.
  2:{ rewrite Nat.mul_comm, Nat.add_comm, Nat.div_add by lia. reflexivity. }
  exists (apply_all s ss). split; [apply peer_settings_loop_spec; assumption|]. apply apply_all_rfc; assumption.
Qed.

Lemma u32sub_small a k : k <= a -> a < 4294967296 -> u32sub a k = a - k.
Proof. intros. unfold u32sub, u32. rewrite Z.mod_small by lia. lia. Qed.

(** ** Frame content (RFC 7540 sections 6.1 and 6.2) *)
Definition unpad (flags : N) (payload : list N) : option (list N) :=
  if N.testbit flags 3 then
    match payload with
    | [] => None
    | pad :: rest => if (length rest <? N.to_nat pad)%nat then None else Some (firstn (length rest - N.to_nat pad) rest)
    end
  else Some payload.
Definition strip_priority (flags : N) (l : list N) : option (list N) :=
  if N.testbit flags 5 then if (length l <? 5)%nat then None else Some (skipn 5 l) else Some l.

Definition octet_at (s : list N) (i : nat) : N := nth i s 0.

Lemma data_content_spec b i p ln fl content : wf b -> ptr_at (b_chains b) 0 i = Some p ->
  ln < 4294967296 -> (i + N.to_nat ln <= length (stream b))%nat ->
  unpad fl (firstn (N.to_nat ln) (skipn i (stream b))) = Some content ->
  (N.testbit fl 3 = true -> octet_at (stream b) i = 0) ->
  exists q n j, data_content b p ln fl = Ok (q, n) /\ ptr_at (b_chains b) 0 j = Some q /\
    firstn (N.to_nat n) (skipn j (stream b)) = content /\ N.to_nat n = length content.
Proof.
  intros W P L32 L U Z. unfold data_content. unfold unpad in U. destruct (N.testbit fl 3) eqn:T.
  - specialize (Z eq_refl). unfold octet_at in Z.
    assert (Lp : length (firstn (N.to_nat ln) (skipn i (stream b))) = N.to_nat ln) by (rewrite firstn_length, skipn_length; lia).
    destruct (firstn (N.to_nat ln) (skipn i (stream b))) as [|pad rest] eqn:E; [discriminate|]. cbn [length] in Lp.
    unfold read_pad. destruct (rd_spec b W 1 i p P ltac:(lia)) as (q & -> & Q). cbn [obind uint_of fst snd].
    exists q, (u32sub ln 1), (i + 1)%nat. split; [reflexivity|]. split; [exact Q|].
    rewrite u32sub_small by lia.
    assert (Hpad : pad = 0).
    { assert (X : nth_error (stream b) i = Some pad).
      { pose proof (nth_error_skipn i (stream b) 0) as X. rewrite Nat.add_0_r in X. rewrite <- X.
        destruct (skipn i (stream b)) as [|a t]; [rewrite firstn_nil in E; discriminate|].
        destruct (N.to_nat ln); [discriminate|]. cbn [firstn] in E. inversion E. reflexivity. }
      rewrite (nth_error_nth (stream b) i 0 X) in Z. exact Z. }
    subst pad. change (N.to_nat 0) with O in U. rewrite Nat.sub_0_r, firstn_all in U. cbn in U. inversion U; subst content.
    replace (N.to_nat (ln - 1)) with (length rest) by lia. split; [|reflexivity].
    apply (f_equal (skipn 1)) in E. change (skipn 1 (0 :: rest)) with rest in E. rewrite skipn_firstn_comm, skipn_skipn in E.
    rewrite <- E at 2. replace (1 + i)%nat with (i + 1)%nat by lia. f_equal. lia.
  - inversion U; subst content. exists p, ln, i. split; [reflexivity|]. split; [exact P|]. split; [reflexivity|].
    rewrite firstn_length, skipn_length. lia.
Qed.

Lemma headers_content_spec b i p ln fl c1 content : wf b -> ptr_at (b_chains b) 0 i = Some p ->
  ln < 4294967296 -> (i + N.to_nat ln <= length (stream b))%nat ->
  unpad fl (firstn (N.to_nat ln) (skipn i (stream b))) = Some c1 -> strip_priority fl c1 = Some content ->
  (N.testbit fl 3 = true -> octet_at (stream b) i = 0) ->
  exists q n j, headers_content b p ln fl = Ok (q, n) /\ ptr_at (b_chains b) 0 j = Some q /\
    firstn (N.to_nat n) (skipn j (stream b)) = content /\ N.to_nat n = length content.
Proof.
  intros W P L32 L U S Z.
  destruct (data_content_spec b i p ln fl c1 W P L32 L U Z) as (q & n & j & D & Q & F & N1).
  unfold headers_content. unfold data_content in D. rewrite D. cbn [obind].
  unfold strip_priority in S. destruct (N.testbit fl 5) eqn:T.
  - destruct (Nat.ltb_spec (length c1) 5) as [X|X]; [discriminate|]. assert (Ec : content = skipn 5 c1) by congruence. clear S; subst content.
    assert (Lj : (j + N.to_nat n <= length (stream b))%nat).
    { pose proof N1 as N2. rewrite <- F in N2. rewrite firstn_length, skipn_length in N2. lia. }
    assert (R31 : exists v q2, read31 b q = Ok (v, q2) /\ ptr_at (b_chains b) 0 (j + 4) = Some q2).
    { unfold read31. pose proof (mem_ge b W) as G.
      destruct (chain_path_spec b W j q 4 Q ltac:(lia)) as (c & C & ->). cbn [obind].
      destruct (Nat.ltb_spec (c_len c - 1) (snd q + 4)) as [E|E].
      - destruct (rd_chain_spec b W 4 j q Q ltac:(lia)) as (q2 & -> & Q2). cbn [obind fst snd]. eauto.
      - destruct (rd_flat_spec b W 4 j q c Q ltac:(lia) C E) as (q2 & -> & Q2). cbn [obind fst snd]. eauto. }
    destruct R31 as (v & q2 & -> & Q2). cbn [obind].
    unfold read_weight. destruct (rd_spec b W 1 (j + 4) q2 Q2 ltac:(lia)) as (q3 & -> & Q3). cbn [obind fst snd].
    assert (n < 4294967296).
    { revert D. unfold data_content. destruct (N.testbit fl 3).
      - intros D. destruct (read_pad b p) as [[? ?]|]; [|discriminate]. inversion D. unfold u32sub, u32.
        pose proof (Z.mod_pos_bound (Z.of_N ln - Z.of_N 1) 4294967296). lia.
      - intros D. inversion D. subst n. exact L32. }
    exists q3, (u32sub n 5), (j + 5)%nat. split; [reflexivity|]. split; [rewrite <- Q3; f_equal; lia|].
    rewrite u32sub_small by lia. split; [|rewrite skipn_length; lia].
    rewrite <- F. rewrite skipn_firstn_comm, skipn_skipn. f_equal; [lia|]. f_equal. lia.
  - inversion S; subst content. exists q, n, j. auto.
Qed.

(** A connection buffer (blocks of [per] bytes) after receiving [data], for the examples. *)
Definition recv_all (per max : nat) (data : list N) : buffer :=
  match buf_init (fresh per []) 1 max per with
  | Some b0 => match krun (mkConn data b0 [] false) (repeat (BRecv per []) max) with Ok c => k_buf c | UB _ => b0 end
  | None => mkBuffer [] 0 0 0 0
  end.
Ltac solve_wf := unfold wf; vm_compute; repeat split; try lia; try discriminate.
