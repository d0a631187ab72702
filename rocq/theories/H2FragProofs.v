From Verif Require Import Base Buffer BufferProofs H2Frame H2Frag.
Local Open Scope nat_scope.

(** ** Capacity *)
(** Bytes written into the blocks that are still there. *)
Definition written (b : buffer) : nat := length (b_chains b) * b_per b - lunuse_len b.

Lemma lunuse_app cs l n m p u : lunuse_len (mkBuffer (cs ++ [l]) n m p u) = c_unuse l.
Proof. unfold lunuse_len. cbn [b_chains]. rewrite last_opt_app. reflexivity. Qed.

Lemma put_byte_ok junk b x : wf b -> length junk = b_per b -> S (written b) < b_max b * b_per b ->
  exists b', put_byte junk b x = Ok b' /\ wf b' /\ stream b' = stream b ++ [x] /\ b_max b' = b_max b /\ b_per b' = b_per b /\
    written b' = S (written b).
Proof.
  intros W J R. pose proof (wf_unuse_pos b W) as U. unfold put_byte.
  replace (lunuse_len b =? 0) with false by (symmetry; apply Nat.eqb_neq; lia).
  pose proof (recv_chunk_spec junk b [x] W J) as Sp. cbn [length] in Sp. specialize (Sp ltac:(lia)).
  unfold recv_chunk in Sp. cbn [length] in Sp. replace (1 <=? lunuse_len b) with true in Sp by (symmetry; apply Nat.leb_le; lia).
  destruct (wf_last b W) as (pre & l & E & Wp & Wl & L). destruct W as (W & C & M & UL & P).
  assert (LU : lunuse_len b = c_unuse l) by (unfold lunuse_len; rewrite L; reflexivity).
  destruct Wl as (L1 & L2 & L3 & L4).
  assert (WR : written b = length pre * b_per b + (b_per b - c_unuse l)).
  { unfold written. rewrite E, app_length, LU. cbn [length]. lia. }
  assert (CN : b_count b = S (length pre)) by (rewrite C, E, app_length; cbn [length]; lia).
  assert (ROOM : (1 <? lunuse_len b) || (b_count b <? b_max b) = true).
  { destruct (Nat.ltb_spec 1 (lunuse_len b)); [reflexivity|]. cbn [orb]. apply Nat.ltb_lt.
    destruct (Nat.le_gt_cases (b_max b) (b_count b)) as [G|G]; [|exact G]. exfalso.
    assert (b_max b = S (length pre)) by lia. rewrite H0 in R. cbn [Nat.mul] in R. lia. }
  rewrite ROOM in Sp. destruct Sp as (b' & R1 & W1 & S1 & M1 & P1).
  rewrite R1. cbn [obind]. exists b'. split; [reflexivity|]. split; [exact W1|]. split; [exact S1|]. split; [exact M1|]. split; [exact P1|].
  (* the blocks of b' *)
  unfold update_buffer, write_last in R1. rewrite E, map_last_app in R1.
  set (l' := mkChain (write_at (c_data l) (c_written l) [x]) (c_use l) (c_unuse l)) in *.
  cbn [update_loop b_chains] in R1. rewrite last_opt_app in R1. cbn [c_unuse l'] in R1. unfold l' in R1 at 1. cbn [c_unuse] in R1.
  destruct (Nat.leb_spec (c_unuse l) 1) as [G|G].
  - unfold add_chain in R1. cbn [b_max b_count b_per b_chains] in R1.
    destruct (b_max b <=? b_count b) eqn:Q; [discriminate|]. cbn [update_loop b_chains] in R1. rewrite map_last_app in R1.
    rewrite last_opt_app in R1. cbn [c_unuse l'] in R1.
    replace (length junk <=? 1 - c_unuse l) with false in R1 by (symmetry; apply Nat.leb_gt; lia).
    rewrite map_last_app in R1. injection R1 as <-. unfold written. cbn [b_chains b_per]. rewrite lunuse_app. cbn [c_unuse].
    rewrite !app_length. cbn [length]. unfold written in WR. rewrite WR. assert (Q1 : c_unuse l = 1) by lia. rewrite Q1 in *. rewrite J. clear -L2 P. nia.
  - rewrite map_last_app in R1. injection R1 as <-. unfold written. cbn [b_chains b_per]. rewrite lunuse_app. cbn [c_unuse l'].
    rewrite !app_length. cbn [length]. unfold written in WR. rewrite WR. unfold l'. cbn [c_unuse]. clear -L2 G. nia.
Qed.

Lemma put_bytes_ok junk : forall l b, wf b -> length junk = b_per b -> written b + length l < b_max b * b_per b ->
  exists b', put_bytes junk b l = Ok b' /\ wf b' /\ stream b' = stream b ++ l /\ b_max b' = b_max b /\ b_per b' = b_per b /\
    written b' = written b + length l.
Proof.
  induction l as [|x l IH]; intros b W J R.
  - exists b. cbn [put_bytes length]. rewrite app_nil_r, Nat.add_0_r. auto 10.
  - cbn [length] in R. destruct (put_byte_ok junk b x W J) as (b1 & E1 & W1 & S1 & M1 & P1 & V1); [lia|].
    destruct (IH b1 W1) as (b2 & E2 & W2 & S2 & M2 & P2 & V2); [congruence|rewrite M1, P1; lia|].
    exists b2. cbn [put_bytes]. rewrite E1. cbn [obind]. split; [exact E2|]. split; [exact W2|].
    split; [rewrite S2, S1, <- app_assoc; reflexivity|]. cbn [length]. split; [lia|]. split; [lia|lia].
Qed.

Lemma last_opt_cons c t : t <> [] -> last_opt (c :: t) = last_opt t.
Proof. destruct t; [congruence|reflexivity]. Qed.
Lemma last_opt_skipn k : forall cs n t, skipn k cs = n :: t -> last_opt (n :: t) = last_opt cs.
Proof.
  induction k as [|k IH]; intros cs n t E; [cbn in E; congruence|].
  destruct cs as [|c cs]; [discriminate|]. cbn [skipn] in E. rewrite (last_opt_cons c); [apply (IH _ _ _ E)|].
  intros ->. destruct k; discriminate.
Qed.
Lemma last_opt_head n t u v : lunuse_len (mkBuffer (mkChain (c_data n) u (c_unuse n) :: t) v v v v) = match last_opt (n :: t) with Some c => c_unuse c | None => 0 end.
Proof. unfold lunuse_len. cbn [b_chains]. destruct t as [|d t]; reflexivity. Qed.
Lemma delete_k_shape : forall k b b1, delete_k k b = Ok b1 -> b_chains b1 = skipn k (b_chains b) /\ b_per b1 = b_per b.
Proof.
  induction k as [|k IH]; intros b b1 H; cbn [delete_k] in H; [injection H as <-; auto|].
  destruct (b_chains b) as [|c t] eqn:E; [discriminate|]. destruct (IH _ _ H) as [A B]. auto.
Qed.
Lemma release_written b n b' : release b n = Ok b' -> written b' <= written b.
Proof.
  unfold release. destruct (b_chains b) as [|c t] eqn:E; [discriminate|].
  destruct (n <? c_act c).
  - intros [= <-]. unfold written. cbn [b_chains b_per].
    pose proof (last_opt_head c t (c_use c + n) 0) as H. unfold lunuse_len in *. cbn [b_chains] in *. rewrite H, E. cbn [length]. lia.
  - destruct (count_delete (c :: t) n 0) as [k total]. destruct (delete_k k b) as [b1|] eqn:D; [|discriminate]. cbn [obind].
    destruct (delete_k_shape _ _ _ D) as [A B]. destruct (b_chains b1) as [|m t1] eqn:F; [discriminate|]. intros [= <-].
    unfold written. cbn [b_chains b_per]. pose proof (last_opt_head m t1 (n - total) 0) as H. unfold lunuse_len in *. cbn [b_chains] in *.
    rewrite H. symmetry in A. rewrite (last_opt_skipn k _ _ _ A), B.
    assert (length (m :: t1) <= length (b_chains b)) by (rewrite <- A, skipn_length; lia). cbn [length] in *.
    assert (S (length t1) * b_per b <= length (b_chains b) * b_per b) by (apply Nat.mul_le_mono_r; lia). lia.
Qed.

(** ** Frames *)
Lemma make_frame_ok b total over flag : wf b -> total <= length (stream b) ->
  make_frame b total over flag = Ok (mkHF (if over then FRAME_CONTINUATION else FRAME_HEADERS) flag (firstn total (stream b))).
Proof.
  intros W T. pose proof W as (W0 & _). pose proof (ptr_at_0 _ _ _ W0) as P. unfold make_frame.
  destruct (b_chains b) as [|c t] eqn:E; [contradiction|]. rewrite (memcpy_spec b 0 0 (c_use c) total W); [reflexivity|rewrite E; exact P|lia].
Qed.

(** One HEADERS frame followed by CONTINUATION frames. *)
Definition shape (fs : list hframe) : Prop :=
  match fs with [] => True | f :: t => hf_type f = FRAME_HEADERS /\ Forall (fun f => hf_type f = FRAME_CONTINUATION) t end.
Lemma shape_snoc fs f : shape fs -> hf_type f = (match fs with [] => FRAME_HEADERS | _ => FRAME_CONTINUATION end) -> shape (fs ++ [f]).
Proof.
  destruct fs as [|g t]; intros H E; cbn; [auto|]. destruct H as [H1 H2]. split; [exact H1|]. apply Forall_app. auto.
Qed.
Definition is_over (fs : list hframe) : bool := match fs with [] => false | _ => true end.
Lemma is_over_snoc fs f : is_over (fs ++ [f]) = true.
Proof. destruct fs; reflexivity. Qed.
Lemma is_over_type fs : (if is_over fs then FRAME_CONTINUATION else FRAME_HEADERS) = match fs with [] => FRAME_HEADERS | _ => FRAME_CONTINUATION end.
Proof. destruct fs; reflexivity. Qed.

Lemma frag_loop_ok junk maxp : 0 < maxp -> forall fields b out,
  wf b -> length junk = b_per b -> written b + length (concat fields) < b_max b * b_per b ->
  shape out -> Forall (fun f => hf_flags f = 0%N) out ->
  exists b' out', frag_loop junk maxp fields b (length (stream b)) (is_over out) out = Ok (b', length (stream b'), is_over out', out') /\ wf b' /\
    shape out' /\ Forall (fun f => hf_flags f = 0%N) out' /\
    flat_map hf_payload out' ++ stream b' = flat_map hf_payload out ++ stream b ++ concat fields /\
    (Forall (fun f => length f < maxp) fields -> length (stream b) < maxp -> Forall (fun f => length (hf_payload f) < maxp) out ->
     length (stream b') < maxp /\ Forall (fun f => length (hf_payload f) < maxp) out').
Proof.
  intros MP. induction fields as [|f t IH]; intros b out W J R S F.
  - exists b, out. cbn [frag_loop concat]. rewrite app_nil_r. auto 10.
  - cbn [concat] in R. rewrite app_length in R. cbn [frag_loop].
    destruct (put_bytes_ok junk f b W J) as (b1 & E1 & W1 & S1 & M1 & P1 & V1); [lia|]. rewrite E1. cbn [obind].
    assert (LS : length (stream b1) = length (stream b) + length f) by (rewrite S1, app_length; reflexivity).
    destruct (Nat.leb_spec maxp (length (stream b) + length f)) as [G|G].
    + rewrite (make_frame_ok b1 _ _ _ W1) by lia. cbn [obind].
      destruct (release_spec b1 (length (stream b)) W1) as (b2 & E2 & W2 & S2 & M2 & P2 & _); [lia|]. rewrite E2. cbn [obind].
      assert (SF : stream b2 = f).
      { rewrite S2, S1, skipn_app, Nat.sub_diag, skipn_all. reflexivity. }
      assert (PL : firstn (length (stream b)) (stream b1) = stream b).
      { rewrite S1, firstn_app, Nat.sub_diag, firstn_all. cbn [firstn]. apply app_nil_r. }
      rewrite PL, is_over_type.
      set (fr := mkHF (match out with [] => FRAME_HEADERS | _ => FRAME_CONTINUATION end) 0%N (stream b)).
      pose proof (release_written _ _ _ E2) as V2.
      destruct (IH b2 (out ++ [fr]) W2) as (b' & out' & H1 & H2 & H3 & H4 & H5 & H6).
      * congruence.
      * rewrite M2, P2, M1, P1. lia.
      * apply shape_snoc; [exact S|reflexivity].
      * apply Forall_app. split; [exact F|]. repeat constructor.
      * rewrite SF, is_over_snoc in H1. exists b', out'. split; [exact H1|]. split; [exact H2|]. split; [exact H3|]. split; [exact H4|]. split.
        -- rewrite H5, SF, flat_map_app. cbn [flat_map hf_payload fr concat]. rewrite app_nil_r, <- !app_assoc. reflexivity.
        -- intros A B D. pose proof (Forall_inv A) as A1. pose proof (Forall_inv_tail A) as A2. cbv beta in A1. apply H6; [exact A2|rewrite SF; exact A1|].
           apply Forall_app. split; [exact D|]. repeat constructor. exact B.
    + destruct (IH b1 out W1) as (b' & out' & H1 & H2 & H3 & H4 & H5 & H6).
      * congruence.
      * rewrite M1, P1. lia.
      * exact S.
      * exact F.
      * rewrite LS in H1. exists b', out'. split; [exact H1|]. split; [exact H2|]. split; [exact H3|]. split; [exact H4|]. split.
        -- rewrite H5, S1. cbn [concat]. rewrite <- !app_assoc. reflexivity.
        -- intros A B D. pose proof (Forall_inv A) as A1. pose proof (Forall_inv_tail A) as A2. cbv beta in A1. apply H6; [exact A2|lia|exact D].
Qed.

Definition last_flags (nocontent : bool) : N := if nocontent then 5%N else 4%N.
Lemma send_headers_ok junk maxp nc fields : length junk = BUF_PER -> 0 < maxp -> length (concat fields) < BUF_MAX * BUF_PER ->
  exists pre f, send_headers junk maxp nc fields = Ok (pre ++ [f]) /\ shape (pre ++ [f]) /\
    Forall (fun g => hf_flags g = 0%N) pre /\ hf_flags f = last_flags nc /\
    flat_map hf_payload (pre ++ [f]) = concat fields /\
    (Forall (fun g => length g < maxp) fields -> Forall (fun g => length (hf_payload g) < maxp) (pre ++ [f])).
Proof.
  intros J MP R. unfold send_headers.
  destruct (init_spec junk BUF_MAX BUF_PER) as (b & E & W & S & M & P); [unfold BUF_MAX; lia|unfold BUF_PER; lia|exact J|].
  change BUF_INIT with 1. rewrite E.
  assert (V : written b = 0).
  { unfold written, lunuse_len. revert E. unfold buf_init. cbn [init_chains]. unfold add_chain. cbn [b_max b_count]. cbn. intros [= <-]. cbn. rewrite J. reflexivity. }
  destruct (frag_loop_ok junk maxp MP fields b []) as (b' & out & H1 & H2 & H3 & H4 & H5 & H6); auto; [congruence|rewrite M, P; lia|exact Logic.I|].
  rewrite S in H1. cbn [length is_over] in H1. rewrite H1. cbn [obind].
  rewrite (make_frame_ok b' _ _ _ H2) by lia. cbn [obind]. rewrite firstn_all, is_over_type.
  eexists. eexists. split; [reflexivity|]. split; [apply shape_snoc; [exact H3|reflexivity]|]. split; [exact H4|].
  split; [destruct nc; reflexivity|]. split.
  - rewrite flat_map_app. cbn [flat_map hf_payload]. rewrite app_nil_r, H5, S. reflexivity.
  - intros A. rewrite S in H6. destruct (H6 A) as [B C]; [cbn; lia|constructor|]. apply Forall_app. split; [exact C|]. repeat constructor. exact B.
Qed.
(** With the size the server really uses there is one frame. *)
Lemma send_headers_one junk nc fields : length junk = BUF_PER -> length (concat fields) < BUF_MAX * BUF_PER ->
  send_headers junk MAX_FRAME nc fields = Ok [mkHF FRAME_HEADERS (last_flags nc) (concat fields)].
Proof.
  intros J R. assert (MF : N.of_nat MAX_FRAME = 16384%N) by (unfold MAX_FRAME; lia). assert (BC : BUF_MAX * BUF_PER = 1000) by reflexivity.
  unfold send_headers.
  destruct (init_spec junk BUF_MAX BUF_PER) as (b & E & W & S & M & P); [unfold BUF_MAX; lia|unfold BUF_PER; lia|exact J|].
  change BUF_INIT with 1. rewrite E.
  assert (V : written b = 0).
  { unfold written, lunuse_len. revert E. unfold buf_init. cbn [init_chains]. unfold add_chain. cbn [b_max b_count]. cbn. intros [= <-]. cbn. rewrite J. reflexivity. }
  assert (L : forall fs b out, wf b -> length junk = b_per b -> b_max b * b_per b = 1000 -> written b + length (concat fs) < 1000 -> length (stream b) <= written b ->
    exists b', frag_loop junk MAX_FRAME fs b (length (stream b)) false out = Ok (b', length (stream b'), false, out) /\ wf b' /\ stream b' = stream b ++ concat fs).
  { induction fs as [|f t IH]; intros b0 out W0 J0 C0 R0 L0.
    - exists b0. cbn [frag_loop concat]. rewrite app_nil_r. auto.
    - cbn [concat] in R0. rewrite app_length in R0. cbn [frag_loop].
      destruct (put_bytes_ok junk f b0 W0 J0) as (b1 & E1 & W1 & S1 & M1 & P1 & V1); [lia|]. rewrite E1. cbn [obind].
      replace (MAX_FRAME <=? length (stream b0) + length f) with false by (symmetry; apply Nat.leb_gt; lia).
      assert (LS : length (stream b1) = length (stream b0) + length f) by (rewrite S1, app_length; reflexivity).
      destruct (IH b1 out W1) as (b' & H1 & H2 & H3); [congruence|rewrite M1, P1; exact C0|lia|lia|].
      rewrite LS in H1. exists b'. split; [exact H1|]. split; [exact H2|]. rewrite H3, S1. cbn [concat]. rewrite app_assoc. reflexivity. }
  destruct (L fields b [] W) as (b' & H1 & H2 & H3); [congruence|rewrite M, P; exact BC|lia|rewrite S; cbn; lia|].
  rewrite S in H1. cbn [length] in H1. rewrite H1. cbn [obind].
  rewrite (make_frame_ok b' _ _ _ H2) by lia. cbn [obind app]. rewrite firstn_all, H3, S. destruct nc; reflexivity.
Qed.

(** ** Longer blocks *)
(** All blocks are full. *)
Definition jam (b : buffer) : Prop :=
  length (b_chains b) = BUF_MAX /\ b_count b = BUF_MAX /\ b_max b = BUF_MAX /\ Forall (fun c => c_len c = BUF_PER /\ c_use c = 0) (b_chains b) /\ lunuse_len b = 0.
Lemma jam_split b : jam b -> exists pre l, b_chains b = pre ++ [l] /\ c_unuse l = 0.
Proof.
  intros (L & _ & _ & _ & U). destruct (exists_last (l := b_chains b)) as (pre & l & E); [intros E; rewrite E in L; discriminate|].
  exists pre, l. split; [exact E|]. unfold lunuse_len in U. rewrite E, last_opt_app in U. exact U.
Qed.
Lemma put_byte_jam junk b x : jam b -> exists b', put_byte junk b x = Ok b' /\ jam b'.
Proof.
  intros Jm. destruct (jam_split b Jm) as (pre & l & E & U0). destruct Jm as (L & C & M & F & U).
  unfold put_byte. rewrite U. cbn [Nat.eqb]. unfold update_buffer. rewrite E, map_last_app. cbn [update_loop b_chains].
  rewrite last_opt_app. cbn [c_unuse]. rewrite U0. cbn [Nat.leb]. unfold add_chain. cbn [b_max b_count b_chains b_per b_use_len]. rewrite C, M, Nat.leb_refl. cbn [obind].
  eexists. split; [reflexivity|]. rewrite map_last_app. repeat split; cbn [b_chains b_count b_max]; auto.
  - rewrite E in L. rewrite app_length in *. exact L.
  - rewrite E in F. apply Forall_app in F as [F1 F2]. apply Forall_app. split; [exact F1|]. inversion F2 as [|? ? [G1 G2] G3]; subst.
    constructor; [|constructor]. cbn [c_use]. split; [|exact G2]. unfold c_len in *. cbn [c_data]. rewrite write_at_length; [exact G1|].
    cbn [length]. rewrite G1. unfold BUF_PER. lia.
  - rewrite lunuse_app. reflexivity.
Qed.
Lemma put_bytes_jam junk : forall l b, jam b -> exists b', put_bytes junk b l = Ok b' /\ jam b'.
Proof.
  induction l as [|x l IH]; intros b J; cbn [put_bytes]; [exists b; auto|].
  destruct (put_byte_jam junk b x J) as (b1 & E1 & J1). rewrite E1. cbn [obind]. apply IH, J1.
Qed.
Definition unused (b : buffer) : Prop := Forall (fun c => c_use c = 0) (b_chains b).
Lemma map_last_use f cs : (forall c, c_use (f c) = c_use c) -> Forall (fun c => c_use c = 0) cs -> Forall (fun c => c_use c = 0) (map_last f cs).
Proof.
  intros Hf H. induction H as [|c t H1 H2 IH]; [constructor|]. cbn [map_last]. destruct t as [|d t]; constructor; auto.
  rewrite Hf. exact H1.
Qed.
Lemma update_loop_use junk : forall fuel b n r, unused b -> update_loop fuel junk b n = Ok r ->
  match r with UpdSuccess b' | UpdLimit b' => unused b' end.
Proof.
  induction fuel as [|fuel IH]; intros b n r U H; [discriminate|]. cbn [update_loop] in H. destruct (last_opt (b_chains b)) as [l|]; [|discriminate].
  destruct (c_unuse l <=? n).
  - unfold add_chain in H. cbn [b_max b_count b_chains] in H. destruct (b_max b <=? b_count b).
    + injection H as <-. apply map_last_use; auto.
    + apply (IH _ _ _) in H; [exact H|]. unfold unused. cbn [b_chains]. apply Forall_app. split; [apply map_last_use; auto|]. repeat constructor.
  - injection H as <-. apply map_last_use; auto.
Qed.
Lemma put_byte_use junk b x b' : unused b -> put_byte junk b x = Ok b' -> unused b'.
Proof.
  intros U H. unfold put_byte in H.
  match type of H with obind (update_buffer _ ?b1 _) _ = _ => assert (U1 : unused b1) end.
  { destruct (lunuse_len b =? 0); apply map_last_use; auto. }
  match type of H with obind (update_buffer _ ?b1 _) _ = _ => destruct (update_buffer junk b1 1) as [r|] eqn:E end; [|discriminate].
  apply (update_loop_use _ _ _ _ _ U1) in E. cbn [obind] in H. destruct r; injection H as <-; exact E.
Qed.
Lemma wf_chains_len per : forall cs f, wf_chains per f cs -> Forall (fun c => c_len c = per) cs.
Proof.
  induction cs as [|c t IH]; intros f H; [constructor|]. destruct t as [|d t].
  - destruct H as [H _]. auto.
  - pose proof (wf_chains_cons _ _ _ _ _ H) as H'. destruct H as [H _]. constructor; [exact H|]. apply (IH _ H').
Qed.
Lemma put_byte_last junk b x : wf b -> unused b -> length junk = BUF_PER -> b_max b = BUF_MAX -> b_per b = BUF_PER -> written b = 999 ->
  exists b', put_byte junk b x = Ok b' /\ jam b'.
Proof.
  intros W Un J M P V. pose proof (wf_unuse_pos b W) as U. destruct (wf_last b W) as (pre & l & E & Wp & Wl & L).
  assert (LU : lunuse_len b = c_unuse l) by (unfold lunuse_len; rewrite L; reflexivity).
  pose proof W as (W0 & C & M' & _). pose proof (wf_chains_len _ _ _ W0) as CL. rewrite P in CL.
  assert (N1 : length pre = 99 /\ c_unuse l = 1).
  { unfold written in V. rewrite E, app_length, LU, P in V. cbn [length] in V. rewrite E, app_length in C. cbn [length] in C. destruct Wl as (_ & X & _). rewrite P in X.
    unfold BUF_PER, BUF_MAX in *. lia. }
  destruct N1 as [N1 N2]. unfold put_byte. replace (lunuse_len b =? 0) with false by (symmetry; apply Nat.eqb_neq; lia).
  unfold update_buffer, write_last. rewrite E, map_last_app. cbn [update_loop b_chains]. rewrite last_opt_app. cbn [c_unuse]. rewrite N2. cbn [Nat.leb].
  unfold add_chain. cbn [b_max b_count b_chains b_per b_use_len].
  assert (CN : b_count b = BUF_MAX) by (rewrite C, E, app_length, N1; reflexivity). rewrite CN, M, Nat.leb_refl. cbn [obind].
  eexists. split; [reflexivity|]. rewrite map_last_app. unfold jam. cbn [b_chains b_count b_max].
  split; [rewrite app_length, N1; reflexivity|]. split; [reflexivity|]. split; [reflexivity|]. split; [|rewrite lunuse_app; reflexivity].
  unfold unused in Un. rewrite E in CL, Un. apply Forall_app in CL as [C1 C2]. apply Forall_app in Un as [U1 U2].
  apply Forall_app. split; [rewrite Forall_forall in *; intros c I; split; auto|].
  constructor; [|constructor]. apply Forall_inv in C2. apply Forall_inv in U2. cbn [c_use]. split; [|exact U2].
  unfold c_len in *. cbn [c_data]. rewrite write_at_length; [exact C2|]. unfold c_written, c_len. cbn [length]. rewrite C2, N2. unfold BUF_PER. lia.
Qed.
Lemma put_bytes_long junk : forall l b, wf b -> unused b -> length junk = BUF_PER -> b_max b = BUF_MAX -> b_per b = BUF_PER -> 1000 <= written b + length l ->
  written b < 1000 -> exists b', put_bytes junk b l = Ok b' /\ jam b'.
Proof.
  induction l as [|x l IH]; intros b W U J M P R V; cbn [length] in R; [lia|]. cbn [put_bytes].
  destruct (Nat.eq_dec (written b) 999) as [E|E].
  - destruct (put_byte_last junk b x) as (b1 & E1 & J1); auto. rewrite E1. cbn [obind]. apply put_bytes_jam, J1.
  - destruct (put_byte_ok junk b x W) as (b1 & E1 & W1 & S1 & M1 & P1 & V1); [congruence|rewrite M, P; unfold BUF_MAX, BUF_PER; lia|].
    rewrite E1. cbn [obind]. apply IH; auto; try congruence; try lia. eapply put_byte_use; eauto.
Qed.
Lemma put_bytes_use junk : forall l b b', unused b -> put_bytes junk b l = Ok b' -> unused b'.
Proof.
  induction l as [|x l IH]; intros b b' U H; cbn [put_bytes] in H; [congruence|].
  destruct (put_byte junk b x) as [b1|] eqn:E; [|discriminate]. cbn [obind] in H. eapply IH; [|exact H]. eapply put_byte_use; eauto.
Qed.
Lemma copy_jam b : jam b -> forall len ci off, ci < BUF_MAX -> off < BUF_PER -> (BUF_MAX - ci) * BUF_PER <= off + len ->
  copy_loop b ci off len = UB NullDeref.
Proof.
  intros (L & _ & _ & F & _). induction len as [|len IH]; intros ci off A B G.
  - exfalso. unfold BUF_MAX, BUF_PER in *. lia.
  - cbn [copy_loop]. unfold load. cbn [fst snd].
    destruct (nth_error (b_chains b) ci) as [c|] eqn:N1; [|apply nth_error_None in N1; lia].
    assert (C : c_len c = BUF_PER /\ c_use c = 0). { rewrite Forall_forall in F. apply F. eapply nth_error_In; eauto. }
    destruct C as [C1 C2]. destruct (nth_error (c_data c) off) as [x|] eqn:N2; [|apply nth_error_None in N2; unfold c_len in C1; lia].
    cbn [obind]. rewrite C1. destruct (Nat.ltb_spec (BUF_PER - 1) (S off)) as [H|H].
    + destruct (nth_error (b_chains b) (S ci)) as [d|] eqn:N3; [|reflexivity].
      assert (S ci < BUF_MAX) by (rewrite <- L; apply nth_error_Some; congruence).
      assert (D : c_len d = BUF_PER /\ c_use d = 0). { rewrite Forall_forall in F. apply F. eapply nth_error_In; eauto. }
      destruct D as [_ D2]. rewrite D2, IH; [reflexivity|assumption|unfold BUF_PER; lia|]. unfold BUF_MAX, BUF_PER in *. lia.
    + rewrite IH; [reflexivity|exact A|lia|lia].
Qed.
Lemma frame_jam b total over flag : jam b -> 1000 <= total -> make_frame b total over flag = UB NullDeref.
Proof.
  intros J T. pose proof J as (L & _ & _ & F & _). unfold make_frame. destruct (b_chains b) as [|c t] eqn:E; [discriminate|].
  destruct (Forall_inv F) as [C1 C2]. unfold memcpy. destruct total as [|k]; [lia|]. cbn [find_src]. rewrite E. cbn [nth_error fst snd].
  rewrite Nat.leb_refl, C2, C1. cbn [Nat.eqb andb Nat.leb obind].
  rewrite (copy_jam b J); [reflexivity|unfold BUF_MAX; lia|unfold BUF_PER; lia|unfold BUF_MAX, BUF_PER; lia].
Qed.
(** Every block of 1000 bytes or more that would fit one frame ends in a NULL dereference. *)
Lemma send_headers_long junk nc fields : length junk = BUF_PER -> 1000 <= length (concat fields) -> length (concat fields) < MAX_FRAME ->
  send_headers junk MAX_FRAME nc fields = UB NullDeref.
Proof.
  intros J R Q. unfold send_headers.
  destruct (init_spec junk BUF_MAX BUF_PER) as (b & E & W & S & M & P); [unfold BUF_MAX; lia|unfold BUF_PER; lia|exact J|].
  change BUF_INIT with 1. rewrite E.
  assert (V : written b = 0 /\ unused b).
  { revert E. unfold written, unused, lunuse_len, buf_init. cbn [init_chains]. unfold add_chain. cbn [b_max b_count]. cbn. intros [= <-]. cbn. rewrite J. split; [reflexivity|]. repeat constructor. }
  destruct V as [V Un].
  assert (JM : forall fs b total, jam b -> total + length (concat fs) < MAX_FRAME ->
    exists b', frag_loop junk MAX_FRAME fs b total false [] = Ok (b', total + length (concat fs), false, []) /\ jam b').
  { induction fs as [|f t IH]; intros b0 total J0 R0; cbn [frag_loop concat].
    - exists b0. cbn [length]. rewrite Nat.add_0_r. auto.
    - cbn [concat] in R0. rewrite app_length in *. destruct (put_bytes_jam junk f b0 J0) as (b1 & E1 & J1). rewrite E1. cbn [obind].
      replace (MAX_FRAME <=? total + length f) with false by (symmetry; apply Nat.leb_gt; lia).
      destruct (IH b1 (total + length f) J1) as (b' & H1 & H2); [lia|]. exists b'. rewrite Nat.add_assoc. auto. }
  assert (L : forall fs b total, wf b -> unused b -> b_max b = BUF_MAX -> b_per b = BUF_PER -> written b < 1000 -> 1000 <= written b + length (concat fs) ->
    total + length (concat fs) < MAX_FRAME ->
    exists b', frag_loop junk MAX_FRAME fs b total false [] = Ok (b', total + length (concat fs), false, []) /\ jam b').
  { induction fs as [|f t IH]; intros b0 total W0 U0 M0 P0 V0 R0 T0; cbn [frag_loop concat] in *; [cbn [length] in R0; lia|].
    rewrite app_length in *. destruct (Nat.le_gt_cases 1000 (written b0 + length f)) as [G|G].
    - destruct (put_bytes_long junk f b0) as (b1 & E1 & J1); auto. rewrite E1. cbn [obind].
      replace (MAX_FRAME <=? total + length f) with false by (symmetry; apply Nat.leb_gt; lia).
      destruct (JM t b1 (total + length f) J1) as (b' & H1 & H2); [lia|]. exists b'. rewrite Nat.add_assoc. auto.
    - destruct (put_bytes_ok junk f b0 W0) as (b1 & E1 & W1 & S1 & M1 & P1 & V1); [congruence|rewrite M0, P0; unfold BUF_MAX, BUF_PER; lia|].
      rewrite E1. cbn [obind]. replace (MAX_FRAME <=? total + length f) with false by (symmetry; apply Nat.leb_gt; lia).
      destruct (IH b1 (total + length f) W1) as (b' & H1 & H2); try congruence; try lia; [eapply put_bytes_use; eauto|]. exists b'. rewrite Nat.add_assoc. auto. }
  destruct (L fields b 0 W Un M P) as (b' & H1 & H2); [lia|lia|lia|]. cbn [Nat.add] in H1. rewrite H1. cbn [obind].
  rewrite (frame_jam b' _ _ _ H2); [reflexivity|exact R].
Qed.
