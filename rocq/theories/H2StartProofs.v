(** Proofs about the beginning of an HTTP/2 connection. *)
From Verif Require Import Base Buffer BufferProofs H2Start.
From Coq Require Import Lia ZifyBool ZifyNat ZifyN.

Lemma preface_len : length preface = 24. Proof. reflexivity. Qed.
Lemma preface_nz : Forall (fun x => x <> 0%N) preface.
Proof. apply Forall_forall. intros x H. apply (proj1 (forallb_forall (fun x => negb (N.eqb x 0)) preface) eq_refl) in H. lia. Qed.

(** ** The comparison in the first block *)
Definition eqb (a b : list N) : bool := bytes_eqb a b.
Lemma cmp_all b c dist : nth_error (b_chains b) 0 = Some c -> Forall (fun x => x <> 0%N) dist -> forall off, off + length dist < c_len c ->
  (half c = false \/ off + length dist <= c_written c) ->
  cmp_loop b 0 off dist = Ok (if eqb (firstn (length dist) (skipn off (c_data c))) dist then CEqual else CDiffer).
Proof.
  intros C Z. induction Z as [|d t D Z IH]; intros off L W; [reflexivity|]. cbn [length] in L, W. cbn [cmp_loop length]. rewrite C.
  destruct (nth_error (c_data c) off) as [x|] eqn:X; [|apply nth_error_None in X; unfold c_len in L; lia].
  assert (SK : skipn off (c_data c) = x :: skipn (S off) (c_data c)).
  { clear - X. revert X. generalize (c_data c). induction off as [|o IH]; intros [|y l] X; try discriminate X.
    - injection X as ->. reflexivity.
    - apply (IH l X). }
  rewrite SK. cbn [firstn]. unfold eqb at 1. cbn [bytes_eqb]. rewrite (N.eqb_sym x d).
  destruct (N.eqb_spec d x) as [E|E]; [|reflexivity]. cbn [negb andb]. rewrite <- E. replace (N.eqb d 0) with false by lia.
  replace (half c && (c_written c <=? off)) with false by (destruct W as [-> | W]; [reflexivity|destruct (half c); cbn [andb]; lia]).
  replace (c_len c - 1 <=? off) with false by lia. rewrite IH by lia. reflexivity.
Qed.
Lemma cmp_half b c dist : nth_error (b_chains b) 0 = Some c -> half c = true -> Forall (fun x => x <> 0%N) dist -> forall off, off + length dist < c_len c ->
  off <= c_written c < off + length dist ->
  cmp_loop b 0 off dist = Ok (if eqb (firstn (S (c_written c - off)) (skipn off (c_data c))) (firstn (S (c_written c - off)) dist) then COverflow else CDiffer).
Proof.
  intros C H Z. induction Z as [|d t D Z IH]; intros off L W; [cbn [length] in W; lia|]. cbn [length] in L, W. cbn [cmp_loop]. rewrite C.
  destruct (nth_error (c_data c) off) as [x|] eqn:X; [|apply nth_error_None in X; unfold c_len in L; lia].
  assert (SK : skipn off (c_data c) = x :: skipn (S off) (c_data c)).
  { clear - X. revert X. generalize (c_data c). induction off as [|o IH]; intros [|y l] X; try discriminate X.
    - injection X as ->. reflexivity.
    - apply (IH l X). }
  rewrite SK. cbn [firstn]. unfold eqb at 1. cbn [bytes_eqb]. rewrite (N.eqb_sym x d).
  destruct (N.eqb_spec d x) as [E|E]; [|reflexivity]. cbn [negb andb]. rewrite <- E. replace (N.eqb d 0) with false by lia. rewrite H. cbn [andb].
  destruct (Nat.leb_spec (c_written c) off) as [Q|Q].
  - replace (c_written c - off) with 0 by lia. reflexivity.
  - replace (c_len c - 1 <=? off) with false by lia. rewrite IH by lia. replace (c_written c - off) with (S (c_written c - S off)) by lia. reflexivity.
Qed.

(** ** The states of the handler *)
(** The buffer after the bytes [r] have come in, when there is room left in the first block. *)
Definition held (mem : list N) (max per : nat) (r : list N) : buffer :=
  mkBuffer [mkChain (r ++ skipn (length r) mem) 0 (per - length r)] 1 max per (length r).
(** The buffer when [r] has filled the first block. *)
Definition full (mem2 : list N) (max per : nat) (r : list N) : buffer := mkBuffer [mkChain r 0 0; mkChain mem2 0 per] 2 max per per.

(** What becomes of a connection that has received [r] into the memory [mem]. *)
Definition verdict (mem r : list N) : place :=
  if 24 <=? length r then if eqb (firstn 24 r) preface then Accepted else Refused
  else if eqb (r ++ firstn 1 (skipn (length r) mem)) (firstn (S (length r)) preface) then Waiting else Refused.

Lemma held_len (mem : list N) (per : nat) (r : list N) : length mem = per -> length r <= per -> length (r ++ skipn (length r) mem) = per.
Proof. intros M L. rewrite app_length, skipn_length. lia. Qed.
Lemma held_wf mem max per r : length mem = per -> 1 <= max -> length r < per -> wf (held mem max per r) /\ stream (held mem max per r) = r.
Proof.
  intros M X L. pose proof (held_len mem per r M ltac:(lia)) as HL.
  assert (S : stream (held mem max per r) = r).
  { unfold stream, held. cbn [b_chains flat_map]. rewrite app_nil_r. unfold c_view, c_written, c_len. cbn [c_data c_use c_unuse]. rewrite HL.
    replace (per - (per - length r) - 0) with (length r + 0) by lia. cbn [skipn]. rewrite firstn_app_2. cbn [firstn]. apply app_nil_r. }
  split; [|exact S]. unfold wf. rewrite S. cbn [held b_chains b_count b_max b_use_len b_per wf_chains length]. unfold c_written, c_len. cbn [c_data c_use c_unuse].
  rewrite HL. lia.
Qed.
Lemma full_wf mem2 max per r : length mem2 = per -> 2 <= max -> length r = per -> 0 < per -> wf (full mem2 max per r) /\ stream (full mem2 max per r) = r.
Proof.
  intros M X L P.
  assert (S : stream (full mem2 max per r) = r).
  { unfold stream, full. cbn [b_chains flat_map]. unfold c_view, c_written, c_len. cbn [c_data c_use c_unuse skipn]. rewrite M, L.
    replace (per - per - 0) with 0 by lia. cbn [firstn]. rewrite !app_nil_r. replace (per - 0 - 0) with (length r) by lia. apply firstn_all. }
  split; [|exact S]. unfold wf. rewrite S. cbn [full b_chains b_count b_max b_use_len b_per wf_chains length]. unfold c_written, c_len. cbn [c_data c_use c_unuse].
  rewrite M, L. lia.
Qed.

Lemma check_held mem max per r src : length mem = per -> 1 <= max -> 25 <= per -> 1 <= length r < per ->
  exists b, check (held mem max per r) src = Ok (mkSt (verdict mem r) b src) /\
    (verdict mem r = Waiting -> b = held mem max per r) /\ (verdict mem r = Accepted -> wf b /\ stream b = skipn 24 r).
Proof.
  intros M X P L. destruct (held_wf mem max per r M X ltac:(lia)) as (W & S). pose proof (held_len mem per r M ltac:(lia)) as HL.
  set (c := mkChain (r ++ skipn (length r) mem) 0 (per - length r)).
  assert (CL : c_len c = per) by exact HL. assert (CW : c_written c = length r) by (unfold c_written; rewrite CL; cbn [c c_unuse]; lia).
  assert (CH : half c = true) by (unfold half; rewrite CL; cbn [c c_unuse]; lia).
  assert (REL : exists b, release (held mem max per r) 24 = Ok b).
  { unfold release. cbn [held b_chains]. unfold c_act. fold c. rewrite CL. cbn [c c_use]. replace (24 <? per - 0) with true by lia. eauto. }
  unfold check, memcmp. change (b_chains (held mem max per r)) with [c]. cbv iota. change (c_use c) with 0. unfold verdict. rewrite preface_len.
  destruct (Nat.leb_spec 24 (length r)) as [G|G].
  - rewrite (cmp_all (held mem max per r) c preface eq_refl preface_nz 0) by (rewrite ?preface_len, ?CL, ?CW; lia). cbn [obind]. rewrite preface_len. cbn [skipn c c_data].
    replace (firstn 24 (r ++ skipn (length r) mem)) with (firstn 24 r) by (rewrite firstn_app; replace (24 - length r) with 0 by lia; cbn [firstn]; now rewrite app_nil_r).
    destruct (eqb (firstn 24 r) preface).
    + destruct (release_spec (held mem max per r) 24 W) as (b & R & WB & SB & _); [rewrite S; lia|]. rewrite R. cbn [obind]. exists b.
      split; [reflexivity|]. split; [discriminate|]. intros _. rewrite S in SB. auto.
    + destruct REL as (b & R). rewrite R. cbn [obind]. exists b. split; [reflexivity|]. split; discriminate.
  - rewrite (cmp_half (held mem max per r) c preface eq_refl CH preface_nz 0) by (rewrite ?preface_len, ?CL, ?CW; lia). cbn [obind]. rewrite CW, Nat.sub_0_r. cbn [skipn c c_data].
    replace (firstn (Datatypes.S (length r)) (r ++ skipn (length r) mem)) with (r ++ firstn 1 (skipn (length r) mem)).
    2:{ replace (Datatypes.S (length r)) with (length r + 1) by lia. now rewrite firstn_app_2. }
    destruct (eqb _ _).
    + change (b_use_len (held mem max per r)) with (length r). replace (24 <? length r) with false by lia. eexists. split; [reflexivity|]. split; [reflexivity|discriminate].
    + destruct REL as (b & R). rewrite R. cbn [obind]. exists b. split; [reflexivity|]. split; discriminate.
Qed.
Lemma check_full mem mem2 max per r src : length mem2 = per -> 2 <= max -> 25 <= per -> length r = per ->
  exists b, check (full mem2 max per r) src = Ok (mkSt (verdict mem r) b src) /\ verdict mem r <> Waiting /\
    (verdict mem r = Accepted -> wf b /\ stream b = skipn 24 r).
Proof.
  intros M X P L. destruct (full_wf mem2 max per r M X L ltac:(lia)) as (W & S).
  set (c := mkChain r 0 0). assert (CL : c_len c = per) by exact L. assert (CH : half c = false) by reflexivity.
  unfold check, memcmp. change (b_chains (full mem2 max per r)) with [c; mkChain mem2 0 per]. cbv iota. change (c_use c) with 0. unfold verdict.
  replace (24 <=? length r) with true by lia. rewrite preface_len.
  rewrite (cmp_all (full mem2 max per r) c preface eq_refl preface_nz 0) by (rewrite ?preface_len, ?CL; auto; lia). cbn [obind]. rewrite preface_len. cbn [skipn c c_data].
  destruct (release_spec (full mem2 max per r) 24 W) as (b & R & WB & SB & _); [rewrite S; lia|].
  destruct (eqb (firstn 24 r) preface); rewrite R; cbn [obind]; exists b; (split; [reflexivity|]); (split; [discriminate|]); [intros _; rewrite S in SB; auto|discriminate].
Qed.

Lemma write_held (mem : list N) (per : nat) (r d : list N) : length mem = per -> length r + length d <= per ->
  write_at (r ++ skipn (length r) mem) (length r) d = (r ++ d) ++ skipn (length (r ++ d)) mem.
Proof.
  intros M L. unfold write_at. replace (firstn (length r) (r ++ skipn (length r) mem)) with r.
  2:{ replace (length r) with (length r + 0) at 1 by lia. rewrite firstn_app_2. cbn [firstn]. now rewrite app_nil_r. }
  rewrite skipn_app, skipn_all2 by lia. cbn [app]. replace (length r + length d - length r) with (length d) by lia.
  rewrite app_length, skipn_skipn, <- app_assoc. do 2 f_equal. f_equal. lia.
Qed.
Lemma recv_held mem mem2 max per r d : length mem = per -> 1 <= max -> 0 < length d -> length r + length d <= per ->
  recv_chunk mem2 (held mem max per r) d =
    if length r + length d <? per then Ok (UpdSuccess (held mem max per (r ++ d)))
    else if 2 <=? max then (if length mem2 =? per then Ok (UpdSuccess (full mem2 max per (r ++ d))) else recv_chunk mem2 (held mem max per r) d)
    else recv_chunk mem2 (held mem max per r) d.
Proof.
  intros M X D L. destruct (Nat.ltb_spec (length r + length d) per) as [G|G].
  - unfold recv_chunk, lunuse_len. cbn [held b_chains last_opt c_unuse]. replace (length d <=? per - length r) with true by lia.
    unfold write_last. cbn [held b_chains map_last b_count b_max b_per b_use_len c_data c_use c_unuse]. unfold c_written, c_len. cbn [c_data c_unuse].
    rewrite (held_len mem per r M ltac:(lia)). replace (per - (per - length r)) with (length r) by lia. rewrite (write_held mem per r d M L).
    unfold update_buffer. cbn [update_loop b_chains last_opt c_unuse]. replace (per - length r <=? length d) with false by lia.
    cbn [map_last b_chains b_count b_max b_per b_use_len c_data c_use c_unuse]. unfold held. rewrite app_length. do 3 f_equal. f_equal. f_equal. lia.
  - destruct (2 <=? max) eqn:MX; [|reflexivity]. destruct (length mem2 =? per) eqn:M2; [|reflexivity].
    unfold recv_chunk, lunuse_len. cbn [held b_chains last_opt c_unuse]. replace (length d <=? per - length r) with true by lia.
    unfold write_last. cbn [held b_chains map_last b_count b_max b_per b_use_len c_data c_use c_unuse]. unfold c_written, c_len. cbn [c_data c_unuse].
    rewrite (held_len mem per r M ltac:(lia)). replace (per - (per - length r)) with (length r) by lia. rewrite (write_held mem per r d M L).
    unfold update_buffer. cbn [update_loop b_chains last_opt c_unuse]. replace (per - length r <=? length d) with true by lia.
    cbn [map_last b_chains b_count b_max b_per b_use_len c_data c_use c_unuse]. unfold add_chain. cbn [b_max b_count]. replace (max <=? 1) with false by lia.
    cbn [app update_loop b_chains last_opt c_unuse]. destruct (length d) as [|n] eqn:LD; [lia|]. cbn [update_loop last_opt b_chains c_unuse].
    replace (length mem2 <=? S n - (per - length r)) with false by lia.
    cbn [map_last b_chains b_count b_max b_per b_use_len c_data c_use c_unuse]. unfold full. rewrite app_length, LD.
    rewrite skipn_all2 by lia. rewrite app_nil_r. do 4 f_equal; [|lia]. f_equal. f_equal. lia.
Qed.

(** ** Histories *)
Definition inv (mem : list N) (max per : nat) (src : list N) (s : st) : Prop :=
  match s_place s with
  | Waiting => exists r, s_buf s = held mem max per r /\ length r < 24 /\ r ++ s_src s = src /\ (r = [] \/ verdict mem r = Waiting)
  | Accepted => exists r, r ++ s_src s = src /\ verdict mem r = Accepted /\ wf (s_buf s) /\ stream (s_buf s) = skipn 24 r
  | Refused => exists r, r ++ s_src s = src /\ verdict mem r = Refused
  | Closed => True
  end.
Lemma waiting_short mem r : verdict mem r = Waiting -> length r < 24.
Proof. unfold verdict. destruct (Nat.leb_spec 24 (length r)) as [G|G]; [|auto]. destruct (eqb _ _); discriminate. Qed.

(** One delivery to a connection that has received [r]. *)
Lemma step_held mem max per r src k junk : length mem = per -> 1 <= max -> 25 <= per -> length r < 24 ->
  let d := firstn (Nat.min k (per - length r)) src in
  step (mkSt Waiting (held mem max per r) src) (Recv k junk) =
    match d with
    | [] => Ok (mkSt Waiting (held mem max per r) src)
    | _ => obind (recv_chunk (fresh per junk) (held mem max per r) d) (fun x =>
           match x with UpdSuccess b => check b (skipn (length d) src) | UpdLimit b => Ok (mkSt Closed b (skipn (length d) src)) end)
    end.
Proof.
  intros M X P L d. unfold step. cbn [s_place s_buf s_src]. change (lunuse_len (held mem max per r)) with (per - length r). fold d.
  change (b_use_len (held mem max per r)) with (length r). change (b_per (held mem max per r)) with per. rewrite preface_len. replace (24 <? length r) with false by lia.
  destruct d; reflexivity.
Qed.
Lemma step_spec mem max per r src k junk : length mem = per -> 1 <= max -> 25 <= per -> length r < 24 ->
  let d := firstn (Nat.min k (per - length r)) src in
  d <> [] -> length r + length d < per \/ 2 <= max ->
  exists b, step (mkSt Waiting (held mem max per r) src) (Recv k junk) = Ok (mkSt (verdict mem (r ++ d)) b (skipn (length d) src)) /\
    (verdict mem (r ++ d) = Waiting -> b = held mem max per (r ++ d)) /\ (verdict mem (r ++ d) = Accepted -> wf b /\ stream b = skipn 24 (r ++ d)).
Proof.
  intros M X P L d D E. unfold d in *. rewrite step_held by assumption. clear d. set (d := firstn (Nat.min k (per - length r)) src) in *.
  assert (DL : length d <= per - length r) by (unfold d; rewrite firstn_length; lia).
  assert (D1 : 0 < length d) by (destruct d; [congruence|cbn; lia]).
  assert (SP : (match d with [] => Ok (mkSt Waiting (held mem max per r) src)
    | _ => obind (recv_chunk (fresh per junk) (held mem max per r) d) (fun x =>
           match x with UpdSuccess b => check b (skipn (length d) src) | UpdLimit b => Ok (mkSt Closed b (skipn (length d) src)) end) end) =
    obind (recv_chunk (fresh per junk) (held mem max per r) d) (fun x =>
           match x with UpdSuccess b => check b (skipn (length d) src) | UpdLimit b => Ok (mkSt Closed b (skipn (length d) src)) end)) by (destruct d; [congruence|reflexivity]).
  rewrite SP. rewrite recv_held by (assumption || lia). rewrite fresh_length, Nat.eqb_refl.
  destruct (Nat.ltb_spec (length r + length d) per) as [G|G].
  - cbn [obind]. apply check_held; rewrite ?app_length; try assumption; lia.
  - destruct E as [E|E]; [lia|]. replace (2 <=? max) with true by lia. cbn [obind].
    destruct (check_full mem (fresh per junk) max per (r ++ d) (skipn (length d) src) (fresh_length per junk) E P) as (b & C & N & A); [rewrite app_length; lia|].
    exists b. split; [exact C|]. split; [congruence|exact A].
Qed.
Lemma step_limit mem per r src k junk : length mem = per -> 25 <= per -> length r < 24 ->
  let d := firstn (Nat.min k (per - length r)) src in
  length r + length d = per ->
  exists b, step (mkSt Waiting (held mem 1 per r) src) (Recv k junk) = Ok (mkSt Closed b (skipn (length d) src)).
Proof.
  intros M P L d E. unfold d in *. rewrite step_held by (assumption || lia). clear d. set (d := firstn (Nat.min k (per - length r)) src) in *.
  destruct (held_wf mem 1 per r M ltac:(lia) ltac:(lia)) as (W & _).
  pose proof (recv_chunk_spec (fresh per junk) (held mem 1 per r) d W (fresh_length per junk)) as R.
  change (lunuse_len (held mem 1 per r)) with (per - length r) in R. change (b_count (held mem 1 per r)) with 1 in R. change (b_max (held mem 1 per r)) with 1 in R.
  assert (NL : (length d <? per - length r) = false) by (apply Nat.ltb_ge; lia). rewrite NL in R. cbn [orb] in R. change (1 <? 1) with false in R. cbv iota in R.
  destruct R as (b & R & _); [lia|]. destruct d as [|x d]; [cbn in E; lia|]. rewrite R. cbn [obind]. eauto.
Qed.

Lemma step_inv mem max per src s e : length mem = per -> 1 <= max -> 25 <= per -> inv mem max per src s -> exists s', step s e = Ok s' /\ inv mem max per src s'.
Proof.
  intros M X P I. destruct s as [p b q]. destruct p; try (exists (mkSt Accepted b q); split; [reflexivity|exact I]);
    try (exists (mkSt Refused b q); split; [reflexivity|exact I]); try (exists (mkSt Closed b q); split; [reflexivity|exact I]).
  destruct I as (r & B & L & Q & V). cbn [s_buf s_src] in B, Q. subst b. destruct e as [k junk|]; [|exists (mkSt Closed (held mem max per r) q); split; [reflexivity|exact Logic.I]].
  destruct (firstn (Nat.min k (per - length r)) q) as [|x d'] eqn:D.
  { rewrite step_held by assumption. rewrite D. eexists. split; [reflexivity|]. exists r. auto. }
  set (d := x :: d') in *. assert (DL : length d <= per - length r) by (rewrite <- D, firstn_length; lia).
  assert (RQ : r ++ d ++ skipn (length d) q = src).
  { rewrite <- Q. f_equal. rewrite <- (firstn_skipn (Nat.min k (per - length r)) q) at 2. rewrite D. f_equal.
    assert (LD : length d = Nat.min (Nat.min k (per - length r)) (length q)) by (rewrite <- D; apply firstn_length).
    destruct (Nat.le_gt_cases (length q) (Nat.min k (per - length r))) as [G|G]; [rewrite !skipn_all2 by lia; reflexivity|].
    f_equal. lia. }
  destruct (Nat.eq_dec (length r + length d) per) as [EQ|NE].
  - destruct (Nat.eq_dec max 1) as [->|M1].
    + destruct (step_limit mem per r q k junk M P L) as (b & S); [rewrite D; exact EQ|]. rewrite S. eexists. split; [reflexivity|exact Logic.I].
    + destruct (step_spec mem max per r q k junk M X P L) as (b & S & W & A); [rewrite D; discriminate|right; lia|]. rewrite D in *. rewrite S. eexists. split; [reflexivity|].
      unfold inv. cbn [s_place s_buf s_src]. destruct (verdict mem (r ++ d)) eqn:VD.
      * exists (r ++ d). rewrite <- app_assoc. split; [now apply W|]. split; [exact (waiting_short _ _ VD)|]. auto.
      * exists (r ++ d). rewrite <- app_assoc. split; [exact RQ|]. split; [exact VD|]. now apply A.
      * exists (r ++ d). rewrite <- app_assoc. auto.
      * exact Logic.I.
  - destruct (step_spec mem max per r q k junk M X P L) as (b & S & W & A); [rewrite D; discriminate|left; rewrite D; lia|]. rewrite D in *. rewrite S. eexists. split; [reflexivity|].
    unfold inv. cbn [s_place s_buf s_src]. destruct (verdict mem (r ++ d)) eqn:VD.
    * exists (r ++ d). rewrite <- app_assoc. split; [now apply W|]. split; [exact (waiting_short _ _ VD)|]. auto.
    * exists (r ++ d). rewrite <- app_assoc. split; [exact RQ|]. split; [exact VD|]. now apply A.
    * exists (r ++ d). rewrite <- app_assoc. auto.
    * exact Logic.I.
Qed.
Lemma run_inv mem max per src es : length mem = per -> 1 <= max -> 25 <= per -> forall s, inv mem max per src s -> exists s', run s es = Ok s' /\ inv mem max per src s'.
Proof.
  intros M X P. induction es as [|e es IH]; intros s I; [exists s; split; [reflexivity|exact I]|].
  destruct (step_inv mem max per src s e M X P I) as (s1 & S & I1). destruct (IH s1 I1) as (s2 & R & I2). exists s2. cbn [run]. rewrite S. split; [exact R|exact I2].
Qed.
Lemma start_held junk max per src : start junk max per src = mkSt Waiting (held (fresh per junk) max per []) src.
Proof. unfold start, held. cbn [length app skipn]. now rewrite Nat.sub_0_r. Qed.
Lemma start_inv junk max per src : inv (fresh per junk) max per src (start junk max per src).
Proof. rewrite start_held. exists []. cbn. repeat split; auto; lia. Qed.
Lemma run_start junk max per src es : 1 <= max -> 25 <= per -> exists s, run (start junk max per src) es = Ok s /\ inv (fresh per junk) max per src s.
Proof. intros X P. apply (run_inv _ max per src es (fresh_length per junk) X P). apply start_inv. Qed.

Lemma run_done es s : s_place s <> Waiting -> run s es = Ok s.
Proof.
  intros W. induction es as [|e es IH]; [reflexivity|]. cbn [run]. unfold step. destruct (s_place s); [congruence| | |]; exact IH.
Qed.
Lemma verdict_accepted mem r : verdict mem r = Accepted -> exists rest, r = preface ++ rest /\ skipn 24 r = rest.
Proof.
  unfold verdict. destruct (Nat.leb_spec 24 (length r)) as [G|G]; [|destruct (eqb _ _); discriminate].
  destruct (eqb (firstn 24 r) preface) eqn:E; [|discriminate]. intros _. apply bytes_eqb_eq in E. exists (skipn 24 r). split; [|reflexivity].
  rewrite <- E. symmetry. apply firstn_skipn.
Qed.
Lemma verdict_waiting mem r : verdict mem r = Waiting -> r = firstn (length r) preface.
Proof.
  intros V. pose proof (waiting_short _ _ V) as L. revert V. unfold verdict. replace (24 <=? length r) with false by lia.
  destruct (eqb _ _) eqn:E; [|discriminate]. intros _. apply bytes_eqb_eq in E. apply (f_equal (firstn (length r))) in E.
  rewrite firstn_firstn in E. replace (Nat.min (length r) (S (length r))) with (length r) in E by lia.
  rewrite firstn_app, firstn_all, Nat.sub_diag in E. cbn [firstn] in E. rewrite app_nil_r in E. exact E.
Qed.

Lemma sound junk max per src es s : 1 <= max -> 25 <= per -> run (start junk max per src) es = Ok s -> s_place s = Accepted ->
  src = preface ++ stream (s_buf s) ++ s_src s.
Proof.
  intros X P R A. destruct (run_start junk max per src es X P) as (s' & R' & I). rewrite R in R'. injection R' as <-. unfold inv in I. rewrite A in I.
  destruct I as (r & Q & V & W & S). destruct (verdict_accepted _ _ V) as (rest & E & K). rewrite S, K, <- Q, E, <- app_assoc. reflexivity.
Qed.
Lemma waits junk max per src es s : 1 <= max -> 25 <= per -> run (start junk max per src) es = Ok s -> s_place s = Waiting ->
  exists r rest, src = r ++ s_src s /\ preface = r ++ rest /\ rest <> [].
Proof.
  intros X P R A. destruct (run_start junk max per src es X P) as (s' & R' & I). rewrite R in R'. injection R' as <-. unfold inv in I. rewrite A in I.
  destruct I as (r & B & L & Q & V). exists r, (skipn (length r) preface). split; [now symmetry|].
  assert (E : r = firstn (length r) preface) by (destruct V as [->|V]; [reflexivity|exact (verdict_waiting _ _ V)]). split.
  - rewrite E at 1. symmetry. apply firstn_skipn.
  - intros Z0. apply (f_equal (@length _)) in Z0. rewrite skipn_length, preface_len in Z0. cbn [length] in Z0. lia.
Qed.
Lemma first_step junk max per src k j es : 1 <= max -> 25 <= per -> 0 < k -> src <> [] -> Nat.min k (length src) < per \/ 2 <= max ->
  let d := firstn (Nat.min k per) src in
  exists s, run (start junk max per src) (Recv k j :: es) = (if match verdict (fresh per junk) d with Waiting => true | _ => false end then run s es else Ok s) /\
    s_place s = verdict (fresh per junk) d /\ s_src s = skipn (length d) src.
Proof.
  intros X P K S E d. rewrite start_held. destruct (step_spec (fresh per junk) max per [] src k j (fresh_length per junk) X P ltac:(cbn; lia)) as (b & ST & W & A).
  - cbn [length]. rewrite Nat.sub_0_r. destruct src; [congruence|]. destruct (Nat.min k per) eqn:Q; [lia|]. discriminate.
  - cbn [length]. rewrite Nat.sub_0_r, firstn_length. lia.
  - cbn [length app] in *. rewrite Nat.sub_0_r in *. fold d in ST, W, A. exists (mkSt (verdict (fresh per junk) d) b (skipn (length d) src)). cbn [run]. rewrite ST. cbn [obind]. split; [|split; reflexivity].
    destruct (verdict (fresh per junk) d) eqn:V; [reflexivity| | |]; apply run_done; discriminate.
Qed.
Lemma whole junk max per rest k j es : 1 <= max -> 25 <= per -> 24 <= k -> Nat.min k (24 + length rest) < per \/ 2 <= max ->
  exists s, run (start junk max per (preface ++ rest)) (Recv k j :: es) = Ok s /\ s_place s = Accepted /\ stream (s_buf s) ++ s_src s = rest.
Proof.
  intros X P K E. assert (SL : length (preface ++ rest) = 24 + length rest) by (rewrite app_length; reflexivity).
  destruct (first_step junk max per (preface ++ rest) k j es X P ltac:(lia)) as (s & R & PL & Q); [discriminate|rewrite SL; exact E|].
  assert (V : verdict (fresh per junk) (firstn (Nat.min k per) (preface ++ rest)) = Accepted).
  { unfold verdict. rewrite firstn_length, SL. replace (24 <=? _) with true by lia. rewrite firstn_firstn. replace (Nat.min 24 (Nat.min k per)) with (length preface + 0) by (rewrite preface_len; lia).
    rewrite firstn_app_2. cbn [firstn]. rewrite app_nil_r. unfold eqb. now rewrite bytes_eqb_refl. }
  rewrite V in R, PL. exists s. split; [exact R|]. split; [exact PL|].
  pose proof (sound junk max per _ _ s X P R PL) as SO. now apply app_inv_head in SO.
Qed.
Lemma verdict_cut mem r : 1 <= length r < 24 -> nth_error mem (length r) <> nth_error preface (length r) -> length r < length mem -> verdict mem r = Refused.
Proof.
  intros L N M. unfold verdict. replace (24 <=? length r) with false by lia. destruct (eqb _ _) eqn:E; [|reflexivity]. exfalso. apply N.
  apply bytes_eqb_eq in E. apply (f_equal (fun l => nth_error l (length r))) in E. rewrite nth_error_app2 in E by lia. rewrite Nat.sub_diag in E.
  assert (A : nth_error (firstn 1 (skipn (length r) mem)) 0 = nth_error mem (length r)).
  { rewrite <- (firstn_skipn (length r) mem) at 2. rewrite nth_error_app2 by (rewrite firstn_length; lia). rewrite firstn_length. replace (length r - Nat.min (length r) (length mem)) with 0 by lia.
    destruct (skipn (length r) mem); reflexivity. }
  assert (B : nth_error (firstn (S (length r)) preface) (length r) = nth_error preface (length r)).
  { rewrite <- (firstn_skipn (S (length r)) preface) at 2. rewrite nth_error_app1; [reflexivity|]. rewrite firstn_length, preface_len. lia. }
  rewrite A, B in E. exact E.
Qed.
Lemma cut junk max per src k j es : 1 <= max -> 25 <= per -> 0 < k < 24 -> k <= length src -> nth_error (fresh per junk) k <> nth_error preface k ->
  exists s, run (start junk max per src) (Recv k j :: es) = Ok s /\ s_place s = Refused.
Proof.
  intros X P K L N. destruct (first_step junk max per src k j es X P ltac:(lia)) as (s & R & PL & Q); [destruct src; [cbn in L; lia|discriminate]|lia|].
  assert (V : verdict (fresh per junk) (firstn (Nat.min k per) src) = Refused).
  { assert (LL : length (firstn (Nat.min k per) src) = k) by (rewrite firstn_length; lia). apply verdict_cut; rewrite LL; [lia|exact N|]. rewrite fresh_length. lia. }
  rewrite V in R, PL. eauto.
Qed.
Lemma wrong junk max per src k j es i : 1 <= max -> 25 <= per -> i < 24 -> i < k -> i < length src -> nth_error src i <> nth_error preface i -> Nat.min k (length src) < per \/ 2 <= max ->
  exists s, run (start junk max per src) (Recv k j :: es) = Ok s /\ s_place s = Refused.
Proof.
  intros X P I IK IS N E. destruct (first_step junk max per src k j es X P ltac:(lia)) as (s & R & PL & Q); [destruct src; [cbn in IS; lia|discriminate]|exact E|].
  set (d := firstn (Nat.min k per) src) in *.
  assert (DN : nth_error d i = nth_error src i).
  { unfold d. rewrite <- (firstn_skipn (Nat.min k per) src) at 2. rewrite nth_error_app1; [reflexivity|]. rewrite firstn_length. lia. }
  assert (DL : i < length d) by (unfold d; rewrite firstn_length; lia).
  assert (V : verdict (fresh per junk) d = Refused).
  { destruct (verdict (fresh per junk) d) eqn:V; [| |reflexivity|].
    - exfalso. apply N. rewrite <- DN. pose proof (verdict_waiting _ _ V) as W. rewrite W. rewrite <- (firstn_skipn (length d) preface) at 2. rewrite nth_error_app1; [reflexivity|]. rewrite <- W. exact DL.
    - exfalso. apply N. rewrite <- DN. destruct (verdict_accepted _ _ V) as (rest & W & _). rewrite W, nth_error_app1; [reflexivity|]. rewrite preface_len. exact I.
    - exfalso. revert V. unfold verdict. destruct (24 <=? length d); destruct (eqb _ _); discriminate. }
  rewrite V in R, PL. eauto.
Qed.
(** Blocks that are shorter than the preface. *)
Lemma short_blocks junk max per x rest j k : 2 <= per < 24 -> x <> 80%N -> 1 <= max -> k = 1 -> step (start junk max per (x :: rest)) (Recv k j) = UB NullDeref.
Proof.
  intros P N X ->. unfold step, start. cbn [s_place s_buf s_src]. change (lunuse_len {| b_chains := [{| c_data := fresh per junk; c_use := 0; c_unuse := per |}]; b_count := 1; b_max := max; b_per := per; b_use_len := 0 |}) with per.
  replace (Nat.min 1 per) with 1 by lia. cbn [firstn].
  assert (R : recv_chunk (fresh per j) (held (fresh per junk) max per []) [x] = Ok (UpdSuccess (held (fresh per junk) max per [x]))).
  { rewrite recv_held by (rewrite ?fresh_length; cbn [length]; lia). cbn [length]. replace (0 + 1 <? per) with true by lia. reflexivity. }
  unfold held in R at 1. cbn [length app skipn] in R. rewrite Nat.sub_0_r in R. cbn [b_per]. rewrite R. cbn [obind length skipn].
  assert (HL : length ([x] ++ skipn 1 (fresh per junk)) = per) by (apply (held_len (fresh per junk) per [x]); rewrite ?fresh_length; cbn [length]; lia).
  unfold check, memcmp. cbn [held b_chains c_use length]. unfold preface at 1. change (bs "PRI * HTTP/2.0") with (80%N :: bs "RI * HTTP/2.0"). cbn [app cmp_loop held b_chains nth_error c_data].
  replace (N.eqb 80 x) with false by lia. cbn [negb obind]. unfold release. cbn [held b_chains]. unfold c_act, c_len. cbn [c_data c_use]. cbn [app length] in HL |- *. rewrite HL.
  rewrite preface_len. replace (24 <? per - 0) with false by lia. cbn [count_delete]. unfold c_act, c_len. cbn [c_data c_use length]. rewrite HL.
  replace (0 + (per - 0) <=? 24) with true by lia. cbn [delete_k b_chains obind]. reflexivity.
Qed.
