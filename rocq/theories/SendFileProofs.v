(** Proofs about SendFile.v. *)
From Verif Require Import SendFile.
From Coq Require Import NArith List Bool Arith Lia.
From Coq Require Import ZifyBool ZifyNat ZifyN.
Import ListNotations.
Local Open Scope nat_scope.

(** * Specification *)
(** [count] bytes of the file from [off] on. *)
Definition part_of (d : list N) (off count : nat) : list N := firstn count (skipn off d).
(** Every write takes all it is given, and there are enough of them. *)
Definition all_taken (d : list N) (ws : list wres) : Prop :=
  (forall w, In w ws -> exists n, w = Takes n /\ N.to_nat 4096 <= n) /\ length d <= length ws.
(** The least multiple of 4096 that is not smaller. *)
Definition round_up (count r : nat) : Prop := count <= r < count + N.to_nat 4096 /\ Nat.modulo r (N.to_nat 4096) = 0.

Lemma buffer_pos : 0 < BUFFER. Proof. unfold BUFFER. lia. Qed.
Lemma buffer_eq : N.to_nat 4096 = BUFFER. Proof. reflexivity. Qed.
Opaque BUFFER.

Lemma blocks_concat size : 0 < size -> forall f d, length d <= f -> concat (blocks f size d) = d.
Proof.
  intros P. induction f as [|f IH]; intros d L; [destruct d; [reflexivity|cbn in L; lia]|]. destruct d as [|c d]; [reflexivity|].
  cbn [blocks concat]. rewrite IH; [apply firstn_skipn|]. rewrite skipn_length. cbn [length] in *. lia.
Qed.
Lemma write_whole b ws : b <> [] -> length b <= BUFFER -> (forall w, In w ws -> exists n, w = Takes n /\ BUFFER <= n) -> ws <> [] ->
  write_block b (length b) ws = (b, BDone (tl ws)).
Proof.
  intros NB L F NE. destruct ws as [|w ws]; [congruence|]. destruct (F w (or_introl eq_refl)) as (n & -> & Ln).
  destruct (length b) as [|k] eqn:K; [destruct b; [congruence|discriminate]|]. assert (T : taken n (S k) = S k) by (unfold taken; lia).
  cbn [write_block tl]. rewrite T, Nat.sub_diag. destruct ws; cbn [write_block]; rewrite app_nil_r, <- K, firstn_all; reflexivity.
Qed.

(** All writes complete: what is sent and how it ends. *)
Lemma send_all f : forall d total count off ws, length d <= f -> (forall w, In w ws -> exists n, w = Takes n /\ BUFFER <= n) -> length d <= length ws ->
  (count <= total + length d -> exists r, send_blocks (blocks f BUFFER d) total count off ws = (firstn r d, Returns count (off + count)) /\
     (count <= total /\ r = 0 \/ total < count /\ count - total <= r < count - total + BUFFER /\ Nat.modulo r BUFFER = 0)) /\
  (total + length d < count -> send_blocks (blocks f BUFFER d) total count off ws = (d, Forever)).
Proof.
  pose proof buffer_pos as P. induction f as [|f IH]; intros d total count off ws L F LW.
  - destruct d; [|cbn in L; lia]. cbn [blocks send_blocks]. destruct (Nat.leb_spec count total); split; intro C; cbn [length] in *; try lia.
    + exists 0. split; [reflexivity|]. left. lia.
    + reflexivity.
  - destruct d as [|c d].
    + cbn [blocks send_blocks]. destruct (Nat.leb_spec count total); split; intro C; cbn [length] in *; try lia; [|reflexivity].
      exists 0. split; [reflexivity|]. left. lia.
    + cbn [blocks send_blocks]. set (e := c :: d) in *. destruct (Nat.leb_spec count total) as [G|G].
      * split; [|cbn [length]; lia]. intros _. exists 0. split; [reflexivity|]. left. lia.
      * assert (LB : length (firstn BUFFER e) = Nat.min BUFFER (length e)) by apply firstn_length.
        rewrite write_whole; [|unfold e; destruct BUFFER; [lia|discriminate]|lia|exact F|unfold e in LW; cbn [length] in LW; destruct ws; [cbn in LW; lia|discriminate]].
        assert (LS : length (skipn BUFFER e) = length e - BUFFER) by apply skipn_length.
        assert (Le : length e = S (length d)) by reflexivity.
        destruct (IH (skipn BUFFER e) (total + length (firstn BUFFER e)) count off (tl ws)) as (A & B).
        { lia. } { intros w I. apply F. destruct ws; [destruct I|right; exact I]. } { destruct ws; cbn [tl length] in *; lia. }
        split; intro C.
        -- destruct A as (r & E & H); [lia|]. rewrite E. destruct H as [(H1 & ->)|(H1 & H2 & H3)].
           ++ exists BUFFER. split; [cbn [firstn]; rewrite app_nil_r; reflexivity|]. right.
              split; [exact G|]. split; [lia|]. apply Nat.mod_same. lia.
           ++ exists (BUFFER + r). split; [|right; split; [exact G|split; [|rewrite Nat.add_mod, Nat.mod_same, H3, Nat.add_0_l by lia; apply Nat.mod_0_l; lia]]].
              ** f_equal. rewrite <- (firstn_skipn BUFFER e) at 3. rewrite firstn_app, LB. rewrite (firstn_all2 (firstn BUFFER e)) by lia. f_equal.
                 destruct (Nat.le_gt_cases BUFFER (length e)) as [Q|Q]; [f_equal; lia|]. rewrite (skipn_all2 e) by lia. rewrite !firstn_nil. reflexivity.
              ** destruct (Nat.le_gt_cases BUFFER (length e)) as [Q|Q]; lia.
        -- rewrite B by lia. f_equal. apply firstn_skipn.
Qed.
Lemma taken_all d off ws : all_taken d ws -> (forall w, In w ws -> exists n, w = Takes n /\ BUFFER <= n) /\ length (skipn off d) <= length ws.
Proof. unfold all_taken. rewrite buffer_eq. intros (F & L). split; [exact F|]. rewrite skipn_length. lia. Qed.

Lemma sent_rounded d off count ws : all_taken d ws -> off + count <= length d -> exists r, round_up count r /\
  sendfile d off count ws = (part_of d off r, Returns count (off + count)).
Proof.
  intros T C. apply (taken_all d off) in T as (F & L). unfold sendfile, part_of.
  destruct (send_all (length (skipn off d)) (skipn off d) 0 count off ws (le_n _) F L) as (A & _).
  destruct A as (r & E & H); [rewrite skipn_length; lia|]. exists r. split; [|exact E]. unfold round_up. rewrite buffer_eq. pose proof buffer_pos.
  destruct H as [(H1 & ->)|(H1 & H2 & H3)]; [split; [lia|apply Nat.mod_0_l; lia]|split; [lia|exact H3]].
Qed.
Lemma round_up_unique c r r' : round_up c r -> round_up c r' -> r = r'.
Proof.
  unfold round_up. rewrite buffer_eq. pose proof buffer_pos as P. intros ((A & B) & M) ((A' & B') & M').
  apply Nat.mod_divides in M as (q & ->); [|lia]. apply Nat.mod_divides in M' as (q' & ->); [|lia]. assert (q = q') by nia. congruence.
Qed.
Lemma sent_exact_iff d off count ws : all_taken d ws -> off + count <= length d ->
  (fst (sendfile d off count ws) = part_of d off count <-> (Nat.modulo count (N.to_nat 4096) = 0 \/ off + count = length d)).
Proof.
  intros T C. destruct (sent_rounded d off count ws T C) as (r & R & E). rewrite E. cbn [fst]. unfold part_of.
  assert (L : forall n, length (firstn n (skipn off d)) = Nat.min n (length d - off)) by (intro n; rewrite firstn_length, skipn_length; reflexivity).
  split.
  - intro H. apply (f_equal (@length N)) in H. rewrite !L in H. destruct R as (R1 & R2).
    destruct (Nat.eq_dec (off + count) (length d)); [auto|]. left. assert (r = count) by lia. congruence.
  - intros [M|M].
    + assert (r = count); [|congruence]. apply (round_up_unique count); [exact R|]. unfold round_up. split; [lia|exact M].
    + destruct R as (R1 & _). rewrite !firstn_all2; [reflexivity|rewrite skipn_length; lia|rewrite skipn_length; lia].
Qed.
Lemma too_many d off count ws : all_taken d ws -> length d < off + count -> 0 < count -> sendfile d off count ws = (skipn off d, Forever).
Proof.
  intros T C Z. apply (taken_all d off) in T as (F & L). unfold sendfile.
  destruct (send_all (length (skipn off d)) (skipn off d) 0 count off ws (le_n _) F L) as (_ & B). apply B. rewrite skipn_length. lia.
Qed.
(** Whatever the writes do, the offset is either moved by all of [count] or not at all. *)
Lemma ends_so bs : forall total count off ws, match snd (send_blocks bs total count off ws) with
  | Returns n o => n = count /\ o = off + count | Error o => o = off | _ => True end.
Proof.
  induction bs as [|b bs IH]; intros total count off ws; cbn [send_blocks]; destruct (count <=? total); cbn; auto.
  destruct (write_block b (length b) ws) as (w & [ws'| |]); cbn; auto. specialize (IH (total + length b) count off ws').
  destruct (send_blocks bs (total + length b) count off ws') as (w' & e). exact IH.
Qed.
Lemma ends d off count ws : match snd (sendfile d off count ws) with Returns n o => n = count /\ o = off + count | Error o => o = off | _ => True end.
Proof. apply ends_so. Qed.
