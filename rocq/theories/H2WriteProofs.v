(** Proofs about H2Write. *)
From Verif Require Import Base Buffer BufferProofs H2Write.

(** ** Specification *)
(** Some beginnings of [p], then [p]: what a receiver sees of a part that is written again from its first byte whenever the
    socket is full. *)
Inductive restarted (p : list N) : list N -> Prop :=
| rs_once : restarted p p
| rs_again w k : k < length p -> restarted p w -> restarted p (firstn k p ++ w).
(** What a receiver has of it at some moment. *)
Inductive restarting (p : list N) : list N -> Prop :=
| rg_now k : k <= length p -> restarting p (firstn k p)
| rg_again w k : k < length p -> restarting p w -> restarting p (firstn k p ++ w).
(** A frame, and frames one after another, each part written like this. *)
Definition frame_seen (hd pay w : list N) : Prop := exists w1 w2, w = w1 ++ w2 /\ restarted hd w1 /\ restarted pay w2.
Inductive frames_seen : list (list N * list N) -> list N -> Prop :=
| fs_nil : frames_seen [] []
| fs_cons hd pay t w w' : frame_seen hd pay w -> frames_seen t w' -> frames_seen ((hd, pay) :: t) (w ++ w').
(** A send that takes something takes at least [m] bytes, or all there is. *)
Definition whole (m : nat) (e : ev) : Prop := match e with Took n => m <= n | _ => True end.
(** The peer stays and the system makes no error. *)
Definition fair (e : ev) : Prop := match e with Pipe | Fail => False | _ => True end.
Definition no_intr (e : ev) : Prop := match e with Intr => False | _ => True end.
Definition no_fail (e : ev) : Prop := match e with Fail => False | _ => True end.
(** A frame that is not yet begun. *)
Definition fresh_frame (f : qframe) : Prop := length (qf_head f) = HLEN /\ qf_fase f = FHeader.
Definition frame_bytes (f : qframe) : list N := qf_head f ++ qf_pay f.
(** The content and when it can be written. *)
Definition content_of (c : content) : list N :=
  match c with CBody b => b | CEncoded g n => firstn n (stream g) | CFile d n => firstn n d | CDefault d n => firstn n d end.
Definition writable (c : content) : Prop :=
  match c with
  | CBody _ => True
  | CEncoded g n => wf g /\ n = length (stream g)
  | CFile d n => n <= length d
  | CDefault d n => n = 0
  end.

(** ** Auxiliary facts *)
Lemma firstn_skipn_step {A} (l : list A) a k : firstn a l ++ firstn k (skipn a l) = firstn (a + k) l.
Proof.
  revert l; induction a as [|a IH]; intros l; [reflexivity|].
  destruct l as [|x l]; [cbn; rewrite firstn_nil; reflexivity|]. cbn. f_equal. apply IH.
Qed.

Lemma skip_firstn {A} (l w : list A) n : n <= length l -> skipn n (firstn n l ++ w) = w.
Proof.
  intros H. rewrite skipn_app, (skipn_all2 (firstn n l)) by (rewrite firstn_length; lia).
  rewrite firstn_length, Nat.min_l, Nat.sub_diag by lia. reflexivity.
Qed.

Ltac impossible := let X := fresh in intros X; apply Forall_inv in X; cbn in X; contradiction.

(** ** Queued frames *)
(** One call in the payload: from [total] on, a part of the payload is written; it ends done exactly when the payload is
    written. *)
Lemma send_payload f : qf_fase f = FPayload -> forall ws total w f' r t, total <= length (qf_pay f) ->
  send_frame f total ws = (w, f', r, t) ->
  f' = f /\ (exists k, total + k <= length (qf_pay f) /\ firstn total (qf_pay f) ++ w = firstn (total + k) (qf_pay f) /\
             (r = RDone <-> total + k = length (qf_pay f))) /\ r <> RError /\
  (Forall fair ws -> r = RDone \/ r = RWait) /\ (Forall no_fail ws -> r <> RExit) /\ incl t ws.
Proof.
  intros F. induction ws as [|e ws IH]; intros total w f' r t L E; cbn [send_frame] in E; rewrite F in E.
  - destruct (length (qf_pay f) <=? total) eqn:C; injection E as <- <- <- <-.
    + split; [reflexivity|]. split; [exists 0; rewrite app_nil_r, Nat.add_0_r; repeat split; try reflexivity; lia|].
      split; [discriminate|]. split; [left; reflexivity|]. split; [discriminate|apply incl_refl].
    + split; [reflexivity|]. split; [exists 0; rewrite app_nil_r, Nat.add_0_r; repeat split; try reflexivity; try discriminate; lia|].
      split; [discriminate|]. split; [right; reflexivity|]. split; [discriminate|apply incl_refl].
  - destruct (length (qf_pay f) <=? total) eqn:C.
    + injection E as <- <- <- <-. split; [reflexivity|]. split; [exists 0; rewrite app_nil_r, Nat.add_0_r; repeat split; try reflexivity; lia|].
      split; [discriminate|]. split; [left; reflexivity|]. split; [discriminate|apply incl_refl].
    + assert (STOP : forall r0, r0 <> RDone -> r0 <> RError -> (Forall fair (e :: ws) -> r0 = RWait) -> (Forall no_fail (e :: ws) -> r0 <> RExit) ->
        ([], f, r0, ws) = (w, f', r, t) ->
        f' = f /\ (exists k, total + k <= length (qf_pay f) /\ firstn total (qf_pay f) ++ w = firstn (total + k) (qf_pay f) /\
             (r = RDone <-> total + k = length (qf_pay f))) /\ r <> RError /\
        (Forall fair (e :: ws) -> r = RDone \/ r = RWait) /\ (Forall no_fail (e :: ws) -> r <> RExit) /\ incl t (e :: ws)).
      { intros r0 N1 N2 N3 N4 X. injection X as <- <- <- <-. split; [reflexivity|].
        split; [exists 0; rewrite app_nil_r, Nat.add_0_r; split; [lia|]; split; [reflexivity|]; split; [intros X; exfalso; auto|lia]|].
        split; [exact N2|]. split; [intros X; right; auto|]. split; [exact N4|apply incl_tl, incl_refl]. }
      destruct e as [n| | | |].
      * destruct (send_frame f _ ws) as [[[w0 f0] r0] t0] eqn:Z.
        destruct (IH _ _ _ _ _ (ltac:(lia) : total + Nat.min n (length (qf_pay f) - total) <= length (qf_pay f)) Z) as (-> & (k & K1 & K2 & K3) & R & Q1 & Q2 & Q3).
        injection E as <- <- <- <-. split; [reflexivity|]. split.
        -- exists (Nat.min n (length (qf_pay f) - total) + k). rewrite Nat.add_assoc. split; [exact K1|]. split; [|exact K3].
           rewrite app_assoc, firstn_skipn_step. exact K2.
        -- split; [exact R|]. split; [intros X; apply Q1; inversion X; assumption|]. split; [intros X; apply Q2; inversion X; assumption|].
           apply incl_tl, Q3.
      * apply (STOP RWait); try discriminate; auto.
      * destruct (IH _ _ _ _ _ L E) as (-> & X & R & Q1 & Q2 & Q3). split; [reflexivity|]. split; [exact X|]. split; [exact R|].
        split; [intros Y; apply Q1; inversion Y; assumption|]. split; [intros Y; apply Q2; inversion Y; assumption|]. apply incl_tl, Q3.
      * apply (STOP RClosed); try discriminate; auto; impossible.
      * apply (STOP RExit); try discriminate; auto; impossible.
Qed.

(** One call in the header. *)
Lemma send_header hd pay : length hd = HLEN -> forall ws total w f' r t, total < HLEN ->
  send_frame (mkQf hd pay FHeader) total ws = (w, f', r, t) ->
  (f' = mkQf hd pay FHeader /\ r <> RDone /\ (exists k, total + k < HLEN /\ firstn total hd ++ w = firstn (total + k) hd) \/
   f' = mkQf hd pay FPayload /\ (exists w2 k, w = skipn total hd ++ w2 /\ k <= length pay /\ w2 = firstn k pay /\ (r = RDone <-> k = length pay)))
  /\ r <> RError /\ (Forall fair ws -> r = RDone \/ r = RWait) /\ (Forall no_fail ws -> r <> RExit) /\ incl t ws.
Proof.
  intros H. induction ws as [|e ws IH]; intros total w f' r t L E; cbn [send_frame qf_fase] in E.
  - injection E as <- <- <- <-. split; [left; split; [reflexivity|]; split; [discriminate|]; exists 0; rewrite app_nil_r, Nat.add_0_r; auto|].
    split; [discriminate|]. split; [auto|]. split; [discriminate|apply incl_refl].
  - assert (STOP : forall r0, r0 <> RDone -> r0 <> RError -> (Forall fair (e :: ws) -> r0 = RWait) -> (Forall no_fail (e :: ws) -> r0 <> RExit) ->
        ([], mkQf hd pay FHeader, r0, ws) = (w, f', r, t) ->
        (f' = mkQf hd pay FHeader /\ r <> RDone /\ (exists k, total + k < HLEN /\ firstn total hd ++ w = firstn (total + k) hd) \/
         f' = mkQf hd pay FPayload /\ (exists w2 k, w = skipn total hd ++ w2 /\ k <= length pay /\ w2 = firstn k pay /\ (r = RDone <-> k = length pay)))
        /\ r <> RError /\ (Forall fair (e :: ws) -> r = RDone \/ r = RWait) /\ (Forall no_fail (e :: ws) -> r <> RExit) /\ incl t (e :: ws)).
    { intros r0 N1 N2 N3 N4 X. injection X as <- <- <- <-.
      split; [left; split; [reflexivity|]; split; [exact N1|]; exists 0; rewrite app_nil_r, Nat.add_0_r; auto|].
      split; [exact N2|]. split; [intros X; right; auto|]. split; [exact N4|apply incl_tl, incl_refl]. }
    destruct e as [n| | | |].
    + cbn [qf_head qf_pay] in E. set (k := Nat.min n (HLEN - total)) in *.
      destruct (HLEN <=? total + k) eqn:C.
      * destruct (send_frame (mkQf hd pay FPayload) 0 ws) as [[[w0 f0] r0] t0] eqn:Z. injection E as <- <- <- <-.
        destruct (send_payload (mkQf hd pay FPayload) eq_refl ws 0 _ _ _ _ (Nat.le_0_l _) Z) as (-> & (j & J1 & J2 & J3) & R & Q1 & Q2 & Q3).
        cbn [qf_pay Nat.add] in *. cbn [firstn app] in J2.
        split; [right; split; [reflexivity|]; exists w0, j; split; [|split; [exact J1|split; [exact J2|exact J3]]]|].
        { rewrite firstn_all2; [reflexivity|]. rewrite skipn_length, H. lia. }
        split; [exact R|]. split; [intros X; apply Q1; inversion X; assumption|]. split; [intros X; apply Q2; inversion X; assumption|]. apply incl_tl, Q3.
      * destruct (send_frame (mkQf hd pay FHeader) (total + k) ws) as [[[w0 f0] r0] t0] eqn:Z. injection E as <- <- <- <-.
        destruct (IH _ _ _ _ _ (ltac:(lia) : total + k < HLEN) Z) as (D & R & Q1 & Q2 & Q3).
        split.
        -- destruct D as [(-> & N1 & j & J1 & J2)|(-> & w2 & j & J1 & J2 & J3 & J4)].
           ++ left. split; [reflexivity|]. split; [exact N1|]. exists (k + j). rewrite Nat.add_assoc. split; [exact J1|].
              rewrite app_assoc, firstn_skipn_step. exact J2.
           ++ right. split; [reflexivity|]. exists w2, j. split; [|auto]. rewrite J1, app_assoc. f_equal.
              assert (X : skipn (total + k) hd = skipn k (skipn total hd)) by (rewrite skipn_skipn; f_equal; lia).
              rewrite X. apply firstn_skipn.
        -- split; [exact R|]. split; [intros X; apply Q1; inversion X; assumption|]. split; [intros X; apply Q2; inversion X; assumption|]. apply incl_tl, Q3.
    + apply (STOP RWait); try discriminate; auto.
    + destruct (IH _ _ _ _ _ L E) as (D & R & Q1 & Q2 & Q3). split; [exact D|]. split; [exact R|].
      split; [intros Y; apply Q1; inversion Y; assumption|]. split; [intros Y; apply Q2; inversion Y; assumption|]. apply incl_tl, Q3.
    + apply (STOP RClosed); try discriminate; auto; impossible.
    + apply (STOP RExit); try discriminate; auto; impossible.
Qed.

(** What is still to be seen of a queue whose first frame may be begun. *)
Definition remain (f : qframe) (w : list N) : Prop :=
  match qf_fase f with FHeader => frame_seen (qf_head f) (qf_pay f) w | FPayload => restarted (qf_pay f) w end.
Inductive remains : list qframe -> list N -> Prop :=
| rm_nil : remains [] []
| rm_cons f t w w' : remain f w -> remains t w' -> remains (f :: t) (w ++ w').
Definition head_ok (f : qframe) : Prop := length (qf_head f) = HLEN.

Lemma restarted_end p k : k <= length p -> k = length p -> restarted p (firstn k p).
Proof. intros _ ->. rewrite firstn_all. constructor. Qed.

Lemma send_frame_ok f ws w f' r t : head_ok f -> send_frame f 0 ws = (w, f', r, t) ->
  qf_head f' = qf_head f /\ qf_pay f' = qf_pay f /\ (r = RDone -> remain f w) /\ (r <> RDone -> forall w', remain f' w' -> remain f (w ++ w')) /\
  r <> RError /\ (Forall fair ws -> r = RDone \/ r = RWait) /\ (Forall no_fail ws -> r <> RExit) /\ incl t ws.
Proof.
  destruct f as [hd pay [|]]; unfold head_ok, remain; cbn [qf_head qf_pay qf_fase]; intros H E.
  - destruct (send_header hd pay H ws 0 _ _ _ _ ltac:(unfold HLEN; lia) E) as (D & R & Q1 & Q2 & Q3).
    destruct D as [(-> & N1 & k & K1 & K2)|(-> & w2 & k & K0 & K1 & K2 & K3)]; cbn [qf_head qf_pay qf_fase Nat.add firstn app] in *.
    + split; [reflexivity|]. split; [reflexivity|]. split; [intros X; contradiction|]. split; [|auto].
      intros _ w' (w1 & w3 & -> & A & B). exists (w ++ w1), w3. split; [rewrite app_assoc; reflexivity|]. split; [|exact B].
      rewrite K2. apply rs_again; [lia|exact A].
    + split; [reflexivity|]. split; [reflexivity|]. split; [|split; [|auto]].
      * intros X. exists hd, w2. cbn [skipn] in K0. split; [exact K0|]. split; [constructor|]. rewrite K2. apply restarted_end; [exact K1|apply K3, X].
      * intros X w' A. exists hd, (w2 ++ w'). cbn [skipn] in K0. split; [rewrite K0, app_assoc; reflexivity|]. split; [constructor|].
        rewrite K2. apply rs_again; [|exact A].
        destruct (Nat.eq_dec k (length pay)) as [Y|Y]; [exfalso; apply X, K3, Y|lia].
  - destruct (send_payload (mkQf hd pay FPayload) eq_refl ws 0 _ _ _ _ (Nat.le_0_l _) E) as (-> & (k & K1 & K2 & K3) & R & Q1 & Q2 & Q3).
    cbn [qf_head qf_pay qf_fase Nat.add firstn app] in *.
    split; [reflexivity|]. split; [reflexivity|]. split; [|split; [|auto]].
    + intros X. rewrite K2. apply restarted_end; [exact K1|apply K3, X].
    + intros X w' A. rewrite K2. apply rs_again; [|exact A].
      destruct (Nat.eq_dec k (length pay)) as [Y|Y]; [exfalso; apply X, K3, Y|lia].
Qed.

Lemma send_queue_ok q : Forall head_ok q -> forall ws w q' r t, send_queue q ws = (w, q', r, t) ->
  Forall head_ok q' /\ (r = RDone -> q' = [] /\ remains q w) /\ (r <> RDone -> q' <> [] /\ forall w', remains q' w' -> remains q (w ++ w')) /\
  r <> RError /\ (Forall fair ws -> r = RDone \/ r = RWait) /\ (Forall no_fail ws -> r <> RExit) /\ incl t ws.
Proof.
  induction q as [|f q IH]; intros H ws w q' r t E; cbn [send_queue] in E.
  - injection E as <- <- <- <-. split; [constructor|]. split; [intros _; split; [reflexivity|constructor]|].
    split; [intros X; exfalso; apply X; reflexivity|]. split; [discriminate|]. split; [auto|]. split; [discriminate|apply incl_refl].
  - destruct (send_frame f 0 ws) as [[[w1 f1] r1] t1] eqn:Z.
    pose proof (Forall_inv H) as H1. pose proof (Forall_inv_tail H) as H2.
    destruct (send_frame_ok _ _ _ _ _ _ H1 Z) as (A1 & A2 & A3 & A4 & A5 & A6 & A7 & A8).
    assert (STOP : r1 <> RDone -> (w1, f1 :: q, r1, t1) = (w, q', r, t) ->
      Forall head_ok q' /\ (r = RDone -> q' = [] /\ remains (f :: q) w) /\ (r <> RDone -> q' <> [] /\ forall w', remains q' w' -> remains (f :: q) (w ++ w')) /\
      r <> RError /\ (Forall fair ws -> r = RDone \/ r = RWait) /\ (Forall no_fail ws -> r <> RExit) /\ incl t ws).
    { intros N1 X. injection X as <- <- <- <-. split; [constructor; [unfold head_ok; rewrite A1; exact H1|exact H2]|].
      split; [intros X; contradiction|]. split; [|auto]. intros _. split; [discriminate|]. intros w' X. inversion X as [|? ? w2 w3 B1 B2]; subst.
      rewrite app_assoc. constructor; [apply A4; assumption|exact B2]. }
    destruct r1; try (apply STOP; [discriminate|exact E]).
    destruct (send_queue q t1) as [[[w2 q2] r2] t2] eqn:Y. injection E as <- <- <- <-.
    destruct (IH H2 _ _ _ _ _ Y) as (B1 & B2 & B3 & B4 & B5 & B6 & B7).
    split; [exact B1|]. split; [intros X; destruct (B2 X) as (C1 & C2); split; [exact C1|constructor; auto]|].
    split; [intros X; destruct (B3 X) as (C1 & C2); split; [exact C1|]; intros w' D; rewrite <- app_assoc; constructor; auto|].
    split; [exact B4|]. split; [intros X; apply B5; exact (incl_Forall A8 X)|]. split; [intros X; apply B6; exact (incl_Forall A8 X)|].
    eapply incl_tran; eassumption.
Qed.

(** Whole writes. *)
Definition left (f : qframe) : list N := match qf_fase f with FHeader => qf_head f ++ qf_pay f | FPayload => qf_pay f end.
Definition fits (m : nat) (f : qframe) : Prop := HLEN <= m /\ length (qf_pay f) <= m.

Lemma whole_payload m hd pay : length pay <= m -> forall ws w f' r t, Forall (whole m) ws ->
  send_frame (mkQf hd pay FPayload) 0 ws = (w, f', r, t) -> f' = mkQf hd pay FPayload /\ (r = RDone -> w = pay) /\ (r <> RDone -> w = []).
Proof.
  intros L. induction ws as [|e ws IH]; intros w f' r t W E; cbn [send_frame qf_fase qf_pay qf_head] in E.
  - destruct (length pay <=? 0) eqn:C; injection E as <- <- <- <-; split; try reflexivity; split; intros X; try discriminate; try reflexivity.
    destruct pay; [reflexivity|discriminate].
  - destruct (length pay <=? 0) eqn:C.
    + injection E as <- <- <- <-. split; [reflexivity|]. split; intros X; [destruct pay; [reflexivity|discriminate]|reflexivity].
    + pose proof (Forall_inv W) as W1. apply Forall_inv_tail in W. destruct e as [n| | | |]; try (injection E as <- <- <- <-; split; [reflexivity|]; split; intros X; [discriminate|reflexivity]).
      * change (m <= n) in W1. rewrite Nat.sub_0_r, Nat.min_r in E by lia. cbn [Nat.add] in E.
        assert (Z : send_frame (mkQf hd pay FPayload) (length pay) ws = ([], mkQf hd pay FPayload, RDone, ws)).
        { destruct ws; cbn [send_frame qf_fase qf_pay]; rewrite Nat.leb_refl; reflexivity. }
        rewrite Z in E. injection E as <- <- <- <-. cbn [skipn]. rewrite firstn_all, app_nil_r. split; [reflexivity|]. split; [reflexivity|intros X; exfalso; apply X; reflexivity].
      * exact (IH _ _ _ _ W E).
Qed.
Lemma whole_frame m f : head_ok f -> fits m f -> forall ws w f' r t, Forall (whole m) ws -> send_frame f 0 ws = (w, f', r, t) ->
  (r = RDone -> w = left f) /\ (r <> RDone -> w ++ left f' = left f).
Proof.
  destruct f as [hd pay [|]]; unfold head_ok, fits, left; cbn [qf_head qf_pay qf_fase]; intros H (M1 & M2).
  2: { intros ws w f' r t W E. destruct (whole_payload m hd pay M2 ws w f' r t W E) as (-> & A & B). cbn [qf_fase qf_pay]. split; [exact A|]. intros X. rewrite (B X). reflexivity. }
  induction ws as [|e ws IH]; intros w f' r t W E; cbn [send_frame qf_fase qf_pay qf_head] in E.
  - injection E as <- <- <- <-. split; [discriminate|]. intros _. reflexivity.
  - pose proof (Forall_inv W) as W1. apply Forall_inv_tail in W.
    destruct e as [n| | | |]; try (injection E as <- <- <- <-; split; [discriminate|]; intros _; reflexivity).
    + change (m <= n) in W1. rewrite Nat.min_r in E by lia. cbn [Nat.add] in E. change (HLEN <=? HLEN - 0) with true in E. cbn match in E.
      replace (firstn (HLEN - 0) (skipn 0 hd)) with hd in E by (cbn [skipn]; change (HLEN - 0) with HLEN; rewrite <- H; symmetry; apply firstn_all).
      destruct (send_frame (mkQf hd pay FPayload) 0 ws) as [[[w0 f0] r0] t0] eqn:Z. injection E as <- <- <- <-.
      destruct (whole_payload m hd pay M2 ws _ _ _ _ W Z) as (-> & A & B). cbn [qf_fase qf_pay].
     
      split; intros X; [rewrite (A X); reflexivity|rewrite (B X), app_nil_r; reflexivity].
    + exact (IH _ _ _ _ W E).
Qed.
Lemma whole_queue m q : Forall head_ok q -> Forall (fits m) q -> forall ws w q' r t, Forall (whole m) ws -> send_queue q ws = (w, q', r, t) ->
  w ++ flat_map left q' = flat_map left q /\ Forall (fits m) q'.
Proof.
  induction q as [|f q IH]; intros H F ws w q' r t W E; cbn [send_queue] in E.
  - injection E as <- <- <- <-. split; [reflexivity|constructor].
  - destruct (send_frame f 0 ws) as [[[w1 f1] r1] t1] eqn:Z.
    pose proof (Forall_inv H) as H1. pose proof (Forall_inv_tail H) as H2. pose proof (Forall_inv F) as F1. pose proof (Forall_inv_tail F) as F2.
    destruct (whole_frame m f H1 F1 _ _ _ _ _ W Z) as (A & B).
    destruct (send_frame_ok _ _ _ _ _ _ H1 Z) as (A1 & A2 & _ & _ & _ & _ & _ & A8).
    assert (STOP : r1 <> RDone -> (w1, f1 :: q, r1, t1) = (w, q', r, t) -> w ++ flat_map left q' = flat_map left (f :: q) /\ Forall (fits m) q').
    { intros N1 X. injection X as <- <- <- <-. split; [cbn [flat_map]; rewrite app_assoc, (B N1); reflexivity|].
      constructor; [unfold fits; rewrite A2; exact F1|exact F2]. }
    destruct r1; try (apply STOP; [discriminate|exact E]).
    destruct (send_queue q t1) as [[[w2 q2] r2] t2] eqn:Y. injection E as <- <- <- <-.
    destruct (IH H2 F2 _ _ _ _ _ (incl_Forall A8 W) Y) as (C1 & C2). split; [|exact C2].
    cbn [flat_map]. rewrite <- app_assoc, C1, (A eq_refl). reflexivity.
Qed.

(** ** The header of a DATA frame *)
Lemma data_head_any h : length h = HLEN -> forall ws total w r t, data_head h total ws = (w, r, t) ->
  (exists ks, w = flat_map (fun k => firstn k h) ks) /\ r <> RExit /\ (Forall fair ws -> Forall no_intr ws -> r = RDone \/ r = RWait).
Proof.
  intros H. induction ws as [|e ws IH]; intros total w r t E; cbn [data_head] in E.
  - destruct (HLEN <=? total); injection E as <- <- <-; (split; [exists []; reflexivity|split; [discriminate|auto]]).
  - destruct (HLEN <=? total); [injection E as <- <- <-; (split; [exists []; reflexivity|split; [discriminate|auto]])|].
    destruct e as [n| | | |]; try (injection E as <- <- <-; (split; [exists []; reflexivity|split; [discriminate|auto]])).
    + destruct (data_head h (total + Nat.min n HLEN) ws) as [[w0 r0] t0] eqn:Z. injection E as <- <- <-.
      destruct (IH _ _ _ _ Z) as ((ks & ->) & A & B). split; [exists (Nat.min n HLEN :: ks); reflexivity|]. split; [exact A|].
      intros X Y. apply Forall_inv_tail in X, Y. auto.
    + intros _ Y. apply Forall_inv in Y. destruct Y.
    + intros Y _. apply Forall_inv in Y. destruct Y.
    + intros Y _. apply Forall_inv in Y. destruct Y.
Qed.
Lemma data_head_whole h m : length h = HLEN -> HLEN <= m -> forall ws w r t, Forall (whole m) ws -> data_head h 0 ws = (w, r, t) ->
  (r = RDone -> w = h) /\ (r <> RDone -> w = []).
Proof.
  intros H M. induction ws as [|e ws IH]; intros w r t W E; cbn [data_head] in E; change (HLEN <=? 0) with false in E; cbn match in E.
  - injection E as <- <- <-. split; [discriminate|reflexivity].
  - pose proof (Forall_inv W) as W1. destruct e as [n| | | |]; try (injection E as <- <- <-; split; [discriminate|reflexivity]).
    change (m <= n) in W1. rewrite Nat.min_r in E by lia. change (0 + HLEN) with HLEN in E.
    assert (Z : data_head h HLEN ws = ([], RDone, ws)) by (destruct ws; reflexivity). rewrite Z in E.
    replace (firstn HLEN h) with h in E by (rewrite <- H; symmetry; apply firstn_all). injection E as <- <- <-. rewrite app_nil_r. split; [reflexivity|]. intros X. exfalso. apply X. reflexivity.
Qed.

(** ** The content *)
Lemma send_body_ok b : forall ws total w total' r t, total <= length b -> send_body b total ws = (w, total', r, t) ->
  total <= total' <= length b /\ firstn total b ++ w = firstn total' b /\ (r = RDone <-> total' = length b) /\ r <> RError /\
  (Forall fair ws -> r = RDone \/ r = RWait) /\ (Forall no_fail ws -> r <> RExit).
Proof.
  induction ws as [|e ws IH]; intros total w total' r t L E; cbn [send_body] in E.
  - destruct (length b <=? total) eqn:C; injection E as <- <- <- <-; rewrite app_nil_r;
      (split; [lia|]; split; [reflexivity|]; split; [split; [try discriminate; lia|try reflexivity; lia]|]; split; [discriminate|]; split; [auto|discriminate]).
  - destruct (length b <=? total) eqn:C.
    { injection E as <- <- <- <-; rewrite app_nil_r. split; [lia|]; split; [reflexivity|]; split; [split; [lia|reflexivity]|]; split; [discriminate|]; split; [auto|discriminate]. }
    assert (STOP : forall r0, r0 <> RDone -> r0 <> RError -> (Forall fair (e :: ws) -> r0 = RWait) -> (Forall no_fail (e :: ws) -> r0 <> RExit) ->
        ([], total, r0, ws) = (w, total', r, t) ->
        total <= total' <= length b /\ firstn total b ++ w = firstn total' b /\ (r = RDone <-> total' = length b) /\ r <> RError /\
        (Forall fair (e :: ws) -> r = RDone \/ r = RWait) /\ (Forall no_fail (e :: ws) -> r <> RExit)).
    { intros r0 N1 N2 N3 N4 X. injection X as <- <- <- <-. rewrite app_nil_r. split; [lia|]. split; [reflexivity|]. split; [split; [intros X; contradiction|lia]|]. auto. }
    destruct e as [n| | | |].
    + destruct (send_body b _ ws) as [[[w0 t0] r0] u0] eqn:Z. injection E as <- <- <- <-.
      destruct (IH _ _ _ _ _ (ltac:(lia) : total + Nat.min n (length b - total) <= length b) Z) as (A1 & A2 & A3 & A4 & A5 & A6).
      split; [lia|]. split; [rewrite app_assoc, firstn_skipn_step; exact A2|]. split; [exact A3|]. split; [exact A4|].
      split; intros X; apply Forall_inv_tail in X; auto.
    + apply (STOP RWait); try discriminate; auto.
    + destruct (IH _ _ _ _ _ L E) as (A1 & A2 & A3 & A4 & A5 & A6). split; [exact A1|]. split; [exact A2|]. split; [exact A3|]. split; [exact A4|].
      split; intros X; apply Forall_inv_tail in X; auto.
    + apply (STOP RClosed); try discriminate; auto; impossible.
    + apply (STOP RExit); try discriminate; auto; impossible.
Qed.

Lemma send_file_ok d n : n <= length d -> forall ws total off, off = total -> total <= n ->
  exists w off' total' r t, send_file d n n off total ws = Ok (w, off', total', r, t) /\ off' = total' /\ total <= total' <= n /\
  firstn total d ++ w = firstn total' d /\ (r = RDone <-> total' = n) /\ r <> RError /\ r <> RClosed /\
  (Forall fair ws -> Forall no_intr ws -> r = RDone \/ r = RWait).
Proof.
  intros D. induction ws as [|e ws IH]; intros total off -> L; cbn [send_file].
  - destruct (n <=? total) eqn:C.
    + exists [], total, total, RDone, []. rewrite app_nil_r. split; [reflexivity|]. split; [reflexivity|]. split; [lia|]. split; [reflexivity|].
      split; [split; [lia|reflexivity]|]. split; [discriminate|]. split; [discriminate|]. auto.
    + replace ((n - total =? 0) || (length d <=? total)) with false by lia.
      exists [], total, total, RWait, []. rewrite app_nil_r. split; [reflexivity|]. split; [reflexivity|]. split; [lia|]. split; [reflexivity|].
      split; [split; [discriminate|lia]|]. split; [discriminate|]. split; [discriminate|]. auto.
  - destruct (n <=? total) eqn:C.
    { exists [], total, total, RDone, (e :: ws). rewrite app_nil_r. split; [reflexivity|]. split; [reflexivity|]. split; [lia|]. split; [reflexivity|].
      split; [split; [lia|reflexivity]|]. split; [discriminate|]. split; [discriminate|]. auto. }
    replace ((n - total =? 0) || (length d <=? total)) with false by lia.
    assert (STOP : forall r0, r0 <> RDone -> r0 <> RError -> r0 <> RClosed -> (Forall fair (e :: ws) -> Forall no_intr (e :: ws) -> r0 = RWait) ->
      exists w off' total' r t, Ok (([] : list N), total, total, r0, ws) = Ok (w, off', total', r, t) /\ off' = total' /\ total <= total' <= n /\
      firstn total d ++ w = firstn total' d /\ (r = RDone <-> total' = n) /\ r <> RError /\ r <> RClosed /\
      (Forall fair (e :: ws) -> Forall no_intr (e :: ws) -> r = RDone \/ r = RWait)).
    { intros r0 N1 N2 N3 N4. exists [], total, total, r0, ws. rewrite app_nil_r. split; [reflexivity|]. split; [reflexivity|]. split; [lia|]. split; [reflexivity|].
      split; [split; [intros X; contradiction|lia]|]. auto. }
    destruct e as [k| | | |]; try (apply STOP; try discriminate; auto; fail).
    + destruct (IH (total + Nat.min k (Nat.min (n - total) (length d - total))) _ eq_refl ltac:(lia)) as (w & off' & total' & r & t & E & -> & A1 & A2 & A3 & A4 & A5 & A6).
      rewrite E. cbn [obind]. eexists _, _, _, _, _. split; [reflexivity|]. split; [reflexivity|]. split; [lia|].
      split; [rewrite app_assoc, firstn_skipn_step; exact A2|]. split; [exact A3|]. split; [exact A4|]. split; [exact A5|].
      intros X Y. apply Forall_inv_tail in X, Y. auto.
    + apply STOP; try discriminate. intros _ X. apply Forall_inv in X. destruct X.
    + apply STOP; try discriminate. impossible.
    + apply STOP; try discriminate. impossible.
Qed.

(** Positions in the coded content. *)
Definition run_len (last : bool) (c : chain) (off : nat) : nat :=
  let u := if c_unuse c =? 0 then c_len c - 1 else c_written c in if last then u - off else u - off + 1.
Lemma run_spec per : forall cs f ci0 i ci off, wf_chains per f cs -> ptr_at cs ci0 i = Some (ci, off) -> i < length (flat_map c_view cs) ->
  ci0 <= ci /\ exists c, nth_error cs (ci - ci0) = Some c /\
  (let l := run_len (S (ci - ci0) =? length cs) c off in
   0 < l /\ i + l <= length (flat_map c_view cs) /\
   forall k, k <= l -> off + k <= c_len c /\ firstn k (skipn off (c_data c)) = firstn k (skipn i (flat_map c_view cs))).
Proof.
  induction cs as [|c t IH]; intros f ci0 i ci off W P H; [destruct W|].
  cbn [ptr_at] in P. destruct t as [|d t].
  - destruct W as (W1 & W2 & W3 & _). cbn [flat_map] in *. rewrite app_nil_r in *. unfold c_view in *.
    rewrite firstn_length, skipn_length in H. fold (c_len c) in H. unfold c_written in *.
    destruct (i <? c_act c) eqn:C; unfold c_act in C; [|lia]. injection P as <- <-. split; [lia|]. exists c. rewrite Nat.sub_diag. split; [reflexivity|].
    cbn [length Nat.eqb]. unfold run_len, c_written. replace (c_unuse c =? 0) with false by lia. cbn zeta.
    rewrite firstn_length, skipn_length. fold (c_len c). split; [lia|]. split; [lia|]. intros k K. split; [lia|].
    rewrite skipn_firstn_comm, firstn_firstn, skipn_skipn. f_equal; [lia|f_equal; lia].
  - destruct W as (W1 & W2 & W3 & _ & W5). change (flat_map c_view (c :: d :: t)) with (c_view c ++ flat_map c_view (d :: t)) in *.
    assert (V : c_view c = skipn (c_use c) (c_data c)).
    { unfold c_view, c_written. rewrite W2, Nat.sub_0_r. apply firstn_all2. rewrite skipn_length. fold (c_len c). lia. }
    assert (VL : length (c_view c) = c_act c) by (rewrite V, skipn_length; reflexivity).
    destruct (i <? c_act c) eqn:C.
    + injection P as <- <-. split; [lia|]. exists c. rewrite Nat.sub_diag. split; [reflexivity|].
      change (1 =? length (c :: d :: t)) with false. unfold run_len. rewrite W2, Nat.eqb_refl. cbn zeta. rewrite app_length, VL. unfold c_act in *.
      split; [lia|]. split; [lia|]. intros k K. split; [lia|]. rewrite skipn_app, firstn_app, V, skipn_length, skipn_skipn, skipn_length. fold (c_len c).
      replace (k - _) with 0 by lia. rewrite firstn_O, app_nil_r. f_equal; f_equal; lia.
    + rewrite app_length, VL in H. destruct (IH false (S ci0) (i - c_act c) ci off W5 P ltac:(lia)) as (A & c' & B & D).
      split; [lia|]. exists c'. replace (ci - ci0) with (S (ci - S ci0)) by lia. split; [exact B|].
      change (S (S (ci - S ci0)) =? length (c :: d :: t)) with (S (ci - S ci0) =? length (d :: t)).
      destruct D as (D1 & D2 & D3). split; [exact D1|]. rewrite app_length, VL. split; [lia|]. intros k K. destruct (D3 k K) as (E1 & E2).
      split; [exact E1|]. rewrite E2, skipn_app, VL, (skipn_all2 (c_view c)) by lia. reflexivity.
Qed.

Lemma ptr_at_some cs : forall ci i, i < length (flat_map c_view cs) -> exists p, ptr_at cs ci i = Some p.
Proof.
  induction cs as [|c t IH]; intros ci i H; cbn [flat_map length] in H; [lia|]. cbn [ptr_at].
  destruct (i <? c_act c) eqn:C; [eexists; reflexivity|]. apply IH. rewrite app_length in H.
  assert (length (c_view c) <= c_act c) by (unfold c_view; rewrite firstn_length, skipn_length; unfold c_act, c_len; lia). lia.
Qed.

Lemma send_encoded_ok g : wf g -> forall ws i p move, ptr_at (b_chains g) 0 i = Some p -> i + move < length (stream g) -> Forall no_intr ws ->
  exists w total' r t, send_encoded g (length (stream g)) p move (i + move) ws = Ok (w, total', r, t) /\ i + move <= total' <= length (stream g) /\
  firstn (i + move) (stream g) ++ w = firstn total' (stream g) /\ (r = RDone <-> total' = length (stream g)) /\ r <> RError /\
  (Forall fair ws -> r = RDone \/ r = RWait) /\ (Forall no_fail ws -> r <> RExit).
Proof.
  intros W. induction ws as [|e ws IH]; intros i [ci off] move P L NI; cbn [send_encoded];
    rewrite (update_chain_spec g i ci off move W P ltac:(lia)); destruct (ptr_at_some (b_chains g) 0 (i + move) L) as ([cj oj] & P'); rewrite P'.
  - exists [], (i + move), RWait, []. rewrite app_nil_r. split; [reflexivity|]. split; [lia|]. split; [reflexivity|].
    split; [split; [discriminate|lia]|]. split; [discriminate|]. split; [auto|discriminate].
  - assert (STOP : forall r0, r0 <> RDone -> r0 <> RError -> (Forall fair (e :: ws) -> r0 = RWait) -> (Forall no_fail (e :: ws) -> r0 <> RExit) ->
      exists w total' r t, Ok (([] : list N), i + move, r0, ws) = Ok (w, total', r, t) /\ i + move <= total' <= length (stream g) /\
      firstn (i + move) (stream g) ++ w = firstn total' (stream g) /\ (r = RDone <-> total' = length (stream g)) /\ r <> RError /\
      (Forall fair (e :: ws) -> r = RDone \/ r = RWait) /\ (Forall no_fail (e :: ws) -> r <> RExit)).
    { intros r0 N1 N2 N3 N4. exists [], (i + move), r0, ws. rewrite app_nil_r. split; [reflexivity|]. split; [lia|]. split; [reflexivity|].
      split; [split; [intros X; contradiction|lia]|]. auto. }
    pose proof (Forall_inv NI) as N1. apply Forall_inv_tail in NI.
    destruct e as [n| | | |]; try (apply STOP; try discriminate; auto; impossible); try (destruct N1).
    destruct W as (W0 & WR). destruct (run_spec _ _ _ 0 (i + move) cj oj W0 P' L) as (_ & c & C1 & C2 & C3 & C4). rewrite Nat.sub_0_r in *.
    unfold len_until, bytes_at. cbn [fst snd]. rewrite C1. cbn [obind].
    fold (stream g) in C3, C4.
    change (if S cj =? length (b_chains g) then (if c_unuse c =? 0 then c_len c - 1 else c_written c) - oj
            else (if c_unuse c =? 0 then c_len c - 1 else c_written c) - oj + 1) with (run_len (S cj =? length (b_chains g)) c oj).
    set (l := run_len _ _ _) in *. clearbody l.
    destruct (C4 (Nat.min n l) ltac:(lia)) as (D1 & D2). rewrite (proj2 (Nat.leb_le _ _) D1). cbn [obind]. rewrite D2.
    destruct (length (stream g) <=? i + move + Nat.min n l) eqn:Q.
    + eexists _, _, _, _. split; [reflexivity|]. split; [lia|]. split; [apply firstn_skipn_step|]. split; [split; [lia|reflexivity]|].
      split; [discriminate|]. split; [auto|discriminate].
    + destruct (IH (i + move) (cj, oj) (Nat.min n l) P' ltac:(lia) NI) as (w & total' & r & t & E & E1 & E2 & E3 & E4 & E5 & E6).
      rewrite E. cbn [obind]. eexists _, _, _, _. split; [reflexivity|]. split; [lia|].
      split; [rewrite app_assoc, firstn_skipn_step; exact E2|]. split; [exact E3|]. split; [exact E4|].
      split; intros X; apply Forall_inv_tail in X; auto.
Qed.

(** One call of fly_send_data_frame once the header is written. *)
Definition placed (c : content) (s : rstate) : Prop :=
  rs_fase s = PData /\ rs_total s < content_len c /\ match c with CFile _ _ => rs_off s = rs_total s | _ => True end.
Definition no_pipe (e : ev) : Prop := match e with Pipe => False | _ => True end.
Definition is_file (c : content) : Prop := match c with CFile _ _ => True | _ => False end.
Lemma content_length c : writable c -> length (content_of c) = content_len c.
Proof.
  destruct c as [b|g n|d n|d n]; cbn [writable content_of content_len].
  - reflexivity.
  - intros (_ & ->). rewrite firstn_all. reflexivity.
  - intros H. rewrite firstn_length. lia.
  - intros ->. reflexivity.
Qed.
Lemma content_firstn c k : writable c -> k <= content_len c -> firstn k (content_of c) =
  match c with CBody b => firstn k b | CEncoded g _ => firstn k (stream g) | CFile d _ | CDefault d _ => firstn k d end.
Proof.
  destruct c as [b|g n|d n|d n]; cbn [writable content_of content_len]; intros H K.
  - reflexivity.
  - destruct H as (_ & ->). rewrite firstn_all. reflexivity.
  - rewrite firstn_firstn. f_equal. lia.
  - subst n. replace k with 0 by lia. reflexivity.
Qed.

Lemma send_data_ok h c s ws : writable c -> placed c s -> Forall no_intr ws ->
  exists w s' r, send_data h c s ws = Ok (w, s', r) /\ r <> RError /\
   (r = RDone -> rs_fase s' = PEnd /\ firstn (rs_total s) (content_of c) ++ w = content_of c) /\
   (r <> RDone -> placed c s' /\ rs_total s <= rs_total s' /\ firstn (rs_total s) (content_of c) ++ w = firstn (rs_total s') (content_of c)) /\
   (Forall fair ws -> r = RDone \/ r = RWait) /\ (~ is_file c -> Forall no_fail ws -> r <> RExit) /\ (is_file c -> r <> RClosed).
Proof.
  intros Wr (P1 & P2 & P3) NI. unfold send_data. rewrite P1.
  pose proof (content_length c Wr) as CL. pose proof (content_firstn c) as CF.
  destruct c as [b|g n|d n|d n]; cbn [content_len writable content_of is_file] in *.
  - destruct (send_body b (rs_total s) ws) as [[[w total] r] t] eqn:E.
    destruct (send_body_ok b ws _ _ _ _ _ (Nat.lt_le_incl _ _ P2) E) as (A1 & A2 & A3 & A4 & A5 & A6).
    eexists _, _, _. split; [reflexivity|]. split; [exact A4|].
    split; [intros ->; split; [reflexivity|]; rewrite A2, (proj1 A3 eq_refl); apply firstn_all|].
    split; [|split; [exact A5|split; [intros _; exact A6|intros []]]].
    intros X. assert (Y : (match r with RDone => mkR PEnd (length b) (rs_off s) | _ => mkR PData total (rs_off s) end) = mkR PData total (rs_off s)) by (destruct r; [contradiction|reflexivity..]).
    rewrite Y. cbn [rs_total]. split; [|split; [lia|exact A2]]. split; [reflexivity|]. cbn [rs_total content_len]. split; [|exact Logic.I].
    destruct (Nat.eq_dec total (length b)) as [Z|Z]; [exfalso; apply X, A3, Z|lia].
  - destruct Wr as (W & ->). rewrite firstn_all in *. pose proof W as (W0 & _). pose proof (ptr_at_0 _ _ _ W0) as P0.
    destruct (b_chains g) as [|c0 cs] eqn:B; [destruct P0|]. rewrite <- B in P0.
    destruct (send_encoded_ok g W ws 0 (0, c_use c0) (rs_total s) P0 P2 NI) as (w & total & r & t & E & A1 & A2 & A3 & A4 & A5 & A6).
    cbn [Nat.add] in *. rewrite E. cbn [obind]. eexists _, _, _. split; [reflexivity|]. split; [exact A4|].
    split; [intros ->; split; [reflexivity|]; rewrite A2, (proj1 A3 eq_refl); apply firstn_all|].
    split; [|split; [exact A5|split; [intros _; exact A6|intros []]]].
    intros X. assert (Y : (match r with RDone => mkR PEnd (length (stream g)) (rs_off s) | _ => mkR PData total (rs_off s) end) = mkR PData total (rs_off s)) by (destruct r; [contradiction|reflexivity..]).
    rewrite Y. cbn [rs_total]. split; [|split; [lia|exact A2]]. split; [reflexivity|]. cbn [rs_total content_len]. split; [|exact Logic.I].
    destruct (Nat.eq_dec total (length (stream g))) as [Z|Z]; [exfalso; apply X, A3, Z|lia].
  - destruct (send_file_ok d n Wr ws (rs_total s) (rs_off s) P3 ltac:(lia)) as (w & off & total & r & t & E & -> & A1 & A2 & A3 & A4 & A4' & A5).
    rewrite E. cbn [obind]. eexists _, _, _. split; [reflexivity|]. split; [exact A4|].
    rewrite (CF (rs_total s) Wr ltac:(lia)).
    split; [intros ->; split; [reflexivity|]; rewrite A2, (proj1 A3 eq_refl); reflexivity|].
    split; [|split; [intros F; exact (A5 F NI)|split; [intros X; exfalso; apply X; exact Logic.I|intros _; exact A4']]].
    intros X. assert (Y : (match r with RDone => mkR PEnd n total | _ => mkR PData total total end) = mkR PData total total) by (destruct r; [contradiction|reflexivity..]).
    rewrite Y. cbn [rs_total]. split; [|split; [lia|rewrite (CF total Wr) by lia; exact A2]]. split; [reflexivity|]. cbn [rs_total rs_off content_len]. split; [|reflexivity].
    destruct (Nat.eq_dec total n) as [Z|Z]; [exfalso; apply X, A3, Z|lia].
  - lia.
Qed.

(** ** A response *)
Section WIRE.
Variables (h : list N) (c : content).
Variables (INV : list qframe -> Prop) (RQ : list qframe -> list N -> Prop) (RH : list N -> Prop) (EV : ev -> Prop).
Hypothesis WR : writable c.
Hypothesis EVI : forall ws, Forall EV ws -> Forall no_intr ws.
Hypothesis RQ0 : forall w, RQ [] w <-> w = [].
Hypothesis RQX : forall q, INV q -> exists w, RQ q w.
Hypothesis RHX : exists w, RH w.
Hypothesis HQ : forall q ws w q' r t, INV q -> Forall EV ws -> send_queue q ws = (w, q', r, t) ->
  INV q' /\ (r = RDone -> q' = [] /\ RQ q w) /\ (r <> RDone -> q' <> [] /\ forall w', RQ q' w' -> RQ q (w ++ w')) /\ r <> RError /\
  (Forall fair ws -> r = RDone \/ r = RWait) /\ (Forall no_fail ws -> r <> RExit).
Hypothesis HH : forall ws w r t, Forall EV ws -> data_head h 0 ws = (w, r, t) ->
  (r = RDone -> RH w) /\ (r <> RDone -> forall w', RH w' -> RH (w ++ w')) /\ r <> RExit /\ (Forall fair ws -> r = RDone \/ r = RWait).

(** A state in which the response can be, and what is still to be written. *)
Definition proper (q : list qframe) (s : rstate) : Prop :=
  INV q /\ match rs_fase s with PHead => rs_off s = 0 | PData => placed c s | PEnd => True end.
Definition todo (q : list qframe) (s : rstate) (w : list N) : Prop :=
  exists wq, RQ q wq /\
  match rs_fase s with
  | PHead => exists wh, (content_len c = 0 /\ wh = [] \/ content_len c <> 0 /\ RH wh) /\ w = wq ++ wh ++ content_of c
  | PData => w = wq ++ skipn (rs_total s) (content_of c)
  | PEnd => w = wq
  end.
Lemma todo_exists q s : proper q s -> exists w, todo q s w.
Proof.
  intros (Iq & Ps). destruct (RQX q Iq) as (wq & Q). unfold todo. destruct (rs_fase s).
  - destruct (Nat.eq_dec (content_len c) 0) as [Z|Z].
    + exists (wq ++ [] ++ content_of c), wq. split; [exact Q|]. exists []. auto.
    + destruct RHX as (wh & Hh). exists (wq ++ wh ++ content_of c), wq. split; [exact Q|]. exists wh. auto.
  - eexists. exists wq. split; [exact Q|reflexivity].
  - eexists. exists wq. split; [exact Q|reflexivity].
Qed.

Lemma turn_ok q s ws : proper q s -> Forall EV ws ->
  exists w q' s' r, turn h c q s ws = Ok (w, q', s', r) /\ proper q' s' /\ (r = RDone -> q' = [] /\ rs_fase s' = PEnd) /\
   (forall w', todo q' s' w' -> todo q s (w ++ w')) /\ (Forall fair ws -> r = RDone \/ r = RWait) /\ (~ is_file c -> Forall no_fail ws -> r <> RExit).
Proof.
  intros (Iq & Ps) E. unfold turn. destruct q as [|f q].
  2: { destruct (send_queue (f :: q) ws) as [[[w q'] r] t] eqn:Z. destruct (HQ _ _ _ _ _ _ Iq E Z) as (A1 & A2 & A3 & A4 & A5 & A6).
       exists w, q', s, (match r with RDone => RWait | _ => r end). split; [reflexivity|]. split; [split; assumption|].
       split; [destruct r; discriminate|]. split; [|split].
       - intros w' (wq & Q & T). destruct r eqn:R.
         { destruct (A2 eq_refl) as (-> & B). exists (w ++ []). rewrite app_nil_r. split; [exact B|].
           apply RQ0 in Q. subst wq.
           destruct (rs_fase s); [destruct T as (wh & T1 & ->); exists wh; split; [exact T1|reflexivity]|subst w'; reflexivity|subst w'; rewrite app_nil_r; reflexivity]. }
         all: destruct (A3 ltac:(discriminate)) as (_ & B); exists (w ++ wq); split; [auto|];
           destruct (rs_fase s); [destruct T as (wh & T1 & ->); exists wh; split; [exact T1|rewrite app_assoc; reflexivity]|subst w'; rewrite app_assoc; reflexivity|subst w'; reflexivity].
       - intros X. destruct (A5 X) as [-> | ->]; auto.
       - intros _ X. specialize (A6 X). destruct r; try discriminate. contradiction. }
  assert (Q0 : RQ [] []) by (apply RQ0; reflexivity).
  assert (QW : forall s0 w0, todo [] s0 w0 -> match rs_fase s0 with
    | PHead => exists wh, (content_len c = 0 /\ wh = [] \/ content_len c <> 0 /\ RH wh) /\ w0 = wh ++ content_of c
    | PData => w0 = skipn (rs_total s0) (content_of c) | PEnd => w0 = [] end).
  { intros s0 w0 (wq & Q & T). apply RQ0 in Q. subst wq. exact T. }
  destruct (rs_fase s) eqn:F.
  - unfold send_data. rewrite F. destruct (content_len c =? 0) eqn:CL.
    + cbn [obind]. eexists _, _, _, _. split; [reflexivity|]. split; [split; [exact Iq|exact Logic.I]|]. split; [auto|]. split; [|split; [auto|discriminate]].
      intros w' T. apply QW in T. cbn [rs_fase] in T. subst w'. exists []. split; [exact Q0|]. rewrite F. exists []. split; [left; split; [lia|reflexivity]|].
      cbn [app]. symmetry. apply length_zero_iff_nil. rewrite (content_length c WR). lia.
    + destruct (data_head h 0 ws) as [[w r] t] eqn:Z. destruct (HH _ _ _ _ E Z) as (A1 & A2 & A3 & A4). cbn [obind].
      eexists _, _, _, _. split; [reflexivity|]. split; [split; [exact Iq|destruct r; cbn [rs_fase]; try exact Ps]|].
      { split; [reflexivity|]. cbn [rs_total rs_off]. split; [lia|]. destruct c; try exact Logic.I. exact Ps. }
      split; [destruct r; discriminate|]. split; [|split; [intros X; destruct (A4 X) as [-> | ->]; auto|intros _ X; destruct r; try discriminate; contradiction]].
      intros w' T. apply QW in T. exists []. split; [exact Q0|]. rewrite F. cbn [app].
      destruct r; cbn [rs_fase rs_total] in T;
        [exists w; split; [right; split; [lia|auto]|rewrite T; reflexivity]|..];
        (destruct T as (wh & [(T1 & T2)|(T1 & T2)] & ->); [lia|]; exists (w ++ wh); split; [right; split; [exact T1|apply A2; [discriminate|exact T2]]|rewrite app_assoc; reflexivity]).
  - destruct (send_data_ok h c s ws WR Ps (EVI _ E)) as (w & s' & r & D & A1 & A2 & A3 & A4 & A5 & A6). rewrite D. cbn [obind].
    eexists _, _, _, _. split; [reflexivity|]. destruct Ps as (P1 & P2 & P3). pose proof (content_length c WR) as CL.
    assert (RD : r = RDone \/ r <> RDone) by (destruct r; [left; reflexivity|right; discriminate..]).
    split; [split; [exact Iq|]|].
    { destruct RD as [X|X]; [destruct (A2 X) as (-> & _); exact Logic.I|destruct (A3 X) as (Y & _); pose proof Y as (-> & _); exact Y]. }
    split; [intros X; destruct (A2 X); auto|]. split; [|auto].
    intros w' T. apply QW in T. exists []. split; [exact Q0|]. rewrite F. cbn [app].
    destruct RD as [X|X].
    + destruct (A2 X) as (Y1 & Y2). rewrite Y1 in T. subst w'. rewrite app_nil_r, <- Y2. symmetry. apply skip_firstn. lia.
    + destruct (A3 X) as ((Y1 & Y2 & Y3) & Y4 & Y5). rewrite Y1 in T. subst w'.
      rewrite <- (firstn_skipn (rs_total s') (content_of c)) at 2. rewrite <- Y5, <- app_assoc. symmetry. apply skip_firstn. lia.
  - unfold send_data. rewrite F. cbn [obind]. eexists _, _, _, _. split; [reflexivity|]. split; [split; [exact Iq|rewrite F; exact Logic.I]|]. split; [auto|]. split; [auto|]. split; [auto|discriminate].
Qed.

Lemma turns_ok : forall tss q s, proper q s -> Forall (Forall EV) tss ->
  exists w q' s' r, turns h c q s tss = Ok (w, q', s', r) /\ (r = RDone -> todo q s w) /\ (exists w', todo q s (w ++ w')) /\
   (Forall (Forall fair) tss -> r = RDone \/ r = RWait) /\ (~ is_file c -> Forall (Forall no_fail) tss -> r <> RExit).
Proof.
  induction tss as [|ts tss IH]; intros q s P E; cbn [turns].
  - eexists _, _, _, _. split; [reflexivity|]. split; [|split; [exact (todo_exists q s P)|split; [|]]].
    + destruct q; [|discriminate]. destruct (rs_fase s) eqn:F; try discriminate. intros _. exists []. split; [apply RQ0; reflexivity|]. rewrite F. reflexivity.
    + destruct q; [destruct (rs_fase s)|]; auto.
    + destruct q; [destruct (rs_fase s)|]; discriminate.
  - pose proof (Forall_inv E) as E1. apply Forall_inv_tail in E.
    destruct (turn_ok q s ts P E1) as (w & q' & s' & r & T & P' & D & X & Fa & Fi). rewrite T. cbn [obind].
    destruct (todo_exists q' s' P') as (w' & W').
    assert (STOP : r <> RWait -> exists w0 q'0 s'0 r0, Ok (w, q', s', r) = Ok (w0, q'0, s'0, r0) /\ (r0 = RDone -> todo q s w0) /\ (exists w', todo q s (w0 ++ w')) /\
      (Forall (Forall fair) (ts :: tss) -> r0 = RDone \/ r0 = RWait) /\ (~ is_file c -> Forall (Forall no_fail) (ts :: tss) -> r0 <> RExit)).
    { intros N. exists w, q', s', r. split; [reflexivity|]. split.
      - intros ->. destruct (D eq_refl) as (-> & F'). rewrite <- (app_nil_r w). apply X. exists []. split; [apply RQ0; reflexivity|]. rewrite F'. reflexivity.
      - split; [exists w'; apply X, W'|]. split; [intros Y; apply Fa; exact (Forall_inv Y)|intros Y1 Y2; apply Fi; [exact Y1|exact (Forall_inv Y2)]]. }
    destruct r; try (apply STOP; discriminate).
    destruct (IH q' s' P' E) as (w2 & q2 & s2 & r2 & T2 & D2 & (w3 & X2) & Fa2 & Fi2). rewrite T2. cbn [obind].
    eexists _, _, _, _. split; [reflexivity|]. split; [intros Y; apply X, D2, Y|]. split; [exists w3; rewrite <- app_assoc; apply X, X2|].
    split; [intros Y; apply Fa2; exact (Forall_inv_tail Y)|intros Y1 Y2; apply Fi2; [exact Y1|exact (Forall_inv_tail Y2)]].
Qed.
End WIRE.

(** ** The laws *)
(** What should be on the wire: the frames, then, if there is content, one DATA frame. *)
Definition wire (q : list qframe) (h : list N) (c : content) : list N :=
  flat_map frame_bytes q ++ (if content_len c =? 0 then [] else h ++ content_of c).
Definition pieces (h w : list N) : Prop := exists ks, w = flat_map (fun k => firstn k h) ks.
Definition parts (q : list qframe) : list (list N * list N) := map (fun f => (qf_head f, qf_pay f)) q.

Lemma fresh_head q : Forall fresh_frame q -> Forall head_ok q.
Proof. apply Forall_impl. intros f (A & _). exact A. Qed.
Lemma fresh_left q : Forall fresh_frame q -> flat_map left q = flat_map frame_bytes q.
Proof. induction 1 as [|f q (A & B) F IH]; [reflexivity|]. cbn [flat_map]. rewrite IH. unfold left, frame_bytes. rewrite B. reflexivity. Qed.
Lemma fresh_remains q w : Forall fresh_frame q -> remains q w -> frames_seen (parts q) w.
Proof.
  intros F. revert w. induction F as [|f q (A & B) F IH]; intros w R; inversion R as [|? ? w1 w2 R1 R2]; subst; [constructor|].
  cbn [parts map]. constructor; [|apply IH; exact R2]. unfold remain in R1. rewrite B in R1. exact R1.
Qed.
Lemma remains_exists q : exists w, remains q w.
Proof.
  induction q as [|f q (w & IH)]; [exists []; constructor|]. exists (left f ++ w). constructor; [|exact IH].
  unfold remain, left. destruct (qf_fase f); [exists (qf_head f), (qf_pay f); repeat split; constructor|constructor].
Qed.
Lemma Forall_split {A} (P Q : A -> Prop) l : Forall (fun x => P x /\ Q x) l -> Forall P l /\ Forall Q l.
Proof. intros H. split; (eapply Forall_impl; [|exact H]); intros a (X & Y); assumption. Qed.
Lemma Forall_Forall_and {A} (P Q : A -> Prop) l : Forall (Forall P) l -> Forall (Forall Q) l -> Forall (Forall (fun x => P x /\ Q x)) l.
Proof.
  intros H. induction H as [|x l Hx H IH]; intros G; [constructor|]. constructor; [|apply IH; exact (Forall_inv_tail G)].
  pose proof (Forall_inv G) as Gx. clear - Hx Gx. induction Hx as [|y m Hy Hx IH]; [constructor|].
  constructor; [split; [exact Hy|exact (Forall_inv Gx)]|apply IH; exact (Forall_inv_tail Gx)].
Qed.

Lemma wire_exact h c q m tss : length h = HLEN -> writable c -> Forall fresh_frame q -> Forall (fits m) q -> HLEN <= m ->
  Forall (Forall (whole m)) tss -> Forall (Forall no_intr) tss ->
  exists w q' s' r, turns h c q r_start tss = Ok (w, q', s', r) /\ (r = RDone -> w = wire q h c) /\ (exists w', w ++ w' = wire q h c) /\
   (Forall (Forall fair) tss -> r = RDone \/ r = RWait).
Proof.
  intros Hh Wc Fq Ff M Ww Wn.
  destruct (turns_ok h c (fun q => Forall head_ok q /\ Forall (fits m) q) (fun q w => w = flat_map left q) (fun w => w = h) (fun e => whole m e /\ no_intr e) Wc
    (fun ws X => proj2 (Forall_split _ _ _ X)) (fun w => conj (fun X => X) (fun X => X)) (fun q0 _ => ex_intro _ _ eq_refl) (ex_intro _ _ eq_refl)) with (tss := tss) (q := q) (s := r_start)
    as (w & q' & s' & r & T & D & (w' & X) & Fa & _).
  - intros q0 ws w q' r t (I1 & I2) E Z. destruct (Forall_split _ _ _ E) as (E1 & E2).
    destruct (send_queue_ok q0 I1 ws _ _ _ _ Z) as (A1 & A2 & A3 & A4 & A5 & A6 & _). destruct (whole_queue m q0 I1 I2 ws _ _ _ _ E1 Z) as (B1 & B2).
    split; [auto|]. split; [intros Y; destruct (A2 Y) as (-> & _); split; [reflexivity|]; rewrite <- B1; symmetry; apply app_nil_r|].
    split; [intros Y; split; [apply A3, Y|intros w' ->; exact B1]|]. auto.
  - intros ws w r t E Z. destruct (Forall_split _ _ _ E) as (E1 & E2). destruct (data_head_whole h m Hh M ws w r t E1 Z) as (A1 & A2).
    destruct (data_head_any h Hh ws 0 w r t Z) as (_ & B1 & B2). split; [exact A1|]. split; [intros Y w' ->; rewrite (A2 Y); reflexivity|]. auto.
  - split; [split; [exact (fresh_head q Fq)|exact Ff]|reflexivity].
  - apply Forall_Forall_and; assumption.
  - assert (EQ : forall w0, todo c (fun q w => w = flat_map left q) (fun w => w = h) q r_start w0 -> w0 = wire q h c).
    { intros w0 (wq & -> & wh & A & ->). unfold wire. rewrite (fresh_left q Fq). f_equal. destruct A as [(A & ->)|(A & ->)].
      - rewrite A. cbn [Nat.eqb app]. apply length_zero_iff_nil. rewrite (content_length c Wc). exact A.
      - rewrite (proj2 (Nat.eqb_neq _ _) A). reflexivity. }
    exists w, q', s', r. split; [exact T|]. split; [intros Y; apply EQ, D, Y|]. split; [exists w'; apply EQ, X|exact Fa].
Qed.

Lemma pieces_app h a b : pieces h a -> pieces h b -> pieces h (a ++ b).
Proof. intros (ka & ->) (kb & ->). exists (ka ++ kb). rewrite flat_map_app. reflexivity. Qed.
Lemma wire_any h c q tss : length h = HLEN -> writable c -> Forall fresh_frame q -> Forall (Forall no_intr) tss ->
  exists w q' s' r, turns h c q r_start tss = Ok (w, q', s', r) /\
   (r = RDone -> exists wq wh, w = wq ++ wh ++ content_of c /\ frames_seen (parts q) wq /\ pieces h wh) /\
   (Forall (Forall fair) tss -> r = RDone \/ r = RWait) /\ (~ is_file c -> Forall (Forall no_fail) tss -> r <> RExit).
Proof.
  intros Hh Wc Fq Wn.
  destruct (turns_ok h c (fun q => Forall head_ok q) remains (pieces h) no_intr Wc (fun ws X => X)) with (tss := tss) (q := q) (s := r_start)
    as (w & q' & s' & r & T & D & _ & Fa & Fi).
  - intros w. split; [intros X; inversion X; reflexivity|intros ->; constructor].
  - intros q0 _. apply remains_exists.
  - exists []. exists []. reflexivity.
  - intros q0 ws w q' r t I1 E Z. destruct (send_queue_ok q0 I1 ws _ _ _ _ Z) as (A1 & A2 & A3 & A4 & A5 & A6 & _). auto 10.
  - intros ws w r t E Z. destruct (data_head_any h Hh ws 0 w r t Z) as (A & B1 & B2). split; [auto|]. split; [intros _ w'; apply pieces_app, A|]. auto.
  - split; [exact (fresh_head q Fq)|reflexivity].
  - exact Wn.
  - exists w, q', s', r. split; [exact T|]. split; [|split; [exact Fa|exact Fi]]. intros Y. destruct (D Y) as (wq & Q & wh & A & ->).
    exists wq, wh. split; [reflexivity|]. split; [apply fresh_remains; assumption|]. destruct A as [(_ & ->)|(_ & A)]; [exists []; reflexivity|exact A].
Qed.

(** A socket that takes everything at once. *)
Lemma ready_frame f m ws : fresh_frame f -> fits m f ->
  exists t, send_frame f 0 (Took m :: Took m :: ws) = (frame_bytes f, mkQf (qf_head f) (qf_pay f) FPayload, RDone, t) /\ (t = ws \/ t = Took m :: ws).
Proof.
  destruct f as [hd pay fa]. intros (A & B) (M1 & M2). cbn [qf_head qf_pay qf_fase] in *. subst fa. unfold frame_bytes. cbn [qf_head qf_pay].
  assert (E : send_frame (mkQf hd pay FHeader) 0 (Took m :: Took m :: ws) =
    (let '(w, f', r, t') := send_frame (mkQf hd pay FPayload) 0 (Took m :: ws) in (hd ++ w, f', r, t'))).
  { cbn [send_frame qf_fase qf_pay qf_head]. rewrite Nat.min_r by lia. change (HLEN <=? 0 + (HLEN - 0)) with true. cbn match.
    replace (firstn (HLEN - 0) (skipn 0 hd)) with hd by (cbn [skipn]; change (HLEN - 0) with HLEN; rewrite <- A; symmetry; apply firstn_all). reflexivity. }
  rewrite E. clear E. destruct pay as [|x pay].
  - exists (Took m :: ws). split; [reflexivity|auto].
  - set (pay' := x :: pay) in *. assert (L : 0 < length pay') by (cbn; lia). clearbody pay'. exists ws. split; [|auto].
    cbn [send_frame qf_fase qf_pay qf_head]. replace (length pay' <=? 0) with false by lia. rewrite Nat.sub_0_r, Nat.min_r by lia.
    assert (Z : send_frame (mkQf hd pay' FPayload) (0 + length pay') ws = ([], mkQf hd pay' FPayload, RDone, ws)).
    { cbn [Nat.add]. destruct ws; cbn [send_frame qf_fase qf_pay]; rewrite Nat.leb_refl; reflexivity. }
    rewrite Z. cbn [skipn]. rewrite firstn_all, app_nil_r. reflexivity.
Qed.
Lemma ready_queue m q : Forall fresh_frame q -> Forall (fits m) q -> forall k, 2 * length q <= k ->
  exists k', send_queue q (repeat (Took m) k) = (flat_map frame_bytes q, [], RDone, repeat (Took m) k').
Proof.
  intros F. induction F as [|f q Ff F IH]; intros M k K.
  - exists k. reflexivity.
  - cbn [length] in K. destruct k as [|[|k]]; [lia|lia|]. cbn [repeat].
    destruct (ready_frame f m (repeat (Took m) k) Ff (Forall_inv M)) as (t & E & T). cbn [send_queue]. rewrite E.
    assert (X : exists j, t = repeat (Took m) j /\ 2 * length q <= j) by (destruct T as [-> | ->]; [exists k|exists (S k)]; (split; [reflexivity|lia])).
    destruct X as (j & -> & J). destruct (IH (Forall_inv_tail M) j J) as (k' & E'). rewrite E'. exists k'. reflexivity.
Qed.
Definition takes (e : ev) : Prop := match e with Took n => 0 < n | _ => False end.
Lemma ready_body b : forall ws total w total' r t, Forall takes ws -> total <= length b -> length b - total <= length ws -> send_body b total ws = (w, total', r, t) -> r = RDone.
Proof.
  induction ws as [|e ws IH]; intros total w total' r t T L N E; cbn [send_body length] in *.
  - replace (length b <=? total) with true in E by lia. injection E as <- <- <- <-. reflexivity.
  - destruct (length b <=? total) eqn:C; [injection E as <- <- <- <-; reflexivity|].
    pose proof (Forall_inv T) as T1. apply Forall_inv_tail in T. destruct e as [n| | | |]; [|destruct T1..]. change (0 < n) in T1.
    destruct (send_body b _ ws) as [[[w0 t0] r0] u0] eqn:Z. injection E as <- <- <- <-. eapply IH; [exact T| |..|exact Z]; lia.
Qed.
Lemma ready_file d n : n <= length d -> forall ws total w off' total' r t, Forall takes ws -> total <= n -> n - total <= length ws ->
  send_file d n n total total ws = Ok (w, off', total', r, t) -> r = RDone.
Proof.
  intros D. induction ws as [|e ws IH]; intros total w off' total' r t T L N E; cbn [send_file length] in *.
  - replace (n <=? total) with true in E by lia. injection E as <- <- <- <- <-. reflexivity.
  - destruct (n <=? total) eqn:C; [injection E as <- <- <- <- <-; reflexivity|].
    replace ((n - total =? 0) || (length d <=? total)) with false in E by lia.
    pose proof (Forall_inv T) as T1. apply Forall_inv_tail in T. destruct e as [k| | | |]; [|destruct T1..]. change (0 < k) in T1.
    destruct (send_file d n n _ _ ws) as [[[[[w0 o0] t0] r0] u0]|u] eqn:Z; [|discriminate]. cbn [obind] in E. injection E as <- <- <- <- <-.
    eapply IH; [exact T| |..|exact Z]; lia.
Qed.
Lemma ready_encoded g : wf g -> forall ws i p move w total' r t, ptr_at (b_chains g) 0 i = Some p -> i + move < length (stream g) -> Forall takes ws ->
  length (stream g) - (i + move) <= length ws -> send_encoded g (length (stream g)) p move (i + move) ws = Ok (w, total', r, t) -> r = RDone.
Proof.
  intros W. induction ws as [|e ws IH]; intros i [ci off] move w total' r t P L T N; cbn [send_encoded length] in *; [lia|].
  rewrite (update_chain_spec g i ci off move W P ltac:(lia)); destruct (ptr_at_some (b_chains g) 0 (i + move) L) as ([cj oj] & P'); rewrite P'.
  pose proof (Forall_inv T) as T1. apply Forall_inv_tail in T. destruct e as [n| | | |]; [|destruct T1..]. change (0 < n) in T1.
  pose proof W as (W0 & WR). destruct (run_spec _ _ _ 0 (i + move) cj oj W0 P' L) as (_ & c & C1 & C2 & C3 & C4). rewrite Nat.sub_0_r in *.
  unfold len_until, bytes_at. cbn [fst snd]. rewrite C1. cbn [obind]. fold (stream g) in C3, C4.
  change (if S cj =? length (b_chains g) then (if c_unuse c =? 0 then c_len c - 1 else c_written c) - oj
          else (if c_unuse c =? 0 then c_len c - 1 else c_written c) - oj + 1) with (run_len (S cj =? length (b_chains g)) c oj).
  set (l := run_len _ _ _) in *. clearbody l.
  destruct (C4 (Nat.min n l) ltac:(lia)) as (D1 & _). rewrite (proj2 (Nat.leb_le _ _) D1). cbn [obind].
  destruct (length (stream g) <=? i + move + Nat.min n l) eqn:Q; [intros E; injection E as <- <- <- <-; reflexivity|].
  destruct (send_encoded g _ _ _ _ ws) as [[[[w0 t0] r0] u0]|u] eqn:Z; [|discriminate]. cbn [obind]. intros E. injection E as <- <- <- <-.
  eapply IH; [exact P'| |exact T| |exact Z]; lia.
Qed.
Lemma ready_data h c ws : writable c -> 0 < content_len c -> Forall takes ws -> content_len c <= length ws ->
  exists w s', send_data h c (mkR PData 0 0) ws = Ok (w, s', RDone) /\ rs_fase s' = PEnd.
Proof.
  intros Wc Z T L. assert (NI : Forall no_intr ws) by (eapply Forall_impl; [|exact T]; intros [| | | |]; cbn; auto; contradiction).
  assert (P : placed c (mkR PData 0 0)) by (split; [reflexivity|]; split; [exact Z|destruct c; exact Logic.I || reflexivity]).
  destruct (send_data_ok h c _ ws Wc P NI) as (w & s' & r & E & _ & D & _).
  assert (R : r = RDone).
  { revert E. unfold send_data. cbn [rs_fase rs_total rs_off]. destruct c as [b|g n|d n|d n]; cbn [content_len writable] in *.
    - destruct (send_body b 0 ws) as [[[w0 t0] r0] u0] eqn:Y. intros E. injection E as <- <- <-. eapply (ready_body b ws 0); [exact T|lia|lia|exact Y].
    - destruct Wc as (Wg & ->). pose proof Wg as (W0 & _). pose proof (ptr_at_0 _ _ _ W0) as P0. destruct (b_chains g) as [|c0 cs] eqn:B; [destruct P0|]. rewrite <- B in P0.
      destruct (send_encoded g _ _ _ _ ws) as [[[[w0 t0] r0] u0]|u] eqn:Y; [|discriminate]. cbn [obind]. intros E. injection E as <- <- <-.
      eapply (ready_encoded g Wg ws 0 (0, c_use c0) 0); [exact P0|exact Z|exact T|cbn [Nat.add]; lia|exact Y].
    - destruct (send_file d n n 0 0 ws) as [[[[[w0 o0] t0] r0] u0]|u] eqn:Y; [|discriminate]. cbn [obind]. intros E. injection E as <- <- <-.
      eapply (ready_file d n Wc ws 0); [exact T|lia|lia|exact Y].
    - lia. }
  subst r. exists w, s'. split; [exact E|apply D; reflexivity].
Qed.

Lemma wire_ready h c q m k : length h = HLEN -> writable c -> q <> [] -> Forall fresh_frame q -> Forall (fits m) q -> HLEN <= m ->
  2 * length q <= k -> content_len c <= k -> 1 <= k ->
  exists s', turns h c q r_start [repeat (Took m) k; repeat (Took m) k; repeat (Took m) k] = Ok (wire q h c, [], s', RDone) /\ rs_fase s' = PEnd.
Proof.
  intros Hh Wc NE Fq Ff M K1 K2 K3. set (ws := repeat (Took m) k).
  assert (TK : Forall takes ws). { unfold ws. apply Forall_forall. intros x X. apply repeat_spec in X. subst x. cbn [takes]. unfold HLEN in M. lia. }
  assert (Wn : Forall (Forall no_intr) [ws; ws; ws]).
  { assert (X : Forall no_intr ws) by (eapply Forall_impl; [|exact TK]; intros [| | | |]; cbn; auto; contradiction). auto. }
  assert (Ww : Forall (Forall (whole m)) [ws; ws; ws]).
  { assert (X : Forall (whole m) ws) by (unfold ws; apply Forall_forall; intros x X; apply repeat_spec in X; subst x; cbn [whole]; lia). auto. }
  destruct (wire_exact h c q m [ws; ws; ws] Hh Wc Fq Ff M Ww Wn) as (w & q' & s' & r & E & D & _).
  assert (G : q' = [] /\ r = RDone /\ rs_fase s' = PEnd).
  { revert E. cbn [turns]. unfold turn at 1. destruct q as [|f q0]; [contradiction|]. destruct (ready_queue m (f :: q0) Fq Ff k K1) as (k0 & EQ). fold ws in EQ. rewrite EQ. clear EQ. cbn [obind].
    unfold turn at 1. unfold send_data at 1. cbn [rs_fase r_start]. destruct (content_len c =? 0) eqn:Z.
    - cbn [obind]. intros E. injection E as <- <- <- <-. auto.
    - assert (DH : exists t, data_head h 0 ws = (h, RDone, t)).
      { unfold ws. destruct k as [|k]; [lia|]. cbn [repeat data_head]. change (HLEN <=? 0) with false. cbn match. rewrite Nat.min_r by lia. change (0 + HLEN) with HLEN.
        assert (X : data_head h HLEN (repeat (Took m) k) = ([], RDone, repeat (Took m) k)) by (destruct k; reflexivity). rewrite X.
        exists (repeat (Took m) k). rewrite app_nil_r. rewrite <- Hh at 1. rewrite firstn_all. reflexivity. }
      destruct DH as (t & ->). cbn [obind rs_off r_start]. unfold turn.
      destruct (ready_data h c ws Wc ltac:(lia) TK ltac:(unfold ws; rewrite repeat_length; lia)) as (w1 & s1 & -> & P). cbn [obind].
      intros E. injection E as <- <- <- <-. auto. }
  destruct G as (-> & -> & P). rewrite (D eq_refl) in E. exists s'. auto.
Qed.

(** ** What goes wrong *)
Lemma short_header_repeats hd pay h c q s k rest : length hd = HLEN -> 0 < k < HLEN ->
  turns h c (mkQf hd pay FHeader :: q) s ([Took k; Again] :: rest) =
  obind (turns h c (mkQf hd pay FHeader :: q) s rest) (fun y => let '(w, q', s', r) := y in Ok (firstn k hd ++ w, q', s', r)).
Proof.
  intros H K. cbn [turns]. unfold turn at 1. cbn [send_queue send_frame qf_fase qf_head qf_pay]. rewrite Nat.min_l by lia.
  replace (HLEN <=? 0 + k) with false by lia. cbn [skipn obind]. rewrite app_nil_r.
  destruct (turns h c _ s rest) as [[[[w q'] s'] r]|u]; reflexivity.
Qed.
Lemma short_payload_repeats hd pay h c q s k rest : 0 < k < length pay ->
  turns h c (mkQf hd pay FPayload :: q) s ([Took k; Again] :: rest) =
  obind (turns h c (mkQf hd pay FPayload :: q) s rest) (fun y => let '(w, q', s', r) := y in Ok (firstn k pay ++ w, q', s', r)).
Proof.
  intros K. cbn [turns]. unfold turn at 1. cbn [send_queue send_frame qf_fase qf_head qf_pay]. replace (length pay <=? 0) with false by lia. rewrite Nat.min_l by lia.
  replace (length pay <=? 0 + k) with false by lia. cbn [skipn obind]. rewrite app_nil_r.
  destruct (turns h c _ s rest) as [[[[w q'] s'] r]|u]; reflexivity.
Qed.
Lemma short_data_header h c k rest : length h = HLEN -> 0 < content_len c -> 0 < k < HLEN ->
  turns h c [] r_start ([Took k; Took (HLEN - k)] :: rest) =
  obind (turns h c [] (mkR PData 0 0) rest) (fun y => let '(w, q', s', r) := y in Ok (firstn k h ++ firstn (HLEN - k) h ++ w, q', s', r)).
Proof.
  intros H Z K. cbn [turns]. unfold turn at 1. unfold send_data. cbn [rs_fase r_start]. replace (content_len c =? 0) with false by lia.
  cbn [data_head]. change (HLEN <=? 0) with false. cbn match. rewrite (Nat.min_l k) by lia. replace (HLEN <=? 0 + k) with false by lia.
  rewrite (Nat.min_l (HLEN - k)) by lia. replace (HLEN <=? 0 + k + (HLEN - k)) with true by lia. cbn [obind rs_off r_start].
  rewrite app_nil_r. destruct (turns h c _ _ rest) as [[[[w q'] s'] r]|u]; cbn [obind]; [rewrite <- app_assoc|]; reflexivity.
Qed.
Lemma default_hangs h d n ts rest : length h = HLEN -> 0 < n -> turns h (CDefault d n) [] r_start ([Took HLEN] :: ts :: rest) = UB Diverges.
Proof.
  intros H Z. cbn [turns]. unfold turn at 1, send_data at 1. cbn [rs_fase r_start content_len]. replace (n =? 0) with false by lia.
  cbn [data_head]. change (HLEN <=? 0) with false. cbn match. rewrite Nat.min_id. change (HLEN <=? 0 + HLEN) with true. cbn [obind].
  cbn [turns]. unfold turn, send_data. cbn [rs_fase rs_off rs_total r_start].
  assert (X : forall ws, send_file d 0 n 0 0 ws = UB Diverges) by (intros ws; destruct ws; cbn [send_file]; replace (n <=? 0) with false by lia; reflexivity).
  rewrite X. reflexivity.
Qed.
Lemma short_file_hangs h d n k rest : length h = HLEN -> length d < n -> length d <= k -> turns h (CFile d n) [] r_start ([Took HLEN] :: [Took k] :: rest) = UB Diverges.
Proof.
  intros H Z K. cbn [turns]. unfold turn at 1, send_data at 1. cbn [rs_fase r_start content_len]. replace (n =? 0) with false by lia.
  cbn [data_head]. change (HLEN <=? 0) with false. cbn match. rewrite Nat.min_id. change (HLEN <=? 0 + HLEN) with true. cbn [obind].
  cbn [turns]. unfold turn, send_data. cbn [rs_fase rs_off rs_total r_start].
  assert (X : send_file d n n 0 0 [Took k] = UB Diverges).
  { cbn [send_file]. replace (n <=? 0) with false by lia. destruct (n - 0 =? 0) eqn:Q; [lia|]. cbn [orb]. destruct (length d <=? 0) eqn:Q2; [reflexivity|].
    replace (Nat.min k _) with (length d) by lia. cbn [Nat.add]. replace (n <=? length d) with false by lia. rewrite Nat.leb_refl, orb_true_r. reflexivity. }
  rewrite X. reflexivity.
Qed.
Lemma gone_file_exits h d n ts rest : length h = HLEN -> 0 < n <= length d ->
  turns h (CFile d n) [] r_start ([Took HLEN] :: (Pipe :: ts) :: rest) = Ok (h, [], mkR PData 0 0, RExit).
Proof.
  intros H Z. cbn [turns]. unfold turn at 1, send_data at 1. cbn [rs_fase r_start content_len]. replace (n =? 0) with false by lia.
  cbn [data_head]. change (HLEN <=? 0) with false. cbn match. rewrite Nat.min_id. change (HLEN <=? 0 + HLEN) with true. cbn [obind].
  cbn [turns]. unfold turn, send_data. cbn [rs_fase rs_off rs_total r_start send_file]. replace (n <=? 0) with false by lia.
  replace ((n - 0 =? 0) || (length d <=? 0)) with false by lia. cbn [obind]. rewrite app_nil_r, app_nil_r. rewrite <- H at 1. rewrite firstn_all. reflexivity.
Qed.
Lemma reset_exits h c f q s ts rest : fresh_frame f -> turns h c (f :: q) s ((Fail :: ts) :: rest) = Ok ([], f :: q, s, RExit).
Proof.
  intros (A & B). cbn [turns]. unfold turn. cbn [send_queue send_frame]. rewrite B. reflexivity.
Qed.
