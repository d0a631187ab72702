(** Proofs about what a worker opens. *)
From Verif Require Import Base Status WorkerStart.
From Coq Require Import NArith ZArith List Bool Arith Lia ZifyBool ZifyNat ZifyN.
Import ListNotations.
Local Open Scope nat_scope.

(** ** Specification: the files of the mount points. *)
(** A file the server encodes beforehand: regular, not smaller than the threshold, not larger than a response may be. *)
Definition encoded_early (m : limits) (f : file) : Prop := w_reg f = true /\ (m_threshold m <= w_size f <= m_max m)%Z.
(** A file that does not stop the worker. *)
Definition fine (m : limits) (f : file) : Prop :=
  w_join f = false \/ (w_date f = true /\ (encoded_early m f -> w_opens f = true /\ (w_enc f = EncOk \/ w_enc f = EncFull))).
(** What a file becomes. *)
Definition becomes (m : limits) (f : file) (r : ready) : Prop :=
  (y_open r = true <-> w_join f = true /\ w_opens f = true) /\
  (y_enc r <> None <-> w_join f = true /\ w_reg f = true /\ (m_threshold m <= w_size f)%Z) /\
  (y_enc r = Some false <-> w_join f = true /\ encoded_early m f /\ w_enc f = EncOk).

Lemma preencode_ok m op size reg e : (exists r, preencode m op size reg e = inr r) <->
  (reg = true /\ (m_threshold m <= size <= m_max m)%Z -> op = true /\ (e = EncOk \/ e = EncFull)).
Proof.
  unfold preencode, encode. destruct (Z.leb_spec (m_threshold m) size), (Z.leb_spec size (m_max m)), reg, op, e; cbn [negb orb];
  split; intro H1; try (eexists; reflexivity); try (intros [? ?]; (discriminate || lia || auto));
  try (destruct H1 as [? H1]; discriminate H1); destruct H1 as [A [B|B]]; try discriminate; try (split; [reflexivity|lia]).
Qed.
Lemma preencode_val m op size reg e r : preencode m op size reg e = inr r ->
  (r <> None <-> reg = true /\ (m_threshold m <= size)%Z) /\ (r = Some false <-> reg = true /\ (m_threshold m <= size <= m_max m)%Z /\ op = true /\ e = EncOk).
Proof.
  unfold preencode, encode. destruct (Z.leb_spec (m_threshold m) size), (Z.leb_spec size (m_max m)), reg, op, e; cbn [negb orb]; intros [= <-];
  repeat split; intros; try congruence; try discriminate; try lia; intuition (try congruence; try discriminate; try lia).
Qed.
Lemma open_one_ok m f : (exists r, open_one m f = inr r) <-> fine m f.
Proof.
  unfold open_one, fine, encoded_early. destruct (w_join f); cbn [negb]; [|split; [auto|intros; eexists; reflexivity]].
  destruct (w_date f); cbn [negb]; [|split; [intros [r H]; discriminate H|intros [H|[H _]]; discriminate H]].
  pose proof (preencode_ok m (w_opens f) (w_size f) (w_reg f) (w_enc f)) as P.
  destruct (preencode m (w_opens f) (w_size f) (w_reg f) (w_enc f)) as [y|e].
  - split; [intros [r H]; discriminate H|]. intros [H|[_ H]]; [discriminate H|]. apply P in H as [r H]. discriminate H.
  - split; [|intros; eexists; reflexivity]. intros _. right. split; [reflexivity|]. apply P. eexists. reflexivity.
Qed.
Lemma open_one_becomes m f r : open_one m f = inr r -> becomes m f r.
Proof.
  unfold open_one, becomes, encoded_early. destruct (w_join f); cbn [negb].
  2: { intros [= <-]. cbn [y_open y_enc]. repeat split; intros; intuition (try discriminate; try congruence). }
  destruct (w_date f); cbn [negb]; [|discriminate].
  destruct (preencode m (w_opens f) (w_size f) (w_reg f) (w_enc f)) as [y|e] eqn:P; [discriminate|]. intros [= <-]. cbn [y_open y_enc].
  assert (Q : w_reg f = true /\ (m_threshold m <= w_size f <= m_max m)%Z -> w_opens f = true /\ (w_enc f = EncOk \/ w_enc f = EncFull)).
  { apply (preencode_ok m (w_opens f) (w_size f) (w_reg f) (w_enc f)). exists e. exact P. }
  apply preencode_val in P as [A B]. split; [tauto|]. split; [tauto|]. rewrite B. tauto.
Qed.
Lemma open_all_ok m l : (exists rs, open_all m l = inr rs) <-> Forall (fine m) l.
Proof.
  induction l as [|f l IH]; cbn [open_all].
  - split; [constructor|intros _; eexists; reflexivity].
  - rewrite Forall_cons_iff, <- IH, <- open_one_ok. destruct (open_one m f) as [y|r]; [split; [intros [rs H]; discriminate H|intros [[r H] _]; discriminate H]|].
    destruct (open_all m l) as [y|rs]; [split; [intros [rs H]; discriminate H|intros [_ [rs H]]; discriminate H]|].
    split; [intros _; split; eexists; reflexivity|intros _; eexists; reflexivity].
Qed.
Lemma open_all_becomes m l : forall rs, open_all m l = inr rs -> Forall2 (becomes m) l rs.
Proof.
  induction l as [|f l IH]; cbn [open_all]; intros rs H; [injection H as <-; constructor|].
  destruct (open_one m f) as [y|r] eqn:E; [discriminate H|]. destruct (open_all m l) as [y|t]; [discriminate H|]. injection H as <-.
  constructor; [apply open_one_becomes; exact E|apply IH; reflexivity].
Qed.
Lemma open_files_ok m mounts routes : (exists rs, open_files m mounts routes = inr rs) <->
  (mounts <> [] \/ routes <> 0) /\ forall l f, In l mounts -> In f l -> fine m f.
Proof.
  assert (F : Forall (fine m) (concat mounts) <-> forall l f, In l mounts -> In f l -> fine m f).
  { rewrite Forall_forall. split.
    - intros H l f A B. apply H, in_concat. exists l. auto.
    - intros H f I. apply in_concat in I as (l & A & B). exact (H l f A B). }
  unfold open_files. destruct mounts as [|l0 mounts]; [destruct routes as [|routes]|].
  - split; [intros [rs H]; discriminate H|intros [[H|H] _]; contradiction].
  - rewrite open_all_ok, F. split; [intro H; split; [right; discriminate|exact H]|intros [_ H]; exact H].
  - rewrite open_all_ok, F. split; [intro H; split; [left; discriminate|exact H]|intros [_ H]; exact H].
Qed.
Lemma open_files_becomes m mounts routes rs : open_files m mounts routes = inr rs -> Forall2 (becomes m) (concat mounts) rs.
Proof. unfold open_files. destruct mounts; [destruct routes; [discriminate|]|]; apply open_all_becomes. Qed.

(** ** Specification: the default contents. *)
(** The file for a status code in the directory. *)
Definition page (p : list N) (code : Z) : list N := p ++ bs "/" ++ dec_z code ++ bs ".html".
(** A page that is there. *)
Definition there (w : world) (path : list N) (fd : nat) : Prop := v_access w path = true /\ v_open w path = Some fd.
(** A page that does not stop the worker. *)
Definition page_fine (m : limits) (w : world) (path : list N) : Prop :=
  forall fd, there w path fd -> v_stat w path = true /\
    (v_reg w path = true /\ (m_threshold m <= v_size w path <= m_max m)%Z -> v_enc w path = EncOk \/ v_enc w path = EncFull).

Definition entry (m : limits) (w : world) (p : list N) (rows : list st_row) (c : content) : Prop :=
  exists r, In r rows /\ k_type c = sr_type r /\ k_path c = page p (sr_code r) /\ there w (k_path c) (k_fd c).
Definition short_codes (rows : list st_row) : Prop := forall r, In r rows -> length (dec_z (sr_code r)) = 3.

Lemma loop_ok m w d p : v_real w d = Some p -> (N.of_nat (length p) <= 4086)%N -> forall rows acc, short_codes rows ->
  match defaults_loop m w d rows acc with
  | UB _ => False
  | Ok (inl _) => ~ (forall r, In r rows -> page_fine m w (page p (sr_code r)))
  | Ok (inr l) => (forall r, In r rows -> page_fine m w (page p (sr_code r))) /\ (forall c, In c l -> In c acc \/ entry m w p rows c) /\ (forall c, In c acc -> In c l) /\
      forall r fd, In r rows -> there w (page p (sr_code r)) fd -> exists c, In c l /\ k_type c = sr_type r /\ k_path c = page p (sr_code r) /\ k_fd c = fd
  end.
Proof.
  intros E L. induction rows as [|r rows IH]; intros acc S; cbn [defaults_loop].
  - split; [intros r []|]. split; [auto|]. split; [auto|intros r fd []].
  - rewrite E. assert (S' : short_codes rows) by (intros q I; apply S; right; exact I).
    rewrite app_length, (S r (or_introl eq_refl)). change (length (bs ".html")) with 5. cbn [Nat.add]. unfold PATH_MAX.
    destruct (4096 <? N.of_nat (length p) + 1 + N.of_nat 8 + 1)%N eqn:B; [lia|]. change (p ++ bs "/" ++ dec_z (sr_code r) ++ bs ".html") with (page p (sr_code r)).
    set (path := page p (sr_code r)) in *.
    assert (SKIP : ~ (exists fd, there w path fd) ->
      match defaults_loop m w d rows acc with
      | UB _ => False
      | Ok (inl _) => ~ (forall q, In q (r :: rows) -> page_fine m w (page p (sr_code q)))
      | Ok (inr l) => (forall q, In q (r :: rows) -> page_fine m w (page p (sr_code q))) /\ (forall c, In c l -> In c acc \/ entry m w p (r :: rows) c) /\ (forall c, In c acc -> In c l) /\
          forall q fd, In q (r :: rows) -> there w (page p (sr_code q)) fd -> exists c, In c l /\ k_type c = sr_type q /\ k_path c = page p (sr_code q) /\ k_fd c = fd
      end).
    { intro NT. specialize (IH acc S'). destruct (defaults_loop m w d rows acc) as [[y|l]|u]; [| |destruct IH].
      - intro H. apply IH. intros q I. apply H. right. exact I.
      - destruct IH as (A & A1 & A2 & A3). split.
        { intros q [<-|I]; [intros fd T; destruct NT; exists fd; exact T|apply A; exact I]. }
        split; [intros c I; destruct (A1 c I) as [J|(q & J & K)]; [auto|right; exists q; split; [right; exact J|exact K]]|].
        split; [exact A2|]. intros q fd [<-|I] T; [destruct NT; exists fd; exact T|apply A3; assumption]. }
    destruct (v_access w path) eqn:V; cbn [negb].
    2: { apply SKIP. intros [fd [T _]]. congruence. }
    destruct (v_open w path) as [fd|] eqn:O.
    2: { apply SKIP. intros [fd [_ T]]. congruence. }
    assert (T : there w path fd) by (split; assumption).
    destruct (v_stat w path) eqn:ST; cbn [negb].
    2: { intro H. destruct (H r (or_introl eq_refl) fd T) as [H' _]. fold path in H'. congruence. }
    pose proof (preencode_ok m true (v_size w path) (v_reg w path) (v_enc w path)) as P.
    destruct (preencode m true (v_size w path) (v_reg w path) (v_enc w path)) as [y|e].
    + intro H. destruct (H r (or_introl eq_refl) fd T) as [_ H']. fold path in H'.
      destruct (proj2 P) as [q Q]; [|discriminate Q]. intro G. split; [reflexivity|exact (H' G)].
    + assert (PF : page_fine m w path).
      { intros fd' T'. split; [exact ST|]. intro G. destruct (proj1 P (ex_intro _ e eq_refl) G) as [_ G']. exact G'. }
      specialize (IH (acc ++ [mkContent (sr_type r) path fd e]) S'). destruct (defaults_loop m w d rows (acc ++ [mkContent (sr_type r) path fd e])) as [[y|l]|u]; [| |destruct IH].
      * intro H. apply IH. intros q I. apply H. right. exact I.
      * destruct IH as (A & A1 & A2 & A3). split.
        { intros q [<-|I]; [exact PF|apply A; exact I]. }
        split.
        { intros c I. destruct (A1 c I) as [J|(q & J & K)].
          - apply in_app_iff in J as [J|[<-|[]]]; [auto|]. right. exists r. split; [left; reflexivity|]. split; [reflexivity|]. split; [reflexivity|exact T].
          - right. exists q. split; [right; exact J|exact K]. }
        split; [intros c I; apply A2, in_app_iff; auto|].
        intros q fd' [<-|I] T'; [|apply A3; assumption]. destruct T as [_ T], T' as [_ T']. fold path in T'. rewrite T in T'. injection T' as <-.
        exists (mkContent (sr_type r) path fd e). split; [apply A2, in_app_iff; right; left; reflexivity|auto].
Qed.
Lemma responses_short : short_codes responses.
Proof. intros r I. assert (F : forallb (fun r => length (dec_z (sr_code r)) =? 3) responses = true) by (vm_compute; reflexivity). rewrite forallb_forall in F. apply Nat.eqb_eq, F, I. Qed.
Lemma responses_code r r' : In r responses -> In r' responses -> sr_type r = sr_type r' -> sr_code r = sr_code r'.
Proof.
  intros I J E. assert (F : forallb (fun a => forallb (fun b => negb (stcode_beq (sr_type a) (sr_type b)) || (sr_code a =? sr_code b)%Z) responses) responses = true) by (vm_compute; reflexivity).
  rewrite forallb_forall in F. specialize (F r I). rewrite forallb_forall in F. specialize (F r' J).
  rewrite (internal_stcode_dec_lb _ _ E) in F. cbn [negb orb] in F. lia.
Qed.

Lemma loop_long m w d p r rows acc : v_real w d = Some p -> (4086 < N.of_nat (length p))%N -> length (dec_z (sr_code r)) = 3 -> defaults_loop m w d (r :: rows) acc = UB OutOfBounds.
Proof.
  intros E L S. cbn [defaults_loop]. rewrite E, app_length, S. change (length (bs ".html")) with 5. cbn [Nat.add]. unfold PATH_MAX.
  destruct (4096 <? N.of_nat (length p) + 1 + N.of_nat 8 + 1)%N eqn:B; [reflexivity|lia].
Qed.
Lemma responses_cons : exists r rows, responses = r :: rows.
Proof. do 2 eexists. reflexivity. Qed.
Lemma responses_long m w d p acc : v_real w d = Some p -> (4086 < N.of_nat (length p))%N -> defaults_loop m w d responses acc = UB OutOfBounds.
Proof.
  intros E L. pose proof responses_short as S. destruct responses_cons as (r & rows & R). rewrite R in *. apply (loop_long m w d p); [exact E|exact L|]. apply S. left. reflexivity.
Qed.
Lemma responses_lost m w d acc : v_real w d = None -> defaults_loop m w d responses acc = Ok (inl BadDir).
Proof. intros E. destruct responses_cons as (r & rows & ->). cbn [defaults_loop]. rewrite E. reflexivity. Qed.

Lemma open_defaults_dir m w d : v_dir w d = true -> open_defaults m w (Some d) = defaults_loop m w d responses [].
Proof. intro V. unfold open_defaults. rewrite V. generalize responses. intro rows. reflexivity. Qed.
Lemma open_defaults_nodir m w d : v_dir w d = false -> open_defaults m w (Some d) = Ok (inr []).
Proof. intro V. unfold open_defaults. rewrite V. generalize responses. intro rows. reflexivity. Qed.

(** What the worker is asked to do with default contents. *)
Definition asks (w : world) (dir : option (list N)) (p : list N) : Prop := exists d, dir = Some d /\ v_dir w d = true /\ v_real w d = Some p.
Lemma defaults_exact m w dir p l : asks w dir p -> open_defaults m w dir = Ok (inr l) ->
  forall r fd, In r responses -> ((exists c, default_for l (sr_type r) = Some c /\ k_path c = page p (sr_code r) /\ k_fd c = fd) <-> there w (page p (sr_code r)) fd /\ 0 < fd).
Proof.
  intros (d & -> & V & E) H r fd I. rewrite (open_defaults_dir m w d V) in H.
  assert (L : (N.of_nat (length p) <= 4086)%N).
  { destruct (N.leb_spec (N.of_nat (length p)) 4086) as [L|L]; [exact L|]. rewrite (responses_long m w d p [] E L) in H. discriminate H. }
  pose proof (loop_ok m w d p E L responses [] responses_short) as K. rewrite H in K. destruct K as (_ & A & _ & B).
  unfold default_for. split.
  - intros (c & F & P & <-). apply find_some in F as [F G]. apply andb_true_iff in G as [G1 G2]. destruct (A c F) as [[]|(q & J & T & PP & TH)].
    rewrite P in TH. split; [exact TH|lia].
  - intros [T G]. destruct (B r fd I T) as (c & C1 & C2 & C3 & C4).
    destruct (find (fun c => stcode_beq (k_type c) (sr_type r) && (0 <? k_fd c)) l) as [c'|] eqn:F.
    + exists c'. split; [reflexivity|]. apply find_some in F as [F F']. apply andb_true_iff in F' as [F1 F2]. apply internal_stcode_dec_bl in F1.
      destruct (A c' F) as [[]|(q & J & T' & PP & TH)]. rewrite (responses_code q r J I ltac:(congruence)) in PP. split; [exact PP|].
      rewrite PP in TH. destruct T as [_ T], TH as [_ TH]. congruence.
    + exfalso. pose proof (find_none _ _ F c C1) as N0. cbv beta in N0. rewrite (internal_stcode_dec_lb _ _ C2), C4 in N0. cbn [andb] in N0. lia.
Qed.
Lemma defaults_none m w dir t : (forall p, ~ asks w dir p) -> (exists d, dir = Some d /\ v_dir w d = true) \/ (exists l, open_defaults m w dir = Ok (inr l) /\ default_for l t = None).
Proof.
  intro N0. destruct dir as [d|]; [|right; exists []; split; reflexivity]. destruct (v_dir w d) eqn:V; [left; exists d; split; [reflexivity|exact V]|right; exists []; split; [exact (open_defaults_nodir m w d V)|reflexivity]].
Qed.
Lemma defaults_start m w dir p : asks w dir p -> ((exists l, open_defaults m w dir = Ok (inr l)) <->
  (N.of_nat (length p) <= 4086)%N /\ forall r, In r responses -> page_fine m w (page p (sr_code r))).
Proof.
  intros (d & -> & V & E). rewrite (open_defaults_dir m w d V).
  destruct (N.leb_spec (N.of_nat (length p)) 4086) as [L|L].
  - pose proof (loop_ok m w d p E L responses [] responses_short) as K. destruct (defaults_loop m w d responses []) as [[y|l]|u]; [| |destruct K].
    + split; [intros [l H]; discriminate H|intros [_ H]; contradiction].
    + destruct K as [K _]. split; [auto|intros _; exists l; reflexivity].
  - split; [|intros [H _]; lia]. intros [l H]. rewrite (responses_long m w d p [] E L) in H. discriminate H.
Qed.
Lemma defaults_ub m w dir : (exists u, open_defaults m w dir = UB u) <-> exists p, asks w dir p /\ (4086 < N.of_nat (length p))%N.
Proof.
  split.
  - intros [u H]. destruct dir as [d|]; [|discriminate H]. destruct (v_dir w d) eqn:V; [rewrite (open_defaults_dir m w d V) in H|rewrite (open_defaults_nodir m w d V) in H; discriminate H].
    destruct (v_real w d) as [p|] eqn:E.
    + exists p. split; [exists d; auto|]. destruct (N.leb_spec (N.of_nat (length p)) 4086) as [L|L]; [|exact L].
      pose proof (loop_ok m w d p E L responses [] responses_short) as K. rewrite H in K. destruct K.
    + rewrite (responses_lost m w d [] E) in H. discriminate H.
  - intros (p & (d & -> & V & E) & L). rewrite (open_defaults_dir m w d V). rewrite (responses_long m w d p [] E L). eexists. reflexivity.
Qed.
