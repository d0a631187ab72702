(** Properties C04 (intrusive lists and queues) and C05 (memory pools). *)
From Coq Require Import ZArith Permutation.
From Verif Require Import Base Bllist BllistProofs RbTree RbTreeProofs Alloc AllocProofs.

(** ** C04.  [sp_run F os] is the family of abstract sequences (head, elements) after [os]; starting
    from initialised, distinct heads, every legal sequence of operations (elements are added while
    unlinked and removed while linked) keeps each list: the forward traversal of every head yields
    exactly its sequence, the backward traversal its reverse, and the last/empty tests agree. *)
Theorem list_order : forall hs m os, NoDup hs -> lops_ok false (map (fun h => (h, [])) hs) os ->
  forall h l, In (h, l) (sp_run (map (fun h => (h, [])) hs) os) ->
  forall fuel, length l <= fuel ->
    forwards fuel (lrun (fold_left bl_init hs m) os) h = Some l /\
    backwards fuel (lrun (fold_left bl_init hs m) os) h = Some (rev l).
Proof.
  intros hs m os ND L h l Hin fuel Hf.
  destruct (traversal false _ _ h l (run_inv false os _ _ (init_family false bl_init hs m (or_introl (conj eq_refl eq_refl)) ND) L) Hin fuel Hf) as (H1 & H2 & _).
  split; assumption.
Qed.
Print Assumptions list_order.

(** Queues in addition count their elements. *)
Theorem queue_order_and_count : forall hs m os, NoDup hs -> lops_ok true (map (fun h => (h, [])) hs) os ->
  forall h l, In (h, l) (sp_run (map (fun h => (h, [])) hs) os) ->
  let m' := lrun (fold_left q_init hs m) os in
  (forall fuel, length l <= fuel -> forwards fuel m' h = Some l /\ backwards fuel m' h = Some (rev l)) /\
  q_count m' h = Z.of_nat (length l) /\ (q_is_empty m' h = true <-> l = []) /\
  (l <> [] -> snd (q_pop m' h) = last l h).
Proof.
  intros hs m os ND L h l Hin m'.
  pose proof (run_inv true os _ _ (init_family true q_init hs m (or_intror eq_refl) ND) L) as HF.
  pose proof (traversal true _ _ h l HF Hin) as T.
  split; [intros fuel Hf; destruct (T fuel Hf) as (H1 & H2 & _); split; assumption|].
  split; [apply (proj2 (proj2 HF) eq_refl h l Hin)|].
  destruct (T (length l) (le_n _)) as (_ & _ & H3 & H4). split; [exact H4|]. intros _. exact H3.
Qed.
Print Assumptions queue_order_and_count.

(** The precondition "pop needs a non-empty queue" matters: popping an empty queue makes its
    counter negative while the queue stays empty. *)
Theorem queue_pop_empty_refuted : exists m, let m' := lrun (q_init m 1) [QPop 1] in
  q_is_empty m' 1 = true /\ q_count m' 1 = (-1)%Z.
Proof. exists (mkLmem (fun _ => 0) (fun _ => 0) (fun _ => 0%Z) (fun _ => 0)). split; reflexivity. Qed.
Print Assumptions queue_pop_empty_refuted.

(** fly_queue_pop is last-in first-out: the element pushed last leaves first. *)
Theorem queue_pop_is_lifo : forall hs m os h n, NoDup hs -> lops_ok true (map (fun h => (h, [])) hs) (os ++ [QPush h n]) ->
  snd (q_pop (lrun (fold_left q_init hs m) (os ++ [QPush h n])) h) = n.
Proof.
  intros hs m os h n ND L. pose proof L as L0.
  assert (In h (map fst (sp_run (map (fun h => (h, [])) hs) os))).
  { clear - L. revert L. generalize (map (fun h : nat => (h, [] : list nat)) hs). induction os as [|o os IH]; intros F L; cbn in L.
    - destruct L as ((H & _) & _). exact H.
    - destruct L as (_ & L). apply (IH (sp_step F o)). exact L. }
  apply in_map_iff in H as ([h' l] & E & Hin). cbn [fst] in E. subst h'.
  destruct (queue_order_and_count hs m _ ND L0 h (l ++ [n])) as (_ & _ & _ & P).
  - unfold sp_run. rewrite fold_left_app. cbn [fold_left sp_step]. unfold sp_upd. apply in_map_iff. exists (h, l). cbn [fst snd].
    rewrite Nat.eqb_refl. auto.
  - rewrite P by (destruct l; discriminate). apply last_last.
Qed.
Print Assumptions queue_pop_is_lifo.

Example lists_example :
  let hs := [10; 20] in let F0 := map (fun h => (h, [] : list nat)) hs in
  let os := [QPush 10 1; QPush 10 2; QPush 20 3; QPush 10 4; QRemove 2; QPop 20; QPush 20 2] in
  lops_ok true F0 os /\ sp_run F0 os = [(10, [1; 4]); (20, [2])].
Proof.
  cbv zeta. split; [|reflexivity]. cbn.
  repeat match goal with
         | |- _ /\ _ => split
         | |- ~ _ => intros H; repeat (destruct H as [H|H]; [discriminate H|]); exact H
         | |- True => exact I
         end; eauto; try (left; reflexivity); try (right; left; reflexivity).
  - exists 10, [1; 2; 4]. cbn. auto.
  - exists [3]. cbn. split; [auto|discriminate].
Qed.

(** ** C05.  [asp_run [] os] lists, per pool, the blocks allocated and not yet given back.  Every
    legal history (pools used between creation and deletion, malloc returning unused memory)
    succeeds - in particular nothing is freed twice and nothing foreign is freed, since that is
    undefined behaviour in the model - and afterwards exactly the outstanding blocks of the
    existing pools are allocated. *)
Theorem pool_blocks_released_once : forall os, aops_ok manager_init [] os ->
  exists w, arun manager_init os = Ok w /\
    Permutation (w_live w) (outstanding (asp_run [] os)) /\
    map (fun p => (po_id p, po_blocks p)) (w_pools w) = map (fun a => (ap_id a, ap_blocks a)) (asp_run [] os) /\
    w_total w = length (asp_run [] os).
Proof.
  intros os L. destruct (arun_ok os _ _ winv_init L) as (w & E & V & ND & Tot & PL & _). exists w. split; [exact E|]. split; [exact PL|].
  split; [rewrite <- V, map_map; reflexivity|]. rewrite Tot, <- V, map_length. reflexivity.
Qed.
Print Assumptions pool_blocks_released_once.

(** Freeing an address that is not the start of an outstanding block of this pool (for instance a
    block of another pool, or one freed before) changes nothing. *)
Theorem pool_free_unknown : forall os w pid ptr, aops_ok manager_init [] os -> arun manager_init os = Ok w ->
  In pid (map ap_id (asp_run [] os)) ->
  (forall a bk, In a (asp_run [] os) -> ap_id a = pid -> In bk (ap_blocks a) -> bk_entry bk <> ptr) ->
  astep w (AFree pid ptr) = Ok w.
Proof.
  intros os w pid ptr L R Hin Hn. destruct (arun_ok os _ _ winv_init L) as (w' & E & HW). rewrite R in E. injection E as <-.
  exact (free_unknown w _ pid ptr HW Hin Hn).
Qed.
Print Assumptions pool_free_unknown.

(** Deleting a pool releases all and only its blocks; releasing all pools keeps exactly the pools
    marked self_delete. *)
Theorem pool_delete_exact : forall os w pid, aops_ok manager_init [] os -> arun manager_init os = Ok w ->
  In pid (map ap_id (asp_run [] os)) ->
  exists w', astep w (ADelete pid) = Ok w' /\
    Permutation (w_live w') (outstanding (filter (fun a => negb (ap_id a =? pid)) (asp_run [] os))) /\
    (forall x, In x (w_live w) -> ~ In x (w_live w') -> exists a, In a (asp_run [] os) /\ ap_id a = pid /\ In x (baddrs (ap_blocks a))).
Proof.
  intros os w pid L R Hin. destruct (arun_ok os _ _ winv_init L) as (w0 & E & HW). rewrite R in E. injection E as <-.
  destruct (delete_pool_ok w _ pid HW Hin) as (w' & E & HW' & _). exists w'. split; [exact E|].
  destruct HW' as (_ & _ & _ & PL' & _). destruct HW as (_ & _ & _ & PL & _). split; [exact PL'|].
  intros x Hx Hn. apply (Permutation_in _ PL) in Hx. unfold outstanding in Hx. apply in_concat in Hx as (r & Hr & Hx).
  apply in_map_iff in Hr as (a & <- & Ha). exists a. split; [exact Ha|]. split; [|exact Hx].
  destruct (Nat.eqb_spec (ap_id a) pid) as [|Hne]; [assumption|]. exfalso. apply Hn.
  apply (Permutation_in _ (Permutation_sym PL')). unfold outstanding. apply in_concat. exists (baddrs (ap_blocks a)). split; [|exact Hx].
  apply in_map_iff. exists a. split; [reflexivity|]. apply filter_In. split; [exact Ha|]. apply negb_true_iff, Nat.eqb_neq, Hne.
Qed.
Print Assumptions pool_delete_exact.

Example pools_example :
  let os := [ACreate 1 false; ACreate 2 true; AAlloc 1 11 12 100; AAlloc 1 13 14 101; AAlloc 2 15 16 102; AFree 1 16; AFree 1 12;
             AFree 1 12; AAlloc 1 12 11 103; ACreate 3 false; AReleaseAll] in
  aops_ok manager_init [] os /\ outstanding (asp_run [] os) = [16; 15] /\
  outstanding (asp_run [] (firstn 9 os)) = [14; 13; 11; 12; 16; 15].
Proof. cbv zeta. split; [apply aops_okb_ok; vm_compute; reflexivity|]. split; vm_compute; reflexivity. Qed.
