(** Property C129: PRIORITY frames do no harm (model: H2Prio.v; specification: the definitions in H2PrioProofs.v). *)
From Verif Require Import Base H2Prio H2PrioProofs.
From Coq Require Import Lia ZifyBool ZifyNat ZifyN.
Local Open Scope N_scope.

(** Full statement (false, see below): every history of PRIORITY frames, other frames and closed streams is dealt with in some number of
    turns, without touching memory that is not there. *)
Definition priorities_harmless : Prop := forall es, exists fuel s, run fuel start es = Ok s.

(** Memory: if every dependency is a stream that is there, and no stream is closed that a PRIORITY frame speaks of, then nothing but an endless
    loop can happen.  For all histories, weights, exclusive flags, repeated and circular dependencies. *)
Theorem h2_priority_memory_partial : forall fuel es u, known es -> (forall x, In (Close x) es -> x <> 0 /\ ~ named es x) -> run fuel start es = UB u -> u = Diverges.
Proof. exact safe_all. Qed.
Print Assumptions h2_priority_memory_partial.
Example h2_priority_memory_ex : let es := [Prio 3 false 0 200; Prio 5 true 3 15; Prio 3 false 5 7; Prio 5 false 5 9; Other 7; Close 7; Prio 9 true 5 255] in
  known es /\ (forall x, In (Close x) es -> x <> 0 /\ ~ named es x) /\ exists s, run 9 start es = Ok s.
Proof.
  split; [apply knownb_ok; reflexivity|]. split; [|eexists; vm_compute; reflexivity].
  intros x I. assert (X : x = 7) by (cbn in I; intuition (try discriminate); congruence). subst x. split; [discriminate|].
  intros (y & p & d & b & J & O). cbn in J. repeat (destruct J as [J|J]; [try discriminate J; injection J as <- <- <- <-; destruct O as [O|O]; discriminate O|]). destruct J.
Qed.

(** An end: streams that depend on the root stream, each mentioned once, none heavier than an earlier one (except the one just before it), are all
    kept, in their order, and every frame is dealt with in at most as many turns as there are streams. *)
Theorem h2_priority_siblings_partial : forall fuel l, (length l <= fuel)%nat -> ids_from 0 l -> calm l ->
  exists s, run fuel start (map to_root l) = Ok s /\ children (s_mem s) (map fst l).
Proof. intros fuel l F I C. destruct (siblings fuel l F I C) as (s & R & CH & _). exists s. split; assumption. Qed.
Print Assumptions h2_priority_siblings_partial.
Example h2_priority_siblings_ex : let l := [(3, 200); (5, 100); (7, 0)] in ids_from 0 l /\ calm l /\ exists s, run 3 start (map to_root l) = Ok s /\ children (s_mem s) [3; 5; 7].
Proof.
  assert (C : calm [(3, 200); (5, 100); (7, 0)]).
  { intros a y b z c E NE. assert (L : (length a + length b + length c = 1)%nat) by (apply (f_equal (@length (N * N))) in E; rewrite app_length in E; cbn [length] in E; rewrite app_length in E; cbn [length] in E; lia).
    destruct b as [|q [|? b]]; [contradiction| |cbn in L; lia]. destruct a; [|cbn in L; lia]. cbn [app] in E. injection E as <- _ <- _. vm_compute. discriminate. }
  split; [cbn; repeat split; lia|]. split; [exact C|].
  apply (h2_priority_siblings_partial 3 [(3, 200); (5, 100); (7, 0)]); [cbn; lia|cbn; repeat split; lia|exact C].
Qed.

(** Finding: a dependency on a stream nothing was sent on (which HTTP/2 allows) crashes the worker: for every history before it. *)
Theorem h2_priority_unknown_crashes : forall fuel es s x p d b, run fuel start es = Ok s -> stream_for x s <> None -> d <> 0 -> d <> x -> ~ spoken es d ->
  run fuel start (es ++ [Prio x p d b]) = UB NullDeref.
Proof. exact unknown_run. Qed.
Print Assumptions h2_priority_unknown_crashes.
Example h2_priority_unknown_ex : run 1 start [Prio 5 false 3 15] = UB NullDeref.
Proof.
  apply (h2_priority_unknown_crashes 1 [] start 5 false 3 15); [reflexivity|vm_compute; discriminate|discriminate|discriminate|]. intros (e & [] & _).
Qed.
(** Finding: four frames make the worker go round for ever: streams [a] and [b], a heavier one, and one that is heavier than neither. *)
Theorem h2_priority_hangs : forall fuel a b c d wa wb wc wd, (2 <= fuel)%nat -> 0 < a < b -> b < c < d -> N.odd a = true -> N.odd b = true -> N.odd c = true -> N.odd d = true ->
  weight_of wa < weight_of wc -> weight_of wd <= weight_of wa -> weight_of wd <= weight_of wb ->
  (exists s, run fuel start (map to_root [(a, wa); (b, wb); (c, wc)]) = Ok s) /\ run fuel start (map to_root [(a, wa); (b, wb); (c, wc); (d, wd)]) = UB Diverges.
Proof. exact hangs. Qed.
Print Assumptions h2_priority_hangs.
(** Finding: a closed stream stays among the root's: the next PRIORITY frame reads its memory. *)
Theorem h2_priority_closed_used : forall fuel l a wa c wc, (S (length l) <= fuel)%nat -> ids_from 0 ((a, wa) :: l) -> calm ((a, wa) :: l) -> top ((a, wa) :: l) < c -> N.odd c = true ->
  run fuel start (map to_root ((a, wa) :: l) ++ [Close a; to_root (c, wc)]) = UB UseAfterFree.
Proof. exact closed_sibling. Qed.
Print Assumptions h2_priority_closed_used.
Example h2_priority_closed_ex : run 5 start [Prio 1 false 0 15; Close 1; Prio 3 false 0 15] = UB UseAfterFree.
Proof.
  apply (h2_priority_closed_used 5 [] 1 15 3 15); [cbn; lia|cbn; repeat split; lia| |cbn; lia|reflexivity].
  intros a y b z c E NE. destruct a as [|? [|? a]]; [injection E as _ E|discriminate E|discriminate E]. destruct b; discriminate E.
Qed.
(** The weights 16, 16, 17 and 16. *)
Theorem h2_priority_refuted : exists es, ~ (exists fuel s, run fuel start es = Ok s) /\ length es = 4%nat.
Proof.
  exists (map to_root [(1, 15); (3, 15); (5, 16); (7, 15)]). split; [|reflexivity]. intros (fuel & s & R).
  destruct fuel as [|[|fuel]]; [discriminate R|discriminate R|].
  destruct (h2_priority_hangs (S (S fuel)) 1 3 5 7 15 15 16 15) as (_ & H); try (vm_compute; discriminate || reflexivity); try lia. congruence.
Qed.
Print Assumptions h2_priority_refuted.

(** * C132: a PRIORITY frame sets the stream's weight and place.
    Full statement (false of the weight 256, see below): the weight of the stream is one more than the byte of the frame. *)
(** After a frame that is looked at the stream has the weight the frame says, modulo 256. *)
Theorem h2_priority_weight_partial : forall fuel es x p d b s', run fuel start (es ++ [Prio x p d b]) = Ok s' ->
  (exists s1, run fuel start es = Ok s1 /\ stream_for x s1 = None) \/ option_map d_weight (s_mem s' x) = Some ((b + 1) mod 256).
Proof. exact weight_kept. Qed.
Print Assumptions h2_priority_weight_partial.
(** No other stream's weight is changed. *)
Theorem h2_priority_weight_others : forall fuel es x p d b s1 s' y, run fuel start es = Ok s1 -> step fuel s1 (Prio x p d b) = Ok s' -> y <> x ->
  option_map d_weight (s_mem s' y) = option_map d_weight (s_mem s1 y).
Proof. exact weights_other. Qed.
Print Assumptions h2_priority_weight_others.
(** With the exclusive flag the stream is the first and only one its dependency counts. *)
Theorem h2_priority_exclusive : forall fuel es x d b s' s1, run fuel start es = Ok s1 -> stream_for x s1 <> None -> step fuel s1 (Prio x true d b) = Ok s' ->
  option_map (fun v => (d_deps v, d_count v)) (s_mem s' d) = Some (x, 1%nat).
Proof. exact exclusive_only. Qed.
Print Assumptions h2_priority_exclusive.
(** Without it a new stream is the first one of a dependency that had none. *)
Theorem h2_priority_first : forall fuel es x d b s' s1 v, run fuel start es = Ok s1 -> s_mem s1 x = None -> stream_for x s1 <> None -> s_mem s1 d = Some v -> d_count v = 0%nat ->
  step fuel s1 (Prio x false d b) = Ok s' -> option_map (fun v => (d_deps v, d_count v)) (s_mem s' d) = Some (x, 1%nat).
Proof. exact first_child. Qed.
Print Assumptions h2_priority_first.
Definition ex_prios : list ev := [Prio 1 false 0 15; Prio 3 false 0 9; Prio 5 true 0 254].
Example h2_priority_place_ex : exists s1 s', run 9 start ex_prios = Ok s1 /\ step 9 s1 (Prio 7 true 3 99) = Ok s' /\ stream_for 7 s1 <> None /\ s_mem s1 7 = None /\
  option_map d_weight (s_mem s' 7) = Some 100 /\ option_map d_weight (s_mem s' 5) = Some 255 /\ option_map (fun v => (d_deps v, d_count v)) (s_mem s' 3) = Some (7, 1%nat).
Proof.
  do 2 eexists. split; [vm_compute; reflexivity|]. split; [vm_compute; reflexivity|]. split; [vm_compute; discriminate|].
  split; [vm_compute; reflexivity|]. split; [vm_compute; reflexivity|]. split; vm_compute; reflexivity.
Qed.
Example h2_priority_first_ex : exists s1 v s', run 9 start ex_prios = Ok s1 /\ s_mem s1 7 = None /\ stream_for 7 s1 <> None /\ s_mem s1 1 = Some v /\ d_count v = 0%nat /\
  step 9 s1 (Prio 7 false 1 99) = Ok s'.
Proof.
  exists (match run 9 start ex_prios with Ok s => s | UB _ => start end). eexists. eexists. split; [vm_compute; reflexivity|]. split; [vm_compute; reflexivity|].
  split; [vm_compute; discriminate|]. split; [vm_compute; reflexivity|]. split; [reflexivity|vm_compute; reflexivity].
Qed.
(** Finding: the greatest weight, 256, becomes 0, less than that of every other stream. *)
Theorem h2_priority_weight_refuted : exists s s', run 9 start [Prio 1 false 0 0] = Ok s /\ step 9 s (Prio 3 false 0 255) = Ok s' /\
  option_map d_weight (s_mem s' 1) = Some 1 /\ option_map d_weight (s_mem s' 3) = Some 0.
Proof.
  do 2 eexists. split; [vm_compute; reflexivity|]. split; [vm_compute; reflexivity|]. split; vm_compute; reflexivity.
Qed.
Print Assumptions h2_priority_weight_refuted.
