(** Proofs about the log files. *)
From Verif Require Import Base LogInit.
From Coq Require Import NArith ZArith List Bool Arith Lia ZifyBool ZifyNat ZifyN.
Import ListNotations.
Local Open Scope nat_scope.

(** ** Specification. *)
(** The file of a kind of log: in the log directory. *)
Inductive log_at (w : world) (u : setup) : kind -> list N -> Prop :=
| at_access d r : u_path u = Some d -> w_real w d = Some r -> log_at w u Access (r ++ bs "/fly_access.log")
| at_error d r : u_path u = Some d -> w_real w d = Some r -> log_at w u Error (r ++ bs "/fly_error.log")
| at_notice d r : u_path u = Some d -> w_real w d = Some r -> log_at w u Notice (r ++ bs "/fly_notice.log").
(** The descriptor records of a kind are written to, if any. *)
Definition opened (w : world) (u : setup) (k : kind) (fd : nat) : Prop :=
  exists p tty, log_at w u k p /\ (N.of_nat (length p) < 4096)%N /\ w_open w p = Some (fd, tty).
(** What was written to a destination. *)
Definition dest_eqb (a b : dest) : bool :=
  match a, b with Stdout, Stdout => true | Stderr, Stderr => true | File n, File m => n =? m | _, _ => false end.
Definition written (d : dest) (l : list (dest * list N)) : list (list N) := map snd (filter (fun x => dest_eqb d (fst x)) l).
Definition times (b : bool) : nat := if b then 1 else 0.

Lemma log_at_form w u k p : log_at w u k p <-> exists d r, u_path u = Some d /\ w_real w d = Some r /\ p = r ++ bs "/" ++ filename k.
Proof.
  split.
  - intros [d r A B|d r A B|d r A B]; exists d, r; auto.
  - intros (d & r & A & B & ->). destruct k; [apply (at_access w u d)|apply (at_error w u d)|apply (at_notice w u d)]; assumption.
Qed.
Lemma log_at_fun w u k p q : log_at w u k p -> log_at w u k q -> p = q.
Proof. rewrite !log_at_form. intros (d & r & A & B & ->) (d' & r' & A' & B' & ->). congruence. Qed.
Lemma log_at_kind w u k k' p : log_at w u k p -> log_at w u k' p -> k = k'.
Proof.
  rewrite !log_at_form. intros (d & r & A & B & ->) (d' & r' & A' & B' & E). assert (r' = r) as -> by congruence.
  apply app_inv_head in E. destruct k, k'; try reflexivity; vm_compute in E; discriminate E.
Qed.

Lemma log_path_spec w u k : log_path w u k = match u_path u with None => None | Some d => match w_real w d with None => None | Some r =>
  if (4096 <? N.of_nat (length (r ++ bs "/" ++ filename k)))%N then None else Some (r ++ bs "/" ++ filename k) end end.
Proof.
  unfold log_path, PATH_MAX. destruct (u_path u) as [d|]; [|reflexivity]. destruct (w_real w d) as [r|]; [|reflexivity].
  rewrite !app_length. change (length (bs "/")) with 1.
  destruct (4096 <? N.of_nat (length r))%N eqn:E1; destruct (4096 <? N.of_nat (length r) + 1)%N eqn:E2;
  destruct (4096 <? N.of_nat (length r) + 1 + N.of_nat (length (filename k)))%N eqn:E3;
  destruct (4096 <? N.of_nat (length r + (1 + length (filename k))))%N eqn:E4; try reflexivity; lia.
Qed.

(** ** One file. *)
Definition file_of (w : world) (u : setup) (k : kind) : outcome lfile := logfile_init w (log_path w u k) (u_stdout u) (u_stderr u).
Lemma file_of_ok w u k l : file_of w u k = Ok l ->
  l_out l = u_stdout u /\ l_err l = u_stderr u /\ (forall fd, l_file l = Some fd <-> opened w u k fd).
Proof.
  unfold file_of. rewrite log_path_spec. unfold opened, logfile_init, PATH_MAX.
  destruct (u_path u) as [d|] eqn:EP.
  2: { intros [= <-]. cbn [l_out l_err l_file]. repeat split; [discriminate|]. intros (p & t & A & _). apply log_at_form in A as (d & r & A & _). congruence. }
  destruct (w_real w d) as [r|] eqn:ER.
  2: { intros [= <-]. cbn [l_out l_err l_file]. repeat split; [discriminate|]. intros (p & t & A & _). apply log_at_form in A as (d' & r & A & B & _). congruence. }
  assert (P : log_at w u k (r ++ bs "/" ++ filename k)) by (apply log_at_form; exists d, r; auto).
  set (p := r ++ bs "/" ++ filename k) in *. clearbody p.
  destruct (4096 <? N.of_nat (length p))%N eqn:L1.
  { intros [= <-]. cbn [l_out l_err l_file]. repeat split; [discriminate|]. intros (q & t & A & B & _). rewrite (log_at_fun w u k q p A P) in B. lia. }
  destruct (4096 <=? N.of_nat (length p))%N eqn:L2; [discriminate|].
  destruct (w_open w p) as [[fd tty]|] eqn:O; intros [= <-]; cbn [l_out l_err l_file]; split; [reflexivity| |reflexivity|]; (split; [reflexivity|]).
  - intro f. split.
    + intros [= <-]. exists p, tty. split; [exact P|]. split; [lia|exact O].
    + intros (q & t & A & B & C). rewrite (log_at_fun w u k q p A P), O in C. congruence.
  - intro f. split; [discriminate|]. intros (q & t & A & B & C). rewrite (log_at_fun w u k q p A P), O in C. discriminate C.
Qed.
Lemma file_of_ub w u k e : file_of w u k = UB e <-> e = OutOfBounds /\ exists p, log_at w u k p /\ N.of_nat (length p) = 4096%N.
Proof.
  unfold file_of. rewrite log_path_spec. unfold logfile_init, PATH_MAX. split.
  - destruct (u_path u) as [d|] eqn:EP; [|discriminate]. destruct (w_real w d) as [r|] eqn:ER; [|discriminate].
    assert (P : log_at w u k (r ++ bs "/" ++ filename k)) by (apply log_at_form; exists d, r; auto).
    set (p := r ++ bs "/" ++ filename k) in *. clearbody p.
    destruct (4096 <? N.of_nat (length p))%N eqn:L1; [discriminate|]. destruct (4096 <=? N.of_nat (length p))%N eqn:L2; [|destruct (w_open w p) as [[? ?]|]; discriminate].
    intros [= <-]. split; [reflexivity|]. exists p. split; [exact P|lia].
  - intros [-> (p & P & L)]. apply log_at_form in P as (d & r & -> & -> & ->). set (p := r ++ bs "/" ++ filename k) in *.
    destruct (4096 <? N.of_nat (length p))%N eqn:L1; [lia|]. destruct (4096 <=? N.of_nat (length p))%N eqn:L2; [reflexivity|lia].
Qed.

Lemma log_init_ok w u g : log_init w u = Ok g -> forall k, file_of w u k = Ok (from_type g k).
Proof.
  unfold log_init. change (logfile_init w (log_path w u Access) (u_stdout u) (u_stderr u)) with (file_of w u Access).
  change (logfile_init w (log_path w u Error) (u_stdout u) (u_stderr u)) with (file_of w u Error).
  change (logfile_init w (log_path w u Notice) (u_stdout u) (u_stderr u)) with (file_of w u Notice).
  destruct (file_of w u Access) eqn:A; [|discriminate]. destruct (file_of w u Error) eqn:B; [|discriminate].
  destruct (file_of w u Notice) eqn:C; [|discriminate]. cbn [obind]. intros [= <-] [| |]; cbn [from_type g_access g_error g_notice]; assumption.
Qed.

(** The length of the log directory's name. *)
Lemma log_init_ub_iff w u : (exists e, log_init w u = UB e) <->
  exists d r, u_path u = Some d /\ w_real w d = Some r /\ (N.of_nat (length r) = 4081 \/ N.of_nat (length r) = 4082)%N.
Proof.
  assert (K : forall k, (exists p, log_at w u k p /\ N.of_nat (length p) = 4096%N) <->
    exists d r, u_path u = Some d /\ w_real w d = Some r /\ (N.of_nat (length r) + 1 + N.of_nat (length (filename k)) = 4096)%N).
  { intro k. split.
    - intros (p & P & L). apply log_at_form in P as (d & r & A & B & ->). exists d, r. split; [exact A|]. split; [exact B|].
      rewrite !app_length in L. change (length (bs "/")) with 1 in L. lia.
    - intros (d & r & A & B & L). exists (r ++ bs "/" ++ filename k). split; [apply log_at_form; exists d, r; auto|].
      rewrite !app_length. change (length (bs "/")) with 1. lia. }
  assert (LA : length (filename Access) = 14) by reflexivity. assert (LE : length (filename Error) = 13) by reflexivity.
  assert (LN : length (filename Notice) = 14) by reflexivity.
  unfold log_init. change (logfile_init w (log_path w u Access) (u_stdout u) (u_stderr u)) with (file_of w u Access).
  change (logfile_init w (log_path w u Error) (u_stdout u) (u_stderr u)) with (file_of w u Error).
  change (logfile_init w (log_path w u Notice) (u_stdout u) (u_stderr u)) with (file_of w u Notice).
  split.
  - intros [e E].
    assert (exists k, file_of w u k = UB e) as [k F].
    { destruct (file_of w u Access) eqn:A; cbn [obind] in E; [|exists Access; congruence].
      destruct (file_of w u Error) eqn:B; cbn [obind] in E; [|exists Error; congruence].
      destruct (file_of w u Notice) eqn:C; cbn [obind] in E; [discriminate E|exists Notice; congruence]. }
    apply file_of_ub in F as [_ F]. apply K in F as (d & r & A & B & L). exists d, r. split; [exact A|]. split; [exact B|].
    destruct k; lia.
  - intros (d & r & A & B & [L|L]).
    + assert (F : file_of w u Access = UB OutOfBounds).
      { apply file_of_ub. split; [reflexivity|]. apply K. exists d, r. split; [exact A|]. split; [exact B|]. lia. }
      rewrite F. exists OutOfBounds. reflexivity.
    + assert (F : file_of w u Error = UB OutOfBounds).
      { apply file_of_ub. split; [reflexivity|]. apply K. exists d, r. split; [exact A|]. split; [exact B|]. lia. }
      destruct (file_of w u Access) as [a|e]; cbn [obind]; [|eexists; reflexivity]. rewrite F. exists OutOfBounds. reflexivity.
Qed.

(** ** Where a record goes. *)
Lemma emit_file w u g k head body fd : log_init w u = Ok g ->
  written (File fd) (emit g k head body) = (if match l_file (from_type g k) with Some f => f =? fd | None => false end then [head ++ body] else []) .
Proof.
  intros _. unfold emit, written. rewrite !filter_app. 
  destruct (l_out (from_type g k)), (l_err (from_type g k)); cbn [filter fst dest_eqb app];
  (destruct (l_file (from_type g k)) as [f|]; cbn [filter fst dest_eqb map snd]; [|reflexivity];
   rewrite (Nat.eqb_sym f fd); destruct (fd =? f); reflexivity).
Qed.
Lemma emit_file_opened w u g k head body fd : log_init w u = Ok g -> opened w u k fd -> written (File fd) (emit g k head body) = [head ++ body].
Proof.
  intros I O. rewrite (emit_file w u g k head body fd I). apply (file_of_ok w u k _ (log_init_ok w u g I k)) in O. rewrite O, Nat.eqb_refl. reflexivity.
Qed.
Lemma emit_file_not w u g k head body fd : log_init w u = Ok g -> ~ opened w u k fd -> written (File fd) (emit g k head body) = [].
Proof.
  intros I O. rewrite (emit_file w u g k head body fd I). destruct (l_file (from_type g k)) as [f|] eqn:E; [|reflexivity].
  destruct (Nat.eqb_spec f fd) as [->|N]; [|reflexivity]. apply (file_of_ok w u k _ (log_init_ok w u g I k)) in E. contradiction.
Qed.
Lemma emit_stdout w u g k head body : log_init w u = Ok g ->
  written Stdout (emit g k head body) = repeat (before_nul body) (times (u_stdout u) + times (u_stderr u)).
Proof.
  intro I. destruct (file_of_ok w u k _ (log_init_ok w u g I k)) as (A & B & _). unfold emit, written. rewrite A, B.
  destruct (u_stdout u), (u_stderr u), (l_file (from_type g k)); reflexivity.
Qed.
Lemma emit_stderr g k head body : written Stderr (emit g k head body) = [].
Proof. unfold emit, written. destruct (l_out (from_type g k)), (l_err (from_type g k)), (l_file (from_type g k)); reflexivity. Qed.

Lemma log_init_ub_kind w u e : log_init w u = UB e -> e = OutOfBounds.
Proof.
  intro E. assert (K : forall o1 o2 o3 : outcome lfile, (forall x, o1 = UB x -> x = OutOfBounds) -> (forall x, o2 = UB x -> x = OutOfBounds) -> (forall x, o3 = UB x -> x = OutOfBounds) ->
    obind o1 (fun a => obind o2 (fun b => obind o3 (fun c => Ok (mkLogs a b c)))) = UB e -> e = OutOfBounds).
  { intros [?|?] [?|?] [?|?] A B C D; cbn [obind] in D; try discriminate D; injection D as <-; auto. }
  refine (K _ _ _ _ _ _ E); intros x H; apply file_of_ub in H; exact (proj1 H).
Qed.
Lemma log_init_long r : N.of_nat (length r) = 4081%N -> exists w u, u_path u = Some (bs "log") /\ w_real w (bs "log") = Some r /\ log_init w u = UB OutOfBounds.
Proof.
  intro L. set (w := mkWorld (fun _ => Some r) (fun _ => None)). set (u := mkSetup (Some (bs "log")) false false). exists w, u.
  split; [reflexivity|]. split; [reflexivity|].
  destruct (proj2 (log_init_ub_iff w u)) as [e E].
  { exists (bs "log"), r. split; [reflexivity|]. split; [reflexivity|]. left. exact L. }
  rewrite E. f_equal. exact (log_init_ub_kind w u e E).
Qed.
Lemma some_long : exists r, N.of_nat (@length N r) = 4081%N.
Proof. exists (repeat 97%N (N.to_nat 4081)). rewrite repeat_length. apply N2Nat.id. Qed.
