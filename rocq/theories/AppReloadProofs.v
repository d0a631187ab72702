From Verif Require Import Base AppReload.
From Coq Require Import NArith ZArith List Bool Arith Lia.
Import ListNotations.

(** ** Specification *)
(** What is done to the file, and the events inotify(7) names for it: reading; writing or truncating; closing a descriptor
    that was open for writing; changing its times, mode, owner or number of links; moving it away; removing it or moving
    another file over it. *)
Inductive act := Read | Write | CloseWritten | Attributes | Move | Remove.
Definition events (a : act) : list N :=
  match a with
  | Read => [IN_OPEN; IN_ACCESS; IN_CLOSE_NOWRITE]
  | Write => [IN_OPEN; IN_MODIFY]
  | CloseWritten => [IN_CLOSE_WRITE]
  | Attributes => [IN_ATTRIB]
  | Move => [IN_MOVE_SELF]
  | Remove => [IN_ATTRIB; IN_DELETE_SELF; IN_IGNORED]
  end.
(** A server that was started on a file, whose descriptor is [wd]. *)
Definition server (path : option (list N)) (debug : bool) (wd : Z) : option master :=
  reload_filepath (fun p => match p with Some _ => Some wd | None => None end) (setreload path debug master_init).
(** What it does after a series of actions. *)
Definition after (m : master) (wd : Z) (l : list act) : option did := handler m (map (fun k => (wd, k)) (queued (flat_map events l))).
(** An action the server is not told of. *)
Definition silent (a : act) : Prop := a = Read \/ a = Write.

Lemma server_made path debug wd : server (Some path) debug wd = Some (mkMaster [mkWp (Some path) wd] 1 true).
Proof. reflexivity. Qed.
Lemma queued_app a b : queued (a ++ b) = queued a ++ queued b.
Proof. unfold queued. apply filter_app. Qed.
Lemma silent_queued l : Forall silent l -> queued (flat_map events l) = [].
Proof.
  induction 1 as [|a l [->| ->] F IH]; [reflexivity| |]; cbn [flat_map]; rewrite queued_app, IH; reflexivity.
Qed.
Lemma silent_dec a : silent a \/ ~ silent a.
Proof. unfold silent. destruct a; auto; right; intros [H|H]; discriminate H. Qed.
Lemma after_first path debug wd m pre a post : server (Some path) debug wd = Some m -> Forall silent pre -> ~ silent a ->
  after m wd (pre ++ a :: post) = Some (match a with CloseWritten => Aborts | _ => Reloads end).
Proof.
  intros E F NS. rewrite server_made in E. injection E as <-. unfold after. rewrite flat_map_app, queued_app, (silent_queued pre F). cbn [app flat_map]. rewrite queued_app.
  destruct a; try (exfalso; apply NS; unfold silent; auto; fail); cbn -[Z.eqb]; unfold reload, search_wp; cbn [List.find g_paths p_wd]; rewrite Z.eqb_refl; reflexivity.
Qed.
Lemma after_silent m wd l : Forall silent l -> after m wd l = None.
Proof. intros F. unfold after. rewrite (silent_queued l F). reflexivity. Qed.
Lemma first_loud l : Forall silent l \/ exists pre a post, l = pre ++ a :: post /\ Forall silent pre /\ ~ silent a.
Proof.
  induction l as [|a l IH]; [left; constructor|]. destruct (silent_dec a) as [S|NS].
  - destruct IH as [F|(pre & b & post & -> & F & NB)]; [left; constructor; assumption|]. right. exists (a :: pre), b, post. split; [reflexivity|]. split; [constructor; assumption|exact NB].
  - right. exists [], a, l. split; [reflexivity|]. split; [constructor|exact NS].
Qed.
Lemma reload_iff path debug wd m mask : server (Some path) debug wd = Some m ->
  (reload m wd mask = Reloads <-> In mask [IN_MODIFY; IN_ATTRIB; IN_DELETE_SELF; IN_MOVE_SELF]) /\
  (reload m wd mask = Aborts <-> ~ In mask [IN_MODIFY; IN_ATTRIB; IN_DELETE_SELF; IN_MOVE_SELF]) /\ (forall wd', wd' <> wd -> reload m wd' mask = Fails).
Proof.
  intros E. rewrite server_made in E. injection E as <-. unfold reload, search_wp. cbn [List.find g_paths p_wd]. rewrite Z.eqb_refl. cbn [In].
  split; [|split].
  - destruct (N.eqb_spec mask IN_ATTRIB), (N.eqb_spec mask IN_MODIFY), (N.eqb_spec mask IN_MOVE_SELF), (N.eqb_spec mask IN_DELETE_SELF);
      (split; [intros H; try discriminate H; auto 10|intros H; try reflexivity; exfalso; intuition congruence]).
  - destruct (N.eqb_spec mask IN_ATTRIB), (N.eqb_spec mask IN_MODIFY), (N.eqb_spec mask IN_MOVE_SELF), (N.eqb_spec mask IN_DELETE_SELF);
      (split; [intros H; try discriminate H; intuition congruence|intros H; try reflexivity; exfalso; apply H; auto 10]).
  - intros wd' NE. destruct (Z.eqb_spec wd wd') as [->|_]; [contradiction|reflexivity].
Qed.
Lemma release_freed path debug wd m x mem : server (Some path) debug wd = Some m -> release [x] m mem = UB UseAfterFree.
Proof. intros E. rewrite server_made in E. injection E as <-. unfold release. cbn [g_count Nat.ltb Nat.leb free_paths]. rewrite Nat.eqb_refl. reflexivity. Qed.

(** ** Python *)
(** The file as the developer leaves it, and when: a module that can be executed, has a Fly object, and is there. *)
Definition sound (e : ev) : Prop :=
  match e with
  | Reloaded (LFly s) (Some _) => s <> BadConf
  | Poll (Some _) (LFly s) => s <> BadConf
  | _ => False
  end.
Lemma step_alive p e : p <> Over -> sound e -> step false p e <> Over.
Proof.
  intros P S. destruct e as [[| |s] [t|]|[t|] [| |s]]; try (exfalso; exact S); cbn [sound] in S; destruct p as [|t0|]; cbn [step load]; try discriminate; try exact P.
  - destruct s; cbn; try (intro Q; discriminate Q). exfalso. apply S. reflexivity.
  - destruct (Z.eqb t t0); [discriminate|]. destruct s; cbn; try (intro Q; discriminate Q). exfalso. apply S. reflexivity.
Qed.
Lemma run_alive es : forall p, p <> Over -> Forall sound es -> run false p es <> Over.
Proof.
  induction es as [|e es IH]; intros p P F; [exact P|]. inversion F as [|? ? S F']; subst. apply IH; [apply step_alive; assumption|exact F'].
Qed.
Lemma run_over d es : run d Over es = Over.
Proof. induction es as [|e es IH]; [reflexivity|]. exact IH. Qed.
