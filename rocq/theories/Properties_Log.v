(** Property C74: log records are complete and not interleaved. *)
From Verif Require Import Base Log LogProofs.
Local Open Scope nat_scope.

(** Whatever the interleaving of any number of processes, however writes are cut, interrupted or fail
    and whoever is killed: the file is its old content followed by one contiguous entry per record, in
    which pieces of the place holder are followed by pieces of the content; each process's records
    appear in the order they were logged, each exactly once, none other; an entry whose writing came
    to its end has exactly the length of its record. *)
Theorem log_not_interleaved c0 pos es s : run (init c0 pos) es = Some s ->
  exists j, lf_bytes (s_file s) = c0 ++ concat (map out j) /\ Forall entry_ok j /\ forall p, logs p es = wrote p j ++ pending (s_proc s p).
Proof. exact (not_interleaved c0 pos es s). Qed.
Print Assumptions log_not_interleaved.
(** Missing from the full statement: writes that take fewer bytes than asked for.  If every write takes all bytes and nothing fails,
    then once the processes are idle the file holds every record exactly once, complete and
    contiguous, in the order of each process. *)
Theorem log_complete_partial c0 pos es s : clean es = true -> run (init c0 pos) es = Some s -> (forall p, s_proc s p = PIdle) ->
  exists l, lf_bytes (s_file s) = c0 ++ concat (map (fun x => text (snd x)) l) /\ forall p, recs_by p l = logs p es.
Proof. exact (quiet_complete c0 pos es s). Qed.
Print Assumptions log_complete_partial.
(** ... and at every moment all records but the one being written are complete, that one being at the
    end of the file. *)
Theorem log_prefix_partial c0 pos es s : clean es = true -> run (init c0 pos) es = Some s ->
  exists l cur, lf_bytes (s_file s) = c0 ++ concat (map (fun x => text (snd x)) l) ++ cur /\
    match s_lock s with
    | None => cur = [] /\ forall p, logs p es = recs_by p l ++ pending (s_proc s p)
    | Some o => exists r, prefix_of (text r) cur /\ forall p, logs p es = recs_by p (l ++ [(o, r)]) ++ pending (s_proc s p)
    end.
Proof. exact (always_complete c0 pos es s). Qed.
Print Assumptions log_prefix_partial.
(** Two processes log at the same time; the second waits for the lock, the first is interrupted once. *)
Definition two_writers : list ev :=
  [ELog 0 (mkRec (bs "12:00 (7): ") (bs "GET /")); ELog 1 (mkRec (bs "12:00 (8): ") (bs "POST /")); ELock 0; ESeek 0; ESeek 0; EIntr 0; ESeek 0; ESeek 0;
   EWrite 0 None; ESeek 0; ESeek 0; EWrite 0 None; EUnlock 0; ELock 1; ESeek 1; ESeek 1; EWrite 1 None; ESeek 1; ESeek 1; EWrite 1 None; EUnlock 1].
Definition final (c0 : list N) (es : list ev) : sys := match run (init c0 0) es with Some s => s | None => init [] 0 end.
Example log_complete_nonvacuous : clean two_writers = true /\
  exists s, run (init (bs "old") 0) two_writers = Some s /\ lf_bytes (s_file s) = bs "old12:00 (7): GET /12:00 (8): POST /" /\ forall p, s_proc s p = PIdle.
Proof.
  split; [reflexivity|]. exists (final (bs "old") two_writers). split; [vm_compute; reflexivity|]. split; [vm_compute; reflexivity|].
  intros [|[|p]]; vm_compute; reflexivity.
Qed.
(** A write that takes three bytes: the next one starts again at the first byte of the text. *)
Definition short_write : list ev :=
  [ELog 0 (mkRec (bs "t: ") (bs "abcdef")); ELock 0; ESeek 0; ESeek 0; EWrite 0 None; ESeek 0; ESeek 0; EWrite 0 (Some 3); ESeek 0; EWrite 0 None; EUnlock 0].
Theorem log_complete_refuted : exists c0 pos es s,
  run (init c0 pos) es = Some s /\ (forall p, s_proc s p = PIdle) /\ logs 0 es = [mkRec (bs "t: ") (bs "abcdef")] /\
  lf_bytes (s_file s) = c0 ++ bs "t: abcabc".
Proof.
  exists [], 0, short_write, (final [] short_write). split; [vm_compute; reflexivity|]. split; [intros [|p]; vm_compute; reflexivity|split; vm_compute; reflexivity].
Qed.
Print Assumptions log_complete_refuted.
