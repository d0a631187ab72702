(** Writing log records to a file shared by the master and the workers (src/log.c). *)
From Verif Require Import Base.
From Coq Require Import NArith List Bool.
Import ListNotations.
Local Open Scope nat_scope.

(** The log file: its bytes and the file offset.  The file is opened once, before the workers are
    forked (context.c:31, log.c:177-205), so that all processes share one offset. *)
Record lfile := mkFile { lf_bytes : list N; lf_pos : nat }.
(** write(2) at the offset. *)
Definition file_write (f : lfile) (data : list N) : lfile :=
  mkFile (firstn (lf_pos f) (lf_bytes f) ++ data ++ skipn (lf_pos f + length data) (lf_bytes f)) (lf_pos f + length data).

(** A record: the place holder (time and process id, log.c:322-329) and the content. *)
Record rec := mkRec { r_head : list N; r_body : list N }.

(** Where a process is between two system calls on a log file that is not a terminal.  [rest] are the
    texts still to be written after the current one. *)
Inductive pc :=
| PIdle                                                          (* not writing a record *)
| PLock (r : rec)                                                (* in fcntl(F_SETLKW), log.c:430, 344; [wait] is always true, log.c:577 *)
| PStart (c : list N) (rest : list (list N))                     (* __fly_write entered, before lseek(SEEK_END), log.c:386 *)
| PCur (c : list N) (total : nat) (rest : list (list N))         (* before lseek(SEEK_CUR), log.c:394 *)
| PWrite (c : list N) (total now_pos : nat) (rest : list (list N)) (* before write, log.c:397 *)
| PBack (c : list N) (total now_pos : nat) (rest : list (list N))  (* interrupted, before lseek(SEEK_SET), log.c:400 *)
| PUnlock (ok : bool)                                            (* before the unlocking fcntl, log.c:454, 460 *)
| PDead (lost : list rec).                                       (* terminated; [lost]: the record it had not begun to write *)

(** The processes, the owner of the lock and the file.  Every lock request covers the bytes from some
    offset to infinity (log.c:338-342), so any two conflict and the lock is one mutex. *)
Record sys := mkSys { s_proc : nat -> pc; s_lock : option nat; s_file : lfile }.
Definition set_pc (s : sys) (p : nat) (c : pc) : sys :=
  mkSys (fun q => if q =? p then c else s_proc s q) (s_lock s) (s_file s).
Definition set_lock (s : sys) (l : option nat) : sys := mkSys (s_proc s) l (s_file s).
Definition set_file (s : sys) (f : lfile) : sys := mkSys (s_proc s) (s_lock s) f.

(** What can happen to process p. *)
Inductive ev :=
| ELog (p : nat) (r : rec)            (* __fly_log_write is called with a record *)
| ELock (p : nat)                     (* the lock is granted *)
| ELockErr (p : nat)                  (* fcntl fails: FLY_LOG_WRITE_ERROR without unlocking, then an emergency exit *)
| ESeek (p : nat)                     (* the lseek the process is at succeeds *)
| ESeekErr (p : nat)                  (* it fails *)
| EWrite (p : nat) (short : option nat) (* write returns: None, all bytes asked for; Some n, only n of them *)
| EIntr (p : nat)                     (* write fails with EINTR *)
| EWriteErr (p : nat)                 (* write fails otherwise *)
| EUnlock (p : nat)                   (* the lock is released (a failing unlock: EKill) *)
| EKill (p : nat).                    (* the process is killed; the kernel releases its lock *)

(** After a text has been written: the next one (log.c:443-448), or the unlocking. *)
Definition next_text (rest : list (list N)) : pc :=
  match rest with [] => PUnlock true | c :: t => PStart c t end.
(** One step, None when the event is not possible in the state.  __fly_log_write, log.c:417-464;
    __fly_write, log.c:381-415; __fly_log_lock, log.c:331-357; __fly_log_unlock, log.c:359-379; after an error
    fly_log_event_handler and the direct writers terminate the process (log.c:654-661, 713-720). *)
Definition step (s : sys) (e : ev) : option sys :=
  match e with
  | ELog p r => match s_proc s p with PIdle => Some (set_pc s p (PLock r)) | _ => None end
  | ELock p =>
    match s_proc s p, s_lock s with
    | PLock r, None => Some (set_lock (set_pc s p (PStart (r_head r) [r_body r])) (Some p))
    | _, _ => None
    end
  | ELockErr p => match s_proc s p with PLock r => Some (set_pc s p (PDead [r])) | _ => None end
  | ESeek p =>
    match s_proc s p with
    | PStart c rest => Some (set_file (set_pc s p (PCur c 0 rest)) (mkFile (lf_bytes (s_file s)) (length (lf_bytes (s_file s)))))
    | PCur c total rest => Some (set_pc s p (PWrite c total (lf_pos (s_file s)) rest))
    | PBack c total now rest => Some (set_file (set_pc s p (PCur c total rest)) (mkFile (lf_bytes (s_file s)) now))
    | _ => None
    end
  | ESeekErr p =>
    match s_proc s p with
    | PStart _ _ | PCur _ _ _ | PBack _ _ _ _ => Some (set_pc s p (PUnlock false))
    | _ => None
    end
  | EWrite p short =>
    match s_proc s p with
    | PWrite c total _ rest =>
      (* write_length = length - total, log.c:393; the data begins at [content], log.c:397 *)
      let asked := firstn (length c - total) c in
      match short with
      | None =>
        let total := total + length asked in
        Some (set_file (set_pc s p (if total =? length c then next_text rest else PCur c total rest)) (file_write (s_file s) asked))
      | Some n =>
        if n <? length asked
        then Some (set_file (set_pc s p (PCur c (total + n) rest)) (file_write (s_file s) (firstn n asked)))
        else None
      end
    | _ => None
    end
  | EIntr p => match s_proc s p with PWrite c total now rest => Some (set_pc s p (PBack c total now rest)) | _ => None end
  | EWriteErr p => match s_proc s p with PWrite _ _ _ _ => Some (set_pc s p (PUnlock false)) | _ => None end
  | EUnlock p =>
    match s_proc s p with
    | PUnlock ok => Some (set_lock (set_pc s p (if ok then PIdle else PDead [])) None)
    | _ => None
    end
  | EKill p =>
    let s' := set_pc s p (PDead (match s_proc s p with PLock r => [r] | PDead l => l | _ => [] end)) in
    Some (match s_lock s with Some q => if q =? p then set_lock s' None else s' | None => s' end)
  end.
Fixpoint run (s : sys) (es : list ev) : option sys :=
  match es with
  | [] => Some s
  | e :: t => match step s e with Some s' => run s' t | None => None end
  end.
(** All processes idle, a file with some content. *)
Definition init (bytes : list N) (pos : nat) : sys := mkSys (fun _ => PIdle) None (mkFile bytes pos).
