(** Errors that end a process or belong to an event, and the records about them: src/err.c and the error part of
    fly_event_handle (src/event.c). *)
From Verif Require Import Base CStr LogInit.
From Coq Require Import NArith ZArith List Bool Arith.
Import ListNotations.
Local Open Scope nat_scope.

(** enum fly_error_level, err.h:62-74, and its numbers. *)
Inductive level := EMERG | CRIT | ERR | ALERT | WARN | NOTICE | INFO | DEBUG.
Definition level_num (l : level) : N :=
  match l with EMERG => 10 | CRIT => 11 | ERR => 12 | ALERT => 13 | WARN => 14 | NOTICE => 15 | INFO => 16 | DEBUG => 17 end.
(** fly_level_str, err.c:73-96. *)
Definition level_str (l : level) : list N :=
  match l with
  | EMERG => bs "EMERGE" | CRIT => bs "CRIT" | ERR => bs "ERROR" | ALERT => bs "ALERT"
  | WARN => bs "WARN" | NOTICE => bs "NOTICE" | INFO => bs "INFO" | DEBUG => bs "DEBUG"
  end.

(** The part of fly_context_t that is read: log, log_stdout and log_stderr (context.c:31-37). *)
Record ctx := mkCtx { x_logs : logs; x_out : bool; x_err : bool }.
(** __fly_errsys, err.c:10-20; the context is set at the end of fly_context_init (context.c:46) and in a worker (worker.c:671). *)
Record errsys := mkSys { s_ctx : option ctx; s_pid : N }.
(** The outside world: whether fcntl(F_SETLKW) and write on a descriptor succeed.  Simplification: write is all or nothing. *)
Record kernel := mkKernel { k_lock : nat -> bool; k_write : nat -> bool }.

(** What goes wrong in C: an object is written past its end; snprintf reads a string in the memory that it writes; freed memory is used. *)
Inductive fault := PastEnd | Overlap | Freed.
(** The end of a call: it returns, the process exits, or the behaviour is undefined; with what has been written before. *)
Inductive result := Returns (w : list (dest * list N)) | Exits (status : N) (w : list (dest * list N)) | Faults (f : fault) (w : list (dest * list N)).

(** snprintf and vsnprintf into an array of [n] bytes. *)
Definition cut (n : nat) (text : list N) : list N := firstn (n - 1) text.
(** FLY_EMERGE_MEMORY_SIZE and FLY_EMERGENCY_LOG_LENGTH, err.h:108, 168. *)
Definition EMERGE_MEMORY : nat := N.to_nat 1000.
Definition EMERGENCY_LOG : nat := N.to_nat 200.
(** fly_err_init, err.c:45-67: FLY_ERROR_CONTENT_SIZE (err.h:77) bytes. *)
Definition err_init (text : list N) : list N := cut (N.to_nat 200) (before_nul text).

(** The two copies after a text has been written to a file, e.g. err.c:286-289. *)
Definition copies (x : ctx) (text : list N) : list (dest * list N) :=
  (if x_out x then [(Stdout, text)] else []) ++ (if x_err x then [(Stderr, text)] else []).

(** One part of the writers: fcntl, the text, write and the copies (err.c:267-294, 296-320, 356-378, 380-421, 441-473).  A
    descriptor -1 makes fcntl fail.  None: the writer returns here. *)
Definition part (k : kernel) (x : ctx) (f : lfile) (text : list N) : option (list (dest * list N)) :=
  match l_file f with
  | None => None
  | Some fd => if k_lock k fd then if k_write k fd then Some ((File fd, text) :: copies x text) else None else None
  end.

(** __fly_write_to_log_emerg, err.c:236-323.  [inside]: the content is at the beginning of fly_emerge_memory, and then errc,
    where the text is built, begins at the zero that ends it.  [date] is the time, [errtext] is strerror. *)
Definition write_emerg (s : errsys) (k : kernel) (inside : bool) (content date errtext : list N) (l : level) : result :=
  match s_ctx s with
  | None => Returns []
  | Some x =>
    match l_file (g_error (x_logs x)) with
    | None => Returns []
    | Some fd =>
      if negb (k_lock k fd) then Returns []
      else if EMERGE_MEMORY <? length content + (length content + EMERGENCY_LOG) then Faults PastEnd []
      else if inside then Faults Overlap []
      else
        let errc := cut EMERGENCY_LOG (bs "[" ++ dec (s_pid s) ++ bs "](" ++ date ++ bs "): Emergency Error. Process is killed. (" ++ content ++ bs ") (" ++ errtext ++ bs ")" ++ [10%N]) in
        match part k x (g_error (x_logs x)) errc with
        | None => Returns []
        | Some w1 =>
          let noticec := cut EMERGENCY_LOG (bs "[" ++ level_str l ++ bs "] process(" ++ dec (s_pid s) ++ bs ") was terminated by emergency error." ++ [10%N]) in
          match part k x (g_notice (x_logs x)) noticec with
          | None => Returns w1
          | Some w2 => Returns (w1 ++ w2)
          end
        end
    end
  end.

(** FLY_ERROR_PLACEHOLDER_SIZE, FLY_ERR_NOTICE_PLACEHOLDER_SIZE, FLY_NOTICE_PLACEHOLDER_SIZE: err.c:334, 385, 447. *)
Definition err_placeholder : nat := length (bs "[9999999999999] Occurred error. Worker process is gone. ").
Definition err_notice_placeholder : nat := length (bs "[NOTICE] process(99999999999) was terminated by critical error. ").
Definition notice_placeholder : nat := length (bs "[ALERT] pid: (99999999999). ").

(** __fly_write_to_log_err, err.c:325-421; malloc succeeds.  [l] is CRIT or ERR (a failed assertion otherwise, which no
    caller reaches). *)
Definition write_err (s : errsys) (k : kernel) (content : list N) (l : level) : list (dest * list N) :=
  match s_ctx s with
  | None => []
  | Some x =>
    let errc := cut (length content + err_placeholder) (bs "[" ++ dec (s_pid s) ++ bs "] Occurred error. Worker process is gone. " ++ content ++ [10%N]) in
    match part k x (g_error (x_logs x)) errc with
    | None => []
    | Some w1 =>
      let cause := match l with CRIT => bs ") was terminated by critical error." | _ => bs ") was terminated by error." end in
      let noticec := cut err_notice_placeholder (bs "[" ++ level_str l ++ bs "] process(" ++ dec (s_pid s) ++ cause ++ [10%N]) in
      match part k x (g_notice (x_logs x)) noticec with
      | None => w1
      | Some w2 => w1 ++ w2
      end
    end
  end.

(** __fly_write_to_log_info, err.c:423-473. *)
Definition write_info (s : errsys) (k : kernel) (content : list N) (l : level) : list (dest * list N) :=
  match s_ctx s with
  | None => []
  | Some x =>
    match part k x (g_notice (x_logs x)) (cut (notice_placeholder + length content) (bs "[" ++ level_str l ++ bs "] pid: (" ++ dec (s_pid s) ++ bs "). " ++ content ++ [10%N])) with
    | None => []
    | Some w => w
    end
  end.

Definition then_exit (st : N) (r : result) : result := match r with Returns w => Exits st w | _ => r end.
(** fly_emergency_verror, err.c:481-497, called by FLY_EMERGENCY_ERROR (err.h:186-190): [text] is the formatted message. *)
Definition emergency (s : errsys) (k : kernel) (text date errtext : list N) : result :=
  then_exit (level_num EMERG) (write_emerg s k true (cut EMERGE_MEMORY (before_nul text)) date errtext EMERG).
(** fly_nomem_verror, err.c:522-537, called by FLY_EXIT_ERROR (err.h:181-185). *)
Definition exit_error (s : errsys) (k : kernel) (text : list N) : result :=
  Exits (level_num ERR) (write_err s k (cut EMERGE_MEMORY (before_nul text)) ERR).
(** fly_emergency_error, err.c:499-508; fly_critical_error, 510-519; fly_error_error, 539-548. *)
Definition emergency_error (s : errsys) (k : kernel) (content date errtext : list N) : result :=
  then_exit (level_num EMERG) (write_emerg s k false content date errtext EMERG).
Definition critical_error (s : errsys) (k : kernel) (content : list N) : result := Exits (level_num CRIT) (write_err s k content CRIT).
Definition error_error (s : errsys) (k : kernel) (content : list N) : result := Exits (level_num ERR) (write_err s k content ERR).
(** fly_alert_error, fly_warn_error, fly_notice_error, fly_info_error, fly_debug_error, err.c:560-618: the level in the
    record; each of them frees the error. *)
Definition logged_level (l : level) : level := match l with INFO => NOTICE | _ => l end.

(** fly_event_handle, event.c:1025-1078: the errors that a handler has added to its event ([text]: as given to
    fly_event_err_init), in their order.  After one of the functions that free the error, the loop reads its list element
    (bllist.h:41).  jbend_handle (event.c:988-992) is not modelled. *)
Definition event_errors (s : errsys) (k : kernel) (date errtext : list N) (es : list (level * list N)) : result :=
  match es with
  | [] => Returns []
  | (l, text) :: _ =>
    let content := err_init text in
    match l with
    | EMERG => emergency_error s k content date errtext
    | CRIT => critical_error s k content
    | ERR => error_error s k content
    | _ => Faults Freed (write_info s k content (logged_level l))
    end
  end.

(** The file behind a descriptor: the bytes and the offset, which the processes of one server share (they are forked after
    open, log.c:179). *)
Record file := mkFile { f_bytes : list N; f_pos : nat }.
(** open(O_RDWR|O_CREAT), log.c:179: the bytes stay, the offset is 0. *)
Definition open_file (old : list N) : file := mkFile old 0.
(** write at the offset. *)
Definition write_at (f : file) (r : list N) : file :=
  mkFile (firstn (f_pos f) (f_bytes f) ++ r ++ skipn (f_pos f + length r) (f_bytes f)) (f_pos f + length r).
(** What is done to a log file: a record of log.c, which goes to the end of the file first (log.c:386), or one of err.c,
    which does not (err.c:283, 306, 367, 408, 460). *)
Inductive fop := LogOp (r : list N) | ErrOp (r : list N).
Definition file_op (f : file) (o : fop) : file :=
  match o with
  | LogOp r => write_at (mkFile (f_bytes f) (length (f_bytes f))) r
  | ErrOp r => write_at f r
  end.
Definition file_run (f : file) (os : list fop) : file := fold_left file_op os f.
