(** The log files: where they are, how they are opened and where a record goes (src/log.c). *)
From Verif Require Import Base.
From Coq Require Import NArith ZArith List Bool Arith.
Import ListNotations.
Local Open Scope nat_scope.

(** PATH_MAX, which is FLY_PATH_MAX (mount.h:21). *)
Definition PATH_MAX : N := 4096.
(** FLY_ACCESLOG_FILENAME, FLY_ERRORLOG_FILENAME, FLY_NOTICLOG_FILENAME, log.h:21-23; fly_log_e, log.h:47-51. *)
Inductive kind := Access | Error | Notice.
Definition filename (k : kind) : list N :=
  match k with Access => bs "fly_access.log" | Error => bs "fly_error.log" | Notice => bs "fly_notice.log" end.

(** The outside world: realpath, and open(O_RDWR|O_CREAT, 0600) with isatty of the descriptor (log.c:179, 188). *)
Record world := mkWorld { w_real : list N -> option (list N); w_open : list N -> option (nat * bool) }.
(** FLY_LOG_PATH, FLY_LOG_STDOUT, FLY_LOG_STDERR (log.c:770-783). *)
Record setup := mkSetup { u_path : option (list N); u_stdout : bool; u_stderr : bool }.

(** __fly_error_log_path, __fly_access_log_path and __fly_notice_log_path, log.c:57-168: the text put into the array of
    FLY_PATH_MAX bytes, which was filled with zeros first.  None: -1. *)
Definition log_path (w : world) (u : setup) (k : kind) : option (list N) :=
  match u_path u with
  | None => None
  | Some p =>
    match w_real w p with
    | None => None
    | Some r =>
      if (PATH_MAX <? N.of_nat (length r))%N then None
      else if (PATH_MAX <? N.of_nat (length r) + 1)%N then None
      else if (PATH_MAX <? N.of_nat (length r) + 1 + N.of_nat (length (filename k)))%N then None
      else Some (r ++ bs "/" ++ filename k)
    end
  end.

(** __fly_log_t, log.h:57-64. *)
Record lfile := mkLog { l_file : option nat; l_tty : bool; l_out : bool; l_err : bool }.
(** __fly_logfile_init, log.c:172-203.  The path is read as a string, by open and by strcpy: with FLY_PATH_MAX bytes of
    text there is no zero in the array. *)
Definition logfile_init (w : world) (path : option (list N)) (out err : bool) : outcome lfile :=
  match path with
  | None => Ok (mkLog None false out err)
  | Some p =>
    if (PATH_MAX <=? N.of_nat (length p))%N then UB OutOfBounds
    else match w_open w p with
         | None => Ok (mkLog None false out err)
         | Some (fd, tty) => Ok (mkLog (Some fd) tty out err)
         end
  end.

(** fly_log_t and fly_log_init, log.c:218-305 (without DEBUG). *)
Record logs := mkLogs { g_access : lfile; g_error : lfile; g_notice : lfile }.
Definition log_init (w : world) (u : setup) : outcome logs :=
  obind (logfile_init w (log_path w u Access) (u_stdout u) (u_stderr u)) (fun a =>
  obind (logfile_init w (log_path w u Error) (u_stdout u) (u_stderr u)) (fun e =>
  obind (logfile_init w (log_path w u Notice) (u_stdout u) (u_stderr u)) (fun n =>
  Ok (mkLogs a e n)))).
(** __fly_log_from_type, log.c:467-479. *)
Definition from_type (g : logs) (k : kind) : lfile :=
  match k with Access => g_access g | Error => g_error g | Notice => g_notice g end.

(** Where bytes are written. *)
Inductive dest := Stdout | Stderr | File (fd : nat).
(** What printf("%s") prints: the bytes before the first zero. *)
Fixpoint before_nul (l : list N) : list N :=
  match l with [] => [] | c :: t => if (c =? 0)%N then [] else c :: before_nul t end.
(** __fly_log_write_logcont, log.c:521-556, with [head] the time and process id of __fly_placeholder (log.c:322-329)
    and [body] the [contlen] bytes of the content.  Both copies go through printf.  The file part is one unit here:
    how it is written is Log.v. *)
Definition emit (g : logs) (k : kind) (head body : list N) : list (dest * list N) :=
  let l := from_type g k in
  (if l_out l then [(Stdout, before_nul body)] else []) ++
  (if l_err l then [(Stdout, before_nul body)] else []) ++   (* log.c:537-540: printf, not fprintf(stderr) *)
  match l_file l with None => [] | Some fd => [(File fd, head ++ body)] end.
