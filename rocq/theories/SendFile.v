(** Sending a file on systems without sendfile(2) (src/util.c:106-141, the branch without HAVE_SYS_SENDFILE_H). *)
From Coq Require Import NArith List Bool Arith.
Import ListNotations.
Local Open Scope nat_scope.

(** FLY_SENDFILE_BUFFER, util.c:111. *)
Definition BUFFER : nat := N.to_nat 4096.
(** What one write(2) does: it takes [n] of the bytes it is given, one at least and no more than there are; or it fails, for
    example because the socket takes nothing at the moment. *)
Inductive wres := Takes (n : nat) | Fails.
Definition taken (n left : nat) : nat := Nat.max 1 (Nat.min n left).

(** What the call has done: it returned [n] and set the offset; it returned -1, the offset as it was; it is in the loop for
    ever; it waits for another write. *)
Inductive end_ := Returns (n offset : nat) | Error (offset : nat) | Forever | Waits.

(** The inner loop, util.c:127-134: each write begins at the beginning of the block. *)
Inductive bend := BDone (ws : list wres) | BError | BWaits.
Fixpoint write_block (buf : list N) (left : nat) (ws : list wres) : list N * bend :=
  match left with
  | 0 => ([], BDone ws)
  | S _ =>
    match ws with
    | [] => ([], BWaits)
    | Fails :: _ => ([], BError)
    | Takes n :: t =>
      let m := taken n left in
      let '(w, e) := write_block buf (left - m) t in (firstn m buf ++ w, e)
    end
  end.

(** What the reads return, util.c:123: blocks of the buffer's size, then what is left, then nothing.  The file does not
    change. *)
Fixpoint blocks (fuel size : nat) (d : list N) : list (list N) :=
  match fuel, d with
  | S f, _ :: _ => firstn size d :: blocks f size (skipn size d)
  | _, _ => []
  end.

(** The outer loop, util.c:119-136: [total] bytes were read.  At the end of the file read returns 0 and nothing changes any
    more.  [off]: *offset at the call. *)
Fixpoint send_blocks (bs : list (list N)) (total count off : nat) (ws : list wres) : list N * end_ :=
  if count <=? total then ([], Returns count (off + count))
  else
    match bs with
    | [] => ([], Forever)
    | b :: t =>
      match write_block b (length b) ws with
      | (w, BDone ws') => let '(w', e) := send_blocks t (total + length b) count off ws' in (w ++ w', e)
      | (w, BError) => (w, Error off)
      | (w, BWaits) => (w, Waits)
      end
    end.

(** fly_sendfile: [d] is the file.  lseek and read succeed; a read returns a whole block if there is one. *)
Definition sendfile (d : list N) (off count : nat) (ws : list wres) : list N * end_ :=
  let rest := skipn off d in send_blocks (blocks (length rest) BUFFER rest) 0 count off ws.
