(** Property theorems: sending a file without sendfile(2).  See DESIGN.md. *)
From Verif Require Import SendFile SendFileProofs.
From Coq Require Import NArith List Arith.
Import ListNotations.
Local Open Scope nat_scope.

(** C143: when every write takes all it is given, the bytes sent are those asked for exactly when their number is a multiple
    of 4096 or they are the end of the file. *)
Theorem file_sent_exact_iff d off count ws : all_taken d ws -> off + count <= length d ->
  (fst (sendfile d off count ws) = part_of d off count <-> (Nat.modulo count (N.to_nat 4096) = 0 \/ off + count = length d)).
Proof. exact (sent_exact_iff d off count ws). Qed.
Print Assumptions file_sent_exact_iff.
Example file_sent_exact_ex : all_taken [1; 2; 3]%N (repeat (Takes (N.to_nat 4096)) 3) /\
  sendfile [1; 2; 3]%N 1 2 (repeat (Takes (N.to_nat 4096)) 3) = ([2; 3]%N, Returns 2 3).
Proof. split; [split; [intros w H; apply repeat_spec in H; exists (N.to_nat 4096); split; [exact H|apply le_n]|apply le_n]|reflexivity]. Qed.

(** C143: what is sent otherwise: the bytes up to the end of a block of 4096, although the number asked for is returned. *)
Theorem file_sent_partial d off count ws : all_taken d ws -> off + count <= length d -> exists r, round_up count r /\
  sendfile d off count ws = (part_of d off r, Returns count (off + count)).
Proof. exact (sent_rounded d off count ws). Qed.
Print Assumptions file_sent_partial.

(** C143: more bytes than the file has: the call never returns. *)
Theorem file_short_forever d off count ws : all_taken d ws -> length d < off + count -> 0 < count -> sendfile d off count ws = (skipn off d, Forever).
Proof. exact (too_many d off count ws). Qed.
Print Assumptions file_short_forever.

(** C143: whatever the writes do, the offset moves by the number asked for or, after an error, not at all. *)
Theorem file_offset d off count ws : match snd (sendfile d off count ws) with Returns n o => n = count /\ o = off + count | Error o => o = off | _ => True end.
Proof. exact (ends d off count ws). Qed.
Print Assumptions file_offset.

(** C143: a byte more than asked for is sent. *)
Theorem file_sent_refuted : exists d off count ws n o, all_taken d ws /\ off + count <= length d /\
  snd (sendfile d off count ws) = Returns n o /\ length (fst (sendfile d off count ws)) > n.
Proof.
  exists [1; 2]%N, 0, 1, (repeat (Takes (N.to_nat 4096)) 2), 1, 1.
  split; [split; [intros w H; apply repeat_spec in H; exists (N.to_nat 4096); split; [exact H|apply le_n]|apply le_n]|]. split; [repeat constructor|]. split; [reflexivity|apply le_n].
Qed.
Print Assumptions file_sent_refuted.

(** C143: after a write that takes a part of a block, the block is sent from its beginning again instead of the rest. *)
Theorem file_short_write_refuted : exists d ws, snd (sendfile d 0 (length d) ws) = Returns (length d) (length d) /\
  length (fst (sendfile d 0 (length d) ws)) = length d /\ fst (sendfile d 0 (length d) ws) <> d.
Proof. exists [1; 2]%N, [Takes 1; Takes 1]. split; [reflexivity|]. split; [reflexivity|]. intro E. discriminate E. Qed.
Print Assumptions file_short_write_refuted.

(** C143: after bytes were sent, a socket that takes no more makes the call fail with the offset of the beginning: a second
    call sends the bytes again. *)
Theorem file_again_refuted : exists d ws ws', snd (sendfile d 0 (length d) ws) = Error 0 /\
  fst (sendfile d 0 (length d) ws) <> [] /\ sendfile d 0 (length d) ws' = (d, Returns (length d) (length d)).
Proof. exists [1; 2]%N, [Takes 1; Fails], [Takes 2]. split; [reflexivity|]. split; [intro E; discriminate E|reflexivity]. Qed.
Print Assumptions file_again_refuted.
