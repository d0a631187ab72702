(** Properties of the beginning of HTTP/2 connections and of their end after an error. *)
From Verif Require Import Base Buffer BufferProofs H2Start H2StartProofs.
From Verif Require H2Conn H2GoawayProofs.
From Coq Require Import Lia.

(** * C127: the connection preface is recognised *)
(** What is promised: a client that begins with the preface is never refused, however what it sends is cut. *)
Definition accepts_prefaces (max per : nat) : Prop :=
  forall junk rest es s, run (start junk max per (preface ++ rest)) es = Ok s -> s_place s <> Refused.

(** In one piece it is: what follows it is left for the frames, byte for byte. *)
Theorem h2_preface_whole_partial :
  forall junk max per rest k j es, 1 <= max -> 25 <= per -> 24 <= k -> Nat.min k (24 + length rest) < per \/ 2 <= max ->
  exists s, run (start junk max per (preface ++ rest)) (Recv k j :: es) = Ok s /\ s_place s = Accepted /\ stream (s_buf s) ++ s_src s = rest.
Proof. exact whole. Qed.
Print Assumptions h2_preface_whole_partial.

(** Cut anywhere it is refused as soon as its first piece is there, unless the byte of memory behind that piece happens to be the byte
    that would come next: it is compared before it was received. *)
Theorem h2_preface_cut_refused :
  forall junk max per src k j es, 1 <= max -> 25 <= per -> 0 < k < 24 -> k <= length src -> nth_error (fresh per junk) k <> nth_error preface k ->
  exists s, run (start junk max per src) (Recv k j :: es) = Ok s /\ s_place s = Refused.
Proof. exact cut. Qed.
Print Assumptions h2_preface_cut_refused.

(** Nothing else is accepted, whatever arrives in whatever pieces and whatever was in memory; what follows the preface is not lost. *)
Theorem h2_preface_sound :
  forall junk max per src es s, 1 <= max -> 25 <= per -> run (start junk max per src) es = Ok s -> s_place s = Accepted ->
  src = preface ++ stream (s_buf s) ++ s_src s.
Proof. exact sound. Qed.
Print Assumptions h2_preface_sound.
(** The handler waits only for the rest of a preface; other beginnings are refused at once. *)
Theorem h2_preface_waits :
  forall junk max per src es s, 1 <= max -> 25 <= per -> run (start junk max per src) es = Ok s -> s_place s = Waiting ->
  exists r rest, src = r ++ s_src s /\ preface = r ++ rest /\ rest <> [].
Proof. exact waits. Qed.
Print Assumptions h2_preface_waits.
Theorem h2_preface_wrong_refused :
  forall junk max per src k j es i, 1 <= max -> 25 <= per -> i < 24 -> i < k -> i < length src -> nth_error src i <> nth_error preface i ->
  Nat.min k (length src) < per \/ 2 <= max ->
  exists s, run (start junk max per src) (Recv k j :: es) = Ok s /\ s_place s = Refused.
Proof. exact wrong. Qed.
Print Assumptions h2_preface_wrong_refused.
(** With blocks of more than 24 bytes no history goes wrong or goes on for ever. *)
Theorem h2_preface_safe :
  forall junk max per src es, 1 <= max -> 25 <= per -> exists s, run (start junk max per src) es = Ok s.
Proof. intros junk max per src es X P. destruct (run_start junk max per src es X P) as (s & R & _). exists s. exact R. Qed.
Print Assumptions h2_preface_safe.
(** With shorter blocks (2 to 23 bytes) one wrong byte ends the worker: it follows a null pointer. *)
Theorem h2_preface_short_blocks_crash :
  forall junk max per x rest j, 2 <= per < 24 -> x <> 80%N -> 1 <= max -> step (start junk max per (x :: rest)) (Recv 1 j) = UB NullDeref.
Proof. exact (fun junk max per x rest j P N X => short_blocks junk max per x rest j 1 P N X eq_refl). Qed.
Print Assumptions h2_preface_short_blocks_crash.
Example h2_preface_short_blocks_ex : step (start [] 4 16 (bs "GET / HTTP/1.1")) (Recv 1 []) = UB NullDeref.
Proof. apply h2_preface_short_blocks_crash; [lia|discriminate|lia]. Qed.

Example h2_preface_ex : exists s, run (start [] 4 64 (preface ++ [0; 0; 0; 4; 0; 0; 0; 0; 0]%N)) [Recv 100 []] = Ok s /\ s_place s = Accepted /\
  stream (s_buf s) = [0; 0; 0; 4; 0; 0; 0; 0; 0]%N.
Proof. eexists. split; [vm_compute; reflexivity|]. split; reflexivity. Qed.
(** The next byte of the preface is "H" (72): a connection whose fresh memory contains it waits, one whose memory is cleared is refused. *)
Example h2_preface_memory_ex :
  (exists s, run (start (bs "PRI * H") 4 64 preface) [Recv 6 []] = Ok s /\ s_place s = Waiting) /\
  (exists s, run (start [] 4 64 preface) [Recv 6 []; Recv 18 []] = Ok s /\ s_place s = Refused).
Proof. split; eexists; (split; [vm_compute; reflexivity|reflexivity]). Qed.
Example h2_preface_wrong_ex : exists s, run (start [] 4 64 (bs "GET / HTTP/1.1")) [Recv 14 []] = Ok s /\ s_place s = Refused.
Proof. eexists. split; [vm_compute; reflexivity|reflexivity]. Qed.
Example h2_preface_crash_ex : step (start [] 4 16 (bs "GET")) (Recv 1 []) = UB NullDeref.
Proof. vm_compute. reflexivity. Qed.
Theorem h2_preface_refuted : exists max per, 1 <= max /\ 25 <= per /\ ~ accepts_prefaces max per.
Proof.
  exists 4, 64. split; [lia|]. split; [lia|]. intros A.
  destruct (cut [] 4 64 (preface ++ []) 6 [] [] ltac:(lia) ltac:(lia) ltac:(lia)) as (s & R & P); [cbn; lia|vm_compute; discriminate|]. exact (A _ _ _ _ R P).
Qed.
Print Assumptions h2_preface_refuted.

(** * C128: a client is told why its connection ends *)
(** What is promised: a connection with a connection error that is ended has sent a GOAWAY frame. *)
Definition tells_why : Prop :=
  forall limit maxlen es s, H2Conn.run (H2Conn.conn_init limit maxlen) es = Ok s -> H2Conn.c_goaway s = true -> H2Conn.c_status s = H2Conn.Disconnected ->
  exists code, In (H2Conn.WFrame (H2Conn.mkQ 0 (H2Conn.KGoaway code))) (H2Conn.c_wire s).
(** It never has: whatever the client does, no GOAWAY frame is ever sent except in an emergency (an internal error, H2Conn.Failed). *)
Theorem h2_goaway_never_sent :
  forall limit maxlen es s sid code, H2Conn.run (H2Conn.conn_init limit maxlen) es = Ok s -> H2Conn.c_status s <> H2Conn.Failed ->
  ~ In (H2Conn.WFrame (H2Conn.mkQ sid (H2Conn.KGoaway code))) (H2Conn.c_wire s).
Proof. intros limit maxlen es s sid code R F I. pose proof (H2GoawayProofs.never_goaway limit maxlen es s _ R F I) as N. discriminate N. Qed.
Print Assumptions h2_goaway_never_sent.
(** In an emergency it is sent. *)
Theorem h2_emergency_tells_partial :
  forall limit maxlen es s, H2Conn.run (H2Conn.conn_init limit maxlen) es = Ok s -> H2Conn.c_status s = H2Conn.Failed ->
  In (H2Conn.WFrame (H2Conn.mkQ 0 (H2Conn.KGoaway H2Conn.INTERNAL_ERROR))) (H2Conn.c_wire s).
Proof. exact H2GoawayProofs.failed_goaway. Qed.
Print Assumptions h2_emergency_tells_partial.
(** A connection refused for its preface is closed at the next event with nothing sent. *)
Theorem h2_refused_preface_silent :
  forall limit maxlen e, exists s, H2Conn.step (H2Conn.conn_error H2Conn.PROTOCOL_ERROR (H2Conn.conn_init limit maxlen)) e = Ok s /\
    H2Conn.c_status s = H2Conn.Disconnected /\ H2Conn.c_wire s = [].
Proof. intros limit maxlen e. destruct e; eexists; (split; [vm_compute; reflexivity|split; reflexivity]). Qed.
Print Assumptions h2_refused_preface_silent.
(** A first frame that is no SETTINGS frame. *)
Theorem h2_tells_why_refuted : exists es s, H2Conn.run (H2Conn.conn_init None 1000) es = Ok s /\ H2Conn.c_goaway s = true /\
  H2Conn.c_status s = H2Conn.Disconnected /\ H2Conn.c_wire s = [] /\ ~ tells_why.
Proof.
  set (o := H2Conn.mkOracle true H2Conn.SProto 0 None). set (es := [H2Conn.ERecv (H2Conn.mkFrame 6 0 0 8 0) o; H2Conn.EWrite 100 o]).
  assert (R : exists s, H2Conn.run (H2Conn.conn_init None 1000) es = Ok s /\ H2Conn.c_goaway s = true /\ H2Conn.c_status s = H2Conn.Disconnected /\ H2Conn.c_wire s = [])
    by (eexists; split; [vm_compute; reflexivity|repeat split; reflexivity]).
  destruct R as (s & R & G & D & W). exists es, s. split; [exact R|]. split; [exact G|]. split; [exact D|]. split; [exact W|].
  intros T. destruct (T None 1000%N es s R G D) as (code & I). rewrite W in I. exact I.
Qed.
Print Assumptions h2_tells_why_refuted.
