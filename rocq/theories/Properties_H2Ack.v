(** The server's own HTTP/2 settings and their acknowledgement (C123, C124). *)
From Verif Require Import Base Buffer BufferProofs CNum H2Frame H2FrameProofs H2Ack H2AckProofs.
Local Open Scope nat_scope.

Definition limits : pset := mkPset 4096 1 4294967295 65535 16384 4294967295 65535.

(** Full statement of C123: no client makes the server use memory it has freed.  It holds as long as no acknowledgement is
    received while SETTINGS frames of the server have not been sent ([timely]), until the connection is closed; missing: see below. *)
Theorem acknowledged_safe_partial : forall ss l h, timely ss l h -> exists s, run ss (start l) h = Ok s /\ on_wire (s_log s) <= received h /\
  forall p, In (WOwn p) (s_log s) -> exists junk, p = settings_payload_set (fresh (6 * length ss) junk) ss.
Proof. exact timely_safe. Qed.
(** Then each SETTINGS frame of the client has been answered by one of the server's own (RFC 7540 asks for one, at the start). *)
Theorem settings_all_sent : forall ss l h s n, timely ss l h -> run ss (start l) h = Ok s -> length (s_send s) <= n ->
  exists s', run ss (start l) (h ++ [Writable n]) = Ok s' /\ s_send s' = [] /\ on_wire (s_log s') = received h.
Proof. exact all_sent. Qed.
Example acknowledged_ex : timely [(4, 70000)%N] limits [RSettings [] limits; ROther; Writable 5; RAck; RSettings [] limits; Writable 1] /\
  exists s, run [(4, 70000)%N] (start limits) [RSettings [] limits; ROther; Writable 5; RAck; RSettings [] limits; Writable 1] = Ok s /\
    s_log s = [WOwn [0; 4; 0; 1; 17; 112]; WOther; WOther; Acked; WOwn [0; 4; 0; 1; 17; 112]]%N /\ length (s_send s) = 1.
Proof.
  split.
  - intros h1 h2 s E R. destruct h1 as [|e1 [|e2 [|e3 [|e4 [|e5 [|e6 h1]]]]]]; try discriminate E.
    + injection E as <- <- <-. vm_compute in R. injection R as <-. reflexivity.
    + injection E as _ _ _ _ _ _ E. destruct h1; discriminate E.
  - eexists. split; [vm_compute; reflexivity|]. split; reflexivity.
Qed.

(** Every acknowledgement that is received while one of the server's SETTINGS frames waits to be sent: the frame is freed, and sending it is a use of freed memory. *)
Theorem early_ack_use_after_free : forall ss l h s n, run ss (start l) h = Ok s -> on_wire (s_log s) < received h -> length (s_send s) <= n ->
  run ss (start l) (h ++ [RAck; Writable n]) = UB UseAfterFree.
Proof. exact early_ack. Qed.
(** A SETTINGS frame and an acknowledgement, received at one time by a connection that has nothing to send, are enough. *)
Theorem settings_and_ack_use_after_free : forall ss l h s junk l' n, run ss (start l) h = Ok s -> s_send s = [] ->
  run ss (start l) (h ++ [RSettings junk l'; RAck; Writable n]) = UB UseAfterFree.
Proof. exact early_ack_at_once. Qed.
Example settings_and_ack_ex : exists s, run [] (start limits) [RSettings [] limits; Writable 9; RAck; ROther; Writable 1] = Ok s /\ s_send s = [].
Proof. eexists. split; [vm_compute; reflexivity|reflexivity]. Qed.
Example early_ack_ex : exists s, run [] (start limits) [ROther; RSettings [] limits; Writable 1] = Ok s /\
  on_wire (s_log s) < received [ROther; RSettings [] limits; Writable 1] /\ length (s_send s) <= 2.
Proof. eexists. split; [vm_compute; reflexivity|]. split; vm_compute; repeat constructor. Qed.
(** Clients that acknowledge only what they got can do this: their settings change once more before they acknowledge. *)
Theorem polite_client_refuted : exists h, polite [] limits h /\ run [] (start limits) h = UB UseAfterFree.
Proof.
  exists [RSettings [] limits; Writable 2; RSettings [] limits; RAck; Writable 0]. split; [|vm_compute; reflexivity].
  intros h1 h2 s E R. destruct h1 as [|e1 [|e2 [|e3 [|e4 [|e5 h1]]]]].
  - vm_compute in R. injection R as <-. vm_compute. repeat constructor.
  - injection E as <- _. vm_compute in R. injection R as <-. vm_compute. repeat constructor.
  - injection E as <- <- _. vm_compute in R. injection R as <-. vm_compute. repeat constructor.
  - injection E as <- <- <- _. vm_compute in R. injection R as <-. vm_compute. repeat constructor.
  - injection E as <- <- <- <- _. vm_compute in R. injection R as <-. vm_compute. repeat constructor.
  - injection E as <- <- <- <- <- E. destruct h1; [|discriminate E]. vm_compute in R. discriminate R.
Qed.

(** The end of a connection is safe unless one of the server's SETTINGS frames has not been sent and another has been sent and
    not been acknowledged. *)
Theorem close_safe_iff : forall ss l h s, timely ss l h -> run ss (start l) h = Ok s ->
  (close s = UB UseAfterFree <-> on_wire (s_log s) < received h /\ 0 < unacked (s_log s)) /\ (close s = UB UseAfterFree \/ exists m, close s = Ok m).
Proof. exact close_exact. Qed.
(** Two SETTINGS frames and the end of the connection, without any acknowledgement. *)
Theorem close_refuted : exists h s, timely [] limits h /\ acks h = 0 /\ run [] (start limits) h = Ok s /\ close s = UB UseAfterFree.
Proof.
  exists [RSettings [] limits; Writable 2; RSettings [] limits]. eexists. split; [|split; [reflexivity|split; vm_compute; reflexivity]].
  intros h1 h2 s E R. destruct h1 as [|e1 [|e2 [|e3 h1]]]; try discriminate E. injection E as _ _ _ E. destruct h1; discriminate E.
Qed.
Example close_ex : exists s, run [] (start limits) [RSettings [] limits; Writable 2; ROther] = Ok s /\ exists m, close s = Ok m.
Proof. eexists. split; [vm_compute; reflexivity|]. eexists. vm_compute. reflexivity. Qed.

(** Full statement of C124: the values of the environment are announced and are the limits the server keeps to with what it
    receives; the limits of the client are those the client announced.  Without any variable the limits of the client are not changed by
    acknowledgements; missing: see below. *)
Theorem client_limits_kept_partial : forall l h s, run [] (start l) h = Ok s -> exists s', run [] (start l) (h ++ [RAck]) = Ok s' /\ s_lim s' = s_lim s.
Proof. exact ack_limits_none. Qed.
(** With one variable its value, modulo 65536, becomes the client's limit, whatever the client announced. *)
Theorem own_value_becomes_clients : forall id v l h s, (id < 65536)%N -> (v < 4294967296)%N -> timely [(id, v)] l h -> run [(id, v)] (start l) h = Ok s ->
  0 < unacked (s_log s) -> exists s', run [(id, v)] (start l) (h ++ [RAck]) = Ok s' /\
    (limit id (s_lim s') = if (1 <=? id)%N && (id <=? 6)%N then v mod 65536 else 0)%N /\ forall j, j <> id -> limit j (s_lim s') = limit j (s_lim s).
Proof. exact ack_limit_values. Qed.
Example own_value_ex : exists s, run [(4, 1048576)%N] (start limits) [RSettings [] limits; Writable 2] = Ok s /\ unacked (s_log s) = 1 /\
  env_settings [None; None; None; Some (bs "1048576"); None; None] = [(4, 1048576)%N].
Proof. eexists. split; [vm_compute; reflexivity|]. split; vm_compute; reflexivity. Qed.
(** A larger window for the client's uploads makes the server believe that the client takes nothing: no response has a body. *)
Theorem client_window_refuted : exists env h s, run (env_settings env) (start limits) h = Ok s /\ env = [None; None; None; Some (bs "1048576"); None; None] /\
  polite (env_settings env) limits h /\ p_initial_window_size (s_lim s) = 0%N /\ forall l j, In (RSettings j l) h -> p_initial_window_size l = 65535%N.
Proof.
  exists [None; None; None; Some (bs "1048576"); None; None], [RSettings [] limits; Writable 2; RAck]. eexists. split; [vm_compute; reflexivity|].
  split; [reflexivity|]. split; [|split; [reflexivity|]].
  - intros h1 h2 s E R. destruct h1 as [|e1 [|e2 [|e3 h1]]].
    + vm_compute in R. injection R as <-. vm_compute. repeat constructor.
    + injection E as <- _. vm_compute in R. injection R as <-. vm_compute. repeat constructor.
    + injection E as <- <- _. vm_compute in R. injection R as <-. vm_compute. repeat constructor.
    + injection E as <- <- <- E. destruct h1; [|discriminate E]. vm_compute in R. injection R as <-. vm_compute. repeat constructor.
  - intros l j [H|[H|[H|[]]]]; try discriminate H. injection H as <- <-. reflexivity.
Qed.
(** The limit on frames that is announced is not the limit that is kept to. *)
Theorem announced_frame_size_refuted : exists env len, parse_settings 1 (settings_payload_set (fresh 6 []) (env_settings env)) = [(5, 32768)%N] /\
  (len <= 32768)%N /\ oversized len = true.
Proof.
  exists [None; None; None; None; Some (bs "32768"); None], 20000%N. split; [vm_compute; reflexivity|]. split; [discriminate|reflexivity].
Qed.

(** Every variable that is set is announced under its number with its value, and nothing else is. *)
Theorem settings_announced_exact : forall env id v, In (id, v) (env_settings env) <->
  exists k s, id = (1 + N.of_nat k)%N /\ nth_error env k = Some (Some s) /\ v = u32 (strtoll s).
Proof. intros env id v. exact (env_from_in 1 env id v). Qed.
Example settings_announced_ex : env_settings [Some (bs "100"); None; Some (bs "7"); Some (bs "70000"); None; None] = [(1, 100); (3, 7); (4, 70000)]%N.
Proof. vm_compute. reflexivity. Qed.
(** As long as nothing is acknowledged the client's limits are those it announced last. *)
Theorem client_limits_last_partial : forall ss l h s, (forall e, In e h -> e <> RAck) -> run ss (start l) h = Ok s -> s_lim s = announced l h.
Proof. intros ss l h s N0 R. exact (run_announced ss h (start l) s N0 R). Qed.
Example client_limits_last_ex : exists s, run [(4, 70000)%N] (start limits) [ROther; RSettings [] (mkPset 1 2 3 4 5 6 7); Writable 2] = Ok s /\ s_lim s = mkPset 1 2 3 4 5 6 7.
Proof. eexists. split; [vm_compute; reflexivity|reflexivity]. Qed.
(** The frames that are taken are those of up to 2^14 bytes, the default of HTTP/2. *)
Theorem frame_size_default : forall len, oversized len = false <-> (len <= 2 ^ 14)%N.
Proof. intro len. unfold oversized. rewrite N.ltb_ge. reflexivity. Qed.

Print Assumptions acknowledged_safe_partial.
Print Assumptions settings_all_sent.
Print Assumptions early_ack_use_after_free.
Print Assumptions settings_and_ack_use_after_free.
Print Assumptions polite_client_refuted.
Print Assumptions close_safe_iff.
Print Assumptions close_refuted.
Print Assumptions client_limits_kept_partial.
Print Assumptions own_value_becomes_clients.
Print Assumptions client_window_refuted.
Print Assumptions announced_frame_size_refuted.
Print Assumptions settings_announced_exact.
Print Assumptions client_limits_last_partial.
Print Assumptions frame_size_default.
