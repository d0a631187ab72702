(** C116-C118: new connections, timeouts and telling plain clients from TLS clients. *)
From Verif Require Import Base Names Connect ConnectProofs.
Local Open Scope nat_scope.

(** C116.  Full statement: whatever clients do, the worker goes on and every connection goes on as its own client and
    handler determine, whatever the others do.  Proved for every history - any number of connections, any order of reports,
    any answers of the kernel, of OpenSSL and of the HTTP handlers - in which none of these occurs: accept4 or the first recv
    fails, getnameinfo fails, a client closes during the handshake or agrees on an unknown protocol, a deadline passes before
    HTTP is spoken.  Missing: just these, for which it is false; see the theorems below. *)
Theorem connections_independent_partial :
  forall secure timeout lf t0 h l, sp_turns secure timeout lf t0 h [] = Some l ->
    exists w, turns (listening secure timeout lf) h = Ok (Alive w) /\ sees lf w l.
Proof. exact connections_run. Qed.
Definition quiet := mkAnswers AccBlock PeekBlock HsRead (Keep Rd).
Definition arrives fd := mkAnswers (Accepted fd true) PeekBlock HsRead (Keep Rd).
Definition sends b s := mkAnswers AccBlock (PeekByte b) HsRead s.
Definition two_clients : list (Z * list (nat * answers)) :=
  [(0%Z, [(3, arrives 5)]); (1%Z, [(3, arrives 6)]); (2%Z, [(6, sends 71%N (Keep Wr)); (5, quiet)]); (3%Z, [(5, sends 22%N (Keep Rd)); (6, sends 0%N Renew)])].
Example connections_independent_ex :
  sp_turns false 10 3 0 two_clients [] = Some [mkPeer 6 (Speaking V1_1) Rd 13] /\
  exists w, turns (listening false 10 3) two_clients = Ok (Alive w) /\ w_open w = [3; 6].
Proof. split; [vm_compute; reflexivity|]. eexists. split; vm_compute; reflexivity. Qed.

(** A failure of accept4 ends the worker, whatever connections it has: running out of descriptors, or a client that gives up
    before it is accepted. *)
Theorem accept_failure_ends_worker :
  forall secure timeout lf t0 h l a now, sp_turns secure timeout lf t0 h [] = Some l -> a_accept a = AccFail ->
    (clock t0 h <= now)%Z -> turns (listening secure timeout lf) (h ++ [(now, [(lf, a)])]) = Ok (Gone exit_err).
Proof. exact accept_failure_exits. Qed.
Definition no_descriptors := mkAnswers AccFail PeekBlock HsRead (Keep Rd).
Example accept_failure_ends_worker_ex :
  sp_turns false 10 3 0 two_clients [] <> None /\ a_accept no_descriptors = AccFail /\ (clock 0 two_clients <= 4)%Z.
Proof. vm_compute. repeat split; discriminate. Qed.
(** A client that resets its connection before sending anything ends the worker and with it every other connection. *)
Theorem reset_ends_worker :
  forall secure timeout lf t0 h l p a now, sp_turns secure timeout lf t0 h [] = Some l -> In p l -> p_phase p = Fresh ->
    a_peek a = PeekFail -> (clock t0 h <= now)%Z -> turns (listening secure timeout lf) (h ++ [(now, [(p_fd p, a)])]) = Ok (Gone exit_err).
Proof. exact peek_failure_exits. Qed.
Definition resets := mkAnswers AccBlock PeekFail HsRead (Keep Rd).
Definition one_speaks_one_waits : list (Z * list (nat * answers)) :=
  [(0%Z, [(3, arrives 5)]); (1%Z, [(3, arrives 6); (5, sends 71%N (Keep Wr))])].
Example reset_ends_worker_ex :
  sp_turns false 10 3 0 one_speaks_one_waits [] = Some [mkPeer 5 (Speaking V1_1) Wr 10; mkPeer 6 Fresh Rd 11] /\ a_peek resets = PeekFail.
Proof. split; vm_compute; reflexivity. Qed.
(** A client that closes during its TLS handshake leaves its socket open in the worker, registered with a freed event: the
    next report about that socket (a closed socket stays readable) uses the freed memory. *)
Theorem handshake_close_corrupts :
  forall secure timeout lf t0 h l p a now, sp_turns secure timeout lf t0 h [] = Some l -> In p l -> handshaking secure p a ->
    a_tls a = HsEof -> (clock t0 h <= now)%Z ->
    exists w, turns (listening secure timeout lf) (h ++ [(now, [(p_fd p, a)])]) = Ok (Alive w) /\
      In (p_fd p) (w_open w) /\ ~ In (p_fd p) (map (fun x => e_fd (snd x)) (w_events w)) /\
      forall now' a', turn w now' [(p_fd p, a')] = UB UseAfterFree.
Proof. exact handshake_eof. Qed.
Definition half_hello : list (Z * list (nat * answers)) := [(0%Z, [(3, arrives 5)]); (1%Z, [(5, sends 22%N (Keep Rd))])].
Definition leaves := mkAnswers AccBlock PeekBlock HsEof (Keep Rd).
Example handshake_close_corrupts_ex :
  sp_turns true 10 3 0 half_hello [] = Some [mkPeer 5 Handshake Rd 10] /\ handshaking true (mkPeer 5 Handshake Rd 10) leaves /\ a_tls leaves = HsEof.
Proof. split; [vm_compute; reflexivity|]. split; [left; reflexivity|reflexivity]. Qed.
(** So one client can end a worker that serves others. *)
Theorem connections_independent_refuted :
  exists h a p, sp_turns false 10 3 0 h [] = Some [p; mkPeer 6 Fresh Rd 11] /\ p_phase p = Speaking V1_1 /\
    turns (listening false 10 3) (h ++ [(2%Z, [(6, a)])]) = Ok (Gone 12).
Proof. exists one_speaks_one_waits, resets, (mkPeer 5 (Speaking V1_1) Wr 10). repeat split. Qed.
Theorem connections_memory_refuted :
  exists h, turns (listening true 10 3) h = UB UseAfterFree.
Proof. exists (half_hello ++ [(2%Z, [(5, leaves)]); (3%Z, [(5, quiet)])]). vm_compute. reflexivity. Qed.

(** C117.  Full statement: a connection that is silent for the configured time is closed, and no other.  Proved: on a turn
    in which nothing is reported, of the connections that have got as far as HTTP exactly those past their deadline are closed,
    whatever came before.  Missing: turns in which something is reported, and connections that have not sent a first byte
    or are in the handshake, for which it is false. *)
Theorem overdue_connections_closed_partial :
  forall secure timeout lf t0 h l now, sp_turns secure timeout lf t0 h [] = Some l -> (clock t0 h <= now)%Z ->
    (forall p, In p l -> early p = true -> (now < p_deadline p)%Z) ->
    exists w, turns (listening secure timeout lf) (h ++ [(now, [])]) = Ok (Alive w) /\
      forall p, In p l -> (In (p_fd p) (w_open w) <-> (now < p_deadline p)%Z).
Proof. exact idle_worker_closes. Qed.
Example overdue_connections_closed_ex :
  sp_turns false 10 3 0 one_speaks_one_waits [] = Some [mkPeer 5 (Speaking V1_1) Wr 10; mkPeer 6 Fresh Rd 11] /\
  exists w, turns (listening false 10 3) (one_speaks_one_waits ++ [(10%Z, [])]) = Ok (Alive w) /\ w_open w = [3; 6].
Proof. split; [vm_compute; reflexivity|]. eexists. split; vm_compute; reflexivity. Qed.
(** A client that connects and says nothing until its deadline makes the worker read through a null pointer on the first idle turn. *)
Theorem silent_client_crashes_worker :
  forall secure timeout lf t0 h l p now, sp_turns secure timeout lf t0 h [] = Some l -> In p l -> early p = true ->
    (clock t0 h <= now)%Z -> (p_deadline p <= now)%Z ->
    turns (listening secure timeout lf) (h ++ [(now, [])]) = UB NullDeref.
Proof. exact silent_timeout_crash. Qed.
Example silent_client_crashes_worker_ex :
  sp_turns false 10 3 0 one_speaks_one_waits [] = Some [mkPeer 5 (Speaking V1_1) Wr 10; mkPeer 6 Fresh Rd 11] /\ early (mkPeer 6 Fresh Rd 11) = true.
Proof. split; vm_compute; reflexivity. Qed.
(** While every turn has a report about some other socket, nothing is closed for being late, however late. *)
Theorem busy_worker_serves_no_timeouts :
  forall secure timeout lf t0 h h' l l' p, sp_turns secure timeout lf t0 h [] = Some l -> In p l ->
    sp_turns secure timeout lf (clock t0 h) h' l = Some l' -> Forall (fun t => snd t <> [] /\ ~ In (p_fd p) (map fst (snd t))) h' ->
    exists w, turns (listening secure timeout lf) (h ++ h') = Ok (Alive w) /\ In (p_fd p) (w_open w).
Proof. exact busy_worker_keeps. Qed.
Example busy_worker_serves_no_timeouts_ex :
  sp_turns false 10 3 0 one_speaks_one_waits [] = Some [mkPeer 5 (Speaking V1_1) Wr 10; mkPeer 6 Fresh Rd 11] /\
  sp_turns false 10 3 1 [(1000%Z, [(3, quiet)])] [mkPeer 5 (Speaking V1_1) Wr 10; mkPeer 6 Fresh Rd 11] <> None.
Proof. split; vm_compute; [reflexivity|discriminate]. Qed.
Theorem overdue_connections_closed_refuted :
  (exists h, sp_turns false 10 3 0 h [] = Some [mkPeer 5 (Speaking V1_1) Wr 10; mkPeer 6 Fresh Rd 11] /\
     turns (listening false 10 3) (h ++ [(11%Z, [])]) = UB NullDeref) /\
  (exists h w, sp_turns false 10 3 0 h [] = Some [mkPeer 5 (Speaking V1_1) Wr 10; mkPeer 6 Fresh Rd 11] /\
     turns (listening false 10 3) (h ++ [(1000%Z, [(3, quiet)])]) = Ok (Alive w) /\ In 5 (w_open w)).
Proof.
  split; [exists one_speaks_one_waits; split; vm_compute; reflexivity|].
  eexists one_speaks_one_waits, _. split; [vm_compute; reflexivity|]. split; [vm_compute; reflexivity|]. vm_compute. tauto.
Qed.

(** C118.  The first byte decides: on a plain port 22 closes the connection and anything else is HTTP/1.1; on a TLS port 22 starts
    the handshake and anything else is answered 400.  The byte is left to be read again.  Other connections stay as they are. *)
Theorem first_byte_decides :
  forall secure timeout lf t0 h l1 fd r d l2 now a b, sp_turns secure timeout lf t0 h [] = Some (l1 ++ mkPeer fd Fresh r d :: l2) ->
    (clock t0 h <= now)%Z -> a_peek a = PeekByte b ->
    let after l := exists w, turns (listening secure timeout lf) (h ++ [(now, [(fd, a)])]) = Ok (Alive w) /\ sees lf w l in
    (secure = false -> b = 22%N -> after (l1 ++ l2)) /\
    (secure = true -> b <> 22%N -> after (l1 ++ mkPeer fd Refusing Wr d :: l2)) /\
    (secure = false -> b <> 22%N -> forall r', a_serve a = Keep r' -> after (l1 ++ mkPeer fd (Speaking V1_1) r' d :: l2)) /\
    (secure = true -> b = 22%N -> a_tls a = HsRead -> after (l1 ++ mkPeer fd Handshake Rd d :: l2)) /\
    (secure = true -> b = 22%N -> a_tls a = HsFail -> after (l1 ++ l2)).
Proof. exact first_byte. Qed.
Example first_byte_decides_ex :
  sp_turns true 10 3 0 [(0%Z, [(3, arrives 5)]); (1%Z, [(3, arrives 6)])] [] = Some ([mkPeer 5 Fresh Rd 10] ++ mkPeer 6 Fresh Rd 11 :: []) /\
  sp_turns true 10 3 0 [(0%Z, [(3, arrives 5)]); (1%Z, [(3, arrives 6)]); (2%Z, [(6, sends 71%N (Keep Rd))])] [] =
    Some [mkPeer 5 Fresh Rd 10; mkPeer 6 Refusing Wr 11].
Proof. split; vm_compute; reflexivity. Qed.
(** A finished handshake is followed by the protocol the client and the server agreed on. *)
Theorem protocol_as_agreed :
  forall timeout lf t0 h l1 fd r d l2 now a alpn v r', sp_turns true timeout lf t0 h [] = Some (l1 ++ mkPeer fd Handshake r d :: l2) ->
    (clock t0 h <= now)%Z -> a_tls a = HsDone alpn -> protocol alpn = Some v -> a_serve a = Keep r' ->
    exists w, turns (listening true timeout lf) (h ++ [(now, [(fd, a)])]) = Ok (Alive w) /\ sees lf w (l1 ++ mkPeer fd (Speaking v) r' d :: l2).
Proof. exact agreed. Qed.
Example protocol_as_agreed_ex :
  sp_turns true 10 3 0 half_hello [] = Some ([] ++ mkPeer 5 Handshake Rd 10 :: []) /\ protocol (bs "h2") = Some V2 /\ protocol [] = Some V1_1.
Proof. repeat split; vm_compute; reflexivity. Qed.

Print Assumptions connections_independent_partial.
Print Assumptions accept_failure_ends_worker.
Print Assumptions reset_ends_worker.
Print Assumptions handshake_close_corrupts.
Print Assumptions connections_independent_refuted.
Print Assumptions connections_memory_refuted.
Print Assumptions overdue_connections_closed_partial.
Print Assumptions silent_client_crashes_worker.
Print Assumptions busy_worker_serves_no_timeouts.
Print Assumptions overdue_connections_closed_refuted.
Print Assumptions first_byte_decides.
Print Assumptions protocol_as_agreed.
