(** Property theorems: the listening socket.  See DESIGN.md. *)
From Verif Require Import Base Status Listen ListenProofs.
From Coq Require Import NArith ZArith List Bool.
Import ListNotations.
Local Open Scope nat_scope.

(** C130: the server listens on one address, the first of the host that takes a socket; it does so exactly when every
    address before it was passed over, its name can be had, listen works and, with TLS, both paths are there. *)
Theorem listen_first_partial w u i : (exists r, socket_init w u = Ok r /\ f_verdict r = Listening i) <->
  exists l a, addresses w u l /\ reached l i /\ nth_error l i = Some a /\ usable a /\ a_name a = true /\ a_listen a = true /\ ssl_ready w u.
Proof. exact (listening_iff w u i). Qed.
Print Assumptions listen_first_partial.

(** C130: after the call, the socket that listens is open, and besides it exactly those that could not be made
    non-blocking. *)
Theorem listen_open_partial w u r : socket_init w u = Ok r -> forall x, In x (f_open r) <-> f_verdict r = Listening x \/ forgotten w u x.
Proof. exact (open_iff w u r). Qed.
Print Assumptions listen_open_partial.

(** C130: starting reads or writes memory it must not exactly when an option is refused on an address whose
    predecessors are passed over, or a TLS path is longer than 4095 bytes. *)
Theorem listen_memory w u : (exists e, start w u = UB e) <-> refused w u \/ long_path w u.
Proof. exact (start_ub_iff w u). Qed.
Print Assumptions listen_memory.

(** An IPv6 address that cannot be bound, an IPv4 address that can, and a second one. *)
Definition good : addr := mkAddr true true true true true true.
Definition taken : addr := mkAddr true true true false true true.
Definition blocking : addr := mkAddr true false true true true true.
Definition picky : addr := mkAddr true true false true true true.
Definition ex_world (l : list addr) : world :=
  mkWorld (fun h p => if bytes_eqb p (bs "8080") then Some l else None) (fun s => if bytes_eqb s (bs "crt.pem") || bytes_eqb s (bs "key.pem") then Some (bs "/etc/" ++ s) else None).
Definition ex_setup : setup := mkSetup (Some (bs "localhost")) 8080 true (Some (bs "crt.pem")) (Some (bs "key.pem")).
Example ex_listen : exists r, socket_init (ex_world [taken; good; good]) ex_setup = Ok r /\ f_verdict r = Listening 1 /\ f_open r = [1] /\
  f_paths r = Some (bs "/etc/crt.pem", bs "/etc/key.pem").
Proof. eexists. split; [vm_compute; reflexivity|]. split; [reflexivity|]. split; reflexivity. Qed.
Example ex_listen_spec : exists l a, addresses (ex_world [taken; good; good]) ex_setup l /\ reached l 1 /\ nth_error l 1 = Some a /\ usable a /\ a_name a = true /\ a_listen a = true /\
  ssl_ready (ex_world [taken; good; good]) ex_setup.
Proof. apply (listen_first_partial (ex_world [taken; good; good]) ex_setup 1). destruct ex_listen as (r & A & B & _). exists r. auto. Qed.

(** C130: a host with two addresses: only one is listened on. *)
Theorem listen_every_address_refuted : exists w u l r, addresses w u l /\ Forall usable l /\ length l = 2 /\ socket_init w u = Ok r /\
  f_verdict r = Listening 0 /\ f_open r = [0].
Proof.
  exists (ex_world [good; good]), ex_setup, [good; good]. eexists. split; [reflexivity|].
  split; [repeat constructor|]. split; [reflexivity|]. split; [vm_compute; reflexivity|]. split; reflexivity.
Qed.
Print Assumptions listen_every_address_refuted.

(** C130: a socket that nobody will ever close, though the server does not start. *)
Theorem listen_leak_refuted : exists w u r, socket_init w u = Ok r /\ f_verdict r = Fails true /\ f_open r = [0].
Proof. exists (ex_world [blocking; taken]), ex_setup. eexists. split; [vm_compute; reflexivity|]. split; reflexivity. Qed.
Print Assumptions listen_leak_refuted.

(** C130: a refused option ends the start although the next address could be used, and the message of the exception is
    read from a variable without a value. *)
Theorem listen_untold_refuted : exists w u l r, addresses w u l /\ nth_error l 1 = Some good /\ usable good /\ socket_init w u = Ok r /\ f_verdict r = Fails false /\
  start w u = UB OutOfBounds.
Proof.
  exists (ex_world [picky; good]), ex_setup, [picky; good]. eexists. split; [reflexivity|]. split; [reflexivity|].
  split; [repeat constructor|]. split; [vm_compute; reflexivity|]. split; [reflexivity|vm_compute; reflexivity].
Qed.
Print Assumptions listen_untold_refuted.
