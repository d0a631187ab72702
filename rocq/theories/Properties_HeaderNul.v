(** Property C15 (last part): header sections with a NUL byte (model: ReqFlow.v; specification: HeaderNul.v). *)
From Coq Require Import Lia.
From Verif Require Import Base CStr CNum Buffer BufferProofs Names Reqline ReqlineProofs Header HeaderProofs ReqFlow HeaderNul.
From Verif Require Route Mount.
Local Open Scope nat_scope.

Definition ex_env : env := mkEnv 100 [Route.mkRoute (bs "/") GET 2 []] (Mount.mkMcfg 10 10 (bs "index.html")) Mount.mount_init (fun _ => []) (fun _ => []) (fun _ => None) (fun _ => false) (bs " HTTP/1.1" ++ CRLF).
Definition ex_buf (l : list N) : buffer := mkBuffer [mkChain (l ++ repeat 0%N (64 - length l)) 0 (64 - length l)] 1 9 64 (length l).
Definition ex_req (l : list N) : req := mkReq PHeader true true false 0 (Some (mkReqline (Some GET) (bs "/") None (Some V1_1))) header_init None (ex_buf l).
Definition ex_lines : list (list N) := [bs "a: b" ++ [13%N]].

(** A line that does not begin like a field and holds a NUL before its line feed is answered with 400, whatever the lines
    before it and the bytes after it are; the routes are not looked at. *)
Theorem nul_line_bad_request : forall e q src fin os r ls c t rest, wf (q_buf q) -> length (b_chains (q_buf q)) = 1 -> q_hd q = true -> q_line q = Some r -> l_version r = Some V1_1 ->
  Forall plain_line ls -> stream (q_buf q) = lines_text ls ++ c :: t ++ 0%N :: rest -> odd_start c -> ~ In 10%N t -> ~ In 0%N t ->
  exists q' hs, header_phase e q src fin os = Ok (VStatus 400 q', src) /\ hc_chain (q_hdr q') = hs /\ parsed ls hs.
Proof. exact odd_line_400. Qed.
Lemma ex_plain : Forall plain_line ex_lines.
Proof. constructor; [|constructor]; (split; [discriminate|]; split; [vm_compute; discriminate|]; split; vm_compute; intuition discriminate). Qed.
Example nul_line_ex : let q := ex_req (lines_text ex_lines ++ bs " x" ++ 0%N :: bs "y" ++ CRLF ++ CRLF) in
  wf (q_buf q) /\ Forall plain_line ex_lines /\ odd_start 32 /\ (exists q' s, header_phase ex_env q [] false [] = Ok (VStatus 400 q', s)).
Proof.
  split; [unfold wf; vm_compute; repeat split; try lia; try discriminate|]. split; [exact ex_plain|]. split; [exact odd_blank|].
  do 2 eexists. vm_compute. reflexivity.
Qed.

(** Finding: a field whose name or value is cut by a NUL is neither an error nor skipped: the parser asks for more bytes.
    As [rest] is arbitrary, no bytes that follow change that; the field stays at the front of the buffer. *)
Theorem nul_field_waits : forall e q src fin os ls t rest, wf (q_buf q) -> length (b_chains (q_buf q)) = 1 -> q_hd q = true ->
  Forall plain_line ls -> stream (q_buf q) = lines_text ls ++ t ++ 0%N :: rest -> begun t ->
  exists q', header_phase e q src fin os = Ok (VWait q', src) /\ stream (q_buf q') = t ++ 0%N :: rest.
Proof. exact begun_waits. Qed.
Example nul_field_ex : let q := ex_req (lines_text ex_lines ++ bs "X: 1" ++ 0%N :: bs "2" ++ CRLF ++ CRLF) in
  wf (q_buf q) /\ Forall plain_line ex_lines /\ begun (bs "X: 1").
Proof.
  split; [unfold wf; vm_compute; repeat split; try lia; try discriminate|]. split; [exact ex_plain|].
  apply (begun_value (bs "X") (bs " ") (bs "1")); try discriminate.
  - repeat (constructor; [vm_compute; repeat split; discriminate|]); constructor.
  - repeat (constructor; [now left|]); constructor.
  - repeat (constructor; [vm_compute; intuition discriminate|]); constructor.
  - intros c t [= <- <-]. split; discriminate.
Qed.
(** So a whole request with such a field gets no answer. *)
Theorem nul_field_refuted : exists q q', init_req [] 100 64 = Some q /\
  serve ex_env q (bs "GET / HTTP/1.1" ++ CRLF ++ bs "X: 1" ++ 0%N :: bs "2" ++ CRLF ++ CRLF) false [[(64, [])]; [(64, [])]] = Ok (VWait q', [], []) /\
  q_line q' = Some (mkReqline (Some GET) (bs "/") None (Some V1_1)) /\ q_hd q' = true.
Proof. do 2 eexists. split; [vm_compute; reflexivity|]. split; [vm_compute; reflexivity|]. split; reflexivity. Qed.

Print Assumptions nul_line_bad_request.
Print Assumptions nul_field_waits.
Print Assumptions nul_field_refuted.
