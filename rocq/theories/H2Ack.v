(** Model of the server's own SETTINGS frames: src/v2.c:3239-3278, 3371-3483 and the parts of 376-425, 1935-1977, 2882-2958
    that keep and free the memory of the frames of stream 0.

    A frame that is to be sent is a block of memory that is an element of up to two lists: the frames to be sent (state->send and
    stream->yetsend, which have the same elements here, since every frame belongs to stream 0) and the frames to be acknowledged
    (stream->yetack).  send_count, yetsend_count and yetack_count are the lengths of the lists until the connection is closed.
    Not modelled: SETTINGS frames on other streams, client settings with errors, frames that are sent in part (H2Write.v). *)
From Verif Require Import Base Buffer CNum H2Frame.

(** struct fly_hv2_send_frame, v2.h:50-73: need_ack and the payload. *)
Record fr := mkFr { f_need : bool; f_pay : list N }.
(** What happened on the connection; it is recorded for the statements, the code does not keep it: an own SETTINGS frame and its payload was sent, another
    frame was sent, an acknowledgement was received. *)
Inductive item := WOwn (pay : list N) | WOther | Acked.
(** [s_mem]: the frames that are allocated, [s_send]: the frames to be sent, [s_ack]: the frames to be acknowledged, [s_lim]: the
    limits the client is believed to have (p_... of the state).  [s_own], the own SETTINGS frames ever made, is not in the code. *)
Record st := mkSt { s_mem : list (nat * fr); s_next : nat; s_send : list nat; s_ack : list nat; s_lim : pset; s_own : list nat; s_log : list item }.
Definition start (l : pset) : st := mkSt [] 0 [] [] l [] [].

Definition look (m : list (nat * fr)) (x : nat) : option fr := option_map snd (find (fun e => fst e =? x) m).
Definition free (m : list (nat * fr)) (x : nat) : list (nat * fr) := filter (fun e => negb (fst e =? x)) m.
Definition deref (m : list (nat * fr)) (x : nat) : outcome fr := match look m x with Some f => Ok f | None => UB UseAfterFree end.
(** The element next to the list's head is written to when another one is added or removed: queue.h:24-31, 82-87, bllist.h:14-21,
    33-38. *)
Definition touch (m : list (nat * fr)) (o : option nat) : outcome unit := match o with Some x => obind (deref m x) (fun _ => Ok tt) | None => Ok tt end.
Definition last_of (q : list nat) : option nat := match rev q with x :: _ => Some x | [] => None end.
Definition push (m : list (nat * fr)) (q : list nat) (x : nat) : outcome (list nat) := obind (touch m (last_of q)) (fun _ => Ok (q ++ [x])).

(** fly_send_settings_frame_of_server, v2.c:3371-3409: the values of the six variables in their order (ids 1 to 6), those that are
    set; atol is strtol on a 64-bit machine. *)
Fixpoint env_from (id : N) (env : list (option (list N))) : list (N * N) :=
  match env with
  | [] => []
  | Some v :: t => (id, u32 (strtoll v)) :: env_from (id + 1) t
  | None :: t => env_from (id + 1) t
  end.
Definition env_settings (env : list (option (list N))) : list (N * N) := env_from 1%N env.

(** fly_send_settings_frame, v2.c:3239-3278, not an acknowledgement: the frame is added to both lists.  [junk]: the fresh
    memory of the payload. *)
Definition send_own (ss : list (N * N)) (junk : list N) (s : st) : outcome st :=
  let x := s_next s in
  let m := (x, mkFr true (settings_payload_set (fresh (6 * length ss) junk) ss)) :: s_mem s in
  obind (push m (s_ack s) x) (fun ack => obind (push m (s_send s) x) (fun send =>
  Ok (mkSt m (S x) send ack (s_lim s) (x :: s_own s) (s_log s)))).
(** A frame that needs no acknowledgement: fly_send_settings_frame with ack, the answer to a PING, ... *)
Definition send_other (s : st) : outcome st :=
  let x := s_next s in
  let m := (x, mkFr false []) :: s_mem s in
  obind (push m (s_send s) x) (fun send => Ok (mkSt m (S x) send (s_ack s) (s_lim s) (s_own s) (s_log s))).
(** A SETTINGS frame of the client, v2.c:1951-1972: first_send_settings is never set, see H2Conn.v.  [l]: what
    fly_hv2_peer_settings made of the limits. *)
Definition recv_settings (ss : list (N * N)) (junk : list N) (l : pset) (s : st) : outcome st :=
  obind (send_own ss junk s) (fun s => send_other (mkSt (s_mem s) (s_next s) (s_send s) (s_ack s) l (s_own s) (s_log s))).

(** The loop over the payload, v2.c:3446-3475; fly_hv2_settings_value_nb returns uint16_t (v2.c:1149). *)
Definition set_limit (l : pset) (id v : N) : pset :=
  if (id =? 1)%N then mkPset v (p_enable_push l) (p_max_concurrent_streams l) (p_initial_window_size l) (p_max_frame_size l) (p_max_header_list_size l) (ps_window_size l)
  else if (id =? 2)%N then mkPset (p_header_table_size l) v (p_max_concurrent_streams l) (p_initial_window_size l) (p_max_frame_size l) (p_max_header_list_size l) (ps_window_size l)
  else if (id =? 3)%N then mkPset (p_header_table_size l) (p_enable_push l) v (p_initial_window_size l) (p_max_frame_size l) (p_max_header_list_size l) (ps_window_size l)
  else if (id =? 4)%N then mkPset (p_header_table_size l) (p_enable_push l) (p_max_concurrent_streams l) v (p_max_frame_size l) (p_max_header_list_size l) (ps_window_size l)
  else if (id =? 5)%N then mkPset (p_header_table_size l) (p_enable_push l) (p_max_concurrent_streams l) (p_initial_window_size l)
                                  (if (MAX_FRAME_SIZE_MAX <? v)%N then MAX_FRAME_SIZE_MAX else v) (p_max_header_list_size l) (ps_window_size l)
  else if (id =? 6)%N then mkPset (p_header_table_size l) (p_enable_push l) (p_max_concurrent_streams l) (p_initial_window_size l) (p_max_frame_size l) v (ps_window_size l)
  else l.
Fixpoint set_limits (l : pset) (pay : list N) : pset :=
  match pay with
  | a :: b :: c :: d :: e :: f :: t => set_limits (set_limit l (be [a; b]) (be [c; d; e; f] mod 65536)%N) t
  | _ => l
  end.
(** fly_received_settings_frame_ack, v2.c:3431-3483: every SETTINGS frame that waits for it is taken as acknowledged, its values
    become limits of the client, and it is freed (fly_hv2_release_yet_ack_frame, 3411-3419). *)
Fixpoint ack_loop (q : list nat) (m : list (nat * fr)) (l : pset) : outcome (list (nat * fr) * pset) :=
  match q with
  | [] => Ok (m, l)
  | x :: t => obind (deref m x) (fun f => obind (touch m (hd_error t)) (fun _ => ack_loop t (free m x) (set_limits l (f_pay f))))
  end.
Definition recv_ack (s : st) : outcome st :=
  obind (ack_loop (s_ack s) (s_mem s) (s_lim s)) (fun '(m, l) => Ok (mkSt m (s_next s) (s_send s) [] l (s_own s) (s_log s ++ [Acked]))).

(** fly_state_send_frame, v2.c:2882-2958, when the socket takes [n] frames: the first frame is looked at even when none is taken;
    a frame is taken out of the list and freed unless it has to be acknowledged. *)
Fixpoint send_loop (n : nat) (q : list nat) (m : list (nat * fr)) (w : list item) {struct q} : outcome (list nat * list (nat * fr) * list item) :=
  match q with
  | [] => Ok ([], m, w)
  | x :: t =>
    obind (deref m x) (fun f =>
    match n with
    | O => Ok (q, m, w)
    | S n => obind (touch m (hd_error t)) (fun _ => send_loop n t (if f_need f then m else free m x) (w ++ [if f_need f then WOwn (f_pay f) else WOther]))
    end)
  end.
Definition writable (n : nat) (s : st) : outcome st :=
  obind (send_loop n (s_send s) (s_mem s) (s_log s)) (fun '(q, m, w) => Ok (mkSt m (s_next s) q (s_ack s) (s_lim s) (s_own s) w)).

(** fly_hv2_close_stream for stream 0, v2.c:394-417, with fly_hv2_send_frame_release_noqueue_remove, 764-771: the frames to be
    sent are freed; then, if yetack_count (here [n]) is not 0, those to be acknowledged. *)
Fixpoint close_send (q : list nat) (m : list (nat * fr)) (n : nat) : outcome (list (nat * fr) * nat) :=
  match q with
  | [] => Ok (m, n)
  | x :: t => obind (deref m x) (fun f => obind (touch m (hd_error t)) (fun _ => close_send t (free m x) (if f_need f then n - 1 else n)))
  end.
Fixpoint close_ack (q : list nat) (m : list (nat * fr)) : outcome (list (nat * fr)) :=
  match q with
  | [] => Ok m
  | x :: t => obind (deref m x) (fun _ => close_ack t (free m x))
  end.
Definition close (s : st) : outcome (list (nat * fr)) :=
  obind (close_send (s_send s) (s_mem s) (length (s_ack s))) (fun '(m, n) => match n with O => Ok m | _ => close_ack (s_ack s) m end).

Inductive ev := RSettings (junk : list N) (l : pset) | ROther | RAck | Writable (n : nat).
Definition step (ss : list (N * N)) (s : st) (e : ev) : outcome st :=
  match e with
  | RSettings junk l => recv_settings ss junk l s
  | ROther => send_other s
  | RAck => recv_ack s
  | Writable n => writable n s
  end.
Fixpoint run (ss : list (N * N)) (s : st) (h : list ev) : outcome st :=
  match h with
  | [] => Ok s
  | e :: t => obind (step ss s e) (fun s => run ss s t)
  end.

(** The frames the server takes, v2.c:1744 with 216: state->max_frame_size is not assigned anywhere else. *)
Definition oversized (len : N) : bool := (16384 <? len)%N.
