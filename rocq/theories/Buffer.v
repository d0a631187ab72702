(** Model of src/buffer.c: the chained receive buffer.

    A chain block is its memory contents plus two cursors.  A C pointer into the
    buffer is modelled as (index of the chain in the list, offset from chain->ptr);
    NULL is [None].  [junk] is the (arbitrary) contents of freshly allocated memory. *)
From Verif Require Import Base.

(** struct fly_buffer_chain, src/buffer.h:14-26.
    [c_data]  : the [len] bytes at [ptr] (so len = length c_data, lptr = ptr+len-1);
    [c_use]   : use_ptr - ptr;
    [c_unuse] : unuse_len.
    [use_len] is not stored: the code keeps use_len = len - unuse_len.
    [unuse_ptr] is not stored: ptr + (len - unuse_len), except that a full block has
    unuse_ptr = lptr (buffer.c:125); [unuse_off] below.  [status] is not stored: FULL iff
    unuse_len = 0 (buffer.c:124,151), otherwise EMPTY/HALF. *)
Record chain := mkChain { c_data : list N; c_use : nat; c_unuse : nat }.
Definition c_len (c : chain) : nat := length (c_data c).
Definition c_written (c : chain) : nat := c_len c - c_unuse c.

(** struct fly_buffer, src/buffer.h:28-39.  [b_count] is chain_count, [b_use_len] use_len. *)
Record buffer := mkBuffer {
  b_chains : list chain; b_count : nat; b_max : nat; b_per : nat; b_use_len : nat }.

Inductive add_res := AddSuccess (b : buffer) | AddLimit.

(** fly_buffer_add_chain, src/buffer.c:53-75. *)
Definition add_chain (junk : list N) (b : buffer) : add_res :=
  if b_max b <=? b_count b then AddLimit
  else AddSuccess (mkBuffer (b_chains b ++ [mkChain junk 0 (length junk)])
                            (S (b_count b)) (b_max b) (b_per b) (b_use_len b)).

(** fly_buffer_init, src/buffer.c:10-36: [init] empty blocks; None is the NULL result. *)
Fixpoint init_chains (junk : list N) (n : nat) (b : buffer) : option buffer :=
  match n with
  | 0 => Some b
  | S n' => match add_chain junk b with
            | AddSuccess b' => init_chains junk n' b'
            | AddLimit => None
            end
  end.
Definition buf_init (junk : list N) (init max per : nat) : option buffer :=
  init_chains junk init (mkBuffer [] 0 max per 0).

(** Replace the last element ("__l" of fly_update_buffer is fly_buffer_last_chain). *)
Fixpoint map_last (f : chain -> chain) (l : list chain) : list chain :=
  match l with
  | [] => []
  | [c] => [f c]
  | c :: t => c :: map_last f t
  end.
Fixpoint last_opt (l : list chain) : option chain :=
  match l with
  | [] => None
  | [c] => Some c
  | _ :: t => last_opt t
  end.

Inductive upd_res := UpdSuccess (b : buffer) | UpdLimit (b : buffer).

(** fly_update_buffer, src/buffer.c:112-164.  [fuel] bounds the while loop; running out of
    fuel is [UB Diverges] (it is proved not to happen when per_len > 0).  An empty chain list
    makes fly_buffer_last_chain return a pointer computed from the list head: out of bounds. *)
Fixpoint update_loop (fuel : nat) (junk : list N) (b : buffer) (i : nat) : outcome upd_res :=
  match fuel with
  | 0 => UB Diverges
  | S fuel' =>
    match last_opt (b_chains b) with
    | None => UB OutOfBounds
    | Some l =>
      if c_unuse l <=? i then
        let b1 := mkBuffer (map_last (fun c => mkChain (c_data c) (c_use c) 0) (b_chains b))
                           (b_count b) (b_max b) (b_per b) (b_use_len b + c_unuse l) in
        match add_chain junk b1 with
        | AddLimit => Ok (UpdLimit b1)
        | AddSuccess b2 => update_loop fuel' junk b2 (i - c_unuse l)
        end
      else
        Ok (UpdSuccess
              (mkBuffer (map_last (fun c => mkChain (c_data c) (c_use c) (c_unuse c - i)) (b_chains b))
                        (b_count b) (b_max b) (b_per b) (b_use_len b + i)))
    end
  end.
Definition update_buffer (junk : list N) (b : buffer) (n : nat) : outcome upd_res :=
  update_loop (S (S n)) junk b n.

(** recv(fd, fly_buffer_lunuse_ptr(b), fly_buffer_lunuse_len(b)) followed by fly_update_buffer
    (src/request.c:1047,1119; src/v2.c:575-604): the kernel delivers at most lunuse_len bytes,
    written at the unuse pointer of the last block.  The write of [d] is [write_last]. *)
Definition write_at (data : list N) (off : nat) (d : list N) : list N :=
  firstn off data ++ d ++ skipn (off + length d) data.
Definition write_last (b : buffer) (d : list N) : buffer :=
  mkBuffer (map_last (fun c => mkChain (write_at (c_data c) (c_written c) d) (c_use c) (c_unuse c))
                     (b_chains b))
           (b_count b) (b_max b) (b_per b) (b_use_len b).
Definition lunuse_len (b : buffer) : nat :=
  match last_opt (b_chains b) with Some c => c_unuse c | None => 0 end.
Definition recv_chunk (junk : list N) (b : buffer) (d : list N) : outcome upd_res :=
  if length d <=? lunuse_len b then update_buffer junk (write_last b d) (length d)
  else UB OutOfBounds.

(** lptr - use_ptr + 1 (buffer.c:376 and passim). *)
Definition c_act (c : chain) : nat := c_len c - c_use c.

(** The counting loop of fly_buffer_chain_release_from_length, src/buffer.c:385-394:
    returns (number of blocks to delete, their total length). *)
Fixpoint count_delete (cs : list chain) (len total : nat) : nat * nat :=
  match cs with
  | [] => (0, total)
  | c :: t =>
    if total + c_act c <=? len
    then match t with
         | [] => (1, total + c_act c)                       (* fly_is_chain_term: break *)
         | _ => let '(k, tot) := count_delete t len (total + c_act c) in (S k, tot)
         end
    else (0, total)
  end.

(** The deletion loop, src/buffer.c:397-403: removes [k] blocks, subtracting their lengths
    from use_len. *)
Fixpoint delete_k (k : nat) (b : buffer) : outcome buffer :=
  match k with
  | 0 => Ok b
  | S k' => match b_chains b with
            | [] => UB NullDeref
            | c :: t => delete_k k' (mkBuffer t (b_count b - 1) (b_max b) (b_per b)
                                              (b_use_len b - c_act c))
            end
  end.

(** fly_buffer_chain_release_from_length, src/buffer.c:374-430, called (as everywhere in the
    code except request.c:911, where the chain is also the first one) with the first chain.
    [use_len] is unsigned in C; the subtraction is exact when len <= use_len, which the
    theorems assume. *)
Definition release (b : buffer) (len : nat) : outcome buffer :=
  match b_chains b with
  | [] => UB NullDeref
  | c :: t =>
    if len <? c_act c then
      Ok (mkBuffer (mkChain (c_data c) (c_use c + len) (c_unuse c) :: t)
                   (b_count b) (b_max b) (b_per b) (b_use_len b - len))
    else
      let '(k, total) := count_delete (c :: t) len 0 in
      obind (delete_k k b) (fun b1 =>
        match b_chains b1 with
        | [] => UB NullDeref                                (* __n is NULL, buffer.c:406 *)
        | n :: t1 =>
          Ok (mkBuffer (mkChain (c_data n) (len - total) (c_unuse n) :: t1)
                       (b_count b1) (b_max b1) (b_per b1) (b_use_len b1 - (len - total)))
        end)
  end.

(** fly_buffer_chain_refresh on the first chain, src/buffer.c:362-368. *)
Definition refresh_first (b : buffer) : buffer :=
  match b_chains b with
  | [] => b
  | c :: t => mkBuffer (mkChain (c_data c) 0 (c_len c) :: t) (b_count b) (b_max b) (b_per b) (b_use_len b)
  end.

(** A C pointer into the buffer. *)
Definition ptr := (nat * nat)%type.

(** fly_update_chain, src/buffer.c:92-110: advance pointer [(ci,off)] by [len], following chains.
    None is NULL. *)
Fixpoint walk_chain (cs : list chain) (ci l : nat) : option ptr :=
  match cs with
  | [] => None
  | c :: t => if l <=? c_len c then Some (ci, c_use c + l - 1) else walk_chain t (S ci) (l - c_len c)
  end.
Definition update_chain (b : buffer) (p : ptr) (len : nat) : option ptr :=
  let '(ci, off) := p in
  match nth_error (b_chains b) ci with
  | None => None
  | Some c => if off + len <=? c_len c - 1 then Some (ci, off + len)
              else walk_chain (skipn (S ci) (b_chains b)) (S ci) (off + len - (c_len c - 1))
  end.

(** Load of one byte through a pointer. *)
Definition load (b : buffer) (p : ptr) : outcome N :=
  match nth_error (b_chains b) (fst p) with
  | None => UB OutOfBounds
  | Some c => match nth_error (c_data c) (snd p) with Some x => Ok x | None => UB OutOfBounds end
  end.

(** fly_buffer_memcpy, src/buffer.c:319-342.  Result: the bytes written to [dist].
    [find_src] is the loop 327-331 (note: it gives up as soon as the block moved to is the last
    one); [copy_loop] is 333-339 (it dereferences the next block even when no byte is left). *)
Fixpoint find_src (fuel : nat) (b : buffer) (ci : nat) (src : ptr) : outcome (option nat) :=
  match fuel with
  | 0 => UB Diverges
  | S fuel' =>
    match nth_error (b_chains b) ci with
    | None => UB NullDeref
    | Some c =>
      if (fst src =? ci) && (c_use c <=? snd src) && (snd src <=? c_len c - 1) then Ok (Some ci)
      else match nth_error (b_chains b) (S ci) with
           | None => UB NullDeref                           (* fly_is_chain_term(NULL) *)
           | Some _ => if S ci =? length (b_chains b) - 1 then Ok None
                       else find_src fuel' b (S ci) src
           end
    end
  end.
Fixpoint copy_loop (b : buffer) (ci off len : nat) : outcome (list N) :=
  match len with
  | 0 => Ok []
  | S len' =>
    obind (load b (ci, off)) (fun x =>
      match nth_error (b_chains b) ci with
      | None => UB NullDeref
      | Some c =>
        if c_len c - 1 <? S off then
          match nth_error (b_chains b) (S ci) with
          | None => UB NullDeref                            (* __c->use_ptr with __c == NULL *)
          | Some n => obind (copy_loop b (S ci) (c_use n) len') (fun r => Ok (x :: r))
          end
        else obind (copy_loop b ci (S off) len') (fun r => Ok (x :: r))
      end)
  end.
Definition memcpy (b : buffer) (src : ptr) (ci len : nat) : outcome (list N) :=
  match len with
  | 0 => Ok []
  | _ => obind (find_src (S (length (b_chains b))) b ci src) (fun r =>
           match r with None => Ok [] | Some c => copy_loop b c (snd src) len end)
  end.

(** __fly_bufp_inc, src/buffer.c:166-179: at the end of the last block the pointer is left
    unchanged. *)
Definition bufp_inc (b : buffer) (p : ptr) : ptr :=
  let '(ci, off) := p in
  match nth_error (b_chains b) ci with
  | None => p
  | Some c => if c_len c - 1 <? S off
              then match nth_error (b_chains b) (S ci) with
                   | None => p
                   | Some n => (S ci, c_use n)
                   end
              else (ci, S off)
  end.
(** __fly_bufp_end, src/buffer.c:181-188. *)
Definition bufp_end (b : buffer) (p : ptr) : bool :=
  let '(ci, off) := p in
  match nth_error (b_chains b) ci with
  | None => true
  | Some c => (S ci =? length (b_chains b)) && (c_len c - 1 <=? off)
  end.

Inductive ss_step := SsFound (p : ptr) | SsNull | SsMismatch (p : ptr).

(** The inner while of __fly_buffer_strstr, src/buffer.c:198-215: match [str] (the whole pattern
    the first time, its remainder later) from [p]. *)
Fixpoint ss_inner (b : buffer) (p : ptr) (str : list N) : outcome ss_step :=
  match str with
  | [] => Ok (SsFound p)                                    (* *__s == '\0' *)
  | x :: str' =>
    obind (load b p) (fun y =>
      if (y =? x)%N then
        let p' := bufp_inc b p in
        match str' with
        | [] => Ok (SsFound p')
        | _ => if bufp_end b p' then Ok SsNull else ss_inner b p' str'
        end
      else Ok (SsMismatch p))
  end.

(** __fly_buffer_strstr with FLY_BUFFER_STRSTR_AFTER, src/buffer.c:191-235: result is the pointer
    after the match, None is NULL.  [str] must be non-empty. *)
Fixpoint strstr_loop (fuel : nat) (b : buffer) (p : ptr) (str : list N) : outcome (option ptr) :=
  match fuel with
  | 0 => UB Diverges
  | S fuel' =>
    obind (ss_inner b p str) (fun r =>
      match r with
      | SsFound q => Ok (Some q)
      | SsNull => Ok None
      | SsMismatch q =>
        let q' := bufp_inc b q in
        if bufp_end b q' then Ok None else strstr_loop fuel' b q' str
      end)
  end.
Definition mem_size (b : buffer) : nat := list_sum (map c_len (b_chains b)).
Definition strstr_after (b : buffer) (str : list N) : outcome (option ptr) :=
  match b_chains b with
  | [] => UB NullDeref
  | c :: _ => strstr_loop (S (mem_size b)) b (0, c_use c) str
  end.

(** The unread bytes of one block: from use_ptr to the end of the written area. *)
Definition c_view (c : chain) : list N := firstn (c_written c - c_use c) (skipn (c_use c) (c_data c)).
(** The unread bytes of the buffer. *)
Definition stream (b : buffer) : list N := flat_map c_view (b_chains b).

(** FLY_CONNECT_BUFFER_CHAIN_MAX, src/connect.c:46-47. *)
Definition connect_chain_max (max_len per : nat) : nat := max_len / per + 1.

(** Contents of a freshly allocated block: [per] arbitrary bytes taken from [junk]
    (fly_pballoc does not clear memory, src/buffer.c:66). *)
Definition fresh (per : nat) (junk : list N) : list N := firstn per (junk ++ repeat 0%N per).

(** ** A connection using its buffer

    [k_src]: bytes the peer has sent that the kernel has not delivered yet; [k_buf]: the receive
    buffer; [k_out]: bytes handed to the consumer so far; [k_over]: the buffer reported the limit
    error (the connection then stops receiving, request.c:1122 / v2.c:599). *)
Record conn := mkConn { k_src : list N; k_buf : buffer; k_out : list N; k_over : bool }.

(** Steps of a connection.
    [BRecv k junk]: one recv call; the kernel delivers min(k, lunuse_len) of the pending bytes
      (request.c:1047, v2.c:575) and the buffer is updated (request.c:1119, v2.c:596);
    [BConsume n]: the consumer copies n bytes from the front (fly_buffer_memcpy on the first chain,
      request.c:664, 1480) and releases them (request.c:673); callers never ask for more than the
      unread bytes, so n is capped by use_len;
    [BRefresh]: HTTP/2 resets an emptied buffer (v2.c:2094-2095). *)
Inductive bop := BRecv (k : nat) (junk : list N) | BConsume (n : nat) | BRefresh.

Definition kstep (c : conn) (o : bop) : outcome conn :=
  if k_over c then Ok c
  else match o with
  | BRecv k junk =>
    let d := firstn (Nat.min k (lunuse_len (k_buf c))) (k_src c) in
    obind (recv_chunk (fresh (b_per (k_buf c)) junk) (k_buf c) d) (fun r =>
      match r with
      | UpdSuccess b => Ok (mkConn (skipn (length d) (k_src c)) b (k_out c) false)
      | UpdLimit b => Ok (mkConn (skipn (length d) (k_src c)) b (k_out c) true)
      end)
  | BConsume n =>
    let n' := Nat.min n (b_use_len (k_buf c)) in
    match b_chains (k_buf c) with
    | [] => UB NullDeref
    | f :: _ =>
      obind (memcpy (k_buf c) (0, c_use f) 0 n') (fun d =>
      obind (release (k_buf c) n') (fun b =>
        Ok (mkConn (k_src c) b (k_out c ++ d) false)))
    end
  | BRefresh =>
    if b_use_len (k_buf c) =? 0
    then Ok (mkConn (k_src c) (refresh_first (k_buf c)) (k_out c) false)
    else Ok c
  end.
Fixpoint krun (c : conn) (os : list bop) : outcome conn :=
  match os with [] => Ok c | o :: t => obind (kstep c o) (fun c' => krun c' t) end.
