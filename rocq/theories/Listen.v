(** Opening the listening socket (src/server.c). *)
From Verif Require Import Base Status.
From Coq Require Import NArith ZArith List Bool Arith.
Import ListNotations.
Local Open Scope nat_scope.

(** One address of the host as getaddrinfo(3) gives it, with the answer of every system call made on it:
    socket, ioctl(FIONBIO), setsockopt(SO_REUSEADDR), bind, getnameinfo and listen (server.c:75, 79, 81, 84, 104,
    115).  [true]: the call succeeds. *)
Record addr := mkAddr { a_socket : bool; a_nonblock : bool; a_reuse : bool; a_bind : bool; a_name : bool; a_listen : bool }.

(** The outside world: getaddrinfo (the addresses for a host and a port, or an error, server.c:61) and realpath. *)
Record world := mkWorld { w_resolve : option (list N) -> list N -> option (list addr); w_real : list N -> option (list N) }.

(** PATH_MAX, which is FLY_PATH_MAX (mount.h:21). *)
Definition PATH_MAX : N := 4096.
(** Which values the configuration gives: FLY_HOST, FLY_PORT, FLY_SSL, the two paths (server.c:192-200, ssl.c:338-351). *)
Record setup := mkSetup { u_host : option (list N); u_port : Z; u_ssl : bool; u_crt : option (list N); u_key : option (list N) }.

(** What the call leaves behind: the sockets still open, named by the index of their address, the one that is
    listening, and whether the caller's [err] was filled in. *)
Inductive verdict := Listening (i : nat) | Fails (told : bool).
Record after := mkAfter { f_open : list nat; f_verdict : verdict; f_paths : option (list N * list N) }.

(** The loop over the addresses, server.c:74-88.  [i]: the index of the first address of [l]; [op]: the sockets left
    open so far.  Inl: stopped by [goto error] at server.c:82, after which the socket is closed (server.c:180-183)
    and nothing is said about it; Inr None: no address is left. *)
Fixpoint bind_loop (l : list addr) (i : nat) (op : list nat) : list nat + (list nat * option (nat * addr)) :=
  match l with
  | [] => inr (op, None)
  | a :: t =>
    if negb (a_socket a) then bind_loop t (S i) op                         (* server.c:76-77 *)
    else if negb (a_nonblock a) then bind_loop t (S i) (op ++ [i])         (* server.c:79-80: no close *)
    else if negb (a_reuse a) then inl op                                   (* server.c:81-82 *)
    else if a_bind a then inr (op ++ [i], Some (i, a))                     (* server.c:84-85 *)
    else bind_loop t (S i) op                                              (* server.c:87 *)
  end.

(** One of the two paths, server.c:148-149 and 160-161: the zeros are written over strlen+1 bytes of an array of
    FLY_PATH_MAX bytes before realpath looks at the path. *)
Definition ssl_path (w : world) (s : list N) : outcome (option (list N)) :=
  if (PATH_MAX <? N.of_nat (length s) + 1)%N then UB OutOfBounds else Ok (w_real w s).

(** [goto error] (server.c:180-183): the bound socket is closed. *)
Definition give_up (op : list nat) (i : nat) : after := mkAfter (filter (fun j => negb (j =? i)) op) (Fails true) None.

(** fly_socket_init, server.c:30-184.  Simplified: [port_str] always fits (an int has at most eleven characters, the
    array has 100); listen is given the backlog unseen; the names getnameinfo writes are in AccessLog.v. *)
Definition socket_init (w : world) (u : setup) : outcome after :=
  match w_resolve w (u_host u) (dec_z (u_port u)) with
  | None => Ok (mkAfter [] (Fails true) None)                              (* server.c:61-72 *)
  | Some l =>
    match bind_loop l 0 [] with
    | inl op => Ok (mkAfter op (Fails false) None)
    | inr (op, None) => Ok (mkAfter op (Fails true) None)                  (* server.c:90-102 *)
    | inr (op, Some (i, a)) =>
      if negb (a_name a) then Ok (give_up op i)                            (* server.c:105-114 *)
      else if negb (a_listen a) then Ok (give_up op i)                     (* server.c:115-126 *)
      else if negb (u_ssl u) then Ok (mkAfter op (Listening i) None)
      else match u_crt u, u_key u with                                     (* server.c:135-146 *)
           | Some c, Some k =>
             obind (ssl_path w c) (fun rc =>
             match rc with
             | None => Ok (give_up op i)                                   (* server.c:149-159 *)
             | Some rc =>
               obind (ssl_path w k) (fun rk =>
               match rk with
               | None => Ok (give_up op i)                                 (* server.c:161-171 *)
               | Some rk => Ok (mkAfter op (Listening i) (Some (rc, rk)))  (* server.c:174-176 *)
               end)
             end)
           | _, _ => Ok (give_up op i)
           end
    end
  end.

(** pyfly_master_init, pyserver.c:212-223, over fly_master_init and fly_context_init (context.c:24-26): the message of
    the exception is formatted from [err], a variable without a value when nothing was said. *)
Definition start (w : world) (u : setup) : outcome (option nat) :=
  obind (socket_init w u) (fun r =>
  match f_verdict r with
  | Listening i => Ok (Some i)
  | Fails true => Ok None
  | Fails false => UB OutOfBounds
  end).
