(** Configuration files: src/conf.c, src/conf.h and the table fly.conf.

    The environment variables of the process are represented by a function from the entries of the table (by position) to
    their values; setenv and unsetenv succeed. *)
From Verif Require Import Base CStr CNum.
Local Open Scope N_scope.

(** The flags FLY_CONFIG_INTEGER, FLY_CONFIG_STRING, FLY_CONFIG_BOOL, conf.h:27-29. *)
Inductive ctype := CInteger | CString | CBool.
(** struct fly_config, conf.h:20-31. *)
Record config := mkConfig { c_name : list N; c_env : list N; c_default : option (list N); c_type : ctype }.
(** configs, conf.c:7-10, fly.conf. *)
Definition configs : list config :=
  [ mkConfig (bs "mount_max") (bs "FLY_MOUNT_MAX") (Some (bs "100")) CInteger;
    mkConfig (bs "file_max") (bs "FLY_FILE_MAX") (Some (bs "1000")) CInteger;
    mkConfig (bs "workers") (bs "FLY_WORKER") (Some (bs "1")) CInteger;
    mkConfig (bs "worker_max") (bs "FLY_WORKER_MAX") (Some (bs "10")) CInteger;
    mkConfig (bs "encode_threshold") (bs "FLY_ENCODE_THRESHOLD") (Some (bs "1048576")) CInteger;
    mkConfig (bs "host") (bs "FLY_HOST") (Some (bs "0.0.0.0")) CString;
    mkConfig (bs "port") (bs "FLY_PORT") (Some (bs "1234")) CInteger;
    mkConfig (bs "ssl") (bs "FLY_SSL") (Some (bs "false")) CBool;
    mkConfig (bs "ssl_crt_path") (bs "FLY_SSL_CRT_PATH") (Some (bs "conf/server.crt")) CString;
    mkConfig (bs "ssl_key_path") (bs "FLY_SSL_KEY_PATH") (Some (bs "conf/server.key")) CString;
    mkConfig (bs "index_path") (bs "FLY_INDEX_PATH") (Some (bs "index.html")) CString;
    mkConfig (bs "log_path") (bs "FLY_LOG_PATH") None CString;
    mkConfig (bs "log_stdout") (bs "FLY_LOG_STDOUT") (Some (bs "true")) CBool;
    mkConfig (bs "log_stderr") (bs "FLY_LOG_STDERR") (Some (bs "false")) CBool;
    mkConfig (bs "backlog") (bs "FLY_BACKLOG") (Some (bs "1024")) CInteger;
    mkConfig (bs "max_response_content_length") (bs "FLY_MAX_RESPONSE_CONTENT_LENGTH") (Some (bs "1048576")) CInteger;
    mkConfig (bs "max_request_content_length") (bs "FLY_MAX_REQUEST_LENGTH") (Some (bs "1048576")) CInteger;
    mkConfig (bs "request_timeout") (bs "FLY_REQUEST_TIMEOUT") (Some (bs "60")) CInteger;
    mkConfig (bs "connect_buffer_init_len") (bs "FLY_CONNECT_BUFFER_INIT_LEN") (Some (bs "1")) CInteger;
    mkConfig (bs "connect_buffer_per_len") (bs "FLY_CONNECT_BUFFER_PER_LEN") (Some (bs "4096")) CInteger;
    mkConfig (bs "create_pidfile") (bs "FLY_CREATE_PIDFILE") (Some (bs "false")) CBool;
    mkConfig (bs "pidfile_path") (bs "FLY_PIDFILE_PATH") (Some (bs "./log/fly.pid")) CString;
    mkConfig (bs "default_content_path") (bs "FLY_DEFAULT_CONTENT_PATH") None CString ].

(** The environment: one variable per entry. *)
Definition env := nat -> option (list N).
(** fly_config_item_search, conf.c:40-49: the position of the entry. *)
Fixpoint item_search_in (cs : list config) (i : nat) (name : list N) : option (nat * config) :=
  match cs with
  | [] => None
  | c :: t => if (length name =? length (c_name c))%nat && strncmp_eqb (length name) name (c_name c) then Some (i, c) else item_search_in t (S i) name
  end.
Definition item_search (name : list N) : option (nat * config) := item_search_in configs 0 name.
(** fly_config_item_default_setting, conf.c:52-61. *)
Definition defaults : env := fun i => match nth_error configs i with Some c => c_default c | None => None end.

(** The character tests, conf.c:119-126 and char.h. *)
Definition cf_space (c : N) : bool := (c =? 32) || (c =? 9).
Definition cf_alpha (c : N) : bool := ((65 <=? c) && (c <=? 90)) || ((97 <=? c) && (c <=? 122)).
Definition cf_name (c : N) : bool := cf_alpha c || (c =? 95).
Definition cf_value (c : N) : bool :=
  cf_alpha c || ((48 <=? c) && (c <=? 57)) || (c =? 46) || (c =? 47) || (c =? 45) || (c =? 95).

(** The loop over one line, conf.c:118-268.  The argument [l] is what fgets has stored from ptr on; behind it the buffer
    holds NULs up to FLY_CONFIG_BUF_LAST_PTR ([full]: fgets has filled the buffer, so that the end of [l] is
    FLY_CONFIG_BUF_LAST_PTR, where the loop is left).  Transitions that do not advance ptr are merged with the step that
    follows.  The state NAME is [p_name] and so on; the name is NULL or its length 0 where the result has []. *)
Inductive lres :=
| LSkip                             (* comment: or newline: *)
| LSyntax                           (* goto syntax_error inside the loop *)
| LEnd (name value : list N).       (* end_line: *)
Fixpoint p_value (full : bool) (name value l : list N) : lres :=
  match l with
  | [] => if full then LEnd name [] else LSyntax
  | c :: t => if cf_value c then p_value full name (value ++ [c]) t
              else if cf_space c then LEnd name value
              else if (c =? 13) || (c =? 10) then LEnd name value
              else LSyntax
  end.
Fixpoint p_equal (full : bool) (name l : list N) : lres :=
  match l with
  | [] => if full then LEnd name [] else LSyntax
  | c :: t => if cf_space c then p_equal full name t
              else if cf_value c then p_value full name [c] t
              else LSyntax
  end.
Fixpoint p_name_end (full : bool) (name l : list N) : lres :=
  match l with
  | [] => if full then LEnd name [] else LSyntax
  | c :: t => if cf_space c then p_name_end full name t
              else if c =? 61 then p_equal full name t
              else LSyntax
  end.
Fixpoint p_name (full : bool) (name l : list N) : lres :=
  match l with
  | [] => if full then LEnd [] [] else LSyntax
  | c :: t => if cf_space c then p_name_end full name t
              else if c =? 61 then p_equal full name t
              else if cf_name c then p_name full (name ++ [c]) t
              else LSyntax
  end.
Fixpoint p_init (full : bool) (l : list N) : lres :=
  match l with
  | [] => if full then LEnd [] [] else LSyntax
  | c :: t => if cf_space c then p_init full t
              else if cf_name c then p_name full [c] t
              else if c =? 35 then LSkip
              else if c =? 13 then p_init full t
              else if c =? 10 then LSkip
              else LSyntax
  end.

(** (int) of a long, gcc. *)
Definition int_of_long (z : Z) : Z := ((z + 2147483648) mod 4294967296 - 2147483648)%Z.
(** fly_set_config_value, conf.c:380-410: None if the process exits. *)
Definition value_ok (t : ctype) (value : list N) : bool :=
  match t with
  | CInteger => negb ((int_of_long (strtoll value) =? 0)%Z && negb (match value with c :: _ => c =? 48 | [] => false end))
  | CBool => strncmp_eqb 4 value (bs "true") || strncmp_eqb 4 value (bs "True") || strncmp_eqb 5 value (bs "false") || strncmp_eqb 5 value (bs "False")
  | CString => true
  end.
Definition set_env (e : env) (i : nat) (v : list N) : env := fun j => if (j =? i)%nat then Some v else e j.

(** fly_parse_config_file, conf.c:68-350, for a file that could be opened.  [CSuccess] and [CError] are the return
    values, [CExit]: the process has ended. *)
Inductive cres := CSuccess (e : env) | CError (e : env) | CExit.
(** One line: conf.c:101-330, with [chunk] as stored by fgets. *)
Inductive linestep := SNext (e : env) | SError | SExit.
Definition buf_length : nat := 1024.
Definition conf_line (e : env) (chunk : list N) : outcome linestep :=
  match p_init (length chunk =? buf_length - 1)%nat chunk with
  | LSkip => Ok (SNext e)
  | LSyntax => Ok SError
  | LEnd name value =>
    (* the loop that looks for the end of the line, conf.c:275-278 *)
    if existsb (fun c => (c =? 13) || (c =? 10)) chunk then
      match name, value with
      | [], _ => Ok SError
      | _, [] => Ok SError
      | _, _ => match item_search name with
                | None => Ok SError
                | Some (i, c) => Ok (if value_ok (c_type c) value then SNext (set_env e i value) else SExit)
                end
      end
    else UB OutOfBounds
  end.
(** fgets(config_buf, 1024, file): at most [n] bytes, up to and with a line feed; and the rest of the file. *)
Fixpoint fgets (n : nat) (file : list N) : list N * list N :=
  match n, file with
  | O, _ => ([], file)
  | _, [] => ([], [])
  | S n', c :: t => if c =? 10 then ([c], t) else let r := fgets n' t in (c :: fst r, snd r)
  end.
Fixpoint conf_loop (fuel : nat) (e : env) (file : list N) : outcome cres :=
  match fuel with
  | O => UB Diverges
  | S f =>
    match file with
    | [] => Ok (CSuccess e)
    | _ => let r := fgets (buf_length - 1) file in
           obind (conf_line e (fst r)) (fun s => match s with SNext e' => conf_loop f e' (snd r) | SError => Ok (CError e) | SExit => Ok CExit end)
    end
  end.
Definition parse_config (file : list N) : outcome cres := conf_loop (S (length file)) defaults file.

(** Reading options: conf.c:414-462; the loop over the table finds the entry of the environment variable. *)
Fixpoint env_search_in (cs : list config) (i : nat) (name : list N) : option nat :=
  match cs with
  | [] => None
  | c :: t => if (length name =? length (c_env c))%nat && strncmp_eqb (length name) name (c_env c) then Some i else env_search_in t (S i) name
  end.
(** None: FLY_NOT_COME_HERE or a failed assertion. *)
Definition value_str (e : env) (name : list N) : option (option (list N)) := option_map e (env_search_in configs 0 name).
(** The value strtol computes before it is limited; errno is ERANGE if it does not fit. *)
Definition strtol_exact (s : list N) : Z :=
  match skip_spaces s with
  | 45 :: t => (- Z.of_N (dec_value (lead_digits t)))%Z
  | 43 :: t => Z.of_N (dec_value (lead_digits t))
  | t => Z.of_N (dec_value (lead_digits t))
  end.
Definition value_long (e : env) (name : list N) : option Z :=
  match env_search_in configs 0 name with
  | None => None
  | Some i => match e i with
              | None => None
              | Some v => let z := strtol_exact v in Some (if (z <? long_min)%Z || (long_max <? z)%Z then long_max else z)
              end
  end.
Definition value_bool (e : env) (name : list N) : option bool :=
  match env_search_in configs 0 name with
  | None => None
  | Some i => match e i with
              | None => None
              | Some v => Some (strncmp_eqb 4 v (bs "true") || strncmp_eqb 4 v (bs "True"))
              end
  end.
