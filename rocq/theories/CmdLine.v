(** Model of the command line: fly/main.py, and of how a configuration gets from there to the server (fly/app.py:57-122,
    250-300; src/pyserver.c:976-992; src/conf.c, see Conf.v).

    Not modelled: click's own checks (the values here have passed them), routes and mounts (the application is assumed to have
    one), failures behind the configuration (sockets, paths that do not exist). *)
From Verif Require Import Base CStr CNum Status Conf.
Local Open Scope N_scope.

(** The options, main.py:15-232; [None] and [false]: not given.  Paths are what os.path.abspath made of them (main.py:239-267);
    app, conf_path, daemon, test, print_request and production are not settings of the configuration. *)
Record cmd := mkCmd {
  o_mount_max : option Z; o_workers : option Z; o_encode_threshold : option Z; o_host : option (list N); o_port : option Z; o_ssl : bool;
  o_ssl_crt_path : option (list N); o_ssl_key_path : option (list N); o_pidfile_path : option (list N); o_index_path : option (list N);
  o_log_path : option (list N); o_stdout : bool; o_stderr : bool; o_backlog : option Z; o_max_response_len : option Z;
  o_max_request_len : option Z; o_request_timeout : option Z }.
Definition no_options : cmd := mkCmd None None None None None false None None None None None false false None None None None.
(** What an f-string prints for an int and for True. *)
Definition py_int (o : option Z) : option (list N) := option_map dec_z o.
Definition py_flag (b : bool) : option (list N) := if b then Some (bs "True") else None.
(** kwargs, main.py:239-267, in its order, with the values printed; simplified: the entries that are not settings have fixed
    values. *)
Definition kwargs (c : cmd) : list (list N * option (list N)) :=
  [ (bs "app", Some (bs "app")); (bs "conf_path", None); (bs "daemon", Some (bs "False"));
    (bs "mount_max", py_int (o_mount_max c)); (bs "workers", py_int (o_workers c)); (bs "encode_threshold", py_int (o_encode_threshold c));
    (bs "host", o_host c); (bs "port", py_int (o_port c)); (bs "ssl", py_flag (o_ssl c)); (bs "ssl_crt_path", o_ssl_crt_path c);
    (bs "ssl_key_path", o_ssl_key_path c); (bs "pidfile_path", o_pidfile_path c); (bs "index_path", o_index_path c); (bs "log_path", o_log_path c);
    (bs "log_stdout", py_flag (o_stdout c)); (bs "log_stderr", py_flag (o_stderr c)); (bs "backlog", py_int (o_backlog c));
    (bs "max_response_content_length", py_int (o_max_response_len c)); (bs "max_request_content_length", py_int (o_max_request_len c));
    (bs "request_timeout", py_int (o_request_timeout c)); (bs "test", Some (bs "False")); (bs "print_request", Some (bs "False")); (bs "production", Some (bs "False")) ].
(** CONF_PARAMETES, main.py:317-337. *)
Definition conf_parameters : list (list N) :=
  [ bs "mount_max"; bs "file_max"; bs "workers"; bs "workers_max"; bs "encode_threshold"; bs "host"; bs "port"; bs "ssl"; bs "ssl_crt_path"; bs "ssl_key_path";
    bs "pidfile_path"; bs "index_path"; bs "log_path"; bs "log_stdout"; bs "log_stderr"; bs "backlog"; bs "max_response_content_length";
    bs "max_request_content_length"; bs "request_timeout" ].
(** main.py:339-344: one line per setting that was given. *)
Definition par (key value : list N) : list N := key ++ bs " = " ++ value ++ [10].
Fixpoint pars (kws : list (list N * option (list N))) : list N :=
  match kws with
  | [] => []
  | (k, Some v) :: t => if existsb (bytes_eqb k) conf_parameters then par k v ++ pars t else pars t
  | (_, None) :: t => pars t
  end.
(** open(path, "r").read(): every CR LF and every CR is a LF.  Files that are not text in the encoding of the locale are left
    out. *)
Fixpoint universal (l : list N) : list N :=
  match l with
  | [] => []
  | c :: t => if c =? 13 then 10 :: match t with d :: t' => if d =? 10 then universal t' else universal t | [] => [] end
              else c :: universal t
  end.
(** The temporary file, main.py:307-344. *)
Definition cmd_text (conf : option (list N)) (c : cmd) : list N := match conf with Some t => universal t | None => [] end ++ pars (kwargs c).

(** What becomes of the process.  [Serves]: the server runs with these settings; [Idle]: the error is displayed and the process
    waits for a change of the application's file (app.py:57-81, 94-102); [Ends]: with this exit status; [Dies]: the C code
    ends the process. *)
Inductive fate := Serves (e : env) | Idle | Ends (status : Z) | Dies.
(** How the statements between try: and finally: (main.py:308-369) are left. *)
Inductive pyend := PyRaise | PyExit (n : Z).
(** sys.exit(0) in finally:, main.py:367-369, replaces what was under way. *)
Definition finally_exit (_ : pyend) : Z := 0%Z.
(** The position of default_content_path. *)
Definition default_content_path : nat := 22.
(** Fly._start_server with a configuration file of this text (app.py:257-290), called from _run (app.py:87-102): a configuration
    error is displayed and ends in sys.exit(1); _display_explain (app.py:336) raises NameError if there is a default content
    path. *)
Definition start_server (text : list N) : outcome fate :=
  obind (parse_config text) (fun r => Ok match r with
  | CSuccess e => match e default_content_path with Some _ => Idle | None => Serves e end
  | CError _ => Ends (finally_exit (PyExit 1))
  | CExit => Dies
  end).
(** An application: whether it can be imported; its Fly instance, if there is one, with the config_path it was made with. *)
Record appl := mkApp { a_loads : bool; a_fly : option (option (list N)) }.
(** run, main.py:276-371.  [disk]: the contents of the configuration files; [path]: of -c, absolute. *)
Definition launch (disk : list N -> option (list N)) (a : appl) (path : option (list N)) (c : cmd) : outcome fate :=
  if negb (a_loads a) then Ok (Ends 1)
  else match a_fly a with
  | None => Ok (Ends (finally_exit (PyExit 1)))
  | Some own =>
    match path, own with
    | Some p, Some q => if bytes_eqb p q then start_server (cmd_text (disk p) c) else Ok (Ends (finally_exit PyRaise))
    | Some p, None => start_server (cmd_text (disk p) c)
    | None, _ => start_server (cmd_text None c)
    end
  end.
(** The next configuration, after the application's file has changed (app.py:108-122): the module is executed again, which
    sets config_path again (app.py:148); without one FLY_CONFIG_PATH stays what it was (pyserver.c:976). *)
Definition relaunch (disk : list N -> option (list N)) (a : appl) (path : option (list N)) (c : cmd) : outcome fate :=
  match a_fly a with
  | None => Ok (Ends (finally_exit (PyExit 1)))
  | Some (Some q) => start_server (match disk q with Some t => t | None => [] end)
  | Some None => start_server (cmd_text (match path with Some p => disk p | None => None end) c)
  end.
