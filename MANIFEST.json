{
 "claims": [
  {
   "property": "C01",
   "status": "proved",
   "theorems": [
    "index_is_map",
    "index_insert_present",
    "index_lookup_empty_refuted"
   ],
   "note": "Lookups require a non-empty index: unguarded lookups on an empty one are undefined behaviour (refuted); the callers guard."
  },
  {
   "property": "C02",
   "status": "proved",
   "theorems": [
    "index_sorted_balanced"
   ],
   "note": ""
  },
  {
   "property": "C03",
   "status": "proved",
   "theorems": [
    "index_handles",
    "index_duplicate_key_refuted",
    "index_node_address_refuted"
   ],
   "note": "Proved for handles registered under an absent key; the duplicate-key case is refuted with a witness."
  },
  {
   "property": "C04",
   "status": "proved",
   "theorems": [
    "list_order",
    "queue_order_and_count",
    "queue_pop_is_lifo",
    "queue_pop_empty_refuted"
   ],
   "note": "Popping an empty queue is outside legal use; its effect on the counter is shown as a refutation."
  },
  {
   "property": "C05",
   "status": "proved",
   "theorems": [
    "pool_blocks_released_once",
    "pool_free_unknown",
    "pool_delete_exact"
   ],
   "note": ""
  },
  {
   "property": "C06",
   "status": "proved",
   "theorems": [
    "buffer_byte_stream",
    "buffer_chunking_independent",
    "buffer_two_initial_blocks_refuted"
   ],
   "note": "Proved for the default of one initial block; with FLY_CONNECT_BUFFER_INIT_LEN >= 2 the property fails (refuted)."
  },
  {
   "property": "C07",
   "status": "proved",
   "theorems": [
    "buffer_capacity",
    "buffer_append_refused_iff_full",
    "connect_buffer_capacity",
    "buffer_never_full"
   ],
   "note": "The buffer refuses an append that would fill it exactly; stated as n < room."
  },
  {
   "property": "C08",
   "status": "partial",
   "theorems": [
    "buffer_copy_exact",
    "buffer_copy_from_earlier_block",
    "buffer_advance_exact",
    "buffer_copy_last_block_refuted"
   ],
   "note": "Exact when the given block is the one holding the source, or the source is not in the last block; otherwise nothing is copied (refuted)."
  },
  {
   "property": "C09",
   "status": "partial",
   "theorems": [
    "buffer_search_finds_delimiter_partial",
    "buffer_search_sound_partial",
    "buffer_search_misses_refuted",
    "buffer_search_reads_stale_memory_refuted"
   ],
   "note": "Full statement is false: CR CR LF is missed and unreceived memory is searched."
  },
  {
   "property": "C10",
   "status": "partial",
   "theorems": [
    "reqline_decoded_partial",
    "reqline_encoded_query_refuted",
    "reqline_connect_origin_refuted"
   ],
   "note": "All methods but CONNECT, all paths, all queries that do not begin with a percent-encoded octet (those lose two bytes, refuted)."
  },
  {
   "property": "C100",
   "status": "partial",
   "theorems": [
    "head_500",
    "head_refuted",
    "head_content_sent",
    "head_content_refuted"
   ],
   "note": "False: every outcome but None and bytes becomes 500, and the content of bytes is sent."
  },
  {
   "property": "C101",
   "status": "partial",
   "theorems": [
    "handler_sent_partial",
    "response_splitting_refuted"
   ],
   "note": "Values are sent as they are: the layout theorem says where, the refutation shows a value with a line end making a field of its own."
  },
  {
   "property": "C102",
   "status": "partial",
   "theorems": [
    "origin_granted_partial",
    "policy_fields_exact",
    "later_methods_unchanged",
    "second_method_refuted",
    "production_origin_lost",
    "production_origin_refuted"
   ],
   "note": "Debug mode, first route of each path. False for the other methods of a path and, for every table, in production."
  },
  {
   "property": "C103",
   "status": "partial",
   "theorems": [
    "arguments_exact_partial",
    "kwargs_handler_fails",
    "header_argument_takes_all",
    "arguments_refuted",
    "capital_finds_nothing"
   ],
   "note": "For signatures in which no argument is named like an entry another one reads; FormData is not modelled. A handler with ** arguments always fails; an argument named header takes the fields from later ones."
  },
  {
   "property": "C104",
   "status": "partial",
   "theorems": [
    "headers_delivered",
    "header_not_utf8_crashes",
    "header_bytes_refuted"
   ],
   "note": "All UTF-8 values are delivered; any other value makes CPython use a null object (HTTP/2 lets such bytes in)."
  },
  {
   "property": "C105",
   "status": "partial",
   "theorems": [
    "cookie_attributes_partial",
    "max_age_zero_lost",
    "max_age_zero_refuted",
    "value_adds_attributes"
   ],
   "note": "Exact but for Max-Age 0, which is left out; a value with ';' adds attributes."
  },
  {
   "property": "C106",
   "status": "partial",
   "theorems": [
    "conversation_exact_partial",
    "conversation_complete",
    "refused_body_refuted",
    "expect_conversation_refuted",
    "pipelined_refuted"
   ],
   "note": "For every site, application and list of requests within the hypotheses of C19, C63 and C84, each sent after the answer to the one before. False when a refused request still has its body in transit (the body is run as a request), when 100 is asked for, and for pipelined requests."
  },
  {
   "property": "C107",
   "status": "partial",
   "theorems": [
    "h2_target_exact",
    "h2_target_total",
    "h2_line_exact",
    "h2_line_total",
    "h2_percent_rejected",
    "h2_percent_refuted",
    "h2_target_refuted",
    "h2_pseudo_refuted",
    "h2_empty_method_crashes",
    "h2_empty_method_refuted"
   ],
   "note": "Exactly which targets and fields are accepted. False: every percent-encoded target is refused, malformed targets and field lists are accepted, an empty :method or :scheme crashes."
  },
  {
   "property": "C108",
   "status": "partial",
   "theorems": [
    "h2_same_answer_partial",
    "h2_answer_exact_partial",
    "h2_percent_rejected",
    "h2_empty_language_crashes",
    "h2_empty_language_refuted",
    "h2_conditional_refuted"
   ],
   "note": "For all sites and requests with a target of C107, regular fields with values and a declared length that the frames bring, without Content-Encoding; the answer is the one of C19. False for percent-encoded targets, for an empty Accept-Language and for coded bodies (C119)."
  },
  {
   "property": "C109",
   "status": "partial",
   "theorems": [
    "h2_body_exact_partial",
    "h2_body_declared",
    "h2_undeclared_body_closes",
    "h2_undeclared_body_refuted",
    "h2_short_body_refuted"
   ],
   "note": "Exact for every declared length and list of frames; the property holds if the declared length is the length sent. Without one the connection is closed; with a longer one the handler gets memory never written."
  },
  {
   "property": "C11",
   "status": "partial",
   "theorems": [
    "reqline_language_partial",
    "reqline_malformed_accepted_refuted"
   ],
   "note": "The accepted language is characterised exactly, both directions, and the parser is shown to be memory safe and terminating; the language is larger than the RFC's (refuted)."
  },
  {
   "property": "C110",
   "status": "partial",
   "theorems": [
    "h2_wire_exact_partial",
    "h2_wire_any_partial",
    "h2_wire_complete",
    "h2_short_header_repeated",
    "h2_short_payload_repeated",
    "h2_short_data_header_broken",
    "h2_short_write_refuted",
    "h2_interrupted_write_refuted",
    "h2_default_content_hangs",
    "h2_short_file_hangs",
    "h2_response_finished_refuted"
   ],
   "note": "Plain sockets. Exact if no send stops inside a frame header or queued payload; the content is exact under every pattern. False otherwise: every part that is cut by a full socket is sent again from its start, a DATA header is broken by any short write, and un-coded default contents and shortened files never return from the call."
  },
  {
   "property": "C111",
   "status": "partial",
   "theorems": [
    "h2_gone_client_closes_partial",
    "h2_gone_download_ends_worker",
    "h2_reset_ends_worker",
    "h2_gone_client_refuted"
   ],
   "note": "EPIPE while anything but a file is written closes the connection only. While a file is written it ends the worker, and a reset (any other errno) ends it always."
  },
  {
   "property": "C112",
   "status": "partial",
   "theorems": [
    "h2_answer_delivered_partial",
    "h2_status_delivered",
    "h2_file_delivered",
    "h2_handler_fields",
    "h2_one_content_length",
    "h2_refusal_crashes",
    "h2_refusal_refuted",
    "h2_identity_crashes",
    "h2_identity_refuted",
    "h2_default_content_hangs_worker",
    "h2_default_content_refuted",
    "h2_unknown_status_crashes",
    "h2_unknown_status_refuted"
   ],
   "note": "For fields that survive the block encoding (C59), blocks below 1000 bytes (C50), deliverable contents and a socket that takes what it is given (C110). False: content that must be refused is answered by a use after free, files and default contents for clients that prefer identity and unknown status codes dereference NULL, uncoded default contents hang the worker."
  },
  {
   "property": "C113",
   "status": "partial",
   "theorems": [
    "h2_stream_ended_partial",
    "h2_empty_content_unended",
    "h2_stream_ended_refuted",
    "h2_full_window_unended",
    "h2_full_window_refuted"
   ],
   "note": "Holds without content and for content smaller than both windows. False for every empty body or file and for all content as long as the window or longer."
  },
  {
   "property": "C114",
   "status": "partial",
   "theorems": [
    "h2_content_in_one_frame",
    "h2_window_respected_refuted",
    "h2_frame_size_refuted"
   ],
   "note": "Every content goes out as one DATA frame whatever the windows and the frame size of the client are."
  },
  {
   "property": "C115",
   "status": "partial",
   "theorems": [
    "python_names_after",
    "python_names_refuted"
   ],
   "note": "Exactly which names later responses carry: those an HTTP/2 response has used are in lower case for ever."
  },
  {
   "property": "C116",
   "status": "partial",
   "theorems": [
    "connections_independent_partial",
    "accept_failure_ends_worker",
    "reset_ends_worker",
    "handshake_close_corrupts",
    "connections_independent_refuted",
    "connections_memory_refuted"
   ],
   "note": "For every history of accepts, first bytes, handshakes, exchanges and timeouts with any number of connections, but for the events named. False for these: a failing accept4 and a reset before the first byte end the worker, a close during the TLS handshake leaves a freed event registered. HTTP itself is an oracle here (C106, C110)."
  },
  {
   "property": "C117",
   "status": "partial",
   "theorems": [
    "overdue_connections_closed_partial",
    "silent_client_crashes_worker",
    "busy_worker_serves_no_timeouts",
    "overdue_connections_closed_refuted"
   ],
   "note": "Exact on idle turns for connections that speak HTTP. False while the worker is busy, and a client that never sends a byte makes the worker dereference NULL when its time is up."
  },
  {
   "property": "C118",
   "status": "proved",
   "theorems": [
    "first_byte_decides",
    "protocol_as_agreed"
   ],
   "note": "For every state the worker can be in within C116."
  },
  {
   "property": "C119",
   "status": "partial",
   "theorems": [
    "coded_body_as_sent",
    "h2_coded_body",
    "h2_coded_without_data",
    "h2_coded_body_refuted",
    "coded_body_refuted"
   ],
   "note": "False of every coded body: over HTTP/1.1 it is delivered as sent; over HTTP/2 gzip fails the connection, deflate, br and identity are delivered empty, every other name crashes the worker."
  },
  {
   "property": "C12",
   "status": "partial",
   "theorems": [
    "reqline_segmentation_partial",
    "reqline_stale_memory_refuted"
   ],
   "note": "For every buffer layout, provided the memory behind the received bytes contains no line feed; otherwise refuted."
  },
  {
   "property": "C120",
   "status": "partial",
   "theorems": [
    "access_log_exact_partial",
    "access_log_one_line_each",
    "access_log_long_joined",
    "access_log_refuted",
    "h2_log_exact",
    "h2_log_query_cut",
    "h2_log_refuted",
    "h2_log_forged",
    "h2_log_forged_refuted"
   ],
   "note": "HTTP/1.1, for every connection of C106: one record per answer written to its end, with its request line and status. False for records over 296 bytes (status and line feed lost), for HTTP/2 queries (cut to six bytes, version lost) and for HTTP/2 paths with a line feed, with which a client writes lines of its own. How records reach the file is C74."
  },
  {
   "property": "C121",
   "status": "partial",
   "theorems": [
    "watch_follows_partial",
    "watch_tells_partial",
    "replaced_file_known",
    "new_directory_scanned",
    "start_directory_blind",
    "start_directory_dark",
    "start_directory_refuted",
    "renamed_file_lost",
    "renamed_file_refuted",
    "made_and_removed_stops",
    "written_and_removed_stops",
    "removal_refuted"
   ],
   "note": "For every tree and history without renamings and new names in directories of the start, if the master keeps up with the events. False otherwise: new names in directories of the start are never noticed, nor anything below directories made there; a renamed file loses its watch; a file that is gone when its event is read stops the whole server. Directories are not moved or removed here (C31), one mount point."
  },
  {
   "property": "C122",
   "status": "partial",
   "theorems": [
    "command_line_wins_partial",
    "command_line_blank_refuted",
    "command_line_text_stops",
    "command_line_host_refuted",
    "unended_comment_swallows",
    "unended_setting_glued",
    "unended_refuted",
    "app_config_ignored",
    "app_config_refuted",
    "reload_forgets_options",
    "reload_keeps_options_partial",
    "reload_refuted",
    "default_content_never_serves",
    "command_default_content_refuted",
    "pidfile_option_idle",
    "exit_status_zero",
    "exit_status_refuted"
   ],
   "note": "For every configuration file of complete lines and all options (numbers below 2^32, texts that begin with characters a setting may have) the option wins, then the file, then the default. Findings: texts are cut at blanks, other characters (every IPv6 address) keep the server from starting, a last line without its end swallows the first option, the application's own configuration file is ignored at the start and replaces the options at a reload, a default content path keeps every server from starting, --pidfile-path alone does nothing, the exit status is 0 for failures too."
  },
  {
   "property": "C123",
   "status": "partial",
   "theorems": [
    "acknowledged_safe_partial",
    "settings_all_sent",
    "early_ack_use_after_free",
    "settings_and_ack_use_after_free",
    "polite_client_refuted",
    "close_safe_iff",
    "close_refuted"
   ],
   "note": "Safe for all histories in which acknowledgements come when all of the server's SETTINGS frames have been sent. False otherwise: an acknowledgement frees the frames that still wait to be sent, so that two frames received at one time (SETTINGS, SETTINGS with ACK) make every server use freed memory; a client that keeps to the protocol can do it too. Closing is proved unsafe exactly if one own frame is unsent and another unacknowledged."
  },
  {
   "property": "C124",
   "status": "partial",
   "theorems": [
    "client_limits_kept_partial",
    "client_limits_last_partial",
    "settings_announced_exact",
    "frame_size_default",
    "own_value_becomes_clients",
    "client_window_refuted",
    "announced_frame_size_refuted",
    "h2_settings_payload_partial",
    "h2_settings_payload_only_last",
    "h2_settings_payload_refuted"
   ],
   "note": "True only without any FLY_SETTINGS_... variable. The acknowledgement makes the server's own values, modulo 65536, limits of the client; a larger upload window keeps every response from having a body; the announced frame size is not accepted; with two or more variables the announced values are uninitialised memory."
  },
  {
   "property": "C125",
   "status": "partial",
   "theorems": [
    "pid_file_names_server_partial",
    "daemon_pid_file_wrong",
    "pid_file_stays",
    "pid_file_one_start",
    "pid_file_second_start_fails",
    "pid_file_change_ends",
    "daemon_change_ends",
    "plain_change_goes_on",
    "pid_file_path_ignored",
    "pid_file_refuted",
    "pid_file_restart_refuted"
   ],
   "note": "Proved for servers that are no daemons.  Refuted otherwise: a daemon's file holds the pid of the process that started it, the file is never removed, so a second start fails, a change of the application in debug mode ends the server, and the configured path is ignored."
  },
  {
   "property": "C126",
   "status": "partial",
   "theorems": [
    "daemon_descriptors_partial",
    "daemon_lets_terminal_go_partial",
    "daemon_closed_stdin",
    "daemon_unlimited_keeps_all",
    "daemon_lets_terminal_go_refuted"
   ],
   "note": "Proved when descriptors 0-2 are not log files or sockets and the limit of open files is a positive int.  Refuted with an unlimited number of files: nothing is closed and nobody notices."
  },
  {
   "property": "C127",
   "status": "partial",
   "theorems": [
    "h2_preface_whole_partial",
    "h2_preface_cut_refused",
    "h2_preface_sound",
    "h2_preface_waits",
    "h2_preface_wrong_refused",
    "h2_preface_safe",
    "h2_preface_short_blocks_crash",
    "h2_preface_refuted"
   ],
   "note": "A preface that arrives in one piece is accepted, nothing else is ever accepted, and no byte behind it is lost. A preface in several pieces is refused: the byte behind the first piece is compared before it was received. Blocks of less than 24 bytes let one wrong byte crash the worker."
  },
  {
   "property": "C128",
   "status": "partial",
   "theorems": [
    "h2_goaway_never_sent",
    "h2_emergency_tells_partial",
    "h2_refused_preface_silent",
    "h2_tells_why_refuted"
   ],
   "note": "False: in every history without an internal error no GOAWAY frame is sent. After an internal error one is (proved for every history)."
  },
  {
   "property": "C129",
   "status": "partial",
   "theorems": [
    "h2_priority_memory_partial",
    "h2_priority_siblings_partial",
    "h2_priority_unknown_crashes",
    "h2_priority_hangs",
    "h2_priority_closed_used",
    "h2_priority_refuted"
   ],
   "note": "Memory is safe when every dependency is a stream that is there and no prioritised stream has been closed; every frame ends for streams of the root with weights that do not rise. False otherwise: a dependency on an unused stream crashes the worker, four frames with weights 16, 16, 17, 16 make it loop for ever, and a closed stream's memory is used by the next PRIORITY frame."
  },
  {
   "property": "C13",
   "status": "partial",
   "theorems": [
    "reqline_other_target_rejected",
    "reqline_absolute_form_rejected",
    "reqline_asterisk_form_rejected",
    "reqline_target_forms_refuted",
    "reqline_authority_form_refuted"
   ],
   "note": "The claim is false: only targets beginning with a slash are accepted for methods other than CONNECT."
  },
  {
   "property": "C130",
   "status": "partial",
   "theorems": [
    "listen_first_partial",
    "listen_open_partial",
    "listen_memory",
    "listen_every_address_refuted",
    "listen_leak_refuted",
    "listen_untold_refuted"
   ],
   "note": "When the server listens, on which address, what stays open and when memory is misused are all proved exactly. False as stated: only the first address that can be bound is listened on, a socket that cannot be made non-blocking is never closed, and a refused SO_REUSEADDR ends the start with a message read from a variable without a value."
  },
  {
   "property": "C131",
   "status": "partial",
   "theorems": [
    "log_file_partial",
    "log_files_differ",
    "log_stdout_copies",
    "log_stderr_never",
    "log_path_memory",
    "log_stderr_refuted",
    "log_lost_refuted",
    "log_path_refuted"
   ],
   "note": "Each kind of record goes once to its own file, and only there. False: what is meant for standard error goes to standard output, a log file that cannot be opened loses its records without a word, and a log directory whose name has 4081 or 4082 bytes is read behind its array."
  },
  {
   "property": "C132",
   "status": "partial",
   "theorems": [
    "h2_priority_weight_partial",
    "h2_priority_weight_others",
    "h2_priority_exclusive",
    "h2_priority_first",
    "h2_priority_weight_refuted"
   ],
   "note": "Weights modulo 256, the place of a stream with the exclusive flag and of the first stream of a dependency are proved for every history. False for the greatest weight: 256 becomes 0. The place of later streams without the flag is in C129 (siblings); its count goes to the wrong stream."
  },
  {
   "property": "C133",
   "status": "partial",
   "theorems": [
    "worker_files_partial",
    "worker_files_ready",
    "worker_unreadable_stops",
    "worker_files_refuted",
    "worker_unopened_refuted"
   ],
   "note": "When a worker gets past its files and what it did with each is proved exactly. False as stated: a file that is large enough to be encoded beforehand and can no longer be opened stops every new worker (and with it the server, C70); a small one is served without being open."
  },
  {
   "property": "C134",
   "status": "partial",
   "theorems": [
    "default_pages_exact",
    "default_pages_start_partial",
    "default_pages_memory",
    "default_pages_none",
    "default_pages_refuted"
   ],
   "note": "Which page belongs to which status code, when the worker starts and when memory is misused are proved exactly. False as stated: a page that cannot be encoded stops every worker, and a directory with a name of more than 4086 bytes is written behind its array."
  },
  {
   "property": "C135",
   "status": "partial",
   "theorems": [
    "redirect_accepts_iff",
    "redirect_sent_partial",
    "redirect_other_status_crashes",
    "redirect_308_refuted",
    "redirect_head_500",
    "redirect_head_refuted",
    "redirect_wrong_arguments",
    "redirect_splitting_refuted",
    "redirect_over_h2"
   ],
   "note": "Every byte sent is proved for the statuses 300-304 and 307, all locations without NUL bytes and all bodies below the encoding threshold. False as stated: every other 3xx status (308 among them) makes the worker print a NULL string, a HEAD request is answered with 500, and a location with a line end adds fields of its own."
  },
  {
   "property": "C136",
   "status": "partial",
   "theorems": [
    "app_change_exact",
    "app_silent_unnoticed",
    "app_change_cases",
    "app_mask_exact",
    "app_save_refuted",
    "app_debug_irrelevant",
    "app_production_refuted",
    "app_no_file",
    "server_end_use_after_free",
    "server_end_refuted"
   ],
   "note": "For every series of actions on the file what the master does is proved. False as stated: the event that is asked for when a file is written and closed is not among those handled, so saving the file in place ends the master by a failed assertion; production servers are watched and restarted too; at its end every server reads a list element it has freed."
  },
  {
   "property": "C137",
   "status": "partial",
   "theorems": [
    "app_mistakes_survived_partial",
    "app_retry_exact",
    "app_bad_version_ends",
    "app_missing_file_ends",
    "app_daemon_ends",
    "app_mistakes_refuted"
   ],
   "note": "Proved for all histories in which every version of the file can be executed and configured. False otherwise: only failures of the start itself are waited for; a syntax error, a module without a Fly object, a bad configuration or a file that is missing for a moment ends the process."
  },
  {
   "property": "C138",
   "status": "partial",
   "theorems": [
    "error_end_status",
    "error_end_recorded_partial",
    "error_end_exact",
    "emergency_event_recorded",
    "error_without_file_silent",
    "error_refused_silent",
    "exit_error_status",
    "exit_error_recorded",
    "emergency_never_recorded",
    "emergency_faults_iff",
    "emergency_refuted",
    "error_stdout_refuted"
   ],
   "note": "What is written is proved exactly for errors of handlers when the error log can be written. False as stated: the emergency errors that the code raises directly (56 places) never leave a record, because snprintf builds it over the zero that ends the message it prints; without an error log nothing is written anywhere, although standard output or the notice log is there."
  },
  {
   "property": "C139",
   "status": "partial",
   "theorems": [
    "no_error_goes_on",
    "first_error_only",
    "logged_error_partial",
    "logged_error_crashes",
    "logged_error_refuted"
   ],
   "note": "The record is proved exactly. False as stated: after it the loop over the errors of the event reads the error that was just freed, for every level that is only to be logged and every error log."
  },
  {
   "property": "C14",
   "status": "partial",
   "theorems": [
    "reqline_limit_partial",
    "reqline_endless_not_ready",
    "reqline_limit_refuted",
    "long_line_crashes",
    "long_line_414_refuted"
   ],
   "note": "The check is exact for lines that end; a line that never ends is never answered 414, and where the check succeeds the 414 response dereferences NULL."
  },
  {
   "property": "C140",
   "status": "partial",
   "theorems": [
    "error_log_exact_partial",
    "error_log_after_record",
    "error_log_new_file",
    "error_log_kept_iff",
    "error_log_kept_refuted"
   ],
   "note": "The contents of the file after any series of records is proved exactly. False as stated: records about errors are written at the offset of the descriptor, which is 0 after the start, so that they replace the beginning of the file unless another record was written before in the same run."
  },
  {
   "property": "C141",
   "status": "partial",
   "theorems": [
    "worker_exit_cause",
    "worker_harmless_partial",
    "worker_signal_waits",
    "worker_signal_ends",
    "worker_continued_ends",
    "worker_ignored_refuted",
    "worker_term_starved_refuted"
   ],
   "note": "Which signals end a serving worker, and that they do within a bounded number of reads, is proved. False as stated: signals that are ignored by default (a child's end, continue, urgent data) end a worker, because every signal is blocked and read and an unknown one ends it; a worker that is stopped and continued exits. A request to end is not read while messages about mounted files keep coming, because their number is smaller."
  },
  {
   "property": "C142",
   "status": "partial",
   "theorems": [
    "worker_messages_kept",
    "worker_up_to_date",
    "worker_scan_current",
    "worker_start_killed_iff",
    "worker_start_message_refuted"
   ],
   "note": "Proved for a worker that serves. False as stated: a new worker unblocks all signals before it has a function for any, so that a message about mounted files that arrives while it opens its files kills it."
  },
  {
   "property": "C143",
   "status": "partial",
   "theorems": [
    "file_sent_exact_iff",
    "file_sent_partial",
    "file_short_forever",
    "file_offset",
    "file_sent_refuted",
    "file_short_write_refuted",
    "file_again_refuted"
   ],
   "note": "When the bytes sent are the right ones is proved exactly for writes that take all they are given. False as stated: whole blocks are sent, whatever number was asked for; after a partial write the block is sent from its beginning; an error after some bytes leaves the offset where it was; past the end of the file the loop does not end. This is the build without sys/sendfile.h, and HTTP/2 without TLS."
  },
  {
   "property": "C144",
   "status": "partial",
   "theorems": [
    "signal_actions_restored",
    "signal_actions_own",
    "signals_unblocked",
    "signal_mask_kept_iff",
    "signal_mask_refuted"
   ],
   "note": "Proved for the actions, for all signals and times at which they arrive. False as stated for blocked signals: the end of the server unblocks all of them, also those that the program had blocked before."
  },
  {
   "property": "C15",
   "status": "partial",
   "theorems": [
    "headers_delivered_partial",
    "headers_delivered_one_block_partial",
    "headers_language_partial",
    "header_line_unique",
    "header_no_space_dropped",
    "header_no_space_refuted",
    "header_trailing_space_refuted",
    "header_block_boundary_refuted",
    "header_name_boundary_refuted",
    "nul_line_bad_request",
    "nul_field_waits",
    "nul_field_refuted"
   ],
   "note": "Fields with white space after the colon are delivered completely and in order, for any block layout in which names do not straddle blocks and values do not begin in the last block while the name is in an earlier one; with a single block the accepted lines are characterised exactly. Refuted in general: 'name:value' without white space is silently dropped, trailing white space stays in the value, a value beginning in the last block becomes NUL bytes, a name over two blocks is an out-of-bounds read. A line that does not begin like a field and holds a NUL is answered with 400; a field with a NUL in its name or value makes the request wait for ever."
  },
  {
   "property": "C16",
   "status": "partial",
   "theorems": [
    "content_length_any_case_partial",
    "expect_any_case_partial",
    "cookie_any_case_partial",
    "connection_never_found",
    "content_encoding_never_found",
    "lookup_any_case_refuted"
   ],
   "note": "Content-Length, Expect and Cookie are found in every letter case. Connection and Content-Encoding are never found (names are stored in lower case and compared with the capitalised spelling): refuted."
  },
  {
   "property": "C17",
   "status": "partial",
   "theorems": [
    "header_edits_partial",
    "header_lists_start",
    "header_replace_exact",
    "header_replace_duplicates_refuted",
    "header_empty_name_refuted",
    "header_remove_chain_refuted"
   ],
   "note": "All sequences of add, add-if-absent (both variants), add-or-replace and delete with non-empty names have exactly the specified effect and keep count = number of entries. Refuted: with duplicate names only the first value is replaced, an empty name leads to a NULL dereference, fly_remove_header_chain uses freed memory."
  },
  {
   "property": "C18",
   "status": "partial",
   "theorems": [
    "body_exact_partial",
    "oversize_413_partial",
    "pipelined_refuted",
    "half_close_refuted",
    "body_within_limit_refuted",
    "negative_length_refuted"
   ],
   "note": "For requests whose header block lies within one buffer block and for all ways the bytes arrive, the handler gets exactly the declared bytes and an oversized body is answered 413. Bytes behind the body that have been read are lost (refuted), a half-closed connection is not answered, and a body just within the limit may get 413."
  },
  {
   "property": "C19",
   "status": "partial",
   "theorems": [
    "request_answered_partial",
    "answer_determined",
    "bad_line_rejected",
    "block_boundary_refuted",
    "version_two_refuted",
    "malformed_header_refuted",
    "accept_encodings_refuted"
   ],
   "note": "For well-formed HTTP/1.1 requests with at least one field and a header block within one buffer block, for all deliveries, routes and mounts. A request that ends at the end of a block is never answered, a malformed field is ignored, HTTP/2 in the line crashes."
  },
  {
   "property": "C20",
   "status": "partial",
   "theorems": [
    "connection_partial",
    "status_response_exact",
    "request_close_refuted",
    "failures_close_refuted",
    "continue_crashes"
   ],
   "note": "After a response written at once the connection is kept iff it has no Connection field or its first one says keep-alive. The request's Connection field is never read, 400/500 keep the connection (413 and the 400 without a request close it), 100 Continue uses released memory."
  },
  {
   "property": "C21",
   "status": "partial",
   "theorems": [
    "route_static_first",
    "route_first_partial",
    "route_static_shadowed_refuted"
   ],
   "note": "The full statement for tables without parameter routes; with parameter routes (no slash after a parameter) the first route that takes the request, where parameter routes take every method, so an exact route can be passed over (refuted)."
  },
  {
   "property": "C22",
   "status": "partial",
   "theorems": [
    "route_param_ignores_method",
    "route_param_method_refuted",
    "route_static_respects_method_partial"
   ],
   "note": "The claim is false: parameter routes are selected whatever the method. Routes without parameters respect it."
  },
  {
   "property": "C23",
   "status": "partial",
   "theorems": [
    "route_match_partial",
    "route_capture_partial",
    "route_mid_parameter_never_matches",
    "route_mid_parameter_refuted",
    "route_mid_parameter_memory_refuted",
    "route_suffix_refuted"
   ],
   "note": "Matching exact for parameters in last position, capturing exact for all segment patterns; routes with a parameter followed by a slash are never selected or read out of bounds (refuted)."
  },
  {
   "property": "C24",
   "status": "partial",
   "theorems": [
    "route_registered_partial",
    "route_registration_exact",
    "route_bool_refuted",
    "route_bool_never_recorded",
    "route_type_prefix_refuted",
    "route_no_brace_refuted"
   ],
   "note": "Accepted patterns characterised exactly, and all well-formed patterns without bool recorded correctly. Refuted: bool is recorded as float, type names are only compared as prefixes, a missing closing brace reads out of bounds."
  },
  {
   "property": "C25",
   "status": "partial",
   "theorems": [
    "allow_methods_exact",
    "allow_methods_partial",
    "allow_duplicate_refuted",
    "allow_prefix_refuted",
    "allow_get_refuted"
   ],
   "note": "The list is characterised exactly; it is right for methods other than GET when no registered path is a proper prefix of the request. Refuted: duplicates, prefixes, GET always listed."
  },
  {
   "property": "C26",
   "status": "partial",
   "theorems": [
    "names_method_token_exact",
    "names_version_token_exact",
    "names_type_roundtrip",
    "names_method_string_partial",
    "names_method_string_prefix",
    "names_method_string_refuted",
    "names_scheme_result",
    "names_scheme_refuted",
    "names_absolute_scheme_refuted",
    "names_with_end_refuted"
   ],
   "note": "Exact for HTTP/1 request lines; HTTP/2 and route registration match prefixes (refuted), https is never recognised."
  },
  {
   "property": "C27",
   "status": "partial",
   "theorems": [
    "static_lookup_partial",
    "static_lookup_refuted"
   ],
   "note": "After every history of mounts, additions, removals, change notifications and disappearing mount points, for every request path, while no relative name exists below two mount points; with such a name a registered file can become unreachable (refuted)."
  },
  {
   "property": "C28",
   "status": "proved",
   "theorems": [
    "file_order_lexicographic",
    "file_order_total"
   ],
   "note": "The comparison is the dictionary order."
  },
  {
   "property": "C29",
   "status": "partial",
   "theorems": [
    "directory_never_served",
    "directory_index_refuted"
   ],
   "note": "The claim is false: a directory is never answered with a file."
  },
  {
   "property": "C30",
   "status": "partial",
   "theorems": [
    "file_counts_partial",
    "file_maximum_refuted",
    "unmount_count_refuted"
   ],
   "note": "Counts exact after every history; the maximum is not respected, and fly_unmount does not subtract the files (refuted)."
  },
  {
   "property": "C31",
   "status": "partial",
   "theorems": [
    "removed_directory_partial",
    "removed_subdirectory_diverges",
    "removed_directory_refuted",
    "removed_subdirectory_refuted"
   ],
   "note": "Directories directly below the mount point, without subdirectories: exactly the entries whose name begins with the directory's name are dropped. Refuted: siblings like doc.txt are dropped with doc, and a directory whose name has a slash makes the loop endless."
  },
  {
   "property": "C32",
   "status": "partial",
   "theorems": [
    "mount_numbers_partial",
    "mount_numbers_refuted"
   ],
   "note": "Holds while no mount point disappears; afterwards numbers are given twice (refuted)."
  },
  {
   "property": "C33",
   "status": "partial",
   "theorems": [
    "relative_path_partial",
    "worker_slash_drops_byte",
    "relative_path_refuted"
   ],
   "note": "Round trip for all paths; the worker's version fails for a mount point ending with a slash, that is the root directory (refuted)."
  },
  {
   "property": "C34",
   "status": "partial",
   "theorems": [
    "etag_exact",
    "etag_distinguishes_partial",
    "etag_distinguishes_refuted",
    "etag_input_partial",
    "etag_input_refuted"
   ],
   "note": "Exact characterisation of when two digests share a tag; true for digests of bytes below 128, false in general because bytes are printed as signed char. MD5 itself is not modelled."
  },
  {
   "property": "C35",
   "status": "proved",
   "theorems": [
    "mime_by_last_dot",
    "mime_by_name_partial",
    "mime_by_name_refuted"
   ],
   "note": "Lookup by file name proved in full; lookup by type name overruns the table for unknown names (refuted)."
  },
  {
   "property": "C36",
   "status": "partial",
   "theorems": [
    "accept_encoding_decoded",
    "accept_encoding_listed_partial",
    "accept_encoding_default_weight_refuted",
    "accept_encoding_quality_refuted",
    "accept_encoding_quality_bounds",
    "accept_encoding_space_before_comma_refuted",
    "accept_encoding_overrun_refuted",
    "accept_encoding_terminates"
   ],
   "note": "Exact decoding of every grammatical value proved, including the inherited weight; the full claim is refuted for elements without a weight after a weighted one, for qualities with rounding loss, and for white space before a comma."
  },
  {
   "property": "C37",
   "status": "proved",
   "theorems": [
    "accept_encoding_chosen_acceptable",
    "accept_encoding_406_iff",
    "accept_encoding_none_iff"
   ],
   "note": "406 exactly when something known is listed and nothing has positive quality."
  },
  {
   "property": "C38",
   "status": "partial",
   "theorems": [
    "accept_encoding_most_preferred_partial",
    "accept_encoding_most_preferred_refuted"
   ],
   "note": "False in general: a later coding replaces the current choice only if its built-in priority is higher too."
  },
  {
   "property": "C39",
   "status": "partial",
   "theorems": [
    "accept_encoding_refused_unused_partial",
    "accept_encoding_refused_preencoded_refuted",
    "accept_encoding_star_refuted"
   ],
   "note": "False for pre-encoded files and for '*'."
  },
  {
   "property": "C40",
   "status": "partial",
   "theorems": [
    "accept_charset_decoded",
    "accept_language_decoded",
    "accept_charset_answer_partial",
    "accept_language_answer_partial",
    "accept_charset_language_absent",
    "accept_charset_language_terminates",
    "accept_language_space_refuted",
    "accept_language_overrun_refuted",
    "accept_language_comma_refuted"
   ],
   "note": "Exact characterisation (both directions) of the accepted values, the decoded list and the 400/406 answers for names that fit; the RFC grammar itself is refuted for white space before a comma, and names of 10 (language) or 30 (charset) characters overrun."
  },
  {
   "property": "C41",
   "status": "partial",
   "theorems": [
    "accept_decoded_partial",
    "accept_result_partial",
    "accept_terminates",
    "accept_absent",
    "accept_quality_one_refuted",
    "accept_space_before_semicolon_refuted",
    "accept_wellformed_refuted",
    "accept_memory_refuted"
   ],
   "note": "Decoding proved for lists of media ranges with parameters and weights 0.d to 0.ddd; the full claim is refuted: every weight of 1, q=0, white space before ';' and a comma after an unweighted parameter give 400, long subtypes overrun their array."
  },
  {
   "property": "C42",
   "status": "proved",
   "theorems": [
    "h2_frame_header_roundtrip",
    "h2_frame_header_decode",
    "h2_reserved_bit_refuted"
   ],
   "note": "The unused accessor of the reserved bit itself reads the wrong bit (refuted); it has no observable effect on decoding."
  },
  {
   "property": "C43",
   "status": "partial",
   "theorems": [
    "h2_settings_payload_partial",
    "h2_settings_payload_only_last",
    "h2_settings_payload_refuted"
   ],
   "note": "Full statement false: all pairs are written at offset 0, so only the last one is carried."
  },
  {
   "property": "C44",
   "status": "partial",
   "theorems": [
    "h2_settings_in_order",
    "h2_settings_rfc_partial",
    "h2_settings_unknown_ignored",
    "h2_settings_enable_push",
    "h2_settings_initial_window",
    "h2_settings_max_frame_size_refuted",
    "h2_settings_initial_window_value_refuted",
    "h2_settings_max_header_list_refuted",
    "h2_settings_overread_refuted"
   ],
   "note": "In-order application, unknown parameters and two of the three validations proved; MAX_FRAME_SIZE validation, repeated INITIAL_WINDOW_SIZE and odd payload lengths refuted."
  },
  {
   "property": "C45",
   "status": "partial",
   "theorems": [
    "open_streams_legal",
    "stream_opened_iff",
    "stream_opened_only",
    "limit_counts_connection",
    "stream_limit_refuted"
   ],
   "note": "After every history: identifiers odd, increasing, no duplicates, never more streams than the limit, and opening characterised exactly. The limit counts the connection itself, so one stream fewer than configured is accepted (refuted)."
  },
  {
   "property": "C46",
   "status": "partial",
   "theorems": [
    "stream_received_partial",
    "stream_sent",
    "closed_stays_partial",
    "unexpected_frame_reset_partial",
    "closed_reopened_refuted",
    "answered_once_partial",
    "answered_twice_refuted"
   ],
   "note": "State changes follow the life cycle and requests are answered once for all peers that send DATA and HEADERS only on streams on which they may. For others a closed stream becomes half closed again and a request is answered twice (refuted)."
  },
  {
   "property": "C47",
   "status": "partial",
   "theorems": [
    "send_window_exact",
    "sent_within_credit_partial",
    "sent_within_credit_refuted",
    "end_stream_missing_refuted",
    "initial_window_ignored_refuted"
   ],
   "note": "The windows kept are exactly initial + increments - bytes sent. The bytes sent stay within the credit as long as no body exceeds it; the server compares credit with zero only, so larger bodies go out whole (refuted). Also refuted: END_STREAM is missing on a body of the window's size or more, and a new initial window is not applied to open streams."
  },
  {
   "property": "C48",
   "status": "partial",
   "theorems": [
    "window_bound_partial",
    "window_overflow_refuted",
    "zero_increment_scope_refuted"
   ],
   "note": "No window exceeds 2^31-1 if the increments do not add up to more; beyond that no error is raised, and zero increments are treated on the wrong scope (refuted)."
  },
  {
   "property": "C49",
   "status": "partial",
   "theorems": [
    "window_credit_exact",
    "window_credit_partial",
    "window_credit_refuted"
   ],
   "note": "For all histories the increments sent and queued add up exactly to the DATA bytes counted, and none is 0 or above 2^31-1, provided padded frames are not empty. Padded frames are counted one byte short and empty padded ones as 2^32-1 (refuted)."
  },
  {
   "property": "C50",
   "status": "partial",
   "theorems": [
    "header_block_partial",
    "header_block_frame_partial",
    "header_block_long_crashes",
    "header_block_refuted",
    "header_field_oversize_refuted"
   ],
   "note": "For blocks below 1000 bytes and every frame size limit the frames have exactly the stated form; with the server's limit the block is a single HEADERS frame that decodes to the header list. Blocks of 1000 bytes or more dereference NULL, and a field as large as the limit gives a frame above it (refuted)."
  },
  {
   "property": "C51",
   "status": "partial",
   "theorems": [
    "h2_data_content_partial",
    "h2_headers_content_partial",
    "h2_padding_refuted",
    "h2_padded_empty_refuted"
   ],
   "note": "Holds for unpadded frames and pad length 0; false otherwise (refuted)."
  },
  {
   "property": "C52",
   "status": "partial",
   "theorems": [
    "h2_rst_stream_frame",
    "h2_goaway_frame",
    "h2_window_update_frame",
    "h2_ping_payload",
    "h2_fields_boundary_independent",
    "h2_31bit_contiguous_partial",
    "h2_31bit_anywhere_partial",
    "h2_31bit_boundary_refuted",
    "h2_ping_frame_refuted"
   ],
   "note": "Writers and 8/16/32/64-bit readers proved; 31-bit fields at a block end and the PING frame type refuted."
  },
  {
   "property": "C53",
   "status": "partial",
   "theorems": [
    "hpack_integer_decode_partial",
    "hpack_integer_decode_refuted"
   ],
   "note": "All integers below 2^31 + 2^N - 1 for every prefix size; larger 32-bit integers overflow int arithmetic (finding)."
  },
  {
   "property": "C54",
   "status": "partial",
   "theorems": [
    "hpack_integer_encode_partial",
    "hpack_integer_encode_refuted"
   ],
   "note": "Exact characterisation of the integers encoded correctly; e.g. lengths of 128 and more are not (finding)."
  },
  {
   "property": "C55",
   "status": "partial",
   "theorems": [
    "hpack_dynamic_table_partial",
    "hpack_dynamic_table_refuted"
   ],
   "note": "All histories of insertions; size changes are not implemented: a block with a size update is rejected (finding)."
  },
  {
   "property": "C56",
   "status": "partial",
   "theorems": [
    "hpack_static_table_partial",
    "hpack_static_table_refuted"
   ],
   "note": "All names but entry 41, all values but entries 16 and 17, which are wrong (finding)."
  },
  {
   "property": "C57",
   "status": "partial",
   "theorems": [
    "hpack_huffman_partial",
    "hpack_huffman_refuted"
   ],
   "note": "All strings without byte 13 up to 20000 bytes; byte 13 aborts, longer strings overrun a buffer (findings)."
  },
  {
   "property": "C58",
   "status": "partial",
   "theorems": [
    "hpack_first_octet",
    "hpack_block_partial",
    "hpack_never_indexed_refuted",
    "hpack_bad_index_refuted"
   ],
   "note": "Classification of all first octets, and decoding of whole blocks with the resulting table; findings for never-indexed literal names, size updates and indices without entry. The block structure of the receive buffer is not represented here."
  },
  {
   "property": "C59",
   "status": "partial",
   "theorems": [
    "hpack_response_block_partial",
    "hpack_response_block_refuted"
   ],
   "note": "Header lists whose fields are short and not confused with table entries by prefix comparison; findings otherwise. One HEADERS frame."
  },
  {
   "property": "C60",
   "status": "partial",
   "theorems": [
    "timer_nearest_partial",
    "timer_served_partial",
    "timer_never_a_second_early_partial",
    "timer_early_refuted",
    "timer_stale_mark_refuted"
   ],
   "note": "The loop waits for the earliest deadline after every history without a pending restart, and the timers served are characterised exactly. Refuted: microseconds are ignored (up to a second early), and a mark set by an earlier look at the clock is never taken back."
  },
  {
   "property": "C61",
   "status": "partial",
   "theorems": [
    "timer_index_partial",
    "timer_restart_refuted"
   ],
   "note": "The index is exact and ordered after every history in which each restart is followed by a registration of the same event; between the two it is not (refuted)."
  },
  {
   "property": "C62",
   "status": "partial",
   "theorems": [
    "time_sum_exact",
    "time_milliseconds_exact",
    "time_difference_partial",
    "time_difference_refuted",
    "poll_wait_partial",
    "poll_overdue_partial",
    "poll_wait_refuted"
   ],
   "note": "Sums for all values; differences and comparisons while seconds fit into an int; waits up to 23 days. Refuted beyond. The float helpers are not modelled."
  },
  {
   "property": "C63",
   "status": "partial",
   "theorems": [
    "response_layout_partial",
    "status_response_exact",
    "small_file_exact",
    "gzip_file_exact"
   ],
   "note": "For responses whose content can be coded and that the kernel takes at once, for all codings, fields and contents; see C93 and C95 for the other contents. TLS is not modelled."
  },
  {
   "property": "C64",
   "status": "partial",
   "theorems": [
    "split_writes_restart",
    "short_write_refuted"
   ],
   "note": "False: every send starts at the first byte of the message; no message survives a first write of one byte. Exact if the first send that does not block takes everything (C63)."
  },
  {
   "property": "C65",
   "status": "partial",
   "theorems": [
    "content_length_partial",
    "two_lengths_refuted",
    "unknown_coding_refuted",
    "br_body_cut"
   ],
   "note": "The first Content-Length is right in all deliverable responses and unique unless the handler gave one spelled differently or several."
  },
  {
   "property": "C66",
   "status": "partial",
   "theorems": [
    "status_codes_partial",
    "status_codes_refuted",
    "status_other_integers_refuted"
   ],
   "note": "All listed codes except 410, 411, 505; other integers print a NULL string."
  },
  {
   "property": "C67",
   "status": "partial",
   "theorems": [
    "over_limit_413",
    "over_limit_head_413",
    "handler_mapped_partial",
    "oversize_file_413_partial",
    "oversize_file_refuted",
    "within_limit_refuted"
   ],
   "note": "Proved for handlers: content over the limit is always 413 and content within it is mapped (C84). For files, one over the limit and below the coding threshold is sent, and a body within the limit may be refused because its coded form does not fit."
  },
  {
   "property": "C68",
   "status": "proved",
   "theorems": [
    "worker_count_exact",
    "dead_worker_replaced"
   ],
   "note": "The invariant holds in every history while the master is up; dead_worker_replaced says what handling one death does."
  },
  {
   "property": "C69",
   "status": "partial",
   "theorems": [
    "calm_pool_complete_partial",
    "live_workers_accounted",
    "unnoticed_death_never_noticed",
    "every_dead_worker_replaced_refuted",
    "early_death_lost_refuted",
    "stopped_worker_forgotten",
    "stop_continue_pool_refuted"
   ],
   "note": "Holds in calm histories; false when two workers die before the master reads its signals, when one dies before the signal descriptor exists, and after a stop."
  },
  {
   "property": "C70",
   "status": "partial",
   "theorems": [
    "ending_signals_tracked",
    "fatal_signals_all_refuted",
    "fatal_exit_missed_refuted"
   ],
   "note": "Every tracked worker is signalled and none started; a worker stopped earlier is not signalled, and a dropped notice does not stop the service."
  },
  {
   "property": "C71",
   "status": "partial",
   "theorems": [
    "config_read_partial",
    "config_bad_line_rejected",
    "config_meaning_unique",
    "config_trailing_text_ignored_refuted",
    "config_value_chars_refuted",
    "config_long_comment_refuted",
    "config_integer_exit_refuted"
   ],
   "note": "All files of lines up to 1022 bytes: settings applied in order, other options at their default, malformed lines and unknown names rejected. Refuted: text after a value is ignored, some values cannot be written, long comments are read as settings, multiples of 2^32 end the process."
  },
  {
   "property": "C72",
   "status": "partial",
   "theorems": [
    "config_last_comment_partial",
    "config_last_line_rejected",
    "config_last_line_refuted",
    "config_last_line_memory_refuted"
   ],
   "note": "Holds for a final comment only; every other unterminated last line is an error or read out of bounds (refuted)."
  },
  {
   "property": "C73",
   "status": "partial",
   "theorems": [
    "config_number_partial",
    "config_number_written_partial",
    "config_negative_overflow_refuted",
    "config_number_text_refuted",
    "config_bool_exact",
    "config_bool_written_partial",
    "config_bool_prefix_refuted"
   ],
   "note": "Decimal numbers and the documented spellings are read correctly, from the file to the value. Refuted: negative overflow yields the largest number, trailing text is ignored for numbers and booleans."
  },
  {
   "property": "C74",
   "status": "partial",
   "theorems": [
    "log_not_interleaved",
    "log_complete_partial",
    "log_prefix_partial",
    "log_complete_refuted"
   ],
   "note": "Any number of processes and any interleaving of system calls on a regular file; records are never interleaved. They are complete unless a write is short, in which case the text is started again (refuted). Terminals and the copies on stdout/stderr are not modelled."
  },
  {
   "property": "C75",
   "status": "partial",
   "theorems": [
    "log_offset_partial",
    "log_offset_unambiguous",
    "log_offset_minutes",
    "log_offset_summer",
    "log_offset_refuted"
   ],
   "note": "Right for whole-hour offsets without daylight saving time; wrong for all others. gmtime_r, localtime_r, mktime and strftime are modelled by their effect on the offset."
  },
  {
   "property": "C76",
   "status": "partial",
   "theorems": [
    "multipart_exact_partial",
    "multipart_contents_pieces",
    "multipart_terminates",
    "foreign_field_drops_rest",
    "field_case_refuted",
    "padding_drops_rest",
    "padding_refuted",
    "nul_content_drops_rest",
    "nul_content_refuted",
    "cut_body_overruns",
    "last_minus_refuted",
    "inner_delimiter_refuted",
    "boundary_spelling_refuted"
   ],
   "note": "For all bodies whose part fields begin with 'Content-' and whose contents do not begin with a NUL or contain the delimiter. False otherwise, with universal statements of what happens instead."
  },
  {
   "property": "C77",
   "status": "partial",
   "theorems": [
    "cookie_kept",
    "cookie_kept_only",
    "cookie_round_trip_partial",
    "cookies_round_trip_partial",
    "cookie_value_cut",
    "cookie_equals_refuted",
    "first_of_names",
    "cookie_case_refuted",
    "capital_finds_nothing",
    "capital_refuted",
    "plain_name_found"
   ],
   "note": "For all names and values a browser keeps as they are, without '='. A value with '=' is cut at it; names that differ in case are one to the handler."
  },
  {
   "property": "C78",
   "status": "partial",
   "theorems": [
    "query_round_trip",
    "query_blank_lost",
    "query_blank_refuted",
    "form_round_trip_partial",
    "form_value_splits",
    "form_refuted"
   ],
   "note": "Queries: every list of fields with percent-encoded blanks; a blank written '+' is read as '+'. Forms: every list of fields without encoded '&' or '='; the body is decoded before it is cut."
  },
  {
   "property": "C79",
   "status": "partial",
   "theorems": [
    "path_parameter",
    "path_int",
    "path_bool_true",
    "path_bool_refuted"
   ],
   "note": "int exactly, str as written in the path; float is an oracle (CPython). A bool is True for every text."
  },
  {
   "property": "C80",
   "status": "proved",
   "theorems": [
    "cors_preflight",
    "own_options_kept",
    "preflight_grants",
    "startup_never_fails",
    "decorator_exact",
    "decorator_unnormalised_raises",
    "decorator_debug_route_raises"
   ],
   "note": "For every table an application can make. The first route of a path also gets the headers as defaults (C102). The theorems on the decorator allow_cors go beyond the property."
  },
  {
   "property": "C81",
   "status": "proved",
   "theorems": [
    "defaults_never_override",
    "defaults_present",
    "wrapper_defaults"
   ],
   "note": "For all default lists and fields; letters outside ASCII are not folded in the model."
  },
  {
   "property": "C82",
   "status": "partial",
   "theorems": [
    "production_exact_partial",
    "production_keeps_unflagged",
    "adjacent_flag_survives",
    "production_refuted",
    "debug_policy_served"
   ],
   "note": "Exact if no two flagged routes follow each other; false otherwise: the second one is served. A debug-only policy is still granted in production if two paths have no OPTIONS route."
  },
  {
   "property": "C83",
   "status": "proved",
   "theorems": [
    "routes_unique",
    "register_exact",
    "normalised_once"
   ],
   "note": "For every sequence of registrations and decorators, with or without errors. Type checks of the arguments are not modelled."
  },
  {
   "property": "C84",
   "status": "partial",
   "theorems": [
    "handler_mapped_partial",
    "handler_sent_partial",
    "handler_coded_partial",
    "text_sent_exact",
    "traceback_hidden",
    "traceback_independent",
    "other_value_500",
    "head_500",
    "head_refuted",
    "handler_type_overruns",
    "handler_type_refuted",
    "unknown_status_crashes",
    "provided_exceptions_crash",
    "provided_exceptions_refuted",
    "provided_exceptions_partial",
    "header_argument_dropped",
    "header_argument_refuted",
    "json_empty_refuted",
    "json_sent_partial",
    "two_types_refuted"
   ],
   "note": "For all outcomes, HTTP/1.1, methods other than HEAD, known types and statuses, down to the bytes sent. HEAD gives 500, an unknown type overruns a table, an unknown status (17 of the exceptions fly provides) prints a NULL string, header= is dropped, empty JSON gives empty content."
  },
  {
   "property": "C85",
   "status": "partial",
   "theorems": [
    "alpn_negotiation",
    "alpn_negotiation_refuted"
   ],
   "note": "Proved for names shorter than 128 bytes; false beyond."
  },
  {
   "property": "C86",
   "status": "partial",
   "theorems": [
    "notification_partial",
    "notification_moved_refuted",
    "notification_gone_refuted"
   ],
   "note": "Names only (modification times and contents are not modelled), for any number of mount points without common relative names. Refuted: a file moved to an earlier mount point is lost, a vanished mount point leads to a use of freed memory."
  },
  {
   "property": "C87",
   "status": "partial",
   "theorems": [
    "conditional_request_partial",
    "conditional_request_never_found",
    "conditional_request_refuted",
    "modified_since_ignores_order",
    "h2_conditional_refuted"
   ],
   "note": "No conditional field is ever found because request names are stored in lower case; only requests without a met condition are answered as they should."
  },
  {
   "property": "C88",
   "status": "partial",
   "theorems": [
    "etag_computed_exact",
    "etag_computed_refuted"
   ],
   "note": "Succeeds exactly when both times are after the epoch; a file with modification time 0 gets no tag (refuted)."
  },
  {
   "property": "C89",
   "status": "partial",
   "theorems": [
    "frames_memory_partial",
    "frames_memory_refuted"
   ],
   "note": "Proved for all peers that send DATA and HEADERS only on streams on which they may; a second END_STREAM on a stream leads to a use after free (refuted)."
  },
  {
   "property": "C90",
   "status": "partial",
   "theorems": [
    "data_frame_split_refuted"
   ],
   "note": "The claim is false: a queued frame is written between the header and the payload."
  },
  {
   "property": "C91",
   "status": "partial",
   "theorems": [
    "stream_blocks_others",
    "streams_independent_refuted"
   ],
   "note": "The claim is false: while the first response waits for credit nothing at all is sent."
  },
  {
   "property": "C92",
   "status": "partial",
   "theorems": [
    "continuation_never_answered",
    "continuation_request_refuted"
   ],
   "note": "The claim is false: a CONTINUATION frame never leads to an answer, and one with END_HEADERS ends the connection."
  },
  {
   "property": "C93",
   "status": "partial",
   "theorems": [
    "gzip_lossless",
    "gzip_never_truncated",
    "br_never_truncated_partial",
    "br_lossless_partial",
    "deflate_lossless_partial",
    "br_cut",
    "br_lossless_refuted",
    "deflate_long_crashes",
    "deflate_lossless_refuted",
    "deflate_file_never",
    "br_body_cut"
   ],
   "note": "gzip is exact for all contents; brotli and deflate only up to one block. zlib and brotli are parameters with the law 'lawful'."
  },
  {
   "property": "C94",
   "status": "partial",
   "theorems": [
    "status_response_exact",
    "default_content_refuted"
   ],
   "note": "False of every HTTP/1.1 response: only the type is named, the content is empty."
  },
  {
   "property": "C95",
   "status": "partial",
   "theorems": [
    "response_layout_partial",
    "gzip_overflow_refused_partial",
    "identity_file_crashes",
    "identity_refuted",
    "deflate_body_crashes",
    "deflate_file_not_sent"
   ],
   "note": "Holds for deliverable contents and gzip; identity on a file and deflate of a long body stop the worker."
  },
  {
   "property": "C96",
   "status": "partial",
   "theorems": [
    "stop_reaches_every_worker_partial",
    "ending_signals_tracked",
    "harmless_signals"
   ],
   "note": "For calm histories; in general the tracked workers are signalled."
  },
  {
   "property": "C97",
   "status": "partial",
   "theorems": [
    "dead_worker_replaced",
    "ending_signals_tracked",
    "master_dies_silently",
    "worker_exit_orphans_refuted",
    "stop_kill_race_refuted"
   ],
   "note": "False for exit statuses other than 0, 10, 11, 12 and for a worker killed while its stop is being handled."
  },
  {
   "property": "C98",
   "status": "partial",
   "theorems": [
    "change_reaches_tracked",
    "reload_signals_tracked",
    "calm_pool_complete_partial",
    "change_reaches_all_refuted"
   ],
   "note": "Every tracked worker is told; in calm histories these are the live ones."
  },
  {
   "property": "C99",
   "status": "partial",
   "theorems": [
    "known_type_plain_partial",
    "multipart_terminates",
    "unknown_type_overruns",
    "unknown_type_refuted"
   ],
   "note": "False: every unknown type overruns the table of types."
  }
 ]
}