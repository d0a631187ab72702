# Formal model of fly: design

fly is a small HTTP/1.1 + HTTP/2 server written in C (`/repo/src`) with a Python
layer (`/repo/fly`). This directory contains a Rocq (Coq 8.16.1) model of its
logic and machine-checked theorems about that model.

## Conventions

* `rocq/theories/<Module>.v` holds executable definitions. Every definition has a
  comment naming the file and lines of `/repo` it models, and says where it simplifies.
* `rocq/theories/<Module>Proofs.v` (and `<Module>Laws.v`, `<Module>Spec.v`) hold specifications and lemmas.
* `rocq/theories/Properties_<Area>.v` hold the property theorems, each
  closed by `exact` or a few lines, each followed by `Print Assumptions`, with `Example`s showing that
  the hypotheses are met by concrete non-trivial cases.
* Bytes are `N`, byte strings `list N`; C integers are `Z`/`N`
  with wrap-around written explicitly where it matters.
* Undefined behaviour (out-of-bounds access, NULL dereference, use after free, signed overflow,
  non-termination) is a distinct outcome of the modelled function, never assumed away: a theorem
  that says `... = Ok x` also says that none of it happens.
* Where the code violates the property the theorem is called `..._refuted` and exhibits a
  witness; the strongest true part is proved as `..._partial` next to it. Universal negative
  results (for example "every X crashes") are named after what happens.
* Specifications do not use the functions of the model: grammars, orders, abstract maps, RFC tables and
  relations are written down separately in the proof files (first part) and referred to by the theorems.

## Trusted base

* Coq's kernel (8.16.1), including its `vm_compute` machine; `coqchk` re-checks every file without it.
* Axioms: none (see Print Assumptions below).
* The reading of the C/Python source: the code is not executed here, so the link between
  model and code is the line-by-line citation in the comments.
* The external facts in the last column of the next table. They are parameters or arbitrary inputs of the
  theorems unless stated otherwise; nothing about them is an axiom.
* A 64-bit little-endian Linux build with zlib and brotli, `char` signed, int 32 bits, asserts on.

## Modelled code

What is not named here is not modelled (in particular: OpenSSL, epoll/inotify plumbing, the decoders of `src/encode.c`, HTTP/2 priorities, `src/uri.c`, `src/test`, the command line).

| module | code it models | left out or simplified | external facts it takes as parameters |
|---|---|---|---|
| Buffer | `src/buffer.c`, `src/buffer.h` (all functions but the mmap/scm debugging helpers); `connect_buffer` sizes of `src/connect.c` | a block is its bytes and two cursors; allocation succeeds | contents of fresh memory (`junk`) are arbitrary |
| RbTree | `src/rbtree.c`, `src/rbtree.h` (insert, delete, search, rotations, rebalancing) | parent pointers are a zipper; node memory is an identity | comparison function of the caller: any total order |
| Bllist | `src/bllist.h`, `src/queue.h` | `fly_container_of` is not represented | - |
| Alloc | `src/alloc.c` (pools, `fly_pballoc`, `fly_pbfree`, `fly_delete_pool`), index of blocks | sizes, the memory of the index nodes | malloc: any fresh address |
| CStr, CNum | libc string functions and strtol/atoll as used | C strings are lists without NUL | glibc saturation of atoll |
| Names, Status, Mime | `src/method.c`, `src/scheme.c`, `src/version.c`, ALPN selection of `src/ssl.c`, status table of `src/response.c`, `src/mime.c` tables | OpenSSL itself | - |
| AcceptEnc, AcceptCL, AcceptMime | Accept-Encoding (`src/encode.c`), Accept-Charset/-Language (`src/charset.c`, `src/lang.c`), Accept (`src/mime.c`) | allocation failures | - |
| Reqline | `src/request.c:72-685` | scheme and path parameters | - |
| Route | `src/route.c`, Allow of `src/header.c` | allocation failures | - |
| Mount | `src/mount.c`, file part of `src/worker.c` and `src/request.c` | contents and times of files, path length overflow | directory contents at each notification are arbitrary |
| Cache | `src/cache.c`, `src/ftime.c` | MD5 (digests are arbitrary bytes) | gmtime_r/localtime_r/mktime/strftime by their effect on the offset |
| EventTime | timers of `src/event.c`, `src/event.h` | epoll, events on regular files | clock values are arbitrary |
| Conf | `src/conf.c`, `src/conf.h` | failing setenv | - |
| Log | `src/log.c` writing; any number of processes | terminals, copies on stdout/stderr | any interleaving of system calls; short writes are arbitrary |
| H2Frame | frame and payload codecs of `src/v2.c` | big-endian branches | - |
| Hpack | HPACK of `src/v2.c` (integers, tables, Huffman, blocks, response encoding) | block structure of the buffer (Buffer) | - |
| H2Conn | streams, received frames, send queue, flow control, responses of `src/v2.c` | priorities, timers, log, partial writes of frames | result of block decoding, settings and handler are arbitrary (`oracle`) |
| H2Frag | `fly_send_headers_frame` of `src/v2.c` | - | - |
| ReqFlow | `fly_request_event_handler` and the receive functions of `src/request.c` | TLS, timeouts | the chunks in which bytes arrive are arbitrary |
| Encode | the encoders of `src/encode.c` | the decoders | zlib and brotli: any stream compressor with the law `lawful` (EncodeProofs.v) |
| Response | `src/response.c`, default contents of `src/nc.c` | TLS, sendfile fallback | what the socket takes is arbitrary |
| Master | `src/master.c`, `src/fsignal.c` | pid file, log, kqueue build | kernel: one pending record per signal number, fork returns an unused pid, waitpid reaps a zombie, kill fails exactly for unknown pids, SIG_DFL discards pending ignored signals |
| Multipart | `src/body.c`, body part of `src/pyserver.c` | allocation failures | memory behind the body is out of bounds |
| PyBridge | `fly/response.py`, `fly/_base.py` wrapper, end of `pyfly_route_handler` | subclasses, BaseExceptions, HTTP/2 case | str of an exception is given |
| PyRoute | `fly/route.py`, `fly/app.py:161-273`, `fly/cors.py` | type checks, shared lists of default headers | - |
| PyParse | `fly/_parse.py`, `fly/cookie.py`, string making of `src/pyserver.c` | JSON bodies, FormData classes (pydantic) | lower-casing outside ASCII with `lower_law`; UTF-8 replacement; float(); str(int); CPython: PyUnicode_FromStringAndSize returns NULL on bad UTF-8 and PyDict_SetItemString dereferences it |
| H2Req | `src/v2.c:4580-4663` (DATA), `4669-4765` (pseudo-header fields), `4840-5030` (answering); `src/request.c:1646-1752` (HTTP/2 targets); `src/body.c:47-81`, `src/header.c:370-399` and the first lines of the decoders of `src/encode.c` (coded bodies) | multipart and cookies (in their own modules) | memory contents of the body buffer; the oracles of ReqFlow |
| H2Write | writing to an HTTP/2 connection: `src/v2.c:2433-2980`, `3280-3360` | writes over TLS, several responses at a time, windows (H2Conn) | every result of send and sendfile is arbitrary; sendfile returns 0 when asked for nothing or at the end of the file |
| H2Resp | HTTP/2 responses: `src/v2.c:5085-5420`, `src/response.c:806-1354` for HTTP/2, `src/pyserver.c:704-917` | Set-Cookie (as any other field), the branch for streams in another state | the compressors (C93); the windows when the DATA frame is begun |
| Connect | `src/connect.c`, the accept part of `src/ssl.c`, the loop of `src/event.c` (register, unregister, handle, timeouts) | allocation failures, signals, the kqueue build, other kinds of events (log, inotify) | accept4, recv, OpenSSL and the HTTP handlers answer arbitrarily; close(2) removes a descriptor from epoll; epoll reports each known descriptor at most once per turn |
| Server | a whole HTTP/1.1 connection: ReqFlow, PyBridge, Response together | TLS, HTTP/2, other connections | the application: any function with state; delivery and writes arbitrary |
| AccessLog | `src/response.c:306-492` (the text of a record, the request line in it), which records an HTTP/1.1 connection leaves, the request line of HTTP/2 records | HTTP/2 requests without a whole request line, records of connections (connect.c) | the names getnameinfo gives; a text is shorter than INT_MAX |
| Watch | the master's inotify events: `src/mount.c:242-383, 640-678, 939-987, 1235-1310`, `src/master.c:1033-1093, 1175-1267, 1389-1414, 1455-1570` | several mount points, moved and removed directories (Mount), symbolic links, the hashes, overflow of the event queue, merging of equal events by the kernel | the kernel: which events a watch gets (inotify(7)), descriptors are not reused; the handler's failure ends the process (event.c:1079-1086) |
| CmdLine | `fly/main.py` (options, the temporary file they are written to, exit status), `fly/app.py` (`_run`, `_start_server`, `_display_explain`), `src/conf.c` as in Conf, `src/pyserver.c` `__pyfly_configure` (which file is read) | the parsing of options by click, import of the application, options given twice, the watch dog's own process handling | click gives numbers for numeric options; the temporary file is read back as written |
| H2Ack | the server's SETTINGS frames and their acknowledgement: `src/v2.c:207-218, 376-425 (stream 0), 740-780, 1149-1165, 1935-1977, 2882-2958, 3239-3278, 3371-3483`; queue.h, bllist.h: which elements are touched | SETTINGS on other streams, client settings with errors, frames sent in part (H2Write), the GOAWAY path's own sending (`fly_send_frame`) | freed memory is not used again for a frame at the same place before it is looked at (any use is the outcome UB) |
| Daemon | the pid file and becoming a daemon: `src/master.c:799-822`, `src/util.c:28-101`, `src/context.h:56-78`, `src/pyserver.c:998-1000, 1141-1170`, `fly/app.py:83-118, 257-300` (what follows a reload) | permissions, umask, chdir, the session, short writes of the file, several servers at a time | pids as given by the kernel; open gives the lowest free descriptor; closing succeeds |
| H2Start | the beginning of an HTTP/2 connection: `src/v2.c` `fly_hv2_init_handler`, `fly_hv2_init_connection_preface`, `src/buffer.c` `fly_buffer_memcmp` (over Buffer); H2GoawayProofs reasons about H2Conn | TLS reads, the SETTINGS frame sent after the preface (H2Ack), upgrade from HTTP/1.1 | the contents of fresh memory (parameter `junk`) |
| H2Prio | stream dependencies: `src/v2.c:1013-1059, 1906-1929`, with creation and freeing of streams (278-316, 335-371, 424, 1525-1539) | the limit of concurrent streams; nothing else reads the dependencies, so no order of responses depends on them | an id stands for the memory of its stream (ids increase, `v2.c:338`) |
| Listen | opening the listening socket: `src/server.c:30-200`, and the exception of `src/pyserver.c:212-223` | the TLS context itself, the epoll registration (Connect), the contents of the address | getaddrinfo, realpath and the outcome of every call on every address (records `world` and `addr`) |
| LogInit | the log files: `src/log.c:57-305, 467-556` | how one record is written to a shared file (Log), the text of records (AccessLog), `DEBUG` builds | realpath, open and isatty (record `world`) |
| WorkerStart | what a worker opens before it serves: `src/worker.c:890-1002, 1073-1176`, `src/context.c:82-93` | the encoders (Encode), signals and events of the worker, mount->index (read by nothing) | the outcome of resolving, opening and encoding each file (records `file` and `world`) |
| Redirect | the redirect function: `fly/helper.py:12-29`; what becomes of it is PyBridge, Response and H2Resp | strings that cannot be encoded as UTF-8 | none |
| AppReload | changes of the application file: `src/master.c:533-541, 1585-1726, 1749-1800`, `fly/app.py:55-124` | what becomes of the workers (Master); modules that call run() themselves; the kqueue build | which events the kernel reports for which action (`events`, specification), the time of the file and what executing it does (`ev`) |
| ErrLog | errors and their records: `src/err.c:10-96, 236-618` without `__fly_err_logcont` and the unused error event, `src/event.c:1025-1078` | errors printed by `FLY_STDERR_ERROR` before the start; `jbend_handle`; write is all or nothing; malloc succeeds | fcntl and write on a descriptor (record `kernel`), the date and strerror |
| WorkerSig | signals sent to a worker: `src/worker.c:56-63, 410-552`, `src/fsignal.c:71-95`, `src/master.c:948-984` | a scan of the mounted files happens at once (its effect is Mount); the notice records; the kqueue build; faults of the worker itself | the kernel's rules for pending signals and signalfd (`insert`, `enqueue`, `deliver`, `queue`) |
| SendFile | sending a file without sendfile(2): `src/util.c:106-141`, the branch for systems without sys/sendfile.h (everything else in the model is the Linux build) | lseek and read fail; reads that return a part of a block; a file that changes | how many bytes each write takes (`wres`) |
| SigRestore | what a master does to the signals of its process: `src/master.c:400-412, 578-647, 954-958`, `src/fsignal.c:7-43, 71-95` | ends of the master that do not release it (emergency errors, reloads that fail); what the actions do | the kernel's rules for actions, blocked and waiting signals (`step`) |

## Print Assumptions

`Print Assumptions` follows every theorem of the Properties files (725 theorems). Every one prints "Closed under the global context": no axioms, not even of the standard library. By file:

| file | theorems | assumptions |
|---|---|---|
| `Properties_AcceptCL` | 9 | none |
| `Properties_AcceptEnc` | 16 | none |
| `Properties_AcceptMime` | 8 | none |
| `Properties_AccessLog` | 9 | none |
| `Properties_Alloc` | 7 | none |
| `Properties_AppReload` | 16 | none |
| `Properties_Buffer` | 15 | none |
| `Properties_Cache` | 16 | none |
| `Properties_CmdLine` | 17 | none |
| `Properties_Coded` | 5 | none |
| `Properties_Conf` | 18 | none |
| `Properties_Connect` | 12 | none |
| `Properties_Daemon` | 16 | none |
| `Properties_Encode` | 10 | none |
| `Properties_ErrLog` | 22 | none |
| `Properties_EventTime` | 14 | none |
| `Properties_H2Ack` | 14 | none |
| `Properties_H2Conn` | 30 | none |
| `Properties_H2Frag` | 5 | none |
| `Properties_H2Frame` | 28 | none |
| `Properties_H2Prio` | 11 | none |
| `Properties_H2Req` | 20 | none |
| `Properties_H2Resp` | 23 | none |
| `Properties_H2Start` | 12 | none |
| `Properties_H2Write` | 15 | none |
| `Properties_Header` | 21 | none |
| `Properties_HeaderNul` | 3 | none |
| `Properties_Hpack` | 16 | none |
| `Properties_Listen` | 6 | none |
| `Properties_Log` | 4 | none |
| `Properties_LogInit` | 8 | none |
| `Properties_Master` | 20 | none |
| `Properties_Mount` | 21 | none |
| `Properties_Multipart` | 16 | none |
| `Properties_Names` | 18 | none |
| `Properties_PyBridge` | 28 | none |
| `Properties_PyParse` | 32 | none |
| `Properties_PyRoute` | 22 | none |
| `Properties_RbTree` | 7 | none |
| `Properties_Redirect` | 9 | none |
| `Properties_ReqFlow` | 15 | none |
| `Properties_Reqline` | 15 | none |
| `Properties_Response` | 23 | none |
| `Properties_Route` | 23 | none |
| `Properties_SendFile` | 7 | none |
| `Properties_Server` | 4 | none |
| `Properties_SigRestore` | 5 | none |
| `Properties_Watch` | 12 | none |
| `Properties_WorkerSig` | 12 | none |
| `Properties_WorkerStart` | 10 | none |

`coqchk` lists the seven constants of `Coq.ssr.ssrunder`; they come from the standard library files that are loaded, and no theorem depends on them.

## Status of each property

"proved" means the full statement; "partial" means that the strongest true part is proved and, where the full statement is false of the code, a `_refuted` theorem gives a witness.

| id | property | status | proved in | what holds, what does not |
|---|---|---|---|---|
| C01 | Ordered index behaves as a map | proved | `RbTree` | Lookups require a non-empty index: unguarded lookups on an empty one are undefined behaviour (refuted); the callers guard. |
| C02 | Ordered index stays sorted and balanced | proved | `RbTree` |  |
| C03 | Index handles stay valid | proved | `RbTree` | Proved for handles registered under an absent key; the duplicate-key case is refuted with a witness. |
| C04 | Intrusive lists and queues keep order and count | proved | `Alloc` | Popping an empty queue is outside legal use; its effect on the counter is shown as a refutation. |
| C05 | Memory pools release every block exactly once | proved | `Alloc` |  |
| C06 | Receive buffer is a faithful byte stream | proved | `Buffer` | Proved for the default of one initial block; with FLY_CONNECT_BUFFER_INIT_LEN >= 2 the property fails (refuted). |
| C07 | Receive buffer never exceeds its configured capacity | proved | `Buffer` | The buffer refuses an append that would fill it exactly; stated as n < room. |
| C08 | Reading across block boundaries equals reading contiguous memory | partial | `Buffer` | Exact when the given block is the one holding the source, or the source is not in the last block; otherwise nothing is copied (refuted). |
| C09 | Searching the receive buffer finds a delimiter iff present | partial | `Buffer` | Full statement is false: CR CR LF is missed and unreceived memory is searched. |
| C10 | Well-formed request lines are decoded exactly | partial | `Reqline` | All methods but CONNECT, all paths, all queries that do not begin with a percent-encoded octet (those lose two bytes, refuted). |
| C11 | Only well-formed request lines are accepted | partial | `Reqline` | The accepted language is characterised exactly, both directions, and the parser is shown to be memory safe and terminating; the language is larger than the RFC's (refuted). |
| C12 | Request line parsing is independent of segmentation | partial | `Reqline` | For every buffer layout, provided the memory behind the received bytes contains no line feed; otherwise refuted. |
| C13 | All request-target forms of the HTTP grammar are supported | partial | `Reqline` | The claim is false: only targets beginning with a slash are accepted for methods other than CONNECT. |
| C14 | Overlong request lines are answered 414 | partial | `ReqFlow`, `Reqline` | The check is exact for lines that end; a line that never ends is never answered 414, and where the check succeeds the 414 response dereferences NULL. |
| C15 | Header fields are delivered completely and in order | partial | `Header`, `HeaderNul` | Fields with white space after the colon are delivered completely and in order, for any block layout in which names do not straddle blocks and values do not begin in the last block while the name is in an earlier one; with a single block the accepted lines are characterised exactly. Refuted in general: 'name:value' without white space is silently dropped, trailing white space stays in the value, a value beginning in the last block becomes NUL bytes, a name over two blocks is an out-of-bounds read. A line that does not begin like a field and holds a NUL is answered with 400; a field with a NUL in its name or value makes the request wait for ever. |
| C16 | Header name lookup is case-insensitive | partial | `Header` | Content-Length, Expect and Cookie are found in every letter case. Connection and Content-Encoding are never found (names are stored in lower case and compared with the capitalised spelling): refuted. |
| C17 | Header list edits have map-like effects | partial | `Header` | All sequences of add, add-if-absent (both variants), add-or-replace and delete with non-empty names have exactly the specified effect and keep count = number of entries. Refuted: with duplicate names only the first value is replaced, an empty name leads to a NULL dereference, fly_remove_header_chain uses freed memory. |
| C18 | Content-Length framing | partial | `ReqFlow` | For requests whose header block lies within one buffer block and for all ways the bytes arrive, the handler gets exactly the declared bytes and an oversized body is answered 413. Bytes behind the body that have been read are lost (refuted), a half-closed connection is not answered, and a body just within the limit may get 413. |
| C19 | Request outcome is a function of the documented checks, in order | partial | `ReqFlow` | For well-formed HTTP/1.1 requests with at least one field and a header block within one buffer block, for all deliveries, routes and mounts. A request that ends at the end of a block is never answered, a malformed field is ignored, HTTP/2 in the line crashes. |
| C20 | Connection persistence | partial | `Response` | After a response written at once the connection is kept iff it has no Connection field or its first one says keep-alive. The request's Connection field is never read, 400/500 keep the connection (413 and the 400 without a request close it), 100 Continue uses released memory. |
| C21 | Static routes: first registered exact match wins | partial | `Route` | The full statement for tables without parameter routes; with parameter routes (no slash after a parameter) the first route that takes the request, where parameter routes take every method, so an exact route can be passed over (refuted). |
| C22 | Parameter routes respect the method | partial | `Route` | The claim is false: parameter routes are selected whatever the method. Routes without parameters respect it. |
| C23 | Path parameters capture exactly the path segment | partial | `Route` | Matching exact for parameters in last position, capturing exact for all segment patterns; routes with a parameter followed by a slash are never selected or read out of bounds (refuted). |
| C24 | Route registration decodes the pattern | partial | `Route` | Accepted patterns characterised exactly, and all well-formed patterns without bool recorded correctly. Refuted: bool is recorded as float, type names are only compared as prefixes, a missing closing brace reads out of bounds. |
| C25 | Allow header lists exactly the supported methods | partial | `Route` | The list is characterised exactly; it is right for methods other than GET when no registered path is a proper prefix of the request. Refuted: duplicates, prefixes, GET always listed. |
| C26 | Method, scheme and version names are recognised exactly | partial | `Names` | Exact for HTTP/1 request lines; HTTP/2 and route registration match prefixes (refuted), https is never recognised. |
| C27 | Static file lookup returns the registered file | partial | `Mount` | After every history of mounts, additions, removals, change notifications and disappearing mount points, for every request path, while no relative name exists below two mount points; with such a name a registered file can become unreachable (refuted). |
| C28 | File name ordering is a total order | proved | `Mount` | The comparison is the dictionary order. |
| C29 | Directory index | partial | `Mount` | The claim is false: a directory is never answered with a file. |
| C30 | File accounting | partial | `Mount` | Counts exact after every history; the maximum is not respected, and fly_unmount does not subtract the files (refuted). |
| C31 | Removing a directory removes exactly its files | partial | `Mount` | Directories directly below the mount point, without subdirectories: exactly the entries whose name begins with the directory's name are dropped. Refuted: siblings like doc.txt are dropped with doc, and a directory whose name has a slash makes the loop endless. |
| C32 | Mount numbers identify mount points | partial | `Mount` | Holds while no mount point disappears; afterwards numbers are given twice (refuted). |
| C33 | Relative paths round-trip | partial | `Mount` | Round trip for all paths; the worker's version fails for a mount point ending with a slash, that is the root directory (refuted). |
| C34 | ETag identifies content | partial | `Cache` | Exact characterisation of when two digests share a tag; true for digests of bytes below 128, false in general because bytes are printed as signed char. MD5 itself is not modelled. |
| C35 | MIME type from file name | proved | `Names` | Lookup by file name proved in full; lookup by type name overruns the table for unknown names (refuted). |
| C36 | Accept-Encoding values are decoded | partial | `AcceptEnc` | Exact decoding of every grammatical value proved, including the inherited weight; the full claim is refuted for elements without a weight after a weighted one, for qualities with rounding loss, and for white space before a comma. |
| C37 | A chosen content coding is acceptable | proved | `AcceptEnc` | 406 exactly when something known is listed and nothing has positive quality. |
| C38 | The most preferred coding is chosen | partial | `AcceptEnc` | False in general: a later coding replaces the current choice only if its built-in priority is higher too. |
| C39 | A coding refused by the client is never used | partial | `AcceptEnc` | False for pre-encoded files and for '*'. |
| C40 | Accept-Charset / Accept-Language decoding | partial | `AcceptCL` | Exact characterisation (both directions) of the accepted values, the decoded list and the 400/406 answers for names that fit; the RFC grammar itself is refuted for white space before a comma, and names of 10 (language) or 30 (charset) characters overrun. |
| C41 | Accept decoding | partial | `AcceptMime` | Decoding proved for lists of media ranges with parameters and weights 0.d to 0.ddd; the full claim is refuted: every weight of 1, q=0, white space before ';' and a comma after an unweighted parameter give 400, long subtypes overrun their array. |
| C42 | HTTP/2 frame header round-trip | proved | `H2Frame` | The unused accessor of the reserved bit itself reads the wrong bit (refuted); it has no observable effect on decoding. |
| C43 | HTTP/2 SETTINGS payload round-trip | partial | `H2Frame` | Full statement false: all pairs are written at offset 0, so only the last one is carried. |
| C44 | Peer SETTINGS are validated and applied in order | partial | `H2Frame` | In-order application, unknown parameters and two of the three validations proved; MAX_FRAME_SIZE validation, repeated INITIAL_WINDOW_SIZE and odd payload lengths refuted. |
| C45 | HTTP/2 stream identifiers | partial | `H2Conn` | After every history: identifiers odd, increasing, no duplicates, never more streams than the limit, and opening characterised exactly. The limit counts the connection itself, so one stream fewer than configured is accepted (refuted). |
| C46 | HTTP/2 stream life cycle | partial | `H2Conn` | State changes follow the life cycle and requests are answered once for all peers that send DATA and HEADERS only on streams on which they may. For others a closed stream becomes half closed again and a request is answered twice (refuted). |
| C47 | HTTP/2 send flow control | partial | `H2Conn` | The windows kept are exactly initial + increments - bytes sent. The bytes sent stay within the credit as long as no body exceeds it; the server compares credit with zero only, so larger bodies go out whole (refuted). Also refuted: END_STREAM is missing on a body of the window's size or more, and a new initial window is not applied to open streams. |
| C48 | HTTP/2 window increments never overflow | partial | `H2Conn` | No window exceeds 2^31-1 if the increments do not add up to more; beyond that no error is raised, and zero increments are treated on the wrong scope (refuted). |
| C49 | Coalescing queued WINDOW_UPDATE frames preserves credit | partial | `H2Conn` | For all histories the increments sent and queued add up exactly to the DATA bytes counted, and none is 0 or above 2^31-1, provided padded frames are not empty. Padded frames are counted one byte short and empty padded ones as 2^32-1 (refuted). |
| C50 | HTTP/2 header block fragmentation | partial | `H2Frag` | For blocks below 1000 bytes and every frame size limit the frames have exactly the stated form; with the server's limit the block is a single HEADERS frame that decodes to the header list. Blocks of 1000 bytes or more dereference NULL, and a field as large as the limit gives a frame above it (refuted). |
| C51 | HTTP/2 padding is not part of the content | partial | `H2Frame` | Holds for unpadded frames and pad length 0; false otherwise (refuted). |
| C52 | HTTP/2 control payloads round-trip | partial | `H2Frame` | Writers and 8/16/32/64-bit readers proved; 31-bit fields at a block end and the PING frame type refuted. |
| C53 | HPACK integer decoding | partial | `Hpack` | All integers below 2^31 + 2^N - 1 for every prefix size; larger 32-bit integers overflow int arithmetic (finding). |
| C54 | HPACK integer encoding | partial | `Hpack` | Exact characterisation of the integers encoded correctly; e.g. lengths of 128 and more are not (finding). |
| C55 | HPACK dynamic table | partial | `Hpack` | All histories of insertions; size changes are not implemented: a block with a size update is rejected (finding). |
| C56 | HPACK static table conforms | partial | `Hpack` | All names but entry 41, all values but entries 16 and 17, which are wrong (finding). |
| C57 | Huffman decoding inverts the RFC code | partial | `Hpack` | All strings without byte 13 up to 20000 bytes; byte 13 aborts, longer strings overrun a buffer (findings). |
| C58 | HPACK field representations are distinguished by their leading bits | partial | `Hpack` | Classification of all first octets, and decoding of whole blocks with the resulting table; findings for never-indexed literal names, size updates and indices without entry. The block structure of the receive buffer is not represented here. |
| C59 | Response header blocks decode to the response headers | partial | `Hpack` | Header lists whose fields are short and not confused with table entries by prefix comparison; findings otherwise. One HEADERS frame. |
| C60 | Timers fire in order and never early | partial | `EventTime` | The loop waits for the earliest deadline after every history without a pending restart, and the timers served are characterised exactly. Refuted: microseconds are ignored (up to a second early), and a mark set by an earlier look at the clock is never taken back. |
| C61 | Restarting a timer keeps the index ordered | partial | `EventTime` | The index is exact and ordered after every history in which each restart is followed by a registration of the same event; between the two it is not (refuted). |
| C62 | Time arithmetic | partial | `EventTime` | Sums for all values; differences and comparisons while seconds fit into an int; waits up to 23 days. Refuted beyond. The float helpers are not modelled. |
| C63 | Serialized response layout | partial | `Response` | For responses whose content can be coded and that the kernel takes at once, for all codings, fields and contents; see C93 and C95 for the other contents. TLS is not modelled. |
| C64 | Responses survive short writes | partial | `Response` | False: every send starts at the first byte of the message; no message survives a first write of one byte. Exact if the first send that does not block takes everything (C63). |
| C65 | Content-Length equals the body length | partial | `Response` | The first Content-Length is right in all deliverable responses and unique unless the handler gave one spelled differently or several. |
| C66 | Status codes round-trip | partial | `Names` | All listed codes except 410, 411, 505; other integers print a NULL string. |
| C67 | Response size limit | partial | `PyBridge`, `Response` | Proved for handlers: content over the limit is always 413 and content within it is mapped (C84). For files, one over the limit and below the coding threshold is sent, and a body within the limit may be refused because its coded form does not fit. |
| C68 | Worker pool size | proved | `Master` | The invariant holds in every history while the master is up; dead_worker_replaced says what handling one death does. |
| C69 | Every dead worker is replaced | partial | `Master` | Holds in calm histories; false when two workers die before the master reads its signals, when one dies before the signal descriptor exists, and after a stop. |
| C70 | Fatal worker errors stop the service | partial | `Master` | Every tracked worker is signalled and none started; a worker stopped earlier is not signalled, and a dropped notice does not stop the service. |
| C71 | Configuration files are read as written | partial | `Conf` | All files of lines up to 1022 bytes: settings applied in order, other options at their default, malformed lines and unknown names rejected. Refuted: text after a value is ignored, some values cannot be written, long comments are read as settings, multiples of 2^32 end the process. |
| C72 | The last configuration line needs no newline | partial | `Conf` | Holds for a final comment only; every other unterminated last line is an error or read out of bounds (refuted). |
| C73 | Numeric and boolean options | partial | `Conf` | Decimal numbers and the documented spellings are read correctly, from the file to the value. Refuted: negative overflow yields the largest number, trailing text is ignored for numbers and booleans. |
| C74 | Log records are complete and not interleaved | partial | `Log` | Any number of processes and any interleaving of system calls on a regular file; records are never interleaved. They are complete unless a write is short, in which case the text is started again (refuted). Terminals and the copies on stdout/stderr are not modelled. |
| C75 | Log timestamps | partial | `Cache` | Right for whole-hour offsets without daylight saving time; wrong for all others. gmtime_r, localtime_r, mktime and strftime are modelled by their effect on the offset. |
| C76 | Multipart bodies are split at boundaries | partial | `Multipart` | For all bodies whose part fields begin with 'Content-' and whose contents do not begin with a NUL or contain the delimiter. False otherwise, with universal statements of what happens instead. |
| C77 | Cookies round-trip | partial | `PyParse` | For all names and values a browser keeps as they are, without '='. A value with '=' is cut at it; names that differ in case are one to the handler. |
| C78 | Query and form fields round-trip | partial | `PyParse` | Queries: every list of fields with percent-encoded blanks; a blank written '+' is read as '+'. Forms: every list of fields without encoded '&' or '='; the body is decoded before it is cut. |
| C79 | Typed path parameters | partial | `PyParse` | int exactly, str as written in the path; float is an oracle (CPython). A bool is True for every text. |
| C80 | CORS preflight routes | proved | `PyRoute` | For every table an application can make. The first route of a path also gets the headers as defaults (C102). The theorems on the decorator allow_cors go beyond the property. |
| C81 | Default headers never override | proved | `PyBridge` | For all default lists and fields; letters outside ASCII are not folded in the model. |
| C82 | Debug-only routes disappear in production | partial | `PyRoute` | Exact if no two flagged routes follow each other; false otherwise: the second one is served. A debug-only policy is still granted in production if two paths have no OPTIONS route. |
| C83 | Route registration rejects duplicates | proved | `PyRoute` | For every sequence of registrations and decorators, with or without errors. Type checks of the arguments are not modelled. |
| C84 | Handler results are mapped to responses | partial | `PyBridge` | For all outcomes, HTTP/1.1, methods other than HEAD, known types and statuses, down to the bytes sent. HEAD gives 500, an unknown type overruns a table, an unknown status (17 of the exceptions fly provides) prints a NULL string, header= is dropped, empty JSON gives empty content. |
| C85 | TLS protocol negotiation follows the client's offer | partial | `Names` | Proved for names shorter than 128 bytes; false beyond. |
| C86 | A change notification brings the worker up to date | partial | `Mount` | Names only (modification times and contents are not modelled), for any number of mount points without common relative names. Refuted: a file moved to an earlier mount point is lost, a vanished mount point leads to a use of freed memory. |
| C87 | Conditional requests for mounted files | partial | `Cache`, `H2Req` | No conditional field is ever found because request names are stored in lower case; only requests without a met condition are answered as they should. |
| C88 | Every regular file can be given an entity tag | partial | `Cache` | Succeeds exactly when both times are after the epoch; a file with modification time 0 gets no tag (refuted). |
| C89 | No sequence of HTTP/2 frames touches released memory | partial | `H2Conn` | Proved for all peers that send DATA and HEADERS only on streams on which they may; a second END_STREAM on a stream leads to a use after free (refuted). |
| C90 | A DATA frame is sent whole | partial | `H2Conn` | The claim is false: a queued frame is written between the header and the payload. |
| C91 | Responses on different streams progress independently | partial | `H2Conn` | The claim is false: while the first response waits for credit nothing at all is sent. |
| C92 | A header block may be split into several frames | partial | `H2Conn` | The claim is false: a CONTINUATION frame never leads to an answer, and one with END_HEADERS ends the connection. |
| C93 | Content codings are lossless | partial | `Encode`, `Response` | gzip is exact for all contents; brotli and deflate only up to one block. zlib and brotli are parameters with the law 'lawful'. |
| C94 | The content registered for a status code is sent | partial | `Response` | False of every HTTP/1.1 response: only the type is named, the content is empty. |
| C95 | Every accepted coding is served or refused | partial | `Response` | Holds for deliverable contents and gzip; identity on a file and deflate of a long body stop the worker. |
| C96 | Stopping the server reaches every worker | partial | `Master` | For calm histories; in general the tracked workers are signalled. |
| C97 | A worker's death does not take the server down silently | partial | `Master` | False for exit statuses other than 0, 10, 11, 12 and for a worker killed while its stop is being handled. |
| C98 | Workers learn of changed content | partial | `Master` | Every tracked worker is told; in calm histories these are the live ones. |
| C99 | Requests of any content type reach their handler | partial | `Multipart` | False: every unknown type overruns the table of types. |
| C100 | HEAD answers carry no content | partial | `PyBridge` | False: every outcome but None and bytes becomes 500, and the content of bytes is sent. |
| C101 | Header values stay one field | partial | `PyBridge` | Values are sent as they are: the layout theorem says where, the refutation shows a value with a line end making a field of its own. |
| C102 | The CORS policy is on every response | partial | `PyRoute` | Debug mode, first route of each path. False for the other methods of a path and, for every table, in production. |
| C103 | Handler arguments | partial | `PyParse` | For signatures in which no argument is named like an entry another one reads; FormData is not modelled. A handler with ** arguments always fails; an argument named header takes the fields from later ones. |
| C104 | Header bytes reach the handler | partial | `PyParse` | All UTF-8 values are delivered; any other value makes CPython use a null object (HTTP/2 lets such bytes in). |
| C105 | Cookie attributes | partial | `PyParse` | Exact but for Max-Age 0, which is left out; a value with ';' adds attributes. |
| C106 | A connection is a sequence of exchanges | partial | `ReqFlow`, `Server` | For every site, application and list of requests within the hypotheses of C19, C63 and C84, each sent after the answer to the one before. False when a refused request still has its body in transit (the body is run as a request), when 100 is asked for, and for pipelined requests. |
| C107 | HTTP/2 request targets and pseudo-header fields | partial | `H2Req` | Exactly which targets and fields are accepted. False: every percent-encoded target is refused, malformed targets and field lists are accepted, an empty :method or :scheme crashes. |
| C108 | The same request gets the same answer over HTTP/2 | partial | `H2Req` | For all sites and requests with a target of C107, regular fields with values and a declared length that the frames bring, without Content-Encoding; the answer is the one of C19. False for percent-encoded targets, for an empty Accept-Language and for coded bodies (C119). |
| C109 | An HTTP/2 request body is what the DATA frames carry | partial | `H2Req` | Exact for every declared length and list of frames; the property holds if the declared length is the length sent. Without one the connection is closed; with a longer one the handler gets memory never written. |
| C110 | HTTP/2 frames survive short writes | partial | `H2Write` | Plain sockets. Exact if no send stops inside a frame header or queued payload; the content is exact under every pattern. False otherwise: every part that is cut by a full socket is sent again from its start, a DATA header is broken by any short write, and un-coded default contents and shortened files never return from the call. |
| C111 | A client that goes away costs nobody else | partial | `H2Write` | EPIPE while anything but a file is written closes the connection only. While a file is written it ends the worker, and a reset (any other errno) ends it always. |
| C112 | HTTP/2 responses arrive as they were made | partial | `H2Resp` | For fields that survive the block encoding (C59), blocks below 1000 bytes (C50), deliverable contents and a socket that takes what it is given (C110). False: content that must be refused is answered by a use after free, files and default contents for clients that prefer identity and unknown status codes dereference NULL, uncoded default contents hang the worker. |
| C113 | Every HTTP/2 response ends its stream | partial | `H2Resp` | Holds without content and for content smaller than both windows. False for every empty body or file and for all content as long as the window or longer. |
| C114 | HTTP/2 responses respect the client's limits | partial | `H2Resp` | Every content goes out as one DATA frame whatever the windows and the frame size of the client are. |
| C115 | Header names of the application are left alone | partial | `H2Resp` | Exactly which names later responses carry: those an HTTP/2 response has used are in lower case for ever. |
| C116 | Connections do not disturb each other | partial | `Connect` | For every history of accepts, first bytes, handshakes, exchanges and timeouts with any number of connections, but for the events named. False for these: a failing accept4 and a reset before the first byte end the worker, a close during the TLS handshake leaves a freed event registered. HTTP itself is an oracle here (C106, C110). |
| C117 | Silent connections are closed when their time is up | partial | `Connect` | Exact on idle turns for connections that speak HTTP. False while the worker is busy, and a client that never sends a byte makes the worker dereference NULL when its time is up. |
| C118 | Plain and TLS clients are told apart | proved | `Connect` | For every state the worker can be in within C116. |
| C119 | Coded request bodies reach the handler decoded | partial | `Coded` | False of every coded body: over HTTP/1.1 it is delivered as sent; over HTTP/2 gzip fails the connection, deflate, br and identity are delivered empty, every other name crashes the worker. |
| C120 | The access log tells what was answered | partial | `AccessLog` | HTTP/1.1, for every connection of C106: one record per answer written to its end, with its request line and status. False for records over 296 bytes (status and line feed lost), for HTTP/2 queries (cut to six bytes, version lost) and for HTTP/2 paths with a line feed, with which a client writes lines of its own. How records reach the file is C74. |
| C121 | Changes below a mount point are noticed | partial | `Watch` | For every tree and history without renamings and new names in directories of the start, if the master keeps up with the events. False otherwise: new names in directories of the start are never noticed, nor anything below directories made there; a renamed file loses its watch; a file that is gone when its event is read stops the whole server. Directories are not moved or removed here (C31), one mount point. |
| C122 | Command-line options override the configuration file | partial | `CmdLine` | For every configuration file of complete lines and all options (numbers below 2^32, texts that begin with characters a setting may have) the option wins, then the file, then the default. Findings: texts are cut at blanks, other characters (every IPv6 address) keep the server from starting, a last line without its end swallows the first option, the application's own configuration file is ignored at the start and replaces the options at a reload, a default content path keeps every server from starting, --pidfile-path alone does nothing, the exit status is 0 for failures too. |
| C123 | Acknowledged settings are no danger | partial | `H2Ack` | Safe for all histories in which acknowledgements come when all of the server's SETTINGS frames have been sent. False otherwise: an acknowledgement frees the frames that still wait to be sent, so that two frames received at one time (SETTINGS, SETTINGS with ACK) make every server use freed memory; a client that keeps to the protocol can do it too. Closing is proved unsafe exactly if one own frame is unsent and another unacknowledged. |
| C124 | The server's own HTTP/2 settings take effect | partial | `H2Ack`, `H2Frame` | True only without any FLY_SETTINGS_... variable. The acknowledgement makes the server's own values, modulo 65536, limits of the client; a larger upload window keeps every response from having a body; the announced frame size is not accepted; with two or more variables the announced values are uninitialised memory. |
| C125 | The pid file names the server that runs | partial | `Daemon` | Proved for servers that are no daemons.  Refuted otherwise: a daemon's file holds the pid of the process that started it, the file is never removed, so a second start fails, a change of the application in debug mode ends the server, and the configured path is ignored. |
| C126 | A daemon lets its terminal go | partial | `Daemon` | Proved when descriptors 0-2 are not log files or sockets and the limit of open files is a positive int.  Refuted with an unlimited number of files: nothing is closed and nobody notices. |
| C127 | The HTTP/2 connection preface is recognised however it arrives | partial | `H2Start` | A preface that arrives in one piece is accepted, nothing else is ever accepted, and no byte behind it is lost. A preface in several pieces is refused: the byte behind the first piece is compared before it was received. Blocks of less than 24 bytes let one wrong byte crash the worker. |
| C128 | A client is told why its HTTP/2 connection ends | partial | `H2Start` | False: in every history without an internal error no GOAWAY frame is sent. After an internal error one is (proved for every history). |
| C129 | PRIORITY frames do no harm | partial | `H2Prio` | Memory is safe when every dependency is a stream that is there and no prioritised stream has been closed; every frame ends for streams of the root with weights that do not rise. False otherwise: a dependency on an unused stream crashes the worker, four frames with weights 16, 16, 17, 16 make it loop for ever, and a closed stream's memory is used by the next PRIORITY frame. |
| C130 | The server listens where it is told | partial | `Listen` | When the server listens, on which address, what stays open and when memory is misused are all proved exactly. False as stated: only the first address that can be bound is listened on, a socket that cannot be made non-blocking is never closed, and a refused SO_REUSEADDR ends the start with a message read from a variable without a value. |
| C131 | Records go to their logs | partial | `LogInit` | Each kind of record goes once to its own file, and only there. False: what is meant for standard error goes to standard output, a log file that cannot be opened loses its records without a word, and a log directory whose name has 4081 or 4082 bytes is read behind its array. |
| C132 | A PRIORITY frame says what a stream's priority is | partial | `H2Prio` | Weights modulo 256, the place of a stream with the exclusive flag and of the first stream of a dependency are proved for every history. False for the greatest weight: 256 becomes 0. The place of later streams without the flag is in C129 (siblings); its count goes to the wrong stream. |
| C133 | A worker starts whatever its files are | partial | `WorkerStart` | When a worker gets past its files and what it did with each is proved exactly. False as stated: a file that is large enough to be encoded beforehand and can no longer be opened stops every new worker (and with it the server, C70); a small one is served without being open. |
| C134 | Default pages belong to their status codes | partial | `WorkerStart` | Which page belongs to which status code, when the worker starts and when memory is misused are proved exactly. False as stated: a page that cannot be encoded stops every worker, and a directory with a name of more than 4086 bytes is written behind its array. |
| C135 | Redirects arrive | partial | `Redirect` | Every byte sent is proved for the statuses 300-304 and 307, all locations without NUL bytes and all bodies below the encoding threshold. False as stated: every other 3xx status (308 among them) makes the worker print a NULL string, a HEAD request is answered with 500, and a location with a line end adds fields of its own. |
| C136 | A changed application is reloaded | partial | `AppReload` | For every series of actions on the file what the master does is proved. False as stated: the event that is asked for when a file is written and closed is not among those handled, so saving the file in place ends the master by a failed assertion; production servers are watched and restarted too; at its end every server reads a list element it has freed. |
| C137 | A mistake in the application does not end the server | partial | `AppReload` | Proved for all histories in which every version of the file can be executed and configured. False otherwise: only failures of the start itself are waited for; a syntax error, a module without a Fly object, a bad configuration or a file that is missing for a moment ends the process. |
| C138 | A process that ends because of an error says why | partial | `ErrLog` | What is written is proved exactly for errors of handlers when the error log can be written. False as stated: the emergency errors that the code raises directly (56 places) never leave a record, because snprintf builds it over the zero that ends the message it prints; without an error log nothing is written anywhere, although standard output or the notice log is there. |
| C139 | An error that is only to be logged does not end the worker | partial | `ErrLog` | The record is proved exactly. False as stated: after it the loop over the errors of the event reads the error that was just freed, for every level that is only to be logged and every error log. |
| C140 | The error log keeps what earlier runs have written | partial | `ErrLog` | The contents of the file after any series of records is proved exactly. False as stated: records about errors are written at the offset of the descriptor, which is 0 after the start, so that they replace the beginning of the file unless another record was written before in the same run. |
| C141 | Only signals that are to end a program end a worker | partial | `WorkerSig` | Which signals end a serving worker, and that they do within a bounded number of reads, is proved. False as stated: signals that are ignored by default (a child's end, continue, urgent data) end a worker, because every signal is blocked and read and an unknown one ends it; a worker that is stopped and continued exits. A request to end is not read while messages about mounted files keep coming, because their number is smaller. |
| C142 | No message about a changed mount point is lost | partial | `WorkerSig` | Proved for a worker that serves. False as stated: a new worker unblocks all signals before it has a function for any, so that a message about mounted files that arrives while it opens its files kills it. |
| C143 | A part of a file is sent as asked for on every system | partial | `SendFile` | When the bytes sent are the right ones is proved exactly for writes that take all they are given. False as stated: whole blocks are sent, whatever number was asked for; after a partial write the block is sent from its beginning; an error after some bytes leaves the offset where it was; past the end of the file the loop does not end. This is the build without sys/sendfile.h, and HTTP/2 without TLS. |
| C144 | After a server has ended, signals do what they did before | partial | `SigRestore` | Proved for the actions, for all signals and times at which they arrive. False as stated for blocked signals: the end of the server unblocks all of them, also those that the program had blocked before. |

## Wrong programs

`seeded/LOG.jsonl` records attempts to make the theorems miss a bug: a definition of the model is edited in a scratch
copy the way a realistic bug would, everything that depends on it is rebuilt with all failing proofs skipped one by one, and the
property theorems whose proof no longer goes through are listed under `failed`. A theorem is listed if its own proof or a lemma it
uses broke. An empty list means the edit was not noticed; the theorem tightened because of it is named under `tightened`.

## Findings not stated as theorems

Seen while reading the code, outside the modelled part or not stated as a theorem:

* `src/v2.c` `__fly_send_frame`: after a blocked write the frame starts again from its first byte;
  the read size of the TLS file path has its alternatives swapped; a received SETTINGS ACK applies the server's own settings
  to the peer's; `fly_hv2_settings_value_nb` truncates to 16 bits.
* `src/mount.c`/`src/master.c`: the master's inotify watch uses the padded name length; `pf_init` clears 255 bytes of the
  name only; a failing `stat` counts as a directory; a failed `fly_mount` leaves a freed element in the list.
* `src/event.c`: the drain of unmonitorable events may loop for ever for events that are not deleted;
  `FLY_EVENT_END_HANDLER` stores the data in the wrong field.
* `src/log.c`: the waiting case of `fly_log_event_handler` releases the record and keeps the event; the copy for stderr goes to stdout.
* `src/master.c`: a worker is unblocked before its signal descriptor exists (a SIGUSR1 in between kills it); a fatal error in the
  master exits without signalling workers.
* `src/response.c`: a file that became shorter is sent with uninitialised memory; threshold 0 with an empty content aborts.
* `src/conf.c`: defaults are set inside `assert(setenv(..))`, so a build with NDEBUG has none.
* `fly/_parse.py`: a handler with `**kwargs` reads an attribute that is never set; the route pattern `^/(.*/?)*$` backtracks
  exponentially on a path with an inner newline. `fly/route.py`: a list of default headers is shared between the routes of one handler.
