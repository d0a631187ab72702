(** Model of the HPACK code of src/v2.c: integers (3843-3937), static and dynamic table (3552-3767),
    Huffman decoding (4215-4578), header block parsing (3939-4210), and the encoding of response
    headers (2204-2397, 5362-5420).

    A pointer into the received payload is the list of the bytes from it to the end of the received
    data.  The block structure of the receive buffer is not represented here: moving a pointer across
    a block boundary (fly_update_chain) is the subject of Buffer.v.  Allocation failures are not
    modelled. *)
From Verif Require Import Base.

Definition u32 (n : N) : N := (n mod 2 ^ 32)%N.

(** ** Integers *)
(** FLY_HV2_INT_BIT_PREFIX(p), v2.c:3847. *)
Definition mask (bits : N) : N := (2 ^ bits - 1)%N.
(** The loop of fly_hv2_integer, v2.c:3911-3928.  The products and shifts have type int: a shift by 31
    or more, and a product of 2^31 or more, are undefined.  The result counts the consumed bytes. *)
Fixpoint int_loop (p : list N) (number power used : N) : outcome (N * N * list N) :=
  match p with
  | [] => UB OutOfBounds
  | b :: t =>
    if (31 <=? power)%N then UB SignedOverflow
    else let prod := (N.land b 127 * 2 ^ power)%N in
         if (2 ^ 31 <=? prod)%N then UB SignedOverflow
         else let number := u32 (number + prod) in
              if (N.land b 128 =? 0)%N then Ok (number, (used + 1)%N, t)
              else int_loop t number (power + 7) (used + 1)
  end.
(** fly_hv2_integer, v2.c:3900-3937: the value, the number of bytes added to *update, the new pointer. *)
Definition hp_integer (bits : N) (p : list N) : outcome (N * N * list N) :=
  match p with
  | [] => UB OutOfBounds
  | b :: t => if (N.land b (mask bits) =? mask bits)%N then int_loop t (mask bits) 0 1
              else Ok (N.land b (mask bits), 1%N, t)
  end.
(** The loop of fly_hv2_set_integer, v2.c:3871-3887, and the last byte; [now] is an int. *)
Fixpoint set_loop (fuel : nat) (now : N) : list N :=
  match fuel with
  | 0 => []
  | S f => if (now <? 128)%N then [N.land now 127] else N.lor (now mod 128 + 128) 128 :: set_loop f (now / 128)
  end.
(** fly_hv2_set_integer, v2.c:3849-3891.  [first] is the byte at *pl before the call (its bits above
    the prefix are the flags).  [now] is an int: a difference of 2^31 or more becomes negative, so the
    loop is not entered.  (A negative difference cannot occur in the else branch.) *)
Definition hp_set_integer (bits first v : N) : list N :=
  let first := N.ldiff first (mask bits) in
  if (v <? mask bits)%N then [N.lor first v]
  else let now := (v - mask bits)%N in
       N.lor first (v mod 256) :: (if (now <? 2 ^ 31)%N then set_loop 5 now else [N.land now 127]).

(** ** Tables *)
(** static_table, v2.c:3552-3614; entry [i] of the list has index i+1. *)
Definition static_table : list (list N * option (list N)) :=
  [(bs ":authority", None);
   (bs ":method", Some (bs "GET"));
   (bs ":method", Some (bs "POST"));
   (bs ":path", Some (bs "/"));
   (bs ":path", Some (bs "/index.html"));
   (bs ":scheme", Some (bs "http"));
   (bs ":scheme", Some (bs "https"));
   (bs ":status", Some (bs "200"));
   (bs ":status", Some (bs "204"));
   (bs ":status", Some (bs "206"));
   (bs ":status", Some (bs "304"));
   (bs ":status", Some (bs "400"));
   (bs ":status", Some (bs "404"));
   (bs ":status", Some (bs "500"));
   (bs "accept-charset", None);
   (bs "accept-encoding", None);
   (bs "accept-language", Some (bs "gzip, deflate"));
   (bs "accept-ranges", None);
   (bs "accept", None);
   (bs "access-control-allow-origin", None);
   (bs "age", None);
   (bs "allow", None);
   (bs "authorization", None);
   (bs "cache-control", None);
   (bs "content-disposition", None);
   (bs "content-encoding", None);
   (bs "content-language", None);
   (bs "content-length", None);
   (bs "content-location", None);
   (bs "content-range", None);
   (bs "content-type", None);
   (bs "cookie", None);
   (bs "date", None);
   (bs "etag", None);
   (bs "expect", None);
   (bs "expires", None);
   (bs "from", None);
   (bs "host", None);
   (bs "if-match", None);
   (bs "if-modified-since", None);
   (bs "if-none-matcho", None);
   (bs "if-range", None);
   (bs "if-unmodified-since", None);
   (bs "last-modified", None);
   (bs "link", None);
   (bs "location", None);
   (bs "max-forwards", None);
   (bs "proxy-authenticate", None);
   (bs "proxy-authorization", None);
   (bs "range", None);
   (bs "referer", None);
   (bs "refresh", None);
   (bs "retry-after", None);
   (bs "server", None);
   (bs "set-cookie", None);
   (bs "strict-transport-security", None);
   (bs "transfer-encoding", None);
   (bs "user-agent", None);
   (bs "vary", None);
   (bs "via", None);
   (bs "www-authenticate", None)].
Definition STATIC := 61%N.
Notation field := (list N * list N)%type (only parsing).
(** The dynamic table and its counters (v2.h:105-109), newest entry first.  Simplification: the
    doubly linked list is a list; hname/hvalue with length 0 are the empty string. *)
Record dtable := mkDt { dt_entries : list field; dt_size : N; dt_count : N; dt_max_index : N }.
(** fly_hv2_dynamic_table_init, v2.c:3616-3628. *)
Definition dt_init : dtable := mkDt [] 0 0 STATIC.
(** FLY_HV2_DTABLE_OVERHEAD, v2.c:3650, and entry_size, 3665. *)
Definition entry_size (f : field) : N := (N.of_nat (length (fst f)) + N.of_nat (length (snd f)) + 32)%N.
(** fly_hv2_dynamic_table_remove_entry, v2.c:3739-3756. *)
Definition dt_remove (d : dtable) : dtable :=
  if (dt_count d =? 0)%N then d
  else match rev (dt_entries d) with
       | [] => d
       | e :: t => mkDt (rev t) (dt_size d - entry_size e) (dt_count d - 1) (dt_max_index d - 1)
       end.
(** The loop v2.c:3652-3654; [fuel] is the number of entries, more iterations do not happen. *)
Fixpoint dt_evict (fuel : nat) (limit : N) (d : dtable) : outcome dtable :=
  if (limit <? dt_size d)%N
  then match fuel with 0 => UB Diverges | S f => dt_evict f limit (dt_remove d) end
  else Ok d.
(** fly_hv2_dynamic_table_add_entry and its _bv, _bvn variants, v2.c:3631-3737; [limit] is
    header_table_size. *)
Definition dt_add (limit : N) (d : dtable) (f : field) : outcome dtable :=
  let d := mkDt (f :: dt_entries d) (dt_size d + entry_size f) (dt_count d + 1) (dt_count d + 1 + STATIC) in
  dt_evict (length (dt_entries d)) limit d.
(** The lookup loops v2.c:4065-4085 and 4102-4116: [index] is the wire index minus one.  When nothing
    is found the name stays NULL with length 0. *)
Definition lookup (d : dtable) (index : N) : field :=
  if (index <? STATIC)%N
  then match nth_error static_table (N.to_nat index) with
       | Some (n, v) => (n, match v with Some v => v | None => [] end)
       | None => ([], [])
       end
  else if (index <? dt_max_index d)%N
  then match nth_error (dt_entries d) (N.to_nat (index - STATIC)) with Some f => f | None => ([], []) end
  else ([], []).

(** ** Huffman decoding *)
(** huffman_codes, v2.c:4223-4481: symbol, code, length. *)
Definition huffman_codes : list (N * N * N) :=
  [(48, 0, 5); (49, 1, 5); (50, 2, 5); (97, 3, 5); (99, 4, 5); (101, 5, 5);
   (105, 6, 5); (111, 7, 5); (115, 8, 5); (116, 9, 5); (32, 20, 6); (37, 21, 6);
   (45, 22, 6); (46, 23, 6); (47, 24, 6); (51, 25, 6); (52, 26, 6); (53, 27, 6);
   (54, 28, 6); (55, 29, 6); (56, 30, 6); (57, 31, 6); (61, 32, 6); (65, 33, 6);
   (95, 34, 6); (98, 35, 6); (100, 36, 6); (102, 37, 6); (103, 38, 6); (104, 39, 6);
   (108, 40, 6); (109, 41, 6); (110, 42, 6); (112, 43, 6); (114, 44, 6); (117, 45, 6);
   (58, 92, 7); (66, 93, 7); (67, 94, 7); (68, 95, 7); (69, 96, 7); (70, 97, 7);
   (71, 98, 7); (72, 99, 7); (73, 100, 7); (74, 101, 7); (75, 102, 7); (76, 103, 7);
   (77, 104, 7); (78, 105, 7); (79, 106, 7); (80, 107, 7); (81, 108, 7); (82, 109, 7);
   (83, 110, 7); (84, 111, 7); (85, 112, 7); (86, 113, 7); (87, 114, 7); (89, 115, 7);
   (106, 116, 7); (107, 117, 7); (113, 118, 7); (118, 119, 7); (119, 120, 7); (120, 121, 7);
   (121, 122, 7); (122, 123, 7); (38, 248, 8); (42, 249, 8); (44, 250, 8); (59, 251, 8);
   (88, 252, 8); (90, 253, 8); (33, 1016, 10); (34, 1017, 10); (40, 1018, 10); (41, 1019, 10);
   (63, 1020, 10); (39, 2042, 11); (43, 2043, 11); (124, 2044, 11); (35, 4090, 12); (62, 4091, 12);
   (0, 8184, 13); (36, 8185, 13); (64, 8186, 13); (91, 8187, 13); (93, 8188, 13); (126, 8189, 13);
   (94, 16380, 14); (125, 16381, 14); (60, 32764, 15); (96, 32765, 15); (123, 32766, 15); (92, 524272, 19);
   (195, 524273, 19); (208, 524274, 19); (128, 1048550, 20); (130, 1048551, 20); (131, 1048552, 20); (162, 1048553, 20);
   (184, 1048554, 20); (194, 1048555, 20); (224, 1048556, 20); (226, 1048557, 20); (153, 2097116, 21); (161, 2097117, 21);
   (167, 2097118, 21); (172, 2097119, 21); (176, 2097120, 21); (177, 2097121, 21); (179, 2097122, 21); (209, 2097123, 21);
   (216, 2097124, 21); (217, 2097125, 21); (227, 2097126, 21); (229, 2097127, 21); (230, 2097128, 21); (129, 4194258, 22);
   (132, 4194259, 22); (133, 4194260, 22); (134, 4194261, 22); (136, 4194262, 22); (146, 4194263, 22); (154, 4194264, 22);
   (156, 4194265, 22); (160, 4194266, 22); (163, 4194267, 22); (164, 4194268, 22); (169, 4194269, 22); (170, 4194270, 22);
   (173, 4194271, 22); (178, 4194272, 22); (181, 4194273, 22); (185, 4194274, 22); (186, 4194275, 22); (187, 4194276, 22);
   (189, 4194277, 22); (190, 4194278, 22); (196, 4194279, 22); (198, 4194280, 22); (228, 4194281, 22); (232, 4194282, 22);
   (233, 4194283, 22); (1, 8388568, 23); (135, 8388569, 23); (137, 8388570, 23); (138, 8388571, 23); (139, 8388572, 23);
   (140, 8388573, 23); (141, 8388574, 23); (143, 8388575, 23); (147, 8388576, 23); (149, 8388577, 23); (150, 8388578, 23);
   (151, 8388579, 23); (152, 8388580, 23); (155, 8388581, 23); (157, 8388582, 23); (158, 8388583, 23); (165, 8388584, 23);
   (166, 8388585, 23); (168, 8388586, 23); (174, 8388587, 23); (175, 8388588, 23); (180, 8388589, 23); (182, 8388590, 23);
   (183, 8388591, 23); (188, 8388592, 23); (191, 8388593, 23); (197, 8388594, 23); (231, 8388595, 23); (239, 8388596, 23);
   (9, 16777194, 24); (142, 16777195, 24); (144, 16777196, 24); (145, 16777197, 24); (148, 16777198, 24); (159, 16777199, 24);
   (171, 16777200, 24); (206, 16777201, 24); (215, 16777202, 24); (225, 16777203, 24); (236, 16777204, 24); (237, 16777205, 24);
   (199, 33554412, 25); (207, 33554413, 25); (234, 33554414, 25); (235, 33554415, 25); (192, 67108832, 26); (193, 67108833, 26);
   (200, 67108834, 26); (201, 67108835, 26); (202, 67108836, 26); (205, 67108837, 26); (210, 67108838, 26); (213, 67108839, 26);
   (218, 67108840, 26); (219, 67108841, 26); (238, 67108842, 26); (240, 67108843, 26); (242, 67108844, 26); (243, 67108845, 26);
   (255, 67108846, 26); (203, 134217694, 27); (204, 134217695, 27); (211, 134217696, 27); (212, 134217697, 27); (214, 134217698, 27);
   (221, 134217699, 27); (222, 134217700, 27); (223, 134217701, 27); (241, 134217702, 27); (244, 134217703, 27); (245, 134217704, 27);
   (246, 134217705, 27); (247, 134217706, 27); (248, 134217707, 27); (250, 134217708, 27); (251, 134217709, 27); (252, 134217710, 27);
   (253, 134217711, 27); (254, 134217712, 27); (2, 268435426, 28); (3, 268435427, 28); (4, 268435428, 28); (5, 268435429, 28);
   (6, 268435430, 28); (7, 268435431, 28); (8, 268435432, 28); (11, 268435433, 28); (12, 268435434, 28); (14, 268435435, 28);
   (15, 268435436, 28); (16, 268435437, 28); (17, 268435438, 28); (18, 268435439, 28); (19, 268435440, 28); (20, 268435441, 28);
   (21, 268435442, 28); (23, 268435443, 28); (24, 268435444, 28); (25, 268435445, 28); (26, 268435446, 28); (27, 268435447, 28);
   (28, 268435448, 28); (29, 268435449, 28); (30, 268435450, 28); (31, 268435451, 28); (127, 268435452, 28); (220, 268435453, 28);
   (249, 268435454, 28); (10, 1073741820, 30); (13, 1073741565, 30); (22, 1073741822, 30); (256, 1073741823, 30)]%N.
(** fly_huffman_decode_k_bit for k = 0 .. len-1, v2.c:4492-4498: the code, most significant bit first. *)
Fixpoint code_bits (len : nat) (code : N) : list bool :=
  match len with
  | 0 => []
  | S l => N.testbit code (N.of_nat l) :: code_bits l code
  end.
(** fly_huffman_decode_buf_bit, v2.c:4500-4506. *)
Definition byte_bits (b : N) : list bool := code_bits 8 b.
(** The table as bit strings; [huffman_bits_ok] in HpackProofs.v shows that it is the one above. *)
Definition huffman_table : list (N * list bool) :=
  Eval vm_compute in map (fun '(s, c, l) => (s, code_bits (N.to_nat l) c)) huffman_codes.
(** The comparison loop v2.c:4549-4559: [None] when a bit behind the received data is read. *)
Fixpoint match_code (code data : list bool) : option bool :=
  match code, data with
  | [], _ => Some true
  | _, [] => None
  | c :: code', d :: data' => if Bool.eqb c d then match_code code' data' else Some false
  end.
(** The search loop v2.c:4543-4575; result [None]: no code matches (FLY_NOT_COME_HERE aborts). *)
Fixpoint find_code (table : list (N * list bool)) (data : list bool) : outcome (option (N * nat)) :=
  match table with
  | [] => Ok None
  | (sym, code) :: rest =>
    match match_code code data with
    | None => UB OutOfBounds
    | Some true => Ok (Some (sym, length code))
    | Some false => find_code rest data
    end
  end.
(** Capacity of the result buffer, v2.c:4518-4520: 100 blocks of 200 bytes.  The return value of
    fly_update_buffer at the limit is 0, not -1, so one byte more is written behind the last block. *)
Definition HUFF_CAP := 20000%N.
(** The main loop, v2.c:4530-4572.  State: the bits from (ptr, start_bit) on, start_bit, the number of
    bytes left (uint32_t), the bytes decoded so far.  [None]: abort. *)
Fixpoint huff_loop (fuel : nat) (data : list bool) (start : nat) (len : N) (out : list N) : outcome (option (list N)) :=
  if (len =? 0)%N then Ok (Some out)
  else match fuel with
  | 0 => UB Diverges
  | S f =>
    if (len =? 1)%N && forallb (fun b => b) (firstn (8 - start) data) && (8 - start <=? length data) then Ok (Some out)
    else obind (find_code huffman_table data) (fun r =>
         match r with
         | None => Ok None
         | Some (sym, n) =>
           if (HUFF_CAP <=? N.of_nat (length out))%N then UB OutOfBounds
           else huff_loop f (skipn n data) ((start + n) mod 8) (u32 (len + 2 ^ 32 - N.of_nat ((start + n) / 8))) (out ++ [(sym mod 256)%N])
         end)
  end.
Definition bits_of (bytes : list N) : list bool := flat_map byte_bits bytes.
(** fly_hv2_huffman_decode, v2.c:4516-4578. *)
Definition huffman_decode (p : list N) (len : N) : outcome (option (list N)) :=
  huff_loop (S (length (bits_of p))) (bits_of p) 0 len [].

(** ** Header block parsing *)
(** v2.c:3769-3841, 3939-3948. *)
Definition is_index (b : N) : bool := negb (N.land b 128 =? 0)%N.
Definition is_update (b : N) : bool := (N.land b 128 =? 0)%N && negb (N.land b 64 =? 0)%N.
Definition is_noupdate (b : N) : bool := (N.land (b / 16) 15 =? 0)%N.
Definition is_noindex (b : N) : bool := (N.land (b / 16) 15 =? 1)%N.
Definition is_huffman (b : N) : bool := negb (N.land b 128 =? 0)%N.
Definition is_literal (b : N) : bool := (N.land b 63 =? 0)%N.
Inductive itype := IUpdate | INoUpdate | INoIndex.
Definition prefix_of (t : itype) : N := match t with IUpdate => 6 | _ => 4 end%N.
Definition classify (b : N) : option itype :=
  if is_update b then Some IUpdate else if is_noupdate b then Some INoUpdate else if is_noindex b then Some INoIndex else None.
(** fly_update_chain: skip [n] received bytes. *)
Definition skip (n : N) (p : list N) : outcome (list N) :=
  if (n <=? N.of_nat (length p))%N then Ok (skipn (N.to_nat n) p) else UB OutOfBounds.
Definition take (n : N) (p : list N) : outcome (list N) :=
  if (n <=? N.of_nat (length p))%N then Ok (firstn (N.to_nat n) p) else UB OutOfBounds.
(** A string literal, v2.c:4017-4019 / 4034-4047 with 4120-4141 / 4159-4185: the Huffman flag and the
    length, then the (decoded) bytes.  Results: [None] abort; the string, the bytes added to total, the
    new pointer. *)
Definition string_lit (p : list N) : outcome (option (list N * N * list N)) :=
  match p with
  | [] => UB OutOfBounds
  | b :: _ =>
    obind (hp_integer 7 p) (fun '(len, used, q) =>
    obind (if is_huffman b then huffman_decode q len else obind (take len q) (fun s => Ok (Some s))) (fun s =>
    match s with
    | None => Ok None
    | Some s => obind (skip len q) (fun q' => Ok (Some (s, u32 (used + len), q')))
    end))
  end.
Inductive presult := PDone (h : list field) (d : dtable) | PError | PAbort.
(** The result of one iteration. *)
Inductive field_res := FNext (total : N) (p : list N) (h : list field) (d : dtable) | FError | FAbort.
(** One iteration of the loop of fly_hv2_parse_headers, v2.c:3954-4051, with
    fly_hv2_add_header_by_index (4058-4091), _by_indexname (4093-4146), _by_name (4148-4210).
    Simplification: _by_name copies non-Huffman strings with memcpy, which is only right when they
    do not cross a block boundary; and it looks at the value before it decodes the name, so the
    order of two failures is not represented. *)
Definition parse_field (limit : N) (p : list N) (total : N) (h : list field) (d : dtable) : outcome field_res :=
  match p with
  | [] => UB OutOfBounds
  | b :: t =>
    if is_index b then
      obind (hp_integer 7 p) (fun '(i, used, q) =>
      Ok (FNext (u32 (total + used)) q (h ++ [lookup d (u32 (i + 2 ^ 32 - 1))]) d))
    else match classify b with
    | None => Ok FError
    | Some ty =>
      let add (f : field) (used : N) (q : list N) :=
        obind (match ty with IUpdate => dt_add limit d f | _ => Ok d end) (fun d' =>
        Ok (FNext (u32 (total + used)) q (h ++ [f]) d')) in
      if is_literal b then
        obind (string_lit t) (fun r => match r with None => Ok FAbort | Some (name, u1, q1) =>
        obind (string_lit q1) (fun r => match r with None => Ok FAbort | Some (value, u2, q2) =>
        add (name, value) (u32 (1 + u1 + u2)) q2 end) end)
      else
        obind (hp_integer (prefix_of ty) p) (fun '(i, u1, q1) =>
        obind (string_lit q1) (fun r => match r with None => Ok FAbort | Some (value, u2, q2) =>
        add (fst (lookup d (u32 (i + 2 ^ 32 - 1))), value) (u32 (u1 + u2)) q2 end))
    end
  end.
(** fly_hv2_parse_headers, v2.c:3950-4053; every iteration consumes at least one byte of [p]. *)
Fixpoint parse_loop (fuel : nat) (limit len : N) (p : list N) (total : N) (h : list field) (d : dtable) : outcome presult :=
  if (total <? len)%N
  then match fuel with
       | 0 => UB Diverges
       | S f => obind (parse_field limit p total h d) (fun r =>
                match r with
                | FNext total p h d => parse_loop f limit len p total h d
                | FError => Ok PError
                | FAbort => Ok PAbort
                end)
       end
  else Ok (PDone h d).
Definition parse_headers (limit len : N) (p : list N) (d : dtable) : outcome presult := parse_loop (S (length p)) limit len p 0 [] d.

(** ** Encoding of response headers *)
(** strncmp(table, s, strlen(table)) == 0. *)
Definition prefix_eq := is_prefix.
(** What fly_header_add_v2, v2.c:5362-5420, finds for a header: an entry (index from 0) or only a name. *)
Inductive found := FoundField (j : N) | FoundName (j : N) | NotFound.
Fixpoint search_static (l : list (list N * option (list N))) (j : N) (f : field) : found :=
  match l with
  | [] => NotFound
  | (n, v) :: t =>
    match v with
    | Some v => if prefix_eq n (fst f) && prefix_eq v (snd f) then FoundField j else search_static t (j + 1) f
    | None => if prefix_eq n (fst f) then FoundName j else search_static t (j + 1) f
    end
  end.
(** The dynamic entries, v2.c:5385-5397: those of the table used for decoding requests. *)
Fixpoint search_dynamic (l : list field) (j : N) (f : field) : found :=
  match l with
  | [] => NotFound
  | (n, v) :: t =>
    let name_ok := match n with [] => false | _ => prefix_eq n (fst f) end in
    match v with
    | [] => if name_ok then FoundName j else search_dynamic t (j + 1) f
    | _ => if name_ok && prefix_eq v (snd f) then FoundField j else search_dynamic t (j + 1) f
    end
  end.
Definition search_table (d : dtable) (f : field) : found :=
  match search_static static_table 0 f with NotFound => search_dynamic (dt_entries d) STATIC f | r => r end.
(** Length byte (no Huffman coding is ever chosen: huffman_value is false, header.c:63-64) and bytes. *)
Definition put_string (s : list N) : list N := hp_set_integer 7 0 (N.of_nat (length s)) ++ s.
(** __fly_payload_from_headers, v2.c:2288-2397, with fly_hv2_set_index (2240-2268); index_update is 0,
    INDEX_UPDATE (header.c:59). *)
Definition put_field (d : dtable) (f : field) : list N :=
  match search_table d f with
  | FoundField j => hp_set_integer 7 128 (j + 1)
  | FoundName j => hp_set_integer 6 64 (j + 1) ++ put_string (snd f)
  | NotFound => hp_set_integer 6 64 0 ++ put_string (fst f) ++ put_string (snd f)
  end.
(** The block built by fly_send_headers_frame, v2.c:3195-3237, when it fits one frame; the buffer has
    100 blocks of 10 bytes (3197-3199); copying 1000 bytes or more out of it dereferences NULL
    (send_headers_one and send_headers_long of H2FragProofs.v derive this from the buffer's code). *)
Definition BLOCK_CAP := 1000%N.
Definition put_block (d : dtable) (h : list field) : outcome (list N) :=
  let b := flat_map (put_field d) h in
  if (BLOCK_CAP <=? N.of_nat (length b))%N then UB NullDeref else Ok b.
