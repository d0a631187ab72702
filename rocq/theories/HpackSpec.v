(** RFC 7541 (HPACK), written down independently of the model of the code. *)
From Verif Require Import Base.

(** ** 5.1 Integers *)
(** The octets after a full prefix: seven bits each, least significant group first. *)
Fixpoint tail_octets (fuel : nat) (n : N) : list N :=
  match fuel with
  | 0 => [n]
  | S f => if (n <? 128)%N then [n] else (n mod 128 + 128)%N :: tail_octets f (n / 128)
  end.
(** [v] with an N-bit prefix; [flags] are the bits of the first octet above the prefix. *)
Definition rfc_int (bits flags v : N) : list N :=
  let full := (2 ^ bits - 1)%N in
  if (v <? full)%N then [(flags + v)%N] else (flags + full)%N :: tail_octets (N.size_nat v) (v - full).
Fixpoint tail_value (l : list N) : option (N * list N) :=
  match l with
  | [] => None
  | b :: t => if (b <? 128)%N then Some (b, t)
              else match tail_value t with Some (n, r) => Some ((b - 128) + 128 * n, r)%N | None => None end
  end.
(** The decoder of section 5.1. *)
Definition rfc_decode_int (bits : N) (l : list N) : option (N * list N) :=
  match l with
  | [] => None
  | b :: t => let p := (b mod 2 ^ bits)%N in
              if (p <? 2 ^ bits - 1)%N then Some (p, t)
              else match tail_value t with Some (n, r) => Some (p + n, r)%N | None => None end
  end.
(** The flags: the bits above an N-bit prefix, in place. *)
Definition flags_ok (bits flags : N) : Prop := (1 <= bits <= 8 /\ flags < 256 /\ flags mod 2 ^ bits = 0)%N.

(** ** 5.2 and Appendix B: the Huffman code *)
(** Appendix B: the code length of the symbols 0 .. 256. *)
Definition rfc_lengths : list nat :=
  [13; 23; 28; 28; 28; 28; 28; 28; 28; 24; 30; 28; 28; 30; 28; 28; 28; 28; 28; 28; 28; 28; 30; 28; 28; 28; 28; 28; 28; 28; 28; 28;
   6; 10; 10; 12; 13; 6; 8; 11; 10; 10; 8; 11; 8; 6; 6; 6; 5; 5; 5; 6; 6; 6; 6; 6; 6; 6; 7; 8; 15; 6; 12; 10;
   13; 6; 7; 7; 7; 7; 7; 7; 7; 7; 7; 7; 7; 7; 7; 7; 7; 7; 7; 7; 7; 7; 7; 7; 8; 7; 8; 13; 19; 13; 14; 6;
   15; 5; 6; 5; 6; 5; 6; 6; 6; 5; 7; 7; 6; 6; 6; 5; 6; 7; 6; 5; 5; 6; 7; 7; 7; 7; 7; 15; 11; 14; 13; 28;
   20; 22; 20; 20; 22; 22; 22; 23; 22; 23; 23; 23; 23; 23; 24; 23; 24; 24; 22; 23; 24; 23; 23; 23; 23; 21; 22; 23; 22; 23; 23; 24;
   22; 21; 20; 22; 22; 23; 23; 21; 23; 22; 22; 24; 21; 22; 23; 23; 21; 21; 22; 21; 23; 22; 23; 23; 20; 22; 22; 22; 23; 22; 22; 23;
   26; 26; 20; 19; 22; 23; 22; 25; 26; 26; 26; 27; 27; 26; 24; 25; 19; 21; 26; 27; 27; 26; 27; 24; 21; 21; 26; 26; 28; 27; 27; 27;
   20; 24; 20; 21; 22; 21; 21; 23; 22; 22; 25; 25; 24; 24; 26; 23; 26; 27; 26; 26; 27; 27; 27; 27; 27; 28; 27; 27; 27; 27; 27; 26;
   30].
Definition msb_bits (len : nat) (code : N) : list bool := map (fun i => N.testbit code (N.of_nat (len - 1 - i))) (seq 0 len).
(** The canonical code of these lengths: codes are assigned in increasing order of length and symbol. *)
Fixpoint canonical (l : list (N * nat)) (code : N) (len : nat) : list (N * list bool) :=
  match l with
  | [] => []
  | (s, n) :: t => let c := (code * 2 ^ N.of_nat (n - len))%N in (s, msb_bits n c) :: canonical t (c + 1) n
  end.
Definition by_length : list (N * nat) :=
  let syms := combine (map N.of_nat (seq 0 257)) rfc_lengths in
  flat_map (fun n => filter (fun s => snd s =? n) syms) (seq 1 30).
Definition rfc_codes : list (N * list bool) := Eval vm_compute in canonical by_length 0 0.
Definition rfc_code (s : N) : list bool := match find (fun e => (fst e =? s)%N) rfc_codes with Some e => snd e | None => [] end.
Fixpoint pack (l : list bool) : list N :=
  match l with
  | a :: b :: c :: d :: e :: f :: g :: h :: t =>
    fold_left (fun n x => 2 * n + (if x : bool then 1 else 0))%N [a; b; c; d; e; f; g; h] 0%N :: pack t
  | _ => []
  end.
(** Codes of all bytes, padded with ones (the start of EOS) to a whole octet. *)
Definition pad_len (n : nat) : nat := (8 - n mod 8) mod 8.
Definition huff_bits (s : list N) : list bool := flat_map rfc_code s.
Definition rfc_huffman (s : list N) : list N :=
  pack (huff_bits s ++ repeat true (pad_len (length (huff_bits s)))).

(** ** 2.3 and Appendix A: tables *)
Definition rfc_static : list (list N * list N) :=
  [(bs ":authority", bs "");
   (bs ":method", bs "GET");
   (bs ":method", bs "POST");
   (bs ":path", bs "/");
   (bs ":path", bs "/index.html");
   (bs ":scheme", bs "http");
   (bs ":scheme", bs "https");
   (bs ":status", bs "200");
   (bs ":status", bs "204");
   (bs ":status", bs "206");
   (bs ":status", bs "304");
   (bs ":status", bs "400");
   (bs ":status", bs "404");
   (bs ":status", bs "500");
   (bs "accept-charset", bs "");
   (bs "accept-encoding", bs "gzip, deflate");
   (bs "accept-language", bs "");
   (bs "accept-ranges", bs "");
   (bs "accept", bs "");
   (bs "access-control-allow-origin", bs "");
   (bs "age", bs "");
   (bs "allow", bs "");
   (bs "authorization", bs "");
   (bs "cache-control", bs "");
   (bs "content-disposition", bs "");
   (bs "content-encoding", bs "");
   (bs "content-language", bs "");
   (bs "content-length", bs "");
   (bs "content-location", bs "");
   (bs "content-range", bs "");
   (bs "content-type", bs "");
   (bs "cookie", bs "");
   (bs "date", bs "");
   (bs "etag", bs "");
   (bs "expect", bs "");
   (bs "expires", bs "");
   (bs "from", bs "");
   (bs "host", bs "");
   (bs "if-match", bs "");
   (bs "if-modified-since", bs "");
   (bs "if-none-match", bs "");
   (bs "if-range", bs "");
   (bs "if-unmodified-since", bs "");
   (bs "last-modified", bs "");
   (bs "link", bs "");
   (bs "location", bs "");
   (bs "max-forwards", bs "");
   (bs "proxy-authenticate", bs "");
   (bs "proxy-authorization", bs "");
   (bs "range", bs "");
   (bs "referer", bs "");
   (bs "refresh", bs "");
   (bs "retry-after", bs "");
   (bs "server", bs "");
   (bs "set-cookie", bs "");
   (bs "strict-transport-security", bs "");
   (bs "transfer-encoding", bs "");
   (bs "user-agent", bs "");
   (bs "vary", bs "");
   (bs "via", bs "");
   (bs "www-authenticate", bs "")].
Notation hfield := (list N * list N)%type (only parsing).
(** 4.1: the size of an entry. *)
Definition esize (f : hfield) : N := (N.of_nat (length (fst f)) + N.of_nat (length (snd f)) + 32)%N.
Definition tsize (l : list hfield) : N := fold_right (fun f n => esize f + n)%N 0%N l.
(** 4.4: the entries that remain, newest first. *)
Fixpoint fits (max : N) (l : list hfield) : list hfield :=
  match l with
  | [] => []
  | f :: t => if (esize f <=? max)%N then f :: fits (max - esize f) t else []
  end.
(** 2.3.3: the index address space. *)
Definition resolve (tab : list hfield) (i : N) : option hfield :=
  if (i =? 0)%N then None
  else if (i <=? 61)%N then nth_error rfc_static (N.to_nat (i - 1))
  else nth_error tab (N.to_nat (i - 62)).

(** ** 6 Binary format *)
Inductive mode := Incremental | WithoutIndexing | NeverIndexed.
Inductive hname := NameIndex (i : N) | NameLit (huff : bool) (s : list N).
Inductive rep :=
| Indexed (i : N)
| Literal (m : mode) (n : hname) (huff : bool) (v : list N)
| SizeUpdate (n : N).
Definition mode_bits (m : mode) : N := match m with Incremental => 6 | _ => 4 end.
Definition mode_flags (m : mode) : N := match m with Incremental => 64 | WithoutIndexing => 0 | NeverIndexed => 16 end.
Definition enc_string (huff : bool) (s : list N) : list N :=
  let o := if huff then rfc_huffman s else s in rfc_int 7 (if huff then 128 else 0) (N.of_nat (length o)) ++ o.
Definition enc_rep (r : rep) : list N :=
  match r with
  | Indexed i => rfc_int 7 128 i
  | Literal m n h v =>
    match n with
    | NameIndex i => rfc_int (mode_bits m) (mode_flags m) i
    | NameLit h s => rfc_int (mode_bits m) (mode_flags m) 0 ++ enc_string h s
    end ++ enc_string h v
  | SizeUpdate n => rfc_int 5 32 n
  end.
Definition enc_block (l : list rep) : list N := flat_map enc_rep l.
(** The meaning of a representation: the table maximum and contents before and after, the emitted field. *)
Definition meaning (max : N) (tab : list hfield) (r : rep) : option (N * list hfield * list hfield) :=
  match r with
  | Indexed i => match resolve tab i with Some f => Some (max, tab, [f]) | None => None end
  | Literal m n _ v =>
    match match n with NameIndex i => option_map fst (resolve tab i) | NameLit _ s => Some s end with
    | None => None
    | Some name => Some (max, match m with Incremental => fits max ((name, v) :: tab) | _ => tab end, [(name, v)])
    end
  | SizeUpdate n => Some (n, fits n tab, [])
  end.
Fixpoint meaning_block (max : N) (tab : list hfield) (l : list rep) : option (list hfield * list hfield) :=
  match l with
  | [] => Some ([], tab)
  | r :: t => match meaning max tab r with
              | None => None
              | Some (max', tab', h) => match meaning_block max' tab' t with Some (h', tab'') => Some (h ++ h', tab'') | None => None end
              end
  end.
