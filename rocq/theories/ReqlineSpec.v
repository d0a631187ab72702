(** What a request line is (RFC 7230 section 3.1.1, RFC 3986), and the exact language fly accepts. *)
From Verif Require Import Base Names NamesProofs.
Local Open Scope N_scope.

(** RFC 3986 appendix A. *)
Definition ALPHA (c : N) : Prop := 65 <= c <= 90 \/ 97 <= c <= 122.
Definition DIGIT (c : N) : Prop := 48 <= c <= 57.
Definition HEXDIG (c : N) : Prop := DIGIT c \/ 65 <= c <= 70 \/ 97 <= c <= 102.
Definition UNRESERVED (c : N) : Prop := ALPHA c \/ DIGIT c \/ In c (bs "-._~").
Definition SUB_DELIM (c : N) : Prop := In c (bs "!$&'()*+,;=").
Definition PCHAR (c : N) : Prop := UNRESERVED c \/ SUB_DELIM c \/ In c (bs ":@").
Definition USERINFO (c : N) : Prop := UNRESERVED c \/ SUB_DELIM c \/ In c (bs ":").
(** A string of characters of a class and of percent-encoded octets. *)
Inductive encoded (ok : N -> Prop) : list N -> Prop :=
| enc_nil : encoded ok []
| enc_char c s : ok c -> encoded ok s -> encoded ok (c :: s)
| enc_pct a b s : HEXDIG a -> HEXDIG b -> encoded ok s -> encoded ok (37 :: a :: b :: s).
(** absolute-path = 1*( "/" segment ). *)
Definition abs_path (p : list N) : Prop := (exists t, p = 47 :: t) /\ encoded (fun c => PCHAR c \/ c = 47) p.
(** query = *( pchar / "/" / "?" ). *)
Definition query_text (q : list N) : Prop := encoded (fun c => PCHAR c \/ c = 47 \/ c = 63) q.

Definition SP : list N := [32].
Definition CRLF_ : list N := [13; 10].
(** method SP request-target SP "HTTP/" version CRLF *)
Definition request_line (m : method) (target : list N) (v : version) : list N :=
  method_spelling m ++ SP ++ target ++ SP ++ bs "HTTP/" ++ version_number v ++ CRLF_.
Definition with_query (path : list N) (q : option (list N)) : list N :=
  path ++ match q with None => [] | Some q => bs "?" ++ q end.

(** What fly makes of a query: the first two bytes of a percent-encoded octet at its beginning are lost. *)
Definition query_seen (q : list N) : list N := match q with 37 :: _ => skipn 2 q | _ => q end.
(** The request targets fly accepts for a method, with the path and the query it reports. *)
Inductive fly_target : method -> list N -> list N -> option (list N) -> Prop :=
| ft_path m p : m <> CONNECT -> abs_path p -> fly_target m p p None
| ft_question m p : m <> CONNECT -> abs_path p -> fly_target m (p ++ bs "?") p None
| ft_query m p q : m <> CONNECT -> abs_path p -> q <> [] -> query_text q ->
    fly_target m (p ++ bs "?" ++ q) p (Some (query_seen q))
| ft_connect u h d : u <> [] -> encoded USERINFO u ->
    h <> [] -> Forall (fun c => ALPHA c \/ DIGIT c) h -> d <> [] -> Forall DIGIT d ->
    fly_target CONNECT (u ++ bs "@" ++ h ++ bs ":" ++ d) [] None.
Definition spaces (s : list N) : Prop := exists k, s = repeat 32 (S k).
(** The lines fly accepts: blanks may be repeated, "HTTP" may be missing or repeated. *)
Inductive fly_line : list N -> method -> list N -> option (list N) -> version -> Prop :=
| fl m s1 t path q s2 k v rest : fly_target m t path q -> spaces s1 -> spaces s2 ->
    fly_line (method_spelling m ++ s1 ++ t ++ s2 ++ concat (repeat (bs "HTTP") k) ++ bs "/" ++ version_number v ++ CRLF_ ++ rest)
             m path q v.
