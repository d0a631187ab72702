(** Entity tags, conditional requests and the time zone printed in log records
    (src/cache.c, src/ftime.c). *)
From Verif Require Import Base CStr CNum Status Header.
From Coq Require Import NArith ZArith List Bool.
Import ListNotations.
Local Open Scope nat_scope.

(** %ld of a time, C11 7.21.6.1: a minus sign for negative values, no leading zero. *)
Definition ld (z : Z) : list N := dec_z z.
(** The loop of __fly_number_of_digits_time, cache.c:13-14: [for (a=t; a; a/=10) i++], C division
    truncating towards zero.  The fuel is 64 steps per bit of the argument's magnitude, more than the
    number of digits; running out of it would be [UB Diverges]. *)
Fixpoint digits_loop (fuel : nat) (a : Z) (i : nat) : outcome nat :=
  if Z.eqb a 0 then Ok i
  else match fuel with
       | 0 => UB Diverges
       | S f => digits_loop f (Z.quot a 10) (S i)
       end.
(** __fly_number_of_digits_time, cache.c:8-17. *)
Definition number_of_digits_time (t : Z) : outcome nat := digits_loop (S (Z.to_nat (Z.log2 (Z.abs t)))) t 0.
(** cache.c:27-40, the text whose digest is taken.  None: the text does not fit into the array that was
    allocated for it ([res >= md5_len]) and the function fails. *)
Definition md5_source (name : list N) (mtime ctime : Z) : outcome (option (list N)) :=
  obind (number_of_digits_time mtime) (fun m =>
  obind (number_of_digits_time ctime) (fun c =>
    let md5_len := length name + m + c + 1 in
    let text := name ++ ld mtime ++ ld ctime in
    Ok (if md5_len <=? length text then None else Some text))).
(** A hexadecimal digit, %x, C11 7.21.6.1. *)
Definition hexdigit (d : N) : N := (if d <? 10 then 48 + d else 87 + d)%N.
(** cache.c:53, [snprintf(&md5[2*i], 3, "%02x", preload[i])] with [preload] an array of (signed) char: a
    byte of 128 or more is promoted to a negative int, printed as ffffff.. and cut to the two
    characters that fit. *)
Definition hex_byte (b : N) : list N :=
  if (b <? 128)%N then [hexdigit (b / 16); hexdigit (b mod 16)]%N
  else firstn 2 (bs "ffffff" ++ [hexdigit (b / 16); hexdigit (b mod 16)])%N.
(** cache.c:52-56: the entity tag of a digest. *)
Definition etag_of_digest (d : list N) : list N := flat_map hex_byte d.
(** __fly_md5_from_hash, cache.c:19-59, with MD5 (OpenSSL) as a parameter.  MD5_Init, MD5_Update and
    MD5_Final are taken not to return -1 (they return 0 or 1). *)
Definition file_etag (md5 : list N -> list N) (name : list N) (mtime ctime : Z) : outcome (option (list N)) :=
  obind (md5_source name mtime ctime) (fun o =>
  Ok (match o with None => None | Some text => Some (etag_of_digest (md5 text)) end)).

(** [c->name_len>0 && strcmp(c->name, name) == 0], cache.c:140 and 158: a field without a name is passed over. *)
Definition named (h : hdr) (name : list N) : bool :=
  match h_name h with None => false | Some [] => false | Some n => strcmp_eqb (cstr n) name end.
(** The loop of fly_if_none_match, cache.c:136-145; values are C strings. *)
Fixpoint inm_loop (chain : list hdr) (etag : list N) : outcome bool :=
  match chain with
  | [] => Ok false
  | h :: t =>
    if named h (bs "If-None-Match") then
      match h_value h with
      | None => UB NullDeref
      | Some v => if strcmp_eqb (cstr v) etag then Ok true else inm_loop t etag
      end
    else inm_loop t etag
  end.
(** fly_if_none_match, cache.c:131-147. *)
Definition if_none_match (ci : hci) (etag : list N) : outcome bool :=
  if (hc_count ci =? 0)%nat then Ok false else inm_loop (hc_chain ci) etag.
(** fly_cmp_imt_fixdate, ftime.c:82-99.  [instant] stands for strptime followed by mktime: None when
    either fails.  The members of struct tm strptime does not set (tm_isdst) are indeterminate in the
    code; the model takes the conversion to be a function of the text. *)
Definition cmp_imt_fixdate (instant : list N -> option Z) (t1 t2 : list N) : Z :=
  match instant t1, instant t2 with
  | Some a, Some b => if (b <=? a)%Z then 1%Z else 0%Z
  | _, _ => (-1)%Z
  end.
(** The loop of fly_if_modified_since, cache.c:156-165. *)
Fixpoint ims_loop (instant : list N -> option Z) (chain : list hdr) (last_modified : list N) : outcome bool :=
  match chain with
  | [] => Ok false
  | h :: t =>
    if named h (bs "If-Modified-Since") then
      match h_value h with
      | None => UB NullDeref
      | Some v => Ok (0 <=? cmp_imt_fixdate instant (cstr v) last_modified)%Z
      end
    else ims_loop instant t last_modified
  end.
(** fly_if_modified_since, cache.c:149-167. *)
Definition if_modified_since (instant : list N -> option Z) (ci : hci) (last_modified : list N) : outcome bool :=
  if (hc_count ci =? 0)%nat then Ok false else ims_loop instant (hc_chain ci) last_modified.
(** The choice at request.c:1600-1606 (HTTP/1.1) and v2.c:4990-4994 (HTTP/2): true when the answer to
    the request for a mounted file is 304 (Not Modified), false when the file is sent. *)
Definition not_modified (instant : list N -> option Z) (ci : hci) (etag last_modified : list N) : outcome bool :=
  obind (if_none_match ci etag) (fun a => if a then Ok true else if_modified_since instant ci last_modified).

(** A time zone at an instant: the standard offset east of UTC in seconds, and the seconds added while
    daylight saving time is in force. *)
Record zone := mkZone { z_std : Z; z_dst : Z }.
(** __fly_time_diffsec, ftime.c:14-29, called with the broken-down UTC time and the broken-down local
    time of the instant t.  gmtime_r sets tm_isdst to 0, so that mktime reads the UTC fields as local
    standard time and yields t minus the standard offset; localtime_r fills tm_isdst and mktime
    inverts it.  (mktime's treatment of local times that do not exist is not modelled.) *)
Definition time_diffsec (z : zone) (t : Z) : Z :=
  let t1 := (t - z_std z)%Z in
  let t2 := t in
  if (t1 =? -1)%Z || (t2 =? -1)%Z then (-1)%Z else (t1 - t2)%Z.
(** fly_logtime, ftime.c:35-65, [date] being the text strftime makes of "%F %T" (ftime.c:31-34).  None: the function
    fails (-1).  The size limit of the output (50 bytes) is not reached. *)
Definition logtime (date : list N) (z : zone) (t : Z) : option (list N) :=
  let d := time_diffsec z t in
  if (d =? -1)%Z then None
  else
    let h := (Z.abs d / 3600)%Z in
    let m := (Z.abs d mod 3600)%Z in
    Some (date ++ bs " [UTC" ++ (if (d <? 0)%Z then bs "+" else bs "-") ++ dec_z h ++ bs ":" ++
          (if (m <? 10)%Z then bs "0" else []) ++ dec_z m ++ bs "]").
