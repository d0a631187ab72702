(** Model of the MIME type table of src/mime.c and of the content type of a response. *)
From Verif Require Import Base CStr.

(** fly_mime_type_t, mime.h:105-110: name and NULL-terminated extensions (the enum value is not
    needed; every entry of the table has a non-NULL extensions array). *)
Record mime_type := mkMime { mt_name : list N; mt_exts : list (list N) }.
(** mimes[], mime.c:5-16 (there is no terminating entry). *)
Definition mimes : list mime_type :=
  [mkMime (bs "text/plain") [bs "txt"];
   mkMime (bs "text/csv") [bs "csv"];
   mkMime (bs "text/html") [bs "html"; bs "htm"];
   mkMime (bs "text/css") [bs "css"; bs "css"];
   mkMime (bs "text/xml") [bs "xml"];
   mkMime (bs "text/javascript") [bs "js"];
   mkMime (bs "text/richtext") [bs "rtf"];
   mkMime (bs "application/json") [];
   mkMime (bs "application/octet_stream") [];
   mkMime (bs "multipart/form-data") []].
(** unknown_mime, noext_mime and default_route_response_mime, mime.c:19-28; [fly_mime_type_t *]. *)
Inductive mime_ptr := MTable (m : mime_type) | MUnknown | MNoext.

(** strchr(s, '.'): the rest after the first dot. *)
Fixpoint after_dot (s : list N) : option (list N) :=
  match s with [] => None | b :: t => if (b =? 46)%N then Some t else after_dot t end.
(** The loop mime.c:1138-1140 (each iteration shortens the string). *)
Fixpoint ext_loop (fuel : nat) (s : list N) : outcome (list N) :=
  match fuel with
  | 0 => UB Diverges
  | S f => match s with
           | [] => Ok s
           | _ => match after_dot s with Some t => ext_loop f t | None => Ok s end
           end
  end.
(** fly_mime_type_from_path_name, mime.c:1132-1154. *)
Definition mime_from_path (path : list N) : outcome mime_ptr :=
  match after_dot path with
  | None => Ok MNoext
  | Some _ =>
    obind (ext_loop (S (length path)) path) (fun ext =>
    match List.find (fun m => existsb (fun e => strcmp_eqb e ext) (mt_exts m)) mimes with
    | Some m => Ok (MTable m)
    | None => Ok MUnknown
    end)
  end.
(** fly_mime_type_from_str, mime.c:120-129: the loop has no terminating entry to stop at. *)
Definition mime_from_str (s : list N) : outcome mime_type :=
  match List.find (fun m => (length s =? length (mt_name m)) && strncmp_eqb (length s) s (mt_name m)) mimes with
  | Some m => Ok m
  | None => UB OutOfBounds
  end.
(** fly_mime_type_from_strn, mime.c:131-140. *)
Definition mime_from_strn (s : list N) : outcome mime_type :=
  match List.find (fun m => (length (mt_name m) <=? length s) && strncmp_eqb (length (mt_name m)) s (mt_name m)) mimes with
  | Some m => Ok m
  | None => UB OutOfBounds
  end.
(** The name added by fly_add_content_type, header.c:423-433 (with fly_mime_invalid, mime.c:29-32). *)
Definition content_type_value (p : option mime_ptr) : list N :=
  match p with Some (MTable m) => mt_name m | _ => bs "text/plain" end.
(** The Content-Type sent for a mounted file: mount.c:345 / worker.c:277, response.c:1349. *)
Definition file_content_type (path : list N) : outcome (list N) :=
  obind (mime_from_path path) (fun p => Ok (content_type_value (Some p))).
