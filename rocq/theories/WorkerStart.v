(** What a worker opens before it begins to serve (src/worker.c). *)
From Verif Require Import Base Status.
From Coq Require Import NArith ZArith List Bool Arith.
Import ListNotations.
Local Open Scope nat_scope.

(** What becomes of an encoding: FLY_ENCODE_SUCCESS, FLY_ENCODE_BUFFER_ERROR, one of the other errors, another value. *)
Inductive enc := EncOk | EncFull | EncFails | EncOther.
(** A file of a mount point, with the answers of the calls made on it: whether its path can be resolved (fly_join_path,
    mount.c:522-546), whether it can be opened, whether its time can be written (fly_imt_fixdate), st_size,
    S_ISREG(st_mode), and how it is encoded if it can be read. *)
Record file := mkFile { w_join : bool; w_opens : bool; w_date : bool; w_size : Z; w_reg : bool; w_enc : enc }.
(** FLY_ENCODE_THRESHOLD, FLY_MAX_RESPONSE_CONTENT_LENGTH (encode.c:1453-1456, response.c:1385-1388).  Simplified: the
    threshold is not negative (it is compared as a size_t, encode.h:190-191). *)
Record limits := mkLimits { m_threshold : Z; m_max : Z }.

(** How the encoders begin, encode.c:190-200, 410-425, 622-632: without a descriptor lseek fails, FLY_ENCODE_SEEK_ERROR. *)
Definition encode (opened : bool) (e : enc) : enc := if opened then e else EncFails.

(** Why a worker ends: every one of these is an emergency error (worker.c:695-727, 743-773), which ends the server (C70). *)
Inductive why := NoContent | BadDate | BadEncode | BadDir | BadFile.
(** fly_preencode_pf and fly_preencode_frc, worker.c:1073-1176: None, the file is not encoded; Some false, it is; Some
    true, it does not fit. *)
Definition preencode (m : limits) (opened : bool) (size : Z) (reg : bool) (e : enc) : why + option bool :=
  if negb (m_threshold m <=? size)%Z || negb reg then inr None
  else if (size <=? m_max m)%Z then
    match encode opened e with
    | EncOk => inr (Some false)
    | EncFull => inr (Some true)
    | EncFails => inl BadEncode
    | EncOther => inl BadEncode
    end
  else inr (Some true).

(** A file afterwards: whether it is open, and what preencode did. *)
Record ready := mkReady { y_open : bool; y_enc : option bool }.
(** The loop of __fly_worker_open_file over one file, worker.c:909-932.  Simplified: which file becomes mount->index
    (worker.c:917-918) is read by nothing. *)
Definition open_one (m : limits) (f : file) : why + ready :=
  if negb (w_join f) then inr (mkReady false None)
  else if negb (w_date f) then inl BadDate
  else match preencode m (w_opens f) (w_size f) (w_reg f) (w_enc f) with
       | inl y => inl y
       | inr e => inr (mkReady (w_opens f) e)
       end.
Fixpoint open_all (m : limits) (l : list file) : why + list ready :=
  match l with
  | [] => inr []
  | f :: t => match open_one m f with
              | inl y => inl y
              | inr r => match open_all m t with inl y => inl y | inr rs => inr (r :: rs) end
              end
  end.
(** __fly_worker_open_file, worker.c:890-936; the mounts in their order.  A mount structure is always there
    (pyserver.c:1003). *)
Definition open_files (m : limits) (mounts : list (list file)) (routes : nat) : why + list ready :=
  match mounts, routes with
  | [], O => inl NoContent
  | _, _ => open_all m (concat mounts)
  end.

(** FLY_PATH_MAX. *)
Definition PATH_MAX : N := 4096.
(** The world of the default contents: whether the directory is one (stat), its realpath, and for a path access(R_OK),
    open, fstat, st_size, S_ISREG and the encoding. *)
Record world := mkWorld { v_dir : list N -> bool; v_real : list N -> option (list N); v_access : list N -> bool; v_open : list N -> option nat;
  v_stat : list N -> bool; v_size : list N -> Z; v_reg : list N -> bool; v_enc : list N -> enc }.
(** struct fly_response_content_by_stcode: the status, the path and the descriptor.  Simplified: opening the same path
    twice gives the same descriptor. *)
Record content := mkContent { k_type : stcode; k_path : list N; k_fd : nat; k_enc : option bool }.

(** The loop worker.c:957-1000 over the table of status codes.  sprintf writes "/", the name and a zero behind the path in
    an array of FLY_PATH_MAX bytes (worker.c:965-967). *)
Fixpoint defaults_loop (m : limits) (w : world) (d : list N) (rows : list st_row) (acc : list content) : outcome (why + list content) :=
  match rows with
  | [] => Ok (inr acc)
  | r :: t =>
    match v_real w d with
    | None => Ok (inl BadDir)
    | Some p =>
      if (PATH_MAX <? N.of_nat (length p) + 1 + N.of_nat (length (dec_z (sr_code r) ++ bs ".html")) + 1)%N then UB OutOfBounds
      else
        let path := p ++ bs "/" ++ dec_z (sr_code r) ++ bs ".html" in
        if negb (v_access w path) then defaults_loop m w d t acc
        else match v_open w path with
             | None => defaults_loop m w d t acc
             | Some fd =>
               if negb (v_stat w path) then Ok (inl BadFile)
               else match preencode m true (v_size w path) (v_reg w path) (v_enc w path) with
                    | inl y => Ok (inl y)
                    | inr e => defaults_loop m w d t (acc ++ [mkContent (sr_type r) path fd e])
                    end
             end
    end
  end.
(** __fly_worker_open_default_content, worker.c:946-1002; [dir]: FLY_DEFAULT_CONTENT_PATH. *)
Definition open_defaults (m : limits) (w : world) (dir : option (list N)) : outcome (why + list content) :=
  match dir with
  | None => Ok (inr [])
  | Some d => if negb (v_dir w d) then Ok (inr []) else defaults_loop m w d responses []
  end.
(** fly_default_content_by_stcode, context.c:82-93. *)
Definition default_for (l : list content) (t : stcode) : option content :=
  find (fun c => stcode_beq (k_type c) t && (0 <? k_fd c)) l.
