(** Property C41 (Accept decoding). *)
From Verif Require Import Base CStr AcceptEnc AcceptEncProofs AcceptMime AcceptMimeProofs.

(** ** C41.  A list of any number of media ranges of any length is accepted and decoded to exactly
    its ranges, in order, with parameters and quality, without reading outside the value.
    Missing from the full claim ("_partial"): weights other than 0.d, 0.dd, 0.ddd; types and subtypes
    of 30 bytes and more; white space in front of ';'; parameters on an element without weight that
    is followed by another element.  All of these are false of the code (theorems below). *)
Theorem accept_decoded_partial : forall it l, mitem_ok it -> Forall (fun p => sep_ok (fst p) /\ mitem_ok (snd p)) l -> all_but_last_closed it l ->
  m_parse (render_accept it l) = Ok (MSuccess (map meaning (it :: map snd l))).
Proof. exact accept_decoded. Qed.
Print Assumptions accept_decoded_partial.
Example accept_decoded_ex :
  let it := mkMI (bs "text") (bs "html") [(bs " ", bs "level", bs "1"); ([], bs "qs", bs "2")] (Some ([], bs "5")) in
  let l := [(bs ", ", mkMI (bs "image") (bs "*") [] None); (bs ",", mkMI (bs "x") (bs "y") [([], bs "a", bs "b")] None)] in
  render_accept it l = bs "text/html; level=1;qs=2;q=0.5, image/*,x/y;a=b" /\
  mitem_ok it /\ Forall (fun p => sep_ok (fst p) /\ mitem_ok (snd p)) l /\ all_but_last_closed it l /\
  map meaning (it :: map snd l) =
    [mkRange (bs "text") (bs "html") 50 [(bs "level", bs "1"); (bs "qs", bs "2")] []; mkRange (bs "image") (bs "*") 100 [] [];
     mkRange (bs "x") (bs "y") 100 [(bs "a", bs "b")] []].
Proof.
  cbv zeta. split; [reflexivity|].
  assert (T : forall s, forallb rfc_tchar s = true -> s <> [] -> token s) by (intros s H N; split; [exact N|apply Forall_forall; apply forallb_forall; exact H]).
  assert (P : forall s n v, ows s -> forallb rfc_tchar n = true -> n <> [] -> n <> bs "q" -> forallb rfc_tchar v = true -> v <> [] -> param_ok (s, n, v)) by (intros; repeat split; auto; apply T; auto).
  split; [|split; [|split; [|vm_compute; reflexivity]]].
  - split; [apply T; [reflexivity|discriminate]|]. split; [cbn; lia|]. split; [apply T; [reflexivity|discriminate]|]. split; [cbn; lia|]. split.
    + constructor; [apply P; try reflexivity; try discriminate; constructor; [auto|constructor]|]. constructor; [apply P; try reflexivity; try discriminate; constructor|constructor].
    + cbn. split; [constructor|]. split; [lia|]. repeat constructor.
  - constructor; [|constructor; [|constructor]]; cbn [fst snd]; (split; [eexists; split; [reflexivity|repeat (constructor; [cbn; auto|]); constructor]|]);
      (split; [apply T; [reflexivity|discriminate]|]); (split; [cbn; lia|]); (split; [apply T; [reflexivity|discriminate]|]); (split; [cbn; lia|]);
      (split; [|exact I]); cbn [t_params]; [constructor|]. constructor; [apply P; try reflexivity; try discriminate; constructor|constructor].
  - cbn. split; [right; discriminate|]. split; [left; reflexivity|exact I].
Qed.
(** Such a value is refused (406) exactly when no range has a positive stored quality. *)
Theorem accept_result_partial : forall it l, mitem_ok it -> Forall (fun p => sep_ok (fst p) /\ mitem_ok (snd p)) l -> all_but_last_closed it l ->
  fly_accept_mime (Some (render_accept it l)) =
  Ok (if existsb (fun g => (0 <? g_q g)%Z) (map meaning (it :: map snd l)) then AmOk (map meaning (it :: map snd l)) else Am406).
Proof. exact accept_result. Qed.
Print Assumptions accept_result_partial.
(** Whatever the value, the parser terminates. *)
Theorem accept_terminates : forall v, m_parse v <> UB Diverges.
Proof. exact m_parse_total. Qed.
Print Assumptions accept_terminates.
(** Without the header every media type is acceptable. *)
Theorem accept_absent : fly_accept_mime None = Ok (AmOk [mkRange (bs "*") (bs "*") 100 [] []]).
Proof. reflexivity. Qed.
Print Assumptions accept_absent.
(** Finding: every value in which the first range has a weight beginning with 1 is a syntax error (400). *)
Theorem accept_quality_one_refuted : forall ty sub s rest, token ty -> length ty < 30 -> token sub -> length sub < 30 -> ows s ->
  m_parse (ty ++ bs "/" ++ sub ++ bs ";" ++ s ++ bs "q=1" ++ rest) = Ok MPerror.
Proof. exact accept_one_rejected. Qed.
Print Assumptions accept_quality_one_refuted.
Example accept_quality_one_ex : fly_accept_mime (Some (bs "text/html;q=1.0, */*;q=0.5")) = Ok Am400 /\ token (bs "text") /\ token (bs "html").
Proof. split; [vm_compute; reflexivity|]. split; split; try discriminate; repeat constructor. Qed.
(** Finding: white space in front of ';', allowed by the grammar, is a syntax error. *)
Theorem accept_space_before_semicolon_refuted : forall ty sub s rest, token ty -> token sub -> ows s -> s <> [] ->
  m_parse (ty ++ bs "/" ++ sub ++ s ++ bs ";" ++ rest) = Ok MPerror.
Proof. exact accept_space_rejected. Qed.
Print Assumptions accept_space_before_semicolon_refuted.
Example accept_space_ex : fly_accept_mime (Some (bs "text/html ;q=0.5")) = Ok Am400 /\ ows (bs " ") /\ bs " " <> [].
Proof. split; [vm_compute; reflexivity|]. split; [repeat constructor|discriminate]. Qed.
(** Findings: "q=0" is a syntax error; a parameter value swallows the comma and the next range; a
    quality below 0.01 is taken as 0. *)
Theorem accept_wellformed_refuted :
  fly_accept_mime (Some (bs "text/html;q=0")) = Ok Am400 /\
  fly_accept_mime (Some (bs "text/html;level=1, text/plain")) = Ok Am400 /\
  fly_accept_mime (Some (bs "a/b;c=d,e/f")) = Ok (AmOk [mkRange (bs "a") (bs "b") 100 [(bs "c", bs "d,e/f")] []]) /\
  fly_accept_mime (Some (bs "a/b;c=""d""")) = Ok (AmOk [mkRange (bs "a") (bs "b") 100 [(bs "c", [])] []]) /\
  fly_accept_mime (Some (bs "text/html;q=0.005")) = Ok Am406.
Proof. repeat split; vm_compute; reflexivity. Qed.
Print Assumptions accept_wellformed_refuted.
(** Findings: a subtype of 30 bytes or more is written past its array; an extension directly behind
    the weight reads through a null pointer. *)
Theorem accept_memory_refuted :
  fly_accept_mime (Some (bs "application/vnd.ms-powerpoint.presentation.macroEnabled.12")) = UB OutOfBounds /\
  fly_accept_mime (Some (bs "text/html;q=0.5;a=b")) = UB NullDeref.
Proof. split; vm_compute; reflexivity. Qed.
Print Assumptions accept_memory_refuted.
