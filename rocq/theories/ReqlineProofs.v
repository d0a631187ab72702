(** Proofs about Reqline.v. *)
From Verif Require Import Base CStr Names NamesProofs Machine Buffer BufferProofs Reqline ReqlineSpec.
Local Open Scope N_scope.

(** ** Character classes *)
Ltac classes := unfold HEXDIG, PCHAR, USERINFO, UNRESERVED, SUB_DELIM, ALPHA, DIGIT;
  change (bs "-._~") with [45; 46; 95; 126]; change (bs "!$&'()*+,;=") with [33; 36; 38; 39; 40; 41; 42; 43; 44; 59; 61];
  change (bs ":@") with [58; 64]; change (bs ":") with [58]; cbn [In];
  unfold unreserved, sub_delims, fly_alpha_numeral, fly_alpha, fly_numeral, hexdigit.
Lemma pchar_class c : (unreserved c || (c =? 58) || sub_delims c || (c =? 64) = true) <-> PCHAR c.
Proof. classes. lia. Qed.
Lemma userinfo_class c : (unreserved c || sub_delims c || (c =? 58) = true) <-> USERINFO c.
Proof. classes. lia. Qed.
Lemma alnum_class c : fly_alpha_numeral c = true <-> ALPHA c \/ DIGIT c.
Proof. classes. lia. Qed.
Lemma digit_class c : fly_numeral c = true <-> DIGIT c.
Proof. classes. lia. Qed.
Lemma hex_class c : hexdigit c = true <-> HEXDIG c.
Proof. classes. lia. Qed.
Lemma bool_false_iff (b : bool) (P : Prop) : (b = true <-> P) -> (b = false <-> ~ P).
Proof. destruct b; intuition congruence. Qed.

(** One element of an encoded string. *)
Definition atom (ok : N -> Prop) (a : list N) : Prop :=
  (exists c, a = [c] /\ ok c) \/ (exists x y, a = [37; x; y] /\ HEXDIG x /\ HEXDIG y).
Lemma encoded_app ok s t : encoded ok s -> encoded ok t -> encoded ok (s ++ t).
Proof. induction 1; intros; cbn [app]; [assumption|apply enc_char; auto|apply enc_pct; auto]. Qed.
Lemma encoded_atom ok a : atom ok a -> encoded ok a.
Proof. intros [(c & -> & H)|(x & y & -> & H & K)]; [apply enc_char|apply enc_pct]; auto using enc_nil. Qed.
Lemma encoded_weaken (ok ok' : N -> Prop) s : (forall c, ok c -> ok' c) -> encoded ok s -> encoded ok' s.
Proof. intros H; induction 1; [apply enc_nil|apply enc_char; auto|apply enc_pct; auto]. Qed.
Lemma atom_weaken (ok ok' : N -> Prop) s : (forall c, ok c -> ok' c) -> atom ok s -> atom ok' s.
Proof. intros H [(c & E & K)|K]; [left; eauto|right; exact K]. Qed.

(** The outcome of the class tests on a line that is followed by NUL. *)
Definition atom_at (ok : N -> Prop) (rest : list N) (o : option (list N)) : Prop :=
  match o with
  | Some p => exists a x r, rest = a ++ x :: r /\ atom ok (a ++ [x]) /\ p = x :: r ++ [0]
  | None => True
  end.
Lemma hex_not0 x : HEXDIG x -> x <> 0. Proof. classes. lia. Qed.
Lemma pct_spec ok rest : exists o, pct_encoded (rest ++ [0]) = Ok o /\ atom_at ok rest o.
Proof.
  unfold pct_encoded. destruct rest as [|c rest]; [exists None; split; [reflexivity|exact Logic.I]|].
  unfold rd. cbn [app nth_error obind]. destruct (N.eqb_spec c 37) as [->|]; cbn [negb]; [|exists None; split; [reflexivity|exact Logic.I]].
  destruct rest as [|a rest]; [exists None; split; [reflexivity|exact Logic.I]|]. cbn [app nth_error obind].
  destruct (hexdigit a) eqn:A; cbn [negb]; [|exists None; split; [reflexivity|exact Logic.I]].
  destruct rest as [|b rest]; [exists None; split; [reflexivity|exact Logic.I]|]. cbn [app nth_error obind].
  destruct (hexdigit b) eqn:B; cbn [negb]; [|exists None; split; [reflexivity|exact Logic.I]].
  eexists; split; [reflexivity|]. exists [37; a], b, rest. split; [reflexivity|]. split; [|reflexivity].
  right. exists a, b. rewrite <- !hex_class. auto.
Qed.
Lemma pchar_spec rest : exists o, pchar (rest ++ [0]) = Ok o /\ atom_at PCHAR rest o.
Proof.
  unfold pchar. destruct rest as [|c rest]; [exists None; split; [reflexivity|exact Logic.I]|].
  unfold rd at 1. cbn [app nth_error obind]. destruct (_ || _) eqn:E.
  - eexists; split; [reflexivity|]. exists [], c, rest. split; [reflexivity|]. split; [|reflexivity]. left. exists c. split; [reflexivity|]. now apply pchar_class.
  - apply (pct_spec PCHAR (c :: rest)).
Qed.
Lemma userinfo_spec rest : exists o, userinfo (rest ++ [0]) = Ok o /\ atom_at USERINFO rest o.
Proof.
  unfold userinfo. destruct rest as [|c rest]; [exists None; split; [reflexivity|exact Logic.I]|].
  unfold rd at 1. cbn [app nth_error obind]. destruct (_ || _) eqn:E.
  - eexists; split; [reflexivity|]. exists [], c, rest. split; [reflexivity|]. split; [|reflexivity]. left. exists c. split; [reflexivity|]. now apply userinfo_class.
  - apply (pct_spec USERINFO (c :: rest)).
Qed.
Notation QCHAR := (fun c => PCHAR c \/ c = 47 \/ c = 63) (only parsing).
Notation PATHCHAR := (fun c => PCHAR c \/ c = 47) (only parsing).
Lemma query_spec rest : exists o, query_char (rest ++ [0]) = Ok o /\ atom_at QCHAR rest o.
Proof.
  unfold query_char. destruct (pchar_spec rest) as (o & -> & H). cbn [obind]. destruct o as [p|].
  - exists (Some p). split; [reflexivity|]. destruct H as (a & x & r & E & A & P). exists a, x, r. split; [exact E|]. split; [|exact P].
    revert A. apply atom_weaken. tauto.
  - destruct rest as [|c rest]; [exists None; split; [reflexivity|exact Logic.I]|]. unfold rd. cbn [app nth_error obind].
    destruct (_ || _) eqn:E; [|exists None; split; [reflexivity|exact Logic.I]]. eexists; split; [reflexivity|].
    exists [], c, rest. split; [reflexivity|]. split; [|reflexivity]. left. exists c. split; [reflexivity|].
    apply orb_true_iff in E as [E|E]; apply N.eqb_eq in E; auto.
Qed.
Lemma http_name_spec rest : exists o, http_name (rest ++ [0]) = Ok o /\
  match o with Some p => exists r, rest = bs "HTTP" ++ r /\ p = 80 :: r ++ [0] | None => True end.
Proof.
  unfold http_name, rd. change (bs "HTTP") with [72; 84; 84; 80].
  destruct rest as [|a rest]; [exists None; split; [reflexivity|exact Logic.I]|]. cbn [app nth_error obind].
  destruct (N.eqb_spec a 72) as [->|]; cbn [negb]; [|exists None; split; [reflexivity|exact Logic.I]].
  destruct rest as [|b rest]; [exists None; split; [reflexivity|exact Logic.I]|]. cbn [app nth_error obind].
  destruct (N.eqb_spec b 84) as [->|]; cbn [negb]; [|exists None; split; [reflexivity|exact Logic.I]].
  destruct rest as [|c rest]; [exists None; split; [reflexivity|exact Logic.I]|]. cbn [app nth_error obind].
  destruct (N.eqb_spec c 84) as [->|]; cbn [negb]; [|exists None; split; [reflexivity|exact Logic.I]].
  destruct rest as [|d rest]; [exists None; split; [reflexivity|exact Logic.I]|]. cbn [app nth_error obind].
  destruct (N.eqb_spec d 80) as [->|]; cbn [negb]; [|exists None; split; [reflexivity|exact Logic.I]].
  eexists; split; [reflexivity|]. exists rest. split; reflexivity.
Qed.

(** ** __fly_request_method *)
Lemma request_method_spec m r : request_method (method_spelling m ++ r) = Ok (match m with PUT | PATCH => None | _ => Some m end).
Proof. destruct m; reflexivity. Qed.

(** ** Termination *)
Definition rank (st : rstatus) : nat :=
  match st with
  | SInit => 10 | SMethod => 9 | SMethodSpace => 8 | SEndTarget => 6 | STargetSpace => 5 | SHttpName => 4
  | SHttpSlash | SMajor | SPoint | SMinor => 3 | SEndVersion => 2 | SCR | SLF => 1 | SSuccess => 0 | _ => 7
  end%nat.
Definition rmeasure (s : rst) : nat := (11 * length (r_ptr s) + rank (r_st s))%nat.
Lemma rank_le st : (rank st <= 10)%nat. Proof. destruct st; cbn; lia. Qed.
Lemma brk_decreases s s0 s' : brk s = Ok (Next s') -> (length (r_ptr s) <= length (r_ptr s0))%nat -> r_ptr s <> [] -> (rmeasure s' < rmeasure s0)%nat.
Proof.
  unfold brk. cbv zeta. destruct (_ && _); [discriminate|]. intros H L Ne. injection H as <-. unfold rmeasure, at_ptr. cbn [r_ptr r_st].
  destruct (r_ptr s) as [|x p]; [contradiction|]. cbn [tl length] in *. pose proof (rank_le (r_st s)). lia.
Qed.
Definition shorter (p : list N) (r : outcome (option (list N))) : Prop :=
  forall q, r = Ok (Some q) -> q <> [] /\ (length q <= length p)%nat.
Lemma pct_shorter p : shorter p (pct_encoded p).
Proof.
  intros q. unfold pct_encoded, rd. destruct p as [|a [|b [|c p]]]; cbn [nth_error obind]; repeat destruct (negb _); try discriminate.
  intros H. injection H as <-. cbn. split; [discriminate|lia].
Qed.
Lemma pchar_shorter p : shorter p (pchar p).
Proof.
  intros q. unfold pchar. destruct p as [|a p]; [discriminate|]. unfold rd at 1. cbn [nth_error obind]. destruct (_ || _); [|apply pct_shorter].
  intros H. injection H as <-. split; [discriminate|lia].
Qed.
Lemma userinfo_shorter p : shorter p (userinfo p).
Proof.
  intros q. unfold userinfo. destruct p as [|a p]; [discriminate|]. unfold rd at 1. cbn [nth_error obind]. destruct (_ || _); [|apply pct_shorter].
  intros H. injection H as <-. split; [discriminate|lia].
Qed.
Lemma query_shorter p : shorter p (query_char p).
Proof.
  intros q. unfold query_char. pose proof (pchar_shorter p) as S. destruct (pchar p) as [[p'|]|]; cbn [obind].
  - intros H. injection H as <-. apply (S _ eq_refl).
  - destruct p as [|a p]; [discriminate|]. cbn. destruct (_ || _); [|discriminate]. intros H. injection H as <-. split; [discriminate|cbn [length]; lia].
  - discriminate.
Qed.
Lemma http_shorter p : shorter p (http_name p).
Proof.
  intros q. unfold http_name, rd. destruct p as [|a [|b [|c [|d p]]]]; cbn [nth_error obind]; repeat destruct (negb _); try discriminate.
  intros H. injection H as <-. cbn. split; [discriminate|lia].
Qed.
Lemma adv_decreases s r f k s' : adv s r f k = Ok (Next s') -> shorter (r_ptr s) r -> (forall x, r_ptr (f x) = r_ptr x) ->
  (k = Ok (Next s') -> (rmeasure s' < rmeasure s)%nat) -> (rmeasure s' < rmeasure s)%nat.
Proof.
  unfold adv. destruct r as [[p|]|]; cbn [obind]; intros H S F K; [|exact (K H)|discriminate].
  destruct (S p eq_refl) as [Ne L]. apply (brk_decreases _ s) in H; rewrite ?F; cbn [at_ptr r_ptr]; assumption.
Qed.
Lemma rl_step_decreases s s' : rl_step s = Ok (Next s') -> (rmeasure s' < rmeasure s)%nat.
Proof.
  unfold rl_step. destruct (r_ptr s) as [|c p] eqn:P; [discriminate|]. unfold rd at 1. cbn [nth_error obind].
  assert (BRK : forall x, brk x = Ok (Next s') -> r_ptr x = r_ptr s -> (rmeasure s' < rmeasure s)%nat).
  { intros x H E. apply (brk_decreases _ s) in H; [assumption|rewrite E; lia|rewrite E, P; discriminate]. }
  assert (GO : forall x st, cont (go x st) = Ok (Next s') -> r_ptr x = r_ptr s -> (rank st < rank (r_st s))%nat -> (rmeasure s' < rmeasure s)%nat).
  { intros x st H E R. injection H as <-. unfold rmeasure. cbn [go r_ptr r_st]. rewrite E. lia. }
  assert (ERR : err = Ok (Next s') -> (rmeasure s' < rmeasure s)%nat) by discriminate.
  destruct (r_st s) eqn:ST; cbv zeta;
  repeat first [ match goal with |- (if ?b then _ else _) = _ -> _ => destruct b end
               | match goal with |- obind ?o _ = _ -> _ => let E := fresh "E" in destruct o eqn:E; cbn [obind]; [|discriminate] end
               | match goal with |- match ?m with _ => _ end = _ -> _ => destruct m end
               | match goal with |- Ok (Done _) = _ -> _ => discriminate end
               | exact ERR
               | (intros H; apply (GO _ _ H); cbn [set_methodp set_method set_target set_tlen set_qlen set_uri set_version r_ptr]; [reflexivity|cbn [rank]; lia])
               | (intros H; apply (BRK _ H); reflexivity)
               | (intros H; apply (adv_decreases _ _ _ _ _ H);
                  [rewrite <- ?P; first [apply pchar_shorter|apply userinfo_shorter|apply query_shorter] | intros; reflexivity | clear H])
               ].
  intros H. rewrite <- P in E. apply (http_shorter (r_ptr s)) in E as [Ne L]. apply (brk_decreases _ s) in H; cbn [at_ptr r_ptr]; assumption.
Qed.

Lemma rd_total p i : rd p i <> UB Diverges.
Proof. unfold rd. destruct (nth_error p i); discriminate. Qed.
Lemma len_loop_total : forall name m i len, len_loop m name i len <> UB Diverges.
Proof.
  induction name as [|y name IH]; intros m i len; cbn [len_loop]; [discriminate|]. pose proof (rd_total m i). destruct (rd m i); cbn [obind]; [|congruence].
  destruct (_ =? _); [|discriminate]. destruct (_ =? _)%nat; [discriminate|apply IH].
Qed.
Lemma find_len_total {A} : forall (tbl : list (list N * A)) m len, find_len tbl m len <> UB Diverges.
Proof.
  induction tbl as [|[n a] tbl IH]; intros m len; cbn [find_len]; [discriminate|]. destruct (_ =? _)%nat; [|apply IH].
  pose proof (len_loop_total (n ++ [0]) m 0 len). destruct (len_loop _ _ _ _) as [[]|]; cbn [obind]; [discriminate|apply IH|congruence].
Qed.
Lemma same_name_total : forall name p i, same_name name p i <> UB Diverges.
Proof.
  induction name as [|y name IH]; intros p i; cbn [same_name]; [discriminate|]. pose proof (rd_total p i). destruct (rd p i); cbn [obind]; [|congruence].
  destruct (_ =? _); [apply IH|discriminate].
Qed.
Lemma request_method_total p : request_method p <> UB Diverges.
Proof.
  unfold request_method. pose proof (rd_total p 0). destruct (rd p 0); cbn [obind]; [|congruence]. destruct (List.find _ _) as [[n m]|]; [|discriminate].
  pose proof (same_name_total n p 0). destruct (same_name _ _ _); cbn [obind]; congruence.
Qed.
Lemma pct_total p : pct_encoded p <> UB Diverges.
Proof. unfold pct_encoded, rd. destruct p as [|a [|b [|c p]]]; cbn [nth_error obind]; repeat destruct (negb _); discriminate. Qed.
Lemma pchar_total p : pchar p <> UB Diverges.
Proof. unfold pchar. destruct p as [|a p]; [discriminate|]. unfold rd. cbn [nth_error obind]. destruct (_ || _); [discriminate|apply pct_total]. Qed.
Lemma userinfo_total p : userinfo p <> UB Diverges.
Proof. unfold userinfo. destruct p as [|a p]; [discriminate|]. unfold rd. cbn [nth_error obind]. destruct (_ || _); [discriminate|apply pct_total]. Qed.
Lemma query_total p : query_char p <> UB Diverges.
Proof.
  unfold query_char. pose proof (pchar_total p). destruct (pchar p) as [[|]|]; cbn [obind]; [discriminate| |congruence].
  pose proof (rd_total p 0). destruct (rd p 0); cbn [obind]; congruence.
Qed.
Lemma hier_total p : hier_part p <> UB Diverges.
Proof. unfold hier_part, rd. destruct p as [|a [|b p]]; cbn [nth_error obind]; repeat destruct (negb _); discriminate. Qed.
Lemma http_total p : http_name p <> UB Diverges.
Proof. unfold http_name, rd. destruct p as [|a [|b [|c [|d p]]]]; cbn [nth_error obind]; repeat destruct (negb _); discriminate. Qed.
Lemma brk_total s : brk s <> UB Diverges.
Proof. unfold brk. cbv zeta. destruct (_ && _); discriminate. Qed.
Lemma rl_step_total s : rl_step s <> UB Diverges.
Proof.
  unfold rl_step. pose proof (rd_total (r_ptr s) 0) as R0. destruct (rd (r_ptr s) 0) as [c|]; cbn [obind]; [|congruence].
  pose proof (@find_len_total method methods) as FM. pose proof (@find_len_total version (map (fun v => (v_number v, v_type v)) versions)) as FV.
  destruct (r_st s); cbv zeta; unfold adv, match_method_len, match_version_len;
  repeat first [ match goal with |- (if ?b then _ else _) <> _ => destruct b end
               | apply brk_total
               | discriminate
               | match goal with |- obind ?o _ <> _ => 
                   let E := fresh "E" in
                   assert (E : o <> UB Diverges) by first [apply FM|apply FV|apply request_method_total|apply pchar_total|apply userinfo_total|apply query_total
                     |apply hier_total|apply http_total|discriminate];
                   destruct o; cbn [obind]; [clear E|congruence] end
               | match goal with |- match ?m with _ => _ end <> _ => destruct m end ].
Qed.

(** ** Soundness: everything accepted is a [fly_line] *)
Definition at_method (s : rst) (m : method) (pre : list N) : Prop := r_method s = Some m /\ r_query s = None /\ r_qset s = None /\ r_tlen s = 0%nat.
(** What has been consumed ([pre]) and what is left ([rest]) in each state. *)
Definition K (line : list N) (pre rest : list N) (s : rst) : Prop :=
  match r_st s with
  | SInit => pre = [] /\ r_query s = None /\ r_qset s = None /\ r_tlen s = 0%nat
  | SMethod => r_methodp s = line ++ [0] /\ r_query s = None /\ r_qset s = None /\ r_tlen s = 0%nat
  | SMethodSpace => r_methodp s = line ++ [0] /\ exists m k, at_method s m pre /\ pre = method_spelling m ++ repeat 32 k /\ (k = 0%nat -> exists t, rest = 32 :: t)
  | SOrigin => exists m sp p, at_method s m pre /\ pre = method_spelling m ++ sp ++ p /\ spaces sp /\ m <> CONNECT /\
      r_target s = p ++ r_ptr s /\ encoded PATHCHAR p /\ (exists t, p ++ rest = 47 :: t)
  | SOriginQuestion => exists m sp p, r_method s = Some m /\ r_query s = None /\ r_qset s = None /\
      pre = method_spelling m ++ sp ++ p ++ bs "?" /\ spaces sp /\ m <> CONNECT /\ firstn (r_tlen s) (r_target s) = p /\ abs_path p
  | SOriginQuery => exists m sp p q, r_method s = Some m /\ r_query s = Some (query_seen q ++ r_ptr s) /\ r_qset s = None /\
      pre = method_spelling m ++ sp ++ p ++ bs "?" ++ q /\ spaces sp /\ m <> CONNECT /\ firstn (r_tlen s) (r_target s) = p /\ abs_path p /\
      q <> [] /\ query_text q
  | SAbsolute | SAsterisk => True
  | SAbsoluteColon | SAbsoluteQuestion | SAbsoluteQuery => False
  | SAuthority => exists sp, at_method s CONNECT pre /\ pre = method_spelling CONNECT ++ sp /\ spaces sp
  | SUserinfo => exists sp u, at_method s CONNECT pre /\ pre = method_spelling CONNECT ++ sp ++ u /\ spaces sp /\ u <> [] /\ encoded USERINFO u
  | SAtsign => exists sp u, at_method s CONNECT pre /\ pre = method_spelling CONNECT ++ sp ++ u ++ bs "@" /\ spaces sp /\ u <> [] /\ encoded USERINFO u
  | SHost => exists sp u h, at_method s CONNECT pre /\ pre = method_spelling CONNECT ++ sp ++ u ++ bs "@" ++ h /\ spaces sp /\ u <> [] /\
      encoded USERINFO u /\ h <> [] /\ Forall (fun c => ALPHA c \/ DIGIT c) h
  | SColon => exists sp u h, at_method s CONNECT pre /\ pre = method_spelling CONNECT ++ sp ++ u ++ bs "@" ++ h ++ bs ":" /\ spaces sp /\ u <> [] /\
      encoded USERINFO u /\ h <> [] /\ Forall (fun c => ALPHA c \/ DIGIT c) h
  | SPort => exists sp u h d, at_method s CONNECT pre /\ pre = method_spelling CONNECT ++ sp ++ u ++ bs "@" ++ h ++ bs ":" ++ d /\ spaces sp /\ u <> [] /\
      encoded USERINFO u /\ h <> [] /\ Forall (fun c => ALPHA c \/ DIGIT c) h /\ d <> [] /\ Forall DIGIT d
  | SEndTarget => exists m sp t path q, r_method s = Some m /\ pre = method_spelling m ++ sp ++ t /\ spaces sp /\ fly_target m t path q /\
      firstn (r_tlen s) (r_target s) = path /\ match r_query s with Some qp => Some (firstn (r_qlen s) qp) | None => r_qset s end = q /\
      exists t', rest = 32 :: t'
  | STargetSpace => exists m sp t k, r_method s = Some m /\ pre = method_spelling m ++ sp ++ t ++ repeat 32 k /\ spaces sp /\
      fly_target m t (r_uri s) (r_qset s) /\ (k = 0%nat -> exists t', rest = 32 :: t')
  | SHttpName => exists m sp t s2 k, r_method s = Some m /\ pre = method_spelling m ++ sp ++ t ++ s2 ++ concat (repeat (bs "HTTP") k) /\
      spaces sp /\ fly_target m t (r_uri s) (r_qset s) /\ spaces s2
  | _ => exists m sp t s2 k, r_method s = Some m /\ spaces sp /\ fly_target m t (r_uri s) (r_qset s) /\ spaces s2 /\
      let h := method_spelling m ++ sp ++ t ++ s2 ++ concat (repeat (bs "HTTP") k) ++ bs "/" in
      match r_st s with
      | SHttpSlash => pre = h
      | SMajor | SPoint | SMinor => exists v, pre = h ++ v /\ r_verp s = v ++ r_ptr s
      | SEndVersion => exists v, pre = h ++ v ++ [13] /\ firstn (r_vlen s) (r_verp s) = v /\ (r_vlen s <= length (r_verp s))%nat
      | SCR => exists v, pre = h ++ version_number v ++ [13] /\ r_version s = Some v
      | _ => exists v, pre = h ++ version_number v ++ CRLF_ /\ r_version s = Some v
      end
  end.
Definition rinv (line : list N) (s : rst) : Prop := exists pre rest, line = pre ++ rest /\ r_ptr s = rest ++ [0] /\ K line pre rest s.
Definition rpost (line : list N) (o : option reqline) : Prop :=
  match o with
  | None => True
  | Some r => exists m path q v, fly_line line m path q v /\ r = mkReqline (Some m) path q (Some v)
  end.
Definition good (line : list N) (o : outcome rres) : Prop :=
  match o with Ok (Next s) => rinv line s | Ok (Done o) => rpost line o | UB _ => False end.
Lemma good_brk line s pre rest : line = pre ++ rest -> tl (r_ptr s) = rest ++ [0] ->
  K line pre rest (at_ptr s (rest ++ [0]) (r_len s - 1)%Z) -> good line (brk s).
Proof.
  intros E P H. unfold brk. cbv zeta. rewrite P. destruct (_ && _); [exact Logic.I|]. exists pre, rest. split; [exact E|]. split; [reflexivity|exact H].
Qed.
Lemma good_cont line s pre rest : line = pre ++ rest -> r_ptr s = rest ++ [0] -> K line pre rest s -> good line (cont s).
Proof. intros E P H. exists pre, rest. auto. Qed.
Lemma good_err line : good line err. Proof. exact Logic.I. Qed.
Lemma good_adv line s ok r f k pre rest : line = pre ++ rest -> (exists o, r = Ok o /\ atom_at ok rest o) ->
  (forall x, r_ptr (f x) = r_ptr x) ->
  (forall a x rest', rest = a ++ x :: rest' -> atom ok (a ++ [x]) ->
     K line (pre ++ a ++ [x]) rest' (at_ptr (f (at_ptr s (x :: rest' ++ [0]) (r_len s))) (rest' ++ [0]) (Z.sub (r_len (f (at_ptr s (x :: rest' ++ [0]) (r_len s)))) 1))) ->
  (r = Ok None -> good line k) -> good line (adv s r f k).
Proof.
  intros E (o & -> & A) F H G. unfold adv. cbn [obind]. destruct o as [p|]; [|exact (G eq_refl)].
  destruct A as (a & x & r & -> & A & ->). apply (good_brk _ _ (pre ++ a ++ [x]) r).
  - rewrite E, <- !app_assoc. reflexivity.
  - rewrite F. reflexivity.
  - apply H; [reflexivity|exact A].
Qed.
Lemma diff_app a b : diff (a ++ b) b = length a.
Proof. unfold diff. rewrite app_length. lia. Qed.
Lemma spaces_snoc k : repeat 32 (S k) = repeat 32 k ++ [32].
Proof. induction k as [|k IH]; [reflexivity|]. cbn [repeat app] in *. f_equal. exact IH. Qed.
Lemma http_snoc k : concat (repeat (bs "HTTP") (S k)) = concat (repeat (bs "HTTP") k) ++ bs "HTTP".
Proof. induction k as [|k IH]; [reflexivity|]. cbn [repeat concat] in *. rewrite <- app_assoc, <- IH. reflexivity. Qed.
Lemma query_seen_app q a : q <> [] -> encoded (fun c => PCHAR c \/ c = 47 \/ c = 63) q -> query_seen (q ++ a) = query_seen q ++ a.
Proof.
  intros Ne E. destruct E as [|c s H E|x y s X Y E]; [contradiction| |reflexivity].
  assert (c <> 37) by (revert H; classes; lia). cbn [app query_seen].
  destruct c as [|c]; [reflexivity|]. do 6 (destruct c as [c|c|]; try reflexivity). contradiction.
Qed.
Lemma query_seen_atom a x : atom (fun c => PCHAR c \/ c = 47 \/ c = 63) (a ++ [x]) -> query_seen (a ++ [x]) = [x].
Proof.
  intros [(c & E & H)|(u & v & E & H)].
  - destruct a as [|y a]; [|destruct a; discriminate E]. cbn [app] in *. injection E as ->.
    assert (c <> 37) by (revert H; classes; lia). cbn [query_seen]. 
    destruct c as [|c]; [reflexivity|]. do 6 (destruct c as [c|c|]; try reflexivity). contradiction.
  - destruct a as [|y1 [|y2 [|y3 a]]]; try discriminate E; [|destruct a; discriminate E]. cbn [app] in *. injection E as -> -> ->. reflexivity.
Qed.
Ltac napp := repeat (rewrite <- app_assoc; cbn [app]).
Lemma mid1 (x : list N) c r : x ++ c :: r = (x ++ [c]) ++ r.
Proof. rewrite <- app_assoc. reflexivity. Qed.
Lemma mid2 (x v : list N) c r : (x ++ v) ++ c :: r = (x ++ v ++ [c]) ++ r.
Proof. rewrite <- !app_assoc. reflexivity. Qed.
Lemma mid3 (x v : list N) r : (x ++ v ++ [13]) ++ 10 :: r = (x ++ v ++ CRLF_) ++ r.
Proof. rewrite <- !app_assoc. reflexivity. Qed.
Lemma rl_step_good line s : rinv line s -> good line (rl_step s).
Proof.
  intros (pre & rest & EL & EP & H). unfold rl_step. rewrite EP.
  assert (RD : exists c, rd (rest ++ [0]) 0 = Ok c /\ (c <> 0 -> exists rest', rest = c :: rest')).
  { destruct rest as [|c r]; [exists 0; split; [reflexivity|congruence]|exists c; split; [reflexivity|eauto]]. }
  assert (HD : forall x t, rest = x :: t -> rd (rest ++ [0]) 0 = Ok x) by (intros x t ->; reflexivity).
  destruct RD as (c & RC & RD). rewrite RC in *. cbn [obind].
  unfold K in H. destruct (r_st s) eqn:ST.
  - (* SInit *)
    destruct H as (-> & Q & QS & T). destruct (rl_tchar c); [|apply good_err]. cbn [app] in EL. subst rest.
    apply (good_cont _ _ [] line); [reflexivity|exact EP|]. cbn. auto.
  - (* SMethod *)
    destruct H as (M & Q & QS & T). destruct (rl_tchar c) eqn:TC.
    + assert (c <> 0) by (intros ->; discriminate TC). destruct (RD H) as (r & ->).
      apply (good_brk _ _ (pre ++ [c]) r); [rewrite EL; napp; reflexivity|rewrite EP; reflexivity|]. unfold K. cbn [at_ptr r_st]. rewrite ST. cbn. auto.
    + destruct (N.eqb_spec c 32) as [->|]; [|apply good_err]. destruct (RD ltac:(discriminate)) as (r & ->). rewrite M.
      replace (line ++ [0]) with (pre ++ (32 :: r ++ [0])) by (rewrite EL; napp; reflexivity). cbn [app]. rewrite diff_app.
      destruct (match_method_len _ _) as [[m|]|u] eqn:MM; cbn [obind].
      * apply (method_len_exact _ _ m) in MM; [|rewrite app_length; lia]. rewrite firstn_app, firstn_all, Nat.sub_diag, firstn_O, app_nil_r in MM.
        apply (good_cont _ _ pre (32 :: r)); [exact EL|exact EP|]. cbn. split; [rewrite M, EL; reflexivity|]. exists m, 0%nat. split; [unfold at_method; cbn; auto|].
        split; [rewrite app_nil_r; exact MM|eauto].
      * apply good_err.
      * unfold match_method_len in MM. rewrite find_len_spec in MM; [discriminate|repeat constructor; discriminate|rewrite app_length; lia].
  - (* SMethodSpace *)
    destruct H as (M & m & k & (RM & Q & QS & T) & -> & K0). destruct (N.eqb_spec c 32) as [->|N32].
    + destruct (RD ltac:(discriminate)) as (r & ->).
      apply (good_brk _ _ (method_spelling m ++ repeat 32 (S k)) r); [rewrite EL, spaces_snoc; napp; reflexivity|rewrite EP; reflexivity|].
      unfold K. cbn [at_ptr r_st]. rewrite ST. cbn. split; [exact M|]. exists m, (S k). unfold at_method. cbn. split; [auto|]. split; [reflexivity|discriminate].
    + cbv zeta. cbn [set_target r_methodp]. rewrite M.
      replace (line ++ [0]) with (method_spelling m ++ (repeat 32 k ++ rest ++ [0])) by (rewrite EL; napp; reflexivity).
      rewrite request_method_spec. cbn [obind].
      destruct k as [|k].
      { destruct (K0 eq_refl) as (t & E). specialize (HD _ _ E). congruence. }
      assert (SO : c = 47 -> m <> CONNECT -> good line (cont (go (set_target s (r_ptr s)) SOrigin))).
      { intros -> NC. destruct (RD ltac:(discriminate)) as (r & ->). apply (good_cont _ _ (method_spelling m ++ repeat 32 (S k)) (47 :: r)); [exact EL|exact EP|].
        cbn. exists m, (repeat 32 (S k)), []. unfold at_method. cbn. rewrite app_nil_r. repeat split; auto; [exists k; reflexivity|apply enc_nil|eauto]. }
      assert (SA : good line (cont (go (set_target s (r_ptr s)) SAbsolute))).
      { apply (good_cont _ _ (method_spelling m ++ repeat 32 (S k)) rest); [exact EL|exact EP|exact Logic.I]. }
      assert (SX : good line (cont (go (set_target s (r_ptr s)) SAsterisk))).
      { apply (good_cont _ _ (method_spelling m ++ repeat 32 (S k)) rest); [exact EL|exact EP|exact Logic.I]. }
      rewrite <- EP.
      assert (SG : forall b, m <> CONNECT -> good line (if (c =? 42) && b then cont (go (set_target s (r_ptr s)) SAsterisk)
                          else if c =? 47 then cont (go (set_target s (r_ptr s)) SOrigin) else cont (go (set_target s (r_ptr s)) SAbsolute))).
      { intros b NC. destruct ((c =? 42) && b); [exact SX|]. destruct (N.eqb_spec c 47) as [->|]; [apply SO; auto|exact SA]. }
      destruct m; try (apply SG; discriminate).
      apply (good_cont _ _ (method_spelling CONNECT ++ repeat 32 (S k)) rest); [exact EL|exact EP|].
      cbn. exists (repeat 32 (S k)). unfold at_method. cbn. repeat split; auto. exists k; reflexivity.
  - (* SOrigin *)
    destruct H as (m & sp & p & (RM & Q & QS & T) & -> & SPC & NC & TG & EN & BEG). 
    assert (PATH : (c = 32 \/ c = 63) -> (forall r, rest = c :: r -> abs_path p)).
    { intros C r ->. split; [|exact EN]. destruct p as [|x p]; [|destruct BEG as (t & E); injection E as -> _; eauto].
      destruct BEG as (t & E). injection E as E _. lia. }
    destruct (N.eqb_spec c 47) as [->|N47].
    + destruct (RD ltac:(discriminate)) as (r & ->). apply (good_brk _ _ (method_spelling m ++ sp ++ p ++ [47]) r); [rewrite EL; napp; reflexivity|rewrite EP; reflexivity|].
      unfold K. cbn [at_ptr r_st]. rewrite ST. cbn. exists m, sp, (p ++ [47]). unfold at_method. cbn. rewrite TG, EP.
      split; [auto|]. split; [reflexivity|]. split; [exact SPC|]. split; [exact NC|]. split; [napp; reflexivity|].
      split; [apply encoded_app; [exact EN|apply encoded_atom; left; eauto]|]. destruct BEG as (t & E). exists t. rewrite <- E. napp. reflexivity.
    + apply (good_adv _ _ PCHAR _ _ _ (method_spelling m ++ sp ++ p) rest); [exact EL|apply pchar_spec|reflexivity| |].
      * intros a x r -> A. unfold K. cbn [at_ptr r_st]. rewrite ST. cbn. exists m, sp, (p ++ a ++ [x]). unfold at_method. cbn. rewrite TG, EP.
        split; [auto|]. split; [napp; reflexivity|]. split; [exact SPC|]. split; [exact NC|]. split; [napp; reflexivity|].
        split; [apply encoded_app; [exact EN|apply encoded_atom; revert A; apply atom_weaken; tauto]|]. destruct BEG as (t & E). exists t. rewrite <- E. napp. reflexivity.
      * intros _. rewrite TG, EP. rewrite diff_app. destruct (N.eqb_spec c 32) as [->|N32]; [|destruct (N.eqb_spec c 63) as [->|]; [|apply good_err]].
        -- destruct (RD ltac:(discriminate)) as (r & ->). apply (good_cont _ _ (method_spelling m ++ sp ++ p) (32 :: r)); [exact EL|exact EP|].
           cbn. rewrite Q, QS, TG. exists m, sp, p, p, None. rewrite firstn_app, firstn_all, Nat.sub_diag, firstn_O, app_nil_r.
           split; [exact RM|]. split; [reflexivity|]. split; [exact SPC|]. split; [apply ft_path; [exact NC|eapply PATH; [auto|reflexivity]]|]. eauto.
        -- destruct (RD ltac:(discriminate)) as (r & ->). apply (good_brk _ _ (method_spelling m ++ sp ++ p ++ bs "?") r); [rewrite EL; napp; reflexivity|cbn [go set_tlen r_ptr]; rewrite EP; reflexivity|].
           unfold K. cbn. rewrite Q, QS, TG. exists m, sp, p. rewrite firstn_app, firstn_all, Nat.sub_diag, firstn_O, app_nil_r.
           split; [exact RM|]. split; [reflexivity|]. split; [reflexivity|]. split; [reflexivity|]. split; [exact SPC|]. split; [exact NC|]. split; [reflexivity|]. eapply PATH; [auto|reflexivity].
  - (* SOriginQuestion *)
    destruct H as (m & sp & p & RM & Q & QS & -> & SPC & NC & TG & PATH).
    destruct (N.eqb_spec c 32) as [->|N32].
    + destruct (RD ltac:(discriminate)) as (r & ->). eapply (good_cont _ _ _ (32 :: r)); [exact EL|exact EP|].
      cbn. rewrite Q, QS, TG. exists m, sp, (p ++ bs "?"), p, None. split; [exact RM|]. split; [reflexivity|]. split; [exact SPC|].
      split; [apply ft_question; assumption|eauto].
    + eapply (good_adv _ _ QCHAR _ _ _ _ rest); [exact EL|apply query_spec|reflexivity| |intros _; apply good_err].
      intros a x r -> A. unfold K. cbn. rewrite QS, TG. exists m, sp, p, (a ++ [x]). rewrite (query_seen_atom _ _ A).
      split; [exact RM|]. split; [reflexivity|]. split; [reflexivity|]. split; [napp; reflexivity|]. split; [exact SPC|]. split; [exact NC|]. split; [reflexivity|].
      split; [exact PATH|]. split; [destruct a; discriminate|]. apply encoded_atom. exact A.
  - (* SOriginQuery *)
    destruct H as (m & sp & p & q & RM & Q & QS & -> & SPC & NC & TG & PATH & NE & QT).
    eapply (good_adv _ _ QCHAR _ _ _ _ rest); [exact EL|apply query_spec|reflexivity| |].
    + intros a x r -> A. unfold K. cbn [at_ptr r_st]. rewrite ST. cbn. rewrite Q, QS, TG, EP. exists m, sp, p, (q ++ a ++ [x]).
      rewrite (query_seen_app q _ NE QT).
      split; [exact RM|]. split; [napp; reflexivity|]. split; [reflexivity|]. split; [napp; reflexivity|]. split; [exact SPC|]. split; [exact NC|]. split; [reflexivity|].
      split; [exact PATH|]. split; [destruct q; [contradiction|discriminate]|]. apply encoded_app; [exact QT|apply encoded_atom; exact A].
    + intros _. destruct (N.eqb_spec c 32) as [->|]; [|apply good_err]. destruct (RD ltac:(discriminate)) as (r & ->). eapply (good_cont _ _ _ (32 :: r)); [exact EL|exact EP|].
      unfold K. cbn [go set_qlen r_st r_method r_tlen r_target r_query r_qlen r_qset]. rewrite Q, TG, EP, diff_app. exists m, sp, (p ++ bs "?" ++ q), p, (Some (query_seen q)). split; [exact RM|]. split; [reflexivity|]. split; [exact SPC|].
      split; [apply ft_query; assumption|]. split; [reflexivity|]. rewrite firstn_app, firstn_all, Nat.sub_diag, firstn_O, app_nil_r. eauto.
  - (* SAbsolute *) rewrite is_fly_scheme_false. apply good_err.
  - destruct H.
  - destruct H.
  - destruct H.
  - (* SAuthority *)
    destruct H as (sp & (RM & Q & QS & T) & -> & SPC).
    apply (good_adv _ _ USERINFO _ _ _ (method_spelling CONNECT ++ sp) rest); [exact EL|apply userinfo_spec|reflexivity| |].
    + intros a x r -> A. unfold K. cbn [at_ptr go r_st]. exists sp, (a ++ [x]). unfold at_method. cbn [r_method r_query r_qset r_tlen].
      split; [auto|]. split; [napp; reflexivity|]. split; [exact SPC|]. split; [destruct a; discriminate|apply encoded_atom; exact A].
    + intros U. destruct (fly_alpha_numeral c) eqn:AN; [|apply good_err]. exfalso. revert U. unfold userinfo. rewrite RC. cbn [obind].
      assert (X : USERINFO c) by (left; apply alnum_class in AN; unfold UNRESERVED; tauto). apply userinfo_class in X. rewrite X. discriminate.
  - (* SUserinfo *)
    destruct H as (sp & u & (RM & Q & QS & T) & -> & SPC & NE & EN).
    apply (good_adv _ _ USERINFO _ _ _ (method_spelling CONNECT ++ sp ++ u) rest); [exact EL|apply userinfo_spec|reflexivity| |].
    + intros a x r -> A. unfold K. cbn [at_ptr r_st]. rewrite ST. exists sp, (u ++ a ++ [x]). unfold at_method. cbn [r_method r_query r_qset r_tlen].
      split; [auto|]. split; [napp; reflexivity|]. split; [exact SPC|]. split; [destruct u; [contradiction|discriminate]|apply encoded_app; [exact EN|apply encoded_atom; exact A]].
    + intros _. destruct (N.eqb_spec c 64) as [->|]; [|apply good_err]. destruct (RD ltac:(discriminate)) as (r & ->).
      apply (good_brk _ _ (method_spelling CONNECT ++ sp ++ u ++ bs "@") r); [rewrite EL; napp; reflexivity|cbn [go r_ptr]; rewrite EP; reflexivity|].
      unfold K. cbn [at_ptr go r_st]. exists sp, u. unfold at_method. cbn [r_method r_query r_qset r_tlen]. auto 8.
  - (* SAtsign *)
    destruct H as (sp & u & (RM & Q & QS & T) & -> & SPC & NE & EN). destruct (fly_alpha_numeral c) eqn:AN; [|apply good_err].
    assert (c <> 0) by (intros ->; discriminate AN). destruct (RD H) as (r & ->).
    apply (good_brk _ _ (method_spelling CONNECT ++ sp ++ u ++ bs "@" ++ [c]) r); [rewrite EL; napp; reflexivity|cbn [go r_ptr]; rewrite EP; reflexivity|].
    unfold K. cbn [at_ptr go r_st]. exists sp, u, [c]. unfold at_method. cbn [r_method r_query r_qset r_tlen].
    split; [auto|]. split; [reflexivity|]. split; [exact SPC|]. split; [exact NE|]. split; [exact EN|]. split; [discriminate|]. constructor; [apply alnum_class; exact AN|constructor].
  - (* SHost *)
    destruct H as (sp & u & h & (RM & Q & QS & T) & -> & SPC & NE & EN & NH & FH). destruct (fly_alpha_numeral c) eqn:AN; [|destruct (N.eqb_spec c 58) as [->|]; [|apply good_err]].
    + assert (c <> 0) by (intros ->; discriminate AN). destruct (RD H) as (r & ->).
      apply (good_brk _ _ (method_spelling CONNECT ++ sp ++ u ++ bs "@" ++ h ++ [c]) r); [rewrite EL; napp; reflexivity|rewrite EP; reflexivity|].
      unfold K. cbn [at_ptr r_st]. rewrite ST. exists sp, u, (h ++ [c]). unfold at_method. cbn [r_method r_query r_qset r_tlen].
      split; [auto|]. split; [reflexivity|]. split; [exact SPC|]. split; [exact NE|]. split; [exact EN|]. split; [destruct h; discriminate|].
      apply Forall_app. split; [exact FH|]. constructor; [apply alnum_class; exact AN|constructor].
    + destruct (RD ltac:(discriminate)) as (r & ->).
      apply (good_brk _ _ (method_spelling CONNECT ++ sp ++ u ++ bs "@" ++ h ++ bs ":") r); [rewrite EL; napp; reflexivity|cbn [go r_ptr]; rewrite EP; reflexivity|].
      unfold K. cbn [at_ptr go r_st]. exists sp, u, h. unfold at_method. cbn [r_method r_query r_qset r_tlen]. auto 10.
  - (* SColon *)
    destruct H as (sp & u & h & (RM & Q & QS & T) & -> & SPC & NE & EN & NH & FH). destruct (fly_numeral c) eqn:AN; [|apply good_err].
    assert (c <> 0) by (intros ->; discriminate AN). destruct (RD H) as (r & ->).
    apply (good_brk _ _ (method_spelling CONNECT ++ sp ++ u ++ bs "@" ++ h ++ bs ":" ++ [c]) r); [rewrite EL; napp; reflexivity|cbn [go r_ptr]; rewrite EP; reflexivity|].
    unfold K. cbn [at_ptr go r_st]. exists sp, u, h, [c]. unfold at_method. cbn [r_method r_query r_qset r_tlen].
    split; [auto|]. split; [reflexivity|]. split; [exact SPC|]. split; [exact NE|]. split; [exact EN|]. split; [exact NH|]. split; [exact FH|].
    split; [discriminate|]. constructor; [apply digit_class; exact AN|constructor].
  - (* SPort *)
    destruct H as (sp & u & h & d & (RM & Q & QS & T) & -> & SPC & NE & EN & NH & FH & ND & FD). destruct (fly_numeral c) eqn:AN; [|destruct (N.eqb_spec c 32) as [->|]; [|apply good_err]].
    + assert (c <> 0) by (intros ->; discriminate AN). destruct (RD H) as (r & ->).
      apply (good_brk _ _ (method_spelling CONNECT ++ sp ++ u ++ bs "@" ++ h ++ bs ":" ++ d ++ [c]) r); [rewrite EL; napp; reflexivity|rewrite EP; reflexivity|].
      unfold K. cbn [at_ptr r_st]. rewrite ST. exists sp, u, h, (d ++ [c]). unfold at_method. cbn [r_method r_query r_qset r_tlen].
      split; [auto|]. split; [reflexivity|]. split; [exact SPC|]. split; [exact NE|]. split; [exact EN|]. split; [exact NH|]. split; [exact FH|]. split; [destruct d; discriminate|].
      apply Forall_app. split; [exact FD|]. constructor; [apply digit_class; exact AN|constructor].
    + destruct (RD ltac:(discriminate)) as (r & ->). eapply (good_cont _ _ _ (32 :: r)); [exact EL|exact EP|].
      unfold K. cbn [go r_st r_method r_tlen r_target r_query r_qlen r_qset]. rewrite Q, QS, T.
      exists CONNECT, sp, (u ++ bs "@" ++ h ++ bs ":" ++ d), [], None. split; [exact RM|]. split; [reflexivity|]. split; [exact SPC|].
      split; [apply ft_connect; assumption|]. split; [reflexivity|]. eauto.
  - (* SAsterisk *) apply good_err.
  - (* SEndTarget *)
    destruct H as (m & sp & t & path & q & RM & -> & SPC & FT & E1 & E2 & E3). eapply (good_cont _ _ _ rest); [exact EL|exact EP|].
    unfold K. cbn [go set_uri r_st r_method r_uri r_qset]. exists m, sp, t, 0%nat. rewrite E1, E2. split; [exact RM|]. split; [cbn [repeat]; rewrite app_nil_r; reflexivity|]. auto.
  - (* STargetSpace *)
    destruct H as (m & sp & t & k & RM & -> & SPC & FT & K0). destruct (N.eqb_spec c 32) as [->|N32].
    + destruct (RD ltac:(discriminate)) as (r & ->).
      apply (good_brk _ _ (method_spelling m ++ sp ++ t ++ repeat 32 (S k)) r); [rewrite EL, spaces_snoc; napp; reflexivity|rewrite EP; reflexivity|].
      unfold K. cbn [at_ptr r_st]. rewrite ST. exists m, sp, t, (S k). split; [exact RM|]. split; [reflexivity|]. split; [exact SPC|]. split; [exact FT|discriminate].
    + eapply (good_cont _ _ _ rest); [exact EL|exact EP|]. unfold K. cbn [go r_st]. destruct k as [|k].
      { destruct (K0 eq_refl) as (t' & E). specialize (HD _ _ E). congruence. }
      exists m, sp, t, (repeat 32 (S k)), 0%nat. split; [exact RM|]. split; [cbn [repeat concat]; rewrite app_nil_r; reflexivity|]. split; [exact SPC|]. split; [exact FT|]. exists k; reflexivity.
  - (* SHttpName *)
    destruct H as (m & sp & t & s2 & k & RM & -> & SPC & FT & SPC2). destruct (http_name_spec rest) as (o & -> & HO). cbn [obind]. destruct o as [p|].
    + destruct HO as (r & -> & ->).
      apply (good_brk _ _ (method_spelling m ++ sp ++ t ++ s2 ++ concat (repeat (bs "HTTP") (S k))) r); [rewrite EL, http_snoc; napp; reflexivity|reflexivity|].
      unfold K. cbn [at_ptr r_st]. rewrite ST. exists m, sp, t, s2, (S k). auto 6.
    + destruct (N.eqb_spec c 47) as [->|]; [|apply good_err]. destruct (RD ltac:(discriminate)) as (r & ->).
      apply (good_brk _ _ (method_spelling m ++ sp ++ t ++ s2 ++ concat (repeat (bs "HTTP") k) ++ bs "/") r); [rewrite EL; napp; reflexivity|cbn [go r_ptr]; rewrite EP; reflexivity|].
      unfold K. cbn [at_ptr go r_st]. exists m, sp, t, s2, k. auto 8.
  - (* SHttpSlash *)
    destruct H as (m & sp & t & s2 & k & RM & SPC & FT & SPC2 & ->). destruct (fly_numeral c) eqn:AN; [|apply good_err].
    assert (c <> 0) by (intros ->; discriminate AN). destruct (RD H) as (r & ->).
    eapply (good_brk _ _ (_ ++ [c]) r); [exact (eq_trans EL (mid1 _ _ _))|cbn [go set_verp r_ptr]; rewrite EP; reflexivity|].
    unfold K. cbn [at_ptr go set_verp r_st r_method r_verp r_ptr r_uri r_qset]. exists m, sp, t, s2, k. cbv zeta. do 4 (split; [assumption|]). exists [c]. split; reflexivity.
  - (* SMajor *)
    destruct H as (m & sp & t & s2 & k & RM & SPC & FT & SPC2 & v & -> & VP).
    destruct (N.eqb_spec c 46) as [->|]; [|destruct (N.eqb_spec c 13) as [->|]; [|apply good_err]].
    + destruct (RD ltac:(discriminate)) as (r & ->).
      eapply (good_brk _ _ (_ ++ v ++ [46]) r); [exact (eq_trans EL (mid2 _ _ _ _))|cbn [go r_ptr]; rewrite EP; reflexivity|].
      unfold K. cbn [at_ptr go r_st r_method r_verp r_ptr r_uri r_qset]. exists m, sp, t, s2, k. cbv zeta. do 4 (split; [assumption|]). exists (v ++ [46]). 
      split; [rewrite <- !app_assoc; reflexivity|rewrite VP, EP; napp; reflexivity].
    + destruct (RD ltac:(discriminate)) as (r & ->).
      eapply (good_brk _ _ (_ ++ v ++ [13]) r); [exact (eq_trans EL (mid2 _ _ _ _))|cbn [go set_vlen r_ptr]; rewrite EP; reflexivity|].
      unfold K. cbn [at_ptr go set_vlen r_st r_method r_verp r_vlen r_ptr r_uri r_qset]. exists m, sp, t, s2, k. cbv zeta. do 4 (split; [assumption|]). exists v.
      rewrite VP, EP, diff_app. split; [rewrite <- !app_assoc; reflexivity|]. rewrite firstn_app, firstn_all, Nat.sub_diag, firstn_O, app_nil_r. split; [reflexivity|rewrite app_length; lia].
  - (* SPoint *)
    destruct H as (m & sp & t & s2 & k & RM & SPC & FT & SPC2 & v & -> & VP). destruct (fly_numeral c) eqn:AN; [|apply good_err].
    assert (c <> 0) by (intros ->; discriminate AN). destruct (RD H) as (r & ->).
    eapply (good_brk _ _ (_ ++ v ++ [c]) r); [exact (eq_trans EL (mid2 _ _ _ _))|cbn [go r_ptr]; rewrite EP; reflexivity|].
    unfold K. cbn [at_ptr go r_st r_method r_verp r_ptr r_uri r_qset]. exists m, sp, t, s2, k. cbv zeta. do 4 (split; [assumption|]). exists (v ++ [c]).
    split; [rewrite <- !app_assoc; reflexivity|rewrite VP, EP; napp; reflexivity].
  - (* SMinor *)
    destruct H as (m & sp & t & s2 & k & RM & SPC & FT & SPC2 & v & -> & VP). destruct (N.eqb_spec c 13) as [->|]; [|apply good_err].
    destruct (RD ltac:(discriminate)) as (r & ->).
    eapply (good_brk _ _ (_ ++ v ++ [13]) r); [exact (eq_trans EL (mid2 _ _ _ _))|cbn [go set_vlen r_ptr]; rewrite EP; reflexivity|].
    unfold K. cbn [at_ptr go set_vlen r_st r_method r_verp r_vlen r_ptr r_uri r_qset]. exists m, sp, t, s2, k. cbv zeta. do 4 (split; [assumption|]). exists v.
    rewrite VP, EP, diff_app. split; [rewrite <- !app_assoc; reflexivity|]. rewrite firstn_app, firstn_all, Nat.sub_diag, firstn_O, app_nil_r. split; [reflexivity|rewrite app_length; lia].
  - (* SEndVersion *)
    destruct H as (m & sp & t & s2 & k & RM & SPC & FT & SPC2 & v & -> & VP & VL).
    destruct (match_version_len _ _) as [[w|]|u] eqn:MV; cbn [obind]; [|apply good_err|].
    + apply (version_len_exact _ _ w) in MV; [|exact VL]. rewrite VP in MV. subst v. rewrite MV in *.
      eapply (good_cont _ _ _ rest); [exact EL|exact EP|]. unfold K. cbn [go set_version r_st r_method r_uri r_qset r_version]. exists m, sp, t, s2, k. cbv zeta. do 4 (split; [assumption|]). eauto.
    + unfold match_version_len in MV. rewrite find_len_spec in MV; [discriminate|repeat constructor; discriminate|exact VL].
  - (* SCR *)
    destruct H as (m & sp & t & s2 & k & RM & SPC & FT & SPC2 & v & -> & VV). destruct (N.eqb_spec c 10) as [->|]; [|apply good_err]. destruct (RD ltac:(discriminate)) as (r & ->).
    eapply (good_brk _ _ (_ ++ version_number v ++ CRLF_) r); [exact (eq_trans EL (mid3 _ _ _))|cbn [go r_ptr]; rewrite EP; reflexivity|].
    unfold K. cbn [at_ptr go r_st r_method r_uri r_qset r_version]. exists m, sp, t, s2, k. cbv zeta. do 4 (split; [assumption|]). exists v.
    split; [rewrite <- !app_assoc; reflexivity|exact VV].
  - (* SLF *)
    destruct H as (m & sp & t & s2 & k & RM & SPC & FT & SPC2 & v & -> & VV). eapply (good_cont _ _ _ rest); [exact EL|exact EP|].
    unfold K. cbn [go r_st r_method r_uri r_qset r_version]. exists m, sp, t, s2, k. cbv zeta. do 4 (split; [assumption|]). eauto.
  - (* SSuccess *)
    destruct H as (m & sp & t & s2 & k & RM & SPC & FT & SPC2 & v & -> & VV). exists m, (r_uri s), (r_qset s), v. rewrite RM, VV. split; [|reflexivity].
    rewrite EL. rewrite <- !app_assoc. apply fl; assumption.
Qed.

Lemma run_good line : forall fuel s, rinv line s -> (rmeasure s < fuel)%nat -> exists o, run rl_step fuel s = Ok o /\ rpost line o.
Proof.
  induction fuel as [|f IH]; intros s I L; [lia|]. cbn [run]. pose proof (rl_step_good line s I) as G. destruct (rl_step s) as [[s'|o]|u] eqn:E; cbn [obind good] in *; [| |contradiction].
  - apply IH; [exact G|]. apply rl_step_decreases in E. lia.
  - exists o. auto.
Qed.
Lemma init_inv line : rinv line (rl_init line).
Proof. exists [], line. cbn. auto 6. Qed.
Lemma init_measure line : (rmeasure (rl_init line) < 11 * length line + 30)%nat.
Proof. unfold rmeasure, rl_init. cbn [r_ptr r_st rank]. rewrite app_length. cbn [length]. lia. Qed.
Lemma reqline_sound line : exists o, parse_reqline line = Ok o /\ rpost line o.
Proof. apply run_good; [apply init_inv|apply init_measure]. Qed.

(** ** Completeness *)
Notation rends := (ends rl_step) (only parsing).
Lemma ends_cont s s' r : rl_step s = cont s' -> rends s' r -> rends s r.
Proof. intros H. apply ends_reach. apply reach_step. exact H. Qed.
Lemma ends_brk s0 s r : rl_step s0 = brk s -> (1 < r_len s)%Z \/ r_st s = SLF -> rends (at_ptr s (tl (r_ptr s)) (r_len s - 1)%Z) r -> rends s0 r.
Proof.
  intros H L. apply ends_cont. rewrite H. unfold brk. cbv zeta. cbn [at_ptr r_len r_st].
  destruct L as [L|L]; [replace (r_len s - 1 <=? 0)%Z with false by lia; reflexivity|rewrite L; cbn [is_lf negb]; rewrite andb_false_r; reflexivity].
Qed.
Definition vtail (v : version) (rest : list N) : list N := version_number v ++ CRLF_ ++ rest.
Lemma e_endversion s v rest r : r_st s = SEndVersion -> r_ptr s = 10 :: rest -> (r_vlen s <= length (r_verp s))%nat -> firstn (r_vlen s) (r_verp s) = version_number v ->
  rest <> [] -> r = Ok (Some (mkReqline (r_method s) (r_uri s) (r_qset s) (Some v))) -> rends s r.
Proof.
  intros ST EP VL VP NE ->. apply (proj1 (version_len_exact _ _ v VL)) in VP. destruct rest as [|x rest]; [contradiction|].
  eapply ends_cont. { unfold rl_step. rewrite EP, ST. unfold rd. cbn [nth_error obind]. rewrite VP. reflexivity. }
  eapply ends_brk. { unfold rl_step. cbn [go set_version r_ptr r_st]. rewrite EP. reflexivity. } { right; reflexivity. }
  cbn. rewrite EP. eapply ends_cont; [reflexivity|]. apply ends_done. reflexivity.
Qed.
Ltac rcbn := cbn [at_ptr go set_methodp set_method set_target set_tlen set_query set_qlen set_verp set_vlen set_uri set_version
  r_ptr r_len List.tl r_st r_methodp r_target r_tlen r_query r_qlen r_verp r_vlen r_method r_uri r_qset r_version].
Lemma e_slash s v rest r : r_st s = SHttpName -> r_ptr s = 47 :: vtail v rest -> rest <> [] -> (Z.of_nat (3 + length (version_number v)) <= r_len s)%Z ->
  r = Ok (Some (mkReqline (r_method s) (r_uri s) (r_qset s) (Some v))) -> rends s r.
Proof.
  intros ST EP NE L ->. destruct s as [st p l mp tg tl q ql vp vl m u qs ve]. cbn [r_st r_ptr r_len r_method r_uri r_qset] in *. subst st p.
  destruct v; [change (vtail V2 rest) with (50 :: 13 :: 10 :: rest); change (Z.of_nat (3 + length (version_number V2))) with 4%Z in L
              |change (vtail V1_1 rest) with (49 :: 46 :: 49 :: 13 :: 10 :: rest); change (Z.of_nat (3 + length (version_number V1_1))) with 6%Z in L].
  - eapply ends_brk; [reflexivity|left; cbn [at_ptr go r_len]; lia|]. rcbn.
    eapply ends_brk; [reflexivity|left; cbn [at_ptr go set_verp r_len]; lia|]. rcbn.
    eapply ends_brk; [reflexivity|left; cbn [at_ptr go set_vlen r_len]; lia|]. rcbn.
    change (50 :: 13 :: 10 :: rest) with ([50] ++ (13 :: 10 :: rest)). rewrite diff_app.
    eapply (e_endversion _ V2); [reflexivity|reflexivity|cbn; lia|reflexivity|exact NE|reflexivity].
  - eapply ends_brk; [reflexivity|left; cbn [at_ptr go r_len]; lia|]. rcbn.
    eapply ends_brk; [reflexivity|left; cbn [at_ptr go set_verp r_len]; lia|]. rcbn.
    eapply ends_brk; [reflexivity|left; cbn [at_ptr go r_len]; lia|]. rcbn.
    eapply ends_brk; [reflexivity|left; cbn [at_ptr go r_len]; lia|]. rcbn.
    eapply ends_brk; [reflexivity|left; cbn [at_ptr go set_vlen r_len]; lia|]. rcbn.
    change (49 :: 46 :: 49 :: 13 :: 10 :: rest) with ([49; 46; 49] ++ (13 :: 10 :: rest)). rewrite diff_app.
    eapply (e_endversion _ V1_1); [reflexivity|reflexivity|cbn; lia|reflexivity|exact NE|reflexivity].
Qed.
Lemma e_http : forall k s v rest r, r_st s = SHttpName -> r_ptr s = concat (repeat (bs "HTTP") k) ++ 47 :: vtail v rest -> rest <> [] ->
  (Z.of_nat (4 * k + 3 + length (version_number v)) <= r_len s)%Z ->
  r = Ok (Some (mkReqline (r_method s) (r_uri s) (r_qset s) (Some v))) -> rends s r.
Proof.
  induction k as [|k IH]; intros s v rest r ST EP NE L ->.
  - eapply e_slash; [exact ST|exact EP|exact NE|lia|reflexivity].
  - change (concat (repeat (bs "HTTP") (S k))) with ([72; 84; 84; 80] ++ concat (repeat (bs "HTTP") k)) in EP. cbn [app] in EP.
    eapply ends_brk; [unfold rl_step; rewrite EP, ST; reflexivity|left; cbn [at_ptr r_len]; lia|].
    eapply IH; [exact ST|reflexivity|exact NE|cbn [at_ptr r_len]; lia|reflexivity].
Qed.
Lemma http_head k v rest : exists c t, concat (repeat (bs "HTTP") k) ++ 47 :: vtail v rest = c :: t /\ c <> 32.
Proof. destruct k; [exists 47|exists 72]; eexists; (split; [reflexivity|discriminate]). Qed.
Lemma e_space : forall j s k v rest r, r_st s = STargetSpace -> r_ptr s = repeat 32 j ++ concat (repeat (bs "HTTP") k) ++ 47 :: vtail v rest -> rest <> [] ->
  (Z.of_nat (j + 4 * k + 3 + length (version_number v)) <= r_len s)%Z ->
  r = Ok (Some (mkReqline (r_method s) (r_uri s) (r_qset s) (Some v))) -> rends s r.
Proof.
  induction j as [|j IH]; intros s k v rest r ST EP NE L ->.
  - cbn [repeat app] in EP. destruct (http_head k v rest) as (c & t & E & C).
    eapply ends_cont. { unfold rl_step. rewrite EP, ST, E. unfold rd. cbn [nth_error obind]. apply N.eqb_neq in C. rewrite C. reflexivity. }
    eapply e_http; [reflexivity|exact EP|exact NE|cbn [go r_len]; lia|reflexivity].
  - cbn [repeat app] in EP. eapply ends_brk; [unfold rl_step; rewrite EP, ST; reflexivity|left; lia|].
    eapply IH; [exact ST|cbn [at_ptr r_ptr]; rewrite EP; reflexivity|exact NE|cbn [at_ptr r_len]; lia|reflexivity].
Qed.
(** What follows the target. *)
Definition after (j k : nat) (v : version) (rest : list N) : list N := repeat 32 (S j) ++ concat (repeat (bs "HTTP") k) ++ 47 :: vtail v rest.
Definition need (j k : nat) (v : version) : Z := Z.of_nat (S j + 4 * k + 3 + length (version_number v)).
Lemma need_pos j k v : (4 <= need j k v)%Z. Proof. unfold need. lia. Qed.
Lemma e_endtarget s j k v rest r : r_st s = SEndTarget -> r_ptr s = after j k v rest -> rest <> [] -> (need j k v <= r_len s)%Z ->
  r = Ok (Some (mkReqline (r_method s) (firstn (r_tlen s) (r_target s))
             (match r_query s with Some q => Some (firstn (r_qlen s) q) | None => r_qset s end) (Some v))) -> rends s r.
Proof.
  intros ST EP NE L ->. eapply ends_cont. { unfold rl_step. rewrite EP, ST. reflexivity. }
  eapply (e_space (S j)); [reflexivity|exact EP|exact NE|exact L|reflexivity].
Qed.

Lemma pchar_ok c t : PCHAR c -> pchar (c :: t) = Ok (Some (c :: t)).
Proof. intros H. apply pchar_class in H. unfold pchar, rd. cbn [nth_error obind]. rewrite H. reflexivity. Qed.
Lemma userinfo_ok c t : USERINFO c -> userinfo (c :: t) = Ok (Some (c :: t)).
Proof. intros H. apply userinfo_class in H. unfold userinfo, rd. cbn [nth_error obind]. rewrite H. reflexivity. Qed.
Lemma pct_ok a b t : HEXDIG a -> HEXDIG b -> pct_encoded (37 :: a :: b :: t) = Ok (Some (b :: t)).
Proof. intros A B. apply hex_class in A. apply hex_class in B. unfold pct_encoded, rd. cbn. rewrite A, B. reflexivity. Qed.
Lemma pchar_pct a b t : HEXDIG a -> HEXDIG b -> pchar (37 :: a :: b :: t) = Ok (Some (b :: t)).
Proof. intros A B. exact (pct_ok a b t A B). Qed.
Lemma userinfo_pct a b t : HEXDIG a -> HEXDIG b -> userinfo (37 :: a :: b :: t) = Ok (Some (b :: t)).
Proof. intros A B. exact (pct_ok a b t A B). Qed.
Lemma query_ok c t : PCHAR c \/ c = 47 \/ c = 63 -> query_char (c :: t) = Ok (Some (c :: t)).
Proof. intros [H|[->| ->]]; [unfold query_char; rewrite (pchar_ok c t H); reflexivity|reflexivity|reflexivity]. Qed.
Lemma query_pct a b t : HEXDIG a -> HEXDIG b -> query_char (37 :: a :: b :: t) = Ok (Some (b :: t)).
Proof. intros A B. unfold query_char. rewrite (pchar_pct a b t A B). reflexivity. Qed.
Lemma at_ptr_self s : at_ptr s (r_ptr s) (r_len s) = s.
Proof. destruct s. reflexivity. Qed.
(** A state whose only effect on an encoded string is to move on. *)
Lemma e_encoded (st : rstatus) (ok : N -> Prop) : 
  (forall s c t, r_st s = st -> r_ptr s = c :: t -> ok c -> rl_step s = brk s) ->
  (forall s a b t, r_st s = st -> r_ptr s = 37 :: a :: b :: t -> HEXDIG a -> HEXDIG b -> rl_step s = brk (at_ptr s (b :: t) (r_len s))) ->
  forall p, encoded ok p -> forall s rest r n, r_st s = st -> r_ptr s = p ++ rest -> (Z.of_nat (length p) + n <= r_len s)%Z -> (1 <= n)%Z ->
  (forall l, (n <= l)%Z -> rends (at_ptr s rest l) r) -> rends s r.
Proof.
  intros CH PCT. induction 1 as [|c p H E IH|a b p A B E IH]; intros s rest r n ST EP L N1 CONT.
  - cbn [app] in EP. rewrite <- (at_ptr_self s), EP. apply CONT. cbn [length] in L. lia.
  - cbn [app length] in *. eapply ends_brk; [eapply CH; eassumption|left; lia|]. rewrite EP. cbn [List.tl].
    apply (IH _ rest r n); [exact ST|reflexivity|cbn [at_ptr r_len]; lia|exact N1|exact CONT].
  - cbn [app length] in *. eapply ends_brk; [eapply PCT; eassumption|left; cbn [at_ptr r_len]; lia|]. cbn [at_ptr r_ptr List.tl].
    apply (IH _ rest r n); [exact ST|reflexivity|cbn [at_ptr r_len]; lia|exact N1|exact CONT].
Qed.
Lemma hd_step s c t : r_ptr s = c :: t -> rd (r_ptr s) 0 = Ok c.
Proof. intros ->. reflexivity. Qed.
Lemma pchar_not c : PCHAR c -> c <> 47.
Proof. classes. lia. Qed.
Lemma e_path p : encoded PATHCHAR p -> forall s rest r n, r_st s = SOrigin -> r_ptr s = p ++ rest -> (Z.of_nat (length p) + n <= r_len s)%Z -> (1 <= n)%Z ->
  (forall l, (n <= l)%Z -> rends (at_ptr s rest l) r) -> rends s r.
Proof.
  apply e_encoded.
  - intros s c t ST EP C. unfold rl_step. rewrite (hd_step s c t EP), ST. cbn [obind]. destruct (N.eqb_spec c 47) as [->|]; [reflexivity|].
    destruct C as [C|C]; [|congruence]. unfold adv. rewrite EP, (pchar_ok c t C). cbn [obind]. rewrite <- EP, at_ptr_self. reflexivity.
  - intros s a b t ST EP A B. unfold rl_step. rewrite (hd_step s _ _ EP), ST, EP. cbn [obind]. unfold adv. rewrite (pchar_pct a b t A B). reflexivity.
Qed.
Lemma e_query q : encoded QCHAR q -> forall s rest r n, r_st s = SOriginQuery -> r_ptr s = q ++ rest -> (Z.of_nat (length q) + n <= r_len s)%Z -> (1 <= n)%Z ->
  (forall l, (n <= l)%Z -> rends (at_ptr s rest l) r) -> rends s r.
Proof.
  apply e_encoded.
  - intros s c t ST EP C. unfold rl_step. rewrite (hd_step s c t EP), ST. cbn [obind].
    unfold adv. rewrite EP, (query_ok c t C). cbn [obind]. rewrite <- EP, at_ptr_self. reflexivity.
  - intros s a b t ST EP A B. unfold rl_step. rewrite (hd_step s _ _ EP), ST, EP. cbn [obind]. unfold adv. rewrite (query_pct a b t A B). reflexivity.
Qed.
Lemma e_user u : encoded USERINFO u -> forall s rest r n, r_st s = SUserinfo -> r_ptr s = u ++ rest -> (Z.of_nat (length u) + n <= r_len s)%Z -> (1 <= n)%Z ->
  (forall l, (n <= l)%Z -> rends (at_ptr s rest l) r) -> rends s r.
Proof.
  apply e_encoded.
  - intros s c t ST EP C. unfold rl_step. rewrite (hd_step s c t EP), ST. cbn [obind].
    unfold adv. rewrite EP, (userinfo_ok c t C). cbn [obind]. rewrite <- EP, at_ptr_self. reflexivity.
  - intros s a b t ST EP A B. unfold rl_step. rewrite (hd_step s _ _ EP), ST, EP. cbn [obind]. unfold adv. rewrite (userinfo_pct a b t A B). reflexivity.
Qed.
Lemma e_plain (st : rstatus) (ok : N -> Prop) : (forall s c t, r_st s = st -> r_ptr s = c :: t -> ok c -> rl_step s = brk s) ->
  forall p, Forall ok p -> forall s rest r n, r_st s = st -> r_ptr s = p ++ rest -> (Z.of_nat (length p) + n <= r_len s)%Z -> (1 <= n)%Z ->
  (forall l, (n <= l)%Z -> rends (at_ptr s rest l) r) -> rends s r.
Proof.
  intros CH. induction 1 as [|c p H E IH]; intros s rest r n ST EP L N1 CONT.
  - cbn [app] in EP. rewrite <- (at_ptr_self s), EP. apply CONT. cbn [length] in L. lia.
  - cbn [app length] in *. eapply ends_brk; [eapply CH; eassumption|left; lia|]. rewrite EP. cbn [List.tl].
    apply (IH _ rest r n); [exact ST|reflexivity|cbn [at_ptr r_len]; lia|exact N1|exact CONT].
Qed.
Lemma e_host h : Forall (fun c => ALPHA c \/ DIGIT c) h -> forall s rest r n, r_st s = SHost -> r_ptr s = h ++ rest -> (Z.of_nat (length h) + n <= r_len s)%Z -> (1 <= n)%Z ->
  (forall l, (n <= l)%Z -> rends (at_ptr s rest l) r) -> rends s r.
Proof.
  apply e_plain. intros s c t ST EP C. apply alnum_class in C. unfold rl_step. rewrite (hd_step s c t EP), ST. cbn [obind]. rewrite C. reflexivity.
Qed.
Lemma e_port d : Forall DIGIT d -> forall s rest r n, r_st s = SPort -> r_ptr s = d ++ rest -> (Z.of_nat (length d) + n <= r_len s)%Z -> (1 <= n)%Z ->
  (forall l, (n <= l)%Z -> rends (at_ptr s rest l) r) -> rends s r.
Proof.
  apply e_plain. intros s c t ST EP C. apply digit_class in C. unfold rl_step. rewrite (hd_step s c t EP), ST. cbn [obind]. rewrite C. reflexivity.
Qed.
Lemma e_blank k : forall s rest r n, r_st s = SMethodSpace -> r_ptr s = repeat 32 k ++ rest -> (Z.of_nat k + n <= r_len s)%Z -> (1 <= n)%Z ->
  (forall l, (n <= l)%Z -> rends (at_ptr s rest l) r) -> rends s r.
Proof.
  pose proof (e_plain SMethodSpace (fun c => c = 32)) as E. intros s rest r n ST EP L N1 CONT.
  apply (E) with (p := repeat 32 k) (rest := rest) (n := n); auto.
  - intros s0 c t ST0 EP0 ->. unfold rl_step. rewrite (hd_step s0 _ t EP0), ST0. reflexivity.
  - apply Forall_forall. intros x I. now apply repeat_spec in I.
  - rewrite repeat_length. exact L.
Qed.
Lemma e_mname p : Forall (fun c => rl_tchar c = true) p -> forall s rest r n, r_st s = SMethod -> r_ptr s = p ++ rest -> (Z.of_nat (length p) + n <= r_len s)%Z -> (1 <= n)%Z ->
  (forall l, (n <= l)%Z -> rends (at_ptr s rest l) r) -> rends s r.
Proof.
  apply e_plain. intros s c t ST EP C. unfold rl_step. rewrite (hd_step s c t EP), ST. cbn [obind]. rewrite C. reflexivity.
Qed.

Lemma e_origin s m t0 x : r_st s = SMethodSpace -> r_ptr s = 47 :: t0 -> r_methodp s = method_spelling m ++ x -> m <> CONNECT ->
  rl_step s = cont (go (set_target s (r_ptr s)) SOrigin).
Proof.
  intros ST EP M NC. unfold rl_step. rewrite (hd_step s _ _ EP), ST. cbn [obind]. change (47 =? 32) with false. cbv iota zeta.
  cbn [set_target r_methodp]. rewrite M, request_method_spec. cbn [obind]. destruct m; try reflexivity. contradiction.
Qed.
Lemma e_connect s c t0 x : r_st s = SMethodSpace -> r_ptr s = c :: t0 -> r_methodp s = method_spelling CONNECT ++ x -> c <> 32 ->
  rl_step s = cont (go (set_target s (r_ptr s)) SAuthority).
Proof.
  intros ST EP M NC. unfold rl_step. rewrite (hd_step s _ _ EP), ST. cbn [obind]. apply N.eqb_neq in NC. rewrite NC. cbv iota zeta.
  cbn [set_target r_methodp]. rewrite M, request_method_spec. reflexivity.
Qed.
Lemma after_head j k v rest : exists t, after j k v rest = 32 :: t.
Proof. unfold after. cbn [repeat app]. eauto. Qed.
Lemma firstn_exact (a b : list N) : firstn (length a) (a ++ b) = a.
Proof. rewrite firstn_app, firstn_all, Nat.sub_diag, firstn_O, app_nil_r. reflexivity. Qed.
Lemma no_pchar c : ~ PCHAR c -> c <> 37 -> forall t, pchar (c :: t) = Ok None.
Proof.
  intros H C t. unfold pchar, pct_encoded, rd. cbn [nth_error obind]. destruct (_ || _) eqn:E; [apply pchar_class in E; contradiction|].
  apply N.eqb_neq in C. rewrite C. reflexivity.
Qed.
Lemma no_query t : query_char (32 :: t) = Ok None. Proof. reflexivity. Qed.
Lemma e_target m t path q : fly_target m t path q -> forall s j k v rest x,
  r_st s = SMethodSpace -> r_ptr s = t ++ after j k v rest -> rest <> [] -> r_methodp s = method_spelling m ++ x ->
  r_method s = Some m -> r_query s = None -> r_qset s = None -> r_tlen s = 0%nat ->
  (Z.of_nat (length t) + need j k v <= r_len s)%Z ->
  rends s (Ok (Some (mkReqline (Some m) path q (Some v)))).
Proof.
  intros T s j k v rest x ST EP NE MP RM RQ QS TL L. pose proof (need_pos j k v) as NP. destruct (after_head j k v rest) as (w & AH).
  destruct T as [m p NC (H & EN)|m p NC (H & EN)|m p q NC (H & EN) QN QT|u h d UN UE HN HF DN DF].
  - destruct H as (t0 & E). eapply ends_cont; [eapply e_origin; [exact ST|rewrite EP, E; reflexivity|exact MP|exact NC]|].
    eapply (e_path p EN _ (after j k v rest) _ (need j k v)); [reflexivity|exact EP|exact L|lia|]. intros l Hl. rcbn.
    eapply ends_cont.
    { unfold rl_step. rcbn. rewrite AH. unfold rd. cbn [nth_error obind]. change (32 =? 47) with false. cbv iota. unfold adv.
      rewrite no_pchar; [|classes; lia|discriminate]. cbn [obind]. reflexivity. }
    rcbn. eapply e_endtarget; [reflexivity|rcbn; rewrite AH; reflexivity|exact NE|exact Hl|]. rcbn. rewrite RM, RQ, QS, EP, AH, diff_app, firstn_exact. reflexivity.
  - destruct H as (t0 & E). eapply ends_cont; [eapply e_origin; [exact ST|rewrite EP, E; reflexivity|exact MP|exact NC]|].
    rewrite app_length in L. cbn [length bs] in L. change (bs "?") with [63] in *. cbn [length] in L.
    eapply (e_path p EN _ ([63] ++ after j k v rest) _ (need j k v + 1)%Z); [reflexivity|rcbn; rewrite EP; napp; reflexivity|rcbn; lia|lia|]. intros l Hl. rcbn. cbn [app].
    eapply ends_brk.
    { unfold rl_step. rcbn. unfold rd. cbn [nth_error obind]. change (63 =? 47) with false. cbv iota. unfold adv.
      rewrite no_pchar; [|classes; lia|discriminate]. cbn [obind]. reflexivity. }
    { left. rcbn. lia. }
    rcbn. eapply ends_cont. { unfold rl_step. rcbn. rewrite AH. reflexivity. }
    rcbn. eapply e_endtarget; [reflexivity|rcbn; rewrite AH; reflexivity|exact NE|rcbn; lia|]. rcbn. rewrite RM, RQ, QS, EP, AH.
    replace ((p ++ [63]) ++ 32 :: w) with (p ++ 63 :: 32 :: w) by (napp; reflexivity). rewrite diff_app, firstn_exact. reflexivity.
  - destruct H as (t0 & E). eapply ends_cont; [eapply e_origin; [exact ST|rewrite EP, E; reflexivity|exact MP|exact NC]|].
    change (bs "?") with [63] in *. rewrite !app_length in L. cbn [length] in L.
    eapply (e_path p EN _ ([63] ++ q ++ after j k v rest) _ (Z.of_nat (length q) + need j k v + 1)%Z); [reflexivity|rcbn; rewrite EP; napp; reflexivity|rcbn; lia|lia|].
    intros l Hl. rcbn. cbn [app].
    eapply ends_brk.
    { unfold rl_step. rcbn. unfold rd. cbn [nth_error obind]. change (63 =? 47) with false. cbv iota. unfold adv.
      rewrite no_pchar; [|classes; lia|discriminate]. cbn [obind]. reflexivity. }
    { left. rcbn. lia. }
    rcbn. rewrite EP. replace ((p ++ [63] ++ q) ++ after j k v rest) with (p ++ 63 :: q ++ after j k v rest) by (napp; reflexivity). rewrite diff_app.
    assert (FIN : forall l' s', r_st s' = SOriginQuery -> r_query s' = Some (query_seen q ++ after j k v rest) -> r_ptr s' = after j k v rest -> r_len s' = l' ->
                  (need j k v <= l')%Z -> r_method s' = Some m -> r_tlen s' = length p -> r_target s' = p ++ 63 :: q ++ after j k v rest ->
                  rends s' (Ok (Some (mkReqline (Some m) p (Some (query_seen q)) (Some v))))).
    { intros l' s' S1 S2 S3 S4 S5 S6 S7 S8. eapply ends_cont.
      { unfold rl_step. rewrite S1, S3, AH. unfold rd. cbn [nth_error obind]. unfold adv. rewrite no_query. cbn [obind]. reflexivity. }
      eapply e_endtarget; [reflexivity|exact S3|exact NE|rcbn; lia|]. rcbn. rewrite S2, S6, S7, S8, AH, diff_app, !firstn_exact. reflexivity. }
    destruct QT as [|c q C QT|a b q A B QT]; [contradiction| |].
    + cbn [app length] in *. assert (C32 : c <> 32) by (revert C; classes; lia).
      eapply ends_brk.
      { unfold rl_step. rcbn. unfold rd. cbn [nth_error obind]. pose proof C32 as C33. apply N.eqb_neq in C33. rewrite C33. unfold adv. rewrite (query_ok c _ C). cbn [obind]. reflexivity. }
      { left. rcbn. lia. }
      rcbn. eapply (e_query q QT _ (after j k v rest) _ (need j k v)); [reflexivity|reflexivity|rcbn; lia|lia|].
      intros l' Hl'. rcbn. eapply (FIN l'); [reflexivity| |reflexivity|reflexivity|exact Hl'|exact RM|reflexivity|reflexivity].
      rcbn. assert (QA : query_seen ([c] ++ q) = query_seen [c] ++ q) by (apply query_seen_app; [discriminate|apply enc_char; [exact C|apply enc_nil]]).
      assert (QB : query_seen ([] ++ [c]) = [c]) by (apply query_seen_atom; left; exists c; split; [reflexivity|exact C]). cbn [app] in QA, QB. rewrite QB in QA. rewrite QA. reflexivity.
    + cbn [app length] in *.
      eapply ends_brk.
      { unfold rl_step. rcbn. unfold rd. cbn [nth_error obind]. change (37 =? 32) with false. cbv iota. unfold adv. rewrite (query_pct a b _ A B). cbn [obind]. reflexivity. }
      { left. rcbn. lia. }
      rcbn. eapply (e_query q QT _ (after j k v rest) _ (need j k v)); [reflexivity|reflexivity|rcbn; lia|lia|].
      intros l' Hl'. rcbn. eapply (FIN l'); [reflexivity|reflexivity|reflexivity|reflexivity|exact Hl'|exact RM|reflexivity|reflexivity].
  - change (bs "@") with [64] in *. change (bs ":") with [58] in *. rewrite !app_length in L. cbn [length] in L.
    replace ((u ++ [64] ++ h ++ [58] ++ d) ++ after j k v rest) with (u ++ 64 :: h ++ 58 :: d ++ after j k v rest) in EP by (napp; reflexivity).
    assert (U0 : exists c t0, u = c :: t0 /\ c <> 32).
    { destruct UE as [|c q C QT|a b q A B QT]; [contradiction| |]; eexists; eexists; (split; [reflexivity|]); [revert C; classes; lia|discriminate]. }
    destruct U0 as (c & t0 & EU & C32).
    eapply ends_cont; [eapply e_connect; [exact ST|rewrite EP, EU; reflexivity|exact MP|exact C32]|].
    (* the first character of the user information *)
    assert (FST : exists a y u', u = a ++ y :: u' /\ encoded USERINFO u' /\ userinfo (u ++ 64 :: h ++ 58 :: d ++ after j k v rest) = Ok (Some (y :: u' ++ 64 :: h ++ 58 :: d ++ after j k v rest))).
    { destruct UE as [|c' q C QT|a b q A B QT]; [contradiction| |].
      - exists [], c', q. split; [reflexivity|]. split; [exact QT|]. apply userinfo_ok. exact C.
      - exists [37; a], b, q. split; [reflexivity|]. split; [exact QT|]. apply userinfo_pct; assumption. }
    destruct FST as (a & y & u' & EA & UE' & UI).
    assert (LU : (length u' < length u)%nat) by (rewrite EA, app_length; cbn; lia).
    eapply ends_brk.
    { unfold rl_step. rcbn. rewrite EP. unfold adv. rewrite UI. rewrite EU. unfold rd. cbn [app nth_error obind]. reflexivity. }
    { left. rcbn. lia. }
    rcbn. eapply (e_user u' UE' _ _ _ (Z.of_nat (length h + length d) + need j k v + 2)%Z); [reflexivity|reflexivity|rcbn; lia|lia|].
    intros l Hl. rcbn. eapply ends_brk. { unfold rl_step. rcbn. unfold rd. cbn [nth_error obind]. reflexivity. } { left. rcbn. lia. }
    rcbn. destruct HF as [|h0 h H0 HF]; [contradiction|]. cbn [app length] in *.
    eapply ends_brk. { unfold rl_step. rcbn. unfold rd. cbn [nth_error obind]. apply alnum_class in H0. rewrite H0. reflexivity. } { left. rcbn. lia. }
    rcbn. eapply (e_host h HF _ _ _ (Z.of_nat (length d) + need j k v + 1)%Z); [reflexivity|reflexivity|rcbn; lia|lia|].
    intros l2 Hl2. rcbn. eapply ends_brk. { unfold rl_step. rcbn. unfold rd. cbn [nth_error obind]. reflexivity. } { left. rcbn. lia. }
    rcbn. destruct DF as [|d0 d D0 DF]; [contradiction|]. cbn [app length] in *.
    eapply ends_brk. { unfold rl_step. rcbn. unfold rd. cbn [nth_error obind]. apply digit_class in D0. rewrite D0. reflexivity. } { left. rcbn. lia. }
    rcbn. eapply (e_port d DF _ _ _ (need j k v)); [reflexivity|reflexivity|rcbn; lia|lia|].
    intros l3 Hl3. rcbn. eapply ends_cont. { unfold rl_step. rcbn. rewrite AH. reflexivity. }
    rcbn. eapply e_endtarget; [reflexivity|rcbn; rewrite AH; reflexivity|exact NE|rcbn; lia|]. rcbn. rewrite RM, RQ, QS, TL. reflexivity.
Qed.
Lemma method_tchars m : Forall (fun c => rl_tchar c = true) (method_spelling m).
Proof. destruct m; repeat constructor. Qed.
Lemma reqline_complete line m path q v : fly_line line m path q v -> parse_reqline line = Ok (Some (mkReqline (Some m) path q (Some v))).
Proof.
  intros H. destruct H as [m s1 t path q s2 k v rest T (i & ->) (j & ->)].
  set (line := method_spelling m ++ repeat 32 (S i) ++ t ++ repeat 32 (S j) ++ concat (repeat (bs "HTTP") k) ++ bs "/" ++ version_number v ++ CRLF_ ++ rest).
  assert (LL : length line = (length (method_spelling m) + S i + length t + (S j + 4 * k + 3 + length (version_number v)) + length rest)%nat).
  { unfold line. rewrite !app_length, !repeat_length. replace (length (concat (repeat (bs "HTTP") k))) with (4 * k)%nat; [cbn [length CRLF_ bs]; change (length (bs "/")) with 1%nat; lia|].
    clear. induction k as [|k IH]; [reflexivity|]. cbn [repeat concat]. rewrite app_length, <- IH. change (length (bs "HTTP")) with 4%nat. lia. }
  assert (EL : line ++ [0] = method_spelling m ++ repeat 32 (S i) ++ t ++ after j k v (rest ++ [0])).
  { unfold line, after, vtail. change (bs "/") with [47]. repeat (rewrite <- app_assoc; cbn [app]). reflexivity. }
  pose proof (need_pos j k v) as NP. 
  apply (ends_run rl_step rmeasure rl_step_decreases rl_step_total); [|discriminate|apply init_measure].
  assert (M0 : exists c x, method_spelling m = c :: x /\ rl_tchar c = true) by (destruct m; eexists; eexists; split; reflexivity).
  destruct M0 as (c0 & x0 & EM & TC).
  eapply ends_cont. { unfold rl_step, rl_init. rcbn. rewrite EL, EM. unfold rd. cbn [app nth_error obind]. rewrite TC. reflexivity. }
  change (c0 :: x0 ++ repeat 32 (S i) ++ t ++ after j k v (rest ++ [0])) with ((c0 :: x0) ++ repeat 32 (S i) ++ t ++ after j k v (rest ++ [0])).
  rewrite <- EM. set (B := repeat 32 (S i) ++ t ++ after j k v (rest ++ [0])) in *.
  eapply (e_mname _ (method_tchars m) _ B _ (Z.of_nat (S i + length t) + need j k v)%Z); [reflexivity|reflexivity|rcbn; rewrite LL; unfold need; lia|lia|].
  intros l Hl. rcbn.
  eapply ends_cont.
  { unfold rl_step. rcbn. unfold B. cbn [repeat app]. unfold rd. cbn [nth_error obind]. change (rl_tchar 32) with false. change (32 =? 32) with true. cbv iota.
    rewrite diff_app.
    assert (MM : match_method_len (method_spelling m ++ 32 :: repeat 32 i ++ t ++ after j k v (rest ++ [0])) (length (method_spelling m)) = Ok (Some m)).
    { apply method_len_exact; [rewrite app_length; lia|]. rewrite firstn_exact. reflexivity. }
    rewrite MM. cbn [obind]. reflexivity. }
  rcbn. eapply (e_blank (S i) _ (t ++ after j k v (rest ++ [0])) _ (Z.of_nat (length t) + need j k v)%Z); [reflexivity|reflexivity|rcbn; lia|lia|].
  intros l2 Hl2. rcbn. eapply (e_target _ _ _ _ T _ j k v (rest ++ [0])); try reflexivity; [destruct rest; discriminate|]. rcbn. exact Hl2.
Qed.
Lemma reqline_exact line m path q v : parse_reqline line = Ok (Some (mkReqline (Some m) path q (Some v))) <-> fly_line line m path q v.
Proof.
  split; [|apply reqline_complete]. intros H. destruct (reqline_sound line) as (o & E & P). rewrite H in E. injection E as <-.
  destruct P as (m' & path' & q' & v' & F & R). injection R as -> -> -> ->. exact F.
Qed.

(** ** __fly_request_operation *)
Lemma ptr_at_ge : forall cs ci i p, ptr_at cs ci i = Some p -> (ci <= fst p)%nat.
Proof.
  induction cs as [|c t IH]; intros ci i p H; cbn [ptr_at] in H; [discriminate|]. destruct (_ <? _)%nat; [injection H as <-; cbn; lia|].
  apply IH in H. lia.
Qed.
Lemma ptr_at_inj : forall cs ci i j p, ptr_at cs ci i = Some p -> ptr_at cs ci j = Some p -> i = j.
Proof.
  induction cs as [|c t IH]; intros ci i j p H1 H2; cbn [ptr_at] in *; [discriminate|].
  destruct (Nat.ltb_spec i (c_act c)) as [A|A], (Nat.ltb_spec j (c_act c)) as [B|B].
  - rewrite <- H2 in H1. injection H1 as H1. lia.
  - injection H1 as <-. apply ptr_at_ge in H2. cbn in H2. lia.
  - injection H2 as <-. apply ptr_at_ge in H1. cbn in H1. lia.
  - assert (i - c_act c = j - c_act c)%nat by (eapply IH; eassumption). lia.
Qed.
Lemma ptr_eqb_spec p q : reflect (p = q) (ptr_eqb p q).
Proof.
  destruct p as [a b], q as [c d]. unfold ptr_eqb. cbn [fst snd]. destruct (Nat.eqb_spec a c), (Nat.eqb_spec b d); cbn [andb]; constructor; congruence.
Qed.
Lemma ptr_len_loop_spec b (W : wf b) j p1 p2 : (0 < j)%nat -> (j < length (mem (b_chains b)))%nat -> ptr_at (b_chains b) 0 j = Some p1 -> ptr_at (b_chains b) 0 0 = Some p2 ->
  forall fuel i p, (i <= j)%nat -> (j - i < fuel)%nat -> ptr_at (b_chains b) 0 i = Some p ->
  ptr_len_loop fuel b p p1 p2 false (0 <? i)%nat (Z.of_nat i) = Ok (Z.of_nat j).
Proof.
  intros J0 JM P1 P2. induction fuel as [|fuel IH]; intros i p Hi Hf Hp; [lia|]. cbn [ptr_len_loop]. rewrite orb_false_l.
  destruct (ptr_eqb_spec p p1) as [->|N1].
  - assert (i = j) by (eapply ptr_at_inj; eassumption). subst i. replace (0 <? j)%nat with true by (symmetry; apply Nat.ltb_lt; lia). reflexivity.
  - assert (i <> j) by (intros ->; rewrite P1 in Hp; congruence). cbn [negb andb].
    assert (F2 : (0 <? i)%nat || ptr_eqb p p2 = true).
    { destruct i; [|reflexivity]. rewrite P2 in Hp. injection Hp as ->. destruct (ptr_eqb_spec p p); [reflexivity|congruence]. }
    rewrite F2. destruct (P_step b W i p ltac:(lia) Hp) as (_ & Q & E). rewrite E.
    replace (S i =? length (mem (b_chains b)))%nat with false by (symmetry; apply Nat.eqb_neq; lia).
    replace (Nat.min (S i) (length (mem (b_chains b)) - 1)) with (S i) in Q by lia.
    replace (Z.of_nat i + 1)%Z with (Z.of_nat (S i)) by lia. change true with (0 <? S i)%nat. apply IH; [lia|lia|exact Q].
Qed.
Lemma mem_stream b : wf b -> (length (stream b) < length (mem (b_chains b)))%nat.
Proof. intros W. pose proof W as (W0 & _). destruct (wf_mem _ _ _ W0) as (tail & T1 & T2 & _). fold (stream b) in T1. rewrite T1, app_length. lia. Qed.
Lemma occurs_len pat s j : occurs pat s j -> (j + length pat <= length s)%nat.
Proof. intros (pre & post & -> & <-). rewrite !app_length. lia. Qed.
Lemma operation_line b j : wf b -> occurs CRLF (stream b) j -> (forall j', (j' < j)%nat -> ~ occurs CRLF (stream b) j') -> no_crcr (stream b) j ->
  if (8000 <=? Z.of_nat (j + 2))%Z then request_operation b = Ok E414
  else match parse_reqline (firstn (j + 2) (stream b)) with
       | Ok (Some r) => exists b', request_operation b = Ok (Accepted r b') /\ wf b' /\ stream b' = skipn (j + 2) (stream b)
       | _ => request_operation b = Ok E400
       end.
Proof.
  intros W O F NC. pose proof (occurs_len _ _ _ O) as OL. change (length CRLF) with 2%nat in OL.
  destruct (crlf_found b CRLF j W (or_introl eq_refl) O F NC) as (q & S1 & PQ). change (length CRLF) with 2%nat in PQ.
  pose proof W as (W0 & _). pose proof (ptr_at_0 _ _ _ W0) as P0. unfold request_operation.
  change [13; 10] with CRLF. destruct (b_chains b) as [|c t] eqn:BC; [destruct P0|]. rewrite S1. cbn [obind]. unfold ptr_len. rewrite BC.
  pose proof (mem_stream b W) as MS. rewrite BC in MS.
  assert (PL : ptr_len_loop (S (mem_size b)) b (0%nat, c_use c) q (0%nat, c_use c) false false 0 = Ok (Z.of_nat (j + 2))).
  { change false with (0 <? 0)%nat at 2. change 0%Z with (Z.of_nat 0). apply (ptr_len_loop_spec b W); rewrite ?BC; [lia|lia|exact PQ|exact P0|lia| |exact P0].
    pose proof (mem_size_ge b) as G. rewrite BC in G. lia. }
  rewrite PL. cbn [obind]. unfold request_line_max. destruct (8000 <=? Z.of_nat (j + 2))%Z; [reflexivity|]. rewrite Nat2Z.id.
  rewrite (memcpy_spec b 0 0 (c_use c) (j + 2) W); [|rewrite BC; exact P0|lia]. cbn [obind skipn].
  destruct (reqline_sound (firstn (j + 2) (stream b))) as (o & E & _). rewrite E. cbn [obind]. destruct o as [r|]; [|reflexivity].
  destruct (release_spec b (j + 2) W ltac:(lia)) as (b' & R & W' & SB & _). rewrite R. cbn [obind]. eauto.
Qed.
Lemma operation_none b : wf b -> (forall j, ~ occurs CRLF (mem (b_chains b)) j) -> request_operation b = Ok NotReady.
Proof.
  intros W NO. destruct (strstr_spec b W CRLF ltac:(discriminate)) as (r & R & A & _). unfold request_operation. change [13; 10] with CRLF.
  pose proof W as (W0 & _). pose proof (ptr_at_0 _ _ _ W0) as P0. destruct (b_chains b) as [|c t] eqn:BC; [destruct P0|]. rewrite R. cbn [obind].
  destruct r as [q|]; [|reflexivity]. destruct (A q eq_refl) as (j & OJ & _). destruct (NO j OJ).
Qed.

(** ** Consequences *)
Lemma fly_line_rest m t path q v rest : fly_target m t path q ->
  fly_line (request_line m t v ++ rest) m path q v.
Proof.
  intros T. unfold request_line. replace ((method_spelling m ++ SP ++ t ++ SP ++ bs "HTTP/" ++ version_number v ++ CRLF_) ++ rest)
    with (method_spelling m ++ SP ++ t ++ SP ++ concat (repeat (bs "HTTP") 1) ++ bs "/" ++ version_number v ++ CRLF_ ++ rest).
  - apply fl; [exact T|exists 0%nat; reflexivity|exists 0%nat; reflexivity].
  - cbn [repeat concat]. rewrite app_nil_r. change (bs "HTTP/") with (bs "HTTP" ++ bs "/"). rewrite <- !app_assoc. reflexivity.
Qed.
Lemma query_seen_same q : hd 0 q <> 37 -> query_seen q = q.
Proof.
  destruct q as [|c q]; [reflexivity|]. cbn [hd query_seen]. intros H. destruct c as [|c]; [reflexivity|]. do 6 (destruct c as [c|c|]; try reflexivity). contradiction.
Qed.
Definition plain_query (q : option (list N)) : Prop :=
  match q with None => True | Some q => q <> [] /\ query_text q /\ hd 0 q <> 37 end.
Lemma plain_target m path q : m <> CONNECT -> abs_path path -> plain_query q -> fly_target m (with_query path q) path q.
Proof.
  intros NC P Q. unfold with_query. destruct q as [q|]; [|rewrite app_nil_r; apply ft_path; assumption].
  destruct Q as (N1 & QT & H). rewrite <- (query_seen_same q H) at 2. apply ft_query; assumption.
Qed.
Lemma reqline_decoded m path q v : m <> CONNECT -> abs_path path -> plain_query q ->
  parse_reqline (request_line m (with_query path q) v) = Ok (Some (mkReqline (Some m) path q (Some v))).
Proof.
  intros NC P Q. apply reqline_complete. rewrite <- (app_nil_r (request_line _ _ _)). apply fly_line_rest. apply plain_target; assumption.
Qed.

(** The bytes of an accepted line before its CRLF contain no CR and no LF. *)
Definition no_ctl (s : list N) : Prop := Forall (fun c => c <> 13 /\ c <> 10) s.
Lemma encoded_no_ctl (ok : N -> Prop) s : (forall c, ok c -> c <> 13 /\ c <> 10) -> encoded ok s -> no_ctl s.
Proof.
  intros H; induction 1; [constructor|constructor; auto|]. assert (X : forall x, HEXDIG x -> x <> 13 /\ x <> 10) by (intros x; classes; lia).
  constructor; [split; discriminate|]. constructor; [auto|]. constructor; auto.
Qed.
Lemma no_ctl_app a b : no_ctl a -> no_ctl b -> no_ctl (a ++ b).
Proof. intros. apply Forall_app; auto. Qed.
Lemma spaces_no_ctl s : spaces s -> no_ctl s.
Proof. intros (k & ->). apply Forall_forall. intros x I. apply repeat_spec in I. subst. split; discriminate. Qed.
Lemma target_no_ctl m t path q : fly_target m t path q -> no_ctl t.
Proof.
  assert (P : forall c, PCHAR c -> c <> 13 /\ c <> 10) by (intros c; classes; lia).
  assert (A : forall p, abs_path p -> no_ctl p). { intros p (_ & E). revert E. apply encoded_no_ctl. intros c [C| ->]; [auto|split; discriminate]. }
  assert (L : forall c, c <> 13 -> c <> 10 -> no_ctl [c]) by (intros; repeat constructor; auto).
  intros [m' p NC H|m' p NC H|m' p q' NC H N1 QT|u h d UN UE HN HF DN DF].
  - auto.
  - apply no_ctl_app; [auto|apply L; discriminate].
  - apply no_ctl_app; [auto|]. apply no_ctl_app; [apply L; discriminate|]. revert QT. apply encoded_no_ctl. intros c [C|[->| ->]]; [auto|split; discriminate|split; discriminate].
  - apply no_ctl_app; [revert UE; apply encoded_no_ctl; intros c; classes; lia|]. apply no_ctl_app; [apply L; discriminate|].
    apply no_ctl_app; [revert HF; apply Forall_impl; intros c; classes; lia|]. apply no_ctl_app; [apply L; discriminate|].
    revert DF. apply Forall_impl. intros c; classes; lia.
Qed.
Lemma http_no_ctl k : no_ctl (concat (repeat (bs "HTTP") k)).
Proof. induction k as [|k IH]; [constructor|]. cbn [repeat concat]. apply no_ctl_app; [repeat constructor; discriminate|exact IH]. Qed.
Lemma fly_line_split line m path q v : fly_line line m path q v -> exists x rest, line = x ++ CRLF_ ++ rest /\ no_ctl x.
Proof.
  intros [m' s1 t path' q' s2 k v' rest T S1 S2]. exists (method_spelling m' ++ s1 ++ t ++ s2 ++ concat (repeat (bs "HTTP") k) ++ bs "/" ++ version_number v'), rest.
  split; [rewrite <- !app_assoc; reflexivity|].
  apply no_ctl_app; [destruct m'; repeat constructor; discriminate|]. apply no_ctl_app; [apply spaces_no_ctl; exact S1|].
  apply no_ctl_app; [eapply target_no_ctl; exact T|]. apply no_ctl_app; [apply spaces_no_ctl; exact S2|]. apply no_ctl_app; [apply http_no_ctl|].
  apply no_ctl_app; [repeat constructor; discriminate|]. destruct v'; repeat constructor; discriminate.
Qed.
Lemma no_lf_split (l x rest : list N) : ~ In 10 l -> no_ctl x -> l ++ CRLF_ = x ++ CRLF_ ++ rest -> l = x /\ rest = [].
Proof.
  revert x. induction l as [|c l IH]; intros x H X E.
  - destruct x as [|a [|b x]].
    + cbn in E. injection E as ->. auto.
    + discriminate E.
    + injection E as _ _ E. destruct x; discriminate E.
  - destruct x as [|a x].
    + cbn in E. injection E as -> E. destruct l as [|d l]; cbn in E; injection E as E0 E; [discriminate|]. subst d. exfalso. apply H. right. left. reflexivity.
    + cbn [app] in E. injection E as -> E. inversion X as [|? ? _ X']; subst. destruct (IH x) as [-> ->]; [intros I; apply H; right; exact I|exact X'|exact E|]. auto.
Qed.
Lemma no_ctl_first (x rest : list N) : no_ctl x -> 
  occurs CRLF (x ++ CRLF_ ++ rest) (length x) /\ (forall j', (j' < length x)%nat -> ~ occurs CRLF (x ++ CRLF_ ++ rest) j') /\ no_crcr (x ++ CRLF_ ++ rest) (length x).
Proof.
  intros X. assert (NTH : forall i, (i < length x)%nat -> nth_error (x ++ CRLF_ ++ rest) i <> Some 13).
  { intros i Hi. rewrite nth_error_app1 by exact Hi. intros E. apply nth_error_In in E. unfold no_ctl in X. rewrite Forall_forall in X. apply X in E. destruct E; congruence. }
  split; [exists x, rest; split; reflexivity|]. split.
  - intros j' Hj O. apply occurs_nth in O as [O _]. specialize (O 0%nat ltac:(cbn; lia)). rewrite Nat.add_0_r in O. apply (NTH j' Hj). exact O.
  - intros t Ht E. destruct (NTH t Ht E).
Qed.
(** No line feed in the blocks' memory behind the received bytes. *)
Definition clean_tail (b : buffer) : Prop := forall i, (length (stream b) <= i)%nat -> nth_error (mem (b_chains b)) i <> Some 10.
Lemma nth_firstn (l : list N) n i : (i < length (firstn n l))%nat -> nth_error (firstn n l) i = nth_error l i.
Proof. intros H. rewrite <- (firstn_skipn n l) at 2. rewrite nth_error_app1 by exact H. reflexivity. Qed.
Lemma segmentation l r b : ~ In 10 l -> parse_reqline (l ++ CRLF_) = Ok (Some r) -> (Z.of_nat (length l + 2) < 8000)%Z -> wf b ->
  (forall n, (n < length l + 2)%nat -> stream b = firstn n (l ++ CRLF_) -> clean_tail b -> request_operation b = Ok NotReady) /\
  (forall more, stream b = l ++ CRLF_ ++ more -> exists b', request_operation b = Ok (Accepted r b') /\ wf b' /\ stream b' = more).
Proof.
  intros NL P LEN W. destruct (reqline_sound (l ++ CRLF_)) as (o & E & PO). rewrite P in E. injection E as <-. destruct PO as (m & path & q & v & FL & ->).
  destruct (fly_line_split _ _ _ _ _ FL) as (x & rest & EX & CX). destruct (no_lf_split _ _ _ NL CX EX) as [-> ->]. clear EX. split.
  - intros n Hn SB CT. apply operation_none; [exact W|]. intros j O. apply occurs_nth in O as [O _]. specialize (O 1%nat ltac:(cbn; lia)). cbn [CRLF nth_error] in O.
    destruct (Nat.lt_ge_cases (j + 1) (length (stream b))) as [H|H]; [|exact (CT _ H O)].
    pose proof W as (W0 & _). destruct (wf_mem _ _ _ W0) as (tail & T1 & _). fold (stream b) in T1. rewrite T1, nth_error_app1 in O by exact H.
    rewrite SB in O, H. rewrite nth_firstn in O by exact H. rewrite firstn_length in H.
    rewrite app_length in H. cbn [CRLF_ length] in H.
    destruct (Nat.lt_ge_cases (j + 1) (length x)) as [H2|H2].
    + rewrite nth_error_app1 in O by exact H2. apply nth_error_In in O. exact (NL O).
    + rewrite nth_error_app2 in O by exact H2. replace (j + 1 - length x)%nat with 0%nat in O by lia. discriminate O.
  - intros more SB. destruct (no_ctl_first x more CX) as (O & F & NC). rewrite <- SB in O, F, NC. pose proof (operation_line b (length x) W O F NC) as H.
    replace (8000 <=? Z.of_nat (length x + 2))%Z with false in H by lia.
    replace (firstn (length x + 2) (stream b)) with (x ++ CRLF_) in H.
    + rewrite P in H. destruct H as (b' & H & W' & S'). exists b'. split; [exact H|]. split; [exact W'|]. rewrite S', SB, app_assoc.
      replace (length x + 2)%nat with (length (x ++ CRLF_)) by (rewrite app_length; reflexivity). rewrite skipn_app, skipn_all, Nat.sub_diag. reflexivity.
    + rewrite SB, app_assoc. replace (length x + 2)%nat with (length (x ++ CRLF_)) by (rewrite app_length; reflexivity). rewrite firstn_exact. reflexivity.
Qed.

(** Targets that begin with another byte. *)
Lemma split_sp : forall (a b x y : list N), ~ In 32 a -> ~ In 32 b -> a ++ 32 :: x = b ++ 32 :: y -> a = b /\ x = y.
Proof.
  induction a as [|c a IH]; intros [|d b] x y A B E; cbn [app] in E.
  - injection E as ->. auto.
  - injection E as <- E. exfalso. apply B. left. reflexivity.
  - injection E as -> E. exfalso. apply A. left. reflexivity.
  - injection E as -> E. destruct (IH b x y) as [-> ->]; [intros I; apply A; right; exact I|intros I; apply B; right; exact I|exact E|auto].
Qed.
Lemma method_no_sp m : ~ In 32 (method_spelling m).
Proof. destruct m; vm_compute; intuition discriminate. Qed.
Lemma method_spelling_inj m m' : method_spelling m = method_spelling m' -> m = m'.
Proof. destruct m, m'; intros H; try reflexivity; vm_compute in H; discriminate H. Qed.
Lemma other_target_rejected m c t : m <> CONNECT -> c <> 47 -> c <> 32 -> parse_reqline (method_spelling m ++ SP ++ c :: t) = Ok None.
Proof.
  intros NC C1 C2. destruct (reqline_sound (method_spelling m ++ SP ++ c :: t)) as (o & E & P). rewrite E. destruct o as [r|]; [|reflexivity]. exfalso.
  destruct P as (m' & path & q & v & FL & _). remember (method_spelling m ++ SP ++ c :: t) as line eqn:EL. destruct FL as [m' s1 t' path q s2 k v rest T (i & ->) _].
  cbn [SP repeat app] in EL. symmetry in EL. apply split_sp in EL; [|apply method_no_sp|apply method_no_sp]. destruct EL as [EM EL]. apply method_spelling_inj in EM. subst m'.
  assert (HD : exists w, t' = 47 :: w).
  { destruct T as [m p _ ((w & ->) & _)|m p _ ((w & ->) & _)|m p q _ ((w & ->) & _) _ _|]; [eauto|cbn; eauto|cbn; eauto|contradiction]. }
  destruct HD as (w & ->). destruct i as [|i]; cbn [repeat app] in EL; injection EL as EC _; congruence.
Qed.
