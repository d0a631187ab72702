From Verif Require Import Base Buffer BufferProofs Encode.

(** ** What is assumed of zlib and brotli *)
(** [enc d] is the encoded form of [d].  A compressor that has taken some input and written some
    output owes [pend s rest]: the bytes it will write if [rest] is all that is still to come.  It is
    in phase [None] before it was told to finish, and then in phase [Some rest].  A call takes a
    prefix of the input and writes at most [av] bytes, of those it owes; it reports the end only when
    it owes nothing; told to finish, it stops short of the end only for want of space; otherwise it
    stops when it has taken all of the input or filled the space. *)
Definition lawful (z : codec) (enc : list N -> list N) : Prop :=
  exists (pend : z_state z -> list N -> list N) (phase : z_state z -> option (list N) -> Prop),
    phase (z_init z) None /\ (forall d, pend (z_init z) d = enc d) /\
    forall s ph inp fin av s' n out st, 0 < av -> phase s ph -> (forall r, ph = Some r -> fin = true /\ inp = r) ->
      z_step z s inp fin av = (s', n, out, st) ->
      st <> ZErr /\ n <= length inp /\ length out <= av /\
      phase s' (if fin then Some (skipn n inp) else None) /\
      (forall rest, (fin = true -> rest = []) -> pend s (inp ++ rest) = out ++ pend s' (skipn n inp ++ rest)) /\
      (st = ZEnd -> fin = true /\ n = length inp /\ pend s' [] = [] /\ z_close z s' = true) /\
      (st = ZOk -> length out = av \/ (fin = false /\ n = length inp)) /\
      (st = ZBuf -> fin = false /\ inp = []).

(** The same for compressors that may also fail, at any call: what they have done until then is not restricted. *)
Definition fallible (z : codec) (enc : list N -> list N) : Prop :=
  exists (pend : z_state z -> list N -> list N) (phase : z_state z -> option (list N) -> Prop),
    phase (z_init z) None /\ (forall d, pend (z_init z) d = enc d) /\
    forall s ph inp fin av s' n out st, 0 < av -> phase s ph -> (forall r, ph = Some r -> fin = true /\ inp = r) ->
      z_step z s inp fin av = (s', n, out, st) -> st <> ZErr ->
      n <= length inp /\ length out <= av /\
      phase s' (if fin then Some (skipn n inp) else None) /\
      (forall rest, (fin = true -> rest = []) -> pend s (inp ++ rest) = out ++ pend s' (skipn n inp ++ rest)) /\
      (st = ZEnd -> fin = true /\ n = length inp /\ pend s' [] = [] /\ z_close z s' = true) /\
      (st = ZOk -> length out = av \/ (fin = false /\ n = length inp)) /\
      (st = ZBuf -> fin = false /\ inp = []).
Lemma lawful_fallible z enc : lawful z enc -> fallible z enc.
Proof.
  intros (pend & phase & L1 & L2 & L). exists pend, phase. split; [exact L1|]. split; [exact L2|].
  intros s ph inp fin av s' n out st A P R E _. exact (proj2 (L s ph inp fin av s' n out st A P R E)).
Qed.

(** ** Buffers filled block by block *)
Section CANON.
Variable per max : nat.
Variable junk : list N.
Hypothesis PP : 0 < per.
Hypothesis JJ : length junk = per.

Definition fullc (d : list N) : chain := mkChain d 0 0.
Definition canon (full : list (list N)) (last : chain) : buffer :=
  mkBuffer (map fullc full ++ [last]) (S (length full)) max per (length (concat full) + c_written last).
Definition blank : chain := mkChain junk 0 per.

Lemma blank_written : c_written blank = 0.
Proof. unfold c_written, c_len, blank. cbn. lia. Qed.
Lemma canon_act full : last_act (canon full blank) = per.
Proof. unfold last_act, canon. cbn [b_chains]. rewrite last_opt_app. unfold c_act, c_len, blank. cbn. lia. Qed.
Lemma canon_lunuse full : lunuse_len (canon full blank) = per.
Proof. unfold lunuse_len, canon. cbn [b_chains]. rewrite last_opt_app. reflexivity. Qed.
Lemma view_full d : c_view (fullc d) = d.
Proof. unfold c_view, fullc, c_written, c_len. cbn. rewrite !Nat.sub_0_r. apply firstn_all. Qed.
Lemma view_fulls full : flat_map c_view (map fullc full) = concat full.
Proof. induction full as [|d t IH]; cbn [map flat_map concat]; [reflexivity|]. rewrite view_full, IH. reflexivity. Qed.
Lemma canon_stream full l : stream (canon full l) = concat full ++ c_view l.
Proof. unfold stream, canon. cbn [b_chains]. rewrite stream_app, view_fulls. cbn. rewrite app_nil_r. reflexivity. Qed.
Lemma canon_write full cur : length cur <= per ->
  write_last (canon full blank) cur = mkBuffer (map fullc full ++ [mkChain (write_at junk 0 cur) 0 per]) (S (length full)) max per (length (concat full)).
Proof.
  intros H. unfold write_last, canon. cbn [b_chains b_count b_max b_per b_use_len]. rewrite map_last_app.
  rewrite blank_written. cbn [c_data c_use c_unuse blank]. f_equal. lia.
Qed.
Lemma write_at_0 cur : length cur <= per -> write_at junk 0 cur = cur ++ skipn (length cur) junk.
Proof. reflexivity. Qed.
Lemma write_full cur : length cur = per -> write_at junk 0 cur = cur.
Proof. intros H. rewrite write_at_0 by lia. rewrite skipn_all2 by lia. apply app_nil_r. Qed.

Lemma canon_refill full cur : length cur = per ->
  update_buffer junk (write_last (canon full blank) cur) per =
    if max <=? S (length full) then Ok (UpdLimit (mkBuffer (map fullc full ++ [fullc cur]) (S (length full)) max per (length (concat full) + per)))
    else Ok (UpdSuccess (canon (full ++ [cur]) blank)).
Proof.
  intros H. rewrite canon_write by lia. rewrite write_full by lia. unfold update_buffer.
  cbn [update_loop b_chains b_count b_max b_per b_use_len]. rewrite last_opt_app. cbn [c_unuse].
  rewrite Nat.leb_refl. rewrite map_last_app. cbn [c_data c_use]. unfold add_chain. cbn [b_count b_max b_chains b_per b_use_len].
  destruct (Nat.leb_spec max (S (length full))); [reflexivity|].
  cbn [b_chains]. rewrite last_opt_app. cbn [c_unuse]. rewrite JJ, Nat.sub_diag.
  replace (per <=? 0) with false by (symmetry; apply Nat.leb_gt; lia).
  rewrite map_last_app. cbn [c_data c_use c_unuse b_count b_max b_per b_use_len]. unfold canon. rewrite blank_written.
  rewrite map_app, app_length, concat_app, app_length. cbn [map concat length]. rewrite app_nil_r, H, !Nat.sub_0_r, !Nat.add_0_r.
  replace (length full + 1) with (S (length full)) by lia. reflexivity.
Qed.
Lemma canon_final full cur : length cur < per ->
  update_buffer junk (write_last (canon full blank) cur) (length cur) =
    Ok (UpdSuccess (canon full (mkChain (write_at junk 0 cur) 0 (per - length cur)))).
Proof.
  intros H. rewrite canon_write by lia. unfold update_buffer.
  cbn [update_loop b_chains b_count b_max b_per b_use_len]. rewrite last_opt_app. cbn [c_unuse].
  replace (per <=? length cur) with false by (symmetry; apply Nat.leb_gt; lia).
  rewrite map_last_app. cbn [c_data c_use c_unuse]. unfold canon. do 3 f_equal.
  unfold c_written, c_len. cbn [c_data c_unuse]. rewrite write_at_length by lia. lia.
Qed.
Lemma final_view cur : length cur < per -> c_view (mkChain (write_at junk 0 cur) 0 (per - length cur)) = cur.
Proof.
  intros H. unfold c_view, c_written, c_len. cbn [c_data c_use c_unuse]. rewrite write_at_length by lia.
  replace (length junk - (per - length cur) - 0) with (length cur) by lia. cbn [skipn]. rewrite write_at_0 by lia.
  rewrite firstn_app, Nat.sub_diag, firstn_all. cbn. apply app_nil_r.
Qed.
Lemma canon_wf full l : Forall (fun d => length d = per) full -> S (length full) <= max ->
  c_len l = per -> 0 < c_unuse l <= per -> c_use l = 0 -> wf (canon full l).
Proof.
  intros F M L U Z. unfold wf. rewrite canon_stream. unfold canon. cbn [b_chains b_count b_max b_per b_use_len].
  split; [|split; [|split; [|split]]]; try assumption.
  - assert (G : forall f, wf_chains per f (map fullc full ++ [l])); [|apply G].
    induction F as [|d t Hd F IH]; intros f; cbn [map app].
    + cbn. rewrite Z. repeat split; try lia.
    + specialize (IH ltac:(cbn [length] in M; lia) false). destruct (map fullc t ++ [l]) eqn:E; [destruct t; discriminate E|].
      cbn [wf_chains]. unfold c_len, fullc. cbn [c_data c_unuse c_use]. repeat split; try lia. exact IH.
  - rewrite app_length, map_length. cbn. lia.
  - rewrite app_length. f_equal. rewrite c_view_length by lia. lia.
Qed.
Lemma concat_len full : Forall (fun d : list N => length d = per) full -> length (concat full) = length full * per.
Proof. induction 1 as [|d t Hd F IH]; cbn [concat length]; [lia|]. rewrite app_length, IH, Hd. lia. Qed.
End CANON.

(** ** The loops *)
Ltac dlia := repeat match goal with
  | |- context [?a / ?b] => let q := fresh "q" in set (q := a / b) in *; clearbody q
  | H : context [?a / ?b] |- _ => let q := fresh "q" in set (q := a / b) in *; clearbody q
  end; lia.
Section LOOP.
Variable k : kind.
Variable z : codec.
Variable per max : nat.
Variable junk : list N.
Hypothesis PP : 0 < per.
Hypothesis JJ : length junk = per.
Hypothesis KK : k = KGzip \/ k = KBr.
Variable enc : list N -> list N.
Variable data : list N.
Variable pend : z_state z -> list N -> list N.
Variable phase : z_state z -> option (list N) -> Prop.
Variable may_fail : Prop.
Hypothesis LAW : forall s ph inp fin av s' n out st, 0 < av -> phase s ph -> (forall r, ph = Some r -> fin = true /\ inp = r) ->
      z_step z s inp fin av = (s', n, out, st) ->
      (st = ZErr /\ may_fail) \/ (st <> ZErr /\
      n <= length inp /\ length out <= av /\
      phase s' (if fin then Some (skipn n inp) else None) /\
      (forall rest, (fin = true -> rest = []) -> pend s (inp ++ rest) = out ++ pend s' (skipn n inp ++ rest)) /\
      (st = ZEnd -> fin = true /\ n = length inp /\ pend s' [] = [] /\ z_close z s' = true) /\
      (st = ZOk -> length out = av \/ (fin = false /\ n = length inp)) /\
      (st = ZBuf -> fin = false /\ inp = [])).

Definition todo (s : zst z) : list N := if zfin z s then zin z s else zin z s ++ source_data (zsrc z s).
Record Inv (s : zst z) (full : list (list N)) : Prop := {
  i_buf : zbuf z s = canon per max full (blank per junk);
  i_full : Forall (fun d => length d = per) full;
  i_max : S (length full) <= max;
  i_orig : zorig z s = per;
  i_cont : zcont z s = length (concat full);
  i_cur : length (zcur z s) < per;
  i_phase : exists ph, phase (zs z s) ph /\ (forall r, ph = Some r -> zfin z s = true /\ zin z s = r);
  i_body : match zsrc z s with FromBody _ => zfin z s = false -> zin z s = [] | FromFile _ => True end;
  i_owed : concat full ++ zcur z s ++ pend (zs z s) (todo s) = enc data }.
(** After a fetch: input is there unless the end was reached. *)
Definition fetched (s : zst z) : Prop := zfin z s = true \/ (zin z s <> [] /\ exists d, zsrc z s = FromFile d).
(** The number of iterations left. *)
Definition left (s : zst z) (full : list (list N)) : nat :=
  (max - length full) + (if zfin z s then 0 else S (length (source_data (zsrc z s)) / per) + match zin z s with [] => 0 | _ => 1 end).

Lemma fetch_inv s full : Inv s full -> (k = KBr -> zfin z s = false) ->
  Inv (fetch k z per s) full /\ fetched (fetch k z per s) /\ left (fetch k z per s) full <= left s full /\
  (zfin z s = false -> zfin z (fetch k z per s) = true -> left (fetch k z per s) full < left s full).
Proof.
  intros I B. destruct s as [st inp src fin b cur orig cont]. destruct I as [I1 I2 I3 I4 I5 I6 I7 I8 I9].
  cbn [zs zin zsrc zfin zbuf zcur zorig zcont] in *. unfold fetch, todo, left in *. cbn [zs zin zsrc zfin zbuf zcur zorig zcont] in *.
  set (want := match k with KBr => true | _ => negb fin end).
  assert (WW : want = negb fin).
  { subst want. destruct KK as [->| ->]; [reflexivity|]. rewrite (B eq_refl). reflexivity. }
  rewrite WW. clear want WW. destruct fin; cbn [negb andb].
  - split; [constructor; cbn; auto|]. split; [left; reflexivity|]. split; [cbn; lia|]. discriminate.
  - destruct I7 as (ph & P1 & P2). assert (ph = None) as -> by (destruct ph as [r|]; [destruct (P2 r eq_refl); discriminate|reflexivity]).
    destruct inp as [|x inp].
    + destruct src as [d|d].
      * split; [constructor; cbn [zs zin zsrc zfin zbuf zcur zorig zcont]; auto; try discriminate|].
        { exists None. split; [exact P1|discriminate]. }
        split; [left; reflexivity|]. cbn [zfin zin]. split; [dlia|]. intros _ _. dlia.
      * set (f := match k with KDeflate => false | _ => length (firstn per d) <? per end).
        assert (FF : f = (length (firstn per d) <? per)) by (subst f; destruct KK as [->| ->]; reflexivity).
        rewrite FF. clear f FF. rewrite firstn_length. cbn [source_data] in *.
        assert (SK : length d < per -> skipn per d = []) by (intros; apply skipn_all2; lia).
        assert (FK : length d < per -> firstn per d = d) by (intros; apply firstn_all2; lia).
        cbn [app] in I9.
        destruct (Nat.ltb_spec (Nat.min per (length d)) per) as [Y|Y].
        -- split; [constructor; cbn [zs zin zsrc zfin zbuf zcur zorig zcont]; auto; try discriminate|].
           { exists None. split; [exact P1|discriminate]. }
           { unfold todo. cbn [zfin zin]. rewrite FK by lia. exact I9. }
           split; [left; reflexivity|]. cbn [zfin zin]. split; [dlia|]. intros _ _. dlia.
        -- split; [constructor; cbn [zs zin zsrc zfin zbuf zcur zorig zcont]; auto; try discriminate|].
           { exists None. split; [exact P1|discriminate]. }
           { unfold todo. cbn [zfin zin zsrc source_data]. rewrite firstn_skipn. exact I9. }
           split; [right; cbn [zin zsrc]; split; [|eauto]; intros X; apply (f_equal (@length N)) in X; rewrite firstn_length in X; cbn in X; lia|].
           cbn [zfin zin zsrc source_data]. rewrite skipn_length.
           assert (D : length d / per = S ((length d - per) / per)).
           { replace (length d) with ((length d - per) + 1 * per) at 1 by lia. rewrite Nat.div_add by lia. lia. }
           rewrite D. clear D. split; [destruct (firstn per d); dlia|]. discriminate.
    + split; [constructor; cbn; auto; exists None; split; [exact P1|discriminate]|].
      split; [right; cbn [zin zsrc]; split; [discriminate|]; destruct src as [d|d]; [discriminate (I8 eq_refl)|eauto]|].
      split; [cbn; lia|]. discriminate.
Qed.

(** The end: nothing more is owed. *)
Record Fin (s : zst z) (full : list (list N)) : Prop := {
  f_buf : zbuf z s = canon per max full (blank per junk);
  f_full : Forall (fun d => length d = per) full;
  f_max : S (length full) <= max;
  f_cont : zcont z s = length (concat full);
  f_cur : length (zcur z s) <= per;
  f_close : z_close z (zs z s) = true;
  f_data : concat full ++ zcur z s = enc data }.

Lemma step_inv s full : Inv s full -> (k = KBr -> zfin z s = false) ->
  (exists s' full', zstep k z per junk s = Ok (ZNext z s') /\ Inv s' full' /\ left s' full' < left s full /\ (zfin z s' = true -> length full' = S (length full))) \/
  (exists s', zstep k z per junk s = Ok (ZStop z s') /\ Fin s' full) \/
  (exists st, zstep k z per junk s = Ok (ZRet z (buffer_error k z st)) /\ max * per <= length (enc data)) \/
  (zstep k z per junk s = Ok (ZRet z EError) /\ may_fail).
Proof.
  intros I B. destruct (fetch_inv s full I B) as (I1 & F1 & L1 & L2). unfold zstep. set (s1 := fetch k z per s) in *.
  assert (FM : zfin z s1 = true -> zfin z s = false \/ s1 = s).
  { destruct (zfin z s) eqn:E; auto. intros _. right. subst s1. unfold fetch. rewrite E. cbn [negb andb].
    destruct KK as [X| X]; rewrite X in *; [reflexivity|]. discriminate (B eq_refl). }
  clearbody s1. destruct I1 as [J1 J2 J3 J4 J5 J6 (ph & P1 & P2) J8 J9].
  destruct (z_step z (zs z s1) (zin z s1) (zfin z s1) (zorig z s1 - length (zcur z s1))) as [[[st n] out] status] eqn:E.
  assert (AV : 0 < zorig z s1 - length (zcur z s1)) by lia.
  destruct (LAW _ ph _ _ _ _ _ _ _ AV P1 P2 E) as [[-> MF]|(A1 & A2 & A3 & A4 & A5 & A6 & A7 & A8)]; [right; right; right; split; [reflexivity|exact MF]|].
  assert (OW : concat full ++ (zcur z s1 ++ out) ++ pend st (if zfin z s1 then skipn n (zin z s1) else skipn n (zin z s1) ++ source_data (zsrc z s1)) = enc data).
  { rewrite <- J9. unfold todo. rewrite <- app_assoc. f_equal. f_equal. destruct (zfin z s1) eqn:Z.
    - specialize (A5 [] (fun _ => eq_refl)). rewrite !app_nil_r in A5. symmetry. exact A5.
    - symmetry. apply A5. discriminate. }
  set (s2 := mkZ z st (skipn n (zin z s1)) (zsrc z s1) (zfin z s1) (zbuf z s1) (zcur z s1 ++ out) (zorig z s1) (zcont z s1)).
  assert (PH : exists ph', phase st ph' /\ (forall r, ph' = Some r -> zfin z s1 = true /\ skipn n (zin z s1) = r)).
  { eexists. split; [exact A4|]. destruct (zfin z s1); [|discriminate]. intros r [= <-]. auto. }
  assert (RF : status = ZOk ->
    (exists s' full', refill k z junk s2 = Ok (ZNext z s') /\ Inv s' full' /\ left s' full' < left s full /\ (zfin z s' = true -> length full' = S (length full))) \/
    (exists st', refill k z junk s2 = Ok (ZRet z (buffer_error k z st')) /\ max * per <= length (enc data))).
  { intros SO. unfold refill. subst s2. cbn [zs zin zsrc zfin zbuf zcur zorig zcont]. rewrite app_length.
    assert (LB : zfin z s1 = true \/ zin z s1 <> []) by (destruct F1 as [F1|[F1 _]]; auto).
    destruct (Nat.ltb_spec (length (zcur z s1) + length out) (zorig z s1)) as [Y|Y].
    - left. destruct (A7 SO) as [X|[X1 X2]]; [lia|].
      assert (SK : skipn n (zin z s1) = []) by (apply skipn_all2; lia).
      eexists _, full. split; [reflexivity|]. split.
      + constructor; cbn [zs zin zsrc zfin zbuf zcur zorig zcont]; auto.
        * rewrite app_length. lia.
        * destruct (zsrc z s1); auto.
      + unfold left in *. cbn [zfin zin zsrc]. rewrite SK. destruct F1 as [F1|[F1 _]]; [congruence|]. rewrite X1 in *.
        destruct (zin z s1); [destruct (F1 eq_refl)|]. split; [dlia|discriminate].
    - assert (LC : length (zcur z s1 ++ out) = per) by (rewrite app_length; lia).
      assert (UP : match k with KDeflate => match zsrc z s1 with FromBody _ => UB NullDeref | FromFile _ => Ok (ZRet z EError) end
                   | _ => obind (update_buffer junk (write_last (zbuf z s1) (zcur z s1 ++ out)) (last_act (zbuf z s1))) (fun r => match r with
                       | UpdLimit _ => Ok (ZRet z (buffer_error k z st))
                       | UpdSuccess b' => Ok (ZNext z (mkZ z st (skipn n (zin z s1)) (zsrc z s1) (zfin z s1) b' [] (lunuse_len b') (zcont z s1 + last_act (zbuf z s1))))
                       end) end =
                   obind (update_buffer junk (write_last (zbuf z s1) (zcur z s1 ++ out)) (last_act (zbuf z s1))) (fun r => match r with
                       | UpdLimit _ => Ok (ZRet z (buffer_error k z st))
                       | UpdSuccess b' => Ok (ZNext z (mkZ z st (skipn n (zin z s1)) (zsrc z s1) (zfin z s1) b' [] (lunuse_len b') (zcont z s1 + last_act (zbuf z s1))))
                       end)) by (destruct KK as [->| ->]; reflexivity).
      rewrite UP. clear UP. rewrite J1. rewrite (canon_act per max junk PP JJ). rewrite (canon_refill per max junk PP JJ) by exact LC.
      destruct (Nat.leb_spec max (S (length full))) as [M|M]; cbn [obind].
      + right. eexists. split; [reflexivity|]. rewrite <- OW. rewrite !app_length, (concat_len per junk PP JJ) by exact J2.
        rewrite app_length in LC. assert (MX : max = S (length full)) by lia. rewrite MX. nia.
      + left. eexists _, (full ++ [zcur z s1 ++ out]). split; [reflexivity|]. rewrite (canon_lunuse per max junk).
        split.
        * constructor; cbn [zs zin zsrc zfin zbuf zcur zorig zcont]; auto.
          -- apply Forall_app. auto.
          -- rewrite app_length. cbn. lia.
          -- rewrite concat_app, app_length, J5. cbn [concat]. rewrite app_nil_r. lia.
          -- destruct (zsrc z s1); auto. intros X. rewrite (J8 X). apply skipn_nil.
          -- rewrite concat_app. cbn [concat app]. rewrite app_nil_r, <- app_assoc. exact OW.
        * unfold left in *. cbn [zfin zin zsrc]. rewrite app_length. cbn [length]. split; [|intros _; lia].
          assert (X : match skipn n (zin z s1) with [] => 0 | _ :: _ => 1 end <= match zin z s1 with [] => 0 | _ :: _ => 1 end).
          { destruct (zin z s1); [rewrite skipn_nil; lia|]. destruct (skipn n _); lia. }
          destruct (zfin z s1); dlia. }
  destruct status.
  - destruct (RF eq_refl) as [R|R]; [left; exact R|right; right; left; exact R].
  - destruct (A6 eq_refl) as (X1 & X2 & X3 & X4). right. left. eexists. split; [reflexivity|].
    rewrite X1, X2, skipn_all in OW. rewrite X3, app_nil_r in OW.
    subst s2. constructor; cbn [zs zin zsrc zfin zbuf zcur zorig zcont]; auto. rewrite app_length. lia.
  - destruct (A8 eq_refl) as (X1 & X2). destruct F1 as [F1|[F1 _]]; [rewrite X1 in F1; discriminate F1|destruct (F1 X2)].
  - destruct (A1 eq_refl).
Qed.

Lemma finish_inv s full : Fin s full ->
  (exists b, zfinish k z junk (ZStop z s) = Ok (EOk b (length (enc data))) /\ wf b /\ stream b = enc data /\ length (enc data) < max * per) \/
  (zfinish k z junk (ZStop z s) = Ok (buffer_error k z (zs z s)) /\ max * per <= length (enc data)).
Proof.
  intros [F1 F2 F3 F4 F5 F6 F7]. unfold zfinish. rewrite F1, F6.
  assert (CL : match k with KBr => true | _ => true end = true) by (destruct k; reflexivity). rewrite CL. clear CL.
  pose proof (concat_len per junk PP JJ full F2) as CL.
  assert (LE : length (enc data) = length full * per + length (zcur z s)) by (rewrite <- F7, app_length; lia).
  destruct (Nat.eq_dec (length (zcur z s)) per) as [Y|Y].
  - rewrite Y. rewrite (canon_refill per max junk PP JJ) by exact Y. destruct (Nat.leb_spec max (S (length full))) as [M|M]; cbn [obind].
    + right. split; [reflexivity|]. assert (max = S (length full)) by lia. rewrite LE, Y. nia.
    + left. eexists. split; [rewrite LE, Y, F4, CL; reflexivity|]. split; [|split].
      * apply (canon_wf per max junk PP JJ); try reflexivity; [apply Forall_app; auto|rewrite app_length; cbn; lia| |cbn; lia].
        unfold c_len, blank. cbn. exact JJ.
      * rewrite canon_stream, <- F7. rewrite concat_app. cbn [concat]. rewrite app_nil_r.
        unfold c_view. rewrite (blank_written per junk) by assumption. cbn. apply app_nil_r.
      * rewrite LE, Y. assert (length full + 1 < max) by lia. nia.
  - rewrite (canon_final per max junk PP JJ) by lia. cbn [obind]. left. eexists. split; [rewrite LE, F4, CL; reflexivity|]. split; [|split].
    + apply (canon_wf per max junk PP JJ); try reflexivity; auto; [|cbn; lia].
      unfold c_len. cbn [c_data]. rewrite write_at_length; lia.
    + rewrite canon_stream, (final_view per junk) by lia. exact F7.
    + rewrite LE. assert (length full < max) by lia. nia.
Qed.
Lemma gzip_loop : k = KGzip -> forall fuel s full, Inv s full -> left s full < fuel ->
  (exists b, obind (zloop k z per junk fuel s) (zfinish k z junk) = Ok (EOk b (length (enc data))) /\ wf b /\ stream b = enc data /\ length (enc data) < max * per) \/
  (exists st, obind (zloop k z per junk fuel s) (zfinish k z junk) = Ok (buffer_error k z st) /\ max * per <= length (enc data)) \/
  (obind (zloop k z per junk fuel s) (zfinish k z junk) = Ok EError /\ may_fail).
Proof.
  intros KG. induction fuel as [|f IH]; intros s full I L; [lia|].
  assert (LP : zloop k z per junk (S f) s = obind (zstep k z per junk s) (fun r => match r with ZNext _ s' => zloop k z per junk f s' | r => Ok r end)).
  { cbn [zloop]. destruct k; try reflexivity. discriminate KG. }
  rewrite LP. clear LP.
  destruct (step_inv s full I ltac:(rewrite KG; discriminate)) as [(s' & full' & -> & I' & L' & _)|[(s' & -> & F)|[(st & -> & X)|(-> & MF)]]]; cbn [obind].
  - apply (IH s' full' I'). lia.
  - destruct (finish_inv s' full F) as [X|[X Y]]; [left; exact X|right; left; eauto].
  - right. left. exists st. split; [reflexivity|exact X].
  - right. right. split; [reflexivity|exact MF].
Qed.
(** Brotli: as long as the encoded form fits into the first block, and only then. *)
Lemma br_loop : k = KBr -> length (enc data) < per -> 0 < max -> forall fuel s full, Inv s full -> zfin z s = false -> left s full < fuel ->
  (exists b, obind (zloop k z per junk fuel s) (zfinish k z junk) = Ok (EOk b (length (enc data))) /\ wf b /\ stream b = enc data) \/
  (obind (zloop k z per junk fuel s) (zfinish k z junk) = Ok EError /\ may_fail).
Proof.
  intros KB SM MP. induction fuel as [|f IH]; intros s full I ZF L; [lia|].
  assert (LP : zloop k z per junk (S f) s = obind (zstep k z per junk s) (fun r => match r with ZNext _ s' => zloop k z per junk f s' | r => Ok r end)).
  { cbn [zloop]. rewrite ZF. destruct k; reflexivity. }
  rewrite LP. clear LP. assert (MG : per <= max * per) by nia.
  destruct (step_inv s full I (fun _ => ZF)) as [(s' & full' & E & I' & L' & G)|[(s' & -> & F)|[(st & -> & X)|(-> & MF)]]]; cbn [obind].
  - rewrite E. cbn [obind]. destruct (zfin z s') eqn:Z'; [|apply (IH s' full' I' Z'); lia]. exfalso.
    pose proof (i_owed _ _ I') as O. apply (f_equal (@length N)) in O. rewrite !app_length, (concat_len per junk PP JJ full' (i_full _ _ I')), (G eq_refl) in O. nia.
  - destruct (finish_inv s' full F) as [(b & X1 & X2 & X3 & _)|[X Y]]; [left; exists b; auto|lia].
  - lia.
  - right. split; [reflexivity|exact MF].
Qed.
End LOOP.

(** ** The encoders *)
Lemma start_inv z per max junk enc src pend (phase : z_state z -> option (list N) -> Prop) : 0 < per -> 0 < max -> length junk = per ->
  phase (z_init z) None -> (forall d, pend (z_init z) d = enc d) ->
  exists b, buf_init junk 1 max per = Some b /\ last_act b = per /\
    Inv z per max junk enc (source_data src) pend phase (mkZ z (z_init z) [] src false b [] (last_act b) 0) [].
Proof.
  intros P M J I0 E0. unfold buf_init. cbn [init_chains]. unfold add_chain; cbn [b_max b_count].
  replace (max <=? 0) with false by (symmetry; apply Nat.leb_gt; lia).
  eexists. split; [reflexivity|]. cbn [b_chains app].
  assert (LA : last_act (mkBuffer [mkChain junk 0 (length junk)] 1 max per 0) = per) by (unfold last_act, c_act, c_len; cbn; lia).
  split; [exact LA|]. constructor; cbn [zs zin zsrc zfin zbuf zcur zorig zcont]; auto.
  - unfold canon, blank, c_written, c_len. cbn [map app length concat c_data c_unuse b_chains b_count b_max b_per b_use_len]. rewrite J, Nat.sub_diag. reflexivity.
  - exists None. split; [exact I0|discriminate].
  - destruct src; auto.
  - unfold todo. cbn. apply E0.
Qed.
Lemma left_start z per max src b n : 0 < max -> left z per max (mkZ z (z_init z) [] src false b [] n 0) [] < zfuel per max src.
Proof. intros M. unfold left, zfuel. cbn [zfin zin zsrc length]. dlia. Qed.

Lemma gzip_fails z enc per max junk src : fallible z enc -> 0 < per -> 0 < max -> length junk = per ->
  (exists b, encode KGzip z per junk max src = Ok (EOk b (length (enc (source_data src)))) /\ wf b /\ stream b = enc (source_data src) /\
     length (enc (source_data src)) < max * per) \/
  (encode KGzip z per junk max src = Ok EBuffer /\ max * per <= length (enc (source_data src))) \/
  encode KGzip z per junk max src = Ok EError.
Proof.
  intros (pend & phase & L1 & L2 & LAW) P M J. unfold encode.
  destruct (start_inv z per max junk enc src pend phase P M J L1 L2) as (b & -> & A & I).
  pose proof (left_start z per max src b (last_act b) M) as LS.
  refine (match gzip_loop KGzip z per max junk P J (or_introl eq_refl) enc (source_data src) pend phase True _ eq_refl _ _ _ I LS with
    or_introl X => or_introl X | or_intror X => or_intror _ end).
  - intros s ph inp fin av s' n out st A1 B1 C1 E. destruct st; try (right; split; [discriminate|]; apply (LAW _ _ _ _ _ _ _ _ _ A1 B1 C1 E); discriminate). left. auto.
  - destruct X as [(st & E & GE)|(E & _)]; [|right; exact E]. rewrite E. unfold buffer_error. destruct (z_close z st); auto.
Qed.
Lemma gzip_exact z enc per max junk src : lawful z enc -> 0 < per -> 0 < max -> length junk = per ->
  if length (enc (source_data src)) <? max * per
  then exists b, encode KGzip z per junk max src = Ok (EOk b (length (enc (source_data src)))) /\ wf b /\ stream b = enc (source_data src)
  else encode KGzip z per junk max src = Ok EBuffer \/ encode KGzip z per junk max src = Ok EError.
Proof.
  intros (pend & phase & L1 & L2 & LAW) P M J. unfold encode.
  destruct (start_inv z per max junk enc src pend phase P M J L1 L2) as (b & -> & A & I).
  pose proof (left_start z per max src b (last_act b) M) as LS.
  destruct (gzip_loop KGzip z per max junk P J (or_introl eq_refl) enc (source_data src) pend phase False
    (fun s ph inp fin av s' n out st A B C E => or_intror (LAW s ph inp fin av s' n out st A B C E)) eq_refl _ _ _ I LS) as [(b' & E & W & S1 & LT)|[(st & E & GE)|(_ & [])]].
  - replace (length (enc (source_data src)) <? max * per) with true by (symmetry; apply Nat.ltb_lt; exact LT). eauto.
  - replace (length (enc (source_data src)) <? max * per) with false by (symmetry; apply Nat.ltb_ge; exact GE). rewrite E.
    unfold buffer_error. destruct (z_close z st); auto.
Qed.
Lemma br_fails z enc per max junk src : fallible z enc -> 0 < per -> 0 < max -> length junk = per -> length (enc (source_data src)) < per ->
  (exists b, encode KBr z per junk max src = Ok (EOk b (length (enc (source_data src)))) /\ wf b /\ stream b = enc (source_data src)) \/
  encode KBr z per junk max src = Ok EError.
Proof.
  intros (pend & phase & L1 & L2 & LAW) P M J SM. unfold encode.
  destruct (start_inv z per max junk enc src pend phase P M J L1 L2) as (b & -> & A & I).
  pose proof (left_start z per max src b (last_act b) M) as LS.
  refine (match br_loop KBr z per max junk P J (or_intror eq_refl) enc (source_data src) pend phase True _ eq_refl SM M _ _ _ I eq_refl LS with
    or_introl X => or_introl X | or_intror X => or_intror (proj1 X) end).
  intros s ph inp fin av s' n out st A1 B1 C1 E. destruct st; try (right; split; [discriminate|]; apply (LAW _ _ _ _ _ _ _ _ _ A1 B1 C1 E); discriminate). left. auto.
Qed.
Lemma br_small z enc per max junk src : lawful z enc -> 0 < per -> 0 < max -> length junk = per -> length (enc (source_data src)) < per ->
  exists b, encode KBr z per junk max src = Ok (EOk b (length (enc (source_data src)))) /\ wf b /\ stream b = enc (source_data src).
Proof.
  intros (pend & phase & L1 & L2 & LAW) P M J SM. unfold encode.
  destruct (start_inv z per max junk enc src pend phase P M J L1 L2) as (b & -> & A & I).
  pose proof (left_start z per max src b (last_act b) M) as LS.
  destruct (br_loop KBr z per max junk P J (or_intror eq_refl) enc (source_data src) pend phase False
    (fun s ph inp fin av s' n out st A B C E => or_intror (LAW s ph inp fin av s' n out st A B C E)) eq_refl SM M _ _ _ I eq_refl LS) as [X|(_ & [])]. exact X.
Qed.
(** One call on a body in memory. *)
Lemma body_call z (enc : list N -> list N) per d (pend : z_state z -> list N -> list N) (phase : z_state z -> option (list N) -> Prop) : 0 < per ->
  (forall d, pend (z_init z) d = enc d) -> phase (z_init z) None ->
  (forall s ph inp fin av s' n out st, 0 < av -> phase s ph -> (forall r, ph = Some r -> fin = true /\ inp = r) ->
      z_step z s inp fin av = (s', n, out, st) ->
      st <> ZErr /\ n <= length inp /\ length out <= av /\
      phase s' (if fin then Some (skipn n inp) else None) /\
      (forall rest, (fin = true -> rest = []) -> pend s (inp ++ rest) = out ++ pend s' (skipn n inp ++ rest)) /\
      (st = ZEnd -> fin = true /\ n = length inp /\ pend s' [] = [] /\ z_close z s' = true) /\
      (st = ZOk -> length out = av \/ (fin = false /\ n = length inp)) /\
      (st = ZBuf -> fin = false /\ inp = [])) ->
  exists s' n out st, z_step z (z_init z) d true per = (s', n, out, st) /\
    ((st = ZEnd /\ out = enc d /\ z_close z s' = true /\ length out <= per) \/ (st = ZOk /\ length out = per /\ out = firstn per (enc d) /\ per <= length (enc d))).
Proof.
  intros P E0 I0 LAW. destruct (z_step z (z_init z) d true per) as [[[s' n] out] st] eqn:E.
  destruct (LAW _ None _ _ _ _ _ _ _ P I0 ltac:(discriminate) E) as (A1 & A2 & A3 & A4 & A5 & A6 & A7 & A8).
  specialize (A5 [] (fun _ => eq_refl)). rewrite !app_nil_r, E0 in A5.
  exists s', n, out, st. split; [reflexivity|]. destruct st.
  - right. destruct (A7 eq_refl) as [X|[X _]]; [|discriminate X]. split; [reflexivity|]. split; [exact X|]. rewrite A5. split.
    + rewrite firstn_app, firstn_all2 by lia. replace (per - length out) with 0 by lia. cbn. symmetry. apply app_nil_r.
    + rewrite app_length. lia.
  - left. destruct (A6 eq_refl) as (X1 & X2 & X3 & X4). rewrite X2, skipn_all, X3, app_nil_r in A5. auto.
  - destruct (A8 eq_refl) as [X _]. discriminate X.
  - destruct (A1 eq_refl).
Qed.
Lemma br_truncates z enc per max junk d : lawful z enc -> 0 < per -> 1 < max -> length junk = per -> per < length (enc d) ->
  exists b, encode KBr z per junk max (FromBody d) = Ok (EOk b per) /\ wf b /\ stream b = firstn per (enc d).
Proof.
  intros (pend & phase & L1 & L2 & LAW) P M J BIG. unfold encode.
  destruct (start_inv z per max junk enc (FromBody d) pend phase P ltac:(lia) J L1 L2) as (b & -> & A & I).
  destruct I as [I1 _ _ I4 _ _ _ _ _]. cbn [zbuf zorig] in *. rewrite I4.
  unfold zfuel. replace (length (source_data (FromBody d)) / per + max + 4) with (S (S (length (source_data (FromBody d)) / per + max + 2))) by dlia.
  cbn [zloop zfin]. unfold zstep, fetch. cbn [zs zin zsrc zfin zbuf zcur zorig zcont andb length app]. rewrite Nat.sub_0_r.
  destruct (body_call z enc per d pend phase P L2 L1 LAW) as (s' & n & out & st & -> & [(-> & X & _ & Y)|(-> & X & Y & _)]).
  - rewrite X in Y. lia.
  - cbn [obind]. unfold refill. cbn [zs zin zsrc zfin zbuf zcur zorig zcont]. rewrite X, Nat.ltb_irrefl.
    rewrite I1, (canon_act per max junk P J), (canon_refill per max junk P J) by exact X.
    replace (max <=? S (@length (list N) [])) with false by (symmetry; apply Nat.leb_gt; cbn; lia).
    cbn [obind zfin]. unfold zfinish. cbn [zs zin zsrc zfin zbuf zcur zorig zcont length].
    rewrite (canon_final per max junk P J) by (cbn; lia). cbn [obind]. rewrite !Nat.add_0_r, Nat.add_0_l.
    eexists. split; [reflexivity|]. split.
    + apply (canon_wf per max junk P J); try reflexivity; [constructor; [exact X|constructor]|cbn; lia| |cbn; lia].
      unfold c_len. cbn [c_data]. rewrite write_at_length; cbn; lia.
    + rewrite canon_stream, (final_view per junk) by (cbn; lia). cbn. rewrite !app_nil_r. exact Y.
Qed.
Lemma deflate_small z enc per max junk d : lawful z enc -> 0 < per -> 0 < max -> length junk = per -> length (enc d) < per ->
  exists b, encode KDeflate z per junk max (FromBody d) = Ok (EOk b (length (enc d))) /\ wf b /\ stream b = enc d.
Proof.
  intros (pend & phase & L1 & L2 & LAW) P M J SM. unfold encode.
  destruct (start_inv z per max junk enc (FromBody d) pend phase P M J L1 L2) as (b & -> & A & I).
  destruct I as [I1 _ _ I4 _ _ _ _ _]. cbn [zbuf zorig] in *. rewrite I4.
  unfold zfuel. replace (length (source_data (FromBody d)) / per + max + 4) with (S (length (source_data (FromBody d)) / per + max + 3)) by dlia.
  cbn [zloop zfin]. unfold zstep, fetch. cbn [zs zin zsrc zfin zbuf zcur zorig zcont andb negb length app]. rewrite Nat.sub_0_r.
  destruct (body_call z enc per d pend phase P L2 L1 LAW) as (s' & n & out & st & -> & [(-> & X & Y & _)|(-> & _ & _ & Y)]); [|lia].
  cbn [obind]. unfold zfinish. cbn [zs zin zsrc zfin zbuf zcur zorig zcont]. rewrite X, I1.
  rewrite (canon_final per max junk P J) by lia. cbn [obind]. rewrite Y, Nat.add_0_l.
  eexists. split; [reflexivity|]. split.
  - apply (canon_wf per max junk P J); try reflexivity; auto; [|cbn; lia]. unfold c_len. cbn [c_data]. rewrite write_at_length; lia.
  - rewrite canon_stream, (final_view per junk) by lia. reflexivity.
Qed.
Lemma deflate_large z enc per max junk d : lawful z enc -> 0 < per -> 0 < max -> length junk = per -> per < length (enc d) ->
  encode KDeflate z per junk max (FromBody d) = UB NullDeref.
Proof.
  intros (pend & phase & L1 & L2 & LAW) P M J BIG. unfold encode.
  destruct (start_inv z per max junk enc (FromBody d) pend phase P M J L1 L2) as (b & -> & A & I).
  destruct I as [I1 _ _ I4 _ _ _ _ _]. cbn [zbuf zorig] in *. rewrite I4.
  unfold zfuel. replace (length (source_data (FromBody d)) / per + max + 4) with (S (length (source_data (FromBody d)) / per + max + 3)) by dlia.
  cbn [zloop zfin]. unfold zstep, fetch. cbn [zs zin zsrc zfin zbuf zcur zorig zcont andb negb length app]. rewrite Nat.sub_0_r.
  destruct (body_call z enc per d pend phase P L2 L1 LAW) as (s' & n & out & st & -> & [(-> & X & _ & Y)|(-> & X & _ & _)]); [rewrite X in Y; lia|].
  cbn [obind]. unfold refill. cbn [zs zin zsrc zfin zbuf zcur zorig zcont]. rewrite X, Nat.ltb_irrefl. reflexivity.
Qed.
Lemma deflate_file z enc per max junk d : lawful z enc -> 0 < per -> 0 < max -> length junk = per ->
  forall b n, encode KDeflate z per junk max (FromFile d) <> Ok (EOk b n).
Proof.
  intros (pend & phase & L1 & L2 & LAW) P M J b n.  unfold encode.
  destruct (start_inv z per max junk enc (FromFile d) pend phase P M J L1 L2) as (b0 & -> & A & I).
  destruct I as [_ _ _ I4 _ _ _ _ _]. cbn [zorig] in I4. rewrite I4. clear A I4.
  assert (G : forall fuel s, zfin z s = false -> (exists d, zsrc z s = FromFile d) -> zorig z s = per -> length (zcur z s) < per -> phase (zs z s) None ->
    match zloop KDeflate z per junk fuel s with Ok (ZStop _ _) => False | Ok (ZRet _ (EOk _ _)) => False | _ => True end).
  { clear b n b0 d. induction fuel as [|f IH]; intros s ZF [d ZS] ZO ZC ZP; cbn [zloop]; [exact Logic.I|].
    unfold zstep. set (s1 := fetch KDeflate z per s).
    assert (X : zfin z s1 = false /\ (exists d, zsrc z s1 = FromFile d) /\ zs z s1 = zs z s /\ zorig z s1 = per /\ zcur z s1 = zcur z s).
    { subst s1. unfold fetch. rewrite ZF. cbn [negb andb]. destruct (zin z s); [|eauto 8]. rewrite ZS. cbn. eauto 8. }
    clearbody s1. destruct X as (X1 & X2 & X3 & X4 & X5). rewrite X1.
    destruct (z_step z (zs z s1) (zin z s1) false (zorig z s1 - length (zcur z s1))) as [[[st n] out] status] eqn:E.
    assert (AV : 0 < zorig z s1 - length (zcur z s1)) by (rewrite X4, X5; lia).
    rewrite <- X3 in ZP.
    destruct (LAW _ None _ _ _ _ _ _ _ AV ZP ltac:(discriminate) E) as (A1 & A2 & A3 & A4 & A5 & A6 & A7 & A8).
    destruct status.
    - unfold refill. cbn [zs zin zsrc zfin zbuf zcur zorig zcont]. rewrite app_length.
      destruct (Nat.ltb_spec (length (zcur z s1) + length out) (zorig z s1)) as [Y|Y]; cbn [obind].
      + apply IH; cbn [zs zin zsrc zfin zbuf zcur zorig zcont]; auto. rewrite app_length. lia.
      + destruct X2 as [d' ->]. exact Logic.I.
    - destruct (A6 eq_refl) as [X _]. discriminate X.
    - cbn [obind]. unfold buffer_error. destruct (z_close z st); exact Logic.I.
    - destruct (A1 eq_refl). }
  specialize (G (zfuel per max (FromFile d)) (mkZ z (z_init z) [] (FromFile d) false b0 [] per 0) eq_refl (ex_intro _ d eq_refl) eq_refl P L1).
  destruct (zloop _ _ _ _ _ _) as [[s|s|r]|u]; cbn [obind zfinish]; try discriminate; [destruct G|].
  destruct r; [destruct G|discriminate|discriminate].
Qed.

(** ** A lawful compressor: a marker byte followed by the data as they are *)
Definition stored : codec := mkCodec (list N) [31%N]
  (fun s inp fin av => (skipn av (s ++ inp), length inp, firstn av (s ++ inp),
     if fin then match skipn av (s ++ inp) with [] => ZEnd | _ => ZOk end else ZOk))
  (fun _ => true).
Lemma stored_lawful : lawful stored (fun d => 31%N :: d).
Proof.
  exists (fun s d => s ++ d), (fun _ _ => True). split; [exact Logic.I|]. split; [reflexivity|].
  intros s ph inp fin av s' n out st AV _ _ [= <- <- <- <-].
  split; [destruct fin; [destruct (skipn _ _)|]; discriminate|]. split; [lia|]. split; [rewrite firstn_length; lia|]. split; [exact Logic.I|].
  split; [|split; [|split]].
  - intros rest _. rewrite skipn_all. cbn [app]. rewrite !app_assoc, firstn_skipn. reflexivity.
  - destruct fin; [|discriminate]. destruct (skipn av (s ++ inp)) eqn:E; [|discriminate]. auto.
  - destruct fin; [|auto]. destruct (skipn av (s ++ inp)) eqn:E; [discriminate|]. intros _. left.
    apply (f_equal (@length N)) in E. rewrite skipn_length in E. rewrite firstn_length. cbn [length] in E. lia.
  - destruct fin; [destruct (skipn _ _)|]; discriminate.
Qed.
(** A compressor that fails on a zero byte. *)
Definition brittle : codec := mkCodec (list N) [31%N]
  (fun s inp fin av => if existsb (N.eqb 0) inp then (s, 0, firstn av s, ZErr) else z_step stored s inp fin av)
  (fun _ => true).
Lemma brittle_fallible : fallible brittle (fun d => 31%N :: d).
Proof.
  destruct (lawful_fallible _ _ stored_lawful) as (pend & phase & L1 & L2 & L). exists pend, phase. split; [exact L1|]. split; [exact L2|].
  intros s ph inp fin av s' n out st A B C E NE. cbn [brittle z_step] in E. destruct (existsb _ inp).
  - injection E as <- <- <- <-. destruct (NE eq_refl).
  - exact (L s ph inp fin av s' n out st A B C E NE).
Qed.
