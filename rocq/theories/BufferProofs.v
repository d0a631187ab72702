From Verif Require Import Base Buffer.

(** ** Well-formed chains *)
Fixpoint wf_chains (per : nat) (first : bool) (cs : list chain) : Prop :=
  match cs with
  | [] => False
  | [c] => c_len c = per /\ 0 < c_unuse c <= per /\ c_use c <= c_written c /\ (first = false -> c_use c = 0)
  | c :: t => c_len c = per /\ c_unuse c = 0 /\ c_use c < per /\ (first = false -> c_use c = 0)
              /\ wf_chains per false t
  end.

Definition wf (b : buffer) : Prop :=
  wf_chains (b_per b) true (b_chains b) /\ b_count b = length (b_chains b)
  /\ b_count b <= b_max b /\ b_use_len b = length (stream b) /\ 0 < b_per b.

Lemma wf_chains_weaken per f cs : wf_chains per f cs -> wf_chains per true cs.
Proof.
  destruct cs as [|c [|d t]]; cbn [wf_chains]; intuition discriminate.
Qed.

Lemma wf_chains_nonempty per f cs : wf_chains per f cs -> exists pre l, cs = pre ++ [l] /\ last_opt cs = Some l.
Proof.
  revert f; induction cs as [|c t IH]; intros f H; [destruct H|].
  destruct t as [|d t].
  - exists [], c; split; reflexivity.
  - destruct H as (_ & _ & _ & _ & H). destruct (IH _ H) as (pre & l & E & L).
    exists (c :: pre), l. rewrite E. split; [reflexivity|].
    rewrite <- E. exact L.
Qed.

Lemma last_opt_app pre l : last_opt (pre ++ [l]) = Some l.
Proof.
  induction pre as [|c pre IH]; [reflexivity|]. cbn [app].
  destruct (pre ++ [l]) eqn:E; [destruct pre; discriminate|]. exact IH.
Qed.

Lemma map_last_app f pre l : map_last f (pre ++ [l]) = pre ++ [f l].
Proof.
  induction pre as [|c pre IH]; [reflexivity|]. cbn [app].
  destruct (pre ++ [l]) eqn:E; [destruct pre; discriminate|].
  rewrite <- IH. reflexivity.
Qed.

(** All blocks but the last, and the last. *)
Definition full_chain (per : nat) (f : bool) (c : chain) : Prop :=
  c_len c = per /\ c_unuse c = 0 /\ c_use c < per /\ (f = false -> c_use c = 0).
Definition last_chain (per : nat) (f : bool) (c : chain) : Prop :=
  c_len c = per /\ 0 < c_unuse c <= per /\ c_use c <= c_written c /\ (f = false -> c_use c = 0).

Fixpoint full_pre (per : nat) (f : bool) (cs : list chain) : Prop :=
  match cs with [] => True | c :: t => full_chain per f c /\ full_pre per false t end.

Definition last_first (f : bool) (pre : list chain) : bool := match pre with [] => f | _ => false end.

Lemma wf_chains_split per f pre l :
  wf_chains per f (pre ++ [l]) <-> full_pre per f pre /\ last_chain per (last_first f pre) l.
Proof.
  revert f; induction pre as [|c pre IH]; intros f; cbn [app].
  - cbn. unfold last_chain. tauto.
  - cbn [full_pre last_first]. specialize (IH false).
    destruct (pre ++ [l]) eqn:E; [destruct pre; discriminate|].
    cbn [wf_chains]. cbn [wf_chains] in IH. rewrite IH.
    unfold full_chain. replace (last_first false pre) with false by (destruct pre; reflexivity).
    tauto.
Qed.

Lemma full_pre_snoc per f pre c :
  full_pre per f (pre ++ [c]) <-> full_pre per f pre /\ full_chain per (last_first f pre) c.
Proof.
  revert f; induction pre as [|d pre IH]; intros f; cbn [app full_pre last_first].
  - tauto.
  - rewrite IH. replace (last_first false pre) with false by (destruct pre; reflexivity). tauto.
Qed.

Lemma stream_app cs1 cs2 : flat_map c_view (cs1 ++ cs2) = flat_map c_view cs1 ++ flat_map c_view cs2.
Proof. apply flat_map_app. Qed.

Lemma c_view_length c : c_use c <= c_written c -> length (c_view c) = c_written c - c_use c.
Proof.
  intros H. unfold c_view. rewrite firstn_length, skipn_length.
  unfold c_written, c_len in *. lia.
Qed.

(** ** Capacity and stream effect of an update *)

Definition need (unuse per n : nat) : nat := if n <? unuse then 0 else S ((n - unuse) / per).

Lemma update_loop_spec fuel junk : forall b n,
  wf b -> length junk = b_per b -> n < fuel ->
  exists r, update_loop fuel junk b n = Ok r /\
    (if b_count b + need (lunuse_len b) (b_per b) n <=? b_max b
     then exists b', r = UpdSuccess b' /\ wf b' /\
            b_count b' = b_count b + need (lunuse_len b) (b_per b) n /\
            b_max b' = b_max b /\ b_per b' = b_per b /\
            b_use_len b' = b_use_len b + n /\
            (exists ext, stream b' = stream b ++ ext /\ length ext = n /\
               forall l, last_opt (b_chains b) = Some l -> n <= c_unuse l ->
                         ext = firstn n (skipn (c_written l) (c_data l)))
     else exists b', r = UpdLimit b' /\ b_count b' = b_max b /\ b_max b' = b_max b /\ b_per b' = b_per b).
Proof.
  induction fuel as [|fuel IH]; intros b n W J F; [lia|].
  destruct W as (W & C & M & U & P).
  destruct (wf_chains_nonempty _ _ _ W) as (pre & l & E & L).
  cbn [update_loop]. rewrite L. unfold lunuse_len. rewrite L.
  rewrite E in W. apply wf_chains_split in W as [Wp Wl].
  destruct Wl as (Wl1 & Wl2 & Wl3 & Wl4).
  unfold need.
  destruct (Nat.leb_spec (c_unuse l) n) as [Hle|Hgt].
  - replace (n <? c_unuse l) with false by (symmetry; apply Nat.ltb_ge; lia).
    set (l1 := mkChain (c_data l) (c_use l) 0).
    set (b1 := mkBuffer _ _ _ _ _).
    assert (E1 : b_chains b1 = pre ++ [l1]).
    { unfold b1; cbn [b_chains]. rewrite E. apply map_last_app. }
    unfold add_chain.
    replace (b_max b1) with (b_max b) by reflexivity.
    replace (b_count b1) with (b_count b) by reflexivity.
    destruct (Nat.leb_spec (b_max b) (b_count b)) as [Hm|Hm].
    + eexists; split; [reflexivity|].
      destruct (Nat.leb_spec (b_count b + S ((n - c_unuse l) / b_per b)) (b_max b)) as [Hx|_];
        [exfalso; revert Hx; generalize ((n - c_unuse l) / b_per b); intros; lia|].
      exists b1. repeat split; cbn; lia.
    + set (nc := mkChain junk 0 (length junk)).
      set (b2 := mkBuffer (b_chains b1 ++ [nc]) (S (b_count b)) (b_max b) (b_per b1) (b_use_len b1)).
      assert (V1 : c_view l1 = c_view l ++ skipn (c_written l) (c_data l)).
      { unfold c_view, l1, c_written; cbn [c_data c_use c_unuse].
        unfold c_len in *; cbn [c_data].
        rewrite firstn_all2 by (rewrite skipn_length; lia).
        rewrite <- (firstn_skipn (length (c_data l) - c_unuse l - c_use l) (skipn (c_use l) (c_data l))) at 1.
        f_equal. rewrite skipn_skipn. f_equal. unfold c_written, c_len in Wl3. lia. }
      assert (S2 : stream b2 = stream b ++ skipn (c_written l) (c_data l)).
      { unfold stream, b2; cbn [b_chains]. rewrite E1, E, !stream_app. cbn [flat_map].
        rewrite V1, !app_nil_r.
        assert (Vn : c_view nc = []).
        { unfold c_view, nc, c_written, c_len; cbn [c_data c_use c_unuse].
          rewrite Nat.sub_diag. reflexivity. }
        rewrite Vn, app_nil_r, app_assoc. reflexivity. }
      assert (Lext : length (skipn (c_written l) (c_data l)) = c_unuse l).
      { rewrite skipn_length. unfold c_written, c_len in *. lia. }
      assert (W2 : wf b2).
      { unfold wf. split; [|split; [|split; [|split]]].
        - unfold b2; cbn [b_chains b_per]. rewrite E1.
          replace (b_per b1) with (b_per b) by reflexivity.
          apply wf_chains_split. split.
          + apply full_pre_snoc. split; [assumption|].
            unfold full_chain, l1; cbn [c_len c_data c_unuse c_use]. unfold c_len; cbn [c_data].
            unfold c_written, c_len in *. split; [lia|split; [lia|split; [lia|assumption]]].
          + unfold last_chain, nc, c_written, c_len; cbn [c_data c_use c_unuse].
            split; [lia|split; [lia|split; [lia|reflexivity]]].
        - unfold b2; cbn [b_chains b_count]. rewrite E1, !app_length.
          rewrite E, app_length in C. cbn in *. lia.
        - unfold b2; cbn. lia.
        - unfold b2 at 1; cbn [b_use_len]. unfold b1; cbn [b_use_len].
          rewrite S2, app_length, Lext. lia.
        - exact P. }
      assert (Lu2 : lunuse_len b2 = b_per b).
      { unfold lunuse_len, b2; cbn [b_chains]. rewrite last_opt_app. cbn. exact J. }
      destruct (IH b2 (n - c_unuse l) W2 J) as (r & Hr & Hsp); [lia|].
      replace (b_per b2) with (b_per b) in Hsp by reflexivity.
      replace (b_max b2) with (b_max b) in Hsp by reflexivity.
      replace (b_count b2) with (S (b_count b)) in Hsp by reflexivity.
      replace (b_use_len b2) with (b_use_len b + c_unuse l) in Hsp by reflexivity.
      rewrite Lu2 in Hsp.
      exists r; split; [exact Hr|].
      assert (Hneed : S (b_count b) + need (b_per b) (b_per b) (n - c_unuse l)
                      = b_count b + S ((n - c_unuse l) / b_per b)).
      { unfold need. destruct (Nat.ltb_spec (n - c_unuse l) (b_per b)).
        - rewrite Nat.div_small by assumption. lia.
        - replace (n - c_unuse l) with ((n - c_unuse l - b_per b) + 1 * b_per b) at 2 by lia.
          rewrite Nat.div_add by lia. lia. }
      rewrite Hneed in Hsp.
      destruct (b_count b + S ((n - c_unuse l) / b_per b) <=? b_max b) eqn:Hc.
      * destruct Hsp as (b' & -> & Wb' & Cb' & Mb' & Pb' & Ub' & ext & Sx & Lx & _).
        exists b'. repeat (split; [first [reflexivity|assumption|lia]|]).
        exists (skipn (c_written l) (c_data l) ++ ext). split.
        -- rewrite Sx, S2, app_assoc. reflexivity.
        -- split; [rewrite app_length, Lext, Lx; lia|].
           intros l0 L0 Hn. inversion L0; subst l0.
           assert (n = c_unuse l) by lia. subst n.
           destruct ext as [|x ext]; [|cbn [length] in Lx; lia].
           rewrite app_nil_r. rewrite firstn_all2; [reflexivity|lia].
      * exact Hsp.
  - replace (n <? c_unuse l) with true by (symmetry; apply Nat.ltb_lt; lia).
    eexists; split; [reflexivity|].
    replace (b_count b + 0 <=? b_max b) with true by (symmetry; apply Nat.leb_le; lia).
    set (l1 := mkChain (c_data l) (c_use l) (c_unuse l - n)).
    set (b1 := mkBuffer _ _ _ _ _).
    assert (E1 : b_chains b1 = pre ++ [l1]).
    { unfold b1; cbn [b_chains]. rewrite E. apply map_last_app. }
    assert (V1 : c_view l1 = c_view l ++ firstn n (skipn (c_written l) (c_data l))).
    { unfold c_view, l1, c_written; cbn [c_data c_use c_unuse]. unfold c_len in *; cbn [c_data].
      unfold c_written, c_len in Wl3.
      replace (length (c_data l) - (c_unuse l - n) - c_use l)
        with ((length (c_data l) - c_unuse l - c_use l) + n) by lia.
      rewrite <- (firstn_skipn (length (c_data l) - c_unuse l - c_use l) (skipn (c_use l) (c_data l))) at 1.
      rewrite firstn_app. rewrite firstn_length, skipn_length.
      rewrite (firstn_all2 (n := _ + n)) by (rewrite firstn_length, skipn_length; lia).
      f_equal. rewrite skipn_skipn. f_equal; [lia|]. f_equal. lia. }
    assert (S1 : stream b1 = stream b ++ firstn n (skipn (c_written l) (c_data l))).
    { unfold stream. rewrite E1, E, !stream_app. cbn [flat_map]. rewrite V1, !app_nil_r, app_assoc. reflexivity. }
    assert (Lx : length (firstn n (skipn (c_written l) (c_data l))) = n).
    { rewrite firstn_length, skipn_length. unfold c_written, c_len in *. lia. }
    exists b1. split; [reflexivity|].
    split; [|repeat (split; [cbn; lia|]); eexists; split; [exact S1 | split; [exact Lx|intros l0 L0 _; inversion L0; reflexivity]]].
    unfold wf. split; [|split; [|split; [|split]]].
    + rewrite E1. replace (b_per b1) with (b_per b) by reflexivity.
      apply wf_chains_split. split; [assumption|].
      unfold last_chain, l1, c_written, c_len; cbn [c_data c_use c_unuse].
      unfold c_written, c_len in *. split; [lia|split; [lia|split; [lia|assumption]]].
    + rewrite E1, app_length. rewrite E, app_length in C. cbn in *. lia.
    + cbn; lia.
    + rewrite S1, app_length, Lx. cbn. lia.
    + exact P.
Qed.

Lemma wf_last b : wf b -> exists pre l, b_chains b = pre ++ [l] /\ full_pre (b_per b) true pre
                                      /\ last_chain (b_per b) (last_first true pre) l
                                      /\ last_opt (b_chains b) = Some l.
Proof.
  intros (W & _). destruct (wf_chains_nonempty _ _ _ W) as (pre & l & E & L).
  rewrite E in W. apply wf_chains_split in W as [W1 W2].
  exists pre, l. auto.
Qed.

(** Writing received bytes behind the written area does not change the unread bytes. *)
Lemma write_at_length data off d : off + length d <= length data -> length (write_at data off d) = length data.
Proof.
  intros H. unfold write_at. rewrite !app_length, firstn_length, skipn_length. lia.
Qed.

Lemma write_at_skip data off d : off <= length data -> skipn off (write_at data off d) = d ++ skipn (off + length d) data.
Proof.
  intros H. unfold write_at. rewrite skipn_app, firstn_length.
  rewrite skipn_all2 by (rewrite firstn_length; lia).
  replace (off - Nat.min off (length data)) with 0 by lia. reflexivity.
Qed.

Lemma write_at_first data off d : off <= length data -> firstn off (write_at data off d) = firstn off data.
Proof.
  intros H. unfold write_at. rewrite firstn_app, firstn_length.
  replace (off - Nat.min off (length data)) with 0 by lia. cbn [firstn].
  rewrite app_nil_r, firstn_firstn. f_equal. lia.
Qed.

Lemma firstn_skipn_swap {A} a n (l : list A) : firstn n (skipn a l) = skipn a (firstn (a + n) l).
Proof. rewrite firstn_skipn_comm. reflexivity. Qed.

Lemma write_last_wf b d : wf b -> length d <= lunuse_len b ->
  wf (write_last b d) /\ stream (write_last b d) = stream b /\ lunuse_len (write_last b d) = lunuse_len b /\
  (forall l, last_opt (b_chains (write_last b d)) = Some l ->
             firstn (length d) (skipn (c_written l) (c_data l)) = d /\ c_unuse l = lunuse_len b).
Proof.
  intros W H. pose proof W as W0. destruct (wf_last b W) as (pre & l & E & Wp & Wl & L).
  destruct Wl as (Wl1 & Wl2 & Wl3 & Wl4).
  unfold lunuse_len in H. rewrite L in H.
  set (l1 := mkChain (write_at (c_data l) (c_written l) d) (c_use l) (c_unuse l)).
  assert (E1 : b_chains (write_last b d) = pre ++ [l1]).
  { unfold write_last; cbn [b_chains]. rewrite E. apply map_last_app. }
  assert (Lw : length (write_at (c_data l) (c_written l) d) = length (c_data l)).
  { apply write_at_length. unfold c_written, c_len in *. lia. }
  assert (Wr : c_written l1 = c_written l).
  { unfold c_written, c_len, l1; cbn [c_data c_unuse]. rewrite Lw. reflexivity. }
  assert (V1 : c_view l1 = c_view l).
  { unfold c_view. rewrite Wr. unfold l1; cbn [c_data c_use].
    rewrite !firstn_skipn_swap.
    replace (c_use l + (c_written l - c_use l)) with (c_written l) by lia.
    rewrite write_at_first; [reflexivity|]. unfold c_written, c_len. lia. }
  assert (S1 : stream (write_last b d) = stream b).
  { unfold stream. rewrite E1, E, !stream_app. cbn [flat_map]. rewrite V1. reflexivity. }
  destruct W as (W & C & M & U & P).
  split; [|split; [exact S1|split]].
  - unfold wf. split; [|split; [|split; [|split]]].
    + rewrite E1. cbn [write_last b_per]. apply wf_chains_split. split; [assumption|].
      unfold last_chain. rewrite Wr. unfold l1, c_len; cbn [c_data c_use c_unuse].
      rewrite Lw. unfold c_len in *. split; [lia|split; [lia|split; [lia|assumption]]].
    + rewrite E1, app_length. rewrite E, app_length in C. cbn in *. lia.
    + cbn; lia.
    + rewrite S1. exact U.
    + exact P.
  - unfold lunuse_len. rewrite E1, last_opt_app, L. reflexivity.
  - intros l0 L0. rewrite E1, last_opt_app in L0. inversion L0; subst l0. split.
    + rewrite Wr. unfold l1; cbn [c_data]. rewrite write_at_skip by (unfold c_written, c_len; lia).
      rewrite firstn_app, Nat.sub_diag, firstn_all. cbn [firstn]. apply app_nil_r.
    + unfold lunuse_len. rewrite L. reflexivity.
Qed.

Lemma recv_chunk_spec junk b d :
  wf b -> length junk = b_per b -> length d <= lunuse_len b ->
  if (length d <? lunuse_len b) || (b_count b <? b_max b)
  then exists b', recv_chunk junk b d = Ok (UpdSuccess b') /\ wf b' /\ stream b' = stream b ++ d
                  /\ b_max b' = b_max b /\ b_per b' = b_per b
  else exists b', recv_chunk junk b d = Ok (UpdLimit b') /\ b_count b' = b_max b'.
Proof.
  intros W J H. unfold recv_chunk.
  replace (length d <=? lunuse_len b) with true by (symmetry; apply Nat.leb_le; lia).
  destruct (write_last_wf b d W H) as (W1 & S1 & L1 & D1).
  destruct (update_loop_spec (S (S (length d))) junk (write_last b d) (length d) W1 J) as (r & R & Sp); [lia|].
  unfold update_buffer. rewrite R. rewrite L1 in Sp.
  cbn [write_last b_count b_max b_per] in Sp.
  assert (Nd : need (lunuse_len b) (b_per b) (length d) = if length d <? lunuse_len b then 0 else 1).
  { unfold need. destruct (Nat.ltb_spec (length d) (lunuse_len b)); [reflexivity|].
    replace (length d - lunuse_len b) with 0 by lia. rewrite Nat.div_0_l; [reflexivity|].
    destruct W as (_ & _ & _ & _ & P). lia. }
  rewrite Nd in Sp. destruct W as (W & C & M & U & P).
  destruct (Nat.ltb_spec (length d) (lunuse_len b)) as [Hlt|Hge]; cbn [orb] in *.
  - replace (b_count b + 0 <=? b_max b) with true in Sp by (symmetry; apply Nat.leb_le; lia).
    destruct Sp as (b' & -> & Wb & _ & Mb & Pb & _ & ext & Sx & Lx & Hx).
    exists b'. split; [reflexivity|]. split; [assumption|].
    destruct (wf_last _ W1) as (pre & l & _ & _ & _ & L).
    destruct (D1 l L) as [D2 D3]. rewrite (Hx l L) in Sx by lia.
    rewrite D2, S1 in Sx. cbn [write_last b_max b_per] in *. auto.
  - destruct (Nat.ltb_spec (b_count b) (b_max b)) as [Hc|Hc].
    + replace (b_count b + 1 <=? b_max b) with true in Sp by (symmetry; apply Nat.leb_le; lia).
      destruct Sp as (b' & -> & Wb & _ & Mb & Pb & _ & ext & Sx & Lx & Hx).
      exists b'. split; [reflexivity|]. split; [assumption|].
      destruct (wf_last _ W1) as (pre & l & _ & _ & _ & L).
      destruct (D1 l L) as [D2 D3]. rewrite (Hx l L) in Sx by lia.
      rewrite D2, S1 in Sx. cbn [write_last b_max b_per] in *. auto.
    + replace (b_count b + 1 <=? b_max b) with false in Sp by (symmetry; apply Nat.leb_gt; lia).
      destruct Sp as (b' & -> & Cb & Mb & Pb). exists b'. split; [reflexivity|]. lia.
Qed.

(** ** Consuming a prefix *)
Lemma c_act_full per f c : full_chain per f c -> c_act c = length (c_view c) /\ 0 < c_act c
   /\ c_view c = skipn (c_use c) (c_data c).
Proof.
  intros (F1 & F2 & F3 & F4). unfold c_act, c_view, c_written. rewrite F2, Nat.sub_0_r.
  rewrite firstn_all2 by (rewrite skipn_length; unfold c_len; lia).
  rewrite skipn_length. fold (c_len c). split; [lia|split; [lia|reflexivity]].
Qed.

Lemma last_view per f c : last_chain per f c -> length (c_view c) < c_act c.
Proof.
  intros (F1 & F2 & F3 & F4). rewrite c_view_length by assumption.
  unfold c_act, c_written in *. lia.
Qed.

(** [count_delete] stops inside the list when [len] unread bytes are available. *)
Lemma count_delete_spec per : forall pre l f len total,
  full_pre per f pre -> last_chain per (last_first f pre) l ->
  total <= len -> len <= total + length (flat_map c_view (pre ++ [l])) ->
  exists k pre2, count_delete (pre ++ [l]) len total =
                 (k, total + length (flat_map c_view (firstn k (pre ++ [l]))))
    /\ k <= length pre /\ pre2 = skipn k pre
    /\ total + length (flat_map c_view (firstn k pre)) <= len
    /\ match pre2 ++ [l] with
       | n :: _ => len - (total + length (flat_map c_view (firstn k pre))) < c_act n
       | [] => False
       end.
Proof.
  induction pre as [|c pre IH]; intros l f len total Wp Wl Ht Hl.
  - cbn [app count_delete flat_map] in *. rewrite app_nil_r in Hl. cbn [last_first] in Wl.
    pose proof (last_view _ _ _ Wl) as V.
    replace (total + c_act l <=? len) with false by (symmetry; apply Nat.leb_gt; lia).
    exists 0, []. cbn. repeat split; try lia. f_equal. lia.
  - destruct Wp as [Wc Wp]. cbn [last_first] in Wl.
    destruct (c_act_full _ _ _ Wc) as (A1 & A2 & A3).
    cbn [app count_delete].
    destruct (Nat.leb_spec (total + c_act c) len) as [Hle|Hgt].
    + assert (Hl2 : len <= total + c_act c + length (flat_map c_view (pre ++ [l]))).
      { cbn [app flat_map] in Hl. rewrite app_length in Hl. lia. }
      assert (Wl' : last_chain per (last_first false pre) l) by (destruct pre; exact Wl).
      destruct (IH l false len (total + c_act c) Wp Wl' Hle Hl2) as (k & pre2 & E & K1 & K2 & K3 & K4).
      destruct (pre ++ [l]) eqn:Ep; [destruct pre; discriminate|].
      rewrite <- Ep in *. rewrite E.
      exists (S k), pre2. cbn [firstn skipn length app flat_map]. rewrite !app_length.
      split; [f_equal; lia|]. split; [lia|]. split; [assumption|]. split; [lia|].
      rewrite K2 in *. destruct (skipn k pre ++ [l]) as [|n r]; [assumption|].
      rewrite A1 in K4. lia.
    + exists 0, (c :: pre). cbn [firstn skipn flat_map length app].
      repeat split; try lia. f_equal. lia.
Qed.

Lemma delete_k_spec : forall k b,
  k <= length (b_chains b) ->
  exists b', delete_k k b = Ok b' /\ b_chains b' = skipn k (b_chains b) /\
    b_count b' = b_count b - k /\ b_max b' = b_max b /\ b_per b' = b_per b /\
    b_use_len b' = b_use_len b - list_sum (map c_act (firstn k (b_chains b))).
Proof.
  induction k as [|k IH]; intros b H.
  - exists b. cbn. repeat split; lia.
  - destruct (b_chains b) as [|c t] eqn:E; [cbn in H; lia|].
    cbn [delete_k]. rewrite E.
    destruct (IH (mkBuffer t (b_count b - 1) (b_max b) (b_per b) (b_use_len b - c_act c))) as (b' & B1 & B2 & B3 & B4 & B5 & B6).
    { cbn [b_chains]. cbn [length] in H. lia. }
    exists b'. split; [exact B1|]. cbn [b_chains b_count b_max b_per b_use_len] in *.
    cbn [skipn firstn map list_sum fold_right]. repeat split; try assumption; try lia.
    rewrite B6. unfold list_sum. cbn [map fold_right]. lia.
Qed.

Lemma full_pre_act per : forall pre f, full_pre per f pre ->
  list_sum (map c_act pre) = length (flat_map c_view pre).
Proof.
  induction pre as [|c pre IH]; intros f H; [reflexivity|].
  destruct H as [Hc H]. destruct (c_act_full _ _ _ Hc) as (A1 & _ & _).
  unfold list_sum in *. cbn [map fold_right flat_map]. rewrite app_length, A1. f_equal. eapply IH; eassumption.
Qed.

Lemma full_pre_firstn per k : forall pre f, full_pre per f pre -> full_pre per f (firstn k pre).
Proof.
  induction k as [|k IH]; intros pre f H; [exact I|].
  destruct pre as [|c pre]; [exact I|]. destruct H as [H1 H2]. split; [assumption|now apply IH].
Qed.

Lemma full_pre_skipn per k : forall pre f, full_pre per f pre -> full_pre per (match k with 0 => f | _ => false end) (skipn k pre).
Proof.
  induction k as [|k IH]; intros pre f H; [exact H|].
  destruct pre as [|c pre]; [exact I|]. destruct H as [H1 H2]. cbn [skipn].
  specialize (IH pre false H2). destruct k; exact IH.
Qed.

(** Advancing use_ptr inside a block. *)
Lemma view_advance c k : k <= length (c_view c) -> c_use c <= c_written c ->
  c_view (mkChain (c_data c) (c_use c + k) (c_unuse c)) = skipn k (c_view c).
Proof.
  intros H U. rewrite c_view_length in H by assumption.
  unfold c_view, c_written, c_len in *; cbn [c_data c_use c_unuse].
  rewrite (firstn_skipn_swap (c_use c)), skipn_skipn.
  rewrite firstn_skipn_swap. f_equal; [lia|]. f_equal. lia.
Qed.

Lemma wf_chains_use per f cs : wf_chains per f cs -> match cs with [] => True | c :: _ => c_use c <= c_written c /\ c_use c < c_len c end.
Proof.
  destruct cs as [|c [|d t]]; [auto| |]; cbn [wf_chains]; unfold c_written; intuition lia.
Qed.

Lemma release_spec b n : wf b -> n <= length (stream b) ->
  exists b', release b n = Ok b' /\ wf b' /\ stream b' = skipn n (stream b)
             /\ b_max b' = b_max b /\ b_per b' = b_per b /\ b_count b' <= b_count b.
Proof.
  intros W H. destruct (wf_last b W) as (pre & l & E & Wp & Wl & L).
  destruct W as (W & C & M & U & P).
  (* advancing inside the (new) first block *)
  assert (ADV : forall c t k, wf_chains (b_per b) true (c :: t) -> k < c_act c ->
            k <= length (flat_map c_view (c :: t)) ->
            wf_chains (b_per b) true (mkChain (c_data c) (c_use c + k) (c_unuse c) :: t) /\
            flat_map c_view (mkChain (c_data c) (c_use c + k) (c_unuse c) :: t)
              = skipn k (flat_map c_view (c :: t))).
  { intros c t k Wc K1 K2. pose proof (wf_chains_use _ _ _ Wc) as [Wu _].
    assert (K3 : k <= length (c_view c)).
    { cbn [flat_map] in K2. rewrite app_length in K2.
      destruct t as [|d t].
      - cbn in K2. lia.
      - cbn [wf_chains] in Wc. destruct Wc as (w1 & w2 & w3 & w4 & w5).
        destruct (c_act_full (b_per b) true c) as (A1 & A2 & A3).
        { unfold full_chain. auto. }
        lia. }
    split.
    - pose proof K3 as K4. rewrite c_view_length in K4 by assumption.
      destruct t as [|d t]; cbn [wf_chains] in *; unfold c_written, c_act in *; unfold c_len in *;
        cbn [c_data c_use c_unuse] in *.
      + destruct Wc as (w1 & w2 & w3 & w4).
        split; [lia|split; [lia|split; [lia|intros X; discriminate X]]].
      + destruct Wc as (w1 & w2 & w3 & w4 & w5).
        split; [lia|split; [lia|split; [lia|split; [intros X; discriminate X|assumption]]]].
    - cbn [flat_map]. rewrite view_advance by assumption.
      rewrite skipn_app. replace (k - length (c_view c)) with 0 by lia. reflexivity. }
  assert (Hcs : exists c t, b_chains b = c :: t).
  { destruct (b_chains b); [destruct pre; discriminate|eauto]. }
  destruct Hcs as (c & t & Ec). unfold release. rewrite Ec.
  destruct (Nat.ltb_spec n (c_act c)) as [Hlt|Hge].
  - rewrite Ec in W. destruct (ADV c t n W Hlt) as [A1 A2].
    { unfold stream in H. rewrite Ec in H. exact H. }
    eexists; split; [reflexivity|]. split; [|split; [|split; [|split]]]; cbn [b_max b_per b_count]; try reflexivity; try lia.
    + unfold wf; cbn [b_chains b_per b_count b_max b_use_len].
      split; [exact A1|]. split; [rewrite C, Ec; reflexivity|]. split; [exact M|]. split; [|exact P].
      unfold stream; cbn [b_chains]. rewrite A2, skipn_length, U. unfold stream. rewrite Ec. reflexivity.
    + unfold stream; cbn [b_chains]. rewrite A2, Ec. reflexivity.
  - rewrite <- Ec, E.
    destruct (count_delete_spec (b_per b) pre l true n 0 Wp Wl) as (k & pre2 & Q1 & Q2 & Q3 & Q4 & Q5); [lia| |].
    { unfold stream in H. rewrite E in H. exact H. }
    rewrite Q1. rewrite firstn_app in Q1 |- *.
    replace (k - length pre) with 0 in * by lia. cbn [firstn] in *. rewrite app_nil_r in *.
    destruct (delete_k_spec k b) as (b1 & D1 & D2 & D3 & D4 & D5 & D6).
    { rewrite E, app_length. cbn. lia. }
    rewrite D1. cbn [obind]. rewrite D2, E, skipn_app.
    replace (k - length pre) with 0 by lia. cbn [skipn]. rewrite <- Q3.
    rewrite E, firstn_app in D6. replace (k - length pre) with 0 in D6 by lia.
    cbn [firstn] in D6. rewrite app_nil_r in D6.
    rewrite (full_pre_act (b_per b) _ true) in D6 by (apply full_pre_firstn; assumption).
    cbn [Nat.add] in *.
    assert (Hst : stream b = flat_map c_view (firstn k pre) ++ flat_map c_view (pre2 ++ [l])).
    { unfold stream. rewrite E, Q3, <- flat_map_app. f_equal.
      rewrite app_assoc, firstn_skipn. reflexivity. }
    assert (Hpk : 0 < k).
    { destruct k; [|lia]. exfalso. cbn [firstn flat_map length skipn] in *. subst pre2.
      rewrite <- E, Ec in Q5. lia. }
    assert (Wn : wf_chains (b_per b) false (pre2 ++ [l])).
    { apply wf_chains_split. split.
      - rewrite Q3. pose proof (full_pre_skipn (b_per b) k pre true Wp) as X. destruct k; [lia|exact X].
      - destruct pre as [|a pre]; [cbn in Q2; lia|]. cbn [last_first] in *. destruct pre2; exact Wl. }
    destruct (pre2 ++ [l]) as [|nc nt] eqn:En; [destruct pre2; discriminate|].
    assert (Un0 : c_use nc = 0).
    { destruct nt as [|d nt]; cbn [wf_chains] in Wn; intuition. }
    set (k2 := n - length (flat_map c_view (firstn k pre))) in *.
    destruct (ADV nc nt k2) as [A1 A2].
    { eapply wf_chains_weaken; eassumption. }
    { lia. }
    { rewrite Hst, app_length in H. unfold k2. lia. }
    rewrite Un0 in A1, A2. cbn [Nat.add] in A1, A2.
    eexists; split; [reflexivity|]. cbn [b_chains b_count b_max b_per b_use_len].
    assert (Sx : stream (mkBuffer (mkChain (c_data nc) k2 (c_unuse nc) :: nt) (b_count b1) (b_max b1) (b_per b1)
                                  (b_use_len b1 - k2)) = skipn n (stream b)).
    { unfold stream at 1; cbn [b_chains]. rewrite A2, Hst, skipn_app.
      rewrite (skipn_all2 (flat_map c_view (firstn k pre))) by lia. reflexivity. }
    split; [|split; [exact Sx|split; [exact D4|split; [exact D5|lia]]]].
    unfold wf; cbn [b_chains b_per b_count b_max b_use_len].
    rewrite D5, D4 in *. split; [exact A1|].
    split; [|split; [lia|split; [|exact P]]].
    + rewrite D3, C, E, app_length. cbn [length].
      assert (Ln : length (nc :: nt) = length (skipn k pre) + 1).
      { rewrite <- En, app_length, Q3. reflexivity. }
      cbn [length] in Ln. rewrite skipn_length in Ln. lia.
    + rewrite Sx, skipn_length. rewrite D6, U. rewrite Hst, app_length. unfold k2. lia.
Qed.

(** ** Positions: [ptr_at cs ci i] is the pointer to the [i]-th byte of memory readable from the
    first use_ptr, [mem] that memory (it extends [stream] by the unwritten tail). *)
Fixpoint ptr_at (cs : list chain) (ci i : nat) : option ptr :=
  match cs with
  | [] => None
  | c :: t => if i <? c_act c then Some (ci, c_use c + i) else ptr_at t (S ci) (i - c_act c)
  end.
Definition c_mem (c : chain) : list N := skipn (c_use c) (c_data c).
Definition mem (cs : list chain) : list N := flat_map c_mem cs.

Lemma c_mem_length c : length (c_mem c) = c_act c.
Proof. unfold c_mem, c_act, c_len. apply skipn_length. Qed.

Lemma wf_mem per : forall cs f, wf_chains per f cs ->
  exists tail, mem cs = flat_map c_view cs ++ tail /\ 0 < length tail /\
               (forall l, last_opt cs = Some l -> length tail = c_unuse l).
Proof.
  induction cs as [|c t IH]; intros f W; [destruct W|].
  destruct t as [|d t].
  - cbn [wf_chains] in W. destruct W as (W1 & W2 & W3 & W4).
    exists (skipn (c_written c - c_use c) (skipn (c_use c) (c_data c))).
    unfold mem; cbn [flat_map]. rewrite !app_nil_r. split.
    + unfold c_mem, c_view. symmetry. apply firstn_skipn.
    + rewrite !skipn_length. unfold c_written in *. fold (c_len c). unfold c_len in *. split; [lia|].
      intros l L. inversion L; subst l. lia.
  - cbn [wf_chains] in W. destruct W as (W1 & W2 & W3 & W4 & W5).
    destruct (IH false W5) as (tail & T1 & T2 & T3).
    exists tail. unfold mem in *. cbn [flat_map] in *. rewrite T1.
    destruct (c_act_full per f c) as (A1 & A2 & A3); [unfold full_chain; auto|].
    rewrite A3. fold (c_mem c). split; [rewrite app_assoc; reflexivity|]. split; [exact T2|].
    intros l L. apply T3. exact L.
Qed.

Lemma wf_chains_cons per f c d t : wf_chains per f (c :: d :: t) -> wf_chains per false (d :: t).
Proof. intros (_ & _ & _ & _ & H). exact H. Qed.

(** Stepping through memory one byte at a time. *)
Lemma ptr_at_step per : forall cs f ci i, wf_chains per f cs -> i < length (mem cs) ->
  exists j off c, ptr_at cs ci i = Some (ci + j, off) /\ nth_error cs j = Some c /\
    nth_error (c_data c) off = nth_error (mem cs) i /\ c_use c <= off /\ off < c_len c /\
    (if c_len c - 1 <? S off
     then match nth_error cs (S j) with
          | Some n => ptr_at cs ci (S i) = Some (ci + S j, c_use n)
          | None => S i = length (mem cs) /\ S j = length cs
          end
     else ptr_at cs ci (S i) = Some (ci + j, S off) /\ S i < length (mem cs)) /\
    (S j < length cs -> S i < length (mem cs)) /\
    (S j = length cs -> (length (mem cs) <= S i <-> c_len c - 1 <= off)).
Proof.
  induction cs as [|c t IH]; intros f ci i W H; [destruct W|].
  pose proof (wf_chains_use _ _ _ W) as [Wu Wu'].
  cbn [ptr_at]. unfold mem in *. cbn [flat_map] in *. rewrite app_length, c_mem_length in *.
  destruct (Nat.ltb_spec i (c_act c)) as [Hi|Hi].
  - exists 0, (c_use c + i), c. rewrite Nat.add_0_r.
    split; [reflexivity|]. split; [reflexivity|].
    split; [rewrite nth_error_app1 by (rewrite c_mem_length; lia); unfold c_mem|].
    { clear. generalize (c_use c) as u. intros u. revert u. induction (c_data c) as [|x l IHl]; intros [|u]; cbn; try reflexivity.
      - destruct i; reflexivity.
      - apply IHl. }
    split; [lia|]. unfold c_act in *. split; [lia|].
    assert (Ht : t <> [] -> 0 < length (flat_map c_mem t)).
    { destruct t as [|d t]; [congruence|]. intros _. cbn [flat_map]. rewrite app_length, c_mem_length.
      apply wf_chains_cons in W.
      pose proof (wf_chains_use _ _ _ W) as [_ X]. unfold c_act. lia. }
    split.
    + destruct (Nat.ltb_spec (c_len c - 1) (S (c_use c + i))) as [E|E].
      * cbn [nth_error]. destruct t as [|d t].
        -- cbn. lia.
        -- cbn [nth_error]. replace (S i <? c_len c - c_use c) with false by (symmetry; apply Nat.ltb_ge; lia).
           apply wf_chains_cons in W.
           pose proof (wf_chains_use _ _ _ W) as [_ X]. cbn [ptr_at]. unfold c_act.
           replace (S i - (c_len c - c_use c)) with 0 by lia.
           replace (0 <? c_len d - c_use d) with true by (symmetry; apply Nat.ltb_lt; lia).
           f_equal. f_equal; lia.
      * replace (S i <? c_len c - c_use c) with true by (symmetry; apply Nat.ltb_lt; lia).
        split; [f_equal; f_equal; lia|lia].
    + split.
      * intros X. destruct t as [|d t]; [cbn in X; lia|]. specialize (Ht ltac:(discriminate)). lia.
      * intros X. destruct t as [|d t]; [|cbn in X; lia]. cbn. lia.
  - destruct t as [|d t]; [cbn in H; lia|]. apply wf_chains_cons in W.
    destruct (IH false (S ci) (i - c_act c) W) as (j & off & c' & J1 & J2 & J3 & J4 & J5 & J6 & J7 & J8); [lia|].
    exists (S j), off, c'. split; [rewrite J1; f_equal; f_equal; lia|].
    split; [exact J2|]. split; [rewrite J3, nth_error_app2 by (rewrite c_mem_length; lia); rewrite c_mem_length; reflexivity|].
    split; [exact J4|]. split; [exact J5|].
    replace (S i <? c_act c) with false by (symmetry; apply Nat.ltb_ge; lia).
    replace (S i - c_act c) with (S (i - c_act c)) by lia.
    split.
    + destruct (c_len c' - 1 <? S off).
      * cbn [nth_error] in J6 |- *. destruct (nth_error (d :: t) (S j)) as [n|] eqn:En; cbn [nth_error] in En; rewrite En in *.
        -- rewrite J6. f_equal. f_equal. lia.
        -- cbn [length] in *. lia.
      * destruct J6 as [J6 J6']. split; [rewrite J6; f_equal; f_equal; lia|lia].
    + cbn [length] in *. split; intros X.
      * assert (S (i - c_act c) < length (flat_map c_mem (d :: t))) by (apply J7; lia). lia.
      * assert (Y : length (flat_map c_mem (d :: t)) <= S (i - c_act c) <-> c_len c' - 1 <= off) by (apply J8; lia).
        lia.
Qed.

Lemma firstn_S_nth {A} (l : list A) n x : nth_error l 0 = Some x -> firstn (S n) l = x :: firstn n (skipn 1 l).
Proof. destruct l; cbn; congruence. Qed.

Lemma nth_error_skipn {A} i (l : list A) n : nth_error (skipn i l) n = nth_error l (i + n).
Proof. revert l; induction i as [|i IH]; intros [|x l]; cbn; try reflexivity; [destruct n; reflexivity|apply IH]. Qed.

Lemma copy_loop_spec b : wf b -> forall len i ci off,
  ptr_at (b_chains b) 0 i = Some (ci, off) -> i + len <= length (stream b) ->
  copy_loop b ci off len = Ok (firstn len (skipn i (stream b))).
Proof.
  intros (W & _). destruct (wf_mem _ _ _ W) as (tail & T1 & T2 & _).
  fold (stream b) in T1.
  assert (TL : length (mem (b_chains b)) = length (stream b) + length tail) by (rewrite T1, app_length; lia).
  induction len as [|len IH]; intros i ci off P H; [reflexivity|].
  destruct (ptr_at_step _ _ _ 0 i W) as (j & off' & c & J1 & J2 & J3 & J4 & J5 & J6 & J7 & J8); [lia|].
  rewrite P in J1. inversion J1; subst ci off'. cbn [Nat.add] in *.
  cbn [copy_loop]. unfold load; cbn [fst snd]. rewrite J2, J3.
  rewrite T1, nth_error_app1 by lia.
  destruct (nth_error (stream b) i) as [x|] eqn:Ex; [|apply nth_error_None in Ex; lia].
  cbn [obind].
  rewrite (firstn_S_nth _ _ x) by (rewrite nth_error_skipn, Nat.add_0_r; exact Ex).
  rewrite skipn_skipn. cbn [Nat.add].
  destruct (c_len c - 1 <? S off).
  - destruct (nth_error (b_chains b) (S j)) as [n|] eqn:En; [|lia].
    cbn [Nat.add] in J6. rewrite (IH _ _ _ J6) by lia. reflexivity.
  - destruct J6 as [J6 _]. rewrite (IH _ _ _ J6) by lia. reflexivity.
Qed.

(** Copying from a pointer, giving the chain the pointer lies in. *)
Lemma memcpy_spec b i ci off len : wf b -> ptr_at (b_chains b) 0 i = Some (ci, off) ->
  i + len <= length (stream b) -> memcpy b (ci, off) ci len = Ok (firstn len (skipn i (stream b))).
Proof.
  intros W P H. unfold memcpy. destruct len as [|len]; [reflexivity|].
  cbn [find_src fst snd].
  pose proof W as (W0 & _). destruct (wf_mem _ _ _ W0) as (tail & T1 & T2 & _). fold (stream b) in T1.
  destruct (ptr_at_step _ _ _ 0 i W0) as (j & off' & c & J1 & J2 & J3 & J4 & J5 & _); [rewrite T1, app_length; lia|].
  rewrite P in J1. inversion J1; subst ci off'. cbn [Nat.add] in *. rewrite J2.
  rewrite Nat.eqb_refl.
  replace (c_use c <=? off) with true by (symmetry; apply Nat.leb_le; lia).
  replace (off <=? c_len c - 1) with true by (symmetry; apply Nat.leb_le; lia).
  cbn [andb obind]. apply copy_loop_spec; assumption.
Qed.

Lemma ptr_at_0 per f cs : wf_chains per f cs -> match cs with c :: _ => ptr_at cs 0 0 = Some (0, c_use c) | [] => False end.
Proof.
  intros W. destruct cs as [|c t]; [exact W|]. pose proof (wf_chains_use _ _ _ W) as [_ X].
  cbn [ptr_at]. unfold c_act. replace (0 <? c_len c - c_use c) with true by (symmetry; apply Nat.ltb_lt; lia).
  rewrite Nat.add_0_r. reflexivity.
Qed.

(** Copying from a pointer, giving an earlier chain: works as long as the pointer is not in the
    last block. *)
Lemma find_src_earlier b : wf b -> forall fuel k ci off,
  fst (ci, off) = ci -> k <= ci -> ci - k < fuel -> S ci < length (b_chains b) ->
  (exists c, nth_error (b_chains b) ci = Some c /\ c_use c <= off /\ off < c_len c) ->
  find_src fuel b k (ci, off) = Ok (Some ci).
Proof.
  intros W. induction fuel as [|fuel IH]; intros k ci off _ H1 H2 H3 (c & C1 & C2 & C3); [lia|].
  cbn [find_src fst snd].
  destruct (nth_error (b_chains b) k) as [ck|] eqn:Ek; [|apply nth_error_None in Ek; lia].
  destruct (Nat.eqb_spec ci k) as [->|Hne].
  - rewrite C1 in Ek. inversion Ek; subst ck.
    replace (c_use c <=? off) with true by (symmetry; apply Nat.leb_le; lia).
    replace (off <=? c_len c - 1) with true by (symmetry; apply Nat.leb_le; lia). reflexivity.
  - cbn [andb].
    destruct (nth_error (b_chains b) (S k)) as [cn|] eqn:En; [|apply nth_error_None in En; lia].
    replace (S k =? length (b_chains b) - 1) with false by (symmetry; apply Nat.eqb_neq; lia).
    apply IH; [reflexivity|lia|lia|lia|eauto].
Qed.

Lemma memcpy_earlier_spec b i ci off k len : wf b -> ptr_at (b_chains b) 0 i = Some (ci, off) ->
  i + len <= length (stream b) -> k <= ci -> (k = ci \/ S ci < length (b_chains b)) ->
  memcpy b (ci, off) k len = Ok (firstn len (skipn i (stream b))).
Proof.
  intros W P H Hk [->|Hl]; [now apply memcpy_spec|].
  unfold memcpy. destruct len as [|len]; [reflexivity|].
  pose proof W as (W0 & _). destruct (wf_mem _ _ _ W0) as (tail & T1 & T2 & _). fold (stream b) in T1.
  destruct (ptr_at_step _ _ _ 0 i W0) as (j & off' & c & J1 & J2 & J3 & J4 & J5 & _); [rewrite T1, app_length; lia|].
  rewrite P in J1. inversion J1; subst ci off'. cbn [Nat.add] in *.
  rewrite (find_src_earlier b W) by (try reflexivity; try lia; eauto).
  cbn [obind snd]. apply copy_loop_spec; assumption.
Qed.

(** ** fly_update_chain *)
Lemma walk_chain_spec per : forall cs ci l, wf_chains per false cs -> 1 <= l -> l - 1 <= length (flat_map c_view cs) ->
  walk_chain cs ci l = ptr_at cs ci (l - 1).
Proof.
  induction cs as [|c t IH]; intros ci l W H1 H2; [destruct W|].
  cbn [walk_chain ptr_at].
  destruct t as [|d t].
  - cbn [wf_chains] in W. destruct W as (W1 & W2 & W3 & W4). specialize (W4 eq_refl).
    cbn [flat_map] in H2. rewrite app_nil_r, c_view_length in H2 by assumption.
    unfold c_act, c_written in *.
    replace (l <=? c_len c) with true by (symmetry; apply Nat.leb_le; lia).
    replace (l - 1 <? c_len c - c_use c) with true by (symmetry; apply Nat.ltb_lt; lia).
    f_equal. f_equal. lia.
  - cbn [wf_chains] in W. destruct W as (W1 & W2 & W3 & W4 & W5). specialize (W4 eq_refl).
    destruct (c_act_full per false c) as (A1 & A2 & A3); [unfold full_chain; auto|].
    change (flat_map c_view (c :: d :: t)) with (c_view c ++ flat_map c_view (d :: t)) in H2.
    rewrite app_length in H2. unfold c_act in *.
    destruct (Nat.leb_spec l (c_len c)).
    + replace (l - 1 <? c_len c - c_use c) with true by (symmetry; apply Nat.ltb_lt; lia).
      f_equal. f_equal. lia.
    + replace (l - 1 <? c_len c - c_use c) with false by (symmetry; apply Nat.ltb_ge; lia).
      rewrite (IH (S ci) (l - c_len c) W5) by lia. f_equal. lia.
Qed.

Lemma update_chain_gen per : forall cs f ci0 i ci off len,
  wf_chains per f cs -> ptr_at cs ci0 i = Some (ci, off) -> i + len <= length (flat_map c_view cs) ->
  exists j c, ci = ci0 + j /\ nth_error cs j = Some c /\
    ptr_at cs ci0 (i + len) =
      if off + len <=? c_len c - 1 then Some (ci, off + len)
      else walk_chain (skipn (S j) cs) (S ci) (off + len - (c_len c - 1)).
Proof.
  induction cs as [|c t IH]; intros f ci0 i ci off len W P H; [destruct W|].
  cbn [ptr_at] in P |- *. pose proof (wf_chains_use _ _ _ W) as [Wu Wu'].
  destruct (Nat.ltb_spec i (c_act c)) as [Hi|Hi].
  - inversion P; subst ci off. exists 0, c. rewrite Nat.add_0_r. split; [reflexivity|]. split; [reflexivity|].
    cbn [skipn]. unfold c_act in *.
    destruct (Nat.leb_spec (c_use c + i + len) (c_len c - 1)).
    + replace (i + len <? c_len c - c_use c) with true by (symmetry; apply Nat.ltb_lt; lia).
      f_equal. f_equal. lia.
    + replace (i + len <? c_len c - c_use c) with false by (symmetry; apply Nat.ltb_ge; lia).
      destruct t as [|d t].
      * cbn [wf_chains] in W. destruct W as (W1 & W2 & W3 & W4).
        cbn [flat_map] in H. rewrite app_nil_r, c_view_length in H by assumption.
        unfold c_written in *. lia.
      * cbn [wf_chains] in W. destruct W as (W1 & W2 & W3 & W4 & W5).
        destruct (c_act_full per f c) as (A1 & A2 & A3); [unfold full_chain; auto|].
        change (flat_map c_view (c :: d :: t)) with (c_view c ++ flat_map c_view (d :: t)) in H.
        rewrite app_length in H. unfold c_act in *.
        rewrite (walk_chain_spec per) by (try assumption; lia). f_equal. lia.
  - destruct t as [|d t]; [discriminate|]. cbn [wf_chains] in W. destruct W as (W1 & W2 & W3 & W4 & W5).
    destruct (c_act_full per f c) as (A1 & A2 & A3); [unfold full_chain; auto|].
    change (flat_map c_view (c :: d :: t)) with (c_view c ++ flat_map c_view (d :: t)) in H.
    rewrite app_length in H.
    destruct (IH false (S ci0) (i - c_act c) ci off len W5 P) as (j & c' & J1 & J2 & J3); [lia|].
    exists (S j), c'. split; [lia|]. split; [exact J2|].
    replace (i + len <? c_act c) with false by (symmetry; apply Nat.ltb_ge; lia).
    replace (i + len - c_act c) with (i - c_act c + len) by lia. exact J3.
Qed.

Lemma update_chain_spec b i ci off len : wf b -> ptr_at (b_chains b) 0 i = Some (ci, off) ->
  i + len <= length (stream b) -> update_chain b (ci, off) len = ptr_at (b_chains b) 0 (i + len).
Proof.
  intros (W & _) P H.
  destruct (update_chain_gen _ _ _ 0 i ci off len W P H) as (j & c & -> & J2 & J3).
  cbn [Nat.add] in *. unfold update_chain. rewrite J2, J3. reflexivity.
Qed.

(** ** Initialisation, refresh, and the connection *)
Lemma fresh_length per junk : length (fresh per junk) = per.
Proof. unfold fresh. rewrite firstn_length, app_length, repeat_length. lia. Qed.

Lemma init_spec junk max per : 0 < max -> 0 < per -> length junk = per ->
  exists b, buf_init junk 1 max per = Some b /\ wf b /\ stream b = [] /\ b_max b = max /\ b_per b = per.
Proof.
  intros Hm Hp J. unfold buf_init. cbn [init_chains]. unfold add_chain; cbn [b_max b_count].
  replace (max <=? 0) with false by (symmetry; apply Nat.leb_gt; lia).
  eexists; split; [reflexivity|].
  assert (S0 : stream (mkBuffer ([] ++ [mkChain junk 0 (length junk)]) 1 max per 0) = []).
  { unfold stream; cbn [b_chains app flat_map]. rewrite app_nil_r.
    unfold c_view, c_written, c_len; cbn [c_data c_use c_unuse]. rewrite Nat.sub_diag. reflexivity. }
  cbn [b_chains b_count b_max b_per b_use_len] in *.
  split; [|split; [exact S0|split; reflexivity]].
  unfold wf. rewrite S0. cbn [b_chains b_count b_max b_per b_use_len app wf_chains length].
  unfold c_written, c_len; cbn [c_data c_use c_unuse].
  split; [split; [lia|split; [lia|split; [lia|discriminate]]]|]. split; [reflexivity|]. split; [lia|]. split; [reflexivity|lia].
Qed.

Lemma refresh_spec b : wf b -> stream b = [] -> wf (refresh_first b) /\ stream (refresh_first b) = []
  /\ b_max (refresh_first b) = b_max b /\ b_per (refresh_first b) = b_per b /\ b_count (refresh_first b) = b_count b.
Proof.
  intros (W & C & M & U & P) S. unfold refresh_first.
  destruct (b_chains b) as [|c t] eqn:E; [destruct W|].
  assert (Ht : t = []).
  { destruct t as [|d t]; [reflexivity|]. exfalso. cbn [wf_chains] in W. destruct W as (W1 & W2 & W3 & W4 & W5).
    destruct (c_act_full (b_per b) true c) as (A1 & A2 & A3); [unfold full_chain; auto|].
    unfold stream in S. rewrite E in S. cbn [flat_map] in S. destruct (c_view c); [cbn in A1; lia|discriminate]. }
  subst t. cbn [wf_chains] in W. destruct W as (W1 & W2 & W3 & W4).
  assert (S1 : stream (mkBuffer [mkChain (c_data c) 0 (c_len c)] (b_count b) (b_max b) (b_per b) (b_use_len b)) = []).
  { unfold stream; cbn [b_chains flat_map]. rewrite app_nil_r.
    unfold c_view, c_written, c_len; cbn [c_data c_use c_unuse]. rewrite Nat.sub_diag. reflexivity. }
  split; [|split; [exact S1|repeat split; reflexivity]].
  unfold wf. rewrite S1. cbn [b_chains b_count b_max b_per b_use_len wf_chains length].
  unfold c_written, c_len in *; cbn [c_data c_use c_unuse] in *.
  split; [split; [lia|split; [lia|split; [lia|reflexivity]]]|].
  rewrite U, S. cbn. cbn [length] in C. split; [lia|]. split; [lia|]. split; [reflexivity|lia].
Qed.

(** Invariant of a connection that has been sent [sent] and whose buffer has limit [max]. *)
Definition kinv (sent : list N) (max per : nat) (c : conn) : Prop :=
  (exists rest, sent = k_out c ++ rest) /\
  b_max (k_buf c) = max /\
  b_count (k_buf c) <= max /\
  (k_over c = false -> wf (k_buf c) /\ b_per (k_buf c) = per /\ sent = k_out c ++ stream (k_buf c) ++ k_src c) /\
  (k_over c = true -> b_count (k_buf c) = max).

Lemma recv_limit_max junk b d b' : recv_chunk junk b d = Ok (UpdLimit b') -> b_max b' = b_max b.
Proof.
  unfold recv_chunk. destruct (length d <=? lunuse_len b); [|discriminate]. unfold update_buffer.
  assert (G : forall fuel b0 n b1, update_loop fuel junk b0 n = Ok (UpdLimit b1) -> b_max b1 = b_max b0).
  { induction fuel as [|fuel IH]; intros b0 n b1; cbn [update_loop]; [discriminate|].
    destruct (last_opt (b_chains b0)) as [l|]; [|discriminate].
    destruct (c_unuse l <=? n); [|discriminate].
    unfold add_chain; cbn [b_max b_count].
    destruct (b_max b0 <=? b_count b0).
    - intros X; inversion X; reflexivity.
    - intros X. apply IH in X. exact X. }
  intros X. apply G in X. exact X.
Qed.

Lemma kstep_inv sent max per c o : kinv sent max per c ->
  exists c', kstep c o = Ok c' /\ kinv sent max per c'.
Proof.
  intros I. pose proof I as ((rest & R) & Mx & Ct & K & Ko). unfold kstep.
  destruct (k_over c) eqn:Ov; [eauto|].
  destruct (K eq_refl) as (W & Pr & Sn). destruct o as [k junk|n|].
  - set (d := firstn (Nat.min k (lunuse_len (k_buf c))) (k_src c)).
    assert (Ld : length d <= lunuse_len (k_buf c)) by (unfold d; rewrite firstn_length; lia).
    assert (Dd : k_src c = d ++ skipn (length d) (k_src c)).
    { unfold d. rewrite firstn_length.
      destruct (Nat.le_gt_cases (Nat.min k (lunuse_len (k_buf c))) (length (k_src c))) as [h|h].
      - rewrite (Nat.min_l _ _ h). symmetry. apply firstn_skipn.
      - rewrite (Nat.min_r (Nat.min _ _)) by lia. rewrite firstn_all2 by lia. rewrite skipn_all. rewrite app_nil_r. reflexivity. }
    pose proof (recv_chunk_spec (fresh (b_per (k_buf c)) junk) (k_buf c) d W (fresh_length _ _) Ld) as Sp.
    destruct ((length d <? lunuse_len (k_buf c)) || (b_count (k_buf c) <? b_max (k_buf c))).
    + destruct Sp as (b' & -> & Wb & Sb & Mb & Pb). cbn [obind]. eexists; split; [reflexivity|].
      unfold kinv; cbn [k_src k_buf k_out k_over].
      split; [eauto|]. split; [lia|]. split; [destruct Wb as (_ & _ & X & _); lia|].
      split; [|discriminate]. intros _. split; [assumption|]. split; [lia|].
      rewrite Sb, Sn at 1. rewrite Dd at 1. rewrite !app_assoc. reflexivity.
    + destruct Sp as (b' & Rb & Cb). pose proof (recv_limit_max _ _ _ _ Rb) as Mb. rewrite Rb.
      cbn [obind]. eexists; split; [reflexivity|].
      unfold kinv; cbn [k_src k_buf k_out k_over].
      split; [eauto|]. split; [lia|]. split; [lia|]. split; [discriminate|intros _; lia].
  - set (n' := Nat.min n (b_use_len (k_buf c))).
    pose proof W as (W0 & _ & _ & U & _).
    pose proof (ptr_at_0 _ _ _ W0) as P0.
    destruct (b_chains (k_buf c)) as [|f t] eqn:Ef; [destruct P0|].
    rewrite <- Ef in P0.
    assert (Hn : n' <= length (stream (k_buf c))) by (unfold n'; lia).
    rewrite (memcpy_spec _ 0 _ _ n' W P0 Hn). cbn [obind skipn].
    destruct (release_spec _ _ W Hn) as (b' & -> & Wb & Sb & Mb & Pb & Cb). cbn [obind].
    eexists; split; [reflexivity|]. unfold kinv; cbn [k_src k_buf k_out k_over].
    assert (E : sent = (k_out c ++ firstn n' (stream (k_buf c))) ++ stream b' ++ k_src c).
    { rewrite Sb, <- app_assoc, (app_assoc (firstn _ _)), firstn_skipn. exact Sn. }
    split; [eexists; exact E|]. split; [lia|]. split; [lia|]. split; [|discriminate].
    intros _. split; [assumption|]. split; [lia|exact E].
  - destruct (Nat.eqb_spec (b_use_len (k_buf c)) 0) as [Hz|Hz]; [|eauto].
    pose proof W as (W0 & _ & _ & U & _).
    assert (S0 : stream (k_buf c) = []) by (destruct (stream (k_buf c)); [reflexivity|cbn in U; lia]).
    destruct (refresh_spec _ W S0) as (Wr & Sr & Mr & Pr' & Cr).
    eexists; split; [reflexivity|]. unfold kinv; cbn [k_src k_buf k_out k_over].
    split; [eauto|]. split; [lia|]. split; [lia|]. split; [|discriminate]. intros _.
    split; [assumption|]. split; [lia|]. rewrite Sr. rewrite S0 in Sn. exact Sn.
Qed.

Lemma krun_inv sent max per : forall os c, kinv sent max per c ->
  exists c', krun c os = Ok c' /\ kinv sent max per c'.
Proof.
  induction os as [|o os IH]; intros c I; cbn [krun]; [eauto|].
  destruct (kstep_inv _ _ _ _ o I) as (c' & -> & I'). cbn [obind]. apply IH. exact I'.
Qed.

(** ** Searching *)
Definition occurs (pat s : list N) (i : nat) : Prop :=
  exists pre post, s = pre ++ pat ++ post /\ length pre = i.

Lemma occurs_nth pat s i : occurs pat s i <-> (forall k, k < length pat -> nth_error s (i + k) = nth_error pat k) /\ i <= length s.
Proof.
  split.
  - intros (pre & post & -> & <-). split.
    + intros k Hk. rewrite nth_error_app2 by lia. replace (length pre + k - length pre) with k by lia.
      apply nth_error_app1; lia.
    + rewrite app_length. lia.
  - intros [H Hi]. exists (firstn i s), (skipn (length pat) (skipn i s)).
    split; [|rewrite firstn_length; lia].
    rewrite <- (firstn_skipn i s) at 1. f_equal.
    assert (G : forall k, k < length pat -> nth_error (skipn i s) k = nth_error pat k).
    { intros k Hk. rewrite nth_error_skipn. apply H; assumption. }
    clear H Hi. revert G. generalize (skipn i s) as t. clear. induction pat as [|x pat IH]; intros t G; [reflexivity|].
    destruct t as [|y t].
    { specialize (G 0 ltac:(cbn; lia)). discriminate. }
    pose proof (G 0 ltac:(cbn; lia)) as G0. cbn in G0. inversion G0; subst y. cbn. f_equal.
    apply IH. intros k Hk. apply (G (S k)). cbn; lia.
Qed.

Section Search.
Variable b : buffer.
Hypothesis W : wf b.
Notation cs := (b_chains b).
Notation M := (length (mem (b_chains b))).
Notation P := (ptr_at (b_chains b) 0).

Lemma P_total i : i < M -> exists p, P i = Some p.
Proof.
  intros H. destruct W as (W0 & _). destruct (ptr_at_step _ _ _ 0 i W0 H) as (j & off & c & J & _). eauto.
Qed.

Lemma P_step i p : i < M -> P i = Some p ->
  load b p = match nth_error (mem cs) i with Some x => Ok x | None => UB OutOfBounds end /\
  P (Nat.min (S i) (M - 1)) = Some (bufp_inc b p) /\ bufp_end b p = (S i =? M).
Proof.
  intros H Hp. destruct W as (W0 & _).
  destruct (ptr_at_step _ _ _ 0 i W0 H) as (j & off & c & J1 & J2 & J3 & J4 & J5 & J6 & J7 & J8).
  rewrite Hp in J1. inversion J1; subst p. cbn [Nat.add] in *.
  unfold load, bufp_inc, bufp_end; cbn [fst snd]. rewrite J2. rewrite J3.
  split; [reflexivity|]. split.
  - destruct (c_len c - 1 <? S off).
    + destruct (nth_error cs (S j)) as [n|] eqn:En.
      * assert (S j < length cs) by (apply nth_error_Some; congruence).
        rewrite Nat.min_l by lia. exact J6.
      * rewrite Nat.min_r by lia. replace (M - 1) with i by lia. exact Hp.
    + rewrite Nat.min_l by lia. apply J6.
  - assert (j < length cs) by (apply nth_error_Some; congruence).
    destruct (Nat.eqb_spec (S j) (length cs)) as [E|E]; cbn [andb].
    + specialize (J8 E). destruct (Nat.leb_spec (c_len c - 1) off) as [L|L]; destruct (Nat.eqb_spec (S i) M) as [Q|Q]; try reflexivity; exfalso; lia.
    + specialize (J7 ltac:(lia)). symmetry. apply Nat.eqb_neq. lia.
Qed.

Lemma ss_inner_spec : forall str i p, str <> [] -> i < M -> P i = Some p ->
  exists r, ss_inner b p str = Ok r /\
  match r with
  | SsFound q => occurs str (mem cs) i /\ P (Nat.min (i + length str) (M - 1)) = Some q
  | SsNull => M <= i + length str
  | SsMismatch q => exists k, k < length str /\ i + k < M /\ P (i + k) = Some q /\
      (forall t, t < k -> nth_error (mem cs) (i + t) = nth_error str t) /\
      nth_error (mem cs) (i + k) <> nth_error str k
  end.
Proof.
  induction str as [|x str IH]; intros i p Hne Hi Hp; [congruence|].
  destruct (P_step i p Hi Hp) as (L & I & E). cbn [ss_inner]. rewrite L.
  destruct (nth_error (mem cs) i) as [y|] eqn:Ey; [|apply nth_error_None in Ey; lia].
  cbn [obind]. destruct (N.eqb_spec y x) as [->|Hxy].
  - destruct str as [|x2 str].
    + eexists; split; [reflexivity|]. split.
      * apply occurs_nth. split; [|lia]. intros k Hk. destruct k; [|cbn in Hk; lia].
        rewrite Nat.add_0_r. exact Ey.
      * cbn [length]. rewrite Nat.add_1_r. exact I.
    + destruct (P_step (Nat.min (S i) (M - 1)) _ ltac:(lia) I) as (_ & _ & E2). rewrite E2.
      destruct (Nat.eqb_spec (S (Nat.min (S i) (M - 1))) M) as [Q|Q].
      * eexists; split; [reflexivity|]. cbn [length]. lia.
      * assert (Hm : Nat.min (S i) (M - 1) = S i) by lia. rewrite Hm in *.
        destruct (IH (S i) (bufp_inc b p) ltac:(discriminate) ltac:(lia) I) as (r & -> & R).
        exists r. split; [reflexivity|]. destruct r as [q| |q].
        -- destruct R as [R1 R2]. split.
           ++ apply occurs_nth in R1 as [R1 _]. apply occurs_nth. split; [|lia].
              intros k Hk. destruct k as [|k]; [rewrite Nat.add_0_r; exact Ey|].
              cbn [length nth_error] in *. rewrite <- (R1 k) by lia. f_equal. lia.
           ++ rewrite <- R2. f_equal. cbn [length]. lia.
        -- cbn [length] in *. lia.
        -- destruct R as (k & R1 & R2 & R3 & R4 & R5). exists (S k). cbn [length] in *.
           split; [lia|]. split; [lia|]. split; [rewrite <- R3; f_equal; lia|].
           split.
           ++ intros t Ht. destruct t as [|t]; [rewrite Nat.add_0_r; exact Ey|].
              cbn [nth_error]. rewrite <- R4 by lia. f_equal. lia.
           ++ cbn [nth_error]. replace (i + S k) with (S i + k) by lia. exact R5.
  - eexists; split; [reflexivity|]. exists 0. rewrite Nat.add_0_r. cbn [length].
    split; [lia|]. split; [exact Hi|]. split; [exact Hp|]. split; [intros; lia|]. rewrite Ey. cbn. congruence.
Qed.

(** No occurrence starting at [j] can be skipped by a restart after a partial match. *)
Definition skip_ok (str s : list N) (j : nat) : Prop := forall i k, i < j -> k < length str ->
  (forall t, t < k -> nth_error s (i + t) = nth_error str t) -> nth_error s (i + k) <> nth_error str k ->
  i + k < j.

Lemma strstr_loop_spec str : str <> [] -> forall fuel i p, i < M -> M - i < fuel -> P i = Some p ->
  exists r, strstr_loop fuel b p str = Ok r /\
    (forall q, r = Some q -> exists j, i <= j /\ occurs str (mem cs) j /\ P (Nat.min (j + length str) (M - 1)) = Some q) /\
    (forall j, i <= j -> occurs str (mem cs) j -> (forall j', j' < j -> ~ occurs str (mem cs) j') ->
       j + length str < M -> skip_ok str (mem cs) j -> exists q, r = Some q /\ P (j + length str) = Some q).
Proof.
  intros Hne. induction fuel as [|fuel IH]; intros i p Hi Hf Hp; [lia|].
  cbn [strstr_loop]. destruct (ss_inner_spec str i p Hne Hi Hp) as (r & -> & R). cbn [obind].
  destruct r as [q| |q].
  - destruct R as [R1 R2]. exists (Some q). split; [reflexivity|]. split.
    + intros q' X; inversion X; subst q'. exists i. auto.
    + intros j J1 J2 J3 J4 J5. assert (j = i).
      { destruct (Nat.eq_dec j i); [assumption|]. exfalso. apply (J3 i); [lia|assumption]. }
      subst j. exists q. split; [reflexivity|]. rewrite <- R2. f_equal. lia.
  - exists None. split; [reflexivity|]. split; [discriminate|]. intros j J1 J2 J3 J4. lia.
  - destruct R as (k & R1 & R2 & R3 & R4 & R5).
    destruct (P_step (i + k) q R2 R3) as (_ & I & _).
    destruct (P_step (Nat.min (S (i + k)) (M - 1)) _ ltac:(lia) I) as (_ & _ & E2). rewrite E2.
    assert (Hj : forall j, i <= j -> occurs str (mem cs) j -> skip_ok str (mem cs) j -> i + k < j).
    { intros j J1 J2 J3. apply J3; try assumption. destruct (Nat.eq_dec i j) as [<-|]; [|lia].
      exfalso. apply occurs_nth in J2 as [J2 _]. apply R5. apply J2. assumption. }
    assert (Hl : 0 < length str) by (destruct str; [congruence|cbn; lia]).
    destruct (Nat.eqb_spec (S (Nat.min (S (i + k)) (M - 1))) M) as [Q|Q].
    + exists None. split; [reflexivity|]. split; [discriminate|].
      intros j J1 J2 J3 J4 J5. specialize (Hj j J1 J2 J5). lia.
    + assert (Hm : Nat.min (S (i + k)) (M - 1) = S (i + k)) by lia. rewrite Hm in *.
      destruct (IH (S (i + k)) (bufp_inc b q) ltac:(lia) ltac:(lia) I) as (r & -> & A & B).
      exists r. split; [reflexivity|]. split.
      * intros q' X. destruct (A q' X) as (j & J1 & J2 & J3). exists j. split; [lia|]. auto.
      * intros j J1 J2 J3 J4 J5. apply B; try assumption. specialize (Hj j J1 J2 J5). lia.
Qed.

Lemma mem_size_ge : M <= mem_size b.
Proof.
  unfold mem_size, mem. clear. induction (b_chains b) as [|c t IH]; [cbn; lia|].
  cbn [flat_map map]. unfold list_sum in *. cbn [fold_right]. rewrite app_length, c_mem_length. unfold c_act. lia.
Qed.

Lemma strstr_spec str : str <> [] ->
  exists r, strstr_after b str = Ok r /\
    (forall q, r = Some q -> exists j, occurs str (mem cs) j /\ P (Nat.min (j + length str) (M - 1)) = Some q) /\
    (forall j, occurs str (stream b) j -> (forall j', j' < j -> ~ occurs str (stream b) j') ->
       skip_ok str (stream b) j -> exists q, r = Some q /\ P (j + length str) = Some q).
Proof.
  intros Hne. pose proof W as (W0 & _). pose proof (ptr_at_0 _ _ _ W0) as P0.
  destruct (wf_mem _ _ _ W0) as (tail & T1 & T2 & _). fold (stream b) in T1.
  assert (TL : M = length (stream b) + length tail) by (rewrite T1, app_length; lia).
  assert (Hc : exists c t, cs = c :: t /\ P 0 = Some (0, c_use c)).
  { destruct cs as [|c t]; [destruct P0|]. eauto. }
  destruct Hc as (c & t & Ec & P0').
  assert (Es : strstr_after b str = strstr_loop (S (mem_size b)) b (0, c_use c) str)
    by (unfold strstr_after; rewrite Ec; reflexivity).
  rewrite Es.
  assert (HM : 0 < M) by lia.
  destruct (strstr_loop_spec str Hne (S (mem_size b)) 0 (0, c_use c)) as (r & -> & A & B);
    [lia|pose proof mem_size_ge; lia|exact P0'|].
  exists r. split; [reflexivity|]. split.
  - intros q X. destruct (A q X) as (j & _ & J). eauto.
  - intros j J1 J2 J3.
    assert (Hl : 0 < length str) by (destruct str; [congruence|cbn; lia]).
    assert (Jl : j + length str <= length (stream b)).
    { destruct J1 as (pre & post & -> & <-). rewrite !app_length. lia. }
    assert (T : forall u, u < length (stream b) -> nth_error (mem cs) u = nth_error (stream b) u).
    { intros u Hu. rewrite T1. apply nth_error_app1. exact Hu. }
    apply B; try lia.
    + apply occurs_nth in J1 as [J1 J1']. apply occurs_nth. split; [|lia].
      intros k Hk. rewrite T by lia. auto.
    + intros j' Hj' O. apply (J2 j' Hj'). apply occurs_nth in O as [O _]. apply occurs_nth. split; [|lia].
      intros k Hk. rewrite <- T by lia. auto.
    + intros i k I1 I2 I3 I4. destruct (Nat.lt_ge_cases (i + k) j) as [|Hge]; [assumption|].
      apply J3; try assumption.
      * intros u Hu. rewrite <- T by lia. auto.
      * rewrite <- T by lia. exact I4.
Qed.
End Search.

(** The two delimiters of HTTP/1, and when restarting after a partial match is harmless. *)
Definition CR : N := 13%N.
Definition LF : N := 10%N.
Definition CRLF : list N := [CR; LF].
Definition CRLF2 : list N := [CR; LF; CR; LF].
(** No CR directly after a CR before position [j] (counting a CR at [j]). *)
Definition no_crcr (s : list N) (j : nat) : Prop :=
  forall t, t < j -> nth_error s t = Some CR -> nth_error s (S t) <> Some CR.

Lemma skip_ok_crlf s j : occurs CRLF s j -> no_crcr s j -> skip_ok CRLF s j.
Proof.
  intros O Nc i k Hi Hk Hp Hm. apply occurs_nth in O as [O _]. destruct (Nat.lt_ge_cases (i + k) j) as [|Hge]; [assumption|exfalso].
  pose proof (O 0 ltac:(cbn; lia)) as O0. rewrite Nat.add_0_r in O0. cbn in O0. cbn in Hk.
  destruct k as [|[|k]]; [lia| |lia].
  assert (j = S i) by lia. subst j. specialize (Hp 0 ltac:(lia)). rewrite Nat.add_0_r in Hp. cbn in Hp.
  apply (Nc i); try lia; assumption.
Qed.

Lemma skip_ok_crlf2 s j : occurs CRLF2 s j -> no_crcr s j -> skip_ok CRLF2 s j.
Proof.
  intros O Nc i k Hi Hk Hp Hm. apply occurs_nth in O as [O _]. destruct (Nat.lt_ge_cases (i + k) j) as [|Hge]; [assumption|exfalso].
  pose proof (O 0 ltac:(cbn; lia)) as O0. rewrite Nat.add_0_r in O0. cbn in O0.
  pose proof (O 1 ltac:(cbn; lia)) as O1. rewrite Nat.add_1_r in O1. cbn in O1. cbn in Hk.
  assert (P0 : 0 < k -> nth_error s i = Some CR) by (intros h; rewrite <- (Nat.add_0_r i); apply (Hp 0 h)).
  assert (P1 : 1 < k -> nth_error s (S i) = Some LF) by (intros h; rewrite <- Nat.add_1_r; apply (Hp 1 h)).
  assert (P2 : 2 < k -> nth_error s (S (S i)) = Some CR) by (intros h; replace (S (S i)) with (i + 2) by lia; apply (Hp 2 h)).
  destruct k as [|[|[|[|k]]]]; try lia.
  - assert (j = S i) by lia. subst j. apply (Nc i); try lia; [apply P0; lia|assumption].
  - assert (j = S i \/ j = S (S i)) as [->| ->] by lia.
    + rewrite P1 in O0 by lia. discriminate.
    + replace (i + 2) with (S (S i)) in Hm by lia. apply Hm. exact O0.
  - assert (j = S i \/ j = S (S i) \/ j = S (S (S i))) as [->|[->| ->]] by lia.
    + rewrite P1 in O0 by lia. discriminate.
    + replace (i + 3) with (S (S (S i))) in Hm by lia. apply Hm. exact O1.
    + apply (Nc (S (S i))); try lia; [apply P2; lia|assumption].
Qed.

(** ** Facts in the form used by Properties_Buffer.v *)
Lemma need_room unuse per n count max : 0 < per -> 0 < unuse -> count <= max ->
  (count + need unuse per n <= max <-> n < unuse + (max - count) * per).
Proof.
  intros Hp Hu Hc. unfold need. destruct (Nat.ltb_spec n unuse) as [H|H].
  - split; intros; [|lia]. generalize ((max - count) * per); intros; lia.
  - pose proof (Nat.div_mod (n - unuse) per ltac:(lia)) as D.
    pose proof (Nat.mod_upper_bound (n - unuse) per ltac:(lia)) as U.
    set (q := (n - unuse) / per) in *. set (r := (n - unuse) mod per) in *.
    split; intros X.
    + assert (S q <= max - count) by lia. assert (S q * per <= (max - count) * per) by (apply Nat.mul_le_mono_r; assumption).
      nia.
    + destruct (Nat.le_gt_cases (S q) (max - count)) as [|Y]; [lia|]. exfalso.
      assert ((max - count) * per <= q * per) by (apply Nat.mul_le_mono_r; lia). nia.
Qed.

Lemma wf_unuse_pos b : wf b -> 0 < lunuse_len b.
Proof.
  intros W. destruct (wf_last b W) as (pre & l & E & Wp & Wl & L).
  unfold lunuse_len. rewrite L. destruct Wl as (_ & X & _). lia.
Qed.

(** Bytes that can still be appended, counting the blocks not yet allocated. *)
Definition room (b : buffer) : nat := lunuse_len b + (b_max b - b_count b) * b_per b.

Lemma append_iff junk b n : wf b -> length junk = b_per b ->
  exists r, update_buffer junk b n = Ok r /\
    match r with
    | UpdSuccess b' => n < room b /\ wf b' /\ b_max b' = b_max b /\ b_count b' <= b_max b /\ b_use_len b' = b_use_len b + n
    | UpdLimit b' => room b <= n /\ b_count b' = b_max b
    end.
Proof.
  intros W J. destruct (update_loop_spec (S (S n)) junk b n W J) as (r & R & Sp); [lia|].
  exists r. split; [exact R|]. pose proof (wf_unuse_pos b W) as U. pose proof W as (_ & _ & M & _ & P).
  pose proof (need_room (lunuse_len b) (b_per b) n (b_count b) (b_max b) P U M) as NR. fold (room b) in NR.
  destruct (Nat.leb_spec (b_count b + need (lunuse_len b) (b_per b) n) (b_max b)) as [H|H].
  - destruct Sp as (b' & -> & Wb & Cb & Mb & Pb & Ub & _). split; [apply NR; lia|].
    split; [assumption|]. split; [assumption|]. split; [|assumption]. lia.
  - destruct Sp as (b' & -> & Cb & _). split; [|assumption].
    destruct (Nat.le_gt_cases (room b) n); [assumption|]. apply NR in H0. lia.
Qed.

Lemma stream_bound b : wf b -> length (stream b) < b_max b * b_per b.
Proof.
  intros (W & C & M & U & P).
  assert (G : forall cs f, wf_chains (b_per b) f cs -> length (flat_map c_view cs) < length cs * b_per b).
  { induction cs as [|c t IH]; intros f H; [destruct H|]. destruct t as [|d t].
    - destruct H as (H1 & H2 & H3 & H4). cbn [flat_map]. rewrite app_nil_r, c_view_length by assumption.
      unfold c_written in *. cbn. lia.
    - pose proof (wf_chains_cons _ _ _ _ _ H) as Ht. destruct H as (H1 & H2 & H3 & H4 & _).
      specialize (IH false Ht). destruct (c_act_full (b_per b) f c) as (A1 & A2 & A3); [unfold full_chain; auto|].
      change (flat_map c_view (c :: d :: t)) with (c_view c ++ flat_map c_view (d :: t)). rewrite app_length.
      unfold c_act in *. cbn [length] in *. lia. }
  specialize (G _ _ W). fold (stream b) in G. rewrite <- C in G.
  assert (b_count b * b_per b <= b_max b * b_per b) by (apply Nat.mul_le_mono_r; assumption). lia.
Qed.

Lemma chain_max_capacity max_len per : 0 < per -> max_len < connect_chain_max max_len per * per.
Proof.
  intros H. unfold connect_chain_max. pose proof (Nat.div_mod max_len per ltac:(lia)) as D.
  pose proof (Nat.mod_upper_bound max_len per ltac:(lia)) as U. nia.
Qed.

Lemma krun_start sent junk max per os : 0 < max -> 0 < per ->
  exists b0 c, buf_init (fresh per junk) 1 max per = Some b0 /\
    krun (mkConn sent b0 [] false) os = Ok c /\ kinv sent max per c.
Proof.
  intros Hm Hp. destruct (init_spec (fresh per junk) max per Hm Hp (fresh_length _ _)) as (b0 & I & W & S & M & P).
  exists b0. destruct (krun_inv sent max per os (mkConn sent b0 [] false)) as (c & R & K).
  { unfold kinv; cbn [k_src k_buf k_out k_over]. split; [exists sent; reflexivity|]. split; [assumption|].
    split; [destruct W as (_ & _ & X & _); lia|]. split; [|discriminate]. intros _. split; [assumption|].
    split; [assumption|]. rewrite S. reflexivity. }
  exists c. auto.
Qed.

Lemma krun_same_bytes sent junk1 junk2 max per os1 os2 c1 c2 b1 b2 : 0 < max -> 0 < per ->
  buf_init (fresh per junk1) 1 max per = Some b1 -> buf_init (fresh per junk2) 1 max per = Some b2 ->
  krun (mkConn sent b1 [] false) os1 = Ok c1 -> krun (mkConn sent b2 [] false) os2 = Ok c2 ->
  length (k_out c1) = length (k_out c2) -> k_out c1 = k_out c2.
Proof.
  intros Hm Hp I1 I2 R1 R2 L.
  destruct (krun_start sent junk1 max per os1 Hm Hp) as (x1 & y1 & A1 & A2 & ((r1 & A3) & _)).
  destruct (krun_start sent junk2 max per os2 Hm Hp) as (x2 & y2 & B1 & B2 & ((r2 & B3) & _)).
  rewrite I1 in A1. inversion A1; subst x1. rewrite I2 in B1. inversion B1; subst x2.
  rewrite R1 in A2. inversion A2; subst y1. rewrite R2 in B2. inversion B2; subst y2.
  rewrite A3 in B3. apply (f_equal (firstn (length (k_out c1)))) in B3.
  rewrite firstn_app, Nat.sub_diag, firstn_all in B3. cbn [firstn] in B3. rewrite app_nil_r in B3.
  rewrite L, firstn_app, Nat.sub_diag, firstn_all in B3. cbn [firstn] in B3. rewrite app_nil_r in B3. exact B3.
Qed.

Lemma crlf_found b pat j : wf b -> (pat = CRLF \/ pat = CRLF2) ->
  occurs pat (stream b) j -> (forall j', j' < j -> ~ occurs pat (stream b) j') -> no_crcr (stream b) j ->
  exists q, strstr_after b pat = Ok (Some q) /\ ptr_at (b_chains b) 0 (j + length pat) = Some q.
Proof.
  intros W Hp O F Nc. assert (Hne : pat <> []) by (destruct Hp as [->| ->]; discriminate).
  destruct (strstr_spec b W pat Hne) as (r & R & _ & B).
  destruct (B j O F) as (q & -> & Q); [|eauto].
  destruct Hp as [->| ->]; [apply skip_ok_crlf|apply skip_ok_crlf2]; assumption.
Qed.

Lemma found_real b pat q : wf b -> pat <> [] -> strstr_after b pat = Ok (Some q) ->
  exists j, occurs pat (mem (b_chains b)) j.
Proof.
  intros W Hne H. destruct (strstr_spec b W pat Hne) as (r & R & A & _). rewrite H in R. inversion R; subst r.
  destruct (A q eq_refl) as (j & J & _). eauto.
Qed.
