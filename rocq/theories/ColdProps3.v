(** The COLD state machine, continued: a segment starts from a stable stretch
    (C89); which observations of the series a record was fitted to and how old
    the fit may be (C90). *)
From Verif Require Import Base ColdModel ColdSpec ColdLemmas ColdProof ColdProps ColdProps2.

Section Spec3.
Variables M D : Type.
Variable K : kernel M D.
Variable P : params.
Variable x : list obs.

(** Twelve observations and a year between the two dates without gap, whose
    four-term fit passes the stability test. *)
Definition stable_stretch (lo hi : Z) : Prop :=
  exists w m, subseq w x /\ 12 <= zlen w /\ lo <= dat w 0 /\ dat w (zlen w - 1) <= hi /\
    dat w 0 + 366 <= dat w (zlen w - 1) /\ k_fit K 4 w = Some m /\
    ~ (exists z, k_stab K m w = Fin z /\ p_tcg P < z) /\ no_gap P x (dat w 0) (dat w (zlen w - 1)).

(** The observations of a series during a record. *)
Definition during (r : rec M D) (l : list obs) : list obs :=
  filter (fun o => (t_start r <=? o_date o) && (o_date o <=? t_end r)) l.

(** A closed record was fitted to the first observations of its segment; those
    after them are at most as many as the refit rule permits. *)
Definition recent (r : rec M D) (l : list obs) : Prop :=
  r_win r = firstn (Z.to_nat (num_obs r)) (during r l) /\
  exists n, 12 <= n <= num_obs r /\ zlen (during r l) - num_obs r <= Z.max 0 (p_skip P n).
End Spec3.

(** ** Lists *)

Lemma filter_sub : forall (f : obs -> bool) l l', subseq l' l -> asc l ->
  (forall o, In o l -> f o = true -> In o l') -> filter f l' = filter f l.
Proof.
  intros f l l' H. induction H as [l|a l1 l2 H IH|a l1 l2 H IH]; intros Hl Hk.
  - assert (Hn : forall q, In q l -> f q = false).
    { intros q Hq. destruct (f q) eqn:E; [|reflexivity]. exfalso. exact (Hk q Hq E). }
    clear -Hn. induction l as [|a l IH]; [reflexivity|]. simpl. rewrite (Hn a) by (left; reflexivity).
    apply IH. intros q Hq. apply Hn. right. assumption.
  - pose proof (asc_NoDup Hl) as Hnd. inversion Hnd as [|? ? Ha _]; subst.
    assert (E : filter f l1 = filter f l2).
    { apply IH; [eapply asc_sub; [apply sub_drop; apply subseq_refl|exact Hl]|].
      intros o Ho Hf. destruct (Hk o (or_intror Ho) Hf) as [->|I]; [contradiction|assumption]. }
    simpl. rewrite E. reflexivity.
  - pose proof (asc_NoDup Hl) as Hnd. inversion Hnd as [|? ? Ha _]; subst.
    simpl. destruct (f a) eqn:E.
    + exfalso. apply Ha. eapply subseq_In; [exact H|]. apply Hk; [left; reflexivity|assumption].
    + apply IH; [eapply asc_sub; [apply sub_drop; apply subseq_refl|exact Hl]|].
      intros o Ho Hf. apply Hk; [right; assumption|assumption].
Qed.

Lemma filter_none : forall (f : obs -> bool) l, (forall o, In o l -> f o = false) -> filter f l = [].
Proof.
  intros f l H. induction l as [|a l IH]; [reflexivity|]. simpl. rewrite H by (left; reflexivity).
  apply IH. intros o Ho. apply H. right. assumption.
Qed.

Lemma filter_every : forall (f : obs -> bool) l, (forall o, In o l -> f o = true) -> filter f l = l.
Proof.
  intros f l H. induction l as [|a l IH]; [reflexivity|]. simpl. rewrite H by (left; reflexivity).
  f_equal. apply IH. intros o Ho. apply H. right. assumption.
Qed.

Lemma In_idx : forall (l : list obs) o, In o l -> exists j, 0 <= j < zlen l /\ o = nthO l j.
Proof.
  intros l o H. apply In_nth with (d := dflt_obs) in H. destruct H as (j & Hj & <-). exists (Z.of_nat j).
  unfold zlen, nthO. rewrite Nat2Z.id. split; [lia|reflexivity].
Qed.

(** A stretch of positions is a stretch of dates. *)
Lemma range_filter : forall l a n, asc l -> 0 <= a -> 1 <= n -> a + n <= zlen l ->
  filter (fun o => (dat l a <=? o_date o) && (o_date o <=? dat l (a + n - 1))) l =
  firstn (Z.to_nat n) (skipn (Z.to_nat a) l).
Proof.
  intros l a n Hl Ha Hn Hlen. set (f := fun o => _).
  assert (Hf : forall j, 0 <= j < zlen l -> f (nthO l j) = (a <=? j) && (j <=? a + n - 1)).
  { intros j Hj. unfold f. fold (dat l j). f_equal.
    - destruct (a <=? j) eqn:E.
      + pose proof (@dat_le l a j Hl). lia.
      + pose proof (@dat_lt l j a Hl). lia.
    - destruct (j <=? a + n - 1) eqn:E.
      + pose proof (@dat_le l j (a + n - 1) Hl). lia.
      + pose proof (@dat_lt l (a + n - 1) j Hl). lia. }
  rewrite (firstn_skipn_mid l (Z.to_nat a) (Z.to_nat n)) at 1. rewrite !filter_app.
  rewrite (filter_none f (firstn (Z.to_nat a) l)).
  2:{ intros o Ho. apply In_idx in Ho. destruct Ho as (j & Hj & ->). rewrite zlen_firstn in Hj by lia.
      rewrite nthO_firstn by lia. rewrite Hf by lia. lia. }
  rewrite (filter_none f (skipn _ l)).
  2:{ intros o Ho. apply In_idx in Ho. destruct Ho as (j & Hj & ->).
      replace (Z.to_nat a + Z.to_nat n)%nat with (Z.to_nat (a + n)) in * by lia. rewrite zlen_skipn in Hj by lia.
      rewrite nthO_skipn by lia. rewrite Hf by lia. lia. }
  rewrite app_nil_r. simpl app. apply filter_every. intros o Ho. apply In_idx in Ho. destruct Ho as (j & Hj & ->).
  rewrite zlen_firstn in Hj by (rewrite zlen_skipn by lia; lia).
  rewrite nthO_firstn by lia. rewrite nthO_skipn by lia. rewrite Hf by lia. lia.
Qed.

Section Inv3.
Variables M D : Type.
Variable K : kernel M D.
Variable P : params.
Variable x : list obs.
Variable cm0 : list (Z * Z).
Hypothesis Hconse : 1 <= p_conse P.
Hypothesis Hx : asc x.
Notation st := (st M D).
Notation rec := (rec M D).
Implicit Types (s : st).
Notation Inv := (Inv K P x cm0).
Notation stable_stretch := (stable_stretch K P x).

Ltac ib H a E := apply bind_ok in H; destruct H as (a & E & H).
Ltac ss := cbn [s_live s_stale s_i s_start s_dense s_train s_count s_preend s_oldlen s_skip
                s_fit s_win s_cur s_recs s_cm s_log fst snd] in *.

Lemma stable_mono : forall lo hi lo' hi', stable_stretch lo hi -> lo' <= lo -> hi <= hi' -> stable_stretch lo' hi'.
Proof.
  intros lo hi lo' hi' (w & m & H1 & H2 & H3 & H4 & H5) Hl Hh. exists w, m.
  split; [assumption|]. split; [assumption|]. split; [lia|]. split; [lia|assumption].
Qed.

(** ** Records already written keep their observations *)
Definition good (r : rec) (live : list obs) : Prop :=
  (category r = 14 -> r_win r = during r live) /\
  (category r <> 14 -> recent P r live /\ stable_stretch (t_start r) (t_end r)).

Definition Kept (live : list obs) (rs : list rec) : Prop :=
  forall b, lastB rs b -> Forall (fun r => t_end r < b /\ good r live) rs.

Lemma kept_nil : forall live, Kept live [].
Proof. intros live b _. constructor. Qed.

Lemma kept_drop : forall live live' rs b, Kept live rs -> lastB rs b -> subseq live' live -> asc live ->
  (forall o, In o live -> o_date o < b -> In o live') -> Kept live' rs.
Proof.
  intros live live' rs b H Hb Hs Ha Hd b' Hb'. pose proof (H b Hb) as H1. pose proof (H b' Hb') as H2.
  rewrite Forall_forall in *. intros r Hr. destruct (H1 r Hr) as [A B]. destruct (H2 r Hr) as [C _]. split; [assumption|].
  assert (E : during r live' = during r live).
  { apply filter_sub; [assumption|assumption|]. intros o Ho Hf. apply Hd; [assumption|]. lia. }
  unfold good, recent in *. rewrite E. assumption.
Qed.

Lemma kept_push : forall live rs r, Kept live rs -> lastB rs (t_break r) -> t_end r < t_break r -> good r live -> Kept live (rs ++ [r]).
Proof.
  intros live rs r H Hb He Hg b Hl. assert (Hb' : t_break r <= b) by (apply (Hl rs r); reflexivity).
  apply Forall_app. split.
  - apply H. eapply lastB_mono; eassumption.
  - constructor; [|constructor]. split; [lia|assumption].
Qed.

(** ** What looking back leaves alone *)
Lemma lookback_keep : forall n m i_break w0 s s' lw, lookback K P n m i_break w0 s = Ok (s', lw) ->
  1 <= i_break -> s_start s = i_break + Z.of_nat n -> s_start s <= s_i s -> s_i s <= zlen (s_live s) -> asc (s_live s) ->
  s_recs s' = s_recs s /\ s_dense s' = s_dense s /\ s_train s' = s_train s /\ s_skip s' = s_skip s /\
  subseq (s_live s') (s_live s) /\ i_break <= s_start s' /\
  dat (s_live s') (s_start s' - 1) <= dat (s_live s) (s_start s - 1) /\
  dat (s_live s') (s_i s' - 1) = dat (s_live s) (s_i s - 1) /\
  forall o, In o (s_live s) -> o_date o < dat (s_live s) (i_break - 1) -> In o (s_live s').
Proof.
  induction n as [|n IH]; intros m i_break w0 s s' lw H Hb Hst Hi Hl Ha.
  - simpl in H. injection H as <- _. repeat split; auto; try lia. apply subseq_refl.
  - cbn [lookback] in H. set (i_ini := i_break - 1 + Z.of_nat n) in *.
    assert (Hini : i_ini = s_start s - 2) by (unfold i_ini; lia).
    destruct (_ =? 0); [discriminate|]. ib H os E. ib H q E'. destruct q as [cm' log']. ib H oi E''.
    destruct (confirmed _ _ _).
    { injection H as <- _. ss. repeat split; auto; try lia. apply subseq_refl. }
    destruct (outlier0 _ _ _); unfold drop_obs in H.
    + assert (Hdl : zlen (del (Z.to_nat i_ini) (s_live s)) = zlen (s_live s) - 1) by (apply zlen_del; lia).
      assert (Hk : 0 <= i_ini < zlen (s_live s)) by lia.
      pose proof (subseq_del (Z.to_nat i_ini) (s_live s)) as Hsd.
      apply IH in H; ss; try lia; [|eapply asc_sub; eassumption].
      destruct H as (H1 & H2 & H3 & H4 & H5 & H6 & H7 & H8 & H9). repeat split; auto.
      * eapply subseq_trans; eassumption.
      * etransitivity; [exact H7|]. unfold dat. rewrite nthO_del by lia. replace (i_ini + 1 - 1 <? i_ini) with false by lia.
        replace (i_ini + 1 - 1 + 1) with (s_start s - 1) by lia. lia.
      * rewrite H8. unfold dat. rewrite nthO_del by lia. replace (s_i s - 1 - 1 <? i_ini) with false by lia. do 2 f_equal. lia.
      * intros o Ho Hlt. pose proof (@dat_sub_ge _ _ (i_break - 1) Hsd Ha). apply H9; [|lia].
        apply (del_in o Ha Hk) in Ho. destruct Ho as [Ho|Ho]; [assumption|]. exfalso. subst o.
        fold (dat (s_live s) i_ini) in Hlt. pose proof (@dat_le (s_live s) (i_break - 1) i_ini Ha). lia.
    + apply IH in H; ss; try lia; [|assumption].
      destruct H as (H1 & H2 & H3 & H4 & H5 & H6 & H7 & H8 & H9). repeat split; auto.
      etransitivity; [exact H7|]. apply dat_le; [assumption|lia|lia].
Qed.

(** ** The invariant *)
Record Inv3 s : Prop := mkInv3 {
  q_stab : s_train s = true -> stable_stretch (dat (s_live s) (s_start s - 1)) (dat (s_live s) (s_i s - 1));
  q_skip : s_train s = false \/ s_count s = 0 -> s_skip s = 0;
  q_sched : s_train s = true -> 0 < s_count s -> s_preend s = s_start s - 1 + s_oldlen s /\ 12 <= s_skip s <= s_oldlen s /\
    s_i s - s_start s - s_oldlen s <= Z.max 0 (p_skip P (s_skip s));
  q_kept : Kept (s_live s) (s_recs s)
}.

Lemma initialise_inv3 : forall s s' b, Core K P x cm0 s -> s_train s = false -> Inv3 s ->
  s_i s <= s_end s - p_conse P -> s_start s + 11 <= s_i s ->
  dat (s_live s) (s_start s - 1) + 366 <= dat (s_live s) (s_i s - 1) ->
  initialise K P s = Ok (s', b) -> (b = true -> s_count s' = 0) -> Inv3 s'.
Proof.
  intros s s' b HC Htr HI Hi Hsp Ht H Hcount0.
  destruct HC as [Hsub Hstart Hdense Hchain Hclosed Hfrom Hlast Hlog Hconf].
  destruct HI as [HS HK0 HQ HKp]. specialize (HK0 (or_introl Htr)). unfold initialise in H. unfold s_end in Hi.
  assert (Hasc : asc (s_live s)) by (eapply asc_sub; eassumption).
  ib H w Ew. apply slice_inv in Ew. destruct Ew as (_ & _ & Ew1 & Ew).
  assert (Hwl : zlen w = s_i s - s_start s + 1).
  { rewrite Ew. rewrite zlen_firstn; [reflexivity|]. rewrite zlen_skipn by lia. lia. }
  assert (Hwx : subseq w x).
  { rewrite Ew. eapply subseq_trans; [apply subseq_firstn|]. eapply subseq_trans; [apply subseq_skipn|assumption]. }
  destruct (p_gap P <? max_gap w) eqn:Eg.
  { injection H as <- <-. constructor; ss; auto; congruence. }
  ib H wide Ewide. ib H flags Ef.
  set (w' := keep_from flags 0 w) in *.
  destruct (zlen w' <? 12) eqn:E12.
  { injection H as <- <-. constructor; ss; auto; congruence. }
  set (cp := firstn (Z.to_nat (s_start s - 1)) (s_live s) ++ w' ++ skipn (Z.to_nat (s_i s)) (s_live s)) in *.
  set (i' := s_start s + zlen w' - 1) in *.
  ib H ce Ece. apply get_O in Ece. destruct Ece as [Hce Ece].
  ib H cs Ecs. apply get_O in Ecs. destruct Ecs as [Hcs Ecs].
  destruct (o_date ce - o_date cs <? 366) eqn:E366.
  { injection H as <- <-. constructor; ss; auto; congruence. }
  assert (Hw' : subseq w' w) by apply keep_sub.
  assert (Hcpl : subseq cp (s_live s)).
  { unfold cp. rewrite (firstn_skipn_mid (s_live s) (Z.to_nat (s_start s - 1)) (Z.to_nat (s_i s - s_start s + 1))) at 3.
    apply subseq_app; [apply subseq_refl|]. apply subseq_app; [rewrite <- Ew; assumption|].
    replace (Z.to_nat (s_start s - 1) + Z.to_nat (s_i s - s_start s + 1))%nat with (Z.to_nat (s_i s)) by lia. apply subseq_refl. }
  assert (Hcpx : subseq cp x) by (eapply subseq_trans; eassumption).
  assert (Hcpa : asc cp) by (eapply asc_sub; eassumption).
  assert (Hfl : zlen (firstn (Z.to_nat (s_start s - 1)) (s_live s)) = s_start s - 1) by (apply zlen_firstn; lia).
  assert (HKcp : Kept cp (s_recs s)).
  { eapply kept_drop; [exact HKp|exact Hlast|exact Hcpl|exact Hasc|]. intros o Ho Hlt.
    apply In_idx in Ho. destruct Ho as (j & Hj & ->). fold (dat (s_live s) j) in Hlt.
    assert (j < s_start s - 1).
    { destruct (Z_lt_le_dec j (s_start s - 1)) as [|Hle]; [assumption|].
      pose proof (@dat_le (s_live s) (s_start s - 1) j Hasc). lia. }
    unfold cp. apply in_or_app. left. rewrite <- (@nthO_firstn _ (s_start s - 1)) by lia. apply In_nthO. lia. }
  ib H wf Ewf. apply slice_inv in Ewf. destruct Ewf as (_ & _ & Ewf1 & Ewf).
  assert (Hwf : wf = w').
  { rewrite Ewf. unfold cp, i'. replace (Z.to_nat (s_start s - 1)) with (length (firstn (Z.to_nat (s_start s - 1)) (s_live s))) at 1 by (unfold zlen in Hfl; lia).
    rewrite skipn_app, skipn_all, Nat.sub_diag. simpl. replace (Z.to_nat (s_start s + zlen w' - 1 - s_start s + 1)) with (length w') by (unfold zlen; lia).
    rewrite firstn_app, firstn_all, Nat.sub_diag. simpl. apply app_nil_r. }
  ib H m Efit. destruct (k_fit K 4 wf) as [m0|] eqn:Em0; [|discriminate]. simpl in Efit. injection Efit as <-.
  destruct (fgt (k_stab K m0 wf) (Fin (p_tcg P))) eqn:Est.
  { injection H as <- <-. constructor; ss; auto; congruence. }
  assert (Hcpd : forall k, 0 <= k < zlen w' -> dat cp (s_start s - 1 + k) = dat w' k).
  { intros k Hk. unfold dat, cp. rewrite nthO_app2 by lia. rewrite Hfl. rewrite nthO_app1 by lia. do 2 f_equal. lia. }
  assert (Hstab : stable_stretch (dat cp (s_start s - 1)) (dat cp (i' - 1))).
  { replace (s_start s - 1) with (s_start s - 1 + 0) by lia. rewrite Hcpd by lia.
    replace (i' - 1) with (s_start s - 1 + (zlen w' - 1)) by lia. rewrite Hcpd by lia.
    exists w', m0. split; [eapply subseq_trans; eassumption|]. split; [lia|]. split; [lia|]. split; [lia|].
    split.
    { rewrite <- !Hcpd by lia. replace (s_start s - 1 + 0) with (s_start s - 1) by lia.
      replace (s_start s - 1 + (zlen w' - 1)) with (i' - 1) by lia. rewrite Ece, Ecs in E366. unfold dat. lia. }
    split; [congruence|]. split.
    { rewrite <- Hwf. intros (z & Hz & Hlt). rewrite Hz in Est. simpl in Est. lia. }
    assert (Hwa : asc w) by (eapply asc_sub; eassumption).
    assert (Hin : forall k, 0 <= k < zlen w' -> dat w 0 <= dat w' k <= dat w (zlen w - 1)).
    { intros k Hk. assert (I : In (nthO w' k) w) by (eapply subseq_In; [exact Hw'|apply In_nthO; assumption]).
      apply In_idx in I. destruct I as (j & Hj & I). unfold dat at 2 3. rewrite I. fold (dat w j).
      split; apply dat_le; try assumption; lia. }
    eapply no_gap_sub; [apply (@no_gap_window P x Hx w Hwx)| |].
    - intros ->. unfold zlen in Hwl. simpl in Hwl. lia.
    - lia.
    - apply Hin. lia.
    - apply Hin. lia. }
  ib H i_break Eib.
  assert (Hib : 1 <= i_break <= s_start s /\ lastB (s_recs s) (dat cp (i_break - 1)) /\ (s_recs s = [] -> i_break = s_dense s)).
  { destruct (rev (s_recs s)) as [|r t] eqn:Er.
    - injection Eib as <-. assert (Hn : s_recs s = []) by (destruct (s_recs s); [reflexivity|simpl in Er; destruct (rev l); discriminate]).
      split; [apply Hdense; assumption|]. split; [rewrite Hn; apply lastB_nil|auto].
    - destruct (first_ge (t_break r) cp 0) as [j|] eqn:Ej; [|discriminate]. injection Eib as <-.
      apply rev_last in Er.
      destruct (@first_ge_le (t_break r) cp 0 (s_start s - 1)) as (j' & Hj' & Hle); [lia| |].
      { specialize (Hlast (rev t) r Er). pose proof (@dat_sub_ge cp (s_live s) (s_start s - 1) Hcpl Hasc). lia. }
      rewrite Hj' in Ej. injection Ej as ->. apply first_ge_spec in Hj'. destruct Hj' as (G1 & G2 & _).
      split; [lia|]. split; [rewrite Er; apply lastB_app; replace (j - 1) with (j - 0 - 1) by lia; assumption|].
      rewrite Er. intros Hn. destruct (rev t); discriminate. }
  destruct Hib as (Hib & Hibl & Hibd).
  ib H q Elb. destruct q as [s2 lw].
  assert (Hcpi : i' <= zlen cp) by lia.
  apply lookback_keep in Elb; ss; try lia; [|assumption].
  destruct Elb as (Lr & Ld & Lt & Lsk & Lsub & Lst & Ls & Le & Lk).
  assert (HK2 : Kept (s_live s2) (s_recs s)) by (eapply kept_drop; eassumption).
  assert (Hs2 : stable_stretch (dat (s_live s2) (s_start s2 - 1)) (dat (s_live s2) (s_i s2 - 1))).
  { eapply stable_mono; [exact Hstab|assumption|rewrite Le; lia]. }
  destruct (s_recs s2) as [|r0 rs0] eqn:Er2.
  2:{ injection H as <- <-. specialize (Hcount0 eq_refl). constructor; auto; try congruence; try (intros; lia). rewrite Er2, Lr. assumption. }
  destruct (6 <=? s_start s2 - s_dense s2) eqn:E6.
  2:{ injection H as <- <-. specialize (Hcount0 eq_refl). constructor; auto; try congruence; try (intros; lia). rewrite Er2, Lr. assumption. }
  ib H w2 Ew2. apply slice_inv in Ew2. destruct Ew2 as (_ & _ & Ew2 & Ew2').
  ib H m2 Em2. ib H oe Eoe. apply get_O in Eoe. destruct Eoe as [Hoe ->].
  ib H ob Eob. apply get_O in Eob. destruct Eob as [Hob ->].
  ib H os Eos. apply get_O in Eos. destruct Eos as [Hos ->].
  ib H rs Ers. unfold push_rec in Ers. destruct (40 <=? _); [discriminate|]. injection Ers as <-.
  injection H as <- <-. ss. specialize (Hcount0 eq_refl).
  assert (Ha2 : asc (s_live s2)) by (eapply asc_sub; eassumption).
  constructor; ss; auto; try congruence; try (intros; lia).
  apply (@kept_push (s_live s2) []); [apply kept_nil|apply lastB_nil| |].
  - cbn [t_end t_break]. apply (@dat_lt (s_live s2) (s_start s2 - 2) (s_start s2 - 1) Ha2); lia.
  - split; cbn [category]; [intros _|congruence]. unfold during. cbn [r_win t_start t_end]. rewrite Ew2'.
    fold (dat (s_live s2) (s_dense s2 - 1)). fold (dat (s_live s2) (s_start s2 - 2)).
    replace (s_start s2 - 2) with (s_dense s2 - 1 + (s_start s2 - s_dense s2) - 1) by lia.
    symmetry. apply range_filter; [assumption|lia|lia|lia].
Qed.

Lemma mon_fit_inv3 : forall s s', Core K P x cm0 s -> s_train s = true -> Inv3 s ->
  s_i s <= s_end s - p_conse P -> s_start s + 11 <= s_i s -> 0 <= s_count s ->
  (s_count s = 0 \/ Trained K P s) -> mon_fit K P s = Ok s' -> 0 < s_count s' ->
  Inv3 s' /\ s_i s' - s_start s' + 1 - s_oldlen s' <= Z.max 0 (p_skip P (s_skip s')).
Proof.
  intros s s' HC Htr HI Hi Hsp Hc0 Hcase H Hcnt'.
  destruct HC as [Hsub Hstart Hdense Hchain Hclosed Hfrom Hlast Hlog Hconf].
  destruct HI as [HS HK0 HQ HKp]. unfold mon_fit in H. unfold s_end in Hi.
  ib H xe Exe. ib H xs Exs.
  set (i_span := s_i s - s_start s + 1) in *.
  destruct ((s_count s =? 0) || (i_span <=? 24)) eqn:E.
  - ib H w Ew. ib H m Em. ib H os Eos. injection H as <-. ss. split; [|lia].
    constructor; ss; auto.
    + intros [G|G]; [congruence|lia].
    + intros _ _. split; [lia|]. split; [|lia]. destruct Hcase as [H0|HT].
      * rewrite (HK0 (or_intror H0)). simpl. lia.
      * destruct HT as [[_ _ _ Hold] _ _ _ Hcnt]. destruct (HQ Htr Hcnt) as (_ & G & _).
        replace (s_skip s =? 0) with false by lia. lia.
  - destruct Hcase as [H0|HT]; [lia|]. destruct HT as [[_ _ Hrec Hold] Hwl Htail Hno Hcnt].
    destruct (HQ Htr Hcnt) as (Hpre & Hsk & Hl0).
    destruct (s_cur s) as [r0|]; [|discriminate]. destruct (s_fit s) as [m0|]; [|discriminate].
    ib H q Eqq. destruct q as [[[[[m r1] cnt] pre] skip'] oldlen].
    assert (Hq : pre = s_start s - 1 + oldlen /\ 12 <= skip' <= oldlen /\ i_span - oldlen <= Z.max 0 (p_skip P skip')).
    { destruct ((1 <=? s_i s - s_preend s) && _) eqn:Ed.
      - ib Eqq w Ew. ib Eqq m1 Em. injection Eqq as <- <- <- <- <- <-. lia.
      - injection Eqq as <- <- <- <- <- <-. replace (s_skip s =? 0) with false in * by lia. lia. }
    destruct (oldlen =? 0); [discriminate|]. destruct (oldlen <? _); [discriminate|].
    ib H wo Ewo. ib H o Eo. injection H as <-. ss. split; [|lia].
    constructor; ss; auto; try lia.
    intros [G|G]; [congruence|lia].
Qed.

Lemma mon_decide_inv3 : forall s s', Mid K P x cm0 s -> Inv3 s ->
  s_i s - s_start s + 1 - s_oldlen s <= Z.max 0 (p_skip P (s_skip s)) ->
  mon_decide K P s = Ok s' -> Inv3 s'.
Proof.
  intros s s' [HC Htr HM Hend Hwl Hwin Hi Hcnt] [HS HK0 HQ HKp] Hlag H.
  destruct HC as [Hsub Hstart Hdense Hchain Hclosed Hfrom Hlast Hlog Hconf].
  destruct HM as [Hsp Ht Hrec Hold].
  destruct Hrec as (r & m & Hr & Hm & Hts & Htb & Hpr & Hdv & Hno0 & Hrw & Hcat).
  specialize (Hend r Hr). specialize (HS Htr). destruct (HQ Htr Hcnt) as (Hpre & Hsk & Hl0).
  unfold s_end in Hi.
  assert (Hasc : asc (s_live s)) by (eapply asc_sub; eassumption).
  unfold mon_decide in H. ib H oi Eoi. apply get_O in Eoi. destruct Eoi as [Hoi Eoi].
  ib H q Ecm. destruct q as [cm' log']. rewrite Hr in H.
  destruct (confirmed K P (map snd (s_win s))).
  - ib H rs Ers. unfold push_rec in Ers. destruct (40 <=? _); [discriminate|]. injection Ers as <-.
    injection H as <-. constructor; ss; auto; try congruence.
    apply kept_push; [assumption| | |].
    + cbn [t_break]. eapply lastB_mono; [exact Hlast|]. rewrite Eoi. apply dat_le; [assumption|lia|lia].
    + cbn [t_break t_end]. rewrite Hend, Eoi. apply dat_lt; [assumption|lia|lia].
    + split; cbn [category]; [rewrite Hcat; intros X; exfalso; revert X; apply update_14|]. intros _.
      split; [|cbn [t_start t_end]; rewrite Hts, Hend; assumption].
      assert (Hd : forall a b c d e f g, during (M := M) (D := D) (mkRec (t_start r) (t_end r) a b c d e f g) (s_live s) =
         firstn (Z.to_nat (s_i s - s_start s + 1)) (skipn (Z.to_nat (s_start s - 1)) (s_live s))).
      { intros. unfold during. cbn [t_start t_end]. rewrite Hts, Hend.
        replace (s_i s - 1) with (s_start s - 1 + (s_i s - s_start s + 1) - 1) by lia.
        apply range_filter; [assumption|lia|lia|lia]. }
      unfold recent. rewrite Hd. cbn [r_win num_obs]. split.
      * rewrite firstn_firstn, Hno0, Hrw. f_equal. lia.
      * exists (s_skip s). rewrite Hno0. split; [lia|]. rewrite zlen_firstn by (rewrite zlen_skipn by lia; lia). lia.
  - destruct (outlier0 K P (map snd (s_win s))); unfold drop_obs in H; injection H as <-.
    + assert (Hdat : forall k, 0 <= k < s_i s -> dat (del (Z.to_nat (s_i s)) (s_live s)) k = dat (s_live s) k).
      { intros k Hk. unfold dat. rewrite nthO_del by lia. replace (k <? s_i s) with true by lia. reflexivity. }
      constructor; ss; auto; try congruence; try lia.
      * intros _. rewrite !Hdat by lia. replace (s_i s - 1 + 1 - 1) with (s_i s - 1) by lia. assumption.
      * eapply kept_drop; [exact HKp|exact Hlast|apply subseq_del|exact Hasc|]. intros o Ho Hlt.
        assert (Hk : 0 <= s_i s < zlen (s_live s)) by lia. apply (del_in o Hasc Hk) in Ho. destruct Ho as [Ho|Ho]; [assumption|].
        exfalso. subst o. fold (dat (s_live s) (s_i s)) in Hlt.
        pose proof (@dat_le (s_live s) (s_start s - 1) (s_i s) Hasc). lia.
    + constructor; ss; auto; try congruence; try lia. intros _.
      eapply stable_mono; [exact HS|lia|]. apply dat_le; [assumption|lia|lia].
Qed.

Lemma step_inv3 : forall s s', Inv s -> Inv3 s -> s_i s <= s_end s - p_conse P -> step K P s = Ok s' -> Inv3 s'.
Proof.
  intros s s' (HC & HT & _) HI Hi H. unfold step in H. pose proof HC as HC'.
  destruct HC' as [Hsub Hstart _ _ _ _ _ _ _].
  ib H xe Exe. apply get_O in Exe. destruct Exe as [_ ->]. ib H xs Exs. apply get_O in Exs. destruct Exs as [_ ->].
  fold (dat (s_live s) (s_i s - 1)) in H. fold (dat (s_live s) (s_start s - 1)) in H.
  destruct ((12 <=? s_i s - s_start s + 1) && _) eqn:E.
  - destruct (s_train s) eqn:Etr.
    + unfold monitor in H. ib H s1 E1.
      pose proof (@mon_fit_wp M D K P x cm0 Hconse s HC Etr Hi) as W. rewrite E1 in W.
      destruct W as [W _]; [lia|lia|right; auto|].
      specialize (HT eq_refl). pose proof (tr_count HT).
      apply mon_fit_inv3 in E1; auto; try lia; [|apply W]. destruct E1 as [E1 E1'].
      eapply mon_decide_inv3; eassumption.
    + ib H q E1. destruct q as [s1 b].
      pose proof (@initialise_wp M D K P x cm0 Hconse Hx s HC Etr Hi) as W. rewrite E1 in W. simpl in W.
      assert (HI1 : Inv3 s1).
      { eapply initialise_inv3; try eassumption; try lia. intros ->. destruct W; [lia|lia|assumption]. }
      destruct b.
      * destruct W as [Rc Rt Rn Rs Rd Ri Rm]; [lia|lia|].
        unfold monitor in H. ib H s2 E2.
        pose proof (@mon_fit_wp M D K P x cm0 Hconse s1 Rc Rt Ri) as W. rewrite E2 in W.
        destruct W as [W _]; [lia|lia|left; assumption|].
        apply mon_fit_inv3 in E2; auto; try lia; [|apply W]. destruct E2 as [E2 E2'].
        eapply mon_decide_inv3; eassumption.
      * injection H as <-. assumption.
  - injection H as <-. destruct (s_train s) eqn:Etr.
    { destruct (HT eq_refl) as [[Msp Mt _ _] _ _ _ _]. lia. }
    destruct HI as [HS HK0 HQ HKp]. constructor; ss; auto; congruence.
Qed.

Lemma loop_inv3 : forall fuel s s', Inv s -> Inv3 s -> loop K P fuel s = Ok s' -> Inv s' /\ Inv3 s' /\ s_end s' - p_conse P < s_i s'.
Proof.
  induction fuel as [|f IH]; intros s s' HI HI2 H; cbn [loop] in H; destruct (s_i s <=? s_end s - p_conse P) eqn:E;
    try discriminate; try (injection H as <-; split; [assumption|split; [assumption|lia]]).
  ib H s1 E1. pose proof (@step_wp M D K P x cm0 Hconse Hx s HI) as W. rewrite E1 in W. destruct W as (A & _ & _); [lia|].
  eapply IH; [exact A| |exact H]. apply (@step_inv3 s s1); auto; lia.
Qed.

Lemma Inv3_init : Inv3 (init_st M D x cm0).
Proof. constructor; unfold init_st; ss; try discriminate; auto. apply kept_nil. Qed.

(** ** The result *)
Lemma result_inv3 : forall fuel R, stand_procedure K P fuel x cm0 = Ok R ->
  Forall (fun r => (category r = 14 -> r_win r = during r (res_live R)) /\
    (category r <> 14 -> category r <> 24 -> stable_stretch (t_start r) (t_end r) /\
       r_win r = firstn (Z.to_nat (num_obs r)) (during r (res_live R)) /\
       exists n, 12 <= n <= num_obs r /\
         zlen (during r (res_live R)) - num_obs r <= Z.max 0 (p_skip P n) + (if change_prob r =? 100 then 0 else p_conse P)) /\
    (category r = 24 -> forall o, In o (res_live R) -> t_start r <= o_date o -> In o (r_win r) \/ flagged K x o)) (res_recs R).
Proof.
  intros fuel R H. unfold stand_procedure in H. ib H s E. ib H rs Ers. injection H as <-.
  cbn [res_live res_log res_recs].
  destruct (@loop_inv3 fuel _ _ (@Inv_init M D K P x cm0) Inv3_init E) as ((HC & HT & Hi) & [HS HK0 HQ HKp] & Hie).
  destruct HC as [Hsub Hstart Hdense Hchain Hclosed Hfrom Hlast Hlog Hconf].
  assert (Hasc : asc (s_live s)) by (eapply asc_sub; eassumption).
  set (Q := fun r => _).
  assert (HL : Forall Q (s_recs s)).
  { specialize (HKp _ Hlast).
    assert (Hcl : Forall (fun r => category r <> 24 /\ change_prob r = 100) (s_recs s)).
    { clear -Hclosed. destruct (s_recs s) as [|r t]; [constructor|]. destruct Hclosed as [H1 H2].
      constructor; [|eapply Forall_impl; [|exact H2]].
      - destruct H1 as [([H1 _] & H2' & _)|(H1 & H2' & _)]; [|lia]. unfold best_num_c in H1. lia.
      - intros r' ([H1' _] & H2' & _). unfold best_num_c in H1'. lia. }
    rewrite Forall_forall in *. intros r Hr. destruct (HKp r Hr) as [_ [G1 G2]]. destruct (Hcl r Hr) as [G3 G4].
    unfold Q. split; [assumption|]. split; [|congruence]. intros N14 _. destruct (G2 N14) as [[G5 (n & G6 & G7)] G8].
    split; [assumption|]. split; [assumption|]. exists n. split; [assumption|]. rewrite G4. simpl. lia. }
  destruct (s_train s) eqn:Etr.
  - destruct Hi as [Hi|(_ & _ & _ & Hi)]; [|congruence]. unfold s_end in *.
    destruct (HT eq_refl) as [[Hsp Ht Hrec Hold] Hwl _ _ Hcnt].
    destruct Hrec as (r & m & Hr & Hm & Hts & _ & _ & _ & Hno0 & Hrw & Hcat).
    destruct (HQ eq_refl Hcnt) as (Hpre & Hsk & Hlag). specialize (HS eq_refl).
    unfold finish_trained in Ers. rewrite Hr in Ers.
    set (id := id_last_from K P (Z.to_nat (p_conse P)) (map snd (s_win s)) (p_conse P)) in *.
    assert (Hid : 1 <= id <= p_conse P).
    { clear -Hconse. unfold id. assert (G : forall n w, Z.of_nat n <= p_conse P -> 1 <= id_last_from K P n w (p_conse P) <= p_conse P).
      { induction n as [|n IH]; intros w Hn; simpl; [lia|]. destruct (nth_error w n); [|lia]. destruct (_ || _); [lia|]. apply IH. lia. }
      apply G. lia. }
    ib Ers oe Eoe. apply get_O in Eoe. destruct Eoe as [Hoe ->].
    assert (Hrs : exists r', rs = s_recs s ++ [r'] /\ category r' = category r /\ r_win r' = r_win r /\ t_start r' = t_start r /\
        num_obs r' = num_obs r /\ change_prob r' <> 100 /\ t_end r' = dat (s_live s) (s_end s - 1 - p_conse P + id)).
    { assert (Hp : (p_conse P - id) * 100 / p_conse P <> 100).
      { pose proof (@div100 (p_conse P - id) (p_conse P)). lia. }
      destruct (_ <? p_conse P); [ib Ers ob Eob|]; injection Ers as <-; eexists; split; try reflexivity; cbn; repeat split; auto. }
    destruct Hrs as (r' & -> & R1 & R2 & R3 & R4 & R5 & R6). apply Forall_app. split; [assumption|].
    constructor; [|constructor]. unfold s_end in R6. unfold Q. split; [|split].
    + rewrite R1, Hcat. intros X. exfalso. revert X. apply update_14.
    + intros _ _.
      assert (Hd : during r' (s_live s) = firstn (Z.to_nat (zlen (s_live s) - p_conse P + id - (s_start s - 1))) (skipn (Z.to_nat (s_start s - 1)) (s_live s))).
      { unfold during. rewrite R3, R6, Hts.
        replace (zlen (s_live s) - 1 - p_conse P + id) with (s_start s - 1 + (zlen (s_live s) - p_conse P + id - (s_start s - 1)) - 1) by lia.
        apply range_filter; [assumption|lia|lia|lia]. }
      split; [|split].
      * eapply stable_mono; [exact HS|rewrite R3, Hts; lia|rewrite R6; apply dat_le; [assumption|lia|lia]].
      * rewrite Hd, R2, Hrw, R4, Hno0, firstn_firstn. f_equal. lia.
      * exists (s_skip s). rewrite R4, Hno0. split; [lia|]. rewrite Hd. rewrite zlen_firstn by (rewrite zlen_skipn by lia; lia).
        replace (change_prob r' =? 100) with false by lia. lia.
    + rewrite R1, Hcat. intros X. exfalso. revert X. unfold update_cft. destruct (_ <? 18); [lia|]. destruct (_ <? 24); lia.
  - unfold finish_untrained in Ers.
    set (b := match rev (s_recs s) with [] => 1 | _ => _ end) in *.
    ib Ers live El.
    match type of Ers with (if ?c then _ else _) = _ => destruct c eqn:E6 end; [|injection Ers as <-; assumption].
    assert (Hb0 : 1 <= b).
    { unfold b. destruct (rev (s_recs s)); [lia|]. destruct (first_ge _ _ 0) eqn:Ef; [|lia]. apply first_ge_spec in Ef. lia. }
    assert (Hlive : firstn (Z.to_nat (b - 1)) live = firstn (Z.to_nat (b - 1)) (s_live s) /\
        forall o, In o (skipn (Z.to_nat (b - 1)) (s_live s)) -> In o (skipn (Z.to_nat (b - 1)) live) \/ flagged K x o).
    { destruct (6 <=? s_end s - b + 1) eqn:E6'; [|injection El as <-; auto]. unfold s_end in *.
      ib El w Ew. apply slice_inv in Ew. destruct Ew as (_ & _ & Ew1 & Ew). ib El f Ef.
      destruct (k_mask K w) as [f'|] eqn:Em; [|discriminate]. simpl in Ef. injection Ef as <-. injection El as <-.
      assert (Hfl : length (firstn (Z.to_nat (b - 1)) (s_live s)) = Z.to_nat (b - 1)) by (rewrite firstn_length; unfold zlen in *; lia).
      assert (Hw : w = skipn (Z.to_nat (b - 1)) (s_live s)).
      { rewrite Ew. apply firstn_all2. rewrite skipn_length. unfold zlen in *. lia. }
      split.
      - rewrite firstn_app, Hfl, Nat.sub_diag. simpl. rewrite app_nil_r. rewrite firstn_firstn. f_equal. lia.
      - intros o Ho. rewrite <- Hw in Ho. rewrite skipn_app, Hfl, Nat.sub_diag, skipn_all2 by lia. simpl.
        destruct (@keep_in f' w 0 o Ho) as [I|(n & I1 & I2)]; [auto|]. right. exists w, f', n.
        split; [rewrite Hw; eapply subseq_trans; [apply subseq_skipn|assumption]|]. auto. }
    destruct Hlive as [Hl1 Hl2].
    ib Ers w Ew. apply slice_inv in Ew. destruct Ew as (_ & _ & Ew1 & Ew). ib Ers m Em.
    ib Ers ts Ets. ib Ers oe Eoe. injection Ers as <-.
    apply Forall_app. split; [assumption|]. constructor; [|constructor]. unfold Q. cbn [category r_win t_start].
    split; [discriminate|]. split; [congruence|]. intros _ o Ho Hge.
    assert (Hw : w = skipn (Z.to_nat (b - 1)) live).
    { rewrite Ew. apply firstn_all2. rewrite skipn_length. unfold zlen in *. lia. }
    rewrite Hw. apply Hl2.
    rewrite <- (firstn_skipn (Z.to_nat (b - 1)) (s_live s)) in Ho. apply in_app_or in Ho. destruct Ho as [Ho|Ho]; [exfalso|assumption].
    destruct (rev (s_recs s)) as [|r t] eqn:Er.
    { unfold b in Ho. simpl in Ho. contradiction. }
    injection Ets as <-.
    assert (Hlen : b <= zlen (s_live s)).
    { destruct (Z_lt_le_dec (zlen (s_live s)) b) as [Hlt|]; [|assumption]. exfalso.
      destruct (6 <=? s_end s - b + 1) eqn:E6'; unfold s_end in *; [lia|]. injection El as <-. lia. }
    apply In_idx in Ho. destruct Ho as (j & Hj & ->). rewrite zlen_firstn in Hj by lia. rewrite nthO_firstn in Hge by lia.
    unfold b in Hj. destruct (first_ge (t_break r) (s_live s ++ s_stale s) 0) as [k|] eqn:Ef.
    + assert (b = k) by reflexivity. apply first_ge_spec in Ef. destruct Ef as (F1 & F2 & F3).
      specialize (F3 j). unfold dat in F3. rewrite nthO_app1 in F3 by lia. lia.
    + apply rev_last in Er. specialize (Hlast (rev t) r Er).
      destruct (@first_ge_le (t_break r) (s_live s ++ s_stale s) 0 (s_start s - 1)) as (k & Hk & _).
      * rewrite zlen_app. pose proof (zlen_nonneg (s_stale s)). assert (b = s_start s) by reflexivity. lia.
      * unfold dat. rewrite nthO_app1; [exact Hlast|]. assert (b = s_start s) by reflexivity. lia.
      * congruence.
Qed.
End Inv3.

Section Props3.
Variables M D : Type.
Variable K : kernel M D.
Variable P : params.
Variable x : list obs.
Variable cm : list (Z * Z).
Hypothesis Hconse : 1 <= p_conse P.
Hypothesis Hx : asc x.

(** ** C89 *)
Theorem C89_stable_start : forall fuel R r, stand_procedure K P fuel x cm = Ok R -> In r (res_recs R) ->
  category r <> 14 -> category r <> 24 -> stable_stretch K P x (t_start r) (t_end r).
Proof.
  intros fuel R r H Hr H1 H2. pose proof (@result_inv3 M D K P x cm Hconse Hx fuel R H) as G. rewrite Forall_forall in G.
  destruct (G r Hr) as (_ & G2 & _). apply G2; assumption.
Qed.

(** ** C90 *)
(** The observations behind a record, read off the series. *)
Theorem C90_observations : forall fuel R r, stand_procedure K P fuel x cm = Ok R -> In r (res_recs R) ->
  (category r = 14 -> r_win r = during r (res_live R)) /\
  (category r <> 14 -> category r <> 24 -> r_win r = firstn (Z.to_nat (num_obs r)) (during r (res_live R))) /\
  (category r = 24 -> forall o, In o (res_live R) -> t_start r <= o_date o -> In o (r_win r) \/ flagged K x o).
Proof.
  intros fuel R r H Hr. pose proof (@result_inv3 M D K P x cm Hconse Hx fuel R H) as G. rewrite Forall_forall in G.
  destruct (G r Hr) as (G1 & G2 & G3). split; [assumption|]. split; [|assumption]. intros H1 H2. apply G2; assumption.
Qed.

(** How many observations of its segment the fit of a record may miss. *)
Theorem C90_missed : forall fuel R r, stand_procedure K P fuel x cm = Ok R -> In r (res_recs R) ->
  category r <> 14 -> category r <> 24 -> exists n, 12 <= n <= num_obs r /\
  zlen (during r (res_live R)) - num_obs r <= Z.max 0 (p_skip P n) + (if change_prob r =? 100 then 0 else p_conse P).
Proof.
  intros fuel R r H Hr H1 H2. pose proof (@result_inv3 M D K P x cm Hconse Hx fuel R H) as G. rewrite Forall_forall in G.
  destruct (G r Hr) as (_ & G2 & _). apply G2; assumption.
Qed.

(** When the model of a monitored segment is fitted again: always up to 24
    observations, then exactly when more new ones came in than permitted; and
    how [s_skip], to which the permitted number refers, changes: only with a
    refit beyond 24 (i_span_skip, cold.c 3821-3822, 4014, 4026). *)
Theorem C90_refit_rule : forall s s' r r', reach K P x cm s -> s_i s <= s_end s - p_conse P -> step K P s = Ok s' ->
  s_train s = true -> s_cur s = Some r -> s_cur s' = Some r' ->
  let n := s_i s - s_start s + 1 in
  (num_obs r' = if (n <=? 24) || ((1 <=? n - num_obs r) && (p_skip P (s_skip s) <? n - num_obs r)) then n else num_obs r) /\
  s_skip s' = if (24 <? n) && (1 <=? n - num_obs r) && (p_skip P (s_skip s) <? n - num_obs r) then n else s_skip s.
Proof.
  intros s s' r r' Hr Hi H Htr Hc Hc' n.
  assert (HI : Inv K P x cm s /\ Inv3 K P x s).
  { clear -Hr Hconse Hx. induction Hr as [|s s' Hr [IH1 IH2] Hi H]; [split; [apply Inv_init|apply Inv3_init]|].
    pose proof (@step_wp M D K P x cm Hconse Hx s IH1 Hi) as W. rewrite H in W. destruct W as (A & _). split; [exact A|].
    exact (@step_inv3 M D K P x cm Hconse Hx s s' IH1 IH2 Hi H). }
  destruct HI as [(HC & HT & _) [HS HK0 HQ HKp]]. specialize (HT Htr).
  destruct HT as [[Hsp Ht Hrec Hold] _ _ _ Hcnt]. destruct (HQ Htr Hcnt) as (Hpre & Hsk & _).
  destruct Hrec as (r0 & m0 & Hr0 & Hm0 & _ & _ & _ & _ & Hno0 & _). rewrite Hc in Hr0. injection Hr0 as <-.
  unfold step in H. apply bind_ok in H. destruct H as (xe & Exe & H). apply get_O in Exe. destruct Exe as [_ ->].
  apply bind_ok in H. destruct H as (xs & Exs & H). apply get_O in Exs. destruct Exs as [_ ->].
  fold (dat (s_live s) (s_i s - 1)) in H. fold (dat (s_live s) (s_start s - 1)) in H.
  match type of H with (if ?c then _ else _) = _ => destruct c eqn:E end; [|exfalso; lia].
  rewrite Htr in H. unfold monitor in H. apply bind_ok in H. destruct H as (s1 & E1 & H).
  assert (Hd : exists r1, s_cur s1 = Some r1 /\ num_obs r' = num_obs r1 /\ s_skip s' = s_skip s1).
  { unfold mon_decide in H. apply bind_ok in H. destruct H as (oi & _ & H). apply bind_ok in H. destruct H as ([cm' log'] & _ & H).
    destruct (s_cur s1) as [r1|] eqn:Er1; [|discriminate]. exists r1. split; [reflexivity|].
    destruct (confirmed K P _).
    - apply bind_ok in H. destruct H as (rs & _ & H). injection H as <-. discriminate.
    - destruct (outlier0 K P _); [destruct (drop_obs s1 (s_i s1)) as [l t]|]; injection H as <-;
        cbn [s_cur] in Hc'; injection Hc' as ->; split; reflexivity. }
  destruct Hd as (r1 & Er1 & -> & ->). clear H Hc' r' s'.
  unfold mon_fit in E1. apply bind_ok in E1. destruct E1 as (xe & _ & E1). apply bind_ok in E1. destruct E1 as (xs & _ & E1).
  fold n in E1. replace (s_count s =? 0) with false in E1 by lia. cbn [orb] in E1.
  replace (24 <? n) with (negb (n <=? 24)) by (destruct (n <=? 24) eqn:E24; destruct (24 <? n) eqn:E25; try reflexivity; lia).
  destruct (n <=? 24) eqn:E24; cbn [orb negb andb].
  - apply bind_ok in E1. destruct E1 as (w & _ & E1). apply bind_ok in E1. destruct E1 as (m & _ & E1).
    apply bind_ok in E1. destruct E1 as (os & _ & E1). injection E1 as <-. cbn [s_cur] in Er1. injection Er1 as <-.
    cbn [num_obs s_skip]. replace (s_skip s =? 0) with false by lia. split; reflexivity.
  - rewrite Hc, Hm0 in E1. replace (s_skip s =? 0) with false in E1 by lia.
    replace (s_i s - s_preend s) with (n - num_obs r) in E1 by (rewrite Hno0; unfold n; lia).
    apply bind_ok in E1. destruct E1 as ([[[[[m r2] cnt] pre] skip'] oldlen] & Eqq & E1).
    match type of E1 with (if ?c then _ else _) = _ => destruct c end; [discriminate|].
    match type of E1 with (if ?c then _ else _) = _ => destruct c end; [discriminate|].
    apply bind_ok in E1. destruct E1 as (wo & _ & E1). apply bind_ok in E1. destruct E1 as (o & _ & E1).
    injection E1 as <-. cbn [s_cur] in Er1. injection Er1 as <-. cbn [num_obs s_skip].
    destruct ((1 <=? n - num_obs r) && (p_skip P (s_skip s) <? n - num_obs r)).
    + apply bind_ok in Eqq. destruct Eqq as (w & _ & Eqq). apply bind_ok in Eqq. destruct Eqq as (m1 & _ & Eqq).
      injection Eqq as _ <- _ _ <- _. split; reflexivity.
    + injection Eqq as _ <- _ _ <- _. split; reflexivity.
Qed.

(** Without training nothing changes in [s_train]. *)
Lemma initialise_train : forall s s1, initialise K P s = Ok (s1, false) -> s_train s1 = s_train s.
Proof.
  intros s s1 H. unfold initialise in H. apply bind_ok in H. destruct H as (w & _ & H).
  match type of H with (if ?c then _ else _) = _ => destruct c end; [injection H as <-; reflexivity|].
  apply bind_ok in H. destruct H as (wide & _ & H). apply bind_ok in H. destruct H as (fl & _ & H). cbv zeta in H.
  match type of H with (if ?c then _ else _) = _ => destruct c end; [injection H as <-; reflexivity|].
  apply bind_ok in H. destruct H as (ce & _ & H). apply bind_ok in H. destruct H as (cs & _ & H).
  match type of H with (if ?c then _ else _) = _ => destruct c end; [injection H as <-; reflexivity|].
  apply bind_ok in H. destruct H as (wf & _ & H). apply bind_ok in H. destruct H as (m & _ & H).
  match type of H with (if ?c then _ else _) = _ => destruct c end; [injection H as <-; reflexivity|].
  apply bind_ok in H. destruct H as (ib & _ & H). apply bind_ok in H. destruct H as ([s2 lw] & _ & H).
  destruct (s_recs s2); [|discriminate].
  match type of H with (if ?c then _ else _) = _ => destruct c end; [|discriminate].
  apply bind_ok in H. destruct H as (w2 & _ & H). apply bind_ok in H. destruct H as (m2 & _ & H).
  apply bind_ok in H. destruct H as (oe & _ & H). apply bind_ok in H. destruct H as (ob & _ & H).
  apply bind_ok in H. destruct H as (os & _ & H). apply bind_ok in H. destruct H as (rs & _ & H). discriminate.
Qed.

(** At the first fit of a segment [s_skip] is the number of observations. *)
Theorem C90_first_fit : forall s s', reach K P x cm s -> s_i s <= s_end s - p_conse P -> step K P s = Ok s' ->
  s_train s = false -> s_train s' = true -> exists r', s_cur s' = Some r' /\ s_skip s' = num_obs r'.
Proof.
  intros s s' Hr Hi H Htr Htr'.
  assert (HI : Inv K P x cm s /\ Inv3 K P x s).
  { clear -Hr Hconse Hx. induction Hr as [|s s' Hr [IH1 IH2] Hi H]; [split; [apply Inv_init|apply Inv3_init]|].
    pose proof (@step_wp M D K P x cm Hconse Hx s IH1 Hi) as W. rewrite H in W. destruct W as (A & _). split; [exact A|].
    exact (@step_inv3 M D K P x cm Hconse Hx s s' IH1 IH2 Hi H). }
  destruct HI as [(HC & HT & _) HI]. pose proof HC as HC'. destruct HC' as [Hsub Hstart _ _ _ _ _ _ _].
  unfold step in H. apply bind_ok in H. destruct H as (xe & Exe & H). apply get_O in Exe. destruct Exe as [_ ->].
  apply bind_ok in H. destruct H as (xs & Exs & H). apply get_O in Exs. destruct Exs as [_ ->].
  fold (dat (s_live s) (s_i s - 1)) in H. fold (dat (s_live s) (s_start s - 1)) in H.
  match type of H with (if ?c then _ else _) = _ => destruct c eqn:E end; [|injection H as <-; cbn [s_train] in Htr'; congruence].
  rewrite Htr in H. apply bind_ok in H. destruct H as ([s1 b] & E1 & H).
  destruct b; [|injection H as <-; apply initialise_train in E1; congruence].
  pose proof (@initialise_wp M D K P x cm Hconse Hx s HC Htr Hi) as W. rewrite E1 in W. simpl in W.
  destruct W as [Rc Rt Rn Rs Rd Ri Rm]; [lia|lia|].
  assert (HI1 : Inv3 K P x s1).
  { eapply (@initialise_inv3 M D K P x cm Hconse Hx s s1 true); try eassumption; try lia. }
  destruct HI1 as [_ Hsk _ _]. specialize (Hsk (or_intror Rn)).
  unfold monitor in H. apply bind_ok in H. destruct H as (s2 & E2 & H).
  unfold mon_fit in E2. apply bind_ok in E2. destruct E2 as (xe & _ & E2). apply bind_ok in E2. destruct E2 as (xs & _ & E2).
  rewrite Rn, Hsk in E2. cbn [Z.eqb orb] in E2.
  apply bind_ok in E2. destruct E2 as (w & _ & E2). apply bind_ok in E2. destruct E2 as (m & _ & E2).
  apply bind_ok in E2. destruct E2 as (os & _ & E2). injection E2 as <-.
  unfold mon_decide in H. apply bind_ok in H. destruct H as (oi & _ & H). apply bind_ok in H. destruct H as ([cm' log'] & _ & H).
  cbn [s_cur] in H. destruct (confirmed K P _).
  - apply bind_ok in H. destruct H as (rs & _ & H). injection H as <-. discriminate.
  - destruct (outlier0 K P _); [match type of H with (let '(_, _) := drop_obs ?a ?b in _) = _ => destruct (drop_obs a b) | _ => idtac end|];
      cbv zeta beta iota in H.
    all: injection H as <-; cbn [s_cur s_skip]; eexists; split; reflexivity.
Qed.

(** Bounds on [s_skip]. *)
Theorem C90_refit_base : forall s, reach K P x cm s -> s_train s = true -> exists r, s_cur s = Some r /\ 12 <= s_skip s <= num_obs r.
Proof.
  intros s Hr Htr.
  assert (HI : Inv K P x cm s /\ Inv3 K P x s).
  { clear -Hr Hconse Hx. induction Hr as [|s s' Hr [IH1 IH2] Hi H]; [split; [apply Inv_init|apply Inv3_init]|].
    pose proof (@step_wp M D K P x cm Hconse Hx s IH1 Hi) as W. rewrite H in W. destruct W as (A & _). split; [exact A|].
    exact (@step_inv3 M D K P x cm Hconse Hx s s' IH1 IH2 Hi H). }
  destruct HI as [(HC & HT & _) [HS HK0 HQ HKp]]. specialize (HT Htr).
  destruct HT as [[_ _ Hrec _] _ _ _ Hcnt]. destruct (HQ Htr Hcnt) as (_ & Hsk & _).
  destruct Hrec as (r0 & m0 & Hr0 & _ & _ & _ & _ & _ & Hno0 & _). exists r0. split; [assumption|lia].
Qed.
End Props3.

(* ------------------------------------------------------------------ *)
(** * Examples *)

(** Both segments of [two_levels]: the last six observations of the open one
    are not in its fit. *)
Example two_levels_missed :
  (match stand_procedure toy (toyP None) 60 two_levels [] with
   | Ok R => Some (map (fun r => (category r, num_obs r, zlen (during r (res_live R)), change_prob r)) (res_recs R)) | _ => None end) =
  Some [(8, 30, 30, 100); (8, 24, 30, 0)].
Proof. vm_compute. reflexivity. Qed.

(** A level change after ten observations: the unstable stretch is skipped and
    becomes the initial segment. *)
Example unstable_skipped : asc head_level /\
  (match stand_procedure toy (toyP None) 60 head_level [] with
   | Ok R => Some (map (fun r => (t_start r, t_end r, category r, zlen (r_win r), zlen (during r (res_live R)))) (res_recs R)) | _ => None end) =
  Some [(730000, 730144, 14, 10, 10); (730160, 730784, 8, 34, 40)].
Proof. split; [apply asc_head|]. vm_compute. reflexivity. Qed.

Print Assumptions C89_stable_start.
Print Assumptions C90_observations.
Print Assumptions C90_missed.
Print Assumptions C90_refit_rule.
Print Assumptions C90_first_fit.
Print Assumptions C90_refit_base.
