(** S-CCD, continued: every fit, filter step and normalisation it asks for is
    well posed (C93). *)
From Verif Require Import Base SortModel LibModel LibProps ColdModel ColdLemmas FrontModel FrontProps ColdProps4
  SccdModel SccdProof SccdTop SccdPack SccdTerm SccdApi SccdToy SccdProps SccdProps2.

(** Observations in order, at least [n], more than a year between the first
    and the last. *)
Definition year_of (n : Z) (w : list obs) : bool := in_order n w && (366 <=? days w).

(** The same numerical routines, except that
    - the mask, and the fits with four coefficients (s_ccd.c 708-710, 985,
      997; snow 3247), with six (SCCD_NUM_C, 2800-2831)
      fail on fewer than 18 observations, all but the mask and the snow model
      also within a year;
    - the first record's fit fails on fewer than seven observations;
    - magnitudes, angles and records are void when the sum of squares is
      divided by less than twelve;
    - the filter does nothing unless at least one day passes. *)
Definition sguarded {N S F C} (K : skernel N S F C) : skernel N S F C :=
  mkSK (fun w => if in_order 18 w then k_mask1 K w else None)
       (fun w => if year_of 18 w then k_fit1 K w else None)
       (k_stab1 K) (k_back K) (k_bangle K)
       (fun f w os => if in_order 7 w then k_first K f w os else None)
       (fun p w d => if year_of 18 w && (dat w (zlen w - 1) <? d) then k_init K p w d else None)
       (fun m d => if 12 <=? d then k_norm2 K m d else fun _ => NaN)
       (fun m d => if 12 <=? d then k_angle2 K m d else fun _ => NaN)
       (fun m d => if 12 <=? d then k_rec K m d else fun _ => k_rec K m 12 [])
       (fun m o dt => if 0 <? dt then k_filter K m o dt else m)
       (fun m dt => if 0 <? dt then k_skip K m dt else m)
       (k_store K) (k_load K) (k_a16 K) (k_m16 K)
       (fun w => if in_order 18 w then k_snow K w else None)
       (fun m o dt => if 0 <? dt then k_sfilter K m o dt else m).

Lemma year_ok : forall l a n w, asc l -> slice l a n = Ok w -> 18 <= n -> dat l a + 366 <= dat l (a + n - 1) ->
  year_of 18 w = true.
Proof.
  intros l a n w Hl Hs Hn Ht. pose proof (slice_facts _ _ _ Hs) as (Ha & _ & Hb & Hsub & Hlen & Ew).
  unfold year_of. rewrite (@in_order_ok 18 l w) by (auto; lia).
  assert (Hd : days w = dat l (a + n - 1) - dat l a).
  { unfold days, dat in *. rewrite Hlen. rewrite Ew, !nthO_firstn, !nthO_skipn by lia.
    replace (a + 0) with a by lia. replace (a + (n - 1)) with (a + n - 1) by lia. reflexivity. }
  rewrite Hd. replace (366 <=? _) with true by lia. reflexivity.
Qed.

Section Guard.
Variables N S F C : Type.
Variable K : skernel N S F C.
Variable P : sparams.
Hypothesis Hconse : 1 <= sp_conse P.
Variables B L : Z.
Hypothesis HB0 : 0 <= B.
Notation K' := (sguarded K).
Notation cst := (cst N S C).

Ltac cc := cbn [c_x c_i c_start c_dense c_prev c_train c_ts c_nobs c_m c_recs c_model c_chg c_pins c_cm
                set_idx fst snd] in *.

Record LI (s : cst) : Prop := mkLI {
  li_asc : asc (c_x s);
  li_idx : 0 <= c_prev s <= c_start s /\ c_start s <= c_i s;
  li_dense : c_recs s = [] -> 0 <= c_dense s <= c_start s;
  li_nobs : c_m s <> None -> 18 <= c_nobs s;
  li_up : c_i s <= zlen (c_x s) <= L /\ c_nobs s + zlen (c_x s) - c_i s <= B + L
}.

(** What step 1 leaves behind. *)
Record L1 (s s' : cst) (r : s1) : Prop := mkL1 {
  l1_inv : LI s';
  l1_len : n_clr s' - c_i s' = n_clr s - c_i s;
  l1_m : c_m s' = c_m s /\ c_nobs s' = c_nobs s;
  l1_suc : r = Suc -> 17 <= c_i s' - c_start s' /\ dat (c_x s') (c_start s') + 366 <= dat (c_x s') (c_i s')
}.

Lemma step1_light : forall s, LI s -> c_i s + sp_conse P <= n_clr s - 1 -> 17 <= c_i s - c_start s ->
  step1 K' P s = step1 K P s /\ forall s' r, step1 K P s = Ok (s', r) -> L1 s s' r.
Proof.
  intros s [Ha Hidx Hden Hno Hup] Hg Hsp. unfold n_clr in *. unfold step1.
  rewrite slice_ok by lia. cbn [bind]. set (w := firstn _ _).
  destruct (365 <? max_gap w).
  { split; [reflexivity|]. intros s' r E. injection E as <- <-. constructor; cc; auto; try discriminate.
    constructor; cc; auto; try lia. }
  assert (Hmin : Z.min (c_i s + sp_conse P - 1) (zlen (c_x s) - 1) = c_i s + sp_conse P - 1) by lia.
  unfold n_clr. rewrite Hmin. destruct (slice (c_x s) (c_start s) (c_i s + sp_conse P - 1 - c_start s + 1)) as [wide| | |] eqn:Ewide;
    cbn [bind]; try (split; [reflexivity|discriminate]).
  pose proof (slice_facts _ _ _ Ewide) as (_ & _ & _ & Wsub & Wlen & _).
  change (k_mask1 K' wide) with (if in_order 18 wide then k_mask1 K wide else None).
  rewrite (@in_order_ok 18 (c_x s) wide) by (auto; lia).
  destruct (k_mask1 K wide) as [flags|].
  2: { split; [reflexivity|]. intros s' r E. injection E as <- <-. constructor; auto; try discriminate. constructor; auto. }
  set (w' := keep_from flags 0 w).
  assert (Hw : subseq w' w) by apply keep_sub.
  assert (Hlw : zlen w = c_i s - c_start s + 1).
  { unfold w. rewrite zlen_firstn; [reflexivity|]. rewrite zlen_skipn; lia. }
  assert (Hlw' : zlen w' <= zlen w) by (apply subseq_length in Hw; unfold zlen; lia).
  destruct (zlen w' <? 18) eqn:E18.
  { split; [reflexivity|]. intros s' r E. injection E as <- <-. constructor; auto; try discriminate. constructor; auto. }
  set (cp := firstn (Z.to_nat (c_start s)) (c_x s) ++ w' ++ skipn (Z.to_nat (c_i s + 1)) (c_x s)).
  assert (Hlcp : zlen cp = zlen (c_x s) - (zlen w - zlen w')).
  { unfold cp. rewrite !zlen_app, zlen_firstn, zlen_skipn by lia. lia. }
  assert (Hcps : subseq cp (c_x s)).
  { unfold cp. replace (Z.to_nat (c_i s + 1)) with (Z.to_nat (c_start s) + Z.to_nat (c_i s - c_start s + 1))%nat by lia.
    apply subseq_mid. assumption. }
  assert (Hcpa : asc cp) by (eapply asc_sub; eassumption).
  set (i' := c_start s + zlen w' - 1).
  rewrite get_ok with (d := dflt_obs) by lia. cbn [bind]. fold (nthO cp i').
  rewrite get_ok with (d := dflt_obs) by lia. cbn [bind]. fold (nthO cp (c_start s)).
  change (o_date (nthO cp i')) with (dat cp i'). change (o_date (nthO cp (c_start s))) with (dat cp (c_start s)).
  destruct (dat cp i' - dat cp (c_start s) <? 366) eqn:Ey.
  { split; [reflexivity|]. intros s' r E. injection E as <- <-. constructor; auto; try discriminate. constructor; auto. }
  destruct (slice cp (c_start s) (zlen w')) as [wf| | |] eqn:Ewf; cbn [bind]; try (split; [reflexivity|discriminate]).
  change (k_fit1 K' wf) with (if year_of 18 wf then k_fit1 K wf else None).
  rewrite (@year_ok cp (c_start s) (zlen w') wf); [|assumption|assumption|lia|fold i'; lia].
  destruct (k_fit1 K wf) as [f|].
  2: { split; [reflexivity|]. intros s' r E. injection E as <- <-. constructor; cc; auto; try discriminate.
       - constructor; cc; auto; lia.
       - unfold n_clr. cc. lia. }
  change (k_stab1 K' f wf) with (k_stab1 K f wf).
  destruct (fgt (k_stab1 K f wf) (Fin (sp_tcg P))).
  { split; [reflexivity|]. intros s' r E. injection E as <- <-. constructor; cc; auto; try discriminate.
    - constructor; cc; auto; try lia.
    - unfold n_clr. cc. lia. }
  set (prev := match c_recs s with [] => c_dense s | _ => c_prev s end).
  assert (Hprev : 0 <= prev <= c_start s).
  { unfold prev. destruct (c_recs s); [apply Hden; reflexivity|lia]. }
  change (back K' P (Z.to_nat (c_start s - prev)) f prev cp i' (c_start s))
    with (back K P (Z.to_nat (c_start s - prev)) f prev cp i' (c_start s)).
  pose proof (@back_wp N S F C K P Hconse True (Z.to_nat (c_start s - prev)) f prev cp i' (c_start s)) as HB.
  specialize (HB ltac:(lia) ltac:(lia) ltac:(lia) ltac:(lia) Hcpa).
  destruct (back K P (Z.to_nat (c_start s - prev)) f prev cp i' (c_start s)) as [[[x2 i2] start2]| | |];
    cbn [bind] in *; try (split; [reflexivity|discriminate]).
  cbn [wp fst snd] in HB. destruct HB as [B1 B2 B3 B4 B5 B6].
  assert (Hx2a : asc x2) by (eapply asc_sub; eassumption).
  assert (Hx2l : zlen x2 <= zlen cp) by (apply subseq_length in B1; unfold zlen; lia).
  assert (Hi2 : nthO x2 i2 = nthO cp i').
  { replace i2 with (i2 + 0) by lia. rewrite B6 by lia. f_equal. lia. }
  assert (Hspan : 17 <= i2 - start2 /\ dat x2 start2 + 366 <= dat x2 i2).
  { split; [lia|]. unfold dat in *. rewrite Hi2. lia. }
  assert (Hs2 : L1 s (set_idx s x2 i2 start2 (c_dense s) prev) Suc).
  { constructor; cc; auto; unfold n_clr; cc; try lia.
    constructor; cc; auto; try lia. intros E. unfold prev in *. rewrite E in B3. specialize (Hden E). lia. }
  destruct (c_recs s) as [|rc rs] eqn:Er.
  2: { split; [reflexivity|]. intros s' r E. injection E as <- <-. exact Hs2. }
  destruct (6 <=? start2 - c_dense s) eqn:E6.
  2: { split; [reflexivity|]. intros s' r E. injection E as <- <-. exact Hs2. }
  destruct (slice x2 (c_dense s) (start2 - c_dense s + 1)) as [w2| | |] eqn:Ew2; cbn [bind]; try (split; [reflexivity|discriminate]).
  pose proof (slice_facts _ _ _ Ew2) as (_ & _ & _ & Vsub & Vlen & _).
  destruct (mapM_idx x2 (fun c => start2 - (Z.of_nat c + 1)) 0 (Z.to_nat (sp_conse P))) as [os| | |];
    cbn [bind]; try (split; [reflexivity|discriminate]).
  change (k_first K' f w2 os) with (if in_order 7 w2 then k_first K f w2 os else None).
  rewrite (@in_order_ok 7 x2 w2) by (auto; lia).
  split; [reflexivity|]. intros s' r E. destruct (k_first K f w2 os) as [c|].
  2: { injection E as <- <-. destruct Hs2. constructor; cc; auto; discriminate. }
  apply bind_ok in E. destruct E as (ob & _ & E). apply bind_ok in E. destruct E as (o0 & _ & E).
  rewrite push_nil in E. cbn [bind] in E. injection E as <- <-.
  destruct Hs2 as [[L2 L3 L4 L5 LU] L6 L7 L8]. constructor; cc; auto.
  constructor; cc; auto; try discriminate; try lia.
Qed.

(** *** Step 2 *)
Lemma scan_light : forall m d, 12 <= d -> forall os k bm, scan K' P m d os k bm = scan K P m d os k bm.
Proof.
  intros m d Hd. induction os as [|o os IH]; intros k bm; cbn [scan]; [reflexivity|].
  cbn [sguarded k_norm2]. replace (12 <=? d) with true by lia. rewrite IH. reflexivity.
Qed.

Lemma pinpoint_light : forall s m d os o bm, 12 <= d -> pinpoint K' P s m d os o bm = pinpoint K P s m d os o bm.
Proof.
  intros s m d os o bm Hd. unfold pinpoint. cbn [sguarded k_norm2 k_angle2 k_a16 k_m16].
  replace (12 <=? d) with true by lia. reflexivity.
Qed.

Lemma step2_light : forall void s, LI s -> c_i s + sp_conse P <= n_clr s - 1 ->
  step2 K' P void s = step2 K P void s /\ forall s', step2 K P void s = Ok s' -> LI s'.
Proof.
  intros void s [Ha Hidx Hden Hno Hup] Hg. unfold n_clr in Hg. unfold step2.
  destruct (c_m s) as [m|] eqn:Em; [|split; [reflexivity|discriminate]].
  destruct (c_ts s) as [ts|]; [|split; [reflexivity|discriminate]].
  assert (Hd : 12 <= c_nobs s - 6) by (specialize (Hno ltac:(discriminate)); lia).
  assert (Ed : (12 <=? c_nobs s - 6) = true) by lia.
  destruct (slice (c_x s) (c_i s) (sp_conse P)) as [os| | |]; cbn [bind]; try (split; [reflexivity|discriminate]).
  rewrite get_ok with (d := dflt_obs) by lia. cbn [bind]. fold (nthO (c_x s) (c_i s)).
  rewrite scan_light by assumption. destruct (scan K P m (c_nobs s - 6) os 0 (Fin (sp_cap P))) as [[flag bm] ic].
  rewrite pinpoint_light by assumption.
  destruct (if sp_pin P && (3 <=? ic) then pinpoint K P s m (c_nobs s - 6) os (nthO (c_x s) (c_i s)) bm else Ok (c_pins s, c_cm s))
    as [[pins cm]| | |]; cbn [bind]; try (split; [reflexivity|discriminate]).
  cbn [sguarded k_norm2 k_angle2 k_rec k_filter k_skip k_store k_a16 k_m16]. rewrite Ed.
  pose proof (@dat_lt (c_x s) (c_i s) (c_i s + 1) Ha ltac:(lia) ltac:(lia)) as Hlt. unfold dat in Hlt.
  destruct (flag && _ && _).
  - split; [reflexivity|]. intros s' E. apply bind_ok in E. destruct E as (a16 & _ & E). apply bind_ok in E. destruct E as (rs & Er & E).
    apply bind_ok in E. destruct E as (w & _ & E). injection E as <-. constructor; cc; auto; try lia.
    intros E. subst rs. unfold push_seg in Er. destruct (max_seg <=? _); [discriminate|]. injection Er as Er.
    destruct (c_recs s); discriminate.
  - rewrite get_ok with (d := dflt_obs) by lia. cbn [bind]. fold (nthO (c_x s) (c_i s + 1)).
    replace (0 <? o_date (nthO (c_x s) (c_i s + 1)) - o_date (nthO (c_x s) (c_i s))) with true by lia.
    split; [reflexivity|]. intros s' E. destruct (fgt _ _).
    + injection E as <-. constructor; cc; auto.
      * eapply asc_sub; [apply subseq_del|assumption].
      * intros _. lia.
      * assert (Hdl : zlen (del (Z.to_nat (c_i s)) (c_x s)) = zlen (c_x s) - 1) by (apply zlen_del; lia). lia.
    + replace (_ <=? 0) with false in E by lia. injection E as <-. constructor; cc; auto; try lia.
Qed.

Lemma cstep_light : forall void s, LI s -> c_i s + sp_conse P <= n_clr s - 1 ->
  cstep K' P void s = cstep K P void s /\ forall s', cstep K P void s = Ok s' -> LI s'.
Proof.
  intros void s HI Hg. unfold cstep. destruct (c_train s); [apply step2_light; assumption|].
  destruct (get (c_x s) (c_i s)) as [xe| | |]; cbn [bind]; try (split; [reflexivity|discriminate]).
  destruct (get (c_x s) (c_start s)) as [xs| | |]; cbn [bind]; try (split; [reflexivity|discriminate]).
  set (go := (18 <=? c_i s - c_start s + 1) && (366 <=? o_date xe - o_date xs)).
  assert (H1 : (if go then step1 K' P s else Ok (s, Inc)) = (if go then step1 K P s else Ok (s, Inc)) /\
               forall s' r, (if go then step1 K P s else Ok (s, Inc)) = Ok (s', r) -> L1 s s' r).
  { destruct go eqn:Eg; [apply step1_light; auto; unfold go in Eg; lia|]. split; [reflexivity|].
    intros s' r E. injection E as <- <-. constructor; auto. discriminate. }
  destruct H1 as [E1 H1]. rewrite E1. clear E1.
  destruct (if go then step1 K P s else Ok (s, Inc)) as [[s1' r]| | |]; cbn [bind]; try (split; [reflexivity|discriminate]).
  destruct (H1 s1' r eq_refl) as [HI' Hlen [Hm Hn] Hsuc]. clear H1. destruct HI' as [Ha Hidx Hden Hno Hup].
  unfold n_clr in Hg, Hlen. destruct r.
  - split; [reflexivity|]. intros s' E. injection E as <-. constructor; cc; auto; lia.
  - destruct (Hsuc eq_refl) as [Hspan Hyear]. unfold n_clr in *.
    destruct (slice (c_x s1') (c_start s1') (c_i s1' - c_start s1' + 1)) as [w| | |] eqn:Ew; cbn [bind]; try (split; [reflexivity|discriminate]).
    pose proof (slice_facts _ _ _ Ew) as (S1 & S2 & S3 & S4 & S5 & S6).
    rewrite get_ok with (d := dflt_obs) by lia. cbn [bind]. fold (nthO (c_x s1') (Z.min (c_i s1' + 1) (zlen (c_x s1') - 1))).
    destruct (get (c_x s1') (c_start s1')) as [os| | |]; cbn [bind]; try (split; [reflexivity|discriminate]).
    cbn [sguarded k_init].
    rewrite (@year_ok (c_x s1') (c_start s1') (c_i s1' - c_start s1' + 1) w); [|assumption|assumption|lia|].
    2: { replace (c_start s1' + (c_i s1' - c_start s1' + 1) - 1) with (c_i s1') by lia. assumption. }
    assert (Hl : (dat w (zlen w - 1) <? o_date (nthO (c_x s1') (Z.min (c_i s1' + 1) (zlen (c_x s1') - 1)))) = true).
    { assert (Ed : dat w (zlen w - 1) = dat (c_x s1') (c_i s1')).
      { unfold dat. rewrite S5, S6, nthO_firstn, nthO_skipn by lia. f_equal. f_equal. lia. }
      rewrite Ed. replace (Z.min (c_i s1' + 1) (zlen (c_x s1') - 1)) with (c_i s1' + 1) by lia.
      pose proof (@dat_lt (c_x s1') (c_i s1') (c_i s1' + 1) Ha ltac:(lia) ltac:(lia)) as Hlt. unfold dat in *. lia. }
    rewrite Hl. cbn [andb]. split; [reflexivity|]. intros s' E. apply bind_ok in E. destruct E as (m & _ & E).
    injection E as <-. constructor; cc; auto; lia.
  - split; [reflexivity|]. intros s' E. injection E as <-. constructor; auto.
Qed.

Lemma cloop_light : forall void fuel s, LI s ->
  cloop K' P void fuel s = cloop K P void fuel s /\ forall s', cloop K P void fuel s = Ok s' -> LI s'.
Proof.
  intros void. induction fuel as [|fuel IH]; intros s HI; cbn [cloop].
  - destruct (_ <=? _); split; try reflexivity; intros s' E; [discriminate|injection E as <-; assumption].
  - destruct (c_i s + sp_conse P <=? n_clr s - 1) eqn:E; [|split; [reflexivity|intros s' E'; injection E' as <-; assumption]].
    destruct (@cstep_light void s HI ltac:(lia)) as [E1 H1]. rewrite E1.
    destruct (cstep K P void s) as [s1| | |]; cbn [bind]; try (split; [reflexivity|discriminate]).
    apply IH. apply H1. reflexivity.
Qed.

Lemma save_model_light : forall s mode, LI s -> save_model K' P s mode = save_model K P s mode.
Proof.
  intros s mode [_ _ _ Hno _]. unfold save_model. destruct (c_m s) as [m|]; [|reflexivity]. destruct (c_ts s); [|reflexivity].
  specialize (Hno ltac:(discriminate)).
  cbn [sguarded k_norm2 k_angle2 k_store k_a16 k_m16].
  replace (12 <=? c_nobs s - scft (c_nobs s)) with true; [reflexivity|].
  unfold scft. replace (c_nobs s <? 18) with false by lia. lia.
Qed.

Lemma standard_light : forall fuel x a, asc x -> zlen x = L ->
  (Z.rem (io_mode a) 10 = 1 -> 18 <= nm_nobs (io_model a) <= B) ->
  standard K' P fuel x a = standard K P fuel x a /\
  forall b, standard K P fuel x a = Ok b -> Z.rem (io_mode b) 10 = 1 ->
    exists n, 18 <= n <= B + L /\ nm_nobs (io_model b) = wrap16 n.
Proof.
  intros fuel x a Hx HL Ha. unfold standard.
  destruct (get x (zlen x - 1)) as [ol| | |]; cbn [bind]; try (split; [reflexivity|discriminate]).
  destruct (get x 0) as [o0| | |]; cbn [bind]; try (split; [reflexivity|discriminate]).
  destruct (n_buckets (o_date ol) <? 0); [split; [reflexivity|discriminate]|].
  change (k_load K' (nm_st (io_model a))) with (k_load K (nm_st (io_model a))).
  match goal with |- bind (cloop _ _ _ _ ?s0) _ = _ /\ _ => set (s0' := s0); assert (HI : LI s0') end.
  { unfold s0'. destruct (Z.rem (io_mode a) 10 =? 1) eqn:E; constructor; cc; auto; try lia; try (intros Hn; contradiction).
    all: pose proof (zlen_nonneg x); lia. }
  destruct (@cloop_light (io_mode a =? 0) fuel s0' HI) as [E1 H1]. rewrite E1.
  destruct (cloop K P (io_mode a =? 0) fuel s0') as [s| | |] eqn:Es; cbn [bind]; try (split; [reflexivity|discriminate]).
  specialize (H1 s eq_refl).
  destruct (new_mode P (io_mode a) s) as [[mode1 prev]| | |]; cbn [bind]; try (split; [reflexivity|discriminate]).
  rewrite save_model_light by assumption. split; [reflexivity|]. intros b Hb Hmb.
  apply bind_ok in Hb. destruct Hb as ([mode2 model] & E2 & Hb).
  apply bind_ok in Hb. destruct Hb as (qu & _ & Hb). injection Hb as <-. cbn [io_mode io_model] in *.
  destruct (Z.rem mode1 10 =? 1) eqn:Em; [|injection E2 as <- <-; lia].
  exists (c_nobs s). destruct H1 as [_ _ _ Hno Hup]. unfold save_model in E2.
  destruct (c_m s) as [m|]; [|discriminate]. destruct (c_ts s) as [ts|]; [|discriminate].
  specialize (Hno ltac:(discriminate)). split; [lia|].
  apply bind_ok in E2. destruct E2 as (w & _ & E2). apply bind_ok in E2. destruct E2 as (os & _ & E2).
  replace (0 <? c_nobs s) with true in E2 by lia. cbv zeta in E2.
  match type of E2 with (if ?c then _ else _) = _ => destruct c end.
  - injection E2 as _ <-. reflexivity.
  - apply bind_ok in E2. destruct E2 as (a16 & _ & E2). injection E2 as _ <-. reflexivity.
Qed.

Lemma snow_filter_light : forall n m x, snow_filter K' m x n = snow_filter K m x n.
Proof.
  induction n as [|n IH]; intros m x; [destruct x; reflexivity|]. destruct x as [|o [|o1 t]]; try reflexivity.
  assert (Hun : forall k : skernel N S F C, snow_filter k m (o :: o1 :: t) (Datatypes.S n) =
    if o_date o1 - o_date o <=? 0 then UB else snow_filter k (k_sfilter k m o (o_date o1 - o_date o)) (o1 :: t) n) by reflexivity.
  rewrite !Hun. clear Hun. destruct (o_date o1 - o_date o <=? 0) eqn:E; [reflexivity|].
  rewrite IH. f_equal. cbn [sguarded k_sfilter]. replace (0 <? _) with true by lia. reflexivity.
Qed.

Lemma snow_light : forall x a, asc x -> snow K' x a = snow K x a.
Proof.
  intros x a Hx. unfold snow. rewrite snow_filter_light.
  destruct ((io_mode a =? 4) || (io_mode a =? 0)); [|reflexivity]. destruct (zlen x <? 18) eqn:E; [reflexivity|].
  cbn [sguarded k_snow k_store]. rewrite (@in_order_ok 18 x x); [reflexivity|assumption|apply subseq_refl|lia].
Qed.
End Guard.

(** ** Whole calls *)
Section Calls.
Variables N S F C : Type.
Implicit Types (K : list Z -> skernel N S F C) (P : sparams) (junk : list Z) (jm : nmodel S)
  (rows : list raw) (a b : io S C).

(** A stored model in monitor mode was fitted to 18 observations. *)
Definition trained a : Prop := Z.rem (io_mode a) 10 = 1 -> 18 <= nm_nobs (io_model a).

Definition stored_n a : Z := if Z.rem (io_mode a) 10 =? 1 then nm_nobs (io_model a) else 0.

Lemma stored_ok : forall a, trained a -> 0 <= stored_n a /\ (Z.rem (io_mode a) 10 = 1 -> 18 <= nm_nobs (io_model a) <= stored_n a).
Proof.
  intros a H. unfold stored_n. destruct (_ =? 1) eqn:E; [|lia]. specialize (H ltac:(lia)). lia.
Qed.

Lemma sccd_light : forall K P c2 junk fuel rows a, 1 <= sp_conse P -> trained a ->
  (forall sn, asc (call_obs c2 sn rows a)) ->
  sccd (fun rm => sguarded (K rm)) P c2 junk fuel rows a = sccd K P c2 junk fuel rows a.
Proof.
  intros K P c2 junk fuel rows a Hc Ht Ha. unfold sccd. destruct (negb _); [reflexivity|].
  destruct (preprocess_eq c2 rows (mkCounts 0 0 0 0 0)) as [[_ E]|[_ E]]; rewrite E; [|reflexivity]. cbn [bind].
  destruct (is_snow _ _).
  - apply snow_light. exact (Ha true).
  - destruct (_ <? _); [|reflexivity]. apply bind_ext. intros rm _.
    destruct (stored_ok Ht) as [T1 T2].
    eapply (@standard_light N S F C (K rm) P Hc (stored_n a)); [assumption|exact (Ha false)|reflexivity|exact T2].
Qed.

(** What a call leaves in a model in monitor mode. *)
Lemma sccd_trained : forall K P c2 junk fuel rows a b, 1 <= sp_conse P -> length junk = 6%nat -> trained a ->
  (forall sn, asc (call_obs c2 sn rows a)) ->
  sccd K P c2 junk fuel rows a = Ok b -> Z.rem (io_mode b) 10 = 1 ->
  18 <= nm_nobs (io_model b) \/
  exists n, 18 <= n <= stored_n a + zlen (call_obs c2 false rows a) /\ nm_nobs (io_model b) = wrap16 n.
Proof.
  intros K P c2 junk fuel rows a b Hc Hj Ht Ha H Hm.
  destruct (@sccd_cases N S F C K P c2 junk fuel rows a Hj) as [E|(sn & Hsn & Hsn' & Hmo & Hcase)]; [congruence|].
  cbv zeta in Hcase. destruct Hcase as [[-> E]|[(-> & Hx & E)|(-> & Hlt & rm & Hrm & E)]]; rewrite H in E.
  - exfalso. clear -E Hm. symmetry in E. unfold snow in E. destruct (_ || _).
    + destruct (_ <? 18).
      * apply bind_ok in E. destruct E as (q & _ & E). injection E as <-. discriminate.
      * apply bind_ok in E. destruct E as (m & _ & E). apply bind_ok in E. destruct E as (o & _ & E).
        apply bind_ok in E. destruct E as (w & _ & E). injection E as <-. discriminate.
    + apply bind_ok in E. destruct E as (m & _ & E).
      apply bind_ok in E. destruct E as (w & _ & E). injection E as <-. discriminate.
  - left. injection E as ->. exact (Ht Hm).
  - right. symmetry in E.
    destruct (stored_ok Ht) as [T1 T2].
    eapply (@standard_light N S F C (K rm) P Hc (stored_n a) (zlen (call_obs c2 false rows a)));
      [assumption|exact (Ha false)|reflexivity| |exact E|exact Hm]. exact T2.
Qed.

(** sccd_detect, any window length, any data in date order. *)
Theorem C93_detect : forall K P c2 junk jm rows, 1 <= sp_conse P ->
  StronglySorted (fun p q => q_date p <= q_date q) rows ->
  detect (fun rm => sguarded (K rm)) P c2 junk jm rows = detect K P c2 junk jm rows.
Proof.
  intros K P c2 junk jm rows Hc Hs. unfold detect. destruct rows as [|r t]; [reflexivity|].
  destruct (_ <? _); [reflexivity|]. destruct (_ <? _); [reflexivity|].
  rewrite sccd_light; [reflexivity|assumption|intros E; discriminate|].
  intros sn. apply detect_obs. assumption.
Qed.

(** The pack after a detection and any history of updates. *)
Lemma wrap_trained : forall n, 18 <= n <= 65535 -> 1 <= wrap16 n -> 18 <= wrap16 n.
Proof.
  intros n Hn H. unfold wrap16 in *. destruct (Z_lt_le_dec n 32768).
  - rewrite Z.mod_small in * by lia. lia.
  - exfalso. replace (n + 32768) with (n - 32768 + 1 * 65536) in H by lia.
    rewrite Z.mod_add, Z.mod_small in H by lia. lia.
Qed.

Lemma obs_few : forall x, asc x -> Forall (fun o => in_days (o_date o)) x -> zlen x <= 32768.
Proof.
  intros x Ha Hd. destruct (Z_lt_le_dec (zlen x) 1) as [H|H]; [lia|].
  pose proof (@asc_gap x 0 (zlen x - 1) Ha ltac:(lia) ltac:(lia)) as Hg.
  rewrite Forall_forall in Hd.
  pose proof (Hd (nthO x 0) (@nth_In _ (Z.to_nat 0) x dflt_obs ltac:(unfold zlen in *; lia))) as H0.
  pose proof (Hd (nthO x (zlen x - 1)) (@nth_In _ (Z.to_nat (zlen x - 1)) x dflt_obs ltac:(unfold zlen in *; lia))) as H1.
  unfold dat, in_days in *. lia.
Qed.

Lemma call_trained : forall K P c2 junk jm fuel rows a b b' base, launch <= base -> sp_conse P = 8 -> length junk = 6%nat ->
  pack_ok base a -> rows_ok base a rows -> trained a ->
  sccd K P c2 junk fuel rows a = Ok b -> returned jm b = Ok b' -> trained b'.
Proof.
  intros K P c2 junk jm fuel rows a b b' base Hl H8 Hj HP HR Ht H Hr Hm.
  pose proof (@sccd_call N S F C K P base c2 junk fuel rows a Hl H8 Hj HP HR) as HC.
  rewrite H in HC. destruct HC as (HP' & _).
  rewrite (returned_mode Hr) in Hm.
  assert (Emo : io_model b' = io_model b).
  { unfold returned in Hr. replace (Z.rem (io_mode b) 10 =? 1) with true in Hr by lia. cbn [orb] in Hr.
    injection Hr as <-. reflexivity. }
  rewrite Emo.
  destruct (@sccd_trained K P c2 junk fuel rows a b ltac:(lia) Hj Ht) as [E|(n & Hn & E)]; auto.
  { intros sn. apply (@call_obs_facts S C base c2 sn rows a HP HR). }
  destruct (@call_obs_facts S C base c2 false rows a HP HR) as (X1 & X2 & _).
  assert (Hfew : zlen (call_obs c2 false rows a) <= 32768).
  { apply obs_few; [assumption|]. eapply Forall_impl; [|exact X2]. simpl. tauto. }
  assert (Hbig : stored_n a <= 32767).
  { unfold stored_n. destruct (_ =? 1) eqn:Em; [|lia].
    destruct (pk_start HP ltac:(lia)) as (S1 & _ & S2 & _).
    assert (Hlen : 1 <= zlen (carried a)).
    { destruct (carried a); [|rewrite zlen_cons; pose proof (zlen_nonneg l); lia]. cbn in S2. unfold launch in *. lia. }
    pose proof (pk_days HP) as Hd. rewrite Forall_forall in Hd.
    pose proof (Hd (nthO (carried a) 0) (@nth_In _ (Z.to_nat 0) (carried a) dflt_obs ltac:(unfold zlen in *; lia))) as H0.
    unfold dat, in_days in *. lia. }
  rewrite E. apply wrap_trained; [lia|]. rewrite <- E. apply (pk_start HP' ltac:(assumption)).
Qed.

(** A day between two batches. *)
Lemma between : forall (rows rest : list raw) D, StronglySorted (fun p q => q_date p <= q_date q) (rows ++ rest) ->
  Forall (fun q => D <= q_date q) (rows ++ rest) ->
  exists D', D <= D' /\ Forall (fun q => q_date q <= D') rows /\ Forall (fun q => D' <= q_date q) rest.
Proof.
  intros rows rest D Hs Hd. destruct (sorted_app _ _ Hs) as (S1 & S2 & S3). apply Forall_app in Hd. destruct Hd as [_ Hd].
  destruct rest as [|q0 qs].
  - assert (Hub : exists M, D <= M /\ Forall (fun q => q_date q <= M) rows).
    { clear. induction rows as [|q rows (M & I1 & I2)]; [exists D; split; [lia|constructor]|].
      exists (Z.max M (q_date q)). split; [lia|]. constructor; [lia|]. eapply Forall_impl; [|exact I2]. simpl. lia. }
    destruct Hub as (M & M1 & M2). exists M. auto.
  - exists (q_date q0). split; [inversion Hd; assumption|]. split.
    + apply Forall_forall. intros q Hq. apply S3; [assumption|left; reflexivity].
    + inversion S2; subst. constructor; [lia|assumption].
Qed.

Lemma history_trained : forall a batches c, history (N := N) (F := F) 8 a batches c ->
  forall base D, launch <= base -> pack_ok base a -> upto D a -> batches_ok batches -> trained a ->
  Forall (fun q => base <= q_date q /\ D <= q_date q) (concat batches) -> trained c.
Proof.
  intros a batches c H. induction H as [a|K P c2 junk jm a rows b rest c Hc Hj Hu Hh IH|a green dist cmt ant tr b d batches c Hi Hh IH];
    intros base D Hl HP Ha [Hg Hs] Ht Hd.
  - assumption.
  - simpl in Hg, Hs, Hd.
    destruct (@between rows (concat rest) D Hs) as (D' & D1 & D2 & D3).
    { eapply Forall_impl; [|exact Hd]. simpl. tauto. }
    apply Forall_app in Hg, Hd. destruct Hg as [Hg1 Hg2], Hd as [Hd1 Hd2].
    destruct (sorted_app _ _ Hs) as (S1 & S2 & S3).
    destruct (update_step Hl Hc Hj HP Ha Hg1 Hd1 S1 Hu) as (P1 & _ & P3).
    destruct (update_ok Hu) as (b' & E & Hr).
    apply (IH base D'); auto.
    + split; assumption.
    + eapply call_trained; [exact Hl| |exact Hj|exact HP|exact (rows_ok_intro Ha Hg1 Hd1 S1)|exact Ht|exact E|exact Hr]. exact Hc.
    + rewrite Forall_forall in *. intros q Hq. split; [apply Hd2; assumption|apply D3; assumption].
  - destruct (@identify_pack S C green dist cmt ant tr base a b d HP Hi) as (I1 & I2 & I3).
    apply (IH base D); auto; [unfold upto; rewrite I2; assumption|split; assumption|].
    destruct (identify_same _ _ _ _ _ _ Hi) as [-> |[E1 ->]]; [assumption|].
    unfold trained in *. cbn [io_mode io_model]. intros _. apply Ht. rewrite E1. reflexivity.
Qed.

(** sccd_update after sccd_detect and any history of updates and
    identifications, window of eight. *)
Theorem C93_update : forall K0 P0 c0 junk0 jm0 first a batches c K P c2 junk jm rows,
  sp_conse P0 = 8 -> length junk0 = 6%nat -> sp_conse P = 8 ->
  batches_ok (first :: batches ++ [rows]) ->
  detect K0 P0 c0 junk0 jm0 first = Ok a -> history (N := N) (F := F) 8 a batches c ->
  update (fun rm => sguarded (K rm)) P c2 junk jm rows c = update K P c2 junk jm rows c.
Proof.
  intros K0 P0 c0 junk0 jm0 first a batches c K P c2 junk jm rows H0 Hj0 H8 [Hg Hs] Hdet Hh.
  cbn [concat] in Hg, Hs. rewrite concat_app in Hg, Hs. cbn [concat] in Hg, Hs. rewrite app_nil_r in Hg, Hs.
  destruct (@between first (concat batches ++ rows) launch Hs) as (D & D0 & D1 & D2).
  { eapply Forall_impl; [|exact Hg]. unfold good_row. simpl. lia. }
  destruct (sorted_app _ _ Hs) as (S1 & S2 & _).
  destruct (@between (concat batches) rows D S2 D2) as (D' & E0 & E1 & E2).
  destruct (sorted_app _ _ S2) as (S3 & S4 & _).
  apply Forall_app in Hg. destruct Hg as [Hg1 Hg2]. apply Forall_app in Hg2. destruct Hg2 as [Hg2 Hg3].
  apply Forall_app in D2. destruct D2 as [D2 D3].
  destruct (@detect_sound N S F C K0 P0 c0 junk0 jm0 first a H0 Hj0) as [HP Hu]; [|exact Hdet|].
  { split; simpl; rewrite app_nil_r; assumption. }
  assert (Hb : Forall (fun q => launch <= q_date q /\ D <= q_date q) (concat batches)).
  { rewrite Forall_forall in *. intros q Hq. specialize (Hg2 q Hq). specialize (D2 q Hq). unfold good_row in Hg2. lia. }
  assert (Ht : trained a).
  { destruct (detect_ok Hdet) as (b' & E & Hr & _).
    eapply (@call_trained K0 P0 c0 junk0 jm0 (enough first (blank C jm0)) first (blank C jm0) b' a launch);
      [lia|exact H0|exact Hj0|apply blank_pack| |intros X; discriminate|exact E|exact Hr].
    apply (@rows_ok_intro S C launch (blank C jm0) first launch); auto; [constructor|].
    eapply Forall_impl; [|exact Hg1]. unfold good_row. simpl. lia. }
  destruct (history_sound Hh launch D (Z.le_refl launch) HP (Hu D D1)) as (Q1 & _ & Q3);
    [split; assumption|exact Hb|].
  pose proof (@history_trained a batches c Hh launch D (Z.le_refl launch) HP (Hu D D1) ltac:(split; assumption) Ht Hb) as Htc.
  assert (HR : rows_ok launch c rows).
  { apply (@rows_ok_intro S C launch c rows D'); auto.
    rewrite Forall_forall in *. intros q Hq. specialize (Hg3 q Hq). specialize (E2 q Hq). unfold good_row in Hg3. lia. }
  unfold update. destruct rows as [|r t] eqn:Er; [reflexivity|]. rewrite <- Er in *.
  rewrite sccd_light; [reflexivity|cbn [no_pin sp_conse]; lia|assumption|].
  intros sn. apply (@call_obs_facts S C launch c2 sn rows c Q1 HR).
Qed.

End Calls.

(** Not vacuous: the guarded routines refuse windows that are too small, yet
    a run with them fits, breaks, starts again and is updated in monitor
    mode. *)
Example sguarded_refuses :
  let x := map sobs (rows_every 724000 16 40 100) in
  (k_fit1 (sguarded (toy [])) (firstn 18 x), k_fit1 (sguarded (toy [])) (firstn 24 x),
   k_init (sguarded (toy [])) None (firstn 24 x) 724000) = (None, Some 100, None) /\
  k_norm2 (sguarded (toy [])) 100 11 (mkObs 724000 [50]) = NaN /\
  k_norm2 (sguarded (toy [])) 100 12 (mkObs 724000 [50]) = Fin 50.
Proof. vm_compute. auto. Qed.

Example sguarded_run :
  let K := fun rm => sguarded (toy rm) in
  let first := rows_every 724000 16 40 100 ++ rows_every 724640 16 50 400 in
  let more := rows_every 725440 16 10 400 in
  (a <- detect K (par 8 false) true junk0 jm0 first ;;
   b <- update K (par 8 false) true junk0 jm0 more a ;;
   Ok (map (@g_start Z) (io_recs b), map (@g_break Z) (io_recs b), [io_mode a; io_mode b; nm_nobs (io_model a); nm_nobs (io_model b)]))
  = Ok ([724000], [724640], [1; 1; 42; 52]).
Proof. vm_compute. reflexivity. Qed.

Print Assumptions C93_detect.
Print Assumptions C93_update.
