(** Invariant proof for the S-CCD state machine. *)
From Verif Require Import Base SortModel LibModel ColdModel ColdLemmas FrontModel SccdModel.

(* ------------------------------------------------------------------ *)
(** ** Checked accesses *)

Lemma mapM_idx_cases : forall l f n k,
  (mapM_idx l f k n = Ok (map (fun c => nthO l (f c)) (seq k n)) /\
   (forall c, (k <= c < k + n)%nat -> 0 <= f c < zlen l)) \/
  (mapM_idx l f k n = UB /\ ~ (forall c, (k <= c < k + n)%nat -> 0 <= f c < zlen l)).
Proof.
  intros l f n. induction n; intros k; simpl.
  { left. split; [reflexivity|]. intros; lia. }
  destruct (Z_lt_dec (f k) 0) as [Hn|Hn].
  { right. split.
    - unfold get. destruct (f k <? 0) eqn:E; [reflexivity|lia].
    - intros H. specialize (H k). lia. }
  destruct (Z_lt_dec (f k) (zlen l)) as [Hl|Hl].
  - rewrite get_ok with (d := dflt_obs) by lia. cbn [bind].
    destruct (IHn (S k)) as [[E H]|[E H]]; rewrite E; cbn [bind].
    + left. split; [reflexivity|]. intros c Hc.
      destruct (Nat.eq_dec c k); [subst; lia|]. apply H. lia.
    + right. split; [reflexivity|]. intros H'. apply H. intros c Hc. apply H'. lia.
  - right. split.
    + unfold get. destruct (f k <? 0) eqn:E; [lia|].
      replace (nth_error l (Z.to_nat (f k))) with (@None obs); [reflexivity|].
      symmetry. apply nth_error_None. unfold zlen in *. lia.
    + intros H. specialize (H k). lia.
Qed.

Lemma wp_mapM_idx' : forall (safe : Prop) l f n k (Q : list obs -> Prop),
  (safe -> forall c, (k <= c < k + n)%nat -> 0 <= f c < zlen l) ->
  ((forall c, (k <= c < k + n)%nat -> 0 <= f c < zlen l) ->
   Q (map (fun c => nthO l (f c)) (seq k n))) ->
  wp safe (mapM_idx l f k n) Q.
Proof.
  intros safe l f n k Q Hs HQ.
  destruct (mapM_idx_cases l f n k) as [[E H]|[E H]]; rewrite E; simpl; auto.
Qed.

(** An observation as it appears after storing. *)
Definition stv (o : obs) : obs := mkObs (wrap16 (o_date o - launch)) (o_vals o).
Definition vals16 (o : obs) : Prop := Forall (fun v => -32768 <= v <= 32767) (o_vals o).

Lemma mapO_to16 : forall l, (mapO to16 l = Ok l /\ Forall (fun v => -32768 <= v <= 32767) l) \/
  (mapO to16 l = UB /\ ~ Forall (fun v => -32768 <= v <= 32767) l).
Proof.
  induction l; simpl; [left; auto|].
  unfold to16 at 1 3. destruct ((-32768 <=? a) && (a <=? 32767)) eqn:E; cbn [bind].
  - destruct IHl as [[E1 H]|[E1 H]]; rewrite E1; cbn [bind]; [left|right]; split; auto.
    + constructor; [lia|assumption].
    + intros H'. inversion H'; auto.
  - right. split; [reflexivity|]. intros H. inversion H; subst. lia.
Qed.

Lemma st_obs_cases : forall o, (st_obs o = Ok (stv o) /\ vals16 o) \/ (st_obs o = UB /\ ~ vals16 o).
Proof.
  intros o. unfold st_obs, vals16, stv.
  destruct (mapO_to16 (o_vals o)) as [[E H]|[E H]]; rewrite E; cbn [bind]; auto.
Qed.

Lemma mapO_st : forall l, (mapO st_obs l = Ok (map stv l) /\ Forall vals16 l) \/
  (mapO st_obs l = UB /\ ~ Forall vals16 l).
Proof.
  induction l; simpl; [left; auto|].
  destruct (st_obs_cases a) as [[E H]|[E H]]; rewrite E; cbn [bind].
  - destruct IHl as [[E1 H1]|[E1 H1]]; rewrite E1; cbn [bind]; [left|right]; split; auto.
    intros H'. inversion H'; auto.
  - right. split; [reflexivity|]. intros H'. inversion H'; auto.
Qed.

(** The slots saved from position [i]. *)
Definition slot_view (x : list obs) (i n : Z) : list obs :=
  map (fun k => if Z.of_nat k <? n then stv (nthO x (i + Z.of_nat k)) else zero_obs) (seq 0 8).

Lemma mapO_wp : forall A B (safe : Prop) (f : A -> out B) (g : A -> B) l,
  (forall a, In a l -> f a = Ok (g a) \/ (f a = UB /\ ~ safe)) ->
  wp safe (mapO f l) (fun r => r = map g l).
Proof.
  intros A B safe f g l. induction l; intros H; simpl; [reflexivity|].
  destruct (H a) as [E|[E Hs]]; [left; reflexivity| |]; rewrite E; simpl; [|assumption].
  apply wp_bind. eapply wp_mono; [apply IHl; intros; apply H; right; assumption|].
  intros r ->. simpl. reflexivity.
Qed.

Lemma save8_wp : forall (safe : Prop) x i n, 0 <= i -> 
  (safe -> i + Z.min n 8 <= zlen x) -> (safe -> Forall vals16 x) ->
  wp safe (save8 x i n) (fun w => w = slot_view x i n).
Proof.
  intros safe x i n Hi Hn Hv. unfold save8, slot_view. apply mapO_wp.
  intros k Hk. apply in_seq in Hk. destruct (Z.of_nat k <? n) eqn:E; [|left; reflexivity].
  destruct (Z_lt_dec (i + Z.of_nat k) (zlen x)) as [Hl|Hl].
  - rewrite get_ok with (d := dflt_obs) by lia. cbn [bind].
    fold (nthO x (i + Z.of_nat k)).
    destruct (st_obs_cases (nthO x (i + Z.of_nat k))) as [[E1 _]|[E1 H1]]; rewrite E1; [left; reflexivity|].
    right. split; [reflexivity|]. intros Hs. apply H1. specialize (Hv Hs).
    rewrite Forall_forall in Hv. apply Hv. apply In_nthO. lia.
  - right. split.
    + unfold get. destruct (i + Z.of_nat k <? 0) eqn:E1; [lia|].
      replace (nth_error x (Z.to_nat (i + Z.of_nat k))) with (@None obs); [reflexivity|].
      symmetry. apply nth_error_None. unfold zlen in *. lia.
    + intros Hs. specialize (Hn Hs). lia.
Qed.

(* ------------------------------------------------------------------ *)
(** ** Records *)

Section Proof.
Variables N S F C : Type.
Variable K : skernel N S F C.
Variable P : sparams.
Notation seg := (seg C).
Notation cst := (cst N S C).

(** Each record ends after it starts, and starts no earlier than the break of
    the one before. *)
Definition seg_chain (rs : list seg) : Prop :=
  Forall (fun r => g_start r < g_break r) rs /\
  (forall k a b, nth_error rs k = Some a -> nth_error rs (Datatypes.S k) = Some b -> g_break a <= g_start b).

(** Every record but the first spans at least 367 days. *)
Definition seg_long (rs : list seg) : Prop :=
  Forall (fun r => g_start r + 366 < g_break r) (tl rs).

Definition lastS (rs : list seg) (b : Z) : Prop :=
  match rev rs with [] => True | r :: _ => g_break r <= b end.

Lemma lastS_mono : forall rs b b', lastS rs b -> b <= b' -> lastS rs b'.
Proof. intros rs b b' H Hb. unfold lastS in *. destruct (rev rs); [trivial|lia]. Qed.

Lemma lastS_app : forall rs r b, g_break r <= b -> lastS (rs ++ [r]) b.
Proof. intros. unfold lastS. rewrite rev_app_distr. simpl. assumption. Qed.

Lemma chain_app : forall rs r, seg_chain rs -> lastS rs (g_start r) -> g_start r < g_break r ->
  seg_chain (rs ++ [r]).
Proof.
  intros rs r [HF HC] HL Hr. split.
  - apply Forall_app. split; [assumption|]. constructor; [assumption|constructor].
  - intros k a b Ha Hb.
    destruct (Nat.lt_ge_cases (Datatypes.S k) (length rs)) as [Hk|Hk].
    + rewrite nth_error_app1 in Ha by lia. rewrite nth_error_app1 in Hb by lia. eapply HC; eassumption.
    + assert (length (rs ++ [r]) > Datatypes.S k)%nat by (apply nth_error_Some; congruence).
      rewrite app_length in H. simpl in H.
      assert (Ek : Datatypes.S k = length rs) by lia.
      rewrite nth_error_app2 in Hb by lia. replace (Datatypes.S k - length rs)%nat with O in Hb by lia.
      simpl in Hb. inversion Hb; subst.
      rewrite nth_error_app1 in Ha by lia.
      unfold lastS in HL. destruct (rev rs) as [|l t] eqn:E.
      * apply (f_equal (@length _)) in E. rewrite rev_length in E. simpl in E. lia.
      * assert (Hrs : rs = rev t ++ [l]) by (rewrite <- (rev_involutive rs), E; reflexivity).
        rewrite Hrs in Ha. rewrite nth_error_app2 in Ha.
        -- rewrite Hrs, app_length in Ek. simpl in Ek.
           replace (k - length (rev t))%nat with O in Ha by lia. simpl in Ha. inversion Ha; subst. assumption.
        -- rewrite Hrs, app_length in Ek. simpl in Ek. lia.
Qed.

Lemma chain_tl : forall a rs, seg_chain (a :: rs) -> seg_chain rs.
Proof.
  intros a rs [HF HC]. split; [inversion HF; assumption|].
  intros k x y Hx Hy. apply (HC (Datatypes.S k)); assumption.
Qed.

(** Records take time. *)
Lemma long_span : forall rs a, seg_chain (a :: rs) -> Forall (fun r => g_start r + 366 < g_break r) rs ->
  forall b, lastS (a :: rs) b -> g_start a + 367 * zlen rs + 1 <= b.
Proof.
  induction rs as [|c rs IH]; intros a HC HL b Hb.
  - unfold lastS in Hb. simpl in Hb. destruct HC as [HF _]. inversion HF; subst.
    rewrite (eq_refl : zlen (@nil seg) = 0). lia.
  - rewrite zlen_cons. inversion HL as [|? ? H2 H3]; subst. 
    assert (H1 : g_break a <= g_start c) by (destruct HC as [_ HC]; apply (HC O); reflexivity).
    assert (Ha : g_start a < g_break a) by (destruct HC as [HF _]; inversion HF; assumption).
    assert (Hb' : lastS (c :: rs) b).
    { unfold lastS in *. simpl in Hb |- *. destruct (rev rs ++ [c]) eqn:E; [trivial|].
      simpl in Hb. assumption. }
    destruct rs as [|e rs'].
    + unfold lastS in Hb'. simpl in Hb'. rewrite (eq_refl : zlen (@nil seg) = 0). lia.
    + specialize (IH c (chain_tl HC)).
      assert (Hc : forall b0, lastS (c :: e :: rs') b0 -> g_start c + 367 * zlen (e :: rs') + 1 <= b0)
        by (intros; apply IH; auto).
      clear IH.
      (* the span of [c] itself is at least 367 *)
      assert (He : g_break c <= g_start e).
      { destruct HC as [_ HC]. apply (HC 1%nat); reflexivity. }
      assert (Hlast : g_start e + 367 * zlen rs' + 367 <= b).
      { clear -H3 HC Hb'. 
        assert (HC2 : seg_chain (e :: rs')) by (apply chain_tl with c, chain_tl with a; assumption).
        clear HC. revert e H3 Hb' HC2. induction rs' as [|g rs'' IH2]; intros e H3 Hb' HC2.
        - inversion H3; subst. unfold lastS in Hb'. simpl in Hb'. rewrite (eq_refl : zlen (@nil seg) = 0). lia.
        - rewrite zlen_cons. inversion H3 as [|? ? H4 H5]; subst.
          assert (g_break e <= g_start g) by (destruct HC2 as [_ HC2]; apply (HC2 O); reflexivity).
          assert (Hq : lastS (c :: g :: rs'') b).
          { unfold lastS in *. simpl in Hb' |- *. 
            destruct (rev rs''); simpl in *; assumption. }
          specialize (IH2 g H5 Hq (chain_tl HC2)). lia. }
      rewrite zlen_cons. lia.
Qed.

(** A record appended to forty earlier ones breaks at least 14314 days after
    the first one starts. *)
Lemma forty_records : forall rs base b, seg_chain rs -> seg_long rs ->
  Forall (fun r => base <= g_start r) rs -> lastS rs b -> max_seg <= zlen rs -> base + 14314 <= b.
Proof.
  intros rs base b HC HL HB Hb Hn. destruct rs as [|a rs]; [unfold max_seg, zlen in Hn; simpl in Hn; lia|].
  pose proof (long_span HC HL b Hb) as H. inversion HB; subst. rewrite zlen_cons in Hn.
  unfold max_seg in Hn. lia.
Qed.

(* ------------------------------------------------------------------ *)
(** ** Invariant *)

Variable x0 : list obs.          (* observations at the start of the call *)
Variable r0 : list seg.          (* records at the start of the call *)
Variable base : Z.               (* no record starts earlier *)
Variable void : bool.
Variable train0 : bool.
Variable model0 : nmodel S.
Variables nb p0 : Z.             (* year buckets; pinpoint records at the start *)
Hypothesis Hp0 : 0 <= p0.
Hypothesis Hconse : 1 <= sp_conse P.
Hypothesis Hx : asc x0.
Hypothesis Hbase : Forall (fun o => base <= o_date o) x0.

(** Conditions excluding undefined behaviour. *)
Definition safe : Prop :=
  (forall d, In d (map o_date x0) -> d < base + 14681) /\
  Forall vals16 x0 /\
  (forall m d l, k_a16 K (k_angle2 K m d l) <> None) /\
  (sp_conse P <= 6 \/ r0 <> [] \/ (train0 = true /\ void = false)) /\
  (sp_pin P = false \/
   (7 <= sp_conse P /\ (forall d, In d (map o_date x0) -> 0 <= bucket d < nb) /\ p0 + nb <= 40)).

Definition cm_ok (v : fl) : Prop := exists z, v = Fin z /\ 0 <= z.

(** Year buckets in use. *)
Definition used (cm : list fl) : Z :=
  zlen (filter (fun v => match v with Fin 0 => false | _ => true end) cm).

(** The numerical routines of step 1 report no error. *)
Definition no_err : Prop :=
  (forall l, k_mask1 K l <> None) /\ (forall l, k_fit1 K l <> None) /\ (forall f a b, k_first K f a b <> None).

Record Inv (s : cst) : Prop := mkInv {
  iv_sub : subseq (c_x s) x0;
  iv_idx : 0 <= c_prev s <= c_start s /\ c_start s <= c_i s;
  iv_dense : c_recs s = [] -> 0 <= c_dense s <= c_start s;
  iv_recs : exists t, c_recs s = r0 ++ t;
  iv_chain : seg_chain (c_recs s);
  iv_long : seg_long (c_recs s);
  iv_base : Forall (fun r => base <= g_start r) (c_recs s);
  iv_train : c_train s = true -> exists m ts, c_m s = Some m /\ c_ts s = Some ts /\ base <= ts /\
     lastS (c_recs s) ts /\ 1 <= c_nobs s /\
     (c_i s < n_clr s -> ts + 366 < dat (c_x s) (c_i s) /\ c_nobs s <= dat (c_x s) (c_i s) - ts);
  iv_same : c_chg s = false -> void = false -> r0 <> [] -> c_recs s = r0;
  iv_prev : c_prev s < n_clr s -> lastS (c_recs s) (dat (c_x s) (c_prev s));
  iv_mon : train0 = true -> void = false -> c_chg s = false -> c_train s = true;
  iv_grow : c_chg s = true -> void = false /\ c_recs s <> r0;
  iv_model : c_chg s = false -> void = false -> c_model s = model0;
  iv_slots : length (nm_obs model0) = 8%nat -> length (nm_obs (c_model s)) = 8%nat;
  iv_cm : zlen (c_cm s) = nb /\ Forall cm_ok (c_cm s);
  iv_pins : zlen (c_pins s) = p0 + used (c_cm s)
}.

Ltac cc := cbn [c_x c_i c_start c_dense c_prev c_train c_ts c_nobs c_m c_recs c_model c_chg c_pins c_cm
                set_idx fst snd] in *.

Lemma Inv_asc : forall s, Inv s -> asc (c_x s).
Proof. intros s H. eapply asc_sub; [apply (iv_sub H)|assumption]. Qed.

Lemma vals_sub : forall x, subseq x x0 -> safe -> Forall vals16 x.
Proof.
  intros x H (_ & Hv & _). rewrite Forall_forall in *. intros o Ho. apply Hv. eapply subseq_In; eassumption.
Qed.

(** Result of the look-back loop. *)
Record BackPost (prev : Z) (x : list obs) (i start : Z) (x' : list obs) (i' start' : Z) : Prop := mkBP {
  bp_sub : subseq x' x;
  bp_len : zlen x' - i' = zlen x - i;
  bp_start : prev <= start' <= start;
  bp_span : i - start <= i' - start';
  bp_dat : dat x' start' <= dat x start;
  bp_tail : forall k, 0 <= k -> i' + k < zlen x' -> nthO x' (i' + k) = nthO x (i + k)
}.

Lemma back_wp : forall (safe : Prop) n f prev x i start, 0 <= prev -> start = prev + Z.of_nat n -> start <= i -> i < zlen x ->
  asc x ->
  wp safe (back K P n f prev x i start)
    (fun p => BackPost prev x i start (fst (fst p)) (snd (fst p)) (snd p)).
Proof.
  intros safe n. induction n; intros f prev x i start Hp Hst Hi Hl Ha.
  { simpl. constructor; simpl; try lia; auto. apply subseq_refl. }
  cbn [back].
  set (i_ini := prev + Z.of_nat n).
  assert (Hini : i_ini = start - 1) by (unfold i_ini; lia).
  set (ini := if i_ini - prev + 1 <? sp_conse P then i_ini - prev + 1 else sp_conse P).
  assert (Hic : 1 <= ini <= Z.of_nat n + 1).
  { unfold ini, i_ini. destruct (_ <? _) eqn:E; lia. }
  replace (ini =? 0) with false by lia.
  apply wp_bind. apply wp_mapM_idx.
  { intros c Hc. unfold i_ini. lia. }
  set (os := map _ (seq 0 _)).
  destruct (_ && _).
  { simpl. constructor; simpl; try lia; auto. apply subseq_refl. }
  set (o0 := match os with [] => false | _ => _ end).
  destruct (o0 && (prev <=? i_ini)).
  - assert (Hdl : zlen (del (Z.to_nat i_ini) x) = zlen x - 1) by (apply zlen_del; lia).
    eapply wp_mono; [apply IHn; try lia|].
    + eapply asc_sub; [apply subseq_del|assumption].
    + intros [[x' i'] start'] [H1 H2 H3 H4 H5 H6]. simpl in *. constructor; try lia.
      * eapply subseq_trans; [eassumption|apply subseq_del].
      * unfold dat in *. rewrite (nthO_del x) in H5 by lia. replace (i_ini <? i_ini) with false in H5 by lia.
        replace (i_ini + 1) with start in H5 by lia. assumption.
      * intros k Hk Hk'. rewrite H6 by lia. rewrite nthO_del by lia.
        replace (i - 1 + k <? i_ini) with false by lia. f_equal. lia.
  - eapply wp_mono; [apply IHn; try lia; assumption|].
    intros [[x' i'] start'] [H1 H2 H3 H4 H5 H6]. simpl in *. constructor; try lia; auto.
    pose proof (@dat_lt x i_ini start Ha). lia.
Qed.

(** Common part of the outcomes of step 1. *)
Record S1Post (s s' : cst) (r : s1) : Prop := mkS1 {
  sp_inv : Inv s';
  sp_train : c_train s' = false;
  sp_len : n_clr s' - c_i s' = n_clr s - c_i s;
  sp_same : c_chg s' = c_chg s /\ c_pins s' = c_pins s /\ c_cm s' = c_cm s /\ c_model s' = c_model s /\ c_m s' = c_m s;
  sp_tail : forall k, 0 <= k -> c_i s' + 1 + k < n_clr s' -> nthO (c_x s') (c_i s' + 1 + k) = nthO (c_x s) (c_i s + 1 + k);
  sp_suc : r = Suc -> 17 <= c_i s' - c_start s' /\ dat (c_x s') (c_start s') + 366 <= dat (c_x s') (c_i s') /\
           c_prev s' <= c_start s';
  sp_err : r = Err -> ~ no_err
}.

Lemma push_nil : forall (r : seg), push_seg [] r = Ok [r].
Proof. reflexivity. Qed.

Lemma step1_wp : forall s, Inv s -> c_train s = false -> c_i s + sp_conse P <= n_clr s - 1 ->
  17 <= c_i s - c_start s ->
  wp safe (step1 K P s) (fun p => S1Post s (fst p) (snd p)).
Proof.
  intros s HI Ht Hg Hsp. pose proof (Inv_asc HI) as Ha.
  destruct HI as [H1 H2 H3 H4 H5 H6 H7 H8 H16 H9 H10 H11 H12 H13 H14 H15].
  unfold n_clr in *. unfold step1.
  apply wp_bind. apply wp_slice; try lia.
  set (w := firstn _ _).
  destruct (365 <? max_gap w).
  { simpl. constructor; cc; auto; try discriminate.
    constructor; cc; auto; try lia. }
  assert (Hmin : Z.min (c_i s + sp_conse P - 1) (zlen (c_x s) - 1) = c_i s + sp_conse P - 1) by lia.
  unfold n_clr. rewrite Hmin.
  apply wp_bind. apply wp_slice; try lia.
  set (wide := firstn _ _).
  destruct (k_mask1 K wide) as [flags|] eqn:Em.
  2: { simpl. constructor; cc; auto; try discriminate.
       - constructor; auto.
       - intros _ (Hm & _ & _). apply (Hm wide). assumption. }
  set (w' := keep_from flags 0 w).
  assert (Hw : subseq w' w) by apply keep_sub.
  assert (Hlw : zlen w = c_i s - c_start s + 1).
  { unfold w. rewrite zlen_firstn; [reflexivity|]. rewrite zlen_skipn; lia. }
  assert (Hlw' : zlen w' <= zlen w) by (apply subseq_length in Hw; unfold zlen; lia).
  destruct (zlen w' <? 18) eqn:E18.
  { simpl. constructor; cc; auto; try discriminate. constructor; auto. }
  set (cp := firstn (Z.to_nat (c_start s)) (c_x s) ++ w' ++ skipn (Z.to_nat (c_i s + 1)) (c_x s)).
  assert (Hlcp : zlen cp = zlen (c_x s) - (zlen w - zlen w')).
  { unfold cp. rewrite !zlen_app, zlen_firstn, zlen_skipn by lia. lia. }
  assert (Hcps : subseq cp (c_x s)).
  { unfold cp. replace (Z.to_nat (c_i s + 1)) with (Z.to_nat (c_start s) + Z.to_nat (c_i s - c_start s + 1))%nat by lia.
    apply subseq_mid. assumption. }
  assert (Hcpa : asc cp) by (eapply asc_sub; eassumption).
  set (i' := c_start s + zlen w' - 1).
  assert (Htail : forall k, 0 <= k -> i' + 1 + k < zlen cp -> nthO cp (i' + 1 + k) = nthO (c_x s) (c_i s + 1 + k)).
  { intros k Hk Hk'. unfold cp.
    rewrite nthO_app2 by (rewrite zlen_firstn; lia). rewrite zlen_firstn by lia.
    rewrite nthO_app2 by lia. rewrite nthO_skipn by lia. f_equal. unfold i'. lia. }
  assert (Hpd : c_prev s < zlen cp -> lastS (c_recs s) (dat cp (c_prev s))).
  { intros Hq. eapply lastS_mono; [apply H9; lia|]. apply dat_sub_ge; auto. lia. }
  assert (HInv : forall d, 0 <= d <= 1 -> Inv (set_idx s cp i' (c_start s + d) (c_dense s) (c_prev s))).
  { intros d Hd. constructor; cc; auto; try lia.
    - eapply subseq_trans; eassumption.
    - rewrite Ht. discriminate. }
  apply wp_bind. apply wp_get; [lia|].
  apply wp_bind. apply wp_get; [lia|].
  change (o_date (nthO cp i')) with (dat cp i').
  change (o_date (nthO cp (c_start s))) with (dat cp (c_start s)).
  destruct (dat cp i' - dat cp (c_start s) <? 366) eqn:Ey.
  { simpl. constructor; cc; auto; try discriminate. constructor; auto. }
  apply wp_bind. apply wp_slice; try lia.
  set (wf := firstn _ _).
  destruct (k_fit1 K wf) as [f|] eqn:Ef.
  2: { simpl. constructor; cc; auto; try discriminate.
       - specialize (HInv 0). replace (c_start s + 0) with (c_start s) in HInv by lia. apply HInv. lia.
       - unfold n_clr. cc. lia.
       - intros _ (_ & Hm & _). apply (Hm wf). assumption. }
  destruct (flt _ (k_stab1 K f wf)).
  { simpl. constructor; cc; auto; try discriminate.
    - apply HInv. lia.
    - unfold n_clr. cc. lia. }
  set (prev := match c_recs s with [] => c_dense s | _ => c_prev s end).
  assert (Hprev : 0 <= prev <= c_start s).
  { unfold prev. destruct (c_recs s); [apply H3; reflexivity|lia]. }
  assert (Hpd' : forall x', subseq x' cp -> prev < zlen x' -> lastS (c_recs s) (dat x' prev)).
  { intros x' Hx' Hq. unfold prev in *. destruct (c_recs s) as [|r rs].
    - exact I.
    - assert (zlen x' <= zlen cp) by (apply subseq_length in Hx'; unfold zlen; lia).
      eapply lastS_mono; [apply Hpd; lia|]. apply dat_sub_ge; auto. lia. }
  apply wp_bind. eapply wp_mono.
  { apply back_wp; try lia; auto. }
  intros [[x2 i2] start2] [B1 B2 B3 B4 B5 B6]. cbn [fst snd] in *.
  assert (Hx2a : asc x2) by (eapply asc_sub; eassumption).
  assert (Hi2 : nthO x2 i2 = nthO cp i').
  { replace i2 with (i2 + 0) by lia. rewrite B6 by lia. f_equal. lia. }
  assert (Htail2 : forall k, 0 <= k -> i2 + 1 + k < zlen x2 -> nthO x2 (i2 + 1 + k) = nthO (c_x s) (c_i s + 1 + k)).
  { intros k Hk Hk'. replace (i2 + 1 + k) with (i2 + (1 + k)) by lia. rewrite B6 by lia.
    replace (i' + (1 + k)) with (i' + 1 + k) by lia. apply Htail; lia. }
  assert (Hspan : 17 <= i2 - start2 /\ dat x2 start2 + 366 <= dat x2 i2).
  { split; [lia|]. unfold dat in *. rewrite Hi2. lia. }
  assert (HInv2 : Inv (set_idx s x2 i2 start2 (c_dense s) prev)).
  { constructor; cc; auto; try lia.
    - eapply subseq_trans; [eassumption|]. eapply subseq_trans; eassumption.
    - intros E. pose proof (H3 E). unfold prev in *. rewrite E in B3. lia.
    - rewrite Ht. discriminate. }
  assert (Hs2 : S1Post s (set_idx s x2 i2 start2 (c_dense s) prev) Suc).
  { constructor; cc; auto; try discriminate; unfold n_clr; cc; try lia. }
  destruct (c_recs s) as [|rc rs] eqn:Er; [|exact Hs2].
  destruct (6 <=? start2 - c_dense s) eqn:E6; [|exact Hs2].
  assert (Hd : 0 <= c_dense s <= c_start s) by (apply H3; reflexivity).
  apply wp_bind. apply wp_slice; try lia.
  set (w2 := firstn _ _).
  apply wp_bind. apply wp_mapM_idx'.
  { intros (_ & _ & _ & [Hc|[Hc|[Hc Hvo]]] & _) c Hcc; [lia| |].
    - destruct H4 as [t Et]. destruct r0; [congruence|discriminate].
    - destruct (c_chg s) eqn:Ech; [|rewrite H10 in Ht by auto; discriminate].
      destruct (H11 eq_refl) as [_ Hne]. destruct H4 as [t Et]. destruct r0; [congruence|discriminate]. }
  intros Hr. set (os := map _ (seq 0 _)).
  destruct (k_first K f w2 os) as [c|] eqn:Ec.
  2: { simpl. destruct Hs2. constructor; cc; auto; try discriminate.
       intros _ (_ & _ & Hm). apply (Hm f w2 os). assumption. }
  apply wp_bind. apply wp_get; [lia|].
  apply wp_bind. apply wp_get; [lia|].
  change (o_date (nthO x2 start2)) with (dat x2 start2).
  change (o_date (nthO x2 0)) with (dat x2 0).
  rewrite push_nil. simpl.
  assert (Hlt : dat x2 0 < dat x2 start2) by (apply dat_lt; auto; lia).
  constructor; cc; auto; try discriminate; unfold n_clr; cc; try lia.
  constructor; cc; auto; try lia; try discriminate.
  - eapply subseq_trans; [eassumption|]. eapply subseq_trans; eassumption.
  - destruct H4 as [t Et]. destruct r0; [eexists; reflexivity|discriminate].
  - split.
    + constructor; [simpl; lia|constructor].
    + intros [|k] a b Hk1 Hk2; simpl in Hk2; [discriminate|destruct k; discriminate].
  - constructor; [|constructor]. simpl. rewrite Forall_forall in Hbase.
    apply (Hbase (nthO x2 0)). eapply subseq_In; [eassumption|].
    eapply subseq_In; [exact Hcps|]. eapply subseq_In; [exact B1|]. apply In_nthO. lia.
  - rewrite Ht. discriminate.
  - intros _ _ Hne. destruct H4 as [t Et]. destruct r0; [congruence|discriminate].
  - intros _. unfold lastS. simpl. lia.
  - intros E. destruct (H11 E) as [Hv Hne]. split; [assumption|]. intros E'. rewrite <- E' in H4.
    destruct H4 as [t Et]. discriminate.
Qed.

Lemma used_nonneg : forall cm, 0 <= used cm.
Proof. intros. unfold used, zlen. lia. Qed.

Lemma used_app : forall a b, used (a ++ b) = used a + used b.
Proof. intros. unfold used. rewrite filter_app, zlen_app. reflexivity. Qed.

Lemma used_le : forall cm, used cm <= zlen cm.
Proof.
  induction cm as [|v cm IH]; [reflexivity|]. change (v :: cm) with ([v] ++ cm).
  rewrite used_app, zlen_app. assert (used [v] <= zlen [v]); [|lia].
  unfold used, zlen. simpl. destruct v as [|z]; simpl; [lia|]. destruct z; simpl; lia.
Qed.

Lemma get_split : forall A (l : list A) b v, get l b = Ok v ->
  0 <= b < zlen l /\ l = firstn (Z.to_nat b) l ++ v :: skipn (Datatypes.S (Z.to_nat b)) l.
Proof.
  intros A l b v H. unfold get in H. destruct (b <? 0) eqn:E; [discriminate|].
  destruct (nth_error l (Z.to_nat b)) eqn:E1; [|discriminate]. inversion H; subst.
  assert (Hl : (Z.to_nat b < length l)%nat) by (apply nth_error_Some; congruence).
  split; [unfold zlen; lia|].
  rewrite <- (firstn_skipn (Z.to_nat b) l) at 1. f_equal.
  clear -E1. revert l E1. generalize (Z.to_nat b) as n.
  induction n; intros [|a l] E1; simpl in *; try discriminate; [inversion E1; reflexivity|auto].
Qed.

Lemma get_cases : forall A (l : list A) b, (exists v, get l b = Ok v) \/ (get l b = UB /\ ~ (0 <= b < zlen l)).
Proof.
  intros. unfold get. destruct (b <? 0) eqn:E; [right; split; [reflexivity|lia]|].
  destruct (nth_error l (Z.to_nat b)) eqn:E1; [left; eexists; reflexivity|].
  right. split; [reflexivity|]. apply nth_error_None in E1. unfold zlen. lia.
Qed.

Lemma pinpoint_wp : forall s m d os o bm, Inv s -> sp_pin P = true ->
  0 <= c_i s -> c_i s + sp_conse P <= n_clr s - 1 -> o = nthO (c_x s) (c_i s) ->
  wp safe (pinpoint K P s m d os o bm)
    (fun p => (zlen (snd p) = nb /\ Forall cm_ok (snd p)) /\ zlen (fst p) = p0 + used (snd p)).
Proof.
  intros s m d os o bm HI Hpin Hi Hg Ho. unfold n_clr in *.
  destruct (iv_cm HI) as [Hcm Hok]. pose proof (iv_pins HI) as Hpins.
  unfold pinpoint. apply wp_bind.
  destruct (get_cases (c_cm s) (bucket (o_date o))) as [[v Hv]|[Hv Hn]]; rewrite Hv; simpl.
  2: { intros (_ & _ & _ & _ & [Hp|(_ & Hb & _)]); [congruence|]. apply Hn. rewrite Hcm. apply Hb.
       apply in_map. eapply subseq_In; [apply (iv_sub HI)|]. subst o. apply In_nthO. lia. }
  destruct (get_split _ _ Hv) as [Hb Hsplit].
  assert (Hvok : cm_ok v /\ Forall cm_ok (firstn (Z.to_nat (bucket (o_date o))) (c_cm s)) /\
                 Forall cm_ok (skipn (Datatypes.S (Z.to_nat (bucket (o_date o)))) (c_cm s))).
  { rewrite Hsplit in Hok. apply Forall_app in Hok. destruct Hok as [Ho1 Ho2]. inversion Ho2; auto. }
  destruct Hvok as ((vz & Evz & Hvz) & Hok1 & Hok2).
  set (fresh := match v with Fin 0 => true | _ => false end).
  destruct (flt v bm) eqn:Ef; [|simpl; auto].
  apply wp_bind. eapply wp_mono.
  { apply mapO_wp with (g := fun j => match k_a16 K (k_angle2 K m d (firstn j os)) with Some z => z | None => 0 end).
    intros j _. unfold conv16. destruct (k_a16 K (k_angle2 K m d (firstn j os))) eqn:Ea; [left; reflexivity|].
    right. split; [reflexivity|]. intros (_ & _ & Ha & _). eapply Ha. eassumption. }
  intros ang _.
  apply wp_bind. eapply wp_mono.
  { apply save8_wp; [assumption| |].
    - intros (_ & _ & _ & _ & [Hp|(Hc & _)]); [congruence|]. unfold slots. lia.
    - intros Hs. apply vals_sub; [apply (iv_sub HI)|assumption]. }
  intros w _.
  rewrite put_ok by assumption. cbn [bind].
  assert (Hlen : zlen (firstn (Z.to_nat (bucket (o_date o))) (c_cm s) ++ bm :: skipn (Datatypes.S (Z.to_nat (bucket (o_date o)))) (c_cm s)) = nb).
  { rewrite <- Hcm. rewrite Hsplit at 3. rewrite !zlen_app, !zlen_cons. reflexivity. }
  assert (Hu : used (c_cm s) + (if fresh then 1 else 0) =
    used (firstn (Z.to_nat (bucket (o_date o))) (c_cm s) ++ bm :: skipn (Datatypes.S (Z.to_nat (bucket (o_date o)))) (c_cm s))).
  { rewrite Hsplit at 1. change (bm :: ?l) with ([bm] ++ l). change (v :: ?l) with ([v] ++ l).
    rewrite !used_app.
    assert (used [v] + (if fresh then 1 else 0) = used [bm]); [|lia].
    unfold fresh, used, zlen. subst v.
    destruct bm as [|y]; [discriminate|]. simpl in Ef. destruct vz, y; simpl; try reflexivity; lia. }
  assert (Hok' : Forall cm_ok (firstn (Z.to_nat (bucket (o_date o))) (c_cm s) ++ bm :: skipn (Datatypes.S (Z.to_nat (bucket (o_date o)))) (c_cm s))).
  { apply Forall_app. split; [assumption|]. constructor; [|assumption].
    subst v. destruct bm as [|y]; [discriminate|]. simpl in Ef. exists y. split; [reflexivity|lia]. }
  assert (Hfu : fresh = false -> 1 <= used (c_cm s)).
  { intros E. rewrite Hsplit. change (v :: ?l) with ([v] ++ l). rewrite !used_app.
    pose proof (used_nonneg (firstn (Z.to_nat (bucket (o_date o))) (c_cm s))).
    pose proof (used_nonneg (skipn (Datatypes.S (Z.to_nat (bucket (o_date o)))) (c_cm s))).
    assert (used [v] = 1); [|lia]. unfold fresh, used, zlen in *. destruct v as [|z]; [reflexivity|].
    destruct z; simpl; [discriminate|reflexivity|reflexivity]. }
  set (cm' := _ ++ bm :: _) in *. clearbody cm'.
  destruct ((_ <? 0) || _) eqn:Ec.
  - simpl. intros (_ & _ & _ & _ & [Hp|(_ & _ & Hn)]); [congruence|].
    pose proof (used_le cm'). pose proof (used_nonneg (c_cm s)).
    unfold max_seg in Ec. destruct fresh; [|specialize (Hfu eq_refl)]; lia.
  - simpl. destruct fresh; simpl.
    + split; [split; assumption|]. rewrite zlen_app. change (zlen [_]) with 1. lia.
    + split; [split; assumption|]. rewrite zlen_app. change (zlen [_]) with 1.
      specialize (Hfu eq_refl).
      assert (c_pins s <> []). { intros E. rewrite E in Hpins. change (zlen []) with 0 in Hpins. lia. }
      rewrite (app_removelast_last (mkPin 0 [] [] []) H) in Hpins. rewrite zlen_app in Hpins.
      change (zlen [_]) with 1 in Hpins. lia.
Qed.

(** Progress of one iteration. *)
Record CPost (s s' : cst) : Prop := mkCP {
  cp_inv : Inv s';
  cp_step :
    (n_clr s' - c_i s' = n_clr s - c_i s - 1 /\
     forall k, 0 <= k -> c_i s' + k < n_clr s' -> nthO (c_x s') (c_i s' + k) = nthO (c_x s) (c_i s + 1 + k)) \/
    (~ no_err /\ n_clr s' - c_i s' = n_clr s - c_i s /\
     forall k, 0 <= k -> c_i s' + 1 + k < n_clr s' -> nthO (c_x s') (c_i s' + 1 + k) = nthO (c_x s) (c_i s + 1 + k))
}.

(** Dates are distinct days. *)
Lemma asc_gap : forall x a b, asc x -> 0 <= a <= b -> b < zlen x -> b - a <= dat x b - dat x a.
Proof.
  intros x a b Ha Hab Hb.
  assert (H : forall n, a + Z.of_nat n < zlen x -> Z.of_nat n <= dat x (a + Z.of_nat n) - dat x a).
  { induction n; intros Hn; [replace (a + Z.of_nat 0) with a by lia; lia|].
    specialize (IHn ltac:(lia)).
    pose proof (@dat_lt x (a + Z.of_nat n) (a + Z.of_nat (Datatypes.S n)) Ha). lia. }
  specialize (H (Z.to_nat (b - a))). replace (a + Z.of_nat (Z.to_nat (b - a))) with b in H by lia. lia.
Qed.

Lemma step2_wp : forall s, Inv s -> c_train s = true -> c_i s + sp_conse P <= n_clr s - 1 ->
  wp safe (step2 K P void s) (CPost s).
Proof.
  intros s HI Ht Hg. pose proof (Inv_asc HI) as Ha.
  destruct HI as [H1 H2 H3 H4 H5 H6 H7 H8 H16 H9 H10 H11 H12 H13 H14 H15] eqn:EI. clear EI.
  unfold n_clr in *. unfold step2.
  destruct (H8 Ht) as (m & ts & Em & Ets & Hbts & Hls & Hno & Hlate). rewrite Em, Ets.
  destruct (Hlate ltac:(lia)) as [Hlate' Hno']. clear Hlate. rename Hlate' into Hlate.
  apply wp_bind. apply wp_slice; try lia.
  set (os := firstn _ _).
  apply wp_bind. apply wp_get; [lia|].
  destruct (scan _ _ _ _ _ _ _) as [[flag bm] ic].
  apply wp_bind.
  eapply wp_mono with (Q := fun p => (zlen (snd p) = nb /\ Forall cm_ok (snd p)) /\ zlen (fst p) = p0 + used (snd p)).
  { destruct (sp_pin P && (3 <=? ic)) eqn:Ep; [|simpl; auto].
    apply pinpoint_wp; auto; try lia. destruct (sp_pin P); [reflexivity|discriminate]. }
  intros [pins cm] [Hcm Hpins]. cbn [fst snd] in Hcm, Hpins.
  destruct (flag && _ && _).
  - apply wp_bind. unfold conv16.
    destruct (k_a16 K _) as [a16|] eqn:Ea16.
    2: { simpl. intros (_ & _ & Hk & _). eapply Hk. eassumption. }
    simpl. apply wp_bind. unfold push_seg.
    destruct (max_seg <=? zlen (c_recs s)) eqn:E40.
    { simpl. intros (Hsp & _). pose proof (@forty_records (c_recs s) base ts H5 H6 H7 Hls) as Hf.
      specialize (Hsp (dat (c_x s) (c_i s))).
      assert (In (dat (c_x s) (c_i s)) (map o_date x0)).
      { unfold dat. apply in_map. eapply subseq_In; [eassumption|]. apply In_nthO. lia. }
      specialize (Hsp H). lia. }
    simpl. apply wp_bind. eapply wp_mono.
    { apply save8_wp; [lia| |].
      - intros _. lia.
      - intros Hs. apply vals_sub; assumption. }
    intros w ->. simpl.
    constructor; cc; [|left; split; [unfold n_clr; cc; lia|intros k Hk Hk'; f_equal; lia]].
    constructor; cc; auto; try lia; try discriminate.
    + intros E. destruct (c_recs s); discriminate.
    + destruct H4 as [t Et]. rewrite Et. exists (t ++ [mkSeg ts (o_date (nthO (c_x s) (c_i s))) (c_nobs s) (k_rec K m (c_nobs s - 6) os) os]).
      rewrite app_assoc. reflexivity.
    + apply chain_app; simpl; auto. change (o_date (nthO (c_x s) (c_i s))) with (dat (c_x s) (c_i s)). lia.
    + unfold seg_long in *. destruct (c_recs s); simpl; [constructor|].
      apply Forall_app. split; [assumption|]. constructor; [|constructor]. simpl.
      change (o_date (nthO (c_x s) (c_i s))) with (dat (c_x s) (c_i s)). lia.
    + apply Forall_app. split; [assumption|]. constructor; [|constructor]. assumption.
    + intros E1 E2. rewrite E2, orb_true_r in E1. discriminate.
    + intros _. apply lastS_app. simpl. unfold dat. lia.
    + intros _ E1 E2. rewrite E1 in E2. rewrite orb_true_r in E2. discriminate.
    + intros E. split.
      * destruct (c_chg s); [apply H11; reflexivity|]. simpl in E. destruct void; [discriminate|reflexivity].
      * destruct H4 as [t Et]. rewrite Et, <- app_assoc. intros E'.
        apply (f_equal (@length _)) in E'. rewrite !app_length in E'. simpl in E'. lia.
    + intros E1 E2. rewrite E2, orb_true_r in E1. discriminate.
  - destruct (flt _ (k_norm2 K m _ _)).
    + apply wp_bind. apply wp_get; [lia|]. simpl.
      assert (Hdl : zlen (del (Z.to_nat (c_i s)) (c_x s)) = zlen (c_x s) - 1) by (apply zlen_del; lia).
      assert (Hdt : forall k, 0 <= k -> nthO (del (Z.to_nat (c_i s)) (c_x s)) (c_i s + k) = nthO (c_x s) (c_i s + 1 + k)).
      { intros k Hk. rewrite nthO_del by lia. replace (c_i s + k <? c_i s) with false by lia. f_equal. lia. }
      constructor; cc; [|left; split; [unfold n_clr; cc; lia|intros k Hk Hk'; apply Hdt; assumption]].
      constructor; cc; auto; try lia; try discriminate.
      * eapply subseq_trans; [apply subseq_del|assumption].
      * intros _. eexists. exists ts. split; [reflexivity|]. split; [reflexivity|]. split; [assumption|].
        split; [assumption|]. split; [assumption|]. unfold n_clr. cc. intros Hn.
        assert (Hd0 : dat (del (Z.to_nat (c_i s)) (c_x s)) (c_i s) = dat (c_x s) (c_i s + 1 + 0)).
        { unfold dat. rewrite <- Hdt by lia. f_equal. f_equal. lia. }
        rewrite Hd0. pose proof (@dat_lt (c_x s) (c_i s) (c_i s + 1 + 0) Ha). lia.
      * unfold n_clr. cc. intros Hn. eapply lastS_mono; [apply H9; lia|].
        apply dat_sub_ge; [apply subseq_del|assumption|lia].
    + apply wp_bind. apply wp_get; [lia|].
      pose proof (@dat_lt (c_x s) (c_i s) (c_i s + 1) Ha ltac:(lia) ltac:(lia)) as Hlt. unfold dat in Hlt.
      replace (_ <=? 0) with false by lia. simpl.
      constructor; cc; [|left; split; [unfold n_clr; cc; lia|intros k Hk Hk'; f_equal; lia]].
      constructor; cc; auto; try lia; try discriminate.
      intros _. eexists. exists ts. split; [reflexivity|]. split; [reflexivity|]. split; [assumption|].
      split; [assumption|]. split; [lia|]. unfold n_clr. cc. intros Hn.
      unfold dat in *. lia.
Qed.

Lemma cstep_wp : forall s, Inv s -> c_i s + sp_conse P <= n_clr s - 1 ->
  wp safe (cstep K P void s) (CPost s).
Proof.
  intros s HI Hg. unfold cstep. destruct (c_train s) eqn:Ht; [apply step2_wp; assumption|].
  pose proof (iv_idx HI) as Hidx. unfold n_clr in Hg.
  apply wp_bind. apply wp_get; [lia|]. apply wp_bind. apply wp_get; [lia|].
  apply wp_bind. eapply wp_mono with (Q := fun p => S1Post s (fst p) (snd p)).
  { destruct (_ && _) eqn:E.
    - apply step1_wp; auto. lia.
    - simpl. constructor; cc; auto; try discriminate. }
  intros [s' r] [HI' Ht' Hlen (Hc & Hp & Hm & Hmo & Hst) Htail Hsuc Herr]. cbn [fst snd] in *.
  destruct r.
  - simpl. constructor.
    + destruct HI' as [H1 H2 H3 H4 H5 H6 H7 H8 H16 H9 H10 H11 H12 H13 H14 H15].
      constructor; cc; auto; try lia. rewrite Ht'. discriminate.
    + left. unfold n_clr in *. cc. split; [lia|]. intros k Hk Hk'. apply Htail; assumption.
  - destruct (Hsuc eq_refl) as (Hspan & Hyear & Hps).
    pose proof (Inv_asc HI') as Ha'.
    destruct HI' as [H1 H2 H3 H4 H5 H6 H7 H8 H16 H9 H10 H11 H12 H13 H14 H15].
    unfold n_clr in *.
    apply wp_bind. apply wp_slice; try lia.
    apply wp_bind. apply wp_get; [lia|].
    apply wp_bind. apply wp_get; [lia|].
    apply wp_bind. apply wp_of_opt. intros m Em. simpl.
    constructor; [|left; unfold n_clr; cc; split; [lia|intros k Hk Hk'; apply Htail; assumption]].
    constructor; cc; auto; try lia; try discriminate.
    intros _. exists m, (dat (c_x s') (c_start s')). split; [reflexivity|]. split; [reflexivity|].
    split; [|split; [|split]]; [| |lia|].
    + rewrite Forall_forall in Hbase. apply Hbase. eapply subseq_In; [exact H1|]. apply In_nthO. lia.
    + eapply lastS_mono; [apply H9; lia|]. apply dat_le; auto; lia.
    + unfold n_clr. cc. intros Hn.
      pose proof (@dat_lt (c_x s') (c_i s') (c_i s' + 1) Ha').
      pose proof (@asc_gap (c_x s') (c_start s') (c_i s' + 1) Ha'). lia.
  - simpl. constructor; [assumption|]. right. split; [apply Herr; reflexivity|]. split; [assumption|]. assumption.
Qed.

(** Outcome of the loop. *)
Definition LoopPost (s s' : cst) : Prop :=
  Inv s' /\ n_clr s' - c_i s' = Z.min (sp_conse P) (n_clr s - c_i s) /\
  forall k, 0 <= k -> c_i s' + k < n_clr s' ->
    nthO (c_x s') (c_i s' + k) = nthO (c_x s) (n_clr s - (n_clr s' - c_i s') + k).

Lemma cloop_spec : forall fuel s, Inv s ->
  match cloop K P void fuel s with
  | Ok s' => LoopPost s s'
  | Fail => True
  | UB => ~ safe
  | Fuel => ~ no_err \/ Z.of_nat fuel < n_clr s - c_i s - sp_conse P
  end.
Proof.
  intros fuel. induction fuel; intros s HI; cbn [cloop].
  - destruct (c_i s + sp_conse P <=? n_clr s - 1) eqn:E; [right; lia|].
    split; [assumption|]. split; [lia|]. intros k Hk Hk'. f_equal. lia.
  - destruct (c_i s + sp_conse P <=? n_clr s - 1) eqn:E.
    2: { split; [assumption|]. split; [lia|]. intros k Hk Hk'. f_equal. lia. }
    pose proof (@cstep_wp s HI ltac:(lia)) as HS.
    destruct (cstep K P void s) as [s1| | |]; simpl in HS |- *; auto.
    destruct HS as [HI1 Hstep]. specialize (IHfuel s1 HI1).
    destruct (cloop K P void fuel s1) as [s2| | |]; auto.
    + destruct IHfuel as (HI2 & Hlen & Htail). split; [assumption|].
      destruct Hstep as [[Hl Hs]|(_ & Hl & Hs)].
      * split; [lia|]. intros k Hk Hk'. rewrite Htail by assumption.
        replace (n_clr s1 - (n_clr s2 - c_i s2) + k)
          with (c_i s1 + (n_clr s1 - c_i s1 - (n_clr s2 - c_i s2) + k)) by lia.
        rewrite Hs by lia. f_equal. lia.
      * split; [lia|]. intros k Hk Hk'. rewrite Htail by assumption.
        replace (n_clr s1 - (n_clr s2 - c_i s2) + k)
          with (c_i s1 + 1 + (n_clr s1 - c_i s1 - 1 - (n_clr s2 - c_i s2) + k)) by lia.
        rewrite Hs by lia. f_equal. lia.
    + destruct IHfuel as [Hf|Hf]; [left; assumption|].
      destruct Hstep as [[Hl _]|(Hn & _)]; [right; lia|left; assumption].
Qed.

End Proof.
