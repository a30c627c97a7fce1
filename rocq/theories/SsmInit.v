(** C95: initialisation of the state-space model of a segment
    ([step1_ssm_initialize], src/cxx/s_ccd.c 349-507) and the running sum of
    squared residuals. *)
From Coq Require Import QArith Qround.
From Verif Require Import Base ColdLemmas SccdModel.
Open Scope Z_scope.

(** ** The sum of squares *)

Definition two32 : Z := 2 ^ 32.

(** sum = sum + (unsigned int)(vt * vt) on [unsigned int] (s_ccd.c 483, 3312);
    the conversion is undefined from 2^32 on.  [v] is the squared residual;
    rounding is not modelled. *)
Definition add_init (s : Z) (v : Q) : out Z :=
  if Qfloor v <? two32 then Ok ((s + Qfloor v) mod two32) else UB.

(** sum = sum + vt * vt, computed in double and converted back (2055). *)
Definition add_step (s : Z) (v : Q) : out Z :=
  let z := Qfloor (inject_Z s + v) in if z <? two32 then Ok z else UB.

Fixpoint addall (vs : list Q) (s : Z) : out Z :=
  match vs with [] => Ok s | v :: t => s1 <- add_init s v ;; addall t s1 end.
Fixpoint addall_step (vs : list Q) (s : Z) : out Z :=
  match vs with [] => Ok s | v :: t => s1 <- add_step s v ;; addall_step t s1 end.

Definition floors (vs : list Q) : Z := fold_right (fun v z => Qfloor v + z) 0 vs.
Definition qsum (vs : list Q) : Q := fold_right Qplus 0%Q vs.

Lemma Qfloor_add : forall s v, Qfloor (inject_Z s + v) = s + Qfloor v.
Proof.
  intros s v. unfold Qfloor, inject_Z, Qplus. destruct v as [n d]. cbn [Qnum Qden].
  rewrite Z.mul_1_r. rewrite Pos.mul_1_l. rewrite Z.add_comm, Z.div_add by lia. lia.
Qed.

Lemma floor_nonneg : forall v, (0 <= v)%Q -> 0 <= Qfloor v.
Proof. intros v H. change 0 with (Qfloor 0). apply Qfloor_resp_le. assumption. Qed.

(** The two ways of adding. *)
Lemma addall_mod : forall vs s, 0 <= s < two32 -> Forall (fun v => (0 <= v)%Q /\ Qfloor v < two32) vs ->
  addall vs s = Ok ((s + floors vs) mod two32).
Proof.
  induction vs as [|v t IH]; intros s Hs H; cbn [addall floors fold_right].
  - rewrite Z.add_0_r, Z.mod_small by assumption. reflexivity.
  - inversion H as [|? ? [H1 H2] HT]; subst. unfold add_init. apply Z.ltb_lt in H2. rewrite H2. cbn [bind].
    rewrite IH; [|apply Z.mod_pos_bound; reflexivity|assumption]. f_equal.
    rewrite Zplus_mod_idemp_l. f_equal. fold (floors t). lia.
Qed.

Lemma floors_bounds : forall vs, Forall (fun v => 0 <= v)%Q vs ->
  0 <= floors vs /\ (inject_Z (floors vs) <= qsum vs)%Q /\ (qsum vs <= inject_Z (floors vs + zlen vs))%Q.
Proof.
  induction vs as [|v t IH]; intros H.
  - split; [cbn; lia|]. split; cbn; apply Qle_refl.
  - inversion H; subst. destruct (IH ltac:(assumption)) as (I1 & I2 & I3).
    cbn [floors qsum fold_right]. fold (floors t) (qsum t). pose proof (floor_nonneg H2). split; [lia|].
    split.
    + rewrite inject_Z_plus. apply Qplus_le_compat; [apply Qfloor_le|assumption].
    + replace (Qfloor v + floors t + zlen (v :: t)) with ((Qfloor v + 1) + (floors t + zlen t)) by (unfold zlen; cbn [length]; lia).
      rewrite inject_Z_plus. apply Qplus_le_compat; [|assumption]. apply Qlt_le_weak. apply Qlt_floor.
Qed.

Lemma floors_each : forall vs, Forall (fun v => 0 <= v)%Q vs -> floors vs < two32 ->
  Forall (fun v => (0 <= v)%Q /\ Qfloor v < two32) vs.
Proof.
  induction vs as [|v t IH]; intros H Hf; [constructor|]. inversion H; subst. cbn [floors fold_right] in Hf. fold (floors t) in Hf.
  pose proof (floor_nonneg H2). pose proof (floors_bounds H3) as (I1 & _).
  constructor; [split; [assumption|lia]|]. apply IH; [assumption|lia].
Qed.

(** Below 2^32 the sum is the sum of the squares, short by less than one per
    observation. *)
Theorem C95_sum : forall vs, Forall (fun v => 0 <= v)%Q vs -> floors vs < two32 ->
  exists s, addall vs 0 = Ok s /\ addall_step vs 0 = Ok s /\
    (inject_Z s <= qsum vs)%Q /\ (qsum vs <= inject_Z (s + zlen vs))%Q.
Proof.
  intros vs H Hf. destruct (floors_bounds H) as (I1 & I2 & I3). exists (floors vs).
  split; [|split; [|split; assumption]].
  - rewrite addall_mod; [|split; [lia|reflexivity]|apply floors_each; assumption].
    rewrite Z.mod_small by lia. f_equal.
  - assert (G : forall s, 0 <= s -> s + floors vs < two32 -> addall_step vs s = Ok (s + floors vs)); [|apply (G 0); lia].
    clear Hf I1 I2 I3. induction vs as [|v t IH]; intros s Hs Hlt; cbn [addall_step floors fold_right] in *.
    + f_equal. lia.
    + fold (floors t) in *. inversion H; subst. pose proof (floor_nonneg H2). pose proof (floors_bounds H3) as (J1 & _).
      unfold add_step. rewrite Qfloor_add. replace (s + Qfloor v <? two32) with true by lia. cbn [bind].
      rewrite IH by (assumption || lia). f_equal. lia.
Qed.

(** 120 residuals of 6000 (reflectance 0.6): the sum kept at initialisation
    wraps around, below two of the squares; added while monitoring it is
    undefined. *)
Theorem C95_sum_refuted : exists vs s, Forall (fun v => v = (6000 * 6000 # 1)%Q) vs /\
  addall vs 0 = Ok s /\ s < 6000 * 6000 /\ zlen vs = 120 /\ addall_step vs 0 = UB.
Proof.
  exists (repeat (36000000 # 1)%Q 120), 25032704.
  split; [apply Forall_forall; intros v Hv; apply repeat_spec in Hv; assumption|].
  vm_compute. repeat split.
Qed.

(** ** The extended series *)

Section Series.
Variable V : Type.
Implicit Types (clr W : list (Z * V)).

(** num_year_range (369): ceil((last - first + 1) / 365.25).  The quotient is
    a multiple of 4/1461, so the rounding of the division does not matter. *)
Definition years (span : Z) : Z := (4 * (span + 1) + 1460) / 1461.

(** (int)(date - years * 365.25) (404): exact in double, truncated. *)
Definition back (y d : Z) : Z := Z.quot (4 * d - 1461 * y) 4.

(** Entry [i] of clrx_extend / clry_extend (400-424). *)
Definition entry clr (start n_clr nobs y : Z) (i : nat) : out (Z * V) :=
  if Z.of_nat i <? nobs then p <- get clr (start + Z.of_nat i) ;; Ok (back y (fst p), snd p)
  else if n_clr - 1 <? start + Z.of_nat i - nobs then get clr (n_clr - 1)
  else get clr (start + Z.of_nat i - nobs).

(** Lines 369-424: observations start..stop of the n_clr clear ones. *)
Definition extended clr (start stop : Z) : out (list (Z * V)) :=
  p0 <- get clr start ;; p1 <- get clr stop ;;
  let nobs := stop - start + 1 in
  if nobs * 2 + 1 <? 0 then Fail else
  mapO (entry clr start (zlen clr) nobs (years (fst p1 - fst p0))) (seq 0 (Z.to_nat (nobs * 2 + 1))).

Lemma mapO_map : forall A B (f : A -> out B) (g : A -> B) l, (forall u, In u l -> f u = Ok (g u)) -> mapO f l = Ok (map g l).
Proof.
  intros A B f g l. induction l as [|u l IH]; intros H; [reflexivity|]. cbn [mapO map].
  rewrite (H u) by (left; reflexivity). cbn [bind]. rewrite IH; [reflexivity|]. intros v Hv. apply H. right. assumption.
Qed.

Lemma mapO_app : forall A B (f : A -> out B) l l' r r', mapO f l = Ok r -> mapO f l' = Ok r' -> mapO f (l ++ l') = Ok (r ++ r').
Proof.
  intros A B f l l'. induction l as [|u l IH]; intros r r' H H'.
  - injection H as <-. assumption.
  - cbn [mapO app] in *. apply bind_ok in H. destruct H as (b & Eb & H). apply bind_ok in H. destruct H as (s & Es & H).
    injection H as <-. rewrite Eb. cbn [bind]. rewrite (IH _ _ Es H'). reflexivity.
Qed.

(** The observations of the stable stage. *)
Definition stage clr (start stop : Z) : list (Z * V) :=
  firstn (Z.to_nat (stop - start + 1)) (skipn (Z.to_nat start) clr).
Definition moved (y : Z) W : list (Z * V) := map (fun p => ((4 * fst p - 1461 * y) / 4, snd p)) W.
Definition dates_of W : list Z := map fst W.

Lemma years_bounds : forall span, 0 <= span -> 4 * (span + 1) <= 1461 * years span < 4 * (span + 1) + 1461.
Proof. intros span H. unfold years. lia. Qed.

Lemma asc_nth : forall (l : list Z) d i j, ascending l -> (i < j < length l)%nat -> nth i l d < nth j l d.
Proof.
  unfold ascending. induction l as [|a l IH]; intros d i j H Hij; [simpl in Hij; lia|].
  inversion H as [|? ? HS HF]; subst. destruct j; [lia|]. destruct i; cbn [nth].
  - rewrite Forall_forall in HF. apply HF. apply nth_In. simpl in Hij. lia.
  - apply IH; [assumption|simpl in Hij; lia].
Qed.

Lemma asc_of_nth : forall (l : list Z) d, (forall i, (Datatypes.S i < length l)%nat -> nth i l d < nth (Datatypes.S i) l d) -> ascending l.
Proof.
  unfold ascending. induction l as [|a l IH]; intros d H; constructor.
  - apply IH with d. intros i Hi. apply (H (Datatypes.S i)). simpl. lia.
  - destruct l as [|b l]; [constructor|].
    assert (HS : StronglySorted Z.lt (b :: l)).
    { apply IH with d. intros i Hi. apply (H (Datatypes.S i)). simpl in *. lia. }
    assert (Hab : a < b) by (apply (H 0%nat); simpl; lia).
    inversion HS as [|? ? _ HF]; subst. constructor; [assumption|]. eapply Forall_impl; [|exact HF]. simpl. intros. lia.
Qed.

(** The series the filter is run over: the stage moved back by whole years
    (cut to a day), the stage, and one further date.  It is ascending unless
    the stage ends with the series, when that date is the last one again. *)
Theorem C95_extended : forall clr start stop, ascending (dates_of clr) ->
  0 <= start <= stop -> stop < zlen clr ->
  let W := stage clr start stop in
  let d0 := nth (Z.to_nat start) (dates_of clr) 0 in
  let d1 := nth (Z.to_nat stop) (dates_of clr) 0 in
  let y := years (d1 - d0) in
  d1 - d0 + 367 <= d0 ->
  exists next, extended clr start stop = Ok (moved y W ++ W ++ [next]) /\
    zlen W = stop - start + 1 /\ ascending (dates_of (moved y W ++ W)) /\
    (if stop + 1 <? zlen clr then ascending (dates_of (moved y W ++ W ++ [next])) else fst next = d1).
Proof.
  intros clr start stop Ha Hs He W d0 d1 y Hd.
  destruct clr as [|c0 clr']; [unfold zlen in He; simpl in He; lia|]. set (clr := c0 :: clr') in *.
  set (nth_c := fun i => nth (Z.to_nat i) clr c0).
  assert (Hlen : length (dates_of clr) = length clr) by apply map_length.
  assert (Hfst : forall i, 0 <= i < zlen clr -> fst (nth_c i) = nth (Z.to_nat i) (dates_of clr) 0).
  { intros i Hi. unfold nth_c, dates_of. rewrite nth_indep with (d' := fst c0) by (rewrite map_length; unfold zlen in Hi; lia).
    rewrite map_nth. reflexivity. }
  assert (E0 : get clr start = Ok (nth_c start)) by (apply get_ok; lia).
  assert (E1 : get clr stop = Ok (nth_c stop)) by (apply get_ok; lia).
  assert (F0 : fst (nth_c start) = d0) by (apply Hfst; lia).
  assert (F1 : fst (nth_c stop) = d1) by (apply Hfst; lia).
  assert (Hmono : forall i j, 0 <= i < j -> j < zlen clr -> fst (nth_c i) < fst (nth_c j)).
  { intros i j Hij Hj. rewrite !Hfst by lia. apply asc_nth; [assumption|]. rewrite Hlen. unfold zlen in Hj. lia. }
  set (n := Z.to_nat (stop - start + 1)).
  assert (HWn : length W = n) by (unfold W, stage; rewrite firstn_length, skipn_length; unfold zlen in He; lia).
  assert (HWi : forall i, (i < n)%nat -> nth i W c0 = nth_c (start + Z.of_nat i)).
  { intros i Hi. unfold W, stage, nth_c. fold n.
    replace (nth i (firstn n (skipn (Z.to_nat start) clr)) c0) with (nth i (skipn (Z.to_nat start) clr) c0).
    - rewrite nth_skipn. f_equal. lia.
    - rewrite <- (firstn_skipn n (skipn (Z.to_nat start) clr)) at 1. rewrite app_nth1; [reflexivity|].
      fold n in HWn. unfold W, stage in HWn. fold n in HWn. lia. }
  assert (Hd01 : d0 <= d1).
  { rewrite <- F0, <- F1. destruct (Z.eq_dec start stop) as [->|Hne]; [lia|].
    specialize (Hmono start stop ltac:(lia) ltac:(lia)). lia. }
  destruct (@years_bounds (d1 - d0) ltac:(lia)) as [Hy1 Hy2]. fold y in Hy1, Hy2.
  assert (Hrange : forall i, start <= i <= stop -> d0 <= fst (nth_c i) <= d1).
  { intros i Hi. rewrite <- F0, <- F1. split.
    - destruct (Z.eq_dec start i) as [->|Hne]; [lia|]. specialize (Hmono start i ltac:(lia) ltac:(lia)). lia.
    - destruct (Z.eq_dec i stop) as [->|Hne]; [lia|]. specialize (Hmono i stop ltac:(lia) ltac:(lia)). lia. }
  set (nx := if stop + 1 <? zlen clr then nth_c (stop + 1) else nth_c stop).
  exists nx.
  split.
  { unfold extended. rewrite E0, E1. cbn [bind]. rewrite F0, F1. fold y.
    replace ((stop - start + 1) * 2 + 1 <? 0) with false by lia.
    replace (Z.to_nat ((stop - start + 1) * 2 + 1)) with (n + (n + 1))%nat by lia.
    rewrite !seq_app. cbn [Nat.add]. apply mapO_app; [|apply mapO_app].
    - rewrite mapO_map with (g := fun i => nth i (moved y W) c0).
      + f_equal. apply nth_ext with (d := c0) (d' := c0).
        { unfold moved. rewrite !map_length, seq_length. symmetry. assumption. }
        intros i Hi. rewrite map_length, seq_length in Hi.
        rewrite nth_indep with (d' := nth 0%nat (moved y W) c0) by (rewrite map_length, seq_length; assumption).
        rewrite (map_nth (fun j => nth j (moved y W) c0)). rewrite seq_nth by assumption. reflexivity.
      + intros i Hi. apply in_seq in Hi. unfold entry. replace (Z.of_nat i <? stop - start + 1) with true by lia.
        rewrite get_ok with (d := c0) by lia. cbn [bind]. fold (nth_c (start + Z.of_nat i)). f_equal.
        unfold moved. 
        rewrite nth_indep with (d' := (fun p : Z * V => ((4 * fst p - 1461 * y) / 4, snd p)) c0) by (rewrite map_length; lia).
        rewrite (map_nth (fun p : Z * V => ((4 * fst p - 1461 * y) / 4, snd p))).
        rewrite HWi by lia. f_equal. unfold back. apply Z.quot_div_nonneg; [|lia].
        pose proof (Hrange (start + Z.of_nat i) ltac:(lia)). lia.
    - rewrite mapO_map with (g := fun i => nth (i - n) W c0).
      + f_equal. apply nth_ext with (d := nth (0 - n) W c0) (d' := c0).
        { rewrite map_length, seq_length. symmetry. assumption. }
        intros i Hi. rewrite map_length, seq_length in Hi. rewrite (map_nth (fun j => nth (j - n) W c0)).
        rewrite seq_nth by assumption. f_equal. lia.
      + intros i Hi. apply in_seq in Hi. unfold entry. replace (Z.of_nat i <? stop - start + 1) with false by lia.
        replace (zlen clr - 1 <? start + Z.of_nat i - (stop - start + 1)) with false by lia.
        rewrite get_ok with (d := c0) by lia. rewrite HWi by lia. unfold nth_c. do 3 f_equal. lia.
    - cbn [seq mapO]. unfold entry. replace (Z.of_nat (n + n) <? stop - start + 1) with false by lia.
      unfold nx. destruct (stop + 1 <? zlen clr) eqn:Eend.
      + replace (zlen clr - 1 <? start + Z.of_nat (n + n) - (stop - start + 1)) with false by lia.
        rewrite get_ok with (d := c0) by lia. cbn [bind]. unfold nth_c. do 4 f_equal. lia.
      + replace (zlen clr - 1 <? start + Z.of_nat (n + n) - (stop - start + 1)) with true by lia.
        rewrite get_ok with (d := c0) by lia. cbn [bind]. unfold nth_c. do 4 f_equal. lia. }
  split; [unfold zlen; lia|].
  assert (HM : forall i, (i < n)%nat -> nth i (dates_of (moved y W)) 0 = (4 * fst (nth_c (start + Z.of_nat i)) - 1461 * y) / 4).
  { intros i Hi. unfold dates_of, moved. rewrite map_map. cbn [fst].
    rewrite nth_indep with (d' := (fun p : Z * V => (4 * fst p - 1461 * y) / 4) c0) by (rewrite map_length; lia).
    rewrite (map_nth (fun p : Z * V => (4 * fst p - 1461 * y) / 4)). rewrite HWi by assumption. reflexivity. }
  assert (HD : forall i, (i < n)%nat -> nth i (dates_of W) 0 = fst (nth_c (start + Z.of_nat i))).
  { intros i Hi. unfold dates_of. rewrite nth_indep with (d' := fst c0) by (rewrite map_length; lia).
    rewrite map_nth, HWi by assumption. reflexivity. }
  assert (LM : length (dates_of (moved y W)) = n) by (unfold dates_of, moved; rewrite !map_length; assumption).
  assert (LW : length (dates_of W) = n) by (unfold dates_of; rewrite map_length; assumption).
  assert (Hall : forall tail, (forall dt, nth_error tail 0 = Some dt -> d1 < dt) -> (length tail <= 1)%nat ->
     ascending (dates_of (moved y W) ++ dates_of W ++ tail)).
  { intros tail Ht Ht1. apply asc_of_nth with 0. intros i Hi. rewrite !app_length, LM, LW in Hi.
    destruct (lt_dec (Datatypes.S i) n) as [H1|H1].
    - rewrite !app_nth1 by lia. rewrite !HM by lia. 
      specialize (Hmono (start + Z.of_nat i) (start + Z.of_nat (Datatypes.S i)) ltac:(lia) ltac:(lia)). lia.
    - destruct (lt_dec i n) as [H2|H2].
      + rewrite app_nth1 by lia. rewrite app_nth2 by lia. rewrite app_nth1 by lia. rewrite HM, HD by lia.
        replace (start + Z.of_nat i) with stop by lia. rewrite F1.
        replace (start + Z.of_nat (Datatypes.S i - length (dates_of (moved y W)))) with start by lia. rewrite F0. lia.
      + rewrite (app_nth2 (dates_of (moved y W)) _ 0 (n := i)) by lia.
        rewrite (app_nth2 (dates_of (moved y W)) _ 0 (n := Datatypes.S i)) by lia. rewrite !LM.
        destruct (lt_dec (Datatypes.S i - n) n) as [H3|H3].
        * rewrite !app_nth1 by lia. rewrite !HD by lia. apply Hmono; lia.
        * rewrite app_nth1 by lia. rewrite app_nth2 by lia. rewrite HD by lia.
          replace (start + Z.of_nat (i - n)) with stop by lia. rewrite F1.
          replace (Datatypes.S i - n - length (dates_of W))%nat with 0%nat by lia.
          destruct tail as [|dt tail]; [simpl in Hi; lia|]. cbn [nth]. apply Ht. reflexivity. }
  split.
  - unfold dates_of in *. rewrite map_app. specialize (Hall [] ltac:(discriminate) ltac:(simpl; lia)).
    rewrite app_nil_r in Hall. assumption.
  - unfold nx. destruct (stop + 1 <? zlen clr) eqn:Eend.
    + unfold dates_of in *. rewrite !map_app. apply Hall; [|simpl; lia]. intros dt Hdt. injection Hdt as <-.
      rewrite <- F1. apply Hmono; lia.
    + exact F1.
Qed.
End Series.

(** ** The filter run over it *)

Section Passes.
Variables V M : Type.
(** One observation and the days until the next (KF_ts_filter_regular with at
    least one day, 1576-1634): the new state and the squared residual. *)
Variable step : M -> Z * V -> Z -> M * Q.

(** The loop 479-484 at index [i]: without a day between two dates neither
    the state nor [vt] is touched; [vt] is indeterminate at first. *)
Fixpoint passes (l : list (Z * V)) (i nobs : Z) (m : M) (vt : option Q) (s : Z) : out (M * Z) :=
  match l with
  | p :: ((p1 :: _) as t) =>
      let gap := fst p1 - fst p in
      let r := step m p gap in
      let m1 := if 0 <? gap then fst r else m in
      let v1 := if 0 <? gap then Some (snd r) else vt in
      s1 <- (if nobs - 1 <? i then match v1 with Some v => add_init s v | None => UB end else Ok s) ;;
      passes t (i + 1) nobs m1 v1 s1
  | _ => Ok (m, s)
  end.

(** Lines 369-484: from the state with the covariance reset. *)
Definition initialise (clr : list (Z * V)) (start stop : Z) (m : M) : out (M * Z) :=
  e <- extended clr start stop ;; passes e 0 (stop - start + 1) m None 0.

(** Plain filtering of a series: every observation but the last, with the
    squared residuals. *)
Fixpoint run (l : list (Z * V)) (m : M) : M * list Q :=
  match l with
  | p :: ((p1 :: _) as t) =>
      let r := step m p (fst p1 - fst p) in
      let q := run t (fst r) in (fst q, snd r :: snd q)
  | _ => (m, [])
  end.

Lemma run_cons : forall p p1 t m, run (p :: p1 :: t) m =
  (fst (run (p1 :: t) (fst (step m p (fst p1 - fst p)))),
   snd (step m p (fst p1 - fst p)) :: snd (run (p1 :: t) (fst (step m p (fst p1 - fst p))))).
Proof. reflexivity. Qed.

Lemma passes_cons : forall p p1 t i nobs m vt s, passes (p :: p1 :: t) i nobs m vt s =
  (let gap := fst p1 - fst p in let r := step m p gap in
   let m1 := if 0 <? gap then fst r else m in let v1 := if 0 <? gap then Some (snd r) else vt in
   s1 <- (if nobs - 1 <? i then match v1 with Some v => add_init s v | None => UB end else Ok s) ;;
   passes (p1 :: t) (i + 1) nobs m1 v1 s1).
Proof. reflexivity. Qed.

Lemma run_len : forall l m, length (snd (run l m)) = pred (length l).
Proof.
  induction l as [|p t IH]; intros m; [reflexivity|]. destruct t as [|p1 t]; [reflexivity|].
  rewrite run_cons. cbn [snd length pred]. rewrite IH. reflexivity.
Qed.

(** A run without repeated dates, with what follows its last date. *)
Lemma passes_run : forall l (i nobs : Z) m vt s, ascending (dates_of l) -> 
  passes l i nobs m vt s =
  (s1 <- addall (skipn (Z.to_nat (nobs - i)) (snd (run l m))) s ;; Ok (fst (run l m), s1)).
Proof.
  induction l as [|p t IH]; intros i nobs m vt s Ha.
  - cbn. rewrite skipn_nil. reflexivity.
  - destruct t as [|p1 t]; [cbn; rewrite skipn_nil; reflexivity|].
    rewrite passes_cons, run_cons. cbn zeta. cbn [fst snd].
    unfold ascending, dates_of in Ha. simpl in Ha. inversion Ha as [|? ? HS HF]; subst. inversion HF; subst.
    replace (0 <? fst p1 - fst p) with true by lia.
    destruct (nobs - 1 <? i) eqn:E.
    + replace (Z.to_nat (nobs - i)) with 0%nat by lia. cbn [skipn addall].
      destruct (add_init s (snd (step m p (fst p1 - fst p)))) as [s1| | |]; cbn [bind]; try reflexivity.
      rewrite IH by exact HS. replace (Z.to_nat (nobs - (i + 1))) with 0%nat by lia. reflexivity.
    + replace (Z.to_nat (nobs - i)) with (Datatypes.S (Z.to_nat (nobs - (i + 1)))) by lia. cbn [skipn bind].
      apply IH. exact HS.
Qed.

Definition last_sq (vs : list Q) : Q := last vs 0%Q.

(** The same when the last date is there twice. *)
Lemma passes_twice : forall l z z' (i nobs : Z) m vt s, ascending (dates_of (l ++ [z])) -> fst z' = fst z -> 
  l <> [] \/ (exists v, vt = Some v) -> 0 <= i <= nobs -> nobs <= i + zlen l ->
  passes (l ++ [z; z']) i nobs m vt s =
  (let q := run (l ++ [z]) m in
   let v := match vt with Some v => last (snd q) v | None => last_sq (snd q) end in
   s1 <- addall (skipn (Z.to_nat (nobs - i)) (snd q) ++ [v]) s ;; Ok (fst q, s1)).
Proof.
  assert (Hs : forall i nobs z z' m v s, fst z' = fst z -> nobs <= i ->
     passes [z; z'] i nobs m (Some v) s = (s1 <- add_init s v ;; Ok (m, s1))).
  { intros i nobs z z' m v s Hz Hn. rewrite passes_cons. cbn zeta. rewrite Hz, Z.sub_diag. cbn [Z.ltb Z.compare].
    replace (nobs - 1 <? i) with true by lia. destruct (add_init s v); reflexivity. }
  intros l. induction l as [|p t IH]; intros z z' i nobs m vt s Ha Hz Hne Hi Hn.
  - destruct Hne as [Hne|(v & ->)]; [congruence|]. unfold zlen in Hn. simpl in Hn.
    cbn [app]. rewrite Hs by (assumption || lia). cbn [run]. cbn zeta. cbn [snd fst last].
    rewrite skipn_nil. cbn [app addall]. destruct (add_init s v); reflexivity.
  - assert (Hcase : exists p1 r, t ++ [z; z'] = p1 :: r /\ exists r', t ++ [z] = p1 :: r').
    { destruct t as [|p1 t]; [exists z, [z']; split; [reflexivity|exists []; reflexivity]|].
      exists p1, (t ++ [z; z']). split; [reflexivity|]. exists (t ++ [z]). reflexivity. }
    destruct Hcase as (p1 & r & E1 & r' & E2).
    cbn [app]. rewrite E1, E2, passes_cons, run_cons. cbn zeta. cbn [fst snd].
    rewrite <- E1, <- E2. cbn [app] in Ha. rewrite E2 in Ha. unfold ascending, dates_of in Ha. simpl in Ha.
    inversion Ha as [|? ? HS HF]; subst. inversion HF; subst.
    replace (0 <? fst p1 - fst p) with true by lia.
    set (rr := step m p (fst p1 - fst p)) in *. set (q := run (t ++ [z]) (fst rr)).
    assert (Hlast : forall d, last (snd rr :: snd q) d = last (snd q) (snd rr)).
    { intros d. cbn [last]. destruct (snd q) as [|a w] eqn:Eq; [reflexivity|].
      clear. revert a. induction w as [|b w IHw]; intros a; [reflexivity|]. cbn [last]. exact (IHw b). }
    assert (Hv : match vt with Some v => last (snd rr :: snd q) v | None => last_sq (snd rr :: snd q) end = last (snd q) (snd rr)).
    { unfold last_sq. destruct vt; apply Hlast. }
    rewrite Hv. rewrite zlen_cons in Hn.
    assert (HS' : ascending (dates_of (t ++ [z]))) by (rewrite E2; exact HS).
    destruct (nobs - 1 <? i) eqn:E.
    + replace (Z.to_nat (nobs - i)) with 0%nat by lia. cbn [skipn app addall].
      destruct (add_init s (snd rr)) as [s1| | |]; cbn [bind]; try reflexivity.
      assert (Enob : i = nobs) by lia. subst i.
      pose proof (IH z z' (nobs + 1) (nobs + 1) (fst rr) (Some (snd rr)) s1 HS' Hz ltac:(right; eauto) ltac:(lia)
        ltac:(pose proof (zlen_nonneg t); lia)) as G. cbn zeta in G. fold q in G.
      rewrite Z.sub_diag in G. cbn [Z.to_nat skipn] in G. rewrite <- G.
      assert (Gi : forall l i n n' m vt s, n <= i -> n' <= i -> passes l i n m vt s = passes l i n' m vt s).
      { clear. induction l as [|u l IHl]; intros i n n' m vt s H1 H2; [reflexivity|]. destruct l as [|u1 l]; [reflexivity|].
        rewrite !passes_cons. cbn zeta. replace (n - 1 <? i) with true by lia. replace (n' - 1 <? i) with true by lia.
        match goal with |- bind ?a _ = _ => destruct a; cbn [bind]; try reflexivity end. apply IHl; lia. }
      apply Gi; lia.
    + replace (Z.to_nat (nobs - i)) with (Datatypes.S (Z.to_nat (nobs - (i + 1)))) by lia. cbn [skipn bind].
      apply (IH z z' (i + 1) nobs (fst rr) (Some (snd rr)) s HS' Hz ltac:(right; eauto) ltac:(lia) ltac:(lia)).
Qed.
End Passes.

Section Initial.
Variables V M : Type.
Variable step : M -> Z * V -> Z -> M * Q.
Implicit Types clr : list (Z * V).

(** In the standard procedure (2829-2830) an observation always follows the
    stage: the model has seen the stage moved back and the stage, each
    observation of them once, and the sum holds the squared residuals of the
    stage. *)
Theorem C95_standard : forall clr start stop m, ascending (dates_of clr) ->
  0 <= start <= stop -> stop + 1 < zlen clr ->
  let W := stage clr start stop in
  let d0 := nth (Z.to_nat start) (dates_of clr) 0 in
  let d1 := nth (Z.to_nat stop) (dates_of clr) 0 in
  d1 - d0 + 367 <= d0 ->
  exists next, In next clr /\ ascending (dates_of (moved (years (d1 - d0)) W ++ W ++ [next])) /\
    let q := run step (moved (years (d1 - d0)) W ++ W ++ [next]) m in
    let squares := skipn (length W) (snd q) in
    length squares = length W /\
    initialise step clr start stop m = (s <- addall squares 0 ;; Ok (fst q, s)).
Proof.
  intros clr start stop m Ha Hs He W d0 d1 Hd. set (y := years (d1 - d0)).
  destruct (@C95_extended V clr start stop Ha Hs ltac:(lia) Hd) as (next & Ex & Hl & _ & Hasc).
  fold W d0 d1 y in Ex, Hasc, Hl. replace (stop + 1 <? zlen clr) with true in Hasc by lia.
  exists next. split.
  { unfold extended in Ex. apply bind_ok in Ex. destruct Ex as (p0 & Ep0 & Ex). apply bind_ok in Ex.
    destruct Ex as (p1 & Ep1 & Ex). destruct (_ <? 0); [discriminate|].
    replace (Z.to_nat ((stop - start + 1) * 2 + 1)) with (Z.to_nat ((stop - start + 1) * 2) + 1)%nat in Ex by lia.
    rewrite seq_app in Ex. cbn [seq Nat.add] in Ex.
    set (y' := years (fst p1 - fst p0)) in *.
    assert (G : forall l u r, mapO (entry clr start (zlen clr) (stop - start + 1) y') (l ++ [u]) = Ok r ->
       entry clr start (zlen clr) (stop - start + 1) y' u = Ok (last r next)).
    { induction l as [|i l IHl]; intros u r Hr; cbn [app mapO] in Hr.
      - apply bind_ok in Hr. destruct Hr as (b & Eb & Hr). injection Hr as <-. exact Eb.
      - apply bind_ok in Hr. destruct Hr as (b & Eb & Hr). apply bind_ok in Hr. destruct Hr as (r' & Er & Hr). injection Hr as <-.
        rewrite (IHl _ _ Er). destruct r' as [|c r']; [|reflexivity]. exfalso.
        destruct l; cbn [app mapO] in Er; apply bind_ok in Er; destruct Er as (c & _ & Er); apply bind_ok in Er;
          destruct Er as (w & _ & Er); discriminate. }
    specialize (G _ _ _ Ex). rewrite app_assoc, last_last in G. unfold entry in G.
    destruct (_ <? stop - start + 1) eqn:E1; [lia|].
    destruct (zlen clr - 1 <? _); apply get_inv in G; destruct G as [_ G]; eapply nth_error_In; eassumption. }
  split; [assumption|]. cbn zeta.
  assert (Hq : length (snd (run step (moved y W ++ W ++ [next]) m)) = (length W + length W)%nat).
  { rewrite run_len, !app_length. unfold moved. rewrite map_length. simpl. lia. }
  split; [rewrite skipn_length, Hq; lia|].
  unfold initialise. rewrite Ex. cbn [bind]. rewrite passes_run by assumption.
  replace (Z.to_nat (stop - start + 1 - 0)) with (length W) by (unfold zlen in Hl; lia). reflexivity.
Qed.

(** In the snow procedure (3268-3269) the stage is the whole series: the last
    observation is left out of the model, and the squared residual of the one
    before is added twice. *)
Theorem C95_snow : forall clr m, ascending (dates_of clr) -> 2 <= zlen clr ->
  let d0 := nth 0 (dates_of clr) 0 in
  let d1 := nth (length clr - 1) (dates_of clr) 0 in
  d1 - d0 + 367 <= d0 ->
  let q := run step (moved (years (d1 - d0)) clr ++ clr) m in
  initialise step clr 0 (zlen clr - 1) m =
    (s <- addall (skipn (length clr) (snd q) ++ [last_sq (snd q)]) 0 ;; Ok (fst q, s)).
Proof.
  intros clr m Ha Hn d0 d1 Hd q.
  assert (HW : stage clr 0 (zlen clr - 1) = clr).
  { unfold stage. replace (Z.to_nat (zlen clr - 1 - 0 + 1)) with (length clr) by (unfold zlen; lia). cbn [Z.to_nat skipn]. apply firstn_all. }
  assert (Hd1 : nth (Z.to_nat (zlen clr - 1)) (dates_of clr) 0 = d1) by (unfold d1; f_equal; unfold zlen; lia).
  pose proof (@C95_extended V clr 0 (zlen clr - 1) Ha ltac:(lia) ltac:(lia)) as HX. cbn zeta in HX. rewrite HW in HX.
  change (Z.to_nat 0) with 0%nat in HX. fold d0 in HX. rewrite Hd1 in HX. specialize (HX Hd).
  destruct HX as (next & Ex & _ & Hasc & Hnext). replace (zlen clr - 1 + 1 <? zlen clr) with false in Hnext by lia.
  set (y := years (d1 - d0)) in *.
  destruct (exists_last (l := clr)) as (front & z & Ec).
  { intros ->. unfold zlen in Hn. simpl in Hn. lia. }
  unfold initialise. rewrite Ex. cbn [bind].
  assert (Hz : fst next = fst z).
  { rewrite Hnext. unfold d1, dates_of. rewrite Ec, map_app. rewrite app_nth2; rewrite map_length, app_length; simpl; [|lia].
    replace (length front + 1 - 1 - length front)%nat with 0%nat by lia. reflexivity. }
  assert (El : moved y clr ++ clr ++ [next] = (moved y clr ++ front) ++ [z; next]) by (rewrite Ec at 2; rewrite <- !app_assoc; reflexivity).
  assert (El' : moved y clr ++ clr = (moved y clr ++ front) ++ [z]) by (rewrite Ec at 2; rewrite <- !app_assoc; reflexivity).
  assert (Hlf : zlen (moved y clr ++ front) = 2 * zlen clr - 1).
  { unfold zlen. rewrite app_length. unfold moved. rewrite map_length. rewrite Ec. rewrite app_length. cbn [length]. lia. }
  rewrite El. rewrite (@passes_twice V M step (moved y clr ++ front) z next 0 (zlen clr - 1 - 0 + 1) m None 0).
  - cbn zeta. rewrite <- El'. fold q. replace (Z.to_nat (zlen clr - 1 - 0 + 1 - 0)) with (length clr) by (unfold zlen; lia). reflexivity.
  - rewrite <- El'. assumption.
  - assumption.
  - left. intros E0. rewrite E0 in Hlf. change (zlen (@nil (Z * V))) with 0 in Hlf. lia.
  - lia.
  - lia.
Qed.
End Initial.

(** A filter that logs the dates it takes in; the residuals are given. *)
Definition log_step (m : list Z) (p : Z * Q) (_ : Z) : list Z * Q := (m ++ [fst p], snd p).
Definition monthly (n : nat) : list (Z * Q) :=
  map (fun i => (730000 + 30 * Z.of_nat i, inject_Z (Z.of_nat i * Z.of_nat i))) (seq 0 n).

Example C95_case :
  exists m s, initialise log_step (monthly 20) 1 18 [] = Ok (m, s) /\
    skipn 18 m = firstn 18 (skipn 1 (map fst (monthly 20))) /\ s = 2109 /\ hd 0 m = 729299 /\
    ascending (dates_of (monthly 20)).
Proof.
  eexists. eexists. split; [vm_compute; reflexivity|].
  split; [reflexivity|]. split; [reflexivity|]. split; [reflexivity|].
  apply asc_of_nth with 0. intros i Hi. vm_compute in Hi.
  do 19 (destruct i; [vm_compute; reflexivity|]). lia.
Qed.

(** The last observation of a snow series is missing from its model. *)
Theorem C95_snow_refuted : exists clr m s, ascending (dates_of clr) /\ zlen clr = 18 /\
  initialise log_step clr 0 (zlen clr - 1) [] = Ok (m, s) /\
  ~ In (nth 17 (dates_of clr) 0) m /\ s <> floors (map snd clr).
Proof.
  exists (monthly 18). eexists. eexists.
  split.
  { apply asc_of_nth with 0. intros i Hi. vm_compute in Hi. do 17 (destruct i; [vm_compute; reflexivity|]). lia. }
  split; [reflexivity|]. split; [vm_compute; reflexivity|]. split.
  - vm_compute. intros H. repeat (destruct H as [H|H]; [discriminate H|]). exact H.
  - vm_compute. discriminate.
Qed.

(** ** The covariance *)

From Coq Require Import Reals Lra.
From Verif Require Import Kalman.
Open Scope R_scope.

(** Lines 454-466: only the diagonal is written (INI_P, SLOPE_SS_SCALE,
    defines.h 109, 148); cov_p is zero before the first segment
    (gsl_matrix_calloc, 2648), later it holds what the last one left. *)
Definition fresh (i : nat) : R := if Nat.eqb i 1 then 10000 / 1000000 else 10000.
Definition reset (P : mat) : mat := fun i j => if Nat.eqb i j then fresh i else P i j.

Lemma Sum_diag : forall n (f : nat -> R) i, (i < n)%nat -> Sum n (fun j => if Nat.eqb i j then f j else 0) = f i.
Proof.
  induction n; intros f i H; [lia|]. cbn [Sum]. destruct (Nat.eq_dec i n) as [->|Hne].
  - rewrite Nat.eqb_refl. rewrite (Sum_ext n _ (fun _ => 0)); [rewrite Sum_zero; ring|].
    intros j Hj. replace (Nat.eqb n j) with false by lia. reflexivity.
  - replace (Nat.eqb i n) with false by lia. rewrite IHn by lia. ring.
Qed.

Lemma reset_form : forall m P x, form m (upper (reset P)) x x =
  form m (upper P) x x + Sum m (fun i => (fresh i - P i i) * (x i * x i)).
Proof.
  intros m P x. rewrite !form_expand, <- Sum_plus. apply Sum_ext. intros i Hi.
  rewrite <- (@Sum_diag m (fun j => (fresh j - P j j) * (x j * x j)) i Hi), <- Sum_plus. apply Sum_ext. intros j Hj.
  unfold upper, reset. destruct (Nat.eqb_spec i j) as [->|Hne].
  - rewrite !Nat.leb_refl, ?Nat.eqb_refl. ring.
  - destruct (Nat.leb i j); [ring|]. replace (Nat.eqb j i) with false by lia. ring.
Qed.

(** A segment starts with a covariance matrix if the variances of the last
    one did not exceed those it starts with; in particular the first does. *)
Theorem C95_reset : forall m P, symmetric P -> symmetric (reset P) /\
  (psd m (upper P) -> (forall i, (i < m)%nat -> P i i <= fresh i) -> psd m (upper (reset P))).
Proof.
  intros m P Hs. split.
  - intros i j. unfold reset. rewrite (Nat.eqb_sym j i). destruct (Nat.eqb_spec i j) as [->|Hne]; [reflexivity|apply Hs].
  - intros Hp Hd x. rewrite reset_form. pose proof (Hp x).
    assert (0 <= Sum m (fun i => (fresh i - P i i) * (x i * x i))); [|lra].
    apply Sum_nonneg. intros i Hi. apply Rmult_le_pos; [specialize (Hd i Hi); lra|apply Rle_0_sqr].
Qed.

Theorem C95_first : forall m, psd m (upper (reset (fun _ _ => 0))).
Proof.
  intros m. apply C95_reset.
  - intros i j. reflexivity.
  - intros x. rewrite form_expand. rewrite (Sum_ext m _ (fun _ => 0)); [rewrite Sum_zero; lra|].
    intros i _. rewrite (Sum_ext m _ (fun _ => 0)); [apply Sum_zero|]. intros j _. unfold upper. destruct (Nat.leb i j); ring.
  - intros i _. unfold fresh. destruct (Nat.eqb i 1); lra.
Qed.

(** The bound is needed: the covariance of level and slope is kept while
    their variances are set. *)
Example C95_reset_bound : exists P, symmetric P /\ psd 2 (upper P) /\ ~ psd 2 (upper (reset P)).
Proof.
  exists (fun i j => match i, j with O, O => 20000 | S O, S O => 1 / 100 | O, S O => 11 | S O, O => 11 | _, _ => 0 end).
  split; [intros [|[|i]] [|[|j]]; reflexivity|]. split.
  - intros x. unfold form, dot, mv, upper. cbn.
    pose proof (Rle_0_sqr (x 0%nat + 11 / 20000 * x 1%nat)) as H1. pose proof (Rle_0_sqr (x 1%nat)) as H2.
    unfold Rsqr in H1, H2. lra.
  - intros H. specialize (H (fun i => match i with O => 1 | _ => - 1100 end)). revert H.
    unfold form, dot, mv, upper, reset, fresh. cbn. lra.
Qed.

Print Assumptions C95_sum.
Print Assumptions C95_sum_refuted.
Print Assumptions C95_extended.
Print Assumptions C95_standard.
Print Assumptions C95_snow.
Print Assumptions C95_snow_refuted.
Print Assumptions C95_reset.
Print Assumptions C95_first.
