(** The monitoring of S-CCD in exact arithmetic (C113): forecast, change
    statistic, verdict and state update of step2_KF_ChangeDetection
    (src/cxx/s_ccd.c 1665-2095) over a whole series, against change detection
    with the daily Kalman filter of the textbook. *)
From Coq Require Import Reals Lra.
From Verif Require Import Base Kalman KfDaily Angle.
Open Scope R_scope.

(** One date with its bands (clrx, clry). *)
Record robs := mkO { r_day : Z; r_val : nat -> R }.

(** ** The code *)
Section Code.
Variables (w : R) (h minr : nat -> R) (Q : mat).
Variables (tcg gate tmax nsign : R) (pin : bool) (conse : nat).
(** What v_dif holds after allocation (1722). *)
Variable junk : nat -> R.

(** fit_cft, cov_p, sum_square_vt of the bands, num_obs_processed.
    sum_square_vt is an unsigned int; here it has no upper limit (see C95). *)
Record mst := mkM { m_cft : nat -> six; m_cov : nat -> mat; m_ss : nat -> Z; m_n : Z }.

(** KF_ts_predict_conse (1475-1567) with pred_start = pred_end and b_foutput
    FALSE, as in both calls (1766, 2316): the covariance is not touched. *)
Definition predict_conse (c : six) (d : Z) : R :=
  x0 c + x1 c * IZR d / scale + x2 c * cos (IZR d * w) + x3 c * sin (IZR d * w)
  + x4 c * cos (IZR d * (2 * w)) + x5 c * sin (IZR d * (2 * w)).

(** lasso_blist_sccd (17) and its search (1775-1783) *)
Definition blist : list nat := [1; 2; 3; 4; 5]%nat.
Fixpoint search (b : nat) (l : list nat) (k : nat) : option nat :=
  match l with [] => None | x :: t => if Nat.eqb b x then Some k else search b t (S k) end.
(** 1757-1758, 1769; [c] is the number of coefficients subtracted *)
Definition rmse_band (s : mst) (c : Z) (b : nat) : R := IZR (m_ss s b) / IZR (m_n s - c).
Definition max_rmse (s : mst) (c : Z) (b : nat) : R := Rmax (minr b) (sqrt (rmse_band s c b)).
Definition v_mag (s : mst) (o : robs) (b : nat) : R := r_val o b - predict_conse (m_cft s b) (r_day o).
(** The loop over the bands (1764-1784): v_dif and v_dif_mag_norm of one
    observation. *)
Definition row_of (s : mst) (c : Z) (o : robs) : (nat -> R) * R :=
  fold_left (fun a b =>
    match search b blist 0 with
    | Some k => let v := v_mag s o b / max_rmse s c b in
                ((fun i => if Nat.eqb i k then v else fst a i), snd a + v * v)
    | None => a
    end) (seq 0 6) (junk, 0).
Definition v_row (s : mst) (c : Z) (o : robs) : list R := map (fst (row_of s c o)) (seq 0 5).
Definition norm (s : mst) (c : Z) (o : robs) : R := snd (row_of s c o).

(** The scan with its early exit (1787-1809): change_flag and break_mag *)
Fixpoint scan (k : nat) (bm : R) (l : list R) : bool * R :=
  match l with
  | [] => (true, bm)
  | v :: t =>
      let bm := if Rlt_dec v bm then v else bm in
      if (if pin then (if Rlt_dec bm gate then true else false) && Nat.ltb k 3 else if Rlt_dec bm tcg then true else false)%bool
      then (false, bm) else scan (S k) bm t
  end.

Inductive verdict := Break | Noise | Usual.
(** 1757-1809, 1933-1960, 2011, 2044.  break_mag starts at 9999 (1717). *)
Definition judge (s : mst) (win : list robs) : verdict :=
  let '(flag, bm) := scan 0 9999 (map (norm s 6) win) in
  let flag := if flag then if Rlt_dec bm tcg then false
                           else if Rlt_dec nsign (rmean (map (v_row s 6) win)) then false else true
              else false in
  if flag then Break
  else match win with
       | o :: _ => if Rlt_dec tmax (norm s 6 o) then Noise else Usual
       | [] => Usual
       end.

(** KF_ts_filter_falsechange in all bands (2022-2028) *)
Definition skip (s : mst) (d d' : Z) : mst :=
  mkM (m_cft s) (fun b => filter_falsechange w Q d d' (m_cov s b)) (m_ss s) (m_n s).
(** KF_ts_filter_regular in all bands, residuals, count (2051-2058).  The sum
    is computed in double and cut back to a whole number. *)
Definition absorb (s : mst) (o : robs) (d' : Z) : mst :=
  let f b := filter_regular w (h b) Q (r_day o) d' (r_val o b) (m_cft s b) (m_cov s b) in
  mkM (fun b => fst (fst (f b))) (fun b => snd (fst (f b)))
      (fun b => Int_part (IZR (m_ss s b) + match snd (f b) with Some v => v * v | None => 0 end)) (m_n s + 1).

(** Monitoring from the current observation on (2741-2745, 2933-2975): as
    long as another [conse] observations follow it; a noisy observation is
    taken out of the series (2036-2041), after a break the segment ends. *)
Fixpoint monitor (s : mst) (l : list robs) : list verdict * mst * list robs :=
  match l with
  | [] => ([], s, l)
  | o :: t =>
      if Nat.ltb (length t) conse then ([], s, l)
      else match t with
           | [] => ([], s, l)
           | o' :: _ =>
               match judge s (firstn conse l) with
               | Break => ([Break], s, l)
               | Noise => let '(vs, s', r) := monitor (skip s (r_day o) (r_day o')) t in (Noise :: vs, s', r)
               | Usual => let '(vs, s', r) := monitor (absorb s o (r_day o')) t in (Usual :: vs, s', r)
               end
           end
  end.

(** rmse of the record of a break (1975-1978) *)
Definition rec_rmse (s : mst) (b : nat) : R := sqrt (rmse_band s 6 b).
(** step 3: update_cft with 4, 6 and 6 coefficients (misc.c 42-69, s_ccd.c
    2302-2303), then the norms of the last observations (2304-2330) *)
Definition end_c (n : Z) : Z := (if n <? 6 * 3 then Z.min 4 6 else if n <? 6 * 3 then Z.min 6 6 else Z.min 6 6)%Z.
Definition end_norm (s : mst) (o : robs) : R := norm s (end_c (m_n s)) o.
End Code.

(** ** The textbook *)
Section Textbook.
Variables (w : R) (h minr : nat -> R) (Q : mat).
Variables (tcg tmax nsign : R) (conse : nat).
Notation T := (trans w).

(** A band on the day [k_day]: mean and covariance of the state predicted for
    that day, the sum of squares of the residuals so far, kept as a whole
    number ([k_ss]) and exactly ([k_sq], not used for decisions); [k_n]
    observations are behind it. *)
Record kst := mkK { k_day : Z; k_band : nat -> vec * mat; k_ss : nat -> Z; k_sq : nat -> R; k_n : Z }.
Definition forecast (s : kst) (b : nat) (d : Z) : R :=
  dot 6 zobs (fst (Nat.iter (Z.to_nat (d - k_day s)) (kf_predict 6 T Q) (k_band s b))).
Definition spread (s : kst) (b : nat) : R := Rmax (minr b) (sqrt (IZR (k_ss s b) / (IZR (k_n s) - 6))).
Definition deviation (s : kst) (o : robs) (b : nat) : R := (r_val o b - forecast s b (r_day o)) / spread s b.
(** green, red, near infrared and the two shortwave bands; not blue *)
Definition deviations (s : kst) (o : robs) : list R := map (deviation s o) [1; 2; 3; 4; 5]%nat.
Definition magnitude (s : kst) (o : robs) : R := rdot (deviations s o) (deviations s o).
(** mean angle between the deviations of neighbouring observations, zero for
    a single one *)
Definition direction (s : kst) (win : list robs) : R :=
  let l := map (fun p => rangle (fst p) (snd p)) (neighbours (map (deviations s) win)) in
  match l with [] => 0 | _ => fold_right Rplus 0 l / INR (length l) end.
Definition judgement (s : kst) (win : list robs) (v : verdict) : Prop :=
  let broken := tcg <= 9999 /\ (forall o, In o win -> tcg <= magnitude s o) /\ direction s win <= nsign in
  match v with
  | Break => broken
  | Noise => ~ broken /\ exists o t, win = o :: t /\ tmax < magnitude s o
  | Usual => ~ broken /\ forall o t, win = o :: t -> magnitude s o <= tmax
  end.
(** Days pass; an observation is learnt and a day passes. *)
Definition wait (s : kst) (d : Z) : kst :=
  mkK d (fun b => Nat.iter (Z.to_nat (d - k_day s)) (kf_predict 6 T Q) (k_band s b)) (k_ss s) (k_sq s) (k_n s).
Definition learn (s : kst) (o : robs) : kst :=
  mkK (k_day s) (fun b => kf_update 6 zobs (h b) (r_val o b) (k_band s b))
      (fun b => Int_part (IZR (k_ss s b) + Rsqr (r_val o b - dot 6 zobs (fst (k_band s b)))))
      (fun b => k_sq s b + Rsqr (r_val o b - dot 6 zobs (fst (k_band s b)))) (k_n s + 1).

(** [detects s l vs s' r]: from state [s] on the day of the first observation
    of [l], the verdicts are [vs], leaving the state [s'] and the
    observations [r]. *)
Inductive detects : kst -> list robs -> list verdict -> kst -> list robs -> Prop :=
| D_end : forall s l, (length l <= conse)%nat -> detects s l [] s l
| D_break : forall s l, (conse < length l)%nat -> judgement s (firstn conse l) Break -> detects s l [Break] s l
| D_noise : forall s o o' t vs s' r, (conse < length (o :: o' :: t))%nat -> judgement s (firstn conse (o :: o' :: t)) Noise ->
    detects (wait s (r_day o')) (o' :: t) vs s' r -> detects s (o :: o' :: t) (Noise :: vs) s' r
| D_usual : forall s o o' t vs s' r, (conse < length (o :: o' :: t))%nat -> judgement s (firstn conse (o :: o' :: t)) Usual ->
    detects (wait (learn s o) (r_day o')) (o' :: t) vs s' r -> detects s (o :: o' :: t) (Usual :: vs) s' r.
End Textbook.

(** ** Agreement *)
Section Agree.
Variables (w : R) (h minr : nat -> R) (Q : mat).
Variables (tcg gate tmax nsign : R) (pin : bool) (conse : nat) (junk : nat -> R).
Hypothesis Hh : forall b, tol < h b.
Hypothesis HQs : symmetric Q.
Hypothesis HQ : psd 6 Q.
Notation T := (trans w).

(** The coefficients are the mean, re-expressed; the rest is equal. *)
Definition matches (s : mst) (k : kst) : Prop :=
  (forall b, agree w (m_cft s b) (m_cov s b) (k_day k) (k_band k b)) /\ (forall b, m_ss s b = k_ss k b) /\ m_n s = k_n k.

Lemma iter_agree : forall n c P d s, agree w c P d s ->
  agree w c (Nat.iter n (propagate 6 T Q) P) (d + Z.of_nat n) (Nat.iter n (kf_predict 6 T Q) s).
Proof.
  induction n as [|n IH]; intros c P d s A.
  - rewrite Z.add_0_r. exact A.
  - rewrite !iter_succ. replace (d + Z.of_nat (S n))%Z with (d + 1 + Z.of_nat n)%Z by lia. apply IH.
    apply skip_agree; [exact HQs|exact HQ|exact A].
Qed.
Lemma zobs_agree : forall c P d s, agree w c P d s -> dot 6 zobs (fst s) = predict_conse w c d.
Proof.
  intros c P d s (Ea & _). transitivity (dot 6 zobs (vec6 (to_state w c (IZR d)))).
  - unfold dot. apply Sum_ext. intros i Hi. rewrite Ea by exact Hi. reflexivity.
  - apply C45_prediction.
Qed.

(** The look-ahead is the forecast of the filter. *)
Theorem C113_forecast : forall c P d d' s, agree w c P d s -> (d <= d')%Z ->
  predict_conse w c d' = dot 6 zobs (fst (Nat.iter (Z.to_nat (d' - d)) (kf_predict 6 T Q) s)).
Proof.
  intros c P d d' s A Hd. pose proof (iter_agree (Z.to_nat (d' - d)) A) as B.
  replace (d + Z.of_nat (Z.to_nat (d' - d)))%Z with d' in B by lia. symmetry. apply (zobs_agree B).
Qed.

Lemma row_exact : forall s c o,
  v_row w minr junk s c o = map (fun b => v_mag w s o b / max_rmse minr s c b) [1; 2; 3; 4; 5]%nat /\
  norm w minr junk s c o = rdot (v_row w minr junk s c o) (v_row w minr junk s c o).
Proof.
  intros s c o.
  assert (E : v_row w minr junk s c o = map (fun b => v_mag w s o b / max_rmse minr s c b) [1; 2; 3; 4; 5]%nat) by reflexivity.
  split; [exact E|]. rewrite E. reflexivity.
Qed.
Lemma dev_exact : forall s k o b, matches s k -> (k_day k <= r_day o)%Z ->
  v_mag w s o b / max_rmse minr s 6 b = deviation w minr Q k o b.
Proof.
  intros s k o b (A & S & N) Hd. unfold v_mag, max_rmse, rmse_band, deviation, spread, forecast.
  rewrite (C113_forecast (A b) Hd), S, N, minus_IZR. reflexivity.
Qed.
Lemma row_matches : forall s k o, matches s k -> (k_day k <= r_day o)%Z ->
  v_row w minr junk s 6 o = deviations w minr Q k o /\ norm w minr junk s 6 o = magnitude w minr Q k o.
Proof.
  intros s k o M Hd. destruct (row_exact s 6 o) as [E1 E2].
  assert (E : v_row w minr junk s 6 o = deviations w minr Q k o).
  { rewrite E1. unfold deviations. apply map_ext. intros b. apply dev_exact; assumption. }
  split; [exact E|]. rewrite E2, E. reflexivity.
Qed.

(** The statistic of one observation of the window, spelled out. *)
Theorem C113_statistic : forall s k o, matches s k -> (k_day k <= r_day o)%Z ->
  norm w minr junk s 6 o =
  Sum 5 (fun i => Rsqr ((r_val o (S i) - forecast w Q k (S i) (r_day o)) / Rmax (minr (S i)) (sqrt (IZR (k_ss k (S i)) / (IZR (k_n k) - 6))))).
Proof.
  intros s k o M Hd. destruct (row_matches o M Hd) as [_ ->]. unfold magnitude, deviations, rdot.
  cbn [map combine fold_left fst snd Sum]. unfold deviation, spread, Rsqr. ring.
Qed.

Lemma rmean_neighbours : forall x, rmean x =
  let l := map (fun p => rangle (fst p) (snd p)) (neighbours x) in
  match l with [] => 0 | _ => fold_right Rplus 0 l / INR (length l) end.
Proof.
  intros x. cbv zeta.
  assert (S : forall y, rsum y = fold_right Rplus 0 (map (fun p => rangle (fst p) (snd p)) (neighbours y))).
  { induction y as [|u [|v y] IH]; [reflexivity|reflexivity|].
    change (rsum (u :: v :: y)) with (rangle u v + rsum (v :: y)). rewrite IH. reflexivity. }
  assert (L : forall u y, length (neighbours (u :: y)) = length y).
  { intros u y. revert u. induction y as [|v y IH]; intros u; [reflexivity|].
    change (neighbours (u :: v :: y)) with ((u, v) :: neighbours (v :: y)). cbn [length]. rewrite IH. reflexivity. }
  destruct x as [|u [|v x]]; [reflexivity|reflexivity|].
  unfold rmean. replace (1 <? Z.of_nat (length (u :: v :: x)))%Z with true by (cbn [length]; lia).
  rewrite S. set (l := map (fun p => rangle (fst p) (snd p)) (neighbours (u :: v :: x))).
  assert (E : INR (length l) = INR (length (u :: v :: x)) - 1).
  { unfold l. rewrite map_length, L. change (length (u :: v :: x)) with (Datatypes.S (length (v :: x))). rewrite S_INR. ring. }
  rewrite <- E. assert (Hl : length l <> 0%nat).
  { unfold l. rewrite map_length, L. discriminate. }
  clearbody l. destruct l; [exfalso; apply Hl; reflexivity|reflexivity].
Qed.

Lemma min_le : forall v bm, let m := if Rlt_dec v bm then v else bm in m <= v /\ m <= bm /\ (m = v \/ m = bm).
Proof. intros v bm. cbv zeta. destruct (Rlt_dec v bm); lra. Qed.
Hypothesis Hgate : pin = true -> gate <= tcg.
Lemma scan_false : forall l k bm bm', scan tcg gate pin k bm l = (false, bm') -> bm < tcg \/ exists v, In v l /\ v < tcg.
Proof.
  induction l as [|v t IH]; intros k bm bm' E; [discriminate|]. cbn [scan] in E. destruct (min_le v bm) as (M1 & M2 & M3).
  set (b := if Rlt_dec v bm then v else bm) in *. clearbody b.
  assert (C : b < tcg -> bm < tcg \/ exists u, In u (v :: t) /\ u < tcg).
  { intros L. destruct M3 as [-> | ->]; [right; exists v; split; [now left|exact L]|left; exact L]. }
  destruct (if pin then _ else _) eqn:T0 in E.
  - apply C. destruct pin.
    + apply andb_true_iff in T0. destruct T0 as [T0 _]. destruct (Rlt_dec b gate); [|discriminate]. specialize (Hgate eq_refl). lra.
    + destruct (Rlt_dec b tcg); [assumption|discriminate].
  - destruct (IH _ _ _ E) as [L|(u & Hu & L)]; [exact (C L)|]. right. exists u. split; [now right|exact L].
Qed.
Lemma scan_true : forall l k bm bm', scan tcg gate pin k bm l = (true, bm') ->
  bm' <= bm /\ (forall v, In v l -> bm' <= v) /\ (bm' = bm \/ In bm' l).
Proof.
  induction l as [|v t IH]; intros k bm bm' E; cbn [scan] in E.
  - injection E as <-. split; [lra|]. split; [intros v []|now left].
  - destruct (min_le v bm) as (M1 & M2 & M3). set (b := if Rlt_dec v bm then v else bm) in *. clearbody b.
    destruct (if pin then _ else _) in E; [discriminate|]. destruct (IH _ _ _ E) as (A & B & C).
    split; [lra|]. split.
    + intros u [<-|Hu]; [lra|auto].
    + destruct C as [->|C]; [|right; now right]. destruct M3 as [-> | ->]; [right; now left|now left].
Qed.

Lemma judge_exact : forall s k win, matches s k -> Forall (fun o => (k_day k <= r_day o)%Z) win -> win <> [] ->
  judgement w minr Q tcg tmax nsign k win (judge w minr tcg gate tmax nsign pin junk s win).
Proof.
  intros s k win M F Hne.
  assert (En : map (norm w minr junk s 6) win = map (magnitude w minr Q k) win).
  { apply map_ext_in. intros o Ho. rewrite Forall_forall in F. apply row_matches; auto. }
  assert (Er : map (v_row w minr junk s 6) win = map (deviations w minr Q k) win).
  { apply map_ext_in. intros o Ho. rewrite Forall_forall in F. apply row_matches; auto. }
  assert (Ed : rmean (map (deviations w minr Q k) win) = direction w minr Q k win) by (rewrite rmean_neighbours; reflexivity).
  unfold judge. rewrite En, Er, Ed.
  set (broken := tcg <= 9999 /\ (forall o, In o win -> tcg <= magnitude w minr Q k o) /\ direction w minr Q k win <= nsign).
  assert (Rest : ~ broken -> judgement w minr Q tcg tmax nsign k win
     match win with o :: _ => if Rlt_dec tmax (norm w minr junk s 6 o) then Noise else Usual | [] => Usual end).
  { intros B. destruct win as [|o t]; [congruence|]. inversion F; subst. destruct (row_matches o M) as [_ ->]; [assumption|].
    destruct (Rlt_dec tmax (magnitude w minr Q k o)) as [L|L]; cbn [judgement].
    - split; [exact B|]. exists o, t. auto.
    - split; [exact B|]. intros o' t' E. injection E as <- <-. lra. }
  destruct (scan tcg gate pin 0 9999 (map (magnitude w minr Q k) win)) as [[|] bm] eqn:E.
  - destruct (scan_true _ _ _ E) as (A & B & C).
    assert (Low : bm < tcg -> ~ broken).
    { intros L (K1 & K2 & _). destruct C as [->|C]; [lra|]. apply in_map_iff in C. destruct C as (o & Eo & Ho). specialize (K2 o Ho). lra. }
    destruct (Rlt_dec bm tcg) as [L|L]; [apply Rest; auto|].
    destruct (Rlt_dec nsign (direction w minr Q k win)) as [G|G].
    + apply Rest. intros (_ & _ & K). lra.
    + cbn [judgement]. split; [lra|]. split; [|lra]. intros o Ho. specialize (B (magnitude w minr Q k o) (in_map _ _ _ Ho)). lra.
  - apply Rest. intros (K1 & K2 & _). destruct (scan_false _ _ _ E) as [L|(v & Hv & L)]; [lra|].
    apply in_map_iff in Hv. destruct Hv as (o & <- & Ho). specialize (K2 o Ho). lra.
Qed.

Lemma wait_matches : forall s k d', matches s k -> (k_day k < d')%Z -> matches (skip w Q s (k_day k) d') (wait w Q k d').
Proof.
  intros s k d' (A & S & N) Hd. split; [|split; assumption]. intros b. cbn [skip wait m_cft m_cov k_day k_band].
  pose proof (iter_agree (Z.to_nat (d' - k_day k)) (A b)) as B.
  replace (k_day k + Z.of_nat (Z.to_nat (d' - k_day k)))%Z with d' in B by lia. exact B.
Qed.
Lemma learn_matches : forall s k o d', matches s k -> r_day o = k_day k -> (k_day k < d')%Z ->
  matches (absorb w h Q s o d') (wait w Q (learn h k o) d').
Proof.
  intros s k o d' (A & S & N) Eo Hd. 
  assert (F : forall b, exists c' P', filter_regular w (h b) Q (r_day o) d' (r_val o b) (m_cft s b) (m_cov s b) =
      (c', P', Some (r_val o b - dot 6 zobs (fst (k_band k b)))) /\
      agree w c' P' d' (Nat.iter (Z.to_nat (d' - k_day k)) (kf_predict 6 T Q) (kf_update 6 zobs (h b) (r_val o b) (k_band k b)))).
  { intros b. unfold filter_regular. set (n := Z.to_nat (d' - k_day k - 1)).
    replace (Z.to_nat (d' - r_day o)) with (Datatypes.S n) by (unfold n; lia). 
    replace (Z.to_nat (d' - k_day k)) with (Datatypes.S n) by (unfold n; lia). cbn [regular_loop]. rewrite Z.eqb_refl.
    pose proof (@update_agree w (h b) Q (Hh b) HQs HQ _ _ _ _ (r_val o b) (A b)) as U. rewrite Eo.
    destruct (assimilate w (h b) Q (IZR (k_day k)) (r_val o b) (m_cft s b) (m_cov s b)) as [c1 P1].
    rewrite loop_rest by lia. exists c1, (Nat.iter n (propagate 6 T Q) P1). split.
    - f_equal. f_equal. f_equal. rewrite (zobs_agree (A b)). apply C45_prediction.
    - rewrite iter_succ. pose proof (iter_agree n U) as B.
      replace (k_day k + 1 + Z.of_nat n)%Z with d' in B by (unfold n; lia). exact B. }
  split; [|split].
  - intros b. destruct (F b) as (c' & P' & E & B). cbn [absorb wait learn m_cft m_cov k_day k_band]. rewrite E. exact B.
  - intros b. destruct (F b) as (c' & P' & E & _). cbn [absorb wait learn m_ss k_ss]. rewrite E, S. reflexivity.
  - cbn [absorb wait learn m_n k_n]. rewrite N. reflexivity.
Qed.

Fixpoint ascending (l : list robs) : Prop :=
  match l with o :: ((o' :: _) as t) => (r_day o < r_day o')%Z /\ ascending t | _ => True end.
Lemma ascending_head : forall l o, ascending (o :: l) -> Forall (fun x => (r_day o <= r_day x)%Z) (o :: l).
Proof.
  induction l as [|o' l IH]; intros o A; [constructor; [lia|constructor]|].
  destruct A as [A1 A2]. constructor; [lia|]. apply (Forall_impl (fun x => (r_day o <= r_day x)%Z)) with (2 := IH _ A2). intros x Hx. cbn in Hx. lia.
Qed.
Lemma firstn_Forall : forall (A : Type) (p : A -> Prop) n l, Forall p l -> Forall p (firstn n l).
Proof. intros A p n l F. revert n. induction F; intros [|n]; cbn; constructor; auto. Qed.

(** The whole monitoring of a segment. *)
Theorem C113_monitor : forall l s k, (1 <= conse)%nat -> ascending l -> (forall o t, l = o :: t -> r_day o = k_day k) -> matches s k ->
  let '(vs, s', r) := monitor w h minr Q tcg gate tmax nsign pin conse junk s l in
  exists k', detects w h minr Q tcg tmax nsign conse k l vs k' r /\ matches s' k'.
Proof.
  induction l as [|o t IH]; intros s k Hc As Hd M.
  - cbn [monitor]. exists k. split; [constructor; cbn; lia|exact M].
  - pose proof (Hd o t eq_refl) as Eo. cbn [monitor]. destruct (Nat.ltb (length t) conse) eqn:L.
    + apply Nat.ltb_lt in L. exists k. split; [constructor; cbn; lia|exact M].
    + apply Nat.ltb_ge in L. destruct t as [|o' t']; [cbn in L; lia|].
      assert (Hl : (conse < length (o :: o' :: t'))%nat) by (cbn [length] in L |- *; lia).
      destruct As as [A1 A2].
      assert (J : judgement w minr Q tcg tmax nsign k (firstn conse (o :: o' :: t')) (judge w minr tcg gate tmax nsign pin junk s (firstn conse (o :: o' :: t')))).
      { apply judge_exact; [exact M| |destruct conse; [lia|discriminate]]. apply firstn_Forall. rewrite <- Eo. apply ascending_head. split; assumption. }
      destruct (judge w minr tcg gate tmax nsign pin junk s (firstn conse (o :: o' :: t'))).
      * exists k. split; [apply D_break; assumption|exact M].
      * rewrite Eo. assert (M' : matches (skip w Q s (k_day k) (r_day o')) (wait w Q k (r_day o'))) by (apply wait_matches; [exact M|lia]).
        specialize (IH _ (wait w Q k (r_day o')) Hc A2 ltac:(intros a b E; injection E as <- <-; reflexivity) M').
        destruct (monitor w h minr Q tcg gate tmax nsign pin conse junk (skip w Q s (k_day k) (r_day o')) (o' :: t')) as [[vs s'] r].
        destruct IH as (k' & D & M2). exists k'. split; [apply D_noise; assumption|exact M2].
      * assert (M' : matches (absorb w h Q s o (r_day o')) (wait w Q (learn h k o) (r_day o'))) by (apply learn_matches; [exact M|exact Eo|lia]).
        specialize (IH _ (wait w Q (learn h k o) (r_day o')) Hc A2 ltac:(intros a b E; injection E as <- <-; reflexivity) M').
        destruct (monitor w h minr Q tcg gate tmax nsign pin conse junk (absorb w h Q s o (r_day o')) (o' :: t')) as [[vs s'] r].
        destruct IH as (k' & D & M2). exists k'. split; [apply D_usual; assumption|exact M2].
Qed.
(** The textbook leaves no choice, so the verdicts are the ones. *)
Theorem C113_unique : forall k l vs k1 r vs' k2 r', detects w h minr Q tcg tmax nsign conse k l vs k1 r ->
  detects w h minr Q tcg tmax nsign conse k l vs' k2 r' -> vs = vs' /\ k1 = k2 /\ r = r'.
Proof.
  assert (X : forall k win a b, judgement w minr Q tcg tmax nsign k win a -> judgement w minr Q tcg tmax nsign k win b -> a = b).
  { intros k win a b Ja Jb. destruct a, b; try reflexivity; cbn [judgement] in Ja, Jb; try tauto.
    - destruct Ja as (_ & o & t & E & L), Jb as (_ & G). specialize (G o t E). lra.
    - destruct Jb as (_ & o & t & E & L), Ja as (_ & G). specialize (G o t E). lra. }
  intros k l vs k1 r vs' k2 r' D. revert vs' k2 r'. induction D; intros vs' k2 r' D'; inversion D'; subst; try lia; auto;
    try (match goal with A : judgement _ _ _ _ _ _ _ _ _, B : judgement _ _ _ _ _ _ _ _ _ |- _ => discriminate (X _ _ _ _ A B) end).
  - match goal with D' : _ |- _ => destruct (IHD _ _ _ D') as (-> & -> & ->); auto end.
  - match goal with D' : _ |- _ => destruct (IHD _ _ _ D') as (-> & -> & ->); auto end.
Qed.

(** The whole-number sum falls behind by less than one per observation. *)
Theorem C113_sum : forall k l vs k' r b, detects w h minr Q tcg tmax nsign conse k l vs k' r ->
  let u := Z.of_nat (length (filter (fun v => match v with Usual => true | _ => false end) vs)) in
  k_n k' = (k_n k + u)%Z /\
  0 <= (k_sq k' b - k_sq k b) - IZR (k_ss k' b - k_ss k b) <= IZR u.
Proof.
  intros k l vs k' r b D. cbv zeta. induction D as [|s l _ _|s o o' t vs s' r _ _ D IH|s o o' t vs s' r _ _ D IH]; cbn [filter length].
  - rewrite !Z.sub_diag. cbn [Z.of_nat]. split; [lia|lra].
  - rewrite !Z.sub_diag. cbn [Z.of_nat]. split; [lia|lra].
  - exact IH.
  - cbn [wait learn k_n k_ss k_sq] in IH. rewrite Nat2Z.inj_succ. destruct IH as [E [A B]]. split; [lia|].
    rewrite succ_IZR. rewrite !minus_IZR in *. set (e := Rsqr _) in *. set (m := length _) in *. clearbody m.
    destruct (base_Int_part (IZR (k_ss s b) + e)) as [C1 C2].
    set (x := IZR (Int_part (IZR (k_ss s b) + e))) in *. lra.
Qed.

(** The rmse of a record and the end-of-series statistic. *)
Theorem C113_rmse : forall s k b, matches s k -> rec_rmse s b = sqrt (IZR (k_ss k b) / (IZR (k_n k) - 6)).
Proof. intros s k b (_ & S & N). unfold rec_rmse, rmse_band. rewrite S, N, minus_IZR. reflexivity. Qed.
Theorem C113_end : forall s o, (18 <= m_n s)%Z -> end_norm w minr junk s o = norm w minr junk s 6 o.
Proof. intros s o H. unfold end_norm, end_c. replace (m_n s <? 6 * 3)%Z with false by lia. reflexivity. Qed.
End Agree.

(** A flat pixel at 1 with residual sum 0: a lasting jump to 100 is a break, a
    single one is noise and the observation after it is usual. *)
Definition ex_m : mst := mkM (fun _ => mk6 1 0 0 0 0 0) (fun _ => noise) (fun _ => 0%Z) 18.
Definition ex_k (w : R) : kst := mkK 730000 (fun _ => (vec6 (to_state w (mk6 1 0 0 0 0 0) 730000), noise)) (fun _ => 0%Z) (fun _ => 0) 18.
Definition at_ (d : Z) (v : R) : robs := mkO d (fun _ => v).
Definition ex_break : list robs := [at_ 730000 100; at_ 730016 100; at_ 730032 100].
Definition ex_noise : list robs := [at_ 730000 100; at_ 730016 1; at_ 730032 1; at_ 730048 1].
Lemma ex_norm : forall w s d v, (forall b, m_cft s b = mk6 1 0 0 0 0 0) -> (forall b, m_ss s b = 0%Z) ->
  v_row w (fun _ => 1) (fun _ => 0) s 6 (at_ d v) = [v - 1; v - 1; v - 1; v - 1; v - 1] /\
  norm w (fun _ => 1) (fun _ => 0) s 6 (at_ d v) = 5 * ((v - 1) * (v - 1)).
Proof.
  intros w s d v Hc Hs. destruct (row_exact w (fun _ => 1) (fun _ => 0) s 6 (at_ d v)) as [E1 E2].
  assert (G : forall b, v_mag w s (at_ d v) b / max_rmse (fun _ => 1) s 6 b = v - 1).
  { intros b. unfold v_mag, max_rmse, rmse_band, predict_conse. rewrite Hc, Hs. cbn [x0 x1 x2 x3 x4 x5 r_val r_day at_].
    replace (0 / IZR (m_n s - 6)) with 0 by (unfold Rdiv; ring). rewrite sqrt_0, Rmax_left by lra. unfold scale. field. }
  cbn [map] in E1. rewrite !G in E1. split; [exact E1|]. rewrite E2, E1. unfold rdot. cbn [combine map fold_left fst snd]. ring.
Qed.
Ltac decide_all :=
  repeat match goal with |- context [Rlt_dec ?a ?b] =>
    lazymatch a with
    | context [Rlt_dec _ _] => fail
    | _ => lazymatch b with context [Rlt_dec _ _] => fail | _ => destruct (Rlt_dec a b); try lra; cbn [andb Nat.ltb Nat.leb] end
    end end.
Lemma ex_judge : forall w s d d', (forall b, m_cft s b = mk6 1 0 0 0 0 0) -> (forall b, m_ss s b = 0%Z) ->
  judge w (fun _ => 1) 15 10 30 45 true (fun _ => 0) s [at_ d 100; at_ d' 100] = Break /\
  judge w (fun _ => 1) 15 10 30 45 true (fun _ => 0) s [at_ d 100; at_ d' 1] = Noise /\
  judge w (fun _ => 1) 15 10 30 45 true (fun _ => 0) s [at_ d 1; at_ d' 1] = Usual.
Proof.
  intros w s d d' Hc Hs. unfold judge. cbn [map].
  destruct (ex_norm w s d 100 Hc Hs) as [R1 N1]. destruct (ex_norm w s d' 100 Hc Hs) as [R2 N2].
  destruct (ex_norm w s d 1 Hc Hs) as [R3 N3]. destruct (ex_norm w s d' 1 Hc Hs) as [R4 N4].
  rewrite R1, R2, R3, R4, N1, N2, N3, N4.
  assert (E : rmean [[100 - 1; 100 - 1; 100 - 1; 100 - 1; 100 - 1]; [100 - 1; 100 - 1; 100 - 1; 100 - 1; 100 - 1]] = 0).
  { pose proof (C47_exact [99; 99; 99; 99; 99] [1; 1]) as H. cbn [map stretch] in H. rewrite !Rmult_1_l in H.
    replace (100 - 1) with 99 by ring. apply H; [unfold rdot; cbn; lra|repeat constructor; lra]. }
  rewrite E. cbn [scan]. split; [|split]; decide_all; reflexivity.
Qed.
Example C113_case : forall w,
  ascending ex_break /\ ascending ex_noise /\ matches w ex_m (ex_k w) /\ symmetric noise /\ psd 6 noise /\ tol < 1 /\ 10 <= 15 /\
  fst (fst (monitor w (fun _ => 1) (fun _ => 1) noise 15 10 30 45 true 2 (fun _ => 0) ex_m ex_break)) = [Break] /\
  fst (fst (monitor w (fun _ => 1) (fun _ => 1) noise 15 10 30 45 true 2 (fun _ => 0) ex_m ex_noise)) = [Noise; Usual].
Proof.
  intros w. split; [cbn; lia|]. split; [cbn; lia|]. split; [|split; [apply noise_sym|split; [apply noise_psd|split; [unfold tol; lra|split; [lra|]]]]].
  - split; [|split; reflexivity]. intros b. split; [reflexivity|]. split; [reflexivity|]. split; [apply noise_sym|].
    intros x. cbn [ex_m m_cov]. rewrite (form_ext 6 (upper noise) noise) by (intros; apply upper_id, noise_sym). apply noise_psd.
  - unfold ex_break, ex_noise. cbn [monitor length Nat.ltb Nat.leb firstn].
    rewrite (proj1 (ex_judge w ex_m 730000 730016 (fun _ => eq_refl) (fun _ => eq_refl))).
    rewrite (proj1 (proj2 (ex_judge w ex_m 730000 730016 (fun _ => eq_refl) (fun _ => eq_refl)))).
    split; [reflexivity|].
    rewrite (proj2 (proj2 (ex_judge w (skip w noise ex_m (r_day (at_ 730000 100)) (r_day (at_ 730016 1))) 730016 730032 (fun _ => eq_refl) (fun _ => eq_refl)))).
    reflexivity.
Qed.

Print Assumptions C113_forecast.
Print Assumptions C113_statistic.
Print Assumptions C113_monitor.
Print Assumptions C113_unique.
Print Assumptions C113_sum.
Print Assumptions C113_rmse.
Print Assumptions C113_end.
