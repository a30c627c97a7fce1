(** The rmse COLD compares a new observation with while it monitors (C114):
    residuals of the fitted observations nearest in day of year
    (src/cxx/cold.c 4118-4245).  Exact arithmetic but for the quotient that is
    rounded to whole years. *)
From Coq Require Import Reals Lra Permutation.
From Verif Require Import Base SortModel SortProps.
Open Scope R_scope.

(** ** The code *)
(** round() of the C library *)
Definition cround (q : R) : Z := if Rle_dec 0 q then Int_part (q + / 2) else (- Int_part (- q + / 2))%Z.
(** Four times d_yr (4142-4143): NUM_YEARS is 365.25, so the products and the
    difference are exact, as is their conversion to float. *)
Definition dyr4 (q : R) (d : Z) : Z := Z.abs (1461 * cround q - 4 * d).

Section Code.
(** (float)d_rt / NUM_YEARS as computed *)
Variable quot : Z -> R.
(** dates of the fitted observations, their residuals (a list for each band),
    date of the new observation, category of the record *)
Variables (xs : list Z) (res : list (list R)) (d0 cat : Z).
(** N_TIMES * category (4118) *)
Definition n_rmse : Z := (3 * cat)%Z.
Definition keys : list Z := map (fun x => dyr4 (quot (x - d0)) (x - d0)) xs.
(** 4127-4173 and matlab_2d_array_norm_float (misc.c 785-801) *)
Definition tmpcg_rmse (b : nat) : out R :=
  if (zlen xs =? 0)%Z then Fail else
  '(_, cols) <- quick_sort_cols Z.ltb (length xs) keys res 0 (zlen xs - 1)%Z ;;
  col <- get cols (Z.of_nat b) ;;
  vs <- slice col 0 n_rmse ;;
  Ok (sqrt (fold_left (fun s v => s + v * v) vs 0) / sqrt (IZR (n_rmse - cat))).

(** v_diff and vec_mag of the new observation (4204-4245): [y] and [p] the
    values and predictions of the seven bands. *)
Variables (minr y p : nat -> R).
Definition lasso_bands : list nat := [1; 2; 3; 4; 5]%nat.
Fixpoint bands (bs : list nat) (v : list R) (mag : R) : out (list R * R) :=
  match bs with
  | [] => Ok (v, mag)
  | i_b :: t =>
      if existsb (Nat.eqb i_b) lasso_bands then
        r <- tmpcg_rmse i_b ;;
        let z := (y i_b - p i_b) / Rmax (minr i_b) r in
        bands t (v ++ [z]) (mag + z * z)
      else bands t v mag
  end.
Definition new_deviation : out (list R * R) := bands (seq 0 7) [] 0.
End Code.

(** ** Distance in day of year *)
Lemma cround_near : forall q, Rabs (IZR (cround q) - q) <= / 2.
Proof.
  intros q. unfold cround. destruct (Rle_dec 0 q) as [H|H].
  - destruct (base_Int_part (q + / 2)) as [A B]. apply Rabs_le. lra.
  - destruct (base_Int_part (- q + / 2)) as [A B]. rewrite opp_IZR. apply Rabs_le. lra.
Qed.
(** The distance to the nearest anniversary: half a year and a quarter of a
    day at most.  Any error of the quotient below 1/2922 year does no harm. *)
Theorem C114_distance : forall d q, Rabs (q - 4 * IZR d / 1461) < / 2922 ->
  (exists k, dyr4 q d = Z.abs (1461 * k - 4 * d)) /\ (forall k, dyr4 q d <= Z.abs (1461 * k - 4 * d))%Z /\ (dyr4 q d <= 730)%Z.
Proof.
  intros d q H. pose proof (cround_near q) as N.
  assert (B : (Z.abs (1461 * cround q - 4 * d) <= 730)%Z).
  { assert (L : Rabs (IZR (1461 * cround q - 4 * d)) < 731).
    { rewrite minus_IZR, !mult_IZR. revert H N. unfold Rabs. repeat destruct (Rcase_abs _); lra. }
    rewrite <- abs_IZR in L. apply lt_IZR in L. lia. }
  unfold dyr4. split; [exists (cround q); reflexivity|]. split; [|exact B]. intros k. lia.
Qed.

(** ** The residuals chosen *)
Section Choice.
Variable quot : Z -> R.
Variables (xs : list Z) (res : list (list R)) (d0 cat : Z).
Hypothesis Hres : Forall (fun c => length c = length xs) res.
Hypothesis Hcat : (0 < cat)%Z.
Hypothesis Hlen : (3 * cat <= zlen xs)%Z.
Notation dist i := (dyr4 (quot (nth i xs 0%Z - d0)) (nth i xs 0%Z - d0)).
Definition sumsq (b : nat) (sel : list nat) : R := fold_right (fun i s => nth i (nth b res []) 0 * nth i (nth b res []) 0 + s) 0 sel.

Lemma fold_sq : forall l s, fold_left (fun s v => s + v * v) l s = s + fold_right (fun v s => v * v + s) 0 l.
Proof. induction l as [|v l IH]; intros s; cbn [fold_left fold_right]; [ring|]. rewrite IH. ring. Qed.
Lemma sumsq_perm : forall b s t, Permutation s t -> sumsq b s = sumsq b t.
Proof.
  intros b s t P. induction P; unfold sumsq in *; cbn [fold_right]; [reflexivity| | |congruence].
  - rewrite IHP. reflexivity.
  - ring.
Qed.
Lemma sqrt_ratio : forall b sel, sqrt (sumsq b sel) / sqrt (IZR (n_rmse cat - cat)) = sqrt (sumsq b sel / IZR (2 * cat)).
Proof.
  intros b sel. replace (n_rmse cat - cat)%Z with (2 * cat)%Z by (unfold n_rmse; lia). symmetry. apply sqrt_div_alt. apply IZR_lt. lia.
Qed.

(** 3 * category of the observations, the same for all bands, none of the
    others nearer in day of year. *)
Theorem C114_nearest : exists sel, NoDup sel /\ Z.of_nat (length sel) = (3 * cat)%Z /\
  (forall i, In i sel -> (i < length xs)%nat) /\
  (forall i j, In i sel -> (j < length xs)%nat -> ~ In j sel -> (dist i <= dist j)%Z) /\
  (forall b, (b < length res)%nat -> tmpcg_rmse quot xs res d0 cat b = Ok (sqrt (sumsq b sel / IZR (2 * cat)))).
Proof.
  set (n := length xs). assert (Hn : (0 < n)%nat) by (unfold zlen in Hlen; unfold n; lia).
  assert (Lk : length (keys quot xs d0) = n) by apply map_length.
  destruct (@C37_quick_sort_2d R 0 n (keys quot xs d0) res 0 n Hn ltac:(lia) ltac:(lia)) as (a' & cols & E & La & Lc & Fc & _ & P & S).
  { rewrite Lk. exact Hres. }
  cbn [Nat.add] in E, P, S. change (Z.of_nat 0) with 0%Z in E. rewrite Lk in La, Fc.
  destruct (Permutation_map_inv _ _ (Permutation_sym P)) as (p & Ep & Pp).
  assert (Lp : length p = n) by (rewrite <- (Permutation_length Pp); apply seq_length).
  assert (Ip : forall i, In i p -> (i < n)%nat) by (intros i Hi; apply (Permutation_in i (Permutation_sym Pp)), in_seq in Hi; lia).
  assert (Np : NoDup p) by (apply (Permutation_NoDup Pp), seq_NoDup).
  assert (Row : forall k, (k < n)%nat -> row_at 0%Z 0 a' cols k = row_at 0%Z 0 (keys quot xs d0) res (nth k p O)).
  { intros k Hk. apply (f_equal (fun l => nth k l (row_at 0%Z 0 a' cols O))) in Ep. rewrite map_nth, seq_nth in Ep by exact Hk. cbn [Nat.add] in Ep.
    rewrite Ep. rewrite (nth_indep _ _ (row_at 0%Z 0 (keys quot xs d0) res O)) by (rewrite map_length; lia). apply map_nth. }
  assert (Key : forall k, (k < n)%nat -> nth k a' 0%Z = dist (nth k p O)).
  { intros k Hk. pose proof (f_equal fst (Row k Hk)) as R. cbn [row_at fst] in R. rewrite R. unfold keys.
    assert (Hq : (nth k p O < n)%nat) by (apply Ip, nth_In; lia).
    rewrite (nth_indep _ 0%Z (dyr4 (quot (0 - d0)) (0 - d0))) by (rewrite map_length; exact Hq).
    apply (map_nth (fun x => dyr4 (quot (x - d0)) (x - d0))). }
  set (m := Z.to_nat (3 * cat)). assert (Hm : (m <= n)%nat) by (unfold zlen in Hlen; unfold m, n; lia).
  exists (firstn m p). split; [|split; [|split; [|split]]].
  - rewrite <- (firstn_skipn m p) in Np. clear - Np. induction (firstn m p) as [|a l IH]; constructor; cbn [app] in Np; inversion Np; subst; [|now apply IH]. intros H. apply H1. apply in_or_app. now left.
  - rewrite firstn_length. unfold m in *. lia.
  - intros i Hi. apply Ip. rewrite <- (firstn_skipn m p). apply in_or_app. now left.
  - intros i j Hi Hj Hnj.
    assert (Hj' : In j (skipn m p)).
    { assert (In j p) by (apply (Permutation_in j Pp), in_seq; lia). rewrite <- (firstn_skipn m p) in H. apply in_app_or in H. tauto. }
    apply In_nth with (d := O) in Hi. destruct Hi as (u & Hu & Eu). apply In_nth with (d := O) in Hj'. destruct Hj' as (v & Hv & Ev).
    rewrite firstn_length in Hu. rewrite skipn_length in Hv.
    assert (Eu' : nth u p O = i) by (rewrite <- Eu, <- (firstn_skipn m p) at 1; rewrite app_nth1 by (rewrite firstn_length; lia); reflexivity).
    assert (Ev' : nth (m + v) p O = j).
    { rewrite <- Ev, <- (firstn_skipn m p) at 1. rewrite app_nth2 by (rewrite firstn_length; lia). rewrite firstn_length. f_equal. lia. }
    rewrite <- Eu', <- Ev', <- !Key by lia. apply S; lia.
  - intros b Hb. unfold tmpcg_rmse. replace (zlen xs =? 0)%Z with false by (unfold zlen; lia).
    replace (zlen xs - 1)%Z with (Z.of_nat n - 1)%Z by reflexivity. fold n. rewrite E. cbn [bind].
    rewrite (@get_ok _ cols (Z.of_nat b) []) by (unfold zlen; lia). cbn [bind]. rewrite Nat2Z.id.
    assert (Lb : length (nth b cols []) = n) by (rewrite Forall_forall in Fc; apply Fc, nth_In; lia).
    rewrite slice_ok by (unfold zlen, n_rmse; lia). cbn [bind skipn Z.to_nat].
    f_equal. rewrite fold_sq, Rplus_0_l. rewrite <- sqrt_ratio. f_equal. f_equal.
    assert (El : firstn m (nth b cols []) = map (fun i => nth i (nth b res []) 0) (firstn m p)).
    { apply nth_ext with (d := 0) (d' := nth O (nth b res []) 0); [rewrite map_length, !firstn_length; lia|].
      intros k Hk. rewrite firstn_length in Hk. rewrite (map_nth (fun i => nth i (nth b res []) 0)).
      assert (F : forall (X : Type) (dx : X) l, nth k (firstn m l) dx = nth k l dx).
      { intros X dx l. rewrite <- (firstn_skipn m l) at 2. destruct (Nat.lt_ge_cases k (length (firstn m l))) as [Hlt|Hge].
        - rewrite app_nth1 by exact Hlt. reflexivity.
        - rewrite firstn_length in Hge. rewrite !nth_overflow; [reflexivity| |rewrite firstn_length; lia].
          rewrite app_length, firstn_length, skipn_length. lia. }
      rewrite !F. pose proof (f_equal (fun r => nth b (snd r) 0) (Row k ltac:(lia))) as R0. cbn [row_at snd] in R0.
      assert (M : forall j (cs : list (list R)), (b < length cs)%nat -> nth b (map (fun c => nth j c 0) cs) 0 = nth j (nth b cs []) 0).
      { intros j cs Hc. rewrite (nth_indep _ 0 (nth j [] 0)) by (rewrite map_length; exact Hc). apply (map_nth (fun c => nth j c 0)). }
      rewrite !M in R0 by lia. exact R0. }
    change (Z.to_nat (n_rmse cat)) with m. rewrite El. unfold sumsq. clear.
    induction (firstn m p) as [|i l IH]; cbn [map fold_right]; [reflexivity|]. rewrite IH. reflexivity.
Qed.

(** When the 3 * category nearest can be told apart from the others by a
    distance, the rmse is that of the observations within it. *)
Theorem C114_within : forall t, Z.of_nat (length (filter (fun i => (dist i <=? t)%Z) (seq 0 (length xs)))) = (3 * cat)%Z ->
  forall b, (b < length res)%nat ->
  tmpcg_rmse quot xs res d0 cat b = Ok (sqrt (sumsq b (filter (fun i => (dist i <=? t)%Z) (seq 0 (length xs))) / IZR (2 * cat))).
Proof.
  intros t Ht b Hb. destruct C114_nearest as (sel & N & L & I & F & E). rewrite E by exact Hb.
  set (w := filter (fun i => (dist i <=? t)%Z) (seq 0 (length xs))) in *.
  assert (Nw : NoDup w) by apply NoDup_filter, seq_NoDup.
  assert (Iw : forall i, In i w <-> (i < length xs)%nat /\ (dist i <= t)%Z).
  { intros i. unfold w. rewrite filter_In, in_seq, Z.leb_le. split; intros [A B]; split; lia. }
  assert (Sub : incl sel w).
  { intros i Hi. destruct (in_dec Nat.eq_dec i w) as [H|H]; [exact H|exfalso].
    assert (Hj : exists j, In j w /\ ~ In j sel).
    { destruct (Forall_dec (fun j => In j sel) (fun j => in_dec Nat.eq_dec j sel) w) as [A|A].
      - exfalso. rewrite Forall_forall in A. apply H.
        apply (@NoDup_length_incl _ w sel Nw ltac:(lia) A). exact Hi.
      - apply neg_Forall_Exists_neg in A; [|intros j; apply in_dec, Nat.eq_dec]. apply Exists_exists in A. exact A. }
    destruct Hj as (j & Hj & Hn). apply Iw in Hj. specialize (F i j Hi (proj1 Hj) Hn).
    apply H, Iw. split; [apply I, Hi|lia]. }
  f_equal. f_equal. f_equal. apply sumsq_perm, NoDup_Permutation_bis; [exact N|lia|exact Sub].
Qed.

(** With no more observations than that it is the rmse of the whole fit. *)
Theorem C114_all : zlen xs = (3 * cat)%Z -> forall b, (b < length res)%nat ->
  tmpcg_rmse quot xs res d0 cat b = Ok (sqrt (fold_right (fun v s => v * v + s) 0 (nth b res []) / IZR (zlen xs - cat))).
Proof.
  intros Hx b Hb. destruct C114_nearest as (sel & N & L & I & F & E). rewrite E by exact Hb.
  assert (P : Permutation sel (seq 0 (length xs))).
  { apply NoDup_Permutation_bis; [exact N|rewrite seq_length; unfold zlen in Hx; lia|]. intros i Hi. apply in_seq. specialize (I i Hi). lia. }
  rewrite (sumsq_perm b P). replace (zlen xs - cat)%Z with (2 * cat)%Z by lia. f_equal. f_equal. f_equal.
  assert (Lb : length (nth b res []) = length xs) by (rewrite Forall_forall in Hres; apply Hres, nth_In; exact Hb).
  rewrite <- Lb. unfold sumsq. generalize (nth b res []). intros l. clear.
  induction l as [|v l IH]; [reflexivity|]. cbn [length seq fold_right nth]. rewrite <- IH. f_equal.
  rewrite <- seq_shift. generalize (seq 0 (length l)). intros q. induction q as [|a q IHq]; cbn [map fold_right nth]; [reflexivity|].
  rewrite IHq. reflexivity.
Qed.

(** Every spectral band but the blue has its deviation in the season's own
    rmse, in the order of the bands; the magnitude is their sum of squares. *)
Theorem C114_deviation : forall minr y p, length res = 7%nat -> exists sel, NoDup sel /\ Z.of_nat (length sel) = (3 * cat)%Z /\
  (forall i, In i sel -> (i < length xs)%nat) /\
  (forall i j, In i sel -> (j < length xs)%nat -> ~ In j sel -> (dist i <= dist j)%Z) /\
  let z b := (y b - p b) / Rmax (minr b) (sqrt (sumsq b sel / IZR (2 * cat))) in
  new_deviation quot xs res d0 cat minr y p =
    Ok ([z 1%nat; z 2%nat; z 3%nat; z 4%nat; z 5%nat], z 1%nat ^ 2 + z 2%nat ^ 2 + z 3%nat ^ 2 + z 4%nat ^ 2 + z 5%nat ^ 2).
Proof.
  intros minr y p H7. destruct C114_nearest as (sel & N & L & I & F & E). exists sel. do 4 (split; [assumption|]).
  cbv zeta. unfold new_deviation. cbn [seq bands existsb lasso_bands Nat.eqb orb].
  rewrite !E by lia. cbn [bind app]. f_equal. f_equal. ring.
Qed.
End Choice.

(** Four observations of one category (one coefficient), a new one 1100 days
    after the first: the three nearest in day of year are 4.25, 25.75 and 10.5
    days off, the other 89.75; its residual of 100 does not count. *)
Definition quot_ex (d : Z) : R := 4 * IZR d / 1461.
Definition xs_ex : list Z := [0; 30; 94; 380]%Z.
Definition res_ex : list (list R) := map (fun b => map (fun v => IZR (v + Z.of_nat b)) [3; 4; 100; -5]%Z) (seq 0 7).
Lemma cround_ex : forall d k, (- 1461 < 2 * (4 * d - 1461 * k) < 1461)%Z -> dyr4 (quot_ex d) d = Z.abs (1461 * k - 4 * d).
Proof.
  intros d k H. destruct (@C114_distance d (quot_ex d)) as ((k' & E) & M & B).
  { unfold quot_ex. rewrite Rminus_diag_eq by reflexivity. rewrite Rabs_R0. lra. }
  specialize (M k). rewrite E in *. lia.
Qed.
Example C114_case : tmpcg_rmse quot_ex xs_ex res_ex 1100 1 0 = Ok 5.
Proof.
  assert (F : filter (fun i => (dyr4 (quot_ex (nth i xs_ex 0%Z - 1100)) (nth i xs_ex 0%Z - 1100) <=? 103)%Z) (seq 0 (length xs_ex)) = [0; 1; 3]%nat).
  { cbn [length xs_ex seq filter nth].
    rewrite (@cround_ex (0 - 1100) (-3)), (@cround_ex (30 - 1100) (-3)), (@cround_ex (94 - 1100) (-3)), (@cround_ex (380 - 1100) (-2)) by lia. reflexivity. }
  rewrite (@C114_within quot_ex xs_ex res_ex 1100 1) with (t := 103%Z).
  - rewrite F. f_equal. cbn [sumsq fold_right res_ex map seq nth]. rewrite <- (sqrt_square 5) by lra. f_equal. cbn. lra.
  - repeat constructor.
  - lia.
  - cbn. lia.
  - rewrite F. reflexivity.
  - cbn. lia.
Qed.
(** 400 days before, with a quotient a little off the true one: 34.75 days *)
Example C114_distance_case : Rabs (-10951/10000 - 4 * IZR (-400) / 1461) < / 2922 /\ dyr4 (-10951/10000) (-400) = 139%Z.
Proof.
  split; [unfold Rabs; destruct (Rcase_abs _); lra|].
  assert (C : cround (-10951/10000) = (-1)%Z).
  { pose proof (cround_near (-10951/10000)) as N. revert N. unfold Rabs. destruct (Rcase_abs _); intros N;
    (assert (A : (-2 < cround (-10951/10000))%Z) by (apply lt_IZR; lra));
    (assert (B : (cround (-10951/10000) < 0)%Z) by (apply lt_IZR; lra)); lia. }
  unfold dyr4. rewrite C. reflexivity.
Qed.

Print Assumptions C114_distance.
Print Assumptions C114_nearest.
Print Assumptions C114_within.
Print Assumptions C114_all.
Print Assumptions C114_deviation.
