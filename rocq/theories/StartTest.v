(** The test of a new segment and the deviations it is compared with (C115):
    src/cxx/cold.c 3252-3346 (stability), 3478-3545 (look-back), 3957-3982
    (after a refit) and src/cxx/s_ccd.c 989-1057, 1156-1226, composed with the
    fits of Fit.v.  Exact arithmetic. *)
From Coq Require Import Reals Lra.
From Verif Require Import Base Fit Angle.
Open Scope R_scope.

Section Code.
(** as in Fit.v *)
Variables co si : Z -> Z -> R.
Variable lasso : Z -> Z -> list R -> list R -> option (nat -> R).
(** LASSO_COEFFS 8 (COLD) or SCCD_NUM_C 6 *)
Variable width : Z.
Variable junk : nat -> R.
Variable minr : nat -> R.

(** fit_cft[b], rec_v_dif[b], rmse[b] *)
Definition bfit : Type := list R * list R * option R.
(** The loops over the bands (cold.c 3252-3280, s_ccd.c 990-1005); [bufs] what
    fit_cft and rec_v_dif held before. *)
Fixpoint fit_all (clrx : list Z) (start endd df : Z) (cols : list (list R)) (bufs : list (list R * list R)) : out (list bfit) :=
  match cols, bufs with
  | [], _ => Ok []
  | col :: ct, (cf, v) :: bt =>
      f <- fit_band co si lasso width junk clrx col start endd df cf v ;;
      r <- fit_all clrx start endd df ct bt ;;
      Ok (f :: r)
  | _, [] => UB
  end.

(** lasso_blist (cold.c 24, s_ccd.c 17) *)
Definition blist : list Z := [1; 2; 3; 4; 5]%Z.

(** mini_rmse (cold.c 3293, s_ccd.c 1018) *)
Definition mini_rmse (fits : list bfit) (b : Z) : out R :=
  '(_, _, e) <- get fits b ;; r <- of_opt e ;; Ok (Rmax (minr (Z.to_nat b)) r).

(** One pass of cold.c 3284-3340, s_ccd.c 1009-1053; [start], [endd] are
    i_start-1, i-1 (COLD) and i_start, cur_i (S-CCD). *)
Definition v_dif (clrx : list Z) (start endd : Z) (fits : list bfit) (b : Z) : out R :=
  m <- mini_rmse fits b ;;
  '(cf, v, _) <- get fits b ;;
  r0 <- get v 0 ;; r1 <- get v (endd - start) ;; c1 <- get cf 1 ;;
  d0 <- get clrx start ;; d1 <- get clrx endd ;;
  let v_start := r0 / m in let v_end := r1 / m in
  let v_slope := c1 * IZR (d1 - d0) / m / slope_scale in
  Ok (Rabs v_slope + Rmax (Rabs v_start) (Rabs v_end)).
Fixpoint v_dif_norm (clrx : list Z) (start endd : Z) (fits : list bfit) (bs : list Z) (s : R) : out R :=
  match bs with
  | [] => Ok s
  | b :: t => z <- v_dif clrx start endd fits b ;; v_dif_norm clrx start endd fits t (s + z * z)
  end.
Definition stability (clrx : list Z) (start endd : Z) (fits : list bfit) : out R :=
  v_dif_norm clrx start endd fits blist 0.

(** The deviation of the observation at [k] (cold.c 3484-3530, 3943-3976;
    s_ccd.c 1161-1213): [num_c] coefficients predict. *)
Fixpoint deviate (num_c : Z) (clrx : list Z) (cols : list (list R)) (fits : list bfit) (k : Z) (bs : list Z) (v : list R) (s : R)
  : out (list R * R) :=
  match bs with
  | [] => Ok (v, s)
  | i_b :: t =>
      d <- get clrx k ;; '(cf, _, _) <- get fits i_b ;; p <- predict co si num_c cf d ;;
      col <- get cols i_b ;; y <- get col k ;;
      if existsb (Z.eqb i_b) blist then
        m <- mini_rmse fits i_b ;;
        let z := (y - p) / m in deviate num_c clrx cols fits k t (v ++ [z]) (s + z * z)
      else deviate num_c clrx cols fits k t v s
  end.
(** Bands 0 to 6 in COLD (TOTAL_IMAGE_BANDS), 0 to 5 in S-CCD. *)
Definition image_bands : list Z := if (width =? 8)%Z then [0; 1; 2; 3; 4; 5; 6]%Z else [0; 1; 2; 3; 4; 5]%Z.
Definition deviation num_c clrx cols fits k := deviate num_c clrx cols fits k image_bands [] 0.

(** The window of the look-back (i_conse = 1 .. ini_conse at i_ini - i_conse + 1)
    with its smallest magnitude (vec_magg_min). *)
Fixpoint back (n : nat) (num_c : Z) clrx cols fits (k : Z) (vs : list (list R)) (mags : list R) (mn : R) : out (list (list R) * list R * R) :=
  match n with
  | O => Ok (vs, mags, mn)
  | S m =>
      '(v, s) <- deviation num_c clrx cols fits k ;;
      back m num_c clrx cols fits (k - 1) (vs ++ [v]) (mags ++ [s]) (if Rlt_dec s mn then s else mn)
  end.
Inductive verdict := Break | Remove | Keep.
(** cold.c 3602-3628, s_ccd.c 1224-1250 *)
Definition look_back (tcg nsign tmax : R) (n : nat) num_c clrx cols fits (k : Z) : out verdict :=
  '(vs, mags, mn) <- back n num_c clrx cols fits k [] [] 9999 ;;
  first <- get mags 0 ;;
  Ok (if Rlt_dec tcg mn then if Rlt_dec (rmean vs) nsign then Break else if Rlt_dec tmax first then Remove else Keep
      else if Rlt_dec tmax first then Remove else Keep).

(** The look-back (cold.c 3434-3652, s_ccd.c 1135-1274), the rest of the
    function left out: observations [k], [k-1], ... as long as [n] are left
    before the previous break; a removed one is deleted from all arrays.
    Returns the arrays, the start of the segment and the number removed. *)
Definition del1 {A} (l : list A) (k : Z) : list A := firstn (Z.to_nat k) l ++ skipn (S (Z.to_nat k)) l.
Fixpoint look_loop (n : nat) (tcg nsign tmax : R) (conse : nat) (num_c : Z) (clrx : list Z) (cols : list (list R)) fits (k i_start gone : Z)
  : out (list Z * list (list R) * Z * Z) :=
  match n with
  | O => Ok (clrx, cols, i_start, gone)
  | S m =>
      v <- look_back tcg nsign tmax (Nat.min n conse) num_c clrx cols fits k ;;
      match v with
      | Break => Ok (clrx, cols, i_start, gone)
      | Remove => look_loop m tcg nsign tmax conse num_c (del1 clrx k) (map (fun c => del1 c k) cols) fits (k - 1) k (gone + 1)
      | Keep => look_loop m tcg nsign tmax conse num_c clrx cols fits (k - 1) k gone
      end
  end.
End Code.

(** ** What it computes *)
Section Spec.
Variables co si : Z -> Z -> R.
Variable df : Z.
Variable minr : nat -> R.
(** An observation: its date and its bands. *)
Definition ob : Type := Z * (nat -> R).
(** coefficients of the bands as the regression returned them *)
Variable sol : nat -> nat -> R.
(** the observations of the fit *)
Variable W : list ob.

Definition error (b : nat) (o : ob) : R := snd o b - linear co si df (sol b) (fst o).
Definition rms (b : nat) : R := sqrt (fold_right Rplus 0 (map (fun o => error b o * error b o) W) / IZR (zlen W - df)).
Definition unit_of (b : nat) : R := Rmax (minr b) (rms b).
(** deviation of an observation in bands 1 to 5 and its squared length *)
Definition devs (o : ob) : list R := map (fun b => error b o / unit_of b) (seq 1 5).
Definition mag (o : ob) : R := fold_right Rplus 0 (map (fun z => z * z) (devs o)).
(** The change over the window of the linear part of band [b] and the larger
    error at its two ends. *)
Definition unstable (b : nat) (o1 o2 : ob) : R :=
  (Rabs (sol b 1%nat * IZR (fst o2 - fst o1)) + Rmax (Rabs (error b o1)) (Rabs (error b o2))) / unit_of b.

(** Going back from a start: [l] the earlier observations, the latest first;
    [kept] those taken into the segment (the latest first), [left] those
    that stay before it. *)
Variables (tcg nsign tmax : R) (conse : nat).
Definition all_off (l : list ob) : Prop := (forall o, In o (firstn conse l) -> tcg < mag o) /\ rmean (map devs (firstn conse l)) < nsign.
Inductive goes_back : list ob -> list ob -> list ob -> Prop :=
| gb_end : goes_back [] [] []
| gb_break : forall o l, all_off (o :: l) -> goes_back (o :: l) [] (o :: l)
| gb_noise : forall o l kept left, ~ all_off (o :: l) -> tmax < mag o -> goes_back l kept left -> goes_back (o :: l) kept left
| gb_keep : forall o l kept left, ~ all_off (o :: l) -> mag o <= tmax -> goes_back l kept left -> goes_back (o :: l) (o :: kept) left.

(** Only one outcome is possible. *)
Theorem C115_unique : forall l k1 l1 k2 l2, goes_back l k1 l1 -> goes_back l k2 l2 -> k1 = k2 /\ l1 = l2.
Proof.
  intros l k1 l1 k2 l2 H. revert k2 l2.
  induction H as [|o l A|o l k1 l1 A M G IH|o l k1 l1 A M G IH]; intros k2 l2 H2; inversion H2; subst; try (exfalso; (tauto || lra)); try (split; reflexivity).
  - apply IH. assumption.
  - match goal with H : goes_back l _ _ |- _ => destruct (IH _ _ H) as [-> ->] end. split; reflexivity.
Qed.
End Spec.

(** ** Lemmas *)
Lemma combine_map2 : forall A B C (f : A -> B) (g : A -> C) l, combine (map f l) (map g l) = map (fun a => (f a, g a)) l.
Proof. induction l; cbn; congruence. Qed.
Lemma window_map : forall A B (f : A -> B) a b l, window a b (map f l) = map f (window a b l).
Proof. intros. unfold window. rewrite skipn_map, firstn_map. reflexivity. Qed.
Lemma zlen_map : forall A B (f : A -> B) l, zlen (map f l) = zlen l.
Proof. intros. unfold zlen. rewrite map_length. reflexivity. Qed.
Lemma Rmax_div : forall a b m, 0 < m -> Rmax (a / m) (b / m) = Rmax a b / m.
Proof.
  intros a b m Hm. assert (0 < / m) by now apply Rinv_0_lt_compat. unfold Rdiv, Rmax.
  destruct (Rle_dec a b), (Rle_dec (a * / m) (b * / m)); try reflexivity; exfalso; nra.
Qed.
Lemma Rabs_div : forall a m, 0 < m -> Rabs (a / m) = Rabs a / m.
Proof. intros a m Hm. unfold Rdiv. rewrite Rabs_mult, (Rabs_right (/ m)); [reflexivity|]. left. now apply Rinv_0_lt_compat. Qed.

Section Proofs.
Variables co si : Z -> Z -> R.
Variable lasso : Z -> Z -> list R -> list R -> option (nat -> R).
Variables (width df : Z) (junk : nat -> R) (minr : nat -> R) (nb : nat).
Hypothesis Hw : (width = 8%Z /\ nb = 7%nat) \/ (width = 6%Z /\ nb = 6%nat).
Hypothesis Hdf : known width df.
Hypothesis Hmin : forall b, (1 <= b <= 5)%nat -> 0 < minr b.
Variable os : list ob.
Variables (start endd : Z).
Hypothesis Hse : (0 <= start <= endd)%Z.
Hypothesis Hend : (endd < zlen os)%Z.
Hypothesis Hn : (df < endd - start + 1)%Z.
Variable sol : nat -> nat -> R.
Definition dates (l : list ob) : list Z := map fst l.
Definition column (l : list ob) (b : nat) : list R := map (fun o : ob => snd o b) l.
Definition columns (l : list ob) : list (list R) := map (column l) (seq 0 nb).
Hypothesis Hsol : forall b, (b < nb)%nat ->
  lasso (endd - start + 1)%Z (df - 1)%Z (regressors co si df (window start endd (dates os))) (window start endd (column os b)) = Some (sol b).
Notation W := (window start endd os).
Notation error := (error co si df sol).
Notation rms := (rms co si df sol W).
Notation unit_of := (unit_of co si df minr sol W).
Notation devs := (devs co si df minr sol W).
Notation mag := (mag co si df minr sol W).

(** what is known of the fit of band [b] *)
Definition good (f : bfit) (b : nat) : Prop :=
  let '(cf, v, e) := f in
  (forall d, predict co si df cf d = Ok (linear co si df (sol b) d)) /\ (2 <= zlen cf)%Z /\
  (df <> 5%Z -> nth 1 cf 0 = sol b 1%nat * slope_scale) /\
  window 0 (endd - start) v = map (error b) W /\ (endd - start + 1 <= zlen v)%Z /\ e = Some (rms b).

Lemma W_len : zlen W = (endd - start + 1)%Z.
Proof. unfold window, zlen in *. rewrite firstn_length, skipn_length. lia. Qed.

Lemma fit_good : forall b cf v, (b < nb)%nat -> (width <= zlen cf)%Z -> (endd - start + 1 <= zlen v)%Z ->
  exists f, fit_band co si lasso width junk (dates os) (column os b) start endd df cf v = Ok f /\ good f b.
Proof.
  intros b cf v Hb Hc Hv.
  assert (Lx : zlen (dates os) = zlen os) by (unfold zlen, dates; now rewrite map_length).
  assert (Ly : zlen (column os b) = zlen os) by (unfold zlen, column; now rewrite map_length).
  pose proof (@C91_fit co si lasso width df junk (dates os) (column os b) start endd cf v Hdf Hse ltac:(lia) ltac:(lia) Hc Hv) as F.
  rewrite Hsol in F by exact Hb. destruct F as (cf' & v' & e & E & P & S & _ & _ & Lc & V & _ & Lv & Hnone & Hr).
  exists (cf', v', e). split; [exact E|]. split; [exact P|]. split; [unfold zlen in *; unfold known in Hdf; lia|].
  assert (V' : window 0 (endd - start) v' = map (error b) W).
  { rewrite V. unfold dates, column. rewrite !window_map, combine_map2, map_map. reflexivity. }
  split; [|split; [exact V'|split; [unfold zlen in *; lia|]]].
  - intros H5. rewrite S by (unfold known in Hdf; lia). unfold scaled. replace (df =? 5)%Z with false by (symmetry; now apply Z.eqb_neq). reflexivity.
  - destruct e as [r|]; [|exfalso; assert (endd - start + 1 <= df)%Z by (apply Hnone; reflexivity); lia].
    f_equal. destruct (Hr r eq_refl) as [H0 H1]. unfold StartTest.rms. rewrite W_len.
    rewrite V' in H1. rewrite map_map in H1. rewrite <- H1.
    assert (Hp : 0 < IZR (endd - start + 1 - df)) by (apply IZR_lt; lia).
    replace (r * r * IZR (endd - start + 1 - df) / IZR (endd - start + 1 - df)) with (r * r) by (field; lra).
    now rewrite sqrt_square.
Qed.

Lemma fit_all_good : forall m b bufs, (b + m <= nb)%nat -> length bufs = m ->
  Forall (fun p => (width <= zlen (fst p))%Z /\ (endd - start + 1 <= zlen (snd p))%Z) bufs ->
  exists fits, fit_all co si lasso width junk (dates os) start endd df (map (column os) (seq b m)) bufs = Ok fits /\
    length fits = m /\ forall k f, nth_error fits k = Some f -> good f (b + k).
Proof.
  induction m as [|m IH]; intros b bufs Hb Hl Hf.
  - exists []. cbn. repeat split. intros [|k] f H; discriminate.
  - destruct bufs as [|(cf, v) bt]; [discriminate|]. cbn [length] in Hl. inversion Hf as [|? ? [H1 H2] H3]; subst. cbn [fst snd] in *.
    cbn [seq map fit_all]. destruct (@fit_good b cf v ltac:(lia) H1 H2) as (f & E & G). rewrite E. cbn [bind].
    destruct (IH (S b) bt ltac:(lia) ltac:(lia) H3) as (fits & E' & L & G'). rewrite E'. cbn [bind].
    exists (f :: fits). split; [reflexivity|]. split; [cbn; lia|]. intros [|k] g Hg; cbn [nth_error] in Hg.
    + injection Hg as <-. now rewrite Nat.add_0_r.
    + replace (b + S k)%nat with (S b + k)%nat by lia. now apply G'.
Qed.

Section Fitted.
Variables (bufs : list (list R * list R)) (fits : list bfit).
Hypothesis Lbufs : length bufs = nb.
Hypothesis Hbufs : Forall (fun p => (width <= zlen (fst p))%Z /\ (endd - start + 1 <= zlen (snd p))%Z) bufs.
Hypothesis Hfit : fit_all co si lasso width junk (dates os) start endd df (columns os) bufs = Ok fits.
Lemma Lf : length fits = nb.
Proof.
  destruct (@fit_all_good nb 0 bufs (le_n _) Lbufs Hbufs) as (f & E & L & _). unfold columns in Hfit. congruence.
Qed.
Lemma Gf : forall k f, nth_error fits k = Some f -> good f k.
Proof.
  destruct (@fit_all_good nb 0 bufs (le_n _) Lbufs Hbufs) as (f & E & _ & G). unfold columns in Hfit.
  assert (f = fits) by congruence. subst f. exact G.
Qed.

Lemma get_fit : forall b, (b < nb)%nat -> exists f, get fits (Z.of_nat b) = Ok f /\ good f b.
Proof.
  intros b Hb. destruct (nth_error fits b) as [f|] eqn:E; [|apply nth_error_None in E; pose proof Lf; lia].
  pose proof Lf. exists f. split; [|now apply Gf]. rewrite (@get_ok _ fits (Z.of_nat b) f) by (unfold zlen; lia).
  rewrite Nat2Z.id. f_equal. now apply nth_error_nth.
Qed.
Lemma unit_pos : forall b, (1 <= b <= 5)%nat -> 0 < unit_of b.
Proof. intros b Hb. unfold StartTest.unit_of. pose proof (Rmax_l (minr b) (rms b)). pose proof (Hmin Hb). lra. Qed.
Lemma mini_ok : forall b, (b < nb)%nat -> mini_rmse minr fits (Z.of_nat b) = Ok (unit_of b).
Proof.
  intros b Hb. unfold mini_rmse. destruct (get_fit Hb) as (((cf, v), e) & E & _ & _ & _ & _ & _ & He). rewrite E. cbn [bind].
  rewrite He. cbn [of_opt bind]. rewrite Nat2Z.id. reflexivity.
Qed.
Definition at_ (l : list ob) (k : Z) : ob := nth (Z.to_nat k) l (0%Z, fun _ => 0).
Lemma get_dates : forall l k, (0 <= k < zlen l)%Z -> get (dates l) k = Ok (fst (at_ l k)).
Proof.
  intros l k Hk. rewrite (@get_ok _ (dates l) k (fst (0%Z, fun _ : nat => 0))) by (unfold dates; rewrite zlen_map; exact Hk).
  unfold dates, at_. now rewrite map_nth.
Qed.
Lemma get_column : forall l b k, (b < nb)%nat -> (0 <= k < zlen l)%Z ->
  (col <- get (columns l) (Z.of_nat b) ;; get col k) = Ok (snd (at_ l k) b).
Proof.
  intros l b k Hb Hk. unfold columns. rewrite (@get_ok _ _ (Z.of_nat b) (column l O)) by (rewrite zlen_map; unfold zlen; rewrite seq_length; lia).
  cbn [bind]. rewrite Nat2Z.id, map_nth, seq_nth by exact Hb. cbn [Nat.add].
  rewrite (@get_ok _ (column l b) k ((fun o : ob => snd o b) (0%Z, fun _ => 0))) by (unfold column; rewrite zlen_map; exact Hk).
  unfold column, at_. now rewrite (map_nth (fun o : ob => snd o b)).
Qed.
Lemma get_resid : forall b v k, window 0 (endd - start) v = map (error b) W -> (endd - start + 1 <= zlen v)%Z -> (0 <= k <= endd - start)%Z ->
  get v k = Ok (error b (at_ os (start + k))).
Proof.
  intros b v k E Hv Hk. rewrite (@get_ok _ v k 0) by lia. f_equal.
  assert (L : length W = Z.to_nat (endd - start + 1)) by (pose proof W_len; unfold zlen in *; lia).
  pose proof (f_equal (fun l => nth (Z.to_nat k) l (error b (0%Z, fun _ => 0))) E) as N. cbv beta in N. rewrite map_nth in N.
  rewrite (nth_indep _ _ 0) in N by (unfold window; rewrite firstn_length, skipn_length; unfold zlen in Hv; lia).
  rewrite (@window_nth co si lasso R 0 (endd - start) v (Z.to_nat k) 0) in N by lia.
  replace (Z.to_nat (Z.of_nat (Z.to_nat k) + 0)) with (Z.to_nat k) in N by lia. rewrite N. f_equal. unfold at_.
  rewrite (@window_nth co si lasso ob start endd os (Z.to_nat k)) by lia. f_equal. lia.
Qed.

Lemma v_dif_ok : forall b, df <> 5%Z -> (1 <= b <= 5)%nat ->
  v_dif minr (dates os) start endd fits (Z.of_nat b) = Ok (unstable co si df minr sol W b (at_ os start) (at_ os endd)).
Proof.
  intros b H5 Hb. assert (Hb' : (b < nb)%nat) by lia. pose proof (unit_pos Hb) as Hu.
  unfold v_dif. rewrite mini_ok by exact Hb'. cbn [bind].
  destruct (get_fit Hb') as (((cf, v), e) & E & _ & Lc & C & V & Lv & _). rewrite E. cbn [bind].
  rewrite (@get_resid b v 0 V Lv) by lia. rewrite (@get_resid b v (endd - start) V Lv) by lia.
  rewrite (@get_ok _ cf 1 0) by lia. change (Z.to_nat 1) with 1%nat. rewrite C by exact H5. cbn [bind].
  rewrite !get_dates by lia. cbn [bind]. f_equal.
  replace (start + 0)%Z with start by lia. replace (start + (endd - start))%Z with endd by lia.
  unfold unstable.
  replace (sol b 1%nat * slope_scale * IZR (fst (at_ os endd) - fst (at_ os start)) / unit_of b / slope_scale)
    with (sol b 1%nat * IZR (fst (at_ os endd) - fst (at_ os start)) / unit_of b) by (unfold slope_scale; field; lra).
  rewrite !Rabs_div, Rmax_div by exact Hu. field. lra.
Qed.

(** The statistic compared with tcg before a segment starts. *)
Theorem C115_stability : df <> 5%Z ->
  stability minr (dates os) start endd fits =
  Ok (fold_right Rplus 0 (map (fun b => unstable co si df minr sol W b (at_ os start) (at_ os endd) ^ 2) (seq 1 5))).
Proof.
  intros H5. unfold stability, blist. cbn [v_dif_norm].
  change 1%Z with (Z.of_nat 1). change 2%Z with (Z.of_nat 2). change 3%Z with (Z.of_nat 3). change 4%Z with (Z.of_nat 4). change 5%Z with (Z.of_nat 5).
  rewrite v_dif_ok by (try exact H5; lia). cbn [bind]. rewrite v_dif_ok by (try exact H5; lia). cbn [bind].
  rewrite v_dif_ok by (try exact H5; lia). cbn [bind]. rewrite v_dif_ok by (try exact H5; lia). cbn [bind].
  rewrite v_dif_ok by (try exact H5; lia). cbn [bind]. f_equal. cbn [seq map fold_right]. ring.
Qed.

Lemma deviate_one : forall l k b, (b < nb)%nat -> (0 <= k < zlen l)%Z -> forall X (F : R -> R -> out X),
  (d <- get (dates l) k ;; '(cf, _, _) <- get fits (Z.of_nat b) ;; p <- predict co si df cf d ;;
   col <- get (columns l) (Z.of_nat b) ;; y <- get col k ;; F y p) = F (snd (at_ l k) b) (linear co si df (sol b) (fst (at_ l k))).
Proof.
  intros l k b Hb Hk X F. rewrite get_dates by exact Hk. cbn [bind].
  destruct (get_fit Hb) as (((cf, v), e) & E & P & _). rewrite E. cbn [bind]. rewrite P. cbn [bind].
  pose proof (@get_column l b k Hb Hk) as G. destruct (get (columns l) (Z.of_nat b)) as [col| | |]; cbn [bind] in *; try discriminate.
  rewrite G. reflexivity.
Qed.

(** Deviation of any observation from the fit. *)
Theorem C115_deviation : forall l k, (0 <= k < zlen l)%Z ->
  deviation co si width minr df (dates l) (columns l) fits k = Ok (devs (at_ l k), mag (at_ l k)).
Proof.
  intros l k Hk. unfold deviation.
  assert (S : forall b bs v s, (b < nb)%nat -> deviate co si minr df (dates l) (columns l) fits k (Z.of_nat b :: bs) v s =
    (if existsb (Z.eqb (Z.of_nat b)) blist
     then deviate co si minr df (dates l) (columns l) fits k bs (v ++ [error b (at_ l k) / unit_of b]) (s + error b (at_ l k) / unit_of b * (error b (at_ l k) / unit_of b))
     else deviate co si minr df (dates l) (columns l) fits k bs v s)).
  { intros b bs v s Hb.
    etransitivity; [exact (@deviate_one l k b Hb Hk _ (fun y p => if existsb (Z.eqb (Z.of_nat b)) blist then
      m <- mini_rmse minr fits (Z.of_nat b) ;; let z := (y - p) / m in deviate co si minr df (dates l) (columns l) fits k bs (v ++ [z]) (s + z * z)
      else deviate co si minr df (dates l) (columns l) fits k bs v s))|].
    cbv beta. rewrite mini_ok by exact Hb. reflexivity. }
  assert (E : forall tl, tl = [] \/ (nb = 7%nat /\ tl = [Z.of_nat 6]) ->
    deviate co si minr df (dates l) (columns l) fits k ([Z.of_nat 0; Z.of_nat 1; Z.of_nat 2; Z.of_nat 3; Z.of_nat 4; Z.of_nat 5] ++ tl) [] 0 =
    Ok (devs (at_ l k), mag (at_ l k))).
  { intros tl Ht. cbn [app].
    assert (D : devs (at_ l k) = [error 1 (at_ l k) / unit_of 1; error 2 (at_ l k) / unit_of 2; error 3 (at_ l k) / unit_of 3; error 4 (at_ l k) / unit_of 4; error 5 (at_ l k) / unit_of 5]) by reflexivity.
    unfold StartTest.mag. rewrite D.
    assert (T : forall b, (1 <= b <= 5)%nat -> existsb (Z.eqb (Z.of_nat b)) blist = true).
    { intros b Hb. cbn [existsb blist]. destruct (Z.eqb_spec (Z.of_nat b) 1), (Z.eqb_spec (Z.of_nat b) 2), (Z.eqb_spec (Z.of_nat b) 3), (Z.eqb_spec (Z.of_nat b) 4), (Z.eqb_spec (Z.of_nat b) 5); try reflexivity; lia. }
    rewrite S by lia. change (existsb (Z.eqb (Z.of_nat 0)) blist) with false. cbv iota.
    do 5 (rewrite S by lia; rewrite T by lia; cbv iota).
    destruct Ht as [->|[Hnb ->]].
    - cbn [deviate app map fold_right]. f_equal. f_equal. ring.
    - rewrite S by lia. change (existsb (Z.eqb (Z.of_nat 6)) blist) with false. cbn [deviate app map fold_right]. f_equal. f_equal. ring. }
  unfold image_bands. destruct Hw as [[-> Hb]|[-> Hb]]; cbn [Z.eqb Pos.eqb].
  - apply (E [Z.of_nat 6]). now right.
  - apply (E []). now left.
Qed.

Variables (tcg nsign tmax : R).
Hypothesis Htcg : tcg < 9999.

(** The observations [k], [k-1], ... of [l], [n] of them. *)
Definition backwards (l : list ob) (n : nat) (k : Z) : list ob := map (fun j => at_ l (k - Z.of_nat j)) (seq 0 n).
Lemma backwards_S : forall l n k, backwards l (S n) k = at_ l k :: backwards l n (k - 1).
Proof.
  intros l n k. unfold backwards. cbn [seq map]. f_equal; [f_equal; lia|]. rewrite <- seq_shift, map_map. apply map_ext. intros j. f_equal. lia.
Qed.
Lemma back_ok : forall n l k vs mags mn, (k < zlen l)%Z -> (Z.of_nat n <= k + 1)%Z ->
  exists mn', back co si width minr n df (dates l) (columns l) fits k vs mags mn =
    Ok (vs ++ map devs (backwards l n k), mags ++ map mag (backwards l n k), mn') /\
    (tcg < mn' <-> tcg < mn /\ forall o, In o (backwards l n k) -> tcg < mag o).
Proof.
  induction n as [|n IH]; intros l k vs mags mn Hk Hn'.
  - exists mn. cbn [back backwards seq map]. rewrite !app_nil_r. split; [reflexivity|]. split; [|tauto]. intros H. split; [exact H|intros o []].
  - cbn [back]. rewrite C115_deviation by lia. cbn [bind].
    destruct (IH l (k - 1)%Z (vs ++ [devs (at_ l k)]) (mags ++ [mag (at_ l k)]) (if Rlt_dec (mag (at_ l k)) mn then mag (at_ l k) else mn) ltac:(lia) ltac:(lia)) as (mn' & E & M).
    exists mn'. rewrite E, backwards_S. cbn [map]. rewrite <- !app_assoc. split; [reflexivity|]. rewrite M. cbn [In].
    destruct (Rlt_dec (mag (at_ l k)) mn); (split; [intros [A B]; split; [lra|intros o [<-|Ho]; [lra|auto]]|intros [A B]; split; [|auto]; try exact A; apply B; now left]).
Qed.

(** A break when every deviation of the window exceeds tcg and their mean
    angle is below the limit; otherwise the first one is removed if it exceeds
    the maximum. *)
Theorem C115_verdict : forall n l k, (1 <= n)%nat -> (k < zlen l)%Z -> (Z.of_nat n <= k + 1)%Z ->
  let w := backwards l n k in let off := (forall o, In o w -> tcg < mag o) /\ rmean (map devs w) < nsign in
  exists v, look_back co si width minr tcg nsign tmax n df (dates l) (columns l) fits k = Ok v /\
    (v = Break <-> off) /\ (v = Remove <-> ~ off /\ tmax < mag (at_ l k)) /\ (v = Keep <-> ~ off /\ mag (at_ l k) <= tmax).
Proof.
  intros n l k H1 Hk Hn' w off. unfold look_back.
  destruct (@back_ok n l k [] [] 9999 Hk Hn') as (mn & E & M). rewrite E. cbn [bind app].
  destruct n as [|n]; [lia|]. rewrite backwards_S. cbn [map]. unfold get. cbn [Z.ltb Z.compare Z.leb]. 
  assert (G : get (mag (at_ l k) :: map mag (backwards l n (k - 1))) 0 = Ok (mag (at_ l k))) by (rewrite (@get_ok _ _ 0%Z 0); [reflexivity|unfold zlen; cbn [length]; lia]).
  unfold get in G. cbn [Z.ltb Z.compare Z.leb] in G. rewrite G. cbn [bind].
  eexists. split; [reflexivity|].
  assert (Mw : tcg < mn <-> forall o, In o w -> tcg < mag o) by (rewrite M; unfold w; tauto).
  replace (devs (at_ l k) :: map devs (backwards l n (k - 1))) with (map devs w) by (unfold w; now rewrite backwards_S).
  clear E M G. unfold off. clear off.
  destruct (Rlt_dec tcg mn) as [A|A]; [destruct (Rlt_dec (rmean (map devs w)) nsign) as [B|B]; [|destruct (Rlt_dec tmax (mag (at_ l k))) as [C|C]]|destruct (Rlt_dec tmax (mag (at_ l k))) as [C|C]];
    rewrite Mw in A; (split; [|split]); (split; [intros X; try discriminate X|intros X; try reflexivity]);
    try (exfalso; destruct X as []; (tauto || lra)); try (split; [tauto|lra]); try tauto.
Qed.

Lemma del1_map : forall A B (f : A -> B) l k, del1 (map f l) k = map f (del1 l k).
Proof. intros. unfold del1. rewrite firstn_map, skipn_map, map_app. reflexivity. Qed.
Lemma columns_del : forall l k, map (fun c => del1 c k) (columns l) = columns (del1 l k).
Proof. intros l k. unfold columns. rewrite map_map. apply map_ext. intros b. unfold column. apply del1_map. Qed.
Lemma backwards_rev : forall p n rest, n = length p -> backwards (p ++ rest) n (Z.of_nat n - 1) = rev p.
Proof.
  intros p. induction p as [|a p IH] using rev_ind; intros n rest ->; [reflexivity|].
  rewrite app_length, Nat.add_1_r, backwards_S, rev_app_distr. cbn [rev app].
  f_equal.
  - unfold at_. replace (Z.to_nat (Z.of_nat (S (length p)) - 1)) with (length p) by lia. rewrite <- app_assoc, app_nth2, Nat.sub_diag by lia. reflexivity.
  - replace (Z.of_nat (S (length p)) - 1 - 1)%Z with (Z.of_nat (length p) - 1)%Z by lia. rewrite <- app_assoc. now apply IH.
Qed.
Lemma backwards_firstn : forall l n m k, (m <= n)%nat -> backwards l m k = firstn m (backwards l n k).
Proof.
  intros l n m k H. unfold backwards. rewrite firstn_map. f_equal. clear - H. revert n H. generalize 0%nat. induction m as [|m IH]; intros s n H; [reflexivity|].
  destruct n as [|n]; [lia|]. cbn [seq firstn]. f_equal. apply IH. lia.
Qed.

(** The whole look-back over the observations [p] between the previous break
    ([q] before it) and the start of the segment [r]: those it keeps become the
    segment's beginning, those it removes disappear, those before the first
    break found stay. *)
Theorem C115_look_back : forall conse, (1 <= conse)%nat -> forall q p r gone,
  exists kept left, goes_back co si df minr sol W tcg nsign tmax conse (rev p) kept left /\
    look_loop co si width minr (length p) tcg nsign tmax conse df (dates (q ++ p ++ r)) (columns (q ++ p ++ r)) fits
      (zlen q + zlen p - 1)%Z (zlen q + zlen p)%Z gone =
    Ok (dates (q ++ rev left ++ rev kept ++ r), columns (q ++ rev left ++ rev kept ++ r), (zlen q + zlen left)%Z,
        (gone + zlen p - zlen kept - zlen left)%Z).
Proof.
  intros conse Hc q p. induction p as [|o p IH] using rev_ind; intros r gone.
  - exists [], []. split; [constructor|]. cbn [length look_loop rev app]. unfold zlen. cbn [length]. f_equal. apply f_equal2; [apply f_equal2; [reflexivity|lia]|lia].
  - rewrite app_length, Nat.add_1_r. cbn [look_loop]. set (k := (zlen q + zlen (p ++ [o]) - 1)%Z).
    assert (Zp : zlen (p ++ [o]) = (zlen p + 1)%Z) by (unfold zlen; rewrite app_length; cbn [length]; lia).
    assert (Kk : k = (zlen q + zlen p)%Z) by (unfold k; lia).
    assert (La : at_ (q ++ (p ++ [o]) ++ r) k = o).
    { unfold at_. rewrite Kk. replace (Z.to_nat (zlen q + zlen p)) with (length q + length p)%nat by (unfold zlen; lia).
      rewrite <- app_assoc, app_assoc, app_nth2 by (rewrite app_length; lia). rewrite app_length, Nat.sub_diag. reflexivity. }
    assert (Bk : backwards (q ++ (p ++ [o]) ++ r) (Nat.min (S (length p)) conse) k = firstn conse (rev (p ++ [o]))).
    { pose proof (@backwards_rev (q ++ p ++ [o]) (length (q ++ p ++ [o])) r eq_refl) as B.
      replace (Z.of_nat (length (q ++ p ++ [o])) - 1)%Z with k in B by (rewrite Kk; unfold zlen; rewrite !app_length; cbn [length]; lia).
      replace (q ++ (p ++ [o]) ++ r) with ((q ++ p ++ [o]) ++ r) by now rewrite <- !app_assoc.
      rewrite (@backwards_firstn _ (length (q ++ p ++ [o]))) by (rewrite !app_length; cbn [length]; lia). rewrite B, rev_app_distr.
      rewrite firstn_app. rewrite rev_length, app_length. cbn [length].
      replace (Nat.min (S (length p)) conse - (length p + 1))%nat with 0%nat by lia. cbn [firstn]. rewrite app_nil_r.
      replace (S (length p)) with (length (rev (p ++ [o]))) by (rewrite rev_length, app_length; cbn [length]; lia).
      clear. generalize (rev (p ++ [o])). intros l. revert conse. induction l as [|a l IHl]; intros [|c]; cbn [length firstn Nat.min]; try reflexivity. now rewrite IHl. }
    destruct (@C115_verdict (Nat.min (S (length p)) conse) (q ++ (p ++ [o]) ++ r) k ltac:(lia)) as (v & E & VB & VR & VK).
    { unfold k, zlen. rewrite !app_length. cbn [length]. lia. }
    { rewrite Kk. unfold zlen. lia. }
    rewrite E. cbn [bind]. rewrite Bk in VB, VR, VK. rewrite La in VR, VK.
    rewrite rev_app_distr in VB, VR, VK. cbn [rev app] in VB, VR, VK.
    assert (Off : all_off co si df minr sol W tcg nsign conse (o :: rev p) <-> ((forall x, In x (firstn conse (o :: rev p)) -> tcg < mag x) /\ rmean (map devs (firstn conse (o :: rev p))) < nsign)) by (unfold all_off; tauto).
    destruct v.
    + exists [], (o :: rev p). rewrite rev_app_distr. cbn [rev app]. split; [apply gb_break, Off, VB; reflexivity|].
      rewrite rev_involutive. f_equal. rewrite Zp.
      apply f_equal2; [apply f_equal2; [reflexivity|]|]; unfold zlen; cbn [length]; rewrite ?rev_length; lia.
    + destruct (proj1 VR eq_refl) as [V1 V2].
      assert (Dl : del1 (q ++ (p ++ [o]) ++ r) k = q ++ p ++ r).
      { unfold del1. rewrite Kk. replace (Z.to_nat (zlen q + zlen p)) with (length (q ++ p)) by (rewrite app_length; unfold zlen; lia).
        replace (q ++ (p ++ [o]) ++ r) with ((q ++ p) ++ o :: r) by (rewrite <- !app_assoc; reflexivity).
        rewrite firstn_app, Nat.sub_diag, firstn_all. cbn [firstn]. rewrite app_nil_r.
        rewrite skipn_app. rewrite skipn_all2 by lia. replace (S (length (q ++ p)) - length (q ++ p))%nat with 1%nat by lia. cbn [skipn app]. now rewrite <- app_assoc. }
      assert (Dd : del1 (dates (q ++ (p ++ [o]) ++ r)) k = dates (q ++ p ++ r)) by (rewrite <- Dl; apply del1_map).
      rewrite Dd, columns_del, Dl.
      destruct (IH r (gone + 1)%Z) as (kept & left & G & L). exists kept, left. split.
      * rewrite rev_app_distr. cbn [rev app]. apply gb_noise; [now rewrite Off|exact V2|exact G].
      * replace (k - 1)%Z with (zlen q + zlen p - 1)%Z by lia. rewrite Kk. rewrite L. f_equal. apply f_equal2; [reflexivity|lia].
    + destruct (proj1 VK eq_refl) as [V1 V2].
      destruct (IH (o :: r) gone) as (kept & left & G & L). exists (o :: kept), left. split.
      * rewrite rev_app_distr. cbn [rev app]. apply gb_keep; [now rewrite Off|exact V2|exact G].
      * replace (q ++ (p ++ [o]) ++ r) with (q ++ p ++ o :: r) by (rewrite <- !app_assoc; reflexivity).
        replace (k - 1)%Z with (zlen q + zlen p - 1)%Z by lia. rewrite Kk. rewrite L. cbn [rev]. rewrite <- !app_assoc. cbn [app].
        f_equal. apply f_equal2; [reflexivity|]. unfold zlen in *. cbn [length]. lia.
Qed.
End Fitted.
End Proofs.

(** ** Cases *)
(** Six bands and a regression that answers 10 + 2 x in every band (x the
    date, no season); a fit to five observations with errors 0, 3, 0, -4, 0:
    df = 2, rms 5/sqrt 3 below the minimum 5. *)
Definition nil2 (_ _ : Z) : R := 0.
Definition sol_ex (_ j : nat) : R := nth j [10; 2] 0.
Definition flat (d e : Z) : ob := (d, fun _ => IZR (10 + 2 * d + e)).
Definition os_ex : list ob := [flat 1 0; flat 2 40; flat 3 60; flat 10 0; flat 11 3; flat 12 0; flat 13 (-4); flat 14 0].
Definition W_ex : list ob := window 3 7 os_ex.
Lemma error_ex : forall b d e, error nil2 nil2 2 sol_ex b (flat d e) = IZR e.
Proof.
  intros b d e. unfold error, linear. change (Z.to_nat (2 - 1)) with 1%nat. cbn [seq map fold_right].
  change (terms' nil2 nil2 2 (fst (flat d e))) with [IZR d]. change (snd (flat d e) b) with (IZR (10 + 2 * d + e)).
  unfold sol_ex. cbn [nth]. rewrite !plus_IZR, mult_IZR. ring.
Qed.
Lemma unit_ex : forall b, unit_of nil2 nil2 2 (fun _ => 5) sol_ex W_ex b = 5.
Proof.
  intros b. unfold unit_of, rms, W_ex, window, os_ex. 
  change (Z.to_nat 3) with 3%nat. change (Z.to_nat (7 - 3 + 1)) with 5%nat. cbn [firstn skipn map fold_right]. rewrite !error_ex.
  change (IZR (zlen [flat 10 0; flat 11 3; flat 12 0; flat 13 (-4); flat 14 0] - 2)) with 3.
  apply Rmax_left. rewrite <- (sqrt_square 5) by lra. apply sqrt_le_1_alt. lra.
Qed.
Lemma devs_ex : forall d e, devs nil2 nil2 2 (fun _ => 5) sol_ex W_ex (flat d e) = [IZR e / 5; IZR e / 5; IZR e / 5; IZR e / 5; IZR e / 5].
Proof. intros d e. unfold devs. cbn [seq map]. rewrite !error_ex, !unit_ex. reflexivity. Qed.
Lemma mag_ex : forall d e, mag nil2 nil2 2 (fun _ => 5) sol_ex W_ex (flat d e) = IZR (e * e) / 5.
Proof. intros d e. unfold mag. rewrite devs_ex. cbn [map fold_right]. rewrite mult_IZR. field. Qed.

Definition lasso_ex (n k : Z) (x y : list R) : option (nat -> R) := Some (sol_ex 0).
Definition bufs_ex : list (list R * list R) := repeat (repeat 9 6, repeat 9 9) 6.
(** The statistic is that of the slope: (2 * 4 / 5) squared, five times. *)
Example C115_stability_case : exists fits,
  fit_all nil2 nil2 lasso_ex 6 (fun _ => 7) (dates os_ex) 3 7 2 (columns 6 os_ex) bufs_ex = Ok fits /\
  stability (fun _ => 5) (dates os_ex) 3 7 fits = Ok (64 / 5) /\
  (* 60 off: a break at once, nothing is taken in *)
  (exists v, look_back nil2 nil2 6 (fun _ => 5) 15 45 30 2 2 (dates os_ex) (columns 6 os_ex) fits 2 = Ok v /\ v = Break) /\
  (* with a window of three the first observation prevents it: both are removed, the first kept *)
  look_loop nil2 nil2 6 (fun _ => 5) 3 15 45 30 3 2 (dates os_ex) (columns 6 os_ex) fits 2 3 0 =
    Ok (dates (flat 1 0 :: skipn 3 os_ex), columns 6 (flat 1 0 :: skipn 3 os_ex), 0%Z, 2%Z).
Proof.
  assert (K : known 6 2) by (right; lia).
  assert (S : forall b, (b < 6)%nat -> lasso_ex (7 - 3 + 1) (2 - 1) (regressors nil2 nil2 2 (window 3 7 (dates os_ex))) (window 3 7 (column os_ex b)) = Some (sol_ex b)) by reflexivity.
  assert (Hm : forall b, (1 <= b <= 5)%nat -> 0 < (fun _ : nat => 5) b) by (intros; lra).
  assert (H6 : (6%Z = 8%Z /\ 6%nat = 7%nat) \/ (6%Z = 6%Z /\ 6%nat = 6%nat)) by now right.
  assert (Lo : (7 < zlen os_ex)%Z) by (unfold zlen; cbn; lia).
  assert (Hb : Forall (fun p => (6 <= zlen (fst p))%Z /\ (7 - 3 + 1 <= zlen (snd p))%Z) bufs_ex) by (unfold bufs_ex; repeat constructor; unfold zlen; cbn; lia).
  destruct (@fit_all_good nil2 nil2 lasso_ex 6 2 (fun _ => 7) (fun _ => 5) 6 H6 K Hm os_ex 3 7 ltac:(lia) Lo ltac:(lia) sol_ex S 6 0 bufs_ex)
    as (fits & E & _ & _); [lia|reflexivity|exact Hb|].
  exists fits. split; [exact E|]. split; [|split].
  - rewrite (@C115_stability nil2 nil2 lasso_ex 6 2 (fun _ => 7) (fun _ => 5) 6 H6 K Hm os_ex 3 7 ltac:(lia) Lo ltac:(lia) sol_ex S bufs_ex fits eq_refl Hb E ltac:(lia)).
    f_equal. unfold unstable. cbn [seq map fold_right]. change (window 3 7 os_ex) with W_ex. rewrite !unit_ex.
    change (at_ os_ex 3) with (flat 10 0). change (at_ os_ex 7) with (flat 14 0). rewrite !error_ex.
    change (sol_ex 1 1) with 2. change (sol_ex 2 1) with 2. change (sol_ex 3 1) with 2. change (sol_ex 4 1) with 2. change (sol_ex 5 1) with 2.
    change (fst (flat 14 0) - fst (flat 10 0))%Z with 4%Z.
    rewrite Rabs_R0, Rmax_left by lra. rewrite Rabs_right by lra. lra.
  - destruct (@C115_verdict nil2 nil2 lasso_ex 6 2 (fun _ => 7) (fun _ => 5) 6 H6 K Hm os_ex 3 7 ltac:(lia) Lo ltac:(lia) sol_ex S bufs_ex fits eq_refl Hb E 15 45 30 ltac:(lra)
      2 os_ex 2 ltac:(lia) ltac:(lia) ltac:(lia)) as (v & Ev & VB & _).
    exists v. split; [exact Ev|]. apply VB. change (backwards os_ex 2 2) with [flat 3 60; flat 2 40]. change (window 3 7 os_ex) with W_ex. split.
    + intros o [<-|[<-|[]]]; rewrite mag_ex; cbn; lra.
    + cbn [map]. rewrite !devs_ex.
      pose proof (C47_exact [1; 1; 1; 1; 1] [60 / 5; 40 / 5]) as A. cbn [map stretch] in A. rewrite !Rmult_1_r in A. rewrite A; [lra|unfold rdot; cbn; lra|].
      repeat constructor; lra.
  - destruct (@C115_look_back nil2 nil2 lasso_ex 6 2 (fun _ => 7) (fun _ => 5) 6 H6 K Hm os_ex 3 7 ltac:(lia) Lo ltac:(lia) sol_ex S bufs_ex fits eq_refl Hb E 15 45 30 ltac:(lra)
      3%nat ltac:(lia) [] (firstn 3 os_ex) (skipn 3 os_ex) 0%Z) as (kept & left & B & R).
    cbn [app] in R. rewrite firstn_skipn in R. cbn [length firstn os_ex] in R. change (zlen [] + zlen [flat 1 0; flat 2 40; flat 3 60] - 1)%Z with 2%Z in R.
    change (zlen [] + zlen [flat 1 0; flat 2 40; flat 3 60])%Z with 3%Z in R. fold os_ex in R. rewrite R. clear R.
    change (rev (firstn 3 os_ex)) with [flat 3 60; flat 2 40; flat 1 0] in B. change (window 3 7 os_ex) with W_ex in B.
    assert (N : forall l, In (flat 1 0) (firstn 3 l) -> ~ all_off nil2 nil2 2 (fun _ => 5) sol_ex W_ex 15 45 3 l).
    { intros l Hl [A _]. specialize (A _ Hl). rewrite mag_ex in A. cbn in A. lra. }
    assert (M : mag nil2 nil2 2 (fun _ => 5) sol_ex W_ex (flat 1 0) = 0) by (rewrite mag_ex; cbn; lra).
    assert (M2 : 30 < mag nil2 nil2 2 (fun _ => 5) sol_ex W_ex (flat 2 40)) by (rewrite mag_ex; cbn; lra).
    assert (M3 : 30 < mag nil2 nil2 2 (fun _ => 5) sol_ex W_ex (flat 3 60)) by (rewrite mag_ex; cbn; lra).
    inversion B as [|? ? X|? ? ? ? X1 X2 B1|? ? ? ? X1 X2 B1]; subst; [exfalso; refine (N _ _ X); cbn [firstn In]; tauto| |exfalso; lra]. clear B.
    inversion B1 as [|? ? X|? ? ? ? Y1 Y2 B2|? ? ? ? Y1 Y2 B2]; subst; [exfalso; refine (N _ _ X); cbn [firstn In]; tauto| |exfalso; lra]. clear B1.
    inversion B2 as [|? ? X|? ? ? ? Y3 Y4 B3|? ? ? ? Y3 Y4 B3]; subst; [exfalso; refine (N _ _ X); cbn [firstn In]; tauto|exfalso; lra|]. clear B2.
    inversion B3; subst. reflexivity.
Qed.

Print Assumptions C115_stability.
Print Assumptions C115_deviation.
Print Assumptions C115_verdict.
Print Assumptions C115_look_back.
Print Assumptions C115_unique.
