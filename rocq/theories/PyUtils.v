(** Two helpers of src/python/pycold/utils.py: the Python prediction (465-505)
    against the C one and against the filter's own forecast (C107), and the
    index image (508-533, C108).  Exact arithmetic. *)
From Coq Require Import Reals Lra.
From Verif Require Import Base PyIndex Fit Kalman CoefMap.

(** ** C107: coefficient_matrix and predict_ref *)
Section Predict.
(** cos(k * w23 * date) and sin(k * w23 * date), w23 = 2 pi / 365.25 (476) *)
Variables co si : Z -> Z -> R.

(** matrix[i] = v; IndexError outside *)
Fixpoint assign (i : nat) (v : R) (l : list R) : out (list R) :=
  match l, i with
  | [], _ => Fail
  | _ :: t, O => Ok (v :: t)
  | a :: t, Datatypes.S i => r <- assign i v t ;; Ok (a :: r)
  end.
(** 465-500; np.zeros of a negative size raises *)
Definition coefficient_matrix (d n : Z) : out (list R) :=
  if n <? 0 then Fail
  else
    m <- assign 0 1%R (repeat 0%R (Z.to_nat n)) ;;
    m <- assign 1 (IZR d / 10000)%R m ;;
    m <- assign 2 (co 1 d) m ;;
    m <- assign 3 (si 1 d) m ;;
    m <- (if 6 <=? n then m <- assign 4 (co 2 d) m ;; assign 5 (si 2 d) m else Ok m) ;;
    if 8 <=? n then m <- assign 6 (co 3 d) m ;; assign 7 (si 3 d) m else Ok m.
(** np.dot of two vectors; ValueError when the lengths differ *)
Fixpoint inner (a b : list R) : R :=
  match a, b with x :: a, y :: b => (x * y + inner a b)%R | _, _ => 0%R end.
Definition np_dot (a b : list R) : out R := if Nat.eqb (length a) (length b) then Ok (inner a b) else Fail.
(** 503-505 *)
Definition predict_ref (model : list R) (d n : Z) : out R := m <- coefficient_matrix d n ;; np_dot m model.

(** The same number as auto_ts_predict_float, for the models both know. *)
Theorem C107_same : forall n model d, In n [4; 6; 8] -> zlen model = n -> predict_ref model d n = Fit.predict co si n model d.
Proof.
  intros n model d Hn Hl. unfold zlen in Hl.
  destruct Hn as [<-|[<-|[<-|[]]]];
    [destruct model as [|c0 [|c1 [|c2 [|c3 [|c4 m]]]]]
    |destruct model as [|c0 [|c1 [|c2 [|c3 [|c4 [|c5 [|c6 m]]]]]]]
    |destruct model as [|c0 [|c1 [|c2 [|c3 [|c4 [|c5 [|c6 [|c7 [|c8 m]]]]]]]]]]; cbn [length] in Hl; try lia;
    lazy -[Rplus Rmult Rdiv Rinv IZR]; f_equal; field.
Qed.
(** Less than four coefficients, or a model of another length, raise. *)
Theorem C107_short : forall n model d, n < 4 -> predict_ref model d n = Fail.
Proof.
  intros n model d Hn. unfold predict_ref, coefficient_matrix. destruct (n <? 0) eqn:E; [reflexivity|].
  assert (C : n = 0 \/ n = 1 \/ n = 2 \/ n = 3) by lia. destruct C as [->|[->|[->| ->]]]; reflexivity.
Qed.
Lemma assign_length : forall i v l r, assign i v l = Ok r -> length r = length l.
Proof.
  induction i as [|i IH]; intros v [|a l] r H; try discriminate; cbn [assign] in H.
  - injection H as <-. reflexivity.
  - destruct (assign i v l) as [r'| | |] eqn:E; try discriminate. injection H as <-. cbn [length]. rewrite (IH v l r' E). reflexivity.
Qed.
Theorem C107_length : forall n model d, zlen model <> n -> predict_ref model d n = Fail.
Proof.
  intros n model d Hl. unfold predict_ref. destruct (coefficient_matrix d n) as [m| | |] eqn:E; cbn [bind].
  - assert (L : length m = Z.to_nat n /\ 0 <= n).
    { unfold coefficient_matrix in E. destruct (n <? 0) eqn:En; [discriminate|]. split; [|lia].
      apply bind_ok in E. destruct E as (m1 & E1 & E). apply bind_ok in E. destruct E as (m2 & E2 & E).
      apply bind_ok in E. destruct E as (m3 & E3 & E). apply bind_ok in E. destruct E as (m4 & E4 & E). apply bind_ok in E. destruct E as (m5 & E5 & E).
      apply assign_length in E1, E2, E3, E4. rewrite repeat_length in E1.
      assert (L5 : length m5 = length m4).
      { destruct (6 <=? n); [|congruence]. apply bind_ok in E5. destruct E5 as (m6 & E6 & E7). apply assign_length in E6, E7. congruence. }
      assert (L6 : length m = length m5).
      { destruct (8 <=? n); [|congruence]. apply bind_ok in E. destruct E as (m6 & E6 & E7). apply assign_length in E6, E7. congruence. }
      congruence. }
    unfold np_dot. destruct (Nat.eqb (length m) (length model)) eqn:EL; [|reflexivity]. apply Nat.eqb_eq in EL. exfalso. apply Hl. unfold zlen. lia.
  - reflexivity.
  - unfold coefficient_matrix in E. exfalso.
    assert (NA : forall i v l, assign i v l <> UB).
    { induction i as [|i IH]; intros v [|a l]; try discriminate. cbn [assign]. specialize (IH v l). destruct (assign i v l); cbn [bind]; congruence. }
    destruct (n <? 0); [discriminate|].
    repeat (match type of E with bind ?x _ = _ => let Ex := fresh "Ex" in destruct x eqn:Ex; cbn [bind] in E; try discriminate E;
              try (exact (NA _ _ _ Ex)) end).
    all: repeat match goal with
         | H : (if ?b then _ else _) = _ |- _ => destruct b; try discriminate H
         | H : bind ?x _ = _ |- _ => let Ex := fresh "Ey" in destruct x eqn:Ex; cbn [bind] in H; try discriminate H
         | H : assign _ _ _ = UB |- _ => exact (NA _ _ _ H)
         end.
  - unfold coefficient_matrix in E. exfalso.
    assert (NA : forall i v l, assign i v l <> Fuel).
    { induction i as [|i IH]; intros v [|a l]; try discriminate. cbn [assign]. specialize (IH v l). destruct (assign i v l); cbn [bind]; congruence. }
    destruct (n <? 0); [discriminate|].
    repeat (match type of E with bind ?x _ = _ => let Ex := fresh "Ex" in destruct x eqn:Ex; cbn [bind] in E; try discriminate E;
              try (exact (NA _ _ _ Ex)) end).
    all: repeat match goal with
         | H : (if ?b then _ else _) = _ |- _ => destruct b; try discriminate H
         | H : bind ?x _ = _ |- _ => let Ex := fresh "Ey" in destruct x eqn:Ex; cbn [bind] in H; try discriminate H
         | H : assign _ _ _ = Fuel |- _ => exact (NA _ _ _ H)
         end.
Qed.
(** Every other number of coefficients is rounded down to 4, 6 or 8: the rest
    of the model does not count. *)
Lemma inner_zero : forall k b, inner (repeat 0%R k) b = 0%R.
Proof. induction k as [|k IH]; intros [|y b]; try reflexivity. cbn [repeat inner]. rewrite IH. ring. Qed.
Theorem C107_rounded : forall n model d, 4 <= n -> zlen model = n ->
  let k := if n <? 6 then 4 else if n <? 8 then 6 else 8 in
  predict_ref model d n = Fit.predict co si k (firstn (Z.to_nat k) model) d.
Proof.
  intros n model d Hn Hl k.
  assert (Hk : In k [4; 6; 8] /\ k <= n) by (unfold k; cbn [In]; destruct (n <? 6) eqn:E; [|destruct (n <? 8) eqn:E0]; (split; [tauto|lia])).
  assert (Hf : zlen (firstn (Z.to_nat k) model) = k) by (unfold zlen in *; rewrite firstn_length; destruct Hk as [[<-|[<-|[<-|[]]]] Hk]; lia).
  rewrite <- C107_same; [|apply Hk|exact Hf]. clear Hf.
  assert (C : n = 4 \/ n = 5 \/ n = 6 \/ n = 7 \/ 8 <= n) by lia. unfold zlen in Hl.
  destruct C as [En|[En|[En|[En|En]]]].
  - replace k with 4 by (unfold k; rewrite En; reflexivity). rewrite En in Hl. destruct model as [|c0 [|c1 [|c2 [|c3 [|c4 m]]]]]; cbn [length] in Hl; try lia. rewrite En. reflexivity.
  - replace k with 4 by (unfold k; rewrite En; reflexivity). rewrite En in Hl. destruct model as [|c0 [|c1 [|c2 [|c3 [|c4 [|c5 m]]]]]]; cbn [length] in Hl; try lia.
    rewrite En. lazy -[Rplus Rmult Rdiv Rinv IZR]. f_equal. ring.
  - replace k with 6 by (unfold k; rewrite En; reflexivity). rewrite En in Hl. destruct model as [|c0 [|c1 [|c2 [|c3 [|c4 [|c5 [|c6 m]]]]]]]; cbn [length] in Hl; try lia. rewrite En. reflexivity.
  - replace k with 6 by (unfold k; rewrite En; reflexivity). rewrite En in Hl. destruct model as [|c0 [|c1 [|c2 [|c3 [|c4 [|c5 [|c6 [|c7 m]]]]]]]]; cbn [length] in Hl; try lia.
    rewrite En. lazy -[Rplus Rmult Rdiv Rinv IZR]. f_equal. ring.
  - replace k with 8 by (unfold k; replace (n <? 6) with false by lia; replace (n <? 8) with false by lia; reflexivity). clear Hk k.
    destruct model as [|c0 [|c1 [|c2 [|c3 [|c4 [|c5 [|c6 [|c7 m]]]]]]]]; cbn [length] in Hl; try lia.
    change (firstn (Z.to_nat 8) (c0 :: c1 :: c2 :: c3 :: c4 :: c5 :: c6 :: c7 :: m)) with [c0; c1; c2; c3; c4; c5; c6; c7].
    unfold predict_ref at 1, coefficient_matrix at 1. replace (n <? 0) with false by lia. replace (6 <=? n) with true by lia. replace (8 <=? n) with true by lia.
    replace (Z.to_nat n) with (8 + length m)%nat by lia. rewrite repeat_app. cbn [repeat app assign bind]. unfold np_dot. cbn [length]. rewrite repeat_length, Nat.eqb_refl.
    cbn [inner]. rewrite inner_zero. lazy -[Rplus Rmult Rdiv Rinv IZR]. f_equal.
Qed.
End Predict.

(** The coefficients a filter state is stored as (nrt_coefs), predicted in
    Python for a later date, give the filter's own forecast: the observation of
    the state after that many days without observation. *)
Definition six_list (c : six) : list R := [x0 c; x1 c; x2 c; x3 c; x4 c; x5 c].
Theorem C107_forecast : forall w a d n,
  predict_ref (fun k x => cos (IZR k * w * IZR x)) (fun k x => sin (IZR k * w * IZR x)) (six_list (of_state w a (IZR d))) (d + Z.of_nat n) 6 =
  Ok (dot 6 zobs (vec6 (six_of (Nat.iter n (mv 6 (trans w)) (vec6 a))))).
Proof.
  intros w a d n. rewrite C107_same; [|right; left; reflexivity|reflexivity].
  set (s := six_of (Nat.iter n (mv 6 (trans w)) (vec6 a))).
  pose proof (C45_gap w a (IZR d) n) as G. fold s in G. rewrite <- G. clear G.
  rewrite <- (C45_state w s (IZR d + INR n)) at 2. rewrite C45_prediction. set (c := of_state w s (IZR d + INR n)). clearbody c.
  rewrite INR_IZR_INZ, <- plus_IZR. set (x := d + Z.of_nat n). clearbody x. unfold six_list. cbn. f_equal. unfold Kalman.predict, slope_scale, scale.
  replace (1 * w * IZR x)%R with (IZR x * w)%R by ring. replace (2 * w * IZR x)%R with (IZR x * (2 * w))%R by ring. reflexivity.
Qed.
(** A constant model predicts its constant; a four-term model is not a
    six-term one. *)
Example C107_case : predict_ref (fun _ _ => 1%R) (fun _ _ => 0%R) [5; 0; 0; 0; 0; 0]%R 730000 6 = Ok 5%R /\
  predict_ref (fun _ _ => 1%R) (fun _ _ => 0%R) [5; 0; 0; 0]%R 730000 6 = Fail.
Proof. split; [lazy -[Rplus Rmult Rdiv Rinv IZR]; f_equal; field|reflexivity]. Qed.

(** ** C108: generate_rowcolimage *)
Open Scope Z_scope.
(** index = (i + 1) * 10000 + j + 1 (524) *)
Definition rowcol_index (i j : Z) : Z := (i + 1) * 10000 + j + 1.
(** 519-527 for a reference image of one band: the raster is created with the
    rows first *)
Definition rowcol_image (rows cols : Z) : option arr := write_raster rows cols (mkArr rows cols rowcol_index).
Theorem C108_injective : forall cols i j i' j', cols <= 10000 -> 0 <= j < cols -> 0 <= j' < cols ->
  rowcol_index i j = rowcol_index i' j' -> i = i' /\ j = j'.
Proof. unfold rowcol_index. intros. lia. Qed.
(** The row and column can be read off the number below 10000 columns. *)
Theorem C108_decode : forall i j, 0 <= j < 9999 -> rowcol_index i j / 10000 = i + 1 /\ rowcol_index i j mod 10000 = j + 1.
Proof. unfold rowcol_index. intros. lia. Qed.
Theorem C108_int32 : forall i j, 0 <= i < 214746 -> 0 <= j < 10000 -> 0 < rowcol_index i j < 2 ^ 31.
Proof. unfold rowcol_index. intros. lia. Qed.
Theorem C108_square_partial : forall n, 0 <= n -> exists im, rowcol_image n n = Some im /\ a_rows im = n /\ a_cols im = n /\
  forall i j, 0 <= i < n -> 0 <= j < n -> a_at im i j = rowcol_index i j.
Proof.
  intros n Hn. unfold rowcol_image, write_raster. cbn [a_cols a_rows a_at]. rewrite Z.leb_refl. cbn [andb].
  eexists. split; [reflexivity|]. split; [reflexivity|]. split; [reflexivity|]. cbn [a_at].
  intros i j Hi Hj. destruct ((i <? n) && (j <? n)) eqn:E; [reflexivity|lia].
Qed.
(** An image that is not square cannot be indexed, and with more than 10000
    columns numbers repeat. *)
Theorem C108_not_square : forall rows cols, rows <> cols -> rowcol_image rows cols = None.
Proof.
  intros rows cols H. unfold rowcol_image, write_raster. cbn [a_cols a_rows].
  destruct ((cols <=? rows) && (rows <=? cols)) eqn:E; [lia|reflexivity].
Qed.
Theorem C108_refuted : (exists rows cols, 0 < rows /\ 0 < cols /\ rowcol_image rows cols = None) /\
  (exists i j i' j', 0 <= j <= 10000 /\ 0 <= j' <= 10000 /\ (i, j) <> (i', j') /\ rowcol_index i j = rowcol_index i' j').
Proof.
  split; [exists 3, 4; repeat split; lia|]. exists 0, 10000, 1, 0. repeat split; try lia. intros X. injection X. discriminate.
Qed.
Example C108_case : option_map (fun im => map (a_at im 1) [0; 1]) (rowcol_image 2 2) = Some [20001; 20002].
Proof. vm_compute. reflexivity. Qed.

Print Assumptions C107_same.
Print Assumptions C107_short.
Print Assumptions C107_length.
Print Assumptions C107_rounded.
Print Assumptions C107_forecast.
Print Assumptions C108_injective.
Print Assumptions C108_decode.
Print Assumptions C108_int32.
Print Assumptions C108_square_partial.
Print Assumptions C108_not_square.
Print Assumptions C108_refuted.
