(** The mean included angle (misc.c 3006-3045) in exact arithmetic and in
    binary32/binary64, and the decay of the change magnitude with the angle
    (utilities.c 1241-1257). *)
From Coq Require Import Reals Lra ZArith List Lia Floats.SpecFloat.
Import ListNotations.

(** ** Exact arithmetic *)
Section Exact.
Open Scope R_scope.

Definition rdot (u v : list R) : R := fold_left Rplus (map (fun p => fst p * snd p) (combine u v)) 0.

(** Angle of two neighbouring deviations in degrees. *)
Definition rangle (u v : list R) : R :=
  acos (rdot u v / (sqrt (rdot u u) * sqrt (rdot v v))) * 180 / PI.

Fixpoint rsum (w : list (list R)) : R :=
  match w with
  | u :: ((v :: _) as t) => rangle u v + rsum t
  | _ => 0
  end.

(** MeanAngl_float without rounding. *)
Definition rmean (w : list (list R)) : R :=
  if (1 <? Z.of_nat (length w))%Z then rsum w / (INR (length w) - 1) else 0.

Definition stretch (k : R) (v : list R) : list R := map (fun x => k * x) v.

Lemma fold_plus : forall l a, fold_left Rplus l a = a + fold_left Rplus l 0.
Proof.
  induction l; intros; cbn; [lra|]. rewrite IHl, (IHl (0 + a)). lra.
Qed.

Lemma rdot_stretch : forall v a b, rdot (stretch a v) (stretch b v) = a * b * rdot v v.
Proof.
  induction v as [|x v IH]; intros a b; unfold rdot; cbn; [lra|].
  rewrite fold_plus. rewrite (fold_plus _ (0 + x * x)). unfold rdot in IH. unfold stretch in IH. unfold stretch.
  rewrite IH. ring.
Qed.

Lemma angle_parallel : forall v a b, 0 < rdot v v -> 0 < a -> 0 < b -> rangle (stretch a v) (stretch b v) = 0.
Proof.
  intros v a b Hv Ha Hb. unfold rangle. rewrite !rdot_stretch. set (n := rdot v v) in *.
  replace (a * a * n) with (Rsqr a * n) by (unfold Rsqr; ring).
  replace (b * b * n) with (Rsqr b * n) by (unfold Rsqr; ring).
  rewrite !sqrt_mult; try (unfold Rsqr; nra). rewrite !sqrt_Rsqr by lra.
  replace (a * sqrt n * (b * sqrt n)) with (a * b * (sqrt n * sqrt n)) by ring. rewrite sqrt_sqrt by lra.
  assert (0 < a * b) by nra. assert (0 < a * b * n) by nra.
  replace (a * b * n / (a * b * n)) with 1 by (field; lra).
  rewrite acos_1. field. apply PI_neq0.
Qed.

(** Deviations all of one direction have mean angle zero. *)
Theorem C47_exact : forall v ks, 0 < rdot v v -> Forall (fun k => 0 < k) ks -> rmean (map (fun k => stretch k v) ks) = 0.
Proof.
  intros v ks Hv Hk. unfold rmean.
  assert (H : rsum (map (fun k => stretch k v) ks) = 0).
  { induction Hk as [|k t Hk Ht IH]; [reflexivity|]. destruct t as [|k' t]; [reflexivity|].
    cbn [map rsum] in *. rewrite IH. inversion Ht; subst. rewrite angle_parallel by assumption. lra. }
  rewrite H. destruct (_ <? _)%Z eqn:E; [|reflexivity]. unfold Rdiv. ring.
Qed.

(** The mean of the angles between neighbours, one fewer than there are
    deviations: it lies between any bounds on them, and is their common value
    if they are equal. *)
Fixpoint neighbours (w : list (list R)) : list (list R * list R) :=
  match w with u :: ((v :: _) as t) => (u, v) :: neighbours t | _ => [] end.

Theorem C47_mean : forall lo hi w, (2 <= length w)%nat ->
  (forall u v, In (u, v) (neighbours w) -> lo <= rangle u v <= hi) -> lo <= rmean w <= hi.
Proof.
  intros lo hi w Hw H. unfold rmean. replace (1 <? Z.of_nat (length w))%Z with true by lia.
  assert (G : forall x, x <> [] -> (forall u v, In (u, v) (neighbours x) -> lo <= rangle u v <= hi) ->
              (INR (length x) - 1) * lo <= rsum x <= (INR (length x) - 1) * hi).
  { clear. induction x as [|u x IH]; intros Hne Hx; [congruence|]. destruct x as [|v x].
    - cbn [length rsum INR]. lra.
    - change (rsum (u :: v :: x)) with (rangle u v + rsum (v :: x)). assert (A : lo <= rangle u v <= hi) by (apply Hx; left; reflexivity).
      assert (B : (INR (length (v :: x)) - 1) * lo <= rsum (v :: x) <= (INR (length (v :: x)) - 1) * hi).
      { apply IH; [discriminate|]. intros a b Hab. apply Hx. right. exact Hab. }
      change (length (u :: v :: x)) with (S (length (v :: x))). rewrite S_INR.
      revert B. set (n := INR (length (v :: x))). set (r := rsum (v :: x)). intro B. lra. }
  assert (Hn : 1 <= INR (length w) - 1).
  { assert (INR 2 <= INR (length w)) by now apply le_INR. cbn in H0. lra. }
  destruct (G w) as [A B]; [destruct w; [cbn in Hw; lia|discriminate]|exact H|].
  set (n := INR (length w) - 1) in *. split.
  - apply Rmult_le_reg_l with n; [lra|]. replace (n * (rsum w / n)) with (rsum w) by (field; lra). exact A.
  - apply Rmult_le_reg_l with n; [lra|]. replace (n * (rsum w / n)) with (rsum w) by (field; lra). exact B.
Qed.

Example C47_exact_example : rmean [[4; 4; 0]; [8; 8; 0]; [2; 2; 0]] = 0.
Proof.
  pose proof (C47_exact [1; 1; 0] [4; 8; 2]) as H. cbn [map stretch] in H.
  rewrite !Rmult_1_r, !Rmult_0_r in H. apply H; [unfold rdot; cbn; lra|]. repeat constructor; lra.
Qed.

(** angle_decaying (utilities.c 1241-1257), called with 45 and 90. *)
Definition decay (x low high : R) : R :=
  if Rlt_dec x low then 1 else if Rlt_dec high x then 0 else 1 - 1 / (high - low) * (x - low).

Theorem C84_range : forall x low high, low < high -> 0 <= decay x low high <= 1.
Proof.
  intros x low high H. unfold decay. destruct (Rlt_dec x low); [lra|]. destruct (Rlt_dec high x); [lra|].
  assert (Hi : 0 < 1 / (high - low)) by (unfold Rdiv; rewrite Rmult_1_l; apply Rinv_0_lt_compat; lra).
  assert (E : 1 / (high - low) * (high - low) = 1) by (field; lra).
  assert (0 <= 1 / (high - low) * (x - low)) by (apply Rmult_le_pos; lra).
  assert (1 / (high - low) * (x - low) <= 1 / (high - low) * (high - low)) by (apply Rmult_le_compat_l; lra). lra.
Qed.

Theorem C84_decreasing : forall x y low high, low < high -> x <= y -> decay y low high <= decay x low high.
Proof.
  intros x y low high H Hxy. pose proof (C84_range x low high H). pose proof (C84_range y low high H). unfold decay in *.
  destruct (Rlt_dec x low), (Rlt_dec y low); try lra. destruct (Rlt_dec high x), (Rlt_dec high y); try lra.
  assert (Hi : 0 < 1 / (high - low)) by (unfold Rdiv; rewrite Rmult_1_l; apply Rinv_0_lt_compat; lra).
  assert (1 / (high - low) * (x - low) <= 1 / (high - low) * (y - low)) by (apply Rmult_le_compat_l; lra). lra.
Qed.

(** It joins at the bounds, so the magnitude has no jump there. *)
Theorem C84_bounds : forall low high, low < high -> decay low low high = 1 /\ decay high low high = 0.
Proof.
  intros low high H. unfold decay. destruct (Rlt_dec low low); [lra|]. destruct (Rlt_dec high low); [lra|].
  destruct (Rlt_dec high high); [lra|]. split; field; lra.
Qed.
End Exact.

(** ** Floating point *)
Section Float.
Open Scope Z_scope.

(** binary32 and binary64 operations. *)
Definition fadd := SFadd 24 128.
Definition fmul := SFmul 24 128.
Definition fdiv := SFdiv 24 128.
Definition fsqrt := SFsqrt 24 128.
Definition of_int (z : Z) : spec_float := binary_normalize 24 128 z 0 false.
Definition wide (z e : Z) : spec_float := binary_normalize 53 1024 z e false.
(** Conversion of a double to float. *)
Definition narrow (x : spec_float) : spec_float :=
  match x with
  | S754_finite s m e => binary_normalize 24 128 (if s then Zneg m else Zpos m) e s
  | _ => x
  end.
(** PI (const.h 28): 3.1415926535897935 is read as the double just above the
    one nearest to pi. *)
Definition pi_c : spec_float := wide 7074237752028441 (-51).

(** acosf: any function that returns NaN outside [-1, 1] (C11 F.10.1.1). *)
Variable acosf : spec_float -> spec_float.
Hypothesis acos_domain : forall x, SFltb (of_int 1) x = true -> acosf x = S754_nan.

(** The sums over the bands (misc.c 3027-3032). *)
Definition fdot (u v : list spec_float) : spec_float :=
  fold_left fadd (map (fun p => fmul (fst p) (snd p)) (combine u v)) (of_int 0).

(** The argument of acosf (misc.c 3033). *)
Definition ratio (u v : list spec_float) : spec_float :=
  fdiv (fdot u v) (fmul (fsqrt (fdot u u)) (fsqrt (fdot v v))).

(** angl_sum += (tmp * 180.0) / PI (misc.c 3034): double arithmetic, the sum
    converted back. *)
Definition add_degrees (sum tmp : spec_float) : spec_float :=
  narrow (SFadd 53 1024 sum (SFdiv 53 1024 (SFmul 53 1024 tmp (wide 180 0)) pi_c)).

Fixpoint angle_sum (sum : spec_float) (w : list (list spec_float)) : spec_float :=
  match w with
  | u :: ((v :: _) as t) => angle_sum (add_degrees sum (acosf (ratio u v))) t
  | _ => sum
  end.

(** MeanAngl_float (misc.c 3006-3045). *)
Definition mean_angle (w : list (list spec_float)) : spec_float :=
  if 1 <? Z.of_nat (length w)
  then fdiv (angle_sum (of_int 0) w) (of_int (Z.of_nat (length w) - 1)) else of_int 0.

(** The break test (cold.c 4314) on a window of deviations. *)
Definition tested (tcg : spec_float) (w : list (list spec_float)) : bool :=
  forallb (fun v => SFltb tcg (fdot v v)) w && SFltb (mean_angle w) (of_int 45).

(** Once NaN, always NaN. *)
Lemma angle_sum_nan : forall w, angle_sum S754_nan w = S754_nan.
Proof. induction w as [|u t IH]; [reflexivity|]. destruct t as [|v t]; [reflexivity|]. cbn [angle_sum]. exact IH. Qed.

(** A window whose first two deviations have a quotient above one has no
    angle, and the test fails whatever the magnitudes. *)
Theorem C47_above_one : forall u v t tcg, SFltb (of_int 1) (ratio u v) = true ->
  mean_angle (u :: v :: t) = S754_nan /\ tested tcg (u :: v :: t) = false.
Proof.
  intros u v t tcg H. assert (E : mean_angle (u :: v :: t) = S754_nan).
  { unfold mean_angle. replace (1 <? Z.of_nat (length (u :: v :: t))) with true.
    2: { symmetry. apply Z.ltb_lt. cbn [length]. lia. }
    change (angle_sum (of_int 0) (u :: v :: t)) with (angle_sum (add_degrees (of_int 0) (acosf (ratio u v))) (v :: t)).
    rewrite acos_domain by assumption.
    replace (add_degrees (of_int 0) S754_nan) with S754_nan by reflexivity. rewrite angle_sum_nan. reflexivity. }
  split; [assumption|]. unfold tested. rewrite E. apply Bool.andb_false_r.
Qed.

(** Six equal deviations (4, 4, 0, 0, 0): squared norm 32, above every
    threshold, but the quotient of the dot product and the norms is 1 + 2^-23.
    The change is not confirmed. *)
Definition jump : list spec_float := map of_int [4; 4; 0; 0; 0].
Theorem C47_equal_deviations :
  forallb (fun v => SFltb (of_int 31) (fdot v v)) (repeat jump 6) = true /\
  mean_angle (repeat jump 6) = S754_nan /\ tested (of_int 15) (repeat jump 6) = false.
Proof. split; [vm_compute; reflexivity|]. apply C47_above_one. vm_compute. reflexivity. Qed.

(** With other values the same computation is exact. *)
Hypothesis acos_one : acosf (of_int 1) = of_int 0.
Example C47_exact_float : mean_angle (repeat (map of_int [3; 4; 0; 0; 0]) 6) = of_int 0 /\
  tested (of_int 15) (repeat (map of_int [3; 4; 0; 0; 0]) 6) = true.
Proof.
  assert (E : mean_angle (repeat (map of_int [3; 4; 0; 0; 0]) 6) = of_int 0).
  { unfold mean_angle. cbn [repeat length angle_sum].
    replace (ratio (map of_int [3; 4; 0; 0; 0]) (map of_int [3; 4; 0; 0; 0])) with (of_int 1) by (vm_compute; reflexivity).
    rewrite acos_one. vm_compute. reflexivity. }
  split; [assumption|]. unfold tested. rewrite E. vm_compute. reflexivity.
Qed.

(** C47: deviations of one direction but of different lengths have angle zero,
    and deviations that turn by a right angle each time have a mean angle of 90
    degrees, for every window of two to eight observations; the first is a
    change, the second is not (misc.c 3006-3045, cold.c 4314). *)
Definition half_pi : spec_float := binary_normalize 24 128 13176795 (-23) false.
Definition growing : list (list spec_float) := map (fun k => map of_int [3 * k; 4 * k; 0; 0; 0]) [1; 2; 4; 3; 1; 5; 2; 8].
Definition turning : list (list spec_float) := map (map of_int) [[4; 0; 0; 0; 0]; [0; 9; 0; 0; 0]; [5; 0; 0; 0; 0]; [0; 0; 4; 0; 0]; [0; 7; 0; 0; 0]; [0; 0; 0; 0; 6]; [4; 0; 0; 0; 0]; [0; 0; 0; 8; 0]].
Theorem C47_window : acosf (of_int 0) = half_pi -> forall n, (2 <= n <= 8)%nat ->
  mean_angle (firstn n growing) = of_int 0 /\ tested (of_int 15) (firstn n growing) = true /\
  mean_angle (firstn n turning) = of_int 90 /\ tested (of_int 15) (firstn n turning) = false.
Proof.
  intros H0 n Hn.
  assert (A : mean_angle (firstn n growing) = of_int 0 /\ mean_angle (firstn n turning) = of_int 90).
  { assert (G : forall u v, In (u, v) (combine growing (tl growing)) -> ratio u v = of_int 1).
    { intros u v Hi. cbn [growing turning map combine tl In] in Hi. repeat (destruct Hi as [Hi|Hi]; [injection Hi as <- <-; vm_compute; reflexivity|]). contradiction. }
    assert (T : forall u v, In (u, v) (combine turning (tl turning)) -> ratio u v = of_int 0).
    { intros u v Hi. cbn [growing turning map combine tl In] in Hi. repeat (destruct Hi as [Hi|Hi]; [injection Hi as <- <-; vm_compute; reflexivity|]). contradiction. }
    assert (Hc : n = 2%nat \/ n = 3%nat \/ n = 4%nat \/ n = 5%nat \/ n = 6%nat \/ n = 7%nat \/ n = 8%nat) by lia.
    destruct Hc as [->|[->|[->|[->|[->|[->| ->]]]]]]; unfold mean_angle; cbn [growing turning firstn length map angle_sum];
      (split; [rewrite !G by (cbn [growing map combine tl In]; tauto); rewrite acos_one|rewrite !T by (cbn [turning map combine tl In]; tauto); rewrite H0]; vm_compute; reflexivity). }
  destruct A as [A1 A2]. split; [exact A1|]. split; [|split; [exact A2|]]; unfold tested.
  - rewrite A1. clear - Hn. do 9 (destruct n as [|n]; [first [lia|vm_compute; reflexivity]|]). lia.
  - rewrite A2. apply Bool.andb_false_r.
Qed.
End Float.
Example C47_window_case : exists acosf, acosf (of_int 1) = of_int 0 /\ acosf (of_int 0) = half_pi /\
  mean_angle acosf (firstn 6 turning) = of_int 90 /\ tested acosf (of_int 15) (firstn 6 growing) = true.
Proof. exists (fun x => if SFltb x (of_int 1) then half_pi else of_int 0). vm_compute. auto. Qed.
Print Assumptions C47_window.

(** An acosf of this kind exists. *)
Theorem C47_refuted : exists acosf w, (forall x, SFltb (of_int 1) x = true -> acosf x = S754_nan) /\
  acosf (of_int 1) = of_int 0 /\ (forall v, In v w -> v = jump) /\ tested acosf (of_int 15) w = false.
Proof.
  exists (fun x => if SFltb (of_int 1) x then S754_nan else of_int 0), (repeat jump 6).
  split; [intros x H; rewrite H; reflexivity|]. split; [reflexivity|]. split.
  - intros v Hv. apply repeat_spec in Hv. assumption.
  - apply C47_equal_deviations. intros x H. rewrite H. reflexivity.
Qed.

Print Assumptions C47_exact.
Print Assumptions C47_mean.
Print Assumptions C84_range.
Print Assumptions C84_decreasing.
Print Assumptions C84_bounds.
Print Assumptions C47_above_one.
Print Assumptions C47_equal_deviations.
Print Assumptions C47_refuted.
