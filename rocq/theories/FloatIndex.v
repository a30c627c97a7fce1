(** The integer quotients of the index arithmetic are computed by Python as
    [int(a / b)] in double precision (utils.py 24, 71, 194, 213): the quotient
    is rounded to nearest before it is truncated.  This file proves that the
    rounding never carries the quotient over the next integer for the operand
    sizes in question, so that the exact integer quotients of PyIndex are right.

    Uses Flocq (axioms of the Reals only). *)
From Coq Require Import ZArith Reals Lia Lra.
From Flocq Require Import Core.
From Verif Require Import PyIndex Sched.
Open Scope R_scope.

(** Binary64, round to nearest even. *)
Definition fexp64 := FLT_exp (-1074) 53.
Definition rnd64 (x : R) : R := round radix2 fexp64 ZnearestE x.
(** Python: a / b on ints is the correctly rounded quotient; int() truncates. *)
Definition py_div (a b : Z) : R := rnd64 (IZR a / IZR b).
Definition py_int (x : R) : Z := Ztrunc x.

Local Instance prec53 : Prec_gt_0 53 := eq_refl.
Local Instance fexp64_valid : Valid_exp fexp64 := FLT_exp_valid (-1074) 53.

Lemma int_format : forall z, (Z.abs z <= 2 ^ 53)%Z -> generic_format radix2 fexp64 (IZR z).
Proof.
  intros z Hz. destruct (Z.eq_dec (Z.abs z) (2 ^ 53)) as [E|E].
  - assert (G : generic_format radix2 fexp64 (bpow radix2 53)) by (apply generic_format_bpow; unfold fexp64, FLT_exp; lia).
    change (bpow radix2 53) with (IZR (2 ^ 53)) in G.
    destruct (Z.abs_spec z) as [[_ A]|[_ A]].
    + rewrite <- A, E. exact G.
    + replace z with (- 2 ^ 53)%Z by lia. rewrite opp_IZR. apply generic_format_opp, G.
  - apply generic_format_FLT. exists (Float radix2 z 0).
    + unfold F2R. cbn [Fnum Fexp bpow]. lra.
    + cbn [Fnum]. change (Zpower radix2 53) with (2 ^ 53)%Z. lia.
    + cbn [Fexp]. lia.
Qed.

Lemma rnd64_ge : forall x z, (Z.abs z <= 2 ^ 53)%Z -> IZR z <= x -> IZR z <= rnd64 x.
Proof. intros x z Hz Hx. apply round_ge_generic; [typeclasses eauto|typeclasses eauto|apply int_format, Hz|exact Hx]. Qed.

(** Error of rounding below a power of two. *)
Lemma rnd64_error : forall x e, (-1000 <= e)%Z -> 0 <= x < bpow radix2 e -> rnd64 x <= x + bpow radix2 (e - 54).
Proof.
  intros x e He [H0 H1]. destruct (Req_dec x 0) as [->|Hn].
  - unfold rnd64. rewrite round_0 by typeclasses eauto. pose proof (bpow_gt_0 radix2 (e - 54)). lra.
  - pose proof (error_le_half_ulp radix2 fexp64 (fun z => negb (Z.even z)) x) as E. fold (rnd64 x) in E.
    rewrite ulp_neq_0 in E by assumption.
    assert (M : (mag radix2 x <= e)%Z).
    { apply mag_le_bpow; [assumption|]. rewrite Rabs_pos_eq by lra. exact H1. }
    assert (C : bpow radix2 (cexp radix2 fexp64 x) <= bpow radix2 (e - 53)) by (apply bpow_le; unfold cexp, fexp64, FLT_exp; lia).
    replace (bpow radix2 (e - 54)) with (/ 2 * bpow radix2 (e - 53)).
    + apply Rabs_le_inv in E. lra.
    + replace (e - 53)%Z with (1 + (e - 54))%Z by lia. rewrite bpow_plus. change (bpow radix2 1) with 2. lra.
Qed.

(** A truncation between an integer and its successor. *)
Lemma trunc_between : forall x q, (0 <= q)%Z -> IZR q <= x < IZR (q + 1) -> Ztrunc x = q.
Proof.
  intros x q Hq [H1 H2]. rewrite Ztrunc_floor; [apply Zfloor_imp; split; assumption|].
  apply Rle_trans with (2 := H1). apply IZR_le. lia.
Qed.

(** int(a / b) is the integer quotient. *)
Theorem C49_float_quotient : forall a b, (0 <= a < 2 ^ 53)%Z -> (0 < b < 2 ^ 53)%Z -> py_int (py_div a b) = Z.quot a b.
Proof.
  intros a b Ha Hb. rewrite Z.quot_div_nonneg by lia. set (q := (a / b)%Z).
  pose proof (Z.div_mod a b ltac:(lia)) as Hdm. pose proof (Z.mod_pos_bound a b ltac:(lia)) as Hm.
  assert (Hq : (0 <= q)%Z) by (apply Z.div_pos; lia). fold q in Hdm.
  assert (Hqa : (q <= a)%Z) by nia.
  set (x := IZR a / IZR b). assert (HbR : 0 < IZR b) by (apply IZR_lt; lia).
  assert (Hx1 : IZR q <= x).
  { unfold x. apply Rmult_le_reg_r with (IZR b); [assumption|]. unfold Rdiv. rewrite Rmult_assoc, Rinv_l, Rmult_1_r by lra.
    rewrite <- mult_IZR. apply IZR_le. lia. }
  assert (Hx2 : x <= IZR (q + 1) - / IZR b).
  { unfold x. apply Rmult_le_reg_r with (IZR b); [assumption|]. unfold Rdiv. rewrite Rmult_assoc, Rinv_l, Rmult_1_r by lra.
    rewrite Rmult_minus_distr_r, Rinv_l by lra. rewrite <- mult_IZR, <- minus_IZR. apply IZR_le. nia. }
  assert (Hinv : 0 < / IZR b) by (apply Rinv_0_lt_compat; assumption).
  unfold py_int, py_div. fold x. apply trunc_between; [assumption|]. split; [apply rnd64_ge; [lia|assumption]|].
  (* smallest power of two not below q + 1 *)
  assert (exists e, (0 <= e <= 53)%Z /\ (q + 1 <= 2 ^ e)%Z /\ (2 ^ e * b < 2 ^ 54)%Z) as (e & He & He1 & He2).
  { destruct (Z.eq_dec q 0) as [->|Hq0].
    - exists 0%Z. change (2 ^ 0)%Z with 1%Z. lia.
    - exists (Z.log2 q + 1)%Z. pose proof (Z.log2_spec q ltac:(lia)) as [L1 L2]. pose proof (Z.log2_nonneg q).
      assert (Z.log2 q < 53)%Z by (apply Z.log2_lt_pow2; lia).
      split; [lia|]. replace (Z.succ (Z.log2 q)) with (Z.log2 q + 1)%Z in L2 by lia. split; [lia|].
      rewrite Z.pow_add_r by lia. nia. }
  assert (Hpow : IZR (2 ^ e) = bpow radix2 e) by (apply (IZR_Zpower radix2); lia).
  assert (x < bpow radix2 e).
  { rewrite <- Hpow. apply Rlt_le_trans with (IZR (q + 1)); [lra|]. apply IZR_le, He1. }
  pose proof (@rnd64_error x e ltac:(lia) ltac:(split; [apply Rle_trans with (2 := Hx1); apply IZR_le; lia|assumption])) as HE.
  assert (Hlt : bpow radix2 (e - 54) < / IZR b).
  { replace (e - 54)%Z with (- (54 - e))%Z by lia. rewrite bpow_opp. apply Rinv_lt_contravar.
    - apply Rmult_lt_0_compat; [assumption|apply bpow_gt_0].
    - replace (bpow radix2 (54 - e)) with (IZR (2 ^ (54 - e))) by (apply (IZR_Zpower radix2); lia).
      apply IZR_lt. assert (2 ^ 54 = 2 ^ e * 2 ^ (54 - e))%Z by (rewrite <- Z.pow_add_r by lia; f_equal; lia).
      assert (0 < 2 ^ e)%Z by (apply Z.pow_pos_nonneg; lia). nia. }
  lra.
Qed.

(** int(index / bw + off) with off = (by - 1) * bh + 1 added in double precision
    (utils.py 194: the two additions are one exact integer addition followed by
    a rounded one, or two rounded ones; [off1] and [off2] are the summands). *)
Definition py_row (index bw off1 off2 : Z) : R := rnd64 (rnd64 (py_div index bw + IZR off1) + IZR off2).

Theorem C49_float_row : forall index bw off1 off2,
  (0 <= index < 2 ^ 24)%Z -> (0 < bw < 2 ^ 24)%Z -> (0 <= off1 < 2 ^ 24)%Z -> (0 <= off2 < 2 ^ 24)%Z ->
  py_int (py_row index bw off1 off2) = Z.quot (index + (off1 + off2) * bw) bw.
Proof.
  intros index bw off1 off2 Hi Hb H1 H2. rewrite Z.quot_div_nonneg by nia. rewrite Z.div_add by lia. set (q := (index / bw)%Z).
  pose proof (Z.div_mod index bw ltac:(lia)) as Hdm. pose proof (Z.mod_pos_bound index bw ltac:(lia)) as Hm.
  assert (Hq : (0 <= q)%Z) by (apply Z.div_pos; lia). fold q in Hdm.
  assert (Hqa : (q <= index)%Z) by nia.
  set (x := IZR index / IZR bw). assert (HbR : 0 < IZR bw) by (apply IZR_lt; lia).
  assert (Hx1 : IZR q <= x).
  { unfold x. apply Rmult_le_reg_r with (IZR bw); [assumption|]. unfold Rdiv. rewrite Rmult_assoc, Rinv_l, Rmult_1_r by lra.
    rewrite <- mult_IZR. apply IZR_le. lia. }
  assert (Hx2 : x <= IZR (q + 1) - / IZR bw).
  { unfold x. apply Rmult_le_reg_r with (IZR bw); [assumption|]. unfold Rdiv. rewrite Rmult_assoc, Rinv_l, Rmult_1_r by lra.
    rewrite Rmult_minus_distr_r, Rinv_l by lra. rewrite <- mult_IZR, <- minus_IZR. apply IZR_le. nia. }
  assert (Hinv : bpow radix2 (-24) < / IZR bw).
  { change (-24)%Z with (- (24))%Z. rewrite bpow_opp. apply Rinv_lt_contravar.
    - apply Rmult_lt_0_compat; [assumption|apply bpow_gt_0].
    - change (bpow radix2 24) with (IZR (2 ^ 24)). apply IZR_lt. lia. }
  assert (B : forall n : Z, (0 <= n)%Z -> 0 <= IZR n) by (intros n Hn; apply IZR_le; lia).
  assert (P24 : bpow radix2 24 = IZR (2 ^ 24)) by reflexivity.
  assert (P27 : bpow radix2 27 = 8 * IZR (2 ^ 24)) by (change (bpow radix2 27) with (IZR (2 ^ 27)); change (2 ^ 27)%Z with (8 * 2 ^ 24)%Z; rewrite mult_IZR; reflexivity).
  assert (Pe : 4 * bpow radix2 (27 - 54) <= bpow radix2 (-24)).
  { replace (-24)%Z with (3 + (27 - 54))%Z by lia. rewrite bpow_plus. change (bpow radix2 3) with 8. pose proof (bpow_gt_0 radix2 (27 - 54)). lra. }
  pose proof (bpow_gt_0 radix2 (27 - 54)) as Pp.
  assert (I1 : IZR index < IZR (2 ^ 24)) by (apply IZR_lt; lia).
  assert (I2 : IZR off1 < IZR (2 ^ 24)) by (apply IZR_lt; lia).
  assert (I3 : IZR off2 < IZR (2 ^ 24)) by (apply IZR_lt; lia).
  assert (I4 : IZR (q + 1) <= IZR (2 ^ 24)) by (apply IZR_le; lia).
  assert (IM : 1 < IZR (2 ^ 24)) by (apply IZR_lt; lia).
  assert (Sm : bpow radix2 (27 - 54) < 1) by (change 1 with (bpow radix2 0); apply bpow_lt; lia).
  pose proof (B q Hq) as Q0. pose proof (B off1 ltac:(lia)) as O1. pose proof (B off2 ltac:(lia)) as O2.
  unfold py_int, py_row, py_div. fold x. set (y := rnd64 x). set (z := rnd64 (y + IZR off1)).
  assert (Y1 : IZR q <= y) by (apply rnd64_ge; [lia|assumption]).
  assert (Y2 : y <= x + bpow radix2 (27 - 54)) by (apply rnd64_error; [lia|lra]).
  assert (Z1 : IZR (q + off1) <= z).
  { apply rnd64_ge; [lia|]. rewrite plus_IZR. lra. }
  assert (Z2 : z <= y + IZR off1 + bpow radix2 (27 - 54)) by (apply rnd64_error; [lia|lra]).
  rewrite plus_IZR in *.
  apply trunc_between; [lia|]. split.
  - apply rnd64_ge; [lia|]. rewrite !plus_IZR. lra.
  - apply Rle_lt_trans with (z + IZR off2 + bpow radix2 (27 - 54)).
    + apply rnd64_error; [lia|lra].
    + rewrite !plus_IZR. lra.
Qed.

(** With this the double computations of utils.py agree with PyIndex. *)
Corollary C49_float_agrees : forall pos n_cols bw bh bx by_ index id nbx,
  (1 <= pos < 2 ^ 53)%Z -> (0 < n_cols < 2 ^ 53)%Z -> (1 <= id < 2 ^ 53)%Z -> (0 < nbx < 2 ^ 53)%Z ->
  (0 <= index < 2 ^ 24)%Z -> (0 < bw < 2 ^ 24)%Z -> (1 <= by_)%Z -> (0 < bh)%Z -> ((by_ - 1) * bh < 2 ^ 24)%Z ->
  (py_int (py_div (id - 1) nbx) + 1 = get_block_y id nbx)%Z /\
  (py_int (py_div (pos - 1) n_cols) - (by_ - 1) * bh = get_row_index pos n_cols by_ bh)%Z /\
  (py_int (py_div (pos - 1) n_cols) mod bh * bw + (pos - 1) mod n_cols mod bw = get_id_inblock pos bw bh n_cols)%Z /\
  py_int (py_row index bw ((by_ - 1) * bh) 1) = fst (get_rowcol_intile index bw bh bx by_).
Proof.
  intros. unfold get_block_y, get_row_index, get_id_inblock, get_rowcol_intile. cbn [fst].
  rewrite !C49_float_quotient by lia. rewrite C49_float_row by nia. auto.
Qed.

Lemma rnd64_error_low : forall x e, (-1000 <= e)%Z -> 0 <= x < bpow radix2 e -> x - bpow radix2 (e - 54) <= rnd64 x.
Proof.
  intros x e He [H0 H1]. destruct (Req_dec x 0) as [->|Hn].
  - unfold rnd64. rewrite round_0 by typeclasses eauto. pose proof (bpow_gt_0 radix2 (e - 54)). lra.
  - pose proof (error_le_half_ulp radix2 fexp64 (fun z => negb (Z.even z)) x) as E. fold (rnd64 x) in E.
    rewrite ulp_neq_0 in E by assumption.
    assert (M : (mag radix2 x <= e)%Z).
    { apply mag_le_bpow; [assumption|]. rewrite Rabs_pos_eq by lra. exact H1. }
    assert (C : bpow radix2 (cexp radix2 fexp64 x) <= bpow radix2 (e - 53)) by (apply bpow_le; unfold cexp, fexp64, FLT_exp; lia).
    replace (bpow radix2 (e - 54)) with (/ 2 * bpow radix2 (e - 53)).
    + apply Rabs_le_inv in E. lra.
    + replace (e - 53)%Z with (1 + (e - 54))%Z by lia. rewrite bpow_plus. change (bpow radix2 1) with 2. lra.
Qed.

(** int(np.ceil(a / b)) (tile_processing.py 396, 705; prepare_ard.py 2036) and
    math.ceil(a / b) (_colds_cython.pyx 188) are the exact ceilings. *)
Definition py_ceil64 (x : R) : Z := Zceil x.
Theorem C53_float_ceil : forall a b, (0 <= a < 2 ^ 53)%Z -> (0 < b < 2 ^ 53)%Z -> py_ceil64 (py_div a b) = ceil_div a b.
Proof.
  intros a b Ha Hb. destruct (@ceil_spec a b ltac:(lia)) as [C1 C2]. set (q := ceil_div a b) in *.
  assert (HbR : 0 < IZR b) by (apply IZR_lt; lia).
  assert (Hq : (0 <= q)%Z) by nia. assert (Hqa : (q <= a)%Z) by nia.
  set (x := IZR a / IZR b).
  assert (Hx2 : x <= IZR q).
  { unfold x. apply Rmult_le_reg_r with (IZR b); [assumption|]. unfold Rdiv. rewrite Rmult_assoc, Rinv_l, Rmult_1_r by lra.
    rewrite <- mult_IZR. apply IZR_le. lia. }
  assert (Hx1 : IZR (q - 1) + / IZR b <= x).
  { unfold x. apply Rmult_le_reg_r with (IZR b); [assumption|]. unfold Rdiv. rewrite Rmult_assoc, Rinv_l, Rmult_1_r by lra.
    rewrite Rmult_plus_distr_r, Rinv_l by lra. rewrite <- mult_IZR, <- plus_IZR. apply IZR_le. lia. }
  unfold py_ceil64, py_div. fold x.
  assert (Up : rnd64 x <= IZR q) by (apply round_le_generic; [typeclasses eauto|typeclasses eauto|apply int_format; lia|exact Hx2]).
  assert (X0 : 0 <= x) by (unfold x; apply Rmult_le_pos; [apply IZR_le; lia|apply Rlt_le, Rinv_0_lt_compat; assumption]).
  apply Zceil_imp. split; [|exact Up].
  destruct (Z.eq_dec q 0) as [Eq|Hq0].
  { rewrite Eq. apply Rlt_le_trans with 0; [apply IZR_lt; lia|]. apply (@rnd64_ge x 0%Z); [lia|exact X0]. }
  destruct (Req_dec x (IZR q)) as [Ex|Hne].
  { rewrite Ex. unfold rnd64. rewrite round_generic; [apply IZR_lt; lia|typeclasses eauto|apply int_format; lia]. }
  assert (exists e, (0 <= e <= 53)%Z /\ (q <= 2 ^ e)%Z /\ (2 ^ e * b < 2 ^ 54)%Z) as (e & He & He1 & He2).
  { destruct (Z.eq_dec q 1) as [->|Hq1].
    - exists 0%Z. change (2 ^ 0)%Z with 1%Z. lia.
    - exists (Z.log2 (q - 1) + 1)%Z. pose proof (Z.log2_spec (q - 1) ltac:(lia)) as [L1 L2]. pose proof (Z.log2_nonneg (q - 1)).
      assert (Z.log2 (q - 1) < 53)%Z by (apply Z.log2_lt_pow2; lia).
      split; [lia|]. replace (Z.succ (Z.log2 (q - 1))) with (Z.log2 (q - 1) + 1)%Z in L2 by lia. split; [lia|].
      rewrite Z.pow_add_r by lia. nia. }
  assert (Hpow : IZR (2 ^ e) = bpow radix2 e) by (apply (IZR_Zpower radix2); lia).
  assert (XL : x < bpow radix2 e) by (rewrite <- Hpow; apply Rlt_le_trans with (IZR q); [lra|apply IZR_le, He1]).
  pose proof (@rnd64_error_low x e ltac:(lia) ltac:(split; assumption)) as HE.
  assert (Hlt : bpow radix2 (e - 54) < / IZR b).
  { replace (e - 54)%Z with (- (54 - e))%Z by lia. rewrite bpow_opp. apply Rinv_lt_contravar.
    - apply Rmult_lt_0_compat; [assumption|apply bpow_gt_0].
    - replace (bpow radix2 (54 - e)) with (IZR (2 ^ (54 - e))) by (apply (IZR_Zpower radix2); lia).
      apply IZR_lt. assert (2 ^ 54 = 2 ^ e * 2 ^ (54 - e))%Z by (rewrite <- Z.pow_add_r by lia; f_equal; lia).
      assert (0 < 2 ^ e)%Z by (apply Z.pow_pos_nonneg; lia). nia. }
  lra.
Qed.

(** A pixel of a 5000 x 5000 tile. *)
Example C49_float_example : py_int (py_div 24999999 5000) = 4999%Z.
Proof. rewrite C49_float_quotient by lia. reflexivity. Qed.
Print Assumptions C49_float_agrees.
