(** The state-space filter of S-CCD over the real numbers: conversion between
    harmonic coefficients and the state vector, one filter step
    (src/cxx/KFAS.c).  Rounding is not modelled: the C code computes in double
    and stores coefficients and covariances as float. *)
From Coq Require Import Reals Lra Lia List.
Import ListNotations.
Open Scope R_scope.

(** ** Finite sums *)

Fixpoint Sum (n : nat) (f : nat -> R) : R :=
  match n with O => 0 | S k => Sum k f + f k end.

Lemma Sum_ext : forall n f g, (forall i, (i < n)%nat -> f i = g i) -> Sum n f = Sum n g.
Proof. induction n; intros f g H; cbn; [reflexivity|]. rewrite (IHn f g); [rewrite H; [reflexivity|lia]|intros; apply H; lia]. Qed.
Lemma Sum_plus : forall n f g, Sum n (fun i => f i + g i) = Sum n f + Sum n g.
Proof. induction n; intros; cbn; [lra|]. rewrite IHn. lra. Qed.
Lemma Sum_scal : forall n c f, Sum n (fun i => c * f i) = c * Sum n f.
Proof. induction n; intros; cbn; [lra|]. rewrite IHn. lra. Qed.
Lemma Sum_scal_r : forall n c f, Sum n (fun i => f i * c) = Sum n f * c.
Proof. induction n; intros; cbn; [lra|]. rewrite IHn. lra. Qed.
Lemma Sum_zero : forall n, Sum n (fun _ => 0) = 0.
Proof. induction n; cbn; lra. Qed.
Lemma Sum_swap : forall n m f, Sum n (fun i => Sum m (fun j => f i j)) = Sum m (fun j => Sum n (fun i => f i j)).
Proof.
  induction n; intros; cbn; [symmetry; apply Sum_zero|]. rewrite IHn, <- Sum_plus. reflexivity.
Qed.
Lemma Sum_nonneg : forall n f, (forall i, (i < n)%nat -> 0 <= f i) -> 0 <= Sum n f.
Proof. induction n; intros; cbn; [lra|]. specialize (IHn f ltac:(intros; apply H; lia)). specialize (H n ltac:(lia)). lra. Qed.

Definition vec := nat -> R.
Definition mat := nat -> nat -> R.

Section Filter.
Variable m : nat.

Definition dot (x y : vec) : R := Sum m (fun i => x i * y i).
Definition mv (A : mat) (x : vec) : vec := fun i => Sum m (fun j => A i j * x j).
Definition form (A : mat) (x y : vec) : R := dot x (mv A y).

(** The symmetric matrix whose upper triangle is stored (CblasUpper). *)
Definition upper (A : mat) : mat := fun i j => if Nat.leb i j then A i j else A j i.

(** gsl_blas_dsyr (CblasUpper): only the upper triangle is written. *)
Definition dsyr (c : R) (k : vec) (A : mat) : mat :=
  fun i j => if Nat.leb i j then A i j + c * k i * k j else A i j.

(** P = T P T' + Q (KFAS.c 24-33, 108-117): dsymm with the upper triangle,
    dgemm with the transpose, matrix_add. *)
Definition propagate (T Q P : mat) : mat :=
  fun i j => Sum m (fun l => Sum m (fun k => T i k * upper P k l) * T j l) + Q i j.

(** KFAS_TOL (defines.h 146). *)
Definition tol : R := 1 / 100000000000000.

Record fstate := mkF { f_a : vec; f_P : mat }.

(** filter1step_missingobs (KFAS.c 10-46): the state vector is not touched. *)
Definition missing (T Q : mat) (s : fstate) : fstate := mkF (f_a s) (propagate T Q (f_P s)).

(** filter1step_validobs (KFAS.c 49-131).  Returns the new state and F_t. *)
Definition valid (z : vec) (h : R) (T Q : mat) (y : R) (s : fstate) : fstate * R :=
  let kt := mv (upper (f_P s)) z in
  let ft := dot z kt + h in
  let vt := y - dot z (f_a s) in
  if Rlt_dec tol ft then
    let finv := 1 / ft in
    (mkF (mv T (fun i => f_a s i + vt * finv * kt i)) (propagate T Q (dsyr (- finv) kt (f_P s))), ft)
  else (mkF (mv T (f_a s)) (propagate T Q (f_P s)), 0).

(** ** Specification *)
Definition symmetric (A : mat) : Prop := forall i j, A i j = A j i.
(** Positive semidefinite. *)
Definition psd (A : mat) : Prop := forall x, 0 <= form A x x.

Lemma upper_sym : forall A, symmetric (upper A).
Proof.
  intros A i j. unfold upper. destruct (Nat.leb_spec i j), (Nat.leb_spec j i); try reflexivity.
  - replace j with i by lia. reflexivity.
  - lia.
Qed.

Lemma upper_id : forall A, symmetric A -> forall i j, upper A i j = A i j.
Proof. intros A H i j. unfold upper. destruct (Nat.leb i j); [reflexivity|apply H]. Qed.

Lemma form_ext : forall A B x y, (forall i j, A i j = B i j) -> form A x y = form B x y.
Proof.
  intros A B x y H. unfold form, dot, mv. apply Sum_ext. intros i _. f_equal. apply Sum_ext. intros j _. rewrite H. reflexivity.
Qed.

Lemma form_expand : forall A x y, form A x y = Sum m (fun i => Sum m (fun j => x i * A i j * y j)).
Proof.
  intros. unfold form, dot, mv. apply Sum_ext. intros i _. rewrite <- Sum_scal. apply Sum_ext. intros. ring.
Qed.

Lemma form_comm : forall A x y, symmetric A -> form A x y = form A y x.
Proof.
  intros A x y H. rewrite !form_expand, Sum_swap. apply Sum_ext. intros i _. apply Sum_ext. intros j _. rewrite (H i j). ring.
Qed.

Lemma form_add : forall A x y t, symmetric A ->
  form A (fun i => x i + t * y i) (fun i => x i + t * y i) = form A x x + 2 * t * form A x y + t * t * form A y y.
Proof.
  intros A x y t H. transitivity (form A x x + t * form A x y + (t * form A y x + t * t * form A y y)).
  - rewrite !form_expand, <- !Sum_scal, <- !Sum_plus. apply Sum_ext. intros i _.
    rewrite <- !Sum_scal, <- !Sum_plus. apply Sum_ext. intros. ring.
  - rewrite (form_comm A y x) by assumption. ring.
Qed.

(** Cauchy-Schwarz for a positive semidefinite form. *)
Lemma cauchy : forall A x y, symmetric A -> psd A -> form A x y * form A x y <= form A x x * form A y y.
Proof.
  intros A x y Hs Hp.
  assert (H : forall t, 0 <= form A x x + 2 * t * form A x y + t * t * form A y y).
  { intros t. rewrite <- form_add by assumption. apply Hp. }
  pose proof (Hp x) as Hx. pose proof (Hp y) as Hy.
  set (a := form A x x) in *. set (b := form A x y) in *. set (c := form A y y) in *. clearbody a b c.
  destruct (Req_dec c 0) as [->|Hc].
  - destruct (Req_dec b 0) as [->|Hb]; [lra|].
    specialize (H (- (a + 1) / (2 * b))).
    replace (2 * (- (a + 1) / (2 * b)) * b) with (- (a + 1)) in H by (field; lra). lra.
  - specialize (H (- b / c)).
    replace (a + 2 * (- b / c) * b + - b / c * (- b / c) * c) with ((a * c - b * b) / c) in H by (field; lra).
    assert (0 < c) by lra.
    assert (0 <= (a * c - b * b) / c * c) by (apply Rmult_le_pos; lra).
    replace ((a * c - b * b) / c * c) with (a * c - b * b) in H1 by (field; lra). lra.
Qed.

Definition mtx (T : mat) (x : vec) : vec := fun k => Sum m (fun i => T i k * x i).

Lemma propagate_form : forall T Q P x, form (propagate T Q P) x x = form (upper P) (mtx T x) (mtx T x) + form Q x x.
Proof.
  intros. rewrite !form_expand. unfold propagate.
  transitivity (Sum m (fun i => Sum m (fun j => Sum m (fun l => Sum m (fun k => x i * T i k * upper P k l * (T j l * x j)))))
                + Sum m (fun i => Sum m (fun j => x i * Q i j * x j))).
  { rewrite <- Sum_plus. apply Sum_ext. intros i _. rewrite <- Sum_plus. apply Sum_ext. intros j _.
    replace (Sum m (fun l => Sum m (fun k => x i * T i k * upper P k l * (T j l * x j))))
      with (x i * Sum m (fun l => Sum m (fun k => T i k * upper P k l) * T j l) * x j).
    - ring.
    - rewrite <- Sum_scal, <- Sum_scal_r. apply Sum_ext. intros l _.
      rewrite <- Sum_scal_r, <- Sum_scal, <- Sum_scal_r. apply Sum_ext. intros. ring. }
  f_equal.
  transitivity (Sum m (fun k => Sum m (fun l => Sum m (fun i => Sum m (fun j => x i * T i k * upper P k l * (T j l * x j)))))).
  - transitivity (Sum m (fun i => Sum m (fun k => Sum m (fun l => Sum m (fun j => x i * T i k * upper P k l * (T j l * x j)))))).
    + apply Sum_ext. intros i _.
      transitivity (Sum m (fun j => Sum m (fun k => Sum m (fun l => x i * T i k * upper P k l * (T j l * x j))))).
      * apply Sum_ext. intros j _. apply Sum_swap.
      * rewrite Sum_swap. apply Sum_ext. intros k _. rewrite Sum_swap. reflexivity.
    + rewrite Sum_swap. apply Sum_ext. intros k _. rewrite Sum_swap. reflexivity.
  - apply Sum_ext. intros k _. apply Sum_ext. intros l _. unfold mtx.
    rewrite <- !Sum_scal_r. apply Sum_ext. intros i _.
    rewrite <- Sum_scal. apply Sum_ext. intros j _. ring.
Qed.

Lemma propagate_sym : forall T Q P, symmetric Q -> symmetric (propagate T Q P).
Proof.
  intros T Q P HQ i j. unfold propagate. rewrite (HQ i j). f_equal.
  transitivity (Sum m (fun l => Sum m (fun k => T i k * upper P k l * T j l))).
  { apply Sum_ext. intros l _. rewrite <- Sum_scal_r. reflexivity. }
  rewrite Sum_swap. apply Sum_ext. intros l _. rewrite <- Sum_scal_r. apply Sum_ext. intros k _.
  rewrite (upper_sym P l k). ring.
Qed.

Lemma upper_dsyr : forall c k A i j, upper (dsyr c k A) i j = upper A i j + c * k i * k j.
Proof.
  intros. unfold upper, dsyr. destruct (Nat.leb_spec i j).
  - destruct (Nat.leb_spec i j); [reflexivity|lia].
  - destruct (Nat.leb_spec j i); [ring|lia].
Qed.

Lemma dsyr_form : forall c k A x, form (upper (dsyr c k A)) x x = form (upper A) x x + c * dot x k * dot x k.
Proof.
  intros. transitivity (form (fun i j => upper A i j + c * k i * k j) x x); [apply form_ext, upper_dsyr|].
  rewrite !form_expand. unfold dot.
  transitivity (Sum m (fun i => Sum m (fun j => x i * upper A i j * x j)) + Sum m (fun i => Sum m (fun j => c * (x i * k i) * (x j * k j)))).
  - rewrite <- Sum_plus. apply Sum_ext. intros i _. rewrite <- Sum_plus. apply Sum_ext. intros. ring.
  - f_equal. transitivity (Sum m (fun i => x i * k i) * (c * Sum m (fun i => x i * k i))); [|ring].
    rewrite <- Sum_scal_r. apply Sum_ext. intros i _. rewrite <- !Sum_scal. apply Sum_ext. intros. ring.
Qed.

(** The update with an observation keeps the form non-negative and does not
    increase it. *)
Lemma update_form : forall z h P x, 0 <= h -> psd (upper P) ->
  let kt := mv (upper P) z in let ft := dot z kt + h in
  0 < ft ->
  0 <= form (upper (dsyr (- (1 / ft)) kt P)) x x <= form (upper P) x x.
Proof.
  intros z h P x Hh Hp kt ft Hf. rewrite dsyr_form.
  pose proof (cauchy (upper P) x z (upper_sym P) Hp) as Hc.
  change (dot x kt) with (form (upper P) x z). change (dot z kt) with (form (upper P) z z) in ft.
  pose proof (Hp x) as Hx. pose proof (Hp z) as Hz.
  set (b := form (upper P) x z) in *. set (a := form (upper P) x x) in *. set (c := form (upper P) z z) in *.
  subst ft. clearbody a b c. clear kt.
  assert (Hb : b * b <= a * (c + h)) by nra.
  assert (Hq : b * b / (c + h) <= a).
  { apply Rmult_le_reg_r with (c + h); [assumption|]. unfold Rdiv. rewrite Rmult_assoc, Rinv_l by lra. lra. }
  assert (Hq' : 0 <= b * b / (c + h)).
  { unfold Rdiv. apply Rmult_le_pos; [nra|]. left. apply Rinv_0_lt_compat. assumption. }
  replace (a + - (1 / (c + h)) * b * b) with (a - b * b / (c + h)) by (field; lra). lra.
Qed.

(** ** C46 *)

(** Covariance as the code reads it: the upper triangle. *)
Definition good (s : fstate) : Prop := psd (upper (f_P s)).

Lemma propagate_good : forall T Q P, symmetric Q -> psd Q -> psd (upper P) -> psd (upper (propagate T Q P)).
Proof.
  intros T Q P HQs HQ HP x.
  rewrite (form_ext (upper (propagate T Q P)) (propagate T Q P)) by (intros; apply upper_id, propagate_sym, HQs).
  rewrite propagate_form. pose proof (HP (mtx T x)). pose proof (HQ x). lra.
Qed.

(** One day without, or one day with an observation. *)
Inductive day := Skip | Obs (y : R).
Fixpoint days (z : vec) (h : R) (T Q : mat) (l : list day) (s : fstate) : fstate * list R :=
  match l with
  | [] => (s, [])
  | Skip :: t => days z h T Q t (missing T Q s)
  | Obs y :: t => let '(s', f) := valid z h T Q y s in let '(s2, fs) := days z h T Q t s' in (s2, f :: fs)
  end.

Theorem C46_covariance : forall z h T Q l s, 0 <= h -> symmetric Q -> psd Q -> psd (upper (f_P s)) ->
  psd (upper (f_P (fst (days z h T Q l s)))) /\ Forall (fun f => 0 <= f) (snd (days z h T Q l s)).
Proof.
  intros z h T Q l s Hh HQs HQ. revert s. induction l as [|d t IH]; intros s Hs; [cbn; auto|].
  destruct d as [|y]; cbn [days].
  - apply IH. apply propagate_good; assumption.
  - assert (H1 : psd (upper (f_P (fst (valid z h T Q y s)))) /\ 0 <= snd (valid z h T Q y s)).
    { unfold valid. pose proof (Hs z) as Hz. unfold form in Hz. destruct (Rlt_dec _ _) as [Hl|Hl]; cbn [fst snd f_P].
      - split; [|lra]. apply propagate_good; try assumption. intros x.
        apply (update_form z h (f_P s) x Hh Hs). unfold tol in Hl. lra.
      - split; [|lra]. apply propagate_good; assumption. }
    destruct (valid z h T Q y s) as [s' f]. cbn [fst snd] in H1. destruct H1 as [H1 H2].
    specialize (IH s' H1). destruct (days z h T Q t s') as [s2 fs]. cbn [fst snd] in *.
    destruct IH. split; [assumption|]. constructor; assumption.
Qed.

(** A run of days without observation moves the covariance only; the state
    vector is carried over, because the code recomputes it from the harmonic
    coefficients at the next observation. *)
Theorem C46_gap : forall z h T Q n s,
  f_a (fst (days z h T Q (repeat Skip n) s)) = f_a s /\
  f_P (fst (days z h T Q (repeat Skip n) s)) = Nat.iter n (propagate T Q) (f_P s) /\
  snd (days z h T Q (repeat Skip n) s) = [].
Proof.
  intros z h T Q. induction n as [|n IH]; intro s; [cbn; auto|]. cbn [repeat days].
  destruct (IH (missing T Q s)) as (A & B & C). rewrite A, B, C. split; [reflexivity|]. split; [|reflexivity].
  cbn [missing f_P]. clear. generalize (f_P s). induction n as [|n IH]; intro P; [reflexivity|].
  cbn [Nat.iter nat_rect]. f_equal. apply IH.
Qed.

(** After every step the stored matrix is symmetric: the lower triangle, which
    no routine reads, holds the same numbers (s_ccd.c stores the whole
    matrix). *)
Theorem C46_symmetric : forall z h T Q l s, symmetric Q -> symmetric (f_P s) ->
  symmetric (f_P (fst (days z h T Q l s))).
Proof.
  intros z h T Q l s HQ. revert s. induction l as [|d t IH]; intros s Hs; [assumption|].
  destruct d as [|y]; cbn [days].
  - apply IH. apply propagate_sym. assumption.
  - assert (H1 : symmetric (f_P (fst (valid z h T Q y s)))).
    { unfold valid. destruct (Rlt_dec _ _); apply propagate_sym; assumption. }
    destruct (valid z h T Q y s) as [s' f]. cbn [fst] in H1. specialize (IH s' H1).
    destruct (days z h T Q t s') as [s2 fs]. assumption.
Qed.

End Filter.

Arguments dot m x y : clear implicits.

(** ** C45: harmonic coefficients and state *)

(** SLOPE_SCALE (defines.h 131). *)
Definition scale : R := 10000.
(** TWO_PI / AVE_DAYS_IN_A_YEAR = TWO_PI / NUM_YEARS (defines.h 17, 60); any
    frequency will do. *)
Section Harmonic.
Variable w : R.

(** Six coefficients, six states (DEFAULT_N_STATE 6, structure 11). *)
Record six := mk6 { x0 : R; x1 : R; x2 : R; x3 : R; x4 : R; x5 : R }.
Definition vec6 (a : six) : vec := fun i => nth i [x0 a; x1 a; x2 a; x3 a; x4 a; x5 a] 0.

(** fit_cft2vec_a (KFAS.c 285-329), m = 6, structure = 11. *)
Definition to_state (c : six) (d : R) : six :=
  mk6 (x0 c + d * x1 c / scale) (x1 c / scale)
      (x2 c * cos (d * w) + x3 c * sin (d * w)) (- x2 c * sin (d * w) + x3 c * cos (d * w))
      (x4 c * cos (d * 2 * w) + x5 c * sin (d * 2 * w)) (- x4 c * sin (d * 2 * w) + x5 c * cos (d * 2 * w)).

(** vec_a2fit_cft (KFAS.c 334-383). *)
Definition of_state (a : six) (d : R) : six :=
  mk6 (x0 a - x1 a * d) (x1 a * scale)
      (cos (d * w) * x2 a - sin (d * w) * x3 a) (cos (d * w) * x3 a + sin (d * w) * x2 a)
      (cos (d * 2 * w) * x4 a - sin (d * 2 * w) * x5 a) (cos (d * 2 * w) * x5 a + sin (d * 2 * w) * x4 a).

(** The transition matrix (KFAS.c 420-517) and the observation vector
    (520-528). *)
Definition trans : mat := fun i j =>
  nth j (nth i [[1; 1; 0; 0; 0; 0];
                [0; 1; 0; 0; 0; 0];
                [0; 0; cos w; sin w; 0; 0];
                [0; 0; - sin w; cos w; 0; 0];
                [0; 0; 0; 0; cos (w * 2); sin (w * 2)];
                [0; 0; 0; 0; - sin (w * 2); cos (w * 2)]] []) 0.
Definition zobs : vec := fun i => nth i [1; 0; 1; 0; 1; 0] 0.

(** auto_ts_predict_float (misc.c 1681-1689), df = 6. *)
Definition predict (c : six) (d : R) : R :=
  x0 c + x1 c * d / scale + x2 c * cos (d * w) + x3 c * sin (d * w)
  + x4 c * cos (d * (2 * w)) + x5 c * sin (d * (2 * w)).

Lemma pyth : forall t, cos t * cos t = 1 - sin t * sin t.
Proof. intros t. pose proof (sin2_cos2 t) as H. unfold Rsqr in H. lra. Qed.

Ltac eq6 := unfold to_state, of_state, scale; cbn [x0 x1 x2 x3 x4 x5]; f_equal.

Theorem C45_coefficients : forall c d, of_state (to_state c d) d = c.
Proof.
  intros [c0 c1 c2 c3 c4 c5] d. eq6; try (field; lra); ring_simplify;
    rewrite ?(Rmult_comm 2 d); repeat rewrite <- Rsqr_pow2; unfold Rsqr; rewrite ?pyth; ring.
Qed.

Theorem C45_state : forall a d, to_state (of_state a d) d = a.
Proof.
  intros [c0 c1 c2 c3 c4 c5] d. eq6; try (field; lra); ring_simplify;
    repeat rewrite <- Rsqr_pow2; unfold Rsqr; rewrite ?pyth; ring.
Qed.

(** The observation of the state is the harmonic prediction. *)
Theorem C45_prediction : forall c d, dot 6 zobs (vec6 (to_state c d)) = predict c d.
Proof.
  intros c d. unfold dot, zobs, vec6, to_state, predict. cbn [Sum nth x0 x1 x2 x3 x4 x5].
  replace (d * (2 * w)) with (d * 2 * w) by ring. field. unfold scale. lra.
Qed.

(** A day of transition is re-evaluation of the same coefficients a day later. *)
Theorem C45_next_day : forall c d i, (i < 6)%nat ->
  mv 6 trans (vec6 (to_state c d)) i = vec6 (to_state c (d + 1)) i.
Proof.
  intros c d i Hi. unfold mv, trans, vec6, to_state.
  replace ((d + 1) * w) with (d * w + w) by ring. replace ((d + 1) * 2 * w) with (d * 2 * w + w * 2) by ring.
  rewrite !cos_plus, !sin_plus.
  assert (scale <> 0) by (unfold scale; lra).
  destruct i as [|[|[|[|[|[|i]]]]]]; [| | | | | |lia]; cbn [Sum nth x0 x1 x2 x3 x4 x5]; try (field; assumption); ring.
Qed.

(** Days without observation leave the coefficients alone, for every state:
    the code keeps fit_cft and only steps the covariance (s_ccd.c 1620-1628,
    1650-1656). *)
Definition six_of (v : vec) : six := mk6 (v 0%nat) (v 1%nat) (v 2%nat) (v 3%nat) (v 4%nat) (v 5%nat).
Theorem C45_gap : forall a d n, of_state (six_of (Nat.iter n (mv 6 trans) (vec6 a))) (d + INR n) = of_state a d.
Proof.
  intros a d n. rewrite <- (C45_state a d). set (c := of_state a d). clearbody c. rewrite C45_coefficients.
  assert (H : forall k, six_of (Nat.iter k (mv 6 trans) (vec6 (to_state c d))) = to_state c (d + INR k)).
  { induction k.
    - cbn [Nat.iter nat_rect INR]. rewrite Rplus_0_r. destruct (to_state c d). reflexivity.
    - cbn [Nat.iter nat_rect]. rewrite S_INR.
      assert (He : forall i, (i < 6)%nat -> Nat.iter k (mv 6 trans) (vec6 (to_state c d)) i = vec6 (to_state c (d + INR k)) i).
      { intros i Hi. rewrite <- IHk. destruct i as [|[|[|[|[|[|i]]]]]]; try reflexivity; lia. }
      assert (Hm : forall i, (i < 6)%nat -> mv 6 trans (Nat.iter k (mv 6 trans) (vec6 (to_state c d))) i = vec6 (to_state c (d + (INR k + 1))) i).
      { intros i Hi. rewrite <- Rplus_assoc. rewrite <- C45_next_day by assumption. unfold mv. apply Sum_ext.
        intros j Hj. rewrite He by assumption. reflexivity. }
      unfold six_of. rewrite !Hm by lia. destruct (to_state c (d + (INR k + 1))). reflexivity. }
  rewrite H. apply C45_coefficients.
Qed.

(** ** C83: one observation moves the prediction towards the observed value *)

(** filter on one band at one observation (s_ccd.c 1597-1616): coefficients to
    state at the date of the observation, filter step, state of the next day
    back to coefficients. *)
Definition assimilate (h : R) (Q : mat) (d : R) (y : R) (c : six) (P : mat) : six * mat :=
  let '(s, _) := valid 6 zobs h trans Q y (mkF (vec6 (to_state c d)) P) in
  (of_state (six_of (f_a s)) (d + 1), f_P s).

Lemma of_next : forall v d, of_state (six_of (mv 6 trans v)) (d + 1) = of_state (six_of v) d.
Proof.
  intros v d. pose proof (C45_gap (six_of v) d 1) as H. cbn [Nat.iter nat_rect INR] in H. rewrite <- H. f_equal.
Qed.

Theorem C83_towards : forall h Q d y c P, 0 <= h -> psd 6 (upper P) ->
  exists g, 0 <= g <= 1 /\
    predict (fst (assimilate h Q d y c P)) d = predict c d + g * (y - predict c d).
Proof.
  intros h Q d y c P Hh HP. unfold assimilate, valid. cbn [f_a f_P].
  set (kt := mv 6 (upper P) zobs). pose proof (HP zobs) as Hz. change (form 6 (upper P) zobs zobs) with (dot 6 zobs kt) in Hz.
  destruct (Rlt_dec _ _) as [Hl|Hl]; cbn [fst f_a].
  - exists (dot 6 zobs kt / (dot 6 zobs kt + h)). unfold tol in Hl.
    assert (Hf : 0 < dot 6 zobs kt + h) by lra. split.
    + split.
      * unfold Rdiv. apply Rmult_le_pos; [assumption|]. left. apply Rinv_0_lt_compat. assumption.
      * apply Rmult_le_reg_r with (dot 6 zobs kt + h); [assumption|]. unfold Rdiv.
        rewrite Rmult_assoc, Rinv_l by lra. lra.
    + rewrite of_next. rewrite <- (C45_prediction (of_state _ d) d), C45_state, <- (C45_prediction c d).
      set (a := vec6 (to_state c d)). set (f := dot 6 zobs kt + h) in *.
      set (v := y - dot 6 zobs a).
      replace (dot 6 zobs (vec6 (six_of (fun i => a i + v * (1 / f) * kt i))))
        with (dot 6 zobs a + v * (1 / f) * dot 6 zobs kt).
      * field. lra.
      * unfold dot, zobs, vec6, six_of. cbn [Sum nth x0 x1 x2 x3 x4 x5]. ring.
  - exists 0. split; [lra|]. rewrite of_next.
    replace (six_of (vec6 (to_state c d))) with (to_state c d) by (destruct (to_state c d); reflexivity).
    rewrite C45_coefficients. ring.
Qed.

(** An observation that agrees with the prediction changes no coefficient. *)
Theorem C83_agreeing : forall h Q d c P, fst (assimilate h Q d (predict c d) c P) = c.
Proof.
  intros h Q d c P. unfold assimilate, valid. cbn [f_a f_P]. rewrite C45_prediction.
  destruct (Rlt_dec _ _); cbn [fst f_a]; rewrite of_next.
  - transitivity (of_state (to_state c d) d); [|apply C45_coefficients]. f_equal. unfold six_of, vec6. cbn [nth].
    destruct (to_state c d). cbn [x0 x1 x2 x3 x4 x5]. f_equal; ring.
  - transitivity (of_state (to_state c d) d); [reflexivity|apply C45_coefficients].
Qed.
End Harmonic.

(** A concrete filter: two states, two days. *)
Example C46_example :
  let T : mat := fun i j => match i, j with O, O | O, S O | S O, S O => 1 | _, _ => 0 end in
  let I : mat := fun i j => if Nat.eqb i j then 1 else 0 in
  let z : vec := fun i => match i with O => 1 | _ => 0 end in
  symmetric I /\ psd 2 I /\ psd 2 (upper I) /\
  snd (days 2 z 1 T I [Obs 3; Skip; Obs 5] (mkF (fun _ => 0) I)) <> [].
Proof.
  cbv zeta. assert (Hs : symmetric (fun i j => if Nat.eqb i j then 1 else 0)).
  { intros i j. rewrite Nat.eqb_sym. reflexivity. }
  assert (Hp : psd 2 (fun i j => if Nat.eqb i j then 1 else 0)).
  { intros x. unfold form, dot, mv. cbn. nra. }
  split; [assumption|]. split; [assumption|]. split.
  - intros x. rewrite (form_ext 2 _ (fun i j => if Nat.eqb i j then 1 else 0)); [apply Hp|]. apply upper_id. assumption.
  - cbn [days]. destruct (valid 2 _ 1 _ _ 3 _) as [s f]. destruct (valid 2 _ 1 _ _ 5 _) as [s2 f2]. discriminate.
Qed.

Example C45_example : predict (PI / 2) (mk6 100 20000 3 4 5 6) 1 = 100 + 2 + 4 - 5.
Proof.
  unfold predict, scale. cbn [x0 x1 x2 x3 x4 x5].
  replace (1 * (PI / 2)) with (PI / 2) by ring. replace (1 * (2 * (PI / 2))) with PI by field.
  rewrite cos_PI2, sin_PI2, cos_PI, sin_PI. field.
Qed.

Print Assumptions C45_coefficients.
Print Assumptions C45_state.
Print Assumptions C45_prediction.
Print Assumptions C45_next_day.
Print Assumptions C45_gap.
Print Assumptions C46_covariance.
Print Assumptions C46_symmetric.
Print Assumptions C46_gap.
Print Assumptions C83_towards.
Print Assumptions C83_agreeing.
