(** The outlier mask of a window (src/cxx/misc.c 1459-1557, auto_robust_fit
    1275-1340) and the robust fit below it (src/cxx/multirobust.c 241-424,
    robust_madsigma 485-509), in exact arithmetic.

    Cosine and sine are arbitrary functions.  The two least-squares solvers
    (gsl_multifit_linear, gsl_multifit_wlinear: GSL, not in /repo) are arbitrary
    functions; the bisquare weights are those of GSL's
    gsl_multifit_robust_bisquare, tuning constant 4.685. *)
From Coq Require Import Reals Lra.
From Verif Require Import Base.

(* ------------------------------------------------------------------ *)
(** * The scale and the weights *)

(** gsl_sort_vector. *)
Fixpoint insert (x : R) (l : list R) : list R :=
  match l with
  | [] => [x]
  | y :: t => if Rle_dec x y then x :: l else y :: insert x t
  end.
Fixpoint rsort (l : list R) : list R :=
  match l with [] => [] | x :: t => insert x (rsort t) end.

(** gsl_stats_median_from_sorted_data: the middle value, or the mean of the
    two middle ones. *)
Definition median_sorted (v : list R) : R :=
  let k := length v in
  if Nat.odd k then nth ((k - 1) / 2) v 0%R
  else ((nth ((k - 1) / 2) v 0 + nth (k / 2) v 0) / 2)%R.

(** robust_madsigma (multirobust.c 485-509): the subvector starts at p - 1
    and has n - p + 1 entries. *)
Definition madsigma (p : nat) (r : list R) : R :=
  (median_sorted (firstn (length r - p + 1) (skipn (p - 1) (rsort (map Rabs r)))) / 0.6745)%R.

(** The bisquare weight of GSL. *)
Definition bisquare (u : R) : R :=
  if Rlt_dec (Rabs u) 1 then ((1 - u * u) * (1 - u * u))%R else 0%R.
(** w->tune (multirobust.c 90): the default of the bisquare type. *)
Definition tune : R := 4.685.

(** sig_lower (multirobust.c 295-297). *)
Definition sig_lower (sd : R) : R :=
  let s := (/ 1000000 * sd)%R in if Req_EM_T s 0 then 1%R else s.

(** The weights of one pass (multirobust.c 336-350). *)
Definition weights (p : nat) (low : R) (r : list R) : list R :=
  map (fun x => bisquare (x * / (Rmax (madsigma p r) low * tune)))%R r.

(** The leverage factors (multirobust.c 313-322). *)
Definition resfac (h : R) : R :=
  (1 / sqrt (1 - (if Rlt_dec 0.9999 h then 0.9999 else h)))%R.

(* ------------------------------------------------------------------ *)
(** ** Lemmas on sorting and counting *)

Lemma insert_perm : forall x l, Permutation (x :: l) (insert x l).
Proof.
  induction l as [|y t IH]; simpl; [reflexivity|].
  destruct (Rle_dec x y); [reflexivity|].
  rewrite perm_swap. constructor. exact IH.
Qed.

Lemma rsort_perm : forall l, Permutation l (rsort l).
Proof.
  induction l as [|x t IH]; simpl; [reflexivity|].
  rewrite <- insert_perm. constructor. exact IH.
Qed.

Lemma insert_sorted : forall x l, StronglySorted Rle l -> StronglySorted Rle (insert x l).
Proof.
  intros x l H. induction H as [|y t Hs IH Hf]; simpl.
  - repeat constructor.
  - destruct (Rle_dec x y) as [L|L].
    + constructor; [constructor; assumption|]. constructor; [exact L|].
      eapply Forall_impl; [|exact Hf]. intros a Ha; simpl in Ha. lra.
    + constructor; [exact IH|]. apply (Permutation_Forall (insert_perm x t)).
      constructor; [lra|exact Hf].
Qed.

Lemma rsort_sorted : forall l, StronglySorted Rle (rsort l).
Proof. induction l; simpl; [constructor|apply insert_sorted; assumption]. Qed.

Lemma sorted_nth : forall l, StronglySorted Rle l -> forall i j, (i <= j < length l)%nat ->
  (nth i l 0 <= nth j l 0)%R.
Proof.
  intros l H. induction H as [|y t Hs IH Hf]; intros i j Hij; [simpl in Hij; lia|].
  destruct j as [|j]; destruct i as [|i]; simpl in *; try lia; try lra.
  - rewrite Forall_forall in Hf. apply Hf. apply nth_In. lia.
  - apply IH. lia.
Qed.

(** How many entries satisfy a test. *)
Definition count {A} (f : A -> bool) (l : list A) : nat := length (filter f l).

Lemma count_perm : forall A (f : A -> bool) l1 l2, Permutation l1 l2 -> count f l1 = count f l2.
Proof.
  intros A f l1 l2 H. unfold count. induction H; simpl; auto.
  - destruct (f x); simpl; lia.
  - destruct (f x), (f y); simpl; lia.
  - lia.
Qed.

Lemma count_prefix : forall A (f : A -> bool) d (l : list A) m, (m <= length l)%nat ->
  (forall i, (i < m)%nat -> f (nth i l d) = true) -> (m <= count f l)%nat.
Proof.
  intros A f d l. unfold count. induction l as [|x t IH]; intros m Hm H; simpl in *; [lia|].
  destruct m as [|m]; [lia|].
  specialize (H O) as H0. simpl in H0. rewrite H0 by lia. simpl.
  specialize (IH m). assert (m <= length (filter f t))%nat; [|lia].
  apply IH; [lia|]. intros i Hi. apply (H (S i)). lia.
Qed.

Lemma count_map : forall A B (g : A -> B) (f : B -> bool) l, count f (map g l) = count (fun x => f (g x)) l.
Proof. intros. unfold count. induction l; simpl; auto. destruct (f (g a)); simpl; lia. Qed.

Lemma count_le : forall A (f g : A -> bool) l, (forall x, In x l -> f x = true -> g x = true) -> (count f l <= count g l)%nat.
Proof.
  intros A f g l. unfold count. induction l as [|x t IH]; intros H; simpl; [lia|].
  assert (length (filter f t) <= length (filter g t))%nat by (apply IH; intros; apply H; simpl; auto).
  destruct (f x) eqn:E; [rewrite (H x) by (simpl; auto); simpl; lia|].
  destruct (g x); simpl; lia.
Qed.

Definition leb (b a : R) : bool := if Rle_dec a b then true else false.
Lemma leb_true : forall a b, leb b a = true <-> (a <= b)%R.
Proof. intros. unfold leb. destruct (Rle_dec a b); split; intros; auto; try discriminate; contradiction. Qed.

Section Scale.
Variables (p : nat) (r : list R).
Hypothesis Hp : (1 <= p <= length r)%nat.
Let n := length r.
Let L := rsort (map Rabs r).
Let med := median_sorted (firstn (n - p + 1) (skipn (p - 1) L)).

Lemma L_length : length L = n.
Proof. unfold L. rewrite <- (Permutation_length (rsort_perm _)). apply map_length. Qed.

Lemma tail_all : firstn (n - p + 1) (skipn (p - 1) L) = skipn (p - 1) L.
Proof. apply firstn_all2. rewrite skipn_length, L_length. subst n. lia. Qed.

Lemma nth_tail : forall i, nth i (skipn (p - 1) L) 0%R = nth (p - 1 + i) L 0%R.
Proof.
  intros i. rewrite <- (firstn_skipn (p - 1) L) at 2. rewrite app_nth2.
  - rewrite firstn_length, L_length. f_equal. subst n. lia.
  - rewrite firstn_length, L_length. subst n. lia.
Qed.

Lemma med_low : (nth (p - 1 + (n - p) / 2) L 0 <= med)%R.
Proof.
  unfold med. rewrite tail_all. unfold median_sorted.
  rewrite skipn_length, L_length, !nth_tail.
  replace (n - (p - 1) - 1)%nat with (n - p)%nat by lia.
  destruct (Nat.odd _); [lra|].
  assert (nth (p - 1 + (n - p) / 2) L 0 <= nth (p - 1 + (n - (p - 1)) / 2) L 0)%R; [|lra].
  apply sorted_nth; [apply rsort_sorted|]. rewrite L_length.
  assert ((n - p) / 2 <= (n - (p - 1)) / 2)%nat by (apply Nat.div_le_mono; lia).
  assert ((n - (p - 1)) / 2 <= n - p)%nat by (subst n; lia).
  subst n. lia.
Qed.

Lemma abs_nonneg : forall i, (0 <= nth i L 0)%R.
Proof.
  intros i. destruct (Nat.lt_ge_cases i (length L)) as [H|H].
  - assert (Hin : In (nth i L 0%R) (map Rabs r)).
    { apply (Permutation_in (l := L)); [symmetry; apply rsort_perm|apply nth_In; exact H]. }
    apply in_map_iff in Hin. destruct Hin as (x & <- & _). apply Rabs_pos.
  - rewrite nth_overflow by exact H. lra.
Qed.

Lemma med_nonneg : (0 <= med)%R.
Proof. eapply Rle_trans; [|apply med_low]. apply abs_nonneg. Qed.

(** At least p + (n - p) / 2 residuals are no larger than the median used. *)
Lemma below_median : (p + (n - p) / 2 <= count (fun x => leb med (Rabs x)) r)%nat.
Proof.
  rewrite <- (@count_map _ _ Rabs (leb med)). rewrite (@count_perm _ _ _ _ (rsort_perm (map Rabs r))).
  fold L. assert ((n - p) / 2 <= n - p)%nat by (apply Nat.div_le_upper_bound; subst n; lia).
  apply count_prefix with (d := 0%R); [rewrite L_length; subst n; lia|].
  intros i Hi. apply leb_true. eapply Rle_trans; [|apply med_low].
  apply sorted_nth; [apply rsort_sorted|]. rewrite L_length. subst n. lia.
Qed.

(** With at most one residual more than coefficients, none exceeds twice the
    median used. *)
Lemma small_median : (n <= p + 1)%nat -> forall x, In x r -> (Rabs x <= 2 * med)%R.
Proof.
  intros Hn x Hx.
  assert (Hin : In (Rabs x) L).
  { apply (Permutation_in (l := map Rabs r)); [apply rsort_perm|apply in_map; exact Hx]. }
  destruct (In_nth L (Rabs x) 0%R Hin) as (i & Hi & <-). rewrite L_length in Hi.
  assert (T : (nth i L 0 <= nth (n - 1) L 0)%R).
  { apply sorted_nth; [apply rsort_sorted|rewrite L_length; subst n; lia]. }
  assert (M : (nth (n - 1) L 0 <= 2 * med)%R); [|lra].
  pose proof (abs_nonneg (p - 1)) as A1.
  unfold med. rewrite tail_all. unfold median_sorted. rewrite skipn_length, L_length, !nth_tail.
  pose proof (abs_nonneg (n - 1)) as A2.
  assert (Hc : n = p \/ n = S p) by (subst n; lia). destruct Hc as [E|E].
  - replace (n - (p - 1))%nat with 1%nat by lia. simpl. replace (p - 1 + 0)%nat with (n - 1)%nat by lia. lra.
  - replace (n - (p - 1))%nat with 2%nat by lia. simpl.
    replace (p - 1 + 1)%nat with (n - 1)%nat by lia. replace (p - 1 + 0)%nat with (p - 1)%nat by lia. lra.
Qed.

Lemma sigma_med : madsigma p r = (med / 0.6745)%R.
Proof. reflexivity. Qed.
End Scale.

Lemma bisquare_range : forall u, (0 <= bisquare u <= 1)%R.
Proof.
  intros u. unfold bisquare. destruct (Rlt_dec (Rabs u) 1) as [H|H]; [|lra].
  assert (0 <= u * u)%R by nra. assert (u * u <= 1)%R by (apply Rabs_def2 in H; nra). nra.
Qed.

Lemma bisquare_low : forall u b, (Rabs u <= b)%R -> (b < 1)%R -> ((1 - b * b) * (1 - b * b) <= bisquare u)%R.
Proof.
  intros u b H Hb. unfold bisquare. destruct (Rlt_dec (Rabs u) 1) as [_|N]; [|lra].
  assert (0 <= u * u <= b * b)%R.
  { assert (E : (u * u = Rabs u * Rabs u)%R) by (unfold Rabs; destruct (Rcase_abs u); lra).
    rewrite E. pose proof (Rabs_pos u). nra. }
  assert (0 <= b)%R by (pose proof (Rabs_pos u); lra).
  assert (b * b < 1)%R by nra. nra.
Qed.

Lemma scaled : forall x s m c, (0 < s)%R -> (m / 0.6745 <= s)%R -> (0 <= c)%R -> (Rabs x <= c * m)%R ->
  (Rabs (x * / (s * tune)) <= c * (0.6745 / tune))%R.
Proof.
  intros x s m c Hs Hm Hc Hx. unfold tune.
  rewrite Rabs_mult, (Rabs_pos_eq (/ _)) by (apply Rlt_le, Rinv_0_lt_compat; lra).
  apply Rmult_le_reg_r with (s * 4.685)%R; [lra|].
  rewrite Rmult_assoc, Rinv_l by lra.
  assert (m <= 0.6745 * s)%R by lra.
  assert (c * m <= c * (0.6745 * s))%R by nra. lra.
Qed.

(** The lower bound of the scale is positive. *)
Lemma sig_lower_pos : forall sd, (0 <= sd)%R -> (0 < sig_lower sd)%R.
Proof.
  intros sd H. unfold sig_lower. destruct (Req_EM_T _ _) as [E|E]; [lra|].
  assert (0 <= / 1000000 * sd)%R by nra. lra.
Qed.

(** The factors applied to the residuals lie between 1 and 100. *)
Theorem C96_resfac : forall h, (0 <= h)%R -> (1 <= resfac h <= 100)%R.
Proof.
  intros h H. unfold resfac.
  remember (if Rlt_dec 0.9999 h then 0.9999%R else h) as k eqn:Ek.
  assert (Hk : (0 <= k <= 0.9999)%R) by (subst k; destruct (Rlt_dec 0.9999 h); lra).
  assert (S1 : (sqrt (1 - k) <= 1)%R) by (eapply Rle_trans; [apply sqrt_le_1 with (y := 1%R); lra|rewrite sqrt_1; lra]).
  assert (S2 : (0.01 <= sqrt (1 - k))%R).
  { eapply Rle_trans; [|apply sqrt_le_1 with (x := (0.01 * 0.01)%R); lra]. rewrite sqrt_square; lra. }
  unfold Rdiv. rewrite Rmult_1_l. split.
  - eapply Rle_trans; [|apply Rinv_le_contravar with (y := 1%R); lra]. lra.
  - replace 100%R with (/ 0.01)%R by lra. apply Rinv_le_contravar; lra.
Qed.

(** Each pass of the robust fit keeps at least p + (n - p) / 2 observations at
    a weight above 0.95, so that there are always as many as coefficients; no
    weight leaves [0, 1]; and an observation is dropped exactly when its
    residual reaches 4.685 times the scale. *)
Theorem C96_weights : forall p low r, (1 <= p <= length r)%nat -> (0 < low)%R ->
  length (weights p low r) = length r /\
  Forall (fun w => 0 <= w <= 1)%R (weights p low r) /\
  (p + (length r - p) / 2 <= count (fun w => leb w 0.95) (weights p low r))%nat /\
  forall i, (i < length r)%nat ->
    (nth i (weights p low r) 0 = 0 <-> tune * Rmax (madsigma p r) low <= Rabs (nth i r 0))%R.
Proof.
  intros p low r Hp Hlow.
  assert (Hs : (0 < Rmax (madsigma p r) low)%R) by (eapply Rlt_le_trans; [exact Hlow|apply Rmax_r]).
  pose proof (Rmax_l (madsigma p r) low) as Hm. pose proof (sigma_med p r) as Em. rewrite Em in Hm at 1.
  split; [unfold weights; apply map_length|]. split.
  - unfold weights. rewrite Forall_map. apply Forall_forall. intros. apply bisquare_range.
  - split.
    + unfold weights. rewrite count_map. eapply Nat.le_trans; [apply below_median; exact Hp|].
      apply count_le. intros x _ Hx. apply leb_true in Hx. apply leb_true.
      eapply Rle_trans; [|eapply bisquare_low; [eapply scaled with (c := 1%R); [exact Hs|exact Hm|lra|rewrite Rmult_1_l; exact Hx]|]].
      * unfold tune. lra.
      * unfold tune. lra.
    + intros i Hi. unfold weights.
      rewrite (nth_indep _ 0%R ((fun x => bisquare (x * / (Rmax (madsigma p r) low * tune)))%R 0%R)) by (rewrite map_length; exact Hi).
      rewrite (map_nth (fun x => bisquare (x * / (Rmax (madsigma p r) low * tune)))%R).
      set (s := Rmax (madsigma p r) low) in *. set (x := nth i r 0%R).
      assert (Hst : (0 < s * tune)%R) by (unfold tune; apply Rmult_lt_0_compat; lra).
      assert (E : (Rabs (x * / (s * tune)) = Rabs x * / (s * tune))%R).
      { rewrite Rabs_mult, (Rabs_pos_eq (/ _)) by (apply Rlt_le, Rinv_0_lt_compat; lra). reflexivity. }
      unfold bisquare. destruct (Rlt_dec (Rabs (x * / (s * tune))) 1) as [H|H]; rewrite E in H.
      * assert (Hx : (Rabs x < s * tune)%R).
        { apply Rmult_lt_reg_r with (/ (s * tune))%R; [apply Rinv_0_lt_compat; lra|]. rewrite Rinv_r by lra. exact H. }
        split; [|lra]. intros Z.
        assert (Q : (Rabs (x * / (s * tune)) < 1)%R) by (rewrite E; exact H).
        apply Rabs_def2 in Q. set (u := (x * / (s * tune))%R) in *. exfalso. apply Rmult_integral in Z. destruct Z; nra.
      * split; [|auto]. intros _. apply Rnot_lt_le in H.
        apply Rmult_le_reg_r with (/ (s * tune))%R; [apply Rinv_0_lt_compat; lra|].
        replace (tune * s)%R with (s * tune)%R by lra. rewrite Rinv_r by lra. exact H.
Qed.

(** With at most one observation more than coefficients (six in COLD's
    shortest windows) no observation is ever discounted below 0.84: the fit is
    not robust there. *)
Theorem C96_small : forall p low r, (1 <= p <= length r)%nat -> (length r <= p + 1)%nat -> (0 < low)%R ->
  Forall (fun w => 0.84 <= w)%R (weights p low r).
Proof.
  intros p low r Hp Hn Hlow.
  assert (Hs : (0 < Rmax (madsigma p r) low)%R) by (eapply Rlt_le_trans; [exact Hlow|apply Rmax_r]).
  pose proof (Rmax_l (madsigma p r) low) as Hm. rewrite (sigma_med p r) in Hm at 1.
  unfold weights. rewrite Forall_map. apply Forall_forall. intros x Hx.
  eapply Rle_trans; [|eapply bisquare_low; [eapply scaled with (c := 2%R); [exact Hs|exact Hm|lra|apply small_median; auto; lia]|]].
  - unfold tune. lra.
  - unfold tune. lra.
Qed.

(** With seven an outlier can be dropped altogether. *)
Lemma sorted_id : forall l, StronglySorted Rle l -> rsort l = l.
Proof.
  intros l H. induction H as [|x t Hs IH Hf]; simpl; [reflexivity|]. rewrite IH.
  destruct t as [|y u]; simpl; [reflexivity|]. inversion Hf; subst.
  destruct (Rle_dec x y); [reflexivity|contradiction].
Qed.

Example C96_seven : nth 6 (weights 5 1 [0; 0; 1; 1; 1; 1; -100]%R) 0%R = 0%R.
Proof.
  apply C96_weights; [simpl; lia|lra|simpl; lia|]. unfold madsigma. cbn [map length].
  assert (E : Rabs (-100) = 100%R) by (unfold Rabs; destruct (Rcase_abs (-100)); lra).
  rewrite E, Rabs_R0, Rabs_R1, sorted_id by (repeat (constructor; [|repeat (constructor; [lra|]); constructor]); constructor).
  cbn. unfold tune. rewrite E, Rmax_left by lra. lra.
Qed.

(* ------------------------------------------------------------------ *)
(** * The passes *)

(** Values of a linear model, and residuals (gsl_multifit_linear_residuals). *)
Definition dot (a b : list R) : R := fold_right Rplus 0%R (map (fun ab => fst ab * snd ab)%R (combine a b)).
Definition residuals (X : list (list R)) (y c : list R) : list R :=
  map (fun ry => snd ry - dot (fst ry) c)%R (combine X y).
Definition vmul (a b : list R) : list R := map (fun ab => fst ab * snd ab)%R (combine a b).

(** gsl_stats_sd. *)
Definition mean (y : list R) : R := (fold_right Rplus 0 y / INR (length y))%R.
Definition sd (y : list R) : R :=
  sqrt (fold_right Rplus 0 (map (fun v => (v - mean y) * (v - mean y)) y) / INR (length y - 1))%R.

(** robust_test_convergence (multirobust.c 453-471). *)
Definition conv (tol : R) (a b : list R) : bool :=
  forallb (fun ab => leb (tol * Rmax (Rabs (fst ab)) (Rabs (snd ab))) (Rabs (snd ab - fst ab)))%R (combine a b).

Section Passes.
(** gsl_multifit_linear with the leverages of its decomposition
    (multirobust.c 299-311), and gsl_multifit_wlinear (355). *)
Variable ols : list (list R) -> list R -> option (list R * list R).
Variable tol : R.

(** The loop [while (!converged && ++numit <= maxiter)] (multirobust.c
    332-366); [n] passes left. *)
Fixpoint irls (wls : list (list R) -> list R -> list R -> option (list R)) (n p : nat) (low : R) (fac : list R)
  (X : list (list R)) (y c r : list R) : option (list R) :=
  match n with
  | O => Some c
  | S m =>
      match wls X (weights p low (vmul r fac)) y with
      | None => None
      | Some c1 => if conv tol c c1 then Some c1 else irls wls m p low fac X y c1 (residuals X y c1)
      end
  end.

(** gsl_multifit_robust (multirobust.c 241-424), maxiter 5 (line 88); the
    statistics and the covariance computed after the loop are not used by
    auto_robust_fit and are left out. *)
Definition robust (wls : list (list R) -> list R -> list R -> option (list R)) (p : nat) (X : list (list R)) (y : list R)
  : option (list R) :=
  match ols X y with
  | None => None
  | Some (c, h) => irls wls 5 p (sig_lower (sd y)) (map resfac h) X y c (residuals X y c)
  end.

(** A weighted fit is well posed: one weight in [0, 1] per observation, and
    at least p + (n - p) / 2 of them above 0.95. *)
Definition posed (p : nat) (X : list (list R)) (ws y : list R) : Prop :=
  length ws = length X /\ length ws = length y /\ Forall (fun w => 0 <= w <= 1)%R ws /\
  (p + (length y - p) / 2 <= count (fun w => leb w 0.95) ws)%nat.

Lemma residuals_length : forall X y c, length X = length y -> length (residuals X y c) = length y.
Proof. intros. unfold residuals. rewrite map_length, combine_length. lia. Qed.

Lemma sd_nonneg : forall y, (0 <= sd y)%R.
Proof. intros. unfold sd. apply sqrt_pos. Qed.

(** Any two solvers that agree on well-posed weights give the same robust
    fit: no pass ever asks for another one. *)
Theorem C96_fit : forall wls1 wls2 p X y, (1 <= p <= length y)%nat -> length X = length y ->
  (forall c h, ols X y = Some (c, h) -> length h = length y) ->
  (forall ws, posed p X ws y -> wls1 X ws y = wls2 X ws y) ->
  robust wls1 p X y = robust wls2 p X y.
Proof.
  intros wls1 wls2 p X y Hp HX Hh Heq. unfold robust.
  destruct (ols X y) as [[c h]|] eqn:E; [|reflexivity]. specialize (Hh c h eq_refl).
  assert (Hf : length (map resfac h) = length y) by (rewrite map_length; exact Hh).
  revert Hf. generalize (map resfac h). intros fac Hf.
  assert (Hlow : (0 < sig_lower (sd y))%R) by (apply sig_lower_pos, sd_nonneg).
  revert Hlow. generalize (sig_lower (sd y)). intros low Hlow.
  assert (Hr : length (residuals X y c) = length y) by (apply residuals_length; exact HX).
  revert Hr. generalize (residuals X y c). revert c E. clear Hh. intros c _. revert c.
  generalize 5%nat. intros n. induction n as [|m IH]; intros c r Hr; [reflexivity|]. cbn [irls].
  assert (Hv : length (vmul r fac) = length y) by (unfold vmul; rewrite map_length, combine_length; lia).
  destruct (@C96_weights p low (vmul r fac)) as (W1 & W2 & W3 & _); [lia|exact Hlow|].
  rewrite Heq.
  - destruct (wls2 X (weights p low (vmul r fac)) y) as [c1|]; [|reflexivity].
    destruct (conv tol c c1); [reflexivity|]. apply IH. apply residuals_length. exact HX.
  - unfold posed. rewrite Hv in *. repeat split; auto; lia.
Qed.

Lemma conv_spec : forall a b, conv tol a b = true <->
  Forall (fun ab => Rabs (snd ab - fst ab) <= tol * Rmax (Rabs (fst ab)) (Rabs (snd ab)))%R (combine a b).
Proof.
  intros a b. unfold conv. rewrite forallb_forall, Forall_forall.
  split; intros H ab Hab; specialize (H ab Hab); apply leb_true; exact H.
Qed.

(** The passes: each solves with the weights of the coefficients before it,
    the first pass that changes none of them by more than the tolerance is the
    last, the fifth is the last in any case, and the last one is returned. *)
Theorem C96_passes : forall wls p X y c, robust wls p X y = Some c ->
  exists c0 h l, ols X y = Some (c0, h) /\ (1 <= length l <= 5)%nat /\ last l [] = c /\
  forall i, (i < length l)%nat ->
    wls X (weights p (sig_lower (sd y)) (vmul (residuals X y (nth i (c0 :: l) [])) (map resfac h))) y = Some (nth i l []) /\
    let settled := Forall (fun ab => Rabs (snd ab - fst ab) <= tol * Rmax (Rabs (fst ab)) (Rabs (snd ab)))%R
                          (combine (nth i (c0 :: l) []) (nth i l [])) in
    (settled -> S i = length l) /\ (S i = length l -> (length l < 5)%nat -> settled).
Proof.
  intros wls p X y c H. unfold robust in H. destruct (ols X y) as [[c0 h]|] eqn:E; [|discriminate].
  exists c0, h. revert H. generalize (map resfac h). intros fac. generalize (sig_lower (sd y)). intros low H.
  assert (HG : forall n c0, irls wls (S n) p low fac X y c0 (residuals X y c0) = Some c ->
    exists l, (1 <= length l <= S n)%nat /\ last l [] = c /\ forall i, (i < length l)%nat ->
      wls X (weights p low (vmul (residuals X y (nth i (c0 :: l) [])) fac)) y = Some (nth i l []) /\
      (conv tol (nth i (c0 :: l) []) (nth i l []) = true -> S i = length l) /\
      (S i = length l -> (length l < S n)%nat -> conv tol (nth i (c0 :: l) []) (nth i l []) = true)).
  { clear. induction n as [|n IH]; intros c0 H; cbn [irls] in H.
    - destruct (wls X _ y) as [c1|] eqn:E1; [|discriminate].
      assert (c1 = c) by (destruct (conv tol c0 c1); congruence). subst c1.
      exists [c]. split; [cbn; lia|]. split; [reflexivity|]. intros [|i] Hi; [|cbn in Hi; lia].
      split; [exact E1|]. split; [reflexivity|]. cbn. lia.
    - destruct (wls X _ y) as [c1|] eqn:E1; [|discriminate]. destruct (conv tol c0 c1) eqn:Ec.
      + injection H as <-. exists [c1]. split; [cbn; lia|]. split; [reflexivity|]. intros [|i] Hi; [|cbn in Hi; lia].
        split; [exact E1|]. split; [reflexivity|]. intros _ _. exact Ec.
      + destruct (IH c1 H) as (l & L1 & L2 & L3). exists (c1 :: l). split; [cbn; lia|].
        split; [destruct l; [cbn in L1; lia|exact L2]|]. intros [|i] Hi.
        * cbn [nth]. split; [exact E1|]. split; [intros E; congruence|]. cbn [length]. lia.
        * cbn [length] in Hi. destruct (L3 i ltac:(lia)) as (M1 & M2 & M3). cbn [nth length] in *.
          split; [exact M1|]. split; [intros E; specialize (M2 E); lia|]. intros E1' E2'. apply M3; lia. }
  destruct (HG 4%nat c0 H) as (l & L1 & L2 & L3). exists l. split; [reflexivity|]. split; [exact L1|]. split; [exact L2|].
  intros i Hi. destruct (L3 i Hi) as (M1 & M2 & M3). split; [exact M1|]. cbv zeta. rewrite <- conv_spec. auto.
Qed.
End Passes.

(* ------------------------------------------------------------------ *)
(** * The mask *)

Section Mask.
(** cos and sin. *)
Variables co si : R -> R.
(** dofit (misc.c 1224-1233) with the design matrix and the values. *)
Variable fit : list (list R) -> list R -> option (list R).

(** [for (i = 0; i < nums; i++) { x[i][0] = cos(w * clrx[i+start]); ... }]
    (misc.c 1494-1500); [n] rows left. *)
Fixpoint fill_rows (n : nat) (w w2 : R) (clrx : list Z) (start i : Z) : out (list (list R)) :=
  match n with
  | O => Ok []
  | S m =>
      d <- get clrx (i + start) ;;
      rest <- fill_rows m w w2 clrx start (i + 1) ;;
      Ok ([co (w * IZR d); si (w * IZR d); co (w2 * IZR d); si (w2 * IZR d)]%R :: rest)
  end.

(** The design matrix and the values (misc.c 1307-1321); [n] rows left. *)
Fixpoint design (n : nat) (x : list (list R)) (band : list R) (start i : Z) : out (list (list R) * list R) :=
  match n with
  | O => Ok ([], [])
  | S m =>
      row <- get x i ;;
      a <- get row 0 ;; b <- get row 1 ;; c <- get row 2 ;; d <- get row 3 ;;
      v <- get band (i + start) ;;
      ' (X, y) <- design m x band start (i + 1) ;;
      Ok ([1%R; a; b; c; d] :: X, v :: y)
  end.

(** auto_robust_fit (misc.c 1275-1340). *)
Definition auto_robust_fit (nums : Z) (x : list (list R)) (band : list R) (start : Z) : out (list R) :=
  ' (X, y) <- design (Z.to_nat nums) x band start 0 ;; of_opt (fit X y).

(** pred_b2, pred_b5 (misc.c 1526-1535). *)
Definition pred (c : list R) (w w2 : R) (d : Z) : out R :=
  c0 <- get c 0 ;; c1 <- get c 1 ;; c2 <- get c 2 ;; c3 <- get c 3 ;; c4 <- get c 4 ;;
  Ok (c0 + c1 * co (IZR d * w) + c2 * si (IZR d * w) + c3 * co (IZR d * w2) + c4 * si (IZR d * w2))%R.

Definition gtb (a b : R) : bool := if Rlt_dec b a then true else false.

(** The flags (misc.c 1524-1549); [n] positions left. *)
Fixpoint flag_loop (n : nat) (w w2 : R) (clrx : list Z) (b2 b5 c2 c5 : list R) (start i : Z) (t1 t2 : R) (bl : list Z)
  : out (list Z) :=
  match n with
  | O => Ok bl
  | S m =>
      d <- get clrx (i + start) ;;
      p2 <- pred c2 w w2 d ;; p5 <- pred c5 w w2 d ;;
      v2 <- get b2 (i + start) ;; v5 <- get b5 (i + start) ;;
      bl1 <- put bl i (if gtb (Rabs (v2 - p2)) t1 || gtb (Rabs (v5 - p5)) t2 then 1 else 0) ;;
      flag_loop m w w2 clrx b2 b5 c2 c5 start (i + 1) t1 t2 bl1
  end.

(** auto_mask (misc.c 1459-1557); [b2], [b5] are clry[1], clry[4]; [t1], [t2]
    are the products n_t * t_b1 and n_t * t_b2. *)
Definition auto_mask (w w2 : R) (clrx : list Z) (b2 b5 : list R) (start last : Z) (t1 t2 : R) (bl : list Z) : out (list Z) :=
  let nums := last - start + 1 in
  x <- fill_rows (Z.to_nat nums) w w2 clrx start 0 ;;
  c2 <- auto_robust_fit nums x b2 start ;;
  c5 <- auto_robust_fit nums x b5 start ;;
  flag_loop (Z.to_nat nums) w w2 clrx b2 b5 c2 c5 start 0 t1 t2 bl.

(** The regressors of a date. *)
Definition regress (w w2 : R) (d : Z) : list R :=
  [1; co (w * IZR d); si (w * IZR d); co (w2 * IZR d); si (w2 * IZR d)]%R.
(** The entries from [start] to [last]. *)
Definition window {A} (l : list A) (start last : Z) : list A :=
  firstn (Z.to_nat (last - start + 1)) (skipn (Z.to_nat start) l).

Lemma window_cons : forall A (l : list A) d a m, 0 <= a -> a + Z.of_nat m < zlen l ->
  firstn (S m) (skipn (Z.to_nat a) l) = nth (Z.to_nat a) l d :: firstn m (skipn (Z.to_nat (a + 1)) l).
Proof.
  intros A l d a m Ha Hm. unfold zlen in Hm. replace (Z.to_nat (a + 1)) with (S (Z.to_nat a)) by lia.
  assert (H : (Z.to_nat a < length l)%nat) by lia. revert H. generalize (Z.to_nat a). clear.
  intros k. revert k. induction l as [|x t IH]; intros k H; [simpl in H; lia|].
  destruct k as [|k]; [reflexivity|]. simpl skipn. simpl nth. apply IH. simpl in H. lia.
Qed.

Lemma fill_rows_spec : forall n w w2 clrx start i, 0 <= i -> 0 <= start -> i + start + Z.of_nat n <= zlen clrx ->
  fill_rows n w w2 clrx start i = Ok (map (fun d => skipn 1 (regress w w2 d)) (firstn n (skipn (Z.to_nat (i + start)) clrx))).
Proof.
  induction n as [|m IH]; intros w w2 clrx start i Hi Hs Hn; [reflexivity|].
  cbn [fill_rows]. rewrite (get_ok _ 0) by lia. cbn [bind].
  rewrite IH by lia. cbn [bind]. rewrite (@window_cons _ clrx 0) by lia.
  replace (i + 1 + start) with (i + start + 1) by lia. reflexivity.
Qed.

Lemma design_spec : forall n w w2 clrx x band start i, 0 <= i -> 0 <= start -> i + start + Z.of_nat n <= zlen clrx ->
  zlen band = zlen clrx -> i + Z.of_nat n <= zlen x ->
  (forall j, 0 <= j < zlen x -> nth (Z.to_nat j) x [] = skipn 1 (regress w w2 (nth (Z.to_nat (j + start)) clrx 0))) ->
  design n x band start i =
    Ok (map (regress w w2) (firstn n (skipn (Z.to_nat (i + start)) clrx)), firstn n (skipn (Z.to_nat (i + start)) band)).
Proof.
  induction n as [|m IH]; intros w w2 clrx x band start i Hi Hs Hn Hb Hx H; [reflexivity|].
  cbn [design]. rewrite (get_ok _ []) by lia. cbn [bind]. rewrite H by lia.
  unfold regress at 1. cbn [skipn]. unfold get at 1 2 3 4. cbn [Z.ltb Z.compare Z.to_nat Pos.to_nat Pos.iter_op Nat.add nth_error bind].
  rewrite (get_ok _ 0%R) by lia. cbn [bind].
  rewrite (@IH w w2 clrx) by (auto; lia). cbn [bind].
  rewrite (@window_cons _ clrx 0), (@window_cons _ band 0%R) by lia.
  replace (i + 1 + start) with (i + start + 1) by lia. reflexivity.
Qed.

Lemma pred_spec : forall c w w2 d, length c = 5%nat -> pred c w w2 d = Ok (dot (regress w w2 d) c).
Proof.
  intros c w w2 d H. destruct c as [|c0 [|c1 [|c2 [|c3 [|c4 [|]]]]]]; try discriminate.
  cbv [pred get Init.Nat.add Z.ltb Z.compare Z.to_nat Pos.to_nat Pos.iter_op Nat.add nth_error bind]. apply f_equal. unfold dot, regress. cbn [combine map fold_right fst snd]. rewrite !(Rmult_comm (IZR d)). ring.
Qed.

(** The flag of one observation. *)
Definition flag (t1 t2 v2 v5 p2 p5 : R) : Z := if gtb (Rabs (v2 - p2)) t1 || gtb (Rabs (v5 - p5)) t2 then 1 else 0.

Lemma flag_loop_spec : forall n w w2 clrx b2 b5 c2 c5 start i t1 t2 bl, 0 <= i -> 0 <= start ->
  i + start + Z.of_nat n <= zlen clrx -> zlen b2 = zlen clrx -> zlen b5 = zlen clrx -> i + Z.of_nat n <= zlen bl ->
  length c2 = 5%nat -> length c5 = 5%nat ->
  exists bl', flag_loop n w w2 clrx b2 b5 c2 c5 start i t1 t2 bl = Ok bl' /\ length bl' = length bl /\
    forall j, (j < length bl)%nat -> nth j bl' 0 =
      if (Z.to_nat i <=? j)%nat && (j <? Z.to_nat i + n)%nat then
        flag t1 t2 (nth (j + Z.to_nat start) b2 0%R) (nth (j + Z.to_nat start) b5 0%R)
          (dot (regress w w2 (nth (j + Z.to_nat start) clrx 0)) c2) (dot (regress w w2 (nth (j + Z.to_nat start) clrx 0)) c5)
      else nth j bl 0.
Proof.
  induction n as [|m IH]; intros w w2 clrx b2 b5 c2 c5 start i t1 t2 bl Hi Hs Hn H2 H5 Hbl L2 L5.
  - exists bl. repeat split; auto. intros j Hj. destruct (Nat.leb_spec (Z.to_nat i) j), (Nat.ltb_spec j (Z.to_nat i + 0)); simpl; auto; lia.
  - cbn [flag_loop]. rewrite (get_ok _ 0) by lia. cbn [bind]. rewrite !pred_spec by assumption. cbn [bind].
    rewrite (get_ok b2 0%R), (get_ok b5 0%R) by lia. cbn [bind].
    match goal with |- context [put bl i ?v] => set (fv := v) end.
    destruct (put bl i fv) as [bl1| | |] eqn:E; try (rewrite put_ok in E by lia; discriminate).
    cbn [bind]. pose proof (@put_len _ _ _ _ _ E) as Hlen.
    destruct (IH w w2 clrx b2 b5 c2 c5 start (i + 1) t1 t2 bl1) as (bl' & R1 & R2 & R3); try (unfold zlen in *; lia); auto.
    exists bl'. split; [exact R1|]. split; [lia|]. intros j Hj. rewrite R3 by lia.
    assert (N : nth j bl1 0 = if (j =? Z.to_nat i)%nat then fv else nth j bl 0).
    { rewrite (@nth_put _ _ _ _ _ j 0 E). reflexivity. }
    rewrite N.
    destruct (Nat.eqb_spec j (Z.to_nat i)) as [->|Ne].
    + replace (Z.to_nat (i + 1) <=? Z.to_nat i)%nat with false by (symmetry; apply Nat.leb_gt; lia).
      replace (Z.to_nat i <=? Z.to_nat i)%nat with true by (symmetry; apply Nat.leb_le; lia).
      replace (Z.to_nat i <? Z.to_nat i + S m)%nat with true by (symmetry; apply Nat.ltb_lt; lia).
      cbn [andb]. unfold fv, flag. replace (Z.to_nat i + Z.to_nat start)%nat with (Z.to_nat (i + start)) by lia. reflexivity.
    + replace ((Z.to_nat (i + 1) <=? j)%nat && (j <? Z.to_nat (i + 1) + m)%nat)
        with ((Z.to_nat i <=? j)%nat && (j <? Z.to_nat i + S m)%nat); [reflexivity|].
      destruct (Nat.leb_spec (Z.to_nat i) j), (Nat.ltb_spec j (Z.to_nat i + S m)), (Nat.leb_spec (Z.to_nat (i + 1)) j),
        (Nat.ltb_spec j (Z.to_nat (i + 1) + m)); simpl; auto; lia.
Qed.

(** A window inside the arrays is masked without leaving them: the two fits
    get one row of regressors and one value per observation of the window, and
    position [i] of the mask is 1 exactly when band 2 or band 5 of observation
    start + i is further from the fit, taken at those very regressors, than
    its bound; the rest of the mask is not touched. *)
Theorem C96_mask : forall w w2 clrx b2 b5 start last t1 t2 bl,
  0 <= start -> start <= last -> last < zlen clrx -> zlen b2 = zlen clrx -> zlen b5 = zlen clrx -> last - start + 1 <= zlen bl ->
  (forall X y c, fit X y = Some c -> length c = 5%nat) ->
  let X := map (regress w w2) (window clrx start last) in
  match fit X (window b2 start last), fit X (window b5 start last) with
  | Some c2, Some c5 => exists bl',
      auto_mask w w2 clrx b2 b5 start last t1 t2 bl = Ok bl' /\ length bl' = length bl /\
      (forall i, (i < Z.to_nat (last - start + 1))%nat ->
         (nth i bl' 0 = 1 \/ nth i bl' 0 = 0) /\
         (nth i bl' 0 = 1 <->
            (t1 < Rabs (nth i (window b2 start last) 0 - dot (nth i X []) c2))%R \/
            (t2 < Rabs (nth i (window b5 start last) 0 - dot (nth i X []) c5))%R)) /\
      (forall i, (Z.to_nat (last - start + 1) <= i)%nat -> nth i bl' 0 = nth i bl 0)
  | _, _ => auto_mask w w2 clrx b2 b5 start last t1 t2 bl = Fail
  end.
Proof.
  intros w w2 clrx b2 b5 start last t1 t2 bl Hs Hl Hlast H2 H5 Hbl Hfit X.
  assert (Wl : forall A (l : list A), zlen l = zlen clrx -> length (window l start last) = Z.to_nat (last - start + 1)).
  { intros A l E. unfold window, zlen in *. rewrite firstn_length, skipn_length. lia. }
  assert (Wn : forall A (l : list A) d i, (i < Z.to_nat (last - start + 1))%nat -> zlen l = zlen clrx ->
                nth i (window l start last) d = nth (i + Z.to_nat start) l d).
  { intros A l d i Hi E. unfold window.
    rewrite <- (firstn_skipn (Z.to_nat start) l) at 2. rewrite app_nth2 by (rewrite firstn_length; lia).
    rewrite firstn_length. unfold zlen in *. replace (i + Z.to_nat start - Nat.min (Z.to_nat start) (length l))%nat with i by lia.
    rewrite <- (firstn_skipn (Z.to_nat (last - start + 1)) (skipn (Z.to_nat start) l)) at 2.
    rewrite app_nth1; [reflexivity|]. rewrite firstn_length, skipn_length. lia. }
  assert (Hr : forall band, zlen band = zlen clrx ->
     auto_robust_fit (last - start + 1) (map (fun d => skipn 1 (regress w w2 d)) (window clrx start last)) band start
     = of_opt (fit X (window band start last))).
  { intros band Hb. unfold auto_robust_fit.
    rewrite (@design_spec (Z.to_nat (last - start + 1)) w w2 clrx); auto; try lia.
    - unfold zlen. rewrite map_length, Wl by reflexivity. lia.
    - intros j Hj. unfold zlen in Hj. rewrite map_length, Wl in Hj by reflexivity.
      rewrite (nth_indep _ [] (skipn 1 (regress w w2 0))) by (rewrite map_length, Wl by reflexivity; lia).
      rewrite (map_nth (fun d => skipn 1 (regress w w2 d))). rewrite Wn by (auto; lia).
      do 3 f_equal. lia. }
  assert (Hm : auto_mask w w2 clrx b2 b5 start last t1 t2 bl =
    (c2 <- of_opt (fit X (window b2 start last)) ;; c5 <- of_opt (fit X (window b5 start last)) ;;
     flag_loop (Z.to_nat (last - start + 1)) w w2 clrx b2 b5 c2 c5 start 0 t1 t2 bl)).
  { unfold auto_mask. rewrite fill_rows_spec by lia. cbn [bind].
    change (firstn (Z.to_nat (last - start + 1)) (skipn (Z.to_nat (0 + start)) clrx)) with (window clrx start last).
    rewrite !Hr by assumption. reflexivity. }
  destruct (fit X (window b2 start last)) as [c2|] eqn:F2; [|rewrite Hm; reflexivity].
  destruct (fit X (window b5 start last)) as [c5|] eqn:F5; [|rewrite Hm; reflexivity].
  rewrite Hm. cbn [of_opt bind].
  destruct (@flag_loop_spec (Z.to_nat (last - start + 1)) w w2 clrx b2 b5 c2 c5 start 0 t1 t2 bl)
    as (bl' & R1 & R2 & R3); try lia; eauto.
  exists bl'. split; [exact R1|]. split; [exact R2|]. split.
  - intros i Hi. rewrite R3 by (unfold zlen in *; lia). cbn [Z.to_nat Nat.leb andb Nat.add].
    replace (i <? Z.to_nat (last - start + 1))%nat with true by (symmetry; apply Nat.ltb_lt; lia).
    unfold X. rewrite (nth_indep _ [] (regress w w2 0)) by (rewrite map_length, Wl by reflexivity; lia).
    rewrite (map_nth (regress w w2)), !Wn by (auto; lia).
    unfold flag, gtb.
    destruct (Rlt_dec _ _) as [A|A]; destruct (Rlt_dec _ _) as [B|B]; simpl; split; auto; split; auto; try discriminate;
      intros [C|C]; contradiction.
  - intros i Hi. destruct (Nat.lt_ge_cases i (length bl)) as [Hj|Hj].
    + rewrite R3 by exact Hj. cbn [Z.to_nat Nat.leb andb Nat.add].
      replace (i <? Z.to_nat (last - start + 1))%nat with false by (symmetry; apply Nat.ltb_ge; lia). reflexivity.
    + rewrite !nth_overflow by lia. reflexivity.
Qed.

(** When the two frequencies agree the coefficients are not determined: the
    second pair of columns repeats the first, and any amount may be moved from
    one to the other. *)
Theorem C96_same_columns : forall w c0 c1 c2 c3 c4 a b d,
  dot (regress w w d) [c0; c1 + a; c2 + b; c3 - a; c4 - b]%R = dot (regress w w d) [c0; c1; c2; c3; c4].
Proof. intros. unfold dot, regress. cbn. ring. Qed.
End Mask.

(* ------------------------------------------------------------------ *)
(** * The second period *)

(** year = (int)(ceil(years)), years = days / 365.25 (misc.c 1490, and the
    callers, e.g. cold.c 669-671). *)
Definition year (days : Z) : Z := - ((-4 * days) / 1461).

(** The quotient is rounded to single precision on its way in; up to 2^20
    days this does not change the number of years. *)
Theorem C96_year_rounded : forall rnd days, (forall x, 0 <= x -> Rabs (rnd x - x) <= x * / 8388608)%R ->
  (forall k, 0 <= k <= 16777216 -> rnd (IZR k) = IZR k) -> 0 <= days <= 1048576 ->
  (IZR (year days - 1) < rnd (IZR days / 365.25) <= IZR (year days))%R.
Proof.
  intros rnd days H1 H2 Hd. set (q := (IZR days / 365.25)%R).
  assert (Hq : (q * 1461 = 4 * IZR days)%R) by (unfold q; lra).
  set (k := year days). assert (Hk : 1461 * (k - 1) < 4 * days <= 1461 * k) by (unfold k, year; lia).
  assert (Hk0 : 0 <= k <= 2871) by lia.
  assert (Hq0 : (0 <= q <= 2871)%R).
  { assert (0 <= IZR days <= 1048576)%R by (split; apply IZR_le; lia). lra. }
  pose proof (H1 q (proj1 Hq0)) as E. assert (E' : (- (q * / 8388608) <= rnd q - q <= q * / 8388608)%R)
    by (unfold Rabs in E; destruct (Rcase_abs (rnd q - q)); lra).
  destruct (Z.eq_dec (4 * days) (1461 * k)) as [Z|Z].
  - assert (Eq : q = IZR k).
    { assert (4 * IZR days = 1461 * IZR k)%R by (rewrite <- !mult_IZR; f_equal; exact Z). lra. }
    rewrite Eq, H2 by lia. rewrite minus_IZR. lra.
  - assert (L1 : (1461 * IZR (k - 1) + 1 <= 4 * IZR days)%R).
    { rewrite <- !mult_IZR, <- plus_IZR. apply IZR_le. lia. }
    assert (L2 : (4 * IZR days + 1 <= 1461 * IZR k)%R).
    { rewrite <- !mult_IZR, <- plus_IZR. apply IZR_le. lia. }
    lra.
Qed.

(** At least one year once there is a day, and a second period different from
    one year exactly from 366 days on. *)
Theorem C96_year : forall days, 0 <= days ->
  (1 <= year days <-> 1 <= days) /\ (2 <= year days <-> 366 <= days).
Proof. intros. unfold year. split; lia. Qed.

(** In a window of up to 365 days the model is fitted with twice the same
    period: whatever the functions, the number of observations and their
    dates, two different sets of coefficients give the same values. *)
Theorem C96_rank_refuted : forall days, 1 <= days <= 365 ->
  exists c c', c <> c' /\ length c = 5%nat /\ length c' = 5%nat /\
    forall (co si : R -> R) (w : R) (d : Z),
      dot (regress co si w (w / IZR (year days)) d) c = dot (regress co si w (w / IZR (year days)) d) c'.
Proof.
  intros days H. exists [0; 1; 0; 0; 0]%R, [0; 0; 0; 1; 0]%R.
  split; [intros E; injection E; lra|]. split; [reflexivity|]. split; [reflexivity|].
  intros co si w d. replace (year days) with 1 by (unfold year; lia).
  replace (w / IZR 1)%R with w by (unfold Rdiv; rewrite Rinv_1; ring).
  unfold dot, regress. cbn. ring.
Qed.

(** From 366 days on they are told apart on suitable dates. *)
Example C96_rank_case : exists (co si : R -> R) (w : R),
  dot (regress co si w (w / IZR (year 400)) 1) [0; 1; 0; 0; 0]%R <> dot (regress co si w (w / IZR (year 400)) 1) [0; 0; 0; 1; 0]%R.
Proof.
  exists (fun x => x), (fun x => x), 1%R. replace (year 400) with 2 by reflexivity. unfold dot, regress. cbn. lra.
Qed.

(** A window of five out of seven observations with a mean as the fit; the
    fourth one stands out in the second band. *)
Example C96_mask_case :
  exists bl, auto_mask (fun _ => 0%R) (fun _ => 0%R) (fun _ y => Some [mean y; 0; 0; 0; 0]%R) 1 1
    [1; 2; 3; 4; 5; 6; 7] [9; 1; 1; 1; 1; 1; 9]%R [9; 1; 1; 1; 6; 1; 9]%R 1 5 3 3 [7; 7; 7; 7; 7; 7] = Ok bl /\
  nth 3 bl 0 = 1 /\ nth 2 bl 0 = 0 /\ nth 5 bl 0 = 7.
Proof.
  pose proof (@C96_mask (fun _ => 0%R) (fun _ => 0%R) (fun _ y => Some [mean y; 0; 0; 0; 0]%R) 1 1
    [1; 2; 3; 4; 5; 6; 7] [9; 1; 1; 1; 1; 1; 9]%R [9; 1; 1; 1; 6; 1; 9]%R 1 5 3 3 [7; 7; 7; 7; 7; 7]) as H.
  specialize (H ltac:(lia) ltac:(lia) ltac:(reflexivity) eq_refl eq_refl ltac:(discriminate)).
  specialize (H ltac:(intros X y c E; injection E as <-; reflexivity)). cbv zeta beta in H.
  destruct H as (bl & H1 & _ & H2 & H3). exists bl. split; [exact H1|].
  change (window [1; 2; 3; 4; 5; 6; 7] 1 5) with [2; 3; 4; 5; 6] in *.
  change (window [9; 1; 1; 1; 1; 1; 9]%R 1 5) with [1; 1; 1; 1; 1]%R in *.
  change (window [9; 1; 1; 1; 6; 1; 9]%R 1 5) with [1; 1; 1; 6; 1]%R in *.
  change (Z.to_nat (5 - 1 + 1)) with 5%nat in *.
  assert (D : forall i, (i < 5)%nat -> dot (nth i (map (regress (fun _ => 0%R) (fun _ => 0%R) 1 1) [2; 3; 4; 5; 6]) [])
    [mean [1; 1; 1; 1; 1]%R; 0; 0; 0; 0]%R = 1%R /\
    dot (nth i (map (regress (fun _ => 0%R) (fun _ => 0%R) 1 1) [2; 3; 4; 5; 6]) [])
    [mean [1; 1; 1; 6; 1]%R; 0; 0; 0; 0]%R = 2%R).
  { intros i Hi. do 5 (destruct i as [|i]; [unfold dot, mean; cbn -[INR]; replace (INR 5) with 5%R by (simpl; lra); lra|]). lia. }
  repeat split.
  - destruct (H2 3%nat ltac:(lia)) as [_ H]. apply H. right. rewrite (proj2 (D 3%nat ltac:(lia))).
    cbn. unfold Rabs. destruct (Rcase_abs _); lra.
  - destruct (H2 2%nat ltac:(lia)) as [[K|K] H]; [|exact K]. apply H in K.
    rewrite (proj1 (D 2%nat ltac:(lia))), (proj2 (D 2%nat ltac:(lia))) in K. cbn in K.
    unfold Rabs in K. destruct K as [K|K]; destruct (Rcase_abs _) in K; lra.
  - rewrite H3 by lia. reflexivity.
Qed.

(** A robust fit of a constant to four values in one pass of weighted means. *)
Example C96_fit_case : exists c,
  robust (fun X y => Some ([mean y], map (fun _ => 0%R) y)) 1 (fun X ws y => Some [dot ws y / fold_right Rplus 0 ws]%R)
    1 [[1]; [1]]%R [4; 6]%R = Some [c].
Proof.
  unfold robust. cbn [map]. unfold irls.
  repeat match goal with |- context [conv ?t ?a ?b] => destruct (conv t a b) end; eexists; reflexivity.
Qed.

(** C96: the scale is taken from the middle of the sorted sizes: the middle
    one, or the mean of the two middle ones (multirobust.c 485-509). *)
Theorem C96_median : forall l r a b, length l = length r ->
  median_sorted (l ++ a :: r) = a /\ median_sorted (l ++ a :: b :: r) = ((a + b) / 2)%R.
Proof.
  intros l r a b H. unfold median_sorted. rewrite !app_length. cbn [length].
  replace (length l + S (length r))%nat with (S (2 * length l)) by lia. replace (length l + S (S (length r)))%nat with (2 * (S (length l)))%nat by lia.
  replace (Nat.odd (S (2 * length l))) with true by (rewrite Nat.odd_succ, Nat.even_mul; reflexivity).
  replace (Nat.odd (2 * S (length l))) with false by (rewrite Nat.odd_mul; reflexivity).
  replace ((S (2 * length l) - 1) / 2)%nat with (length l) by (symmetry; replace (S (2 * length l) - 1)%nat with (length l * 2)%nat by lia; apply Nat.div_mul; lia).
  replace ((2 * S (length l) - 1) / 2)%nat with (length l)
    by (replace (2 * S (length l) - 1)%nat with (1 + length l * 2)%nat by lia; rewrite Nat.div_add by lia; reflexivity).
  replace (2 * S (length l) / 2)%nat with (S (length l)) by (symmetry; rewrite Nat.mul_comm; apply Nat.div_mul; lia).
  split; [rewrite app_nth2, Nat.sub_diag by lia; reflexivity|].
  rewrite !app_nth2 by lia. rewrite Nat.sub_diag. replace (S (length l) - length l)%nat with 1%nat by lia. reflexivity.
Qed.
(** Four residuals, one coefficient: the mean of the second and third size. *)
Example C96_median_case : madsigma 1 [4; -1; 2; -9]%R = (3 / 0.6745)%R.
Proof.
  unfold madsigma. replace (map Rabs [4; -1; 2; -9]%R) with [4; 1; 2; 9]%R by (cbn [map]; repeat f_equal; unfold Rabs; destruct (Rcase_abs _); lra).
  replace (rsort [4; 1; 2; 9]%R) with [1; 2; 4; 9]%R.
  - cbn [length Nat.sub Nat.add skipn firstn]. change [1; 2; 4; 9]%R with ([1] ++ 2 :: 4 :: [9])%R. rewrite (proj2 (@C96_median [1%R] [9%R] 2%R 4%R eq_refl)). lra.
  - cbn [rsort insert]. repeat (destruct (Rle_dec _ _); try lra; cbn [insert]); reflexivity.
Qed.
(** C96: the deviation behind the lower bound of the scale is that of a
    sample, n - 1 in the denominator (gsl_stats_sd, multirobust.c 295). *)
Theorem C96_sd : forall y, (2 <= length y)%nat -> exists m,
  (m * INR (length y) = fold_right Rplus 0 y)%R /\ (0 <= sd y)%R /\
  (sd y * sd y * (INR (length y) - 1) = fold_right Rplus 0 (map (fun v => (v - m) * (v - m)) y))%R.
Proof.
  intros y H. exists (mean y). assert (Hn : (2 <= INR (length y))%R) by (apply le_INR in H; exact H).
  split; [unfold mean; field; lra|]. split; [apply sd_nonneg|]. unfold sd. rewrite minus_INR by lia. cbn [INR].
  assert (Hs : (0 <= fold_right Rplus 0 (map (fun v => (v - mean y) * (v - mean y)) y))%R).
  { generalize (mean y). intros m. clear. induction y as [|v y IH]; cbn [map fold_right]; [lra|]. pose proof (Rle_0_sqr (v - m)) as Q. unfold Rsqr in Q. lra. }
  rewrite sqrt_sqrt; [field; lra|]. apply Rmult_le_pos; [exact Hs|]. left. apply Rinv_0_lt_compat. lra.
Qed.
Example C96_sd_case : (sd [1; 3; 5] = 2)%R /\ bisquare (1 / 2) = (9 / 16)%R.
Proof.
  split.
  - unfold sd, mean. cbn [map fold_right length Nat.sub INR]. replace (_ / _)%R with (2 * 2)%R by field. apply sqrt_square. lra.
  - unfold bisquare. destruct (Rlt_dec _ _) as [_|N]; [lra|]. exfalso. apply N. unfold Rabs. destruct (Rcase_abs _); lra.
Qed.
Print Assumptions C96_sd.
Print Assumptions C96_median.
Print Assumptions C96_weights.
Print Assumptions C96_fit.
Print Assumptions C96_passes.
Print Assumptions C96_mask.
Print Assumptions C96_year_rounded.
Print Assumptions C96_year.
Print Assumptions C96_rank_refuted.
