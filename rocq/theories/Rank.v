(** The regressors of auto_mask (src/cxx/misc.c 1459-1557) determine the
    coefficients (C96): a trigonometric polynomial of degree N has at most 2N
    zeros in one period. *)
From Coq Require Import Reals Lra Nsatz.
From Verif Require Import Base Mask.
Open Scope R_scope.

(** ** Roots of complex polynomials
    Mathematics only; nothing here mirrors code. *)
Definition cx : Type := R * R.
Definition cadd (a b : cx) : cx := (fst a + fst b, snd a + snd b).
Definition csub (a b : cx) : cx := (fst a - fst b, snd a - snd b).
Definition cmul (a b : cx) : cx := (fst a * fst b - snd a * snd b, fst a * snd b + snd a * fst b).
Definition c0 : cx := (0, 0).
Fixpoint ev (p : list cx) (z : cx) : cx := match p with [] => c0 | a :: t => cadd a (cmul z (ev t z)) end.
(** quotient by z - r *)
Fixpoint quo (p : list cx) (r : cx) : list cx :=
  match p with [] => [] | a :: t => match t with [] => [] | _ => ev t r :: quo t r end end.

Ltac cring := unfold cadd, csub, cmul, c0; cbn [fst snd]; f_equal; ring.
Lemma quo_ok : forall p r z, ev p z = cadd (ev p r) (cmul (csub z r) (ev (quo p r) z)).
Proof.
  induction p as [|a t IH]; intros r z.
  - cbn [ev quo]. cring.
  - destruct t as [|b t]; [cbn [ev quo]; cring|].
    assert (E : quo (a :: b :: t) r = ev (b :: t) r :: quo (b :: t) r) by reflexivity.
    rewrite E. clear E. remember (b :: t) as u. cbn [ev]. rewrite (IH r z). cring.
Qed.
Lemma quo_len : forall p r, length (quo p r) = (length p - 1)%nat.
Proof.
  induction p as [|a t IH]; intros r; [reflexivity|]. destruct t as [|b t]; [reflexivity|].
  change (quo (a :: b :: t) r) with (ev (b :: t) r :: quo (b :: t) r). cbn [length] in *. rewrite IH. lia.
Qed.
Lemma quo_zero : forall p r, ev p r = c0 -> Forall (eq c0) (quo p r) -> Forall (eq c0) p.
Proof.
  induction p as [|a t IH]; intros r E H; [constructor|]. destruct t as [|b t].
  - constructor; [|constructor]. rewrite <- E. cbn [ev]. destruct a. cring.
  - change (quo (a :: b :: t) r) with (ev (b :: t) r :: quo (b :: t) r) in H. inversion H as [|? ? H1 H2]; subst.
    constructor; [|now apply (IH r)]. assert (H3 : ev (b :: t) r = c0) by (symmetry; exact H1). remember (b :: t) as u. cbn [ev] in E. rewrite H3 in E. rewrite <- E. destruct a. cring.
Qed.
Lemma cmul_zero : forall a b, cmul a b = c0 -> a = c0 \/ b = c0.
Proof.
  intros (a1, a2) (b1, b2) H. unfold cmul, c0 in *. cbn [fst snd] in H. injection H as H1 H2.
  assert (E : (a1 * a1 + a2 * a2) * (b1 * b1 + b2 * b2) = 0).
  { replace ((a1 * a1 + a2 * a2) * (b1 * b1 + b2 * b2)) with ((a1 * b1 - a2 * b2) * (a1 * b1 - a2 * b2) + (a1 * b2 + a2 * b1) * (a1 * b2 + a2 * b1)) by ring.
    rewrite H1, H2. ring. }
  apply Rmult_integral in E. destruct E as [E|E]; [left|right]; f_equal; nra.
Qed.
(** As many roots as coefficients: all of them are zero. *)
Theorem few_roots : forall rs p, NoDup rs -> (length p <= length rs)%nat -> (forall r, In r rs -> ev p r = c0) -> Forall (eq c0) p.
Proof.
  induction rs as [|r rs IH]; intros p N L H.
  - destruct p; [constructor|cbn in L; lia].
  - inversion N; subst. apply (@quo_zero p r); [apply H; now left|]. apply IH; [assumption|rewrite quo_len; cbn [length] in L; lia|].
    intros s Hs. pose proof (H s (or_intror Hs)) as E. rewrite (quo_ok p r s), (H r (or_introl eq_refl)) in E.
    assert (E' : cmul (csub s r) (ev (quo p r) s) = c0) by (rewrite <- E; destruct (cmul _ _); cring).
    apply cmul_zero in E'. destruct E' as [E'|E']; [|exact E']. exfalso. unfold csub, c0 in E'. injection E' as E1 E2.
    assert (s = r) by (destruct s, r; cbn [fst snd] in *; f_equal; lra). congruence.
Qed.

(** ** Trigonometric polynomials *)
(** on the unit circle *)
Definition cis (x : R) : cx := (cos x, sin x).
Lemma cis_add : forall x y, cmul (cis x) (cis y) = cis (x + y).
Proof. intros. unfold cis, cmul. cbn [fst snd]. rewrite cos_plus, sin_plus. f_equal. ring. Qed.
Lemma ev_app : forall p q x, ev (p ++ q) (cis x) = cadd (ev p (cis x)) (cmul (cis (INR (length p) * x)) (ev q (cis x))).
Proof.
  induction p as [|a t IH]; intros q x.
  - cbn [app ev length]. change (INR 0) with 0. rewrite Rmult_0_l. unfold cis at 2. rewrite cos_0, sin_0. destruct (ev q (cis x)). cring.
  - cbn [app ev length]. rewrite IH, S_INR. replace ((INR (length t) + 1) * x) with (x + INR (length t) * x) by ring. rewrite <- cis_add. cring.
Qed.
Lemma ev_zeros : forall n z, ev (repeat c0 n) z = c0.
Proof. induction n as [|n IH]; intros z; cbn [repeat ev]; [reflexivity|]. rewrite IH. cring. Qed.

Lemma cos_one : forall x, Rabs x < 2 * PI -> cos x = 1 -> x = 0.
Proof.
  intros x Hx H. replace x with (2 * (x / 2)) in H by field. rewrite cos_2a_sin in H.
  assert (S0 : sin (x / 2) = 0) by nra.
  destruct (Rtotal_order x 0) as [N|[E|P]]; [|exact E|].
  - exfalso. rewrite Rabs_left in Hx by exact N. assert (0 < sin (- (x / 2))) by (apply sin_gt_0; lra). rewrite sin_neg in H0. lra.
  - exfalso. rewrite Rabs_right in Hx by lra. assert (0 < sin (x / 2)) by (apply sin_gt_0; lra). lra.
Qed.
Lemma cis_inj : forall x y, Rabs (x - y) < 2 * PI -> cis x = cis y -> x = y.
Proof.
  intros x y H E. unfold cis in E. injection E as E1 E2. assert (D : x - y = 0); [|lra]. apply cos_one; [exact H|].
  rewrite cos_minus, E1, E2. pose proof (sin2_cos2 y) as S. unfold Rsqr in S. lra.
Qed.

Lemma NoDup_map_inv' : forall A B (f : A -> B) l, (forall x y, In x l -> In y l -> f x = f y -> x = y) -> NoDup l -> NoDup (map f l).
Proof.
  induction l as [|a l IH]; intros I N; [constructor|]. inversion N; subst. cbn [map]. constructor.
  - intros H. apply in_map_iff in H. destruct H as (x & E & Hx). assert (x = a) by (apply I; [now right|now left|exact E]). congruence.
  - apply IH; [|assumption]. intros x y Hx Hy. apply I; now right.
Qed.

Lemma filter_all : forall A (f : A -> bool) l, (forall x, In x l -> f x = true) -> filter f l = l.
Proof.
  induction l as [|a l IH]; intros H; [reflexivity|]. cbn [filter]. rewrite (H a) by now left. f_equal. apply IH. intros x Hx. apply H. now right.
Qed.

Definition trig (n : nat) (a b c d e x : R) : R := a + b * cos (INR n * x) + c * sin (INR n * x) + d * cos x + e * sin x.
Definition poly (n : nat) (a b c d e : R) : list cx :=
  [(b, c)] ++ repeat c0 (n - 2) ++ [(d, e); (2 * a, 0); (d, - e)] ++ repeat c0 (n - 2) ++ [(b, - c)].
Lemma poly_ok : forall n a b c d e x, (2 <= n)%nat -> trig n a b c d e x = 0 -> ev (poly n a b c d e) (cis x) = c0.
Proof.
  intros n a b c d e x Hn H. unfold poly. rewrite !ev_app, !ev_zeros, !repeat_length. cbn [length ev].
  rewrite minus_INR by exact Hn. change (INR 2) with 2. change (INR 1) with 1.
  set (P := cis ((INR n - 2) * x)). change (INR 3) with (1 + 1 + 1).
  assert (H3 : cis ((1 + 1 + 1) * x) = cmul (cis x) (cmul (cis x) (cis x))) by (rewrite !cis_add; f_equal; ring).
  assert (H1 : cis (1 * x) = cis x) by (f_equal; ring). rewrite H3, H1.
  assert (EN : cis (INR n * x) = cmul P (cmul (cis x) (cis x))) by (unfold P; rewrite !cis_add; f_equal; ring).
  assert (U : fst (cis x) * fst (cis x) + snd (cis x) * snd (cis x) = 1).
  { unfold cis. cbn [fst snd]. pose proof (sin2_cos2 x) as S. unfold Rsqr in S. lra. }
  assert (UP : fst P * fst P + snd P * snd P = 1).
  { unfold P, cis. cbn [fst snd]. pose proof (sin2_cos2 ((INR n - 2) * x)) as S. unfold Rsqr in S. lra. }
  unfold trig in H.
  assert (Ec : cos (INR n * x) = fst (cmul P (cmul (cis x) (cis x)))) by (rewrite <- EN; reflexivity).
  assert (Es : sin (INR n * x) = snd (cmul P (cmul (cis x) (cis x)))) by (rewrite <- EN; reflexivity).
  rewrite Ec, Es in H. change (cos x) with (fst (cis x)) in H. change (sin x) with (snd (cis x)) in H.
  clear Ec Es EN H1 H3. destruct P as [p q]. destruct (cis x) as [u v]. cbn [fst snd] in *.
  unfold cadd, cmul, c0 in *. cbn [fst snd] in *.
  f_equal; nsatz.
Qed.

(** More than 2n zeros within less than a period: no such polynomial but zero. *)
Theorem trig_zeros : forall n a b c d e xs, (2 <= n)%nat -> NoDup xs -> (2 * n + 1 <= length xs)%nat ->
  (forall x y, In x xs -> In y xs -> Rabs (x - y) < 2 * PI) -> (forall x, In x xs -> trig n a b c d e x = 0) ->
  a = 0 /\ b = 0 /\ c = 0 /\ d = 0 /\ e = 0.
Proof.
  intros n a b c d e xs Hn N L D Z.
  assert (F : Forall (eq c0) (poly n a b c d e)).
  { apply (@few_roots (map cis xs)).
    - apply (@NoDup_map_inv' _ _ cis xs); [|exact N]. intros x y Hx Hy E. apply cis_inj; auto.
    - rewrite map_length. unfold poly. rewrite !app_length, !repeat_length. cbn [length]. lia.
    - intros r Hr. apply in_map_iff in Hr. destruct Hr as (x & <- & Hx). apply poly_ok; auto. }
  rewrite Forall_forall in F. unfold poly in F.
  assert (F1 := F (b, c) ltac:(apply in_or_app; left; now left)).
  assert (F2 := F (d, e) ltac:(do 2 (apply in_or_app; right); apply in_or_app; left; now left)).
  assert (F3 := F (2 * a, 0) ltac:(do 2 (apply in_or_app; right); apply in_or_app; left; right; now left)).
  unfold c0 in *. injection F1 as F1 F1'. injection F2 as F2 F2'. injection F3 as F3. lra.
Qed.

(** ** The regressors of auto_mask *)
(** w = TWO_PI / AVE_DAYS_IN_A_YEAR (misc.c 1491) with pi exact; 365.25 is
    1461/4.  The theorems hold for any w within a millionth of it, so for the
    PI of const.h 28, whose last digit is wrong. *)
Definition w_year : R := 2 * PI / (1461 / 4).
(** Any [ds] among the dates of a window of [days] days from [d0] on, more than
    2 N + 1 of them for N years: only one set of coefficients gives their
    values. *)
Theorem C96_rank : forall w days d0 ds c c', Rabs (w - w_year) <= w_year / 1000000 -> (366 <= days <= 1000000)%Z -> NoDup ds -> (forall d, In d ds -> d0 <= d <= d0 + days)%Z ->
  (2 * year days + 2 <= zlen ds)%Z -> length c = 5%nat -> length c' = 5%nat ->
  (forall d, In d ds -> dot (regress cos sin w (w / IZR (year days)) d) c = dot (regress cos sin w (w / IZR (year days)) d) c') ->
  c = c'.
Proof.
  intros w days d0 ds c c' Hw Hd N I L Lc Lc' H.
  assert (Y : (2 <= year days)%Z) by (apply C96_year; lia).
  assert (Y4 : (4 * days <= 1461 * year days)%Z) by (unfold year; lia).
  set (n := Z.to_nat (year days)). assert (En : IZR (year days) = INR n) by (unfold n; rewrite INR_IZR_INZ, Z2Nat.id by lia; reflexivity).
  rewrite En in H. assert (Pn : 2 <= INR n) by (rewrite <- En; apply IZR_le; exact Y).
  set (v := w / INR n). assert (Ew : w = INR n * v) by (unfold v; field; lra).
  assert (Py : 0 < w_year) by (unfold w_year; pose proof PI_RGT_0; lra).
  assert (Hw' : w_year / 2 < w <= w_year * (1 + / 1000000)) by (apply Rabs_def2b in Hw || (unfold Rabs in Hw; destruct (Rcase_abs (w - w_year)); lra); lra). assert (Pv : 0 < v) by (unfold v; apply Rdiv_lt_0_compat; lra).
  set (es := filter (fun d => negb (d =? d0 + days)%Z) ds).
  assert (Ne : NoDup es) by now apply NoDup_filter.
  assert (Le : (length ds <= S (length es))%nat).
  { unfold es. clear - N. induction N as [|a l Ha N IH]; cbn [filter length]; [lia|].
    destruct (Z.eqb_spec a (d0 + days)) as [->|E]; cbn [negb length]; [|lia].
    rewrite filter_all; [lia|]. intros x Hx. destruct (Z.eqb_spec x (d0 + days)) as [->|]; [contradiction|reflexivity]. }
  destruct c as [|a [|b [|e [|f [|g [|? ?]]]]]]; try discriminate Lc.
  destruct c' as [|a' [|b' [|e' [|f' [|g' [|? ?]]]]]]; try discriminate Lc'.
  destruct (@trig_zeros n (a - a') (b - b') (e - e') (f - f') (g - g') (map (fun d => v * IZR d) es)) as (A & B & C & D & E).
  - unfold n; lia.
  - apply NoDup_map_inv'; [|exact Ne]. intros x y _ _ E. apply eq_IZR. nra.
  - rewrite map_length. unfold zlen in L. unfold n. lia.
  - intros x y Hx Hy. apply in_map_iff in Hx, Hy. destruct Hx as (p & <- & Hp), Hy as (q & <- & Hq).
    unfold es in Hp, Hq. rewrite filter_In in Hp, Hq. destruct Hp as [Hp Hp'], Hq as [Hq Hq'].
    pose proof (I _ Hp). pose proof (I _ Hq).
    assert (Hpq : (Z.abs (p - q) <= days - 1)%Z) by lia.
    replace (v * IZR p - v * IZR q) with (v * IZR (p - q)) by (rewrite minus_IZR; ring).
    rewrite Rabs_mult, (Rabs_right v) by lra. rewrite <- abs_IZR.
    apply Rle_lt_trans with (v * IZR (days - 1)); [apply Rmult_le_compat_l; [lra|now apply IZR_le]|].
    assert (Y5 : 4 * IZR days <= 1461 * INR n) by (rewrite <- En, <- !mult_IZR; now apply IZR_le).
    assert (E : w_year * (1461 / 4) = 2 * PI) by (unfold w_year; field).
    replace (v * IZR (days - 1)) with (w * IZR (days - 1) / INR n) by (unfold v; field; lra).
    apply Rmult_lt_reg_r with (INR n); [lra|]. replace (w * IZR (days - 1) / INR n * INR n) with (w * IZR (days - 1)) by (field; lra).
    assert (D0 : 365 <= IZR (days - 1)) by (apply (IZR_le 365); lia). assert (D1 : IZR days <= 1000000) by (apply (IZR_le days 1000000); lia).
    apply Rle_lt_trans with (w_year * (1 + / 1000000) * IZR (days - 1)); [apply Rmult_le_compat_r; lra|].
    rewrite minus_IZR in *. apply Rlt_le_trans with (w_year * IZR days); [|nra].
    rewrite Rmult_assoc. apply Rmult_lt_compat_l; lra.
  - intros x Hx. apply in_map_iff in Hx. destruct Hx as (d & <- & Hd'). unfold es in Hd'. apply filter_In in Hd'. destruct Hd' as [Hd' _].
    specialize (H d Hd'). unfold dot, regress in H. cbn [combine map fold_right fst snd] in H. fold v in H. unfold trig.
    replace (INR n * (v * IZR d)) with (w * IZR d) by (rewrite Ew; ring). lra.
  - f_equal; [lra|]. f_equal; [lra|]. f_equal; [lra|]. f_equal; [lra|]. f_equal; lra.
Qed.

(** In particular for 12 observations or more in up to five years. *)
Theorem C96_rank_short : forall w days d0 ds c c', Rabs (w - w_year) <= w_year / 1000000 -> (366 <= days <= 1826)%Z -> NoDup ds -> (forall d, In d ds -> d0 <= d <= d0 + days)%Z ->
  (12 <= zlen ds)%Z -> length c = 5%nat -> length c' = 5%nat ->
  (forall d, In d ds -> dot (regress cos sin w (w / IZR (year days)) d) c = dot (regress cos sin w (w / IZR (year days)) d) c') ->
  c = c'.
Proof.
  intros w days d0 ds c c' Hw Hd N I L Lc Lc' H. apply (@C96_rank w days d0 ds c c'); try assumption; [lia|]. unfold year. lia.
Qed.

(** Not in general: two days of the year placed opposite each other, every
    fourth year; twelve observations in 23 years. *)
Definition sparse : list Z := flat_map (fun k => [1461 * Z.of_nat k + 100; 1461 * Z.of_nat k + 1361])%Z (seq 0 6).
Theorem C96_sparse_refuted : exists days d0 ds c c', (366 <= days)%Z /\ NoDup ds /\ zlen ds = 12%Z /\
  (forall d, In d ds -> d0 <= d <= d0 + days)%Z /\ In d0 ds /\ In (d0 + days)%Z ds /\ length c = 5%nat /\ length c' = 5%nat /\ c <> c' /\
  forall d, In d ds -> dot (regress cos sin w_year (w_year / IZR (year days)) d) c = dot (regress cos sin w_year (w_year / IZR (year days)) d) c'.
Proof.
  exists 8566%Z, 100%Z, sparse, [cos (w_year * 100); 0; 0; 0; 0], [0; 1; 0; 0; 0].
  split; [lia|]. split; [unfold sparse; cbn; repeat constructor; cbn; lia|]. split; [reflexivity|].
  split; [intros d Hd; unfold sparse in Hd; cbn in Hd; lia|]. split; [now left|].
  split; [unfold sparse; cbn; lia|]. split; [reflexivity|]. split; [reflexivity|].
  split; [intros E; injection E; lra|].
  intros d Hd. unfold dot, regress. cbn [combine map fold_right fst snd].
  assert (C : cos (w_year * IZR d) = cos (w_year * 100)).
  { unfold sparse in Hd. apply in_flat_map in Hd. destruct Hd as (k & _ & [<-|[<-|[]]]).
    - rewrite plus_IZR, mult_IZR, <- INR_IZR_INZ.
      replace (w_year * (1461 * INR k + 100)) with (w_year * 100 + 2 * INR (4 * k) * PI) by (rewrite mult_INR; unfold w_year; change (INR 4) with (1 + 1 + 1 + 1); field).
      apply cos_period.
    - rewrite plus_IZR, mult_IZR, <- INR_IZR_INZ.
      replace (w_year * (1461 * INR k + 1361)) with (- (w_year * 100) + 2 * INR (4 * k + 4) * PI) by (rewrite plus_INR, mult_INR; unfold w_year; change (INR 4) with (1 + 1 + 1 + 1); field).
      rewrite cos_period. apply cos_neg. }
  rewrite C. lra.
Qed.

(** Twelve observations, one every forty days: two years, ten would do. *)
Example C96_rank_example : forall c c', length c = 5%nat -> length c' = 5%nat ->
  (forall k, (0 <= k < 12)%Z -> dot (regress cos sin w_year (w_year / 2) (730000 + 40 * k)) c = dot (regress cos sin w_year (w_year / 2) (730000 + 40 * k)) c') ->
  c = c'.
Proof.
  intros c c' L L' H. apply (@C96_rank_short w_year 440 730000 (map (fun k => 730000 + 40 * Z.of_nat k)%Z (seq 0 12))); try assumption.
  - unfold w_year. rewrite Rminus_diag_eq by reflexivity. rewrite Rabs_R0. pose proof PI_RGT_0. lra.
  - lia.
  - apply NoDup_map_inv'; [intros; lia|apply seq_NoDup].
  - intros d Hd. apply in_map_iff in Hd. destruct Hd as (k & <- & Hk). apply in_seq in Hk. lia.
  - unfold zlen. cbn. lia.
  - intros d Hd. apply in_map_iff in Hd. destruct Hd as (k & <- & Hk). apply in_seq in Hk. change (year 440) with 2%Z. apply H. lia.
Qed.

Print Assumptions C96_rank.
Print Assumptions C96_rank_short.
Print Assumptions C96_sparse_refuted.
