(** The filter of S-CCD from observation to observation against the Kalman
    filter of the textbook run day by day (C109), and the constants it runs
    with (src/cxx/KFAS.c 391-577).  Exact arithmetic. *)
From Coq Require Import Reals Lra.
From Verif Require Import Base Kalman.
Open Scope R_scope.

Ltac each6 i H := destruct i as [|[|[|[|[|[|i]]]]]]; try lia; clear H.

(** ** initialize_ssmconstants (KFAS.c 391-577) *)
Section Constants.
(** TWO_PI / NUM_YEARS *)
Variable w : R.
(** The tests of the two loops in their order (431-520); [None]: nothing is
    written. *)
Definition t_entry (m i j : nat) : option R :=
  if (Nat.eqb i 0 && Nat.eqb j 0)%bool then Some 1
  else if (Nat.eqb i 0 && Nat.eqb j 1)%bool then Some 1
  else if (Nat.eqb i 1 && Nat.eqb j 1)%bool then Some 1
  else if (Nat.eqb i 2 && Nat.eqb j 2)%bool then Some (cos w)
  else if (Nat.eqb i 2 && Nat.eqb j 3)%bool then Some (sin w)
  else if (Nat.eqb i 3 && Nat.eqb j 3)%bool then Some (cos w)
  else if (Nat.eqb i 3 && Nat.eqb j 2)%bool then Some (- sin w)
  else if (Nat.eqb i 4 && Nat.eqb j 4)%bool then Some (cos (w * 2))
  else if (Nat.eqb i 5 && Nat.eqb j 5)%bool then Some (cos (w * 2))
  else if (Nat.eqb i 4 && Nat.eqb j 5)%bool then Some (sin (w * 2))
  else if (Nat.eqb i 5 && Nat.eqb j 4)%bool then Some (- sin (w * 2))
  else if Nat.eqb m 8 then
    if (Nat.eqb i 6 && Nat.eqb j 6)%bool then Some (cos (w * 3))
    else if (Nat.eqb i 7 && Nat.eqb j 7)%bool then Some (cos (w * 3))
    else if (Nat.eqb i 6 && Nat.eqb j 7)%bool then Some (sin (w * 3))
    else if (Nat.eqb i 7 && Nat.eqb j 6)%bool then Some (- sin (w * 3)) else None
  else None.
(** gsl_matrix_set *)
Definition mset (i j : nat) (v : R) (A : mat) : mat := fun i' j' => if (Nat.eqb i' i && Nat.eqb j' j)%bool then v else A i' j'.
Definition t_init (m : nat) (A : mat) : mat :=
  fold_left (fun A i => fold_left (fun A j => match t_entry m i j with Some v => mset i j v A | None => A end) (seq 0 m) A) (seq 0 m) A.
(** 523-565; the vector is not touched for eight states *)
Definition vset_list (l : list R) (z : vec) : vec := fun i => nth i l (z i).
Definition z_init (m : nat) (z : vec) : vec :=
  if Nat.eqb m 6 then vset_list [1; 0; 1; 0; 1; 0] z
  else if Nat.eqb m 1 then vset_list [1] z
  else if Nat.eqb m 3 then vset_list [1; 1; 0] z
  else if Nat.eqb m 5 then vset_list [1; 1; 0; 1; 0] z
  else if Nat.eqb m 7 then vset_list [1; 1; 0; 1; 0; 1; 0] z else z.
(** INI_Q00 0.1 and SLOPE_SS_SCALE 1000000 (defines.h 108, 148) *)
Definition ini_q00 : R := 1 / 10.
Definition slope_ss_scale : R := 1000000.
(** 567-572 *)
Definition q_init (m : nat) (A : mat) : mat :=
  fold_left (fun A i => mset i i (if Nat.eqb i 1 then ini_q00 / slope_ss_scale else ini_q00) A) (seq 0 m) A.

(** The six-state constants, whether the matrices were cleared
    (gsl_matrix_calloc, s_ccd.c 2638, 2643) or hold those of an earlier
    segment, and whatever the vector held. *)
Definition fits (A B : mat) : Prop := forall i j, (i < 6)%nat -> (j < 6)%nat -> A i j = B i j.
Theorem C109_transition : forall A, fits A (fun _ _ => 0) \/ fits A (trans w) -> fits (t_init 6 A) (trans w).
Proof.
  intros A HA i j Hi Hj.
  assert (E : t_init 6 A i j = match t_entry 6 i j with Some v => v | None => A i j end).
  { each6 i Hi; each6 j Hj; reflexivity. }
  rewrite E. destruct HA as [HA|HA].
  - rewrite (HA i j Hi Hj). each6 i Hi; each6 j Hj; reflexivity.
  - rewrite (HA i j Hi Hj). each6 i Hi; each6 j Hj; reflexivity.
Qed.
Theorem C109_observation : forall z i, (i < 6)%nat -> z_init 6 z i = zobs i.
Proof. intros z i Hi. each6 i Hi; reflexivity. Qed.
(** 0.1 on the diagonal, but 0.0000001 for the trend *)
Definition noise : mat := fun i j => if Nat.eqb i j then if Nat.ltb i 6 then if Nat.eqb i 1 then 1 / 10000000 else 1 / 10 else 0 else 0.
Theorem C109_noise : forall A, fits A (fun _ _ => 0) \/ fits A noise -> fits (q_init 6 A) noise.
Proof.
  intros A HA i j Hi Hj.
  assert (E : q_init 6 A i j = if Nat.eqb i j then if Nat.eqb i 1 then ini_q00 / slope_ss_scale else ini_q00 else A i j).
  { each6 i Hi; each6 j Hj; reflexivity. }
  rewrite E. unfold noise. replace (Nat.ltb i 6) with true by (symmetry; apply Nat.ltb_lt; exact Hi).
  destruct (Nat.eqb i j) eqn:Eq.
  - destruct (Nat.eqb i 1); [unfold ini_q00, slope_ss_scale; field|reflexivity].
  - destruct HA as [HA|HA]; rewrite (HA i j Hi Hj); [reflexivity|]. unfold noise. rewrite Eq. reflexivity.
Qed.
End Constants.
Lemma noise_sym : symmetric noise.
Proof.
  intros i j. unfold noise. rewrite (Nat.eqb_sym j i). destruct (Nat.eqb i j) eqn:E; [|reflexivity].
  apply Nat.eqb_eq in E. rewrite E. reflexivity.
Qed.
Lemma noise_psd : psd 6 noise.
Proof. intros x. unfold form, dot, mv, noise. cbn [Sum Nat.eqb Nat.ltb Nat.leb]. nra. Qed.

(** ** The filter between two observations (s_ccd.c 1576-1659) *)
Section Code.
Variables (w h : R) (Q : mat).
(** The loop of KF_ts_filter_regular (1598-1628) with [steady] false, as in
    every call; the residual is left alone when the loop is empty. *)
Fixpoint regular_loop (n : nat) (j d : Z) (y : R) (c : six) (P : mat) (vt : option R) : six * mat * option R :=
  match n with
  | O => (c, P, vt)
  | S n =>
      if (j =? 0)%Z then
        let '(c', P') := assimilate w h Q (IZR d) y c P in
        regular_loop n (j + 1) d y c' P' (Some (y - dot 6 zobs (vec6 (to_state w c (IZR d)))))
      else regular_loop n (j + 1) d y c (propagate 6 (trans w) Q P) vt
  end.
Definition filter_regular (d d' : Z) (y : R) (c : six) (P : mat) : six * mat * option R :=
  regular_loop (Z.to_nat (d' - d)) 0 d y c P None.
(** KF_ts_filter_falsechange (1638-1659) *)
Definition filter_falsechange (d d' : Z) (P : mat) : mat := Nat.iter (Z.to_nat (d' - d)) (propagate 6 (trans w) Q) P.

(** Observations in order, each taken by the filter or rejected as a false
    change (2014-2059), up to the day [e]. *)
Record sight := mkSight { s_day : Z; s_val : R; s_taken : bool }.
Definition next_day (l : list sight) (e : Z) : Z := match l with [] => e | o :: _ => s_day o end.
Fixpoint run (l : list sight) (e : Z) (c : six) (P : mat) : six * mat * list (option R) :=
  match l with
  | [] => (c, P, [])
  | o :: t =>
      let d' := next_day t e in
      if s_taken o then
        let '(c', P', v) := filter_regular (s_day o) d' (s_val o) c P in
        let '(c2, P2, vs) := run t e c' P' in (c2, P2, v :: vs)
      else run t e c (filter_falsechange (s_day o) d' P)
  end.
End Code.

(** ** The textbook: one update on a day with an observation, one prediction
    on every day *)
Section Textbook.
Variables (m : nat) (z : vec) (h : R) (T Q : mat).
Definition mmul (A B : mat) : mat := fun i j => Sum m (fun k => A i k * B k j).
Definition transpose (A : mat) : mat := fun i j => A j i.
Definition kf_update (y : R) (s : vec * mat) : vec * mat :=
  let '(a, P) := s in
  let F := form m P z z + h in
  let K := fun i => mv m P z i / F in
  (fun i => a i + K i * (y - dot m z a), fun i j => P i j - K i * F * K j).
Definition kf_predict (s : vec * mat) : vec * mat :=
  let '(a, P) := s in (mv m T a, fun i j => mmul (mmul T P) (transpose T) i j + Q i j).
Fixpoint kf (l : list (option R)) (s : vec * mat) : (vec * mat) * list R :=
  match l with
  | [] => (s, [])
  | None :: t => kf t (kf_predict s)
  | Some y :: t => let '(r, vs) := kf t (kf_predict (kf_update y s)) in (r, (y - dot m z (fst s)) :: vs)
  end.
End Textbook.

(** The days from the first observation up to the day before [e]. *)
Fixpoint calendar (l : list sight) (e : Z) : list (option R) :=
  match l with
  | [] => []
  | o :: t => (if s_taken o then Some (s_val o) else None) :: repeat None (Z.to_nat (next_day t e - s_day o - 1)) ++ calendar t e
  end.
Fixpoint ordered (l : list sight) (e : Z) : Prop :=
  match l with [] => True | o :: t => (s_day o < next_day t e)%Z /\ ordered t e end.

Section Agree.
Variables (w h : R) (Q : mat).
Hypothesis Hh : tol < h.
Hypothesis HQs : symmetric Q.
Hypothesis HQ : psd 6 Q.
Notation T := (trans w).

Definition agree (c : six) (P : mat) (d : Z) (s : vec * mat) : Prop :=
  (forall i, (i < 6)%nat -> fst s i = vec6 (to_state w c (IZR d)) i) /\ (forall i j, snd s i j = P i j) /\ symmetric P /\ psd 6 (upper P).

Lemma propagate_book : forall P P' , symmetric P -> (forall i j, P' i j = P i j) ->
  forall i j, mmul 6 (mmul 6 T P') (transpose T) i j + Q i j = propagate 6 T Q P i j.
Proof.
  intros P P' Hs E i j. unfold propagate, mmul, transpose. f_equal. apply Sum_ext. intros l _. f_equal. apply Sum_ext. intros k _.
  rewrite E. rewrite upper_id by exact Hs. reflexivity.
Qed.
Lemma state_next : forall c d i, (i < 6)%nat -> mv 6 T (vec6 (to_state w c (IZR d))) i = vec6 (to_state w c (IZR (d + 1))) i.
Proof. intros c d i Hi. rewrite plus_IZR. apply C45_next_day. exact Hi. Qed.
Lemma mv_ext : forall a a', (forall i, (i < 6)%nat -> a i = a' i) -> forall i, mv 6 T a i = mv 6 T a' i.
Proof. intros a a' E i. unfold mv. apply Sum_ext. intros j Hj. rewrite E by exact Hj. reflexivity. Qed.
Lemma skip_agree : forall c P d s, agree c P d s -> agree c (propagate 6 T Q P) (d + 1) (kf_predict 6 T Q s).
Proof.
  intros c P d [a P'] (Ea & EP & Hs & Hp). cbn [fst snd] in Ea, EP. split; [|split; [|split]]; cbn [kf_predict fst snd].
  - intros i Hi. rewrite <- state_next by exact Hi. apply mv_ext. exact Ea.
  - apply propagate_book; [exact Hs|exact EP].
  - apply propagate_sym. exact HQs.
  - apply propagate_good; [exact HQs|exact HQ|exact Hp].
Qed.
Lemma to_of_next : forall v d i, (i < 6)%nat -> vec6 (to_state w (of_state w (six_of v) (IZR d + 1)) (IZR (d + 1))) i = v i.
Proof. intros v d i Hi. rewrite plus_IZR, C45_state. each6 i Hi; reflexivity. Qed.
Lemma update_agree : forall c P d s y, agree c P d s ->
  let '(c', P') := assimilate w h Q (IZR d) y c P in
  agree c' P' (d + 1) (kf_predict 6 T Q (kf_update 6 zobs h y s)).
Proof.
  intros c P d [a P'] y (Ea & EP & Hs & Hp). cbn [fst snd] in Ea, EP.
  pose proof (C46_covariance 6 zobs h T Q [Obs y] (mkF (vec6 (to_state w c (IZR d))) P)) as Cov.
  specialize (Cov ltac:(unfold tol in Hh; lra) HQs HQ Hp). destruct Cov as [Cov _].
  pose proof (C46_symmetric 6 zobs h T Q [Obs y] (mkF (vec6 (to_state w c (IZR d))) P) HQs Hs) as Sym.
  cbn [days] in Cov, Sym. unfold assimilate.
  assert (Ek : forall i, mv 6 P' zobs i = mv 6 (upper P) zobs i).
  { intros i. unfold mv. apply Sum_ext. intros j _. rewrite EP, upper_id by exact Hs. reflexivity. }
  assert (Ef : form 6 P' zobs zobs = dot 6 zobs (mv 6 (upper P) zobs)).
  { unfold form, dot. apply Sum_ext. intros i _. rewrite Ek. reflexivity. }
  assert (Ed : dot 6 zobs a = dot 6 zobs (vec6 (to_state w c (IZR d)))).
  { unfold dot. apply Sum_ext. intros i Hi. rewrite Ea by exact Hi. reflexivity. }
  pose proof (Hp zobs) as Fp. unfold form in Fp.
  destruct (valid 6 zobs h T Q y (mkF (vec6 (to_state w c (IZR d))) P)) as [s f] eqn:Ev. cbn [fst] in Cov, Sym.
  unfold valid in Ev. cbn [f_a f_P] in Ev.
  destruct (Rlt_dec tol (dot 6 zobs (mv 6 (upper P) zobs) + h)) as [L|L]; [|exfalso; unfold tol in *; lra].
  injection Ev as <- <-. cbn [f_a f_P fst] in *.
  assert (F0 : dot 6 zobs (mv 6 (upper P) zobs) + h <> 0) by (unfold tol in L; lra).
  split; [|split; [|split]]; cbn [kf_update kf_predict fst snd].
  - intros i Hi. rewrite to_of_next by exact Hi. apply mv_ext. intros k Hk. rewrite Ek, Ef, Ed, Ea by exact Hk. field. exact F0.
  - intros i j. unfold propagate, mmul, transpose. f_equal. apply Sum_ext. intros l _. f_equal. apply Sum_ext. intros k _. f_equal.
    rewrite upper_dsyr, (upper_id P Hs), EP, !Ek, Ef. field. exact F0.
  - exact Sym.
  - exact Cov.
Qed.
Lemma iter_succ : forall (A : Type) n (f : A -> A) x, Nat.iter (S n) f x = Nat.iter n f (f x).
Proof. intros A n f x. induction n as [|n IH]; [reflexivity|]. change (f (Nat.iter (S n) f x) = f (Nat.iter n f (f x))). rewrite IH. reflexivity. Qed.
Lemma days_agree : forall n c P d s, agree c P d s ->
  exists s', (forall l, kf 6 zobs h T Q (repeat None n ++ l) s = kf 6 zobs h T Q l s') /\
    agree c (Nat.iter n (propagate 6 T Q) P) (d + Z.of_nat n) s'.
Proof.
  induction n as [|n IH]; intros c P d s A.
  - exists s. split; [reflexivity|]. rewrite Z.add_0_r. exact A.
  - destruct (IH _ _ _ _ (skip_agree A)) as (s' & E & A'). exists s'. split; [exact E|].
    replace (d + Z.of_nat (S n))%Z with (d + 1 + Z.of_nat n)%Z by lia. rewrite iter_succ. exact A'.
Qed.
Lemma loop_rest : forall n j d y c P v, (0 < j)%Z ->
  regular_loop w h Q n j d y c P v = (c, Nat.iter n (propagate 6 T Q) P, v).
Proof.
  induction n as [|n IH]; intros j d y c P v Hj; [reflexivity|]. cbn [regular_loop]. replace (j =? 0)%Z with false by lia.
  rewrite IH by lia. rewrite iter_succ. reflexivity.
Qed.

(** The coefficients and the covariance of the code on the day [e] are the
    state and the covariance of the daily filter, and the residuals are its
    innovations. *)
Theorem C109_daily : forall l e c P s d, ordered l e -> next_day l e = d -> agree c P d s ->
  let '(c', P', vs) := run w h Q l e c P in
  let '(s', is) := kf 6 zobs h T Q (calendar l e) s in
  agree c' P' e s' /\ vs = map Some is.
Proof.
  induction l as [|o t IH]; intros e c P s d Ho Hd A.
  - cbn in Hd |- *. subst d. split; [exact A|reflexivity].
  - cbn [ordered] in Ho. destruct Ho as [Hlt Ho]. cbn [next_day] in Hd. cbn [run calendar].
    set (d' := next_day t e) in *. set (n := Z.to_nat (d' - s_day o - 1)).
    assert (En : Z.to_nat (d' - s_day o) = S n) by (unfold n; lia).
    assert (Ed : (d + 1 + Z.of_nat n)%Z = d') by (unfold n; lia).
    destruct (s_taken o).
    + unfold filter_regular. rewrite En. cbn [regular_loop]. rewrite Z.eqb_refl.
      pose proof (update_agree (s_val o) A) as U. rewrite Hd.
      destruct (assimilate w h Q (IZR d) (s_val o) c P) as [c1 P1].
      rewrite loop_rest by lia.
      destruct (days_agree n U) as (s' & E & A'). rewrite Ed in A'.
      cbn [kf app]. rewrite E. specialize (IH e c1 _ s' d' Ho eq_refl A').
      destruct (run w h Q t e c1 (Nat.iter n (propagate 6 T Q) P1)) as [[c2 P2] vs].
      destruct (kf 6 zobs h T Q (calendar t e) s') as [s2 is]. destruct IH as [IH1 IH2]. split; [exact IH1|].
      cbn [map]. rewrite IH2. f_equal. f_equal. f_equal. destruct A as (Ea & _). unfold dot. apply Sum_ext.
      intros i Hi. rewrite Ea by exact Hi. reflexivity.
    + unfold filter_falsechange. rewrite En, iter_succ.
      destruct (days_agree n (skip_agree A)) as (s' & E & A'). rewrite Ed in A'.
      cbn [kf app]. rewrite E. apply (IH e c _ s' d' Ho eq_refl A').
Qed.
End Agree.

(** With the constants of initialize_ssmconstants, from the coefficients and
    covariance a segment starts with. *)
Theorem C109_filter : forall w h l e c P, tol < h -> ordered l e -> symmetric P -> psd 6 P ->
  let '(c', P', vs) := run w h noise l e c P in
  let '((a, P2), is) := kf 6 zobs h (trans w) noise (calendar l e) (vec6 (to_state w c (IZR (next_day l e))), P) in
  c' = of_state w (six_of a) (IZR e) /\ (forall i j, P' i j = P2 i j) /\ vs = map Some is.
Proof.
  intros w h l e c P Hh Ho Hs Hp.
  assert (A : agree w c P (next_day l e) (vec6 (to_state w c (IZR (next_day l e))), P)).
  { split; [reflexivity|]. split; [reflexivity|]. split; [exact Hs|]. intros x. rewrite (form_ext 6 (upper P) P) by (intros; apply upper_id, Hs). apply Hp. }
  pose proof (@C109_daily w h noise Hh noise_sym noise_psd l e c P _ _ Ho eq_refl A) as D.
  destruct (run w h noise l e c P) as [[c' P'] vs].
  destruct (kf 6 zobs h (trans w) noise (calendar l e) (vec6 (to_state w c (IZR (next_day l e))), P)) as [[a P2] is].
  destruct D as ((Ea & EP & _) & V). cbn [fst snd] in Ea, EP. split; [|split; [|exact V]].
  - rewrite <- (C45_coefficients w c' (IZR e)). f_equal. unfold six_of. rewrite !Ea by lia. destruct (to_state w c' (IZR e)). reflexivity.
  - intros i j. symmetry. apply EP.
Qed.

(** Three days, two observations, the second rejected. *)
Definition ex_sights : list sight := [mkSight 730000 5 true; mkSight 730002 50 false].
Example C109_case : ordered ex_sights 730003 /\ calendar ex_sights 730003 = [Some 5; None; None] /\
  symmetric noise /\ psd 6 noise /\ tol < 1 /\
  length (snd (run 0 1 noise ex_sights 730003 (mk6 1 0 0 0 0 0) noise)) = 1%nat.
Proof.
  split; [cbn; lia|]. split; [reflexivity|]. split; [apply noise_sym|]. split; [apply noise_psd|]. split; [unfold tol; lra|].
  pose proof (@C109_filter 0 1 ex_sights 730003 (mk6 1 0 0 0 0 0) noise ltac:(unfold tol; lra) ltac:(cbn; lia) noise_sym noise_psd) as D.
  destruct (run 0 1 noise ex_sights 730003 (mk6 1 0 0 0 0 0) noise) as [[c' P'] vs].
  change (calendar ex_sights 730003) with [Some 5; None; None] in D. cbn [kf] in D.
  destruct D as (_ & _ & ->). reflexivity.
Qed.

Print Assumptions C109_transition.
Print Assumptions C109_observation.
Print Assumptions C109_noise.
Print Assumptions C109_daily.
Print Assumptions C109_filter.
