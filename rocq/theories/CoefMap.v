(** Coefficient maps (src/python/pycold/imagetool/export_change_map.py 47-158,
    317-365, 415-433, 484-490, 535-567, 572-627): the --coefs option of the
    export tool.  C106.

    Values (coefficients, rmse, magnitudes, map entries) are bit patterns, so
    that NaN is a value like any other; the double arithmetic on them and the
    conversion to float32 are arbitrary functions.  The three-dimensional
    stacking of 606-607 acts layer by layer and is modelled on one layer.  The
    block loop runs over all blocks; C106_ranks shows that the MPI ranks share
    them without gap or overlap.  The loop over the breaks (491-532), which comes first, is Export.v. *)
From Coq Require Import String Ascii Sorting.Sorted Sorting.Permutation.
From Verif Require Import Base Calendar PyIndex Export.
Open Scope Z_scope.

(** ** The list of coefficients *)

(** coef_names (47) *)
Inductive coef := A0 | C1 | A1 | B1 | A2 | B2 | A3 | B3 | CV | RMSE.
Definition coef_name (f : coef) : string :=
  match f with
  | A0 => "a0" | C1 => "c1" | A1 => "a1" | B1 => "b1" | A2 => "a2" | B2 => "b2"
  | A3 => "a3" | B3 => "b3" | CV => "cv" | RMSE => "rmse"
  end%string.
Definition coef_names : list coef := [A0; C1; A1; B1; A2; B2; A3; B3; CV; RMSE].
(** str.split(",") (319) *)
Fixpoint split_comma (s : string) : list string :=
  match s with
  | EmptyString => [EmptyString]
  | String c t =>
      if Ascii.eqb c "," then EmptyString :: split_comma t
      else match split_comma t with
           | h :: r => String c h :: r
           | [] => [String c EmptyString]
           end
  end.
(** Which of coef_names a string is (the test of 364) *)
Definition coef_of (s : string) : option coef := find (fun f => String.eqb (coef_name f) s) coef_names.
Fixpoint all_some {A B} (f : A -> option B) (l : list A) : option (list B) :=
  match l with
  | [] => Some []
  | a :: t => match f a, all_some f t with Some b, Some r => Some (b :: r) | _, _ => None end
  end.
(** 317-320 and 364; [None]: AssertionError *)
Definition parse_coefs (s : string) : option (list coef) := all_some coef_of (split_comma s).

(** What the user has to type *)
Fixpoint join (l : list string) : string :=
  match l with [] => EmptyString | [a] => a | a :: t => (a ++ String "," (join t))%string end.
Lemma coef_of_name : forall f, coef_of (coef_name f) = Some f.
Proof. intros []; reflexivity. Qed.
Lemma split_name : forall f, split_comma (coef_name f) = [coef_name f].
Proof. intros []; reflexivity. Qed.
Lemma split_join : forall f s, split_comma (coef_name f ++ String "," s)%string = coef_name f :: split_comma s.
Proof. intros [] s; reflexivity. Qed.
Theorem C106_names : forall fs, fs <> [] -> parse_coefs (join (map coef_name fs)) = Some fs.
Proof.
  unfold parse_coefs. induction fs as [|f fs IH]; intros Hne; [congruence|]. destruct fs as [|g fs].
  - cbn [map join]. rewrite split_name. cbn [all_some]. rewrite coef_of_name. reflexivity.
  - change (join (map coef_name (f :: g :: fs))) with (coef_name f ++ String "," (join (map coef_name (g :: fs))))%string.
    rewrite split_join. cbn [all_some]. rewrite coef_of_name, IH by discriminate. reflexivity.
Qed.
(** A blank anywhere in the option is an AssertionError ... *)
Fixpoint has_blank (s : string) : bool :=
  match s with EmptyString => false | String c t => Ascii.eqb c " " || has_blank t end.
Lemma names_blank : forall s f, coef_of s = Some f -> has_blank s = false.
Proof.
  intros s f H. apply find_some in H. destruct H as [_ H]. apply String.eqb_eq in H. subst s. destruct f; reflexivity.
Qed.
Lemma split_blank : forall s, has_blank s = true -> exists x, In x (split_comma s) /\ has_blank x = true.
Proof.
  induction s as [|c t IH]; intros H; [discriminate|]. cbn [has_blank] in H. cbn [split_comma].
  destruct (Ascii.eqb c ",") eqn:Ec.
  - apply Ascii.eqb_eq in Ec. subst c. cbn in H. destruct (IH H) as (x & Hx & Hb). exists x. split; [right; exact Hx|exact Hb].
  - destruct (split_comma t) as [|h r] eqn:E.
    + exists (String c EmptyString). split; [left; reflexivity|]. cbn [has_blank].
      destruct (Ascii.eqb c " "); [reflexivity|]. cbn in H. destruct (IH H) as (x & [] & _).
    + destruct (Ascii.eqb c " ") eqn:Es.
      * exists (String c h). split; [left; reflexivity|]. cbn [has_blank]. rewrite Es. reflexivity.
      * cbn in H. destruct (IH H) as (x & [->|Hx] & Hb).
        -- exists (String c x). split; [left; reflexivity|]. cbn [has_blank]. rewrite Hb. apply orb_true_r.
        -- exists x. split; [right; exact Hx|exact Hb].
Qed.
Lemma all_some_in : forall A B (f : A -> option B) l r a, all_some f l = Some r -> In a l -> exists b, f a = Some b.
Proof.
  intros A B f. induction l as [|x t IH]; intros r a H Ha; [destruct Ha|]. cbn [all_some] in H.
  destruct (f x) as [b|] eqn:E; [|discriminate]. destruct (all_some f t) as [r'|] eqn:E'; [|discriminate].
  destruct Ha as [->|Ha]; [eauto|]. exact (IH r' a eq_refl Ha).
Qed.
Theorem C106_blank : forall s, has_blank s = true -> parse_coefs s = None.
Proof.
  intros s H. destruct (parse_coefs s) as [r|] eqn:E; [|reflexivity]. destruct (split_blank s H) as (x & Hx & Hb).
  destruct (@all_some_in _ _ _ _ _ x E Hx) as [f Hf]. apply names_blank in Hf. congruence.
Qed.
(** ... and the example in the tool's own error message (323) has blanks. *)
Definition documented : string := "a0, c1, a1, b1, a2, b2, a3, b3, cv, rmse".
Theorem C106_documented_refuted : exists s, s = documented /\ parse_coefs s = None.
Proof. exists documented. split; [reflexivity|]. vm_compute. reflexivity. Qed.
Example C106_names_example : parse_coefs "a0,cv,rmse" = Some [A0; CV; RMSE] /\ parse_coefs "a0,a9" = None /\ parse_coefs "" = None.
Proof. vm_compute. auto. Qed.

(** ** The records of a pixel (the dtype of 347-360) *)
Record rec := mkRec { t_start : Z; t_end : Z; t_break : Z; pos : Z; prob : Z;
                      coefs : Z -> Z -> Z; rmse : Z -> Z; magnitude : Z -> Z }.
(** datetime.date(y, 12, 31).toordinal() and datetime.date(y, 7, 1).toordinal() *)
Definition dec31 (y : Z) : Z := days_before (y + 1).
Definition july1 (y : Z) : Z := days_before y + (if is_leap_year y then 183 else 182).
Lemma july1_year : forall y, 1 <= y -> py_year (july1 y) = y.
Proof.
  intros y Hy. assert (H1 : 1 <= july1 y) by (unfold july1, days_before; destruct (is_leap_year y); lia).
  pose proof (py_year_ok H1) as H. pose proof (days_step y) as Hs. unfold year_days, july1 in *.
  assert (M : forall a b, a < b -> days_before (a + 1) <= days_before b) by (intros a b Hab; unfold days_before; lia).
  set (z := py_year _) in *. clearbody z.
  destruct (Z.lt_trichotomy z y) as [L|[E|L]]; [|exact E|]; apply M in L; destruct (is_leap_year y); lia.
Qed.

(** 31 December is the last day of its year, and 1 July has 183 days of its
    year behind it. *)
Theorem C106_days : forall y, 1 <= y -> py_year (dec31 y) = y /\ py_year (dec31 y + 1) = y + 1 /\ dec31 y - july1 y = 31 + 31 + 30 + 31 + 30 + 31 - 1.
Proof.
  assert (U : forall y d, 1 <= y -> days_before y < d <= days_before (y + 1) -> py_year d = y).
  { intros y d Hy Hd. assert (H1 : 1 <= d) by (unfold days_before in Hd; lia). pose proof (py_year_ok H1) as H.
    assert (M : forall a b, a < b -> days_before (a + 1) <= days_before b) by (intros a b Hab; unfold days_before; lia).
    destruct (Z.lt_trichotomy (py_year d) y) as [L|[L|L]]; [apply M in L; lia|exact L|apply M in L; lia]. }
  intros y Hy. pose proof (days_step y) as S1. pose proof (days_step (y + 1)) as S2. unfold dec31. split; [|split].
  - apply U; [exact Hy|]. unfold year_days in S1. destruct (is_leap_year y); lia.
  - apply U; [lia|]. unfold year_days in S2. destruct (is_leap_year (y + 1)); lia.
  - unfold july1. unfold year_days in S1. destruct (is_leap_year y); lia.
Qed.
Section Arithmetic.
(** double arithmetic: sum, product with and quotient by an integer; np.isnan;
    the values 0 and -9999; the conversion to float32 of the assignment 555 *)
Variables (fadd : Z -> Z -> Z) (fmul fdiv : Z -> Z -> Z) (isnan : Z -> bool) (zero fillv : Z) (f32 : Z -> Z).

(** ** extract_features (54-158) *)

(** if np.isnan(..): .. = 0 (107-108 and so on) *)
Definition clean (v : Z) : Z := if isnan v then zero else v.
(** The branches 102-140; "cv" has none. *)
Definition value (c : rec) (band day : Z) (f : coef) : option Z :=
  match f with
  | A0 => Some (clean (fadd (coefs c band 0) (fdiv (fmul (coefs c band 1) day) 10000)))
  | C1 => Some (clean (fdiv (coefs c band 1) 10000))
  | A1 => Some (clean (coefs c band 2))
  | B1 => Some (clean (coefs c band 3))
  | A2 => Some (clean (coefs c band 4))
  | B2 => Some (clean (coefs c band 5))
  | A3 => Some (clean (coefs c band 6))
  | B3 => Some (clean (coefs c band 7))
  | CV => None
  | RMSE => Some (clean (rmse c band))
  end.
(** The value of every letter: position 2k + 2 for the cosines and 2k + 3 for
    the sines, the slope per day, the level of the day; never a NaN. *)
Theorem C106_values : forall c band day,
  let k := coefs c band in
  let raw := [(A0, fadd (k 0) (fdiv (fmul (k 1) day) 10000)); (C1, fdiv (k 1) 10000); (A1, k 2); (B1, k 3); (A2, k 4); (B2, k 5);
              (A3, k 6); (B3, k 7); (RMSE, rmse c band)] in
  forall f v, In (f, v) raw -> value c band day f = Some (if isnan v then zero else v).
Proof. intros c band day k raw f v H. cbn [raw In] in H. repeat (destruct H as [[= <- <-]|H]; [reflexivity|]). destruct H. Qed.
(** The loop over the curves (81-96) with its break (144). *)
Fixpoint pick (plot : list rec) (day : Z) : option rec :=
  match plot with
  | [] => None
  | c :: t =>
      let max_days := match t with [] => dec31 (py_year (t_end c)) | nx :: _ => t_start nx end in
      if (t_start c <=? day) && (day <? max_days) then Some c else pick t day
  end.
(** The loop over the curves of 150-156. *)
Definition cv_pick (plot : list rec) (year : Z) : option rec :=
  find (fun c => negb ((t_break c =? 0) || negb (prob c =? 100)) && (py_year (t_break c) =? year)) plot.
(** feature_outputs.index("cv"): the first place *)
Fixpoint cv_index (fs : list coef) : option nat :=
  match fs with
  | [] => None
  | CV :: _ => Some O
  | _ :: t => option_map S (cv_index t)
  end.
(** features[n] on one day *)
Definition feature (fs : list coef) (band : Z) (plot : list rec) (day : Z) (n : nat) : Z :=
  let base := match pick plot day, nth_error fs n with
              | Some c, Some f => match value c band day f with Some v => v | None => fillv end
              | _, _ => fillv
              end in
  match cv_index fs with
  | Some k => if Nat.eqb k n then match cv_pick plot (py_year day) with Some c => magnitude c band | None => base end else base
  | None => base
  end.

(** *** What it should be, without regard to the order of the records *)

(** [c] is the curve in force on [day]: started by then, no later one has
    started, and, if there is no later one at all, 31 December of the year of
    its end is still to come. *)
Definition in_force (R : list rec) (day : Z) (c : rec) : Prop :=
  In c R /\ t_start c <= day /\
  (forall c', In c' R -> t_start c < t_start c' -> day < t_start c') /\
  ((forall c', In c' R -> t_start c' <= t_start c) -> day < dec31 (py_year (t_end c))).
(** [c] is the first curve that ends in a confirmed break in [year]. *)
Definition breaks_in (year : Z) (c : rec) : Prop := t_break c <> 0 /\ prob c = 100 /\ py_year (t_break c) = year.
Definition first_break (R : list rec) (year : Z) (c : rec) : Prop :=
  In c R /\ breaks_in year c /\ forall c', In c' R -> breaks_in year c' -> t_start c <= t_start c'.
(** Starts are told apart. *)
Definition distinct (R : list rec) : Prop := NoDup (map t_start R).

(** The entry for coefficient [f] of [band] on [day]. *)
Definition entry (R : list rec) (f : coef) (band day v : Z) : Prop :=
  match f with
  | CV => (exists c, first_break R (py_year day) c /\ v = magnitude c band) \/
          ((forall c, In c R -> ~ breaks_in (py_year day) c) /\ v = fillv)
  | _ => (exists c, in_force R day c /\ value c band day f = Some v) \/
         ((forall c, ~ in_force R day c) /\ v = fillv)
  end.

Definition chrono (plot : list rec) : Prop := StronglySorted (fun a b => t_start a < t_start b) plot.

Lemma pick_some : forall plot day c, chrono plot -> pick plot day = Some c -> in_force plot day c.
Proof.
  induction plot as [|p t IH]; intros day c S H; [discriminate|].
  inversion_clear S as [|? ? S' F]. rewrite Forall_forall in F. cbn [pick] in H.
  destruct ((t_start p <=? day) && (day <? match t with [] => dec31 (py_year (t_end p)) | nx :: _ => t_start nx end)) eqn:E.
  - injection H as <-. apply andb_prop in E. destruct E as [E1 E2]. apply Z.leb_le in E1. apply Z.ltb_lt in E2.
    split; [left; reflexivity|]. split; [exact E1|]. destruct t as [|nx t].
    + split; [|intros _; exact E2]. intros c' [<-|[]] Hc; lia.
    + inversion_clear S' as [|? ? S'' F']. rewrite Forall_forall in F'. split.
      * intros c' [<-|[<-|Hc]] Hl; [lia|exact E2|]. specialize (F' c' Hc). lia.
      * intros Hl. specialize (Hl nx (or_intror (or_introl eq_refl))). specialize (F nx (or_introl eq_refl)). lia.
  - destruct (IH day c S' H) as (A & B & C & D). split; [right; exact A|]. split; [exact B|]. split.
    + intros c' [<-|Hc] Hl; [specialize (F c A); lia|exact (C c' Hc Hl)].
    + intros Hl. apply D. intros c' Hc. apply Hl. right. exact Hc.
Qed.
Lemma pick_none : forall plot day, chrono plot -> pick plot day = None -> forall c, ~ in_force plot day c.
Proof.
  induction plot as [|p t IH]; intros day S H c (A & B & C & D); [destruct A|].
  inversion_clear S as [|? ? S' F]. rewrite Forall_forall in F. cbn [pick] in H.
  destruct ((t_start p <=? day) && (day <? match t with [] => dec31 (py_year (t_end p)) | nx :: _ => t_start nx end)) eqn:E; [discriminate|].
  destruct A as [<-|A].
  - destruct t as [|nx t].
    + assert (day < dec31 (py_year (t_end p))) by (apply D; intros c' [<-|[]]; lia). lia.
    + specialize (C nx (or_intror (or_introl eq_refl)) (F nx (or_introl eq_refl))). lia.
  - apply (IH day S' H c). split; [exact A|]. split; [exact B|]. split.
    + intros c' Hc Hl. apply C; [right; exact Hc|exact Hl].
    + intros Hl. apply D. intros c' [<-|Hc]; [specialize (F c A); lia|exact (Hl c' Hc)].
Qed.
Lemma break_test : forall c year,
  negb ((t_break c =? 0) || negb (prob c =? 100)) && (py_year (t_break c) =? year) = true <-> breaks_in year c.
Proof.
  intros c year. unfold breaks_in. rewrite andb_true_iff, negb_true_iff, orb_false_iff, negb_false_iff, Z.eqb_neq, !Z.eqb_eq. tauto.
Qed.
Lemma cv_pick_some : forall plot year c, chrono plot -> cv_pick plot year = Some c -> first_break plot year c.
Proof.
  unfold cv_pick. induction plot as [|p t IH]; intros year c S H; [discriminate|].
  inversion_clear S as [|? ? S' F]. rewrite Forall_forall in F. cbn [find] in H.
  destruct (negb ((t_break p =? 0) || negb (prob p =? 100)) && (py_year (t_break p) =? year)) eqn:E.
  - injection H as <-. apply break_test in E. split; [left; reflexivity|]. split; [exact E|].
    intros c' [<-|Hc] _; [lia|]. specialize (F c' Hc). lia.
  - destruct (IH year c S' H) as (A & B & C). split; [right; exact A|]. split; [exact B|].
    intros c' [<-|Hc] Hb; [|exact (C c' Hc Hb)]. apply break_test in Hb. congruence.
Qed.
Lemma cv_pick_none : forall plot year, cv_pick plot year = None -> forall c, In c plot -> ~ breaks_in year c.
Proof.
  intros plot year H c Hc Hb. apply break_test in Hb. unfold cv_pick in H. pose proof (find_none _ _ H c Hc) as E. cbv beta in E. congruence.
Qed.
Lemma cv_index_spec : forall fs n, NoDup fs -> nth_error fs n = Some CV -> cv_index fs = Some n.
Proof.
  induction fs as [|f fs IH]; intros n ND H; [destruct n; discriminate|]. inversion_clear ND as [|? ? Hni ND'].
  destruct n as [|n]; cbn [nth_error] in H.
  - injection H as ->. reflexivity.
  - destruct f; cbn [cv_index]; try (rewrite (IH n ND' H); reflexivity).
    exfalso. apply Hni. exact (nth_error_In _ _ H).
Qed.
Lemma cv_index_nth : forall fs k, cv_index fs = Some k -> nth_error fs k = Some CV.
Proof.
  induction fs as [|f fs IH]; intros k H; [discriminate|].
  destruct f; cbn [cv_index] in H; try (destruct (cv_index fs) as [j|]; [|discriminate]; injection H as <-; exact (IH j eq_refl)).
  injection H as <-. reflexivity.
Qed.
Theorem C106_feature : forall fs band plot day n f, NoDup fs -> chrono plot -> nth_error fs n = Some f ->
  entry plot f band day (feature fs band plot day n).
Proof.
  intros fs band plot day n f ND S Hn. unfold feature. rewrite Hn.
  assert (Base : f <> CV -> forall k, cv_index fs = Some k -> Nat.eqb k n = false).
  { intros Hf k Hk. apply Nat.eqb_neq. intros ->. apply cv_index_nth in Hk. congruence. }
  assert (Main : f <> CV -> entry plot f band day (match pick plot day with
              | Some c => match value c band day f with Some v => v | None => fillv end
              | None => fillv end)).
  { intros Hf. destruct (pick plot day) as [c|] eqn:E.
    - apply pick_some in E; [|exact S]. destruct f; try congruence; cbn [entry value]; left; exists c; split; auto.
    - pose proof (@pick_none plot day S E) as N. destruct f; try congruence; cbn [entry]; right; auto. }
  destruct f eqn:Ef; try (destruct (cv_index fs) as [k|] eqn:Ek; [rewrite (Base ltac:(discriminate) k eq_refl)|]; apply Main; discriminate).
  rewrite (@cv_index_spec fs n ND Hn), Nat.eqb_refl. cbn [entry].
  destruct (cv_pick plot (py_year day)) as [c|] eqn:E.
  - left. exists c. split; [exact (@cv_pick_some _ _ _ S E)|reflexivity].
  - right. split; [exact (@cv_pick_none _ _ E)|]. destruct (pick plot day); reflexivity.
Qed.
(** The entry is determined. *)
Theorem C106_unique : forall R f band day v v', distinct R -> entry R f band day v -> entry R f band day v' -> v = v'.
Proof.
  intros R f band day v v' ND H H'.
  assert (U : forall c c', In c R -> In c' R -> t_start c = t_start c' -> c = c').
  { clear - ND. unfold distinct in ND. induction R as [|x R IH]; intros c c' Hc Hc' E; [destruct Hc|]. inversion_clear ND as [|? ? Hni ND'].
    destruct Hc as [->|Hc], Hc' as [->|Hc']; auto; exfalso; apply Hni; [rewrite E|rewrite <- E]; apply in_map; assumption. }
  assert (UF : forall c c', in_force R day c -> in_force R day c' -> c = c').
  { intros c c' (A & B & C & _) (A' & B' & C' & _). apply U; [exact A|exact A'|].
    destruct (Z.lt_trichotomy (t_start c) (t_start c')) as [L|[E|L]]; [specialize (C c' A' L); lia|exact E|specialize (C' c A L); lia]. }
  assert (UB : forall y c c', first_break R y c -> first_break R y c' -> c = c').
  { intros y c c' (A & B & C) (A' & B' & C'). apply U; [exact A|exact A'|]. specialize (C c' A' B'). specialize (C' c A B). lia. }
  assert (G : f <> CV -> forall v v',
    (exists c, in_force R day c /\ value c band day f = Some v) \/ ((forall c, ~ in_force R day c) /\ v = fillv) ->
    (exists c, in_force R day c /\ value c band day f = Some v') \/ ((forall c, ~ in_force R day c) /\ v' = fillv) -> v = v').
  { intros _ w w' [(c & A & B)|(A & B)] [(c' & A' & B')|(A' & B')].
    - rewrite (UF c c' A A') in B. congruence.
    - destruct (A' c A).
    - destruct (A c' A').
    - congruence. }
  destruct f; try (apply (G ltac:(discriminate)); assumption).
  destruct H as [(c & A & B)|(A & B)], H' as [(c' & A' & B')|(A' & B')].
  - rewrite (UB _ c c' A A') in B. congruence.
  - destruct A as (A & A1 & _). destruct (A' c A A1).
  - destruct A' as (A' & A1 & _). destruct (A c' A' A1).
  - congruence.
Qed.

(** ** The block (484-490, 535-557) *)
Variables (fs : list coef) (bands : list Z) (lo : Z).
Variables (nbx nby bw bh : Z).
Let n_cols := nbx * bw.
Let n_rows := nby * bh.
(** row, column, layer, year index of results_block_coefs *)
Definition table := Z -> Z -> Z -> Z -> Z.
Definition upd (t : table) (r q k : Z) (v : Z -> Z) : table :=
  fun r' q' k' y => if (r' =? r) && (q' =? q) && (k' =? k) then v y else t r' q' k' y.
(** An index of numpy: negative ones count from the end, others outside raise. *)
Definition np_index (n i : Z) : option Z :=
  if i <? 0 then (if - n <=? i then Some (i + n) else None) else (if i <? n then Some i else None).
(** 554-557 *)
Definition put_band (g : list rec) (r q : Z) (band_idx : nat) (band : Z) (t : table) : table :=
  fold_left (fun t index => upd t r q (Z.of_nat index + Z.of_nat band_idx * zlen fs)
                              (fun y => f32 (feature fs band g (july1 (lo + y)) index)))
            (seq 0 (length fs)) t.
(** 550-557 *)
Fixpoint put_bands (g : list rec) (r q : Z) (band_idx : nat) (bs : list Z) (t : table) : table :=
  match bs with [] => t | b :: bs => put_bands g r q (S band_idx) bs (put_band g r q band_idx b t) end.
(** cold_block.sort(order="pos") (484): numpy breaks ties by the other fields
    in the order of the dtype, the first of which is t_start; ties in both are
    left as they are here. *)
Definition before (a b : rec) : bool := (pos a <? pos b) || ((pos a =? pos b) && (t_start a <=? t_start b)).
Fixpoint insert (a : rec) (l : list rec) : list rec :=
  match l with [] => [a] | b :: t => if before a b then a :: l else b :: insert a t end.
Definition sort (l : list rec) : list rec := fold_right insert [] l.
(** np.split where the position changes (536-538) *)
Fixpoint split_pos (l : list rec) : list (list rec) :=
  match l with
  | [] => []
  | c :: t => match split_pos t with
              | (d :: g) :: r => if pos d =? pos c then (c :: d :: g) :: r else [c] :: (d :: g) :: r
              | r => [c] :: r
              end
  end.
(** 539-557; block [bx], [by_] *)
Fixpoint put_groups (bx by_ : Z) (gs : list (list rec)) (t : table) : option table :=
  match gs with
  | [] => Some t
  | [] :: _ => None
  | (c :: g) :: gs =>
      match np_index bh (get_row_index (pos c) n_cols by_ bh), np_index bw (get_col_index (pos c) n_cols bx bw) with
      | Some r, Some q => put_groups bx by_ gs (put_bands (c :: g) r q 0 bands t)
      | _, _ => None
      end
  end.
(** The fill (416-425), then the groups; cold_block[0] of an empty block raises
    (485). *)
Definition coef_block (bx by_ : Z) (l : list rec) : option table :=
  match l with [] => None | _ => put_groups bx by_ (split_pos (sort l)) (fun _ _ _ _ => f32 fillv) end.

Hypothesis Hnbx : 0 < nbx.
Hypothesis Hnby : 0 < nby.
Hypothesis Hbw : 0 < bw.
Hypothesis Hbh : 0 < bh.

(** *** Lemmas on the pieces *)
Lemma put_band_at : forall g r q bi b t r' q' k y,
  put_band g r q bi b t r' q' k y =
  if (r' =? r) && (q' =? q) && (Z.of_nat bi * zlen fs <=? k) && (k <? Z.of_nat bi * zlen fs + zlen fs)
  then f32 (feature fs b g (july1 (lo + y)) (Z.to_nat (k - Z.of_nat bi * zlen fs))) else t r' q' k y.
Proof.
  intros g r q bi b t r' q' k y. unfold put_band, zlen.
  set (base := Z.of_nat bi * Z.of_nat (length fs)). clearbody base.
  generalize (length fs) as m. intros m. revert t.
  assert (G : forall m a t, fold_left (fun t index => upd t r q (Z.of_nat index + base)
                 (fun y => f32 (feature fs b g (july1 (lo + y)) index))) (seq a m) t r' q' k y =
     if (r' =? r) && (q' =? q) && (base + Z.of_nat a <=? k) && (k <? base + Z.of_nat (a + m))
     then f32 (feature fs b g (july1 (lo + y)) (Z.to_nat (k - base))) else t r' q' k y).
  { clear m. induction m as [|m IH]; intros a t.
    - cbn [seq fold_left]. rewrite (Nat.add_0_r a).
      destruct ((r' =? r) && (q' =? q) && (base + Z.of_nat a <=? k) && (k <? base + Z.of_nat a)) eqn:E; [lia|reflexivity].
    - cbn [seq fold_left]. rewrite IH. unfold upd.
      destruct ((r' =? r) && (q' =? q)) eqn:Erq; cbn [andb]; [|reflexivity].
      destruct (k =? Z.of_nat a + base) eqn:Ek.
      + apply Z.eqb_eq in Ek.
        destruct ((base + Z.of_nat (S a) <=? k) && (k <? base + Z.of_nat (S a + m))) eqn:E1; [lia|].
        destruct ((base + Z.of_nat a <=? k) && (k <? base + Z.of_nat (a + S m))) eqn:E2; [|lia].
        replace (Z.to_nat (k - base)) with a by lia. reflexivity.
      + destruct ((base + Z.of_nat (S a) <=? k) && (k <? base + Z.of_nat (S a + m))) eqn:E1,
                 ((base + Z.of_nat a <=? k) && (k <? base + Z.of_nat (a + S m))) eqn:E2; try reflexivity; lia. }
  intros t. rewrite G. cbn [Nat.add]. rewrite Z.add_0_r. reflexivity.
Qed.
Lemma put_bands_other : forall g r q bs bi t r' q' k y, r' <> r \/ q' <> q -> put_bands g r q bi bs t r' q' k y = t r' q' k y.
Proof.
  intros g r q bs. induction bs as [|b bs IH]; intros bi t r' q' k y H; [reflexivity|]. cbn [put_bands]. rewrite IH by exact H.
  rewrite put_band_at. destruct ((r' =? r) && (q' =? q)) eqn:E; [lia|reflexivity].
Qed.
Lemma put_bands_low : forall g r q bs bi t k y, k < Z.of_nat bi * zlen fs -> put_bands g r q bi bs t r q k y = t r q k y.
Proof.
  intros g r q bs. induction bs as [|b bs IH]; intros bi t k y H; [reflexivity|]. cbn [put_bands].
  assert (0 <= zlen fs) by (unfold zlen; lia). rewrite IH by nia. rewrite put_band_at.
  destruct (Z.of_nat bi * zlen fs <=? k) eqn:E; [lia|]. rewrite andb_false_r. reflexivity.
Qed.
Lemma put_bands_at : forall g r q bs bi t j b ic y, nth_error bs j = Some b -> (ic < length fs)%nat ->
  put_bands g r q bi bs t r q (Z.of_nat ic + Z.of_nat (bi + j) * zlen fs) y = f32 (feature fs b g (july1 (lo + y)) ic).
Proof.
  intros g r q bs. induction bs as [|x bs IH]; intros bi t j b ic y Hj Hic; [destruct j; discriminate|].
  destruct j as [|j]; cbn [nth_error] in Hj; cbn [put_bands].
  - injection Hj as ->. rewrite Nat.add_0_r. rewrite put_bands_low by (unfold zlen; nia). rewrite put_band_at, !Z.eqb_refl.
    cbn [andb]. unfold zlen.
    destruct ((Z.of_nat bi * Z.of_nat (length fs) <=? Z.of_nat ic + Z.of_nat bi * Z.of_nat (length fs)) &&
              (Z.of_nat ic + Z.of_nat bi * Z.of_nat (length fs) <? Z.of_nat bi * Z.of_nat (length fs) + Z.of_nat (length fs))) eqn:E; [|lia].
    replace (Z.to_nat (Z.of_nat ic + Z.of_nat bi * Z.of_nat (length fs) - Z.of_nat bi * Z.of_nat (length fs))) with ic by lia. reflexivity.
  - replace (bi + S j)%nat with (S bi + j)%nat by lia. apply IH; assumption.
Qed.

Lemma insert_perm : forall a l, Permutation (insert a l) (a :: l).
Proof.
  intros a. induction l as [|b t IH]; [apply Permutation_refl|]. cbn [insert]. destruct (before a b); [apply Permutation_refl|].
  eapply perm_trans; [apply perm_skip; exact IH|]. apply perm_swap.
Qed.
Lemma sort_perm : forall l, Permutation (sort l) l.
Proof.
  induction l as [|a t IH]; [apply Permutation_refl|]. cbn [sort fold_right]. eapply perm_trans; [apply insert_perm|]. apply perm_skip, IH.
Qed.
Definition le (a b : rec) : Prop := before a b = true.
Lemma insert_sorted : forall a l, StronglySorted le l -> StronglySorted le (insert a l).
Proof.
  intros a. induction l as [|b t IH]; intros H; [repeat constructor|]. cbn [insert]. inversion_clear H as [|? ? H' F].
  destruct (before a b) eqn:E.
  - constructor; [constructor; assumption|]. constructor; [exact E|]. rewrite Forall_forall in *. intros x Hx. specialize (F x Hx).
    unfold le, before in *. lia.
  - constructor; [apply IH; exact H'|]. rewrite Forall_forall in *. intros x Hx.
    apply (Permutation_in _ (insert_perm a t)) in Hx. destruct Hx as [<-|Hx]; [unfold le, before in *; lia|exact (F x Hx)].
Qed.
Lemma sort_sorted : forall l, StronglySorted le (sort l).
Proof. induction l as [|a t IH]; [constructor|]. cbn [sort fold_right]. apply insert_sorted, IH. Qed.

Definition of_pos (p : Z) (l : list rec) : list rec := filter (fun c => pos c =? p) l.
Lemma of_pos_nil : forall p l, (forall c, In c l -> pos c <> p) -> of_pos p l = [].
Proof.
  intros p. induction l as [|a t IH]; intros H; [reflexivity|]. cbn [of_pos filter].
  destruct (pos a =? p) eqn:E; [exfalso; apply (H a); [left; reflexivity|lia]|]. apply IH. intros c Hc. apply H. right. exact Hc.
Qed.
(** Each group holds all records of its position. *)
Lemma split_groups : forall l, StronglySorted le l ->
  exists ps, StronglySorted Z.lt ps /\ split_pos l = map (fun p => of_pos p l) ps /\ (forall p, In p ps <-> exists c, In c l /\ pos c = p).
Proof.
  induction l as [|c t IH]; intros S.
  - exists []. split; [constructor|]. split; [reflexivity|]. intros p. split; [intros []|intros (c & [] & _)].
  - inversion_clear S as [|? ? S' F]. rewrite Forall_forall in F. destruct (IH S') as (ps & Hs & He & Hi). cbn [split_pos]. rewrite He.
    assert (Hge : forall p, In p ps -> pos c <= p).
    { intros p Hp. apply Hi in Hp. destruct Hp as (d & Hd & <-). specialize (F d Hd). unfold le, before in F. lia. }
    destruct ps as [|p ps].
    { destruct t as [|d t]; [|exfalso; apply (proj2 (Hi (pos d))); exists d; split; [left; reflexivity|reflexivity]].
      exists [pos c]. split; [repeat constructor|]. split; [cbn; rewrite Z.eqb_refl; reflexivity|].
      intros p. split; [intros [<-|[]]; exists c; split; [left|]; reflexivity|intros (d & [<-|[]] & <-); left; reflexivity]. }
    assert (Hp : exists d g, of_pos p t = d :: g /\ pos d = p).
    { destruct (proj1 (Hi p) (or_introl eq_refl)) as (d & Hd & Ed).
      assert (Hd' : In d (of_pos p t)) by (apply filter_In; split; [exact Hd|lia]).
      destruct (of_pos p t) as [|e g] eqn:E; [destruct Hd'|]. exists e, g. split; [reflexivity|].
      assert (He' : In e (of_pos p t)) by (rewrite E; left; reflexivity). apply filter_In in He'. lia. }
    destruct Hp as (d & g & Eg & Ed). cbn [map]. rewrite Eg, Ed.
    inversion_clear Hs as [|? ? Hs' Hf]. rewrite Forall_forall in Hf.
    assert (Rest : forall q, In q ps -> pos c <> q) by (intros q Hq; specialize (Hf q Hq); specialize (Hge p (or_introl eq_refl)); lia).
    assert (EM : map (fun q => of_pos q t) ps = map (fun q => of_pos q (c :: t)) ps).
    { apply map_ext_in. intros q Hq. cbn [of_pos filter]. destruct (pos c =? q) eqn:E; [destruct (Rest q Hq); lia|reflexivity]. }
    destruct (p =? pos c) eqn:E.
    + exists (p :: ps). split; [constructor; [exact Hs'|apply Forall_forall; exact Hf]|]. split.
      * cbn [map]. rewrite EM. f_equal. cbn [of_pos filter]. rewrite (Z.eqb_sym (pos c) p), E. change (filter (fun c0 => pos c0 =? p) t) with (of_pos p t). rewrite Eg. reflexivity.
      * intros q. rewrite Hi. split.
        -- intros (x & Hx & <-). exists x. split; [right; exact Hx|reflexivity].
        -- intros (x & [<-|Hx] & <-); [exists d; split; [|lia]|exists x; split; [exact Hx|reflexivity]].
           assert (Hd : In d (of_pos p t)) by (rewrite Eg; left; reflexivity). apply filter_In in Hd. apply Hd.
    + assert (L : pos c < p) by (specialize (Hge p (or_introl eq_refl)); lia).
      exists (pos c :: p :: ps). split.
      * constructor; [constructor; [exact Hs'|apply Forall_forall; exact Hf]|]. constructor; [exact L|]. apply Forall_forall. intros q Hq. specialize (Hf q Hq). lia.
      * split.
        -- cbn [map]. rewrite EM. f_equal; [|f_equal].
           ++ cbn [of_pos filter]. rewrite Z.eqb_refl. f_equal. symmetry. apply of_pos_nil. intros x Hx X.
              specialize (Hi (pos x)). destruct (proj2 Hi) as [Y|Y]; [exists x; split; [exact Hx|reflexivity]|lia|]. specialize (Hf _ Y). lia.
           ++ cbn [of_pos filter]. rewrite (Z.eqb_sym (pos c) p), E. symmetry. exact Eg.
        -- intros q. cbn [In]. rewrite <- (Z.eq_sym_iff q (pos c)). split.
           ++ intros [Hq|Hq]; [exists c; split; [left; reflexivity|congruence]|]. apply Hi in Hq. destruct Hq as (x & Hx & Eq). exists x. split; [right; exact Hx|exact Eq].
           ++ intros (x & [<-|Hx] & <-); [left; reflexivity|]. right. apply Hi. exists x. split; [exact Hx|reflexivity].
Qed.

(** *** The pixel of a position *)
Definition pixel_pos (bx by_ r q : Z) : Z := pos_id n_cols ((by_ - 1) * bh + r + 1) ((bx - 1) * bw + q + 1).
(** A record of a pixel of the block *)
Definition inside (bx by_ : Z) (c : rec) : Prop :=
  1 <= pos c /\ 0 <= get_row_index (pos c) n_cols by_ bh < bh /\ 0 <= get_col_index (pos c) n_cols bx bw < bw.
Lemma pixel_cell : forall bx by_ r q, 1 <= bx <= nbx -> 1 <= by_ -> 0 <= r < bh -> 0 <= q < bw ->
  get_row_index (pixel_pos bx by_ r q) n_cols by_ bh = r /\ get_col_index (pixel_pos bx by_ r q) n_cols bx bw = q.
Proof.
  intros bx by_ r q Hx Hy Hr Hq. unfold pixel_pos, pos_id, get_row_index, get_col_index.
  replace (n_cols * ((by_ - 1) * bh + r + 1 - 1) + ((bx - 1) * bw + q + 1) - 1) with (((bx - 1) * bw + q) + ((by_ - 1) * bh + r) * n_cols) by lia.
  assert (Hn : 0 < n_cols) by (unfold n_cols; nia).
  assert (Hc : 0 <= (bx - 1) * bw + q < n_cols) by (unfold n_cols; nia).
  assert (0 <= (by_ - 1) * bh) by nia.
  rewrite Z.quot_div_nonneg by nia. rewrite Z.div_add, Z.mod_add by lia. rewrite Z.div_small, Z.mod_small by lia. lia.
Qed.
Lemma cell_pixel : forall bx by_ p, 1 <= p -> pixel_pos bx by_ (get_row_index p n_cols by_ bh) (get_col_index p n_cols bx bw) = p.
Proof.
  intros bx by_ p Hp. unfold pixel_pos, pos_id, get_row_index, get_col_index.
  assert (Hn : 0 < n_cols) by (unfold n_cols; nia). rewrite Z.quot_div_nonneg by lia.
  pose proof (Z.div_mod (p - 1) n_cols ltac:(lia)). lia.
Qed.

Lemma put_groups_at : forall bx by_ L ps t, 1 <= bx <= nbx -> 1 <= by_ -> NoDup ps -> (forall c, In c L -> inside bx by_ c) ->
  (forall p, In p ps -> exists c, In c L /\ pos c = p) ->
  exists t', put_groups bx by_ (map (fun p => of_pos p L) ps) t = Some t' /\
  forall r q, 0 <= r < bh -> 0 <= q < bw ->
    (In (pixel_pos bx by_ r q) ps -> forall j b ic y, nth_error bands j = Some b -> (ic < length fs)%nat ->
       t' r q (Z.of_nat ic + Z.of_nat j * zlen fs) y = f32 (feature fs b (of_pos (pixel_pos bx by_ r q) L) (july1 (lo + y)) ic)) /\
    (~ In (pixel_pos bx by_ r q) ps -> forall k y, t' r q k y = t r q k y).
Proof.
  intros bx by_ L ps t Hx Hy ND HL. revert t. induction ps as [|p ps IH]; intros t Hps.
  - exists t. split; [reflexivity|]. intros r q Hr Hq. split; [intros []|reflexivity].
  - inversion_clear ND as [|? ? Hni ND'].
    destruct (Hps p (or_introl eq_refl)) as (c0 & Hc0 & Ec0).
    assert (Hg : exists c g, of_pos p L = c :: g /\ pos c = p /\ inside bx by_ c).
    { assert (H0 : In c0 (of_pos p L)) by (apply filter_In; split; [exact Hc0|lia]).
      destruct (of_pos p L) as [|c g] eqn:E; [destruct H0|]. exists c, g.
      assert (H1 : In c (of_pos p L)) by (rewrite E; left; reflexivity). apply filter_In in H1. destruct H1 as [H1 H2].
      split; [reflexivity|]. split; [lia|]. exact (HL c H1). }
    destruct Hg as (c & g & Eg & Ep & I1 & I2 & I3). cbn [map]. rewrite Eg. cbn [put_groups]. rewrite Ep in *.
    unfold np_index. rewrite (proj2 (Z.ltb_ge _ 0) (proj1 I2)), (proj2 (Z.ltb_lt _ bh) (proj2 I2)), (proj2 (Z.ltb_ge _ 0) (proj1 I3)), (proj2 (Z.ltb_lt _ bw) (proj2 I3)).
    rewrite <- Eg. set (r0 := get_row_index p n_cols by_ bh) in *. set (q0 := get_col_index p n_cols bx bw) in *.
    assert (EP : pixel_pos bx by_ r0 q0 = p) by (apply cell_pixel; exact I1).
    destruct (IH ND' (put_bands (of_pos p L) r0 q0 0 bands t) (fun p' H => Hps p' (or_intror H))) as (t' & E & H). exists t'. split; [exact E|].
    intros r q Hr Hq. destruct (H r q Hr Hq) as [H1 H2]. split.
    + intros [Hp|Hp]; [|exact (H1 Hp)]. rewrite <- Hp in H1, H2 |- *. intros j b ic y Hj Hic. rewrite (H2 Hni).
      destruct (@pixel_cell bx by_ r q Hx Hy Hr Hq) as [C1 C2]. rewrite <- Hp in C1, C2. fold r0 in C1. fold q0 in C2. rewrite <- C1, <- C2.
      change (Z.of_nat j) with (Z.of_nat (0 + j)). apply put_bands_at; assumption.
    + intros Hnp k y. rewrite (H2 (fun X => Hnp (or_intror X))). apply put_bands_other.
      destruct (Z.eq_dec r r0) as [->|]; [|left; assumption]. right. intros ->. apply Hnp. left. symmetry. exact EP.
Qed.

(** *** The order of the records does not matter *)
Lemma entry_same : forall R R' f band day v, (forall c, In c R <-> In c R') -> entry R f band day v -> entry R' f band day v.
Proof.
  intros R R' f band day v H.
  assert (IFF : forall c, in_force R day c <-> in_force R' day c).
  { intros c. unfold in_force. rewrite H. split; intros (A & B & C & D); repeat split; auto;
      try (intros c' Hc'; apply C; apply H; exact Hc'); intros X; apply D; intros c' Hc'; apply X; apply H; exact Hc'. }
  assert (BFF : forall y c, first_break R y c <-> first_break R' y c).
  { intros y c. unfold first_break. rewrite H. split; intros (A & B & C); repeat split; try apply B; auto; intros c' Hc'; apply C; apply H; exact Hc'. }
  assert (G : forall P Q, ((exists c, in_force R day c /\ P c) \/ ((forall c, ~ in_force R day c) /\ Q)) ->
                          ((exists c, in_force R' day c /\ P c) \/ ((forall c, ~ in_force R' day c) /\ Q))).
  { intros P Q [(c & A & B)|(A & B)]; [left; exists c; split; [apply IFF; exact A|exact B]|right; split; [|exact B]].
    intros c X. apply (A c). apply IFF. exact X. }
  destruct f; try (apply (G (fun c => value c band day _ = Some v) (v = fillv))).
  cbn [entry]. intros [(c & A & B)|(A & B)]; [left; exists c; split; [apply BFF; exact A|exact B]|right; split; [|exact B]].
  intros c X. apply A. apply H. exact X.
Qed.
Definition key (c : rec) : Z * Z := (pos c, t_start c).
Lemma sorted_chrono : forall p l, StronglySorted le l -> NoDup (map key l) -> chrono (of_pos p l).
Proof.
  intros p. induction l as [|a t IH]; intros S ND; [constructor|]. inversion_clear S as [|? ? S' F]. cbn [map] in ND. inversion_clear ND as [|? ? Hni ND'].
  cbn [of_pos filter]. destruct (pos a =? p) eqn:E; [|exact (IH S' ND')]. constructor; [exact (IH S' ND')|].
  rewrite Forall_forall in *. intros x Hx. apply filter_In in Hx. destruct Hx as [Hx Ex]. specialize (F x Hx).
  assert (key x <> key a) by (intros X; apply Hni; rewrite <- X; apply in_map; exact Hx).
  unfold le, before in F. unfold key in *. assert (t_start x <> t_start a) by (intros X; apply H; f_equal; lia). lia.
Qed.

(** What a block stores: at every pixel, band and coefficient, the entry
    determined by the records of that pixel alone. *)
Theorem C106_block : forall bx by_ l, 1 <= bx <= nbx -> 1 <= by_ -> l <> [] -> (forall c, In c l -> inside bx by_ c) ->
  NoDup (map key l) -> NoDup fs ->
  exists t, coef_block bx by_ l = Some t /\
  forall r q j b ic f y, 0 <= r < bh -> 0 <= q < bw -> nth_error bands j = Some b -> nth_error fs ic = Some f ->
  exists v, entry (of_pos (pixel_pos bx by_ r q) l) f b (july1 (lo + y)) v /\ t r q (Z.of_nat ic + Z.of_nat j * zlen fs) y = f32 v.
Proof.
  intros bx by_ l Hx Hy Hne Hin ND NDf. pose proof (sort_perm l) as HP. pose proof (sort_sorted l) as HS.
  destruct (split_groups HS) as (ps & Hs & He & Hi).
  assert (NDp : NoDup ps).
  { clear - Hs. induction Hs as [|p ps Hs IH F]; constructor; [|exact IH]. rewrite Forall_forall in F. intros X. specialize (F p X). lia. }
  assert (Hin' : forall c, In c (sort l) -> inside bx by_ c) by (intros c Hc; apply Hin; exact (Permutation_in _ HP Hc)).
  destruct (@put_groups_at bx by_ (sort l) ps (fun _ _ _ _ => f32 fillv) Hx Hy NDp Hin' (fun p => proj1 (Hi p))) as (t & Et & Ht).
  exists t. split.
  { unfold coef_block. destruct l as [|a l']; [congruence|]. rewrite He. exact Et. }
  intros r q j b ic f y Hr Hq Hj Hf. set (p := pixel_pos bx by_ r q).
  assert (Same : forall c, In c (of_pos p (sort l)) <-> In c (of_pos p l)).
  { intros c. unfold of_pos. rewrite !filter_In. split; intros [A B]; split; auto; [exact (Permutation_in _ HP A)|exact (Permutation_in _ (Permutation_sym HP) A)]. }
  destruct (Ht r q Hr Hq) as [H1 H2]. fold p in H1, H2. destruct (in_dec Z.eq_dec p ps) as [I|I].
  - exists (feature fs b (of_pos p (sort l)) (july1 (lo + y)) ic). split.
    + apply (@entry_same (of_pos p (sort l))); [exact Same|]. apply C106_feature; [exact NDf| |exact Hf].
      apply sorted_chrono; [exact HS|]. exact (Permutation_NoDup (Permutation_map key (Permutation_sym HP)) ND).
    + apply H1; [exact I|exact Hj|]. apply nth_error_Some. congruence.
  - exists fillv. split; [|apply H2; exact I].
    assert (E : of_pos p l = []).
    { apply of_pos_nil. intros c Hc X. apply I. apply Hi. exists c. split; [exact (Permutation_in _ (Permutation_sym HP) Hc)|exact X]. }
    rewrite E. destruct f; cbn [entry]; right; (split; [|reflexivity]); intros c X; try (destruct X as (X & _)); destruct X.
Qed.

(** ** The tile (397-403, 559-567, 597-622) *)

(** Block number from 0 (402-403) *)
Definition block_x (i : Z) : Z := i mod nbx + 1.
Definition block_y (i : Z) : Z := i / nbx + 1.
Definition blocks : list Z := map Z.of_nat (seq 0 (Z.to_nat (nbx * nby))).
(** The record file of a block, if there is one *)
Variable files : Z -> option (list rec).
(** tmp_coefmap_block{}_{}.npy: a block without a record file saves the break
    maps only and goes on to the next (428-433). *)
Definition saved_coefs (i : Z) : option table :=
  match files i with None => None | Some l => coef_block (block_x i) (block_y i) l end.
(** np.load of all blocks, hstack, hsplit, vstack (599-607), layer [k];
    [None]: an exception *)
Definition coef_map (y k : Z) : option arr :=
  match all_some (fun i => option_map (fun t : table => mkArr bh bw (fun r q => t r q k y)) (saved_coefs i)) blocks with
  | Some l => assemble_array l nbx
  | None => None
  end.
(** Create(outfile, xsize, ysize, ..) and WriteArray (615-616): an array larger
    than the raster raises, a smaller one leaves the rest at 0. *)
Definition write_raster (xsize ysize : Z) (a : arr) : option arr :=
  if (a_cols a <=? xsize) && (a_rows a <=? ysize)
  then Some (mkArr ysize xsize (fun r q => if (r <? a_rows a) && (q <? a_cols a) then a_at a r q else 0))
  else None.
(** The loops of 608-622: band, coefficient, ninput *)
Fixpoint number {A} (n : Z) (l : list A) : list (A * Z) :=
  match l with [] => [] | a :: t => (a, n) :: number (n + 1) t end.
Fixpoint outputs (n : Z) (bs : list Z) : list (Z * coef * Z) :=
  match bs with
  | [] => []
  | b :: bs => map (fun p => (b, fst p, snd p)) (number n fs) ++ outputs (n + zlen fs) bs
  end.
(** The maps of one year: [rows] and [cols] of the reference image are those of
    the tile (374-375); Create is called with the rows first. *)
Definition export (y : Z) : option (list (Z * coef * arr)) :=
  all_some (fun o => let '(b, f, k) := o in
              match coef_map y k with
              | Some a => option_map (fun im => (b, f, im)) (write_raster n_rows n_cols a)
              | None => None
              end) (outputs 0 bands).

Lemma number_in : forall A (l : list A) n a k, In (a, k) (number n l) <-> exists ic, nth_error l ic = Some a /\ k = n + Z.of_nat ic.
Proof.
  intros A. induction l as [|x t IH]; intros n a k; cbn [number In].
  - split; [intros []|intros ([|ic] & H & _); discriminate].
  - rewrite IH. split.
    + intros [E|(ic & H & ->)]; [injection E as <- <-; exists 0%nat; split; [reflexivity|lia]|exists (S ic); split; [exact H|lia]].
    + intros ([|ic] & H & ->); [injection H as ->; left; f_equal; lia|right; exists ic; split; [exact H|lia]].
Qed.
Lemma outputs_in : forall bs n b f k, In (b, f, k) (outputs n bs) <->
  exists j ic, nth_error bs j = Some b /\ nth_error fs ic = Some f /\ k = n + Z.of_nat ic + Z.of_nat j * zlen fs.
Proof.
  induction bs as [|x bs IH]; intros n b f k; cbn [outputs In].
  - split; [intros []|intros ([|j] & ic & H & _); discriminate].
  - rewrite in_app_iff, IH, in_map_iff. split.
    + intros [([f' k'] & E & H)|(j & ic & H1 & H2 & ->)].
      * cbn [fst snd] in E. injection E as -> -> ->. apply number_in in H. destruct H as (ic & H & ->). exists 0%nat, ic. repeat split; [exact H|lia].
      * exists (S j), ic. repeat split; [exact H1|exact H2|lia].
    + intros ([|j] & ic & H1 & H2 & ->).
      * injection H1 as ->. left. exists (f, n + Z.of_nat ic). split; [cbn [fst snd]; f_equal; lia|]. apply number_in. exists ic. auto.
      * right. exists j, ic. repeat split; [exact H1|exact H2|lia].
Qed.
Lemma all_some_ok : forall A B (f : A -> option B) (g : A -> B) l, (forall a, In a l -> f a = Some (g a)) -> all_some f l = Some (map g l).
Proof.
  intros A B f g. induction l as [|a t IH]; intros H; [reflexivity|]. cbn [all_some map]. rewrite (H a (or_introl eq_refl)), IH; [reflexivity|].
  intros b Hb. apply H. right. exact Hb.
Qed.
Lemma blocks_in : forall i, In i blocks <-> 0 <= i < nbx * nby.
Proof.
  intros i. unfold blocks. rewrite in_map_iff. split.
  - intros (k & <- & Hk). apply in_seq in Hk. nia.
  - intros H. exists (Z.to_nat i). split; [lia|]. apply in_seq. lia.
Qed.

(** All record files are there and hold records of their own block. *)
Definition complete : Prop := forall i, 0 <= i < nbx * nby ->
  exists l, files i = Some l /\ l <> [] /\ (forall c, In c l -> inside (block_x i) (block_y i) c) /\ NoDup (map key l).
(** The records of the tile *)
Definition records : list rec := flat_map (fun i => match files i with Some l => l | None => [] end) blocks.
(** An image holds the right entry at every pixel of the tile. *)
Definition right_image (y : Z) (b : Z) (f : coef) (im : arr) : Prop :=
  a_rows im = n_rows /\ a_cols im = n_cols /\
  forall row col, 0 <= row < n_rows -> 0 <= col < n_cols ->
  exists v, entry (of_pos (pos_id n_cols (row + 1) (col + 1)) records) f b (july1 (lo + y)) v /\ a_at im row col = f32 v.

Lemma block_coord : forall i, 0 <= i < nbx * nby -> 1 <= block_x i <= nbx /\ 1 <= block_y i <= nby.
Proof.
  intros i Hi. unfold block_x, block_y. pose proof (Z.mod_pos_bound i nbx Hnbx).
  assert (0 <= i / nbx) by (apply Z.div_pos; lia). assert (i / nbx < nby) by (apply Z.div_lt_upper_bound; lia). lia.
Qed.
Lemma records_pixel : forall i l r q, complete -> 0 <= i < nbx * nby -> files i = Some l -> 0 <= r < bh -> 0 <= q < bw ->
  let p := pixel_pos (block_x i) (block_y i) r q in forall c, In c (of_pos p l) <-> In c (of_pos p records).
Proof.
  intros i l r q HC Hi El Hr Hq p c. unfold of_pos. rewrite !filter_In. split; intros [A B]; (split; [|exact B]).
  - apply in_flat_map. exists i. split; [apply blocks_in; exact Hi|]. rewrite El. exact A.
  - apply in_flat_map in A. destruct A as (i' & Hi' & A). apply blocks_in in Hi'. destruct (HC i' Hi') as (l' & El' & _ & Hin & _). rewrite El' in A.
    destruct (Hin c A) as (I1 & I2 & I3). apply Z.eqb_eq in B. rewrite B in *.
    destruct (block_coord Hi) as [Bx By]. destruct (block_coord Hi') as [Bx' By'].
    destruct (@pixel_cell (block_x i) (block_y i) r q Bx (proj1 By) Hr Hq) as [C1 C2]. fold p in C1, C2.
    assert (X : block_x i = block_x i' /\ block_y i = block_y i').
    { unfold get_row_index, get_col_index in *. clearbody p.
      set (a := Z.quot (p - 1) n_cols) in *. set (b := (p - 1) mod n_cols) in *. clearbody a b. clear - Hbw Hbh Hr Hq I2 I3 C1 C2. nia. }
    assert (i = i').
    { destruct X as [X Y]. unfold block_x, block_y in X, Y. pose proof (Z.div_mod i nbx ltac:(lia)). pose proof (Z.div_mod i' nbx ltac:(lia)). nia. }
    subst i'. congruence.
Qed.

Theorem C106_export_partial : forall y, nbx = nby -> bw = bh -> NoDup fs -> complete ->
  exists ims, export y = Some ims /\
  (forall b f, In b bands -> In f fs -> exists im, In (b, f, im) ims) /\
  (forall b f im, In (b, f, im) ims -> right_image y b f im).
Proof.
  intros y Esq Ebl NDf HC.
  (* the table of every block *)
  assert (HT : forall i, 0 <= i < nbx * nby -> exists t, saved_coefs i = Some t /\
     forall r q j b ic f, 0 <= r < bh -> 0 <= q < bw -> nth_error bands j = Some b -> nth_error fs ic = Some f ->
     exists v, entry (of_pos (pixel_pos (block_x i) (block_y i) r q) records) f b (july1 (lo + y)) v /\ t r q (Z.of_nat ic + Z.of_nat j * zlen fs) y = f32 v).
  { intros i Hi. destruct (HC i Hi) as (l & El & Hne & Hin & ND). destruct (block_coord Hi) as [Bx By].
    destruct (@C106_block (block_x i) (block_y i) l Bx (proj1 By) Hne Hin ND NDf) as (t & Et & Ht). exists t.
    split; [unfold saved_coefs; rewrite El; exact Et|]. intros r q j b ic f Hr Hq Hj Hf.
    destruct (Ht r q j b ic f y Hr Hq Hj Hf) as (v & Hv & E). exists v. split; [|exact E].
    apply (@entry_same (of_pos (pixel_pos (block_x i) (block_y i) r q) l)); [|exact Hv]. exact (@records_pixel i l r q HC Hi El Hr Hq). }
  (* one layer *)
  assert (HM : forall j b ic f, nth_error bands j = Some b -> nth_error fs ic = Some f ->
     exists a im, coef_map y (Z.of_nat ic + Z.of_nat j * zlen fs) = Some a /\ write_raster n_rows n_cols a = Some im /\ right_image y b f im).
  { intros j b ic f Hj Hf. set (k := Z.of_nat ic + Z.of_nat j * zlen fs). unfold coef_map.
    set (tb := fun i => match saved_coefs i with Some t => t | None => fun _ _ _ _ => 0 end).
    rewrite (@all_some_ok _ _ _ (fun i => mkArr bh bw (fun r q => tb i r q k y)) blocks).
    2:{ intros i Hi. apply blocks_in in Hi. destruct (HT i Hi) as (t & Et & _). unfold tb. rewrite Et. reflexivity. }
    set (lst := map _ blocks).
    assert (U : uniform bw bh lst) by (apply Forall_forall; intros a Ha; apply in_map_iff in Ha; destruct Ha as (i & <- & _); split; reflexivity).
    assert (Len : Z.of_nat (length lst) = nbx * nby) by (unfold lst, blocks; rewrite !map_length, seq_length; nia).
    destruct (@C51_square_partial nbx nby bw bh Hnbx Hnby Hbw Hbh lst (mkArr bh bw (fun r q => tb 0 r q k y)) Esq U Len) as (a & Ea & Er & Ec & Ha).
    exists a. eexists. split; [exact Ea|]. unfold write_raster. unfold n_rows, n_cols in *. rewrite Er, Ec.
    rewrite <- Esq, <- Ebl, Z.leb_refl. cbn [andb]. split; [reflexivity|].
    split; [unfold n_rows; cbn [a_rows]; congruence|]. split; [reflexivity|]. cbn [a_at].
    intros row col Hrow Hcol. unfold n_rows, n_cols in Hrow, Hcol. rewrite <- Esq, <- Ebl in Hrow. destruct (row <? nbx * bw) eqn:E1; [|lia]. destruct (col <? nbx * bw) eqn:E2; [|lia]. cbn [andb].
    rewrite Ha by nia. unfold tile_at.
    assert (R1 : 0 <= row / bh < nbx) by (split; [apply Z.div_pos; lia|apply Z.div_lt_upper_bound; nia]).
    assert (R2 : 0 <= col / bw < nbx) by (split; [apply Z.div_pos; lia|apply Z.div_lt_upper_bound; nia]).
    set (i := row / bh * nbx + col / bw).
    assert (Hi : 0 <= i < nbx * nby) by (unfold i; nia).
    assert (En : nth (Z.to_nat i) lst (mkArr bh bw (fun r q => tb 0 r q k y)) = mkArr bh bw (fun r q => tb i r q k y)).
    { unfold lst. rewrite (map_nth (fun i => mkArr bh bw (fun r q => tb i r q k y)) blocks 0). unfold blocks.
      change 0 with (Z.of_nat 0). rewrite (map_nth Z.of_nat), seq_nth by nia. cbn [Nat.add]. rewrite Z2Nat.id by lia. reflexivity. }
    rewrite En. cbn [a_at]. destruct (HT i Hi) as (t & Et & Ht). unfold tb. rewrite Et.
    pose proof (Z.mod_pos_bound row bh Hbh) as M1. pose proof (Z.mod_pos_bound col bw Hbw) as M2.
    destruct (Ht (row mod bh) (col mod bw) j b ic f M1 M2 Hj Hf) as (v & Hv & E). exists v. split; [|exact E].
    replace (pos_id n_cols (row + 1) (col + 1)) with (pixel_pos (block_x i) (block_y i) (row mod bh) (col mod bw)); [exact Hv|].
    unfold pixel_pos, block_x, block_y, i.
    replace (row / bh * nbx + col / bw) with (col / bw + row / bh * nbx) by lia.
    rewrite Z.div_add, Z.mod_add by lia. rewrite (Z.div_small (col / bw)), (Z.mod_small (col / bw)) by lia.
    pose proof (Z.div_mod row bh ltac:(lia)). pose proof (Z.div_mod col bw ltac:(lia)). f_equal; lia. }
  assert (HO : forall o, In o (outputs 0 bands) -> exists im, (let '(b, f, k) := o in
              match coef_map y k with
              | Some a => option_map (fun im => (b, f, im)) (write_raster n_rows n_cols a)
              | None => None end) = Some (fst o, im) /\ right_image y (fst (fst o)) (snd (fst o)) im).
  { intros [[b f] k] Ho. apply outputs_in in Ho. destruct Ho as (j & ic & Hj & Hf & ->). rewrite Z.add_0_l.
    destruct (HM j b ic f Hj Hf) as (a & im & Ea & Ei & Hr). exists im. cbn [fst snd]. rewrite Ea, Ei. split; [reflexivity|exact Hr]. }
  unfold export.
  assert (GA : forall l, (forall o, In o l -> In o (outputs 0 bands)) -> exists ims, all_some (fun o => let '(b, f, k) := o in
              match coef_map y k with
              | Some a => option_map (fun im => (b, f, im)) (write_raster n_rows n_cols a)
              | None => None end) l = Some ims /\
     (forall o, In o l -> exists im, In (fst o, im) ims) /\ (forall b f im, In (b, f, im) ims -> right_image y b f im)).
  { induction l as [|o l IH]; intros Hl.
    - exists []. split; [reflexivity|]. split; [intros o []|intros b f im []].
    - destruct (HO o (Hl o (or_introl eq_refl))) as (im & Eo & Hr). destruct IH as (ims & E & H1 & H2); [intros o' Ho'; apply Hl; right; exact Ho'|].
      exists ((fst o, im) :: ims). cbn [all_some]. rewrite Eo, E. split; [reflexivity|]. split.
      + intros o' [<-|Ho']; [exists im; left; reflexivity|]. destruct (H1 o' Ho') as [im' Hm]. exists im'. right. exact Hm.
      + intros b f im' [X|X]; [|exact (H2 b f im' X)]. destruct o as [[b0 f0] k0]. cbn [fst snd] in *. injection X as <- <- <-. exact Hr. }
  destruct (GA (outputs 0 bands) (fun o H => H)) as (ims & E & H1 & H2). exists ims. split; [exact E|]. split; [|exact H2].
  intros b f Hb Hf. apply In_nth_error in Hb. apply In_nth_error in Hf. destruct Hb as [j Hj]. destruct Hf as [ic Hf].
  apply (H1 (b, f, 0 + Z.of_nat ic + Z.of_nat j * zlen fs)). apply outputs_in. exists j, ic. auto.
Qed.

(** ** Where it fails *)
Lemma all_some_none : forall A B (f : A -> option B) l a, In a l -> f a = None -> all_some f l = None.
Proof.
  intros A B f l a Ha Hf. destruct (all_some f l) as [r|] eqn:E; [|reflexivity]. destruct (@all_some_in _ _ f l r a E Ha) as [b Hb]. congruence.
Qed.
Lemma first_output : bands <> [] -> fs <> [] -> exists b f, In (b, f, 0) (outputs 0 bands).
Proof.
  intros Hb Hf. assert (B : exists b, nth_error bands 0 = Some b) by (destruct bands; [congruence|eexists; reflexivity]).
  assert (F : exists f, nth_error fs 0 = Some f) by (destruct fs; [congruence|eexists; reflexivity]).
  destruct B as [b B], F as [f F]. exists b, f. apply outputs_in. exists 0%nat, 0%nat. auto.
Qed.
(** One block without a record file: no coefficient map at all, although the
    break maps are made (C60_cold_assembled). *)
Theorem C106_missing : forall i y, 0 <= i < nbx * nby -> files i = None -> bands <> [] -> fs <> [] -> export y = None.
Proof.
  intros i y Hi Hf Hb Hc. destruct (first_output Hb Hc) as (b & f & Ho). unfold export. apply (@all_some_none _ _ _ _ _ Ho).
  assert (E : coef_map y 0 = None).
  { unfold coef_map. rewrite (@all_some_none _ _ _ blocks i); [reflexivity|apply blocks_in; exact Hi|]. unfold saved_coefs. rewrite Hf. reflexivity. }
  rewrite E. reflexivity.
Qed.
(** On a square grid of blocks that are not square the raster has the sides
    exchanged and the array does not fit. *)
Theorem C106_blocks_not_square : forall y, nbx = nby -> bw <> bh -> bands <> [] -> fs <> [] -> export y = None.
Proof.
  intros y Esq Hne Hb Hc. destruct (first_output Hb Hc) as (b & f & Ho). unfold export. apply (@all_some_none _ _ _ _ _ Ho).
  destruct (coef_map y 0) as [a|] eqn:Ea; [|reflexivity].
  unfold coef_map in Ea. destruct (all_some _ blocks) as [lst|] eqn:El; [|discriminate].
  assert (G : uniform bw bh lst /\ length lst = length blocks).
  { clear - El. revert lst El. generalize blocks as l. induction l as [|i l IH]; intros lst El; [injection El as <-; split; [constructor|reflexivity]|].
    cbn [all_some] in El. destruct (saved_coefs i) as [t|]; cbn [option_map] in El; [|discriminate]. destruct (all_some _ l) as [r|]; [|discriminate].
    injection El as <-. destruct (IH r eq_refl) as [U L]. split; [constructor; [split; reflexivity|exact U]|cbn [length]; congruence]. }
  destruct G as [U L]. assert (Len : Z.of_nat (length lst) = nbx * nby) by (rewrite L; unfold blocks; rewrite map_length, seq_length; nia).
  destruct (@C51_square_partial nbx nby bw bh Hnbx Hnby Hbw Hbh lst (mkArr 0 0 (fun _ _ => 0)) Esq U Len) as (a' & Ea' & Er & Ec & _).
  assert (a' = a) by congruence. subst a'. unfold write_raster. unfold n_rows, n_cols in *. rewrite Er, Ec.
  destruct ((nbx * bw <=? nby * bh) && (nby * bh <=? nbx * bw)) eqn:E; [exfalso; rewrite <- Esq in E; nia|reflexivity].
Qed.
(** On a grid that is not square, of square blocks, the two exchanges agree:
    an image is written without complaint, with the wrong sides. *)
Theorem C106_grid_not_square : forall y ims b f im, nbx <> nby -> bw = bh -> export y = Some ims -> In (b, f, im) ims ->
  a_rows im = n_cols /\ a_cols im = n_rows /\ a_rows im <> n_rows /\ a_cols im <> n_cols.
Proof.
  intros y ims b f im Hne Ebl E Him. unfold export in E.
  assert (G : forall l ims, all_some (fun o => let '(b, f, k) := o in
              match coef_map y k with
              | Some a => option_map (fun im => (b, f, im)) (write_raster n_rows n_cols a)
              | None => None end) l = Some ims -> In (b, f, im) ims -> a_rows im = n_cols /\ a_cols im = n_rows).
  { clear E Him ims. induction l as [|[[b' f'] k'] l IH]; intros ims E Him; [injection E as <-; destruct Him|]. cbn [all_some] in E.
    destruct (coef_map y k') as [a|]; [|discriminate]. unfold write_raster in E at 1.
    destruct ((a_cols a <=? n_rows) && (a_rows a <=? n_cols)); cbn [option_map] in E; [|discriminate].
    destruct (all_some _ l) as [r|]; [|discriminate]. injection E as <-. destruct Him as [X|X]; [injection X as <- <- <-; split; reflexivity|exact (IH r eq_refl X)]. }
  destruct (G _ _ E Him) as [A B]. unfold n_rows, n_cols in *. repeat split; [exact A|exact B|nia|nia].
Qed.
End Arithmetic.

(** ** The ranks (397-401): rank 0 <= rank < np of np processes *)
Fixpoint mpi_loop (np rank n : Z) (m : nat) (k : Z) : list Z :=
  match m with
  | O => []
  | S m => let iblock := np * k + rank in if n <=? iblock then [] else iblock :: mpi_loop np rank n m (k + 1)
  end.
(** ranks_percore = int(np.ceil(n_blocks / n_process)) *)
Definition mpi_blocks (np rank n : Z) : list Z := mpi_loop np rank n (Z.to_nat ((n + np - 1) / np)) 0.
Lemma mpi_loop_in : forall np rank n m k i, 0 < np -> 0 <= rank < np -> 0 <= k ->
  In i (mpi_loop np rank n m k) <-> exists j, k <= j < k + Z.of_nat m /\ i = np * j + rank /\ i < n.
Proof.
  intros np rank n m. induction m as [|m IH]; intros k i Hnp Hr Hk; cbn [mpi_loop].
  - split; [intros []|intros (j & H & _); lia].
  - destruct (n <=? np * k + rank) eqn:E.
    + split; [intros []|]. intros (j & H1 & H2 & H3). apply Z.leb_le in E. nia.
    + cbn [In]. rewrite IH by lia. split.
      * intros [<-|(j & H1 & H2 & H3)]; [exists k; lia|exists j; lia].
      * intros (j & H1 & H2 & H3). destruct (Z.eq_dec j k) as [->|Hj]; [left; lia|right; exists j; lia].
Qed.
Lemma mpi_loop_nodup : forall np rank n m k, 0 < np -> 0 <= rank < np -> 0 <= k -> NoDup (mpi_loop np rank n m k).
Proof.
  intros np rank n m. induction m as [|m IH]; intros k Hnp Hr Hk; cbn [mpi_loop]; [constructor|].
  destruct (n <=? np * k + rank); [constructor|]. constructor; [|apply IH; lia].
  intros X. apply mpi_loop_in in X; [|lia|lia|lia]. destruct X as (j & H1 & H2 & H3). nia.
Qed.
Theorem C106_ranks : forall np n, 0 < np -> 0 <= n ->
  (forall rank, 0 <= rank < np -> NoDup (mpi_blocks np rank n)) /\
  (forall i rank, 0 <= rank < np -> (In i (mpi_blocks np rank n) <-> 0 <= i < n /\ rank = i mod np)).
Proof.
  intros np n Hnp Hn. split; [intros rank Hr; apply mpi_loop_nodup; lia|].
  intros i rank Hr. unfold mpi_blocks. rewrite mpi_loop_in by lia.
  assert (Hc : 0 <= (n + np - 1) / np) by (apply Z.div_pos; lia). split.
  - intros (j & H1 & H2 & H3). split; [nia|]. apply (Z.mod_unique i np j rank); [lia|exact H2].
  - intros [Hi ->]. exists (i / np). pose proof (Z.div_mod i np ltac:(lia)) as D. pose proof (Z.mod_pos_bound i np Hnp) as M.
    assert (0 <= i / np) by (apply Z.div_pos; lia). split; [|lia]. split; [lia|]. rewrite Z2Nat.id by exact Hc.
    pose proof (Z.div_mod (n + np - 1) np ltac:(lia)) as D'. pose proof (Z.mod_pos_bound (n + np - 1) np Hnp) as M'. nia.
Qed.
Example C106_ranks_case : map (fun r => mpi_blocks 3 r 8) [0; 1; 2] = [[0; 3; 6]; [1; 4; 7]; [2; 5]].
Proof. vm_compute. reflexivity. Qed.

(** ** Against the classifier's copy (pyclassifier.py 19-100), C61
    The export tool extends the last curve to 30 December of the year of its
    end; wherever the classifier finds a curve, it finds the same. *)
From Verif Require Classify.
Definition seg (c : rec) : Classify.segment rec := Classify.mkSeg (t_start c) (t_end c) (pos c) c.
Lemma end_in_year : forall d, 1 <= d -> d <= dec31 (py_year d).
Proof. intros d Hd. pose proof (py_year_ok Hd). unfold dec31. lia. Qed.
Theorem C106_classifier : forall plot day c, (forall c', In c' plot -> 1 <= t_end c') ->
  Classify.feature (fun s _ => Some (Classify.s_data s)) None (map seg plot) day = Some c -> pick plot day = Some c.
Proof.
  induction plot as [|p t IH]; intros day c He H; [discriminate|]. cbn [map] in H. destruct t as [|nx t].
  - cbn in H |- *. pose proof (end_in_year (He p (or_introl eq_refl))).
    destruct ((t_start p <=? day) && (day <? t_end p)) eqn:E; [|discriminate].
    destruct ((t_start p <=? day) && (day <? dec31 (py_year (t_end p)))) eqn:E'; [exact H|lia].
  - cbn [map Classify.feature Classify.s_start seg] in H. cbn [pick].
    destruct ((t_start p <=? day) && (day <? t_start nx)); [exact H|]. apply IH; [intros c' Hc'; apply He; right; exact Hc'|exact H].
Qed.

(** ** Examples: numbers are scaled integers, NaN is -1 *)
Definition ex_feature := feature Z.add Z.mul Z.div (fun v => v =? -1) 0 (-9999).
Definition ex (start fin brk p pr : Z) (base : Z) : rec :=
  mkRec start fin brk p pr (fun b k => base + 10 * b + k) (fun b => base + b + 500) (fun b => base + b + 700).
(** 1 July 2000 is day 730302, 1 July 2001 day 730667; the last curve ends on
    2 May 2001 and is used for 1 July 2001. *)
Definition plot2 : list rec := [ex 729000 730299 730300 3 100 1000; ex 730310 730607 0 3 0 2000].
Example C106_feature_case :
  map (fun n => ex_feature [A0; B3; CV; RMSE] 2 plot2 (july1 2000) n) [0; 1; 2; 3]%nat =
    [1020 + 1021 * 730302 / 10000; 1027; 1702; 1502] /\
  map (fun n => ex_feature [A0; B3; CV; RMSE] 2 plot2 (july1 2001) n) [1; 2; 3]%nat = [2027; -9999; 2502] /\
  map (fun n => ex_feature [A0; B3; CV; RMSE] 2 plot2 (july1 2002) n) [1; 2; 3]%nat = [-9999; -9999; -9999].
Proof. vm_compute. auto. Qed.
(** A tile of 2 x 2 blocks of one pixel, two bands, two coefficients, 2000. *)
Definition ex_export (nbx nby bw bh : Z) (files : Z -> option (list rec)) :=
  export Z.add Z.mul Z.div (fun v => v =? -1) 0 (-9999) (fun v => v) [A1; CV] [0; 3] 2000 nbx nby bw bh files 0.
Definition ex_files (i : Z) : option (list rec) :=
  nth_error [[ex 729000 731000 0 1 0 1000]; [ex 730500 731000 0 2 0 2000; ex 729000 730400 730400 2 100 3000];
             [ex 729000 731000 0 3 0 4000]; [ex 731000 732000 0 4 0 5000]] (Z.to_nat i).
Definition image (im : arr) : list Z := flat_map (fun r => map (a_at im r) [0; 1]) [0; 1].
Example C106_export_case :
  option_map (map (fun o => let '(b, f, im) := o in (b, f, image im))) (ex_export 2 2 1 1 ex_files) =
  Some [(0, A1, [1002; 3002; 4002; -9999]); (0, CV, [-9999; 3700; -9999; -9999]);
        (3, A1, [1032; 3032; 4032; -9999]); (3, CV, [-9999; 3703; -9999; -9999])].
Proof. vm_compute. reflexivity. Qed.
Lemma ex_complete : complete 2 2 1 1 ex_files.
Proof.
  intros i Hi. assert (C : i = 0 \/ i = 1 \/ i = 2 \/ i = 3) by lia.
  destruct C as [->|[->|[->| ->]]]; eexists; (split; [reflexivity|]); (split; [discriminate|]); split;
    try (intros c Hc; cbn in Hc; repeat destruct Hc as [<-|Hc]; try destruct Hc; vm_compute; repeat split; congruence);
    repeat constructor; cbn; intros X; repeat destruct X as [X|X]; try discriminate X; try destruct X.
Qed.
(** The refutations: three of the four record files; a tile of one block of
    2 x 1 pixels; a grid of 2 x 1 blocks of one pixel. *)
Theorem C106_missing_refuted : exists files, files 3 = None /\ (forall i, 0 <= i < 3 -> files i = ex_files i) /\
  ex_export 2 2 1 1 files = None /\ assembled COLD [true; true; true; false] = true.
Proof.
  exists (fun i => if i =? 3 then None else ex_files i). split; [reflexivity|]. split.
  - intros i Hi. destruct (i =? 3) eqn:E; [lia|reflexivity].
  - split; vm_compute; reflexivity.
Qed.
Definition one_block (i : Z) : option (list rec) := if i =? 0 then Some [ex 729000 731000 0 1 0 1000; ex 729000 731000 0 2 0 2000] else None.
Lemma one_complete : complete 1 1 2 1 one_block.
Proof.
  intros i Hi. assert (i = 0) by lia. subst i. eexists. split; [reflexivity|]. split; [discriminate|]. split.
  - intros c [<-|[<-|[]]]; vm_compute; repeat split; congruence.
  - repeat constructor; cbn; intros X; repeat destruct X as [X|X]; try discriminate X; try destruct X.
Qed.
Theorem C106_nonsquare_refuted :
  (exists files, complete 1 1 2 1 files /\ ex_export 1 1 2 1 files = None) /\
  (exists files ims, complete 2 1 1 1 files /\ ex_export 2 1 1 1 files = Some ims /\
     forall b f im, In (b, f, im) ims -> a_rows im = 2 /\ a_cols im = 1).
Proof.
  split.
  - exists one_block. split; [exact one_complete|vm_compute; reflexivity].
  - exists ex_files. eexists. split; [|split; [vm_compute; reflexivity|]].
    + intros i Hi. assert (C : i = 0 \/ i = 1) by lia.
      destruct C as [-> | ->]; eexists; (split; [reflexivity|]); (split; [discriminate|]); split;
        try (intros c Hc; cbn in Hc; repeat destruct Hc as [<-|Hc]; try destruct Hc; vm_compute; repeat split; congruence);
        repeat constructor; cbn; intros X; repeat destruct X as [X|X]; try discriminate X; try destruct X.
    + intros b f im H. repeat (destruct H as [H|H]; [injection H as <- <- <-; split; reflexivity|]). destruct H.
Qed.

Print Assumptions C106_names.
Print Assumptions C106_blank.
Print Assumptions C106_documented_refuted.
Print Assumptions C106_feature.
Print Assumptions C106_unique.
Print Assumptions C106_block.
Print Assumptions C106_export_partial.
Print Assumptions C106_missing.
Print Assumptions C106_blocks_not_square.
Print Assumptions C106_grid_not_square.
Print Assumptions C106_ranks.
Print Assumptions C106_classifier.
Print Assumptions C106_missing_refuted.
Print Assumptions C106_nonsquare_refuted.
Print Assumptions C106_days.
Print Assumptions C106_values.
