(** C37, C38: the sorting routines and the coefficient placement. *)
From Verif Require Import Base SortModel SortProof.

(** ** Statement vocabulary *)

(** Ascending by an integer key (ties allowed). *)
Definition ascending_by {A} (key : A -> Z) (l : list A) : Prop :=
  StronglySorted (fun x y => key x <= key y) l.

(** ** Keys *)
Section Keyed.
Variable A : Type.
Variable key : A -> Z.
Definition klt (x y : A) : bool := key x <? key y.

Lemma klt_irrefl : forall x, klt x x = false.
Proof. intros; unfold klt; lia. Qed.
Lemma klt_asym : forall x y, klt x y = true -> klt y x = false.
Proof. unfold klt; intros; lia. Qed.
Lemma klt_trans : forall x y z, klt x y = false -> klt y z = false -> klt x z = false.
Proof. unfold klt; intros; lia. Qed.

Lemma sorted_klt : forall l, sorted_by klt l -> ascending_by key l.
Proof.
  unfold sorted_by, ascending_by. induction 1; constructor; auto.
  eapply Forall_impl; [|eassumption]. unfold klt. intros; simpl in *; lia.
Qed.

(** C37: any sub-range [mid] of an array, with [pre] before and [suf] after
    it; a run with enough stack (recursion depth at most the length of the
    range) returns the array with [mid] replaced by a sorted permutation of
    it and nothing else changed.  Every access is inside the array (the
    model turns an access outside into [UB]). *)
Theorem C37_quick_sort : forall fuel (pre mid suf : list A),
  mid <> [] -> (length mid <= fuel)%nat ->
  exists mid',
    quick_sort klt fuel (pre ++ mid ++ suf) (zlen pre) (zlen pre + zlen mid - 1)
      = Ok (pre ++ mid' ++ suf) /\
    Permutation mid mid' /\ ascending_by key mid'.
Proof.
  intros fuel pre mid suf Hne Hf.
  destruct mid as [|d m] eqn:E; [congruence|]. rewrite <- E in *.
  destruct (@quick_sort_ok A klt klt_irrefl d klt_asym fuel pre mid suf) as (mid' & H1 & H2 & H3); auto.
  exists mid'. split; [assumption|]. split; [assumption|].
  apply sorted_klt, H3. intros x y z _ _ _. apply klt_trans.
Qed.

(** quick_sort_index: the same for distinct keys. *)
Theorem C38_quick_sort_index : forall fuel (pre mid suf : list A),
  mid <> [] -> NoDup (map key mid) -> (2 * length mid + 1 <= fuel)%nat ->
  exists mid',
    quick_sort_index klt fuel (pre ++ mid ++ suf) (zlen pre) (zlen pre + zlen mid - 1)
      = Ok (pre ++ mid' ++ suf) /\
    Permutation mid mid' /\ ascending_by key mid'.
Proof.
  intros fuel pre mid suf Hne Hnd Hf.
  destruct mid as [|d m] eqn:E; [congruence|]. rewrite <- E in *.
  destruct (@quick_sort_index_ok A klt klt_irrefl d klt_asym klt_trans fuel pre mid suf)
    as (mid' & H1 & H2 & H3); auto.
  { intros i j Hi Hj Hij. unfold klt.
    assert (key (nth i mid d) <> key (nth j mid d)).
    { intros K. apply Hij. apply (proj1 (NoDup_nth (map key mid) (key d)) Hnd);
        rewrite ?map_length; auto. rewrite !map_nth. assumption. }
    lia. }
  exists mid'. split; [assumption|]. split; [assumption|]. apply sorted_klt; assumption.
Qed.
End Keyed.

Print Assumptions C37_quick_sort.
Print Assumptions C38_quick_sort_index.

Example sort_duplicates :
  quick_sort (klt (fun x : Z => x)) 9 [9; 3; 1; 3; 2; 3; 1; 0] 1 6 = Ok [9; 1; 1; 2; 3; 3; 3; 0].
Proof. vm_compute. reflexivity. Qed.

Example sort_index_distinct :
  quick_sort_index (klt (fun x : Z * Z => fst x)) 11 [(5, 0); (1, 1); (4, 2); (2, 3); (3, 4)] 0 4
  = Ok [(1, 1); (2, 3); (3, 4); (4, 2); (5, 0)].
Proof. vm_compute. reflexivity. Qed.

(** *** Floats: NaN allowed *)

(** quick_sort_float with NaNs in the data stays inside the array, ends and
    permutes; without NaNs it sorts. *)
Theorem C37_quick_sort_float : forall fuel (pre mid suf : list fl),
  mid <> [] -> (length mid <= fuel)%nat ->
  exists mid',
    quick_sort flt fuel (pre ++ mid ++ suf) (zlen pre) (zlen pre + zlen mid - 1)
      = Ok (pre ++ mid' ++ suf) /\
    Permutation mid mid' /\
    (~ In NaN mid -> StronglySorted (fun x y => fle x y = true) mid').
Proof.
  intros fuel pre mid suf Hne Hf.
  assert (Hirr : forall x, flt x x = false) by (intros [|x]; simpl; [reflexivity|lia]).
  assert (Has : forall x y, flt x y = true -> flt y x = false)
    by (intros [|x] [|y]; simpl; intros; try discriminate; try reflexivity; lia).
  destruct (@quick_sort_ok fl flt Hirr NaN Has fuel pre mid suf) as (mid' & H1 & H2 & H3); auto.
  - exists mid'. split; [assumption|]. split; [assumption|]. intros Hn.
    assert (Hs : sorted_by flt mid').
    { apply H3. intros [|x] [|y] [|z] Ix Iy Iz; simpl; intros; try reflexivity; try contradiction; lia. }
    assert (Hn' : forall x, In x mid' -> x <> NaN).
    { intros x Hx ->. apply Hn. apply (Permutation_in _ (Permutation_sym H2) Hx). }
    clear - Hs Hn'. unfold sorted_by in Hs. induction Hs; constructor.
    + apply IHHs. intros x Hx. apply Hn'. right; assumption.
    + rewrite Forall_forall in *. intros y Hy. specialize (H y Hy).
      assert (a <> NaN) by (apply Hn'; left; reflexivity).
      assert (y <> NaN) by (apply Hn'; right; assumption).
      destruct a, y; simpl in *; try congruence; lia.
Qed.
Print Assumptions C37_quick_sort_float.

(** A NaN in the data can leave the finite values out of order: a sorted
    range comes back unsorted. *)
Theorem C37_sort_nan_refuted :
  exists l l' : list fl, quick_sort flt 9 l 0 (zlen l - 1) = Ok l' /\
  exists i j a b, (i < j)%nat /\ nth_error l' i = Some (Fin a) /\ nth_error l' j = Some (Fin b) /\ b < a.
Proof.
  exists [Fin 1; NaN; Fin 2]. eexists. split; [vm_compute; reflexivity|].
  exists 1%nat, 2%nat, 2, 1. split; [lia|]. split; [reflexivity|]. split; [reflexivity|lia].
Qed.
Print Assumptions C37_sort_nan_refuted.

(** quick_sort_index does not end on repeated keys, whatever the stack. *)
Theorem C38_quick_sort_index_duplicates_refuted :
  exists l : list Z, forall fuel, quick_sort_index (klt (fun x : Z => x)) fuel l 0 2 = Fuel.
Proof.
  exists [1; 1; 2]. induction fuel; [reflexivity|].
  cbn [quick_sort_index].
  change (partition (klt (fun x : Z => x)) [1; 1; 2] 0 2) with (@Ok (list Z * Z) ([1; 1; 2], 1)).
  exact IHfuel.
Qed.
Print Assumptions C38_quick_sort_index_duplicates_refuted.

(** ** Companion arrays (quick_sort_2d_float) *)
Section Columns.
Variables K B : Type.
Variable lt : K -> K -> bool.
Variable dk : K.
Variable db : B.

Definition omap {X Y} (f : X -> Y) (x : out X) : out Y := a <- x ;; Ok (f a).

Lemma get_map : forall X Y (f : X -> Y) l i, get (map f l) i = omap f (get l i).
Proof.
  intros. unfold get, omap. destruct (i <? 0); [reflexivity|].
  rewrite nth_error_map. destruct (nth_error l (Z.to_nat i)); reflexivity.
Qed.

Lemma put_map : forall X Y (f : X -> Y) l i v, put (map f l) i (f v) = omap (map f) (put l i v).
Proof.
  intros. unfold put, omap, zlen. rewrite map_length.
  destruct ((0 <=? i) && (i <? Z.of_nat (length l))); [|reflexivity].
  cbn [bind]. rewrite map_app, firstn_map, map_cons, skipn_map. reflexivity.
Qed.

Lemma swap_map : forall X Y (f : X -> Y) l i j, swap (map f l) i j = omap (map f) (swap l i j).
Proof.
  intros. unfold swap. rewrite !get_map.
  destruct (get l i) as [x| | |]; try reflexivity.
  destruct (get l j) as [y| | |]; try reflexivity. cbn [omap bind].
  rewrite put_map. destruct (put l i y) as [l1| | |]; try reflexivity. cbn [omap bind].
  apply put_map.
Qed.

Lemma scan_up_map : forall X (f : X -> K) fuel l p i,
  scan_up lt fuel (map f l) (f p) i = scan_up (fun x y => lt (f x) (f y)) fuel l p i.
Proof.
  intros X f. induction fuel; intros l p i; [reflexivity|]. cbn [scan_up]. rewrite get_map.
  destruct (get l i); try reflexivity. cbn [omap bind]. destruct (lt (f a) (f p)); [apply IHfuel|reflexivity].
Qed.

Lemma scan_down_map : forall X (f : X -> K) fuel l p i,
  scan_down lt fuel (map f l) (f p) i = scan_down (fun x y => lt (f x) (f y)) fuel l p i.
Proof.
  intros X f. induction fuel; intros l p i; [reflexivity|]. cbn [scan_down]. rewrite get_map.
  destruct (get l i); try reflexivity. cbn [omap bind]. destruct (lt (f p) (f a)); [apply IHfuel|reflexivity].
Qed.

(** Row [k] of the key array and the companions. *)
Definition row_at (a : list K) (cols : list (list B)) (k : nat) : K * list B :=
  (nth k a dk, map (fun c => nth k c db) cols).
Definition rows (a : list K) (cols : list (list B)) : list (K * list B) :=
  map (row_at a cols) (seq 0 (length a)).

Definition col (b : nat) (R : list (K * list B)) : list B := map (fun r => nth b (snd r) db) R.
Definition cols_of (nb : nat) (R : list (K * list B)) : list (list B) :=
  map (fun b => col b R) (seq 0 nb).

Lemma swap_all_cols : forall bs R i j R', swap R i j = Ok R' ->
  swap_all (map (fun b => col b R) bs) i j = Ok (map (fun b => col b R') bs).
Proof.
  induction bs; intros R i j R' H; [reflexivity|]. cbn [map swap_all].
  unfold col at 1. rewrite swap_map, H. cbn [omap bind]. rewrite (IHbs _ _ _ _ H). reflexivity.
Qed.

Notation rlt := (fun x y : K * list B => lt (fst x) (fst y)).
Definition unz (nb : nat) (R : list (K * list B)) := (map fst R, cols_of nb R).

Lemma part_loop_cols_rows : forall nb fuel R p i j,
  part_loop_cols lt fuel (map fst R) (cols_of nb R) (fst p) i j
  = omap (fun r => (unz nb (fst r), snd r)) (part_loop rlt fuel R p i j).
Proof.
  intros nb. induction fuel; intros R p i j; [reflexivity|].
  cbn [part_loop_cols part_loop]. destruct (i <=? j); [|reflexivity].
  rewrite scan_up_map, scan_down_map, map_length.
  destruct (scan_up rlt (S (length R)) R p i) as [i1| | |]; try reflexivity. cbn [bind].
  destruct (scan_down rlt (S (length R)) R p j) as [j1| | |]; try reflexivity. cbn [bind].
  destruct (i1 <=? j1); [|apply IHfuel].
  rewrite swap_map. destruct (swap R i1 j1) as [R1| | |] eqn:E; try reflexivity. cbn [omap bind].
  unfold cols_of at 1. rewrite (swap_all_cols _ _ _ _ E). cbn [bind]. apply IHfuel.
Qed.

Lemma quick_sort_cols_rows : forall nb fuel R left right,
  quick_sort_cols lt fuel (map fst R) (cols_of nb R) left right
  = omap (unz nb) (quick_sort rlt fuel R left right).
Proof.
  intros nb. induction fuel; intros R left right; [reflexivity|].
  cbn [quick_sort_cols quick_sort]. unfold partition_cols, partition. rewrite get_map, map_length.
  destruct (get R (Z.quot (left + right) 2)) as [p| | |]; try reflexivity. cbn [omap bind].
  rewrite part_loop_cols_rows.
  destruct (part_loop rlt (S (S (length R))) R p left right) as [[R1 ind]| | |]; try reflexivity.
  cbn [omap bind fst snd unz].
  destruct (left <? ind - 1).
  - rewrite IHfuel. destruct (quick_sort rlt fuel R1 left (ind - 1)) as [R2| | |]; try reflexivity.
    cbn [omap bind unz]. destruct (ind <? right); [apply IHfuel|reflexivity].
  - cbn [bind]. destruct (ind <? right); [apply IHfuel|reflexivity].
Qed.

Lemma rows_unz : forall nb R, Forall (fun r => length (snd r) = nb) R ->
  rows (map fst R) (cols_of nb R) = R.
Proof.
  intros nb R H. unfold rows. rewrite map_length.
  apply nth_ext with (d := (dk, [])) (d' := (dk, [])); rewrite map_length, seq_length; [reflexivity|].
  intros k Hk.
  rewrite (nth_indep _ (dk, []) (row_at (map fst R) (cols_of nb R) 0)) by (rewrite map_length, seq_length; assumption).
  rewrite map_nth, seq_nth by assumption. simpl plus. unfold row_at.
  rewrite Forall_forall in H.
  assert (Hl : length (snd (nth k R (dk, []))) = nb) by (apply H, nth_In; assumption).
  rewrite (nth_indep _ dk (fst (dk, @nil B))) by (rewrite map_length; assumption). rewrite map_nth.
  destruct (nth k R (dk, [])) as [x ys] eqn:E. cbn [fst snd] in *. f_equal.
  unfold cols_of. rewrite map_map.
  apply nth_ext with (d := db) (d' := db); rewrite map_length, seq_length; [congruence|].
  intros b Hb.
  rewrite (nth_indep _ db (nth k (col 0 R) db)) by (rewrite map_length, seq_length; assumption).
  rewrite (map_nth (fun b => nth k (col b R) db)), seq_nth by assumption. simpl plus.
  unfold col.
  rewrite (nth_indep _ db ((fun r => nth b (snd r) db) (dk, []))) by (rewrite map_length; assumption).
  rewrite (map_nth (fun r => nth b (snd r) db)), E. reflexivity.
Qed.

Lemma unz_rows : forall a cols, Forall (fun c => length c = length a) cols ->
  map fst (rows a cols) = a /\ cols_of (length cols) (rows a cols) = cols.
Proof.
  intros a cols H. unfold rows. split.
  - rewrite map_map. cbn [row_at fst].
    apply nth_ext with (d := dk) (d' := dk); rewrite map_length, seq_length; [reflexivity|].
    intros k Hk. rewrite (nth_indep _ dk (nth 0 a dk)) by (rewrite map_length, seq_length; assumption).
    rewrite (map_nth (fun k => nth k a dk)), seq_nth by assumption. reflexivity.
  - unfold cols_of, col. apply nth_ext with (d := []) (d' := []); rewrite map_length, seq_length; [reflexivity|].
    intros b Hb.
    set (F := fun b : nat => map (fun r : K * list B => nth b (snd r) db) (map (row_at a cols) (seq 0 (length a)))).
    rewrite (nth_indep _ [] (F 0%nat)) by (rewrite map_length, seq_length; assumption).
    rewrite (map_nth F), seq_nth by assumption. simpl plus. unfold F. rewrite map_map. cbn [row_at snd].
    rewrite Forall_forall in H.
    assert (Hl : length (nth b cols []) = length a) by (apply H, nth_In; assumption).
    apply nth_ext with (d := db) (d' := db); rewrite map_length, seq_length; [congruence|].
    intros k Hk.
    set (G := fun x : nat => nth b (map (fun c => nth x c db) cols) db).
    rewrite (nth_indep _ db (G 0%nat)) by (rewrite map_length, seq_length; assumption).
    rewrite (map_nth G), seq_nth by assumption. simpl plus. unfold G.
    rewrite (nth_indep _ db (nth k [] db)) by (rewrite map_length; assumption).
    rewrite (map_nth (fun c => nth k c db)). reflexivity.
Qed.
End Columns.

(** C37 for the co-sorting variant: the rows (key and all companions) of the
    range are permuted as units, ascending by key; rows outside the range
    stay where they are. *)
Theorem C37_quick_sort_2d : forall (B : Type) (db : B) fuel (a : list Z) (cols : list (list B)) (left n : nat),
  (0 < n)%nat -> (left + n <= length a)%nat -> (n <= fuel)%nat ->
  Forall (fun c => length c = length a) cols ->
  exists a' cols',
    quick_sort_cols Z.ltb fuel a cols (Z.of_nat left) (Z.of_nat (left + n) - 1) = Ok (a', cols') /\
    length a' = length a /\ length cols' = length cols /\
    Forall (fun c => length c = length a) cols' /\
    (forall k, (k < length a)%nat -> (k < left \/ left + n <= k)%nat ->
       row_at 0 db a' cols' k = row_at 0 db a cols k) /\
    Permutation (map (row_at 0 db a cols) (seq left n)) (map (row_at 0 db a' cols') (seq left n)) /\
    (forall i j, (left <= i <= j)%nat -> (j < left + n)%nat -> nth i a' 0 <= nth j a' 0).
Proof.
  intros B db fuel a cols left n Hn Hl Hf Hc.
  destruct (@unz_rows Z B 0 db a cols Hc) as [Ha Hcols].
  set (R := rows 0 db a cols) in *.
  assert (LR : length R = length a) by (unfold R, rows; rewrite map_length, seq_length; reflexivity).
  set (pre := firstn left R). set (mid := firstn n (skipn left R)). set (suf := skipn n (skipn left R)).
  assert (ER : R = pre ++ mid ++ suf)
    by (unfold pre, mid, suf; rewrite !firstn_skipn; reflexivity).
  assert (Lp : length pre = left) by (unfold pre; rewrite firstn_length; lia).
  assert (Lm : length mid = n) by (unfold mid; rewrite firstn_length, skipn_length; lia).
  assert (Hne : mid <> []) by (intros E; rewrite E in Lm; simpl in Lm; lia).
  destruct (@C37_quick_sort (Z * list B) fst fuel pre mid suf Hne) as (mid' & Q1 & Q2 & Q3); [lia|].
  assert (Lm' : length mid' = n) by (rewrite <- (Permutation_length Q2); assumption).
  set (R' := pre ++ mid' ++ suf) in *.
  assert (PR : Permutation R R').
  { rewrite ER. apply Permutation_app_head, Permutation_app_tail. assumption. }
  assert (HR : Forall (fun r => length (snd r) = length cols) R).
  { unfold R, rows. apply Forall_forall. intros r Hr. apply in_map_iff in Hr. destruct Hr as (k & <- & _).
    simpl. apply map_length. }
  assert (HR' : Forall (fun r => length (snd r) = length cols) R').
  { rewrite Forall_forall in *. intros r Hr. apply HR. apply (Permutation_in r (Permutation_sym PR) Hr). }
  assert (LR' : length R' = length a) by (rewrite <- LR; symmetry; apply Permutation_length; assumption).
  exists (map fst R'), (cols_of db (length cols) R').
  assert (RR : rows 0 db (map fst R') (cols_of db (length cols) R') = R') by (apply rows_unz; assumption).
  assert (AT : forall k, (k < length a)%nat -> row_at 0 db a cols k = nth k R (0, [])).
  { intros k Hk. unfold R, rows.
    rewrite (nth_indep _ (0, []) (row_at 0 db a cols 0)) by (rewrite map_length, seq_length; assumption).
    rewrite map_nth, seq_nth by assumption. reflexivity. }
  assert (AT' : forall k, (k < length a)%nat ->
     row_at 0 db (map fst R') (cols_of db (length cols) R') k = nth k R' (0, [])).
  { intros k Hk. rewrite <- RR at 3. unfold rows. rewrite map_length, LR'.
    rewrite (nth_indep _ (0, []) (row_at 0 db (map fst R') (cols_of db (length cols) R') 0))
      by (rewrite map_length, seq_length; assumption).
    rewrite map_nth, seq_nth by assumption. reflexivity. }
  assert (SEG : forall (f : nat -> Z * list B) (X m : list (Z * list B)),
     (forall k, (k < length a)%nat -> f k = nth k X (0, [])) -> X = pre ++ m ++ suf -> length m = n ->
     map f (seq left n) = m).
  { intros f X m Hf' EX Hm. apply nth_ext with (d := f 0%nat) (d' := (0, [])); rewrite map_length, seq_length; [congruence|].
    intros k Hk. rewrite map_nth, seq_nth by assumption. rewrite Hf' by lia. rewrite EX.
    rewrite <- Lp, nth_pre. apply app_nth1. lia. }
  split; [|split; [|split; [|split; [|split; [|split]]]]].
  - rewrite <- Ha at 1. rewrite <- Hcols at 1. rewrite quick_sort_cols_rows.
    replace (Z.of_nat left) with (zlen pre) by (unfold zlen; lia).
    replace (Z.of_nat (left + n) - 1) with (zlen pre + zlen mid - 1) by (unfold zlen; lia).
    rewrite ER. unfold klt in Q1. rewrite Q1. reflexivity.
  - rewrite map_length. assumption.
  - unfold cols_of. rewrite map_length, seq_length. reflexivity.
  - apply Forall_forall. intros c Hin. unfold cols_of in Hin. apply in_map_iff in Hin.
    destruct Hin as (b & <- & _). unfold col. rewrite map_length. assumption.
  - intros k Hk Hout. rewrite AT, AT' by assumption. rewrite ER. unfold R'.
    destruct Hout as [Hout|Hout].
    + rewrite !app_nth1 by lia. reflexivity.
    + rewrite !(app_nth2 pre) by lia. rewrite !app_nth2 by lia. rewrite Lm, Lm'. reflexivity.
  - rewrite (SEG _ R mid AT ER Lm). rewrite (SEG _ R' mid' AT' eq_refl Lm'). assumption.
  - intros i j Hij Hj.
    assert (KEY : forall k, (left <= k < left + n)%nat -> nth k (map fst R') 0 = fst (nth (k - left) mid' (0, []))).
    { intros k Hk. change 0 with (fst (0, @nil B)) at 1. rewrite map_nth. unfold R'.
      rewrite app_nth2 by lia. rewrite app_nth1 by lia. rewrite Lp. reflexivity. }
    rewrite !KEY by lia.
    assert (G : forall (l : list (Z * list B)) i j, ascending_by fst l -> (i <= j < length l)%nat ->
       fst (nth i l (0, [])) <= fst (nth j l (0, []))).
    { clear. intros l. induction l as [|x l IH]; intros i j H Hij; simpl in *; [lia|].
      inversion H; subst. destruct i, j; try lia.
      - rewrite Forall_forall in H3. apply H3, nth_In. lia.
      - apply IH; [assumption|lia]. }
    apply G; [assumption|lia].
Qed.
Print Assumptions C37_quick_sort_2d.

Example sort_2d :
  quick_sort_cols Z.ltb 5 [30; 10; 20; 10; 5] [[1; 2; 3; 4; 5]; [11; 12; 13; 14; 15]] 0 3
  = Ok ([10; 10; 20; 30; 5], [[2; 4; 3; 1; 5]; [12; 14; 13; 11; 15]]).
Proof. vm_compute. reflexivity. Qed.

(** ** C38: coefficient placement *)
Section Placement.
Variable C : Type.
Variable zero : C.

Lemma scatter_ok : forall ia oja (row : list C) ca, length ia = length oja -> NoDup ia ->
  Forall (fun s => 0 <= s < zlen row) ia -> Forall (fun o => 0 <= o < zlen ca) oja ->
  exists row', scatter row ia oja ca = Ok row' /\ length row' = length row /\
    (forall s o, In (s, o) (combine ia oja) -> nth (Z.to_nat s) row' zero = nth (Z.to_nat o) ca zero) /\
    (forall k, ~ In (Z.of_nat k) ia -> nth k row' zero = nth k row zero).
Proof.
  induction ia as [|s ia IH]; intros [|o oja] row ca Hl Hnd Hs Ho; try discriminate.
  - exists row. repeat split; auto. intros s o [].
  - cbn [scatter]. inversion Hnd; subst. inversion Hs; subst. inversion Ho; subst.
    rewrite (get_ok _ zero) by assumption. cbn [bind].
    destruct (put row s (nth (Z.to_nat o) ca zero)) as [row1| | |] eqn:E;
      try (rewrite put_ok in E by assumption; discriminate).
    cbn [bind]. pose proof (put_len _ _ _ E) as L1.
    destruct (IH oja row1 ca) as (row' & R1 & R2 & R3 & R4); auto.
    { rewrite Forall_forall in *. intros x Hx. unfold zlen in *. rewrite L1. auto. }
    exists row'. split; [assumption|]. split; [congruence|]. split.
    + intros s' o' [Heq|Hin]; [|apply R3; assumption].
      inversion Heq; subst. rewrite R4 by (rewrite Z2Nat.id by lia; assumption).
      rewrite (nth_put _ _ _ _ _ E), Nat.eqb_refl. reflexivity.
    + intros k Hk. rewrite R4 by (intros Hin; apply Hk; right; assumption).
      rewrite (nth_put _ _ _ _ _ E). destruct (Nat.eqb_spec k (Z.to_nat s)); [|reflexivity].
      exfalso. apply Hk. left. lia.
Qed.

(** The row of coefficients handed back by the LASSO wrapper: the intercept
    in slot 0, the coefficient of predictor [ia[k]] in slot [ia[k]] for every
    selected predictor, zero elsewhere — in whatever order the solver
    selected the predictors. *)
Theorem C38_placement : forall fuel ni nin0 (a0 : C) ca ia,
  length ia = nin0 -> NoDup ia -> Forall (fun s => 1 <= s <= Z.of_nat ni) ia ->
  (nin0 <= length ca)%nat -> (2 * nin0 + 1 <= fuel)%nat ->
  exists row ia', glmnet_row zero fuel ni nin0 a0 ca ia = Ok (row, ia') /\
    length row = S ni /\ nth 0 row zero = a0 /\
    (forall k, (k < nin0)%nat -> nth (Z.to_nat (nth k ia 0)) row zero = nth k ca zero) /\
    (forall s, (1 <= s <= ni)%nat -> ~ In (Z.of_nat s) ia -> nth s row zero = zero).
Proof.
  intros fuel ni nin0 a0 ca ia Hl Hnd Hs Hca Hf.
  assert (Hrep : forall s, nth s (repeat zero ni) zero = zero) by (intros; apply nth_repeat).
  destruct nin0 as [|n0].
  { exists (a0 :: repeat zero ni), ia. simpl. rewrite repeat_length.
    repeat split; auto; try (intros; lia). intros s H1 _. destruct s; [lia|]. apply Hrep. }
  set (nin0 := S n0) in *. unfold glmnet_row. unfold nin0 at 1.
  set (prs := combine ia (map Z.of_nat (seq 0 nin0))).
  assert (Lo : length (map Z.of_nat (seq 0 nin0)) = nin0) by (rewrite map_length, seq_length; reflexivity).
  assert (Lp : length prs = nin0) by (unfold prs; rewrite combine_length; lia).
  assert (Fp : map fst prs = ia).
  { unfold prs. clear - Hl Lo. rewrite <- Lo in Hl. clear Lo.
    revert Hl. generalize (map Z.of_nat (seq 0 nin0)). induction ia; intros [|y l] H; simpl in *; try congruence.
    f_equal. apply IHia. congruence. }
  destruct (@C38_quick_sort_index (Z * Z) fst fuel [] prs []) as (s & S1 & S2 & S3).
  { intros E. rewrite E in Lp. discriminate. }
  { rewrite Fp. assumption. }
  { lia. }
  cbn [app] in S1. rewrite !app_nil_r in S1. unfold klt in S1.
  assert (Zp : zlen (@nil (Z * Z)) + zlen prs - 1 = Z.of_nat nin0 - 1)
    by (unfold zlen; rewrite Lp; cbn [length]; lia).
  rewrite Zp in S1. change (zlen (@nil (Z * Z))) with 0 in S1. rewrite S1. cbn [bind].
  assert (Pf : Permutation ia (map fst s)) by (rewrite <- Fp; apply Permutation_map; assumption).
  assert (Ic : combine (map fst s) (map snd s) = s).
  { clear. induction s as [|[x y] s IH]; simpl; congruence. }
  assert (Zl : zlen (a0 :: repeat zero ni) = Z.of_nat (S ni))
    by (unfold zlen; cbn [length]; rewrite repeat_length; reflexivity).
  destruct (@scatter_ok (map fst s) (map snd s) (a0 :: repeat zero ni) ca) as (row & R1 & R2 & R3 & R4).
  { rewrite !map_length. reflexivity. }
  { eapply Permutation_NoDup; eassumption. }
  { rewrite Forall_forall in *. intros x Hx. apply (Permutation_in x (Permutation_sym Pf)) in Hx.
    specialize (Hs x Hx). rewrite Zl. lia. }
  { rewrite Forall_forall. intros x Hx. apply in_map_iff in Hx. destruct Hx as ([u v] & <- & Hin).
    apply (Permutation_in _ (Permutation_sym S2)) in Hin. unfold prs in Hin. apply in_combine_r in Hin.
    apply in_map_iff in Hin. destruct Hin as (q & <- & Hq). apply in_seq in Hq. unfold zlen. simpl. lia. }
  rewrite R1. cbn [bind]. exists row, (map fst s). split; [reflexivity|].
  split; [rewrite R2; cbn [length]; rewrite repeat_length; reflexivity|].
  split.
  { rewrite R4; [reflexivity|]. intros Hin. apply (Permutation_in _ (Permutation_sym Pf)) in Hin.
    rewrite Forall_forall in Hs. specialize (Hs _ Hin). simpl in Hs. lia. }
  split.
  - intros k Hk. rewrite (R3 (nth k ia 0) (Z.of_nat k)); [rewrite Nat2Z.id; reflexivity|].
    rewrite Ic. apply (Permutation_in _ S2). unfold prs.
    assert (E : (nth k ia 0, Z.of_nat k) = nth k (combine ia (map Z.of_nat (seq 0 nin0))) (0, 0)).
    { rewrite combine_nth by lia. f_equal.
      change 0 with (Z.of_nat 0) at 1. rewrite map_nth, seq_nth by assumption. reflexivity. }
    rewrite E. apply nth_In. fold prs. lia.
  - intros k Hk Hn. rewrite R4.
    + destruct k; [lia|]. apply Hrep.
    + intros Hin. apply Hn. apply (Permutation_in _ (Permutation_sym Pf)). assumption.
Qed.
End Placement.
Print Assumptions C38_placement.

Example placement_case :
  glmnet_row 0 9 7 3 1000 [11; 12; 13] [5; 1; 4] = Ok ([1000; 12; 0; 0; 13; 11; 0; 0], [1; 4; 5]).
Proof. vm_compute. reflexivity. Qed.

(** For a second lambda value the index array is already sorted while the
    companion is reset to 0, 1, ..., so the coefficients land in the wrong
    slots.  (No caller asks for more than one lambda: [nlam = 1] in
    auto_ts_fit*, src/cxx/misc.c 1762, 2041, 2265.) *)
Theorem C38_second_lambda_refuted :
  exists ia ca row1 row2,
    NoDup ia /\ glmnet_rows 0 9 3 2 [1000; 1000] [ca; ca] ia = Ok [row1; row2] /\
    nth (Z.to_nat (nth 0 ia 0)) row2 0 <> nth 0 ca 0.
Proof.
  exists [3; 1], [11; 12]. do 2 eexists. split; [|split; [vm_compute; reflexivity|]].
  - repeat constructor; simpl; intuition lia.
  - vm_compute. discriminate.
Qed.
Print Assumptions C38_second_lambda_refuted.
