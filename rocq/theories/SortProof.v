(** Proofs about the sorting routines. *)
From Verif Require Import Base SortModel.

(** ** Lists by index *)

Lemma nth_Forall : forall A (P : A -> Prop) (l : list A) (d : A),
  (forall k, (k < length l)%nat -> P (nth k l d)) -> Forall P l.
Proof.
  intros A P l d. induction l as [|a l IH]; intros H; [constructor|].
  constructor; [apply (H 0%nat); simpl; lia|].
  apply IH. intros k Hk. apply (H (S k)). simpl. lia.
Qed.

Lemma nth_pre : forall A (pre l : list A) k d, nth (length pre + k) (pre ++ l) d = nth k l d.
Proof. intros. rewrite app_nth2 by lia. f_equal. lia. Qed.

(** ** Swapping *)

Lemma swap_ok : forall A (l : list A) i j d, 0 <= i < zlen l -> 0 <= j < zlen l ->
  exists l', swap l i j = Ok l' /\ length l' = length l /\ Permutation l l' /\
  (forall k, nth k l' d = if Nat.eqb k (Z.to_nat j) then nth (Z.to_nat i) l d
                         else if Nat.eqb k (Z.to_nat i) then nth (Z.to_nat j) l d
                         else nth k l d).
Proof.
  intros A l i j d Hi Hj. unfold swap.
  rewrite (get_ok _ d Hi), (get_ok _ d Hj). simpl.
  destruct (put l i (nth (Z.to_nat j) l d)) as [l1| | |] eqn:E1;
    try (rewrite (put_ok) in E1 by assumption; discriminate).
  simpl.
  assert (L1 := put_len _ _ _ E1).
  destruct (put l1 j (nth (Z.to_nat i) l d)) as [l2| | |] eqn:E2;
    try (rewrite (put_ok) in E2 by (unfold zlen in *; lia); discriminate).
  assert (L2 := put_len _ _ _ E2).
  exists l2. split; [reflexivity|]. split; [congruence|].
  assert (N : forall k, nth k l2 d = if Nat.eqb k (Z.to_nat j) then nth (Z.to_nat i) l d
                         else if Nat.eqb k (Z.to_nat i) then nth (Z.to_nat j) l d
                         else nth k l d).
  { intros k. rewrite (nth_put _ _ _ k d E2).
    destruct (Nat.eqb k (Z.to_nat j)); [reflexivity|]. apply (nth_put _ _ _ k d E1). }
  split; [|exact N].
  apply (Permutation_nth l l2 d). split; [congruence|].
  exists (fun k => if Nat.eqb k (Z.to_nat j) then Z.to_nat i
           else if Nat.eqb k (Z.to_nat i) then Z.to_nat j else k).
  unfold zlen in *. split; [|split].
  - intros k Hk. destruct (Nat.eqb_spec k (Z.to_nat j)); [lia|].
    destruct (Nat.eqb_spec k (Z.to_nat i)); lia.
  - intros a b Ha Hb.
    destruct (Nat.eqb_spec a (Z.to_nat j)); destruct (Nat.eqb_spec b (Z.to_nat j));
    destruct (Nat.eqb_spec a (Z.to_nat i)); destruct (Nat.eqb_spec b (Z.to_nat i)); lia.
  - intros k Hk. rewrite N.
    destruct (Nat.eqb k (Z.to_nat j)); [reflexivity|].
    destruct (Nat.eqb k (Z.to_nat i)); reflexivity.
Qed.

(** ** Partition *)

Section Part.
Variable A : Type.
Variable lt : A -> A -> bool.
Hypothesis lt_irrefl : forall x, lt x x = false.
Variable d : A.

Notation at_ l k := (nth (Z.to_nat k) l d).

Lemma scan_up_ok : forall fuel l p i m, 0 <= i <= m -> m < zlen l ->
  lt (at_ l m) p = false -> (Z.to_nat (m - i) < fuel)%nat ->
  exists i1, scan_up lt fuel l p i = Ok i1 /\ i <= i1 <= m /\ lt (at_ l i1) p = false /\
    (forall k, i <= k < i1 -> lt (at_ l k) p = true).
Proof.
  induction fuel; intros l p i m Hi Hm Hs Hf; [lia|].
  cbn [scan_up]. rewrite (get_ok _ d) by lia. cbn [bind].
  destruct (lt (at_ l i) p) eqn:E.
  - assert (i <> m) by (intros ->; congruence).
    destruct (IHfuel l p (i + 1) m) as (i1 & H1 & H2 & H3 & H4); try lia; auto.
    exists i1. split; [assumption|]. split; [lia|]. split; [assumption|].
    intros k Hk. destruct (Z.eq_dec k i); [subst; assumption|]. apply H4. lia.
  - exists i. split; [reflexivity|]. split; [lia|]. split; [assumption|]. intros; lia.
Qed.

Lemma scan_down_ok : forall fuel l p j m, 0 <= m <= j -> j < zlen l ->
  lt p (at_ l m) = false -> (Z.to_nat (j - m) < fuel)%nat ->
  exists j1, scan_down lt fuel l p j = Ok j1 /\ m <= j1 <= j /\ lt p (at_ l j1) = false /\
    (forall k, j1 < k <= j -> lt p (at_ l k) = true).
Proof.
  induction fuel; intros l p j m Hi Hm Hs Hf; [lia|].
  cbn [scan_down]. rewrite (get_ok _ d) by lia. cbn [bind].
  destruct (lt p (at_ l j)) eqn:E.
  - assert (j <> m) by (intros ->; congruence).
    destruct (IHfuel l p (j - 1) m) as (i1 & H1 & H2 & H3 & H4); try lia; auto.
    exists i1. split; [assumption|]. split; [lia|]. split; [assumption|].
    intros k Hk. destruct (Z.eq_dec k j); [subst; assumption|]. apply H4. lia.
  - exists j. split; [reflexivity|]. split; [lia|]. split; [assumption|]. intros; lia.
Qed.

(** A strict order does not put two values below each other; needed for the
    cells the scans have passed. *)
Hypothesis lt_asym : forall x y, lt x y = true -> lt y x = false.

(** Later iterations of the loop, when at least one swap has been made. *)
Lemma part_loop_ok : forall fuel l p left right i j,
  0 <= left -> right < zlen l -> left < i -> i <= j + 2 -> i <= right + 1 -> j < right -> left - 1 <= j ->
  (forall k, left <= k < i -> lt p (at_ l k) = false) ->
  (forall k, j < k <= right -> lt (at_ l k) p = false) ->
  (Z.to_nat (j - i + 2) < fuel)%nat ->
  exists l' i', part_loop lt fuel l p i j = Ok (l', i') /\
    length l' = length l /\ Permutation l l' /\
    (forall k, k < left \/ right < k -> 0 <= k -> at_ l' k = at_ l k) /\
    i <= i' /\ (i' <= right \/ i' = i) /\
    (forall k, left <= k < i' -> lt p (at_ l' k) = false) /\
    (forall k, i' <= k <= right -> lt (at_ l' k) p = false) /\
    (forall k, left <= k < i -> at_ l' k = at_ l k).
Proof.
  induction fuel; intros l p left right i j Hl Hr Hi Hij Hir Hj Hlj HL HR Hf; [lia|].
  cbn [part_loop].
  destruct (i <=? j) eqn:E.
  2:{ exists l, i. split; [reflexivity|]. split; [reflexivity|]. split; [apply Permutation_refl|].
      repeat split; auto; try lia. intros k Hk. apply HR. lia. }
  destruct (@scan_up_ok (S (length l)) l p i (j + 1)) as (i1 & U1 & U2 & U3 & U4);
    [lia|lia|apply HR; lia|unfold zlen in *; lia|].
  destruct (@scan_down_ok (S (length l)) l p j (i - 1)) as (j1 & D1 & D2 & D3 & D4);
    [lia|lia|apply HL; lia|unfold zlen in *; lia|].
  rewrite U1, D1. cbn [bind].
  destruct (i1 <=? j1) eqn:F.
  - destruct (@swap_ok A l i1 j1 d) as (l1 & S1 & S2 & S3 & S4); [lia|lia|].
    rewrite S1. cbn [bind].
    assert (B : forall k, 0 <= k -> k <> i1 -> k <> j1 -> at_ l1 k = at_ l k).
    { intros k K0 K1 K2. rewrite S4. destruct (Nat.eqb_spec (Z.to_nat k) (Z.to_nat j1)); [lia|].
      destruct (Nat.eqb_spec (Z.to_nat k) (Z.to_nat i1)); [lia|reflexivity]. }
    assert (Bi : at_ l1 i1 = at_ l j1).
    { rewrite S4, Nat.eqb_refl. destruct (Nat.eqb_spec (Z.to_nat i1) (Z.to_nat j1)) as [e|]; [|reflexivity].
      rewrite e; reflexivity. }
    assert (Bj : at_ l1 j1 = at_ l i1) by (rewrite S4, Nat.eqb_refl; reflexivity).
    destruct (IHfuel l1 p left right (i1 + 1) (j1 - 1)) as (l' & i' & P1 & P2 & P3 & P4 & P5 & P6 & P7 & P8 & P9);
      try lia.
    + unfold zlen in *. lia.
    + intros k Hk. destruct (Z.eq_dec k i1); [subst; rewrite Bi; assumption|].
      rewrite B by lia. destruct (Z_lt_ge_dec k i); [apply HL; lia|]. apply lt_asym, U4. lia.
    + intros k Hk. destruct (Z.eq_dec k j1); [subst; rewrite Bj; assumption|].
      rewrite B by lia. destruct (Z_lt_ge_dec j k); [apply HR; lia|]. apply lt_asym, D4. lia.
    + exists l', i'. split; [assumption|]. split; [congruence|].
      split; [eapply Permutation_trans; eassumption|].
      repeat split; auto; try lia.
      * intros k Hk K0. rewrite P4 by assumption. apply B; lia.
      * intros k Hk. rewrite P9 by lia. apply B; lia.
  - destruct fuel; [lia|]. cbn [part_loop]. rewrite F.
    exists l, i1. split; [reflexivity|]. split; [reflexivity|]. split; [apply Permutation_refl|].
    repeat split; auto; try lia.
    + intros k Hk. destruct (Z_lt_ge_dec k i); [apply HL; lia|]. apply lt_asym, U4. lia.
    + intros k Hk. destruct (Z_lt_ge_dec j k); [apply HR; lia|]. apply lt_asym, D4. lia.
Qed.

Lemma partition_idx : forall l left right, 0 <= left <= right -> right < zlen l ->
  exists l' i', partition lt l left right = Ok (l', i') /\
    length l' = length l /\ Permutation l l' /\
    (forall k, k < left \/ right < k -> 0 <= k -> at_ l' k = at_ l k) /\
    left < i' <= right + 1 /\ (left < right -> i' <= right) /\
    (forall k, left <= k < i' -> lt (at_ l ((left + right) / 2)) (at_ l' k) = false) /\
    (forall k, i' <= k <= right -> lt (at_ l' k) (at_ l ((left + right) / 2)) = false) /\
    (* the first cell is not moved when it is below the pivot *)
    (lt (at_ l left) (at_ l ((left + right) / 2)) = true -> left + 1 < i').
Proof.
  intros l left right H Hr. unfold partition.
  rewrite Z.quot_div_nonneg by lia.
  set (m := (left + right) / 2). assert (Hm : left <= m <= right) by (subst m; lia).
  rewrite (get_ok _ d) by lia. cbn [bind]. set (p := at_ l m).
  cbn [part_loop]. replace (left <=? right) with true by lia.
  destruct (@scan_up_ok (S (length l)) l p left m) as (i1 & U1 & U2 & U3 & U4);
    [lia|lia|apply lt_irrefl|unfold zlen in *; lia|].
  destruct (@scan_down_ok (S (length l)) l p right m) as (j1 & D1 & D2 & D3 & D4);
    [lia|lia|apply lt_irrefl|unfold zlen in *; lia|].
  rewrite U1, D1. cbn [bind]. replace (i1 <=? j1) with true by lia.
  destruct (@swap_ok A l i1 j1 d) as (l1 & S1 & S2 & S3 & S4); [lia|lia|].
  rewrite S1. cbn [bind].
  assert (B : forall k, 0 <= k -> k <> i1 -> k <> j1 -> at_ l1 k = at_ l k).
  { intros k K0 K1 K2. rewrite S4. destruct (Nat.eqb_spec (Z.to_nat k) (Z.to_nat j1)); [lia|].
    destruct (Nat.eqb_spec (Z.to_nat k) (Z.to_nat i1)); [lia|reflexivity]. }
  assert (Bi : at_ l1 i1 = at_ l j1).
  { rewrite S4, Nat.eqb_refl. destruct (Nat.eqb_spec (Z.to_nat i1) (Z.to_nat j1)) as [e|]; [|reflexivity].
    rewrite e; reflexivity. }
  assert (Bj : at_ l1 j1 = at_ l i1) by (rewrite S4, Nat.eqb_refl; reflexivity).
  destruct (@part_loop_ok (S (length l)) l1 p left right (i1 + 1) (j1 - 1))
    as (l' & i' & P1 & P2 & P3 & P4 & P5 & P6 & P7 & P8 & P9);
    try lia.
  + unfold zlen in *. lia.
  + intros k Hk. destruct (Z.eq_dec k i1); [subst; rewrite Bi; assumption|].
    rewrite B by lia. apply lt_asym, U4. lia.
  + intros k Hk. destruct (Z.eq_dec k j1); [subst; rewrite Bj; assumption|].
    rewrite B by lia. apply lt_asym, D4. lia.
  + unfold zlen in *. lia.
  + exists l', i'. split; [assumption|]. split; [congruence|].
    split; [eapply Permutation_trans; eassumption|].
    split; [intros k Hk K0; rewrite P4 by assumption; apply B; lia|].
    split; [lia|]. split; [subst m; lia|]. split; [assumption|]. split; [assumption|].
    intros Hlt. assert (i1 <> left) by (intros ->; fold p in Hlt; congruence). lia.
Qed.

(** List form: a range [mid] is split into two non-empty parts. *)
Lemma partition_ok : forall pre mid suf, mid <> [] ->
  exists p m1 m2,
    partition lt (pre ++ mid ++ suf) (zlen pre) (zlen pre + zlen mid - 1)
      = Ok (pre ++ (m1 ++ m2) ++ suf, zlen pre + zlen m1) /\
    Permutation mid (m1 ++ m2) /\ m1 <> [] /\ ((2 <= length mid)%nat -> m2 <> []) /\
    Forall (fun x => lt p x = false) m1 /\ Forall (fun x => lt x p = false) m2 /\
    p = nth (Z.to_nat ((zlen mid - 1) / 2)) mid d /\
    (lt (nth 0 mid d) p = true -> (2 <= length m1)%nat).
Proof.
  intros pre mid suf Hne.
  assert (Lm : 0 < zlen mid) by (unfold zlen; destruct mid; [congruence|simpl; lia]).
  destruct (@partition_idx (pre ++ mid ++ suf) (zlen pre) (zlen pre + zlen mid - 1))
    as (l' & i' & P1 & P2 & P3 & P4 & P5 & P6 & P7 & P8 & P9).
  { unfold zlen in *. lia. }
  { unfold zlen in *. rewrite !app_length. lia. }
  set (a := length pre) in *. set (b := length mid) in *.
  assert (Hz : zlen pre = Z.of_nat a) by reflexivity.
  assert (Hb : zlen mid = Z.of_nat b) by reflexivity.
  assert (Ll : length l' = (a + (b + length suf))%nat)
    by (rewrite P2, !app_length; reflexivity).
  (* decomposition of l' *)
  assert (E1 : firstn a l' = pre).
  { apply nth_ext with (d := d) (d' := d); [rewrite firstn_length; lia|].
    intros k Hk. rewrite firstn_length in Hk.
    rewrite nth_firstn by lia. specialize (P4 (Z.of_nat k)).
    rewrite Nat2Z.id in P4. rewrite P4 by lia. apply app_nth1. lia. }
  assert (E3 : skipn (a + b) l' = suf).
  { apply nth_ext with (d := d) (d' := d); [rewrite skipn_length; lia|].
    intros k Hk. rewrite skipn_length in Hk.
    rewrite nth_skipn. specialize (P4 (Z.of_nat (a + b + k))).
    rewrite Nat2Z.id in P4. rewrite P4 by lia.
    rewrite <- Nat.add_assoc. unfold a. rewrite nth_pre. unfold b. apply nth_pre. }
  set (n1 := Z.to_nat (i' - zlen pre)).
  assert (Hn1 : (n1 <= b)%nat) by lia.
  set (m1 := firstn n1 (skipn a l')). set (m2 := firstn (b - n1) (skipn (a + n1) l')).
  assert (L1 : length m1 = n1) by (unfold m1; rewrite firstn_length, skipn_length; lia).
  assert (L2 : length m2 = (b - n1)%nat) by (unfold m2; rewrite firstn_length, skipn_length; lia).
  assert (E : l' = pre ++ (m1 ++ m2) ++ suf).
  { rewrite <- E1, <- E3. rewrite <- (firstn_skipn a l') at 1. f_equal.
    rewrite <- (firstn_skipn n1 (skipn a l')) at 1. fold m1. rewrite <- app_assoc. f_equal.
    assert (Hsk : forall x y (l : list A), skipn x (skipn y l) = skipn (y + x) l).
    { clear. intros x y. induction y; intros l; [reflexivity|].
      destruct l; [destruct x; reflexivity|]. simpl. apply IHy. }
    rewrite Hsk.
    rewrite <- (firstn_skipn (b - n1) (skipn (a + n1) l')) at 1. fold m2. f_equal.
    rewrite Hsk. f_equal. lia. }
  assert (N1 : forall k, (k < n1)%nat -> nth k m1 d = nth (a + k) l' d)
    by (intros; unfold m1; rewrite nth_firstn, nth_skipn by lia; reflexivity).
  assert (N2 : forall k, (k < b - n1)%nat -> nth k m2 d = nth (a + n1 + k) l' d)
    by (intros; unfold m2; rewrite nth_firstn, nth_skipn by lia; reflexivity).
  set (p := nth (Z.to_nat ((zlen mid - 1) / 2)) mid d).
  assert (Hp : nth (Z.to_nat ((zlen pre + (zlen pre + zlen mid - 1)) / 2)) (pre ++ mid ++ suf) d = p).
  { replace (Z.to_nat ((zlen pre + (zlen pre + zlen mid - 1)) / 2))
      with (a + Z.to_nat ((zlen mid - 1) / 2))%nat by lia.
    unfold a. rewrite nth_pre, app_nth1 by lia. reflexivity. }
  rewrite Hp in *.
  exists p, m1, m2. split.
  { rewrite P1. f_equal. rewrite E. f_equal. unfold zlen in *. lia. }
  split.
  { rewrite E in P3. apply Permutation_app_inv_l in P3. apply Permutation_app_inv_r in P3. assumption. }
  split; [intros ->; simpl in L1; lia|].
  split; [intros H2 ->; simpl in L2; lia|].
  split.
  { apply nth_Forall with (d := d). intros k Hk. rewrite N1 by lia.
    specialize (P7 (Z.of_nat (a + k))). rewrite Nat2Z.id in P7. apply P7. lia. }
  split.
  { apply nth_Forall with (d := d). intros k Hk. rewrite N2 by lia.
    specialize (P8 (Z.of_nat (a + n1 + k))). rewrite Nat2Z.id in P8. apply P8. lia. }
  split; [reflexivity|].
  intros Hlt. replace (Z.to_nat (zlen pre)) with (a + 0)%nat in P9 by lia.
  unfold a in P9 at 1. rewrite nth_pre in P9. rewrite app_nth1 in P9 by lia.
  specialize (P9 Hlt). lia.
Qed.

(** ** Quick sort *)

Definition sorted_by (l : list A) : Prop := StronglySorted (fun x y => lt y x = false) l.

Lemma sorted_app : forall l1 l2, sorted_by l1 -> sorted_by l2 ->
  (forall x y, In x l1 -> In y l2 -> lt y x = false) -> sorted_by (l1 ++ l2).
Proof.
  unfold sorted_by. induction l1 as [|a l1 IH]; intros l2 H1 H2 H; [assumption|].
  inversion H1; subst. simpl. constructor.
  - apply IH; auto. intros x y Hx Hy. apply H; [right|]; assumption.
  - apply Forall_app. split; [assumption|]. apply Forall_forall. intros y Hy.
    apply H; [left; reflexivity|assumption].
Qed.

Lemma len1 : forall (l : list A), length l = 1%nat -> exists x, l = [x].
Proof. intros [|x [|y l]] H; try discriminate. exists x; reflexivity. Qed.

Lemma quick_sort_ok : forall fuel pre mid suf, mid <> [] -> (length mid <= fuel)%nat ->
  exists mid', quick_sort lt fuel (pre ++ mid ++ suf) (zlen pre) (zlen pre + zlen mid - 1)
      = Ok (pre ++ mid' ++ suf) /\ Permutation mid mid' /\
  ((forall x y z, In x mid -> In y mid -> In z mid ->
      lt x y = false -> lt y z = false -> lt x z = false) -> sorted_by mid').
Proof.
  induction fuel; intros pre mid suf Hne Hf; [destruct mid; [congruence|simpl in Hf; lia]|].
  cbn [quick_sort].
  destruct (partition_ok pre suf Hne) as (p & m1 & m2 & P1 & P2 & P3 & P4 & P5 & P6 & P7 & _).
  rewrite P1. cbn [bind].
  assert (Hlen : length mid = (length m1 + length m2)%nat)
    by (rewrite (Permutation_length P2), app_length; reflexivity).
  assert (Hm1 : (1 <= length m1)%nat) by (destruct m1; [congruence|simpl; lia]).
  assert (Hm2 : (2 <= length mid)%nat -> (1 <= length m2)%nat)
    by (intros H; specialize (P4 H); destruct m2; [congruence|simpl; lia]).
  (* left half *)
  assert (exists m1', (if zlen pre <? zlen pre + zlen m1 - 1
      then quick_sort lt fuel (pre ++ (m1 ++ m2) ++ suf) (zlen pre) (zlen pre + zlen m1 - 1)
      else Ok (pre ++ (m1 ++ m2) ++ suf)) = Ok (pre ++ (m1' ++ m2) ++ suf) /\ Permutation m1 m1' /\
      ((forall x y z, In x m1 -> In y m1 -> In z m1 ->
         lt x y = false -> lt y z = false -> lt x z = false) -> sorted_by m1')) as (m1' & Q1 & Q2 & Q3).
  { destruct (zlen pre <? zlen pre + zlen m1 - 1) eqn:E.
    - unfold zlen in E. destruct (IHfuel pre m1 (m2 ++ suf) P3) as (m1' & R1 & R2 & R3); [lia|].
      exists m1'. rewrite <- !app_assoc. split; [exact R1|]. split; assumption.
    - unfold zlen in E. exists m1. split; [reflexivity|]. split; [apply Permutation_refl|].
      intros _. destruct (len1 m1) as (x & ->); [lia|]. repeat constructor. }
  rewrite Q1. cbn [bind].
  assert (L1 : length m1' = length m1) by (symmetry; apply Permutation_length; assumption).
  (* right half *)
  assert (exists m2', (if zlen pre + zlen m1 <? zlen pre + zlen mid - 1
      then quick_sort lt fuel (pre ++ (m1' ++ m2) ++ suf) (zlen pre + zlen m1) (zlen pre + zlen mid - 1)
      else Ok (pre ++ (m1' ++ m2) ++ suf)) = Ok (pre ++ (m1' ++ m2') ++ suf) /\ Permutation m2 m2' /\
      ((forall x y z, In x m2 -> In y m2 -> In z m2 ->
         lt x y = false -> lt y z = false -> lt x z = false) -> sorted_by m2')) as (m2' & T1 & T2 & T3).
  { destruct (zlen pre + zlen m1 <? zlen pre + zlen mid - 1) eqn:E.
    - unfold zlen in E. destruct (IHfuel (pre ++ m1') m2 suf) as (m2' & R1 & R2 & R3); [|lia|].
      + intros ->; simpl in *; lia.
      + exists m2'. split; [|split; assumption].
        replace (pre ++ (m1' ++ m2) ++ suf) with ((pre ++ m1') ++ m2 ++ suf) by (rewrite !app_assoc; reflexivity).
        replace (pre ++ (m1' ++ m2') ++ suf) with ((pre ++ m1') ++ m2' ++ suf) by (rewrite !app_assoc; reflexivity).
        rewrite <- R1. f_equal; unfold zlen; rewrite app_length; lia.
    - unfold zlen in E. exists m2. split; [reflexivity|]. split; [apply Permutation_refl|].
      intros _. destruct (length m2) eqn:El.
      + destruct m2; [constructor|discriminate].
      + destruct (len1 m2) as (x & ->); [lia|]. repeat constructor. }
  rewrite T1. exists (m1' ++ m2'). split; [reflexivity|].
  split. { rewrite P2. apply Permutation_app; assumption. }
  intros HT.
  assert (I1 : forall x, In x m1 -> In x mid)
    by (intros x Hx; apply (Permutation_in x (Permutation_sym P2)); apply in_or_app; left; assumption).
  assert (I2 : forall x, In x m2 -> In x mid)
    by (intros x Hx; apply (Permutation_in x (Permutation_sym P2)); apply in_or_app; right; assumption).
  assert (Ip : In p mid).
  { rewrite P7. apply nth_In. unfold zlen. destruct mid; [congruence|]. cbn [length]. lia. }
  apply sorted_app.
  - apply Q3. intros x y z Hx Hy Hz. apply HT; apply I1; assumption.
  - apply T3. intros x y z Hx Hy Hz. apply HT; apply I2; assumption.
  - intros x y Hx Hy.
    apply (Permutation_in x (Permutation_sym Q2)) in Hx.
    apply (Permutation_in y (Permutation_sym T2)) in Hy.
    rewrite Forall_forall in P5, P6.
    apply HT with (y := p); auto.
Qed.

(** ** quick_sort_index, distinct keys *)

Hypothesis lt_total_false : forall x y z, lt x y = false -> lt y z = false -> lt x z = false.

Definition distinct (l : list A) : Prop :=
  forall i j, (i < length l)%nat -> (j < length l)%nat -> i <> j ->
    lt (nth i l d) (nth j l d) = true \/ lt (nth j l d) (nth i l d) = true.

Lemma distinct_cons : forall a l, distinct (a :: l) ->
  (forall x, In x l -> lt a x = true \/ lt x a = true) /\ distinct l.
Proof.
  intros a l H. split.
  - intros x Hx. destruct (In_nth l x d Hx) as (n & Hn & <-).
    apply (H 0%nat (S n)); simpl; lia.
  - intros i j Hi Hj Hij. apply (H (S i) (S j)); simpl; lia.
Qed.

Lemma cons_distinct : forall a l,
  (forall x, In x l -> lt a x = true \/ lt x a = true) -> distinct l -> distinct (a :: l).
Proof.
  intros a l H1 H2 i j Hi Hj Hij. destruct i, j; simpl in *; try lia.
  - apply H1, nth_In. lia.
  - destruct (H1 (nth i l d)); [apply nth_In; lia| |]; auto.
  - apply H2; lia.
Qed.

Lemma distinct_perm : forall l l', Permutation l l' -> distinct l -> distinct l'.
Proof.
  intros l l' H. induction H; intros D; auto.
  - apply distinct_cons in D. destruct D as [D1 D2]. apply cons_distinct; auto.
    intros y Hy. apply D1. apply (Permutation_in y (Permutation_sym H) Hy).
  - apply distinct_cons in D. destruct D as [D1 D2].
    apply distinct_cons in D2. destruct D2 as [D2 D3].
    apply cons_distinct.
    + intros z [<-|Hz]; [|apply D2; assumption].
      destruct (D1 x); [left; reflexivity| |]; auto.
    + apply cons_distinct; auto. intros z Hz. apply D1. right. assumption.
Qed.

Lemma distinct_app : forall l1 l2, distinct (l1 ++ l2) -> distinct l1 /\ distinct l2.
Proof.
  induction l1 as [|a l1 IH]; intros l2 H; simpl in *.
  - split; [|assumption]. intros i j Hi; simpl in Hi; lia.
  - apply distinct_cons in H. destruct H as [H1 H2]. apply IH in H2. destruct H2 as [H2 H3].
    split; [|assumption]. apply cons_distinct; auto. intros x Hx. apply H1.
    apply in_or_app. left; assumption.
Qed.

(** The first element is the least one. *)
Definition head_min (l : list A) : Prop :=
  match l with [] => True | a :: l' => Forall (fun x => lt x a = false) l' end.

Lemma sorted_snoc : forall l x, sorted_by (l ++ [x]) ->
  sorted_by l /\ Forall (fun y => lt x y = false) l.
Proof.
  unfold sorted_by. induction l as [|a l IH]; intros x H; simpl in *.
  - split; constructor.
  - inversion H; subst. apply IH in H2. destruct H2 as [H2 H4].
    rewrite Forall_forall in H3. split; [constructor; [assumption|]|constructor].
    + apply Forall_forall. intros y Hy. apply H3. apply in_or_app; left; assumption.
    + apply H3. apply in_or_app; right; left; reflexivity.
    + assumption.
Qed.

Lemma quick_sort_index_ok : forall fuel pre mid suf, mid <> [] -> distinct mid ->
  (2 * length mid + 1 <= fuel \/ (2 * length mid <= fuel /\ head_min mid))%nat ->
  exists mid', quick_sort_index lt fuel (pre ++ mid ++ suf) (zlen pre) (zlen pre + zlen mid - 1)
      = Ok (pre ++ mid' ++ suf) /\ Permutation mid mid' /\ sorted_by mid'.
Proof.
  induction fuel; intros pre mid suf Hne Hd Hf; [destruct mid; [congruence|cbn [length] in Hf; lia]|].
  cbn [quick_sort_index].
  destruct (partition_ok pre suf Hne) as (p & m1 & m2 & P1 & P2 & P3 & P4 & P5 & P6 & P7 & P8).
  rewrite P1. cbn [bind].
  assert (Hlen : length mid = (length m1 + length m2)%nat)
    by (rewrite (Permutation_length P2), app_length; reflexivity).
  assert (Hm1 : (1 <= length m1)%nat) by (destruct m1; [congruence|simpl; lia]).
  assert (Hm2 : (2 <= length mid)%nat -> (1 <= length m2)%nat)
    by (intros H; specialize (P4 H); destruct m2; [congruence|simpl; lia]).
  pose proof (distinct_perm P2 Hd) as Hd'. pose proof (distinct_app _ _ Hd') as [Hd1 Hd2].
  rewrite Forall_forall in P5, P6.
  (* left half *)
  assert (exists m1', (if zlen pre <? zlen pre + zlen m1 - 1
      then quick_sort_index lt fuel (pre ++ (m1 ++ m2) ++ suf) (zlen pre) (zlen pre + zlen m1 - 1)
      else Ok (pre ++ (m1 ++ m2) ++ suf)) = Ok (pre ++ (m1' ++ m2) ++ suf) /\ Permutation m1 m1' /\
      sorted_by m1') as (m1' & Q1 & Q2 & Q3).
  { destruct (zlen pre <? zlen pre + zlen m1 - 1) eqn:E.
    - unfold zlen in E. destruct (IHfuel pre m1 (m2 ++ suf) P3 Hd1) as (m1' & R1 & R2 & R3).
      { left. assert (1 <= length m2)%nat by lia. lia. }
      exists m1'. rewrite <- !app_assoc. split; [exact R1|]. split; assumption.
    - unfold zlen in E. exists m1. split; [reflexivity|]. split; [apply Permutation_refl|].
      destruct (len1 m1) as (x & ->); [lia|]. repeat constructor. }
  rewrite Q1. cbn [bind].
  assert (L1 : length m1' = length m1) by (symmetry; apply Permutation_length; assumption).
  assert (Hx : exists a x, m1' = a ++ [x]).
  { destruct (@exists_last _ m1') as (a & x & ->); [intros ->; simpl in L1; lia|]. exists a, x. reflexivity. }
  destruct Hx as (a & x & ->). pose proof (sorted_snoc _ _ Q3) as [Sa Sx].
  assert (La : (length a + 1 = length m1)%nat) by (rewrite app_length in L1; simpl in L1; lia).
  assert (Ix : In x m1) by (apply (Permutation_in x (Permutation_sym Q2)), in_or_app; right; left; reflexivity).
  assert (Ia : forall y, In y a -> In y m1)
    by (intros y Hy; apply (Permutation_in y (Permutation_sym Q2)), in_or_app; left; assumption).
  assert (PP : Permutation mid (a ++ x :: m2)).
  { rewrite P2. rewrite Q2. rewrite <- app_assoc. apply Permutation_refl. }
  destruct (zlen pre + zlen m1 <? zlen pre + zlen mid - 1) eqn:E.
  2:{ (* right part has at most one element *)
      unfold zlen in E. exists ((a ++ [x]) ++ m2). split; [reflexivity|].
      split. { rewrite P2. apply Permutation_app; [assumption|apply Permutation_refl]. }
      apply sorted_app; [assumption| |].
      - destruct (length m2) eqn:El.
        + destruct m2; [constructor|discriminate].
        + destruct (len1 m2) as (z & ->); [lia|]. repeat constructor.
      - intros u v Hu Hv. apply (Permutation_in u (Permutation_sym Q2)) in Hu.
        apply lt_total_false with (y := p); auto. }
  unfold zlen in E.
  assert (HM : head_min (x :: m2)).
  { simpl. apply Forall_forall. intros y Hy. apply lt_total_false with (y := p); auto. }
  assert (Hdx : distinct (x :: m2)).
  { apply (distinct_perm PP) in Hd. apply distinct_app in Hd. apply Hd. }
  destruct (IHfuel (pre ++ a) (x :: m2) suf) as (r & R1 & R2 & R3).
  - discriminate.
  - assumption.
  - right. split; [|assumption]. cbn [length].
    destruct Hf as [Hf|[Hf Hh]]; [lia|].
    (* the head was already least: the left part has at least two elements *)
    destruct (Nat.le_gt_cases 2 (length m1)) as [|Hs]; [lia|]. exfalso.
    assert (Hl3 : (3 <= length mid)%nat) by lia.
    assert (lt (nth 0 mid d) p = true).
    { rewrite P7. set (q := Z.to_nat ((zlen mid - 1) / 2)).
      assert (Hq : (0 < q < length mid)%nat) by (unfold q, zlen; lia).
      destruct (Hd 0%nat q) as [|K]; try lia; try assumption.
      destruct mid as [|h t]; [congruence|]. simpl in Hh. rewrite Forall_forall in Hh.
      assert (lt (nth q (h :: t) d) h = false).
      { destruct q as [|q']; [lia|]. simpl. apply Hh, nth_In. simpl in Hq. lia. }
      simpl nth in K at 2. congruence. }
    apply P8 in H. lia.
  - exists (a ++ r). split.
    + replace (pre ++ ((a ++ [x]) ++ m2) ++ suf) with ((pre ++ a) ++ (x :: m2) ++ suf)
        by (rewrite <- !app_assoc; reflexivity).
      replace (pre ++ (a ++ r) ++ suf) with ((pre ++ a) ++ r ++ suf) by (rewrite <- !app_assoc; reflexivity).
      rewrite <- R1. f_equal; unfold zlen; rewrite ?app_length; cbn [length]; lia.
    + split. { rewrite PP. apply Permutation_app; [apply Permutation_refl|assumption]. }
      apply sorted_app; auto. intros u v Hu Hv.
      apply (Permutation_in v (Permutation_sym R2)) in Hv.
      rewrite Forall_forall in Sx.
      destruct Hv as [<-|Hv]; [apply Sx; assumption|].
      apply lt_total_false with (y := p); auto.
Qed.
End Part.
