(** Object-based analysis: statistics of the superpixels, decision, break map
    (src/python/pycold/ob_analyst.py 222-246, 342, 426-436, 687-765,
    875-1025).  C97.

    Maps are flat lists of pixels, row by row (the code flattens them itself
    with reshape).  Smoothing, flood fill and connected components are not in
    this file: the superpixels [s1], the patches [s2] and the smoothed
    magnitudes are arbitrary lists of one length. *)
From Coq Require Import QArith.
From Verif Require Import Base Segment.
Local Open Scope Z_scope.

(* ------------------------------------------------------------------ *)
(** * numpy: stable argsort, unique, groups *)

(** index_array.argsort(kind="mergesort") applied to both arrays (lines
    236-238): a stable sort of the pairs by their first component. *)
Fixpoint kinsert {A} (x : Z * A) (l : list (Z * A)) : list (Z * A) :=
  match l with
  | [] => [x]
  | y :: t => if fst x <=? fst y then x :: l else y :: kinsert x t
  end.
Definition ksort {A} (l : list (Z * A)) : list (Z * A) := fold_right kinsert [] l.

(** b_sorted[1:] != b_sorted[:-1] *)
Fixpoint steps (b : list Z) : list bool :=
  match b with
  | x :: ((y :: _) as t) => negb (y =? x) :: steps t
  | _ => []
  end.
(** np.flatnonzero, positions counted from [k]. *)
Fixpoint nonzero (k : nat) (l : list bool) : list nat :=
  match l with [] => [] | b :: t => if b then k :: nonzero (S k) t else nonzero (S k) t end.
(** [a_sorted[i:j] for i, j in zip(cut_idx[:-1], cut_idx[1:])] (line 244). *)
Fixpoint pieces {A} (a : list A) (cut : list nat) : list (list A) :=
  match cut with
  | i :: ((j :: _) as t) => firstn (j - i) (skipn i a) :: pieces a t
  | _ => []
  end.

(** np.unique of an already sorted array: every value that differs from the
    one before. *)
Fixpoint dedup (b : list Z) : list Z :=
  match b with
  | x :: ((y :: _) as t) => if y =? x then dedup t else x :: dedup t
  | _ => b
  end.
(** np.unique. *)
Definition unique (l : list Z) : list Z := dedup (map fst (ksort (map (fun x => (x, tt)) l))).
(** How often a value occurs. *)
Definition occ (v : Z) (l : list Z) : Z := zlen (filter (fun x => x =? v) l).

(** stats.mode: the first value with the largest count in np.unique's order
    (scipy's _mode1D). *)
Definition best (l : list Z) (v w : Z) : Z := if occ v l <? occ w l then w else v.
Definition mode (l : list Z) : option Z :=
  match unique l with [] => None | v :: t => Some (fold_left (best l) t v) end.

(** modeby (lines 222-246). *)
Definition modeby (input index : list Z) : list (option Z) :=
  let p := ksort (combine index input) in
  let a := map snd p in
  let b := map fst p in
  let cut := nonzero 0 (true :: steps b ++ [true]) in
  map mode (pieces a cut).

(** The values with a given key, in order. *)
Definition group {A} (u : Z) (l : list (Z * A)) : list A := map snd (filter (fun p => fst p =? u) l).

(* ------------------------------------------------------------------ *)
(** ** Lemmas *)

Definition nondec (b : list Z) : Prop := StronglySorted Z.le b.

Lemma kinsert_in : forall A (x y : Z * A) l, In y (kinsert x l) <-> y = x \/ In y l.
Proof.
  intros A x y l. induction l as [|z t IH]; simpl; [intuition|].
  destruct (fst x <=? fst z); simpl; [intuition|]. rewrite IH. intuition.
Qed.

Lemma ksort_in : forall A (y : Z * A) l, In y (ksort l) <-> In y l.
Proof. intros A y l. induction l as [|x t IH]; simpl; [reflexivity|]. rewrite kinsert_in, IH. intuition. Qed.

Lemma kinsert_sorted : forall A (x : Z * A) l, nondec (map fst l) -> nondec (map fst (kinsert x l)).
Proof.
  intros A x l. induction l as [|y t IH]; intros H; simpl.
  - repeat constructor.
  - inversion H as [|? ? H1 H2]; subst. destruct (fst x <=? fst y) eqn:E.
    + simpl. constructor; [exact H|]. apply Z.leb_le in E. constructor; [exact E|].
      eapply Forall_impl; [|exact H2]. intros a Ha. simpl in Ha. lia.
    + simpl. constructor; [apply IH; exact H1|]. apply Z.leb_gt in E.
      apply Forall_forall. intros z Hz. apply in_map_iff in Hz. destruct Hz as (q & <- & Hq).
      apply (proj1 (kinsert_in _ _ _)) in Hq. destruct Hq as [->|Hq]; [lia|].
      rewrite Forall_forall in H2. apply H2. apply in_map. exact Hq.
Qed.

Lemma ksort_sorted : forall A (l : list (Z * A)), nondec (map fst (ksort l)).
Proof. intros A l. induction l; simpl; [constructor|apply kinsert_sorted; assumption]. Qed.

Lemma kinsert_length : forall A (x : Z * A) l, length (kinsert x l) = S (length l).
Proof. intros A x l. induction l as [|y t IH]; simpl; [reflexivity|]. destruct (fst x <=? fst y); simpl; lia. Qed.
Lemma ksort_length : forall A (l : list (Z * A)), length (ksort l) = length l.
Proof. intros A l. induction l; simpl; [reflexivity|]. rewrite kinsert_length. lia. Qed.

(** The sort keeps the order within a key. *)
Lemma kinsert_group : forall A u (x : Z * A) l, group u (kinsert x l) = group u (x :: l).
Proof.
  intros A u x l. induction l as [|y t IH]; [reflexivity|]. cbn [kinsert].
  destruct (fst x <=? fst y) eqn:E; [reflexivity|]. apply Z.leb_gt in E.
  unfold group in *. cbn [filter] in *. destruct (fst y =? u) eqn:Ey; destruct (fst x =? u) eqn:Ex; cbn [map] in *;
    rewrite ?IH; try reflexivity. apply Z.eqb_eq in Ey, Ex. lia.
Qed.
Lemma ksort_group : forall A u (l : list (Z * A)), group u (ksort l) = group u l.
Proof.
  intros A u l. induction l as [|x t IH]; [reflexivity|]. cbn [ksort fold_right]. fold (ksort t).
  rewrite kinsert_group. unfold group in *. cbn [filter]. destruct (fst x =? u); cbn [map]; rewrite IH; reflexivity.
Qed.

Lemma dedup_in : forall b x, In x (dedup b) <-> In x b.
Proof.
  induction b as [|x t IH]; intros v; [reflexivity|]. destruct t as [|y t]; [reflexivity|].
  change (dedup (x :: y :: t)) with (if y =? x then dedup (y :: t) else x :: dedup (y :: t)).
  destruct (y =? x) eqn:E.
  - rewrite IH. apply Z.eqb_eq in E. subst. simpl. intuition.
  - cbn [In]. rewrite IH. reflexivity.
Qed.

Lemma dedup_asc : forall b, nondec b -> ascending (dedup b).
Proof.
  induction b as [|x t IH]; intros H; [constructor|]. destruct t as [|y t]; [repeat constructor|].
  change (dedup (x :: y :: t)) with (if y =? x then dedup (y :: t) else x :: dedup (y :: t)).
  inversion H as [|? ? H1 H2]; subst. destruct (y =? x) eqn:E; [apply IH; exact H1|].
  constructor; [apply IH; exact H1|]. apply Z.eqb_neq in E.
  apply Forall_forall. intros z Hz. apply (proj1 (dedup_in _ _)) in Hz.
  inversion H1 as [|? ? H3 H4]; subst. inversion H2 as [|? ? G1 G2]; subst. rewrite Forall_forall in H4.
  destruct Hz as [<-|Hz]; [lia|]. specialize (H4 z Hz). lia.
Qed.

Lemma unique_in : forall l x, In x (unique l) <-> In x l.
Proof.
  intros l x. unfold unique. rewrite dedup_in, in_map_iff. split.
  - intros (p & <- & Hp). apply (proj1 (ksort_in _ _)) in Hp. apply in_map_iff in Hp. destruct Hp as (y & <- & Hy). exact Hy.
  - intros H. exists (x, tt). split; [reflexivity|]. apply ksort_in. apply in_map_iff. exists x. auto.
Qed.
Lemma unique_asc : forall l, ascending (unique l).
Proof. intros. unfold unique. apply dedup_asc, ksort_sorted. Qed.

(** Two ascending lists with the same members are equal. *)
Lemma asc_same : forall l1 l2, ascending l1 -> ascending l2 -> (forall x, In x l1 <-> In x l2) -> l1 = l2.
Proof.
  intros l1 l2 H1. revert l2. induction H1 as [|x t Hs IH Hf]; intros l2 H2 H.
  - destruct l2 as [|y u]; [reflexivity|]. exfalso. apply (H y). left. reflexivity.
  - destruct H2 as [|y u Hs2 Hf2]; [exfalso; apply (H x); left; reflexivity|].
    rewrite Forall_forall in Hf, Hf2.
    assert (E : x = y).
    { destruct (proj1 (H x) (or_introl eq_refl)) as [|Hx]; [auto|].
      destruct (proj2 (H y) (or_introl eq_refl)) as [|Hy]; [auto|].
      specialize (Hf _ Hy). specialize (Hf2 _ Hx). lia. }
    subst y. f_equal. apply IH; [exact Hs2|]. intros z. split; intros Hz.
    + destruct (proj1 (H z) (or_intror Hz)) as [<-|]; [|assumption]. specialize (Hf _ Hz). lia.
    + destruct (proj2 (H z) (or_intror Hz)) as [<-|]; [|assumption]. specialize (Hf2 _ Hz). lia.
Qed.

(** The runs of equal keys, by recursion. *)
Fixpoint runs {A} (b : list Z) (a : list A) : list (list A) :=
  match b, a with
  | x :: ((x' :: _) as t), y :: ys =>
      if x' =? x then match runs t ys with g :: gs => (y :: g) :: gs | [] => [[y]] end
      else [y] :: runs t ys
  | [_], [y] => [[y]]
  | _, _ => []
  end.

Lemma nonzero_ge : forall l k i, In i (nonzero k l) -> (k <= i)%nat.
Proof.
  induction l as [|b t IH]; intros k i H; [destruct H|]. cbn [nonzero] in H. destruct b.
  - destruct H as [<-|H]; [lia|]. apply IH in H. lia.
  - apply IH in H. lia.
Qed.
Lemma nonzero_last : forall l k, nonzero k (l ++ [true]) <> [].
Proof. induction l as [|b t IH]; intros k; simpl; [discriminate|]. destruct b; [discriminate|apply IH]. Qed.

Lemma skipn_cons : forall A k (l : list A) y t, skipn k l = y :: t -> skipn (S k) l = t.
Proof.
  induction k as [|k IH]; intros l y t H; destruct l as [|z u]; try discriminate; simpl in *.
  - congruence.
  - apply (IH u y t H).
Qed.

Lemma pieces_runs : forall b A (a full : list A) k, b <> [] -> length a = length b -> skipn k full = a ->
  pieces full (nonzero k (true :: steps b ++ [true])) = runs b a.
Proof.
  induction b as [|x t IH]; intros A a full k Hb Hl Hs; [contradiction|].
  destruct a as [|y ys]; [discriminate|]. destruct t as [|x' t].
  - destruct ys; [|discriminate].
    change (nonzero k (true :: steps [x] ++ [true])) with [k; S k]. cbn [pieces]. rewrite Hs.
    replace (S k - k)%nat with 1%nat by lia. reflexivity.
  - change (steps (x :: x' :: t)) with (negb (x' =? x) :: steps (x' :: t)).
    assert (IH' : pieces full (nonzero (S k) (true :: steps (x' :: t) ++ [true])) = runs (x' :: t) ys).
    { apply IH; [discriminate|simpl in Hl |- *; lia|eapply skipn_cons; exact Hs]. }
    cbn [app]. change (runs (x :: x' :: t) (y :: ys)) with
      (if x' =? x then match runs (x' :: t) ys with g :: gs => (y :: g) :: gs | [] => [[y]] end else [y] :: runs (x' :: t) ys).
    rewrite <- IH'. clear IH IH'.
    destruct (x' =? x); cbn [negb].
    + set (rest := steps (x' :: t) ++ [true]).
      assert (E1 : nonzero k (true :: false :: rest) = k :: nonzero (S (S k)) rest) by reflexivity.
      assert (E2 : nonzero (S k) (true :: rest) = S k :: nonzero (S (S k)) rest) by reflexivity.
      rewrite E1, E2. pose proof (@nonzero_last (steps (x' :: t)) (S (S k))) as N. fold rest in N.
      destruct (nonzero (S (S k)) rest) as [|c cs] eqn:Ec; [contradiction|].
      assert (Hc : (S (S k) <= c)%nat) by (apply (@nonzero_ge rest); rewrite Ec; left; reflexivity).
      cbn [pieces]. rewrite Hs, (skipn_cons _ _ Hs). replace (c - k)%nat with (S (c - S k)) by lia. reflexivity.
    + set (rest := steps (x' :: t) ++ [true]).
      assert (E1 : nonzero k (true :: true :: rest) = k :: S k :: nonzero (S (S k)) rest) by reflexivity.
      assert (E2 : nonzero (S k) (true :: rest) = S k :: nonzero (S (S k)) rest) by reflexivity.
      rewrite E1, E2. cbn [pieces]. rewrite Hs. replace (S k - k)%nat with 1%nat by lia. reflexivity.
Qed.

Lemma group_none : forall A u (l : list (Z * A)), ~ In u (map fst l) -> group u l = [].
Proof.
  intros A u l H. unfold group. induction l as [|p t IH]; [reflexivity|]. simpl in *.
  destruct (fst p =? u) eqn:E; [apply Z.eqb_eq in E; exfalso; apply H; auto|]. apply IH. auto.
Qed.

Lemma runs_groups : forall A (p : list (Z * A)), nondec (map fst p) ->
  runs (map fst p) (map snd p) = map (fun u => group u p) (dedup (map fst p)).
Proof.
  intros A p. induction p as [|[x y] t IH]; intros H; [reflexivity|].
  destruct t as [|[x' y'] t].
  - unfold group. cbn. rewrite Z.eqb_refl. reflexivity.
  - cbn [map fst snd] in *. inversion H as [|? ? H1 H2]; subst. specialize (IH H1).
    change (runs (x :: x' :: map fst t) (y :: y' :: map snd t)) with
      (if x' =? x then match runs (x' :: map fst t) (y' :: map snd t) with g :: gs => (y :: g) :: gs | [] => [[y]] end
       else [y] :: runs (x' :: map fst t) (y' :: map snd t)).
    change (dedup (x :: x' :: map fst t)) with (if x' =? x then dedup (x' :: map fst t) else x :: dedup (x' :: map fst t)).
    rewrite IH. pose proof (dedup_asc H1) as D. pose proof (dedup_in (x' :: map fst t)) as Di.
    destruct (x' =? x) eqn:E.
    + apply Z.eqb_eq in E. subst x'.
      destruct (dedup (x :: map fst t)) as [|u us] eqn:Eu.
      { exfalso. apply (proj2 (Di x)). left. reflexivity. }
      assert (u = x).
      { inversion D as [|? ? D1 D2]; subst. rewrite Forall_forall in D2.
        inversion H1 as [|? ? H3 H4]; subst. rewrite Forall_forall in H4.
        destruct (proj2 (Di x) (or_introl eq_refl)) as [|Hx]; [auto|]. specialize (D2 _ Hx).
        destruct (proj1 (Di u) (or_introl eq_refl)) as [|Hu]; [auto|]. specialize (H4 _ Hu). lia. }
      subst u. cbn [map]. f_equal.
      * unfold group. cbn [filter fst]. rewrite Z.eqb_refl. reflexivity.
      * apply map_ext_in. intros u Hu. unfold group. cbn [filter fst].
        inversion D as [|? ? D1 D2]; subst. rewrite Forall_forall in D2. specialize (D2 _ Hu).
        destruct (x =? u) eqn:Ex; [apply Z.eqb_eq in Ex; lia|]. reflexivity.
    + apply Z.eqb_neq in E. cbn [map]. f_equal.
      * unfold group. cbn [filter fst]. rewrite Z.eqb_refl. cbn [map snd]. f_equal.
        symmetry. apply (@group_none A x ((x', y') :: t)). cbn [map fst]. intros Hin.
        inversion H2 as [|? ? G1 G2]; subst. inversion H1 as [|? ? H3 H4]; subst. rewrite Forall_forall in H4.
        destruct Hin as [->|Hin]; [contradiction|]. specialize (H4 _ Hin). lia.
      * apply map_ext_in. intros u Hu. unfold group. cbn [filter fst].
        apply (proj1 (Di _)) in Hu. rewrite Forall_forall in H2. 
        destruct (x =? u) eqn:Ex; [|reflexivity]. apply Z.eqb_eq in Ex. subst u. exfalso.
        inversion H1 as [|? ? H3 H4]; subst. rewrite Forall_forall in H4.
        destruct Hu as [->|Hu]; [contradiction|]. specialize (H4 _ Hu).
        specialize (H2 x' (or_introl eq_refl)). lia.
Qed.

Lemma map_fst_combine : forall A (b : list Z) (a : list A), length a = length b -> map fst (combine b a) = b.
Proof. induction b as [|x t IH]; intros [|y u] H; try discriminate; simpl in *; [reflexivity|]. f_equal. apply IH. lia. Qed.

(** modeby returns, in ascending order of the distinct ids, the mode of the
    values with that id. *)
Theorem C97_modeby : forall input index, index <> [] -> length input = length index ->
  modeby input index = map (fun u => mode (group u (combine index input))) (unique index).
Proof.
  intros input index Hne Hl. unfold modeby.
  set (p := ksort (combine index input)).
  assert (Hp : length p = length index) by (unfold p; rewrite ksort_length, combine_length; lia).
  rewrite (@pieces_runs (map fst p) Z (map snd p) (map snd p) 0).
  - rewrite runs_groups by apply ksort_sorted. rewrite map_map.
    assert (E : dedup (map fst p) = unique index).
    { apply asc_same; [apply dedup_asc, ksort_sorted|apply unique_asc|]. intros x. rewrite dedup_in, unique_in.
      rewrite in_map_iff. split.
      - intros (q & <- & Hq). apply (proj1 (ksort_in _ _)) in Hq. rewrite <- (@map_fst_combine Z index input Hl). apply in_map. exact Hq.
      - intros Hx. rewrite <- (@map_fst_combine Z index input Hl) in Hx. apply in_map_iff in Hx. destruct Hx as (q & <- & Hq).
        exists q. split; [reflexivity|]. apply ksort_in. exact Hq. }
    rewrite E. apply map_ext. intros u. unfold p. rewrite ksort_group. reflexivity.
  - intros E. apply map_eq_nil in E. rewrite E in Hp. destruct index; [contradiction|discriminate].
  - rewrite !map_length. reflexivity.
  - reflexivity.
Qed.

Lemma best_fold : forall l t v m, fold_left (best l) t v = m ->
  (m = v \/ In m t) /\ (occ v l <= occ m l) /\ (forall w, In w t -> occ w l <= occ m l) /\
  (occ v l = occ m l -> m = v).
Proof.
  intros l t. induction t as [|w t IH]; intros v m H; simpl in H.
  - subst m. split; [auto|]. split; [lia|]. split; [intros w []|auto].
  - apply IH in H. destruct H as (H1 & H2 & H3 & H4). unfold best in *.
    destruct (occ v l <? occ w l) eqn:E; [apply Z.ltb_lt in E|apply Z.ltb_ge in E].
    + repeat split.
      * destruct H1 as [->|]; simpl; auto.
      * lia.
      * intros z [<-|Hz]; auto.
      * intros. lia.
    + repeat split.
      * destruct H1 as [->|]; simpl; auto.
      * lia.
      * intros z [<-|Hz]; [lia|auto].
      * auto.
Qed.

(** The mode is the smallest of the most frequent values. *)
Theorem C97_mode : forall l, l <> [] -> exists m, mode l = Some m /\ In m l /\
  (forall w, occ w l <= occ m l) /\ forall w, In w l -> occ w l = occ m l -> m <= w.
Proof.
  intros l Hne. unfold mode. pose proof (unique_in l) as Hu. pose proof (unique_asc l) as Ha.
  destruct (unique l) as [|v t] eqn:E.
  { exfalso. destruct l as [|x l]; [contradiction|]. apply (proj2 (Hu x)). left. reflexivity. }
  exists (fold_left (best l) t v). split; [reflexivity|].
  assert (G : forall v' t', ascending (v' :: t') -> forall w, In w (v' :: t') ->
     occ w l = occ (fold_left (best l) t' v') l -> fold_left (best l) t' v' <= w).
  { intros v' t'. revert v'. induction t' as [|z t' IH]; intros v' Hs w Hw Ho; simpl in *; [destruct Hw as [->|[]]; lia|].
    inversion Hs as [|? ? S1 S2]; subst. inversion S1 as [|? ? S3 S4]; subst.
    destruct (best_fold l t' (best l v' z) eq_refl) as (B1 & B2 & B3 & B4).
    rewrite Forall_forall in S2, S4. destruct (occ v' l <? occ z l) eqn:Eb.
    - assert (Q : best l v' z = z) by (unfold best; rewrite Eb; reflexivity). rewrite Q in *. apply Z.ltb_lt in Eb. destruct Hw as [<-|Hw]; [lia|]. apply IH; auto.
    - assert (Q0 : best l v' z = v') by (unfold best; rewrite Eb; reflexivity). rewrite Q0 in *.
      apply Z.ltb_ge in Eb. destruct Hw as [<-|[<-|Hw]].
      + rewrite (B4 Ho). lia.
      + assert (Q : occ v' l = occ (fold_left (best l) t' v') l) by lia. rewrite (B4 Q). specialize (S2 z (or_introl eq_refl)). lia.
      + apply IH; [|simpl; auto|exact Ho]. constructor; [exact S3|]. apply Forall_forall. intros. apply S2. simpl. auto. }
  destruct (best_fold l t v eq_refl) as (B1 & B2 & B3 & B4).
  set (m := fold_left (best l) t v) in *.
  assert (Hm : In m (v :: t)) by (destruct B1 as [->|]; simpl; auto).
  split; [apply Hu; exact Hm|]. split.
  - intros w. destruct (in_dec Z.eq_dec w l) as [Hw|Hw].
    + apply (proj2 (Hu _)) in Hw. destruct Hw as [<-|Hw]; auto.
    + unfold occ. replace (filter (fun x => x =? w) l) with (@nil Z).
      * unfold zlen. simpl. lia.
      * symmetry. clear - Hw. induction l as [|x l IH]; [reflexivity|]. simpl in *.
        destruct (x =? w) eqn:E; [apply Z.eqb_eq in E; exfalso; auto|]. apply IH. auto.
  - intros w Hw Ho. apply G; [exact Ha|apply Hu; exact Hw|exact Ho].
Qed.

(* ------------------------------------------------------------------ *)
(** * The decision per pixel *)

(** mean_list (lines 428-435): np.bincount with weights over np.unique's
    inverse, divided by the counts; label 0 gets NAN_VAL. *)
Definition qsum (l : list Q) : Q := fold_right Qplus 0%Q l.
Definition mean_of (u : Z) (s1 : list Z) (cm : list Q) : Q :=
  if u =? 0 then inject_Z (-9999) else (qsum (group u (combine s1 cm)) / inject_Z (occ u s1))%Q.
(** s1_info (line 436): one row per distinct label. *)
Definition s1_info (s1 : list Z) (cm : list Q) : list (Z * Q) := map (fun u => (u, mean_of u s1 cm)) (unique s1).

Section Decide.
(** is_change_object with its parameters; [None] counts as false (line 755). *)
Variable decide : option Z -> Q -> option Z -> option bool.

(** stats_lut.loc[stats_lut["label"] == index] and the loop (lines 750-764):
    the rows carry the label, the mean, the class and the size. *)
Definition row : Type := (Z * Q) * (option Z * option Z).
Definition change_group (lut : list row) : list Z :=
  map (fun r => fst (fst r))
    (filter (fun r => match find (fun q => fst (fst q) =? fst (fst r)) lut with
                      | Some q => match decide (fst (snd q)) (snd (fst q)) (snd (snd q)) with Some true => true | _ => false end
                      | None => false end) lut).

(** object_analysis (lines 687-765). *)
Definition object_analysis (s1 s2 : list Z) (info : list (Z * Q)) (classes : option (list Z)) : list Z :=
  let size_map := map (fun l => occ l s2) s2 in
  let class_list := match classes with
                    | None => map (fun _ => Some 255) info
                    | Some c => modeby c s1
                    end in
  let size_list := modeby size_map s1 in
  let lut := combine info (combine class_list size_list) in
  let g := change_group lut in
  map (fun l => if existsb (Z.eqb l) g then 1 else 0) s1.

Lemma asc_nodup : forall l, ascending l -> NoDup l.
Proof.
  intros l H. induction H as [|x t Hs IH Hf]; constructor; [|exact IH]. intros Hin. rewrite Forall_forall in Hf. specialize (Hf _ Hin). lia.
Qed.

Lemma combine_map3 : forall (f : Z -> Z * Q) (g h : Z -> option Z) us,
  combine (map f us) (combine (map g us) (map h us)) = map (fun u => (f u, (g u, h u))) us.
Proof. intros. induction us; simpl; [reflexivity|]. f_equal. exact IHus. Qed.

(** Pixel i of the change map is 1 exactly when the decision accepts its
    superpixel: the mean of the smoothed magnitudes over the pixels with its
    label (-9999 for the background), the mode of their classes (255 without
    a class map) and the mode of the sizes of their patches. *)
Theorem C97_change : forall s1 s2 cm classes i, (i < length s1)%nat -> length s2 = length s1 -> length cm = length s1 ->
  (forall c, classes = Some c -> length c = length s1) ->
  let u := nth i s1 0 in
  let cls := match classes with None => Some 255 | Some c => mode (group u (combine s1 c)) end in
  let size := mode (group u (combine s1 (map (fun l => occ l s2) s2))) in
  nth i (object_analysis s1 s2 (s1_info s1 cm) classes) 0 =
    if match decide cls (mean_of u s1 cm) size with Some true => true | _ => false end then 1 else 0.
Proof.
  intros s1 s2 cm classes i Hi H2 Hcm Hc u cls size.
  assert (Hne : s1 <> []) by (intros E; rewrite E in Hi; simpl in Hi; lia).
  set (fc := fun u => match classes with None => Some 255 | Some c => mode (group u (combine s1 c)) end).
  set (fs := fun u => mode (group u (combine s1 (map (fun l => occ l s2) s2)))).
  assert (Ec : match classes with None => map (fun _ => Some 255) (s1_info s1 cm) | Some c => modeby c s1 end = map fc (unique s1)).
  { destruct classes as [c|].
    - rewrite C97_modeby by (auto; apply Hc; reflexivity). reflexivity.
    - unfold s1_info. rewrite map_map. reflexivity. }
  assert (Es : modeby (map (fun l => occ l s2) s2) s1 = map fs (unique s1)).
  { rewrite C97_modeby by (auto; rewrite map_length; exact H2). reflexivity. }
  unfold object_analysis. rewrite Ec, Es. unfold s1_info. rewrite combine_map3.
  set (mk := fun u => (u, mean_of u s1 cm, (fc u, fs u))).
  rewrite (nth_indep _ 0 ((fun l => if existsb (Z.eqb l) (change_group (map mk (unique s1))) then 1 else 0) 0)) by (rewrite map_length; exact Hi).
  rewrite (map_nth (fun l => if existsb (Z.eqb l) (change_group (map mk (unique s1))) then 1 else 0)). fold u.
  assert (Hu : In u (unique s1)) by (apply unique_in; apply nth_In; exact Hi).
  pose proof (asc_nodup (unique_asc s1)) as Nd.
  assert (Hfind : forall w us, NoDup us -> In w us -> find (fun q : row => fst (fst q) =? w) (map mk us) = Some (mk w)).
  { intros w us. induction us as [|z us IH]; intros Hn Hw; [destruct Hw|]. cbn [map find fst mk].
    destruct (z =? w) eqn:E; [apply Z.eqb_eq in E; subst; reflexivity|].
    inversion Hn; subst. destruct Hw as [->|Hw]; [rewrite Z.eqb_refl in E; discriminate|]. apply IH; assumption. }
  set (ok := match decide cls (mean_of u s1 cm) size with Some true => true | _ => false end).
  assert (G : existsb (Z.eqb u) (change_group (map mk (unique s1))) = ok).
  { apply eq_true_iff_eq. rewrite existsb_exists. split.
    - intros (w & Hw & Ew). apply Z.eqb_eq in Ew. subst w. unfold change_group in Hw. apply in_map_iff in Hw.
      destruct Hw as (r & Er & Hr). apply filter_In in Hr. destruct Hr as [Hr1 Hr2]. rewrite Er in Hr2.
      rewrite Hfind in Hr2 by assumption. exact Hr2.
    - intros Hok. exists u. split; [|apply Z.eqb_refl]. unfold change_group. apply in_map_iff. exists (mk u).
      split; [reflexivity|]. apply filter_In. split; [apply in_map; exact Hu|].
      change (fst (fst (mk u))) with u. rewrite Hfind by assumption. exact Hok. }
  rewrite G. reflexivity.
Qed.

(** Pixels of one superpixel share their fate. *)
Theorem C97_same : forall s1 s2 cm classes i j, (i < length s1)%nat -> (j < length s1)%nat -> length s2 = length s1 -> length cm = length s1 ->
  (forall c, classes = Some c -> length c = length s1) -> nth i s1 0 = nth j s1 0 ->
  nth i (object_analysis s1 s2 (s1_info s1 cm) classes) 0 = nth j (object_analysis s1 s2 (s1_info s1 cm) classes) 0.
Proof. intros. rewrite !C97_change by assumption. rewrite H4. reflexivity. Qed.

Lemma group_const : forall A (f : Z -> A) u k (s1 s2 : list Z), length s2 = length s1 ->
  (forall i, (i < length s1)%nat -> nth i s1 0 = u -> nth i s2 0 = k) ->
  Forall (fun x => x = f k) (group u (combine s1 (map f s2))).
Proof.
  intros A f u k s1. induction s1 as [|x t IH]; intros [|y s2] Hl H; try discriminate; [constructor|].
  unfold group in *. cbn [map combine filter fst]. destruct (x =? u) eqn:E.
  - cbn [map snd]. constructor.
    + apply Z.eqb_eq in E. specialize (H 0%nat). cbn in H. rewrite H; [reflexivity|lia|exact E].
    + apply IH; [simpl in Hl; lia|]. intros i Hi. apply (H (S i)). simpl. lia.
  - apply IH; [simpl in Hl; lia|]. intros i Hi. apply (H (S i)). simpl. lia.
Qed.

(** When a superpixel lies in one patch, its size is the number of pixels of
    that patch. *)
Theorem C97_size : forall s1 s2 i, (i < length s1)%nat -> length s2 = length s1 ->
  (forall j, (j < length s1)%nat -> nth j s1 0 = nth i s1 0 -> nth j s2 0 = nth i s2 0) ->
  mode (group (nth i s1 0) (combine s1 (map (fun l => occ l s2) s2))) = Some (occ (nth i s2 0) s2).
Proof.
  intros s1 s2 i Hi Hl H.
  pose proof (@group_const Z (fun l => occ l s2) (nth i s1 0) (nth i s2 0) s1 s2 Hl H) as F.
  set (g := group (nth i s1 0) (combine s1 (map (fun l => occ l s2) s2))) in *.
  assert (Hg : g <> []).
  { unfold g, group. intros E. apply map_eq_nil in E.
    assert (Hin : In (nth i (combine s1 (map (fun l => occ l s2) s2)) (0, 0))
                    (filter (fun p => fst p =? nth i s1 0) (combine s1 (map (fun l => occ l s2) s2)))).
    { apply filter_In. split; [apply nth_In; rewrite combine_length, map_length; lia|].
      rewrite combine_nth by (rewrite map_length; lia). cbn [fst]. apply Z.eqb_refl. }
    rewrite E in Hin. destruct Hin. }
  destruct (C97_mode Hg) as (m & Em & Hm & _). rewrite Em. f_equal. rewrite Forall_forall in F. apply F. exact Hm.
Qed.
End Decide.

(** The background never changes, whatever the classes: its mean is -9999 and
    no threshold is negative. *)
Section Background.
Variable rnd : Q -> Q.
Hypothesis rnd_mono : forall x y, (x <= y)%Q -> (rnd x <= rnd y)%Q.
Hypothesis rnd_0 : (rnd 0 == 0)%Q.
Variable lg : Z -> Q.
Hypothesis lg_pos : forall a, 1 <= a -> (0 <= lg a)%Q.

(** is_change_object on one row; npixels is always present. *)
Definition decide_row (default : limit) (table : Z -> limit) (thematic : bool) (uniform : option limit)
  (cls : option Z) (mag : Q) (size : option Z) : option bool :=
  match cls, size with
  | Some m, Some n => is_change_object rnd lg default table thematic uniform m mag n
  | _, _ => None
  end.

Lemma exceeds_negative : forall L mag size, limit_ok L -> 1 <= size -> (mag <= 0)%Q -> exceeds rnd lg L mag size = false.
Proof.
  intros L mag size [HT HS] Hs Hm. unfold exceeds. cbv zeta.
  set (x := rnd (rnd (lg size * l_slope L) + (95 # 100))%Q).
  assert (X0 : (0 <= x)%Q).
  { unfold x. apply (Qle_trans _ (rnd 0)); [rewrite rnd_0; apply Qle_refl|]. apply rnd_mono.
    apply (Qle_trans _ (0 + (95 # 100))); [discriminate|]. apply Qplus_le_compat; [|apply Qle_refl].
    apply (Qle_trans _ (rnd 0)); [rewrite rnd_0; apply Qle_refl|]. apply rnd_mono.
    apply Qmult_le_0_compat; [apply lg_pos; lia|exact HS]. }
  set (sc := if Qlt_le_dec x 2 then x else 2%Q).
  assert (S0 : (0 <= sc)%Q) by (unfold sc; destruct (Qlt_le_dec x 2); [exact X0|discriminate]).
  destruct (Qlt_le_dec (l_threshold L) (rnd (mag * sc))) as [H|]; [|reflexivity]. exfalso.
  assert (Z1 : (mag * sc <= 0)%Q).
  { apply (Qle_trans _ (0 * sc)); [apply Qmult_le_compat_r; assumption|]. rewrite Qmult_0_l. apply Qle_refl. }
  pose proof (@rnd_mono _ _ Z1) as Z2. rewrite rnd_0 in Z2. apply (Qlt_irrefl (l_threshold L)).
  eapply Qlt_le_trans; [exact H|]. eapply Qle_trans; [exact Z2|exact HT].
Qed.

Theorem C97_background : forall default table thematic uniform s1 s2 cm classes i,
  limit_ok default -> (forall m, 1 <= m <= 8 -> limit_ok (table m)) -> (forall L, uniform = Some L -> limit_ok L) ->
  (i < length s1)%nat -> length s2 = length s1 -> length cm = length s1 -> (forall c, classes = Some c -> length c = length s1) ->
  nth i s1 0 = 0 ->
  nth i (object_analysis (decide_row default table thematic uniform) s1 s2 (s1_info s1 cm) classes) 0 = 0.
Proof.
  intros default table thematic uniform s1 s2 cm classes i HD HT HU Hi H2 Hcm Hc H0.
  rewrite C97_change by assumption. rewrite H0.
  set (cls := match classes with None => Some 255 | Some c => mode (group 0 (combine s1 c)) end).
  set (sz := map (fun l => occ l s2) s2).
  destruct (mode (group 0 (combine s1 sz))) as [n|] eqn:En; [|unfold decide_row; destruct cls; reflexivity].
  assert (Hn : 1 <= n).
  { assert (Hne : group 0 (combine s1 sz) <> []) by (intros E; rewrite E in En; discriminate).
    destruct (C97_mode Hne) as (m & Em & Hm & _). rewrite En in Em. injection Em as <-.
    unfold group in Hm. apply in_map_iff in Hm. destruct Hm as (q & <- & Hq). apply filter_In in Hq. destruct Hq as [Hq _].
    destruct q as [a b]. apply in_combine_r in Hq. unfold sz in Hq. apply in_map_iff in Hq. destruct Hq as (l & <- & Hl).
    cbn [snd]. unfold occ, zlen. assert (Hf : In l (filter (fun x => x =? l) s2)) by (apply filter_In; split; [exact Hl|apply Z.eqb_refl]).
    destruct (filter (fun x => x =? l) s2); [destruct Hf|simpl; lia]. }
  unfold decide_row. destruct cls as [m|]; [|reflexivity].
  unfold mean_of. cbn [Z.eqb]. unfold is_change_object.
  assert (Neg : (inject_Z (-9999) <= 0)%Q) by discriminate.
  destruct (negb thematic); [rewrite exceeds_negative by auto; reflexivity|].
  destruct uniform as [L|]; [rewrite exceeds_negative by auto; reflexivity|].
  destruct (m =? 255); [rewrite exceeds_negative by auto; reflexivity|].
  destruct ((1 <=? m) && (m <=? 8)) eqn:E; [|reflexivity].
  rewrite exceeds_negative by (auto; apply HT; lia). reflexivity.
Qed.
End Background.

(* ------------------------------------------------------------------ *)
(** * The break map *)

(** obia_execute, lines 908-917: stored dates count from the launch day. *)
Definition stored_date (launch d : Z) : Z := if d =? -9999 then -9999 else d + launch.
(** segmentation_floodfill line 342: a missing date is taken from the map
    before. *)
Definition filled (d d1 : Z) : Z := if d =? -9999 then d1 else d.
(** save_obiaresult lines 998-1003: negative dates become 0; the product with
    the change map. *)
Definition break_value (change date : Z) : Z := change * (if date <? 0 then 0 else date).
(** One pixel of obia_execute; [first] is [date - cm_output_interval <
    starting_date] (lines 900-906). *)
Definition break_pixel (first : bool) (launch d d1 change : Z) : Z :=
  if first then break_value 0 0 else break_value change (filled (stored_date launch d) (stored_date launch d1)).

(** A break is reported exactly in change objects that have a date, with the
    pixel's own date or, if it has none, that of the map before. *)
Theorem C97_break : forall first launch d d1 change, 0 < launch -> (d = -9999 \/ 0 <= d) -> (d1 = -9999 \/ 0 <= d1) ->
  (change = 0 \/ change = 1) ->
  let b := break_pixel first launch d d1 change in
  (b <> 0 <-> first = false /\ change = 1 /\ (0 <= d \/ 0 <= d1)) /\
  (b <> 0 -> 0 <= d -> b = d + launch) /\ (b <> 0 -> d = -9999 -> b = d1 + launch).
Proof.
  intros first launch d d1 change HL Hd Hd1 Hc b. unfold b, break_pixel, break_value, filled, stored_date.
  destruct first.
  - repeat split; intros; try lia; destruct H; discriminate.
  - destruct Hd as [->|Hd]; destruct Hd1 as [->|Hd1]; destruct Hc as [->| ->]; cbn [Z.eqb Z.ltb Z.compare Pos.eqb];
      repeat match goal with |- context [?x =? -9999] => replace (x =? -9999) with false by lia end;
      repeat match goal with |- context [?x <? 0] => replace (x <? 0) with false by lia end;
      repeat split; intros; try lia; intuition lia.
Qed.

(** Four superpixels in two patches. *)
Example C97_case :
  modeby [4; 4; 2; 2; 9; 1; 1; 3] [7; 0; 7; 7; 0; 3; 3; 3] = [Some 4; Some 1; Some 2] /\
  (* superpixels 1 and 2 touch and form a patch of five pixels; 3 stands alone *)
  object_analysis (fun _ mag size => match size with Some n => Some ((2 <? n) && Qle_bool 5 mag) | None => None end)
    [1; 1; 2; 2; 2; 0; 3; 0] [1; 1; 1; 1; 1; 0; 2; 0]
    (s1_info [1; 1; 2; 2; 2; 0; 3; 0] [6; 5; 4; 4; 5; -9999; 9; -9999]%Q) None = [1; 1; 0; 0; 0; 0; 0; 0].
Proof. vm_compute. split; reflexivity. Qed.

(** The hypotheses on the arithmetic are met by exact arithmetic and a number
    of digits. *)
Example C97_background_case :
  nth 5 (object_analysis (decide_row (fun x => x) lg_ex obcold_default obcold_table true None)
    [1; 1; 2; 2; 2; 0; 3; 0] [1; 1; 1; 1; 1; 0; 2; 0]
    (s1_info [1; 1; 2; 2; 2; 0; 3; 0] [16; 15; 4; 4; 5; -9999; 19; -9999]%Q) (Some [4; 4; 4; 4; 4; 4; 4; 4])) 0 = 0 /\
  nth 0 (object_analysis (decide_row (fun x => x) lg_ex obcold_default obcold_table true None)
    [1; 1; 2; 2; 2; 0; 3; 0] [1; 1; 1; 1; 1; 0; 2; 0]
    (s1_info [1; 1; 2; 2; 2; 0; 3; 0] [16; 15; 4; 4; 5; -9999; 19; -9999]%Q) (Some [4; 4; 4; 4; 4; 4; 4; 4])) 0 = 1.
Proof. vm_compute. split; reflexivity. Qed.

Example C97_break_case : break_pixel false 723742 100 (-9999) 1 = 723842 /\ break_pixel false 723742 (-9999) 60 1 = 723802 /\
  break_pixel false 723742 (-9999) (-9999) 1 = 0 /\ break_pixel false 723742 100 60 0 = 0.
Proof. repeat split. Qed.

Print Assumptions C97_modeby.
Print Assumptions C97_mode.
Print Assumptions C97_change.
Print Assumptions C97_same.
Print Assumptions C97_size.
Print Assumptions C97_background.
Print Assumptions C97_break.
