(** C39-C42 and C65: nearest date, medians, duplicate removal, 2-d arrays,
    variogram. *)
From Verif Require Import Base SortModel SortProof SortProps LibModel.

(** ** Specification *)

(** [v2] is twice a median of [l]: at least half of the entries are on each
    side of it. *)
Definition twice_median (l : list Z) (v2 : Z) : Prop :=
  (length l <= 2 * length (filter (fun x => 2 * x <=? v2)%Z l))%nat /\
  (length l <= 2 * length (filter (fun x => v2 <=? 2 * x)%Z l))%nat.

(** Positions kept by duplicate removal: the first of each run of equal dates. *)
Definition first_of_run (clrx : list Z) (k : nat) : bool :=
  match k with O => true | S j => negb (nth k clrx 0 =? nth j clrx 0) end.

(** Absolute successive differences. *)
Definition successive (l : list Z) : list Z :=
  map (fun k => Z.abs (nth (S k) l 0 - nth k l 0)) (seq 0 (length l - 1)).

(** ** Medians *)

Lemma filter_prefix : forall (P : Z -> bool) l k, (k <= length l)%nat ->
  (forall i, (i < k)%nat -> P (nth i l 0) = true) -> (k <= length (filter P l))%nat.
Proof.
  intros P l k Hk H. rewrite <- (firstn_skipn k l), filter_app, app_length.
  assert (filter P (firstn k l) = firstn k l).
  { assert (F : Forall (fun x => P x = true) (firstn k l)).
    { apply nth_Forall with (d := 0). intros i Hi. rewrite firstn_length in Hi.
      rewrite nth_firstn by lia. apply H. lia. }
    clear - F. induction F; simpl; [reflexivity|]. rewrite H. congruence. }
  rewrite H0, firstn_length. lia.
Qed.

Lemma filter_suffix : forall (P : Z -> bool) l k, (k <= length l)%nat ->
  (forall i, (k <= i < length l)%nat -> P (nth i l 0) = true) -> (length l - k <= length (filter P l))%nat.
Proof.
  intros P l k Hk H. rewrite <- (firstn_skipn k l) at 2. rewrite filter_app, app_length.
  assert (filter P (skipn k l) = skipn k l).
  { assert (F : Forall (fun x => P x = true) (skipn k l)).
    { apply nth_Forall with (d := 0). intros i Hi. rewrite skipn_length in Hi.
      rewrite nth_skipn. apply H. lia. }
    clear - F. induction F; simpl; [reflexivity|]. rewrite H. congruence. }
  rewrite H0, skipn_length. lia.
Qed.

Lemma asc_nth : forall l i j, ascending_by (fun x : Z => x) l -> (i <= j < length l)%nat -> nth i l 0 <= nth j l 0.
Proof.
  induction l as [|x l IH]; intros i j H Hij; simpl in *; [lia|].
  inversion H; subst. destruct i, j; try lia.
  - rewrite Forall_forall in H3. apply H3, nth_In. lia.
  - apply IH; [assumption|lia].
Qed.

(** The index arithmetic shared by both median helpers. *)
Lemma middle : forall l v2, ascending_by (fun x : Z => x) l -> l <> [] ->
  (if Z.rem (zlen l) 2 =? 0
   then v2 = nth (Z.to_nat (Z.quot (zlen l) 2 - 1)) l 0 + nth (Z.to_nat (Z.quot (zlen l) 2)) l 0
   else v2 = 2 * nth (Z.to_nat (Z.quot (zlen l) 2)) l 0) -> twice_median l v2.
Proof.
  intros l v2 Hs Hne Hv. unfold zlen in Hv.
  assert (Hn : (0 < length l)%nat) by (destruct l; [congruence|simpl; lia]).
  rewrite Z.rem_mod_nonneg, Z.quot_div_nonneg in Hv by lia.
  set (m := Z.to_nat (Z.of_nat (length l) / 2)) in *.
  destruct (Z.eqb_spec (Z.of_nat (length l) mod 2) 0) as [E|E].
  - replace (Z.to_nat (Z.of_nat (length l) / 2 - 1)) with (m - 1)%nat in Hv by lia.
    pose proof (@asc_nth l (m - 1) m Hs) as Hmm. split.
    + assert (m <= length (filter (fun x => 2 * x <=? v2)%Z l))%nat; [|lia].
      apply filter_prefix; [lia|]. intros i Hi. pose proof (@asc_nth l i (m - 1) Hs). lia.
    + assert (length l - m <= length (filter (fun x => v2 <=? 2 * x)%Z l))%nat; [|lia].
      apply filter_suffix; [lia|]. intros i Hi. pose proof (@asc_nth l m i Hs). lia.
  - split.
    + assert (S m <= length (filter (fun x => 2 * x <=? v2)%Z l))%nat; [|lia].
      apply filter_prefix; [lia|]. intros i Hi. pose proof (@asc_nth l i m Hs). lia.
    + assert (length l - m <= length (filter (fun x => v2 <=? 2 * x)%Z l))%nat; [|lia].
      apply filter_suffix; [lia|]. intros i Hi. pose proof (@asc_nth l m i Hs). lia.
Qed.

(** C40: the median of a sorted row is a median of its first [len] entries,
    and for an even number of entries it is the average of the two middle
    ones. *)
Theorem C40_median_row : forall row rest, row <> [] -> ascending_by (fun x : Z => x) row ->
  exists v2, median_row (row ++ rest) (zlen row) = Ok v2 /\ twice_median row v2 /\
   (Nat.Even (length row) -> v2 = nth (length row / 2 - 1) row 0 + nth (length row / 2) row 0).
Proof.
  intros row rest Hne Hs.
  assert (Hn : (0 < length row)%nat) by (destruct row; [congruence|simpl; lia]).
  assert (Hq : Z.quot (zlen row) 2 = zlen row / 2) by (apply Z.quot_div_nonneg; unfold zlen; lia).
  assert (Hd : Z.of_nat (length row / 2) = zlen row / 2) by (unfold zlen; rewrite Nat2Z.inj_div; reflexivity).
  assert (G : forall i, 0 <= i < zlen row -> get (row ++ rest) i = Ok (nth (Z.to_nat i) row 0)).
  { intros i Hi. rewrite (get_ok _ 0) by (unfold zlen in *; rewrite app_length; lia).
    rewrite app_nth1 by (unfold zlen in *; lia). reflexivity. }
  assert (Hz : 0 < zlen row) by (unfold zlen; lia).
  pose proof (@middle row) as M. unfold median_row.
  destruct (Z.eqb_spec (Z.rem (zlen row) 2) 0) as [E|E].
  - rewrite Z.rem_mod_nonneg in E by lia. rewrite Hq in *. rewrite !G by lia. cbn [bind].
    eexists. split; [reflexivity|]. split; [apply M; auto|].
    intros _. repeat f_equal; lia.
  - rewrite Z.rem_mod_nonneg in E by lia. rewrite Hq in *. rewrite !G by lia. cbn [bind].
    eexists. split; [reflexivity|]. split; [apply M; auto|].
    intros [k Hk]. unfold zlen in E. lia.
Qed.
Print Assumptions C40_median_row.

(** C40 for a sub-range. *)
Theorem C40_median_partial : forall pre mid suf, mid <> [] -> ascending_by (fun x : Z => x) mid ->
  exists v2, median_partial (pre ++ mid ++ suf) (zlen pre) (zlen pre + zlen mid - 1) = Ok v2 /\
    twice_median mid v2 /\
    (Nat.Even (length mid) -> v2 = nth (length mid / 2 - 1) mid 0 + nth (length mid / 2) mid 0).
Proof.
  intros pre mid suf Hne Hs.
  destruct (@C40_median_row mid suf Hne Hs) as (v2 & H1 & H2 & H3).
  exists v2. split; [|split; assumption]. rewrite <- H1.
  assert (Hn : (0 < length mid)%nat) by (destruct mid; [congruence|simpl; lia]).
  unfold median_partial, median_row.
  replace (zlen pre + zlen mid - 1 - zlen pre + 1) with (zlen mid) by lia.
  assert (G : forall i, 0 <= i -> get (pre ++ mid ++ suf) (zlen pre + i) = get (mid ++ suf) i).
  { intros i Hi. unfold get, zlen. replace (Z.of_nat (length pre) + i <? 0) with false by lia.
    replace (i <? 0) with false by lia.
    rewrite nth_error_app2 by lia. replace (Z.to_nat (Z.of_nat (length pre) + i) - length pre)%nat with (Z.to_nat i) by lia.
    reflexivity. }
  assert (Hz : 0 < zlen mid) by (unfold zlen; lia). assert (Hp : 0 <= zlen pre) by (unfold zlen; lia).
  rewrite !Z.quot_div_nonneg by lia. rewrite Z.rem_mod_nonneg by lia.
  destruct (Z.eqb_spec (zlen mid mod 2) 0) as [E|E].
  - replace ((zlen pre + zlen mid - 1 + zlen pre + 1) / 2) with (zlen pre + zlen mid / 2) by lia.
    replace (zlen pre + zlen mid / 2 - 1) with (zlen pre + (zlen mid / 2 - 1)) by lia.
    rewrite !G by lia. reflexivity.
  - replace ((zlen pre + zlen mid - 1 + zlen pre + 1) / 2) with (zlen pre + zlen mid / 2) by lia.
    rewrite !G by lia. reflexivity.
Qed.
Print Assumptions C40_median_partial.

Lemma filter_perm_length : forall (P : Z -> bool) l l', Permutation l l' ->
  length (filter P l) = length (filter P l').
Proof.
  intros P l l' H. induction H; simpl; try congruence.
  - destruct (P x); simpl; congruence.
  - destruct (P x), (P y); reflexivity.
Qed.

Lemma twice_median_perm : forall l l' v, Permutation l l' -> twice_median l v -> twice_median l' v.
Proof.
  intros l l' v H [H1 H2]. unfold twice_median.
  rewrite <- (Permutation_length H), <- !(filter_perm_length _ H). split; assumption.
Qed.

Lemma sorted_median_ok : forall var, var <> [] ->
  exists v m, sorted_median var = Ok (v, m) /\ Permutation var v /\
    ascending_by (fun x : Z => x) v /\ twice_median var m.
Proof.
  intros var Hne. unfold sorted_median.
  destruct (@C37_quick_sort Z (fun x => x) (length var) [] var [] Hne) as (v & H1 & H2 & H3); [lia|].
  cbn [app] in H1. rewrite !app_nil_r in H1.
  change (klt (fun x : Z => x)) with (fun x y => x <? y) in H1.
  change (zlen (@nil Z)) with 0 in H1. replace (0 + zlen var - 1) with (zlen var - 1) in H1 by lia.
  change (fun x y : Z => x <? y) with Z.ltb in H1. rewrite H1. cbn [bind].
  assert (Hv : v <> []).
  { intros ->. apply Permutation_length in H2. destruct var; [congruence|discriminate]. }
  destruct (@C40_median_row v [] Hv H3) as (m & M1 & M2 & _). rewrite app_nil_r in M1.
  rewrite M1. cbn [bind]. exists v, m. split; [reflexivity|]. split; [assumption|]. split; [assumption|].
  eapply twice_median_perm; [apply Permutation_sym; eassumption|assumption].
Qed.

(** Sorting and taking the median of any non-empty array. *)
Theorem C40_sort_then_median : forall var, var <> [] ->
  exists v m, sorted_median var = Ok (v, m) /\ twice_median var m.
Proof.
  intros var H. destruct (sorted_median_ok H) as (v & m & H1 & _ & _ & H2). exists v, m. auto.
Qed.

Example median_even : median_row [1; 3; 6; 9; 77] 4 = Ok 9. Proof. reflexivity. Qed.
Example median_sub : median_partial [50; 1; 3; 6; 0] 1 3 = Ok 6. Proof. reflexivity. Qed.
Example median_sorted : sorted_median [5; 1; 4; 1] = Ok ([1; 1; 4; 5], 5).
Proof. vm_compute. reflexivity. Qed.
(** The sorting hypothesis matters: on an unsorted row the helper returns
    something that is not a median. *)
Example median_unsorted : exists row v2, median_row row 3 = Ok v2 /\ ~ twice_median row v2.
Proof. exists [1; 9; 2], 18. split; [reflexivity|]. unfold twice_median. simpl. lia. Qed.

(** ** Nearest date *)

(** [i] is the first index whose date is closest to [d]. *)
Definition first_nearest (l : list Z) (d : Z) (i : nat) : Prop :=
  (i < length l)%nat /\
  (forall j, (j < length l)%nat -> Z.abs (nth i l 0 - d) <= Z.abs (nth j l 0 - d)) /\
  (forall j, (j < i)%nat -> Z.abs (nth i l 0 - d) < Z.abs (nth j l 0 - d)).

Lemma find_loop_ok : forall fuel l rest d i mind best,
  (length l - i < fuel)%nat -> (i <= length l)%nat ->
  (forall j, (j < length l)%nat -> Z.abs (nth j l 0 - d) < 9999999) ->
  (forall j, (j < i)%nat -> nth j l 0 <> d) ->
  match best with
  | None => i = 0%nat /\ mind = 9999999
  | Some b => 0 <= b /\ (Z.to_nat b < i)%nat /\ mind = Z.abs (nth (Z.to_nat b) l 0 - d) /\
      (forall j, (j < i)%nat -> mind <= Z.abs (nth j l 0 - d)) /\
      (forall j, (j < Z.to_nat b)%nat -> mind < Z.abs (nth j l 0 - d))
  end ->
  l <> [] ->
  exists r, find_loop fuel (l ++ rest) (zlen l) d (Z.of_nat i) mind best = Ok (Z.of_nat r) /\ first_nearest l d r.
Proof.
  induction fuel; intros l rest d i mind best Hf Hi Hb Hne Hbest Hl; [lia|].
  cbn [find_loop]. unfold zlen. destruct (Z.of_nat i <? Z.of_nat (length l)) eqn:E.
  - rewrite (get_ok _ 0) by (unfold zlen; rewrite app_length; lia). cbn [bind].
    rewrite Nat2Z.id, app_nth1 by lia.
    destruct (Z.eqb_spec (nth i l 0) d) as [Q|Q].
    + exists i. split; [reflexivity|]. split; [lia|]. split; intros j Hj.
      * rewrite Q. lia.
      * specialize (Hne j Hj). lia.
    + assert (Hb' := Hb i ltac:(lia)).
      replace (Z.of_nat i + 1) with (Z.of_nat (S i)) by lia.
      destruct (Z.abs (nth i l 0 - d) <? mind) eqn:F; fold (zlen l); apply IHfuel; auto; try lia.
      * intros j Hj. destruct (Nat.eq_dec j i); [subst; assumption|]. apply Hne; lia.
      * rewrite Nat2Z.id. split; [lia|]. split; [lia|]. split; [reflexivity|].
        destruct best as [b|].
        -- destruct Hbest as (B0 & B1 & B2 & B3 & B4). split; intros j Hj.
           ++ destruct (Nat.eq_dec j i); [subst; lia|]. specialize (B3 j). lia.
           ++ specialize (B3 j). lia.
        -- destruct Hbest as [-> ->]. split; intros j Hj; [assert (j = 0%nat) by lia; subst; lia|lia].
      * intros j Hj. destruct (Nat.eq_dec j i); [subst; assumption|]. apply Hne; lia.
      * destruct best as [b|]; [|destruct Hbest; subst; lia].
        destruct Hbest as (B0 & B1 & B2 & B3 & B4). split; [assumption|]. split; [lia|]. split; [assumption|].
        split; [|assumption]. intros j Hj. destruct (Nat.eq_dec j i); [subst; lia|]. apply B3; lia.
  - assert (i = length l) by lia. subst i.
    destruct best as [b|].
    + destruct Hbest as (B0 & B1 & B2 & B3 & B4). exists (Z.to_nat b).
      split; [rewrite Z2Nat.id by assumption; reflexivity|]. subst mind.
      split; [assumption|]. split; assumption.
    + destruct Hbest as [H0 _]. destruct l; [congruence|discriminate].
Qed.

(** C39, for arrays with unused space [rest] behind the [end] entries. *)
Theorem C39_nearest_date : forall clrx rest d, clrx <> [] ->
  (forall x, In x clrx -> Z.abs (x - d) < 9999999) ->
  exists i, find_index_clrx (clrx ++ rest) (zlen clrx) d = Ok (Z.of_nat i) /\ first_nearest clrx d i.
Proof.
  intros clrx rest d Hne Hb. unfold find_index_clrx.
  apply (@find_loop_ok _ clrx rest d 0 9999999 None); auto.
  - unfold zlen. lia.
  - lia.
  - intros j Hj. apply Hb, nth_In. assumption.
  - intros j Hj; lia.
Qed.
Print Assumptions C39_nearest_date.

(** With no observations, or all further than 9,999,998 days away, an
    uninitialised index is returned. *)
Theorem C39_no_match_refuted : exists clrx d, find_index_clrx clrx (zlen clrx) d = UB.
Proof. exists [], 5. reflexivity. Qed.

Example nearest : find_index_clrx [100; 110; 130; 150; 170] 4 120 = Ok 1. Proof. reflexivity. Qed.

(** ** Duplicate removal *)

Section UniqueProof.
Variable B : Type.
Variable db : B.

Lemma copy_bands_ok : forall (cols : list (list B)) n k_new k,
  Forall (fun c => length c = n) cols -> (k_new < n)%nat -> (k < n)%nat ->
  exists cols', copy_bands cols (Z.of_nat k_new) (Z.of_nat k) = Ok cols' /\
    Forall (fun c => length c = n) cols' /\ length cols' = length cols /\
    (forall b j, nth j (nth b cols' []) db = if (b <? length cols)%nat && (j =? k_new)%nat
                                           then nth k (nth b cols []) db else nth j (nth b cols []) db).
Proof.
  induction cols as [|c cs IH]; intros n k_new k HF H1 H2.
  - exists []. repeat split; auto.
  - inversion HF; subst. cbn [copy_bands]. rewrite (get_ok _ db) by (unfold zlen; lia). cbn [bind].
    destruct (put c (Z.of_nat k_new) (nth (Z.to_nat (Z.of_nat k)) c db)) as [c1| | |] eqn:E;
      try (rewrite put_ok in E by (unfold zlen; lia); discriminate).
    cbn [bind]. destruct (IH (length c) k_new k) as (cs1 & R1 & R2 & R3 & R4); auto.
    rewrite R1. cbn [bind]. exists (c1 :: cs1). split; [reflexivity|].
    split; [constructor; [apply (put_len _ _ _ E)|assumption]|]. split; [simpl; congruence|].
    intros [|b] j; cbn [nth length].
    + rewrite (nth_put _ _ _ j db E). rewrite !Nat2Z.id. replace (0 <? S (length cs))%nat with true by reflexivity.
      simpl andb. reflexivity.
    + rewrite R4. replace (S b <? S (length cs))%nat with (b <? length cs)%nat by reflexivity. reflexivity.
Qed.

Lemma seq_snoc : forall n, seq 0 (S n) = seq 0 n ++ [n].
Proof. intros. rewrite seq_S. reflexivity. Qed.

Lemma map_ext_nth : forall (f : nat -> Z * list B) ks g,
  (forall t, (t < length ks)%nat -> f (nth t ks 0%nat) = g t) -> map f ks = map g (seq 0 (length ks)).
Proof.
  intros f ks g H. apply nth_ext with (d := f 0%nat) (d' := g 0%nat); rewrite !map_length, ?seq_length; [reflexivity|].
  intros t Ht. rewrite !map_nth, seq_nth by assumption. apply H. assumption.
Qed.

Lemma unique_loop_ok : forall n k clrx0 cols0 clrx cols L,
  let ks := filter (first_of_run clrx0) (seq 0 k) in
  (1 <= k)%nat -> (k + n <= L)%nat ->
  length clrx0 = L -> length clrx = L -> Forall (fun c => length c = L) cols0 ->
  Forall (fun c => length c = L) cols -> length cols = length cols0 -> (1 <= length ks <= k)%nat ->
  (forall t, (t < length ks)%nat -> row_at 0 db clrx cols t = row_at 0 db clrx0 cols0 (nth t ks 0%nat)) ->
  (forall j, (k - 1 <= j < L)%nat -> row_at 0 db clrx cols j = row_at 0 db clrx0 cols0 j) ->
  let ks' := filter (first_of_run clrx0) (seq 0 (k + n)) in
  exists clrx' cols', unique_loop n (Z.of_nat k) (Z.of_nat (length ks)) clrx cols
     = Ok (clrx', cols', Z.of_nat (length ks')) /\
    length clrx' = L /\ length cols' = length cols0 /\ Forall (fun c => length c = L) cols' /\
    (length ks' <= k + n)%nat /\
    map (row_at 0 db clrx' cols') (seq 0 (length ks')) = map (row_at 0 db clrx0 cols0) ks'.
Proof.
  induction n; intros k clrx0 cols0 clrx cols L ks Hk HkL HL0 HL HF0 HF Hcl Hlen Hdone Hrest ks'.
  - exists clrx, cols. unfold ks'. rewrite Nat.add_0_r. cbn [unique_loop]. split; [reflexivity|].
    repeat split; auto; try lia. unfold ks in Hlen; lia.
    symmetry. apply map_ext_nth. intros t Ht. symmetry. apply Hdone. assumption.
  - cbn [unique_loop].
    assert (Rk : forall j, (k - 1 <= j < L)%nat -> nth j clrx 0 = nth j clrx0 0).
    { intros j Hj. specialize (Hrest j Hj). unfold row_at in Hrest. congruence. }
    rewrite (get_ok _ 0) by (unfold zlen; lia). rewrite (get_ok _ 0) by (unfold zlen; lia). cbn [bind].
    rewrite Nat2Z.id. replace (Z.to_nat (Z.of_nat k - 1)) with (k - 1)%nat by lia.
    rewrite !Rk by lia.
    assert (FR : first_of_run clrx0 k = negb (nth k clrx0 0 =? nth (k - 1) clrx0 0)).
    { destruct k; [lia|]. simpl. rewrite Nat.sub_0_r. reflexivity. }
    assert (KS : filter (first_of_run clrx0) (seq 0 (S k)) = ks ++ if first_of_run clrx0 k then [k] else []).
    { rewrite seq_snoc, filter_app. unfold ks. reflexivity. }
    unfold ks'. replace (k + S n)%nat with (S k + n)%nat by lia.
    replace (Z.of_nat k + 1) with (Z.of_nat (S k)) by lia.
    destruct (nth k clrx0 0 =? nth (k - 1) clrx0 0) eqn:E; simpl negb in FR; rewrite FR in KS.
    + rewrite app_nil_r in KS.
      specialize (IHn (S k) clrx0 cols0 clrx cols L). cbn zeta in IHn. rewrite KS in IHn.
      apply IHn; auto; try lia. intros j Hj. apply Hrest. lia.
    + destruct (put clrx (Z.of_nat (length ks)) (nth k clrx0 0)) as [clrx1| | |] eqn:EP;
        try (rewrite put_ok in EP by (unfold zlen; lia); discriminate).
      cbn [bind]. destruct (@copy_bands_ok cols L (length ks) k HF) as (cols1 & C1 & C2 & C3 & C4); [lia|lia|].
      rewrite C1. cbn [bind].
      assert (L1 : length (ks ++ [k]) = S (length ks)) by (rewrite app_length; simpl; lia).
      assert (ROW : forall j, row_at 0 db clrx1 cols1 j =
         if (j =? length ks)%nat then row_at 0 db clrx cols k else row_at 0 db clrx cols j).
      { intros j. unfold row_at. rewrite (nth_put _ _ _ j 0 EP), Nat2Z.id.
        assert (M : map (fun c => nth j c db) cols1 =
            map (fun c => nth (if (j =? length ks)%nat then k else j) c db) cols).
        { apply nth_ext with (d := nth j [] db) (d' := nth (if (j =? length ks)%nat then k else j) [] db);
            rewrite !map_length; [assumption|].
          intros b Hb. rewrite (map_nth (fun c => nth j c db)).
          rewrite (map_nth (fun c => nth (if (j =? length ks)%nat then k else j) c db)).
          rewrite C4. replace (b <? length cols)%nat with true by lia. simpl andb.
          destruct (j =? length ks)%nat; reflexivity. }
        rewrite M. destruct (j =? length ks)%nat; [|reflexivity]. rewrite Rk by lia. reflexivity. }
      replace (Z.of_nat (length ks) + 1) with (Z.of_nat (length (ks ++ [k]))) by lia.
      specialize (IHn (S k) clrx0 cols0 clrx1 cols1 L). cbn zeta in IHn. rewrite KS in IHn.
      apply IHn; auto; try lia.
      * rewrite (put_len _ _ _ EP). assumption.
      * intros t Ht. rewrite ROW. destruct (Nat.eqb_spec t (length ks)) as [Et|Et].
        -- subst t. rewrite app_nth2, Nat.sub_diag by lia. simpl. apply Hrest. lia.
        -- rewrite app_nth1 by lia. apply Hdone. lia.
      * intros j Hj. rewrite ROW. destruct (Nat.eqb_spec j (length ks)) as [Ej|Ej].
        -- assert (j = k) by lia. subst j. rewrite H. apply Hrest. lia.
        -- apply Hrest. lia.
Qed.
End UniqueProof.

(** C41: exactly the first row (date and band values) of each run of equal
    dates is kept, in order, and their number is reported. *)
Theorem C41_unique : forall (B : Type) (db : B) (clrx : list Z) (cols : list (list B)) nums,
  (1 <= nums <= length clrx)%nat -> Forall (fun c => length c = length clrx) cols ->
  let kept := filter (first_of_run clrx) (seq 0 nums) in
  exists clrx' cols', matlab_unique clrx cols nums = Ok (clrx', cols', Z.of_nat (length kept)) /\
    length clrx' = length clrx /\ length cols' = length cols /\
    Forall (fun c => length c = length clrx) cols' /\
    map (row_at 0 db clrx' cols') (seq 0 (length kept)) = map (row_at 0 db clrx cols) kept.
Proof.
  intros B db clrx cols nums Hn HF kept.
  destruct (@unique_loop_ok B db (nums - 1) 1 clrx cols clrx cols (length clrx)) as (c' & l' & H1 & H2 & H3 & H4 & H5 & H6);
    auto; try (simpl; lia).
  - intros t Ht. assert (t = 0%nat) by (simpl in Ht; lia). subst. reflexivity.
  - exists c', l'. unfold matlab_unique. cbn zeta in H1, H6.
    replace (1 + (nums - 1))%nat with nums in * by lia.
    change (filter (first_of_run clrx) (seq 0 1)) with [0%nat] in H1.
    split; [exact H1|]. split; [assumption|]. split; [assumption|]. split; [assumption|]. exact H6.
Qed.
Print Assumptions C41_unique.

Example unique_case :
  matlab_unique [10; 10; 20; 20; 20; 30] [[1; 2; 3; 4; 5; 6]] 6
  = Ok ([10; 20; 30; 20; 20; 30], [[1; 3; 6; 4; 5; 6]], 3).
Proof. vm_compute. reflexivity. Qed.

(** For an empty array one observation is reported. *)
Theorem C41_empty_refuted : exists c (b : list (list Z)), matlab_unique [] [] 0 = Ok (c, b, 1).
Proof. exists [], []. reflexivity. Qed.

(** ** Variogram *)

Lemma abs_diffs_ok : forall n row start, (start + n < length row)%nat ->
  abs_diffs row (Z.of_nat start) n
  = Ok (map (fun k => Z.abs (nth (S k) row 0 - nth k row 0)) (seq start n)).
Proof.
  induction n; intros row start H; [reflexivity|]. cbn [abs_diffs].
  rewrite (get_ok _ 0) by (unfold zlen; lia). rewrite (get_ok _ 0) by (unfold zlen; lia). cbn [bind].
  replace (Z.of_nat start + 1) with (Z.of_nat (S start)) by lia. rewrite IHn by lia. cbn [bind].
  rewrite !Nat2Z.id. reflexivity.
Qed.

Lemma diffs_slice : forall (row : list Z) start n, (start + n < length row)%nat ->
  map (fun k => Z.abs (nth (S k) row 0 - nth k row 0)) (seq start n)
  = successive (firstn (S n) (skipn start row)).
Proof.
  intros row start n H. unfold successive. rewrite firstn_length, skipn_length.
  replace (Nat.min (S n) (length row - start) - 1)%nat with n by lia.
  apply nth_ext with (d := 0) (d' := 0); rewrite !map_length, !seq_length; [reflexivity|].
  intros k Hk.
  set (f := fun k0 : nat => Z.abs (nth (S k0) row 0 - nth k0 row 0)).
  set (g := fun k0 : nat => Z.abs (nth (S k0) (firstn (S n) (skipn start row)) 0 - nth k0 (firstn (S n) (skipn start row)) 0)).
  rewrite (nth_indep _ 0 (f 0%nat)) by (rewrite map_length, seq_length; assumption).
  rewrite (nth_indep (map g _) 0 (g 0%nat)) by (rewrite map_length, seq_length; assumption).
  rewrite !map_nth, !seq_nth by assumption. unfold f, g.
  rewrite !nth_firstn, !nth_skipn by lia. repeat f_equal; lia.
Qed.

Lemma vario_bands_ok : forall bands start n b output, (0 < n)%nat ->
  Forall (fun row => (start + n < length row)%nat) bands -> (b + length bands <= length output)%nat ->
  exists o, vario_bands bands (Z.of_nat start) n (Z.of_nat b) output = Ok o /\ length o = length output /\
    (forall k, (k < length bands)%nat ->
       twice_median (successive (firstn (S n) (skipn start (nth k bands [])))) (nth (b + k) o 0)) /\
    (forall k, (k < b \/ b + length bands <= k)%nat -> nth k o 0 = nth k output 0).
Proof.
  induction bands as [|row rest IH]; intros start n b output Hn HF Hl.
  - exists output. split; [reflexivity|]. split; [reflexivity|]. split; [intros k Hk; simpl in Hk; lia|auto].
  - inversion HF; subst. cbn [vario_bands]. rewrite abs_diffs_ok by assumption. cbn [bind].
    rewrite diffs_slice by assumption.
    set (var := successive (firstn (S n) (skipn start row))).
    assert (Hv : var <> []).
    { unfold var. rewrite <- diffs_slice by assumption. destruct n; [lia|]. discriminate. }
    destruct (sorted_median_ok Hv) as (v & m & S1 & _ & _ & S2). rewrite S1. cbn [bind].
    cbn [length] in Hl.
    destruct (put output (Z.of_nat b) m) as [o1| | |] eqn:E;
      try (rewrite put_ok in E by (unfold zlen; lia); discriminate).
    cbn [bind]. replace (Z.of_nat b + 1) with (Z.of_nat (S b)) by lia.
    pose proof (put_len _ _ _ E) as L1.
    destruct (IH start n (S b) o1) as (o & O1 & O2 & O3 & O4); auto; [lia|].
    exists o. split; [assumption|]. split; [congruence|]. split.
    + intros [|k] Hk; cbn [nth length] in *.
      * rewrite Nat.add_0_r, O4 by lia. rewrite (nth_put _ _ _ b 0 E), Nat2Z.id, Nat.eqb_refl. assumption.
      * replace (b + S k)%nat with (S b + k)%nat by lia. apply O3. lia.
    + intros k Hk. cbn [length] in Hk. rewrite O4 by lia. rewrite (nth_put _ _ _ k 0 E), Nat2Z.id.
      destruct (Nat.eqb_spec k b); [lia|reflexivity].
Qed.

(** C65: with at least two observations, every band's entry is the median of
    the absolute successive differences of that band in the range, the date
    entry the same for the dates, and the largest gap is reported. *)
Theorem C65_variogram : forall clrx bands start n dv0 mx0 output,
  (0 < n)%nat -> (start + n < length clrx)%nat ->
  Forall (fun row => (start + n < length row)%nat) bands -> length output = length bands ->
  exists dv mx o,
    variogram clrx bands (Z.of_nat start) (Z.of_nat (start + n)) dv0 mx0 output = Ok (dv, mx, o) /\
    twice_median (successive (firstn (S n) (skipn start clrx))) dv /\
    In mx (successive (firstn (S n) (skipn start clrx))) /\
    (forall g, In g (successive (firstn (S n) (skipn start clrx))) -> g <= mx) /\
    length o = length bands /\
    (forall b, (b < length bands)%nat ->
       twice_median (successive (firstn (S n) (skipn start (nth b bands [])))) (nth b o 0)).
Proof.
  intros clrx bands start n dv0 mx0 output Hn Hc HF Hl.
  unfold variogram.
  replace (Z.of_nat (start + n) - Z.of_nat start + 1) with (Z.of_nat n + 1) by lia.
  replace (Z.of_nat n + 1 =? 0) with false by lia. replace (Z.of_nat n + 1 =? 1) with false by lia.
  cbn [andb]. replace (Z.to_nat (Z.of_nat n + 1 - 1)) with n by lia.
  rewrite abs_diffs_ok by assumption. cbn [bind]. rewrite diffs_slice by assumption.
  set (var := successive (firstn (S n) (skipn start clrx))).
  assert (Lv : length var = n).
  { unfold var. rewrite <- diffs_slice by assumption. rewrite map_length, seq_length. reflexivity. }
  assert (Hv : var <> []) by (intros E; rewrite E in Lv; simpl in Lv; lia).
  destruct (sorted_median_ok Hv) as (v & m & S1 & S2 & S3 & S4). rewrite S1. cbn [bind].
  assert (Lv' : length v = n) by (rewrite <- (Permutation_length S2); assumption).
  rewrite (get_ok _ 0) by (unfold zlen; lia). cbn [bind].
  destruct (@vario_bands_ok bands start n 0 output Hn HF) as (o & O1 & O2 & O3 & O4); [lia|].
  change (Z.of_nat 0) with 0 in O1. rewrite O1. cbn [bind].
  replace (Z.to_nat (Z.of_nat n + 1 - 2)) with (n - 1)%nat by lia.
  exists m, (nth (n - 1) v 0), o. split; [reflexivity|]. split; [assumption|].
  split. { apply (Permutation_in _ (Permutation_sym S2)), nth_In. lia. }
  split. { intros g Hg. apply (Permutation_in _ S2) in Hg. destruct (In_nth _ _ 0 Hg) as (k & Hk & <-).
           apply asc_nth; [assumption|lia]. }
  split; [congruence|]. intros b Hb. apply (O3 b Hb).
Qed.
Print Assumptions C65_variogram.

(** With a single observation only the first band's entry is written and the
    largest gap is left as it was. *)
Theorem C65_single_refuted : exists clrx bands mx0 output dv o,
  variogram clrx bands 0 0 0 mx0 output = Ok (dv, mx0, o) /\
  length output = length bands /\ nth 1 o 0 = nth 1 output 0 /\ nth 1 output 0 = -77.
Proof.
  exists [730000], [[100]; [200]; [300]], 5, [-77; -77; -77]. do 2 eexists.
  split; [vm_compute; reflexivity|]. repeat split.
Qed.

Example vario_case :
  variogram [0; 16; 48; 64; 0] [[100; 130; 90; 95]; [1; 2; 4; 8]] 0 3 0 0 [0; 0] = Ok (32, 32, [60; 4]).
Proof. vm_compute. reflexivity. Qed.

(** ** Two-dimensional arrays *)

(** C42: on a machine with 8-byte pointers and 8-byte doubles, if the sizes
    fit, row [r] is [columns * member] bytes inside the allocated block,
    behind the header and the table of row pointers, and different rows do
    not overlap. *)
Theorem C42_rows_disjoint : forall rows columns member size,
  0 < rows -> 0 <= columns -> 0 < member ->
  header_size + rows * 8 + rows * columns * member + 16 < 18446744073709551616 ->
  alloc_size rows columns member = Ok size ->
  (forall r, 0 <= r < rows ->
     header_size + rows * 8 <= row_offset 8 rows columns member r /\
     row_offset 8 rows columns member r + columns * member <= size) /\
  (forall r r', 0 <= r < r' -> r' < rows ->
     row_offset 8 rows columns member r + columns * member <= row_offset 8 rows columns member r').
Proof.
  intros rows columns member size Hr Hc Hm Hs Ha. unfold alloc_size in Ha.
  destruct ((rows * columns <=? 2147483647) && (-2147483648 <=? rows * columns)); [|discriminate].
  assert (P : 0 <= rows * columns * member) by (apply Z.mul_nonneg_nonneg; [apply Z.mul_nonneg_nonneg|]; lia).
  assert (Hsz : size = header_size + rows * 8 + rows * columns * member + 16).
  { assert (H : wrap64 (header_size + wrap64 (rows * 8) + wrap64 (rows * columns * member) + 16) = size) by congruence.
    rewrite <- H. unfold wrap64, header_size in *.
    rewrite (Z.mod_small (rows * 8)) by lia.
    rewrite (Z.mod_small (rows * columns * member)) by lia. rewrite Z.mod_small by lia. reflexivity. }
  clear Ha. subst size. unfold row_offset, data_offset.
  replace (8 * (rows * 8 / 8 + (if rows mod 2 =? 1 then 1 else 0))) with
    (rows * 8 + (if rows mod 2 =? 1 then 8 else 0)) by (destruct (rows mod 2 =? 1); lia).
  set (w := columns * member) in *.
  assert (Hw : 0 <= w) by (apply Z.mul_nonneg_nonneg; lia).
  assert (Pad : 0 <= (if rows mod 2 =? 1 then 8 else 0) <= 8) by (destruct (rows mod 2 =? 1); lia).
  set (pad := if rows mod 2 =? 1 then 8 else 0) in *. clearbody pad.
  assert (Ew : forall r, r * columns * member = r * w) by (intros; unfold w; ring).
  split.
  - intros r H. rewrite !Ew.
    assert (0 <= r * w) by (apply Z.mul_nonneg_nonneg; lia).
    assert ((r + 1) * w <= rows * w) by (apply Z.mul_le_mono_nonneg_r; lia). lia.
  - intros r r' H H'. rewrite !Ew.
    assert ((r + 1) * w <= r' * w) by (apply Z.mul_le_mono_nonneg_r; lia). lia.
Qed.
Print Assumptions C42_rows_disjoint.

(** The rows start at multiples of 16 bytes, and every element at a multiple of
    its own size when that divides 16 (malloc returns multiples of 16). *)
Theorem C42_aligned : forall rows columns member r c, 0 <= rows -> 0 < member -> (member | 16) ->
  (16 | row_offset 8 rows columns member 0) /\ (member | row_offset 8 rows columns member r + c * member).
Proof.
  intros rows columns member r c Hr Hm [k Hk]. unfold row_offset, data_offset, header_size.
  assert (H16 : (16 | 32 + 8 * (rows * 8 / 8 + (if rows mod 2 =? 1 then 1 else 0)))).
  { rewrite Z.div_mul by lia. pose proof (Z.div_mod rows 2 ltac:(lia)) as E. pose proof (Z.mod_pos_bound rows 2 ltac:(lia)).
    exists (2 + rows / 2 + rows mod 2). destruct (rows mod 2 =? 1) eqn:E1; lia. }
  split.
  - replace (0 * columns * member) with 0 by ring. rewrite Z.add_0_r. exact H16.
  - apply Z.divide_add_r; [apply Z.divide_add_r|]; try (apply Z.divide_mul_r; apply Z.divide_refl).
    apply Z.divide_trans with 16; [exists k; lia|exact H16].
Qed.
Print Assumptions C42_aligned.

(** [rows * columns] is computed in [int]. *)
Theorem C42_int_overflow_refuted : exists rows columns,
  0 < rows /\ 0 < columns <= 2147483647 /\ alloc_size rows columns 4 = UB.
Proof. exists 8, 300000000. repeat split; vm_compute; congruence. Qed.

Example alloc_case : alloc_size 7 100 4 = Ok 2904 /\ row_offset 8 7 100 4 6 = 2496 /\ (4 | 16).
Proof. repeat split. exists 4. reflexivity. Qed.
