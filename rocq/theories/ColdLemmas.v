(** List and weakest-precondition lemmas used by the COLD proofs. *)
From Verif Require Import Base ColdModel.

Definition dflt_obs : obs := mkObs 0 [].
Definition nthO (l : list obs) (k : Z) : obs := nth (Z.to_nat k) l dflt_obs.
Definition dat (l : list obs) (k : Z) : Z := o_date (nthO l k).
Definition asc (l : list obs) : Prop := ascending (map o_date l).

(** Weakest precondition: [safe] is the condition under which undefined
    behaviour is excluded. *)
Definition wp {A} (safe : Prop) (x : out A) (Q : A -> Prop) : Prop :=
  match x with Ok a => Q a | Fail => True | UB => ~ safe | Fuel => False end.

Lemma wp_bind : forall A B safe (x : out A) (f : A -> out B) Q,
  wp safe x (fun a => wp safe (f a) Q) -> wp safe (bind x f) Q.
Proof. intros A B safe [a| | |] f Q H; simpl in *; auto. Qed.

Lemma wp_mono : forall A safe (x : out A) (Q Q' : A -> Prop),
  wp safe x Q -> (forall a, Q a -> Q' a) -> wp safe x Q'.
Proof. intros A safe [a| | |] Q Q' H HQ; simpl in *; auto. Qed.

Lemma wp_of_opt : forall A safe (x : option A) (Q : A -> Prop),
  (forall a, x = Some a -> Q a) -> wp safe (of_opt x) Q.
Proof. intros A safe [a|] Q H; simpl; auto. Qed.

Lemma wp_get : forall safe (l : list obs) i (Q : obs -> Prop),
  0 <= i < zlen l -> Q (nthO l i) -> wp safe (get l i) Q.
Proof. intros. rewrite get_ok with (d := dflt_obs) by assumption. exact H0. Qed.

Lemma wp_slice : forall A safe (l : list A) a n (Q : list A -> Prop),
  0 <= a -> 0 <= n -> a + n <= zlen l ->
  Q (firstn (Z.to_nat n) (skipn (Z.to_nat a) l)) -> wp safe (slice l a n) Q.
Proof. intros. rewrite slice_ok by assumption. assumption. Qed.

Lemma zlen_app : forall A (l1 l2 : list A), zlen (l1 ++ l2) = zlen l1 + zlen l2.
Proof. intros. unfold zlen. rewrite app_length. lia. Qed.
Lemma zlen_map : forall A B (f : A -> B) l, zlen (map f l) = zlen l.
Proof. intros. unfold zlen. rewrite map_length. reflexivity. Qed.
Lemma zlen_nonneg : forall A (l : list A), 0 <= zlen l.
Proof. intros. unfold zlen. lia. Qed.
Lemma zlen_del : forall A k (l : list A), 0 <= k < zlen l -> zlen (del (Z.to_nat k) l) = zlen l - 1.
Proof. intros. unfold zlen in *. rewrite del_length by lia. lia. Qed.
Lemma zlen_cons : forall A (a : A) l, zlen (a :: l) = 1 + zlen l.
Proof. intros. unfold zlen. cbn [length]. lia. Qed.
Lemma zlen_firstn : forall A k (l : list A), 0 <= k <= zlen l -> zlen (firstn (Z.to_nat k) l) = k.
Proof. intros. unfold zlen in *. rewrite firstn_length. lia. Qed.
Lemma zlen_skipn : forall A k (l : list A), 0 <= k <= zlen l -> zlen (skipn (Z.to_nat k) l) = zlen l - k.
Proof. intros. unfold zlen in *. rewrite skipn_length. lia. Qed.

(** In an ascending list the k-th element of a subsequence is not smaller
    than the k-th element of the list. *)
Lemma subseq_nth_ge : forall (l1 l2 : list Z), subseq l1 l2 -> ascending l2 ->
  forall k d, (k < length l1)%nat -> nth k l2 d <= nth k l1 d.
Proof.
  intros l1 l2 H. induction H; intros Hs k d Hk.
  - simpl in Hk. lia.
  - destruct k; simpl; [lia|]. apply IHsubseq; [inversion Hs; assumption|]. simpl in Hk. lia.
  - assert (Hs' : ascending l2) by (inversion Hs; assumption).
    specialize (IHsubseq Hs'). pose proof (subseq_length H) as Hlen.
    etransitivity; [|apply IHsubseq; assumption].
    assert (Hlt : forall k, (k < length l2)%nat -> nth k (a :: l2) d <= nth k l2 d).
    { intros k' Hk'. destruct k'.
      - simpl. inversion Hs; subst. rewrite Forall_forall in H3. 
        destruct l2; [simpl in Hk'; lia|]. simpl. assert (a < z) by (apply H3; left; reflexivity). lia.
      - pose proof (@ascending_nth (a :: l2) (S k') (S (S k')) d Hs). simpl in *. lia. }
    apply Hlt. lia.
Qed.

Lemma dat_map : forall l k, dat l k = nth (Z.to_nat k) (map o_date l) 0.
Proof. intros. unfold dat, nthO. rewrite <- (map_nth o_date). reflexivity. Qed.

Lemma dat_sub_ge : forall l1 l2 k, subseq l1 l2 -> asc l2 -> 0 <= k < zlen l1 -> dat l2 k <= dat l1 k.
Proof.
  intros. rewrite !dat_map. apply subseq_nth_ge; auto.
  - apply subseq_map; assumption.
  - rewrite map_length. unfold zlen in *. lia.
Qed.

Lemma dat_lt : forall l a b, asc l -> 0 <= a < b -> b < zlen l -> dat l a < dat l b.
Proof.
  intros. rewrite !dat_map. apply ascending_nth; auto; try lia.
  rewrite map_length. unfold zlen in *. lia.
Qed.
Lemma dat_le : forall l a b, asc l -> 0 <= a <= b -> b < zlen l -> dat l a <= dat l b.
Proof.
  intros. destruct (Z.eq_dec a b); [subst; lia|].
  pose proof (@dat_lt l a b H). lia.
Qed.

Lemma asc_sub : forall l1 l2, subseq l1 l2 -> asc l2 -> asc l1.
Proof. intros. eapply subseq_ascending; [apply subseq_map; eassumption|assumption]. Qed.

Lemma In_dat : forall l k, 0 <= k < zlen l -> In (dat l k) (map o_date l).
Proof.
  intros. rewrite dat_map. apply nth_In. rewrite map_length. unfold zlen in *. lia.
Qed.

Lemma In_nthO : forall l k, 0 <= k < zlen l -> In (nthO l k) l.
Proof. intros. unfold nthO. apply nth_In. unfold zlen in *. lia. Qed.

Lemma nthO_del : forall l k n, 0 <= k < zlen l -> 0 <= n ->
  nthO (del (Z.to_nat k) l) n = if n <? k then nthO l n else nthO l (n + 1).
Proof.
  intros. unfold nthO. rewrite nth_del by (unfold zlen in *; lia).
  destruct (n <? k) eqn:E.
  - replace (Z.to_nat n <? Z.to_nat k)%nat with true; [reflexivity|]. symmetry. apply Nat.ltb_lt. lia.
  - replace (Z.to_nat n <? Z.to_nat k)%nat with false.
    + f_equal. lia.
    + symmetry. apply Nat.ltb_ge. lia.
Qed.

Lemma keep_sub : forall f w k, subseq (keep_from f k w) w.
Proof.
  induction w; intros; simpl; [constructor|].
  destruct (f k); [apply sub_drop|apply sub_keep]; apply IHw.
Qed.

Lemma firstn_skipn_mid : forall A (l : list A) a n,
  l = firstn a l ++ firstn n (skipn a l) ++ skipn (a + n) l.
Proof.
  intros. replace (skipn (a + n) l) with (skipn n (skipn a l)).
  - rewrite firstn_skipn, firstn_skipn. reflexivity.
  - revert l. induction a; intros; [reflexivity|]. destruct l; [destruct n; reflexivity|]. simpl. apply IHa.
Qed.

Lemma subseq_mid : forall A (l w' : list A) a n,
  subseq w' (firstn n (skipn a l)) -> subseq (firstn a l ++ w' ++ skipn (a + n) l) l.
Proof.
  intros. rewrite (firstn_skipn_mid l a n) at 3.
  apply subseq_app; [apply subseq_refl|]. apply subseq_app; [assumption|apply subseq_refl].
Qed.

Lemma nthO_app1 : forall l1 l2 k, 0 <= k < zlen l1 -> nthO (l1 ++ l2) k = nthO l1 k.
Proof. intros. unfold nthO. apply app_nth1. unfold zlen in *. lia. Qed.
Lemma nthO_app2 : forall l1 l2 k, zlen l1 <= k -> nthO (l1 ++ l2) k = nthO l2 (k - zlen l1).
Proof. intros. unfold nthO, zlen in *. rewrite app_nth2 by lia. f_equal. lia. Qed.
Lemma nthO_firstn : forall l m k, 0 <= k < m -> nthO (firstn (Z.to_nat m) l) k = nthO l k.
Proof. intros. unfold nthO. apply nth_firstn. lia. Qed.
Lemma nthO_skipn : forall l m k, 0 <= m -> 0 <= k -> nthO (skipn (Z.to_nat m) l) k = nthO l (m + k).
Proof. intros. unfold nthO. rewrite nth_skipn. f_equal. lia. Qed.

(** first_ge finds the first position whose date reaches the bound. *)
Lemma first_ge_spec : forall b l k j, first_ge b l k = Some j ->
  k < j <= k + zlen l /\ b <= dat l (j - k - 1) /\ (forall p, 0 <= p < j - k - 1 -> dat l p < b).
Proof.
  intros b l. induction l; intros k j H; simpl in H; [discriminate|].
  destruct (b <=? o_date a) eqn:E.
  - inversion H; subst. rewrite zlen_cons. pose proof (zlen_nonneg l).
    replace (k + 1 - k - 1) with 0 by lia. split; [lia|]. split; [unfold dat, nthO; simpl; lia|]. intros; lia.
  - apply IHl in H. rewrite zlen_cons. destruct H as (H1 & H2 & H3). split; [lia|].
    assert (Hd : forall p, 0 <= p -> dat (a :: l) (p + 1) = dat l p).
    { intros p Hp. unfold dat, nthO. replace (Z.to_nat (p + 1)) with (S (Z.to_nat p)) by lia. reflexivity. }
    split.
    + replace (j - k - 1) with ((j - (k + 1) - 1) + 1) by lia. rewrite Hd by lia. assumption.
    + intros p Hp. destruct (Z.eq_dec p 0).
      * subst. unfold dat, nthO. simpl. lia.
      * replace p with ((p - 1) + 1) by lia. rewrite Hd by lia. apply H3. lia.
Qed.

Lemma first_ge_le : forall b l k p, 0 <= p < zlen l -> b <= dat l p ->
  exists j, first_ge b l k = Some j /\ j <= k + p + 1.
Proof.
  intros b l. induction l; intros k p Hp Hb; [unfold zlen in Hp; simpl in Hp; lia|].
  simpl. destruct (b <=? o_date a) eqn:E.
  - exists (k + 1). split; [reflexivity|lia].
  - destruct (Z.eq_dec p 0).
    + subst. unfold dat, nthO in Hb. simpl in Hb. lia.
    + rewrite zlen_cons in Hp.
      destruct (IHl (k + 1) (p - 1)) as (j & Hj & Hle); [lia| |].
      * unfold dat, nthO in *. replace (Z.to_nat p) with (S (Z.to_nat (p - 1))) in Hb by lia. exact Hb.
      * exists j. split; [assumption|lia].
Qed.

Lemma first_ge_app : forall b l1 l2 k j, first_ge b l1 k = Some j -> first_ge b (l1 ++ l2) k = Some j.
Proof.
  intros b l1 l2. induction l1; intros k j H; simpl in *; [discriminate|].
  destruct (b <=? o_date a); auto.
Qed.

(** Index reads *)
Lemma wp_mapM_idx : forall safe l f n k (Q : list obs -> Prop),
  (forall c, (k <= c < k + n)%nat -> 0 <= f c < zlen l) ->
  Q (map (fun c => nthO l (f c)) (seq k n)) -> wp safe (mapM_idx l f k n) Q.
Proof.
  intros safe l f n. induction n; intros k Q Hr HQ; simpl; [exact HQ|].
  apply wp_bind. apply wp_get; [apply Hr; lia|].
  apply wp_bind. apply IHn; [intros; apply Hr; lia|]. exact HQ.
Qed.

Lemma map_seq_firstn_skipn : forall l i n, 0 <= i -> 0 <= n -> i + n <= zlen l ->
  map (fun c => nthO l (i + (Z.of_nat c + 1) - 1)) (seq 0 (Z.to_nat n)) =
  firstn (Z.to_nat n) (skipn (Z.to_nat i) l).
Proof.
  intros l i n Hi Hn Hl.
  apply nth_ext with (d := nthO l (i + (Z.of_nat 0 + 1) - 1)) (d' := dflt_obs).
  - rewrite map_length, seq_length, firstn_length, skipn_length. unfold zlen in Hl. lia.
  - intros k Hk. rewrite map_length, seq_length in Hk.
    rewrite (map_nth (fun c => nthO l (i + (Z.of_nat c + 1) - 1))).
    rewrite seq_nth by lia. rewrite nth_firstn by lia. rewrite nth_skipn.
    unfold nthO. f_equal. lia.
Qed.
