(** Shared vocabulary: outcomes, checked array access, float comparisons.

    Nothing in this file is specific to one routine of /repo; the notions
    below are what the C code uses implicitly. *)
From Coq Require Export List ZArith Lia Bool Arith Sorted Permutation.
From Coq Require Export ZifyBool ZifyNat.
Export ListNotations.
#[global] Open Scope Z_scope.
#[global] Set Implicit Arguments.
Ltac Zify.zify_post_hook ::= Z.div_mod_to_equations.

(** Outcome of a piece of C code.  [Fail]: the code returns an error status
    (ERROR/FAILURE, src/cxx/const.h).  [UB]: an access outside the live part
    of an array, a read of an indeterminate variable or an undefined
    conversion.  [Fuel]: the model's loop bound was too small (an artefact
    that termination theorems exclude). *)
Inductive out (A : Type) : Type := Ok (a : A) | Fail | UB | Fuel.
Arguments Ok {A} a.  Arguments Fail {A}.  Arguments UB {A}.  Arguments Fuel {A}.

Definition bind {A B} (x : out A) (f : A -> out B) : out B :=
  match x with Ok a => f a | Fail => Fail | UB => UB | Fuel => Fuel end.
Notation "x <- e ;; k" := (bind e (fun x => k))
  (at level 61, e at next level, right associativity).
Notation "' p <- e ;; k" := (bind e (fun p => k))
  (at level 61, p pattern, e at next level, right associativity).

Definition of_opt {A} (x : option A) : out A :=
  match x with Some a => Ok a | None => Fail end.

(** C array read with the bounds check made visible. *)
Definition get {A} (l : list A) (i : Z) : out A :=
  if (i <? 0) then UB
  else match nth_error l (Z.to_nat i) with Some a => Ok a | None => UB end.

(** Reading the [n] cells starting at [a]. *)
Definition slice {A} (l : list A) (a n : Z) : out (list A) :=
  if (0 <=? a) && (0 <=? n) && (a + n <=? Z.of_nat (length l))
  then Ok (firstn (Z.to_nat n) (skipn (Z.to_nat a) l)) else UB.

Definition zlen {A} (l : list A) : Z := Z.of_nat (length l).

(** C array write with the bounds check made visible. *)
Definition put {A} (l : list A) (i : Z) (v : A) : out (list A) :=
  if (0 <=? i) && (i <? zlen l)
  then Ok (firstn (Z.to_nat i) l ++ v :: skipn (S (Z.to_nat i)) l) else UB.

(** Removing the element at position [k]. *)
Definition del {A} (k : nat) (l : list A) : list A := firstn k l ++ skipn (S k) l.

(** Floats as far as comparisons go: NaN, or a finite value / infinity
    represented by its image under an order embedding into Z. *)
Inductive fl : Type := NaN | Fin (z : Z).
Definition flt (a b : fl) : bool := match a, b with Fin x, Fin y => x <? y | _, _ => false end.
Definition fle (a b : fl) : bool := match a, b with Fin x, Fin y => x <=? y | _, _ => false end.
Notation fgt a b := (flt b a).
Notation fge a b := (fle b a).

(** 16-bit wrap-around of a conversion to C [short]. *)
Definition wrap16 (z : Z) : Z := (z + 32768) mod 65536 - 32768.

(** Subsequence (order preserving, elements unchanged). *)
Inductive subseq {A} : list A -> list A -> Prop :=
| sub_nil : forall l, subseq [] l
| sub_keep : forall a l1 l2, subseq l1 l2 -> subseq (a :: l1) (a :: l2)
| sub_drop : forall a l1 l2, subseq l1 l2 -> subseq l1 (a :: l2).

(** Strictly increasing list. *)
Definition ascending (l : list Z) : Prop := StronglySorted Z.lt l.

(* ------------------------------------------------------------------ *)
(** * Lemmas *)

Lemma bind_ok : forall A B (x : out A) (f : A -> out B) b,
  bind x f = Ok b -> exists a, x = Ok a /\ f a = Ok b.
Proof. intros A B [a| | |] f b H; simpl in H; try discriminate; eauto. Qed.

Lemma get_ok : forall A (l : list A) i d, 0 <= i < zlen l -> get l i = Ok (nth (Z.to_nat i) l d).
Proof.
  intros A l i d H. unfold get, zlen in *.
  destruct (i <? 0) eqn:E; [lia|].
  rewrite (nth_error_nth' l d) by lia. reflexivity.
Qed.

Lemma get_inv : forall A (l : list A) i a, get l i = Ok a ->
  0 <= i < zlen l /\ nth_error l (Z.to_nat i) = Some a.
Proof.
  intros A l i a. unfold get, zlen. destruct (i <? 0) eqn:E; [discriminate|].
  destruct (nth_error l (Z.to_nat i)) eqn:F; [|discriminate].
  assert (Z.to_nat i < length l)%nat by (apply nth_error_Some; congruence).
  intros H'; inversion H'; subst. split; [lia|reflexivity].
Qed.

Lemma get_total : forall A (l : list A) i, 0 <= i < zlen l -> exists a, get l i = Ok a.
Proof.
  intros A l i H. destruct l as [|d l']; [unfold zlen in H; simpl in H; lia|].
  eexists. apply get_ok with (d := d); assumption.
Qed.

Lemma slice_ok : forall A (l : list A) a n, 0 <= a -> 0 <= n -> a + n <= zlen l ->
  slice l a n = Ok (firstn (Z.to_nat n) (skipn (Z.to_nat a) l)).
Proof.
  intros. unfold slice, zlen in *.
  replace (0 <=? a) with true by lia. replace (0 <=? n) with true by lia.
  replace (a + n <=? Z.of_nat (length l)) with true by lia. reflexivity.
Qed.

Lemma slice_inv : forall A (l : list A) a n w, slice l a n = Ok w ->
  0 <= a /\ 0 <= n /\ a + n <= zlen l /\ w = firstn (Z.to_nat n) (skipn (Z.to_nat a) l).
Proof.
  intros A l a n w H. unfold slice, zlen in *.
  destruct ((0 <=? a) && (0 <=? n) && (a + n <=? Z.of_nat (length l))) eqn:E; [|discriminate].
  inversion H; subst. repeat split; lia.
Qed.

Lemma slice_len : forall A (l : list A) a n w, slice l a n = Ok w -> zlen w = n.
Proof.
  intros A l a n w H. apply slice_inv in H. destruct H as (H1 & H2 & H3 & ->).
  unfold zlen in *. rewrite firstn_length, skipn_length. lia.
Qed.

Lemma nth_skipn : forall A (l : list A) m n d, nth n (skipn m l) d = nth (m + n) l d.
Proof.
  intros A l m. revert l. induction m; intros l n d; [reflexivity|].
  destruct l; [destruct n; reflexivity|]. simpl. apply IHm.
Qed.

Lemma nth_firstn : forall A (l : list A) m n d, (n < m)%nat -> nth n (firstn m l) d = nth n l d.
Proof.
  intros A l m. revert l. induction m; intros l n d H; [lia|].
  destruct l; [destruct n; reflexivity|]. destruct n; [reflexivity|]. simpl. apply IHm. lia.
Qed.

Lemma put_ok : forall A (l : list A) i v, 0 <= i < zlen l ->
  put l i v = Ok (firstn (Z.to_nat i) l ++ v :: skipn (S (Z.to_nat i)) l).
Proof.
  intros. unfold put. replace (0 <=? i) with true by lia.
  replace (i <? zlen l) with true by lia. reflexivity.
Qed.

Lemma put_len : forall A (l : list A) i v l', put l i v = Ok l' -> length l' = length l.
Proof.
  intros A l i v l'. unfold put, zlen.
  destruct ((0 <=? i) && (i <? Z.of_nat (length l))) eqn:E; [|discriminate].
  intros H; assert (Hl : l' = firstn (Z.to_nat i) l ++ v :: skipn (S (Z.to_nat i)) l) by congruence.
  rewrite Hl. clear H Hl. rewrite app_length. cbn [length]. rewrite firstn_length, skipn_length. lia.
Qed.

Lemma nth_put : forall A (l : list A) i v l' j d, put l i v = Ok l' ->
  nth j l' d = if Nat.eqb j (Z.to_nat i) then v else nth j l d.
Proof.
  intros A l i v l' j d. unfold put, zlen.
  destruct ((0 <=? i) && (i <? Z.of_nat (length l))) eqn:E; [|discriminate].
  intros H; assert (Hl' : l' = firstn (Z.to_nat i) l ++ v :: skipn (S (Z.to_nat i)) l) by congruence.
  rewrite Hl'. clear H Hl'.
  assert (Hl : length (firstn (Z.to_nat i) l) = Z.to_nat i) by (rewrite firstn_length; lia).
  destruct (Nat.eqb j (Z.to_nat i)) eqn:F.
  - apply Nat.eqb_eq in F; subst j. rewrite app_nth2; rewrite Hl; [|lia].
    rewrite Nat.sub_diag. reflexivity.
  - apply Nat.eqb_neq in F. destruct (Nat.lt_ge_cases j (Z.to_nat i)).
    + rewrite app_nth1 by lia. apply nth_firstn. lia.
    + rewrite app_nth2; rewrite Hl; [|lia].
      destruct (j - Z.to_nat i)%nat eqn:G; [lia|]. cbn [nth].
      rewrite nth_skipn. f_equal. lia.
Qed.

Lemma wrap16_id : forall z, -32768 <= z <= 32767 -> wrap16 z = z.
Proof. intros. unfold wrap16. rewrite Z.mod_small; lia. Qed.

Lemma wrap16_range : forall z, -32768 <= wrap16 z <= 32767.
Proof. intros. unfold wrap16. pose proof (Z.mod_pos_bound (z + 32768) 65536). lia. Qed.

Lemma del_length : forall A k (l : list A), (k < length l)%nat -> length (del k l) = (length l - 1)%nat.
Proof. intros. unfold del. rewrite app_length, firstn_length, skipn_length. lia. Qed.

Lemma nth_del : forall A k (l : list A) n d, (k < length l)%nat ->
  nth n (del k l) d = if (n <? k)%nat then nth n l d else nth (S n) l d.
Proof.
  intros A k l n d H. unfold del.
  assert (Hl : length (firstn k l) = k) by (rewrite firstn_length; lia).
  destruct (n <? k)%nat eqn:E.
  - rewrite app_nth1 by lia. apply nth_firstn. lia.
  - rewrite app_nth2 by lia. rewrite Hl, nth_skipn. f_equal. lia.
Qed.

(** Subsequences *)
Lemma subseq_refl : forall A (l : list A), subseq l l.
Proof. induction l; constructor; assumption. Qed.

Lemma subseq_trans : forall A (l1 l2 l3 : list A), subseq l1 l2 -> subseq l2 l3 -> subseq l1 l3.
Proof.
  intros A l1 l2 l3 H12 H23. revert l1 H12.
  induction H23; intros l0 H12.
  - inversion H12; constructor.
  - inversion H12; subst; constructor; auto.
  - constructor. auto.
Qed.

Lemma subseq_app : forall A (a b c d : list A), subseq a b -> subseq c d -> subseq (a ++ c) (b ++ d).
Proof.
  intros A a b c d H1 H2. induction H1; simpl.
  - induction l; simpl; [assumption|constructor; assumption].
  - constructor; assumption.
  - constructor; assumption.
Qed.

Lemma subseq_In : forall A (l1 l2 : list A) x, subseq l1 l2 -> In x l1 -> In x l2.
Proof. intros A l1 l2 x H. induction H; simpl; intuition. Qed.

Lemma subseq_length : forall A (l1 l2 : list A), subseq l1 l2 -> (length l1 <= length l2)%nat.
Proof. intros A l1 l2 H. induction H; simpl; lia. Qed.

Lemma subseq_skipn : forall A k (l : list A), subseq (skipn k l) l.
Proof.
  intros A k l. rewrite <- (firstn_skipn k l) at 2.
  change (skipn k l) with ([] ++ skipn k l) at 1.
  apply subseq_app; [constructor|apply subseq_refl].
Qed.

Lemma subseq_firstn : forall A k (l : list A), subseq (firstn k l) l.
Proof.
  intros A k l. rewrite <- (firstn_skipn k l) at 2.
  rewrite <- (app_nil_r (firstn k l)) at 1.
  apply subseq_app; [apply subseq_refl|constructor].
Qed.

Lemma subseq_del : forall A k (l : list A), subseq (del k l) l.
Proof.
  intros A k l. unfold del. rewrite <- (firstn_skipn k l) at 3.
  apply subseq_app; [apply subseq_refl|].
  replace (S k) with (1 + k)%nat by lia. 
  assert (H : skipn (1 + k) l = skipn 1 (skipn k l)).
  { revert l. induction k; intros l; [reflexivity|]. destruct l; [reflexivity|].
    cbn [skipn Nat.add] in *. rewrite <- IHk. reflexivity. }
  rewrite H. apply subseq_skipn.
Qed.

Lemma subseq_map : forall A B (f : A -> B) l1 l2, subseq l1 l2 -> subseq (map f l1) (map f l2).
Proof. intros A B f l1 l2 H. induction H; simpl; constructor; assumption. Qed.

Lemma subseq_ascending : forall l1 l2, subseq l1 l2 -> ascending l2 -> ascending l1.
Proof.
  intros l1 l2 H. unfold ascending. induction H; intros Hs.
  - constructor.
  - inversion Hs; subst. constructor; auto.
    rewrite Forall_forall in *. intros x Hx. apply H3. eapply subseq_In; eassumption.
  - inversion Hs; subst. auto.
Qed.

Lemma ascending_nth : forall l i j d, ascending l -> (i < j)%nat -> (j < length l)%nat -> nth i l d < nth j l d.
Proof.
  unfold ascending. induction l; intros i j d Hs Hij Hj; simpl in *; [lia|].
  inversion Hs; subst. destruct i, j; try lia; simpl.
  - rewrite Forall_forall in H2. apply H2. apply nth_In. lia.
  - apply IHl; auto; lia.
Qed.

Lemma ascending_nth_le : forall l i j d, ascending l -> (i <= j)%nat -> (j < length l)%nat -> nth i l d <= nth j l d.
Proof.
  intros. destruct (Nat.eq_dec i j); [subst; lia|].
  pose proof (@ascending_nth l i j d H). lia.
Qed.
