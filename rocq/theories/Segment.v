(** Object-based analysis: labels of the flood-fill segmentation and the
    change-object decision (src/python/pycold/ob_analyst.py 74-221, 275-430).
    C58, C62. *)
From Coq Require Import QArith.
From Verif Require Import Base.
Local Open Scope Z_scope.

(** ** C58: labels of the superpixels.

    The masks and labels of all pixels, as a list.  [fill i masks p] says
    whether the i-th call of cv2.floodFill reaches the pixel at position p
    given the current masks; it is arbitrary (the image, the tolerances and the
    seed only influence this choice).  OpenCV never repaints a pixel whose mask
    is set, and sets the one-pixel frame around the mask to 1 at every call;
    the code crops the frame afterwards (line 414).  [c_owner] is a ghost: the
    seed whose call painted the pixel. *)
Record cell := mkCell { c_frame : bool; c_mask : Z; c_label : Z; c_owner : option Z }.
Section Flood.
Variable fill : Z -> list Z -> Z -> bool.

(** cv2.floodFill with FLOODFILL_MASK_ONLY and new mask value v (lines
    384-393), at one pixel. *)
Definition paint (i v : Z) (reached : bool) (c : cell) : cell :=
  if c_frame c then mkCell true 1 (c_label c) (c_owner c)
  else if (c_mask c =? 0) && reached then mkCell false v (c_label c) (Some i) else c.
Fixpoint paint_all (i v : Z) (masks : list Z) (p : Z) (l : list cell) : list cell :=
  match l with [] => [] | c :: t => paint i v (fill i masks p) c :: paint_all i v masks (p + 1) t end.
(** Lines 395-399 and 405-408: label what is painted but not labelled. *)
Definition flush1 (no : Z) (c : cell) : cell :=
  mkCell (c_frame c) (c_mask c) (if (c_label c =? 0) && (c_mask c >? 0) then c_mask c + no * 255 else c_label c) (c_owner c).
(** Lines 378-399 for seeds i, i+1, ... *)
Fixpoint seeds (n : nat) (i : Z) (l : list cell) : list cell :=
  match n with
  | O => l
  | S k =>
      let l1 := paint_all i (i mod 255 + 1) (map c_mask l) 0 l in
      seeds k (i + 1) (if i mod 255 =? 254 then map (flush1 (Z.quot i 255)) l1 else l1)
  end.
(** Lines 371-372: nothing painted, nothing labelled. *)
Definition blank (frame : list bool) : list cell := map (fun b => mkCell b 0 0 None) frame.
(** Lines 371-412 without the crop. *)
Definition segmentation_labels (frame : list bool) (n : nat) : list cell :=
  let l := seeds n 0 (blank frame) in
  if 0 <? Z.of_nat n then map (flush1 (Z.quot (Z.of_nat n - 1) 255)) l else l.

(** Before seed i: every pixel painted by seed j is labelled j+1 if its batch
    of 255 is over, and waits with mask j mod 255 + 1 otherwise. *)
Definition cell_inv (i : Z) (c : cell) : Prop := c_frame c = false ->
  match c_owner c with
  | None => c_mask c = 0 /\ c_label c = 0
  | Some j => 0 <= j < i /\ c_mask c = j mod 255 + 1 /\ c_label c = (if j / 255 <? i / 255 then j + 1 else 0)
  end.
Definition cell_mid (i : Z) (c : cell) : Prop := c_frame c = false ->
  match c_owner c with
  | None => c_mask c = 0 /\ c_label c = 0
  | Some j => 0 <= j <= i /\ c_mask c = j mod 255 + 1 /\ c_label c = (if j / 255 <? i / 255 then j + 1 else 0)
  end.
Lemma paint_inv : forall i reached c, 0 <= i -> cell_inv i c -> cell_mid i (paint i (i mod 255 + 1) reached c).
Proof.
  intros i reached c Hi H. unfold paint. destruct (c_frame c) eqn:F; [intros X; discriminate X|]. specialize (H F).
  destruct ((c_mask c =? 0) && reached) eqn:E; intros _; cbn [c_owner c_mask c_label].
  - apply andb_prop in E. destruct E as [E _]. apply Z.eqb_eq in E. split; [lia|]. split; [reflexivity|]. rewrite Z.ltb_irrefl.
    destruct (c_owner c) as [j|]; [|apply H]. destruct H as (Hj & Hm & _). pose proof (Z.mod_pos_bound j 255 ltac:(lia)). lia.
  - destruct (c_owner c) as [j|]; [|exact H]. destruct H as (Hj & Hm & Hl). split; [lia|]. split; assumption.
Qed.
Lemma flush_label : forall i j c, 0 <= j <= i -> c_mask c = j mod 255 + 1 -> j / 255 = i / 255 -> c_label c = 0 ->
  c_label (flush1 (Z.quot i 255) c) = j + 1.
Proof.
  intros i j c Hj Hm Hd Hl. unfold flush1. cbn [c_label]. rewrite Hl, Hm. cbn [Z.eqb andb].
  pose proof (Z.div_mod j 255 ltac:(lia)). pose proof (Z.mod_pos_bound j 255 ltac:(lia)).
  rewrite Z.gtb_ltb, (proj2 (Z.ltb_lt 0 (j mod 255 + 1))) by lia. rewrite Z.quot_div_nonneg by lia. lia.
Qed.
Lemma flush_keep : forall no c, c_label c <> 0 -> c_label (flush1 no c) = c_label c.
Proof. intros no c H. unfold flush1. cbn [c_label]. apply Z.eqb_neq in H. rewrite H. reflexivity. Qed.
Lemma mid_inv : forall i c, 0 <= i -> cell_mid i c -> cell_inv (i + 1) (if i mod 255 =? 254 then flush1 (Z.quot i 255) c else c).
Proof.
  intros i c Hi H. pose proof (Z.div_mod i 255 ltac:(lia)) as Di. pose proof (Z.mod_pos_bound i 255 ltac:(lia)) as Mi.
  destruct (i mod 255 =? 254) eqn:E; intros F.
  - apply Z.eqb_eq in E. assert (D1 : (i + 1) / 255 = i / 255 + 1) by (symmetry; apply (Z.div_unique _ _ _ 0); lia).
    specialize (H F). change (c_owner (flush1 (Z.quot i 255) c)) with (c_owner c). change (c_mask (flush1 (Z.quot i 255) c)) with (c_mask c).
    destruct (c_owner c) as [j|].
    + destruct H as (Hj & Hm & Hl). split; [lia|]. split; [exact Hm|]. rewrite D1.
      assert (Q : j / 255 <= i / 255) by (apply Z.div_le_mono; lia). rewrite (proj2 (Z.ltb_lt (j / 255) (i / 255 + 1))) by lia.
      destruct (j / 255 <? i / 255) eqn:L; [rewrite flush_keep; lia|]. apply Z.ltb_ge in L. apply flush_label; [lia|exact Hm|lia|exact Hl].
    + destruct H as [Hm Hl]. split; [exact Hm|]. unfold flush1. cbn [c_label]. rewrite Hm, Hl. reflexivity.
  - apply Z.eqb_neq in E. assert (D1 : (i + 1) / 255 = i / 255) by (symmetry; apply (Z.div_unique _ _ _ (i mod 255 + 1)); lia).
    specialize (H F). rewrite D1. destruct (c_owner c) as [j|]; [|exact H]. destruct H as (Hj & Hm & Hl). split; [lia|]. split; assumption.
Qed.
Lemma paint_all_inv : forall i masks l p, 0 <= i -> Forall (cell_inv i) l -> Forall (cell_mid i) (paint_all i (i mod 255 + 1) masks p l).
Proof.
  induction l as [|c l IH]; intros p Hi H; cbn [paint_all]; [constructor|]. inversion_clear H. constructor; [apply paint_inv; assumption|apply IH; assumption].
Qed.
Lemma seeds_inv : forall n i l, 0 <= i -> Forall (cell_inv i) l -> Forall (cell_inv (i + Z.of_nat n)) (seeds n i l).
Proof.
  induction n as [|n IH]; intros i l Hi H; [rewrite Z.add_0_r; exact H|]. cbn [seeds].
  replace (i + Z.of_nat (S n)) with (i + 1 + Z.of_nat n) by lia. apply IH; [lia|].
  pose proof (@paint_all_inv i (map c_mask l) l 0 Hi H) as HM.
  assert (G : Forall (fun c => cell_inv (i + 1) (if i mod 255 =? 254 then flush1 (Z.quot i 255) c else c)) (paint_all i (i mod 255 + 1) (map c_mask l) 0 l)).
  { eapply Forall_impl; [|exact HM]. intros c. apply mid_inv, Hi. }
  destruct (i mod 255 =? 254); [|exact G]. apply Forall_map. exact G.
Qed.

(** A pixel has label 0 iff no call painted it, and otherwise one plus the
    index of the seed whose call painted it. *)
Theorem C58_labels : forall frame n c, In c (segmentation_labels frame n) -> c_frame c = false ->
  c_label c = match c_owner c with None => 0 | Some j => j + 1 end /\
  match c_owner c with None => True | Some j => 0 <= j < Z.of_nat n end.
Proof.
  intros frame n c Hc F.
  assert (H0 : Forall (cell_inv 0) (blank frame)).
  { apply Forall_forall. intros x Hx. apply in_map_iff in Hx. destruct Hx as (b & <- & _). intros _. split; reflexivity. }
  pose proof (@seeds_inv n 0 (blank frame) ltac:(lia) H0) as H. rewrite Z.add_0_l in H. unfold segmentation_labels in Hc.
  set (l := seeds n 0 (blank frame)) in *. clearbody l. rewrite Forall_forall in H. destruct (0 <? Z.of_nat n) eqn:E.
  - apply Z.ltb_lt in E. apply in_map_iff in Hc. destruct Hc as (d & <- & Hd). specialize (H d Hd F).
    change (c_owner (flush1 (Z.quot (Z.of_nat n - 1) 255) d)) with (c_owner d).
    destruct (c_owner d) as [j|].
    + destruct H as (Hj & Hm & Hl). split; [|exact Hj].
      assert (Q : j / 255 <= (Z.of_nat n - 1) / 255) by (apply Z.div_le_mono; lia).
      assert (Q' : (Z.of_nat n - 1) / 255 <= Z.of_nat n / 255) by (apply Z.div_le_mono; lia).
      destruct (j / 255 <? Z.of_nat n / 255) eqn:L; [rewrite flush_keep; lia|]. apply Z.ltb_ge in L. apply flush_label; [lia|exact Hm|lia|exact Hl].
    + destruct H as [Hm Hl]. split; [|exact I]. unfold flush1. cbn [c_label]. rewrite Hm, Hl. reflexivity.
  - apply Z.ltb_ge in E. specialize (H c Hc F). destruct (c_owner c) as [j|]; [lia|]. destruct H; auto.
Qed.
Theorem C58_unique : forall frame n a b, let l := segmentation_labels frame n in
  In a l -> In b l -> c_frame a = false -> c_frame b = false -> 0 < c_label a ->
  (c_label a = c_label b <-> c_owner a = c_owner b).
Proof.
  intros frame n a b l Ha Hb Fa Fb Hpos. destruct (@C58_labels frame n a Ha Fa) as [E1 B1]. destruct (@C58_labels frame n b Hb Fb) as [E2 B2].
  rewrite E1 in *. rewrite E2. destruct (c_owner a), (c_owner b); split; intros H; try lia; try congruence; f_equal; try lia; injection H; lia.
Qed.

(** The owner is the first call that reaches the pixel while unpainted, and
    stays: painting never takes a pixel from another seed. *)
Lemma paint_owner : forall i v reached c, c_frame c = false -> c_mask c <> 0 -> paint i v reached c = c.
Proof. intros i v reached c F H. unfold paint. rewrite F. apply Z.eqb_neq in H. rewrite H. reflexivity. Qed.
End Flood.

(** 600 seeds, seed i reaching pixels 2i and 2i+1 and pixel 7; pixel 1201 is in
    the frame. *)
Definition fill_ex (i : Z) (m : list Z) (p : Z) : bool := (p =? 2 * i) || (p =? 2 * i + 1) || (p =? 7).
Example C58_example :
  let l := segmentation_labels fill_ex (repeat false 1201 ++ [true]) 600 in
  map (fun k => c_label (nth (Z.to_nat k) l (mkCell false 0 (-1) None))) [0; 1; 7; 508; 509; 510; 1019; 1020; 1198; 1200] = [1; 1; 1; 255; 255; 256; 510; 511; 600; 0].
Proof. vm_compute. reflexivity. Qed.

(** ** C62: the change-object decision. *)
Section Decision.
(** Floating-point arithmetic enters as an arbitrary rounding that is monotone
    and keeps 0; np.log10 of a positive integer as an arbitrary monotone
    non-negative function. *)
Variable rnd : Q -> Q.
Hypothesis rnd_mono : forall x y, (x <= y)%Q -> (rnd x <= rnd y)%Q.
Hypothesis rnd_0 : (rnd 0 == 0)%Q.
Variable lg : Z -> Q.
Hypothesis lg_mono : forall a b, 1 <= a <= b -> (lg a <= lg b)%Q.
Hypothesis lg_pos : forall a, 1 <= a -> (0 <= lg a)%Q.

(** A threshold and a size slope. *)
Record limit := mkLimit { l_threshold : Q; l_slope : Q }.
(** The repeated four lines, e.g. 110-117. *)
Definition exceeds (L : limit) (mag : Q) (size : Z) : bool :=
  let x := rnd (rnd (lg size * l_slope L) + (95 # 100))%Q in
  let scale := if Qlt_le_dec x 2 then x else 2%Q in
  if Qlt_le_dec (l_threshold L) (rnd (mag * scale)) then true else false.
(** is_change_object: [None] is the implicit return of an unknown class, which
    the callers treat as false.  [thematic] is "classification_map is not
    None"; [uniform] the grid-search override; [table] the class limits. *)
Definition is_change_object (default : limit) (table : Z -> limit) (thematic : bool) (uniform : option limit)
  (mode : Z) (mag : Q) (size : Z) : option bool :=
  if negb thematic then Some (exceeds default mag size)
  else match uniform with
  | Some L => Some (exceeds L mag size)
  | None =>
      if mode =? 255 then Some (exceeds default mag size)
      else if (1 <=? mode) && (mode <=? 8) then Some (exceeds (table mode) mag size)
      else None
  end.

Definition limit_ok (L : limit) : Prop := (0 <= l_threshold L)%Q /\ (0 <= l_slope L)%Q.

Lemma exceeds_mono : forall L mag mag' size size', limit_ok L -> 1 <= size <= size' -> (mag <= mag')%Q ->
  exceeds L mag size = true -> exceeds L mag' size' = true.
Proof.
  intros L mag mag' size size' [HT HS] Hs Hm. unfold exceeds. cbv zeta.
  set (x := rnd (rnd (lg size * l_slope L) + (95 # 100))%Q). set (x' := rnd (rnd (lg size' * l_slope L) + (95 # 100))%Q).
  assert (X0 : (0 <= x)%Q).
  { unfold x. apply (Qle_trans _ (rnd 0)); [rewrite rnd_0; apply Qle_refl|]. apply rnd_mono. apply (Qle_trans _ (0 + (95 # 100)));  [discriminate|].
    apply Qplus_le_compat; [|apply Qle_refl]. apply (Qle_trans _ (rnd 0)); [rewrite rnd_0; apply Qle_refl|]. apply rnd_mono. apply Qmult_le_0_compat; [apply lg_pos; lia|exact HS]. }
  assert (XX : (x <= x')%Q).
  { unfold x, x'. apply rnd_mono. apply Qplus_le_compat; [|apply Qle_refl]. apply rnd_mono. apply Qmult_le_compat_r; [apply lg_mono; lia|exact HS]. }
  set (sc := if Qlt_le_dec x 2 then x else 2%Q). set (sc' := if Qlt_le_dec x' 2 then x' else 2%Q).
  assert (S0 : (0 <= sc)%Q) by (unfold sc; destruct (Qlt_le_dec x 2); [exact X0|discriminate]).
  assert (SS : (sc <= sc')%Q).
  { unfold sc, sc'. destruct (Qlt_le_dec x 2), (Qlt_le_dec x' 2); [exact XX|apply Qlt_le_weak; assumption| |apply Qle_refl].
    exfalso. apply (Qlt_irrefl x'). eapply Qlt_le_trans; [eassumption|]. eapply Qle_trans; eassumption. }
  destruct (Qlt_le_dec (l_threshold L) (rnd (mag * sc))) as [H|]; [|discriminate]. intros _.
  assert (M0 : (0 <= mag)%Q).
  { destruct (Qlt_le_dec mag 0) as [N|N]; [|exact N]. exfalso.
    assert (Z1 : (mag * sc <= 0)%Q). { apply (Qle_trans _ (0 * sc)); [apply Qmult_le_compat_r; [apply Qlt_le_weak, N|exact S0]|]. rewrite Qmult_0_l. apply Qle_refl. }
    pose proof (@rnd_mono _ _ Z1) as Z2. rewrite rnd_0 in Z2. apply (Qlt_irrefl (l_threshold L)).
    eapply Qlt_le_trans; [exact H|]. eapply Qle_trans; eassumption. }
  assert (P : (mag * sc <= mag' * sc')%Q).
  { apply (Qle_trans _ (mag' * sc)); [apply Qmult_le_compat_r; assumption|]. rewrite (Qmult_comm mag' sc), (Qmult_comm mag' sc').
    apply Qmult_le_compat_r; [exact SS|]. eapply Qle_trans; eassumption. }
  destruct (Qlt_le_dec (l_threshold L) (rnd (mag' * sc'))) as [|C]; [reflexivity|]. exfalso.
  apply (Qlt_irrefl (l_threshold L)). eapply Qlt_le_trans; [exact H|]. eapply Qle_trans; [apply rnd_mono, P|exact C].
Qed.

Theorem C62_monotone : forall default table thematic uniform mode mag mag' size size',
  limit_ok default -> (forall m, 1 <= m <= 8 -> limit_ok (table m)) -> (forall L, uniform = Some L -> limit_ok L) ->
  1 <= size <= size' -> (mag <= mag')%Q ->
  is_change_object default table thematic uniform mode mag size = Some true ->
  is_change_object default table thematic uniform mode mag' size' = Some true.
Proof.
  intros default table thematic uniform mode mag mag' size size' HD HT HU Hs Hm. unfold is_change_object.
  assert (G : forall L, limit_ok L -> Some (exceeds L mag size) = Some true -> Some (exceeds L mag' size') = Some true).
  { intros L HL E. injection E as E. f_equal. eapply exceeds_mono; eauto. }
  destruct (negb thematic); [apply G, HD|]. destruct uniform as [L|]; [apply G, HU; reflexivity|].
  destruct (mode =? 255); [apply G, HD|]. destruct ((1 <=? mode) && (mode <=? 8)) eqn:E; [|discriminate].
  apply andb_prop in E. destruct E as [E1 E2]. apply Z.leb_le in E1, E2. apply G, HT. lia.
Qed.
Theorem C62_unknown : forall default table mode mag size, ~ (1 <= mode <= 8) -> mode <> 255 ->
  is_change_object default table true None mode mag size = None.
Proof.
  intros default table mode mag size H1 H2. unfold is_change_object. cbn [negb]. apply Z.eqb_neq in H2. rewrite H2.
  destruct ((1 <=? mode) && (mode <=? 8)) eqn:E; [|reflexivity]. apply andb_prop in E. destruct E as [E1 E2]. apply Z.leb_le in E1, E2. exfalso. apply H1. lia.
Qed.
End Decision.

(** constants.yaml OBCOLD *)
Definition obcold_default : limit := mkLimit (1107 # 100) 0.
Definition obcold_table (m : Z) : limit :=
  if (m =? 1) || (m =? 4) || (m =? 6) then mkLimit (1107 # 100) (1 # 10) else mkLimit (15086 # 1000) (5 # 100).
Lemma obcold_ok : limit_ok obcold_default /\ forall m, limit_ok (obcold_table m).
Proof.
  split; [split; discriminate|]. intros m. unfold obcold_table. destruct ((m =? 1) || (m =? 4) || (m =? 6)); split; discriminate.
Qed.
(** With the number of digits standing in for log10: class 4, magnitude 11.5:
    small objects are rejected, large ones accepted; class 9 never. *)
Definition lg_ex (n : Z) : Q := inject_Z (Z.log2 n / 3).
Example C62_example :
  (is_change_object (fun x => x) lg_ex obcold_default obcold_table true None 4 (115 # 10) 4,
   is_change_object (fun x => x) lg_ex obcold_default obcold_table true None 4 (115 # 10) 100,
   is_change_object (fun x => x) lg_ex obcold_default obcold_table true None 9 (115 # 10) 100) = (Some false, Some true, None).
Proof. vm_compute. reflexivity. Qed.

Print Assumptions C58_labels.
Print Assumptions C58_unique.
Print Assumptions C62_monotone.
Print Assumptions C62_unknown.
