(** The greening test of [sccd_identify] (C104; src/python/pycold/utils.py
    536-564, src/python/pycold/colds.py 517-529).

    Simplifications: predictions are integers in an arbitrary unit, a function
    of band and date (utils.py 503-505 evaluates the stored coefficients);
    medians are doubled so that the mean of two middle values stays an
    integer. *)
From Coq Require Import Sorted Permutation.
From Verif Require Import Base SortModel LibModel LibProps ColdModel ColdLemmas ColdProps2 FrontModel FrontProps
  SccdModel SccdProof SccdTop SccdPack SccdTerm SccdApi SccdToy SccdProps SccdProps2 SccdRefuted.

(** Python subscript and slice bounds: negative ones count from the end. *)
Definition py_get {A} (l : list A) (i : Z) : option A :=
  let j := if i <? 0 then i + zlen l else i in
  if j <? 0 then None else nth_error l (Z.to_nat j).
Definition py_bound (n i : Z) : Z := Z.max 0 (Z.min n (if i <? 0 then i + n else i)).
Definition py_slice {A} (l : list A) (i j : Z) : list A :=
  let a := py_bound (zlen l) i in
  let b := py_bound (zlen l) j in
  firstn (Z.to_nat (b - a)) (skipn (Z.to_nat a) l).

(** numpy's [a - b] along one axis: equal lengths, or one of them of length
    one; [None] is ValueError. *)
Definition np_sub (a b : list Z) : option (list Z) :=
  if (length a =? length b)%nat then Some (map (fun p => fst p - snd p) (combine a b))
  else match a, b with
       | [x], _ => Some (map (fun y => x - y) b)
       | _, [y] => Some (map (fun x => x - y) a)
       | _, _ => None
       end.

(** Insertion sort standing for the partition inside np.median. *)
Fixpoint ins (v : Z) (l : list Z) : list Z :=
  match l with [] => [v] | w :: t => if v <=? w then v :: l else w :: ins v t end.
Definition isort (l : list Z) : list Z := fold_right ins [] l.

(** np.median, doubled (utils.py 563); [None]: nan, of an empty axis. *)
Definition np_median (l : list Z) : option Z :=
  let s := isort l in
  match nth_error s ((length l - 1) / 2), nth_error s (length l / 2) with
  | Some x, Some y => Some (x + y)
  | _, _ => None
  end.

Section Cm.
Context {S : Type}.
Variable pred : S -> nat -> Z -> Z.    (* stored coefficients, band, date *)

Fixpoint optmap {A B} (f : A -> option B) (l : list A) : option (list B) :=
  match l with
  | [] => Some []
  | a :: t => match f a, optmap f t with Some b, Some r => Some (b :: r) | _, _ => None end
  end.

(** utils.py 546-562 for one band: the predictions of the dates from slot
    6 - conse_last on, subtracted from the observations of the slots from
    there to 5. *)
Definition band_cm (nm : nmodel S) (b : nat) : option (list Z) :=
  let start := 6 - nm_last nm in
  match optmap (fun k => option_map (fun o => pred (nm_st nm) b (o_date o + launch)) (py_get (nm_obs nm) (Z.of_nat k + start)))
               (seq 0 (Z.to_nat (nm_last nm))) with
  | None => None
  | Some p => np_sub (map (fun o => nth b (o_vals o) 0) (py_slice (nm_obs nm) start 6)) p
  end.

(** calculate_sccd_cm (536-564): the outer [None] is an exception. *)
Definition sccd_cm (nm : nmodel S) : option (list (option Z)) :=
  option_map (map np_median) (optmap (band_cm nm) (seq 0 6)).

(** colds.py 519-523, [t] doubled like the medians; a comparison with nan is
    false. *)
Definition below (m : option Z) (t : Z) : bool := match m with Some v => v <? t | None => false end.
Definition above (m : option Z) (t : Z) : bool := match m with Some v => t <? v | None => false end.
Definition greener (t : Z) (nm : nmodel S) : bool :=
  match sccd_cm nm with
  | Some cm => below (nth 2 cm None) (- (2 * t)) && above (nth 3 cm None) (2 * t) && below (nth 4 cm None) (- (2 * t))
  | None => false
  end.
End Cm.

(** ** Medians *)
Lemma ins_perm : forall v l, Permutation (v :: l) (ins v l).
Proof.
  intros v l. induction l as [|w t IH]; [apply Permutation_refl|]. cbn [ins]. destruct (v <=? w); [apply Permutation_refl|].
  eapply perm_trans; [apply perm_swap|]. apply perm_skip, IH.
Qed.
Lemma isort_perm : forall l, Permutation l (isort l).
Proof. intros l. induction l; [constructor|]. simpl. eapply perm_trans; [apply perm_skip, IHl|apply ins_perm]. Qed.
Lemma ins_sorted : forall v l, StronglySorted Z.le l -> StronglySorted Z.le (ins v l).
Proof.
  intros v l H. induction H as [|w t Ht IH HF]; [repeat constructor|]. cbn [ins]. destruct (v <=? w) eqn:E.
  - constructor; [constructor; assumption|]. constructor; [lia|]. eapply Forall_impl; [|exact HF]. simpl. lia.
  - constructor; [assumption|]. apply Forall_forall. intros y Hy.
    apply (Permutation_in _ (Permutation_sym (ins_perm v t))) in Hy. destruct Hy as [<-|Hy]; [lia|].
    rewrite Forall_forall in HF. auto.
Qed.
Lemma isort_sorted : forall l, StronglySorted Z.le (isort l).
Proof. intros l. induction l; [constructor|]. apply ins_sorted, IHl. Qed.

(** [m] is twice the median of [l]: the sum of the two middle values of [l]
    in ascending order (the middle one twice when the length is odd). *)
Definition median2 (l : list Z) (m : Z) : Prop :=
  exists s x y, Permutation l s /\ StronglySorted Z.le s /\
    nth_error s ((length l - 1) / 2) = Some x /\ nth_error s (length l / 2) = Some y /\ m = x + y.

Lemma np_median_spec : forall l, l <> [] -> exists m, np_median l = Some m /\ median2 l m.
Proof.
  intros l Hl. unfold np_median. assert (Hn : (0 < length l)%nat) by (destruct l; [contradiction|simpl; lia]).
  pose proof (Permutation_length (isort_perm l)) as HL.
  assert (H1 : ((length l - 1) / 2 < length l)%nat) by (apply Nat.div_lt_upper_bound; lia).
  assert (H2 : (length l / 2 < length l)%nat) by (apply Nat.div_lt; lia).
  destruct (nth_error (isort l) ((length l - 1) / 2)) as [x|] eqn:Ex; [|apply nth_error_None in Ex; lia].
  destruct (nth_error (isort l) (length l / 2)) as [y|] eqn:Ey; [|apply nth_error_None in Ey; lia].
  exists (x + y). split; [reflexivity|]. exists (isort l), x, y.
  repeat split; auto using isort_perm, isort_sorted.
Qed.

Lemma sorted_perm_eq : forall a b : list Z, StronglySorted Z.le a -> StronglySorted Z.le b -> Permutation a b -> a = b.
Proof.
  intros a. induction a as [|x a IH]; intros b Ha Hb HP.
  - apply Permutation_nil in HP. congruence.
  - destruct b as [|y b]; [apply Permutation_sym, Permutation_nil in HP; discriminate|].
    inversion Ha as [|? ? Ha' HFa]; subst. inversion Hb as [|? ? Hb' HFb]; subst.
    rewrite Forall_forall in HFa, HFb.
    assert (x = y).
    { assert (Hy : In y (x :: a)) by (apply (Permutation_in _ (Permutation_sym HP)); left; reflexivity).
      assert (Hx : In x (y :: b)) by (apply (Permutation_in _ HP); left; reflexivity).
      destruct Hy as [|Hy]; [assumption|]. destruct Hx as [|Hx]; [congruence|].
      specialize (HFa _ Hy). specialize (HFb _ Hx). lia. }
    subst. f_equal. apply IH; auto. eapply Permutation_cons_inv; exact HP.
Qed.
Lemma median2_unique : forall l m m', median2 l m -> median2 l m' -> m = m'.
Proof.
  intros l m m' (s & x & y & P1 & S1 & X1 & Y1 & ->) (s' & x' & y' & P2 & S2 & X2 & Y2 & ->).
  assert (s = s') by (apply sorted_perm_eq; auto; eapply perm_trans; [apply Permutation_sym, P1|exact P2]).
  congruence.
Qed.

(** ** The window *)
Lemma optmap_all : forall A B (f : A -> option B) g l, (forall a, In a l -> f a = Some (g a)) -> optmap f l = Some (map g l).
Proof.
  intros A B f g l H. induction l; [reflexivity|]. cbn [optmap map]. rewrite (H a) by (left; reflexivity).
  rewrite IHl by (intros; apply H; right; assumption). reflexivity.
Qed.

Lemma skipn_seq : forall k s n, skipn k (seq s n) = seq (s + k) (n - k).
Proof.
  induction k as [|k IH]; intros s n; [rewrite Nat.add_0_r, Nat.sub_0_r; reflexivity|].
  destruct n; [reflexivity|]. cbn [seq skipn]. rewrite IH. f_equal; lia.
Qed.
Lemma firstn_seq : forall k s n, (k <= n)%nat -> firstn k (seq s n) = seq s k.
Proof.
  induction k as [|k IH]; intros s n H; [reflexivity|]. destruct n; [lia|]. cbn [seq firstn]. rewrite IH by lia. reflexivity.
Qed.

Lemma seq_shift_by : forall p n, seq p n = map (fun k => (p + k)%nat) (seq 0 n).
Proof.
  intros p n. assert (H : forall q, seq (p + q) n = map (fun k => (p + k)%nat) (seq q n)).
  { induction n as [|n IH]; intros q; [reflexivity|]. cbn [seq map]. f_equal. rewrite <- IH. f_equal. lia. }
  rewrite <- H. f_equal. lia.
Qed.

(** The [n] observations of [x] that end [k] before the last one. *)
Definition run_of (x : list obs) (n k : Z) : list obs :=
  firstn (Z.to_nat n) (skipn (Z.to_nat (zlen x - k - n)) x).

Lemma run_of_map : forall x n k, 0 <= n -> 0 <= k -> n + k <= zlen x ->
  run_of x n k = map (fun j => nthO x (zlen x - k - n + Z.of_nat j)) (seq 0 (Z.to_nat n)).
Proof.
  intros x n k Hn Hk Hx. unfold run_of.
  assert (HL : length (firstn (Z.to_nat n) (skipn (Z.to_nat (zlen x - k - n)) x)) = Z.to_nat n)
    by (rewrite firstn_length, skipn_length; unfold zlen in *; lia).
  apply (@nth_ext _ _ _ dflt_obs dflt_obs); [rewrite map_length, seq_length; assumption|].
  intros i Hi. rewrite HL in Hi. rewrite nth_firstn by assumption. rewrite nth_skipn.
  rewrite (@nth_indep _ _ i dflt_obs (nthO x (zlen x - k - n + Z.of_nat 0))) by (rewrite map_length, seq_length; assumption).
  rewrite (@map_nth nat obs (fun j => nthO x (zlen x - k - n + Z.of_nat j)) _ 0%nat i). rewrite seq_nth by assumption.
  unfold nthO. f_equal. lia.
Qed.

Lemma combine_map2 : forall A B C (f : A -> B) (g : A -> C) l, combine (map f l) (map g l) = map (fun a => (f a, g a)) l.
Proof. intros A B C f g l. induction l; simpl; congruence. Qed.

Section Window.
Context {S : Type}.
Variable pred : S -> nat -> Z -> Z.

Definition in_days_all (x : list obs) : Prop := Forall (fun o => launch <= o_date o <= launch + 32767) x.
(** Observed minus predicted, band [b]. *)
Definition residuals (nm : nmodel S) (b : nat) (w : list obs) : list Z :=
  map (fun o => nth b (o_vals o) 0 - pred (nm_st nm) b (o_date o)) w.

Lemma slot_get : forall x c k, 0 <= k < c -> c <= 8 -> c <= zlen x ->
  nth_error (slot_view x (zlen x - c) c) (Z.to_nat k) = Some (stv (nthO x (zlen x - c + k))).
Proof.
  intros x c k Hk Hc Hx. unfold slot_view. rewrite nth_error_map.
  rewrite (nth_error_nth' _ 0%nat) by (rewrite seq_length; lia). rewrite seq_nth by lia. cbn [option_map].
  rewrite Nat.add_0_l, Z2Nat.id by lia. replace (k <? c) with true by lia. reflexivity.
Qed.

Lemma slot_len : forall x i c, zlen (slot_view x i c) = 8.
Proof. intros. unfold slot_view, zlen. rewrite map_length, seq_length. reflexivity. Qed.

Lemma nthO_in : forall x k, 0 <= k < zlen x -> In (nthO x k) x.
Proof. intros x k Hk. unfold nthO. apply nth_In. unfold zlen in Hk. lia. Qed.

Lemma band_cm_window : forall (nm : nmodel S) x c b, 6 <= c <= 8 -> c <= zlen x -> in_days_all x ->
  nm_obs nm = slot_view x (zlen x - c) c -> 0 <= nm_last nm <= 6 ->
  band_cm pred nm b = Some (residuals nm b (run_of x (nm_last nm) (c - 6))).
Proof.
  intros nm x c b Hc Hx Hd Ho Hn. unfold band_cm. set (n := nm_last nm) in *. rewrite Ho.
  rewrite (@optmap_all _ _ _ (fun k => pred (nm_st nm) b (o_date (nthO x (zlen x - (c - 6) - n + Z.of_nat k))))).
  2:{ intros k Hk. apply in_seq in Hk. unfold py_get. replace (Z.of_nat k + (6 - n) <? 0) with false by lia.
      replace (Z.of_nat k + (6 - n) <? 0) with false by lia.
      rewrite slot_get by lia. cbn [option_map]. unfold stv. cbn [o_date].
      replace (zlen x - c + (Z.of_nat k + (6 - n))) with (zlen x - (c - 6) - n + Z.of_nat k) by lia.
      assert (Hin : launch <= o_date (nthO x (zlen x - (c - 6) - n + Z.of_nat k)) <= launch + 32767).
      { unfold in_days_all in Hd. rewrite Forall_forall in Hd. apply Hd, nthO_in. lia. }
      rewrite wrap16_id by lia. do 2 f_equal. lia. }
  assert (Es : py_slice (slot_view x (zlen x - c) c) (6 - n) 6 =
               map (fun k => stv (nthO x (zlen x - (c - 6) - n + Z.of_nat k))) (seq 0 (Z.to_nat n))).
  { unfold py_slice, py_bound. rewrite slot_len. replace (6 - n <? 0) with false by lia. change (6 <? 0) with false. cbv iota.
    replace (Z.max 0 (Z.min 8 (6 - n))) with (6 - n) by lia. replace (Z.max 0 (Z.min 8 6)) with 6 by lia.
    unfold slot_view. rewrite skipn_map, firstn_map, skipn_seq, firstn_seq by lia.
    replace (6 - (6 - n)) with n by lia. rewrite seq_shift_by, map_map. apply map_ext_in. intros k Hk. apply in_seq in Hk.
    rewrite Nat.add_0_l. replace (Z.of_nat (Z.to_nat (6 - n) + k) <? c) with true by lia. do 2 f_equal. lia. }
  rewrite Es, map_map. unfold np_sub. rewrite !map_length, Nat.eqb_refl.
  rewrite combine_map2, map_map. f_equal. unfold residuals. rewrite run_of_map by lia. rewrite map_map.
  apply map_ext. intros k. reflexivity.
Qed.

(** Runs longer than six: the shapes differ, ValueError. *)
Theorem C104_raises : forall nm : nmodel S, length (nm_obs nm) = 8%nat -> 6 < nm_last nm <= 8 -> sccd_cm pred nm = None.
Proof.
  intros nm H8 Hn. unfold sccd_cm. cbn [seq optmap]. replace (band_cm pred nm 0) with (@None (list Z)); [reflexivity|].
  unfold band_cm. assert (Hz : zlen (nm_obs nm) = 8) by (unfold zlen; lia).
  destruct (optmap _ _) as [p|] eqn:E; [|reflexivity].
  assert (Hp : length p = Z.to_nat (nm_last nm)).
  { rewrite <- (seq_length (Z.to_nat (nm_last nm)) 0). revert p E. generalize (seq 0 (Z.to_nat (nm_last nm))).
    intros l. induction l; intros p E; cbn [optmap] in E; [injection E as <-; reflexivity|].
    destruct (option_map _ _); [|discriminate]. destruct (optmap _ l) eqn:El; [|discriminate].
    injection E as <-. simpl. f_equal. auto. }
  replace (py_slice (nm_obs nm) (6 - nm_last nm) 6) with (@nil obs).
  - cbn [map]. unfold np_sub. cbn [length]. destruct p as [|p0 [|p1 p]]; cbn [length] in Hp; try lia. reflexivity.
  - unfold py_slice, py_bound. rewrite Hz. replace (6 - nm_last nm <? 0) with true by lia. change (6 <? 0) with false. cbv iota.
    replace (Z.to_nat (Z.max 0 (Z.min 8 6) - Z.max 0 (Z.min 8 (6 - nm_last nm + 8)))) with 0%nat by lia. reflexivity.
Qed.
End Window.

Section Detect.
Variables N S F C : Type.
Variable pred : S -> nat -> Z -> Z.
Notation io := (io S C).

(** The pack left by a detection with a window of [c] observations. *)
Lemma detect_slots : forall (K : list Z -> skernel N S F C) P c2 junk jm rows (a : io),
  6 <= sp_conse P <= 8 -> length junk = 6%nat -> Forall good_row rows ->
  StronglySorted (fun p q => q_date p < q_date q) rows ->
  detect K P c2 junk jm rows = Ok a -> io_mode a = 1 ->
  let x := map sobs (filter (clear_row c2) rows) in
  nm_obs (io_model a) = slot_view x (zlen x - sp_conse P) (sp_conse P) /\ sp_conse P <= zlen x /\ in_days_all x /\
  0 <= nm_last (io_model a) <= sp_conse P.
Proof.
  intros K P c2 junk jm rows a Hc Hj Hg Hs H Hm x.
  destruct (@detect_std N S F C K P c2 junk jm rows a ltac:(lia) Hj Hs H) as (rm & base & b' & HT & Hr).
  { unfold standard_mode. rewrite Hm. simpl. auto. }
  fold x in HT. pose proof (returned_model jm b' Hr ltac:(rewrite Hm; reflexivity)) as Emod.
  assert (Er : Z.rem (io_mode b') 10 = 1) by (rewrite <- (returned_mode Hr), Hm; reflexivity).
  destruct (st_model HT Er) as [(ts & nobs & _ & _ & _ & _ & _ & M6 & M7 & _) _].
  destruct (st_run HT Er) as (m & nobs' & R1 & R2 & R3 & R4). rewrite <- Emod in M7, R4.
  destruct R4 as (L1 & _). split; [assumption|]. split; [assumption|]. split; [|lia].
  unfold in_days_all, x. rewrite Forall_map. apply Forall_forall. intros q Hq. apply filter_In in Hq.
  rewrite Forall_forall in Hg. apply (Hg q). tauto.
Qed.

(** The change magnitudes are the medians over a stretch of [n] clear
    observations, each compared with the prediction for its own date: the
    last ones for a window of six, those ending one or two earlier for a
    window of seven or eight. *)
Theorem C104_magnitudes : forall (K : list Z -> skernel N S F C) P c2 junk jm rows (a : io),
  6 <= sp_conse P <= 8 -> length junk = 6%nat -> Forall good_row rows ->
  StronglySorted (fun p q => q_date p < q_date q) rows ->
  detect K P c2 junk jm rows = Ok a -> io_mode a = 1 ->
  let x := map sobs (filter (clear_row c2) rows) in
  let n := nm_last (io_model a) in
  1 <= n <= 6 ->
  exists cm, sccd_cm pred (io_model a) = Some cm /\ length cm = 6%nat /\
    forall b, (b < 6)%nat -> exists v, nth b cm None = Some v /\
      median2 (residuals pred (io_model a) b (run_of x n (sp_conse P - 6))) v.
Proof.
  intros K P c2 junk jm rows a Hc Hj Hg Hs H Hm x n Hn.
  destruct (@detect_slots K P c2 junk jm rows a Hc Hj Hg Hs H Hm) as (Ho & Hx & Hd & _). fold x in Ho, Hx, Hd.
  unfold sccd_cm. rewrite (@optmap_all _ _ _ (fun b => residuals pred (io_model a) b (run_of x n (sp_conse P - 6)))).
  2:{ intros b _. apply band_cm_window; auto. fold n. lia. }
  eexists. split; [reflexivity|]. split; [rewrite !map_length; reflexivity|].
  intros b Hb. rewrite map_map.
  assert (Hne : residuals pred (io_model a) b (run_of x n (sp_conse P - 6)) <> []).
  { intros E. apply (f_equal (@length Z)) in E. unfold residuals in E. rewrite run_of_map in E by lia.
    rewrite !map_length, seq_length in E. simpl in E. lia. }
  destruct (np_median_spec Hne) as (v & E & Hv). exists v. split; [|assumption].
  rewrite (@nth_indep _ _ b None (np_median (residuals pred (io_model a) 0%nat (run_of x n (sp_conse P - 6)))))
    by (rewrite map_length, seq_length; assumption).
  rewrite (@map_nth nat _ (fun b => np_median (residuals pred (io_model a) b (run_of x n (sp_conse P - 6)))) _ 0%nat b).
  rewrite seq_nth by assumption. exact E.
Qed.

(** Window of six: the whole decision of sccd_identify. *)
Theorem C104_decision : forall (K : list Z -> skernel N S F C) P c2 junk jm rows (a b : io) d dist cmt ant tr t,
  sp_conse P = 6 -> length junk = 6%nat -> Forall good_row rows ->
  StronglySorted (fun p q => q_date p < q_date q) rows ->
  detect K P c2 junk jm rows = Ok a -> io_mode a = 1 -> 1 <= dist ->
  identify (greener pred t) dist cmt ant tr a = Some (b, d) ->
  let x := map sobs (filter (clear_row c2) rows) in
  let n := nm_last (io_model a) in
  let med k v := median2 (residuals pred (io_model a) k (run_of x n 0)) v in
  (d <> 0 <-> dist <= n /\ cmt < nm_cm (io_model a) /\ nm_angle (io_model a) < ant /\
    ~ (exists u v w, med 2%nat u /\ med 3%nat v /\ med 4%nat w /\ u < - (2 * t) /\ 2 * t < v /\ w < - (2 * t))) /\
  (d <> 0 -> d = o_date (nth (Z.to_nat (zlen x - n)) x dflt_obs) /\ io_mode b = if tr then 11 else 1) /\
  (d = 0 -> b = a).
Proof.
  intros K P c2 junk jm rows a b d dist cmt ant tr t H6 Hj Hg Hs H Hm Hdist Hi x n med.
  destruct (@detect_slots K P c2 junk jm rows a ltac:(lia) Hj Hg Hs H Hm) as (Ho & Hx & Hd & Hl).
  fold x in Ho, Hx, Hd. fold n in Hl. rewrite H6 in Ho, Hx, Hl.
  unfold identify in Hi. rewrite Hm in Hi. change ((1 =? 3) || (1 =? 4) || (Z.quot 1 10 =? 1)) with false in Hi.
  change ((1 =? 0) || (1 =? 2)) with false in Hi. cbv iota in Hi. fold n in Hi.
  destruct ((dist <=? n) && (cmt <? nm_cm (io_model a)) && (nm_angle (io_model a) <? ant)) eqn:Eg.
  2:{ assert (d = 0) by congruence. assert (b = a) by congruence. subst d b. repeat split; try congruence; try lia. }
  assert (Eg' : dist <= n /\ cmt < nm_cm (io_model a) /\ nm_angle (io_model a) < ant) by lia.
  replace (6 <? n) with false in Hi by lia.
  destruct (@C104_magnitudes K P c2 junk jm rows a ltac:(lia) Hj Hg Hs H Hm) as (cm & Ecm & _ & Hcm); [fold n; lia|].
  fold x n in Hcm. rewrite H6 in Hcm. change (6 - 6) with 0 in Hcm.
  destruct (Hcm 2%nat ltac:(lia)) as (u & Eu & Hu). destruct (Hcm 3%nat ltac:(lia)) as (v & Ev & Hv).
  destruct (Hcm 4%nat ltac:(lia)) as (w & Ew & Hw).
  assert (Hgr : greener pred t (io_model a) = (u <? - (2 * t)) && (2 * t <? v) && (w <? - (2 * t))).
  { unfold greener. rewrite Ecm, Eu, Ev, Ew. reflexivity. }
  rewrite Hgr in Hi. destruct ((u <? - (2 * t)) && (2 * t <? v) && (w <? - (2 * t))) eqn:Et.
  - assert (d = 0) by congruence. assert (b = a) by congruence. subst d b.
    split; [|split; [congruence|reflexivity]]. split; [congruence|].
    intros (_ & _ & _ & Hno). exfalso. apply Hno. exists u, v, w. unfold med. repeat split; auto; lia.
  - rewrite Ho, slot_get in Hi by lia. set (o := nthO x (zlen x - 6 + (6 - n))) in *.
    assert (Hin : launch <= o_date o <= launch + 32767).
    { unfold in_days_all in Hd. rewrite Forall_forall in Hd. apply Hd, nthO_in. lia. }
    assert (Ed : d = o_date o).
    { assert (d = o_date (stv o) + launch) by congruence. subst d. unfold stv. cbn [o_date]. rewrite wrap16_id by lia. lia. }
    assert (Hd0 : d <> 0) by (unfold launch in *; lia).
    split; [|split; [|congruence]].
    + split; [|intros _; assumption]. intros _. split; [lia|]. split; [lia|]. split; [lia|].
      intros (u' & v' & w' & Mu & Mv & Mw & Tu & Tv & Tw). unfold med in *.
      assert (u = u') by (eapply median2_unique; eassumption). assert (v = v') by (eapply median2_unique; eassumption).
      assert (w = w') by (eapply median2_unique; eassumption). lia.
    + intros _. split.
      * rewrite Ed. unfold o, nthO. do 3 f_equal. lia.
      * assert (Eb : b = if tr then mkIO 11 (io_recs a) (io_model a) (io_queue a) (io_rmse a) (io_pins a) else a).
        { destruct tr; cbn [andb Z.eqb Pos.eqb] in Hi; congruence. }
        rewrite Eb. destruct tr; [reflexivity|assumption].
Qed.
End Detect.

(** Toy runs: forty observations of level 500, then three of level 560;
    predictions are the level.  Threshold 50: not greening with a window of
    six; with a window of eight, whose medians are taken two observations too
    early, greening. *)
Definition level_pred (m : Z) (b : nat) (d : Z) : Z := m.
Definition cm_of (r : out (io Z Z)) : out (option (list (option Z))) :=
  a <- r ;; Ok (sccd_cm level_pred (io_model a)).
Definition dated (r : out (io Z Z)) : out (option Z) :=
  a <- r ;; Ok (option_map snd (identify (greener level_pred (-50)) 2 10 45 false a)).
Example C104_example :
  cm_of (tdetect 6 (rising 3)) = Ok (Some [Some 120; Some 120; Some 120; Some 120; Some 120; Some 120]) /\
  dated (tdetect 6 (rising 3)) = Ok (Some 730800).
Proof. split; vm_compute; reflexivity. Qed.
Theorem C104_window_refuted :
  dated (tdetect 6 (rising 3)) = Ok (Some 730800) /\ dated (tdetect 8 (rising 3)) = Ok (Some 0).
Proof. split; vm_compute; reflexivity. Qed.
(** A window of five leaves slot 5 empty: a zero on the day of launch enters
    the median. *)
Theorem C104_short_window_refuted :
  cm_of (tdetect 6 (rising 1)) = Ok (Some (repeat (Some 120) 6)) /\
  cm_of (tdetect 5 (rising 1)) = Ok (Some (repeat (Some (-1000)) 6)).
Proof. split; vm_compute; reflexivity. Qed.
Example C104_raises_example : cm_of (tdetect 8 (rising 7)) = Ok None.
Proof. vm_compute; reflexivity. Qed.

Print Assumptions C104_raises.
Print Assumptions C104_magnitudes.
Print Assumptions C104_decision.
Print Assumptions C104_window_refuted.
Print Assumptions C104_short_window_refuted.
