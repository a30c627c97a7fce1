(** Land-cover classification (src/python/pycold/pyclassifier.py): sample
    numbers (C59), features (C61), their place in the block (C77), and the
    round trip of S-CCD packs through the record file (C63). *)
From Verif Require Import Base PyIndex.

(** ** C59: generate_sample_num (pyclassifier.py 103-135)
    Labels are the pixel values of the seed map, non-negative integers. *)
Definition count (v : Z) (labels : list Z) : Z := Z.of_nat (length (filter (Z.eqb v) labels)).
(** np.unique of the labels <= 8 (114-116), ascending. *)
Definition uniques (labels : list Z) : list Z :=
  filter (fun v => existsb (Z.eqb v) labels) [0; 1; 2; 3; 4; 5; 6; 7; 8].
(** counts_category[int(u - 1)] = ... (117-119): index -1 is the last slot. *)
Definition py_slot (u : Z) : Z := if u - 1 <? 0 then u - 1 + 8 else u - 1.
Fixpoint fill_counts (us : list Z) (labels : list Z) (c : list Z) : list Z :=
  match us with
  | [] => c
  | u :: t => let k := Z.to_nat (py_slot u) in
      fill_counts t labels (firstn k c ++ count u labels :: skipn (S k) c)
  end.
Definition counts_category (labels : list Z) : list Z := fill_counts (uniques labels) labels [0; 0; 0; 0; 0; 0; 0; 0].
Definition zsum (l : list Z) : Z := fold_right Z.add 0 l.

Section Samples.
(** round(x * total_samples / sum): any rounding; sum 0 gives NaN, whose
    conversion to an integer raises (120-125). *)
Variable quota : Z -> Z -> Z.
(** max_category_samples and min_category_samples (constants.yaml: 8000, 600) *)
Variables (smax smin : Z).
Definition clamp (q : Z) : Z := let a := if q >? smax then smax else q in if a <? smin then smin else a.
Definition generate_sample_num (labels : list Z) : option (list Z) :=
  let c := counts_category labels in
  if zsum c =? 0 then None else Some (map (fun x => Z.min (clamp (quota x (zsum c))) x) c).
(** train_rfmodel (pyclassifier.py 270-277): np.random.choice without
    replacement raises when asked for more than there are. *)
Definition choices_ok (labels : list Z) (s : list Z) : bool :=
  forallb (fun '(i, n) => n <=? count i labels) (combine [1; 2; 3; 4; 5; 6; 7; 8] s).
Definition train_samples (labels : list Z) : option (list Z) :=
  match generate_sample_num labels with
  | Some s => if choices_ok labels s then Some s else None
  | None => None
  end.

Lemma count_pos : forall v l, existsb (Z.eqb v) l = true <-> 0 < count v l.
Proof.
  intros v l. unfold count. induction l as [|x t IH]; cbn [existsb filter length]; [split; [discriminate|lia]|].
  destruct (v =? x); cbn [orb length]; [split; [lia|reflexivity]|exact IH].
Qed.
Lemma count_zero : forall v l, existsb (Z.eqb v) l = false -> count v l = 0.
Proof. intros v l H. destruct (Z_lt_ge_dec 0 (count v l)) as [P|P]; [apply count_pos in P; congruence|]. unfold count in *. lia. Qed.
(** The counts: every class in its slot, except that slot 8 shows label 0 if
    there is no pixel of class 8. *)
Lemma counts_eq : forall labels, counts_category labels =
  [count 1 labels; count 2 labels; count 3 labels; count 4 labels; count 5 labels; count 6 labels; count 7 labels;
   if existsb (Z.eqb 8) labels then count 8 labels else count 0 labels].
Proof.
  intros l. unfold counts_category, uniques. cbn [filter].
  destruct (existsb (Z.eqb 8) l) eqn:E8; destruct (existsb (Z.eqb 0) l) eqn:E0;
  destruct (existsb (Z.eqb 1) l) eqn:E1; try rewrite (count_zero _ _ E1);
  destruct (existsb (Z.eqb 2) l) eqn:E2; try rewrite (count_zero _ _ E2);
  destruct (existsb (Z.eqb 3) l) eqn:E3; try rewrite (count_zero _ _ E3);
  destruct (existsb (Z.eqb 4) l) eqn:E4; try rewrite (count_zero _ _ E4);
  destruct (existsb (Z.eqb 5) l) eqn:E5; try rewrite (count_zero _ _ E5);
  destruct (existsb (Z.eqb 6) l) eqn:E6; try rewrite (count_zero _ _ E6);
  destruct (existsb (Z.eqb 7) l) eqn:E7; try rewrite (count_zero _ _ E7);
  try rewrite (count_zero _ _ E0); reflexivity.
Qed.

(** The samples asked for never exceed the pixels of the class, for every class
    but 8, and for class 8 when it occurs or label 0 does not. *)
Theorem C59_samples_partial : forall labels s i n, generate_sample_num labels = Some s -> 1 <= i <= 8 ->
  nth_error s (Z.to_nat (i - 1)) = Some n -> i < 8 \/ 0 < count 8 labels \/ count 0 labels = 0 -> n <= count i labels.
Proof.
  intros labels s i n H Hi Hn Hc. unfold generate_sample_num in H.
  destruct (zsum (counts_category labels) =? 0); [discriminate|]. injection H as <-. set (total := zsum _) in *. clearbody total.
  rewrite counts_eq in Hn. rewrite nth_error_map in Hn.
  assert (Hs : i = 1 \/ i = 2 \/ i = 3 \/ i = 4 \/ i = 5 \/ i = 6 \/ i = 7 \/ i = 8) by lia.
  destruct Hs as [->|[->|[->|[->|[->|[->|[->| ->]]]]]]]; cbn in Hn; injection Hn as <-; try lia.
  destruct (existsb (Z.eqb 8) labels) eqn:E; [lia|]. rewrite (count_zero _ _ E) in *. destruct Hc as [Hc|[Hc|Hc]]; lia.
Qed.
(** Enough samples: min(min_category_samples, pixels), and at most
    max_category_samples when that is not below the minimum. *)
Theorem C59_enough : forall labels s i n, generate_sample_num labels = Some s -> 1 <= i <= 8 ->
  nth_error s (Z.to_nat (i - 1)) = Some n -> 0 < count i labels -> Z.min smin (count i labels) <= n <= Z.max smin smax.
Proof.
  intros labels s i n H Hi Hn Hc. unfold generate_sample_num in H.
  destruct (zsum (counts_category labels) =? 0); [discriminate|]. injection H as <-. set (total := zsum _) in *. clearbody total.
  rewrite counts_eq in Hn. rewrite nth_error_map in Hn.
  assert (C : forall q, smin <= clamp q <= Z.max smin smax).
  { intros q. unfold clamp. destruct (q >? smax) eqn:E; [destruct (smax <? smin) eqn:F|destruct (q <? smin) eqn:F]; lia. }
  assert (Hs : i = 1 \/ i = 2 \/ i = 3 \/ i = 4 \/ i = 5 \/ i = 6 \/ i = 7 \/ i = 8) by lia.
  destruct Hs as [->|[->|[->|[->|[->|[->|[->| ->]]]]]]]; cbn in Hn; injection Hn as <-;
    try match goal with |- _ <= Z.min (clamp ?q) _ <= _ => pose proof (C q); lia end.
  rewrite (proj2 (count_pos 8 labels) Hc). match goal with |- _ <= Z.min (clamp ?q) _ <= _ => pose proof (C q); lia end.
Qed.
(** Training gets its samples when label 0 does not occur without class 8. *)
Theorem C59_training : forall labels, 0 < count 8 labels \/ count 0 labels = 0 ->
  0 < zsum (counts_category labels) -> train_samples labels <> None.
Proof.
  intros labels Hc Hz. unfold train_samples.
  destruct (generate_sample_num labels) as [s|] eqn:G.
  - assert (Hlen : length s = 8%nat).
    { unfold generate_sample_num in G. destruct (_ =? 0); [discriminate|]. injection G as <-. rewrite map_length, counts_eq. reflexivity. }
    assert (Hok : choices_ok labels s = true).
    { unfold choices_ok. apply forallb_forall. intros [i n] Hin. apply Z.leb_le.
      apply (In_nth_error) in Hin. destruct Hin as [k Hk].
      assert (K : nth_error [1; 2; 3; 4; 5; 6; 7; 8] k = Some i /\ nth_error s k = Some n).
      { revert Hk. generalize [1; 2; 3; 4; 5; 6; 7; 8]. clear. intros l. revert s k. induction l as [|a l IH]; intros s k H; [destruct k; discriminate|].
        destruct s as [|b s]; [destruct k; discriminate|]. destruct k; [injection H as -> ->; split; reflexivity|]. exact (IH s k H). }
      destruct K as [K1 K2]. assert (Hi : i = Z.of_nat k + 1 /\ (k < 8)%nat).
      { do 8 (destruct k as [|k]; [cbn in K1; injection K1 as <-; lia|]). destruct k; discriminate. }
      destruct Hi as [-> Hk8]. apply (@C59_samples_partial labels s (Z.of_nat k + 1) n G); [lia| |right; lia].
      replace (Z.to_nat (Z.of_nat k + 1 - 1)) with k by lia. exact K2. }
    rewrite Hok. discriminate.
  - unfold generate_sample_num in G. destruct (_ =? 0) eqn:E; [lia|discriminate].
Qed.
(** With label 0 present and class 8 absent the training step always fails: it
    asks for samples of class 8. *)
Theorem C59_zero_label_refuted : forall labels, 0 < smin -> 0 < count 0 labels -> count 8 labels = 0 -> train_samples labels = None.
Proof.
  intros labels Hm H0 H8. unfold train_samples.
  assert (E8 : existsb (Z.eqb 8) labels = false).
  { destruct (existsb (Z.eqb 8) labels) eqn:E; [apply count_pos in E; lia|reflexivity]. }
  unfold generate_sample_num. rewrite counts_eq, E8.
  destruct (_ =? 0); [reflexivity|]. set (total := zsum _). clearbody total.
  unfold choices_ok. cbn [map combine forallb].
  rewrite H8. assert (E : (Z.min (clamp (quota (count 0 labels) total)) (count 0 labels) <=? 0) = false).
  { apply Z.leb_gt. assert (smin <= clamp (quota (count 0 labels) total)); [|lia].
    unfold clamp. destruct (_ >? smax); [destruct (smax <? smin) eqn:F|destruct (_ <? smin) eqn:F]; lia. }
  rewrite E. cbn [andb]. rewrite !andb_false_r. reflexivity.
Qed.
End Samples.
Definition demo_quota (x total : Z) : Z := x * 20000 / total.
Example C59_example : train_samples demo_quota 8000 2 [1; 1; 1; 5; 8; 8; 0; 9; 255] = Some [3; 0; 0; 0; 1; 0; 0; 2].
Proof. vm_compute. reflexivity. Qed.
Example C59_zero_example : generate_sample_num demo_quota 8000 2 [1; 1; 0; 0; 0] = Some [2; 0; 0; 0; 0; 0; 0; 3] /\
  train_samples demo_quota 8000 2 [1; 1; 0; 0; 0] = None.
Proof. vm_compute. auto. Qed.

(** ** C61: extract_features (pyclassifier.py 19-100), one day *)
Section Features.
Variable D : Type.
Record segment := mkSeg { s_start : Z; s_end : Z; s_pos : Z; s_data : D }.
(** The values of the requested features, per segment and day, NaN already
    replaced by 0 in every branch. *)
Variable F : Type.
Variable value : segment -> Z -> F.
Variable nan_val : F.
(** The loop over the curves (45-52) with its break (99). *)
Fixpoint feature (plot : list segment) (day : Z) : F :=
  match plot with
  | [] => nan_val
  | c :: t =>
      let max_days := match t with [] => s_end c | nx :: _ => s_start nx end in
      if (s_start c <=? day) && (day <? max_days) then value c day else feature t day
  end.
(** The segment in force on a day: it has begun, the next one has not, and the
    last one has not ended. *)
Definition in_force (plot : list segment) (day : Z) (c : segment) : Prop :=
  exists a b, plot = a ++ c :: b /\ s_start c <= day /\ day < match b with [] => s_end c | nx :: _ => s_start nx end.
Definition chrono (plot : list segment) : Prop := StronglySorted (fun a b => s_start a < s_start b) plot.
Lemma in_force_unique : forall plot day c c', chrono plot -> in_force plot day c -> in_force plot day c' -> c = c'.
Proof.
  induction plot as [|p t IH]; intros day c c' S (a & b & E & H1 & H2) (a' & b' & E' & H1' & H2'); [destruct a; discriminate|].
  inversion_clear S as [|? ? S' F0]. rewrite Forall_forall in F0.
  destruct a as [|x a], a' as [|x' a'].
  - injection E as -> _. injection E' as -> _. reflexivity.
  - injection E as -> ->. injection E' as -> E'. subst b. exfalso.
    destruct a' as [|x a'].
    + cbn [app] in H2. lia.
    + cbn [app] in *. inversion_clear S' as [|? ? S'' F1]. rewrite Forall_forall in F1.
      assert (s_start x < s_start c') by (apply F1; apply in_or_app; right; left; reflexivity). lia.
  - injection E' as -> ->. injection E as -> E. subst b'. exfalso.
    destruct a as [|x0 a].
    + cbn [app] in H2'. lia.
    + cbn [app] in *. inversion_clear S' as [|? ? S'' F1]. rewrite Forall_forall in F1.
      assert (s_start x0 < s_start c) by (apply F1; apply in_or_app; right; left; reflexivity). lia.
  - injection E as -> E. injection E' as _ E'. apply (IH day c c' S'); [exists a, b|exists a', b']; auto.
Qed.
Theorem C61_segment : forall plot day, chrono plot ->
  (forall c, in_force plot day c -> feature plot day = value c day) /\
  ((forall c, ~ in_force plot day c) -> feature plot day = nan_val).
Proof.
  intros plot day S.
  assert (G : (exists c, in_force plot day c /\ feature plot day = value c day) \/ (feature plot day = nan_val /\ forall c, ~ in_force plot day c)).
  { clear S. induction plot as [|p t IH].
    - right. split; [reflexivity|]. intros c (a & b & E & _). destruct a; discriminate.
    - cbn [feature]. destruct ((s_start p <=? day) && (day <? match t with [] => s_end p | nx :: _ => s_start nx end)) eqn:E.
      + left. exists p. split; [|reflexivity]. exists [], t. split; [reflexivity|]. destruct t; lia.
      + destruct IH as [(c & (a & b & E1 & E2) & Hc)|[Hn Hc]].
        * left. exists c. split; [|exact Hc]. exists (p :: a), b. split; [cbn; congruence|exact E2].
        * right. split; [exact Hn|]. intros c (a & b & E1 & E2 & E3). destruct a as [|x a].
          -- injection E1 as -> ->. destruct b; lia.
          -- injection E1 as _ E1. apply (Hc c). exists a, b. auto. }
  split.
  - intros c Hc. destruct G as [(c' & H1 & H2)|[_ H]]; [|destruct (H c Hc)]. rewrite (in_force_unique S Hc H1). exact H2.
  - intros Hn. destruct G as [(c' & H1 & _)|[H _]]; [destruct (Hn c' H1)|exact H].
Qed.
(** Which days have features: those from the first start to the day before the
    last end. *)
Theorem C61_coverage : forall plot day c0 mid, chrono (c0 :: mid) -> plot = c0 :: mid ->
  let cl := last mid c0 in (s_start c0 <= day < s_end cl) -> (s_start cl <= s_end cl) -> exists c, in_force plot day c.
Proof.
  intros plot day c0 mid S -> . revert c0 S. induction mid as [|p t IH]; intros c0 S cl Hd He.
  - exists c0. exists [], []. split; [reflexivity|]. cbn in *. lia.
  - inversion_clear S as [|? ? S' F0]. destruct (Z_lt_ge_dec day (s_start p)) as [L|L].
    + exists c0. exists [], (p :: t). split; [reflexivity|]. lia.
    + assert (EL : cl = last t p). { unfold cl. clear. revert p c0. induction t as [|q t IH]; intros p c0; [reflexivity|]. change (last (q :: t) c0 = last (q :: t) p). rewrite (IH q c0), (IH q p). reflexivity. }
      destruct (IH p S') as (c & a & b & E & H); [rewrite EL in Hd; lia|rewrite EL in He; exact He|].
      exists c, (c0 :: a), b. rewrite E. split; [reflexivity|exact H].
Qed.

(** ** C77: predict_features (pyclassifier.py 190-250) *)
Variables (nbx nby bw bh : Z).
Hypothesis Hnbx : 0 < nbx.
Hypothesis Hnby : 0 < nby.
Hypothesis Hbw : 0 < bw.
Hypothesis Hbh : 0 < bh.
Variables (bx by_ : Z).
Let n_cols := nbx * bw.
(** np.split at the places where pos changes (221-223). *)
Fixpoint split_pos (l : list segment) : list (list segment) :=
  match l with
  | [] => []
  | c :: t => match split_pos t with
              | (d :: g) :: r => if s_pos d =? s_pos c then (c :: d :: g) :: r else [c] :: (d :: g) :: r
              | r => [c] :: r
              end
  end.
Definition cell_of (c : segment) : Z := get_row_index (s_pos c) n_cols by_ bh * bw + get_col_index (s_pos c) n_cols bx bw.
(** The feature rows of one year's day, initially the fill value. *)
Definition rows := Z -> F.
Fixpoint place (gs : list (list segment)) (day : Z) (m : rows) : rows :=
  match gs with
  | [] => m
  | g :: t => place t day (match g with
      | [] => m
      | c :: _ => fun i => if i =? cell_of c then feature g day else m i end)
  end.
Definition predict_features (block : list segment) (day : Z) : rows := place (split_pos block) day (fun _ => nan_val).

(** The record file of a block: for each pixel its records, all with the pixel's
    position id, pixels in processing order (tile_processing.py 492-551);
    [recs p] are those of pixel p of the block. *)
Definition pixel_pos (p : Z) : Z := let '(r, c) := get_rowcol_intile p bw bh bx by_ in pos_id n_cols r c.
Definition own (recs : Z -> list segment) : Prop := forall p c, In c (recs p) -> s_pos c = pixel_pos p.

Lemma split_group : forall g rest pos, g <> [] -> (forall c, In c g -> s_pos c = pos) ->
  (match rest with [] => True | d :: _ => s_pos d <> pos end) -> split_pos (g ++ rest) = g :: split_pos rest.
Proof.
  induction g as [|c g IH]; intros rest pos Hne Hg Hr; [congruence|]. destruct g as [|d g].
  - cbn [app split_pos]. destruct rest as [|e rest]; [reflexivity|].
    assert (H : exists h r, split_pos (e :: rest) = (e :: h) :: r).
    { cbn [split_pos]. destruct (split_pos rest) as [|[|x h] r]; [eauto|eauto|]. destruct (s_pos x =? s_pos e); eauto. }
    destruct H as (h & r & ->). rewrite (Hg c (or_introl eq_refl)). destruct (s_pos e =? pos) eqn:E; [lia|reflexivity].
  - change (split_pos ((c :: d :: g) ++ rest)) with (match split_pos ((d :: g) ++ rest) with
      | (x :: h) :: r => if s_pos x =? s_pos c then (c :: x :: h) :: r else [c] :: (x :: h) :: r | r => [c] :: r end).
    rewrite (IH rest pos); [|discriminate|intros x Hx; apply Hg; right; exact Hx|exact Hr].
    rewrite (Hg c (or_introl eq_refl)), (Hg d (or_intror (or_introl eq_refl))), Z.eqb_refl. reflexivity.
Qed.
Hypothesis Hbx : 1 <= bx <= nbx.
Hypothesis Hby : 1 <= by_ <= nby.
Lemma pixel_cell : forall p c, 0 <= p < bw * bh -> s_pos c = pixel_pos p -> cell_of c = p.
Proof.
  intros p c Hp E. unfold cell_of, pixel_pos in *. rewrite E. destruct (get_rowcol_intile p bw bh bx by_) as [r q] eqn:G.
  destruct (@C49_position nbx nby bw bh Hnbx Hnby Hbw Hbh bx by_ p r q Hbx Hby Hp G) as (_ & _ & H & _). exact H.
Qed.
Lemma pixel_pos_inj : forall p p', 0 <= p < bw * bh -> 0 <= p' < bw * bh -> pixel_pos p = pixel_pos p' -> p = p'.
Proof.
  intros p p' Hp Hp' E. unfold pixel_pos in E. destruct (get_rowcol_intile p bw bh bx by_) as [r q] eqn:G. destruct (get_rowcol_intile p' bw bh bx by_) as [r' q'] eqn:G'.
  destruct (@C49_position nbx nby bw bh Hnbx Hnby Hbw Hbh bx by_ p r q Hbx Hby Hp G) as (_ & H & _).
  destruct (@C49_position nbx nby bw bh Hnbx Hnby Hbw Hbh bx by_ p' r' q' Hbx Hby Hp' G') as (_ & H' & _).
  cbv zeta in H, H'. unfold n_cols in E. rewrite E in H. congruence.
Qed.
Theorem C77_features_placed : forall recs ps day p, own recs -> NoDup ps -> (forall q, In q ps -> 0 <= q < bw * bh) -> 0 <= p < bw * bh ->
  predict_features (flat_map recs ps) day p = (if in_dec Z.eq_dec p ps then feature (recs p) day else nan_val).
Proof.
  intros recs ps day p Hown Hnd Hps Hp. unfold predict_features.
  assert (G : forall ps m, NoDup ps -> (forall q, In q ps -> 0 <= q < bw * bh) ->
    place (split_pos (flat_map recs ps)) day m p = (if in_dec Z.eq_dec p ps then (match recs p with [] => m p | _ => feature (recs p) day end) else m p)).
  { clear ps Hnd Hps. induction ps as [|q ps IH]; intros m Hnd Hps; [reflexivity|].
    inversion_clear Hnd as [|? ? Hni Hnd']. assert (Hps' : forall x, In x ps -> 0 <= x < bw * bh) by (intros x Hx; apply Hps; right; exact Hx).
    cbn [flat_map]. destruct (recs q) as [|c g] eqn:E.
    - cbn [app]. rewrite IH by assumption.
      destruct (in_dec Z.eq_dec p ps) as [I|I], (in_dec Z.eq_dec p (q :: ps)) as [J|J]; try reflexivity.
      + destruct J. right. exact I.
      + destruct J as [->|J]; [rewrite E; reflexivity|contradiction].
    - rewrite (@split_group (c :: g) (flat_map recs ps) (pixel_pos q)).
      + cbn [place]. rewrite IH by assumption.
        assert (HC : cell_of c = q) by (apply pixel_cell; [apply Hps; left; reflexivity|apply Hown; rewrite E; left; reflexivity]). rewrite HC.
        destruct (in_dec Z.eq_dec p ps) as [I|I], (in_dec Z.eq_dec p (q :: ps)) as [J|J].
        * assert (p <> q) by (intros ->; contradiction). destruct (recs p); [|reflexivity]. destruct (p =? q) eqn:X; [lia|reflexivity].
        * destruct J. right. exact I.
        * destruct J as [->|J]; [|contradiction]. rewrite E, Z.eqb_refl. reflexivity.
        * destruct (p =? q) eqn:X; [|reflexivity]. destruct J. left. lia.
      + discriminate.
      + intros x Hx. apply Hown. rewrite E. exact Hx.
      + destruct (flat_map recs ps) as [|d r] eqn:FM; [exact I|].
        assert (Hd : In d (flat_map recs ps)) by (rewrite FM; left; reflexivity). apply in_flat_map in Hd. destruct Hd as (q' & Hq' & Hd).
        rewrite (Hown _ _ Hd). intros X. apply pixel_pos_inj in X; [subst q'; contradiction|apply Hps'; exact Hq'|apply Hps; left; reflexivity]. }
  rewrite G by assumption. destruct (in_dec Z.eq_dec p ps); [|reflexivity]. destruct (recs p); reflexivity.
Qed.
End Features.
(** One segment, then its successor; the last day of the last one has no
    features. *)
Definition demo_value (c : segment Z) (day : Z) : Z := s_data c.
Definition demo_plot : list (segment Z) := [mkSeg 100 200 7 1; mkSeg 250 400 7 2].
Example C61_example : map (feature demo_value (-9999) demo_plot) [99; 100; 200; 249; 250; 399; 400] = [-9999; 1; 1; 1; 2; 2; -9999].
Proof. vm_compute. reflexivity. Qed.
Theorem C61_last_day_refuted : exists plot day c, chrono plot /\ In c plot /\ s_start c <= day <= s_end c /\ feature demo_value (-9999) plot day = -9999.
Proof.
  exists demo_plot, 400, (mkSeg 250 400 7 2). split; [|repeat split; cbn; auto; lia]. repeat constructor; cbn; lia.
Qed.
(** A 2 x 2 tile of blocks of 2 x 2 pixels; block (2, 1) has pixels with
    position ids 3, 4, 7, 8. *)
Example C77_example :
  let f := predict_features demo_value (-9999) 2 2 2 2 1 [mkSeg 100 200 3 1; mkSeg 100 200 7 2; mkSeg 250 300 7 3; mkSeg 100 300 8 4] in
  map (f 260) [0; 1; 2; 3] = [-9999; -9999; 3; 4] /\ map (f 150) [0; 1; 2; 3] = [1; -9999; 2; 4].
Proof. vm_compute. auto. Qed.

(** ** C63: packs through the record file (utils.py 388-440,
    _colds_cython.pyx 366-412) *)
Section Packs.
Variables (Rc Md Ob : Type).
(** A numpy array with its dtype, or a Python list.  np.array([]) is a float64
    array of length 0. *)
Inductive dtype := Float64 | Structured.
Inductive seqv (A : Type) := Arr (d : dtype) (l : list A) | Lst (l : list A).
Arguments Arr {A}. Arguments Lst {A}.
Definition elems {A} (s : seqv A) : list A := match s with Arr _ l | Lst l => l end.
Record pack := mkPack { p_pos : Z; p_rec : seqv Rc; p_rmse : list Z; p_mode : Z; p_model : seqv Md; p_queue : seqv Ob }.
(** tolist converts each structured element to a tuple; its float32 fields
    become doubles of the same value and come back unchanged. *)
Definition tolist {A} (s : seqv A) : seqv A := Lst (elems s).
Definition asarray {A} (d : dtype) (s : seqv A) : seqv A := Arr d (elems s).
Definition is_nil {A} (s : seqv A) : bool := match elems s with [] => true | _ => false end.
(** unindex_sccdpack (388-402); pickle.dump and load keep the value. *)
Definition unindex (p : pack) : pack :=
  mkPack (p_pos p) (tolist (p_rec p)) (p_rmse p) (p_mode p)
    (if is_nil (p_model p) then p_model p else tolist (p_model p))
    (if is_nil (p_queue p) then p_queue p else tolist (p_queue p)).
(** index_sccdpack (405-440) *)
Definition reindex (p : pack) : pack :=
  mkPack (p_pos p) (if is_nil (p_rec p) then asarray Float64 (p_rec p) else asarray Structured (p_rec p)) (p_rmse p) (p_mode p)
    (if is_nil (p_model p) then p_model p else asarray Structured (p_model p))
    (if is_nil (p_queue p) then p_queue p else asarray Structured (p_queue p)).
Definition empty {A} : seqv A := Arr Float64 [].
(** What _sccd_detect and _sccd_update return, by mode (372-412, 508-529). *)
Definition returned (pos : Z) (recs : list Rc) (rmse : list Z) (mode : Z) (m : Md) (q : list Ob) : option pack :=
  let rec := match recs with [] => empty | _ => Arr Structured recs end in
  if (mode mod 10 =? 1) || (mode =? 3) then Some (mkPack pos rec rmse mode (Arr Structured [m]) empty)
  else if (mode mod 10 =? 2) || (mode =? 4) then Some (mkPack pos rec rmse mode empty (Arr Structured q))
  else if mode mod 10 =? 5 then Some (mkPack pos rec rmse mode (Arr Structured [m]) (Arr Structured q))
  else if mode =? 0 then Some (mkPack pos empty rmse mode empty empty)
  else None.
Theorem C63_round_trip : forall pos recs rmse mode m q p, returned pos recs rmse mode m q = Some p -> reindex (unindex p) = p.
Proof.
  intros pos recs rmse mode m q p H. unfold returned in H.
  destruct ((mode mod 10 =? 1) || (mode =? 3)); [|destruct ((mode mod 10 =? 2) || (mode =? 4)); [|destruct (mode mod 10 =? 5); [|destruct (mode =? 0); [|discriminate]]]];
    injection H as <-; destruct recs, q; reflexivity.
Qed.
(** C24, the wrapper's part: the arrays a mode needs are there. *)
Theorem C24_returned : forall pos recs rmse mode m q p, returned pos recs rmse mode m q = Some p ->
  (mode mod 10 = 1 \/ mode = 3 -> elems (p_model p) = [m]) /\
  (mode mod 10 = 2 \/ mode = 4 -> elems (p_queue p) = q) /\
  (mode mod 10 = 5 -> elems (p_model p) = [m] /\ elems (p_queue p) = q) /\
  (mode <> 0 -> elems (p_rec p) = recs) /\ p_mode p = mode.
Proof.
  intros pos recs rmse mode m q p H. unfold returned in H.
  destruct ((mode mod 10 =? 1) || (mode =? 3)) eqn:E1; [|destruct ((mode mod 10 =? 2) || (mode =? 4)) eqn:E2; [|destruct (mode mod 10 =? 5) eqn:E3; [|destruct (mode =? 0) eqn:E4; [|discriminate]]]];
    injection H as <-; cbn; repeat split; intros; try reflexivity; try lia; destruct recs; reflexivity.
Qed.
(** In void mode the records are dropped whatever they are. *)
Theorem C24_void_drops_records : forall pos recs rmse m q, exists p, returned pos recs rmse 0 m q = Some p /\ elems (p_rec p) = [].
Proof. intros. eexists. split; reflexivity. Qed.
End Packs.
Example C63_example : let p := returned 3 [10; 11] [1; 2] 5 20 [30; 31] in
  option_map (@reindex Z Z Z) (option_map (@unindex Z Z Z) p) = p /\ p <> None.
Proof. vm_compute. split; [reflexivity|discriminate]. Qed.

Print Assumptions C59_samples_partial.
Print Assumptions C59_enough.
Print Assumptions C59_training.
Print Assumptions C59_zero_label_refuted.
Print Assumptions C61_segment.
Print Assumptions C61_coverage.
Print Assumptions C61_last_day_refuted.
Print Assumptions C77_features_placed.
Print Assumptions C63_round_trip.
Print Assumptions C24_returned.
