(** Preparation of the image stacks
    (src/python/pycold/imagetool/prepare_ard.py): decoding of the packed QA
    bands (79-160), rescaling of Collection 2 bands (1006-1013, 1489-1495),
    names of the block files (242, 530, 843-863, 1303-1310) and how they are
    read back (tile_processing.py 208-261), and the omission of block images
    without a usable pixel (438-451, 703-716, 1174-1187, 1622-1635).

    Simplifications: files and archives are not modelled; the scale factors
    are exact rationals instead of doubles. *)
From Coq Require Import String Ascii QArith.
From Verif Require Import Base SortModel LibModel ColdModel ColdSpec ColdLemmas ColdProof ColdProps
  FrontModel FrontProps SparseProps ColdTop PyIndex.
Open Scope Z_scope.
Open Scope list_scope.

(** ** C70: QA decoding *)

(** np.bitwise_and(packed, 1 << b) > 0 *)
Definition bit (packed : Z) (b : Z) : bool := Z.land packed (Z.shiftl 1 b) >? 0.

(** qabitval_array_HLS (prepare_ard.py 79-105): later assignments win. *)
Definition qa_hls (p : Z) : Z :=
  let u := 0 in
  let u := if bit p 5 then 1 else u in
  let u := if bit p 4 then 3 else u in
  let u := if bit p 3 then 2 else u in
  let u := if bit p 2 then 4 else u in
  let u := if bit p 1 then 4 else u in
  if p =? 255 then 255 else u.
(** qabitval_array (prepare_ard.py 108-130). *)
Definition qa_c1 (p : Z) : Z :=
  let u := 255 in
  let u := if bit p 1 then 0 else u in
  let u := if bit p 2 then 1 else u in
  let u := if bit p 4 then 3 else u in
  let u := if bit p 3 then 2 else u in
  if bit p 5 then 4 else u.
(** qabitval_array_c2 (prepare_ard.py 133-160). *)
Definition qa_c2 (p : Z) : Z :=
  let u := 255 in
  let u := if bit p 6 then 0 else u in
  let u := if bit p 7 then 1 else u in
  let u := if bit p 5 then 3 else u in
  let u := if bit p 4 then 2 else u in
  let u := if bit p 3 then 4 else u in
  if bit p 1 then 4 else u.

(** Specification: the first condition of the list that holds decides. *)
Fixpoint first_of (l : list (bool * Z)) (d : Z) : Z :=
  match l with [] => d | (c, v) :: t => if c then v else first_of t d end.

Lemma bit_testbit : forall p b, 0 <= p -> 0 <= b -> bit p b = Z.testbit p b.
Proof.
  intros p b Hp Hb. unfold bit. rewrite Z.shiftl_1_l. destruct (Z.testbit p b) eqn:E.
  - apply Z.gtb_lt. assert (0 <= Z.land p (2 ^ b)) by (apply Z.land_nonneg; auto).
    assert (Z.land p (2 ^ b) <> 0); [|lia]. intro H0.
    assert (T : Z.testbit (Z.land p (2 ^ b)) b = true) by (rewrite Z.land_spec, E, Z.pow2_bits_true by assumption; reflexivity).
    rewrite H0, Z.bits_0 in T. discriminate.
  - rewrite Z.gtb_ltb. apply Z.ltb_ge. assert (Z.land p (2 ^ b) = 0); [|lia].
    apply Z.bits_inj. intro k. rewrite Z.bits_0, Z.land_spec.
    destruct (Z.eq_dec k b) as [->|Hk]; [rewrite E; reflexivity|].
    rewrite Z.pow2_bits_false by lia. apply andb_false_r.
Qed.

(** cloud > shadow > snow > water > clear (> fill); for HLS fill (the value
    255) comes first. *)
Theorem C70_hls : forall p, 0 <= p ->
  qa_hls p = first_of [(p =? 255, 255); (Z.testbit p 1 || Z.testbit p 2, 4); (Z.testbit p 3, 2);
                       (Z.testbit p 4, 3); (Z.testbit p 5, 1)] 0.
Proof.
  intros p Hp. unfold qa_hls, first_of. rewrite !bit_testbit by lia. destruct (p =? 255); [reflexivity|].
  destruct (Z.testbit p 1), (Z.testbit p 2); reflexivity.
Qed.
Theorem C70_c1 : forall p, 0 <= p ->
  qa_c1 p = first_of [(Z.testbit p 5, 4); (Z.testbit p 3, 2); (Z.testbit p 4, 3); (Z.testbit p 2, 1); (Z.testbit p 1, 0)] 255.
Proof. intros p Hp. unfold qa_c1, first_of. rewrite !bit_testbit by lia. reflexivity. Qed.
Theorem C70_c2 : forall p, 0 <= p ->
  qa_c2 p = first_of [(Z.testbit p 1 || Z.testbit p 3, 4); (Z.testbit p 4, 2); (Z.testbit p 5, 3);
                      (Z.testbit p 7, 1); (Z.testbit p 6, 0)] 255.
Proof. intros p Hp. unfold qa_c2, first_of. rewrite !bit_testbit by lia. destruct (Z.testbit p 1), (Z.testbit p 3); reflexivity. Qed.

(** Every decoded value is a code the detectors know (C03: any other code
    makes the detector fail). *)
Theorem C70_known : forall p, known_qa (qa_hls p) /\ known_qa (qa_c1 p) /\ known_qa (qa_c2 p).
Proof.
  intro p. unfold known_qa, qa_hls, qa_c1, qa_c2.
  repeat split; repeat match goal with |- context [if ?b then _ else _] => destruct b end; cbn; tauto.
Qed.
(** The documented order puts fill first; a code with the fill bit (bit 0)
    and another flag is not decoded as fill in Collection 1 and 2. *)
Theorem C70_fill_first_refuted : exists p, Z.testbit p 0 = true /\ qa_c1 p = 0 /\ exists p', Z.testbit p' 0 = true /\ qa_c2 p' = 0.
Proof. exists 3. split; [reflexivity|]. split; [reflexivity|]. exists 65. split; reflexivity. Qed.
Example C70_examples : qa_hls 224 = 1 /\ qa_hls 255 = 255 /\ qa_c1 66 = 0 /\ qa_c1 96 = 4 /\ qa_c1 1 = 255 /\
  qa_c2 21824 = 0 /\ qa_c2 21952 = 1 /\ qa_c2 22280 = 4 /\ qa_c2 1 = 255.
Proof. vm_compute. repeat split. Qed.

(** ** C71: Collection 2 rescaling *)

(** Files of a Collection 2 scene: surface reflectance bands and surface
    temperature.  [DNs] gives the digital number of a pixel. *)
Inductive c2_file := SR (k : Z) | ST.
(** Bands B1..B7 as loaded (prepare_ard.py 1319-1397 for Landsat 4-7,
    1398-1474 for Landsat 8-9; the same in 929-992). *)
Definition c2_load (oli : bool) : list c2_file :=
  if oli then [SR 2; SR 3; SR 4; SR 5; SR 6; SR 7; ST] else [SR 1; SR 2; SR 3; SR 4; SR 5; SR 7; ST].
(** (10000 * (x * 2.75e-05 - 0.2)).astype(int16): truncation towards zero;
    values of 16-bit DNs never leave the int16 range. *)
Definition scale_sr (dn : Z) : Z := Z.quot (275 * dn - 2000000) 1000.
(** (10 * (x * 0.00341802 + 149)).astype(int16) *)
Definition scale_st (dn : Z) : Z := Z.quot (341802 * dn + 14900000000) 10000000.
(** Which formula is applied to B1..B7 (prepare_ard.py 1006-1013, 1489-1495). *)
Definition c2_formula : list (Z -> Z) := [scale_sr; scale_sr; scale_sr; scale_sr; scale_sr; scale_st; scale_sr].
Definition c2_stored (oli : bool) (dn : c2_file -> Z) : list Z :=
  map (fun '(f, g) => g (dn f)) (combine (c2_load oli) c2_formula).
(** The product's own scale factors: reflectance times 10000, temperature in
    tenths of a kelvin (the unit of the detectors, utilities.c 1180-1190). *)
Definition product_value (f : c2_file) (dn : Z) : Z := match f with SR _ => scale_sr dn | ST => scale_st dn end.

Theorem C71_no_overflow : forall oli dn, (forall f, 0 <= dn f < 65536) -> Forall (fun v => -32768 <= v < 32768) (c2_stored oli dn).
Proof.
  intros oli dn H.
  assert (A : forall f, -32768 <= scale_sr (dn f) < 32768).
  { intro f. specialize (H f). unfold scale_sr.
    pose proof (Z.quot_rem' (275 * dn f - 2000000) 1000). pose proof (Z.rem_bound_abs (275 * dn f - 2000000) 1000 ltac:(lia)). lia. }
  assert (B : forall f, -32768 <= scale_st (dn f) < 32768).
  { intro f. specialize (H f). unfold scale_st.
    pose proof (Z.quot_rem' (341802 * dn f + 14900000000) 10000000). pose proof (Z.rem_bound_abs (341802 * dn f + 14900000000) 10000000 ltac:(lia)). lia. }
  unfold c2_stored. destruct oli; repeat constructor; first [apply A|apply B].
Qed.
(** The first five bands are right ... *)
Theorem C71_scale_partial : forall oli dn k, (k < 5)%nat ->
  nth_error (c2_stored oli dn) k = option_map (fun f => product_value f (dn f)) (nth_error (c2_load oli) k).
Proof. intros oli dn k Hk. destruct oli; do 5 (destruct k as [|k]; [reflexivity|]); lia. Qed.
(** ... the formulas of the second shortwave-infrared band and of the thermal
    band are exchanged. *)
Theorem C71_scale_refuted : forall oli, exists dn, (forall f, 0 <= dn f < 65536) /\
  nth_error (c2_load oli) 5 = Some (SR 7) /\ nth_error (c2_load oli) 6 = Some ST /\
  nth_error (c2_stored oli dn) 5 <> Some (product_value (SR 7) (dn (SR 7))) /\
  nth_error (c2_stored oli dn) 6 <> Some (product_value ST (dn ST)).
Proof.
  intro oli. exists (fun f => match f with SR _ => 10000 | ST => 44000 end).
  split; [intros []; lia|]. destruct oli; vm_compute; repeat split; discriminate.
Qed.
(** The damage is total: the stored sixth band never gets below 1490, and any
    surface between 0 and 100 degrees Celsius is stored far outside the range
    of the thermal check. *)
Theorem C71_swir2_offset : forall oli dn, (forall f, 0 <= dn f < 65536) ->
  exists v, nth_error (c2_stored oli dn) 5 = Some v /\ 1490 <= v <= 3730.
Proof.
  intros oli dn H. exists (scale_st (dn (SR 7))). split; [destruct oli; reflexivity|].
  specialize (H (SR 7)). unfold scale_st.
  rewrite Z.quot_div_nonneg by lia. split; [apply Z.div_le_lower_bound; lia|].
  assert ((341802 * dn (SR 7) + 14900000000) / 10000000 < 3731) by (apply Z.div_lt_upper_bound; lia). lia.
Qed.
Theorem C71_thermal_out_of_range : forall oli dn, 2732 <= scale_st (dn ST) <= 3732 -> 0 <= dn ST < 65536 ->
  exists t, nth_error (c2_stored oli dn) 6 = Some t /\
    ~ (-9320 < t * 10 - 27320 < 7070).
Proof.
  intros oli dn H1 H2. exists (scale_sr (dn ST)). split; [destruct oli; reflexivity|].
  unfold scale_st in H1. rewrite Z.quot_div_nonneg in H1 by lia.
  assert (36300 <= dn ST).
  { destruct (Z_lt_ge_dec (dn ST) 36300) as [L|]; [|lia]. exfalso.
    assert ((341802 * dn ST + 14900000000) / 10000000 < 2732) by (apply Z.div_lt_upper_bound; lia). lia. }
  unfold scale_sr. rewrite Z.quot_div_nonneg by lia.
  assert (7000 <= (275 * dn ST - 2000000) / 1000) by (apply Z.div_le_lower_bound; lia). lia.
Qed.
Example C71_example : c2_stored true (fun f => match f with SR _ => 10000 | ST => 44000 end) = [750; 750; 750; 750; 750; 1831; 10100].
Proof. vm_compute. reflexivity. Qed.

(** ** C72: omitted block images *)

(** A block image is skipped when none of its pixels is clear, water or snow
    (prepare_ard.py 438-451): what a pixel loses are rows with other codes. *)
Definition block_kept (codes : list Z) : bool := existsb (fun c => (c =? 0) || (c =? 1) || (c =? 3)) codes.
Lemma skipped_codes : forall codes c, block_kept codes = false -> In c codes -> known_qa c -> In c [2; 4; 255].
Proof.
  intros codes c H Hin Hk. unfold block_kept in H.
  assert (E : (c =? 0) || (c =? 1) || (c =? 3) = false).
  { apply not_true_iff_false. intro T. apply not_true_iff_false in H. apply H. apply existsb_exists. exists c. auto. }
  unfold known_qa in Hk. cbn in Hk. cbn. lia.
Qed.

Section Skip.
Variables M D C : Type.
Variable K : kernel M D.
Variable fit : list (Z * Z) -> option C.
Variable saturated : C.
Variable P : params.
Variable c2 : bool.
Variable junk : nat -> nat -> Z.

Lemma loop_fuel : forall f k s, loop K P f s <> Fuel -> loop K P (f + k) s = loop K P f s.
Proof.
  induction f as [|f IH]; intros k s H.
  - cbn [loop] in *. destruct (s_i s <=? s_end s - p_conse P) eqn:E; [congruence|].
    destruct k; cbn [loop Nat.add]; rewrite E; reflexivity.
  - cbn [loop Nat.add] in *. destruct (s_i s <=? s_end s - p_conse P); [|reflexivity].
    destruct (step K P s); cbn [bind] in *; try reflexivity. apply IH. assumption.
Qed.
Lemma stand_fuel : forall f g x cm, stand_procedure K P f x cm <> Fuel -> stand_procedure K P g x cm <> Fuel ->
  stand_procedure K P f x cm = stand_procedure K P g x cm.
Proof.
  assert (A : forall f g x cm, (f <= g)%nat -> stand_procedure K P f x cm <> Fuel -> stand_procedure K P f x cm = stand_procedure K P g x cm).
  { intros f g x cm Hle H. unfold stand_procedure in *.
    assert (L : loop K P f (init_st M D x cm) <> Fuel) by (intro E; rewrite E in H; apply H; reflexivity).
    rewrite <- (@loop_fuel f (g - f) _ L). replace (f + (g - f))%nat with g by lia. reflexivity. }
  intros f g x cm Hf Hg. destruct (Nat.le_ge_cases f g) as [L|L]; [apply A; assumption|symmetry; apply A; assumption].
Qed.

Lemma filter_clear : forall (f keep : raw -> bool) l, (forall q, In q l -> keep q = false -> f q = false) ->
  filter f (filter keep l) = filter f l.
Proof.
  induction l as [|q l IH]; intro H; [reflexivity|]. cbn [filter].
  assert (T : forall q, In q l -> keep q = false -> f q = false) by (intros; apply H; [right|]; assumption).
  destruct (keep q) eqn:Ek.
  - cbn [filter]. rewrite IH by assumption. reflexivity.
  - rewrite (H q (or_introl eq_refl) Ek), IH by assumption. reflexivity.
Qed.
Lemma qa_count_filter : forall codes keep l, (forall q, In q l -> keep q = false -> existsb (Z.eqb (q_qa q)) codes = false) ->
  qa_count codes (filter keep l) = qa_count codes l.
Proof. intros codes keep l H. unfold qa_count. f_equal. apply filter_clear. exact H. Qed.
Lemma sorted_sub : forall keep l, ~ unsorted l -> ~ unsorted (filter keep l).
Proof.
  intros keep l H U. apply dates_sorted_false in U. apply unsorted_sorted in H.
  apply (sorted_filter keep) in H. revert H U. generalize (filter keep l). clear.
  induction l as [|a [|b t] IH]; intros H U; [discriminate|discriminate|].
  cbn [dates_sorted] in U. cbn [map] in H. apply StronglySorted_inv in H as [H HF]. apply Forall_inv in HF.
  destruct (q_date a >? q_date b) eqn:E; [lia|]. exact (IH H U).
Qed.

(** The standard procedure is not affected. *)
Theorem C72_standard : forall l cm R keep, 1 <= p_conse P ->
  (forall q, In q l -> keep q = false -> In (q_qa q) [2; 3; 4; 255]) ->
  cold K fit saturated P c2 junk l cm = Ok (Standard R) ->
  cold K fit saturated P c2 junk (filter keep l) cm = Ok (Standard R).
Proof.
  intros l cm R keep Hc Hk E.
  assert (Hl : l <> []) by (intros ->; discriminate).
  destruct (@cold_cases M D C K fit saturated c2 junk P l cm Hc Hl) as [F|(Hu & HF & flags & c & Hp & Hn & [(_ & r & E2 & _)|(H24 & x & Ex & Hasc & Hfo & _ & E2)])];
    [congruence|congruence|].
  assert (Hcnt : qa_count [0; 1] (filter keep l) = qa_count [0; 1] l).
  { apply qa_count_filter. intros q Hin Hf. specialize (Hk q Hin Hf). cbn in *. lia. }
  assert (Hl' : filter keep l <> []) by (intro Z0; rewrite Z0 in Hcnt; change (qa_count [0; 1] []) with 0 in Hcnt; lia).
  destruct (@cold_cases M D C K fit saturated c2 junk P (filter keep l) cm Hc Hl') as [F|(Hu' & HF' & flags' & c' & Hp' & Hn' & [(L & _)|(_ & x' & Ex' & Hasc' & Hfo' & _ & E2')])].
  - exfalso. unfold cold in F. destruct (filter keep l) as [|q0 t0] eqn:Ef; [congruence|]. rewrite <- Ef in *.
    assert (Hs : dates_sorted (filter keep l) = true).
    { destruct (dates_sorted (filter keep l)) eqn:S; [reflexivity|]. apply dates_sorted_false in S. exfalso. exact (@sorted_sub keep l Hu S). }
    rewrite Hs in F. cbn [negb] in F.
    destruct (preprocess_eq c2 (filter keep l) (mkCounts 0 0 0 0 0)) as [[_ EP]|[EX _]].
    + rewrite EP in F. cbn [bind] in F. unfold add_counts in F. cbn [n_clear] in F. rewrite Z.add_0_l, Hcnt in F.
      replace (qa_count [0; 1] l <? 24) with false in F by lia.
      assert (Efl : flags = map (fun q => (q, id_range c2 q)) l) by (destruct (preprocess_eq c2 l (mkCounts 0 0 0 0 0)) as [[_ E0]|[_ E0]]; congruence).
      assert (Eq : select c2 (map (fun q => (q, id_range c2 q)) (filter keep l)) None = x).
      { rewrite Ex, Efl, !select_pick. f_equal. f_equal. apply filter_clear. intros q Hin Hf. specialize (Hk q Hin Hf). unfold clear_ok. cbn in Hk. lia. }
      rewrite Eq in F. rewrite E2 in E. destruct (stand_procedure K P (Datatypes.length l) x cm) as [R0| | |] eqn:ER; try discriminate.
      assert (Hfo' : fuel_ok P x (Datatypes.length (filter keep l))).
      { unfold fuel_ok. destruct (@select_facts c2 (filter keep l) _ _ (@sorted_sub keep l Hu) EP) as (_ & B & _). rewrite Eq in B. unfold zlen in *. lia. }
      rewrite <- (@stand_fuel (Datatypes.length l) (Datatypes.length (filter keep l)) x cm) in F.
      * rewrite ER in F. discriminate.
      * rewrite ER. discriminate.
      * apply C04_cold_terminates; assumption.
    + apply Exists_exists in EX as (q & Hin & Hq). apply filter_In in Hin as [Hin _]. rewrite Forall_forall in HF. exact (Hq (HF q Hin)).
  - rewrite Hcnt in L. lia.
  - assert (Efl : flags = map (fun q => (q, id_range c2 q)) l) by (destruct (preprocess_eq c2 l (mkCounts 0 0 0 0 0)) as [[_ E0]|[_ E0]]; congruence).
    assert (Efl' : flags' = map (fun q => (q, id_range c2 q)) (filter keep l)) by (destruct (preprocess_eq c2 (filter keep l) (mkCounts 0 0 0 0 0)) as [[_ E0]|[_ E0]]; congruence).
    assert (Eq : x' = x).
    { rewrite Ex, Ex', Efl, Efl', !select_pick. f_equal. f_equal. apply filter_clear. intros q Hin Hf. specialize (Hk q Hin Hf). unfold clear_ok. cbn in Hk. lia. }
    rewrite E2', Eq. rewrite E2 in E.
    rewrite (@stand_fuel (Datatypes.length (filter keep l)) (Datatypes.length l) x cm); [exact E| |].
    + apply C04_cold_terminates; try assumption. rewrite <- Eq. assumption.
    + apply C04_cold_terminates; assumption.
Qed.

(** Neither is the sparse procedure for mostly snow-covered pixels. *)
Theorem C72_snow : forall l cm r keep, 1 <= p_conse P -> qa_count [3] l > 3 * qa_count [0; 1] l ->
  (forall q, In q l -> keep q = false -> In (q_qa q) [2; 4; 255]) ->
  cold K fit saturated P c2 junk l cm = Ok (SparseRes r) ->
  cold K fit saturated P c2 junk (filter keep l) cm = Ok (SparseRes r).
Proof.
  intros l cm r keep Hc Hsn Hk E.
  assert (Hl : l <> []) by (intros ->; discriminate).
  destruct (@cold_cases M D C K fit saturated c2 junk P l cm Hc Hl) as [F|(Hu & HF & flags & c & Hp & Hn & [(L24 & r0 & E2 & Es & _)|(H24 & x & Ex & Hasc & Hfo & _ & E2)])];
    [congruence| |rewrite E2 in E; destruct (stand_procedure K P (Datatypes.length l) x cm); discriminate].
  rewrite E2 in E. injection E as ->.
  assert (Hcnt : qa_count [0; 1] (filter keep l) = qa_count [0; 1] l).
  { apply qa_count_filter. intros q Hin Hf. specialize (Hk q Hin Hf). cbn in *. lia. }
  assert (Hcs : qa_count [3] (filter keep l) = qa_count [3] l).
  { apply qa_count_filter. intros q Hin Hf. specialize (Hk q Hin Hf). cbn in *. lia. }
  assert (Hpos : 0 <= qa_count [0; 1] l) by (unfold qa_count, zlen; lia).
  assert (Hl' : filter keep l <> []) by (intro Z0; rewrite Z0 in Hcs; change (qa_count [3] []) with 0 in Hcs; lia).
  assert (Hs : dates_sorted (filter keep l) = true).
  { destruct (dates_sorted (filter keep l)) eqn:S; [reflexivity|]. apply dates_sorted_false in S. exfalso. exact (@sorted_sub keep l Hu S). }
  unfold cold. destruct (filter keep l) as [|q0 t0] eqn:Ef; [congruence|]. rewrite <- Ef in *. rewrite Hs. cbn [negb].
  destruct (preprocess_eq c2 (filter keep l) (mkCounts 0 0 0 0 0)) as [[_ EP]|[EX _]].
  2:{ apply Exists_exists in EX as (q & Hin & Hq). apply filter_In in Hin as [Hin _]. rewrite Forall_forall in HF. exfalso. exact (Hq (HF q Hin)). }
  rewrite EP. cbn [bind]. unfold add_counts. cbn [n_clear]. rewrite Z.add_0_l, Hcnt.
  replace (qa_count [0; 1] l <? 24) with true by lia.
  destruct (preprocess_eq c2 l (mkCounts 0 0 0 0 0)) as [[_ E0]|[_ E0]]; [|congruence].
  assert (Efl : flags = map (fun q => (q, id_range c2 q)) l) by congruence.
  assert (Ecn : c = add_counts (mkCounts 0 0 0 0 0) l) by congruence.
  unfold sparse in Es |- *. rewrite Ecn in Es. unfold add_counts in Es. cbn [n_snow n_clear] in Es |- *. rewrite !Z.add_0_l in Es.
  rewrite Z.add_0_l, Hcs.
  replace (qa_count [3] l >? 3 * qa_count [0; 1] l) with true in Es |- * by lia.
  assert (Esn : sparse_snow fit saturated c2 (filter keep l) = sparse_snow fit saturated c2 l).
  { unfold sparse_snow. replace (snow_rows (filter keep l)) with (snow_rows l); [reflexivity|].
    symmetry. unfold snow_rows. apply filter_clear. intros q Hin Hf. specialize (Hk q Hin Hf). cbn in Hk. lia. }
  rewrite map_map. cbn [fst]. rewrite map_id, Esn.
  rewrite Efl, map_map in Es. cbn [fst] in Es. rewrite map_id in Es. rewrite Es. reflexivity.
Qed.
End Skip.

(** The sparse procedure for mostly masked pixels uses the cloudy rows, so a
    pixel loses its record when its neighbours in the block are cloudy too. *)
Theorem C72_masked_refuted : exists l s keep, ~ unsorted l /\ (forall q, In q l -> keep q = false -> In (q_qa q) [2; 4; 255]) /\
  run_sparse false no_junk l = Ok (Some s) /\ run_sparse false no_junk (filter keep l) = Ok None.
Proof.
  exists (ramp 15 1 4 ++ [row_ 40 100 0; row_ 41 100 0]). eexists. exists (fun q => negb (q_qa q =? 4)).
  split; [intro U; apply dates_sorted_false in U; vm_compute in U; discriminate|].
  split; [|split; vm_compute; reflexivity].
  intros q _ E. assert (q_qa q = 4) by lia. cbn. lia.
Qed.
Example C72_example : block_kept [2; 4; 255; 4] = false /\ block_kept [2; 3] = true.
Proof. split; reflexivity. Qed.

(** ** C73: block files are found and dated *)
(** File name: three sensor characters, six tile characters, year, day of
    year, rest (prepare_ard.py 242, 530, 863, 1310). *)
Definition file_name (sensor tile year doy rest : string) : string :=
  (sensor ++ tile ++ year ++ doy ++ rest)%string.
(** Reading (tile_processing.py 229-241): the listing keeps names starting
    with L or S and takes the characters 9-12 and 13-15. *)
Definition listed (f : string) : bool := String.prefix "L" f || String.prefix "S" f.
Definition name_year (f : string) : string := String.substring 9 4 f.
Definition name_doy (f : string) : string := String.substring 13 3 f.
(** Sensor names written by the preparation (prepare_ard.py 843-854, 239-242). *)
Definition sensors : list string := ["LT4"; "LT5"; "LE7"; "LC8"; "LC9"; "L30"; "S30"]%string.

Lemma substring_skip : forall a b m n, String.length a = n -> substring n m (a ++ b)%string = substring 0 m b.
Proof. induction a as [|c a IH]; intros b m n <-; [reflexivity|]. cbn [append String.length substring]. apply IH. reflexivity. Qed.
Lemma substring_take : forall a b, substring 0 (String.length a) (a ++ b)%string = a.
Proof. induction a as [|c a IH]; intro b; [destruct b; reflexivity|]. cbn [append String.length substring]. rewrite IH. reflexivity. Qed.
Lemma append_assoc_s : forall a b c : string, ((a ++ b) ++ c = a ++ (b ++ c))%string.
Proof. induction a as [|x a IH]; intros b c; [reflexivity|]. cbn [append]. rewrite IH. reflexivity. Qed.
Lemma length_append : forall a b : string, String.length (a ++ b)%string = (String.length a + String.length b)%nat.
Proof. induction a as [|x a IH]; intro b; [reflexivity|]. cbn [append String.length]. rewrite IH. reflexivity. Qed.

Theorem C73_file_names : forall sensor tile year doy rest, In sensor sensors -> String.length tile = 6%nat ->
  String.length year = 4%nat -> String.length doy = 3%nat ->
  listed (file_name sensor tile year doy rest) = true /\
  name_year (file_name sensor tile year doy rest) = year /\ name_doy (file_name sensor tile year doy rest) = doy.
Proof.
  intros sensor tile year doy rest Hs Ht Hy Hd. unfold file_name, name_year, name_doy.
  assert (L3 : String.length sensor = 3%nat) by (cbn in Hs; repeat destruct Hs as [<-|Hs]; try reflexivity; contradiction).
  split; [cbn in Hs; repeat destruct Hs as [<-|Hs]; try reflexivity; contradiction|]. split.
  - rewrite <- append_assoc_s. rewrite substring_skip by (rewrite length_append; lia). rewrite <- Hy. apply substring_take.
  - rewrite <- !append_assoc_s. rewrite (append_assoc_s ((sensor ++ tile) ++ year)). rewrite substring_skip by (rewrite !length_append; lia).
    rewrite <- Hd. apply substring_take.
Qed.
Example C73_example : name_year "LC8028009201805" = "2018"%string /\ name_doy (file_name "LC8" "028009" "2018" "054" "C1V01") = "054"%string.
Proof. split; reflexivity. Qed.
