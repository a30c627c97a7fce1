(** The COLD state machine, continued: every fit and every mask it asks for is
    well posed (C92). *)
From Verif Require Import Base LibModel SortModel ColdModel ColdSpec ColdLemmas ColdProof ColdProps FrontModel FrontProps SparseProps ColdTop.

(** Observations in strictly ascending order of date, at least [n] of them. *)
Definition in_order (n : Z) (w : list obs) : bool := (n <=? zlen w) && ascb (map o_date w).

(** Days between the first and the last observation. *)
Definition days (w : list obs) : Z := dat w (zlen w - 1) - dat w 0.

(** A window on which a model of [df] coefficients is determined: no two
    observations of one day and at least two observations more than
    coefficients (the error divides by sqrt(nums - df), misc.c 2490); with
    more than four coefficients three observations per coefficient and more
    than a year. *)
Definition posed (df : Z) (w : list obs) : bool :=
  in_order (df + 2) w && ((df =? 4) || (((df =? 6) || (df =? 8)) && (3 * df <=? zlen w) && (366 <=? days w))).

(** The same numerical routines, except that a fit on any other window, and a
    mask (five coefficients, auto_mask) on fewer than six observations, fail. *)
Definition guarded {M D} (K : kernel M D) : kernel M D :=
  mkKernel (fun w => if in_order 6 w then k_mask K w else None)
           (fun df w => if posed df w then k_fit K df w else None)
           (k_stab K) (k_dev K) (k_devr K) (k_norm K) (k_angle K) (k_cm K).

Lemma asc_ascb : forall l, ascending l -> ascb l = true.
Proof.
  unfold ascending. induction l as [|a l IH]; intros H; [reflexivity|]. inversion H as [|? ? H1 H2]; subst.
  destruct l as [|b l]; [reflexivity|]. change ((a <? b) && ascb (b :: l) = true). rewrite IH by assumption.
  inversion H2; subst. replace (a <? b) with true by lia. reflexivity.
Qed.

Lemma in_order_ok : forall n l w, asc l -> subseq w l -> n <= zlen w -> in_order n w = true.
Proof.
  intros n l w Hl Hs Hn. unfold in_order. rewrite asc_ascb by (exact (asc_sub Hs Hl)).
  replace (n <=? zlen w) with true by lia. reflexivity.
Qed.

Lemma slice_facts : forall (l : list obs) a n w, slice l a n = Ok w ->
  0 <= a /\ 0 <= n /\ a + n <= zlen l /\ subseq w l /\ zlen w = n /\ w = firstn (Z.to_nat n) (skipn (Z.to_nat a) l).
Proof.
  intros l a n w H. pose proof (slice_len _ _ _ H) as Hn. apply slice_inv in H. destruct H as (H1 & H2 & H3 & ->).
  repeat split; auto. eapply subseq_trans; [apply subseq_firstn|apply subseq_skipn].
Qed.

Lemma bind_ext : forall A B (x : out A) (f g : A -> out B), (forall a, x = Ok a -> f a = g a) -> bind x f = bind x g.
Proof. intros A B x f g H. destruct x; cbn [bind]; auto. Qed.

Section Posed.
Variables M D : Type.
Variable K : kernel M D.
Variable P : params.
Variable x : list obs.
Variable cm : list (Z * Z).
Hypothesis Hc : 1 <= p_conse P.
Hypothesis Hx : asc x.
Notation K' := (guarded K).

Lemma posed4 : forall l w, asc l -> subseq w l -> 6 <= zlen w -> posed 4 w = true.
Proof.
  intros l w Hl Hs Hn. unfold posed. change (4 + 2) with 6.
  rewrite (@in_order_ok 6 l w) by assumption. reflexivity.
Qed.

Lemma mask_guard : forall l w, asc l -> subseq w l -> 6 <= zlen w -> k_mask K' w = k_mask K w.
Proof. intros l w Hl Hs Hn. cbn. rewrite (@in_order_ok 6 l w) by assumption. reflexivity. Qed.

Lemma fit4_guard : forall l w, asc l -> subseq w l -> 6 <= zlen w -> k_fit K' 4 w = k_fit K 4 w.
Proof. intros l w Hl Hs Hn. cbn [guarded k_fit]. rewrite (@posed4 l w) by assumption. reflexivity. Qed.

Lemma fitn_guard : forall l a n w, asc l -> slice l a n = Ok w -> 12 <= n -> dat l a + 366 <= dat l (a + n - 1) ->
  k_fit K' (update_cft n) w = k_fit K (update_cft n) w.
Proof.
  intros l a n w Hl Hs Hn Ht. apply slice_facts in Hs. destruct Hs as (Ha & _ & Hb & Hsub & Hlen & ->).
  set (w := firstn _ _) in *. cbn [guarded k_fit].
  assert (Hp : posed (update_cft n) w = true); [|rewrite Hp; reflexivity].
  assert (Hd : 366 <= days w).
  { unfold days, dat, w in *. rewrite Hlen. rewrite !nthO_firstn by lia. rewrite !nthO_skipn by lia.
    replace (a + 0) with a by lia. replace (a + (n - 1)) with (a + n - 1) by lia. lia. }
  unfold posed, update_cft. destruct (n <? 18) eqn:E1; [|destruct (n <? 24) eqn:E2].
  - rewrite (@in_order_ok (4 + 2) l w) by (auto; lia). reflexivity.
  - rewrite (@in_order_ok (6 + 2) l w) by (auto; lia). replace (3 * 6 <=? zlen w) with true by lia.
    replace (366 <=? days w) with true by lia. reflexivity.
  - rewrite (@in_order_ok (8 + 2) l w) by (auto; lia). replace (3 * 8 <=? zlen w) with true by lia.
    replace (366 <=? days w) with true by lia. reflexivity.
Qed.

Lemma lookback_sub : forall n m b w0 s s' w, lookback K P n m b w0 s = Ok (s', w) -> subseq (s_live s') (s_live s).
Proof.
  induction n as [|n IH]; intros m b w0 s s' w H; cbn [lookback] in H.
  - injection H as <- _. apply subseq_refl.
  - match type of H with (if ?c then _ else _) = _ => destruct c; [discriminate|] end.
    apply bind_ok in H. destruct H as (os & _ & H). apply bind_ok in H. destruct H as ((cm' & log') & _ & H).
    apply bind_ok in H. destruct H as (oi & _ & H).
    match type of H with (if ?c then _ else _) = _ => destruct c end.
    + injection H as <- _. apply subseq_refl.
    + match type of H with context [outlier0 ?k ?p ?v] => destruct (outlier0 k p v) end; apply IH in H.
      * eapply subseq_trans; [exact H|]. cbn. apply subseq_del.
      * exact H.
Qed.

Lemma initialise_guard : forall s, subseq (s_live s) x -> s_start s + 11 <= s_i s ->
  initialise K' P s = initialise K P s.
Proof.
  intros s Hsub Hi. assert (Ha : asc (s_live s)) by (exact (asc_sub Hsub Hx)).
  unfold initialise. apply bind_ext. intros w Hw.
  destruct (p_gap P <? max_gap w); [reflexivity|].
  apply bind_ext. intros wide Hwide. apply slice_facts in Hwide. destruct Hwide as (H1 & H2 & H3 & H4 & H5 & _).
  rewrite (@mask_guard (s_live s) wide) by (auto; lia).
  apply bind_ext. intros flags _. cbv zeta.
  destruct (zlen (keep_from flags 0 w) <? 12) eqn:E12; [reflexivity|].
  set (cp := firstn _ _ ++ _ ++ _).
  assert (Hcp : subseq cp (s_live s)).
  { apply slice_facts in Hw. destruct Hw as (G1 & G2 & G3 & G4 & G5 & ->).
    unfold cp. replace (Z.to_nat (s_i s)) with (Z.to_nat (s_start s - 1) + Z.to_nat (s_i s - s_start s + 1))%nat by lia.
    apply subseq_mid. apply keep_sub. }
  assert (Hca : asc cp) by (exact (asc_sub Hcp Ha)).
  apply bind_ext. intros ce _. apply bind_ext. intros cs _.
  destruct (o_date ce - o_date cs <? 366); [reflexivity|].
  apply bind_ext. intros wf Hwf. apply slice_facts in Hwf. destruct Hwf as (F1 & F2 & F3 & F4 & F5 & _).
  rewrite (@fit4_guard cp wf) by (auto; lia).
  apply bind_ext. intros m _. change (k_stab K' m wf) with (k_stab K m wf).
  destruct (fgt (k_stab K m wf) (Fin (p_tcg P))); [reflexivity|].
  apply bind_ext. intros b _.
  match goal with |- bind ?u _ = bind ?v _ => change u with v end.
  apply bind_ext. intros (s2, lw) Hlb. apply lookback_sub in Hlb. cbn [s_live] in Hlb.
  destruct (s_recs s2); [|reflexivity].
  destruct (6 <=? s_start s2 - s_dense s2) eqn:E6; [|reflexivity].
  apply bind_ext. intros w2 Hw2. apply slice_facts in Hw2. destruct Hw2 as (L1 & L2 & L3 & L4 & L5 & _).
  rewrite (@fit4_guard (s_live s2) w2) by (auto; try lia; exact (asc_sub Hlb Hca)).
  reflexivity.
Qed.

Lemma mon_fit_guard : forall s, subseq (s_live s) x -> s_start s + 11 <= s_i s ->
  dat (s_live s) (s_start s - 1) + 366 <= dat (s_live s) (s_i s - 1) -> mon_fit K' P s = mon_fit K P s.
Proof.
  intros s Hsub Hi Ht. assert (Ha : asc (s_live s)) by (exact (asc_sub Hsub Hx)).
  unfold mon_fit. cbv zeta. apply bind_ext. intros xe _. apply bind_ext. intros xs _.
  assert (Hf : forall w, slice (s_live s) (s_start s - 1) (s_i s - s_start s + 1) = Ok w ->
    k_fit K' (update_cft (s_i s - s_start s + 1)) w = k_fit K (update_cft (s_i s - s_start s + 1)) w).
  { intros w Hw. apply (@fitn_guard (s_live s) (s_start s - 1)); auto; [lia|].
    replace (s_start s - 1 + (s_i s - s_start s + 1) - 1) with (s_i s - 1) by lia. assumption. }
  destruct ((s_count s =? 0) || _).
  - apply bind_ext. intros w Hw. rewrite (Hf w Hw). reflexivity.
  - destruct (s_cur s); [|reflexivity]. destruct (s_fit s); [|reflexivity].
    match goal with |- bind ?u _ = bind ?v _ => assert (E : u = v) end.
    { match goal with |- (if ?c then _ else _) = _ => destruct c; [|reflexivity] end.
      apply bind_ext. intros w Hw. rewrite (Hf w Hw). reflexivity. }
    rewrite E. reflexivity.
Qed.

Lemma step_guard : forall s, Inv K P x cm s -> s_i s <= s_end s - p_conse P -> step K' P s = step K P s.
Proof.
  intros s HI Hi. pose proof HI as (HC & HT & _). unfold step.
  pose proof (c_sub HC) as Hsub. pose proof (c_start HC) as Hst.
  apply bind_ext. intros xe He. apply bind_ext. intros xs Hs.
  destruct ((12 <=? s_i s - s_start s + 1) && (366 <=? o_date xe - o_date xs)) eqn:E; [|reflexivity].
  assert (Hd : dat (s_live s) (s_start s - 1) + 366 <= dat (s_live s) (s_i s - 1)).
  { unfold s_end in Hi. rewrite (get_ok (s_live s) dflt_obs) in He by lia. rewrite (get_ok (s_live s) dflt_obs) in Hs by lia.
    injection He as He. injection Hs as Hs. unfold dat, nthO. rewrite He, Hs. lia. }
  destruct (s_train s) eqn:Etr.
  - unfold monitor. rewrite (@mon_fit_guard s Hsub) by (auto; lia). reflexivity.
  - rewrite (@initialise_guard s Hsub) by lia. apply bind_ext. intros (s1, tr) H1.
    pose proof (@initialise_wp M D K P x cm Hc Hx s HC Etr Hi) as Hwp. rewrite H1 in Hwp.
    destruct tr; [|reflexivity]. cbn [wp fst snd] in Hwp.
    destruct Hwp as [Rc Rt Rn Rs Rd Ri Rm]; [lia|assumption|].
    unfold monitor. rewrite (@mon_fit_guard s1 (c_sub Rc)) by (auto; lia). reflexivity.
Qed.

Lemma loop_guard : forall fuel s, Inv K P x cm s -> loop K' P fuel s = loop K P fuel s.
Proof.
  induction fuel as [|fuel IH]; intros s HI; cbn [loop]; [reflexivity|].
  destruct (s_i s <=? s_end s - p_conse P) eqn:E; [|reflexivity].
  rewrite (@step_guard s HI) by lia. apply bind_ext. intros s' H'. apply IH.
  pose proof (@step_wp M D K P x cm Hc Hx s HI) as Hw. rewrite H' in Hw. destruct Hw as (Hp & _); [lia|exact Hp].
Qed.

Lemma loop_inv : forall fuel s s', Inv K P x cm s -> loop K P fuel s = Ok s' -> Inv K P x cm s'.
Proof.
  induction fuel as [|fuel IH]; intros s s' HI H; cbn [loop] in H;
    destruct (s_i s <=? s_end s - p_conse P) eqn:E; try discriminate; try (injection H as <-; assumption).
  apply bind_ok in H. destruct H as (s1 & H1 & H). apply IH in H; [assumption|].
  pose proof (@step_wp M D K P x cm Hc Hx s HI) as Hw. rewrite H1 in Hw. destruct Hw as (Hp & _); [lia|exact Hp].
Qed.

Lemma finish_guard : forall s, subseq (s_live s) x -> finish_untrained K' s = finish_untrained K s.
Proof.
  intros s Hsub. assert (Ha : asc (s_live s)) by (exact (asc_sub Hsub Hx)).
  unfold finish_untrained. set (st0 := match rev (s_recs s) with [] => 1 | _ :: _ => _ end).
  match goal with |- bind ?u _ = bind ?v _ => assert (E : u = v) end.
  { destruct (6 <=? s_end s - st0 + 1) eqn:E6; [|reflexivity].
    apply bind_ext. intros w Hw. apply slice_facts in Hw. destruct Hw as (G1 & G2 & G3 & G4 & G5 & _).
    rewrite (@mask_guard (s_live s) w) by (auto; lia). reflexivity. }
  rewrite E. apply bind_ext. intros live Hl.
  assert (Hla : asc live).
  { destruct (6 <=? s_end s - st0 + 1) eqn:E6; [|injection Hl as <-; assumption].
    apply bind_ok in Hl. destruct Hl as (w & Hw & Hl). apply bind_ok in Hl. destruct Hl as (flags & _ & Hl).
    injection Hl as <-. apply slice_facts in Hw. destruct Hw as (G1 & G2 & G3 & G4 & G5 & ->).
    eapply asc_sub; [|exact Ha].
    match goal with |- subseq (?u ++ ?v) _ =>
      replace (u ++ v) with (u ++ v ++ skipn (Z.to_nat (st0 - 1) + Z.to_nat (s_end s - st0 + 1)) (s_live s)) end.
    - apply subseq_mid. apply keep_sub.
    - rewrite (@skipn_all2 obs (Z.to_nat (st0 - 1) + Z.to_nat (s_end s - st0 + 1)) (s_live s)) by (clearbody st0; clear - G1 G2 G3; unfold s_end, zlen in *; lia). rewrite app_nil_r. reflexivity. }
  destruct (6 <=? zlen live - st0 + 1) eqn:E6; [|reflexivity].
  apply bind_ext. intros w Hw. apply slice_facts in Hw. destruct Hw as (G1 & G2 & G3 & G4 & G5 & _).
  rewrite (@fit4_guard live w) by (auto; lia). reflexivity.
Qed.

(** Whatever the fits and the mask do on windows that are not well posed, the
    procedure computes the same result, because it never asks for them. *)
Theorem C92_fits_well_posed : forall fuel, stand_procedure K' P fuel x cm = stand_procedure K P fuel x cm.
Proof.
  intros fuel. unfold stand_procedure. rewrite (@loop_guard fuel (init_st M D x cm)) by apply Inv_init.
  apply bind_ext. intros s Hs. apply loop_inv in Hs; [|apply Inv_init].
  destruct (s_train s); [reflexivity|]. rewrite finish_guard; [reflexivity|]. destruct Hs as (HC & _). exact (c_sub HC).
Qed.
End Posed.

(* ------------------------------------------------------------------ *)
(** * The procedure for few clear observations *)

(** Fits on fewer than twelve pairs fail. *)
Definition guarded12 {C} (fit : list (Z * Z) -> option C) : list (Z * Z) -> option C :=
  fun w => if 12 <=? zlen w then fit w else None.

Section Sparse.
Variable C : Type.
Variable fit : list (Z * Z) -> option C.
Variable saturated : C.
Variable junk : nat -> nat -> Z.
Notation fit' := (guarded12 fit).

Lemma cells_guard : forall clrx col n, 12 <= n -> fit_cells fit' clrx col n = fit_cells fit clrx col n.
Proof.
  intros clrx col n Hn. unfold fit_cells. apply bind_ext. intros xs Hxs. apply bind_ext. intros ys Hys.
  unfold guarded12. replace (12 <=? zlen (combine xs ys)) with true; [reflexivity|].
  apply slice_len in Hxs. apply slice_len in Hys. unfold zlen in *. rewrite combine_length. lia.
Qed.

Lemma bands_guard : forall cols clrx n, 12 <= n -> fit_bands fit' clrx cols n = fit_bands fit clrx cols n.
Proof.
  induction cols as [|col cols IH]; intros clrx n Hn; cbn [fit_bands]; [reflexivity|].
  rewrite cells_guard by assumption. apply bind_ext. intros (c, io) _. rewrite IH by assumption. reflexivity.
Qed.

Lemma masked_guard : forall c2 l, sparse_masked fit' c2 junk l = sparse_masked fit c2 junk l.
Proof.
  intros c2 l. unfold sparse_masked.
  apply bind_ext. intros ((clrx1, cols1), endd) _. apply bind_ext. intros green _. apply bind_ext. intros green1 _.
  apply bind_ext. intros cols2 _. apply bind_ext. intros med2 _. apply bind_ext. intros ((clrx3, cols3), n) _.
  destruct (n <? 12) eqn:E; [reflexivity|]. rewrite bands_guard by lia. reflexivity.
Qed.

(** Compaction keeps every cell when all are within the range. *)
Lemma compact_all : forall lo hi n i clrx col r, 0 <= i -> compact lo hi n i i clrx col = Ok r ->
  (forall k v, get col k = Ok v -> lo < v < hi) -> snd r = i + Z.of_nat n.
Proof.
  induction n as [|n IH]; intros i clrx col r Hi H Hv; cbn [compact] in H.
  - injection H as <-. cbn [snd]. lia.
  - apply bind_ok in H. destruct H as (v & Ev & H). pose proof (Hv i v Ev) as Hr.
    replace ((v >? lo) && (v <? hi)) with true in H by lia.
    apply bind_ok in H. destruct H as (x & Ex & H). apply bind_ok in H. destruct H as (clrx1 & E1 & H).
    apply bind_ok in H. destruct H as (col1 & E2 & H). apply IH in H; [lia|lia|].
    intros k v' Hk. destruct (get_inv _ _ Hk) as [Hkr Hkv].
    rewrite (get_ok col1 0) in Hk by assumption. injection Hk as <-.
    rewrite (@nth_put Z col i v col1 (Z.to_nat k) 0 E2).
    assert (Hl : zlen col1 = zlen col) by (unfold zlen; rewrite (put_len _ _ _ E2); reflexivity).
    destruct (Nat.eqb (Z.to_nat k) (Z.to_nat i)); [assumption|]. apply (Hv k). apply get_ok. lia.
Qed.

Lemma snow_bands_guard : forall endd cols clrx, (12 <= endd)%nat ->
  (forall th pre, cols = pre ++ [th] -> forall k v, get th k = Ok v -> v = 0) ->
  snow_bands fit' saturated endd clrx cols = snow_bands fit saturated endd clrx cols.
Proof.
  induction cols as [|col cols IH]; intros clrx Hn Hth; cbn [snow_bands]; [reflexivity|].
  apply bind_ext. intros (lo, hi) Hlh. apply bind_ext. intros ((clrx1, col1), span) Hcp.
  destruct cols as [|col2 cols].
  - injection Hlh as <- <-. rewrite cells_guard; [reflexivity|].
    apply compact_all in Hcp; [cbn [snd] in Hcp; lia|lia|].
    intros k v Hk. rewrite (Hth col [] eq_refl k v Hk). lia.
  - assert (E : (if span <? 12 then Ok (saturated, None) else fit_cells fit' clrx1 col1 span) =
                (if span <? 12 then Ok (saturated, None) else fit_cells fit clrx1 col1 span)).
    { destruct (span <? 12) eqn:E; [reflexivity|]. apply cells_guard. lia. }
    rewrite E. apply bind_ext. intros (c, io) _. rewrite IH; [reflexivity|assumption|].
    intros th pre Ep. apply (Hth th (col :: pre)). rewrite Ep. reflexivity.
Qed.

Lemma snow_guard : forall l, sparse_snow fit' saturated true l = sparse_snow fit saturated true l.
Proof.
  intros l. unfold sparse_snow. cbv zeta. set (rows := snow_rows l) in *.
  destruct (zlen rows <? 12) eqn:E12; [reflexivity|].
  rewrite snow_bands_guard; [reflexivity|unfold zlen in E12; lia|].
  intros th pre Ep k v Hk.
  assert (Et : th = map (fun _ : raw => 0) rows).
  { apply (f_equal (fun z => last z [])) in Ep. rewrite last_app1 in Ep. cbn [last] in Ep. symmetry. exact Ep. }
  subst th. destruct (get_inv _ _ Hk) as [Hkr _]. rewrite (get_ok _ 0) in Hk by assumption. injection Hk as <-.
  apply (map_nth (fun _ : raw => 0) rows (mkRaw 0 0 0 0 0 0 0 0 0)).
Qed.

Lemma sparse_guard : forall c2 l c, c2 = true \/ n_snow c <= 3 * n_clear c ->
  sparse fit' saturated c2 junk l c = sparse fit saturated c2 junk l c.
Proof.
  intros c2 l c H. unfold sparse. destruct (n_snow c >? 3 * n_clear c) eqn:E; [|apply masked_guard].
  destruct H as [->|H]; [|lia]. apply snow_guard.
Qed.
End Sparse.

(** The whole of cold_detect: with Collection 2 data, or unless the pixel is
    mostly snow. *)
Theorem C92_cold_detect : forall M D C (K : kernel M D) (fit : list (Z * Z) -> option C) saturated P c2 junk a l,
  1 <= p_conse P -> c2 = true \/ qa_count [3] l <= 3 * qa_count [0; 1] l ->
  cold_detect (guarded K) (guarded12 fit) saturated P c2 junk a l = cold_detect K fit saturated P c2 junk a l.
Proof.
  intros M D C K fit saturated P c2 junk a l Hc Hs. unfold cold_detect. destruct l as [|q l]; [reflexivity|].
  set (L := q :: l) in *. apply bind_ext. intros (cfg, n) _. cbv zeta.
  match goal with |- bind ?u _ = bind ?v _ => assert (E : u = v); [|rewrite E; reflexivity] end.
  unfold cold. subst L. destruct (negb (dates_sorted (q :: l))) eqn:Ed; [reflexivity|].
  apply bind_ext. intros (flags, c) Hp.
  assert (Hu : ~ unsorted (q :: l)).
  { intros H. apply dates_sorted_false in H. rewrite H in Ed. discriminate. }
  destruct (preprocess_eq c2 (q :: l) (mkCounts 0 0 0 0 0)) as [[HF E]|[HE E]]; rewrite Hp in E; [|discriminate].
  injection E as _ Ec.
  destruct (n_clear c <? 24).
  - rewrite sparse_guard; [reflexivity|]. destruct Hs as [Hs|Hs]; [left; assumption|right].
    rewrite Ec. unfold add_counts. cbn [n_clear n_snow]. lia.
  - rewrite C92_fits_well_posed; [reflexivity|assumption|].
    apply (@select_facts c2 (q :: l) flags c Hu Hp).
Qed.

(** The guarded routines really refuse windows, and the two-level series is
    processed by them with the same records as in [run_detect]. *)
Example guarded_refuses :
  k_fit (guarded toy) 4 (lvl 5 0 730000 16) = None /\ k_fit toy 4 (lvl 5 0 730000 16) <> None /\
  k_fit (guarded toy) 8 (lvl 24 0 730000 15) = None /\ k_fit (guarded toy) 8 (lvl 24 0 730000 16) <> None /\
  k_mask (guarded toy) (lvl 8 0 730000 0) = None /\ k_mask toy (lvl 8 0 730000 0) <> None.
Proof. vm_compute. repeat split; discriminate. Qed.

Example guarded_run : cold_detect (guarded toy) (guarded12 idfit) [] (toyP None) true no_junk cm_off two_rows =
  Ok ([mkO 730000 730464 730480 30 8 100; mkO 730480 730944 0 24 8 0], [(-9999, -9999)]).
Proof. vm_compute. reflexivity. Qed.

(** Twelve snow observations without thermal values in Collection 1 data: the
    thermal band is fitted to no observation at all (cold.c 5056 with i_span
    0, a window from 0 to -1). *)
Definition snow_cold : list raw := map (fun k => mkRaw (730000 + 16 * Z.of_nat k) 5000 5000 5000 5000 5000 5000 0 3) (seq 0 12).
Theorem C92_snow_thermal_refuted : exists l r, ~ unsorted l /\
  cold toy idfit [] (toyP None) false no_junk l [] = Ok (SparseRes (Some r)) /\ last (sp_in r) None = Some [].
Proof.
  exists snow_cold. eexists. split; [|split].
  - intros H. apply dates_sorted_false in H. vm_compute in H. discriminate.
  - vm_compute. reflexivity.
  - reflexivity.
Qed.
Print Assumptions C92_snow_thermal_refuted.
Print Assumptions C92_fits_well_posed.
Print Assumptions C92_cold_detect.
