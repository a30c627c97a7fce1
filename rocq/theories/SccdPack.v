(** Sequences of S-CCD calls: the state handed from one call to the next. *)
From Verif Require Import Base SortModel LibModel LibProps ColdModel ColdLemmas FrontModel FrontProps SccdModel SccdProof SccdTop.

(** Dates a [short] counted from the Landsat 4 launch can hold (until 2072). *)
Definition in_days (d : Z) : Prop := launch <= d <= launch + 32767.

Lemma ld_stv : forall o, in_days (o_date o) -> ld_obs (stv o) = o.
Proof.
  intros [d v] H. unfold ld_obs, stv, in_days in *. cbn [o_date o_vals] in *. rewrite wrap16_id by lia. f_equal. lia.
Qed.

Lemma ld_stv_map : forall l, Forall (fun o => in_days (o_date o)) l -> map ld_obs (map stv l) = l.
Proof.
  induction l; intros H; [reflexivity|]. inversion H; subst. simpl. rewrite ld_stv, IHl by assumption. reflexivity.
Qed.

(** ** Appended rows *)

Definition rows_sorted (l : list raw) : Prop := StronglySorted (fun a b => q_date a <= q_date b) l.

Lemma append_in : forall keep l last o, In o (append_obs keep l last) ->
  exists q, In q l /\ keep q = true /\ o = sobs (fst q).
Proof.
  intros keep l. induction l as [|q t IH]; intros last o H; [contradiction|]. cbn [append_obs] in H.
  destruct (keep q) eqn:E.
  - assert (HH : o = sobs (fst q) \/ exists d, In o (append_obs keep t d)).
    { destruct last as [d|]; [destruct (q_date (fst q) =? d)|]; simpl in H.
      - right. exists (Some d). assumption.
      - destruct H as [<-|H]; [left; reflexivity|right; eauto].
      - destruct H as [<-|H]; [left; reflexivity|right; eauto]. }
    destruct HH as [-> |[d H']].
    + exists q. simpl. auto.
    + destruct (IH _ _ H') as (q' & H1 & H2). exists q'. simpl. tauto.
  - destruct (IH _ _ H) as (q' & H1 & H2). exists q'. simpl. tauto.
Qed.

Lemma append_asc : forall keep l last, rows_sorted (map fst l) ->
  (forall d, last = Some d -> Forall (fun q => d <= q_date (fst q)) l) ->
  asc (append_obs keep l last) /\
  (forall d, last = Some d -> Forall (fun o => d < o_date o) (append_obs keep l last)).
Proof.
  intros keep l. induction l as [|q t IH]; intros last Hs Hl.
  { simpl. split; [constructor|]. intros; constructor. }
  cbn [append_obs]. simpl in Hs. inversion Hs as [|? ? Hs' Hf]; subst.
  assert (Ht : forall d, last = Some d -> Forall (fun q => d <= q_date (fst q)) t).
  { intros d Hd. specialize (Hl d Hd). inversion Hl; assumption. }
  assert (Hq : forall d, Some (q_date (fst q)) = Some d -> Forall (fun p => d <= q_date (fst p)) t).
  { intros d Hd. inversion Hd; subst. rewrite Forall_map in Hf. assumption. }
  assert (Hcons : asc (sobs (fst q) :: append_obs keep t (Some (q_date (fst q))))).
  { destruct (IH (Some (q_date (fst q))) Hs' Hq) as [H1 H2]. unfold asc, ascending in *. simpl.
    constructor; [assumption|]. specialize (H2 _ eq_refl). rewrite Forall_map. assumption. }
  destruct (keep q); [|apply IH; assumption].
  destruct last as [d0|].
  - destruct (q_date (fst q) =? d0) eqn:E; [apply IH; assumption|].
    split; [assumption|]. intros d Hd. inversion Hd; subst.
    specialize (Hl d eq_refl). inversion Hl; subst.
    constructor; [simpl; lia|].
    destruct (IH (Some (q_date (fst q))) Hs' Hq) as [_ H2']. specialize (H2' _ eq_refl).
    eapply Forall_impl; [|exact H2']. simpl. intros; lia.
  - split; [assumption|]. discriminate.
Qed.

Lemma last_date_spec : forall x o, last_date (x ++ [o]) = Some (o_date o).
Proof. intros. unfold last_date. rewrite rev_app_distr. reflexivity. Qed.

Lemma asc_app : forall a b, asc a -> asc b -> (forall d, last_date a = Some d -> Forall (fun o => d < o_date o) b) ->
  asc (a ++ b).
Proof.
  intros a b Ha Hb Hl. destruct a as [|a0 a1] eqn:E; [assumption|]. rewrite <- E in *.
  destruct (@exists_last _ a) as (a' & o & Eo); [congruence|]. clear E a0 a1. subst a.
  specialize (Hl _ (last_date_spec a' o)).
  assert (Hall : forall y, In y (a' ++ [o]) -> Forall (fun z => o_date y < o_date z) b).
  { intros y Hy. assert (o_date y <= o_date o).
    { apply in_app_or in Hy. destruct Hy as [Hy|[<-|[]]]; [|lia].
      unfold asc, ascending in Ha. rewrite map_app in Ha. clear -Ha Hy. induction a' as [|c a' IH]; [contradiction|].
      simpl in Ha. inversion Ha as [|? ? H1 H2]; subst. destruct Hy as [-> |Hy]; [|auto].
      rewrite Forall_forall in H2. specialize (H2 (o_date o)). 
      assert (o_date y < o_date o) by (apply H2; apply in_or_app; right; left; reflexivity). lia. }
    eapply Forall_impl; [|exact Hl]. simpl. intros; lia. }
  clear Hl. induction (a' ++ [o]) as [|c l IH]; [assumption|].
  unfold asc, ascending in *. simpl in *. inversion Ha; subst. constructor; [auto|].
  rewrite map_app. apply Forall_app. split; [assumption|]. rewrite Forall_map. apply Hall. auto.
Qed.

(** ** One call *)

Section Pack.
Variables N S F C : Type.
Variable K : list Z -> skernel N S F C.
Variable P : sparams.
Notation seg := (seg C).
Notation io := (io S C).

(** The observations a call works on. *)
Definition call_obs (c2 : bool) (snow : bool) (rows : list raw) (a : io) : list obs :=
  carried a ++ append_obs (if snow then keep_snow else keep_std)
                 (map (fun q => (q, id_range c2 q)) rows) (last_date (carried a)).

Lemma sccd_cases : forall c2 junk fuel rows (a : io), length junk = 6%nat ->
  (sccd K P c2 junk fuel rows a = Fail) \/
  (exists (sn : bool), (sn = false -> io_mode a <> 3 /\ io_mode a <> 4) /\
     (sn = true -> io_mode a = 0 \/ io_mode a = 3 \/ io_mode a = 4) /\
     mode_ok (io_mode a) = true /\
     let x := call_obs c2 sn rows a in
     ((sn = true /\ sccd K P c2 junk fuel rows a = snow (K (io_rmse a)) x a) \/
      (sn = false /\ x = carried a /\ sccd K P c2 junk fuel rows a = Ok a) \/
      (sn = false /\ zlen (carried a) < zlen x /\ exists rm, 
         (io_recs a = [] /\ io_mode a = 0 \/ rm = io_rmse a) /\
         sccd K P c2 junk fuel rows a =
         standard (K rm) P fuel x (mkIO (io_mode a) (io_recs a) (io_model a) (io_queue a) rm (io_pins a))))).
Proof.
  intros c2 junk fuel rows a Hj. unfold sccd.
  destruct (mode_ok (io_mode a)) eqn:Em; [|left; reflexivity].
  cbn [negb]. destruct (preprocess_eq c2 rows (mkCounts 0 0 0 0 0)) as [[_ E]|[_ E]]; rewrite E; [|left; reflexivity].
  cbn [bind]. set (cnt := add_counts _ _).
  destruct (is_snow (io_mode a) cnt) eqn:Es.
  - right. exists true. split; [discriminate|]. split.
    { intros _. unfold is_snow in Es. destruct (io_mode a =? 0) eqn:E0; lia. }
    split; [reflexivity|]. left. split; reflexivity.
  - assert (Hsn : io_mode a <> 3 /\ io_mode a <> 4).
    { unfold is_snow in Es. destruct (io_mode a =? 0) eqn:E0; lia. }
    destruct (zlen (carried a) <? _) eqn:El.
    2: { right. exists false. split; [auto|]. split; [discriminate|]. split; [reflexivity|].
         right. left. split; [reflexivity|]. split; [|reflexivity].
         unfold call_obs. rewrite zlen_app in El.
         destruct (append_obs keep_std _ _); [apply app_nil_r|].
         rewrite zlen_cons in El. unfold zlen in El. lia. }
    destruct ((zlen (io_recs a) =? 0) && (io_mode a =? 0)) eqn:Er.
    + set (x := carried a ++ _) in *.
      assert (Hrm : exists rm, min_rmse_of junk x = Ok rm).
      { unfold min_rmse_of.
        set (bands := map _ (seq 0 6)).
        assert (Hb : length bands = 6%nat) by reflexivity.
        assert (Hbl : Forall (fun row => length row = length x) bands).
        { unfold bands. rewrite Forall_map. apply Forall_forall. intros b _. rewrite map_length. reflexivity. }
        assert (Hx1 : (1 <= length x)%nat) by (unfold zlen in El; lia).
        destruct (Nat.eq_dec (length x) 1) as [H1|H1].
        - unfold variogram, zlen. rewrite H1, Hb. cbn [Z.of_nat Z.sub Z.add Z.opp Z.eqb andb negb Pos.eqb].
          destruct x as [|o [|]]; try discriminate. unfold bands. simpl.
          destruct junk; [discriminate|]. simpl. eexists. reflexivity.
        - destruct (@C65_variogram (map o_date x) bands 0 (length x - 1) 0 0 junk) as (dv & mx & o & Hv & _).
          + lia.
          + rewrite map_length. lia.
          + eapply Forall_impl; [|exact Hbl]. simpl. intros; lia.
          + rewrite Hj, Hb. reflexivity.
          + replace (Z.of_nat (0 + (length x - 1))) with (zlen x - 1) in Hv by (unfold zlen; lia).
            change (Z.of_nat 0) with 0 in Hv. rewrite Hv. eexists. reflexivity. }
      destruct Hrm as [rm Hrm]. rewrite Hrm. cbn [bind].
      right. exists false. split; [auto|]. split; [discriminate|]. split; [reflexivity|].
      right. right. split; [reflexivity|]. split; [unfold call_obs; fold x; lia|].
      exists rm. split; [|reflexivity]. left. split; [|lia].
      assert (Hz : zlen (io_recs a) = 0) by lia. destruct (io_recs a); [reflexivity|]. rewrite zlen_cons in Hz.
      unfold zlen in Hz. lia.
    + cbn [bind]. right. exists false. split; [auto|]. split; [discriminate|]. split; [reflexivity|].
      right. right. split; [reflexivity|]. split; [unfold call_obs; lia|].
      exists (io_rmse a). split; [right; reflexivity|]. reflexivity.
Qed.

(** ** What a pack satisfies between calls *)

Definition recs_ok (base : Z) (rs : list seg) : Prop :=
  seg_chain rs /\ seg_long rs /\ Forall (fun r => base <= g_start r) rs.

Record pack_ok (base : Z) (a : io) : Prop := mkPk {
  pk_mode : In (io_mode a) [0; 1; 3; 4; 5; 11; 12];
  pk_recs : recs_ok base (io_recs a);
  pk_new : io_mode a = 0 \/ io_mode a = 3 \/ io_mode a = 4 -> io_recs a = [];
  pk_days : Forall (fun o => in_days (o_date o) /\ base <= o_date o) (carried a);
  pk_asc : asc (carried a);
  pk_vals : Forall vals16 (carried a);
  pk_mon : Z.rem (io_mode a) 10 = 1 \/ io_mode a = 3 \/ io_mode a = 5 -> length (nm_obs (io_model a)) = 8%nat;
  pk_start : Z.rem (io_mode a) 10 = 1 ->
     base <= nm_start (io_model a) + launch /\ lastS (io_recs a) (nm_start (io_model a) + launch) /\
     1 <= nm_nobs (io_model a) <= dat (carried a) 0 - (nm_start (io_model a) + launch) /\
     nm_start (io_model a) + launch + 366 < dat (carried a) 0;
  pk_queue : Z.rem (io_mode a) 10 = 2 \/ Z.rem (io_mode a) 10 = 5 ->
     carried a <> [] /\ lastS (io_recs a) (dat (carried a) 0);
  pk_five : io_mode a = 5 -> io_recs a <> [] /\ 8 <= zlen (carried a)
}.

(** Rows a call may receive. *)
Record rows_ok (base : Z) (a : io) (rows : list raw) : Prop := mkRO {
  ro_sorted : rows_sorted rows;
  ro_days : Forall (fun q => in_days (q_date q) /\ base <= q_date q) rows;
  ro_after : forall d, last_date (carried a) = Some d -> Forall (fun q => d <= q_date q) rows;
  ro_vals : Forall (fun q => vals16 (sobs q)) rows
}.

(** Transitions of the mode. *)
Definition next_mode (m m' : Z) : Prop :=
  m' = m \/ (m = 0 /\ (m' = 1 \/ m' = 12 \/ m' = 3 \/ m' = 4)) \/ (m = 1 /\ m' = 5) \/
  (m = 11 /\ (m' = 1 \/ m' = 12)) \/ (m = 12 /\ m' = 1) \/ (m = 5 /\ m' = 12) \/ (m = 4 /\ m' = 3).

Lemma call_obs_facts : forall base c2 sn rows a, pack_ok base a -> rows_ok base a rows ->
  asc (call_obs c2 sn rows a) /\
  Forall (fun o => in_days (o_date o) /\ base <= o_date o) (call_obs c2 sn rows a) /\
  Forall vals16 (call_obs c2 sn rows a).
Proof.
  intros base c2 sn rows a HP HR. unfold call_obs.
  set (l := map (fun q => (q, id_range c2 q)) rows).
  set (keep := if sn then keep_snow else keep_std).
  assert (Hl : map fst l = rows) by (unfold l; rewrite map_map, map_id; reflexivity).
  destruct (@append_asc keep l (last_date (carried a))) as [A1 A2].
  { rewrite Hl. apply HR. }
  { intros d Hd. unfold l. rewrite Forall_map. simpl. apply (ro_after HR). assumption. }
  split; [apply asc_app; auto; apply HP|].
  split; apply Forall_app; split; try apply HP; apply Forall_forall; intros o Ho;
    destruct (append_in _ _ _ _ Ho) as (q & Hq & _ & ->); unfold l in Hq; apply in_map_iff in Hq;
    destruct Hq as (r & <- & Hr); simpl.
  - pose proof (ro_days HR) as Hd. rewrite Forall_forall in Hd. apply (Hd r Hr).
  - pose proof (ro_vals HR) as Hd. rewrite Forall_forall in Hd. apply (Hd r Hr).
Qed.

Lemma slot_last : forall x, 8 <= zlen x -> slot_view x (zlen x - 8) 8 = map stv (skipn (Z.to_nat (zlen x - 8)) x).
Proof.
  intros x Hx. unfold slot_view.
  assert (Hl : length (skipn (Z.to_nat (zlen x - 8)) x) = 8%nat) by (rewrite skipn_length; unfold zlen in *; lia).
  set (f := fun k : nat => if Z.of_nat k <? 8 then stv (nthO x (zlen x - 8 + Z.of_nat k)) else zero_obs).
  apply nth_ext with (d := f 0%nat) (d' := stv dflt_obs).
  { rewrite !map_length, seq_length, Hl. reflexivity. }
  rewrite map_length, seq_length. intros n Hn.
  rewrite (map_nth f), (map_nth stv), nth_skipn, seq_nth by assumption. unfold f.
  replace (Z.of_nat (0 + n) <? 8) with true by lia. unfold nthO. f_equal. f_equal. lia.
Qed.

Lemma carried_monitor : forall (a : io), Z.rem (io_mode a) 10 = 1 -> io_mode a <> 4 -> length (nm_obs (io_model a)) = 8%nat ->
  carried a = map ld_obs (nm_obs (io_model a)).
Proof.
  intros a H H4 H8. unfold carried, queue_mode, monitor_mode. rewrite H.
  replace (io_mode a =? 4) with false by lia. cbn [orb Z.eqb Pos.eqb].
  replace ((io_mode a =? 3) || true) with true by (destruct (io_mode a =? 3); reflexivity).
  rewrite firstn_all2 by lia. reflexivity.
Qed.

Lemma carried_snow : forall (a : io), io_mode a = 3 -> carried a = map ld_obs (firstn 8 (nm_obs (io_model a))).
Proof. intros a H. unfold carried, queue_mode, monitor_mode. rewrite H. reflexivity. Qed.

Lemma carried_queue : forall (a : io), Z.rem (io_mode a) 10 = 2 \/ Z.rem (io_mode a) 10 = 5 \/ io_mode a = 4 ->
  carried a = map ld_obs (io_queue a).
Proof.
  intros a H. unfold carried, queue_mode.
  replace ((io_mode a =? 4) || (Z.rem (io_mode a) 10 =? 2) || (Z.rem (io_mode a) 10 =? 5)) with true by lia. reflexivity.
Qed.

(** ** One call preserves the pack invariant when the window has eight
    observations *)

Lemma snow_filter_wp : forall (safe : Prop) (k : skernel N S F C) x n m, asc x -> (n < length x \/ n = 0)%nat ->
  wp safe (snow_filter k m x n) (fun _ => True).
Proof.
  intros safe k x. induction x as [|o t IH]; intros n m Ha Hn.
  { destruct n; [exact I|simpl in Hn; lia]. }
  destruct n; [exact I|]. cbn [snow_filter].
  destruct t as [|o1 t']; [simpl in Hn; lia|].
  unfold asc, ascending in Ha. simpl in Ha. inversion Ha as [|? ? H1 H2]; subst. inversion H2; subst.
  replace (o_date o1 - o_date o <=? 0) with false by lia.
  apply IH; [exact H1|]. left. simpl in *. lia.
Qed.

Lemma asc_skipn : forall n x, asc x -> asc (skipn n x).
Proof. intros. eapply asc_sub; [apply subseq_skipn|assumption]. Qed.

Lemma snow_wp : forall (k : skernel N S F C) base x a, (io_mode a = 0 \/ io_mode a = 3 \/ io_mode a = 4) ->
  io_recs a = [] -> asc x -> Forall (fun o => in_days (o_date o) /\ base <= o_date o) x -> Forall vals16 x ->
  (io_mode a = 3 -> 8 <= zlen x) ->
  wp True (snow k x a) (fun b => pack_ok base b /\ io_recs b = io_recs a /\ next_mode (io_mode a) (io_mode b)
     /\ (io_mode b = 3 \/ io_mode b = 4) /\ subseq (carried b) x).
Proof.
  intros k base x a Hm Hr Ha Hd Hv Hl. unfold snow.
  assert (Hdays : Forall (fun o => in_days (o_date o)) x) by (eapply Forall_impl; [|exact Hd]; simpl; tauto).
  assert (Hrec : recs_ok base (@nil seg)).
  { split; [split; [constructor|intros [|] ? ? E; discriminate]|]. split; [unfold seg_long; simpl; constructor|constructor]. }
  assert (Hsave : forall m st nb, 8 <= zlen x ->
    wp True (w <- save8 x (zlen x - slots) slots ;;
      Ok (mkIO 3 (io_recs a) (mkNm (k_store k m) st nb w (-9999) (-9999) 0) (io_queue a) (io_rmse a) (io_pins a)))
     (fun b => pack_ok base b /\ io_recs b = io_recs a /\ next_mode (io_mode a) (io_mode b)
     /\ (io_mode b = 3 \/ io_mode b = 4) /\ subseq (carried b) x)).
  { intros m st nb H8. unfold slots. apply wp_bind.
    eapply wp_mono; [apply save8_wp; [lia|lia|auto]|]. intros w ->. simpl.
    rewrite slot_last by assumption.
    set (t := skipn (Z.to_nat (zlen x - 8)) x).
    assert (Ht : subseq t x) by apply subseq_skipn.
    assert (Htl : length t = 8%nat) by (unfold t; rewrite skipn_length; unfold zlen in *; lia).
    assert (Hc : forall b : io, io_mode b = 3 -> nm_obs (io_model b) = map stv t -> carried b = t).
    { intros b Hb Ho. rewrite carried_snow by assumption. rewrite Ho.
      rewrite firstn_all2 by (rewrite map_length; lia). apply ld_stv_map.
      apply Forall_forall. intros o Hoo. rewrite Forall_forall in Hdays. apply Hdays. eapply subseq_In; eassumption. }
    split; [|split; [reflexivity|split; [|split; [left; reflexivity|rewrite Hc by reflexivity; exact Ht]]]].
    - constructor; cbn [io_mode io_recs io_model]; try rewrite Hr; try (rewrite Hc by reflexivity); auto; try (simpl; discriminate); try lia.
      + simpl. auto.
      + apply Forall_forall. intros o Ho. rewrite Forall_forall in Hd. apply Hd. eapply subseq_In; eassumption.
      + eapply asc_sub; eassumption.
      + apply Forall_forall. intros o Ho. rewrite Forall_forall in Hv. apply Hv. eapply subseq_In; eassumption.
      + intros _. simpl. rewrite map_length. assumption.
    - cbn [io_mode]. unfold next_mode. lia. }
  destruct ((io_mode a =? 4) || (io_mode a =? 0)) eqn:Em.
  - destruct (zlen x <? 18) eqn:E18.
    + apply wp_bind. destruct (mapO_st x) as [[E _]|[E Hn]]; rewrite E; simpl; [|contradiction].
      assert (Hc : forall b : io, io_mode b = 4 -> io_queue b = map stv x -> carried b = x).
      { intros b Hb Ho. unfold carried, queue_mode. rewrite Hb, Ho. simpl. apply ld_stv_map. assumption. }
      split; [|split; [reflexivity|split; [|split; [right; reflexivity|rewrite Hc by reflexivity; apply subseq_refl]]]].
      * constructor; cbn [io_mode io_recs io_model]; try rewrite Hr; try (rewrite Hc by reflexivity); auto; try (simpl; discriminate); try lia.
        -- simpl. auto 10.
      * cbn [io_mode]. unfold next_mode. lia.
    + apply wp_bind. apply wp_of_opt. intros m _.
      apply wp_bind. apply wp_get; [lia|]. apply Hsave. lia.
  - assert (E3 : io_mode a = 3) by lia. specialize (Hl E3).
    apply wp_bind. eapply wp_mono; [apply snow_filter_wp; [assumption|]|].
    + unfold slots, zlen in *. lia.
    + intros m _. apply Hsave. assumption.
Qed.

(** Conditions excluding undefined behaviour in one call. *)
Definition call_safe (base : Z) (rows : list raw) (a : io) : Prop :=
  (forall o, In o (carried a) -> o_date o < base + 14681) /\
  (forall q, In q rows -> q_date q < base + 14681) /\
  (forall rm m d l, k_a16 (K rm) (k_angle2 (K rm) m d l) <> None) /\
  (io_recs a <> [] \/ Z.rem (io_mode a) 10 = 1 \/ io_mode a = 3 \/ io_mode a = 4) /\ sp_pin P = false.

Lemma mode_step_next : forall a b : io, mode_step a b -> io_mode a <> 2 -> next_mode (io_mode a) (io_mode b) /\
  (io_mode b = 1 \/ io_mode b = 11 \/ io_mode b = 12 \/ io_mode b = 5).
Proof.
  intros a b H H2. unfold mode_step in H. unfold next_mode.
  destruct H as [[E H]|[[E H]|[[E H]|[[E H]|[[E H]|[E H]]]]]]; rewrite E in *.
  - destruct H as [-> | ->]; lia.
  - destruct H as [-> |[-> _]]; lia.
  - destruct H as [-> |[-> |[-> _]]]; lia.
  - destruct H as [-> | ->]; lia.
  - congruence.
  - destruct H as [[-> _]| ->]; lia.
Qed.

Lemma mode_step_leave : forall a b : io, mode_step a b -> io_mode a = 1 \/ io_mode a = 11 ->
  (io_mode b = 1 \/ io_mode b = 11) \/ io_recs b <> io_recs a.
Proof.
  intros a b H Hm. unfold mode_step in H.
  destruct H as [[E H]|[[E H]|[[E H]|[[E H]|[[E H]|[E H]]]]]]; rewrite E in Hm; try lia.
  - destruct H as [-> |[_ H]]; [left; left; reflexivity|right; assumption].
  - destruct H as [-> |[-> |[_ H]]]; [left; right; reflexivity|left; left; reflexivity|right; assumption].
Qed.

Lemma mode_step_five : forall (a b : io) t, mode_step a b -> io_mode a <> 2 -> io_mode b = 5 -> io_recs b = io_recs a ++ t ->
  io_recs b <> [] /\ (io_mode a = 1 \/ io_mode a = 5).
Proof.
  intros a b t H H2 H5 Hr. unfold mode_step in H.
  destruct H as [[E H]|[[E H]|[[E H]|[[E H]|[[E H]|[E H]]]]]]; rewrite H5 in H.
  - destruct H; discriminate.
  - split; [|auto]. destruct H as [H|[_ H]]; [discriminate|]. intros E0. rewrite E0 in *.
    destruct (io_recs a); [congruence|discriminate].
  - destruct H as [H|[H|[H _]]]; discriminate.
  - destruct H; discriminate.
  - congruence.
  - split; [|auto]. destruct H as [[_ H]|H]; [assumption|discriminate].
Qed.

Theorem sccd_call : forall base c2 junk fuel rows a, launch <= base -> sp_conse P = 8 -> length junk = 6%nat ->
  pack_ok base a -> rows_ok base a rows ->
  match sccd K P c2 junk fuel rows a with
  | Ok b => pack_ok base b /\ (exists t, io_recs b = io_recs a ++ t) /\ next_mode (io_mode a) (io_mode b) /\
      ((io_mode a = 1 \/ io_mode a = 11) -> (io_mode b = 1 \/ io_mode b = 11) \/ io_recs b <> io_recs a) /\
      (exists sn, subseq (carried b) (call_obs c2 sn rows a))
  | Fail => True
  | UB => ~ call_safe base rows a
  | Fuel => (exists rm, ~ no_err (K rm)) \/ Z.of_nat fuel < zlen (carried a) + zlen rows - 8
  end.
Proof.
  intros base c2 junk fuel rows a Hlb H8 Hj HP HR.
  destruct (@sccd_cases c2 junk fuel rows a Hj) as [E|(sn & Hsn & Hsn' & Hmo & Hcase)]; [rewrite E; exact I|].
  cbv zeta in Hcase. set (x := call_obs c2 sn rows a) in *.
  destruct (@call_obs_facts base c2 sn rows a HP HR) as (Ha & Hd & Hv). fold x in Ha, Hd, Hv.
  assert (Hdays : Forall (fun o => in_days (o_date o)) x) by (eapply Forall_impl; [|exact Hd]; simpl; tauto).
  assert (Hpre : exists y, x = carried a ++ y /\ zlen y <= zlen rows).
  { unfold x, call_obs. eexists. split; [reflexivity|].
    assert (Hlen : forall keep l last, zlen (append_obs keep l last) <= zlen l).
    { intros keep l. induction l as [|q t IH]; intros last; [reflexivity|]. cbn [append_obs].
      rewrite zlen_cons.
      pose proof (IH (Some (q_date (fst q)))) as I1. pose proof (IH last) as I2.
      destruct (keep q); [destruct last; [destruct (_ =? _)|]|]; rewrite ?zlen_cons; lia. }
    etransitivity; [apply Hlen|]. unfold zlen. rewrite map_length. lia. }
  destruct Hpre as (y & Hxy & Hyl).
  destruct Hcase as [[-> E]|[(-> & Hx & E)|(-> & Hlt & rm & Hrm & E)]]; rewrite E.
  - (* snow *)
    specialize (Hsn' eq_refl).
    assert (Hr : io_recs a = []) by (apply (pk_new HP); tauto).
    pose proof (@snow_wp (K (io_rmse a)) base x a Hsn' Hr Ha Hd Hv) as HW.
    assert (Hl : io_mode a = 3 -> 8 <= zlen x).
    { intros E3. rewrite Hxy, zlen_app. assert (zlen (carried a) = 8); [|unfold zlen in *; lia].
      rewrite carried_snow by assumption. unfold zlen.
      rewrite map_length, firstn_length, (pk_mon HP) by auto. reflexivity. }
    specialize (HW Hl). destruct (snow _ _ _) as [b| | |]; simpl in HW; try tauto.
    destruct HW as (W1 & W2 & W3 & W4 & W5). split; [assumption|]. split; [exists []; rewrite app_nil_r; assumption|].
    split; [assumption|]. split; [lia|]. exists true. exact W5.
  - (* nothing new *)
    split; [assumption|]. split; [exists []; rewrite app_nil_r; reflexivity|]. split; [left; reflexivity|].
    split; [auto|]. exists false. fold x. rewrite Hx. apply subseq_refl.
  - (* standard *)
    specialize (Hsn eq_refl).
    set (a' := mkIO (io_mode a) (io_recs a) (io_model a) (io_queue a) rm (io_pins a)) in *.
    assert (Hne : x <> []). { intros E0. rewrite E0 in Hlt. change (zlen []) with 0 in Hlt. unfold zlen in Hlt. lia. }
    assert (Hstd : io_mode a = 0 \/ io_mode a = 1 \/ io_mode a = 5 \/ io_mode a = 11 \/ io_mode a = 12).
    { pose proof (pk_mode HP) as Hm. simpl in Hm. lia. }
    assert (Hc0 : io_mode a <> 0 -> 8 <= zlen (carried a) \/ io_mode a = 12 /\ carried a <> []).
    { intros H0. destruct Hstd as [?|[E1|[E5|[E11|E12]]]]; [lia| | | |].
      - left. rewrite carried_monitor; [|rewrite E1; reflexivity|lia|].
        + unfold zlen. rewrite map_length, (pk_mon HP); [lia|]. rewrite E1. auto.
        + apply (pk_mon HP). rewrite E1. auto.
      - left. apply (pk_five HP). assumption.
      - left. rewrite carried_monitor; [|rewrite E11; reflexivity|lia|].
        + unfold zlen. rewrite map_length, (pk_mon HP); [lia|]. rewrite E11. auto.
        + apply (pk_mon HP). rewrite E11. auto.
      - right. split; [assumption|]. apply (pk_queue HP). rewrite E12. auto. }
    assert (Hd0 : io_mode a <> 0 -> dat x 0 = dat (carried a) 0).
    { intros H0. rewrite Hxy. unfold dat. rewrite nthO_app1; [reflexivity|].
      destruct (Hc0 H0) as [?|[_ Hn]]; [lia|]. destruct (carried a); [contradiction|]. rewrite zlen_cons. unfold zlen. lia. }
    assert (HS : start_ok base x a').
    { destruct (pk_recs HP) as (R1 & R2 & R3).
      constructor; unfold a'; cbn [io_mode io_recs io_model]; auto.
      - lia.
      - eapply Forall_impl; [|exact Hd]. simpl. tauto.
      - intros Em. rewrite Hd0 by (intros E0; rewrite E0 in Em; discriminate). apply (pk_start HP). assumption.
      - destruct Hstd as [E0|[E1|[E5|[E11|E12]]]].
        + rewrite (pk_new HP) by auto. exact I.
        + rewrite Hd0 by lia. destruct (pk_start HP) as (S1 & S2 & S3 & S4); [rewrite E1; reflexivity|].
          eapply lastS_mono; [exact S2|lia].
        + rewrite Hd0 by lia. apply (pk_queue HP). rewrite E5. auto.
        + rewrite Hd0 by lia. destruct (pk_start HP) as (S1 & S2 & S3 & S4); [rewrite E11; reflexivity|].
          eapply lastS_mono; [exact S2|lia].
        + rewrite Hd0 by lia. apply (pk_queue HP). rewrite E12. auto.
      - intros E5. apply (pk_five HP). assumption. }
    pose proof (@standard_spec N S F C (K rm) P ltac:(lia) fuel x a' base HS) as HT.
    destruct (standard (K rm) P fuel x a') as [b| | |].
    + destruct HT as [[t T1] T2 T3 T4 T5 T6 T7 T8 T9 T10 T11]. unfold a' in T1, T6, T8, T9. cbn [io_recs io_mode io_queue io_model] in T1, T6, T8, T9.
      assert (Hnx : next_mode (io_mode a) (io_mode b)) by exact (proj1 (mode_step_next T5 ltac:(unfold a'; cbn [io_mode]; lia))).
      assert (Hb : io_mode b = 1 \/ io_mode b = 11 \/ io_mode b = 12 \/ io_mode b = 5)
        by exact (proj2 (mode_step_next T5 ltac:(unfold a'; cbn [io_mode]; lia))).
      enough (HE : pack_ok base b /\ subseq (carried b) x).
      { destruct HE as [HE1 HE2]. split; [exact HE1|split; [exists t; assumption|split; [assumption|]]].
        split; [|exists false; exact HE2]. intros Hm. exact (mode_step_leave T5 Hm). }
      destruct (Z.eq_dec (Z.rem (io_mode b) 10) 1) as [Er|Er].
      * destruct (T6 Er) as [(ts & nobs & M1 & M2 & M3 & M4 & M5 & M6 & M7 & M8 & M9) _].
        rewrite H8 in *. rewrite slot_last in M7 by lia.
        set (w := skipn (Z.to_nat (zlen x - 8)) x) in *.
        assert (Hw : subseq w x) by apply subseq_skipn.
        assert (Hwl : length w = 8%nat) by (unfold w; rewrite skipn_length; unfold zlen in *; lia).
        assert (Hcb : carried b = w).
        { rewrite carried_monitor; [|assumption|lia|rewrite M7, map_length; assumption]. rewrite M7. apply ld_stv_map.
          apply Forall_forall. intros o Ho. rewrite Forall_forall in Hdays. apply Hdays. eapply subseq_In; eassumption. }
        assert (Hw0 : dat w 0 = dat x (zlen x - 8)).
        { unfold w, dat. rewrite nthO_skipn by lia. f_equal. f_equal. lia. }
        assert (Hmod : io_mode b = 1 \/ io_mode b = 11).
        { destruct Hb as [Hb|[Hb|[Hb|Hb]]]; auto; rewrite Hb in Er; discriminate. }
        assert (Hts : launch <= ts) by lia.
        assert (Hin : in_days (dat x (zlen x - 8))).
        { rewrite Forall_forall in Hdays. apply Hdays. apply In_nthO. lia. }
        unfold in_days in Hin.
        rewrite wrap16_id in M1 by lia. rewrite wrap16_id in M4 by lia.
        split; [|rewrite Hcb; assumption].
        constructor; rewrite ?Hcb; auto.
        -- simpl. lia.
        -- split; auto.
        -- lia.
        -- apply Forall_forall. intros o Ho. rewrite Forall_forall in Hd. apply Hd. eapply subseq_In; eassumption.
        -- eapply asc_sub; eassumption.
        -- apply Forall_forall. intros o Ho. rewrite Forall_forall in Hv. apply Hv. eapply subseq_In; eassumption.
        -- intros _. rewrite M7, map_length. assumption.
        -- intros _. rewrite Hw0, M1, M4. replace (ts - launch + launch) with ts by lia. repeat split; auto; lia.
        -- intros [E1|E1]; rewrite E1 in Er; discriminate.
        -- intros E1; rewrite E1 in Er; discriminate.
      * destruct (T7 Er) as (q & Q1 & Q2 & Q3 & Q4 & Q5 & Q6).
        assert (Hmod : io_mode b = 12 \/ io_mode b = 5).
        { destruct Hb as [Hb|[Hb|[Hb|Hb]]]; auto; exfalso; apply Er; rewrite Hb; reflexivity. }
        assert (Hcb : carried b = q).
        { rewrite carried_queue by (destruct Hmod as [-> | ->]; simpl; auto). rewrite Q1. apply ld_stv_map.
          apply Forall_forall. intros o Ho. rewrite Forall_forall in Hdays. apply Hdays. eapply subseq_In; eassumption. }
        split; [|rewrite Hcb; assumption].
        constructor; rewrite ?Hcb; auto.
        -- simpl. lia.
        -- split; auto.
        -- lia.
        -- apply Forall_forall. intros o Ho. rewrite Forall_forall in Hd. apply Hd. eapply subseq_In; eassumption.
        -- eapply asc_sub; eassumption.
        -- apply Forall_forall. intros o Ho. rewrite Forall_forall in Hv. apply Hv. eapply subseq_In; eassumption.
        -- intros Hq. assert (E5 : io_mode b = 5) by (destruct Hmod as [Em|Em]; [rewrite Em in Hq; cbn in Hq; lia|assumption]).
           destruct (@mode_step_five a' b t T5 ltac:(unfold a'; cbn [io_mode]; lia) E5 T1) as [F1 F2].
           unfold a' in F2. cbn [io_mode] in F2.
           apply T9. apply (pk_mon HP). destruct F2 as [E1|E1]; rewrite E1; cbn; auto.
        -- intros E1; contradiction.
        -- intros E5.
           destruct (@mode_step_five a' b t T5 ltac:(unfold a'; cbn [io_mode]; lia) E5 T1) as [F1 F2].
           unfold a' in F2. cbn [io_mode] in F2. split; [assumption|].
           ++ assert (8 <= zlen x).
              { assert (Hm0 : io_mode a <> 0) by (destruct F2 as [F2|F2]; rewrite F2; discriminate).
                destruct (Hc0 Hm0) as [H1|[H1 _]]; [clear -H1 Hlt; lia|].
                rewrite H1 in F2. destruct F2; discriminate. }
              clear -Q4 Q6 H H8.
              unfold max_queue in *. destruct (Z_lt_dec (zlen q) 240); [|lia].
              destruct (Q6 ltac:(lia) 7 ltac:(rewrite H8; lia)) as [Q7 _]. lia.
    + exact I.
    + intros (S1 & S2 & S3 & S4 & S5). apply HT. unfold std_safe, a'. cbn [io_recs io_mode io_model io_pins].
      assert (S4' : sp_conse P <= 6 \/ io_recs a <> [] \/ Z.rem (io_mode a) 10 = 1).
      { destruct S4 as [S4|[S4|[S4|S4]]]; [auto|auto|destruct Hsn; contradiction|destruct Hsn; contradiction]. }
      split; [|split; [|split; [|split; [|split; [|split]]]]]; auto.
      * intros o Ho. unfold x, call_obs in Ho. apply in_app_or in Ho. destruct Ho as [Ho|Ho]; [auto|].
        destruct (append_in _ _ _ _ Ho) as (p & Hp & _ & ->). apply in_map_iff in Hp.
        destruct Hp as (r & <- & Hr). simpl. auto.
      * intros Hm. rewrite H8. destruct (Hc0) as [H0|[H0 _]]; try (intros E0; rewrite E0 in Hm; cbn in Hm; lia).
        -- lia.
        -- rewrite H0 in Hm. cbn in Hm. lia.
      * intros E5. pose proof (pk_mon HP ltac:(auto)) as Hl. destruct (nm_obs (io_model a)); [discriminate|congruence].
    + rewrite H8 in HT. destruct HT as [HT|HT]; [left; exists rm; assumption|right].
      rewrite Hxy, zlen_app in HT. lia.
Qed.

End Pack.
