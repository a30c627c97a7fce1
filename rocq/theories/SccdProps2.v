(** Properties C24-C36 of S-CCD, continued. *)
From Verif Require Import Base SortModel LibModel LibProps ColdModel ColdLemmas FrontModel FrontProps
  SccdModel SccdProof SccdTop SccdPack SccdTerm SccdApi SccdToy SccdProps.

Arguments returned_mode {S C jm a b} : rename.
Arguments returned_recs {S C jm a b} : rename.
Arguments detect_ok {N S F C K P c2 junk jm rows b} : rename.
Arguments update_ok {N S F C K P c2 junk jm rows a b} : rename.
Arguments returned_pack {S C base jm a b} : rename.
Arguments rows_ok_intro {S C base a rows D} : rename.
Arguments update_step {N S F C K P c2 junk jm rows a b base D} : rename.
Arguments history_sound {N S F C a batches c} : rename.

Section Props.
Variables N S F C : Type.
Notation io := (io S C).
Notation seg := (seg C).
Implicit Types (K : list Z -> skernel N S F C) (P : sparams) (junk : list Z) (jm : nmodel S)
  (rows : list raw) (a b : io).

(** ** C25: nothing usable, nothing changed *)

Lemma append_none : forall keep l last, Forall (fun q => keep q = true -> last = Some (q_date (fst q))) l ->
  append_obs keep l last = [].
Proof.
  intros keep l. induction l as [|q t IH]; intros last H; [reflexivity|]. inversion H as [|? ? H1 H2]; subst.
  cbn [append_obs]. destruct (keep q); [|auto]. rewrite (H1 eq_refl) in *. rewrite Z.eqb_refl. auto.
Qed.

(** Row not usable by the standard procedure: cloud, shadow or snow, out of
    range, or of the day of the newest observation in the pack. *)
Definition useless (c2 : bool) a (q : raw) : Prop :=
  2 <= q_qa q \/ id_range c2 q = false \/ last_date (carried a) = Some (q_date q).
Definition useless_snow a (q : raw) : Prop :=
  (q_qa q = 2 \/ 4 <= q_qa q) \/ last_date (carried a) = Some (q_date q).

Lemma useless_none : forall c2 a rows, Forall (useless c2 a) rows ->
  append_obs keep_std (map (fun q => (q, id_range c2 q)) rows) (last_date (carried a)) = [].
Proof.
  intros c2 a rows H. apply append_none. rewrite Forall_map. eapply Forall_impl; [|exact H].
  intros q [Hq|[Hq|Hq]] Hk; unfold keep_std in Hk; simpl in *; [lia|rewrite Hq, andb_false_r in Hk; discriminate|assumption].
Qed.

Lemma useless_snow_none : forall c2 a rows, Forall (useless_snow a) rows ->
  append_obs keep_snow (map (fun q => (q, id_range c2 q)) rows) (last_date (carried a)) = [].
Proof.
  intros c2 a rows H. apply append_none. rewrite Forall_map. eapply Forall_impl; [|exact H].
  intros q [Hq|Hq] Hk; unfold keep_snow in Hk; simpl in *; [lia|assumption].
Qed.

(** Standard modes: the call returns its state unchanged (or refuses the QA
    codes). *)
Theorem C25_standard : forall K P c2 junk fuel rows a,
  In (io_mode a) [1; 2; 5; 11; 12] -> Forall (useless c2 a) rows ->
  sccd K P c2 junk fuel rows a = Ok a \/ sccd K P c2 junk fuel rows a = Fail.
Proof.
  intros K P c2 junk fuel rows a Hm Hu. unfold sccd.
  assert (Hok : mode_ok (io_mode a) = true /\ (io_mode a =? 0) = false /\ (io_mode a =? 4) || (io_mode a =? 3) = false).
  { unfold mode_ok. simpl in Hm. lia. }
  destruct Hok as (-> & E0 & E34). cbn [negb].
  destruct (preprocess_eq c2 rows (mkCounts 0 0 0 0 0)) as [[_ E]|[_ E]]; rewrite E; [|right; reflexivity]. cbn [bind].
  unfold is_snow. rewrite E0, E34. rewrite useless_none by assumption.
  rewrite app_nil_r, Z.ltb_irrefl. auto.
Qed.


(** Snow modes.  The queue (mode 4) and the model (mode 3) are written again
    with the same contents. *)
Lemma store_load : forall o, -32768 <= o_date o <= 32767 -> Forall (fun v => -32768 <= v <= 32767) (o_vals o) ->
  st_obs (ld_obs o) = Ok o.
Proof.
  intros [d v] Hd Hv. unfold st_obs, ld_obs. cbn [o_date o_vals] in *.
  destruct (mapO_to16 v) as [[E _]|[_ H]]; [|contradiction]. rewrite E. cbn [bind]. f_equal. f_equal.
  rewrite wrap16_id; lia.
Qed.

Definition short_obs (o : obs) : Prop :=
  -32768 <= o_date o <= 32767 /\ Forall (fun v => -32768 <= v <= 32767) (o_vals o).

Lemma store_load_all : forall l, Forall short_obs l -> mapO st_obs (map ld_obs l) = Ok l.
Proof.
  intros l H. induction H as [|o l [H1 H2] _ IH]; [reflexivity|]. cbn [map mapO]. rewrite store_load by assumption.
  cbn [bind]. rewrite IH. reflexivity.
Qed.

Theorem C25_snow_queue : forall K P c2 junk fuel rows a,
  io_mode a = 4 -> zlen (io_queue a) < 18 -> Forall short_obs (io_queue a) -> Forall (useless_snow a) rows ->
  sccd K P c2 junk fuel rows a = Ok a \/ sccd K P c2 junk fuel rows a = Fail.
Proof.
  intros K P c2 junk fuel rows a Hm Hq Hs Hu. unfold sccd. rewrite Hm. cbn [mode_ok Z.eqb Pos.eqb orb negb].
  destruct (preprocess_eq c2 rows (mkCounts 0 0 0 0 0)) as [[_ E]|[_ E]]; rewrite E; [|right; reflexivity]. cbn [bind].
  cbn [is_snow Z.eqb Pos.eqb orb]. rewrite useless_snow_none by assumption. rewrite app_nil_r.
  left. unfold snow. rewrite Hm. cbn [Z.eqb Pos.eqb orb].
  assert (Ec : carried a = map ld_obs (io_queue a)) by (apply carried_queue; auto). rewrite Ec.
  replace (zlen (map ld_obs (io_queue a)) <? 18) with true by (unfold zlen in *; rewrite map_length; lia).
  rewrite store_load_all by assumption. cbn [bind]. rewrite <- Hm. destruct a; reflexivity.
Qed.

Lemma save8_all : forall x, length x = 8%nat -> save8 x 0 8 = mapO st_obs x.
Proof.
  intros x H. do 8 (destruct x as [|? x]; [discriminate|]). destruct x; [|discriminate]. reflexivity.
Qed.

Theorem C25_snow_model : forall K P c2 junk fuel rows a,
  (forall s, k_store (K (io_rmse a)) (k_load (K (io_rmse a)) s) = s) ->
  io_mode a = 3 -> length (nm_obs (io_model a)) = 8%nat -> Forall short_obs (nm_obs (io_model a)) ->
  -32768 <= nm_nobs (io_model a) <= 32767 ->
  nm_cm (io_model a) = -9999 -> nm_angle (io_model a) = -9999 -> nm_last (io_model a) = 0 ->
  Forall (useless_snow a) rows ->
  sccd K P c2 junk fuel rows a = Ok a \/ sccd K P c2 junk fuel rows a = Fail.
Proof.
  intros K P c2 junk fuel rows a Hk Hm H8 Hs Hn Hcm Han Hla Hu. unfold sccd. rewrite Hm. cbn [mode_ok Z.eqb Pos.eqb orb negb].
  destruct (preprocess_eq c2 rows (mkCounts 0 0 0 0 0)) as [[_ E]|[_ E]]; rewrite E; [|right; reflexivity]. cbn [bind].
  cbn [is_snow Z.eqb Pos.eqb orb]. rewrite useless_snow_none by assumption. rewrite app_nil_r.
  left. unfold snow. rewrite Hm. cbn [Z.eqb Pos.eqb orb].
  assert (Ec : carried a = map ld_obs (nm_obs (io_model a))).
  { rewrite carried_snow by assumption. rewrite <- H8, firstn_all. reflexivity. }
  rewrite Ec.
  assert (Hl : zlen (map ld_obs (nm_obs (io_model a))) = 8) by (unfold zlen; rewrite map_length, H8; reflexivity).
  rewrite Hl. change (Z.to_nat (8 - slots)) with 0%nat.
  assert (Hf : forall k m x, @snow_filter N S F C k m x 0 = Ok m) by (intros k m [|]; reflexivity). rewrite Hf. cbn [bind]. change (8 - slots) with 0. change slots with 8.
  rewrite save8_all by (rewrite map_length; assumption). rewrite store_load_all by assumption. cbn [bind].
  rewrite Hk. replace (nm_nobs (io_model a) + 8 - 8) with (nm_nobs (io_model a)) by lia. rewrite wrap16_id by lia.
  rewrite <- Hm. destruct a as [mo re [st sa no ob cm an la] qu rm pi]. cbn in *. subst. reflexivity.
Qed.

(** At the Python level, for a pack as the wrapper returned it: the new pack
    has the same parts. *)
Theorem C25_update : forall K P c2 junk jm jm' rows a0 a b,
  returned jm' a0 = Ok a -> In (io_mode a) [1; 2; 5; 11; 12] -> Forall (useless c2 a) rows ->
  update K P c2 junk jm rows a = Ok b ->
  io_mode b = io_mode a /\ io_recs b = io_recs a /\ io_queue b = io_queue a /\ io_rmse b = io_rmse a /\
  (Z.rem (io_mode a) 10 <> 2 -> io_model b = io_model a).
Proof.
  intros K P c2 junk jm jm' rows a0 a b Hr Hm Hu H. destruct (update_ok H) as (b' & E & Hb).
  destruct (@C25_standard K (no_pin P) c2 junk (enough rows a) rows a Hm Hu) as [E'|E']; rewrite E in E'; [|discriminate].
  injection E' as ->. clear E. unfold returned in Hr, Hb.
  assert (Hma : io_mode a0 = io_mode a).
  { destruct (_ || _); [injection Hr as <-; reflexivity|]. destruct (_ || _); [injection Hr as <-; reflexivity|].
    destruct (_ =? 5); [injection Hr as <-; reflexivity|]. destruct (_ =? 0); [injection Hr as <-; reflexivity|discriminate]. }
  rewrite Hma in Hr. destruct a as [mo re nm qu rm pi]. cbn [io_mode io_recs io_model io_queue io_rmse io_pins] in *.
  simpl in Hm. destruct Hm as [<-|[<-|[<-|[<-|[<-|[]]]]]]; cbn in Hr, Hb; injection Hr; intros; subst;
    injection Hb as <-; cbn; repeat split; auto; intros Hx; exfalso; apply Hx; reflexivity.
Qed.

(** ** C33 *)

Lemma put_agree : forall (o o' : list Z) k v, length o = length o' -> firstn k o = firstn k o' -> (k < length o)%nat ->
  exists r r', put o (Z.of_nat k) v = Ok r /\ put o' (Z.of_nat k) v = Ok r' /\ length r = length o /\ length r' = length o /\
    firstn (Datatypes.S k) r = firstn (Datatypes.S k) r'.
Proof.
  intros o o' k v Hl Ha Hk. rewrite !put_ok by (unfold zlen; lia). eexists. eexists.
  split; [reflexivity|]. split; [reflexivity|]. rewrite !Nat2Z.id.
  split; [rewrite app_length; cbn [length]; rewrite firstn_length, skipn_length; lia|].
  split; [rewrite app_length; cbn [length]; rewrite firstn_length, skipn_length; lia|].
  assert (H1 : forall l : list Z, (k < length l)%nat -> firstn (Datatypes.S k) (firstn k l ++ v :: skipn (Datatypes.S k) l) = firstn k l ++ [v]).
  { intros l Hkl. rewrite firstn_app, firstn_length, Nat.min_l by lia. rewrite firstn_all2 by (rewrite firstn_length; lia).
    replace (Datatypes.S k - k)%nat with 1%nat by lia. reflexivity. }
  rewrite !H1 by lia. rewrite Ha. reflexivity.
Qed.

Lemma vario_bands_junk : forall bands start n k o o', length o = length o' -> firstn k o = firstn k o' ->
  (k + length bands = length o)%nat ->
  vario_bands bands start n (Z.of_nat k) o = vario_bands bands start n (Z.of_nat k) o'.
Proof.
  induction bands as [|row rest IH]; intros start n k o o' Hl Ha Hk; cbn [vario_bands].
  - simpl in Hk. rewrite !firstn_all2 in Ha by lia. congruence.
  - destruct (abs_diffs row start n); cbn [bind]; auto. destruct (sorted_median _) as [[v m]| | |]; cbn [bind]; auto.
    simpl in Hk. destruct (@put_agree o o' k m Hl Ha ltac:(lia)) as (r & r' & -> & -> & L1 & L2 & E). cbn [bind].
    replace (Z.of_nat k + 1) with (Z.of_nat (Datatypes.S k)) by lia. apply IH; [congruence|assumption|lia].
Qed.

Lemma min_rmse_junk : forall junk junk' x, length junk = 6%nat -> length junk' = 6%nat -> 2 <= zlen x ->
  min_rmse_of junk x = min_rmse_of junk' x.
Proof.
  intros junk junk' x H H' Hx. unfold min_rmse_of, variogram.
  replace (zlen x - 1 - 0 + 1 =? 0) with false by lia. replace (zlen x - 1 - 0 + 1 =? 1) with false by lia. cbn [andb].
  destruct (abs_diffs _ _ _); cbn [bind]; auto. destruct (sorted_median _) as [[v m]| | |]; cbn [bind]; auto.
  destruct (get _ _); cbn [bind]; auto.
  pose proof (fun bands => @vario_bands_junk bands 0 (Z.to_nat (zlen x - 1 - 0 + 1 - 1)) 0 junk junk'
    ltac:(congruence) eq_refl) as HV. change (Z.of_nat 0) with 0 in HV. rewrite HV; [reflexivity|].
  rewrite map_length, seq_length. lia.
Qed.

Lemma append_dates : forall keep l last q, In q l -> keep q = true -> last <> Some (q_date (fst q)) ->
  StronglySorted (fun p q => q_date p <= q_date q) (map fst l) ->
  (forall d, last = Some d -> Forall (fun p => d <= q_date (fst p)) l) ->
  In (q_date (fst q)) (map o_date (append_obs keep l last)).
Proof.
  intros keep l. induction l as [|p t IH]; intros last q Hin Hk Hn Hs Hl; [contradiction|].
  cbn [append_obs]. simpl in Hs. inversion Hs as [|? ? Hs' Hf]; subst.
  assert (Hp : forall d, Some (q_date (fst p)) = Some d -> Forall (fun r => d <= q_date (fst r)) t).
  { intros d Hd. injection Hd as <-. rewrite Forall_map in Hf. assumption. }
  assert (Ht : forall d, last = Some d -> Forall (fun r => d <= q_date (fst r)) t).
  { intros d Hd. specialize (Hl d Hd). inversion Hl; assumption. }
  assert (Hstep : In (q_date (fst q)) (map o_date (sobs (fst p) :: append_obs keep t (Some (q_date (fst p)))))).
  { destruct Hin as [->|Hin]; [left; reflexivity|].
    destruct (Z.eq_dec (q_date (fst p)) (q_date (fst q))) as [E|E]; [left; exact E|].
    right. apply IH; auto. congruence. }
  destruct (keep p) eqn:Ep.
  - destruct last as [d|].
    + destruct (q_date (fst p) =? d) eqn:E.
      * assert (E' : q_date (fst p) = d) by lia. destruct Hin as [->|Hin]; [exfalso; apply Hn; congruence|]. apply IH; auto.
      * exact Hstep.
    + exact Hstep.
  - destruct Hin as [->|Hin]; [congruence|]. apply IH; auto.
Qed.

(** Two clear observations of different days suffice: nothing returned by
    sccd_detect depends on the contents of the uninitialised array. *)
Theorem C33_two_observations : forall K P c2 junk junk' jm rows p q, length junk = 6%nat -> length junk' = 6%nat ->
  StronglySorted (fun p q => q_date p <= q_date q) rows ->
  In p rows -> In q rows -> q_date p < q_date q -> q_qa p < 2 -> q_qa q < 2 ->
  id_range c2 p = true -> id_range c2 q = true ->
  detect K P c2 junk jm rows = detect K P c2 junk' jm rows.
Proof.
  intros K P c2 junk junk' jm rows p q Hj Hj' Hs Hp Hq Hd Hcp Hcq Hrp Hrq. unfold detect.
  destruct rows as [|r0 rest] eqn:Er; [reflexivity|]. rewrite <- Er in *. clear Er.
  destruct (slots <? sp_conse P); [reflexivity|]. destruct (_ <? 1461); [reflexivity|].
  enough (E : forall f, sccd K P c2 junk f rows (blank C jm) = sccd K P c2 junk' f rows (blank C jm)) by (rewrite E; reflexivity).
  intros f. unfold sccd. destruct (negb _); [reflexivity|].
  destruct (preprocess_eq c2 rows (mkCounts 0 0 0 0 0)) as [[_ E]|[_ E]]; rewrite E; [|reflexivity]. cbn [bind].
  destruct (is_snow _ _); [reflexivity|]. destruct (_ <? _); [|reflexivity].
  destruct (_ && _); [|reflexivity]. set (x := carried _ ++ _).
  assert (Hx : 2 <= zlen x).
  { change (carried (blank C jm)) with (@nil obs) in x. cbn [app] in x. change (last_date []) with (@None Z) in x.
    assert (Hin : forall t, In t rows -> q_qa t < 2 -> id_range c2 t = true -> In (q_date t) (map o_date x)).
    { intros t Ht Hc Hr. unfold x.
      change (q_date t) with (q_date (fst (t, id_range c2 t))).
      apply append_dates; try discriminate.
      - apply in_map_iff. exists t. auto.
      - unfold keep_std. simpl. rewrite Hr. lia.
      - rewrite map_map, map_id. assumption. }
    pose proof (Hin p Hp Hcp Hrp) as I1. pose proof (Hin q Hq Hcq Hrq) as I2.
    clearbody x. destruct x as [|o1 [|o2 x]]; simpl in I1, I2.
    - contradiction.
    - lia.
    - rewrite !zlen_cons. unfold zlen. lia. }
  rewrite (@min_rmse_junk junk junk' x) by assumption. reflexivity.
Qed.

(** ** C32 *)

Lemma standard_rmse : forall (k : skernel N S F C) P fuel x a b, standard k P fuel x a = Ok b -> io_rmse b = io_rmse a.
Proof.
  intros k P fuel x a b H. unfold standard in H. cbv zeta in H.
  repeat match goal with
  | H : bind ?e _ = Ok _ |- _ => let E := fresh "E" in destruct e as [?v| | |] eqn:E; cbn [bind] in H; try discriminate; clear E
  | H : (let '(_, _) := ?p in _) = Ok _ |- _ => destruct p
  | H : (if ?c then Fail else _) = Ok _ |- _ => destruct c; [discriminate|]
  end.
  injection H as <-. reflexivity.
Qed.

Lemma snow_rmse : forall (k : skernel N S F C) x a b, snow k x a = Ok b -> io_rmse b = io_rmse a.
Proof.
  intros k x a b H. unfold snow in H. cbv zeta in H.
  destruct (_ || _); [destruct (_ <? 18)|].
  all: repeat match goal with
  | H : bind ?e _ = Ok _ |- _ => let E := fresh "E" in destruct e as [?v| | |] eqn:E; cbn [bind] in H; try discriminate; clear E
  end; injection H as <-; reflexivity.
Qed.

(** Except in mode 0 the caller's pack keeps all its fields. *)
Theorem C32_pack_kept : forall K P c2 junk jm rows a b, length junk = 6%nat -> io_mode a <> 0 ->
  update K P c2 junk jm rows a = Ok b -> caller_pack a b = a.
Proof.
  intros K P c2 junk jm rows a b Hj Hm H. destruct (update_ok H) as (b' & E & Hr).
  assert (H1 : io_rmse b = io_rmse b').
  { unfold returned in Hr. destruct (_ || _); [injection Hr as <-; reflexivity|].
    destruct (_ || _); [injection Hr as <-; reflexivity|]. destruct (_ =? 5); [injection Hr as <-; reflexivity|].
    destruct (_ =? 0); [injection Hr as <-; reflexivity|discriminate]. }
  assert (H2 : io_rmse b' = io_rmse a).
  { destruct (@sccd_cases N S F C K (no_pin P) c2 junk (enough rows a) rows a Hj) as [E1|(sn & _ & _ & _ & Hc)]; [congruence|].
    cbv zeta in Hc. destruct Hc as [[_ E1]|[(_ & _ & E1)|(_ & _ & rm & [[_ H0]|Hrm] & E1)]]; rewrite E in E1.
    - symmetry in E1. exact (snow_rmse _ _ _ E1).
    - congruence.
    - contradiction.
    - symmetry in E1. rewrite (standard_rmse _ _ _ _ _ E1). exact Hrm. }
  unfold caller_pack. rewrite H1, H2. destruct a; reflexivity.
Qed.

(** ** What a standard call leaves behind *)

Definition with_rmse (rm : list Z) a : io := mkIO (io_mode a) (io_recs a) (io_model a) (io_queue a) rm (io_pins a).

Lemma pack_start : forall base c2 rows a rm, pack_ok base a -> rows_ok base a rows -> io_mode a <> 3 -> io_mode a <> 4 ->
  call_obs c2 false rows a <> [] -> start_ok base (call_obs c2 false rows a) (with_rmse rm a).
Proof.
  intros base c2 rows a rm HP HR H3 H4 Hne.
  destruct (@call_obs_facts S C base c2 false rows a HP HR) as (Ha & Hd & Hv).
  assert (Hxy : exists y, call_obs c2 false rows a = carried a ++ y) by (unfold call_obs; eexists; reflexivity).
  set (x := call_obs c2 false rows a) in *. destruct Hxy as [y Hxy].
  assert (Hstd : io_mode a = 0 \/ io_mode a = 1 \/ io_mode a = 5 \/ io_mode a = 11 \/ io_mode a = 12).
  { pose proof (pk_mode HP) as Hm. simpl in Hm. lia. }
  assert (Hc0 : io_mode a <> 0 -> carried a <> []).
  { intros H0.
    assert (Hmon : Z.rem (io_mode a) 10 = 1 -> carried a <> []).
    { intros E. pose proof (pk_mon HP (or_introl E)) as Hl. rewrite carried_monitor by (auto; lia).
      destruct (nm_obs (io_model a)); discriminate. }
    destruct Hstd as [E|[E|[E|[E|E]]]]; [lia| | | |].
    - apply Hmon. rewrite E. reflexivity.
    - apply (pk_queue HP). rewrite E. auto.
    - apply Hmon. rewrite E. reflexivity.
    - apply (pk_queue HP). rewrite E. auto. }
  assert (Hd0 : io_mode a <> 0 -> dat x 0 = dat (carried a) 0).
  { intros H0. rewrite Hxy. unfold dat. rewrite nthO_app1; [reflexivity|].
    specialize (Hc0 H0). destruct (carried a); [contradiction|]. rewrite zlen_cons. unfold zlen. lia. }
  destruct (pk_recs HP) as (R1 & R2 & R3).
  constructor; unfold with_rmse; cbn [io_mode io_recs io_model]; auto.
  - lia.
  - eapply Forall_impl; [|exact Hd]. simpl. tauto.
  - intros Em. rewrite Hd0 by (intros E0; rewrite E0 in Em; discriminate). apply (pk_start HP). assumption.
  - destruct Hstd as [E0|[E1|[E5|[E11|E12]]]].
    + rewrite (pk_new HP) by auto. exact I.
    + rewrite Hd0 by lia. destruct (pk_start HP) as (S1 & S2 & S3 & S4); [rewrite E1; reflexivity|].
      eapply lastS_mono; [exact S2|lia].
    + rewrite Hd0 by lia. apply (pk_queue HP). rewrite E5. auto.
    + rewrite Hd0 by lia. destruct (pk_start HP) as (S1 & S2 & S3 & S4); [rewrite E11; reflexivity|].
      eapply lastS_mono; [exact S2|lia].
    + rewrite Hd0 by lia. apply (pk_queue HP). rewrite E12. auto.
  - intros E5. apply (pk_five HP). assumption.
Qed.

(** A call that ends in a standard mode left the state alone or ran the
    standard procedure. *)
Lemma call_std : forall K P c2 junk fuel rows a b base, 1 <= sp_conse P -> length junk = 6%nat ->
  pack_ok base a -> rows_ok base a rows -> sccd K P c2 junk fuel rows a = Ok b -> standard_mode (io_mode b) ->
  (b = a /\ call_obs c2 false rows a = carried a) \/
  exists rm, StdPost (K rm) P base (call_obs c2 false rows a) (with_rmse rm a) b.
Proof.
  intros K P c2 junk fuel rows a b base Hc Hj HP HR E Hb.
  destruct (@sccd_cases N S F C K P c2 junk fuel rows a Hj) as [E1|(sn & Hsn & Hsn' & Hmo & Hcase)]; [congruence|].
  cbv zeta in Hcase. destruct Hcase as [[-> E1]|[(-> & Hx & E1)|(-> & Hlt & rm & Hrm & E1)]]; rewrite E in E1.
  - exfalso. assert (Hbm : io_mode b = 3 \/ io_mode b = 4).
    { symmetry in E1. clear -E1. unfold snow in E1. cbv zeta in E1.
      destruct (_ || _); [destruct (_ <? 18)|].
      all: repeat match goal with
        | H : bind ?e _ = Ok _ |- _ => let E := fresh "E" in destruct e as [?v| | |] eqn:E; cbn [bind] in H; try discriminate; clear E
        end; injection E1 as <-; cbn; auto. }
    unfold standard_mode in Hb. simpl in Hb. lia.
  - left. injection E1 as ->. auto.
  - right. exists rm. destruct (Hsn eq_refl) as [H3 H4].
    assert (Hne : call_obs c2 false rows a <> []).
    { intros E0. rewrite E0 in Hlt. change (zlen (@nil obs)) with 0 in Hlt. unfold zlen in Hlt. lia. }
    pose proof (@standard_spec N S F C (K rm) P Hc fuel _ _ base (@pack_start base c2 rows a rm HP HR H3 H4 Hne)) as HT.
    change (mkIO (io_mode a) (io_recs a) (io_model a) (io_queue a) rm (io_pins a)) with (with_rmse rm a) in E1.
    rewrite <- E1 in HT. exact HT.
Qed.

(** ** Packs obtained online with a window of eight *)

(** [all]: the batches processed so far, the first by sccd_detect. *)
Definition online (all : list (list raw)) a : Prop :=
  exists K P c2 junk jm rows a0 batches, sp_conse P = 8 /\ length junk = 6%nat /\ all = rows :: batches /\
    detect K P c2 junk jm rows = Ok a0 /\ history (N := N) (F := F) 8 a0 batches a.

Lemma sorted_bound : forall (l m : list raw), StronglySorted (fun p q => q_date p <= q_date q) (l ++ m) ->
  exists D, Forall (fun q => q_date q <= D) l /\ Forall (fun q => D <= q_date q) m.
Proof.
  intros l m H. destruct (sorted_app _ _ H) as (S1 & S2 & S3). destruct m as [|q0 m].
  - assert (Hub : exists M, Forall (fun q => q_date q <= M) l).
    { clear. induction l as [|q l [M I]]; [exists 0; constructor|]. exists (Z.max M (q_date q)). constructor; [lia|].
      eapply Forall_impl; [|exact I]. simpl. lia. }
    destruct Hub as [M HM]. exists M. split; [assumption|constructor].
  - exists (q_date q0). split.
    + apply Forall_forall. intros q Hq. apply S3; [assumption|left; reflexivity].
    + inversion S2; subst. constructor; [lia|assumption].
Qed.

Lemma online_sound : forall base all a rows, launch <= base -> online all a -> batches_ok (all ++ [rows]) ->
  Forall (fun q => base <= q_date q) (concat (all ++ [rows])) ->
  pack_ok base a /\ rows_ok base a rows /\ (forall D, Forall (fun q => q_date q <= D) (concat all) -> upto D a).
Proof.
  intros base all a rows Hl (K & P & c2 & junk & jm & r0 & a0 & batches & H8 & Hj & -> & Hdet & Hh) [Hg Hs] Hb.
  assert (Ec : concat ((r0 :: batches) ++ [rows]) = r0 ++ concat batches ++ rows).
  { rewrite concat_app. simpl. rewrite app_nil_r, app_assoc. reflexivity. }
  rewrite Ec in *. apply Forall_app in Hg, Hb. destruct Hg as [Hg0 Hg1], Hb as [Hb0 Hb1].
  apply Forall_app in Hg1, Hb1. destruct Hg1 as [Hg1 Hg2], Hb1 as [Hb1 Hb2].
  destruct (sorted_bound _ _ Hs) as (D & D1 & D2). apply Forall_app in D2. destruct D2 as [D2 D3].
  destruct (sorted_app _ _ Hs) as (S1 & S2 & S3). destruct (sorted_app _ _ S2) as (S4 & S5 & _).
  assert (HB0 : batches_ok [r0]) by (split; simpl; rewrite app_nil_r; assumption).
  destruct (@detect_sound_base N S F C base K P c2 junk jm r0 a0 Hl Hb0 H8 Hj HB0 Hdet) as [HP0 Hu0].
  destruct (history_sound Hh base D Hl HP0 (Hu0 D D1)) as (HP & _ & Hu).
  { split; assumption. }
  { apply Forall_forall. intros q Hq. rewrite Forall_forall in Hb1, D2. auto. }
  split; [assumption|].
  assert (Hs' : StronglySorted (fun p q => q_date p <= q_date q) ((r0 ++ concat batches) ++ rows)) by (rewrite <- app_assoc; assumption).
  destruct (sorted_bound _ _ Hs') as (D' & E1 & E2). apply Forall_app in E1. destruct E1 as [E0 E1].
  assert (Hup : forall E, Forall (fun q => q_date q <= E) r0 -> Forall (fun q => q_date q <= E) (concat batches) -> upto E a).
  { intros E F0 F1.
    destruct (history_sound Hh base (Z.min D E) Hl HP0) as (_ & _ & Hu').
    - apply Hu0. apply Forall_forall. intros q Hq. rewrite Forall_forall in D1, F0. specialize (D1 q Hq). specialize (F0 q Hq). lia.
    - split; assumption.
    - apply Forall_forall. intros q Hq. rewrite Forall_forall in Hb1, D2. specialize (D2 q Hq). split; [auto|lia].
    - apply Hu'; [lia|assumption]. }
  split.
  - apply (@rows_ok_intro S C base a rows D'); auto.
    apply Forall_forall. intros q Hq. rewrite Forall_forall in Hb2, E2. auto.
  - intros E HE. simpl in HE. apply Forall_app in HE. destruct HE. auto.
Qed.

(** ** The observations of a call, when no two rows of a batch are of the same day *)

Definition clear_row (c2 : bool) (q : raw) : bool := (q_qa q <? 2) && id_range c2 q.
Definition after (last : option Z) (q : raw) : bool := match last with Some d => d <? q_date q | None => true end.
Definition fresh (c2 : bool) a rows : list obs :=
  map sobs (filter (fun q => clear_row c2 q && after (last_date (carried a)) q) rows).

Lemma append_strict : forall c2 rows last, StronglySorted (fun p q => q_date p < q_date q) rows ->
  (forall d, last = Some d -> Forall (fun q => d <= q_date q) rows) ->
  append_obs keep_std (map (fun q => (q, id_range c2 q)) rows) last =
  map sobs (filter (fun q => clear_row c2 q && after last q) rows).
Proof.
  intros c2 rows. induction rows as [|q t IH]; intros last Hs Hl; [reflexivity|].
  inversion Hs as [|? ? Hs' Hf]; subst. cbn [map append_obs filter].
  change (keep_std (q, id_range c2 q)) with (clear_row c2 q).
  assert (Ht : forall d, last = Some d -> Forall (fun q => d <= q_date q) t) by (intros d Hd; specialize (Hl d Hd); inversion Hl; assumption).
  assert (Hq : forall d, Some (q_date q) = Some d -> Forall (fun q => d <= q_date q) t).
  { intros d Hd. injection Hd as <-. eapply Forall_impl; [|exact Hf]. simpl. lia. }
  assert (Ext : forall l1 l2, Forall (fun p => after l1 p = after l2 p) t ->
     filter (fun p => clear_row c2 p && after l1 p) t = filter (fun p => clear_row c2 p && after l2 p) t).
  { intros l1 l2 HF. apply filter_ext_in. intros p Hp. rewrite Forall_forall in HF. rewrite (HF p Hp). reflexivity. }
  destruct (clear_row c2 q); cbn [andb]; [|auto]. cbn [fst].
  destruct last as [d|]; cbn [after].
  - specialize (Hl d eq_refl). inversion Hl; subst.
    destruct (q_date q =? d) eqn:E.
    + replace (d <? q_date q) with false by lia. apply IH; auto.
    + replace (d <? q_date q) with true by lia. cbn [map]. f_equal. rewrite IH by auto. f_equal. apply (Ext (Some (q_date q)) (Some d)).
      eapply Forall_impl; [|exact Hf]. simpl. intros p Hp. lia.
  - cbn [map]. f_equal. rewrite IH by auto. f_equal. apply (Ext (Some (q_date q)) None).
    eapply Forall_impl; [|exact Hf]. simpl. intros p Hp. lia.
Qed.

Lemma call_fresh : forall base c2 rows a, rows_ok base a rows -> StronglySorted (fun p q => q_date p < q_date q) rows ->
  call_obs c2 false rows a = carried a ++ fresh c2 a rows.
Proof. intros base c2 rows a HR Hs. unfold call_obs, fresh. rewrite append_strict; auto. apply (ro_after HR). Qed.

Definition last8 {A} (l : list A) : list A := skipn (length l - 8) l.

(** A call that saw a new usable row and ended in a standard mode. *)
Lemma online_std : forall K P c2 junk jm all rows a b, sp_conse P = 8 -> length junk = 6%nat ->
  online all a -> batches_ok (all ++ [rows]) -> StronglySorted (fun p q => q_date p < q_date q) rows ->
  fresh c2 a rows <> [] -> update K P c2 junk jm rows a = Ok b -> standard_mode (io_mode b) ->
  exists rm b', StdPost (K rm) (no_pin P) launch (carried a ++ fresh c2 a rows) (with_rmse rm a) b' /\
    returned jm b' = Ok b /\ Forall (fun o => in_days (o_date o)) (carried a ++ fresh c2 a rows) /\ pack_ok launch b'.
Proof.
  intros K P c2 junk jm all rows a b H8 Hj Ho HB Hs Hf H Hm.
  assert (Hall : Forall (fun q => launch <= q_date q) (concat (all ++ [rows]))).
  { destruct HB as [Hg _]. eapply Forall_impl; [|exact Hg]. unfold good_row. simpl. lia. }
  destruct (@online_sound launch all a rows ltac:(lia) Ho HB Hall) as (HP & HR & _).
  destruct (update_ok H) as (b' & E & Hr).
  assert (Hm' : standard_mode (io_mode b')) by (rewrite <- (returned_mode Hr); assumption).
  assert (HPb : pack_ok launch b').
  { pose proof (@sccd_call N S F C K (no_pin P) launch c2 junk (enough rows a) rows a ltac:(lia) H8 Hj HP HR) as HC.
    rewrite E in HC. apply HC. }
  rewrite <- (@call_fresh launch c2 rows a HR Hs) in *.
  destruct (@call_std K (no_pin P) c2 junk (enough rows a) rows a b' launch ltac:(cbn; lia) Hj HP HR E Hm') as [[-> Hx]|[rm HT]].
  - exfalso. rewrite (@call_fresh launch c2 rows a HR Hs) in Hx. apply Hf.
    apply (f_equal (@length obs)) in Hx. rewrite app_length in Hx. destruct (fresh c2 a rows); [reflexivity|simpl in Hx; lia].
  - exists rm, b'. split; [assumption|]. split; [assumption|]. split; [|assumption].
    destruct (@call_obs_facts S C launch c2 false rows a HP HR) as (_ & Hd & _).
    eapply Forall_impl; [|exact Hd]. simpl. tauto.
Qed.

(** ** C24: the saved window *)
Theorem C24_window : forall K P c2 junk jm all rows a b, sp_conse P = 8 -> length junk = 6%nat ->
  online all a -> batches_ok (all ++ [rows]) -> StronglySorted (fun p q => q_date p < q_date q) rows ->
  fresh c2 a rows <> [] -> update K P c2 junk jm rows a = Ok b -> io_mode b = 1 \/ io_mode b = 11 ->
  carried b = last8 (carried a ++ fresh c2 a rows) /\ length (carried b) = 8%nat /\
  nm_obs (io_model b) = map (fun o => mkObs (o_date o - launch) (o_vals o)) (carried b).
Proof.
  intros K P c2 junk jm all rows a b H8 Hj Ho HB Hs Hf H Hm.
  assert (Hsm : standard_mode (io_mode b)) by (unfold standard_mode; destruct Hm as [-> | ->]; simpl; auto).
  destruct (@online_std K P c2 junk jm all rows a b H8 Hj Ho HB Hs Hf H Hsm) as (rm & b' & HT & Hr & Hd & HPb).
  set (x := carried a ++ fresh c2 a rows) in *.
  pose proof (returned_mode Hr) as Hmb.
  assert (Er : Z.rem (io_mode b') 10 = 1) by (rewrite <- Hmb; destruct Hm as [-> | ->]; reflexivity).
  destruct (st_model HT Er) as [(ts & nobs & _ & _ & _ & _ & _ & M6 & M7 & _) _].
  cbn [no_pin sp_conse] in M6, M7. rewrite H8 in M6, M7. rewrite slot_last in M7 by lia.
  assert (Ew : skipn (Z.to_nat (zlen x - 8)) x = last8 x) by (unfold last8, zlen; f_equal; lia). rewrite Ew in M7.
  assert (Hdw : Forall (fun o => in_days (o_date o)) (last8 x)).
  { apply Forall_forall. intros o Hin. rewrite Forall_forall in Hd. apply Hd. eapply subseq_In; [apply subseq_skipn|exact Hin]. }
  assert (Hl8 : length (last8 x) = 8%nat) by (unfold last8; rewrite skipn_length; unfold zlen in M6; lia).
  destruct (returned_pack HPb Hr) as (_ & Hcb & _ & _).
  assert (Hc' : carried b' = last8 x).
  { rewrite carried_monitor; [|assumption|intros E; rewrite E in Er; discriminate|rewrite M7, map_length; assumption].
    rewrite M7. apply ld_stv_map. assumption. }
  rewrite Hcb, Hc'. split; [reflexivity|]. split; [assumption|].
  assert (Hmod : io_model b = io_model b').
  { unfold returned in Hr. rewrite Er in Hr. cbn in Hr. injection Hr as <-. reflexivity. }
  rewrite Hmod, M7. apply map_ext_in. intros o Hin. unfold stv. f_equal.
  rewrite Forall_forall in Hdw. specialize (Hdw o Hin). unfold in_days in Hdw. apply wrap16_id. lia.
Qed.

(** ** C27: the saved queue *)
Theorem C27_queue : forall K P c2 junk jm all rows a b, sp_conse P = 8 -> length junk = 6%nat ->
  online all a -> batches_ok (all ++ [rows]) -> StronglySorted (fun p q => q_date p < q_date q) rows ->
  fresh c2 a rows <> [] -> update K P c2 junk jm rows a = Ok b -> io_mode b = 12 \/ io_mode b = 5 ->
  let x := carried a ++ fresh c2 a rows in
  1 <= zlen (carried b) <= 240 /\ subseq (carried b) x /\
  (forall r o, In r (io_recs b) -> In o (carried b) -> g_break r <= o_date o) /\
  (zlen (carried b) < 240 -> last (carried b) dflt_obs = last x dflt_obs).
Proof.
  intros K P c2 junk jm all rows a b H8 Hj Ho HB Hs Hf H Hm x.
  assert (Hsm : standard_mode (io_mode b)) by (unfold standard_mode; destruct Hm as [-> | ->]; simpl; auto).
  destruct (@online_std K P c2 junk jm all rows a b H8 Hj Ho HB Hs Hf H Hsm) as (rm & b' & HT & Hr & Hd & HPb).
  fold x in HT, Hd. pose proof (returned_mode Hr) as Hmb.
  assert (Er : Z.rem (io_mode b') 10 <> 1) by (rewrite <- Hmb; destruct Hm as [-> | ->]; discriminate).
  destruct (st_queue HT Er) as (q & Q1 & Q2 & Q3 & Q4 & Q5 & Q6).
  destruct (returned_pack HPb Hr) as (HPr & Hcb & Hrec & _).
  assert (Hc' : carried b' = q).
  { rewrite carried_queue by (rewrite <- Hmb; destruct Hm as [-> | ->]; auto). rewrite Q1. apply ld_stv_map.
    apply Forall_forall. intros o Hin. rewrite Forall_forall in Hd. apply Hd. eapply subseq_In; eassumption. }
  rewrite Hcb, Hrec, Hc'.
  assert (Hq1 : 1 <= zlen q) by (destruct q; [congruence|rewrite zlen_cons; unfold zlen; lia]).
  split; [unfold max_queue in Q4; lia|]. split; [assumption|]. split.
  - intros r o Hin Hoq.
    assert (Hd0 : dat q 0 <= o_date o).
    { pose proof (pk_asc HPr) as Ha. rewrite Hcb, Hc' in Ha. destruct q as [|q0 q']; [congruence|].
      unfold dat, nthO. simpl. destruct Hoq as [->|Hoq]; [lia|]. unfold asc, ascending in Ha. simpl in Ha.
      inversion Ha as [|? ? _ HF]; subst. rewrite Forall_forall in HF. specialize (HF (o_date o) (in_map o_date _ _ Hoq)). lia. }
    destruct (pk_recs HPb) as ([HC1 HC2] & _ & _).
    assert (Hlast : g_break r <= dat q 0).
    { clear -Hin Q5 HC1 HC2. revert Hin Q5 HC1 HC2. generalize (io_recs b') as rs. intros rs.
      induction rs as [|s rs IH] using rev_ind; intros Hin HL H1 H2; [contradiction|].
      unfold lastS in HL. rewrite rev_app_distr in HL. simpl in HL.
      apply in_app_or in Hin. destruct Hin as [Hin|[->|[]]]; [|assumption].
      apply Forall_app in H1. destruct H1 as [H1 H1']. inversion H1' as [|? ? Hsb _]; subst.
      destruct rs as [|t rs'] using rev_ind; [contradiction|]. clear IHrs'.
      assert (Hts : g_break t <= g_start s).
      { apply (H2 (length rs')).
        - rewrite <- app_assoc. rewrite nth_error_app2, Nat.sub_diag by lia. reflexivity.
        - rewrite nth_error_app2 by (rewrite app_length; simpl; lia). rewrite app_length. cbn [length].
          replace (Datatypes.S (length rs') - (length rs' + 1))%nat with 0%nat by lia. reflexivity. }
      apply IH; auto.
      - unfold lastS. rewrite rev_app_distr. simpl. lia.
      - intros k u v Hu Hv. apply (H2 k); rewrite nth_error_app1; auto; apply nth_error_Some; congruence. }
    lia.
  - intros Hlt. assert (Hx : 1 <= zlen x).
    { pose proof (subseq_length Q2). unfold zlen in *. lia. }
    destruct (Q6 ltac:(unfold max_queue; lia) 0 ltac:(cbn [no_pin sp_conse]; lia)) as [_ Q7].
    assert (Hn : forall l : list obs, 1 <= zlen l -> last l dflt_obs = nthO l (zlen l - 1 - 0)).
    { intros l Hl. unfold nthO, zlen in *. destruct l as [|o l] using rev_ind; [simpl in Hl; lia|].
      rewrite last_last, app_length. simpl. rewrite app_nth2 by lia.
      replace (Z.to_nat _ - length l)%nat with 0%nat by lia. reflexivity. }
    rewrite !Hn by lia. exact Q7.
Qed.

(** ** Detection with any window *)

Lemma detect_std : forall K P c2 junk jm rows b, 1 <= sp_conse P -> length junk = 6%nat ->
  StronglySorted (fun p q => q_date p < q_date q) rows -> detect K P c2 junk jm rows = Ok b -> standard_mode (io_mode b) ->
  exists rm base b', StdPost (K rm) P base (map sobs (filter (clear_row c2) rows)) (with_rmse rm (blank C jm)) b' /\
    returned jm b' = Ok b.
Proof.
  intros K P c2 junk jm rows b Hc Hj Hs H Hm. destruct (detect_ok H) as (b' & E & Hr & _).
  assert (Hw : StronglySorted (fun p q => q_date p <= q_date q) rows).
  { clear -Hs. induction Hs as [|q l _ IH HF]; constructor; auto. eapply Forall_impl; [|exact HF]. simpl. lia. }
  assert (Hm' : standard_mode (io_mode b')) by (rewrite <- (returned_mode Hr); assumption).
  assert (Hx : call_obs c2 false rows (blank C jm) = map sobs (filter (clear_row c2) rows)).
  { unfold call_obs. change (carried (blank C jm)) with (@nil obs). cbn [app]. change (last_date []) with (@None Z).
    rewrite append_strict; [|assumption|discriminate]. f_equal. apply filter_ext. intros q. cbn [after]. apply andb_true_r. }
  destruct (@sccd_cases N S F C K P c2 junk (enough rows (blank C jm)) rows (blank C jm) Hj) as [E1|(sn & Hsn & Hsn' & Hmo & Hcase)]; [congruence|].
  cbv zeta in Hcase. destruct (@detect_obs S C c2 sn rows jm Hw) as [Ha Hin].
  destruct Hcase as [[-> E1]|[(-> & Hx' & E1)|(-> & Hlt & rm & Hrm & E1)]]; rewrite E in E1.
  - exfalso. assert (Hbm : io_mode b' = 3 \/ io_mode b' = 4).
    { symmetry in E1. clear -E1. unfold snow in E1. cbv zeta in E1. destruct (_ || _); [destruct (_ <? 18)|].
      all: repeat match goal with
        | H : bind ?e _ = Ok _ |- _ => let E := fresh "E" in destruct e as [?v| | |] eqn:E; cbn [bind] in H; try discriminate; clear E
        end; injection E1 as <-; cbn; auto. }
    unfold standard_mode in Hm'. simpl in Hm'. lia.
  - exfalso. injection E1 as ->. unfold standard_mode in Hm'. cbn in Hm'. lia.
  - destruct (lower_bound (map o_date (call_obs c2 false rows (blank C jm)))) as [base Hbase]. rewrite Forall_map in Hbase.
    assert (Hn : call_obs c2 false rows (blank C jm) <> []).
    { intros E0. rewrite E0 in Hlt. unfold zlen in Hlt. simpl in Hlt. lia. }
    pose proof (@standard_spec N S F C (K rm) P Hc (enough rows (blank C jm)) _ _ base (@blank_start S C rm base _ jm Ha Hn Hbase)) as HT.
    cbn [blank io_mode io_recs io_model io_queue io_pins] in E1. rewrite <- E1 in HT. rewrite Hx in HT.
    exists rm, base, b'. auto.
Qed.

Lemma returned_model : forall jm (b' b : io), returned jm b' = Ok b -> Z.rem (io_mode b) 10 = 1 -> io_model b = io_model b'.
Proof.
  intros jm b' b Hr E. assert (E' : Z.rem (io_mode b') 10 = 1) by (rewrite <- (returned_mode Hr); assumption).
  unfold returned in Hr. rewrite E' in Hr. cbn in Hr. injection Hr as <-. reflexivity.
Qed.
Arguments returned_model {jm b' b}.

(** ** C28: trailing anomalies *)

(** [mag k] is the magnitude of the newest observation but [k]: the field
    conse_last is the length of the longest run of newest magnitudes above the
    gate, norm_cm the smallest of them (or the cap of the scan) converted by
    [m16], or -9999. *)
Definition trailing (P : sparams) (m16 : fl -> Z) (mag : Z -> fl) (nm : nmodel S) : Prop :=
  0 <= nm_last nm <= sp_conse P /\
  (forall k, 0 <= k < nm_last nm -> fgt (mag k) (Fin (sp_gate P)) = true) /\
  (nm_last nm < sp_conse P -> fgt (mag (nm_last nm)) (Fin (sp_gate P)) = false) /\
  (nm_last nm = 0 -> nm_cm nm = -9999 /\ nm_angle nm = -9999) /\
  (0 < nm_last nm -> exists v, nm_cm nm = m16 v /\
     (v = Fin (sp_cap2 P) \/ exists k, 0 <= k < nm_last nm /\ v = mag k) /\
     (forall k, 0 <= k < nm_last nm -> flt (mag k) v = false)).

Lemma run_trailing : forall (k : skernel N S F C) P mag nm, run_ok k P mag nm ->
  (forall j, 0 <= j < sp_conse P -> mag j <> NaN) -> trailing P (k_m16 k) mag nm.
Proof.
  intros k P mag nm (R1 & R2 & R3 & R4 & R5) Hn. split; [assumption|]. split; [|split; [|split; assumption]].
  - intros j Hj. specialize (R2 j Hj). specialize (Hn j ltac:(lia)). destruct (mag j); [congruence|]. simpl in *. lia.
  - intros Hl. specialize (R3 Hl). destruct (mag (nm_last nm)); simpl in *; [discriminate|lia].
Qed.

(** The magnitudes used are those of the stored model [m] for the newest
    observations [x]. *)
Definition newest (k : skernel N S F C) (m : N) (nobs : Z) (x : list obs) (j : Z) : fl :=
  k_norm2 k m (nobs - (if nobs <? 18 then 4 else 6)) (nth (Z.to_nat (zlen x - 1 - j)) x dflt_obs).

Theorem C28_detect : forall K P c2 junk jm rows b, 1 <= sp_conse P -> length junk = 6%nat ->
  StronglySorted (fun p q => q_date p < q_date q) rows -> detect K P c2 junk jm rows = Ok b -> io_mode b = 1 ->
  let x := map sobs (filter (clear_row c2) rows) in
  sp_conse P <= zlen x /\
  exists rm m nobs, nm_st (io_model b) = k_store (K rm) m /\ 1 <= nobs /\ nm_nobs (io_model b) = wrap16 nobs /\
    ((forall j, 0 <= j < sp_conse P -> newest (K rm) m nobs x j <> NaN) ->
     trailing P (k_m16 (K rm)) (newest (K rm) m nobs x) (io_model b)).
Proof.
  intros K P c2 junk jm rows b Hc Hj Hs H Hm x.
  destruct (@detect_std K P c2 junk jm rows b Hc Hj Hs H) as (rm & base & b' & HT & Hr).
  { unfold standard_mode. rewrite Hm. simpl. auto. }
  fold x in HT. rewrite (returned_model Hr) by (rewrite Hm; reflexivity).
  assert (Er : Z.rem (io_mode b') 10 = 1) by (rewrite <- (returned_mode Hr), Hm; reflexivity).
  destruct (st_model HT Er) as [(ts & nobs & _ & _ & _ & _ & _ & M6 & _) _]. split; [assumption|].
  destruct (st_run HT Er) as (m & nobs' & R1 & R2 & R3 & R4). exists rm, m, nobs'. do 3 (split; [assumption|]).
  intros Hn. apply run_trailing; assumption.
Qed.

Theorem C28_update : forall K P c2 junk jm all rows a b, sp_conse P = 8 -> length junk = 6%nat ->
  online all a -> batches_ok (all ++ [rows]) -> StronglySorted (fun p q => q_date p < q_date q) rows ->
  fresh c2 a rows <> [] -> update K P c2 junk jm rows a = Ok b -> io_mode b = 1 \/ io_mode b = 11 ->
  let x := carried a ++ fresh c2 a rows in
  exists rm m nobs, nm_st (io_model b) = k_store (K rm) m /\ 1 <= nobs /\ nm_nobs (io_model b) = wrap16 nobs /\
    ((forall j, 0 <= j < 8 -> newest (K rm) m nobs x j <> NaN) ->
     trailing P (k_m16 (K rm)) (newest (K rm) m nobs x) (io_model b)).
Proof.
  intros K P c2 junk jm all rows a b H8 Hj Ho HB Hs Hf H Hm x.
  assert (Hsm : standard_mode (io_mode b)) by (unfold standard_mode; destruct Hm as [-> | ->]; simpl; auto).
  destruct (@online_std K P c2 junk jm all rows a b H8 Hj Ho HB Hs Hf H Hsm) as (rm & b' & HT & Hr & _ & _).
  fold x in HT. assert (Erb : Z.rem (io_mode b) 10 = 1) by (destruct Hm as [-> | ->]; reflexivity).
  rewrite (returned_model Hr Erb).
  assert (Er : Z.rem (io_mode b') 10 = 1) by (rewrite <- (returned_mode Hr); assumption).
  destruct (st_run HT Er) as (m & nobs' & R1 & R2 & R3 & R4). exists rm, m, nobs'. do 3 (split; [assumption|]).
  intros Hn. pose proof (@run_trailing (K rm) (no_pin P) _ _ R4) as HR. apply HR. cbn [no_pin sp_conse]. rewrite H8. assumption.
Qed.

(** ** C36 *)

(** Window of six (the default of the Python layer and the constant used by
    sccd_identify): the date is that of the first of the trailing anomalies. *)
Theorem C36_window_six : forall K P c2 junk jm rows a b d green dist cmt ant tr,
  sp_conse P = 6 -> length junk = 6%nat -> Forall good_row rows ->
  StronglySorted (fun p q => q_date p < q_date q) rows ->
  detect K P c2 junk jm rows = Ok a -> io_mode a = 1 -> 1 <= dist ->
  identify green dist cmt ant tr a = Some (b, d) -> d <> 0 ->
  let x := map sobs (filter (clear_row c2) rows) in
  let n := nm_last (io_model a) in
  dist <= n <= 6 /\ d = o_date (nth (Z.to_nat (zlen x - n)) x dflt_obs) /\
  exists rm m nobs, nm_st (io_model a) = k_store (K rm) m /\ nm_nobs (io_model a) = wrap16 nobs /\
    ((forall j, 0 <= j < 6 -> newest (K rm) m nobs x j <> NaN) ->
     (forall j, 0 <= j < n -> fgt (newest (K rm) m nobs x j) (Fin (sp_gate P)) = true) /\
     (n < 6 -> fgt (newest (K rm) m nobs x n) (Fin (sp_gate P)) = false)).
Proof.
  intros K P c2 junk jm rows a b d green dist cmt ant tr H6 Hj Hg Hs H Hm Hdist Hi Hd x n.
  destruct (@detect_std K P c2 junk jm rows a ltac:(lia) Hj Hs H) as (rm & base & b' & HT & Hr).
  { unfold standard_mode. rewrite Hm. simpl. auto. }
  fold x in HT. pose proof (returned_model Hr ltac:(rewrite Hm; reflexivity)) as Emod.
  assert (Er : Z.rem (io_mode b') 10 = 1) by (rewrite <- (returned_mode Hr), Hm; reflexivity).
  destruct (st_model HT Er) as [(ts & nobs & _ & _ & _ & _ & _ & M6 & M7 & _) _].
  destruct (st_run HT Er) as (m & nobs' & R1 & R2 & R3 & R4). rewrite <- Emod in M7, R1, R3, R4. rewrite H6 in M6, M7.
  pose proof R4 as R4'. destruct R4' as (L1 & _). rewrite H6 in L1. fold n in L1.
  unfold identify in Hi. rewrite Hm in Hi. cbn [Z.eqb Pos.eqb orb Z.quot Z.quotrem fst] in Hi. change (Z.quot 1 10 =? 1) with false in Hi.
  cbn [orb] in Hi. fold n in Hi.
  destruct ((dist <=? n) && (cmt <? nm_cm (io_model a)) && (nm_angle (io_model a) <? ant)) eqn:Eg;
    [|injection Hi; intros; congruence].
  apply andb_prop in Eg. destruct Eg as [Eg _]. apply andb_prop in Eg. destruct Eg as [Eg _].
  destruct (6 <? n) eqn:E6; [discriminate|]. destruct (green _); [injection Hi; intros; congruence|].
  split; [lia|]. split.
  - rewrite M7 in Hi. unfold slot_view in Hi. rewrite nth_error_map in Hi.
    assert (Eseq : nth_error (seq 0 8) (Z.to_nat (6 - n)) = Some (Z.to_nat (6 - n))).
    { rewrite (nth_error_nth' _ 0%nat) by (rewrite seq_length; lia). rewrite seq_nth by lia. reflexivity. }
    rewrite Eseq in Hi. cbn [option_map] in Hi.
    replace (Z.of_nat (Z.to_nat (6 - n)) <? 6) with true in Hi by lia.
    assert (Ed : d = o_date (stv (nthO x (zlen x - 6 + Z.of_nat (Z.to_nat (6 - n))))) + launch) by congruence.
    clear Hi. rewrite Ed. unfold stv. cbn [o_date].
    assert (Hin : launch <= o_date (nthO x (zlen x - 6 + Z.of_nat (Z.to_nat (6 - n)))) <= launch + 32767).
    { assert (Hx : Forall (fun o => launch <= o_date o <= launch + 32767) x).
      { unfold x. rewrite Forall_map. apply Forall_forall. intros q Hq. apply filter_In in Hq.
        rewrite Forall_forall in Hg. apply (Hg q). tauto. }
      rewrite Forall_forall in Hx. apply Hx. apply In_nthO. lia. }
    rewrite wrap16_id by lia. replace (zlen x - 6 + Z.of_nat (Z.to_nat (6 - n))) with (zlen x - n) by lia. unfold nthO. lia.
  - exists rm, m, nobs'. do 2 (split; [assumption|]). intros Hn.
    destruct (@run_trailing (K rm) P _ _ R4) as (_ & T2 & T3 & _).
    { rewrite H6. exact Hn. }
    fold n in T2, T3. rewrite H6 in T3. split; assumption.
Qed.

(** Snow packs and untested packs: no date, pack unchanged. *)
Theorem C36_no_date : forall green dist cmt ant tr a, In (io_mode a) [3; 4; 11; 12] ->
  identify green dist cmt ant tr a = Some (a, 0).
Proof.
  intros green dist cmt ant tr a Hm. unfold identify. simpl in Hm.
  destruct Hm as [<-|[<-|[<-|[<-|[]]]]]; reflexivity.
Qed.

(** ** C29 and C35: no access outside the arrays *)

Lemma returned_not_ub : forall jm r, r <> UB -> (b <- r ;; @returned S C jm b) <> UB.
Proof.
  intros jm r H. destruct r as [b| | |]; cbn [bind]; try discriminate; [|contradiction]. apply returned_no_ub.
Qed.

(** Detection with a window of at most six: series of up to 14681 days (40
    years), 16-bit bands, no pinpoint output. *)
Theorem C29_detect : forall K P c2 junk jm rows first, 1 <= sp_conse P <= 6 -> sp_pin P = false -> length junk = 6%nat ->
  Forall good_row rows -> StronglySorted (fun p q => q_date p <= q_date q) rows ->
  Forall (fun q => first <= q_date q < first + 14681) rows -> angles_exist K ->
  detect K P c2 junk jm rows <> UB.
Proof.
  intros K P c2 junk jm rows first Hc Hp Hj Hg Hs Hf Ha. unfold detect.
  destruct rows as [|r0 rest] eqn:Er; [discriminate|]. rewrite <- Er in *. clear Er.
  destruct (slots <? sp_conse P); [discriminate|]. destruct (_ <? 1461); [discriminate|].
  apply returned_not_ub. intros E.
  destruct (@sccd_cases N S F C K P c2 junk (enough rows (blank C jm)) rows (blank C jm) Hj) as [E1|(sn & Hsn & Hsn' & Hmo & Hcase)]; [congruence|].
  cbv zeta in Hcase. destruct (@detect_obs S C c2 sn rows jm Hs) as [Hasc Hin].
  assert (Hall : Forall (fun o => (in_days (o_date o) /\ first <= o_date o) /\ o_date o < first + 14681 /\ vals16 o)
                        (call_obs c2 sn rows (blank C jm))).
  { apply Forall_forall. intros o Ho. destruct (Hin o Ho) as (q & Hq & -> & _).
    rewrite Forall_forall in Hg, Hf. destruct (Hg q Hq) as [G1 G2]. specialize (Hf q Hq).
    cbn [sobs o_date]. split; [split; [exact G1|lia]|]. split; [lia|exact G2]. }
  destruct Hcase as [[-> E1]|[(-> & Hx' & E1)|(-> & Hlt & rm & Hrm & E1)]]; rewrite E in E1.
  - pose proof (@snow_wp N S F C (K (io_rmse (blank C jm))) first (call_obs c2 true rows (blank C jm)) (blank C jm)) as HW.
    rewrite <- E1 in HW. apply HW; auto; try discriminate.
    + eapply Forall_impl; [|exact Hall]. simpl. tauto.
    + eapply Forall_impl; [|exact Hall]. simpl. tauto.
  - discriminate.
  - assert (Hn : call_obs c2 false rows (blank C jm) <> []).
    { intros E0. rewrite E0 in Hlt. unfold zlen in Hlt. simpl in Hlt. lia. }
    assert (Hb : Forall (fun o => first <= o_date o) (call_obs c2 false rows (blank C jm))).
    { eapply Forall_impl; [|exact Hall]. simpl. tauto. }
    pose proof (@standard_spec N S F C (K rm) P ltac:(lia) (enough rows (blank C jm)) _ _ first (@blank_start S C rm first _ jm Hasc Hn Hb)) as HT.
    cbn [blank io_mode io_recs io_model io_queue io_pins] in E1. rewrite <- E1 in HT. apply HT.
    rewrite Forall_forall in Hall.
    split; [intros o Ho; apply (Hall o Ho)|]. split; [apply Forall_forall; intros o Ho; apply (Hall o Ho)|].
    split; [intros m d l; apply (Ha rm)|]. split; [left; lia|]. split; [left; assumption|].
    cbn [io_mode]. split; [intros [E0|E0]; discriminate|discriminate].
Qed.

(** The pinpoint output inside the C procedure, for a window of seven or
    eight: dates from 1982 on, at most 40 entries.  (The entry sccd_detect
    meets the first of these conditions only together with the failure of
    [C29_first_record_refuted].) *)
Theorem C30_procedure_partial : forall (k : skernel N S F C) P fuel x a base, start_ok base x a ->
  7 <= sp_conse P -> sp_conse P <= zlen x ->
  (forall o, In o x -> y1982 <= o_date o < base + 14681) -> Forall vals16 x ->
  (forall m d l, k_a16 k (k_angle2 k m d l) <> None) ->
  io_recs a <> [] \/ Z.rem (io_mode a) 10 = 1 ->
  (forall o, In o x -> zlen (io_pins a) + n_buckets (o_date o) <= 40) ->
  nm_obs (io_model a) <> [] ->
  standard k P fuel x a <> UB.
Proof.
  intros k P fuel x a base HS Hc Hx Hd Hv Ha Hr Hp Hn E.
  pose proof (@standard_spec N S F C k P ltac:(lia) fuel x a base HS) as HT. rewrite E in HT. apply HT.
  split; [intros o Ho; apply (Hd o Ho)|]. split; [assumption|]. split; [assumption|]. split; [right; assumption|].
  split; [right; split; [assumption|split; [intros o Ho; apply (Hd o Ho)|assumption]]|]. auto.
Qed.

(** Number of records a sound pack can hold. *)
Lemma pack_count : forall base a D, pack_ok base a -> upto D a -> D < base + 14681 -> zlen (io_recs a) <= 40.
Proof.
  intros base a D HP Hu HD. destruct (pk_recs HP) as (R1 & R2 & R3).
  destruct (io_recs a) as [|r rs] eqn:Er; [unfold zlen; simpl; lia|].
  assert (HL : exists e : Z, lastS (io_recs a) e /\ e <= D).
  { assert (Hd : carried a <> [] -> dat (carried a) 0 <= D).
    { intros Hc. unfold upto in Hu. destruct (carried a) as [|o l]; [congruence|]. inversion Hu; subst. exact H1. }
    pose proof (pk_mode HP) as Hm. simpl in Hm.
    assert (Hcase : Z.rem (io_mode a) 10 = 1 \/ (Z.rem (io_mode a) 10 = 2 \/ Z.rem (io_mode a) 10 = 5) \/
                    (io_mode a = 0 \/ io_mode a = 3 \/ io_mode a = 4)).
    { destruct Hm as [Hm|[Hm|[Hm|[Hm|[Hm|[Hm|[Hm|[]]]]]]]]; rewrite <- Hm; cbn; auto. }
    destruct Hcase as [E|[E|E]].
    - destruct (pk_start HP E) as (_ & S2 & _ & S4). exists (nm_start (io_model a) + launch). split; [assumption|].
      assert (Hc : carried a <> []).
      { rewrite carried_monitor; [|assumption|intros E4; rewrite E4 in E; discriminate|apply (pk_mon HP); auto].
        pose proof (pk_mon HP (or_introl E)) as Hl. destruct (nm_obs (io_model a)); discriminate. }
      specialize (Hd Hc). lia.
    - destruct (pk_queue HP E) as [Hc HL]. exists (dat (carried a) 0). auto.
    - rewrite (pk_new HP E) in Er. discriminate. }
  destruct HL as (e & HL & Hb). rewrite Er in HL.
  pose proof (@long_span C rs r R1 R2 e HL) as H. inversion R3; subst. rewrite zlen_cons. lia.
Qed.

(** Window of eight, 40 years of observations, any history: an update never
    accesses memory outside its arrays, provided a model or a record exists
    already or the pixel is in a snow mode; at most 40 records result. *)
Theorem C35_online : forall K P c2 junk jm all rows a first, launch <= first -> sp_conse P = 8 -> length junk = 6%nat ->
  online all a -> batches_ok (all ++ [rows]) ->
  Forall (fun q => first <= q_date q < first + 14681) (concat (all ++ [rows])) -> angles_exist K ->
  io_recs a <> [] \/ In (io_mode a) [1; 3; 4; 11] ->
  update K P c2 junk jm rows a <> UB /\
  (forall b, update K P c2 junk jm rows a = Ok b -> zlen (io_recs b) <= 40).
Proof.
  intros K P c2 junk jm all rows a first Hl H8 Hj Ho HB Hd Ha Hr.
  assert (Hd1 : Forall (fun q => first <= q_date q) (concat (all ++ [rows]))) by (eapply Forall_impl; [|exact Hd]; simpl; lia).
  destruct (@online_sound first all a rows Hl Ho HB Hd1) as (HP & HR & Hu).
  rewrite concat_app in Hd. simpl in Hd. rewrite app_nil_r in Hd. apply Forall_app in Hd. destruct Hd as [Hd2 Hd3].
  assert (HuD : upto (first + 14680) a) by (apply Hu; eapply Forall_impl; [|exact Hd2]; simpl; lia).
  pose proof (@sccd_call N S F C K (no_pin P) first c2 junk (enough rows a) rows a Hl H8 Hj HP HR) as HC.
  split.
  - unfold update. destruct rows as [|q rows'] eqn:Er; [discriminate|]. rewrite <- Er in *. apply returned_not_ub.
    intros E. rewrite E in HC. apply HC. unfold upto in HuD. rewrite Forall_forall in HuD, Hd3.
    split; [intros o Hin; specialize (HuD o Hin); lia|]. split; [intros p Hin; specialize (Hd3 p Hin); lia|].
    split; [intros rm; apply Ha|]. split; [|reflexivity].
    destruct Hr as [Hr|Hr]; [left; assumption|right]. simpl in Hr.
    destruct Hr as [Hr|[Hr|[Hr|[Hr|[]]]]]; rewrite <- Hr; cbn; auto.
  - intros b H. destruct (update_ok H) as (b' & E & Hrt). rewrite E in HC. destruct HC as (HPb & _ & _ & _ & sn & Hsub).
    destruct (returned_pack HPb Hrt) as (HPr & Hcb & _ & _).
    apply (@pack_count first b (first + 14680) HPr); [|lia]. unfold upto. rewrite Hcb. apply Forall_forall. intros o Hin.
    assert (Hc : Forall (fun o => o_date o <= first + 14680) (call_obs c2 sn rows a)).
    { apply call_obs_upto; [assumption|]. eapply Forall_impl; [|exact Hd3]. simpl. lia. }
    rewrite Forall_forall in Hc. apply Hc. eapply subseq_In; eassumption.
Qed.

End Props.

Print Assumptions C25_standard.
Print Assumptions C25_snow_queue.
Print Assumptions C25_snow_model.
Print Assumptions C25_update.
Print Assumptions C33_two_observations.
Print Assumptions C32_pack_kept.
Print Assumptions C24_window.
Print Assumptions C27_queue.
Print Assumptions C28_detect.
Print Assumptions C28_update.
Print Assumptions C36_window_six.
Print Assumptions C36_no_date.
Print Assumptions C29_detect.
Print Assumptions C30_procedure_partial.
Print Assumptions C35_online.
