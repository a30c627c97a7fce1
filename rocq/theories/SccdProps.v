(** Properties C21-C36 of S-CCD, stated over the Python entry points. *)
From Verif Require Import Base SortModel LibModel LibProps ColdModel ColdLemmas FrontModel FrontProps
  SccdModel SccdProof SccdTop SccdPack SccdTerm SccdApi SccdToy.

(** Records: each starts before it breaks, and none starts before the previous
    one broke. *)
Definition records_ordered {C} (rs : list (seg C)) : Prop :=
  (forall r, In r rs -> g_start r < g_break r) /\
  (forall k r s, nth_error rs k = Some r -> nth_error rs (S k) = Some s -> g_break r <= g_start s).

(** Initialisation never reports an error (auto_mask, the lasso fits). *)
Definition fits_succeed {N S F C} (K : list Z -> skernel N S F C) : Prop :=
  forall rm, (forall l, k_mask1 (K rm) l <> None) /\ (forall l, k_fit1 (K rm) l <> None) /\
             (forall f a b, k_first (K rm) f a b <> None).

(** The mean angle of a window is a number. *)
Definition angles_exist {N S F C} (K : list Z -> skernel N S F C) : Prop :=
  forall rm m d l, k_a16 (K rm) (k_angle2 (K rm) m d l) <> None.

Section Props.
Variables N S F C : Type.
Notation io := (io S C).
Notation seg := (seg C).
Implicit Types (K : list Z -> skernel N S F C) (P : sparams) (junk : list Z) (jm : nmodel S)
  (rows : list raw) (a b : io).

Lemma returned_mode : forall jm a b, returned jm a = Ok b -> io_mode b = io_mode a.
Proof.
  intros jm a b H. unfold returned in H.
  destruct (_ || _); [injection H as <-; reflexivity|]. destruct (_ || _); [injection H as <-; reflexivity|].
  destruct (_ =? 5); [injection H as <-; reflexivity|]. destruct (_ =? 0); [injection H as <-; reflexivity|discriminate].
Qed.
Arguments returned_mode {jm a b}.

Lemma returned_recs : forall jm a b, returned jm a = Ok b -> io_recs b = io_recs a \/ io_mode a = 0 /\ io_recs b = [].
Proof.
  intros jm a b H. unfold returned in H.
  destruct (_ || _); [injection H as <-; auto|]. destruct (_ || _); [injection H as <-; auto|].
  destruct (_ =? 5); [injection H as <-; auto|]. destruct (io_mode a =? 0) eqn:E; [injection H as <-|discriminate].
  right. split; [lia|reflexivity].
Qed.
Arguments returned_recs {jm a b}.

Lemma returned_no_fuel : forall jm a, returned jm a <> Fuel.
Proof.
  intros jm a. unfold returned. destruct (_ || _); [discriminate|]. destruct (_ || _); [discriminate|].
  destruct (_ =? 5); [discriminate|]. destruct (_ =? 0); discriminate.
Qed.

Lemma returned_no_ub : forall jm a, returned jm a <> UB.
Proof.
  intros jm a. unfold returned. destruct (_ || _); [discriminate|]. destruct (_ || _); [discriminate|].
  destruct (_ =? 5); [discriminate|]. destruct (_ =? 0); discriminate.
Qed.

Lemma detect_ok : forall K P c2 junk jm rows b, detect K P c2 junk jm rows = Ok b ->
  exists b', sccd K P c2 junk (enough rows (blank C jm)) rows (blank C jm) = Ok b' /\ returned jm b' = Ok b /\ sp_conse P <= 8.
Proof.
  intros K P c2 junk jm rows b H. unfold detect in H. destruct rows as [|r t]; [discriminate|].
  destruct (slots <? sp_conse P) eqn:E1; [discriminate|]. destruct (_ <? 1461); [discriminate|].
  destruct (sccd K P c2 junk _ (r :: t) (blank C jm)) as [b'| | |] eqn:E; try discriminate. simpl in H.
  exists b'. unfold slots in E1. repeat split; auto. lia.
Qed.
Arguments detect_ok {K P c2 junk jm rows b}.

Lemma update_ok : forall K P c2 junk jm rows a b, update K P c2 junk jm rows a = Ok b ->
  exists b', sccd K (no_pin P) c2 junk (enough rows a) rows a = Ok b' /\ returned jm b' = Ok b.
Proof.
  intros K P c2 junk jm rows a b H. unfold update in H. destruct rows as [|r t]; [discriminate|].
  destruct (sccd K (no_pin P) c2 junk _ (r :: t) a) as [b'| | |] eqn:E; try discriminate. simpl in H.
  exists b'. auto.
Qed.
Arguments update_ok {K P c2 junk jm rows a b}.

(** ** C21: termination, for every input *)

Lemma enough_zlen : forall rows a, Z.of_nat (enough rows a) = zlen (carried a) + zlen rows.
Proof. intros. unfold enough, zlen. lia. Qed.

Theorem C21_detect_terminates : forall K P c2 junk jm rows, 1 <= sp_conse P -> length junk = 6%nat -> fits_succeed K ->
  detect K P c2 junk jm rows <> Fuel.
Proof.
  intros K P c2 junk jm rows Hc Hj Hf H. unfold detect in H. destruct rows as [|r t]; [discriminate|].
  destruct (slots <? _); [discriminate|]. destruct (_ <? 1461); [discriminate|].
  pose proof (@any_sccd N S F C K P c2 junk (enough (r :: t) (blank C jm)) (r :: t) (blank C jm) Hc Hj) as HA.
  destruct (sccd K P c2 junk _ (r :: t) (blank C jm)) as [b'| | |]; try discriminate.
  - eapply returned_no_fuel; exact H.
  - rewrite enough_zlen in HA. destruct HA as [[rm HA]|HA]; [|lia]. apply HA. apply Hf.
Qed.

Theorem C21_update_terminates : forall K P c2 junk jm rows a, 1 <= sp_conse P -> length junk = 6%nat -> fits_succeed K ->
  update K P c2 junk jm rows a <> Fuel.
Proof.
  intros K P c2 junk jm rows a Hc Hj Hf H. unfold update in H. destruct rows as [|r t]; [discriminate|].
  pose proof (@any_sccd N S F C K (no_pin P) c2 junk (enough (r :: t) a) (r :: t) a Hc Hj) as HA.
  destruct (sccd K (no_pin P) c2 junk _ (r :: t) a) as [b'| | |]; try discriminate.
  - eapply returned_no_fuel; exact H.
  - rewrite enough_zlen in HA. cbn [sp_conse no_pin] in HA. destruct HA as [[rm HA]|HA]; [|lia]. apply HA. apply Hf.
Qed.

(** ** C22 *)

Lemma chain_ordered : forall rs : list seg, seg_chain rs <-> records_ordered rs.
Proof.
  intros rs. unfold seg_chain, records_ordered. rewrite Forall_forall. tauto.
Qed.

Lemma lower_bound : forall l : list Z, exists m, Forall (fun d => m <= d) l.
Proof.
  induction l as [|d l [m IH]]; [exists 0; constructor|]. exists (Z.min d m). constructor; [lia|].
  eapply Forall_impl; [|exact IH]. simpl. lia.
Qed.

(** Observations selected by sccd_detect. *)
Lemma detect_obs : forall c2 sn rows jm, rows_sorted rows -> asc (call_obs c2 sn rows (blank C jm)) /\
  (forall o, In o (call_obs c2 sn rows (blank C jm)) -> exists q, In q rows /\ o = sobs q /\ (sn = false -> id_range c2 q = true)).
Proof.
  intros c2 sn rows jm Hs. unfold call_obs.
  change (carried (blank C jm)) with (@nil obs). cbn [app last_date rev].
  set (l := map (fun q => (q, id_range c2 q)) rows).
  set (keep := if sn then keep_snow else keep_std).
  assert (Hl : map fst l = rows) by (unfold l; rewrite map_map, map_id; reflexivity).
  destruct (@append_asc keep l None) as [A1 A2]; [rewrite Hl; assumption|discriminate|].
  split; [assumption|]. intros o Ho. destruct (append_in _ _ _ _ Ho) as (q & Hq & Hk & ->).
  apply in_map_iff in Hq. destruct Hq as (r & <- & Hr). exists r. split; [assumption|]. split; [reflexivity|].
  intros ->. unfold keep, keep_std in Hk. simpl in Hk. apply andb_true_iff in Hk. tauto.
Qed.

Lemma blank_start : forall rm base x jm, asc x -> x <> [] -> Forall (fun o => base <= o_date o) x ->
  start_ok base x (mkIO 0 (@nil seg) jm [] rm []).
Proof.
  intros rm base x jm Ha Hn Hb. constructor; cbn [io_mode io_recs io_model]; auto; try discriminate.
  - split; [constructor|]. intros [|] ? ? E; discriminate.
  - unfold seg_long. constructor.
  - exact I.
Qed.

Theorem C22_detect : forall K P c2 junk jm rows b, 1 <= sp_conse P -> length junk = 6%nat ->
  StronglySorted (fun p q => q_date p <= q_date q) rows ->
  detect K P c2 junk jm rows = Ok b -> records_ordered (io_recs b).
Proof.
  intros K P c2 junk jm rows b Hc Hj Hs H. destruct (detect_ok H) as (b' & E & Hr & _).
  assert (Hb' : records_ordered (io_recs b')).
  2: { destruct (returned_recs Hr) as [-> |[_ ->]]; [assumption|]. split; [intros r []|intros [|] ? ? E1; discriminate]. }
  destruct (@sccd_cases N S F C K P c2 junk (enough rows (blank C jm)) rows (blank C jm) Hj) as [E1|(sn & Hsn & Hsn' & Hmo & Hcase)]; [congruence|].
  cbv zeta in Hcase. destruct (@detect_obs c2 sn rows jm Hs) as [Ha Hin].
  destruct Hcase as [[-> E1]|[(-> & Hx & E1)|(-> & Hlt & rm & Hrm & E1)]]; rewrite E in E1.
  - pose proof (@any_snow N S F C (K (io_rmse (blank C jm))) (call_obs c2 true rows (blank C jm)) (blank C jm) ltac:(auto)) as HW.
    assert (Hrecs : io_recs b' = []).
    { clear -E1. symmetry in E1. revert E1. unfold snow. cbn -[save8 mapO of_opt bind get].
      assert (Hs : forall m st nb x b', (w <- save8 x (zlen x - slots) slots ;;
        Ok (mkIO 3 (@nil seg) (mkNm (k_store (K [0; 0; 0; 0; 0; 0]) m) st nb w (-9999) (-9999) 0) (@nil obs) [0; 0; 0; 0; 0; 0] []))
        = Ok b' -> io_recs b' = []).
      { intros m st nb x b0 E. destruct (save8 _ _ _); try discriminate. simpl in E. injection E as <-. reflexivity. }
      destruct (_ <? 18).
      - destruct (mapO _ _); simpl; try discriminate. intros E; injection E as <-; reflexivity.
      - destruct (of_opt _); try discriminate. cbn [bind]. destruct (get _ _); try discriminate. cbn [bind]. intros E. eapply Hs. exact E. }
    rewrite Hrecs. split; [intros r []|intros [|] ? ? E2; discriminate].
  - injection E1 as ->. split; [intros r []|intros [|] ? ? E2; discriminate].
  - destruct (lower_bound (map o_date (call_obs c2 false rows (blank C jm)))) as [base Hbase].
    rewrite Forall_map in Hbase.
    assert (Hn : call_obs c2 false rows (blank C jm) <> []).
    { intros E0. rewrite E0 in Hlt. unfold zlen in Hlt. simpl in Hlt. lia. }
    pose proof (@standard_spec N S F C (K rm) P Hc (enough rows (blank C jm)) _ _ base (@blank_start rm base _ jm Ha Hn Hbase)) as HT.
    cbn [blank io_mode io_recs io_model io_queue io_pins] in E1. rewrite <- E1 in HT.
    apply chain_ordered. apply HT.
Qed.

(** ** Histories of updates with a window of eight observations *)

(** A batch of rows as the caller supplies it: dates ascending, within the
    range of the stored day counts (1982-07-16 to 2072), band values 16 bit
    as in Landsat products. *)
Definition good_row (q : raw) : Prop :=
  launch <= q_date q <= launch + 32767 /\
  Forall (fun v => -32768 <= v <= 32767) [q_b q; q_g q; q_r q; q_n q; q_s1 q; q_s2 q].

Definition batches_ok (all : list (list raw)) : Prop :=
  Forall good_row (concat all) /\ StronglySorted (fun p q => q_date p <= q_date q) (concat all).

Lemma pack_ok_ext : forall base a b, pack_ok base a -> io_mode b = io_mode a -> io_recs b = io_recs a ->
  carried b = carried a -> (Z.rem (io_mode a) 10 = 1 \/ io_mode a = 3 \/ io_mode a = 5 -> io_model b = io_model a) ->
  pack_ok base b.
Proof.
  intros base a b HP Hm Hr Hc Hmo. destruct HP.
  constructor; rewrite ?Hm, ?Hr, ?Hc; auto; intros H; rewrite ?Hmo by auto; auto.
Qed.

Lemma returned_pack : forall base jm a b, pack_ok base a -> returned jm a = Ok b ->
  pack_ok base b /\ carried b = carried a /\ io_recs b = io_recs a /\ io_mode b = io_mode a.
Proof.
  intros base jm a b HP H.
  assert (Hm : io_mode b = io_mode a) by (eapply returned_mode; eassumption).
  assert (Hrc : io_recs b = io_recs a).
  { destruct (returned_recs H) as [E|[E0 E]]; [assumption|]. rewrite E. symmetry. apply (pk_new HP). auto. }
  enough (HH : carried b = carried a /\ (Z.rem (io_mode a) 10 = 1 \/ io_mode a = 3 \/ io_mode a = 5 -> io_model b = io_model a)).
  { destruct HH as [H1 H2]. split; [|auto]. eapply pack_ok_ext; eassumption. }
  pose proof (pk_mode HP) as HM. destruct a as [m rs mo qu rm pi]. cbn [io_mode io_recs io_model] in *.
  unfold returned in H. cbn [io_mode io_recs io_model io_queue io_rmse io_pins] in H.
  simpl in HM. destruct HM as [<-|[<-|[<-|[<-|[<-|[<-|[<-|[]]]]]]]]; cbn in H; injection H as <-;
    (split; [reflexivity|]); cbn; intros [E|[E|E]]; try discriminate E; reflexivity.
Qed.
Arguments returned_pack {base jm a b}.

(** Upper bound of the dates seen so far. *)
Definition upto (D : Z) a : Prop := Forall (fun o => o_date o <= D) (carried a).

Lemma call_obs_upto : forall c2 sn rows a D, upto D a -> Forall (fun q => q_date q <= D) rows ->
  Forall (fun o => o_date o <= D) (call_obs c2 sn rows a).
Proof.
  intros c2 sn rows a D Ha Hr. unfold call_obs. apply Forall_app. split; [assumption|].
  apply Forall_forall. intros o Ho. destruct (append_in _ _ _ _ Ho) as (q & Hq & _ & ->).
  apply in_map_iff in Hq. destruct Hq as (r & <- & Hrr). rewrite Forall_forall in Hr. simpl. auto.
Qed.

Lemma last_date_in : forall x d, last_date x = Some d -> exists o, In o x /\ o_date o = d.
Proof.
  intros x d H. unfold last_date in H. destruct (rev x) as [|o t] eqn:E; [discriminate|]. injection H as <-.
  exists o. split; [|reflexivity]. apply in_rev. rewrite E. left. reflexivity.
Qed.
Arguments last_date_in {x d}.

Lemma rows_ok_intro : forall base a rows D, upto D a -> Forall good_row rows ->
  Forall (fun q => base <= q_date q /\ D <= q_date q) rows ->
  StronglySorted (fun p q => q_date p <= q_date q) rows -> rows_ok base a rows.
Proof.
  intros base a rows D Ha Hg Hd Hs. rewrite Forall_forall in Hg, Hd. constructor; auto.
  - apply Forall_forall. intros q Hq. split; [apply Hg; assumption|apply Hd; assumption].
  - intros d Hl. destruct (last_date_in Hl) as (o & Ho & <-). apply Forall_forall. intros q Hq.
    unfold upto in Ha. rewrite Forall_forall in Ha. specialize (Ha o Ho). specialize (Hd q Hq). lia.
  - apply Forall_forall. intros q Hq. apply Hg. assumption.
Qed.
Arguments rows_ok_intro {base a rows D}.

(** What one update does to a sound pack. *)
Lemma update_step : forall K P c2 junk jm rows a b base D, launch <= base -> sp_conse P = 8 -> length junk = 6%nat ->
  pack_ok base a -> upto D a -> Forall good_row rows ->
  Forall (fun q => base <= q_date q /\ D <= q_date q) rows ->
  StronglySorted (fun p q => q_date p <= q_date q) rows ->
  update K P c2 junk jm rows a = Ok b ->
  pack_ok base b /\ (exists t, io_recs b = io_recs a ++ t) /\
  (forall D', D <= D' -> Forall (fun q => q_date q <= D') rows -> upto D' b).
Proof.
  intros K P c2 junk jm rows a b base D Hl H8 Hj HP Hu Hg Hd Hs H.
  destruct (update_ok H) as (b' & E & Hr).
  pose proof (@sccd_call N S F C K (no_pin P) base c2 junk (enough rows a) rows a Hl H8 Hj HP
                (rows_ok_intro Hu Hg Hd Hs)) as HC.
  rewrite E in HC. destruct HC as (HP' & Hrec & _ & _ & sn & Hsub).
  destruct (returned_pack HP' Hr) as (P1 & P2 & P3 & P4).
  split; [assumption|]. rewrite P3. split; [assumption|].
  intros D' HD Hq. unfold upto. rewrite P2. apply Forall_forall. intros o Ho.
  assert (Hc : Forall (fun o => o_date o <= D') (call_obs c2 sn rows a)).
  { apply call_obs_upto; [|assumption]. eapply Forall_impl; [|exact Hu]. simpl. lia. }
  rewrite Forall_forall in Hc. apply Hc. eapply subseq_In; eassumption.
Qed.
Arguments update_step {K P c2 junk jm rows a b base D}.

Lemma sorted_app : forall (l m : list raw), StronglySorted (fun p q => q_date p <= q_date q) (l ++ m) ->
  StronglySorted (fun p q => q_date p <= q_date q) l /\ StronglySorted (fun p q => q_date p <= q_date q) m /\
  (forall p q, In p l -> In q m -> q_date p <= q_date q).
Proof.
  induction l as [|p l IH]; intros m H; simpl in *.
  - split; [constructor|]. split; [assumption|]. intros ? ? [].
  - inversion H as [|? ? H1 H2]; subst. destruct (IH m H1) as (A & B & D).
    rewrite Forall_app in H2. destruct H2 as [H2 H3]. rewrite Forall_forall in H3.
    split; [constructor; assumption|]. split; [assumption|].
    intros u v [<-|Hu] Hv; auto.
Qed.

Lemma identify_same : forall green dist cmt ant tr a b d, identify green dist cmt ant tr a = Some (b, d) ->
  b = a \/ (io_mode a = 1 /\ b = mkIO 11 (io_recs a) (io_model a) (io_queue a) (io_rmse a) (io_pins a)).
Proof.
  intros green dist cmt ant tr a b d H. unfold identify in H.
  destruct (_ || _); [injection H as <- _; auto|]. destruct (_ || _); [discriminate|].
  destruct (_ && _ && _); [|injection H as <- _; auto].
  destruct (6 <? _); [discriminate|]. destruct (green _); [injection H as <- _; auto|].
  destruct (nth_error _ _); [|discriminate]. injection H as <- _.
  destruct (tr && (io_mode a =? 1)) eqn:E; [right|auto]. split; [|reflexivity]. lia.
Qed.

Lemma identify_pack : forall green dist cmt ant tr base a b d, pack_ok base a -> identify green dist cmt ant tr a = Some (b, d) ->
  pack_ok base b /\ carried b = carried a /\ io_recs b = io_recs a.
Proof.
  intros green dist cmt ant tr base a b d HP H. destruct (identify_same _ _ _ _ _ _ H) as [-> |[E1 ->]]; [auto|].
  assert (Hc : carried (mkIO 11 (io_recs a) (io_model a) (io_queue a) (io_rmse a) (io_pins a)) = carried a).
  { unfold carried. rewrite E1. reflexivity. }
  split; [|split; [assumption|reflexivity]].
  destruct HP. constructor; rewrite ?Hc; cbn [io_mode io_recs io_model]; auto; try discriminate.
  - simpl. auto 10.
  - intros [E|[E|E]]; discriminate.
  - intros _. apply pk_mon. rewrite E1. auto.
  - intros _. apply pk_start. rewrite E1. reflexivity.
  - intros [E|E]; discriminate.
Qed.

Lemma history_sound : forall a batches c, history (N := N) (F := F) 8 a batches c ->
  forall base D, launch <= base -> pack_ok base a -> upto D a -> batches_ok batches ->
  Forall (fun q => base <= q_date q /\ D <= q_date q) (concat batches) ->
  pack_ok base c /\ (exists t, io_recs c = io_recs a ++ t) /\
  (forall D', D <= D' -> Forall (fun q => q_date q <= D') (concat batches) -> upto D' c).
Proof.
  intros a batches c H. induction H as [a|K P c2 junk jm a rows b rest c Hc Hj Hu Hh IH|a green dist cmt ant tr b d batches c Hi Hh IH];
    intros base D Hl HP Ha [Hg Hs] Hd.
  - split; [assumption|]. split; [exists []; rewrite app_nil_r; reflexivity|].
    intros D' HD _. eapply Forall_impl; [|exact Ha]. simpl. lia.
  - simpl in Hg, Hs, Hd. apply Forall_app in Hg, Hd. destruct Hg as [Hg1 Hg2], Hd as [Hd1 Hd2].
    destruct (sorted_app _ _ Hs) as (S1 & S2 & S3).
    destruct (update_step Hl Hc Hj HP Ha Hg1 Hd1 S1 Hu) as (P1 & [t1 P2] & P3).
    assert (HD : exists D', D <= D' /\ (forall E, D <= E -> Forall (fun q => q_date q <= E) (rows ++ concat rest) -> D' <= E) /\
      Forall (fun q => q_date q <= D') rows /\ Forall (fun q => D' <= q_date q) (concat rest)).
    { destruct (concat rest) as [|q0 qs] eqn:Ec.
      - assert (Hub : exists M, D <= M /\ (forall E, D <= E -> Forall (fun q => q_date q <= E) rows -> M <= E) /\ Forall (fun q => q_date q <= M) rows).
        { clear. induction rows as [|q rows (M & I1 & I0 & I2)]; [exists D; split; [lia|split; [auto|constructor]]|].
          exists (Z.max M (q_date q)). split; [lia|]. split.
          - intros E HE HF. inversion HF; subst. specialize (I0 E HE ltac:(assumption)). lia.
          - constructor; [lia|]. eapply Forall_impl; [|exact I2]. simpl. lia. }
        destruct Hub as (M & M1 & M0 & M2). exists M. rewrite app_nil_r. auto.
      - exists (q_date q0). inversion Hd2; subst. split; [tauto|]. split; [|split].
        + intros E _ HF. apply Forall_app in HF. destruct HF as [_ HF]. inversion HF; assumption.
        + apply Forall_forall. intros q Hq. apply S3; [assumption|left; reflexivity].
        + inversion S2; subst. constructor; [lia|assumption]. }
    destruct HD as (D' & D1 & D0 & D2 & D3).
    destruct (IH base D' Hl P1 (P3 D' D1 D2)) as (Q1 & [t2 Q2] & Q3).
    + split; assumption.
    + apply Forall_forall. intros q Hq. rewrite Forall_forall in Hd2, D3. split; [apply Hd2; assumption|apply D3; assumption].
    + split; [assumption|]. split; [exists (t1 ++ t2); rewrite Q2, P2, app_assoc; reflexivity|].
      intros E HE HF. apply Q3; [apply D0; assumption|]. simpl in HF. apply Forall_app in HF. apply HF.
  - destruct (@identify_pack green dist cmt ant tr base a b d HP Hi) as (I1 & I2 & I3).
    rewrite <- I3. apply (IH base D); auto; [|split; assumption]. unfold upto. rewrite I2. assumption.
Qed.
Arguments history_sound {a batches c}.

Lemma blank_pack : forall base jm, pack_ok base (blank C jm).
Proof.
  intros base jm. constructor; change (carried (blank C jm)) with (@nil obs); cbn [blank io_mode io_recs io_model].
  - left. reflexivity.
  - split; [split; [constructor|intros [|] ? ? E; discriminate]|]. split; [constructor|constructor].
  - reflexivity.
  - constructor.
  - constructor.
  - constructor.
  - intros [E|[E|E]]; discriminate.
  - discriminate.
  - intros [E|E]; discriminate.
  - discriminate.
Qed.

Lemma detect_sound_base : forall base K P c2 junk jm rows a, launch <= base ->
  Forall (fun q => base <= q_date q) rows -> sp_conse P = 8 -> length junk = 6%nat ->
  batches_ok [rows] -> detect K P c2 junk jm rows = Ok a ->
  pack_ok base a /\ (forall D, Forall (fun q => q_date q <= D) rows -> upto D a).
Proof.
  intros base K P c2 junk jm rows a Hl Hbase H8 Hj [Hg Hs] H. simpl in Hg, Hs. rewrite app_nil_r in Hg, Hs.
  destruct (detect_ok H) as (b' & E & Hr & _).
  assert (HR : rows_ok base (blank C jm) rows).
  { apply (@rows_ok_intro base (blank C jm) rows base); auto; [constructor|].
    eapply Forall_impl; [|exact Hbase]. simpl. lia. }
  pose proof (@sccd_call N S F C K P base c2 junk (enough rows (blank C jm)) rows (blank C jm) Hl H8 Hj
                (blank_pack base jm) HR) as HC.
  rewrite E in HC. destruct HC as (HP' & _ & _ & _ & sn & Hsub).
  destruct (returned_pack HP' Hr) as (P1 & P2 & P3 & P4). split; [assumption|].
  intros D HD. unfold upto. rewrite P2. apply Forall_forall. intros o Ho.
  assert (Hc : Forall (fun o => o_date o <= D) (call_obs c2 sn rows (blank C jm))).
  { apply call_obs_upto; [constructor|assumption]. }
  rewrite Forall_forall in Hc. apply Hc. eapply subseq_In; eassumption.
Qed.

Lemma detect_sound : forall K P c2 junk jm rows a, sp_conse P = 8 -> length junk = 6%nat ->
  batches_ok [rows] -> detect K P c2 junk jm rows = Ok a ->
  pack_ok launch a /\ (forall D, Forall (fun q => q_date q <= D) rows -> upto D a).
Proof.
  intros K P c2 junk jm rows a H8 Hj HB. apply detect_sound_base; auto; [lia|].
  destruct HB as [Hg _]. simpl in Hg. rewrite app_nil_r in Hg. eapply Forall_impl; [|exact Hg]. unfold good_row. simpl. lia.
Qed.

(** Detection and every later history: records ordered and chained, and those
    present earlier are unchanged. *)
Theorem C22_online : forall K P c2 junk jm rows a batches c, sp_conse P = 8 -> length junk = 6%nat ->
  batches_ok (rows :: batches) -> detect K P c2 junk jm rows = Ok a ->
  history (N := N) (F := F) 8 a batches c ->
  records_ordered (io_recs c) /\ exists t, io_recs c = io_recs a ++ t.
Proof.
  intros K P c2 junk jm rows a batches c H8 Hj [Hg Hs] Hdet Hh. simpl in Hg, Hs.
  apply Forall_app in Hg. destruct Hg as [Hg1 Hg2]. destruct (sorted_app _ _ Hs) as (S1 & S2 & S3).
  destruct (@detect_sound K P c2 junk jm rows a H8 Hj) as [HP Hu]; auto.
  { split; simpl; rewrite app_nil_r; assumption. }
  assert (Hne : rows <> []) by (intros ->; discriminate).
  assert (HD : exists D, Forall (fun q => q_date q <= D) rows /\ Forall (fun q => D <= q_date q) (concat batches)).
  { destruct (concat batches) as [|q0 qs] eqn:Ec.
    - assert (Hub : exists M, Forall (fun q => q_date q <= M) rows).
      { clear. induction rows as [|q rows [M I2]]; [exists 0; constructor|].
        exists (Z.max M (q_date q)). constructor; [lia|]. eapply Forall_impl; [|exact I2]. simpl. lia. }
      destruct Hub as (M & M2). exists M. auto.
    - exists (q_date q0). split.
      + apply Forall_forall. intros q Hq. apply S3; [assumption|left; reflexivity].
      + inversion S2; subst. constructor; [lia|assumption]. }
  destruct HD as (D & D1 & D2).
  destruct (history_sound Hh launch D (Z.le_refl launch) HP (Hu D D1)) as (Q1 & Q2 & _).
  - split; assumption.
  - apply Forall_forall. intros q Hq. rewrite Forall_forall in Hg2, D2. split; [apply (Hg2 q Hq)|apply D2; assumption].
  - split; [|assumption]. apply chain_ordered. apply (pk_recs Q1).
Qed.

(** Whatever the input, records present before an update are kept. *)
Theorem C22_append_only : forall K P c2 junk jm rows a b, 1 <= sp_conse P -> length junk = 6%nat ->
  update K P c2 junk jm rows a = Ok b -> io_mode b <> 0 -> exists t, io_recs b = io_recs a ++ t.
Proof.
  intros K P c2 junk jm rows a b Hc Hj H H0. destruct (update_ok H) as (b' & E & Hr).
  pose proof (@any_sccd N S F C K (no_pin P) c2 junk (enough rows a) rows a Hc Hj) as HA.
  rewrite E in HA. destruct HA as [HA _].
  destruct (returned_recs Hr) as [-> |[E0 _]]; [assumption|].
  rewrite (returned_mode Hr) in H0. contradiction.
Qed.

(** ** C23: the modes *)

Definition standard_mode (m : Z) : Prop := In m [1; 5; 11; 12].
Definition snow_mode (m : Z) : Prop := In m [3; 4].

(** One update of any pack with any data. *)
Theorem C23_update : forall K P c2 junk jm rows a b, 1 <= sp_conse P -> length junk = 6%nat ->
  update K P c2 junk jm rows a = Ok b ->
  (io_mode a = 0 -> io_mode b = 0 \/ standard_mode (io_mode b) \/ snow_mode (io_mode b)) /\
  (standard_mode (io_mode a) -> standard_mode (io_mode b)) /\
  (snow_mode (io_mode a) -> snow_mode (io_mode b)) /\
  (io_mode b = 11 -> io_mode a = 11) /\
  (io_mode a = 1 \/ io_mode a = 11 -> io_mode b = 1 \/ io_mode b = 11 \/ io_recs b <> io_recs a).
Proof.
  intros K P c2 junk jm rows a b Hc Hj H. destruct (update_ok H) as (b' & E & Hr).
  pose proof (@any_sccd N S F C K (no_pin P) c2 junk (enough rows a) rows a Hc Hj) as HA.
  rewrite E in HA. destruct HA as [_ HA].
  assert (Hm : io_mode b = io_mode b') by (eapply returned_mode; eassumption).
  assert (Hrc : io_mode a = 1 \/ io_mode a = 11 -> io_mode b' <> 0 -> io_recs b = io_recs b').
  { intros _ H0. destruct (returned_recs Hr) as [E1|[E1 _]]; [assumption|contradiction]. }
  unfold standard_mode, snow_mode, In.
  destruct HA as [HA|[(A1 & A2)|[(A1 & A2 & A3)|[(A1 & A2)|[(A1 & A2)|[(A1 & A2)|[(A1 & A2)|(A1 & A2)]]]]]]].
  - rewrite Hm, HA. repeat split; try tauto.
  - repeat split; lia.
  - split; [lia|]. split; [lia|]. split; [lia|]. split; [lia|]. intros Ha. right; right. rewrite Hrc by (auto; lia). assumption.
  - split; [lia|]. split; [lia|]. split; [lia|]. split; [lia|]. intros Ha.
    destruct A2 as [A2|[A2 A3]]; [left; lia|]. right; right. rewrite Hrc by (auto; lia). assumption.
  - repeat split; lia.
  - repeat split; lia.
  - repeat split; lia.
  - repeat split; lia.
Qed.

(** Histories from a freshly detected pack, whatever the window and the data. *)
Theorem C23_history : forall conse a batches c, 1 <= conse -> history (N := N) (F := F) conse a batches c ->
  (In (io_mode a) [0; 1; 3; 4; 5; 11; 12] -> In (io_mode c) [0; 1; 3; 4; 5; 11; 12]) /\
  (standard_mode (io_mode a) -> standard_mode (io_mode c)) /\
  (snow_mode (io_mode a) -> snow_mode (io_mode c)).
Proof.
  intros conse a batches c Hc H. induction H as [a|K P c2 junk jm a rows b rest c Hp Hj Hu Hh IH|a green dist cmt ant tr b d batches c Hi Hh IH].
  - auto.
  - destruct (@C23_update K P c2 junk jm rows a b ltac:(lia) Hj Hu) as (U1 & U2 & U3 & _). destruct IH as (I1 & I2 & I3).
    split; [|split; auto].
    intros HI. apply I1. clear -HI U1 U2 U3.
    assert (Hcase : io_mode a = 0 \/ standard_mode (io_mode a) \/ snow_mode (io_mode a)).
    { clear -HI. unfold standard_mode, snow_mode. simpl in *. lia. }
    assert (Hb : io_mode b = 0 \/ standard_mode (io_mode b) \/ snow_mode (io_mode b)) by tauto.
    clear -Hb. unfold standard_mode, snow_mode in Hb. simpl in *. lia.
  - destruct (identify_same _ _ _ _ _ _ Hi) as [-> |[E1 ->]]; [assumption|]. cbn [io_mode] in IH.
    rewrite E1. destruct IH as (I1 & I2 & I3).
    split; [intros _; apply I1; simpl; tauto|]. split; [intros _; apply I2; unfold standard_mode; simpl; tauto|].
    intros H3. unfold snow_mode in H3. simpl in H3. exfalso. clear -H3. lia.
Qed.

Theorem C23_detect : forall K P c2 junk jm rows b, 1 <= sp_conse P -> length junk = 6%nat ->
  detect K P c2 junk jm rows = Ok b -> In (io_mode b) [0; 1; 3; 4; 12].
Proof.
  intros K P c2 junk jm rows b Hc Hj H. destruct (detect_ok H) as (b' & E & Hr & _).
  pose proof (@any_sccd N S F C K P c2 junk (enough rows (blank C jm)) rows (blank C jm) Hc Hj) as HA.
  rewrite E in HA. destruct HA as [_ HA]. rewrite (returned_mode Hr). cbn [blank io_mode] in HA. unfold In. lia.
Qed.

(** ** C24 *)

(** Every mode a call can produce is one the wrapper passes on and the next
    call accepts. *)
Theorem C24_accepted : forall K P c2 junk jm fuel rows a b, 1 <= sp_conse P -> length junk = 6%nat ->
  sccd K P c2 junk fuel rows a = Ok b -> mode_ok (io_mode b) = true /\ exists r, returned jm b = Ok r /\ io_mode r = io_mode b.
Proof.
  intros K P c2 junk jm fuel rows a b Hc Hj E.
  pose proof (@any_sccd N S F C K P c2 junk fuel rows a Hc Hj) as HA. rewrite E in HA. destruct HA as [_ HA].
  assert (Ha : mode_ok (io_mode a) = true).
  { unfold sccd in E. destruct (mode_ok (io_mode a)); [reflexivity|discriminate]. }
  assert (Hb : io_mode b = 0 \/ io_mode b = 1 \/ io_mode b = 2 \/ io_mode b = 3 \/ io_mode b = 4 \/ io_mode b = 5 \/ io_mode b = 11 \/ io_mode b = 12).
  { unfold mode_ok in Ha. destruct HA as [HA|HA]; [rewrite HA|]; lia. }
  split; [unfold mode_ok; lia|]. unfold returned.
  destruct Hb as [H|[H|[H|[H|[H|[H|[H|H]]]]]]]; rewrite H; eexists; (split; [reflexivity|]); first [reflexivity|exact H].
Qed.

End Props.
