(** C26: splitting a series between S-CCD calls. *)
From Verif Require Import Base SortModel LibModel LibProps ColdModel ColdLemmas FrontModel FrontProps
  SccdModel SccdProof SccdTop SccdPack SccdTerm SccdApi SccdProps SccdProps2 SccdResume.

Section Props3.
Variables N S F C : Type.
Notation io := (io S C).
Notation seg := (seg C).
Implicit Types (K : list Z -> skernel N S F C) (P : sparams) (a b : io).

Ltac ib H a E := apply bind_ok in H; destruct H as (a & E & H).

(** Storing a state loses nothing.  The covariances are stored as [float]
    (s_ccd.c 2225-2242), so this is what an exact store would do. *)
Definition exact_store (k : skernel N S F C) : Prop := forall m, k_load k (k_store k m) = m.

Lemma standard_fuel : forall (k : skernel N S F C) P f f' x a b, standard k P f x a = Ok b ->
  standard k P f' x a <> Fuel -> standard k P f' x a = Ok b.
Proof.
  intros k P f f' x a b H Hf. rewrite standard_eq in *.
  ib H ol E1. rewrite E1 in *. cbn [bind] in *. ib H o0 E2. rewrite E2 in *. cbn [bind] in *.
  destruct (n_buckets (o_date ol) <? 0); [discriminate|]. ib H s E3.
  set (s0 := first_state k x a o0 ol) in *.
  destruct (Nat.le_ge_cases f f') as [Hl|Hl].
  - erewrite cloop_more by eassumption. exact H.
  - assert (HL : forall g g' q t, (g' <= g)%nat -> cloop k P (io_mode a =? 0) g q = Ok t ->
        cloop k P (io_mode a =? 0) g' q = Fuel \/ cloop k P (io_mode a =? 0) g' q = Ok t).
    { clear. induction g; intros g' q t Hg H.
      - replace g' with 0%nat by lia. auto.
      - destruct g' as [|g']; cbn [cloop] in *; destruct (_ <=? _); auto.
        ib H r Er. rewrite Er. cbn [bind]. apply IHg; [lia|assumption]. }
    destruct (HL _ _ _ _ Hl E3) as [E|E]; rewrite E in *; [exfalso; apply Hf; reflexivity|exact H].
Qed.

(** The queue a monitoring state carries along plays no role. *)
Definition with_queue (q : list obs) a : io :=
  mkIO (io_mode a) (io_recs a) (io_model a) q (io_rmse a) (io_pins a).

Lemma standard_queue : forall (k : skernel N S F C) P f x a b q, standard k P f x a = Ok b ->
  standard k P f x (with_queue q a) = Ok b \/
  (standard k P f x (with_queue q a) = Ok (with_queue q b) /\ Z.rem (io_mode b) 10 <> 2 /\ Z.rem (io_mode b) 10 <> 5).
Proof.
  intros k P f x a b q H. rewrite standard_eq in *. ib H ol E1. rewrite E1. ib H o0 E2. rewrite E2. cbn [bind].
  destruct (n_buckets (o_date ol) <? 0); [discriminate|]. ib H s E3.
  change (first_state k x (with_queue q a) o0 ol) with (first_state k x a o0 ol).
  change (io_mode (with_queue q a)) with (io_mode a). rewrite E3. cbn [bind].
  unfold finish in *. change (io_mode (with_queue q a)) with (io_mode a).
  ib H p E4. destruct p as [mode1 prev]. rewrite E4. cbn [bind]. ib H p E5. destruct p as [mode2 model]. rewrite E5. cbn [bind].
  ib H qu E6. destruct (_ || _) eqn:E.
  - rewrite E6. left. exact H.
  - injection E6 as <-. injection H as <-. right. cbn [bind]. split; [reflexivity|]. cbn [io_mode]. lia.
Qed.

(** A call on a monitoring state. *)
Lemma sccd_monitor : forall K P c2 junk fuel rows a, io_mode a = 1 \/ io_mode a = 11 ->
  Forall (fun q => known_qa (q_qa q)) rows ->
  sccd K P c2 junk fuel rows a =
  if zlen (carried a) <? zlen (call_obs c2 false rows a) then standard (K (io_rmse a)) P fuel (call_obs c2 false rows a) a
  else Ok a.
Proof.
  intros K P c2 junk fuel rows a Hm Hq. unfold sccd.
  assert (Em : mode_ok (io_mode a) = true) by (unfold mode_ok; lia). rewrite Em. cbn [negb].
  destruct (preprocess_eq c2 rows (mkCounts 0 0 0 0 0)) as [[_ E]|[E _]].
  2: { exfalso. apply Exists_exists in E. destruct E as (q & Hi & E). rewrite Forall_forall in Hq. auto. }
  rewrite E. cbn [bind].
  assert (Es : forall cnt, is_snow (io_mode a) cnt = false) by (intros cnt; unfold is_snow; replace (io_mode a =? 0) with false by lia; lia).
  rewrite Es. unfold call_obs. destruct (zlen (carried a) <? _); [|reflexivity].
  replace (io_mode a =? 0) with false by lia. rewrite andb_false_r. cbn [bind]. destruct a; reflexivity.
Qed.

Lemma sccd_known : forall K P c2 junk fuel rows a b, sccd K P c2 junk fuel rows a = Ok b ->
  Forall (fun q => known_qa (q_qa q)) rows.
Proof.
  intros K P c2 junk fuel rows a b H. unfold sccd in H. destruct (negb _); [discriminate|].
  destruct (preprocess_eq c2 rows (mkCounts 0 0 0 0 0)) as [[E _]|[_ E]]; [assumption|]. rewrite E in H. discriminate.
Qed.

Definition end_date (last : option Z) (l : list obs) : option Z :=
  match last_date l with Some d => Some d | None => last end.

Lemma last_date_app : forall l m, last_date (l ++ m) = end_date (last_date l) m.
Proof.
  intros l m. unfold last_date, end_date, last_date. rewrite rev_app_distr. destruct (rev m); reflexivity.
Qed.

Lemma append_app : forall keep l m last,
  append_obs keep (l ++ m) last = append_obs keep l last ++ append_obs keep m (end_date last (append_obs keep l last)).
Proof.
  intros keep l m. induction l as [|q l IH]; intros last.
  - reflexivity.
  - cbn [app append_obs].
    assert (HC : sobs (fst q) :: append_obs keep (l ++ m) (Some (q_date (fst q))) =
      (sobs (fst q) :: append_obs keep l (Some (q_date (fst q)))) ++
      append_obs keep m (end_date last (sobs (fst q) :: append_obs keep l (Some (q_date (fst q)))))).
    { rewrite IH. cbn [app]. do 2 f_equal. change (?o :: ?t) with ([o] ++ t). f_equal. unfold end_date.
      rewrite (last_date_app [sobs (fst q)]). unfold end_date. destruct (last_date (append_obs keep l _)); reflexivity. }
    destruct (keep q); [|apply IH]. destruct last as [d|]; [destruct (_ =? d); [apply IH|exact HC]|exact HC].
Qed.

Lemma last_date_skipn : forall n l, (n < length l)%nat -> last_date (skipn n l) = last_date l.
Proof.
  intros n l H. rewrite <- (firstn_skipn n l) at 2. rewrite last_date_app. unfold end_date.
  destruct (last_date (skipn n l)) eqn:E; [reflexivity|]. exfalso. unfold last_date in E.
  destruct (rev (skipn n l)) eqn:E'; [|discriminate]. apply (f_equal (@length obs)) in E'.
  rewrite rev_length, skipn_length in E'. simpl in E'. lia.
Qed.

Lemma call_obs_app : forall c2 B D a, call_obs c2 false (B ++ D) a =
  call_obs c2 false B a ++ append_obs keep_std (map (fun q => (q, id_range c2 q)) D) (last_date (call_obs c2 false B a)).
Proof.
  intros c2 B D a. unfold call_obs. rewrite map_app, append_app, app_assoc, last_date_app. reflexivity.
Qed.

Lemma returned_monitor : forall jm b', Z.rem (io_mode b') 10 = 1 -> returned jm b' = Ok (with_queue [] b').
Proof. intros jm b' H. unfold returned. rewrite H. reflexivity. Qed.

Lemma returned_queue : forall jm q b', Z.rem (io_mode b') 10 = 1 -> returned jm (with_queue q b') = returned jm b'.
Proof. intros jm q b' H. unfold returned. cbn [with_queue io_mode]. rewrite H. reflexivity. Qed.

Lemma carried_with_queue : forall q a, Z.rem (io_mode a) 10 = 1 -> io_mode a <> 4 -> carried (with_queue q a) = carried a.
Proof.
  intros q a H H4. unfold carried, queue_mode. cbn [with_queue io_mode io_model]. rewrite H.
  replace (io_mode a =? 4) with false by lia. reflexivity.
Qed.

Lemma with_queue_id : forall q a, with_queue (io_queue a) (with_queue q a) = a.
Proof. intros q [] . reflexivity. Qed.

Lemma with_queue_own : forall a, with_queue (io_queue a) a = a.
Proof. intros []. reflexivity. Qed.

Lemma with_rmse_own : forall a, with_rmse (io_rmse a) a = a.
Proof. intros []. reflexivity. Qed.

Lemma standard_rmse : forall (k : skernel N S F C) P f x a b, standard k P f x a = Ok b -> io_rmse b = io_rmse a.
Proof.
  intros k P f x a b H. rewrite standard_eq in H. ib H ol E1. ib H o0 E2. destruct (_ <? 0); [discriminate|].
  ib H s E3. unfold finish in H. ib H p E4. destruct p. ib H p E5. destruct p. ib H qu E6. injection H as <-. reflexivity.
Qed.

(** Either the same queue, or one that the mode does not use. *)
Definition same_but_queue (b b' : io) : Prop :=
  exists q, b' = with_queue q b /\ (q = io_queue b \/ (Z.rem (io_mode b) 10 <> 2 /\ Z.rem (io_mode b) 10 <> 5)).

Lemma standard_swap : forall (k : skernel N S F C) P f x a b q, standard k P f x (with_queue q a) = Ok b ->
  exists b', standard k P f x a = Ok b' /\ same_but_queue b b'.
Proof.
  intros k P f x a b q H.
  destruct (@standard_queue k P f x (with_queue q a) b (io_queue a) H) as [E|(E & Hr)]; rewrite with_queue_id in E.
  - exists b. split; [assumption|]. exists (io_queue b). rewrite with_queue_own. auto.
  - eexists. split; [exact E|]. exists (io_queue a). auto.
Qed.

Lemma sccd_split : forall K P c2 junk fB fD f B D a b' d, sp_conse P = 8 -> sp_pin P = false ->
  (forall rm, exact_store (K rm)) -> pack_ok launch a -> rows_ok launch a (B ++ D) -> rows_ok launch a B ->
  io_mode a = 1 \/ io_mode a = 11 -> io_mode b' = io_mode a ->
  sccd K P c2 junk fB B a = Ok b' -> sccd K P c2 junk fD D (with_queue [] b') = Ok d ->
  sccd K P c2 junk f (B ++ D) a <> Fuel ->
  exists d', sccd K P c2 junk f (B ++ D) a = Ok d' /\ same_but_queue d d'.
Proof.
  intros K P c2 junk fB fD f B D a b' d H8 Hpin Hst HP HR HRB Hm Hmb E1 E2 Hf.
  pose proof (sccd_known _ _ _ _ _ _ _ E1) as KB. pose proof (sccd_known _ _ _ _ _ _ _ E2) as KD.
  assert (Hm' : io_mode (with_queue [] b') = 1 \/ io_mode (with_queue [] b') = 11) by (cbn [with_queue io_mode]; rewrite Hmb; assumption).
  assert (Hrem : Z.rem (io_mode a) 10 = 1) by (destruct Hm as [-> | ->]; reflexivity).
  assert (Hcw : carried (with_queue [] b') = carried b') by (apply carried_with_queue; rewrite Hmb; [assumption|lia]).
  rewrite sccd_monitor in E1 by assumption. rewrite sccd_monitor in E2 by assumption.
  rewrite sccd_monitor in Hf |- * by (try apply Forall_app; auto).
  change (io_rmse (with_queue [] b')) with (io_rmse b') in E2.
  rewrite Hcw in E2. rewrite call_obs_app in Hf |- *.
  assert (Hc2 : forall l, last_date (carried b') = last_date l ->
     call_obs c2 false D (with_queue [] b') =
     carried b' ++ append_obs keep_std (map (fun q => (q, id_range c2 q)) D) (last_date l)).
  { intros l El. unfold call_obs. rewrite Hcw, El. reflexivity. }
  set (x := call_obs c2 false B a) in *.
  set (Y := append_obs keep_std (map (fun q => (q, id_range c2 q)) D) (last_date x)) in *.
  assert (Hx : exists y, x = carried a ++ y) by (eexists; reflexivity).
  rewrite zlen_app in Hf |- *. pose proof (zlen_nonneg Y) as HY.
  destruct (call_obs_facts c2 false HP HR) as (_ & HdA & _). rewrite call_obs_app in HdA. fold x Y in HdA.
  assert (Hin : Forall (fun o => in_days (o_date o)) (x ++ Y)) by (eapply Forall_impl; [|exact HdA]; simpl; tauto).
  destruct (zlen (carried a) <? zlen x) eqn:Elt.
  - assert (Hso : start_ok launch x a).
    { rewrite <- (with_rmse_own a). apply pack_start; auto; try lia. intros E0. fold x in E0. rewrite E0 in Elt. pose proof (zlen_nonneg (carried a)). cbn in Elt. lia. }
    pose proof (@standard_spec N S F C (K (io_rmse a)) P ltac:(lia) fB x a launch Hso) as HS. rewrite E1 in HS.
    destruct (st_model HS) as [(ts & nobs & _ & _ & _ & _ & _ & H8x & Hobs & _) _]; [rewrite Hmb; assumption|].
    rewrite H8 in H8x, Hobs. rewrite slot_last in Hobs by assumption.
    assert (Hcb : carried b' = skipn (Z.to_nat (zlen x - 8)) x).
    { rewrite carried_monitor; [|rewrite Hmb; assumption|rewrite Hmb; lia|].
      - rewrite Hobs. apply ld_stv_map. apply Forall_app in Hin. destruct Hin as [Hin _].
        rewrite <- (firstn_skipn (Z.to_nat (zlen x - 8)) x) in Hin. apply Forall_app in Hin. apply Hin.
      - rewrite Hobs, map_length, skipn_length. unfold zlen in *. lia. }
    rewrite (Hc2 x) in E2 by (rewrite Hcb; apply last_date_skipn; unfold zlen in *; lia). fold Y in E2.
    rewrite zlen_app in E2. replace (zlen (carried a) <? zlen x + zlen Y) with true in * by lia.
    rewrite (standard_rmse _ _ _ _ _ E1) in E2.
    destruct (zlen (carried b') <? zlen (carried b') + zlen Y) eqn:Elt2.
    + destruct (standard_swap _ _ _ _ _ _ E2) as (d' & E2' & Hsame).
      exists d'. split; [|assumption]. eapply standard_fuel; [|exact Hf].
      assert (Hr1 : Z.rem (io_mode b') 10 = 1) by (rewrite Hmb; assumption).
      eapply (@split_state N S F C (K (io_rmse a)) P) with (f1 := fB) (f2 := fD) (f3 := (fB + fD)%nat) (a1 := b') (base := launch); try eassumption; auto; try lia; apply Hst.
    + assert (EY : Y = []) by (destruct Y; [reflexivity|rewrite zlen_cons in Elt2; pose proof (zlen_nonneg Y); lia]).
      injection E2 as <-. rewrite EY, app_nil_r in Hf |- *. exists b'. split.
      * eapply standard_fuel; eassumption.
      * exists (io_queue b'). rewrite with_queue_id. split; [reflexivity|]. right. cbn [with_queue io_mode]. rewrite Hmb. lia.
  - injection E1 as <-. assert (Exa : x = carried a).
    { destruct Hx as [y Ey]. rewrite Ey in Elt |- *. rewrite zlen_app in Elt. destruct y; [apply app_nil_r|].
      rewrite zlen_cons in Elt. pose proof (zlen_nonneg y). lia. }
    rewrite (Hc2 x) in E2 by (rewrite Exa; reflexivity). fold Y in E2. rewrite zlen_app in E2. rewrite Exa in *.
    destruct (zlen (carried a) <? zlen (carried a) + zlen Y) eqn:Elt2.
    + destruct (standard_swap _ _ _ _ _ _ E2) as (d' & E2' & Hsame). exists d'. split; [|assumption].
      eapply standard_fuel; eassumption.
    + injection E2 as <-. exists a. split; [reflexivity|]. exists (io_queue a). rewrite with_queue_id. split; [reflexivity|].
      right. cbn [with_queue io_mode]. lia.
Qed.

Lemma online_snoc : forall K P c2 junk jm all B a b, sp_conse P = 8 -> length junk = 6%nat ->
  @online N S F C all a -> update K P c2 junk jm B a = Ok b -> @online N S F C (all ++ [B]) b.
Proof.
  intros K P c2 junk jm all B a b H8 Hj (K0 & P0 & c0 & j0 & jm0 & rows & a0 & bs & G8 & Gj & -> & Hd & Hh) H.
  exists K0, P0, c0, j0, jm0, rows, a0, (bs ++ [B]). repeat split; auto.
  clear Hd. induction Hh; simpl.
  - eapply h_update with (K := K) (P := P); [exact H8|exact Hj|exact H|constructor].
  - eapply h_update; eauto.
  - eapply h_identify; eauto.
Qed.

Lemma batches_front : forall all B D, batches_ok (all ++ [B ++ D]) -> batches_ok (all ++ [B]) /\ batches_ok ((all ++ [B]) ++ [D]).
Proof.
  intros all B D. unfold batches_ok. rewrite !concat_app. simpl. rewrite !app_nil_r, !app_assoc. intros [H1 H2].
  split; [|auto]. split.
  - apply Forall_app in H1. apply H1.
  - apply sorted_app in H2. apply H2.
Qed.

Lemma batches_launch : forall all, batches_ok all -> Forall (fun q => launch <= q_date q) (concat all).
Proof. intros all [Hg _]. eapply Forall_impl; [|exact Hg]. unfold good_row. simpl. lia. Qed.

(** Two updates of a monitored pixel are one, if the first leaves it
    monitored in the same mode. *)
Theorem C26_two_updates_partial : forall K P c2 junk jm all B D a b d, sp_conse P = 8 -> length junk = 6%nat ->
  fits_succeed K -> (forall rm, exact_store (K rm)) ->
  @online N S F C all a -> batches_ok (all ++ [B ++ D]) -> io_mode a = 1 \/ io_mode a = 11 ->
  update K P c2 junk jm B a = Ok b -> io_mode b = io_mode a -> update K P c2 junk jm D b = Ok d ->
  update K P c2 junk jm (B ++ D) a = Ok d.
Proof.
  intros K P c2 junk jm all B D a b d H8 Hj Hfit Hst Hon HB Hm H1 Hmb H2.
  destruct (batches_front _ _ _ HB) as [HBB HBD].
  destruct (@online_sound N S F C launch all a (B ++ D) ltac:(lia) Hon HB (batches_launch HB)) as (HP & HR & _).
  destruct (@online_sound N S F C launch all a B ltac:(lia) Hon HBB (batches_launch HBB)) as (_ & HRB & _).
  pose proof (@online_snoc K P c2 junk jm all B a b H8 Hj Hon H1) as Hon2.
  destruct (@online_sound N S F C launch (all ++ [B]) b D ltac:(lia) Hon2 HBD (batches_launch HBD)) as (HPb & HRD & _).
  destruct (update_ok H1) as (b' & E1 & Hr1). destruct (update_ok H2) as (d' & E2 & Hr2).
  pose proof (returned_mode Hr1) as Hmb'. rewrite Hmb in Hmb'.
  rewrite returned_monitor in Hr1 by (rewrite <- Hmb'; destruct Hm as [-> | ->]; reflexivity). injection Hr1 as Eb. subst b.
  pose proof (@sccd_call N S F C K (no_pin P) launch c2 junk (enough D (with_queue [] b')) D _ ltac:(lia) H8 Hj HPb HRD) as HC2.
  rewrite E2 in HC2. destruct HC2 as (_ & _ & Hnext & _).
  pose proof (@sccd_call N S F C K (no_pin P) launch c2 junk (enough (B ++ D) a) (B ++ D) a ltac:(lia) H8 Hj HP HR) as HC.
  destruct (@sccd_split K (no_pin P) c2 junk _ _ (enough (B ++ D) a) B D a b' d' H8 eq_refl Hst HP HR HRB Hm ltac:(auto) E1 E2) as (e & Ee & q & -> & Hq).
  { intros E. rewrite E in HC. destruct HC as [[rm HC]|HC]; [apply HC; apply Hfit|]. rewrite enough_zlen in HC. lia. }
  unfold update. rewrite Ee. cbn [bind].
  destruct (B ++ D) eqn:EBD; [destruct B; discriminate|]. rewrite <- Hr2.
  destruct Hq as [-> |Hq]; [rewrite with_queue_own; reflexivity|]. apply returned_queue.
  unfold next_mode in Hnext. cbn [with_queue io_mode] in Hnext. destruct Hm as [Em|Em]; rewrite <- Hmb', Em in Hnext;
  assert (HH : io_mode d' = 1 \/ io_mode d' = 11 \/ io_mode d' = 5 \/ io_mode d' = 12) by lia;
  destruct HH as [-> |[-> |[E|E]]]; try reflexivity; rewrite E in Hq; cbn in Hq; lia.
Qed.

(** Batch after batch, the pixel staying in its monitoring mode before the
    last one. *)
Fixpoint updates K P c2 junk jm (batches : list (list raw)) a : out io :=
  match batches with
  | [] => Ok a
  | [B] => update K P c2 junk jm B a
  | B :: rest => b <- update K P c2 junk jm B a ;; if io_mode b =? io_mode a then updates K P c2 junk jm rest b else Fail
  end.

Theorem C26_updates_partial : forall K P c2 junk jm batches all a d, sp_conse P = 8 -> length junk = 6%nat ->
  fits_succeed K -> (forall rm, exact_store (K rm)) ->
  @online N S F C all a -> batches_ok (all ++ [concat batches]) -> io_mode a = 1 \/ io_mode a = 11 -> batches <> [] ->
  updates K P c2 junk jm batches a = Ok d -> update K P c2 junk jm (concat batches) a = Ok d.
Proof.
  intros K P c2 junk jm batches. induction batches as [|B rest IH]; intros all a d H8 Hj Hfit Hst Hon HB Hm Hne H; [congruence|].
  destruct rest as [|B2 rest].
  - simpl. rewrite app_nil_r. exact H.
  - change (updates K P c2 junk jm (B :: B2 :: rest) a) with
      (b <- update K P c2 junk jm B a ;; if io_mode b =? io_mode a then updates K P c2 junk jm (B2 :: rest) b else Fail) in H.
    ib H b E. destruct (io_mode b =? io_mode a) eqn:Em; [|discriminate].
    change (concat (B :: B2 :: rest)) with (B ++ concat (B2 :: rest)) in *.
    assert (Em' : io_mode b = io_mode a) by lia.
    eapply C26_two_updates_partial; eauto. eapply (IH (all ++ [B])); eauto.
    + eapply online_snoc; eauto.
    + apply (batches_front _ _ _ HB).
    + rewrite Em'. assumption.
    + discriminate.
Qed.
(** A detection and one update give the records of one detection, for a
    kernel that does not look at min_rmse. *)
Lemma detect_standard : forall K P c2 junk jm rows d, length junk = 6%nat -> (forall rm rm', K rm = K rm') ->
  detect K P c2 junk jm rows = Ok d -> standard_mode (io_mode d) ->
  exists rm d', standard (K []) P (enough rows (blank C jm)) (call_obs c2 false rows (blank C jm)) (with_rmse rm (blank C jm)) = Ok d' /\
    returned jm d' = Ok d.
Proof.
  intros K P c2 junk jm rows d Hj HK H Hs. unfold detect in H. destruct rows as [|r t]; [discriminate|].
  destruct (slots <? _); [discriminate|]. destruct (_ <? 1461); [discriminate|]. ib H d' E.
  pose proof (returned_mode H) as Hmd.
  destruct (@sccd_cases N S F C K P c2 junk (enough (r :: t) (blank C jm)) (r :: t) (blank C jm) Hj) as [E1|(sn & _ & _ & _ & Hcase)]; [congruence|].
  cbv zeta in Hcase. destruct Hcase as [[-> E1]|[(-> & Hx & E1)|(-> & Hlt & rm & Hrm & E1)]]; rewrite E in E1.
  - exfalso. assert (Hbm : io_mode d' = 3 \/ io_mode d' = 4).
    { symmetry in E1. clear -E1. unfold snow in E1. cbv zeta in E1.
      destruct (_ || _); [destruct (_ <? 18)|].
      all: repeat match goal with
        | H : bind ?e _ = Ok _ |- _ => let E := fresh "E" in destruct e as [?v| | |] eqn:E; cbn [bind] in H; try discriminate; clear E
        end; injection E1 as <-; cbn; auto. }
    rewrite Hmd in Hs. unfold standard_mode in Hs. simpl in Hs. lia.
  - injection E1 as ->. exfalso. rewrite Hmd in Hs. unfold standard_mode in Hs. simpl in Hs. lia.
  - exists rm, d'. split; [|assumption]. rewrite (HK [] rm). symmetry. exact E1.
Qed.

Lemma standard_with_rmse : forall (k : skernel N S F C) P f x a b rm, standard k P f x a = Ok b ->
  standard k P f x (with_rmse rm a) = Ok (with_rmse rm b).
Proof.
  intros k P f x a b rm H. rewrite standard_eq in *. ib H ol E1. rewrite E1. ib H o0 E2. rewrite E2. cbn [bind].
  destruct (n_buckets (o_date ol) <? 0); [discriminate|]. ib H s E3.
  change (first_state k x (with_rmse rm a) o0 ol) with (first_state k x a o0 ol).
  change (io_mode (with_rmse rm a)) with (io_mode a). rewrite E3. cbn [bind].
  unfold finish in *. change (io_mode (with_rmse rm a)) with (io_mode a). change (io_queue (with_rmse rm a)) with (io_queue a).
  ib H p E4. destruct p. rewrite E4. cbn [bind]. ib H p E5. destruct p. rewrite E5. cbn [bind].
  ib H qu E6. rewrite E6. injection H as <-. reflexivity.
Qed.

Theorem C26_detect_partial : forall K P c2 junk jm A B a b d, sp_conse P = 8 -> sp_pin P = false -> length junk = 6%nat ->
  (forall rm, exact_store (K rm)) -> (forall rm rm', K rm = K rm') -> batches_ok [A; B] ->
  detect K P c2 junk jm A = Ok a -> io_mode a = 1 -> update K P c2 junk jm B a = Ok b ->
  detect K P c2 junk jm (A ++ B) = Ok d -> standard_mode (io_mode d) ->
  io_recs d = io_recs b.
Proof.
  intros K P c2 junk jm A B a b d H8 Hpin Hj Hst HK HB HA Hma HU HD Hsd.
  assert (HnP : no_pin P = P) by (destruct P; cbn in Hpin; subst; reflexivity).
  assert (HB0 : batches_ok ([] ++ [A ++ B])).
  { destruct HB as [G1 G2]. split; simpl in *; rewrite !app_nil_r in *; assumption. }
  destruct (batches_front _ _ _ HB0) as [HBA _]. simpl in HBA.
  assert (Hsa : standard_mode (io_mode a)) by (rewrite Hma; unfold standard_mode; simpl; auto).
  destruct (@detect_standard K P c2 junk jm A a Hj HK HA Hsa) as (rm & a' & EA & HrA).
  destruct (@detect_standard K P c2 junk jm (A ++ B) d Hj HK HD Hsd) as (rm2 & d' & ED & HrD).
  apply (standard_with_rmse) with (rm := rm) in ED. change (with_rmse rm (with_rmse rm2 (blank C jm))) with (with_rmse rm (blank C jm)) in ED.
  set (a0 := with_rmse rm (blank C jm)) in *. set (x := call_obs c2 false A (blank C jm)) in *.
  rewrite call_obs_app in ED. fold x in ED.
  set (Y := append_obs keep_std (map (fun q => (q, id_range c2 q)) B) (last_date x)) in *.
  assert (HRall : rows_ok launch (blank C jm) (A ++ B)).
  { destruct HB0 as [G1 G2]. simpl in G1, G2. rewrite app_nil_r in G1, G2. constructor; auto.
    - eapply Forall_impl; [|exact G1]. unfold good_row, in_days. simpl. lia.
    - intros dd Hdd. discriminate.
    - eapply Forall_impl; [|exact G1]. intros q [_ Hq]. exact Hq. }
  destruct (call_obs_facts c2 false (@blank_pack S C launch jm) HRall) as (Hasc & Hd & _). rewrite call_obs_app in Hasc, Hd. fold x Y in Hasc, Hd.
  assert (Hin : Forall (fun o => in_days (o_date o)) (x ++ Y)) by (eapply Forall_impl; [|exact Hd]; simpl; tauto).
  assert (Hxne : x <> []) by (intros E; rewrite E in EA; discriminate).
  assert (Hso : start_ok launch x a0).
  { apply blank_start; auto.
    - eapply asc_sub; [|exact Hasc]. rewrite <- (app_nil_r x) at 1. apply subseq_app; [apply subseq_refl|]. rewrite <- (skipn_all Y). apply subseq_skipn.
    - apply Forall_app in Hd. destruct Hd as [Hd _]. eapply Forall_impl; [|exact Hd]. simpl. tauto. }
  assert (Hma' : io_mode a' = 1) by (rewrite <- (returned_mode HrA); assumption).
  assert (Ea : a = with_queue [] a') by (rewrite returned_monitor in HrA by (rewrite Hma'; reflexivity); congruence).
  assert (Hrd : io_recs d = io_recs d').
  { destruct (returned_recs HrD) as [E|[E _]]; [assumption|]. rewrite <- (returned_mode HrD) in E. unfold standard_mode in Hsd. simpl in Hsd. lia. }
  destruct (update_ok HU) as (b' & EB & HrB). rewrite HnP in EB.
  pose proof (sccd_known _ _ _ _ _ _ _ EB) as KB.
  rewrite sccd_monitor in EB by (auto; rewrite Ea; cbn [with_queue io_mode]; auto).
  pose proof (@standard_spec N S F C (K []) P ltac:(lia) (enough A (blank C jm)) x a0 launch Hso) as HS. rewrite EA in HS.
  destruct (st_model HS) as [(ts & nobs & _ & _ & _ & _ & _ & H8x & Hobs & _) _]; [rewrite Hma'; reflexivity|].
  rewrite H8 in H8x, Hobs. rewrite slot_last in Hobs by assumption.
  assert (Hcb : carried a' = skipn (Z.to_nat (zlen x - 8)) x).
  { rewrite carried_monitor; [|rewrite Hma'; reflexivity|lia|].
    - rewrite Hobs. apply ld_stv_map. apply Forall_app in Hin. destruct Hin as [Hin _].
      rewrite <- (firstn_skipn (Z.to_nat (zlen x - 8)) x) in Hin. apply Forall_app in Hin. apply Hin.
    - rewrite Hobs, map_length, skipn_length. unfold zlen in *. lia. }
  assert (Hcw : carried a = carried a') by (rewrite Ea; apply carried_with_queue; [rewrite Hma'; reflexivity|lia]).
  assert (Hrb : io_recs b = io_recs b').
  { destruct (returned_recs HrB) as [E|[E _]]; [assumption|]. exfalso.
    destruct (@C23_update N S F C K P c2 junk jm B a b ltac:(lia) Hj HU) as (_ & U & _). specialize (U Hsa).
    rewrite (returned_mode HrB) in U. unfold standard_mode in U. simpl in U. lia. }
  rewrite Hrd, Hrb. change (io_recs d') with (io_recs (with_rmse rm d')).
  assert (HcB : call_obs c2 false B a = carried a' ++ Y).
  { unfold call_obs, Y. rewrite Hcw. do 2 f_equal. rewrite Hcb. apply last_date_skipn. unfold zlen in *. lia. }
  rewrite HcB, Hcw, zlen_app in EB. rewrite (HK (io_rmse a) []) in EB.
  destruct (zlen (carried a') <? _) eqn:Elt.
  - rewrite Ea in EB. destruct (standard_swap _ _ _ _ _ _ EB) as (b2 & EB2 & q & -> & _).
    change (io_recs b') with (io_recs (with_queue q b')).
    eapply (@split_records N S F C (K []) P) with (base := launch) (a1 := a') (A := x) (B := Y); try eassumption; auto; try lia; try apply Hst.
  - injection EB as <-. assert (EY : Y = []).
    { pose proof (zlen_nonneg Y). destruct Y; [reflexivity|]. rewrite zlen_cons in Elt. pose proof (zlen_nonneg Y). lia. }
    rewrite EY, app_nil_r in ED. rewrite Ea. cbn [with_queue io_recs].
    assert (E : standard (K []) P (enough (A ++ B) (blank C jm)) x a0 = Ok a') by (eapply standard_fuel; [exact EA|rewrite ED; discriminate]).
    rewrite E in ED. injection ED as ->. reflexivity.
Qed.
End Props3.

Print Assumptions C26_two_updates_partial.
Print Assumptions C26_updates_partial.
Print Assumptions C26_detect_partial.
