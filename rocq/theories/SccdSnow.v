(** C94: updates of a pixel handled by the snow procedure. *)
From Verif Require Import Base SortModel LibModel LibProps ColdModel ColdLemmas FrontModel FrontProps
  SccdModel SccdProof SccdTop SccdPack SccdTerm SccdApi SccdProps SccdProps2 SccdResume SccdProps3 SccdToy.

Section Snow.
Variables N S F C : Type.
Notation io := (io S C).
Implicit Types (K : list Z -> skernel N S F C) (k : skernel N S F C) (P : sparams) (a b : io).

Ltac ib H a E := apply bind_ok in H; destruct H as (a & E & H).

(** ** The filter loop *)

Lemma sfilter0 : forall k m x, snow_filter k m x 0 = Ok m.
Proof. intros k m [|]; reflexivity. Qed.

Lemma sfilter_cons : forall k m o o1 t n, snow_filter k m (o :: o1 :: t) (Datatypes.S n) =
  if o_date o1 - o_date o <=? 0 then UB else snow_filter k (k_sfilter k m o (o_date o1 - o_date o)) (o1 :: t) n.
Proof. reflexivity. Qed.

Lemma sfilter_front : forall k x y n m, (n < length x)%nat -> snow_filter k m (x ++ y) n = snow_filter k m x n.
Proof.
  intros k x y. induction x as [|o x IH]; intros n m H; [simpl in H; lia|].
  destruct n; [rewrite !sfilter0; reflexivity|]. simpl in H.
  destruct x as [|o1 t]; [simpl in H; lia|]. change ((o :: o1 :: t) ++ y) with (o :: o1 :: (t ++ y)).
  rewrite !sfilter_cons. destruct (_ <=? 0); [reflexivity|].
  change (o1 :: t ++ y) with ((o1 :: t) ++ y). apply IH. lia.
Qed.

Lemma sfilter_split : forall k n n' x m, (n + n' < length x)%nat ->
  snow_filter k m x (n + n') = (m1 <- snow_filter k m x n ;; snow_filter k m1 (skipn n x) n').
Proof.
  intros k n n' x. revert n. induction x as [|o x IH]; intros n m H; [simpl in H; lia|].
  destruct n; [rewrite sfilter0; reflexivity|]. simpl in H.
  destruct x as [|o1 t]; [simpl in H; lia|]. cbn [Nat.add]. rewrite !sfilter_cons.
  destruct (_ <=? 0); [reflexivity|]. rewrite IH by lia. reflexivity.
Qed.

(** ** What an update of a snow model works on *)

Definition stored_days a : Prop := Forall (fun o => 0 <= o_date o <= 32767) (nm_obs (io_model a)).
Definition snow_pack a : Prop := io_mode a = 3 /\ length (nm_obs (io_model a)) = 8%nat /\ stored_days a.

Definition new_obs (c2 : bool) (rows : list raw) (last : option Z) : list obs :=
  append_obs keep_snow (map (fun q => (q, id_range c2 q)) rows) last.

(** Which rows enter the snow model: clear land, water and snow, whatever their
    values, on days after the last one of the pack. *)
Lemma append_keep : forall (keep : raw * bool -> bool) (f : raw -> bool) rows last,
  StronglySorted (fun p q => q_date p < q_date q) rows ->
  (forall d, last = Some d -> Forall (fun q => d <= q_date q) rows) ->
  append_obs keep (map (fun q => (q, f q)) rows) last =
  map sobs (filter (fun q => keep (q, f q) && after last q) rows).
Proof.
  intros keep f rows. induction rows as [|q t IH]; intros last Hs Hl; [reflexivity|].
  inversion Hs as [|? ? Hs' Hf]; subst. cbn [map append_obs filter].
  assert (Ht : forall d, last = Some d -> Forall (fun q => d <= q_date q) t) by (intros d Hd; specialize (Hl d Hd); inversion Hl; assumption).
  assert (Hq : forall d, Some (q_date q) = Some d -> Forall (fun q => d <= q_date q) t).
  { intros d Hd. injection Hd as <-. eapply Forall_impl; [|exact Hf]. simpl. lia. }
  assert (Ext : forall l1 l2, Forall (fun p => after l1 p = after l2 p) t ->
     filter (fun p => keep (p, f p) && after l1 p) t = filter (fun p => keep (p, f p) && after l2 p) t).
  { intros l1 l2 HF. apply filter_ext_in. intros p Hp. rewrite Forall_forall in HF. rewrite (HF p Hp). reflexivity. }
  destruct (keep (q, f q)); cbn [andb]; [|auto]. cbn [fst].
  destruct last as [d|]; cbn [after].
  - specialize (Hl d eq_refl). inversion Hl; subst.
    destruct (q_date q =? d) eqn:E.
    + replace (d <? q_date q) with false by lia. apply IH; auto.
    + replace (d <? q_date q) with true by lia. cbn [map]. f_equal. rewrite IH by auto. f_equal. apply (Ext (Some (q_date q)) (Some d)).
      eapply Forall_impl; [|exact Hf]. simpl. intros p Hp. lia.
  - cbn [map]. f_equal. rewrite IH by auto. f_equal. apply (Ext (Some (q_date q)) None).
    eapply Forall_impl; [|exact Hf]. simpl. intros p Hp. lia.
Qed.

Theorem C25_snow_rows : forall c2 rows last, StronglySorted (fun p q => q_date p < q_date q) rows ->
  Forall (fun q => known_qa (q_qa q)) rows -> (forall d, last = Some d -> Forall (fun q => d <= q_date q) rows) ->
  new_obs c2 rows last = map sobs (filter (fun q => existsb (Z.eqb (q_qa q)) [0; 1; 3] && after last q) rows).
Proof.
  intros c2 rows last Hs Hk Hl. unfold new_obs. rewrite append_keep by assumption. f_equal. apply filter_ext_in.
  intros q Hq. rewrite Forall_forall in Hk. specialize (Hk q Hq). f_equal. unfold keep_snow, known_qa in *. simpl in *. lia.
Qed.

Lemma sccd_snow : forall K P c2 junk fuel rows a, io_mode a = 3 ->
  (Forall (fun q => known_qa (q_qa q)) rows /\
   sccd K P c2 junk fuel rows a = snow (K (io_rmse a)) (carried a ++ new_obs c2 rows (last_date (carried a))) a) \/
  (Exists (fun q => ~ known_qa (q_qa q)) rows /\ sccd K P c2 junk fuel rows a = Fail).
Proof.
  intros K P c2 junk fuel rows a Hm. unfold sccd. rewrite Hm. cbn [mode_ok Z.eqb Pos.eqb orb negb].
  destruct (preprocess_eq c2 rows (mkCounts 0 0 0 0 0)) as [[HF E]|[HE E]]; rewrite E; cbn [bind];
    [left|right]; split; auto.
Qed.

(** The saved part of the result. *)
Definition kept k (x : list obs) a (m : N) (nobs : Z) : out io :=
  w <- save8 x (zlen x - 8) 8 ;;
  Ok (mkIO 3 (io_recs a) (mkNm (k_store k m) (nm_start (io_model a)) nobs w (-9999) (-9999) 0)
        (io_queue a) (io_rmse a) (io_pins a)).

Lemma snow_monitor : forall k x a, io_mode a = 3 ->
  snow k x a = (m <- snow_filter k (k_load k (nm_st (io_model a))) x (Z.to_nat (zlen x - 8)) ;;
                kept k x a m (wrap16 (nm_nobs (io_model a) + zlen x - 8))).
Proof. intros k x a Hm. unfold snow. rewrite Hm. reflexivity. Qed.

Lemma save8_inv : forall x i n w, 0 <= i -> i + Z.min n 8 <= zlen x -> save8 x i n = Ok w -> w = slot_view x i n.
Proof.
  intros x i n w Hi Hn E. pose proof (@save8_wp False x i n Hi ltac:(tauto) ltac:(tauto)) as H. rewrite E in H. exact H.
Qed.

Lemma mapO_ext : forall A B (f g : A -> out B) l, (forall u, In u l -> f u = g u) -> mapO f l = mapO g l.
Proof.
  intros A B f g l. induction l as [|u l IH]; intros H; [reflexivity|]. cbn [mapO].
  rewrite (H u) by (left; reflexivity). rewrite IH; [reflexivity|]. intros v Hv. apply H. right. assumption.
Qed.

Lemma save8_tail : forall x n, 8 + Z.of_nat n <= zlen x ->
  save8 (skipn n x) (zlen (skipn n x) - 8) 8 = save8 x (zlen x - 8) 8.
Proof.
  intros x n Hn. unfold save8. apply mapO_ext. intros j Hj. apply in_seq in Hj.
  replace (Z.of_nat j <? 8) with true by lia.
  assert (Hl : zlen (skipn n x) = zlen x - Z.of_nat n) by (unfold zlen in *; rewrite skipn_length; lia).
  rewrite !get_ok with (d := dflt_obs) by lia. rewrite nth_skipn. do 2 f_equal. rewrite Hl. f_equal. lia.
Qed.

Lemma wrap16_add : forall u v, wrap16 (wrap16 u + v) = wrap16 (u + v).
Proof.
  intros u v. unfold wrap16. f_equal.
  replace ((u + 32768) mod 65536 - 32768 + v + 32768) with ((u + 32768) mod 65536 + v) by lia.
  rewrite Zplus_mod_idemp_l. f_equal. lia.
Qed.

Lemma carried_len : forall a, snow_pack a -> length (carried a) = 8%nat.
Proof. intros a (Hm & H8 & _). rewrite carried_snow by assumption. rewrite map_length, firstn_length, H8. reflexivity. Qed.

Lemma carried_days : forall a, snow_pack a -> Forall (fun o => in_days (o_date o)) (carried a).
Proof.
  intros a (Hm & H8 & Hd). rewrite carried_snow by assumption. rewrite firstn_all2 by lia. rewrite Forall_map.
  eapply Forall_impl; [|exact Hd]. intros o Ho. cbn beta in Ho. unfold in_days, ld_obs. cbn [o_date]. lia.
Qed.

Lemma new_days : forall c2 rows last, Forall good_row rows -> Forall (fun o => in_days (o_date o)) (new_obs c2 rows last).
Proof.
  intros c2 rows last HG. apply Forall_forall. intros o Ho. destruct (append_in _ _ _ _ Ho) as (q & Hq & _ & ->).
  apply in_map_iff in Hq. destruct Hq as (r & <- & Hr). rewrite Forall_forall in HG. specialize (HG r Hr).
  unfold good_row, in_days, sobs in *. cbn [fst o_date]. lia.
Qed.

(** What the first of two updates leaves: the observations it filtered, and
    the last eight. *)
Lemma snow_left : forall k x a b, io_mode a = 3 -> 8 <= zlen x -> Forall (fun o => in_days (o_date o)) x ->
  snow k x a = Ok b ->
  exists m, snow_filter k (k_load k (nm_st (io_model a))) x (Z.to_nat (zlen x - 8)) = Ok m /\
    carried b = skipn (Z.to_nat (zlen x - 8)) x /\ io_mode b = 3 /\ io_recs b = io_recs a /\ io_queue b = io_queue a /\
    io_rmse b = io_rmse a /\ io_pins b = io_pins a /\ nm_st (io_model b) = k_store k m /\
    nm_start (io_model b) = nm_start (io_model a) /\ nm_nobs (io_model b) = wrap16 (nm_nobs (io_model a) + zlen x - 8) /\
    snow_pack b.
Proof.
  intros k x a b Hm H8 Hd H. rewrite snow_monitor in H by assumption. ib H m E. exists m. split; [exact E|].
  unfold kept in H. ib H w Ew. injection H as <-. apply save8_inv in Ew; [|lia|lia]. rewrite slot_last in Ew by assumption.
  assert (Hdd : Forall (fun o => in_days (o_date o)) (skipn (Z.to_nat (zlen x - 8)) x)).
  { rewrite Forall_forall in *. intros o Ho. apply Hd. rewrite <- (firstn_skipn (Z.to_nat (zlen x - 8)) x). apply in_or_app. auto. }
  assert (Hl : length (skipn (Z.to_nat (zlen x - 8)) x) = 8%nat) by (rewrite skipn_length; unfold zlen in *; lia).
  split.
  { rewrite carried_snow by reflexivity. cbn [io_model nm_obs]. rewrite Ew.
    rewrite firstn_all2 by (rewrite map_length; lia). apply ld_stv_map. assumption. }
  repeat split; try reflexivity; cbn [io_model nm_obs io_mode].
  - rewrite Ew, map_length. assumption.
  - unfold stored_days. cbn [io_model nm_obs]. rewrite Ew, Forall_map. eapply Forall_impl; [|exact Hdd].
    unfold in_days, stv. intros o Ho. cbn [o_date] in *. rewrite wrap16_id by lia. lia.
Qed.

Lemma new_app : forall c2 B D last, new_obs c2 (B ++ D) last =
  new_obs c2 B last ++ new_obs c2 D (end_date last (new_obs c2 B last)).
Proof. intros. unfold new_obs. rewrite map_app, append_app. reflexivity. Qed.

Lemma returned_snow : forall jm b', io_mode b' = 3 ->
  returned jm b' = Ok (mkIO 3 (io_recs b') (io_model b') [] (io_rmse b') (io_pins b')).
Proof. intros jm b' H. unfold returned. rewrite H. reflexivity. Qed.

(** Two updates of a snow model are one with the rows of both, whatever that
    one does. *)
Theorem C94_two_updates : forall K P c2 junk jm B D a b,
  (forall rm, exact_store (K rm)) -> snow_pack a -> Forall good_row B -> D <> [] ->
  update K P c2 junk jm B a = Ok b ->
  update K P c2 junk jm (B ++ D) a = update K P c2 junk jm D b /\ snow_pack b.
Proof.
  intros K P c2 junk jm B D a b Hst HP HG HD H. destruct (update_ok H) as (b' & E1 & Hr). clear H.
  pose proof HP as (Hm & _).
  destruct (@sccd_snow K (no_pin P) c2 junk (enough B a) B a Hm) as [[HKB E]|[_ E]]; rewrite E in E1; [|discriminate].
  clear E. set (Y := new_obs c2 B (last_date (carried a))) in *. set (x := carried a ++ Y) in *.
  pose proof (carried_len HP) as Hc8.
  assert (Hx : zlen x = 8 + zlen Y) by (unfold x, zlen; rewrite app_length; lia).
  assert (H8 : 8 <= zlen x) by (pose proof (zlen_nonneg Y); lia).
  assert (Hdx : Forall (fun o => in_days (o_date o)) x).
  { apply Forall_app. split; [apply carried_days; assumption|apply new_days; assumption]. }
  destruct (@snow_left (K (io_rmse a)) x a b' Hm H8 Hdx E1) as (m & Em & Hcb & Hmb & R1 & R2 & R3 & R4 & R5 & R6 & R7 & HPb).
  rewrite returned_snow in Hr by assumption. injection Hr as <-.
  assert (HPb' : snow_pack (mkIO 3 (io_recs b') (io_model b') [] (io_rmse b') (io_pins b'))).
  { destruct HPb as (_ & G1 & G2). repeat split; assumption. }
  split; [|exact HPb'].
  set (bb := mkIO 3 (io_recs b') (io_model b') [] (io_rmse b') (io_pins b')) in *.
  assert (Hcbb : carried bb = carried b').
  { rewrite !carried_snow by (assumption || reflexivity). reflexivity. }
  assert (Hnn : Z.to_nat (zlen x - 8) = length Y) by (rewrite Hx; unfold zlen; lia).
  rewrite Hnn in *.
  assert (Hlt : (length Y < length x)%nat) by (unfold zlen in *; lia).
  assert (Hlast : last_date (carried bb) = end_date (last_date (carried a)) Y).
  { rewrite Hcbb, Hcb, last_date_skipn by assumption. unfold x. apply last_date_app. }
  unfold update. destruct D as [|q D']; [congruence|]. set (D := q :: D') in *.
  destruct (B ++ D) eqn:EBD; [destruct B; discriminate|]. rewrite <- EBD. clear EBD.
  destruct (@sccd_snow K (no_pin P) c2 junk (enough D bb) D bb eq_refl) as [[HKD E2]|[HKD E2]]; rewrite E2;
  destruct (@sccd_snow K (no_pin P) c2 junk (enough (B ++ D) a) (B ++ D) a Hm) as [[HKA E3]|[HKA E3]]; rewrite E3; clear E2 E3.
  2: { exfalso. rewrite Forall_forall in HKB, HKD. apply Exists_exists in HKA. destruct HKA as (u & Hu & HN).
       apply in_app_or in Hu. destruct Hu; auto. }
  2: { exfalso. apply Forall_app in HKA. destruct HKA as [_ HKA]. rewrite Forall_forall in HKA.
       apply Exists_exists in HKD. destruct HKD as (u & Hu & HN). auto. }
  2: reflexivity.
  rewrite new_app. fold Y. rewrite <- Hlast. set (Z2 := new_obs c2 D (last_date (carried bb))).
  rewrite Hcbb, Hcb. rewrite app_assoc. fold x.
  assert (Etail : skipn (length Y) x ++ Z2 = skipn (length Y) (x ++ Z2)).
  { rewrite skipn_app. replace (length Y - length x)%nat with 0%nat by lia. reflexivity. }
  rewrite Etail. set (xx := x ++ Z2) in *.
  assert (Hxx : zlen xx = 8 + zlen Y + zlen Z2) by (unfold xx, zlen in *; rewrite app_length; lia).
  rewrite !snow_monitor by (assumption || reflexivity).
  assert (Hxt : zlen (skipn (length Y) xx) = 8 + zlen Z2) by (unfold zlen in *; rewrite skipn_length; lia).
  replace (Z.to_nat (zlen (skipn (length Y) xx) - 8)) with (length Z2) by (rewrite Hxt; unfold zlen; lia).
  replace (Z.to_nat (zlen xx - 8)) with (length Y + length Z2)%nat by (rewrite Hxx; unfold zlen; lia).
  rewrite sfilter_split by (unfold zlen in Hxx; lia).
  unfold xx at 1. rewrite sfilter_front by assumption. rewrite Em. cbn [bind].
  change (io_rmse bb) with (io_rmse b'). change (io_model bb) with (io_model b'). rewrite R5, R3, Hst.
  destruct (snow_filter (K (io_rmse a)) m (skipn (length Y) xx) (length Z2)) as [m2| | |]; cbn [bind]; try reflexivity.
  unfold kept. rewrite save8_tail by (unfold zlen in *; lia). fold xx.
  destruct (save8 xx (zlen xx - 8) 8) as [w| | |]; cbn [bind]; try reflexivity.
  rewrite !returned_snow by reflexivity. unfold bb. cbn [io_recs io_model io_queue io_rmse io_pins].
  rewrite R1, R3, R4, R6, R7, Hxx, Hxt. do 3 f_equal.
  replace (wrap16 (nm_nobs (io_model a) + zlen x - 8) + (8 + zlen Z2) - 8)
    with (wrap16 (nm_nobs (io_model a) + zlen x - 8) + zlen Z2) by lia.
  rewrite wrap16_add. f_equal. lia.
Qed.

(** So any number of updates is one with all the rows. *)
Fixpoint one_by_one K P c2 junk jm (batches : list (list raw)) a : out io :=
  match batches with
  | [] => Ok a
  | B :: rest => b <- update K P c2 junk jm B a ;; one_by_one K P c2 junk jm rest b
  end.

Theorem C94_batches : forall K P c2 junk jm batches a d,
  (forall rm, exact_store (K rm)) -> snow_pack a -> Forall good_row (concat batches) -> batches <> [] ->
  one_by_one K P c2 junk jm batches a = Ok d -> update K P c2 junk jm (concat batches) a = Ok d.
Proof.
  intros K P c2 junk jm batches. induction batches as [|B rest IH]; intros a d Hst HP HG Hne H; [congruence|].
  cbn [one_by_one] in H. ib H b E. cbn [concat] in HG |- *. apply Forall_app in HG. destruct HG as [HGB HGR].
  destruct rest as [|B2 rest].
  - cbn in H. injection H as <-. simpl. rewrite app_nil_r. assumption.
  - assert (Hne2 : concat (B2 :: rest) <> []).
    { intros E0. cbn [concat] in E0. apply app_eq_nil in E0. destruct E0 as [-> _]. cbn [one_by_one] in H. discriminate. }
    destruct (@C94_two_updates K P c2 junk jm B (concat (B2 :: rest)) a b Hst HP HGB Hne2 E) as [-> HPb].
    apply IH; auto. discriminate.
Qed.

(** ** Which observations are in the model *)

(** The observations of [x] up to the [n]-th, each with the days to its
    successor. *)
Definition timed (x : list obs) (n : nat) : list (obs * Z) :=
  map (fun p => (fst p, o_date (snd p) - o_date (fst p))) (combine (firstn n x) (skipn 1 x)).

Lemma timed_cons : forall o o1 t n, timed (o :: o1 :: t) (Datatypes.S n) = (o, o_date o1 - o_date o) :: timed (o1 :: t) n.
Proof. reflexivity. Qed.

Lemma sfilter_fold : forall k x n m r, snow_filter k m x n = Ok r ->
  r = fold_left (fun m p => k_sfilter k m (fst p) (snd p)) (timed x n) m.
Proof.
  intros k x. induction x as [|o t IH]; intros n m r H.
  - destruct n; [|discriminate]. injection H as <-. reflexivity.
  - destruct n; [rewrite sfilter0 in H; injection H as <-; reflexivity|].
    destruct t as [|o1 t]; [discriminate|]. rewrite sfilter_cons in H. destruct (_ <=? 0); [discriminate|].
    rewrite timed_cons. cbn [fold_left fst snd]. apply IH. assumption.
Qed.

(** After an update the model has taken in, in order and once each, every
    observation but the last eight, which are kept. *)
Theorem C94_delayed : forall K P c2 junk jm rows a b, snow_pack a -> Forall good_row rows ->
  update K P c2 junk jm rows a = Ok b ->
  let k := K (io_rmse a) in
  let new := new_obs c2 rows (last_date (carried a)) in
  let x := carried a ++ new in
  nm_st (io_model b) = k_store k (fold_left (fun m p => k_sfilter k m (fst p) (snd p)) (timed x (length new))
                                    (k_load k (nm_st (io_model a)))) /\
  carried b = skipn (length new) x /\ snow_pack b /\
  nm_nobs (io_model b) = wrap16 (nm_nobs (io_model a) + zlen new) /\ io_recs b = io_recs a.
Proof.
  intros K P c2 junk jm rows a b HP HG H k new x. destruct (update_ok H) as (b' & E1 & Hr). clear H.
  pose proof HP as (Hm & _).
  destruct (@sccd_snow K (no_pin P) c2 junk (enough rows a) rows a Hm) as [[HKB E]|[_ E]]; rewrite E in E1; [|discriminate].
  clear E. fold new in E1. fold x in E1. fold k in E1.
  pose proof (carried_len HP) as Hc8.
  assert (Hx : zlen x = 8 + zlen new) by (unfold x, zlen; rewrite app_length; lia).
  assert (H8 : 8 <= zlen x) by (pose proof (zlen_nonneg new); lia).
  assert (Hdx : Forall (fun o => in_days (o_date o)) x).
  { apply Forall_app. split; [apply carried_days; assumption|apply new_days; assumption]. }
  destruct (@snow_left k x a b' Hm H8 Hdx E1) as (m & Em & Hcb & Hmb & R1 & R2 & R3 & R4 & R5 & R6 & R7 & HPb).
  rewrite returned_snow in Hr by assumption. injection Hr as <-.
  assert (Hnn : Z.to_nat (zlen x - 8) = length new) by (rewrite Hx; unfold zlen; lia).
  rewrite Hnn in *. apply sfilter_fold in Em. cbn [io_model io_recs]. rewrite <- Em.
  split; [assumption|]. split; [rewrite <- Hcb; rewrite !carried_snow by (assumption || reflexivity); reflexivity|].
  split; [destruct HPb as (_ & G1 & G2); repeat split; assumption|].
  split; [|assumption]. rewrite R7. f_equal. lia.
Qed.
End Snow.

(** ** The first update *)

(** A kernel whose state is the list of the dates taken in.  The model is
    created from all observations but the last, whose filter step has no
    days to run (s_ccd.c 412-421, 3268-3269). *)
Definition logk (_ : list Z) : skernel (list Z) (list Z) Z Z :=
  mkSK (fun _ => None) (fun _ => None) (fun _ _ => NaN) (fun _ _ => NaN) (fun _ _ => NaN)
       (fun _ _ _ => None) (fun _ _ _ => None) (fun _ _ _ => NaN) (fun _ _ _ => NaN)
       (fun _ _ _ => 0) (fun m _ _ => m) (fun m _ => m) (fun m => m) (fun m => m)
       (fun _ => None) (fun _ => 0)
       (fun w => Some (map o_date (removelast w))) (fun m o _ => m ++ [o_date o]).

Definition snow_row (d : Z) : raw := mkRaw d 100 100 100 100 100 100 0 3.
Definition snow_series : list raw := map (fun j => snow_row (730000 + 30 * Z.of_nat j)) (seq 0 18).
Definition log_jm : nmodel (list Z) := mkNm [] 0 0 (repeat zero_obs 8) 0 0 0.
Definition log_detect := detect logk (par 8 false) true junk0 log_jm.
Definition log_update := update logk (par 8 false) true junk0 log_jm.
Definition log_run batches : out (list Z * list Z * Z) :=
  a <- log_detect snow_series ;; b <- one_by_one logk (par 8 false) true junk0 log_jm batches a ;;
  Ok (nm_st (io_model b), map o_date (carried b), nm_nobs (io_model b)).

(** Once created the model is brought up to date batch by batch. *)
Example C94_case :
  (exists a, log_detect snow_series = Ok a /\ snow_pack a) /\
  (exists r, log_run [[snow_row 730540; snow_row 730570]; [snow_row 730600]] = Ok r /\
             log_run [[snow_row 730540; snow_row 730570; snow_row 730600]] = Ok r).
Proof.
  split.
  - eexists. split; [vm_compute; reflexivity|]. repeat split. unfold stored_days. cbn.
    repeat (constructor; [simpl; lia|]). constructor.
  - eexists. split; vm_compute; reflexivity.
Qed.

(** The model is created from all observations, and the last eight are kept
    as if they were still to come (3248-3277, 3318-3325): the updates that
    follow take them in again. *)
Theorem C94_once_refuted : exists series batch a b,
  log_detect series = Ok a /\ snow_pack a /\ log_update batch a = Ok b /\
  ~ NoDup (nm_st (io_model b)).
Proof.
  exists snow_series, [snow_row 730540]. eexists. eexists.
  split; [vm_compute; reflexivity|]. split.
  { repeat split. unfold stored_days. cbn. repeat (constructor; [simpl; lia|]). constructor. }
  split; [vm_compute; reflexivity|].
  cbn [nm_st io_model]. intros H. do 10 (apply NoDup_cons_iff in H; destruct H as [_ H]).
  apply NoDup_cons_iff in H. apply H. cbn. auto 10.
Qed.

Print Assumptions C94_two_updates.
Print Assumptions C94_batches.
Print Assumptions C94_delayed.
Print Assumptions C94_once_refuted.
Print Assumptions C25_snow_rows.
