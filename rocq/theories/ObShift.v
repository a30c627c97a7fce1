(** The reconstruction from given breaks on transformed observations (C122):
    only differences of dates matter, but for the first date, which is
    measured from day 0. *)
From Verif Require Import Base LibProps ColdModel ColdSpec ColdLemmas ColdPass ColdShift FrontModel ObModel ObProps ObPass.
Set Implicit Arguments.

Section Move.
Variables (M M' D D' : Type) (K : okernel M D) (K' : okernel M' D') (conse c : Z) (mv : obs -> obs) (fm : M -> M') (fd : D -> D').
(** Dates move by [c], values in any way; the numerical routines give the
    moved models and deviations, and the same flags. *)
Hypothesis Hd : forall o, o_date (mv o) = o_date o + c.
Hypothesis Hmask : forall w, o_mask K' (map mv w) = o_mask K w.
Hypothesis Hfit5 : forall n w, o_fit5 K' n (map mv w) = option_map fm (o_fit5 K n w).
Hypothesis Hfar : forall m n o, o_far K' (fm m) n (mv o) = o_far K m n o.
Hypothesis Hfit : forall n w, o_fit K' n (map mv w) = option_map fm (o_fit K n w).
Hypothesis Hdev : forall m n o, o_dev K' (fm m) n (mv o) = fd (o_dev K m n o).

(** The moved record (output.h 14-49); one without probability has no break. *)
Definition mb (r : brec M D) : brec M' D' :=
  mkB (b_start r + c) (b_end r + c) (if b_prob r =? 0 then b_break r else b_break r + c) (b_nobs r) (b_cat r) (b_prob r)
    (fm (b_model r)) (map mv (b_win r)) (map (fun p => (mv (fst p), fd (snd p))) (b_devs r)).
Notation later bs := (map (fun b => b + c) bs).

Lemma nearest_mv : forall b l, nearest (b + c) (map mv l) = nearest b l.
Proof.
  intros b. induction l as [|o t IH]; [reflexivity|]. destruct t as [|o' t]; [reflexivity|]. set (t1 := o' :: t) in *.
  change (nearest (b + c) (map mv (o :: t1))) with (if Z.abs (o_date (mv o) - (b + c)) <=? Z.abs (o_date (nth (nearest (b + c) (map mv t1)) (map mv t1) dflt_obs) - (b + c))
    then 0%nat else S (nearest (b + c) (map mv t1))).
  change (nearest b (o :: t1)) with (if Z.abs (o_date o - b) <=? Z.abs (o_date (nth (nearest b t1) t1 dflt_obs) - b) then 0%nat else S (nearest b t1)).
  rewrite IH. assert (Hk : (nearest b t1 < length t1)%nat) by (apply nearest_lt; discriminate).
  rewrite (nth_indep _ dflt_obs (mv dflt_obs)) by (rewrite map_length; exact Hk). rewrite map_nth, !Hd.
  replace (o_date o + c - (b + c)) with (o_date o - b) by lia.
  replace (o_date (nth (nearest b t1) t1 dflt_obs) + c - (b + c)) with (o_date (nth (nearest b t1) t1 dflt_obs) - b) by lia. reflexivity.
Qed.
Lemma far_mv : forall m n w, filter (fun o => negb (o_far K' (fm m) n o)) (map mv w) = map mv (filter (fun o => negb (o_far K m n o)) w).
Proof. intros m n w. induction w as [|o w IH]; [reflexivity|]. cbn [map filter]. rewrite Hfar, IH. destruct (o_far K m n o); reflexivity. Qed.
Lemma trim_mv : forall seg, trim K' (map mv seg) = omap (option_map (map mv)) (trim K seg).
Proof.
  intros seg. unfold trim. rewrite zlen_mv. destruct (zlen seg <? 12); [reflexivity|]. rewrite Hmask.
  destruct (o_mask K seg) as [f|]; cbn [of_opt bind]; [|reflexivity]. rewrite kept_mv, zlen_mv. destruct (zlen (kept f seg) <? 6); [reflexivity|].
  rewrite Hfit5, omap_opt. apply omap_bind. intros m _. rewrite far_mv, zlen_mv. destruct (zlen (filter _ _) <? 6); reflexivity.
Qed.
Lemma closed_mv : forall w after, w <> [] -> after <> [] -> closed_rec K' conse (map mv w) (map mv after) = omap mb (closed_rec K conse w after).
Proof.
  intros w after Hw Ha. unfold closed_rec. rewrite zlen_mv, Hfit, omap_opt. apply omap_bind. intros m _. cbn [omap]. unfold mb.
  cbn [b_start b_end b_break b_nobs b_cat b_prob b_model b_win b_devs Z.eqb]. rewrite !first_mv, final_mv, !Hd, firstn_map, !map_map by assumption.
  f_equal. f_equal. apply map_ext. intros o. cbn [fst snd]. rewrite Hdev. reflexivity.
Qed.
Lemma rebuild_mv : forall bs n rest, rest <> [] -> rebuild K' conse n (map mv rest) (later bs) = omap (map mb) (rebuild K conse n rest bs).
Proof.
  induction bs as [|b t IH]; intros n rest Hne; cbn [rebuild map].
  - rewrite zlen_mv. destruct (zlen rest <? 6); [reflexivity|]. destruct (40 <=? n); [reflexivity|]. unfold open_rec. rewrite zlen_mv, Hfit, omap_opt.
    destruct (o_fit K _ rest) as [m|]; [|reflexivity]. cbn [of_opt omap bind map]. unfold mb. cbn [b_start b_end b_break b_nobs b_cat b_prob b_model b_win b_devs Z.eqb map].
    rewrite first_mv, final_mv, !Hd by assumption. reflexivity.
  - rewrite nearest_mv. set (k := nearest b rest). rewrite firstn_map, skipn_map, zlen_mv.
    destruct (zlen (firstn k rest) <? 6) eqn:E6; [apply IH; assumption|]. rewrite trim_mv. apply omap_bind. intros o Et.
    destruct o as [w|]; cbn [option_map]; [|apply IH; assumption]. destruct (40 <=? n); [reflexivity|].
    destruct (@trim_six M D K (firstn k rest) w ltac:(lia) Et) as [H6 _]. assert (Hw : w <> []) by (intros ->; unfold zlen in H6; cbn in H6; lia).
    pose proof (nearest_lt b Hne) as Hk. fold k in Hk.
    assert (Haf : skipn k rest <> []) by (intros E; apply (f_equal (@length obs)) in E; rewrite skipn_length in E; cbn in E; lia).
    rewrite closed_mv by assumption. apply omap_bind. intros r _. rewrite IH by assumption. apply omap_bind. intros rs _. reflexivity.
Qed.

(** C122: the loop on moved observations and dates. *)
Theorem C122_moved : forall x bs, 1 <= conse -> asc x -> x <> [] -> StronglySorted Z.le bs ->
  (forall b d, In b bs -> In d (map o_date x) -> Z.abs (d - b) < 9999999) ->
  segments K' conse (map mv x) 0 [] (later bs) = omap (map mb) (segments K conse x 0 [] bs).
Proof.
  intros x bs Hc A Hne Hs Hb. rewrite !C120_segments; try assumption.
  - apply rebuild_mv. exact Hne.
  - unfold asc, ascending in *. rewrite map_map. clear - A Hd. induction x as [|o x IH]; [constructor|]. cbn [map] in *. inversion A as [|? ? A1 A2]; subst.
    constructor; [apply IH; assumption|]. rewrite Forall_forall in *. intros d Hi. apply in_map_iff in Hi. destruct Hi as (p & <- & Hp).
    rewrite !Hd. specialize (A2 (o_date p) (in_map _ _ _ Hp)). lia.
  - apply nonnil_mv. exact Hne.
  - clear - Hs. induction Hs as [|b t Hs IH Hf]; [constructor|]. cbn [map]. constructor; [exact IH|]. rewrite Forall_forall in *.
    intros d Hi. apply in_map_iff in Hi. destruct Hi as (p & <- & Hp). specialize (Hf p Hp). lia.
  - intros b d Hi Hj. apply in_map_iff in Hi. destruct Hi as (b0 & <- & Hi). rewrite map_map in Hj. apply in_map_iff in Hj. destruct Hj as (o & <- & Ho).
    rewrite Hd. specialize (Hb b0 (o_date o) Hi (in_map _ _ _ Ho)). replace (o_date o + c - (b0 + c)) with (o_date o - b0) by lia. exact Hb.
Qed.
End Move.

(** C122: the accepted dates move along if the first date is at least 366
    before and after the move. *)
Lemma accepted_mv : forall c l last, accepted (last + c) (map (fun b => b + c) l) = map (fun b => b + c) (accepted last l).
Proof.
  intros c. induction l as [|d t IH]; intros last; [reflexivity|]. cbn [map accepted]. replace (last + c + 366 <=? d + c) with (last + 366 <=? d) by lia.
  destruct (last + 366 <=? d); [cbn [map]; f_equal|]; apply IH.
Qed.
Theorem C122_dates : forall c b t, 366 <= b -> 366 <= b + c ->
  accepted 0 (map (fun b => b + c) (b :: t)) = map (fun b => b + c) (accepted 0 (b :: t)).
Proof.
  intros c b t H1 H2. cbn [map accepted]. replace (0 + 366 <=? b + c) with true by lia. replace (0 + 366 <=? b) with true by lia. cbn [map]. f_equal. apply accepted_mv.
Qed.
(** Moved to the first year, the first date is not accepted any more. *)
Theorem C122_dates_refuted : exists c l, accepted 0 (map (fun b => b + c) l) <> map (fun b => b + c) (accepted 0 l).
Proof. exists (-1000), [1100; 1500]. vm_compute. discriminate. Qed.

(** ** Example: flagged first observation, values as models, an outlier test *)
Definition val0 (o : obs) : Z := hd 0 (o_vals o).
Definition spiky : okernel Z Z :=
  mkOK (fun _ => Some (fun k => Nat.eqb k 1)) (fun _ w => option_map val0 (hd_error w)) (fun m _ o => 50 <? Z.abs (val0 o - m))
    (fun _ w => option_map val0 (hd_error w)) (fun m _ o => val0 o - m).
Definition raised (o : obs) : obs := mkObs (o_date o + 1461) [val0 o + 7].
(** A spike at the fourth of 40 observations *)
Definition spikes : list obs := map (fun k => mkObs (730 + 30 * Z.of_nat k) [if Nat.eqb k 3 then 200 else 100]) (seq 0 40).
Example spiky_moves : forall x bs, asc x -> x <> [] -> StronglySorted Z.le bs ->
  (forall b d, In b bs -> In d (map o_date x) -> Z.abs (d - b) < 9999999) ->
  segments spiky 6 (map raised x) 0 [] (map (fun b => b + 1461) bs) =
  omap (map (mb 1461 raised (fun m => m + 7) (fun d => d))) (segments spiky 6 x 0 [] bs).
Proof.
  intros x bs A Hne Hs Hb. apply C122_moved; try assumption; try reflexivity; try lia.
  - intros n [|o w]; reflexivity.
  - intros m n o. cbn [o_far spiky]. f_equal. f_equal. unfold val0, raised. cbn [o_vals hd]. unfold val0. lia.
  - intros n [|o w]; reflexivity.
  - intros m n o. cbn [o_dev spiky]. unfold val0, raised. cbn [o_vals hd]. unfold val0. lia.
Qed.
Example spiky_run : match segments spiky 6 spikes 0 [] [1200] with
  | Ok [r; r'] => (b_start r, b_end r, b_break r, zlen (b_win r), zlen (b_devs r)) = (730, 1180, 1210, 14, 6) /\ (b_start r', b_break r') = (1210, 0)
  | _ => False
  end.
Proof. vm_compute. repeat split; reflexivity. Qed.
Print Assumptions C122_moved.
Print Assumptions C122_dates.
Print Assumptions C122_dates_refuted.
