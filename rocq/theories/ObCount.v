(** How much of the series the reconstruction uses (C123). *)
From Verif Require Import Base SortModel LibModel LibProps ColdModel ColdSpec ColdLemmas ColdPass FrontModel FrontProps SparseProps ObModel ObProps ObPass ObAgain.
Set Implicit Arguments.

Section Count.
Variables M D : Type.
Variable K : okernel M D.
Variable conse : Z.

Lemma filter_true : forall A (g : A -> bool) l, (forall o, g o = true) -> filter g l = l.
Proof. intros A g l H. induction l as [|o l IH]; [reflexivity|]. cbn [filter]. rewrite H, IH. reflexivity. Qed.

Lemma rebuild_count : forall bs n rest rs, rebuild K conse n rest bs = Ok rs ->
  subseq (concat (map (@b_win M D) rs)) rest /\ Forall (fun r => 6 <= zlen (b_win r) /\ b_nobs r = zlen (b_win r) + 1) rs /\
  n + zlen rs <= 40 \/ rs = [] .
Proof.
  induction bs as [|b t IH]; intros n rest rs H; cbn [rebuild] in H.
  - destruct (zlen rest <? 6) eqn:E6; [injection H as <-; now right|]. destruct (40 <=? n) eqn:E4; [discriminate|].
    apply bind_ok in H. destruct H as (r & Er & H). injection H as <-. unfold open_rec in Er. apply bind_ok in Er. destruct Er as (m & _ & Er). injection Er as <-.
    left. cbn [map concat b_win]. rewrite app_nil_r. split; [apply subseq_refl|]. split; [repeat constructor; cbn [b_win b_nobs]; lia|]. unfold zlen. cbn [length]. lia.
  - set (k := nearest b rest) in *. destruct (zlen (firstn k rest) <? 6) eqn:E6; [eapply IH; eassumption|].
    apply bind_ok in H. destruct H as (o & Et & H). destruct o as [w|]; [|eapply IH; eassumption].
    destruct (40 <=? n) eqn:E4; [discriminate|]. apply bind_ok in H. destruct H as (r & Er & H). apply bind_ok in H. destruct H as (rs' & Ers & H).
    injection H as <-. unfold closed_rec in Er. apply bind_ok in Er. destruct Er as (m & _ & Er). injection Er as <-.
    destruct (@trim_six M D K (firstn k rest) w ltac:(lia) Et) as [H6 Hsub]. left. cbn [map concat b_win].
    destruct (IH _ _ _ Ers) as [(I1 & I2 & I3)| ->].
    + split; [rewrite <- (firstn_skipn k rest); apply subseq_app; assumption|]. split; [constructor; [cbn [b_win b_nobs]; lia|exact I2]|]. unfold zlen in *. cbn [length]. lia.
    + split; [|split; [constructor; [cbn [b_win b_nobs]; lia|constructor]|unfold zlen; cbn [length]; lia]]. cbn [map concat]. rewrite app_nil_r.
      rewrite <- (firstn_skipn k rest). rewrite <- (app_nil_r w). apply subseq_app; [exact Hsub|constructor].
Qed.
Lemma concat_six : forall rs, Forall (fun r : brec M D => 6 <= zlen (b_win r) /\ b_nobs r = zlen (b_win r) + 1) rs -> 6 * zlen rs <= zlen (concat (map (@b_win M D) rs)).
Proof.
  induction 1 as [|r rs [Hr _] H IH]; [cbn; lia|]. cbn [map concat]. unfold zlen in *. rewrite app_length. cbn [length]. lia.
Qed.
Lemma rebuild_ub : forall bs n rest, 0 <= n -> 6 * n + zlen rest < 246 -> rebuild K conse n rest bs <> UB.
Proof.
  induction bs as [|b t IH]; intros n rest Hn H; cbn [rebuild].
  - destruct (zlen rest <? 6) eqn:E6; [discriminate|]. destruct (40 <=? n) eqn:E4; [lia|]. unfold open_rec. destruct (o_fit K _ rest); cbn [of_opt bind]; discriminate.
  - set (k := nearest b rest). assert (Hz : zlen rest = zlen (firstn k rest) + zlen (skipn k rest)) by (rewrite <- (firstn_skipn k rest) at 1; unfold zlen; rewrite app_length; lia).
    destruct (zlen (firstn k rest) <? 6) eqn:E6; [apply IH; assumption|].
    destruct (trim K (firstn k rest)) as [[w|]| | |] eqn:Et; cbn [bind]; try discriminate; [|apply IH; assumption|].
    + destruct (40 <=? n) eqn:E4; [unfold zlen in *; lia|]. destruct (closed_rec K conse w (skipn k rest)) as [r| | |] eqn:Er; cbn [bind]; try discriminate.
      * intros E. destruct (rebuild K conse (n + 1) (skipn k rest) t) eqn:E2; cbn [bind] in E; try discriminate. revert E2. apply IH; lia.
      * unfold closed_rec in Er. destruct (o_fit K _ w); cbn [of_opt bind] in Er; discriminate.
    + exfalso. revert Et. unfold trim. destruct (zlen (firstn k rest) <? 12); [discriminate|]. destruct (o_mask K (firstn k rest)) as [f|]; cbn [of_opt bind]; [|discriminate].
      destruct (zlen (kept f (firstn k rest)) <? 6); [discriminate|]. destruct (o_fit5 K _ _) as [m|]; cbn [of_opt bind]; [|discriminate]. destruct (zlen (filter _ _) <? 6); discriminate.
Qed.

(** No outliers: no observation is lost between the records. *)
Lemma rebuild_all : forall bs n rest rs, (forall w f, o_mask K w = Some f -> forall k, f k = false) -> (forall m c o, o_far K m c o = false) ->
  rebuild K conse n rest bs = Ok rs -> exists tail, rest = concat (map (@b_win M D) rs) ++ tail /\ zlen tail < 6.
Proof.
  intros bs n rest rs Hm Hf. revert n rest rs. induction bs as [|b t IH]; intros n rest rs H; cbn [rebuild] in H.
  - destruct (zlen rest <? 6) eqn:E6; [injection H as <-; exists rest; split; [reflexivity|lia]|]. destruct (40 <=? n) eqn:E4; [discriminate|].
    apply bind_ok in H. destruct H as (r & Er & H). injection H as <-. unfold open_rec in Er. apply bind_ok in Er. destruct Er as (m & _ & Er). injection Er as <-.
    exists []. cbn [map concat b_win]. rewrite !app_nil_r. split; [reflexivity|cbn; lia].
  - set (k := nearest b rest) in *. destruct (zlen (firstn k rest) <? 6) eqn:E6; [eapply IH; eassumption|].
    apply bind_ok in H. destruct H as (o & Et & H). destruct o as [w|]; [|eapply IH; eassumption].
    destruct (40 <=? n) eqn:E4; [discriminate|]. apply bind_ok in H. destruct H as (r & Er & H). apply bind_ok in H. destruct H as (rs' & Ers & H).
    injection H as <-. unfold closed_rec in Er. apply bind_ok in Er. destruct Er as (m & _ & Er). injection Er as <-.
    destruct (IH _ _ _ Ers) as (tail & E & Ht). exists tail. split; [|exact Ht]. cbn [map concat b_win]. rewrite <- app_assoc, <- E.
    assert (w = firstn k rest) as ->; [|symmetry; apply firstn_skipn].
    unfold trim in Et. destruct (zlen (firstn k rest) <? 12); [injection Et as <-; reflexivity|]. apply bind_ok in Et. destruct Et as (f & Ef & Et).
    assert (Ek : kept f (firstn k rest) = firstn k rest).
    { destruct (o_mask K (firstn k rest)) as [f0|] eqn:E0; [|discriminate]. injection Ef as <-. pose proof (Hm _ _ E0) as Hff. unfold kept. clear - Hff.
      generalize 0%nat. induction (firstn k rest) as [|o l IHl]; intros j; [reflexivity|]. cbn [length seq combine filter fst map]. rewrite Hff. cbn [negb map snd]. f_equal. apply IHl. }
    rewrite Ek, E6 in Et. apply bind_ok in Et. destruct Et as (m' & _ & Et).
    assert (Eq : filter (fun o => negb (o_far K m' (terms (zlen (firstn k rest))) o)) (firstn k rest) = firstn k rest).
    { apply filter_true. intros o. rewrite Hf. reflexivity. }
    rewrite Eq, E6 in Et. injection Et as <-. reflexivity.
Qed.
End Count.

(** C123: no observation is used twice, in two records or two times in one;
    every record has at least six; a call with fewer than 246 clear
    observations stays inside the array of 40 records. *)
Section Whole.
Variables M D C : Type.
Variable K : okernel M D.
Variable conse : Z.
Variable fit : list (Z * Z) -> option C.
Variable saturated : C.
Hypothesis Hconse : 1 <= conse.
Notation call := (obcold_reconstruct K conse fit saturated).

Lemma reopened_win : forall (rs : list (brec M D)), map (@b_win M D) (reopened rs) = map (@b_win M D) rs.
Proof. induction rs as [|r t IH]; [reflexivity|]. destruct t as [|r' t]; [reflexivity|]. change (reopened (r :: r' :: t)) with (r :: reopened (r' :: t)). cbn [map] in *. f_equal. exact IH. Qed.
Lemma reopened_len : forall (rs : list (brec M D)), zlen (reopened rs) = zlen rs.
Proof. intros rs. unfold zlen. rewrite <- (map_length (@b_win M D)), reopened_win, map_length. reflexivity. Qed.

Theorem C123_disjoint : forall c2 snow junk l bs rs, usable c2 l bs -> call c2 snow junk l bs = Ok (ObSegments C rs) ->
  subseq (concat (map (@b_win M D) rs)) (clear_series c2 l) /\ (forall r, In r rs -> 6 <= zlen (b_win r)) /\
  6 * zlen rs <= zlen (clear_series c2 l) /\ zlen rs <= 40.
Proof.
  intros c2 snow junk l bs rs (Hb & Hx & Hn) H.
  assert (Hbn : bs <> []) by (intros ->; unfold obcold_reconstruct in H; destruct l; discriminate).
  destruct (C18_accepted Hbn Hb) as (s & _ & Hp & Hss & _).
  destruct (@C120_records M D C K conse fit saturated c2 snow junk l bs s rs Hconse Hb Hx Hn Hp Hss H) as (rs0 & R & Hr0 & ->).
  destruct (@rebuild_count _ _ _ _ _ _ _ _ R) as [(I1 & I2 & I3)| ->]; [|congruence]. rewrite reopened_win, reopened_len.
  split; [exact I1|]. split; [|split; [|lia]].
  - intros r Hr. apply (in_map (@b_win M D)) in Hr. rewrite reopened_win in Hr. apply in_map_iff in Hr. destruct Hr as (r0 & <- & Hr). rewrite Forall_forall in I2. apply I2. exact Hr.
  - apply concat_six in I2. apply subseq_length in I1. unfold zlen in *. lia.
Qed.
Theorem C123_short_series : forall c2 snow junk l bs, usable c2 l bs -> zlen (clear_series c2 l) < 246 -> call c2 snow junk l bs <> UB.
Proof.
  intros c2 snow junk l breaks (Hb & Hx & Hn) H246. unfold obcold_reconstruct.
  destruct l as [|q l'] eqn:El; [discriminate|]. rewrite <- El in *. assert (Hl : l <> []) by congruence.
  destruct breaks as [|b0 bt] eqn:Eb; [discriminate|]. rewrite <- Eb in *. assert (Hbn : breaks <> []) by congruence.
  unfold obcold. destruct (dates_sorted l) eqn:Ed; cbn [negb]; [|discriminate].
  assert (Hu : ~ unsorted l) by (intros Hu; apply dates_sorted_false in Hu; congruence).
  destruct (preprocess_eq c2 l (mkCounts 0 0 0 0 0)) as [[_ E]|[_ E]]; rewrite E; cbn [bind]; [|discriminate].
  assert (Hcl : n_clear (add_counts (mkCounts 0 0 0 0 0) l) = qa_count [0; 1] l) by (unfold add_counts; cbn [n_clear]; lia).
  pose proof (@sparse_either_safe C fit saturated snow c2 junk l _ _ Hl E) as Hsp.
  rewrite Hcl. destruct (qa_count [0; 1] l <? 24) eqn:E24.
  - destruct Hsp as [Hsp|(r & Hsp)]; rewrite Hsp; cbn [bind]; [discriminate|destruct r; discriminate].
  - destruct (C18_accepted Hbn Hb) as (s & Es & Hp & Hss & _). rewrite Es. cbn [bind]. rewrite select_mixed. fold (clear_series c2 l).
    specialize (Hx ltac:(lia)). destruct (clear_series_asc c2 Hu) as [Hasc Hdates].
    rewrite accepted_code; [|lia|eapply Permutation_Forall; eassumption].
    rewrite C120_segments; try assumption; [|apply accepted_sorted; assumption|].
    + pose proof (@rebuild_ub M D K conse (accepted 0 s) 0 (clear_series c2 l) ltac:(lia) ltac:(lia)) as HU.
      destruct (rebuild K conse 0 (clear_series c2 l) (accepted 0 s)) as [rs| | |]; cbn [bind]; try discriminate; [|congruence].
      destruct rs as [|r rs].
      * destruct Hsp as [Hsp|(r & Hsp)]; rewrite Hsp; cbn [bind]; [discriminate|destruct r; discriminate].
      * destruct (force_last (r :: rs)); discriminate.
    + intros b d H1 H2. apply Hn; [|apply Hdates; exact H2]. apply accepted_in in H1. eapply Permutation_in; [apply Permutation_sym; exact Hp|exact H1].
Qed.
(** C123: if the numerical routines find no outliers, every clear observation
    is in a record but for fewer than six at the end. *)
Theorem C123_complete : forall c2 snow junk l bs rs, usable c2 l bs ->
  (forall w f, o_mask K w = Some f -> forall k, f k = false) -> (forall m c o, o_far K m c o = false) ->
  call c2 snow junk l bs = Ok (ObSegments C rs) ->
  exists tail, clear_series c2 l = concat (map (@b_win M D) rs) ++ tail /\ zlen tail < 6.
Proof.
  intros c2 snow junk l bs rs (Hb & Hx & Hn) Hm Hf H.
  assert (Hbn : bs <> []) by (intros ->; unfold obcold_reconstruct in H; destruct l; discriminate).
  destruct (C18_accepted Hbn Hb) as (s & _ & Hp & Hss & _).
  destruct (@C120_records M D C K conse fit saturated c2 snow junk l bs s rs Hconse Hb Hx Hn Hp Hss H) as (rs0 & R & Hr0 & ->).
  rewrite reopened_win. exact (@rebuild_all M D K conse _ _ _ _ Hm Hf R).
Qed.
End Whole.

(** 12, 14 and 22 of 48 observations; then 43 of 48, with five left over. *)
Example count_run : match run_ob false no_junk (every 48 30 730 100) [1600; 1500; 0; 1100; 1100], run_ob false no_junk (every 48 30 730 100) [880; 2020] with
  | Ok (ObSegments _ rs), Ok (ObSegments _ rs') => map (fun r => zlen (b_win r)) rs = [12; 14; 22] /\ concat (map (@b_win Z Z) rs) = clear_series true (every 48 30 730 100) /\
      map (fun r => zlen (b_win r)) rs' = [43]
  | _, _ => False
  end.
Proof. vm_compute. repeat split; reflexivity. Qed.
Example count_usable : usable true (every 48 30 730 100) [1600; 1500; 0; 1100; 1100] /\ zlen (clear_series true (every 48 30 730 100)) < 246 /\
  (forall w f, o_mask okay w = Some f -> forall k, f k = false) /\ (forall m c o, o_far okay m c o = false).
Proof. split; [apply again_usable|]. split; [vm_compute; reflexivity|]. split; [|reflexivity]. intros w f E k. injection E as <-. reflexivity. Qed.
(** The bound is the last one: with 41 pieces of six the 41st record is
    written behind the array. *)
Example full_run :
  let x := map (fun k => mkObs (61 * Z.of_nat k) [0]) (seq 7 246) in
  rebuild okay 6 0 x (map (fun k => 61 * (7 + 6 * Z.of_nat k)) (seq 1 40)) = UB.
Proof. vm_compute. reflexivity. Qed.
Print Assumptions C123_disjoint.
Print Assumptions C123_short_series.
Print Assumptions C123_complete.
