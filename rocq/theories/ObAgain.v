(** Consequences of C120 for callers of obcold_reconstruct (C121): the order
    of the break dates and the dates that are too close do not matter, and the
    breaks of a result give the same result again. *)
From Verif Require Import Base SortModel LibModel LibProps ColdModel ColdSpec ColdLemmas ColdPass FrontModel FrontProps SparseProps ObModel ObProps ObPass.
Set Implicit Arguments.

(** ** One form for all outcomes of a call *)
Section Call.
Variables M D C : Type.
Variable K : okernel M D.
Variable conse : Z.
Variable fit : list (Z * Z) -> option C.
Variable saturated : C.
Hypothesis Hconse : 1 <= conse.
Notation call := (obcold_reconstruct K conse fit saturated).

(** The rows and dates a call is made for: dates of C ints, near the rows, and
    a clear row that is kept if there are 24 clear rows (C19; cold.c 5540-5592). *)
Definition usable (c2 : bool) (l : list raw) (breaks : list Z) : Prop :=
  Forall (fun d => d <= 2147483647) breaks /\ (qa_count [0; 1] l >= 24 -> clear_series c2 l <> []) /\
  (forall b d, In b breaks -> In d (map q_date l) -> Z.abs (d - b) < 9999999).

Lemma call_same : forall c2 snow junk l bs1 bs2 s1 s2, usable c2 l bs1 -> usable c2 l bs2 -> bs1 <> [] -> bs2 <> [] ->
  Permutation bs1 s1 -> StronglySorted Z.le s1 -> Permutation bs2 s2 -> StronglySorted Z.le s2 ->
  (clear_series c2 l <> [] -> asc (clear_series c2 l) ->
   rebuild K conse 0 (clear_series c2 l) (accepted 0 s1) = rebuild K conse 0 (clear_series c2 l) (accepted 0 s2) \/
   exists r1 r2, rebuild K conse 0 (clear_series c2 l) (accepted 0 s1) = Ok r1 /\ rebuild K conse 0 (clear_series c2 l) (accepted 0 s2) = Ok r2 /\
     r1 <> [] /\ r2 <> [] /\ reopened r1 = reopened r2) ->
  call c2 snow junk l bs1 = call c2 snow junk l bs2.
Proof.
  intros c2 snow junk l bs1 bs2 s1 s2 (Hb1 & Hx & Hn1) (Hb2 & _ & Hn2) Hne1 Hne2 Hp1 Hs1 Hp2 Hs2 Heq.
  unfold obcold_reconstruct. destruct l as [|q l'] eqn:El; [reflexivity|]. rewrite <- El in *.
  destruct bs1 as [|a1 t1] eqn:E1; [congruence|]. rewrite <- E1 in *. destruct bs2 as [|a2 t2] eqn:E2; [congruence|]. rewrite <- E2 in *.
  f_equal. unfold obcold. destruct (dates_sorted l) eqn:Ed; cbn [negb]; [|reflexivity].
  assert (Hu : ~ unsorted l) by (intros Hu; apply dates_sorted_false in Hu; congruence).
  destruct (preprocess_eq c2 l (mkCounts 0 0 0 0 0)) as [[_ E]|[_ E]]; rewrite E; cbn [bind]; [|reflexivity].
  assert (Hcl : n_clear (add_counts (mkCounts 0 0 0 0 0) l) = qa_count [0; 1] l) by (unfold add_counts; cbn [n_clear]; lia).
  rewrite Hcl. destruct (qa_count [0; 1] l <? 24) eqn:E24; [reflexivity|].
  specialize (Hx ltac:(lia)). destruct (clear_series_asc c2 Hu) as [Hasc Hdates]. specialize (Heq Hx Hasc).
  assert (Hone : forall bs s, bs <> [] -> Forall (fun d => d <= 2147483647) bs -> (forall b d, In b bs -> In d (map q_date l) -> Z.abs (d - b) < 9999999) ->
    Permutation bs s -> StronglySorted Z.le s -> exists s', quick_sort Z.ltb (length bs) bs 0 (zlen bs - 1) = Ok s' /\
    segments K conse (clear_series c2 l) 0 [] (pick_breaks 0 s') = rebuild K conse 0 (clear_series c2 l) (accepted 0 s)).
  { intros bs s Hne Hb Hn Hp Hs. destruct (C18_accepted Hne Hb) as (s' & Es & Hperm & Hss & _). exists s'. split; [exact Es|].
    assert (s' = s) as -> by (apply sorted_unique; [eapply Permutation_trans; [apply Permutation_sym; exact Hperm|exact Hp]|assumption|assumption]).
    rewrite accepted_code; [|lia|eapply Permutation_Forall; eassumption].
    apply C120_segments; try assumption; [apply accepted_sorted; assumption|].
    intros b d H1 H2. apply Hn; [|apply Hdates; exact H2]. apply accepted_in in H1. eapply Permutation_in; [apply Permutation_sym; exact Hp|exact H1]. }
  destruct (Hone bs1 s1 Hne1 Hb1 Hn1 Hp1 Hs1) as (u1 & Q1 & R1). destruct (Hone bs2 s2 Hne2 Hb2 Hn2 Hp2 Hs2) as (u2 & Q2 & R2).
  rewrite Q1, Q2. cbn [bind]. rewrite select_mixed. fold (clear_series c2 l). rewrite R1, R2.
  destruct Heq as [->|(r1 & r2 & -> & -> & N1 & N2 & Er)]; [reflexivity|]. cbn [bind].
  rewrite !reopened_code, Er. destruct r1; [congruence|]. destruct r2; [congruence|]. reflexivity.
Qed.

(** C121: the dates may be given in any order. *)
Theorem C121_order : forall c2 snow junk l bs1 bs2, usable c2 l bs1 -> Permutation bs1 bs2 -> call c2 snow junk l bs1 = call c2 snow junk l bs2.
Proof.
  intros c2 snow junk l bs1 bs2 Hu Hp. destruct bs1 as [|a t] eqn:E; [apply Permutation_nil in Hp; subst; reflexivity|]. rewrite <- E in *.
  assert (Hne : bs1 <> []) by congruence. assert (Hne2 : bs2 <> []) by (intros ->; apply Permutation_sym, Permutation_nil in Hp; congruence).
  destruct (C18_accepted Hne (proj1 Hu)) as (s & _ & Hs & Hss & _).
  apply (@call_same c2 snow junk l bs1 bs2 s s); try assumption.
  - destruct Hu as (H1 & H2 & H3). split; [eapply Permutation_Forall; eassumption|]. split; [exact H2|].
    intros b d Hb. apply H3. eapply Permutation_in; [apply Permutation_sym; exact Hp|exact Hb].
  - eapply Permutation_trans; [apply Permutation_sym; exact Hp|exact Hs].
  - intros _ _. now left.
Qed.

Lemma accepted_again : forall l last, accepted last (accepted last l) = accepted last l.
Proof.
  induction l as [|d t IH]; intros last; [reflexivity|]. cbn [accepted]. destruct (last + 366 <=? d) eqn:E; [|apply IH].
  cbn [accepted]. rewrite E. f_equal. apply IH.
Qed.
(** C121: dates that are not accepted can be left out. *)
Theorem C121_superfluous : forall c2 snow junk l bs, usable c2 l bs -> StronglySorted Z.le bs -> accepted 0 bs <> [] ->
  call c2 snow junk l (accepted 0 bs) = call c2 snow junk l bs.
Proof.
  intros c2 snow junk l bs Hu Hs Ha. apply (@call_same c2 snow junk l (accepted 0 bs) bs (accepted 0 bs) bs); auto.
  - destruct Hu as (H1 & H2 & H3). split; [|split; [exact H2|intros b d Hb; apply H3; eapply accepted_in; exact Hb]].
    rewrite Forall_forall in *. intros d Hd. apply H1. eapply accepted_in; exact Hd.
  - intros ->. apply Ha. reflexivity.
  - apply accepted_sorted; exact Hs.
  - intros _ _. left. rewrite accepted_again. reflexivity.
Qed.

(** ** The breaks of a result *)
Lemma nearest_self : forall l k, asc l -> (k < length l)%nat -> nearest (o_date (nth k l dflt_obs)) l = k.
Proof.
  intros l k Ha Hk. apply (@nearest_unique (map o_date l) (o_date (nth k l dflt_obs))).
  - apply nearest_first. intros ->. cbn in Hk. lia.
  - split; [rewrite map_length; exact Hk|]. rewrite nth_date. split; intros j Hj; rewrite nth_date; [lia|].
    assert (H : nth j (map o_date l) 0 < nth k (map o_date l) 0) by (apply ascending_nth; [exact Ha|exact Hj|rewrite map_length; exact Hk]).
    rewrite !nth_date in H. lia.
Qed.
Lemma hd_skipn : forall (l : list obs) k, hd dflt_obs (skipn k l) = nth k l dflt_obs.
Proof. induction l as [|a t IH]; intros [|k]; try reflexivity. cbn [skipn nth]. apply IH. Qed.
Lemma asc_skipn : forall l k, asc l -> asc (skipn k l).
Proof.
  intros l k. revert l. induction k as [|k IH]; intros l H; [exact H|]. destruct l as [|a t]; [exact H|]. cbn [skipn]. apply IH.
  unfold asc, ascending in *. cbn [map] in H. apply StronglySorted_inv in H. tauto.
Qed.
Lemma asc_parts : forall (a b : list obs) o p, asc (a ++ b) -> In o a -> In p b -> o_date o < o_date p.
Proof.
  induction a as [|x a IH]; intros b o p H Ho Hp; [contradiction|]. unfold asc, ascending in *. cbn [app map] in H. apply StronglySorted_inv in H.
  destruct H as [H Hf]. destruct Ho as [->|Ho]; [|eapply IH; eassumption]. rewrite Forall_forall in Hf. apply Hf. rewrite map_app. apply in_app_iff. right. apply in_map. exact Hp.
Qed.
(** The break dates among the t_break fields (output.h 14-49); 0 is none. *)
Definition cuts (rs : list (brec M D)) : list Z := filter (fun d => 0 <? d) (map (@b_break M D) rs).

Lemma rebuild_again : forall bs n rest rs, asc rest -> (forall o, In o rest -> 0 < o_date o) ->
  rebuild K conse n rest bs = Ok rs -> rebuild K conse n rest (cuts rs) = Ok rs.
Proof.
  induction bs as [|b t IH]; intros n rest rs Ha Hp H.
  - pose proof H as H0. cbn [rebuild] in H. destruct (zlen rest <? 6); [injection H as <-; exact H0|]. destruct (40 <=? n); [discriminate|].
    apply bind_ok in H. destruct H as (r & Hr & H). injection H as <-. unfold open_rec in Hr. apply bind_ok in Hr. destruct Hr as (m & _ & Hr).
    injection Hr as <-. exact H0.
  - cbn [rebuild] in H. set (k := nearest b rest) in *. destruct (zlen (firstn k rest) <? 6) eqn:E6; [apply IH; assumption|].
    apply bind_ok in H. destruct H as (o & Et & H). destruct o as [w|]; [|apply IH; assumption].
    destruct (40 <=? n) eqn:E40; [discriminate|]. apply bind_ok in H. destruct H as (r & Er & H). apply bind_ok in H. destruct H as (rs' & Ers & H).
    injection H as <-. assert (Hne : rest <> []) by (intros ->; cbn in E6; unfold k in E6; cbn in E6; discriminate).
    pose proof (nearest_lt b Hne) as Hk. fold k in Hk.
    assert (Hb : b_break r = o_date (nth k rest dflt_obs)).
    { pose proof Er as Er'. unfold closed_rec in Er'. apply bind_ok in Er'. destruct Er' as (m & _ & Er'). injection Er' as <-. cbn [b_break]. rewrite hd_skipn. reflexivity. }
    unfold cuts. cbn [map filter]. rewrite Hb. replace (0 <? o_date (nth k rest dflt_obs)) with true by (symmetry; apply Z.ltb_lt, Hp, nth_In; exact Hk).
    cbn [rebuild]. rewrite (nearest_self Ha Hk), E6, Et. cbn [bind]. rewrite E40, Er. cbn [bind].
    fold (cuts rs'). rewrite (IH (n + 1) (skipn k rest) rs'); [reflexivity|apply asc_skipn; exact Ha| |exact Ers].
    intros o Ho. apply Hp. rewrite <- (firstn_skipn k rest). apply in_app_iff. now right.
Qed.

(** Dates at least 366 days apart, from day 0 (the distance the call asks
    for, cold.c 5584-5592) *)
Fixpoint apart (last : Z) (l : list Z) : Prop := match l with [] => True | d :: t => last + 366 <= d /\ apart d t end.
Lemma apart_accepted : forall l last, apart last l -> accepted last l = l.
Proof. induction l as [|d t IH]; intros last H; [reflexivity|]. destruct H as [H1 H2]. cbn [accepted]. replace (last + 366 <=? d) with true by lia. f_equal. auto. Qed.
Lemma apart_sorted : forall l last, apart last l -> StronglySorted Z.le l /\ Forall (fun d => last <= d) l.
Proof.
  induction l as [|d t IH]; intros last H; [split; constructor|]. destruct H as [H1 H2]. destruct (IH d H2) as [I1 I2].
  split; [constructor; assumption|]. constructor; [lia|]. eapply Forall_impl; [|exact I2]. cbn. intros. lia.
Qed.

(** What the last record of the cutting tells about the end of the series *)
Lemma rebuild_end : forall bs n rest rs, asc rest -> (forall o, In o rest -> 0 < o_date o) -> rest <> [] ->
  rebuild K conse n rest bs = Ok rs -> forall t r, rs = t ++ [r] ->
  (b_break r = 0 /\ b_prob r = 0 /\ b_devs r = []) \/ b_end r < o_date (last rest dflt_obs).
Proof.
  induction bs as [|b t IH]; intros n rest rs Ha Hp Hne H t0 r Ers0; cbn [rebuild] in H.
  - destruct (zlen rest <? 6); [injection H as <-; destruct t0; discriminate|]. destruct (40 <=? n); [discriminate|].
    apply bind_ok in H. destruct H as (r' & Hr & H). injection H as <-. change [r'] with ([] ++ [r']) in Ers0. apply app_inj_tail in Ers0. destruct Ers0 as [_ ->].
    unfold open_rec in Hr. apply bind_ok in Hr. destruct Hr as (m & _ & Hr). injection Hr as <-. left. repeat split; reflexivity.
  - set (k := nearest b rest) in *. destruct (zlen (firstn k rest) <? 6) eqn:E6; [eapply IH; eassumption|].
    apply bind_ok in H. destruct H as (o & Et & H). destruct o as [w|]; [|eapply IH; eassumption].
    destruct (40 <=? n); [discriminate|]. apply bind_ok in H. destruct H as (r1 & Er & H). apply bind_ok in H. destruct H as (rs' & Ers & H).
    injection H as <-. pose proof (nearest_lt b Hne) as Hk. fold k in Hk.
    assert (Haf : skipn k rest <> []) by (intros E; apply (f_equal (@length obs)) in E; rewrite skipn_length in E; cbn in E; lia).
    assert (Hlast : last rest dflt_obs = last (skipn k rest) dflt_obs).
    { rewrite <- (firstn_skipn k rest) at 1. destruct (exists_last Haf) as (u & z & ->). rewrite app_assoc, !last_last. reflexivity. }
    destruct rs' as [|r2 rs2] eqn:E2.
    + change [r1] with ([] ++ [r1]) in Ers0. apply app_inj_tail in Ers0. destruct Ers0 as [_ ->]. right.
      unfold closed_rec in Er. apply bind_ok in Er. destruct Er as (m & _ & Er). injection Er as <-. cbn [b_end].
      destruct (@trim_six M D K (firstn k rest) w ltac:(lia) Et) as [H6 Hsub].
      assert (Hw : w <> []) by (intros ->; unfold zlen in H6; cbn in H6; lia).
      assert (Hin : In (last w dflt_obs) (firstn k rest)).
      { eapply subseq_In; [exact Hsub|]. destruct (exists_last Hw) as (u & z & ->). rewrite last_last. apply in_app_iff. right. now left. }
      rewrite Hlast. assert (Hin2 : In (last (skipn k rest) dflt_obs) (skipn k rest)).
      { destruct (exists_last Haf) as (u & z & ->). rewrite last_last. apply in_app_iff. right. now left. }
      apply (@asc_parts (firstn k rest) (skipn k rest)); [rewrite firstn_skipn; exact Ha|exact Hin|exact Hin2].
    + rewrite <- E2 in *. rewrite Hlast. destruct t0 as [|a t0']; [injection Ers0 as -> ->; discriminate|].
      injection Ers0 as -> Ers0. eapply IH with (rest := skipn k rest); try eassumption.
      * apply asc_skipn; exact Ha.
      * intros o Ho. apply Hp. rewrite <- (firstn_skipn k rest). apply in_app_iff. now right.
Qed.
Lemma rebuild_breaks : forall bs n rest rs, rest <> [] -> rebuild K conse n rest bs = Ok rs ->
  forall r, In r rs -> b_break r = 0 \/ In (b_break r) (map o_date rest).
Proof.
  induction bs as [|b t IH]; intros n rest rs Hne H r Hr; cbn [rebuild] in H.
  - destruct (zlen rest <? 6); [injection H as <-; contradiction|]. destruct (40 <=? n); [discriminate|].
    apply bind_ok in H. destruct H as (r' & Er & H). injection H as <-. destruct Hr as [<-|[]].
    unfold open_rec in Er. apply bind_ok in Er. destruct Er as (m & _ & Er). injection Er as <-. left. reflexivity.
  - set (k := nearest b rest) in *. destruct (zlen (firstn k rest) <? 6); [eapply IH; eassumption|].
    apply bind_ok in H. destruct H as (o & _ & H). destruct o as [w|]; [|eapply IH; eassumption].
    destruct (40 <=? n); [discriminate|]. apply bind_ok in H. destruct H as (r1 & Er & H). apply bind_ok in H. destruct H as (rs' & Ers & H).
    injection H as <-. pose proof (nearest_lt b Hne) as Hk. fold k in Hk. destruct Hr as [<-|Hr].
    + right. unfold closed_rec in Er. apply bind_ok in Er. destruct Er as (m & _ & Er). injection Er as <-. cbn [b_break]. rewrite hd_skipn. apply in_map, nth_In. exact Hk.
    + assert (Haf : skipn k rest <> []) by (intros E; apply (f_equal (@length obs)) in E; rewrite skipn_length in E; cbn in E; lia).
      destruct (IH (n + 1) (skipn k rest) rs' Haf Ers r Hr) as [H|H]; [now left|right]. rewrite <- (firstn_skipn k rest), map_app. apply in_app_iff. now right.
Qed.

(** C121: the breaks of a result, given as dates, return the same result, if
    they are 366 days apart and the last record ends with the last clear
    observation. *)
Theorem C121_again : forall c2 snow junk l bs rs, usable c2 l bs -> (forall d, In d (map q_date l) -> 0 < d < 9999999) ->
  call c2 snow junk l bs = Ok (ObSegments C rs) -> apart 0 (removelast (map (@b_break M D) rs)) ->
  (forall t r, rs = t ++ [r] -> b_end r = o_date (last (clear_series c2 l) dflt_obs)) ->
  call c2 snow junk l (map (@b_break M D) rs) = Ok (ObSegments C rs).
Proof.
  intros c2 snow junk l bs rs Hu Hpos H Hap Hend. pose proof Hu as (Hb & Hx & Hn).
  pose proof (@reconstruct_cases M D C K conse fit saturated c2 snow junk l bs Hconse Hb Hx Hn) as HC. rewrite H in HC. destruct HC as (Hus & Hasc & _).
  destruct (clear_series_asc c2 Hus) as [_ Hdates].
  assert (Hbn : bs <> []) by (intros ->; unfold obcold_reconstruct in H; destruct l; discriminate).
  destruct (C18_accepted Hbn Hb) as (s & _ & Hp & Hss & _).
  destruct (@C120_records M D C K conse fit saturated c2 snow junk l bs s rs Hconse Hb Hx Hn Hp Hss H) as (rs0 & R & Hr0 & Ers).
  assert (Hne : clear_series c2 l <> []).
  { intros E. rewrite E in R. clear - R Hr0. revert R. generalize (accepted 0 s). intros q. induction q as [|b q IH]; cbn [rebuild nearest firstn skipn]; intros R.
    - cbn in R. injection R as <-. congruence.
    - apply IH. exact R. }
  assert (Hpo : forall o, In o (clear_series c2 l) -> 0 < o_date o) by (intros o Ho; apply Hpos, Hdates, in_map; exact Ho).
  destruct (exists_last Hr0) as (t & r & Er). rewrite Er, reopened_snoc in Ers.
  pose proof (Hend _ _ Ers) as He. cbn [b_end] in He.
  destruct (@rebuild_end _ _ _ _ Hasc Hpo Hne R t r Er) as [(Hb0 & _)|Hlt]; [|lia].
  assert (Em : map (@b_break M D) rs = map (@b_break M D) t ++ [0]) by (rewrite Ers, map_app; reflexivity).
  rewrite Em in *. rewrite removelast_last in Hap. destruct (@apart_sorted _ _ Hap) as [Hso Hge].
  assert (Ec : cuts rs0 = map (@b_break M D) t).
  { unfold cuts. rewrite Er, map_app, filter_app. cbn [map filter]. rewrite Hb0. cbn [filter Z.ltb Z.compare]. rewrite app_nil_r.
    clear - Hap. revert Hap. generalize (map (@b_break M D) t). intros q. assert (H0 : 0 <= 0) by lia. revert H0. generalize 0 at 2 3. intros z Hz. revert z Hz.
    induction q as [|d q IH]; intros z Hz H; [reflexivity|]. destruct H as [H1 H2]. cbn [filter]. replace (0 <? d) with true by lia. f_equal. apply (IH d); [lia|exact H2]. }
  rewrite <- H. apply (@call_same c2 snow junk l (map (@b_break M D) t ++ [0]) bs (0 :: map (@b_break M D) t) s); try assumption.
  - assert (Hin : forall b, In b (map (@b_break M D) t ++ [0]) -> 0 <= b < 9999999).
    { intros b Hb'. apply in_app_iff in Hb'. destruct Hb' as [Hb'|[<-|[]]]; [|lia]. apply in_map_iff in Hb'. destruct Hb' as (r' & <- & Hr').
      destruct (@rebuild_breaks _ _ _ _ Hne R r') as [->|Hi]; [rewrite Er; apply in_app_iff; now left|lia|]. specialize (Hpos _ (Hdates _ Hi)). lia. }
    split; [apply Forall_forall; intros b Hb'; specialize (Hin b Hb'); lia|]. split; [exact Hx|].
    intros b d Hb' Hd. specialize (Hin b Hb'). specialize (Hpos d Hd). lia.
  - intros E. destruct (map (@b_break M D) t); discriminate.
  - apply Permutation_sym, Permutation_cons_append.
  - constructor; assumption.
  - intros _ _. left. change (accepted 0 (0 :: map (@b_break M D) t)) with (accepted 0 (map (@b_break M D) t)). rewrite (@apart_accepted _ _ Hap), <- Ec, R.
    apply rebuild_again with (bs := accepted 0 s); assumption.
Qed.
End Call.

(** t_break of the records returned (_colds_cython.pyx 222-284) *)
Definition breaks_of (r : out (ob_result Z Z (list (Z * Z)))) : list Z :=
  match r with Ok (ObSegments _ rs) => map (@b_break Z Z) rs | _ => [] end.
(** The run of ObProps: dates unordered, repeated and too close. *)
Example again_run : breaks_of (run_ob false no_junk (every 48 30 730 100) [1600; 1500; 0; 1100; 1100]) = [1090; 1510; 0] /\
  run_ob false no_junk (every 48 30 730 100) [1090; 1510; 0] = run_ob false no_junk (every 48 30 730 100) [1600; 1500; 0; 1100; 1100] /\
  run_ob false no_junk (every 48 30 730 100) [1100; 1500] = run_ob false no_junk (every 48 30 730 100) [1600; 1500; 0; 1100; 1100] /\
  apart 0 (removelast [1090; 1510; 0]).
Proof. vm_compute. repeat split; discriminate. Qed.
Example again_usable : usable true (every 48 30 730 100) [1600; 1500; 0; 1100; 1100] /\ (forall d, In d (map q_date (every 48 30 730 100)) -> 0 < d < 9999999).
Proof.
  destruct ob_premises_hold as (H1 & H2 & H3 & _). split; [split; [exact H1|split; assumption]|].
  assert (Hd : forall d, In d (map q_date (every 48 30 730 100)) -> 1 <= d <= 3000) by (apply Forall_forall; vm_compute; repeat constructor; discriminate).
  intros d H. specialize (Hd d H). lia.
Qed.
(** Without the distance of 366 days the breaks of a result can give another
    result: dates 366 days apart are moved to observations 360 days apart. *)
Theorem C121_again_refuted : exists l bs rs, usable true l bs /\ run_ob false no_junk l bs = Ok (ObSegments _ rs) /\
  (forall t r, rs = t ++ [r] -> b_end r = o_date (last (clear_series true l) dflt_obs)) /\
  run_ob false no_junk l (map (@b_break Z Z) rs) <> Ok (ObSegments _ rs).
Proof.
  destruct (run_ob false no_junk (every 48 30 730 100) [1110; 1476]) as [[rs|]| | |] eqn:E; vm_compute in E; try discriminate.
  injection E as <-. eexists (every 48 30 730 100), [1110; 1476], _. split; [|split; [vm_compute; reflexivity|split]].
  - destruct again_usable as ((_ & H & _) & Hd). split; [repeat constructor; lia|]. split; [exact H|].
    intros b d Hb Hi. specialize (Hd d Hi). destruct Hb as [<-|[<-|[]]]; lia.
  - intros t r Ht. apply (f_equal (fun q => b_end (last q (mkB 0 0 0 0 0 0 0 [] [])))) in Ht. rewrite last_last in Ht. rewrite <- Ht. vm_compute. reflexivity.
  - vm_compute. discriminate.
Qed.
Print Assumptions C121_order.
Print Assumptions C121_superfluous.
Print Assumptions C121_again.
Print Assumptions C121_again_refuted.
