(** Invariant proof for the COLD state machine. *)
From Verif Require Import Base ColdModel ColdSpec ColdLemmas.

Section Proof.
Variables M D : Type.
Variable K : kernel M D.
Variable P : params.
Variable x0 : list obs.
Variable cm0 : list (Z * Z).
Notation rec := (rec M D).
Notation st := (st M D).
Notation event := (event D).
Hypothesis Hconse : 1 <= p_conse P.
Hypothesis Hx : asc x0.

Definition cm_safe : Prop :=
  match p_cm P with
  | None => True
  | Some c => cm_int c <> 0 /\ (forall a m, k_cm K a m <> None) /\
              (forall d, In d (map o_date x0) -> 0 <= bucket c d < zlen cm0)
  end.
Definition span_safe : Prop :=
  forall a b, In a (map o_date x0) -> In b (map o_date x0) -> b - a < 14313.
Definition safe : Prop := span_safe /\ cm_safe.
Notation wp := (wp safe).

(* ------------------------------------------------------------------ *)
(** ** The change test *)

Lemma flt_fin : forall a b, flt (Fin a) (Fin b) = (a <? b). Proof. reflexivity. Qed.

Lemma min_scan_sound : forall w acc t,
  fgt (fold_left (fun m d => if fgt m (k_norm K d) then k_norm K d else m) w acc) (Fin t) = true ->
  fgt acc (Fin t) = true /\
  Forall (fun d => match k_norm K d with NaN => True | Fin z => t < z end) w.
Proof.
  induction w; intros acc t H; simpl in H; [split; [assumption|constructor]|].
  apply IHw in H. destruct H as [H1 H2].
  destruct (k_norm K a) as [|v] eqn:E.
  - assert (fgt acc NaN = false) by (destruct acc; reflexivity). 
    simpl in H1. split; [assumption|]. constructor; [rewrite E; exact I|assumption].
  - destruct acc as [|m].
    + simpl in H1. discriminate.
    + simpl in H1. destruct (v <? m) eqn:F; simpl in *.
      * split; [lia|]. constructor; [rewrite E; lia|assumption].
      * split; [assumption|]. constructor; [rewrite E; lia|assumption].
Qed.

Lemma min_scan_complete : forall w z t,
  t < z ->
  Forall (fun d => match k_norm K d with NaN => True | Fin z => t < z end) w ->
  fgt (fold_left (fun m d => if fgt m (k_norm K d) then k_norm K d else m) w (Fin z)) (Fin t) = true.
Proof.
  induction w; intros z t Hz H; simpl.
  - apply Z.ltb_lt. assumption.
  - inversion H; subst. destruct (k_norm K a) as [|v] eqn:E; simpl.
    + apply IHw; assumption.
    + destruct (v <? z) eqn:F; apply IHw; auto.
Qed.

Lemma min_mag_spec : forall w, exists z, min_mag K P w = Fin z /\ window_min K P w z.
Proof.
  intros w. unfold min_mag, window_min. generalize (p_cap P). induction w as [|a w IH]; intros c.
  - exists c. simpl. split; [reflexivity|]. split; [lia|]. split; [constructor|left; reflexivity].
  - simpl. destruct (k_norm K a) as [|v] eqn:E.
    + destruct (IH c) as (z & H1 & H2 & H3 & H4). exists z. split; [assumption|]. split; [assumption|].
      split; [constructor; [rewrite E; exact I|assumption]|].
      destruct H4 as [H4|(d & H4 & H5)]; [left; assumption|right; exists d; auto].
    + simpl. destruct (v <? c) eqn:F.
      * destruct (IH v) as (z & H1 & H2 & H3 & H4). exists z. split; [assumption|]. split; [lia|].
        split; [constructor; [rewrite E; lia|assumption]|]. right.
        destruct H4 as [H4|(d & H4 & H5)]; [subst z; exists a; auto|exists d; auto].
      * destruct (IH c) as (z & H1 & H2 & H3 & H4). exists z. split; [assumption|]. split; [assumption|].
        split; [constructor; [rewrite E; lia|assumption]|].
        destruct H4 as [H4|(d & H4 & H5)]; [left; assumption|right; exists d; auto].
Qed.

Lemma consistent_flt : forall w, flt (k_angle K w) (Fin (p_nsign P)) = true <-> consistent K P w.
Proof.
  intros w. unfold consistent. destruct (k_angle K w) as [|a]; simpl.
  - split; [discriminate|]. intros (z & H & _). discriminate.
  - split.
    + intros H. exists a. split; [reflexivity|lia].
    + intros (z & H & H'). inversion H; subst. lia.
Qed.

Lemma confirmed_sound : forall w, confirmed K P w = true ->
  Forall (anomalous K P) w /\ consistent K P w.
Proof.
  intros w H. unfold confirmed in H. apply andb_true_iff in H. destruct H as [H1 H2].
  split.
  - apply min_scan_sound in H1. apply H1.
  - apply consistent_flt. assumption.
Qed.

Lemma confirmed_iff : forall w, p_tcg P < p_cap P ->
  (confirmed K P w = true <-> Forall (anomalous K P) w /\ consistent K P w).
Proof.
  intros w Hcap. split; [apply confirmed_sound|].
  intros [H1 H2]. unfold confirmed. apply andb_true_iff. split.
  - apply min_scan_complete; assumption.
  - apply consistent_flt. assumption.
Qed.

(* ------------------------------------------------------------------ *)
(** ** CM bookkeeping *)

Definition CMok (cm : list (Z * Z)) (log : list event) : Prop :=
  length cm = length cm0 /\
  match p_cm P with
  | None => cm = cm0
  | Some c => forall n dd, 0 <= n < zlen cm0 ->
      cm_entry (nth (Z.to_nat n) cm0 dd) (cm_values c n log) (nth (Z.to_nat n) cm dd)
  end.

Definition LogOK (cm : list (Z * Z)) (log : list event) : Prop :=
  CMok cm log /\ Forall (decision_ok K P x0) log.

Lemma cm_update_wp : forall cm log d ds,
  In d (map o_date x0) -> LogOK cm log ->
  wp (cm_update K P cm log d ds)
     (fun p => LogOK (fst p) (snd p) /\ confirmed_dates (snd p) = confirmed_dates log).
Proof.
  intros cm log d ds Hd [[Hlen Hcm] Hdec]. unfold cm_update.
  destruct (p_cm P) as [c|] eqn:Ec.
  2:{ simpl. split; [|reflexivity]. split; [|assumption]. split; [assumption|]. rewrite Ec. assumption. }
  assert (Hs : safe -> cm_int c <> 0 /\ (forall a m, k_cm K a m <> None) /\
              (forall d, In d (map o_date x0) -> 0 <= bucket c d < zlen cm0)).
  { intros [_ H]. unfold cm_safe in H. rewrite Ec in H. assumption. }
  destruct (cm_int c =? 0) eqn:E0.
  { simpl. intros S. destruct (Hs S) as [H _]. lia. }
  destruct (k_cm K (k_angle K ds) (min_mag K P ds)) as [tmp0|] eqn:Ek.
  2:{ simpl. intros S. destruct (Hs S) as (_ & H & _). apply (H (k_angle K ds) (min_mag K P ds)). assumption. }
  set (tmp := if 32767 <? tmp0 then 32767 else tmp0).
  set (n := Z.quot (d - cm_start c) (cm_int c)).
  apply wp_bind.
  destruct (get cm n) as [[cv cd]| | |] eqn:Eg; simpl; auto.
  2:{ intros S. destruct (Hs S) as (_ & _ & H). specialize (H d Hd). unfold bucket in H. fold n in H.
      destruct (@get_total _ cm n) as [a Ha]; [unfold zlen in *; lia|congruence]. }
  2:{ unfold get in Eg. destruct (n <? 0); [discriminate|]. destruct (nth_error cm (Z.to_nat n)); discriminate. }
  apply get_inv in Eg. destruct Eg as [Hn Hnth].
  assert (Hn0 : 0 <= n < zlen cm0) by (unfold zlen in *; lia).
  assert (Hdec' : Forall (decision_ok K P x0) (EvCM d ds (wrap16 tmp) :: log)).
  { constructor; [|assumption]. simpl. split; [assumption|].
    destruct (min_mag_spec ds) as (z & Hz & Hm). exists z, tmp0. split; [assumption|]. rewrite <- Hz.
    split; [assumption|]. unfold tmp. destruct (32767 <? tmp0) eqn:Et; f_equal; lia. }
  destruct (cv <? wrap16 tmp) eqn:Elt.
  - apply wp_bind. set (e' := (wrap16 tmp, wrap16 (d - 723742))).
    pose proof (@put_ok _ cm n e' Hn) as Hput0.
    destruct (put cm n e') as [cm'| | |] eqn:Hput; try discriminate. clear Hput0.
    simpl. split; [|reflexivity]. split; [|exact Hdec'].
    split.
    + apply put_len in Hput. simpl. rewrite Hput. assumption.
    + rewrite Ec. intros n' dd Hn'.
      rewrite (@nth_put _ _ _ _ _ (Z.to_nat n') dd Hput).
      specialize (Hcm n' dd Hn'). simpl cm_values. unfold bucket. fold n.
      destruct (n =? n') eqn:En.
      * replace (Nat.eqb (Z.to_nat n') (Z.to_nat n)) with true by (symmetry; apply Nat.eqb_eq; lia).
        assert (n' = n) by lia. subst n'.
        assert (Hold : nth (Z.to_nat n) cm dd = (cv, cd)) by (apply nth_error_nth; assumption).
        rewrite Hold in Hcm. right.
        exists (cm_values c n log), d, []. simpl. split; [reflexivity|].
        destruct Hcm as [[Hi Hall]|(pre & d0 & post & Hvs & Hini & Hdate & Hpre & Hpost)].
        -- rewrite <- Hi in *. simpl in *. split; [lia|]. split; [reflexivity|].
           split; [|constructor]. eapply Forall_impl; [|exact Hall]. simpl. intros; lia.
        -- simpl in *. split; [lia|]. split; [reflexivity|]. split; [|constructor].
           rewrite Hvs. apply Forall_app. split.
           ++ eapply Forall_impl; [|exact Hpre]. simpl; intros; lia.
           ++ constructor; [simpl; lia|]. eapply Forall_impl; [|exact Hpost]. simpl; intros; lia.
      * replace (Nat.eqb (Z.to_nat n') (Z.to_nat n)) with false by (symmetry; apply Nat.eqb_neq; lia).
        exact Hcm.
  - simpl. split; [|reflexivity]. split; [|exact Hdec']. split; [assumption|]. rewrite Ec.
    intros n' dd Hn'. specialize (Hcm n' dd Hn'). simpl cm_values. unfold bucket. fold n.
    destruct (n =? n') eqn:En; [|exact Hcm].
    assert (n' = n) by lia. subst n'.
    assert (Hold : nth (Z.to_nat n) cm dd = (cv, cd)) by (apply nth_error_nth; assumption).
    rewrite Hold in *. simpl in *.
    destruct Hcm as [[Hi Hall]|(pre & d0 & post & Hvs & Hini & Hdate & Hpre & Hpost)].
    + left. split; [assumption|]. rewrite <- Hi in *. apply Forall_app. split; [assumption|].
      constructor; [simpl; lia|constructor].
    + right. exists pre, d0, (post ++ [(d, wrap16 tmp)]). rewrite Hvs. rewrite <- app_assoc. simpl in *.
      split; [reflexivity|]. split; [lia|]. split; [assumption|]. split; [assumption|].
      apply Forall_app. split; [assumption|]. constructor; [simpl; lia|constructor].
Qed.

Lemma LogOK_cons : forall cm log ev, (forall d w v, ev <> EvCM d w v) -> decision_ok K P x0 ev ->
  LogOK cm log -> LogOK cm (ev :: log).
Proof.
  intros cm log ev Hev Hd [[H1 H2] H3]. split; [|constructor; assumption].
  split; [assumption|]. destruct (p_cm P); [|assumption].
  intros n dd Hn. specialize (H2 n dd Hn). destruct ev; simpl; try assumption.
  exfalso. eapply Hev. reflexivity.
Qed.

(* ------------------------------------------------------------------ *)
(** ** Records *)

Definition lastB (rs : list rec) (b : Z) : Prop :=
  forall l r, rs = l ++ [r] -> t_break r <= b.

Lemma lastB_mono : forall rs b b', lastB rs b -> b <= b' -> lastB rs b'.
Proof. intros rs b b' H Hb l r E. specialize (H l r E). lia. Qed.

Lemma lastB_nil : forall b, lastB [] b.
Proof. intros b l r E. destruct l; discriminate. Qed.

Lemma chained_app : forall (l : list rec) r, chained l -> lastB l (t_start r) -> chained (l ++ [r]).
Proof.
  induction l as [|a l IH]; intros r Hc Hb; [exact I|].
  destruct l as [|b l'].
  - simpl. split; [|exact I]. apply (Hb [] a). reflexivity.
  - cbn [app chained]. destruct Hc as [Hab Hc]. split; [assumption|].
    apply IH; [assumption|]. intros l0 r0 E. apply (Hb (a :: l0) r0). simpl. rewrite E. reflexivity.
Qed.

Lemma closed_list_app : forall l r, closed_list K P l -> closed_regular K P r -> closed_list K P (l ++ [r]).
Proof.
  intros [|a l] r H Hr; simpl in *.
  - split; [left; assumption|constructor].
  - destruct H as [H1 H2]. split; [assumption|]. apply Forall_app. split; [assumption|]. constructor; auto.
Qed.

(** A chain of n closed records occupies at least 367*(n-1) days. *)
Lemma chain_days : forall (rs : list rec), chained rs -> Forall (closed_regular K P) rs ->
  forall a rl l, rs = a :: rl -> (rs = l ++ [last rs a]) ->
  t_start a + 367 * zlen rs <= t_break (last rs a).
Proof.
  induction rs as [|a rs IH]; intros Hc Hf a0 rl l E El; [discriminate|].
  inversion E; subst a0 rl. clear E El.
  inversion Hf as [|? ? Ha Hf']; subst.
  destruct Ha as ((_ & _ & Hspan) & _ & Hbr & _).
  destruct rs as [|b rs'].
  - simpl. unfold zlen. simpl. lia.
  - destruct Hc as [Hab Hc].
    specialize (IH Hc Hf' b rs' (removelast (b :: rs'))). rewrite zlen_cons.
    assert (Hlast : last (a :: b :: rs') a = last (b :: rs') b).
    { clear. simpl. revert b. induction rs'; intros; [reflexivity|]. destruct rs'; [reflexivity|]. apply IHrs'. }
    rewrite Hlast.
    assert (t_start b + 367 * zlen (b :: rs') <= t_break (last (b :: rs') b)).
    { apply IH; [reflexivity|]. apply app_removelast_last. discriminate. }
    lia.
Qed.

Lemma closed_count : forall (rs : list rec) lo hi,
  chained rs -> closed_list K P rs ->
  Forall (fun r => lo <= t_start r) rs ->
  lastB rs hi -> rs <> [] -> lo + 367 * (zlen rs - 1) <= hi.
Proof.
  intros rs lo hi Hc Hcl Hlo Hb Hne.
  destruct rs as [|a rs]; [contradiction|].
  destruct Hcl as [Ha Hf]. rewrite zlen_cons.
  destruct rs as [|b rs'].
  - specialize (Hb [] a eq_refl). inversion Hlo; subst.
    assert (t_start a <= t_break a).
    { destruct Ha as [((_ & _ & H) & _ & H' & _)|(_ & _ & H & _)]; lia. }
    unfold zlen; simpl; lia.
  - destruct Hc as [Hab Hc].
    assert (Hl : b :: rs' = removelast (b :: rs') ++ [last (b :: rs') b]) by (apply app_removelast_last; discriminate).
    pose proof (@chain_days (b :: rs') Hc Hf b rs' (removelast (b :: rs')) eq_refl Hl) as Hd.
    specialize (Hb (a :: removelast (b :: rs')) (last (b :: rs') b)).
    assert (E : a :: b :: rs' = (a :: removelast (b :: rs')) ++ [last (b :: rs') b]).
    { cbn [app]. rewrite <- Hl. reflexivity. }
    specialize (Hb E). inversion Hlo; subst.
    assert (t_start a <= t_break a).
    { destruct Ha as [((_ & _ & H) & _ & H' & _)|(_ & _ & H & _)]; lia. }
    lia.
Qed.

Lemma last_app1 : forall A (l : list A) a d, last (l ++ [a]) d = a.
Proof. induction l; intros; [reflexivity|]. simpl. destruct (l ++ [a0]) eqn:E; [destruct l; discriminate|]. rewrite <- E. apply IHl. Qed.

Lemma lastB_app : forall rs (r : rec) b, t_break r <= b -> lastB (rs ++ [r]) b.
Proof.
  intros rs r b H l r' E. apply app_inj_tail in E. destruct E as [_ ->]. assumption.
Qed.

Lemma push_wp : forall rs (r : rec) (Q : list rec -> Prop),
  chained (rs ++ [r]) -> closed_list K P (rs ++ [r]) -> Forall (from_series x0) (rs ++ [r]) ->
  In (t_break r) (map o_date x0) -> Q (rs ++ [r]) -> wp (push_rec rs r) Q.
Proof.
  intros rs r Q Hc Hcl Hf Hb HQ. unfold push_rec.
  destruct (40 <=? zlen rs + 1) eqn:E; [|exact HQ].
  intros [Hs _]. 
  assert (Hex : exists lo, In lo (map o_date x0) /\ forall d, In d (map o_date x0) -> lo <= d).
  { clear - Hb Hx. unfold asc, ascending in Hx. destruct (map o_date x0) as [|lo t]; [contradiction|].
    exists lo. split; [left; reflexivity|]. intros d [->|Hd]; [lia|].
    inversion Hx; subst. rewrite Forall_forall in H2. specialize (H2 d Hd). lia. }
  destruct Hex as (lo & Hin & Hlo).
  assert (Hcount : lo + 367 * (zlen (rs ++ [r]) - 1) <= t_break r).
  { apply closed_count; auto.
    - eapply Forall_impl; [|exact Hf]. intros r' (H1 & _). apply Hlo. assumption.
    - apply lastB_app. lia.
    - destruct rs; discriminate. }
  rewrite zlen_app in Hcount. change (zlen [r]) with 1 in Hcount.
  specialize (Hs lo (t_break r) Hin Hb). lia.
Qed.

(* ------------------------------------------------------------------ *)
(** ** The loop invariant *)

Record Core (s : st) : Prop := mkCore {
  c_sub : subseq (s_live s) x0;
  c_start : 1 <= s_start s <= s_i s;
  c_dense : s_recs s = [] -> 1 <= s_dense s <= s_start s;
  c_chain : chained (s_recs s);
  c_closed : closed_list K P (s_recs s);
  c_from : Forall (from_series x0) (s_recs s);
  c_last : lastB (s_recs s) (dat (s_live s) (s_start s - 1));
  c_log : LogOK (s_cm s) (s_log s);
  c_conf : confirmed_dates (s_log s) = regular_breaks (s_recs s)
}.

(** Facts about the model under monitoring that hold before and after the
    window is advanced. *)
Record Model (s : st) : Prop := mkModel {
  m_span : s_start s + 11 <= s_i s;
  m_time : dat (s_live s) (s_start s - 1) + 366 <= dat (s_live s) (s_i s - 1);
  m_rec : exists r m, s_cur s = Some r /\ s_fit s = Some m /\
    t_start r = dat (s_live s) (s_start s - 1) /\
    t_break r = 0 /\ change_prob r = 0 /\ r_devs r = [] /\
    num_obs r = s_oldlen s /\
    r_win r = firstn (Z.to_nat (s_oldlen s)) (skipn (Z.to_nat (s_start s - 1)) (s_live s)) /\
    category r = update_cft (s_oldlen s);
  m_old : 12 <= s_oldlen s <= s_i s - s_start s + 1
}.

(** At the head of the loop: the window except its first entry already
    belongs to the coming position. *)
Record Trained (s : st) : Prop := mkTrained {
  tr_model : Model s;
  tr_len : zlen (s_win s) = p_conse P;
  tr_tail : map fst (tl (s_win s)) =
            firstn (Z.to_nat (p_conse P - 1)) (skipn (Z.to_nat (s_i s)) (s_live s));
  tr_no : confirmed K P (map snd (s_win s)) = false;
  tr_count : 0 < s_count s
}.

Definition Inv (s : st) : Prop :=
  Core s /\ (s_train s = true -> Trained s) /\
  (s_i s <= s_end s - p_conse P + 1 \/ (s_i s = 12 /\ s_start s = 1 /\ s_recs s = [] /\ s_train s = false)).

(** Progress made by one iteration. *)
Definition Prog (s s' : st) : Prop :=
  Inv s' /\ s_end s' - s_i s' < s_end s - s_i s /\ s_i s' <= s_end s' - p_conse P + 1.

Ltac ss := cbn [s_live s_stale s_i s_start s_dense s_train s_count s_preend s_oldlen s_skip
                s_fit s_win s_cur s_recs s_cm s_log fst snd] in *.

(** State after the look-back loop. *)
Record LBpost (s s' : st) (i_break : Z) (w : list (obs * D)) : Prop := mkLB {
  lb_sub : subseq (s_live s') (s_live s);
  lb_same : s_dense s' = s_dense s /\ s_train s' = s_train s /\ s_count s' = s_count s /\
            s_recs s' = s_recs s /\ s_skip s' = s_skip s;
  lb_i : s_end s' - s_i s' = s_end s - s_i s;
  lb_start : i_break <= s_start s' <= s_start s;
  lb_span : s_start s' + 11 <= s_i s';
  lb_time : dat (s_live s') (s_start s' - 1) + 366 <= dat (s_live s') (s_i s' - 1);
  lb_log : LogOK (s_cm s') (s_log s');
  lb_conf : confirmed_dates (s_log s') = confirmed_dates (s_log s);
  lb_w : i_break < s_start s' ->
     confirmed K P (map snd w) = true /\
     zlen w = Z.min (p_conse P) (s_start s' - i_break) /\
     exists o e t, w = (o, e) :: t /\ o = nthO (s_live s') (s_start s' - 2)
}.

Lemma In_dat_sub : forall l k, subseq l x0 -> 0 <= k < zlen l -> In (dat l k) (map o_date x0).
Proof.
  intros l k H Hk. eapply subseq_In; [apply subseq_map; exact H|]. apply In_dat. assumption.
Qed.

Lemma lookback_wp : forall n m i_break w0 s,
  1 <= i_break -> s_start s = i_break + Z.of_nat n ->
  subseq (s_live s) x0 ->
  s_start s + 11 <= s_i s -> s_i s <= s_end s - p_conse P ->
  dat (s_live s) (s_start s - 1) + 366 <= dat (s_live s) (s_i s - 1) ->
  LogOK (s_cm s) (s_log s) ->
  wp (lookback K P n m i_break w0 s) (fun p => LBpost s (fst p) i_break (snd p)).
Proof.
  induction n; intros m i_break w0 s Hb Hst Hsub Hsp Hi Ht Hlog.
  { simpl. constructor; simpl; auto; try lia. apply subseq_refl. }
  cbn [lookback].
  set (i_ini := i_break - 1 + Z.of_nat n).
  assert (Hini : i_ini = s_start s - 2) by (unfold i_ini; lia).
  set (ini_conse := if i_ini - (i_break - 1) + 1 <? p_conse P then i_ini - (i_break - 1) + 1 else p_conse P).
  assert (Hic : ini_conse = Z.min (p_conse P) (Z.of_nat n + 1)).
  { unfold ini_conse, i_ini. destruct (_ <? _) eqn:E; lia. }
  destruct (ini_conse =? 0) eqn:E0; [exact I|].
  unfold s_end in *.
  assert (Hasc : asc (s_live s)) by (eapply asc_sub; eassumption).
  apply wp_bind. apply wp_mapM_idx.
  { intros c Hc. unfold i_ini. lia. }
  set (os := map (fun c : nat => nthO (s_live s) (i_ini - (Z.of_nat c + 1) + 1)) (seq 0 (Z.to_nat ini_conse))).
  set (w := map (fun o => (o, k_dev K m 4 o)) os).
  apply wp_bind.
  apply wp_mono with (Q := fun p => LogOK (fst p) (snd p) /\ confirmed_dates (snd p) = confirmed_dates (s_log s)).
  { destruct (p_conse P <=? ini_conse) eqn:Ecm.
    - apply wp_bind. apply wp_get; [lia|]. apply cm_update_wp; [|assumption].
      change (o_date (nthO (s_live s) (i_ini + 1))) with (dat (s_live s) (i_ini + 1)).
      apply In_dat_sub; [assumption|lia].
    - simpl. auto. }
  intros [cm' log'] [Hlog' Hconf']. simpl in Hlog', Hconf'.
  apply wp_bind. apply wp_get; [lia|].
  set (v := confirmed K P (map snd w)).
  assert (Hlog2 : LogOK cm' (EvLook (o_date (nthO (s_live s) i_ini)) w v :: log')).
  { apply LogOK_cons; [intros; discriminate| |assumption].
    simpl. intros Hcap. apply confirmed_iff. assumption. }
  destruct v eqn:Ev.
  - (* break found *)
    simpl. constructor; ss; unfold s_end; ss; auto; try lia.
    + apply subseq_refl.
    + intros _. split; [exact Ev|].
      assert (Hlw : zlen w = ini_conse).
      { unfold w, os. rewrite !zlen_map. unfold zlen. rewrite seq_length. lia. }
      split; [lia|].
      unfold w, os. destruct (Z.to_nat ini_conse) eqn:En; [lia|].
      cbn [seq map]. eexists _, _, _. split; [reflexivity|]. f_equal. lia.
  - set (post := if outlier0 K P (map snd w) then _ else _).
    assert (Hpost : post = (s_live s, s_stale s, s_i s) \/
                    post = (del (Z.to_nat i_ini) (s_live s),
                            skipn (length (del (Z.to_nat i_ini) (s_live s))) (s_live s) ++ s_stale s, s_i s - 1)).
    { unfold post. destruct (outlier0 K P (map snd w)); [right|left]; reflexivity. }
    destruct Hpost as [Hpost | Hpost]; rewrite Hpost.
    + eapply wp_mono; [apply IHn; ss; auto; try lia|].
      * replace (i_ini + 1 - 1) with (s_start s - 2) by lia.
        pose proof (@dat_lt (s_live s) (s_start s - 2) (s_start s - 1) Hasc). lia.
      * intros [s' w'] HLB. destruct HLB; ss. unfold s_end in *; ss.
        cbn [confirmed_dates] in *. constructor; ss; auto; try lia. congruence.
    + assert (Hdl : zlen (del (Z.to_nat i_ini) (s_live s)) = zlen (s_live s) - 1) by (apply zlen_del; lia).
      eapply wp_mono; [apply IHn; ss; auto; try lia|].
      * eapply subseq_trans; [apply subseq_del|assumption].
      * unfold dat. rewrite !nthO_del by lia.
        replace (i_ini + 1 - 1 <? i_ini) with false by lia.
        replace (s_i s - 1 - 1 <? i_ini) with false by lia.
        replace (i_ini + 1 - 1 + 1) with (s_start s - 1) by lia.
        replace (s_i s - 1 - 1 + 1) with (s_i s - 1) by lia. exact Ht.
      * intros [s' w'] HLB. destruct HLB; ss. unfold s_end in *; ss.
        cbn [confirmed_dates] in *. constructor; ss; auto; try lia; try congruence.
        -- eapply subseq_trans; [eassumption|apply subseq_del].
        -- unfold s_end. lia.
Qed.

(* ------------------------------------------------------------------ *)
(** ** Initialisation *)

Record Ready (s s' : st) : Prop := mkReady {
  rd_core : Core s';
  rd_train : s_train s' = true;
  rd_count : s_count s' = 0;
  rd_span : s_start s' + 11 <= s_i s';
  rd_time : dat (s_live s') (s_start s' - 1) + 366 <= dat (s_live s') (s_i s' - 1);
  rd_i : s_i s' <= s_end s' - p_conse P;
  rd_meas : s_end s' - s_i s' = s_end s - s_i s
}.

Lemma rev_last : forall (l : list rec) r t, rev l = r :: t -> l = rev t ++ [r].
Proof. intros l r t H. rewrite <- (rev_involutive l), H. reflexivity. Qed.

Lemma initialise_wp : forall s, Core s -> s_train s = false ->
  s_i s <= s_end s - p_conse P -> s_start s + 11 <= s_i s ->
  dat (s_live s) (s_start s - 1) + 366 <= dat (s_live s) (s_i s - 1) ->
  wp (initialise K P s) (fun p => if snd p then Ready s (fst p) else Prog s (fst p)).
Proof.
  intros s HC Htr Hi Hsp Ht. unfold initialise.
  destruct HC as [Hsub Hstart Hdense Hchain Hclosed Hfrom Hlast Hlog Hconf].
  unfold s_end in *.
  assert (Hasc : asc (s_live s)) by (eapply asc_sub; eassumption).
  apply wp_bind. apply wp_slice; [lia|lia|lia|].
  set (w := firstn (Z.to_nat (s_i s - s_start s + 1)) (skipn (Z.to_nat (s_start s - 1)) (s_live s))).
  destruct (p_gap P <? max_gap w) eqn:Egap.
  { (* gap too long *)
    simpl. unfold Prog, Inv. ss. unfold s_end; ss. split; [|lia]. split; [|split; [congruence|left; lia]].
    constructor; ss; auto; try lia.
    eapply lastB_mono; [eassumption|]. apply dat_le; [assumption|lia|lia]. }
  apply wp_bind. apply wp_slice; [lia|lia|lia|].
  apply wp_bind. apply wp_of_opt. intros flags _.
  set (w' := keep_from flags 0 w).
  assert (Hw' : subseq w' w) by apply keep_sub.
  assert (Hwl : zlen w = s_i s - s_start s + 1).
  { unfold w. rewrite zlen_firstn; [reflexivity|]. rewrite zlen_skipn by lia. lia. }
  assert (Hspan' : zlen w' <= zlen w).
  { apply subseq_length in Hw'. unfold zlen. lia. }
  assert (HstayC : forall live' stale', live' = s_live s ->
     Prog s (mkSt live' stale' (s_i s + 1) (s_start s) (s_dense s) (s_train s)
          (s_count s) (s_preend s) (s_oldlen s) (s_skip s) (s_fit s) (s_win s)
          (s_cur s) (s_recs s) (s_cm s) (s_log s))).
  { intros live' stale' ->. unfold Prog, Inv. ss. unfold s_end; ss. split; [|lia].
    split; [|split; [congruence|left; lia]]. constructor; ss; auto; lia. }
  destruct (zlen w' <? 12) eqn:E12; [simpl; apply HstayC; reflexivity|].
  set (cp := firstn (Z.to_nat (s_start s - 1)) (s_live s) ++ w' ++ skipn (Z.to_nat (s_i s)) (s_live s)).
  assert (Hcpl : zlen cp = s_start s - 1 + zlen w' + (zlen (s_live s) - s_i s)).
  { unfold cp. rewrite !zlen_app, zlen_firstn, zlen_skipn by lia. lia. }
  assert (Hcps : subseq cp (s_live s)).
  { unfold cp. replace (Z.to_nat (s_i s)) with (Z.to_nat (s_start s - 1) + Z.to_nat (s_i s - s_start s + 1))%nat by lia.
    apply subseq_mid. exact Hw'. }
  assert (Hcpa : asc cp) by (eapply asc_sub; eassumption).
  set (i' := s_start s + zlen w' - 1).
  apply wp_bind. apply wp_get; [lia|]. apply wp_bind. apply wp_get; [lia|].
  fold (dat cp (i' - 1)). fold (dat cp (s_start s - 1)).
  destruct (dat cp (i' - 1) - dat cp (s_start s - 1) <? 366) eqn:Ets; [simpl; apply HstayC; reflexivity|].
  apply wp_bind. apply wp_slice; [lia|lia|lia|].
  set (wf := firstn _ _).
  apply wp_bind. apply wp_of_opt. intros m _.
  assert (Hcps0 : subseq cp x0) by (eapply subseq_trans; eassumption).
  assert (Hlast' : lastB (s_recs s) (dat cp (s_start s - 1))).
  { eapply lastB_mono; [eassumption|]. apply dat_sub_ge; auto. lia. }
  destruct (fgt (k_stab K m wf) (Fin (p_tcg P))) eqn:Estab.
  { simpl. unfold Prog, Inv. ss. unfold s_end; ss. split; [|lia].
    split; [|split; [congruence|left; lia]]. constructor; ss; auto; try lia.
    eapply lastB_mono; [exact Hlast'|]. apply dat_le; [assumption|lia|lia]. }
  apply wp_bind.
  apply wp_mono with (Q := fun b => 1 <= b <= s_start s /\ (s_recs s = [] -> b = s_dense s) /\
                                     lastB (s_recs s) (dat cp (b - 1))).
  { destruct (rev (s_recs s)) as [|r t] eqn:Er.
    - simpl. assert (s_recs s = []) by (destruct (s_recs s); [reflexivity|simpl in Er; destruct (rev l); discriminate]).
      split; [apply Hdense; assumption|]. split; [auto|]. rewrite H. apply lastB_nil.
    - apply rev_last in Er.
      destruct (@first_ge_le (t_break r) cp 0 (s_start s - 1)) as (j & Hj & Hle); [lia| |].
      { apply (Hlast' (rev t) r Er). }
      rewrite Hj. simpl. apply first_ge_spec in Hj. destruct Hj as (Hj1 & Hj2 & _).
      split; [lia|]. split; [rewrite Er; intros Hn; destruct (rev t); discriminate|].
      rewrite Er. apply lastB_app. replace (j - 1) with (j - 0 - 1) by lia. assumption. }
  intros i_break (Hib & Hibd & Hibl).
  set (s1 := mkSt cp _ i' _ _ true 0 _ _ _ _ _ _ _ _ _).
  apply wp_bind.
  eapply wp_mono.
  { apply lookback_wp with (s := s1); unfold s1; ss; auto; try lia. unfold s_end; ss. lia. }
  intros [s2 lw] HLB. simpl in HLB. simpl.
  destruct HLB as [L1 L2 L3 L4 L5 L6 L7 L8 L9]. unfold s1 in *. ss. unfold s_end in *. ss.
  destruct L2 as (Ld & Ltr & Lc & Lr & Lsk).
  assert (Hs2 : subseq (s_live s2) x0) by (eapply subseq_trans; eassumption).
  assert (Ha2 : asc (s_live s2)) by (eapply asc_sub; eassumption).
  assert (Hl2 : lastB (s_recs s2) (dat (s_live s2) (s_start s2 - 1))).
  { rewrite Lr. eapply lastB_mono; [exact Hibl|].
    etransitivity; [apply dat_sub_ge with (l1 := s_live s2); auto; lia|].
    apply dat_le; [assumption|lia|lia]. }
  assert (Hcore2 : Core s2).
  { constructor; auto; try lia; try (rewrite Lr; assumption).
    - rewrite Lr. intros Hn. specialize (Hibd Hn). specialize (Hdense Hn). lia.
    - rewrite L8, Lr. assumption. }
  destruct (s_recs s2) as [|r0 rs0] eqn:Er2.
  2:{ simpl. constructor; auto; unfold s_end; try lia. }
  destruct (6 <=? s_start s2 - s_dense s2) eqn:E6.
  2:{ simpl. constructor; auto; unfold s_end; try lia. }
  symmetry in Lr. specialize (Hibd Lr). specialize (Hdense Lr).
  apply wp_bind. apply wp_slice; [lia|lia|lia|].
  set (w2 := firstn _ _).
  apply wp_bind. apply wp_of_opt. intros m2 _.
  apply wp_bind. apply wp_get; [lia|]. apply wp_bind. apply wp_get; [lia|].
  apply wp_bind. apply wp_get; [lia|].
  fold (dat (s_live s2) (s_start s2 - 2)). fold (dat (s_live s2) (s_start s2 - 1)).
  fold (dat (s_live s2) (s_dense s2 - 1)).
  set (r := mkRec _ _ _ _ _ _ _ _ _).
  assert (Hw2 : zlen w2 = s_start s2 - s_dense s2).
  { unfold w2. rewrite zlen_firstn; [reflexivity|]. rewrite zlen_skipn by lia. lia. }
  assert (Hr : closed_initial K P r).
  { unfold closed_initial, r; cbn [category change_prob t_start t_end t_break r_win num_obs r_devs].
    destruct L9 as (Lconf & Llen & o & e & t & Lw & Lo); [lia|].
    pose proof (@confirmed_sound _ Lconf) as [Hs1 Hs2'].
    split; [reflexivity|]. split; [reflexivity|]. split.
    { split; [apply dat_le; [assumption|lia|lia]|apply dat_lt; [assumption|lia|lia]]. }
    split; [lia|]. split; [lia|]. split; [rewrite Llen; f_equal; lia|].
    split; [|split; assumption].
    exists o, e, t. split; [assumption|]. rewrite Lo. reflexivity. }
  assert (Hfr : from_series x0 r).
  { unfold from_series, r; cbn [category change_prob t_start t_end t_break r_win num_obs r_devs].
    split; [apply In_dat_sub; [assumption|lia]|]. split; [apply In_dat_sub; [assumption|lia]|].
    split; [right; apply In_dat_sub; [assumption|lia]|].
    eapply subseq_trans; [apply subseq_firstn|]. eapply subseq_trans; [apply subseq_skipn|]. assumption. }
  simpl. constructor; ss; auto; unfold s_end; ss; try lia.
    constructor; ss; auto; try lia; try discriminate.
    + exact I.
    + simpl. split; [right; exact Hr|constructor].
    + apply (@lastB_app [] r). unfold r; cbn [t_break]. lia.
    + rewrite L8, Hconf, Lr. reflexivity.
Qed.

(* ------------------------------------------------------------------ *)
(** ** Monitoring *)

Lemma best_update : forall n, 12 <= n -> best_num_c n (update_cft n).
Proof.
  intros n H. unfold best_num_c, update_cft.
  destruct (n <? 18) eqn:E1; [lia|]. destruct (n <? 24) eqn:E2; lia.
Qed.

Lemma update_cft_3 : forall n, 12 <= n -> 3 * update_cft n <= n.
Proof.
  intros n H. unfold update_cft.
  destruct (n <? 18) eqn:E1; [lia|]. destruct (n <? 24) eqn:E2; lia.
Qed.

Lemma skipn_del : forall A (l : list A) k, (k < length l)%nat -> skipn k (del k l) = skipn (S k) l.
Proof.
  intros A l k H. unfold del. rewrite skipn_app. rewrite firstn_length.
  replace (Nat.min k (length l)) with k by lia. rewrite Nat.sub_diag.
  rewrite skipn_all2 by (rewrite firstn_length; lia). reflexivity.
Qed.

Lemma firstn_skipn_del : forall A (l : list A) k a n, (k < length l)%nat -> (a + n <= k)%nat ->
  firstn n (skipn a (del k l)) = firstn n (skipn a l).
Proof.
  intros A l k a n Hk Ha. unfold del.
  rewrite skipn_app, firstn_app, skipn_length, firstn_length.
  replace (n - (Nat.min k (length l) - a))%nat with 0%nat by lia.
  rewrite firstn_O, app_nil_r.
  rewrite <- (firstn_skipn k l) at 2. rewrite skipn_app, firstn_app, skipn_length, firstn_length.
  replace (n - (Nat.min k (length l) - a))%nat with 0%nat by lia.
  rewrite firstn_O, app_nil_r. reflexivity.
Qed.

Lemma firstn_S_snoc : forall (l : list obs) i n, 0 <= i -> 0 <= n -> i + n < zlen l ->
  firstn (Z.to_nat (n + 1)) (skipn (Z.to_nat i) l) =
  firstn (Z.to_nat n) (skipn (Z.to_nat i) l) ++ [nthO l (i + n)].
Proof.
  intros l i n Hi Hn Hl.
  replace (nthO l (i + n)) with (nthO (skipn (Z.to_nat i) l) n) by (apply nthO_skipn; lia).
  assert (Hlen : (Z.to_nat n < length (skipn (Z.to_nat i) l))%nat).
  { rewrite skipn_length. unfold zlen in Hl. lia. }
  generalize dependent (skipn (Z.to_nat i) l). intros t Ht. unfold nthO.
  replace (Z.to_nat (n + 1)) with (S (Z.to_nat n)) by lia.
  revert Ht. generalize (Z.to_nat n). clear. intros k. revert k.
  induction t; intros k Hk; [simpl in Hk; lia|].
  destruct k; [reflexivity|]. cbn [firstn app nth]. f_equal. apply IHt. simpl in Hk. lia.
Qed.

Lemma tl_firstn_skipn : forall (l : list obs) i n, 0 <= i -> 1 <= n -> i + n <= zlen l ->
  tl (firstn (Z.to_nat n) (skipn (Z.to_nat i) l)) =
  firstn (Z.to_nat (n - 1)) (skipn (Z.to_nat (i + 1)) l).
Proof.
  intros l i n Hi Hn Hl.
  replace (Z.to_nat (i + 1)) with (S (Z.to_nat i)) by lia.
  replace (Z.to_nat n) with (S (Z.to_nat (n - 1))) by lia.
  assert (H : forall k (l : list obs), skipn (S k) l = tl (skipn k l)).
  { clear. induction k; intros; destruct l; try reflexivity. apply IHk. }
  rewrite H. destruct (skipn (Z.to_nat i) l) eqn:E; [destruct (Z.to_nat (n - 1)); reflexivity|reflexivity].
Qed.

Lemma map_tl : forall A B (f : A -> B) l, map f (tl l) = tl (map f l).
Proof. destruct l; reflexivity. Qed.

Record Mid (s : st) : Prop := mkMid {
  md_core : Core s;
  md_train : s_train s = true;
  md_model : Model s;
  md_end : forall r, s_cur s = Some r -> t_end r = dat (s_live s) (s_i s - 1);
  md_len : zlen (s_win s) = p_conse P;
  md_win : map fst (s_win s) = firstn (Z.to_nat (p_conse P)) (skipn (Z.to_nat (s_i s)) (s_live s));
  md_i : s_i s <= s_end s - p_conse P;
  md_count : 0 < s_count s
}.

Lemma mon_fit_wp : forall s, Core s -> s_train s = true ->
  s_i s <= s_end s - p_conse P ->
  s_start s + 11 <= s_i s ->
  dat (s_live s) (s_start s - 1) + 366 <= dat (s_live s) (s_i s - 1) ->
  (s_count s = 0 \/ Trained s) ->
  wp (mon_fit K P s) (fun s' => Mid s' /\ s_end s' - s_i s' = s_end s - s_i s).
Proof.
  intros s HC Htr Hi Hsp Ht Hcase. unfold mon_fit.
  pose proof HC as HC'. destruct HC' as [Hsub Hstart Hdense Hchain Hclosed Hfrom Hlast Hlog Hconf].
  unfold s_end in *.
  apply wp_bind. apply wp_get; [lia|]. apply wp_bind. apply wp_get; [lia|].
  fold (dat (s_live s) (s_i s - 1)). fold (dat (s_live s) (s_start s - 1)).
  set (i_span := s_i s - s_start s + 1).
  set (skip := if s_skip s =? 0 then i_span else s_skip s).
  destruct ((s_count s =? 0) || (i_span <=? 24)) eqn:E.
  - (* fit and fill the window *)
    apply wp_bind. apply wp_slice; [lia|lia|lia|].
    apply wp_bind. apply wp_of_opt. intros m _.
    apply wp_bind. apply wp_mapM_idx; [intros c Hc; lia|].
    rewrite map_seq_firstn_skipn by lia.
    simpl. split; [|unfold s_end; ss; lia].
    constructor; ss; auto; try (unfold s_end; ss; lia).
    + constructor; ss; auto.
    + constructor; ss; auto; try lia.
      eexists _, _. split; [reflexivity|]. split; [reflexivity|].
      cbn [t_start t_break change_prob r_devs num_obs r_win category]. repeat split.
    + intros r Hr. inversion Hr; subst. reflexivity.
    + rewrite zlen_map. rewrite zlen_firstn; [reflexivity|]. rewrite zlen_skipn by lia. lia.
    + rewrite map_map. simpl. apply map_id.
  - destruct Hcase as [H0|HT]; [lia|].
    destruct HT as [[_ _ Hrec Hold] Hwl Htail Hno Hcnt].
    destruct Hrec as (r0 & m0 & Hr0 & Hm0 & Hts & Htb & Hpr & Hdv & Hno0 & Hrw & Hcat).
    rewrite Hr0, Hm0.
    apply wp_bind.
    apply wp_mono with (Q := fun p => match p with (m, r1, cnt, pre, skip', oldlen) =>
        t_start r1 = dat (s_live s) (s_start s - 1) /\ t_break r1 = 0 /\ change_prob r1 = 0 /\ r_devs r1 = [] /\
        num_obs r1 = oldlen /\
        r_win r1 = firstn (Z.to_nat oldlen) (skipn (Z.to_nat (s_start s - 1)) (s_live s)) /\
        category r1 = update_cft oldlen /\ 12 <= oldlen <= i_span /\ 0 < cnt end).
    { destruct ((1 <=? s_i s - s_preend s) && (p_skip P skip <? s_i s - s_preend s)).
      - apply wp_bind. apply wp_slice; [lia|lia|lia|]. apply wp_bind. apply wp_of_opt. intros m _.
        simpl. repeat split; auto; lia.
      - simpl. repeat split; auto; lia. }
    intros [[[[[m r1] cnt] pre] skip'] oldlen] (G1 & G2 & G3 & G4 & G5 & G6 & G7 & G8 & G9).
    cbn [category]. rewrite G7.
    destruct (oldlen =? 0) eqn:E0; [exact I|].
    destruct (oldlen <? 3 * update_cft oldlen) eqn:E3.
    { pose proof (@update_cft_3 oldlen). lia. }
    apply wp_bind. apply wp_slice; [lia|lia|lia|].
    set (wo := firstn (Z.to_nat oldlen) (skipn (Z.to_nat (s_start s - 1)) (s_live s))).
    apply wp_bind. apply wp_get; [lia|].
    simpl. split; [|unfold s_end; ss; lia].
    constructor; ss; auto; try (unfold s_end; ss; lia).
    + constructor; ss; auto.
    + constructor; ss; auto; try lia.
      eexists _, _. split; [reflexivity|]. split; [reflexivity|].
      cbn [t_start t_break change_prob r_devs num_obs r_win category]. repeat split; auto.
    + intros r Hr. inversion Hr; subst. reflexivity.
    + rewrite zlen_app. change (zlen [_]) with 1.
      assert (zlen (tl (s_win s)) = p_conse P - 1).
      { destruct (s_win s); [unfold zlen in Hwl; simpl in Hwl; lia|]. rewrite zlen_cons in Hwl. simpl. lia. }
      lia.
    + rewrite map_app, Htail. simpl map.
      replace (Z.to_nat (p_conse P)) with (Z.to_nat (p_conse P - 1 + 1)) by lia.
      rewrite (@firstn_S_snoc (s_live s) (s_i s) (p_conse P - 1)) by lia.
      replace (s_i s + (p_conse P - 1)) with (s_i s + p_conse P - 1) by lia. reflexivity.
Qed.

Lemma mon_decide_wp : forall s, Mid s -> wp (mon_decide K P s) (fun s' => Prog s s').
Proof.
  intros s [HC Htr HM Hend Hwl Hwin Hi Hcnt]. unfold mon_decide.
  destruct HC as [Hsub Hstart Hdense Hchain Hclosed Hfrom Hlast Hlog Hconf].
  destruct HM as [Hsp Ht Hrec Hold].
  destruct Hrec as (r & m & Hr & Hm & Hts & Htb & Hpr & Hdv & Hno0 & Hrw & Hcat).
  specialize (Hend r Hr).
  assert (Hasc : asc (s_live s)) by (eapply asc_sub; eassumption).
  unfold s_end in *.
  apply wp_bind. apply wp_get; [lia|]. fold (dat (s_live s) (s_i s)).
  apply wp_bind. eapply wp_mono; [apply cm_update_wp; [|exact Hlog]|].
  { apply In_dat_sub; [assumption|lia]. }
  intros [cm' log'] [Hlog' Hconf']. simpl in Hlog', Hconf'.
  set (v := confirmed K P (map snd (s_win s))).
  assert (Hhd : exists o e t, s_win s = (o, e) :: t /\ o_date o = dat (s_live s) (s_i s)).
  { destruct (s_win s) as [|[o e] t] eqn:Ew; [unfold zlen in Hwl; simpl in Hwl; lia|].
    exists o, e, t. split; [reflexivity|].
    assert (nth 0 (map fst ((o, e) :: t)) dflt_obs = nthO (s_live s) (s_i s)).
    { rewrite Hwin. rewrite nth_firstn by lia. rewrite nth_skipn. unfold nthO. f_equal. lia. }
    simpl in H. rewrite H. reflexivity. }
  assert (Hevd : decision_ok K P x0 (EvMon (dat (s_live s) (s_i s)) (s_win s) v)).
  { simpl. split; [assumption|]. split; [assumption|]. split.
    - rewrite Hwin. eapply subseq_trans; [apply subseq_firstn|]. eapply subseq_trans; [apply subseq_skipn|]. assumption.
    - intros Hcap. apply confirmed_iff. assumption. }
  assert (Hlog2 : LogOK cm' (EvMon (dat (s_live s) (s_i s)) (s_win s) v :: log')).
  { apply LogOK_cons; [intros; discriminate|assumption|assumption]. }
  rewrite Hr. destruct v eqn:Ev.
  - (* confirmed break *)
    set (r' := mkRec _ _ _ _ _ _ _ _ _).
    assert (Hreg : closed_regular K P r').
    { unfold closed_regular, regular, r'; cbn [category change_prob t_start t_end t_break r_win num_obs r_devs].
      split; [|split; [reflexivity|split]].
      - split; [rewrite Hno0, Hcat; apply best_update; lia|]. split; [|lia].
        rewrite Hno0, Hrw. rewrite zlen_firstn; [reflexivity|]. rewrite zlen_skipn by lia. lia.
      - rewrite Hend. apply dat_lt; [assumption|lia|lia].
      - pose proof (@confirmed_sound _ Ev) as [G1 G2]. split; [assumption|]. split; [assumption|]. split; assumption. }
    assert (Hfr : from_series x0 r').
    { unfold from_series, r'; cbn [category change_prob t_start t_end t_break r_win num_obs r_devs].
      rewrite Hts, Hend, Hrw.
      split; [apply In_dat_sub; [assumption|lia]|]. split; [apply In_dat_sub; [assumption|lia]|].
      split; [right; apply In_dat_sub; [assumption|lia]|].
      eapply subseq_trans; [apply subseq_firstn|]. eapply subseq_trans; [apply subseq_skipn|]. assumption. }
    assert (Hch : chained (s_recs s ++ [r'])).
    { apply chained_app; [assumption|]. unfold r'; cbn [t_start]. rewrite Hts. assumption. }
    assert (Hcl : closed_list K P (s_recs s ++ [r'])) by (apply closed_list_app; assumption).
    assert (Hfa : Forall (from_series x0) (s_recs s ++ [r'])).
    { apply Forall_app. split; [assumption|]. constructor; auto. }
    apply wp_bind. apply push_wp; auto.
    { unfold r'; cbn [t_break]. apply In_dat_sub; [assumption|lia]. }
    simpl. unfold Prog, Inv. ss. unfold s_end; ss. split; [|lia]. split; [|split; [discriminate|left; lia]].
    constructor; ss; auto; try lia.
    + intros Hn. destruct (s_recs s); discriminate.
    + apply lastB_app. unfold r'; cbn [t_break]. replace (s_i s + 1 - 1) with (s_i s) by lia. lia.
    + cbn [confirmed_dates]. rewrite Hconf', Hconf. unfold regular_breaks.
      rewrite filter_app, map_app. f_equal. unfold r'. cbn [filter category change_prob].
      rewrite Hcat. pose proof (@best_update (s_oldlen s)) as Hb. unfold best_num_c in Hb.
      replace (update_cft (s_oldlen s) =? 14) with false by lia. reflexivity.
  - (* no break *)
    assert (Hconf2 : confirmed_dates (EvMon (dat (s_live s) (s_i s)) (s_win s) false :: log') =
                     regular_breaks (s_recs s)) by (cbn [confirmed_dates]; congruence).
    destruct (outlier0 K P (map snd (s_win s))) eqn:Eo.
    + unfold drop_obs. 
      assert (Hdl : zlen (del (Z.to_nat (s_i s)) (s_live s)) = zlen (s_live s) - 1) by (apply zlen_del; lia).
      assert (Hsub' : subseq (del (Z.to_nat (s_i s)) (s_live s)) x0)
        by (eapply subseq_trans; [apply subseq_del|assumption]).
      assert (Hdat : forall k, 0 <= k < s_i s -> dat (del (Z.to_nat (s_i s)) (s_live s)) k = dat (s_live s) k).
      { intros k Hk. unfold dat. rewrite nthO_del by lia. replace (k <? s_i s) with true by lia. reflexivity. }
      simpl. unfold Prog, Inv. ss. unfold s_end; ss. split; [|lia].
      split; [|split; [|left; lia]].
      * constructor; ss; auto; try lia. rewrite Hdat by lia. assumption.
      * intros _. constructor; ss; auto; try lia.
        -- constructor; ss; try lia.
           ++ replace (s_i s - 1 + 1 - 1) with (s_i s - 1) by lia. rewrite !Hdat by lia. lia.
           ++ exists r, m. rewrite Hdat by lia. repeat split; auto.
              rewrite Hrw. symmetry. apply firstn_skipn_del; unfold zlen in *; lia.
        -- rewrite map_tl, Hwin.
           replace (Z.to_nat (s_i s - 1 + 1)) with (Z.to_nat (s_i s)) by lia.
           rewrite tl_firstn_skipn by lia.
           rewrite skipn_del by (unfold zlen in *; lia).
           repeat f_equal. lia.
    + simpl. unfold Prog, Inv. ss. unfold s_end; ss. split; [|lia].
      split; [|split; [|left; lia]].
      * constructor; ss; auto; lia.
      * intros _. constructor; ss; auto; try lia.
        -- constructor; ss; try lia.
           ++ pose proof (@dat_le (s_live s) (s_i s - 1) (s_i s + 1 - 1) Hasc). lia.
           ++ exists r, m. repeat split; auto.
        -- rewrite map_tl, Hwin. apply tl_firstn_skipn; lia.
Qed.

(* ------------------------------------------------------------------ *)
(** ** The loop *)

Lemma step_wp : forall s, Inv s -> s_i s <= s_end s - p_conse P -> wp (step K P s) (fun s' => Prog s s').
Proof.
  intros s (HC & HT & _) Hi. unfold step. pose proof HC as HC'.
  destruct HC' as [Hsub Hstart Hdense Hchain Hclosed Hfrom Hlast Hlog Hconf].
  unfold s_end in Hi.
  apply wp_bind. apply wp_get; [lia|]. apply wp_bind. apply wp_get; [lia|].
  fold (dat (s_live s) (s_i s - 1)). fold (dat (s_live s) (s_start s - 1)).
  destruct ((12 <=? s_i s - s_start s + 1) && _) eqn:E.
  - destruct (s_train s) eqn:Etr.
    + unfold monitor. apply wp_bind. eapply wp_mono; [apply mon_fit_wp; auto; unfold s_end; lia|].
      intros s1 [H1 H2]. eapply wp_mono; [apply mon_decide_wp; assumption|].
      intros s2 (A & B & C). split; [assumption|]. split; [lia|assumption].
    + apply wp_bind. eapply wp_mono; [apply initialise_wp; auto; unfold s_end; lia|].
      intros [s1 tr] H. cbn [fst snd] in H. destruct tr; [|exact H].
      destruct H as [Rc Rt Rn Rs Rd Ri Rm].
      unfold monitor. apply wp_bind. eapply wp_mono; [apply mon_fit_wp; auto; unfold s_end; lia|].
      intros s2 [H1 H2]. eapply wp_mono; [apply mon_decide_wp; assumption|].
      intros s3 (A & B & C). split; [assumption|]. split; [lia|assumption].
  - destruct (s_train s) eqn:Etr.
    { destruct (HT eq_refl) as [[Msp Mt _ _] _ _ _ _]. lia. }
    simpl. unfold Prog, Inv. ss. unfold s_end; ss. split; [|lia]. split; [|split; [congruence|left; lia]].
    constructor; ss; auto; lia.
Qed.

Lemma loop_wp : forall fuel s, Inv s -> s_end s - p_conse P - s_i s + 1 <= Z.of_nat fuel ->
  wp (loop K P fuel s) (fun s' => Inv s' /\ s_end s' - p_conse P < s_i s').
Proof.
  induction fuel; intros s HI Hf.
  - cbn [loop]. destruct (s_i s <=? s_end s - p_conse P) eqn:E; [lia|]. simpl. split; [assumption|lia].
  - cbn [loop]. destruct (s_i s <=? s_end s - p_conse P) eqn:E; [|simpl; split; [assumption|lia]].
    apply wp_bind. eapply wp_mono; [apply step_wp; [assumption|lia]|].
    intros s' (A & B & C). apply IHfuel; [assumption|lia].
Qed.

(* ------------------------------------------------------------------ *)
(** ** End of the series *)

Lemma anomalous_fle : forall d, anomalous K P d <-> fle (k_norm K d) (Fin (p_tcg P)) = false.
Proof.
  intros d. unfold anomalous. destruct (k_norm K d); simpl; [tauto|]. lia.
Qed.

Definition good_at (w : list D) (c : nat) : bool :=
  match nth_error w c with
  | None => false
  | Some d => fle (k_norm K d) (Fin (p_tcg P)) || fge (k_angle K (skipn c w)) (Fin (p_nsign P))
  end.

Lemma id_last_spec : forall w dflt n, (n <= length w)%nat ->
  (exists c, (c < n)%nat /\ id_last_from K P n w dflt = Z.of_nat c + 1 /\ good_at w c = true /\
     (forall c', (c < c' < n)%nat -> good_at w c' = false)) \/
  (id_last_from K P n w dflt = dflt /\ forall c, (c < n)%nat -> good_at w c = false).
Proof.
  intros w dflt. induction n; intros Hn.
  - right. split; [reflexivity|intros; lia].
  - cbn [id_last_from]. destruct (nth_error w n) as [d|] eqn:E.
    2:{ apply nth_error_None in E. lia. }
    assert (Hg : good_at w n = fle (k_norm K d) (Fin (p_tcg P)) || fge (k_angle K (skipn n w)) (Fin (p_nsign P))).
    { unfold good_at. rewrite E. reflexivity. }
    destruct (fle (k_norm K d) (Fin (p_tcg P)) || _) eqn:F.
    + left. exists n. repeat split; auto. intros; lia.
    + destruct IHn as [(c & H1 & H2 & H3 & H4)|[H1 H2]]; [lia| |].
      * left. exists c. repeat split; auto; try lia.
        intros c' Hc'. destruct (Nat.eq_dec c' n); [subst; assumption|]. apply H4. lia.
      * right. split; [assumption|]. intros c Hc. destruct (Nat.eq_dec c n); [subst; assumption|]. apply H2. lia.
Qed.

Lemma suffix_good : forall w j, (1 <= j <= length w)%nat ->
  (suffix_bad K P w j <-> good_at w (length w - j) = false).
Proof.
  intros w j Hj. unfold suffix_bad, good_at.
  destruct (nth_error w (length w - j)) as [d|] eqn:E.
  2:{ apply nth_error_None in E. lia. }
  rewrite orb_false_iff. rewrite <- anomalous_fle. split.
  - intros (d' & H & H1 & H2). inversion H; subst. auto.
  - intros (H1 & H2). exists d. auto.
Qed.

Definition fin_ok (s : st) (rs : list rec) : Prop :=
  result_ok K P (s_live s) rs /\ Forall (from_series x0) rs /\ regular_breaks rs = regular_breaks (s_recs s) /\
  exists t, rs = s_recs s ++ t /\ (length t <= 1)%nat.

Lemma div100 : forall a b, 0 <= a < b -> 0 <= a * 100 / b < 100.
Proof.
  intros a b H. split; [apply Z.div_pos; lia|]. apply Z.div_lt_upper_bound; lia.
Qed.

Lemma finish_trained_wp : forall s, Inv s -> s_train s = true -> s_end s - p_conse P < s_i s ->
  wp (finish_trained K P s) (fin_ok s).
Proof.
  intros s (HC & HT & Hi) Htr He. specialize (HT Htr).
  destruct Hi as [Hi|(_ & _ & _ & Hi)]; [|congruence].
  destruct HC as [Hsub Hstart Hdense Hchain Hclosed Hfrom Hlast Hlog Hconf].
  destruct HT as [[Hsp Ht Hrec Hold] Hwl Htail Hno Hcnt].
  destruct Hrec as (r & m & Hr & Hm & Hts & Htb & Hpr & Hdv & Hno0 & Hrw & Hcat).
  assert (Hasc : asc (s_live s)) by (eapply asc_sub; eassumption).
  unfold s_end in *. unfold finish_trained. rewrite Hr.
  set (ds := map snd (s_win s)).
  assert (Hdl : length ds = Z.to_nat (p_conse P)).
  { unfold ds. rewrite map_length. unfold zlen in Hwl. lia. }
  set (id := id_last_from K P (Z.to_nat (p_conse P)) ds (p_conse P)).
  assert (Hid : (exists c, (c < length ds)%nat /\ id = Z.of_nat c + 1 /\ good_at ds c = true /\
     (forall c', (c < c' < length ds)%nat -> good_at ds c' = false)) \/
     (id = p_conse P /\ forall c, (c < length ds)%nat -> good_at ds c = false)).
  { unfold id. rewrite <- Hdl. apply id_last_spec. lia. }
  assert (Hidr : 1 <= id <= p_conse P) by (destruct Hid as [(c & H1 & H2 & _)|[H1 _]]; lia).
  assert (Hii : s_i s = zlen (s_live s) - p_conse P + 1) by lia.
  assert (Htail' : map fst (tl (s_win s)) = skipn (length (s_live s) - (Z.to_nat (p_conse P) - 1)) (s_live s)).
  { rewrite Htail. rewrite firstn_all2 by (rewrite skipn_length; unfold zlen in *; lia).
    f_equal. unfold zlen in *. lia. }
  apply wp_bind. unfold s_end. apply wp_get; [lia|].
  fold (dat (s_live s) (zlen (s_live s) - 1 - p_conse P + id)).
  assert (Hte : dat (s_live s) (s_i s - 1) <= dat (s_live s) (zlen (s_live s) - 1 - p_conse P + id))
    by (apply dat_le; [assumption|lia|lia]).
  assert (Hreg : forall tb pr (dv : list (obs * D)), regular (mkRec (t_start r) (dat (s_live s) (zlen (s_live s) - 1 - p_conse P + id)) tb
             (num_obs r) (category r) pr (r_model r) (r_win r) dv)).
  { intros. unfold regular; cbn [category change_prob t_start t_end t_break r_win num_obs r_devs].
    split; [rewrite Hno0, Hcat; apply best_update; lia|]. split; [|lia].
    rewrite Hno0, Hrw. rewrite zlen_firstn; [reflexivity|]. rewrite zlen_skipn by lia. lia. }
  assert (Hch : forall r' : rec, t_start r' = t_start r -> chained (s_recs s ++ [r'])).
  { intros r' E. apply chained_app; [assumption|]. rewrite E, Hts. assumption. }
  assert (Hwin : subseq (r_win r) x0).
  { rewrite Hrw. eapply subseq_trans; [apply subseq_firstn|]. eapply subseq_trans; [apply subseq_skipn|]. assumption. }
  assert (Hpr100 : 0 <= (p_conse P - id) * 100 / p_conse P < 100) by (apply div100; lia).
  assert (Hrb : forall r' : rec, change_prob r' = (p_conse P - id) * 100 / p_conse P ->
       regular_breaks (s_recs s ++ [r']) = regular_breaks (s_recs s)).
  { intros r' E. unfold regular_breaks. rewrite filter_app, map_app. simpl filter.
    replace (change_prob r' =? 100) with false by lia. rewrite andb_false_r. simpl. apply app_nil_r. }
  destruct (id <? p_conse P) eqn:Elt.
  - apply wp_bind. apply wp_get; [lia|]. fold (dat (s_live s) (zlen (s_live s) - p_conse P + id)).
    simpl. set (r' := mkRec _ _ _ _ _ _ _ _ _). unfold fin_ok.
    destruct Hid as [(c & H1 & H2 & H3 & H4)|[H1 _]]; [|lia].
    split; [|split; [|split]].
    + split; [apply Hch; reflexivity|]. right. exists (s_recs s), r'. split; [reflexivity|]. split; [assumption|].
      left. unfold open_trained. split; [apply Hreg|].
      exists (s_win s). fold ds. cbv zeta. split; [unfold zlen; lia|]. split; [exact Htail'|]. left. exists (length ds - 1 - c)%nat.
      assert (Hlen : Z.of_nat (length ds - 1 - c) = p_conse P - id) by lia.
      split.
      { split; [|split; [lia|]].
        - intros j Hj. apply suffix_good; [lia|]. apply H4. lia.
        - rewrite suffix_good by lia. replace (length ds - S (length ds - 1 - c))%nat with c by lia. congruence. }
      split; [unfold r'; cbn [change_prob]; rewrite Hlen; reflexivity|].
      split; [intros; lia|]. intros _.
      unfold r'; cbn [t_end t_break r_devs].
      split; [apply dat_lt; [assumption|lia|lia]|].
      split; [rewrite skipn_length; unfold zlen in Hwl; lia|].
      split; [unfold ds; rewrite <- skipn_map; f_equal; unfold zlen in Hwl; rewrite map_length; lia|].
      destruct (skipn (Z.to_nat id) (s_win s)) as [|[o e] t] eqn:Ew.
      { assert (length (skipn (Z.to_nat id) (s_win s)) = 0%nat) by (rewrite Ew; reflexivity).
        rewrite skipn_length in H. unfold zlen in Hwl. lia. }
      exists o, e, t. split; [reflexivity|].
      assert (Ho : nth (Z.to_nat id) (map fst (s_win s)) dflt_obs = o).
      { replace (Z.to_nat id) with (Z.to_nat id + 0)%nat by lia. rewrite <- nth_skipn.
        rewrite skipn_map, Ew. reflexivity. }
      rewrite <- Ho.
      replace (Z.to_nat id) with (S (Z.to_nat (id - 1))) by lia.
      assert (Hnt : forall (l : list obs) k, nth (S k) l dflt_obs = nth k (tl l) dflt_obs).
      { clear. intros [|a l] k; [destruct k; reflexivity|reflexivity]. }
      rewrite Hnt, <- map_tl, Htail. rewrite nth_firstn by lia. rewrite nth_skipn.
      unfold dat, nthO. f_equal. f_equal. lia.
    + apply Forall_app. split; [assumption|]. constructor; [|constructor].
      unfold from_series, r'; cbn [category change_prob t_start t_end t_break r_win num_obs r_devs].
      rewrite Hts. split; [apply In_dat_sub; [assumption|lia]|]. split; [apply In_dat_sub; [assumption|lia]|].
      split; [right; apply In_dat_sub; [assumption|lia]|assumption].
    + apply Hrb. reflexivity.
    + exists [r']. split; [reflexivity|simpl; lia].
  - simpl. set (r' := mkRec _ _ _ _ _ _ _ _ _). unfold fin_ok.
    assert (Eid : id = p_conse P) by lia.
    split; [|split; [|split]].
    + split; [apply Hch; reflexivity|]. right. exists (s_recs s), r'. split; [reflexivity|]. split; [assumption|].
      left. unfold open_trained. split; [apply Hreg|].
      exists (s_win s). fold ds. cbv zeta. split; [unfold zlen; lia|]. split; [exact Htail'|].
      destruct Hid as [(c & H1 & H2 & H3 & H4)|[H1 H2]].
      * left. exists 0%nat. split; [|split; [|split]].
        -- split; [intros; lia|]. split; [lia|]. rewrite suffix_good by lia.
           replace (length ds - 1)%nat with c by lia. congruence.
        -- unfold r'; cbn [change_prob]. f_equal. lia.
        -- intros _. unfold r'; cbn [t_break]. assumption.
        -- congruence.
      * right. split; [|split; [|split]].
        -- intros j Hj. apply suffix_good; [assumption|]. apply H2. lia.
        -- unfold r'; cbn [change_prob]. rewrite Eid, Z.sub_diag. reflexivity.
        -- unfold r'; cbn [t_break]. assumption.
        -- destruct (Z_lt_ge_dec (p_tcg P) (p_cap P)) as [Hcap|]; [left|right; lia].
           assert (Hall : Forall (anomalous K P) ds).
           { apply Forall_forall. intros d Hd. apply In_nth_error in Hd. destruct Hd as [c Hc].
             assert (Hcl : (c < length ds)%nat) by (apply nth_error_Some; congruence).
             specialize (H2 c Hcl). unfold good_at in H2. rewrite Hc in H2.
             apply orb_false_iff in H2. apply anomalous_fle. tauto. }
           assert (H0 : good_at ds 0 = false) by (apply H2; lia).
           unfold good_at in H0. destruct (nth_error ds 0) eqn:E0; [|apply nth_error_None in E0; lia].
           apply orb_false_iff in H0. destruct H0 as [_ H0]. cbn [skipn] in H0.
           destruct (k_angle K ds) as [|a] eqn:Ea; [reflexivity|]. simpl in H0.
           exfalso. fold ds in Hno.
           assert (Hcf : confirmed K P ds = true).
           { apply confirmed_iff; [assumption|]. split; [assumption|]. exists a. split; [assumption|lia]. }
           congruence.
    + apply Forall_app. split; [assumption|]. constructor; [|constructor].
      unfold from_series, r'; cbn [category change_prob t_start t_end t_break r_win num_obs r_devs].
      rewrite Hts. split; [apply In_dat_sub; [assumption|lia]|]. split; [apply In_dat_sub; [assumption|lia]|].
      split; [left; split; [assumption|lia]|assumption].
    + apply Hrb. reflexivity.
    + exists [r']. split; [reflexivity|simpl; lia].
Qed.

Lemma finish_untrained_wp : forall s, Inv s -> s_train s = false ->
  wp (finish_untrained K s) (fin_ok s).
Proof.
  intros s (HC & _ & Hi) Htr.
  destruct HC as [Hsub Hstart Hdense Hchain Hclosed Hfrom Hlast Hlog Hconf].
  assert (Hasc : asc (s_live s)) by (eapply asc_sub; eassumption).
  unfold s_end in *. unfold finish_untrained.
  set (st0 := match rev (s_recs s) with [] => 1 | _ :: _ => _ end).
  assert (Hst : 1 <= st0 /\ (forall t r, rev (s_recs s) = r :: t ->
       st0 <= zlen (s_live s) /\ t_break r <= dat (s_live s) (st0 - 1)) /\ (s_recs s = [] -> st0 = 1)).
  { unfold st0. destruct (rev (s_recs s)) as [|r t] eqn:Er.
    - split; [lia|]. split; [intros; discriminate|reflexivity].
    - apply rev_last in Er.
      destruct Hi as [Hi|(_ & _ & Hi & _)]; [|rewrite Hi in Er; destruct (rev t); discriminate].
      assert (Hb : t_break r <= dat (s_live s) (s_start s - 1)) by (eapply Hlast; eassumption).
      destruct (@first_ge_le (t_break r) (s_live s) 0 (s_start s - 1)) as (j & Hj & Hjl); [lia|assumption|].
      rewrite (@first_ge_app _ _ (s_stale s) _ _ Hj).
      apply first_ge_spec in Hj. destruct Hj as (J1 & J2 & _).
      split; [lia|]. split.
      + intros t' r' E. inversion E; subst. split; [lia|]. replace (j - 1) with (j - 0 - 1) by lia. assumption.
      + intros E. rewrite E in Er. destruct (rev t); discriminate. }
  destruct Hst as (Hst1 & Hst2 & Hst3).
  assert (Hsame : fin_ok s (s_recs s)).
  { unfold fin_ok. split; [split; [assumption|left; assumption]|]. split; [assumption|].
    split; [reflexivity|]. exists []. rewrite app_nil_r. split; [reflexivity|simpl; lia]. }
  unfold s_end. clearbody st0. apply wp_bind.
  apply wp_mono with (Q := fun live => subseq live (s_live s) /\
     firstn (Z.to_nat (st0 - 1)) live = firstn (Z.to_nat (st0 - 1)) (s_live s) /\
     (6 <= zlen live - st0 + 1 -> subseq (skipn (Z.to_nat (st0 - 1)) live) (skipn (Z.to_nat (st0 - 1)) (s_live s)))).
  { destruct (6 <=? zlen (s_live s) - st0 + 1) eqn:E6.
    - apply wp_bind. apply wp_slice; [lia|lia|lia|]. apply wp_bind. apply wp_of_opt. intros flags _.
      set (w := firstn _ (skipn _ _)).
      assert (Hw : w = skipn (Z.to_nat (st0 - 1)) (s_live s)).
      { unfold w. apply firstn_all2. rewrite skipn_length. unfold zlen in *. lia. }
      assert (Hlf : length (firstn (Z.to_nat (st0 - 1)) (s_live s)) = Z.to_nat (st0 - 1)).
      { rewrite firstn_length. unfold zlen in *. lia. }
      simpl. split; [|split].
      + rewrite <- (firstn_skipn (Z.to_nat (st0 - 1)) (s_live s)) at 2.
        apply subseq_app; [apply subseq_refl|]. rewrite <- Hw. apply keep_sub.
      + rewrite firstn_app, Hlf, Nat.sub_diag, firstn_O, app_nil_r. apply firstn_all2. lia.
      + intros _. rewrite skipn_app, Hlf, Nat.sub_diag. rewrite skipn_all2 by lia. simpl.
        rewrite <- Hw. apply keep_sub.
    - simpl. repeat split; intros; apply subseq_refl. }
  intros live (L1 & L2 & L3).
  destruct (6 <=? zlen live - st0 + 1) eqn:E6; [|exact Hsame].
  specialize (L3 ltac:(lia)).
  assert (Hascl : asc live) by (eapply asc_sub; eassumption).
  assert (Hsubl : subseq live x0) by (eapply subseq_trans; eassumption).
  apply wp_bind. apply wp_slice; [lia|lia|lia|]. 
  set (w := firstn _ (skipn _ _)).
  assert (Hwz : zlen w = zlen live - st0 + 1).
  { unfold w. apply zlen_firstn. rewrite zlen_skipn by lia. lia. }
  apply wp_bind. apply wp_of_opt. intros m _.
  assert (Hfin : forall ts, In ts (map o_date x0) -> ts <= dat live (zlen live - 1) -> lastB (s_recs s) ts ->
     fin_ok s (s_recs s ++ [mkRec ts (dat live (zlen live - 1)) 0 (zlen live - st0 + 1) 24 0 m w []])).
  { intros ts Hin Hts Hl. set (r' := mkRec _ _ _ _ _ _ _ _ _). unfold fin_ok.
    split; [|split; [|split]].
    - split; [apply chained_app; assumption|]. right. exists (s_recs s), r'. split; [reflexivity|]. split; [assumption|].
      right. unfold open_untrained, r'; cbn [category change_prob t_start t_end t_break r_win num_obs r_devs].
      repeat split; lia.
    - apply Forall_app. split; [assumption|]. constructor; [|constructor].
      unfold from_series, r'; cbn [category change_prob t_start t_end t_break r_win num_obs r_devs].
      split; [assumption|]. split; [apply In_dat_sub; [assumption|lia]|]. split; [left; lia|].
      eapply subseq_trans; [apply subseq_firstn|]. eapply subseq_trans; [apply subseq_skipn|]. assumption.
    - unfold regular_breaks. rewrite filter_app, map_app. simpl. apply app_nil_r.
    - exists [r']. split; [reflexivity|simpl; lia]. }
  apply wp_bind. destruct (rev (s_recs s)) as [|r t] eqn:Er.
  - apply wp_bind. apply wp_get; [lia|]. fold (dat live 0). simpl. apply wp_bind. apply wp_get; [lia|].
    fold (dat live (zlen live - 1)). simpl. apply Hfin.
    + apply In_dat_sub; [assumption|lia].
    + apply dat_le; [assumption|lia|lia].
    + assert (s_recs s = []) by (rewrite <- (rev_involutive (s_recs s)), Er; reflexivity). rewrite H. apply lastB_nil.
  - simpl. apply wp_bind. apply wp_get; [lia|]. fold (dat live (zlen live - 1)). simpl.
    destruct (Hst2 t r eq_refl) as [Hs1 Hs2].
    pose proof (rev_last _ Er) as Er'.
    assert (Hr : from_series x0 r).
    { rewrite Er' in Hfrom. apply Forall_app in Hfrom. destruct Hfrom as [_ Hf]. inversion Hf; assumption. }
    assert (Hc : change_prob r = 100).
    { rewrite Er' in Hclosed. destruct (rev t) as [|a t']; simpl in Hclosed.
      - destruct Hclosed as [[(_ & H & _)|(_ & H & _)] _]; assumption.
      - destruct Hclosed as [_ H]. apply Forall_app in H. destruct H as [_ H]. inversion H; subst.
        destruct H2 as (_ & H2 & _). assumption. }
    apply Hfin.
    + destruct Hr as (_ & _ & [[_ H]|H] & _); [lia|assumption].
    + (* break <= first date of the segment <= last date *)
      assert (Hz : 0 <= zlen live - st0 < zlen (skipn (Z.to_nat (st0 - 1)) live)).
      { rewrite zlen_skipn by lia. lia. }
      assert (H1 : dat live (zlen live - 1) = dat (skipn (Z.to_nat (st0 - 1)) live) (zlen live - st0)).
      { unfold dat. rewrite nthO_skipn by lia. f_equal. f_equal. lia. }
      rewrite H1.
      assert (Hasc2 : asc (skipn (Z.to_nat (st0 - 1)) (s_live s))) by (eapply asc_sub; [apply subseq_skipn|assumption]).
      pose proof (@dat_sub_ge _ _ _ L3 Hasc2 Hz) as H2.
      assert (Hlz : zlen (skipn (Z.to_nat (st0 - 1)) live) <= zlen (skipn (Z.to_nat (st0 - 1)) (s_live s))).
      { pose proof (subseq_length L3). unfold zlen. lia. }
      pose proof (@dat_le (skipn (Z.to_nat (st0 - 1)) (s_live s)) 0 (zlen live - st0) Hasc2) as H3.
      assert (H4 : dat (skipn (Z.to_nat (st0 - 1)) (s_live s)) 0 = dat (s_live s) (st0 - 1)).
      { unfold dat. rewrite nthO_skipn by lia. f_equal. f_equal. lia. }
      lia.
    + rewrite Er'. apply lastB_app. lia.
Qed.

(* ------------------------------------------------------------------ *)
(** ** Result *)

Lemma Inv_init : Inv (init_st M D x0 cm0).
Proof.
  unfold Inv, init_st; ss. split; [|split; [discriminate|right; auto]].
  constructor; ss; try lia; try exact I; try constructor.
  - apply subseq_refl.
  - intros l r E. destruct l; discriminate.
  - split; [reflexivity|]. destruct (p_cm P); [|reflexivity].
    intros n dd Hn. left. split; [reflexivity|constructor].
  - constructor.
Qed.

Record sound (R : result M D) : Prop := mkSound {
  so_result : result_ok K P (res_live R) (res_recs R);
  so_from : Forall (from_series x0) (res_recs R);
  so_log : LogOK (res_cm R) (res_log R);
  so_conf : confirmed_dates (res_log R) = regular_breaks (res_recs R);
  so_live : subseq (res_live R) x0
}.

Theorem stand_sound : forall fuel, zlen x0 - p_conse P - 11 <= Z.of_nat fuel ->
  wp (stand_procedure K P fuel x0 cm0) sound.
Proof.
  intros fuel Hf. unfold stand_procedure. apply wp_bind.
  eapply wp_mono; [apply loop_wp; [apply Inv_init|]|].
  { unfold s_end, init_st; ss. lia. }
  intros s [HI He]. apply wp_bind.
  pose proof HI as ([Hsub Hstart Hdense Hchain Hclosed Hfrom Hlast Hlog Hconf] & _ & _).
  assert (Hw : wp (if s_train s then finish_trained K P s else finish_untrained K s) (fin_ok s)).
  { destruct (s_train s) eqn:E; [apply finish_trained_wp; auto|apply finish_untrained_wp; auto]. }
  eapply wp_mono; [exact Hw|]. intros rs (F1 & F2 & F3 & F4).
  simpl. constructor; simpl; auto. congruence.
Qed.

End Proof.
