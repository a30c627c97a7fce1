(** Properties C04-C12 and C15 of the COLD state machine, from
    [stand_sound] (ColdProof.v), with concrete runs beside them. *)
From Verif Require Import Base ColdModel ColdSpec ColdLemmas ColdProof.

(* ------------------------------------------------------------------ *)
(** * A concrete kernel for examples: the model is the first value of the
    window, deviations are differences, the angle is 0 for equal signs. *)

Definition val (o : obs) : Z := hd 0 (o_vals o).
Definition toy_angle (w : list Z) : fl :=
  if forallb (fun d => 0 <=? d) w || forallb (fun d => d <=? 0) w then Fin 0 else Fin 90.
Definition toy : kernel Z Z :=
  mkKernel (fun _ => Some (fun _ => false))
           (fun _ w => match w with [] => None | o :: _ => Some (val o) end)
           (fun m w => Fin ((val (last w (mkObs 0 [])) - m) ^ 2)) (fun m _ o => val o - m) (fun m _ _ _ o => val o - m)
           (fun d => Fin (d * d)) toy_angle
           (fun a m => match a, m with Fin a, Fin m => Some (if a <? 45 then m * 100 else 0) | _, _ => None end).
(** The same kernel with an undefined angle. *)
Definition toy_nan : kernel Z Z :=
  mkKernel (k_mask toy) (k_fit toy) (k_stab toy) (k_dev toy) (k_devr toy) (k_norm toy)
           (fun _ => NaN) (k_cm toy).
Definition toyP (cm : option cmcfg) : params := mkParams 15 30 45 9999 6 365 (fun n => n / 10) cm.

(** [lvl n v d0 s]: n observations with value v, s days apart. *)
Fixpoint lvl (n : nat) (v d0 s : Z) : list obs :=
  match n with O => [] | S n' => mkObs d0 [v] :: lvl n' v (d0 + s) s end.

(** Two stable levels: one break, then an open segment. *)
Definition two_levels : list obs := lvl 30 0 730000 16 ++ lvl 30 10 730480 16.
(** Ten leading observations on another level: an initial segment. *)
Definition head_level : list obs := lvl 10 (-20) 730000 16 ++ lvl 40 0 730160 16.
(** n segments of 367 days with a jump after each. *)
Fixpoint stairs (n : nat) (v d0 : Z) : list obs :=
  match n with
  | O => lvl 20 v d0 33
  | S n' => lvl 11 v d0 33 ++ [mkObs (d0 + 366) [v]] ++ stairs n' (v + 10) (d0 + 367)
  end.

Fixpoint ascb (l : list Z) : bool :=
  match l with a :: ((b :: _) as t) => (a <? b) && ascb t | _ => true end.
Lemma ascb_ok : forall l, ascb l = true -> ascending l.
Proof.
  unfold ascending. induction l as [|a l IH]; intros H; [constructor|].
  destruct l as [|b l']; [constructor; constructor|].
  simpl in H. apply andb_true_iff in H. destruct H as [H1 H2]. specialize (IH H2).
  constructor; [assumption|]. inversion IH; subst. constructor; [lia|].
  eapply Forall_impl; [|eassumption]. simpl. intros; lia.
Qed.
Lemma asc_two : asc two_levels. Proof. apply ascb_ok. vm_compute. reflexivity. Qed.
Lemma asc_head : asc head_level. Proof. apply ascb_ok. vm_compute. reflexivity. Qed.

(** Summary of a run: start, end, break, probability, category, num_obs,
    window and number of deviations. *)
Definition summary {M D} (o : out (result M D)) : out (list (Z * Z * Z * (Z * Z * Z) * (nat * nat))) :=
  match o with
  | Ok R => Ok (map (fun r => (t_start r, t_end r, t_break r, (change_prob r, category r, num_obs r),
                               (length (r_win r), length (r_devs r)))) (res_recs R))
  | Fail => Fail | UB => UB | Fuel => Fuel
  end.

Example run_two : summary (stand_procedure toy (toyP None) 60 two_levels []) =
  Ok [(730000, 730464, 730480, (100, 8, 30), (30%nat, 6%nat));
      (730480, 730944, 0, (0, 8, 24), (24%nat, 0%nat))].
Proof. vm_compute. reflexivity. Qed.
Example run_head : summary (stand_procedure toy (toyP None) 60 head_level []) =
  Ok [(730000, 730144, 730160, (100, 14, 11), (10%nat, 6%nat));
      (730160, 730784, 0, (0, 8, 34), (34%nat, 0%nat))].
Proof. vm_compute. reflexivity. Qed.
(** Last three observations anomalous: probability 50 and a tentative break. *)
Example run_tail : summary (stand_procedure toy (toyP None) 60 (lvl 40 0 730000 16 ++ lvl 3 10 730640 16) []) =
  Ok [(730000, 730624, 730640, (50, 8, 34), (34%nat, 3%nat))].
Proof. vm_compute. reflexivity. Qed.
(** Too short to train: an end segment. *)
Example run_short : summary (stand_procedure toy (toyP None) 60 (lvl 20 0 730000 16) []) =
  Ok [(730000, 730304, 0, (0, 24, 20), (20%nat, 0%nat))].
Proof. vm_compute. reflexivity. Qed.

Section Props.
Variables M D : Type.
Variable K : kernel M D.
Variable P : params.
Variable x : list obs.
Variable cm : list (Z * Z).
Notation rec := (rec M D).

Definition fuel_ok (fuel : nat) : Prop := zlen x - p_conse P - 11 <= Z.of_nat fuel.

Lemma run_sound : forall fuel R, 1 <= p_conse P -> asc x -> fuel_ok fuel ->
  stand_procedure K P fuel x cm = Ok R -> sound K P x cm R.
Proof.
  intros fuel R Hc Hx Hf H. pose proof (@stand_sound M D K P x cm Hc Hx fuel Hf) as Hs.
  rewrite H in Hs. exact Hs.
Qed.

(** ** C04 *)
Theorem C04_cold_terminates : forall fuel, 1 <= p_conse P -> asc x -> fuel_ok fuel ->
  stand_procedure K P fuel x cm <> Fuel.
Proof.
  intros fuel Hc Hx Hf E. pose proof (@stand_sound M D K P x cm Hc Hx fuel Hf) as Hs.
  rewrite E in Hs. exact Hs.
Qed.

(** ** C05 *)
Theorem C05_cold_memory_safe : forall fuel, 1 <= p_conse P -> asc x -> fuel_ok fuel ->
  (forall a b, In a (map o_date x) -> In b (map o_date x) -> b - a < 39 * 367) ->
  match p_cm P with
  | None => True
  | Some c => cm_int c <> 0 /\ (forall a m, k_cm K a m <> None) /\
              (forall d, In d (map o_date x) -> 0 <= Z.quot (d - cm_start c) (cm_int c) < zlen cm)
  end ->
  stand_procedure K P fuel x cm <> UB.
Proof.
  intros fuel Hc Hx Hf Hspan Hcm E. pose proof (@stand_sound M D K P x cm Hc Hx fuel Hf) as Hs.
  rewrite E in Hs. apply Hs. split; [exact Hspan|exact Hcm].
Qed.

(** ** C06 *)
Lemma closed_facts : forall r, closed_regular K P r \/ closed_initial K P r ->
  t_start r <= t_end r /\ t_end r < t_break r /\ change_prob r = 100.
Proof.
  intros r [((_ & _ & H) & H1 & H2 & _)|(_ & H1 & H2 & _)]; lia.
Qed.

Lemma closed_list_each : forall rs, closed_list K P rs ->
  Forall (fun r => closed_regular K P r \/ closed_initial K P r) rs.
Proof.
  intros [|r rs] H; [constructor|]. destruct H as [H1 H2]. constructor; [assumption|].
  eapply Forall_impl; [|exact H2]. auto.
Qed.

Lemma open_facts : forall live r, open_trained K P live r \/ open_untrained r ->
  t_start r <= t_end r /\ (t_break r <> 0 -> t_end r < t_break r).
Proof.
  intros live r [((_ & _ & H) & wo & _ & _ & [(c & _ & _ & H1 & H2)|(_ & _ & H3 & _)])|(_ & _ & H3 & H4 & _)].
  - split; [lia|]. intros Hb. destruct (Nat.eq_dec c 0); [tauto|]. apply H2; assumption.
  - split; [lia|]. tauto.
  - tauto.
Qed.

Theorem C06_records_ordered : forall fuel R, 1 <= p_conse P -> asc x -> fuel_ok fuel ->
  stand_procedure K P fuel x cm = Ok R ->
  Forall (fun r => t_start r <= t_end r /\ (t_break r <> 0 -> t_end r < t_break r)) (res_recs R) /\
  (forall pre r1 r2 post, res_recs R = pre ++ r1 :: r2 :: post -> t_break r1 <= t_start r2) /\
  Forall (fun r => In (t_start r) (map o_date x) /\ In (t_end r) (map o_date x) /\
                   (t_break r = 0 \/ In (t_break r) (map o_date x))) (res_recs R).
Proof.
  intros fuel R Hc Hx Hf H. destruct (run_sound Hc Hx Hf H) as [(Hch & Hsh) Hfr _ _ _].
  split; [|split].
  - destruct Hsh as [Hcl|(cl & r & E & Hcl & Hop)].
    + eapply Forall_impl; [|apply closed_list_each; exact Hcl]. intros r Hr.
      apply closed_facts in Hr. lia.
    + rewrite E. apply Forall_app. split.
      * eapply Forall_impl; [|apply closed_list_each; exact Hcl]. intros r' Hr. apply closed_facts in Hr. lia.
      * constructor; [|constructor]. eapply open_facts; eassumption.
  - intros pre. revert Hch. generalize (res_recs R) as rs. induction pre as [|a pre IH]; intros rs Hch r1 r2 post E.
    + subst rs. apply Hch.
    + subst rs. apply (IH (pre ++ r1 :: r2 :: post)) with (post := post); [|reflexivity].
      destruct pre; apply Hch.
  - eapply Forall_impl; [|exact Hfr]. intros r (H1 & H2 & H3 & _). intuition.
Qed.

(** ** C07 *)
Theorem C07_probability : forall fuel R, 1 <= p_conse P <= 100 -> asc x -> fuel_ok fuel ->
  (forall d, In d (map o_date x) -> 0 < d) ->
  stand_procedure K P fuel x cm = Ok R ->
  (* all but the last record *)
  (forall pre r r' post, res_recs R = pre ++ r :: r' :: post ->
     change_prob r = 100 /\ In (t_break r) (map o_date x)) /\
  (* a record below 100 is the last one, and its probability is the share of
     trailing anomalous observations *)
  (forall pre r post, res_recs R = pre ++ r :: post -> change_prob r <> 100 ->
     post = [] /\ 0 <= change_prob r < 100 /\ (t_break r <> 0 <-> 0 < change_prob r) /\
     (category r = 24 \/
      exists wo : list (obs * D), zlen wo = p_conse P /\
        map fst (tl wo) = skipn (length (res_live R) - (Z.to_nat (p_conse P) - 1)) (res_live R) /\
        ((exists c, trailing K P (map snd wo) c /\ change_prob r = Z.of_nat c * 100 / p_conse P) \/
         (change_prob r = 0 /\ (k_angle K (map snd wo) = NaN \/ p_cap P <= p_tcg P))))).
Proof.
  intros fuel R Hc Hx Hf Hpos H. destruct (run_sound (proj1 Hc) Hx Hf H) as [(Hch & Hsh) Hfr _ _ _].
  assert (Hin : forall r, In r (res_recs R) -> change_prob r = 100 -> In (t_break r) (map o_date x)).
  { intros r Hr Hp. rewrite Forall_forall in Hfr. destruct (Hfr r Hr) as (_ & _ & [[_ E]|E] & _); [lia|assumption]. }
  assert (Hcl : forall cl r, closed_list K P cl -> In r cl -> change_prob r = 100).
  { intros cl r Hcl Hr. apply closed_list_each in Hcl. rewrite Forall_forall in Hcl.
    apply Hcl in Hr. apply closed_facts in Hr. lia. }
  split.
  - intros pre r r' post E.
    assert (Hr : In r (res_recs R)) by (rewrite E; apply in_or_app; right; left; reflexivity).
    assert (Hp : change_prob r = 100).
    { destruct Hsh as [Hsh|(cl & ro & Eo & Hsh & _)]; [eapply Hcl; eassumption|].
      apply (Hcl cl); [assumption|]. rewrite Eo in E.
      destruct (@exists_last _ (r' :: post)) as (l & z & Ez); [discriminate|]. rewrite Ez in E.
      change (pre ++ r :: l ++ [z]) with (pre ++ (r :: l) ++ [z]) in E. rewrite app_assoc in E.
      apply app_inj_tail in E. destruct E as [E _]. rewrite E. apply in_or_app. right. left. reflexivity. }
    split; [assumption|]. apply Hin; assumption.
  - intros pre r post E Hp.
    assert (Hr : In r (res_recs R)) by (rewrite E; apply in_or_app; right; left; reflexivity).
    destruct Hsh as [Hsh|(cl & ro & Eo & Hsh & Hop)]; [exfalso; apply Hp; eapply Hcl; eassumption|].
    assert (post = [] /\ r = ro) as [Hpost Hro].
    { destruct post as [|z post].
      - rewrite Eo in E. apply app_inj_tail in E. destruct E; auto.
      - exfalso. apply Hp. apply (Hcl cl); [assumption|]. rewrite Eo in E.
        destruct (@exists_last _ (z :: post)) as (l & z' & Ez); [discriminate|]. rewrite Ez in E.
        change (pre ++ r :: l ++ [z']) with (pre ++ (r :: l) ++ [z']) in E. rewrite app_assoc in E.
        apply app_inj_tail in E. destruct E as [E _]. rewrite E. apply in_or_app. right. left. reflexivity. }
    subst ro. split; [assumption|].
    assert (Hbr : t_break r = 0 \/ 0 < t_break r).
    { rewrite Forall_forall in Hfr. destruct (Hfr r Hr) as (_ & _ & [[H1 _]|H1] & _); auto. }
    destruct Hop as [(_ & wo & Hw & Htl & Hop)|(H1 & H2 & H3 & _)].
    2:{ split; [lia|]. split; [lia|]. left. assumption. }
    rewrite zlen_map in Hw.
    destruct Hop as [(c & Ht & Hcp & H0 & H1)|(_ & Hp0 & Hb0 & Hang)].
    + assert (Hcl' : (c < length (map snd wo))%nat) by (destruct Ht as (_ & Hlt & _); assumption).
      rewrite map_length in Hcl'. unfold zlen in Hw.
      assert (Hr100 : 0 <= Z.of_nat c * 100 / p_conse P < 100) by (apply div100; lia).
      split; [lia|]. split; [|right; exists wo; split; [assumption|]; split; [assumption|]; left; exists c; auto].
      rewrite Hcp. destruct (Nat.eq_dec c 0) as [Hz|Hz].
      * subst c. simpl. rewrite (H0 eq_refl). split; [congruence|]. intros Habs. revert Habs. 
        rewrite Z.div_0_l by lia. lia.
      * split; [intros _|].
        -- assert (1 <= Z.of_nat c * 100 / p_conse P); [|lia]. apply Z.div_le_lower_bound; lia.
        -- intros _. destruct Hbr as [Hb|Hb]; [|lia]. destruct (H1 Hz) as (_ & _ & _ & o & e & t & _ & Ho).
           (* t_break = date of an observation, hence positive *)
           intros Hb'. clear Hb'.
           destruct (H1 Hz) as (Hlt & _). rewrite Forall_forall in Hfr. destruct (Hfr r Hr) as (_ & He & _).
           apply Hpos in He. lia.
    + split; [lia|]. split; [rewrite Hp0, Hb0; lia|]. right. exists wo. split; [assumption|]. split; [assumption|].
      right. split; [assumption|assumption].
Qed.

(** ** C08 *)
Theorem C08_break_rule : forall fuel R, 1 <= p_conse P -> asc x -> fuel_ok fuel -> p_tcg P < p_cap P ->
  stand_procedure K P fuel x cm = Ok R ->
  (* every test made while monitoring *)
  (forall d w v, In (EvMon d w v) (res_log R) ->
     zlen w = p_conse P /\ (exists o e t, w = (o, e) :: t /\ o_date o = d) /\ subseq (map fst w) x /\
     (v = true <-> Forall (anomalous K P) (map snd w) /\ consistent K P (map snd w))) /\
  (* the tests answered yes are, in order, the break dates of the closed
     regular records *)
  confirmed_dates (res_log R) = regular_breaks (res_recs R) /\
  (* and each closed regular record carries its evidence *)
  (forall r, In r (res_recs R) -> change_prob r = 100 -> category r <> 14 ->
     evidence K P (t_break r) (r_devs r)).
Proof.
  intros fuel R Hc Hx Hf Hcap H. destruct (run_sound Hc Hx Hf H) as [(Hch & Hsh) Hfr [_ Hlog] Hconf _].
  split; [|split; [assumption|]].
  - intros d w v Hin. rewrite Forall_forall in Hlog. specialize (Hlog _ Hin). simpl in Hlog.
    destruct Hlog as (H1 & H2 & H3 & H4). auto.
  - intros r Hr Hp Hcat.
    assert (Hor : closed_regular K P r \/ closed_initial K P r \/ open_trained K P (res_live R) r \/ open_untrained r).
    { destruct Hsh as [Hsh|(cl & ro & Eo & Hsh & Hop)].
      - apply closed_list_each in Hsh. rewrite Forall_forall in Hsh. specialize (Hsh r Hr). tauto.
      - rewrite Eo in Hr. apply in_app_or in Hr. destruct Hr as [Hr|[Hr|[]]].
        + apply closed_list_each in Hsh. rewrite Forall_forall in Hsh. specialize (Hsh r Hr). tauto.
        + subst ro. tauto. }
    destruct Hor as [(_ & _ & _ & He)|[(H1 & _)|[(_ & wo & Hw & _ & Hop)|(_ & H1 & _)]]]; [assumption|congruence| |lia].
    exfalso. rewrite zlen_map in Hw. destruct Hop as [(c & Ht & Hcp & _)|(_ & Hp0 & _)]; [|lia].
    destruct Ht as (_ & Hlt & _). rewrite map_length in Hlt. unfold zlen in Hw.
    pose proof (@div100 (Z.of_nat c) (p_conse P)). lia.
Qed.

(** ** C09, C10, C11 *)
Lemma each_record : forall fuel R r, 1 <= p_conse P -> asc x -> fuel_ok fuel ->
  stand_procedure K P fuel x cm = Ok R -> In r (res_recs R) ->
  regular r \/ closed_initial K P r \/ open_untrained r.
Proof.
  intros fuel R r Hc Hx Hf H Hr. destruct (run_sound Hc Hx Hf H) as [(Hch & Hsh) Hfr _ _ _].
  destruct Hsh as [Hsh|(cl & ro & Eo & Hsh & Hop)].
  - apply closed_list_each in Hsh. rewrite Forall_forall in Hsh. specialize (Hsh r Hr).
    destruct Hsh as [(Hsh & _)|Hsh]; tauto.
  - rewrite Eo in Hr. apply in_app_or in Hr. destruct Hr as [Hr|[Hr|[]]].
    + apply closed_list_each in Hsh. rewrite Forall_forall in Hsh. specialize (Hsh r Hr).
      destruct Hsh as [(Hsh & _)|Hsh]; tauto.
    + subst ro. destruct Hop as [(Hop & _)|Hop]; tauto.
Qed.

Theorem C09_category : forall fuel R r, 1 <= p_conse P -> asc x -> fuel_ok fuel ->
  stand_procedure K P fuel x cm = Ok R -> In r (res_recs R) ->
  (category r = 14 /\ change_prob r = 100 /\ exists post, res_recs R = r :: post) \/
  (category r = 24 /\ exists pre, res_recs R = pre ++ [r]) \/
  (category r = 4 /\ 12 <= num_obs r < 18) \/
  (category r = 6 /\ 18 <= num_obs r < 24) \/
  (category r = 8 /\ 24 <= num_obs r).
Proof.
  intros fuel R r Hc Hx Hf H Hr. destruct (run_sound Hc Hx Hf H) as [(Hch & Hsh) Hfr _ _ _].
  assert (Hreg : regular r -> (category r = 4 /\ 12 <= num_obs r < 18) \/
     (category r = 6 /\ 18 <= num_obs r < 24) \/ (category r = 8 /\ 24 <= num_obs r)).
  { intros (Hb & _). unfold best_num_c in Hb. tauto. }
  assert (Hcl : forall cl post, res_recs R = cl ++ post -> closed_list K P cl -> In r cl ->
     regular r \/ (category r = 14 /\ change_prob r = 100 /\ exists post, res_recs R = r :: post)).
  { intros cl post E Hcl Hin. destruct cl as [|a cl]; [contradiction|]. destruct Hcl as [Ha Hcl].
    destruct Hin as [Hin|Hin].
    - subst a. destruct Ha as [(Ha & _)|(Ha & Hp & _)]; [left; assumption|]. right.
      split; [assumption|]. split; [assumption|]. exists (cl ++ post). assumption.
    - rewrite Forall_forall in Hcl. destruct (Hcl _ Hin) as (Hg & _). left. assumption. }
  destruct Hsh as [Hsh|(cl & ro & Eo & Hsh & Hop)].
  - assert (Eq : res_recs R = res_recs R ++ []) by (rewrite app_nil_r; reflexivity).
    destruct (Hcl (res_recs R) [] Eq Hsh Hr) as [Hg|Hg]; [specialize (Hreg Hg)|]; tauto.
  - rewrite Eo in Hr. apply in_app_or in Hr. destruct Hr as [Hr|[Hr|[]]].
    + destruct (Hcl cl [ro] Eo Hsh Hr) as [Hg|Hg]; [specialize (Hreg Hg)|]; tauto.
    + subst ro. destruct Hop as [(Hop & _)|Hop].
      * specialize (Hreg Hop). tauto.
      * right. left. split; [apply Hop|]. exists cl. assumption.
Qed.

Theorem C10_year_and_twelve : forall fuel R r, 1 <= p_conse P -> asc x -> fuel_ok fuel ->
  stand_procedure K P fuel x cm = Ok R -> In r (res_recs R) ->
  category r <> 14 -> category r <> 24 ->
  366 <= t_end r - t_start r /\ 12 <= num_obs r.
Proof.
  intros fuel R r Hc Hx Hf H Hr H14 H24.
  destruct (each_record r Hc Hx Hf H Hr) as [(Hb & _ & Hs)|[(Hcat & _)|(Hcat & _)]]; [|congruence|congruence].
  split; [lia|]. unfold best_num_c in Hb. lia.
Qed.

Theorem C10_record_count : forall fuel R lo hi, 1 <= p_conse P -> asc x -> fuel_ok fuel ->
  (forall d, In d (map o_date x) -> lo <= d <= hi) ->
  stand_procedure K P fuel x cm = Ok R -> x <> [] ->
  zlen (res_recs R) <= 2 + (hi - lo) / 367.
Proof.
  intros fuel R lo hi Hc Hx Hf Hlh H Hne.
  destruct (run_sound Hc Hx Hf H) as [(Hch & Hsh) Hfr _ _ _].
  assert (Hw : lo <= hi).
  { destruct x as [|o x']; [contradiction|]. specialize (Hlh (o_date o)). simpl in Hlh. lia. }
  assert (Hdiv : 0 <= (hi - lo) / 367) by (apply Z.div_pos; lia).
  assert (Hcount : forall cl post, res_recs R = cl ++ post -> closed_list K P cl -> cl <> [] ->
     zlen cl - 1 <= (hi - lo) / 367).
  { intros cl post E Hcl Hn.
    assert (Hfc : Forall (from_series x) cl) by (rewrite E in Hfr; apply Forall_app in Hfr; tauto).
    apply Z.div_le_lower_bound; [lia|].
    assert (lo + 367 * (zlen cl - 1) <= hi); [|lia].
    eapply closed_count with (K := K) (P := P); eauto.
    - clear - Hch E. rewrite E in Hch. clear E. induction cl as [|a cl IH]; [exact I|].
      destruct cl as [|b cl]; [exact I|]. destruct Hch as [H1 H2]. split; [assumption|]. apply IH. assumption.
    - eapply Forall_impl; [|exact Hfc]. intros r (H1 & _). apply Hlh. assumption.
    - intros l r E'. rewrite E' in Hfc. apply Forall_app in Hfc. destruct Hfc as [_ Hfc].
      inversion Hfc as [|? ? (_ & _ & Hb & _) _]; subst.
      assert (Hp : change_prob r = 100).
      { apply closed_list_each in Hcl. apply Forall_app in Hcl. destruct Hcl as [_ Hcl].
        inversion Hcl as [|? ? Hr _]; subst. apply closed_facts in Hr. lia. }
      destruct Hb as [[_ Hb]|Hb]; [lia|]. apply Hlh. assumption. }
  destruct Hsh as [Hsh|(cl & ro & Eo & Hsh & Hop)].
  - destruct (res_recs R) as [|r0 rs0] eqn:Er; [unfold zlen; cbn [length]; lia|].
    specialize (Hcount (r0 :: rs0) []). rewrite app_nil_r in Hcount.
    specialize (Hcount eq_refl Hsh). assert (r0 :: rs0 <> []) by discriminate. specialize (Hcount H0). lia.
  - rewrite Eo, zlen_app. change (zlen [ro]) with 1.
    destruct cl as [|r0 rs0]; [unfold zlen; cbn [length]; lia|].
    specialize (Hcount _ _ Eo Hsh). assert (r0 :: rs0 <> []) by discriminate. specialize (Hcount H0). lia.
Qed.

Theorem C11_num_obs_partial : forall fuel R r, 1 <= p_conse P -> asc x -> fuel_ok fuel ->
  stand_procedure K P fuel x cm = Ok R -> In r (res_recs R) ->
  subseq (r_win r) x /\
  (category r <> 14 -> num_obs r = zlen (r_win r)) /\
  (category r = 14 -> num_obs r = zlen (r_win r) + 1).
Proof.
  intros fuel R r Hc Hx Hf H Hr.
  destruct (run_sound Hc Hx Hf H) as [_ Hfr _ _ _].
  split; [rewrite Forall_forall in Hfr; apply (Hfr r Hr)|].
  destruct (each_record r Hc Hx Hf H Hr) as [(Hb & Hn & Hs)|[(Hcat & H1)|(Hcat & H1)]].
  - split; [intros; assumption|]. intros E. exfalso. unfold best_num_c in Hb. lia.
  - split; [congruence|]. intros. lia.
  - split; [intros; tauto|]. intros. lia.
Qed.

(** ** C12 *)
Theorem C12_cm_maximum : forall fuel R c n dd, 1 <= p_conse P -> asc x -> fuel_ok fuel ->
  p_cm P = Some c -> 0 <= n < zlen cm ->
  stand_procedure K P fuel x cm = Ok R ->
  let e0 := nth (Z.to_nat n) cm dd in
  let e := nth (Z.to_nat n) (res_cm R) dd in
  let vs := cm_values c n (res_log R) in
  length (res_cm R) = length cm /\
  (* each value of the interval is the CM of a window *)
  (forall d w v, In (EvCM d w v) (res_log R) -> In d (map o_date x) /\ cm_value K P w v) /\
  (* the entry is the running maximum, dated at its first occurrence *)
  ((e = e0 /\ Forall (fun dv => snd dv <= fst e0) vs) \/
   (exists pre d post, vs = pre ++ (d, fst e) :: post /\ fst e0 < fst e /\
      snd e = wrap16 (d - 723742) /\
      Forall (fun dv => snd dv < fst e) pre /\ Forall (fun dv => snd dv <= fst e) post)).
Proof.
  intros fuel R c n dd Hc Hx Hf Hcm Hn H e0 e vs.
  destruct (run_sound Hc Hx Hf H) as [_ _ [[Hlen Hent] Hlog] _ _].
  rewrite Hcm in Hent. split; [assumption|]. split.
  - intros d w v Hin. rewrite Forall_forall in Hlog. exact (Hlog _ Hin).
  - exact (Hent n dd Hn).
Qed.

(** ** C15 *)
Inductive reach : st M D -> Prop :=
| reach0 : reach (init_st M D x cm)
| reachS : forall s s', reach s -> s_i s <= s_end s - p_conse P -> step K P s = Ok s' -> reach s'.

Theorem C15_observations_unaltered : forall s, 1 <= p_conse P -> asc x -> reach s ->
  subseq (s_live s) x /\ 1 <= s_start s <= s_i s /\
  (s_train s = true -> s_start s + 11 <= s_i s <= s_end s) /\
  (s_i s <= s_end s \/ (s_i s = 12 /\ s_live s = x /\ s_recs s = [])).
Proof.
  intros s Hc Hx Hr.
  assert (Inv K P x cm s /\ (s_i s <= s_end s - p_conse P + 1 \/ s = init_st M D x cm)) as [HI Hi].
  { induction Hr; [split; [apply Inv_init|right; reflexivity]|].
    destruct IHHr as [HI _]. pose proof (@step_wp M D K P x cm Hc Hx s HI H) as Hs.
    rewrite H0 in Hs. destruct Hs as (A & B & C). split; [exact A|left; exact C]. }
  destruct HI as ([Hsub Hst _ _ _ _ _ _ _] & HT & Hi2).
  split; [assumption|]. split; [assumption|]. split.
  - intros Htr. destruct (HT Htr) as [[Hsp _ _ _] _ _ _ _]. destruct Hi as [Hi|Hi]; [lia|].
    rewrite Hi in Htr. discriminate.
  - destruct Hi as [Hi|Hi]; [left; lia|right]. rewrite Hi. simpl. auto.
Qed.

Theorem C15_result : forall fuel R, 1 <= p_conse P -> asc x -> fuel_ok fuel ->
  stand_procedure K P fuel x cm = Ok R ->
  subseq (res_live R) x /\ Forall (fun r => subseq (r_win r) x) (res_recs R).
Proof.
  intros fuel R Hc Hx Hf H. destruct (run_sound Hc Hx Hf H) as [_ Hfr _ _ Hl].
  split; [assumption|]. eapply Forall_impl; [|exact Hfr]. intros r (_ & _ & _ & Hs). assumption.
Qed.

End Props.

(* ------------------------------------------------------------------ *)
(** * Witnesses *)

(** Non-vacuity: the hypotheses of C04-C15 hold for the two-level series. *)
Example cold_hypotheses_met :
  1 <= p_conse (toyP None) /\ asc two_levels /\ fuel_ok (toyP None) two_levels 60 /\
  p_tcg (toyP None) < p_cap (toyP None) /\
  (forall a b, In a (map o_date two_levels) -> In b (map o_date two_levels) -> b - a < 39 * 367) /\
  exists R, stand_procedure toy (toyP None) 60 two_levels [] = Ok R /\ length (res_recs R) = 2%nat.
Proof.
  split; [vm_compute; discriminate|]. split; [apply asc_two|]. split; [vm_compute; discriminate|].
  split; [reflexivity|]. split.
  - assert (H : forallb (fun a => (730000 <=? a) && (a <=? 731000)) (map o_date two_levels) = true) by (vm_compute; reflexivity).
    rewrite forallb_forall in H. intros a b Ha Hb. apply H in Ha. apply H in Hb. lia.
  - destruct (stand_procedure toy (toyP None) 60 two_levels []) as [R| | |] eqn:E;
      [exists R; split; [reflexivity|]|vm_compute in E; discriminate|vm_compute in E; discriminate|vm_compute in E; discriminate].
    vm_compute in E. injection E as E. subst R. reflexivity.
Qed.

(** C05 fails beyond the bound: 41 yearly segments (about 42 years) make the C code
    call realloc on the numpy buffer. *)
Theorem C05_long_series_refuted : exists (K : kernel Z Z) P x fuel,
  1 <= p_conse P /\ asc x /\ fuel_ok P x fuel /\ p_cm P = None /\
  stand_procedure K P fuel x [] = UB.
Proof.
  exists toy, (toyP None), (stairs 40 0 723742), 600%nat.
  split; [vm_compute; discriminate|]. split; [apply ascb_ok; vm_compute; reflexivity|].
  split; [vm_compute; discriminate|]. split; [reflexivity|]. vm_compute. reflexivity.
Qed.

(** An undefined angle makes the CM conversion undefined. *)
Theorem C05_nan_angle_refuted : exists (K : kernel Z Z) P x cm fuel c,
  1 <= p_conse P /\ asc x /\ fuel_ok P x fuel /\ p_cm P = Some c /\
  (forall d, In d (map o_date x) -> 0 <= bucket c d < zlen cm) /\
  stand_procedure K P fuel x cm = UB.
Proof.
  exists toy_nan, (toyP (Some (mkCm 730000 60))), two_levels, (repeat (-9999, -9999) 20), 60%nat, (mkCm 730000 60).
  split; [vm_compute; discriminate|]. split; [apply asc_two|].
  split; [vm_compute; discriminate|]. split; [reflexivity|]. split.
  - assert (H : forallb (fun a => (730000 <=? a) && (a <=? 731000)) (map o_date two_levels) = true) by (vm_compute; reflexivity).
    rewrite forallb_forall in H. intros d Hd. apply H in Hd. unfold bucket, cm_start, cm_int, zlen.
    rewrite repeat_length. rewrite Z.quot_div_nonneg by lia.
    split; [apply Z.div_pos; lia|apply Z.div_lt_upper_bound; lia].
  - vm_compute. reflexivity.
Qed.

(** C11 is false for the initial segment. *)
Theorem C11_num_obs_refuted : exists (K : kernel Z Z) P x fuel R r,
  asc x /\ stand_procedure K P fuel x [] = Ok R /\ In r (res_recs R) /\
  num_obs r <> zlen (r_win r).
Proof.
  exists toy, (toyP None), head_level, 60%nat.
  destruct (stand_procedure toy (toyP None) 60 head_level []) as [R| | |] eqn:E;
    [|vm_compute in E; discriminate|vm_compute in E; discriminate|vm_compute in E; discriminate].
  vm_compute in E. injection E as E. exists R.
  destruct R as [rs a b c]. injection E as E1 E2 E3 E4. destruct rs as [|r rs]; [discriminate|].
  exists r. split; [apply asc_head|]. split; [reflexivity|]. split; [left; reflexivity|].
  injection E1 as E1 _. subst r. vm_compute. discriminate.
Qed.

(** C12 on a run: the break shows up in its interval. *)
Example run_cm : (match stand_procedure toy (toyP (Some (mkCm 730000 60))) 60 two_levels (repeat (-9999, -9999) 20) with
   | Ok R => Some (res_cm R) | _ => None end) =
  Some (repeat (-9999, -9999) 6 ++ [(0, 6642); (0, 6690); (10000, 6738)] ++ repeat (-9999, -9999) 5 ++ [(0, 7122)] ++ repeat (-9999, -9999) 5).
Proof. vm_compute. reflexivity. Qed.

Print Assumptions C04_cold_terminates.
Print Assumptions C05_cold_memory_safe.
Print Assumptions C06_records_ordered.
Print Assumptions C07_probability.
Print Assumptions C08_break_rule.
Print Assumptions C09_category.
Print Assumptions C10_year_and_twelve.
Print Assumptions C10_record_count.
Print Assumptions C11_num_obs_partial.
Print Assumptions C12_cm_maximum.
Print Assumptions C15_observations_unaltered.
Print Assumptions C15_result.
Print Assumptions C05_long_series_refuted.
Print Assumptions C05_nan_angle_refuted.
Print Assumptions C11_num_obs_refuted.
