(** S-CCD: how an observation is judged while monitoring, why a record exists
    (C101), and what the pinpoint option changes (C102, C103).
    s_ccd.c 1755-2085 and 1144-1433. *)
From Verif Require Import Base SortModel LibModel LibProps ColdModel ColdLemmas ColdProps2 FrontModel FrontProps
  SccdModel SccdProof SccdTop SccdPack SccdTerm SccdApi SccdToy SccdProps.

(** ** The rule, written without the loop *)

(** A magnitude that is not below a threshold; NaN is not below anything
    (1786, 1801, 1941). *)
Definition reaches (t : Z) (v : fl) : bool := negb (flt v (Fin t)).

(** What happens to the current observation (2008, 2014, 2046). *)
Inductive verdict := Change | Outlier | Regular.

(** The verdict on the first observation of the window [os] (1755-2085):
    a change if all magnitudes reach the change threshold and the mean angle
    is not above NSIGN - with the pinpoint option the first three also have to
    reach the gate; otherwise an outlier if its own magnitude exceeds
    T_MAX_CG_SCCD. *)
Definition judge {N S F C} (K : skernel N S F C) (P : sparams) (m : N) (d : Z) (os : list obs) : verdict :=
  let v := map (k_norm2 K m d) os in
  if forallb (reaches (sp_tcgf P)) v
     && (negb (sp_pin P) || forallb (reaches (sp_gate P)) (firstn 3 v))
     && negb (fgt (k_angle2 K m d os) (Fin (sp_nsign P)))
  then Change
  else if existsb (fun w => fgt w (Fin (sp_tmaxs P))) (firstn 1 v) then Outlier else Regular.

(** The smallest of the magnitudes that are numbers: one of them, or the
    initial value 9999 if all are larger or NaN. *)
Definition smallest (cap : Z) (v : list fl) (b : fl) : Prop :=
  exists z, b = Fin z /\ (z = cap \/ In (Fin z) v) /\ z <= cap /\ forall w, In (Fin w) v -> z <= w.

Definition mn (l : list fl) (b : fl) : fl := fold_left (fun m v => if flt v m then v else m) l b.

Lemma mn_reach : forall t l z, flt (mn l (Fin z)) (Fin t) = negb (forallb (reaches t) l) || (z <? t).
Proof.
  intros t. unfold mn. induction l as [|v l IH]; intros z; [reflexivity|]. cbn [fold_left forallb].
  unfold reaches at 1. destruct v as [|v]; cbn [flt]; [apply IH|].
  destruct (v <? z) eqn:E; rewrite IH; destruct (forallb (reaches t) l); cbn [negb andb orb];
    rewrite ?andb_false_r, ?andb_true_r, ?negb_involutive; cbn [negb orb]; try reflexivity;
    destruct (v <? t) eqn:E1, (z <? t) eqn:E2; try reflexivity; lia.
Qed.

Lemma mn_small : forall l cap, smallest cap l (mn l (Fin cap)).
Proof.
  intros l. unfold mn, smallest. induction l as [|v l IH]; intros cap; cbn [fold_left].
  - exists cap. split; [reflexivity|]. split; [auto|]. split; [lia|]. intros w [].
  - destruct v as [|v]; cbn [flt].
    + destruct (IH cap) as (z & -> & H1 & H2 & H3). exists z. split; [reflexivity|]. split; [cbn [In]; tauto|]. split; [assumption|].
      intros w [E|Hw]; [discriminate|auto].
    + destruct (v <? cap) eqn:E.
      * destruct (IH v) as (z & -> & H1 & H2 & H3). exists z. split; [reflexivity|].
        split; [destruct H1 as [->|H1]; [right; left; reflexivity|right; right; assumption]|]. split; [lia|].
        intros w [Ew|Hw]; [injection Ew as <-; assumption|auto].
      * destruct (IH cap) as (z & -> & H1 & H2 & H3). exists z. split; [reflexivity|]. split; [cbn [In]; tauto|]. split; [assumption|].
        intros w [Ew|Hw]; [injection Ew as <-; lia|auto].
Qed.

Lemma smallest_unique : forall cap l a b, smallest cap l a -> smallest cap l b -> a = b.
Proof.
  intros cap l a b (x & -> & A1 & A2 & A3) (y & -> & B1 & B2 & B3). f_equal.
  assert (x <= y) by (destruct B1 as [->|B1]; auto). assert (y <= x) by (destruct A1 as [->|A1]; auto). lia.
Qed.

Section Decide.
Variables N S F C : Type.
Variable K : skernel N S F C.
Variable P : sparams.
Notation cst := (cst N S C).
Notation seg := (seg C).
Hypothesis Hcap : sp_tcgf P <= sp_cap P /\ sp_gate P <= sp_cap P.

Ltac cc := cbn [c_x c_i c_start c_dense c_prev c_train c_ts c_nobs c_m c_recs c_model c_chg c_pins c_cm
                set_idx fst snd] in *.
Ltac ib H a E := apply bind_ok in H; destruct H as (a & E & H).

Notation nrm m d os := (map (k_norm2 K m d) os).

(** The loop without pinpoint: it runs to the end iff every magnitude reaches
    the threshold. *)
Lemma scan_plain : sp_pin P = false -> forall m d os k z, sp_tcgf P <= z ->
  let '(flag, bm, _) := scan K P m d os k (Fin z) in
  flag = forallb (reaches (sp_tcgf P)) (nrm m d os) /\ (flag = true -> bm = mn (nrm m d os) (Fin z)).
Proof.
  intros Hp m d. induction os as [|o os IH]; intros k z Hz; [cbn; auto|]. cbn [scan]. rewrite Hp.
  cbn [map forallb]. unfold mn. cbn [fold_left]. fold (mn (nrm m d os)).
  unfold reaches at 1. destruct (k_norm2 K m d o) as [|v]; cbn [flt].
  - replace (z <? sp_tcgf P) with false by lia. apply IH. assumption.
  - destruct (v <? z) eqn:E; cbn [flt].
    + destruct (v <? sp_tcgf P) eqn:E1; [split; [reflexivity|discriminate]|]. apply IH. lia.
    + replace (z <? sp_tcgf P) with false by lia. replace (v <? sp_tcgf P) with false by lia. apply IH. assumption.
Qed.

(** With pinpoint: it runs to the end iff the first three reach the gate, and
    stops before the fourth otherwise. *)
Lemma scan_late : sp_pin P = true -> forall m d os k b, 3 <= k ->
  scan K P m d os k b = (true, mn (nrm m d os) b, k + zlen os).
Proof.
  intros Hp m d. induction os as [|o os IH]; intros k b Hk.
  - cbn. unfold zlen. cbn. rewrite Z.add_0_r. reflexivity.
  - cbn [scan map]. rewrite Hp. replace (k <? 3) with false by lia. rewrite andb_false_r. rewrite IH by lia.
    rewrite zlen_cons. replace (k + 1 + zlen os) with (k + (1 + zlen os)) by lia. reflexivity.
Qed.

Lemma scan_pin : sp_pin P = true -> forall m d os n z, sp_gate P <= z ->
  (n <= 3)%nat ->
  let '(flag, bm, ic) := scan K P m d os (3 - Z.of_nat n) (Fin z) in
  flag = forallb (reaches (sp_gate P)) (firstn n (nrm m d os)) /\
  (flag = true -> bm = mn (nrm m d os) (Fin z) /\ ic = 3 - Z.of_nat n + zlen os) /\
  (flag = false -> ic < 3).
Proof.
  intros Hp m d os n. revert os. induction n as [|n IH]; intros os z Hz Hn.
  { rewrite scan_late by (auto; lia). cbn [firstn forallb]. split; [reflexivity|]. split; [auto|discriminate]. }
  destruct os as [|o os].
  { cbn. unfold zlen. cbn. split; [reflexivity|]. split; [intros _; split; [reflexivity|lia]|discriminate]. }
  cbn [scan]. rewrite Hp. replace (3 - Z.of_nat (Datatypes.S n) <? 3) with true by lia. rewrite andb_true_r.
  cbn [map firstn forallb]. unfold mn. cbn [fold_left]. fold (mn (nrm m d os)). rewrite zlen_cons.
  replace (3 - Z.of_nat (Datatypes.S n) + 1) with (3 - Z.of_nat n) by lia.
  replace (3 - Z.of_nat (Datatypes.S n) + (1 + zlen os)) with (3 - Z.of_nat n + zlen os) by lia.
  unfold reaches at 1. destruct (k_norm2 K m d o) as [|v]; cbn [flt].
  - replace (z <? sp_gate P) with false by lia. apply IH; [assumption|lia].
  - destruct (v <? z) eqn:E; cbn [flt].
    + destruct (v <? sp_gate P) eqn:E1.
      * split; [reflexivity|]. split; [discriminate|]. intros _. lia.
      * apply IH; lia.
    + replace (z <? sp_gate P) with false by lia. replace (v <? sp_gate P) with false by lia. apply IH; lia.
Qed.

(** The condition in [step2] is the rule. *)
Lemma decide_change : forall m d os,
  let '(flag, bm, _) := scan K P m d os 0 (Fin (sp_cap P)) in
  (flag && negb (flt bm (Fin (sp_tcgf P))) && negb (fgt (k_angle2 K m d os) (Fin (sp_nsign P))) =
   match judge K P m d os with Change => true | _ => false end) /\
  (flag = true -> bm = mn (nrm m d os) (Fin (sp_cap P))).
Proof.
  intros m d os. unfold judge. destruct (sp_pin P) eqn:Hp; cbn [negb orb].
  - pose proof (@scan_pin Hp m d os 3 (sp_cap P) ltac:(lia) ltac:(lia)) as H.
    change (3 - Z.of_nat 3) with 0 in H.
    destruct (scan K P m d os 0 (Fin (sp_cap P))) as [[flag bm] ic]. destruct H as (H1 & H2 & _).
    split; [|intros E; apply H2; assumption]. rewrite H1.
    destruct (forallb (reaches (sp_gate P)) (firstn 3 (nrm m d os))) eqn:E; cbn [andb].
    + rewrite andb_true_r. destruct (H2 H1) as [-> _]. rewrite mn_reach. cbn [flt].
      replace (sp_cap P <? sp_tcgf P) with false by lia. rewrite orb_false_r, negb_involutive.
      destruct (_ && _); [reflexivity|]. destruct (existsb _ _); reflexivity.
    + rewrite andb_false_r. cbn [andb]. destruct (existsb _ _); reflexivity.
  - pose proof (@scan_plain Hp m d os 0 (sp_cap P) ltac:(lia)) as H.
    destruct (scan K P m d os 0 (Fin (sp_cap P))) as [[flag bm] ic]. destruct H as (H1 & H2).
    split; [|assumption]. rewrite andb_true_r, <- H1. destruct flag; cbn [andb].
    + rewrite H2 by reflexivity. rewrite mn_reach, <- H1. cbn [negb orb flt].
      replace (sp_cap P <? sp_tcgf P) with false by lia. cbn [negb andb].
      destruct (negb _); [reflexivity|]. destruct (existsb _ _); reflexivity.
    + destruct (existsb _ _); reflexivity.
Qed.

(** ** C101: one monitoring step *)
Theorem C101_step : forall void (s s' : cst) m, c_m s = Some m -> 1 <= sp_conse P ->
  step2 K P void s = Ok s' ->
  let d := c_nobs s - 6 in
  exists o o1 rest ts, skipn (Z.to_nat (c_i s)) (c_x s) = o :: rest /\ c_ts s = Some ts /\
  let os := firstn (Z.to_nat (sp_conse P)) (o :: rest) in
  zlen os = sp_conse P /\
  match judge K P m d os with
  | Change =>
      c_recs s' = c_recs s ++ [mkSeg ts (o_date o) (c_nobs s) (k_rec K m d os) os] /\
      c_train s' = false /\ c_x s' = c_x s /\ c_i s' = c_i s + 1 /\ c_start s' = c_i s /\ c_prev s' = c_i s /\
      exists b, smallest (sp_cap P) (nrm m d os) b /\ nm_cm (c_model s') = k_m16 K b /\
                k_a16 K (k_angle2 K m d os) = Some (nm_angle (c_model s')) /\ nm_last (c_model s') = sp_conse P
  | Outlier =>
      head rest = Some o1 /\ c_recs s' = c_recs s /\ c_train s' = true /\
      c_x s' = firstn (Z.to_nat (c_i s)) (c_x s) ++ rest /\ c_i s' = c_i s /\ c_nobs s' = c_nobs s /\
      c_m s' = Some (k_skip K m (o_date o1 - o_date o)) /\ c_model s' = c_model s
  | Regular =>
      head rest = Some o1 /\ c_recs s' = c_recs s /\ c_train s' = true /\
      c_x s' = c_x s /\ c_i s' = c_i s + 1 /\ c_nobs s' = c_nobs s + 1 /\
      c_m s' = Some (k_filter K m o (o_date o1 - o_date o)) /\ c_model s' = c_model s
  end.
Proof.
  intros void s s' m Em Hc H d. unfold step2 in H. rewrite Em in H. destruct (c_ts s) as [ts|]; [|discriminate].
  fold d in H. ib H os Eos. ib H o Eo.
  pose proof (slice_inv _ _ _ Eos) as (Hi & _ & Hl & Ew).
  apply get_inv in Eo. destruct Eo as [Hg Eo].
  assert (Hsk : exists rest, skipn (Z.to_nat (c_i s)) (c_x s) = o :: rest /\
            rest = skipn (Datatypes.S (Z.to_nat (c_i s))) (c_x s)).
  { clear -Eo. revert Eo. generalize (Z.to_nat (c_i s)) as n. generalize (c_x s) as l.
    induction l as [|a l IH]; intros [|n] E; try discriminate.
    - injection E as ->. exists l. split; reflexivity.
    - apply IH in E. exact E. }
  destruct Hsk as (rest & Hsk & Hrest).
  assert (Hos : os = firstn (Z.to_nat (sp_conse P)) (o :: rest)) by (rewrite <- Hsk; assumption).
  assert (Hlen : zlen os = sp_conse P) by (apply (Base.slice_len _ _ _ Eos)).
  pose proof (@decide_change m d os) as HD.
  destruct (scan K P m d os 0 (Fin (sp_cap P))) as [[flag bm] ic]. destruct HD as [HD Hbm].
  apply bind_ok in H. destruct H as ([pins cm] & _ & H). cbv zeta in H. rewrite HD in H.
  assert (Hg1 : forall o1, get (c_x s) (c_i s + 1) = Ok o1 -> head rest = Some o1).
  { intros o1 E. apply get_inv in E. destruct E as [_ E]. rewrite Hrest.
    replace (Z.to_nat (c_i s + 1)) with (Datatypes.S (Z.to_nat (c_i s))) in E by lia.
    clear -E. revert E. generalize (Datatypes.S (Z.to_nat (c_i s))) as n. generalize (c_x s) as l.
    induction l as [|a l IH]; intros [|n] E; try discriminate; [exact E|]. apply IH in E. exact E. }
  assert (H1 : existsb (fun w => fgt w (Fin (sp_tmaxs P))) (firstn 1 (nrm m d os)) = fgt (k_norm2 K m d o) (Fin (sp_tmaxs P))).
  { rewrite Hos. replace (Z.to_nat (sp_conse P)) with (Datatypes.S (Z.to_nat (sp_conse P - 1))) by lia.
    cbn [firstn map existsb]. apply orb_false_r. }
  assert (Hj : judge K P m d os = Change \/
     (judge K P m d os = if fgt (k_norm2 K m d o) (Fin (sp_tmaxs P)) then Outlier else Regular)).
  { unfold judge in *. rewrite H1. destruct (_ && _ && _); auto. }
  destruct (judge K P m d os) eqn:Ej.
  - ib H a16 Ea. ib H rs Er. ib H w Ew8. injection H as <-. exists o, o, rest, ts.
    split; [assumption|]. split; [reflexivity|]. rewrite <- Hos. split; [assumption|]. rewrite Ej. cc.
    unfold push_seg in Er. destruct (_ <=? _); [discriminate|]. injection Er as <-.
    repeat (split; [reflexivity|]). exists bm. cbn [nm_cm nm_angle nm_last].
    assert (Hfl : flag = true).
    { destruct flag; [reflexivity|discriminate]. }
    split; [rewrite (Hbm Hfl); apply mn_small|]. split; [reflexivity|].
    unfold conv16 in Ea. destruct (k_a16 K _); [|discriminate]. injection Ea as ->. auto.
  - destruct Hj as [Hj|Hj]; [discriminate|]. destruct (fgt (k_norm2 K m d o) _); [|discriminate].
    ib H o1 E1. injection H as <-. exists o, o1, rest, ts.
    split; [assumption|]. split; [reflexivity|]. rewrite <- Hos. split; [assumption|]. rewrite Ej. cc.
    split; [auto|]. repeat (split; [reflexivity|]). split; [|auto]. unfold del. rewrite Hrest. reflexivity.
  - destruct Hj as [Hj|Hj]; [discriminate|]. destruct (fgt (k_norm2 K m d o) _); [discriminate|].
    ib H o1 E1. destruct (_ <=? 0); [discriminate|]. injection H as <-. exists o, o1, rest, ts.
    split; [assumption|]. split; [reflexivity|]. rewrite <- Hos. split; [assumption|]. rewrite Ej. cc. auto 10.
Qed.

(** ** Why a record exists *)

(** A record written while monitoring: the window at its break, judged with
    the model whose coefficients it holds. *)
Definition by_monitor (x : list obs) (r : seg) : Prop :=
  exists m o t, g_win r = o :: t /\ g_break r = o_date o /\ zlen (g_win r) = sp_conse P /\ subseq (g_win r) x /\
    judge K P m (g_nobs r - 6) (g_win r) = Change /\ g_fit r = k_rec K m (g_nobs r - 6) (g_win r).

(** The first record of a pixel, written by the look-back (1144-1433): the
    observations before the break - at most [sp_conse P], newest first - are
    off the initial model. *)
Definition by_lookback (x : list obs) (r : seg) : Prop :=
  exists f w wf, 6 <= g_nobs r /\ k_fit1 K wf = Some f /\ subseq wf x /\
    k_first K f w (g_win r) = Some (g_fit r) /\ zlen (g_win r) = sp_conse P /\
    Forall (fun o => In o x) (g_win r) /\
    let near := firstn (Z.to_nat (g_nobs r)) (g_win r) in
    Forall (fun o => fle (k_back K f o) (Fin (sp_tcg P)) = false) near /\
    flt (k_bangle K f near) (Fin (sp_nsign P)) = true.


Lemma mapM_ext : forall x (f g : nat -> Z) n k, (forall c, f c = g c) -> mapM_idx x f k n = mapM_idx x g k n.
Proof.
  intros x f g n. induction n as [|n IH]; intros k H; [reflexivity|]. cbn [mapM_idx]. rewrite H.
  rewrite (IH _ H). reflexivity.
Qed.

Lemma back_why : forall n f prev x i x' i' start', back K P n f prev x i (prev + Z.of_nat n) = Ok (x', i', start') ->
  subseq x' x /\ prev <= start' /\
  (start' = prev \/ exists os, 
     mapM_idx x' (fun c => start' - (Z.of_nat c + 1)) 0 (Z.to_nat (Z.min (start' - prev) (sp_conse P))) = Ok os /\
     Forall (fun o => fle (k_back K f o) (Fin (sp_tcg P)) = false) os /\
     flt (k_bangle K f os) (Fin (sp_nsign P)) = true).
Proof.
  induction n as [|n IH]; intros f prev x i x' i' start' H; cbn [back] in H.
  { injection H as <- <- <-. split; [apply subseq_refl|]. split; [lia|]. left. lia. }
  replace (prev + Z.of_nat n - prev + 1) with (prev + Z.of_nat (Datatypes.S n) - prev) in H by lia.
  set (st := prev + Z.of_nat (Datatypes.S n)) in *.
  set (ini := if st - prev <? sp_conse P then st - prev else sp_conse P) in *.
  assert (Hini : ini = Z.min (st - prev) (sp_conse P)) by (unfold ini; destruct (_ <? _) eqn:E; lia).
  destruct (ini =? 0); [discriminate|]. ib H os Eos.
  destruct (_ && _) eqn:Ec in H.
  - injection H as <- <- <-. split; [apply subseq_refl|]. split; [unfold st; lia|]. right. exists os.
    apply andb_true_iff in Ec. destruct Ec as [E1 E2]. rewrite <- Hini. split; [|split; [|assumption]].
    + rewrite <- Eos. apply mapM_ext. intros c. unfold st. lia.
    + apply Forall_forall. intros o Ho.
      destruct (fmin_spec (sp_cap P) (map (k_back K f) os)) as [_ Hm].
      specialize (Hm (k_back K f o) (in_map _ _ _ Ho)).
      destruct (fmin _ _) as [|z]; [discriminate|]. destruct (k_back K f o) as [|y]; [reflexivity|].
      cbn [flt fle] in *. lia.
  - destruct (_ && (prev <=? _)) in H.
    + apply IH in H. destruct H as (H1 & H2 & H3). split; [|auto]. eapply subseq_trans; [exact H1|apply subseq_del].
    + apply IH in H. exact H.
Qed.

Definition why (x : list obs) (r0 : list seg) (t : list seg) : Prop :=
  forall r, In r t -> by_monitor x r \/ (r0 = [] /\ head t = Some r /\ by_lookback x r).

Lemma why_app : forall x r0 t r, why x r0 t -> by_monitor x r -> why x r0 (t ++ [r]).
Proof.
  intros x r0 t r H Hr q Hq. apply in_app_or in Hq. destruct Hq as [Hq|[<-|[]]]; [|left; assumption].
  destruct (H q Hq) as [H1|(H1 & H2 & H3)]; [left; assumption|]. right. split; [assumption|]. split; [|assumption].
  destruct t; [discriminate|]. exact H2.
Qed.

(** Invariant: observations come from the call, records are accounted for. *)
Definition WI (x : list obs) (r0 : list seg) (s : cst) : Prop :=
  subseq (c_x s) x /\ exists t, c_recs s = r0 ++ t /\ why x r0 t.

Lemma mapM_in : forall x f k n os, mapM_idx x f k n = Ok os -> Forall (fun o => In o x) os /\ length os = n.
Proof.
  intros x f k n os H. apply mapM_inv in H. destruct H as [-> H]. split; [|rewrite map_length, seq_length; reflexivity].
  apply Forall_forall. intros o Ho. apply in_map_iff in Ho. destruct Ho as (c & <- & Hc).
  apply in_seq in Hc. apply In_nthO. apply H. lia.
Qed.

Lemma mapM_pre : forall x f n n' os os', (n' <= n)%nat -> mapM_idx x f 0 n = Ok os -> mapM_idx x f 0 n' = Ok os' ->
  os' = firstn n' os.
Proof.
  intros x f n n' os os' Hn H H'. apply mapM_inv in H. apply mapM_inv in H'. destruct H as [-> _]. destruct H' as [-> _].
  rewrite firstn_map. f_equal. replace n with (n' + (n - n'))%nat by lia. rewrite seq_app, firstn_app, seq_length.
  replace (n' - n')%nat with 0%nat by lia. cbn [firstn]. rewrite app_nil_r, firstn_all2; [reflexivity|].
  rewrite seq_length. lia.
Qed.

Lemma step1_why : forall x r0 (s s' : cst) r, 1 <= sp_conse P -> step1 K P s = Ok (s', r) -> WI x r0 s -> WI x r0 s'.
Proof.
  intros x r0 s s' r Hc H [HS HR]. unfold step1 in H. cbv zeta in H.
  ib H w Ew. destruct (365 <? _); [injection H as <- _; split; assumption|].
  ib H wide Ewide. destruct (k_mask1 K wide) as [flags|]; [|injection H as <- _; split; assumption].
  set (w' := keep_from flags 0 w) in *.
  destruct (zlen w' <? 18); [injection H as <- _; split; assumption|].
  set (cp := firstn (Z.to_nat (c_start s)) (c_x s) ++ w' ++ skipn (Z.to_nat (c_i s + 1)) (c_x s)) in *.
  assert (Hcp : subseq cp x).
  { eapply subseq_trans; [|exact HS]. pose proof (slice_inv _ _ _ Ew) as (S1 & S2 & S3 & S4).
    unfold cp. replace (Z.to_nat (c_i s + 1)) with (Z.to_nat (c_start s) + Z.to_nat (c_i s - c_start s + 1))%nat by lia.
    apply subseq_mid. rewrite <- S4. apply keep_sub. }
  ib H ce Ece. ib H cs Ecs. destruct (_ <? 366); [injection H as <- _; split; assumption|].
  ib H wf Ewf. destruct (k_fit1 K wf) as [f|] eqn:Ef; [|injection H as <- _; split; assumption].
  destruct (flt _ (k_stab1 K f wf)); [injection H as <- _; split; assumption|].
  set (prev := match c_recs s with [] => c_dense s | _ => c_prev s end) in *.
  apply bind_ok in H. destruct H as ([[x2 i2] start2] & Eb & H).
  assert (Hb : subseq x2 cp /\ (c_recs s = [] -> 6 <= start2 - c_dense s -> exists os,
     mapM_idx x2 (fun c => start2 - (Z.of_nat c + 1)) 0 (Z.to_nat (Z.min (start2 - c_dense s) (sp_conse P))) = Ok os /\
     Forall (fun o => fle (k_back K f o) (Fin (sp_tcg P)) = false) os /\
     flt (k_bangle K f os) (Fin (sp_nsign P)) = true)).
  { destruct (prev <=? c_start s) eqn:E.
    - assert (Est : c_start s = prev + Z.of_nat (Z.to_nat (c_start s - prev))) by lia.
      set (i' := c_start s + zlen w' - 1) in Eb. clearbody i'.
      set (n := Z.to_nat (c_start s - prev)) in *. rewrite Est in Eb.
      apply back_why in Eb. destruct Eb as (B1 & B2 & B3). split; [assumption|]. intros Er H6.
      unfold prev in *. rewrite Er in *. destruct B3 as [B3|B3]; [lia|exact B3].
    - replace (Z.to_nat (c_start s - prev)) with 0%nat in Eb by lia. cbn [back] in Eb. injection Eb as <- <- <-.
      split; [apply subseq_refl|]. intros Er H6. unfold prev in E. rewrite Er in E. lia. }
  destruct Hb as [Hx2 Hev].
  assert (Hx2' : subseq x2 x) by (eapply subseq_trans; eassumption).
  assert (Hs2 : WI x r0 (set_idx s x2 i2 start2 (c_dense s) prev)) by (split; assumption).
  destruct (c_recs s) as [|rc rs] eqn:Er; [|injection H as <- _; exact Hs2].
  destruct (6 <=? start2 - c_dense s) eqn:E6; [|injection H as <- _; exact Hs2].
  ib H w2 Ew2. ib H os Eos. destruct (k_first K f w2 os) as [c|] eqn:Ec; [|injection H as <- _; exact Hs2].
  ib H ob Eob. ib H o0 Eo0. rewrite push_nil in H. cbn [bind] in H. injection H as <- _.
  split; cc; [assumption|]. destruct HR as (t & Et & _).
  assert (Hr0 : r0 = []) by (destruct r0; [reflexivity|discriminate]). subst r0. eexists. split; [reflexivity|].
  intros q [<-|[]]. right. split; [reflexivity|]. split; [reflexivity|].
  destruct (Hev eq_refl ltac:(lia)) as (os' & V1 & V2 & V3).
  destruct (mapM_in _ _ _ _ Eos) as [I1 I2].
  pose proof (fun Hle => @mapM_pre _ _ _ _ os os' Hle Eos V1) as Epre.
  specialize (Epre ltac:(lia)).
  exists f, w2, wf. cbn [g_nobs g_fit g_win]. unfold prev.
  split; [lia|]. split; [assumption|]. split.
  { eapply subseq_trans; [|exact Hcp]. pose proof (slice_inv _ _ _ Ewf) as (_ & _ & _ & ->). apply subseq_slice. }
  split; [assumption|]. split; [unfold zlen; lia|]. split.
  { eapply Forall_impl; [|exact I1]. intros o Ho. eapply subseq_In; [exact Hx2'|exact Ho]. }
  assert (En : firstn (Z.to_nat (start2 - c_dense s)) os = os').
  { rewrite Epre. destruct (Z.leb_spec (sp_conse P) (start2 - c_dense s)).
    - rewrite firstn_all2 by lia. rewrite firstn_all2 by lia. reflexivity.
    - f_equal. lia. }
  cbv zeta. rewrite En. auto.
Qed.

Lemma step2_why : forall x r0 void (s s' : cst), 1 <= sp_conse P -> step2 K P void s = Ok s' -> WI x r0 s -> WI x r0 s'.
Proof.
  intros x r0 void s s' Hc H [HS (t & Et & HW)].
  destruct (c_m s) as [m|] eqn:Em; [|unfold step2 in H; rewrite Em in H; discriminate].
  pose proof (@C101_step void s s' m Em Hc H) as HT. cbv zeta in HT. destruct HT as (o & o1 & rest & ts & Hsk & Ets & Hl & HT).
  set (os := firstn (Z.to_nat (sp_conse P)) (o :: rest)) in *.
  assert (Hsub : subseq (o :: rest) (c_x s)) by (rewrite <- Hsk; apply subseq_skipn).
  destruct (judge K P m (c_nobs s - 6) os) eqn:Ej.
  - destruct HT as (H1 & _ & H3 & _). split; [rewrite H3; assumption|].
    exists (t ++ [mkSeg ts (o_date o) (c_nobs s) (k_rec K m (c_nobs s - 6) os) os]).
    split; [rewrite H1, Et, app_assoc; reflexivity|]. apply why_app; [assumption|].
    assert (Eos : os = o :: firstn (Z.to_nat (sp_conse P - 1)) rest).
    { unfold os. replace (Z.to_nat (sp_conse P)) with (Datatypes.S (Z.to_nat (sp_conse P - 1))) by lia. reflexivity. }
    exists m, o. eexists. cbn [g_win g_break g_nobs g_fit]. split; [exact Eos|]. split; [reflexivity|].
    split; [assumption|]. split; [|auto].
    eapply subseq_trans; [apply subseq_firstn|]. eapply subseq_trans; eassumption.
  - destruct HT as (_ & H2 & _ & H4 & _). split; [|exists t; rewrite H2; auto].
    rewrite H4. eapply subseq_trans; [|exact HS]. rewrite <- (firstn_skipn (Z.to_nat (c_i s)) (c_x s)) at 2.
    apply subseq_app; [apply subseq_refl|]. rewrite Hsk. apply sub_drop. apply subseq_refl.
  - destruct HT as (_ & H2 & _ & H4 & _). split; [rewrite H4; assumption|exists t; rewrite H2; auto].
Qed.

Lemma cloop_why : forall x r0 void, 1 <= sp_conse P -> forall fuel (s s' : cst),
  cloop K P void fuel s = Ok s' -> WI x r0 s -> WI x r0 s'.
Proof.
  intros x r0 void Hc. induction fuel as [|fuel IH]; intros s s' H HI; cbn [cloop] in H.
  - destruct (_ <=? _); [discriminate|]. injection H as <-. assumption.
  - destruct (_ <=? _); [|injection H as <-; assumption]. ib H sa E1. apply (IH _ _ H).
    unfold cstep in E1. destruct (c_train s); [eapply step2_why; eassumption|]. cbv zeta in E1.
    ib E1 xe Exe. ib E1 xs Exs. apply bind_ok in E1. destruct E1 as ([s2 r] & E2 & E1).
    assert (H2 : WI x r0 s2).
    { destruct (_ && _) in E2; [eapply step1_why; eassumption|]. injection E2 as <- _. assumption. }
    destruct r.
    + injection E1 as <-. exact H2.
    + ib E1 w Ew. ib E1 on Eon. ib E1 os Eos. ib E1 m Em. injection E1 as <-. exact H2.
    + injection E1 as <-. exact H2.
Qed.

Lemma standard_why : forall fuel x a b, 1 <= sp_conse P -> standard K P fuel x a = Ok b ->
  exists t, io_recs b = io_recs a ++ t /\ why x (io_recs a) t.
Proof.
  intros fuel x a b Hc H. unfold standard in H. cbv zeta in H. ib H ol Eol. ib H o0 Eo0.
  destruct (_ <? 0) in H; [discriminate|]. ib H s Es.
  apply (@cloop_why x (io_recs a)) in Es; [|assumption|].
  2: { split; cc; [apply subseq_refl|]. exists []. rewrite app_nil_r. split; [reflexivity|]. intros r []. }
  destruct Es as [_ Es]. apply bind_ok in H. destruct H as ([m1 prev] & _ & H).
  apply bind_ok in H. destruct H as ([m2 model] & _ & H). ib H q Eqq. injection H as <-. exact Es.
Qed.

End Decide.

(** ** C101: every record of a call, whatever the numerical routines return *)

(** Records written by one call, [x] being the observations it works on. *)
Definition accounted {N S F C} (K : skernel N S F C) (P : sparams) (x : list obs) (old new : list (seg C)) : Prop :=
  exists t, new = old ++ t /\
  forall r, In r t -> by_monitor K P x r \/ (old = [] /\ head t = Some r /\ by_lookback K P x r).

Section Calls.
Variables N S F C : Type.
Implicit Types (K : list Z -> skernel N S F C) (a b : io S C).

Lemma snow_same : forall (k : skernel N S F C) x a b, snow k x a = Ok b ->
  io_recs b = io_recs a /\ io_rmse b = io_rmse a /\ io_pins b = io_pins a.
Proof.
  intros k x a b E. unfold snow in E. cbv zeta in E. destruct (_ || _) in E.
  - destruct (_ <? 18) in E.
    + apply bind_ok in E. destruct E as (q & _ & E). injection E as <-. auto.
    + apply bind_ok in E. destruct E as (m & _ & E). apply bind_ok in E. destruct E as (o0 & _ & E).
      apply bind_ok in E. destruct E as (w & _ & E). injection E as <-. auto.
  - apply bind_ok in E. destruct E as (m & _ & E). apply bind_ok in E. destruct E as (w & _ & E). injection E as <-. auto.
Qed.

Lemma standard_rmse : forall (k : skernel N S F C) P fuel x a b, standard k P fuel x a = Ok b -> io_rmse b = io_rmse a.
Proof.
  intros k P fuel x a b H. unfold standard in H. cbv zeta in H.
  apply bind_ok in H. destruct H as (ol & _ & H). apply bind_ok in H. destruct H as (o0 & _ & H).
  destruct (_ <? 0) in H; [discriminate|]. apply bind_ok in H. destruct H as (s & _ & H).
  apply bind_ok in H. destruct H as ([m1 prev] & _ & H). apply bind_ok in H. destruct H as ([m2 model] & _ & H).
  apply bind_ok in H. destruct H as (q & _ & H). injection H as <-. reflexivity.
Qed.

Lemma sccd_why : forall K P c2 junk fuel rows a b, 1 <= sp_conse P -> length junk = 6%nat ->
  sp_tcgf P <= sp_cap P /\ sp_gate P <= sp_cap P ->
  sccd K P c2 junk fuel rows a = Ok b ->
  accounted (K (io_rmse b)) P (call_obs c2 false rows a) (io_recs a) (io_recs b).
Proof.
  intros K P c2 junk fuel rows a b Hc Hj Hcap H.
  assert (Hsame : forall rm sn, io_recs b = io_recs a -> accounted (K rm) P (call_obs c2 sn rows a) (io_recs a) (io_recs b)).
  { intros rm sn E. exists []. rewrite app_nil_r. split; [assumption|]. intros r []. }
  destruct (@sccd_cases N S F C K P c2 junk fuel rows a Hj) as [E|(sn & _ & _ & _ & Hcase)]; [congruence|].
  cbv zeta in Hcase. destruct Hcase as [[-> E]|[(-> & _ & E)|(-> & _ & rm & _ & E)]]; rewrite H in E; symmetry in E.
  - apply Hsame. apply snow_same in E. apply E.
  - injection E as <-. apply Hsame. reflexivity.
  - rewrite (standard_rmse _ _ _ _ _ E). cbn [io_rmse]. apply standard_why in E; auto.
Qed.

Lemma rmse_back : forall jm b' b, returned jm b' = Ok b -> io_rmse b = io_rmse b'.
Proof.
  intros jm a b H. unfold returned in H.
  destruct (_ || _); [injection H as <-; reflexivity|]. destruct (_ || _); [injection H as <-; reflexivity|].
  destruct (_ =? 5); [injection H as <-; reflexivity|]. destruct (_ =? 0); [injection H as <-; reflexivity|discriminate].
Qed.

Theorem C101_detect : forall K P c2 junk jm rows b, 1 <= sp_conse P -> length junk = 6%nat ->
  sp_tcgf P <= sp_cap P -> sp_gate P <= sp_cap P ->
  detect K P c2 junk jm rows = Ok b ->
  accounted (K (io_rmse b)) P (call_obs c2 false rows (blank C jm)) [] (io_recs b).
Proof.
  intros K P c2 junk jm rows b Hc Hj H1 H2 H. destruct (@detect_ok _ _ _ _ _ _ _ _ _ _ _ H) as (b' & E & Er & _).
  apply sccd_why in E; auto. rewrite (rmse_back _ _ Er).
  destruct (returned_recs _ _ Er) as [-> |[_ ->]]; [exact E|]. exists []. split; [reflexivity|]. intros r [].
Qed.

Theorem C101_update : forall K P c2 junk jm rows a b, 1 <= sp_conse P -> length junk = 6%nat ->
  sp_tcgf P <= sp_cap P -> sp_gate P <= sp_cap P -> io_mode b <> 0 ->
  update K P c2 junk jm rows a = Ok b ->
  accounted (K (io_rmse b)) (no_pin P) (call_obs c2 false rows a) (io_recs a) (io_recs b).
Proof.
  intros K P c2 junk jm rows a b Hc Hj H1 H2 Hm H. destruct (@update_ok _ _ _ _ _ _ _ _ _ _ _ _ H) as (b' & E & Er).
  apply sccd_why in E; auto. rewrite (rmse_back _ _ Er).
  destruct (returned_recs _ _ Er) as [E'|[E' _]]; [rewrite E'; exact E|].
  rewrite <- (returned_mode _ _ Er) in E'. contradiction.
Qed.

(** ** C102: the pinpoint option changes nothing but the pinpoint entries *)

Lemma judge_pin : forall (k : skernel N S F C) P m d os, sp_gate P <= sp_tcgf P ->
  judge k (no_pin P) m d os = judge k P m d os.
Proof.
  intros k P m d os Hg. unfold judge. cbn [no_pin sp_tcgf sp_pin sp_gate sp_nsign sp_tmaxs negb orb].
  destruct (forallb (reaches (sp_tcgf P)) _) eqn:E; [|reflexivity].
  assert (E3 : forallb (reaches (sp_gate P)) (firstn 3 (map (k_norm2 k m d) os)) = true).
  { rewrite forallb_forall in *. intros v Hv.
    assert (Hin : In v (map (k_norm2 k m d) os)) by (rewrite <- (firstn_skipn 3); apply in_or_app; auto).
    specialize (E v Hin). unfold reaches in *. destruct v as [|z]; [reflexivity|]. cbn [flt] in *. lia. }
  rewrite E3, orb_true_r. reflexivity.
Qed.

Notation cst := (cst N S C).

(** The state with other pinpoint variables. *)
Definition repin (p : list pin) (c : list fl) (s : cst) : cst :=
  mkC (c_x s) (c_i s) (c_start s) (c_dense s) (c_prev s) (c_train s) (c_ts s) (c_nobs s) (c_m s) (c_recs s)
      (c_model s) (c_chg s) p c.

Lemma step1_pin : forall (k : skernel N S F C) P p c (s s' : cst) r, step1 k P s = Ok (s', r) ->
  step1 k (no_pin P) (repin p c s) = Ok (repin p c s', r).
Proof.
  intros k P p c s s' r H.
  assert (E : step1 k (no_pin P) (repin p c s) = step1 k P (repin p c s)) by (destruct P; reflexivity). rewrite E. clear E.
  unfold step1 in *. cbv zeta in *. cbn [repin c_x c_i c_start c_dense c_prev c_recs] in *. unfold n_clr in *.
  cbn [repin c_x] in *.
  apply bind_ok in H. destruct H as (w & Ew & H). rewrite Ew. cbn [bind].
  destruct (365 <? _); [injection H as <- <-; reflexivity|].
  apply bind_ok in H. destruct H as (wide & Ewide & H). rewrite Ewide. cbn [bind].
  destruct (k_mask1 k wide) as [flags|]; [|injection H as <- <-; reflexivity].
  destruct (_ <? 18); [injection H as <- <-; reflexivity|].
  apply bind_ok in H. destruct H as (ce & Ece & H). rewrite Ece. cbn [bind].
  apply bind_ok in H. destruct H as (cs & Ecs & H). rewrite Ecs. cbn [bind].
  destruct (_ <? 366); [injection H as <- <-; reflexivity|].
  apply bind_ok in H. destruct H as (wf & Ewf & H). rewrite Ewf. cbn [bind].
  destruct (k_fit1 k wf) as [f|]; [|injection H as <- <-; reflexivity].
  destruct (flt _ (k_stab1 k f wf)); [injection H as <- <-; reflexivity|].
  apply bind_ok in H. destruct H as ([[x2 i2] start2] & Eb & H). rewrite Eb. cbn [bind].
  destruct (c_recs s) as [|rc rs] eqn:Er.
  2: { injection H as <- <-. unfold set_idx, repin. cbn. rewrite Er. reflexivity. }
  destruct (6 <=? start2 - c_dense s).
  2: { injection H as <- <-. unfold set_idx, repin. cbn. rewrite Er. reflexivity. }
  apply bind_ok in H. destruct H as (w2 & Ew2 & H). rewrite Ew2. cbn [bind].
  apply bind_ok in H. destruct H as (os & Eos & H). rewrite Eos. cbn [bind].
  destruct (k_first k f w2 os) as [cf|].
  2: { injection H as <- <-. unfold set_idx, repin. cbn. rewrite Er. reflexivity. }
  apply bind_ok in H. destruct H as (ob & Eob & H). rewrite Eob. cbn [bind].
  apply bind_ok in H. destruct H as (o0 & Eo0 & H). rewrite Eo0. cbn [bind].
  rewrite push_nil in *. cbn [bind] in *. injection H as <- <-. reflexivity.
Qed.

Lemma step2_pin : forall (k : skernel N S F C) P void p c (s s' : cst),
  sp_gate P <= sp_tcgf P -> sp_tcgf P <= sp_cap P ->
  step2 k P void s = Ok s' -> step2 k (no_pin P) void (repin p c s) = Ok (repin p c s').
Proof.
  intros k P void p c s s' Hg Hcap H. unfold step2 in *. cbn [repin c_m c_ts c_x c_i c_nobs c_recs] in *.
  destruct (c_m s) as [m|]; [|discriminate]. destruct (c_ts s) as [ts|]; [|discriminate].
  cbv zeta in *. change (sp_conse (no_pin P)) with (sp_conse P).
  apply bind_ok in H. destruct H as (os & Eos & H). rewrite Eos. cbn [bind].
  apply bind_ok in H. destruct H as (o & Eo & H). rewrite Eo. cbn [bind].
  set (d := c_nobs s - 6) in *.
  assert (HP : sp_tcgf P <= sp_cap P /\ sp_gate P <= sp_cap P) by lia.
  pose proof (@decide_change N S F C k P HP m d os) as D1.
  pose proof (@decide_change N S F C k (no_pin P) HP m d os) as D2.
  rewrite judge_pin in D2 by assumption. change (sp_cap (no_pin P)) with (sp_cap P) in *.
  destruct (scan k P m d os 0 (Fin (sp_cap P))) as [[flag bm] ic]. destruct D1 as [D1 B1].
  destruct (scan k (no_pin P) m d os 0 (Fin (sp_cap P))) as [[flag' bm'] ic']. destruct D2 as [D2 B2].
  apply bind_ok in H. destruct H as ([pins cm] & _ & H).
  change (sp_pin (no_pin P)) with false. cbn [andb bind repin c_pins c_cm].
  rewrite D1 in H. rewrite D2. change (sp_tmaxs (no_pin P)) with (sp_tmaxs P).
  destruct (judge k P m d os).
  - assert (Hf : flag = true /\ flag' = true) by (destruct flag, flag'; try discriminate; auto).
    destruct Hf as [Hf Hf']. rewrite (B2 Hf'). rewrite (B1 Hf) in H.
    apply bind_ok in H. destruct H as (a16 & Ea & H). rewrite Ea. cbn [bind].
    apply bind_ok in H. destruct H as (rs & Er & H). rewrite Er. cbn [bind].
    apply bind_ok in H. destruct H as (w & Ew & H). rewrite Ew. cbn [bind]. injection H as <-. reflexivity.
  - destruct (flt _ (k_norm2 k m d o)).
    + apply bind_ok in H. destruct H as (o1 & E1 & H). rewrite E1. cbn [bind]. injection H as <-. reflexivity.
    + apply bind_ok in H. destruct H as (o1 & E1 & H). rewrite E1. cbn [bind]. destruct (_ <=? 0); [discriminate|].
      injection H as <-. reflexivity.
  - destruct (flt _ (k_norm2 k m d o)).
    + apply bind_ok in H. destruct H as (o1 & E1 & H). rewrite E1. cbn [bind]. injection H as <-. reflexivity.
    + apply bind_ok in H. destruct H as (o1 & E1 & H). rewrite E1. cbn [bind]. destruct (_ <=? 0); [discriminate|].
      injection H as <-. reflexivity.
Qed.

Lemma cloop_pin : forall (k : skernel N S F C) P void p c, sp_gate P <= sp_tcgf P -> sp_tcgf P <= sp_cap P ->
  forall fuel (s s' : cst), cloop k P void fuel s = Ok s' -> cloop k (no_pin P) void fuel (repin p c s) = Ok (repin p c s').
Proof.
  intros k P void p c Hg Hcap. induction fuel as [|fuel IH]; intros s s' H; cbn [cloop] in *;
    change (n_clr (repin p c s)) with (n_clr s); change (sp_conse (no_pin P)) with (sp_conse P);
    change (c_i (repin p c s)) with (c_i s).
  - destruct (_ <=? _); [discriminate|]. injection H as <-. reflexivity.
  - destruct (_ <=? _); [|injection H as <-; reflexivity].
    apply bind_ok in H. destruct H as (sa & Ea & H). specialize (IH _ _ H).
    assert (E : cstep k (no_pin P) void (repin p c s) = Ok (repin p c sa)); [|rewrite E; exact IH].
    clear H IH. unfold cstep in *. cbn [repin c_train] in *. destruct (c_train s); [apply step2_pin; assumption|].
    cbv zeta in *. cbn [repin c_x c_i c_start] in *.
    apply bind_ok in Ea. destruct Ea as (xe & Exe & Ea). rewrite Exe. cbn [bind].
    apply bind_ok in Ea. destruct Ea as (xs & Exs & Ea). rewrite Exs. cbn [bind].
    apply bind_ok in Ea. destruct Ea as ([s2 r] & E2 & Ea).
    match goal with |- bind ?e _ = _ => assert (E2' : e = Ok (repin p c s2, r)) end.
    { destruct (_ && _) in E2 |- *; [apply step1_pin; assumption|]. injection E2 as <- <-. reflexivity. }
    rewrite E2'. cbn [bind]. cbv iota beta. destruct r.
    + injection Ea as <-. reflexivity.
    + cbn [repin c_x c_i c_start c_m] in *.
      apply bind_ok in Ea. destruct Ea as (w & Ew & Ea). rewrite Ew. cbn [bind].
      apply bind_ok in Ea. destruct Ea as (on & Eon & Ea). rewrite Eon. cbn [bind].
      apply bind_ok in Ea. destruct Ea as (os & Eos & Ea). rewrite Eos. cbn [bind].
      apply bind_ok in Ea. destruct Ea as (m & Em & Ea). rewrite Em. cbn [bind]. injection Ea as <-. reflexivity.
    + injection Ea as <-. reflexivity.
Qed.

Lemma standard_pin : forall (k : skernel N S F C) P fuel x a b, sp_gate P <= sp_tcgf P -> sp_tcgf P <= sp_cap P ->
  standard k P fuel x a = Ok b ->
  standard k (no_pin P) fuel x a = Ok (mkIO (io_mode b) (io_recs b) (io_model b) (io_queue b) (io_rmse b) (io_pins a)).
Proof.
  intros k P fuel x a b Hg Hcap H. unfold standard in *. cbv zeta in *.
  apply bind_ok in H. destruct H as (ol & Eol & H). rewrite Eol. cbn [bind].
  apply bind_ok in H. destruct H as (o0 & Eo0 & H). rewrite Eo0. cbn [bind].
  destruct (_ <? 0); [discriminate|].
  apply bind_ok in H. destruct H as (s & Es & H).
  set (cm0 := repeat (Fin 0) (Z.to_nat (n_buckets (o_date ol)))) in *.
  apply (@cloop_pin k P (io_mode a =? 0) (io_pins a) cm0 Hg Hcap) in Es. unfold repin at 1 in Es.
  cbn [c_x c_i c_start c_dense c_prev c_train c_ts c_nobs c_m c_recs c_model c_chg] in Es. rewrite Es. cbn [bind].
  apply bind_ok in H. destruct H as ([m1 prev] & E1 & H).
  assert (E1' : new_mode (no_pin P) (io_mode a) (repin (io_pins a) cm0 s) = Ok (m1, prev)) by exact E1.
  rewrite E1'. cbn [bind]. cbv iota beta.
  apply bind_ok in H. destruct H as ([m2 model] & E2 & H).
  assert (E2' : (if Z.rem m1 10 =? 1 then save_model k (no_pin P) (repin (io_pins a) cm0 s) m1
                 else Ok (m1, c_model (repin (io_pins a) cm0 s))) = Ok (m2, model)).
  { rewrite <- E2. destruct (Z.rem m1 10 =? 1); [|reflexivity]. destruct P; reflexivity. }
  rewrite E2'. cbn [bind]. cbv iota beta.
  apply bind_ok in H. destruct H as (q & Eqq & H).
  change (save_queue (repin (io_pins a) cm0 s) prev) with (save_queue s prev). rewrite Eqq. cbn [bind].
  injection H as <-. reflexivity.
Qed.

Theorem C102_pinpoint_neutral : forall K P c2 junk jm rows b, length junk = 6%nat ->
  sp_gate P <= sp_tcgf P -> sp_tcgf P <= sp_cap P ->
  detect K P c2 junk jm rows = Ok b ->
  detect K (no_pin P) c2 junk jm rows = Ok (mkIO (io_mode b) (io_recs b) (io_model b) (io_queue b) (io_rmse b) []).
Proof.
  intros K P c2 junk jm rows b Hj Hg Hcap H. unfold detect in *. destruct rows as [|r0 rows]; [discriminate|].
  change (sp_conse (no_pin P)) with (sp_conse P).
  destruct (slots <? sp_conse P); [discriminate|]. destruct (_ <? 1461); [discriminate|].
  apply bind_ok in H. destruct H as (b' & E & Er).
  assert (E' : sccd K (no_pin P) c2 junk (enough (r0 :: rows) (blank C jm)) (r0 :: rows) (blank C jm) =
               Ok (mkIO (io_mode b') (io_recs b') (io_model b') (io_queue b') (io_rmse b') [])).
  { unfold sccd in *. destruct (negb (mode_ok (io_mode (blank C jm)))); [discriminate|].
    apply bind_ok in E. destruct E as ([pre cnt] & Ep & E). rewrite Ep. cbn [bind]. cbv iota beta zeta in *.
    destruct (is_snow _ cnt).
    - rewrite E. apply snow_same in E. destruct E as (_ & _ & E). cbn [blank io_pins] in E. rewrite <- E. destruct b'; reflexivity.
    - destruct (_ <? _) in E |- *.
      2: { injection E as <-. reflexivity. }
      apply bind_ok in E. destruct E as (rm & Erm & E). rewrite Erm. cbn [bind].
      apply standard_pin in E; auto. }
  rewrite E'. cbn [bind]. unfold returned in *. cbn [io_mode io_recs io_model io_queue io_rmse io_pins] in *.
  destruct (_ || _); [injection Er as <-; reflexivity|]. destruct (_ || _); [injection Er as <-; reflexivity|].
  destruct (_ =? 5); [injection Er as <-; reflexivity|]. destruct (_ =? 0); [injection Er as <-; reflexivity|discriminate].
Qed.

End Calls.

(** ** Concrete cases *)

(** Thirty observations at one level, twelve at another; change threshold
    100, window of eight. *)
Definition jump (v : Z) : list raw := rows_every 724000 20 30 500 ++ rows_every 724600 20 12 v.
Definition gpar (gate : Z) (pin : bool) : sparams := mkSP 100 100 gate 50 1000 1000 45 9999 9999 8 pin.
Definition gist (r : out (io Z Z)) : out (Z * list (Z * Z * Z) * list (Z * Z)) :=
  a <- r ;; Ok (io_mode a, map (fun r => (g_start r, g_break r, g_nobs r)) (io_recs a),
                map (fun p => (pn_break p, nth 0 (pn_cm p) 0)) (io_pins a)).

(** A jump by 200 is a change, one by 70 is not; both are pinpointed. *)
Example C101_case : 1 <= sp_conse (gpar 50 true) /\ length junk0 = 6%nat /\ sp_gate (gpar 50 true) <= sp_tcgf (gpar 50 true) <= sp_cap (gpar 50 true) /\
  gist (detect toy (gpar 50 true) true junk0 jm0 (jump 700)) = Ok (12, [(724000, 724600, 30)], [(724600, 200)]) /\
  gist (detect toy (gpar 50 false) true junk0 jm0 (jump 700)) = Ok (12, [(724000, 724600, 30)], []) /\
  gist (detect toy (gpar 50 true) true junk0 jm0 (jump 570)) = Ok (1, [], [(724600, 70); (724660, 70)]).
Proof. vm_compute. repeat split; discriminate || reflexivity. Qed.

(** The verdicts: a change, an outlier, and an observation the filter takes. *)
Definition wnd (l : list Z) : list obs := map (fun v => mkObs 724600 [v]) l.
Example C101_verdicts : judge (toy []) (gpar 50 false) 500 24 (wnd [700; 700; 600; 900; 700; 700; 700; 700]) = Change /\
  judge (toy []) (gpar 50 false) 500 24 (wnd [700; 700; 599; 900; 700; 700; 700; 700]) = Regular /\
  judge (toy []) (gpar 50 false) 500 24 (wnd [1501; 700; 599; 900; 700; 700; 700; 700]) = Outlier.
Proof. vm_compute. auto. Qed.

(** A record from the look-back: eight observations at 900 before a stable
    period at 500; windows starting with another level count as unstable. *)
Definition settled (_ : list Z) : skernel Z Z Z Z :=
  let k := toy [] in
  mkSK (k_mask1 k) (k_fit1 k) (fun _ w => if level w =? 500 then Fin 0 else Fin 2000) (k_back k) (k_bangle k) (k_first k)
       (k_init k) (k_norm2 k) (k_angle2 k) (k_rec k) (k_filter k) (k_skip k) (k_store k) (k_load k) (k_a16 k) (k_m16 k)
       (k_snow k) (k_sfilter k).
Example C101_lookback_case : exists b r,
  detect settled (par 6 false) true junk0 jm0 (rows_every 724000 20 8 900 ++ rows_every 724160 20 40 500) = Ok b /\ io_recs b = [r] /\
  g_break r = 724160 /\ g_nobs r = 8 /\ map first_val (g_win r) = [900; 900; 900; 900; 900; 900].
Proof. vm_compute. do 2 eexists. split; [reflexivity|]. split; [reflexivity|]. auto. Qed.

(** C102 needs the gate not to exceed the change threshold; sccd_detect takes
    both from its caller (colds.py 308-313, 351-359) and compares them nowhere.
    With the gate at 300 and the threshold at 100 the jump by 200 is found
    without the option and missed with it. *)
Theorem C102_gate_refuted : exists b b',
  detect toy (gpar 300 false) true junk0 jm0 (jump 700) = Ok b /\
  detect toy (gpar 300 true) true junk0 jm0 (jump 700) = Ok b' /\
  length (io_recs b) = 1%nat /\ io_recs b' = [] /\ io_mode b <> io_mode b'.
Proof. vm_compute. do 2 eexists. split; [reflexivity|]. split; [reflexivity|]. repeat split; discriminate. Qed.

Print Assumptions C101_step.
Print Assumptions C101_detect.
Print Assumptions C101_update.
Print Assumptions C102_pinpoint_neutral.
Print Assumptions C102_gate_refuted.
