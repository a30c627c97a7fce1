(** S-CCD for arbitrary input (unsorted dates, any window length, any state):
    progress of the loop, append-only records and the evolution of the mode. *)
From Verif Require Import Base SortModel LibModel LibProps ColdModel ColdLemmas FrontModel FrontProps SccdModel SccdProof SccdTop SccdPack.

Lemma any_get : forall A (l : list A) i (Q : A -> Prop), (0 <= i < zlen l -> forall a, get l i = Ok a -> Q a) -> wp False (get l i) Q.
Proof.
  intros A l i Q H. destruct (get_cases l i) as [[v Hv]|[Hv _]]; rewrite Hv; simpl; [|auto].
  apply H; [|assumption]. apply get_split in Hv. tauto.
Qed.

Lemma any_slice : forall A (l : list A) a n (Q : list A -> Prop),
  (0 <= a -> 0 <= n -> a + n <= zlen l -> Q (firstn (Z.to_nat n) (skipn (Z.to_nat a) l))) -> wp False (slice l a n) Q.
Proof.
  intros A l a n Q H. unfold slice. destruct (_ && _ && _) eqn:E; simpl; [|auto].
  apply H; unfold zlen; lia.
Qed.

Lemma any_mapM : forall l f n k (Q : list obs -> Prop), (forall r, Q r) -> wp False (mapM_idx l f k n) Q.
Proof. intros. apply wp_mapM_idx'; [tauto|auto]. Qed.

Lemma any_mapO : forall A B (f : A -> out B) l, (forall a, wp False (f a) (fun _ => True)) -> wp False (mapO f l) (fun _ => True).
Proof.
  intros A B f l H. induction l; simpl; [exact I|]. apply wp_bind. eapply wp_mono; [apply H|]. intros b _.
  apply wp_bind. eapply wp_mono; [apply IHl|]. intros r _. exact I.
Qed.

Lemma any_st : forall o, wp False (st_obs o) (fun _ => True).
Proof. intros o. destruct (st_obs_cases o) as [[E _]|[E _]]; rewrite E; simpl; auto. Qed.

Lemma any_save8 : forall x i n, wp False (save8 x i n) (fun _ => True).
Proof.
  intros. unfold save8. apply any_mapO. intros k. destruct (_ <? _); [|exact I].
  apply wp_bind. apply any_get. intros _ o _. apply any_st.
Qed.

Lemma any_conv : forall a, wp False (conv16 a) (fun _ => True).
Proof. intros [a|]; simpl; auto. Qed.

Section Term.
Variables N S F C : Type.
Notation seg := (seg C).
Notation cst := (cst N S C).
Notation io := (io S C).

Section Loop.
Variable K : skernel N S F C.
Variable P : sparams.
Variable r0 : list seg.
Variables void train0 : bool.
Hypothesis Hconse : 1 <= sp_conse P.

Record WInv (s : cst) : Prop := mkW {
  w_idx : 0 <= c_prev s <= c_start s /\ c_start s <= c_i s;
  w_dense : c_recs s = [] -> 0 <= c_dense s <= c_start s;
  w_recs : exists t, c_recs s = r0 ++ t;
  w_mon : train0 = true -> void = false -> c_chg s = false -> c_train s = true;
  w_grow : c_chg s = true -> void = false /\ c_recs s <> r0
}.

Ltac cc := cbn [c_x c_i c_start c_dense c_prev c_train c_ts c_nobs c_m c_recs c_model c_chg c_pins c_cm
                set_idx fst snd] in *.

Lemma any_back : forall n f prev x i start, 0 <= prev -> start = prev + Z.of_nat n -> start <= i -> i < zlen x ->
  wp False (back K P n f prev x i start)
    (fun p => zlen (fst (fst p)) - snd (fst p) = zlen x - i /\ prev <= snd p <= start /\ i - start <= snd (fst p) - snd p).
Proof.
  intros n. induction n; intros f prev x i start Hp Hst Hi Hl; cbn [back].
  { simpl. lia. }
  set (i_ini := prev + Z.of_nat n).
  set (ini := if i_ini - prev + 1 <? sp_conse P then i_ini - prev + 1 else sp_conse P).
  destruct (ini =? 0); [exact I|].
  apply wp_bind. apply any_mapM. intros os.
  destruct (_ && _); [simpl; lia|].
  set (o0 := match os with [] => false | _ => _ end).
  destruct (o0 && (prev <=? i_ini)).
  - assert (Hdl : zlen (del (Z.to_nat i_ini) x) = zlen x - 1) by (apply zlen_del; lia).
    eapply wp_mono; [apply IHn; lia|]. intros [[x' i'] start'] H. simpl in *. lia.
  - eapply wp_mono; [apply IHn; lia|]. intros [[x' i'] start'] H. simpl in *. lia.
Qed.

Definition S1W (s s' : cst) (r : s1) : Prop :=
  WInv s' /\ c_train s' = false /\ n_clr s' - c_i s' = n_clr s - c_i s /\ (r = Err -> ~ no_err K).

Lemma any_step1 : forall s, WInv s -> c_train s = false -> c_i s + sp_conse P <= n_clr s - 1 ->
  17 <= c_i s - c_start s -> wp False (step1 K P s) (fun p => S1W s (fst p) (snd p)).
Proof.
  intros s [H1 H2 H3 H4 H5] Ht Hg Hsp. unfold n_clr in *. unfold step1, S1W.
  apply wp_bind. apply any_slice. intros _ _ _. set (w := firstn _ _).
  assert (Hlw : zlen w = c_i s - c_start s + 1) by (apply slice_len; lia).
  destruct (365 <? max_gap w).
  { simpl. split; [constructor; cc; auto; lia|]. split; [assumption|]. split; [reflexivity|discriminate]. }
  apply wp_bind. apply any_slice. intros _ _ _. set (wide := firstn _ _).
  destruct (k_mask1 K wide) as [flags|] eqn:Em.
  2: { simpl. split; [constructor; auto|]. split; [assumption|]. split; [reflexivity|].
       intros _ (Hm & _ & _). apply (Hm wide). assumption. }
  set (w' := keep_from flags 0 w).
  assert (Hlw' : zlen w' <= zlen w) by (pose proof (subseq_length (keep_sub flags w 0)); unfold w', zlen; lia).
  destruct (zlen w' <? 18) eqn:E18.
  { simpl. split; [constructor; auto|]. split; [assumption|]. split; [reflexivity|discriminate]. }
  set (cp := firstn (Z.to_nat (c_start s)) (c_x s) ++ w' ++ skipn (Z.to_nat (c_i s + 1)) (c_x s)).
  assert (Hlcp : zlen cp = zlen (c_x s) - (zlen w - zlen w')).
  { unfold cp. rewrite !zlen_app, zlen_firstn, zlen_skipn by lia. lia. }
  set (i' := c_start s + zlen w' - 1).
  assert (HW : forall d, 0 <= d <= 1 -> WInv (set_idx s cp i' (c_start s + d) (c_dense s) (c_prev s))).
  { intros d Hd. constructor; cc; auto; lia. }
  apply wp_bind. apply any_get. intros _ ce _. apply wp_bind. apply any_get. intros _ cs _.
  destruct (_ <? 366).
  { simpl. split; [constructor; auto|]. split; [assumption|]. split; [reflexivity|discriminate]. }
  apply wp_bind. apply any_slice. intros _ _ _. set (wf := firstn _ _).
  destruct (k_fit1 K wf) as [f|] eqn:Ef.
  2: { simpl. split; [specialize (HW 0); replace (c_start s + 0) with (c_start s) in HW by lia; apply HW; lia|].
       split; [assumption|]. unfold n_clr. cc. split; [lia|]. intros _ (_ & Hm & _). apply (Hm wf). assumption. }
  destruct (flt _ (k_stab1 K f wf)).
  { simpl. split; [apply HW; lia|]. split; [assumption|]. unfold n_clr. cc. split; [lia|discriminate]. }
  set (prev := match c_recs s with [] => c_dense s | _ => c_prev s end).
  assert (Hprev : 0 <= prev <= c_start s) by (unfold prev; destruct (c_recs s); [apply H2; reflexivity|lia]).
  apply wp_bind. eapply wp_mono; [apply any_back; lia|].
  intros [[x2 i2] start2] (B1 & B2 & B3). cbn [fst snd] in *.
  assert (HW2 : S1W s (set_idx s x2 i2 start2 (c_dense s) prev) Suc).
  { unfold S1W, n_clr. cc. split; [|split; [assumption|split; [lia|discriminate]]].
    constructor; cc; auto; try lia.
    intros E. pose proof (H2 E). unfold prev in B2. rewrite E in B2. lia. }
  destruct (c_recs s) as [|rc rs] eqn:Er; [|exact HW2].
  destruct (6 <=? start2 - c_dense s); [|exact HW2].
  apply wp_bind. apply any_slice. intros _ _ _. set (w2 := firstn _ _).
  apply wp_bind. apply any_mapM. intros os.
  destruct (k_first K f w2 os) as [c|] eqn:Ec.
  2: { simpl. destruct HW2 as (W1 & W2 & W3 & _). split; [assumption|]. split; [assumption|]. split; [assumption|].
       intros _ (_ & _ & Hm). apply (Hm f w2 os). assumption. }
  apply wp_bind. apply any_get. intros _ ob _. apply wp_bind. apply any_get. intros _ o0 _.
  rewrite push_nil. simpl.
  split; [|split; [assumption|unfold n_clr; cc; split; [lia|discriminate]]].
  constructor; cc; auto; try lia; try discriminate.
  - destruct H3 as [t Et]. destruct r0; [eexists; reflexivity|discriminate].
  - intros E. destruct (H5 E) as [Hv Hne]. destruct H3 as [t Et]. destruct r0; [congruence|discriminate].
Qed.

Lemma any_pinpoint : forall s m d os o bm, wp False (pinpoint K P s m d os o bm) (fun _ => True).
Proof.
  intros. unfold pinpoint. apply wp_bind. apply any_get. intros _ v _.
  destruct (flt v bm); [|exact I].
  apply wp_bind. eapply wp_mono; [apply any_mapO; intros; apply any_conv|]. intros ang _.
  apply wp_bind. eapply wp_mono; [apply any_save8|]. intros w _.
  unfold put. destruct (_ && _); simpl; [|auto]. destruct (_ || _); simpl; auto.
Qed.

Definition CW (s s' : cst) : Prop :=
  WInv s' /\ (n_clr s' - c_i s' = n_clr s - c_i s - 1 \/ (~ no_err K /\ n_clr s' - c_i s' = n_clr s - c_i s)).

Lemma any_step2 : forall s, WInv s -> c_train s = true -> c_i s + sp_conse P <= n_clr s - 1 ->
  wp False (step2 K P void s) (CW s).
Proof.
  intros s [H1 H2 H3 H4 H5] Ht Hg. unfold n_clr in *. unfold step2, CW.
  destruct (c_m s) as [m|]; [|simpl; auto]. destruct (c_ts s) as [ts|]; [|simpl; auto].
  apply wp_bind. apply any_slice. intros _ _ _. set (os := firstn _ _).
  apply wp_bind. apply any_get. intros _ o _.
  destruct (scan _ _ _ _ _ _ _) as [[flag bm] ic].
  apply wp_bind. eapply wp_mono with (Q := fun _ => True).
  { destruct (_ && _); [apply any_pinpoint|exact I]. }
  intros [pins cm] _.
  destruct (flag && _ && _).
  - apply wp_bind. eapply wp_mono; [apply any_conv|]. intros a16 _.
    apply wp_bind. unfold push_seg. destruct (max_seg <=? _); [simpl; auto|]. simpl.
    apply wp_bind. eapply wp_mono; [apply any_save8|]. intros w _. simpl.
    split; [|left; unfold n_clr; cc; lia].
    constructor; cc; auto; try lia; try discriminate.
    + intros E. destruct (c_recs s); discriminate.
    + destruct H3 as [t Et]. rewrite Et. rewrite <- app_assoc. eexists. reflexivity.
    + intros _ E1 E2. rewrite E1, orb_true_r in E2. discriminate.
    + intros E. split.
      * destruct (c_chg s); [apply H5; reflexivity|]. simpl in E. destruct void; [discriminate|reflexivity].
      * destruct H3 as [t Et]. rewrite Et, <- app_assoc. intros E'.
        apply (f_equal (@length _)) in E'. rewrite !app_length in E'. simpl in E'. lia.
  - destruct (flt _ (k_norm2 K m _ _)).
    + apply wp_bind. apply any_get. intros _ o1 _. simpl.
      assert (Hdl : zlen (del (Z.to_nat (c_i s)) (c_x s)) = zlen (c_x s) - 1) by (apply zlen_del; lia).
      split; [|left; unfold n_clr; cc; lia]. constructor; cc; auto; lia.
    + apply wp_bind. apply any_get. intros _ o1 _. destruct (_ <=? 0); [simpl; auto|]. simpl.
      split; [|left; unfold n_clr; cc; lia]. constructor; cc; auto; lia.
Qed.

Lemma any_cstep : forall s, WInv s -> c_i s + sp_conse P <= n_clr s - 1 -> wp False (cstep K P void s) (CW s).
Proof.
  intros s HI Hg. unfold cstep. destruct (c_train s) eqn:Ht; [apply any_step2; assumption|].
  pose proof (w_idx HI) as Hidx. unfold n_clr in Hg.
  apply wp_bind. apply any_get. intros _ xe _. apply wp_bind. apply any_get. intros _ xs _.
  apply wp_bind. eapply wp_mono with (Q := fun p => S1W s (fst p) (snd p)).
  { destruct (_ && _) eqn:E.
    - apply any_step1; auto. lia.
    - simpl. split; [assumption|]. split; [assumption|]. split; [reflexivity|discriminate]. }
  intros [s' r] (HI' & Ht' & Hlen & Herr). cbn [fst snd] in *. unfold CW.
  destruct r.
  - simpl. destruct HI' as [H1 H2 H3 H4 H5]. split; [constructor; cc; auto; lia|]. left. unfold n_clr in *. cc. lia.
  - destruct HI' as [H1 H2 H3 H4 H5].
    apply wp_bind. apply any_slice. intros _ _ _. apply wp_bind. apply any_get. intros _ on _.
    apply wp_bind. apply any_get. intros _ os _. apply wp_bind. apply wp_of_opt. intros m _. simpl.
    split; [constructor; cc; auto; lia|]. left. unfold n_clr in *. cc. lia.
  - simpl. split; [assumption|]. right. split; [apply Herr; reflexivity|assumption].
Qed.

Lemma any_cloop : forall fuel s, WInv s ->
  match cloop K P void fuel s with
  | Ok s' => WInv s'
  | Fuel => ~ no_err K \/ Z.of_nat fuel < n_clr s - c_i s - sp_conse P
  | _ => True
  end.
Proof.
  intros fuel. induction fuel; intros s HI; cbn [cloop].
  - destruct (_ <=? _) eqn:E; [right; lia|assumption].
  - destruct (_ <=? _) eqn:E; [|assumption].
    pose proof (@any_cstep s HI ltac:(lia)) as HS.
    destruct (cstep K P void s) as [s1| | |]; simpl in HS |- *; auto; try contradiction.
    destruct HS as [HI1 Hstep]. specialize (IHfuel s1 HI1).
    destruct (cloop K P void fuel s1) as [s2| | |]; auto.
    destruct IHfuel as [Hf|Hf]; [left; assumption|].
    destruct Hstep as [Hl|[Hn _]]; [right; lia|left; assumption].
Qed.

End Loop.

(** Relation between the state before and after a call, for any input. *)
Definition evolve (a b : io) : Prop :=
  (exists t, io_recs b = io_recs a ++ t) /\
  (io_mode b = io_mode a \/
   (io_mode a = 0 /\ (io_mode b = 1 \/ io_mode b = 12 \/ io_mode b = 3 \/ io_mode b = 4)) \/
   (io_mode a = 1 /\ io_mode b = 5 /\ io_recs b <> io_recs a) \/
   (io_mode a = 11 /\ (io_mode b = 1 \/ io_mode b = 12 /\ io_recs b <> io_recs a)) \/
   (io_mode a = 12 /\ io_mode b = 1) \/
   (io_mode a = 2 /\ (io_mode b = 1 \/ io_mode b = 5 /\ io_recs b <> io_recs a)) \/
   (io_mode a = 5 /\ io_mode b = 12) \/ (io_mode a = 4 /\ io_mode b = 3)).

Lemma any_save_model : forall K P (s : cst) mode, wp False (save_model (F := F) K P s mode)
  (fun p => fst p = mode \/ (Z.quot mode 10 = 1 /\ fst p = mode - 10)).
Proof.
  intros. unfold save_model. destruct (c_m s) as [m|]; [|simpl; auto]. destruct (c_ts s); [|simpl; auto].
  apply wp_bind. eapply wp_mono; [apply any_save8|]. intros w _.
  apply wp_bind. apply any_mapM. intros os.
  destruct (0 <? c_nobs s); [|simpl; auto].
  match goal with |- context [if ?c then mode - 10 else mode] => set (mode' := if c then mode - 10 else mode);
    assert (Hm : mode' = mode \/ (Z.quot mode 10 = 1 /\ mode' = mode - 10))
    by (unfold mode'; destruct c eqn:E; [right; split; [lia|reflexivity]|left; reflexivity]) end.
  destruct (_ =? 0); [simpl; auto|].
  apply wp_bind. eapply wp_mono; [apply any_conv|]. intros a16 _. simpl. assumption.
Qed.

Lemma any_queue : forall (s : cst) prev, wp False (save_queue s prev) (fun _ => True).
Proof.
  intros. unfold save_queue. destruct (_ <? _); apply wp_bind; apply any_slice; intros _ _ _; apply any_mapO, any_st.
Qed.

Lemma any_standard : forall K P fuel x (a : io), 1 <= sp_conse P -> mode_ok (io_mode a) = true ->
  io_mode a <> 3 -> io_mode a <> 4 ->
  match standard (N := N) (F := F) K P fuel x a with
  | Ok b => evolve a b
  | Fuel => ~ no_err K \/ Z.of_nat fuel < zlen x - sp_conse P
  | _ => True
  end.
Proof.
  intros K P fuel x a Hc Hmo H3 H4.
  assert (Hmode : io_mode a = 0 \/ io_mode a = 1 \/ io_mode a = 2 \/ io_mode a = 5 \/ io_mode a = 11 \/ io_mode a = 12).
  { unfold mode_ok in Hmo. lia. }
  clear Hmo H3 H4. unfold standard.
  destruct (get_cases x (zlen x - 1)) as [[ol Hol]|[Hol _]]; rewrite Hol; cbn [bind]; [|exact I].
  destruct (get_cases x 0) as [[o0 Ho0]|[Ho0 _]]; rewrite Ho0; cbn [bind]; [|exact I].
  destruct (n_buckets (o_date ol) <? 0); [exact I|].
  set (train := Z.rem (io_mode a) 10 =? 1).
  set (s0 := mkC _ _ _ _ _ _ _ _ _ _ _ _ _ _).
  set (void := io_mode a =? 0).
  assert (HI0 : WInv (io_recs a) void train s0).
  { constructor; unfold s0; cbn [c_x c_i c_start c_dense c_prev c_train c_recs c_chg]; auto; try lia; try discriminate.
    exists []. rewrite app_nil_r. reflexivity. }
  pose proof (@any_cloop K P (io_recs a) void train Hc fuel s0 HI0) as HL.
  destruct (cloop K P void fuel s0) as [s| | |] eqn:EL; cbn [bind]; auto.
  2: { change (n_clr s0) with (zlen x) in HL. change (c_i s0) with 0 in HL. destruct HL; [left; assumption|right; lia]. }
  destruct HL as [L1 L2 L3 L4 L5].
  enough (HW : wp False
    ('(mode1, prev) <- new_mode P (io_mode a) s ;;
     '(mode2, model) <- (if Z.rem mode1 10 =? 1 then save_model K P s mode1 else Ok (mode1, c_model s)) ;;
     queue <- (if (Z.rem mode2 10 =? 2) || (Z.rem mode2 10 =? 5) then save_queue s prev else Ok (io_queue a)) ;;
     Ok (mkIO mode2 (c_recs s) model queue (io_rmse a) (c_pins s))) (evolve a)).
  { unfold wp in HW. destruct (bind _ _); auto; try contradiction. }
  assert (HE : forall mode1 prev, (forall b : io, io_recs b = c_recs s -> io_mode b = mode1 -> evolve a b) ->
     (Z.rem mode1 10 = 1 -> Z.quot mode1 10 = 1 -> forall b : io, io_recs b = c_recs s -> io_mode b = mode1 - 10 -> evolve a b) ->
     wp False
     ('(mode2, model) <- (if Z.rem mode1 10 =? 1 then save_model K P s mode1 else Ok (mode1, c_model s)) ;;
      queue <- (if (Z.rem mode2 10 =? 2) || (Z.rem mode2 10 =? 5) then save_queue s prev else Ok (io_queue a)) ;;
      Ok (mkIO mode2 (c_recs s) model queue (io_rmse a) (c_pins s))) (evolve a)).
  { intros mode1 prev HE1 HE2. apply wp_bind.
    eapply wp_mono with (Q := fun p => fst p = mode1 \/ (Z.rem mode1 10 = 1 /\ Z.quot mode1 10 = 1 /\ fst p = mode1 - 10)).
    { destruct (Z.rem mode1 10 =? 1) eqn:E; [|simpl; auto].
      eapply wp_mono; [apply any_save_model|]. intros p [H|[H H']]; [auto|right]. split; [lia|auto]. }
    intros [mode2 model] Hm2. cbn [fst] in Hm2.
    apply wp_bind. eapply wp_mono with (Q := fun _ => True).
    { destruct (_ || _); [apply any_queue|exact I]. }
    intros queue _. simpl. destruct Hm2 as [-> |(Hr & Hq & ->)]; [apply HE1; reflexivity|apply HE2; auto]. }
  unfold new_mode.
  destruct (c_chg s) eqn:Ec.
  - destruct (L5 eq_refl) as [Hvo Hgr]. unfold void in Hvo. rewrite Hvo. cbn [bind].
    destruct (Z.quot (io_mode a) 10 =? 1) eqn:Eq; cbn [bind];
    (apply HE; [|intros Hq Hq'; vm_compute in Hq; vm_compute in Hq'; discriminate]);
    intros b Hb Hm; unfold evolve; rewrite Hb, Hm; (split; [assumption|]);
    destruct Hmode as [E|[E|[E|[E|[E|E]]]]]; rewrite E in *; try discriminate Eq; try discriminate Hvo; auto 10.
  - destruct Hmode as [E|[E|[E|[E|[E|E]]]]]; rewrite E in *; cbn -[save_model save_queue wp bind Z.sub get].
    + destruct (c_train s); cbn [bind]; apply HE; try (intros Hq Hq'; vm_compute in Hq; vm_compute in Hq'; discriminate);
        intros b Hb Hm; unfold evolve; rewrite Hb, Hm, E; (split; [assumption|]); auto 10.
    + apply HE; try (intros Hq Hq'; vm_compute in Hq; vm_compute in Hq'; discriminate);
        intros b Hb Hm; unfold evolve; rewrite Hb, Hm, E; (split; [assumption|]); auto 10.
    + destruct (c_train s); cbn [bind]; apply HE; try (intros Hq Hq'; vm_compute in Hq; vm_compute in Hq'; discriminate);
        intros b Hb Hm; unfold evolve; rewrite Hb, Hm, E; (split; [assumption|]); auto 10.
    + destruct (get_cases (c_x s) (n_clr s - sp_conse P)) as [[o Ho]|[Ho _]]; rewrite Ho; cbn [bind]; [|simpl; auto].
      destruct (get_cases (nm_obs (c_model s)) 0) as [[o1 Ho1]|[Ho1 _]]; rewrite Ho1; cbn [bind]; [|simpl; auto].
      destruct (_ <? 15); cbn [bind]; apply HE; try (intros Hq Hq'; vm_compute in Hq; vm_compute in Hq'; discriminate);
        intros b Hb Hm; unfold evolve; rewrite Hb, Hm, E; (split; [assumption|]); auto 10.
    + apply HE.
      * intros b Hb Hm; unfold evolve; rewrite Hb, Hm, E; (split; [assumption|]); auto 10.
      * intros _ _ b Hb Hm; unfold evolve; rewrite Hb, Hm, E; (split; [assumption|]); auto 10.
    + destruct (c_train s); cbn [bind]; apply HE; try (intros Hq Hq'; vm_compute in Hq; vm_compute in Hq'; discriminate);
        intros b Hb Hm; unfold evolve; rewrite Hb, Hm, E; (split; [assumption|]); auto 10.
Qed.

Lemma any_snow : forall K x (a : io), io_mode a = 0 \/ io_mode a = 3 \/ io_mode a = 4 ->
  wp False (snow (N := N) (F := F) K x a) (evolve a).
Proof.
  intros K x a Hm.
  assert (H3 : forall b : io, io_recs b = io_recs a -> io_mode b = 3 -> evolve a b).
  { intros b Hb Hb3. unfold evolve. rewrite Hb, Hb3. split; [exists []; rewrite app_nil_r; reflexivity|]. lia. }
  unfold snow.
  assert (HS : forall m st nb, wp False (w <- save8 x (zlen x - slots) slots ;;
      Ok (mkIO 3 (io_recs a) (mkNm (k_store K m) st nb w (-9999) (-9999) 0) (io_queue a) (io_rmse a) (io_pins a)))
     (evolve a)).
  { intros. apply wp_bind. eapply wp_mono; [apply any_save8|]. intros w _. simpl. apply H3; reflexivity. }
  destruct (_ || _) eqn:E.
  - destruct (_ <? 18).
    + apply wp_bind. eapply wp_mono; [apply any_mapO, any_st|]. intros q _. simpl.
      unfold evolve. cbn [io_recs io_mode]. split; [exists []; rewrite app_nil_r; reflexivity|]. lia.
    + apply wp_bind. apply wp_of_opt. intros m _. apply wp_bind. apply any_get. intros _ o _. apply HS.
  - apply wp_bind. eapply wp_mono with (Q := fun _ => True).
    { generalize (k_load K (nm_st (io_model a))) as m. generalize (Z.to_nat (zlen x - slots)) as n.
      clear. induction x as [|o t IH]; intros n m; destruct n; simpl; auto.
      destruct t; simpl; auto. destruct (_ <=? 0); simpl; auto. apply IH. }
    intros m _. apply HS.
Qed.

(** The whole call. *)
Theorem any_sccd : forall (K : list Z -> skernel N S F C) P c2 junk fuel rows (a : io), 1 <= sp_conse P -> length junk = 6%nat ->
  match sccd K P c2 junk fuel rows a with
  | Ok b => evolve a b
  | Fuel => (exists rm, ~ no_err (K rm)) \/ Z.of_nat fuel < zlen (carried a) + zlen rows - sp_conse P
  | _ => True
  end.
Proof.
  intros K P c2 junk fuel rows a Hc Hj.
  destruct (@sccd_cases N S F C K P c2 junk fuel rows a Hj) as [E|(sn & Hsn & Hsn' & Hmo & Hcase)]; [rewrite E; exact I|].
  cbv zeta in Hcase.
  destruct Hcase as [[-> E]|[(-> & Hx & E)|(-> & Hlt & rm & Hrm & E)]]; rewrite E.
  - pose proof (@any_snow (K (io_rmse a)) (call_obs c2 true rows a) a (Hsn' eq_refl)) as HW.
    destruct (snow _ _ _); simpl in HW; auto; try contradiction.
  - unfold evolve. split; [exists []; rewrite app_nil_r; reflexivity|auto].
  - destruct (Hsn eq_refl) as [Hn3 Hn4].
    pose proof (@any_standard (K rm) P fuel (call_obs c2 false rows a)
      (mkIO (io_mode a) (io_recs a) (io_model a) (io_queue a) rm (io_pins a)) Hc Hmo Hn3 Hn4) as HW.
    destruct (standard _ _ _ _ _) as [b| | |]; auto.
    destruct HW as [HW|HW]; [left; exists rm; assumption|right].
    assert (zlen (call_obs c2 false rows a) <= zlen (carried a) + zlen rows); [|lia].
    unfold call_obs. rewrite zlen_app.
    assert (Hlen : forall keep l last, zlen (append_obs keep l last) <= zlen l).
    { intros keep l. induction l as [|q t IH]; intros last; [reflexivity|]. cbn [append_obs]. rewrite zlen_cons.
      pose proof (IH (Some (q_date (fst q)))) as I1. pose proof (IH last) as I2.
      destruct (keep q); [destruct last; [destruct (_ =? _)|]|]; rewrite ?zlen_cons; lia. }
    pose proof (Hlen keep_std (map (fun q => (q, id_range c2 q)) rows) (last_date (carried a))) as H.
    unfold zlen in H at 2. rewrite map_length in H. fold (zlen rows) in H. lia.
Qed.

End Term.
