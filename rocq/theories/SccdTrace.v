(** S-CCD: the model behind every record and behind the saved state (C105;
    s_ccd.c 1144-1433, 1755-2085, 2750-2945).

    The rules below describe a pixel's life - waiting for a stable stretch,
    opening a segment, following it observation by observation, closing it -
    without indices, buffers or loops.  The theorems say that a call of the
    detector follows them. *)
From Verif Require Import Base SortModel LibModel LibProps ColdModel ColdLemmas ColdProps2 FrontModel FrontProps
  SccdModel SccdProof SccdTop SccdPack SccdTerm SccdApi SccdToy SccdProps SccdProps2 SccdDecide.

(** [cut why l l']: [l'] is [l] without some observations, each of which was
    left out for the reason [why]. *)
Inductive cut (why : obs -> Prop) : list obs -> list obs -> Prop :=
| cut_nil : cut why [] []
| cut_keep : forall o l l', cut why l l' -> cut why (o :: l) (o :: l')
| cut_drop : forall o l l', why o -> cut why l l' -> cut why (o :: l) l'.

Definition first_date (w : list obs) : Z := match w with [] => 0 | o :: _ => o_date o end.

Section Trace.
Variables N S F C : Type.
Variable K : skernel N S F C.
Variable P : sparams.
Notation cst := (cst N S C).
Notation seg := (seg C).
Notation io := (io S C).
Notation cw := (Z.to_nat (sp_conse P)).

(** ** The rules *)

(** Flagged by the robust fit over a window of [Y] (709, 732-811). *)
Definition masked (Y : list obs) (o : obs) : Prop :=
  exists wide flags k, k_mask1 K wide = Some flags /\ subseq wide Y /\ nth_error wide k = Some o /\ flags k = true.
(** Too far from the initial fit of a window of [Y] (1274-1300). *)
Definition far (Y : list obs) (o : obs) : Prop :=
  exists wf f, k_fit1 K wf = Some f /\ subseq wf Y /\ fgt (k_back K f o) (Fin (sp_tmax P)) = true.
Definition reason (Y : list obs) (o : obs) : Prop := masked Y o \/ far Y o.

(** The first segment found starts after [p]: with six or more observations
    from position [dn] on they become a record of their own (1319-1433). *)
Definition first_record (rs : list seg) (p w : list obs) (dn : Z) (f : F) (rs' : list seg) : Prop :=
  (rs <> [] \/ zlen p - dn < 6) /\ rs' = rs \/
  rs = [] /\ 6 <= zlen p - dn /\ sp_conse P <= zlen p /\
  exists c, k_first K f (skipn (Z.to_nat dn) p ++ firstn 1 w) (firstn cw (rev p)) = Some c /\
    rs' = [mkSeg (first_date p) (first_date w) (zlen p - dn) c (firstn cw (rev p))].

Section Rules.
(* the mode, records and model the call starts from, and its observations *)
Variables (mode0 : Z) (recs0 : list seg) (model0 : nmodel S).
Variable X : list obs.

(** [alive rs m n ts l]: after the records [rs] a segment that began on day
    [ts] is followed; its model [m] has taken in [n] observations, the
    observations [l] are still to come.
    [idle rs left Y]: after the records [rs] a stable stretch is looked for in
    [Y]; [left] is the state of the segment before. *)
Inductive alive : list seg -> N -> Z -> Z -> list obs -> Prop :=
| al_resume : Z.rem mode0 10 = 1 ->
    alive recs0 (k_load K (nm_st model0)) (nm_nobs model0) (nm_start model0 + launch) X
| al_open : forall rs rs' left Y p p' q e wf f m o t dn,
    idle rs left Y -> Y = p ++ q ++ o :: t ->
    cut (reason Y) p p' -> cut (reason Y) q (e ++ wf) ->
    18 <= zlen wf -> 366 <= dat wf (zlen wf - 1) - dat wf 0 ->
    k_fit1 K wf = Some f -> fgt (k_stab1 K f wf) (Fin (sp_tcg P)) = false ->
    Forall (fun b => fgt (k_back K f b) (Fin (sp_tmax P)) = false) e ->
    k_init K left (e ++ wf) (o_date o) = Some m ->
    0 <= dn <= zlen p' -> first_record rs p' (e ++ wf) dn f rs' ->
    alive rs' m (zlen (e ++ wf)) (first_date (e ++ wf)) (o :: t)
| al_take : forall rs m n ts o o1 t, alive rs m n ts (o :: o1 :: t) -> sp_conse P < zlen (o :: o1 :: t) ->
    judge K P m (n - 6) (firstn cw (o :: o1 :: t)) = Regular -> o_date o < o_date o1 ->
    alive rs (k_filter K m o (o_date o1 - o_date o)) (n + 1) ts (o1 :: t)
| al_skip : forall rs m n ts o o1 t, alive rs m n ts (o :: o1 :: t) -> sp_conse P < zlen (o :: o1 :: t) ->
    judge K P m (n - 6) (firstn cw (o :: o1 :: t)) = Outlier ->
    alive rs (k_skip K m (o_date o1 - o_date o)) n ts (o1 :: t)
with idle : list seg -> option N -> list obs -> Prop :=
| id_start : Z.rem mode0 10 <> 1 -> idle recs0 None X
| id_break : forall rs m n ts o t, alive rs m n ts (o :: t) -> sp_conse P < zlen (o :: t) ->
    judge K P m (n - 6) (firstn cw (o :: t)) = Change ->
    idle (rs ++ [mkSeg ts (o_date o) n (k_rec K m (n - 6) (firstn cw (o :: t))) (firstn cw (o :: t))]) (Some m) (o :: t).
End Rules.

Scheme alive_mut := Induction for alive Sort Prop
  with idle_mut := Induction for idle Sort Prop.
Combined Scheme life_ind from alive_mut, idle_mut.

(** ** Lemmas on [cut] *)
Lemma cut_refl : forall why l, cut why l l.
Proof. intros why l. induction l; constructor; auto. Qed.
Lemma cut_trans : forall why l l' l'', cut why l l' -> cut why l' l'' -> cut why l l''.
Proof.
  intros why l l' l'' H. revert l''. induction H; intros l'' H2; auto.
  - inversion H2; subst; [constructor; auto|]. apply cut_drop; auto.
  - apply cut_drop; auto.
Qed.
Lemma cut_app : forall why l1 l1' l2 l2', cut why l1 l1' -> cut why l2 l2' -> cut why (l1 ++ l2) (l1' ++ l2').
Proof. intros why l1 l1' l2 l2' H1 H2. induction H1; simpl; [assumption|constructor; auto|apply cut_drop; auto]. Qed.
Lemma cut_split : forall why a b l, cut why l (a ++ b) -> exists l1 l2, l = l1 ++ l2 /\ cut why l1 a /\ cut why l2 b.
Proof.
  intros why a b l H. remember (a ++ b) as r eqn:E. revert a b E. induction H as [|o l l' H IH|o l l' Ho H IH]; intros a b E.
  - destruct a; [|discriminate]. destruct b; [|discriminate]. exists [], []. repeat constructor.
  - destruct a as [|a0 a].
    + simpl in E. subst b. exists [], (o :: l). split; [reflexivity|]. split; [constructor|]. constructor. assumption.
    + simpl in E. injection E as <- E. destruct (IH _ _ E) as (l1 & l2 & -> & H1 & H2).
      exists (o :: l1), l2. split; [reflexivity|]. split; [constructor; assumption|assumption].
  - destruct (IH _ _ E) as (l1 & l2 & -> & H1 & H2). exists (o :: l1), l2. split; [reflexivity|].
    split; [apply cut_drop; assumption|assumption].
Qed.
Lemma cut_mono : forall (w1 w2 : obs -> Prop) l l', (forall o, w1 o -> w2 o) -> cut w1 l l' -> cut w2 l l'.
Proof. intros w1 w2 l l' H HC. induction HC; [constructor|constructor; assumption|apply cut_drop; auto]. Qed.
Lemma cut_sub : forall why l l', cut why l l' -> subseq l' l.
Proof. intros why l l' H. induction H; constructor; assumption. Qed.

Lemma reason_mono : forall Y Y' o, subseq Y Y' -> reason Y o -> reason Y' o.
Proof.
  intros Y Y' o HS [(wide & flags & k & H1 & H2 & H3)|(wf & f & H1 & H2 & H3)].
  - left. exists wide, flags, k. split; [assumption|]. split; [eapply subseq_trans; eassumption|assumption].
  - right. exists wf, f. split; [assumption|]. split; [eapply subseq_trans; eassumption|assumption].
Qed.

Lemma keep_cut : forall (why : obs -> Prop) flags w k, (forall j o, nth_error w j = Some o -> flags (k + j)%nat = true -> why o) ->
  cut why w (keep_from flags k w).
Proof.
  intros why flags w. induction w as [|o w IH]; intros k H; [constructor|]. cbn [keep_from].
  assert (H' : forall j o0, nth_error w j = Some o0 -> flags (Datatypes.S k + j)%nat = true -> why o0).
  { intros j o0 Hj Hf. apply (H (Datatypes.S j) o0 Hj). replace (k + Datatypes.S j)%nat with (Datatypes.S k + j)%nat by lia. assumption. }
  destruct (flags k) eqn:E.
  - apply cut_drop; [apply (H 0%nat); [reflexivity|rewrite Nat.add_0_r; assumption]|apply IH; assumption].
  - constructor. apply IH; assumption.
Qed.

(** ** Look-back *)
Lemma back_form : forall n f prev A R i x' i' start', 1 <= sp_conse P -> 0 <= prev ->
  zlen A = prev + Z.of_nat n ->
  back K P n f prev (A ++ R) i (zlen A) = Ok (x', i', start') ->
  exists A1 A2 e, A = A1 ++ A2 /\ x' = A1 ++ e ++ R /\ start' = zlen A1 /\ prev <= zlen A1 /\
    i' - i = zlen e - zlen A2 /\
    cut (fun o => fgt (k_back K f o) (Fin (sp_tmax P)) = true) A2 e /\
    Forall (fun o => fgt (k_back K f o) (Fin (sp_tmax P)) = false) e.
Proof.
  intros n. induction n as [|n IH]; intros f prev A R i x' i' start' Hc Hp HA H.
  { cbn [back] in H. injection H as <- <- <-. exists A, [], []. rewrite app_nil_r. cbn [app].
    repeat split; try lia; try constructor. }
  destruct A as [|o A _] using rev_ind; [unfold zlen in HA; simpl in HA; lia|].
  rewrite zlen_app, (eq_refl : zlen [o] = 1) in HA. rewrite <- app_assoc in H. cbn [app] in H.
  cbn [back] in H. set (ii := prev + Z.of_nat n) in *. assert (Hii : ii = zlen A) by (unfold ii; lia).
  destruct (_ =? 0) eqn:E0 in H; [discriminate|]. apply bind_ok in H. destruct H as (os & Eos & H).
  apply mapM_inv in Eos. destruct Eos as [Eos _].
  assert (Hhd : exists os', os = o :: os').
  { set (nn := if ii - prev + 1 <? sp_conse P then ii - prev + 1 else sp_conse P) in *.
    assert (Hn : exists k, Z.to_nat nn = Datatypes.S k).
    { exists (Z.to_nat (nn - 1)). unfold nn. destruct (_ <? _) eqn:E; lia. }
    destruct Hn as (k & Ek). rewrite Ek in Eos. cbn [seq map] in Eos. eexists. rewrite Eos. f_equal.
    replace (ii - (Z.of_nat 0 + 1) + 1) with (zlen A) by lia. unfold nthO, zlen.
    rewrite Nat2Z.id, app_nth2 by lia. rewrite Nat.sub_diag. reflexivity. }
  destruct Hhd as (os' & ->).
  destruct (_ && _) eqn:Ec in H.
  - injection H as <- <- <-. exists (A ++ [o]), [], []. rewrite app_nil_r. cbn [app]. rewrite <- app_assoc. cbn [app].
    rewrite zlen_app, (eq_refl : zlen [o] = 1). repeat split; try lia; try constructor.
  - replace (prev <=? ii) with true in H by (unfold ii; lia). rewrite andb_true_r in H.
    rewrite Hii in H. destruct (fgt (k_back K f o) (Fin (sp_tmax P))) eqn:Ef.
    + replace (del (Z.to_nat (zlen A)) (A ++ o :: R)) with (A ++ R) in H.
      2:{ unfold del, zlen. rewrite Nat2Z.id. rewrite firstn_app, firstn_all, Nat.sub_diag, firstn_O, app_nil_r.
          rewrite skipn_app. replace (skipn (Datatypes.S (length A)) A) with (@nil obs) by (symmetry; apply skipn_all2; lia).
          replace (Datatypes.S (length A) - length A)%nat with 1%nat by lia. reflexivity. }
      apply IH in H; try lia. destruct H as (A1 & A2 & e & -> & -> & -> & H1 & H2 & H3 & H4).
      exists A1, (A2 ++ [o]), e. rewrite app_assoc. split; [reflexivity|]. split; [reflexivity|]. split; [reflexivity|].
      split; [assumption|]. rewrite zlen_app, (eq_refl : zlen [o] = 1). split; [lia|]. split; [|assumption].
      rewrite <- (app_nil_r e). apply cut_app; [assumption|]. apply cut_drop; [assumption|constructor].
    + apply IH in H; try lia. destruct H as (A1 & A2 & e & -> & -> & -> & H1 & H2 & H3 & H4).
      exists A1, (A2 ++ [o]), (e ++ [o]). rewrite app_assoc. split; [reflexivity|]. rewrite <- app_assoc.
      split; [reflexivity|]. split; [reflexivity|].
      split; [assumption|]. rewrite !zlen_app, (eq_refl : zlen [o] = 1). split; [lia|]. split.
      * apply cut_app; [assumption|apply cut_refl].
      * apply Forall_app. split; [assumption|]. constructor; [assumption|constructor].
Qed.

(** ** Initialisation *)
Ltac cc := cbn [c_x c_i c_start c_dense c_prev c_train c_ts c_nobs c_m c_recs c_model c_chg c_pins c_cm
                set_idx fst snd] in *.
Ltac ib H a E := apply bind_ok in H; destruct H as (a & E & H).

(** Where the look-back may go down to (1130-1143). *)
Definition prev_of (s : cst) : Z := match c_recs s with [] => c_dense s | _ => c_prev s end.

Lemma slice_mid : forall (A M R : list obs) i n w, i = zlen A -> n = zlen M -> slice (A ++ M ++ R) i n = Ok w -> w = M.
Proof.
  intros A M R i n w -> -> H. apply slice_inv in H. destruct H as (_ & _ & _ & ->). unfold zlen. rewrite !Nat2Z.id.
  rewrite skipn_app, skipn_all, Nat.sub_diag. cbn [skipn app]. rewrite firstn_app, firstn_all, Nat.sub_diag, firstn_O. apply app_nil_r.
Qed.
Lemma firstn_len : forall (A R : list obs) n, n = zlen A -> firstn (Z.to_nat n) (A ++ R) = A.
Proof. intros A R n ->. unfold zlen. rewrite Nat2Z.id, firstn_app, firstn_all, Nat.sub_diag, firstn_O. apply app_nil_r. Qed.
Lemma skipn_len : forall (A R : list obs) n, n = zlen A -> skipn (Z.to_nat n) (A ++ R) = R.
Proof. intros A R n ->. unfold zlen. rewrite Nat2Z.id, skipn_app, skipn_all, Nat.sub_diag. reflexivity. Qed.

Lemma rev_window : forall n (p R : list obs), (n <= length p)%nat ->
  map (fun c => nthO (p ++ R) (zlen p - (Z.of_nat c + 1))) (seq 0 n) = firstn n (rev p).
Proof.
  intros n p R Hn. apply (nth_ext _ _ dflt_obs dflt_obs).
  - rewrite map_length, seq_length, firstn_length, rev_length. lia.
  - intros k Hk. rewrite map_length, seq_length in Hk.
    rewrite nth_firstn by lia. rewrite rev_nth by lia.
    rewrite (nth_indep _ _ (nthO (p ++ R) (zlen p - (Z.of_nat 0 + 1)))) by (rewrite map_length, seq_length; lia).
    rewrite (map_nth (fun c => nthO (p ++ R) (zlen p - (Z.of_nat c + 1)))), seq_nth by lia.
    unfold nthO, zlen. rewrite app_nth1 by lia. f_equal. lia.
Qed.

Lemma slice_tail : forall (p w R : list obs) d v, 0 <= d <= zlen p -> w <> [] ->
  slice (p ++ w ++ R) d (zlen p - d + 1) = Ok v -> v = skipn (Z.to_nat d) p ++ firstn 1 w.
Proof.
  intros p w R d v Hd Hw H. apply slice_inv in H. destruct H as (_ & _ & _ & ->).
  destruct w as [|h w]; [contradiction|]. cbn [app firstn]. unfold zlen in *.
  rewrite skipn_app. replace (Z.to_nat d - length p)%nat with 0%nat by lia. cbn [skipn].
  rewrite firstn_app, skipn_length. rewrite firstn_all2 by (rewrite skipn_length; lia).
  replace (Z.to_nat (Z.of_nat (length p) - d + 1) - (length p - Z.to_nat d))%nat with 1%nat by lia. reflexivity.
Qed.

Lemma get_mid : forall (A R : list obs) h i o, i = zlen A -> get (A ++ h :: R) i = Ok o -> o = h.
Proof.
  intros A R h i o -> H. apply get_inv in H. destruct H as [_ H]. unfold zlen in H.
  rewrite Nat2Z.id, nth_error_app2, Nat.sub_diag in H by lia. injection H as <-. reflexivity.
Qed.

Lemma step1_form : forall (s s' : cst) r L0 L1 B, 1 <= sp_conse P -> step1 K P s = Ok (s', r) ->
  c_x s = L0 ++ L1 ++ B -> zlen L0 + zlen L1 = c_i s + 1 ->
  zlen L0 <= prev_of s -> prev_of s <= c_start s <= c_i s -> (c_recs s = [] -> L0 = []) ->
  exists L1', c_x s' = L0 ++ L1' ++ B /\ zlen L0 + zlen L1' = c_i s' + 1 /\ cut (reason (L1 ++ B)) L1 L1' /\
    c_m s' = c_m s /\ c_chg s' = c_chg s /\
    match r with
    | Suc => exists p e wf f dn, L1' = p ++ e ++ wf /\ zlen L0 + zlen p = c_start s' /\
        18 <= zlen wf /\ 366 <= dat wf (zlen wf - 1) - dat wf 0 /\
        k_fit1 K wf = Some f /\ fgt (k_stab1 K f wf) (Fin (sp_tcg P)) = false /\
        Forall (fun b => fgt (k_back K f b) (Fin (sp_tmax P)) = false) e /\
        0 <= dn <= zlen p /\ first_record (c_recs s) p (e ++ wf) dn f (c_recs s')
    | _ => c_recs s' = c_recs s /\ c_train s' = c_train s /\ zlen L0 <= prev_of s' /\
        prev_of s' <= c_start s' <= c_i s' + (match r with Inc => 1 | _ => 0 end)
    end.
Proof.
  intros s s' r L0 L1 B Hc H Ex Hn Hlo Hst Hnil. unfold step1 in H. cbv zeta in H.
  pose proof (zlen_nonneg L0) as Z0. pose proof (zlen_nonneg L1) as Z1. pose proof (zlen_nonneg B) as ZB.
  assert (HL : exists U W, L1 = U ++ W /\ zlen L0 + zlen U = c_start s).
  { exists (firstn (Z.to_nat (c_start s - zlen L0)) L1), (skipn (Z.to_nat (c_start s - zlen L0)) L1).
    rewrite firstn_skipn. split; [reflexivity|]. rewrite zlen_firstn by lia. lia. }
  destruct HL as (U & W & -> & HU). rewrite zlen_app in Hn.
  assert (Ex' : c_x s = (L0 ++ U) ++ W ++ B) by (rewrite Ex, <- !app_assoc; reflexivity).
  assert (HLU : zlen (L0 ++ U) = c_start s) by (rewrite zlen_app; lia).
  assert (Hsame : forall q : Prop, q -> exists L1', c_x s = L0 ++ L1' ++ B /\ zlen L0 + zlen L1' = c_i s + 1 /\
     cut (reason ((U ++ W) ++ B)) (U ++ W) L1' /\ q).
  { intros q Hq. exists (U ++ W).
    rewrite zlen_app. split; [assumption|]. split; [lia|]. split; [apply cut_refl|assumption]. }
  ib H w Ew. rewrite Ex' in Ew. apply slice_mid in Ew; [|lia|lia]. subst w.
  destruct (365 <? _).
  { injection H as <- <-. unfold set_idx, prev_of in *. cc. apply Hsame. repeat split; auto; destruct (c_recs s); lia. }
  ib H wide Ewide. destruct (k_mask1 K wide) as [flags|] eqn:Emask.
  2:{ injection H as <- <-. apply Hsame. repeat split; auto; lia. }
  set (w' := keep_from flags 0 W) in *.
  destruct (zlen w' <? 18) eqn:E18.
  { injection H as <- <-. apply Hsame. repeat split; auto; lia. }
  assert (Hwide : subseq wide ((U ++ W) ++ B) /\ forall j o, nth_error W j = Some o -> nth_error wide j = Some o).
  { apply slice_inv in Ewide. destruct Ewide as (_ & _ & HT & ->). rewrite Ex' in *. rewrite (skipn_len _ _ (eq_sym HLU)).
    split.
    - rewrite <- app_assoc. eapply subseq_trans; [apply subseq_firstn|].
      change (W ++ B) with ([] ++ W ++ B) at 1. apply subseq_app; [constructor|apply subseq_refl].
    - intros j o Hj. assert (HjW : (j < length W)%nat) by (apply nth_error_Some; congruence).
      rewrite !zlen_app in *. unfold n_clr in *. rewrite Ex' in *. rewrite !zlen_app in *. unfold zlen in *.
      rewrite <- Hj. rewrite <- (firstn_skipn (length W) (firstn _ _)).
      rewrite firstn_firstn, Nat.min_l by lia. rewrite firstn_app, firstn_all, Nat.sub_diag, firstn_O, app_nil_r.
      rewrite nth_error_app1 by lia. reflexivity. }
  destruct Hwide as [Hsub Hpos].
  assert (Hcut : cut (reason ((U ++ W) ++ B)) W w').
  { apply keep_cut. intros j o Hj Hf. left. exists wide, flags, j. auto. }
  rewrite Ex' in H. rewrite (firstn_len _ _ (eq_sym HLU)) in H.
  assert (ESK : skipn (Z.to_nat (c_i s + 1)) ((L0 ++ U) ++ W ++ B) = B).
  { rewrite app_assoc. apply skipn_len. rewrite !zlen_app. lia. }
  rewrite ESK in H.
  set (cp := (L0 ++ U) ++ w' ++ B) in *.
  assert (Hmid : forall q : Prop, q -> exists L1', cp = L0 ++ L1' ++ B /\ zlen L0 + zlen L1' = c_start s + zlen w' - 1 + 1 /\
     cut (reason ((U ++ W) ++ B)) (U ++ W) L1' /\ q).
  { intros q Hq. exists (U ++ w').
    rewrite zlen_app. split; [unfold cp; rewrite <- !app_assoc; reflexivity|]. split; [lia|].
    split; [apply cut_app; [apply cut_refl|assumption]|assumption]. }
  ib H ce Ece. ib H cs Ecs.
  destruct (_ <? 366) eqn:E366.
  { injection H as <- <-. apply Hsame. repeat split; auto; lia. }
  ib H wf Ewf. apply slice_mid in Ewf; [|lia|reflexivity]. subst wf.
  destruct (k_fit1 K w') as [f|] eqn:Ef.
  2:{ injection H as <- <-. unfold set_idx, prev_of in *. cc.
      apply Hmid. repeat split; auto; destruct (c_recs s); lia. }
  destruct (fgt (k_stab1 K f w') (Fin (sp_tcg P))) eqn:Estab.
  { change (flt (Fin (sp_tcg P)) (k_stab1 K f w')) with (fgt (k_stab1 K f w') (Fin (sp_tcg P))) in *.
    injection H as <- <-. unfold set_idx, prev_of in *. cc.
    apply Hmid. repeat split; auto; destruct (c_recs s); lia. }
  change (match c_recs s with [] => c_dense s | _ => c_prev s end) with (prev_of s) in H.
  apply bind_ok in H. destruct H as ([[x2 i2] start2] & Eb & H).
  assert (Hspan : 366 <= dat w' (zlen w' - 1) - dat w' 0).
  { apply get_O in Ece. apply get_O in Ecs. destruct Ece as [_ ->]. destruct Ecs as [_ ->].
    assert (Hcpn : forall k, 0 <= k < zlen w' -> nthO cp (c_start s + k) = nthO w' k).
    { intros k Hk. unfold cp. rewrite nthO_app2 by lia. rewrite nthO_app1 by lia. f_equal. lia. }
    pose proof (Hcpn (zlen w' - 1) ltac:(lia)) as G1. pose proof (Hcpn 0 ltac:(lia)) as G2.
    rewrite Z.add_0_r in G2. rewrite Z.add_sub_assoc in G1. rewrite G1, G2 in E366. unfold dat. lia. }
  assert (Hp0 : 0 <= prev_of s) by lia.
  unfold cp in Eb. rewrite <- HLU in Eb at 3.
  apply back_form in Eb; [|assumption|assumption|lia].
  destruct Eb as (A1 & A2 & e & EA & -> & -> & HA1 & Hi & HcA & He).
  assert (Hsplit : exists p, A1 = L0 ++ p /\ U = p ++ A2).
  { assert (HLA : (length L0 <= length A1)%nat) by (unfold zlen in *; lia).
    exists (skipn (length L0) A1).
    assert (Hf : firstn (length L0) A1 = L0).
    { transitivity (firstn (length L0) (A1 ++ A2)).
      - rewrite firstn_app. replace (length L0 - length A1)%nat with 0%nat by lia. rewrite firstn_O, app_nil_r. reflexivity.
      - rewrite <- EA, firstn_app, firstn_all, Nat.sub_diag, firstn_O. apply app_nil_r. }
    assert (E1 : A1 = L0 ++ skipn (length L0) A1) by (rewrite <- Hf at 1; symmetry; apply firstn_skipn).
    split; [exact E1|]. rewrite E1 in EA. rewrite <- app_assoc in EA. apply app_inv_head in EA. exact EA. }
  destruct Hsplit as (p & -> & EU). clear EA.
  assert (HU2 : zlen U = zlen p + zlen A2) by (rewrite EU; apply zlen_app).
  assert (HA1' : zlen (L0 ++ p) = zlen L0 + zlen p) by apply zlen_app.
  pose proof (zlen_nonneg e) as Ze. pose proof (zlen_nonneg p) as Zp.
  assert (Hcut2 : cut (reason ((U ++ W) ++ B)) (U ++ W) (p ++ e ++ w')).
  { assert (EL : U ++ W = p ++ A2 ++ W) by (rewrite EU, <- app_assoc; reflexivity).
    apply (@eq_ind_r _ _ (fun l => cut (reason ((U ++ W) ++ B)) l (p ++ e ++ w'))) with (2 := EL).
    apply cut_app; [apply cut_refl|]. apply cut_app; [|assumption].
    eapply cut_mono; [|exact HcA]. intros o Ho. right. exists w', f. split; [assumption|]. split; [|assumption].
    rewrite <- app_assoc. change w' with ([] ++ w'). apply subseq_app; [constructor|].
    rewrite <- (app_nil_r w'). apply subseq_app; [eapply cut_sub; exact Hcut|constructor]. }
  assert (Hend : forall q : Prop, q -> exists L1', (L0 ++ p) ++ e ++ w' ++ B = L0 ++ L1' ++ B /\
     zlen L0 + zlen L1' = i2 + 1 /\ cut (reason ((U ++ W) ++ B)) (U ++ W) L1' /\ q).
  { intros q Hq. exists (p ++ e ++ w'). split; [rewrite <- !app_assoc; reflexivity|].
    split; [rewrite !zlen_app; lia|]. split; assumption. }
  assert (Hfound : forall (rs' : list seg) dn, 0 <= dn <= zlen p -> first_record (c_recs s) p (e ++ w') dn f rs' ->
     exists L1', (L0 ++ p) ++ e ++ w' ++ B = L0 ++ L1' ++ B /\ zlen L0 + zlen L1' = i2 + 1 /\
       cut (reason ((U ++ W) ++ B)) (U ++ W) L1' /\ c_m s = c_m s /\ c_chg s = c_chg s /\
       exists p0 e0 wf f0 dn0, L1' = p0 ++ e0 ++ wf /\ zlen L0 + zlen p0 = zlen (L0 ++ p) /\
        18 <= zlen wf /\ 366 <= dat wf (zlen wf - 1) - dat wf 0 /\
        k_fit1 K wf = Some f0 /\ fgt (k_stab1 K f0 wf) (Fin (sp_tcg P)) = false /\
        Forall (fun b => fgt (k_back K f0 b) (Fin (sp_tmax P)) = false) e0 /\
        0 <= dn0 <= zlen p0 /\ first_record (c_recs s) p0 (e0 ++ wf) dn0 f0 rs').
  { intros rs' dn Hdn Hfr. exists (p ++ e ++ w'). split; [rewrite <- !app_assoc; reflexivity|].
    split; [rewrite !zlen_app; lia|]. split; [assumption|]. split; [reflexivity|]. split; [reflexivity|].
    exists p, e, w', f, dn. repeat (split; [first [reflexivity|assumption|lia]|]). assumption. }
  destruct (c_recs s) as [|rc rs] eqn:Er.
  2:{ injection H as <- <-. unfold set_idx. cc. rewrite Er. apply (Hfound _ 0); [lia|]. left. split; [left; discriminate|reflexivity]. }
  specialize (Hnil eq_refl). subst L0. cbn [app] in *. change (zlen (@nil obs)) with 0 in *.
  unfold prev_of in *. rewrite Er in *.
  destruct (6 <=? zlen p - c_dense s) eqn:E6.
  2:{ injection H as <- <-. unfold set_idx. cc. rewrite Er. apply (Hfound _ (c_dense s)); [lia|]. left. split; [right; lia|reflexivity]. }
  assert (Hne : e ++ w' <> []).
  { intros E. apply app_eq_nil in E. destruct E as [_ E]. rewrite E in E18. discriminate. }
  ib H w2 Ew2. rewrite (app_assoc e) in Ew2. apply slice_tail in Ew2; [|lia|assumption]. subst w2.
  ib H os Eos. apply mapM_inv in Eos. destruct Eos as [Eos Hrng].
  assert (Hcp : sp_conse P <= zlen p) by (specialize (Hrng (Z.to_nat (sp_conse P - 1)) ltac:(lia)); lia).
  rewrite rev_window in Eos by (unfold zlen in *; lia). subst os.
  destruct (k_first K f _ _) as [c|] eqn:Ec.
  2:{ injection H as <- <-. unfold set_idx. cc. apply Hend. rewrite Er. repeat split; auto; lia. }
  ib H ob Eob. ib H o0 Eo0. cbn [push_seg] in H. unfold push_seg in H. cbn [zlen length] in H.
  change (max_seg <=? zlen (@nil seg)) with false in H. cbn [bind app] in H.
  injection H as <- <-. cc. apply (Hfound _ (c_dense s)); [lia|]. right. split; [reflexivity|].
  split; [lia|]. split; [assumption|]. exists c. split; [assumption|].
  rewrite app_assoc in Eob. 
  destruct (e ++ w') as [|h tl] eqn:Eew; [contradiction|].
  destruct p as [|h0 p0]; [change (zlen (@nil obs)) with 0 in *; lia|].
  rewrite (app_assoc e), Eew in Eo0. 
  apply (@get_mid [] _ h0 0 o0 eq_refl) in Eo0. subst o0.
  rewrite <- app_assoc, (app_assoc e), Eew in Eob. cbn [app] in Eob.
  change (h0 :: p0 ++ h :: tl ++ B) with ((h0 :: p0) ++ h :: tl ++ B) in Eob. apply get_mid in Eob; [|reflexivity]. subst ob.
  reflexivity.
Qed.


(** ** The loop *)
Hypothesis Hcap : sp_tcgf P <= sp_cap P /\ sp_gate P <= sp_cap P.
Hypothesis Hc : 1 <= sp_conse P.

Lemma step2_more : forall void (s s' : cst), step2 K P void s = Ok s' ->
  c_ts s' = c_ts s /\
  (c_train s' = false -> c_m s' = c_m s /\ c_chg s' = c_chg s || negb void) /\
  (c_nobs s' <> c_nobs s -> exists o o1, get (c_x s) (c_i s) = Ok o /\ get (c_x s) (c_i s + 1) = Ok o1 /\ o_date o < o_date o1).
Proof.
  intros void s s' H. unfold step2 in H. destruct (c_m s) as [m|]; [|discriminate].
  destruct (c_ts s) as [ts|] eqn:Et; [|discriminate]. cbv zeta in H. ib H os Eos. ib H o Eo.
  destruct (scan K P m _ os 0 _) as [[flag bm] ic]. apply bind_ok in H. destruct H as ([pins cm] & _ & H).
  destruct (_ && _ && _) in H.
  - ib H a16 Ea. ib H rs Ers. ib H w Ew. injection H as <-. cc. repeat split; auto. intros []; reflexivity.
  - destruct (flt _ (k_norm2 K m _ o)) in H; ib H o1 Eo1.
    + injection H as <-. cc. repeat split; try discriminate; auto. intros []; reflexivity.
    + destruct (_ <=? 0) eqn:Eg in H; [discriminate|]. injection H as <-. cc.
      repeat split; try discriminate; auto. intros _. exists o, o1. repeat split; auto. lia.
Qed.

Section Loop.
Variables (mode0 : Z) (recs0 : list seg) (model0 : nmodel S) (X : list obs).
Notation alive := (alive mode0 recs0 model0 X).
Notation idle := (idle mode0 recs0 model0 X).

Definition TI (void train0 : bool) (s : cst) : Prop :=
  (train0 = true -> void = false -> c_chg s = false -> c_train s = true) /\
  if c_train s then
    exists m ts L B, c_m s = Some m /\ c_ts s = Some ts /\ c_x s = L ++ B /\ zlen L = c_i s /\
      alive (c_recs s) m (c_nobs s) ts B
  else
    exists L0 L1 q B, idle (c_recs s) (c_m s) (q ++ B) /\ c_x s = L0 ++ L1 ++ B /\ zlen L0 + zlen L1 = c_i s + 1 /\
      cut (reason (q ++ B)) q L1 /\ zlen L0 <= prev_of s /\ prev_of s <= c_start s <= c_i s /\ (c_recs s = [] -> L0 = []).

Lemma step2_trace : forall void train0 (s s' : cst), step2 K P void s = Ok s' -> c_train s = true ->
  c_i s + sp_conse P <= n_clr s - 1 -> TI void train0 s -> TI void train0 s'.
Proof.
  intros void train0 s s' H Et Hgo [Hmon HI]. rewrite Et in HI.
  destruct HI as (m & ts & L & B & Em & Ets & Ex & HL & HA).
  pose proof (@step2_more void s s' H) as (M1 & M2 & M3).
  pose proof (@C101_step _ _ _ _ K P Hcap void s s' m Em Hc H) as HT. cbv zeta in HT.
  destruct HT as (o & o1 & rest & ts' & Hsk & Ets' & _ & HT).
  assert (ts' = ts) by congruence. subst ts'. clear Ets'.
  rewrite Ex, (skipn_len L B (eq_sym HL)) in Hsk. subst B.
  assert (Hlen : sp_conse P < zlen (o :: rest)) by (unfold n_clr in Hgo; rewrite Ex, zlen_app in Hgo; lia).
  destruct (judge K P m (c_nobs s - 6) (firstn cw (o :: rest))) eqn:Ej.
  - destruct HT as (H1 & H2 & H3 & H4 & H5 & H6 & _). destruct (M2 H2) as [M4 M5]. split.
    { intros _ -> Hch. rewrite M5 in Hch. destruct (c_chg s); discriminate. }
    rewrite H2. destruct rest as [|o' t]; [rewrite zlen_cons in Hlen; change (zlen (@nil obs)) with 0 in Hlen; lia|].
    exists L, [o; o'], [o; o'], t. rewrite M4, Em, H1. split; [apply (id_break HA Hlen Ej)|].
    split; [rewrite H3; exact Ex|]. split; [change (zlen [o; o']) with 2; lia|]. split; [apply cut_refl|].
    unfold prev_of. rewrite H1. destruct (c_recs s ++ _) eqn:E; [destruct (c_recs s); discriminate|].
    split; [lia|]. split; [lia|discriminate].
  - destruct HT as (H1 & H2 & H3 & H4 & H5 & H6 & H7 & _). split; [auto|]. rewrite H3.
    destruct rest as [|o' t]; [discriminate|]. injection H1 as ->.
    exists (k_skip K m (o_date o1 - o_date o)), ts, L, (o1 :: t). split; [assumption|]. split; [congruence|].
    rewrite Ex in H4. rewrite (firstn_len L _ (eq_sym HL)) in H4. split; [assumption|]. split; [lia|].
    rewrite H2, H6. apply (al_skip HA Hlen Ej).
  - destruct HT as (H1 & H2 & H3 & H4 & H5 & H6 & H7 & _). split; [auto|]. rewrite H3.
    destruct rest as [|o' t]; [discriminate|]. injection H1 as ->.
    exists (k_filter K m o (o_date o1 - o_date o)), ts, (L ++ [o]), (o1 :: t). split; [assumption|]. split; [congruence|].
    split; [rewrite H4, Ex, <- app_assoc; reflexivity|].
    split; [rewrite zlen_app; change (zlen [o]) with 1; lia|]. rewrite H2, H6. apply (al_take HA Hlen Ej).
    destruct M3 as (p & p1 & G1 & G2 & G3); [lia|]. rewrite Ex in G1, G2. apply get_mid in G1; [|lia]. subst p.
    change (L ++ o :: o1 :: t) with (L ++ [o] ++ o1 :: t) in G2. rewrite app_assoc in G2.
    apply get_mid in G2; [|rewrite zlen_app; change (zlen [o]) with 1; lia]. subst p1. assumption.
Qed.

Lemma cstep_trace : forall void train0 (s s' : cst), cstep K P void s = Ok s' ->
  c_i s + sp_conse P <= n_clr s - 1 -> TI void train0 s -> TI void train0 s'.
Proof.
  intros void train0 s s' H Hgo HT. unfold cstep in H. destruct (c_train s) eqn:Et; [eapply step2_trace; eassumption|].
  cbv zeta in H. destruct HT as [Hmon HI]. rewrite Et in HI.
  destruct HI as (L0 & L1 & q & B & HA & Ex & Hn & Hcut & Hlo & Hst & Hnil).
  ib H xe Exe. ib H xs Exs. apply bind_ok in H. destruct H as ([s2 r] & E2 & H).
  assert (HB : exists o t, B = o :: t).
  { destruct B as [|o t]; [|eauto]. unfold n_clr in Hgo. rewrite Ex, app_nil_r, zlen_app in Hgo. lia. }
  destruct HB as (o & t & ->).
  (* the state after the attempt *)
  assert (Hform : exists L1', c_x s2 = L0 ++ L1' ++ o :: t /\ zlen L0 + zlen L1' = c_i s2 + 1 /\
    cut (reason (q ++ o :: t)) q L1' /\ c_m s2 = c_m s /\ c_chg s2 = c_chg s /\
    match r with
    | Suc => exists p e wf f dn, L1' = p ++ e ++ wf /\ zlen L0 + zlen p = c_start s2 /\
        18 <= zlen wf /\ 366 <= dat wf (zlen wf - 1) - dat wf 0 /\
        k_fit1 K wf = Some f /\ fgt (k_stab1 K f wf) (Fin (sp_tcg P)) = false /\
        Forall (fun b => fgt (k_back K f b) (Fin (sp_tmax P)) = false) e /\
        0 <= dn <= zlen p /\ first_record (c_recs s) p (e ++ wf) dn f (c_recs s2)
    | _ => c_recs s2 = c_recs s /\ c_train s2 = c_train s /\ zlen L0 <= prev_of s2 /\
        prev_of s2 <= c_start s2 <= c_i s2 + (match r with Inc => 1 | _ => 0 end)
    end).
  { destruct (_ && _) in E2.
    - destruct (@step1_form s s2 r L0 L1 (o :: t) Hc E2 Ex Hn Hlo Hst Hnil) as (L1' & F1 & F2 & F3 & F4).
      exists L1'. split; [assumption|]. split; [assumption|]. split; [|assumption].
      eapply cut_trans; [exact Hcut|]. eapply cut_mono; [|exact F3]. intros b. apply reason_mono.
      apply subseq_app; [eapply cut_sub; exact Hcut|apply subseq_refl].
    - injection E2 as <- <-. exists L1. repeat split; auto; lia. }
  destruct Hform as (L1' & F1 & F2 & F3 & F4 & F5 & F6). destruct r.
  - destruct F6 as (G1 & G2 & G3 & G4). injection H as <-. unfold TI, prev_of in *. cc. rewrite G1, G2, Et in *.
    split; [rewrite F5; exact Hmon|].
    exists L0, (L1' ++ [o]), (q ++ [o]), t. rewrite <- !app_assoc. cbn [app]. rewrite F4.
    split; [assumption|]. split; [assumption|]. rewrite zlen_app. change (zlen [o]) with 1. split; [lia|].
    split; [apply cut_app; [assumption|apply cut_refl]|]. split; [assumption|]. split; [lia|assumption].
  - destruct F6 as (p & e & wf & f & dn & -> & G2 & G3 & G4 & G5 & G6 & G7 & G8 & G9).
    rewrite !zlen_app in F2.
    ib H w Ew. ib H on Eon. ib H os Eos. ib H m Em. injection H as <-. unfold TI. cc.
    split; [reflexivity|].
    assert (Ex2 : c_x s2 = (L0 ++ p) ++ (e ++ wf) ++ o :: t) by (rewrite F1, <- !app_assoc; reflexivity).
    rewrite Ex2 in Ew, Eon, Eos. apply slice_mid in Ew; [|rewrite zlen_app; lia|rewrite zlen_app; lia]. subst w.
    assert (on = o).
    { rewrite app_assoc in Eon. pose proof (zlen_nonneg t).
      eapply get_mid; [|exact Eon]. rewrite !zlen_app, zlen_cons. lia. }
    subst on. destruct (cut_split _ _ F3) as (q1 & q2 & -> & C1 & C2).
    exists m, (o_date os), (L0 ++ p ++ e ++ wf), (o :: t).
    split; [reflexivity|]. split; [reflexivity|]. split; [rewrite F1, <- !app_assoc; reflexivity|].
    split; [rewrite !zlen_app; lia|].
    assert (Hos : o_date os = first_date (e ++ wf)).
    { destruct (e ++ wf) as [|h tl] eqn:E.
      - apply app_eq_nil in E. destruct E as [_ ->]. change (zlen (@nil obs)) with 0 in G3. lia.
      - cbn [app] in Eos. apply get_mid in Eos; [|rewrite zlen_app; lia]. subst os. reflexivity. }
    replace (c_i s2 - c_start s2 + 1) with (zlen (e ++ wf)) by (rewrite zlen_app; lia). rewrite Hos.
    unfold of_opt in Em. destruct (k_init K (c_m s2) (e ++ wf) (o_date o)) as [m'|] eqn:Ei; [|discriminate].
    injection Em as ->. rewrite F4 in Ei.
    eapply al_open with (p := q1) (q := q2) (p' := p) (f := f) (dn := dn) (left := c_m s); try eassumption.
    rewrite <- app_assoc. reflexivity.
  - destruct F6 as (G1 & G2 & G3 & G4). injection H as <-. unfold TI. rewrite G1, G2, Et in *.
    split; [rewrite F5; exact Hmon|].
    exists L0, L1', q, (o :: t). rewrite F4. repeat split; auto; lia.
Qed.

Lemma cloop_trace : forall void train0 fuel (s s' : cst), cloop K P void fuel s = Ok s' -> TI void train0 s ->
  TI void train0 s' /\ n_clr s' - c_i s' <= sp_conse P.
Proof.
  intros void train0. induction fuel as [|fuel IH]; intros s s' H HI; cbn [cloop] in H.
  - destruct (_ <=? _) eqn:E; [discriminate|]. injection H as <-. split; [assumption|lia].
  - destruct (_ <=? _) eqn:E; [|injection H as <-; split; [assumption|lia]]. ib H sa E1.
    apply (IH _ _ H). eapply cstep_trace; [eassumption|lia|assumption].
Qed.
End Loop.

(** What a call leaves behind: records, and the model if one is saved. *)
Definition told (a b : io) (X : list obs) : Prop :=
  (exists m n ts B, alive (io_mode a) (io_recs a) (io_model a) X (io_recs b) m n ts B) \/
  (exists left Y, idle (io_mode a) (io_recs a) (io_model a) X (io_recs b) left Y).
Definition kept (a b : io) (X : list obs) : Prop :=
  exists m n ts B, alive (io_mode a) (io_recs a) (io_model a) X (io_recs b) m n ts B /\ zlen B <= sp_conse P /\
    nm_st (io_model b) = k_store K m /\ nm_nobs (io_model b) = wrap16 n /\ nm_start (io_model b) = wrap16 (ts - launch).

Lemma save_model_kept : forall (s : cst) mode mode' model, save_model K P s mode = Ok (mode', model) ->
  exists m ts, c_m s = Some m /\ c_ts s = Some ts /\
  nm_st model = k_store K m /\ nm_nobs model = wrap16 (c_nobs s) /\ nm_start model = wrap16 (ts - launch).
Proof.
  intros s mode mode' model H. unfold save_model in H. destruct (c_m s) as [m|]; [|discriminate].
  destruct (c_ts s) as [ts|]; [|discriminate]. cbv zeta in H. exists m, ts. split; [reflexivity|]. split; [reflexivity|].
  ib H w Ew. ib H os Eos. destruct (0 <? _).
  - destruct (_ =? 0) in H; [injection H as _ <-; auto|]. ib H a Ea. injection H as _ <-. auto.
  - injection H as _ <-. auto.
Qed.

Theorem standard_trace : forall fuel x a b, standard K P fuel x a = Ok b ->
  told a b x /\ (Z.rem (io_mode b) 10 = 1 -> kept a b x).
Proof.
  intros fuel x a b H. unfold standard in H. cbv zeta in H. ib H ol Eol. ib H o0 Eo0.
  destruct (_ <? 0) in H; [discriminate|]. ib H s Es.
  set (train := Z.rem (io_mode a) 10 =? 1) in *.
  apply (@cloop_trace (io_mode a) (io_recs a) (io_model a) x (io_mode a =? 0) train) in Es.
  2:{ split; cc; [auto|]. destruct train eqn:Etr.
      - exists (k_load K (nm_st (io_model a))), (nm_start (io_model a) + launch), [], x.
        repeat (split; [reflexivity|]). apply al_resume. unfold train in Etr. lia.
      - destruct x as [|p t]; [discriminate|]. exists [], [p], [p], t. split; [apply id_start; unfold train in Etr; lia|].
        split; [reflexivity|]. split; [reflexivity|]. split; [apply cut_refl|].
        unfold prev_of. cc. change (zlen (@nil obs)) with 0. destruct (io_recs a); repeat split; lia. }
  destruct Es as [[Hmon HT] Hend]. apply bind_ok in H. destruct H as ([m1 prev] & Em1 & H).
  apply bind_ok in H. destruct H as ([m2 model] & Em2 & H). ib H qu Equ. injection H as <-.
  unfold told, kept. cbn [io_mode io_recs io_model]. split.
  - destruct (c_train s).
    + destruct HT as (m & ts & L & B & _ & _ & _ & _ & HA). left. eauto.
    + destruct HT as (L0 & L1 & q & B & HA & _). right. eauto.
  - intros Hrem. assert (Hm1 : Z.rem m1 10 =? 1 = true).
    { destruct (Z.rem m1 10 =? 1) eqn:E; [reflexivity|]. injection Em2 as <- _. lia. }
    rewrite Hm1 in Em2. destruct (save_model_kept _ _ Em2) as (m & ts & Em & Ets & S1 & S2 & S3).
    assert (Htr : c_train s = true).
    { unfold new_mode in Em1. destruct (io_mode a =? 0) eqn:E0.
      - destruct (c_train s); [reflexivity|]. injection Em1 as <- _. discriminate.
      - destruct (c_chg s) eqn:Ech.
        + destruct (_ =? 1) in Em1; injection Em1 as <- _; discriminate.
        + destruct (Z.rem (io_mode a) 10 =? 2) eqn:E2.
          * destruct (c_train s); [reflexivity|]. injection Em1 as <- _. lia.
          * destruct (Z.rem (io_mode a) 10 =? 5) eqn:E5.
            -- ib Em1 p Ep. ib Em1 p0 Ep0. destruct (_ <? 15) in Em1; injection Em1 as <- _; [lia|discriminate].
            -- injection Em1 as <- _. apply Hmon; auto. }
    rewrite Htr in HT. destruct HT as (m' & ts' & L & B & Em' & Ets' & Ex & HL & HA).
    assert (m' = m) by congruence. assert (ts' = ts) by congruence. subst m' ts'.
    exists m, (c_nobs s), ts, B. split; [assumption|]. split; [|auto].
    unfold n_clr in Hend. rewrite Ex, zlen_app in Hend. lia.
Qed.


(** ** What the rules say about records *)
Section Records.
Variables (mode0 : Z) (recs0 : list seg) (model0 : nmodel S) (X : list obs).
Notation alive := (alive mode0 recs0 model0 X).
Notation idle := (idle mode0 recs0 model0 X).

(** A segment was being followed when the verdict was Change. *)
Definition closed (r : seg) : Prop :=
  exists rs m n ts o t, alive rs m n ts (o :: t) /\ sp_conse P < zlen (o :: t) /\
    let win := firstn cw (o :: t) in
    judge K P m (n - 6) win = Change /\ r = mkSeg ts (o_date o) n (k_rec K m (n - 6) win) win.
(** The observations before the first segment. *)
Definition opening (r : seg) : Prop :=
  exists p p' w rest dn f, X = p ++ rest /\ cut (reason X) p p' /\ first_record [] p' w dn f [r].
Definition explained (t : list seg) : Prop :=
  forall r, In r t -> closed r \/ (recs0 = [] /\ head t = Some r /\ opening r).

Lemma idle_new : forall left Y, idle [] left Y -> recs0 = [] /\ Y = X /\ left = None.
Proof.
  intros left Y H. inversion H as [Hm Er El EY|rs m n ts o t HA Hl Hj Er]; subst.
  - auto.
  - destruct rs; discriminate.
Qed.

Lemma explained_app : forall t r, explained t -> closed r -> explained (t ++ [r]).
Proof.
  intros t r HE Hr q Hq. apply in_app_or in Hq. destruct Hq as [Hq|[<-|[]]]; [|left; assumption].
  destruct (HE q Hq) as [H|(H1 & H2 & H3)]; [left; assumption|right]. split; [assumption|]. split; [|assumption].
  destruct t; [destruct Hq|exact H2].
Qed.

Lemma life_records :
  (forall rs m n ts l, alive rs m n ts l -> exists t, rs = recs0 ++ t /\ explained t) /\
  (forall rs left Y, idle rs left Y -> exists t, rs = recs0 ++ t /\ explained t).
Proof.
  apply life_ind.
  - intros _. exists []. rewrite app_nil_r. split; [reflexivity|]. intros r [].
  - intros rs rs' left Y p p' q e wf f m o t dn HI (tt & Et & HE) EY Hp _ _ _ _ _ _ _ _ Hfr.
    destruct Hfr as [[_ ->]|(E & H6 & Hcp & c & Ec & ->)]; [eauto|]. rewrite E in *.
    destruct (idle_new HI) as (E0 & EX & _). exists [mkSeg (first_date p') (first_date (e ++ wf)) (zlen p' - dn) c (firstn cw (rev p'))].
    rewrite E0. split; [reflexivity|]. intros r [<-|[]]. right. split; [assumption|]. split; [reflexivity|].
    rewrite EX in EY, Hp. exists p, p', (e ++ wf), (q ++ o :: t), dn, f. split; [assumption|]. split; [assumption|].
    right. split; [reflexivity|]. split; [assumption|]. split; [assumption|]. exists c. split; [assumption|reflexivity].
  - intros. assumption.
  - intros. assumption.
  - intros _. exists []. rewrite app_nil_r. split; [reflexivity|]. intros r [].
  - intros rs m n ts o t HA (tt & Et & HE) Hl Hj. eexists. rewrite Et, <- app_assoc. split; [reflexivity|].
    apply explained_app; [assumption|]. exists rs, m, n, ts, o, t. auto.
Qed.

(** The counter counts observations of the call, in order, none twice. *)
Definition counted (n ts : Z) (l : list obs) : Prop :=
  exists used, subseq (used ++ l) X /\
    ((Z.rem mode0 10 = 1 /\ n = nm_nobs model0 + zlen used /\ ts = nm_start model0 + launch) \/
     (n = zlen used /\ ts = first_date used /\ 18 <= n)).

Lemma life_counted :
  (forall rs m n ts l, alive rs m n ts l -> counted n ts l) /\
  (forall rs left Y, idle rs left Y -> subseq Y X).
Proof.
  apply life_ind.
  - intros Hm. exists []. split; [apply subseq_refl|]. left. change (zlen (@nil obs)) with 0. split; [assumption|]. split; lia.
  - intros rs rs' left Y p p' q e wf f m o t dn _ HY -> _ Hq H18 _ _ _ _ _ _ _. exists (e ++ wf). split.
    + eapply subseq_trans; [|exact HY]. change ((e ++ wf) ++ o :: t) with ([] ++ (e ++ wf) ++ o :: t).
      apply subseq_app; [constructor|]. apply subseq_app; [eapply cut_sub; exact Hq|apply subseq_refl].
    + right. split; [reflexivity|]. split; [reflexivity|]. rewrite zlen_app. pose proof (zlen_nonneg e). lia.
  - intros rs m n ts o o1 t _ (used & HS & HU) _ _ _. exists (used ++ [o]). rewrite <- app_assoc. split; [assumption|].
    rewrite zlen_app. change (zlen [o]) with 1. destruct HU as [(H1 & H2 & H3)|(H1 & H2 & H3)]; [left|right].
    + split; [assumption|]. split; lia.
    + split; [lia|]. split; [|lia]. destruct used; [change (zlen (@nil obs)) with 0 in H1; lia|assumption].
  - intros rs m n ts o o1 t _ (used & HS & HU) _ _. exists used. split; [|assumption].
    eapply subseq_trans; [|exact HS]. apply subseq_app; [apply subseq_refl|]. apply sub_drop, subseq_refl.
  - intros _. apply subseq_refl.
  - intros rs m n ts o t _ (used & HS & _) _ _. eapply subseq_trans; [|exact HS].
    change (o :: t) with ([] ++ o :: t) at 1. apply subseq_app; [constructor|apply subseq_refl].
Qed.
End Records.

Theorem C105_records : forall a b X, told a b X ->
  exists t, io_recs b = io_recs a ++ t /\ explained (io_mode a) (io_recs a) (io_model a) X t.
Proof.
  intros a b X [(m & n & ts & B & H)|(left & Y & H)].
  - exact (proj1 (@life_records (io_mode a) (io_recs a) (io_model a) X) _ _ _ _ _ H).
  - exact (proj2 (@life_records (io_mode a) (io_recs a) (io_model a) X) _ _ _ H).
Qed.
End Trace.

(** ** C105: a call of the detector *)
Section Calls.
Variables N S F C : Type.
Implicit Types (K : list Z -> skernel N S F C) (a b : io S C).

Lemma told_same : forall (k : skernel N S F C) P a b X, io_recs b = io_recs a -> told k P a b X.
Proof.
  intros k P a b X E. unfold told. rewrite E. destruct (Z.eq_dec (Z.rem (io_mode a) 10) 1) as [Hm|Hm].
  - left. do 4 eexists. apply al_resume. assumption.
  - right. do 2 eexists. apply id_start. assumption.
Qed.

Lemma snow_mode_ends : forall (k : skernel N S F C) x a b, snow k x a = Ok b -> io_mode b = 3 \/ io_mode b = 4.
Proof.
  intros k x a b H. unfold snow in H. cbv zeta in H. destruct (_ || _) in H.
  - destruct (_ <? 18) in H.
    + apply bind_ok in H. destruct H as (q & _ & H). injection H as <-. auto.
    + apply bind_ok in H. destruct H as (m & _ & H). apply bind_ok in H. destruct H as (o0 & _ & H).
      apply bind_ok in H. destruct H as (w & _ & H). injection H as <-. auto.
  - apply bind_ok in H. destruct H as (m & _ & H). apply bind_ok in H. destruct H as (w & _ & H). injection H as <-. auto.
Qed.

(** Either no usable observation arrived and the pack is as before, or the
    saved model is that of the segment being followed. *)
Lemma sccd_trace : forall K P c2 junk fuel rows a b, 1 <= sp_conse P -> length junk = 6%nat ->
  sp_tcgf P <= sp_cap P /\ sp_gate P <= sp_cap P ->
  sccd K P c2 junk fuel rows a = Ok b ->
  let X := call_obs c2 false rows a in
  told (K (io_rmse b)) P a b X /\
  (Z.rem (io_mode b) 10 = 1 -> (X = carried a /\ b = a) \/ kept (K (io_rmse b)) P a b X).
Proof.
  intros K P c2 junk fuel rows a b Hc Hj Hcap H X.
  destruct (@sccd_cases N S F C K P c2 junk fuel rows a Hj) as [E|(sn & _ & _ & _ & Hcase)]; [congruence|].
  cbv zeta in Hcase. destruct Hcase as [[-> E]|[(-> & EX & E)|(-> & _ & rm & _ & E)]]; rewrite H in E; symmetry in E.
  - split; [apply told_same; apply (snow_same _ _ _ E)|]. intros Hr.
    destruct (snow_mode_ends _ _ _ E) as [Em|Em]; rewrite Em in Hr; discriminate.
  - injection E as ->. split; [apply told_same; reflexivity|]. intros _. left. auto.
  - rewrite (standard_rmse _ _ _ _ _ E). cbn [io_rmse]. apply standard_trace in E; auto.
    destruct E as [E1 E2]. split; [exact E1|]. intros Hr. right. exact (E2 Hr).
Qed.

Theorem C105_detect : forall K P c2 junk jm rows b, 1 <= sp_conse P -> length junk = 6%nat ->
  sp_tcgf P <= sp_cap P -> sp_gate P <= sp_cap P ->
  detect K P c2 junk jm rows = Ok b ->
  let X := call_obs c2 false rows (blank C jm) in
  told (K (io_rmse b)) P (blank C jm) b X /\
  (Z.rem (io_mode b) 10 = 1 -> kept (K (io_rmse b)) P (blank C jm) b X).
Proof.
  intros K P c2 junk jm rows b Hc Hj H1 H2 H X. destruct (@detect_ok _ _ _ _ _ _ _ _ _ _ _ H) as (b' & E & Er & _).
  apply sccd_trace in E; auto. cbv zeta in E. fold X in E. rewrite (rmse_back _ _ Er). destruct E as [E1 E2]. split.
  - destruct (returned_recs Er) as [E'|[_ E']].
    + unfold told in *. rewrite E'. exact E1.
    + apply told_same. rewrite E'. reflexivity.
  - intros Hr. rewrite (returned_mode Er) in Hr. destruct (E2 Hr) as [[_ ->]|HK]; [discriminate|].
    assert (Hm : io_model b = io_model b').
    { apply (returned_model _ _ Er). rewrite (returned_mode Er). assumption. }
    destruct (returned_recs Er) as [E'|[E' _]]; [|rewrite E' in Hr; discriminate].
    unfold kept in *. rewrite E', Hm. exact HK.
Qed.

Theorem C105_update : forall K P c2 junk jm rows a b, 1 <= sp_conse P -> length junk = 6%nat ->
  sp_tcgf P <= sp_cap P -> sp_gate P <= sp_cap P -> io_mode b <> 0 ->
  update K P c2 junk jm rows a = Ok b ->
  let X := call_obs c2 false rows a in
  told (K (io_rmse b)) (no_pin P) a b X /\
  (Z.rem (io_mode b) 10 = 1 ->
     (X = carried a /\ io_recs b = io_recs a /\ io_model b = io_model a) \/ kept (K (io_rmse b)) (no_pin P) a b X).
Proof.
  intros K P c2 junk jm rows a b Hc Hj H1 H2 Hm0 H X. destruct (@update_ok _ _ _ _ _ _ _ _ _ _ _ _ H) as (b' & E & Er).
  apply sccd_trace in E; auto. cbv zeta in E. fold X in E. rewrite (rmse_back _ _ Er). destruct E as [E1 E2].
  destruct (returned_recs Er) as [E'|[E' _]]; [|rewrite <- (returned_mode Er) in E'; contradiction].
  split; [unfold told in *; rewrite E'; exact E1|].
  intros Hr. rewrite (returned_mode Er) in Hr.
  assert (Hm : io_model b = io_model b').
  { apply (returned_model _ _ Er). rewrite (returned_mode Er). assumption. }
  destruct (E2 Hr) as [[HX ->]|HK]; [left; auto|right]. unfold kept in *. rewrite E', Hm. exact HK.
Qed.

(** The counter of a record closed while monitoring is the number of
    observations of the call that its model has taken in, plus those of the
    saved model it continues. *)
Theorem C105_count : forall (k : skernel N S F C) P a X r, closed k P (io_mode a) (io_recs a) (io_model a) X r ->
  exists used o, g_break r = o_date o /\ subseq (used ++ [o]) X /\
    ((Z.rem (io_mode a) 10 = 1 /\ g_nobs r = nm_nobs (io_model a) + zlen used /\ g_start r = nm_start (io_model a) + launch) \/
     (g_nobs r = zlen used /\ g_start r = first_date used /\ 18 <= g_nobs r)).
Proof.
  intros k P a X r (rs & m & n & ts & o & t & HA & _ & _ & ->). cbn [g_break g_nobs g_start].
  destruct (proj1 (@life_counted N S F C k P (io_mode a) (io_recs a) (io_model a) X) _ _ _ _ _ HA) as (used & HS & HU).
  exists used, o. split; [reflexivity|]. split; [|exact HU].
  eapply subseq_trans; [|exact HS]. apply subseq_app; [apply subseq_refl|]. apply sub_keep. constructor.
Qed.
End Calls.

(** ** Concrete cases *)

(** A kernel whose state is its history: the dates of the initial window and
    the date it is started for, each with 0; then every date fed to it with
    the days to the next observation, the date being 0 for one left out. *)
Definition hist (_ : list Z) : skernel (Z * list (Z * Z)) (Z * list (Z * Z)) Z (list (Z * Z)) :=
  mkSK (fun _ => Some (fun _ => false)) (fun w => Some (level w)) (fun _ _ => Fin 0) dist (fun _ _ => Fin 0)
       (fun _ w _ => Some (map (fun o => (o_date o, 0)) w))
       (fun _ w d => Some (level w, map (fun o => (o_date o, 0)) w ++ [(d, 0)]))
       (fun m _ o => dist (fst m) o) (fun _ _ _ => Fin 0)
       (fun m _ _ => snd m) (fun m o g => (fst m, snd m ++ [(o_date o, g)])) (fun m g => (fst m, snd m ++ [(0, g)]))
       (fun m => m) (fun m => m) (fun a => match a with Fin z => Some z | NaN => None end)
       (fun a => match a with Fin z => z | NaN => 0 end) (fun w => Some (level w, [])) (fun m _ _ => m).
Definition hjm : nmodel (Z * list (Z * Z)) := mkNm (0, []) 0 0 (repeat zero_obs 8) 0 0 0.
(** One outlier among thirty observations at one level. *)
Definition spiked : list raw := rows_every 724000 20 22 500 ++ [rw 724440 5000] ++ rows_every 724460 20 12 500.

Example C105_case : 1 <= sp_conse (par 6 false) /\ length junk0 = 6%nat /\
  exists b, detect hist (par 6 false) true junk0 hjm spiked = Ok b /\ io_mode b = 1 /\ io_recs b = [] /\
    nm_nobs (io_model b) = 28 /\ nm_start (io_model b) + launch = 724000 /\
    snd (nm_st (io_model b)) =
      map (fun k => (724000 + 20 * Z.of_nat k, 0)) (seq 0 21) ++
      [(724400, 20); (724420, 20); (0, 20); (724460, 20); (724480, 20); (724500, 20); (724520, 20); (724540, 20); (724560, 20)].
Proof. vm_compute. split; [discriminate|]. split; [reflexivity|]. eexists. split; [reflexivity|]. repeat split. Qed.

(** A break: the record holds the history of its segment, the saved model that
    of the segment after it. *)
Example C105_break_case : exists b r, detect hist (par 6 false) true junk0 hjm
    (rows_every 724000 20 22 500 ++ rows_every 724440 20 30 700) = Ok b /\
  io_mode b = 1 /\ io_recs b = [r] /\ g_start r = 724000 /\ g_break r = 724440 /\ g_nobs r = 22 /\
  g_fit r = map (fun k => (724000 + 20 * Z.of_nat k, 0)) (seq 0 21) ++ [(724400, 20); (724420, 20)] /\
  nm_nobs (io_model b) = 24 /\ nm_start (io_model b) + launch = 724440 /\
  snd (nm_st (io_model b)) = map (fun k => (724440 + 20 * Z.of_nat k, 0)) (seq 0 21) ++
    [(724840, 20); (724860, 20); (724880, 20); (724900, 20)].
Proof. vm_compute. do 2 eexists. split; [reflexivity|]. split; [reflexivity|]. split; [reflexivity|]. repeat split. Qed.

Print Assumptions C105_detect.
Print Assumptions C105_update.
Print Assumptions C105_count.
Print Assumptions C105_records.
