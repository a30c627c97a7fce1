(** Splitting a series between two S-CCD calls.  The second call sees only the
    observations carried over and the stored model, the single call sees the
    whole series; the loop states of both are related by a shift of the array
    indices. *)
From Verif Require Import Base SortModel LibModel LibProps ColdModel ColdLemmas FrontModel FrontProps
  SccdModel SccdProof SccdTop SccdPack.

(** ** Reading inside a longer array *)

Lemma get_emb : forall A (pre y B : list A) i o, get y i = Ok o -> get (pre ++ y ++ B) (i + zlen pre) = Ok o.
Proof.
  intros A pre y B i o H. apply get_inv in H. destruct H as [H1 H2]. unfold get, zlen in *.
  replace (i + Z.of_nat (length pre) <? 0) with false by lia.
  rewrite nth_error_app2 by lia. rewrite nth_error_app1 by lia.
  replace (Z.to_nat (i + Z.of_nat (length pre)) - length pre)%nat with (Z.to_nat i) by lia. rewrite H2. reflexivity.
Qed.

Lemma skipn_emb : forall A (pre l : list A) n, 0 <= n -> skipn (Z.to_nat (n + zlen pre)) (pre ++ l) = skipn (Z.to_nat n) l.
Proof.
  intros A pre l n Hn. unfold zlen. replace (Z.to_nat (n + Z.of_nat (length pre))) with (length pre + Z.to_nat n)%nat by lia.
  induction pre; [reflexivity|]. simpl. exact IHpre.
Qed.

Lemma firstn_emb : forall A (pre l : list A) n, 0 <= n ->
  firstn (Z.to_nat (n + zlen pre)) (pre ++ l) = pre ++ firstn (Z.to_nat n) l.
Proof.
  intros A pre l n Hn. unfold zlen. replace (Z.to_nat (n + Z.of_nat (length pre))) with (length pre + Z.to_nat n)%nat by lia.
  apply firstn_app_2.
Qed.

Lemma skipn_app_in : forall A (y B : list A) n, 0 <= n <= zlen y -> skipn (Z.to_nat n) (y ++ B) = skipn (Z.to_nat n) y ++ B.
Proof.
  intros A y B n H. unfold zlen in H. rewrite skipn_app. replace (Z.to_nat n - length y)%nat with 0%nat by lia. reflexivity.
Qed.

Lemma firstn_app_in : forall A (y B : list A) n, 0 <= n <= zlen y -> firstn (Z.to_nat n) (y ++ B) = firstn (Z.to_nat n) y.
Proof.
  intros A y B n H. unfold zlen in H. rewrite firstn_app. replace (Z.to_nat n - length y)%nat with 0%nat by lia.
  simpl. apply app_nil_r.
Qed.

Lemma slice_emb : forall A (pre y B : list A) a n w, slice y a n = Ok w -> slice (pre ++ y ++ B) (a + zlen pre) n = Ok w.
Proof.
  intros A pre y B a n w H. apply slice_inv in H. destruct H as (H1 & H2 & H3 & ->).
  rewrite slice_ok; [| unfold zlen; lia | assumption |rewrite !zlen_app; unfold zlen in *; lia].
  rewrite skipn_emb by assumption. rewrite skipn_app_in by lia.
  rewrite firstn_app_in; [reflexivity|]. rewrite zlen_skipn by lia. lia.
Qed.

Lemma mapM_emb : forall pre y B f g n k os, mapM_idx y f k n = Ok os -> (forall c, g c = f c + zlen pre) ->
  mapM_idx (pre ++ y ++ B) g k n = Ok os.
Proof.
  intros pre y B f g n. induction n; intros k os H Hg; [exact H|]. cbn [mapM_idx] in *.
  apply bind_ok in H. destruct H as (o & H1 & H). apply bind_ok in H. destruct H as (t & H2 & H).
  rewrite Hg. rewrite (get_emb pre y B _ H1). cbn [bind]. rewrite (IHn _ _ H2 Hg). exact H.
Qed.

Lemma cp_emb : forall A (pre y B w : list A) a b, 0 <= a <= zlen y -> 0 <= b <= zlen y ->
  firstn (Z.to_nat (a + zlen pre)) (pre ++ y ++ B) ++ w ++ skipn (Z.to_nat (b + zlen pre)) (pre ++ y ++ B) =
  pre ++ (firstn (Z.to_nat a) y ++ w ++ skipn (Z.to_nat b) y) ++ B.
Proof.
  intros A pre y B w a b Ha Hb. rewrite firstn_emb, skipn_emb by lia. rewrite firstn_app_in, skipn_app_in by lia.
  rewrite <- !app_assoc. reflexivity.
Qed.

Lemma del_emb : forall A (pre y B : list A) i, 0 <= i < zlen y ->
  del (Z.to_nat (i + zlen pre)) (pre ++ y ++ B) = pre ++ del (Z.to_nat i) y ++ B.
Proof.
  intros A pre y B i H. unfold del.
  replace (Datatypes.S (Z.to_nat (i + zlen pre))) with (Z.to_nat (i + 1 + zlen pre)) by (unfold zlen; lia).
  replace (Datatypes.S (Z.to_nat i)) with (Z.to_nat (i + 1)) by lia.
  exact (cp_emb pre y B [] (a := i) (b := i + 1) ltac:(lia) ltac:(lia)).
Qed.

(** ** The loop *)

Section Resume.
Variables N S F C : Type.
Variable K : skernel N S F C.
Variable P : sparams.
Notation seg := (seg C).
Notation cst := (cst N S C).
Notation io := (io S C).
Hypothesis Hconse : 1 <= sp_conse P.
Hypothesis Hpin : sp_pin P = false.

Ltac ib H a E := apply bind_ok in H; destruct H as (a & E & H).

Lemma back_emb : forall pre B n f prev y i start y' i' st',
  back K P n f prev y i start = Ok (y', i', st') ->
  back K P n f (prev + zlen pre) (pre ++ y ++ B) (i + zlen pre) (start + zlen pre) =
    Ok (pre ++ y' ++ B, i' + zlen pre, st' + zlen pre) /\ zlen y' - i' = zlen y - i.
Proof.
  intros pre B n. induction n; intros f prev y i start y' i' st' H; cbn [back] in *.
  { injection H as <- <- <-. split; reflexivity. }
  replace (prev + zlen pre + Z.of_nat n) with (prev + Z.of_nat n + zlen pre) by lia.
  set (ii := prev + Z.of_nat n) in *.
  replace (ii + zlen pre - (prev + zlen pre) + 1) with (ii - prev + 1) by lia.
  set (ini := if ii - prev + 1 <? sp_conse P then ii - prev + 1 else sp_conse P) in *.
  assert (Hini : 1 <= ini) by (unfold ini, ii; destruct (_ <? _); lia).
  replace (ini =? 0) with false in * by lia.
  ib H os E.
  rewrite (@mapM_emb pre y B (fun c => ii - (Z.of_nat c + 1) + 1) (fun c => ii + zlen pre - (Z.of_nat c + 1) + 1) _ _ _ E)
    by (intros; lia).
  cbn [bind].
  assert (Hii : 0 <= ii < zlen y).
  { destruct (Z.to_nat ini) eqn:En; [lia|]. cbn [mapM_idx] in E. ib E o Eo. apply get_inv in Eo. lia. }
  destruct (_ && flt (k_bangle K f os) (Fin (sp_nsign P))).
  { injection H as <- <- <-. split; reflexivity. }
  replace (prev + zlen pre <=? ii + zlen pre) with (prev <=? ii) by lia.
  destruct (_ && (prev <=? ii)).
  - rewrite del_emb by assumption. replace (i + zlen pre - 1) with (i - 1 + zlen pre) by lia.
    destruct (IHn _ _ _ _ _ _ _ _ H) as [IH1 IH2]. split; [assumption|].
    rewrite zlen_del in IH2 by assumption. lia.
  - apply IHn. assumption.
Qed.

Variable M : Prop.
Variables void void' : bool.

(** State [s] of the call over the whole series, [s'] of the call over a part:
    [pre] comes before the part, [B] behind it. *)
Record Rel (pre B : list obs) (s s' : cst) : Prop := mkRel {
  r_x : c_x s = pre ++ c_x s' ++ B;
  r_i : c_i s = c_i s' + zlen pre;
  r_train : c_train s = c_train s';
  r_ts : c_ts s = c_ts s';
  r_nobs : c_nobs s = c_nobs s';
  r_m : c_m s = c_m s';
  r_recs : c_recs s = c_recs s';
  r_pins : c_pins s = c_pins s';
  r_idx : (c_train s' = true /\ c_chg s' = false) \/
     (c_start s = c_start s' + zlen pre /\ c_prev s = c_prev s' + zlen pre /\
      (c_recs s' = [] -> pre = [] /\ c_dense s = c_dense s'));
  r_chg : void = void' -> c_chg s = c_chg s';
  r_model : c_chg s' = true \/ M -> c_model s = c_model s'
}.

Ltac cc := cbn [c_x c_i c_start c_dense c_prev c_train c_ts c_nobs c_m c_recs c_model c_chg c_pins c_cm
                set_idx fst snd] in *.

Lemma Rel_set : forall pre B s s' x' i' st' de de' pv', Rel pre B s s' -> c_train s' = false ->
  (c_recs s' = [] -> de = de') ->
  Rel pre B (set_idx s (pre ++ x' ++ B) (i' + zlen pre) (st' + zlen pre) de (pv' + zlen pre))
            (set_idx s' x' i' st' de' pv').
Proof.
  intros pre B s s' x' i' st' de de' pv' [] Ht Hd. constructor; cc; auto.
  right. split; [reflexivity|]. split; [reflexivity|]. intros Hr.
  destruct r_idx0 as [[E _]|(_ & _ & E)]; [congruence|]. destruct (E Hr). auto.
Qed.

Lemma step1_emb : forall pre B s s' t' r, Rel pre B s s' -> c_train s' = false ->
  c_i s' + sp_conse P <= n_clr s' - 1 -> step1 K P s' = Ok (t', r) ->
  exists t, step1 K P s = Ok (t, r) /\ Rel pre B t t' /\ c_train t' = false /\ n_clr t' - c_i t' = n_clr s' - c_i s'.
Proof.
  intros pre B s s' t' r HR Ht Hg H. pose proof HR as HR0.
  destruct HR as [Rx Ri Rt Rts Rn Rm Rr Rp Ridx Rc Rmo].
  destruct Ridx as [[E _]|(Rst & Rpr & Rde)]; [congruence|].
  unfold step1 in *. rewrite Rr. unfold n_clr in *. rewrite Rx, Ri, Rst in *.
  set (y := c_x s') in *. set (i := c_i s') in *. set (st := c_start s') in *.
  replace (i + zlen pre - (st + zlen pre) + 1) with (i - st + 1) by lia.
  ib H w Ew. rewrite (slice_emb pre y B _ _ Ew). cbn [bind].
  destruct (365 <? max_gap w).
  { injection H as <- <-. eexists. split; [reflexivity|]. replace (st + zlen pre + 1) with (st + 1 + zlen pre) by lia. rewrite Rpr.
    split; [|split; [exact Ht|reflexivity]]. apply Rel_set; auto. intros Hr. destruct (Rde Hr) as [_ ->]. reflexivity. }
  assert (Hend : Z.min (i + zlen pre + sp_conse P - 1) (zlen (pre ++ y ++ B) - 1) - (st + zlen pre) + 1 =
                 Z.min (i + sp_conse P - 1) (zlen y - 1) - st + 1).
  { rewrite !zlen_app. pose proof (zlen_nonneg B). lia. }
  rewrite Hend. clear Hend.
  ib H wide Ewide. rewrite (slice_emb pre y B _ _ Ewide). cbn [bind].
  destruct (k_mask1 K wide) as [flags|].
  2: { injection H as <- <-. eexists. split; [reflexivity|]. split; [exact HR0|]. split; [exact Ht|reflexivity]. }
  cbv zeta in H. cbv zeta.
  destruct (zlen (keep_from flags 0 w) <? 18).
  { injection H as <- <-. eexists. split; [reflexivity|]. split; [exact HR0|]. split; [exact Ht|reflexivity]. }
  set (w' := keep_from flags 0 w) in *.
  pose proof (slice_inv _ _ _ Ew) as (Hs1 & Hs2 & Hs3 & Hw).
  replace (i + zlen pre + 1) with (i + 1 + zlen pre) by lia.
  rewrite (cp_emb pre y B w' (a := st) (b := i + 1)) by lia.
  set (cp := firstn (Z.to_nat st) y ++ w' ++ skipn (Z.to_nat (i + 1)) y) in *.
  replace (st + zlen pre + zlen w' - 1) with (st + zlen w' - 1 + zlen pre) by lia.
  ib H ce Ece. rewrite (get_emb pre cp B _ Ece). cbn [bind].
  ib H cs Ecs. rewrite (get_emb pre cp B _ Ecs). cbn [bind].
  destruct (o_date ce - o_date cs <? 366).
  { injection H as <- <-. eexists. split; [reflexivity|]. split; [exact HR0|]. split; [exact Ht|reflexivity]. }
  assert (Hcp : zlen cp - (st + zlen w' - 1) = zlen y - i).
  { unfold cp. rewrite !zlen_app, zlen_firstn, zlen_skipn by lia. lia. }
  ib H wf Ewf. rewrite (slice_emb pre cp B _ _ Ewf). cbn [bind].
  destruct (k_fit1 K wf) as [f|].
  2: { injection H as <- <-. eexists. split; [reflexivity|]. rewrite Rpr. split; [|split; [exact Ht|exact Hcp]].
       apply Rel_set; auto. intros Hr. apply (Rde Hr). }
  destruct (fgt (k_stab1 K f wf) (Fin (sp_tcg P))).
  { injection H as <- <-. eexists. split; [reflexivity|]. rewrite Rpr. replace (st + zlen pre + 1) with (st + 1 + zlen pre) by lia.
    split; [|split; [exact Ht|exact Hcp]]. apply Rel_set; auto. intros Hr. apply (Rde Hr). }
  set (pv' := match c_recs s' with [] => c_dense s' | _ => c_prev s' end) in *.
  assert (Hpv : match c_recs s' with [] => c_dense s | _ => c_prev s end = pv' + zlen pre).
  { unfold pv'. destruct (c_recs s') eqn:Er; [|assumption]. destruct (Rde eq_refl) as [-> ->]. unfold zlen. simpl. lia. }
  rewrite Hpv. replace (st + zlen pre - (pv' + zlen pre)) with (st - pv') by lia.
  ib H b Eb. destruct b as [[y2 i2] st2].
  destruct (back_emb pre B _ _ _ _ _ _ Eb) as [Eb1 Eb2]. rewrite Eb1. cbn [bind]. rewrite Hcp in Eb2.
  assert (HR2 : Rel pre B (set_idx s (pre ++ y2 ++ B) (i2 + zlen pre) (st2 + zlen pre) (c_dense s) (pv' + zlen pre))
                          (set_idx s' y2 i2 st2 (c_dense s') pv')).
  { apply Rel_set; auto. intros Hr. apply (Rde Hr). }
  destruct (c_recs s') as [|r0 rs] eqn:Er.
  2: { injection H as <- <-. eexists. split; [reflexivity|]. split; [exact HR2|]. split; [exact Ht|exact Eb2]. }
  destruct (Rde eq_refl) as [Ep Ed]. subst pre. change (zlen []) with 0 in *.
  rewrite Ed. replace (st2 + 0) with st2 by lia. rewrite Ed in HR2.
  destruct (6 <=? st2 - c_dense s').
  2: { injection H as <- <-. eexists. split; [reflexivity|]. split; [|split; [exact Ht|exact Eb2]].
       replace (st2 + 0) with st2 in HR2 by lia. exact HR2. }
  ib H w2 Ew2. pose proof (slice_emb [] y2 B _ _ Ew2) as Ew2'. change (zlen []) with 0 in Ew2'. rewrite Z.add_0_r in Ew2'.
  rewrite Ew2'. cbn [bind].
  ib H os Eos.
  rewrite (@mapM_emb [] y2 B _ (fun c => st2 - (Z.of_nat c + 1)) _ _ _ Eos) by (intros; change (zlen []) with 0; lia).
  cbn [bind].
  destruct (k_first K f w2 os) as [c|].
  2: { injection H as <- <-. eexists. split; [reflexivity|]. split; [|split; [exact Ht|exact Eb2]].
       replace (st2 + 0) with st2 in HR2 by lia. exact HR2. }
  ib H ob Eob. pose proof (get_emb [] y2 B _ Eob) as Eob'. change (zlen []) with 0 in Eob'. rewrite Z.add_0_r in Eob'.
  rewrite Eob'. cbn [bind].
  ib H o0 Eo0. pose proof (get_emb [] y2 B _ Eo0) as Eo0'. change (zlen []) with 0 in Eo0'. rewrite Z.add_0_r in Eo0'.
  rewrite Eo0'. cbn [bind]. replace (st2 - (pv' + 0)) with (st2 - pv') by lia.
  ib H rs Ers. rewrite Ers. cbn [bind]. injection H as <- <-. eexists. split; [reflexivity|].
  split; [|split; [exact Ht|exact Eb2]].
  destruct HR2. constructor; cc; auto.
  change (zlen []) with 0. right. split; [lia|]. split; [lia|]. intros _. split; reflexivity.
Qed.

Lemma step2_emb : forall pre B s s' t', Rel pre B s s' -> c_train s' = true ->
  c_i s' + sp_conse P <= n_clr s' - 1 -> step2 K P void' s' = Ok t' ->
  exists t, step2 K P void s = Ok t /\ Rel pre B t t'.
Proof.
  intros pre B s s' t' [Rx Ri Rt Rts Rn Rm Rr Rp Ridx Rc Rmo] Ht Hg H.
  unfold step2 in *. rewrite Rm, Rts, Rx, Ri, Rn, Rr. unfold n_clr in Hg.
  destruct (c_m s') as [m|]; [|discriminate]. destruct (c_ts s') as [ts|]; [|discriminate].
  ib H os Eos. rewrite (slice_emb pre _ B _ _ Eos). cbn [bind].
  ib H o Eo. rewrite (get_emb pre _ B _ Eo). cbn [bind].
  destruct (scan _ _ _ _ _ _ _) as [[flag bm] ic]. rewrite Hpin in *. cbn [andb bind] in *.
  pose proof (get_inv _ _ Eo) as [Hi _].
  destruct (flag && _ && _).
  - ib H a16 Ea. rewrite Ea. cbn [bind]. ib H rs Ers. rewrite Ers. cbn [bind]. ib H w Ew.
    assert (Ew' : save8 (pre ++ c_x s' ++ B) (c_i s' + zlen pre) (sp_conse P) = Ok w).
    { clear -Ew. unfold save8 in *. revert w Ew. induction (seq 0 8) as [|k l IH]; intros w Ew; [exact Ew|].
      cbn [mapO] in *. ib Ew b Eb. ib Ew r Er. destruct (Z.of_nat k <? sp_conse P).
      - ib Eb o Eo. replace (c_i s' + zlen pre + Z.of_nat k) with (c_i s' + Z.of_nat k + zlen pre) by lia.
        rewrite (get_emb pre _ B _ Eo). cbn [bind]. rewrite Eb. cbn [bind]. rewrite (IH _ Er). exact Ew.
      - injection Eb as <-. cbn [bind]. rewrite (IH _ Er). exact Ew. }
    rewrite Ew'. cbn [bind]. injection H as <-. eexists. split; [reflexivity|].
    constructor; cc; auto; try lia.
    + right. split; [reflexivity|]. split; [reflexivity|]. intros E. unfold push_seg in Ers.
      destruct (_ <=? _); [discriminate|]. injection Ers as E'. rewrite E in E'. destruct (c_recs s'); discriminate.
    + intros Ev. rewrite (Rc Ev), Ev. reflexivity.
  - destruct (fgt _ (Fin (sp_tmaxs P))).
    + ib H o1 Eo1. replace (c_i s' + zlen pre + 1) with (c_i s' + 1 + zlen pre) by lia.
      rewrite (get_emb pre _ B _ Eo1). cbn [bind]. injection H as <-. eexists. split; [reflexivity|].
      constructor; cc; auto.
      * apply del_emb. assumption.
      * destruct Ridx as [[_ E]|E]; [left|right]; auto.
    + ib H o1 Eo1. replace (c_i s' + zlen pre + 1) with (c_i s' + 1 + zlen pre) by lia.
      rewrite (get_emb pre _ B _ Eo1). cbn [bind]. destruct (o_date o1 - o_date o <=? 0); [discriminate|].
      injection H as <-. eexists. split; [reflexivity|].
      constructor; cc; auto.
      destruct Ridx as [[_ E]|E]; [left|right]; auto.
Qed.

Lemma cstep_emb : forall pre B s s' t', Rel pre B s s' ->
  c_i s' + sp_conse P <= n_clr s' - 1 -> cstep K P void' s' = Ok t' ->
  exists t, cstep K P void s = Ok t /\ Rel pre B t t'.
Proof.
  intros pre B s s' t' HR Hg H. unfold cstep in *. rewrite (r_train HR).
  destruct (c_train s') eqn:Ht; [apply step2_emb with (s' := s'); assumption|].
  pose proof (r_idx HR) as Ridx. destruct Ridx as [[E _]|(Rst & Rpr & Rde)]; [congruence|].
  rewrite (r_x HR), (r_i HR), Rst.
  ib H xe Exe. rewrite (get_emb pre _ B _ Exe). cbn [bind].
  ib H xs Exs. rewrite (get_emb pre _ B _ Exs). cbn [bind].
  replace (c_i s' + zlen pre - (c_start s' + zlen pre) + 1) with (c_i s' - c_start s' + 1) by lia.
  ib H q Esq. destruct q as [q' r].
  assert (Hq : exists q, (if (18 <=? c_i s' - c_start s' + 1) && (366 <=? o_date xe - o_date xs)
                          then step1 K P s else Ok (s, Inc)) = Ok (q, r) /\ Rel pre B q q' /\ c_train q' = false /\
                         n_clr q' - c_i q' = n_clr s' - c_i s').
  { destruct (_ && _); [apply step1_emb with (s' := s'); assumption|].
    injection Esq as <- <-. exists s. auto. }
  destruct Hq as (q & Esq' & HQ & Hqt & Hql). rewrite Esq'. cbn [bind].
  pose proof (r_idx HQ) as Qidx. destruct Qidx as [[E _]|(Qst & Qpr & Qde)]; [congruence|].
  destruct r.
  - injection H as <-. eexists. split; [reflexivity|]. rewrite (r_x HQ), (r_i HQ), Qst, Qpr.
    replace (c_i q' + zlen pre + 1) with (c_i q' + 1 + zlen pre) by lia.
    apply Rel_set; auto. intros Hr. apply (Qde Hr).
  - rewrite (r_x HQ), (r_i HQ), Qst, (r_m HQ).
    replace (c_i q' + zlen pre - (c_start q' + zlen pre) + 1) with (c_i q' - c_start q' + 1) by lia.
    ib H w Ew. rewrite (slice_emb pre _ B _ _ Ew). cbn [bind].
    ib H on Eon.
    replace (Z.min (c_i q' + zlen pre + 1) (zlen (pre ++ c_x q' ++ B) - 1))
      with (Z.min (c_i q' + 1) (zlen (c_x q') - 1) + zlen pre).
    2: { rewrite !zlen_app. pose proof (zlen_nonneg B). unfold n_clr in *. lia. }
    rewrite (get_emb pre _ B _ Eon). cbn [bind].
    ib H os Eos. rewrite (get_emb pre _ B _ Eos). cbn [bind].
    ib H m Em. rewrite Em. cbn [bind]. injection H as <-. eexists. split; [reflexivity|].
    destruct HQ. constructor; cc; auto; try lia.
  - injection H as <-. eexists. split; [reflexivity|]. exact HQ.
Qed.

Lemma cloop_emb : forall pre B f s s' t', Rel pre B s s' -> cloop K P void' f s' = Ok t' ->
  exists n t, (n <= f)%nat /\ Rel pre B t t' /\ forall g, cloop K P void (n + g) s = cloop K P void g t.
Proof.
  intros pre B f. induction f; intros s s' t' HR H; cbn [cloop] in H.
  - destruct (_ <=? _); [discriminate|]. injection H as <-. exists 0%nat, s. auto.
  - destruct (c_i s' + sp_conse P <=? n_clr s' - 1) eqn:E.
    + ib H q' Esq. destruct (cstep_emb HR ltac:(lia) Esq) as (q & Esq' & HQ).
      destruct (IHf _ _ _ HQ H) as (n & t & Hn & HT & Hg). exists (Datatypes.S n), t.
      split; [lia|]. split; [assumption|]. intros g. cbn [Nat.add cloop]. rewrite Esq'. cbn [bind].
      replace (c_i s + sp_conse P <=? n_clr s - 1) with true; [apply Hg|].
      unfold n_clr in *. rewrite (r_x HR), (r_i HR), !zlen_app. pose proof (zlen_nonneg B). lia.
    + injection H as <-. exists 0%nat, s. split; [lia|]. auto.
Qed.

End Resume.

(** ** A whole call *)

Section Split.
Variables N S F C : Type.
Variable K : skernel N S F C.
Variable P : sparams.
Notation seg := (seg C).
Notation cst := (cst N S C).
Notation io := (io S C).
Hypothesis Hconse : 1 <= sp_conse P.

Ltac ib H a E := apply bind_ok in H; destruct H as (a & E & H).
Ltac cc := cbn [c_x c_i c_start c_dense c_prev c_train c_ts c_nobs c_m c_recs c_model c_chg c_pins c_cm
                set_idx fst snd] in *.

(** First state of the loop and the steps after it ([standard] in SccdModel.v
    taken apart). *)
Definition first_state (x : list obs) (a : io) (o0 ol : obs) : cst :=
  let train := Z.rem (io_mode a) 10 =? 1 in
  mkC x 0 0 0 0 train
     (if train then Some (nm_start (io_model a) + launch)
      else if io_mode a =? 0 then None else Some (o_date o0))
     (if train then nm_nobs (io_model a) else 0)
     (if train then Some (k_load K (nm_st (io_model a))) else None)
     (io_recs a) (io_model a) false (io_pins a)
     (repeat (Fin 0) (Z.to_nat (n_buckets (o_date ol)))).
Definition finish (a : io) (s : cst) : out io :=
  '(mode1, prev) <- new_mode P (io_mode a) s ;;
  '(mode2, model) <- (if Z.rem mode1 10 =? 1 then save_model K P s mode1 else Ok (mode1, c_model s)) ;;
  queue <- (if (Z.rem mode2 10 =? 2) || (Z.rem mode2 10 =? 5) then save_queue s prev else Ok (io_queue a)) ;;
  Ok (mkIO mode2 (c_recs s) model queue (io_rmse a) (c_pins s)).

Lemma standard_eq : forall f x a, standard K P f x a =
  (ol <- get x (zlen x - 1) ;; o0 <- get x 0 ;;
   if n_buckets (o_date ol) <? 0 then Fail else
   s <- cloop K P (io_mode a =? 0) f (first_state x a o0 ol) ;; finish a s).
Proof. reflexivity. Qed.

Lemma standard_inv : forall f x a b, standard K P f x a = Ok b ->
  exists ol o0 s, get x (zlen x - 1) = Ok ol /\ get x 0 = Ok o0 /\ 0 <= n_buckets (o_date ol) /\
    cloop K P (io_mode a =? 0) f (first_state x a o0 ol) = Ok s /\ finish a s = Ok b.
Proof.
  intros f x a b H. rewrite standard_eq in H. ib H ol E1. ib H o0 E2.
  destruct (n_buckets (o_date ol) <? 0) eqn:E; [discriminate|]. ib H s E3.
  exists ol, o0, s. repeat split; auto. lia.
Qed.

Lemma cloop_exit : forall void f s t, cloop K P void f s = Ok t -> n_clr t - 1 < c_i t + sp_conse P.
Proof.
  intros void f. induction f; intros s t H; cbn [cloop] in H; destruct (_ <=? _) eqn:E; try discriminate;
    try (injection H as <-; lia).
  ib H q Eq1. eauto.
Qed.

Lemma cloop_end : forall void f s, n_clr s - 1 < c_i s + sp_conse P -> cloop K P void f s = Ok s.
Proof.
  intros void f s H. destruct f; cbn [cloop]; replace (_ <=? _) with false by lia; reflexivity.
Qed.

Lemma cloop_more : forall void f f' s t, cloop K P void f s = Ok t -> (f <= f')%nat -> cloop K P void f' s = Ok t.
Proof.
  intros void f. induction f; intros f' s t H Hf.
  - destruct f'; cbn [cloop] in *; destruct (_ <=? _); try discriminate; exact H.
  - destruct f' as [|f']; [lia|]. cbn [cloop] in *. destruct (_ <=? _); [|exact H].
    ib H q Eq1. rewrite Eq1. cbn [bind]. apply IHf; [assumption|lia].
Qed.

Lemma cloop_det : forall void f f' s t t', cloop K P void f s = Ok t -> cloop K P void f' s = Ok t' -> t = t'.
Proof.
  intros void f f' s t t' H H'.
  pose proof (cloop_more _ _ H (Nat.le_max_l f f')) as E. pose proof (cloop_more _ _ H' (Nat.le_max_r f f')) as E'.
  congruence.
Qed.

Lemma first_inv : forall base x a o0 ol, start_ok base x a -> get x 0 = Ok o0 -> 0 <= n_buckets (o_date ol) ->
  Inv x (io_recs a) base (io_mode a =? 0) (Z.rem (io_mode a) 10 =? 1) (io_model a) (n_buckets (o_date ol))
      (zlen (io_pins a)) (first_state x a o0 ol).
Proof.
  intros base x a o0 ol [Hmode Ha Hne Hb Hch Hlo Hrb Hmon Hprev Hfive] E0 Hnb.
  assert (Hlen : 1 <= zlen x) by (destruct x; [congruence|rewrite zlen_cons; unfold zlen; lia]).
  unfold first_state. set (train := Z.rem (io_mode a) 10 =? 1).
  constructor; cc; auto; try lia; try discriminate.
  - apply subseq_refl.
  - exists []. rewrite app_nil_r. reflexivity.
  - intros Et. assert (Er : Z.rem (io_mode a) 10 = 1) by (unfold train in Et; lia).
    destruct (Hmon Er) as (M1 & M2 & M3 & M4). rewrite Et.
    eexists. eexists. split; [reflexivity|]. split; [reflexivity|]. repeat split; auto; lia.
  - split.
    + unfold zlen. rewrite repeat_length. lia.
    + apply Forall_forall. intros v Hv. apply repeat_spec in Hv. subst. exists 0. split; [reflexivity|lia].
  - assert (used (repeat (Fin 0) (Z.to_nat (n_buckets (o_date ol)))) = 0); [|lia].
    unfold used. induction (Z.to_nat (n_buckets (o_date ol))); simpl; auto.
Qed.

Lemma finish_monitor : forall a s b, finish a s = Ok b -> Z.rem (io_mode b) 10 = 1 ->
  exists mode1 prev model, new_mode P (io_mode a) s = Ok (mode1, prev) /\ Z.rem mode1 10 = 1 /\
    save_model K P s mode1 = Ok (io_mode b, model) /\
    b = mkIO (io_mode b) (c_recs s) model (io_queue a) (io_rmse a) (c_pins s).
Proof.
  intros a s b H Hb. unfold finish in H. ib H q E. destruct q as [mode1 prev]. ib H q E'. destruct q as [mode2 model].
  ib H q E2. injection H as <-. cbn [io_mode] in *.
  destruct (Z.rem mode1 10 =? 1) eqn:Em.
  - replace ((Z.rem mode2 10 =? 2) || (Z.rem mode2 10 =? 5)) with false in E2 by lia. injection E2 as <-.
    exists mode1, prev, model. repeat split; auto. lia.
  - injection E' as <- <-. lia.
Qed.

Lemma save_model_emb : forall M void void' pre t s mode r, Rel M void void' pre [] t s ->
  save_model K P s mode = Ok r -> save_model K P t mode = Ok r.
Proof.
  intros M void void' pre t s mode r [Rx Ri _ Rts Rn Rm _ _ _ _ _] H. unfold save_model in *.
  rewrite Rm, Rts, Rx, Ri, Rn. unfold n_clr in *. rewrite Rx.
  destruct (c_m s) as [m|]; [|discriminate]. destruct (c_ts s) as [ts|]; [|discriminate].
  ib H w Ew.
  assert (Ew' : save8 (pre ++ c_x s ++ []) (c_i s + zlen pre) (if 0 <? c_nobs s then sp_conse P else 0) = Ok w).
  { clear -Ew. unfold save8 in *. revert w Ew. induction (seq 0 8) as [|k l IH]; intros w Ew; [exact Ew|].
    cbn [mapO] in *. ib Ew b Eb. ib Ew r Er. destruct (Z.of_nat k <? _).
    - ib Eb o Eo. replace (c_i s + zlen pre + Z.of_nat k) with (c_i s + Z.of_nat k + zlen pre) by lia.
      rewrite (get_emb pre _ [] _ Eo). cbn [bind]. rewrite Eb. cbn [bind]. rewrite (IH _ Er). exact Ew.
    - injection Eb as <-. cbn [bind]. rewrite (IH _ Er). exact Ew. }
  rewrite Ew'. cbn [bind]. ib H os Eos.
  rewrite (@mapM_emb pre _ [] _ (fun k => zlen (pre ++ c_x s ++ []) - 1 - Z.of_nat k) _ _ _ Eos).
  2: { intros k. rewrite !zlen_app. change (zlen (@nil obs)) with 0. lia. }
  exact H.
Qed.

Lemma save_queue_emb : forall M void void' pre (t s : cst) prev q, Rel M void void' pre [] t s ->
  save_queue s prev = Ok q -> save_queue t (prev + zlen pre) = Ok q.
Proof.
  intros M void void' pre t s prev q [Rx _ _ _ _ _ _ _ _ _ _] H. unfold save_queue, n_clr in *. rewrite Rx.
  replace (zlen (pre ++ c_x s ++ [])) with (zlen (c_x s) + zlen pre)
    by (rewrite !zlen_app; change (zlen (@nil obs)) with 0; lia).
  replace (zlen (c_x s) + zlen pre - (prev + zlen pre)) with (zlen (c_x s) - prev) by lia.
  destruct (max_queue <? zlen (c_x s) - prev).
  - ib H w Ew. replace (zlen (c_x s) + zlen pre - 1 - max_queue) with (zlen (c_x s) - 1 - max_queue + zlen pre) by lia.
    rewrite (slice_emb pre _ [] _ _ Ew). exact H.
  - ib H w Ew. rewrite (slice_emb pre _ [] _ _ Ew). exact H.
Qed.

Lemma step1_same : forall s t r, step1 K P s = Ok (t, r) -> c_chg t = c_chg s /\ c_train t = c_train s.
Proof.
  intros s t r H. unfold step1 in H. ib H w Ew. destruct (365 <? max_gap w); [injection H as <- <-; auto|].
  ib H wd Ewd. destruct (k_mask1 K wd); [|injection H as <- <-; auto]. cbv zeta in H.
  destruct (_ <? 18); [injection H as <- <-; auto|]. ib H ce Ece. ib H cs Ecs.
  destruct (_ <? 366); [injection H as <- <-; auto|]. ib H wf Ewf.
  destruct (k_fit1 K wf) as [f|]; [|injection H as <- <-; auto].
  destruct (flt _ _); [injection H as <- <-; auto|]. ib H bk Ebk. destruct bk as [[x2 i2] st2].
  destruct (c_recs s); [|injection H as <- <-; auto]. destruct (6 <=? _); [|injection H as <- <-; auto].
  ib H w2 Ew2. ib H os Eos. destruct (k_first K f w2 os); [|injection H as <- <-; auto].
  ib H ob Eob. ib H o0 Eo0. ib H rs Ers. injection H as <- <-. auto.
Qed.

(** While no break has been found the model in force stays in force. *)
Lemma cloop_train : forall f s t, (c_chg s = false -> c_train s = true) -> cloop K P false f s = Ok t ->
  c_chg t = false -> c_train t = true.
Proof.
  intros f. induction f; intros s t Hs H; cbn [cloop] in H; destruct (_ <=? _); try discriminate; try (injection H as <-; auto).
  ib H q Eq1. apply IHf with (s := q); [|exact H]. clear H. unfold cstep in Eq1. destruct (c_train s) eqn:Et.
  - unfold step2 in Eq1. destruct (c_m s); [|discriminate]. destruct (c_ts s); [|discriminate].
    ib Eq1 os Eos. ib Eq1 o Eo. destruct (scan _ _ _ _ _ _ _) as [[flag bm] ic]. ib Eq1 pc Epc. destruct pc as [pins cm].
    destruct (flag && _ && _).
    + ib Eq1 a16 Ea. ib Eq1 rs Ers. ib Eq1 w Ew. injection Eq1 as <-. cc. rewrite orb_true_r. discriminate.
    + destruct (flt _ _); ib Eq1 o1 Eo1; [|destruct (_ <=? 0); [discriminate|]]; injection Eq1 as <-; auto.
  - ib Eq1 xe Exe. ib Eq1 xs Exs. ib Eq1 p Ep. destruct p as [s1' r].
    assert (Hc : c_chg s1' = c_chg s /\ c_train s1' = c_train s).
    { destruct (_ && _); [apply step1_same with (r := r); assumption|injection Ep as <- <-; auto]. }
    destruct Hc as [Hc Hc']. destruct r.
    + injection Eq1 as <-. cc. rewrite Hc, Hc', Et. intros E. specialize (Hs E). discriminate.
    + ib Eq1 w Ew. ib Eq1 on Eon. ib Eq1 os Eos. ib Eq1 m Em. injection Eq1 as <-. auto.
    + injection Eq1 as <-. rewrite Hc, Hc', Et. intros E. specialize (Hs E). discriminate.
Qed.

Lemma new_mode_monitor : forall (a : io) (s : cst) mode1 prev,
  io_mode a = 0 \/ io_mode a = 1 \/ io_mode a = 2 \/ io_mode a = 5 \/ io_mode a = 11 \/ io_mode a = 12 ->
  new_mode P (io_mode a) s = Ok (mode1, prev) -> Z.rem mode1 10 = 1 ->
  (io_mode a = 0 /\ c_train s = true /\ mode1 = 1) \/
  (io_mode a <> 0 /\ c_chg s = false /\
   ((io_mode a = 1 /\ mode1 = 1) \/ (io_mode a = 11 /\ mode1 = 11) \/
    (Z.rem (io_mode a) 10 = 2 /\ c_train s = true /\ mode1 = 1))).
Proof.
  intros a s mode1 prev Hm H Hr. unfold new_mode in H.
  destruct Hm as [E|[E|[E|[E|[E|E]]]]]; rewrite E in *; cbn [Z.eqb Z.rem Z.quot Pos.eqb] in H.
  - injection H as <- _. destruct (c_train s); [left; auto|discriminate].
  - destruct (c_chg s); simpl in H; injection H as <- _; [discriminate|right]. repeat split; auto; lia.
  - destruct (c_chg s); simpl in H; injection H as <- _; [discriminate|right].
    destruct (c_train s); [|discriminate]. repeat split; auto; lia.
  - destruct (c_chg s); simpl in H; [injection H as <- _; discriminate|]. ib H o Eo. ib H o0 Eo0.
    destruct (_ <? 15); injection H as <- _; discriminate.
  - destruct (c_chg s); simpl in H; injection H as <- _; [discriminate|right]. repeat split; auto; lia.
  - destruct (c_chg s); simpl in H; injection H as <- _; [discriminate|right].
    destruct (c_train s); [|discriminate]. repeat split; auto; lia.
Qed.

Lemma save_model_mode : forall (s : cst) mode mode2 model, save_model K P s mode = Ok (mode2, model) ->
  mode2 = mode \/ (Z.quot mode 10 = 1 /\ mode2 = mode - 10).
Proof.
  intros s mode mode2 model H. unfold save_model in H. destruct (c_m s); [|discriminate]. destruct (c_ts s); [|discriminate].
  ib H w Ew. ib H os Eos.
  destruct (0 <? c_nobs s); [|injection H as <- _; auto]. cbv zeta in H.
  match type of H with context [if ?c then mode - 10 else mode] => destruct c eqn:E end.
  - destruct (run_len _ _ _ =? 0); [|ib H a16 Ea]; injection H as <- _; right; split; lia.
  - destruct (run_len _ _ _ =? 0); [|ib H a16 Ea]; injection H as <- _; auto.
Qed.

Hypothesis H8 : sp_conse P = 8.
Hypothesis Hpin : sp_pin P = false.
Hypothesis Hstore : forall m, k_load K (k_store K m) = m.

Lemma mapO_in : forall X Y (f : X -> out Y) l r a, mapO f l = Ok r -> In a l -> exists b, f a = Ok b.
Proof.
  intros X Y f l. induction l as [|c l IH]; intros r a H Ha; [contradiction|]. cbn [mapO] in H.
  ib H y Ey. ib H t Et. destruct Ha as [<-|Ha]; eauto.
Qed.

Lemma split_core : forall base A B a0 a1 a2 f1 f2, launch <= base -> start_ok base A a0 ->
  Forall (fun o => in_days (o_date o)) (A ++ B) ->
  standard K P f1 A a0 = Ok a1 -> Z.rem (io_mode a1) 10 = 1 ->
  standard K P f2 (carried a1 ++ B) a1 = Ok a2 ->
  exists pre t2 s2 ol o0,
    get (A ++ B) (zlen (A ++ B) - 1) = Ok ol /\ get (A ++ B) 0 = Ok o0 /\ 0 <= n_buckets (o_date ol) /\
    cloop K P (io_mode a0 =? 0) (f1 + f2) (first_state (A ++ B) a0 o0 ol) = Ok t2 /\
    Rel False (io_mode a0 =? 0) false pre [] t2 s2 /\ finish a1 s2 = Ok a2 /\
    (c_chg s2 = false -> c_train s2 = true) /\
    io_queue a1 = io_queue a0 /\ io_rmse a1 = io_rmse a0.
Proof.
  intros base A B a0 a1 a2 f1 f2 Hb Hso HAB H1 Hm1 H2.
  apply standard_inv in H1. destruct H1 as (olA & o0 & sA & EolA & Eo0 & HnbA & HlA & HfA).
  apply standard_inv in H2. destruct H2 as (ol2 & o2 & s2 & Eol2 & Eo2 & Hnb2 & Hl2 & Hf2).
  pose proof (so_mode Hso) as Hmode.
  destruct (finish_monitor _ _ HfA Hm1) as (mode1 & prev & model & Hnm & Hr1 & Hsm & Ea1).
  assert (HAne : A <> []) by apply (so_ne Hso).
  pose proof (@first_inv base A a0 o0 olA Hso Eo0 HnbA) as HI0.
  pose proof (@cloop_spec N S F C K P A (io_recs a0) base (io_mode a0 =? 0) (Z.rem (io_mode a0) 10 =? 1) (io_model a0)
                (n_buckets (o_date olA)) (zlen (io_pins a0)) ltac:(unfold zlen; lia) Hconse (so_asc Hso) (so_base Hso) f1 _ HI0) as HL.
  rewrite HlA in HL. destruct HL as (HI & _ & _). clear HI0.
  assert (Htr : c_train sA = true).
  { destruct (new_mode_monitor _ _ Hmode Hnm Hr1) as [(_ & E & _)|(Ev & Ec & E)]; [assumption|].
    destruct E as [(E & _)|[(E & _)|(_ & E & _)]]; [| |assumption];
      apply (iv_mon HI); auto; rewrite ?E; try reflexivity; lia. }
  destruct (iv_train HI Htr) as (m & ts & Em & Ets & Hts & _ & Hno & Hrng).
  pose proof (cloop_exit _ _ _ HlA) as Hex. rewrite H8 in Hex.
  pose proof (iv_idx HI) as Hidx. pose proof (iv_sub HI) as Hsub.
  (* the model the first call stores *)
  unfold save_model in Hsm. rewrite Em, Ets, H8 in Hsm. replace (0 <? c_nobs sA) with true in Hsm by lia.
  ib Hsm w Ew. ib Hsm os Eos.
  set (X := c_x sA) in *. set (i := c_i sA) in *.
  assert (Hin : i + 8 <= zlen X).
  { destruct (mapO_in _ _ 7%nat Ew) as [o Eo]; [simpl; tauto|]. cbn in Eo. ib Eo o' Eo'. apply get_inv in Eo'. lia. }
  assert (Hw : w = slot_view X i 8).
  { pose proof (@save8_wp False X i 8 ltac:(lia) ltac:(tauto) ltac:(tauto)) as E. rewrite Ew in E. exact E. }
  unfold n_clr in Hex. fold X in Hex. replace i with (zlen X - 8) in Hw by lia. rewrite slot_last in Hw by lia.
  assert (HXd : Forall (fun o => in_days (o_date o)) X).
  { rewrite Forall_forall in *. intros o Ho. apply HAB. apply in_or_app. left. eapply subseq_In; eassumption. }
  set (Y := skipn (Z.to_nat (zlen X - 8)) X) in *.
  assert (HYd : Forall (fun o => in_days (o_date o)) Y).
  { rewrite Forall_forall in *. intros o Ho. apply HXd. eapply subseq_In; [apply subseq_skipn|exact Ho]. }
  assert (HYl : length Y = 8%nat) by (unfold Y; rewrite skipn_length; unfold zlen in *; lia).
  assert (Hmod : nm_st model = k_store K m /\ nm_start model = wrap16 (ts - launch) /\
                 nm_nobs model = wrap16 (c_nobs sA) /\ nm_obs model = w).
  { destruct (run_len _ _ _ =? 0); [|ib Hsm a16 Ea]; injection Hsm as _ <-; auto. }
  destruct Hmod as (Hst & Hsta & Hnob & Hobs).
  assert (Hmd : io_model a1 = model) by (rewrite Ea1; reflexivity).
  assert (Hcar : carried a1 = Y).
  { rewrite carried_monitor; [|assumption|intros E; rewrite E in Hm1; discriminate|].
    - rewrite Hmd, Hobs, Hw. apply ld_stv_map. assumption.
    - rewrite Hmd, Hobs, Hw, map_length. assumption. }
  rewrite Hcar in *.
  assert (Hdat : launch <= dat X i <= launch + 32767).
  { rewrite Forall_forall in HXd. apply (HXd (nthO X i)). apply In_nthO. lia. }
  destruct (Hrng ltac:(unfold n_clr; fold X; lia)) as [Hr366 Hrn]. fold X i in Hr366, Hrn.
  rewrite wrap16_id in Hsta by lia. rewrite wrap16_id in Hnob by lia.
  (* first stage *)
  set (void := io_mode a0 =? 0) in *.
  assert (HR0 : Rel True void void [] B (first_state (A ++ B) a0 o0 olA) (first_state A a0 o0 olA)).
  { unfold first_state. constructor; cc; auto. }
  assert (HR0' : forall ol, Rel True void void [] B (first_state (A ++ B) a0 o0 ol) (first_state A a0 o0 olA)).
  { intros ol. unfold first_state in *. destruct HR0. constructor; cc; auto. }
  assert (HABne : 1 <= zlen (A ++ B)) by (rewrite zlen_app; pose proof (zlen_nonneg B); destruct A; [congruence|rewrite zlen_cons; pose proof (zlen_nonneg A); lia]).
  destruct (@get_total _ (A ++ B) (zlen (A ++ B) - 1)) as [ol Eol]; [lia|].
  assert (Eo0' : get (A ++ B) 0 = Ok o0).
  { pose proof (get_emb [] A B 0 Eo0) as E. exact E. }
  destruct (@cloop_emb N S F C K P Hconse Hpin _ _ _ _ _ _ _ _ _ (HR0' ol) HlA) as (n1 & t1 & Hn1 & HT1 & Hg1).
  destruct HT1 as [Tx Ti Ttr Tts Tn Tm Tr Tp _ Tc _]. fold X i in Tx, Ti. change (zlen []) with 0 in Ti.
  (* second stage *)
  assert (Hv1 : io_mode a1 =? 0 = false) by (destruct (io_mode a1 =? 0) eqn:E; [|reflexivity]; replace (io_mode a1) with 0 in Hm1 by lia; discriminate).
  rewrite Hv1 in Hl2.
  set (pre := firstn (Z.to_nat (zlen X - 8)) X).
  assert (Hpre : zlen pre = i) by (unfold pre; rewrite zlen_firstn; lia).
  assert (HR1 : Rel False void false pre [] t1 (first_state (Y ++ B) a1 o2 ol2)).
  { unfold first_state. rewrite Hm1. cbn [Z.eqb Pos.eqb]. constructor; cc.
    - rewrite Tx, app_nil_r. simpl. unfold pre, Y. rewrite app_assoc, firstn_skipn. reflexivity.
    - lia.
    - rewrite Ttr. assumption.
    - rewrite Tts, Ets, Hmd, Hsta. f_equal. lia.
    - rewrite Tn, Hmd, Hnob. reflexivity.
    - rewrite Tm, Em, Hmd, Hst, Hstore. reflexivity.
    - rewrite Tr, Ea1. reflexivity.
    - rewrite Tp, Ea1. reflexivity.
    - left. auto.
    - intros Ev. rewrite Tc by reflexivity.
      destruct (new_mode_monitor _ _ Hmode Hnm Hr1) as [(E & _)|(_ & E & _)]; [unfold void in Ev; lia|exact E].
    - intros [E|[]]. discriminate E. }
  destruct (@cloop_emb N S F C K P Hconse Hpin _ _ _ _ _ _ _ _ _ HR1 Hl2) as (n2 & t2 & Hn2 & HT2 & Hg2).
  exists pre, t2, s2, ol, o0. split; [assumption|]. split; [assumption|].
  split.
  { rewrite Forall_forall in HAB. pose proof (get_inv _ _ Eol) as [_ E]. apply nth_error_In in E. specialize (HAB _ E).
    unfold in_days, launch in HAB. unfold n_buckets, y1982. rewrite Z.quot_div_nonneg by lia. apply Z.div_pos; lia. }
  split.
  { replace (f1 + f2)%nat with (n1 + (n2 + (f1 - n1 + (f2 - n2))))%nat by lia. rewrite Hg1, Hg2. apply cloop_end.
    pose proof (cloop_exit _ _ _ Hl2) as E. unfold n_clr in *. rewrite (r_x HT2), (r_i HT2), !zlen_app.
    change (zlen (@nil obs)) with 0. lia. }
  split; [assumption|]. split; [assumption|]. split.
  { apply cloop_train with (f := f2) (s := first_state (Y ++ B) a1 o2 ol2); [|assumption].
    intros _. unfold first_state. cc. rewrite Hm1. reflexivity. }
  rewrite Ea1. auto.
Qed.

(** The whole series in one call gives the records of the split one. *)
Theorem split_records : forall base A B a0 a1 a2 a3 f1 f2 f3, launch <= base -> start_ok base A a0 ->
  Forall (fun o => in_days (o_date o)) (A ++ B) ->
  standard K P f1 A a0 = Ok a1 -> Z.rem (io_mode a1) 10 = 1 ->
  standard K P f2 (carried a1 ++ B) a1 = Ok a2 ->
  standard K P f3 (A ++ B) a0 = Ok a3 -> io_recs a3 = io_recs a2.
Proof.
  intros base A B a0 a1 a2 a3 f1 f2 f3 Hb Hso HAB H1 Hm1 H2 H3.
  destruct (@split_core base A B a0 a1 a2 f1 f2 Hb Hso HAB H1 Hm1 H2) as (pre & t2 & s2 & ol & o0 & E1 & E2 & _ & El & HR & Hf & _).
  apply standard_inv in H3. destruct H3 as (ol' & o0' & t & E1' & E2' & _ & El' & Hf').
  rewrite E1 in E1'. rewrite E2 in E2'. injection E1' as <-. injection E2' as <-.
  pose proof (cloop_det _ _ _ _ El El') as <-.
  assert (HF : forall a s b, finish a s = Ok b -> io_recs b = c_recs s).
  { intros a s b H. unfold finish in H. ib H q E. destruct q. ib H q E'. destruct q. ib H q E3. injection H as <-. reflexivity. }
  rewrite (HF _ _ _ Hf), (HF _ _ _ Hf'). apply (r_recs HR).
Qed.

(** And the same state, if the mode did not change in the first call, or the
    second call ends monitoring. *)
Theorem split_state : forall base A B a0 a1 a2 f1 f2 f3, launch <= base -> start_ok base A a0 ->
  Forall (fun o => in_days (o_date o)) (A ++ B) ->
  standard K P f1 A a0 = Ok a1 -> Z.rem (io_mode a1) 10 = 1 ->
  standard K P f2 (carried a1 ++ B) a1 = Ok a2 ->
  io_mode a1 = io_mode a0 \/ (Z.rem (io_mode a2) 10 = 1 /\ io_mode a0 <> 11) ->
  (f1 + f2 <= f3)%nat -> standard K P f3 (A ++ B) a0 = Ok a2.
Proof.
  intros base A B a0 a1 a2 f1 f2 f3 Hb Hso HAB H1 Hm1 H2 Hcase Hf3.
  pose proof (so_mode Hso) as Hmode.
  assert (Hm1' : (io_mode a1 = 1 /\ (io_mode a0 = 0 \/ io_mode a0 = 1 \/ Z.rem (io_mode a0) 10 = 2 \/ io_mode a0 = 11)) \/
                 (io_mode a1 = 11 /\ io_mode a0 = 11)).
  { pose proof (@standard_spec N S F C K P Hconse f1 A a0 base Hso) as HS. rewrite H1 in HS.
    pose proof (st_mode HS) as HM. unfold mode_step in HM.
    destruct HM as [(E0 & [E|E])|[(E0 & [E|(E & _)])|[(E0 & [E|[E|(E & _)]])|[(E0 & [E|E])|[(E0 & [E|[E|(E & _)]])|(E0 & [(E & _)|E])]]]]];
      rewrite E in Hm1; try discriminate Hm1; rewrite E0, E; cbn; tauto. }
  destruct (@split_core base A B a0 a1 a2 f1 f2 Hb Hso HAB H1 Hm1 H2) as (pre & t2 & s2 & ol & o0 & E1 & E2 & Hnb & El & HR & Hf & Htr & Hq & Hrm).
  rewrite standard_eq, E1, E2. cbn [bind]. replace (n_buckets (o_date ol) <? 0) with false by lia.
  rewrite (cloop_more _ _ El Hf3). cbn [bind].
  destruct (Z.eq_dec (Z.rem (io_mode a2) 10) 1) as [Hm2|Hm2].
  - (* monitoring throughout *)
    destruct (finish_monitor _ _ Hf Hm2) as (mode1 & prev & model & Hnm & Hr & Hsm & Ea2).
    destruct (@new_mode_monitor a1 s2 mode1 prev) as [(E & _)|(_ & Ec & Ecase)]; auto; try lia.
    assert (Emode : mode1 = io_mode a1).
    { destruct Ecase as [(X1 & X2)|[(X1 & X2)|(X1 & _)]]; [lia|lia|].
      destruct Hm1' as [(E & _)|(E & _)]; rewrite E in X1; discriminate. }
    assert (Hn : exists pr, new_mode P (io_mode a0) t2 = Ok (mode1, pr)).
    { unfold new_mode. specialize (Htr Ec).
      destruct Hm1' as [(Em & [E0|[E0|[E0|E0]]])|(Em & E0)].
      - rewrite E0. cbn [Z.eqb]. rewrite (r_train HR), Htr, Emode, Em. eauto.
      - rewrite (r_chg HR) by lia. rewrite Ec, E0, Emode, Em. cbn. eauto.
      - assert (io_mode a0 <> 0) by (intros X; rewrite X in E0; discriminate).
        replace (io_mode a0 =? 0) with false by lia. rewrite (r_chg HR) by lia. rewrite Ec, E0, (r_train HR), Htr, Emode, Em.
        cbn. eauto.
      - exfalso. destruct Hcase as [E|(_ & E)]; lia.
      - rewrite (r_chg HR) by lia. rewrite Ec, E0, Emode, Em. cbn. eauto. }
    destruct Hn as [pr Hn]. unfold finish. rewrite Hn. cbn [bind]. replace (Z.rem mode1 10 =? 1) with true by lia.
    rewrite (save_model_emb _ HR Hsm). cbn [bind].
    replace ((Z.rem (io_mode a2) 10 =? 2) || (Z.rem (io_mode a2) 10 =? 5)) with false by lia. cbn [bind].
    rewrite (r_recs HR), (r_pins HR), <- Hq, <- Hrm, Ea2. reflexivity.
  - (* a break in the second part *)
    assert (Hsame : io_mode a1 = io_mode a0) by (destruct Hcase as [E|(E & _)]; [assumption|lia]).
    unfold finish in *. rewrite Hsame in *. ib Hf q Enm. destruct q as [mode1 prev].
    assert (Hv : io_mode a0 =? 0 = false) by lia.
    assert (Hcs : c_chg t2 = c_chg s2) by (apply (r_chg HR); assumption).
    unfold new_mode in *. rewrite Hv, Hcs in *.
    destruct (c_chg s2) eqn:Ec.
    2: { replace (Z.rem (io_mode a0) 10 =? 2) with false in Enm by lia.
         replace (Z.rem (io_mode a0) 10 =? 5) with false in Enm by lia. injection Enm as <- <-.
         replace (Z.rem (io_mode a0) 10 =? 1) with true in Hf by lia. ib Hf q Esm. destruct q as [mode2 model].
         ib Hf q Eqq. injection Hf as <-. cbn [io_mode] in Hm2. exfalso. apply Hm2.
         destruct (save_model_mode _ _ Esm) as [-> |[E ->]]; [lia|].
         destruct Hm1' as [(Em & _)|(Em & _)]; rewrite <- Hsame, Em in *; [discriminate E|reflexivity]. }
    cbn [andb] in *. injection Enm as <- <-. cbn [bind].
    set (mode1 := if Z.quot (io_mode a0) 10 =? 1 then 12 else 5) in *.
    assert (Er : Z.rem mode1 10 =? 1 = false) by (unfold mode1; destruct (_ =? 1); reflexivity).
    rewrite Er in *. cbn [bind] in *.
    rewrite (r_model HR) by (left; assumption).
    destruct (r_idx HR) as [[_ E]|(_ & Epr & _)]; [congruence|].
    ib Hf q Eqq. injection Hf as <-.
    destruct (_ || _).
    + rewrite Epr, (save_queue_emb _ HR Eqq). cbn [bind]. rewrite (r_recs HR), (r_pins HR), Hrm. reflexivity.
    + injection Eqq as <-. cbn [bind]. rewrite (r_recs HR), (r_pins HR), Hrm, Hq. reflexivity.
Qed.

End Split.
