(** Further properties of the COLD state machine (cold.c 2604-4831): why
    observations are removed (C85), gaps in the initial segment (C86), what
    the deviations are computed from (C87), and that the coefficients of a
    record are the fit of its observations (C88). *)
From Verif Require Import Base ColdModel ColdSpec ColdLemmas ColdProof ColdProps.

Section Spec2.
Variables M D : Type.
Variable K : kernel M D.
Variable P : params.
Variable x : list obs.
Notation event := (event D).

(** Flagged by auto_mask in some window of the series. *)
Definition flagged (o : obs) : Prop :=
  exists w f n, subseq w x /\ k_mask K w = Some f /\ nth_error w n = Some o /\ f n = true.

(** First observation of a window tested without success, with a magnitude
    above T_MAX_CG. *)
Definition noise (log : list event) (o : obs) : Prop :=
  exists d e t z, (In (EvLook d ((o, e) :: t) false) log \/ In (EvMon d ((o, e) :: t) false) log) /\
    k_norm K e = Fin z /\ p_tmax P < z.

(** No two neighbouring observations of the series between the two dates are
    more than the permitted gap apart. *)
Definition no_gap (lo hi : Z) : Prop :=
  forall pre a b post, x = pre ++ a :: b :: post -> lo <= o_date a -> o_date b <= hi ->
    o_date b - o_date a <= p_gap P.

(** The deviation of a monitored observation: from a model fitted to earlier
    observations with as many coefficients as these allow, normalised by its
    overall or by its seasonal RMSE. *)
Definition predicted (o : obs) (e : D) : Prop :=
  exists nc w m, subseq w x /\ best_num_c (zlen w) nc /\ k_fit K nc w = Some m /\
    Forall (fun q => o_date q < o_date o) w /\ In o x /\
    (e = k_dev K m nc o \/ e = k_devr K m nc (3 * nc) w o).

(** The deviations of a look-back window: from one model of four coefficients
    fitted to later observations. *)
Definition hindcast (l : list (obs * D)) : Prop :=
  exists w m, subseq w x /\ k_fit K 4 w = Some m /\
    Forall (fun p => In (fst p) x /\ snd p = k_dev K m 4 (fst p) /\ Forall (fun q => o_date (fst p) < o_date q) w) l.

Definition source (ev : event) : Prop :=
  match ev with
  | EvLook _ w _ => hindcast w
  | EvMon _ w _ => Forall (fun p => predicted (fst p) (snd p)) w
  | EvCM _ _ _ => True
  end.

(** Degrees of freedom of the final fit. *)
Definition terms (category : Z) : Z := if (category =? 14) || (category =? 24) then 4 else category.

Definition fitted (r : rec M D) : Prop := k_fit K (terms (category r)) (r_win r) = Some (r_model r).

(** Each full window tested has a change magnitude in the log. *)
Definition measured (log : list event) : Prop := p_cm P <> None ->
  (forall d w v, In (EvMon d w v) log -> exists c, In (EvCM d (map snd w) c) log) /\
  (forall d w v, In (EvLook d w v) log -> zlen w = p_conse P -> exists d' c, In (EvCM d' (map snd w) c) log).
End Spec2.

(** ** Lists *)

Lemma next_obs : forall x pre a b post q, asc x -> x = pre ++ a :: b :: post -> In q x -> o_date a < o_date q -> o_date b <= o_date q.
Proof.
  intros x pre a b post q Hx E Hq Hlt. subst x. unfold asc in Hx. rewrite map_app in Hx. simpl in Hx.
  apply in_app_or in Hq. destruct Hq as [Hq|[Hq|[Hq|Hq]]].
  - exfalso. clear -Hx Hq Hlt. induction pre as [|c pre IH]; [contradiction|]. simpl in Hx. inversion Hx; subst.
    destruct Hq as [->|Hq]; [|auto]. rewrite Forall_forall in H2. specialize (H2 (o_date a)).
    assert (o_date q < o_date a); [|lia]. apply H2. apply in_or_app. right. left. reflexivity.
  - subst q. lia.
  - subst q. lia.
  - assert (Hs : StronglySorted Z.lt (o_date a :: o_date b :: map o_date post)).
    { clear -Hx. induction (map o_date pre); [exact Hx|]. inversion Hx. auto. }
    inversion Hs as [|? ? Hs' _]; subst. inversion Hs' as [|? ? _ Hf]; subst. rewrite Forall_forall in Hf.
    specialize (Hf (o_date q) (in_map o_date _ _ Hq)). lia.
Qed.

Lemma max_gap_ge : forall w x pre a b post, asc x -> subseq w x -> x = pre ++ a :: b :: post -> w <> [] ->
  dat w 0 <= o_date a -> o_date b <= dat w (zlen w - 1) -> o_date a < o_date b -> o_date b - o_date a <= max_gap w.
Proof.
  induction w as [|p w IH]; intros x pre a b post Hx Hsub E Hne H0 H1 Hab; [congruence|].
  destruct w as [|q w].
  - exfalso. unfold dat, nthO in *. change (zlen [p]) with 1 in H1. simpl in *. lia.
  - change (max_gap (p :: q :: w)) with (Z.max (o_date q - o_date p) (max_gap (q :: w))).
    assert (Hq : In q x) by (eapply subseq_In; [exact Hsub|right; left; reflexivity]).
    destruct (Z_lt_le_dec (o_date a) (o_date q)) as [Hlt|Hle].
    + pose proof (@next_obs x pre a b post q Hx E Hq Hlt). unfold dat, nthO in H0. simpl in H0. lia.
    + enough (o_date b - o_date a <= max_gap (q :: w)) by lia.
      eapply IH; try eassumption; try discriminate.
      * clear -Hsub. remember (p :: q :: w) as l. revert p q w Heql. induction Hsub; intros p q w El; try discriminate.
        -- injection El as -> ->. apply sub_drop. assumption.
        -- apply sub_drop. eapply IHHsub. eassumption.
      * replace (zlen (q :: w) - 1) with (zlen (p :: q :: w) - 2) by (rewrite !zlen_cons; lia).
        replace (dat (q :: w) (zlen (p :: q :: w) - 2)) with (dat (p :: q :: w) (zlen (p :: q :: w) - 1)); [assumption|].
        rewrite !zlen_cons. pose proof (zlen_nonneg w). unfold dat, nthO.
        replace (Z.to_nat (1 + (1 + zlen w) - 1)) with (S (Z.to_nat (1 + (1 + zlen w) - 2))) by lia. reflexivity.
Qed.

Lemma keep_in : forall f (w : list obs) k o, In o w -> In o (keep_from f k w) \/
  exists n, nth_error w n = Some o /\ f (k + n)%nat = true.
Proof.
  intros f w. induction w as [|a w IH]; intros k o H; [contradiction|]. simpl. destruct H as [->|H].
  - destruct (f k) eqn:E; [right; exists 0%nat; split; [reflexivity|rewrite Nat.add_0_r; exact E]|left; left; reflexivity].
  - destruct (IH (S k) o H) as [I|(n & I1 & I2)].
    + left. destruct (f k); [assumption|right; assumption].
    + right. exists (S n). split; [assumption|]. rewrite <- I2. f_equal. lia.
Qed.

Lemma asc_NoDup : forall l, asc l -> NoDup l.
Proof.
  unfold asc, ascending. induction l as [|a l IH]; intros H; [constructor|]. simpl in H. inversion H; subst.
  constructor; [|auto]. intros Hin. rewrite Forall_forall in H3. specialize (H3 (o_date a) (in_map o_date _ _ Hin)). lia.
Qed.

Lemma del_in : forall (l : list obs) k o, asc l -> 0 <= k < zlen l ->
  (In o l <-> In o (del (Z.to_nat k) l) \/ o = nthO l k) /\ ~ In (nthO l k) (del (Z.to_nat k) l).
Proof.
  intros l k o Hl Hk. apply asc_NoDup in Hl. unfold del, nthO.
  assert (E : l = firstn (Z.to_nat k) l ++ nth (Z.to_nat k) l dflt_obs :: skipn (S (Z.to_nat k)) l).
  { rewrite <- (firstn_skipn (Z.to_nat k) l) at 1. f_equal.
    assert (Hkl : (Z.to_nat k < length l)%nat) by (unfold zlen in Hk; lia). clear -Hkl.
    revert Hkl. generalize (Z.to_nat k) as n. induction l as [|a l IH]; intros n Hn; [simpl in Hn; lia|].
    destruct n; [reflexivity|]. simpl. rewrite IH by (simpl in Hn; lia). reflexivity. }
  split.
  - rewrite E at 1. rewrite !in_app_iff. simpl. split; intuition.
  - rewrite E in Hl. apply NoDup_remove_2 in Hl. exact Hl.
Qed.

Lemma nth_error_firstn_lt : forall A (l : list A) n k, (k < n)%nat -> nth_error (firstn n l) k = nth_error l k.
Proof.
  intros A l. induction l as [|a l IH]; intros n k H; [destruct n, k; reflexivity|].
  destruct n; [lia|]. destruct k; [reflexivity|]. simpl. apply IH. lia.
Qed.

Section Inv2.
Variables M D : Type.
Variable K : kernel M D.
Variable P : params.
Variable x : list obs.
Variable cm0 : list (Z * Z).
Hypothesis Hconse : 1 <= p_conse P.
Hypothesis Hx : asc x.
Notation st := (st M D).
Notation event := (event D).
Implicit Types (s : st) (log : list event).

Ltac ib H a E := apply bind_ok in H; destruct H as (a & E & H).
Ltac ss := cbn [s_live s_stale s_i s_start s_dense s_train s_count s_preend s_oldlen s_skip
                s_fit s_win s_cur s_recs s_cm s_log fst snd] in *.

(** What the log and the live observations have to do with each other. *)
Record Books (live : list obs) log : Prop := mkBooks {
  bk_acc : forall o, In o x -> In o live \/ flagged K x o \/ noise K P log o;
  bk_drop : forall o, noise K P log o -> ~ In o live;
  bk_src : Forall (source K x) log;
  bk_cm : measured P log
}.

Lemma noise_more : forall log ev o, noise K P log o -> noise K P (ev :: log) o.
Proof.
  intros log ev o (d & e & t & z & Hin & H). exists d, e, t, z. split; [|assumption].
  destruct Hin; [left|right]; right; assumption.
Qed.

Lemma cm_update_log : forall cm log d w cm' log', cm_update K P cm log d w = Ok (cm', log') ->
  (p_cm P = None /\ log' = log) \/ (exists v, log' = EvCM d w v :: log).
Proof.
  intros cm log d w cm' log' H. unfold cm_update in H. destruct (p_cm P) as [c|]; [|injection H as <- <-; auto].
  destruct (cm_int c =? 0); [discriminate|]. destruct (k_cm K _ _); [|discriminate]. ib H q E. destruct q as [cv cd].
  destruct (cv <? _); [ib H q E'|]; injection H as <- <-; eauto.
Qed.

Lemma books_cm : forall live log d w v, Books live log -> Books live (EvCM d w v :: log).
Proof.
  intros live log d w v [H1 H2 H3 H4]. constructor.
  - intros o Ho. destruct (H1 o Ho) as [I|[I|I]]; auto. right. right. apply noise_more. assumption.
  - intros o (d' & e & t & z & Hin & Hz). apply H2. exists d', e, t, z. split; [|assumption].
    destruct Hin as [[Hin|Hin]|[Hin|Hin]]; try discriminate; auto.
  - constructor; [exact I|assumption].
  - intros Hc. destruct (H4 Hc) as [G1 G2]. split.
    + intros d' w' v' [Hin|Hin]; [discriminate|]. destruct (G1 _ _ _ Hin) as [c I]. exists c. right. assumption.
    + intros d' w' v' [Hin|Hin] Hl; [discriminate|]. destruct (G2 _ _ _ Hin Hl) as (d2 & c & I). exists d2, c. right. assumption.
Qed.

(** A test is logged; its first observation is removed if it failed with a
    magnitude above the limit. *)
Lemma outlier0_spec : forall o e (t : list (obs * D)), outlier0 K P (map snd ((o, e) :: t)) = true <->
  exists z, k_norm K e = Fin z /\ p_tmax P < z.
Proof.
  intros o e t. simpl. unfold flt. destruct (k_norm K e) as [|z]; split; try discriminate.
  - intros (z & E & _). discriminate.
  - intros H. exists z. split; [reflexivity|lia].
  - intros (z' & E & H). injection E as <-. lia.
Qed.

Lemma books_test : forall live log ev d w v, Books live log -> ev = EvLook d w v \/ ev = EvMon d w v ->
  source K x ev ->
  (p_cm P <> None -> (exists d', ev = EvLook d' w v) /\ zlen w <> p_conse P \/
     (exists c, In (EvCM d (map snd w) c) log) \/ ((exists d', ev = EvLook d' w v) /\ exists d' c, In (EvCM d' (map snd w) c) log)) ->
  asc live ->
  (v = true \/ outlier0 K P (map snd w) = false -> Books live (ev :: log)) /\
  (forall k o e t, v = false -> w = (o, e) :: t -> 0 <= k < zlen live -> o = nthO live k -> outlier0 K P (map snd w) = true ->
     Books (del (Z.to_nat k) live) (ev :: log)).
Proof.
  intros live log ev d w v [H1 H2 H3 H4] Hev Hsrc Hcm Hasc.
  assert (Hm : measured P (ev :: log)).
  { intros Hc. destruct (H4 Hc) as [G1 G2]. specialize (Hcm Hc). split.
    - intros d' w' v' [Hin|Hin].
      + destruct Hev as [E|E]; rewrite E in Hin; [discriminate|]. injection Hin as <- <- <-.
        destruct Hcm as [[[d'' E'] _]|[[c I]|[[d'' E'] _]]]; try (rewrite E in E'; discriminate). exists c. right. assumption.
      + destruct (G1 _ _ _ Hin) as [c I]. exists c. right. assumption.
    - intros d' w' v' [Hin|Hin] Hl.
      + destruct Hev as [E|E]; rewrite E in Hin; [|discriminate]. injection Hin as <- <- <-.
        destruct Hcm as [[_ Hn]|[[c I]|[_ (d'' & c & I)]]]; [contradiction| |]; eexists; exists c; right; eassumption.
      + destruct (G2 _ _ _ Hin Hl) as (d2 & c & I). exists d2, c. right. assumption. }
  assert (Hn : forall o, noise K P (ev :: log) o -> noise K P log o \/
     (v = false /\ exists e t, w = (o, e) :: t /\ outlier0 K P (map snd w) = true)).
  { intros o (d' & e & t & z & Hin & Hz).
    assert (Hout : forall (t : list (obs * D)), outlier0 K P (map snd ((o, e) :: t)) = true) by (intros t'; apply outlier0_spec; eauto).
    assert (Hc : (In (EvLook d' ((o, e) :: t) false) log \/ In (EvMon d' ((o, e) :: t) false) log) \/ v = false /\ w = (o, e) :: t).
    { destruct Hin as [[Hin|Hin]|[Hin|Hin]]; auto; destruct Hev as [E|E]; rewrite E in Hin; try discriminate;
        injection Hin as _ -> ->; auto. }
    destruct Hc as [Hc|[Hv Hw]]; [left; exists d', e, t, z; auto|]. right. split; [assumption|]. exists e, t. rewrite Hw. auto. }
  split.
  - intros Hno. constructor; auto.
    + intros o Ho. destruct (H1 o Ho) as [I|[I|I]]; auto. right. right. apply noise_more. assumption.
    + intros o Ho. destruct (Hn o Ho) as [I|[Hv (e & t & _ & I)]]; [auto|]. destruct Hno; congruence.
  - intros k o e t Hv Hw Hk Ho Hout. constructor; auto.
    + intros q Hq. destruct (H1 q Hq) as [I|[I|I]]; auto.
      * apply (del_in q Hasc Hk) in I. destruct I as [I|I]; [auto|]. right. right.
        rewrite Hw in Hout. apply outlier0_spec in Hout. destruct Hout as (z & Hz).
        exists d, e, t, z. split; [|assumption]. subst q. rewrite <- Ho. rewrite <- Hw, <- Hv.
        destruct Hev as [E|E]; rewrite E; [left|right]; left; reflexivity.
      * right. right. apply noise_more. assumption.
    + intros q Hq Hin. destruct (Hn q Hq) as [I|[_ (e' & t' & E & _)]].
      * apply (H2 q I). apply (del_in q Hasc Hk). left. assumption.
      * rewrite Hw in E. injection E as <- <- <-. rewrite Ho in Hin. apply (proj2 (del_in o Hasc Hk)). assumption.
Qed.

Lemma get_O : forall (l : list obs) k o, get l k = Ok o -> 0 <= k < zlen l /\ o = nthO l k.
Proof.
  intros l k o H. apply get_inv in H. destruct H as [H1 H2]. split; [assumption|]. unfold nthO.
  symmetry. apply nth_error_nth. assumption.
Qed.

Lemma mapM_inv : forall l f n k os, mapM_idx l f k n = Ok os ->
  os = map (fun c => nthO l (f c)) (seq k n) /\ forall c, (k <= c < k + n)%nat -> 0 <= f c < zlen l.
Proof.
  intros l f n. induction n as [|n IH]; intros k os H; simpl in H.
  - injection H as <-. split; [reflexivity|lia].
  - ib H o E. ib H t E'. injection H as <-. apply get_O in E. destruct E as [E1 E2]. apply IH in E'. destruct E' as [F1 F2].
    split; [simpl; congruence|]. intros c Hc. destruct (Nat.eq_dec c k) as [->|]; [assumption|]. apply F2. lia.
Qed.

(** ** Looking back *)
Lemma lookback_books : forall n m i_break w0 s s' lw wf,
  lookback K P n m i_break w0 s = Ok (s', lw) -> 1 <= i_break -> s_start s = i_break + Z.of_nat n ->
  subseq (s_live s) x -> s_start s <= zlen (s_live s) -> Books (s_live s) (s_log s) ->
  subseq wf x -> k_fit K 4 wf = Some m -> Forall (fun q => dat (s_live s) (s_start s - 1) <= o_date q) wf ->
  Books (s_live s') (s_log s') /\ dat (s_live s') (s_start s' - 1) <= dat (s_live s) (s_start s - 1) /\
  forall o, In o (s_live s) -> o_date o < dat (s_live s) (i_break - 1) -> In o (s_live s').
Proof.
  induction n as [|n IH]; intros m i_break w0 s s' lw wf H Hb Hst Hsub Hlen HB Hwf Hm Hlate.
  { simpl in H. injection H as <- _. split; [assumption|]. split; [lia|auto]. }
  cbn [lookback] in H.
  set (i_ini := i_break - 1 + Z.of_nat n) in *.
  assert (Hini : i_ini = s_start s - 2) by (unfold i_ini; lia).
  set (ic := if i_ini - (i_break - 1) + 1 <? p_conse P then i_ini - (i_break - 1) + 1 else p_conse P) in *.
  assert (Hic : ic = Z.min (p_conse P) (Z.of_nat n + 1)).
  { unfold ic, i_ini. destruct (_ <? _) eqn:E; lia. }
  destruct (ic =? 0) eqn:E0; [discriminate|].
  ib H os Eos. apply mapM_inv in Eos. destruct Eos as [Eos _].
  set (w := map (fun o => (o, k_dev K m 4 o)) os) in *.
  ib H q Ecm. destruct q as [cm' log'].
  ib H oi Eoi. apply get_O in Eoi. destruct Eoi as [Hoi Eoi].
  assert (Hasc : asc (s_live s)) by (eapply asc_sub; eassumption).
  assert (Hnl : (0 < Z.to_nat ic)%nat) by lia.
  assert (Hw : exists e t, w = (nthO (s_live s) i_ini, e) :: t).
  { unfold w. rewrite Eos. destruct (Z.to_nat ic); [lia|]. cbn [seq map]. eexists _, _. f_equal. f_equal. f_equal. lia. }
  assert (Hwl : zlen w = ic).
  { unfold w. rewrite zlen_map, Eos, zlen_map. unfold zlen. rewrite seq_length. lia. }
  assert (Hsrc : hindcast K x w).
  { exists wf, m. split; [assumption|]. split; [assumption|]. apply Forall_forall. intros p Hp.
    unfold w in Hp. apply in_map_iff in Hp. destruct Hp as (o & <- & Ho). cbn [fst snd].
    rewrite Eos in Ho. apply in_map_iff in Ho. destruct Ho as (c & <- & Hc). apply in_seq in Hc.
    split; [eapply subseq_In; [exact Hsub|apply In_nthO; lia]|]. split; [reflexivity|].
    eapply Forall_impl; [|exact Hlate]. intros q Hq. cbn beta in Hq.
    fold (dat (s_live s) (i_ini - (Z.of_nat c + 1) + 1)).
    pose proof (@dat_lt (s_live s) (i_ini - (Z.of_nat c + 1) + 1) (s_start s - 1) Hasc). lia. }
  assert (HB' : Books (s_live s) log' /\
      (p_cm P <> None -> zlen w <> p_conse P \/ exists d' c, In (EvCM d' (map snd w) c) log')).
  { destruct (p_conse P <=? ic) eqn:Ec.
    - ib Ecm o1 E1. apply cm_update_log in Ecm. destruct Ecm as [[Hn ->]|[v ->]].
      + split; [assumption|]. contradiction.
      + split; [apply books_cm; assumption|]. intros _. right. eexists _, _. left. reflexivity.
    - injection Ecm as _ <-. split; [assumption|]. intros _. left. lia. }
  destruct HB' as [HB' Hmeas].
  set (v := confirmed K P (map snd w)) in *.
  destruct (@books_test (s_live s) log' (EvLook (o_date oi) w v) (o_date oi) w v HB' (or_introl eq_refl) Hsrc) as [T1 T2].
  { intros Hc. destruct (Hmeas Hc) as [G|G]; [left|right; right]; split; eauto. }
  { assumption. }
  destruct v eqn:Ev.
  - injection H as <- _. ss. split; [apply T1; left; reflexivity|]. split; [lia|auto].
  - destruct (outlier0 K P (map snd w)) eqn:Eo; unfold drop_obs in H; ss.
    + destruct Hw as (e & t & Hw).
      assert (Hdl : zlen (del (Z.to_nat i_ini) (s_live s)) = zlen (s_live s) - 1) by (apply zlen_del; lia).
      assert (Hd : dat (del (Z.to_nat i_ini) (s_live s)) (i_ini + 1 - 1) = dat (s_live s) (s_start s - 1)).
      { unfold dat. rewrite nthO_del by lia. replace (i_ini + 1 - 1 <? i_ini) with false by lia. do 2 f_equal. lia. }
      eapply IH with (wf := wf) in H; ss; try assumption; try lia.
      * rewrite Hd in H. destruct H as (H1 & H2 & H3). split; [assumption|]. split; [assumption|].
        intros o Ho Hlt. pose proof (@dat_sub_ge _ _ (i_break - 1) (subseq_del (Z.to_nat i_ini) (s_live s)) Hasc).
        apply H3; [|lia]. assert (Hk : 0 <= i_ini < zlen (s_live s)) by lia.
        apply (del_in o Hasc Hk) in Ho. destruct Ho as [Ho|Ho]; [assumption|]. exfalso. subst o.
        fold (dat (s_live s) i_ini) in Hlt. pose proof (@dat_le (s_live s) (i_break - 1) i_ini Hasc). lia.
      * eapply subseq_trans; [apply subseq_del|assumption].
      * eapply T2; try reflexivity; try eassumption; try lia. 
      * rewrite Hd. assumption.
    + pose proof (@dat_lt (s_live s) (s_start s - 2) (s_start s - 1) Hasc) as Hlt.
      eapply IH with (wf := wf) in H; ss; try assumption; try lia.
      * destruct H as (H1 & H2 & H3). split; [assumption|]. replace (i_ini + 1 - 1) with (s_start s - 2) in H2 by lia. split; [lia|assumption].
      * apply T1. right. reflexivity.
      * replace (i_ini + 1 - 1) with (s_start s - 2) by lia.
        eapply Forall_impl; [|exact Hlate]. intros q Hq. cbn beta in Hq. lia.
Qed.

(** ** Gaps *)
Lemma no_gap_join : forall lo hi q, In q x -> no_gap P x lo (o_date q) -> no_gap P x (o_date q) hi -> no_gap P x lo hi.
Proof.
  intros lo hi q Hq H1 H2 pre a b post E Ha Hb.
  destruct (Z_lt_le_dec (o_date a) (o_date q)) as [Hlt|Hle].
  - pose proof (@next_obs x pre a b post q Hx E Hq Hlt). eapply H1; eassumption.
  - eapply H2; eassumption.
Qed.

Lemma no_gap_sub : forall lo hi lo' hi', no_gap P x lo hi -> lo <= lo' -> hi' <= hi -> no_gap P x lo' hi'.
Proof. intros lo hi lo' hi' H H1 H2 pre a b post E Ha Hb. eapply H; [eassumption|lia|lia]. Qed.

Lemma pair_lt : forall pre a b post, x = pre ++ a :: b :: post -> o_date a < o_date b.
Proof.
  intros pre a b post E. unfold asc, ascending in Hx. rewrite E, map_app in Hx. simpl in Hx.
  clear -Hx. induction (map o_date pre) as [|c l IH]; simpl in Hx; inversion Hx as [|? ? H1 H2]; subst; [|auto].
  inversion H2. assumption.
Qed.

Lemma no_gap_one : forall lo hi, hi <= lo -> no_gap P x lo hi.
Proof. intros lo hi H pre a b post E Ha Hb. pose proof (@pair_lt pre a b post E). lia. Qed.

Lemma no_gap_window : forall w, subseq w x -> w <> [] -> max_gap w <= p_gap P -> no_gap P x (dat w 0) (dat w (zlen w - 1)).
Proof.
  intros w Hw Hne Hg pre a b post E Ha Hb.
  pose proof (@max_gap_ge w x pre a b post Hx Hw E Hne Ha Hb (@pair_lt pre a b post E)). lia.
Qed.

(** ** The observations used by records *)
Definition Used (live : list obs) (rs : list (rec M D)) : Prop := forall b, lastB rs b ->
  Forall (fun r => Forall (fun o => In o live /\ o_date o < b) (r_win r)) rs.

Lemma used_nil : forall live, Used live [].
Proof. intros live b _. constructor. Qed.

Lemma used_drop : forall live live' rs b, Used live rs -> lastB rs b ->
  (forall o, In o live -> o_date o < b -> In o live') -> Used live' rs.
Proof.
  intros live live' rs b H Hb Hd b' Hb'. pose proof (H b Hb) as H1. pose proof (H b' Hb') as H2.
  rewrite Forall_forall in *. intros r Hr. specialize (H1 r Hr). specialize (H2 r Hr). rewrite Forall_forall in *.
  intros o Ho. destruct (H1 o Ho). destruct (H2 o Ho). auto.
Qed.

Lemma used_push : forall live rs r, Used live rs -> lastB rs (t_break r) ->
  Forall (fun o => In o live /\ o_date o < t_break r) (r_win r) -> Used live (rs ++ [r]).
Proof.
  intros live rs r H Hb Hr b Hl. assert (Hb' : t_break r <= b) by (apply (Hl rs r); reflexivity).
  apply Forall_app. split.
  - apply H. eapply lastB_mono; eassumption.
  - constructor; [|constructor]. eapply Forall_impl; [|exact Hr]. intros o [H1 H2]. split; [assumption|lia].
Qed.

Lemma in_window : forall (l : list obs) a n o, asc l -> 0 <= a -> 0 <= n -> a + n < zlen l ->
  In o (firstn (Z.to_nat n) (skipn (Z.to_nat a) l)) -> In o l /\ o_date o < dat l (a + n).
Proof.
  intros l a n o Hl Ha Hn Hlen Ho. apply In_nth with (d := dflt_obs) in Ho. destruct Ho as (j & Hj & <-).
  rewrite firstn_length in Hj. rewrite nth_firstn by lia. rewrite nth_skipn.
  replace (nth (Z.to_nat a + j) l dflt_obs) with (nthO l (a + Z.of_nat j)) by (unfold nthO; f_equal; lia).
  split; [apply In_nthO; lia|]. apply (@dat_lt l (a + Z.of_nat j) (a + n)); [assumption|lia|lia].
Qed.

(** ** The invariant *)
Definition Fitting s : Prop := exists r m, s_cur s = Some r /\ s_fit s = Some m /\ r_model r = m /\
  k_fit K (category r) (r_win r) = Some m.

Record Inv2 s : Prop := mkInv2 {
  j_books : Books (s_live s) (s_log s);
  j_recs : Forall (fitted K) (s_recs s);
  j_fit : s_train s = true -> 0 < s_count s -> Fitting s /\ Z.min 24 (s_i s - s_start s) <= s_oldlen s;
  j_win : s_train s = true -> 0 < s_count s -> Forall (fun p => predicted K x (fst p) (snd p)) (s_win s);
  j_gap : s_recs s = [] -> s_train s = false -> no_gap P x (dat (s_live s) (s_dense s - 1)) (dat (s_live s) (s_start s - 1));
  j_gap14 : Forall (fun r => category r = 14 -> no_gap P x (t_start r) (t_break r)) (s_recs s);
  j_used : Used (s_live s) (s_recs s)
}.

Notation Inv := (Inv K P x cm0).

Lemma books_keep : forall live live' log, Books live log ->
  (forall o, In o live -> In o live' \/ flagged K x o) -> (forall o, In o live' -> In o live) -> Books live' log.
Proof.
  intros live live' log [H1 H2 H3 H4] Ha Hb. constructor; auto.
  - intros o Ho. destruct (H1 o Ho) as [I|[I|I]]; auto. destruct (Ha o I); auto.
  - intros o Ho Hin. apply (H2 o Ho). auto.
Qed.

Lemma in_mid : forall (l : list obs) a n o, In o l ->
  In o (firstn a l) \/ In o (firstn n (skipn a l)) \/ In o (skipn (a + n) l).
Proof.
  intros l a n o H. rewrite (firstn_skipn_mid l a n) in H. rewrite !in_app_iff in H. assumption.
Qed.

Lemma initialise_inv2 : forall s s' b, Core K P x cm0 s -> s_train s = false -> Inv2 s ->
  s_i s <= s_end s - p_conse P -> s_start s + 11 <= s_i s ->
  dat (s_live s) (s_start s - 1) + 366 <= dat (s_live s) (s_i s - 1) ->
  initialise K P s = Ok (s', b) -> (b = false -> s_train s' = false) -> (b = true -> s_count s' = 0) -> Inv2 s'.
Proof.
  intros s s' b HC Htr HI Hi Hsp Ht H Hfalse Hcount0.
  destruct HC as [Hsub Hstart Hdense Hchain Hclosed Hfrom Hlast Hlog Hconf].
  destruct HI as [HB HR HF HW HG HG14 HU]. unfold initialise in H. unfold s_end in Hi.
  assert (Hasc : asc (s_live s)) by (eapply asc_sub; eassumption).
  ib H w Ew. apply slice_inv in Ew. destruct Ew as (_ & _ & Ew1 & Ew).
  assert (Hwl : zlen w = s_i s - s_start s + 1).
  { rewrite Ew. rewrite zlen_firstn; [reflexivity|]. rewrite zlen_skipn by lia. lia. }
  assert (Hwx : subseq w x).
  { rewrite Ew. eapply subseq_trans; [apply subseq_firstn|]. eapply subseq_trans; [apply subseq_skipn|assumption]. }
  assert (Hwd : forall k, 0 <= k < zlen w -> dat w k = dat (s_live s) (s_start s - 1 + k)).
  { intros k Hk. rewrite Ew. unfold dat. rewrite nthO_firstn by lia. rewrite nthO_skipn by lia. reflexivity. }
  destruct (p_gap P <? max_gap w) eqn:Eg.
  { injection H as <- <-. constructor; ss; auto; try congruence. intros _ _. apply no_gap_one. lia. }
  ib H wide Ewide. apply slice_inv in Ewide. destruct Ewide as (_ & _ & Ewd1 & Ewide).
  assert (Hwidex : subseq wide x).
  { rewrite Ewide. eapply subseq_trans; [apply subseq_firstn|]. eapply subseq_trans; [apply subseq_skipn|assumption]. }
  ib H flags Ef. destruct (k_mask K wide) as [f|] eqn:Em; [|discriminate]. simpl in Ef. injection Ef as <-.
  set (w' := keep_from f 0 w) in *.
  destruct (zlen w' <? 12) eqn:E12.
  { injection H as <- <-. constructor; ss; auto; congruence. }
  set (cp := firstn (Z.to_nat (s_start s - 1)) (s_live s) ++ w' ++ skipn (Z.to_nat (s_i s)) (s_live s)) in *.
  set (i' := s_start s + zlen w' - 1) in *.
  ib H ce Ece. apply get_O in Ece. destruct Ece as [Hce Ece].
  ib H cs Ecs. apply get_O in Ecs. destruct Ecs as [Hcs Ecs].
  destruct (o_date ce - o_date cs <? 366) eqn:E366.
  { injection H as <- <-. constructor; ss; auto; congruence. }
  assert (Hw' : subseq w' w) by apply keep_sub.
  assert (Hcpl : subseq cp (s_live s)).
  { unfold cp. rewrite (firstn_skipn_mid (s_live s) (Z.to_nat (s_start s - 1)) (Z.to_nat (s_i s - s_start s + 1))) at 3.
    apply subseq_app; [apply subseq_refl|]. apply subseq_app; [rewrite <- Ew; assumption|].
    replace (Z.to_nat (s_start s - 1) + Z.to_nat (s_i s - s_start s + 1))%nat with (Z.to_nat (s_i s)) by lia. apply subseq_refl. }
  assert (Hcpx : subseq cp x) by (eapply subseq_trans; eassumption).
  assert (Hcpa : asc cp) by (eapply asc_sub; eassumption).
  assert (Hcpd : forall k, 0 <= k < zlen w' -> dat cp (s_start s - 1 + k) = dat w' k).
  { intros k Hk. unfold dat, cp. assert (Hfl : zlen (firstn (Z.to_nat (s_start s - 1)) (s_live s)) = s_start s - 1) by (apply zlen_firstn; lia).
    rewrite nthO_app2 by lia. rewrite Hfl. rewrite nthO_app1 by lia. do 2 f_equal. lia. }
  assert (Hw'l : zlen w' <= zlen w) by (pose proof (subseq_length Hw'); unfold zlen; lia).
  assert (Hwa : asc w) by (eapply asc_sub; eassumption).
  assert (Hlastw : forall k, 0 <= k < zlen w' -> dat w' k <= dat w (zlen w - 1)).
  { intros k Hk. assert (Hin : In (nthO w' k) w) by (eapply subseq_In; [exact Hw'|apply In_nthO; assumption]).
    apply In_nth with (d := dflt_obs) in Hin. destruct Hin as (j & Hj & Hn). unfold dat. rewrite <- Hn.
    replace (o_date (nth j w dflt_obs)) with (dat w (Z.of_nat j)) by (unfold dat, nthO; rewrite Nat2Z.id; reflexivity).
    fold (dat w (zlen w - 1)). apply dat_le; [assumption| |]; unfold zlen in *; lia. }
  assert (HBcp : Books cp (s_log s)).
  { eapply books_keep; [exact HB| |intros o Ho; eapply subseq_In; eassumption].
    intros o Ho. apply (@in_mid (s_live s) (Z.to_nat (s_start s - 1)) (Z.to_nat (s_i s - s_start s + 1))) in Ho.
    unfold cp. rewrite !in_app_iff. destruct Ho as [Ho|[Ho|Ho]]; auto.
    - rewrite <- Ew in Ho. destruct (@keep_in f w 0 o Ho) as [I|(n & I1 & I2)]; [auto|].
      right. exists wide, f, n. split; [assumption|]. split; [assumption|]. split; [|assumption].
      assert (Hn : (n < length w)%nat) by (apply nth_error_Some; congruence).
      assert (Hww : w = firstn (length w) wide).
      { rewrite Ewide. rewrite firstn_firstn. rewrite Ew at 1. f_equal. unfold zlen in *. lia. }
      rewrite Hww in I1. rewrite nth_error_firstn_lt in I1 by assumption. assumption.
    - replace (Z.to_nat (s_start s - 1) + Z.to_nat (s_i s - s_start s + 1))%nat with (Z.to_nat (s_i s)) in Ho by lia. auto. }
  assert (HUcp : Used cp (s_recs s)).
  { eapply used_drop; [exact HU|exact Hlast|]. intros o Ho Hlt.
    unfold cp. rewrite !in_app_iff. left.
    apply In_nth with (d := dflt_obs) in Ho. destruct Ho as (j & Hj & Ho).
    assert (Hjs : (j < Z.to_nat (s_start s - 1))%nat).
    { destruct (le_lt_dec (Z.to_nat (s_start s - 1)) j) as [Hle|]; [exfalso|assumption].
      pose proof (@dat_le (s_live s) (s_start s - 1) (Z.of_nat j) Hasc) as Hd. unfold zlen in *.
      replace (dat (s_live s) (Z.of_nat j)) with (o_date o) in Hd by (unfold dat, nthO; rewrite Nat2Z.id, Ho; reflexivity). lia. }
    assert (Ho' : nth j (firstn (Z.to_nat (s_start s - 1)) (s_live s)) dflt_obs = o) by (rewrite nth_firstn by assumption; exact Ho).
    rewrite <- Ho'. apply nth_In. rewrite firstn_length. unfold zlen in *. lia. }
  assert (Hgapw : no_gap P x (dat (s_live s) (s_start s - 1)) (dat w (zlen w - 1))).
  { replace (s_start s - 1) with (s_start s - 1 + 0) by lia. rewrite <- Hwd by lia.
    apply no_gap_window; [assumption|intros ->; unfold zlen in Hwl; simpl in Hwl; lia|lia]. }
  assert (Hgap : s_recs s = [] -> no_gap P x (dat cp (s_dense s - 1)) (dat w (zlen w - 1))).
  { intros Hn. specialize (Hdense Hn). apply no_gap_sub with (lo := dat (s_live s) (s_dense s - 1)) (hi := dat w (zlen w - 1)).
    - apply no_gap_join with (q := nthO (s_live s) (s_start s - 1)).
      + eapply subseq_In; [exact Hsub|apply In_nthO; lia].
      + apply HG; assumption.
      + exact Hgapw.
    - apply dat_sub_ge; [assumption|assumption|lia].
    - lia. }
  ib H wf Ewf. apply slice_inv in Ewf. destruct Ewf as (_ & _ & Ewf1 & Ewf).
  ib H m Efit. destruct (k_fit K 4 wf) as [m0|] eqn:Em0; [|discriminate]. simpl in Efit. injection Efit as <-.
  destruct (fgt (k_stab K m0 wf) (Fin (p_tcg P))) eqn:Est.
  { injection H as <- <-. constructor; ss; auto; try congruence. intros Hn _.
    eapply no_gap_sub; [apply Hgap; assumption|lia|].
    replace (s_start s + 1 - 1) with (s_start s - 1 + 1) by lia. rewrite Hcpd by lia. apply Hlastw. lia. }
  ib H i_break Eib.
  assert (Hib : 1 <= i_break <= s_start s /\ lastB (s_recs s) (dat cp (i_break - 1))).
  { destruct (rev (s_recs s)) as [|r t] eqn:Er.
    - injection Eib as <-. assert (Hn : s_recs s = []) by (destruct (s_recs s); [reflexivity|simpl in Er; destruct (rev l); discriminate]).
      split; [apply Hdense; assumption|]. rewrite Hn. apply lastB_nil.
    - destruct (first_ge (t_break r) cp 0) as [j|] eqn:Ej; [|discriminate]. injection Eib as <-.
      apply rev_last in Er.
      destruct (@first_ge_le (t_break r) cp 0 (s_start s - 1)) as (j' & Hj' & Hle); [lia| |].
      { specialize (Hlast (rev t) r Er). pose proof (@dat_sub_ge cp (s_live s) (s_start s - 1) Hcpl Hasc). lia. }
      rewrite Hj' in Ej. injection Ej as ->. apply first_ge_spec in Hj'. destruct Hj' as (G1 & G2 & _).
      split; [lia|]. rewrite Er. apply lastB_app. replace (j - 1) with (j - 0 - 1) by lia. assumption. }
  destruct Hib as [Hib Hibl].
  ib H q Elb. destruct q as [s2 lw].
  assert (Hwfx : subseq wf x).
  { rewrite Ewf. eapply subseq_trans; [apply subseq_firstn|]. eapply subseq_trans; [apply subseq_skipn|assumption]. }
  pose proof Elb as Elb'. apply lookback_books with (wf := wf) in Elb; ss; try assumption; try lia.
  2:{ apply Forall_forall. intros q Hq. rewrite Ewf in Hq. apply In_nth with (d := dflt_obs) in Hq.
      destruct Hq as (j & Hj & <-). rewrite firstn_length in Hj. rewrite nth_firstn by lia. rewrite nth_skipn.
      replace (nth (Z.to_nat (s_start s - 1) + j) cp dflt_obs) with (nthO cp (s_start s - 1 + Z.of_nat j)) by (unfold nthO; f_equal; lia).
      fold (dat cp (s_start s - 1 + Z.of_nat j)). apply dat_le; [assumption|lia|lia]. }
  destruct Elb as (HB2 & Hd2 & Hk2).
  assert (HU2 : Used (s_live s2) (s_recs s)) by (eapply used_drop; eassumption).
  assert (Hlw : forall n m ib w0 (s s' : st) lw, lookback K P n m ib w0 s = Ok (s', lw) ->
             s_recs s' = s_recs s /\ s_dense s' = s_dense s /\ s_train s' = s_train s /\ subseq (s_live s') (s_live s) /\ ib <= s_start s' \/ s_start s < ib + Z.of_nat n).
  { clear. induction n as [|n IH]; intros m ib w0 s s' lw H.
    - simpl in H. injection H as <- _. destruct (Z_lt_le_dec (s_start s) ib); [right; lia|left]. repeat split; auto. apply subseq_refl.
    - cbn [lookback] in H. destruct (Z_lt_le_dec (s_start s) (ib + Z.of_nat (S n))); [right; lia|left].
      destruct (_ =? 0); [discriminate|]. ib H os E. ib H q E'. destruct q as [cm' log']. ib H oi E''.
      destruct (confirmed _ _ _).
      + injection H as <- _. ss. repeat split; auto; [apply subseq_refl|lia].
      + destruct (outlier0 _ _ _); unfold drop_obs in H; apply IH in H; ss; (destruct H as [H|H]; [|lia]).
        * destruct H as (A & B & C & F & G). repeat split; auto. eapply subseq_trans; [exact F|apply subseq_del].
        * assumption. }
  apply Hlw in Elb'. ss. destruct Elb' as [(Lr & Ld & Lt & Lsub & Lst)|Elb']; [|lia]. clear Hlw.
  assert (Hdone : s_recs s2 = s_recs s -> forall b', s_train b' = true -> s_count b' = 0 -> s_live b' = s_live s2 -> s_log b' = s_log s2 -> s_recs b' = s_recs s -> Inv2 b').
  { intros _ b' B1 B2 B3 B4 B5. constructor; rewrite ?B3, ?B4, ?B5; auto; try (intros; congruence); intros; lia. }
  destruct (s_recs s2) as [|r0 rs0] eqn:Er2.
  2:{ injection H as <- <-. apply (Hdone Lr); auto. congruence. }
  destruct (6 <=? s_start s2 - s_dense s2) eqn:E6.
  2:{ injection H as <- <-. apply (Hdone Lr); auto. congruence. }
  ib H w2 Ew2. apply slice_inv in Ew2. destruct Ew2 as (_ & _ & Ew2 & Ew2').
  ib H m2 Em2. destruct (k_fit K 4 w2) as [m2'|] eqn:Emm; [|discriminate]. simpl in Em2. injection Em2 as <-.
  ib H oe Eoe. ib H ob Eob. apply get_O in Eob. destruct Eob as [Hob ->].
  ib H os Eos. apply get_O in Eos. destruct Eos as [Hos ->].
  ib H rs Ers. unfold push_rec in Ers. destruct (40 <=? _); [discriminate|]. injection Ers as <-.
  injection H as <- <-. ss. specialize (Hcount0 eq_refl). symmetry in Lr.
  constructor; ss; try congruence; try (intros; lia); try (intros; discriminate).
  - constructor; [|constructor]. unfold fitted. cbn [category r_win r_model]. exact Emm.
  - constructor; [|constructor]. cbn [category t_start t_break]. intros _.
    fold (dat (s_live s2) (s_dense s2 - 1)). fold (dat (s_live s2) (s_start s2 - 1)).
    specialize (Hdense Lr).
    eapply no_gap_sub; [apply Hgap; assumption| |].
    + rewrite <- Ld. apply dat_sub_ge; [assumption|assumption|lia].
    + etransitivity; [exact Hd2|]. replace (s_start s - 1) with (s_start s - 1 + 0) by lia. rewrite Hcpd by lia. apply Hlastw. lia.
  - apply (@used_push (s_live s2) []); [apply used_nil|apply lastB_nil|]. cbn [r_win t_break]. rewrite Ew2'.
    apply Forall_forall. intros o Ho. apply in_window in Ho; [|eapply asc_sub; [eapply subseq_trans; eassumption|assumption]|lia|lia|lia].
    replace (s_dense s2 - 1 + (s_start s2 - s_dense s2)) with (s_start s2 - 1) in Ho by lia. exact Ho.
Qed.

Lemma terms_update : forall n, terms (update_cft n) = update_cft n.
Proof. intros n. unfold update_cft. destruct (n <? 18); [|destruct (n <? 24)]; reflexivity. Qed.

Lemma update_14 : forall n, update_cft n <> 14.
Proof. intros n. unfold update_cft. destruct (n <? 18); [|destruct (n <? 24)]; lia. Qed.

(** A window of observations before position [i] and an observation at or
    after it. *)
Lemma predicted_at : forall live i start n nc m k e, subseq live x -> 1 <= start -> 12 <= n -> start - 1 + n <= i -> i <= k < zlen live ->
  nc = update_cft n -> k_fit K nc (firstn (Z.to_nat n) (skipn (Z.to_nat (start - 1)) live)) = Some m ->
  (e = k_dev K m nc (nthO live k) \/ e = k_devr K m nc (3 * nc) (firstn (Z.to_nat n) (skipn (Z.to_nat (start - 1)) live)) (nthO live k)) ->
  predicted K x (nthO live k) e.
Proof.
  intros live i start n nc m k e Hsub Hs Hn Hi Hk Hnc Hfit He.
  set (w := firstn (Z.to_nat n) (skipn (Z.to_nat (start - 1)) live)) in *.
  assert (Hasc : asc live) by (eapply asc_sub; eassumption).
  assert (Hwl : zlen w = n) by (unfold w; rewrite zlen_firstn; [reflexivity|rewrite zlen_skipn by lia; lia]).
  exists nc, w, m. split; [|split; [|split; [assumption|split; [|split; [|exact He]]]]].
  - unfold w. eapply subseq_trans; [apply subseq_firstn|]. eapply subseq_trans; [apply subseq_skipn|assumption].
  - rewrite Hwl, Hnc. apply best_update. lia.
  - apply Forall_forall. intros q Hq. apply In_nth with (d := dflt_obs) in Hq. destruct Hq as (j & Hj & <-).
    assert (Hj' : (j < Z.to_nat n)%nat) by (unfold zlen in Hwl; lia).
    unfold w. rewrite nth_firstn by lia. rewrite nth_skipn.
    replace (nth (Z.to_nat (start - 1) + j) live dflt_obs) with (nthO live (start - 1 + Z.of_nat j)) by (unfold nthO; f_equal; lia).
    apply (@dat_lt live (start - 1 + Z.of_nat j) k Hasc); lia.
  - eapply subseq_In; [exact Hsub|apply In_nthO; lia].
Qed.

Lemma mon_fit_inv2 : forall s s', Core K P x cm0 s -> s_train s = true -> Inv2 s ->
  s_i s <= s_end s - p_conse P -> s_start s + 11 <= s_i s ->
  dat (s_live s) (s_start s - 1) + 366 <= dat (s_live s) (s_i s - 1) ->
  (s_count s = 0 \/ Trained K P s) -> mon_fit K P s = Ok s' -> Inv2 s' /\ Z.min 24 (s_i s' - s_start s' + 1) <= s_oldlen s'.
Proof.
  intros s s' HC Htr HI Hi Hsp Ht Hcase H.
  destruct HC as [Hsub Hstart Hdense Hchain Hclosed Hfrom Hlast Hlog Hconf].
  destruct HI as [HB HR HF HW HG HG14 HU]. unfold mon_fit in H. unfold s_end in Hi.
  ib H xe Exe. ib H xs Exs.
  set (i_span := s_i s - s_start s + 1) in *.
  destruct ((s_count s =? 0) || (i_span <=? 24)) eqn:E.
  - ib H w Ew. apply slice_inv in Ew. destruct Ew as (_ & _ & _ & Ew).
    ib H m Em. destruct (k_fit K (update_cft i_span) w) as [m'|] eqn:Em'; [|discriminate]. simpl in Em. injection Em as <-.
    ib H os Eos. apply mapM_inv in Eos. destruct Eos as [Eos Hos]. injection H as <-. ss. split; [|lia].
    constructor; ss; auto; try congruence.
    + intros _ _. split; [|lia]. eexists _, _. split; [reflexivity|]. split; [reflexivity|]. split; [reflexivity|]. exact Em'.
    + intros _ _. apply Forall_forall. intros p Hp. apply in_map_iff in Hp. destruct Hp as (o & <- & Ho). cbn [fst snd].
      rewrite Eos in Ho. apply in_map_iff in Ho. destruct Ho as (c & <- & Hc). apply in_seq in Hc.
      subst w. eapply predicted_at with (i := s_i s) (start := s_start s) (n := i_span); try eassumption; try reflexivity; try lia.
      left. reflexivity.
  - destruct Hcase as [H0|HT]; [lia|]. destruct HT as [[_ _ Hrec Hold] Hwl Htail Hno Hcnt].
    destruct Hrec as (r0 & m0 & Hr0 & Hm0 & Hts & Htb & Hpr & Hdv & Hno0 & Hrw & Hcat).
    destruct (HF Htr Hcnt) as [(r0' & m0' & Hr0' & Hm0' & Hmod & Hfit0) Hmin].
    specialize (HW Htr Hcnt).
    rewrite Hr0 in H, Hr0'. rewrite Hm0 in H, Hm0'. injection Hr0' as <-. injection Hm0' as <-.
    ib H q Eqq. destruct q as [[[[[m r1] cnt] pre] skip'] oldlen].
    assert (Hq : k_fit K (category r1) (r_win r1) = Some m /\ r_model r1 = m /\ category r1 = update_cft oldlen /\
       r_win r1 = firstn (Z.to_nat oldlen) (skipn (Z.to_nat (s_start s - 1)) (s_live s)) /\ 24 <= oldlen <= i_span).
    { destruct ((1 <=? s_i s - s_preend s) && _).
      - ib Eqq w Ew. apply slice_inv in Ew. destruct Ew as (_ & _ & _ & Ew).
        ib Eqq m1 Em. destruct (k_fit K (update_cft i_span) w) as [m'|] eqn:Em'; [|discriminate]. simpl in Em. injection Em as <-.
        injection Eqq as <- <- <- <- <- <-. cbn [category r_win r_model]. split; [assumption|]. split; [reflexivity|].
        split; [reflexivity|]. split; [assumption|lia].
      - injection Eqq as <- <- <- <- <- <-. split; [assumption|]. split; [assumption|]. split; [assumption|]. split; [assumption|]. lia. }
    destruct Hq as (Q1 & Q2 & Q3 & Q4 & Q5). clear Eqq.
    cbn [category] in H.
    destruct (oldlen =? 0); [discriminate|]. destruct (oldlen <? 3 * category r1); [discriminate|].
    ib H wo Ewo. apply slice_inv in Ewo. destruct Ewo as (_ & _ & _ & Ewo).
    ib H o Eo. apply get_O in Eo. destruct Eo as [Ho Eo]. injection H as <-. ss. split; [|lia].
    assert (Hnc : update_cft i_span = category r1).
    { rewrite Q3. unfold update_cft. destruct (i_span <? 18) eqn:X1; [lia|]. destruct (i_span <? 24) eqn:X2; [lia|].
      destruct (oldlen <? 18) eqn:X3; [lia|]. destruct (oldlen <? 24) eqn:X4; lia. }
    constructor; ss; auto; try congruence.
    + intros _ _. split; [|lia]. eexists _, _. split; [reflexivity|]. split; [reflexivity|].
      cbn [category r_win r_model]. split; [assumption|]. assumption.
    + intros _ _. apply Forall_app. split.
      * destruct (s_win s) as [|p t]; [constructor|]. inversion HW; assumption.
      * constructor; [|constructor]. cbn [fst snd]. rewrite Hnc, Eo.
        eapply predicted_at with (i := s_i s) (start := s_start s) (n := oldlen); try eassumption; try lia.
        -- rewrite <- Q4. eassumption.
        -- right. rewrite Ewo. reflexivity.
Qed.

Lemma mon_decide_inv2 : forall s s', Mid K P x cm0 s -> Inv2 s -> Z.min 24 (s_i s - s_start s + 1) <= s_oldlen s ->
  mon_decide K P s = Ok s' -> Inv2 s'.
Proof.
  intros s s' [HC Htr HM Hend Hwl Hwin Hi Hcnt] [HB HR HF HW HG HG14 HU] Hmin H.
  destruct HC as [Hsub Hstart Hdense Hchain Hclosed Hfrom Hlast Hlog Hconf].
  destruct HM as [Hsp Ht Hrec Hold].
  destruct Hrec as (r & m & Hr & Hm & Hts & Htb & Hpr & Hdv & Hno0 & Hrw & Hcat).
  destruct (HF Htr Hcnt) as [(r' & m' & Hr' & Hm' & Hmod & Hfit) _].
  specialize (HW Htr Hcnt). rewrite Hr in Hr'. injection Hr' as <-. rewrite Hm in Hm'. injection Hm' as <-.
  unfold s_end in Hi.
  assert (Hasc : asc (s_live s)) by (eapply asc_sub; eassumption).
  unfold mon_decide in H. ib H oi Eoi. apply get_O in Eoi. destruct Eoi as [Hoi Eoi].
  ib H q Ecm. destruct q as [cm' log'].
  apply cm_update_log in Ecm.
  assert (HB' : Books (s_live s) log' /\ (p_cm P <> None -> exists c, In (EvCM (o_date oi) (map snd (s_win s)) c) log')).
  { destruct Ecm as [[Hn ->]|[v ->]].
    - split; [assumption|]. contradiction.
    - split; [apply books_cm; assumption|]. intros _. eexists. left. reflexivity. }
  destruct HB' as [HB' Hmeas].
  set (v := confirmed K P (map snd (s_win s))) in *.
  destruct (@books_test (s_live s) log' (EvMon (o_date oi) (s_win s) v) (o_date oi) (s_win s) v HB' (or_intror eq_refl) HW) as [T1 T2].
  { intros Hc. right. left. apply Hmeas. assumption. }
  { assumption. }
  assert (Hhd : exists e t, s_win s = (nthO (s_live s) (s_i s), e) :: t).
  { destruct (s_win s) as [|[o e] t] eqn:Ew; [unfold zlen in Hwl; simpl in Hwl; lia|].
    exists e, t. f_equal. f_equal.
    assert (Hn : nth 0 (map fst ((o, e) :: t)) dflt_obs = nthO (s_live s) (s_i s)).
    { rewrite Hwin. rewrite nth_firstn by lia. rewrite nth_skipn. unfold nthO. f_equal. lia. }
    exact Hn. }
  rewrite Hr in H. destruct v eqn:Ev.
  - ib H rs Ers. unfold push_rec in Ers. destruct (40 <=? _); [discriminate|]. injection Ers as <-.
    injection H as <-. constructor; ss; try congruence; try (intros; discriminate).
    + apply T1. left. reflexivity.
    + apply Forall_app. split; [assumption|]. constructor; [|constructor]. unfold fitted. cbn [category r_win r_model].
      rewrite Hcat, terms_update, <- Hcat, Hmod. assumption.
    + intros Hn. destruct (s_recs s); discriminate.
    + apply Forall_app. split; [assumption|]. constructor; [|constructor]. cbn [category]. rewrite Hcat.
      intros X. exfalso. revert X. apply update_14.
    + apply used_push; [assumption| |].
      * cbn [t_break]. eapply lastB_mono; [exact Hlast|]. rewrite Eoi. apply dat_le; [assumption|lia|lia].
      * cbn [r_win t_break]. rewrite Hrw. apply Forall_forall. intros o Ho.
        apply in_window in Ho; [|assumption|lia|lia|lia]. destruct Ho as [Ho1 Ho2]. split; [assumption|].
        rewrite Eoi. fold (dat (s_live s) (s_i s)).
        pose proof (@dat_le (s_live s) (s_start s - 1 + s_oldlen s) (s_i s) Hasc). lia.
  - destruct (outlier0 K P (map snd (s_win s))) eqn:Eo; unfold drop_obs in H; injection H as <-.
    + destruct Hhd as (e & t & Hhd). constructor; ss; auto; try (intros; congruence).
      * eapply T2; try reflexivity; try eassumption; try lia.
      * intros _ _. split; [|lia]. exists r, m. auto.
      * eapply used_drop; [exact HU|exact Hlast|]. intros o Ho Hlt.
        assert (Hk : 0 <= s_i s < zlen (s_live s)) by lia. apply (del_in o Hasc Hk) in Ho. destruct Ho as [Ho|Ho]; [assumption|].
        exfalso. subst o. fold (dat (s_live s) (s_i s)) in Hlt.
        pose proof (@dat_le (s_live s) (s_start s - 1) (s_i s) Hasc). lia.
    + constructor; ss; auto; try (intros; congruence).
      intros _ _. split; [|lia]. exists r, m. auto.
Qed.

Lemma step_inv2 : forall s s', Inv s -> Inv2 s -> s_i s <= s_end s - p_conse P -> step K P s = Ok s' -> Inv2 s'.
Proof.
  intros s s' (HC & HT & _) HI Hi H. unfold step in H. pose proof HC as HC'.
  destruct HC' as [Hsub Hstart _ _ _ _ _ _ _].
  ib H xe Exe. apply get_O in Exe. destruct Exe as [_ ->]. ib H xs Exs. apply get_O in Exs. destruct Exs as [_ ->].
  fold (dat (s_live s) (s_i s - 1)) in H. fold (dat (s_live s) (s_start s - 1)) in H.
  destruct ((12 <=? s_i s - s_start s + 1) && _) eqn:E.
  - destruct (s_train s) eqn:Etr.
    + unfold monitor in H. ib H s1 E1.
      pose proof (@mon_fit_wp M D K P x cm0 Hconse s HC Etr Hi) as W. rewrite E1 in W.
      destruct W as [W _]; [lia|lia|right; auto|].
      apply mon_fit_inv2 in E1; auto; try lia. destruct E1 as [E1 E1'].
      eapply mon_decide_inv2; eassumption.
    + ib H q E1. destruct q as [s1 b].
      pose proof (@initialise_wp M D K P x cm0 Hconse Hx s HC Etr Hi) as W. rewrite E1 in W. simpl in W.
      assert (HI1 : Inv2 s1).
      { eapply initialise_inv2; try eassumption; try lia.
        - intros ->. clear -E1 Etr. unfold initialise in E1. revert E1. intros H.
          ib H w Ew. destruct (p_gap P <? _); [injection H as <-; assumption|].
          ib H wd Ewd. ib H f Ef. destruct (_ <? 12); [injection H as <-; assumption|].
          ib H ce Ece. ib H cs Ecs. destruct (_ <? 366); [injection H as <-; assumption|].
          ib H wf Ewf. ib H m Em. destruct (fgt _ _); [injection H as <-; assumption|].
          ib H b Eb. ib H q Eqq. destruct q as [s2 lw].
          destruct (s_recs s2); [|discriminate]. destruct (6 <=? _); [|discriminate].
          ib H w2 E2. ib H m2 E3. ib H oe E4. ib H ob E5. ib H os E6. ib H rs E7. discriminate.
        - intros ->. destruct W; [lia|lia|assumption]. }
      destruct b.
      * destruct W as [Rc Rt Rn Rs Rd Ri Rm]; [lia|lia|].
        unfold monitor in H. ib H s2 E2.
        pose proof (@mon_fit_wp M D K P x cm0 Hconse s1 Rc Rt Ri) as W. rewrite E2 in W.
        destruct W as [W _]; [lia|lia|left; assumption|].
        apply mon_fit_inv2 in E2; auto. destruct E2 as [E2 E2'].
        eapply mon_decide_inv2; eassumption.
      * injection H as <-. assumption.
  - injection H as <-. destruct (s_train s) eqn:Etr.
    { destruct (HT eq_refl) as [[Msp Mt _ _] _ _ _ _]. lia. }
    destruct HI as [HB HR HF HW HG HG14 HU]. constructor; ss; auto; try congruence.
Qed.

Lemma loop_inv2 : forall fuel s s', Inv s -> Inv2 s -> loop K P fuel s = Ok s' -> Inv s' /\ Inv2 s'.
Proof.
  induction fuel as [|f IH]; intros s s' HI HI2 H; cbn [loop] in H; destruct (s_i s <=? s_end s - p_conse P) eqn:E;
    try discriminate; try (injection H as <-; auto).
  ib H s1 E1. pose proof (@step_wp M D K P x cm0 Hconse Hx s HI) as W. rewrite E1 in W. destruct W as (A & _ & _); [lia|].
  eapply IH; [exact A| |exact H]. apply (@step_inv2 s s1); auto; lia.
Qed.

Lemma Inv2_init : Inv2 (init_st M D x cm0).
Proof.
  constructor; unfold init_st; ss; try (intros; discriminate); try (intros; apply no_gap_one; lia); try (apply used_nil); try (constructor; fail).
  constructor.
  - intros o Ho. left. assumption.
  - intros o (d & e & t & z & [Hin|Hin] & _); contradiction.
  - constructor.
  - intros _. split; intros d w v Hin; contradiction.
Qed.

(** ** The result *)
Lemma result_inv2 : forall fuel R, stand_procedure K P fuel x cm0 = Ok R ->
  Books (res_live R) (res_log R) /\ Forall (fitted K) (res_recs R) /\
  Forall (fun r => category r = 14 -> no_gap P x (t_start r) (t_break r)) (res_recs R) /\
  Forall (fun r => Forall (fun o => In o (res_live R)) (r_win r)) (res_recs R).
Proof.
  intros fuel R H. unfold stand_procedure in H. ib H s E. ib H rs Ers. injection H as <-.
  cbn [res_live res_log res_recs].
  destruct (@loop_inv2 fuel _ _ (@Inv_init M D K P x cm0) Inv2_init E) as [(HC & HT & _) [HB HR HF HW HG HG14 HU]].
  split; [assumption|].
  assert (HL : Forall (fun r => Forall (fun o => In o (s_live s)) (r_win r)) (s_recs s)).
  { specialize (HU _ (c_last HC)). eapply Forall_impl; [|exact HU]. intros r Hr. eapply Forall_impl; [|exact Hr]. intros o Ho. apply Ho. }
  destruct (s_train s) eqn:Etr.
  - destruct (HT eq_refl) as [[_ _ Hrec Hold] _ _ _ Hcnt].
    destruct Hrec as (r & m & Hr & Hm & _ & _ & _ & _ & _ & Hrw & Hcat).
    destruct (HF eq_refl Hcnt) as [(r' & m' & Hr' & Hm' & Hmod & Hfit) _].
    rewrite Hr in Hr'. injection Hr' as <-. rewrite Hm in Hm'. injection Hm' as <-.
    unfold finish_trained in Ers. rewrite Hr in Ers. ib Ers oe Eoe.
    assert (Hnew : forall r', category r' = category r -> r_model r' = r_model r -> r_win r' = r_win r ->
       fitted K r' /\ (category r' = 14 -> no_gap P x (t_start r') (t_break r')) /\ Forall (fun o => In o (s_live s)) (r_win r')).
    { intros r' R1 R2 R3. unfold fitted. rewrite R1, R2, R3. split; [rewrite Hcat, terms_update, <- Hcat, Hmod; assumption|].
      split; [rewrite Hcat; intros X; exfalso; revert X; apply update_14|].
      apply Forall_forall. intros o Ho. rewrite Hrw in Ho. eapply subseq_In; [|exact Ho].
      eapply subseq_trans; [apply subseq_firstn|apply subseq_skipn]. }
    assert (Hrs : exists r', rs = s_recs s ++ [r'] /\ category r' = category r /\ r_model r' = r_model r /\ r_win r' = r_win r).
    { destruct (_ <? p_conse P); [ib Ers ob Eob|]; injection Ers as <-; eexists; split; try reflexivity; auto. }
    destruct Hrs as (r' & -> & R1 & R2 & R3). destruct (Hnew r' R1 R2 R3) as (N1 & N2 & N3).
    split; [|split]; (apply Forall_app; split; [assumption|constructor; [assumption|constructor]]).
  - unfold finish_untrained in Ers. ib Ers live El.
    assert (Hlive : subseq live (s_live s)).
    { match type of El with (if ?b then _ else _) = _ => destruct b end; [|injection El as <-; apply subseq_refl].
      ib El w Ew. apply slice_inv in Ew. destruct Ew as (_ & _ & _ & Ew). ib El f Ef. injection El as <-.
      set (k := Z.to_nat (_ - 1)) in *. rewrite <- (firstn_skipn k (s_live s)) at 2. apply subseq_app; [apply subseq_refl|].
      eapply subseq_trans; [apply keep_sub|]. rewrite Ew. apply subseq_firstn. }
    match type of Ers with (if ?b then _ else _) = _ => destruct b end; [|injection Ers as <-; auto].
    ib Ers w Ew. apply slice_inv in Ew. destruct Ew as (_ & _ & _ & Ew).
    ib Ers m Em. destruct (k_fit K 4 w) as [m'|] eqn:Em'; [|discriminate]. simpl in Em. injection Em as <-.
    ib Ers ts Ets. ib Ers oe Eoe. injection Ers as <-.
    split; [|split]; (apply Forall_app; split; [assumption|]); (constructor; [|constructor]).
    + exact Em'.
    + cbn [category]. discriminate.
    + cbn [r_win]. apply Forall_forall. intros o Ho. rewrite Ew in Ho. eapply subseq_In; [|exact Ho].
      eapply subseq_trans; [apply subseq_firstn|]. eapply subseq_trans; [apply subseq_skipn|exact Hlive].
Qed.
End Inv2.

Section Props2.
Variables M D : Type.
Variable K : kernel M D.
Variable P : params.
Variable x : list obs.
Variable cm : list (Z * Z).
Hypothesis Hconse : 1 <= p_conse P.
Hypothesis Hx : asc x.
Variables (fuel : nat) (R : result M D).
Hypothesis HR : stand_procedure K P fuel x cm = Ok R.

(** ** C85 *)
(** An observation is only lost to auto_mask or by failing the T_MAX_CG test. *)
Theorem C85_why_removed : forall o, In o x -> In o (res_live R) \/ flagged K x o \/ noise K P (res_log R) o.
Proof. destruct (@result_inv2 M D K P x cm Hconse Hx fuel R HR) as ([H1 H2 H3 H4] & _). exact H1. Qed.

(** An observation failing the T_MAX_CG test is lost, and in no record's fit. *)
Theorem C85_noise_removed : forall o, noise K P (res_log R) o ->
  ~ In o (res_live R) /\ Forall (fun r => ~ In o (r_win r)) (res_recs R).
Proof.
  destruct (@result_inv2 M D K P x cm Hconse Hx fuel R HR) as ([H1 H2 H3 H4] & _ & _ & H5). intros o Ho. split; [auto|].
  eapply Forall_impl; [|exact H5]. intros r Hr Hin. rewrite Forall_forall in Hr. apply (H2 o Ho). auto.
Qed.

(** ** C86 *)
Theorem C86_initial_segment_gap : forall r, In r (res_recs R) -> category r = 14 ->
  forall pre a b post, x = pre ++ a :: b :: post -> t_start r <= o_date a -> o_date b <= t_break r ->
  o_date b - o_date a <= p_gap P.
Proof.
  destruct (@result_inv2 M D K P x cm Hconse Hx fuel R HR) as (_ & _ & H & _). rewrite Forall_forall in H. intros r Hr Hc. exact (H r Hr Hc).
Qed.

(** ** C87 *)
Theorem C87_no_look_ahead : forall d w v o e, In (EvMon d w v) (res_log R) -> In (o, e) w -> predicted K x o e.
Proof.
  destruct (@result_inv2 M D K P x cm Hconse Hx fuel R HR) as ([H1 H2 H3 H4] & _). rewrite Forall_forall in H3.
  intros d w v o e Hin Hw. specialize (H3 _ Hin). simpl in H3. rewrite Forall_forall in H3. exact (H3 _ Hw).
Qed.

Theorem C87_look_back : forall d w v, In (EvLook d w v) (res_log R) -> hindcast K x w.
Proof.
  destruct (@result_inv2 M D K P x cm Hconse Hx fuel R HR) as ([H1 H2 H3 H4] & _). rewrite Forall_forall in H3.
  intros d w v Hin. exact (H3 _ Hin).
Qed.

(** ** C88 *)
Theorem C88_record_is_fit : forall r, In r (res_recs R) ->
  k_fit K (if (category r =? 14) || (category r =? 24) then 4 else category r) (r_win r) = Some (r_model r).
Proof. destruct (@result_inv2 M D K P x cm Hconse Hx fuel R HR) as (_ & H & _). rewrite Forall_forall in H. exact H. Qed.

(** ** C12: nothing tested is left out of the change magnitudes. *)
Theorem C12_every_window : p_cm P <> None ->
  (forall d w v, In (EvMon d w v) (res_log R) -> exists c, In (EvCM d (map snd w) c) (res_log R)) /\
  (forall d w v, In (EvLook d w v) (res_log R) -> zlen w = p_conse P -> exists d' c, In (EvCM d' (map snd w) c) (res_log R)).
Proof. destruct (@result_inv2 M D K P x cm Hconse Hx fuel R HR) as ([H1 H2 H3 H4] & _). exact H4. Qed.
End Props2.

(* ------------------------------------------------------------------ *)
(** * Examples *)

(** [toy] with an auto_mask flagging the value 55. *)
Definition masking : kernel Z Z :=
  mkKernel (fun w => Some (fun n => match nth_error w n with Some o => val o =? 55 | None => false end))
           (k_fit toy) (k_stab toy) (k_dev toy) (k_devr toy) (k_norm toy) (k_angle toy) (k_cm toy).

(** A masked value while initialising and a spike while monitoring. *)
Definition spike : list obs :=
  lvl 10 0 730000 16 ++ [mkObs 730160 [55]] ++ lvl 20 0 730176 16 ++ [mkObs 730496 [100]] ++ lvl 10 0 730512 16.

Definition nonzero (l : list obs) : list obs := filter (fun o => negb (val o =? 0)) l.

Example spike_removed : asc spike /\ nonzero spike = [mkObs 730160 [55]; mkObs 730496 [100]] /\
  (match stand_procedure masking (toyP None) 60 spike [] with
   | Ok R => Some (nonzero (res_live R), length (res_recs R), length (res_live R)) | _ => None end) = Some ([], 1%nat, 40%nat).
Proof. split; [apply ascb_ok; vm_compute; reflexivity|]. split; vm_compute; reflexivity. Qed.

(** The initial segment of [head_level] starts after a gap put in front. *)
Definition gap_head : list obs := lvl 3 (-20) 729000 16 ++ head_level.

Example gap_initial : asc gap_head /\
  (match stand_procedure toy (toyP None) 60 gap_head [] with
   | Ok R => Some (map (fun r => (t_start r, t_break r, category r)) (res_recs R)) | _ => None end) =
  Some [(730000, 730160, 14); (730160, 0, 8)].
Proof. split; [apply ascb_ok; vm_compute; reflexivity|]. vm_compute. reflexivity. Qed.

(** Number of monitoring windows, look-back windows and change magnitudes. *)
Definition counts (log : list (event Z)) : nat * nat * nat :=
  fold_left (fun '(a, b, c) ev => match ev with EvMon _ _ _ => (S a, b, c) | EvLook _ _ _ => (a, S b, c) | EvCM _ _ _ => (a, b, S c) end)
    log (0, 0, 0)%nat.

Example windows_measured :
  (match stand_procedure toy (toyP (Some (mkCm 730000 60))) 60 two_levels (repeat (-9999, -9999) 20) with
   | Ok R => Some (counts (res_log R)) | _ => None end) = Some (8, 0, 8)%nat.
Proof. vm_compute. reflexivity. Qed.

Print Assumptions C85_why_removed.
Print Assumptions C85_noise_removed.
Print Assumptions C86_initial_segment_gap.
Print Assumptions C87_no_look_ahead.
Print Assumptions C87_look_back.
Print Assumptions C88_record_is_fit.
Print Assumptions C12_every_window.
