(** One call of [sccd_standard] as a whole. *)
From Verif Require Import Base SortModel LibModel ColdModel ColdLemmas FrontModel SccdModel SccdProof.

Section Top.
Variables N S F C : Type.
Variable K : skernel N S F C.
Variable P : sparams.
Notation seg := (seg C).
Notation cst := (cst N S C).
Notation io := (io S C).
Hypothesis Hconse : 1 <= sp_conse P.

(** Observations and state handed to the standard procedure. *)
Record start_ok (base : Z) (x : list obs) (a : io) : Prop := mkSO {
  so_mode : io_mode a = 0 \/ io_mode a = 1 \/ io_mode a = 2 \/ io_mode a = 5 \/ io_mode a = 11 \/ io_mode a = 12;
  so_asc : asc x;
  so_ne : x <> [];
  so_base : Forall (fun o => base <= o_date o) x;
  so_chain : seg_chain (io_recs a);
  so_long : seg_long (io_recs a);
  so_rbase : Forall (fun r => base <= g_start r) (io_recs a);
  so_mon : Z.rem (io_mode a) 10 = 1 ->
     base <= nm_start (io_model a) + launch /\ lastS (io_recs a) (nm_start (io_model a) + launch) /\
     1 <= nm_nobs (io_model a) <= dat x 0 - (nm_start (io_model a) + launch) /\
     nm_start (io_model a) + launch + 366 < dat x 0;
  so_prev : lastS (io_recs a) (dat x 0);
  so_five : io_mode a = 5 -> io_recs a <> []
}.

(** Conditions under which no undefined behaviour occurs. *)
Definition std_safe (base : Z) (x : list obs) (a : io) : Prop :=
  (forall o, In o x -> o_date o < base + 14681) /\
  Forall vals16 x /\
  (forall m d l, k_a16 K (k_angle2 K m d l) <> None) /\
  (sp_conse P <= 6 \/ io_recs a <> [] \/ Z.rem (io_mode a) 10 = 1) /\
  (sp_pin P = false \/
   (7 <= sp_conse P /\ (forall o, In o x -> y1982 <= o_date o) /\
    (forall o, In o x -> zlen (io_pins a) + n_buckets (o_date o) <= 40))) /\
  (Z.rem (io_mode a) 10 = 1 \/ Z.rem (io_mode a) 10 = 5 -> sp_conse P <= zlen x) /\
  (io_mode a = 5 -> nm_obs (io_model a) <> []).

(** Effect on the mode: monitoring (1, 11) is left only through a break. *)
Definition mode_step (a b : io) : Prop :=
  (io_mode a = 0 /\ (io_mode b = 1 \/ io_mode b = 12)) \/
  (io_mode a = 1 /\ (io_mode b = 1 \/ (io_mode b = 5 /\ io_recs b <> io_recs a))) \/
  (io_mode a = 11 /\ (io_mode b = 11 \/ io_mode b = 1 \/ (io_mode b = 12 /\ io_recs b <> io_recs a))) \/
  (io_mode a = 12 /\ (io_mode b = 1 \/ io_mode b = 12)) \/
  (io_mode a = 2 /\ (io_mode b = 1 \/ io_mode b = 2 \/ (io_mode b = 5 /\ io_recs b <> io_recs a))) \/
  (io_mode a = 5 /\ ((io_mode b = 5 /\ io_recs b <> []) \/ io_mode b = 12)).

(** The model saved when monitoring. *)
Definition model_ok (base : Z) (x : list obs) (b : io) : Prop :=
  exists ts nobs,
    nm_start (io_model b) = wrap16 (ts - launch) /\ base <= ts /\ lastS (io_recs b) ts /\
    nm_nobs (io_model b) = wrap16 nobs /\ 1 <= nobs /\
    sp_conse P <= zlen x /\
    nm_obs (io_model b) = slot_view x (zlen x - sp_conse P) (sp_conse P) /\
    ts + 366 < dat x (zlen x - sp_conse P) /\ nobs <= dat x (zlen x - sp_conse P) - ts.

(** The queue saved otherwise. *)
Definition queue_ok (x : list obs) (b : io) : Prop :=
  exists q, io_queue b = map stv q /\ subseq q x /\ q <> [] /\ zlen q <= max_queue /\
    lastS (io_recs b) (dat q 0) /\
    (zlen q < max_queue -> forall k, 0 <= k < Z.min (sp_conse P) (zlen x) ->
       k < zlen q /\ nthO q (zlen q - 1 - k) = nthO x (zlen x - 1 - k)).

(** The anomaly fields of a model: [norm k] is the magnitude of the newest
    observation but [k]. *)
Definition run_ok (norm : Z -> fl) (nm : nmodel S) : Prop :=
  0 <= nm_last nm <= sp_conse P /\
  (forall k, 0 <= k < nm_last nm -> fle (norm k) (Fin (sp_gate P)) = false) /\
  (nm_last nm < sp_conse P -> fle (norm (nm_last nm)) (Fin (sp_gate P)) = true) /\
  (nm_last nm = 0 -> nm_cm nm = -9999 /\ nm_angle nm = -9999) /\
  (0 < nm_last nm -> exists v, nm_cm nm = k_m16 K v /\
     (v = Fin (sp_cap2 P) \/ exists k, 0 <= k < nm_last nm /\ v = norm k) /\
     (forall k, 0 <= k < nm_last nm -> flt (norm k) v = false)).

Lemma run_ok_ext : forall f g nm, run_ok f nm -> (forall k, 0 <= k < sp_conse P -> f k = g k) -> run_ok g nm.
Proof.
  intros f g nm (R1 & R2 & R3 & R4 & R5) H. split; [assumption|]. split; [|split; [|split; [assumption|]]].
  - intros k Hk. rewrite <- H by lia. auto.
  - intros Hl. rewrite <- H by lia. auto.
  - intros Hl. destruct (R5 Hl) as (v & V1 & V2 & V3). exists v. split; [assumption|]. split.
    + destruct V2 as [V2|(k & Hk & V2)]; [auto|right]. exists k. rewrite <- H by lia. auto.
    + intros k Hk. rewrite <- H by lia. auto.
Qed.

Lemma run_len_spec : forall l k, exists j, run_len P l k = k + Z.of_nat j /\ (j <= length l)%nat /\
  (forall c, (c < j)%nat -> fle (nth c l NaN) (Fin (sp_gate P)) = false) /\
  ((j < length l)%nat -> fle (nth j l NaN) (Fin (sp_gate P)) = true).
Proof.
  induction l as [|v l IH]; intros k; cbn [run_len].
  - exists 0%nat. simpl. repeat split; intros; lia.
  - destruct (fle v (Fin (sp_gate P))) eqn:E.
    + exists 0%nat. simpl. repeat split; intros; try lia. exact E.
    + destruct (IH (k + 1)) as (j & J1 & J2 & J3 & J4). exists (Datatypes.S j). simpl length. repeat split; try lia.
      * intros [|c] Hc; [exact E|]. apply J3. lia.
      * intros Hj. apply J4. lia.
Qed.

Lemma fmin_spec : forall cap l, (fmin cap l = Fin cap \/ In (fmin cap l) l) /\ forall w, In w l -> flt w (fmin cap l) = false.
Proof.
  intros cap l. unfold fmin. set (g := fun m v : fl => if flt v m then v else m).
  assert (H : forall l m, (fold_left g l m = m \/ In (fold_left g l m) l) /\
     (forall u, flt u m = false -> flt u (fold_left g l m) = false) /\
     (forall w, In w l -> flt w (fold_left g l m) = false)).
  { clear l. induction l as [|v l IH]; intros m; simpl; [split; [auto|split; [auto|intros w []]]|].
    change (g m v) with (if flt v m then v else m). destruct (flt v m) eqn:E.
    - destruct (IH v) as (I1 & I2 & I3). split; [destruct I1 as [-> |I1]; auto|]. split.
      + intros u Hu. apply I2. destruct u, v, m; simpl in *; try discriminate; try reflexivity; lia.
      + intros w [<-|Hw]; [|auto]. apply I2. destruct v; simpl; [reflexivity|lia].
    - destruct (IH m) as (I1 & I2 & I3). split; [destruct I1; auto|]. split; [assumption|].
      intros w [<-|Hw]; auto. }
  destruct (H l (Fin cap)) as (H1 & _ & H3). auto.
Qed.

Record StdPost (base : Z) (x : list obs) (a b : io) : Prop := mkStd {
  st_recs : exists t, io_recs b = io_recs a ++ t;
  st_chain : seg_chain (io_recs b);
  st_long : seg_long (io_recs b);
  st_rbase : Forall (fun r => base <= g_start r) (io_recs b);
  st_mode : mode_step a b;
  st_model : Z.rem (io_mode b) 10 = 1 -> model_ok base x b /\ io_queue b = io_queue a;
  st_queue : Z.rem (io_mode b) 10 <> 1 -> queue_ok x b;
  st_same : Z.rem (io_mode b) 10 <> 1 -> io_recs b = io_recs a -> io_mode a <> 0 -> io_model b = io_model a;
  st_slots : length (nm_obs (io_model a)) = 8%nat -> length (nm_obs (io_model b)) = 8%nat;
  st_rmse : io_rmse b = io_rmse a;
  st_run : Z.rem (io_mode b) 10 = 1 -> exists m nobs, nm_st (io_model b) = k_store K m /\ 1 <= nobs /\
     nm_nobs (io_model b) = wrap16 nobs /\
     run_ok (fun k => k_norm2 K m (nobs - scft nobs) (nthO x (zlen x - 1 - k))) (io_model b)
}.

Lemma bucket_range : forall d l, y1982 <= d <= l -> 0 <= bucket d < n_buckets l.
Proof.
  intros d l H. unfold bucket, n_buckets.
  rewrite !Z.quot_div_nonneg by lia. split; [apply Z.div_pos; lia|].
  replace (4 * (l - y1982) + 1461) with (4 * (l - y1982) + 1 * 1461) by lia.
  rewrite Z.div_add by lia.
  assert ((4 * (d - y1982)) / 1461 <= (4 * (l - y1982)) / 1461) by (apply Z.div_le_mono; lia). lia.
Qed.

Lemma slice_len : forall A (l : list A) a n, 0 <= a -> 0 <= n -> a + n <= zlen l ->
  zlen (firstn (Z.to_nat n) (skipn (Z.to_nat a) l)) = n.
Proof. intros. unfold zlen in *. rewrite firstn_length, skipn_length. lia. Qed.

Lemma subseq_slice : forall A (l : list A) a n, subseq (firstn n (skipn a l)) l.
Proof.
  intros. eapply subseq_trans; [apply subseq_firstn|apply subseq_skipn].
Qed.

Lemma save_queue_wp : forall (safe : Prop) (s : cst) prev x, 0 <= prev < n_clr s -> (safe -> Forall vals16 (c_x s)) ->
  asc (c_x s) -> subseq (c_x s) x ->
  wp safe (save_queue s prev) (fun qu => exists q, qu = map stv q /\ subseq q (c_x s) /\ q <> [] /\
    zlen q <= max_queue /\ dat (c_x s) prev <= dat q 0 /\
    (zlen q < max_queue -> zlen q = n_clr s - prev /\
      forall k, 0 <= k < zlen q -> nthO q (zlen q - 1 - k) = nthO (c_x s) (n_clr s - 1 - k))).
Proof.
  intros safe s prev x Hp Hv Ha Hsub. unfold save_queue, n_clr in *.
  destruct (max_queue <? zlen (c_x s) - prev) eqn:E.
  - apply wp_bind. unfold max_queue in *. apply wp_slice; try lia.
    set (w := firstn _ _).
    assert (Hw : zlen w = 240) by (apply slice_len; lia).
    assert (Hws : subseq w (c_x s)) by apply subseq_slice.
    destruct (mapO_st w) as [[E1 _]|[E1 Hn]]; rewrite E1; simpl.
    + exists w. split; [reflexivity|]. split; [assumption|].
      split; [intros E2; rewrite E2 in Hw; discriminate|]. split; [lia|].
      split; [|lia].
      unfold w. unfold dat. rewrite nthO_firstn by lia. rewrite nthO_skipn by lia.
      change (dat (c_x s) prev <= dat (c_x s) (zlen (c_x s) - 1 - 240 + 0)). apply dat_le; auto; lia.
    + intros Hs. apply Hn. specialize (Hv Hs). rewrite Forall_forall in *. intros o Ho. apply Hv.
      eapply subseq_In; eassumption.
  - apply wp_bind. unfold max_queue in *. replace (Z.max 0 (zlen (c_x s) - prev)) with (zlen (c_x s) - prev) by lia.
    apply wp_slice; try lia.
    set (w := firstn _ _).
    assert (Hw : zlen w = zlen (c_x s) - prev) by (apply slice_len; lia).
    assert (Hws : subseq w (c_x s)) by apply subseq_slice.
    destruct (mapO_st w) as [[E1 _]|[E1 Hn]]; rewrite E1; simpl.
    + exists w. split; [reflexivity|]. split; [assumption|].
      split; [intros E2; rewrite E2 in Hw; change (zlen []) with 0 in Hw; lia|]. split; [lia|].
      split.
      * unfold w, dat. rewrite nthO_firstn by lia. rewrite nthO_skipn by lia.
        replace (prev + 0) with prev by lia. lia.
      * intros _. split; [assumption|]. intros k Hk. rewrite Hw. unfold w.
        rewrite nthO_firstn by lia. rewrite nthO_skipn by lia. f_equal. lia.
    + intros Hs. apply Hn. specialize (Hv Hs). rewrite Forall_forall in *. intros o Ho. apply Hv.
      eapply subseq_In; eassumption.
Qed.

Lemma slot_view_ext : forall x i n x' i' , (forall k, 0 <= k < Z.min n 8 -> nthO x (i + k) = nthO x' (i' + k)) ->
  slot_view x i n = slot_view x' i' n.
Proof.
  intros x i n x' i' H. unfold slot_view. apply map_ext_in. intros k Hk. apply in_seq in Hk.
  destruct (Z.of_nat k <? n) eqn:E; [|reflexivity]. f_equal. apply H. lia.
Qed.

Lemma save_model_wp : forall (safe : Prop) (s : cst) mode m ts, c_m s = Some m -> c_ts s = Some ts -> 0 <= c_i s -> 1 <= c_nobs s ->
  (safe -> c_i s + sp_conse P <= n_clr s) -> (safe -> Forall vals16 (c_x s)) ->
  (safe -> forall m d l, k_a16 K (k_angle2 K m d l) <> None) ->
  wp safe (save_model K P s mode) (fun p =>
    sp_conse P <= n_clr s /\
    (fst p = mode \/ (Z.quot mode 10 = 1 /\ fst p = mode - 10)) /\ 
    nm_start (snd p) = wrap16 (ts - launch) /\ nm_nobs (snd p) = wrap16 (c_nobs s) /\
    nm_obs (snd p) = slot_view (c_x s) (c_i s) (sp_conse P) /\
    nm_st (snd p) = k_store K m /\
    run_ok (fun k => k_norm2 K m (c_nobs s - scft (c_nobs s)) (nthO (c_x s) (n_clr s - 1 - k))) (snd p)).
Proof.
  intros safe s mode m ts Em Ets Hi Hno Hroom Hv Ha. unfold save_model. rewrite Em, Ets.
  replace (0 <? c_nobs s) with true by lia.
  apply wp_bind. eapply wp_mono.
  { apply save8_wp; [assumption| |assumption]. intros Hs. specialize (Hroom Hs). unfold n_clr in Hroom. lia. }
  intros w ->.
  apply wp_bind. apply wp_mapM_idx'.
  { intros Hs c Hc. specialize (Hroom Hs). unfold n_clr in *. lia. }
  intros Hr. set (os := map (fun c : nat => nthO _ _) _). set (norms := map (k_norm2 K m _) os).
  assert (Hn : sp_conse P <= n_clr s).
  { specialize (Hr (Z.to_nat (sp_conse P) - 1)%nat ltac:(lia)). lia. }
  match goal with |- context [if ?c then mode - 10 else mode] => set (mode' := if c then mode - 10 else mode) end.
  assert (Hm : mode' = mode \/ (Z.quot mode 10 = 1 /\ mode' = mode - 10)).
  { unfold mode'. destruct ((_ =? 1) && _ && _) eqn:E; [right; split; [lia|reflexivity]|left; reflexivity]. }
  assert (Hnl : length norms = Z.to_nat (sp_conse P)) by (unfold norms, os; rewrite !map_length, seq_length; reflexivity).
  set (f := fun k => k_norm2 K m (c_nobs s - scft (c_nobs s)) (nthO (c_x s) (n_clr s - 1 - k))).
  assert (Hnth : forall c, (c < length norms)%nat -> nth c norms NaN = f (Z.of_nat c)).
  { intros c Hc. rewrite Hnl in Hc.
    assert (En : norms = map (fun x : nat => f (Z.of_nat x)) (seq 0 (Z.to_nat (sp_conse P))))
      by (unfold norms, os; rewrite map_map; reflexivity).
    rewrite En. rewrite nth_indep with (d' := f (Z.of_nat 0)) by (rewrite map_length, seq_length; assumption).
    rewrite (map_nth (fun x : nat => f (Z.of_nat x))), seq_nth by assumption. reflexivity. }
  destruct (run_len_spec norms 0) as (j & J1 & J2 & J3 & J4). rewrite Z.add_0_l in J1.
  destruct (run_len P norms 0 =? 0) eqn:E0.
  - simpl. do 6 (split; [auto|]). assert (j = 0%nat) by lia. subst j. unfold run_ok. cbn [nm_last nm_cm nm_angle].
    split; [lia|]. split; [intros; lia|]. split; [intros _|split; [auto|lia]].
    specialize (J4 ltac:(lia)). rewrite Hnth in J4 by lia. exact J4.
  - apply wp_bind. unfold conv16. destruct (k_a16 K _) eqn:Ea; simpl.
    2: { intros Hs. apply (Ha Hs _ _ _ Ea). }
    do 6 (split; [auto|]). unfold run_ok. cbn [nm_last nm_cm nm_angle]. rewrite J1.
    split; [lia|]. split; [|split; [|split; [lia|]]].
    + intros k Hk. specialize (J3 (Z.to_nat k) ltac:(lia)). rewrite Hnth in J3 by lia. rewrite Z2Nat.id in J3 by lia. exact J3.
    + intros Hj. specialize (J4 ltac:(lia)). rewrite Hnth in J4 by lia. exact J4.
    + intros Hj. exists (fmin (sp_cap2 P) (firstn j norms)). rewrite Nat2Z.id. split; [reflexivity|].
      destruct (fmin_spec (sp_cap2 P) (firstn j norms)) as [F1 F2].
      assert (Hin : forall k, (k < j)%nat -> nth k (firstn j norms) NaN = f (Z.of_nat k)).
      { intros k Hk. rewrite <- Hnth by lia. rewrite <- (firstn_skipn j norms) at 2. rewrite app_nth1; [reflexivity|].
        rewrite firstn_length. lia. }
      split.
      * destruct F1 as [F1|F1]; [left; assumption|right].
        apply In_nth with (d := NaN) in F1. destruct F1 as (k & Hk & E). rewrite firstn_length in Hk.
        exists (Z.of_nat k). split; [lia|]. rewrite <- E. apply Hin. lia.
      * intros k Hk. apply F2. replace k with (Z.of_nat (Z.to_nat k)) by lia. fold (f (Z.of_nat (Z.to_nat k))).
        rewrite <- Hin by lia. apply nth_In. rewrite firstn_length. lia.
Qed.

(** What [sccd_standard] guarantees. *)
Theorem standard_spec : forall fuel x a base, start_ok base x a ->
  match standard K P fuel x a with
  | Ok b => StdPost base x a b
  | Fail => True
  | UB => ~ std_safe base x a
  | Fuel => ~ no_err K \/ Z.of_nat fuel < zlen x - sp_conse P
  end.
Proof.
  intros fuel x a base [Hmode Ha Hne Hb Hch Hlo Hrb Hmon Hprev Hfive]. unfold standard.
  assert (Hlen : 1 <= zlen x) by (destruct x; [congruence|rewrite zlen_cons; unfold zlen; lia]).
  rewrite get_ok with (d := dflt_obs) by lia. cbn [bind]. fold (nthO x (zlen x - 1)).
  rewrite get_ok with (d := dflt_obs) by lia. cbn [bind]. fold (nthO x 0).
  set (last := o_date (nthO x (zlen x - 1))).
  destruct (n_buckets last <? 0) eqn:Enb; [exact I|].
  set (train := Z.rem (io_mode a) 10 =? 1).
  set (s0 := mkC _ _ _ _ _ _ _ _ _ _ _ _ _ _).
  set (void := io_mode a =? 0).
  set (nb := n_buckets last).
  assert (HI0 : Inv x (io_recs a) base void train (io_model a) nb (zlen (io_pins a)) s0).
  { constructor; unfold s0; cbn [c_x c_i c_start c_dense c_prev c_train c_ts c_nobs c_m c_recs c_model c_chg c_pins c_cm];
      auto; try lia; try discriminate.
    - apply subseq_refl.
    - exists []. rewrite app_nil_r. reflexivity.
    - intros Et. assert (Er : Z.rem (io_mode a) 10 = 1) by (unfold train in Et; lia).
      destruct (Hmon Er) as (M1 & M2 & M3 & M4). unfold train in *. rewrite Et.
      eexists. eexists. split; [reflexivity|]. split; [reflexivity|]. repeat split; auto; lia.
    - split.
      + unfold zlen, nb. rewrite repeat_length. lia.
      + apply Forall_forall. intros v Hv. apply repeat_spec in Hv. subst. exists 0. split; [reflexivity|lia].
    - assert (used (repeat (Fin 0) (Z.to_nat (n_buckets last))) = 0); [|lia].
      unfold used. induction (Z.to_nat (n_buckets last)); simpl; auto. }
  pose proof (@cloop_spec N S F C K P x (io_recs a) base void train (io_model a) nb (zlen (io_pins a))
                ltac:(unfold zlen; lia) Hconse Ha Hb fuel s0 HI0) as HL.
  assert (Hsafe : std_safe base x a ->
     safe K P x (io_recs a) base void train nb (zlen (io_pins a))).
  { intros (S1 & S2 & S3 & S4 & S5 & _). split; [|split; [|split; [|split]]]; auto.
    - intros d Hd. apply in_map_iff in Hd. destruct Hd as (o & <- & Ho). apply S1. assumption.
    - destruct S4 as [S4|[S4|S4]]; auto. right; right. unfold train, void. split; [lia|].
      destruct (io_mode a =? 0) eqn:E0; [|reflexivity]. replace (io_mode a) with 0 in S4 by lia. discriminate S4.
    - destruct S5 as [S5|(S5 & S6 & S7)]; [left; assumption|right]. split; [assumption|]. split.
      + intros d Hd. apply in_map_iff in Hd. destruct Hd as (o & <- & Ho).
        apply bucket_range. split; [apply S6; assumption|].
        apply In_nth with (d := dflt_obs) in Ho. destruct Ho as (n & Hn & <-).
        pose proof (@dat_le x (Z.of_nat n) (zlen x - 1) Ha ltac:(unfold zlen; lia) ltac:(lia)) as Hd.
        unfold dat, nthO in Hd. rewrite Nat2Z.id in Hd. exact Hd.
      + apply (S7 (nthO x (zlen x - 1))). apply In_nthO. lia. }
  fold void. destruct (cloop K P void fuel s0) as [s| | |] eqn:EL; cbn [bind]; auto.
  2: { change (n_clr s0) with (zlen x) in HL. change (c_i s0) with 0 in HL. destruct HL; [left; assumption|right; lia]. }
  clear Enb.
  destruct HL as (HI & Hend & Htail).
  change (n_clr s0) with (zlen x) in *. change (c_i s0) with 0 in *. change (c_x s0) with x in *.
  replace (zlen x - 0) with (zlen x) in * by lia.
  pose proof (Inv_asc Ha HI) as Has.
  pose proof (iv_sub HI) as Hsub. pose proof (iv_idx HI) as Hidx.
  assert (Hn1 : 1 <= n_clr s - c_i s) by lia.
  assert (Hlast : forall k, 0 <= k < n_clr s - c_i s -> nthO (c_x s) (n_clr s - 1 - k) = nthO x (zlen x - 1 - k)).
  { intros k Hk. replace (n_clr s - 1 - k) with (c_i s + (n_clr s - c_i s - 1 - k)) by lia.
    rewrite Htail by lia. f_equal. lia. }
  assert (Hv : std_safe base x a -> Forall vals16 (c_x s)).
  { intros Hs. eapply vals_sub; [exact Hsub|apply Hsafe; assumption]. }
  (* the queue *)
  assert (HQ : forall prev mode model, Z.rem mode 10 <> 1 -> 0 <= prev <= c_prev s ->
     lastS (c_recs s) (dat (c_x s) prev) ->
     (forall q, let b := mkIO mode (c_recs s) model q (io_rmse a) (c_pins s) in mode_step a b) ->
     model = c_model s ->
     (Z.rem mode 10 = 2 \/ Z.rem mode 10 = 5) ->
     wp (std_safe base x a)
       ('(mode2, model) <- (if Z.rem mode 10 =? 1 then save_model K P s mode else Ok (mode, model)) ;;
        queue <- (if (Z.rem mode2 10 =? 2) || (Z.rem mode2 10 =? 5) then save_queue s prev else Ok (io_queue a)) ;;
        Ok (mkIO mode2 (c_recs s) model queue (io_rmse a) (c_pins s)))
       (StdPost base x a)).
  { intros prev mode model Hr Hpr Hls Hms -> Hqm. replace (Z.rem mode 10 =? 1) with false by lia. cbn [bind].
    replace ((Z.rem mode 10 =? 2) || (Z.rem mode 10 =? 5)) with true by lia.
    apply wp_bind. eapply wp_mono; [apply save_queue_wp with (x := x); auto; lia|].
    intros qu (q & -> & Q1 & Q2 & Q3 & Q4 & Q5). simpl.
    constructor; cbn [io_mode io_recs io_model io_queue io_rmse io_pins]; try apply HI.
    - apply Hms.
    - intros E. contradiction.
    - intros _. exists q. split; [reflexivity|]. split; [eapply subseq_trans; eassumption|].
      split; [assumption|]. split; [assumption|].
      split; [eapply lastS_mono; eassumption|].
      intros Hq k Hk. destruct (Q5 Hq) as [Q6 Q7]. split; [lia|]. rewrite Q7 by lia. apply Hlast. lia.
    - intros _ E Hm0. apply (iv_model HI).
      + destruct (c_chg s) eqn:Ec; [|reflexivity]. destruct (iv_grow HI Ec) as [_ Hgr]. contradiction.
      + unfold void. lia.
    - reflexivity.
    - intros E. contradiction. }
  (* the model *)
  assert (HM : forall prev mode, Z.rem mode 10 = 1 -> (mode = 1 \/ mode = 11) -> c_train s = true ->
     (forall mode2 m q, (mode2 = mode \/ (mode = 11 /\ mode2 = 1)) ->
        let b := mkIO mode2 (c_recs s) m q (io_rmse a) (c_pins s) in mode_step a b) ->
     (std_safe base x a -> sp_conse P <= zlen x) ->
     wp (std_safe base x a)
       ('(mode2, model) <- (if Z.rem mode 10 =? 1 then save_model K P s mode else Ok (mode, c_model s)) ;;
        queue <- (if (Z.rem mode2 10 =? 2) || (Z.rem mode2 10 =? 5) then save_queue s prev else Ok (io_queue a)) ;;
        Ok (mkIO mode2 (c_recs s) model queue (io_rmse a) (c_pins s)))
       (StdPost base x a)).
  { intros prev mode Hr Hmv Ht Hms Hroom. replace (Z.rem mode 10 =? 1) with true by lia.
    destruct (iv_train HI Ht) as (m & ts & Em & Ets & T1 & T2 & T3 & T4).
    destruct (T4 ltac:(lia)) as [T5 T6].
    apply wp_bind. eapply wp_mono.
    { apply save_model_wp with (m := m) (ts := ts); auto; try lia.
      - intros (_ & _ & S3 & _). assumption. }
    intros [mode2 mo] (M1 & M2 & M3 & M4 & M5 & M6 & M7). cbn [fst snd] in *.
    assert (Hm2 : mode2 = mode \/ (mode = 11 /\ mode2 = 1)).
    { destruct M2 as [M2|[M2 M2']]; [left; assumption|right]. destruct Hmv as [-> | ->]; [discriminate|lia]. }
    assert (Hm2r : Z.rem mode2 10 = 1).
    { destruct Hm2 as [-> |[_ ->]]; [assumption|reflexivity]. }
    replace ((Z.rem mode2 10 =? 2) || (Z.rem mode2 10 =? 5)) with false by lia.
    assert (Hlx : sp_conse P <= zlen x).
    { pose proof (subseq_length Hsub). unfold n_clr, zlen in *. lia. }
    assert (Hd : nthO (c_x s) (c_i s) = nthO x (zlen x - sp_conse P)).
    { replace (c_i s) with (c_i s + 0) by lia. rewrite Htail by lia. f_equal. lia. }
    simpl.
    constructor; cbn [io_mode io_recs io_model io_queue io_rmse io_pins]; try apply HI.
    - apply Hms. assumption.
    - intros _. split; [|reflexivity]. exists ts, (c_nobs s).
      cbn [io_mode io_recs io_model io_queue io_rmse io_pins].
      unfold dat in *. rewrite Hd in *.
      repeat split; auto. rewrite M5. apply slot_view_ext.
      intros k Hk. rewrite Htail by lia. f_equal. lia.
    - intros E. contradiction.
    - intros E. contradiction.
    - intros _. rewrite M5. unfold slot_view. rewrite map_length, seq_length. reflexivity.
    - reflexivity.
    - intros _. exists m, (c_nobs s). split; [assumption|]. split; [assumption|]. split; [assumption|].
      eapply run_ok_ext; [exact M7|]. intros k Hk. cbv beta. rewrite Hlast by lia. reflexivity. }
  assert (Hpre : c_prev s < n_clr s) by lia.
  pose proof (iv_prev HI Hpre) as Hlp.
  assert (Hroom : c_train s = true -> train = false -> sp_conse P <= zlen x).
  { intros Ht Htr. destruct (Z_le_gt_dec (sp_conse P) (zlen x)); [assumption|].
    exfalso.
    assert (Es : s = s0).
    { destruct fuel; cbn [cloop] in EL; change (n_clr s0) with (zlen x) in EL; change (c_i s0) with 0 in EL;
        replace (0 + sp_conse P <=? zlen x - 1) with false in EL by lia; congruence. }
    rewrite Es in Ht. unfold s0 in Ht. cbn [c_train] in Ht. congruence. }
  enough (HW : wp (std_safe base x a)
    ('(mode1, prev) <- new_mode P (io_mode a) s ;;
     '(mode2, model) <- (if Z.rem mode1 10 =? 1 then save_model K P s mode1 else Ok (mode1, c_model s)) ;;
     queue <- (if (Z.rem mode2 10 =? 2) || (Z.rem mode2 10 =? 5) then save_queue s prev else Ok (io_queue a)) ;;
     Ok (mkIO mode2 (c_recs s) model queue (io_rmse a) (c_pins s))) (StdPost base x a)).
  { unfold wp in HW. destruct (bind _ _); auto. }
  unfold new_mode.
  assert (Hpp : 0 <= c_prev s <= c_prev s) by lia.
  destruct (c_chg s) eqn:Ec.
  - destruct (iv_grow HI Ec) as [Hvo Hgr]. unfold void in Hvo. rewrite Hvo. cbn [bind].
    apply HQ; auto; destruct Hmode as [E|[E|[E|[E|[E|E]]]]]; rewrite E; cbn; try lia;
      intros q; unfold mode_step; cbn [io_mode io_recs]; rewrite E; try lia; auto 10.
    + right. right. right. right. right. split; [reflexivity|left]. split; [reflexivity|].
      destruct (iv_recs HI) as [t Et]. rewrite Et. specialize (Hfive E). destruct (io_recs a); [contradiction|discriminate].
  - destruct Hmode as [E|[E|[E|[E|[E|E]]]]]; rewrite E; cbn -[save_model save_queue wp bind Z.sub get].
    + (* 0 *)
      destruct (c_train s) eqn:Et; cbn [bind].
      * apply HM; auto; [|intros _; apply Hroom; [auto|unfold train; rewrite E; reflexivity]].
        intros mode2 m q [-> |[? _]]; [|discriminate]. left. cbn [io_mode]. auto.
      * apply HQ; cbn; auto; [discriminate|]. intros q. left. cbn [io_mode]. auto.
    + (* 1 *)
      assert (Et : c_train s = true). { apply (iv_mon HI); auto; [unfold train|unfold void]; rewrite E; reflexivity. }
      apply HM; auto.
      * intros mode2 m q [-> |[? _]]; [|discriminate]. right. left. cbn [io_mode]. auto.
      * intros (_ & _ & _ & _ & _ & H6 & _). apply H6. left. rewrite E. reflexivity.
    + (* 2 *)
      destruct (c_train s) eqn:Et; cbn [bind].
      * apply HM; auto; [|intros _; apply Hroom; [auto|unfold train; rewrite E; reflexivity]].
        intros mode2 m q [-> |[? _]]; [|discriminate]. do 4 right. left. cbn [io_mode]. auto.
      * apply HQ; cbn; auto; [discriminate|]. intros q. do 4 right. left. cbn [io_mode]. auto.
    + (* 5 *)
      assert (Hsame : c_recs s = io_recs a).
      { apply (iv_same HI); auto. unfold void. rewrite E. reflexivity. }
      destruct (get_cases (c_x s) (n_clr s - sp_conse P)) as [[o Ho]|[Ho Hn]]; rewrite Ho; cbn [bind].
      2: { intros (_ & _ & _ & _ & _ & H6 & _). apply Hn. rewrite E in H6. specialize (H6 (or_intror eq_refl)).
           fold (n_clr s). lia. }
      destruct (get_cases (nm_obs (c_model s)) 0) as [[o1 Ho1]|[Ho1 Hn1']]; rewrite Ho1; cbn [bind].
      2: { intros (_ & _ & _ & _ & _ & _ & H7). specialize (H7 E).
           rewrite (iv_model HI) in Hn1' by (auto; unfold void; rewrite E; reflexivity).
           apply Hn1'. destruct (nm_obs (io_model a)); [contradiction|]. rewrite zlen_cons. unfold zlen. lia. }
      destruct (_ <? 15).
      * cbn [bind]. apply HQ; cbn; auto; try lia.
        -- rewrite Hsame. eapply lastS_mono; [exact Hprev|]. apply dat_sub_ge; auto. unfold n_clr in *. lia.
        -- intros q. do 5 right. cbn [io_mode io_recs]. split; [assumption|left]. split; [reflexivity|].
           rewrite Hsame. auto.
      * cbn [bind]. apply HQ; cbn; auto; try lia. intros q. do 5 right. cbn [io_mode]. auto.
    + (* 11 *)
      assert (Et : c_train s = true). { apply (iv_mon HI); auto; [unfold train|unfold void]; rewrite E; reflexivity. }
      apply HM; auto.
      * intros mode2 m q Hm2. do 2 right. left. cbn [io_mode]. split; [assumption|]. lia.
      * intros (_ & _ & _ & _ & _ & H6 & _). apply H6. left. rewrite E. reflexivity.
    + (* 12 *)
      destruct (c_train s) eqn:Et; cbn [bind].
      * apply HM; auto; [|intros _; apply Hroom; [auto|unfold train; rewrite E; reflexivity]].
        intros mode2 m q [-> |[? _]]; [|discriminate]. do 3 right. left. cbn [io_mode]. auto.
      * apply HQ; cbn; auto; [discriminate|]. intros q. do 3 right. left. cbn [io_mode]. auto.
Qed.

End Top.
