(** C26 for pixels that wait for enough observations to start: batches that
    only fill the queue (s_ccd.c 2504-2522, 2750-2790, 3000-3038) change
    nothing. *)
From Verif Require Import Base SortModel LibModel LibProps ColdModel ColdLemmas FrontModel FrontProps
  SccdModel SccdProof SccdTop SccdPack SccdTerm SccdApi SccdToy SccdProps SccdProps2 SccdRefuted SccdExamples SccdResume SccdProps3.

Section Start.
Variables N S F C : Type.
Notation io := (io S C).
Notation cst := (cst N S C).
Ltac ib H a E := apply bind_ok in H; destruct H as (a & E & H).
Ltac cc := cbn [c_x c_i c_start c_dense c_prev c_train c_ts c_nobs c_m c_recs c_model c_chg c_pins c_cm
                set_idx fst snd] in *.

(** ** The loop does not look at t_start before it is set, nor at the change
       flag and the old model *)
Definition hide (ts : option Z) (g : bool) (nm : nmodel S) (s : cst) : cst :=
  mkC (c_x s) (c_i s) (c_start s) (c_dense s) (c_prev s) (c_train s) ts (c_nobs s) (c_m s) (c_recs s) nm g
      (c_pins s) (c_cm s).

Record Sim (same : Prop) (s s' : cst) : Prop := mkSim {
  m_eq : s' = hide (c_ts s') (c_chg s') (c_model s') s;
  m_ts : c_train s = true -> c_ts s' = c_ts s;
  m_chg : same -> c_chg s' = c_chg s }.

Section K.
Variable K : skernel N S F C.
Variable P : sparams.

Lemma step1_hide : forall ts g nm s t r, step1 K P s = Ok (t, r) ->
  step1 K P (hide ts g nm s) = Ok (hide ts g nm t, r).
Proof.
  intros ts g nm s t r H. unfold step1 in *. unfold n_clr in *. cbn [hide c_x c_i c_start c_dense c_prev c_recs].
  ib H w E. rewrite E. cbn [bind]. destruct (365 <? max_gap w); [injection H as <- <-; reflexivity|].
  ib H wide E1. rewrite E1. cbn [bind]. destruct (k_mask1 K wide) as [flags|]; [|injection H as <- <-; reflexivity].
  destruct (_ <? 18); [injection H as <- <-; reflexivity|].
  ib H ce E2. rewrite E2. cbn [bind]. ib H cs E3. rewrite E3. cbn [bind].
  destruct (_ <? 366); [injection H as <- <-; reflexivity|].
  ib H wf E4. rewrite E4. cbn [bind]. destruct (k_fit1 K wf) as [f|]; [|injection H as <- <-; reflexivity].
  destruct (fgt _ _); [injection H as <- <-; reflexivity|].
  ib H p E5. rewrite E5. cbn [bind]. destruct p as [[x2 i2] st2].
  destruct (c_recs s) as [|r0 rs] eqn:Er; [|injection H as <- <-; reflexivity].
  destruct (6 <=? _); [|injection H as <- <-; reflexivity].
  ib H w2 E6. rewrite E6. cbn [bind]. ib H os E7. rewrite E7. cbn [bind].
  destruct (k_first K f w2 os); [|injection H as <- <-; reflexivity].
  ib H ob E8. rewrite E8. cbn [bind]. ib H o0 E9. rewrite E9. cbn [bind]. ib H rs E10. rewrite E10. cbn [bind].
  injection H as <- <-. reflexivity.
Qed.

Lemma step1_train : forall s t r, step1 K P s = Ok (t, r) -> c_ts t = c_ts s /\ c_train t = c_train s /\ c_chg t = c_chg s /\ c_model t = c_model s.
Proof.
  intros s t r H. unfold step1 in H.
  ib H w E. destruct (365 <? max_gap w); [injection H as <- <-; repeat split|].
  ib H wide E1. destruct (k_mask1 K wide) as [flags|]; [|injection H as <- <-; repeat split].
  destruct (_ <? 18); [injection H as <- <-; repeat split|].
  ib H ce E2. ib H cs E3. destruct (_ <? 366); [injection H as <- <-; repeat split|].
  ib H wf E4. destruct (k_fit1 K wf) as [f|]; [|injection H as <- <-; repeat split].
  destruct (fgt _ _); [injection H as <- <-; repeat split|].
  ib H p E5. destruct p as [[x2 i2] st2].
  destruct (c_recs s) as [|r0 rs] eqn:Er; [|injection H as <- <-; repeat split].
  destruct (6 <=? _); [|injection H as <- <-; repeat split].
  ib H w2 E6. ib H os E7. destruct (k_first K f w2 os); [|injection H as <- <-; repeat split].
  ib H ob E8. ib H o0 E9. ib H rs E10. injection H as <- <-. repeat split.
Qed.

Lemma step2_sim : forall (same : Prop) void void' s s' t, sp_pin P = false -> (same -> void = void') -> Sim same s s' -> c_train s = true ->
  step2 K P void s = Ok t -> exists t', step2 K P void' s' = Ok t' /\ Sim same t t'.
Proof.
  intros same void void' s s' t Hp Hv [Me Mt Mc] Tr H. specialize (Mt Tr). rewrite Me, Mt. clear Me. unfold step2 in *.
  cbn [hide c_x c_i c_start c_dense c_prev c_train c_ts c_nobs c_m c_recs c_model c_chg c_pins c_cm].
  destruct (c_m s) as [m|]; [|discriminate]. destruct (c_ts s) as [ts|]; [|discriminate].
  ib H os E. rewrite E. cbn [bind]. ib H o E1. rewrite E1. cbn [bind].
  destruct (scan K P m (c_nobs s - 6) os 0 (Fin (sp_cap P))) as [[flag bm] ic]. rewrite Hp in *. cbn [andb bind] in *.
  destruct (flag && _ && _).
  - ib H a16 E2. rewrite E2. cbn [bind]. ib H rs E3. rewrite E3. cbn [bind]. ib H w E4. rewrite E4. cbn [bind].
    injection H as <-. eexists. split; [reflexivity|]. constructor; [reflexivity|intros; reflexivity|].
    cc. intros G. rewrite (Mc G), (Hv G). reflexivity.
  - destruct (fgt _ _).
    + ib H o1 E2. rewrite E2. cbn [bind]. injection H as <-. eexists. split; [reflexivity|]. constructor; [reflexivity|reflexivity|exact Mc].
    + ib H o1 E2. rewrite E2. cbn [bind]. destruct (_ <=? 0); [discriminate|]. injection H as <-. eexists.
      split; [reflexivity|]. constructor; [reflexivity|reflexivity|exact Mc].
Qed.

Lemma cstep_sim : forall (same : Prop) void void' s s' t, sp_pin P = false -> (same -> void = void') -> Sim same s s' ->
  cstep K P void s = Ok t -> exists t', cstep K P void' s' = Ok t' /\ Sim same t t'.
Proof.
  intros same void void' s s' t Hp Hv M H. unfold cstep in *.
  assert (Tr' : c_train s' = c_train s) by (rewrite (m_eq M); reflexivity). rewrite Tr'.
  destruct (c_train s) eqn:Tr; [apply step2_sim with (s := s) (void := void); assumption|].
  destruct M as [Me Mt Mc]. set (ts := c_ts s') in *. set (g := c_chg s') in *. set (nm := c_model s') in *.
  rewrite Me. clear Me. cbn [hide c_x c_i c_start]. ib H xe E. rewrite E. cbn [bind]. ib H xs E1. rewrite E1. cbn [bind].
  ib H p E2. destruct p as [s1 r].
  assert (E2' : (if (18 <=? c_i s - c_start s + 1) && (366 <=? o_date xe - o_date xs)
                 then step1 K P (hide ts g nm s) else Ok (hide ts g nm s, Inc)) = Ok (hide ts g nm s1, r) /\
          c_train s1 = c_train s /\ c_chg s1 = c_chg s).
  { destruct (_ && _); [|injection E2 as <- <-; auto]. split; [apply step1_hide; exact E2|]. pose proof (step1_train _ E2). tauto. }
  destruct E2' as (E2' & T1 & G1). fold (hide ts g nm s). rewrite E2'. cbn [bind]. destruct r.
  - injection H as <-. eexists. split; [reflexivity|]. constructor; [reflexivity| |].
    + cc. intros X. congruence.
    + cc. intros X. cbn [hide c_chg]. rewrite G1. auto.
  - cbn [hide c_x c_i c_start c_m]. ib H w E3. rewrite E3. cbn [bind]. ib H on E4. rewrite E4. cbn [bind].
    ib H os E5. rewrite E5. cbn [bind]. ib H m E6. rewrite E6. cbn [bind]. injection H as <-. eexists. split; [reflexivity|].
    constructor; [reflexivity|reflexivity|]. cc. intros X. cbn [hide c_chg]. rewrite G1. auto.
  - injection H as <-. eexists. split; [reflexivity|]. constructor; [reflexivity| |].
    + intros X. congruence.
    + cbn [hide c_chg]. intros X. rewrite G1. auto.
Qed.

Lemma cloop_sim : forall (same : Prop) void void' f s s' t, sp_pin P = false -> (same -> void = void') -> Sim same s s' ->
  cloop K P void f s = Ok t -> exists t', cloop K P void' f s' = Ok t' /\ Sim same t t'.
Proof.
  intros same void void' f. induction f; intros s s' t Hp Hv M H; cbn [cloop] in *;
    assert (En : n_clr s' = n_clr s) by (rewrite (m_eq M); reflexivity);
    assert (Ei : c_i s' = c_i s) by (rewrite (m_eq M); reflexivity); rewrite En, Ei.
  - destruct (_ <=? _); [discriminate|]. injection H as <-. eauto.
  - destruct (_ <=? _); [|injection H as <-; eauto]. ib H u E.
    destruct (@cstep_sim same void void' s s' u Hp Hv M E) as (u' & E' & M'). rewrite E'. cbn [bind]. eapply IHf; eassumption.
Qed.

(** ** Waiting *)
(** No stretch to test: fewer than 18 observations before the last [conse],
    or all within 365 days (2750-2752). *)
Definition short (ds : list Z) : Prop :=
  zlen ds <= 17 + sp_conse P \/ (forall s t, In s ds -> In t ds -> t - s < 366).

Lemma idle_loop : forall void f s t, 0 <= c_i s -> c_start s = 0 -> c_train s = false -> short (map o_date (c_x s)) ->
  cloop K P void f s = Ok t -> exists i, t = set_idx s (c_x s) i 0 (c_dense s) (c_prev s).
Proof.
  intros void f. induction f; intros s t Hi Hs Ht W H; cbn [cloop] in H.
  - destruct (_ <=? _); [discriminate|]. injection H as <-. exists (c_i s). rewrite <- Hs. destruct s; reflexivity.
  - destruct (_ <=? _) eqn:G; [|injection H as <-; exists (c_i s); rewrite <- Hs; destruct s; reflexivity].
    ib H u E. unfold cstep in E. rewrite Ht, Hs in E. ib E xe E1. ib E xs E2.
    assert (No : (18 <=? c_i s - 0 + 1) && (366 <=? o_date xe - o_date xs) = false).
    { destruct W as [W|W].
      - unfold zlen in W. rewrite map_length in W. unfold n_clr, zlen in G. replace (18 <=? c_i s - 0 + 1) with false by (clear - G W; lia). reflexivity.
      - apply get_inv in E1, E2. destruct E1 as [_ E1], E2 as [_ E2]. apply nth_error_In in E1, E2.
        specialize (W (o_date xs) (o_date xe) (in_map o_date _ _ E2) (in_map o_date _ _ E1)). lia. }
    rewrite No in E. cbn [bind] in E. injection E as <-. rewrite Hs in H.
    apply IHf in H; [|cc; lia|reflexivity|exact Ht|exact W]. destruct H as [i ->]. exists i. reflexivity.
Qed.

Lemma mapO_st : forall l q, mapO st_obs l = Ok q -> q = map stv l.
Proof.
  induction l as [|o l IH]; intros q H; cbn [mapO] in H; [injection H as <-; reflexivity|].
  ib H b E. ib H r E1. injection H as <-. cbn [map]. f_equal; [|apply IH; exact E1].
  unfold st_obs in E. ib E v E2. injection E as <-. unfold stv. destruct (mapO_to16 (o_vals o)) as [[X _]|[X _]]; congruence.
Qed.

Lemma idle_call : forall f x a b, io_mode a = 0 \/ io_mode a = 12 -> short (map o_date x) -> zlen x <= 240 ->
  standard K P f x a = Ok b -> b = mkIO 12 (io_recs a) (io_model a) (map stv x) (io_rmse a) (io_pins a).
Proof.
  intros f x a b Hm W L H. apply standard_inv in H. destruct H as (ol & o0 & s & E1 & E2 & E3 & E4 & E5).
  assert (Tr : Z.rem (io_mode a) 10 =? 1 = false) by (destruct Hm as [-> | ->]; reflexivity).
  apply idle_loop in E4; [|cbn; lia|reflexivity|exact Tr|exact W]. destruct E4 as [i ->].
  unfold finish in E5. ib E5 p E6. destruct p as [mode1 prev].
  assert (Q : mode1 = 12 /\ prev = 0).
  { unfold new_mode, first_state in E6. cc. rewrite Tr in E6. destruct Hm as [Hm|Hm]; rewrite Hm in E6; cbn in E6; injection E6 as <- <-; auto. }
  destruct Q as [-> ->]. cbn [Z.rem Z.eqb Z.quotrem] in E5. cbn in E5. ib E5 q E7. injection E5 as <-. f_equal.
  unfold save_queue, n_clr in E7. cc. unfold first_state in E7. cc. rewrite Z.sub_0_r in E7.
  replace (max_queue <? zlen x) with false in E7 by (unfold max_queue; lia). ib E7 w E8.
  rewrite Z.max_r in E8 by apply zlen_nonneg. unfold slice, zlen in E8.
  replace ((0 <=? 0) && (0 <=? Z.of_nat (length x)) && (0 + Z.of_nat (length x) <=? Z.of_nat (length x))) with true in E8 by lia.
  injection E8 as <-. apply mapO_st in E7. rewrite E7. rewrite Nat2Z.id. cbn [Z.to_nat skipn]. now rewrite firstn_all.
Qed.
End K.

(** ** The calls *)
(** Clear rows of a batch (qa 0 and 1), and the dates a call has at hand: those
    of the queue and those of the clear rows. *)
Definition clear (q : raw) : bool := q_qa q <? 2.
Definition dates (a : io) (rows : list raw) : list Z :=
  map (fun o => o_date o + launch) (io_queue a) ++ map q_date (filter clear rows).

Lemma append_dates : forall c2 rows last, exists l,
  map o_date (append_obs keep_std (map (fun q => (q, id_range c2 q)) rows) last) = l /\
  zlen l <= zlen (filter clear rows) /\ forall d, In d l -> In d (map q_date (filter clear rows)).
Proof.
  intros c2 rows last. eexists. split; [reflexivity|]. revert last. induction rows as [|q t IH]; intros last; [split; [reflexivity|tauto]|].
  cbn [map append_obs fst filter]. change (keep_std (q, id_range c2 q)) with (clear q && id_range c2 q).
  assert (Sk : zlen (map o_date (append_obs keep_std (map (fun q => (q, id_range c2 q)) t) last)) <= zlen (if clear q then q :: filter clear t else filter clear t) /\
    forall d, In d (map o_date (append_obs keep_std (map (fun q => (q, id_range c2 q)) t) last)) -> In d (map q_date (if clear q then q :: filter clear t else filter clear t))).
  { destruct (IH last) as [A B]. destruct (clear q); [|auto]. rewrite zlen_cons. split; [lia|]. intros d Hd. cbn [map]. right. auto. }
  destruct (clear q && id_range c2 q) eqn:Ek; [|exact Sk]. apply andb_prop in Ek. destruct Ek as [Ek _]. rewrite Ek in *.
  assert (Co : zlen (map o_date (sobs q :: append_obs keep_std (map (fun q => (q, id_range c2 q)) t) (Some (q_date q)))) <= zlen (q :: filter clear t) /\
    forall d, In d (map o_date (sobs q :: append_obs keep_std (map (fun q => (q, id_range c2 q)) t) (Some (q_date q)))) -> In d (map q_date (q :: filter clear t))).
  { destruct (IH (Some (q_date q))) as [A B]. cbn [map]. rewrite !zlen_cons. split; [lia|]. intros d [<-|Hd]; [now left|]. right. auto. }
  destruct last as [d|]; [destruct (_ =? d); [exact Sk|exact Co]|exact Co].
Qed.

Lemma call_dates : forall P c2 rows a, queue_mode (io_mode a) = true \/ io_queue a = [] /\ monitor_mode (io_mode a) = false ->
  zlen (call_obs c2 false rows a) <= zlen (dates a rows) /\
  (Forall in_days (dates a rows) -> Forall (fun o => in_days (o_date o)) (call_obs c2 false rows a)) /\
  (short P (dates a rows) -> short P (map o_date (call_obs c2 false rows a))).
Proof.
  intros P c2 rows a Hm.
  assert (Ec : carried a = map ld_obs (io_queue a)).
  { unfold carried. destruct (queue_mode (io_mode a)); [reflexivity|]. destruct Hm as [Hm|[-> Hm]]; [discriminate|]. rewrite Hm. reflexivity. }
  destruct (append_dates c2 rows (last_date (carried a))) as (l & El & Ll & Il).
  assert (Em : map o_date (call_obs c2 false rows a) = map (fun o => o_date o + launch) (io_queue a) ++ l).
  { unfold call_obs. rewrite map_app, Ec, map_map. cbn [ld_obs o_date]. rewrite Ec in El. rewrite El. reflexivity. }
  assert (Lm : zlen (map (fun o => o_date o + launch) (io_queue a) ++ l) <= zlen (dates a rows)).
  { unfold dates. rewrite !zlen_app. assert (zlen (map q_date (filter clear rows)) = zlen (filter clear rows)) by (unfold zlen; now rewrite map_length). lia. }
  split; [rewrite <- Em in Lm; unfold zlen in *; now rewrite map_length in Lm|]. split.
  { intros D. rewrite Forall_forall in *. intros o Ho. apply D. apply (in_map o_date) in Ho. rewrite Em in Ho. unfold dates. apply in_or_app.
    apply in_app_or in Ho. destruct Ho; auto. }
  rewrite Em. intros [W|W]; [left; lia|right]. intros s t Hs Ht. apply W; unfold dates; apply in_or_app.
  - apply in_app_or in Hs. destruct Hs; auto.
  - apply in_app_or in Ht. destruct Ht; auto.
Qed.

Lemma sccd_queue : forall K P c2 junk fuel rows a, io_mode a = 12 -> Forall (fun q => known_qa (q_qa q)) rows ->
  @sccd N S F C K P c2 junk fuel rows a =
  if zlen (carried a) <? zlen (call_obs c2 false rows a) then standard (K (io_rmse a)) P fuel (call_obs c2 false rows a) a
  else Ok a.
Proof.
  intros K P c2 junk fuel rows a Hm Hq. unfold sccd. rewrite Hm. cbn [mode_ok negb Z.eqb orb Pos.eqb].
  destruct (preprocess_eq c2 rows (mkCounts 0 0 0 0 0)) as [[_ E]|[E _]].
  2: { exfalso. apply Exists_exists in E. destruct E as (q & Hi & E). rewrite Forall_forall in Hq. auto. }
  unfold mode_ok. cbn. rewrite E. cbn [bind]. unfold is_snow. cbn. unfold call_obs. destruct (zlen (carried a) <? _); [|reflexivity].
  rewrite andb_false_r. cbn [bind]. destruct a; cbn in *; subst; reflexivity.
Qed.

(** The pack of a pixel waiting for observations. *)
Definition waiting_pack (jm : nmodel S) (x : list obs) (a : io) : io :=
  mkIO 12 (io_recs a) jm (map stv x) (io_rmse a) (io_pins a).

(** One call on the same observations from two packs that differ in the model
    and the queue only. *)
Lemma call_twice : forall (k : skernel N S F C) P f f' x a a' d, sp_pin P = false -> io_mode a = 12 -> io_mode a' = 12 ->
  io_recs a' = io_recs a -> io_rmse a' = io_rmse a -> io_pins a' = io_pins a -> (f <= f')%nat ->
  standard k P f x a = Ok d -> exists d', standard k P f' x a' = Ok d' /\ forall jm, returned jm d' = returned jm d.
Proof.
  intros k P f f' x a a' d Hp Hm Hm' Er Ee Ep Hf H. apply standard_inv in H. destruct H as (ol & o0 & s & E1 & E2 & E3 & E4 & E5).
  rewrite standard_eq, E1, E2. cbn [bind]. replace (n_buckets (o_date ol) <? 0) with false by lia.
  apply cloop_more with (f' := f') in E4; [|exact Hf]. rewrite Hm in E4.
  assert (M : Sim True (first_state k x a o0 ol) (first_state k x a' o0 ol)).
  { unfold first_state. rewrite Hm, Hm', Er, Ep. constructor; [reflexivity|discriminate|reflexivity]. }
  rewrite Hm'. destruct (@cloop_sim k P True (12 =? 0) (12 =? 0) f' _ _ _ Hp ltac:(reflexivity) M E4) as (s' & E4' & [Me Mt Mc]).
  rewrite E4'. cbn [bind]. specialize (Mc I). set (ts := c_ts s') in *. set (nm := c_model s') in *. rewrite Mc in Me.
  unfold finish in *. rewrite Hm in E5. rewrite Hm', Ee. rewrite Me. ib E5 p E6. destruct p as [m1 prev].
  assert (N1 : new_mode P 12 (hide ts (c_chg s) nm s) = Ok (m1, prev)) by exact E6. rewrite N1. cbn [bind].
  assert (V : m1 = 12 \/ m1 = 1 /\ c_train s = true).
  { unfold new_mode in E6. cbn in E6. destruct (c_chg s); [injection E6; auto|]. destruct (c_train s); injection E6; auto. }
  destruct V as [-> |[-> Tr]].
  - cbn in E5 |- *. ib E5 q E7. injection E5 as <-. unfold save_queue, n_clr in *. cbn [hide c_x c_recs c_pins].
    rewrite E7. cbn [bind]. eexists. split; [reflexivity|]. intros jm. reflexivity.
  - cbn in E5 |- *. ib E5 p E7. destruct p as [m2 model].
    assert (S1 : save_model k P (hide ts (c_chg s) nm s) 1 = Ok (m2, model)) by (rewrite (Mt Tr); exact E7).
    rewrite S1. cbn [bind]. destruct (save_model_mode _ _ _ _ E7) as [-> |[X _]]; [|discriminate X].
    cbn in E5 |- *. injection E5 as <-. eexists. split; [reflexivity|]. intros jm. reflexivity.
Qed.

(** A batch that still leaves too little to start with. *)
Lemma wait : forall K P c2 junk jm B a b, io_mode a = 12 -> Forall in_days (dates a B) -> short P (dates a B) ->
  zlen (dates a B) <= 240 -> @update N S F C K P c2 junk jm B a = Ok b ->
  b = waiting_pack jm (call_obs c2 false B a) a /\ carried b = call_obs c2 false B a.
Proof.
  intros K P c2 junk jm B a b Hm HD W L H. destruct (update_ok H) as (b' & E & Hr).
  rewrite sccd_queue in E by (auto; eapply sccd_known; exact E).
  destruct (@call_dates (no_pin P) c2 B a) as (L1 & Hin & W1); [left; rewrite Hm; reflexivity|]. specialize (Hin HD).
  assert (Eb : b = waiting_pack jm (call_obs c2 false B a) a).
  { destruct (zlen (carried a) <? _) eqn:G.
    - apply idle_call in E; [|right; exact Hm|apply W1; exact W|lia]. subst b'. cbn in Hr. injection Hr as <-. reflexivity.
    - injection E as <-. unfold returned in Hr. rewrite Hm in Hr. cbn in Hr. injection Hr as <-. unfold waiting_pack. f_equal.
      assert (X : call_obs c2 false B a = carried a).
      { unfold call_obs in *. rewrite zlen_app in G. destruct (append_obs _ _ _) as [|o l]; [apply app_nil_r|]. rewrite zlen_cons in G. pose proof (zlen_nonneg l). lia. }
      rewrite X. unfold carried, queue_mode. rewrite Hm. cbn. rewrite map_map.
      rewrite <- (map_id (io_queue a)) at 1. apply map_ext_in. intros o Ho. rewrite X in Hin. rewrite Forall_forall in Hin.
      unfold carried, queue_mode in Hin. rewrite Hm in Hin. cbn in Hin. specialize (Hin (ld_obs o) (in_map ld_obs _ _ Ho)).
      unfold in_days, ld_obs in Hin. cbn [o_date] in Hin. unfold stv, ld_obs. cbn [o_date o_vals]. rewrite wrap16_id by lia. destruct o. cbn. f_equal. lia. }
  split; [exact Eb|]. rewrite Eb. unfold carried, queue_mode. cbn. apply ld_stv_map. exact Hin.
Qed.

(** Two updates are one while the pixel waits. *)
Theorem C26_waiting_partial : forall (K : list Z -> skernel N S F C) P c2 junk jm B D a b d, io_mode a = 12 ->
  Forall in_days (dates a B) -> short P (dates a B) -> zlen (dates a B) <= 240 ->
  update K P c2 junk jm B a = Ok b -> update K P c2 junk jm D b = Ok d ->
  update K P c2 junk jm (B ++ D) a = Ok d.
Proof.
  intros K P c2 junk jm B D a b d Hm HD W L H1 H2.
  destruct (@wait K P c2 junk jm B a b Hm HD W L H1) as [Eb Cb].
  destruct (update_ok H1) as (b' & E1 & Hr1). destruct (update_ok H2) as (d' & E2 & Hr2).
  pose proof (sccd_known _ _ _ _ _ _ _ E1) as Q1. pose proof (sccd_known _ _ _ _ _ _ _ E2) as Q2.
  assert (Hmb : io_mode b = 12) by (rewrite Eb; reflexivity).
  rewrite sccd_queue in E2 by assumption.
  assert (Cx : call_obs c2 false D b = call_obs c2 false (B ++ D) a) by (rewrite call_obs_app; unfold call_obs at 1; rewrite Cb; reflexivity).
  rewrite Cx, Cb in E2.
  assert (Ne : B ++ D <> []) by (destruct B; [discriminate|]; discriminate).
  unfold update. destruct (B ++ D) as [|r0 rs] eqn:EBD; [congruence|]. rewrite <- EBD in *.
  rewrite sccd_queue; [|assumption|apply Forall_app; auto].
  assert (Lc : zlen (carried a) <= zlen (call_obs c2 false B a)) by (unfold call_obs; rewrite zlen_app; pose proof (zlen_nonneg (append_obs keep_std (map (fun q => (q, id_range c2 q)) B) (last_date (carried a)))); lia).
  assert (Lx : zlen (call_obs c2 false B a) <= zlen (call_obs c2 false (B ++ D) a)).
  { rewrite call_obs_app, zlen_app. pose proof (zlen_nonneg (append_obs keep_std (map (fun q => (q, id_range c2 q)) D) (last_date (call_obs c2 false B a)))). lia. }
  assert (Lb : (length (carried b) <= length (carried a) + length B)%nat).
  { rewrite Cb. unfold call_obs. rewrite app_length. destruct (append_dates c2 B (last_date (carried a))) as (l & El & Ll & _).
    assert (length l <= length B)%nat.
    { assert (X : forall l0, (length (filter clear l0) <= length l0)%nat) by (induction l0; cbn; [lia|]; destruct (clear _); cbn; lia).
      specialize (X B). unfold zlen in Ll. lia. }
    rewrite <- El, map_length in *. lia. }
  destruct (zlen (call_obs c2 false B a) <? zlen (call_obs c2 false (B ++ D) a)) eqn:G.
  - replace (zlen (carried a) <? zlen (call_obs c2 false (B ++ D) a)) with true by lia.
    replace (io_rmse b) with (io_rmse a) in E2 by (rewrite Eb; reflexivity).
    destruct (@call_twice (K (io_rmse a)) (no_pin P) (enough D b) (enough (B ++ D) a) (call_obs c2 false (B ++ D) a) b a d') as (e & Ee & He);
      [reflexivity|exact Hmb|exact Hm|rewrite Eb; reflexivity|rewrite Eb; reflexivity|rewrite Eb; reflexivity| |exact E2|].
    + unfold enough. rewrite app_length. lia.
    + rewrite Ee. cbn [bind]. rewrite He. exact Hr2.
  - injection E2 as <-.
    assert (Ex : call_obs c2 false (B ++ D) a = call_obs c2 false B a).
    { rewrite call_obs_app in *. rewrite zlen_app in G. destruct (append_obs _ _ (last_date (call_obs _ _ _ _))) as [|o l]; [apply app_nil_r|].
      rewrite zlen_cons in G. pose proof (zlen_nonneg l). lia. }
    assert (Eid : returned jm b = Ok b) by (rewrite Eb; reflexivity). rewrite Eid in Hr2. injection Hr2 as <-.
    rewrite sccd_queue in E1 by assumption. rewrite Ex.
    destruct (zlen (carried a) <? zlen (call_obs c2 false B a)).
    + apply standard_fuel with (f' := enough (B ++ D) a) in E1.
      * rewrite E1. exact Hr1.
      * pose proof E1 as E1'. apply standard_inv in E1'. destruct E1' as (ol & o0 & s & F1 & F2 & F3 & F4 & F5).
        rewrite standard_eq, F1, F2. cbn [bind]. replace (n_buckets (o_date ol) <? 0) with false by lia.
        apply cloop_more with (f' := enough (B ++ D) a) in F4; [|unfold enough; rewrite app_length; lia]. rewrite F4. cbn [bind]. rewrite F5. discriminate.
    + injection E1 as <-. exact Hr1.
Qed.

(** ** Detection first *)
Lemma detect_std : forall (K : list Z -> skernel N S F C) P c2 junk jm rows d, length junk = 6%nat ->
  detect K P c2 junk jm rows = Ok d -> standard_mode (io_mode d) ->
  exists d', standard (K (io_rmse d)) P (enough rows (blank C jm)) (call_obs c2 false rows (blank C jm)) (with_rmse (io_rmse d) (blank C jm)) = Ok d' /\
    returned jm d' = Ok d.
Proof.
  intros K P c2 junk jm rows d Hj H Hs. unfold detect in H. destruct rows as [|r t]; [discriminate|].
  destruct (slots <? _); [discriminate|]. destruct (_ <? 1461); [discriminate|]. ib H d' E.
  pose proof (returned_mode H) as Hmd.
  assert (Hrm : io_rmse d = io_rmse d').
  { unfold returned in H. repeat match type of H with (if ?c then _ else _) = _ => destruct c end; try discriminate; injection H as <-; reflexivity. }
  destruct (@sccd_cases N S F C K P c2 junk (enough (r :: t) (blank C jm)) (r :: t) (blank C jm) Hj) as [E1|(sn & _ & _ & _ & Hcase)]; [congruence|].
  cbv zeta in Hcase. destruct Hcase as [[-> E1]|[(-> & Hx & E1)|(-> & Hlt & rm & Hrm' & E1)]]; rewrite E in E1.
  - exfalso. assert (Hbm : io_mode d' = 3 \/ io_mode d' = 4).
    { symmetry in E1. clear -E1. unfold snow in E1. cbv zeta in E1.
      destruct (_ || _); [destruct (_ <? 18)|].
      all: repeat match goal with
        | H : bind ?e _ = Ok _ |- _ => let E := fresh "E" in destruct e as [?v| | |] eqn:E; cbn [bind] in H; try discriminate; clear E
        end; injection E1 as <-; cbn; auto. }
    rewrite Hmd in Hs. unfold standard_mode in Hs. simpl in Hs. lia.
  - injection E1 as ->. exfalso. rewrite Hmd in Hs. unfold standard_mode in Hs. simpl in Hs. lia.
  - exists d'. split; [|assumption]. symmetry in E1. pose proof (standard_rmse _ _ _ _ _ E1) as X. cbn [io_rmse] in X. rewrite <- Hrm in X. rewrite <- X in E1. exact E1.
Qed.

(** The loop of the detection and that of the update, and what they hand back. *)
Lemma void_sim : forall (k : skernel N S F C) P f f' x a a' d b, sp_pin P = false -> io_mode a = 0 -> io_mode a' = 12 ->
  io_recs a = [] -> io_recs a' = [] -> io_pins a' = io_pins a ->
  standard k P f x a = Ok d -> standard k P f' x a' = Ok b ->
  io_recs b = io_recs d /\ io_pins b = io_pins d /\ (io_mode b = 12 \/ io_mode b = io_mode d) /\
  (io_mode d = 1 \/ io_mode d = 12) /\
  (io_mode b = io_mode d -> io_mode b = 1 /\ io_model b = io_model d \/ io_mode b = 12 /\ io_queue b = io_queue d) /\
  (io_recs d = [] -> io_mode b = io_mode d).
Proof.
  intros k P f f' x a a' d b Hp Hm Hm' Er Er' Ep H H'.
  apply standard_inv in H. destruct H as (ol & o0 & s & E1 & E2 & E3 & E4 & E5).
  apply standard_inv in H'. destruct H' as (ol' & o0' & s' & E1' & E2' & _ & E4' & E5').
  rewrite E1 in E1'. injection E1' as <-. rewrite E2 in E2'. injection E2' as <-.
  rewrite Hm in E4. rewrite Hm' in E4'.
  assert (M : Sim False (first_state k x a o0 ol) (first_state k x a' o0 ol)).
  { unfold first_state. rewrite Hm, Hm', Er, Er', Ep. constructor; [reflexivity|discriminate|tauto]. }
  destruct (@cloop_sim k P False (0 =? 0) (12 =? 0) f _ _ _ Hp ltac:(tauto) M E4) as (s2 & E4'' & [Me Mt _]).
  assert (Es : s' = s2) by (eapply cloop_det; eassumption). subst s2.
  assert (G : c_recs s = [] -> c_chg s' = false).
  { intros R. assert (R' : c_recs s' = []) by (rewrite Me; exact R).
    assert (I : forall g u v, (c_chg u = true -> c_recs u <> []) -> cloop k P (12 =? 0) g u = Ok v -> c_chg v = true -> c_recs v <> []).
    { clear. induction g; intros u v Hu H; cbn [cloop] in H; destruct (_ <=? _); try discriminate; try (injection H as <-; exact Hu).
      ib H w E. apply (IHg w v); [|exact H]. clear H IHg. unfold cstep in E. destruct (c_train u).
      - unfold step2 in E. destruct (c_m u); [|discriminate]. destruct (c_ts u); [|discriminate]. ib E os E1. ib E o E2.
        destruct (scan _ _ _ _ _ _ _) as [[? ?] ?]. ib E p E3. destruct p. destruct (_ && _ && _).
        + ib E a16 E4. ib E rs E5. ib E w0 E6. injection E as <-. cc. intros _. unfold push_seg in E5. destruct (max_seg <=? _); [discriminate|]. injection E5 as <-. destruct (c_recs u); discriminate.
        + destruct (fgt _ _); ib E o1 E4; [injection E as <-; exact Hu|]. destruct (_ <=? 0); [discriminate|]. injection E as <-. exact Hu.
      - ib E xe E1. ib E xs E2. ib E p E3. destruct p as [s1 r].
        assert (H1 : c_chg s1 = true -> c_recs s1 <> []).
        { destruct (_ && _); [|injection E3 as <- <-; exact Hu]. destruct (step1_train _ _ _ E3) as (_ & _ & C1 & _). rewrite C1. intros X. specialize (Hu X).
          clear - E3 Hu. unfold step1 in E3. ib E3 w E. destruct (365 <? _); [injection E3 as <- <-; exact Hu|].
          ib E3 wide E1. destruct (k_mask1 k wide); [|injection E3 as <- <-; exact Hu]. destruct (_ <? 18); [injection E3 as <- <-; exact Hu|].
          ib E3 ce E2. ib E3 cs E4. destruct (_ <? 366); [injection E3 as <- <-; exact Hu|]. ib E3 wf E5.
          destruct (k_fit1 k wf); [|injection E3 as <- <-; exact Hu]. destruct (fgt _ _); [injection E3 as <- <-; exact Hu|].
          ib E3 p E6. destruct p as [[? ?] ?]. destruct (c_recs u) eqn:Eu; [congruence|]. injection E3 as <- <-. cc. rewrite Eu. discriminate. }
        destruct r; [injection E as <-; exact H1| |injection E as <-; exact H1].
        ib E w0 E4. ib E on E5. ib E os E6. ib E m E7. injection E as <-. exact H1. }
    destruct (c_chg s') eqn:X; [|reflexivity]. exfalso. revert R'. apply (I f' (first_state k x a' o0 ol) s'); [cbn; discriminate|exact E4'|exact X]. }
  assert (Tr : c_train s' = c_train s) by (rewrite Me; reflexivity).
  unfold finish in *. rewrite Hm in E5. rewrite Hm' in E5'. ib E5 p E6. destruct p as [m1 pv]. ib E5' p E6'. destruct p as [m1' pv'].
  unfold new_mode in E6, E6'. cbn in E6, E6'. rewrite Tr in E6'.
  assert (V : m1 = (if c_train s then 1 else 12) /\ pv = c_prev s) by (injection E6; auto). destruct V as [-> ->]. clear E6.
  assert (V : m1' = (if c_chg s' then 12 else if c_train s then 1 else 12) /\ pv' = c_prev s).
  { assert (X : c_prev s' = c_prev s) by (rewrite Me; reflexivity). destruct (c_chg s'); injection E6'; intros; subst; auto. }
  destruct V as [-> ->]. clear E6'.
  assert (QQ : save_queue s' (c_prev s) = save_queue s (c_prev s)) by (rewrite Me; reflexivity).
  assert (RR : c_recs s' = c_recs s) by (rewrite Me; reflexivity). assert (PP : c_pins s' = c_pins s) by (rewrite Me; reflexivity).
  destruct (c_train s) eqn:Ts.
  - cbn in E5. ib E5 p E7. destruct p as [m2 model]. destruct (save_model_mode _ _ _ _ E7) as [-> |[X _]]; [|discriminate X].
    cbn in E5. injection E5 as <-. cbn [io_recs io_pins io_mode io_model io_queue].
    destruct (c_chg s') eqn:Cs.
    + cbn in E5'. ib E5' q E8. injection E5' as <-. cbn [io_recs io_pins io_mode io_model io_queue].
      split; [exact RR|]. split; [exact PP|]. split; [auto|]. split; [auto|]. split; [discriminate|]. intros R. specialize (G R). discriminate G.
    + cbn in E5'. ib E5' p E8. destruct p as [m2 model'].
      assert (S1 : save_model k P s' 1 = Ok (1, model)) by (rewrite Me, (Mt eq_refl); exact E7). rewrite S1 in E8. injection E8 as <- <-.
      cbn in E5'. injection E5' as <-. cbn [io_recs io_pins io_mode io_model io_queue]. split; [exact RR|]. split; [exact PP|]. auto 10.
  - cbn in E5. ib E5 q E7. injection E5 as <-. cbn [io_recs io_pins io_mode io_model io_queue].
    replace (if c_chg s' then 12 else 12) with 12 in E5' by (destruct (c_chg s'); reflexivity).
    cbn in E5'. ib E5' q' E8. rewrite QQ, E7 in E8. injection E8 as <-. injection E5' as <-.
    cbn [io_recs io_pins io_mode io_model io_queue]. split; [exact RR|]. split; [exact PP|]. auto 10.
Qed.

(** A detection that leaves the pixel waiting and one update give the records
    of one detection; also its mode and its pack, but for the noise level, if
    no break was found. *)
Theorem C26_first_partial : forall (K : list Z -> skernel N S F C) P c2 junk jm A B a b d, sp_pin P = false -> length junk = 6%nat ->
  Forall in_days (dates (blank C jm) A) -> short P (dates (blank C jm) A) -> zlen (dates (blank C jm) A) <= 240 ->
  detect K P c2 junk jm A = Ok a -> io_mode a = 12 -> update K P c2 junk jm B a = Ok b ->
  detect K P c2 junk jm (A ++ B) = Ok d -> standard_mode (io_mode d) -> K (io_rmse a) = K (io_rmse d) ->
  io_recs b = io_recs d /\ (io_mode b = 12 \/ io_mode b = io_mode d) /\
  (io_mode b = io_mode d -> b = with_rmse (io_rmse a) d) /\ (io_recs d = [] -> io_mode b = io_mode d).
Proof.
  intros K P c2 junk jm A B a b d Hp Hj HD W L HA Hma HU HJ Hsd HK.
  assert (HnP : no_pin P = P) by (destruct P; cbn in Hp; subst; reflexivity).
  assert (Hsa : standard_mode (io_mode a)) by (rewrite Hma; unfold standard_mode; simpl; auto).
  destruct (@detect_std K P c2 junk jm A a Hj HA Hsa) as (a' & EA & HrA).
  destruct (@detect_std K P c2 junk jm (A ++ B) d Hj HJ Hsd) as (d' & ED & HrD).
  destruct (@call_dates P c2 A (blank C jm)) as (L1 & Hin & W1); [right; split; reflexivity|]. specialize (Hin HD). specialize (W1 W).
  set (x := call_obs c2 false A (blank C jm)) in *.
  pose proof EA as EA'. apply idle_call in EA'; [|left; reflexivity|exact W1|lia]. cbn [with_rmse blank io_recs io_model io_rmse io_pins] in EA'.
  assert (Ea : a = mkIO 12 [] jm (map stv x) (io_rmse a) []) by (assert (X : Ok a = Ok (mkIO 12 [] jm (map stv x) (io_rmse a) [])) by (rewrite <- HrA, EA'; reflexivity); injection X; auto).
  assert (Ca : carried a = x) by (rewrite Ea; unfold carried, queue_mode; cbn; apply ld_stv_map; exact Hin).
  destruct (update_ok HU) as (b' & EB & HrB). rewrite HnP in EB.
  pose proof (sccd_known _ _ _ _ _ _ _ EB) as QB. rewrite sccd_queue in EB by assumption.
  assert (Cx : call_obs c2 false B a = call_obs c2 false (A ++ B) (blank C jm)) by (rewrite call_obs_app; fold x; unfold call_obs; rewrite Ca; reflexivity).
  rewrite Cx, Ca in EB. rewrite HK in EB.
  assert (V : io_recs b' = io_recs d' /\ io_pins b' = io_pins d' /\ (io_mode b' = 12 \/ io_mode b' = io_mode d') /\ (io_mode d' = 1 \/ io_mode d' = 12) /\
    (io_mode b' = io_mode d' -> io_mode b' = 1 /\ io_model b' = io_model d' \/ io_mode b' = 12 /\ io_queue b' = io_queue d') /\
    (io_recs d' = [] -> io_mode b' = io_mode d') /\ io_rmse b' = io_rmse a).
  { destruct (zlen x <? _) eqn:G.
    - destruct (@void_sim (K (io_rmse d)) P (enough (A ++ B) (blank C jm)) (enough B a) (call_obs c2 false (A ++ B) (blank C jm)) (with_rmse (io_rmse d) (blank C jm)) a d' b')
        as (V1 & V2 & V3 & V4 & V5 & V6); try assumption; try reflexivity; try (rewrite Ea; reflexivity).
      pose proof (standard_rmse _ _ _ _ _ EB). auto 10.
    - injection EB as <-.
      assert (Ex : call_obs c2 false (A ++ B) (blank C jm) = x).
      { rewrite call_obs_app in *. fold x in G |- *. rewrite zlen_app in G. destruct (append_obs _ _ (last_date x)) as [|o l]; [apply app_nil_r|].
        rewrite zlen_cons in G. pose proof (zlen_nonneg l). lia. }
      rewrite Ex in ED. apply idle_call in ED; [|left; reflexivity|exact W1|lia]. rewrite ED, Ea. cbn. auto 10. }
  destruct V as (V1 & V2 & V3 & V4 & V5 & V6 & V7).
  pose proof (returned_mode HrB) as Mb. pose proof (returned_mode HrD) as Md.
  assert (Rb : io_recs b = io_recs b') by (destruct (returned_recs HrB) as [X|[X _]]; [exact X|lia]).
  assert (Rd : io_recs d = io_recs d') by (destruct (returned_recs HrD) as [X|[X _]]; [exact X|lia]).
  rewrite Rb, Rd, Mb, Md. split; [exact V1|]. split; [exact V3|]. split; [|exact V6].
  intros E. specialize (V5 E). unfold returned in HrB, HrD. rewrite <- E in HrD.
  destruct V5 as [[X Y]|[X Y]]; rewrite X in HrB, HrD; cbn in HrB, HrD; injection HrB as <-; injection HrD as <-; unfold with_rmse; cbn;
    rewrite V1, V2, V7, ?Y; reflexivity.
Qed.

(** Batch after batch while the pixel waits, and the batch that starts it. *)
Inductive waits (K : list Z -> skernel N S F C) P c2 junk jm : io -> list (list raw) -> io -> Prop :=
| w_none : forall a, waits K P c2 junk jm a [] a
| w_more : forall B a b rest c, Forall in_days (dates a B) -> short P (dates a B) -> zlen (dates a B) <= 240 ->
    update K P c2 junk jm B a = Ok b -> waits K P c2 junk jm b rest c -> waits K P c2 junk jm a (B :: rest) c.

Theorem C26_batches_partial : forall (K : list Z -> skernel N S F C) P c2 junk jm A Bs D a b c d, sp_pin P = false -> length junk = 6%nat ->
  Forall in_days (dates (blank C jm) A) -> short P (dates (blank C jm) A) -> zlen (dates (blank C jm) A) <= 240 ->
  detect K P c2 junk jm A = Ok a -> io_mode a = 12 -> waits K P c2 junk jm a Bs b -> update K P c2 junk jm D b = Ok c ->
  detect K P c2 junk jm (A ++ concat Bs ++ D) = Ok d -> standard_mode (io_mode d) -> K (io_rmse a) = K (io_rmse d) ->
  io_recs c = io_recs d /\ (io_mode c = 12 \/ io_mode c = io_mode d) /\
  (io_mode c = io_mode d -> c = with_rmse (io_rmse a) d) /\ (io_recs d = [] -> io_mode c = io_mode d).
Proof.
  intros K P c2 junk jm A Bs D a b c d Hp Hj HD W L HA Hm HW HU. revert d.
  assert (E : update K P c2 junk jm (concat Bs ++ D) a = Ok c).
  { clear HA. revert Hm HU. induction HW as [|B a b' rest c' H1 H2 H3 H4 HW IH]; intros Hm HU; [exact HU|].
    cbn [concat]. rewrite <- app_assoc. apply (@C26_waiting_partial K P c2 junk jm B (concat rest ++ D) a b' c); try assumption.
    apply IH; [|assumption]. destruct (@wait K P c2 junk jm B a b' Hm H1 H2 H3 H4) as [-> _]. reflexivity. }
  intros d. apply C26_first_partial; assumption.
Qed.

End Start.

(** ** Cases *)
(** Twenty observations over two years, one after the other: the pixel waits. *)
Definition thin : list raw := rows_every 730000 40 20 500.
Definition thin2 : list raw := rows_every 730800 40 4 500.
Definition rest : list raw := rows_every 730960 40 30 500 ++ rows_every 732160 20 12 900.
Definition waiting0 : io Z Z := match tdetect 8 thin with Ok a => a | _ => blank Z jm0 end.
Lemma waiting0_eq : detect toy (par 8 false) true junk0 jm0 thin = Ok waiting0.
Proof. vm_compute. reflexivity. Qed.
Definition waiting1 : io Z Z := match tupdate 8 thin2 waiting0 with Ok a => a | _ => blank Z jm0 end.
Lemma waiting1_eq : update toy (par 8 false) true junk0 jm0 thin2 waiting0 = Ok waiting1.
Proof. vm_compute. reflexivity. Qed.

Example C26_waiting_example : exists d, update toy (par 8 false) true junk0 jm0 (thin2 ++ rest) waiting0 = Ok d /\
  update toy (par 8 false) true junk0 jm0 rest waiting1 = Ok d /\ zlen (io_recs d) = 1.
Proof.
  eexists. split; [|split; [vm_compute; reflexivity|vm_compute; reflexivity]].
  apply (@C26_waiting_partial Z Z Z Z toy (par 8 false) true junk0 jm0 thin2 rest waiting0 waiting1).
  - vm_compute. reflexivity.
  - apply Forall_forall. intros d Hd. vm_compute in Hd. unfold in_days, launch. lia.
  - left. vm_compute. discriminate.
  - vm_compute. discriminate.
  - exact waiting1_eq.
  - vm_compute. reflexivity.
Qed.

Example C26_first_example : exists b d, tupdate 8 (rows_every 730800 40 20 500) waiting0 = Ok b /\
  tdetect 8 (thin ++ rows_every 730800 40 20 500) = Ok d /\ io_mode d = 1 /\ b = with_rmse (io_rmse waiting0) d.
Proof.
  eexists. eexists. split; [vm_compute; reflexivity|]. split; [vm_compute; reflexivity|]. split; [reflexivity|].
  eapply (@C26_first_partial Z Z Z Z toy (par 8 false) true junk0 jm0 thin (rows_every 730800 40 20 500) waiting0).
  - reflexivity.
  - reflexivity.
  - apply Forall_forall. intros d Hd. vm_compute in Hd. unfold in_days, launch. lia.
  - left. vm_compute. discriminate.
  - vm_compute. discriminate.
  - exact waiting0_eq.
  - vm_compute. reflexivity.
  - vm_compute. reflexivity.
  - vm_compute. reflexivity.
  - unfold standard_mode. cbn. auto.
  - reflexivity.
  - reflexivity.
Qed.

Definition waiting_h : io Z Z := match tupdate 8 (firstn 2 thin2) waiting0 with Ok a => a | _ => blank Z jm0 end.
Lemma waiting_h_eq : update toy (par 8 false) true junk0 jm0 (firstn 2 thin2) waiting0 = Ok waiting_h.
Proof. vm_compute. reflexivity. Qed.
Lemma waiting_h1_eq : update toy (par 8 false) true junk0 jm0 (skipn 2 thin2) waiting_h = Ok waiting1.
Proof. vm_compute. reflexivity. Qed.
Definition started : io Z Z := match tupdate 8 rest waiting1 with Ok a => a | _ => blank Z jm0 end.
Lemma started_eq : update toy (par 8 false) true junk0 jm0 rest waiting1 = Ok started.
Proof. vm_compute. reflexivity. Qed.
Definition at_once : io Z Z := match tdetect 8 (thin ++ concat [firstn 2 thin2; skipn 2 thin2] ++ rest) with Ok a => a | _ => blank Z jm0 end.
Lemma at_once_eq : detect toy (par 8 false) true junk0 jm0 (thin ++ concat [firstn 2 thin2; skipn 2 thin2] ++ rest) = Ok at_once.
Proof. vm_compute. reflexivity. Qed.
Lemma in_days_check : forall l, forallb (fun d => (launch <=? d) && (d <=? launch + 32767)) l = true -> Forall in_days l.
Proof. intros l H. apply Forall_forall. intros d Hd. rewrite forallb_forall in H. specialize (H d Hd). unfold in_days. lia. Qed.

Example C26_batches_example : waits toy (par 8 false) true junk0 jm0 waiting0 [firstn 2 thin2; skipn 2 thin2] waiting1 /\
  zlen (io_recs at_once) = 1 /\ io_recs started = io_recs at_once.
Proof.
  assert (W : waits toy (par 8 false) true junk0 jm0 waiting0 [firstn 2 thin2; skipn 2 thin2] waiting1).
  { apply w_more with (b := waiting_h); [apply in_days_check; vm_compute; reflexivity|left; vm_compute; discriminate|vm_compute; discriminate|exact waiting_h_eq|].
    apply w_more with (b := waiting1); [apply in_days_check; vm_compute; reflexivity|left; vm_compute; discriminate|vm_compute; discriminate|exact waiting_h1_eq|].
    constructor. }
  split; [exact W|]. split; [vm_compute; reflexivity|].
  apply (@C26_batches_partial Z Z Z Z toy (par 8 false) true junk0 jm0 thin [firstn 2 thin2; skipn 2 thin2] rest waiting0 waiting1 started at_once).
  - reflexivity.
  - reflexivity.
  - apply in_days_check. vm_compute. reflexivity.
  - left. vm_compute. discriminate.
  - vm_compute. discriminate.
  - exact waiting0_eq.
  - vm_compute. reflexivity.
  - exact W.
  - exact started_eq.
  - exact at_once_eq.
  - unfold standard_mode. replace (io_mode at_once) with 12 by (vm_compute; reflexivity). simpl. tauto.
  - reflexivity.
Qed.

(** ** Not so once a start was tried *)
(** Outliers above 500 hide those above 50 from the mask; a stretch with a
    value between 50 and 150 is not stable. *)
Definition masked (w : list obs) : option (nat -> bool) :=
  let big := existsb (fun o => 500 <? first_val o) w in
  Some (fun k => let v := first_val (nth k w zero_obs) in (500 <? v) || (negb big && (50 <? v) && (v <? 150))).
Definition hid (_ : list Z) : skernel Z Z Z Z :=
  mkSK masked (fun w => Some (first_val (last w zero_obs)))
       (fun _ w => if existsb (fun o => (50 <? first_val o) && (first_val o <? 150)) w then Fin 200 else Fin 0)
       dist (fun _ _ => Fin 0)
       (fun f _ _ => Some f) (fun _ w _ => Some (first_val (last w zero_obs))) (fun m _ o => dist m o) (fun _ _ _ => Fin 0)
       (fun m _ _ => m) (fun m _ _ => m) (fun m _ => m) (fun m => m) (fun m => m)
       (fun a => match a with Fin z => Some (Z.min z 32767) | NaN => None end)
       (fun a => match a with Fin z => Z.min z 32767 | NaN => 32767 end)
       (fun w => Some (level w)) (fun m _ _ => m).
Definition tried : list raw :=
  map (fun k => rw (730000 + 40 * Z.of_nat k) (match k with O => 300 | 5%nat => 1000 | 8%nat => 100 | _ => 10 end)) (seq 0 27).
Definition later : list raw := rows_every 731080 40 20 10 ++ rows_every 731880 40 20 400.

(** The update repeats the trial from the first observation of the queue, the
    outlier being gone: the first segment starts elsewhere. *)
Theorem C26_tried_refuted : exists A B a b d, batches_ok [A; B] /\
  detect hid (par 8 false) true junk0 jm0 A = Ok a /\ io_mode a = 12 /\
  update hid (par 8 false) true junk0 jm0 B a = Ok b /\ detect hid (par 8 false) true junk0 jm0 (A ++ B) = Ok d /\
  map (fun r => g_start r) (io_recs b) <> map (fun r => g_start r) (io_recs d).
Proof.
  exists tried, later. eexists. eexists. eexists. split; [apply batches_check; vm_compute; reflexivity|].
  split; [vm_compute; reflexivity|]. split; [reflexivity|].
  split; [vm_compute; reflexivity|]. split; [vm_compute; reflexivity|]. vm_compute. discriminate.
Qed.

Print Assumptions C26_waiting_partial.
Print Assumptions C26_first_partial.
Print Assumptions C26_batches_partial.
Print Assumptions C26_tried_refuted.
