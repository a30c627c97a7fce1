(** COLD as one pass over the clear observations (C116): the procedure in
    terms of lists, without indices, shared arrays or counters, and its
    agreement with the model of the C code. *)
From Verif Require Import Base ColdModel ColdSpec ColdLemmas ColdProof ColdProps ColdProps2.

(** ** The procedure, in the words of the COLD paper *)
Section Pass.
Variables (M D : Type) (K : kernel M D) (P : params).
Notation rec := (rec M D).
Notation conse := (Z.to_nat (p_conse P)).

(** The first and the last observation of a list that is never empty here *)
Notation first l := (hd dflt_obs l).
Notation final l := (last l dflt_obs).

(** Twelve observations over 366 days or more (cold.c 2987-3007) *)
Definition long (w : list obs) : bool := (12 <=? zlen w) && (366 <=? o_date (final w) - o_date (first w)).
(** Two neighbours more than the allowed gap apart (cold.c 3029-3047) *)
Fixpoint gappy (w : list obs) : bool :=
  match w with a :: ((b :: _) as t) => (p_gap P <? o_date b - o_date a) || gappy t | _ => false end.
(** The observations the mask does not flag (cold.c 3072-3088) *)
Definition kept (f : nat -> bool) (w : list obs) : list obs :=
  map snd (filter (fun p => negb (f (fst p))) (combine (seq 0 (length w)) w)).
(** Three observations for every coefficient (cold.c 3829) *)
Definition terms (n : Z) : Z := if n <? 3 * 6 then 4 else if n <? 3 * 8 then 6 else 8.
(** A deviation above the threshold; all of them, in one direction; a first
    one that is too large for anything but noise (cold.c 3541-3614, 4251-4393) *)
Definition exceeds (d : D) : bool := negb (fle (k_norm K d) (Fin (p_tcg P))).
Definition change (ds : list D) : bool := forallb exceeds ds && flt (k_angle K ds) (Fin (p_nsign P)).
Definition wild (ds : list D) : bool := match ds with d :: _ => flt (Fin (p_tmax P)) (k_norm K d) | [] => false end.
Definition devs (m : M) (nc : Z) (os : list obs) : list (obs * D) := map (fun o => (o, k_dev K m nc o)) os.

(** State between two observations (the variables of cold.c 2935-2979).  Kept observations, oldest first: those of
    the past, those since the last break (since the last gap before the first
    record) that no segment has, those of the present segment.  The record of
    the segment once it has a model, with its model and the observations this
    was fitted to; the number of observations when the segment was first
    fitted or last refitted; the deviations of the observations ahead. *)
Record zst := mkZ {
  z_old : list obs; z_pre : list obs; z_seg : list obs;
  z_cur : option rec; z_skip : Z; z_win : list (obs * D);
  z_recs : list rec; z_cm : list (Z * Z); z_log : list (event D)
}.
Definition at_obs (z : zst) (old pre seg : list obs) : zst :=
  mkZ old pre seg (z_cur z) (z_skip z) (z_win z) (z_recs z) (z_cm z) (z_log z).
Definition join (z : zst) (o : obs) : zst := at_obs z (z_old z) (z_pre z) (z_seg z ++ [o]).

(** Looking back from a new segment (cold.c 3432-3652), newest observation first: up to conse
    observations are tested; on a change the segment starts here, otherwise
    the newest joins it unless it is noise. *)
Fixpoint look (m : M) (rp seg : list obs) (lw : list (obs * D)) (cm : list (Z * Z)) (log : list (event D))
  : out (list obs * list obs * list (obs * D) * list (Z * Z) * list (event D)) :=
  match rp with
  | [] => Ok ([], seg, lw, cm, log)
  | o :: rp' =>
      let w := devs m 4 (firstn conse rp) in
      let ds := map snd w in
      '(cm1, log1) <- (if p_conse P <=? zlen rp then cm_update K P cm log (o_date (first seg)) ds else Ok (cm, log)) ;;
      let log2 := EvLook (o_date o) w (change ds) :: log1 in
      if change ds then Ok (rp, seg, w, cm1, log2)
      else look m rp' (if wild ds then seg else o :: seg) w cm1 log2
  end.

(** One more record, unless the buffer is full (cold.c 3756-3771, 4354-4370) *)
Definition close (rs : list rec) (r : rec) : out (list rec) := if 39 <=? zlen rs then UB else Ok (rs ++ [r]).

(** Trying to start a segment with the observations [z_seg] (cold.c 3015-3773): [inl], not yet;
    [inr], with a model. *)
Definition try_start (z : zst) (ahead : list obs) : out (zst + zst) :=
  let seg := z_seg z in
  if gappy seg then
    Ok (inl (match z_recs z with
             | [] => at_obs z (z_old z ++ z_pre z ++ [first seg]) [] (tl seg)
             | _ => at_obs z (z_old z) (z_pre z ++ [first seg]) (tl seg)
             end))
  else
  flags <- of_opt (k_mask K (seg ++ ahead)) ;;
  let w := kept flags seg in
  if negb (long w) then Ok (inl z) else
  m <- of_opt (k_fit K 4 w) ;;
  if flt (Fin (p_tcg P)) (k_stab K m w) then Ok (inl (at_obs z (z_old z) (z_pre z ++ [first w]) (tl w)))
  else
  '(rp, seg', lw, cm, log) <- look m (rev (z_pre z)) w [] (z_cm z) (z_log z) ;;
  let before := rev rp in
  rs <- match z_recs z with
        | [] => if 6 <=? zlen before then
                  m2 <- of_opt (k_fit K 4 before) ;;
                  close [] (mkRec (o_date (first before)) (o_date (final before)) (o_date (first seg'))
                              (zlen before + 1) 14 100 m2 before lw)
                else Ok []
        | rs => Ok rs
        end ;;
  Ok (inr (mkZ (z_old z ++ before) [] seg' None 0 [] rs cm log)).

(** The model the observations ahead are compared with, and their deviations (cold.c 3802-4246):
    fitted anew at first and up to 24 observations, later when enough have
    come; then only the last one is compared, with the rmse of its season. *)
Definition watch (z : zst) (ahead : list obs) : out zst :=
  let seg := z_seg z in
  let n := zlen seg in
  let skip := if z_skip z =? 0 then n else z_skip z in
  let anew :=
    m <- of_opt (k_fit K (terms n) seg) ;;
    Ok (mkZ (z_old z) (z_pre z) seg
          (Some (mkRec (o_date (first seg)) (o_date (final seg)) 0 n (terms n) 0 m seg [])) skip (devs m (terms n) ahead)
          (z_recs z) (z_cm z) (z_log z)) in
  match z_cur z with
  | None => anew
  | Some r =>
      if n <=? 24 then anew else
      let more := n - zlen (r_win r) in
      '(r, skip) <-
        (if (1 <=? more) && (p_skip P skip <? more) then
           m <- of_opt (k_fit K (terms n) seg) ;;
           Ok (mkRec (t_start r) (t_end r) (t_break r) n (terms n) (change_prob r) m seg (r_devs r), n)
         else Ok (r, skip)) ;;
      let o := final ahead in
      Ok (mkZ (z_old z) (z_pre z) seg
            (Some (mkRec (t_start r) (o_date (final seg)) (t_break r) (num_obs r) (category r) (change_prob r)
                     (r_model r) (r_win r) (r_devs r))) skip
            (tl (z_win z) ++ [(o, k_devr K (r_model r) (terms n) (3 * category r) (r_win r) o)])
            (z_recs z) (z_cm z) (z_log z))
  end.
(** The verdict on the next observation [o] (cold.c 4248-4410): the first of a new segment, noise
    or one more of the present segment. *)
Definition decide (z : zst) (o : obs) : out zst :=
  let ds := map snd (z_win z) in
  '(cm, log) <- cm_update K P (z_cm z) (z_log z) (o_date o) ds ;;
  let log := EvMon (o_date o) (z_win z) (change ds) :: log in
  match z_cur z with
  | None => UB
  | Some r =>
      if change ds then
        rs <- close (z_recs z) (mkRec (t_start r) (t_end r) (o_date o) (num_obs r) (category r) 100
                                  (r_model r) (r_win r) (z_win z)) ;;
        Ok (mkZ (z_old z ++ z_pre z ++ z_seg z) [] [o] None 0 [] rs cm log)
      else
        Ok (mkZ (z_old z) (z_pre z) (if wild ds then z_seg z else z_seg z ++ [o]) (z_cur z) (z_skip z) (z_win z)
              (z_recs z) cm log)
  end.

(** One observation (cold.c 2979-4423) *)
Definition advance (z : zst) (o : obs) (rest : list obs) : out zst :=
  let ahead := firstn conse (o :: rest) in
  if long (z_seg z) then
    match z_cur z with
    | Some _ => z' <- watch z ahead ;; decide z' o
    | None =>
        r <- try_start z ahead ;;
        match r with
        | inl z' => Ok (join z' o)
        | inr z' => z2 <- watch z' ahead ;; decide z2 o
        end
    end
  else Ok (join z o).
(** All observations that have conse ones from themselves on (cold.c 2979) *)
Fixpoint pass (z : zst) (rest : list obs) : out (zst * list obs) :=
  match rest with
  | [] => Ok (z, [])
  | o :: t => if p_conse P <=? zlen rest then z' <- advance z o t ;; pass z' t else Ok (z, rest)
  end.

(** The end of the series, with a model (cold.c 4431-4516): the longest end of the window all of
    whose ends start with a deviation above the threshold and have one
    direction; the whole window does not count. *)
Definition doubtful (w : list (obs * D)) : bool :=
  match map snd w with [] => true | d :: t => exceeds d && negb (fle (Fin (p_nsign P)) (k_angle K (d :: t))) end.
Fixpoint suspects (w : list (obs * D)) : list (obs * D) :=
  match w with
  | [] => []
  | a :: t => if doubtful w && (length (suspects t) =? length t)%nat then w else suspects t
  end.
Definition last_record (z : zst) (r : rec) (rest : list obs) : rec :=
  let s := suspects (z_win z) in
  let s := if (length s =? length (z_win z))%nat then [] else s in
  let t_end := o_date (final (z_seg z ++ firstn (length rest - length s) rest)) in
  let prob := zlen s * 100 / p_conse P in
  match s with
  | [] => mkRec (t_start r) t_end (t_break r) (num_obs r) (category r) prob (r_model r) (r_win r) (r_devs r)
  | (o, _) :: _ => mkRec (t_start r) t_end (o_date o) (num_obs r) (category r) prob (r_model r) (r_win r) s
  end.
(** ... and without one (cold.c 4517-4725): a simple model of what is left, if that is six
    observations before and after the mask. *)
Definition left_over (z : zst) (rest : list obs) : out (list rec) :=
  let w := match z_recs z with [] => z_old z | _ => [] end ++ z_pre z ++ z_seg z ++ rest in
  w <- (if 6 <=? zlen w then flags <- of_opt (k_mask K w) ;; Ok (kept flags w) else Ok w) ;;
  if 6 <=? zlen w then
    m <- of_opt (k_fit K 4 w) ;;
    let since := match rev (z_recs z) with [] => o_date (first w) | r :: _ => t_break r end in
    Ok (z_recs z ++ [mkRec since (o_date (final w)) 0 (zlen w) 24 0 m w []])
  else Ok (z_recs z).

(** The whole series (cold.c 2935-4725) *)
Definition cold_pass (x : list obs) (cm : list (Z * Z)) : out (result M D) :=
  '(z, rest) <- pass (mkZ [] [] (firstn 12 x) None 0 [] [] cm []) (skipn 12 x) ;;
  rs <- match z_cur z with Some r => Ok (z_recs z ++ [last_record z r rest]) | None => left_over z rest end ;;
  Ok (mkRes rs (z_cm z) (z_log z) (z_old z ++ z_pre z ++ z_seg z ++ rest)).

(** ** Agreement *)
Definition rel {A B} (R : A -> B -> Prop) (a : out A) (b : out B) : Prop :=
  match a, b with Ok x, Ok y => R x y | Fail, Fail => True | UB, UB => True | Fuel, Fuel => True | _, _ => False end.
Lemma rel_bind : forall A B A' B' (R : A -> B -> Prop) (Q : A' -> B' -> Prop) a b (f : A -> out A') (g : B -> out B'),
  rel R a b -> (forall x y, R x y -> rel Q (f x) (g y)) -> rel Q (bind a f) (bind b g).
Proof. intros A B A' B' R Q [x| | |] [y| | |] f g H F; cbn in *; try contradiction; auto. Qed.
Lemma rel_refl : forall A (a : out A), rel eq a a.
Proof. intros A [a| | |]; cbn; auto. Qed.
Lemma rel_eq : forall A (a b : out A), rel eq a b -> a = b.
Proof. intros A [a| | |] [b| | |]; cbn; intros H; try contradiction; congruence. Qed.

(** Vocabulary *)
Lemma terms_code : forall n, terms n = update_cft n.
Proof. reflexivity. Qed.
Lemma close_code : forall rs r, close rs r = push_rec rs r.
Proof. intros rs r. unfold close, push_rec. replace (40 <=? zlen rs + 1) with (39 <=? zlen rs) by lia. reflexivity. Qed.
Lemma wild_code : forall ds, wild ds = outlier0 K P ds.
Proof. reflexivity. Qed.
Lemma kept_from : forall f w k, keep_from f k w = map snd (filter (fun p => negb (f (fst p))) (combine (seq k (length w)) w)).
Proof.
  induction w as [|a t IH]; intros k; [reflexivity|]. cbn [keep_from length seq combine filter fst]. rewrite IH.
  destruct (f k); reflexivity.
Qed.
Lemma kept_code : forall f w, kept f w = keep_from f 0 w.
Proof. intros. symmetry. apply kept_from. Qed.
Lemma change_code : forall ds, p_tcg P < p_cap P -> change ds = confirmed K P ds.
Proof.
  intros ds Hc. apply eq_true_iff_eq. rewrite confirmed_iff by exact Hc. unfold change. rewrite andb_true_iff.
  assert (A : forallb exceeds ds = true <-> Forall (anomalous K P) ds).
  { rewrite forallb_forall, Forall_forall. unfold exceeds, anomalous.
    split; intros H d Hd; specialize (H d Hd); destruct (k_norm K d); cbn in *; auto; lia. }
  assert (B : flt (k_angle K ds) (Fin (p_nsign P)) = true <-> consistent K P ds).
  { unfold consistent, flt. destruct (k_angle K ds) as [|a]; split.
    - discriminate.
    - intros (b & E & _). discriminate.
    - intros H. exists a. split; [reflexivity|lia].
    - intros (b & E & L). injection E as ->. lia. }
  tauto.
Qed.
Lemma max_gap_nonneg : forall w, 0 <= max_gap w.
Proof. induction w as [|a [|b t] IH]; cbn [max_gap] in *; lia. Qed.
Lemma asc_cons : forall a l, asc (a :: l) -> asc l /\ Forall (fun b => o_date a < o_date b) l.
Proof.
  intros a l H. unfold asc, ascending in H. cbn [map] in H. inversion H; subst. split; [assumption|].
  rewrite Forall_forall in *. intros b Hb. apply H3. apply in_map. exact Hb.
Qed.
Lemma gappy_gap : forall w, 0 <= p_gap P -> gappy w = (p_gap P <? max_gap w).
Proof.
  intros w Hg. induction w as [|a [|b t] IH]; [cbn; lia|cbn; lia|].
  change (gappy (a :: b :: t)) with ((p_gap P <? o_date b - o_date a) || gappy (b :: t)).
  change (max_gap (a :: b :: t)) with (Z.max (o_date b - o_date a) (max_gap (b :: t))). rewrite IH. lia.
Qed.
Lemma gappy_code : forall w, asc w -> 2 <= zlen w -> gappy w = (p_gap P <? max_gap w).
Proof.
  intros w A L. destruct (Z_le_gt_dec 0 (p_gap P)) as [H|H]; [apply gappy_gap; exact H|].
  destruct w as [|a [|b t]]; [cbn in L; lia|cbn in L; lia|].
  change (gappy (a :: b :: t)) with ((p_gap P <? o_date b - o_date a) || gappy (b :: t)).
  pose proof (max_gap_nonneg (a :: b :: t)). apply asc_cons in A. destruct A as [_ A]. inversion A; subst. lia.
Qed.

(** Positions *)
Lemma get_mid : forall (a b : list obs) o i, i = zlen a -> get (a ++ o :: b) i = Ok o.
Proof.
  intros a b o i ->. unfold get, zlen. replace (Z.of_nat (length a) <? 0) with false by lia. rewrite Nat2Z.id.
  rewrite nth_error_app2, Nat.sub_diag by lia. reflexivity.
Qed.
Lemma split_first : forall l : list obs, l <> [] -> l = hd dflt_obs l :: tl l.
Proof. intros [|a l] H; [congruence|reflexivity]. Qed.
Lemma split_final : forall l : list obs, l <> [] -> l = removelast l ++ [last l dflt_obs].
Proof. intros l H. apply app_removelast_last. exact H. Qed.
Lemma zlen_cons : forall A (a : A) l, zlen (a :: l) = zlen l + 1.
Proof. intros. unfold zlen. cbn [length]. lia. Qed.
Lemma zlen_nil : forall A, zlen (@nil A) = 0.
Proof. reflexivity. Qed.
Lemma get_first : forall (a l b : list obs) i, l <> [] -> i = zlen a -> get (a ++ l ++ b) i = Ok (hd dflt_obs l).
Proof. intros a l b i H E. rewrite (split_first H) at 1. cbn [app]. apply get_mid. exact E. Qed.
Lemma get_final : forall (a l b : list obs) i, l <> [] -> i = zlen a + zlen l - 1 -> get (a ++ l ++ b) i = Ok (last l dflt_obs).
Proof.
  intros a l b i H E. rewrite (split_final H) at 1. rewrite <- app_assoc, app_assoc. cbn [app]. apply get_mid.
  rewrite E, (split_final H) at 1. rewrite !zlen_app, zlen_cons, zlen_nil. lia.
Qed.
Lemma slice_mid : forall (a l b : list obs) i n, i = zlen a -> n = zlen l -> slice (a ++ l ++ b) i n = Ok l.
Proof.
  intros a l b i n -> ->. rewrite slice_ok; [|unfold zlen; lia|unfold zlen; lia|rewrite !zlen_app; pose proof (zlen_nonneg b); lia].
  unfold zlen. rewrite !Nat2Z.id, skipn_app, skipn_all, Nat.sub_diag. cbn [skipn app].
  rewrite firstn_app, firstn_all, Nat.sub_diag. cbn [firstn]. rewrite app_nil_r. reflexivity.
Qed.
Lemma nonempty : forall (A : Type) (l : list A), 0 < zlen l -> l <> [].
Proof. intros A [|a l] H; [cbn in H; lia|discriminate]. Qed.
Lemma zlen_rev : forall (A : Type) (l : list A), zlen (rev l) = zlen l.
Proof. intros. unfold zlen. rewrite rev_length. reflexivity. Qed.

(** Looking back *)
Lemma back_obs : forall n k rp (old tail : list obs) (f : nat -> Z), (k + n <= length rp)%nat ->
  (forall c, f c = zlen old + zlen rp - 1 - Z.of_nat c) ->
  mapM_idx (old ++ rev rp ++ tail) f k n = Ok (firstn n (skipn k rp)).
Proof.
  induction n as [|n IH]; intros k rp old tail f L F; [reflexivity|]. cbn [mapM_idx].
  assert (Hk : (k < length rp)%nat) by lia.
  destruct (skipn k rp) as [|o t] eqn:E; [apply (f_equal (@length _)) in E; rewrite skipn_length in E; cbn in E; lia|].
  assert (S1 : rp = firstn k rp ++ o :: t) by (rewrite <- E; symmetry; apply firstn_skipn).
  assert (S2 : skipn (S k) rp = t).
  { rewrite S1, skipn_app. replace (S k - length (firstn k rp))%nat with 1%nat by (rewrite firstn_length; lia).
    rewrite skipn_all2 by (rewrite firstn_length; lia). reflexivity. }
  assert (G : get (old ++ rev rp ++ tail) (f k) = Ok o).
  { rewrite F. rewrite S1 at 1. rewrite rev_app_distr. cbn [rev]. rewrite <- !app_assoc. cbn [app]. rewrite app_assoc.
    apply get_mid. rewrite zlen_app, zlen_rev.
    assert (zlen rp = zlen (firstn k rp) + (zlen t + 1)) by (rewrite S1 at 1; rewrite zlen_app, zlen_cons; reflexivity).
    assert (zlen (firstn k rp) = Z.of_nat k) by (unfold zlen; rewrite firstn_length; lia). lia. }
  rewrite G. cbn [bind]. rewrite IH; [|lia|exact F]. rewrite S2. reflexivity.
Qed.
Lemma del_mid : forall (a b : list obs) o, del (length a) (a ++ o :: b) = a ++ b.
Proof.
  intros a b o. unfold del. rewrite firstn_app, firstn_all, Nat.sub_diag. cbn [firstn]. rewrite app_nil_r. f_equal.
  rewrite skipn_app, skipn_all2 by lia. replace (S (length a) - length a)%nat with 1%nat by lia. reflexivity.
Qed.

Section Agree.
Hypothesis Hc : 1 <= p_conse P.
Hypothesis Hcap : p_tcg P < p_cap P.

Lemma look_code : forall m old rest rp seg lw (s : st M D), seg <> [] ->
  s_live s = old ++ rev rp ++ seg ++ rest -> s_i s = zlen old + zlen rp + zlen seg -> s_start s = zlen old + zlen rp + 1 ->
  rel (fun a b => let '(rp', seg', lw', cm', log') := a in
         (exists e, seg' = e ++ seg) /\ subseq (rev rp' ++ seg') (rev rp ++ seg) /\ exists stale', b = (mkSt (old ++ rev rp' ++ seg' ++ rest) stale' (zlen old + zlen rp' + zlen seg') (zlen old + zlen rp' + 1)
            (s_dense s) (s_train s) (s_count s) (s_preend s) (s_oldlen s) (s_skip s) (s_fit s) (s_win s) (s_cur s) (s_recs s) cm' log', lw'))
    (look m rp seg lw (s_cm s) (s_log s)) (lookback K P (length rp) m (zlen old + 1) lw s).
Proof.
  intros m old rest rp. induction rp as [|o rp IH]; intros seg lw s Hs El Ei Et.
  - cbn [look lookback length]. cbn. split; [exists []; reflexivity|]. split; [apply subseq_refl|]. exists (s_stale s). rewrite zlen_nil in *. cbn [rev app] in El.
    destruct s as [v1 v2 v3 v4 v5 v6 v7 v8 v9 v10 v11 v12 v13 v14 v15 v16]. cbn [s_live s_i s_start] in *. subst. reflexivity.
  - cbn [look lookback length].
    replace (zlen old + 1 - 1 + Z.of_nat (length rp)) with (zlen old + zlen rp) by (unfold zlen; lia).
    replace (zlen old + zlen rp - (zlen old + 1 - 1) + 1) with (zlen (o :: rp)) by (rewrite zlen_cons; lia).
    set (ic := if zlen (o :: rp) <? p_conse P then zlen (o :: rp) else p_conse P).
    assert (Hic : 1 <= ic <= zlen (o :: rp) /\ (p_conse P <=? ic) = (p_conse P <=? zlen (o :: rp)) /\ firstn (Z.to_nat ic) (o :: rp) = firstn conse (o :: rp)).
    { unfold ic. pose proof (zlen_nonneg rp). destruct (zlen (o :: rp) <? p_conse P) eqn:E; rewrite zlen_cons in *.
      - split; [lia|]. split; [lia|]. rewrite !firstn_all2 by (cbn [length]; unfold zlen in *; lia). reflexivity.
      - split; [lia|]. split; [lia|reflexivity]. }
    destruct Hic as (I1 & I2 & I3). replace (ic =? 0) with false by lia.
    rewrite El, back_obs; [|unfold zlen in I1; cbn [length] in *; lia|intros c; rewrite zlen_cons; lia].
    cbn [bind skipn]. rewrite I3, I2. fold (devs m 4 (firstn conse (o :: rp))). set (w := devs m 4 (firstn conse (o :: rp))).
    assert (G1 : get (old ++ rev (o :: rp) ++ seg ++ rest) (zlen old + zlen rp + 1) = Ok (hd dflt_obs seg)).
    { rewrite app_assoc. apply get_first; [exact Hs|]. rewrite zlen_app, zlen_rev, zlen_cons. lia. }
    assert (G2 : get (old ++ rev (o :: rp) ++ seg ++ rest) (zlen old + zlen rp) = Ok o).
    { cbn [rev]. rewrite <- app_assoc, app_assoc. cbn [app]. apply get_mid. rewrite zlen_app, zlen_rev. reflexivity. }
    rewrite G1, G2. cbn [bind].
    apply rel_bind with (R := eq); [destruct (p_conse P <=? zlen (o :: rp)); apply rel_refl|].
    intros [cm1 log1] ? <-. rewrite (change_code (map snd w) Hcap). destruct (confirmed K P (map snd w)).
    + cbn [rel]. split; [exists []; reflexivity|]. split; [apply subseq_refl|]. exists (s_stale s). rewrite Ei, Et. reflexivity.
    + rewrite wild_code. destruct (outlier0 K P (map snd w)) eqn:Eo.
      * unfold drop_obs. cbn [s_live s_stale s_i].
        assert (Ed : del (Z.to_nat (zlen old + zlen rp)) (old ++ rev (o :: rp) ++ seg ++ rest) = old ++ rev rp ++ seg ++ rest).
        { replace (old ++ rev (o :: rp) ++ seg ++ rest) with ((old ++ rev rp) ++ o :: (seg ++ rest)) by (cbn [rev]; rewrite <- !app_assoc; reflexivity).
          rewrite (app_assoc old (rev rp)).
          replace (Z.to_nat (zlen old + zlen rp)) with (length (old ++ rev rp)) by (rewrite app_length, rev_length; unfold zlen; lia).
          apply del_mid. }
        rewrite Ed.
        match goal with |- rel _ _ (lookback K P _ m _ _ ?s') => specialize (IH seg w s' Hs) end.
        cbn [s_live s_stale s_i s_start s_dense s_train s_count s_preend s_oldlen s_skip s_fit s_win s_cur s_recs s_cm s_log] in IH.
        specialize (IH eq_refl ltac:(rewrite Ei, zlen_cons; lia) ltac:(lia)).
        destruct (look m rp seg w cm1 _) as [[[[[rp' seg'] lw'] cm'] log']| | |]; cbn [rel] in *;
          destruct (lookback K P (length rp) m (zlen old + 1) w _); try exact IH.
        destruct IH as (R1 & R2 & R). split; [exact R1|]. split; [|exact R]. apply (subseq_trans R2). cbn [rev]. rewrite <- app_assoc.
        apply subseq_app; [apply subseq_refl|]. apply sub_drop, subseq_refl.
      * match goal with |- rel _ _ (lookback K P _ m _ _ ?s') => specialize (IH (o :: seg) w s' ltac:(discriminate)) end.
        cbn [s_live s_stale s_i s_start s_dense s_train s_count s_preend s_oldlen s_skip s_fit s_win s_cur s_recs s_cm s_log] in IH.
        assert (X : s_live s = old ++ rev rp ++ (o :: seg) ++ rest) by (rewrite El; cbn [rev]; rewrite <- app_assoc; reflexivity).
        rewrite El in X. specialize (IH X ltac:(rewrite Ei, !zlen_cons; lia) ltac:(lia)).
        destruct (look m rp (o :: seg) w cm1 _) as [[[[[rp' seg'] lw'] cm'] log']| | |]; cbn [rel] in *;
          destruct (lookback K P (length rp) m (zlen old + 1) w _); try exact IH.
        destruct IH as ((e & ->) & R2 & R). split; [exists (e ++ [o]); rewrite <- app_assoc; reflexivity|]. split; [|exact R].
        apply (subseq_trans R2). cbn [rev]. rewrite <- app_assoc. apply subseq_refl.
Qed.

Lemma ahead_obs : forall n k (a rest : list obs) (f : nat -> Z), (k + n <= length rest)%nat ->
  (forall c, f c = zlen a + Z.of_nat c) -> mapM_idx (a ++ rest) f k n = Ok (firstn n (skipn k rest)).
Proof.
  induction n as [|n IH]; intros k a rest f L F; [reflexivity|]. cbn [mapM_idx].
  destruct (skipn k rest) as [|o t] eqn:E; [apply (f_equal (@length _)) in E; rewrite skipn_length in E; cbn in E; lia|].
  assert (S1 : rest = firstn k rest ++ o :: t) by (rewrite <- E; symmetry; apply firstn_skipn).
  assert (S2 : skipn (S k) rest = t).
  { rewrite S1, skipn_app. replace (S k - length (firstn k rest))%nat with 1%nat by (rewrite firstn_length; lia).
    rewrite skipn_all2 by (rewrite firstn_length; lia). reflexivity. }
  assert (G : get (a ++ rest) (f k) = Ok o).
  { rewrite F. rewrite S1 at 1. rewrite app_assoc. apply get_mid. rewrite zlen_app. unfold zlen. rewrite firstn_length. lia. }
  rewrite G. cbn [bind]. rewrite IH; [|lia|exact F]. rewrite S2. reflexivity.
Qed.
Lemma firstn_last : forall n (l : list obs), (n < length l)%nat -> firstn n l ++ [last (firstn (S n) l) dflt_obs] = firstn (S n) l.
Proof.
  intros n l H. rewrite <- (removelast_firstn l H). symmetry. apply app_removelast_last.
  destruct l; [cbn in H; lia|discriminate].
Qed.

(** What the state of the C code has in common with that of the pass *)
Record Core (z : zst) (s : st M D) (rest : list obs) : Prop := mkCore {
  q_live : s_live s = z_old z ++ z_pre z ++ z_seg z ++ rest;
  q_i : s_i s = zlen (z_old z) + zlen (z_pre z) + zlen (z_seg z);
  q_start : s_start s = zlen (z_old z) + zlen (z_pre z) + 1;
  q_asc : asc (s_live s);
  q_ne : z_seg z <> [];
  q_cur : s_cur s = z_cur z; q_skip : s_skip s = z_skip z;
  q_recs : s_recs s = z_recs z; q_cm : s_cm s = z_cm z; q_log : s_log s = z_log z
}.
Record Fitted (z : zst) (s : st M D) (r : rec) : Prop := mkFitted {
  f_cur : z_cur z = Some r; f_train : s_train s = true; f_count : s_count s <> 0;
  f_pre : s_preend s = zlen (z_old z) + zlen (z_pre z) + zlen (r_win r);
  f_old : s_oldlen s = zlen (r_win r); f_fit : s_fit s = Some (r_model r); f_win : s_win s = z_win z;
  f_seg : exists t, z_seg z = r_win r ++ t;
  f_cat : category r = update_cft (zlen (r_win r)); f_12 : 12 <= zlen (r_win r)
}.
Definition Ahead (z : zst) (rest : list obs) : Prop :=
  length (z_win z) = conse /\ map fst (tl (z_win z)) = firstn (conse - 1) rest.
Definition Search (z : zst) (s : st M D) (rest : list obs) : Prop :=
  z_cur z = None /\ s_train s = false /\ z_skip z = 0 /\
  match rev (z_recs z) with
  | [] => s_dense s = zlen (z_old z) + 1
  | r :: _ => Forall (fun o => o_date o < t_break r) (z_old z) /\ Forall (fun o => t_break r <= o_date o) (z_pre z ++ z_seg z ++ rest)
  end.
Definition Rel (z : zst) (s : st M D) (rest : list obs) : Prop :=
  Core z s rest /\ (Search z s rest \/ exists r, Fitted z s r /\ Ahead z rest /\ long (z_seg z) = true).

Ltac red_st := cbn [s_live s_stale s_i s_start s_dense s_train s_count s_preend s_oldlen s_skip s_fit s_win s_cur s_recs s_cm s_log
  z_old z_pre z_seg z_cur z_skip z_win z_recs z_cm z_log at_obs join
  t_start t_end t_break num_obs category change_prob r_model r_win r_devs] in *.

Lemma watch_code : forall z s o rest, Core z s (o :: rest) -> p_conse P <= zlen (o :: rest) -> long (z_seg z) = true ->
  (z_cur z = None /\ s_count s = 0 /\ s_train s = true \/ exists r, Fitted z s r /\ Ahead z (o :: rest)) ->
  rel (fun z' s' => Core z' s' (o :: rest) /\ z_seg z' = z_seg z /\ (exists r, Fitted z' s' r) /\ length (z_win z') = conse /\ map fst (z_win z') = firstn conse (o :: rest))
    (watch z (firstn conse (o :: rest))) (mon_fit K P s).
Proof.
  intros z s o rest C Hl Hlong Hor. destruct C as [Cl Ci Cs Ca Cn Cc Ck Cr Cm Cg].
  set (a := z_old z ++ z_pre z) in *.
  assert (Za : zlen a = zlen (z_old z) + zlen (z_pre z)) by (unfold a; apply zlen_app).
  assert (El : s_live s = a ++ z_seg z ++ o :: rest) by (unfold a; rewrite <- app_assoc; exact Cl).
  unfold mon_fit, watch. rewrite Ci, Cs, Ck.
  replace (zlen (z_old z) + zlen (z_pre z) + zlen (z_seg z) - (zlen (z_old z) + zlen (z_pre z) + 1) + 1) with (zlen (z_seg z)) by lia.
  replace (zlen (z_old z) + zlen (z_pre z) + 1 - 1) with (zlen a) by lia. rewrite El.
  rewrite (@get_final a (z_seg z) (o :: rest)) by (auto; lia). rewrite (@get_first a (z_seg z) (o :: rest)) by auto. cbn [bind].
  unfold long in Hlong. apply andb_true_iff in Hlong. destruct Hlong as [H12 H366].
  set (n := zlen (z_seg z)) in *. set (skip := if z_skip z =? 0 then n else z_skip z).
  assert (Lc : (conse <= length (o :: rest))%nat) by (unfold zlen in Hl; lia).
  assert (La : length (firstn conse (o :: rest)) = conse) by (rewrite firstn_length; lia).
  set (new := (w <- slice (a ++ z_seg z ++ o :: rest) (zlen a) n;;
     m <- of_opt (k_fit K (update_cft n) w);;
     os <- mapM_idx (a ++ z_seg z ++ o :: rest) (fun c => zlen (z_old z) + zlen (z_pre z) + n + (Z.of_nat c + 1) - 1) 0 conse;;
     Ok (mkSt (a ++ z_seg z ++ o :: rest) (s_stale s) (zlen (z_old z) + zlen (z_pre z) + n) (zlen (z_old z) + zlen (z_pre z) + 1)
           (s_dense s) (s_train s) (o_date (last (z_seg z) dflt_obs) - o_date (hd dflt_obs (z_seg z))) (zlen (z_old z) + zlen (z_pre z) + n) n skip (Some m)
           (map (fun o0 => (o0, k_dev K m (update_cft n) o0)) os)
           (Some (mkRec (o_date (hd dflt_obs (z_seg z))) (o_date (last (z_seg z) dflt_obs)) 0 n (update_cft n) 0 m w [])) (s_recs s) (s_cm s) (s_log s)))).
  assert (Hnew : s_train s = true -> rel (fun z' s' => Core z' s' (o :: rest) /\ z_seg z' = z_seg z /\ (exists r, Fitted z' s' r) /\ length (z_win z') = conse /\ map fst (z_win z') = firstn conse (o :: rest))
    (m <- of_opt (k_fit K (terms n) (z_seg z)) ;;
     Ok (mkZ (z_old z) (z_pre z) (z_seg z)
          (Some (mkRec (o_date (hd dflt_obs (z_seg z))) (o_date (last (z_seg z) dflt_obs)) 0 n (terms n) 0 m (z_seg z) [])) skip (devs m (terms n) (firstn conse (o :: rest)))
          (z_recs z) (z_cm z) (z_log z))) new).
  { intros Tr. unfold new. rewrite slice_mid by reflexivity. cbn [bind]. rewrite terms_code.
    apply rel_bind with (R := eq); [apply rel_refl|]. intros m ? <-.
    rewrite (app_assoc a), (@ahead_obs conse 0 (a ++ z_seg z) (o :: rest)); [|lia|intros c; rewrite zlen_app; fold n; lia].
    cbn [bind skipn rel]. rewrite <- app_assoc.
    assert (Hd : length (devs m (update_cft n) (firstn conse (o :: rest))) = conse) by (unfold devs; rewrite map_length; exact La).
    split; [|split; [|split; [|split]]]; red_st.
    - constructor; red_st; auto; [rewrite <- Cl; symmetry; exact El|rewrite <- El; exact Ca].
    - reflexivity.
    - eexists. constructor; red_st; try reflexivity; auto; try lia.
      + exists []. symmetry. apply app_nil_r.
      + red_st. fold n. lia.
    - exact Hd.
    - unfold devs. rewrite map_map. cbn [fst]. apply map_id. }
  destruct Hor as [(Nc & Zc & Tr)|(r & F & W)].
  - rewrite Nc, Zc. cbn [Z.eqb orb]. apply Hnew. exact Tr.
  - destruct F as [Fc Ft Fn Fp Fo Ff Fw (t & Fs) Fcat F12]. rewrite Fc, Cc, Fc, Ff. replace (s_count s =? 0) with false by lia. cbn [orb].
    destruct (n <=? 24) eqn:E24; [apply Hnew; exact Ft|].
    rewrite Fp. replace (zlen (z_old z) + zlen (z_pre z) + n - (zlen (z_old z) + zlen (z_pre z) + zlen (r_win r))) with (n - zlen (r_win r)) by lia.
    destruct W as [W1 W2].
    assert (Rest : forall m r' sk' cnt pre ol, m = r_model r' -> ol = zlen (r_win r') -> cnt <> 0 -> pre = zlen (z_old z) + zlen (z_pre z) + zlen (r_win r') ->
      (exists t, z_seg z = r_win r' ++ t) -> category r' = update_cft (zlen (r_win r')) -> 12 <= zlen (r_win r') ->
      rel (fun z' s' => Core z' s' (o :: rest) /\ z_seg z' = z_seg z /\ (exists r, Fitted z' s' r) /\ length (z_win z') = conse /\ map fst (z_win z') = firstn conse (o :: rest))
       (Ok (mkZ (z_old z) (z_pre z) (z_seg z)
            (Some (mkRec (t_start r') (o_date (last (z_seg z) dflt_obs)) (t_break r') (num_obs r') (category r') (change_prob r') (r_model r') (r_win r') (r_devs r'))) sk'
            (tl (z_win z) ++ [(last (firstn conse (o :: rest)) dflt_obs, k_devr K (r_model r') (terms n) (3 * category r') (r_win r') (last (firstn conse (o :: rest)) dflt_obs))])
            (z_recs z) (z_cm z) (z_log z)))
       (let r2 := mkRec (t_start r') (o_date (last (z_seg z) dflt_obs)) (t_break r') (num_obs r') (category r') (change_prob r') (r_model r') (r_win r') (r_devs r') in
        let n_rmse := 3 * category r2 in
        if ol =? 0 then Fail else
        if ol <? n_rmse then UB else
        wo <- slice (a ++ z_seg z ++ o :: rest) (zlen a) ol ;;
        o0 <- get (a ++ z_seg z ++ o :: rest) (zlen (z_old z) + zlen (z_pre z) + n + p_conse P - 1) ;;
        Ok (mkSt (a ++ z_seg z ++ o :: rest) (s_stale s) (zlen (z_old z) + zlen (z_pre z) + n) (zlen (z_old z) + zlen (z_pre z) + 1) (s_dense s) (s_train s)
              cnt pre ol sk' (Some m) (tl (s_win s) ++ [(o0, k_devr K m (update_cft n) n_rmse wo o0)]) (Some r2) (s_recs s) (s_cm s) (s_log s)))).
    { intros m r' sk' cnt pre ol -> -> Hcnt -> (t' & Hs') Hcat' H12'. cbv zeta. red_st.
      replace (zlen (r_win r') =? 0) with false by lia.
      replace (zlen (r_win r') <? 3 * category r') with false.
      2:{ rewrite Hcat'. unfold update_cft. destruct (zlen (r_win r') <? 18) eqn:E1; [lia|]. destruct (zlen (r_win r') <? 24) eqn:E2; lia. }
      assert (S1 : slice (a ++ z_seg z ++ o :: rest) (zlen a) (zlen (r_win r')) = Ok (r_win r')) by (rewrite Hs', <- app_assoc; apply slice_mid; reflexivity).
      rewrite S1. cbn [bind].
      assert (Nf : firstn conse (o :: rest) <> []) by (intros E; apply (f_equal (@length _)) in E; rewrite La in E; cbn in E; lia).
      assert (G : get (a ++ z_seg z ++ o :: rest) (zlen (z_old z) + zlen (z_pre z) + n + p_conse P - 1) = Ok (last (firstn conse (o :: rest)) dflt_obs)).
      { rewrite (app_assoc a). replace (o :: rest) with (firstn conse (o :: rest) ++ skipn conse (o :: rest)) at 1 by apply firstn_skipn.
        apply get_final; [exact Nf|]. rewrite zlen_app. fold n. unfold zlen at 4. rewrite La. lia. }
      rewrite G. cbn [bind rel]. rewrite terms_code, Fw.
      assert (Lt : length (tl (z_win z)) = (conse - 1)%nat) by (destruct (z_win z); cbn [length tl] in *; lia).
      split; [|split; [|split; [|split]]]; red_st.
      - constructor; red_st; auto; [rewrite <- Cl; symmetry; exact El|rewrite <- El; exact Ca].
      - reflexivity.
      - eexists. constructor; red_st; try reflexivity; auto. exists t'. exact Hs'.
      - rewrite app_length, Lt. cbn [length]. lia.
      - rewrite map_app, W2. cbn [map fst]. replace conse with (S (conse - 1)) at 2 3 by lia. apply firstn_last. cbn [length] in *. lia. }
    destruct ((1 <=? n - zlen (r_win r)) && (p_skip P skip <? n - zlen (r_win r))).
    + rewrite slice_mid by reflexivity. cbn [bind]. rewrite terms_code.
      destruct (k_fit K (update_cft n) (z_seg z)) as [m|]; [|exact I]. cbn [of_opt bind]. rewrite <- terms_code.
      match goal with |- rel _ (Ok (mkZ _ _ _ (Some (mkRec _ _ _ _ _ _ _ _ _)) ?sk _ _ _ _)) _ =>
        apply (@Rest m (mkRec (t_start r) (t_end r) (t_break r) n (terms n) (change_prob r) m (z_seg z) (r_devs r)) sk (o_date (last (z_seg z) dflt_obs) - o_date (hd dflt_obs (z_seg z)))
          (zlen (z_old z) + zlen (z_pre z) + n) n) end; red_st; try reflexivity; try lia. exists []. symmetry. apply app_nil_r.
    + cbn [bind]. apply (@Rest (r_model r) r skip (s_count s) (zlen (z_old z) + zlen (z_pre z) + zlen (r_win r)) (s_oldlen s)); auto. exists t. exact Fs.
Qed.

Lemma asc_split : forall a o b, asc (a ++ o :: b) ->
  Forall (fun p => o_date p < o_date o) a /\ Forall (fun p => o_date o <= o_date p) (o :: b) /\ asc (a ++ b).
Proof.
  intros a o b H. split; [|split].
  - induction a as [|p a IH]; constructor; cbn [app] in H; apply asc_cons in H; destruct H as [H1 H2]; [|now apply IH].
    rewrite Forall_forall in H2. apply H2, in_or_app. right. now left.
  - assert (H' : asc (o :: b)).
    { revert H. apply asc_sub. rewrite <- (app_nil_l (o :: b)) at 1. apply subseq_app; [constructor|apply subseq_refl]. }
    apply asc_cons in H'. destruct H' as [_ H']. constructor; [lia|]. apply (Forall_impl (fun p => o_date o <= o_date p)) with (2 := H'). intros p Hp. cbn in Hp. lia.
  - revert H. apply asc_sub. apply subseq_app; [apply subseq_refl|]. apply sub_drop, subseq_refl.
Qed.
Lemma rev_one : forall (A : Type) (l : list A) a, rev (l ++ [a]) = a :: rev l.
Proof. intros. rewrite rev_app_distr. reflexivity. Qed.

Lemma long_snoc : forall l o, asc (l ++ [o]) -> long l = true -> long (l ++ [o]) = true.
Proof.
  intros l o A H. unfold long in *. apply andb_true_iff in H. destruct H as [H1 H2]. rewrite zlen_app, zlen_cons, zlen_nil, last_last.
  assert (N : l <> []) by (apply nonempty; lia). destruct (asc_split _ _ _ A) as (F & _). rewrite Forall_forall in F.
  assert (I0 : In (last l dflt_obs) l) by (rewrite (split_final N) at 2; apply in_or_app; right; now left).
  specialize (F _ I0). cbn beta in F.
  apply andb_true_iff. split; [lia|]. destruct l; [congruence|]. cbn [app hd] in *. lia.
Qed.
Lemma decide_code : forall z s o rest r, Core z s (o :: rest) -> Fitted z s r -> long (z_seg z) = true -> length (z_win z) = conse ->
  map fst (z_win z) = firstn conse (o :: rest) -> rel (fun z' s' => Rel z' s' rest) (decide z o) (mon_decide K P s).
Proof.
  intros z s o rest r C F Hlong L W. destruct C as [Cl Ci Cs Ca Cn Cc Ck Cr Cm Cg].
  destruct F as [Fc Ft Fn Fp Fo Ff Fw (t & Fs) Fcat F12].
  assert (Hcn : conse = S (conse - 1)) by lia.
  assert (El : s_live s = (z_old z ++ z_pre z ++ z_seg z) ++ o :: rest) by (rewrite Cl, <- !app_assoc; reflexivity).
  assert (Zl : s_i s = zlen (z_old z ++ z_pre z ++ z_seg z)) by (rewrite !zlen_app, Ci; lia).
  unfold mon_decide, decide. rewrite El, get_mid by exact Zl. cbn [bind]. rewrite Fw, Cm, Cg, Cc, Fc.
  apply rel_bind with (R := eq); [apply rel_refl|]. intros [cm log] ? <-.
  rewrite (change_code (map snd (z_win z)) Hcap), wild_code.
  assert (Ah : map fst (tl (z_win z)) = firstn (conse - 1) rest).
  { rewrite Hcn in W. destruct (z_win z) as [|w0 w]; [discriminate|]. cbn [map tl firstn] in *. congruence. }
  rewrite El in Ca. destruct (asc_split _ _ _ Ca) as (A1 & A2 & A3).
  destruct (confirmed K P (map snd (z_win z))).
  - rewrite close_code, Cr. apply rel_bind with (R := fun a b => a = b /\ a = z_recs z ++ [mkRec (t_start r) (t_end r) (o_date o) (num_obs r) (category r) 100 (r_model r) (r_win r) (z_win z)]).
    { unfold push_rec. destruct (40 <=? zlen (z_recs z) + 1); cbn; auto. }
    intros rs ? [<- Ers]. cbn [rel]. split; [|left].
    + constructor; red_st; auto; [rewrite !zlen_nil, zlen_cons, zlen_nil, Zl; lia|rewrite zlen_nil, Zl; lia|discriminate].
    + split; [reflexivity|]. split; [reflexivity|]. split; [reflexivity|]. red_st. rewrite Ers, rev_one. cbn [app]. split; [exact A1|exact A2].
  - destruct (outlier0 K P (map snd (z_win z))).
    + unfold drop_obs. rewrite El. replace (Z.to_nat (s_i s)) with (length (z_old z ++ z_pre z ++ z_seg z)) by (rewrite Zl; unfold zlen; lia).
      rewrite del_mid. cbn [rel]. split; [|right; exists r; split; [|split; [|exact Hlong]]].
      * constructor; red_st; auto; [rewrite <- !app_assoc; reflexivity|lia].
      * constructor; red_st; auto. exists t. exact Fs.
      * split; [exact L|exact Ah].
    + cbn [rel]. split; [|right; exists r; split; [|split; [|red_st; apply long_snoc; [|exact Hlong]]]].
      * constructor; red_st; auto; [rewrite <- !app_assoc; reflexivity|rewrite zlen_app, zlen_cons, zlen_nil; lia|]. destruct (z_seg z); discriminate.
      * constructor; red_st; auto. exists (t ++ [o]). rewrite Fs, app_assoc. reflexivity.
      * split; [exact L|exact Ah].
      * revert Ca. apply asc_sub. rewrite <- !app_assoc. rewrite <- (app_nil_l (z_seg z ++ [o])). apply subseq_app; [constructor|].
        rewrite <- (app_nil_l (z_seg z ++ [o])). apply subseq_app; [constructor|]. apply subseq_app; [apply subseq_refl|]. apply sub_keep. constructor.
Qed.

Lemma first_ge_code : forall b (old l : list obs) k, Forall (fun o => o_date o < b) old -> Forall (fun o => b <= o_date o) l -> l <> [] ->
  first_ge b (old ++ l) k = Some (k + zlen old + 1).
Proof.
  induction old as [|p old IH]; intros l k F G N.
  - destruct l as [|q l]; [congruence|]. inversion G; subst. cbn [app first_ge]. replace (b <=? o_date q) with true by lia. rewrite zlen_nil. f_equal. lia.
  - inversion F; subst. cbn [app first_ge]. replace (b <=? o_date p) with false by lia. rewrite IH by assumption. f_equal. rewrite zlen_cons. lia.
Qed.
Lemma final_app : forall (e w : list obs), w <> [] -> last (e ++ w) dflt_obs = last w dflt_obs.
Proof.
  induction e as [|p e IH]; intros w N; [reflexivity|]. cbn [app]. destruct (e ++ w) eqn:E.
  - destruct e; [|discriminate]. cbn [app] in E. congruence.
  - rewrite <- (IH w N), E. reflexivity.
Qed.
Lemma long_app : forall e w, asc (e ++ w) -> long w = true -> long (e ++ w) = true.
Proof.
  intros e w A H. unfold long in *. apply andb_true_iff in H. destruct H as [H1 H2].
  assert (N : w <> []) by (apply nonempty; lia). rewrite zlen_app, final_app by exact N. pose proof (zlen_nonneg e).
  apply andb_true_iff. split; [lia|]. destruct e as [|p e]; [exact H2|]. cbn [app hd] in *. apply asc_cons in A. destruct A as [_ A].
  rewrite Forall_forall in A. destruct w as [|q w]; [congruence|]. specialize (A q ltac:(apply in_or_app; right; now left)). cbn [hd] in H2. lia.
Qed.

Lemma try_code : forall z s o rest, Core z s (o :: rest) -> Search z s (o :: rest) -> p_conse P <= zlen (o :: rest) -> long (z_seg z) = true ->
  rel (fun r b => match r with
       | inl z' => exists s', b = (s', false) /\ Rel (join z' o) s' rest
       | inr z' => exists s', b = (s', true) /\ Core z' s' (o :: rest) /\ z_cur z' = None /\ s_count s' = 0 /\ s_train s' = true /\ long (z_seg z') = true
       end) (try_start z (firstn conse (o :: rest))) (initialise K P s).
Proof.
  intros z s o rest C S0 Hl Hlong. pose proof C as C0. destruct C as [Cl Ci Cs Ca Cn Cc Ck Cr Cm Cg].
  destruct S0 as (Nc & Tr & Zk & Sr).
  set (a := z_old z ++ z_pre z) in *.
  assert (Za : zlen a = zlen (z_old z) + zlen (z_pre z)) by (unfold a; apply zlen_app).
  assert (El : s_live s = a ++ z_seg z ++ o :: rest) by (unfold a; rewrite <- app_assoc; exact Cl).
  assert (La : length (firstn conse (o :: rest)) = conse) by (rewrite firstn_length; unfold zlen in Hl; lia).
  assert (H2 : 2 <= zlen (z_seg z)) by (unfold long in Hlong; apply andb_true_iff in Hlong; lia).
  assert (As : asc (z_seg z)).
  { revert Ca. rewrite El. apply asc_sub. rewrite <- (app_nil_l (z_seg z)) at 1. apply subseq_app; [constructor|].
    rewrite <- (app_nil_r (z_seg z)) at 1. apply subseq_app; [apply subseq_refl|constructor]. }
  unfold initialise, try_start. rewrite Ci, Cs.
  replace (zlen (z_old z) + zlen (z_pre z) + zlen (z_seg z) - (zlen (z_old z) + zlen (z_pre z) + 1) + 1) with (zlen (z_seg z)) by lia.
  replace (zlen (z_old z) + zlen (z_pre z) + 1 - 1) with (zlen a) by lia. rewrite El.
  rewrite slice_mid by reflexivity. cbn [bind]. rewrite (gappy_code As H2).
  assert (Join : forall (z' : zst) w' stale dense, z_cur z' = None -> z_skip z' = 0 -> z_recs z' = z_recs z -> z_cm z' = z_cm z -> z_log z' = z_log z ->
    z_old z' ++ z_pre z' ++ z_seg z' = a ++ w' -> subseq w' (z_seg z) ->
    (match rev (z_recs z) with [] => dense = zlen (z_old z') + 1 | r :: _ => z_old z' = z_old z end) ->
    Rel (join z' o) (mkSt (a ++ w' ++ o :: rest) stale (zlen (z_old z') + zlen (z_pre z') + zlen (z_seg z') + 1) (zlen (z_old z') + zlen (z_pre z') + 1) dense
      (s_train s) (s_count s) (s_preend s) (s_oldlen s) (s_skip s) (s_fit s) (s_win s) (s_cur s) (s_recs s) (s_cm s) (s_log s)) rest).
  { intros z' w' stale dense J1 J2 J3 J4 J5 J6 J7 J8.
    assert (E : a ++ w' ++ o :: rest = z_old z' ++ z_pre z' ++ (z_seg z' ++ [o]) ++ rest).
    { rewrite app_assoc, <- J6, <- !app_assoc. reflexivity. }
    split; [|left].
    - constructor; red_st; auto; try congruence.
      + rewrite zlen_app, zlen_cons, zlen_nil. lia.
      + revert Ca. rewrite El. apply asc_sub. apply subseq_app; [apply subseq_refl|]. apply subseq_app; [exact J7|apply subseq_refl].
      + destruct (z_seg z'); discriminate.
    - split; [exact J1|]. split; [exact Tr|]. split; [exact J2|]. red_st. rewrite J3. destruct (rev (z_recs z)) as [|r t]; [exact J8|].
      destruct Sr as [S1 S2]. rewrite J8. split; [exact S1|].
      assert (E2 : z_pre z' ++ (z_seg z' ++ [o]) ++ rest = z_pre z ++ w' ++ o :: rest).
      { apply (app_inv_head (z_old z)). rewrite <- J8 at 1. rewrite <- E. unfold a. rewrite <- app_assoc. reflexivity. }
      rewrite E2. rewrite Forall_forall in *. intros p Hp. apply S2. apply in_app_or in Hp. apply in_or_app. destruct Hp as [Hp|Hp]; [now left|right].
      apply in_app_or in Hp. apply in_or_app. destruct Hp as [Hp|Hp]; [left; eapply subseq_In; eassumption|now right]. }
  destruct (p_gap P <? max_gap (z_seg z)).
  { cbn [rel]. eexists. split; [reflexivity|].
    destruct (z_recs z) as [|r0 rt] eqn:Er.
    - match goal with |- Rel (join ?z' o) _ _ => pose proof (@Join z' (z_seg z) (s_stale s) (zlen (z_old z) + zlen (z_pre z) + 1 + 1)) as J end.
      red_st. rewrite !zlen_app, zlen_cons, !zlen_nil in J. rewrite Er in J. cbn [rev] in J.
      assert (Zt : zlen (z_seg z) = zlen (tl (z_seg z)) + 1) by (rewrite (split_first Cn) at 1; apply zlen_cons).
      replace (zlen (z_old z) + (zlen (z_pre z) + (0 + 1)) + 0 + zlen (tl (z_seg z)) + 1) with (zlen (z_old z) + zlen (z_pre z) + zlen (z_seg z) + 1) in J by lia.
      replace (zlen (z_old z) + (zlen (z_pre z) + (0 + 1)) + 0 + 1) with (zlen (z_old z) + zlen (z_pre z) + 1 + 1) in J by lia.
      apply J; auto; [|apply subseq_refl|lia]. unfold a. rewrite <- !app_assoc. cbn [app]. rewrite <- (split_first Cn). reflexivity.
    - match goal with |- Rel (join ?z' o) _ _ => pose proof (@Join z' (z_seg z) (s_stale s) (zlen (z_old z) + zlen (z_pre z) + 1 + 1)) as J end.
      red_st. rewrite !zlen_app, zlen_cons, !zlen_nil in J. rewrite Er in J.
      assert (Zt : zlen (z_seg z) = zlen (tl (z_seg z)) + 1) by (rewrite (split_first Cn) at 1; apply zlen_cons).
      replace (zlen (z_old z) + (zlen (z_pre z) + (0 + 1)) + zlen (tl (z_seg z)) + 1) with (zlen (z_old z) + zlen (z_pre z) + zlen (z_seg z) + 1) in J by lia.
      replace (zlen (z_old z) + (zlen (z_pre z) + (0 + 1)) + 1) with (zlen (z_old z) + zlen (z_pre z) + 1 + 1) in J by lia.
      apply J; auto; [|apply subseq_refl|].
      + unfold a. rewrite <- !app_assoc. cbn [app]. rewrite <- (split_first Cn). reflexivity.
      + destruct (rev (r0 :: rt)) eqn:E; [|reflexivity]. apply (f_equal (@length _)) in E. rewrite rev_length in E. discriminate. }
  assert (Wide : slice (a ++ z_seg z ++ o :: rest) (zlen a) (zlen (z_old z) + zlen (z_pre z) + zlen (z_seg z) + p_conse P - (zlen (z_old z) + zlen (z_pre z) + 1) + 1) =
                 Ok (z_seg z ++ firstn conse (o :: rest))).
  { rewrite <- (firstn_skipn conse (o :: rest)) at 1. rewrite (app_assoc (z_seg z)). apply slice_mid; [reflexivity|].
    rewrite zlen_app. unfold zlen at 7. rewrite La. lia. }
  rewrite Wide. cbn [bind]. apply rel_bind with (R := eq); [apply rel_refl|]. intros flags ? <-.
  rewrite kept_code. set (w := keep_from flags 0 (z_seg z)). pose proof (keep_sub flags (z_seg z) 0) as Sw. fold w in Sw.
  assert (J0 : forall st0, exists s', (mkSt (a ++ z_seg z ++ o :: rest) st0 (zlen (z_old z) + zlen (z_pre z) + zlen (z_seg z) + 1) (zlen (z_old z) + zlen (z_pre z) + 1) (s_dense s)
      (s_train s) (s_count s) (s_preend s) (s_oldlen s) (s_skip s) (s_fit s) (s_win s) (s_cur s) (s_recs s) (s_cm s) (s_log s), false) = (s', false) /\ Rel (join z o) s' rest).
  { intros st0. eexists. split; [reflexivity|]. apply Join; auto; [unfold a; rewrite app_assoc; reflexivity|apply subseq_refl|].
    destruct (rev (z_recs z)); [exact Sr|reflexivity]. }
  change (long w) with ((12 <=? zlen w) && (366 <=? o_date (last w dflt_obs) - o_date (hd dflt_obs w))).
  destruct (zlen w <? 12) eqn:E12.
  { replace (12 <=? zlen w) with false by lia. cbn [andb negb rel]. apply J0. }
  replace (12 <=? zlen w) with true by lia. cbn [andb].
  assert (Cp : firstn (Z.to_nat (zlen a)) (a ++ z_seg z ++ o :: rest) ++ w ++ skipn (Z.to_nat (zlen (z_old z) + zlen (z_pre z) + zlen (z_seg z))) (a ++ z_seg z ++ o :: rest) = a ++ w ++ o :: rest).
  { f_equal; [|f_equal].
    - unfold zlen. rewrite Nat2Z.id, firstn_app, firstn_all, Nat.sub_diag. cbn [firstn]. apply app_nil_r.
    - rewrite app_assoc, <- Za, <- zlen_app. unfold zlen. rewrite Nat2Z.id, skipn_app, skipn_all, Nat.sub_diag. reflexivity. }
  rewrite Cp. assert (Nw : w <> []) by (apply nonempty; lia).
  rewrite (@get_final a w (o :: rest)) by (auto; lia). rewrite (@get_first a w (o :: rest)) by auto. cbn [bind].
  destruct (o_date (last w dflt_obs) - o_date (hd dflt_obs w) <? 366) eqn:E366.
  { replace (366 <=? o_date (last w dflt_obs) - o_date (hd dflt_obs w)) with false by lia. cbn [negb rel]. apply J0. }
  replace (366 <=? o_date (last w dflt_obs) - o_date (hd dflt_obs w)) with true by lia. cbn [negb].
  assert (Lw : long w = true) by (unfold long; apply andb_true_iff; lia).
  rewrite slice_mid by (auto; lia). cbn [bind]. apply rel_bind with (R := eq); [apply rel_refl|]. intros m ? <-.
  destruct (flt (Fin (p_tcg P)) (k_stab K m w)).
  { cbn [rel]. eexists. split; [reflexivity|].
    match goal with |- Rel (join ?z' o) (mkSt _ ?st0 _ _ _ _ _ _ _ _ _ _ _ _ _ _) _ => pose proof (@Join z' w st0 (s_dense s)) as J end.
    red_st. rewrite !zlen_app, zlen_cons, !zlen_nil in J.
    assert (Zt : zlen w = zlen (tl w) + 1) by (rewrite (split_first Nw) at 1; apply zlen_cons).
    replace (zlen (z_old z) + (zlen (z_pre z) + (0 + 1)) + zlen (tl w) + 1) with (zlen (z_old z) + zlen (z_pre z) + 1 + zlen w - 1 + 1) in J by lia.
    replace (zlen (z_old z) + (zlen (z_pre z) + (0 + 1)) + 1) with (zlen (z_old z) + zlen (z_pre z) + 1 + 1) in J by lia.
    apply J; auto.
    - unfold a. rewrite <- !app_assoc. cbn [app]. rewrite <- (split_first Nw). reflexivity.
    - destruct (rev (z_recs z)); [exact Sr|reflexivity]. }
  set (stale' := skipn (length (a ++ w ++ o :: rest)) (a ++ z_seg z ++ o :: rest) ++ s_stale s).
  assert (Br : match rev (s_recs s) with [] => Ok (s_dense s) | r :: _ => match first_ge (t_break r) (a ++ w ++ o :: rest) 0 with Some b => Ok b | None => UB end end = Ok (zlen (z_old z) + 1)).
  { rewrite Cr. destruct (rev (z_recs z)) as [|r t]; [rewrite Sr; reflexivity|]. destruct Sr as [S1 S2]. unfold a. rewrite <- app_assoc.
    rewrite first_ge_code; [f_equal; lia|exact S1| |].
    - rewrite Forall_forall in *. intros p Hp. apply S2. apply in_app_or in Hp. apply in_or_app. destruct Hp as [Hp|Hp]; [now left|right].
      apply in_app_or in Hp. apply in_or_app. destruct Hp as [Hp|Hp]; [left; eapply subseq_In; eassumption|now right].
    - destruct (z_pre z); [|discriminate]. cbn [app]. destruct w; [congruence|discriminate]. }
  rewrite Br. cbn [bind].
  replace (Z.to_nat (zlen (z_old z) + zlen (z_pre z) + 1 - (zlen (z_old z) + 1))) with (length (rev (z_pre z))) by (rewrite rev_length; unfold zlen; lia).
  match goal with |- rel _ _ (bind (lookback K P _ m _ [] ?s1) _) => pose proof (@look_code m (z_old z) (o :: rest) (rev (z_pre z)) w [] s1 Nw) as LK end.
  red_st. specialize (LK ltac:(rewrite rev_involutive; unfold a; rewrite <- app_assoc; reflexivity)
    ltac:(rewrite zlen_rev; lia) ltac:(rewrite zlen_rev; lia)).
  rewrite Cm, Cg in *. eapply rel_bind; [exact LK|]. clear LK.
  intros [[[[rp seg'] lw] cm'] log'] b ((e & Eseg) & Sub & stale2 & ->). red_st.
  assert (Ns : seg' <> []) by (rewrite Eseg; destruct e; [exact Nw|discriminate]).
  assert (Zb : zlen (rev rp) = zlen rp) by apply zlen_rev.
  assert (Al : asc (z_old z ++ rev rp ++ seg' ++ o :: rest)).
  { revert Ca. rewrite Cl. apply asc_sub. rewrite !app_assoc, <- (app_assoc (z_old z)), <- (app_assoc (z_old z) (z_pre z)).
    apply subseq_app; [|apply subseq_refl]. apply subseq_app; [apply subseq_refl|]. apply (subseq_trans Sub). rewrite rev_involutive.
    apply subseq_app; [apply subseq_refl|exact Sw]. }
  assert (Ls : long seg' = true).
  { rewrite Eseg. apply long_app; [|exact Lw]. rewrite <- Eseg. revert Al. apply asc_sub. rewrite <- (app_nil_l seg') at 1. apply subseq_app; [constructor|].
    rewrite <- (app_nil_l seg') at 1. apply subseq_app; [constructor|]. rewrite <- (app_nil_r seg') at 1. apply subseq_app; [apply subseq_refl|constructor]. }
  assert (Fin' : forall fit' rs', exists s', (mkSt (z_old z ++ rev rp ++ seg' ++ o :: rest) stale2 (zlen (z_old z) + zlen rp + zlen seg') (zlen (z_old z) + zlen rp + 1)
      (s_dense s) true 0 (s_preend s) (s_oldlen s) (s_skip s) fit' (s_win s) (s_cur s) rs' cm' log', true) = (s', true) /\
      Core (mkZ (z_old z ++ rev rp) [] seg' None 0 [] rs' cm' log') s' (o :: rest) /\ @None rec = None /\ s_count s' = 0 /\ s_train s' = true /\ long seg' = true).
  { intros fit' rs'. eexists. split; [reflexivity|]. split; [|auto]. constructor; red_st; auto; try congruence.
    - rewrite <- app_assoc. reflexivity.
    - rewrite zlen_app, zlen_nil, Zb. lia.
    - rewrite zlen_app, zlen_nil, Zb. lia. }
  rewrite Cr in *. destruct (z_recs z) as [|r0 rt] eqn:Er.
  - cbn [rev] in Sr. rewrite Sr in *. replace (zlen (z_old z) + zlen rp + 1 - (zlen (z_old z) + 1)) with (zlen (rev rp)) by lia.
    destruct (6 <=? zlen (rev rp)) eqn:E6.
    + assert (Nb : rev rp <> []) by (apply nonempty; lia).
      replace (zlen (z_old z) + 1 - 1) with (zlen (z_old z)) by lia.
      rewrite slice_mid by reflexivity. cbn [bind].
      destruct (k_fit K 4 (rev rp)) as [m2|]; [|exact I]. cbn [of_opt bind].
      rewrite (@get_final (z_old z) (rev rp) (seg' ++ o :: rest) (zlen (z_old z) + zlen rp + 1 - 2) Nb) by lia.
      rewrite (@get_first (z_old z) (rev rp) (seg' ++ o :: rest) (zlen (z_old z)) Nb eq_refl).
      replace (get (z_old z ++ rev rp ++ seg' ++ o :: rest) (zlen (z_old z) + zlen rp + 1 - 1)) with (Ok (hd dflt_obs seg')).
      2:{ symmetry. rewrite app_assoc. apply get_first; [exact Ns|]. rewrite zlen_app. lia. }
      cbn [bind]. rewrite close_code. replace (zlen (rev rp) + 1) with (zlen (rev rp) + 1) by reflexivity.
      unfold push_rec. rewrite zlen_nil. cbn [Z.add Z.leb Z.compare Pos.compare Pos.compare_cont bind app rel]. apply Fin'.
    + cbn [bind rel]. apply Fin'.
  - cbn [bind rel]. apply Fin'.
Qed.

Lemma advance_code : forall z s o rest, Rel z s (o :: rest) -> p_conse P <= zlen (o :: rest) ->
  rel (fun z' s' => Rel z' s' rest) (advance z o rest) (step K P s).
Proof.
  intros z s o rest [C Hor] Hl. pose proof C as C0. destruct C as [Cl Ci Cs Ca Cn Cc Ck Cr Cm Cg].
  unfold step, advance. rewrite Cl, Ci, Cs. rewrite (app_assoc (z_old z)).
  rewrite (@get_final (z_old z ++ z_pre z) (z_seg z) (o :: rest)) by (auto; rewrite zlen_app; lia).
  rewrite (@get_first (z_old z ++ z_pre z) (z_seg z) (o :: rest)) by (auto; rewrite zlen_app; lia). cbn [bind].
  replace (zlen (z_old z) + zlen (z_pre z) + zlen (z_seg z) - (zlen (z_old z) + zlen (z_pre z) + 1) + 1) with (zlen (z_seg z)) by lia.
  fold (long (z_seg z)).
  destruct Hor as [S0|(r & F & A & Lg)].
  - pose proof S0 as (Nc & Tr & Zk & Sr). rewrite Nc, Tr. destruct (long (z_seg z)) eqn:Lg.
    + eapply rel_bind; [apply try_code; eassumption|]. intros [z'|z'] b H.
      * destruct H as (s' & -> & H). exact H.
      * destruct H as (s' & -> & C1 & N1 & K1 & T1 & L1). unfold monitor.
        eapply rel_bind; [apply watch_code; [exact C1|exact Hl|exact L1|left; auto]|].
        intros z2 s2 (C2 & E2 & (r2 & F2) & W2 & W3). eapply decide_code; [exact C2|exact F2|rewrite E2; exact L1|exact W2|exact W3].
    + cbn [rel]. rewrite <- (app_assoc (z_old z)).
      split; [|left; split; [exact Nc|]; split; [reflexivity|]; split; [exact Zk|]].
      * constructor; red_st; auto.
        -- rewrite <- app_assoc. reflexivity.
        -- rewrite zlen_app, zlen_cons, zlen_nil. lia.
        -- rewrite <- Cl. exact Ca.
        -- destruct (z_seg z); discriminate.
      * red_st. destruct (rev (z_recs z)); [exact Sr|]. rewrite <- app_assoc. exact Sr.
  - rewrite Lg. rewrite (f_cur F), (f_train F). unfold monitor.
    eapply rel_bind; [apply watch_code; [exact C0|exact Hl|exact Lg|right; exists r; auto]|].
    intros z2 s2 (C2 & E2 & (r2 & F2) & W2 & W3). eapply decide_code; [exact C2|exact F2|rewrite E2; exact Lg|exact W2|exact W3].
Qed.

Lemma pass_code : forall rest z s fuel, Rel z s rest -> zlen rest - p_conse P + 1 <= Z.of_nat fuel ->
  rel (fun a s' => Rel (fst a) s' (snd a) /\ zlen (snd a) < p_conse P) (pass z rest) (loop K P fuel s).
Proof.
  induction rest as [|o rest IH]; intros z s fuel R Hf.
  - destruct R as [C Hor]. assert (E : (s_i s <=? s_end s - p_conse P) = false).
    { unfold s_end. rewrite (q_live C), (q_i C), !zlen_app, zlen_nil. lia. }
    destruct fuel; cbn [loop pass]; rewrite E; cbn [rel fst snd]; (split; [split; assumption|rewrite zlen_nil; lia]).
  - assert (E : (s_i s <=? s_end s - p_conse P) = (p_conse P <=? zlen (o :: rest))).
    { destruct R as [C Hor]. unfold s_end. rewrite (q_live C), (q_i C), !zlen_app. lia. }
    cbn [pass]. destruct (p_conse P <=? zlen (o :: rest)) eqn:L.
    + destruct fuel as [|fuel]; [lia|]. cbn [loop]. rewrite E. eapply rel_bind; [apply advance_code; [exact R|lia]|].
      intros z' s' R'. apply IH; [exact R'|]. rewrite zlen_cons in *. lia.
    + destruct fuel; cbn [loop]; rewrite E; cbn [rel fst snd]; (split; [exact R|lia]).
Qed.

(** The end of the series *)
Lemma suspects_suffix : forall w, suspects w = skipn (length w - length (suspects w)) w /\ (length (suspects w) <= length w)%nat.
Proof.
  induction w as [|a t [IH1 IH2]]; [split; reflexivity|]. cbn [suspects].
  destruct (doubtful (a :: t) && (length (suspects t) =? length t)%nat).
  - rewrite Nat.sub_diag. split; [reflexivity|lia].
  - cbn [length]. replace (S (length t) - length (suspects t))%nat with (S (length t - length (suspects t))) by lia. split; [exact IH1|lia].
Qed.
Lemma suspects_rest : forall c w, (length (suspects (skipn c w)) < length (skipn c w))%nat -> suspects w = suspects (skipn c w).
Proof.
  induction c as [|c IH]; intros w H; [reflexivity|]. destruct w as [|a t]; [reflexivity|]. cbn [skipn] in *. rewrite <- (IH t H).
  cbn [suspects]. replace (length (suspects t) =? length t)%nat with false; [rewrite andb_false_r; reflexivity|].
  symmetry. apply Nat.eqb_neq. rewrite (IH t H). rewrite skipn_length in H. 
  destruct (suspects_suffix (skipn c t)) as [_ L]. rewrite skipn_length in L. lia.
Qed.
Lemma id_last_code : forall n w dflt, (n <= length w)%nat -> length (suspects (skipn n w)) = length (skipn n w) ->
  id_last_from K P n (map snd w) dflt = if (length (suspects w) =? length w)%nat then dflt else Z.of_nat (length w - length (suspects w)).
Proof.
  induction n as [|n IH]; intros w dflt Hn Hd.
  - cbn [id_last_from skipn] in *. rewrite Hd, Nat.eqb_refl. reflexivity.
  - cbn [id_last_from].
    destruct (skipn n w) as [|a t] eqn:E; [apply (f_equal (@length _)) in E; rewrite skipn_length in E; cbn in E; lia|].
    assert (S1 : w = firstn n w ++ a :: t) by (rewrite <- E; symmetry; apply firstn_skipn).
    assert (Lf : length (firstn n w) = n) by (rewrite firstn_length; lia).
    assert (S2 : skipn (S n) w = t).
    { rewrite S1, skipn_app, Lf, skipn_all2 by lia. replace (S n - n)%nat with 1%nat by lia. reflexivity. }
    assert (Nn : nth_error (map snd w) n = Some (snd a)).
    { rewrite S1, map_app. rewrite nth_error_app2 by (rewrite map_length; lia). rewrite map_length, Lf, Nat.sub_diag. reflexivity. }
    rewrite Nn, skipn_map, E. cbn [map].
    assert (Dt : doubtful (a :: t) = negb (fle (k_norm K (snd a)) (Fin (p_tcg P)) || fge (k_angle K (snd a :: map snd t)) (Fin (p_nsign P)))).
    { unfold doubtful. cbn [map]. unfold exceeds. rewrite negb_orb. reflexivity. }
    rewrite S2 in Hd.
    destruct (fle (k_norm K (snd a)) (Fin (p_tcg P)) || fge (k_angle K (snd a :: map snd t)) (Fin (p_nsign P))) eqn:Ef.
    + assert (Es : suspects (a :: t) = suspects t) by (cbn [suspects]; rewrite Dt; reflexivity).
      assert (Ew : suspects w = suspects t).
      { rewrite <- Es, <- E. apply suspects_rest. rewrite E, Es, Hd. cbn [length]. lia. }
      rewrite Ew, Hd. assert (Lw : length w = (n + S (length t))%nat) by (rewrite S1, app_length, Lf; reflexivity).
      replace (length t =? length w)%nat with false by (symmetry; apply Nat.eqb_neq; lia). lia.
    + apply IH; [lia|]. rewrite E. cbn [suspects]. rewrite Dt, Hd, Nat.eqb_refl. reflexivity.
Qed.

Lemma watch_end : forall z s rest r, Core z s rest -> Fitted z s r -> Ahead z rest -> zlen rest < p_conse P ->
  finish_trained K P s = Ok (z_recs z ++ [last_record z r rest]).
Proof.
  intros z s rest r C F [A1 A2] Hl. destruct C as [Cl Ci Cs Ca Cn Cc Ck Cr Cm Cg].
  destruct F as [Fc Ft Fn Fp Fo Ff Fw (t & Fs) Fcat F12].
  set (s0 := if (length (suspects (z_win z)) =? length (z_win z))%nat then [] else suspects (z_win z)).
  assert (Id : id_last_from K P conse (map snd (s_win s)) (p_conse P) = p_conse P - zlen s0).
  { rewrite Fw, <- A1 at 1. rewrite id_last_code; [|lia|rewrite skipn_all2 by lia; reflexivity]. unfold s0.
    destruct (suspects_suffix (z_win z)) as [_ L]. destruct (length (suspects (z_win z)) =? length (z_win z))%nat; unfold zlen; cbn [length]; lia. }
  assert (L0 : (length s0 < length (z_win z))%nat).
  { unfold s0. destruct (suspects_suffix (z_win z)) as [_ L]. destruct (length (suspects (z_win z)) =? length (z_win z))%nat eqn:E; [cbn [length]; lia|]. apply Nat.eqb_neq in E. lia. }
  assert (Sk : skipn (Z.to_nat (p_conse P - zlen s0)) (z_win z) = s0).
  { replace (Z.to_nat (p_conse P - zlen s0)) with (length (z_win z) - length s0)%nat by (unfold zlen; lia). unfold s0.
    destruct (suspects_suffix (z_win z)) as [E _]. destruct (length (suspects (z_win z)) =? length (z_win z))%nat.
    - cbn [length]. rewrite Nat.sub_0_r. apply skipn_all.
    - symmetry. exact E. }
  assert (Er : map fst (tl (z_win z)) = rest) by (rewrite A2; apply firstn_all2; unfold zlen in Hl; lia).
  assert (Lr : length rest = (conse - 1)%nat) by (rewrite <- Er, map_length; destruct (z_win z); cbn [length tl] in *; lia).
  assert (Zc : p_conse P = zlen rest + 1) by (unfold zlen; lia).
  unfold finish_trained. rewrite Id, Cc, Fc, Cr, Fw. unfold s_end. rewrite Cl, !zlen_app.
  set (k := (length rest - length s0)%nat).
  assert (Zk : zlen (firstn k rest) = p_conse P - 1 - zlen s0) by (unfold k, zlen; rewrite firstn_length; unfold zlen in *; lia).
  assert (G1 : get (z_old z ++ z_pre z ++ z_seg z ++ rest) (zlen (z_old z) + (zlen (z_pre z) + (zlen (z_seg z) + zlen rest)) - 1 - p_conse P + (p_conse P - zlen s0)) =
               Ok (last (z_seg z ++ firstn k rest) dflt_obs)).
  { rewrite <- (firstn_skipn k rest) at 1. rewrite (app_assoc (z_seg z)), (app_assoc (z_old z)). apply get_final.
    - destruct (z_seg z); [congruence|discriminate].
    - rewrite !zlen_app, Zk. lia. }
  rewrite G1. cbn [bind]. replace (p_conse P - (p_conse P - zlen s0)) with (zlen s0) by lia.
  unfold last_record. fold s0. fold k. rewrite Sk. destruct s0 as [|[o d] s1] eqn:Es.
  - replace (p_conse P - zlen [] <? p_conse P) with false by (rewrite zlen_nil; lia). reflexivity.
  - replace (p_conse P - zlen ((o, d) :: s1) <? p_conse P) with true by (rewrite zlen_cons; unfold zlen; lia).
    assert (G2 : get (z_old z ++ z_pre z ++ z_seg z ++ rest) (zlen (z_old z) + (zlen (z_pre z) + (zlen (z_seg z) + zlen rest)) - p_conse P + (p_conse P - zlen ((o, d) :: s1))) = Ok o).
    { assert (Ek : skipn k rest = o :: map fst s1).
      { change (o :: map fst s1) with (map fst ((o, d) :: s1)). rewrite <- Sk, <- Er, skipn_map. f_equal.
        replace (Z.to_nat (p_conse P - zlen ((o, d) :: s1))) with (S k) by (unfold k; unfold zlen in *; cbn [length] in *; lia).
        destruct (z_win z); [cbn [length] in L0; lia|]. reflexivity. }
      rewrite <- (firstn_skipn k rest) at 1. rewrite Ek. rewrite (app_assoc (z_seg z)), (app_assoc (z_pre z)), (app_assoc (z_old z)). apply get_mid.
      rewrite !zlen_app, Zk. lia. }
    rewrite G2. reflexivity.
Qed.

Lemma search_end : forall z s rest, s_live s = z_old z ++ z_pre z ++ z_seg z ++ rest -> s_recs s = z_recs z ->
  match rev (z_recs z) with
  | [] => True
  | r :: _ => Forall (fun o => o_date o < t_break r) (z_old z) /\ Forall (fun o => t_break r <= o_date o) (z_pre z ++ z_seg z ++ rest) /\ z_seg z <> []
  end -> finish_untrained K s = left_over z rest.
Proof.
  intros z s rest Cl Cr H. unfold finish_untrained, left_over.
  set (w := match z_recs z with [] => z_old z | _ => [] end ++ z_pre z ++ z_seg z ++ rest).
  assert (B : exists b, s_live s = b ++ w /\ match rev (s_recs s) with [] => 1 | r :: _ => match first_ge (t_break r) (s_live s ++ s_stale s) 0 with Some k => k | None => s_start s end end = zlen b + 1 /\
              (z_recs z = [] -> b = [])).
  { rewrite Cr. unfold w. destruct (z_recs z) as [|r0 rt] eqn:Er.
    - exists []. cbn [rev app]. split; [exact Cl|]. split; [reflexivity|auto].
    - destruct (rev (r0 :: rt)) as [|r l] eqn:Ev; [apply (f_equal (@length _)) in Ev; rewrite rev_length in Ev; discriminate|].
      destruct H as (H1 & H2 & H3). exists (z_old z). cbn [app]. split; [exact Cl|]. split; [|discriminate].
      rewrite Cl. erewrite first_ge_app; [|apply first_ge_code; [exact H1|exact H2|]]; [lia|].
      destruct (z_pre z); [|discriminate]. destruct (z_seg z); [congruence|discriminate]. }
  destruct B as (b & El & -> & Hb). unfold s_end. rewrite El, zlen_app.
  replace (zlen b + zlen w - (zlen b + 1) + 1) with (zlen w) by lia. replace (zlen b + 1 - 1) with (zlen b) by lia.
  assert (Tail : forall v, (let e := zlen (b ++ v) in
      if 6 <=? e - (zlen b + 1) + 1 then
        w0 <- slice (b ++ v) (zlen b) (e - (zlen b + 1) + 1) ;;
        m <- of_opt (k_fit K 4 w0) ;;
        ts <- match rev (s_recs s) with [] => (o <- get (b ++ v) 0 ;; Ok (o_date o)) | r :: _ => Ok (t_break r) end ;;
        oe <- get (b ++ v) (e - 1) ;;
        Ok (s_recs s ++ [mkRec ts (o_date oe) 0 (e - (zlen b + 1) + 1) 24 0 m w0 []])
      else Ok (s_recs s)) =
    (if 6 <=? zlen v then
      m <- of_opt (k_fit K 4 v) ;;
      let since := match rev (z_recs z) with [] => o_date (hd dflt_obs v) | r :: _ => t_break r end in
      Ok (z_recs z ++ [mkRec since (o_date (last v dflt_obs)) 0 (zlen v) 24 0 m v []])
     else Ok (z_recs z))).
  { intros v. cbv zeta. rewrite zlen_app. replace (zlen b + zlen v - (zlen b + 1) + 1) with (zlen v) by lia. rewrite Cr.
    destruct (6 <=? zlen v) eqn:E6; [|reflexivity]. assert (Nv : v <> []) by (apply nonempty; lia).
    rewrite <- (app_nil_r v) at 1. rewrite slice_mid by reflexivity. cbn [bind].
    destruct (k_fit K 4 v) as [m|]; [|reflexivity]. cbn [of_opt bind].
    assert (G : get (b ++ v) (zlen b + zlen v - 1) = Ok (last v dflt_obs)) by (rewrite <- (app_nil_r v) at 1; apply get_final; auto).
    rewrite G. destruct (rev (z_recs z)) as [|r l] eqn:Ev.
    - assert (Ez : z_recs z = []) by (rewrite <- (rev_involutive (z_recs z)), Ev; reflexivity). rewrite (Hb Ez). cbn [app].
      rewrite (split_first Nv) at 1. reflexivity.
    - reflexivity. }
  destruct (6 <=? zlen w).
  - rewrite <- (app_nil_r w) at 1. rewrite slice_mid by reflexivity. cbn [bind].
    destruct (k_mask K w) as [flags|]; [|reflexivity]. cbn [of_opt bind]. rewrite kept_code.
    replace (firstn (Z.to_nat (zlen b)) (b ++ w)) with b; [apply Tail|].
    unfold zlen. rewrite Nat2Z.id, firstn_app, firstn_all, Nat.sub_diag. cbn [firstn]. symmetry. apply app_nil_r.
  - cbn [bind]. apply Tail.
Qed.

(** ** C116 *)
Theorem C116_pass : forall fuel x cm, asc x -> fuel_ok P x fuel -> stand_procedure K P fuel x cm = cold_pass x cm.
Proof.
  intros fuel x cm Ax Hf. unfold fuel_ok in Hf. symmetry. apply rel_eq. unfold stand_procedure, cold_pass.
  set (z0 := mkZ [] [] (firstn 12 x) None 0 [] [] cm []).
  destruct (Z_lt_ge_dec (zlen x) 12) as [H12|H12].
  - assert (E1 : skipn 12 x = []) by (apply skipn_all2; unfold zlen in H12; lia).
    assert (E2 : firstn 12 x = x) by (apply firstn_all2; unfold zlen in H12; lia).
    assert (El : loop K P fuel (init_st M D x cm) = Ok (init_st M D x cm)).
    { assert (E : (12 <=? zlen x - p_conse P) = false) by lia. destruct fuel; unfold loop; fold (loop K P); change (s_i (init_st M D x cm)) with 12; change (s_end (init_st M D x cm)) with (zlen x); rewrite E; reflexivity. }
    rewrite E1, El. cbn [pass bind]. unfold z0 at 1. red_st. unfold init_st at 1. red_st.
    rewrite (@search_end z0 (init_st M D x cm) []); [|cbn [z0 init_st s_live z_old z_pre z_seg app]; rewrite app_nil_r, E2; reflexivity|reflexivity|exact I].
    eapply rel_bind; [apply rel_refl|]. intros rs ? <-. cbn [rel init_st z0 s_cm s_log s_live z_cm z_log z_old z_pre z_seg app]. rewrite app_nil_r, E2. reflexivity.
  - assert (R : Rel z0 (init_st M D x cm) (skipn 12 x)).
    { split; [|left; split; [reflexivity|]; split; [reflexivity|]; split; [reflexivity|]; reflexivity].
      constructor; try reflexivity; cbn [z0 init_st s_live s_i z_old z_pre z_seg app].
      - symmetry. apply firstn_skipn.
      - rewrite !zlen_nil. unfold zlen. rewrite firstn_length. unfold zlen in H12. lia.
      - exact Ax.
      - destruct x; [unfold zlen in H12; cbn in H12; lia|discriminate]. }
    assert (Hr : zlen (skipn 12 x) = zlen x - 12) by (unfold zlen in *; rewrite skipn_length; lia).
    eapply rel_bind; [apply pass_code; [exact R|lia]|].
    intros [z rest] s [[C Hor] Hl]. cbn [fst snd] in *.
    assert (E : rel eq (match z_cur z with Some r => Ok (z_recs z ++ [last_record z r rest]) | None => left_over z rest end)
                  (if s_train s then finish_trained K P s else finish_untrained K s)).
    { destruct Hor as [(Nc & Tr & Zk & Sr)|(r & F & A & Lg)].
      - rewrite Nc, Tr. rewrite (@search_end z s rest); [apply rel_refl|exact (q_live C)|exact (q_recs C)|].
        destruct (rev (z_recs z)); [exact I|]. destruct Sr as [S1 S2]. split; [exact S1|]. split; [exact S2|exact (q_ne C)].
      - rewrite (f_cur F), (f_train F), (@watch_end z s rest r); [apply rel_refl|exact C|exact F|exact A|exact Hl]. }
    eapply rel_bind; [exact E|]. intros rs ? <-. cbn [rel]. rewrite (q_cm C), (q_log C), (q_live C). reflexivity.
Qed.
End Agree.
End Pass.

(** ** Example: both give the two records of [two_levels], with one spike
    removed and one segment before the first model. *)
Example pass_runs : asc two_levels /\ asc spike /\ asc head_level /\
  summary (cold_pass toy (toyP None) two_levels []) =
    Ok [(730000, 730464, 730480, (100, 8, 30), (30%nat, 6%nat)); (730480, 730944, 0, (0, 8, 24), (24%nat, 0%nat))] /\
  (match cold_pass masking (toyP None) spike [] with
   | Ok R => Some (nonzero (res_live R), length (res_recs R), length (res_live R)) | _ => None end) = Some ([], 1%nat, 40%nat) /\
  summary (cold_pass toy (toyP None) head_level []) =
    Ok [(730000, 730144, 730160, (100, 14, 11), (10%nat, 6%nat)); (730160, 730784, 0, (0, 8, 34), (34%nat, 0%nat))].
Proof.
  split; [exact asc_two|]. split; [apply ascb_ok; vm_compute; reflexivity|]. split; [exact asc_head|].
  split; [vm_compute; reflexivity|]. split; vm_compute; reflexivity.
Qed.

Print Assumptions C116_pass.
