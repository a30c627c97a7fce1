(** The procedure for pixels with fewer than 24 clear observations
    (inefficientobs_procedure): memory safety, shape of the record and what
    each band is fitted on.  C16, C17 and the 44/54 part of C09. *)
From Verif Require Import Base SortModel SortProof SortProps LibModel LibProps ColdModel FrontModel FrontProps.

(** ** Array lemmas *)
Lemma put_same : forall A (l : list A) i v, get l i = Ok v -> put l i v = Ok l.
Proof.
  intros A l i v H. apply get_inv in H. destruct H as [Hi Hn]. rewrite put_ok by assumption. f_equal.
  rewrite <- (firstn_skipn (Z.to_nat i) l) at 3. f_equal.
  clear Hi. revert l Hn. induction (Z.to_nat i); intros [|a l] Hn; try discriminate.
  - injection Hn as ->. reflexivity.
  - cbn [skipn]. apply IHn. exact Hn.
Qed.

Lemma copy_bands_same : forall (cols : list (list Z)) i, Forall (fun c => 0 <= i < zlen c) cols -> copy_bands cols i i = Ok cols.
Proof.
  induction cols as [|c cols IH]; intros i H; [reflexivity|]. inversion H; subst. cbn [copy_bands].
  destruct (@get_total _ c i) as [v Hv]; [assumption|]. rewrite Hv. cbn [bind]. rewrite put_same by assumption. cbn [bind].
  rewrite IH by assumption. reflexivity.
Qed.

Lemma fill_length : forall N junk k vals, (length vals <= N)%nat -> length (fill N junk k vals) = N.
Proof. intros. unfold fill. rewrite app_length, map_length, seq_length. lia. Qed.
Lemma fill_nth1 : forall N junk k vals i d, (i < length vals)%nat -> nth i (fill N junk k vals) d = nth i vals d.
Proof. intros. unfold fill. apply app_nth1. assumption. Qed.
Lemma fill_nth2 : forall N junk k vals i d, (length vals <= i < N)%nat -> nth i (fill N junk k vals) d = junk k i.
Proof.
  intros. unfold fill. rewrite app_nth2 by lia.
  rewrite (nth_indep _ d (junk k 0%nat)) by (rewrite map_length, seq_length; lia).
  rewrite map_nth, seq_nth by lia. f_equal. lia.
Qed.

(** ** Compaction of one band (snow branch) *)
Definition keepf (lo hi : Z) (p : Z * Z) : bool := (snd p >? lo) && (snd p <? hi).

Lemma compact_ok : forall lo hi tx ty dx dy mx my, length tx = length ty -> length dx = length dy ->
  length mx = length my ->
  let f := filter (keepf lo hi) (combine tx ty) in
  compact lo hi (length ty) (zlen dx + zlen mx) (zlen dx) (dx ++ mx ++ tx) (dy ++ my ++ ty)
  = Ok (dx ++ map fst f ++ skipn (length f) (mx ++ tx), dy ++ map snd f ++ skipn (length f) (my ++ ty),
        zlen dx + zlen f).
Proof.
  intros lo hi. induction tx as [|x tx IH]; intros [|y ty] dx dy mx my Ht Hd Hm f; try discriminate.
  - unfold f. cbn. rewrite Z.add_0_r. reflexivity.
  - cbn [length compact].
    assert (Gy : get (dy ++ my ++ y :: ty) (zlen dx + zlen mx) = Ok y).
    { rewrite (get_ok _ 0) by (unfold zlen; rewrite !app_length; cbn [length]; lia).
      replace (Z.to_nat (zlen dx + zlen mx)) with (length dy + (length my + 0))%nat by (unfold zlen; lia).
      rewrite !nth_pre. reflexivity. }
    assert (Gx : get (dx ++ mx ++ x :: tx) (zlen dx + zlen mx) = Ok x).
    { rewrite (get_ok _ 0) by (unfold zlen; rewrite !app_length; cbn [length]; lia).
      replace (Z.to_nat (zlen dx + zlen mx)) with (length dx + (length mx + 0))%nat by (unfold zlen; lia).
      rewrite !nth_pre. reflexivity. }
    assert (PUT : forall (d m t : list Z) v, length d = length dx ->
       put (d ++ m ++ v :: t) (zlen dx) v = Ok ((d ++ [v]) ++ skipn 1 (m ++ [v]) ++ t)).
    { intros d m t v Hl. rewrite put_ok by (unfold zlen; rewrite !app_length; cbn [length]; lia). f_equal.
      replace (Z.to_nat (zlen dx)) with (length d) by (unfold zlen; lia).
      rewrite firstn_app, firstn_all, Nat.sub_diag. cbn [firstn]. rewrite app_nil_r, <- app_assoc. f_equal.
      cbn [app]. f_equal. rewrite skipn_app. rewrite skipn_all2 by lia. cbn [app].
      replace (S (length d) - length d)%nat with 1%nat by lia.
      destruct m as [|a m]; [reflexivity|]. cbn [app skipn]. rewrite <- app_assoc. reflexivity. }
    rewrite Gy. cbn [bind]. unfold f. cbn [combine filter].
    change (keepf lo hi (x, y)) with ((y >? lo) && (y <? hi)).
    destruct ((y >? lo) && (y <? hi)) eqn:E.
    + rewrite Gx. cbn [bind]. rewrite PUT by reflexivity. cbn [bind]. rewrite PUT by lia. cbn [bind].
      specialize (IH ty (dx ++ [x]) (dy ++ [y]) (skipn 1 (mx ++ [x])) (skipn 1 (my ++ [y]))).
      cbn zeta in IH.
      assert (Z1 : zlen (dx ++ [x]) = zlen dx + 1) by (unfold zlen; rewrite app_length; cbn [length]; lia).
      assert (Z2 : zlen (skipn 1 (mx ++ [x])) = zlen mx) by (unfold zlen; rewrite skipn_length, app_length; cbn [length]; lia).
      rewrite Z1, Z2 in IH. replace (zlen dx + zlen mx + 1) with (zlen dx + 1 + zlen mx) by lia.
      rewrite IH; clear IH.
      * set (g := filter (keepf lo hi) (combine tx ty)). cbn [map fst snd length].
        assert (SK : forall (m t : list Z) v, skipn (length g) (skipn 1 (m ++ [v]) ++ t) = skipn (S (length g)) (m ++ v :: t)).
        { intros m t v. destruct m as [|a m]; [reflexivity|]. cbn [app skipn]. rewrite <- app_assoc. reflexivity. }
        rewrite !SK. rewrite <- !app_assoc. cbn [app].
        replace (zlen dx + 1 + zlen g) with (zlen dx + zlen ((x, y) :: g)) by (unfold zlen; cbn [length]; lia).
        reflexivity.
      * cbn [length] in Ht. lia.
      * rewrite !app_length. cbn [length]. lia.
      * rewrite !skipn_length, !app_length. cbn [length]. lia.
    + specialize (IH ty dx dy (mx ++ [x]) (my ++ [y])). cbn zeta in IH.
      assert (Z1 : zlen (mx ++ [x]) = zlen mx + 1) by (unfold zlen; rewrite app_length; cbn [length]; lia).
      rewrite Z1, <- !app_assoc in IH. cbn [app] in IH.
      replace (zlen dx + zlen mx + 1) with (zlen dx + (zlen mx + 1)) by lia.
      apply IH; [cbn [length] in Ht; lia|assumption|]. rewrite !app_length. cbn [length]. lia.
Qed.

Lemma compact_whole : forall lo hi tx ty, length tx = length ty ->
  let f := filter (keepf lo hi) (combine tx ty) in
  compact lo hi (length ty) 0 0 tx ty
  = Ok (map fst f ++ skipn (length f) tx, map snd f ++ skipn (length f) ty, zlen f).
Proof.
  intros lo hi tx ty H. pose proof (@compact_ok lo hi tx ty [] [] [] [] H eq_refl eq_refl) as K.
  cbn [app] in K. exact K.
Qed.

Lemma combine_fst : forall (A B : Type) (a : list A) (b : list B), length a = length b -> map fst (combine a b) = a.
Proof.
  intros A B. induction a as [|x a IH]; intros [|y b] H; try discriminate; [reflexivity|].
  cbn [combine map fst]. f_equal. apply IH. injection H as H. exact H.
Qed.
Lemma combine_split : forall (A B : Type) (l : list (A * B)), combine (map fst l) (map snd l) = l.
Proof. intros A B. induction l as [|[x y] l IH]; [reflexivity|]. cbn [map combine fst snd]. rewrite IH. reflexivity. Qed.
Lemma combine_map : forall (A : Type) (f g : A -> Z) l, combine (map f l) (map g l) = map (fun q => (f q, g q)) l.
Proof. intros A f g. induction l; [reflexivity|]. cbn [map combine]. rewrite IHl. reflexivity. Qed.
Lemma filter_len : forall A (f : A -> bool) l, (length (filter f l) <= length l)%nat.
Proof. intros A f. induction l; cbn [filter length]; [lia|]. destruct (f a); cbn [length]; lia. Qed.
Lemma filter_all : forall A (f : A -> bool) l, length (filter f l) = length l -> filter f l = l.
Proof.
  intros A f. induction l as [|a l IH]; intros H; [reflexivity|]. cbn [filter] in *.
  destruct (f a); cbn [length] in H.
  - f_equal. apply IH. lia.
  - pose proof (filter_len f l). lia.
Qed.

Lemma filter_true : forall A (f : A -> bool) l, (forall a, In a l -> f a = true) -> filter f l = l.
Proof.
  intros A f. induction l as [|a l IH]; intros H; [reflexivity|]. cbn [filter].
  rewrite (H a) by (left; reflexivity). f_equal. apply IH. intros; apply H; right; assumption.
Qed.

Lemma nth_last : forall A (l : list A) d, nth (length l - 1) l d = last l d.
Proof.
  intros A l d. induction l as [|a t IH]; [reflexivity|].
  destruct t as [|b t]; [reflexivity|]. change (last (a :: b :: t) d) with (last (b :: t) d). rewrite <- IH.
  replace (length (a :: b :: t) - 1)%nat with (S (length (b :: t) - 1)) by (cbn [length]; lia). reflexivity.
Qed.

Section Snow.
Variable C : Type.
Variable fit : list (Z * Z) -> option C.
Variable saturated : C.
Notation fit_cells := (fit_cells fit).

Lemma fit_cells_ok : forall (clrx col : list Z) n, 0 <= n -> n <= zlen clrx -> n <= zlen col ->
  fit_cells clrx col n = Fail \/
  exists c, fit_cells clrx col n =
    Ok (c, Some (combine (firstn (Z.to_nat n) clrx) (firstn (Z.to_nat n) col))) /\
    fit (combine (firstn (Z.to_nat n) clrx) (firstn (Z.to_nat n) col)) = Some c.
Proof.
  intros clrx col n H1 H2 H3. unfold FrontModel.fit_cells. rewrite !slice_ok by lia. cbn [bind]. cbn [Z.to_nat skipn].
  destruct (fit _) eqn:E; cbn [of_opt bind]; [right|left; reflexivity]. eexists. split; reflexivity.
Qed.

(** What is known about one band of a snow record, [clrx] being the dates at
    the time the band is treated. *)
Definition band_fit (lo hi : Z) (clrx col : list Z) (io : option (list (Z * Z))) : Prop :=
  let f := filter (keepf lo hi) (combine clrx col) in
  io = Some f \/ (io = None /\ zlen f < 12).

(** The dates after a band. *)
Definition next_dates (lo hi : Z) (clrx col : list Z) : list Z :=
  let f := filter (keepf lo hi) (combine clrx col) in map fst f ++ skipn (length f) clrx.

Lemma next_dates_ok : forall lo hi clrx col, length clrx = length col ->
  length (next_dates lo hi clrx col) = length clrx /\
  (forall d, In d (next_dates lo hi clrx col) -> In d clrx) /\
  last (next_dates lo hi clrx col) 0 = last clrx 0 /\
  (Forall (fun v => lo < v < hi) col -> next_dates lo hi clrx col = clrx).
Proof.
  intros lo hi clrx col Hl. unfold next_dates. set (f := filter (keepf lo hi) (combine clrx col)).
  assert (Hf : (length f <= length clrx)%nat).
  { unfold f. eapply Nat.le_trans; [apply filter_len|]. rewrite combine_length. lia. }
  assert (Hall : length f = length clrx -> map fst f ++ skipn (length f) clrx = clrx).
  { intros E. rewrite E, skipn_all, app_nil_r. unfold f. rewrite filter_all; [apply combine_fst; assumption|].
    fold f. rewrite combine_length. lia. }
  split; [|split; [|split]].
  - rewrite app_length, map_length, skipn_length. lia.
  - intros d Hd. apply in_app_or in Hd. destruct Hd as [Hd|Hd].
    + apply in_map_iff in Hd. destruct Hd as ([a b] & <- & Hd). unfold f in Hd. apply filter_In in Hd.
      destruct Hd as [Hd _]. apply in_combine_l in Hd. assumption.
    + rewrite <- (firstn_skipn (length f) clrx). apply in_or_app. right. assumption.
  - destruct (Nat.eq_dec (length f) (length clrx)) as [E|E]; [rewrite Hall by assumption; reflexivity|].
    rewrite <- (firstn_skipn (length f) clrx) at 2.
    destruct (skipn (length f) clrx) as [|a t] eqn:Es.
    { exfalso. assert (length (skipn (length f) clrx) = 0%nat) by (rewrite Es; reflexivity). rewrite skipn_length in H. lia. }
    clear. set (g := firstn (length f) clrx). assert (G : forall l, last (l ++ a :: t) 0 = last (a :: t) 0).
    { induction l as [|b l IH]; [reflexivity|]. cbn [app]. rewrite <- IH. destruct (l ++ a :: t) eqn:E; [|reflexivity].
      destruct l; discriminate. }
    rewrite !G. reflexivity.
  - intros HF. apply Hall. unfold f. assert (E : filter (keepf lo hi) (combine clrx col) = combine clrx col).
    { apply filter_true. intros [a b] Hp. apply in_combine_r in Hp. rewrite Forall_forall in HF.
      specialize (HF b Hp). unfold keepf. cbn [snd]. lia. }
    rewrite E, combine_length. lia.
Qed.

Definition lo_of (n k : nat) : Z := if (S k =? n)%nat then -9320 else 0.
Definition hi_of (n k : nat) : Z := if (S k =? n)%nat then 7070 else 10000.

Lemma snow_bands_ok : forall cols n clrx, length clrx = n -> Forall (fun c => length c = n) cols ->
  snow_bands fit saturated n clrx cols = Fail \/
  exists clrx' cs ios, snow_bands fit saturated n clrx cols = Ok (clrx', cs, ios) /\
    length clrx' = n /\ (forall d, In d clrx' -> In d clrx) /\ last clrx' 0 = last clrx 0 /\
    length cs = length cols /\ length ios = length cols /\
    (forall k, (k < length cols)%nat ->
       (forall j, (j < k)%nat -> Forall (fun v => lo_of (length cols) j < v < hi_of (length cols) j) (nth j cols [])) ->
       band_fit (lo_of (length cols) k) (hi_of (length cols) k) clrx (nth k cols []) (nth k ios None)).
Proof.
  induction cols as [|col rest IH]; intros n clrx Hn HF.
  - right. exists clrx, [], []. cbn. repeat split; auto. intros k Hk. lia.
  - inversion HF; subst. cbn [snow_bands].
    set (lo := lo_of (length (col :: rest)) 0). set (hi := hi_of (length (col :: rest)) 0).
    assert (E : (match rest with [] => (-9320, 7070) | _ :: _ => (0, 10000) end) = (lo, hi)).
    { unfold lo, hi, lo_of, hi_of. destruct rest; reflexivity. }
    rewrite E. cbn [bind].
    assert (CW : compact lo hi (length clrx) 0 0 clrx col =
      (let f := filter (keepf lo hi) (combine clrx col) in
       Ok (map fst f ++ skipn (length f) clrx, map snd f ++ skipn (length f) col, zlen f))).
    { rewrite <- H1. apply compact_whole. lia. }
    rewrite CW. clear CW. cbn zeta. set (f := filter (keepf lo hi) (combine clrx col)). cbn [bind].
    assert (Hfl : (length f <= length clrx)%nat).
    { unfold f. eapply Nat.le_trans; [apply filter_len|]. rewrite combine_length. lia. }
    destruct (@next_dates_ok lo hi clrx col) as (N1 & N2 & N3 & N4); [lia|].
    change (map fst f ++ skipn (length f) clrx) with (next_dates lo hi clrx col).
    set (clrx1 := next_dates lo hi clrx col) in *.
    set (stepv := match rest with
                  | [] => fit_cells clrx1 (map snd f ++ skipn (length f) col) (zlen f)
                  | _ :: _ => if zlen f <? 12 then Ok (saturated, None)
                              else fit_cells clrx1 (map snd f ++ skipn (length f) col) (zlen f)
                  end).
    assert (Hst : stepv = Fail \/ exists c io, stepv = Ok (c, io) /\ band_fit lo hi clrx col io).
    { assert (G : fit_cells clrx1 (map snd f ++ skipn (length f) col) (zlen f) = Fail \/
        exists c io, fit_cells clrx1 (map snd f ++ skipn (length f) col) (zlen f) = Ok (c, io) /\ band_fit lo hi clrx col io).
      { destruct (@fit_cells_ok clrx1 (map snd f ++ skipn (length f) col) (zlen f)) as [G|(c & G & _)].
        - unfold zlen; lia.
        - unfold zlen. lia.
        - unfold zlen. rewrite app_length, map_length, skipn_length. lia.
        - left. assumption.
        - right. exists c. eexists. split; [exact G|]. left. f_equal.
          unfold zlen. rewrite Nat2Z.id. unfold clrx1, next_dates. fold f.
          rewrite !firstn_app, !map_length, !Nat.sub_diag. cbn [firstn]. rewrite !app_nil_r.
          rewrite !firstn_all2 by (rewrite map_length; lia). apply combine_split. }
      unfold stepv. destruct rest as [|c2 r2]; [exact G|]. destruct (zlen f <? 12) eqn:E12; [|exact G].
      right. exists saturated, None. split; [reflexivity|]. right. split; [reflexivity|]. fold f. lia. }
    destruct Hst as [Hst|(c & io & Hst & Hb)]; rewrite Hst; cbn [bind]; [left; reflexivity|].
    destruct (IH (length clrx) clrx1 N1 H2) as [G|(clrx' & cs & ios & G & G1 & G2 & G3 & G4 & G5 & G6)]; rewrite G; cbn [bind]; [left; reflexivity|].
    right. exists clrx', (c :: cs), (io :: ios). split; [reflexivity|]. split; [assumption|].
    split; [auto|]. split; [congruence|]. split; [cbn [length]; lia|]. split; [cbn [length]; lia|].
    intros k Hk Hj. destruct k as [|k].
    + exact Hb.
    + cbn [nth]. assert (E1 : clrx1 = clrx).
      { apply N4. apply (Hj 0%nat). lia. }
      rewrite E1 in *. cbn [length] in *.
      change (lo_of (S (length rest)) (S k)) with (lo_of (length rest) k).
      change (hi_of (S (length rest)) (S k)) with (hi_of (length rest) k).
      apply G6; [lia|]. intros j Hjk. specialize (Hj (S j)). cbn [nth] in Hj. apply Hj. lia.
Qed.

(** ** The snow branch *)

(** Values of band [k] of a row, as the sparse procedure stores them. *)
Definition sband (c2 : bool) (k : nat) (q : raw) : Z :=
  nth k [q_b q; q_g q; q_r q; q_n q; q_s1 q; q_s2 q; if c2 then 0 else q_t q * 10 - 27320] 0.
Definition in_band (k : nat) (v : Z) : Prop :=
  if (k =? 6)%nat then -9320 < v < 7070 else 0 < v < 10000.

Lemma sparse_snow_ok : forall c2 l,
  sparse_snow fit saturated c2 l = Fail \/
  exists r, sparse_snow fit saturated c2 l = Ok r /\
    (r = None <-> zlen (snow_rows l) < 12) /\
    (forall s, r = Some s ->
      sp_cat s = 54 /\ sp_nobs s = zlen (snow_rows l) /\ length (sp_bands s) = 7%nat /\ length (sp_in s) = 7%nat /\
      In (sp_start s) (map q_date (snow_rows l)) /\ sp_end s = last (map q_date (snow_rows l)) 0 /\
      forall k, (k < 7)%nat ->
        (forall j, (j < k)%nat -> Forall (fun q => in_band j (sband c2 j q)) (snow_rows l)) ->
        nth k (sp_in s) None = None \/
        exists sel, subseq sel (snow_rows l) /\
          nth k (sp_in s) None = Some (map (fun q => (q_date q, sband c2 k q)) sel)).
Proof.
  intros c2 l. unfold sparse_snow. set (rows := snow_rows l). destruct (zlen rows <? 12) eqn:E12.
  { right. exists None. split; [reflexivity|]. split; [split; [lia|reflexivity]|]. discriminate. }
  set (cols := [map q_b rows; map q_g rows; map q_r rows; map q_n rows; map q_s1 rows; map q_s2 rows;
                 map (fun q => if c2 then 0 else q_t q * 10 - 27320) rows]).
  assert (Hc : forall k, (k < 7)%nat -> nth k cols [] = map (sband c2 k) rows).
  { intros k Hk. do 7 (destruct k as [|k]; [reflexivity|]). lia. }
  destruct (@snow_bands_ok cols (length rows) (map q_date rows)) as [G|(clrx' & cs & ios & G & G1 & G2 & G3 & G4 & G5 & G6)].
  - apply map_length.
  - repeat constructor; apply map_length.
  - rewrite G. left. reflexivity.
  - rewrite G. cbn [bind].
    rewrite (get_ok _ 0) by (unfold zlen in *; lia). cbn [bind].
    rewrite (get_ok _ 0) by (unfold zlen in *; lia). cbn [bind].
    right. eexists. split; [reflexivity|]. split; [split; [discriminate|lia]|].
    intros s Es. injection Es as <-. cbn [sp_cat sp_nobs sp_bands sp_in sp_start sp_end].
    split; [reflexivity|]. split; [reflexivity|]. split; [assumption|]. split; [assumption|]. split; [|split].
    + apply G2. apply nth_In. unfold zlen in *. cbn [Z.to_nat]. lia.
    + rewrite <- G3. replace (Z.to_nat (zlen rows - 1)) with (length clrx' - 1)%nat by (unfold zlen; lia).
      apply nth_last.
    + intros k Hk Hj. change (length cols) with 7%nat in *.
      assert (Hlo : forall j v, (j < 7)%nat -> (in_band j v <-> lo_of 7 j < v < hi_of 7 j)).
      { intros j v Hj'. unfold in_band, lo_of, hi_of. do 7 (destruct j as [|j]; [reflexivity|]). lia. }
      specialize (G6 k Hk). rewrite Hc in G6 by assumption.
      assert (HB : band_fit (lo_of 7 k) (hi_of 7 k) (map q_date rows) (map (sband c2 k) rows) (nth k ios None)).
      { apply G6. intros j Hjk. rewrite Hc by lia. rewrite Forall_map. eapply Forall_impl; [|apply (Hj j Hjk)].
        intros q Hq. apply Hlo; [lia|assumption]. }
      unfold band_fit in HB. rewrite combine_map in HB. destruct HB as [HB|[HB _]]; [right|left; assumption].
      exists (filter (fun q => keepf (lo_of 7 k) (hi_of 7 k) (q_date q, sband c2 k q)) rows). split.
      * clear. induction rows; cbn [filter]; [constructor|]. destruct (keepf _ _ _); constructor; assumption.
      * rewrite HB. f_equal. clear. induction rows as [|q t IH]; [reflexivity|]. cbn [map filter].
        destruct (keepf _ _ _); cbn [map]; rewrite IH; reflexivity.
Qed.
End Snow.

(** ** The branch for too many masked observations *)
Section Masked.
Variable C : Type.
Variable fit : list (Z * Z) -> option C.
Notation fit_cells := (fit_cells fit).

Lemma fit_bands_ok : forall (cols : list (list Z)) clrx n, (n <= length clrx)%nat -> Forall (fun c => (n <= length c)%nat) cols ->
  fit_bands fit clrx cols (Z.of_nat n) = Fail \/
  exists cs, fit_bands fit clrx cols (Z.of_nat n) =
    Ok (cs, map (fun col => Some (combine (firstn n clrx) (firstn n col))) cols) /\ length cs = length cols.
Proof.
  induction cols as [|col cols IH]; intros clrx n H1 H2; [right; exists []; split; reflexivity|].
  inversion H2; subst. cbn [fit_bands].
  destruct (@fit_cells_ok C fit clrx col (Z.of_nat n)) as [G|(c & G & _)]; try (unfold zlen; lia); rewrite G; cbn [bind]; [left; reflexivity|].
  destruct (IH clrx n) as [G'|(cs & G' & L)]; auto; rewrite G'; cbn [bind]; [left; reflexivity|].
  right. exists (c :: cs). rewrite !Nat2Z.id. split; [reflexivity|]. cbn [length]. lia.
Qed.

(** The filter on a sorted green column keeps a prefix of everything. *)
Lemma keep_green_none : forall todo done rest med2 clrx cols nc, nth_error cols 1 = Some (done ++ todo ++ rest) ->
  Forall (fun g => (2 * g <? med2 + 800) = false) todo ->
  keep_green (length todo) (zlen done) nc med2 clrx cols = Ok (clrx, cols, nc).
Proof.
  induction todo as [|g todo IH]; intros done rest med2 clrx cols nc Hc HF; [reflexivity|].
  inversion HF; subst. cbn [length keep_green].
  unfold get at 1. cbn [Z.ltb Z.compare Z.to_nat]. change (Pos.to_nat 1) with 1%nat. rewrite Hc. cbn [bind].
  rewrite (get_ok _ 0) by (unfold zlen; rewrite !app_length; cbn [length]; lia). cbn [bind].
  replace (Z.to_nat (zlen done)) with (length done + 0)%nat by (unfold zlen; lia). rewrite nth_pre. cbn [app nth].
  rewrite H1. specialize (IH (done ++ [g]) rest med2 clrx cols nc).
  assert (E : zlen (done ++ [g]) = zlen done + 1) by (unfold zlen; rewrite app_length; cbn [length]; lia).
  rewrite E in IH. apply IH; [|assumption]. rewrite <- app_assoc. exact Hc.
Qed.

Lemma keep_green_ok : forall todo done rest med2 clrx cols L, nth_error cols 1 = Some (done ++ todo ++ rest) ->
  length clrx = L -> Forall (fun c => length c = L) cols -> ascending_by (fun x : Z => x) todo ->
  keep_green (length todo) (zlen done) (zlen done) med2 clrx cols
  = Ok (clrx, cols, zlen done + zlen (filter (fun g => 2 * g <? med2 + 800) todo)).
Proof.
  induction todo as [|g todo IH]; intros done rest med2 clrx cols L Hc HL HF Hs.
  - cbn. rewrite Z.add_0_r. reflexivity.
  - unfold ascending_by in Hs. apply StronglySorted_inv in Hs. destruct Hs as [Hs Hg].
    destruct (2 * g <? med2 + 800) eqn:E.
    + assert (HLg : length (done ++ (g :: todo) ++ rest) = L).
      { rewrite Forall_forall in HF. apply HF. eapply nth_error_In. eassumption. }
      cbn [length keep_green].
      unfold get at 1. cbn [Z.ltb Z.compare Z.to_nat]. change (Pos.to_nat 1) with 1%nat. rewrite Hc. cbn [bind].
      rewrite (get_ok _ 0) by (unfold zlen; rewrite !app_length; cbn [length]; lia). cbn [bind].
      replace (Z.to_nat (zlen done)) with (length done + 0)%nat at 1 by (unfold zlen; lia). rewrite nth_pre. cbn [app nth].
      rewrite E.
      assert (HLd : (length done < L)%nat) by (rewrite <- HLg, !app_length; cbn [length]; lia).
      destruct (@get_total _ clrx (zlen done)) as [v Hv]; [unfold zlen; lia|]. rewrite Hv. cbn [bind].
      rewrite put_same by assumption. cbn [bind].
      rewrite copy_bands_same.
      2:{ eapply Forall_impl; [|exact HF]. simpl. intros c Hlc. unfold zlen. lia. }
      cbn [bind]. specialize (IH (done ++ [g]) rest med2 clrx cols L).
      assert (E1 : zlen (done ++ [g]) = zlen done + 1) by (unfold zlen; rewrite app_length; cbn [length]; lia).
      rewrite E1 in IH. rewrite IH; auto.
      * cbn [filter]. rewrite E. do 2 f_equal. unfold zlen. cbn [length]. lia.
      * rewrite <- app_assoc. exact Hc.
    + assert (HF2 : Forall (fun h => (2 * h <? med2 + 800) = false) (g :: todo)).
      { constructor; [assumption|]. eapply Forall_impl; [|exact Hg]. cbn beta. intros h Hh. lia. }
      rewrite (@keep_green_none (g :: todo) done rest); auto.
      assert (EF : filter (fun g => 2 * g <? med2 + 800) (g :: todo) = []).
      { clear - HF2. induction (g :: todo) as [|a t IH]; [reflexivity|]. inversion HF2; subst. cbn [filter]. rewrite H1. auto. }
      rewrite EF. cbn. rewrite Z.add_0_r. reflexivity.
Qed.

(** Everything after duplicate removal, [m] rows being left. *)
Definition masked_tail (clrx1 : list Z) (cols1 : list (list Z)) (endd : Z) : out (option (srec C)) :=
  green <- get cols1 1 ;;
  green1 <- quick_sort Z.ltb (Z.to_nat endd) green 0 (endd - 1) ;;
  cols2 <- put cols1 1 green1 ;;
  med2 <- median_row green1 endd ;;
  ' (clrx3, cols3, n_clr) <- keep_green (Z.to_nat endd) 0 0 med2 clrx1 cols2 ;;
  if n_clr <? 12 then Ok None
  else
    ' (cs, ios) <- fit_bands fit clrx3 cols3 n_clr ;;
    ts <- get clrx3 0 ;; te <- get clrx3 (n_clr - 1) ;;
    Ok (Some (mkSrec ts te n_clr 44 cs ios)).

Lemma masked_tail_ok : forall clrx c0 c1 c2 c3 c4 c5 c6 m L,
  (1 <= m <= L)%nat -> length clrx = L -> Forall (fun c => length c = L) [c0; c1; c2; c3; c4; c5; c6] ->
  let greens := firstn m c1 in
  exists G med2, Permutation greens G /\ ascending_by (fun x : Z => x) G /\ twice_median greens med2 /\
   (Nat.Even m -> med2 = nth (m / 2 - 1) G 0 + nth (m / 2) G 0) /\
  let n := length (filter (fun g => 2 * g <? med2 + 800) greens) in
  (n < 12)%nat /\ masked_tail clrx [c0; c1; c2; c3; c4; c5; c6] (Z.of_nat m) = Ok None \/
  (12 <= n <= m)%nat /\
   (masked_tail clrx [c0; c1; c2; c3; c4; c5; c6] (Z.of_nat m) = Fail \/
   exists s, masked_tail clrx [c0; c1; c2; c3; c4; c5; c6] (Z.of_nat m) = Ok (Some s) /\
    sp_cat s = 44 /\ sp_nobs s = Z.of_nat n /\ length (sp_bands s) = 7%nat /\
    sp_start s = nth 0 clrx 0 /\ sp_end s = nth (n - 1) clrx 0 /\
    sp_in s = map (fun c => Some (combine (firstn n clrx) (firstn n c))) [c0; G; c2; c3; c4; c5; c6]).
Proof.
  intros clrx c0 c1 c2 c3 c4 c5 c6 m L Hm HL HF greens.
  assert (Hg : length greens = m).
  { unfold greens. rewrite firstn_length. rewrite !Forall_cons_iff in HF. lia. }
  assert (Hg0 : greens <> []) by (intros E0; rewrite E0 in Hg; cbn in Hg; lia).
  destruct (@C37_quick_sort Z (fun x => x) m [] greens (skipn m c1) Hg0) as (G & S1 & S2 & S3); [lia|].
  cbn [app] in S1. replace (greens ++ skipn m c1) with c1 in S1 by (symmetry; apply firstn_skipn).
  change (klt (fun x : Z => x)) with (fun x y => x <? y) in S1.
  change (zlen (@nil Z)) with 0 in S1. replace (0 + zlen greens - 1) with (Z.of_nat m - 1) in S1 by (unfold zlen; lia).
  change (fun x y : Z => x <? y) with Z.ltb in S1.
  assert (HGl : length G = m) by (rewrite <- (Permutation_length S2); assumption).
  assert (HG0 : G <> []) by (intros E0; rewrite E0 in HGl; cbn in HGl; lia).
  destruct (@C40_median_row G (skipn m c1) HG0 S3) as (med2 & M1 & M2 & M3).
  replace (zlen G) with (Z.of_nat m) in M1 by (unfold zlen; lia).
  rewrite HGl in M3.
  exists G, med2. split; [assumption|]. split; [assumption|]. split; [eapply twice_median_perm; [apply Permutation_sym|]; eassumption|]. split; [assumption|].
  intros n. unfold masked_tail.
  change (get [c0; c1; c2; c3; c4; c5; c6] 1) with (@Ok (list Z) c1). cbn [bind].
  rewrite Nat2Z.id. rewrite S1. cbn [bind].
  change (put [c0; c1; c2; c3; c4; c5; c6] 1 (G ++ skipn m c1)) with (@Ok (list (list Z)) [c0; G ++ skipn m c1; c2; c3; c4; c5; c6]).
  cbn [bind]. rewrite M1. cbn [bind].
  assert (HF' : Forall (fun c => length c = L) [c0; G ++ skipn m c1; c2; c3; c4; c5; c6]).
  { rewrite !Forall_cons_iff in *. rewrite app_length, skipn_length. intuition lia. }
  pose proof (@keep_green_ok G [] (skipn m c1) med2 clrx [c0; G ++ skipn m c1; c2; c3; c4; c5; c6] L eq_refl HL HF' S3) as KG.
  rewrite HGl in KG. change (zlen (@nil Z)) with 0 in KG. rewrite KG. cbn [bind]. clear KG.
  assert (En : zlen (filter (fun g => 2 * g <? med2 + 800) G) = Z.of_nat n).
  { unfold zlen, n. f_equal. symmetry. apply filter_perm_length. assumption. }
  rewrite Z.add_0_l, En.
  assert (Hnm : (n <= m)%nat) by (unfold n; rewrite <- Hg; apply filter_len).
  destruct (Z.of_nat n <? 12) eqn:E12; [left; split; [lia|reflexivity]|]. right. split; [lia|].
  destruct (@fit_bands_ok [c0; G ++ skipn m c1; c2; c3; c4; c5; c6] clrx n) as [FB|(cs & FB & FL)].
  - lia.
  - eapply Forall_impl; [|exact HF']. simpl. intros; lia.
  - left. rewrite FB. reflexivity.
  - right. rewrite FB. cbn [bind].
    rewrite (get_ok _ 0) by (unfold zlen; lia). cbn [bind]. rewrite (get_ok _ 0) by (unfold zlen; lia). cbn [bind].
    eexists. split; [reflexivity|]. cbn [sp_cat sp_nobs sp_bands sp_in sp_start sp_end].
    split; [reflexivity|]. split; [reflexivity|]. split; [exact FL|]. split; [reflexivity|].
    split; [f_equal; lia|]. cbn [map]. do 2 f_equal. do 2 f_equal.
    rewrite firstn_app. replace (n - length G)%nat with 0%nat by lia. cbn [firstn]. rewrite app_nil_r. reflexivity.
Qed.

Lemma seq_S_map : forall n, seq 1 n = map S (seq 0 n).
Proof. intros. symmetry. apply seq_shift. Qed.
Lemma filter_map_comm : forall (A B : Type) (f : B -> bool) (g : A -> B) l, filter f (map g l) = map g (filter (fun x => f (g x)) l).
Proof. induction l; [reflexivity|]. cbn [map filter]. destruct (f (g a)); cbn [map]; rewrite IHl; reflexivity. Qed.

Lemma pick_runs : forall (rows : list raw) p d,
  map (fun k => nth k rows d)
    (filter (fun k => negb (nth k (map q_date rows) 0 =? nth k (p :: map q_date rows) 0)) (seq 0 (length rows)))
  = pick (Some p) rows.
Proof.
  induction rows as [|q rows IH]; intros p d; [reflexivity|].
  cbn [length seq filter map]. rewrite seq_S_map, filter_map_comm.
  change (nth 0 (q_date q :: map q_date rows) 0) with (q_date q).
  change (nth 0 (p :: q_date q :: map q_date rows) 0) with p.
  change (fun x : nat => negb (nth (S x) (q_date q :: map q_date rows) 0 =? nth (S x) (p :: q_date q :: map q_date rows) 0))
    with (fun x : nat => negb (nth x (map q_date rows) 0 =? nth x (q_date q :: map q_date rows) 0)).
  cbn [pick].
  assert (T : map (fun k => nth k (q :: rows) d)
     (map S (filter (fun x => negb (nth x (map q_date rows) 0 =? nth x (q_date q :: map q_date rows) 0)) (seq 0 (length rows))))
     = pick (Some (q_date q)) rows).
  { rewrite map_map. change (fun x => nth (S x) (q :: rows) d) with (fun k => nth k rows d). apply IH. }
  destruct (Z.eqb_spec (q_date q) p) as [E|E]; cbn [negb].
  - rewrite T, E. reflexivity.
  - cbn [map]. rewrite T. reflexivity.
Qed.

Lemma kept_pick : forall rows clrx d, (forall i, (i < length rows)%nat -> nth i clrx 0 = nth i (map q_date rows) 0) ->
  map (fun k => nth k rows d) (filter (first_of_run clrx) (seq 0 (length rows))) = pick None rows.
Proof.
  intros rows clrx d H. destruct rows as [|q rows]; [reflexivity|].
  rewrite (filter_ext_in (first_of_run clrx)
     (fun k => match k with O => true | S j => negb (nth k (map q_date (q :: rows)) 0 =? nth j (map q_date (q :: rows)) 0) end)).
  - cbn [length seq filter map nth]. cbn [pick]. f_equal. rewrite seq_S_map, filter_map_comm, map_map. apply pick_runs.
  - intros k Hk. apply in_seq in Hk. unfold first_of_run. destruct k; [reflexivity|]. rewrite !H by lia. reflexivity.
Qed.

Lemma seven : forall (l : list (list Z)), length l = 7%nat -> exists a b c d e f g, l = [a; b; c; d; e; f; g].
Proof.
  intros l H. do 7 (destruct l as [|? l]; [discriminate|]). destruct l; [|discriminate].
  repeat eexists.
Qed.

Lemma list_nth_map : forall (l : list Z) n (f : nat -> Z), (n <= length l)%nat ->
  (forall t, (t < n)%nat -> nth t l 0 = f t) -> firstn n l = map f (seq 0 n).
Proof.
  intros l n f Hn H. apply nth_ext with (d := 0) (d' := f 0%nat).
  - rewrite firstn_length, map_length, seq_length. lia.
  - rewrite firstn_length. intros t Ht. rewrite nth_firstn by lia. rewrite map_nth, seq_nth by lia. apply H. lia.
Qed.

(** The record of the masked branch.  [kept] are the rows in range, the first
    of each date; [n] of them are used. *)
Definition masked_spec (c2 : bool) (junk : nat -> nat -> Z) (rows : list raw) (s : srec C) : Prop :=
  exists G med2 th ks,
  let kept := pick None rows in
  let n := length (filter (fun g => 2 * g <? med2 + 800) (map q_g kept)) in
  let used := firstn n kept in
  let own f := Some (map (fun q => (q_date q, f q)) used) in
  Permutation (map q_g kept) G /\ ascending_by (fun x : Z => x) G /\ twice_median (map q_g kept) med2 /\
  (12 <= n <= length kept)%nat /\
  sp_cat s = 44 /\ sp_nobs s = Z.of_nat n /\ length (sp_bands s) = 7%nat /\
  sp_start s = nth 0 (map q_date used) 0 /\ sp_end s = last (map q_date used) 0 /\
  sp_in s = [own q_b; Some (combine (map q_date used) (firstn n G)); own q_r; own q_n; own q_s1; own q_s2;
             Some (combine (map q_date used) (th :: map (junk 6%nat) ks))] /\
  th = last (map (sband c2 6) rows) 0.

Lemma sparse_masked_ok : forall c2 junk (l : list (raw * bool)), l <> [] ->
  let rows := map fst (filter snd l) in
  sparse_masked fit c2 junk l = Fail \/
  exists r, sparse_masked fit c2 junk l = Ok r /\ forall s, r = Some s -> masked_spec c2 junk rows s.
Proof.
  intros c2 junk l Hl rows. unfold sparse_masked. fold rows. set (N := length l).
  assert (HN : (1 <= N)%nat) by (unfold N; destruct l; [congruence|cbn; lia]).
  assert (HrN : (length rows <= N)%nat).
  { unfold rows, N. rewrite map_length. apply filter_len. }
  clearbody rows.
  set (clrx := fill N junk 7 (map q_date rows)). set (cols := sparse_cols c2 N junk rows).
  set (th := map (fun q => if c2 then 0 else q_t q * 10 - 27320) rows) in *.
  assert (Lc : length clrx = N) by (apply fill_length; rewrite map_length; assumption).
  assert (Lcols : Forall (fun c => length c = length clrx) cols).
  { rewrite Lc. unfold cols, sparse_cols. fold th.
    repeat constructor; apply fill_length; rewrite ?map_length; try assumption.
    destruct (rev th); cbn [length]; lia. }
  change (fun '(clrx1, cols1, endd) => _) with (fun x : list Z * list (list Z) * Z => let '(clrx1, cols1, endd) := x in masked_tail clrx1 cols1 endd).
  assert (DR : rows = [] \/ exists q0 rows', rows = q0 :: rows').
  { destruct rows; [left; reflexivity|right; eauto]. }
  destruct DR as [Er|(q0 & rows' & Er)].
  - (* nothing in range: one junk row is looked at and dropped *)
    replace (length rows) with 0%nat by (rewrite Er; reflexivity).
    change (matlab_unique clrx cols 0) with (@Ok (list Z * list (list Z) * Z) (clrx, cols, 1)).
    cbn [bind]. rewrite Lc in Lcols.
    destruct (@seven cols eq_refl) as (a & b & c & d & e & f & g & Ec). rewrite Ec in *.
    destruct (@masked_tail_ok clrx a b c d e f g 1 N) as (G & med2 & _ & _ & _ & _ & [[_ H]|[H _]]); auto; [|exfalso; lia].
    right. change (Z.of_nat 1) with 1 in H. rewrite H. exists None. split; [reflexivity|]. discriminate.
  - assert (Hr1 : (1 <= length rows)%nat) by (rewrite Er; cbn; lia).
    destruct (@C41_unique Z 0 clrx cols (length rows)) as (clrx1 & cols1 & U1 & U2 & U3 & U4 & U5); [lia|assumption|].
    rewrite U1. cbn [bind]. set (ks := filter (first_of_run clrx) (seq 0 (length rows))) in *. set (m := length ks) in *.
    assert (Hks : map (fun k => nth k rows q0) ks = pick None rows).
    { apply kept_pick. intros i Hi. unfold clrx. rewrite fill_nth1 by (rewrite map_length; assumption). reflexivity. }
    assert (Hkin : forall t, (t < m)%nat -> (nth t ks 0 < length rows)%nat).
    { intros t Ht. assert (In (nth t ks 0%nat) ks) by (apply nth_In; assumption).
      unfold ks in H at 2. apply filter_In in H. destruct H as [H _]. apply in_seq in H. lia. }
    assert (Hm : (1 <= m)%nat).
    { unfold m, ks. rewrite Er. cbn [length seq filter first_of_run]. cbn [length]. lia. }
    assert (Hm2 : (m <= length rows)%nat).
    { unfold m, ks. eapply Nat.le_trans; [apply filter_len|]. rewrite seq_length. lia. }
    assert (Row : forall t, (t < m)%nat -> row_at 0 0 clrx1 cols1 t = row_at 0 0 clrx cols (nth t ks 0%nat)).
    { intros t Ht.
      assert (E1 : nth t (map (row_at 0 0 clrx1 cols1) (seq 0 m)) (row_at 0 0 clrx1 cols1 0) = row_at 0 0 clrx1 cols1 t).
      { rewrite map_nth, seq_nth by assumption. reflexivity. }
      rewrite <- E1, U5. rewrite (nth_indep _ _ (row_at 0 0 clrx cols 0)) by (rewrite map_length; exact Ht).
      rewrite map_nth. reflexivity. }
    rewrite Lc in U2, U4. rewrite Lc in Lcols.
    change (length cols) with 7%nat in U3. destruct (@seven cols1 U3) as (a & b & c & d & e & f & g & Ec). rewrite Ec in *.
    assert (Hrow : forall t, (t < m)%nat -> nth t ks 0%nat = nth t ks 0%nat /\ forall (h : raw -> Z), nth (nth t ks 0%nat) (map h rows) 0 = nth t (map h (pick None rows)) 0).
    { intros t Ht. split; [reflexivity|]. intros h.
      assert (HP : nth t (pick None rows) q0 = nth (nth t ks 0%nat) rows q0).
      { rewrite <- Hks. rewrite (nth_indep _ q0 (nth 0 rows q0)) by (rewrite map_length; exact Ht).
        rewrite (map_nth (fun k => nth k rows q0)). reflexivity. }
      rewrite (nth_indep (map h rows) 0 (h q0)) by (rewrite map_length; auto).
      rewrite (nth_indep (map h (pick None rows)) 0 (h q0)) by (rewrite map_length, <- Hks, map_length; exact Ht).
      rewrite !map_nth, HP. reflexivity. }
    assert (Lp : length (pick None rows) = m) by (rewrite <- Hks, map_length; reflexivity).
    assert (P : forall t, (t < m)%nat ->
      nth t clrx1 0 = nth t (map q_date (pick None rows)) 0 /\
      nth t a 0 = nth t (map q_b (pick None rows)) 0 /\ nth t b 0 = nth t (map q_g (pick None rows)) 0 /\
      nth t c 0 = nth t (map q_r (pick None rows)) 0 /\ nth t d 0 = nth t (map q_n (pick None rows)) 0 /\
      nth t e 0 = nth t (map q_s1 (pick None rows)) 0 /\ nth t f 0 = nth t (map q_s2 (pick None rows)) 0 /\
      nth t g 0 = nth (nth t ks 0%nat) (nth 6 cols []) 0).
    { intros t Ht. pose proof (Row t Ht) as R. unfold row_at in R. unfold cols, sparse_cols in R. fold th in R. cbn [map] in R.
      injection R as R0 R1 R2 R3 R4 R5 R6 R7.
      destruct (Hrow t Ht) as [_ Hh].
      assert (F : forall k h, nth (nth t ks 0%nat) (fill N junk k (map h rows)) 0 = nth t (map h (pick None rows)) 0).
      { intros k h. rewrite fill_nth1 by (rewrite map_length; auto). apply Hh. }
      unfold clrx in R0. rewrite F in R0, R1, R2, R3, R4, R5, R6. repeat split; assumption. }
    destruct (@masked_tail_ok clrx1 a b c d e f g m N) as (G & med2 & T1 & T2 & T3 & T3' & [[_ H]|[Hn [H|(s & H & S1 & S2 & S3 & S4 & S5 & S6)]]]);
      try assumption; try lia.
    + right. rewrite H. exists None. split; [reflexivity|discriminate].
    + left. exact H.
    + right. rewrite H. exists (Some s). split; [reflexivity|]. intros s0 Es. injection Es as <-.
      assert (LEN : length a = N /\ length b = N /\ length c = N /\ length d = N /\ length e = N /\ length f = N /\ length g = N).
      { rewrite !Forall_cons_iff in U4. tauto. }
      assert (PRE : forall (col : list Z) (h : raw -> Z) i, length col = N -> (i <= m)%nat ->
        (forall t, (t < m)%nat -> nth t col 0 = nth t (map h (pick None rows)) 0) -> firstn i col = map h (firstn i (pick None rows))).
      { intros col h i Hcl Hi Ht. rewrite <- firstn_map. apply nth_ext with (d := 0) (d' := 0).
        - rewrite !firstn_length, map_length. lia.
        - rewrite firstn_length. intros t Hti. rewrite !nth_firstn by lia. apply Ht. lia. }
      assert (Eg : firstn m b = map q_g (pick None rows)).
      { rewrite (PRE b q_g m) by (try tauto; try lia; intros; apply P; assumption). rewrite firstn_all2 by lia. reflexivity. }
      rewrite Eg in *.
      set (n := length (filter (fun g => 2 * g <? med2 + 800) (map q_g (pick None rows)))) in *.
      assert (Eth : firstn n g = last th 0 :: map (junk 6%nat) (map (fun t => nth t ks 0%nat) (seq 1 (n - 1)))).
      { assert (Hks0 : nth 0 ks 0%nat = 0%nat).
        { unfold ks. rewrite Er. cbn [length seq filter first_of_run]. reflexivity. }
        assert (Hinc : forall t, (0 < t < m)%nat -> (0 < nth t ks 0)%nat).
        { intros t Ht. assert (HND : NoDup ks) by (unfold ks; apply NoDup_filter, seq_NoDup).
          destruct (nth t ks 0%nat) eqn:E0; [|lia]. exfalso.
          assert (t = 0%nat); [|lia]. apply (proj1 (NoDup_nth ks 0%nat) HND); fold m; try lia. }
        assert (Hrev : exists t0 r0, rev th = t0 :: r0 /\ last th 0 = t0).
        { destruct (rev th) as [|t0 r0] eqn:Erev.
          - exfalso. assert (length (rev th) = 0%nat) by (rewrite Erev; reflexivity).
            rewrite rev_length in H0. unfold th in H0. rewrite map_length in H0. lia.
          - exists t0, r0. split; [reflexivity|]. rewrite <- (rev_involutive th), Erev. cbn [rev]. apply last_last. }
        destruct Hrev as (t0 & r0 & Erev & Elast).
        assert (E6 : nth 6 cols [] = fill N junk 6 [t0]).
        { unfold cols, sparse_cols. fold th. cbn [nth]. rewrite Erev. reflexivity. }
        rewrite Elast. destruct n as [|n']; [exfalso; lia|].
        apply nth_ext with (d := 0) (d' := 0).
        - cbn [length]. rewrite firstn_length, !map_length, seq_length. lia.
        - rewrite firstn_length. intros t Ht. rewrite nth_firstn by lia.
          destruct (P t ltac:(lia)) as (_ & _ & _ & _ & _ & _ & _ & Pg). rewrite Pg, E6.
          destruct t as [|t].
          + rewrite Hks0. reflexivity.
          + rewrite fill_nth2; [|cbn [length]; pose proof (Hinc (S t)); pose proof (Hkin (S t)); lia].
            cbn [nth]. rewrite map_map.
            rewrite (nth_indep _ 0 (junk 6%nat (nth 0%nat ks 0%nat))) by (rewrite map_length, seq_length; lia).
            rewrite (map_nth (fun x => junk 6%nat (nth x ks 0%nat))). rewrite seq_nth by lia. reflexivity. }
      exists G, med2, (last th 0), (map (fun t => nth t ks 0%nat) (seq 1 (n - 1))). cbn zeta. fold n.
      assert (Edates : firstn n clrx1 = map q_date (firstn n (pick None rows))).
      { apply PRE; [assumption|lia|]. intros; apply P; assumption. }
      split; [assumption|]. split; [assumption|]. split; [assumption|].
      split; [lia|]. split; [assumption|]. split; [assumption|]. split; [assumption|].
      split; [|split; [|split]].
      * rewrite S4, <- Edates. rewrite nth_firstn by lia. reflexivity.
      * rewrite S5, <- Edates, <- nth_last, firstn_length.
        replace (Nat.min n (length clrx1)) with n by lia. rewrite nth_firstn by lia. reflexivity.
      * rewrite S6. cbn [map]. rewrite Edates, Eth.
        rewrite (PRE a q_b n), (PRE c q_r n), (PRE d q_n n), (PRE e q_s1 n), (PRE f q_s2 n);
          try tauto; try lia; try (intros; apply P; assumption).
        rewrite !combine_map. reflexivity.
      * reflexivity.
Qed.
End Masked.

(** ** C17 *)

(** Every pair is an input row's date with that row's value of band [k]. *)
Definition own_pairs (c2 : bool) (l : list raw) (k : nat) (ps : list (Z * Z)) : Prop :=
  Forall (fun p => exists q, In q l /\ p = (q_date q, sband c2 k q)) ps.

Section C17.
Variable C : Type.
Variable fit : list (Z * Z) -> option C.
Variable saturated : C.

Lemma flags_rows : forall c2 l, map fst (filter snd (map (fun q => (q, id_range c2 q)) l)) = filter (id_range c2) l.
Proof.
  intros c2. induction l as [|q l IH]; [reflexivity|]. cbn [map filter snd].
  destruct (id_range c2 q); cbn [map fst]; rewrite IH; reflexivity.
Qed.

(** Shape of a record of the sparse procedure. *)
Definition sparse_shape (l : list raw) (s : srec C) : Prop :=
  (sp_cat s = 44 \/ sp_cat s = 54) /\ 12 <= sp_nobs s <= zlen l /\ length (sp_bands s) = 7%nat /\
  In (sp_start s) (map q_date l) /\ In (sp_end s) (map q_date l) /\
  (~ unsorted l -> sp_start s <= sp_end s).

Lemma In_dates_filter : forall (f : raw -> bool) l d, In d (map q_date (filter f l)) -> In d (map q_date l).
Proof.
  intros f l d H. apply in_map_iff in H. destruct H as (q & <- & H). apply filter_In in H. apply in_map. tauto.
Qed.

Lemma sorted_last : forall l d, StronglySorted Z.le l -> In d l -> d <= last l 0.
Proof.
  induction l as [|a l IH]; intros d Hs Hd; [contradiction|]. apply StronglySorted_inv in Hs. destruct Hs as [Hs Ha].
  destruct l as [|b l'].
  - destruct Hd as [<-|[]]. simpl. lia.
  - change (last (a :: b :: l') 0) with (last (b :: l') 0). destruct Hd as [<-|Hd]; [|auto].
    rewrite Forall_forall in Ha. specialize (IH b Hs (or_introl eq_refl)). specialize (Ha b (or_introl eq_refl)). lia.
Qed.

Lemma unsorted_sorted : forall l, ~ unsorted l -> StronglySorted Z.le (map q_date l).
Proof.
  intros l H. apply sorted_strong. destruct (dates_sorted l) eqn:E; [reflexivity|].
  apply dates_sorted_false in E. contradiction.
Qed.

Lemma last_In : forall A (l : list A) d, l <> [] -> In (last l d) l.
Proof.
  intros A l d H. rewrite <- nth_last. apply nth_In. destruct l; [congruence|]. cbn [length]. lia.
Qed.

(** The sparse procedure stays inside its arrays, and reports at most one
    record. *)
Lemma sparse_ok : forall c2 junk l flags c, l <> [] ->
  preprocess c2 l (mkCounts 0 0 0 0 0) = Ok (flags, c) ->
  sparse fit saturated c2 junk flags c = Fail \/
  exists r, sparse fit saturated c2 junk flags c = Ok r /\ forall s, r = Some s ->
    sparse_shape l s /\
    (sp_cat s = 54 <-> qa_count [3] l > 3 * qa_count [0; 1] l) /\
    (sp_cat s = 44 -> masked_spec c2 junk (filter (id_range c2) l) s) /\
    (sp_cat s = 54 -> forall k, (k < 7)%nat ->
        (forall j, (j < k)%nat -> Forall (fun q => in_band j (sband c2 j q)) (snow_rows l)) ->
        nth k (sp_in s) None = None \/
        exists sel, subseq sel (snow_rows l) /\
          nth k (sp_in s) None = Some (map (fun q => (q_date q, sband c2 k q)) sel)).
Proof.
  intros c2 junk l flags c Hl Hp.
  destruct (preprocess_eq c2 l (mkCounts 0 0 0 0 0)) as [[HF E]|[HF E]]; [|congruence].
  rewrite Hp in E. injection E as -> ->. unfold sparse, add_counts. cbn [n_snow n_clear]. rewrite !Z.add_0_l.
  assert (Efst : map fst (map (fun q => (q, id_range c2 q)) l) = l) by (rewrite map_map; apply map_id).
  destruct (qa_count [3] l >? 3 * qa_count [0; 1] l) eqn:Esn.
  - rewrite Efst. destruct (@sparse_snow_ok C fit saturated c2 l) as [H|(r & H & H1 & H2)]; [left; assumption|].
    right. exists r. split; [assumption|]. intros s Es. destruct (H2 s Es) as (A1 & A2 & A3 & A4 & A5 & A6 & A7).
    assert (Hsn : 12 <= zlen (snow_rows l)).
    { destruct (Z.lt_ge_cases (zlen (snow_rows l)) 12) as [Hlt|]; [|assumption]. apply H1 in Hlt. congruence. }
    split; [|split; [split; [intros _; lia|intros _; assumption]|split; [intros; congruence|intros _; assumption]]].
    unfold sparse_shape. split; [auto|]. split.
    { rewrite A2. split; [assumption|]. unfold zlen, snow_rows. pose proof (filter_len (fun q => (q_qa q =? 3) || (q_qa q <? 2)) l). lia. }
    split; [assumption|].
    assert (Hne : map q_date (snow_rows l) <> []).
    { intros E0. apply (f_equal (@length Z)) in E0. rewrite map_length in E0. unfold zlen in Hsn. cbn in E0. lia. }
    split; [eapply In_dates_filter; eassumption|]. split.
    + rewrite A6. eapply In_dates_filter. apply last_In. exact Hne.
    + intros Hu. rewrite A6. apply sorted_last; [|assumption]. apply sorted_filter, unsorted_sorted, Hu.
  - destruct (@sparse_masked_ok C fit c2 junk (map (fun q => (q, id_range c2 q)) l)) as [H|(r & H & H1)].
    + destruct l; [congruence|discriminate].
    + left. assumption.
    + right. exists r. split; [assumption|]. intros s Es. specialize (H1 s Es). rewrite flags_rows in H1.
      pose proof H1 as (G & med2 & th & ks & Q). cbn zeta in Q.
      destruct Q as (_ & _ & _ & Hn & Q1 & Q2 & Q3 & Q4 & Q5 & _).
      set (kept := pick None (filter (id_range c2) l)) in *.
      set (n := length (filter (fun g => 2 * g <? med2 + 800) (map q_g kept))) in *.
      assert (Hsub : subseq (firstn n kept) l).
      { eapply subseq_trans; [apply subseq_firstn|]. eapply subseq_trans; [apply pick_subseq|].
        clear. induction l; cbn [filter]; [constructor|]. destruct (id_range c2 a); constructor; assumption. }
      assert (Hlen : length (map q_date (firstn n kept)) = n) by (rewrite map_length, firstn_length; lia).
      split; [|split; [split; intros; lia|split; [intros; assumption|intros; congruence]]].
      unfold sparse_shape. split; [auto|]. split.
      { rewrite Q2. apply subseq_length in Hsub. rewrite map_length in Hlen. unfold zlen. lia. }
      split; [assumption|].
      assert (I1 : In (sp_start s) (map q_date (firstn n kept))) by (rewrite Q4; apply nth_In; lia).
      assert (I2 : In (sp_end s) (map q_date (firstn n kept))).
      { rewrite Q5. apply last_In. intros E0. rewrite E0 in Hlen. cbn in Hlen. lia. }
      assert (Hsd : subseq (map q_date (firstn n kept)) (map q_date l)) by (apply subseq_map, Hsub).
      split; [eapply subseq_In; eassumption|]. split; [eapply subseq_In; eassumption|].
      intros Hu. rewrite Q5. apply sorted_last; [|assumption].
      assert (Hasc : ascending (map q_date (firstn n kept))).
      { eapply subseq_ascending; [apply subseq_map, subseq_firstn|].
        apply (@pick_spec (filter (id_range c2) l) None); [|discriminate]. apply sorted_filter, unsorted_sorted, Hu. }
      unfold ascending in Hasc. clear - Hasc. induction Hasc; constructor; [assumption|].
      eapply Forall_impl; [|eassumption]. simpl. intros; lia.
Qed.

(** C17, what holds.  Missing: the green and thermal bands of category 44
    records and, for category 54, the bands after a band with saturated
    values; these are refuted below. *)
Theorem C17_own_dates_partial : forall c2 junk l flags c s k ps, l <> [] ->
  preprocess c2 l (mkCounts 0 0 0 0 0) = Ok (flags, c) ->
  sparse fit saturated c2 junk flags c = Ok (Some s) ->
  nth_error (sp_in s) k = Some (Some ps) ->
  (sp_cat s = 44 /\ k <> 1%nat /\ k <> 6%nat) \/
  (sp_cat s = 54 /\ forall j, (j < k)%nat -> Forall (fun q => in_band j (sband c2 j q)) (snow_rows l)) ->
  own_pairs c2 l k ps.
Proof.
  intros c2 junk l flags c s k ps Hl Hp Hs Hk Hc.
  destruct (@sparse_ok c2 junk l flags c Hl Hp) as [E|(r & E & H)]; [congruence|].
  assert (Er : r = Some s) by congruence. destruct (H s Er) as (S0 & S1 & S2 & S3).
  destruct Hc as [(Hc & Hk1 & Hk6)|(Hc & Hj)].
  - destruct (S2 Hc) as (G & med2 & th & ks & Q). cbn zeta in Q.
    destruct Q as (_ & _ & _ & _ & _ & _ & _ & _ & _ & Q & _). rewrite Q in Hk. clear Q.
    set (used := firstn _ _) in Hk.
    assert (Hin : forall q, In q used -> In q l).
    { intros q Hq. unfold used in Hq. apply (subseq_In q (subseq_firstn _ _)) in Hq.
      apply (subseq_In q (pick_subseq _ _)) in Hq. apply filter_In in Hq. tauto. }
    assert (W : forall f, (forall q, f q = sband c2 k q) -> ps = map (fun q => (q_date q, f q)) used -> own_pairs c2 l k ps).
    { intros f Hf ->. apply Forall_forall. intros p Hp'. apply in_map_iff in Hp'. destruct Hp' as (q & <- & Hq).
      exists q. split; [auto|]. rewrite Hf. reflexivity. }
    do 7 (destruct k as [|k]; [cbn [nth_error] in Hk; first [congruence | injection Hk as Hk; eapply W; [|symmetry; exact Hk]; reflexivity]|]).
    destruct k; discriminate.
  - assert (Hk7 : (k < 7)%nat).
    { assert (length (sp_in s) = 7%nat).
      { destruct (@sparse_snow_ok C fit saturated c2 l) as [X|(r' & X & X1 & X2)].
        - exfalso. destruct (preprocess_eq c2 l (mkCounts 0 0 0 0 0)) as [[HF E']|[HF E']]; [|congruence].
          rewrite Hp in E'. injection E' as -> ->. unfold sparse, add_counts in Hs. cbn [n_snow n_clear] in Hs.
          rewrite !Z.add_0_l in Hs. apply S1 in Hc. replace (qa_count [3] l >? 3 * qa_count [0; 1] l) with true in Hs by lia.
          rewrite map_map in Hs. cbn [fst] in Hs. rewrite map_id in Hs. congruence.
        - destruct (preprocess_eq c2 l (mkCounts 0 0 0 0 0)) as [[HF E']|[HF E']]; [|congruence].
          rewrite Hp in E'. injection E' as -> ->. unfold sparse, add_counts in Hs. cbn [n_snow n_clear] in Hs.
          rewrite !Z.add_0_l in Hs. apply S1 in Hc. replace (qa_count [3] l >? 3 * qa_count [0; 1] l) with true in Hs by lia.
          rewrite map_map in Hs. cbn [fst] in Hs. rewrite map_id in Hs. assert (r' = Some s) by congruence.
          apply X2 in H0. tauto. }
      rewrite <- H0. apply nth_error_Some. congruence. }
    destruct (S3 Hc k Hk7 Hj) as [E0|(sel & Hsel & E0)].
    + rewrite (nth_error_nth _ _ None Hk) in E0. discriminate.
    + rewrite (nth_error_nth _ _ None Hk) in E0. injection E0 as ->. apply Forall_forall. intros p Hp'.
      apply in_map_iff in Hp'. destruct Hp' as (q & <- & Hq). exists q. split; [|reflexivity].
      apply (subseq_In q Hsel) in Hq. unfold snow_rows in Hq. apply filter_In in Hq. tauto.
Qed.
End C17.
Print Assumptions C17_own_dates_partial.

(** Witnesses: the model of a band is the list of pairs it was fitted on. *)
Definition idfit (ps : list (Z * Z)) : option (list (Z * Z)) := Some ps.
Definition run_sparse (c2 : bool) (junk : nat -> nat -> Z) (l : list raw) : out (option (srec (list (Z * Z)))) :=
  ' (flags, c) <- preprocess c2 l (mkCounts 0 0 0 0 0) ;; sparse idfit [] c2 junk flags c.

(** Fifteen cloudy rows in range with decreasing green. *)
Fixpoint ramp (n : nat) (d qa : Z) : list raw :=
  match n with O => [] | S m => mkRaw d 100 (1000 - d) 300 400 500 600 2932 qa :: ramp m (d + 1) qa end.
Definition no_junk : nat -> nat -> Z := fun _ _ => 0.

Example masked_run : match run_sparse false no_junk (ramp 15 1 4) with
  | Ok (Some s) => Some (sp_start s, sp_end s, sp_nobs s, sp_cat s, nth 2 (sp_in s) None) | _ => None end
  = Some (1, 15, 15, 44, Some (map (fun d => (d, 300)) [1;2;3;4;5;6;7;8;9;10;11;12;13;14;15])).
Proof. vm_compute. reflexivity. Qed.

(** Green is fitted on values sorted independently of their dates. *)
Theorem C17_green_refuted : exists l s ps, ~ unsorted l /\
  run_sparse false no_junk l = Ok (Some s) /\ nth_error (sp_in s) 1 = Some (Some ps) /\ ~ own_pairs false l 1 ps.
Proof.
  exists (ramp 15 1 4). eexists. eexists. split; [|split; [vm_compute; reflexivity|split; [reflexivity|]]].
  - intros H. apply dates_sorted_false in H. vm_compute in H. discriminate.
  - intros H. inversion H as [|p ps Hp _]; subst. destruct Hp as (q & Hq & E). vm_compute in Hq.
    repeat destruct Hq as [<-|Hq]; try contradiction; vm_compute in E; discriminate.
Qed.

(** Thermal is fitted on uninitialised memory. *)
Theorem C17_thermal_refuted : exists l s s' junk, ~ unsorted l /\
  run_sparse false no_junk l = Ok (Some s) /\ run_sparse false junk l = Ok (Some s') /\
  nth_error (sp_bands s) 6 <> nth_error (sp_bands s') 6.
Proof.
  exists (ramp 15 1 4). eexists. eexists. exists (fun _ _ => 1234).
  split; [|split; [vm_compute; reflexivity|split; [vm_compute; reflexivity|]]].
  - intros H. apply dates_sorted_false in H. vm_compute in H. discriminate.
  - vm_compute. intros H. discriminate H.
Qed.

(** Snow: a saturated blue value shifts the dates of the following bands. *)
Theorem C17_snow_refuted : exists l s ps, ~ unsorted l /\
  run_sparse false no_junk l = Ok (Some s) /\ sp_cat s = 54 /\
  nth_error (sp_in s) 1 = Some (Some ps) /\ ~ own_pairs false l 1 ps.
Proof.
  exists (mkRaw 0 10000 1000 300 400 500 600 2932 3 :: ramp 15 1 3). eexists. eexists.
  split; [|split; [vm_compute; reflexivity|split; [reflexivity|split; [reflexivity|]]]].
  - intros H. apply dates_sorted_false in H. vm_compute in H. discriminate.
  - intros H. inversion H as [|p ps Hp _]; subst. destruct Hp as (q & Hq & E). vm_compute in Hq.
    repeat destruct Hq as [<-|Hq]; try contradiction; vm_compute in E; discriminate.
Qed.
Print Assumptions C17_snow_refuted.
