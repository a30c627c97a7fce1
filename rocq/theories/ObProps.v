(** C18, C19, C20, C66: obcold_reconstruct. *)
From Verif Require Import Base SortModel SortProof SortProps LibModel LibProps ColdModel ColdSpec ColdLemmas
  FrontModel FrontProps SparseProps ObModel.
Set Implicit Arguments.

(** ** Which supplied dates are used (C18) *)

Lemma wrap32_id : forall z, -2147483648 <= z <= 2147483647 -> wrap32 z = z.
Proof. intros z H. unfold wrap32. rewrite Z.mod_small; lia. Qed.

(** A list with steps of at least 366 days, starting at least 366 after [a]. *)
Inductive spaced : Z -> list Z -> Prop :=
| sp_nil : forall a, spaced a []
| sp_cons : forall a d l, a + 366 <= d -> spaced d l -> spaced a (d :: l).

Lemma pick_breaks_ok : forall l last, StronglySorted Z.le l ->
  Forall (fun d => d <= 2147483647) l -> 0 <= last ->
  spaced last (pick_breaks last l) /\ subseq (pick_breaks last l) l /\
  (forall d, In d l -> last + 366 <= d -> exists b, In b (pick_breaks last l) /\ b <= d < b + 366).
Proof.
  induction l as [|d l IH]; intros last Hs Hb Hl; cbn [pick_breaks].
  - split; [constructor|]. split; [constructor|]. contradiction.
  - apply StronglySorted_inv in Hs. destruct Hs as [Hs Hd]. inversion Hb as [|? ? Hb1 Hb2]; subst.
    destruct ((d >? 0) && (4 * (d - last) >=? 1461)) eqn:E.
    + assert (Hg : last + 366 <= d) by lia. rewrite (@wrap32_id d) by lia.
      destruct (IH d Hs Hb2) as (I1 & I2 & I3); [lia|]. split; [constructor; assumption|].
      split; [constructor; assumption|]. intros e [<-|He] Hle.
      * exists d. split; [left; reflexivity|lia].
      * destruct (Z_lt_le_dec e (d + 366)).
        -- exists d. rewrite Forall_forall in Hd. specialize (Hd e He). split; [left; reflexivity|lia].
        -- destruct (I3 e He) as (b & Hb' & Hbe); [lia|]. exists b. split; [right; assumption|assumption].
    + destruct (IH last Hs Hb2 Hl) as (I1 & I2 & I3). split; [assumption|]. split; [constructor; assumption|].
      intros e [<-|He] Hle; [lia|auto].
Qed.

(** C18: the accepted dates.  Sorted supplied dates; accepted ones are an
    increasing subsequence at least 366 whole days (365.25) apart, and every
    supplied date is within a year after an accepted one: the greedy choice
    from the earliest. *)
Theorem C18_accepted : forall breaks, breaks <> [] -> Forall (fun d => d <= 2147483647) breaks ->
  exists sorted, quick_sort Z.ltb (length breaks) breaks 0 (zlen breaks - 1) = Ok sorted /\
    Permutation breaks sorted /\ StronglySorted Z.le sorted /\
    let acc := pick_breaks 0 sorted in
    subseq acc sorted /\ spaced 0 acc /\
    (forall d, In d breaks -> 366 <= d -> exists b, In b acc /\ b <= d < b + 366).
Proof.
  intros breaks Hne Hb. destruct (@C37_quick_sort Z (fun x => x) (length breaks) [] breaks [] Hne) as (s & E & Hp & Hs); [lia|].
  rewrite app_nil_r in E. cbn [app zlen length] in E. rewrite app_nil_r in E. exists s.
  split; [exact E|]. split; [assumption|].
  assert (Hss : StronglySorted Z.le s).
  { clear - Hs. unfold ascending_by in Hs. exact Hs. }
  split; [assumption|].
  destruct (@pick_breaks_ok s 0 Hss) as (I1 & I2 & I3); [|lia|].
  - rewrite Forall_forall in *. intros d Hd. apply Hb. eapply Permutation_in; [apply Permutation_sym; eassumption|assumption].
  - split; [assumption|]. split; [assumption|]. intros d Hd Hge. apply I3; [|lia]. eapply Permutation_in; eassumption.
Qed.

(** ** Nearest observations *)

Lemma nearest_unique : forall l d i j, first_nearest l d i -> first_nearest l d j -> i = j.
Proof.
  intros l d i j (Hi & Hi1 & Hi2) (Hj & Hj1 & Hj2).
  destruct (Nat.lt_trichotomy i j) as [H|[H|H]]; [|assumption|].
  - specialize (Hj2 i H). specialize (Hi1 j Hj). lia.
  - specialize (Hi2 j H). specialize (Hj1 i Hi). lia.
Qed.

Lemma nearest_mono : forall l b b' i j, ascending l -> first_nearest l b i -> first_nearest l b' j -> b <= b' -> (i <= j)%nat.
Proof.
  intros l b b' i j Ha (Hi & Hi1 & Hi2) (Hj & Hj1 & Hj2) Hb.
  destruct (le_lt_dec i j) as [H|H]; [assumption|]. exfalso.
  pose proof (@ascending_nth l j i 0 Ha H Hi). specialize (Hi2 j H). specialize (Hj1 i Hi). lia.
Qed.

Lemma nearest_shrink : forall A0 A s d k, (forall z, In z A -> In z A0) ->
  first_nearest (A0 ++ s) d (length A0 + k) -> first_nearest (A ++ s) d (length A + k).
Proof.
  intros A0 A s d k HA (H & H1 & H2). rewrite app_length in H.
  assert (E : nth (length A + k) (A ++ s) 0 = nth (length A0 + k) (A0 ++ s) 0).
  { rewrite !app_nth2 by lia. f_equal. lia. }
  assert (HinA : forall j, (j < length A)%nat -> exists j0, (j0 < length A0)%nat /\ nth j (A ++ s) 0 = nth j0 (A0 ++ s) 0).
  { intros j Hj. destruct (In_nth A0 (nth j A 0) 0) as (j0 & Hj0 & E0); [apply HA, nth_In; assumption|].
    exists j0. split; [assumption|]. rewrite !app_nth1 by lia. auto. }
  split; [rewrite app_length; lia|]. rewrite E. split; intros j Hj.
  - destruct (le_lt_dec (length A) j).
    + replace (nth j (A ++ s) 0) with (nth (length A0 + (j - length A)) (A0 ++ s) 0)
        by (rewrite !app_nth2 by lia; f_equal; lia).
      apply H1. rewrite app_length in *. lia.
    + destruct (HinA j l) as (j0 & Hj0 & ->). apply H1. rewrite app_length. lia.
  - destruct (le_lt_dec (length A) j).
    + replace (nth j (A ++ s) 0) with (nth (length A0 + (j - length A)) (A0 ++ s) 0)
        by (rewrite !app_nth2 by lia; f_equal; lia).
      apply H2. lia.
    + destruct (HinA j l) as (j0 & Hj0 & ->). apply H2. lia.
Qed.

Section Segments.
Variables M D : Type.
Variable K : okernel M D.
Variable conse : Z.
Hypothesis Hconse : 1 <= conse.
Variable x : list obs.
Hypothesis Hx : asc x.
Hypothesis Hne : x <> [].
Notation brec := (brec M D).

(** The break date of [r] is the clear observation nearest to [b]. *)
Definition nearest_break (b : Z) (r : brec) : Prop :=
  exists i, first_nearest (map o_date x) b i /\ b_break r = nth i (map o_date x) 0.

(** What every record says about the observations [b_win] it was fitted to. *)
Definition seg_ok (r : brec) : Prop :=
  subseq (b_win r) x /\ 6 <= zlen (b_win r) /\
  (exists o, hd_error (b_win r) = Some o /\ b_start r = o_date o) /\
  b_end r = o_date (last (b_win r) (mkObs 0 [])) /\
  b_nobs r = zlen (b_win r) + 1 /\ b_cat r = update_cft (zlen (b_win r)) /\
  o_fit K (b_cat r) (b_win r) = Some (b_model r).
Definition closed_seg (r : brec) : Prop :=
  seg_ok r /\ b_end r < b_break r /\ b_prob r = 100 /\ In (b_break r) (map o_date x) /\
  (exists v, b_devs r = map (fun o => (o, o_dev K (b_model r) (b_cat r) o)) v /\ subseq v x /\
             1 <= zlen v <= conse /\ (exists o, hd_error v = Some o /\ b_break r = o_date o)).
Definition in_order (rs : list brec) : Prop :=
  forall pre r1 r2 post, rs = pre ++ r1 :: r2 :: post -> b_break r1 <= b_start r2.

Lemma in_order_snoc : forall rs r, in_order rs ->
  (forall pre r1, rs = pre ++ [r1] -> b_break r1 <= b_start r) -> in_order (rs ++ [r]).
Proof.
  intros rs r H Hl pre r1 r2 post E.
  destruct (@exists_last _ (r2 :: post)) as (p & z & Ez); [discriminate|].
  assert (E2 : rs ++ [r] = (pre ++ r1 :: p) ++ [z]).
  { rewrite E. rewrite <- app_assoc. cbn [app]. rewrite <- Ez. reflexivity. }
  apply app_inj_tail in E2. destruct E2 as [E2 <-].
  destruct p as [|p0 p].
  - injection Ez as -> ->. apply (Hl pre). assumption.
  - injection Ez as -> ->. apply (H pre r1 p0 p). assumption.
Qed.

Record Inv (live : list obs) (last : Z) (recs : list brec) (us : list Z) (A0 A suf : list obs) : Prop := mkInv {
  i_x : x = A0 ++ suf;
  i_live : live = A ++ suf;
  i_last : last = zlen A;
  i_sub : subseq A A0;
  i_closed : Forall closed_seg recs;
  i_order : in_order recs;
  i_used : Forall2 nearest_break us recs;
  i_tail : (us = [] /\ recs = [] /\ A0 = []) \/
    exists u us' r recs' o t, us = us' ++ [u] /\ recs = recs' ++ [r] /\ suf = o :: t /\
      b_break r = o_date o /\ first_nearest (map o_date x) u (length A0);
  i_first : forall u us', us = u :: us' -> forall o t, x = o :: t -> o_date o <= u
}.

Lemma inv_init : Inv x 0 [] [] [] [] x.
Proof.
  constructor; try reflexivity; try constructor; auto; try congruence.
  intros pre r1 r2 post E. destruct pre; discriminate.
Qed.

Lemma map_In_subseq : forall (A A0 : list obs), subseq A A0 -> forall z, In z (map o_date A) -> In z (map o_date A0).
Proof. intros A A0 H z. apply subseq_In, subseq_map, H. Qed.

(** Finding the break in the shrunken array is finding it in the original. *)
Lemma where_ok : forall live last recs us A0 A suf b, Inv live last recs us A0 A suf ->
  (forall d, In d (map o_date x) -> Z.abs (d - b) < 9999999) ->
  (forall u, In u us -> u <= b) ->
  exists k, (k < length suf)%nat /\ first_nearest (map o_date x) b (length A0 + k) /\
    where_break live (Some b) = Ok (zlen A + Z.of_nat k).
Proof.
  intros live last recs us A0 A suf b I Hb Hu. destruct I as [Ex El _ Hs _ _ _ Ht _].
  destruct (@C39_nearest_date (map o_date x) [] b) as (n & _ & Hn).
  { intros E. apply map_eq_nil in E. contradiction. } { assumption. }
  assert (HA : (length A0 <= n)%nat).
  { destruct Ht as [(_ & _ & ->)|(u & us' & r & recs' & o & t & -> & _ & _ & _ & Hf)]; [cbn; lia|].
    eapply nearest_mono; [exact Hx|exact Hf|exact Hn|]. apply Hu. apply in_or_app. right. left. reflexivity. }
  exists (n - length A0)%nat. replace (length A0 + (n - length A0))%nat with n by lia.
  assert (Hlt : (n < length x)%nat) by (destruct Hn as [H _]; rewrite map_length in H; assumption).
  assert (Hlen : length x = (length A0 + length suf)%nat) by (rewrite Ex, app_length; reflexivity).
  split; [lia|]. split; [assumption|].
  assert (Hlive : first_nearest (map o_date live) b (length A + (n - length A0))).
  { rewrite El, map_app. rewrite <- (map_length o_date A). apply nearest_shrink with (A0 := map o_date A0).
    - apply map_In_subseq; assumption.
    - rewrite map_length, <- map_app, <- Ex. replace (length A0 + (n - length A0))%nat with n by lia. assumption. }
  unfold where_break.
  destruct (@C39_nearest_date (map o_date live) [] b) as (n' & E & Hn').
  { intros E. apply map_eq_nil in E. destruct Hlive as [H _]. rewrite E in H. cbn in H. lia. }
  { intros d Hd. apply Hb. rewrite Ex, map_app. rewrite El, map_app in Hd. apply in_app_iff in Hd. apply in_app_iff.
    destruct Hd as [Hd|Hd]; [left; eapply map_In_subseq; eassumption|right; assumption]. }
  rewrite app_nil_r in E. unfold zlen in *. rewrite map_length in E. rewrite E.
  rewrite (nearest_unique Hn' Hlive). f_equal. lia.
Qed.

Lemma slice_mid : forall T (a b c : list T) p n, p = zlen a -> n = zlen b -> slice (a ++ b ++ c) p n = Ok b.
Proof.
  intros T a b c p n -> ->. unfold zlen. rewrite slice_ok; unfold zlen; try rewrite !app_length; try lia.
  rewrite !Nat2Z.id. rewrite skipn_app, skipn_all, Nat.sub_diag. cbn [app skipn].
  rewrite firstn_app, firstn_all, Nat.sub_diag. cbn [firstn]. rewrite app_nil_r. reflexivity.
Qed.
Lemma get_mid : forall T (a : list T) o c p, p = zlen a -> get (a ++ o :: c) p = Ok o.
Proof.
  intros T a o c p ->. unfold zlen. rewrite (get_ok _ o) by (unfold zlen; rewrite app_length; cbn [length]; lia).
  rewrite Nat2Z.id, app_nth2, Nat.sub_diag by lia. reflexivity.
Qed.

Lemma keep_from_subseq : forall f w k, subseq (keep_from f k w) w.
Proof.
  induction w as [|a w IH]; intros k; cbn [keep_from]; [constructor|]. destruct (f k); constructor; apply IH.
Qed.
Lemma filter_subseq : forall T (f : T -> bool) w, subseq (filter f w) w.
Proof. induction w as [|a w IH]; cbn [filter]; [constructor|]. destruct (f a); constructor; apply IH. Qed.

(** Outlier removal only deletes observations of the segment. *)
Lemma clean_ok : forall A suf (k : nat) b, (k <= length suf)%nat -> (6 <= k)%nat ->
  match clean K (A ++ suf) (zlen A) (zlen A + Z.of_nat k) b with
  | Ok None => True | Fail => True
  | Ok (Some live1) => exists w2, live1 = A ++ w2 ++ skipn k suf /\ subseq w2 (firstn k suf) /\ 6 <= zlen w2
  | UB | Fuel => False
  end.
Proof.
  intros A suf k b Hk H6. unfold clean.
  assert (E : A ++ suf = A ++ firstn k suf ++ skipn k suf) by (rewrite firstn_skipn; reflexivity).
  assert (Hl : zlen (firstn k suf) = Z.of_nat k) by (unfold zlen; rewrite firstn_length; lia).
  replace (zlen A + Z.of_nat k - zlen A) with (Z.of_nat k) by lia.
  destruct ((12 <=? Z.of_nat k) && match b with None => false | Some _ => true end).
  - rewrite E, slice_mid by auto. cbn [bind].
    destruct (o_mask K (firstn k suf)) as [flags|]; cbn [of_opt bind]; [|exact I].
    pose proof (@keep_from_subseq flags (firstn k suf) 0) as Hs1.
    destruct (zlen (keep_from flags 0 (firstn k suf)) <? 6) eqn:E6; [exact I|].
    destruct (o_fit5 K _ _) as [m|]; cbn [of_opt bind]; [|exact I].
    match goal with |- context [filter ?f ?w] => pose proof (filter_subseq f w) as Hs2; set (w2 := filter f w) in * end.
    destruct (zlen w2 <? 6) eqn:E7; [exact I|]. exists w2. split.
    + f_equal.
      * unfold zlen. rewrite Nat2Z.id, firstn_app, firstn_all, Nat.sub_diag. cbn [firstn]. apply app_nil_r.
      * f_equal. unfold zlen. replace (Z.to_nat (Z.of_nat (length A) + Z.of_nat k)) with (length A + k)%nat by lia.
        rewrite skipn_app, skipn_all2 by lia. cbn [app]. replace (length A + k - length A)%nat with k by lia.
        rewrite skipn_app, firstn_length, Nat.min_l, Nat.sub_diag, skipn_all2; [reflexivity|rewrite firstn_length; lia|lia].
    + split; [eapply subseq_trans; eassumption|lia].
  - exists (firstn k suf). split; [rewrite firstn_skipn; reflexivity|]. split; [apply subseq_refl|lia].
Qed.

Lemma last_app_ne : forall T (a b : list T) d, b <> [] -> last (a ++ b) d = last b d.
Proof.
  induction a as [|y a IH]; intros b d Hb; [reflexivity|]. cbn [app].
  destruct (a ++ b) eqn:E; [apply app_eq_nil in E; tauto|]. rewrite <- E.
  change (last (y :: (a ++ b)) d) with (match a ++ b with [] => y | _ => last (a ++ b) d end).
  rewrite E, <- E. apply IH. assumption.
Qed.

Lemma get_last : forall T (a b c : list T) d p, b <> [] -> p = zlen a + zlen b - 1 -> get (a ++ b ++ c) p = Ok (last b d).
Proof.
  intros T a b c d p Hb ->. destruct (@exists_last _ b Hb) as (b' & o & ->).
  rewrite last_last. rewrite <- app_assoc. rewrite app_assoc. apply get_mid.
  unfold zlen. rewrite !app_length. cbn [length]. lia.
Qed.

Lemma seg_dates : forall A w c, asc (A ++ w ++ c) -> w <> [] -> forall o, hd_error c = Some o ->
  o_date (last w (mkObs 0 [])) < o_date o.
Proof.
  intros A w c Ha Hw o Ho. destruct c as [|o' c]; [discriminate|]. injection Ho as ->.
  destruct (@exists_last _ w Hw) as (w' & z & ->). rewrite last_last.
  unfold asc in Ha. rewrite <- app_assoc in Ha. cbn [app] in Ha. rewrite app_assoc in Ha. rewrite map_app in Ha. cbn [map] in Ha.
  clear - Ha. induction (map o_date (A ++ w')) as [|a l IH]; cbn [app] in Ha.
  - apply StronglySorted_inv in Ha. destruct Ha as [_ Ha]. inversion Ha; assumption.
  - apply StronglySorted_inv in Ha. apply IH. apply Ha.
Qed.

Lemma Forall2_len : forall S T (R : S -> T -> Prop) l1 l2, Forall2 R l1 l2 -> length l1 = length l2.
Proof. induction 1; cbn [length]; congruence. Qed.

(** Span of the used breaks. *)
Lemma spaced_span : forall us a u us', spaced a (us ++ [u]) -> us ++ [u] = us' ->
  forall h t, us' = h :: t -> h + 366 * zlen us <= u.
Proof.
  induction us as [|v us IH]; intros a u us' Hs E h t E2; subst us'.
  - injection E2 as -> _. unfold zlen. cbn [length]. lia.
  - cbn [app] in *. injection E2 as -> E2. inversion Hs as [|? ? ? Hle Hs']; subst.
    destruct us as [|v' us].
    + cbn [app] in Hs'. inversion Hs'; subst. unfold zlen. cbn [length]. lia.
    + specialize (IH h u _ Hs' eq_refl v' (us ++ [u]) eq_refl).
      cbn [app] in Hs'. inversion Hs'; subst. unfold zlen in *. cbn [length] in *. lia.
Qed.

(** The state in which a 41st record would be written. *)
Definition overfull (us : list Z) : Prop :=
  40 <= zlen us /\ forall u us' h t l0, us = us' ++ [u] -> us = h :: t -> x = l0 ++ [last x (mkObs 0 [])] ->
    o_date (hd (mkObs 0 []) x) <= h /\ u <= o_date (last x (mkObs 0 [])).

Lemma overfull_intro : forall live last recs us A0 A suf, Inv live last recs us A0 A suf ->
  40 <= zlen recs -> (2 <= length suf)%nat -> overfull us.
Proof.
  intros live last0 recs us A0 A suf I Hn Hs. destruct I as [Ex _ _ _ _ _ Hu Ht Hf].
  assert (Hl : zlen us = zlen recs) by (unfold zlen; rewrite (Forall2_len Hu); reflexivity).
  split; [lia|]. intros u us' h t l0 E1 E2 Ex0. split.
  - destruct x as [|o t0] eqn:Exx; [congruence|]. cbn [hd]. eapply Hf; [exact E2|reflexivity].
  - destruct Ht as [(E & _)|(u0 & us0 & r & recs' & o & t0 & E & _ & Es & _ & Hnear)].
    + rewrite E in E1. destruct us'; discriminate.
    + rewrite E in E1. apply app_inj_tail in E1. destruct E1 as [_ ->].
      destruct Hnear as (H0 & H1 & _). rewrite map_length in H0, H1.
      assert (Hlen : length x = (length A0 + length suf)%nat) by (rewrite Ex, app_length; reflexivity).
      specialize (H1 (length x - 1)%nat ltac:(lia)).
      assert (El : nth (length x - 1) (map o_date x) 0 = o_date (last x (mkObs 0 []))).
      { change 0 with (o_date (mkObs 0 [])). rewrite map_nth. f_equal. apply nth_last. }
      rewrite El in H1.
      pose proof (@ascending_nth (map o_date x) (length A0) (length x - 1) 0 Hx ltac:(lia) ltac:(rewrite map_length; lia)) as Hlt.
      rewrite El in Hlt. lia.
Qed.

Lemma asc_subseq : forall l1 l2, subseq l1 l2 -> asc l2 -> asc l1.
Proof. intros l1 l2 H. unfold asc. apply subseq_ascending, subseq_map, H. Qed.

Lemma segment_some : forall live last recs us A0 A suf b, Inv live last recs us A0 A suf ->
  (forall d, In d (map o_date x) -> Z.abs (d - b) < 9999999) ->
  (forall u, In u us -> u <= b) ->
  match segment K conse live last recs (Some b) with
  | Ok (live1, last1, recs1) => exists us1 A0' A' suf', Inv live1 last1 recs1 us1 A0' A' suf' /\ (us1 = us \/ us1 = us ++ [b])
  | Fail => True
  | UB => overfull us
  | Fuel => False
  end.
Proof.
  intros live last0 recs us A0 A suf b I Hb Hu. pose proof I as I0.
  destruct (where_ok I Hb Hu) as (k & Hk & Hnear & Ew). destruct I as [Ex El Ela Hs Hc Ho Hus Ht Hf].
  unfold segment. rewrite Ew. cbn [bind]. rewrite Ela.
  destruct (zlen A + Z.of_nat k - zlen A <? 6) eqn:E6.
  { exists us, A0, A, suf. rewrite <- Ela. split; [assumption|left; reflexivity]. }
  pose proof (@clean_ok A suf k (Some b) ltac:(lia) ltac:(lia)) as Hcl. rewrite El.
  destruct (clean K (A ++ suf) (zlen A) (zlen A + Z.of_nat k) (Some b)) as [[live1|]| | |]; cbn [bind]; try contradiction; try exact I0; try exact Logic.I.
  2:{ exists us, A0, A, suf. rewrite <- Ela, <- El. split; [assumption|left; reflexivity]. }
  destruct Hcl as (w2 & -> & Hsub & Hlen).
  destruct (40 <=? zlen recs) eqn:E40; [eapply overfull_intro; [exact I0|lia|lia]|].
  set (suf' := skipn k suf). set (A0' := A0 ++ firstn k suf). set (A' := A ++ w2).
  assert (Ex' : x = A0' ++ suf') by (unfold A0', suf'; rewrite <- app_assoc, firstn_skipn; exact Ex).
  assert (HA' : subseq A' A0') by (apply subseq_app; assumption).
  assert (Hla0 : length A0' = (length A0 + k)%nat) by (unfold A0'; rewrite app_length, firstn_length; lia).
  destruct suf' as [|o t] eqn:Es'.
  { exfalso. apply (f_equal (@length obs)) in Es'. unfold suf' in Es'. rewrite skipn_length in Es'. cbn in Es'. lia. }
  assert (Ewb : where_break (A ++ w2 ++ o :: t) (Some b) = Ok (zlen A + zlen w2)).
  { unfold where_break.
    assert (Hl1 : first_nearest (map o_date (A' ++ o :: t)) b (length A' + 0)).
    { rewrite map_app. rewrite <- (map_length o_date A'). apply nearest_shrink with (A0 := map o_date A0').
      - apply map_In_subseq; assumption.
      - rewrite map_length, <- map_app, <- Ex', Hla0, Nat.add_0_r. assumption. }
    destruct (@C39_nearest_date (map o_date (A' ++ o :: t)) [] b) as (n' & E & Hn').
    { intros E. apply map_eq_nil in E. destruct A'; discriminate. }
    { intros d Hd. apply Hb. rewrite Ex', map_app. rewrite map_app in Hd. apply in_app_iff in Hd. apply in_app_iff.
      destruct Hd as [Hd|Hd]; [left; eapply map_In_subseq; eassumption|right; assumption]. }
    rewrite app_nil_r in E. unfold A' in *. rewrite <- app_assoc in E. unfold zlen in *. rewrite map_length in E. rewrite E.
    rewrite <- app_assoc in Hl1, Hn'. rewrite (nearest_unique Hn' Hl1). rewrite app_length. f_equal. lia. }
  assert (Hw2 : w2 <> []) by (intros ->; unfold zlen in Hlen; cbn in Hlen; lia).
  assert (Hasc : asc (A ++ w2 ++ o :: t)).
  { apply (asc_subseq (l2 := x)); [|exact Hx]. rewrite Ex', app_assoc. apply subseq_app; [exact HA'|apply subseq_refl]. }
  unfold make_rec. rewrite Ewb. cbn [bind].
  replace (zlen A + zlen w2 - zlen A) with (zlen w2) by lia. rewrite slice_mid by reflexivity. cbn [bind].
  destruct (o_fit K (update_cft (zlen w2)) w2) as [m|] eqn:Efit; cbn [of_opt bind]; [|exact Logic.I].
  destruct w2 as [|o0 w2'] eqn:Ew2; [congruence|]. rewrite <- Ew2 in *.
  assert (Eg : get (A ++ w2 ++ o :: t) (zlen A) = Ok o0) by (rewrite Ew2; cbn [app]; apply get_mid; reflexivity).
  rewrite Eg. cbn [bind]. rewrite (@get_last _ A w2 (o :: t) (mkObs 0 [])) by (auto; lia). cbn [bind].
  set (adj := if zlen (A ++ w2 ++ o :: t) - (zlen A + zlen w2) <? conse then zlen (A ++ w2 ++ o :: t) - (zlen A + zlen w2) else conse).
  assert (Hz : zlen (A ++ w2 ++ o :: t) - (zlen A + zlen w2) = zlen (o :: t)).
  { unfold zlen. rewrite !app_length. lia. }
  assert (Hadj : 1 <= adj <= conse /\ adj <= zlen (o :: t)).
  { unfold adj. rewrite Hz. destruct (zlen (o :: t) <? conse) eqn:E; unfold zlen in *; cbn [length] in *; lia. }
  destruct Hadj as [Ha1 Ha2].
  assert (Esl : slice (A ++ w2 ++ o :: t) (zlen A + zlen w2) adj = Ok (firstn (Z.to_nat adj) (o :: t))).
  { rewrite <- (firstn_skipn (Z.to_nat adj) (o :: t)) at 1. rewrite app_assoc. apply slice_mid.
    - unfold zlen. rewrite app_length. lia.
    - unfold zlen in *. rewrite firstn_length. lia. }
  rewrite Esl. cbn [bind]. rewrite app_assoc.
  rewrite (@get_mid _ (A ++ w2) o t) by (unfold zlen; rewrite app_length; lia). cbn [bind].
  set (r := mkB _ _ _ _ _ _ _ _ _).
  exists (us ++ [b]), A0', A', (o :: t). split; [|right; reflexivity].
  assert (Hcls : closed_seg r).
  { assert (Hsx : subseq w2 x).
    { rewrite Ex. eapply subseq_trans; [exact Hsub|]. eapply subseq_trans; [apply subseq_firstn|].
      change suf with ([] ++ suf) at 1. apply subseq_app; [constructor|apply subseq_refl]. }
    split; [|split; [|split; [|split]]].
    - unfold seg_ok, r. cbn [b_win b_start b_end b_nobs b_cat b_model].
      split; [assumption|]. split; [lia|]. split; [exists o0; rewrite Ew2; split; reflexivity|].
      split; [reflexivity|]. split; [lia|]. split; [reflexivity|]. assumption.
    - unfold r. cbn [b_end b_break]. eapply seg_dates; [exact Hasc|assumption|reflexivity].
    - reflexivity.
    - unfold r. cbn [b_break]. rewrite Ex', map_app. apply in_or_app. right. left. reflexivity.
    - exists (firstn (Z.to_nat adj) (o :: t)). split; [reflexivity|]. split; [|split].
      + rewrite Ex'. eapply subseq_trans; [apply subseq_firstn|]. change (o :: t) with ([] ++ o :: t) at 1.
        apply subseq_app; [constructor|apply subseq_refl].
      + unfold zlen in *. rewrite firstn_length. lia.
      + exists o. split; [|reflexivity]. destruct (Z.to_nat adj) eqn:E; [lia|reflexivity]. }
  constructor.
  - exact Ex'.
  - unfold A'. rewrite <- Ew2. reflexivity.
  - unfold A'. rewrite <- Ew2. unfold zlen. rewrite app_length. lia.
  - exact HA'.
  - apply Forall_app. split; [assumption|]. constructor; [assumption|constructor].
  - apply in_order_snoc; [assumption|]. intros pre r1 E.
    destruct Ht as [(_ & Er & _)|(u & us' & r' & recs' & o' & t' & _ & Er & Esuf & Hbr & _)].
    + rewrite Er in E. destruct pre; discriminate.
    + rewrite Er in E. apply app_inj_tail in E. destruct E as [_ ->]. rewrite Hbr.
      unfold r. cbn [b_start].
      assert (Hin : In o0 suf) by (eapply subseq_In; [apply subseq_firstn|]; eapply subseq_In; [exact Hsub|]; rewrite Ew2; left; reflexivity).
      rewrite Esuf in Hin. destruct Hin as [->|Hin]; [lia|].
      assert (Ha : asc suf) by (eapply asc_subseq; [|exact Hx]; rewrite Ex; change suf with ([] ++ suf) at 1; apply subseq_app; [constructor|apply subseq_refl]).
      rewrite Esuf in Ha. unfold asc in Ha. cbn [map] in Ha. apply StronglySorted_inv in Ha. destruct Ha as [_ Ha].
      rewrite Forall_forall in Ha. specialize (Ha (o_date o0) (in_map _ _ _ Hin)). lia.
  - apply Forall2_app; [assumption|]. constructor; [|constructor]. exists (length A0 + k)%nat. split; [assumption|].
    unfold r. cbn [b_break]. change 0 with (o_date (mkObs 0 [])). rewrite map_nth. f_equal.
    rewrite Ex', <- Hla0, app_nth2, Nat.sub_diag by lia. reflexivity.
  - right. exists b, us, r, recs, o, t. split; [reflexivity|]. split; [reflexivity|]. split; [reflexivity|].
    split; [reflexivity|]. rewrite Hla0. assumption.
  - intros u us' E o' t' Exo. destruct us as [|u0 us0].
    + injection E as <- _. destruct Ht as [(_ & _ & ->)|(? & us'' & ? & ? & ? & ? & E & _)]; [|destruct us''; discriminate].
      cbn [app length Nat.add] in *. destruct Hnear as (H0 & H1 & H2). rewrite Exo in H2. specialize (H2 0%nat ltac:(lia)). cbn [map nth] in H2.
      rewrite Exo in H0. cbn [map length] in H0.
      assert (Hlt : o_date o' < nth k (o_date o' :: map o_date t') 0).
      { unfold asc in Hx. rewrite Exo in Hx. cbn [map] in Hx. apply StronglySorted_inv in Hx. destruct Hx as [_ Ha].
        rewrite Forall_forall in Ha. destruct k as [|k]; [lia|]. cbn [nth]. apply Ha, nth_In. lia. }
      destruct k as [|k]; [lia|]. cbn [nth] in Hlt. lia.
    + cbn [app] in E. injection E as <- _. eapply Hf; [reflexivity|exact Exo].
Qed.

(** The last segment. *)
Definition open_seg (r : brec) : Prop := seg_ok r /\ b_prob r = 0 /\ b_break r = 0.

Lemma segment_none : forall live last recs us A0 A suf, Inv live last recs us A0 A suf ->
  match segment K conse live last recs None with
  | Ok (_, _, recs1) => recs1 = recs \/
      exists r, recs1 = recs ++ [r] /\ open_seg r /\ (forall pre r1, recs = pre ++ [r1] -> b_break r1 <= b_start r)
  | Fail => True
  | UB => overfull us
  | Fuel => False
  end.
Proof.
  intros live last0 recs us A0 A suf I. pose proof I as I0. destruct I as [Ex El Ela Hs Hc Ho Hus Ht Hf].
  unfold segment, where_break. cbn [bind]. rewrite Ela, El.
  assert (Hz : zlen (A ++ suf) - zlen A = zlen suf) by (unfold zlen; rewrite app_length; lia).
  rewrite Hz. destruct (zlen suf <? 6) eqn:E6; [left; reflexivity|].
  unfold clean. rewrite andb_false_r. cbn [bind].
  destruct (40 <=? zlen recs) eqn:E40; [eapply overfull_intro; [exact I0|lia|unfold zlen in E6; lia]|].
  unfold make_rec, where_break. cbn [bind]. rewrite Hz.
  assert (Es1 : slice (A ++ suf) (zlen A) (zlen suf) = Ok suf) by (rewrite <- (app_nil_r suf) at 1; apply slice_mid; reflexivity).
  rewrite Es1. cbn [bind].
  destruct (o_fit K (update_cft (zlen suf)) suf) as [m|] eqn:Efit; cbn [of_opt bind]; [|exact Logic.I].
  destruct suf as [|o0 t] eqn:Es; [discriminate|]. rewrite get_mid by reflexivity. cbn [bind]. rewrite <- Es in *.
  assert (Es2 : get (A ++ suf) (zlen (A ++ suf) - 1) = Ok (last suf (mkObs 0 []))).
  { rewrite <- (app_nil_r suf) at 1. apply get_last; [congruence|lia]. }
  rewrite Es2. cbn [bind].
  set (r := mkB _ _ _ _ _ _ _ _ _). right. exists r. split; [reflexivity|]. split.
  - split; [|split; reflexivity]. unfold seg_ok, r. cbn [b_win b_start b_end b_nobs b_cat b_model].
    split; [|split; [lia|split; [exists o0; rewrite Es; split; reflexivity|]]].
    + rewrite Ex. change suf with ([] ++ suf) at 1. apply subseq_app; [constructor|apply subseq_refl].
    + split; [reflexivity|]. split; [lia|]. split; [reflexivity|assumption].
  - intros pre r1 E.
    destruct Ht as [(_ & Er & _)|(u & us' & r' & recs' & o' & t' & _ & Er & Esuf & Hbr & _)].
    + rewrite Er in E. destruct pre; discriminate.
    + rewrite Er in E. apply app_inj_tail in E. destruct E as [_ <-]. rewrite Hbr. unfold r. cbn [b_start].
      rewrite Es in Esuf. injection Esuf as -> _. lia.
Qed.

(** What the loop over all segments returns. *)
Definition loop_spec (us : list Z) (rs : list brec) : Prop :=
  exists cl tail, rs = cl ++ tail /\ Forall closed_seg cl /\ in_order rs /\ Forall2 nearest_break us cl /\
    (tail = [] \/ exists r, tail = [r] /\ open_seg r).

Lemma spaced_after : forall l a, spaced a l -> forall b, In b l -> a + 366 <= b.
Proof.
  induction 1; intros b Hb; [contradiction|]. destruct Hb as [<-|Hb]; [assumption|]. specialize (IHspaced b Hb). lia.
Qed.
Lemma spaced_drop : forall l a d, spaced a (d :: l) -> spaced a l.
Proof. intros l a d H. inversion H as [|? ? ? H1 H2]; subst. inversion H2; subst; constructor; [lia|assumption]. Qed.
Lemma spaced_snoc : forall l a d t, spaced a (l ++ d :: t) -> spaced a ((l ++ [d]) ++ t).
Proof. intros l a d t H. rewrite <- app_assoc. exact H. Qed.
Lemma spaced_mid : forall l a d t, spaced a (l ++ d :: t) -> spaced a (l ++ t).
Proof.
  induction l as [|y l IH]; intros a d t H; [exact (spaced_drop H)|]. cbn [app] in *.
  inversion H; subst. constructor; [assumption|]. eapply IH; eassumption.
Qed.
Lemma spaced_pre : forall l a t, spaced a (l ++ t) -> spaced a l.
Proof. induction l as [|y l IH]; intros a t H; [constructor|]. inversion H; subst. constructor; [assumption|]. eapply IH; eassumption. Qed.
Lemma spaced_le : forall l a d t, spaced a (l ++ d :: t) -> forall u, In u l -> u <= d.
Proof.
  induction l as [|y l IH]; intros a d t H u Hu; [contradiction|]. cbn [app] in H. inversion H; subst. destruct Hu as [<-|Hu].
  - match goal with H : spaced y _ |- _ => pose proof (spaced_after H) as HH end. specialize (HH d (in_elt d l t)). lia.
  - eapply IH; eassumption.
Qed.

Lemma segments_ok : forall bs live last recs us A0 A suf a, Inv live last recs us A0 A suf ->
  spaced a (us ++ bs) ->
  (forall b d, In b bs -> In d (map o_date x) -> Z.abs (d - b) < 9999999) ->
  match segments K conse live last recs bs with
  | Ok rs => exists us', subseq us' (us ++ bs) /\ loop_spec us' rs
  | Fail => True
  | UB => exists us', spaced a us' /\ overfull us'
  | Fuel => False
  end.
Proof.
  induction bs as [|b bs IH]; intros live last0 recs us A0 A suf a I Hsp Hb; cbn [segments].
  - pose proof (segment_none I) as H. rewrite app_nil_r in *.
    destruct (segment K conse live last0 recs None) as [[[l1 la1] rs]| | |]; cbn [bind]; auto.
    + exists us. split; [apply subseq_refl|]. destruct I as [_ _ _ _ Hc Ho Hus _ _].
      destruct H as [->|(r & -> & Hop & Hord)].
      * exists recs, []. rewrite app_nil_r. repeat split; auto.
      * exists recs, [r]. split; [reflexivity|]. split; [assumption|]. split; [apply in_order_snoc; assumption|].
        split; [assumption|]. right. exists r. split; [reflexivity|assumption].
    + exists us. split; assumption.
  - pose proof (@segment_some live last0 recs us A0 A suf b I) as H.
    specialize (H (fun d Hd => Hb b d (or_introl eq_refl) Hd) (@spaced_le us a b bs Hsp)).
    destruct (segment K conse live last0 recs (Some b)) as [[[l1 la1] rs1]| | |]; cbn [bind]; auto.
    + destruct H as (us1 & A0' & A' & suf' & I' & Hus1).
      assert (Hsp1 : spaced a (us1 ++ bs)) by (destruct Hus1 as [->| ->]; [eapply spaced_mid; eassumption|apply spaced_snoc; assumption]).
      specialize (IH l1 la1 rs1 us1 A0' A' suf' a I' Hsp1 (fun b' d Hb' Hd => Hb b' d (or_intror Hb') Hd)).
      destruct (segments K conse l1 la1 rs1 bs) as [rs| | |]; auto.
      destruct IH as (us' & Hsu & Hls). exists us'. split; [|assumption].
      eapply subseq_trans; [exact Hsu|]. destruct Hus1 as [->| ->].
      * apply subseq_app; [apply subseq_refl|]. constructor. apply subseq_refl.
      * rewrite <- app_assoc. apply subseq_refl.
    + exists us. split; [|assumption]. eapply spaced_pre; eassumption.
Qed.
End Segments.

(** ** The whole procedure *)

(** [select] with a different thermal convention than the range check. *)
Lemma select_mixed : forall c2 c2' l last,
  select c2' (map (fun q => (q, id_range c2 q)) l) last = map (obs_of c2') (pick last (filter (clear_ok c2) l)).
Proof.
  induction l as [|q l IH]; intros last; [reflexivity|]. cbn [map select filter].
  change ((q_qa q <? 2) && id_range c2 q) with (clear_ok c2 q).
  destruct (clear_ok c2 q); [|apply IH]. cbn [pick].
  destruct last as [d|]; [destruct (q_date q =? d)|]; cbn [map]; rewrite IH; reflexivity.
Qed.

(** The clear observations of a series: first usable entry of each date. *)
Definition clear_series (c2 : bool) (l : list raw) : list obs :=
  map (obs_of false) (pick None (filter (clear_ok c2) l)).

Lemma clear_series_asc : forall c2 l, ~ unsorted l -> asc (clear_series c2 l) /\
  (forall d, In d (map o_date (clear_series c2 l)) -> In d (map q_date l)).
Proof.
  intros c2 l Hu. apply unsorted_sorted in Hu. unfold clear_series, asc. rewrite map_map. cbn [o_date obs_of].
  destruct (@pick_spec (filter (clear_ok c2) l) None) as (I1 & _ & I3).
  - apply sorted_filter. assumption.
  - discriminate.
  - split; [exact I1|]. intros d Hd. apply in_map_iff in Hd. destruct Hd as (q & <- & Hq). apply in_map.
    apply I3 in Hq. destruct Hq as (_ & pre & post & E & _).
    assert (In q (filter (clear_ok c2) l)) by (rewrite E; apply in_elt). apply filter_In in H. tauto.
Qed.

Section Whole.
Variables M D C : Type.
Variable K : okernel M D.
Variable conse : Z.
Variable fit : list (Z * Z) -> option C.
Variable saturated : C.
Notation obcold_reconstruct := (obcold_reconstruct K conse fit saturated).

Lemma sparse_either_safe : forall snow c2 junk l flags c, l <> [] ->
  preprocess c2 l (mkCounts 0 0 0 0 0) = Ok (flags, c) ->
  sparse_either fit saturated snow c2 junk flags = Fail \/
  exists r, sparse_either fit saturated snow c2 junk flags = Ok r.
Proof.
  intros snow c2 junk l flags c Hl Hp. unfold sparse_either. destruct snow.
  - destruct (@sparse_snow_ok C fit saturated c2 (map fst flags)) as [H|(r & H & _)]; eauto.
  - destruct (preprocess_eq c2 l (mkCounts 0 0 0 0 0)) as [[_ E]|[_ E]]; rewrite Hp in E; [|discriminate].
    injection E as -> _.
    destruct (@sparse_masked_ok C fit c2 junk (map (fun q => (q, id_range c2 q)) l)) as [H|(r & H & _)]; eauto.
    destruct l; [congruence|discriminate].
Qed.

(** All outcomes of a call. *)
Lemma reconstruct_cases : forall c2 snow junk l breaks, 1 <= conse ->
  Forall (fun d => d <= 2147483647) breaks ->
  (qa_count [0; 1] l >= 24 -> clear_series c2 l <> []) ->
  (forall b d, In b breaks -> In d (map q_date l) -> Z.abs (d - b) < 9999999) ->
  match obcold_reconstruct c2 snow junk l breaks with
  | Ok (ObSparse _ _ r) => exists s, r = Some s
  | Ok (ObSegments _ rs) => ~ unsorted l /\ asc (clear_series c2 l) /\
      exists sorted us rs0, Permutation breaks sorted /\ StronglySorted Z.le sorted /\
        subseq us (pick_breaks 0 sorted) /\ rs0 <> [] /\
        loop_spec K conse (clear_series c2 l) us rs0 /\ rs = force_last rs0
  | Fail => True
  | UB => exists us, spaced 0 us /\ overfull (clear_series c2 l) us
  | Fuel => False
  end.
Proof.
  intros c2 snow junk l breaks Hc Hb Hx Hnear. unfold ObModel.obcold_reconstruct.
  destruct l as [|q l'] eqn:El; [exact I|]. rewrite <- El in *. assert (Hl : l <> []) by congruence.
  destruct breaks as [|b0 bt] eqn:Eb; [exact I|]. rewrite <- Eb in *. assert (Hbn : breaks <> []) by congruence.
  unfold obcold. destruct (dates_sorted l) eqn:Ed; cbn [negb]; [|exact I].
  assert (Hu : ~ unsorted l) by (intros H; apply dates_sorted_false in H; congruence).
  destruct (preprocess_eq c2 l (mkCounts 0 0 0 0 0)) as [[_ E]|[_ E]]; rewrite E; cbn [bind]; [|exact I].
  assert (Hcl : n_clear (add_counts (mkCounts 0 0 0 0 0) l) = qa_count [0; 1] l) by (unfold add_counts; cbn [n_clear]; lia).
  rewrite Hcl. pose proof (@sparse_either_safe snow c2 junk l _ _ Hl E) as Hsp.
  destruct (qa_count [0; 1] l <? 24) eqn:E24.
  - destruct Hsp as [Hsp|(r & Hsp)]; rewrite Hsp; cbn [bind]; [exact I|]. destruct r; [eauto|exact I].
  - destruct (C18_accepted Hbn Hb) as (sorted & Es & Hperm & Hss & Hsub & Hspc & _). rewrite Es. cbn [bind].
    rewrite select_mixed. fold (clear_series c2 l). specialize (Hx ltac:(lia)).
    destruct (clear_series_asc c2 Hu) as [Hasc Hdates].
    pose proof (@segments_ok M D K conse Hc (clear_series c2 l) Hasc Hx (pick_breaks 0 sorted)
                  (clear_series c2 l) 0 [] [] [] [] (clear_series c2 l) 0
                  (inv_init K conse (clear_series c2 l)) Hspc) as HS.
    specialize (HS (fun b d H1 H2 => Hnear b d (Permutation_in b (Permutation_sym Hperm) (@subseq_In _ _ _ b Hsub H1)) (Hdates d H2))).
    destruct (segments K conse (clear_series c2 l) 0 [] (pick_breaks 0 sorted)) as [rs| | |]; cbn [bind]; try exact HS.
    destruct HS as (us & Hus & Hls). destruct rs as [|r0 rt] eqn:Er.
    + destruct Hsp as [Hsp|(r & Hsp)]; rewrite Hsp; cbn [bind]; [exact I|]. destruct r; [eauto|exact I].
    + rewrite <- Er in *. destruct (force_last rs) as [|f0 ft] eqn:Ef; cbn [bind]; [exact I|].
      split; [assumption|]. split; [assumption|]. exists sorted, us, rs.
      split; [assumption|]. split; [assumption|]. split; [exact Hus|]. split; [congruence|]. split; [assumption|congruence].
Qed.

(** C19: the call ends, and stays inside the 40-record array as long as the
    clear observations span less than 39 * 366 days. *)
Theorem C19_terminates : forall c2 snow junk l breaks, 1 <= conse ->
  Forall (fun d => d <= 2147483647) breaks ->
  (qa_count [0; 1] l >= 24 -> clear_series c2 l <> []) ->
  (forall b d, In b breaks -> In d (map q_date l) -> Z.abs (d - b) < 9999999) ->
  obcold_reconstruct c2 snow junk l breaks <> Fuel.
Proof.
  intros c2 snow junk l breaks H1 H2 H3 H4 H. pose proof (@reconstruct_cases c2 snow junk l breaks H1 H2 H3 H4) as HC.
  rewrite H in HC. exact HC.
Qed.

Theorem C19_memory_safe : forall c2 snow junk l breaks, 1 <= conse ->
  Forall (fun d => d <= 2147483647) breaks ->
  (qa_count [0; 1] l >= 24 -> clear_series c2 l <> []) ->
  (forall b d, In b breaks -> In d (map q_date l) -> Z.abs (d - b) < 9999999) ->
  (forall d d', In d (map q_date l) -> In d' (map q_date l) -> d' - d < 39 * 366) ->
  obcold_reconstruct c2 snow junk l breaks <> UB.
Proof.
  intros c2 snow junk l breaks H1 H2 H3 H4 H5 H. pose proof (@reconstruct_cases c2 snow junk l breaks H1 H2 H3 H4) as HC.
  rewrite H in HC. destruct HC as (us & Hsp & Hn & Ho).
  destruct us as [|h t] eqn:Eu; [unfold zlen in Hn; cbn in Hn; lia|]. rewrite <- Eu in *.
  destruct (@exists_last _ us) as (us' & u & Eu'); [congruence|].
  assert (Hx : clear_series c2 l <> []).
  { intros E. unfold ObModel.obcold_reconstruct in H. destruct l as [|q l'] eqn:El; [discriminate|]. rewrite <- El in *.
    destruct (Z_lt_le_dec (qa_count [0; 1] l) 24) as [Hlt|Hge]; [|apply (H3 ltac:(lia) E)].
    destruct breaks; [discriminate|]. unfold obcold in H. destruct (dates_sorted l); cbn [negb] in H; [|discriminate].
    destruct (preprocess_eq c2 l (mkCounts 0 0 0 0 0)) as [[_ Ep]|[_ Ep]]; rewrite Ep in H; cbn [bind] in H; [|discriminate].
    replace (n_clear (add_counts (mkCounts 0 0 0 0 0) l) <? 24) with true in H by (unfold add_counts; cbn [n_clear]; lia).
    destruct (@sparse_either_safe snow c2 junk l _ _ ltac:(congruence) Ep) as [Hs|(r & Hs)]; rewrite Hs in H; cbn [bind] in H;
      [discriminate|destruct r; discriminate]. }
  destruct (@exists_last _ (clear_series c2 l) Hx) as (l0 & z & Ez).
  destruct (Ho u us' h t l0 Eu' Eu) as [B1 B2]; [rewrite Ez, last_last; reflexivity|].
  rewrite Eu' in Hsp. pose proof (@spaced_span us' 0 u us Hsp (eq_sym Eu') h t Eu) as B3.
  assert (Hlen : zlen us' >= 39) by (rewrite Eu' in Hn; unfold zlen in *; rewrite app_length in Hn; cbn [length] in Hn; lia).
  assert (Hu : ~ unsorted l).
  { intros Hu. unfold ObModel.obcold_reconstruct in H. destruct l as [|q l'] eqn:El; [discriminate|]. rewrite <- El in *.
    destruct breaks; [discriminate|]. unfold obcold in H. apply dates_sorted_false in Hu. rewrite Hu in H. discriminate. }
  destruct (clear_series_asc c2 Hu) as [_ Hd].
  assert (I1 : In (o_date (hd (mkObs 0 []) (clear_series c2 l))) (map q_date l)).
  { apply Hd, in_map. destruct (clear_series c2 l); [congruence|left; reflexivity]. }
  assert (I2 : In (o_date (last (clear_series c2 l) (mkObs 0 []))) (map q_date l)).
  { apply Hd, in_map, last_In. assumption. }
  specialize (H5 _ _ I1 I2). lia.
Qed.

Lemma seg_start_end : forall x r, asc x -> seg_ok K x r -> b_start r < b_end r /\
  In (b_start r) (map o_date x) /\ In (b_end r) (map o_date x).
Proof.
  intros x r Hx (Hs & Hn & (o & Ho & Es) & Ee & _). destruct (b_win r) as [|o' w] eqn:Ew; [discriminate|]. injection Ho as ->.
  assert (Hw : w <> []) by (intros ->; unfold zlen in Hn; cbn in Hn; lia).
  assert (El : last (o :: w) (mkObs 0 []) = last w (mkObs 0 [])) by (destruct w; [congruence|reflexivity]).
  pose proof (asc_subseq Hs Hx) as Ha. unfold asc in Ha. cbn [map] in Ha. apply StronglySorted_inv in Ha. destruct Ha as [_ Ha].
  rewrite Forall_forall in Ha. rewrite Es, Ee, El. split; [|split].
  - apply Ha, in_map, last_In. assumption.
  - apply in_map. eapply subseq_In; [exact Hs|]. left. reflexivity.
  - apply in_map. eapply subseq_In; [exact Hs|]. right. apply last_In. assumption.
Qed.

(** C19: shape of the records.  C18: the breaks in them are the observations
    nearest to accepted break dates, in order.  C66: num_obs. *)
Theorem C19_records : forall c2 snow junk l breaks rs, 1 <= conse ->
  Forall (fun d => d <= 2147483647) breaks ->
  (qa_count [0; 1] l >= 24 -> clear_series c2 l <> []) ->
  (forall b d, In b breaks -> In d (map q_date l) -> Z.abs (d - b) < 9999999) ->
  obcold_reconstruct c2 snow junk l breaks = Ok (ObSegments C rs) ->
  let x := clear_series c2 l in
  exists pre z, rs = pre ++ [z] /\
    Forall (fun r => b_start r < b_end r /\ In (b_start r) (map o_date x) /\ In (b_end r) (map o_date x)) rs /\
    Forall (fun r => b_end r < b_break r /\ b_prob r = 100) pre /\
    (forall p r1 r2 q, rs = p ++ r1 :: r2 :: q -> b_break r1 <= b_start r2) /\
    b_prob z = 0 /\ b_break z = 0.
Proof.
  intros c2 snow junk l breaks rs H1 H2 H3 H4 H x. pose proof (@reconstruct_cases c2 snow junk l breaks H1 H2 H3 H4) as HC.
  rewrite H in HC. destruct HC as (_ & Hx & sorted & us & rs0 & _ & _ & _ & Hne & (cl & tail & E & Hcl & Hord & _ & Ht) & ->).
  fold x in Hx, Hcl, Ht |- *.
  assert (Hall : Forall (seg_ok K x) rs0).
  { rewrite E. apply Forall_app. split.
    - eapply Forall_impl; [|exact Hcl]. intros r Hr. apply Hr.
    - destruct Ht as [->|(r & -> & Hr & _)]; [constructor|]. constructor; [assumption|constructor]. }
  destruct (@exists_last _ rs0 Hne) as (pre & z0 & E0).
  assert (Hpre : Forall (closed_seg K conse x) pre).
  { destruct Ht as [->|(r & -> & _)].
    - rewrite app_nil_r in E. rewrite <- E, E0 in Hcl. apply Forall_app in Hcl. apply Hcl.
    - rewrite E in E0. apply app_inj_tail in E0. destruct E0 as [<- _]. assumption. }
  unfold force_last. rewrite E0, rev_unit. cbn [rev]. rewrite rev_involutive.
  set (z := mkB _ _ _ _ _ _ _ _ _). exists pre, z. split; [reflexivity|].
  rewrite E0 in Hall. apply Forall_app in Hall. destruct Hall as [Ha1 Ha2]. inversion Ha2 as [|? ? Hz _]; subst.
  split; [|split; [|split; [|split; reflexivity]]].
  - apply Forall_app. split.
    + eapply Forall_impl; [|exact Ha1]. intros r Hr. apply seg_start_end; assumption.
    + constructor; [|constructor]. unfold z. cbn [b_start b_end]. apply seg_start_end; assumption.
  - eapply Forall_impl; [|exact Hpre]. intros r (_ & A1 & A2 & _). auto.
  - intros p r1 r2 q Eq. destruct (@exists_last _ (r2 :: q)) as (q' & y & Ey); [discriminate|].
    assert (Eq' : pre ++ [z] = (p ++ r1 :: q') ++ [y]) by (rewrite Eq, <- app_assoc; cbn [app]; rewrite <- Ey; reflexivity).
    apply app_inj_tail in Eq'. destruct Eq' as [Ep <-]. destruct q' as [|y' q'].
    + injection Ey as -> ->. unfold z. cbn [b_start]. apply (Hord p r1 z0 []). rewrite E0, Ep, <- app_assoc. reflexivity.
    + injection Ey as -> ->. apply (Hord p r1 y' (q' ++ [z0])). rewrite E0, Ep, <- app_assoc. reflexivity.
Qed.

Theorem C18_breaks_used : forall c2 snow junk l breaks rs, 1 <= conse ->
  Forall (fun d => d <= 2147483647) breaks ->
  (qa_count [0; 1] l >= 24 -> clear_series c2 l <> []) ->
  (forall b d, In b breaks -> In d (map q_date l) -> Z.abs (d - b) < 9999999) ->
  obcold_reconstruct c2 snow junk l breaks = Ok (ObSegments C rs) ->
  exists sorted us, Permutation breaks sorted /\ StronglySorted Z.le sorted /\
    subseq us (pick_breaks 0 sorted) /\
    Forall2 (fun b r => exists i, first_nearest (map o_date (clear_series c2 l)) b i /\
                                  b_break r = nth i (map o_date (clear_series c2 l)) 0) us (removelast rs).
Proof.
  intros c2 snow junk l breaks rs H1 H2 H3 H4 H. pose proof (@reconstruct_cases c2 snow junk l breaks H1 H2 H3 H4) as HC.
  rewrite H in HC. destruct HC as (_ & Hx & sorted & us & rs0 & Hp & Hs & Hsub & Hne & (cl & tail & E & Hcl & Hord & Hus & Ht) & ->).
  destruct (@exists_last _ rs0 Hne) as (pre & z0 & E0).
  assert (Er : removelast (force_last rs0) = pre).
  { unfold force_last. rewrite E0, rev_unit. cbn [rev]. rewrite rev_involutive. apply removelast_last. }
  rewrite Er. exists sorted.
  assert (HF : exists us', subseq us' us /\ Forall2 (nearest_break (clear_series c2 l)) us' pre).
  { destruct Ht as [->|(r & -> & _)].
    - rewrite app_nil_r in E. rewrite <- E, E0 in Hus. apply Forall2_app_inv_r in Hus.
      destruct Hus as (u1 & u2 & F1 & _ & ->). exists u1. split; [|assumption].
      rewrite <- (app_nil_r u1) at 1. apply subseq_app; [apply subseq_refl|constructor].
    - rewrite E in E0. apply app_inj_tail in E0. destruct E0 as [<- _]. exists us. split; [apply subseq_refl|assumption]. }
  destruct HF as (us' & S1 & S2). exists us'. split; [assumption|]. split; [assumption|].
  split; [eapply subseq_trans; eassumption|]. exact S2.
Qed.

(** C66: num_obs is one more than the number of observations fitted, for
    every record; the category fits the true number; the model is the fit of
    the recorded window. *)
Theorem C66_num_obs : forall c2 snow junk l breaks rs r, 1 <= conse ->
  Forall (fun d => d <= 2147483647) breaks ->
  (qa_count [0; 1] l >= 24 -> clear_series c2 l <> []) ->
  (forall b d, In b breaks -> In d (map q_date l) -> Z.abs (d - b) < 9999999) ->
  obcold_reconstruct c2 snow junk l breaks = Ok (ObSegments C rs) -> In r rs ->
  subseq (b_win r) (clear_series c2 l) /\ 6 <= zlen (b_win r) /\ b_nobs r = zlen (b_win r) + 1 /\
  o_fit K (b_cat r) (b_win r) = Some (b_model r) /\
  ((b_cat r = 4 /\ zlen (b_win r) < 18) \/ (b_cat r = 6 /\ 18 <= zlen (b_win r) < 24) \/ (b_cat r = 8 /\ 24 <= zlen (b_win r))).
Proof.
  intros c2 snow junk l breaks rs r H1 H2 H3 H4 H Hr. pose proof (@reconstruct_cases c2 snow junk l breaks H1 H2 H3 H4) as HC.
  rewrite H in HC. destruct HC as (_ & Hx & sorted & us & rs0 & _ & _ & _ & Hne & (cl & tail & E & Hcl & Hord & _ & Ht) & ->).
  assert (Hall : Forall (seg_ok K (clear_series c2 l)) rs0).
  { rewrite E. apply Forall_app. split.
    - eapply Forall_impl; [|exact Hcl]. intros r' Hr'. apply Hr'.
    - destruct Ht as [->|(r' & -> & Hr' & _)]; [constructor|]. constructor; [assumption|constructor]. }
  assert (Hok : seg_ok K (clear_series c2 l) r).
  { destruct (@exists_last _ rs0 Hne) as (pre & z0 & E0). unfold force_last in Hr. rewrite E0, rev_unit in Hr. cbn [rev] in Hr.
    rewrite rev_involutive in Hr. rewrite E0 in Hall. apply Forall_app in Hall. destruct Hall as [Ha1 Ha2].
    apply in_app_or in Hr. destruct Hr as [Hr|[<-|[]]]; [rewrite Forall_forall in Ha1; auto|].
    inversion Ha2 as [|? ? Hz _]; subst. exact Hz. }
  destruct Hok as (A1 & A2 & _ & _ & A3 & A4 & A5). repeat split; auto.
  rewrite A4. unfold update_cft. destruct (zlen (b_win r) <? 18) eqn:E1; [left; lia|]. destruct (zlen (b_win r) <? 24) eqn:E2; [right; left; lia|right; right; lia].
Qed.

(** C20: records made by the segment loop do not depend on sn_pct nor on
    other memory the call did not set. *)
Theorem C20_segments_partial : forall c2 snow junk snow' junk' l breaks rs,
  obcold_reconstruct c2 snow junk l breaks = Ok (ObSegments C rs) ->
  obcold_reconstruct c2 snow' junk' l breaks = Ok (ObSegments C rs).
Proof.
  intros c2 snow junk snow' junk' l breaks rs. unfold ObModel.obcold_reconstruct, obcold.
  destruct l as [|q l']; [discriminate|]. destruct breaks as [|b bt]; [discriminate|].
  destruct (negb (dates_sorted (q :: l'))); [discriminate|].
  destruct (preprocess c2 (q :: l') (mkCounts 0 0 0 0 0)) as [[fl c]| | |]; cbn [bind]; try discriminate.
  destruct (n_clear c <? 24).
  - destruct (sparse_either fit saturated snow c2 junk fl) as [[r|]| | |]; cbn [bind]; discriminate.
  - destruct (quick_sort _ _ _ _ _) as [srt| | |]; cbn [bind]; try discriminate.
    destruct (segments _ _ _ _ _ _) as [[|r rt]| | |]; cbn [bind]; try discriminate; [|auto].
    destruct (sparse_either fit saturated snow c2 junk fl) as [[r|]| | |]; cbn [bind]; discriminate.
Qed.
End Whole.

(** ** Concrete runs *)

(** A kernel in which every fit succeeds and nothing is an outlier. *)
Definition okay : okernel Z Z :=
  mkOK (fun _ => Some (fun _ => false)) (fun c _ => Some c) (fun _ _ _ => false) (fun c _ => Some c) (fun _ _ o => o_date o).

(** [n] clear rows, one every [step] days from day [d]. *)
Fixpoint every (n : nat) (step d v : Z) : list raw :=
  match n with O => [] | S n => row_ d v 0 :: every n step (d + step) v end.

Definition run_ob (snow : bool) (junk : nat -> nat -> Z) (l : list raw) (bs : list Z) :=
  obcold_reconstruct okay 6 idfit [] true snow junk l bs.
Definition summary (r : out (ob_result Z Z (list (Z * Z)))) : list (list Z) :=
  match r with
  | Ok (ObSegments _ rs) => map (fun r => [b_start r; b_end r; b_break r; b_nobs r; b_prob r; zlen (b_win r)]) rs
  | _ => []
  end.

(** Four years of monthly rows and four dates, unordered and repeated; the
    date 1600 is less than a year after 1500. *)
Example ob_run : summary (run_ob false no_junk (every 48 30 730 100) [1600; 1500; 0; 1100; 1100])
  = [[730; 1060; 1090; 13; 100; 12]; [1090; 1480; 1510; 15; 100; 14]; [1510; 2140; 0; 23; 0; 22]].
Proof. vm_compute. reflexivity. Qed.

Definition ob_premises (l : list raw) (bs : list Z) : Prop :=
  Forall (fun d => d <= 2147483647) bs /\
  (qa_count [0; 1] l >= 24 -> clear_series true l <> []) /\
  (forall b d, In b bs -> In d (map q_date l) -> Z.abs (d - b) < 9999999) /\
  (forall d d', In d (map q_date l) -> In d' (map q_date l) -> d' - d < 39 * 366).

Example ob_premises_hold : ob_premises (every 48 30 730 100) [1600; 1500; 0; 1100; 1100].
Proof.
  assert (Hd : forall d, In d (map q_date (every 48 30 730 100)) -> 0 <= d <= 3000).
  { apply Forall_forall. vm_compute. repeat constructor; discriminate. }
  unfold ob_premises. split; [repeat constructor; lia|]. split; [intros _; vm_compute; discriminate|].
  split.
  - intros b d Hb H. specialize (Hd d H). cbn [In] in Hb. destruct Hb as [<-|[<-|[<-|[<-|[<-|[]]]]]]; lia.
  - intros d d' H H'. apply Hd in H. apply Hd in H'. lia.
Qed.

(** C18, first clause: the first accepted date may be less than a year after
    the first clear observation, because the distance is measured from day 0. *)
Theorem C18_first_clear_refuted : exists l bs rs r o,
  run_ob false no_junk l bs = Ok (ObSegments _ rs) /\ hd_error rs = Some r /\
  hd_error (clear_series true l) = Some o /\ 0 < b_break r /\ b_break r - o_date o < 365.
Proof.
  destruct (run_ob false no_junk (every 48 30 730 100) [930]) as [[rs|]| | |] eqn:E;
    vm_compute in E; try discriminate.
  injection E as <-. eexists (every 48 30 730 100), [930], _, _, _.
  split; [vm_compute; reflexivity|]. split; [reflexivity|]. split; [vm_compute; reflexivity|]. cbn. lia.
Qed.

(** C19: 42 years of monthly rows with a break every 366 days overrun the
    record array. *)
Definition yearly : list Z := map (fun k => 1100 + 366 * Z.of_nat k) (seq 0 41).
Theorem C19_capacity_refuted : exists l bs, ~ unsorted l /\ run_ob false no_junk l bs = UB.
Proof.
  exists (every 530 30 730 100), yearly. split; [|vm_compute; reflexivity].
  intros H. apply dates_sorted_false in H. vm_compute in H. discriminate.
Qed.

(** ... and 39 such breaks do not. *)
Example capacity_met : length (summary (run_ob false no_junk (every 530 30 730 100) (firstn 39 yearly))) = 40%nat.
Proof. vm_compute. reflexivity. Qed.

(** C19: with 24 clear rows that are all out of range the search for the
    break returns an index that was never assigned. *)
Theorem C19_empty_refuted : exists l bs, ~ unsorted l /\ qa_count [0; 1] l >= 24 /\ run_ob false no_junk l bs = UB.
Proof.
  exists (every 24 30 730 (-5)), [1100]. split; [|split; vm_compute; [discriminate|reflexivity]].
  intros H. apply dates_sorted_false in H. vm_compute in H. discriminate.
Qed.

(** C20: the result depends on the uninitialised sn_pct, both whether a
    record exists and what it says. *)
Theorem C20_refuted : exists l bs, run_ob true no_junk l bs <> run_ob false no_junk l bs.
Proof. exists (every 15 30 730 100), [1100]. vm_compute. discriminate. Qed.

(** C66: num_obs is not the number of observations fitted. *)
Theorem C66_refuted : exists l bs rs r, run_ob false no_junk l bs = Ok (ObSegments _ rs) /\ In r rs /\
  b_nobs r <> zlen (b_win r).
Proof.
  destruct (run_ob false no_junk (every 48 30 730 100) [1100]) as [[rs|]| | |] eqn:E; vm_compute in E; try discriminate.
  injection E as <-. eexists (every 48 30 730 100), [1100], _, _.
  split; [vm_compute; reflexivity|]. split; [left; reflexivity|]. vm_compute. discriminate.
Qed.

Print Assumptions C18_accepted.
Print Assumptions C18_breaks_used.
Print Assumptions C18_first_clear_refuted.
Print Assumptions C19_terminates.
Print Assumptions C19_memory_safe.
Print Assumptions C19_records.
Print Assumptions C19_capacity_refuted.
Print Assumptions C19_empty_refuted.
Print Assumptions C20_refuted.
Print Assumptions C66_num_obs.
Print Assumptions C66_refuted.
Print Assumptions C20_segments_partial.
