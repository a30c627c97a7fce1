(** The reconstruction of COLD records from given breaks as cutting a list
    (C120): the loop over segments of obcold_reconstruction_procedure
    (cold.c 5584-5876) without indices and without an array that shrinks. *)
From Verif Require Import Base SortModel LibModel LibProps ColdModel ColdSpec ColdLemmas ColdPass FrontModel FrontProps SparseProps ObModel ObProps.
Set Implicit Arguments.

Section Rebuild.
Variables M D : Type.
Variable K : okernel M D.
Variable conse : Z.
Notation brec := (brec M D).
Notation first l := (hd dflt_obs l).
Notation final l := (last l dflt_obs).

(** Position of the observation nearest to day [b], the earlier of two
    (find_index_clrx, utilities.c 1108-1136) *)
Fixpoint nearest (b : Z) (l : list obs) : nat :=
  match l with
  | [] => 0%nat
  | o :: t => match t with
              | [] => 0%nat
              | _ => let k := nearest b t in
                     if Z.abs (o_date o - b) <=? Z.abs (o_date (nth k t dflt_obs) - b) then 0%nat else S k
              end
  end.
(** A segment without its outliers, if six or more observations are left at
    every stage (cold.c 5604-5744) *)
Definition trim (seg : list obs) : out (option (list obs)) :=
  if zlen seg <? 12 then Ok (Some seg) else
  flags <- of_opt (o_mask K seg) ;;
  let w := kept flags seg in
  if zlen w <? 6 then Ok None else
  m <- of_opt (o_fit5 K (terms (zlen w)) w) ;;
  let v := filter (fun o => negb (o_far K m (terms (zlen w)) o)) w in
  if zlen v <? 6 then Ok None else Ok (Some v).
(** The record of the observations [w], before those of [after]
    (cold.c 5748-5856) *)
Definition closed_rec (w after : list obs) : out brec :=
  m <- of_opt (o_fit K (terms (zlen w)) w) ;;
  Ok (mkB (o_date (first w)) (o_date (final w)) (o_date (first after)) (zlen w + 1) (terms (zlen w)) 100 m w
        (map (fun o => (o, o_dev K m (terms (zlen w)) o)) (firstn (Z.to_nat conse) after))).
Definition open_rec (w : list obs) : out brec :=
  m <- of_opt (o_fit K (terms (zlen w)) w) ;;
  Ok (mkB (o_date (first w)) (o_date (final w)) 0 (zlen w + 1) (terms (zlen w)) 0 m w []).
(** Cutting [rest] at the breaks; a piece that is too short, or has too many
    outliers, stays in front of the next one.  [n] records exist already
    (cold.c 5593-5857). *)
Fixpoint rebuild (n : Z) (rest : list obs) (bs : list Z) : out (list brec) :=
  match bs with
  | [] => if zlen rest <? 6 then Ok [] else if 40 <=? n then UB else r <- open_rec rest ;; Ok [r]
  | b :: t =>
      let seg := firstn (nearest b rest) rest in
      let after := skipn (nearest b rest) rest in
      if zlen seg <? 6 then rebuild n rest t else
      o <- trim seg ;;
      match o with
      | None => rebuild n rest t
      | Some w => if 40 <=? n then UB else
                  r <- closed_rec w after ;; rs <- rebuild (n + 1) after t ;; Ok (r :: rs)
      end
  end.

(** ** Agreement *)
Lemma nearest_lt : forall b l, l <> [] -> (nearest b l < length l)%nat.
Proof.
  intros b. induction l as [|o t IH]; intros H; [congruence|]. cbn [nearest length]. destruct t as [|o' t]; [lia|].
  specialize (IH ltac:(discriminate)). destruct (Z.abs _ <=? Z.abs _); lia.
Qed.
Lemma nth_date : forall l k, nth k (map o_date l) 0 = o_date (nth k l dflt_obs).
Proof. intros l k. change 0 with (o_date dflt_obs). apply map_nth. Qed.
Lemma nearest_first : forall b l, l <> [] -> first_nearest (map o_date l) b (nearest b l).
Proof.
  intros b. induction l as [|o t IH]; intros H; [congruence|]. destruct t as [|o' t].
  - split; [cbn; lia|]. split; intros j Hj; cbn in *; [|lia]. destruct j; [lia|lia].
  - specialize (IH ltac:(discriminate)). set (t1 := o' :: t) in *. change (nearest b (o :: t1)) with
      (if Z.abs (o_date o - b) <=? Z.abs (o_date (nth (nearest b t1) t1 dflt_obs) - b) then 0%nat else S (nearest b t1)).
    destruct IH as (I1 & I2 & I3). rewrite <- nth_date. set (k := nearest b t1) in *.
    destruct (Z.abs (o_date o - b) <=? Z.abs (nth k (map o_date t1) 0 - b)) eqn:E.
    + split; [cbn [map length]; lia|]. split; intros j Hj; [|lia]. change (nth 0 (map o_date (o :: t1)) 0) with (o_date o).
      destruct j as [|j]; [cbn [map nth]; lia|]. cbn [map nth length] in *. specialize (I2 j ltac:(lia)). lia.
    + split; [cbn [map length] in *; lia|]. change (nth (S k) (map o_date (o :: t1)) 0) with (nth k (map o_date t1) 0).
      split; intros j Hj; (destruct j as [|j]; [cbn [map nth]; lia|]); change (nth (S j) (map o_date (o :: t1)) 0) with (nth j (map o_date t1) 0).
      * apply I2. cbn [map length] in *. lia.
      * apply I3. lia.
Qed.

Variable x : list obs.
Hypothesis Hconse : 1 <= conse.
Hypothesis Hx : asc x.

Lemma where_cut : forall A0 A suf b k, x = A0 ++ suf -> subseq A A0 -> (k < length suf)%nat ->
  (forall d, In d (map o_date x) -> Z.abs (d - b) < 9999999) ->
  first_nearest (map o_date x) b (length A0 + k) -> where_break (A ++ suf) (Some b) = Ok (zlen A + Z.of_nat k).
Proof.
  intros A0 A suf b k Ex Hs Hk Hb Hn.
  assert (Hlive : first_nearest (map o_date (A ++ suf)) b (length A + k)).
  { rewrite map_app. rewrite <- (map_length o_date A). apply nearest_shrink with (A0 := map o_date A0).
    - apply map_In_subseq; assumption.
    - rewrite map_length, <- map_app, <- Ex. exact Hn. }
  unfold where_break. destruct (@C39_nearest_date (map o_date (A ++ suf)) [] b) as (n' & E & Hn').
  { intros E. apply map_eq_nil in E. apply app_eq_nil in E. destruct E as [_ ->]. cbn in Hk. lia. }
  { intros d Hd. apply Hb. rewrite Ex, map_app. rewrite map_app in Hd. apply in_app_iff in Hd. apply in_app_iff.
    destruct Hd as [Hd|Hd]; [left; eapply map_In_subseq; eassumption|right; assumption]. }
  rewrite app_nil_r in E. unfold zlen in *. rewrite map_length in E. rewrite E, (nearest_unique Hn' Hlive). f_equal. lia.
Qed.

Lemma clean_cut : forall A suf (k : nat) b, (k <= length suf)%nat ->
  clean K (A ++ suf) (zlen A) (zlen A + Z.of_nat k) (Some b) =
  (o <- trim (firstn k suf) ;; Ok (match o with None => None | Some w => Some (A ++ w ++ skipn k suf) end)).
Proof.
  intros A suf k b Hk. unfold clean, trim.
  assert (E : A ++ suf = A ++ firstn k suf ++ skipn k suf) by (rewrite firstn_skipn; reflexivity).
  assert (Hl : zlen (firstn k suf) = Z.of_nat k) by (unfold zlen; rewrite firstn_length; lia).
  replace (zlen A + Z.of_nat k - zlen A) with (Z.of_nat k) by lia. rewrite Hl, andb_true_r.
  destruct (Z.of_nat k <? 12) eqn:E12.
  - replace (12 <=? Z.of_nat k) with false by lia. cbn [bind]. rewrite E at 1. reflexivity.
  - replace (12 <=? Z.of_nat k) with true by lia. rewrite E at 1. rewrite ObProps.slice_mid by auto. cbn [bind].
    destruct (o_mask K (firstn k suf)) as [flags|]; cbn [of_opt bind]; [|reflexivity]. rewrite kept_code. change terms with update_cft.
    destruct (zlen (keep_from flags 0 (firstn k suf)) <? 6); [reflexivity|].
    destruct (o_fit5 K _ _) as [m|]; cbn [of_opt bind]; [|reflexivity].
    destruct (zlen (filter _ _) <? 6); [reflexivity|]. cbn [bind]. f_equal. f_equal. f_equal.
    + unfold zlen. rewrite Nat2Z.id, firstn_app, firstn_all, Nat.sub_diag. cbn [firstn]. apply app_nil_r.
    + f_equal. unfold zlen. replace (Z.to_nat (Z.of_nat (length A) + Z.of_nat k)) with (length A + k)%nat by lia.
      rewrite skipn_app, skipn_all2 by lia. cbn [app]. replace (length A + k - length A)%nat with k by lia. reflexivity.
Qed.
Lemma trim_six : forall seg w, 6 <= zlen seg -> trim seg = Ok (Some w) -> 6 <= zlen w /\ subseq w seg.
Proof.
  intros seg w H6 H. unfold trim in H. destruct (zlen seg <? 12); [injection H as <-; split; [exact H6|apply subseq_refl]|].
  apply bind_ok in H. destruct H as (f & _ & H). rewrite kept_code in H. destruct (zlen (keep_from f 0 seg) <? 6); [discriminate|].
  apply bind_ok in H. destruct H as (m & _ & H). destruct (zlen (filter _ _) <? 6) eqn:E; [discriminate|]. injection H as <-.
  split; [lia|]. eapply subseq_trans; [apply filter_subseq|apply keep_from_subseq].
Qed.

Lemma make_cut : forall A w after b, w <> [] -> after <> [] ->
  where_break (A ++ w ++ after) (Some b) = Ok (zlen A + zlen w) ->
  make_rec K conse (A ++ w ++ after) (zlen A) (Some b) = (r <- closed_rec w after ;; Ok (r, zlen A + zlen w)).
Proof.
  intros A w after b Hw Ha E. unfold make_rec, closed_rec. rewrite E. cbn [bind]. replace (zlen A + zlen w - zlen A) with (zlen w) by lia.
  rewrite ObProps.slice_mid by reflexivity. cbn [bind]. change terms with update_cft.
  destruct (o_fit K (update_cft (zlen w)) w) as [m|]; cbn [of_opt bind]; [|reflexivity].
  destruct w as [|o0 w'] eqn:Ew; [congruence|]. rewrite <- Ew in *.
  assert (Eg : get (A ++ w ++ after) (zlen A) = Ok o0) by (rewrite Ew; cbn [app]; apply ObProps.get_mid; reflexivity).
  rewrite Eg. cbn [bind]. rewrite (@get_last _ A w after dflt_obs) by (auto; lia). cbn [bind].
  destruct after as [|o t] eqn:Ea; [congruence|]. rewrite <- Ea in *.
  assert (Hz : zlen (A ++ w ++ after) - (zlen A + zlen w) = zlen after) by (unfold zlen; rewrite !app_length; lia). rewrite Hz.
  set (adj := if zlen after <? conse then zlen after else conse).
  assert (Hf : firstn (Z.to_nat conse) after = firstn (Z.to_nat adj) after).
  { unfold adj. destruct (zlen after <? conse) eqn:El; [|reflexivity]. rewrite !firstn_all2; [reflexivity|unfold zlen in *; lia|unfold zlen in *; lia]. }
  assert (Esl : slice (A ++ w ++ after) (zlen A + zlen w) adj = Ok (firstn (Z.to_nat adj) after)).
  { rewrite <- (firstn_skipn (Z.to_nat adj) after) at 1. rewrite app_assoc. apply ObProps.slice_mid.
    - unfold zlen. rewrite app_length. lia.
    - unfold adj, zlen in *. rewrite firstn_length. destruct (Z.of_nat (length after) <? conse) eqn:El; lia. }
  rewrite Esl. cbn [bind]. rewrite app_assoc.
  assert (Eo : get ((A ++ w) ++ after) (zlen A + zlen w) = Ok o) by (rewrite Ea; apply ObProps.get_mid; unfold zlen; rewrite app_length; lia).
  rewrite Eo. cbn [bind]. rewrite Hf, Ew, Ea. reflexivity.
Qed.

Lemma rebuild_code : forall bs A0 A suf recs, x = A0 ++ suf -> subseq A A0 -> suf <> [] -> StronglySorted Z.le bs ->
  (forall b d, In b bs -> In d (map o_date x) -> Z.abs (d - b) < 9999999) ->
  (A0 = [] \/ exists u, first_nearest (map o_date x) u (length A0) /\ forall b, In b bs -> u <= b) ->
  segments K conse (A ++ suf) (zlen A) recs bs = (rs <- rebuild (zlen recs) suf bs ;; Ok (recs ++ rs)).
Proof.
  induction bs as [|b bs IH]; intros A0 A suf recs Ex Hs Hne Hss Hb Hu; cbn [segments rebuild].
  - unfold segment. cbn [where_break bind].
    assert (Hz : zlen (A ++ suf) - zlen A = zlen suf) by (unfold zlen; rewrite app_length; lia). rewrite Hz.
    destruct (zlen suf <? 6) eqn:E6; [cbn [bind]; rewrite app_nil_r; reflexivity|].
    unfold clean. rewrite andb_false_r. cbn [bind]. destruct (40 <=? zlen recs); [reflexivity|].
    unfold make_rec, open_rec. cbn [where_break bind]. rewrite Hz.
    assert (Esl : slice (A ++ suf) (zlen A) (zlen suf) = Ok suf) by (rewrite <- (app_nil_r suf) at 1; apply ObProps.slice_mid; reflexivity).
    rewrite Esl. cbn [bind]. change terms with update_cft. destruct (o_fit K (update_cft (zlen suf)) suf) as [m|]; cbn [of_opt bind]; [|reflexivity].
    destruct suf as [|o0 suf'] eqn:Es; [congruence|]. rewrite <- Es in *.
    assert (Eg : get (A ++ suf) (zlen A) = Ok o0) by (rewrite Es; apply ObProps.get_mid; reflexivity). rewrite Eg. cbn [bind].
    assert (El : get (A ++ suf) (zlen (A ++ suf) - 1) = Ok (final suf)).
    { rewrite <- (app_nil_r suf) at 1. apply get_last; [exact Hne|]. unfold zlen. rewrite app_length. lia. }
    rewrite El. cbn [bind]. rewrite Es. reflexivity.
  - apply StronglySorted_inv in Hss. destruct Hss as [Hss Hle]. rewrite Forall_forall in Hle.
    assert (Hnear : exists n, first_nearest (map o_date x) b n).
    { destruct (@C39_nearest_date (map o_date x) [] b) as (n & _ & Hn).
      - intros E. apply map_eq_nil in E. rewrite Ex in E. apply app_eq_nil in E. tauto.
      - intros d Hd. apply Hb; [now left|exact Hd].
      - exists n. exact Hn. }
    destruct Hnear as (n & Hn).
    assert (HA : (length A0 <= n)%nat).
    { destruct Hu as [->|(u & Hf & Hub)]; [cbn; lia|]. eapply nearest_mono; [exact Hx|exact Hf|exact Hn|]. apply Hub. now left. }
    assert (Hlen : length x = (length A0 + length suf)%nat) by (rewrite Ex, app_length; reflexivity).
    assert (Hk : nearest b suf = (n - length A0)%nat).
    { apply (@nearest_unique (map o_date suf) b); [apply nearest_first; exact Hne|].
      change (n - length A0)%nat with (length (@nil Z) + (n - length A0))%nat. change (map o_date suf) with ([] ++ map o_date suf).
      apply nearest_shrink with (A0 := map o_date A0); [intros z []|]. rewrite map_length, <- map_app, <- Ex.
      replace (length A0 + (n - length A0))%nat with n by lia. exact Hn. }
    pose proof (nearest_lt b Hne) as Hlt. set (k := nearest b suf) in *.
    assert (Hn2 : first_nearest (map o_date x) b (length A0 + k)) by (rewrite Hk; replace (length A0 + (n - length A0))%nat with n by lia; exact Hn).
    assert (Hbb : forall d, In d (map o_date x) -> Z.abs (d - b) < 9999999) by (intros d Hd; apply Hb; [now left|exact Hd]).
    assert (Hrest : forall b' d, In b' bs -> In d (map o_date x) -> Z.abs (d - b') < 9999999) by (intros b' d H1 H2; apply Hb; [now right|exact H2]).
    assert (Hu' : A0 = [] \/ exists u, first_nearest (map o_date x) u (length A0) /\ forall b', In b' bs -> u <= b').
    { destruct Hu as [?|(u & Hf & Hub)]; [now left|]. right. exists u. split; [exact Hf|]. intros b' Hb'. apply Hub. now right. }
    unfold segment. rewrite (@where_cut A0 A suf b k Ex Hs Hlt Hbb Hn2). cbn [bind].
    assert (Hz : zlen (firstn k suf) = Z.of_nat k) by (unfold zlen; rewrite firstn_length; lia).
    replace (zlen A + Z.of_nat k - zlen A) with (Z.of_nat k) by lia. rewrite Hz.
    destruct (Z.of_nat k <? 6) eqn:E6; [cbn [bind]; eapply IH; eassumption|].
    rewrite clean_cut by lia.
    destruct (trim (firstn k suf)) as [[w|]| | |] eqn:Et; cbn [bind]; try reflexivity; [|eapply IH; eassumption].
    destruct (trim_six (firstn k suf) ltac:(lia) Et) as [H6 Hsub].
    destruct (40 <=? zlen recs); [reflexivity|].
    assert (Hw : w <> []) by (intros ->; unfold zlen in H6; cbn in H6; lia).
    assert (Haf : skipn k suf <> []) by (intros E; apply (f_equal (@length obs)) in E; rewrite skipn_length in E; cbn in E; lia).
    assert (Ex' : x = (A0 ++ firstn k suf) ++ skipn k suf) by (rewrite <- app_assoc, firstn_skipn; exact Ex).
    assert (Hs' : subseq (A ++ w) (A0 ++ firstn k suf)) by (apply subseq_app; assumption).
    assert (Hl' : length (A0 ++ firstn k suf) = (length A0 + k)%nat) by (rewrite app_length, firstn_length; lia).
    assert (Ew : where_break (A ++ w ++ skipn k suf) (Some b) = Ok (zlen A + zlen w)).
    { rewrite app_assoc. erewrite (@where_cut (A0 ++ firstn k suf) (A ++ w) (skipn k suf) b 0); [f_equal; unfold zlen; rewrite app_length; lia|exact Ex'|exact Hs'| |exact Hbb|].
      - destruct (skipn k suf); [congruence|cbn; lia].
      - rewrite Hl', Nat.add_0_r. exact Hn2. }
    rewrite make_cut by assumption. destruct (closed_rec w (skipn k suf)) as [r| | |]; cbn [bind]; try reflexivity.
    rewrite app_assoc. replace (zlen A + zlen w) with (zlen (A ++ w)) by (unfold zlen; rewrite app_length; lia).
    rewrite (IH (A0 ++ firstn k suf) (A ++ w) (skipn k suf) (recs ++ [r])); try assumption.
    + replace (zlen (recs ++ [r])) with (zlen recs + 1) by (unfold zlen; rewrite app_length; cbn [length]; lia).
      destruct (rebuild (zlen recs + 1) (skipn k suf) bs) as [rs| | |]; cbn [bind]; try reflexivity. rewrite <- app_assoc. reflexivity.
    + right. exists b. rewrite Hl'. split; [exact Hn2|exact Hle].
Qed.
End Rebuild.

(** ** C120 *)
Theorem C120_segments : forall M D (K : okernel M D) conse x bs, 1 <= conse -> asc x -> x <> [] -> StronglySorted Z.le bs ->
  (forall b d, In b bs -> In d (map o_date x) -> Z.abs (d - b) < 9999999) ->
  segments K conse x 0 [] bs = rebuild K conse 0 x bs.
Proof.
  intros M D K conse x bs Hc Hx Hne Hss Hb.
  pose proof (@rebuild_code M D K conse x Hc Hx bs [] [] x [] eq_refl (subseq_refl _) Hne Hss Hb (or_introl eq_refl)) as E.
  cbn [app] in E. change (zlen (@nil obs)) with 0 in E. change (zlen (@nil (brec M D))) with 0 in E. rewrite E.
  destruct (rebuild K conse 0 x bs); reflexivity.
Qed.

(** The dates that are used: each at least 366 days after the one before it,
    or after day 0 (cold.c 5584-5592). *)
Fixpoint accepted (last : Z) (l : list Z) : list Z :=
  match l with
  | [] => []
  | d :: t => if last + 366 <=? d then d :: accepted d t else accepted last t
  end.
(** The last record never has a break (cold.c 5866-5876). *)
Fixpoint reopened M D (rs : list (brec M D)) : list (brec M D) :=
  match rs with
  | [] => []
  | [r] => [mkB (b_start r) (b_end r) 0 (b_nobs r) (b_cat r) 0 (b_model r) (b_win r) []]
  | r :: t => r :: reopened t
  end.

Lemma accepted_code : forall l last, 0 <= last -> Forall (fun d => d <= 2147483647) l -> pick_breaks last l = accepted last l.
Proof.
  induction l as [|d t IH]; intros last H0 Hl; [reflexivity|]. inversion Hl as [|? ? Hd Ht]; subst. cbn [pick_breaks accepted].
  destruct (last + 366 <=? d) eqn:E.
  - replace ((d >? 0) && (4 * (d - last) >=? 1461)) with true by lia. replace (wrap32 d) with d by (unfold wrap32; rewrite Z.mod_small by lia; lia). f_equal. apply IH; [lia|assumption].
  - replace ((d >? 0) && (4 * (d - last) >=? 1461)) with false by lia. apply IH; assumption.
Qed.
Lemma accepted_in : forall l last d, In d (accepted last l) -> In d l.
Proof.
  induction l as [|e t IH]; intros last d; cbn [accepted In]; [tauto|]. destruct (last + 366 <=? e); [intros [->|H]; [now left|right]|intros H; right]; eauto.
Qed.
Lemma accepted_sorted : forall l last, StronglySorted Z.le l -> StronglySorted Z.le (accepted last l).
Proof.
  induction l as [|e t IH]; intros last H; [exact H|]. apply StronglySorted_inv in H. destruct H as [H Hf]. cbn [accepted].
  destruct (last + 366 <=? e); [|auto]. constructor; [auto|]. rewrite Forall_forall in *. intros d Hd. apply Hf. eapply accepted_in; eassumption.
Qed.
Lemma sorted_unique : forall l1 l2, Permutation l1 l2 -> StronglySorted Z.le l1 -> StronglySorted Z.le l2 -> l1 = l2.
Proof.
  induction l1 as [|a t IH]; intros l2 Hp H1 H2; [apply Permutation_nil in Hp; auto|].
  destruct l2 as [|b u]; [apply Permutation_sym, Permutation_nil in Hp; discriminate|].
  apply StronglySorted_inv in H1. destruct H1 as [H1 F1]. apply StronglySorted_inv in H2. destruct H2 as [H2 F2]. rewrite Forall_forall in *.
  assert (a = b).
  { assert (Ha : In a (b :: u)) by (eapply Permutation_in; [exact Hp|now left]). assert (Hb : In b (a :: t)) by (eapply Permutation_in; [apply Permutation_sym; exact Hp|now left]).
    destruct Ha as [->|Ha]; [reflexivity|]. destruct Hb as [->|Hb]; [reflexivity|]. specialize (F1 b Hb). specialize (F2 a Ha). lia. }
  subst b. f_equal. apply IH; [eapply Permutation_cons_inv; exact Hp|assumption|assumption].
Qed.
Lemma reopened_snoc : forall M D (t : list (brec M D)) r,
  reopened (t ++ [r]) = t ++ [mkB (b_start r) (b_end r) 0 (b_nobs r) (b_cat r) 0 (b_model r) (b_win r) []].
Proof. intros M D t r. induction t as [|a t IH]; [reflexivity|]. cbn [app reopened]. rewrite IH. destruct t; reflexivity. Qed.
Lemma reopened_code : forall M D (rs : list (brec M D)), force_last rs = reopened rs.
Proof.
  intros M D rs. destruct rs as [|a rs] using rev_ind; [reflexivity|]. unfold force_last. rewrite rev_unit, reopened_snoc. cbn [rev]. rewrite rev_involutive. reflexivity.
Qed.

(** C120: the records of a call are those of cutting the series of clear
    observations at the accepted dates. *)
Theorem C120_records : forall M D C (K : okernel M D) conse fit saturated c2 snow junk l breaks sorted rs, 1 <= conse ->
  Forall (fun d => d <= 2147483647) breaks ->
  (qa_count [0; 1] l >= 24 -> clear_series c2 l <> []) ->
  (forall b d, In b breaks -> In d (map q_date l) -> Z.abs (d - b) < 9999999) ->
  Permutation breaks sorted -> StronglySorted Z.le sorted ->
  obcold_reconstruct K conse fit saturated c2 snow junk l breaks = Ok (ObSegments C rs) ->
  exists rs0, rebuild K conse 0 (clear_series c2 l) (accepted 0 sorted) = Ok rs0 /\ rs0 <> [] /\ rs = reopened rs0.
Proof.
  intros M D C K conse fit saturated c2 snow junk l breaks sorted rs Hc Hb Hx Hnear Hp Hs H. unfold obcold_reconstruct in H.
  destruct l as [|q l'] eqn:El; [discriminate|]. rewrite <- El in *.
  destruct breaks as [|b0 bt] eqn:Eb; [discriminate|]. rewrite <- Eb in *. assert (Hbn : breaks <> []) by congruence.
  apply bind_ok in H. destruct H as (r & H & Hr). unfold obcold in H.
  destruct (dates_sorted l) eqn:Ed; cbn [negb] in H; [|discriminate].
  assert (Hu : ~ unsorted l) by (intros Hu; apply dates_sorted_false in Hu; congruence).
  destruct (preprocess_eq c2 l (mkCounts 0 0 0 0 0)) as [[_ E]|[_ E]]; rewrite E in H; cbn [bind] in H; [|discriminate].
  assert (Hcl : n_clear (add_counts (mkCounts 0 0 0 0 0) l) = qa_count [0; 1] l) by (unfold add_counts; cbn [n_clear]; lia).
  rewrite Hcl in H. destruct (qa_count [0; 1] l <? 24) eqn:E24.
  { apply bind_ok in H. destruct H as (s & _ & H). injection H as <-. destruct s; discriminate. }
  destruct (C18_accepted Hbn Hb) as (sorted' & Es & Hperm & Hss & _). rewrite Es in H. cbn [bind] in H.
  assert (sorted' = sorted) as -> by (apply sorted_unique; [eapply Permutation_trans; [apply Permutation_sym; exact Hperm|exact Hp]|assumption|assumption]).
  rewrite select_mixed in H. fold (clear_series c2 l) in H. specialize (Hx ltac:(lia)). destruct (clear_series_asc c2 Hu) as [Hasc Hdates].
  assert (Hbs : Forall (fun d => d <= 2147483647) sorted) by (eapply Permutation_Forall; eassumption).
  rewrite (accepted_code (Z.le_refl 0) Hbs) in H. apply bind_ok in H. destruct H as (rs0 & H & Hrs).
  rewrite C120_segments in H; [|assumption|assumption|assumption|apply accepted_sorted; assumption|].
  - exists rs0. split; [exact H|]. destruct rs0 as [|a t] eqn:Er.
    + apply bind_ok in Hrs. destruct Hrs as (s & _ & Hrs). injection Hrs as <-. destruct s; discriminate.
    + rewrite <- Er in *. split; [congruence|]. injection Hrs as <-. rewrite reopened_code in Hr. destruct (reopened rs0); [discriminate|]. injection Hr as <-. reflexivity.
  - intros b d H1 H2. apply Hnear; [|apply Hdates; exact H2]. apply accepted_in in H1. eapply Permutation_in; [apply Permutation_sym; exact Hp|exact H1].
Qed.

(** The run of ObProps: two cuts; the date 1600 is too close to 1500. *)
Example cut_run : accepted 0 [0; 1100; 1100; 1500; 1600] = [1100; 1500] /\
  match rebuild okay 6 0 (clear_series true (every 48 30 730 100)) [1100; 1500], run_ob false no_junk (every 48 30 730 100) [1600; 1500; 0; 1100; 1100] with
  | Ok rs0, Ok (ObSegments _ rs) => rs = reopened rs0 /\ map (fun r => [b_start r; b_end r; b_break r; b_nobs r; b_prob r]) rs =
      [[730; 1060; 1090; 13; 100]; [1090; 1480; 1510; 15; 100]; [1510; 2140; 0; 23; 0]]
  | _, _ => False
  end.
Proof. vm_compute. repeat split; reflexivity. Qed.
(** A piece of five observations joins the next one; a last piece of five has
    no record, and the record before it loses its break. *)
Example short_pieces : match rebuild okay 6 0 (clear_series true (every 48 30 730 100)) [880; 2020] with
  | Ok rs0 => map (fun r => (b_start r, b_end r, b_break r, zlen (b_devs r))) rs0 = [(730, 1990, 2020, 5)] /\
              map (fun r => (b_start r, b_end r, b_break r, zlen (b_devs r))) (reopened rs0) = [(730, 1990, 0, 0)]
  | _ => False
  end.
Proof. vm_compute. repeat split; reflexivity. Qed.
Print Assumptions C120_segments.
Print Assumptions C120_records.
