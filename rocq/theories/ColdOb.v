(** From detection to reconstruction (C124): the confirmed breaks of COLD,
    given to obcold_reconstruct, are accepted and cut where COLD found them. *)
From Verif Require Import Base SortModel LibModel LibProps ColdModel ColdSpec ColdLemmas ColdProof ColdProps ColdProps3 ColdPass FrontModel FrontProps SparseProps ObModel ObProps ObPass ObAgain ObCount.
Set Implicit Arguments.

(** ** Subsequences and ascending lists *)
Lemma sub_right : forall A (a b w : list A), subseq w (a ++ b) -> (forall d, In d w -> ~ In d a) -> subseq w b.
Proof.
  induction a as [|x a IH]; intros b w H N; [exact H|]. cbn [app] in H. inversion H; subst.
  - constructor.
  - exfalso. apply (N x); now left.
  - apply IH; [assumption|]. intros d Hd Hi. apply (N d Hd). now right.
Qed.
Lemma sub_left : forall A (a b w : list A), subseq w (a ++ b) -> (forall d, In d w -> ~ In d b) -> subseq w a.
Proof.
  induction a as [|x a IH]; intros b w H N.
  - destruct w as [|d w]; [constructor|]. exfalso. apply (N d); [now left|]. eapply subseq_In; [exact H|now left].
  - cbn [app] in H. inversion H; subst.
    + constructor.
    + apply sub_keep. eapply IH; [eassumption|]. intros d Hd. apply N. now right.
    + apply sub_drop. eapply IH; eassumption.
Qed.
Lemma asc_split : forall a b x y, ascending (a ++ b) -> In x a -> In y b -> x < y.
Proof.
  induction a as [|z a IH]; intros b x y H Hx Hy; [contradiction|]. unfold ascending in *. cbn [app] in H. apply StronglySorted_inv in H. destruct H as [H Hf].
  destruct Hx as [->|Hx]; [|eapply IH; eassumption]. rewrite Forall_forall in Hf. apply Hf. apply in_app_iff. now right.
Qed.
Lemma asc_right : forall a b, ascending (a ++ b) -> ascending b.
Proof. induction a as [|z a IH]; intros b H; [exact H|]. unfold ascending in *. cbn [app] in H. apply StronglySorted_inv in H. apply IH, H. Qed.

(** ** Pieces of at least six dates (what a segment needs, cold.c 5600-5603) *)
Fixpoint pieces (ds bs : list Z) : Prop :=
  match bs with
  | [] => True
  | b :: t => exists seg after, ds = seg ++ b :: after /\ 6 <= zlen seg /\ pieces (b :: after) t
  end.

Lemma pieces_grow : forall bs pre ds, pieces ds bs -> pieces (pre ++ ds) bs.
Proof.
  intros [|b t] pre ds H; [exact I|]. destruct H as (seg & after & -> & H6 & H). exists (pre ++ seg), after. split; [apply app_assoc|].
  split; [unfold zlen in *; rewrite app_length; lia|exact H].
Qed.

Section Rebuild.
Variables M D : Type.
Variable K : okernel M D.
Variable conse : Z.
Lemma rebuild_some : forall bs n rest rs, asc rest -> Forall (fun d => 0 < d) (map o_date rest) -> pieces (map o_date rest) bs ->
  rebuild K conse n rest bs = Ok rs -> subseq (cuts rs) bs.
Proof.
  induction bs as [|b t IH]; intros n rest rs Ha Hp Hpc H; cbn [rebuild] in H.
  - destruct (zlen rest <? 6); [injection H as <-; constructor|]. destruct (40 <=? n); [discriminate|].
    apply bind_ok in H. destruct H as (r & Er & H). injection H as <-. unfold open_rec in Er. apply bind_ok in Er. destruct Er as (m & _ & Er). injection Er as <-. constructor.
  - destruct Hpc as (seg & after & E & H6 & Hpc).
    assert (Hl : length rest = (length seg + S (length after))%nat) by (rewrite <- (map_length o_date), E, app_length; reflexivity).
    assert (Hb : o_date (nth (length seg) rest dflt_obs) = b) by (rewrite <- nth_date, E, app_nth2, Nat.sub_diag by lia; reflexivity).
    assert (Hk : nearest b rest = length seg) by (rewrite <- Hb at 1; apply nearest_self; [exact Ha|lia]).
    assert (Hgo : pieces (map o_date rest) t) by (rewrite E; apply pieces_grow; exact Hpc).
    rewrite Hk in H. set (k := length seg) in *.
    destruct (zlen (firstn k rest) <? 6); [apply sub_drop; eapply IH; eassumption|]. apply bind_ok in H. destruct H as (o & Et & H).
    destruct o as [w|]; [|apply sub_drop; eapply IH; eassumption].
    destruct (40 <=? n); [discriminate|]. apply bind_ok in H. destruct H as (r & Er & H). apply bind_ok in H. destruct H as (rs' & Ers & H).
    injection H as <-. unfold closed_rec in Er. apply bind_ok in Er. destruct Er as (m & _ & Er). injection Er as <-.
    assert (Hs : map o_date (skipn k rest) = b :: after).
    { rewrite <- skipn_map, E. unfold k. rewrite skipn_app, skipn_all, Nat.sub_diag. reflexivity. }
    unfold cuts. cbn [map filter b_break]. rewrite hd_skipn, Hb.
    assert (H0 : 0 < b) by (rewrite Forall_forall in Hp; apply Hp; rewrite E; apply in_app_iff; right; now left).
    replace (0 <? b) with true by lia. apply sub_keep. apply (IH (n + 1) (skipn k rest) rs'); [apply asc_skipn; exact Ha| |rewrite Hs; exact Hpc|exact Ers].
    rewrite Forall_forall in *. intros d Hd. apply Hp. rewrite <- (firstn_skipn k rest), map_app. apply in_app_iff. now right.
Qed.
Hypothesis Hmask : forall w f, o_mask K w = Some f -> forall k, f k = false.
Hypothesis Hfar : forall m c o, o_far K m c o = false.

Lemma trim_all : forall seg o, 6 <= zlen seg -> trim K seg = Ok o -> o = Some seg.
Proof.
  intros seg o H6 Et. unfold trim in Et. destruct (zlen seg <? 12); [injection Et as <-; reflexivity|]. apply bind_ok in Et. destruct Et as (f & Ef & Et).
  assert (Ek : kept f seg = seg).
  { destruct (o_mask K seg) as [f0|] eqn:E0; [|discriminate]. injection Ef as <-. pose proof (Hmask _ E0) as Hff. unfold kept. clear - Hff.
    generalize 0%nat. induction seg as [|o l IHl]; intros j; [reflexivity|]. cbn [length seq combine filter fst map]. rewrite Hff. cbn [negb map snd]. f_equal. apply IHl. }
  assert (E6 : zlen seg <? 6 = false) by lia. rewrite Ek, E6 in Et. apply bind_ok in Et. destruct Et as (m' & _ & Et).
  rewrite filter_true, E6 in Et; [injection Et as <-; reflexivity|]. intros o'. rewrite Hfar. reflexivity.
Qed.
Lemma rebuild_full : forall bs n rest rs, asc rest -> Forall (fun d => 0 < d) (map o_date rest) -> pieces (map o_date rest) bs ->
  rebuild K conse n rest bs = Ok rs -> cuts rs = bs.
Proof.
  induction bs as [|b t IH]; intros n rest rs Ha Hp Hpc H; cbn [rebuild] in H.
  - destruct (zlen rest <? 6); [injection H as <-; reflexivity|]. destruct (40 <=? n); [discriminate|].
    apply bind_ok in H. destruct H as (r & Er & H). injection H as <-. unfold open_rec in Er. apply bind_ok in Er. destruct Er as (m & _ & Er). injection Er as <-. reflexivity.
  - destruct Hpc as (seg & after & E & H6 & Hpc).
    assert (Hl : length rest = (length seg + S (length after))%nat) by (rewrite <- (map_length o_date), E, app_length; reflexivity).
    assert (Hb : o_date (nth (length seg) rest dflt_obs) = b) by (rewrite <- nth_date, E, app_nth2, Nat.sub_diag by lia; reflexivity).
    assert (Hk : nearest b rest = length seg) by (rewrite <- Hb at 1; apply nearest_self; [exact Ha|lia]).
    rewrite Hk in H. set (k := length seg) in *.
    assert (Hz : zlen (firstn k rest) = zlen seg) by (unfold zlen; rewrite firstn_length; unfold k; lia).
    replace (zlen (firstn k rest) <? 6) with false in H by lia. apply bind_ok in H. destruct H as (o & Et & H).
    apply trim_all in Et; [|lia]. subst o. destruct (40 <=? n); [discriminate|]. apply bind_ok in H. destruct H as (r & Er & H). apply bind_ok in H. destruct H as (rs' & Ers & H).
    injection H as <-. unfold closed_rec in Er. apply bind_ok in Er. destruct Er as (m & _ & Er). injection Er as <-.
    assert (Hs : map o_date (skipn k rest) = b :: after).
    { rewrite <- skipn_map, E. unfold k. rewrite skipn_app, skipn_all, Nat.sub_diag. reflexivity. }
    unfold cuts. cbn [map filter b_break]. rewrite hd_skipn, Hb.
    assert (H0 : 0 < b) by (rewrite Forall_forall in Hp; apply Hp; rewrite E; apply in_app_iff; right; now left).
    replace (0 <? b) with true by lia. f_equal. apply (IH (n + 1) (skipn k rest) rs'); [apply asc_skipn; exact Ha| |rewrite Hs; exact Hpc|exact Ers].
    rewrite Forall_forall in *. intros d Hd. apply Hp. rewrite <- (firstn_skipn k rest), map_app. apply in_app_iff. now right.
Qed.
End Rebuild.

(** ** The breaks of COLD *)
Section Cold.
Variables M D : Type.
Variable K : kernel M D.
Variable P : params.
Variable x : list obs.
Variable cm : list (Z * Z).
Hypothesis Hc : 1 <= p_conse P.
Hypothesis Hx : asc x.

(** t_break of the records with probability 100 (output.h 14-49) *)
Definition confirmed_breaks (rs : list (rec M D)) : list Z := map (@t_break M D) (filter (fun r => change_prob r =? 100) rs).

(** What is known of a closed record: observations of the series in its time,
    six or more, before its break *)
Definition solid (r : rec M D) : Prop :=
  6 <= zlen (r_win r) /\ subseq (map o_date (r_win r)) (map o_date x) /\ (forall d, In d (map o_date (r_win r)) -> t_start r <= d < t_break r) /\
  t_start r < t_break r /\ In (t_break r) (map o_date x).
Lemma cold_pieces : forall cl p pre ds, map o_date x = pre ++ ds -> (forall d, In d pre -> d < p) -> Forall solid cl -> chained cl ->
  match cl with [] => True | r :: _ => p <= t_start r end -> pieces ds (map (@t_break M D) cl).
Proof.
  induction cl as [|r cl IH]; intros p pre ds Ex Hpre Hs Hch Hp; [exact I|]. inversion Hs as [|? ? (S1 & S2 & S3 & S4 & S5) Hs']; subst.
  assert (Hin : In (t_break r) ds).
  { rewrite Ex in S5. apply in_app_iff in S5. destruct S5 as [S5|S5]; [specialize (Hpre _ S5); lia|exact S5]. }
  apply in_split in Hin. destruct Hin as (seg & after & Ed). cbn [map pieces]. exists seg, after. split; [exact Ed|].
  assert (Hasc : ascending ((pre ++ seg) ++ t_break r :: after)) by (rewrite <- app_assoc, <- Ed, <- Ex; exact Hx).
  split.
  - rewrite Ex, Ed in S2. apply sub_right in S2.
    + apply sub_left in S2.
      * apply subseq_length in S2. rewrite map_length in S2. unfold zlen in *. lia.
      * intros d Hd Hi. specialize (S3 d Hd). pose proof (asc_right _ _ Hasc) as Ha. unfold ascending in Ha. apply StronglySorted_inv in Ha. destruct Ha as [_ Ha].
        rewrite Forall_forall in Ha. destruct Hi as [<-|Hi]; [lia|]. specialize (Ha d Hi). lia.
    + intros d Hd Hi. specialize (S3 d Hd). specialize (Hpre d Hi). lia.
  - apply (IH (t_break r) (pre ++ seg)); [rewrite Ex, Ed; apply app_assoc| |exact Hs'| |].
    + intros d Hd. eapply asc_split; [exact Hasc|exact Hd|now left].
    + destruct cl; [exact I|]. apply Hch.
    + destruct cl; [exact I|]. apply Hch.
Qed.

Lemma chained_app : forall (a b : list (rec M D)), chained (a ++ b) -> chained a.
Proof. induction a as [|r a IH]; intros b H; [exact I|]. destruct a as [|r' a]; [exact I|]. destruct H as [H1 H2]. split; [exact H1|]. apply (IH b). exact H2. Qed.
Lemma far_apart : forall cl p, p + 366 <= match cl with [] => p + 366 | r :: _ => t_break r end ->
  match cl with [] => True | r :: t => Forall (fun r => t_start r + 366 <= t_break r) t end -> chained cl -> apart p (map (@t_break M D) cl).
Proof.
  induction cl as [|r cl IH]; intros p Hp Hf Hch; [exact I|]. cbn [map apart]. split; [exact Hp|]. apply IH.
  - destruct cl as [|r' cl]; [lia|]. inversion Hf; subst. destruct Hch as [Hq _]. lia.
  - destruct cl as [|r' cl]; [exact I|]. inversion Hf; assumption.
  - destruct cl; [exact I|]. apply Hch.
Qed.

(** C124: the confirmed breaks are accepted, all of them, and the pieces
    between them are long enough. *)
Theorem C124_accepted : forall fuel R, fuel_ok P x fuel -> stand_procedure K P fuel x cm = Ok R ->
  (forall d, In d (map o_date x) -> 366 <= d) ->
  accepted 0 (confirmed_breaks (res_recs R)) = confirmed_breaks (res_recs R) /\ pieces (map o_date x) (confirmed_breaks (res_recs R)).
Proof.
  intros fuel R Hf H Hd. destruct (@run_sound M D K P x cm fuel R Hc Hx Hf H) as [(Hch & Hsh) Hfr _ _ _].
  assert (Hcl : exists cl tail, res_recs R = cl ++ tail /\ closed_list K P cl /\ Forall (fun r => change_prob r < 100) tail).
  { destruct Hsh as [Hcl|(cl & r & E & Hcl & Hop)]; [exists (res_recs R), []; rewrite app_nil_r; repeat split; auto|]. exists cl, [r]. split; [exact E|]. split; [exact Hcl|].
    constructor; [|constructor]. destruct Hop as [(_ & wo & Hz & _ & [(c & (_ & Hlt & _) & -> & _)|(_ & -> & _)])|(_ & -> & _)]; try lia.
    apply Z.div_lt_upper_bound; unfold zlen in Hz; nia. }
  destruct Hcl as (cl & tail & E & Hcl & Ht). pose proof (@closed_list_each M D K P _ Hcl) as Hce.
  assert (Eb : confirmed_breaks (res_recs R) = map (@t_break M D) cl).
  { unfold confirmed_breaks. rewrite E, filter_app. replace (filter (fun r => change_prob r =? 100) tail) with (@nil (rec M D)).
    - rewrite app_nil_r. f_equal. clear - Hce. induction Hce as [|r l Hr Hl IH]; [reflexivity|]. cbn [filter]. apply closed_facts in Hr.
      replace (change_prob r =? 100) with true by lia. f_equal. exact IH.
    - clear - Ht. induction Ht as [|r l Hr Hl IH]; [reflexivity|]. cbn [filter]. replace (change_prob r =? 100) with false by lia. exact IH. }
  rewrite Eb. rewrite E in Hch. apply chained_app in Hch.
  assert (Hsol : Forall solid cl).
  { rewrite Forall_forall in *. intros r Hr. assert (Hi : In r (res_recs R)) by (rewrite E; apply in_app_iff; now left).
    pose proof (Hce r Hr) as Hk. destruct (@closed_facts M D K P _ Hk) as (F1 & F2 & F3). destruct (Hfr r Hi) as (_ & _ & Hbr & Hsub).
    destruct (@C90_observations M D K P x cm Hc Hx fuel R r H Hi) as (O1 & O2 & _).
    assert (Hdur : forall o, In o (r_win r) -> t_start r <= o_date o <= t_end r).
    { intros o Ho. assert (Hin : In o (during r (res_live R))).
      { destruct Hk as [((Hb & _) & _)|(Hcat & _)].
        - rewrite O2 in Ho; [|unfold best_num_c in Hb; lia|unfold best_num_c in Hb; lia]. rewrite <- (firstn_skipn (Z.to_nat (num_obs r)) (during r (res_live R))). apply in_app_iff. now left.
        - rewrite O1 in Ho by exact Hcat. exact Ho. }
      unfold during in Hin. apply filter_In in Hin. destruct Hin as [_ Hin]. lia. }
    split; [|split; [apply subseq_map; exact Hsub|split; [|split; [lia|]]]].
    - destruct Hk as [((Hb & Hn & _) & _)|(_ & _ & _ & H6 & _)]; [unfold best_num_c in Hb; lia|exact H6].
    - intros d Hdd. apply in_map_iff in Hdd. destruct Hdd as (o & <- & Ho). specialize (Hdur o Ho). lia.
    - destruct Hbr as [[_ Hbr]|Hbr]; [lia|exact Hbr]. }
  split.
  - apply apart_accepted. apply far_apart; [| |exact Hch].
    + destruct cl as [|r cl]; [lia|]. inversion Hsol as [|? ? (_ & _ & _ & _ & Hb) _]; subst. specialize (Hd _ Hb). lia.
    + destruct cl as [|r cl]; [exact I|]. destruct Hcl as [_ Hreg]. eapply Forall_impl; [|exact Hreg]. intros r' ((_ & _ & Hy) & _ & Hlt & _). lia.
  - apply (@cold_pieces cl (match cl with [] => 0 | r :: _ => t_start r end) []); [reflexivity|intros d []|exact Hsol|exact Hch|]. destruct cl; [exact I|lia].
Qed.
End Cold.

(** C124: the reconstruction of a series with the same dates, from the
    confirmed breaks of COLD: every record is cut at one of these breaks, at
    the very date; without outliers at all of them. *)
Section Both.
Variables M D M' D' : Type.
Variable K : kernel M D.
Variable P : params.
Variable Ko : okernel M' D'.
Variables (x y : list obs) (cm : list (Z * Z)) (fuel : nat) (R : result M D) (conse : Z) (rs : list (brec M' D')).
Hypothesis Hc : 1 <= p_conse P.
Hypothesis Hx : asc x.
Hypothesis Hf : fuel_ok P x fuel.
Hypothesis HR : stand_procedure K P fuel x cm = Ok R.
Hypothesis Hd : forall d, In d (map o_date x) -> 366 <= d < 9999999.
Hypothesis Hy : map o_date y = map o_date x.
Hypothesis Hne : y <> [].
Hypothesis Hconse : 1 <= conse.
Hypothesis Hrs : segments Ko conse y 0 [] (pick_breaks 0 (confirmed_breaks (res_recs R))) = Ok rs.

Lemma both : pieces (map o_date y) (confirmed_breaks (res_recs R)) /\ asc y /\ Forall (fun d => 0 < d) (map o_date y) /\
  rebuild Ko conse 0 y (confirmed_breaks (res_recs R)) = Ok rs.
Proof.
  destruct (@C124_accepted M D K P x cm Hc Hx fuel R Hf HR) as [Ha Hp]; [intros d Hi; specialize (Hd _ Hi); lia|].
  assert (Hay : asc y) by (unfold asc; rewrite Hy; exact Hx).
  assert (Hin : forall b, In b (confirmed_breaks (res_recs R)) -> In b (map o_date x)).
  { clear - Hp. revert Hp. generalize (map o_date x). induction (confirmed_breaks (res_recs R)) as [|b t IH]; intros ds Hp b' Hb; [contradiction|].
    destruct Hp as (seg & after & -> & _ & Hp). destruct Hb as [<-|Hb]; [apply in_app_iff; right; now left|]. specialize (IH _ Hp _ Hb). apply in_app_iff. now right. }
  assert (Hsm : Forall (fun d => d <= 2147483647) (confirmed_breaks (res_recs R))) by (apply Forall_forall; intros b Hb; specialize (Hd _ (Hin b Hb)); lia).
  assert (Hap : StronglySorted Z.le (confirmed_breaks (res_recs R))).
  { rewrite <- Ha. clear. generalize (confirmed_breaks (res_recs R)). intros l. assert (G : forall l last, Forall (fun d => last <= d) (accepted last l) /\ StronglySorted Z.le (accepted last l)).
    { clear. induction l as [|d t IH]; intros last; [split; constructor|]. cbn [accepted]. destruct (last + 366 <=? d) eqn:E; [|apply IH].
      destruct (IH d) as [I1 I2]. split; constructor; [lia| |exact I2|exact I1]. eapply Forall_impl; [|exact I1]. cbn. intros. lia. }
    apply G. }
  pose proof Hrs as H. rewrite accepted_code, Ha in H by (try lia; exact Hsm). rewrite C120_segments in H; try assumption.
  - rewrite Hy. split; [exact Hp|]. split; [exact Hay|]. split; [|exact H]. apply Forall_forall. intros d Hi. specialize (Hd _ Hi). lia.
  - intros b d Hb Hi. rewrite Hy in Hi. pose proof (Hd _ (Hin b Hb)). pose proof (Hd _ Hi). lia.
Qed.

Theorem C124_subset : subseq (filter (fun d => 0 <? d) (map (@b_break M' D') rs)) (confirmed_breaks (res_recs R)).
Proof. destruct both as (H1 & H2 & H3 & H4). exact (@rebuild_some _ _ Ko conse _ _ _ _ H2 H3 H1 H4). Qed.
Theorem C124_same_breaks : (forall w f, o_mask Ko w = Some f -> forall k, f k = false) -> (forall m c o, o_far Ko m c o = false) ->
  filter (fun d => 0 <? d) (map (@b_break M' D') rs) = confirmed_breaks (res_recs R).
Proof. intros G1 G2. destruct both as (H1 & H2 & H3 & H4). exact (@rebuild_full _ _ Ko conse G1 G2 _ _ _ _ H2 H3 H1 H4). Qed.
End Both.

(** The runs of ColdProps: a regular first record, and an initial one of ten
    observations; both breaks return at their dates.  With a kernel that finds
    all but five observations of a piece to be outliers the break is lost. *)
Definition again_from (Ko : okernel Z Z) (x : list obs) : list (list Z) :=
  match stand_procedure toy (toyP None) 60 x [] with
  | Ok R => match segments Ko 6 x 0 [] (pick_breaks 0 (confirmed_breaks (res_recs R))) with
            | Ok rs => confirmed_breaks (res_recs R) :: map (fun r => [b_start r; b_break r]) rs
            | _ => []
            end
  | _ => []
  end.
Example from_two : again_from okay two_levels = [[730480]; [730000; 730480]; [730480; 0]].
Proof. vm_compute. reflexivity. Qed.
Example from_head : again_from okay head_level = [[730160]; [730000; 730160]; [730160; 0]].
Proof. vm_compute. reflexivity. Qed.
Example from_lossy : again_from (mkOK (fun _ => Some (fun k => Nat.ltb 4 k)) (o_fit5 okay) (o_far okay) (o_fit okay) (o_dev okay)) two_levels = [[730480]; [730000; 0]].
Proof. vm_compute. reflexivity. Qed.
Example two_premises : asc two_levels /\ fuel_ok (toyP None) two_levels 60 /\ (forall d, In d (map o_date two_levels) -> 366 <= d < 9999999).
Proof.
  assert (Hd : map o_date two_levels = map (fun k => 730000 + 16 * Z.of_nat k) (seq 0 60)) by (vm_compute; reflexivity).
  split; [exact asc_two|split; [vm_compute; discriminate|]].
  rewrite Hd. intros d Hi. apply in_map_iff in Hi. destruct Hi as (j & <- & Hj). apply in_seq in Hj. lia.
Qed.
Print Assumptions C124_accepted.
Print Assumptions C124_subset.
Print Assumptions C124_same_breaks.
