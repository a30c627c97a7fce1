(** OBCOLD, continued: every fit and every mask it asks for is well posed (C92). *)
From Verif Require Import Base SortModel LibModel LibProps ColdModel ColdSpec ColdLemmas FrontModel FrontProps SparseProps ObModel ObProps ColdProps4.

(** As [posed], without the minimum length in days: OBCOLD lets the number of
    coefficients depend on the number of observations only (cold.c 5748-5773). *)
Definition determined (df : Z) (w : list obs) : bool :=
  ColdProps4.in_order (df + 2) w && ((df =? 4) || (((df =? 6) || (df =? 8)) && (3 * df <=? zlen w))).

(** The same numerical routines, except that fits and masks on other windows fail. *)
Definition oguarded {M D} (K : okernel M D) : okernel M D :=
  mkOK (fun w => if ColdProps4.in_order 12 w then o_mask K w else None)
       (fun df w => if determined df w then o_fit5 K df w else None)
       (o_far K)
       (fun df w => if determined df w then o_fit K df w else None)
       (o_dev K).

Lemma determined_ok : forall l w, asc l -> subseq w l -> 6 <= zlen w -> determined (update_cft (zlen w)) w = true.
Proof.
  intros l w Hl Hs Hn. unfold determined, update_cft.
  destruct (zlen w <? 18) eqn:E1; [|destruct (zlen w <? 24) eqn:E2].
  - rewrite (@in_order_ok (4 + 2) l w) by (auto; lia). reflexivity.
  - rewrite (@in_order_ok (6 + 2) l w) by (auto; lia). replace (3 * 6 <=? zlen w) with true by lia. reflexivity.
  - rewrite (@in_order_ok (8 + 2) l w) by (auto; lia). replace (3 * 8 <=? zlen w) with true by lia. reflexivity.
Qed.

Lemma get_ub : forall A (l : list A) i, (exists a, get l i = Ok a) \/ get l i = UB.
Proof. intros A l i. unfold get. destruct (i <? 0); [auto|]. destruct (nth_error l (Z.to_nat i)); eauto. Qed.
Lemma slice_ub : forall A (l : list A) i n, (exists a, slice l i n = Ok a) \/ slice l i n = UB.
Proof. intros A l i n. unfold slice. destruct (_ && _); eauto. Qed.

Section Posed.
Variables M D : Type.
Variable K : okernel M D.
Variable conse : Z.
Hypothesis Hconse : 1 <= conse.
Variable x : list obs.
Hypothesis Hx : asc x.
Hypothesis Hne : x <> [].
Notation K' := (oguarded K).

Lemma clean_guard : forall live last i b, asc live -> clean K' live last i b = clean K live last i b.
Proof.
  intros live last i b Ha. unfold clean.
  destruct ((12 <=? i - last) && match b with None => false | Some _ => true end) eqn:E; [|reflexivity].
  apply bind_ext. intros w Hw. apply slice_facts in Hw. destruct Hw as (_ & _ & _ & Hs & Hl & _).
  cbn [oguarded o_mask]. rewrite (@in_order_ok 12 live w) by (auto; lia).
  apply bind_ext. intros flags _. cbv zeta.
  destruct (zlen (keep_from flags 0 w) <? 6) eqn:E6; [reflexivity|].
  cbn [oguarded o_fit5 o_far]. rewrite (@determined_ok live); [reflexivity|assumption| |lia].
  eapply subseq_trans; [apply keep_from_subseq|assumption].
Qed.

Lemma clean_sub : forall live last i b live1, last <= i -> clean K live last i b = Ok (Some live1) -> subseq live1 live.
Proof.
  intros live last i b live1 Hi H. unfold clean in H.
  destruct ((12 <=? i - last) && match b with None => false | Some _ => true end); [|injection H as <-; apply subseq_refl].
  apply bind_ok in H. destruct H as (w & Hw & H). apply bind_ok in H. destruct H as (flags & _ & H). cbv zeta in H.
  destruct (zlen (keep_from flags 0 w) <? 6); [discriminate|]. apply bind_ok in H. destruct H as (m & _ & H).
  match type of H with (if ?c then _ else _) = _ => destruct c; [discriminate|] end. injection H as <-.
  apply slice_facts in Hw. destruct Hw as (H1 & H2 & H3 & H4 & H5 & Ew).
  replace (Z.to_nat i) with (Z.to_nat last + Z.to_nat (i - last))%nat by lia.
  apply subseq_mid. rewrite <- Ew.
  eapply subseq_trans; [apply filter_subseq|]. apply keep_from_subseq.
Qed.

Notation Inv := (Inv K conse x).

Lemma live_asc : forall live last recs us A0 A suf, Inv live last recs us A0 A suf -> asc live.
Proof.
  intros live last recs us A0 A suf [Ex El _ Hs _ _ _ _ _]. subst live.
  apply (asc_subseq (l2 := x)); [|exact Hx]. rewrite Ex. apply subseq_app; [exact Hs|apply subseq_refl].
Qed.

Lemma not_overfull : forall live last recs us A0 A suf, Inv live last recs us A0 A suf -> zlen recs < 40 -> overfull x us -> False.
Proof.
  intros live last recs us A0 A suf [_ _ _ _ _ _ Hu _ _] H (H1 & _). apply Forall2_len in Hu. unfold zlen in *. lia.
Qed.

Lemma segment_guard : forall live last recs us A0 A suf b, Inv live last recs us A0 A suf ->
  match b with Some b => (forall d, In d (map o_date x) -> Z.abs (d - b) < 9999999) /\ (forall u, In u us -> u <= b) | None => True end ->
  segment K' conse live last recs b = segment K conse live last recs b.
Proof.
  intros live last0 recs us A0 A suf b I Hb. pose proof (live_asc I) as Ha.
  unfold segment. apply bind_ext. intros i Hi. destruct (i - last0 <? 6) eqn:E6; [reflexivity|].
  rewrite clean_guard by assumption. apply bind_ext. intros o Ho. destruct o as [live1|]; [|reflexivity].
  destruct (40 <=? zlen recs) eqn:E40; [reflexivity|].
  assert (Ha1 : asc live1) by (eapply asc_subseq; [eapply clean_sub; [|exact Ho]; lia|exact Ha]).
  match goal with |- bind ?u _ = bind ?v _ => assert (E : u = v); [|rewrite E; reflexivity] end.
  unfold make_rec. apply bind_ext. intros i1 Hi1. apply bind_ext. intros w Hw. cbv zeta. cbn [oguarded o_fit o_dev].
  pose proof (slice_facts _ _ _ Hw) as (_ & _ & _ & Hs & Hl & _).
  destruct (o_fit K (update_cft (i1 - last0)) w) as [m|] eqn:Efit; [|destruct (determined (update_cft (i1 - last0)) w); reflexivity].
  assert (H6 : 6 <= zlen w); [|rewrite <- Hl, (@determined_ok live1 w) by assumption; rewrite Hl, ?Efit; reflexivity].
  destruct b as [b|].
  - destruct Hb as [Hb Hu]. pose proof (segment_some Hconse Hx Hne I Hb Hu) as H.
    unfold segment in H. rewrite Hi in H. cbn [bind] in H. rewrite E6, Ho in H. cbn [bind] in H. rewrite E40 in H.
    unfold make_rec in H. rewrite Hi1 in H. cbn [bind] in H. rewrite Hw in H. cbn [bind] in H. rewrite Efit in H. cbn [of_opt bind] in H.
    set (adj := if zlen live1 - i1 <? conse then zlen live1 - i1 else conse) in *.
    destruct (get_ub live1 last0) as [(os & Eg)|Eg]; rewrite Eg in H; clear Eg; cbn [bind] in H; [|exfalso; exact (not_overfull I ltac:(lia) H)].
    destruct (get_ub live1 (i1 - 1)) as [(oe & Eg)|Eg]; rewrite Eg in H; clear Eg; cbn [bind] in H; [|exfalso; exact (not_overfull I ltac:(lia) H)].
    destruct (slice_ub live1 i1 adj) as [(v & Eg)|Eg]; rewrite Eg in H; clear Eg; cbn [bind] in H; [|exfalso; exact (not_overfull I ltac:(lia) H)].
    destruct (get_ub live1 i1) as [(ob & Eg)|Eg]; rewrite Eg in H; clear Eg; cbn [bind] in H; [|exfalso; exact (not_overfull I ltac:(lia) H)].
    destruct H as (us1 & A0' & A' & suf' & [_ _ _ _ Hc _ _ _ _] & _).
    apply Forall_app in Hc. destruct Hc as [_ Hc]. inversion Hc as [|? ? Hr _]; subst. destruct Hr as ((_ & Hr & _) & _).
    exact Hr.
  - unfold where_break in *. injection Hi as <-. injection Hi1 as <-.
    unfold clean in Ho. rewrite andb_false_r in Ho. injection Ho as <-. lia.
Qed.

Lemma segments_guard : forall bs live last recs us A0 A suf a, Inv live last recs us A0 A suf -> spaced a (us ++ bs) ->
  (forall b d, In b bs -> In d (map o_date x) -> Z.abs (d - b) < 9999999) ->
  segments K' conse live last recs bs = segments K conse live last recs bs.
Proof.
  induction bs as [|b bs IH]; intros live last0 recs us A0 A suf a I Hsp Hb; cbn [segments].
  - rewrite (@segment_guard live last0 recs us A0 A suf None I Logic.I). reflexivity.
  - assert (Hb1 : forall d, In d (map o_date x) -> Z.abs (d - b) < 9999999) by (intros d; apply Hb; left; reflexivity).
    assert (Hb2 : forall u, In u us -> u <= b) by (exact (@spaced_le us a b bs Hsp)).
    rewrite (@segment_guard live last0 recs us A0 A suf (Some b) I (conj Hb1 Hb2)).
    apply bind_ext. intros ((l1, la1), rs1) H.
    pose proof (segment_some Hconse Hx Hne I Hb1 Hb2) as HS. rewrite H in HS.
    destruct HS as (us1 & A0' & A' & suf' & I' & Hus1).
    apply (@IH l1 la1 rs1 us1 A0' A' suf' a I').
    + destruct Hus1 as [->| ->]; [eapply spaced_mid; eassumption|apply spaced_snoc; assumption].
    + intros b' d Hb'. apply Hb. right. assumption.
Qed.
End Posed.

(** The whole call; the snow branch of the sparse procedure only with
    Collection 2 data, as for COLD. *)
Theorem C92_obcold : forall M D C (K : okernel M D) conse (fit : list (Z * Z) -> option C) saturated c2 snow junk l breaks,
  1 <= conse ->
  Forall (fun d => d <= 2147483647) breaks ->
  (qa_count [0; 1] l >= 24 -> clear_series c2 l <> []) ->
  (forall b d, In b breaks -> In d (map q_date l) -> Z.abs (d - b) < 9999999) ->
  c2 = true \/ snow = false ->
  obcold_reconstruct (oguarded K) conse (guarded12 fit) saturated c2 snow junk l breaks =
  obcold_reconstruct K conse fit saturated c2 snow junk l breaks.
Proof.
  intros M D C K conse fit saturated c2 snow junk l breaks Hc Hb Hx Hnear Hs. unfold obcold_reconstruct.
  destruct l as [|q l'] eqn:El; [reflexivity|]. rewrite <- El in *.
  destruct breaks as [|b0 bt] eqn:Eb; [reflexivity|]. rewrite <- Eb in *. assert (Hbn : breaks <> []) by congruence.
  match goal with |- bind ?u _ = bind ?v _ => assert (E : u = v); [|rewrite E; reflexivity] end.
  assert (Hsp : forall f, sparse_either (guarded12 fit) saturated snow c2 junk f = sparse_either fit saturated snow c2 junk f).
  { intros f. unfold sparse_either. destruct snow; [|apply masked_guard].
    destruct Hs as [->|Hs]; [|discriminate]. exact (snow_guard fit saturated junk (map fst f)). }
  unfold obcold. destruct (dates_sorted l) eqn:Ed; cbn [negb]; [|reflexivity].
  assert (Hu : ~ unsorted l) by (intros H; apply dates_sorted_false in H; congruence).
  destruct (preprocess_eq c2 l (mkCounts 0 0 0 0 0)) as [[_ E]|[_ E]]; rewrite E; cbn [bind]; [|reflexivity].
  assert (Hcl : n_clear (add_counts (mkCounts 0 0 0 0 0) l) = qa_count [0; 1] l) by (unfold add_counts; cbn [n_clear]; lia).
  rewrite Hcl, Hsp. destruct (qa_count [0; 1] l <? 24) eqn:E24; [reflexivity|].
  destruct (C18_accepted Hbn Hb) as (sorted & Es & Hperm & Hss & Hsub & Hspc & _). rewrite Es. cbn [bind].
  rewrite select_mixed. fold (clear_series c2 l). specialize (Hx ltac:(lia)).
  destruct (clear_series_asc c2 Hu) as [Hasc Hdates].
  rewrite (@segments_guard M D K conse Hc (clear_series c2 l) Hasc Hx (pick_breaks 0 sorted) (clear_series c2 l) 0 [] [] [] []
             (clear_series c2 l) 0 (inv_init K conse (clear_series c2 l)) Hspc).
  - reflexivity.
  - intros b d H1 H2. apply (Hnear b d); [|exact (Hdates d H2)].
    eapply Permutation_in; [exact (Permutation_sym Hperm)|]. exact (@subseq_In _ _ _ b Hsub H1).
Qed.

(** The guarded routines refuse windows that the plain ones accept, and the
    example of four years is processed with the same records. *)
Example oguarded_refuses : let w n step := map (obs_of false) (every n step 730 100) in
  map (o_fit (oguarded okay) 6) [w 17%nat 30; w 18%nat 30] = [None; Some 6] /\
  map (o_fit okay 6) [w 17%nat 30; w 18%nat 30] = [Some 6; Some 6] /\
  map (o_fit5 (oguarded okay) 4) [w 6%nat 0; w 5%nat 30; w 6%nat 30] = [None; None; Some 4] /\
  o_mask (oguarded okay) (w 11%nat 30) = None.
Proof. vm_compute. auto. Qed.

Example oguarded_run :
  summary (obcold_reconstruct (oguarded okay) 6 (guarded12 idfit) [] true false no_junk (every 48 30 730 100) [1600; 1500; 0; 1100; 1100])
  = [[730; 1060; 1090; 13; 100; 12]; [1090; 1480; 1510; 15; 100; 14]; [1510; 2140; 0; 23; 0; 22]].
Proof. vm_compute. reflexivity. Qed.
Print Assumptions C92_obcold.
