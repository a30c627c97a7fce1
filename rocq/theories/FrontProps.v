(** Input checks, QA accounting and selection: C01, C02, C03. *)
From Verif Require Import Base SortModel LibModel ColdModel ColdSpec ColdLemmas FrontModel.

(** ** Specification *)

(** Some date is later than its successor. *)
Definition unsorted (l : list raw) : Prop :=
  exists pre a b post, l = pre ++ a :: b :: post /\ q_date b < q_date a.

Definition known_qa (c : Z) : Prop := In c [0; 1; 2; 3; 4; 255].

(** Number of entries whose QA code is one of [codes]. *)
Definition qa_count (codes : list Z) (l : list raw) : Z :=
  zlen (filter (fun q => existsb (Z.eqb (q_qa q)) codes) l).

(** Physically valid values: reflectances in their open ranges and, for
    Collection 1 data with a thermal measurement, a plausible temperature. *)
Definition physical (c2 : bool) (q : raw) : Prop :=
  -200 < q_b q < 10000 /\
  Forall (fun v => 0 < v < 10000) [q_g q; q_r q; q_n q; q_s1 q; q_s2 q] /\
  (c2 = true \/ q_t q = 0 \/ -9320 < 10 * q_t q - 27320 < 7070).
Definition usable (c2 : bool) (q : raw) : Prop := (q_qa q = 0 \/ q_qa q = 1) /\ physical c2 q.

(** The observation a row becomes. *)
Definition as_obs (c2 : bool) (q : raw) (o : obs) : Prop :=
  o_date o = q_date q /\
  exists t, o_vals o = [q_b q; q_g q; q_r q; q_n q; q_s1 q; q_s2 q; t] /\
    (c2 = true /\ q_t q = 0 -> t = 0) /\ (~ (c2 = true /\ q_t q = 0) -> t = 10 * q_t q - 27320).

(** [q] is the first usable entry of its date. *)
Definition first_usable (c2 : bool) (l : list raw) (q : raw) : Prop :=
  exists pre post, l = pre ++ q :: post /\ usable c2 q /\
    forall q', In q' pre -> usable c2 q' -> q_date q' <> q_date q.

(** ** Dates *)
Lemma dates_sorted_false : forall l, dates_sorted l = false <-> unsorted l.
Proof.
  induction l as [|a l IH].
  - split; [discriminate|]. intros (pre & a & b & post & E & _). destruct pre; discriminate.
  - destruct l as [|b l'].
    + split; [discriminate|]. intros (pre & a' & b' & post & E & _).
      destruct pre as [|? [|? ?]]; discriminate.
    + change (dates_sorted (a :: b :: l')) with (if q_date a >? q_date b then false else dates_sorted (b :: l')).
      destruct (q_date a >? q_date b) eqn:E.
      * split; [intros _|reflexivity]. exists [], a, b, l'. split; [reflexivity|lia].
      * rewrite IH. split.
        -- intros (pre & a' & b' & post & E' & H). exists (a :: pre), a', b', post. rewrite E'. auto.
        -- intros (pre & a' & b' & post & E' & H). destruct pre as [|p pre].
           ++ injection E' as -> -> _. lia.
           ++ injection E' as -> E'. exists pre, a', b', post. auto.
Qed.

Lemma sorted_strong : forall l, dates_sorted l = true -> StronglySorted Z.le (map q_date l).
Proof.
  induction l as [|a l IH]; intros H; [constructor|].
  destruct l as [|b l']; [repeat constructor|].
  change (dates_sorted (a :: b :: l')) with (if q_date a >? q_date b then false else dates_sorted (b :: l')) in H.
  destruct (q_date a >? q_date b) eqn:E; [discriminate|]. specialize (IH H).
  cbn [map] in *. constructor; [assumption|]. inversion IH; subst.
  constructor; [lia|]. eapply Forall_impl; [|eassumption]. simpl. intros; lia.
Qed.

(** ** QA accounting *)
Definition add_counts (c : counts) (l : list raw) : counts :=
  mkCounts (n_clear c + qa_count [0; 1] l) (n_water c + qa_count [1] l) (n_shadow c + qa_count [2] l)
           (n_snow c + qa_count [3] l) (n_cloud c + qa_count [4] l).

Lemma tally_known : forall c q, known_qa (q_qa q) -> tally c (q_qa q) = Ok (add_counts c [q]).
Proof.
  intros c q H. unfold known_qa in H. simpl in H. unfold add_counts, qa_count, zlen. cbn [filter existsb].
  destruct c. repeat destruct H as [H|H]; try contradiction; rewrite <- H; simpl; f_equal; f_equal; lia.
Qed.
Lemma tally_unknown : forall c z, ~ known_qa z -> tally c z = Fail.
Proof.
  intros c z H. unfold known_qa in H. simpl in H. unfold tally.
  destruct z as [|p|p]; [tauto| |reflexivity].
  repeat match goal with p : positive |- _ => destruct p; try reflexivity end; exfalso; apply H; tauto.
Qed.
Lemma known_dec : forall z, known_qa z \/ ~ known_qa z.
Proof. intros z. unfold known_qa. destruct (in_dec Z.eq_dec z [0; 1; 2; 3; 4; 255]); auto. Qed.

Lemma add_counts_cons : forall c q l, add_counts (add_counts c [q]) l = add_counts c (q :: l).
Proof.
  intros c q l. unfold add_counts, qa_count, zlen. destruct c. simpl.
  f_equal; repeat match goal with |- context [if ?b then _ else _] => destruct b end; simpl length; lia.
Qed.
Lemma add_counts_nil : forall c, add_counts c [] = c.
Proof. intros []. unfold add_counts, qa_count, zlen. simpl. f_equal; lia. Qed.

Lemma preprocess_eq : forall c2 l c,
  (Forall (fun q => known_qa (q_qa q)) l /\
   preprocess c2 l c = Ok (map (fun q => (q, id_range c2 q)) l, add_counts c l)) \/
  (Exists (fun q => ~ known_qa (q_qa q)) l /\ preprocess c2 l c = Fail).
Proof.
  induction l as [|q l IH]; intros c.
  - left. split; [constructor|]. simpl. rewrite add_counts_nil. reflexivity.
  - cbn [preprocess]. destruct (known_dec (q_qa q)) as [H|H].
    + rewrite tally_known by assumption. cbn [bind].
      destruct (IH (add_counts c [q])) as [[HF E]|[HF E]]; rewrite E; cbn [bind].
      * left. split; [constructor; assumption|]. rewrite add_counts_cons. reflexivity.
      * right. split; [constructor 2; assumption|reflexivity].
    + right. split; [constructor; assumption|]. rewrite tally_unknown by assumption. reflexivity.
Qed.

(** C03: the totals are the numbers of entries with the corresponding codes;
    code 255 counts nowhere, and any other code makes the call fail. *)
Theorem C03_qa_accounting : forall c2 l,
  (Forall (fun q => known_qa (q_qa q)) l -> exists flags,
     preprocess c2 l (mkCounts 0 0 0 0 0) =
       Ok (flags, mkCounts (qa_count [0; 1] l) (qa_count [1] l) (qa_count [2] l) (qa_count [3] l) (qa_count [4] l)) /\
     map fst flags = l /\
     forall q b, In (q, b) flags -> (b = true <-> physical c2 q /\ q_qa q <> 255)) /\
  (Exists (fun q => ~ known_qa (q_qa q)) l -> preprocess c2 l (mkCounts 0 0 0 0 0) = Fail).
Proof.
  intros c2 l. destruct (preprocess_eq c2 l (mkCounts 0 0 0 0 0)) as [[HF E]|[HF E]]; split; intros H.
  - rewrite E. eexists. split; [unfold add_counts; simpl; reflexivity|]. split.
    + rewrite map_map. apply map_id.
    + intros q b Hq. apply in_map_iff in Hq. destruct Hq as (q0 & Eq & Hq). injection Eq as -> <-.
      rewrite Forall_forall in HF. specialize (HF q Hq). unfold known_qa in HF. simpl in HF.
      unfold id_range, thermal_check, physical. rewrite !Forall_cons_iff.
      assert (FN : Forall (fun v => 0 < v < 10000) [] <-> True) by (split; [tauto|constructor]).
      rewrite FN. destruct c2, (Z.eqb_spec (q_t q) 0); simpl negb; cbn iota; split; intros G;
        repeat split; try lia; try tauto; try (right; lia); try (left; reflexivity).
  - exfalso. rewrite Exists_exists in H. destruct H as (q & Hq & Hn). rewrite Forall_forall in HF. apply Hn, HF, Hq.
  - exfalso. rewrite Exists_exists in HF. destruct HF as (q & Hq & Hn). rewrite Forall_forall in H. apply Hn, H, Hq.
  - assumption.
Qed.
Print Assumptions C03_qa_accounting.

Definition row_ (d v qa : Z) : raw := mkRaw d v v v v v v 2932 qa.
Example qa_case : preprocess true [row_ 10 100 0; row_ 11 100 1; row_ 12 (-5) 3; row_ 13 50 255] (mkCounts 0 0 0 0 0)
  = Ok ([(row_ 10 100 0, true); (row_ 11 100 1, true); (row_ 12 (-5) 3, false); (row_ 13 50 255, false)],
        mkCounts 2 1 0 1 0).
Proof. reflexivity. Qed.
Example qa_unknown : preprocess true [row_ 10 100 0; row_ 11 100 7] (mkCounts 0 0 0 0 0) = Fail.
Proof. reflexivity. Qed.

(** ** Selection *)

(** First of each run of equal dates, given the last date kept. *)
Fixpoint pick (last : option Z) (l : list raw) : list raw :=
  match l with
  | [] => []
  | q :: t => match last with
              | Some d => if q_date q =? d then pick last t else q :: pick (Some (q_date q)) t
              | None => q :: pick (Some (q_date q)) t
              end
  end.

Lemma pick_subseq : forall l last, subseq (pick last l) l.
Proof.
  induction l as [|q l IH]; intros last; cbn [pick]; [constructor|].
  destruct last as [d|]; [destruct (q_date q =? d)|]; constructor; apply IH.
Qed.

Lemma pick_spec : forall l last, StronglySorted Z.le (map q_date l) ->
  (forall d, last = Some d -> Forall (fun q => d <= q_date q) l) ->
  ascending (map q_date (pick last l)) /\
  (forall d, last = Some d -> Forall (fun q => d < q_date q) (pick last l)) /\
  (forall q, In q (pick last l) <->
     (last <> Some (q_date q) /\
      exists pre post, l = pre ++ q :: post /\ forall q', In q' pre -> q_date q' <> q_date q)).
Proof.
  unfold ascending. induction l as [|a l IH]; intros last Hs Hd.
  - cbn [pick]. repeat split; try constructor; try contradiction.
    intros (_ & pre & post & E & _). destruct pre; discriminate.
  - cbn [map] in Hs. apply StronglySorted_inv in Hs. destruct Hs as [Hs Ha].
    rewrite Forall_map in Ha.
    assert (Hkeep : (forall d, last = Some d -> d < q_date a) -> pick last (a :: l) = a :: pick (Some (q_date a)) l ->
      StronglySorted Z.lt (map q_date (pick last (a :: l))) /\
      (forall d, last = Some d -> Forall (fun q => d < q_date q) (pick last (a :: l))) /\
      (forall q, In q (pick last (a :: l)) <->
        (last <> Some (q_date q) /\
         exists pre post, a :: l = pre ++ q :: post /\ forall q', In q' pre -> q_date q' <> q_date q))).
    { intros Hlt E. rewrite E. destruct (IH (Some (q_date a)) Hs) as (I1 & I2 & I3).
      { intros d Ed. injection Ed as <-. exact Ha. }
      specialize (I2 _ eq_refl). split; [|split].
      - cbn [map]. constructor; [assumption|]. rewrite Forall_map. exact I2.
      - intros d Ed. specialize (Hlt d Ed). constructor; [assumption|].
        eapply Forall_impl; [|exact I2]. simpl. intros; lia.
      - intros q. cbn [In]. rewrite I3. split.
        + intros [<-|(Hn & pre & post & E' & Hpre)].
          * split; [intros Ed; specialize (Hlt _ Ed); lia|]. exists [], l. split; [reflexivity|]. contradiction.
          * split.
            -- intros Ed. specialize (Hlt _ Ed).
               assert (In q l) by (rewrite E'; apply in_elt). rewrite Forall_forall in Ha. specialize (Ha q H). lia.
            -- exists (a :: pre), post. rewrite E'. split; [reflexivity|].
               intros q' [<-|Hq']; [congruence|auto].
        + intros (Hn & pre & post & E' & Hpre). destruct pre as [|p pre].
          * injection E' as -> _. left. reflexivity.
          * injection E' as -> E'. right. split.
            -- intros Eq. injection Eq as Eq. apply (Hpre p); [left; reflexivity|assumption].
            -- exists pre, post. split; [assumption|]. intros q' Hq'. apply Hpre. right. assumption. }
    destruct last as [d|].
    + destruct (q_date a =? d) eqn:E.
      * assert (Ed : q_date a = d) by lia. cbn [pick]. rewrite E.
        destruct (IH (Some d) Hs) as (I1 & I2 & I3).
        { intros d' Ed'. injection Ed' as <-. rewrite <- Ed. exact Ha. }
        split; [assumption|]. split; [assumption|]. intros q. rewrite I3. split.
        -- intros (Hn & pre & post & E' & Hpre). split; [assumption|]. exists (a :: pre), post. rewrite E'.
           split; [reflexivity|]. intros q' [<-|Hq']; [congruence|auto].
        -- intros (Hn & pre & post & E' & Hpre). split; [assumption|]. destruct pre as [|p pre].
           ++ injection E' as -> _. congruence.
           ++ injection E' as -> E'. exists pre, post. split; [assumption|]. intros q' Hq'. apply Hpre. right. assumption.
      * apply Hkeep; [|cbn [pick]; rewrite E; reflexivity].
        intros d' Ed'. injection Ed' as <-. specialize (Hd d eq_refl). inversion Hd; subst. lia.
    + apply Hkeep; [discriminate|reflexivity].
Qed.

Definition clear_ok (c2 : bool) (q : raw) : bool := (q_qa q <? 2) && id_range c2 q.

Lemma select_pick : forall c2 l last,
  select c2 (map (fun q => (q, id_range c2 q)) l) last = map (obs_of c2) (pick last (filter (clear_ok c2) l)).
Proof.
  induction l as [|q l IH]; intros last; [reflexivity|]. cbn [map select filter].
  change ((q_qa q <? 2) && id_range c2 q) with (clear_ok c2 q).
  destruct (clear_ok c2 q); [|apply IH]. cbn [pick].
  destruct last as [d|]; [destruct (q_date q =? d)|]; cbn [map]; rewrite IH; reflexivity.
Qed.

Lemma clear_usable : forall c2 q, known_qa (q_qa q) -> (clear_ok c2 q = true <-> usable c2 q).
Proof.
  intros c2 q H. unfold known_qa in H. simpl in H. unfold clear_ok, id_range, thermal_check, usable, physical.
  rewrite !Forall_cons_iff.
  assert (FN : Forall (fun v => 0 < v < 10000) [] <-> True) by (split; [tauto|constructor]).
  rewrite FN. destruct c2, (Z.eqb_spec (q_t q) 0); simpl negb; cbn iota; split; intros G;
    repeat split; try lia; try tauto; try (right; lia); try (left; reflexivity).
Qed.

Lemma sorted_filter : forall (f : raw -> bool) l, StronglySorted Z.le (map q_date l) -> StronglySorted Z.le (map q_date (filter f l)).
Proof.
  induction l as [|q l IH]; intros H; [constructor|]. cbn [map] in H. apply StronglySorted_inv in H. destruct H as [H1 H2].
  cbn [filter]. destruct (f q); [|auto]. cbn [map]. constructor; [auto|].
  rewrite Forall_map in *. rewrite Forall_forall in *. intros q' Hq'. apply filter_In in Hq'. apply H2. tauto.
Qed.

Lemma filter_split : forall A (f : A -> bool) l pre q post, filter f l = pre ++ q :: post ->
  exists p1 p2, l = p1 ++ q :: p2 /\ filter f p1 = pre /\ f q = true.
Proof.
  intros A f. induction l as [|a l IH]; intros pre q post E; [destruct pre; discriminate|].
  cbn [filter] in E. destruct (f a) eqn:Ef.
  - destruct pre as [|p pre].
    + injection E as -> _. exists [], l. auto.
    + injection E as -> E. destruct (IH _ _ _ E) as (p1 & p2 & -> & E1 & E2).
      exists (p :: p1), p2. cbn [filter app]. rewrite Ef, E1. auto.
  - destruct (IH _ _ _ E) as (p1 & p2 & -> & E1 & E2). exists (a :: p1), p2. cbn [filter app]. rewrite Ef. auto.
Qed.

(** C02: the analysed series is the list of first usable entries of each
    date, in date order, with the input values. *)
Theorem C02_selection : forall c2 l flags c,
  ~ unsorted l -> preprocess c2 l (mkCounts 0 0 0 0 0) = Ok (flags, c) ->
  let x := select c2 flags None in
  exists chosen, subseq chosen l /\ ascending (map q_date chosen) /\
    (forall q, In q chosen <-> first_usable c2 l q) /\
    Forall2 (as_obs c2) chosen x.
Proof.
  intros c2 l flags c Hu Hp x.
  assert (Hds : dates_sorted l = true).
  { destruct (dates_sorted l) eqn:E; [reflexivity|]. apply dates_sorted_false in E. contradiction. }
  destruct (preprocess_eq c2 l (mkCounts 0 0 0 0 0)) as [[HF E]|[HF E]]; [|congruence].
  rewrite Hp in E. injection E as -> _. unfold x. rewrite select_pick.
  set (fl := filter (clear_ok c2) l).
  assert (Hs : StronglySorted Z.le (map q_date fl)) by (apply sorted_filter, sorted_strong, Hds).
  destruct (@pick_spec fl None Hs) as (P1 & _ & P3); [discriminate|].
  rewrite Forall_forall in HF.
  exists (pick None fl). split; [|split; [assumption|split]].
  - eapply subseq_trans; [apply pick_subseq|]. unfold fl. clear. induction l; cbn [filter]; [constructor|].
    destruct (clear_ok c2 a); constructor; assumption.
  - intros q. rewrite P3. unfold first_usable. split.
    + intros (_ & pre & post & E & Hpre). apply filter_split in E. destruct E as (p1 & p2 & El & E1 & E2).
      exists p1, p2. split; [assumption|]. assert (In q l) by (rewrite El; apply in_elt).
      split; [apply clear_usable; auto|]. intros q' Hq' Hus. apply Hpre. rewrite <- E1. apply filter_In.
      split; [assumption|]. apply clear_usable; [|assumption]. apply HF. rewrite El. apply in_or_app. auto.
    + intros (pre & post & El & Hus & Hpre). split; [discriminate|].
      assert (In q l) by (rewrite El; apply in_elt).
      exists (filter (clear_ok c2) pre), (filter (clear_ok c2) post). unfold fl. rewrite El, filter_app. cbn [filter].
      replace (clear_ok c2 q) with true by (symmetry; apply clear_usable; auto).
      split; [reflexivity|]. intros q' Hq'. apply filter_In in Hq'. destruct Hq' as [Hq' Hc].
      apply Hpre; [assumption|]. apply clear_usable; [|assumption]. apply HF. rewrite El. apply in_or_app. auto.
  - clear. induction (pick None fl) as [|q t IH]; constructor; [|assumption].
    unfold as_obs, obs_of. cbn [o_date o_vals]. split; [reflexivity|]. eexists. split; [reflexivity|].
    destruct c2; cbn [andb]; [destruct (Z.eqb_spec (q_t q) 0)|]; split; intros Hc;
      first [lia | exfalso; apply Hc; split; [reflexivity|assumption] | destruct Hc; contradiction | destruct Hc; discriminate].
Qed.
Print Assumptions C02_selection.

(** Same date twice, a cloud, an out-of-range value. *)
Example select_case :
  select true [(row_ 10 100 4, true); (row_ 10 200 0, true); (row_ 10 300 0, true); (row_ 12 20000 0, false); (row_ 13 400 1, true)] None
  = [mkObs 10 [200; 200; 200; 200; 200; 200; 2000]; mkObs 13 [400; 400; 400; 400; 400; 400; 2000]].
Proof. reflexivity. Qed.

Section C01.
Variables M D C : Type.
Variable K : kernel M D.
Variable fit : list (Z * Z) -> option C.
Variable saturated : C.
Variable P : params.
Variable c2 : bool.
Variable junk : nat -> nat -> Z.

(** C01: an unsorted date array is refused whatever the other arguments, and
    a non-decreasing one (with known QA codes) always reaches the analysis. *)
Theorem C01_date_check : forall l cm, l <> [] ->
  (unsorted l -> cold K fit saturated P c2 junk l cm = Fail) /\
  (~ unsorted l -> Forall (fun q => known_qa (q_qa q)) l -> exists flags c,
     preprocess c2 l (mkCounts 0 0 0 0 0) = Ok (flags, c) /\
     cold K fit saturated P c2 junk l cm =
       (if n_clear c <? 24
        then r <- sparse fit saturated c2 junk flags c ;; Ok (SparseRes r)
        else R <- stand_procedure K P (length l) (select c2 flags None) cm ;; Ok (Standard R))).
Proof.
  intros l cm Hne. destruct l as [|q l']; [congruence|]. set (l := q :: l') in *. unfold cold. cbn beta iota.
  change (match l with [] => Ok NoScenes | _ :: _ => if negb (dates_sorted l) then Fail else
     ' (flagged, c) <- preprocess c2 l (mkCounts 0 0 0 0 0);;
     (if n_clear c <? 24 then r <- sparse fit saturated c2 junk flagged c;; Ok (SparseRes r)
      else R <- stand_procedure K P (length l) (select c2 flagged None) cm;; Ok (Standard R)) end)
   with (if negb (dates_sorted l) then Fail else
     ' (flagged, c) <- preprocess c2 l (mkCounts 0 0 0 0 0);;
     (if n_clear c <? 24 then r <- sparse fit saturated c2 junk flagged c;; Ok (SparseRes r)
      else R <- stand_procedure K P (length l) (select c2 flagged None) cm;; Ok (@Standard M D C R))).
  split.
  - intros Hu. apply dates_sorted_false in Hu. rewrite Hu. reflexivity.
  - intros Hu HF. assert (dates_sorted l = true) as ->.
    { destruct (dates_sorted l) eqn:E; [reflexivity|]. apply dates_sorted_false in E. contradiction. }
    cbn [negb]. destruct (preprocess_eq c2 l (mkCounts 0 0 0 0 0)) as [[_ E]|[HE E]].
    + rewrite E. cbn [bind]. eexists. eexists. split; reflexivity.
    + exfalso. apply Exists_exists in HE. destruct HE as (q0 & Hq & Hn). rewrite Forall_forall in HF. apply Hn, HF, Hq.
Qed.

(** The Python call then raises and returns nothing. *)
Theorem C01_cold_detect_unsorted : forall a l, unsorted l ->
  cold_detect K fit saturated P c2 junk a l = Fail.
Proof.
  intros a l Hu. unfold cold_detect. destruct l as [|q l'] eqn:El; [reflexivity|]. rewrite <- El in *.
  assert (Hs : cm_setup a l <> UB /\ cm_setup a l <> Fuel).
  { unfold cm_setup. destruct (a_on a); [|split; discriminate]. rewrite El.
    match goal with |- context [if ?b then Fail else _] => destruct b end; split; discriminate. }
  destruct (cm_setup a l) as [[cfg n]| | |]; cbn [bind]; try tauto.
  destruct (@C01_date_check l (repeat (-9999, -9999) n)) as [H _]; [congruence|].
  assert (H0 : forall P' cm, cold K fit saturated P' c2 junk l cm = Fail).
  { intros P' cm. unfold cold. rewrite El. rewrite <- El. apply dates_sorted_false in Hu. rewrite Hu. reflexivity. }
  rewrite H0. reflexivity.
Qed.
End C01.
Print Assumptions C01_date_check.
Print Assumptions C01_cold_detect_unsorted.

Example unsorted_case : unsorted [row_ 10 100 0; row_ 12 100 0; row_ 11 100 0].
Proof. exists [row_ 10 100 0], (row_ 12 100 0), (row_ 11 100 0), []. split; [reflexivity|simpl; lia]. Qed.
Example sorted_case : ~ unsorted [row_ 10 100 0; row_ 10 100 0; row_ 11 100 0].
Proof. intros H. apply dates_sorted_false in H. discriminate. Qed.
