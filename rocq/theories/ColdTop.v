(** End-to-end theorems about cold_detect: the front end, the sparse
    procedure and the state machine put together.  C04-C07, C09, C13, C14,
    C16. *)
From Verif Require Import Base SortModel LibModel ColdModel ColdSpec ColdLemmas ColdProof ColdProps
  FrontModel FrontProps SparseProps.

Set Implicit Arguments.

Section Top.
Variables M D C : Type.
Variable K : kernel M D.
Variable fit : list (Z * Z) -> option C.
Variable saturated : C.
Variable P : params.
Variable c2 : bool.
Variable junk : nat -> nat -> Z.
Notation cold_detect := (cold_detect K fit saturated P c2 junk).

Definition with_cm (cfg : option cmcfg) : params :=
  mkParams (p_tcg P) (p_tmax P) (p_nsign P) (p_cap P) (p_conse P) (p_gap P) (p_skip P) cfg.

(** The series handed to the state machine. *)
Lemma select_facts : forall l flags c, ~ unsorted l -> preprocess c2 l (mkCounts 0 0 0 0 0) = Ok (flags, c) ->
  asc (select c2 flags None) /\ zlen (select c2 flags None) <= zlen l /\
  (forall d, In d (map o_date (select c2 flags None)) -> In d (map q_date l)).
Proof.
  intros l flags c Hu Hp. destruct (@C02_selection c2 l flags c Hu Hp) as (ch & S1 & S2 & _ & S4).
  assert (E : map o_date (select c2 flags None) = map q_date ch).
  { clear - S4. induction S4; [reflexivity|]. cbn [map]. destruct H as [-> _]. rewrite IHS4. reflexivity. }
  unfold asc. rewrite E. split; [assumption|]. split.
  - apply subseq_length in S1. unfold zlen. rewrite <- (map_length o_date), E, map_length. lia.
  - intros d. apply subseq_In, subseq_map, S1.
Qed.

(** Everything cold can do. *)
Lemma cold_cases : forall P' l cm, 1 <= p_conse P' -> l <> [] ->
  cold K fit saturated P' c2 junk l cm = Fail \/
  (~ unsorted l /\ Forall (fun q => known_qa (q_qa q)) l /\
   exists flags c, preprocess c2 l (mkCounts 0 0 0 0 0) = Ok (flags, c) /\ n_clear c = qa_count [0; 1] l /\
   ((qa_count [0; 1] l < 24 /\
     exists r, cold K fit saturated P' c2 junk l cm = Ok (SparseRes r) /\ sparse fit saturated c2 junk flags c = Ok r /\
      forall s, r = Some s -> sparse_shape l s) \/
    (24 <= qa_count [0; 1] l /\ exists x, x = select c2 flags None /\ asc x /\ fuel_ok P' x (length l) /\
     (forall d, In d (map o_date x) -> In d (map q_date l)) /\
     cold K fit saturated P' c2 junk l cm =
       (R <- stand_procedure K P' (length l) x cm ;; Ok (Standard R))))).
Proof.
  intros P' l cm Hc Hl.
  destruct (dates_sorted l) eqn:Ed.
  2:{ left. apply (@C01_date_check M D C K fit saturated P' c2 junk l cm Hl). apply dates_sorted_false. assumption. }
  assert (Hu : ~ unsorted l) by (intros H; apply dates_sorted_false in H; congruence).
  destruct (preprocess_eq c2 l (mkCounts 0 0 0 0 0)) as [[HF E]|[HE E]].
  - destruct (@C01_date_check M D C K fit saturated P' c2 junk l cm Hl) as [_ H].
    destruct (H Hu HF) as (flags & c & Hp & Hcold). rewrite Hp in E. injection E as Ef Ec.
    assert (Hcl : n_clear c = qa_count [0; 1] l) by (rewrite Ec; unfold add_counts; cbn [n_clear]; lia).
    rewrite Hcl in Hcold.
    destruct (qa_count [0; 1] l <? 24) eqn:E24.
    + destruct (@sparse_ok C fit saturated c2 junk l flags c Hl Hp) as [Hs|(r & Hs & Hr)]; rewrite Hs in Hcold; [left; assumption|].
      right. split; [assumption|]. split; [assumption|]. exists flags, c. split; [assumption|]. split; [assumption|].
      left. split; [lia|]. exists r. split; [exact Hcold|]. split; [assumption|]. intros s Es. apply (Hr s Es).
    + right. split; [assumption|]. split; [assumption|]. exists flags, c. split; [assumption|]. split; [assumption|].
      right. split; [lia|]. exists (select c2 flags None). split; [reflexivity|].
      destruct (@select_facts l flags c Hu Hp) as (F1 & F2 & F3). split; [assumption|].
      split; [unfold fuel_ok, zlen in *; lia|]. split; assumption.
  - left. unfold cold. destruct l; [congruence|]. rewrite Ed. cbn [negb]. rewrite E. reflexivity.
Qed.

(** ** C04, C05, C13: cold_detect ends and stays inside its arrays *)

Theorem C04_cold_detect_terminates : forall a l, 1 <= p_conse P -> cold_detect a l <> Fuel.
Proof.
  intros a l Hc H. unfold FrontModel.cold_detect in H. destruct l as [|q l'] eqn:El; [discriminate|]. rewrite <- El in *.
  assert (Hl : l <> []) by (rewrite El; discriminate).
  destruct (cm_setup a l) as [[cfg n]| | |] eqn:Es; cbn [bind] in H; try discriminate.
  2:{ unfold cm_setup in Es. destruct (a_on a); [|discriminate]. rewrite El in Es.
      match type of Es with context [if ?b then Fail else _] => destruct b end; discriminate. }
  change (mkParams (p_tcg P) (p_tmax P) (p_nsign P) (p_cap P) (p_conse P) (p_gap P) (p_skip P) cfg) with (with_cm cfg) in H.
  destruct (@cold_cases (with_cm cfg) l (repeat (-9999, -9999) n) Hc Hl)
    as [E|(_ & _ & flags & c & _ & _ & [(_ & r & E & _)|(_ & x & _ & Hx & Hf & _ & E)])]; rewrite E in H; cbn [bind] in H.
  - discriminate.
  - match type of H with context [match ?m with [] => _ | _ => _ end] => destruct m end; discriminate.
  - destruct (stand_procedure K (with_cm cfg) (length l) x (repeat (-9999, -9999) n)) as [R| | |] eqn:ER; cbn [bind] in H; try discriminate.
    + match type of H with context [match ?m with [] => _ | _ => _ end] => destruct m end; discriminate.
    + exact (@C04_cold_terminates M D K (with_cm cfg) x (repeat (-9999, -9999) n) (length l) Hc Hx Hf ER).
Qed.

(** The CM arrays cover all dates: a positive interval, a starting date not
    after the first date, and enough entries for the last date. *)
Definition cm_covers (a : cmargs) (l : list raw) : Prop :=
  exists cfg n, cm_setup a l = Ok (Some cfg, n) /\ 0 < cm_int cfg /\
    forall d, In d (map q_date l) -> cm_start cfg <= d < cm_start cfg + cm_int cfg * Z.of_nat n.

Theorem C05_cold_detect_memory_safe : forall a l, 1 <= p_conse P ->
  (forall d d', In d (map q_date l) -> In d' (map q_date l) -> d' - d < 39 * 367) ->
  (a_on a = true -> cm_covers a l /\ forall an m, k_cm K an m <> None) ->
  cold_detect a l <> UB.
Proof.
  intros a l Hc Hspan Hcm H. unfold FrontModel.cold_detect in H. destruct l as [|q l'] eqn:El; [discriminate|]. rewrite <- El in *.
  assert (Hl : l <> []) by (rewrite El; discriminate).
  destruct (cm_setup a l) as [[cfg n]| | |] eqn:Es; cbn [bind] in H; try discriminate.
  2:{ unfold cm_setup in Es. destruct (a_on a); [|discriminate]. rewrite El in Es.
      match type of Es with context [if ?b then Fail else _] => destruct b end; discriminate. }
  change (mkParams (p_tcg P) (p_tmax P) (p_nsign P) (p_cap P) (p_conse P) (p_gap P) (p_skip P) cfg) with (with_cm cfg) in H.
  destruct (@cold_cases (with_cm cfg) l (repeat (-9999, -9999) n) Hc Hl)
    as [E|(_ & _ & flags & c & _ & _ & [(_ & r & E & _)|(_ & x & _ & Hx & Hf & Hin & E)])]; rewrite E in H; cbn [bind] in H.
  - discriminate.
  - match type of H with context [match ?m with [] => _ | _ => _ end] => destruct m end; discriminate.
  - destruct (stand_procedure K (with_cm cfg) (length l) x (repeat (-9999, -9999) n)) as [R| | |] eqn:ER; cbn [bind] in H; try discriminate.
    + match type of H with context [match ?m with [] => _ | _ => _ end] => destruct m end; discriminate.
    + revert ER. apply C05_cold_memory_safe; try assumption.
      * intros d d' Hd Hd'. apply Hspan; apply Hin; assumption.
      * cbn [with_cm p_cm]. destruct cfg as [cfg|]; [|exact I].
        assert (Hon : a_on a = true).
        { unfold cm_setup in Es. destruct (a_on a); [reflexivity|discriminate]. }
        destruct (Hcm Hon) as ((cfg' & n' & E1 & E2 & E3) & E4). rewrite Es in E1. injection E1 as <- <-.
        split; [lia|]. split; [assumption|]. intros d Hd. specialize (E3 d (Hin d Hd)).
        rewrite Z.quot_div_nonneg by lia. unfold zlen. rewrite repeat_length. split.
        -- apply Z.div_pos; lia.
        -- apply Z.div_lt_upper_bound; lia.
Qed.

(** First and last date of a sorted series. *)
Lemma sorted_bounds : forall q l d, ~ unsorted (q :: l) -> In d (map q_date (q :: l)) ->
  q_date q <= d <= q_date (last (q :: l) q).
Proof.
  intros q l d Hu Hd. apply unsorted_sorted in Hu. split.
  - cbn [map] in *. apply StronglySorted_inv in Hu. destruct Hu as [_ Hu]. destruct Hd as [<-|Hd]; [lia|].
    rewrite Forall_forall in Hu. apply Hu. assumption.
  - assert (E : forall (l : list raw) q, q_date (last l q) = last (map q_date l) (q_date q)).
    { clear. induction l as [|a l IH]; intros q; [reflexivity|]. destruct l as [|b l]; [reflexivity|].
      change (last (a :: b :: l) q) with (last (b :: l) q). rewrite IH. reflexivity. }
    assert (E' : forall (l : list Z) x y, l <> [] -> last l x = last l y).
    { clear. induction l as [|a l IH]; intros x y H; [congruence|]. destruct l as [|b l]; [reflexivity|].
      change (last (b :: l) x = last (b :: l) y). apply IH. discriminate. }
    rewrite E. rewrite (E' _ (q_date q) 0) by discriminate.
    apply sorted_last; assumption.
Qed.

(** C13: with the default number of entries, the interval defaulted or
    positive and the starting date defaulted or not after the first date,
    the arrays cover the series. *)
Theorem C13_default_covers : forall a q l, a_on a = true -> a_n a = 0 -> 0 <= a_int a ->
  (a_start a = 0 \/ a_start a <= q_date q) -> ~ unsorted (q :: l) -> cm_covers a (q :: l).
Proof.
  intros a q l Hon Hn Hi Hs Hu. unfold cm_covers, cm_setup. rewrite Hon, Hn. cbn [Z.eqb].
  set (int := if a_int a =? 0 then 60 else a_int a). assert (Hint : 0 < int) by (unfold int; destruct (a_int a =? 0) eqn:E; lia).
  set (start := if a_start a =? 0 then q_date q else a_start a).
  assert (Hst : start <= q_date q) by (unfold start; destruct (a_start a =? 0) eqn:E; lia).
  set (hi := q_date (last (q :: l) q)).
  assert (Hhi : q_date q <= hi) by (apply (@sorted_bounds q l (q_date q) Hu); left; reflexivity).
  assert (Hb : int * py_ceil (hi - start + 1) int >= hi - start + 1).
  { unfold py_ceil. pose proof (Z.mul_div_le (- (hi - start + 1)) int). lia. }
  assert (Hpos : 0 < py_ceil (hi - start + 1) int) by nia.
  replace (py_ceil (hi - start + 1) int + 1 <=? 0) with false by lia.
  eexists. eexists. split; [reflexivity|]. cbn [cm_int cm_start]. split; [assumption|].
  intros d Hd. pose proof (@sorted_bounds q l d Hu Hd). fold hi in H. rewrite Z2Nat.id by lia. nia.
Qed.

(** C13 for the tile-level values of reading_start_dates_nmaps: every pixel
    of the tile whose dates lie between the tile's first and last date. *)
Theorem C13_tile_covers : forall a q l start endd, a_on a = true ->
  0 < a_int a -> 0 < start -> a_start a = start -> a_n a = tile_n_cm start endd (a_int a) ->
  (forall d, In d (map q_date (q :: l)) -> start <= d <= endd) -> cm_covers a (q :: l).
Proof.
  intros a q l start endd Hon Hi Hs1 Hs Hn Hd. unfold cm_covers, cm_setup. rewrite Hon, Hs.
  replace (a_int a =? 0) with false by lia. replace (start =? 0) with false by lia.
  assert (Hse : start <= endd) by (specialize (Hd (q_date q) (or_introl eq_refl)); lia).
  assert (Hq : 0 <= (endd - start + 1) / a_int a) by (apply Z.div_pos; lia).
  assert (En : a_n a = (endd - start + 1) / a_int a + 1).
  { rewrite Hn. unfold tile_n_cm. rewrite Z.quot_div_nonneg by lia. reflexivity. }
  replace (a_n a =? 0) with false by lia. replace (a_n a <=? 0) with false by lia.
  eexists. eexists. split; [reflexivity|]. cbn [cm_int cm_start]. split; [assumption|].
  intros d Hin. specialize (Hd d Hin). rewrite Z2Nat.id by lia. rewrite En.
  pose proof (Z.mod_pos_bound (endd - start + 1) (a_int a)). pose proof (Z.div_mod (endd - start + 1) (a_int a)). nia.
Qed.

(** ** The records *)

(** What cold_detect returns. *)
Lemma detect_cases : forall a l rs cm, 1 <= p_conse P -> cold_detect a l = Ok (rs, cm) ->
  ~ unsorted l /\ Forall (fun q => known_qa (q_qa q)) l /\ rs <> [] /\
  exists cfg n, cm_setup a l = Ok (cfg, n) /\
  ((qa_count [0; 1] l < 24 /\ cm = repeat (-9999, -9999) n /\ exists s : srec C, sparse_shape l s /\
      rs = [mkO (sp_start s) (sp_end s) 0 (sp_nobs s) (sp_cat s) 0]) \/
   (24 <= qa_count [0; 1] l /\ exists x R, asc x /\ fuel_ok (with_cm cfg) x (length l) /\
      (forall d, In d (map o_date x) -> In d (map q_date l)) /\
      stand_procedure K (with_cm cfg) (length l) x (repeat (-9999, -9999) n) = Ok R /\ cm = res_cm R /\
      rs = map (fun r => mkO (t_start r) (t_end r) (t_break r) (num_obs r) (category r) (change_prob r)) (res_recs R))).
Proof.
  intros a l rs cm Hc H. unfold FrontModel.cold_detect in H. destruct l as [|q l'] eqn:El; [discriminate|]. rewrite <- El in *.
  assert (Hl : l <> []) by (rewrite El; discriminate).
  destruct (cm_setup a l) as [[cfg n]| | |] eqn:Es; cbn [bind] in H; try discriminate.
  change (mkParams (p_tcg P) (p_tmax P) (p_nsign P) (p_cap P) (p_conse P) (p_gap P) (p_skip P) cfg) with (with_cm cfg) in H.
  destruct (@cold_cases (with_cm cfg) l (repeat (-9999, -9999) n) Hc Hl)
    as [E|(Hu & HF & flags & c & _ & _ & [(Hlt & r & E & _ & Hr)|(Hge & x & _ & Hx & Hf & Hin & E)])]; rewrite E in H; cbn [bind] in H.
  - discriminate.
  - split; [assumption|]. split; [assumption|]. destruct r as [s|]; cbn [records cm_after] in H; [|discriminate].
    injection H as <- <-. split; [discriminate|]. exists cfg, n. split; [reflexivity|]. left. split; [assumption|].
    split; [reflexivity|]. exists s. split; [apply Hr; reflexivity|reflexivity].
  - split; [assumption|]. split; [assumption|].
    destruct (stand_procedure K (with_cm cfg) (length l) x (repeat (-9999, -9999) n)) as [R| | |] eqn:ER; cbn [bind] in H; try discriminate.
    destruct (records (Standard R)) as [|r0 rs0] eqn:Erec; [discriminate|]. injection H as <- <-. split; [discriminate|].
    exists cfg, n. split; [reflexivity|]. right. split; [assumption|]. exists x, R. rewrite <- Erec.
    split; [assumption|]. split; [assumption|]. split; [assumption|]. split; [assumption|]. split; reflexivity.
Qed.

(** C16: the procedure is chosen by the number of clear entries, and an empty
    result is an exception. *)
Theorem C16_procedure : forall a l rs cm, 1 <= p_conse P -> cold_detect a l = Ok (rs, cm) ->
  rs <> [] /\
  (qa_count [0; 1] l < 24 ->
     exists r, rs = [r] /\ (x_cat r = 44 \/ x_cat r = 54) /\ x_prob r = 0 /\ x_break r = 0 /\ 12 <= x_nobs r <= zlen l) /\
  (24 <= qa_count [0; 1] l -> Forall (fun r => In (x_cat r) [4; 6; 8; 14; 24]) rs).
Proof.
  intros a l rs cm Hc H. destruct (@detect_cases a l rs cm Hc H) as (Hu & HF & Hne & cfg & n & Es & [(Hlt & _ & s & Hs & ->)|(Hge & x & R & Hx & Hf & Hin & HR & _ & ->)]).
  - split; [discriminate|]. split; [|lia]. intros _. eexists. split; [reflexivity|]. cbn [x_cat x_prob x_break x_nobs].
    destruct Hs as (S1 & S2 & _). auto.
  - split; [assumption|]. split; [lia|]. intros _. apply Forall_forall. intros o Ho. apply in_map_iff in Ho.
    destruct Ho as (r & <- & Hr). cbn [x_cat].
    destruct (@C09_category M D K (with_cm cfg) x (repeat (-9999, -9999) n) (length l) R r Hc Hx Hf HR Hr)
      as [(E & _)|[(E & _)|[(E & _)|[(E & _)|(E & _)]]]]; rewrite E; simpl; auto 10.
Qed.

(** C09 end to end, with all category codes. *)
Theorem C09_all_categories : forall a l rs cm r, 1 <= p_conse P -> cold_detect a l = Ok (rs, cm) -> In r rs ->
  (x_cat r = 4 /\ 12 <= x_nobs r < 18) \/ (x_cat r = 6 /\ 18 <= x_nobs r < 24) \/ (x_cat r = 8 /\ 24 <= x_nobs r) \/
  (x_cat r = 14 /\ x_prob r = 100 /\ exists post, rs = r :: post) \/
  (x_cat r = 24 /\ exists pre, rs = pre ++ [r]) \/
  ((x_cat r = 44 \/ x_cat r = 54) /\ rs = [r] /\ 12 <= x_nobs r).
Proof.
  intros a l rs cm r Hc H Hr. destruct (@detect_cases a l rs cm Hc H) as (Hu & HF & Hne & cfg & n & Es & [(Hlt & _ & s & Hs & ->)|(Hge & x & R & Hx & Hf & Hin & HR & _ & ->)]).
  - destruct Hr as [<-|[]]. do 5 right. destruct Hs as (S1 & S2 & _). cbn [x_cat x_nobs]. split; [assumption|]. split; [reflexivity|lia].
  - apply in_map_iff in Hr. destruct Hr as (r0 & <- & Hr0). cbn [x_cat x_nobs x_prob].
    destruct (@C09_category M D K (with_cm cfg) x (repeat (-9999, -9999) n) (length l) R r0 Hc Hx Hf HR Hr0)
      as [(E & E1 & post & E2)|[(E & pre & E2)|[(E & E1)|[(E & E1)|(E & E1)]]]].
    + do 3 right. left. split; [assumption|]. split; [assumption|]. rewrite E2. cbn [map]. eexists. reflexivity.
    + do 4 right. left. split; [assumption|]. rewrite E2, map_app. cbn [map]. eexists. reflexivity.
    + left. auto.
    + right. left. auto.
    + right. right. left. auto.
Qed.

Lemma map_split2 : forall (A B : Type) (f : A -> B) l pre b1 b2 post, map f l = pre ++ b1 :: b2 :: post ->
  exists p a1 a2 q, l = p ++ a1 :: a2 :: q /\ b1 = f a1 /\ b2 = f a2.
Proof.
  intros A B f. induction l as [|a l IH]; intros pre b1 b2 post E; [destruct pre; discriminate|].
  destruct pre as [|b pre].
  - cbn [map app] in E. injection E as E1 E. destruct l as [|a' l]; [discriminate|]. injection E as E2 E.
    exists [], a, a', l. auto.
  - cbn [map app] in E. injection E as _ E. destruct (IH _ _ _ _ E) as (p & a1 & a2 & q & -> & E1 & E2).
    exists (a :: p), a1, a2, q. auto.
Qed.

(** C06 end to end: dates of the records. *)
Theorem C06_cold_detect : forall a l rs cm, 1 <= p_conse P -> cold_detect a l = Ok (rs, cm) ->
  Forall (fun r => x_start r <= x_end r /\ (x_break r <> 0 -> x_end r < x_break r) /\
                   In (x_start r) (map q_date l) /\ In (x_end r) (map q_date l) /\
                   (x_break r = 0 \/ In (x_break r) (map q_date l))) rs /\
  (forall pre r1 r2 post, rs = pre ++ r1 :: r2 :: post -> x_break r1 <= x_start r2).
Proof.
  intros a l rs cm Hc H. destruct (@detect_cases a l rs cm Hc H) as (Hu & HF & Hne & cfg & n & Es & [(Hlt & _ & s & Hs & ->)|(Hge & x & R & Hx & Hf & Hin & HR & _ & ->)]).
  - destruct Hs as (S1 & S2 & S3 & S4 & S5 & S6). split.
    + constructor; [|constructor]. cbn. repeat split; auto; try lia.
    + intros pre r1 r2 post E. exfalso. destruct pre as [|? [|? ?]]; discriminate.
  - destruct (@C06_records_ordered M D K (with_cm cfg) x (repeat (-9999, -9999) n) (length l) R Hc Hx Hf HR) as (A1 & A2 & A3).
    split.
    + rewrite Forall_map. rewrite Forall_forall in *. intros r Hr. specialize (A1 r Hr). specialize (A3 r Hr). cbn.
      destruct A3 as (B1 & B2 & B3). repeat split; try tauto; auto. destruct B3; auto.
    + intros pre r1 r2 post E. apply map_split2 in E. destruct E as (p & a1 & a2 & q & E & -> & ->). cbn.
      eapply A2. exact E.
Qed.

(** C07 end to end. *)
Theorem C07_cold_detect : forall a l rs cm, 1 <= p_conse P <= 100 -> (forall d, In d (map q_date l) -> 0 < d) ->
  cold_detect a l = Ok (rs, cm) ->
  (forall pre r r' post, rs = pre ++ r :: r' :: post -> x_prob r = 100 /\ In (x_break r) (map q_date l)) /\
  (forall pre r post, rs = pre ++ r :: post -> x_prob r <> 100 ->
     post = [] /\ 0 <= x_prob r < 100 /\ (x_break r <> 0 <-> 0 < x_prob r)).
Proof.
  intros a l rs cm Hc Hd H. assert (Hc' : 1 <= p_conse P) by lia.
  destruct (@detect_cases a l rs cm Hc' H) as (Hu & HF & Hne & cfg & n & Es & [(Hlt & _ & s & Hs & ->)|(Hge & x & R & Hx & Hf & Hin & HR & _ & ->)]).
  - split.
    + intros pre r r' post E. exfalso. destruct pre as [|? [|? ?]]; discriminate.
    + intros pre r post E Hp. destruct pre as [|? [|? ?]]; try discriminate. injection E as <- <-. cbn. split; [reflexivity|]. lia.
  - destruct (@C07_probability M D K (with_cm cfg) x (repeat (-9999, -9999) n) (length l) R Hc Hx Hf) as (A1 & A2); [intros; apply Hd, Hin; assumption|exact HR|].
    split.
    + intros pre r r' post E. apply map_split2 in E. destruct E as (p & a1 & a2 & q & E & -> & ->). cbn.
      destruct (A1 _ _ _ _ E). auto.
    + intros pre r post E Hp. apply map_eq_app in E. destruct E as (l1 & l2 & E & _ & E2).
      destruct l2 as [|r2 l2]; [discriminate|]. injection E2 as <- <-. cbn in *.
      destruct (A2 _ _ _ E Hp) as (-> & B2 & B3 & _). auto.
Qed.

(** ** C14 *)

(** Every CM entry is the initial fill or carries the date of an observation,
    which decodes correctly when it is in the range of a short. *)
Theorem C14_cm_dates : forall a l rs cm e, 1 <= p_conse P -> cold_detect a l = Ok (rs, cm) -> In e cm ->
  e = (-9999, -9999) \/
  exists d, In d (map q_date l) /\ snd e = wrap16 (d - 723742) /\
    (690974 <= d <= 756509 -> snd e + 723742 = d).
Proof.
  intros a l rs cm e Hc H He. destruct (@detect_cases a l rs cm Hc H) as (Hu & HF & Hne & cfg & n & Es & [(Hlt & -> & s & Hs & ->)|(Hge & x & R & Hx & Hf & Hin & HR & -> & ->)]).
  - left. apply repeat_spec in He. assumption.
  - destruct cfg as [c|].
    + apply (In_nth _ _ (0, 0)) in He. destruct He as (k & Hk & <-).
      destruct (@C12_cm_maximum M D K (with_cm (Some c)) x (repeat (-9999, -9999) n) (length l) R c 0 (0, 0) Hc Hx Hf eq_refl) as (L0 & _).
      { destruct n; [exfalso|unfold zlen; cbn [repeat length]; lia].
        unfold cm_setup in Es. destruct (a_on a); [|discriminate]. destruct l as [|q0 l0]; [discriminate|]. cbv zeta in Es.
        match type of Es with (if ?m <=? 0 then _ else _) = _ => set (m0 := m) in Es; clearbody m0 end.
        destruct (m0 <=? 0) eqn:Eb; [discriminate|]. inversion Es. lia. }
      { exact HR. }
      rewrite L0, repeat_length in Hk.
      destruct (@C12_cm_maximum M D K (with_cm (Some c)) x (repeat (-9999, -9999) n) (length l) R c (Z.of_nat k) (0, 0) Hc Hx Hf eq_refl) as (_ & L2 & L3).
      { unfold zlen. rewrite repeat_length. lia. }
      { exact HR. }
      rewrite Nat2Z.id in L3. destruct L3 as [[L3 _]|(pre & d & post & L3 & _ & L5 & _)].
      * left. rewrite L3. apply (@repeat_spec _ n (-9999, -9999)). apply nth_In. rewrite repeat_length. assumption.
      * right. exists d. assert (In d (map o_date x)).
        { assert (G : forall log, In (d, fst (nth k (res_cm R) (0, 0))) (cm_values c (Z.of_nat k) log) -> exists w v, In (@EvCM D d w v) log).
          { clear. induction log as [|ev log IH]; intros Hi; [contradiction|]. cbn [cm_values] in Hi.
            destruct ev as [d0 w0 v0|d0 w0 v0|d0 w0 v0]; try (destruct (IH Hi) as (w & v & G); exists w, v; right; assumption).
            destruct (bucket c d0 =? Z.of_nat k); [|destruct (IH Hi) as (w & v & G); exists w, v; right; assumption].
            apply in_app_or in Hi. destruct Hi as [Hi|[Hi|[]]].
            - destruct (IH Hi) as (w & v & G). exists w, v. right. assumption.
            - injection Hi as -> _. exists w0, v0. left. reflexivity. }
          destruct (G (res_log R)) as (w & v & Hev); [rewrite L3; apply in_elt|]. apply (L2 d w v Hev). }
        split; [auto|]. split; [exact L5|]. intros Hr. rewrite L5, wrap16_id by lia. lia.
    + left. destruct (@run_sound M D K (with_cm None) x (repeat (-9999, -9999) n) (length l) R Hc Hx Hf HR) as [_ _ [[_ Hent] _] _ _].
      cbn [with_cm p_cm] in Hent. rewrite Hent in He. apply repeat_spec in He. assumption.
Qed.
End Top.

(** ** Examples and witnesses *)

Fixpoint rows (n : nat) (v d0 s : Z) : list raw :=
  match n with O => [] | S n' => row_ d0 v 0 :: rows n' v (d0 + s) s end.
Definition run (a : cmargs) (l : list raw) : out (list orec * list (Z * Z)) :=
  cold_detect toy idfit [] (toyP None) true no_junk a l.
Definition cm_off : cmargs := mkCmArgs false 0 0 0.
Definition two_rows : list raw := rows 30 100 730000 16 ++ rows 30 110 730480 16.

Example run_detect : run cm_off two_rows =
  Ok ([mkO 730000 730464 730480 30 8 100; mkO 730480 730944 0 24 8 0], [(-9999, -9999)]).
Proof. vm_compute. reflexivity. Qed.
Example run_detect_cm : run (mkCmArgs true 0 0 320) two_rows =
  Ok ([mkO 730000 730464 730480 30 8 100; mkO 730480 730944 0 24 8 0],
      [(-9999, -9999); (10000, 6738); (0, 7122); (-9999, -9999)]).
Proof. vm_compute. reflexivity. Qed.
Example run_detect_sparse : run cm_off (ramp 15 1 4) = Ok ([mkO 1 15 0 15 44 0], [(-9999, -9999)]).
Proof. vm_compute. reflexivity. Qed.
Example run_detect_none : run cm_off (ramp 5 1 4) = Fail.
Proof. vm_compute. reflexivity. Qed.
Example covers_two : cm_covers (mkCmArgs true 0 0 320) two_rows.
Proof.
  apply C13_default_covers; cbn; auto; try lia. intros H. apply dates_sorted_false in H. vm_compute in H. discriminate.
Qed.
Example covers_tile : cm_covers (mkCmArgs true 729000 (tile_n_cm 729000 732000 60) 60) two_rows.
Proof.
  apply C13_tile_covers with (start := 729000) (endd := 732000); try reflexivity.
  intros d Hd. assert (F : forallb (fun d => (729000 <=? d) && (d <=? 732000)) (map q_date two_rows) = true) by (vm_compute; reflexivity).
  rewrite forallb_forall in F. specialize (F d Hd). lia.
Qed.

(** User-supplied values accepted by the validator that write outside the
    arrays: too few entries, a starting date after the data (a negative
    index), a negative interval (which has no validator constraint). *)
Theorem C13_user_n_refuted : exists a l, a_on a = true /\ 0 <= a_n a /\ 0 <= a_start a /\ 0 < a_int a /\ ~ unsorted l /\ run a l = UB.
Proof.
  exists (mkCmArgs true 0 1 320), two_rows. cbn [a_on a_n a_start a_int].
  repeat (split; [solve [reflexivity | lia]|]). split; [|vm_compute; reflexivity].
  intros H. apply dates_sorted_false in H. vm_compute in H. discriminate.
Qed.
Theorem C13_user_start_refuted : exists a l, a_on a = true /\ a_n a = 0 /\ 0 <= a_start a /\ 0 < a_int a /\ ~ unsorted l /\ run a l = UB.
Proof.
  exists (mkCmArgs true 730900 0 60), two_rows. cbn [a_on a_n a_start a_int].
  repeat (split; [solve [reflexivity | lia]|]). split; [|vm_compute; reflexivity].
  intros H. apply dates_sorted_false in H. vm_compute in H. discriminate.
Qed.
Theorem C13_user_interval_refuted : exists a l, a_on a = true /\ 0 <= a_n a /\ a_start a = 0 /\ ~ unsorted l /\ run a l = UB.
Proof.
  exists (mkCmArgs true 0 100 (-60)), two_rows. cbn [a_on a_n a_start a_int].
  repeat (split; [solve [reflexivity | lia]|]). split; [|vm_compute; reflexivity].
  intros H. apply dates_sorted_false in H. vm_compute in H. discriminate.
Qed.

(** C14 fails for dates more than 32767 days after the launch of Landsat 4. *)
Definition late_rows : list raw := rows 30 100 756500 16 ++ rows 30 110 756980 16.
Theorem C14_cm_dates_refuted : exists a l rs cm e, ~ unsorted l /\ run a l = Ok (rs, cm) /\ In e cm /\
  e <> (-9999, -9999) /\ ~ In (snd e + 723742) (map q_date l).
Proof.
  exists (mkCmArgs true 0 0 320), late_rows. eexists. eexists. exists (10000, -32298).
  split; [|split; [vm_compute; reflexivity|split; [cbn; tauto|split; [discriminate|]]]].
  - intros H. apply dates_sorted_false in H. vm_compute in H. discriminate.
  - vm_compute. intros H. repeat destruct H as [H|H]; try discriminate; contradiction.
Qed.

Print Assumptions C04_cold_detect_terminates.
Print Assumptions C05_cold_detect_memory_safe.
Print Assumptions C13_default_covers.
Print Assumptions C13_tile_covers.
Print Assumptions C16_procedure.
Print Assumptions C09_all_categories.
Print Assumptions C06_cold_detect.
Print Assumptions C07_cold_detect.
Print Assumptions C14_cm_dates.
Print Assumptions C13_user_n_refuted.
Print Assumptions C13_user_start_refuted.
Print Assumptions C13_user_interval_refuted.
Print Assumptions C14_cm_dates_refuted.
