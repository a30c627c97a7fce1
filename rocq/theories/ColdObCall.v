(** C125: the two entry points one after the other.  The break dates that
    cold (src/cxx/cold.c 84-213) returns with probability 100 are given to
    obcold_reconstruction_procedure (cold.c 5366-5899) for the same rows. *)
From Verif Require Import Base SortModel LibModel LibProps ColdModel ColdSpec ColdLemmas ColdProof ColdProps ColdProps3 ColdPass FrontModel FrontProps SparseProps ColdTop ObModel ObProps ObPass ObAgain ObCount ColdOb.
Set Implicit Arguments.

(** The number of dates from [b] on (cold.c 5601-5602 asks for six). *)
Definition since (b : Z) (ds : list Z) : Z := zlen (filter (Z.leb b) ds).

Lemma since_skip : forall b z seg after, ascending (seg ++ b :: after) -> b <= z -> since z (seg ++ b :: after) = since z (b :: after).
Proof.
  intros b z seg after Ha Hz. unfold since. rewrite filter_app. replace (filter (Z.leb z) seg) with (@nil Z); [reflexivity|].
  assert (Hl : forall d, In d seg -> d < b) by (intros d Hd; eapply asc_split; [exact Ha|exact Hd|now left]).
  clear - Hl Hz. induction seg as [|d seg IH]; [reflexivity|]. cbn [filter]. pose proof (Hl d ltac:(now left)). replace (z <=? d) with false by lia.
  apply IH. intros e He. apply Hl. now right.
Qed.
Lemma since_all : forall z ds, (forall d, In d ds -> z <= d) -> since z ds = zlen ds.
Proof.
  intros z ds H. unfold since. f_equal. induction ds as [|d ds IH]; [reflexivity|]. cbn [filter]. pose proof (H d ltac:(now left)). replace (z <=? d) with true by lia.
  f_equal. apply IH. intros e He. apply H. now right.
Qed.
Lemma pieces_in : forall bs ds b, pieces ds bs -> In b bs -> In b ds.
Proof.
  induction bs as [|c t IH]; intros ds b Hp Hb; [contradiction|]. destruct Hp as (seg & after & -> & _ & Hp).
  destruct Hb as [<-|Hb]; apply in_app_iff; right; [now left|]. eapply IH; eassumption.
Qed.
Lemma last_in : forall (l : list Z) d, l <> [] -> In (last l d) l.
Proof. induction l as [|a l IH]; intros d H; [congruence|]. destruct l as [|c l]; [now left|]. right. apply IH. discriminate. Qed.

Section Tail.
Variables M D : Type.
Variable K : okernel M D.
Variable conse : Z.
Hypothesis Hmask : forall w f, o_mask K w = Some f -> forall k, f k = false.
Hypothesis Hfar : forall m c o, o_far K m c o = false.

(** All breaks, then a record without a break if six observations are left. *)
Lemma rebuild_tail : forall bs n rest rs, asc rest -> Forall (fun d => 0 < d) (map o_date rest) -> pieces (map o_date rest) bs ->
  rebuild K conse n rest bs = Ok rs ->
  map (@b_break M D) rs = bs ++ (if 6 <=? since (last bs 0) (map o_date rest) then [0] else []).
Proof.
  induction bs as [|b t IH]; intros n rest rs Ha Hp Hpc H; cbn [rebuild] in H.
  - assert (Es : since 0 (map o_date rest) = zlen rest).
    { rewrite since_all; [unfold zlen; rewrite map_length; reflexivity|]. rewrite Forall_forall in Hp. intros d Hd. specialize (Hp d Hd). lia. }
    cbn [last app]. rewrite Es. destruct (zlen rest <? 6) eqn:E6; [injection H as <-; replace (6 <=? zlen rest) with false by lia; reflexivity|].
    replace (6 <=? zlen rest) with true by lia. destruct (40 <=? n); [discriminate|].
    apply bind_ok in H. destruct H as (r & Er & H). injection H as <-. unfold open_rec in Er. apply bind_ok in Er. destruct Er as (m & _ & Er). injection Er as <-. reflexivity.
  - destruct Hpc as (seg & after & E & H6 & Hpc).
    assert (Hl : length rest = (length seg + S (length after))%nat) by (rewrite <- (map_length o_date), E, app_length; reflexivity).
    assert (Hb : o_date (nth (length seg) rest dflt_obs) = b) by (rewrite <- nth_date, E, app_nth2, Nat.sub_diag by lia; reflexivity).
    assert (Hk : nearest b rest = length seg) by (rewrite <- Hb at 1; apply nearest_self; [exact Ha|lia]).
    assert (Hasc : ascending (seg ++ b :: after)) by (rewrite <- E; exact Ha).
    assert (Hge : forall d, In d (b :: after) -> b <= d).
    { intros d [<-|Hd]; [lia|]. pose proof (asc_right _ _ Hasc) as Hr. unfold ascending in Hr. apply StronglySorted_inv in Hr. destruct Hr as [_ Hr].
      rewrite Forall_forall in Hr. specialize (Hr d Hd). lia. }
    rewrite Hk in H. set (k := length seg) in *.
    assert (Hz : zlen (firstn k rest) = zlen seg) by (unfold zlen; rewrite firstn_length; unfold k; lia).
    replace (zlen (firstn k rest) <? 6) with false in H by lia. apply bind_ok in H. destruct H as (o & Et & H).
    apply (@trim_all M D K conse Hmask Hfar) in Et; [|lia]. subst o. destruct (40 <=? n); [discriminate|]. apply bind_ok in H. destruct H as (r & Er & H). apply bind_ok in H. destruct H as (rs' & Ers & H).
    injection H as <-. unfold closed_rec in Er. apply bind_ok in Er. destruct Er as (m & _ & Er). injection Er as <-.
    assert (Hs : map o_date (skipn k rest) = b :: after).
    { rewrite <- skipn_map, E. unfold k. rewrite skipn_app, skipn_all, Nat.sub_diag. reflexivity. }
    assert (Hp' : Forall (fun d => 0 < d) (map o_date (skipn k rest))).
    { rewrite Forall_forall in *. intros d Hd. apply Hp. rewrite <- (firstn_skipn k rest), map_app. apply in_app_iff. now right. }
    specialize (IH (n + 1) (skipn k rest) rs' (@asc_skipn _ k Ha) Hp'). rewrite Hs in IH. specialize (IH Hpc Ers).
    cbn [map b_break]. rewrite hd_skipn, Hb, IH. cbn [app]. f_equal. f_equal. rewrite E.
    assert (Es : since (last t 0) (b :: after) = since (last (b :: t) 0) (seg ++ b :: after)); [|rewrite Es; reflexivity].
    destruct t as [|c t].
    + cbn [last]. rewrite since_skip by (try lia; exact Hasc). rewrite !since_all; [reflexivity|exact Hge|].
      intros d Hd. rewrite Hs in Hp'. rewrite Forall_forall in Hp'. specialize (Hp' d Hd). lia.
    + change (last (b :: c :: t) 0) with (last (c :: t) 0). symmetry. apply since_skip; [exact Hasc|]. apply Hge. eapply pieces_in; [exact Hpc|]. apply last_in. discriminate.
Qed.
End Tail.

Section Calls.
Variables M D C M' D' C' : Type.
Variable K : kernel M D.
Variable P : params.
Variable fit : list (Z * Z) -> option C.
Variable saturated : C.
Variable Ko : okernel M' D'.
Variable fit' : list (Z * Z) -> option C'.
Variable saturated' : C'.
Variables (c2 snow : bool) (junk junk' : nat -> nat -> Z) (l : list raw) (cm : list (Z * Z)) (R : result M D) (conse : Z) (rs : list (brec M' D')).
Hypothesis Hc : 1 <= p_conse P.
Hypothesis Hconse : 1 <= conse.
Hypothesis Hd : forall d, In d (map q_date l) -> 366 <= d < 9999999.
Hypothesis HR : cold K fit saturated P c2 junk l cm = Ok (Standard R).
Hypothesis Hrs : obcold_reconstruct Ko conse fit' saturated' c2 snow junk' l (confirmed_breaks (res_recs R)) = Ok (ObSegments C' rs).

Lemma calls : exists x rs0, stand_procedure K P (length l) x cm = Ok R /\ asc x /\ fuel_ok P x (length l) /\
  asc (clear_series c2 l) /\ map o_date (clear_series c2 l) = map o_date x /\ (forall d, In d (map o_date x) -> 366 <= d < 9999999) /\
  confirmed_breaks (res_recs R) <> [] /\ pieces (map o_date (clear_series c2 l)) (confirmed_breaks (res_recs R)) /\
  rebuild Ko conse 0 (clear_series c2 l) (confirmed_breaks (res_recs R)) = Ok rs0 /\ rs0 <> [] /\ rs = reopened rs0.
Proof.
  assert (Hl : l <> []) by (intros ->; unfold obcold_reconstruct in Hrs; discriminate).
  destruct (@cold_cases M D C K fit saturated c2 junk P l cm Hc Hl)
    as [E|(Hu & HF & flags & c & Ep & _ & [(Hlt & r & E & _)|(Hge & x & Ex & Hx & Hf & Hin & E)])]; rewrite E in HR; try discriminate.
  apply bind_ok in HR. destruct HR as (R' & ER & HR'). injection HR' as ->.
  destruct (preprocess_eq c2 l (mkCounts 0 0 0 0 0)) as [[_ E2]|[_ E2]]; rewrite E2 in Ep; [|discriminate]. injection Ep as <- <-. rewrite select_mixed in Ex.
  assert (Hy : map o_date (clear_series c2 l) = map o_date x) by (subst x; unfold clear_series; rewrite !map_map; reflexivity).
  assert (Hdx : forall d, In d (map o_date x) -> 366 <= d < 9999999) by (intros d Hi; apply Hd, Hin; exact Hi).
  set (bs := confirmed_breaks (res_recs R)) in *.
  destruct (@C124_accepted M D K P x cm Hc Hx (length l) R Hf ER) as [Ha Hp]; [intros d Hi; specialize (Hdx _ Hi); lia|]. fold bs in Ha, Hp.
  assert (Hbn : bs <> []) by (intros Eb; unfold obcold_reconstruct in Hrs; rewrite Eb in Hrs; destruct l; discriminate).
  assert (Hbx : forall b, In b bs -> 366 <= b < 9999999) by (intros b Hb; apply Hdx; eapply pieces_in; eassumption).
  assert (Hss : StronglySorted Z.le bs).
  { rewrite <- Ha. clear. generalize bs. intros q. assert (G : forall q last, Forall (fun d => last <= d) (accepted last q) /\ StronglySorted Z.le (accepted last q)).
    { clear. induction q as [|d t IH]; intros last; [split; constructor|]. cbn [accepted]. destruct (last + 366 <=? d) eqn:E; [|apply IH].
      destruct (IH d) as [I1 I2]. split; constructor; [lia| |exact I2|exact I1]. eapply Forall_impl; [|exact I1]. cbn. intros. lia. }
    apply G. }
  destruct (@C120_records M' D' C' Ko conse fit' saturated' c2 snow junk' l bs bs rs Hconse) as (rs0 & R0 & N0 & E0); try assumption.
  - apply Forall_forall. intros b Hb. specialize (Hbx b Hb). lia.
  - intros _ En. rewrite En in Hy. destruct bs as [|b t]; [congruence|]. rewrite <- Hy in Hp. destruct Hp as (seg & after & Eq & _). destruct seg; discriminate.
  - intros b d Hb Hi. specialize (Hbx b Hb). specialize (Hd _ Hi). lia.
  - apply Permutation_refl.
  - rewrite Ha in R0. exists x, rs0. rewrite Hy. repeat (split; [first [reflexivity|assumption|unfold asc; rewrite Hy; exact Hx]|]). exact E0.
Qed.

Lemma reopened_cuts : forall (q : list (brec M' D')), subseq (filter (fun d => 0 <? d) (map (@b_break M' D') (reopened q))) (filter (fun d => 0 <? d) (map (@b_break M' D') q)).
Proof.
  intros q. destruct q as [|r q] using rev_ind; [constructor|]. clear IHq. rewrite reopened_snoc, !map_app, !filter_app. cbn [map b_break filter Z.ltb Z.compare]. rewrite app_nil_r.
  generalize (filter (fun d => 0 <? d) (map (@b_break M' D') q)). intros a. induction a as [|d a IH]; [constructor|]. cbn [app]. now apply sub_keep.
Qed.

(** C125: every break of the reconstruction is a confirmed break of the
    detection, at its date. *)
Theorem C125_subset : subseq (filter (fun d => 0 <? d) (map (@b_break M' D') rs)) (confirmed_breaks (res_recs R)).
Proof.
  destruct calls as (x & rs0 & _ & _ & _ & Hay & Hy & Hdx & _ & Hp & R0 & _ & ->). eapply subseq_trans; [apply reopened_cuts|].
  apply (@rebuild_some M' D' Ko conse _ 0 (clear_series c2 l) rs0 Hay); [|exact Hp|exact R0].
  apply Forall_forall. rewrite Hy. intros d Hi. specialize (Hdx _ Hi). lia.
Qed.

Section Clean.
Hypothesis Hmask : forall w f, o_mask Ko w = Some f -> forall k, f k = false.
Hypothesis Hfar : forall m c o, o_far Ko m c o = false.

(** C125: without outliers all of them come back if six clear observations
    follow the last one; otherwise all but the last. *)
Theorem C125_breaks : map (@b_break M' D') rs =
  (if 6 <=? since (last (confirmed_breaks (res_recs R)) 0) (map o_date (clear_series c2 l)) then confirmed_breaks (res_recs R)
   else removelast (confirmed_breaks (res_recs R))) ++ [0].
Proof.
  destruct calls as (x & rs0 & _ & _ & _ & Hay & Hy & Hdx & Hbn & Hp & R0 & N0 & ->).
  apply (@rebuild_tail M' D' Ko conse Hmask Hfar) in R0; [|exact Hay| |exact Hp].
  - set (bs := confirmed_breaks (res_recs R)) in *. destruct (exists_last N0) as (q & r & ->). rewrite reopened_snoc, map_app. rewrite map_app in R0. cbn [map b_break] in *. f_equal.
    destruct (6 <=? _).
    + apply app_inj_tail in R0. apply R0.
    + rewrite app_nil_r in R0. rewrite <- R0, removelast_last. reflexivity.
  - apply Forall_forall. rewrite Hy. intros d Hi. specialize (Hdx _ Hi). lia.
Qed.

(** C125: a break found by monitoring has [conse] observations behind it, so
    that with six or more nothing is lost. *)
Theorem C125_all : forall r, p_tcg P < p_cap P -> 6 <= p_conse P -> In r (res_recs R) -> change_prob r = 100 -> category r <> 14 ->
  last (confirmed_breaks (res_recs R)) 0 = t_break r -> map (@b_break M' D') rs = confirmed_breaks (res_recs R) ++ [0].
Proof.
  intros r Hcap H6 Hr Hpr Hcat Hlast. rewrite C125_breaks, Hlast. destruct calls as (x & rs0 & ER & Hx & Hf & _ & Hy & _).
  destruct (@C08_break_rule M D K P x cm (length l) R Hc Hx Hf Hcap ER) as (B1 & B2 & _).
  assert (Hin : In (t_break r) (confirmed_dates (res_log R))).
  { rewrite B2. unfold regular_breaks. apply in_map_iff. exists r. split; [reflexivity|]. apply filter_In. split; [exact Hr|]. lia. }
  assert (Hev : exists w, In (EvMon (t_break r) w true) (res_log R)).
  { clear - Hin. induction (res_log R) as [|e t IH]; [contradiction|]. cbn [confirmed_dates] in Hin.
    assert (G : In (t_break r) (confirmed_dates t) -> exists w, In (EvMon (t_break r) w true) (e :: t)) by (intros G; destruct (IH G) as (w & Hw); exists w; now right).
    destruct e as [|d w v|]; auto. destruct v; auto. apply in_app_iff in Hin. destruct Hin as [Hin|[<-|[]]]; [auto|]. exists w. now left. }
  destruct Hev as (w & Hw). destruct (B1 _ _ _ Hw) as (W1 & (o & e & t & Ew & Eo) & W2 & _).
  assert (Hs : p_conse P <= since (t_break r) (map o_date x)).
  { rewrite <- W1. apply (subseq_map o_date) in W2. rewrite map_map in W2. assert (Ha : ascending (map (fun p => o_date (fst p)) w)) by (eapply subseq_ascending; [exact W2|exact Hx]).
    unfold since. replace (zlen w) with (zlen (filter (Z.leb (t_break r)) (map (fun p => o_date (fst p)) w))).
    - clear - W2. induction W2; cbn [filter]; [| |]; repeat match goal with |- context [if ?c then _ else _] => destruct c end; unfold zlen in *; cbn [length] in *; lia.
    - change (since (t_break r) (map (fun p => o_date (fst p)) w) = zlen w). rewrite since_all; [unfold zlen; rewrite map_length; reflexivity|].
      rewrite Ew in *. cbn [map fst] in *. rewrite Eo in *. unfold ascending in Ha. apply StronglySorted_inv in Ha. destruct Ha as [_ Ha]. rewrite Forall_forall in Ha.
      intros d [<-|Hi]; [lia|]. specialize (Ha d Hi). lia. }
  rewrite Hy. replace (6 <=? since (t_break r) (map o_date x)) with true by lia. reflexivity.
Qed.
End Clean.
End Calls.

(** cold.c 84-213, then obcold_reconstruction_procedure. *)
Definition both_calls (c : Z) (l : list raw) : list (list Z) :=
  match cold toy idfit [] (mkParams 15 30 45 9999 c 365 (fun n => n / 10) None) true no_junk l [] with
  | Ok (Standard R) =>
      match obcold_reconstruct okay c idfit [] true false no_junk l (confirmed_breaks (res_recs R)) with
      | Ok (ObSegments _ rs) => confirmed_breaks (res_recs R) :: map (fun r => [b_start r; b_break r; zlen (b_win r)]) rs
      | _ => []
      end
  | _ => []
  end.
Definition few_rows : list raw := every 30 16 730000 100 ++ every 4 16 730480 110.
(** Two levels, thirty observations each: the break returns.  With [conse] 4
    and four observations on the second level it is found, but the four are
    too few for a record, and the reconstruction has no break. *)
Example calls_two : both_calls 6 two_rows = [[730480]; [730000; 730480; 30]; [730480; 0; 30]].
Proof. vm_compute. reflexivity. Qed.
Example calls_few : both_calls 4 few_rows = [[730480]; [730000; 0; 30]] /\ since 730480 (map o_date (clear_series true few_rows)) = 4.
Proof. vm_compute. auto. Qed.
Example calls_dates : forall d, In d (map q_date two_rows) \/ In d (map q_date few_rows) -> 366 <= d < 9999999.
Proof.
  assert (E1 : map q_date two_rows = map (fun k => 730000 + 16 * Z.of_nat k) (seq 0 60)) by (vm_compute; reflexivity).
  assert (E2 : map q_date few_rows = map (fun k => 730000 + 16 * Z.of_nat k) (seq 0 34)) by (vm_compute; reflexivity).
  rewrite E1, E2. intros d [H|H]; apply in_map_iff in H; destruct H as (k & <- & Hk); apply in_seq in Hk; lia.
Qed.
(** C125: with fewer than six consecutive observations a confirmed break can
    be lost although there are no outliers. *)
Theorem C125_small_conse_refuted : exists c l R rs, 1 <= c /\ (forall d, In d (map q_date l) -> 366 <= d < 9999999) /\
  cold toy idfit [] (mkParams 15 30 45 9999 c 365 (fun n => n / 10) None) true no_junk l [] = Ok (Standard R) /\
  obcold_reconstruct okay c idfit [] true false no_junk l (confirmed_breaks (res_recs R)) = Ok (ObSegments _ rs) /\
  (forall w f, o_mask okay w = Some f -> forall k, f k = false) /\ (forall m c o, o_far okay m c o = false) /\
  confirmed_breaks (res_recs R) = [730480] /\ map (@b_break Z Z) rs = [0].
Proof.
  exists 4, few_rows. eexists. eexists. split; [lia|]. split; [intros d Hi; apply calls_dates; now right|].
  split; [vm_compute; reflexivity|]. split; [vm_compute; reflexivity|]. split; [intros w f E k; injection E as <-; reflexivity|]. split; [reflexivity|]. vm_compute. auto.
Qed.
Print Assumptions C125_small_conse_refuted.
Print Assumptions C125_subset.
Print Assumptions C125_breaks.
Print Assumptions C125_all.
