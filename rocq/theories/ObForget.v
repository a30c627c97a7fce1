(** C126: after a break obcold_reconstruct depends only on the observations
    from the break on (src/cxx/cold.c 5366-5899). *)
From Verif Require Import Base SortModel LibModel LibProps ColdModel ColdSpec ColdLemmas ColdPass FrontModel FrontProps SparseProps ObModel ObProps ObPass ObAgain.
Set Implicit Arguments.

Lemma split_two : forall (A : Type) (p1 : list A) x1 s1 p2 x2 s2, p1 ++ x1 :: s1 = p2 ++ x2 :: s2 ->
  s1 = s2 \/ (exists mid, s1 = mid ++ x2 :: s2) \/ (exists mid, s2 = mid ++ x1 :: s1).
Proof.
  induction p1 as [|a p1 IH]; intros x1 s1 p2 x2 s2 E; destruct p2 as [|c p2]; cbn [app] in E.
  - injection E as _ ->. now left.
  - injection E as _ ->. right. left. now exists p2.
  - injection E as _ <-. right. right. now exists p1.
  - injection E as _ E. eapply IH. exact E.
Qed.
Lemma near_zero : forall z u v, asc z -> z <> [] -> nearest v z = 0%nat -> u <= v -> nearest u z = 0%nat.
Proof.
  intros z u v Ha Hz Hv Hu. pose proof (nearest_first u Hz) as N1. pose proof (nearest_first v Hz) as N2. rewrite Hv in N2.
  pose proof (@nearest_mono _ _ _ _ _ Ha N1 N2 Hu). lia.
Qed.
Lemma near_tail : forall a z v, z <> [] -> nearest v (a ++ z) = length a -> nearest v z = 0%nat.
Proof.
  intros a z v Hz Hn. assert (Haz : a ++ z <> []) by (destruct a; [exact Hz|discriminate]). pose proof (nearest_first v Haz) as (N1 & N2 & _). rewrite Hn in *.
  assert (N0 : first_nearest (map o_date z) v 0).
  { split; [rewrite map_length; destruct z; [congruence|cbn; lia]|]. split; [|lia]. intros j Hj. rewrite map_length in Hj.
    specialize (N2 (length a + j)%nat). rewrite map_app, app_length, !map_length in N2. specialize (N2 ltac:(lia)).
    rewrite !app_nth2 in N2 by (rewrite map_length; lia). rewrite map_length in N2. replace (length a - length a)%nat with 0%nat in N2 by lia. replace (length a + j - length a)%nat with j in N2 by lia. exact N2. }
  eapply nearest_unique; [apply nearest_first; exact Hz|exact N0].
Qed.
Lemma asc_unique : forall l i j, asc l -> (i < length l)%nat -> (j < length l)%nat -> o_date (nth i l dflt_obs) = o_date (nth j l dflt_obs) -> i = j.
Proof. intros l i j Ha Hi Hj E. rewrite <- (nearest_self Ha Hi), <- (nearest_self Ha Hj), E. reflexivity. Qed.

Section Forget.
Variables M D : Type.
Variable K : okernel M D.
Variable conse : Z.
Notation rebuild := (rebuild K conse).

Lemma rebuild_n : forall bs n n' rest r1 r2, rebuild n rest bs = Ok r1 -> rebuild n' rest bs = Ok r2 -> r1 = r2.
Proof.
  induction bs as [|b t IH]; intros n n' rest r1 r2 H1 H2; cbn [ObPass.rebuild] in *.
  - destruct (zlen rest <? 6); [congruence|]. destruct (40 <=? n); [discriminate|]. destruct (40 <=? n'); [discriminate|]. congruence.
  - destruct (zlen (firstn (nearest b rest) rest) <? 6); [eapply IH; eassumption|].
    apply bind_ok in H1. destruct H1 as (o & E & H1). rewrite E in H2. cbn [bind] in H2. destruct o as [w|]; [|eapply IH; eassumption].
    destruct (40 <=? n); [discriminate|]. destruct (40 <=? n'); [discriminate|].
    apply bind_ok in H1. destruct H1 as (r & E1 & H1). rewrite E1 in H2. cbn [bind] in H2.
    apply bind_ok in H1. destruct H1 as (q1 & Q1 & H1). apply bind_ok in H2. destruct H2 as (q2 & Q2 & H2). injection H1 as <-. injection H2 as <-.
    f_equal. eapply IH; eassumption.
Qed.
Lemma rebuild_skip : forall mid n z bs, (forall u, In u mid -> nearest u z = 0%nat) -> rebuild n z (mid ++ bs) = rebuild n z bs.
Proof.
  induction mid as [|u mid IH]; intros n z bs H; [reflexivity|]. cbn [app ObPass.rebuild]. rewrite (H u) by now left. cbn [firstn].
  change (zlen (@nil obs) <? 6) with true. cbn iota. apply IH. intros v Hv. apply H. now right.
Qed.
Lemma rebuild_breaks_in : forall bs n rest rs r, rebuild n rest bs = Ok rs -> In r rs -> b_break r = 0 \/ In (b_break r) (map o_date rest).
Proof.
  induction bs as [|b t IH]; intros n rest rs r H Hr; cbn [ObPass.rebuild] in *.
  - destruct (zlen rest <? 6); [injection H as <-; contradiction|]. destruct (40 <=? n); [discriminate|].
    apply bind_ok in H. destruct H as (r' & Er & H). injection H as <-. destruct Hr as [<-|[]]. unfold open_rec in Er. apply bind_ok in Er. destruct Er as (m & _ & Er). injection Er as <-. now left.
  - destruct (zlen (firstn (nearest b rest) rest) <? 6) eqn:E6; [eapply IH; eassumption|].
    apply bind_ok in H. destruct H as (o & Et & H). destruct o as [w|]; [|eapply IH; eassumption].
    destruct (40 <=? n); [discriminate|]. apply bind_ok in H. destruct H as (r' & Er & H). apply bind_ok in H. destruct H as (rs' & Ers & H). injection H as <-.
    destruct Hr as [<-|Hr].
    + right. unfold closed_rec in Er. apply bind_ok in Er. destruct Er as (m & _ & Er). injection Er as <-. cbn [b_break]. rewrite hd_skipn. apply in_map, nth_In, nearest_lt.
      intros ->. destruct (nearest b []); discriminate.
    + destruct (IH _ _ _ _ Ers Hr) as [H0|Hi]; [now left|]. right. rewrite <- (firstn_skipn (nearest b rest) rest), map_app. apply in_app_iff. now right.
Qed.

(** The run from the first record with break [b] on. *)
Lemma rebuild_at : forall bs n a o z rs, asc (a ++ o :: z) -> 0 < o_date o -> rebuild n (a ++ o :: z) bs = Ok rs -> In (o_date o) (map (@b_break M D) rs) ->
  exists pre u bs' p r q n', bs = pre ++ u :: bs' /\ nearest u (o :: z) = 0%nat /\ rs = p ++ r :: q /\ b_break r = o_date o /\
    ~ In (o_date o) (map (@b_break M D) p) /\ rebuild n' (o :: z) bs' = Ok q.
Proof.
  induction bs as [|b t IH]; intros n a o z rs Ha H0 H Hin; cbn [ObPass.rebuild] in H.
  - exfalso. destruct (zlen (a ++ o :: z) <? 6); [injection H as <-; contradiction|]. destruct (40 <=? n); [discriminate|].
    apply bind_ok in H. destruct H as (r' & Er & H). injection H as <-. unfold open_rec in Er. apply bind_ok in Er. destruct Er as (m & _ & Er). injection Er as <-.
    destruct Hin as [Hin|[]]. cbn [b_break] in Hin. lia.
  - assert (Hskip : rebuild n (a ++ o :: z) t = Ok rs -> exists pre u bs' p r q n', b :: t = pre ++ u :: bs' /\ nearest u (o :: z) = 0%nat /\ rs = p ++ r :: q /\ b_break r = o_date o /\
      ~ In (o_date o) (map (@b_break M D) p) /\ rebuild n' (o :: z) bs' = Ok q).
    { intros G. destruct (IH n a o z rs Ha H0 G Hin) as (pre & u & bs' & p & r & q & n' & -> & G'). exists (b :: pre), u, bs', p, r, q, n'. split; [reflexivity|exact G']. }
    set (rest := a ++ o :: z) in *. set (k := nearest b rest) in *.
    assert (Hne : rest <> []) by (unfold rest; destruct a; discriminate). pose proof (nearest_lt b Hne) as Hk. fold k in Hk.
    assert (Hlen : length rest = (length a + S (length z))%nat) by (unfold rest; rewrite app_length; reflexivity).
    assert (Ho : nth (length a) rest dflt_obs = o) by (unfold rest; rewrite app_nth2, Nat.sub_diag by lia; reflexivity).
    destruct (zlen (firstn k rest) <? 6); [auto|]. apply bind_ok in H. destruct H as (w0 & Et & H). destruct w0 as [w|]; [|auto].
    destruct (40 <=? n); [discriminate|]. apply bind_ok in H. destruct H as (r' & Er & H). apply bind_ok in H. destruct H as (rs' & Ers & H). injection H as <-.
    assert (Hb : b_break r' = o_date (nth k rest dflt_obs)).
    { unfold closed_rec in Er. apply bind_ok in Er. destruct Er as (m & _ & Er). injection Er as <-. cbn [b_break]. rewrite hd_skipn. reflexivity. }
    destruct (Nat.eq_dec k (length a)) as [Ek|Nk].
    + exists [], b, t, [], r', rs', (n + 1). split; [reflexivity|]. split; [apply (@near_tail a); [discriminate|exact Ek]|]. split; [reflexivity|].
      split; [rewrite Hb, Ek, Ho; reflexivity|]. split; [intros []|]. rewrite Ek in Ers. unfold rest in Ers. rewrite skipn_app, skipn_all, Nat.sub_diag in Ers. exact Ers.
    + assert (Hnb : b_break r' <> o_date o).
      { rewrite Hb. intros E. apply Nk. apply (@asc_unique rest); [exact Ha|exact Hk|lia|]. rewrite Ho. exact E. }
      cbn [map] in Hin. destruct Hin as [Hin|Hin]; [congruence|].
      assert (Hle : (k < length a)%nat).
      { apply in_map_iff in Hin. destruct Hin as (q & Eq & Hq). destruct (@rebuild_breaks_in _ _ _ _ _ Ers Hq) as [Hz|Hi]; [lia|].
        rewrite Eq in Hi. apply in_map_iff in Hi. destruct Hi as (o' & Eo & Hi). apply (In_nth _ _ dflt_obs) in Hi. destruct Hi as (j & Hj & Ej).
        rewrite skipn_length in Hj. rewrite nth_skipn in Ej. assert (k + j = length a)%nat; [|lia].
        apply (@asc_unique rest); [exact Ha|lia|lia|]. rewrite Ho, Ej. exact Eo. }
      assert (Es : skipn k rest = skipn k a ++ o :: z).
      { unfold rest. rewrite skipn_app. replace (k - length a)%nat with 0%nat by lia. reflexivity. }
      rewrite Es in Ers. destruct (IH (n + 1) (skipn k a) o z rs') as (pre & u & bs' & p & r & q & n' & -> & G1 & -> & G2 & G3 & G4); [|exact H0|exact Ers|exact Hin|].
      { rewrite <- Es. apply asc_skipn. exact Ha. }
      exists (b :: pre), u, bs', (r' :: p), r, q, n'. split; [reflexivity|]. split; [exact G1|]. split; [reflexivity|]. split; [exact G2|]. split; [|exact G4].
      intros [Hi|Hi]; [congruence|contradiction].
Qed.

(** C126 for the segment loop: two series that agree from the break on. *)
Lemma rebuild_forget : forall bs a1 a2 o z rs1 rs2, StronglySorted Z.le bs -> asc (a1 ++ o :: z) -> asc (a2 ++ o :: z) -> 0 < o_date o ->
  rebuild 0 (a1 ++ o :: z) bs = Ok rs1 -> rebuild 0 (a2 ++ o :: z) bs = Ok rs2 ->
  In (o_date o) (map (@b_break M D) rs1) -> In (o_date o) (map (@b_break M D) rs2) ->
  exists p1 r1 p2 r2 q, rs1 = p1 ++ r1 :: q /\ rs2 = p2 ++ r2 :: q /\ b_break r1 = o_date o /\ b_break r2 = o_date o /\
    ~ In (o_date o) (map (@b_break M D) p1) /\ ~ In (o_date o) (map (@b_break M D) p2).
Proof.
  intros bs a1 a2 o z rs1 rs2 Hs A1 A2 H0 R1 R2 I1 I2.
  destruct (@rebuild_at _ _ _ _ _ _ A1 H0 R1 I1) as (pre1 & u1 & s1 & p1 & r1 & q1 & n1 & E1 & U1 & -> & B1 & N1 & Q1).
  destruct (@rebuild_at _ _ _ _ _ _ A2 H0 R2 I2) as (pre2 & u2 & s2 & p2 & r2 & q2 & n2 & E2 & U2 & -> & B2 & N2 & Q2).
  assert (Hz : asc (o :: z)) by (replace (o :: z) with (skipn (length a1) (a1 ++ o :: z)) by (rewrite skipn_app, skipn_all, Nat.sub_diag; reflexivity); apply asc_skipn; exact A1).
  assert (Hmid : forall pre u v mid s, StronglySorted Z.le (pre ++ u :: mid ++ v :: s) -> nearest v (o :: z) = 0%nat -> forall n, rebuild n (o :: z) (mid ++ v :: s) = rebuild n (o :: z) s).
  { intros pre u v mid s Hss Hv n. change (mid ++ v :: s) with (mid ++ [v] ++ s). rewrite app_assoc. apply rebuild_skip. intros w Hw.
    apply (@near_zero _ w v Hz ltac:(discriminate) Hv). apply in_app_iff in Hw. destruct Hw as [Hw|[<-|[]]]; [|lia].
    clear - Hss Hw. induction pre as [|c pre IH]; [|apply StronglySorted_inv in Hss; apply IH, Hss]. cbn [app] in Hss. apply StronglySorted_inv in Hss. destruct Hss as [Hss _].
    induction mid as [|c mid IH]; [contradiction|]. cbn [app] in Hss. apply StronglySorted_inv in Hss. destruct Hss as [Hss Hf]. destruct Hw as [->|Hw]; [|apply IH; assumption].
    rewrite Forall_forall in Hf. apply Hf. apply in_app_iff. right. now left. }
  assert (q1 = q2) as ->.
  { rewrite E1 in Hs, E2. destruct (split_two _ _ _ _ _ _ E2) as [->|[(mid & ->)|(mid & ->)]].
    - eapply rebuild_n; eassumption.
    - rewrite (Hmid _ _ _ _ _ Hs U2) in Q1. eapply rebuild_n; eassumption.
    - rewrite E2 in Hs. rewrite (Hmid _ _ _ _ _ Hs U1) in Q2. eapply rebuild_n; eassumption. }
  exists p1, r1, p2, r2, q2. auto 10.
Qed.
End Forget.

Section Whole.
Variables M D C : Type.
Variable K : okernel M D.
Variable conse : Z.
Variable fit : list (Z * Z) -> option C.
Variable saturated : C.
Hypothesis Hconse : 1 <= conse.
Notation call := (obcold_reconstruct K conse fit saturated).

Lemma reopened_app : forall (p q : list (brec M D)), q <> [] -> reopened (p ++ q) = p ++ reopened q.
Proof. intros p q H. destruct (exists_last H) as (t & r & ->). rewrite app_assoc, !reopened_snoc, app_assoc. reflexivity. Qed.

(** C126: two pixels whose clear observations agree from day [b] on, both with
    a record broken at [b]: all later records agree. *)
Theorem C126_forget : forall c2 snow1 snow2 junk1 junk2 l1 l2 bs a1 a2 o z rs1 rs2, usable c2 l1 bs -> usable c2 l2 bs ->
  clear_series c2 l1 = a1 ++ o :: z -> clear_series c2 l2 = a2 ++ o :: z -> 0 < o_date o ->
  call c2 snow1 junk1 l1 bs = Ok (ObSegments C rs1) -> call c2 snow2 junk2 l2 bs = Ok (ObSegments C rs2) ->
  In (o_date o) (map (@b_break M D) rs1) -> In (o_date o) (map (@b_break M D) rs2) ->
  exists p1 r1 p2 r2 q, rs1 = p1 ++ r1 :: q /\ rs2 = p2 ++ r2 :: q /\ b_break r1 = o_date o /\ b_break r2 = o_date o /\ q <> [].
Proof.
  intros c2 snow1 snow2 junk1 junk2 l1 l2 bs a1 a2 o z rs1 rs2 (Hb & Hx1 & Hn1) (_ & Hx2 & Hn2) Z1 Z2 H0 C1 C2 I1 I2.
  assert (Hbn : bs <> []) by (intros ->; unfold obcold_reconstruct in C1; destruct l1; discriminate).
  destruct (C18_accepted Hbn Hb) as (s & _ & Hp & Hss & _).
  pose proof (@reconstruct_cases M D C K conse fit saturated c2 snow1 junk1 l1 bs Hconse Hb Hx1 Hn1) as G1. rewrite C1 in G1. destruct G1 as (_ & A1 & _).
  pose proof (@reconstruct_cases M D C K conse fit saturated c2 snow2 junk2 l2 bs Hconse Hb Hx2 Hn2) as G2. rewrite C2 in G2. destruct G2 as (_ & A2 & _).
  destruct (@C120_records M D C K conse fit saturated c2 snow1 junk1 l1 bs s rs1 Hconse Hb Hx1 Hn1 Hp Hss C1) as (q1 & R1 & _ & ->).
  destruct (@C120_records M D C K conse fit saturated c2 snow2 junk2 l2 bs s rs2 Hconse Hb Hx2 Hn2 Hp Hss C2) as (q2 & R2 & _ & ->).
  assert (Hin : forall q : list (brec M D), In (o_date o) (map (@b_break M D) (reopened q)) -> In (o_date o) (map (@b_break M D) q)).
  { intros q Hi. destruct q as [|r q] using rev_ind; [exact Hi|]. rewrite reopened_snoc in Hi. rewrite map_app in *. apply in_app_iff in Hi. apply in_app_iff.
    destruct Hi as [Hi|[Hi|[]]]; [now left|]. cbn [b_break] in Hi. lia. }
  rewrite Z1 in *. rewrite Z2 in *.
  destruct (@rebuild_forget M D K conse (accepted 0 s) a1 a2 o z q1 q2) as (p1 & r1 & p2 & r2 & q & -> & -> & B1 & B2 & N1 & _); try assumption; auto; [apply accepted_sorted; exact Hss|].
  assert (Hq : q <> []).
  { intros ->. rewrite reopened_snoc, map_app in I1. apply in_app_iff in I1. destruct I1 as [I1|[I1|[]]]; [contradiction|]. cbn [b_break] in I1. lia. }
  exists p1, r1, p2, r2, (reopened q). change (r1 :: q) with ([r1] ++ q). change (r2 :: q) with ([r2] ++ q). rewrite !app_assoc, !reopened_app by exact Hq.
  rewrite <- !app_assoc. repeat (split; [first [reflexivity|assumption]|]). destruct q as [|r q]; [congruence|]. destruct q; discriminate.
Qed.
End Whole.

(** Forty-eight monthly rows, and the same with other values and four rows less
    before day 1090: one break there, the records after it agree. *)
Definition long_rows : list raw := every 48 30 730 100.
Definition later_rows : list raw := every 8 30 790 300 ++ skipn 12 long_rows.
Example forget_run : match run_ob false no_junk long_rows [1100; 1500], run_ob false no_junk later_rows [1100; 1500] with
  | Ok (ObSegments _ rs1), Ok (ObSegments _ rs2) =>
      map (fun r => [b_start r; b_break r; b_nobs r]) rs1 = [[730; 1090; 13]; [1090; 1510; 15]; [1510; 0; 23]] /\
      map (fun r => [b_start r; b_break r; b_nobs r]) rs2 = [[790; 1090; 9]; [1090; 1510; 15]; [1510; 0; 23]] /\ tl rs1 = tl rs2
  | _, _ => False
  end.
Proof. vm_compute. auto. Qed.
Example forget_series : usable true long_rows [1100; 1500] /\ usable true later_rows [1100; 1500] /\
  exists a1 a2 o z, clear_series true long_rows = a1 ++ o :: z /\ clear_series true later_rows = a2 ++ o :: z /\ o_date o = 1090.
Proof.
  assert (U : forall l, qa_count [0; 1] l >= 24 -> clear_series true l <> [] -> (forall d, In d (map q_date l) -> 0 <= d < 9000) -> usable true l [1100; 1500]).
  { intros l _ H1 H2. split; [repeat constructor; lia|]. split; [intros _; exact H1|]. intros b d [<-|[<-|[]]] Hi; specialize (H2 d Hi); lia. }
  split; [|split].
  - apply U; [vm_compute; discriminate|vm_compute; discriminate|]. intros d Hi.
    assert (E : map q_date long_rows = map (fun k => 730 + 30 * Z.of_nat k) (seq 0 48)) by (vm_compute; reflexivity).
    rewrite E in Hi. apply in_map_iff in Hi. destruct Hi as (k & <- & Hk). apply in_seq in Hk. lia.
  - apply U; [vm_compute; discriminate|vm_compute; discriminate|]. intros d Hi.
    assert (E : map q_date later_rows = map (fun k => 730 + 30 * Z.of_nat k) (seq 2 8 ++ seq 12 36)) by (vm_compute; reflexivity).
    rewrite E in Hi. apply in_map_iff in Hi. destruct Hi as (k & <- & Hk). apply in_app_iff in Hk. destruct Hk as [Hk|Hk]; apply in_seq in Hk; lia.
  - exists (firstn 12 (clear_series true long_rows)), (firstn 8 (clear_series true later_rows)). eexists. eexists. vm_compute. auto.
Qed.
Print Assumptions C126_forget.
