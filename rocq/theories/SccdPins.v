(** S-CCD: the pinpoint entries (C103; s_ccd.c 1790-1937). *)
From Verif Require Import Base SortModel LibModel LibProps ColdModel ColdLemmas ColdProps2 FrontModel FrontProps
  SccdModel SccdProof SccdTop SccdPack SccdTerm SccdApi SccdToy SccdProps SccdDecide.

Section Pins.
Variables N S F C : Type.
Variable K : skernel N S F C.
Variable P : sparams.
Notation cst := (cst N S C).
Hypothesis Hcap : sp_tcgf P <= sp_cap P /\ sp_gate P <= sp_cap P.
Hypothesis Hconse : 1 <= sp_conse P.

Notation nrm m d os := (map (k_norm2 K m d) os).
Notation cw := (Z.to_nat (sp_conse P)).

(** The observation [o] followed by [l] is an anomaly to the model [m]: the
    first three magnitudes reach the gate (PINPOINT_CONSE, 1793); [z] is the
    smallest magnitude of the window. *)
Definition anomaly (m : N) (d : Z) (o : obs) (l : list obs) (z : Z) : Prop :=
  let os := firstn cw (o :: l) in
  3 <= sp_conse P /\ zlen os = sp_conse P /\
  forallb (reaches (sp_gate P)) (firstn 3 (nrm m d os)) = true /\
  smallest (sp_cap P) (nrm m d os) (Fin z).

(** What an entry contains: the date, the eight observations from there, and
    for every prefix of the window its smallest magnitude and its mean angle. *)
Definition entry (m : N) (d : Z) (o : obs) (l : list obs) (p : pin) : Prop :=
  let os := firstn cw (o :: l) in
  pn_break p = o_date o /\ 8 <= zlen (o :: l) /\ pn_obs p = map stv (firstn 8 (o :: l)) /\
  length (pn_cm p) = cw /\ length (pn_angle p) = cw /\
  forall j, (j < cw)%nat ->
    (exists b, smallest (sp_cap2 P) (firstn (Datatypes.S j) (nrm m d os)) b /\ nth_error (pn_cm p) j = Some (k_m16 K b)) /\
    (exists a, k_a16 K (k_angle2 K m d (firstn (Datatypes.S j) os)) = Some a /\ nth_error (pn_angle p) j = Some a).

(** An entry of the run on the observations [x], of magnitude [z]. *)
Definition pinned (x : list obs) (p : pin) (z : Z) : Prop :=
  exists m d o l, subseq (o :: l) x /\ anomaly m d o l z /\ 0 < z /\ entry m d o l p.

Ltac cc := cbn [c_x c_i c_start c_dense c_prev c_train c_ts c_nobs c_m c_recs c_model c_chg c_pins c_cm
                set_idx fst snd] in *.
Ltac ib H a E := apply bind_ok in H; destruct H as (a & E & H).

Lemma mapO_nth : forall A B (f : A -> out B) l r, mapO f l = Ok r ->
  length r = length l /\ forall k a, nth_error l k = Some a -> exists b, nth_error r k = Some b /\ f a = Ok b.
Proof.
  intros A B f. induction l as [|a l IH]; intros r H; cbn [mapO] in H.
  - injection H as <-. split; [reflexivity|]. intros [|k] b E; discriminate.
  - ib H b Eb. ib H t Et. injection H as <-. apply IH in Et. destruct Et as [E1 E2]. split; [cbn; lia|].
    intros [|k] a' Ea; [injection Ea as <-; exists b; auto|]. apply E2. exact Ea.
Qed.

Lemma nth_error_ext_map : forall A B (f : A -> B) n (l : list A) (w : list B), length w = n -> (n <= length l)%nat ->
  (forall k, (k < n)%nat -> exists o, nth_error l k = Some o /\ nth_error w k = Some (f o)) -> w = map f (firstn n l).
Proof.
  intros A B f n. induction n as [|n IH]; intros l w Hw Hl H.
  - destruct w; [reflexivity|discriminate].
  - destruct w as [|b w]; [discriminate|]. destruct l as [|a l]; [cbn in Hl; lia|]. cbn [firstn map].
    destruct (H 0%nat ltac:(lia)) as (o & E1 & E2). cbn in E1, E2. injection E1 as <-. injection E2 as ->. f_equal.
    apply IH; [cbn in Hw; lia|cbn in Hl; lia|]. intros k Hk. apply (H (Datatypes.S k)). lia.
Qed.

Lemma save8_ok : forall x i w o l, skipn (Z.to_nat i) x = o :: l -> 0 <= i -> save8 x i slots = Ok w ->
  8 <= zlen (o :: l) /\ w = map stv (firstn 8 (o :: l)).
Proof.
  intros x i w o l Hs Hi H. unfold save8 in H. apply mapO_nth in H. destruct H as [H1 H2]. rewrite seq_length in H1.
  assert (Hk : forall k, (k < 8)%nat -> exists q, nth_error (o :: l) k = Some q /\ nth_error w k = Some (stv q)).
  { intros k Hk. destruct (H2 k k) as (b & B1 & B2).
    { rewrite nth_error_nth' with (d := 0%nat) by (rewrite seq_length; lia). rewrite seq_nth by lia. reflexivity. }
    unfold slots in B2. replace (Z.of_nat k <? 8) with true in B2 by lia. ib B2 q Eq1.
    apply get_inv in Eq1. destruct Eq1 as [_ E]. exists q. split.
    - rewrite <- Hs. clear -E Hi. replace (Z.to_nat (i + Z.of_nat k)) with (Z.to_nat i + k)%nat in E by lia.
      revert E. generalize (Z.to_nat i) as n. revert x. induction x as [|a x IH]; intros [|n] E; cbn in *; try assumption.
      + destruct k; discriminate.
      + apply IH. exact E.
    - rewrite B1. f_equal. destruct (st_obs_cases q) as [[E1 _]|[E1 _]]; congruence. }
  assert (Hl : (8 <= length (o :: l))%nat).
  { destruct (Hk 7%nat ltac:(lia)) as (q & E & _). assert (7 < length (o :: l))%nat; [|lia].
    apply nth_error_Some. congruence. }
  split; [unfold zlen; lia|]. apply nth_error_ext_map; assumption.
Qed.

(** Step 2 and the pinpoint part. *)
Lemma step2_pins : forall void (s s' : cst), step2 K P void s = Ok s' ->
  exists m o l, c_m s = Some m /\ 0 <= c_i s /\ skipn (Z.to_nat (c_i s)) (c_x s) = o :: l /\
  let d := c_nobs s - 6 in let os := firstn cw (o :: l) in
  zlen os = sp_conse P /\
  if sp_pin P && (3 <=? sp_conse P) && forallb (reaches (sp_gate P)) (firstn 3 (nrm m d os))
  then pinpoint K P s m d os o (mn (nrm m d os) (Fin (sp_cap P))) = Ok (c_pins s', c_cm s')
  else c_pins s' = c_pins s /\ c_cm s' = c_cm s.
Proof.
  intros void s s' H. unfold step2 in H. destruct (c_m s) as [m|]; [|discriminate].
  destruct (c_ts s) as [ts|]; [|discriminate]. cbv zeta in H. ib H os Eos. ib H o Eo.
  pose proof (slice_inv _ _ _ Eos) as (Hi & _ & Hl & Ew). pose proof (Base.slice_len _ _ _ Eos) as Hlen.
  apply get_inv in Eo. destruct Eo as [Hg Eo].
  assert (Hsk : exists rest, skipn (Z.to_nat (c_i s)) (c_x s) = o :: rest).
  { clear -Eo. revert Eo. generalize (Z.to_nat (c_i s)) as n. generalize (c_x s) as l.
    induction l as [|a l IH]; intros [|n] E; try discriminate.
    - injection E as ->. exists l. reflexivity.
    - apply IH in E. exact E. }
  destruct Hsk as (l & Hsk). rewrite Hsk in Ew. subst os.
  exists m, o, l. split; [reflexivity|]. split; [assumption|]. split; [assumption|]. cbv zeta.
  split; [assumption|].
  set (d := c_nobs s - 6) in *. set (os := firstn cw (o :: l)) in *.
  destruct (sp_pin P) eqn:Hp.
  - pose proof (@scan_pin N S F C K P Hp m d os 3%nat (sp_cap P) ltac:(lia) ltac:(lia)) as HS.
    change (3 - Z.of_nat 3) with 0 in HS.
    destruct (scan K P m d os 0 (Fin (sp_cap P))) as [[flag bm] ic]. destruct HS as (S1 & S2 & S3).
    cbn [andb] in H. apply bind_ok in H. destruct H as ([pins cm] & Ep & H).
    assert (Hres : c_pins s' = pins /\ c_cm s' = cm).
    { destruct (_ && _ && _) in H.
      - ib H a16 Ea. ib H rs Er. ib H w Ew8. injection H as <-. auto.
      - destruct (flt _ (k_norm2 K m d o)) in H.
        + ib H o1 E1. injection H as <-. auto.
        + ib H o1 E1. destruct (_ <=? 0); [discriminate|]. injection H as <-. auto. }
    destruct Hres as [-> ->]. cbn [andb]. rewrite <- S1.
    destruct flag.
    + destruct (S2 eq_refl) as [-> ->]. rewrite andb_true_r. rewrite Hlen in Ep.
      replace (3 <=? 0 + sp_conse P) with (3 <=? sp_conse P) in Ep by (f_equal; lia).
      destruct (3 <=? sp_conse P); [assumption|]. injection Ep as <- <-. auto.
    + rewrite andb_false_r. specialize (S3 eq_refl). replace (3 <=? ic) with false in Ep by lia.
      injection Ep as <- <-. auto.
  - destruct (scan K P m d os 0 (Fin (sp_cap P))) as [[flag bm] ic]. cbn [andb bind] in *.
    destruct (_ && _ && _) in H.
    + ib H a16 Ea. ib H rs Er. ib H w Ew8. injection H as <-. auto.
    + destruct (flt _ (k_norm2 K m d o)) in H.
      * ib H o1 E1. injection H as <-. auto.
      * ib H o1 E1. destruct (_ <=? 0); [discriminate|]. injection H as <-. auto.
Qed.

Lemma step2_moves : forall void (s s' : cst), step2 K P void s = Ok s' -> n_clr s' - c_i s' = n_clr s - c_i s - 1.
Proof.
  intros void s s' H. unfold step2 in H. destruct (c_m s) as [m|]; [|discriminate].
  destruct (c_ts s) as [ts|]; [|discriminate]. cbv zeta in H. ib H os Eos. ib H o Eo. apply get_inv in Eo.
  destruct (scan _ _ _ _ _ _ _) as [[flag bm] ic]. apply bind_ok in H. destruct H as ([pins cm] & _ & H).
  unfold n_clr. destruct (_ && _ && _) in H.
  - ib H a16 Ea. ib H rs Er. ib H w Ew8. injection H as <-. cc. lia.
  - destruct (flt _ (k_norm2 K m _ o)) in H.
    + ib H o1 E1. injection H as <-. cc. rewrite zlen_del by lia. lia.
    + ib H o1 E1. destruct (_ <=? 0); [discriminate|]. injection H as <-. cc. lia.
Qed.

Lemma step1_same : forall (s s' : cst) r, step1 K P s = Ok (s', r) -> c_pins s' = c_pins s /\ c_cm s' = c_cm s /\ c_train s' = c_train s.
Proof.
  intros s s' r H. unfold step1 in H. cbv zeta in H.
  ib H w Ew. destruct (365 <? _); [injection H as <- _; auto|].
  ib H wide Ewide. destruct (k_mask1 K wide) as [flags|]; [|injection H as <- _; auto].
  destruct (_ <? 18); [injection H as <- _; auto|].
  ib H ce Ece. ib H cs Ecs. destruct (_ <? 366); [injection H as <- _; auto|].
  ib H wf Ewf. destruct (k_fit1 K wf) as [f|]; [|injection H as <- _; auto].
  destruct (flt _ (k_stab1 K f wf)); [injection H as <- _; auto|].
  apply bind_ok in H. destruct H as ([[x2 i2] start2] & Eb & H).
  destruct (c_recs s) as [|rc rs]; [|injection H as <- _; auto].
  destruct (6 <=? start2 - c_dense s); [|injection H as <- _; auto].
  ib H w2 Ew2. ib H os Eos. destruct (k_first K f w2 os) as [c|]; [|injection H as <- _; auto].
  ib H ob Eob. ib H o0 Eo0. rewrite push_nil in H. cbn [bind] in H. injection H as <- _. auto.
Qed.

Lemma idle_same : forall void (s s' : cst), c_train s = false -> cstep K P void s = Ok s' ->
  c_pins s' = c_pins s /\ c_cm s' = c_cm s.
Proof.
  intros void s s' Ht H. unfold cstep in H. rewrite Ht in H. cbv zeta in H. ib H xe Exe. ib H xs Exs.
  apply bind_ok in H. destruct H as ([s2 r] & E2 & H).
  assert (H2 : c_pins s2 = c_pins s /\ c_cm s2 = c_cm s).
  { destruct (_ && _) in E2; [apply step1_same in E2; tauto|]. injection E2 as <- _. auto. }
  destruct r; [injection H as <-; exact H2| |injection H as <-; exact H2].
  ib H w Ew. ib H on Eon. ib H os Eos. ib H m Em. injection H as <-. exact H2.
Qed.

Lemma bucket_mono : forall d e, d <= e -> bucket d <= bucket e.
Proof. intros d e H. unfold bucket. apply Z.quot_le_mono; lia. Qed.

Lemma nth_error_skipn' : forall A (l : list A) n k, nth_error (skipn n l) k = nth_error l (n + k).
Proof.
  intros A l. induction l as [|a l IH]; intros [|n] k; cbn [skipn]; try reflexivity.
  - destruct k; reflexivity.
  - rewrite IH. reflexivity.
Qed.

Lemma get_put : forall A (l l' : list A) b v c, put l b v = Ok l' ->
  get l' c = if c =? b then Ok v else get l c.
Proof.
  intros A l l' b v c H. unfold put in H. destruct (_ && _) eqn:E; [|discriminate].
  assert (El : l' = firstn (Z.to_nat b) l ++ v :: skipn (Datatypes.S (Z.to_nat b)) l) by congruence. clear H. subst l'.
  unfold zlen in E. unfold get. destruct (c =? b) eqn:Ec.
  - replace (c <? 0) with false by lia. replace c with b by lia.
    rewrite nth_error_app2 by (rewrite firstn_length; lia). rewrite firstn_length.
    replace (Z.to_nat b - Nat.min (Z.to_nat b) (length l))%nat with 0%nat by lia. reflexivity.
  - destruct (c <? 0) eqn:E0; [reflexivity|].
    assert (En : nth_error (firstn (Z.to_nat b) l ++ v :: skipn (Datatypes.S (Z.to_nat b)) l) (Z.to_nat c) = nth_error l (Z.to_nat c)).
    { destruct (Z.ltb_spec c b).
      - rewrite nth_error_app1 by (rewrite firstn_length; lia). apply nth_error_firstn_lt. lia.
      - rewrite nth_error_app2 by (rewrite firstn_length; lia). rewrite firstn_length.
        replace (Z.to_nat c - Nat.min (Z.to_nat b) (length l))%nat with (Datatypes.S (Z.to_nat c - Datatypes.S (Z.to_nat b)))%nat by lia.
        cbn [nth_error]. rewrite nth_error_skipn'. f_equal. lia. }
    rewrite En. reflexivity.
Qed.


(** Invariant of the pinpoint variables. *)
Record PI (x : list obs) (s : cst) : Prop := mkPI {
  pi_why : Forall (fun p => exists z, pinned x p z /\ get (c_cm s) (bucket (pn_break p)) = Ok (Fin z)) (c_pins s);
  pi_year : StronglySorted (fun p q => bucket (pn_break p) < bucket (pn_break q)) (c_pins s);
  pi_past : Forall (fun p => (forall k, 0 <= k -> c_i s + 1 + k < n_clr s -> pn_break p < dat (c_x s) (c_i s + 1 + k)) /\
                             (c_train s = true -> c_i s < n_clr s -> pn_break p < dat (c_x s) (c_i s))) (c_pins s);
  pi_all : forall b v, get (c_cm s) b = Ok v -> v = Fin 0 \/ exists p, In p (c_pins s) /\ bucket (pn_break p) = b;
  pi_pos : forall b v, get (c_cm s) b = Ok v -> exists z, v = Fin z /\ 0 <= z
}.

Lemma pinpoint_inv : forall x (s : cst) m d o l pins cm, PI x s -> subseq (c_x s) x ->
  0 <= c_i s < n_clr s -> c_train s = true -> 3 <= sp_conse P ->
  skipn (Z.to_nat (c_i s)) (c_x s) = o :: l ->
  let os := firstn cw (o :: l) in
  zlen os = sp_conse P -> forallb (reaches (sp_gate P)) (firstn 3 (nrm m d os)) = true ->
  pinpoint K P s m d os o (mn (nrm m d os) (Fin (sp_cap P))) = Ok (pins, cm) ->
  Forall (fun p => exists z, pinned x p z /\ get cm (bucket (pn_break p)) = Ok (Fin z)) pins /\
  StronglySorted (fun p q => bucket (pn_break p) < bucket (pn_break q)) pins /\
  Forall (fun p => In p (c_pins s) \/ pn_break p = o_date o) pins /\
  (forall b v, get cm b = Ok v -> v = Fin 0 \/ exists p, In p pins /\ bucket (pn_break p) = b) /\
  (forall b v, get cm b = Ok v -> exists z, v = Fin z /\ 0 <= z) /\
  (forall b y, get (c_cm s) b = Ok (Fin y) -> exists y', get cm b = Ok (Fin y') /\ y <= y') /\
  exists y, get cm (bucket (o_date o)) = Ok (Fin y) /\ flt (Fin y) (mn (nrm m d os) (Fin (sp_cap P))) = false.
Proof.
  intros x s m d o l pins cm [I1 I2 I3 I4 I5] Hsub Hi Ht H3 Hsk os Hlen Hgate H.
  assert (Hdat : dat (c_x s) (c_i s) = o_date o).
  { unfold dat, nthO. f_equal. rewrite <- (firstn_skipn (Z.to_nat (c_i s)) (c_x s)), Hsk.
    rewrite app_nth2; rewrite firstn_length; unfold n_clr, zlen in Hi; [|lia].
    replace (Z.to_nat (c_i s) - Nat.min (Z.to_nat (c_i s)) (length (c_x s)))%nat with 0%nat by lia. reflexivity. }
  unfold pinpoint in H. ib H v Ev.
  destruct (I5 _ _ Ev) as (vz & Evz & Hvz). subst v.
  set (bm := mn (nrm m d os) (Fin (sp_cap P))) in *. set (b := bucket (o_date o)) in *.
  destruct (flt (Fin vz) bm) eqn:Ef.
  2: { injection H as <- <-. split; [assumption|]. split; [assumption|]. split.
       { apply Forall_forall. auto. }
       split; [assumption|]. split; [assumption|]. split; [|exists vz; auto]. intros b' y E. exists y. split; [assumption|lia]. }
  destruct bm as [|bz] eqn:Ebm; [discriminate|]. cbn [flt] in Ef.
  ib H ang Eang. ib H w Ew. ib H cm' Ecm. destruct (_ || _) eqn:Ecur in H; [discriminate|].
  set (p := mkPin (o_date o) w ang _) in *.
  assert (Hp : pinned x p bz).
  { exists m, d, o, l. split; [eapply subseq_trans; [|exact Hsub]; rewrite <- Hsk; apply subseq_skipn|].
    split; [|split; [lia|]].
    - split; [assumption|]. split; [assumption|]. split; [assumption|]. rewrite <- Ebm. apply mn_small.
    - destruct (@save8_ok (c_x s) (c_i s) w o l Hsk ltac:(lia) Ew) as [Hl8 Hw].
      apply mapO_nth in Eang. destruct Eang as [A1 A2]. rewrite seq_length in A1.
      assert (Hos : length os = cw) by (unfold zlen in Hlen; lia).
      split; [reflexivity|]. split; [assumption|]. split; [assumption|].
      split; [cbn [pn_cm p]; rewrite map_length, seq_length; assumption|]. split; [cbn [pn_angle p]; lia|].
      fold os. intros j Hj.
      assert (Es : nth_error (seq 1 (length os)) j = Some (Datatypes.S j)).
      { rewrite nth_error_nth' with (d := 0%nat) by (rewrite seq_length; lia). rewrite seq_nth by lia. reflexivity. }
      split.
      + exists (mn (firstn (Datatypes.S j) (nrm m d os)) (Fin (sp_cap2 P))). split; [apply mn_small|].
        cbn [pn_cm p]. rewrite nth_error_map, Es. cbn [option_map]. unfold fmin. rewrite firstn_map. reflexivity.
      + destruct (A2 _ _ Es) as (a & B1 & B2). exists a. unfold conv16 in B2.
        destruct (k_a16 K _) eqn:Ea; [|discriminate]. injection B2 as ->. split; [reflexivity|]. exact B1. }
  assert (Hgp : forall c, get cm' c = if c =? b then Ok (Fin bz) else get (c_cm s) c) by (intros c; apply (get_put _ _ _ _ Ecm)).
  assert (Hle : forall q, In q (c_pins s) -> bucket (pn_break q) <= b).
  { intros q Hq. rewrite Forall_forall in I3. destruct (I3 q Hq) as [_ Hq2]. specialize (Hq2 Ht ltac:(lia)).
    apply bucket_mono. lia. }
  assert (Hcm : cm = cm' /\ pins = (if match Fin vz with Fin 0 => true | _ => false end then c_pins s ++ [p] else removelast (c_pins s) ++ [p])).
  { destruct vz; injection H as <- <-; auto. }
  destruct Hcm as [-> Hpins]. clear H.
  (* the entries that stay belong to earlier years *)
  assert (Hkeep : exists old, pins = old ++ [p] /\ (forall q, In q old -> In q (c_pins s)) /\
     StronglySorted (fun p q => bucket (pn_break p) < bucket (pn_break q)) old /\
     (forall q, In q old -> bucket (pn_break q) < b) /\
     (forall q, In q (c_pins s) -> In q old \/ bucket (pn_break q) = b)).
  { destruct (Z.eq_dec vz 0) as [->|Hz].
    - exists (c_pins s). split; [exact Hpins|]. split; [auto|]. split; [assumption|]. split; [|auto].
      intros q Hq. specialize (Hle q Hq). rewrite Forall_forall in I1. destruct (I1 q Hq) as (z & Hz & Eg).
      assert (bucket (pn_break q) <> b); [|lia]. intros E. rewrite E, Ev in Eg. injection Eg as <-.
      destruct Hz as (? & ? & ? & ? & _ & _ & Hz & _). lia.
    - exists (removelast (c_pins s)).
      assert (Hpins' : pins = removelast (c_pins s) ++ [p]) by (destruct vz; [congruence|assumption|assumption]).
      destruct (I4 _ _ Ev) as [E|(q0 & Hq0 & Eq0)]; [congruence|].
      assert (Hne : c_pins s <> []) by (intros E; rewrite E in Hq0; contradiction).
      pose proof (app_removelast_last (mkPin 0 [] [] []) Hne) as Esp.
      set (old := removelast (c_pins s)) in *. set (lst := last (c_pins s) (mkPin 0 [] [] [])) in *.
      rewrite Esp in I2.
      assert (HS : StronglySorted (fun p q => bucket (pn_break p) < bucket (pn_break q)) old /\
                   forall q, In q old -> bucket (pn_break q) < bucket (pn_break lst)).
      { clear -I2. induction old as [|a old IH]; [split; [constructor|intros q []]|].
        cbn [app] in I2. inversion I2 as [|? ? HS HF]; subst. destruct (IH HS) as [H1 H2]. rewrite Forall_forall in HF. split.
        - constructor; [assumption|]. apply Forall_forall. intros q Hq. apply HF. apply in_or_app. auto.
        - intros q [<-|Hq]; [apply HF; apply in_or_app; right; left; reflexivity|auto]. }
      destruct HS as [HS1 HS2].
      assert (Hlst : In lst (c_pins s)) by (rewrite Esp; apply in_or_app; right; left; reflexivity).
      assert (Elst : bucket (pn_break lst) = b).
      { rewrite Esp in Hq0. apply in_app_or in Hq0. destruct Hq0 as [Hq0|[<-|[]]]; [|assumption].
        specialize (HS2 _ Hq0). specialize (Hle lst Hlst). lia. }
      split; [assumption|]. split; [intros q Hq; rewrite Esp; apply in_or_app; auto|]. split; [assumption|].
      split; [intros q Hq; rewrite <- Elst; auto|].
      intros q Hq. rewrite Esp in Hq. apply in_app_or in Hq. destruct Hq as [Hq|[<-|[]]]; auto. }
  clear Hpins. destruct Hkeep as (old & -> & Hin & HSo & Hlt & Hrest).
  assert (Hpb : bucket (pn_break p) = b) by reflexivity.
  split; [|split; [|split; [|split; [|split; [|split]]]]].
  - apply Forall_app. split.
    + apply Forall_forall. intros q Hq. rewrite Forall_forall in I1. destruct (I1 q (Hin q Hq)) as (z & Z1 & Z2).
      exists z. split; [assumption|]. rewrite Hgp. specialize (Hlt q Hq).
      replace (bucket (pn_break q) =? b) with false by lia. assumption.
    + constructor; [|constructor]. exists bz. split; [assumption|]. rewrite Hgp, Hpb, Z.eqb_refl. reflexivity.
  - clear -HSo Hlt Hpb. induction old as [|a old IH]; [constructor; constructor|].
    inversion HSo as [|? ? HS HF]; subst. cbn [app]. constructor; [apply IH; [assumption|intros q Hq; apply Hlt; right; assumption]|].
    apply Forall_app. split; [assumption|]. constructor; [|constructor]. rewrite Hpb. apply Hlt. left. reflexivity.
  - apply Forall_app. split; [apply Forall_forall; intros q Hq; left; auto|]. constructor; [right; reflexivity|constructor].
  - intros c v E. rewrite Hgp in E. destruct (c =? b) eqn:Ec.
    + right. exists p. split; [apply in_or_app; right; left; reflexivity|lia].
    + destruct (I4 _ _ E) as [E0|(q & Q1 & Q2)]; [left; assumption|]. right.
      destruct (Hrest q Q1) as [Hq|Hq]; [|lia]. exists q. split; [apply in_or_app; auto|assumption].
  - intros c v E. rewrite Hgp in E. destruct (c =? b); [injection E as <-; exists bz; split; [reflexivity|lia]|eauto].
  - intros c y E. rewrite Hgp. destruct (c =? b) eqn:Ec; [|exists y; split; [assumption|lia]].
    exists bz. split; [reflexivity|]. replace c with b in E by lia. rewrite Ev in E. injection E as <-. lia.
  - exists bz. rewrite Hgp, Z.eqb_refl. split; [reflexivity|]. cbn [flt]. lia.
Qed.

(** *** The run *)
Variable x : list obs.
Variables (r0 : list (seg C)) (base : Z) (void : bool) (train0 : bool) (model0 : nmodel S) (nb p0 : Z).
Hypothesis Hp0 : 0 <= p0.
Hypothesis Hx : asc x.
Hypothesis Hbase : Forall (fun o => base <= o_date o) x.
Notation IV := (Inv x r0 base void train0 model0 nb p0).

Lemma cstep_PI : forall (s s' : cst), IV s -> PI x s -> c_i s + sp_conse P <= n_clr s - 1 -> cstep K P void s = Ok s' ->
  IV s' /\ PI x s' /\ forall b y, get (c_cm s) b = Ok (Fin y) -> exists y', get (c_cm s') b = Ok (Fin y') /\ y <= y'.
Proof.
  intros s s' HI HP Hg H.
  pose proof (@cstep_wp N S F C K P x r0 base void train0 model0 nb p0 Hp0 Hconse Hx Hbase s HI Hg) as HW. rewrite H in HW. cbn [wp] in HW.
  destruct HW as [HI' Hstep]. split; [assumption|].
  pose proof (Inv_asc Hx HI) as Ha. pose proof (iv_idx HI) as Hidx.
  destruct (c_train s) eqn:Ht.
  - unfold cstep in H. rewrite Ht in H.
    (* one observation further *)
    assert (Hst : forall k, 0 <= k -> c_i s' + k < n_clr s' -> nthO (c_x s') (c_i s' + k) = nthO (c_x s) (c_i s + 1 + k) /\ c_i s + 1 + k < n_clr s).
    { destruct Hstep as [[L1 L2]|(_ & L1 & L2)].
      - intros k Hk Hk'. split; [auto|]. lia.
      - pose proof (@step2_moves void s s' H) as Hm. lia. }
    destruct (step2_pins _ _ H) as (m & o & l & Em & Hi & Hsk & Hlen & Hp). cbv zeta in Hlen, Hp.
    assert (Hdat : dat (c_x s) (c_i s) = o_date o).
    { unfold dat, nthO. f_equal. rewrite <- (firstn_skipn (Z.to_nat (c_i s)) (c_x s)), Hsk.
      rewrite app_nth2; rewrite firstn_length; unfold n_clr, zlen in Hg; [|lia].
      replace (Z.to_nat (c_i s) - Nat.min (Z.to_nat (c_i s)) (length (c_x s)))%nat with 0%nat by lia. reflexivity. }
    assert (Hfut : forall q, In q (c_pins s) \/ pn_break q = o_date o -> forall k, 0 <= k -> c_i s' + k < n_clr s' -> pn_break q < dat (c_x s') (c_i s' + k)).
    { intros q Hq k Hk Hk'. destruct (Hst k Hk Hk') as [E1 E2]. unfold dat. rewrite E1. destruct Hq as [Hq|Hq].
      - pose proof (pi_past HP) as H3. rewrite Forall_forall in H3. destruct (H3 q Hq) as [Q1 _]. apply Q1; assumption.
      - rewrite Hq, <- Hdat. apply dat_lt; auto; lia. }
    destruct (_ && _ && _) eqn:Ec in Hp.
    + apply andb_true_iff in Ec. destruct Ec as [Ec E3]. apply andb_true_iff in Ec. destruct Ec as [E1 E2].
      destruct (@pinpoint_inv x s m (c_nobs s - 6) o l _ _ HP (iv_sub HI) ltac:(lia) Ht ltac:(lia) Hsk Hlen E3 Hp)
        as (J1 & J2 & J3 & J4 & J5 & J6 & _).
      split; [|assumption]. constructor; auto. eapply Forall_impl; [|exact J3]. intros q Hq. cbn beta in Hq. split.
      * intros k Hk Hk'. replace (c_i s' + 1 + k) with (c_i s' + (1 + k)) by lia. apply Hfut; auto; lia.
      * intros _ Hn. replace (c_i s') with (c_i s' + 0) by lia. apply Hfut; auto; lia.
    + destruct Hp as [Ep Ecm]. split; [|intros b y E; rewrite Ecm; exists y; split; [assumption|lia]].
      destruct HP as [I1 I2 I3 I4 I5]. constructor; rewrite ?Ep, ?Ecm; auto.
      apply Forall_forall. intros q Hq. split.
      * intros k Hk Hk'. replace (c_i s' + 1 + k) with (c_i s' + (1 + k)) by lia. apply Hfut; auto; lia.
      * intros _ Hn. replace (c_i s') with (c_i s' + 0) by lia. apply Hfut; auto; lia.
  - destruct (@idle_same void s s' Ht H) as [Ep Ecm].
    split; [|intros b y E; rewrite Ecm; exists y; split; [assumption|lia]].
    assert (HM : (forall k, 0 <= k -> c_i s' + 1 + k < n_clr s' -> exists j, 0 <= j /\ c_i s + 1 + j < n_clr s /\ nthO (c_x s') (c_i s' + 1 + k) = nthO (c_x s) (c_i s + 1 + j)) /\
                 (c_train s' = true -> c_i s' < n_clr s' -> nthO (c_x s') (c_i s') = nthO (c_x s) (c_i s + 1) /\ c_i s + 1 < n_clr s)).
    { unfold cstep in H. rewrite Ht in H. cbv zeta in H. ib H xe Exe. ib H xs Exs.
      apply bind_ok in H. destruct H as ([s2 r] & E2 & H).
      assert (H2 : n_clr s2 - c_i s2 = n_clr s - c_i s /\ c_train s2 = false /\
                   forall k, 0 <= k -> c_i s2 + 1 + k < n_clr s2 -> nthO (c_x s2) (c_i s2 + 1 + k) = nthO (c_x s) (c_i s + 1 + k)).
      { destruct (_ && _) eqn:Ew in E2; [|injection E2 as <- _; auto]. apply andb_true_iff in Ew. destruct Ew as [Ew _].
        pose proof (@step1_wp N S F C K P x r0 base void train0 model0 nb p0 Hconse Hx Hbase s HI Ht Hg ltac:(lia)) as HW.
        rewrite E2 in HW. destruct HW as [_ W1 W2 _ W3 _ _]. cbn [fst] in *. auto. }
      destruct H2 as (W1 & W2 & W3).
      assert (HS : n_clr s' = n_clr s2 /\ c_x s' = c_x s2 /\ (c_i s' = c_i s2 + 1 \/ c_i s' = c_i s2 /\ c_train s' = false)).
      { destruct r; [injection H as <-; unfold n_clr; cc; auto| |injection H as <-; auto].
        ib H w Ew. ib H on Eon. ib H os Eos. ib H m Em. injection H as <-. unfold n_clr. cc. auto. }
      destruct HS as (X1 & X2 & X3). rewrite X2. split.
      - intros k Hk Hk'. destruct X3 as [X3|[X3 _]].
        + exists (1 + k). split; [lia|]. split; [lia|]. rewrite <- W3 by lia. f_equal. lia.
        + exists k. split; [lia|]. split; [lia|]. rewrite <- W3 by lia. f_equal. lia.
      - intros Et Hn. destruct X3 as [X3|[_ X3]]; [|congruence]. split; [|lia].
        replace (c_i s') with (c_i s2 + 1 + 0) by lia. rewrite W3 by lia. f_equal. lia. }
    destruct HM as [M1 M2].
    destruct HP as [I1 I2 I3 I4 I5]. constructor; rewrite ?Ep, ?Ecm; auto.
    apply Forall_forall. intros q Hq. rewrite Forall_forall in I3. destruct (I3 q Hq) as [Q1 _]. unfold dat in *. split.
    + intros k Hk Hk'. destruct (M1 k Hk Hk') as (j & J1 & J2 & J3). rewrite J3. apply Q1; lia.
    + intros Et Hn. destruct (M2 Et Hn) as [J1 J2]. rewrite J1. replace (c_i s + 1) with (c_i s + 1 + 0) by lia. apply Q1; lia.
Qed.

Lemma cloop_PI : forall fuel (s s' : cst), IV s -> PI x s -> cloop K P void fuel s = Ok s' ->
  IV s' /\ PI x s' /\ forall b y, get (c_cm s) b = Ok (Fin y) -> exists y', get (c_cm s') b = Ok (Fin y') /\ y <= y'.
Proof.
  induction fuel as [|f IH]; intros s s' HI HP H; cbn [cloop] in H; destruct (_ <=? _) eqn:Eg in H; try discriminate.
  - injection H as <-. split; [assumption|]. split; [assumption|]. intros b y E. exists y. split; [assumption|lia].
  - ib H t Et. destruct (@cstep_PI s t HI HP ltac:(lia) Et) as (I1 & I2 & I3).
    destruct (IH t s' I1 I2 H) as (J1 & J2 & J3). split; [assumption|]. split; [assumption|].
    intros b y E. destruct (I3 b y E) as (y1 & E1 & L1). destruct (J3 b y1 E1) as (y2 & E2 & L2). exists y2. split; [assumption|lia].
  - injection H as <-. split; [assumption|]. split; [assumption|]. intros b y E. exists y. split; [assumption|lia].
Qed.

(** States the loop goes through. *)
Inductive visits (s0 : cst) : cst -> Prop :=
| visits_start : visits s0 s0
| visits_next : forall s s', visits s0 s -> c_i s + sp_conse P <= n_clr s - 1 -> cstep K P void s = Ok s' -> visits s0 s'.

Lemma visits_PI : forall s0 s, visits s0 s -> IV s0 -> PI x s0 -> IV s /\ PI x s.
Proof.
  intros s0 s HV HI HP. induction HV as [|s s' HV IH Hg H]; [auto|].
  destruct IH as [I1 I2]. destruct (@cstep_PI s s' I1 I2 Hg H) as (J1 & J2 & _). auto.
Qed.

(** The rest of the run from a visited state. *)
Lemma visits_run : forall s0 s, visits s0 s -> forall fuel e, cloop K P void fuel s0 = Ok e ->
  exists f, cloop K P void f s = Ok e.
Proof.
  intros s0 s HV. induction HV as [|s s' HV IH Hg H]; intros fuel e E; [eauto|].
  destruct (IH fuel e E) as (f & Ef). destruct f as [|f]; cbn [cloop] in Ef;
    replace (c_i s + sp_conse P <=? n_clr s - 1) with true in Ef by lia; [discriminate|].
  rewrite H in Ef. exists f. exact Ef.
Qed.

Lemma run_best : forall s0 s fuel e m o l z, IV s0 -> PI x s0 -> visits s0 s -> cloop K P void fuel s0 = Ok e ->
  sp_pin P = true -> c_train s = true -> c_i s + sp_conse P <= n_clr s - 1 ->
  c_m s = Some m -> skipn (Z.to_nat (c_i s)) (c_x s) = o :: l -> anomaly m (c_nobs s - 6) o l z -> 0 < z ->
  exists p z', In p (c_pins e) /\ bucket (pn_break p) = bucket (o_date o) /\ pinned x p z' /\ z <= z'.
Proof.
  intros s0 s fuel e m o l z HI0 HP0 HV He Hpin Ht Hg Hm Hsk (A1 & A2 & A3 & A4) Hz.
  destruct (@visits_PI s0 s HV HI0 HP0) as [HI HP]. destruct (@visits_run s0 s HV fuel e He) as (f & Ef).
  destruct f as [|f]; cbn [cloop] in Ef; replace (c_i s + sp_conse P <=? n_clr s - 1) with true in Ef by lia; [discriminate|].
  ib Ef t Et. destruct (@cstep_PI s t HI HP Hg Et) as (I1 & I2 & _).
  destruct (@cloop_PI f t e I1 I2 Ef) as (J1 & J2 & J3).
  unfold cstep in Et. rewrite Ht in Et. destruct (step2_pins _ _ Et) as (m' & o' & l' & Em & Hi & Hsk' & Hlen & Hp). cbv zeta in Hlen, Hp.
  rewrite Hm in Em. injection Em as <-. rewrite Hsk in Hsk'. injection Hsk' as <- <-.
  rewrite Hpin, A3 in Hp. replace (3 <=? sp_conse P) with true in Hp by lia. cbn [andb] in Hp.
  destruct (@pinpoint_inv x s m (c_nobs s - 6) o l _ _ HP (iv_sub HI) ltac:(lia) Ht A1 Hsk Hlen A3 Hp)
    as (_ & _ & _ & _ & _ & _ & y & Y1 & Y2).
  assert (Ey : mn (nrm m (c_nobs s - 6) (firstn cw (o :: l))) (Fin (sp_cap P)) = Fin z).
  { eapply smallest_unique; [apply mn_small|exact A4]. }
  rewrite Ey in Y2. cbn [flt] in Y2.
  destruct (J3 _ _ Y1) as (y' & E' & L').
  destruct (pi_all J2 _ E') as [E0|(p & P1 & P2)]; [injection E0; lia|].
  pose proof (pi_why J2) as HW. rewrite Forall_forall in HW. destruct (HW p P1) as (z' & Z1 & Z2).
  exists p, z'. split; [assumption|]. split; [assumption|]. split; [assumption|].
  rewrite P2, E' in Z2. injection Z2 as <-. lia.
Qed.

End Pins.

(** The state in which [sccd_standard] enters its loop with a new pack (2552-2610). *)
Definition entered {N S C} (x : list obs) (model : nmodel S) : cst N S C :=
  mkC x 0 0 0 0 false None 0 None [] model false [] (repeat (Fin 0) (Z.to_nat (n_buckets (dat x (zlen x - 1))))).

Section PinCalls.
Variables N S F C : Type.
Implicit Types (K : list Z -> skernel N S F C) (a b : io S C).
Ltac ib H a E := apply bind_ok in H; destruct H as (a & E & H).

Lemma snow_fresh_mode : forall (k : skernel N S F C) x a b, io_mode a = 0 -> snow k x a = Ok b -> io_mode b = 3 \/ io_mode b = 4.
Proof.
  intros k x a b Hm H. unfold snow in H. rewrite Hm in H. cbv zeta in H. cbn [Z.eqb orb] in H.
  destruct (_ <? 18) in H.
  - ib H q Eqq. injection H as <-. auto.
  - ib H m Em. repeat (let t := fresh in let E := fresh in ib H t E). injection H as <-. auto.
Qed.

Lemma entered_IV : forall x base (model : nmodel S), asc x -> Forall (fun o => base <= o_date o) x -> x <> [] -> 0 <= n_buckets (dat x (zlen x - 1)) ->
  Inv x (@nil (seg C)) base true false model (n_buckets (dat x (zlen x - 1))) 0 (@entered N S C x model) /\
  forall (k : skernel N S F C) P, PI k P x (@entered N S C x model).
Proof.
  intros x base model Ha Hb Hne Hnb. unfold entered.
  assert (Hrep : forall i v, get (repeat (Fin 0) (Z.to_nat (n_buckets (dat x (zlen x - 1))))) i = Ok v -> v = Fin 0).
  { intros i v E. apply get_inv in E. destruct E as [_ E]. apply nth_error_In in E. apply repeat_spec in E. assumption. }
  split.
  - constructor; cbn [c_x c_i c_start c_dense c_prev c_train c_ts c_nobs c_m c_recs c_model c_chg c_pins c_cm];
      auto; try lia; try discriminate.
    + apply subseq_refl.
    + exists []. reflexivity.
    + split; [constructor|]. intros [|n] r1 r2 E1 E2; discriminate.
    + constructor.
    + intros _. exact I.
    + split.
      * unfold zlen. rewrite repeat_length. fold (zlen x). lia.
      * apply Forall_forall. intros v Hv. apply repeat_spec in Hv. subst. exists 0. split; [reflexivity|lia].
    + assert (Hu : forall n, used (repeat (Fin 0) n) = 0) by (intros n; unfold used; induction n; simpl; auto).
      rewrite Hu. reflexivity.
  - intros k P. constructor; cbn [c_pins c_cm c_i c_x c_train].
    + constructor.
    + constructor.
    + constructor.
    + intros i v E. left. eauto.
    + intros i v E. exists 0. split; [eauto|lia].
Qed.

Lemma standard_pins : forall (k : skernel N S F C) P fuel x rm jm b, 1 <= sp_conse P ->
  sp_tcgf P <= sp_cap P /\ sp_gate P <= sp_cap P -> asc x -> x <> [] ->
  standard k P fuel x (mkIO 0 [] jm [] rm []) = Ok b ->
  exists e, cloop k P true fuel (@entered N S C x jm) = Ok e /\ io_pins b = c_pins e /\ 0 <= n_buckets (dat x (zlen x - 1)).
Proof.
  intros k P fuel x rm jm b Hc Hcap Ha Hne H. unfold standard in H. cbv zeta in H.
  cbn [io_mode io_recs io_model io_pins io_rmse io_queue] in H. change (Z.rem 0 10 =? 1) with false in H. change (0 =? 0) with true in H.
  cbv iota in H. ib H ol Eol. ib H o0 Eo0. destruct (_ <? 0) eqn:Enb in H; [discriminate|]. ib H s Es.
  apply bind_ok in H. destruct H as ([m1 prev] & _ & H). apply bind_ok in H. destruct H as ([m2 model] & _ & H). ib H q Eqq. injection H as <-.
  assert (Ed : dat x (zlen x - 1) = o_date ol).
  { apply get_inv in Eol. destruct Eol as [_ Eol]. unfold dat, nthO. erewrite nth_error_nth by exact Eol. reflexivity. }
  exists s. unfold entered. rewrite Ed. split; [exact Es|]. split; [reflexivity|lia].
Qed.

Lemma pins_back : forall jm b' b, returned jm b' = Ok b -> io_pins b = io_pins b' /\ io_mode b = io_mode b'.
Proof.
  intros jm a b H. unfold returned in H.
  destruct (_ || _); [injection H as <-; auto|]. destruct (_ || _); [injection H as <-; auto|].
  destruct (_ =? 5); [injection H as <-; auto|]. destruct (_ =? 0); [injection H as <-; auto|discriminate].
Qed.

(** ** C103: one entry per year, in order, each for an anomaly of the series *)
Theorem C103_detect : forall K P c2 junk jm rows b, 1 <= sp_conse P -> length junk = 6%nat ->
  sp_tcgf P <= sp_cap P -> sp_gate P <= sp_cap P -> rows_sorted rows ->
  detect K P c2 junk jm rows = Ok b ->
  StronglySorted (fun p q => Z.quot (4 * (pn_break p - y1982)) 1461 < Z.quot (4 * (pn_break q - y1982)) 1461) (io_pins b) /\
  forall p, In p (io_pins b) -> exists z, pinned (K (io_rmse b)) P (call_obs c2 false rows (blank C jm)) p z.
Proof.
  intros K P c2 junk jm rows b Hc Hj H1 H2 Hs H. destruct (@detect_ok _ _ _ _ _ _ _ _ _ _ _ H) as (b' & E & Er & _).
  rewrite (rmse_back _ _ Er). destruct (@pins_back _ _ _ Er) as [-> _]. clear Er H b.
  destruct (@detect_obs S C c2 false rows jm Hs) as [Ha _].
  destruct (@sccd_cases N S F C K P c2 junk (enough rows (blank C jm)) rows (blank C jm) Hj) as [E1|(sn & _ & _ & _ & Hcase)]; [congruence|].
  cbv zeta in Hcase. destruct Hcase as [[-> E1]|[(-> & Hx & E1)|(-> & Hlt & rm & Hrm & E1)]]; rewrite E in E1; symmetry in E1.
  - apply snow_same in E1. destruct E1 as (_ & _ & ->). cbn [blank io_pins]. split; [constructor|intros p []].
  - injection E1 as <-. cbn [blank io_pins]. split; [constructor|intros p []].
  - rewrite (standard_rmse _ _ _ _ _ E1). cbn [io_rmse]. cbn [blank io_mode io_recs io_model io_queue io_pins] in E1.
    set (x := call_obs c2 false rows (blank C jm)) in *.
    assert (Hne : x <> []) by (intros E0; rewrite E0 in Hlt; vm_compute in Hlt; discriminate).
    destruct (lower_bound (map o_date x)) as [base Hbase].
    assert (Hb : Forall (fun o => base <= o_date o) x).
    { rewrite Forall_map in Hbase. exact Hbase. }
    destruct (@standard_pins (K rm) P _ x rm jm b' Hc (conj H1 H2) Ha Hne E1) as (e & Ee & -> & Hn).
    destruct (@entered_IV x base jm Ha Hb Hne Hn) as [HI HP].
    destruct (@cloop_PI N S F C (K rm) P (conj H1 H2) Hc x [] base true false jm _ 0 ltac:(lia) Ha Hb _ _ _ HI (HP _ _) Ee) as (_ & [J1 J2 _ _ _] & _).
    split; [exact J2|]. intros p Hp. rewrite Forall_forall in J1. destruct (J1 p Hp) as (z & Z1 & _). eauto.
Qed.

(** ** C103: the entry of a year is the largest anomaly of this year *)
Theorem C103_best : forall K P c2 junk jm rows b s m o l z, 1 <= sp_conse P -> length junk = 6%nat ->
  sp_tcgf P <= sp_cap P -> sp_gate P <= sp_cap P -> rows_sorted rows -> sp_pin P = true ->
  detect K P c2 junk jm rows = Ok b -> io_mode b <> 3 -> io_mode b <> 4 ->
  let x := call_obs c2 false rows (blank C jm) in
  visits (K (io_rmse b)) P true (entered x jm) s -> c_train s = true -> c_i s + sp_conse P <= zlen (c_x s) - 1 ->
  c_m s = Some m -> skipn (Z.to_nat (c_i s)) (c_x s) = o :: l -> anomaly (K (io_rmse b)) P m (c_nobs s - 6) o l z -> 0 < z ->
  exists p z', In p (io_pins b) /\ Z.quot (4 * (pn_break p - y1982)) 1461 = Z.quot (4 * (o_date o - y1982)) 1461 /\
    pinned (K (io_rmse b)) P x p z' /\ z <= z'.
Proof.
  intros K P c2 junk jm rows b s m o l z Hc Hj H1 H2 Hs Hpin H M3 M4 x.
  destruct (@detect_ok _ _ _ _ _ _ _ _ _ _ _ H) as (b' & E & Er & _).
  rewrite (rmse_back _ _ Er). destruct (@pins_back _ _ _ Er) as [-> Em]. rewrite Em in M3, M4. clear Er H Em b.
  destruct (@detect_obs S C c2 false rows jm Hs) as [Ha _].
  destruct (@sccd_cases N S F C K P c2 junk (enough rows (blank C jm)) rows (blank C jm) Hj) as [E1|(sn & _ & _ & _ & Hcase)]; [congruence|].
  cbv zeta in Hcase. destruct Hcase as [[-> E1]|[(-> & Hx & E1)|(-> & Hlt & rm & Hrm & E1)]]; rewrite E in E1; symmetry in E1.
  - exfalso. apply snow_fresh_mode in E1; [|reflexivity]. lia.
  - intros HV Ht Hg. exfalso. fold x in Hx. change (carried (blank C jm)) with (@nil obs) in Hx. rewrite Hx in HV.
    assert (HZ : s = @entered N S C [] jm).
    { clear -HV Hc. induction HV as [|s s' HV IH Hg H]; [reflexivity|]. subst s. unfold n_clr in Hg. cbn in Hg. lia. }
    subst s. cbn in Hg. lia.
  - rewrite (standard_rmse _ _ _ _ _ E1). cbn [io_rmse]. cbn [blank io_mode io_recs io_model io_queue io_pins] in E1.
    fold x in Ha, Hlt, E1.
    assert (Hne : x <> []) by (intros E0; rewrite E0 in Hlt; vm_compute in Hlt; discriminate).
    destruct (lower_bound (map o_date x)) as [base Hbase].
    assert (Hb : Forall (fun o => base <= o_date o) x).
    { rewrite Forall_map in Hbase. exact Hbase. }
    destruct (@standard_pins (K rm) P _ x rm jm b' Hc (conj H1 H2) Ha Hne E1) as (e & Ee & -> & Hn).
    destruct (@entered_IV x base jm Ha Hb Hne Hn) as [HI HP].
    intros HV Ht Hg Hm Hsk HA Hz.
    exact (@run_best N S F C (K rm) P (conj H1 H2) Hc x [] base true false jm _ 0 ltac:(lia) Ha Hb _ s _ e m o l z HI (HP _ _) HV Ee Hpin Ht Hg Hm Hsk HA Hz).
Qed.

End PinCalls.

(** ** A concrete case *)

(** A rise by 70 from 1984-11-20 on: an entry for each of the two years it
    falls in, and the machine goes through the state at the first rise. *)
Definition rising : list obs := call_obs true false (jump 570) (blank Z jm0).
Fixpoint steps (n : nat) (s : cst Z Z Z) : out (cst Z Z Z) :=
  match n with O => Ok s | Datatypes.S n' => t <- steps n' s ;;
    if c_i t + 8 <=? n_clr t - 1 then cstep (toy []) (gpar 50 true) true t else Fail end.

Lemma steps_visits : forall n s t, steps n s = Ok t -> visits (toy []) (gpar 50 true) true s t.
Proof.
  induction n as [|n IH]; intros s t H; cbn [steps] in H; [injection H as <-; constructor|].
  apply bind_ok in H. destruct H as (t1 & E1 & H). destruct (_ <=? _) eqn:Eg in H; [|discriminate].
  eapply visits_next; [apply IH; exact E1| |exact H]. cbn [sp_conse gpar]. lia.
Qed.

Example C103_case : rows_sorted (jump 570) /\
  gist (detect toy (gpar 50 true) true junk0 jm0 (jump 570)) = Ok (1, [], [(724600, 70); (724660, 70)]) /\
  map bucket [724600; 724660] = [2; 3] /\
  exists s o l, visits (toy []) (gpar 50 true) true (entered rising jm0) s /\ c_train s = true /\ c_i s + 8 <= zlen (c_x s) - 1 /\
    c_m s = Some 500 /\ skipn (Z.to_nat (c_i s)) (c_x s) = o :: l /\ o_date o = 724600 /\
    anomaly (toy []) (gpar 50 true) 500 (c_nobs s - 6) o l 70.
Proof.
  split; [|split; [vm_compute; reflexivity|split; [vm_compute; reflexivity|]]].
  - unfold rows_sorted. apply Sorted_StronglySorted; [intros a b c; lia|]. vm_compute. repeat constructor; discriminate.
  - destruct (steps 30 (entered rising jm0)) as [s| | |] eqn:E; try (vm_compute in E; discriminate).
    pose proof (steps_visits _ _ E) as HV. vm_compute in E. injection E as <-.
    do 3 eexists. split; [exact HV|]. split; [reflexivity|]. split; [vm_compute; discriminate|].
    split; [reflexivity|]. split; [vm_compute; reflexivity|]. split; [reflexivity|].
    split; [vm_compute; discriminate|]. split; [vm_compute; reflexivity|]. split; [vm_compute; reflexivity|].
    exists 70. split; [reflexivity|]. split; [right; vm_compute; auto|]. split; [vm_compute; discriminate|].
    intros w Hw. vm_compute in Hw. repeat (destruct Hw as [Hw|Hw]; [injection Hw as <-; vm_compute; discriminate|]). contradiction.
Qed.

Print Assumptions C103_detect.
Print Assumptions C103_best.
