(** Runs meeting the hypotheses of the S-CCD theorems. *)
From Verif Require Import Base SortModel LibModel LibProps ColdModel ColdLemmas FrontModel FrontProps
  SccdModel SccdProof SccdTop SccdPack SccdTerm SccdApi SccdToy SccdProps SccdProps2 SccdRefuted.
Require Import Sorting.Sorted.

Fixpoint stepsb (f : Z -> Z -> bool) (l : list raw) : bool :=
  match l with
  | p :: ((q :: _) as t) => f (q_date p) (q_date q) && stepsb f t
  | _ => true
  end.

Lemma steps_lt : forall l, stepsb Z.ltb l = true -> StronglySorted (fun p q => q_date p < q_date q) l.
Proof.
  intros l H. apply Sorted_StronglySorted; [intros p q r H1 H2; lia|].
  induction l as [|p [|q t] IH]; [constructor|constructor; constructor|].
  cbn [stepsb] in H. apply andb_prop in H. destruct H as [H1 H2]. constructor; [apply IH; exact H2|constructor; lia].
Qed.

Lemma lt_le : forall l : list raw, StronglySorted (fun p q => q_date p < q_date q) l ->
  StronglySorted (fun p q => q_date p <= q_date q) l.
Proof. intros l H. induction H as [|q l _ IH HF]; constructor; auto. eapply Forall_impl; [|exact HF]. simpl. lia. Qed.

Definition goodb (q : raw) : bool :=
  (launch <=? q_date q) && (q_date q <=? launch + 32767) &&
  forallb (fun v => (-32768 <=? v) && (v <=? 32767)) [q_b q; q_g q; q_r q; q_n q; q_s1 q; q_s2 q].

Lemma good_all : forall l, forallb goodb l = true -> Forall good_row l.
Proof.
  intros l H. apply Forall_forall. intros q Hq. rewrite forallb_forall in H. specialize (H q Hq).
  unfold goodb in H. apply andb_prop in H. destruct H as [H1 H2]. split; [lia|]. apply Forall_forall. intros v Hv.
  rewrite forallb_forall in H2. specialize (H2 v Hv). lia.
Qed.

Lemma batches_check : forall all, forallb goodb (concat all) && stepsb Z.ltb (concat all) = true -> batches_ok all.
Proof.
  intros all H. apply andb_prop in H. destruct H as [H1 H2]. split; [apply good_all; assumption|].
  apply lt_le, steps_lt. assumption.
Qed.

Example toy_fits : fits_succeed toy.
Proof. intros rm. split; [|split]; intros; discriminate. Qed.
Example toy_angles : angles_exist toy.
Proof. intros rm m d l. discriminate. Qed.

(** A steady pixel, a change and the new level. *)
Definition changed : list raw := steady ++ rows_every 730800 20 40 800.

Example C21_example : exists b, tdetect 6 changed = Ok b /\ io_mode b = 1 /\ zlen (io_recs b) = 1.
Proof. eexists. split; [vm_compute; reflexivity|]. split; reflexivity. Qed.

Example C22_detect_example : exists b, tdetect 6 changed = Ok b /\
  map (fun r => (g_start r, g_break r)) (io_recs b) = [(730000, 730800)] /\ records_ordered (io_recs b).
Proof.
  eexists. split; [vm_compute; reflexivity|]. split; [vm_compute; reflexivity|].
  apply (@C22_detect Z Z Z Z toy (par 6 false) true junk0 jm0 changed).
  - vm_compute. discriminate.
  - reflexivity.
  - apply lt_le, steps_lt. vm_compute. reflexivity.
  - vm_compute. reflexivity.
Qed.

(** Online with a window of eight: steady series, then two batches with a
    change in them. *)
Definition batch1 : list raw := rows_every 730800 20 3 800.
Definition batch2 : list raw := rows_every 730860 20 8 800.
Definition pack0 : io Z Z := match tdetect 8 steady with Ok a => a | _ => blank Z jm0 end.
Definition pack1 : io Z Z := match tupdate 8 batch1 pack0 with Ok a => a | _ => blank Z jm0 end.
Definition pack2 : io Z Z := match tupdate 8 batch2 pack1 with Ok a => a | _ => blank Z jm0 end.

Lemma pack0_eq : detect toy (par 8 false) true junk0 jm0 steady = Ok pack0.
Proof. vm_compute. reflexivity. Qed.
Lemma pack1_eq : update toy (par 8 false) true junk0 jm0 batch1 pack0 = Ok pack1.
Proof. vm_compute. reflexivity. Qed.
Lemma pack2_eq : update toy (par 8 false) true junk0 jm0 batch2 pack1 = Ok pack2.
Proof. vm_compute. reflexivity. Qed.

Example online_modes : (io_mode pack0, io_mode pack1, io_mode pack2) = (1, 1, 5) /\
  nm_last (io_model pack1) = 3 /\ map (fun r => (g_start r, g_break r)) (io_recs pack2) = [(730000, 730800)].
Proof. repeat split; vm_compute; reflexivity. Qed.

Lemma history1 : history (N := Z) (F := Z) 8 pack0 [batch1] pack1.
Proof.
  exact (@h_update Z Z Z Z 8 toy (par 8 false) true junk0 jm0 pack0 batch1 pack1 [] pack1
           eq_refl eq_refl pack1_eq (@h_done Z Z Z Z 8 pack1)).
Qed.
Lemma history2 : history (N := Z) (F := Z) 8 pack0 [batch1; batch2] pack2.
Proof.
  exact (@h_update Z Z Z Z 8 toy (par 8 false) true junk0 jm0 pack0 batch1 pack1 [batch2] pack2 eq_refl eq_refl pack1_eq
          (@h_update Z Z Z Z 8 toy (par 8 false) true junk0 jm0 pack1 batch2 pack2 [] pack2
             eq_refl eq_refl pack2_eq (@h_done Z Z Z Z 8 pack2))).
Qed.

Lemma all_ok : batches_ok [steady; batch1; batch2].
Proof. apply batches_check. vm_compute. reflexivity. Qed.

Example C22_online_example : records_ordered (io_recs pack2) /\ exists t, io_recs pack2 = io_recs pack0 ++ t.
Proof.
  apply (@C22_online Z Z Z Z toy (par 8 false) true junk0 jm0 steady pack0 [batch1; batch2] pack2).
  - reflexivity.
  - reflexivity.
  - exact all_ok.
  - exact pack0_eq.
  - exact history2.
Qed.

Example C23_example : standard_mode (io_mode pack2).
Proof.
  apply (@C23_history Z Z Z Z 8 pack0 [batch1; batch2] pack2 ltac:(lia) history2).
  unfold standard_mode. replace (io_mode pack0) with 1 by (vm_compute; reflexivity). simpl. tauto.
Qed.

Lemma online1 : online Z Z [steady] pack0.
Proof.
  exists toy, (par 8 false), true, junk0, jm0, steady, pack0, [].
  do 3 (split; [reflexivity|]). split; [exact pack0_eq|apply h_done].
Qed.
Lemma online2 : online Z Z [steady; batch1] pack1.
Proof.
  exists toy, (par 8 false), true, junk0, jm0, steady, pack0, [batch1].
  do 3 (split; [reflexivity|]). split; [exact pack0_eq|exact history1].
Qed.

Example C24_example : carried pack1 = last8 (carried pack0 ++ fresh true pack0 batch1) /\
  map o_date (carried pack1) = [730700; 730720; 730740; 730760; 730780; 730800; 730820; 730840].
Proof.
  split; [|vm_compute; reflexivity].
  apply (@C24_window Z Z Z Z toy (par 8 false) true junk0 jm0 [steady] batch1 pack0 pack1).
  - reflexivity.
  - reflexivity.
  - exact online1.
  - apply batches_check. vm_compute. reflexivity.
  - apply steps_lt. vm_compute. reflexivity.
  - vm_compute. discriminate.
  - exact pack1_eq.
  - left. vm_compute. reflexivity.
Qed.

Example C27_example : 1 <= zlen (carried pack2) <= 240 /\
  last (carried pack2) dflt_obs = last (carried pack1 ++ fresh true pack1 batch2) dflt_obs.
Proof.
  destruct (@C27_queue Z Z Z Z toy (par 8 false) true junk0 jm0 [steady; batch1] batch2 pack1 pack2) as (H1 & _ & _ & H4).
  - reflexivity.
  - reflexivity.
  - exact online2.
  - exact all_ok.
  - apply steps_lt. vm_compute. reflexivity.
  - vm_compute. discriminate.
  - exact pack2_eq.
  - right. vm_compute. reflexivity.
  - split; [assumption|]. apply H4. vm_compute. reflexivity.
Qed.

Example C28_example : exists rm m nobs,
  trailing (par 8 false) (k_m16 (toy rm)) (newest (toy rm) m nobs (carried pack0 ++ fresh true pack0 batch1)) (io_model pack1).
Proof.
  destruct (@C28_update Z Z Z Z toy (par 8 false) true junk0 jm0 [steady] batch1 pack0 pack1) as (rm & m & nobs & _ & _ & _ & H).
  - reflexivity.
  - reflexivity.
  - exact online1.
  - apply batches_check. vm_compute. reflexivity.
  - apply steps_lt. vm_compute. reflexivity.
  - vm_compute. discriminate.
  - exact pack1_eq.
  - left. vm_compute. reflexivity.
  - exists rm, m, nobs. apply H. intros j _. discriminate.
Qed.

Example C35_example : update toy (par 8 false) true junk0 jm0 batch2 pack1 <> UB.
Proof.
  apply (@C35_online Z Z Z Z toy (par 8 false) true junk0 jm0 [steady; batch1] batch2 pack1 730000).
  - vm_compute. discriminate.
  - reflexivity.
  - reflexivity.
  - exact online2.
  - exact all_ok.
  - apply Forall_forall. intros q Hq.
    assert (H : forallb (fun q => (730000 <=? q_date q) && (q_date q <? 730000 + 14681)) (concat ([steady; batch1] ++ [batch2])) = true)
      by (vm_compute; reflexivity).
    rewrite forallb_forall in H. specialize (H q Hq). lia.
  - exact toy_angles.
  - right. unfold standard_mode. replace (io_mode pack1) with 1 by (vm_compute; reflexivity). simpl. tauto.
Qed.

Example C29_example : tdetect 6 changed <> UB.
Proof.
  apply (@C29_detect Z Z Z Z toy (par 6 false) true junk0 jm0 changed 730000).
  - vm_compute. split; discriminate.
  - reflexivity.
  - reflexivity.
  - apply good_all. vm_compute. reflexivity.
  - apply lt_le, steps_lt. vm_compute. reflexivity.
  - apply Forall_forall. intros q Hq.
    assert (H : forallb (fun q => (730000 <=? q_date q) && (q_date q <? 730000 + 14681)) changed = true) by (vm_compute; reflexivity).
    rewrite forallb_forall in H. specialize (H q Hq). lia.
  - exact toy_angles.
Qed.

(** A cloudy row, a row out of range and one of the newest day change nothing. *)
Definition idle : list raw := [rw 730780 900; cloudy 730800; rw 730820 30000].
Example C25_example : Forall (useless true pack0) idle /\
  sccd toy (par 8 false) true junk0 (enough idle pack0) idle pack0 = Ok pack0.
Proof.
  split; [|vm_compute; reflexivity]. constructor; [|constructor; [|constructor; [|constructor]]].
  - right. right. vm_compute. reflexivity.
  - left. vm_compute. discriminate.
  - right. left. vm_compute. reflexivity.
Qed.

(** Snow: twelve rows make a queue, thirty a model. *)
Definition snowy (n : Z) : list raw :=
  map (fun k => mkRaw (730000 + 40 * Z.of_nat k) 500 500 500 500 500 500 0 3) (seq 0 (Z.to_nat n)).
Definition snow_rest : list raw := [mkRaw 733000 500 500 500 500 500 500 0 2; cloudy 733100].
Example C25_snow_example : exists a b,
  tdetect 8 (snowy 12) = Ok a /\ io_mode a = 4 /\ zlen (io_queue a) = 12 /\ Forall (useless_snow a) snow_rest /\
  tupdate 8 snow_rest a = Ok a /\
  tdetect 8 (snowy 30) = Ok b /\ io_mode b = 3 /\ Forall (useless_snow b) snow_rest /\ tupdate 8 snow_rest b = Ok b.
Proof.
  eexists. eexists. split; [vm_compute; reflexivity|]. split; [reflexivity|]. split; [reflexivity|].
  split; [repeat constructor; vm_compute; discriminate|]. split; [vm_compute; reflexivity|].
  split; [vm_compute; reflexivity|]. split; [reflexivity|].
  split; [repeat constructor; vm_compute; discriminate|]. vm_compute; reflexivity.
Qed.

Example C32_example : caller_pack pack1 pack2 = pack1.
Proof.
  apply (@C32_pack_kept Z Z Z Z toy (par 8 false) true junk0 jm0 batch2 pack1 pack2);
    [reflexivity|vm_compute; discriminate|exact pack2_eq].
Qed.

Example C33_example : forall junk, length junk = 6%nat ->
  detect toy (par 6 false) true junk jm0 changed = detect toy (par 6 false) true junk0 jm0 changed.
Proof.
  intros junk Hj. apply (@C33_two_observations Z Z Z Z toy (par 6 false) true junk junk0 jm0 changed (rw 730000 500) (rw 730020 500)); auto.
  - apply lt_le, steps_lt. vm_compute. reflexivity.
  - vm_compute. left. reflexivity.
  - vm_compute. right. left. reflexivity.
  - vm_compute. reflexivity.
  - vm_compute. reflexivity.
  - vm_compute. reflexivity.
Qed.

Example C36_example : exists a b d, tdetect 6 (rising 3) = Ok a /\ io_mode a = 1 /\
  identify (fun _ => false) 2 10 45 true a = Some (b, d) /\ d = 730800 /\ io_mode b = 11.
Proof.
  eexists. eexists. eexists. split; [vm_compute; reflexivity|]. split; [vm_compute; reflexivity|].
  split; [vm_compute; reflexivity|]. split; vm_compute; reflexivity.
Qed.
