(** Concrete runs of S-CCD: behaviour that properties C21-C36 exclude, and
    ordinary runs meeting the hypotheses of the positive theorems.  The
    kernels are those of SccdToy.v or variants of them; the wrong behaviour
    is in the index arithmetic and the control flow, not in the numbers. *)
From Verif Require Import Base SortModel LibModel LibProps ColdModel ColdLemmas FrontModel FrontProps
  SccdModel SccdProof SccdTop SccdPack SccdTerm SccdApi SccdToy SccdProps.

Definition steady : list raw := rows_every 730000 20 40 500.
Definition cloudy (d : Z) : raw := mkRaw d 500 500 500 500 500 500 0 4.
Definition tk := toyk (Some (fun _ => false)) (Fin 0) (Fin 0).

(** The kernel with other stability, magnitude and angle functions. *)
Definition vary stab norm angle (_ : list Z) : skernel Z Z Z Z :=
  mkSK (k_mask1 tk) (k_fit1 tk) stab (k_back tk) (k_bangle tk) (k_first tk) (k_init tk) norm angle
       (k_rec tk) (k_filter tk) (k_skip tk) (k_store tk) (k_load tk) (k_a16 tk) (k_m16 tk) (k_snow tk) (k_sfilter tk).
Definition unstable := vary (fun _ _ => Fin 2000) (k_norm2 tk) (k_angle2 tk).
Definition nan_at (v : Z) :=
  vary (k_stab1 tk) (fun m _ o => if first_val o =? v then NaN else dist m o) (k_angle2 tk).
(** Stable only when the window starts at level 500. *)
Definition late_start := vary (fun _ w => if level w =? 500 then Fin 0 else Fin 2000) (k_norm2 tk) (k_angle2 tk).
(** Large angle when the window starts with value 3000. *)
Definition turning :=
  vary (k_stab1 tk) (k_norm2 tk)
       (fun _ _ l => match l with o :: _ => if first_val o =? 3000 then Fin 90 else Fin 0 | [] => Fin 0 end).

(** ** C21 *)

Section Stuck.
Variables N S F C : Type.
Variable K : skernel N S F C.
Variable P : sparams.
Notation cst := (cst N S C).

(** [n] iterations, all of them entered. *)
Fixpoint ahead (void : bool) (n : nat) (s : cst) : option cst :=
  match n with
  | O => Some s
  | Datatypes.S k =>
      if c_i s + sp_conse P <=? n_clr s - 1
      then match cstep K P void s with Ok s' => ahead void k s' | _ => None end else None
  end.

Lemma stuck : forall void n s s', ahead void n s = Some s' ->
  c_i s' + sp_conse P <=? n_clr s' - 1 = true -> cstep K P void s' = Ok s' ->
  forall fuel, cloop K P void fuel s = Fuel.
Proof.
  intros void n. induction n; intros s s' H Hg Hs fuel; simpl in H.
  - injection H as ->. induction fuel; cbn [cloop]; rewrite Hg; [reflexivity|]. rewrite Hs. exact IHfuel.
  - destruct (c_i s + sp_conse P <=? n_clr s - 1) eqn:E; [|discriminate].
    destruct (cstep K P void s) eqn:Es; try discriminate.
    destruct fuel; cbn [cloop]; rewrite E; [reflexivity|]. rewrite Es. cbn [bind]. eapply IHn; eassumption.
Qed.

(** State in which the loop of [sccd_standard] begins. *)
Definition start_state (x : list obs) (a : io S C) : option cst :=
  match get x (zlen x - 1), get x 0 with
  | Ok ol, Ok o0 =>
    if n_buckets (o_date ol) <? 0 then None else
    let train := Z.rem (io_mode a) 10 =? 1 in
    Some (mkC x 0 0 0 0 train
       (if train then Some (nm_start (io_model a) + launch)
        else if io_mode a =? 0 then None else Some (o_date o0))
       (if train then nm_nobs (io_model a) else 0)
       (if train then Some (k_load K (nm_st (io_model a))) else None)
       (io_recs a) (io_model a) false (io_pins a)
       (repeat (Fin 0) (Z.to_nat (n_buckets (o_date ol)))))
  | _, _ => None
  end.

Lemma standard_stuck : forall x a n s0 s', start_state x a = Some s0 -> ahead (io_mode a =? 0) n s0 = Some s' ->
  c_i s' + sp_conse P <=? n_clr s' - 1 = true -> cstep K P (io_mode a =? 0) s' = Ok s' ->
  forall fuel, standard K P fuel x a = Fuel.
Proof.
  intros x a n s0 s' H0 Hn Hg Hs fuel. unfold start_state in H0. unfold standard.
  destruct (get x (zlen x - 1)) as [ol| | |]; try discriminate.
  destruct (get x 0) as [o0| | |]; try discriminate. cbn [bind].
  destruct (n_buckets (o_date ol) <? 0); [discriminate|]. injection H0 as <-.
  rewrite (@stuck _ _ _ _ Hn Hg Hs fuel). reflexivity.
Qed.
End Stuck.

Lemma sccd_stuck : forall N S F C (K : list Z -> skernel N S F C) P junk rows (a : io S C) x rm n s0 s',
  io_mode a = 0 -> io_recs a = [] -> Forall (fun q => known_qa (q_qa q)) rows ->
  3 * qa_count [0; 1] rows >= qa_count [3] rows ->
  x = append_obs keep_std (map (fun q => (q, id_range true q)) rows) None -> 0 < zlen x ->
  min_rmse_of junk x = Ok rm ->
  start_state (K rm) x (mkIO (io_mode a) (io_recs a) (io_model a) (io_queue a) rm (io_pins a)) = Some s0 ->
  ahead (K rm) P true n s0 = Some s' -> c_i s' + sp_conse P <=? n_clr s' - 1 = true ->
  cstep (K rm) P true s' = Ok s' -> forall fuel, sccd K P true junk fuel rows a = Fuel.
Proof.
  intros N S F C K P junk rows a x rm n s0 s' Hm Hr Hq Hc Hx Hl Hrm H0 Hn Hg Hs fuel.
  unfold sccd. rewrite Hm. cbn [mode_ok Z.eqb orb negb].
  destruct (preprocess_eq true rows (mkCounts 0 0 0 0 0)) as [[_ E]|[Hex _]].
  2: { exfalso. apply Exists_exists in Hex. destruct Hex as (q & H1 & H2). rewrite Forall_forall in Hq. auto. }
  rewrite E. cbn [bind].
  assert (Es : is_snow 0 (add_counts (mkCounts 0 0 0 0 0) rows) = false).
  { unfold is_snow, add_counts. cbn [Z.eqb n_clear n_snow]. lia. }
  rewrite Es. assert (Ec : carried a = []) by (unfold carried; rewrite Hm; reflexivity). rewrite Ec.
  cbn [app]. change (last_date []) with (@None Z). rewrite <- Hx.
  replace (zlen [] <? zlen x) with true by (change (zlen (@nil obs)) with 0; lia).
  rewrite Hr. cbn [Z.eqb andb zlen length Z.of_nat]. rewrite Hrm. cbn [bind].
  rewrite Hm, Hr in H0. eapply standard_stuck; try eassumption.
Qed.

Definition no_mask (_ : list Z) := toyk None (Fin 0) (Fin 0).

(** If auto_mask reports an error, the loop never ends: no number of
    iterations suffices. *)
Theorem C21_failure_refuted : exists (K : list Z -> skernel Z Z Z Z) P rows jm,
  1 <= sp_conse P <= 6 /\ Forall good_row rows /\
  forall fuel, sccd K P true junk0 fuel rows (blank Z jm) = Fuel.
Proof.
  exists no_mask, (par 6 false), steady, jm0. split; [vm_compute; split; discriminate|].
  assert (Hr : Forall (fun q => exists k, (k < 40)%nat /\ q = rw (730000 + 20 * Z.of_nat k) 500) steady).
  { unfold steady, rows_every. rewrite Forall_map. apply Forall_forall. intros k Hk. apply in_seq in Hk.
    exists k. split; [lia|reflexivity]. }
  split.
  { eapply Forall_impl; [|exact Hr]. intros q (k & Hk & ->).
    split; [unfold launch; cbn [q_date rw]; lia|]. repeat constructor; cbn; lia. }
  eapply sccd_stuck with (n := 20%nat).
  - vm_compute. reflexivity.
  - vm_compute. reflexivity.
  - eapply Forall_impl; [|exact Hr]. intros q (k & _ & ->). left. reflexivity.
  - vm_compute. discriminate.
  - vm_compute. reflexivity.
  - vm_compute. reflexivity.
  - vm_compute. reflexivity.
  - vm_compute. reflexivity.
  - vm_compute. reflexivity.
  - vm_compute. reflexivity.
  - vm_compute. reflexivity.
Qed.

(** ** C22 *)

Definition run (K : list Z -> skernel Z Z Z Z) conse rows batches : out (io Z Z) :=
  fold_left (fun r b => a <- r ;; update K (par conse false) true junk0 jm0 b a) batches
            (detect K (par conse false) true junk0 jm0 rows).

(** With the default window of six, two of the eight saved slots are zero
    and are read back as observations of the launch day 1982-07-16.  An update
    can then report a break that precedes its own segment's start by years. *)
Theorem C22_default_window_refuted : exists rows batch b r,
  batches_ok [rows; batch] /\ run turning 6 rows [batch] = Ok b /\ In r (io_recs b) /\ g_break r < g_start r.
Proof.
  exists (rows_every 730000 20 34 500 ++ rows_every 730680 20 6 3000), (rows_every 730800 20 6 800).
  eexists. eexists. split; [|split; [vm_compute; reflexivity|split; [vm_compute; left; reflexivity|vm_compute; reflexivity]]].
  assert (Hs : forallb (fun q => (launch <=? q_date q) && (q_date q <=? launch + 32767) &&
     forallb (fun v => (-32768 <=? v) && (v <=? 32767)) [q_b q; q_g q; q_r q; q_n q; q_s1 q; q_s2 q])
     (concat [rows_every 730000 20 34 500 ++ rows_every 730680 20 6 3000; rows_every 730800 20 6 800]) = true)
    by (vm_compute; reflexivity).
  split.
  - apply Forall_forall. intros q Hq. rewrite forallb_forall in Hs. specialize (Hs q Hq).
    apply andb_prop in Hs. destruct Hs as [H1 H2]. split; [lia|]. apply Forall_forall. intros v Hv.
    rewrite forallb_forall in H2. specialize (H2 v Hv). lia.
  - clear Hs. vm_compute. repeat (constructor; [|repeat (constructor; [discriminate|]); constructor]). constructor.
Qed.

(** Two single-row updates of a steady pixel with the default window: the
    zero slots end up in the middle of the window and the filter is stepped
    over a negative number of days. *)
Theorem C22_two_updates_refuted : run toy 6 steady [[rw 730800 500]] <> UB /\
  run toy 6 steady [[rw 730800 500]; [rw 730820 500]] = UB.
Proof. split; vm_compute; [discriminate|reflexivity]. Qed.

(** ** C27 *)

Lemma absent : forall d l, existsb (Z.eqb d) l = false -> ~ In d l.
Proof.
  intros d l H Hin. assert (E : existsb (Z.eqb d) l = true) by (apply existsb_exists; exists d; split; [assumption|lia]).
  congruence.
Qed.

(** With more than 240 observations waiting, the newest is not in the queue. *)
Theorem C27_overflow_refuted : exists rows b,
  detect unstable (par 6 false) true junk0 jm0 rows = Ok b /\ io_mode b = 12 /\ zlen (io_queue b) = 240 /\
  ~ In (last_row_date rows - launch) (map o_date (io_queue b)).
Proof.
  exists (rows_every 730000 20 250 500). eexists.
  split; [vm_compute; reflexivity|]. split; [vm_compute; reflexivity|]. split; [vm_compute; reflexivity|].
  apply absent. vm_compute. reflexivity.
Qed.

(** ** C28 *)

(** A magnitude that is not a number counts as an anomaly. *)
Theorem C28_nan_refuted : exists rows b,
  detect (nan_at 560) (par 6 false) true junk0 jm0 rows = Ok b /\ io_mode b = 1 /\
  nm_last (io_model b) = 3 /\
  forall k, 0 <= k < 3 -> fgt (k_norm2 (nan_at 560 []) (nm_st (io_model b)) 0
       (nth (Z.to_nat (5 - k)) (nm_obs (io_model b)) zero_obs)) (Fin 50) = false.
Proof.
  exists (steady ++ rows_every 730800 20 3 560). eexists.
  split; [vm_compute; reflexivity|]. split; [reflexivity|]. split; [reflexivity|].
  intros k Hk. assert (E : k = 0 \/ k = 1 \/ k = 2) by lia. destruct E as [-> |[-> | ->]]; vm_compute; reflexivity.
Qed.

(** ** C29 *)

Definition late_series : list raw := rows_every 730000 20 6 900 ++ rows_every 730120 20 40 500.

(** Six observations before the first stable window, conse 7 or 8 (both
    accepted by sccd_detect): the magnitudes of the first record are taken at
    index -1. *)
Theorem C29_first_record_refuted : forall conse, conse = 7 \/ conse = 8 ->
  detect late_start (par conse false) true junk0 jm0 late_series = UB.
Proof. intros conse [-> | ->]; vm_compute; reflexivity. Qed.

(** The same series is processed with six. *)
Example C29_six_ok : exists b, detect late_start (par 6 false) true junk0 jm0 late_series = Ok b /\
  map (fun r => (g_start r, g_break r)) (io_recs b) = [(730000, 730120)].
Proof. eexists. split; vm_compute; reflexivity. Qed.

(** ** C30 *)

Definition pin_detect conse := detect toy (par conse true) true junk0 jm0.

(** Eight observations are saved although only [conse + 1] remain. *)
Theorem C30_series_end_refuted :
  pin_detect 6 (steady ++ rows_every 730800 20 7 560) = UB /\
  exists b, pin_detect 8 (steady ++ rows_every 730800 20 9 560) = Ok b.
Proof. split; [vm_compute; reflexivity|]. eexists. vm_compute. reflexivity. Qed.

(** Before 1981 the year bucket is negative. *)
Theorem C30_early_refuted :
  pin_detect 8 (rows_every 721000 20 40 500 ++ rows_every 721800 20 9 560 ++ rows_every 723600 20 4 500) = UB.
Proof. vm_compute. reflexivity. Qed.

(** One entry per year: the forty-first overruns the array. *)
Theorem C30_forty_years_refuted :
  pin_detect 8 (rw 723560 500 :: rows_every 723590 30 30 560 ++ rows_every 724490 90 166 560) = UB /\
  exists b, pin_detect 8 (rw 723560 500 :: rows_every 723590 30 30 560 ++ rows_every 724490 90 140 560) = Ok b.
Proof. split; [vm_compute; reflexivity|]. eexists. vm_compute; reflexivity. Qed.

(** ** C31 *)

(** Window lengths above eight are not refused by sccd_update. *)
Theorem C31_long_window_refuted : exists a,
  tdetect 8 steady = Ok a /\
  tupdate 10 [rw 730800 500] a = UB /\ tupdate 11 [rw 730800 500] a = UB /\
  exists b, tupdate 9 [rw 730800 500] a = Ok b /\ io_mode b = 1 /\
    ~ In (730800 - launch) (map o_date (nm_obs (io_model b))).
Proof.
  eexists. split; [vm_compute; reflexivity|]. split; [vm_compute; reflexivity|]. split; [vm_compute; reflexivity|].
  eexists. split; [vm_compute; reflexivity|]. split; [reflexivity|]. apply absent. vm_compute. reflexivity.
Qed.

(** ** C32 *)

(** min_rmse of the caller's pack is overwritten. *)
Theorem C32_alias_refuted : exists a rows b,
  tdetect 6 [cloudy 730000; cloudy 731000] = Ok a /\ tupdate 6 rows a = Ok b /\
  io_rmse (caller_pack a b) <> io_rmse a.
Proof.
  eexists. exists [rw 731020 500; rw 731400 900; rw 731800 700]. eexists.
  split; [vm_compute; reflexivity|]. split; [vm_compute; reflexivity|]. vm_compute. discriminate.
Qed.

(** ** C33 *)

(** One clear observation: min_rmse holds what the memory held before. *)
Theorem C33_one_observation_refuted : exists rows junk junk' b b',
  length junk = 6%nat /\ length junk' = 6%nat /\
  detect toy (par 6 false) true junk jm0 rows = Ok b /\ detect toy (par 6 false) true junk' jm0 rows = Ok b' /\
  io_rmse b <> io_rmse b'.
Proof.
  exists [rw 730000 500; cloudy 730400], [1; 2; 3; 4; 5; 6], junk0. eexists. eexists.
  split; [reflexivity|]. split; [reflexivity|]. split; [vm_compute; reflexivity|]. split; [vm_compute; reflexivity|].
  vm_compute. discriminate.
Qed.

(** ** C34 *)

(** Unsorted dates are accepted and kept unsorted. *)
Theorem C34_unsorted_refuted : exists rows b, ~ StronglySorted (fun p q => q_date p <= q_date q) rows /\
  tdetect 6 rows = Ok b /\ map (fun o => o_date o + launch) (io_queue b) = map q_date rows.
Proof.
  exists [rw 730000 500; rw 729000 500; rw 730400 500]. eexists. split.
  { intros H. inversion H as [|? ? _ H1]; subst. inversion H1 as [|? ? H2 _]; subst. cbn in H2. lia. }
  split; vm_compute; reflexivity.
Qed.

(** ** C35 *)

(** A change every 420 days for 47 years, window 8, one update per change:
    forty records are stored, the next one is written behind the array. *)
Definition era (k : nat) : list raw :=
  rows_every (724000 + 420 * Z.of_nat k) 20 21 (if Nat.even k then 500 else 800).
Theorem C35_many_breaks_refuted : exists a,
  run toy 8 (era 0 ++ era 1) (map era (seq 2 39)) = Ok a /\ zlen (io_recs a) = 40 /\ tupdate 8 (era 41) a = UB.
Proof. eexists. split; [vm_compute; reflexivity|]. split; vm_compute; reflexivity. Qed.

(** ** C36 *)

Definition rising (n : Z) : list raw := steady ++ rows_every 730800 20 n 560.
Definition date_of (r : out (io Z Z)) : out (option Z) :=
  a <- r ;; Ok (match identify (fun _ => false) 2 10 45 false a with Some (_, d) => Some d | None => None end).

(** Three anomalies beginning on day 730800.  Window 6: that day; window 8:
    two observations earlier.  Seven anomalies, or a pack without model:
    exception. *)
Theorem C36_window_refuted :
  date_of (tdetect 6 (rising 3)) = Ok (Some 730800) /\
  date_of (tdetect 8 (rising 3)) = Ok (Some 730760) /\
  date_of (tdetect 8 (rising 7)) = Ok None /\
  date_of (tdetect 8 [cloudy 730000; cloudy 731000]) = Ok None.
Proof. repeat split; vm_compute; reflexivity. Qed.
