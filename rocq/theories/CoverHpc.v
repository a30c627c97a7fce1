(** The classification stages of the job array as a transition system
    (src/python/pycold/imagetool/tile_processing.py 656-687 with
    pyclassifier.py 436-479, 543-566, 568-614, 645-654, 671-679): ranks that
    share a directory and wait for each other by polling for files.  C99.

    One [Step r] is one access of rank r to the directory; a file is created in
    two accesses (opened, then filled).  Hpc.v is the same for the other
    stages.

    Simplifications: the files of a block are one file per stage, and the yearly
    maps are one file (the code writes one per year and waits for all of them);
    [_clean] removes the temporary files in one access; a rank whose read fails
    stops; the wait of five seconds before the forest is read (596-598) is not
    modelled, as time is not. *)
From Coq Require Import Permutation.
From Verif Require Import Base PyIndex Sched Hpc.

(** Where a rank is (tile_processing.py lines). *)
Inductive cpc :=
| CStart                              (* 657: are the maps there? *)
| CCheck                              (* 664: are all features there? *)
| CFeat (todo : list Z)               (* 665-668, pyclassifier.py 543-566 *)
| CFeatW (b : Z) (rest : list Z)
| CFeatM (b : Z) (rest : list Z)      (* marker, pyclassifier.py 565 *)
| CWait2                              (* 671, pyclassifier.py 569-586 *)
| CTrain                              (* joblib.dump, pyclassifier.py 587-590 *)
| CTrainW
| CCls (todo : list Z)                (* 678-681, pyclassifier.py 592-610 *)
| CClsW (b : Z) (rest : list Z)
| CClsM (b : Z) (rest : list Z)       (* marker, pyclassifier.py 611-614 *)
| CWait4                              (* 684, pyclassifier.py 646-652 *)
| CMapW                               (* the maps are filled *)
| CClean                              (* pyclassifier.py 653-654, 473-479 *)
| CEnd                                (* 685-686, then the object analysis reads the maps *)
| CDone
| CDead.                              (* a read met an absent or half-written file *)

Record cdir := mkC { c_feat : Z -> file; c_m1 : Z -> bool; c_rf : file; c_cls : Z -> file; c_m3 : Z -> bool; c_map : file; c_bad : bool }.
Definition set_feat d b v := mkC (upd (c_feat d) b v) (c_m1 d) (c_rf d) (c_cls d) (c_m3 d) (c_map d) (c_bad d).
Definition set_m1 d b := mkC (c_feat d) (upd (c_m1 d) b true) (c_rf d) (c_cls d) (c_m3 d) (c_map d) (c_bad d).
Definition set_rf d v := mkC (c_feat d) (c_m1 d) v (c_cls d) (c_m3 d) (c_map d) (c_bad d).
Definition set_cls d b v := mkC (c_feat d) (c_m1 d) (c_rf d) (upd (c_cls d) b v) (c_m3 d) (c_map d) (c_bad d).
Definition set_m3 d b := mkC (c_feat d) (c_m1 d) (c_rf d) (c_cls d) (upd (c_m3 d) b true) (c_map d) (c_bad d).
Definition set_cmap d v := mkC (c_feat d) (c_m1 d) (c_rf d) (c_cls d) (c_m3 d) v (c_bad d).
Definition bad d := mkC (c_feat d) (c_m1 d) (c_rf d) (c_cls d) (c_m3 d) (c_map d) true.
(** _clean: every file whose name begins with tmp_; the forest and the maps stay *)
Definition clean d := mkC (fun _ => Absent) (fun _ => false) (c_rf d) (fun _ => Absent) (fun _ => false) (c_map d) (c_bad d).

Section Stages.
(** Number of blocks; whether the forest and the maps appear in the directory
    in one access (the code as it is: [false]). *)
Variables (nblocks : Z) (atomic : bool).
Let my (n r : Z) : list Z := my_blocks nblocks n r.
Definition fin1 (d : cdir) : bool := forallb (c_m1 d) (blocks nblocks).
Definition fin3 (d : cdir) : bool := forallb (c_m3 d) (blocks nblocks).
Definition half : file := if atomic then Complete else Partial.
Definition after1 (n r : Z) : cpc := if r =? 1 then CWait2 else CCls (my n r).

(** One access of rank r *)
Definition cstep (n r : Z) (d : cdir) (p : cpc) : cdir * cpc :=
  match p with
  | CStart => if here (c_map d) then (d, CEnd) else (d, CCheck)
  | CCheck => if fin1 d then (d, after1 n r) else (d, CFeat (my n r))
  | CFeat [] => (d, after1 n r)
  | CFeat (b :: l) => (set_feat d b Partial, CFeatW b l)
  | CFeatW b l => (set_feat d b Complete, CFeatM b l)
  | CFeatM b l => (set_m1 d b, CFeat l)
  | CWait2 => if fin1 d then
                if forallb (fun b => full (c_feat d b)) (blocks nblocks) then (d, CTrain) else (bad d, CDead)
              else (d, CWait2)
  | CTrain => (set_rf d half, CTrainW)
  | CTrainW => (set_rf d Complete, CCls (my n r))
  | CCls [] => (d, if r =? 1 then CWait4 else CEnd)
  | CCls (b :: l) => if here (c_rf d) then
                       if full (c_rf d) && full (c_feat d b) then (set_cls d b Partial, CClsW b l) else (bad d, CDead)
                     else (d, CCls (b :: l))
  | CClsW b l => (set_cls d b Complete, CClsM b l)
  | CClsM b l => (set_m3 d b, CCls l)
  | CWait4 => if fin3 d then
                if forallb (fun b => full (c_cls d b)) (blocks nblocks) then (set_cmap d half, CMapW) else (bad d, CDead)
              else (d, CWait4)
  | CMapW => (set_cmap d Complete, CClean)
  | CClean => (clean d, CEnd)
  | CEnd => if here (c_map d) then (if full (c_map d) then (d, CDone) else (bad d, CDead)) else (d, CEnd)
  | CDone => (d, CDone)
  | CDead => (d, CDead)
  end.

Record cst := mkS { k_n : Z; k_dir : cdir; k_pc : Z -> cpc }.
Inductive cevent := CStep (r : Z) | CResubmit (n : Z).
Definition cfire (e : cevent) (s : cst) : cst :=
  match e with
  | CStep r => if (1 <=? r) && (r <=? k_n s) then
                 let (d, p) := cstep (k_n s) r (k_dir s) (k_pc s r) in mkS (k_n s) d (upd (k_pc s) r p)
               else s
  | CResubmit n => mkS n (k_dir s) (fun _ => CStart)
  end.
Definition cempty : cdir := mkC (fun _ => Absent) (fun _ => false) Absent (fun _ => Absent) (fun _ => false) Absent false.
Definition cinit (n : Z) : cst := mkS n cempty (fun _ => CStart).
Fixpoint cexec (es : list cevent) (s : cst) : cst := match es with [] => s | e :: l => cexec l (cfire e s) end.
(** One submission: no rank crashes. *)
Definition one_submission (es : list cevent) : Prop := forall e, In e es -> exists r, e = CStep r.

(** ** Invariant of one submission *)
Definition rem1 (n r : Z) (p : cpc) : list Z :=
  match p with CStart | CCheck => my n r | CFeat l => l | CFeatW b l | CFeatM b l => b :: l | _ => [] end.
Definition rem3 (n r : Z) (p : cpc) : list Z :=
  match p with
  | CStart | CCheck | CFeat _ | CFeatW _ _ | CFeatM _ _ | CWait2 | CTrain | CTrainW => my n r
  | CCls l => l | CClsW b l | CClsM b l => b :: l | _ => []
  end.
Definition early (p : cpc) : bool := match p with CStart | CCheck | CFeat _ | CFeatW _ _ | CFeatM _ _ | CWait2 | CTrain => true | _ => false end.
Definition past (p : cpc) : bool := match p with CMapW | CClean | CEnd | CDone => true | _ => false end.
Definition cleaned (p : cpc) : bool := match p with CEnd | CDone => true | _ => false end.
Definition only1 (p : cpc) : bool := match p with CWait2 | CTrain | CTrainW | CWait4 | CMapW | CClean => true | _ => false end.
Definition got (l : list Z) (m : bool) (f : file) (b : Z) : Prop := (In b l /\ m = false) \/ (m = true /\ f = Complete /\ ~ In b l).

Record good (s : cst) : Prop := mkG {
  g_n : 1 <= k_n s;
  g_ok : c_bad (k_dir s) = false;
  g_live : forall r, 1 <= r <= k_n s -> k_pc s r <> CDead;
  g_only : forall r, 1 <= r <= k_n s -> only1 (k_pc s r) = true -> r = 1;
  g_map0 : past (k_pc s 1) = false -> c_map (k_dir s) = Absent;
  g_map1 : past (k_pc s 1) = true -> c_map (k_dir s) = Complete;
  g_rf0 : early (k_pc s 1) = true -> c_rf (k_dir s) = Absent;
  g_rf1 : early (k_pc s 1) = false -> c_rf (k_dir s) = Complete;
  g_feat : cleaned (k_pc s 1) = false -> forall r b, 1 <= r <= k_n s -> In b (my (k_n s) r) ->
             got (rem1 (k_n s) r (k_pc s r)) (c_m1 (k_dir s) b) (c_feat (k_dir s) b) b;
  g_cls : past (k_pc s 1) = false -> forall r b, 1 <= r <= k_n s -> In b (my (k_n s) r) ->
             got (rem3 (k_n s) r (k_pc s r)) (c_m3 (k_dir s) b) (c_cls (k_dir s) b) b;
  g_past : past (k_pc s 1) = true -> forall r, 1 <= r <= k_n s -> rem3 (k_n s) r (k_pc s r) = [];
  g_own1 : forall r, 1 <= r <= k_n s -> NoDup (rem1 (k_n s) r (k_pc s r)) /\ incl (rem1 (k_n s) r (k_pc s r)) (my (k_n s) r);
  g_own3 : forall r, 1 <= r <= k_n s -> NoDup (rem3 (k_n s) r (k_pc s r)) /\ incl (rem3 (k_n s) r (k_pc s r)) (my (k_n s) r);
  g_featm : forall r b l, 1 <= r <= k_n s -> k_pc s r = CFeatM b l -> c_feat (k_dir s) b = Complete;
  g_clsm : forall r b l, 1 <= r <= k_n s -> k_pc s r = CClsM b l -> c_cls (k_dir s) b = Complete }.

Lemma my_nodup : forall n r, 1 <= n -> 1 <= r <= n -> NoDup (my n r).
Proof. intros n r Hn Hr. destruct (@C53_blocks n nblocks ltac:(lia)) as [A _]. apply (A r Hr). Qed.
Lemma own_unique : forall n r r' b, 1 <= n -> 1 <= r <= n -> 1 <= r' <= n -> In b (my n r) -> In b (my n r') -> r = r'.
Proof. exact (@owner_unique nblocks (fun _ => true)). Qed.
Lemma own_exists : forall n b, 1 <= n -> In b (blocks nblocks) -> exists r, 1 <= r <= n /\ In b (my n r).
Proof. exact (@owner_exists nblocks (fun _ => true)). Qed.
Lemma own_in : forall n r b, 1 <= n -> 1 <= r <= n -> In b (my n r) -> In b (blocks nblocks).
Proof. exact (@my_blocks_in nblocks (fun _ => true)). Qed.
Lemma good_init : forall n, 1 <= n -> good (cinit n).
Proof.
  intros n Hn. constructor; cbn [cinit k_n k_dir k_pc cempty c_bad c_map c_rf c_m1 c_feat c_m3 c_cls past early only1 rem1 rem3]; try discriminate; auto.
  - intros _ r b Hr Hb. left. auto.
  - intros _ r b Hr Hb. left. auto.
  - intros r Hr. split; [apply my_nodup; assumption|apply incl_refl].
  - intros r Hr. split; [apply my_nodup; assumption|apply incl_refl].
Qed.

(** A step that changes only what belongs to the rank itself, and neither
    assembles nor cleans. *)
Lemma pres : forall s r d' p', good s -> 1 <= r <= k_n s ->
  c_bad d' = false -> p' <> CDead -> (only1 p' = true -> r = 1) ->
  (forall b, ~ In b (my (k_n s) r) -> c_feat d' b = c_feat (k_dir s) b /\ c_m1 d' b = c_m1 (k_dir s) b /\ c_cls d' b = c_cls (k_dir s) b /\ c_m3 d' b = c_m3 (k_dir s) b) ->
  c_map d' = c_map (k_dir s) ->
  (r <> 1 -> c_rf d' = c_rf (k_dir s)) ->
  (r = 1 -> (early p' = true -> c_rf d' = Absent) /\ (early p' = false -> c_rf d' = Complete)) ->
  (r = 1 -> cleaned p' = cleaned (k_pc s 1) /\ past p' = past (k_pc s 1)) ->
  (cleaned (k_pc s 1) = false -> forall b, In b (my (k_n s) r) -> got (rem1 (k_n s) r p') (c_m1 d' b) (c_feat d' b) b) ->
  (past (k_pc s 1) = false -> forall b, In b (my (k_n s) r) -> got (rem3 (k_n s) r p') (c_m3 d' b) (c_cls d' b) b) ->
  (past (k_pc s 1) = true -> rem3 (k_n s) r p' = []) ->
  (NoDup (rem1 (k_n s) r p') /\ incl (rem1 (k_n s) r p') (my (k_n s) r)) ->
  (NoDup (rem3 (k_n s) r p') /\ incl (rem3 (k_n s) r p') (my (k_n s) r)) ->
  (forall b l, p' = CFeatM b l -> c_feat d' b = Complete) -> (forall b l, p' = CClsM b l -> c_cls d' b = Complete) ->
  good (mkS (k_n s) d' (upd (k_pc s) r p')).
Proof.
  intros s r d' p' G Hr Hbad Hdead Honly Hsame Hmap Hrf Hrf1 Hcp HF HC HP HO1 HO3 HM1 HM3. destruct G.
  assert (U : forall r' b, 1 <= r' <= k_n s -> r' <> r -> In b (my (k_n s) r') -> ~ In b (my (k_n s) r)).
  { intros r' b Hr' Ne Hb Hb'. apply Ne. apply (@own_unique (k_n s) r' r b); assumption. }
  assert (PC : past (upd (k_pc s) r p' 1) = past (k_pc s 1) /\ cleaned (upd (k_pc s) r p' 1) = cleaned (k_pc s 1)).
  { destruct (Z.eq_dec r 1) as [->|Ne]; [rewrite upd_same; destruct (Hcp eq_refl); auto|rewrite upd_other by lia; auto]. }
  destruct PC as [PA CL].
  constructor; cbn [k_n k_dir k_pc]; rewrite ?PA, ?CL; auto.
  - intros r' Hr'. destruct (Z.eq_dec r' r) as [->|Ne]; [rewrite upd_same; exact Hdead|rewrite upd_other by assumption; auto].
  - intros r' Hr'. destruct (Z.eq_dec r' r) as [->|Ne]; [rewrite upd_same; auto|rewrite upd_other by assumption; auto].
  - rewrite Hmap. exact g_map2.
  - rewrite Hmap. exact g_map3.
  - destruct (Z.eq_dec r 1) as [->|Ne]; [rewrite upd_same; apply (Hrf1 eq_refl)|rewrite upd_other by lia; rewrite (Hrf Ne); exact g_rf2].
  - destruct (Z.eq_dec r 1) as [->|Ne]; [rewrite upd_same; apply (Hrf1 eq_refl)|rewrite upd_other by lia; rewrite (Hrf Ne); exact g_rf3].
  - intros C r' b Hr' Hb. destruct (Z.eq_dec r' r) as [->|Ne]; [rewrite upd_same; auto|rewrite upd_other by assumption].
    destruct (Hsame b (U r' b Hr' Ne Hb)) as (A1 & A2 & A3 & A4). rewrite A1, A2. auto.
  - intros C r' b Hr' Hb. destruct (Z.eq_dec r' r) as [->|Ne]; [rewrite upd_same; auto|rewrite upd_other by assumption].
    destruct (Hsame b (U r' b Hr' Ne Hb)) as (A1 & A2 & A3 & A4). rewrite A3, A4. auto.
  - intros C r' Hr'. destruct (Z.eq_dec r' r) as [->|Ne]; [rewrite upd_same; auto|rewrite upd_other by assumption; auto].
  - intros r' Hr'. destruct (Z.eq_dec r' r) as [->|Ne]; [rewrite upd_same; auto|rewrite upd_other by assumption; auto].
  - intros r' Hr'. destruct (Z.eq_dec r' r) as [->|Ne]; [rewrite upd_same; auto|rewrite upd_other by assumption; auto].
  - intros r' b l Hr'. destruct (Z.eq_dec r' r) as [->|Ne]; [rewrite upd_same; apply HM1|rewrite upd_other by assumption].
    intro E. assert (Hb : In b (my (k_n s) r')). { apply (proj2 (g_own2 r' Hr')). rewrite E. left. reflexivity. }
    destruct (Hsame b (U r' b Hr' Ne Hb)) as (A1 & _). rewrite A1. apply (g_featm0 r' b l Hr' E).
  - intros r' b l Hr'. destruct (Z.eq_dec r' r) as [->|Ne]; [rewrite upd_same; apply HM3|rewrite upd_other by assumption].
    intro E. assert (Hb : In b (my (k_n s) r')). { apply (proj2 (g_own4 r' Hr')). rewrite E. left. reflexivity. }
    destruct (Hsame b (U r' b Hr' Ne Hb)) as (_ & _ & A1 & _). rewrite A1. apply (g_clsm0 r' b l Hr' E).
Qed.

Hypothesis Hatomic : atomic = true.
Lemma got_all : forall s, good s -> cleaned (k_pc s 1) = false -> fin1 (k_dir s) = true -> forall r, 1 <= r <= k_n s -> rem1 (k_n s) r (k_pc s r) = [].
Proof.
  intros s G C F1 r Hr. destruct (rem1 (k_n s) r (k_pc s r)) as [|b l] eqn:E; [reflexivity|]. exfalso.
  assert (Hb : In b (my (k_n s) r)) by (apply (proj2 (@g_own1 s G r Hr)); rewrite E; left; reflexivity).
  unfold fin1 in F1. rewrite forallb_forall in F1. pose proof (F1 b (@own_in (k_n s) r b (@g_n s G) Hr Hb)) as M.
  destruct (@g_feat s G C r b Hr Hb) as [[_ X]|(_ & _ & X)]; [congruence|]. apply X. rewrite E. left. reflexivity.
Qed.
Lemma got_all3 : forall s, good s -> past (k_pc s 1) = false -> fin3 (k_dir s) = true -> forall r, 1 <= r <= k_n s -> rem3 (k_n s) r (k_pc s r) = [].
Proof.
  intros s G C F1 r Hr. destruct (rem3 (k_n s) r (k_pc s r)) as [|b l] eqn:E; [reflexivity|]. exfalso.
  assert (Hb : In b (my (k_n s) r)) by (apply (proj2 (@g_own3 s G r Hr)); rewrite E; left; reflexivity).
  unfold fin3 in F1. rewrite forallb_forall in F1. pose proof (F1 b (@own_in (k_n s) r b (@g_n s G) Hr Hb)) as M.
  destruct (@g_cls s G C r b Hr Hb) as [[_ X]|(_ & _ & X)]; [congruence|]. apply X. rewrite E. left. reflexivity.
Qed.
Lemma past_cleaned : forall p, cleaned p = true -> past p = true.
Proof. intros []; cbn; congruence. Qed.
Lemma good_step : forall s r, good s -> 1 <= r <= k_n s -> good (cfire (CStep r) s).
Proof.
  intros s r G Hr. cbn [cfire]. replace ((1 <=? r) && (r <=? k_n s)) with true by lia.
  pose proof (@g_n s G) as Hn. pose proof (@g_ok s G) as Hok. pose proof (@g_live s G r Hr) as Hlive. pose proof (@g_only s G r Hr) as Honly.
  pose proof (@g_own1 s G r Hr) as O1. pose proof (@g_own3 s G r Hr) as O3. pose proof (@g_past s G) as HP. pose proof (fun H => HP H r Hr) as HPr.
  pose proof (fun H b Hb => @g_feat s G H r b Hr Hb) as HF. pose proof (fun H b Hb => @g_cls s G H r b Hr Hb) as HC.
  pose proof (@my_nodup (k_n s) r Hn Hr) as Hnd.
  assert (RF : r = 1 -> (early (k_pc s r) = true -> c_rf (k_dir s) = Absent) /\ (early (k_pc s r) = false -> c_rf (k_dir s) = Complete)).
  { intros ->. split; [exact (@g_rf0 s G)|exact (@g_rf1 s G)]. }
  assert (E1 : r = 1 -> k_pc s 1 = k_pc s r) by congruence.
  assert (HA : forall n, (if r =? 1 then CWait2 else CCls (my n r)) <> CDead) by (intro; destruct (r =? 1); discriminate).
  destruct (k_pc s r) as [| |[|b l]|b l|b l| | | |[|b l]|b l|b l| | | | | |] eqn:E; cbn [cstep]; cbn [rem1 rem3] in O1, O3, HF, HC, HPr; cbn [only1] in Honly.
  - (* CStart *) destruct (here (c_map (k_dir s))) eqn:M.
    + assert (PT : past (k_pc s 1) = true). { destruct (past (k_pc s 1)) eqn:X; [reflexivity|]. rewrite (@g_map0 s G X) in M. discriminate. }
      assert (r <> 1) by (intros ->; rewrite E in PT; discriminate).
      apply pres; auto; try discriminate; try tauto.
      all: cbn [rem1 rem3]; try rewrite (HPr PT) in *; try tauto; try (intros; congruence). all: try (split; [constructor|intros x []]).
    + apply pres; auto; try discriminate; try tauto. intros H1. rewrite (E1 H1). auto.
  - (* CCheck *) destruct (fin1 (k_dir s)) eqn:F.
    + assert (MY : my (k_n s) r = []).
      { destruct (cleaned (k_pc s 1)) eqn:X; [apply HPr, past_cleaned, X|]. pose proof (@got_all s G X F r Hr) as Y. rewrite E in Y. exact Y. }
      unfold after1. rewrite MY in *. apply pres; auto; destruct (Z.eqb_spec r 1) as [R1|R1]; try discriminate; try tauto; cbn [rem1 rem3 early]; rewrite ?MY; auto; try (intros; congruence).
      all: try (intros H1; rewrite (E1 H1); cbn; auto; fail). all: try (split; [constructor|intros x []]).
      all: try (intros _ b0 []).
    + apply pres; auto; try discriminate; try tauto. intros H1. rewrite (E1 H1). auto.
  - (* CFeat [] *) unfold after1. apply pres; auto; destruct (Z.eqb_spec r 1) as [R1|R1]; try discriminate; try tauto; cbn [rem1 rem3 early]; auto; try (intros; congruence).
    intros H1; rewrite (E1 H1); auto.
  - (* CFeat *) assert (Hb : In b (my (k_n s) r)) by (apply O1; left; reflexivity).
    apply pres; auto; try discriminate; try tauto.
    + intros b0 N0. cbn [set_feat c_feat c_m1 c_cls c_m3]. rewrite upd_other by congruence. auto.
    + intros H1; rewrite (E1 H1); auto.
    + intros C b0 Hb0. cbn [set_feat c_feat c_m1 rem1]. specialize (HF C b0 Hb0). unfold upd. destruct (Z.eqb_spec b0 b) as [->|Ne]; [|exact HF].
      destruct HF as [X|(_ & _ & X)]; [left; exact X|exfalso; apply X; left; reflexivity].
  - (* CFeatW *) assert (Hb : In b (my (k_n s) r)) by (apply O1; left; reflexivity).
    apply pres; auto; try discriminate; try tauto.
    + intros b0 N0. cbn [set_feat c_feat c_m1 c_cls c_m3]. rewrite upd_other by congruence. auto.
    + intros H1; rewrite (E1 H1); auto.
    + intros C b0 Hb0. cbn [set_feat c_feat c_m1 rem1]. specialize (HF C b0 Hb0). unfold upd. destruct (Z.eqb_spec b0 b) as [->|Ne]; [|exact HF].
      destruct HF as [X|(_ & _ & X)]; [left; exact X|exfalso; apply X; left; reflexivity].
    + intros b0 l0 X. injection X as <- <-. cbn [set_feat c_feat]. apply upd_same.
  - (* CFeatM *) assert (Hb : In b (my (k_n s) r)) by (apply O1; left; reflexivity).
    destruct O1 as [N1 I1]. apply NoDup_cons_iff in N1. destruct N1 as [Nb N1].
    apply pres; auto; try discriminate; try tauto.
    + intros b0 N0. cbn [set_m1 c_feat c_m1 c_cls c_m3]. rewrite upd_other by congruence. auto.
    + intros H1; rewrite (E1 H1); auto.
    + intros C b0 Hb0. cbn [set_m1 c_feat c_m1 rem1]. specialize (HF C b0 Hb0). unfold upd. destruct (Z.eqb_spec b0 b) as [->|Ne].
      * right. split; [reflexivity|]. split; [exact (@g_featm s G r b l Hr E)|exact Nb].
      * destruct HF as [[[X|X] Y]|(X & Y & Z0)]; [congruence|left; auto|right; split; [exact X|split; [exact Y|intro W; apply Z0; right; exact W]]].
    + split; [exact N1|intros x Hx; apply I1; right; exact Hx].
  - (* CWait2 *) assert (R1 : r = 1) by (apply Honly; reflexivity). destruct (fin1 (k_dir s)) eqn:F.
    + assert (C : cleaned (k_pc s 1) = false) by (rewrite (E1 R1); reflexivity).
      replace (forallb (fun b => full (c_feat (k_dir s) b)) (blocks nblocks)) with true.
      2:{ symmetry. rewrite forallb_forall. intros b Hb. destruct (@own_exists (k_n s) b Hn Hb) as (o & Ho & Hi).
          destruct (@g_feat s G C o b Ho Hi) as [[X _]|(_ & X & _)]; [|rewrite X; reflexivity]. rewrite (@got_all s G C F o Ho) in X. destruct X. }
      apply pres; auto; try discriminate; try tauto. all: try (intros H1; rewrite (E1 H1); auto).
    + apply pres; auto; try discriminate; try tauto. all: try (intros H1; rewrite (E1 H1); auto).
  - (* CTrain *) unfold half. rewrite Hatomic. assert (R1 : r = 1) by (apply Honly; reflexivity).
    apply pres; auto; try discriminate; try tauto.
    all: try (intros H1; rewrite (E1 H1); auto; fail). all: try (intros _; split; [discriminate|reflexivity]).
  - (* CTrainW *) assert (R1 : r = 1) by (apply Honly; reflexivity).
    apply pres; auto; try discriminate; try tauto.
    all: try (intros H1; rewrite (E1 H1); auto; fail). all: try (intros _; split; [discriminate|reflexivity]).
  - (* CCls [] *) apply pres; auto; destruct (Z.eqb_spec r 1) as [R1|R1]; try discriminate; try tauto; cbn [rem1 rem3 early]; auto; try (intros; congruence).
    intros H1; rewrite (E1 H1); auto.
  - (* CCls *) assert (Hb : In b (my (k_n s) r)) by (apply O3; left; reflexivity).
    assert (PF : past (k_pc s 1) = false) by (destruct (past (k_pc s 1)); [specialize (HPr eq_refl); discriminate|reflexivity]).
    assert (C : cleaned (k_pc s 1) = false) by (destruct (cleaned (k_pc s 1)) eqn:X; [apply past_cleaned in X; congruence|reflexivity]).
    destruct (here (c_rf (k_dir s))) eqn:H.
    + assert (RC : c_rf (k_dir s) = Complete).
      { destruct (early (k_pc s 1)) eqn:X; [rewrite (@g_rf0 s G X) in H; discriminate|exact (@g_rf1 s G X)]. }
      assert (FC : c_feat (k_dir s) b = Complete) by (destruct (HF C b Hb) as [[[] _]|(_ & X & _)]; exact X).
      rewrite RC, FC. cbn [full andb].
      apply pres; auto; try discriminate; try tauto.
      * intros b0 N0. cbn [set_cls c_feat c_m1 c_cls c_m3]. rewrite upd_other by congruence. auto.
      * intros _ b0 Hb0. cbn [set_cls c_cls c_m3 rem3]. specialize (HC PF b0 Hb0). unfold upd. destruct (Z.eqb_spec b0 b) as [->|Ne]; [|exact HC].
        destruct HC as [X|(_ & _ & X)]; [left; exact X|exfalso; apply X; left; reflexivity].
    + apply pres; auto; try discriminate; try tauto. all: try (intros H1; rewrite (E1 H1); auto).
  - (* CClsW *) assert (Hb : In b (my (k_n s) r)) by (apply O3; left; reflexivity).
    apply pres; auto; try discriminate; try tauto.
    + intros b0 N0. cbn [set_cls c_feat c_m1 c_cls c_m3]. rewrite upd_other by congruence. auto.
    + intros H1; rewrite (E1 H1); auto.
    + intros PF b0 Hb0. cbn [set_cls c_cls c_m3 rem3]. specialize (HC PF b0 Hb0). unfold upd. destruct (Z.eqb_spec b0 b) as [->|Ne]; [|exact HC].
      destruct HC as [X|(_ & _ & X)]; [left; exact X|exfalso; apply X; left; reflexivity].
    + intros b0 l0 X. injection X as <- <-. cbn [set_cls c_cls]. apply upd_same.
  - (* CClsM *) assert (Hb : In b (my (k_n s) r)) by (apply O3; left; reflexivity).
    destruct O3 as [N1 I1]. apply NoDup_cons_iff in N1. destruct N1 as [Nb N1].
    apply pres; auto; try discriminate; try tauto.
    + intros b0 N0. cbn [set_m3 c_feat c_m1 c_cls c_m3]. rewrite upd_other by congruence. auto.
    + intros H1; rewrite (E1 H1); auto.
    + intros PF b0 Hb0. cbn [set_m3 c_cls c_m3 rem3]. specialize (HC PF b0 Hb0). unfold upd. destruct (Z.eqb_spec b0 b) as [->|Ne].
      * right. split; [reflexivity|]. split; [exact (@g_clsm s G r b l Hr E)|exact Nb].
      * destruct HC as [[[X|X] Y]|(X & Y & Z0)]; [congruence|left; auto|right; split; [exact X|split; [exact Y|intro W; apply Z0; right; exact W]]].
    + intros PT. specialize (HPr PT). discriminate.
    + split; [exact N1|intros x Hx; apply I1; right; exact Hx].
  - (* CWait4 *) assert (R1 : r = 1) by (apply Honly; reflexivity). destruct (fin3 (k_dir s)) eqn:F.
    + assert (PF : past (k_pc s 1) = false) by (rewrite (E1 R1); reflexivity).
      replace (forallb (fun b => full (c_cls (k_dir s) b)) (blocks nblocks)) with true.
      2:{ symmetry. rewrite forallb_forall. intros b Hb. destruct (@own_exists (k_n s) b Hn Hb) as (o & Ho & Hi).
          destruct (@g_cls s G PF o b Ho Hi) as [[X _]|(_ & X & _)]; [|rewrite X; reflexivity]. rewrite (@got_all3 s G PF F o Ho) in X. destruct X. }
      unfold half. rewrite Hatomic. subst r. pose proof (@got_all3 s G PF F) as NO.
      constructor; cbn [k_n k_dir k_pc set_cmap c_bad c_map c_rf c_m1 c_feat c_m3 c_cls]; rewrite ?upd_same; cbn [past early cleaned]; auto; try discriminate.
      * intros r' Hr'. destruct (Z.eq_dec r' 1) as [->|Ne]; [rewrite upd_same; discriminate|rewrite upd_other by assumption; apply (@g_live s G r' Hr')].
      * intros r' Hr'. destruct (Z.eq_dec r' 1) as [->|Ne]; [auto|rewrite upd_other by assumption; apply (@g_only s G r' Hr')].
      * intros _. apply (@g_rf1 s G). rewrite E. reflexivity.
      * intros _ r' b Hr' Hb. assert (C : cleaned (k_pc s 1) = false) by (rewrite E; reflexivity). pose proof (@g_feat s G C r' b Hr' Hb) as Q.
        destruct (Z.eq_dec r' 1) as [->|Ne]; [rewrite upd_same; rewrite E in Q; exact Q|rewrite upd_other by assumption; exact Q].
      * intros _ r' Hr'. destruct (Z.eq_dec r' 1) as [->|Ne]; [rewrite upd_same; reflexivity|rewrite upd_other by assumption; apply NO; exact Hr'].
      * intros r' Hr'. destruct (Z.eq_dec r' 1) as [->|Ne]; [rewrite upd_same; split; [constructor|intros x []]|rewrite upd_other by assumption; apply (@g_own1 s G r' Hr')].
      * intros r' Hr'. destruct (Z.eq_dec r' 1) as [->|Ne]; [rewrite upd_same; split; [constructor|intros x []]|rewrite upd_other by assumption; apply (@g_own3 s G r' Hr')].
      * intros r' b l Hr'. destruct (Z.eq_dec r' 1) as [->|Ne]; [rewrite upd_same; discriminate|rewrite upd_other by assumption; apply (@g_featm s G r' b l Hr')].
      * intros r' b l Hr'. destruct (Z.eq_dec r' 1) as [->|Ne]; [rewrite upd_same; discriminate|rewrite upd_other by assumption; apply (@g_clsm s G r' b l Hr')].
    + apply pres; auto; try discriminate; try tauto. all: try (intros H1; rewrite (E1 H1); auto).
  - (* CMapW *) assert (R1 : r = 1) by (apply Honly; reflexivity). 
    apply pres; auto; try discriminate; try tauto.
    + cbn [set_cmap c_map]. symmetry. apply (@g_map1 s G). rewrite (E1 R1). reflexivity.
    + intros H1; rewrite (E1 H1); auto.
  - (* CClean *) assert (R1 : r = 1) by (apply Honly; reflexivity). subst r.
    assert (PT : past (k_pc s 1) = true) by (rewrite E; reflexivity).
    constructor; cbn [k_n k_dir k_pc clean c_bad c_map c_rf c_m1 c_feat c_m3 c_cls]; rewrite ?upd_same; cbn [past early cleaned]; auto; try discriminate.
    * intros r' Hr'. destruct (Z.eq_dec r' 1) as [->|Ne]; [rewrite upd_same; discriminate|rewrite upd_other by assumption; apply (@g_live s G r' Hr')].
    * intros r' Hr'. destruct (Z.eq_dec r' 1) as [->|Ne]; [auto|rewrite upd_other by assumption; apply (@g_only s G r' Hr')].
    * intros _. apply (@g_map1 s G PT).
    * intros _. apply (@g_rf1 s G). rewrite E. reflexivity.
    * intros _ r' Hr'. destruct (Z.eq_dec r' 1) as [->|Ne]; [rewrite upd_same; reflexivity|rewrite upd_other by assumption; apply (@g_past s G PT r' Hr')].
    * intros r' Hr'. destruct (Z.eq_dec r' 1) as [->|Ne]; [rewrite upd_same; split; [constructor|intros x []]|rewrite upd_other by assumption; apply (@g_own1 s G r' Hr')].
    * intros r' Hr'. destruct (Z.eq_dec r' 1) as [->|Ne]; [rewrite upd_same; split; [constructor|intros x []]|rewrite upd_other by assumption; apply (@g_own3 s G r' Hr')].
    * intros r' b l Hr' X. exfalso. destruct (Z.eq_dec r' 1) as [->|Ne]; [rewrite upd_same in X; discriminate|rewrite upd_other in X by assumption].
      pose proof (@g_past s G PT r' Hr') as Y. pose proof (proj2 (@g_own1 s G r' Hr')) as I1. rewrite X in Y, I1. cbn [rem3] in Y. rewrite Y in I1. destruct (I1 b). left. reflexivity.
    * intros r' b l Hr' X. exfalso. destruct (Z.eq_dec r' 1) as [->|Ne]; [rewrite upd_same in X; discriminate|rewrite upd_other in X by assumption].
      pose proof (@g_past s G PT r' Hr') as Y. rewrite X in Y. discriminate.
  - (* CEnd *) destruct (here (c_map (k_dir s))) eqn:H.
    + assert (MC : c_map (k_dir s) = Complete).
      { destruct (past (k_pc s 1)) eqn:X; [exact (@g_map1 s G X)|rewrite (@g_map0 s G X) in H; discriminate]. }
      rewrite MC. cbn [full]. apply pres; auto; try discriminate; try tauto. all: try (intros H1; rewrite (E1 H1); auto).
    + apply pres; auto; try discriminate; try tauto. all: try (intros H1; rewrite (E1 H1); auto).
  - (* CDone *) apply pres; auto; try discriminate; try tauto. all: try (intros H1; rewrite (E1 H1); auto).
  - (* CDead *) congruence.
Qed.

Lemma good_exec : forall es s, good s -> one_submission es -> good (cexec es s).
Proof.
  induction es as [|e es IH]; intros s G H; [exact G|]. cbn [cexec]. apply IH; [|intros x Hx; apply H; right; exact Hx].
  destruct (H e (or_introl eq_refl)) as (r & ->). destruct (Z_le_dec 1 r) as [A|A]; [destruct (Z_le_dec r (k_n s)) as [B|B]|].
  - apply good_step; [exact G|lia].
  - cbn [cfire]. replace ((1 <=? r) && (r <=? k_n s)) with false by lia. exact G.
  - cbn [cfire]. replace ((1 <=? r) && (r <=? k_n s)) with false by lia. exact G.
Qed.
(** Without crashes, and if the forest and the maps appear complete, no rank
    ever reads an absent or half-written file. *)
Theorem C99_reads_partial : forall n es, 1 <= n -> one_submission es ->
  c_bad (k_dir (cexec es (cinit n))) = false /\ forall r, 1 <= r <= n -> k_pc (cexec es (cinit n)) r <> CDead.
Proof.
  intros n es Hn H. pose proof (good_exec (good_init Hn) H) as G. split; [apply (@g_ok _ G)|]. intros r Hr. apply (@g_live _ G).
  replace (k_n (cexec es (cinit n))) with n; [exact Hr|]. clear G Hr. assert (X : forall es s, one_submission es -> k_n (cexec es s) = k_n s).
  { clear. induction es as [|e es IH]; intros s H; [reflexivity|]. cbn [cexec]. rewrite IH by (intros x Hx; apply H; right; exact Hx).
    destruct (H e (or_introl eq_refl)) as (r & ->). cbn [cfire]. destruct ((1 <=? r) && (r <=? k_n s)); [destruct (cstep _ _ _ _)|]; reflexivity. }
  rewrite X by exact H. reflexivity.
Qed.

(** ** Progress *)
Definition moves (d : cdir) (p : cpc) : bool :=
  match p with
  | CWait2 => fin1 d | CCls (_ :: _) => here (c_rf d) | CWait4 => fin3 d | CEnd => here (c_map d) | CDone | CDead => false | _ => true
  end.
Definition cweight (n r : Z) (p : cpc) : nat :=
  let L := length (my n r) in
  match p with
  | CStart => 6 * L + 11 | CCheck => 6 * L + 10
  | CFeat l => 3 * length l + 3 * L + 9 | CFeatW _ l => 3 * length l + 3 * L + 11 | CFeatM _ l => 3 * length l + 3 * L + 10
  | CWait2 => 3 * L + 8 | CTrain => 3 * L + 7 | CTrainW => 3 * L + 6
  | CCls l => 3 * length l + 5 | CClsW _ l => 3 * length l + 7 | CClsM _ l => 3 * length l + 6
  | CWait4 => 4 | CMapW => 3 | CClean => 2 | CEnd => 1 | CDone => 0 | CDead => 0
  end%nat.
Lemma cweight_dec : forall n r d p, moves d p = true -> (cweight n r (snd (cstep n r d p)) < cweight n r p)%nat.
Proof.
  intros n r d p H. destruct p as [| |[|b l]|b l|b l| | | |[|b l]|b l|b l| | | | | |]; cbn [moves] in H; try discriminate; cbn [cstep].
  - destruct (here (c_map d)); cbn [snd cweight]; lia.
  - destruct (fin1 d); unfold after1; [destruct (r =? 1)|]; cbn [snd cweight]; lia.
  - unfold after1; destruct (r =? 1); cbn [snd cweight length]; lia.
  - cbn [snd cweight length]; lia.
  - cbn [snd cweight length]; lia.
  - cbn [snd cweight length]; lia.
  - rewrite H. destruct (forallb _ _); cbn [snd cweight]; lia.
  - cbn [snd cweight length]; lia.
  - cbn [snd cweight length]; lia.
  - destruct (r =? 1); cbn [snd cweight length]; lia.
  - rewrite H. destruct (full (c_rf d) && full (c_feat d b)); cbn [snd cweight length]; lia.
  - cbn [snd cweight length]; lia.
  - cbn [snd cweight length]; lia.
  - rewrite H. destruct (forallb _ _); cbn [snd cweight]; lia.
  - cbn [snd cweight length]; lia.
  - cbn [snd cweight length]; lia.
  - rewrite H. destruct (full (c_map d)); cbn [snd cweight]; lia.
Qed.
Lemma cblocked : forall n r d p, moves d p = false -> cstep n r d p = (d, p).
Proof.
  intros n r d p H. destruct p as [| |[|b l]|b l|b l| | | |[|b l]|b l|b l| | | | | |]; cbn [moves] in H; try discriminate; cbn [cstep]; rewrite ?H; reflexivity.
Qed.
Definition cfinished (s : cst) : Prop := forall r, 1 <= r <= k_n s -> k_pc s r = CDone.
Lemma cprogress : forall s, good s -> cfinished s \/ exists r, 1 <= r <= k_n s /\ moves (k_dir s) (k_pc s r) = true.
Proof.
  intros s G. pose proof (@g_n s G) as Hn.
  destruct (existsb (fun r => moves (k_dir s) (k_pc s r)) (zrange 1 (k_n s))) eqn:EX.
  { apply existsb_exists in EX. destruct EX as (r & Hr & He). apply zrange_In in Hr. right. exists r. split; [lia|exact He]. }
  left. assert (NO : forall r, 1 <= r <= k_n s -> moves (k_dir s) (k_pc s r) = false).
  { intros r Hr. destruct (moves (k_dir s) (k_pc s r)) eqn:E; [|reflexivity].
    rewrite <- EX. symmetry. apply existsb_exists. exists r. split; [apply zrange_In; lia|exact E]. }
  assert (H1 : 1 <= 1 <= k_n s) by lia. pose proof (NO 1 H1) as N1. pose proof (@g_live s G 1 H1) as L1.
  assert (P1 : k_pc s 1 = CDone).
  { destruct (k_pc s 1) as [| |[|b l]|b l|b l| | | |[|b l]|b l|b l| | | | | |] eqn:E; cbn [moves] in N1; try discriminate; try congruence.
    - exfalso. destruct (forallb_false _ _ N1) as (b & Hb & Hm). destruct (@own_exists (k_n s) b Hn Hb) as (o & Ho & Hi).
      assert (C : cleaned (k_pc s 1) = false) by (rewrite E; reflexivity).
      destruct (@g_feat s G C o b Ho Hi) as [[X _]|[X _]]; [|congruence]. specialize (NO o Ho). destruct (k_pc s o) as [| |[|b0 l]|b0 l|b0 l| | | |l|b0 l|b0 l| | | | | |]; cbn [rem1 moves] in X, NO; try discriminate; try destruct X.
    - exfalso. rewrite (@g_rf1 s G) in N1; [discriminate|rewrite E; reflexivity].
    - exfalso. destruct (forallb_false _ _ N1) as (b & Hb & Hm). destruct (@own_exists (k_n s) b Hn Hb) as (o & Ho & Hi).
      assert (PF : past (k_pc s 1) = false) by (rewrite E; reflexivity).
      assert (RC : c_rf (k_dir s) = Complete) by (apply (@g_rf1 s G); rewrite E; reflexivity).
      destruct (@g_cls s G PF o b Ho Hi) as [[X _]|[X _]]; [|congruence]. specialize (NO o Ho). pose proof (@g_only s G o Ho) as OO.
      destruct (k_pc s o) as [| |[|b0 l]|b0 l|b0 l| | | |[|b0 l]|b0 l|b0 l| | | | | |] eqn:Eo; cbn [rem3 moves] in X, NO; try discriminate; try (destruct X; fail).
      + cbn [only1] in OO. specialize (OO eq_refl). subst o. congruence.
      + rewrite RC in NO. discriminate.
    - exfalso. rewrite (@g_map1 s G) in N1; [discriminate|rewrite E; reflexivity]. }
  assert (PT : past (k_pc s 1) = true) by (rewrite P1; reflexivity).
  intros r Hr. specialize (NO r Hr). pose proof (@g_past s G PT r Hr) as R3. pose proof (@g_live s G r Hr) as LV. pose proof (@g_only s G r Hr) as OO.
  destruct (k_pc s r) as [| |[|b0 l]|b0 l|b0 l| | | |[|b0 l]|b0 l|b0 l| | | | | |] eqn:Er; cbn [rem3 moves] in R3, NO; try discriminate; try congruence.
  - cbn [only1] in OO. specialize (OO eq_refl). subst r. congruence.
  - cbn [only1] in OO. specialize (OO eq_refl). subst r. congruence.
  - rewrite (@g_map1 s G PT) in NO. discriminate.
Qed.
Lemma fin_mono : forall (m m' : Z -> bool), (forall b, m b = true -> m' b = true) -> forallb m (blocks nblocks) = true -> forallb m' (blocks nblocks) = true.
Proof. intros m m' H. rewrite !forallb_forall. auto. Qed.
(** A rank that can move stays able to while others act. *)
Lemma cstable : forall s r r', good s -> 1 <= r <= k_n s -> 1 <= r' <= k_n s -> r' <> r ->
  moves (k_dir s) (k_pc s r) = true -> moves (fst (cstep (k_n s) r' (k_dir s) (k_pc s r'))) (k_pc s r) = true.
Proof.
  intros s r r' G Hr Hr' Ne M. pose proof (@g_only s G r Hr) as O. pose proof (@g_only s G r' Hr') as O'.
  set (d := k_dir s) in *. set (d' := fst (cstep (k_n s) r' d (k_pc s r'))).
  assert (A : (here (c_rf d) = true -> here (c_rf d') = true) /\ (here (c_map d) = true -> here (c_map d') = true)).
  { unfold d'. destruct (k_pc s r') as [| |[|b l]|b l|b l| | | |[|b l]|b l|b l| | | | | |]; cbn [cstep]; unfold half; rewrite ?Hatomic;
      repeat match goal with |- context [if ?x then _ else _] => destruct x eqn:?X end; cbn [fst set_m1 set_m3 set_feat set_rf set_cls set_cmap bad clean c_rf c_map here]; split; congruence. }
  assert (B : k_pc s r' <> CClean -> (fin1 d = true -> fin1 d' = true) /\ (fin3 d = true -> fin3 d' = true)).
  { intros NC. unfold d', fin1, fin3.
    assert (U : forall (f : Z -> bool) b x, f x = true -> upd f b true x = true) by (intros f b x X; unfold upd; destruct (x =? b); auto).
    destruct (k_pc s r') as [| |[|b l]|b l|b l| | | |[|b l]|b l|b l| | | | | |]; cbn [cstep]; try congruence;
      repeat match goal with |- context [if ?x then _ else _] => destruct x eqn:?X end; cbn [fst]; auto; cbn [set_m1 set_m3 set_feat set_rf set_cls set_cmap bad c_m1 c_m3]; auto.
    - split; [|auto]. apply fin_mono. intro x. apply U.
    - split; [auto|]. apply fin_mono. intro x. apply U. }
  destruct A as [A1 A2].
  destruct (k_pc s r) as [| |[|b l]|b l|b l| | | |[|b l]|b l|b l| | | | | |]; cbn [moves] in *; auto.
  - apply B; [|exact M]. intro X. apply Ne. rewrite (O eq_refl). apply O'. rewrite X. reflexivity.
  - apply B; [|exact M]. intro X. apply Ne. rewrite (O eq_refl). apply O'. rewrite X. reflexivity.
Qed.
Definition cwork (s : cst) : nat := total (fun r => cweight (k_n s) r (k_pc s r)) (zrange 1 (k_n s)).
Lemma cfire_in : forall s r, 1 <= r <= k_n s -> cfire (CStep r) s = mkS (k_n s) (fst (cstep (k_n s) r (k_dir s) (k_pc s r))) (upd (k_pc s) r (snd (cstep (k_n s) r (k_dir s) (k_pc s r)))).
Proof. intros s r Hr. cbn [cfire]. replace ((1 <=? r) && (r <=? k_n s)) with true by lia. destruct (cstep _ _ _ _). reflexivity. Qed.
Lemma cstep_work : forall s r, 1 <= r <= k_n s ->
  (moves (k_dir s) (k_pc s r) = true -> (cwork (cfire (CStep r) s) < cwork s)%nat) /\
  (moves (k_dir s) (k_pc s r) = false -> cwork (cfire (CStep r) s) = cwork s).
Proof.
  intros s r Hr. rewrite cfire_in by exact Hr. unfold cwork. cbn [k_n k_pc]. set (p' := snd (cstep (k_n s) r (k_dir s) (k_pc s r))).
  rewrite (@total_eq (fun r0 => cweight (k_n s) r0 (upd (k_pc s) r p' r0)) (upd (fun r0 => cweight (k_n s) r0 (k_pc s r0)) r (cweight (k_n s) r p'))).
  2:{ intros x _. unfold upd. destruct (x =? r) eqn:E; [|reflexivity]. apply Z.eqb_eq in E. subst x. reflexivity. }
  pose proof (@total_upd (fun _ => true) (fun r0 => cweight (k_n s) r0 (k_pc s r0)) (zrange 1 (k_n s)) r (cweight (k_n s) r p') (zrange_NoDup 1 (k_n s)) ltac:(apply zrange_In; lia)) as T.
  cbv beta in T. split; intro M.
  - pose proof (@cweight_dec (k_n s) r (k_dir s) (k_pc s r) M). fold p' in H. lia.
  - unfold p' in *. rewrite (@cblocked (k_n s) r _ _ M) in *. cbn [snd] in *. lia.
Qed.
Fixpoint crun (sched : nat -> Z) (i : nat) (s : cst) : cst := match i with O => s | S j => cfire (CStep (sched j)) (crun sched j s) end.
Lemma cfire_n : forall r s, k_n (cfire (CStep r) s) = k_n s.
Proof. intros r s. cbn [cfire]. destruct ((1 <=? r) && (r <=? k_n s)); [destruct (cstep _ _ _ _)|]; reflexivity. Qed.
Lemma cfire_out : forall r s, ~ (1 <= r <= k_n s) -> cfire (CStep r) s = s.
Proof. intros r s H. cbn [cfire]. replace ((1 <=? r) && (r <=? k_n s)) with false by lia. reflexivity. Qed.
Lemma crun_facts : forall sched s, good s -> forall i, good (crun sched i s) /\ k_n (crun sched i s) = k_n s.
Proof.
  intros sched s G. induction i as [|i [I1 I2]]; [split; [exact G|reflexivity]|]. cbn [crun]. split; [|rewrite cfire_n; exact I2].
  destruct (Z_le_dec 1 (sched i)) as [A|A]; [destruct (Z_le_dec (sched i) (k_n (crun sched i s))) as [B|B]|].
  - apply good_step; [exact I1|lia].
  - rewrite cfire_out by lia. exact I1.
  - rewrite cfire_out by lia. exact I1.
Qed.
Lemma crun_work : forall sched s i, (cwork (crun sched (S i) s) <= cwork (crun sched i s))%nat.
Proof.
  intros sched s i. cbn [crun]. set (t := crun sched i s). destruct (Z_le_dec 1 (sched i)) as [A|A]; [destruct (Z_le_dec (sched i) (k_n t)) as [B|B]|].
  - destruct (@cstep_work t (sched i) ltac:(lia)) as [X Y]. destruct (moves (k_dir t) (k_pc t (sched i))); [specialize (X eq_refl)|specialize (Y eq_refl)]; lia.
  - rewrite cfire_out by lia. lia.
  - rewrite cfire_out by lia. lia.
Qed.
Lemma cwaits : forall sched s r, good s -> 1 <= r <= k_n s -> forall d i,
  moves (k_dir (crun sched i s)) (k_pc (crun sched i s) r) = true ->
  (exists j, (i <= j < i + d)%nat /\ sched j = r /\ moves (k_dir (crun sched j s)) (k_pc (crun sched j s) r) = true) \/
  moves (k_dir (crun sched (i + d) s)) (k_pc (crun sched (i + d) s) r) = true.
Proof.
  intros sched s r G Hr. induction d as [|d IH]; intros i M; [right; rewrite Nat.add_0_r; exact M|].
  destruct (IH i M) as [(j & Hj & E & E')|H]; [left; exists j; repeat split; [lia|lia|exact E|exact E']|].
  destruct (Z.eq_dec (sched (i + d)%nat) r) as [E|E]; [left; exists (i + d)%nat; repeat split; [lia|lia|exact E|exact H]|].
  right. rewrite Nat.add_succ_r. cbn [crun]. destruct (@crun_facts sched s G (i + d)) as [Gd Nd]. set (t := crun sched (i + d) s) in *. set (q := sched (i + d)%nat) in *.
  destruct (Z_le_dec 1 q) as [A|A]; [destruct (Z_le_dec q (k_n t)) as [B|B]|].
  - rewrite cfire_in by lia. cbn [k_dir k_pc]. rewrite upd_other by congruence. apply cstable; [exact Gd|lia|lia|congruence|exact H].
  - rewrite cfire_out by lia. exact H.
  - rewrite cfire_out by lia. exact H.
Qed.
Lemma C99_from : forall sched s, good s -> fair (k_n s) sched -> forall w i, (cwork (crun sched i s) <= w)%nat -> exists j, (i <= j)%nat /\ cfinished (crun sched j s).
Proof.
  intros sched s G Fa. induction w as [w IH] using (well_founded_induction lt_wf). intros i Hw.
  destruct (@crun_facts sched s G i) as [Gi Ni]. destruct (@cprogress (crun sched i s) Gi) as [Fin|(r & Hr & He)]; [exists i; split; [lia|exact Fin]|].
  rewrite Ni in Hr. destruct (Fa r Hr i) as (m & Hm & Em).
  assert (HW : exists j, (i <= j)%nat /\ sched j = r /\ moves (k_dir (crun sched j s)) (k_pc (crun sched j s) r) = true).
  { destruct (@cwaits sched s r G Hr (m - i) i He) as [(j & Hj & Ej & E')|H]; [exists j; repeat split; [lia|exact Ej|exact E']|].
    replace (i + (m - i))%nat with m in H by lia. exists m. repeat split; assumption. }
  destruct HW as (j & Hj & Ej & E'). destruct (@crun_facts sched s G j) as [Gj Nj].
  assert (MONO : forall a b, (a <= b)%nat -> (cwork (crun sched b s) <= cwork (crun sched a s))%nat).
  { intros a b Hab. induction Hab as [|b Hab IHb]; [lia|]. pose proof (@crun_work sched s b). lia. }
  assert (DE : (cwork (crun sched (S j) s) < cwork (crun sched j s))%nat) by (cbn [crun]; rewrite Ej; apply cstep_work; [lia|exact E']).
  pose proof (MONO i j Hj). destruct (IH (cwork (crun sched (S j) s)) ltac:(lia) (S j) ltac:(lia)) as (z & Hz & Fz). exists z. split; [lia|exact Fz].
Qed.
(** Any number of fairly scheduled ranks finishes, with complete maps. *)
Theorem C99_finishes_partial : forall sched n, 1 <= n -> fair n sched ->
  exists j, cfinished (crun sched j (cinit n)) /\ c_map (k_dir (crun sched j (cinit n))) = Complete.
Proof.
  intros sched n Hn Fa. destruct (@C99_from sched (cinit n) (good_init Hn) Fa (cwork (cinit n)) 0%nat ltac:(cbn [crun]; lia)) as (j & _ & Fin).
  exists j. split; [exact Fin|]. destruct (@crun_facts sched (cinit n) (good_init Hn) j) as [Gj Nj]. apply (@g_map1 _ Gj). rewrite Fin; [reflexivity|]. rewrite Nj. cbn [cinit k_n]. lia.
Qed.
End Stages.

(** Two blocks, two ranks. *)
Definition turns (r : Z) (k : nat) : list cevent := repeat (CStep r) k.
Definition torn_rf : list cevent := turns 2 6 ++ turns 1 8 ++ turns 2 1.
(** As the code is, the forest exists before it is complete: a rank that polls
    in between reads a truncated file. *)
Theorem C99_forest_refuted : exists n es, 1 <= n /\ one_submission es /\ c_bad (k_dir (cexec 2 false es (cinit n))) = true.
Proof.
  exists 2, torn_rf. split; [lia|]. split; [|vm_compute; reflexivity].
  intros e H. unfold torn_rf, turns in H. rewrite !in_app_iff in H. destruct H as [H|[H|H]]; apply repeat_spec in H; eauto.
Qed.
(** So do the maps: a rank that polls while the first one writes goes on to the
    object analysis with a truncated map. *)
Definition torn_map : list cevent := turns 2 6 ++ turns 1 9 ++ turns 2 5 ++ turns 1 5 ++ turns 2 1.
Theorem C99_map_refuted : exists n es, 1 <= n /\ one_submission es /\ c_bad (k_dir (cexec 2 false es (cinit n))) = true /\
  c_rf (k_dir (cexec 2 false es (cinit n))) = Complete /\ c_map (k_dir (cexec 2 false es (cinit n))) = Partial.
Proof.
  exists 2, torn_map. split; [lia|]. split; [|vm_compute; auto].
  intros e H. unfold torn_map, turns in H. rewrite !in_app_iff in H. destruct H as [H|[H|[H|[H|H]]]]; apply repeat_spec in H; eauto.
Qed.
(** Even if both appeared complete: after a crash before the maps were written,
    the resubmitted ranks classify again although their markers are there, and
    the first rank reads their blocks while they are being rewritten. *)
Definition first_run : list cevent := turns 2 6 ++ turns 1 9 ++ turns 2 4 ++ turns 1 4.
Theorem C99_resubmit_refuted : exists n es, 1 <= n /\ c_bad (k_dir (cexec 2 true es (cinit n))) = true /\
  (exists a b, es = a ++ [CResubmit n] ++ b /\ one_submission a /\ one_submission b).
Proof.
  exists 2, (first_run ++ [CResubmit 2] ++ (turns 2 3 ++ turns 1 10)). split; [lia|]. split; [vm_compute; reflexivity|].
  exists first_run, (turns 2 3 ++ turns 1 10). split; [reflexivity|]. split; intros e H; unfold first_run, turns in H; rewrite !in_app_iff in H.
  - destruct H as [H|[H|[H|H]]]; apply repeat_spec in H; eauto.
  - destruct H as [H|H]; apply repeat_spec in H; eauto.
Qed.
(** Or a rank that comes late finds the features already removed. *)
Theorem C99_late_refuted : exists n es, 1 <= n /\ k_pc (cexec 2 true es (cinit n)) 2 = CDead /\ c_map (k_dir (cexec 2 true es (cinit n))) = Complete /\
  (exists a b, es = a ++ [CResubmit n] ++ b /\ one_submission a /\ one_submission b).
Proof.
  exists 2, (first_run ++ [CResubmit 2] ++ (turns 2 2 ++ turns 1 14 ++ turns 2 1)). split; [lia|]. split; [vm_compute; reflexivity|]. split; [vm_compute; reflexivity|].
  exists first_run, (turns 2 2 ++ turns 1 14 ++ turns 2 1). split; [reflexivity|]. split; intros e H; unfold first_run, turns in H; rewrite !in_app_iff in H.
  - destruct H as [H|[H|[H|H]]]; apply repeat_spec in H; eauto.
  - destruct H as [H|[H|H]]; apply repeat_spec in H; eauto.
Qed.
Definition trace (es : list cevent) (a : bool) : list cpc * bool := let s := cexec 2 a es (cinit 2) in ([k_pc s 1; k_pc s 2], c_bad (k_dir s)).
Example C99_case : trace (first_run ++ turns 1 4 ++ turns 2 5) true = ([CDone; CDone], false).
Proof. vm_compute. reflexivity. Qed.
Example C99_fair_case : fair 3 (round_robin 3) /\ (1 <= 3) /\
  map (k_pc (crun 4 true (round_robin 3) 100 (cinit 3))) [1; 2; 3] = [CDone; CDone; CDone].
Proof. split; [apply round_robin_fair; lia|]. split; [lia|]. vm_compute. reflexivity. Qed.
Print Assumptions C99_reads_partial.
Print Assumptions C99_finishes_partial.
Print Assumptions C99_forest_refuted.
Print Assumptions C99_map_refuted.
Print Assumptions C99_resubmit_refuted.
Print Assumptions C99_late_refuted.
