(** The job array of the object-based pipeline as a transition system
    (src/python/pycold/imagetool/tile_processing.py 396-760): ranks that share
    a directory of result files and wait for each other by polling for files.
    C55 (termination), C56 (crashes and restarts), C57 (reads of maps).

    One [Step r] is one access of rank r to the shared directory.  A file is
    created by a writer in two accesses (np.save opens, then fills it), so a
    reader may meet it half written.  Not modelled here: the classification
    stage (seedmap_path given; see Classify.v), the contents of the files, and
    a second process started under the rank of a process that is still
    running. *)
From Coq Require Import Permutation.
From Verif Require Import Base PyIndex Sched.

Inductive file := Absent | Partial | Complete.
(** os.path.exists *)
Definition here (f : file) : bool := match f with Absent => false | _ => true end.
Definition full (f : file) : bool := match f with Complete => true | _ => false end.

Definition upd {A} (f : Z -> A) (k : Z) (v : A) : Z -> A := fun x => if x =? k then v else f x.

(** Where a rank is in [main]. *)
Inductive pc :=
| PBlock (todo : list Z)               (* 399-418: head of the block loop *)
| PWrite (w : nat) (b : Z) (rest : list Z) (* 551-571: the files of block b *)
| PWaitB                               (* 580-583 *)
| PCheckA                              (* 622-624 *)
| PAsm (k : Z) (opened : bool)         (* 625-646, utils.py 153-168 *)
| PWaitA                               (* 648-651 *)
| PCheckO                              (* 696-700 *)
| PObia (todo : list Z)                (* 703-707: reads the maps *)
| PMark (k : Z) (rest : list Z)        (* ob_analyst.py 1015-1025: marker *)
| PWaitO                               (* 709-716 *)
| PRecon (todo : list Z)               (* 723-741 *)
| PReW (b : Z) (rest : list Z)         (* ob_analyst.py 1147: second half *)
| PDone.

(** The shared directory. *)
Record dir := mkDir {
  d_rec : Z -> file;      (* record_change_x{}_y{}_cold.npy *)
  d_bcd : Z -> file;      (* CM_date_x{}_y{}.npy *)
  d_bcm : Z -> file;      (* CM_x{}_y{}.npy *)
  d_mark : Z -> bool;     (* COLD_block{}_finished.txt *)
  d_cm : Z -> file;       (* cm_maps/CM_maps_*.npy, by snapshot *)
  d_cd : Z -> file;       (* cm_maps/CM_date_maps_*.npy *)
  d_ob : Z -> bool;       (* obia/tmp_OBIA{}_finished.txt *)
  d_obr : Z -> file;      (* obcold/record_change_x{}_y{}_obcold.npy *)
  g_block : bool;         (* ghost: an incomplete block file was read *)
  g_map : bool            (* ghost: an incomplete map was read *)
}.
Record st := mkSt { s_n : Z; s_dir : dir; s_pc : Z -> pc }.

Definition set_rec d b v := mkDir (upd (d_rec d) b v) (d_bcd d) (d_bcm d) (d_mark d) (d_cm d) (d_cd d) (d_ob d) (d_obr d) (g_block d) (g_map d).
Definition set_bcd d b v := mkDir (d_rec d) (upd (d_bcd d) b v) (d_bcm d) (d_mark d) (d_cm d) (d_cd d) (d_ob d) (d_obr d) (g_block d) (g_map d).
Definition set_bcm d b v := mkDir (d_rec d) (d_bcd d) (upd (d_bcm d) b v) (d_mark d) (d_cm d) (d_cd d) (d_ob d) (d_obr d) (g_block d) (g_map d).
Definition set_mark d b := mkDir (d_rec d) (d_bcd d) (d_bcm d) (upd (d_mark d) b true) (d_cm d) (d_cd d) (d_ob d) (d_obr d) (g_block d) (g_map d).
Definition set_cm d k v := mkDir (d_rec d) (d_bcd d) (d_bcm d) (d_mark d) (upd (d_cm d) k v) (d_cd d) (d_ob d) (d_obr d) (g_block d) (g_map d).
Definition set_cd d k v := mkDir (d_rec d) (d_bcd d) (d_bcm d) (d_mark d) (d_cm d) (upd (d_cd d) k v) (d_ob d) (d_obr d) (g_block d) (g_map d).
Definition set_ob d k := mkDir (d_rec d) (d_bcd d) (d_bcm d) (d_mark d) (d_cm d) (d_cd d) (upd (d_ob d) k true) (d_obr d) (g_block d) (g_map d).
Definition set_obr d b v := mkDir (d_rec d) (d_bcd d) (d_bcm d) (d_mark d) (d_cm d) (d_cd d) (d_ob d) (upd (d_obr d) b v) (g_block d) (g_map d).
Definition see_block d (ok : bool) := mkDir (d_rec d) (d_bcd d) (d_bcm d) (d_mark d) (d_cm d) (d_cd d) (d_ob d) (d_obr d) (g_block d || negb ok) (g_map d).
Definition see_map d (ok : bool) := mkDir (d_rec d) (d_bcd d) (d_bcm d) (d_mark d) (d_cm d) (d_cd d) (d_ob d) (d_obr d) (g_block d) (g_map d || negb ok).

Section Pipeline.
(** Number of blocks, number of snapshots, which blocks have at least one
    record (547: nothing is saved otherwise), and whether a map appears in the
    directory in one access (the code as it is: [false]). *)
Variables (nblocks n_cm : Z) (has_rec : Z -> bool) (atomic : bool).

Definition blocks : list Z := zrange 1 nblocks.
Definition snaps : list Z := zrange 0 n_cm.
Definition my_blocks (n r : Z) : list Z := rank_blocks n r nblocks.
(** The snapshots of a rank, by index (701-706). *)
Definition my_snaps (n r : Z) : list Z := sched (Z.to_nat (ceil_div n_cm n)) n (r - 1) (n_cm - 1).

(** is_finished_cold_blockfinished (148-163) *)
Definition all_blocks (d : dir) : bool := forallb (d_mark d) blocks.
(** is_finished_assemble_cmmaps (166-203): existence only *)
Definition all_maps (d : dir) : bool := forallb (fun k => here (d_cm d k) && here (d_cd d k)) snaps.
(** is_finished_object_analysis (ob_analyst.py 1027-1038) *)
Definition all_ob (d : dir) : bool := forallb (d_ob d) snaps.

(** Writing map k, by rank 1 (CM) or rank 16 (CM_date). *)
Definition set_map (r : Z) (d : dir) (k : Z) (v : file) : dir :=
  if r =? 1 then set_cm d k v else set_cd d k v.
Definition block_files (r : Z) (d : dir) : bool :=
  forallb (fun b => full (if r =? 1 then d_bcm d b else d_bcd d b)) blocks.
(** obia_execute (ob_analyst.py 900-935): the first snapshot reads nothing,
    the others read their own and the previous map of both kinds. *)
Definition read_ok (d : dir) (k : Z) : bool :=
  if k <=? 0 then true else
  full (d_cm d k) && full (d_cd d k) && full (d_cm d (k - 1)) && full (d_cd d (k - 1)).

(** One access of rank r (tile_processing.py, lines given with [pc]). *)
Definition rank_step (n r : Z) (d : dir) (p : pc) : dir * pc :=
  match p with
  | PBlock [] => (d, PWaitB)
  | PBlock (b :: rest) => if d_mark d b then (d, PBlock rest) else (d, PWrite 0 b rest)
  | PWrite w b rest =>
      match w with
      | 0%nat => if has_rec b then (set_rec d b Partial, PWrite 1 b rest) else (d, PWrite 2 b rest)
      | 1%nat => (set_rec d b Complete, PWrite 2 b rest)
      | 2%nat => (set_bcd d b Partial, PWrite 3 b rest)
      | 3%nat => (set_bcd d b Complete, PWrite 4 b rest)
      | 4%nat => (set_bcm d b Partial, PWrite 5 b rest)
      | 5%nat => (set_bcm d b Complete, PWrite 6 b rest)
      | _ => (set_mark d b, PBlock rest)
      end
  | PWaitB => if all_blocks d then (d, PCheckA) else (d, PWaitB)
  | PCheckA =>
      if all_maps d then (d, PCheckO)
      else if (r =? 1) || (r =? 16) then (see_block d (block_files r d), PAsm 0 false)
      else (d, PWaitA)
  | PAsm k opened =>
      if n_cm <=? k then (d, PWaitA)
      else if opened then (set_map r d k Complete, PAsm (k + 1) false)
      else (set_map r d k (if atomic then Complete else Partial), PAsm k true)
  | PWaitA => if all_maps d then (d, PCheckO) else (d, PWaitA)
  | PCheckO => if all_ob d then (d, PRecon (my_blocks n r)) else (d, PObia (my_snaps n r))
  | PObia [] => (d, PWaitO)
  | PObia (k :: rest) => (see_map d (read_ok d k), PMark k rest)
  | PMark k rest => (set_ob d k, PObia rest)
  | PWaitO => if all_ob d then (d, PRecon (my_blocks n r)) else (d, PWaitO)
  | PRecon [] => (d, PDone)
  | PRecon (b :: rest) => (set_obr d b Partial, PReW b rest)
  | PReW b rest => (set_obr d b Complete, PRecon rest)
  | PDone => (d, PDone)
  end.

(** What may happen: a rank makes an access; a rank dies and its job is
    resubmitted; all jobs die and the array is resubmitted with another size. *)
Inductive event := Step (r : Z) | Crash (r : Z) | Resubmit (n : Z).
Definition start (n r : Z) : pc := PBlock (my_blocks n r).
Definition fire (e : event) (s : st) : st :=
  match e with
  | Step r =>
      if (1 <=? r) && (r <=? s_n s) then
        let (d, p) := rank_step (s_n s) r (s_dir s) (s_pc s r) in mkSt (s_n s) d (upd (s_pc s) r p)
      else s
  | Crash r => mkSt (s_n s) (s_dir s) (upd (s_pc s) r (start (s_n s) r))
  | Resubmit n => mkSt n (s_dir s) (start n)
  end.
Definition empty : dir := mkDir (fun _ => Absent) (fun _ => Absent) (fun _ => Absent) (fun _ => false) (fun _ => Absent)
  (fun _ => Absent) (fun _ => false) (fun _ => Absent) false false.
Definition init (n : Z) : st := mkSt n empty (start n).
Fixpoint exec (es : list event) (s : st) : st := match es with [] => s | e :: l => exec l (fire e s) end.
Definition sizes_ok (es : list event) : Prop := forall n, In (Resubmit n) es -> 1 <= n.

(** A state that can be reached from an empty directory by any history. *)
Definition reachable (s : st) : Prop := exists n es, 1 <= n /\ sizes_ok es /\ s = exec es (init n).

Lemma exec_app : forall a b s, exec (a ++ b) s = exec b (exec a s).
Proof. induction a; intros; simpl; auto. Qed.

Lemma reach_ind : forall (I : st -> Prop), (forall n, 1 <= n -> I (init n)) ->
  (forall s e, 1 <= s_n s -> I s -> (forall n, e = Resubmit n -> 1 <= n) -> I (fire e s)) -> forall s, reachable s -> I s.
Proof.
  intros I H0 HS s (n & es & Hn & Hes & ->).
  assert (G : forall es s, sizes_ok es -> 1 <= s_n s -> I s -> I (exec es s)).
  { clear - HS. induction es as [|e es IH]; intros s Hes Hn Hs; [exact Hs|]. simpl.
    assert (He : forall m, e = Resubmit m -> 1 <= m) by (intros m ->; apply Hes; left; reflexivity).
    apply IH; [intros m Hm; apply Hes; right; exact Hm| |apply HS; assumption].
    destruct e; simpl; [destruct ((1 <=? r) && (r <=? s_n s)); [destruct (rank_step _ _ _ _)|]; simpl; assumption|assumption|apply He; reflexivity]. }
  apply G; [assumption|exact Hn|apply H0, Hn].
Qed.
Lemma reach_n : forall s, reachable s -> 1 <= s_n s.
Proof.
  apply reach_ind; [intros; assumption|]. intros s e Hn _ He.
  destruct e; simpl; [destruct ((1 <=? r) && (r <=? s_n s)); [destruct (rank_step _ _ _ _)|]; simpl; assumption|assumption|apply He; reflexivity].
Qed.

Lemma upd_same : forall A (f : Z -> A) k v, upd f k v k = v.
Proof. intros. unfold upd. rewrite Z.eqb_refl. reflexivity. Qed.
Lemma upd_other : forall A (f : Z -> A) k v x, x <> k -> upd f k v x = f x.
Proof. intros. unfold upd. apply Z.eqb_neq in H. rewrite H. reflexivity. Qed.

Lemma owner_unique : forall n r r' b, 1 <= n -> 1 <= r <= n -> 1 <= r' <= n ->
  In b (my_blocks n r) -> In b (my_blocks n r') -> r = r'.
Proof.
  intros n r r' b Hn Hr Hr' H H'. destruct (@C53_blocks n nblocks ltac:(lia)) as [A B].
  destruct (A r Hr) as [_ A1]. destruct (B b (A1 b H)) as (o & Ho & Hi & Hu).
  rewrite (Hu r Hr H), (Hu r' Hr' H'). reflexivity.
Qed.
Lemma owner_exists : forall n b, 1 <= n -> In b blocks -> exists r, 1 <= r <= n /\ In b (my_blocks n r).
Proof.
  intros n b Hn Hb. apply zrange_In in Hb. destruct (@C53_blocks n nblocks ltac:(lia)) as [A B].
  destruct (B b Hb) as (o & Ho & Hi & _). eauto.
Qed.
Lemma my_blocks_in : forall n r b, 1 <= n -> 1 <= r <= n -> In b (my_blocks n r) -> In b blocks.
Proof.
  intros n r b Hn Hr H. destruct (@C53_blocks n nblocks ltac:(lia)) as [A _]. apply zrange_In. exact (proj2 (A r Hr) b H).
Qed.
Lemma snap_owner : forall n k, 1 <= n -> In k snaps -> exists r, 1 <= r <= n /\ In k (my_snaps n r).
Proof.
  intros n k Hn Hk. apply zrange_In in Hk. destruct (@C76_scenes n n_cm ltac:(lia)) as [A B].
  destruct (B k Hk) as (o & Ho & Hi & _). exists o. split; [exact Ho|exact Hi].
Qed.
Lemma my_snaps_in : forall n r k, 1 <= n -> 1 <= r <= n -> In k (my_snaps n r) -> In k snaps.
Proof.
  intros n r k Hn Hr H. destruct (@C76_scenes n n_cm ltac:(lia)) as [A _]. apply zrange_In. exact (proj2 (A r Hr) k H).
Qed.

(** ** C56 *)

(** The blocks a rank still has to visit in the first stage. *)
Definition pend (p : pc) : list Z := match p with PBlock l => l | PWrite _ b l => b :: l | _ => [] end.

Definition block_inv (s : st) : Prop :=
  (forall b, d_mark (s_dir s) b = true ->
     (has_rec b = true -> d_rec (s_dir s) b = Complete) /\ d_bcd (s_dir s) b = Complete /\ d_bcm (s_dir s) b = Complete) /\
  (forall r, 1 <= r <= s_n s -> incl (pend (s_pc s r)) (my_blocks (s_n s) r)) /\
  (forall r w b rest, 1 <= r <= s_n s -> s_pc s r = PWrite w b rest ->
     d_mark (s_dir s) b = false /\ (w <= 6)%nat /\
     ((2 <= w)%nat -> has_rec b = true -> d_rec (s_dir s) b = Complete) /\
     ((4 <= w)%nat -> d_bcd (s_dir s) b = Complete) /\
     ((6 <= w)%nat -> d_bcm (s_dir s) b = Complete)).

Lemma start_inv : forall n d, 1 <= n ->
  (forall b, d_mark d b = true -> (has_rec b = true -> d_rec d b = Complete) /\ d_bcd d b = Complete /\ d_bcm d b = Complete) ->
  block_inv (mkSt n d (start n)).
Proof.
  intros n d Hn H. split; [exact H|]. split; simpl.
  - intros r Hr. unfold start; simpl. apply incl_refl.
  - intros r w b rest Hr E. discriminate.
Qed.

Lemma frame_blocks : forall n r d p, (forall w b l, p <> PWrite w b l) ->
  let q := rank_step n r d p in
  d_mark (fst q) = d_mark d /\ d_rec (fst q) = d_rec d /\ d_bcd (fst q) = d_bcd d /\ d_bcm (fst q) = d_bcm d /\
  incl (pend (snd q)) (pend p) /\
  (forall w b l, snd q = PWrite w b l -> w = 0%nat /\ d_mark d b = false).
Proof.
  intros n r d p Hp q. subst q.
  destruct p as [[|b todo]|w b rest| | |k o| | |[|k todo]|k rest| |[|b todo]|b rest|]; simpl;
    try (exfalso; exact (Hp _ _ _ eq_refl)).
  all: try destruct (d_mark d b) eqn:Em; try destruct (all_blocks d); try destruct (all_maps d); try destruct (all_ob d);
    try destruct (r =? 1) eqn:Er; try destruct (r =? 16); try destruct (n_cm <=? k); try destruct o; unfold set_map; try rewrite Er; simpl;
    repeat split; auto using incl_nil_l, incl_refl, incl_tl; try discriminate;
    match goal with H : PWrite _ _ _ = PWrite _ _ _ |- _ => injection H; intros; subst; auto | _ => idtac end.
Qed.

Lemma block_inv_step : forall s e, 1 <= s_n s -> block_inv s -> (forall n, e = Resubmit n -> 1 <= n) -> block_inv (fire e s).
Proof.
  intros s e Hn (H1 & H2 & H3) He. destruct e as [r|r|n].
  - unfold fire. destruct ((1 <=? r) && (r <=? s_n s)) eqn:Er; [|split; [|split]; assumption].
    apply andb_prop in Er. destruct Er as [Ea Eb]. apply Z.leb_le in Ea, Eb.
    destruct (rank_step (s_n s) r (s_dir s) (s_pc s r)) as [d p] eqn:ES.
    destruct (s_pc s r) as [todo|w b rest| | |k o| | |todo|k rest| |todo|b rest|] eqn:EP.
    2:{ (* a write *)
      destruct (H3 r w b rest ltac:(lia) EP) as (M & W & C1 & C2 & C3).
      assert (Hb : In b (my_blocks (s_n s) r)) by (apply (H2 r ltac:(lia)); rewrite EP; left; reflexivity).
      assert (Hrest : incl rest (my_blocks (s_n s) r)) by (intros x Hx; apply (H2 r ltac:(lia)); rewrite EP; right; exact Hx).
      assert (Hne : forall r' w' b' rest', 1 <= r' <= s_n s -> r' <> r -> s_pc s r' = PWrite w' b' rest' -> b' <> b).
      { intros r' w' b' rest' Hr' Hd E' ->. apply Hd. apply (@owner_unique (s_n s) r' r b Hn Hr' ltac:(lia)); [|exact Hb].
        apply (H2 r' Hr'). rewrite E'. left. reflexivity. }
      assert (W6 : (w = 0 \/ w = 1 \/ w = 2 \/ w = 3 \/ w = 4 \/ w = 5 \/ w = 6)%nat) by lia.
      destruct W6 as [W6|[W6|[W6|[W6|[W6|[W6|W6]]]]]]; subst w; simpl in ES.
      1: destruct (has_rec b) eqn:HR.
      all: injection ES as <- <-; unfold block_inv; cbn [s_dir s_n s_pc d_mark d_rec d_bcd d_bcm set_rec set_bcd set_bcm set_mark].
      all: split; [intros b'|split].
      all: try (intros r' Hr'; destruct (Z.eq_dec r' r) as [->|Hd];
                [rewrite upd_same|rewrite upd_other by exact Hd]; cbn [pend]; auto; apply incl_cons; assumption).
      all: try (destruct (Z.eq_dec b' b) as [->|Hb']; [rewrite ?upd_same|rewrite ?(upd_other _ _ Hb')]; intros HM;
                [first [congruence|repeat split; intros; [apply C1|apply C2|apply C3]; auto; lia]|exact (H1 b' HM)]).
      all: intros r' w' b' rest' Hr'; destruct (Z.eq_dec r' r) as [->|Hd];
           [rewrite upd_same; try discriminate; intros E'; injection E' as <- <- <-; rewrite ?upd_same; repeat split; auto; try lia; try (intros; congruence); intros; try lia; auto
           |rewrite (upd_other _ _ Hd); intros E'; pose proof (Hne r' w' b' rest' Hr' Hd E') as Hnb; rewrite ?(upd_other _ _ Hnb); exact (H3 r' w' b' rest' Hr' E')].
      all: try (apply C1; [lia|assumption]); try (apply C2; lia). }
    all: match type of ES with _ = _ => idtac end;
      assert (HF := @frame_blocks (s_n s) r (s_dir s) (s_pc s r) ltac:(rewrite EP; discriminate)); rewrite EP, ES in HF; cbn [fst snd] in HF;
      destruct HF as (F1 & F2 & F3 & F4 & F5 & F6); unfold block_inv; cbn [s_dir s_n s_pc]; rewrite F1, F2, F3, F4;
      (split; [exact H1|split]);
      [intros r' Hr'; destruct (Z.eq_dec r' r) as [->|Hd]; [rewrite upd_same; specialize (H2 r Hr'); rewrite EP in H2; exact (incl_tran F5 H2)|rewrite (upd_other _ _ Hd); exact (H2 r' Hr')]
      |intros r' w' b' rest' Hr'; destruct (Z.eq_dec r' r) as [->|Hd];
        [rewrite upd_same; intros E'; destruct (F6 _ _ _ E') as [-> Hm]; repeat split; [exact Hm|lia|lia|lia|lia]
        |rewrite (upd_other _ _ Hd); exact (H3 r' w' b' rest' Hr')]].
  - unfold fire, block_inv; cbn [s_dir s_n s_pc]. split; [exact H1|split].
    + intros r' Hr'. destruct (Z.eq_dec r' r) as [->|Hd]; [rewrite upd_same; apply incl_refl|rewrite (upd_other _ _ Hd); exact (H2 r' Hr')].
    + intros r' w b rest Hr'. destruct (Z.eq_dec r' r) as [->|Hd]; [rewrite upd_same; discriminate|rewrite (upd_other _ _ Hd); exact (H3 r' w b rest Hr')].
  - apply start_inv; [exact (He n eq_refl)|exact H1].
Qed.

Lemma block_inv_reach : forall s, reachable s -> block_inv s.
Proof.
  apply reach_ind; [|exact block_inv_step]. intros n Hn. apply start_inv; [exact Hn|]. intros b Hb. discriminate.
Qed.

(** The directory only grows. *)
Definition le_dir (d d' : dir) : Prop :=
  (forall b, d_mark d b = true -> d_mark d' b = true) /\
  (forall k, here (d_cm d k) = true -> here (d_cm d' k) = true) /\
  (forall k, here (d_cd d k) = true -> here (d_cd d' k) = true) /\
  (forall k, d_ob d k = true -> d_ob d' k = true).
Lemma le_refl : forall d, le_dir d d.
Proof. repeat split; auto. Qed.
Lemma le_trans : forall a b c, le_dir a b -> le_dir b c -> le_dir a c.
Proof. intros a b c (A1 & A2 & A3 & A4) (B1 & B2 & B3 & B4). repeat split; auto. Qed.
Lemma rank_step_le : forall n r d p, le_dir d (fst (rank_step n r d p)).
Proof.
  intros n r d p.
  assert (G : forall A (f : Z -> A) (P : A -> Prop) k v x, P v -> P (f x) -> P (upd f k v x))
    by (intros; unfold upd; destruct (x =? k); assumption).
  destruct p as [[|b todo]|w b rest| | |k o| | |[|k todo]|k rest| |[|b todo]|b rest|]; simpl; try apply le_refl.
  - destruct (d_mark d b); apply le_refl.
  - destruct w as [|[|[|[|[|[|w]]]]]]; simpl; destruct (has_rec b); repeat split; simpl; auto;
    intros x Hx; apply (G _ _ (fun v => v = true)); auto.
  - destruct (all_blocks d); apply le_refl.
  - destruct (all_maps d); [apply le_refl|]. destruct ((r =? 1) || (r =? 16)); repeat split; auto.
  - destruct (n_cm <=? k); [apply le_refl|]. destruct o; unfold set_map; destruct (r =? 1); repeat split; simpl; auto;
      intros x Hx; apply (G _ _ (fun v => here v = true)); auto; destruct atomic; reflexivity.
  - destruct (all_maps d); apply le_refl.
  - destruct (all_ob d); apply le_refl.
  - repeat split; auto.
  - repeat split; auto. simpl. intros x Hx. apply (G _ _ (fun v => v = true)); auto.
  - destruct (all_ob d); apply le_refl.
  - repeat split; auto.
  - repeat split; auto.
Qed.
Lemma fire_le : forall e s, le_dir (s_dir s) (s_dir (fire e s)).
Proof.
  intros [r|r|n] s; simpl; try apply le_refl. destruct ((1 <=? r) && (r <=? s_n s)); [|apply le_refl].
  pose proof (@rank_step_le (s_n s) r (s_dir s) (s_pc s r)) as H. destruct (rank_step (s_n s) r (s_dir s) (s_pc s r)). exact H.
Qed.
Lemma exec_le : forall es s, le_dir (s_dir s) (s_dir (exec es s)).
Proof. induction es as [|e es IH]; intros s; simpl; [apply le_refl|]. eapply le_trans; [apply fire_le|apply IH]. Qed.
Lemma all_blocks_le : forall d d', le_dir d d' -> all_blocks d = true -> all_blocks d' = true.
Proof.
  intros d d' (H & _) A. unfold all_blocks in *. rewrite forallb_forall in *. intros b Hb. apply H, A, Hb.
Qed.
Lemma all_maps_le : forall d d', le_dir d d' -> all_maps d = true -> all_maps d' = true.
Proof.
  intros d d' (_ & H1 & H2 & _) A. unfold all_maps in *. rewrite forallb_forall in *. intros k Hk. specialize (A k Hk).
  apply andb_prop in A. destruct A. rewrite (H1 k), (H2 k); auto.
Qed.
Lemma all_ob_le : forall d d', le_dir d d' -> all_ob d = true -> all_ob d' = true.
Proof.
  intros d d' (_ & _ & _ & H) A. unfold all_ob in *. rewrite forallb_forall in *. intros b Hb. apply H, A, Hb.
Qed.

(** *** C56 *)
Theorem C56_complete : forall s b, reachable s -> d_mark (s_dir s) b = true ->
  (has_rec b = true -> d_rec (s_dir s) b = Complete) /\ d_bcd (s_dir s) b = Complete /\ d_bcm (s_dir s) b = Complete.
Proof. intros s b R M. exact (proj1 (block_inv_reach R) b M). Qed.

Lemma reach_exec : forall s es, reachable s -> sizes_ok es -> reachable (exec es s).
Proof.
  intros s es (n & es0 & Hn & H0 & ->) H. exists n, (es0 ++ es). split; [exact Hn|]. split; [|rewrite exec_app; reflexivity].
  intros m Hm. apply in_app_iff in Hm. destruct Hm; [apply H0|apply H]; assumption.
Qed.
(** Once marked, a block stays marked, its files stay complete and no rank
    computes it again, whatever happens next. *)
Theorem C56_never_recomputed : forall s b es, reachable s -> sizes_ok es -> d_mark (s_dir s) b = true ->
  let s' := exec es s in
  d_mark (s_dir s') b = true /\
  ((has_rec b = true -> d_rec (s_dir s') b = Complete) /\ d_bcd (s_dir s') b = Complete /\ d_bcm (s_dir s') b = Complete) /\
  forall r w rest, 1 <= r <= s_n s' -> s_pc s' r <> PWrite w b rest.
Proof.
  intros s b es R Hes M s'. assert (R' : reachable s') by (apply reach_exec; assumption).
  assert (M' : d_mark (s_dir s') b = true) by (apply (exec_le es s); exact M).
  split; [exact M'|]. split; [exact (C56_complete _ R' M')|].
  intros r w rest Hr E. destruct (block_inv_reach R') as (_ & _ & H3). destruct (H3 r w b rest Hr E) as [F _]. congruence.
Qed.

(** ** C57 *)
Definition late (p : pc) : Prop := match p with PBlock _ | PWrite _ _ _ | PWaitB => False | _ => True end.
Definition later (p : pc) : Prop :=
  match p with PBlock _ | PWrite _ _ _ | PWaitB | PCheckA | PAsm _ _ | PWaitA => False | _ => True end.
Definition snap_todo (p : pc) : list Z := match p with PObia l => l | PMark k l => k :: l | _ => [] end.

Definition stage_inv (s : st) : Prop :=
  (forall r, 1 <= r <= s_n s -> late (s_pc s r) -> all_blocks (s_dir s) = true) /\
  (forall r, 1 <= r <= s_n s -> later (s_pc s r) -> all_maps (s_dir s) = true) /\
  (forall r, 1 <= r <= s_n s -> incl (snap_todo (s_pc s r)) (my_snaps (s_n s) r)) /\
  (forall r k o, 1 <= r <= s_n s -> s_pc s r = PAsm k o -> (r = 1 \/ r = 16) /\ 0 <= k) /\
  g_block (s_dir s) = false.

Lemma frame_stage : forall n r d p,
  let q := rank_step n r d p in
  (late (snd q) -> late p \/ all_blocks d = true) /\
  (later (snd q) -> later p \/ all_maps d = true) /\
  (incl (snap_todo p) (my_snaps n r) -> incl (snap_todo (snd q)) (my_snaps n r)) /\
  (forall k o, snd q = PAsm k o -> (exists k' o', p = PAsm k' o' /\ (k = k' \/ k = k' + 1)) \/ (k = 0 /\ (r = 1 \/ r = 16))) /\
  (g_block (fst q) = true -> g_block d = true \/ (p = PCheckA /\ block_files r d = false)).
Proof.
  intros n r d p q. subst q.
  destruct p as [[|b todo]|w b rest| | |k o| | |[|k todo]|k rest| |[|b todo]|b rest|]; simpl.
  all: try destruct (d_mark d b); try destruct w as [|[|[|[|[|[|w]]]]]]; try destruct (has_rec b); try destruct (all_blocks d) eqn:EA; try destruct (all_maps d) eqn:EM;
    try destruct (all_ob d); try destruct (n_cm <=? k); try destruct o.
  all: try (destruct ((r =? 1) || (r =? 16)) eqn:ER); simpl.
  all: split; [|split; [|split; [|split]]].
  all: try (intros; simpl in *; auto using incl_nil_l, incl_refl; fail).
  all: try discriminate.
  all: try (intros k0 o0 E; injection E as <- <-; left; eexists; eexists; split; [reflexivity|lia]).
  all: try (unfold set_map; destruct (r =? 1); simpl; auto; fail).
  all: try (intros k0 o0 E; injection E as <- <-; right; split; [reflexivity|]; apply orb_prop in ER; destruct ER as [E|E]; apply Z.eqb_eq in E; auto; fail).
  all: try (intros H; apply orb_prop in H; destruct H as [H|H]; [auto|]; apply negb_true_iff in H; auto; fail).
  all: intros H x Hx; apply H; right; exact Hx.
Qed.

Lemma block_files_ok : forall s r, reachable s -> all_blocks (s_dir s) = true -> block_files r (s_dir s) = true.
Proof.
  intros s r R A. unfold block_files, all_blocks in *. rewrite forallb_forall in *. intros b Hb. specialize (A b Hb).
  destruct (C56_complete _ R A) as (_ & C & D). destruct (r =? 1); [rewrite D|rewrite C]; reflexivity.
Qed.

Lemma reach_fire : forall s e, reachable s -> (forall n, e = Resubmit n -> 1 <= n) -> reachable (fire e s).
Proof.
  intros s e R H. change (fire e s) with (exec [e] s). apply reach_exec; [exact R|].
  intros n [->|[]]. apply H. reflexivity.
Qed.
Lemma reach_ind' : forall (I : st -> Prop), (forall n, 1 <= n -> I (init n)) ->
  (forall s e, reachable s -> I s -> (forall n, e = Resubmit n -> 1 <= n) -> I (fire e s)) -> forall s, reachable s -> I s.
Proof.
  intros I H0 HS s R. apply (@reach_ind (fun s => reachable s /\ I s)); [| |exact R].
  - intros n Hn. split; [|apply H0, Hn]. exists n, []. repeat split; [exact Hn|]. intros m [].
  - intros s' e _ [R' I'] He. split; [apply reach_fire|apply HS]; assumption.
Qed.
(** Case analysis of an event. *)
Lemma fire_step : forall s r, 1 <= r <= s_n s ->
  fire (Step r) s = mkSt (s_n s) (fst (rank_step (s_n s) r (s_dir s) (s_pc s r))) (upd (s_pc s) r (snd (rank_step (s_n s) r (s_dir s) (s_pc s r)))).
Proof.
  intros s r [H1 H2]. unfold fire. apply Z.leb_le in H1, H2. rewrite H1, H2. simpl. destruct (rank_step _ _ _ _). reflexivity.
Qed.
Lemma fire_out : forall s r, ~ (1 <= r <= s_n s) -> fire (Step r) s = s.
Proof.
  intros s r H. unfold fire. destruct ((1 <=? r) && (r <=? s_n s)) eqn:E; [|reflexivity].
  apply andb_prop in E. destruct E as [A B]. apply Z.leb_le in A, B. exfalso. apply H. lia.
Qed.

Lemma stage_inv_reach : forall s, reachable s -> stage_inv s.
Proof.
  apply reach_ind'.
  - intros n Hn. repeat split; simpl; try contradiction; try discriminate. intros r _ x [].
  - intros s e R (S1 & S2 & S3 & S4 & S5) He. pose proof (reach_n R) as Hn. destruct e as [r|r|n].
    + destruct (Z_le_dec 1 r) as [Ha|Ha]; [|rewrite fire_out by lia; repeat split; auto; apply (S4 r0 k o H H0)].
      destruct (Z_le_dec r (s_n s)) as [Hb|Hb]; [|rewrite fire_out by lia; repeat split; auto; apply (S4 r0 k o H H0)].
      rewrite fire_step by lia.
      pose proof (@rank_step_le (s_n s) r (s_dir s) (s_pc s r)) as L.
      destruct (@frame_stage (s_n s) r (s_dir s) (s_pc s r)) as (F1 & F2 & F3 & F4 & F5).
      destruct (rank_step (s_n s) r (s_dir s) (s_pc s r)) as [d p]. cbn [fst snd] in *.
      unfold stage_inv. cbn [s_dir s_pc s_n]. split; [|split; [|split; [|split]]].
      * intros r' Hr'. destruct (Z.eq_dec r' r) as [->|Hd]; [rewrite upd_same|rewrite (upd_other _ _ Hd)]; intros HL;
          apply (all_blocks_le L); [|exact (S1 r' Hr' HL)]. destruct (F1 HL) as [X|X]; [exact (S1 r Hr' X)|exact X].
      * intros r' Hr'. destruct (Z.eq_dec r' r) as [->|Hd]; [rewrite upd_same|rewrite (upd_other _ _ Hd)]; intros HL;
          apply (all_maps_le L); [|exact (S2 r' Hr' HL)]. destruct (F2 HL) as [X|X]; [exact (S2 r Hr' X)|exact X].
      * intros r' Hr'. destruct (Z.eq_dec r' r) as [->|Hd]; [rewrite upd_same; exact (F3 (S3 r Hr'))|rewrite (upd_other _ _ Hd); exact (S3 r' Hr')].
      * intros r' k o Hr'. destruct (Z.eq_dec r' r) as [->|Hd]; [rewrite upd_same|rewrite (upd_other _ _ Hd); exact (S4 r' k o Hr')].
        intros E. destruct (F4 _ _ E) as [(k' & o' & E' & Hk)|[-> Hk]]; [|split; [exact Hk|lia]].
        destruct (S4 r k' o' Hr' E') as [X Y]. split; [exact X|lia].
      * destruct (g_block d) eqn:G; [|reflexivity]. destruct (F5 eq_refl) as [X|[X Y]]; [congruence|].
        rewrite (@block_files_ok s r R) in Y; [discriminate|]. apply (S1 r ltac:(lia)). rewrite X. exact I.
    + unfold fire, stage_inv; cbn [s_dir s_pc s_n]. split; [|split; [|split; [|split; [|exact S5]]]];
        intros r'; intros; destruct (Z.eq_dec r' r) as [->|Hd]; rewrite ?upd_same, ?(upd_other _ _ Hd) in *; simpl in *;
        try contradiction; try discriminate; eauto using incl_nil_l.
    + unfold fire, stage_inv; cbn [s_dir s_pc s_n]. split; [|split; [|split; [|split; [|exact S5]]]]; intros r'; intros; simpl in *;
        try contradiction; try discriminate; eauto using incl_nil_l.
Qed.

(** The assembling ranks only read complete block files. *)
Theorem C57_block_files_partial : forall s, reachable s -> g_block (s_dir s) = false.
Proof. intros s R. apply (stage_inv_reach R). Qed.

(** If a map became visible only when complete, the property would hold. *)
Definition map_inv (s : st) : Prop :=
  (forall k, d_cm (s_dir s) k <> Partial) /\ (forall k, d_cd (s_dir s) k <> Partial) /\ g_map (s_dir s) = false.
Lemma frame_map : forall n r d p, atomic = true ->
  (forall k, d_cm d k <> Partial) -> (forall k, d_cd d k <> Partial) ->
  let q := rank_step n r d p in
  (forall k, d_cm (fst q) k <> Partial) /\ (forall k, d_cd (fst q) k <> Partial) /\
  (g_map (fst q) = true -> g_map d = true \/ exists k rest, p = PObia (k :: rest) /\ read_ok d k = false).
Proof.
  intros n r d p HA H1 H2 q. subst q.
  assert (G : forall (f : Z -> file) k x, (forall y, f y <> Partial) -> upd f k Complete x <> Partial)
    by (intros; unfold upd; destruct (x =? k); [discriminate|auto]).
  destruct p as [[|b todo]|w b rest| | |k o| | |[|k todo]|k rest| |[|b todo]|b rest|]; simpl.
  all: try rewrite HA.
  all: try destruct (d_mark d b); try destruct w as [|[|[|[|[|[|w]]]]]]; try destruct (has_rec b); try destruct (all_blocks d) eqn:EA; try destruct (all_maps d) eqn:EM;
    try destruct (all_ob d); try destruct (n_cm <=? k); try destruct o.
  all: try (destruct ((r =? 1) || (r =? 16)) eqn:ER); simpl.
  all: try (unfold set_map; destruct (r =? 1); simpl).
  all: repeat split; auto.
  all: intros H; apply orb_prop in H; destruct H as [H|H]; [auto|]; apply negb_true_iff in H; eauto.
Qed.
Lemma map_inv_reach : atomic = true -> forall s, reachable s -> map_inv s.
Proof.
  intros HA. apply reach_ind'.
  - intros n Hn. repeat split; simpl; discriminate.
  - intros s e R (M1 & M2 & M3) He. destruct e as [r|r|n]; [|repeat split; assumption|repeat split; assumption].
    destruct (Z_le_dec 1 r) as [Ha|Ha]; [|rewrite fire_out by lia; repeat split; assumption].
    destruct (Z_le_dec r (s_n s)) as [Hb|Hb]; [|rewrite fire_out by lia; repeat split; assumption].
    rewrite fire_step by lia. pose proof (reach_n R) as Hn.
    destruct (@frame_map (s_n s) r (s_dir s) (s_pc s r) HA M1 M2) as (F1 & F2 & F3).
    destruct (rank_step (s_n s) r (s_dir s) (s_pc s r)) as [d p]. cbn [fst snd] in *. unfold map_inv. cbn [s_dir s_pc s_n].
    split; [exact F1|]. split; [exact F2|]. destruct (g_map d) eqn:G; [|reflexivity].
    destruct (F3 eq_refl) as [X|(k & rest & E & X)]; [congruence|]. exfalso.
    destruct (stage_inv_reach R) as (_ & S2 & S3 & _).
    assert (A : all_maps (s_dir s) = true) by (apply (S2 r ltac:(lia)); rewrite E; exact I).
    assert (Hk : In k snaps). { apply (@my_snaps_in (s_n s) r k Hn ltac:(lia)). apply (S3 r ltac:(lia)). rewrite E. left. reflexivity. }
    unfold all_maps in A. rewrite forallb_forall in A.
    assert (FULL : forall j, In j snaps -> full (d_cm (s_dir s) j) = true /\ full (d_cd (s_dir s) j) = true).
    { intros j Hj. specialize (A j Hj). apply andb_prop in A. destruct A as [A1 A2]. specialize (M1 j). specialize (M2 j).
      destruct (d_cm (s_dir s) j), (d_cd (s_dir s) j); try discriminate; try congruence; auto. }
    unfold read_ok in X. destruct (k <=? 0) eqn:Ek; [discriminate|]. apply Z.leb_gt in Ek. apply zrange_In in Hk.
    destruct (FULL k) as [X1 X2]; [apply zrange_In; lia|]. destruct (FULL (k - 1)) as [X3 X4]; [apply zrange_In; lia|].
    rewrite X1, X2, X3, X4 in X. discriminate.
Qed.
Theorem C57_atomic_partial : atomic = true -> forall s, reachable s -> g_map (s_dir s) = false.
Proof. intros HA s R. apply (map_inv_reach HA R). Qed.

(** ** C55 *)

(** What a rank at [p] will still do about block b, map k, snapshot k, and the
    reconstruction of block b. *)
Definition asm_todo (p : pc) (k : Z) : Prop :=
  match p with PBlock _ | PWrite _ _ _ | PWaitB | PCheckA => True | PAsm k0 _ => k0 <= k | _ => False end.
Definition ob_todo (p : pc) (k : Z) : Prop :=
  match p with PObia l => In k l | PMark k' l => In k (k' :: l) | PWaitO | PRecon _ | PReW _ _ | PDone => False | _ => True end.
Definition re_todo (p : pc) : list Z := match p with PRecon l => l | PReW b l => b :: l | _ => [] end.
Definition re_done (p : pc) : Prop := match p with PRecon _ | PReW _ _ | PDone => True | _ => False end.

Definition live_inv (s : st) : Prop :=
  (forall r b, 1 <= r <= s_n s -> In b (my_blocks (s_n s) r) -> d_mark (s_dir s) b = false -> In b (pend (s_pc s r))) /\
  (forall k, In k snaps -> here (d_cm (s_dir s) k) = false -> asm_todo (s_pc s 1) k) /\
  (16 <= s_n s -> forall k, In k snaps -> here (d_cd (s_dir s) k) = false -> asm_todo (s_pc s 16) k) /\
  (forall r k, 1 <= r <= s_n s -> In k (my_snaps (s_n s) r) -> d_ob (s_dir s) k = false -> ob_todo (s_pc s r) k) /\
  (forall r, 1 <= r <= s_n s -> incl (re_todo (s_pc s r)) (my_blocks (s_n s) r)) /\
  (forall r b, 1 <= r <= s_n s -> In b (my_blocks (s_n s) r) -> re_done (s_pc s r) -> In b (re_todo (s_pc s r)) \/ d_obr (s_dir s) b = Complete).

(** Preservation, one conjunct at a time, for the stepping rank. *)
Lemma live1 : forall n r d p b, d_mark (fst (rank_step n r d p)) b = false -> In b (pend p) -> In b (pend (snd (rank_step n r d p))).
Proof.
  intros n r d p b. destruct p as [[|b' todo]|w b' rest| | |k o| | |[|k todo]|k rest| |[|b' todo]|b' rest|]; cbn [pend In]; try contradiction.
  - simpl. destruct (d_mark d b') eqn:E; simpl; [|auto]. intros H [->|H']; [congruence|exact H'].
  - destruct w as [|[|[|[|[|[|w]]]]]]; simpl; try (destruct (has_rec b')); simpl; auto.
    intros H [->|H']; [rewrite upd_same in H; discriminate|exact H'].
    intros H [->|H']; [rewrite upd_same in H; discriminate|exact H'].
Qed.
Lemma live2 : forall n r d p k, In k snaps -> r = 1 \/ r = 16 ->
  let f := fun d : dir => if r =? 1 then d_cm d else d_cd d in
  here (f (fst (rank_step n r d p)) k) = false -> asm_todo p k -> asm_todo (snd (rank_step n r d p)) k.
Proof.
  intros n r d p k Hk Hr f.
  assert (HM : all_maps d = true -> here (f d k) = true).
  { intros A. unfold all_maps in A. rewrite forallb_forall in A. specialize (A k Hk). apply andb_prop in A. destruct A. unfold f. destruct (r =? 1); assumption. }
  assert (ER : (r =? 1) || (r =? 16) = true) by (destruct Hr as [->| ->]; reflexivity).
  apply zrange_In in Hk.
  destruct p as [[|b' todo]|w b' rest| | |k0 o| | |[|k0 todo]|k0 rest| |[|b' todo]|b' rest|]; cbn [asm_todo]; try contradiction.
  - simpl; auto.
  - simpl. destruct (d_mark d b'); simpl; auto.
  - intros _ _. destruct w as [|[|[|[|[|[|w]]]]]]; simpl; try (destruct (has_rec b')); exact I.
  - simpl. destruct (all_blocks d); simpl; auto.
  - simpl. destruct (all_maps d); simpl; [rewrite HM by reflexivity; discriminate|]. rewrite ER. simpl. intros; lia.
  - simpl. destruct (n_cm <=? k0) eqn:E; [apply Z.leb_le in E; intros; lia|]. apply Z.leb_gt in E. destruct o; simpl; [|auto].
    intros H Hle. destruct (Z.eq_dec k k0) as [->|]; [|lia]. exfalso. revert H. unfold f, set_map. destruct (r =? 1); simpl; rewrite upd_same; discriminate.
Qed.
Lemma live2_frame : forall n r d p k, here (d_cm d k) = false -> r <> 1 -> d_cm (fst (rank_step n r d p)) k = d_cm d k.
Proof.
  intros n r d p k H Hr. apply Z.eqb_neq in Hr.
  destruct p as [[|b' todo]|w b' rest| | |k0 o| | |[|k0 todo]|k0 rest| |[|b' todo]|b' rest|]; simpl; try reflexivity.
  all: try destruct (d_mark d b'); try destruct w as [|[|[|[|[|[|w]]]]]]; try destruct (has_rec b'); try destruct (all_blocks d) eqn:EA; try destruct (all_maps d) eqn:EM;
    try destruct (all_ob d); try destruct (n_cm <=? k0); try destruct o; unfold set_map; rewrite ?Hr; simpl; try destruct (r =? 16); reflexivity.
Qed.
Lemma live4 : forall n r d p k, In k snaps -> In k (my_snaps n r) ->
  d_ob (fst (rank_step n r d p)) k = false -> ob_todo p k -> ob_todo (snd (rank_step n r d p)) k.
Proof.
  intros n r d p k Hk Hm.
  assert (HM : all_ob d = true -> d_ob d k = true).
  { intros A. unfold all_ob in A. rewrite forallb_forall in A. exact (A k Hk). }
  destruct p as [[|b' todo]|w b' rest| | |k0 o| | |[|k0 todo]|k0 rest| |[|b' todo]|b' rest|]; cbn [ob_todo]; try contradiction.
  - simpl; auto.
  - simpl. destruct (d_mark d b'); simpl; auto.
  - intros _ _. destruct w as [|[|[|[|[|[|w]]]]]]; simpl; try (destruct (has_rec b')); exact I.
  - simpl. destruct (all_blocks d); simpl; auto.
  - simpl. destruct (all_maps d); [|destruct ((r =? 1) || (r =? 16))]; simpl; auto.
  - simpl. destruct (n_cm <=? k0); [|destruct o]; simpl; auto.
  - simpl. destruct (all_maps d); simpl; auto.
  - simpl. destruct (all_ob d); simpl; [rewrite HM by reflexivity; discriminate|auto].
  - simpl. auto.
  - simpl. intros H [->|H']; [rewrite upd_same in H; discriminate|exact H'].
Qed.
Lemma live5 : forall n r d p, incl (re_todo p) (my_blocks n r) -> incl (re_todo (snd (rank_step n r d p))) (my_blocks n r).
Proof.
  intros n r d p H.
  destruct p as [[|b' todo]|w b' rest| | |k0 o| | |[|k0 todo]|k0 rest| |[|b' todo]|b' rest|]; simpl; auto using incl_nil_l.
  all: try destruct (d_mark d b'); try destruct w as [|[|[|[|[|[|w]]]]]]; try destruct (has_rec b'); try destruct (all_blocks d) eqn:EA; try destruct (all_maps d) eqn:EM;
    try destruct (all_ob d); try destruct (n_cm <=? k0); try destruct o; try destruct ((r =? 1) || (r =? 16)); simpl; auto using incl_nil_l, incl_refl.
  all: intros x Hx; apply H; right; exact Hx.
Qed.
Lemma live6 : forall n r d p b, In b (my_blocks n r) -> (re_done p -> In b (re_todo p) \/ d_obr d b = Complete) ->
  re_done (snd (rank_step n r d p)) -> In b (re_todo (snd (rank_step n r d p))) \/ d_obr (fst (rank_step n r d p)) b = Complete.
Proof.
  intros n r d p b Hb H.
  destruct p as [[|b' todo]|w b' rest| | |k0 o| | |[|k0 todo]|k0 rest| |[|b' todo]|b' rest|]; simpl; auto.
  all: try destruct (d_mark d b'); try destruct w as [|[|[|[|[|[|w]]]]]]; try destruct (has_rec b'); try destruct (all_blocks d) eqn:EA; try destruct (all_maps d) eqn:EM;
    try destruct (all_ob d); try destruct (n_cm <=? k0); try destruct o; try destruct ((r =? 1) || (r =? 16)); simpl; auto; try contradiction.
  all: intros _; destruct (H I) as [[->|X]|X]; unfold upd; try (rewrite Z.eqb_refl); auto.
  all: destruct (b =? b') eqn:E; [apply Z.eqb_eq in E|]; auto.
Qed.
Lemma obr_frame : forall n r d p b, incl (re_todo p) (my_blocks n r) -> ~ In b (my_blocks n r) ->
  d_obr (fst (rank_step n r d p)) b = d_obr d b.
Proof.
  intros n r d p b H Hb.
  destruct p as [[|b' todo]|w b' rest| | |k0 o| | |[|k0 todo]|k0 rest| |[|b' todo]|b' rest|]; simpl; auto.
  all: try destruct (d_mark d b'); try destruct w as [|[|[|[|[|[|w]]]]]]; try destruct (has_rec b'); try destruct (all_blocks d) eqn:EA; try destruct (all_maps d) eqn:EM;
    try destruct (all_ob d); try destruct (n_cm <=? k0); try destruct o; try destruct ((r =? 1) || (r =? 16)); simpl; auto; unfold set_map; try destruct (r =? 1); auto.
  all: apply upd_other; intros ->; apply Hb, H; left; reflexivity.
Qed.

Lemma live_inv_reach : forall s, reachable s -> live_inv s.
Proof.
  assert (START : forall n d, 1 <= n -> live_inv (mkSt n d (start n))).
  { intros n d Hn. unfold live_inv. cbn [s_dir s_pc s_n]. unfold start. cbn [pend asm_todo ob_todo re_todo re_done].
    repeat split; auto using incl_nil_l; try contradiction. }
  apply reach_ind'.
  - intros n Hn. apply START, Hn.
  - intros s e R (L1 & L2 & L3 & L4 & L5 & L6) He. pose proof (reach_n R) as Hn. destruct e as [r|r|n].
    + destruct (Z_le_dec 1 r) as [Ha|Ha]; [|rewrite fire_out by lia; repeat split; assumption].
      destruct (Z_le_dec r (s_n s)) as [Hb|Hb]; [|rewrite fire_out by lia; repeat split; assumption].
      rewrite fire_step by lia.
      pose proof (@rank_step_le (s_n s) r (s_dir s) (s_pc s r)) as (E1 & E2 & E3 & E4).
      unfold live_inv. cbn [s_dir s_pc s_n]. split; [|split; [|split; [|split; [|split]]]].
      * intros r' b Hr' Hi Hm. assert (Hm0 : d_mark (s_dir s) b = false).
        { destruct (d_mark (s_dir s) b) eqn:Q; [|reflexivity]. rewrite (E1 b Q) in Hm. discriminate. }
        destruct (Z.eq_dec r' r) as [->|Hd]; [rewrite upd_same|rewrite (upd_other _ _ Hd); auto].
        apply live1; [exact Hm|]. apply L1; assumption.
      * intros k Hk Hm. assert (Hm0 : here (d_cm (s_dir s) k) = false).
        { destruct (here (d_cm (s_dir s) k)) eqn:Q; [|reflexivity]. rewrite (E2 k Q) in Hm. discriminate. }
        destruct (Z.eq_dec 1 r) as [<-|Hd]; [rewrite upd_same|rewrite (upd_other _ _ Hd); auto].
        apply live2; auto.
      * intros H16 k Hk Hm. assert (Hm0 : here (d_cd (s_dir s) k) = false).
        { destruct (here (d_cd (s_dir s) k)) eqn:Q; [|reflexivity]. rewrite (E3 k Q) in Hm. discriminate. }
        destruct (Z.eq_dec 16 r) as [<-|Hd]; [rewrite upd_same|rewrite (upd_other _ _ Hd); auto].
        apply live2; auto.
      * intros r' k Hr' Hi Hm. assert (Hm0 : d_ob (s_dir s) k = false).
        { destruct (d_ob (s_dir s) k) eqn:Q; [|reflexivity]. rewrite (E4 k Q) in Hm. discriminate. }
        destruct (Z.eq_dec r' r) as [->|Hd]; [rewrite upd_same|rewrite (upd_other _ _ Hd); auto].
        apply live4; auto. eapply my_snaps_in; [exact Hn| |exact Hi]. lia.
      * intros r' Hr'. destruct (Z.eq_dec r' r) as [->|Hd]; [rewrite upd_same; apply live5; auto|rewrite (upd_other _ _ Hd); auto].
      * intros r' b Hr' Hi. destruct (Z.eq_dec r' r) as [->|Hd]; [rewrite upd_same; apply live6; auto|rewrite (upd_other _ _ Hd)].
        intros HR. rewrite obr_frame; auto. intros Hi'. apply Hd. exact (@owner_unique (s_n s) r' r b Hn Hr' ltac:(lia) Hi Hi').
    + unfold fire, live_inv; cbn [s_dir s_pc s_n]. repeat split; intros;
      match goal with |- context [upd _ r _ ?x] => destruct (Z.eq_dec x r) as [Ex|Hd]; [rewrite Ex in *; rewrite ?upd_same in *|rewrite ?(upd_other _ _ Hd) in *] end;
        simpl in *; try contradiction; auto using incl_nil_l.
    + apply START. exact (He n eq_refl).
Qed.

(** A rank is blocked exactly when it polls in vain or has finished. *)
Definition enabled (d : dir) (p : pc) : bool :=
  match p with PWaitB => all_blocks d | PWaitA => all_maps d | PWaitO => all_ob d | PDone => false | _ => true end.

(** Accesses a rank can still make, not counting polling. *)
Definition wO n r : nat := (3 * length (my_blocks n r) + 2)%nat.
Definition wC n r : nat := (2 * length (my_snaps n r) + wO n r + 2)%nat.
Definition wA n r : nat := (2 * Z.to_nat n_cm + wC n r + 4)%nat.
Definition weight (n r : Z) (p : pc) : nat :=
  match p with
  | PBlock l => 10 * length l + wA n r + 2
  | PWrite w _ l => (7 - w) + 10 * length l + wA n r + 3
  | PWaitB => wA n r + 1
  | PCheckA => wA n r
  | PAsm k o => 2 * Z.to_nat (n_cm - k) + wC n r + (if o then 2 else 3)
  | PWaitA => wC n r + 1
  | PCheckO => wC n r
  | PObia l => 2 * length l + wO n r + 1
  | PMark _ l => 2 * length l + wO n r + 2
  | PWaitO => wO n r
  | PRecon l => 3 * length l + 1
  | PReW _ l => 3 * length l + 2
  | PDone => 0
  end%nat.
Lemma weight_dec : forall n r d p, (forall k o, p = PAsm k o -> 0 <= k) -> (forall w b l, p = PWrite w b l -> (w <= 6)%nat) ->
  enabled d p = true -> (weight n r (snd (rank_step n r d p)) < weight n r p)%nat.
Proof.
  intros n r d p Hk Hw. unfold weight at 2.
  destruct p as [[|b' todo]|w b' rest| | |k0 o| | |[|k0 todo]|k0 rest| |[|b' todo]|b' rest|]; cbn [enabled rank_step]; intros He; try discriminate.
  all: try rewrite He; cbn [snd weight length]; try (unfold wA, wC, wO; lia).
  - destruct (d_mark d b'); cbn [snd weight]; lia.
  - specialize (Hw w b' rest eq_refl). assert (W6 : (w = 0 \/ w = 1 \/ w = 2 \/ w = 3 \/ w = 4 \/ w = 5 \/ w = 6)%nat) by lia.
    destruct W6 as [W6|[W6|[W6|[W6|[W6|[W6|W6]]]]]]; subst w; try destruct (has_rec b'); cbn [snd weight]; lia.
  - destruct (all_maps d); [|destruct ((r =? 1) || (r =? 16))]; cbn [snd weight]; unfold wA; rewrite ?Z.sub_0_r; lia.
  - specialize (Hk k0 o eq_refl). destruct (n_cm <=? k0) eqn:E; [cbn [snd weight]; destruct o; lia|]. apply Z.leb_gt in E.
    destruct o; cbn [snd weight]; [|lia]. replace (n_cm - (k0 + 1)) with (n_cm - k0 - 1) by lia. lia.
  - destruct (all_ob d); cbn [snd weight]; unfold wC, wO; lia.
Qed.
Lemma blocked_same : forall n r d p, enabled d p = false -> rank_step n r d p = (d, p).
Proof.
  intros n r d p. destruct p as [[|b' todo]|w b' rest| | |k0 o| | |[|k0 todo]|k0 rest| |[|b' todo]|b' rest|]; cbn [enabled rank_step]; intros He; try discriminate;
    try rewrite He; reflexivity.
Qed.
Lemma enabled_le : forall d d' p, le_dir d d' -> enabled d p = true -> enabled d' p = true.
Proof.
  intros d d' p L. destruct p; cbn [enabled]; auto; intros H; [eapply all_blocks_le|eapply all_maps_le|eapply all_ob_le]; eauto.
Qed.

Lemma forallb_false : forall A (f : A -> bool) l, forallb f l = false -> exists x, In x l /\ f x = false.
Proof.
  intros A f l. induction l as [|a l IH]; simpl; [discriminate|]. destruct (f a) eqn:E; simpl; intros H.
  - destruct (IH H) as (x & X & Y). eauto.
  - eauto.
Qed.

Definition finished (s : st) : Prop := forall r, 1 <= r <= s_n s -> s_pc s r = PDone.

(** Some rank can always move, if there are at least 16 of them. *)
Lemma progress : forall s, reachable s -> 16 <= s_n s -> finished s \/ exists r, 1 <= r <= s_n s /\ enabled (s_dir s) (s_pc s r) = true.
Proof.
  intros s R H16. destruct (live_inv_reach R) as (L1 & L2 & L3 & L4 & _). pose proof (reach_n R) as Hn.
  destruct (existsb (fun r => enabled (s_dir s) (s_pc s r)) (zrange 1 (s_n s))) eqn:EX.
  { apply existsb_exists in EX. destruct EX as (r & Hr & He). apply zrange_In in Hr. right. exists r. split; [lia|exact He]. }
  left. assert (NO : forall r, 1 <= r <= s_n s -> enabled (s_dir s) (s_pc s r) = false).
  { intros r Hr. destruct (enabled (s_dir s) (s_pc s r)) eqn:E; [|reflexivity].
    rewrite <- EX. symmetry. apply existsb_exists. exists r. split; [apply zrange_In; lia|exact E]. }
  assert (B : all_blocks (s_dir s) = true).
  { destruct (all_blocks (s_dir s)) eqn:E; [reflexivity|]. destruct (forallb_false _ _ E) as (b & Hb & Hm).
    destruct (@owner_exists (s_n s) b Hn Hb) as (r & Hr & Hi). specialize (L1 r b Hr Hi Hm). specialize (NO r Hr).
    destruct (s_pc s r); simpl in L1, NO; try contradiction; discriminate. }
  assert (A : all_maps (s_dir s) = true).
  { destruct (all_maps (s_dir s)) eqn:E; [reflexivity|]. destruct (forallb_false _ _ E) as (k & Hk & Hm). apply andb_false_iff in Hm.
    destruct Hm as [Hm|Hm].
    - specialize (L2 k Hk Hm). specialize (NO 1 ltac:(lia)). destruct (s_pc s 1); simpl in L2, NO; try contradiction; try discriminate. congruence.
    - specialize (L3 H16 k Hk Hm). specialize (NO 16 ltac:(lia)). destruct (s_pc s 16); simpl in L3, NO; try contradiction; try discriminate. congruence. }
  assert (O : all_ob (s_dir s) = true).
  { destruct (all_ob (s_dir s)) eqn:E; [reflexivity|]. destruct (forallb_false _ _ E) as (k & Hk & Hm).
    destruct (@snap_owner (s_n s) k Hn Hk) as (r & Hr & Hi). specialize (L4 r k Hr Hi Hm). specialize (NO r Hr).
    destruct (s_pc s r); simpl in L4, NO; try contradiction; try discriminate; congruence. }
  intros r Hr. specialize (NO r Hr). destruct (s_pc s r); simpl in NO; try discriminate; congruence.
Qed.

(** Total remaining work, and runs without further crashes. *)
Fixpoint total (f : Z -> nat) (l : list Z) : nat := match l with [] => 0 | r :: t => f r + total f t end%nat.
Lemma total_eq : forall f g l, (forall r, In r l -> f r = g r) -> total f l = total g l.
Proof. induction l as [|a l IH]; intros H; [reflexivity|]. simpl. rewrite (H a) by (left; reflexivity). rewrite IH; [reflexivity|]. intros; apply H; right; assumption. Qed.
Lemma total_upd : forall f l r (v : nat), NoDup l -> In r l -> (total f l + v = total (upd f r v) l + f r)%nat.
Proof.
  induction l as [|a l IH]; intros r v HD Hin; [contradiction|]. apply NoDup_cons_iff in HD. destruct HD as [Ha HD]. simpl.
  destruct (Z.eq_dec a r) as [->|Hd].
  - rewrite upd_same. rewrite (@total_eq (upd f r v) f l); [lia|]. intros x Hx. apply upd_other. intros ->. contradiction.
  - destruct Hin as [->|Hin]; [congruence|]. specialize (IH r v HD Hin). rewrite (upd_other f v Hd). lia.
Qed.
Definition work (s : st) : nat := total (fun r => weight (s_n s) r (s_pc s r)) (zrange 1 (s_n s)).

Lemma step_work : forall s r, reachable s -> 1 <= r <= s_n s ->
  (enabled (s_dir s) (s_pc s r) = true -> (work (fire (Step r) s) < work s)%nat) /\
  (enabled (s_dir s) (s_pc s r) = false -> work (fire (Step r) s) = work s /\ forall r', s_pc (fire (Step r) s) r' = s_pc s r').
Proof.
  intros s r R Hr. rewrite fire_step by exact Hr. split; intros He.
  - assert (W : (weight (s_n s) r (snd (rank_step (s_n s) r (s_dir s) (s_pc s r))) < weight (s_n s) r (s_pc s r))%nat).
    { apply weight_dec; [| |exact He].
      - intros k o E. apply (stage_inv_reach R) in E; [apply E|exact Hr].
      - intros w b l E. destruct (block_inv_reach R) as (_ & _ & H3). apply (H3 r w b l Hr E). }
    unfold work. cbn [s_n s_pc].
    set (p' := snd (rank_step (s_n s) r (s_dir s) (s_pc s r))) in *.
    rewrite (@total_eq (fun r0 => weight (s_n s) r0 (upd (s_pc s) r p' r0)) (upd (fun r0 => weight (s_n s) r0 (s_pc s r0)) r (weight (s_n s) r p'))).
    2:{ intros x _. unfold upd. destruct (x =? r) eqn:E; [|reflexivity]. apply Z.eqb_eq in E. subst x. reflexivity. }
    pose proof (@total_upd (fun r0 => weight (s_n s) r0 (s_pc s r0)) (zrange 1 (s_n s)) r (weight (s_n s) r p') (zrange_NoDup 1 (s_n s)) ltac:(apply zrange_In; lia)) as T.
    cbv beta in T. lia.
  - rewrite (blocked_same (s_n s) r _ _ He). cbn [fst snd s_pc s_n].
    assert (P : forall r', upd (s_pc s) r (s_pc s r) r' = s_pc s r') by (intros r'; unfold upd; destruct (r' =? r) eqn:E; [apply Z.eqb_eq in E; subst; reflexivity|reflexivity]).
    split; [|exact P]. unfold work. cbn [s_n s_pc]. apply total_eq. intros x _. rewrite P. reflexivity.
Qed.

(** State after the first i accesses of a schedule. *)
Fixpoint run (sched : nat -> Z) (i : nat) (s : st) : st :=
  match i with O => s | S j => fire (Step (sched j)) (run sched j s) end.
Definition fair (n : Z) (sched : nat -> Z) : Prop :=
  forall r, 1 <= r <= n -> forall i, exists j, (i <= j)%nat /\ sched j = r.

Lemma run_facts : forall sched s, reachable s -> forall i,
  reachable (run sched i s) /\ s_n (run sched i s) = s_n s.
Proof.
  intros sched s R. induction i as [|i [IH1 IH2]]; [split; [exact R|reflexivity]|]. cbn [run]. split.
  - apply reach_fire; [exact IH1|discriminate].
  - rewrite <- IH2. unfold fire. destruct ((1 <=? sched i) && (sched i <=? s_n (run sched i s))); [destruct (rank_step _ _ _ _)|]; reflexivity.
Qed.
Lemma run_work : forall sched s i, reachable s -> (work (run sched (S i) s) <= work (run sched i s))%nat.
Proof.
  intros sched s i R. destruct (@run_facts sched s R i) as [Ri Ni]. cbn [run]. set (si := run sched i s) in *. set (r := sched i).
  destruct (Z_le_dec 1 r) as [Ha|Ha]; [|rewrite fire_out by lia; lia]. destruct (Z_le_dec r (s_n si)) as [Hb|Hb]; [|rewrite fire_out by lia; lia].
  destruct (@step_work si r Ri ltac:(lia)) as [A B]. destruct (enabled (s_dir si) (s_pc si r)); [specialize (A eq_refl); lia|]. destruct (B eq_refl) as [C _]. lia.
Qed.
(** A rank that can move keeps being able to until it is scheduled. *)
Lemma waits : forall sched s r, reachable s -> 1 <= r <= s_n s -> forall d i,
  enabled (s_dir (run sched i s)) (s_pc (run sched i s) r) = true ->
  (exists j, (i <= j < i + d)%nat /\ sched j = r /\ enabled (s_dir (run sched j s)) (s_pc (run sched j s) r) = true) \/
  (enabled (s_dir (run sched (i + d) s)) (s_pc (run sched (i + d) s) r) = true).
Proof.
  intros sched s r R Hr. induction d as [|d IH]; intros i He.
  - right. rewrite Nat.add_0_r. exact He.
  - destruct (IH i He) as [(j & Hj & E & E')|H]; [left; exists j; repeat split; [lia|lia|exact E|exact E']|].
    destruct (Z.eq_dec (sched (i + d)%nat) r) as [E|E].
    + left. exists (i + d)%nat. repeat split; [lia|lia|exact E|exact H].
    + right. rewrite Nat.add_succ_r. cbn [run]. set (sd := run sched (i + d) s) in *.
      replace (s_pc (fire (Step (sched (i + d)%nat)) sd) r) with (s_pc sd r).
      * eapply enabled_le; [apply fire_le|exact H].
      * unfold fire. destruct ((1 <=? sched (i + d)%nat) && (sched (i + d)%nat <=? s_n sd)); [|reflexivity]. destruct (rank_step _ _ _ _).
        cbn [s_pc]. symmetry. apply upd_other. congruence.
Qed.
Lemma C55_from : forall sched s, reachable s -> 16 <= s_n s -> fair (s_n s) sched ->
  forall w i, (work (run sched i s) <= w)%nat -> exists j, (i <= j)%nat /\ finished (run sched j s).
Proof.
  intros sched s R H16 F. induction w as [w IH] using (well_founded_induction lt_wf). intros i Hw.
  destruct (@run_facts sched s R i) as [Ri Ni].
  destruct (@progress (run sched i s) Ri ltac:(lia)) as [Fin|(r & Hr & He)]; [exists i; split; [lia|exact Fin]|].
  rewrite Ni in Hr. destruct (F r Hr i) as (m & Hm & Em).
  assert (HW : exists j, (i <= j)%nat /\ sched j = r /\ enabled (s_dir (run sched j s)) (s_pc (run sched j s) r) = true).
  { destruct (@waits sched s r R Hr (m - i) i He) as [(j & Hj & Ej & E')|H]; [exists j; repeat split; [lia|exact Ej|exact E']|].
    replace (i + (m - i))%nat with m in H by lia. exists m. repeat split; assumption. }
  destruct HW as (j & Hj & Ej & E').
  destruct (@run_facts sched s R j) as [Rj Nj].
  assert (MONO : forall a b, (a <= b)%nat -> (work (run sched b s) <= work (run sched a s))%nat).
  { intros a b Hab. induction Hab as [|b Hab IHb]; [lia|]. pose proof (@run_work sched s b R). lia. }
  assert (D : (work (run sched (S j) s) < work (run sched j s))%nat).
  { cbn [run]. rewrite Ej. apply step_work; [exact Rj|lia|exact E']. }
  pose proof (MONO i j Hj). destruct (IH (work (run sched (S j) s)) ltac:(lia) (S j) ltac:(lia)) as (z & Hz & Fz).
  exists z. split; [lia|exact Fz].
Qed.

(** After any history of crashes and resubmissions, at least 16 fairly
    scheduled ranks that crash no more finish, and then every block has its
    marker and its object-based record. *)
Theorem C55_sixteen : forall sched s, reachable s -> 16 <= s_n s -> fair (s_n s) sched ->
  exists j, finished (run sched j s) /\
    forall b, 1 <= b <= nblocks -> d_mark (s_dir (run sched j s)) b = true /\ d_obr (s_dir (run sched j s)) b = Complete.
Proof.
  intros sched s R H16 F. destruct (@C55_from sched s R H16 F (work s) 0%nat ltac:(cbn [run]; lia)) as (j & _ & Fin).
  exists j. split; [exact Fin|]. destruct (@run_facts sched s R j) as [Rj Nj]. set (t := run sched j s) in *.
  assert (Ht : 1 <= s_n t) by lia.
  intros b Hb. assert (Hin : In b blocks) by (apply zrange_In; lia). destruct (@owner_exists (s_n t) b Ht Hin) as (r & Hr & Hi).
  destruct (live_inv_reach Rj) as (_ & _ & _ & _ & _ & L6). destruct (stage_inv_reach Rj) as (S1 & _). split.
  - assert (A : all_blocks (s_dir t) = true) by (apply (S1 r Hr); rewrite (Fin r Hr); exact I).
    unfold all_blocks in A. rewrite forallb_forall in A. exact (A b Hin).
  - specialize (L6 r b Hr Hi). rewrite (Fin r Hr) in L6. destruct (L6 I) as [[]|X]. exact X.
Qed.

(** Fewer than 16 ranks never get past the polling for the maps, however
    often they are restarted. *)
Theorem C55_refuted : forall n es, 1 <= n < 16 -> 1 <= n_cm -> (forall m, In (Resubmit m) es -> 1 <= m < 16) ->
  let s := exec es (init n) in forall r, 1 <= r <= s_n s -> ~ later (s_pc s r).
Proof.
  intros n es Hn Hcm Hes.
  assert (G : forall es s, reachable s -> (forall m, In (Resubmit m) es -> 1 <= m < 16) -> 1 <= s_n s < 16 -> d_cd (s_dir s) 0 = Absent ->
    (forall r, 1 <= r <= s_n s -> ~ later (s_pc s r)) ->
    let s' := exec es s in forall r, 1 <= r <= s_n s' -> ~ later (s_pc s' r)); [|apply G; [exists n, []; repeat split; [lia|intros m []]|exact Hes|exact Hn|reflexivity|intros r Hr []]].
  clear - Hcm. induction es as [|e es IH]; intros s R Hes Hn HA HL; [exact HL|]. cbn [exec].
  assert (He : forall m, e = Resubmit m -> 1 <= m < 16) by (intros m ->; apply Hes; left; reflexivity).
  assert (Hes' : forall m, In (Resubmit m) es -> 1 <= m < 16) by (intros m Hm; apply Hes; right; exact Hm).
  destruct e as [r|r|m].
  - destruct (Z_le_dec 1 r) as [Ha|Ha]; [|rewrite fire_out by lia; apply (IH s); assumption].
    destruct (Z_le_dec r (s_n s)) as [Hb|Hb]; [|rewrite fire_out by lia; apply (IH s); assumption].
    assert (R' : reachable (fire (Step r) s)) by (apply reach_fire; [exact R|discriminate]).
    rewrite fire_step in * by lia.
    assert (NM : all_maps (s_dir s) = false).
    { unfold all_maps. apply not_true_is_false. intros A. rewrite forallb_forall in A. specialize (A 0 ltac:(apply zrange_In; lia)).
      rewrite HA in A. rewrite andb_false_r in A. discriminate. }
    assert (E16 : r =? 16 = false) by (apply Z.eqb_neq; lia).
    specialize (HL r ltac:(lia)) as HLr.
    assert (Q : d_cd (fst (rank_step (s_n s) r (s_dir s) (s_pc s r))) 0 = Absent /\ ~ later (snd (rank_step (s_n s) r (s_dir s) (s_pc s r)))
              \/ exists k o, s_pc s r = PAsm k o /\ r <> 1).
    { destruct (s_pc s r) as [[|b' todo]|w b' rest| | |k0 o| | |[|k0 todo]|k0 rest| |[|b' todo]|b' rest|] eqn:EP; cbn [rank_step]; try (exfalso; apply HLr; exact I).
      all: rewrite ?NM, ?E16, ?orb_false_r.
      all: try destruct (d_mark (s_dir s) b'); try destruct w as [|[|[|[|[|[|w]]]]]]; try destruct (has_rec b'); try destruct (all_blocks (s_dir s)) eqn:EA;
        try destruct (Z.eq_dec r 1) as [->|N1]; try (rewrite (proj2 (Z.eqb_neq r 1) N1)); try destruct (n_cm <=? k0); try destruct o;
        try (left; cbn; split; [exact HA|exact (fun x => x)]; fail).
      all: right; eexists; eexists; split; [reflexivity|assumption]. }
    assert (NOASM : forall k o, s_pc s r = PAsm k o -> r <> 1 -> False) by (intros k o E N1; apply (stage_inv_reach R) in E; [|lia]; destruct E; lia).
    destruct Q as [[Q1 Q2]|(k & o & E & N1)]; [|exfalso; exact (NOASM k o E N1)].
    apply IH; [exact R'|exact Hes'|exact Hn|exact Q1|]. cbn [s_n s_pc]. intros r' Hr'. destruct (Z.eq_dec r' r) as [->|Hd]; [rewrite upd_same; exact Q2|rewrite (upd_other _ _ Hd); exact (HL r' Hr')].
  - apply IH; [apply reach_fire; [exact R|discriminate]|exact Hes'|exact Hn|exact HA|]. cbn [fire s_n s_pc]. intros r' Hr'. destruct (Z.eq_dec r' r) as [->|Hd]; [rewrite upd_same; intros []|rewrite (upd_other _ _ Hd); exact (HL r' Hr')].
  - apply IH; [apply reach_fire; [exact R|intros m' E; injection E as <-; specialize (He m eq_refl); lia]|exact Hes'|exact (He m eq_refl)|exact HA|intros r' _ []].
Qed.
End Pipeline.

(** ** Concrete runs: 16 ranks, 2 blocks, 2 snapshots, maps written as the
    code does. *)
Definition always (b : Z) : bool := true.
Definition steps (r : Z) (k : nat) : list event := repeat (Step r) k.
Definition ex_exec (es : list event) : st := exec 2 2 always false es (init 2 16).
(** Ranks 1 and 2 compute their block; rank 16 writes both date maps; rank 1
    writes the first map and opens the second. *)
Definition prefix : list event := steps 1 9 ++ steps 2 9 ++ steps 1 2 ++ steps 16 9 ++ steps 1 3.

Example C56_example : d_mark (s_dir (ex_exec (steps 1 5 ++ [Crash 1] ++ steps 1 8))) 1 = true /\
  d_rec (s_dir (ex_exec (steps 1 2))) 1 = Partial /\ d_mark (s_dir (ex_exec (steps 1 8))) 1 = true.
Proof. vm_compute. auto. Qed.
Example C57_atomic_example : g_map (s_dir (exec 2 2 always true prefix (init 2 16))) = false /\
  all_maps 2 (s_dir (exec 2 2 always true prefix (init 2 16))) = true.
Proof. vm_compute. auto. Qed.

Definition only_steps (es : list event) : Prop := forall e, In e es -> exists r, e = Step r.
Definition only_stepsb (es : list event) : bool := forallb (fun e => match e with Step _ => true | _ => false end) es.
Lemma only_steps_ok : forall es, only_stepsb es = true -> only_steps es.
Proof.
  intros es H e He. unfold only_stepsb in H. rewrite forallb_forall in H. specialize (H e He). destruct e; [eauto|discriminate|discriminate].
Qed.
(** Without any crash, rank 2 reads a map that rank 1 has only opened. *)
Theorem C57_refuted : exists nblocks n_cm has n es, 1 <= n /\ only_steps es /\
  g_map (s_dir (exec nblocks n_cm has false es (init nblocks n))) = true.
Proof.
  exists 2, 2, always, 16, (prefix ++ steps 2 5). split; [lia|]. split; [apply only_steps_ok; reflexivity|]. vm_compute. reflexivity.
Qed.
(** After a crash of rank 1 in the middle of np.save, the pipeline accepts the
    half-written map for good: everything finishes and the map is never
    completed. *)
Definition everyone (k : nat) : list event := concat (repeat (map (fun i => Step (Z.of_nat i)) (seq 1 16)) k).
Theorem C57_crash_refuted : exists nblocks n_cm has n es, 1 <= n /\
  let s := exec nblocks n_cm has false es (init nblocks n) in
  finished s /\ d_cm (s_dir s) 1 = Partial /\ g_map (s_dir s) = true.
Proof.
  exists 2, 2, always, 16, (prefix ++ [Crash 1] ++ everyone 40). split; [lia|]. cbv zeta. split; [|vm_compute; auto].
  set (s := exec 2 2 always false (prefix ++ [Crash 1] ++ everyone 40) (init 2 16)).
  assert (N : s_n s = 16) by (vm_compute; reflexivity).
  assert (F : forallb (fun r => match s_pc s r with PDone => true | _ => false end) (zrange 1 16) = true) by (vm_compute; reflexivity).
  intros r Hr. rewrite N in Hr. rewrite forallb_forall in F. specialize (F r ltac:(apply zrange_In; lia)). destruct (s_pc s r); congruence.
Qed.

(** A fair schedule exists, and on the example it reaches the end. *)
Definition round_robin (n : Z) (i : nat) : Z := Z.of_nat i mod n + 1.
Lemma round_robin_fair : forall n, 1 <= n -> fair n (round_robin n).
Proof.
  intros n Hn r Hr i. exists (Z.to_nat (n * Z.of_nat i + (r - 1))). split; [nia|].
  unfold round_robin. rewrite Z2Nat.id by nia. replace (n * Z.of_nat i + (r - 1)) with ((r - 1) + Z.of_nat i * n) by ring. rewrite Z.mod_add by lia. rewrite Z.mod_small by lia. lia.
Qed.
Example C55_example : fair 16 (round_robin 16) /\
  forallb (fun r => match s_pc (run 2 2 always false (round_robin 16) (16 * 30) (init 2 16)) r with PDone => true | _ => false end) (zrange 1 16) = true.
Proof. split; [apply round_robin_fair; lia|vm_compute; reflexivity]. Qed.
(** Fifteen ranks after the same number of rounds: all polling for the maps. *)
Example C55_refuted_example :
  forallb (fun r => match s_pc (run 2 2 always false (round_robin 15) (15 * 30) (init 2 15)) r with PWaitA => true | _ => false end) (zrange 1 15) = true.
Proof. vm_compute. reflexivity. Qed.

Print Assumptions C55_sixteen.
Print Assumptions C55_refuted.
Print Assumptions C56_complete.
Print Assumptions C56_never_recomputed.
Print Assumptions C57_block_files_partial.
Print Assumptions C57_atomic_partial.
Print Assumptions C57_refuted.
Print Assumptions C57_crash_refuted.
