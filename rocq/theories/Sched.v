(** Division of labour between the ranks of a job array
    (src/python/pycold/imagetool/tile_processing.py 264-265, 396-404, 655-668,
    735-744; src/python/pycold/imagetool/prepare_ard.py 2036-2042 and the same
    loop for the other collections): C53, C54, C76; and the CM collection loop
    of a block (tile_processing.py 491-568): C64. *)
From Coq Require Import Permutation.
From Verif Require Import Base PyIndex.

(** [for i in range(n): id = step * i + first; if id > limit: break; ...] *)
Fixpoint sched (n : nat) (step next limit : Z) : list Z :=
  match n with
  | O => []
  | S m => if next >? limit then [] else next :: sched m step (next + step) limit
  end.
(** int(np.ceil(a / b)) *)
Definition ceil_div (a b : Z) : Z := - (- a / b).
(** Blocks of a rank (tile_processing.py 396-404). *)
Definition rank_blocks (n_cores rank nblocks : Z) : list Z :=
  sched (Z.to_nat (ceil_div nblocks n_cores)) n_cores rank nblocks.
(** Scenes of a rank (prepare_ard.py 2036-2042): indices into folder_list. *)
Definition rank_scenes (n_cores rank n : Z) : list Z :=
  sched (Z.to_nat (ceil_div n n_cores)) n_cores (rank - 1) (n - 1).
(** Snapshots of a rank (tile_processing.py 705-713): the dates are
    starting_date + k * interval, compared with the last one. *)
Definition rank_maps (n_cores rank n_cm start int : Z) : list Z :=
  map (fun k => start + k * int)
    (sched (Z.to_nat (ceil_div n_cm n_cores)) n_cores (rank - 1) (n_cm - 1)).

Lemma ceil_spec : forall a b, 0 < b -> a <= ceil_div a b * b /\ (ceil_div a b - 1) * b < a.
Proof.
  intros a b Hb. unfold ceil_div. pose proof (Z.div_mod (- a) b ltac:(lia)). pose proof (Z.mod_pos_bound (- a) b Hb). nia.
Qed.

(** What the loop visits. *)
Lemma sched_In : forall n step next limit k, 0 < step ->
  In k (sched n step next limit) <-> exists i, 0 <= i < Z.of_nat n /\ k = next + i * step /\ k <= limit.
Proof.
  induction n as [|n IH]; intros step next limit k Hs; cbn [sched].
  - split; [intros []|]. intros (i & Hi & _). lia.
  - destruct (next >? limit) eqn:E.
    + split; [intros []|]. intros (i & Hi & -> & L). nia.
    + cbn [In]. rewrite IH by assumption. split.
      * intros [<-|(i & Hi & -> & L)]; [exists 0; lia|]. exists (i + 1). lia.
      * intros (i & Hi & -> & L). destruct (Z.eq_dec i 0) as [->|Hn]; [left; lia|]. right. exists (i - 1). lia.
Qed.
Lemma sched_NoDup : forall n step next limit, 0 < step -> NoDup (sched n step next limit).
Proof.
  induction n as [|n IH]; intros step next limit Hs; cbn [sched]; [constructor|].
  destruct (next >? limit); [constructor|]. constructor; [|apply IH; assumption].
  rewrite sched_In by assumption. intros (i & Hi & E & _). nia.
Qed.
Lemma sched_all : forall step first lo n k, 0 < step -> lo <= first < lo + step ->
  In k (sched (Z.to_nat (ceil_div n step)) step first (lo + n - 1)) <->
  lo <= k < lo + n /\ (k - lo) mod step = first - lo.
Proof.
  intros step first lo n k Hs Hf. rewrite sched_In by assumption. destruct (@ceil_spec n step Hs) as [C1 C2]. split.
  - intros (i & Hi & -> & L). split; [nia|]. replace (first + i * step - lo) with ((first - lo) + i * step) by lia.
    rewrite Z.mod_add by lia. apply Z.mod_small. lia.
  - intros [Hk Hm]. pose proof (Z.div_mod (k - lo) step ltac:(lia)) as D. exists ((k - lo) / step).
    assert (0 <= (k - lo) / step) by (apply Z.div_pos; lia). split; [|lia]. split; [lia|].
    assert (0 <= ceil_div n step) by nia. rewrite Z2Nat.id by lia. apply Z.div_lt_upper_bound; [lia|]. nia.
Qed.

(** ** C53, C76 *)
(** Every piece of work has exactly one rank, which visits it exactly once. *)
Definition shared_out (n_cores lo n : Z) (work : Z -> list Z) : Prop :=
  (forall r, 1 <= r <= n_cores -> NoDup (work r) /\ forall k, In k (work r) -> lo <= k < lo + n) /\
  (forall k, lo <= k < lo + n -> exists r, 1 <= r <= n_cores /\ In k (work r) /\
     forall r', 1 <= r' <= n_cores -> In k (work r') -> r' = r).

Lemma shared : forall n_cores lo n off, 0 < n_cores -> off = lo - 1 ->
  shared_out n_cores lo n (fun r => sched (Z.to_nat (ceil_div n n_cores)) n_cores (off + r) (lo + n - 1)).
Proof.
  intros c lo n off Hc ->. split.
  - intros r Hr. split; [apply sched_NoDup; assumption|]. intros k Hk. apply (@sched_all c (lo - 1 + r) lo n k Hc ltac:(lia)) in Hk. lia.
  - intros k Hk. pose proof (Z.mod_pos_bound (k - lo) c Hc). exists ((k - lo) mod c + 1). split; [lia|]. split.
    + apply sched_all; [assumption|lia|]. lia.
    + intros r' Hr' Hin. apply sched_all in Hin; [|assumption|lia]. lia.
Qed.

Theorem C53_blocks : forall n_cores nblocks, 0 < n_cores -> shared_out n_cores 1 nblocks (fun r => rank_blocks n_cores r nblocks).
Proof.
  intros c n Hc. pose proof (@shared c 1 n 0 Hc eq_refl) as H. unfold rank_blocks.
  replace (1 + n - 1) with n in H by lia. exact H.
Qed.
Theorem C76_scenes : forall n_cores n, 0 < n_cores -> shared_out n_cores 0 n (fun r => rank_scenes n_cores r n).
Proof.
  intros c n Hc. pose proof (@shared c 0 n (-1) Hc eq_refl) as H. unfold rank_scenes.
  replace (0 + n - 1) with (n - 1) in H by lia. destruct H as [H1 H2]. split.
  - intros r Hr. specialize (H1 r Hr). replace (-1 + r) with (r - 1) in H1 by lia. exact H1.
  - intros k Hk. destruct (H2 k Hk) as (r & Hr & Hin & Hu). exists r. split; [assumption|].
    replace (r - 1) with (-1 + r) by lia. split; [assumption|]. intros r' Hr' Hin'. apply Hu; [assumption|]. replace (-1 + r') with (r' - 1) by lia. exact Hin'.
Qed.
(** Snapshots: each date start + k * int is analysed by exactly one rank. *)
Theorem C53_maps : forall n_cores n_cm start int, 0 < n_cores -> 0 < int -> forall k, 0 <= k < n_cm ->
  exists r, 1 <= r <= n_cores /\ In (start + k * int) (rank_maps n_cores r n_cm start int) /\
    forall r', 1 <= r' <= n_cores -> In (start + k * int) (rank_maps n_cores r' n_cm start int) -> r' = r.
Proof.
  intros c n start int Hc Hi k Hk. destruct (@C76_scenes c n Hc) as [_ H]. destruct (H k ltac:(lia)) as (r & Hr & Hin & Hu).
  unfold rank_scenes in *. exists r. split; [assumption|]. unfold rank_maps. split.
  - apply in_map_iff. exists k. auto.
  - intros r' Hr' Hin'. apply in_map_iff in Hin' as (k' & E & Hin'). assert (k' = k) by nia. subst k'. apply Hu; assumption.
Qed.

(** The union over the ranks as a list. *)
Lemma NoDup_app_list : forall A (l1 l2 : list A), NoDup l1 -> NoDup l2 -> (forall x, In x l1 -> ~ In x l2) -> NoDup (l1 ++ l2).
Proof.
  induction l1 as [|a l IH]; intros l2 N1 N2 H; [assumption|]. apply NoDup_cons_iff in N1 as [Na N1]. cbn [app]. constructor.
  - rewrite in_app_iff. intros [X|X]; [contradiction|]. exact (H a (or_introl eq_refl) X).
  - apply IH; [assumption|assumption|]. intros x Hx. apply H. right. exact Hx.
Qed.
Lemma concat_NoDup : forall (w : Z -> list Z) (rs : list Z), NoDup rs -> (forall r, In r rs -> NoDup (w r)) ->
  (forall r r' k, In r rs -> In r' rs -> In k (w r) -> In k (w r') -> r = r') -> NoDup (flat_map w rs).
Proof.
  intros w. induction rs as [|r rs IH]; intros N H1 H2; [constructor|]. apply NoDup_cons_iff in N as [Nr N]. cbn [flat_map].
  apply NoDup_app_list.
  - apply H1. left. reflexivity.
  - apply IH; [assumption|intros; apply H1; right; assumption|]. intros r1 r2 k A B. apply H2; right; assumption.
  - intros x Hx Hin. apply in_flat_map in Hin as (r' & Hr' & Hx'). apply Nr.
    rewrite (H2 r r' x (or_introl eq_refl) (or_intror Hr') Hx Hx'). exact Hr'.
Qed.
Definition zrange (lo n : Z) : list Z := map (fun i => lo + Z.of_nat i) (seq 0 (Z.to_nat n)).
Lemma zrange_In : forall lo n k, In k (zrange lo n) <-> lo <= k < lo + n.
Proof.
  intros lo n k. unfold zrange. rewrite in_map_iff. split.
  - intros (i & <- & H). apply in_seq in H. lia.
  - intro H. exists (Z.to_nat (k - lo)). split; [lia|]. apply in_seq. lia.
Qed.
Lemma zrange_NoDup : forall lo n, NoDup (zrange lo n).
Proof. intros lo n. unfold zrange. apply FinFun.Injective_map_NoDup; [intros a b; lia|apply seq_NoDup]. Qed.
Theorem C53_permutation : forall n_cores nblocks, 0 < n_cores ->
  Permutation (flat_map (fun r => rank_blocks n_cores r nblocks) (zrange 1 n_cores)) (zrange 1 nblocks).
Proof.
  intros c n Hc. destruct (@C53_blocks c n Hc) as [H1 H2].
  apply NoDup_Permutation; [|apply zrange_NoDup|].
  - apply concat_NoDup; [apply zrange_NoDup| |].
    + intros r Hr. apply zrange_In in Hr. apply H1. lia.
    + intros r r' k Hr Hr' Hk Hk'. apply zrange_In in Hr, Hr'.
      assert (B : 1 <= k < 1 + n) by (apply (H1 r); [lia|assumption]).
      destruct (H2 k B) as (r0 & _ & _ & Hu). rewrite (Hu r) by (try assumption; lia). symmetry. apply Hu; [lia|assumption].
  - intro k. rewrite in_flat_map, zrange_In. split.
    + intros (r & Hr & Hk). apply zrange_In in Hr. apply (H1 r); [lia|assumption].
    + intro B. destruct (H2 k B) as (r & Hr & Hk & _). exists r. rewrite zrange_In. split; [lia|assumption].
Qed.
Example C53_example : map (fun r => rank_blocks 4 r 10) [1; 2; 3; 4] = [[1; 5; 9]; [2; 6; 10]; [3; 7]; [4; 8]].
Proof. reflexivity. Qed.
Example C53_example_maps : map (fun r => rank_maps 3 r 4 730000 32) [1; 2; 3] = [[730000; 730096]; [730032]; [730064]].
Proof. reflexivity. Qed.

(** ** C54: the defaults rank = 0, n_cores = 1 (tile_processing.py 264-265) *)
Theorem C54_default_blocks : forall nblocks, 0 < nblocks -> forall k, In k (rank_blocks 1 0 nblocks) <-> 0 <= k < nblocks.
Proof.
  intros n Hn k. unfold rank_blocks. rewrite sched_In by lia. replace (ceil_div n 1) with n by (unfold ceil_div; rewrite Z.div_1_r; lia).
  split; [intros (i & Hi & -> & _); lia|]. intro H. exists k. lia.
Qed.
(** For every layout with at least two columns of blocks the last block is
    left out, and the block (n_block_x, 1) is processed twice under two ids. *)
Theorem C54_refuted : forall nbx nby, 1 < nbx -> 0 < nby ->
  ~ In (nbx * nby) (rank_blocks 1 0 (nbx * nby)) /\
  (forall k, In k (rank_blocks 1 0 (nbx * nby)) -> 1 < nby -> (get_block_x k nbx, get_block_y k nbx) <> (nbx, nby)) /\
  In 0 (rank_blocks 1 0 (nbx * nby)) /\ (get_block_x 0 nbx, get_block_y 0 nbx) = (nbx, 1).
Proof.
  intros nbx nby Hx Hy. assert (Hn : 0 < nbx * nby) by nia.
  assert (E0 : get_block_x 0 nbx = nbx /\ get_block_y 0 nbx = 1).
  { unfold get_block_x, get_block_y. change (0 - 1) with (-1). split.
    - assert (-1 mod nbx = nbx - 1); [|lia]. symmetry. apply (Z.mod_unique (-1) nbx (-1)); lia.
    - replace (Z.quot (-1) nbx) with 0; [reflexivity|]. symmetry. apply (Z.quot_small_iff (-1) nbx); lia. }
  rewrite !C54_default_blocks by assumption. split; [lia|]. split; [|split; [lia|f_equal; apply E0]].
  intros k Hk Hy2 E. apply C54_default_blocks in Hk; [|assumption]. injection E as E1 E2.
  destruct (Z.eq_dec k 0) as [->|Hk0]; [rewrite (proj2 E0) in E2; lia|].
  destruct (@C49_block_id nbx nby 1 1 ltac:(lia) k ltac:(lia)) as (_ & _ & Ek). rewrite E1, E2 in Ek. nia.
Qed.
(** A single column of blocks: the first id names a block row 0. *)
Theorem C54_single_column_refuted : forall nby, 0 < nby -> In 0 (rank_blocks 1 0 (1 * nby)) /\ get_block_y 0 1 = 0.
Proof. intros nby H. rewrite C54_default_blocks by lia. split; [lia|reflexivity]. Qed.
Example C54_example : rank_blocks 1 0 6 = [0; 1; 2; 3; 4; 5] /\ (get_block_x 0 3, get_block_y 0 3) = (3, 1).
Proof. split; reflexivity. Qed.

(** ** C64: failing pixels of a block (tile_processing.py 491-568) *)
Section Pixels.
Variables R CM : Type.
Variable fill : CM.
(** What the call of cold_detect does for one pixel. *)
Inductive call := Returns (r : R) (cm : CM) | Runtime | Other.
(** State of the loop: records, CM entries, the variable CM (unbound at
    first).  [None]: an exception leaves the loop. *)
Fixpoint pixel_loop (cur : option CM) (l : list call) : option (list R * list CM) :=
  match l with
  | [] => Some ([], [])
  | Returns r cm :: t => option_map (fun '(rs, cms) => (r :: rs, cm :: cms)) (pixel_loop (Some cm) t)
  | Other :: t => option_map (fun '(rs, cms) => (rs, fill :: cms)) (pixel_loop (Some fill) t)
  (* the handler evaluates datetime.now.strftime, an AttributeError; the
     finally clause runs and the exception propagates *)
  | Runtime :: t => None
  end.

Definition entry (c : call) : CM := match c with Returns _ cm => cm | _ => fill end.
Definition recs (c : call) : list R := match c with Returns r _ => [r] | _ => [] end.

Theorem C64_pixels_partial : forall l cur, (forall c, In c l -> c <> Runtime) ->
  pixel_loop cur l = Some (flat_map recs l, map entry l).
Proof.
  induction l as [|c l IH]; intros cur H; [reflexivity|]. cbn [pixel_loop flat_map map].
  assert (H' : forall c, In c l -> c <> Runtime) by (intros; apply H; right; assumption).
  destruct c; [| |]; try rewrite IH by assumption; try reflexivity.
  exfalso. exact (H Runtime (or_introl eq_refl) eq_refl).
Qed.
(** One RuntimeError loses the whole block. *)
Theorem C64_runtime_refuted : forall l cur, In Runtime l -> pixel_loop cur l = None.
Proof.
  induction l as [|c l IH]; intros cur H; [contradiction|]. destruct H as [->|H]; [reflexivity|].
  destruct c; cbn [pixel_loop]; try reflexivity; rewrite IH by assumption; reflexivity.
Qed.
(** In the good case entry k of the block belongs to pixel k. *)
Theorem C64_aligned : forall l cur rs cms k c, pixel_loop cur l = Some (rs, cms) -> nth_error l k = Some c ->
  length cms = length l /\ nth_error cms k = Some (entry c).
Proof.
  intros l cur rs cms k c E H.
  assert (N : forall c, In c l -> c <> Runtime).
  { intros c0 Hin ->. rewrite C64_runtime_refuted in E by assumption. discriminate. }
  rewrite C64_pixels_partial in E by assumption. injection E as <- <-. rewrite map_length. split; [reflexivity|].
  rewrite nth_error_map, H. reflexivity.
Qed.
End Pixels.
Example C64_example : pixel_loop (-9999) None [Returns 1 10; Other Z Z; Returns 3 30] = Some ([1; 3], [10; -9999; 30]) /\
  pixel_loop (-9999) None [Returns 1 10; Runtime Z Z; Returns 3 30] = None.
Proof. split; reflexivity. Qed.
