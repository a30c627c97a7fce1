(** Break dates between the object analysis and the reconstruction
    (src/python/pycold/ob_analyst.py 59-71, 984-1025, 1027-1074;
    imagetool/tile_processing.py 696-722).

    The object analysis of a snapshot writes one file per block and then a
    marker; the reconstruction of a block lists the directory, selects the files
    of the block by prefix and suffix, sorts them by the date cut out of the name
    and stacks them.  Directories, file names and [os.listdir] are as in
    Covermap.v: the listing may come in any order.

    A file being written exists but cannot be loaded: [Begin] creates it, [End]
    completes it.  Simplifications: [sorted] on pairs of date and name is a
    stable sort by date (there is one file per date and block); [int] accepts
    unsigned numerals only. *)
From Verif Require Import Base PyIndex Sched Classify Calendar Export Covermap.
From Coq Require Import Ascii String DecimalString DecimalN DecimalPos DecimalFacts NArith Permutation Sorted List.
Import ListNotations.
Open Scope Z_scope.

(** ** File names *)

(** str.zfill(3) *)
Definition zfill3 (s : string) : string :=
  ((match String.length s with 0 => "000" | 1 => "00" | 2 => "0" | _ => "" end)%nat ++ s)%string.
(** ob_analyst.py 59-71 *)
Definition res_head (d : Z) : string :=
  ("obiaresult_" ++ show d ++ "_" ++ show (py_year d) ++ zfill3 (show (d - days_before (py_year d))))%string.
(** ob_analyst.py 1020 and 1052 *)
Definition res_tail (bx by_ : Z) : string := ("_x" ++ show bx ++ "_y" ++ show by_ ++ ".npy")%string.
Definition res_file (d bx by_ : Z) : string := (res_head d ++ res_tail bx by_)%string.
(** ob_analyst.py 1024 and 1036 *)
Definition omark (d : Z) : string := ("tmp_OBIA_" ++ show d ++ "_finished.txt")%string.
(** str.endswith *)
Definition ends_with (suf s : string) : bool :=
  (String.length suf <=? String.length s)%nat &&
  String.eqb (String.substring (String.length s - String.length suf) (String.length suf) s) suf.
(** ob_analyst.py 1055-1065: the six characters after the first "obiaresult_" *)
Definition date_key (f : string) : option Z :=
  let i := Covermap.find "obiaresult_" f in py_int (slice_str f (i + 11) (i + 11 + 6)).
Fixpoint dated (l : list string) : option (list (Z * string)) :=
  match l with
  | [] => Some []
  | t :: r => match date_key t, dated r with Some k, Some q => Some ((k, t) :: q) | _, _ => None end
  end.
(** ob_analyst.py 1049-1066 *)
Definition res_selected (bx by_ : Z) (f : string) : bool := String.prefix "obiaresult" f && ends_with (res_tail bx by_) f.
Definition res_listed (bx by_ : Z) (ls : list string) : option (list string) :=
  option_map (fun q => map snd (ksorted q)) (dated (filter (res_selected bx by_) ls)).

(** ** Strings *)
Lemma app_s_nil : forall a, (a ++ "")%string = a.
Proof. induction a as [|x a IH]; [reflexivity|]. cbn. rewrite IH. reflexivity. Qed.
Lemma app_same_len : forall a b s t, String.length a = String.length b -> (a ++ s = b ++ t)%string -> a = b /\ s = t.
Proof.
  induction a as [|x a IH]; intros [|y b] s t L E; cbn in L; try discriminate; [auto|].
  cbn in E. injection E as E1 E2. destruct (IH b s t) as [A B]; [lia|exact E2|]. subst. auto.
Qed.
Lemma app_tail : forall s a b, (a ++ s = b ++ s)%string -> a = b.
Proof.
  intros s a b E. assert (L : String.length a = String.length b).
  { apply (f_equal String.length) in E. rewrite !len_app in E. lia. }
  destruct (@app_same_len a b s s L E). assumption.
Qed.
Lemma all_chars_app : forall P a b, all_chars P (a ++ b) <-> all_chars P a /\ all_chars P b.
Proof. intros P a b. induction a as [|x a IH]; cbn; [tauto|rewrite IH; tauto]. Qed.
(** Cutting at the last occurrence of a character. *)
Lemma last_split : forall c A B D E, all_chars (fun x => x <> c) D -> all_chars (fun x => x <> c) E ->
  (A ++ String c D = B ++ String c E)%string -> A = B /\ D = E.
Proof.
  induction A as [|a A IH]; intros [|b B] D E HD HE Q; cbn in Q.
  - injection Q as Q. auto.
  - injection Q as Q1 Q2. subst b D. apply all_chars_app in HD. destruct HD as [_ [HD _]]. congruence.
  - injection Q as Q1 Q2. subst a E. apply all_chars_app in HE. destruct HE as [_ [HE _]]. congruence.
  - injection Q as Q1 Q2. destruct (IH B D E HD HE Q2) as [X Y]. subst. auto.
Qed.
Lemma digits_not : forall c s, ~ digit c -> all_chars digit s -> all_chars (fun x => x <> c) s.
Proof. intros c s H. apply all_chars_imp. intros x Hx E. subst x. contradiction. Qed.
Lemma sub_split : forall n s, (n <= String.length s)%nat -> (String.substring 0 n s ++ String.substring n (String.length s - n) s = s)%string.
Proof.
  induction n as [|n IH]; intros [|c s] H; cbn in *; try reflexivity; try lia.
  - f_equal. clear. induction s as [|c s IH]; [reflexivity|]. cbn. rewrite IH. reflexivity.
  - f_equal. apply IH. lia.
Qed.
Lemma ends_with_iff : forall suf s, ends_with suf s = true <-> exists p, s = (p ++ suf)%string.
Proof.
  intros suf s. unfold ends_with. split.
  - intros H. apply andb_true_iff in H. destruct H as [L E]. apply Nat.leb_le in L. apply String.eqb_eq in E.
    exists (String.substring 0 (String.length s - String.length suf) s).
    set (n := (String.length s - String.length suf)%nat) in *. rewrite <- E at 1.
    replace (String.length suf) with (String.length s - n)%nat by (unfold n; lia). symmetry. apply sub_split. unfold n. lia.
  - intros [p ->]. rewrite len_app. apply andb_true_iff. split; [apply Nat.leb_le; lia|].
    replace (String.length p + String.length suf - String.length suf)%nat with (String.length p) by lia.
    rewrite substring_app. apply String.eqb_eq. rewrite <- (app_s_nil suf) at 2. apply substring_0.
Qed.
Lemma res_tail_inj : forall P Q bx by_ bx' by', 0 <= bx -> 0 <= bx' -> 0 <= by_ -> 0 <= by' ->
  (P ++ res_tail bx by_ = Q ++ res_tail bx' by')%string -> P = Q /\ bx = bx' /\ by_ = by'.
Proof.
  intros P Q bx by_ bx' by' H1 H2 H3 H4 E.
  assert (R : forall P bx by_, (P ++ res_tail bx by_ = (((P ++ "_") ++ String "x" (show bx ++ "_")) ++ String "y" (show by_)) ++ ".npy")%string).
  { intros P0 x y. unfold res_tail. rewrite !app_s_assoc. cbn [append]. rewrite !app_s_assoc. reflexivity. }
  rewrite !R in E. apply app_tail in E.
  assert (D : forall c z, ~ digit c -> all_chars (fun x => x <> c) (show z)) by (intros; apply digits_not; [assumption|apply digits_show]).
  assert (NY : ~ digit "y") by (unfold digit; cbn; intuition discriminate).
  assert (NX : ~ digit "x") by (unfold digit; cbn; intuition discriminate).
  apply last_split in E; [|apply D; exact NY|apply D; exact NY]. destruct E as [E Ey].
  apply last_split in E.
  2,3: apply all_chars_app; split; [apply D; exact NX|cbn; split; [discriminate|exact I]].
  destruct E as [E Ex]. apply app_tail in E. apply app_tail in Ex. repeat split; [exact E|apply show_inj; assumption|apply show_inj; assumption].
Qed.

(** *** Six digits *)
Lemma acc_bounds : forall u p, Z.pos p * 10 ^ Z.of_nat (Decimal.nb_digits u) <= Z.pos (Pos.of_uint_acc u p)
  < (Z.pos p + 1) * 10 ^ Z.of_nat (Decimal.nb_digits u).
Proof.
  assert (S10 : forall n, 10 ^ Z.of_nat (S n) = 10 * 10 ^ Z.of_nat n) by (intro n; rewrite Nat2Z.inj_succ, Z.pow_succ_r by lia; reflexivity).
  induction u as [|u IH|u IH|u IH|u IH|u IH|u IH|u IH|u IH|u IH|u IH]; intro p;
    [cbn; lia|..]; cbn [Decimal.nb_digits Pos.of_uint_acc]; rewrite S10;
    match goal with |- _ <= Z.pos (Pos.of_uint_acc u ?q) < _ => pose proof (IH q) as H end;
    assert (0 < 10 ^ Z.of_nat (Decimal.nb_digits u)) by (apply Z.pow_pos_nonneg; lia);
    rewrite ?Pos2Z.inj_add, ?Pos2Z.inj_mul in H; set (w := 10 ^ Z.of_nat (Decimal.nb_digits u)) in *; nia.
Qed.
Lemma len_uint : forall u, String.length (NilEmpty.string_of_uint u) = Decimal.nb_digits u.
Proof. induction u; cbn; congruence. Qed.
Lemma show_length : forall d k, 0 <= k -> 10 ^ k <= d < 10 ^ (k + 1) -> String.length (show d) = Z.to_nat (k + 1).
Proof.
  intros d k Hk Hd. assert (P0 : 0 < 10 ^ k) by (apply Z.pow_pos_nonneg; lia). destruct d as [|p|p]; try lia. unfold show. cbn [Z.to_N].
  assert (E : N.of_uint (N.to_uint (N.pos p)) = N.pos p) by apply DecimalN.Unsigned.of_to.
  assert (U : Decimal.unorm (N.to_uint (N.pos p)) = N.to_uint (N.pos p)).
  { rewrite <- DecimalN.Unsigned.to_of. rewrite E. reflexivity. }
  set (u := N.to_uint (N.pos p)) in *.
  assert (G : forall l q, Z.pos q <= 9 -> N.pos (Pos.of_uint_acc l q) = N.pos p -> S (Decimal.nb_digits l) = Z.to_nat (k + 1)).
  { intros l q Hq Ep. injection Ep as Ep. pose proof (acc_bounds l q) as B. rewrite Ep in B.
    set (n := Z.of_nat (Decimal.nb_digits l)) in *. assert (0 < 10 ^ n) by (apply Z.pow_pos_nonneg; lia).
    assert (n = k).
    { destruct (Z.lt_trichotomy n k) as [L|[L|L]]; [|exact L|].
      - assert (10 ^ (n + 1) <= 10 ^ k) by (apply Z.pow_le_mono_r; lia). rewrite Z.pow_add_r in H0 by lia. nia.
      - assert (10 ^ (k + 1) <= 10 ^ n) by (apply Z.pow_le_mono_r; lia). nia. }
    unfold n in *. lia. }
  destruct u as [|l|l|l|l|l|l|l|l|l|l]; [discriminate E| |..].
  - exfalso. unfold Decimal.unorm in U. destruct (Decimal.nzhead (Decimal.D0 l)) eqn:Z0; try discriminate U.
    + injection U as U. subst l. discriminate E.
    + exact (DecimalFacts.nzhead_nonzero _ _ Z0).
  - unfold NilZero.string_of_uint. rewrite len_uint. cbn [Decimal.nb_digits]. apply (G l 1%positive); [lia|exact E].
  - unfold NilZero.string_of_uint. rewrite len_uint. cbn [Decimal.nb_digits]. apply (G l 2%positive); [lia|exact E].
  - unfold NilZero.string_of_uint. rewrite len_uint. cbn [Decimal.nb_digits]. apply (G l 3%positive); [lia|exact E].
  - unfold NilZero.string_of_uint. rewrite len_uint. cbn [Decimal.nb_digits]. apply (G l 4%positive); [lia|exact E].
  - unfold NilZero.string_of_uint. rewrite len_uint. cbn [Decimal.nb_digits]. apply (G l 5%positive); [lia|exact E].
  - unfold NilZero.string_of_uint. rewrite len_uint. cbn [Decimal.nb_digits]. apply (G l 6%positive); [lia|exact E].
  - unfold NilZero.string_of_uint. rewrite len_uint. cbn [Decimal.nb_digits]. apply (G l 7%positive); [lia|exact E].
  - unfold NilZero.string_of_uint. rewrite len_uint. cbn [Decimal.nb_digits]. apply (G l 8%positive); [lia|exact E].
  - unfold NilZero.string_of_uint. rewrite len_uint. cbn [Decimal.nb_digits]. apply (G l 9%positive); [lia|exact E].
Qed.

Lemma key_res_file : forall d bx by_, 100000 <= d < 1000000 -> date_key (res_file d bx by_) = Some d.
Proof.
  intros d bx by_ Hd. unfold date_key, res_file, res_head. rewrite app_s_assoc, app_s_assoc.
  match goal with |- context [("obiaresult_" ++ show d ++ ?x)%string] => set (t := x) end.
  assert (F : Covermap.find "obiaresult_" ("obiaresult_" ++ show d ++ t)%string = 0) by (unfold Covermap.find; rewrite find_here; reflexivity).
  rewrite F. cbv zeta. unfold slice_str, bound. cbv zeta. rewrite !len_app. cbn [String.length Z.add Z.ltb Z.compare].
  assert (L : String.length (show d) = 6%nat) by (apply (@show_length d 5); cbn; lia). rewrite L.
  rewrite !Z.min_l by lia. change (Z.to_nat 11) with (String.length "obiaresult_"). rewrite substring_app.
  change (Z.to_nat (Z.pos (11 + 6) - 11)) with 6%nat. rewrite <- L, substring_0. apply int_show. lia.
Qed.

(** The listing: the files of the block, in the order of their dates. *)
Lemma dated_some : forall (l : list string) (k : string -> Z), (forall t, In t l -> date_key t = Some (k t)) -> dated l = Some (map (fun t => (k t, t)) l).
Proof.
  induction l as [|t r IH]; intros k H; [reflexivity|]. cbn [dated map]. rewrite (H t (or_introl eq_refl)), (IH k); [reflexivity|].
  intros u Hu. apply H. right. exact Hu.
Qed.
Lemma selected_file : forall d bx by_ bx' by', 0 <= bx -> 0 <= bx' -> 0 <= by_ -> 0 <= by' ->
  res_selected bx by_ (res_file d bx' by') = true <-> bx = bx' /\ by_ = by'.
Proof.
  intros d bx by_ bx' by' H1 H2 H3 H4. unfold res_selected. rewrite andb_true_iff. split.
  - intros [_ E]. apply ends_with_iff in E. destruct E as [p E]. unfold res_file in E. apply res_tail_inj in E; try assumption. intuition.
  - intros [-> ->]. split; [|apply ends_with_iff; exists (res_head d); reflexivity].
    unfold res_file, res_head. rewrite app_s_assoc. apply (prefix_refl_app "obiaresult").
Qed.

Theorem C100_listing : forall ds bx by_ ls, StronglySorted Z.lt ds -> (forall d, In d ds -> 100000 <= d < 1000000) -> NoDup ls ->
  (forall d, In d ds -> In (res_file d bx by_) ls) ->
  (forall s, In s ls -> res_selected bx by_ s = true -> exists d, In d ds /\ s = res_file d bx by_) ->
  res_listed bx by_ ls = Some (map (fun d => res_file d bx by_) ds).
Proof.
  intros ds bx by_ ls Hs Hd Hn Hall Honly. unfold res_listed.
  set (sel := filter (res_selected bx by_) ls).
  set (k := fun t => match date_key t with Some z => z | None => 0 end).
  assert (Hk : forall d, In d ds -> k (res_file d bx by_) = d) by (intros d I; unfold k; rewrite key_res_file by auto; reflexivity).
  assert (ND : NoDup ds).
  { clear - Hs. induction Hs as [|x l S IH F]; [constructor|]. constructor; [|exact IH]. intro I. rewrite Forall_forall in F. specialize (F x I). lia. }
  assert (P : Permutation sel (map (fun d => res_file d bx by_) ds)).
  { apply NoDup_Permutation.
    - apply NoDup_filter. exact Hn.
    - clear - ND Hk. revert Hk. induction ND as [|x l Ni ND IH]; intro Hk; [constructor|]. cbn [map]. constructor.
      + intro I. apply in_map_iff in I. destruct I as (y & E & I). apply Ni. replace x with y; [exact I|].
        rewrite <- (Hk x (or_introl eq_refl)), <- (Hk y (or_intror I)), E. reflexivity.
      + apply IH. intros d I. apply Hk. right. exact I.
    - intro s. unfold sel. rewrite filter_In, in_map_iff. split.
      + intros [I Hp]. destruct (Honly s I Hp) as (d & Id & ->). exists d. auto.
      + intros (d & <- & I). split; [apply Hall; exact I|]. unfold res_selected. apply andb_true_iff. split.
        * unfold res_file, res_head. rewrite app_s_assoc. apply (prefix_refl_app "obiaresult").
        * apply ends_with_iff. exists (res_head d). reflexivity. }
  assert (KS : forall t, In t sel -> date_key t = Some (k t)).
  { intros t I. apply (Permutation_in _ P) in I. apply in_map_iff in I. destruct I as (d & <- & I). rewrite Hk by exact I. apply key_res_file. auto. }
  rewrite (@dated_some sel k KS). cbn [option_map]. f_equal.
  assert (E : ksorted (map (fun t => (k t, t)) sel) = map (fun d => (d, res_file d bx by_)) ds).
  { assert (PM : Permutation (map (fun t => (k t, t)) sel) (map (fun d => (d, res_file d bx by_)) ds)).
    { rewrite (Permutation_map (fun t => (k t, t)) P), map_map.
      rewrite (@map_ext_in _ _ (fun x => (k (res_file x bx by_), res_file x bx by_)) (fun d => (d, res_file d bx by_)) ds); [reflexivity|].
      intros d I. rewrite Hk by exact I. reflexivity. }
    apply sorted_unique.
    - rewrite ksorted_perm. exact PM.
    - apply (Permutation_NoDup (l := ds)); [|exact ND]. rewrite (Permutation_map fst (ksorted_perm _)), (Permutation_map fst PM), map_map.
      cbn [fst]. rewrite map_id. reflexivity.
    - apply ksorted_sorted.
    - clear - Hs. induction Hs as [|x l S IH F]; [constructor|]. cbn [map]. constructor; [exact IH|].
      rewrite Forall_forall in *. intros q I. apply in_map_iff in I. destruct I as (d & <- & I). specialize (F d I). unfold kle. cbn [fst]. lia. }
  rewrite E, map_map. reflexivity.
Qed.

(** Directory lemmas of Covermap.v for directories of integer arrays. *)
Lemma wr_nodup : forall (d : dir Z) n v, NoDup (names d) -> NoDup (names (wr d n v)).
Proof. exact (@nodup_wr Z Z 0 (fun _ => false) (fun x => x) 0 (fun _ => None)). Qed.
Lemma wr_names : forall (d : dir Z) n v m, In m (names (wr d n v)) <-> m = n \/ In m (names d).
Proof. exact (@names_wr Z Z 0 (fun _ => false) (fun x => x) 0 (fun _ => None)). Qed.
Lemma in_lookup : forall (d : dir Z) n, In n (names d) <-> lookup d n <> None.
Proof. exact (@lookup_in Z Z 0 (fun _ => false) (fun x => x) 0 (fun _ => None)). Qed.
Lemma cut_under : forall a a' r r', all_chars digit a -> all_chars digit a' -> (a ++ String "_" r = a' ++ String "_" r')%string -> a = a' /\ r = r'.
Proof. exact (@under_split Z Z 0 (fun _ => false) (fun x => x) 0 (fun _ => None)). Qed.

(** ** The stage *)
Section Stage.
Variables nbx nby bw bh : Z.
Hypothesis Hnbx : 0 < nbx.
Hypothesis Hnby : 0 < nby.
Hypothesis Hbw : 0 < bw.
Hypothesis Hbh : 0 < bh.
(** The break map of a snapshot (C97), any. *)
Variable brk : Z -> tile.
(** The snapshots (tile_processing.py 696-713), in increasing order. *)
Variable ds : list Z.

(** ob_analyst.py 1018-1019: the blocks in the order in which they are written *)
Definition block_ids : list (Z * Z) := flat_map (fun y => map (fun x => (x, y)) (zrange 1 nbx)) (zrange 1 nby).
(** result_blocks[i][j] (ob_analyst.py 1002-1017) *)
Definition block_arr (d bx by_ : Z) : arr := mkArr bh bw (fun r c => saved_block nbx bw bh (brk d) bx by_ (r * bw + c)).

(** Writing a file of a block (ob_analyst.py 1020-1023) and the marker
    (1024-1025).  A file that exists and cannot be loaded is a [Mark]. *)
Inductive oev := Begin (d bx by_ : Z) | End (d bx by_ : Z) | Flag (d : Z).
Definition odate (e : oev) : Z := match e with Begin d _ _ | End d _ _ => d | Flag d => d end.
Definition ofire (e : oev) (dd : dir Z) : dir Z :=
  match e with
  | Begin d x y => wr dd (res_file d x y) (Mark Z)
  | End d x y => wr dd (res_file d x y) (Class Z (block_arr d x y))
  | Flag d => wr dd (omark d) (Mark Z)
  end.
Definition oexec (es : list oev) (dd : dir Z) : dir Z := fold_left (fun a e => ofire e a) es dd.
(** One complete call of save_obiaresult *)
Definition whole (d : Z) : list oev := flat_map (fun b => [Begin d (fst b) (snd b); End d (fst b) (snd b)]) block_ids ++ [Flag d].
(** The part of a history that concerns one snapshot *)
Definition part (d : Z) (es : list oev) : list oev := filter (fun e => odate e =? d) es.

(** ob_analyst.py 1027-1038 *)
Definition obia_finished (dd : dir Z) : bool := forallb (fun d => match lookup dd (omark d) with Some _ => true | None => false end) ds.

(** reshape(block_width * block_height), ob_analyst.py 1068-1070 *)
Definition flatten (a : arr) : out (Z -> Z) :=
  if a_rows a * a_cols a =? bw * bh then Ok (fun p => a_at a (p / a_cols a) (p mod a_cols a)) else Fail.
Fixpoint load_rows (dd : dir Z) (l : list string) : out (list (Z -> Z)) :=
  match l with
  | [] => Ok []
  | n :: t => match lookup dd n with
              | Some (Class _ a) => f <- flatten a ;; r <- load_rows dd t ;; Ok (f :: r)
              | _ => Fail
              end
  end.
(** get_allobiaresult_asarray (ob_analyst.py 1040-1074); vstack of nothing raises *)
Definition all_results (ls : list string) (dd : dir Z) (bx by_ : Z) : out (list (Z -> Z)) :=
  l <- of_opt (res_listed bx by_ ls) ;;
  rows <- load_rows dd l ;;
  match rows with [] => Fail | _ => Ok rows end.
(** obia_breaks[:, pos] (ob_analyst.py 1128) *)
Definition column (rows : list (Z -> Z)) (p : Z) : list Z := map (fun f => f p) rows.

Definition in_grid (x y : Z) : Prop := 1 <= x <= nbx /\ 1 <= y <= nby.
Definition events_ok (es : list oev) : Prop :=
  forall e, In e es -> In (odate e) ds /\ match e with Begin _ x y | End _ x y => in_grid x y | Flag _ => True end.
(** A directory without results of an earlier run *)
Definition fresh_dir (dd : dir Z) : Prop := NoDup (names dd) /\ forall n, In n (names dd) -> String.prefix "obiaresult" n = false /\ String.prefix "tmp_OBIA_" n = false.

Hypothesis Hds : StronglySorted Z.lt ds.
Hypothesis Hrange : forall d, In d ds -> 100000 <= d < 1000000.
Hypothesis Hsome : ds <> [].

Lemma block_ids_in : forall x y, In (x, y) block_ids <-> in_grid x y.
Proof.
  intros x y. unfold block_ids, in_grid. rewrite in_flat_map. split.
  - intros (y' & Iy & I). apply in_map_iff in I. destruct I as (x' & E & Ix). injection E as -> ->. apply zrange_In in Ix, Iy. lia.
  - intros [Hx Hy]. exists y. split; [apply zrange_In; lia|]. apply in_map_iff. exists x. split; [reflexivity|apply zrange_In; lia].
Qed.
Lemma oexec_app : forall a b dd, oexec (a ++ b) dd = oexec b (oexec a dd).
Proof. intros. unfold oexec. apply fold_left_app. Qed.
Lemma oexec_nodup : forall es dd, NoDup (names dd) -> NoDup (names (oexec es dd)).
Proof.
  induction es as [|e es IH]; intros dd N; [exact N|]. cbn [oexec fold_left]. apply IH. destruct e; apply wr_nodup; exact N.
Qed.
Lemma oexec_names : forall es dd n, In n (names (oexec es dd)) ->
  In n (names dd) \/ (exists d x y, n = res_file d x y /\ (In (Begin d x y) es \/ In (End d x y) es)) \/ exists d, n = omark d /\ In (Flag d) es.
Proof.
  induction es as [|e es IH]; intros dd n I; [left; exact I|]. cbn [oexec fold_left] in I. apply IH in I.
  destruct I as [I|[(d & x & y & E & I)|(d & E & I)]].
  - destruct e; apply wr_names in I; destruct I as [I|I]; try (left; exact I); right; [left|left|right].
    + exists d, bx, by_. split; [exact I|]. left. left. reflexivity.
    + exists d, bx, by_. split; [exact I|]. right. left. reflexivity.
    + exists d. split; [exact I|]. left. reflexivity.
  - right. left. exists d, x, y. split; [exact E|]. cbn [In]. tauto.
  - right. right. exists d. split; [exact E|]. right. exact I.
Qed.

Lemma omark_not_file : forall d d' x y, omark d <> res_file d' x y.
Proof. intros d d' x y E. unfold omark, res_file, res_head in E. cbn in E. discriminate. Qed.
Lemma res_file_inj : forall d x y d' x' y', 100000 <= d < 1000000 -> 100000 <= d' < 1000000 -> 0 <= x -> 0 <= x' -> 0 <= y -> 0 <= y' ->
  res_file d x y = res_file d' x' y' -> d = d' /\ x = x' /\ y = y'.
Proof.
  intros d x y d' x' y' Hd Hd' Hx Hx' Hy Hy' E. split.
  - assert (Some d = Some d') by (rewrite <- (@key_res_file d x y Hd), <- (@key_res_file d' x' y' Hd'), E; reflexivity). congruence.
  - unfold res_file in E. apply res_tail_inj in E; tauto.
Qed.
Lemma omark_inj : forall d d', 0 <= d -> 0 <= d' -> omark d = omark d' -> d = d'.
Proof.
  intros d d' Hd Hd' E. unfold omark in E. apply app_s_inj in E. cbn [append] in E. apply cut_under in E; try apply digits_show. apply show_inj; tauto.
Qed.

(** What was written to a file last is what it contains. *)
Definition touches (d x y : Z) (e : oev) : bool :=
  match e with Begin d' x' y' | End d' x' y' => (d' =? d) && (x' =? x) && (y' =? y) | Flag _ => false end.
Definition left_by (d x y : Z) (es : list oev) (old : option (cell Z)) : option (cell Z) :=
  match rev (filter (touches d x y) es) with
  | [] => old
  | End _ _ _ :: _ => Some (Class Z (block_arr d x y))
  | _ :: _ => Some (Mark Z)
  end.
Lemma oexec_lookup : forall es dd d x y, events_ok es -> In d ds -> in_grid x y ->
  lookup (oexec es dd) (res_file d x y) = left_by d x y es (lookup dd (res_file d x y)).
Proof.
  induction es as [|e es IH] using rev_ind; intros dd d x y Hev Hd Hg; [reflexivity|].
  rewrite oexec_app. cbn [oexec fold_left]. unfold left_by. rewrite filter_app, rev_app_distr. cbn [filter].
  assert (Hev' : events_ok es) by (intros e' I; apply Hev; apply in_or_app; left; exact I).
  destruct (Hev e ltac:(apply in_or_app; right; left; reflexivity)) as [Hde Hge]. pose proof (Hrange _ Hd) as Rd. pose proof (Hrange _ Hde) as Rde. unfold in_grid in *.
  specialize (IH dd d x y Hev' Hd Hg). unfold left_by in IH.
  destruct e as [d' x' y'|d' x' y'|d']; cbn [ofire touches odate] in *; rewrite lookup_wr.
  - destruct ((d' =? d) && (x' =? x) && (y' =? y)) eqn:E.
    + assert (d' = d /\ x' = x /\ y' = y) as (-> & -> & ->) by lia. rewrite String.eqb_refl. reflexivity.
    + destruct (String.eqb_spec (res_file d' x' y') (res_file d x y)) as [F|F]; [|cbn [rev app]; exact IH].
      apply res_file_inj in F; lia.
  - destruct ((d' =? d) && (x' =? x) && (y' =? y)) eqn:E.
    + assert (d' = d /\ x' = x /\ y' = y) as (-> & -> & ->) by lia. rewrite String.eqb_refl. reflexivity.
    + destruct (String.eqb_spec (res_file d' x' y') (res_file d x y)) as [F|F]; [|cbn [rev app]; exact IH].
      apply res_file_inj in F; lia.
  - destruct (String.eqb_spec (omark d') (res_file d x y)) as [F|F]; [destruct (omark_not_file F)|]. cbn [rev app]. exact IH.
Qed.
Lemma touches_part : forall d x y es, filter (touches d x y) es = filter (touches d x y) (part d es).
Proof.
  intros d x y es. unfold part. induction es as [|e es IH]; [reflexivity|]. cbn [filter]. destruct (odate e =? d) eqn:E; cbn [filter]; rewrite IH; [reflexivity|].
  destruct e; cbn [touches odate] in *; try reflexivity; rewrite E; reflexivity.
Qed.
(** The last event on a file of a complete call completes it. *)
Lemma whole_last : forall d x y, in_grid x y -> exists l, filter (touches d x y) (whole d) = l ++ [End d x y].
Proof.
  intros d x y Hg. apply block_ids_in in Hg. unfold whole. rewrite filter_app. cbn [filter touches]. rewrite app_nil_r.
  induction block_ids as [|[x' y'] l IH]; [destruct Hg|]. cbn [flat_map]. rewrite filter_app. cbn [filter touches fst snd]. rewrite Z.eqb_refl. cbn [andb].
  destruct (in_dec (fun p q : Z * Z => ltac:(decide equality; apply Z.eq_dec)) (x, y) l) as [I|I].
  - destruct (IH I) as [m E]. rewrite E. eexists. rewrite app_assoc. reflexivity.
  - destruct Hg as [E|Hg]; [|contradiction]. injection E as -> ->. rewrite !Z.eqb_refl. cbn [andb].
    assert (N : filter (touches d x y) (flat_map (fun b => [Begin d (fst b) (snd b); End d (fst b) (snd b)]) l) = []).
    { clear IH. induction l as [|[x' y'] l IH]; [reflexivity|]. cbn [flat_map]. rewrite filter_app, IH by (intro J; apply I; right; exact J). cbn [filter touches fst snd].
      rewrite Z.eqb_refl. cbn [andb]. destruct ((x' =? x) && (y' =? y)) eqn:E; [|reflexivity]. exfalso. apply I. left. f_equal; lia. }
    rewrite N. exists [Begin d x y]. reflexivity.
Qed.

Lemma load_rows_ok : forall dd bx by_ l, in_grid bx by_ ->
  (forall d, In d l -> lookup dd (res_file d bx by_) = Some (Class Z (block_arr d bx by_))) ->
  exists rows, load_rows dd (map (fun d => res_file d bx by_) l) = Ok rows /\ length rows = length l /\
    forall p, 0 <= p < bw * bh -> column rows p = map (fun d => saved_block nbx bw bh (brk d) bx by_ p) l.
Proof.
  intros dd bx by_ l Hg. induction l as [|d l IH]; intro H.
  - exists []. repeat split.
  - destruct IH as (rows & E & L & C); [intros d' I; apply H; right; exact I|].
    cbn [map load_rows]. rewrite (H d (or_introl eq_refl)). unfold flatten. cbn [block_arr a_rows a_cols].
    destruct (Z.eqb_spec (bh * bw) (bw * bh)); [|lia]. cbn [bind]. rewrite E. cbn [bind]. eexists. split; [reflexivity|]. split; [cbn [length]; lia|].
    intros p Hp. unfold column in *. cbn [map]. rewrite C by exact Hp. f_equal. cbn [block_arr a_at]. f_equal.
    pose proof (Z.div_mod p bw). lia.
Qed.

(** The results read for a block and a pixel are the break maps of the
    snapshots at this pixel, in the order of the snapshots: for every history
    in which the last writes to each snapshot's files are those of a complete
    call, whatever was written before and however the snapshots interleave. *)
Theorem C100_results : forall es dd0 ls bx by_, fresh_dir dd0 -> events_ok es ->
  (forall d, In d ds -> exists before, part d es = before ++ whole d) ->
  in_grid bx by_ -> Permutation ls (names (oexec es dd0)) ->
  exists rows, all_results ls (oexec es dd0) bx by_ = Ok rows /\ length rows = length ds /\
    forall p row col, 0 <= p < bw * bh -> get_rowcol_intile p bw bh bx by_ = (row, col) ->
      column rows p = map (fun d => brk d (row - 1) (col - 1)) ds.
Proof.
  intros es dd0 ls bx by_ [N0 F0] Hev Hw Hg Hls. unfold in_grid in Hg.
  assert (LK : forall d, In d ds -> lookup (oexec es dd0) (res_file d bx by_) = Some (Class Z (block_arr d bx by_))).
  { intros d I. rewrite oexec_lookup by assumption. unfold left_by. rewrite touches_part. destruct (Hw d I) as [before E]. rewrite E, filter_app.
    destruct (@whole_last d bx by_ Hg) as [l El]. rewrite El, !rev_app_distr. reflexivity. }
  assert (L : res_listed bx by_ ls = Some (map (fun d => res_file d bx by_) ds)).
  { apply C100_listing; [exact Hds|exact Hrange| | |].
    - apply (Permutation_NoDup (Permutation_sym Hls)). apply oexec_nodup. exact N0.
    - intros d I. apply (Permutation_in _ (Permutation_sym Hls)). apply in_lookup. rewrite LK by exact I. discriminate.
    - intros s I S. apply (Permutation_in _ Hls) in I. apply oexec_names in I. destruct I as [I|[(d & x & y & -> & I)|(d & -> & I)]].
      + destruct (F0 s I) as [P _]. unfold res_selected in S. rewrite P in S. discriminate.
      + assert (In d ds /\ in_grid x y) as [Id Hxy] by (destruct I as [I|I]; apply Hev in I; exact I). unfold in_grid in Hxy.
        apply selected_file in S; try lia. destruct S as [-> ->]. exists d. auto.
      + unfold res_selected, omark in S. cbn in S. discriminate. }
  destruct (@load_rows_ok (oexec es dd0) bx by_ ds Hg LK) as (rows & E & Len & C).
  exists rows. unfold all_results. rewrite L. cbn [of_opt bind]. rewrite E. cbn [bind]. split; [|split; [exact Len|]].
  - destruct rows; [|reflexivity]. destruct ds; [contradiction|discriminate].
  - intros p row col Hp R. rewrite C by exact Hp. apply map_ext. intro d.
    destruct (@C52_break_routing nbx nby bw bh Hnbx Hnby Hbw Hbh (brk d) bx by_ p row col) as [Q _]; try lia; assumption.
Qed.

(** In one submission every snapshot is written once, by one rank: when all
    markers are there, the results are complete. *)
Lemma whole_prefix : forall d a r, whole d = a ++ r -> In (Flag d) a -> r = [].
Proof.
  intros d a r E I. unfold whole in E. destruct r as [|e r _] using rev_ind; [reflexivity|].
  rewrite app_assoc in E. apply app_inj_tail in E. destruct E as [E _]. exfalso.
  assert (J : In (Flag d) (a ++ r)) by (apply in_or_app; left; exact I). rewrite <- E in J. apply in_flat_map in J.
  destruct J as (b & _ & [J|[J|[]]]); discriminate.
Qed.
Lemma flag_seen : forall es dd d, events_ok es -> In d ds -> lookup dd (omark d) = None ->
  lookup (oexec es dd) (omark d) <> None -> In (Flag d) es.
Proof.
  intros es dd d Hev Hd H0 H. apply in_lookup in H. apply oexec_names in H. destruct H as [I|[(d' & x & y & E & _)|(d' & E & I)]].
  - apply in_lookup in I. contradiction.
  - destruct (omark_not_file E).
  - pose proof (Hev _ I) as [Id _]. cbn [odate] in Id. pose proof (Hrange _ Hd). pose proof (Hrange _ Id). apply omark_inj in E; [|lia|lia]. subst d'. exact I.
Qed.
Theorem C100_one_submission : forall es dd0 ls bx by_, fresh_dir dd0 -> events_ok es ->
  (forall d, In d ds -> exists after, whole d = part d es ++ after) ->
  obia_finished (oexec es dd0) = true -> in_grid bx by_ -> Permutation ls (names (oexec es dd0)) ->
  exists rows, all_results ls (oexec es dd0) bx by_ = Ok rows /\ length rows = length ds /\
    forall p row col, 0 <= p < bw * bh -> get_rowcol_intile p bw bh bx by_ = (row, col) ->
      column rows p = map (fun d => brk d (row - 1) (col - 1)) ds.
Proof.
  intros es dd0 ls bx by_ Hf Hev Hp Hfin Hg Hls. apply C100_results; try assumption.
  intros d I. destruct (Hp d I) as [after E]. exists []. cbn [app]. rewrite E.
  assert (after = []).
  { apply (@whole_prefix d (part d es)); [exact E|]. unfold part. apply filter_In. split; [|apply Z.eqb_refl].
    apply (@flag_seen es dd0); try assumption.
    - destruct (lookup dd0 (omark d)) eqn:L; [|reflexivity]. exfalso.
      assert (J : In (omark d) (names dd0)) by (apply in_lookup; rewrite L; discriminate). destruct Hf as [_ F]. destruct (F _ J) as [_ F1].
      unfold omark in F1. rewrite prefix_refl_app in F1. discriminate.
    - unfold obia_finished in Hfin. rewrite forallb_forall in Hfin. specialize (Hfin d I). destruct (lookup (oexec es dd0) (omark d)); [discriminate|discriminate]. }
  subst after. rewrite app_nil_r. reflexivity.
Qed.
End Stage.

(** ** Cases *)

(** 2 x 2 blocks of 1 x 2 pixels, three snapshots, processed by two ranks in
    interleaved order; the listing in reverse. *)
Definition demo_brk (d : Z) : tile := fun r c => d + 10 * r + c.
Definition demo_ds : list Z := [730000; 730060; 730120].
Definition demo_whole (d : Z) : list oev := whole 2 2 d.
Definition demo_obia (rd : list string -> list string) (es : list oev) (dd0 : dir Z) (bx by_ p : Z) : bool * out (list Z) :=
  let dd := oexec 2 2 1 demo_brk es dd0 in
  (obia_finished demo_ds dd, rows <- all_results 2 1 (rd (names dd)) dd bx by_ ;; Ok (column rows p)).
Example C100_case :
  let es := demo_whole 730120 ++ firstn 3 (demo_whole 730000) ++ demo_whole 730060 ++ skipn 3 (demo_whole 730000) in
  demo_obia (fun l => rev l) es [("dates.txt"%string, Mark Z)] 2 1 1 = (true, Ok [730003; 730063; 730123]) /\
  get_rowcol_intile 1 2 1 2 1 = (1, 4) /\ res_file 730120 2 1 = "obiaresult_730120_2000001_x2_y1.npy"%string.
Proof. vm_compute. repeat split. Qed.

(** Block numbers that are endings of each other are kept apart. *)
Example C100_suffix_case : map (fun b => res_selected (fst b) (snd b) (res_file 730120 11 1)) [(1, 1); (11, 1); (1, 11); (11, 11)] = [false; true; false; false].
Proof. vm_compute. reflexivity. Qed.

(** After a resubmission the markers of the first submission are still there
    while the rank that owns a snapshot writes its files again: all markers
    exist, and the reconstruction of another rank reads an unfinished file. *)
Theorem C100_resubmit_refuted : exists es bx by_,
  (exists a b, part 730000 es = a ++ b /\ a = demo_whole 730000 /\ exists r, demo_whole 730000 = b ++ r) /\
  part 730060 es = demo_whole 730060 /\ part 730120 es = demo_whole 730120 /\
  fst (demo_obia (fun l => l) es [] bx by_ 0) = true /\ snd (demo_obia (fun l => l) es [] bx by_ 0) = Fail.
Proof.
  exists (demo_whole 730000 ++ demo_whole 730060 ++ [Begin 730000 1 1] ++ demo_whole 730120), 1, 1.
  split; [|vm_compute; repeat split].
  exists (demo_whole 730000), [Begin 730000 1 1]. split; [vm_compute; reflexivity|]. split; [reflexivity|].
  exists (tl (demo_whole 730000)). vm_compute. reflexivity.
Qed.

(** Results of an earlier run with other snapshots are read too. *)
Theorem C100_stale_refuted : exists dd0 es,
  (forall d, In d demo_ds -> part d es = demo_whole d) /\
  demo_obia (fun l => l) es dd0 1 1 0 = (true, Ok [730000; 730030; 730060; 730120]).
Proof.
  exists (oexec 2 2 1 demo_brk (demo_whole 730030) []), (flat_map demo_whole demo_ds). split; [|vm_compute; reflexivity].
  intros d [<-|[<-|[<-|[]]]]; vm_compute; reflexivity.
Qed.

Print Assumptions C100_listing.
Print Assumptions C100_results.
Print Assumptions C100_one_submission.
Print Assumptions C100_resubmit_refuted.
Print Assumptions C100_stale_refuted.
