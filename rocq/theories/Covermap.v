(** Yearly land-cover maps: stages 1, 3 and 4 of the classification
    (src/python/pycold/pyclassifier.py 184-250, 284-300, 420-470, 480-520,
    543-566, 592-614, 645-654; utils.py 301-317).

    A directory is a list of named files; [os.listdir] may return the names in
    any order, so the order is a parameter of the functions that list.  File
    names are strings, built by the same formats and taken apart by the same
    prefix test, [find] and [int] as in the code.

    Simplifications: a stage writes the files of a block in one step (C99 is
    about what can be seen in between); the feature vector of a pixel is one
    value of an arbitrary type [F], the trained forest an arbitrary function of
    it; [int] accepts unsigned decimal numerals only (no sign, blank or
    underscore). *)
From Verif Require Import Base PyIndex Sched Classify Calendar.
From Coq Require Import Ascii String DecimalString DecimalN DecimalPos NArith Permutation Sorted List.
Import ListNotations.
Open Scope Z_scope.

(** ** File names *)

(** "{}".format(z) of a non-negative integer *)
Definition show (z : Z) : string := NilZero.string_of_uint (N.to_uint (Z.to_N z)).
(** pyclassifier.py 430-433 and 604 *)
Definition feature_head : string := "tmp_feature_year".
(** pyclassifier.py 451-455 *)
Definition class_head : string := "tmp_yearlyclassification".
Definition block_file (head label : string) (b : Z) : string :=
  (head ++ label ++ "_block" ++ show b ++ ".npy")%string.
(** pyclassifier.py 441 and 565; 462 and 612 *)
Definition mark1 (b : Z) : string := ("tmp_step1_predict_" ++ show b ++ "_finished.txt")%string.
Definition mark3 (b : Z) : string := ("tmp_step3_classification_" ++ show b ++ "_finished.txt")%string.

(** str.find: first occurrence, -1 when there is none *)
Fixpoint find_nat (pat s : string) : option nat :=
  if String.prefix pat s then Some O
  else match s with EmptyString => None | String _ t => option_map S (find_nat pat t) end.
Definition find (pat s : string) : Z := match find_nat pat s with Some n => Z.of_nat n | None => -1 end.
(** t[a:b]: negative bounds count from the end, both are clipped *)
Definition bound (n i : Z) : Z := if i <? 0 then Z.max 0 (i + n) else Z.min i n.
Definition slice_str (s : string) (a b : Z) : string :=
  let n := Z.of_nat (String.length s) in
  String.substring (Z.to_nat (bound n a)) (Z.to_nat (bound n b - bound n a)) s.
Definition py_int (s : string) : option Z := option_map (fun u => Z.of_N (N.of_uint u)) (NilZero.uint_of_string s).
(** The sort key (pyclassifier.py 488 and 510) *)
Definition block_key (t : string) : option Z := py_int (slice_str t (find "block" t + 5) (find ".npy" t)).

(** list.sort with a key: stable; the key of every entry is computed first and
    may raise. *)
Fixpoint keyed (l : list string) : option (list (Z * string)) :=
  match l with
  | [] => Some []
  | t :: r => match block_key t, keyed r with Some k, Some q => Some ((k, t) :: q) | _, _ => None end
  end.
Fixpoint kins (x : Z * string) (l : list (Z * string)) : list (Z * string) :=
  match l with
  | [] => [x]
  | y :: r => if fst x <=? fst y then x :: y :: r else y :: kins x r
  end.
Definition ksorted (l : list (Z * string)) : list (Z * string) := fold_right kins [] l.
(** pyclassifier.py 480-488 and 496-511 *)
Definition listed (head label : string) (ls : list string) : option (list string) :=
  option_map (fun q => map snd (ksorted q)) (keyed (filter (String.prefix (head ++ label)) ls)).

(** ** What the formats guarantee *)
Fixpoint all_chars (P : ascii -> Prop) (s : string) : Prop :=
  match s with EmptyString => True | String c t => P c /\ all_chars P t end.
Definition digit (c : ascii) : Prop := In c ["0"; "1"; "2"; "3"; "4"; "5"; "6"; "7"; "8"; "9"]%char.
Lemma all_chars_imp : forall (P Q : ascii -> Prop) s, (forall c, P c -> Q c) -> all_chars P s -> all_chars Q s.
Proof. intros P Q s H. induction s as [|c t IH]; cbn; intuition. Qed.
Lemma digits_uint : forall u, all_chars digit (NilEmpty.string_of_uint u).
Proof. induction u; cbn [NilEmpty.string_of_uint all_chars]; try exact I; (split; [unfold digit; cbn; tauto|assumption]). Qed.
Lemma digits_show : forall z, all_chars digit (show z).
Proof.
  intro z. unfold show, NilZero.string_of_uint. destruct (N.to_uint (Z.to_N z)) eqn:E; try apply digits_uint.
  cbn. unfold digit. cbn. tauto.
Qed.
Lemma int_show : forall z, 0 <= z -> py_int (show z) = Some z.
Proof.
  intros z Hz. unfold py_int, show. rewrite NilZero.usu; [|destruct (Z.to_N z); [discriminate|apply DecimalPos.Unsigned.to_uint_nonnil]].
  cbn [option_map]. rewrite DecimalN.Unsigned.of_to. f_equal. apply Z2N.id. exact Hz.
Qed.
Lemma show_inj : forall y y', 0 <= y -> 0 <= y' -> show y = show y' -> y = y'.
Proof. intros y y' H H' E. apply int_show in H, H'. rewrite E in H. congruence. Qed.

Lemma app_s_assoc : forall a b c, ((a ++ b) ++ c = a ++ (b ++ c))%string.
Proof. induction a as [|x a IH]; intros b c; [reflexivity|]. cbn. rewrite IH. reflexivity. Qed.
Lemma len_app : forall a b, String.length (a ++ b) = (String.length a + String.length b)%nat.
Proof. induction a as [|x a IH]; intro b; [reflexivity|]. cbn. rewrite IH. reflexivity. Qed.
Lemma prefix_refl_app : forall a s, String.prefix a (a ++ s) = true.
Proof. induction a as [|x a IH]; intro s; [destruct s; reflexivity|]. cbn. destruct (ascii_dec x x); [apply IH|congruence]. Qed.
Lemma prefix_app_same : forall h a s, String.prefix (h ++ a) (h ++ s) = String.prefix a s.
Proof. induction h as [|x h IH]; intros a s; [reflexivity|]. cbn. destruct (ascii_dec x x); [apply IH|congruence]. Qed.
Lemma prefix_shorter : forall h q s, String.prefix (h ++ q) s = true -> String.prefix h s = true.
Proof.
  induction h as [|x h IH]; intros q s P; [destruct s; reflexivity|]. destruct s as [|c s]; [discriminate|].
  cbn [append String.prefix] in *. destruct (ascii_dec x c); [apply (IH q); exact P|discriminate].
Qed.
Lemma prefix_same_length : forall a a' s, String.length a = String.length a' -> String.prefix a (a' ++ s) = true -> a = a'.
Proof.
  induction a as [|x a IH]; intros [|x' a'] s L H; cbn in L; try discriminate; [reflexivity|].
  cbn in H. destruct (ascii_dec x x') as [->|]; [|discriminate]. f_equal. apply (IH a' s); [lia|exact H].
Qed.
(** A pattern is found behind a text that lacks its first character. *)
Lemma find_skip : forall c pat a s, all_chars (fun x => x <> c) a ->
  find_nat (String c pat) (a ++ s) = option_map (fun n => String.length a + n)%nat (find_nat (String c pat) s).
Proof.
  induction a as [|x a IH]; intros s H.
  - cbn. destruct (find_nat (String c pat) s); reflexivity.
  - destruct H as [Hx Ha]. cbn [append find_nat]. cbn [String.prefix]. destruct (ascii_dec c x) as [->|_]; [congruence|].
    rewrite IH by exact Ha. destruct (find_nat (String c pat) s); reflexivity.
Qed.
Lemma find_here : forall c pat s, find_nat (String c pat) (String c pat ++ s) = Some O.
Proof.
  intros c pat s. cbn [append find_nat]. change (String c (pat ++ s)) with (String c pat ++ s)%string. rewrite prefix_refl_app. reflexivity.
Qed.
Lemma substring_0 : forall a s, String.substring 0 (String.length a) (a ++ s) = a.
Proof. induction a as [|x a IH]; intro s; [destruct s; reflexivity|]. cbn. rewrite IH. reflexivity. Qed.
Lemma substring_app : forall p k s, String.substring (String.length p) k (p ++ s) = String.substring 0 k s.
Proof. induction p as [|x p IH]; intros k s; [reflexivity|]. cbn. apply IH. Qed.

(** A file head and a label are harmless when they contain neither b nor a dot. *)
Definition plain (s : string) : Prop := all_chars (fun c => c <> "b"%char /\ c <> "."%char) s.
Lemma plain_digits : forall s, all_chars digit s -> plain s.
Proof.
  intros s. apply all_chars_imp. intros c H. unfold digit in H. cbn in H.
  destruct H as [<-|[<-|[<-|[<-|[<-|[<-|[<-|[<-|[<-|[<-|[]]]]]]]]]]]; split; discriminate.
Qed.
Lemma plain_app : forall a b, plain a -> plain b -> plain (a ++ b).
Proof. intros a b Ha Hb. induction a as [|x a IH]; [exact Hb|]. destruct Ha as [Hx Ha]. split; [exact Hx|apply IH; exact Ha]. Qed.
Lemma plain_heads : plain feature_head /\ plain class_head.
Proof. split; unfold plain; cbn; repeat split; discriminate. Qed.
Lemma key_block_file : forall head label b, plain head -> plain label -> 0 <= b -> block_key (block_file head label b) = Some b.
Proof.
  intros head label b Hh Hl Hb. unfold block_key, block_file.
  set (p := (head ++ label ++ "_")%string). assert (Hp : plain p) by (apply plain_app; [exact Hh|apply plain_app; [exact Hl|cbn; repeat split; discriminate]]).
  set (t := show b). assert (Ht : plain t) by (apply plain_digits, digits_show).
  replace (head ++ label ++ "_block" ++ t ++ ".npy")%string with (p ++ "block" ++ t ++ ".npy")%string
    by (unfold p; rewrite !app_s_assoc; reflexivity).
  assert (F1 : find "block" (p ++ "block" ++ t ++ ".npy") = Z.of_nat (String.length p)).
  { unfold find. rewrite find_skip by (revert Hp; apply all_chars_imp; tauto). rewrite find_here. cbn [option_map]. f_equal. lia. }
  assert (F2 : find ".npy" (p ++ "block" ++ t ++ ".npy") = Z.of_nat (String.length p) + 5 + Z.of_nat (String.length t)).
  { unfold find. replace (p ++ "block" ++ t ++ ".npy")%string with ((p ++ "block" ++ t) ++ ".npy" ++ "")%string by (rewrite !app_s_assoc; reflexivity).
    rewrite find_skip.
    - rewrite find_here. cbn [option_map]. rewrite !len_app. cbn [String.length]. lia.
    - assert (all_chars (fun c => c <> "."%char) "block") by (cbn; repeat split; discriminate).
      assert (A : forall a b, all_chars (fun c => c <> "."%char) a -> all_chars (fun c => c <> "."%char) b -> all_chars (fun c => c <> "."%char) (a ++ b)%string)
        by (intros a0 b0; induction a0; cbn; intuition).
      apply A; [revert Hp; apply all_chars_imp; tauto|]. apply A; [assumption|]. revert Ht. apply all_chars_imp. tauto. }
  rewrite F1, F2. unfold slice_str, bound. cbv zeta. rewrite !len_app. cbn [String.length].
  destruct (Z.ltb_spec (Z.of_nat (String.length p) + 5) 0); [lia|].
  destruct (Z.ltb_spec (Z.of_nat (String.length p) + 5 + Z.of_nat (String.length t)) 0); [lia|].
  rewrite !Z.min_l by lia.
  replace (Z.to_nat (Z.of_nat (String.length p) + 5)) with (String.length (p ++ "block")) by (rewrite len_app; cbn [String.length]; lia).
  replace (Z.to_nat (Z.of_nat (String.length p) + 5 + Z.of_nat (String.length t) - (Z.of_nat (String.length p) + 5))) with (String.length t) by lia.
  replace (p ++ "block" ++ t ++ ".npy")%string with ((p ++ "block") ++ t ++ ".npy")%string by (rewrite !app_s_assoc; reflexivity).
  rewrite substring_app, substring_0. apply int_show. exact Hb.
Qed.

(** The sort: a permutation, in the order of the keys. *)
Lemma kins_perm : forall x l, Permutation (kins x l) (x :: l).
Proof.
  induction l as [|y r IH]; [reflexivity|]. cbn. destruct (fst x <=? fst y); [reflexivity|].
  rewrite IH. apply perm_swap.
Qed.
Lemma ksorted_perm : forall l, Permutation (ksorted l) l.
Proof. induction l as [|x l IH]; [reflexivity|]. cbn [ksorted fold_right]. rewrite kins_perm. constructor. exact IH. Qed.
Definition kle (x y : Z * string) : Prop := fst x <= fst y.
Lemma kins_sorted : forall x l, StronglySorted kle l -> StronglySorted kle (kins x l).
Proof.
  induction l as [|y r IH]; intro S; [repeat constructor|]. cbn. inversion_clear S as [|? ? S' F]. destruct (fst x <=? fst y) eqn:E.
  - constructor; [constructor; assumption|]. constructor; [unfold kle; lia|]. revert F. apply Forall_impl. unfold kle. intros. lia.
  - constructor; [apply IH; exact S'|]. apply (Permutation_Forall (Permutation_sym (kins_perm x r))). constructor; [unfold kle; lia|exact F].
Qed.
Lemma ksorted_sorted : forall l, StronglySorted kle (ksorted l).
Proof. induction l as [|x l IH]; [constructor|]. apply kins_sorted. exact IH. Qed.
(** Two lists in order with the same entries, no two of them with one key, are equal. *)
Lemma sorted_unique : forall l l' : list (Z * string), Permutation l l' -> NoDup (map fst l) -> StronglySorted kle l -> StronglySorted kle l' -> l = l'.
Proof.
  induction l as [|x l IH]; intros l' P N S S'.
  - apply Permutation_nil in P. congruence.
  - destruct l' as [|x' l']; [symmetry in P; apply Permutation_nil in P; discriminate|].
    assert (x = x').
    { assert (I : In x (x' :: l')) by (apply (Permutation_in _ P); left; reflexivity). destruct I as [E|I]; [congruence|].
      assert (I' : In x' (x :: l)) by (apply (Permutation_in _ (Permutation_sym P)); left; reflexivity). destruct I' as [E|I']; [exact E|].
      inversion_clear S as [|? ? S1 F]. inversion_clear S' as [|? ? S1' F']. rewrite Forall_forall in F, F'.
      pose proof (F _ I') as A. pose proof (F' _ I) as B. unfold kle in A, B. inversion_clear N as [|? ? Ni _]. exfalso. apply Ni.
      replace (fst x) with (fst x') by lia. apply in_map. exact I'. }
    subst x'. f_equal. apply Permutation_cons_inv in P. inversion_clear N. inversion_clear S. inversion_clear S'. apply IH; assumption.
Qed.
Lemma keyed_some : forall (l : list string) (k : string -> Z), (forall t, In t l -> block_key t = Some (k t)) -> keyed l = Some (map (fun t => (k t, t)) l).
Proof.
  induction l as [|t r IH]; intros k H; [reflexivity|]. cbn [keyed map]. rewrite (H t (or_introl eq_refl)), (IH k); [reflexivity|].
  intros u Hu. apply H. right. exact Hu.
Qed.

(** Whatever the order in which the directory is listed, the files of a year
    come in the order of the blocks. *)
Theorem C98_listing : forall head label ls n, plain head -> plain label -> NoDup ls ->
  (forall b, 1 <= b <= n -> In (block_file head label b) ls) ->
  (forall s, In s ls -> String.prefix (head ++ label) s = true -> exists b, 1 <= b <= n /\ s = block_file head label b) ->
  listed head label ls = Some (map (block_file head label) (zrange 1 n)).
Proof.
  intros head label ls n Hh Hl Hn Hall Honly. unfold listed.
  set (sel := filter (String.prefix (head ++ label)) ls).
  set (k := fun t => match block_key t with Some z => z | None => 0 end).
  assert (Hk : forall b, 0 <= b -> block_key (block_file head label b) = Some b) by (intros; apply key_block_file; assumption).
  assert (P : Permutation sel (map (block_file head label) (zrange 1 n))).
  { apply NoDup_Permutation.
    - apply NoDup_filter. exact Hn.
    - assert (G : forall l : list Z, (forall b, In b l -> 0 <= b) -> NoDup l -> NoDup (map (block_file head label) l)).
      { induction l as [|b l IH]; intros Hp Hd; [constructor|]. inversion_clear Hd as [|? ? Ni Hd']. cbn [map]. constructor.
        - intro I. apply in_map_iff in I. destruct I as (b' & E & I). apply Ni. replace b with b'; [exact I|].
          assert (Some b' = Some b) by (rewrite <- (Hk b'), <- (Hk b); [rewrite E; reflexivity|apply Hp; left; reflexivity|apply Hp; right; exact I]). congruence.
        - apply IH; [intros; apply Hp; right; assumption|assumption]. }
      apply G; [|apply zrange_NoDup]. intros b Hb. apply zrange_In in Hb. lia.
    - intro s. unfold sel. rewrite filter_In, in_map_iff. split.
      + intros [I Hp]. destruct (Honly s I Hp) as (b & Hb & ->). exists b. split; [reflexivity|]. apply zrange_In. lia.
      + intros (b & <- & Hb). apply zrange_In in Hb. split; [apply Hall; lia|].
        unfold block_file. rewrite <- app_s_assoc. apply prefix_refl_app. }
  assert (KS : forall t, In t sel -> block_key t = Some (k t)).
  { intros t I. apply (Permutation_in _ P) in I. apply in_map_iff in I. destruct I as (b & <- & Hb). apply zrange_In in Hb. unfold k. rewrite Hk by lia. reflexivity. }
  rewrite (@keyed_some sel k KS). cbn [option_map]. f_equal.
  assert (E : ksorted (map (fun t => (k t, t)) sel) = map (fun b => (b, block_file head label b)) (zrange 1 n)).
  { assert (PM : Permutation (map (fun t => (k t, t)) sel) (map (fun b => (b, block_file head label b)) (zrange 1 n))).
    { rewrite (Permutation_map (fun t => (k t, t)) P), map_map.
      assert (X : map (fun x => (k (block_file head label x), block_file head label x)) (zrange 1 n) = map (fun b => (b, block_file head label b)) (zrange 1 n)).
      { apply map_ext_in. intros b Hb. apply zrange_In in Hb. unfold k. rewrite Hk by lia. reflexivity. }
      rewrite X. reflexivity. }
    apply sorted_unique.
    - rewrite ksorted_perm. exact PM.
    - apply (Permutation_NoDup (l := zrange 1 n)); [|apply zrange_NoDup]. rewrite (Permutation_map fst (ksorted_perm _)), (Permutation_map fst PM), map_map.
      cbn [fst]. rewrite map_id. reflexivity.
    - apply ksorted_sorted.
    - unfold zrange. rewrite map_map. generalize (seq_length (Z.to_nat n) 0). intros _. generalize 0%nat as j. generalize (Z.to_nat n) as m.
      induction m as [|m IH]; intro j; [constructor|]. cbn [seq map]. constructor; [apply IH|].
      rewrite Forall_forall. intros x I. apply in_map_iff in I. destruct I as (i & <- & I). apply in_seq in I. unfold kle. cbn [fst]. lia. }
  rewrite E, map_map. reflexivity.
Qed.

(** ** The stages *)
(** Ordinal of 1 July (pyclassifier.py 213) *)
Definition july1 (y : Z) : Z := days_before y + yearmonth2doy y 7 1.

Section Cover.
Variables (D F : Type).
Variable value : segment D -> Z -> F.
Variable nan_val : F.
(** np.all(row == NAN_VAL) *)
Variable is_nan : F -> bool.
(** The trained forest *)
Variable predict : F -> Z.
Variables nbx nby bw bh : Z.
Variable years : list Z.
(** The record file of a block, if there is one *)
Variable record : Z -> option (list (segment D)).

Inductive cell := Feat (f : Z -> F) | Class (a : arr) | Mark.
Definition dir := list (string * cell).
Definition names (d : dir) : list string := map fst d.
Fixpoint lookup (d : dir) (n : string) : option cell :=
  match d with [] => None | (m, v) :: t => if String.eqb m n then Some v else lookup t n end.
(** np.save / open(.., "w"): creates or replaces *)
Definition wr (d : dir) (n : string) (v : cell) : dir := (n, v) :: filter (fun p => negb (String.eqb (fst p) n)) d.

(** step1_feature_generation (543-566) with predict_features (184-250) and
    _save_features (420-433) *)
Definition table (b y : Z) : Z -> F :=
  match record b with
  | Some l => predict_features value nan_val nbx bw bh (get_block_x b nbx) (get_block_y b nbx) l (july1 y)
  | None => fun _ => nan_val
  end.
Definition step1 (b : Z) (d : dir) : dir :=
  wr (fold_left (fun d y => wr d (block_file feature_head (show y) b) (Feat (table b y))) years d) (mark1 b) Mark.
(** classification_block (284-300) *)
Definition classification_block (t : Z -> F) : arr :=
  mkArr bh bw (fun r c => let f := t (r * bw + c) in if is_nan f then 255 else predict f).
(** step3_classification (592-614); np.load of an absent file raises *)
Fixpoint step3_years (ys : list Z) (b : Z) (d : dir) : out dir :=
  match ys with
  | [] => Ok d
  | y :: r => match lookup d (block_file feature_head (show y) b) with
              | Some (Feat t) => step3_years r b (wr d (block_file class_head (show y) b) (Class (classification_block t)))
              | _ => Fail
              end
  end.
Definition step3 (b : Z) (d : dir) : out dir := d' <- step3_years years b d ;; Ok (wr d' (mark3 b) Mark).
(** _is_finished_step3_classification (457-466) *)
Definition finished3 (d : dir) : bool :=
  forallb (fun b => match lookup d (mark3 b) with Some _ => true | None => false end) (zrange 1 (nbx * nby)).
(** np.load(..).reshape(block_height, block_width, 1) (489-494): row-major *)
Definition reshape (a : arr) : out arr :=
  if a_rows a * a_cols a =? bh * bw
  then Ok (mkArr bh bw (fun r c => let p := r * bw + c in a_at a (p / a_cols a) (p mod a_cols a)))
  else Fail.
Fixpoint load_all (d : dir) (l : list string) : out (list arr) :=
  match l with
  | [] => Ok []
  | n :: t => match lookup d n with
              | Some (Class a) => g <- reshape a ;; r <- load_all d t ;; Ok (g :: r)
              | _ => Fail
              end
  end.
(** step4_assemble (645-654), one map per year; np.hstack of an empty list raises *)
Definition covermap (ls : list string) (d : dir) (y : Z) : out arr :=
  l <- of_opt (listed class_head (show y) ls) ;;
  gs <- load_all d l ;;
  match gs with [] => Fail | _ => of_opt (assemble_array gs nbx) end.
Fixpoint step4 (ls : list string) (d : dir) (ys : list Z) : out (list (Z * arr)) :=
  match ys with
  | [] => Ok []
  | y :: r => a <- covermap ls d y ;; q <- step4 ls d r ;; Ok ((y, a) :: q)
  end.

(** The blocks are processed by many ranks: any sequence of first and third
    stages, in which a block is classified after its features were written. *)
Inductive event := E1 (b : Z) | E3 (b : Z).
Definition fire (e : event) (d : dir) : out dir := match e with E1 b => Ok (step1 b d) | E3 b => step3 b d end.
Fixpoint run (es : list event) (d : dir) : out dir :=
  match es with [] => Ok d | e :: r => d' <- fire e d ;; run r d' end.
Definition in_range (b : Z) : Prop := 1 <= b <= nbx * nby.
Definition schedule (es : list event) : Prop :=
  (forall b, In (E1 b) es \/ In (E3 b) es -> in_range b) /\
  (forall b a r, es = a ++ E3 b :: r -> In (E1 b) a) /\
  (forall b, in_range b -> In (E3 b) es).

Lemma lookup_wr : forall d n v m, lookup (wr d n v) m = if String.eqb n m then Some v else lookup d m.
Proof.
  intros d n v m. unfold wr. cbn [lookup]. destruct (String.eqb n m) eqn:E; [reflexivity|].
  induction d as [|[k w] d IH]; [reflexivity|]. cbn [filter fst]. destruct (String.eqb k n) eqn:E1; cbn [negb].
  - rewrite IH. cbn [lookup]. apply String.eqb_eq in E1. subst k. rewrite E. reflexivity.
  - cbn [lookup]. destruct (String.eqb k m); [reflexivity|exact IH].
Qed.
Lemma names_wr : forall d n v m, In m (names (wr d n v)) <-> m = n \/ In m (names d).
Proof.
  intros d n v m. unfold names, wr. cbn [map fst]. split.
  - intros [E|I]; [left; congruence|]. apply in_map_iff in I. destruct I as (p & <- & I). apply filter_In in I. right. apply in_map. tauto.
  - intros [->|I]; [left; reflexivity|]. destruct (string_dec m n) as [->|Ne]; [left; reflexivity|]. right.
    apply in_map_iff in I. destruct I as (p & <- & I). apply in_map. apply filter_In. split; [exact I|].
    destruct (String.eqb (fst p) n) eqn:E; [apply String.eqb_eq in E; contradiction|reflexivity].
Qed.
Lemma nodup_wr : forall d n v, NoDup (names d) -> NoDup (names (wr d n v)).
Proof.
  intros d n v H. unfold names, wr. cbn [map fst]. constructor.
  - intro I. apply in_map_iff in I. destruct I as (p & E & I). apply filter_In in I. destruct I as [_ I]. rewrite E, String.eqb_refl in I. discriminate.
  - unfold names in H. induction d as [|p d IH]; [constructor|]. cbn [map] in H. inversion_clear H as [|? ? Ni H']. cbn [filter].
    destruct (negb (String.eqb (fst p) n)); [|apply IH; exact H']. cbn [map]. constructor; [|apply IH; exact H'].
    intro I. apply Ni. apply in_map_iff in I. destruct I as (q & <- & I). apply filter_In in I. apply in_map. tauto.
Qed.
Lemma lookup_in : forall d n, In n (names d) <-> lookup d n <> None.
Proof.
  intros d n. unfold names. induction d as [|[k w] d IH]; [cbn; intuition|]. cbn [map fst lookup In]. destruct (String.eqb k n) eqn:E.
  - apply String.eqb_eq in E. split; [discriminate|left; exact E].
  - apply String.eqb_neq in E. rewrite <- IH. intuition.
Qed.

(** Distinct years and blocks have distinct files. *)
Lemma under_split : forall a a' r r', all_chars digit a -> all_chars digit a' -> (a ++ String "_" r = a' ++ String "_" r')%string -> a = a' /\ r = r'.
Proof.
  induction a as [|x a IH]; intros [|x' a'] r r' H H' E; cbn in E.
  - injection E as E. auto.
  - injection E as E _. destruct H' as [Hx _]. subst x'. unfold digit in Hx. cbn in Hx. intuition discriminate.
  - injection E as E _. destruct H as [Hx _]. subst x. unfold digit in Hx. cbn in Hx. intuition discriminate.
  - injection E as -> E. destruct H as [_ H], H' as [_ H']. destruct (IH a' r r' H H' E) as [-> ->]. auto.
Qed.
Lemma app_s_inj : forall h a b, (h ++ a = h ++ b)%string -> a = b.
Proof. induction h as [|x h IH]; intros a b E; [exact E|]. cbn in E. injection E as E. apply IH. exact E. Qed.
Lemma block_file_inj : forall head y b y' b', plain head -> 0 <= y -> 0 <= y' -> 0 <= b -> 0 <= b' ->
  block_file head (show y) b = block_file head (show y') b' -> y = y' /\ b = b'.
Proof.
  intros head y b y' b' Hh Hy Hy' Hb Hb' E. split.
  - unfold block_file in E. apply app_s_inj in E. cbn [append] in E. apply under_split in E; try apply digits_show. destruct E as [E _]. apply show_inj; assumption.
  - apply (f_equal block_key) in E. rewrite !key_block_file in E by (try assumption; apply plain_digits, digits_show). congruence.
Qed.
Lemma mark3_inj : forall b b', 0 <= b -> 0 <= b' -> mark3 b = mark3 b' -> b = b'.
Proof.
  intros b b' Hb Hb' E. unfold mark3 in E. apply app_s_inj in E. cbn [append] in E. apply under_split in E; try apply digits_show. apply show_inj; tauto.
Qed.

Hypothesis Hyears : forall y, In y years -> 1900 <= y < 2200.
Hypothesis Hnbx : 0 < nbx.
Hypothesis Hnby : 0 < nby.
Hypothesis Hbw : 0 < bw.
Hypothesis Hbh : 0 < bh.

(** What holds of the directory after the stages of [done]. *)
Definition foreign (n : string) : Prop := String.prefix "tmp_" n = false.
Definition known (n : string) : Prop :=
  foreign n \/ (exists b, in_range b /\ (n = mark1 b \/ n = mark3 b)) \/
  exists y b, In y years /\ in_range b /\ (n = block_file feature_head (show y) b \/ n = block_file class_head (show y) b).
Definition inv (dn : list event) (d : dir) : Prop :=
  NoDup (names d) /\ (forall n, In n (names d) -> known n) /\
  (forall y b, In y years -> In (E1 b) dn -> lookup d (block_file feature_head (show y) b) = Some (Feat (table b y))) /\
  (forall y b, In y years -> In (E3 b) dn -> lookup d (block_file class_head (show y) b) = Some (Class (classification_block (table b y)))) /\
  (forall b, In (E3 b) dn -> lookup d (mark3 b) = Some Mark) /\
  (forall b, In (E1 b) dn \/ In (E3 b) dn -> in_range b).

Ltac neq_name := apply String.eqb_neq; unfold block_file, mark1, mark3, feature_head, class_head; cbn [append]; discriminate.
Lemma step1_years : forall b ys d n, fold_left (fun d y => wr d (block_file feature_head (show y) b) (Feat (table b y))) ys d = n ->
  (NoDup (names d) -> NoDup (names n)) /\
  (forall m, In m (names n) -> In m (names d) \/ exists y, In y ys /\ m = block_file feature_head (show y) b) /\
  (forall m, (forall y, In y ys -> m <> block_file feature_head (show y) b) -> lookup n m = lookup d m) /\
  (0 <= b -> (forall y, In y ys -> 0 <= y) -> forall y, In y ys -> lookup n (block_file feature_head (show y) b) = Some (Feat (table b y))).
Proof.
  intros b. induction ys as [|y ys IH] using rev_ind; intros d n E.
  - cbn in E. subst n. repeat split; try tauto. intros; contradiction.
  - rewrite fold_left_app in E. cbn [fold_left] in E. destruct (IH d _ eq_refl) as (A & B & C & G). subst n.
    set (d1 := fold_left _ ys d) in *. split; [intro H; apply nodup_wr; auto|]. split; [|split].
    + intros m I. apply names_wr in I. destruct I as [->|I].
      * right. exists y. split; [apply in_or_app; right; left; reflexivity|reflexivity].
      * destruct (B m I) as [I'|(y' & I' & ->)]; [left; exact I'|]. right. exists y'. split; [apply in_or_app; left; exact I'|reflexivity].
    + intros m Hm. rewrite lookup_wr. destruct (String.eqb _ m) eqn:Q.
      * apply String.eqb_eq in Q. exfalso. apply (Hm y); [apply in_or_app; right; left; reflexivity|congruence].
      * apply C. intros y' I. apply Hm. apply in_or_app. left. exact I.
    + intros Hb Hys y' I. rewrite lookup_wr. destruct (String.eqb _ _) eqn:Q.
      * apply String.eqb_eq in Q. apply block_file_inj in Q; [destruct Q as [-> _]; reflexivity|apply plain_heads| | |assumption|assumption].
        -- apply Hys. apply in_or_app. right. left. reflexivity.
        -- apply Hys. exact I.
      * apply in_app_or in I. destruct I as [I|[->|[]]]; [|rewrite String.eqb_refl in Q; discriminate].
        apply G; [exact Hb| |exact I]. intros y0 I0. apply Hys. apply in_or_app. left. exact I0.
Qed.
Lemma inv_step1 : forall dn d b, inv dn d -> in_range b -> inv (dn ++ [E1 b]) (step1 b d).
Proof.
  intros dn d b (N & K & V1 & V3 & M & R) Hb. unfold step1.
  destruct (step1_years b years d eq_refl) as (A & B & C & G). set (d1 := fold_left _ years d) in *. unfold in_range in Hb.
  assert (Yn : forall y, In y years -> 0 <= y) by (intros y I; pose proof (Hyears y I); lia).
  split; [apply nodup_wr; auto|]. split; [|split; [|split; [|split]]].
  - intros n I. apply names_wr in I. destruct I as [->|I]; [right; left; exists b; split; [exact Hb|left; reflexivity]|].
    destruct (B n I) as [I'|(y & Iy & ->)]; [apply K; exact I'|]. right. right. exists y, b. auto.
  - intros y b' Iy I. rewrite lookup_wr. replace (String.eqb _ _) with false by (symmetry; neq_name).
    apply in_app_or in I. destruct I as [I|[E|[]]].
    + destruct (Z.eq_dec b' b) as [->|Nb]; [apply G; auto; lia|]. rewrite C; [apply V1; assumption|].
      intros y' Iy' E. apply block_file_inj in E; try apply plain_heads; try (apply Yn; assumption); try (assert (in_range b') by (apply R; left; exact I); unfold in_range in *; lia).
    + injection E as <-. apply G; auto; lia.
  - intros y b' Iy I. rewrite lookup_wr. replace (String.eqb _ _) with false by (symmetry; neq_name).
    apply in_app_or in I. destruct I as [I|[E|[]]]; [|discriminate]. rewrite C; [apply V3; assumption|].
    intros y' _. unfold block_file, feature_head, class_head. cbn [append]. discriminate.
  - intros b' I. rewrite lookup_wr. replace (String.eqb _ _) with false by (symmetry; neq_name).
    apply in_app_or in I. destruct I as [I|[E|[]]]; [|discriminate]. rewrite C; [apply M; assumption|].
    intros y' _. unfold block_file, feature_head, mark3. cbn [append]. discriminate.
  - intros b' [I|I]; apply in_app_or in I; destruct I as [I|[E|[]]]; try discriminate; [apply R; left; exact I|injection E as <-; exact Hb|apply R; right; exact I].
Qed.
Lemma step3_years_ok : forall b ys d, (forall y, In y ys -> 0 <= y) -> 0 <= b ->
  (forall y, In y ys -> lookup d (block_file feature_head (show y) b) = Some (Feat (table b y))) ->
  exists n, step3_years ys b d = Ok n /\
  (NoDup (names d) -> NoDup (names n)) /\
  (forall m, In m (names n) -> In m (names d) \/ exists y, In y ys /\ m = block_file class_head (show y) b) /\
  (forall m, (forall y, In y ys -> m <> block_file class_head (show y) b) -> lookup n m = lookup d m) /\
  (forall y, In y ys -> lookup n (block_file class_head (show y) b) = Some (Class (classification_block (table b y)))).
Proof.
  intros b. induction ys as [|y ys IH]; intros d Hys Hb L.
  - exists d. cbn. repeat split; try tauto. 
  - cbn [step3_years]. rewrite (L y (or_introl eq_refl)).
    set (d1 := wr d (block_file class_head (show y) b) (Class (classification_block (table b y)))).
    destruct (IH d1) as (n & E & A & B & C & G).
    + intros y' I. apply Hys. right. exact I.
    + exact Hb.
    + intros y' I. unfold d1. rewrite lookup_wr. replace (String.eqb _ _) with false by (symmetry; neq_name). apply L. right. exact I.
    + exists n. split; [exact E|]. split; [intro H; apply A; apply nodup_wr; exact H|]. split; [|split].
      * intros m I. destruct (B m I) as [I'|(y' & I' & ->)].
        -- apply names_wr in I'. destruct I' as [->|I']; [right; exists y; split; [left|]; reflexivity|left; exact I'].
        -- right. exists y'. split; [right; exact I'|reflexivity].
      * intros m Hm. rewrite C by (intros y' I; apply Hm; right; exact I). unfold d1. rewrite lookup_wr.
        destruct (String.eqb _ m) eqn:Q; [|reflexivity]. apply String.eqb_eq in Q. exfalso. apply (Hm y (or_introl eq_refl)). congruence.
      * intros y' I. destruct (in_dec Z.eq_dec y' ys) as [I'|I']; [apply G; exact I'|]. destruct I as [->|I]; [|contradiction].
        rewrite C.
        -- unfold d1. rewrite lookup_wr, String.eqb_refl. reflexivity.
        -- intros y0 I0 Q. apply block_file_inj in Q; try apply plain_heads; try assumption; [destruct Q as [-> _]; contradiction|apply Hys; left; reflexivity|apply Hys; right; exact I0].
Qed.
Lemma inv_step3 : forall dn d b, inv dn d -> In (E1 b) dn -> exists d', step3 b d = Ok d' /\ inv (dn ++ [E3 b]) d'.
Proof.
  intros dn d b (N & K & V1 & V3 & M & R) I1. assert (Hb : in_range b) by (apply R; left; exact I1). unfold in_range in Hb.
  assert (Yn : forall y, In y years -> 0 <= y) by (intros y I; pose proof (Hyears y I); lia).
  destruct (@step3_years_ok b years d Yn) as (n & E & A & B & C & G); [lia|intros y I; apply V1; assumption|].
  exists (wr n (mark3 b) Mark). unfold step3. rewrite E. cbn [bind]. split; [reflexivity|].
  split; [apply nodup_wr; auto|]. split; [|split; [|split; [|split]]].
  - intros m I. apply names_wr in I. destruct I as [->|I]; [right; left; exists b; split; [exact Hb|right; reflexivity]|].
    destruct (B m I) as [I'|(y & Iy & ->)]; [apply K; exact I'|]. right. right. exists y, b. auto.
  - intros y b' Iy I. rewrite lookup_wr. replace (String.eqb _ _) with false by (symmetry; neq_name).
    apply in_app_or in I. destruct I as [I|[X|[]]]; [|discriminate]. rewrite C; [apply V1; assumption|].
    intros y' _. unfold block_file, feature_head, class_head. cbn [append]. discriminate.
  - intros y b' Iy I. rewrite lookup_wr. replace (String.eqb _ _) with false by (symmetry; neq_name).
    apply in_app_or in I. destruct I as [I|[X|[]]].
    + destruct (Z.eq_dec b' b) as [->|Nb]; [apply G; exact Iy|]. rewrite C; [apply V3; assumption|].
      intros y' Iy' Q. apply block_file_inj in Q; try apply plain_heads; try (apply Yn; assumption); try (assert (in_range b') by (apply R; right; exact I); unfold in_range in *; lia).
    + injection X as <-. apply G; exact Iy.
  - intros b' I. rewrite lookup_wr. apply in_app_or in I. destruct (String.eqb (mark3 b) (mark3 b')) eqn:Q; [reflexivity|].
    destruct I as [I|[X|[]]]; [|injection X as <-; rewrite String.eqb_refl in Q; discriminate]. rewrite C; [apply M; exact I|].
    intros y' _. unfold block_file, class_head, mark3. cbn [append]. discriminate.
  - intros b' [I|I]; apply in_app_or in I; destruct I as [I|[X|[]]]; try discriminate; [apply R; left; exact I|apply R; right; exact I|injection X as <-; exact Hb].
Qed.
Lemma run_app : forall a b d, run (a ++ b) d = (d' <- run a d ;; run b d').
Proof. induction a as [|e a IH]; intros b d; [reflexivity|]. cbn [app run]. destruct (fire e d); cbn [bind]; [apply IH|reflexivity..]. Qed.
Lemma run_inv : forall es d0, inv [] d0 -> (forall b, In (E1 b) es \/ In (E3 b) es -> in_range b) ->
  (forall b a r, es = a ++ E3 b :: r -> In (E1 b) a) -> exists d, run es d0 = Ok d /\ inv es d.
Proof.
  induction es as [|e es IH] using rev_ind; intros d0 H0 Hr Hs; [exists d0; split; [reflexivity|exact H0]|].
  destruct (IH d0 H0) as (d & E & I).
  - intros b [X|X]; apply Hr; [left|right]; apply in_or_app; left; exact X.
  - intros b a r X. apply (Hs b a (r ++ [e])). rewrite X, <- app_assoc. reflexivity.
  - rewrite run_app, E. cbn [bind run]. destruct e as [b|b].
    + cbn [fire bind]. exists (step1 b d). split; [reflexivity|]. apply inv_step1; [exact I|]. apply Hr. left. apply in_or_app. right. left. reflexivity.
    + destruct (@inv_step3 es d b I (Hs b es [] eq_refl)) as (d' & E' & I'). exists d'. cbn [fire]. rewrite E'. split; [reflexivity|exact I'].
Qed.

(** The years have four digits. *)
Lemma four_digits : forall y, 1900 <= y < 2200 -> String.length (show y) = 4%nat.
Proof.
  intros y Hy. assert (A : forallb (fun y => Nat.eqb (String.length (show y)) 4) (zrange 1900 300) = true) by (vm_compute; reflexivity).
  rewrite forallb_forall in A. apply Nat.eqb_eq. apply A. apply zrange_In. lia.
Qed.
Lemma only_class : forall d y s, (forall n, In n (names d) -> known n) -> In y years -> In s (names d) -> String.prefix (class_head ++ show y) s = true ->
  exists b, 1 <= b <= nbx * nby /\ s = block_file class_head (show y) b.
Proof.
  intros d y s K Iy I P. destruct (K s I) as [Fo|[(b & Hb & [X|X])|(y' & b & Iy' & Hb & [X|X])]]; try subst s.
  - exfalso. unfold foreign in Fo. assert (X : String.prefix "tmp_" s = true); [|congruence].
    exact (@prefix_shorter "tmp_" ("yearlyclassification" ++ show y) s P).
  - discriminate.
  - discriminate.
  - discriminate.
  - exists b. split; [exact Hb|]. f_equal. unfold block_file in P. rewrite prefix_app_same in P. apply prefix_same_length in P; [exact (eq_sym P)|].
    rewrite !four_digits by auto. reflexivity.
Qed.

(** The records of the tile: [R] gives those of each position; a block's record
    file holds those of its pixels in processing order (C49), and there is a
    file whenever one of them has any. *)
Variable R : Z -> list (segment D).
Let n_cols := nbx * bw.
Let n_rows := nby * bh.
Definition records_ok : Prop :=
  (forall pos c, In c (R pos) -> s_pos c = pos) /\
  forall b, in_range b ->
    match record b with
    | Some l => l = flat_map (fun p => R (pixel_pos nbx bw bh (get_block_x b nbx) (get_block_y b nbx) p)) (zrange 0 (bw * bh))
    | None => forall p, 0 <= p < bw * bh -> R (pixel_pos nbx bw bh (get_block_x b nbx) (get_block_y b nbx) p) = []
    end.
(** The class of a pixel from its own records. *)
Definition own_class (pos y : Z) : Z :=
  let f := feature value nan_val (R pos) (july1 y) in if is_nan f then 255 else predict f.

Lemma table_spec : records_ok -> forall b y p, in_range b -> 0 <= p < bw * bh ->
  table b y p = feature value nan_val (R (pixel_pos nbx bw bh (get_block_x b nbx) (get_block_y b nbx) p)) (july1 y).
Proof.
  intros [Hpos Hrec] b y p Hb Hp. specialize (Hrec b Hb). unfold table. unfold in_range in Hb.
  destruct (@C49_block_id nbx nby bw bh Hnbx b Hb) as (Hx & Hy & _).
  destruct (record b) as [l|]; [|rewrite (Hrec p Hp); reflexivity]. subst l.
  rewrite (@C77_features_placed D F value nan_val nbx nby bw bh Hnbx Hnby Hbw Hbh _ _ Hx Hy (fun q => R (pixel_pos nbx bw bh (get_block_x b nbx) (get_block_y b nbx) q))).
  - destruct (in_dec Z.eq_dec p (zrange 0 (bw * bh))) as [_|Nn]; [reflexivity|]. exfalso. apply Nn. apply zrange_In. lia.
  - intros q c I. apply Hpos in I. exact I.
  - apply zrange_NoDup.
  - intros q I. apply zrange_In in I. lia.
  - exact Hp.
Qed.
Lemma tile_pixel : forall r c, 0 <= r < n_rows -> 0 <= c < n_cols ->
  let b := r / bh * nbx + c / bw + 1 in
  in_range b /\ pixel_pos nbx bw bh (get_block_x b nbx) (get_block_y b nbx) (r mod bh * bw + c mod bw) = n_cols * r + c + 1.
Proof.
  intros r c Hr Hc b. unfold n_rows, n_cols in *.
  pose proof (Z.div_mod r bh ltac:(lia)). pose proof (Z.mod_pos_bound r bh Hbh). pose proof (Z.div_mod c bw ltac:(lia)). pose proof (Z.mod_pos_bound c bw Hbw).
  assert (Hy : 0 <= r / bh < nby) by (split; [apply Z.div_pos; lia|apply Z.div_lt_upper_bound; lia]).
  assert (Hx : 0 <= c / bw < nbx) by (split; [apply Z.div_pos; lia|apply Z.div_lt_upper_bound; lia]).
  destruct (@C49_block_id_inv nbx nby bw bh Hnbx Hnby (c / bw + 1) (r / bh + 1) ltac:(lia) ltac:(lia)) as (A & B & C). cbv zeta in A, B, C.
  replace ((r / bh + 1 - 1) * nbx + (c / bw + 1)) with b in * by (unfold b; lia). split; [exact A|]. rewrite B, C.
  unfold pixel_pos. rewrite (@rowcol_eq nbx nby) by (try assumption; nia). unfold pos_id.
  rewrite (Z.add_comm (r mod bh * bw)), Z.div_add, Z.mod_add, (Z.div_small (c mod bw)), Z.mod_mod by lia.
  replace ((r / bh + 1 - 1) * bh + (0 + r mod bh) + 1 - 1) with r by lia. lia.
Qed.

Lemma load_ok : forall d y l, (forall b, In b l -> lookup d (block_file class_head (show y) b) = Some (Class (classification_block (table b y)))) ->
  exists gs, load_all d (map (block_file class_head (show y)) l) = Ok gs /\ length gs = length l /\ uniform bw bh gs /\
    forall i r c, (i < length l)%nat -> 0 <= r < bh -> 0 <= c < bw ->
      a_at (nth i gs (mkArr 0 0 (fun _ _ => 0))) r c = a_at (classification_block (table (nth i l 0) y)) r c.
Proof.
  intros d y. induction l as [|b l IH]; intro H.
  - exists []. repeat split; [constructor|]. intros i r c Hi. cbn in Hi. lia.
  - destruct IH as (gs & E & L & U & V); [intros b' I; apply H; right; exact I|].
    cbn [map load_all]. rewrite (H b (or_introl eq_refl)). unfold reshape. cbn [classification_block a_rows a_cols]. rewrite Z.eqb_refl. cbn [bind].
    rewrite E. cbn [bind]. eexists. split; [reflexivity|]. split; [cbn [length]; rewrite L; reflexivity|]. split.
    + constructor; [split; reflexivity|exact U].
    + intros i r c Hi Hr Hc. destruct i as [|i].
      * cbn [nth a_at]. unfold classification_block. cbn [a_at].
        rewrite (Z.add_comm (r * bw)), Z.div_add, Z.mod_add, Z.div_small, Z.mod_small by lia.
        replace ((0 + r) * bw + c) with (c + r * bw) by lia. reflexivity.
      * cbn [nth]. apply V; [cbn [length] in Hi; lia|assumption|assumption].
Qed.
Lemma step4_all : forall ls d (P : Z -> arr -> Prop) ys, (forall y, In y ys -> exists a, covermap ls d y = Ok a /\ P y a) ->
  exists maps, step4 ls d ys = Ok maps /\ map fst maps = ys /\ forall y a, In (y, a) maps -> P y a.
Proof.
  intros ls d P. induction ys as [|y ys IH]; intro H; [exists []; repeat split; intros; contradiction|].
  destruct (H y (or_introl eq_refl)) as (a & E & Pa). destruct IH as (maps & E' & M & V); [intros; apply H; right; assumption|].
  exists ((y, a) :: maps). cbn [step4]. rewrite E. cbn [bind]. rewrite E'. cbn [bind map fst]. split; [reflexivity|]. split; [congruence|].
  intros y' a' [X|X]; [injection X as <- <-; exact Pa|apply V; exact X].
Qed.

(** Whatever the order in which the ranks process the blocks, and in which the
    directory is listed, the maps give every pixel the class of its own records. *)
Theorem C98_map : forall es d0, nbx = nby -> records_ok -> NoDup (names d0) -> (forall n, In n (names d0) -> foreign n) -> schedule es ->
  exists d, run es d0 = Ok d /\ finished3 d = true /\
    forall ls, Permutation ls (names d) ->
      exists maps, step4 ls d years = Ok maps /\ map fst maps = years /\
        forall y a, In (y, a) maps -> a_rows a = n_rows /\ a_cols a = n_cols /\
          forall r c, 0 <= r < n_rows -> 0 <= c < n_cols -> a_at a r c = own_class (n_cols * r + c + 1) y.
Proof.
  intros es d0 Hsq Hrec N0 F0 (S1 & S2 & S3).
  destruct (@run_inv es d0) as (d & E & N & K & V1 & V3 & M & RG).
  - split; [exact N0|]. split; [intros n I; left; apply F0; exact I|]. repeat split; intros; cbn [In] in *; tauto.
  - exact S1.
  - exact S2.
  - exists d. split; [exact E|]. split.
    { unfold finished3. rewrite forallb_forall. intros b I. apply zrange_In in I. rewrite M; [reflexivity|]. apply S3. unfold in_range. lia. }
    intros ls Pls. apply step4_all. intros y Iy.
    assert (EL : listed class_head (show y) ls = Some (map (block_file class_head (show y)) (zrange 1 (nbx * nby)))).
    { apply C98_listing.
      - apply plain_heads.
      - apply plain_digits, digits_show.
      - apply (Permutation_NoDup (Permutation_sym Pls)). exact N.
      - intros b Hb. apply (Permutation_in _ (Permutation_sym Pls)). apply lookup_in. rewrite (V3 y b Iy (S3 b Hb)). discriminate.
      - intros s I P. apply (Permutation_in _ Pls) in I. apply (@only_class d y s K Iy I P). }
    destruct (@load_ok d y (zrange 1 (nbx * nby))) as (gs & EG & L & U & V).
    { intros b I. apply zrange_In in I. apply V3; [exact Iy|]. apply S3. unfold in_range. lia. }
    assert (LZ : length (zrange 1 (nbx * nby)) = Z.to_nat (nbx * nby)) by (unfold zrange; rewrite map_length, seq_length; reflexivity).
    destruct (@C51_square_partial nbx nby bw bh Hnbx Hnby Hbw Hbh gs (mkArr 0 0 (fun _ _ => 0)) Hsq U) as (a & EA & AR & AC & AV); [rewrite L, LZ; nia|].
    exists a. unfold covermap. rewrite EL. cbn [of_opt bind]. rewrite EG. cbn [bind]. rewrite EA. split.
    { destruct gs as [|g gs]; [|reflexivity]. cbn [length] in L. exfalso. rewrite LZ in L. nia. }
    split; [exact AR|]. split; [exact AC|]. intros r c Hr Hc. rewrite AV by assumption. unfold tile_at.
    destruct (@tile_pixel r c Hr Hc) as (Hb & Hpos). cbv zeta in Hb, Hpos. unfold in_range in Hb. set (b := r / bh * nbx + c / bw + 1) in *.
    pose proof (Z.mod_pos_bound r bh Hbh). pose proof (Z.mod_pos_bound c bw Hbw).
    rewrite V by (try lia; rewrite LZ; nia).
    replace (nth (Z.to_nat (r / bh * nbx + c / bw)) (zrange 1 (nbx * nby)) 0) with b.
    2:{ unfold zrange. rewrite (nth_indep _ 0 (1 + Z.of_nat 0)) by (rewrite map_length, seq_length; lia). rewrite (map_nth (fun i => 1 + Z.of_nat i)), seq_nth by lia. unfold b. lia. }
    unfold classification_block. cbn [a_at]. cbv zeta. rewrite table_spec by (try assumption; nia). rewrite Hpos. reflexivity.
Qed.
End Cover.

(** Two by two blocks of two by two pixels, years 2000 and 2001; the value is
    the sum of the record's datum and the day, the class its remainder by 8. *)
Definition demo_value98 (c : segment Z) (day : Z) : Z := s_data c + day.
Definition demo_R (pos : Z) : list (segment Z) :=
  if (pos =? 6) || (pos =? 13) then [] else if pos =? 11 then [mkSeg 700000 730200 11 3; mkSeg 730400 740000 11 5] else [mkSeg 700000 740000 pos pos].
Definition demo_record (b : Z) : option (list (segment Z)) :=
  Some (flat_map (fun p => demo_R (pixel_pos 2 2 2 (get_block_x b 2) (get_block_y b 2) p)) [0; 1; 2; 3]).
Definition demo_run (ls_of : list string -> list string) (d0 : dir Z) (es : list event) : out (list (Z * list Z)) :=
  d <- run demo_value98 (-9999) (fun f => Z.eqb f (-9999)) (fun f => f mod 8 + 1) 2 2 2 [2000; 2001] demo_record es d0 ;;
  maps <- step4 2 2 2 (ls_of (names d)) d [2000; 2001] ;;
  Ok (map (fun p => (fst p, map (fun i => a_at (snd p) (i / 4) (i mod 4)) (zrange 0 16))) maps).
Definition demo_es : list event := [E1 2; E1 4; E3 4; E1 1; E1 3; E3 1; E3 2; E1 2; E3 3].
Lemma demo_records_ok : records_ok 2 2 2 2 demo_record demo_R.
Proof.
  split.
  - intros pos c. unfold demo_R. destruct ((pos =? 6) || (pos =? 13)) eqn:E; [intros []|]. destruct (pos =? 11) eqn:E1; cbn [In].
    + intros [<-|[<-|[]]]; cbn; lia.
    + intros [<-|[]]; reflexivity.
  - intros b Hb. reflexivity.
Qed.
Lemma demo_schedule : schedule 2 2 demo_es.
Proof.
  split; [|split].
  - intros b [H|H]; unfold demo_es in H; cbn [In] in H; unfold in_range;
      repeat (destruct H as [H|H]; [try discriminate; injection H as <-; lia|]); destruct H.
  - intros b a r E. unfold demo_es in E.
    do 9 (destruct a as [|e a]; [cbn [app] in E; first [discriminate|injection E as <- _; cbn [In]; tauto]|cbn [app] in E; injection E as <- E]).
    destruct a; discriminate.
  - intros b Hb. unfold in_range in Hb. assert (b = 1 \/ b = 2 \/ b = 3 \/ b = 4) as [->|[->|[->| ->]]] by lia; unfold demo_es; cbn [In]; tauto.
Qed.
Definition demo_own (pos y : Z) : Z := own_class demo_value98 (-9999) (fun f => Z.eqb f (-9999)) (fun f => f mod 8 + 1) demo_R pos y.
Example C98_case : (demo_run (fun l => l) [("readme"%string, Mark Z)] demo_es = demo_run (@rev string) [] demo_es) /\
  (demo_run (fun l => l) [] demo_es = Ok [(2000, map (fun pos => demo_own pos 2000) (zrange 1 16)); (2001, map (fun pos => demo_own pos 2001) (zrange 1 16))]) /\
  (demo_own 13 2000 = 255).
Proof. vm_compute. auto. Qed.

(** Files left by an earlier, differently divided run take part: with stale
    blocks 5 and 6 beside the four of this run the maps are assembled all the same, and
    pixels get the classes of others. *)
Theorem C98_stale_refuted : exists d0 es m m', schedule 2 2 es /\ records_ok 2 2 2 2 demo_record demo_R /\ demo_run (fun l => l) [] es = Ok m /\ demo_run (fun l => l) d0 es = Ok m' /\ m <> m'.
Proof.
  exists [(block_file class_head (show 2000) 5, Class Z (mkArr 2 2 (fun _ _ => 9))); (block_file class_head (show 2000) 6, Class Z (mkArr 2 2 (fun _ _ => 9)))], demo_es.
  eexists. eexists. split; [exact demo_schedule|]. split; [exact demo_records_ok|].
  split; [vm_compute; reflexivity|]. split; [vm_compute; reflexivity|]. vm_compute. discriminate.
Qed.
(** A year that is a prefix of another takes its files too; four-digit years
    exclude this. *)
Example C98_prefix_case : listed class_head "200" [block_file class_head "2001" 1; block_file class_head "200" 2] = Some [block_file class_head "2001" 1; block_file class_head "200" 2].
Proof. vm_compute. reflexivity. Qed.
Print Assumptions C98_listing.
Print Assumptions C98_map.
Print Assumptions C98_stale_refuted.
