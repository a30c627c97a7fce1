(** Tile processing (src/python/pycold/imagetool/tile_processing.py 206-260,
    405-580, 722-740; ob_analyst.py 860-875, 1085-1150): reading a block's
    stack, the pixel loop, and what OBCOLD's reconstruction is given.
    C74, C75, C78, C81, C82. *)
From Verif Require Import Base ColdModel FrontModel Calendar Export.

(** Python outcome: a value or an exception that leaves the function. *)
Inductive py (A : Type) := Val (a : A) | Raise.
Arguments Val {A}. Arguments Raise {A}.

(** ** C82: get_stack_date (206-260) *)
Section Stack.
Variable Img : Type.
(** A file: its date (from the name), its name as a number (sorted compares the
    pairs (date, name)), its content. *)
Record img := mkImg { i_date : Z; i_name : Z; i_img : Img }.
(** img_dates, img_files = zip( *filter(..)): unpacking an empty zip raises
    ValueError (241-248); bound 0 switches the filter off. *)
Definition bound_filter (on : bool) (keep : img -> bool) (l : list img) : py (list img) :=
  if on then match filter keep l with [] => Raise | r => Val r end else Val l.
Definition before (a b : img) : bool := (i_date a <? i_date b) || ((i_date a =? i_date b) && (i_name a <=? i_name b)).
Fixpoint insert (a : img) (l : list img) : list img :=
  match l with [] => [a] | b :: t => if before a b then a :: l else b :: insert a t end.
Definition sorted_imgs (l : list img) : list img := fold_right insert [] l.
(** [Val None]: (None, None) *)
Definition get_stack_date (files : list img) (lo hi : Z) : py (option (list img)) :=
  match files with
  | [] => Val None
  | _ => match bound_filter (0 <? lo) (fun i => i_date i >=? lo) files with
         | Raise => Raise
         | Val l => match bound_filter (0 <? hi) (fun i => i_date i <=? hi) l with
                    | Raise => Raise
                    | Val l => Val (Some (sorted_imgs l))
                    end
         end
  end.
Definition wanted (lo hi : Z) (i : img) : Prop := (0 < lo -> lo <= i_date i) /\ (0 < hi -> i_date i <= hi).

Lemma insert_perm : forall a l, Permutation (a :: l) (insert a l).
Proof.
  intros a l. induction l as [|b t IH]; [apply Permutation_refl|]. cbn [insert]. destruct (before a b); [apply Permutation_refl|].
  eapply Permutation_trans; [apply perm_swap|]. apply perm_skip. exact IH.
Qed.
Lemma sort_perm : forall l, Permutation l (sorted_imgs l).
Proof. induction l as [|a t IH]; [constructor|]. cbn. eapply Permutation_trans; [apply perm_skip, IH|apply insert_perm]. Qed.
Definition le_img (x y : img) : Prop := i_date x < i_date y \/ (i_date x = i_date y /\ i_name x <= i_name y).
Lemma insert_sorted : forall a l, StronglySorted le_img l -> StronglySorted le_img (insert a l).
Proof.
  unfold le_img. intros a l. induction l as [|b t IH]; intros S; [repeat constructor|]. cbn [insert]. inversion_clear S as [|? ? S' F0].
  destruct (before a b) eqn:E; unfold before in E.
  - constructor; [constructor; assumption|]. constructor; [lia|]. eapply Forall_impl; [|exact F0]. cbn. intros; lia.
  - constructor; [apply IH, S'|]. assert (P := insert_perm a t). eapply Permutation_Forall; [exact P|]. constructor; [lia|exact F0].
Qed.
Lemma sort_sorted : forall l, StronglySorted le_img (sorted_imgs l).
Proof. induction l as [|a t IH]; [constructor|]. apply insert_sorted, IH. Qed.
Lemma sorted_eq : forall l l', StronglySorted le_img l -> StronglySorted le_img l' -> Permutation l l' ->
  NoDup (map i_name l) -> l = l'.
Proof.
  assert (U : forall l a b, NoDup (map i_name l) -> In a l -> In b l -> i_name a = i_name b -> a = b).
  { induction l as [|c l IH]; intros a b N Ha Hb E; [destruct Ha|]. inversion_clear N as [|? ? N1 N2].
    destruct Ha as [<-|Ha], Hb as [<-|Hb]; [reflexivity| | |apply IH; assumption].
    - destruct N1. rewrite E. apply in_map. exact Hb.
    - destruct N1. rewrite <- E. apply in_map. exact Ha. }
  induction l as [|a l IH]; intros l' S S' P N; [apply Permutation_nil in P; congruence|].
  destruct l' as [|b l']; [apply Permutation_sym, Permutation_nil in P; discriminate|].
  assert (E : a = b).
  { assert (Ha : In a (b :: l')) by (eapply Permutation_in; [exact P|left; reflexivity]).
    assert (Hb : In b (a :: l)) by (eapply Permutation_in; [apply Permutation_sym, P|left; reflexivity]).
    destruct Ha as [->|Ha]; [reflexivity|]. destruct Hb as [->|Hb]; [reflexivity|].
    inversion_clear S as [|? ? _ F]. inversion_clear S' as [|? ? _ F']. rewrite Forall_forall in F, F'.
    specialize (F b Hb). specialize (F' a Ha). unfold le_img in F, F'.
    apply (U (a :: l) a b N (or_introl eq_refl) (or_intror Hb)). lia. }
  subst b. f_equal. inversion_clear S. inversion_clear S'. inversion_clear N. apply IH; try assumption. apply Permutation_cons_inv in P. exact P.
Qed.
Lemma filter_perm : forall (A : Type) (f : A -> bool) l l', Permutation l l' -> Permutation (filter f l) (filter f l').
Proof.
  intros A f l l' P. induction P; cbn; [constructor| | |eapply Permutation_trans; eassumption].
  - destruct (f x); [apply perm_skip|]; assumption.
  - destruct (f x), (f y); try apply Permutation_refl. apply perm_swap.
Qed.
(** The stack: exactly the wanted images, in order of date and then of name;
    every one once. *)
Theorem C82_stack : forall files lo hi s, get_stack_date files lo hi = Val (Some s) ->
  StronglySorted (fun x y => i_date x < i_date y \/ (i_date x = i_date y /\ i_name x <= i_name y)) s /\ s <> [] /\
  Permutation s (filter (fun i => ((lo <=? 0) || (i_date i >=? lo)) && ((hi <=? 0) || (i_date i <=? hi))) files) /\
  forall i, In i s <-> In i files /\ wanted lo hi i.
Proof.
  intros files lo hi s H. unfold get_stack_date in H. destruct files as [|f fs]; [discriminate|]. set (files := f :: fs) in *.
  unfold bound_filter in H.
  assert (G : exists l, s = sorted_imgs l /\ l <> [] /\ l = filter (fun i => ((lo <=? 0) || (i_date i >=? lo)) && ((hi <=? 0) || (i_date i <=? hi))) files).
  { assert (FF : forall (f g : img -> bool) l, filter g (filter f l) = filter (fun i => f i && g i) l).
    { intros f0 g l. induction l as [|x t IH]; [reflexivity|]. cbn. destruct (f0 x); cbn; [destruct (g x)|]; rewrite IH; reflexivity. }
    destruct (0 <? lo) eqn:L; destruct (0 <? hi) eqn:Hh.
    - destruct (filter (fun i => i_date i >=? lo) files) as [|a r] eqn:F1; [discriminate|]. rewrite <- F1 in H.
      destruct (filter (fun i => i_date i <=? hi) (filter (fun i => i_date i >=? lo) files)) as [|b q] eqn:F2; [discriminate|].
      injection H as <-. exists (b :: q). split; [reflexivity|]. split; [discriminate|]. rewrite <- F2, FF. apply filter_ext. intros i.
      replace (lo <=? 0) with false by lia. replace (hi <=? 0) with false by lia. reflexivity.
    - destruct (filter (fun i => i_date i >=? lo) files) as [|a r] eqn:F1; [discriminate|]. injection H as <-. exists (a :: r). split; [reflexivity|]. split; [discriminate|].
      rewrite <- F1. apply filter_ext. intros i. replace (lo <=? 0) with false by lia. replace (hi <=? 0) with true by lia. rewrite andb_true_r. reflexivity.
    - destruct (filter (fun i => i_date i <=? hi) files) as [|a r] eqn:F1; [discriminate|]. injection H as <-. exists (a :: r). split; [reflexivity|]. split; [discriminate|].
      rewrite <- F1. apply filter_ext. intros i. replace (lo <=? 0) with true by lia. replace (hi <=? 0) with false by lia. reflexivity.
    - injection H as <-. exists files. split; [reflexivity|]. split; [discriminate|].
      replace (lo <=? 0) with true by lia. replace (hi <=? 0) with true by lia. cbn [orb andb]. clear. induction files as [|x t IH]; [reflexivity|]. cbn. congruence. }
  destruct G as (l & -> & Hne & E). split; [apply sort_sorted|]. split.
  { intros X. apply Hne. apply Permutation_nil. rewrite <- X. apply Permutation_sym, sort_perm. }
  split; [rewrite <- E; apply Permutation_sym, sort_perm|].
  intros i. assert (I : In i (sorted_imgs l) <-> In i l). { split; apply Permutation_in; [apply Permutation_sym|]; apply sort_perm. }
  rewrite I, E, filter_In. unfold wanted. split; intros [A B]; (split; [exact A|]); lia.
Qed.
(** A block that has images but none in the date range stops the rank instead
    of being treated as empty. *)
Theorem C82_out_of_range_refuted : forall files lo hi, files <> [] -> (forall i, In i files -> ~ wanted lo hi i) ->
  get_stack_date files lo hi = Raise.
Proof.
  intros files lo hi Hne Hn. destruct (get_stack_date files lo hi) as [[s|]|] eqn:E; [| |reflexivity].
  - destruct (C82_stack _ _ _ E) as (_ & Hs & _ & HI). destruct s as [|i s]; [congruence|].
    destruct (proj1 (HI i) (or_introl eq_refl)) as [A B]. destruct (Hn i A B).
  - unfold get_stack_date in E. destruct files; [congruence|]. destruct (bound_filter _ _ _); [|discriminate]. destruct (bound_filter _ _ _); discriminate.
Qed.
(** The order in which the directory is listed does not matter. *)
Theorem C82_listing : forall files files' lo hi, Permutation files files' -> NoDup (map i_name files) ->
  get_stack_date files lo hi = get_stack_date files' lo hi.
Proof.
  assert (D : forall l, (exists r, l = Val (Some r)) \/ l = Val None \/ l = @Raise (option (list img))) by (intros [[r|]|]; eauto).
  assert (NN : forall files lo hi, files <> [] -> get_stack_date files lo hi <> Val None).
  { intros files lo hi Hne E. unfold get_stack_date in E. destruct files; [congruence|]. destruct (bound_filter _ _ _); [|discriminate]. destruct (bound_filter _ _ _); discriminate. }
  assert (W : forall files files' lo hi s, Permutation files files' -> get_stack_date files lo hi = Val (Some s) -> get_stack_date files' lo hi <> Raise).
  { intros files files' lo hi s P E R. destruct (C82_stack _ _ _ E) as (_ & Hs & _ & HI). destruct s as [|i s]; [congruence|].
    destruct (proj1 (HI i) (or_introl eq_refl)) as [A [B1 B2]]. apply (Permutation_in _ P) in A.
    unfold get_stack_date in R. destruct files' as [|f fs]; [destruct A|]. unfold bound_filter in R.
    destruct (0 <? lo) eqn:L; destruct (0 <? hi) eqn:Hh.
    - assert (I1 : In i (filter (fun i => i_date i >=? lo) (f :: fs))) by (apply filter_In; split; [exact A|lia]).
      destruct (filter (fun i => i_date i >=? lo) (f :: fs)) as [|g gs]; [destruct I1|].
      assert (I2 : In i (filter (fun i => i_date i <=? hi) (g :: gs))) by (apply filter_In; split; [exact I1|lia]).
      destruct (filter (fun i => i_date i <=? hi) (g :: gs)); [destruct I2|discriminate].
    - assert (I1 : In i (filter (fun i => i_date i >=? lo) (f :: fs))) by (apply filter_In; split; [exact A|lia]).
      destruct (filter (fun i => i_date i >=? lo) (f :: fs)); [destruct I1|discriminate].
    - assert (I1 : In i (filter (fun i => i_date i <=? hi) (f :: fs))) by (apply filter_In; split; [exact A|lia]).
      destruct (filter (fun i => i_date i <=? hi) (f :: fs)); [destruct I1|discriminate].
    - discriminate. }
  intros files files' lo hi P N. destruct files as [|f fs].
  { apply Permutation_nil in P. subst files'. reflexivity. }
  assert (Hne' : files' <> []) by (intros ->; apply Permutation_sym, Permutation_nil in P; discriminate).
  assert (Hne : f :: fs <> []) by discriminate. set (files := f :: fs) in *. clearbody files.
  destruct (D (get_stack_date files lo hi)) as [[r E]|[E|E]], (D (get_stack_date files' lo hi)) as [[r' E']|[E'|E']];
    try (destruct (NN _ _ _ Hne E)); try (destruct (NN _ _ _ Hne' E')).
  - rewrite E, E'. do 2 f_equal. destruct (C82_stack _ _ _ E) as (S1 & _ & P1 & _). destruct (C82_stack _ _ _ E') as (S2 & _ & P2 & _).
    apply sorted_eq; [exact S1|exact S2| |].
    + eapply Permutation_trans; [exact P1|]. eapply Permutation_trans; [apply filter_perm, P|apply Permutation_sym, P2].
    + eapply Permutation_NoDup; [apply Permutation_map, Permutation_sym, P1|]. clear - N. induction files as [|a l IH]; [constructor|].
      inversion_clear N as [|? ? N1 N2]. cbn [filter]. destruct (_ && _); [|apply IH, N2]. cbn [map]. constructor; [|apply IH, N2].
      intros X. apply N1. apply in_map_iff in X. destruct X as (x & X1 & X2). apply filter_In in X2. apply in_map_iff. exists x. split; [exact X1|apply X2].
  - destruct (W _ _ _ _ _ P E E').
  - destruct (W _ _ _ _ _ (Permutation_sym P) E' E).
  - congruence.
Qed.
Theorem C82_empty : forall lo hi, get_stack_date [] lo hi = Val None.
Proof. reflexivity. Qed.
End Stack.
Example C82_example :
  let f d n := mkImg d n tt in
  get_stack_date [f 900 1; f 700 2; f 800 4; f 800 3; f 600 5] 700 850 = Val (Some [f 700 2; f 800 3; f 800 4]) /\
  get_stack_date [f 900 1] 0 850 = Raise /\ get_stack_date [f 900 1] 0 0 = Val (Some [f 900 1]).
Proof. vm_compute. auto. Qed.

(** ** C81: the pixel loop (tile_processing.py 447-585) *)
Section Pixels.
Variables (R CM : Type).
(** What the detector does on a pixel. *)
Inductive det := Detected (r : R) (cm : CM) | RuntimeErr | OtherErr.
Inductive meth := COLD | OBCOLD.
Variable fill : CM.
(** COLD and OBCOLD (492-551).  The handler of RuntimeError evaluates
    datetime.now.strftime, an attribute a function does not have (541), so it
    raises AttributeError; the finally clause then runs and the exception goes
    on.  With COLD there is no CM.  Results: records kept, CM per pixel. *)
Fixpoint pixel_loop (m : meth) (ps : list det) : py (list R * list CM) :=
  match ps with
  | [] => Val ([], [])
  | Detected r cm :: t => match pixel_loop m t with
      | Val (rs, cms) => Val (r :: rs, match m with OBCOLD => cm :: cms | COLD => cms end) | Raise => Raise end
  | OtherErr :: t => match pixel_loop m t with
      | Val (rs, cms) => Val (rs, match m with OBCOLD => fill :: cms | COLD => cms end) | Raise => Raise end
  | RuntimeErr :: _ => Raise
  end.
(** S-CCD (447-477): a RuntimeError is logged, any other exception leaves. *)
Fixpoint pixel_loop_sccd (ps : list det) : py (list R) :=
  match ps with
  | [] => Val []
  | Detected r _ :: t => match pixel_loop_sccd t with Val rs => Val (r :: rs) | Raise => Raise end
  | RuntimeErr :: t => pixel_loop_sccd t
  | OtherErr :: _ => Raise
  end.
Definition results (ps : list det) : list R := flat_map (fun p => match p with Detected r _ => [r] | _ => [] end) ps.
Definition cms (ps : list det) : list CM := map (fun p => match p with Detected _ cm => cm | _ => fill end) ps.
Theorem C81_cold_partial : forall m ps, ~ In RuntimeErr ps ->
  pixel_loop m ps = Val (results ps, match m with OBCOLD => cms ps | COLD => [] end).
Proof.
  intros m ps. induction ps as [|p t IH]; intros H; [destruct m; reflexivity|].
  assert (Ht : ~ In RuntimeErr t) by (intros X; apply H; right; exact X).
  destruct p; [| destruct H; left; reflexivity|]; cbn [pixel_loop]; rewrite (IH Ht); destruct m; reflexivity.
Qed.
Theorem C81_sccd_partial : forall ps, ~ In OtherErr ps -> pixel_loop_sccd ps = Val (results ps).
Proof.
  intros ps. induction ps as [|p t IH]; intros H; [reflexivity|].
  assert (Ht : ~ In OtherErr t) by (intros X; apply H; right; exact X).
  destruct p; [| |destruct H; left; reflexivity]; cbn [pixel_loop_sccd]; rewrite (IH Ht); reflexivity.
Qed.
(** One pixel whose detection fails stops the whole block, and with it the
    rank. *)
Theorem C81_cold_refuted : forall m ps, In RuntimeErr ps -> pixel_loop m ps = Raise.
Proof.
  intros m ps. induction ps as [|p t IH]; intros H; [destruct H|]. destruct H as [->|H]; [reflexivity|].
  destruct p; [| reflexivity|]; cbn [pixel_loop]; rewrite (IH H); reflexivity.
Qed.
End Pixels.
Example C81_example : let ps := [Detected 1 10; OtherErr Z Z; Detected 3 30] in
  pixel_loop (-9999) OBCOLD ps = Val ([1; 3], [10; -9999; 30]) /\ pixel_loop (-9999) COLD ps = Val ([1; 3], []) /\
  pixel_loop (-9999) COLD [Detected 1 10; RuntimeErr Z Z] = Raise /\ pixel_loop_sccd [Detected 1 10; RuntimeErr Z Z; Detected 2 20] = Val [1; 2].
Proof. vm_compute. auto 10. Qed.
(** The detectors raise RuntimeError on a series shorter than a year
    (_colds_cython.pyx, 4 * span < 1461), so a block of less than a year of
    images always stops its rank. *)
Definition short_series (dates : list Z) : bool := 4 * (last dates 0 - hd 0 dates) <? 1461.
Theorem C81_short_series : forall dates, short_series dates = true <-> last dates 0 - hd 0 dates <= 365.
Proof. intros dates. unfold short_series. lia. Qed.
Theorem C81_short_block_refuted : forall (R CM : Type) (fill : CM) m dates n (detect : nat -> det R CM),
  (0 < n)%nat -> short_series dates = true -> (forall k, short_series dates = true -> detect k = RuntimeErr R CM) ->
  pixel_loop fill m (map detect (seq 0 n)) = Raise.
Proof.
  intros R CM fill m dates n detect Hn Hs Hd. apply C81_cold_refuted. apply in_map_iff. exists 0%nat.
  split; [apply Hd, Hs|apply in_seq; lia].
Qed.

(** ** C74: what detection and reconstruction are given *)
(** The user's settings (tile_processing.py 280-330). *)
Record config := mkCfg { g_lo : Z; g_hi : Z; g_c2 : bool; g_conse : Z; g_tcg : Z }.
(** Detection of one pixel in OBCOLD: 415-417, 498-516 *)
Record call := mkCall { k_lo : Z; k_hi : Z; k_c2 : bool; k_conse : Z }.
Definition detection (g : config) : call := mkCall (g_lo g) (g_hi g) (g_c2 g) (g_conse g).
(** Reconstruction: get_stack_date without bounds (732-734), obcold_reconstruct
    without b_c2, whose default is False (colds.py 263-265). *)
Definition reconstruction (g : config) : call := mkCall 0 0 false (g_conse g).
Theorem C74_refuted : exists g, detection g <> reconstruction g.
Proof. exists (mkCfg 1 0 true 6 0). discriminate. Qed.
Theorem C74_partial : forall g, g_lo g = 0 -> g_hi g = 0 -> g_c2 g = false -> detection g = reconstruction g.
Proof. intros g A B C. unfold detection, reconstruction. rewrite A, B, C. reflexivity. Qed.
(** The observations selected from the same rows: for Collection 2 rows whose
    stored thermal value is outside the Collection 1 range (every real
    temperature is, C71_thermal_out_of_range) reconstruction keeps nothing,
    whatever detection kept. *)
Lemma select_none : forall rows last, (forall q, In q rows -> id_range false q = false) ->
  select false (map (fun q => (q, id_range false q)) rows) last = [].
Proof.
  induction rows as [|q t IH]; intros last H; [reflexivity|]. cbn [map select]. rewrite (H q (or_introl eq_refl)), andb_false_r.
  apply IH. intros x Hx. apply H. right. exact Hx.
Qed.
Theorem C74_collection2_refuted : forall rows, (forall q, In q rows -> q_t q <> 0 /\ ~ (-9320 < q_t q * 10 - 27320 < 7070)) ->
  select false (map (fun q => (q, id_range false q)) rows) None = [].
Proof.
  intros rows H. apply select_none. intros q Hq. destruct (H q Hq) as [A B]. unfold id_range, thermal_check.
  destruct (q_t q =? 0) eqn:E; [lia|]. cbn [negb].
  destruct (q_t q * 10 - 27320 >? -9320) eqn:E1; [|rewrite !andb_false_r; reflexivity].
  destruct (q_t q * 10 - 27320 <? 7070) eqn:E2; [lia|]. rewrite andb_false_r. reflexivity.
Qed.
Definition c2_row (d : Z) : raw := mkRaw d 300 400 500 3000 1500 800 8500 0.
Example C74_example : let rows := map c2_row [730000; 730016; 730032] in
  length (select true (map (fun q => (q, id_range true q)) rows) None) = 3%nat /\
  select false (map (fun q => (q, id_range false q)) rows) None = [].
Proof. vm_compute. auto. Qed.

(** ** C75: a block without images in OBCOLD *)
(** np.dstack / np.hstack of an empty list raise ValueError. *)
Definition stack_np {A} (l : list A) : py (list A) := match l with [] => Raise | _ => Val l end.
Section Rebuild.
Variables (Img R : Type).
(** reconstruct_reccg (ob_analyst.py 1103-1144): without a stack it reads the
    folder again (read_blockdata, utils.py), which stacks the image list. *)
Definition reconstruct_reccg (files : list (img Img)) (stack : option (list (img Img))) (pixels : list (det R unit)) : py (list R) :=
  match stack with
  | Some _ => Val (results pixels)
  | None => match stack_np files with Raise => Raise | Val _ => Val (results pixels) end
  end.
(** One block of the last stage (723-741). *)
Definition reconstruct_block (files : list (img Img)) (pixels : list (det R unit)) : py (list R) :=
  match get_stack_date files 0 0 with
  | Raise => Raise
  | Val st => match reconstruct_reccg files st pixels with Raise => Raise | Val rs => stack_np rs end
  end.
Theorem C75_empty_block_refuted : forall pixels, reconstruct_block [] pixels = Raise.
Proof. reflexivity. Qed.
Theorem C75_no_success_refuted : forall files pixels, results pixels = [] -> reconstruct_block files pixels = Raise.
Proof.
  intros files pixels H. unfold reconstruct_block, reconstruct_reccg. destruct (get_stack_date files 0 0) as [[s|]|]; [rewrite H; reflexivity| |reflexivity].
  rewrite H. destruct (stack_np files); reflexivity.
Qed.
Theorem C75_partial : forall files pixels, files <> [] -> results pixels <> [] -> reconstruct_block files pixels = Val (results pixels).
Proof.
  intros files pixels H1 H2. unfold reconstruct_block. destruct files as [|f fs]; [congruence|]. cbn [get_stack_date].
  change (0 <? 0) with false. cbn [bound_filter reconstruct_reccg]. destruct (results pixels); [congruence|reflexivity].
Qed.
End Rebuild.
Example C75_example : reconstruct_block [mkImg 5 1 tt] [Detected 1 tt; OtherErr Z unit; Detected 2 tt] = Val [1; 2].
Proof. reflexivity. Qed.

(** ** C78: the land-cover map an object date uses (tile_processing.py 603,
    ob_analyst.py 860-875) *)
Definition year_list (lo hi : Z) : list Z := map (fun k => lo + Z.of_nat k) (seq 0 (Z.to_nat (hi - lo))).
Definition classified_year (lo date : Z) : Z := if py_year date - 1 <? lo then lo else py_year date - 1.
Lemma year_list_In : forall lo hi y, In y (year_list lo hi) <-> lo <= y < hi.
Proof.
  intros lo hi y. unfold year_list. rewrite in_map_iff. split.
  - intros (k & <- & H). apply in_seq in H. lia.
  - intros H. exists (Z.to_nat (y - lo)). split; [lia|]. apply in_seq. lia.
Qed.
Lemma py_year_mono : forall d e, 1 <= d -> d <= e -> py_year d <= py_year e.
Proof.
  intros d e Hd He. pose proof (py_year_ok Hd) as A. assert (He' : 1 <= e) by lia. pose proof (py_year_ok He') as B.
  destruct (Z_le_gt_dec (py_year d) (py_year e)) as [L|L]; [exact L|exfalso].
  assert (M : forall n y, days_before y <= days_before (y + Z.of_nat n)).
  { induction n as [|n IH]; intros y; [replace (y + Z.of_nat 0) with y by lia; lia|]. specialize (IH y).
    replace (y + Z.of_nat (S n)) with (y + Z.of_nat n + 1) by lia. pose proof (days_step (y + Z.of_nat n)).
    assert (0 <= year_days (y + Z.of_nat n)) by (unfold year_days; destruct (is_leap_year _); lia). lia. }
  pose proof (M (Z.to_nat (py_year d - (py_year e + 1))) (py_year e + 1)) as M'.
  replace (py_year e + 1 + Z.of_nat (Z.to_nat (py_year d - (py_year e + 1)))) with (py_year d) in M' by lia. lia.
Qed.
(** The dates of the change magnitude maps are start, start + interval, ...;
    lo and hi are the years of the first and the last. *)
Theorem C78_exists_partial : forall start interval n k, 1 <= start -> 0 <= interval -> 0 <= k < n ->
  let lo := py_year start in let hi := py_year (start + (n - 1) * interval) in lo < hi ->
  In (classified_year lo (start + k * interval)) (year_list lo hi).
Proof.
  intros start interval n k Hs Hi Hk lo hi Hlt. apply year_list_In. unfold classified_year.
  assert (lo <= py_year (start + k * interval)) by (apply py_year_mono; nia).
  assert (py_year (start + k * interval) <= hi) by (apply py_year_mono; nia).
  destruct (py_year (start + k * interval) - 1 <? lo) eqn:E; lia.
Qed.
(** The map is that of the year before the date, or of the first year. *)
Theorem C78_year : forall lo date, lo <= py_year date -> classified_year lo date = Z.max lo (py_year date - 1).
Proof. intros lo date H. unfold classified_year. destruct (_ <? lo) eqn:E; lia. Qed.
(** A series within one calendar year has no map at all. *)
Theorem C78_one_year_refuted : exists start interval n, 1 <= start /\ 0 < interval /\ 0 < n /\
  let lo := py_year start in let hi := py_year (start + (n - 1) * interval) in
  year_list lo hi = [] /\ forall k, 0 <= k < n -> ~ In (classified_year lo (start + k * interval)) (year_list lo hi).
Proof.
  exists 730120, 32, 8. repeat split; try lia. intros k Hk H. change (year_list (py_year 730120) (py_year (730120 + (8 - 1) * 32))) with (@nil Z) in H. destruct H.
Qed.
Example C78_example : year_list 2000 2003 = [2000; 2001; 2002] /\ map (classified_year 2000) [730120; 730500; 731000; 731300] = [2000; 2000; 2001; 2002].
Proof. vm_compute. auto. Qed.

Print Assumptions C82_stack.
Print Assumptions C82_listing.
Print Assumptions C81_short_series.
Print Assumptions C82_out_of_range_refuted.
Print Assumptions C81_cold_partial.
Print Assumptions C81_sccd_partial.
Print Assumptions C81_cold_refuted.
Print Assumptions C81_short_block_refuted.
Print Assumptions C74_partial.
Print Assumptions C74_collection2_refuted.
Print Assumptions C75_empty_block_refuted.
Print Assumptions C75_partial.
Print Assumptions C78_exists_partial.
Print Assumptions C78_one_year_refuted.
