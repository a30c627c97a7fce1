(** Pixel and block index arithmetic of the Python driver
    (src/python/pycold/utils.py 13-71, 73-168, 176-215, 301-317;
    src/python/pycold/ob_analyst.py 985-1025, 1040-1074, 1076-1145;
    src/python/pycold/imagetool/tile_processing.py 393-404, 445-470).

    prepare_ard.py 316-468 for the partition of the images.

    Simplifications: [int(a / b)] is the truncated exact quotient (FloatIndex
    shows that the double computation gives the same for the sizes in
    question); files are maps from block coordinates to arrays. *)
From Verif Require Import Base.

(** utils.py 13-24 and 27-38 *)
Definition get_block_y (id nbx : Z) : Z := Z.quot (id - 1) nbx + 1.
Definition get_block_x (id nbx : Z) : Z := (id - 1) mod nbx + 1.
(** utils.py 41-54 and 57-71 *)
Definition get_col_index (pos n_cols bx bw : Z) : Z := (pos - 1) mod n_cols - (bx - 1) * bw.
Definition get_row_index (pos n_cols by_ bh : Z) : Z := Z.quot (pos - 1) n_cols - (by_ - 1) * bh.
(** utils.py 176-198: int(index / bw + (by - 1) * bh + 1), int(index % bw + ...) *)
Definition get_rowcol_intile (index bw bh bx by_ : Z) : Z * Z :=
  (Z.quot (index + ((by_ - 1) * bh + 1) * bw) bw, index mod bw + (bx - 1) * bw + 1).
(** utils.py 201-213 *)
Definition get_id_inblock (pos bw bh n_cols : Z) : Z :=
  (Z.quot (pos - 1) n_cols) mod bh * bw + (pos - 1) mod n_cols mod bw.
(** Position id passed to the detectors (tile_processing.py 468). *)
Definition pos_id (n_cols row col : Z) : Z := n_cols * (row - 1) + col.

Section Layout.
(** A tile of nbx x nby blocks of bw x bh pixels. *)
Variables nbx nby bw bh : Z.
Hypothesis Hnbx : 0 < nbx.
Hypothesis Hnby : 0 < nby.
Hypothesis Hbw : 0 < bw.
Hypothesis Hbh : 0 < bh.
Let n_cols := nbx * bw.
Let n_rows := nby * bh.

(** ** C49 *)
Lemma quot_div_pos : forall a b, 0 <= a -> 0 < b -> Z.quot a b = a / b.
Proof. intros a b Ha Hb. apply Z.quot_div_nonneg; lia. Qed.

(** Block ids 1..nbx*nby are the pairs (block_x, block_y), row by row. *)
Theorem C49_block_id : forall id, 1 <= id <= nbx * nby ->
  1 <= get_block_x id nbx <= nbx /\ 1 <= get_block_y id nbx <= nby /\
  (get_block_y id nbx - 1) * nbx + get_block_x id nbx = id.
Proof.
  intros id H. unfold get_block_x, get_block_y. rewrite quot_div_pos by lia.
  pose proof (Z.mod_pos_bound (id - 1) nbx Hnbx). pose proof (Z.div_mod (id - 1) nbx ltac:(lia)).
  assert (0 <= (id - 1) / nbx) by (apply Z.div_pos; lia).
  assert ((id - 1) / nbx < nby) by (apply Z.div_lt_upper_bound; lia).
  repeat split; lia.
Qed.
Theorem C49_block_id_inv : forall bx by_, 1 <= bx <= nbx -> 1 <= by_ <= nby ->
  let id := (by_ - 1) * nbx + bx in
  1 <= id <= nbx * nby /\ get_block_x id nbx = bx /\ get_block_y id nbx = by_.
Proof.
  intros bx by_ Hx Hy id. unfold id. split; [nia|]. unfold get_block_x, get_block_y.
  replace ((by_ - 1) * nbx + bx - 1) with ((bx - 1) + (by_ - 1) * nbx) by lia.
  rewrite quot_div_pos by nia. rewrite Z.mod_add, Z.div_add by lia.
  rewrite Z.mod_small, Z.div_small by lia. lia.
Qed.

Lemma inblock_bound : forall r c, 0 <= r < bh -> 0 <= c < bw -> 0 <= r * bw + c < bw * bh.
Proof. clear Hnbx Hnby n_cols n_rows. intros. split; [nia|]. assert (r * bw <= (bh - 1) * bw) by (apply Z.mul_le_mono_nonneg_r; lia). lia. Qed.

(** The tile coordinates of an in-block index: the plain definition. *)
Lemma rowcol_eq : forall index bx by_, 0 <= index -> 1 <= by_ ->
  get_rowcol_intile index bw bh bx by_ = ((by_ - 1) * bh + index / bw + 1, (bx - 1) * bw + index mod bw + 1).
Proof.
  intros index bx by_ Hi Hy. unfold get_rowcol_intile. rewrite quot_div_pos by nia.
  rewrite Z.div_add by lia. f_equal; lia.
Qed.

(** Every tile pixel is the image of exactly one (block, in-block index). *)
Theorem C49_pixel : forall row col, 1 <= row <= n_rows -> 1 <= col <= n_cols ->
  exists bx by_ index, 1 <= bx <= nbx /\ 1 <= by_ <= nby /\ 0 <= index < bw * bh /\
    get_rowcol_intile index bw bh bx by_ = (row, col) /\
    (forall bx' by' index', 1 <= bx' <= nbx -> 1 <= by' <= nby -> 0 <= index' < bw * bh ->
       get_rowcol_intile index' bw bh bx' by' = (row, col) -> bx' = bx /\ by' = by_ /\ index' = index).
Proof.
  intros row col Hr Hc. unfold n_rows, n_cols in *.
  exists ((col - 1) / bw + 1), ((row - 1) / bh + 1), ((row - 1) mod bh * bw + (col - 1) mod bw).
  pose proof (Z.mod_pos_bound (row - 1) bh Hbh). pose proof (Z.mod_pos_bound (col - 1) bw Hbw).
  pose proof (Z.div_mod (row - 1) bh ltac:(lia)). pose proof (Z.div_mod (col - 1) bw ltac:(lia)).
  assert (0 <= (col - 1) / bw) by (apply Z.div_pos; lia). assert ((col - 1) / bw < nbx) by (apply Z.div_lt_upper_bound; lia).
  assert (0 <= (row - 1) / bh) by (apply Z.div_pos; lia). assert ((row - 1) / bh < nby) by (apply Z.div_lt_upper_bound; lia).
  split; [lia|]. split; [lia|]. split; [nia|]. split.
  - rewrite rowcol_eq by nia.
    replace ((row - 1) mod bh * bw + (col - 1) mod bw) with ((col - 1) mod bw + (row - 1) mod bh * bw) by lia.
    rewrite Z.div_add, Z.mod_add by lia. rewrite Z.mod_mod, (Z.div_small ((col - 1) mod bw)) by lia. f_equal; lia.
  - intros bx' by' index' Hx Hy Hi E. rewrite rowcol_eq in E by lia. injection E as E1 E2.
    pose proof (Z.mod_pos_bound index' bw Hbw). pose proof (Z.div_mod index' bw ltac:(lia)).
    assert (0 <= index' / bw < bh) by (split; [apply Z.div_pos; lia|apply Z.div_lt_upper_bound; lia]).
    assert (Q1 : (row - 1) / bh = by' - 1 /\ (row - 1) mod bh = index' / bw).
    { replace (row - 1) with (index' / bw + (by' - 1) * bh) by lia.
      rewrite Z.div_add, Z.mod_add by lia. rewrite Z.mod_small, Z.div_small by lia. lia. }
    assert (Q2 : (col - 1) / bw = bx' - 1 /\ (col - 1) mod bw = index' mod bw).
    { replace (col - 1) with (index' mod bw + (bx' - 1) * bw) by lia.
      rewrite Z.div_add, Z.mod_add by lia. rewrite Z.mod_mod, Z.div_small by lia. lia. }
    lia.
Qed.

(** The inverse functions used on position ids. *)
Theorem C49_position : forall bx by_ index row col, 1 <= bx <= nbx -> 1 <= by_ <= nby -> 0 <= index < bw * bh ->
  get_rowcol_intile index bw bh bx by_ = (row, col) ->
  let pos := pos_id n_cols row col in
  1 <= pos <= n_rows * n_cols /\
  get_id_inblock pos bw bh n_cols = index /\
  get_row_index pos n_cols by_ bh * bw + get_col_index pos n_cols bx bw = index /\
  0 <= get_row_index pos n_cols by_ bh < bh /\ 0 <= get_col_index pos n_cols bx bw < bw.
Proof.
  intros bx by_ index row col Hx Hy Hi E pos. rewrite rowcol_eq in E by lia. injection E as E1 E2.
  assert (Hn : 0 < n_cols) by (unfold n_cols; nia).
  pose proof (Z.mod_pos_bound index bw Hbw). pose proof (Z.div_mod index bw ltac:(lia)).
  assert (0 <= index / bw < bh) by (split; [apply Z.div_pos; lia|apply Z.div_lt_upper_bound; lia]).
  assert (Hcol : 0 <= col - 1 < n_cols) by (unfold n_cols; nia).
  assert (Hrow : 0 <= row - 1 < n_rows) by (unfold n_rows; nia).
  unfold get_id_inblock, get_row_index, get_col_index, pos, pos_id.
  replace (n_cols * (row - 1) + col - 1) with ((col - 1) + (row - 1) * n_cols) by lia.
  rewrite quot_div_pos by nia. rewrite Z.div_add, Z.mod_add by lia. rewrite (Z.mod_small (col - 1)), (Z.div_small (col - 1)) by lia.
  split; [nia|]. split; [|split; [|lia]].
  - replace (0 + (row - 1)) with (index / bw + (by_ - 1) * bh) by lia.
    replace (col - 1) with (index mod bw + (bx - 1) * bw) by lia.
    rewrite !Z.mod_add by lia. rewrite Z.mod_mod, (Z.mod_small (index / bw)) by lia. lia.
  - lia.
Qed.

(** Distinct pixels have distinct position ids. *)
Theorem C49_position_injective : forall r c r' c', 1 <= c <= n_cols -> 1 <= c' <= n_cols ->
  pos_id n_cols r c = pos_id n_cols r' c' -> r = r' /\ c = c'.
Proof. intros r c r' c' Hc Hc' E. unfold pos_id in E. assert (r = r') by nia. subst r'. lia. Qed.

(** ** C50: assemble_cmmaps (utils.py 73-168) *)
Section Assemble.
Variable n_cm : Z.
Hypothesis Hcm : 0 < n_cm.

(** A tile map; an array of a block file (np.hstack of one length-n_cm array
    per pixel, tile_processing.py 560-569). *)
Definition tile := Z -> Z -> Z.
Definition flat := Z -> Z.
Inductive asm := AOk (maps : Z -> tile) | ANameError | AValueError.

(** Value at (r, c) of the k-th map of a block: reshape to (bw*bh, n_cm),
    hsplit, reshape to (bh, bw) (utils.py 138-149). *)
Definition block_map (f : flat) (k r c : Z) : Z := f ((r * bw + c) * n_cm + k).

(** maps[...] = ... (utils.py 141-149).  A slice to the right of the tile is
    empty; assigning a (bh, bw) array to it raises unless bw is 1, when it is
    broadcast to nothing. *)
Definition assign (maps : Z -> tile) (bx by_ : Z) (f : flat) : asm :=
  if bx <=? nbx then
    AOk (fun k row col =>
      if ((by_ - 1) * bh <=? row) && (row <? by_ * bh) && ((bx - 1) * bw <=? col) && (col <? bx * bw)
      then block_map f k (row - (by_ - 1) * bh) (col - (bx - 1) * bw) else maps k row col)
  else if bw =? 1 then AOk maps else AValueError.

(** The loop over blocks (utils.py 122-149): [prev] is cm_block, unbound at
    first and kept when the file cannot be read. *)
Fixpoint blocks_loop (files : Z -> Z -> option flat) (n : nat) (iblock : Z) (prev : option flat) (maps : Z -> tile) : asm :=
  match n with
  | O => AOk maps
  | S n =>
      let by_ := iblock / nbx + 1 in
      let bx := iblock mod nby + 1 in
      let cur := match files bx by_ with Some f => Some f | None => prev end in
      match cur with
      | None => ANameError
      | Some f => match assign maps bx by_ f with
                  | AOk maps' => blocks_loop files n (iblock + 1) cur maps'
                  | e => e
                  end
      end
  end.
Definition assemble_cmmaps (files : Z -> Z -> option flat) : asm :=
  blocks_loop files (Z.to_nat (nbx * nby)) 0 None (fun _ _ _ => -9999).

(** The block files of the per-pixel stage: the k-th value of the pixel with
    in-block index p sits at p * n_cm + k. *)
Definition written (val : Z -> Z -> Z -> Z) (files : Z -> Z -> option flat) : Prop :=
  (forall bx by_, 1 <= bx <= nbx -> 1 <= by_ <= nby -> exists f, files bx by_ = Some f /\
    forall p k, 0 <= p < bw * bh -> 0 <= k < n_cm ->
      f (p * n_cm + k) = let '(row, col) := get_rowcol_intile p bw bh bx by_ in val row col k) /\
  (forall bx by_, nbx < bx -> files bx by_ = None).

(** After the loop the processed slots hold their blocks. *)
Lemma loop_square : forall val files, nbx = nby -> written val files -> forall n iblock prev maps,
  0 <= iblock -> iblock + Z.of_nat n <= nbx * nby ->
  exists maps', blocks_loop files n iblock prev maps = AOk maps' /\
    forall k row col, 0 <= k < n_cm -> 0 <= row -> 0 <= col < n_cols ->
      maps' k row col = (if (iblock <=? row / bh * nbx + col / bw) && (row / bh * nbx + col / bw <? iblock + Z.of_nat n)
                         then val (row + 1) (col + 1) k else maps k row col).
Proof.
  intros val files Esq [Hw _]. induction n as [|n IH]; intros iblock prev maps H0 H1.
  - exists maps. split; [reflexivity|]. intros k row col _ _ _.
    replace ((iblock <=? row / bh * nbx + col / bw) && (row / bh * nbx + col / bw <? iblock + Z.of_nat 0)) with false by lia. reflexivity.
  - cbn [blocks_loop]. set (by_ := iblock / nbx + 1). set (bx := iblock mod nby + 1).
    pose proof (Z.div_mod iblock nbx ltac:(lia)) as Hdm. pose proof (Z.mod_pos_bound iblock nbx Hnbx) as Hm.
    assert (Hd0 : 0 <= iblock / nbx) by (apply Z.div_pos; lia).
    assert (Hd1 : iblock / nbx < nby) by (apply Z.div_lt_upper_bound; lia).
    assert (Hbx : 1 <= bx <= nbx) by (unfold bx; rewrite <- Esq; lia).
    assert (Hby : 1 <= by_ <= nby) by (unfold by_; lia).
    destruct (Hw bx by_ Hbx Hby) as (f & Ef & Hf). rewrite Ef. unfold assign.
    replace (bx <=? nbx) with true by lia.
    match goal with |- context [blocks_loop files n (iblock + 1) (Some f) ?m] => set (maps1 := m) end.
    destruct (IH (iblock + 1) (Some f) maps1 ltac:(lia) ltac:(lia)) as (maps' & E & HM).
    exists maps'. split; [exact E|]. intros k row col Hk Hrow Hcol. rewrite HM by assumption.
    pose proof (Z.div_mod row bh ltac:(lia)). pose proof (Z.mod_pos_bound row bh Hbh).
    pose proof (Z.div_mod col bw ltac:(lia)). pose proof (Z.mod_pos_bound col bw Hbw).
    assert (0 <= row / bh) by (apply Z.div_pos; lia). assert (0 <= col / bw) by (apply Z.div_pos; lia).
    assert (col / bw < nbx) by (apply Z.div_lt_upper_bound; [lia|]; unfold n_cols in Hcol; lia).
    set (s := row / bh * nbx + col / bw) in *.
    destruct (Z.eq_dec s iblock) as [Es|Es].
    + assert (Q : row / bh = iblock / nbx /\ col / bw = iblock mod nbx).
      { rewrite <- Es. unfold s. rewrite (Z.add_comm (row / bh * nbx)). rewrite Z.div_add, Z.mod_add by lia.
        rewrite (Z.mod_small (col / bw)), (Z.div_small (col / bw)) by lia. lia. }
      destruct Q as [Q1 Q2].
      replace ((iblock + 1 <=? s) && (s <? iblock + 1 + Z.of_nat n)) with false by lia.
      replace ((iblock <=? s) && (s <? iblock + Z.of_nat (S n))) with true by lia.
      unfold maps1.
      assert (Ein : ((by_ - 1) * bh <=? row) && (row <? by_ * bh) && ((bx - 1) * bw <=? col) && (col <? bx * bw) = true).
      { unfold by_, bx. rewrite <- Esq, <- Q1, <- Q2. rewrite !andb_true_iff. repeat split; [apply Z.leb_le|apply Z.ltb_lt|apply Z.leb_le|apply Z.ltb_lt]; nia. }
      rewrite Ein. unfold block_map.
      assert (Ebx : bx - 1 = col / bw) by (unfold bx; rewrite <- Esq; lia). assert (Eby : by_ - 1 = row / bh) by (unfold by_; lia).
      rewrite Ebx, Eby. replace (row - row / bh * bh) with (row mod bh) by lia. replace (col - col / bw * bw) with (col mod bw) by lia.
      rewrite Hf by (try lia; apply inblock_bound; lia). rewrite rowcol_eq by (try lia; apply inblock_bound; lia). rewrite Ebx, Eby.
      rewrite (Z.add_comm (row mod bh * bw)). rewrite Z.div_add, Z.mod_add by lia. rewrite Z.mod_mod, (Z.div_small (col mod bw)) by lia.
      f_equal; lia.
    + replace ((iblock <=? s) && (s <? iblock + Z.of_nat (S n))) with ((iblock + 1 <=? s) && (s <? iblock + 1 + Z.of_nat n)) by lia.
      destruct ((iblock + 1 <=? s) && (s <? iblock + 1 + Z.of_nat n)); [reflexivity|].
      unfold maps1.
      destruct (((by_ - 1) * bh <=? row) && (row <? by_ * bh) && ((bx - 1) * bw <=? col) && (col <? bx * bw)) eqn:Ein; [|reflexivity].
      exfalso. apply Es. unfold s.
      assert (E1 : row / bh = by_ - 1) by (symmetry; apply (Z.div_unique row bh (by_ - 1) (row - (by_ - 1) * bh)); lia).
      assert (E2 : col / bw = bx - 1) by (symmetry; apply (Z.div_unique col bw (bx - 1) (col - (bx - 1) * bw)); lia).
      rewrite E1, E2. unfold by_, bx. rewrite <- Esq. lia.
Qed.

(** C50 on square block grids: every pixel gets its own value. *)
Theorem C50_square_partial : forall val files, nbx = nby -> written val files ->
  exists maps, assemble_cmmaps files = AOk maps /\
    forall k row col, 0 <= k < n_cm -> 1 <= row <= n_rows -> 1 <= col <= n_cols -> maps k (row - 1) (col - 1) = val row col k.
Proof.
  intros val files Esq Hw. unfold assemble_cmmaps.
  destruct (@loop_square val files Esq Hw (Z.to_nat (nbx * nby)) 0 None (fun _ _ _ => -9999) ltac:(lia) ltac:(lia)) as (maps & E & HM).
  exists maps. split; [exact E|]. intros k row col Hk Hr Hc. rewrite HM by lia.
  assert (H1 : 0 <= (row - 1) / bh < nby) by (split; [apply Z.div_pos; lia|apply Z.div_lt_upper_bound; unfold n_rows in Hr; lia]).
  assert (H2 : 0 <= (col - 1) / bw < nbx) by (split; [apply Z.div_pos; lia|apply Z.div_lt_upper_bound; unfold n_cols in Hc; lia]).
  replace ((0 <=? (row - 1) / bh * nbx + (col - 1) / bw) && ((row - 1) / bh * nbx + (col - 1) / bw <? 0 + Z.of_nat (Z.to_nat (nbx * nby)))) with true
    by (symmetry; apply andb_true_iff; split; [apply Z.leb_le|apply Z.ltb_lt]; nia).
  f_equal; lia.
Qed.

(** Only the first nby columns of blocks are ever written. *)
Lemma loop_cols : forall files n iblock prev maps maps' k row col,
  blocks_loop files n iblock prev maps = AOk maps' -> nby * bw <= col -> maps' k row col = maps k row col.
Proof.
  intros files. induction n as [|n IH]; intros iblock prev maps maps' k row col E Hc.
  - injection E as <-. reflexivity.
  - cbn [blocks_loop] in E. destruct (match files _ _ with Some f => Some f | None => prev end) as [f|] eqn:Ec; [|discriminate].
    unfold assign in E. destruct (iblock mod nby + 1 <=? nbx) eqn:Ex.
    + apply IH with (k := k) (row := row) (col := col) in E; [|assumption]. rewrite E.
      pose proof (Z.mod_pos_bound iblock nby Hnby).
      replace (col <? (iblock mod nby + 1) * bw) with false by (symmetry; apply Z.ltb_ge; nia).
      rewrite andb_false_r. reflexivity.
    + destruct (bw =? 1); [|discriminate]. eapply IH; eassumption.
Qed.


(** C50 on wide grids: the columns of blocks beyond the nby-th stay empty. *)
Theorem C50_wide_unset : forall files maps, nby < nbx -> assemble_cmmaps files = AOk maps ->
  forall k row col, nby * bw <= col < n_cols -> maps k row col = -9999.
Proof.
  intros files maps Hw E k row col Hc. unfold assemble_cmmaps in E.
  rewrite (@loop_cols files _ _ _ _ maps k row col E); [reflexivity|lia].
Qed.

(** C50 on tall grids: the run breaks off (blocks wider than one pixel). *)
Lemma loop_first : forall files f n iblock maps, nbx < nby -> 1 < bw ->
  0 <= iblock <= nbx -> iblock + Z.of_nat n > nbx ->
  (exists e, blocks_loop files n iblock (Some f) maps = e /\ forall m, e <> AOk m).
Proof.
  intros files f. intros n. revert f. induction n as [|n IH]; intros f iblock maps Ht Hb Hi Hn; [lia|].
  cbn [blocks_loop]. eexists. split; [reflexivity|]. intros m.
  assert (Em : iblock mod nby = iblock) by (apply Z.mod_small; lia). rewrite Em.
  destruct (match files (iblock + 1) (iblock / nbx + 1) with Some f0 => Some f0 | None => Some f end) as [g|] eqn:Eg;
    [|destruct (files _ _); discriminate].
  unfold assign. destruct (iblock + 1 <=? nbx) eqn:Ex.
  - match goal with |- context [blocks_loop files n (iblock + 1) (Some g) ?mm] =>
      destruct (IH g (iblock + 1) mm Ht Hb ltac:(lia) ltac:(lia)) as (e & <- & He) end. apply He.
  - replace (bw =? 1) with false by lia. discriminate.
Qed.
Theorem C50_tall_fails : forall files maps, nbx < nby -> 1 < bw -> assemble_cmmaps files <> AOk maps.
Proof.
  intros files maps Ht Hb. unfold assemble_cmmaps. destruct (Z.to_nat (nbx * nby)) as [|n] eqn:En; [nia|].
  cbn [blocks_loop]. rewrite Z.mod_0_l, Z.div_0_l by lia. destruct (files (0 + 1) (0 + 1)) as [f|]; [|discriminate].
  unfold assign. replace (0 + 1 <=? nbx) with true by lia.
  match goal with |- context [blocks_loop files n (0 + 1) (Some f) ?mm] =>
    destruct (@loop_first files f n (0 + 1) mm Ht Hb ltac:(lia) ltac:(nia)) as (e & <- & He) end. apply He.
Qed.
End Assemble.

(** ** C51: assemble_array (utils.py 301-317) *)
Record arr := mkArr { a_rows : Z; a_cols : Z; a_at : Z -> Z -> Z }.
(** np.hstack of 2-d arrays: column c of the result is found by walking over
    the arrays (all heights must agree; they do here). *)
Fixpoint hpick (l : list arr) (r c : Z) : Z :=
  match l with
  | [] => 0
  | a :: t => if c <? a_cols a then a_at a r c else hpick t r (c - a_cols a)
  end.
Definition hstack (l : list arr) : arr :=
  mkArr (match l with a :: _ => a_rows a | [] => 0 end) (fold_right (fun a s => a_cols a + s) 0 l) (hpick l).
(** np.hsplit into n equal parts (raises when the width is not a multiple). *)
Definition hsplit (n : Z) (a : arr) : option (list arr) :=
  if a_cols a mod n =? 0
  then let w := a_cols a / n in
       Some (map (fun i => mkArr (a_rows a) w (fun r c => a_at a r (Z.of_nat i * w + c))) (seq 0 (Z.to_nat n)))
  else None.
Fixpoint vpick (l : list arr) (r c : Z) : Z :=
  match l with
  | [] => 0
  | a :: t => if r <? a_rows a then a_at a r c else vpick t (r - a_rows a) c
  end.
Definition vstack (l : list arr) : arr :=
  mkArr (fold_right (fun a s => a_rows a + s) 0 l) (match l with a :: _ => a_cols a | [] => 0 end) (vpick l).
Definition assemble_array (l : list arr) (n_block_x : Z) : option arr := option_map vstack (hsplit n_block_x (hstack l)).

Definition uniform (l : list arr) : Prop := Forall (fun a => a_rows a = bh /\ a_cols a = bw) l.

Lemma hpick_uniform : forall l r c d, uniform l -> 0 <= c < Z.of_nat (length l) * bw ->
  hpick l r c = a_at (nth (Z.to_nat (c / bw)) l d) r (c mod bw).
Proof.
  induction l as [|a t IH]; intros r c d U Hc; [cbn [length] in Hc; lia|].
  apply Forall_cons_iff in U as [[_ Ea] U]. cbn [hpick]. rewrite Ea. cbn [length] in Hc.
  destruct (c <? bw) eqn:E.
  - rewrite Z.div_small, Z.mod_small by lia. reflexivity.
  - rewrite (IH r (c - bw) d U) by lia.
    replace (c - bw) with (c + (-1) * bw) by lia. rewrite Z.div_add, Z.mod_add by lia.
    assert (1 <= c / bw) by (apply Z.div_le_lower_bound; lia).
    replace (Z.to_nat (c / bw)) with (S (Z.to_nat (c / bw + -1))) by lia. reflexivity.
Qed.
Lemma cols_uniform : forall l, uniform l -> fold_right (fun a s => a_cols a + s) 0 l = Z.of_nat (length l) * bw.
Proof. induction l as [|a t IH]; intro U; [reflexivity|]. apply Forall_cons_iff in U as [[_ E] U]. cbn [fold_right length]. rewrite IH, E by assumption. lia. Qed.
Lemma vpick_seq : forall h w g n k r c, 0 < h -> 0 <= r < Z.of_nat n * h ->
  vpick (map (fun i => mkArr h w (g i)) (seq k n)) r c = g (k + Z.to_nat (r / h))%nat (r mod h) c.
Proof.
  intros h w g. induction n as [|n IH]; intros k r c Hh Hr; [lia|]. cbn [seq map vpick a_rows a_at].
  destruct (r <? h) eqn:E.
  - rewrite Z.div_small, Z.mod_small by lia. f_equal. lia.
  - rewrite IH by lia. replace (r - h) with (r + (-1) * h) by lia. rewrite Z.div_add, Z.mod_add by lia.
    assert (1 <= r / h) by (apply Z.div_le_lower_bound; lia). f_equal. lia.
Qed.
Lemma rows_seq : forall h w (g : nat -> Z -> Z -> Z) n k, fold_right (fun a s => a_rows a + s) 0 (map (fun i => mkArr h w (g i)) (seq k n)) = Z.of_nat n * h.
Proof. intros h w g. induction n as [|n IH]; intro k; [reflexivity|]. cbn [seq map fold_right a_rows]. rewrite IH. lia. Qed.

(** What assemble_array really computes, for any layout. *)
Theorem C51_assemble_array : forall l d, uniform l -> Z.of_nat (length l) = nbx * nby ->
  exists a, assemble_array l nbx = Some a /\ a_rows a = nbx * bh /\ a_cols a = nby * bw /\
    forall r c, 0 <= r < nbx * bh -> 0 <= c < nby * bw ->
      a_at a r c = a_at (nth (Z.to_nat (r / bh * nby + c / bw)) l d) (r mod bh) (c mod bw).
Proof.
  intros l d U L. unfold assemble_array, hsplit, hstack. cbn [a_cols a_rows a_at]. rewrite cols_uniform, L by assumption.
  replace (nbx * nby * bw) with (nby * bw * nbx) by lia. rewrite Z.mod_mul by lia. rewrite Z.div_mul by lia.
  change (0 =? 0) with true. cbv iota. cbn [option_map]. eexists. split; [reflexivity|].
  destruct l as [|x t] eqn:El; [cbn [length] in L; nia|]. rewrite <- El in *. 
  assert (Ex : a_rows x = bh) by (rewrite El in U; apply Forall_cons_iff in U as [[E _] _]; exact E). rewrite Ex.
  unfold vstack. cbn [a_rows a_cols a_at]. split; [rewrite rows_seq; lia|]. split.
  - destruct (Z.to_nat nbx) as [|m] eqn:Em; [exfalso; lia|]. reflexivity.
  - intros r c Hr Hc. rewrite (@vpick_seq bh (nby * bw) (fun i r c => hpick l r (Z.of_nat i * (nby * bw) + c))) by lia.
    pose proof (Z.div_mod r bh ltac:(lia)). pose proof (Z.mod_pos_bound r bh Hbh).
    assert (0 <= r / bh < nbx) by (split; [apply Z.div_pos; lia|apply Z.div_lt_upper_bound; lia]).
    assert (0 <= c / bw < nby) by (split; [apply Z.div_pos; lia|apply Z.div_lt_upper_bound; lia]).
    cbn [Nat.add]. rewrite Z2Nat.id by lia.
    rewrite (@hpick_uniform l (r mod bh) (r / bh * (nby * bw) + c) d U) by nia.
    replace (r / bh * (nby * bw) + c) with (c + r / bh * nby * bw) by lia.
    rewrite Z.div_add, Z.mod_add by lia. rewrite (Z.add_comm (c / bw)). reflexivity.
Qed.

(** The tile image: block (by, bx) is list entry (by - 1) * nbx + (bx - 1). *)
Definition tile_at (l : list arr) (d : arr) (r c : Z) : Z :=
  a_at (nth (Z.to_nat (r / bh * nbx + c / bw)) l d) (r mod bh) (c mod bw).
Theorem C51_square_partial : forall l d, nbx = nby -> uniform l -> Z.of_nat (length l) = nbx * nby ->
  exists a, assemble_array l nbx = Some a /\ a_rows a = n_rows /\ a_cols a = n_cols /\
    forall r c, 0 <= r < n_rows -> 0 <= c < n_cols -> a_at a r c = tile_at l d r c.
Proof.
  intros l d Esq U L. destruct (@C51_assemble_array l d U L) as (a & E & Er & Ec & Ha). exists a.
  unfold n_rows, n_cols, tile_at. split; [exact E|]. split; [lia|]. split; [lia|].
  intros r c Hr Hc. rewrite Ha by lia. rewrite <- Esq. reflexivity.
Qed.
(** On every non-square grid of square blocks even the shape is wrong. *)
Theorem C51_nonsquare_refuted : forall l, nbx <> nby -> uniform l -> Z.of_nat (length l) = nbx * nby ->
  exists a, assemble_array l nbx = Some a /\ (a_rows a <> n_rows /\ a_cols a <> n_cols).
Proof.
  intros l Hne U L. destruct (@C51_assemble_array l (mkArr 0 0 (fun _ _ => 0)) U L) as (a & E & Er & Ec & _).
  exists a. split; [exact E|]. unfold n_rows, n_cols. rewrite Er, Ec. nia.
Qed.

(** ** C52: the block view of an image and back *)
(** as_strided with strides (n_cols*bh, bw, n_cols, 1) over the row-major image
    (ob_analyst.py 1002-1017; prepare_ard.py 318-437): element (i, j, r, c). *)
Definition flat_of (img : tile) (k : Z) : Z := img (k / n_cols) (k mod n_cols).
Definition strided (img : tile) (i j r c : Z) : Z :=
  flat_of img (i * (n_cols * bh) + j * bw + r * n_cols + c).
(** File _x{j+1}_y{i+1} (ob_analyst.py 1018-1023; prepare_ard.py 453-468), read
    back flattened (ob_analyst.py 1067-1074; tile_processing.py 251-258). *)
Definition saved_block (img : tile) (bx by_ p : Z) : Z := strided img (by_ - 1) (bx - 1) (p / bw) (p mod bw).

Lemma strided_eq : forall img i j r c, 0 <= i < nby -> 0 <= j < nbx -> 0 <= r < bh -> 0 <= c < bw ->
  strided img i j r c = img (i * bh + r) (j * bw + c).
Proof.
  intros img i j r c Hi Hj Hr Hc. unfold strided, flat_of.
  assert (Hn : 0 < n_cols) by (unfold n_cols; nia).
  replace (i * (n_cols * bh) + j * bw + r * n_cols + c) with ((j * bw + c) + (i * bh + r) * n_cols) by lia.
  rewrite Z.div_add, Z.mod_add by lia.
  assert (0 <= j * bw + c < n_cols) by (unfold n_cols; nia).
  rewrite Z.div_small, Z.mod_small by lia. f_equal; lia.
Qed.

(** All index computations stay inside the image, and the value a pixel of a
    block receives is the one of the tile pixel it is labelled with. *)
Theorem C52_break_routing : forall img bx by_ p row col, 1 <= bx <= nbx -> 1 <= by_ <= nby -> 0 <= p < bw * bh ->
  get_rowcol_intile p bw bh bx by_ = (row, col) ->
  saved_block img bx by_ p = img (row - 1) (col - 1) /\
  0 <= (by_ - 1) * (n_cols * bh) + (bx - 1) * bw + p / bw * n_cols + p mod bw < n_rows * n_cols.
Proof.
  intros img bx by_ p row col Hx Hy Hp E. rewrite rowcol_eq in E by lia. injection E as <- <-.
  assert (0 <= p / bw < bh) by (split; [apply Z.div_pos; lia|apply Z.div_lt_upper_bound; lia]).
  pose proof (Z.mod_pos_bound p bw Hbw). split.
  - unfold saved_block. rewrite strided_eq by lia. f_equal; lia.
  - unfold n_rows, n_cols. split; [nia|].
    assert ((by_ - 1) * bh + p / bw <= nby * bh - 1) by nia.
    assert ((bx - 1) * bw + p mod bw <= nbx * bw - 1) by nia.
    assert (((by_ - 1) * bh + p / bw) * (nbx * bw) <= (nby * bh - 1) * (nbx * bw)) by (apply Z.mul_le_mono_nonneg_r; nia).
    nia.
Qed.

(** Observations, break dates and position ids of one reconstruction call
    (ob_analyst.py 1115-1136): [series] is the list of images of the stack,
    [dates] the list of break-date maps. *)
Definition reconstruct_call (series dates : list tile) (bx by_ p : Z) : list Z * list Z * Z :=
  let '(row, col) := get_rowcol_intile p bw bh bx by_ in
  (map (fun img => saved_block img bx by_ p) series, map (fun img => saved_block img bx by_ p) dates, pos_id n_cols row col).
Theorem C52_same_pixel : forall series dates bx by_ p, 1 <= bx <= nbx -> 1 <= by_ <= nby -> 0 <= p < bw * bh ->
  exists row col, 1 <= row <= n_rows /\ 1 <= col <= n_cols /\
    reconstruct_call series dates bx by_ p =
      (map (fun img => img (row - 1) (col - 1)) series, map (fun img => img (row - 1) (col - 1)) dates, pos_id n_cols row col).
Proof.
  intros series dates bx by_ p Hx Hy Hp. unfold reconstruct_call.
  destruct (get_rowcol_intile p bw bh bx by_) as [row col] eqn:E. exists row, col.
  assert (R : row = (by_ - 1) * bh + p / bw + 1 /\ col = (bx - 1) * bw + p mod bw + 1).
  { rewrite rowcol_eq in E by lia. injection E as <- <-. auto. }
  assert (0 <= p / bw < bh) by (split; [apply Z.div_pos; lia|apply Z.div_lt_upper_bound; lia]).
  pose proof (Z.mod_pos_bound p bw Hbw).
  split; [unfold n_rows; nia|]. split; [unfold n_cols; nia|].
  assert (Q : forall img, saved_block img bx by_ p = img (row - 1) (col - 1)) by (intro img; apply C52_break_routing; assumption).
  rewrite (map_ext _ _ Q series), (map_ext _ _ Q dates). reflexivity.
Qed.
(** Conversely each tile pixel is reached by exactly one call (C49_pixel). *)
End Layout.

(** Examples: the default 50 x 50 block grid of a 5000 x 5000 tile. *)
Example C49_example : get_rowcol_intile 205 100 100 3 2 = (103, 206) /\ get_block_x 53 50 = 3 /\ get_block_y 53 50 = 2 /\
  get_id_inblock (pos_id 5000 103 206) 100 100 5000 = 205.
Proof. vm_compute. repeat split. Qed.
(** 3 x 2 blocks of 2 x 2 pixels, one interval: value = 10 * row + col. *)
Definition demo_files (nbx nby bw bh : Z) (bx by_ : Z) : option flat :=
  if (bx <=? nbx) && (by_ <=? nby) then Some (fun p => let '(r, c) := get_rowcol_intile p bw bh bx by_ in 10 * r + c) else None.
Example C50_example_square : match assemble_cmmaps 2 2 2 2 1 (demo_files 2 2 2 2) with
  | AOk m => map (fun c => m 0 1 c) [0; 1; 2; 3] = [21; 22; 23; 24] | _ => False end.
Proof. vm_compute. reflexivity. Qed.
Example C50_example_wide : match assemble_cmmaps 3 2 2 2 1 (demo_files 3 2 2 2) with
  | AOk m => map (fun c => m 0 1 c) [0; 1; 2; 3; 4; 5] = [21; 22; 23; 24; -9999; -9999] | _ => False end.
Proof. vm_compute. reflexivity. Qed.
Example C50_example_tall : assemble_cmmaps 2 3 2 2 1 (demo_files 2 3 2 2) = AValueError.
Proof. vm_compute. reflexivity. Qed.

(** Full statement of C50, refuted. *)
Theorem C50_refuted : exists nbx nby bw bh n_cm val files, 0 < nbx /\ 0 < nby /\ 0 < bw /\ 0 < bh /\ 0 < n_cm /\
  written nbx nby bw bh n_cm val files /\
  exists maps, assemble_cmmaps nbx nby bw bh n_cm files = AOk maps /\
    exists k row col, 0 <= k < n_cm /\ 1 <= row <= nby * bh /\ 1 <= col <= nbx * bw /\ maps k (row - 1) (col - 1) <> val row col k.
Proof.
  exists 3, 2, 2, 2, 1, (fun r c _ => 10 * r + c), (demo_files 3 2 2 2).
  do 5 (split; [lia|]). split.
  - split.
    + intros bx by_ Hx Hy. unfold demo_files. replace ((bx <=? 3) && (by_ <=? 2)) with true by lia. eexists. split; [reflexivity|].
      intros p k Hp Hk. cbv beta. replace (p * 1 + k) with p by lia. destruct (get_rowcol_intile p 2 2 bx by_). reflexivity.
    + intros bx by_ Hx. unfold demo_files. replace (bx <=? 3) with false by lia. reflexivity.
  - eexists. split; [reflexivity|]. exists 0, 1, 5. repeat split; try lia. vm_compute. discriminate.
Qed.

(** A missing block file is silently replaced by the preceding block. *)
Theorem C50_missing_block_refuted : exists files maps, files 2 1 = None /\
  assemble_cmmaps 2 2 1 1 1 files = AOk maps /\ maps 0 0 1 = maps 0 0 0 /\ maps 0 0 1 <> -9999.
Proof.
  exists (fun bx by_ => if (bx =? 2) && (by_ =? 1) then None else Some (fun _ => 10 * by_ + bx)).
  eexists. split; [reflexivity|]. split; [reflexivity|]. split; [reflexivity|]. vm_compute. discriminate.
Qed.

Example C51_example : exists a, assemble_array (map (fun i => mkArr 1 1 (fun _ _ => i)) [1; 2; 3; 4]) 2 = Some a /\
  a_at a 0 0 = 1 /\ a_at a 0 1 = 2 /\ a_at a 1 0 = 3 /\ a_at a 1 1 = 4.
Proof. eexists. split; [reflexivity|]. vm_compute. auto. Qed.
Example C52_example : reconstruct_call 3 2 2 [fun r c => 10 * r + c] [fun r c => 700000 + 10 * r + c] 3 2 1 = ([25], [700025], 18).
Proof. vm_compute. reflexivity. Qed.
