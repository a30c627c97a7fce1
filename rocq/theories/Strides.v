(** Cutting an image into blocks, at the level of bytes.

    The tools cut each band into blocks with np.lib.stride_tricks.as_strided,
    giving the strides in bytes by hand (prepare_ard.py 314-437, 579-702,
    1050-1173, 1497-1621; ob_analyst.py 995-1017).  as_strided checks neither
    that the strides fit the items of the array nor that the view stays inside
    its buffer.  PyIndex.v (C52) treats the items as the unit; here the buffer
    is a list of bytes, and both the size of an item and the shape of the
    image are free. *)
From Verif Require Import Base.

(** ** NumPy integers in memory *)
(** The [w] little-endian bytes of [v] (two's complement).  NumPy's layout of
    int16, int32 and int64 on the platforms the package is built for. *)
Fixpoint le_bytes (w : nat) (v : Z) : list Z :=
  match w with O => [] | S w' => v mod 256 :: le_bytes w' (v / 256) end.
Fixpoint le_unsigned (bs : list Z) : Z :=
  match bs with [] => 0 | b :: t => b + 256 * le_unsigned t end.
Definition signed (w u : Z) : Z := if u <? 256 ^ w / 2 then u else u - 256 ^ w.
Definition fits (w v : Z) : Prop := - (256 ^ w / 2) <= v < 256 ^ w / 2.

Definition image := Z -> Z -> Z.  (* row, column *)
(** The buffer of a C-contiguous array of [cnt] items, item [k] first, in rows
    of [width] items. *)
Fixpoint buffer_from (w : nat) (img : image) (width : Z) (k : Z) (cnt : nat) : list Z :=
  match cnt with
  | O => []
  | S cnt' => le_bytes w (img (k / width) (k mod width)) ++ buffer_from w img width (k + 1) cnt'
  end.
Definition buffer (w : Z) (img : image) (height width : Z) : list Z :=
  buffer_from (Z.to_nat w) img width 0 (Z.to_nat (height * width)).

(** Reading an item of [w] bytes at a byte offset; outside the buffer the
    access is undefined. *)
Definition item (w : Z) (mem : list Z) (off : Z) : out Z :=
  bs <- slice mem off w ;; Ok (signed w (le_unsigned bs)).

(** ** The block view *)
Section View.
Variable nbx nby bw bh : Z.  (* n_block_x, n_block_y, block_width, block_height *)
Hypothesis Hnbx : 0 < nbx.  Hypothesis Hnby : 0 < nby.  Hypothesis Hbw : 0 < bw.  Hypothesis Hbh : 0 < bh.
Let n_cols := nbx * bw.
Let n_rows := nby * bh.

(** Element [i, j, r, c] of the view with shape (n_block_y, n_block_x,
    block_height, block_width) and the four strides of the code
    (prepare_ard.py 318-332 and its copies; ob_analyst.py 1002-1017).  The
    strides use n_cols of the configuration and the literal [bytesize], not
    the array they are applied to. *)
Definition view (bytesize w : Z) (mem : list Z) (i j r c : Z) : out Z :=
  item w mem (i * (n_cols * bh * bytesize) + j * (bw * bytesize) + r * (n_cols * bytesize) + c * bytesize).

(** The bands of a stacked image, as the array each call to as_strided gets:
    [S16]: an int16 array read from file, scaled with astype(np.int16)
    (prepare_ard.py 1007-1013, 1489-1495) or unpacked with astype(np.short)
    (230, 516, 830, 832, 1282); [S32]: astype(np.int32) (ob_analyst.py 1003);
    [Zeros]: np.full(B6.shape, 0), the stand-in for the thermal band of HLS
    (prepare_ard.py 270, 295, 547, 561), whose items are the default integer
    of NumPy, eight bytes. *)
Inductive band := S16 (img : image) | S32 (img : image) | Zeros.
Definition band_size (b : band) : Z := match b with S16 _ => 2 | S32 _ => 4 | Zeros => 8 end.
Definition band_image (b : band) : image := match b with S16 i | S32 i => i | Zeros => fun _ _ => 0 end.
Definition band_view (bytesize : Z) (height width : Z) (b : band) (i j r c : Z) : out Z :=
  view bytesize (band_size b) (buffer (band_size b) (band_image b) height width) i j r c.

(** np.dstack of the eight views at block [i, j], pixel [r, c], stored as
    int16 (prepare_ard.py 453-468, 718-733, 1189-1204, 1637-1652). *)
Fixpoint pixel (bytesize height width : Z) (bands : list band) (i j r c : Z) : out (list Z) :=
  match bands with
  | [] => Ok []
  | b :: t => v <- band_view bytesize height width b i j r c ;;
              vs <- pixel bytesize height width t i j r c ;; Ok (wrap16 v :: vs)
  end.
End View.

(** ** Bytes and values *)
Lemma pow256_pos : forall w, 0 <= w -> 0 < 256 ^ w.
Proof. intros. apply Z.pow_pos_nonneg; lia. Qed.

Lemma le_bytes_length : forall w v, length (le_bytes w v) = w.
Proof. induction w; intro v; cbn; [reflexivity|]. now rewrite IHw. Qed.

Lemma le_unsigned_bytes : forall w v, le_unsigned (le_bytes w v) = v mod 256 ^ Z.of_nat w.
Proof.
  induction w as [|w IH]; intro v; cbn [le_bytes le_unsigned].
  - now rewrite Z.mod_1_r.
  - rewrite IH. replace (Z.of_nat (S w)) with (Z.succ (Z.of_nat w)) by lia.
    rewrite Z.pow_succ_r by lia. rewrite Z.rem_mul_r by (try lia; pose proof (@pow256_pos (Z.of_nat w)); lia). reflexivity.
Qed.

Lemma even_pow : forall w, 0 < w -> 256 ^ w = 2 * (256 ^ w / 2).
Proof.
  intros w H. replace w with (Z.succ (w - 1)) by lia. rewrite Z.pow_succ_r by lia.
  replace (256 * 256 ^ (w - 1)) with ((128 * 256 ^ (w - 1)) * 2) by ring. rewrite Z.div_mul by lia. ring.
Qed.

Lemma signed_mod : forall w v, 0 < w -> fits w v -> signed w (v mod 256 ^ w) = v.
Proof.
  intros w v Hw [H1 H2]. unfold signed. pose proof (@even_pow w Hw) as E. pose proof (@pow256_pos w).
  set (h := 256 ^ w / 2) in *. set (p := 256 ^ w) in *.
  destruct (Z_lt_ge_dec v 0).
  - assert (Em : v mod p = v + p) by (symmetry; apply Z.mod_unique with (-1); lia).
    rewrite Em. destruct (Z.ltb_spec (v + p) h); lia.
  - rewrite Z.mod_small by lia. destruct (Z.ltb_spec v h); lia.
Qed.

Lemma buffer_from_length : forall w img width cnt k, length (buffer_from w img width k cnt) = (w * cnt)%nat.
Proof.
  intros w img width. induction cnt as [|n IH]; intro k; cbn [buffer_from]; [cbn; lia|].
  rewrite app_length, le_bytes_length, IH. lia.
Qed.

Lemma buffer_len : forall w img height width, 0 <= w -> 0 <= height * width ->
  zlen (buffer w img height width) = w * (height * width).
Proof. intros. unfold zlen, buffer. rewrite buffer_from_length. nia. Qed.

Lemma buffer_from_item : forall w img width cnt k n, (n < cnt)%nat ->
  firstn w (skipn (n * w) (buffer_from w img width k cnt)) =
  le_bytes w (img ((k + Z.of_nat n) / width) ((k + Z.of_nat n) mod width)).
Proof.
  intros w img width. induction cnt as [|m IH]; intros k n H; [lia|]. cbn [buffer_from]. destruct n as [|n].
  - cbn [Nat.mul skipn]. rewrite firstn_app, le_bytes_length, Nat.sub_diag. cbn [firstn]. rewrite app_nil_r.
    rewrite <- (le_bytes_length w (img (k / width) (k mod width))) at 1. rewrite firstn_all.
    now replace (k + Z.of_nat 0) with k by lia.
  - rewrite skipn_app, le_bytes_length, skipn_all2 by (rewrite le_bytes_length; cbn; lia). cbn [app].
    replace (S n * w - w)%nat with (n * w)%nat by (cbn; lia). rewrite IH by lia.
    now replace (k + 1 + Z.of_nat n) with (k + Z.of_nat (S n)) by lia.
Qed.

(** Item [k] of the buffer is pixel (k / width, k mod width). *)
Lemma item_at : forall w img height width k, 0 < w -> 0 <= k < height * width ->
  fits w (img (k / width) (k mod width)) ->
  item w (buffer w img height width) (k * w) = Ok (img (k / width) (k mod width)).
Proof.
  intros w img height width k Hw Hk F. unfold item. rewrite slice_ok; [|nia|lia|].
  - cbn [bind]. unfold buffer. replace (Z.to_nat (k * w)) with (Z.to_nat k * Z.to_nat w)%nat by nia.
    rewrite buffer_from_item by lia. rewrite le_unsigned_bytes. rewrite (Z2Nat.id w) by lia.
    replace (0 + Z.of_nat (Z.to_nat k)) with k by lia. now rewrite signed_mod.
  - rewrite buffer_len by nia. nia.
Qed.

Lemma item_outside : forall w img height width off, 0 < w -> 0 <= height * width ->
  w * (height * width) < off + w -> item w (buffer w img height width) off = UB.
Proof.
  intros w img height width off Hw Hs H. unfold item. destruct (slice _ off w) eqn:E; try reflexivity; exfalso.
  - apply slice_inv in E. destruct E as (_ & _ & E & _). rewrite buffer_len in E by lia. lia.
  - unfold slice in E. destruct (_ && _); discriminate.
  - unfold slice in E. destruct (_ && _); discriminate.
Qed.

(** ** The theorems *)
Section Props.
Variable nbx nby bw bh : Z.
Hypothesis Hnbx : 0 < nbx.  Hypothesis Hnby : 0 < nby.  Hypothesis Hbw : 0 < bw.  Hypothesis Hbh : 0 < bh.
Let n_cols := nbx * bw.
Let n_rows := nby * bh.

Definition in_view (i j r c : Z) : Prop := 0 <= i < nby /\ 0 <= j < nbx /\ 0 <= r < bh /\ 0 <= c < bw.

(** Row-major number of the tile pixel the element [i, j, r, c] stands for. *)
Lemma number_range : forall i j r c, in_view i j r c -> 0 <= (i * bh + r) * n_cols + (j * bw + c) < n_rows * n_cols.
Proof.
  intros i j r c (Hi & Hj & Hr & Hc). unfold n_rows, n_cols in *.
  assert (A : 0 <= i * bh + r < nby * bh) by nia. assert (B : 0 <= j * bw + c < nbx * bw) by nia.
  revert A B. generalize (i * bh + r) (j * bw + c) (nby * bh) (nbx * bw). intros; nia.
Qed.

(** What the view reads when the strides fit the items but the image may have
    any shape: the item with that number, or memory outside the image. *)
Theorem C110_any_shape : forall w img height width i j r c, 0 < w -> 0 <= height -> 0 < width -> in_view i j r c ->
  (forall y x, 0 <= y < height -> 0 <= x < width -> fits w (img y x)) ->
  let k := (i * bh + r) * n_cols + (j * bw + c) in
  view nbx bw bh w w (buffer w img height width) i j r c =
  if k <? height * width then Ok (img (k / width) (k mod width)) else UB.
Proof.
  intros w img height width i j r c Hw Hh Hwd Hv F k. pose proof (@number_range i j r c Hv) as Hk. fold k in Hk.
  unfold view. fold n_cols. replace (_ + c * w) with (k * w) by (unfold k; ring).
  destruct (Z.ltb_spec k (height * width)).
  - apply item_at; [lia|lia|]. apply F.
    + split; [apply Z.div_pos; lia|apply Z.div_lt_upper_bound; lia].
    + apply Z.mod_pos_bound; lia.
  - apply item_outside; [lia|nia|nia].
Qed.

(** An image of the configured size: every element of the view is the pixel of
    the tile it stands for. *)
Theorem C110_same_shape : forall w img i j r c, 0 < w -> in_view i j r c ->
  (forall y x, 0 <= y < n_rows -> 0 <= x < n_cols -> fits w (img y x)) ->
  view nbx bw bh w w (buffer w img n_rows n_cols) i j r c = Ok (img (i * bh + r) (j * bw + c)).
Proof.
  intros w img i j r c Hw Hv F. assert (Hn : 0 < n_cols) by (unfold n_cols; nia).
  rewrite C110_any_shape by (try assumption; unfold n_rows; nia). pose proof (@number_range i j r c Hv) as Hk.
  destruct (Z.ltb_spec ((i * bh + r) * n_cols + (j * bw + c)) (n_rows * n_cols)); [|lia].
  destruct Hv as (Hi & Hj & Hr & Hc). assert (B : 0 <= j * bw + c < n_cols) by (unfold n_cols; nia).
  rewrite (Z.add_comm ((i * bh + r) * n_cols)), Z.div_add, Z.mod_add by lia.
  rewrite Z.div_small, Z.mod_small by lia. now rewrite Z.add_0_l.
Qed.

(** The whole view is inside the buffer exactly when the image has as many
    pixels as the tile. *)
Theorem C110_inside : forall w img height width, 0 < w -> 0 <= height -> 0 < width ->
  (forall y x, 0 <= y < height -> 0 <= x < width -> fits w (img y x)) ->
  ((forall i j r c, in_view i j r c -> exists v, view nbx bw bh w w (buffer w img height width) i j r c = Ok v) <->
   n_rows * n_cols <= height * width).
Proof.
  intros w img height width Hw Hh Hwd F. split.
  - intro H. assert (Hv : in_view (nby - 1) (nbx - 1) (bh - 1) (bw - 1)) by (unfold in_view; lia).
    destruct (H _ _ _ _ Hv) as [v E]. rewrite C110_any_shape in E by assumption.
    destruct (Z.ltb_spec (((nby - 1) * bh + (bh - 1)) * n_cols + ((nbx - 1) * bw + (bw - 1))) (height * width)) as [L|]; [|discriminate E].
    replace ((nby - 1) * bh + (bh - 1)) with (n_rows - 1) in L by (unfold n_rows; ring).
    replace ((nbx - 1) * bw + (bw - 1)) with (n_cols - 1) in L by (unfold n_cols; ring). lia.
  - intros H i j r c Hv. rewrite C110_any_shape by assumption. pose proof (@number_range i j r c Hv).
    destruct (Z.ltb_spec ((i * bh + r) * n_cols + (j * bw + c)) (height * width)); [eauto|lia].
Qed.

(** With more than one row of pixels, no other width will do: some image of
    that width is cut wrongly at the first pixel of its second row. *)
Theorem C110_width_refuted : forall w height width, 0 < w -> 2 <= n_rows -> n_rows <= height -> 0 < width ->
  width <> n_cols -> exists img i j r c, in_view i j r c /\ i * bh + r = 1 /\ j * bw + c = 0 /\
  (forall y x, fits w (img y x)) /\
  view nbx bw bh w w (buffer w img height width) i j r c <> Ok (img 1 0).
Proof.
  intros w height width Hw Hr Hh Hwd Hne.
  exists (fun y x => if (y =? 1) && (x =? 0) then 1 else 0), (1 / bh), 0, (1 mod bh), 0.
  assert (Hn : 0 < n_cols) by (unfold n_cols; nia).
  assert (E1 : 1 / bh * bh + 1 mod bh = 1) by (rewrite (Z.mul_comm (1 / bh)); symmetry; apply Z.div_mod; lia).
  pose proof (Z.mod_pos_bound 1 bh Hbh). assert (0 <= 1 / bh) by (apply Z.div_pos; lia).
  assert (Hv : in_view (1 / bh) 0 (1 mod bh) 0) by (unfold in_view; unfold n_rows in Hr; nia).
  assert (F : forall y x, fits w (if (y =? 1) && (x =? 0) then 1 else 0)).
  { intros. unfold fits. pose proof (@even_pow w Hw). pose proof (@pow256_pos (w - 1)).
    assert (256 ^ w = 256 * 256 ^ (w - 1)) by (rewrite <- Z.pow_succ_r by lia; f_equal; lia).
    destruct ((y =? 1) && (x =? 0)); lia. }
  split; [exact Hv|]. split; [exact E1|]. split; [lia|]. split; [exact F|].
  rewrite C110_any_shape by (auto; lia). rewrite E1.
  replace (1 * n_cols + (0 * bw + 0)) with n_cols by ring.
  destruct (n_cols <? height * width); [|discriminate]. cbn [Z.eqb andb].
  intro E. injection E as E. destruct (Z.eqb_spec (n_cols / width) 1) as [D|D]; cbn [andb] in E; [|discriminate].
  destruct (Z.eqb_spec (n_cols mod width) 0) as [M|M]; [|discriminate].
  pose proof (Z.div_mod n_cols width). nia.
Qed.

(** An array of zeros whose items are larger than the strides say: every item
    of the view overlaps several items of the array, but stays inside and
    reads zero. *)
Lemma le_zero : forall w, le_bytes w 0 = repeat 0 w.
Proof. induction w as [|w IH]; [reflexivity|]. cbn [le_bytes repeat]. now rewrite <- IH. Qed.

Lemma zeros_buffer : forall w width cnt k, buffer_from w (fun _ _ => 0) width k cnt = repeat 0 (w * cnt).
Proof.
  intros w width. induction cnt as [|n IH]; intro k; cbn [buffer_from].
  - now rewrite Nat.mul_0_r.
  - rewrite IH, le_zero, <- repeat_app. f_equal; lia.
Qed.

Lemma skipn_zero : forall n m, skipn n (repeat 0 m) = repeat 0 (m - n).
Proof. induction n as [|n IH]; intros [|m]; try reflexivity. cbn [repeat skipn Nat.sub]. apply IH. Qed.
Lemma firstn_zero : forall n m, firstn n (repeat 0 m) = repeat 0 (Nat.min n m).
Proof. induction n as [|n IH]; intros [|m]; try reflexivity. cbn [repeat firstn Nat.min]. now rewrite IH. Qed.
Lemma unsigned_zero : forall n, le_unsigned (repeat 0 n) = 0.
Proof. induction n as [|n IH]; [reflexivity|]. cbn [repeat le_unsigned]. now rewrite IH. Qed.

Theorem C110_zeros : forall bytesize w i j r c, 0 < bytesize <= w -> in_view i j r c ->
  view nbx bw bh bytesize w (buffer w (fun _ _ => 0) n_rows n_cols) i j r c = Ok 0.
Proof.
  intros b w i j r c Hb Hv. pose proof (@number_range i j r c Hv) as Hk. unfold view. fold n_cols.
  set (k := (i * bh + r) * n_cols + (j * bw + c)) in *. replace (_ + c * b) with (k * b) by (unfold k; ring).
  unfold item. rewrite slice_ok; [|nia|lia|].
  - cbn [bind]. unfold buffer. rewrite zeros_buffer, skipn_zero, firstn_zero, unsigned_zero.
    f_equal. unfold signed. assert (P : 0 < 256 ^ w / 2).
    { pose proof (@even_pow w). pose proof (@pow256_pos w). lia. }
    destruct (Z.ltb_spec 0 (256 ^ w / 2)); lia.
  - rewrite buffer_len by nia. nia.
Qed.

(** The stored pixel of a stacked image: the eight bands at that pixel of the
    tile.  Covers Landsat (eight 16-bit arrays) and HLS (a zero array of
    64-bit items in the place of the thermal band). *)
Theorem C110_stacked : forall bands i j r c, in_view i j r c ->
  (forall b, In b bands -> match b with
     | S16 img => forall y x, 0 <= y < n_rows -> 0 <= x < n_cols -> - 32768 <= img y x < 32768
     | S32 _ => False
     | Zeros => True end) ->
  pixel nbx bw bh 2 n_rows n_cols bands i j r c = Ok (map (fun b => band_image b (i * bh + r) (j * bw + c)) bands).
Proof.
  intros bands i j r c Hv. induction bands as [|b t IH]; intro H; [reflexivity|]. cbn [pixel map].
  assert (E : band_view nbx bw bh 2 n_rows n_cols b i j r c = Ok (band_image b (i * bh + r) (j * bw + c)) /\
              - 32768 <= band_image b (i * bh + r) (j * bw + c) < 32768).
  { pose proof (H b (or_introl eq_refl)) as Hb. unfold band_view. destruct b as [img|img|]; cbn [band_size band_image].
    - split; [apply C110_same_shape; [lia|exact Hv|exact Hb]|]. destruct Hv as (? & ? & ? & ?).
      apply Hb; unfold n_rows, n_cols; nia.
    - contradiction.
    - split; [|lia]. apply C110_zeros; [lia|exact Hv]. }
  destruct E as [-> R]. cbn [bind]. rewrite IH by (intros b' Hb'; apply H; now right). cbn [bind].
  f_equal. f_equal. unfold wrap16. rewrite Z.mod_small; lia.
Qed.

(** The break maps of OBCOLD: 32-bit items, strides for four bytes. *)
Theorem C110_breaks : forall img i j r c, in_view i j r c ->
  (forall y x, 0 <= y < n_rows -> 0 <= x < n_cols -> - 2147483648 <= img y x < 2147483648) ->
  band_view nbx bw bh 4 n_rows n_cols (S32 img) i j r c = Ok (img (i * bh + r) (j * bw + c)).
Proof. intros img i j r c Hv H. unfold band_view. cbn [band_size band_image]. apply C110_same_shape; [lia|exact Hv|exact H]. Qed.
End Props.

(** Two blocks side by side, 2 x 2 pixels each; the sixteen-bit image holds
    10 * row + column, minus 5000. *)
Definition ex_img : image := fun y x => 10 * y + x - 5000.
Example C110_case :
  pixel 2 2 2 2 2 4 [S16 ex_img; Zeros] 0 1 1 1 = Ok [-4987; 0] /\
  band_view 2 2 2 4 2 4 (S32 ex_img) 0 1 1 0 = Ok (-4988) /\ in_view 2 1 2 2 0 1 1 1 /\
  (* an image one column too narrow: a shifted pixel, and memory past its end *)
  pixel 2 2 2 2 2 3 [S16 ex_img] 0 0 1 0 = Ok [-4989] /\ pixel 2 2 2 2 2 3 [S16 ex_img] 0 1 1 1 = UB.
Proof. unfold in_view. repeat split; try lia; vm_compute; reflexivity. Qed.

(** The literal 2 fits the zero array only because it holds nothing but
    zeros: with any other content the blocks would be wrong. *)
Theorem C110_itemsize_refuted : exists img i j r c, in_view 2 1 2 2 i j r c /\
  (forall y x, 0 <= y < 2 -> 0 <= x < 4 -> fits 8 (img y x)) /\
  view 2 2 2 2 8 (buffer 8 img 2 4) i j r c <> Ok (img (i * 2 + r) (j * 2 + c)).
Proof.
  exists (fun _ _ => 1), 0, 0, 0, 1. split; [unfold in_view; lia|]. split; [intros; vm_compute; split; congruence|].
  vm_compute. discriminate.
Qed.

Print Assumptions C110_any_shape.
Print Assumptions C110_same_shape.
Print Assumptions C110_inside.
Print Assumptions C110_width_refuted.
Print Assumptions C110_zeros.
Print Assumptions C110_stacked.
Print Assumptions C110_breaks.
Print Assumptions C110_itemsize_refuted.
