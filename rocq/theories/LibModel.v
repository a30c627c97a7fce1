(** Model of array helpers: medians, nearest date, duplicate removal,
    variogram, two-dimensional allocation. *)
From Verif Require Import Base SortModel.

(** Values are integers here (reflectances, dates); a median is returned
    doubled so that the average of two middle values stays an integer. *)

(** matlab_2d_float_median (src/cxx/misc.c 839-857) on one row of the array;
    matlab_2d_double_median (876-894) is the same. *)
Definition median_row (row : list Z) (len : Z) : out Z :=
  let m := Z.quot len 2 in
  if Z.rem len 2 =? 0
  then a <- get row (m - 1) ;; b <- get row m ;; Ok (a + b)
  else b <- get row m ;; Ok (2 * b).

(** matlab_float_2d_partial_median (src/cxx/misc.c 992-1011). *)
Definition median_partial (row : list Z) (start endd : Z) : out Z :=
  let m := Z.quot (endd + start + 1) 2 in
  if Z.rem (endd - start + 1) 2 =? 0
  then a <- get row (m - 1) ;; b <- get row m ;; Ok (a + b)
  else b <- get row m ;; Ok (2 * b).

(** find_index_clrx (src/cxx/utilities.c 1108-1136), the loop from index [i];
    [best] is [minabsdiff_i_record], [None] while it is uninitialised. *)
Fixpoint find_loop (fuel : nat) (clrx : list Z) (endd d i mind : Z) (best : option Z) : out Z :=
  match fuel with
  | O => Fuel
  | S f =>
      if i <? endd then
        x <- get clrx i ;;
        if x =? d then Ok i
        else if Z.abs (x - d) <? mind
             then find_loop f clrx endd d (i + 1) (Z.abs (x - d)) (Some i)
             else find_loop f clrx endd d (i + 1) mind best
      else match best with Some b => Ok b | None => UB end
  end.
Definition find_index_clrx (clrx : list Z) (endd d : Z) : out Z :=
  find_loop (S (Z.to_nat endd)) clrx endd d 0 9999999 None.

(** matlab_unique (src/cxx/misc.c 1183-1207): [clrx] and the band arrays are
    compacted in place. *)
Section Unique.
Variable B : Type.

(** [for (b...) clry[b][k_new] = clry[b][k]]  (src/cxx/misc.c 1201-1202). *)
Fixpoint copy_bands (cols : list (list B)) (k_new k : Z) : out (list (list B)) :=
  match cols with
  | [] => Ok []
  | c :: cs => v <- get c k ;; c1 <- put c k_new v ;; cs1 <- copy_bands cs k_new k ;; Ok (c1 :: cs1)
  end.

Fixpoint unique_loop (n : nat) (k k_new : Z) (clrx : list Z) (cols : list (list B))
  : out (list Z * list (list B) * Z) :=
  match n with
  | O => Ok (clrx, cols, k_new)
  | S n' =>
      x <- get clrx k ;; y <- get clrx (k - 1) ;;
      if x =? y then unique_loop n' (k + 1) k_new clrx cols
      else clrx1 <- put clrx k_new x ;; cols1 <- copy_bands cols k_new k ;;
           unique_loop n' (k + 1) (k_new + 1) clrx1 cols1
  end.

Definition matlab_unique (clrx : list Z) (cols : list (list B)) (nums : nat) :=
  unique_loop (nums - 1) 1 1 clrx cols.
End Unique.

(** The differences collected into [var] (src/cxx/misc.c 131-135, 153-158):
    [abs] on the difference of successive entries of [row], from [start] on,
    [n] of them. *)
Fixpoint abs_diffs (row : list Z) (start : Z) (n : nat) : out (list Z) :=
  match n with
  | O => Ok []
  | S m => a <- get row start ;; b <- get row (start + 1) ;;
           r <- abs_diffs row (start + 1) m ;; Ok (Z.abs (b - a) :: r)
  end.

(** Sort [var] and take its median (src/cxx/misc.c 139-144, 159-175). *)
Definition sorted_median (var : list Z) : out (list Z * Z) :=
  v <- quick_sort Z.ltb (length var) var 0 (zlen var - 1) ;;
  m <- median_row v (zlen v) ;; Ok (v, m).

(** The loop over bands for option 1 (src/cxx/misc.c 148-178): [output] are
    the contents of [output_array] (doubled values). *)
Fixpoint vario_bands (bands : list (list Z)) (start : Z) (n : nat) (b : Z) (output : list Z) : out (list Z) :=
  match bands with
  | [] => Ok output
  | row :: rest =>
      var <- abs_diffs row start n ;;
      ' (_, m) <- sorted_median var ;;
      o1 <- put output b m ;;
      vario_bands rest start n (b + 1) o1
  end.

(** adjust_median_variogram with [option = 1] (src/cxx/misc.c 72-178; the only
    option any caller passes is 1: cold.c 502, 2881, 5571, s_ccd.c 234).
    [date_vario] and [output] come back doubled; [max_diff] is
    [max_neighdate_diff].  The values passed in are what the caller's
    variables hold on entry.  With 0 or 1 observations the [return] inside the
    loop leaves after the first band.  [abs] on a float difference
    truncates; on integer-valued bands it is the absolute difference. *)
Definition variogram (clrx : list Z) (bands : list (list Z)) (start endd : Z)
  (date_vario max_diff : Z) (output : list Z) : out (Z * Z * list Z) :=
  let len := endd - start + 1 in
  if (len =? 0) && negb (zlen bands =? 0) then
    o <- put output 0 0 ;; Ok (0, max_diff, o)
  else if (len =? 1) && negb (zlen bands =? 0) then
    row <- get bands 0 ;; v <- get row start ;; o <- put output 0 (2 * v) ;;
    d <- get clrx start ;; Ok (2 * d, max_diff, o)
  else
    var <- abs_diffs clrx start (Z.to_nat (len - 1)) ;;
    ' (v, dv) <- sorted_median var ;;
    mx <- get v (len - 2) ;;
    o <- vario_bands bands start (Z.to_nat (len - 1)) 0 output ;;
    Ok (dv, mx, o).

(** ** allocate_2d_array (src/cxx/2d_array.c 69-124) *)

(** 32-bit and 64-bit wrap-around of the size computations: [int] products
    are converted to [size_t] as soon as a [size_t] operand appears. *)
Definition wrap64 (z : Z) : Z := z mod 18446744073709551616.

(** Offset of [memory_block] in LSRD_2D_ARRAY, and the size of that
    structure: signature, rows, columns, member_size (4 bytes each), data_ptr
    and row_array_ptr (8 each), [double memory_block[0]]
    (src/cxx/2d_array.c 11-30). *)
Definition header_size : Z := 32.

(** Byte size requested (src/cxx/2d_array.c 86-87).  [rows * columns] is an
    [int] product; the model requires it not to overflow (UB otherwise). *)
Definition alloc_size (rows columns member : Z) : out Z :=
  if (rows * columns <=? 2147483647) && (-2147483648 <=? rows * columns)
  then Ok (wrap64 (header_size + wrap64 (rows * 8) + wrap64 (rows * columns * member) + 16))
  else UB.

(** Byte offset of [data_ptr] from the start of the block: 
    [data_start_index] counts elements of [memory_block]
    (src/cxx/2d_array.c 110-114).  [elem] is sizeof(memory_block[0]). *)
Definition data_offset (elem rows : Z) : Z :=
  header_size + elem * (rows * 8 / elem + (if rows mod 2 =? 1 then 1 else 0)).

(** Byte offset of row [r] (src/cxx/2d_array.c 117-121). *)
Definition row_offset (elem rows columns member r : Z) : Z :=
  data_offset elem rows + r * columns * member.
