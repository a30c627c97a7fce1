(** Model of the sorting routines of src/cxx/utilities.c and src/cxx/misc.c
    and of the coefficient placement in the LASSO wrapper.

    All quick sorts of the code base are textually the same algorithm over
    different element types, with or without companion arrays that are
    swapped together with the keys.  The model is one generic function over
    rows; [partition_cols]/[quick_sort_cols] is the version with separate
    key and companion arrays, as the C code has it. *)
From Verif Require Import Base.

Section Rows.
Variable A : Type.
(** [arr[i] < pivot] on the keys of two rows. *)
Variable lt : A -> A -> bool.

(** [while (arr[i] < pivot) i++]  (src/cxx/utilities.c 533-536). *)
Fixpoint scan_up (fuel : nat) (l : list A) (p : A) (i : Z) : out Z :=
  match fuel with
  | O => Fuel
  | S f => x <- get l i ;; if lt x p then scan_up f l p (i + 1) else Ok i
  end.

(** [while (arr[j] > pivot) j--]  (src/cxx/utilities.c 537-540). *)
Fixpoint scan_down (fuel : nat) (l : list A) (p : A) (j : Z) : out Z :=
  match fuel with
  | O => Fuel
  | S f => x <- get l j ;; if lt p x then scan_down f l p (j - 1) else Ok j
  end.

(** [tmp = arr[i]; arr[i] = arr[j]; arr[j] = tmp]
    (src/cxx/utilities.c 543-545). *)
Definition swap {B} (l : list B) (i j : Z) : out (list B) :=
  x <- get l i ;; y <- get l j ;; l1 <- put l i y ;; put l1 j x.

(** [while (i <= j) {...} return i]  (src/cxx/utilities.c 531-551). *)
Fixpoint part_loop (fuel : nat) (l : list A) (p : A) (i j : Z) : out (list A * Z) :=
  match fuel with
  | O => Fuel
  | S f =>
      if i <=? j then
        i1 <- scan_up (S (length l)) l p i ;;
        j1 <- scan_down (S (length l)) l p j ;;
        if i1 <=? j1 then
          l1 <- swap l i1 j1 ;; part_loop f l1 p (i1 + 1) (j1 - 1)
        else part_loop f l p i1 j1
      else Ok (l, i)
  end.

(** partition_float (src/cxx/utilities.c 525-552), partition_double
    (571-598), partition_long (618-645), partition_int (src/cxx/misc.c
    464-491), partition_buf, partition_buf_sensor and partition_index
    (src/cxx/utilities.c 345-505).  [partition] (283-333) swaps only for
    [i < j]; swapping a cell with itself is the identity, so it is the same
    function. *)
Definition partition (l : list A) (left right : Z) : out (list A * Z) :=
  p <- get l (Z.quot (left + right) 2) ;;
  part_loop (S (S (length l))) l p left right.

(** quick_sort_float (src/cxx/utilities.c 192-204), quick_sort_double
    (222-234), quick_sort_long (252-264), quick_sort (107-119),
    quick_sort_buf (135-147), quick_sort_buf_sensor (149-161),
    quick_sort_int (src/cxx/misc.c 508-520). *)
Fixpoint quick_sort (fuel : nat) (l : list A) (left right : Z) : out (list A) :=
  match fuel with
  | O => Fuel
  | S f =>
      ' (l0, index) <- partition l left right ;;
      l1 <- (if left <? index - 1 then quick_sort f l0 left (index - 1) else Ok l0) ;;
      if index <? right then quick_sort f l1 index right else Ok l1
  end.

(** quick_sort_index (src/cxx/utilities.c 163-175): the second recursive
    call starts at [ind - 1]. *)
Fixpoint quick_sort_index (fuel : nat) (l : list A) (left right : Z) : out (list A) :=
  match fuel with
  | O => Fuel
  | S f =>
      ' (l0, ind) <- partition l left right ;;
      l1 <- (if left <? ind - 1 then quick_sort_index f l0 left (ind - 1) else Ok l0) ;;
      if ind <? right then quick_sort_index f l1 (ind - 1) right else Ok l1
  end.
End Rows.

(** The variants with companion arrays: a key array and [band_num] further
    arrays, swapped in step. *)
Section Cols.
Variables K B : Type.
Variable lt : K -> K -> bool.

(** [for (b = 0; b < band_num; b++)] swap of every companion
    (src/cxx/misc.c 549-558). *)
Fixpoint swap_all (cols : list (list B)) (i j : Z) : out (list (list B)) :=
  match cols with
  | [] => Ok []
  | c :: cs => c1 <- swap c i j ;; cs1 <- swap_all cs i j ;; Ok (c1 :: cs1)
  end.

(** partition_2d_float (src/cxx/misc.c 537-565), the loop. *)
Fixpoint part_loop_cols (fuel : nat) (a : list K) (cols : list (list B)) (p : K) (i j : Z)
  : out (list K * list (list B) * Z) :=
  match fuel with
  | O => Fuel
  | S f =>
      if i <=? j then
        i1 <- scan_up lt (S (length a)) a p i ;;
        j1 <- scan_down lt (S (length a)) a p j ;;
        if i1 <=? j1 then
          a1 <- swap a i1 j1 ;; c1 <- swap_all cols i1 j1 ;;
          part_loop_cols f a1 c1 p (i1 + 1) (j1 - 1)
        else part_loop_cols f a cols p i1 j1
      else Ok (a, cols, i)
  end.

(** partition_2d_float (src/cxx/misc.c 525-565), partition_2d_double
    (595-630). *)
Definition partition_cols (a : list K) (cols : list (list B)) (left right : Z) :=
  p <- get a (Z.quot (left + right) 2) ;;
  part_loop_cols (S (S (length a))) a cols p left right.

(** quick_sort_2d_float (src/cxx/misc.c 645-657), quick_sort_2d_double
    (673-685). *)
Fixpoint quick_sort_cols (fuel : nat) (a : list K) (cols : list (list B)) (left right : Z)
  : out (list K * list (list B)) :=
  match fuel with
  | O => Fuel
  | S f =>
      ' (a0, c0, index) <- partition_cols a cols left right ;;
      ' (a1, c1) <- (if left <? index - 1 then quick_sort_cols f a0 c0 left (index - 1)
                     else Ok (a0, c0)) ;;
      if index <? right then quick_sort_cols f a1 c1 index right else Ok (a1, c1)
  end.
End Cols.

(** ** Coefficient placement (c_glmnet, src/cxx/misc.c 2647-2740) *)

Section Glmnet.
Variable C : Type.
Variable zero : C.

(** [for (j...) cfs[i][ia[j]] = ca[i][oja[j]]]  (src/cxx/misc.c 2730-2733). *)
Fixpoint scatter (row : list C) (ia oja : list Z) (ca : list C) : out (list C) :=
  match ia, oja with
  | s :: ia', o :: oja' => v <- get ca o ;; row1 <- put row s v ;; scatter row1 ia' oja' ca
  | [], [] => Ok row
  | _, _ => UB
  end.

(** One iteration of the loop over lambda values (src/cxx/misc.c
    2708-2737): returns the row of [cfs] and the array [ia], which the sort
    has rearranged.  [nin0] is [nin[0]]; [ia] is cut to its first [nin0]
    cells, the only ones the loop touches; rows of [(ia, oja)] pairs are
    sorted by the first component. *)
Definition glmnet_row (fuel : nat) (ni : nat) (nin0 : nat) (a0 : C) (ca : list C)
  (ia : list Z) : out (list C * list Z) :=
  match nin0 with
  | O => Ok (a0 :: repeat zero ni, ia)
  | _ =>
      s <- quick_sort_index (fun x y : Z * Z => fst x <? fst y) fuel
             (combine ia (map Z.of_nat (seq 0 nin0))) 0 (Z.of_nat nin0 - 1) ;;
      row <- scatter (a0 :: repeat zero ni) (map fst s) (map snd s) ca ;;
      Ok (row, map fst s)
  end.

(** The whole loop: one entry of [a0s]/[cas] per lambda value. *)
Fixpoint glmnet_rows (fuel : nat) (ni nin0 : nat) (a0s : list C) (cas : list (list C))
  (ia : list Z) : out (list (list C)) :=
  match a0s, cas with
  | a0 :: a0s', ca :: cas' =>
      ' (row, ia1) <- glmnet_row fuel ni nin0 a0 ca ia ;;
      rows <- glmnet_rows fuel ni nin0 a0s' cas' ia1 ;; Ok (row :: rows)
  | _, _ => Ok []
  end.
End Glmnet.
