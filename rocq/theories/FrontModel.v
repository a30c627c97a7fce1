(** Model of the entry points of COLD: [cold] (src/cxx/cold.c 84-213),
    [preprocessing] (src/cxx/utilities.c 1157-1238), the selection loop of
    [stand_procedure] (cold.c 2743-2780), [inefficientobs_procedure]
    (cold.c 4846-5351) and the wrapper [_cold_detect]
    (src/python/pycold/_colds_cython.pyx 134-219).

    Simplifications: the eight input arrays are one list of rows (they are
    always indexed together, and cold_detect checks that they have equal
    lengths, colds.py 74); dates fit a C [int]; band values
    are integers small enough to be exact floats. *)
From Verif Require Import Base SortModel LibModel ColdModel.

(** One input row: date, six optical bands, thermal, QA. *)
Record raw := mkRaw {
  q_date : Z; q_b : Z; q_g : Z; q_r : Z; q_n : Z; q_s1 : Z; q_s2 : Z; q_t : Z; q_qa : Z }.

(** Date check (cold.c 129-133). *)
Fixpoint dates_sorted (l : list raw) : bool :=
  match l with
  | a :: ((b :: _) as t) => if q_date a >? q_date b then false else dates_sorted t
  | _ => true
  end.

(** Thermal value used for the range check (utilities.c 1180-1190). *)
Definition thermal_check (c2 : bool) (t : Z) : Z :=
  if negb (t =? 0) then (if c2 then 0 else t * 10 - 27320) else 0.

(** id_range (utilities.c 1193-1208); FILL_VALUE is 255. *)
Definition id_range (c2 : bool) (q : raw) : bool :=
  let tt := thermal_check c2 (q_t q) in
  (q_b q >? -200) && (q_b q <? 10000) && (q_g q >? 0) && (q_g q <? 10000) &&
  (q_r q >? 0) && (q_r q <? 10000) && (q_n q >? 0) && (q_n q <? 10000) &&
  (q_s1 q >? 0) && (q_s1 q <? 10000) && (q_s2 q >? 0) && (q_s2 q <? 10000) &&
  (tt >? -9320) && (tt <? 7070) && (q_qa q <? 255).

Record counts := mkCounts { n_clear : Z; n_water : Z; n_shadow : Z; n_snow : Z; n_cloud : Z }.

(** The switch over the QA code (utilities.c 1211-1235). *)
Definition tally (c : counts) (qa : Z) : out counts :=
  match qa with
  | 0 => Ok (mkCounts (n_clear c + 1) (n_water c) (n_shadow c) (n_snow c) (n_cloud c))
  | 1 => Ok (mkCounts (n_clear c + 1) (n_water c + 1) (n_shadow c) (n_snow c) (n_cloud c))
  | 2 => Ok (mkCounts (n_clear c) (n_water c) (n_shadow c + 1) (n_snow c) (n_cloud c))
  | 3 => Ok (mkCounts (n_clear c) (n_water c) (n_shadow c) (n_snow c + 1) (n_cloud c))
  | 4 => Ok (mkCounts (n_clear c) (n_water c) (n_shadow c) (n_snow c) (n_cloud c + 1))
  | 255 => Ok c
  | _ => Fail
  end.

(** preprocessing (utilities.c 1157-1238): the rows with their range flag. *)
Fixpoint preprocess (c2 : bool) (l : list raw) (c : counts) : out (list (raw * bool) * counts) :=
  match l with
  | [] => Ok ([], c)
  | q :: t => c1 <- tally c (q_qa q) ;; ' (r, c2') <- preprocess c2 t c1 ;;
              Ok ((q, id_range c2 q) :: r, c2')
  end.

(** The values stored for a selected row (cold.c 2755-2773). *)
Definition obs_of (c2 : bool) (q : raw) : obs :=
  mkObs (q_date q) [q_b q; q_g q; q_r q; q_n q; q_s1 q; q_s2 q;
                    if c2 && (q_t q =? 0) then 0 else q_t q * 10 - 27320].

(** Selection (cold.c 2743-2780); [last] is clrx[n_clr-1]. *)
Fixpoint select (c2 : bool) (l : list (raw * bool)) (last : option Z) : list obs :=
  match l with
  | [] => []
  | (q, idr) :: t =>
      if (q_qa q <? 2) && idr then
        match last with
        | Some d => if q_date q =? d then select c2 t last
                    else obs_of c2 q :: select c2 t (Some (q_date q))
        | None => obs_of c2 q :: select c2 t (Some (q_date q))
        end
      else select c2 t last
  end.

(** ** Sparse procedure *)

Section Sparse.
(** Coefficients of one band; auto_ts_fit_float (misc.c 2241) on the dates
    and values handed to it, [None] for an error status; the fixed model
    (10000, 0, ...) for saturated bands (cold.c 5031-5035). *)
Variable C : Type.
Variable fit : list (Z * Z) -> option C.
Variable saturated : C.

(** One record of category 44 or 54 (Output_t, src/cxx/output.h 14-49);
    [sp_in] is a ghost field: the pairs of dates and values each band's
    coefficients were computed from ([None]: fixed model). *)
Record srec := mkSrec {
  sp_start : Z; sp_end : Z; sp_nobs : Z; sp_cat : Z;
  sp_bands : list C; sp_in : list (option (list (Z * Z))) }.

(** auto_ts_fit_float on cells 0 .. n-1 of [clrx] and a band. *)
Definition fit_cells (clrx col : list Z) (n : Z) : out (C * option (list (Z * Z))) :=
  xs <- slice clrx 0 n ;; ys <- slice col 0 n ;;
  c <- of_opt (fit (combine xs ys)) ;; Ok (c, Some (combine xs ys)).

(** The rows taken by the snow branch (cold.c 4921-4951). *)
Definition snow_rows (l : list raw) : list raw :=
  filter (fun q => (q_qa q =? 3) || (q_qa q <? 2)) l.

(** In-place compaction of [clrx] and one band (cold.c 5019-5028,
    5049-5059): [n] cells left to look at. *)
Fixpoint compact (lo hi : Z) (n : nat) (i span : Z) (clrx col : list Z) : out (list Z * list Z * Z) :=
  match n with
  | O => Ok (clrx, col, span)
  | S m =>
      v <- get col i ;;
      if (v >? lo) && (v <? hi) then
        x <- get clrx i ;; clrx1 <- put clrx span x ;; col1 <- put col span v ;;
        compact lo hi m (i + 1) (span + 1) clrx1 col1
      else compact lo hi m (i + 1) span clrx col
  end.

(** The loop over the bands of the snow branch (cold.c 5013-5073); [clrx]
    stays compacted from band to band. *)
Fixpoint snow_bands (endd : nat) (clrx : list Z) (cols : list (list Z))
  : out (list Z * list C * list (option (list (Z * Z)))) :=
  match cols with
  | [] => Ok (clrx, [], [])
  | col :: rest =>
      ' (lo, hi) <- Ok (match rest with [] => (-9320, 7070) | _ => (0, 10000) end) ;;
      ' (clrx1, col1, span) <- compact lo hi endd 0 0 clrx col ;;
      ' (c, io) <- (match rest with
                    | [] => fit_cells clrx1 col1 span
                    | _ => if span <? 12 then Ok (saturated, None) else fit_cells clrx1 col1 span
                    end) ;;
      ' (x, cs, ios) <- snow_bands endd clrx1 rest ;; Ok (x, c :: cs, io :: ios)
  end.

(** Snow branch (cold.c 4913-5163). *)
Definition sparse_snow (c2 : bool) (l : list raw) : out (option srec) :=
  let rows := snow_rows l in
  let n := zlen rows in
  if n <? 12 then Ok None
  else
    let cols := [map q_b rows; map q_g rows; map q_r rows; map q_n rows; map q_s1 rows; map q_s2 rows;
                 map (fun q => if c2 then 0 else q_t q * 10 - 27320) rows] in
    ' (clrx, cs, ios) <- snow_bands (length rows) (map q_date rows) cols ;;
    ts <- get clrx 0 ;; te <- get clrx (n - 1) ;;
    Ok (Some (mkSrec ts te n 54 cs ios)).

(** The arrays after the filling loop of the other branch (cold.c
    5163-5199).  [junk k] are the contents of the freshly allocated,
    uninitialised band array [k], [junk 7] those of [clrx].  The thermal value
    is always written to cell [n_sn = 0], so only the last one survives. *)
Definition fill (N : nat) (junk : nat -> nat -> Z) (k : nat) (vals : list Z) : list Z :=
  vals ++ map (junk k) (seq (length vals) (N - length vals)).
Definition sparse_cols (c2 : bool) (N : nat) (junk : nat -> nat -> Z) (rows : list raw) : list (list Z) :=
  let th := map (fun q => if c2 then 0 else q_t q * 10 - 27320) rows in
  [fill N junk 0 (map q_b rows); fill N junk 1 (map q_g rows); fill N junk 2 (map q_r rows);
   fill N junk 3 (map q_n rows); fill N junk 4 (map q_s1 rows); fill N junk 5 (map q_s2 rows);
   fill N junk 6 (match rev th with [] => [] | t :: _ => [t] end)].

(** [if (clry[1][i] < band2_median + 400)] compaction (cold.c 5213-5225);
    [med2] is twice the median. *)
Fixpoint keep_green (n : nat) (i nc med2 : Z) (clrx : list Z) (cols : list (list Z))
  : out (list Z * list (list Z) * Z) :=
  match n with
  | O => Ok (clrx, cols, nc)
  | S m =>
      green <- get cols 1 ;; g <- get green i ;;
      if 2 * g <? med2 + 800 then
        x <- get clrx i ;; clrx1 <- put clrx nc x ;; cols1 <- copy_bands cols nc i ;;
        keep_green m (i + 1) (nc + 1) med2 clrx1 cols1
      else keep_green m (i + 1) nc med2 clrx cols
  end.

(** Fits of all bands (cold.c 5243-5252). *)
Fixpoint fit_bands (clrx : list Z) (cols : list (list Z)) (n : Z)
  : out (list C * list (option (list (Z * Z)))) :=
  match cols with
  | [] => Ok ([], [])
  | col :: rest => ' (c, io) <- fit_cells clrx col n ;;
                   ' (cs, ios) <- fit_bands clrx rest n ;; Ok (c :: cs, io :: ios)
  end.

(** The branch for too many masked observations (cold.c 5153-5331).
    matlab_unique reports one row for an empty array. *)
Definition sparse_masked (c2 : bool) (junk : nat -> nat -> Z) (l : list (raw * bool)) : out (option srec) :=
  let N := length l in
  let rows := map fst (filter snd l) in
  let clrx := fill N junk 7 (map q_date rows) in
  let cols := sparse_cols c2 N junk rows in
  ' (clrx1, cols1, endd) <- matlab_unique clrx cols (length rows) ;;
  green <- get cols1 1 ;;
  green1 <- quick_sort Z.ltb (Z.to_nat endd) green 0 (endd - 1) ;;
  cols2 <- put cols1 1 green1 ;;
  med2 <- median_row green1 endd ;;
  ' (clrx3, cols3, n_clr) <- keep_green (Z.to_nat endd) 0 0 med2 clrx1 cols2 ;;
  if n_clr <? 12 then Ok None
  else
    ' (cs, ios) <- fit_bands clrx3 cols3 n_clr ;;
    ts <- get clrx3 0 ;; te <- get clrx3 (n_clr - 1) ;;
    Ok (Some (mkSrec ts te n_clr 44 cs ios)).

(** inefficientobs_procedure (cold.c 4846-5351).  [sn_pct > 0.75] with
    sn_pct = sn / (sn + clear + 0.01) in float arithmetic is [sn > 3 clear]
    for the at most 23 clear observations this procedure is called with
    (distance of the quotient from 0.75 at least 8e-5). *)
Definition sparse (c2 : bool) (junk : nat -> nat -> Z) (l : list (raw * bool)) (c : counts) : out (option srec) :=
  if n_snow c >? 3 * n_clear c then sparse_snow c2 (map fst l) else sparse_masked c2 junk l.
End Sparse.

(** ** cold and the wrapper *)

Section Cold.
Variables M D C : Type.
Variable K : kernel M D.
Variable fit : list (Z * Z) -> option C.
Variable saturated : C.

(** Outcome of [cold]: which procedure ran. *)
Inductive cold_result :=
| NoScenes
| Standard (R : result M D)
| SparseRes (r : option (srec C)).

(** cold (cold.c 84-213).  [fuel] bounds the loop of stand_procedure. *)
Definition cold (P : params) (c2 : bool) (junk : nat -> nat -> Z) (l : list raw) (cm : list (Z * Z))
  : out cold_result :=
  match l with
  | [] => Ok NoScenes
  | _ =>
      if negb (dates_sorted l) then Fail
      else
        ' (flagged, c) <- preprocess c2 l (mkCounts 0 0 0 0 0) ;;
        if n_clear c <? 24 then r <- sparse fit saturated c2 junk flagged c ;; Ok (SparseRes r)
        else R <- stand_procedure K P (length l) (select c2 flagged None) cm ;; Ok (Standard R)
  end.

(** Records as returned, common view. *)
Record orec := mkO { x_start : Z; x_end : Z; x_break : Z; x_nobs : Z; x_cat : Z; x_prob : Z }.
Definition records (r : cold_result) : list orec :=
  match r with
  | NoScenes => []
  | Standard R => map (fun r => mkO (t_start r) (t_end r) (t_break r) (num_obs r) (category r) (change_prob r)) (res_recs R)
  | SparseRes None => []
  | SparseRes (Some r) => [mkO (sp_start r) (sp_end r) 0 (sp_nobs r) (sp_cat r) 0]
  end.
Definition cm_after (cm : list (Z * Z)) (r : cold_result) : list (Z * Z) :=
  match r with Standard R => res_cm R | _ => cm end.

(** Keyword arguments of cold_detect that concern CM output. *)
Record cmargs := mkCmArgs { a_on : bool; a_start : Z; a_n : Z; a_int : Z }.

(** math.ceil(a / b) for exact quotients; [b = 0] raises. *)
Definition py_ceil (a b : Z) : Z := - ((- a) / b).

(** The CM set-up of _cold_detect (_colds_cython.pyx 183-198): interval and
    starting date handed to C and the length of the arrays.  np.full raises
    for a negative length and indexing an empty view raises: [Fail]. *)
Definition cm_setup (a : cmargs) (l : list raw) : out (option cmcfg * nat) :=
  if a_on a then
    let int := if a_int a =? 0 then 60 else a_int a in
    match l with
    | [] => Fail
    | q0 :: _ =>
        let start := if a_start a =? 0 then q_date q0 else a_start a in
        let n := if a_n a =? 0 then py_ceil (q_date (last l q0) - start + 1) int + 1 else a_n a in
        if n <=? 0 then Fail else Ok (Some (mkCm start int), Z.to_nat n)
    end
  else Ok (None, 1%nat).

(** _cold_detect (_colds_cython.pyx 134-219): records with their pos, and
    the CM arrays.  [Fail] stands for every Python exception. *)
Definition cold_detect (P : params) (c2 : bool) (junk : nat -> nat -> Z) (a : cmargs) (l : list raw)
  : out (list orec * list (Z * Z)) :=
  match l with
  | [] => Fail     (* &dates_view[0] on an empty array *)
  | _ =>
      ' (cfg, n) <- cm_setup a l ;;
      let P' := mkParams (p_tcg P) (p_tmax P) (p_nsign P) (p_cap P) (p_conse P) (p_gap P) (p_skip P) cfg in
      let cm := repeat (-9999, -9999) n in
      r <- cold P' c2 junk l cm ;;
      match records r with [] => Fail | rs => Ok (rs, cm_after cm r) end
  end.
End Cold.
Arguments NoScenes {M D C}. Arguments SparseRes {M D C}. Arguments Standard {M D C}.

(** reading_start_dates_nmaps
    (src/python/pycold/imagetool/tile_processing.py 120-145): the number of
    CM maps from the tile's first and last date; [int(x)] truncates. *)
Definition tile_n_cm (start endd int : Z) : Z := Z.quot (endd - start + 1) int + 1.
