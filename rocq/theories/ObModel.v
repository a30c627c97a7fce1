(** Model of [obcold_reconstruction_procedure] (src/cxx/cold.c 5366-5932) and
    its wrapper [_obcold_reconstruct] (src/python/pycold/_colds_cython.pyx
    222-284).

    Simplifications: as in ColdModel and FrontModel.  The numerical routines
    are arbitrary functions of the observations they are applied to.  The
    result of inefficientobs_procedure is ignored by the C code (cold.c 5552,
    5862); when it fails no record exists, which the wrapper turns into an
    exception, so failure is passed on as [Fail].  [snow] is the outcome of
    the test [sn_pct > 0.75] on the variable sn_pct, which is declared
    (cold.c 5422) but never assigned in this procedure. *)
From Verif Require Import Base SortModel LibModel ColdModel FrontModel.

Section Ob.
Variables M D C : Type.

Record okernel := mkOK {
  (* auto_mask (cold.c 5613-5616) *)
  o_mask : list obs -> option (nat -> bool);
  (* fits of the five test bands (cold.c 5669-5688) *)
  o_fit5 : Z -> list obs -> option M;
  (* v_dif_norm > T_MAX_CG_reconstruct (cold.c 5697-5720) *)
  o_far : M -> Z -> obs -> bool;
  (* final fits of all bands (cold.c 5761-5773) *)
  o_fit : Z -> list obs -> option M;
  (* deviation of an observation from the model (cold.c 5822-5826) *)
  o_dev : M -> Z -> obs -> D
}.
Variable K : okernel.
Variable conse : Z.

(** One record (Output_t, output.h 14-49) with ghost fields: observations
    fitted, deviations whose median is the magnitude. *)
Record brec := mkB {
  b_start : Z; b_end : Z; b_break : Z; b_nobs : Z; b_cat : Z; b_prob : Z;
  b_model : M; b_win : list obs; b_devs : list (obs * D) }.

(** Conversion to a C [int]. *)
Definition wrap32 (z : Z) : Z := (z + 2147483648) mod 4294967296 - 2147483648.

(** Break filter (cold.c 5584-5592): [last] is last_break_record,
    AVE_DAYS_IN_A_YEAR is 365.25. *)
Fixpoint pick_breaks (last : Z) (l : list Z) : list Z :=
  match l with
  | [] => []
  | d :: t => if (d >? 0) && (4 * (d - last) >=? 1461)
              then wrap32 d :: pick_breaks (wrap32 d) t else pick_breaks last t
  end.

(** i_break (cold.c 5595-5598, 5749-5752): [None] is the end of the series. *)
Definition where_break (live : list obs) (b : option Z) : out Z :=
  match b with
  | None => Ok (zlen live)
  | Some d => find_index_clrx (map o_date live) (zlen live) d
  end.

(** Outlier removal in a segment that has at least 12 observations and is
    not the last one (cold.c 5604-5744); [None]: the segment is given up. *)
Definition clean (live : list obs) (last i : Z) (b : option Z) : out (option (list obs)) :=
  if (12 <=? i - last) && (match b with None => false | Some _ => true end) then
    w <- slice live last (i - last) ;;
    flags <- of_opt (o_mask K w) ;;
    let w1 := keep_from flags 0 w in
    if zlen w1 <? 6 then Ok None
    else
      m <- of_opt (o_fit5 K (update_cft (zlen w1)) w1) ;;
      let w2 := filter (fun o => negb (o_far K m (update_cft (zlen w1)) o)) w1 in
      if zlen w2 <? 6 then Ok None
      else Ok (Some (firstn (Z.to_nat last) live ++ w2 ++ skipn (Z.to_nat i) live))
  else Ok (Some live).

(** The record of a segment (cold.c 5748-5856). *)
Definition make_rec (live : list obs) (last : Z) (b : option Z) : out (brec * Z) :=
  i <- where_break live b ;;
  w <- slice live last (i - last) ;;
  let c := update_cft (i - last) in
  m <- of_opt (o_fit K c w) ;;
  os <- get live last ;; oe <- get live (i - 1) ;;
  match b with
  | None => Ok (mkB (o_date os) (o_date oe) 0 (i - last + 1) c 0 m w [], i)
  | Some _ =>
      let adj := if zlen live - i <? conse then zlen live - i else conse in
      v <- slice live i adj ;; ob <- get live i ;;
      Ok (mkB (o_date os) (o_date oe) (o_date ob) (i - last + 1) c 100 m w (map (fun o => (o, o_dev K m c o)) v), i)
  end.

(** One pass of the loop over segments (cold.c 5593-5857).  rec_cg has 40
    entries (_colds_cython.pyx 259). *)
Definition segment (live : list obs) (last : Z) (recs : list brec) (b : option Z)
  : out (list obs * Z * list brec) :=
  i <- where_break live b ;;
  if i - last <? 6 then Ok (live, last, recs)
  else
    o <- clean live last i b ;;
    match o with
    | None => Ok (live, last, recs)
    | Some live1 =>
        if 40 <=? zlen recs then UB
        else
          ' (r, i1) <- make_rec live1 last b ;;
          Ok (live1, (match b with None => last | Some _ => i1 end), recs ++ [r])
    end.

Fixpoint segments (live : list obs) (last : Z) (recs : list brec) (bs : list Z) : out (list brec) :=
  match bs with
  | [] => ' (_, _, recs1) <- segment live last recs None ;; Ok recs1
  | b :: t => ' (live1, last1, recs1) <- segment live last recs (Some b) ;; segments live1 last1 recs1 t
  end.

(** The last record loses its break (cold.c 5867-5876). *)
Definition force_last (recs : list brec) : list brec :=
  match rev recs with
  | [] => []
  | r :: t => rev (mkB (b_start r) (b_end r) 0 (b_nobs r) (b_cat r) 0 (b_model r) (b_win r) [] :: t)
  end.

Variable fit : list (Z * Z) -> option C.
Variable saturated : C.

(** inefficientobs_procedure (cold.c 4846-5351) with the given outcome of its
    test on sn_pct. *)
Definition sparse_either (snow c2 : bool) (junk : nat -> nat -> Z) (l : list (raw * bool)) : out (option (srec C)) :=
  if snow then sparse_snow fit saturated c2 (map fst l) else sparse_masked fit c2 junk l.

Inductive ob_result := ObSegments (rs : list brec) | ObSparse (r : option (srec C)).

(** The procedure (cold.c 5366-5932).  The thermal band is stored without
    the special case of cold (cold.c 5513-5517), hence [select false]. *)
Definition obcold (c2 snow : bool) (junk : nat -> nat -> Z) (l : list raw) (breaks : list Z) : out ob_result :=
  if negb (dates_sorted l) then Fail
  else
    ' (flagged, c) <- preprocess c2 l (mkCounts 0 0 0 0 0) ;;
    if n_clear c <? 24 then r <- sparse_either snow c2 junk flagged ;; Ok (ObSparse r)
    else
      let x := select false flagged None in
      sorted <- quick_sort Z.ltb (length breaks) breaks 0 (zlen breaks - 1) ;;
      rs <- segments x 0 [] (pick_breaks 0 sorted) ;;
      match rs with
      | [] => r <- sparse_either snow c2 junk flagged ;; Ok (ObSparse r)
      | _ => Ok (ObSegments (force_last rs))
      end.

(** The wrapper (_colds_cython.pyx 222-284): taking the address of the first
    element of an empty array raises, and so does an empty result. *)
Definition obcold_reconstruct (c2 snow : bool) (junk : nat -> nat -> Z) (l : list raw) (breaks : list Z) : out ob_result :=
  match l, breaks with
  | [], _ => Fail
  | _, [] => Fail
  | _, _ =>
      r <- obcold c2 snow junk l breaks ;;
      match r with ObSparse None => Fail | ObSegments [] => Fail | _ => Ok r end
  end.
End Ob.
