(** The Python entry points of S-CCD: [_sccd_detect]
    (src/python/pycold/_colds_cython.pyx 287-412), [_sccd_update] (415-529)
    and [sccd_identify] (src/python/pycold/colds.py 474-543). *)
From Verif Require Import Base SortModel LibModel ColdModel FrontModel SccdModel.

Section Api.
Variables N S F C : Type.
Notation io := (io S C).
Notation nmodel := (nmodel S).
Variable K : list Z -> skernel N S F C.
Variable P : sparams.
Variable c2 : bool.
Variable junk : list Z.          (* min_rmse_float before the call, s_ccd.c 74 *)
Variable jm : nmodel.            (* contents of a model that was not set: np.zeros in
                                    detect, np.empty in update (339, 485) *)

(** sccd_update passes b_pinpoint = False (_colds_cython.pyx 508). *)
Definition no_pin (p : sparams) : sparams :=
  mkSP (sp_tcg p) (sp_tcgf p) (sp_gate p) (sp_pred p) (sp_tmax p) (sp_tmaxs p) (sp_nsign p)
       (sp_cap p) (sp_cap2 p) (sp_conse p) false.

(** The pack handed back (374-389, 516-529): the parts not needed in its mode
    are replaced by empty arrays.  A pack without model reaches the next call
    as an uninitialised one (482-485).  [Fail]: RuntimeError. *)
Definition returned (b : io) : out io :=
  let m := io_mode b in
  if (Z.rem m 10 =? 1) || (m =? 3) then Ok (mkIO m (io_recs b) (io_model b) [] (io_rmse b) (io_pins b))
  else if (Z.rem m 10 =? 2) || (m =? 4) then Ok (mkIO m (io_recs b) jm (io_queue b) (io_rmse b) (io_pins b))
  else if Z.rem m 10 =? 5 then Ok b
  else if m =? 0 then Ok (mkIO m [] jm [] (io_rmse b) (io_pins b))
  else Fail.

(** Iterations that always suffice (property C21). *)
Definition enough (rows : list raw) (a : io) : nat := (length (carried a) + length rows)%nat.

(** _sccd_update (415-529).  An empty batch raises IndexError at [&ts_b_view[0]]
    (503). *)
Definition update (rows : list raw) (a : io) : out io :=
  match rows with
  | [] => Fail
  | _ => b <- sccd K (no_pin P) c2 junk (enough rows a) rows a ;; returned b
  end.

(** State _sccd_detect starts from (334-349). *)
Definition blank : io := mkIO 0 [] jm [] [0; 0; 0; 0; 0; 0] [].

Definition last_row_date (rows : list raw) : Z := q_date (last rows (mkRaw 0 0 0 0 0 0 0 0 0)).

(** _sccd_detect (287-412): at most DEFAULT_CONSE = 8 consecutive observations
    (331), dates spanning at least 365.25 days (345). *)
Definition detect (rows : list raw) : out io :=
  match rows with
  | [] => Fail
  | r :: _ =>
      if slots <? sp_conse P then Fail
      else if 4 * (last_row_date rows - q_date r) <? 1461 then Fail
      else b <- sccd K P c2 junk (enough rows blank) rows blank ;; returned b
  end.

(** What the caller's pack contains after _sccd_update: records, model and
    queue were copied (475-485), min_rmse is passed by reference (487). *)
Definition caller_pack (a b : io) : io :=
  mkIO (io_mode a) (io_recs a) (io_model a) (io_queue a) (io_rmse b) (io_pins a).

(** sccd_identify (colds.py 474-543): None is an exception.
    - 511-516: snow and untested modes give no date;
    - 519: the model of modes 0 and 2 is an empty array, IndexError;
    - 523 with utils.py 546-561: for conse_last > 6 the observation slice and
      the predictions differ in shape, ValueError;
    - 536: the slot is 6 - conse_last ([DEFAULT_CONSE] of constants.yaml 48).
    [green]: the median test 524-529; thresholds compare integers
    with floats, so they are floors or ceilings here. *)
Definition identify (green : nmodel -> bool) (dist cm_thr angle_thr : Z) (transform : bool) (a : io)
  : option (io * Z) :=
  let m := io_mode a in
  if (m =? 3) || (m =? 4) || (Z.quot m 10 =? 1) then Some (a, 0)
  else if (m =? 0) || (m =? 2) then None
  else
    let nm := io_model a in
    if (dist <=? nm_last nm) && (cm_thr <? nm_cm nm) && (nm_angle nm <? angle_thr) then
      if 6 <? nm_last nm then None
      else if green nm then Some (a, 0)
      else
        match nth_error (nm_obs nm) (Z.to_nat (6 - nm_last nm)) with
        | None => None
        | Some o =>
            Some ((if transform && (m =? 1)
                   then mkIO 11 (io_recs a) (io_model a) (io_queue a) (io_rmse a) (io_pins a) else a),
                  o_date o + launch)
        end
    else Some (a, 0).

End Api.

(** Histories: any mixture of updates and identifications; thresholds, the
    numerical kernel and indeterminate memory may differ from call to call. *)
Inductive history {N S F C : Type} (conse : Z) : io S C -> list (list raw) -> io S C -> Prop :=
| h_done : forall a, history conse a [] a
| h_update : forall (K : list Z -> skernel N S F C) P c2 junk jm a rows b rest c,
    sp_conse P = conse -> length junk = 6%nat ->
    update K P c2 junk jm rows a = Ok b -> history conse b rest c -> history conse a (rows :: rest) c
| h_identify : forall a green dist cmt ant tr b d batches c,
    identify green dist cmt ant tr a = Some (b, d) -> history conse b batches c -> history conse a batches c.
