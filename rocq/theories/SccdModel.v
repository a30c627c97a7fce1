(** Model of S-CCD (src/cxx/s_ccd.c): [sccd] 33-299, [step1_cold_initialize]
    509-1473, [step2_KF_ChangeDetection] 1672-2087, [step3_processing_end]
    2100-2550, [sccd_standard] 2552-3093 and [sccd_snow] 3095-3394.

    Simplifications, valid for the whole file:
    - The numerical routines are the fields of [skernel]: arbitrary functions
      of exactly the data the C code hands to them, [None] where the C routine
      can return an error status.  The sums of squared residuals
      (sum_square_vt, unsigned int) are part of the numerical state.
    - clrx/clry are one list of observations; n_clr is its length.  Every
      access goes through [get]/[slice]; an access at or past n_clr yields
      [UB] although it may hit allocated memory with old contents (stricter
      than C).
    - Conversions to [short]: from [int] they wrap ([wrap16]); from [float]
      they are undefined outside the range ([UB]).
    - [g_win] is a ghost field.  Nothing in the control flow reads it.
    - Allocation failures are not modelled, except that a negative number of
      year buckets is a request malloc refuses. *)
From Verif Require Import Base SortModel LibModel ColdModel FrontModel.

(** defines.h: ORDINAL_LANDSAT4_LAUNCH, ORDINAL_DATE_1982_1_1, NUM_FC_SCCD
    (_colds_cython.pyx 24), MAX_OBS_QUEUE, DEFAULT_CONSE_SCCD. *)
Definition launch : Z := 723742.
Definition y1982 : Z := 723546.
Definition max_seg : Z := 40.
Definition max_queue : Z := 240.
Definition slots : Z := 8.

Fixpoint mapO {A B} (f : A -> out B) (l : list A) : out (list B) :=
  match l with
  | [] => Ok []
  | a :: t => b <- f a ;; r <- mapO f t ;; Ok (b :: r)
  end.

(** Conversion of a float to [short] (s_ccd.c 2259, 2520, 2907, 3191, 3321). *)
Definition to16 (z : Z) : out Z :=
  if (-32768 <=? z) && (z <=? 32767) then Ok z else UB.

(** An observation as stored in the queue or the model: date since the
    Landsat 4 launch as [short], values as [short] (s_ccd.c 2257-2261,
    2518-2520, 2905-2909, 3189-3191, 3319-3323). *)
Definition st_obs (o : obs) : out obs :=
  v <- mapO to16 (o_vals o) ;; Ok (mkObs (wrap16 (o_date o - launch)) v).

(** And read back (s_ccd.c 159-161, 170-174). *)
Definition ld_obs (o : obs) : obs := mkObs (o_date o + launch) (o_vals o).

(** Entry of an unused slot (s_ccd.c 2263-2270, 2911-2918). *)
Definition zero_obs : obs := mkObs 0 [0; 0; 0; 0; 0; 0].

Section Sccd.
Variables N S F C : Type.

(** Numerical routines.  [N]: Kalman state of all bands (fit_cft, cov_p,
    instance, sum_square_vt); [S]: the same as stored in output_nrtmodel;
    [F]: initial four-coefficient fit; [C]: coefficients, RMSE and magnitude
    of a record. *)
Record skernel := mkSK {
  (* auto_mask (s_ccd.c 709) *)
  k_mask1 : list obs -> option (nat -> bool);
  (* auto_ts_fit_sccd with MIN_NUM_C for all bands (997) *)
  k_fit1 : list obs -> option F;
  (* v_dif_norm of the stability test (1007-1053) *)
  k_stab1 : F -> list obs -> fl;
  (* look-back magnitude of one observation and mean angle (1195-1261) *)
  k_back : F -> obs -> fl;
  k_bangle : F -> list obs -> fl;
  (* first record: initial fit, window fitted, observations behind the
     magnitude (1332-1411) *)
  k_first : F -> list obs -> list obs -> option C;
  (* SCCD_NUM_C fit and step1_ssm_initialize (2800-2831): state left over
     from the previous segment (cov_p is only overwritten on its diagonal,
     456-466), window, date following the window *)
  k_init : option N -> list obs -> Z -> option N;
  (* magnitude of one observation; the number is the divisor of
     sum_square_vt (1757-1783, 2304-2330) *)
  k_norm2 : N -> Z -> obs -> fl;
  k_angle2 : N -> Z -> list obs -> fl;
  (* coefficients, rmse and magnitude of a detected record (1975-1998) *)
  k_rec : N -> Z -> list obs -> C;
  (* KF_ts_filter_regular with the squared residual added (2051-2056):
     observation and days to the next one *)
  k_filter : N -> obs -> Z -> N;
  (* KF_ts_filter_falsechange (2024-2027): days to the next observation *)
  k_skip : N -> Z -> N;
  (* storing to and loading from output_nrtmodel (2225-2242, 2283-2291,
     2677-2705): covariances become float *)
  k_store : N -> S;
  k_load : S -> N;
  (* (short) min(angle * 100, MAX_SHORT), undefined for NaN (1966-1969);
     (short) min(magnitude * 100, MAX_SHORT) (1970-1973, 2428-2435) *)
  k_a16 : fl -> option Z;
  k_m16 : fl -> Z;
  (* snow: fit and filter over all observations (3245-3272); one filter step
     (3311-3312) *)
  k_snow : list obs -> option N;
  k_sfilter : N -> obs -> Z -> N
}.

(** Parameters and constants of defines.h; thresholds are images under the
    order embedding of [fl], 0.0 being represented by 0. *)
Record sparams := mkSP {
  sp_tcg : Z;      (* tcg as double: step 1 (1060, 1263) *)
  sp_tcgf : Z;     (* tcg as float: step 2 (1680, 1801, 1941) *)
  sp_gate : Z;     (* gate_tcg *)
  sp_pred : Z;     (* predictability_tcg *)
  sp_tmax : Z;     (* T_MAX_CG (1274) *)
  sp_tmaxs : Z;    (* T_MAX_CG_SCCD (2014, 2856) *)
  sp_nsign : Z;    (* NSIGN *)
  sp_cap : Z;      (* 9999.0 (1194, 1718) *)
  sp_cap2 : Z;     (* 999999 / 100 (1863, 2423) *)
  sp_conse : Z;
  sp_pin : bool    (* b_pinpoint *)
}.

(** Output_sccd (src/cxx/output.h) without pos; [g_win]: the observations
    behind the magnitude. *)
Record seg := mkSeg { g_start : Z; g_break : Z; g_nobs : Z; g_fit : C; g_win : list obs }.

(** output_nrtmodel (src/cxx/output.h). *)
Record nmodel := mkNm {
  nm_st : S; nm_start : Z; nm_nobs : Z; nm_obs : list obs;
  nm_cm : Z; nm_angle : Z; nm_last : Z }.

(** Output_sccd_pinpoint (src/cxx/output.h). *)
Record pin := mkPin { pn_break : Z; pn_obs : list obs; pn_angle : list Z; pn_cm : list Z }.

(** Local variables of [sccd_standard]. *)
Record cst := mkC {
  c_x : list obs;        (* clrx, clry, n_clr *)
  c_i : Z; c_start : Z; c_dense : Z; c_prev : Z; c_train : bool;
  c_ts : option Z;       (* t_start; None while indeterminate *)
  c_nobs : Z;            (* num_obs_processed *)
  c_m : option N;        (* None: fit_cft indeterminate or 0, cov_p all 0 *)
  c_recs : list seg;     (* rec_cg, num_fc *)
  c_model : nmodel;
  c_chg : bool;          (* change_detected *)
  c_pins : list pin; c_cm : list fl }.

Variable K : skernel.
Variable P : sparams.

Definition n_clr (s : cst) : Z := zlen (c_x s).

(** Writing rec_cg[*num_curve] (1377-1425, 1975-2002): the array has
    NUM_FC_SCCD entries and the code does not check. *)
Definition push_seg (rs : list seg) (r : seg) : out (list seg) :=
  if max_seg <=? zlen rs then UB else Ok (rs ++ [r]).

(** Minimum scans (1249-1252, 1786-1789, 1868-1870, 2424-2426): start value
    [cap], NaN never replaces the minimum. *)
Definition fmin (cap : Z) (l : list fl) : fl :=
  fold_left (fun m v => if flt v m then v else m) l (Fin cap).

(** ** Step 1 *)

(** Outcome of [step1_cold_initialize]: INCOMPLETE, SUCCESS, or FAILURE. *)
Inductive s1 := Inc | Suc | Err.

(** Look-back loop (1144-1310): [n] iterations remain, i_ini = prev + n - 1.
    Returns clrx/clry, cur_i, i_start. *)
Fixpoint back (n : nat) (f : F) (prev : Z) (x : list obs) (i start : Z) : out (list obs * Z * Z) :=
  match n with
  | O => Ok (x, i, start)
  | Datatypes.S n' =>
      let i_ini := prev + Z.of_nat n' in
      let full := i_ini - prev + 1 in
      let ini := if full <? sp_conse P then full else sp_conse P in
      if ini =? 0 then Fail else
      os <- mapM_idx x (fun c => i_ini - (Z.of_nat c + 1) + 1) 0 (Z.to_nat ini) ;;
      if fgt (fmin (sp_cap P) (map (k_back K f) os)) (Fin (sp_tcg P))
         && flt (k_bangle K f os) (Fin (sp_nsign P))
      then Ok (x, i, start)
      else
        let out0 := match os with [] => false | o :: _ => fgt (k_back K f o) (Fin (sp_tmax P)) end in
        if out0 && (prev <=? i_ini)
        then back n' f prev (del (Z.to_nat i_ini) x) (i - 1) i_ini
        else back n' f prev x i i_ini
  end.

Definition set_idx (s : cst) (x : list obs) (i start dense prev : Z) : cst :=
  mkC x i start dense prev (c_train s) (c_ts s) (c_nobs s) (c_m s) (c_recs s)
      (c_model s) (c_chg s) (c_pins s) (c_cm s).

(** [step1_cold_initialize] (509-1473). *)
Definition step1 (s : cst) : out (cst * s1) :=
  let x := c_x s in let i := c_i s in let start := c_start s in let dense := c_dense s in
  w <- slice x start (i - start + 1) ;;
  (* 652-702; a whole number of days exceeds 365.25 iff it exceeds 365 *)
  if 365 <? max_gap w then Ok (set_idx s x i (start + 1) (dense + 1) (c_prev s), Inc) else
  (* 708-715 *)
  let tmp_end := Z.min (i + sp_conse P - 1) (n_clr s - 1) in
  wide <- slice x start (tmp_end - start + 1) ;;
  match k_mask1 K wide with
  | None => Ok (s, Err)
  | Some flags =>
    (* 732-811 *)
    let w' := keep_from flags 0 w in
    let i_span := zlen w' in
    if i_span <? 18 then Ok (s, Inc) else
    (* 839-949 *)
    let cp := firstn (Z.to_nat start) x ++ w' ++ skipn (Z.to_nat (i + 1)) x in
    let i' := start + i_span - 1 in
    ce <- get cp i' ;;
    cs <- get cp start ;;
    if o_date ce - o_date cs <? 366 then Ok (s, Inc) else
    (* 958-1005 *)
    wf <- slice cp start i_span ;;
    match k_fit1 K wf with
    | None => Ok (set_idx s cp i' start dense (c_prev s), Err)
    | Some f =>
      (* 1060-1122 *)
      if fgt (k_stab1 K f wf) (Fin (sp_tcg P))
      then Ok (set_idx s cp i' (start + 1) dense (c_prev s), Inc) else
      (* 1130-1311 *)
      let prev := match c_recs s with [] => dense | _ => c_prev s end in
      '(x2, i2, start2) <- back (Z.to_nat (start - prev)) f prev cp i' start ;;
      let s2 := set_idx s x2 i2 start2 dense prev in
      match c_recs s with
      | _ :: _ => Ok (s2, Suc)
      | [] =>
        (* 1319-1433 *)
        if 6 <=? start2 - dense then
          w2 <- slice x2 dense (start2 - dense + 1) ;;
          os <- mapM_idx x2 (fun c => start2 - (Z.of_nat c + 1)) 0 (Z.to_nat (sp_conse P)) ;;
          match k_first K f w2 os with
          | None => Ok (s2, Err)
          | Some c =>
            ob <- get x2 start2 ;;
            o0 <- get x2 0 ;;
            rs <- push_seg [] (mkSeg (o_date o0) (o_date ob) (start2 - prev) c os) ;;
            Ok (mkC x2 i2 start2 dense start2 (c_train s) (c_ts s) (c_nobs s) (c_m s) rs
                    (c_model s) (c_chg s) (c_pins s) (c_cm s), Suc)
          end
        else Ok (s2, Suc)
      end
    end
  end.

(** ** Step 2 *)

(** The loop 1762-1825 over the window: change_flag, break_mag, i_conse. *)
Fixpoint scan (m : N) (d : Z) (os : list obs) (k : Z) (bm : fl) : bool * fl * Z :=
  match os with
  | [] => (true, bm, k)
  | o :: t =>
      let v := k_norm2 K m d o in
      let bm' := if flt v bm then v else bm in
      if (if sp_pin P then flt bm' (Fin (sp_gate P)) && (k <? 3) else flt bm' (Fin (sp_tcgf P)))
      then (false, bm', k)
      else scan m d t (k + 1) bm'
  end.

(** Saving the eight slots (1878-1885 without the padding; 2251-2280,
    2901-2919 with it). *)
Definition save8 (x : list obs) (i : Z) (n : Z) : out (list obs) :=
  mapO (fun k => if Z.of_nat k <? n then o <- get x (i + Z.of_nat k) ;; st_obs o else Ok zero_obs)
       (seq 0 8).

Definition conv16 (a : option Z) : out Z := match a with Some z => Ok z | None => UB end.

(** Year bucket of a date (1831): (int) ((date - 1982-01-01) / 365.25). *)
Definition bucket (d : Z) : Z := Z.quot (4 * (d - y1982)) 1461.

(** Pinpoint recording (1827-1937). *)
Definition pinpoint (s : cst) (m : N) (d : Z) (os : list obs) (o : obs) (bm : fl)
  : out (list pin * list fl) :=
  let b := bucket (o_date o) in
  v <- get (c_cm s) b ;;
  let fresh := match v with Fin 0 => true | _ => false end in
  let cur := if fresh then zlen (c_pins s) else zlen (c_pins s) - 1 in
  if flt v bm then
    ang <- mapO (fun j => conv16 (k_a16 K (k_angle2 K m d (firstn j os)))) (seq 1 (length os)) ;;
    let cms := map (fun j => k_m16 K (fmin (sp_cap2 P) (map (k_norm2 K m d) (firstn j os)))) (seq 1 (length os)) in
    w <- save8 (c_x s) (c_i s) slots ;;
    let p := mkPin (o_date o) w ang cms in
    cm' <- put (c_cm s) b bm ;;
    if (cur <? 0) || (max_seg <=? cur) then UB else
    Ok (if fresh then (c_pins s ++ [p], cm') else (removelast (c_pins s) ++ [p], cm'))
  else Ok (c_pins s, c_cm s).

(** [step2_KF_ChangeDetection] together with the handling of its result
    (2853-2942); [void] tells whether *nrt_mode is NRT_VOID. *)
Definition step2 (void : bool) (s : cst) : out cst :=
  match c_m s, c_ts s with
  | Some m, Some ts =>
    let x := c_x s in let i := c_i s in let conse := sp_conse P in
    let d := c_nobs s - 6 in
    os <- slice x i conse ;;
    o <- get x i ;;
    let '(flag, bm, ic) := scan m d os 0 (Fin (sp_cap P)) in
    '(pins, cm) <- (if sp_pin P && (3 <=? ic) then pinpoint s m d os o bm else Ok (c_pins s, c_cm s)) ;;
    let ang := k_angle2 K m d os in
    if flag && negb (flt bm (Fin (sp_tcgf P))) && negb (fgt ang (Fin (sp_nsign P))) then
      a16 <- conv16 (k_a16 K ang) ;;
      rs <- push_seg (c_recs s) (mkSeg ts (o_date o) (c_nobs s) (k_rec K m d os) os) ;;
      w <- save8 x i conse ;;
      Ok (mkC x (i + 1) i (c_dense s) i false (c_ts s) (c_nobs s) (c_m s) rs
              (mkNm (k_store K m) (wrap16 (ts - launch)) (wrap16 (c_nobs s)) w (k_m16 K bm) a16 conse)
              (c_chg s || negb void) pins cm)
    else if fgt (k_norm2 K m d o) (Fin (sp_tmaxs P)) then
      o1 <- get x (i + 1) ;;
      Ok (mkC (del (Z.to_nat i) x) i (c_start s) (c_dense s) (c_prev s) true (c_ts s) (c_nobs s)
              (Some (k_skip K m (o_date o1 - o_date o))) (c_recs s) (c_model s) (c_chg s) pins cm)
    else
      o1 <- get x (i + 1) ;;
      (* vt stays indeterminate when no day is stepped (1598, 2055) *)
      if o_date o1 - o_date o <=? 0 then UB else
      Ok (mkC x (i + 1) (c_start s) (c_dense s) (c_prev s) true (c_ts s) (c_nobs s + 1)
              (Some (k_filter K m o (o_date o1 - o_date o))) (c_recs s) (c_model s) (c_chg s) pins cm)
  | _, _ => UB
  end.

(** ** The loop of [sccd_standard] *)

(** One iteration (2750-2945).  A FAILURE of step 1 is neither INCOMPLETE nor
    SUCCESS (2788, 2792): the iteration ends without moving on. *)
Definition cstep (void : bool) (s : cst) : out cst :=
  if c_train s then step2 void s
  else
    let x := c_x s in let i := c_i s in
    xe <- get x i ;;
    xs <- get x (c_start s) ;;
    '(s1', r) <- (if (18 <=? i - c_start s + 1) && (366 <=? o_date xe - o_date xs)
                  then step1 s else Ok (s, Inc)) ;;
    match r with
    | Inc => Ok (set_idx s1' (c_x s1') (c_i s1' + 1) (c_start s1') (c_dense s1') (c_prev s1'))
    | Err => Ok s1'
    | Suc =>
        let x1 := c_x s1' in let i1 := c_i s1' in let st1 := c_start s1' in
        w <- slice x1 st1 (i1 - st1 + 1) ;;
        on <- get x1 (Z.min (i1 + 1) (zlen x1 - 1)) ;;
        os <- get x1 st1 ;;
        m <- of_opt (k_init K (c_m s1') w (o_date on)) ;;
        Ok (mkC x1 (i1 + 1) st1 (c_dense s1') (c_prev s1') true (Some (o_date os)) (i1 - st1 + 1)
                (Some m) (c_recs s1') (c_model s1') (c_chg s1') (c_pins s1') (c_cm s1'))
    end.

Fixpoint cloop (void : bool) (fuel : nat) (s : cst) : out cst :=
  if c_i s + sp_conse P <=? n_clr s - 1 then
    match fuel with
    | O => Fuel
    | Datatypes.S f => s' <- cstep void s ;; cloop void f s'
    end
  else Ok s.

(** ** Step 3 *)

(** update_cft (misc.c 42-69) with N_TIMES 3, MIN/MID/MAX_NUM_C 4/6/6 and
    SCCD_NUM_C 6 (2302). *)
Definition scft (n : Z) : Z := if n <? 18 then 4 else 6.

(** The scan 2392-2500 over the magnitudes, newest first, [k] of which have
    exceeded the gate: conse_last.  A NaN is not "<= gate" (2412). *)
Fixpoint run_len (norms : list fl) (k : Z) : Z :=
  match norms with
  | [] => k
  | v :: t => if fle v (Fin (sp_gate P)) then k else run_len t (k + 1)
  end.

(** Model saved at the end in monitor mode (2219-2502): mode and model. *)
Definition save_model (s : cst) (mode : Z) : out (Z * nmodel) :=
  match c_m s, c_ts s with
  | Some m, Some ts =>
    let conse := sp_conse P in
    w <- save8 (c_x s) (c_i s) (if 0 <? c_nobs s then conse else 0) ;;
    os <- mapM_idx (c_x s) (fun k => n_clr s - 1 - Z.of_nat k) 0 (Z.to_nat conse) ;;
    let d := c_nobs s - scft (c_nobs s) in
    let norms := map (k_norm2 K m d) os in
    let base cm an la := mkNm (k_store K m) (wrap16 (ts - launch)) (wrap16 (c_nobs s)) w cm an la in
    if 0 <? c_nobs s then
      let stable := zlen (filter (fun v => flt v (Fin (sp_pred P))) norms) in
      (* 2363-2385; CORRECT_RATIO_PREDICTABILITY is 0.5 *)
      let mode' := if (Z.quot mode 10 =? 1) && (1 <? conse) && (conse <? 2 * stable) then mode - 10 else mode in
      let n := run_len norms 0 in
      if n =? 0 then Ok (mode', base (-9999) (-9999) 0)
      else a <- conv16 (k_a16 K (k_angle2 K m d (firstn (Z.to_nat n) os))) ;;
           Ok (mode', base (k_m16 K (fmin (sp_cap2 P) (firstn (Z.to_nat n) norms))) a n)
    else Ok (mode, base (-9999) (-9999) 0)
  | _, _ => UB
  end.

(** Queue saved at the end (2504-2522). *)
Definition save_queue (s : cst) (prev : Z) : out (list obs) :=
  let n := n_clr s - prev in
  let '(start, cnt) := if max_queue <? n then (n_clr s - 1 - max_queue, max_queue) else (prev, n) in
  w <- slice (c_x s) start (Z.max 0 cnt) ;;
  mapO st_obs w.

(** What [sccd] reads and writes besides the observations. *)
Record io := mkIO {
  io_mode : Z; io_recs : list seg; io_model : nmodel; io_queue : list obs;
  io_rmse : list Z; io_pins : list pin }.

(** New mode (3000-3038) and prev_i_break. *)
Definition new_mode (mode : Z) (s : cst) : out (Z * Z) :=
  if mode =? 0 then Ok (if c_train s then 1 else 12, c_prev s)
  else if c_chg s then Ok (if Z.quot mode 10 =? 1 then 12 else 5, c_prev s)
  else if Z.rem mode 10 =? 2 then Ok (if c_train s then 1 else mode, c_prev s)
  else if Z.rem mode 10 =? 5 then
    o <- get (c_x s) (n_clr s - sp_conse P) ;;
    o0 <- get (nm_obs (c_model s)) 0 ;;
    if o_date o - o_date o0 - launch <? 15 then Ok (mode, 0) else Ok (12, c_prev s)
  else Ok (mode, c_prev s).

(** Number of year buckets (2601). *)
Definition n_buckets (d : Z) : Z := Z.quot (4 * (d - y1982) + 1461) 1461.

(** [sccd_standard] (2552-3093). *)
Definition standard (fuel : nat) (x : list obs) (a : io) : out io :=
  let mode := io_mode a in
  ol <- get x (zlen x - 1) ;;
  o0 <- get x 0 ;;
  if n_buckets (o_date ol) <? 0 then Fail else
  let train := Z.rem mode 10 =? 1 in
  let s0 := mkC x 0 0 0 0 train
     (if train then Some (nm_start (io_model a) + launch)
      else if mode =? 0 then None else Some (o_date o0))
     (if train then nm_nobs (io_model a) else 0)
     (if train then Some (k_load K (nm_st (io_model a))) else None)
     (io_recs a) (io_model a) false (io_pins a)
     (repeat (Fin 0) (Z.to_nat (n_buckets (o_date ol)))) in
  s <- cloop (mode =? 0) fuel s0 ;;
  '(mode1, prev) <- new_mode mode s ;;
  '(mode2, model) <- (if Z.rem mode1 10 =? 1 then save_model s mode1 else Ok (mode1, c_model s)) ;;
  queue <- (if (Z.rem mode2 10 =? 2) || (Z.rem mode2 10 =? 5) then save_queue s prev else Ok (io_queue a)) ;;
  Ok (mkIO mode2 (c_recs s) model queue (io_rmse a) (c_pins s)).

(** ** Snow *)

(** The filter loop 3307-3314 (bands are independent, so the loop over bands
    is part of [k_sfilter]); [vt] is indeterminate if no day is stepped. *)
Fixpoint snow_filter (m : N) (x : list obs) (n : nat) : out N :=
  match n, x with
  | O, _ => Ok m
  | Datatypes.S n', o :: ((o1 :: _) as t) =>
      if o_date o1 - o_date o <=? 0 then UB
      else snow_filter (k_sfilter K m o (o_date o1 - o_date o)) t n'
  | _, _ => UB
  end.

(** [sccd_snow] (3095-3394). *)
Definition snow (x : list obs) (a : io) : out io :=
  let n := zlen x in
  let mode := io_mode a in
  let save m start nobs :=
    w <- save8 x (n - slots) slots ;;
    Ok (mkIO 3 (io_recs a) (mkNm (k_store K m) start nobs w (-9999) (-9999) 0)
             (io_queue a) (io_rmse a) (io_pins a)) in
  if (mode =? 4) || (mode =? 0) then
    if n <? 18 then
      q <- mapO st_obs x ;;
      Ok (mkIO 4 (io_recs a) (io_model a) q (io_rmse a) (io_pins a))
    else
      m <- of_opt (k_snow K x) ;;
      o0 <- get x 0 ;;
      save m (wrap16 (o_date o0 - launch)) (wrap16 n)
  else
    m <- snow_filter (k_load K (nm_st (io_model a))) x (Z.to_nat (n - slots)) ;;
    save m (nm_start (io_model a)) (wrap16 (nm_nobs (io_model a) + n - slots)).

End Sccd.

Arguments mkSK {N S F C}. Arguments mkSeg {C}. Arguments mkNm {S}.
Arguments mkC {N S C}. Arguments mkIO {S C}.

(** ** The entry point *)

(** The six bands used (s_ccd.c 204-220, 264-280). *)
Definition sobs (q : raw) : obs :=
  mkObs (q_date q) [q_b q; q_g q; q_r q; q_n q; q_s1 q; q_s2 q].

(** Appending usable rows, the first of equal neighbouring dates
    (194-224, 254-284); [last] is clrx[n_clr-1]. *)
Fixpoint append_obs (keep : raw * bool -> bool) (l : list (raw * bool)) (last : option Z) : list obs :=
  match l with
  | [] => []
  | q :: t =>
      if keep q then
        match last with
        | Some d => if q_date (fst q) =? d then append_obs keep t last
                    else sobs (fst q) :: append_obs keep t (Some (q_date (fst q)))
        | None => sobs (fst q) :: append_obs keep t (Some (q_date (fst q)))
        end
      else append_obs keep t last
  end.

Definition keep_std (q : raw * bool) : bool := (q_qa (fst q) <? 2) && snd q.
Definition keep_snow (q : raw * bool) : bool := (q_qa (fst q) =? 3) || (q_qa (fst q) <? 2).

Definition last_date (x : list obs) : option Z :=
  match rev x with [] => None | o :: _ => Some (o_date o) end.

(** min_rmse (230-240): medians of neighbouring differences truncated to
    [short].  [junk] is what min_rmse_float holds before the call; a value
    still from there is converted as well. *)
Definition min_rmse_of (junk : list Z) (x : list obs) : out (list Z) :=
  '(_, o) <- variogram (map o_date x) (map (fun b => map (fun o => nth b (o_vals o) 0) x) (seq 0 6))
               0 (zlen x - 1) 0 0 junk ;;
  Ok (map (fun v => Z.quot v 2) o).

(** Modes accepted (80-96). *)
Definition mode_ok (m : Z) : bool :=
  (m =? 0) || (m =? 1) || (m =? 2) || (m =? 3) || (m =? 4) || (m =? 5) || (m =? 11) || (m =? 12).

Definition queue_mode (m : Z) : bool := (m =? 4) || (Z.rem m 10 =? 2) || (Z.rem m 10 =? 5).
Definition monitor_mode (m : Z) : bool := (m =? 3) || (Z.rem m 10 =? 1).

(** Observations taken over from the state (154-177). *)
Definition carried {S C} (a : io S C) : list obs :=
  if queue_mode (io_mode a) then map ld_obs (io_queue a)
  else if monitor_mode (io_mode a) then map ld_obs (firstn 8 (nm_obs (io_model a)))
  else [].

(** Snow or standard (133-147): sn / (sn + clear + 0.01) < 0.75 is
    sn <= 3 * clear for counts below 10^12. *)
Definition is_snow (mode : Z) (c : counts) : bool :=
  if mode =? 0 then 3 * n_clear c <? n_snow c else (mode =? 4) || (mode =? 3).

(** [sccd] (33-299).  The kernel depends on min_rmse. *)
Definition sccd {N S F C} (K : list Z -> skernel N S F C) (P : sparams) (c2 : bool) (junk : list Z)
  (fuel : nat) (rows : list raw) (a : io S C) : out (io S C) :=
  if negb (mode_ok (io_mode a)) then Fail else
  '(pre, cnt) <- preprocess c2 rows (mkCounts 0 0 0 0 0) ;;
  let old := carried a in
  if is_snow (io_mode a) cnt then
    let x := old ++ append_obs keep_snow pre (last_date old) in
    snow (K (io_rmse a)) x a
  else
    let x := old ++ append_obs keep_std pre (last_date old) in
    if zlen old <? zlen x then
      rm <- (if (zlen (io_recs a) =? 0) && (io_mode a =? 0) then min_rmse_of junk x else Ok (io_rmse a)) ;;
      standard (K rm) P fuel x (mkIO (io_mode a) (io_recs a) (io_model a) (io_queue a) rm (io_pins a))
    else Ok a.
