(** Model of [stand_procedure] (src/cxx/cold.c 2604-4831), the COLD state
    machine.

    Simplifications, valid for the whole file:
    - The numerical routines are the fields of [kernel]: arbitrary functions
      of exactly the observations the C code hands to them.  They may fail
      ([None]) where the C routine can return an error status.
    - The observation arrays clrx/clry (cold.c 2727-2780) are one list of
      observations.  [s_live] are the first [end] cells, [s_stale] the cells
      between [end] and n_clr that keep old values after removals.  Every
      access the C code makes to positions < end goes through [get]/[slice]
      on [s_live]; an access at or past [end] yields [UB] although it may hit
      allocated memory (stricter than C).
    - rec_cg[0 .. *num_fc-1] is [s_recs]; the partly filled slot
      rec_cg[*num_fc] is [s_cur].  The caller passes num_fc = 0
      (_colds_cython.pyx 189), so rec_fc = 0.
    - [r_win], [r_devs] and [s_log] are ghost fields: the observations behind
      the record's coefficients, the deviations behind its magnitude, and a
      log of decisions.  Nothing in the control flow reads them.
    - Allocation failures are not modelled. *)
From Verif Require Import Base.

(** One clear observation: date and the band values. *)
Record obs := mkObs { o_date : Z; o_vals : list Z }.

Section Cold.
Variables M D : Type.

(** Numerical routines used by [stand_procedure]. *)
Record kernel := mkKernel {
  (* auto_mask (misc.c 1459) on a window: position -> flagged as outlier *)
  k_mask : list obs -> option (nat -> bool);
  (* auto_ts_fit_float (misc.c 2241) for all bands: degrees of freedom, window;
     the result stands for fit_cft, rmse and the residuals rec_v_dif *)
  k_fit : Z -> list obs -> option M;
  (* v_dif_norm of the stability test (cold.c 3290-3339) *)
  k_stab : M -> list obs -> fl;
  (* deviation of one observation from the model predicted with the given
     number of coefficients, normalised by max(min_rmse, rmse)
     (cold.c 3497-3528, 3957-3982) *)
  k_dev : M -> Z -> obs -> D;
  (* same, normalised by the RMSE of the n_rmse residuals nearest in day of
     year (cold.c 4118-4245): model, prediction coefficients, n_rmse, fitted
     observations, new observation *)
  k_devr : M -> Z -> Z -> list obs -> obs -> D;
  (* squared norm of a normalised deviation (vec_mag, cold.c 3985) *)
  k_norm : D -> fl;
  (* MeanAngl_float (misc.c 3006) *)
  k_angle : list D -> fl;
  (* (int) round(angle_decaying(angle, 45, 90) * magnitude * 100)
     (cold.c 3567-3569, 4276-4279); [None] when the conversion to int is
     undefined (NaN or out of range) *)
  k_cm : fl -> fl -> option Z
}.

(** Parameters of the call (cold.c 2617-2627) and constants of defines.h.
    Thresholds are images under the order embedding of [fl]. *)
Record cmcfg := mkCm { cm_start : Z; cm_int : Z }.
Record params := mkParams {
  p_tcg : Z;             (* adj_TCG = (float) tcg, cold.c 2905 *)
  p_tmax : Z;            (* T_MAX_CG 30.8562, defines.h *)
  p_nsign : Z;           (* NSIGN 45, defines.h *)
  p_cap : Z;             (* 9999.0, cold.c 3481, 4251 *)
  p_conse : Z;           (* adj_conse = conse, cold.c 2904 *)
  p_gap : Z;             (* floor(gap_days): an int exceeds gap_days iff it exceeds this *)
  p_skip : Z -> Z;       (* (int)(i_span_skip * SKIP_PERCENTAGE), cold.c 4014 *)
  p_cm : option cmcfg    (* Some iff b_outputCM *)
}.

(** Output_t (src/cxx/output.h 14-49) without pos, plus ghost fields. *)
Record rec := mkRec {
  t_start : Z; t_end : Z; t_break : Z; num_obs : Z; category : Z; change_prob : Z;
  r_model : M;                (* coefs and rmse *)
  r_win : list obs;           (* ghost: observations r_model was fitted to *)
  r_devs : list (obs * D)     (* ghost: deviations whose median is magnitude; [] for magnitude 0 *)
}.

(** Ghost log entries: one per look-back test, monitoring test, CM value. *)
Inductive event :=
| EvLook (d : Z) (w : list (obs * D)) (verdict : bool)
| EvMon (d : Z) (w : list (obs * D)) (verdict : bool)
| EvCM (d : Z) (w : list D) (v : Z).

Record st := mkSt {
  s_live : list obs; s_stale : list obs;
  s_i : Z; s_start : Z; s_dense : Z; s_train : bool;
  s_count : Z; s_preend : Z; s_oldlen : Z; s_skip : Z;
  s_fit : option M; s_win : list (obs * D);
  s_cur : option rec; s_recs : list rec;
  s_cm : list (Z * Z);            (* CM_outputs, CM_outputs_date *)
  s_log : list event              (* newest first *)
}.

Variable K : kernel.
Variable P : params.

Definition s_end (s : st) : Z := zlen (s_live s).
Definition num_fc (s : st) : Z := zlen (s_recs s).

(** update_cft (misc.c 42-69) with the constants it is called with
    (cold.c 3829: N_TIMES 3, MIN/MID/MAX_NUM_C 4/6/8, num_c 8). *)
Definition update_cft (i_span : Z) : Z :=
  if i_span <? 18 then 4 else if i_span <? 24 then 6 else 8.

(** Largest difference of neighbouring dates (cold.c 3029-3037). *)
Fixpoint max_gap (w : list obs) : Z :=
  match w with
  | a :: ((b :: _) as t) => Z.max (o_date b - o_date a) (max_gap t)
  | _ => 0
  end.

(** Observations of the window not flagged (cold.c 3072-3088 together with
    the compaction 3144-3158, restricted to the window). *)
Fixpoint keep_from (f : nat -> bool) (k : nat) (w : list obs) : list obs :=
  match w with
  | [] => []
  | a :: t => if f k then keep_from f (S k) t else a :: keep_from f (S k) t
  end.

(** First position with a date >= b, counted from 1 (cold.c 3413-3420,
    4539-4546). *)
Fixpoint first_ge (b : Z) (l : list obs) (k : Z) : option Z :=
  match l with
  | [] => None
  | a :: t => if b <=? o_date a then Some (k + 1) else first_ge b t (k + 1)
  end.

(** Minimum scan starting at 9999.0 (cold.c 3481, 3541-3544, 4251-4258):
    NaN never replaces the minimum. *)
Definition min_mag (w : list D) : fl :=
  fold_left (fun m d => if fgt m (k_norm K d) then k_norm K d else m) w (Fin (p_cap P)).

(** Change confirmed? (cold.c 3603 and 4314) *)
Definition confirmed (w : list D) : bool :=
  fgt (min_mag w) (Fin (p_tcg P)) && flt (k_angle K w) (Fin (p_nsign P)).

(** First deviation beyond T_MAX_CG (cold.c 3614, 4393). *)
Definition outlier0 (w : list D) : bool :=
  match w with [] => false | d :: _ => fgt (k_norm K d) (Fin (p_tmax P)) end.

(** CM bookkeeping (cold.c 3564-3601 and 4274-4309). *)
Definition cm_update (cm : list (Z * Z)) (log : list event) (d : Z) (w : list D)
  : out (list (Z * Z) * list event) :=
  match p_cm P with
  | None => Ok (cm, log)
  | Some c =>
      if cm_int c =? 0 then UB else
      let n := Z.quot (d - cm_start c) (cm_int c) in
      match k_cm K (k_angle K w) (min_mag w) with
      | None => UB
      | Some tmp0 =>
          let tmp := if 32767 <? tmp0 then 32767 else tmp0 in
          let v := wrap16 tmp in
          '(cv, cd) <- get cm n ;;
          if cv <? v
          then (cm' <- put cm n (v, wrap16 (d - 723742)) ;; Ok (cm', EvCM d w v :: log))
          else Ok (cm, EvCM d w v :: log)
      end
  end.

(** Reading [n] observations [f 0 .. f (n-1)] of the live array. *)
Fixpoint mapM_idx (l : list obs) (f : nat -> Z) (k n : nat) : out (list obs) :=
  match n with
  | O => Ok []
  | S n' => o <- get l (f k) ;; t <- mapM_idx l f (S k) n' ;; Ok (o :: t)
  end.

(** Removing observation [k]: the shift loops cold.c 3616-3623, 4401-4406
    followed by end--; the last live cell keeps its old value as stale. *)
Definition drop_obs (s : st) (k : Z) : list obs * list obs :=
  let live' := del (Z.to_nat k) (s_live s) in
  (live', skipn (length live') (s_live s) ++ s_stale s).

(** Loop cold.c 3432-3652.  [n] iterations remain, i_ini = i_break - 2 + n.
    Returns the state and the deviations of the last iteration (v_dif_mag,
    ini_conse). *)
Fixpoint lookback (n : nat) (m : M) (i_break : Z) (w0 : list (obs * D)) (s : st)
  : out (st * list (obs * D)) :=
  match n with
  | O => Ok (s, w0)
  | S n' =>
      let i_ini := i_break - 1 + Z.of_nat n' in
      let full := i_ini - (i_break - 1) + 1 in
      let ini_conse := if full <? p_conse P then full else p_conse P in
      if ini_conse =? 0 then Fail else
      os <- mapM_idx (s_live s) (fun c => i_ini - (Z.of_nat c + 1) + 1) 0 (Z.to_nat ini_conse) ;;
      let w := map (fun o => (o, k_dev K m 4 o)) os in
      let ds := map snd w in
      '(cm', log') <-
         (if p_conse P <=? ini_conse
          then (o1 <- get (s_live s) (i_ini + 1) ;; cm_update (s_cm s) (s_log s) (o_date o1) ds)
          else Ok (s_cm s, s_log s)) ;;
      oi <- get (s_live s) i_ini ;;
      let v := confirmed ds in
      let s1 := mkSt (s_live s) (s_stale s) (s_i s) (s_start s) (s_dense s) (s_train s)
                  (s_count s) (s_preend s) (s_oldlen s) (s_skip s) (s_fit s) (s_win s)
                  (s_cur s) (s_recs s) cm' (EvLook (o_date oi) w v :: log') in
      if v then Ok (s1, w)
      else
        let '(live', stale', i') :=
          if outlier0 ds
          then (let '(l, t) := drop_obs s1 i_ini in (l, t, s_i s1 - 1))
          else (s_live s1, s_stale s1, s_i s1) in
        lookback n' m i_break w
          (mkSt live' stale' i' (i_ini + 1) (s_dense s1) (s_train s1)
             (s_count s1) (s_preend s1) (s_oldlen s1) (s_skip s1) (s_fit s1) (s_win s1)
             (s_cur s1) (s_recs s1) (s_cm s1) (s_log s1))
  end.

(** Closing a record: *num_fc + 1 and the reallocation of the caller's
    40-entry buffer (cold.c 3756-3771, 4354-4370, NUM_FC 40).  The buffer
    belongs to numpy (_colds_cython.pyx 158-190), so realloc is [UB]. *)
Definition push_rec (rs : list rec) (r : rec) : out (list rec) :=
  if 40 <=? zlen rs + 1 then UB else Ok (rs ++ [r]).

(** Model initialisation (cold.c 3015-3773).  The boolean tells whether the
    code falls through to monitoring (bl_train = 1) or continues the loop. *)
Definition initialise (s : st) : out (st * bool) :=
  let i := s_i s in let i_start := s_start s in let conse := p_conse P in
  w <- slice (s_live s) (i_start - 1) (i - i_start + 1) ;;
  if p_gap P <? max_gap w then
    Ok (mkSt (s_live s) (s_stale s) (i + 1) (i_start + 1) (i_start + 1) (s_train s)
          (s_count s) (s_preend s) (s_oldlen s) (s_skip s) (s_fit s) (s_win s)
          (s_cur s) (s_recs s) (s_cm s) (s_log s), false)
  else
  wide <- slice (s_live s) (i_start - 1) (i + conse - i_start + 1) ;;
  flags <- of_opt (k_mask K wide) ;;
  let w' := keep_from flags 0 w in
  let i_span := zlen w' in
  let stay i' start' live' stale' :=
    mkSt live' stale' i' start' (s_dense s) (s_train s)
          (s_count s) (s_preend s) (s_oldlen s) (s_skip s) (s_fit s) (s_win s)
          (s_cur s) (s_recs s) (s_cm s) (s_log s) in
  if i_span <? 12 then Ok (stay (i + 1) i_start (s_live s) (s_stale s), false) else
  let cp := firstn (Z.to_nat (i_start - 1)) (s_live s) ++ w' ++ skipn (Z.to_nat i) (s_live s) in
  let i' := i_start + i_span - 1 in
  ce <- get cp (i' - 1) ;;
  cs <- get cp (i_start - 1) ;;
  if o_date ce - o_date cs <? 366 then Ok (stay (i + 1) i_start (s_live s) (s_stale s), false) else
  let stale' := skipn (length cp) (s_live s) ++ s_stale s in
  wf <- slice cp (i_start - 1) (i' - i_start + 1) ;;
  m <- of_opt (k_fit K 4 wf) ;;
  if fgt (k_stab K m wf) (Fin (p_tcg P)) then Ok (stay (i' + 1) (i_start + 1) cp stale', false) else
  (* bl_train = 1, i_count = 0 *)
  i_break <-
    match rev (s_recs s) with
    | [] => Ok (s_dense s)
    | r :: _ => match first_ge (t_break r) cp 0 with Some b => Ok b | None => UB end
    end ;;
  let s1 := mkSt cp stale' i' i_start (s_dense s) true
              0 (s_preend s) (s_oldlen s) (s_skip s) (Some m) (s_win s)
              (s_cur s) (s_recs s) (s_cm s) (s_log s) in
  '(s2, lw) <- lookback (Z.to_nat (i_start - i_break)) m i_break [] s1 ;;
  match s_recs s2 with
  | [] =>
      if 6 <=? s_start s2 - s_dense s2 then
        w2 <- slice (s_live s2) (s_dense s2 - 1) (s_start s2 - s_dense s2) ;;
        m2 <- of_opt (k_fit K 4 w2) ;;
        oe <- get (s_live s2) (s_start s2 - 2) ;;
        ob <- get (s_live s2) (s_start s2 - 1) ;;
        os <- get (s_live s2) (s_dense s2 - 1) ;;
        rs <- push_rec [] (mkRec (o_date os) (o_date oe) (o_date ob)
                             (s_start s2 - s_dense s2 + 1) 14 100 m2 w2 lw) ;;
        Ok (mkSt (s_live s2) (s_stale s2) (s_i s2) (s_start s2) (s_dense s2) (s_train s2)
              (s_count s2) (s_preend s2) (s_oldlen s2) (s_skip s2) (Some m2) (s_win s2)
              (s_cur s2) rs (s_cm s2) (s_log s2), true)
      else Ok (s2, true)
  | _ :: _ => Ok (s2, true)
  end.

(** Monitoring, model part (cold.c 3802-4246): refit if due, fill or shift
    the window of deviations. *)
Definition mon_fit (s : st) : out st :=
  let i := s_i s in let i_start := s_start s in let conse := p_conse P in
  let i_span := i - i_start + 1 in
  let skip := if s_skip s =? 0 then i_span else s_skip s in
  let nc := update_cft i_span in
  xe <- get (s_live s) (i - 1) ;;
  xs <- get (s_live s) (i_start - 1) ;;
  if (s_count s =? 0) || (i_span <=? 24) then
    w <- slice (s_live s) (i_start - 1) i_span ;;
    m <- of_opt (k_fit K nc w) ;;
    os <- mapM_idx (s_live s) (fun c => i + (Z.of_nat c + 1) - 1) 0 (Z.to_nat conse) ;;
    Ok (mkSt (s_live s) (s_stale s) i i_start (s_dense s) (s_train s)
          (o_date xe - o_date xs) i i_span skip (Some m)
          (map (fun o => (o, k_dev K m nc o)) os)
          (Some (mkRec (o_date xs) (o_date xe) 0 i_span nc 0 m w []))
          (s_recs s) (s_cm s) (s_log s))
  else
    match s_cur s, s_fit s with
    | Some r0, Some m0 =>
        '(m, r1, cnt, pre, skip', oldlen) <-
          (if (1 <=? i - s_preend s) && (p_skip P skip <? i - s_preend s) then
             w <- slice (s_live s) (i_start - 1) i_span ;;
             m <- of_opt (k_fit K nc w) ;;
             Ok (m, mkRec (t_start r0) (t_end r0) (t_break r0) i_span nc (change_prob r0) m w (r_devs r0),
                 o_date xe - o_date xs, i, i_span, i_span)
           else Ok (m0, r0, s_count s, s_preend s, skip, s_oldlen s)) ;;
        let r2 := mkRec (t_start r1) (o_date xe) (t_break r1) (num_obs r1) (category r1)
                    (change_prob r1) (r_model r1) (r_win r1) (r_devs r1) in
        let n_rmse := 3 * category r2 in
        if oldlen =? 0 then Fail else
        if oldlen <? n_rmse then UB else
        wo <- slice (s_live s) (i_start - 1) oldlen ;;
        o <- get (s_live s) (i + conse - 1) ;;
        Ok (mkSt (s_live s) (s_stale s) i i_start (s_dense s) (s_train s)
              cnt pre oldlen skip' (Some m)
              (tl (s_win s) ++ [(o, k_devr K m nc n_rmse wo o)])
              (Some r2) (s_recs s) (s_cm s) (s_log s))
    | _, _ => UB
    end.

(** Monitoring, decision part (cold.c 4248-4410), then i++ (4421). *)
Definition mon_decide (s : st) : out st :=
  let i := s_i s in
  let ds := map snd (s_win s) in
  oi <- get (s_live s) i ;;
  '(cm', log') <- cm_update (s_cm s) (s_log s) (o_date oi) ds ;;
  let v := confirmed ds in
  let log2 := EvMon (o_date oi) (s_win s) v :: log' in
  match s_cur s with
  | None => UB
  | Some r =>
    if v then
      rs <- push_rec (s_recs s) (mkRec (t_start r) (t_end r) (o_date oi) (num_obs r) (category r)
                                   100 (r_model r) (r_win r) (s_win s)) ;;
      Ok (mkSt (s_live s) (s_stale s) (i + 1) (i + 1) (s_dense s) false
            (s_count s) (s_preend s) (s_oldlen s) 0 (s_fit s) (s_win s)
            None rs cm' log2)
    else
      let '(live', stale', i') :=
        if outlier0 ds
        then (let '(l, t) := drop_obs s i in (l, t, i - 1))
        else (s_live s, s_stale s, i) in
      Ok (mkSt live' stale' (i' + 1) (s_start s) (s_dense s) (s_train s)
            (s_count s) (s_preend s) (s_oldlen s) (s_skip s) (s_fit s) (s_win s)
            (s_cur s) (s_recs s) cm' log2)
  end.

Definition monitor (s : st) : out st := s1 <- mon_fit s ;; mon_decide s1.

(** One iteration of the main loop (cold.c 2979-4423).
    time_span >= 1 year is "at least 366 days" for integer dates: 365/365.25
    is below and 366/365.25 above 1 in float arithmetic. *)
Definition step (s : st) : out st :=
  let i := s_i s in let i_start := s_start s in
  xe <- get (s_live s) (i - 1) ;;
  xs <- get (s_live s) (i_start - 1) ;;
  if (12 <=? i - i_start + 1) && (366 <=? o_date xe - o_date xs) then
    if s_train s then monitor s
    else '(s1, trained) <- initialise s ;; if (trained : bool) then monitor s1 else Ok s1
  else
    Ok (mkSt (s_live s) (s_stale s) (i + 1) i_start (s_dense s) (s_train s)
          (s_count s) (s_preend s) (s_oldlen s) (s_skip s) (s_fit s) (s_win s)
          (s_cur s) (s_recs s) (s_cm s) (s_log s)).

Fixpoint loop (fuel : nat) (s : st) : out st :=
  if s_i s <=? s_end s - p_conse P then
    match fuel with
    | O => Fuel
    | S f => s' <- step s ;; loop f s'
    end
  else Ok s.

(** id_last (cold.c 4441-4474): scanning i_conse = conse-1 .. 0, the first
    position whose deviation is not above the threshold or whose suffix is
    not directionally consistent; adj_conse if there is none. *)
Fixpoint id_last_from (n : nat) (w : list D) (dflt : Z) : Z :=
  match n with
  | O => dflt
  | S c =>
      match nth_error w c with
      | None => dflt
      | Some d =>
          if fle (k_norm K d) (Fin (p_tcg P)) || fge (k_angle K (skipn c w)) (Fin (p_nsign P))
          then Z.of_nat c + 1 else id_last_from c w dflt
      end
  end.

(** End of the series while monitoring (cold.c 4431-4516). *)
Definition finish_trained (s : st) : out (list rec) :=
  let conse := p_conse P in
  let ds := map snd (s_win s) in
  let id_last := id_last_from (Z.to_nat conse) ds conse in
  match s_cur s with
  | None => UB
  | Some r =>
      oe <- get (s_live s) (s_end s - 1 - conse + id_last) ;;
      let prob := (conse - id_last) * 100 / conse in
      if id_last <? conse then
        ob <- get (s_live s) (s_end s - conse + id_last) ;;
        Ok (s_recs s ++ [mkRec (t_start r) (o_date oe) (o_date ob) (num_obs r) (category r) prob
                           (r_model r) (r_win r) (skipn (Z.to_nat id_last) (s_win s))])
      else
        Ok (s_recs s ++ [mkRec (t_start r) (o_date oe) (t_break r) (num_obs r) (category r) prob
                           (r_model r) (r_win r) (r_devs r)])
  end.

(** End of the series while initialising (cold.c 4517-4725).  Writing slot
    *num_fc happens before the bound check at 4707; [push_rec] has made sure
    *num_fc <= 39. *)
Definition finish_untrained (s : st) : out (list rec) :=
  let i_start :=
    match rev (s_recs s) with
    | [] => 1
    | r :: _ => match first_ge (t_break r) (s_live s ++ s_stale s) 0 with
                | Some b => b | None => s_start s end
    end in
  live <-
    (if 6 <=? s_end s - i_start + 1 then
       w <- slice (s_live s) (i_start - 1) (s_end s - i_start + 1) ;;
       flags <- of_opt (k_mask K w) ;;
       Ok (firstn (Z.to_nat (i_start - 1)) (s_live s) ++ keep_from flags 0 w)
     else Ok (s_live s)) ;;
  let e := zlen live in
  if 6 <=? e - i_start + 1 then
    w <- slice live (i_start - 1) (e - i_start + 1) ;;
    m <- of_opt (k_fit K 4 w) ;;
    ts <- match rev (s_recs s) with
          | [] => (o <- get live 0 ;; Ok (o_date o))
          | r :: _ => Ok (t_break r)
          end ;;
    oe <- get live (e - 1) ;;
    Ok (s_recs s ++ [mkRec ts (o_date oe) 0 (e - i_start + 1) 24 0 m w []])
  else Ok (s_recs s).

(** Initial state (cold.c 2866, 2935-2970). *)
Definition init_st (x : list obs) (cm : list (Z * Z)) : st :=
  mkSt x [] 12 1 1 false 0 0 0 0 None [] None [] cm [].

Record result := mkRes { res_recs : list rec; res_cm : list (Z * Z); res_log : list event; res_live : list obs }.

(** The whole procedure after observation selection. *)
Definition stand_procedure (fuel : nat) (x : list obs) (cm : list (Z * Z)) : out result :=
  s <- loop fuel (init_st x cm) ;;
  rs <- (if s_train s then finish_trained s else finish_untrained s) ;;
  Ok (mkRes rs (s_cm s) (s_log s) (s_live s)).

End Cold.

Arguments mkKernel {M D}. Arguments mkRec {M D}. Arguments mkSt {M D}.
Arguments EvLook {D}. Arguments EvMon {D}. Arguments EvCM {D}.
