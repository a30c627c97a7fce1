(** Specifications for the COLD records, independent of the state machine:
    they mention observations, records and the numerical routines only. *)
From Verif Require Import Base ColdModel.

Section Spec.
Variables M D : Type.
Variable K : kernel M D.
Variable P : params.
Notation rec := (rec M D).

(** A deviation counts as anomalous unless its magnitude is a number not
    above the threshold. *)
Definition anomalous (d : D) : Prop :=
  match k_norm K d with NaN => True | Fin z => p_tcg P < z end.

(** Mean included angle below 45 degrees. *)
Definition consistent (w : list D) : Prop :=
  exists a, k_angle K w = Fin a /\ a < p_nsign P.

(** The evidence for a confirmed break: conse consecutive anomalous,
    directionally consistent deviations, the first one at date [d]. *)
Definition evidence (d : Z) (w : list (obs * D)) : Prop :=
  zlen w = p_conse P /\
  (exists o e t, w = (o, e) :: t /\ o_date o = d) /\
  Forall anomalous (map snd w) /\ consistent (map snd w).

(** Number of coefficients three observations per coefficient allow. *)
Definition best_num_c (n c : Z) : Prop :=
  (c = 4 /\ 12 <= n < 18) \/ (c = 6 /\ 18 <= n < 24) \/ (c = 8 /\ 24 <= n).

(** A regular segment: category 4, 6 or 8, at least a year and twelve
    observations. *)
Definition regular (r : rec) : Prop :=
  best_num_c (num_obs r) (category r) /\ num_obs r = zlen (r_win r) /\
  t_start r + 366 <= t_end r.

(** A segment closed by a confirmed break. *)
Definition closed_regular (r : rec) : Prop :=
  regular r /\ change_prob r = 100 /\ t_end r < t_break r /\ evidence (t_break r) (r_devs r).

(** The initial segment found by the look-back test.  Its deviations are
    listed from the break backwards. *)
Definition closed_initial (r : rec) : Prop :=
  category r = 14 /\ change_prob r = 100 /\ t_start r <= t_end r < t_break r /\
  6 <= zlen (r_win r) /\ num_obs r = zlen (r_win r) + 1 /\
  zlen (r_devs r) = Z.min (p_conse P) (zlen (r_win r)) /\
  (exists o e t, r_devs r = (o, e) :: t /\ o_date o = t_end r) /\
  Forall anomalous (map snd (r_devs r)) /\ consistent (map snd (r_devs r)).

(** Neighbouring records do not overlap. *)
Fixpoint chained (rs : list rec) : Prop :=
  match rs with
  | r1 :: ((r2 :: _) as t) => t_break r1 <= t_start r2 /\ chained t
  | _ => True
  end.

(** All records closed, only the first possibly an initial segment. *)
Definition closed_list (rs : list rec) : Prop :=
  match rs with
  | [] => True
  | r :: t => (closed_regular r \/ closed_initial r) /\ Forall closed_regular t
  end.

(** Share of trailing anomalous observations: [c] is the length of the
    longest run of suffixes of [w] all anomalous and consistent. *)
Definition suffix_bad (w : list D) (j : nat) : Prop :=
  exists d, nth_error w (length w - j) = Some d /\ anomalous d /\
    fge (k_angle K (skipn (length w - j) w)) (Fin (p_nsign P)) = false.
Definition trailing (w : list D) (c : nat) : Prop :=
  (forall j, (1 <= j <= c)%nat -> suffix_bad w j) /\ (c < length w)%nat /\ ~ suffix_bad w (S c).

(** The last record when the series ends while a model is monitored: [wo] are
    the last conse observations looked at (all but the first one are the last
    surviving ones; the first may have been dropped as noise after its test). *)
Definition open_trained (live : list obs) (r : rec) : Prop :=
  regular r /\
  exists wo : list (obs * D), let w := map snd wo in
  zlen w = p_conse P /\
  map fst (tl wo) = skipn (length live - (Z.to_nat (p_conse P) - 1)) live /\
  ((exists c, trailing w c /\ change_prob r = Z.of_nat c * 100 / p_conse P /\
      (c = O -> t_break r = 0) /\
      (c <> O -> t_end r < t_break r /\ length (r_devs r) = c /\
           map snd (r_devs r) = skipn (length w - c) w /\
           exists o e t, r_devs r = (o, e) :: t /\ o_date o = t_break r))
   \/ ((forall j, (1 <= j <= length w)%nat -> suffix_bad w j) /\
       change_prob r = 0 /\ t_break r = 0 /\
       (k_angle K w = NaN \/ p_cap P <= p_tcg P))).

(** The last record when the series ends while initialising. *)
Definition open_untrained (r : rec) : Prop :=
  category r = 24 /\ change_prob r = 0 /\ t_break r = 0 /\ t_start r <= t_end r /\
  6 <= num_obs r /\ num_obs r = zlen (r_win r).

(** Shape of the whole result. *)
Definition result_ok (live : list obs) (rs : list rec) : Prop :=
  chained rs /\
  (closed_list rs \/
   exists cl r, rs = cl ++ [r] /\ closed_list cl /\ (open_trained live r \/ open_untrained r)).

(** Every date reported is the date of an observation, every observation
    behind a record is one of the series. *)
Definition from_series (x : list obs) (r : rec) : Prop :=
  In (t_start r) (map o_date x) /\ In (t_end r) (map o_date x) /\
  ((t_break r = 0 /\ change_prob r < 100) \/ In (t_break r) (map o_date x)) /\
  subseq (r_win r) x.

(** CM specification: the (date, value) pairs of one interval, in time order
    of computation. *)
Definition bucket (c : cmcfg) (d : Z) : Z := Z.quot (d - cm_start c) (cm_int c).
Fixpoint cm_values (c : cmcfg) (n : Z) (log : list (event D)) : list (Z * Z) :=
  match log with   (* log is newest first; result is oldest first *)
  | [] => []
  | EvCM d _ v :: t => if bucket c d =? n then cm_values c n t ++ [(d, v)] else cm_values c n t
  | _ :: t => cm_values c n t
  end.
Definition cm_entry (ini : Z * Z) (vs : list (Z * Z)) (e : Z * Z) : Prop :=
  (e = ini /\ Forall (fun dv => snd dv <= fst ini) vs) \/
  (exists pre d post, vs = pre ++ (d, fst e) :: post /\
     fst ini < fst e /\ snd e = wrap16 (d - 723742) /\
     Forall (fun dv => snd dv < fst e) pre /\ Forall (fun dv => snd dv <= fst e) post).

(** Smallest magnitude of a window, capped; undefined magnitudes ignored. *)
Definition window_min (w : list D) (z : Z) : Prop :=
  z <= p_cap P /\
  Forall (fun d => match k_norm K d with NaN => True | Fin y => z <= y end) w /\
  (z = p_cap P \/ exists d, In d w /\ k_norm K d = Fin z).

(** The CM value of a window: rounded angle-weighted minimum magnitude,
    clamped to the largest short. *)
Definition cm_value (w : list D) (v : Z) : Prop :=
  exists z t, window_min w z /\ k_cm K (k_angle K w) (Fin z) = Some t /\
    v = wrap16 (Z.min t 32767).

(** What the log of monitoring decisions must look like. *)
Definition decision_ok (x : list obs) (ev : event D) : Prop :=
  match ev with
  | EvMon d w v =>
      zlen w = p_conse P /\ (exists o e t, w = (o, e) :: t /\ o_date o = d) /\
      subseq (map fst w) x /\
      (p_tcg P < p_cap P ->
        (v = true <-> Forall anomalous (map snd w) /\ consistent (map snd w)))
  | EvLook d w v =>
      (p_tcg P < p_cap P ->
        (v = true <-> Forall anomalous (map snd w) /\ consistent (map snd w)))
  | EvCM d w v => In d (map o_date x) /\ cm_value w v
  end.
Fixpoint confirmed_dates (log : list (event D)) : list Z :=   (* oldest first *)
  match log with
  | [] => []
  | EvMon d _ true :: t => confirmed_dates t ++ [d]
  | _ :: t => confirmed_dates t
  end.
Definition regular_breaks (rs : list rec) : list Z :=
  map (fun r => t_break r) (filter (fun r => negb (category r =? 14) && (change_prob r =? 100)) rs).

End Spec.
