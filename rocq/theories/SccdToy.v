(** A small numerical kernel for the concrete cases: the state is one level,
    the magnitude of an observation its distance to the level in the first
    band. *)
From Verif Require Import Base SortModel LibModel ColdModel FrontModel SccdModel SccdApi.

Definition first_val (o : obs) : Z := nth 0 (o_vals o) 0.
Definition dist (m : Z) (o : obs) : fl := Fin (Z.abs (first_val o - m)).
Definition level (w : list obs) : Z := match w with [] => 0 | o :: _ => first_val o end.

Definition toyk (mask : option (nat -> bool)) (stab : fl) (ang : fl) : skernel Z Z Z Z :=
  mkSK (fun _ => mask) (fun w => Some (level w)) (fun _ _ => stab) dist (fun _ _ => Fin 0)
       (fun f _ _ => Some f) (fun _ w _ => Some (level w)) (fun m _ o => dist m o) (fun _ _ _ => ang)
       (fun m _ _ => m) (fun m _ _ => m) (fun m _ => m) (fun m => m) (fun m => m)
       (fun a => match a with Fin z => Some (Z.min z 32767) | NaN => None end)
       (fun a => match a with Fin z => Z.min z 32767 | NaN => 32767 end)
       (fun w => Some (level w)) (fun m _ _ => m).
Definition toy (_ : list Z) := toyk (Some (fun _ => false)) (Fin 0) (Fin 0).

(** Thresholds: change 100, gate 50, outlier 1000. *)
Definition par (conse : Z) (pin : bool) : sparams := mkSP 100 100 50 50 1000 1000 45 9999 9999 conse pin.
Definition rw (d v : Z) : raw := mkRaw d v v v v v v 0 0.
Definition rows_every (start step n v : Z) : list raw :=
  map (fun k => rw (start + step * Z.of_nat k) v) (seq 0 (Z.to_nat n)).
Definition jm0 : nmodel Z := mkNm 0 0 0 (repeat zero_obs 8) 0 0 0.
Definition junk0 : list Z := [7; 7; 7; 7; 7; 7].
Definition tdetect conse := detect toy (par conse false) true junk0 jm0.
Definition tupdate conse := update toy (par conse false) true junk0 jm0.
Definition trun conse rows batches : out (io Z Z) :=
  fold_left (fun r b => a <- r ;; tupdate conse b a) batches (tdetect conse rows).
