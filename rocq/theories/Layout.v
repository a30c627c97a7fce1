(** Record layouts shared by the C structs (src/cxx/output.h 14-98), the
    Cython declarations (src/python/pycold/_colds_cython.pyx 32-82) and the
    numpy dtypes (src/python/pycold/common.py 9-72; a second set in
    src/python/pycold/imagetool/export_change_map.py 18-46 and 334-360).

    Simplification: the platform is the one numpy's align flag describes
    (each scalar is aligned to its size; int is 4 bytes, short 2, float 4). *)
From Verif Require Import Base.
From Coq Require Import String.
Local Open Scope string_scope.

Inductive kind := I32 | U32 | I16 | U8 | F32.
Definition width (k : kind) : Z := match k with I32 | U32 | F32 => 4 | I16 => 2 | U8 => 1 end.

(** Name, element type, dimensions. *)
Record field := mkF { f_name : string; f_kind : kind; f_dims : list Z }.
Definition count (f : field) : Z := fold_right Z.mul 1 (f_dims f).
Definition bytes (f : field) : Z := width (f_kind f) * count f.

Definition round_up (n a : Z) : Z := (n + a - 1) / a * a.

(** Offsets in field order, then the end of the last field.  [aligned] is the
    C ABI and numpy's align=True; numpy's default packs without gaps. *)
Fixpoint offsets (aligned : bool) (at_ : Z) (fs : list field) : list Z * Z :=
  match fs with
  | [] => ([], at_)
  | f :: t =>
      let o := if aligned then round_up at_ (width (f_kind f)) else at_ in
      let '(os, e) := offsets aligned (o + bytes f) t in (o :: os, e)
  end.
Definition max_align (fs : list field) : Z := fold_right Z.max 1 (map (fun f => width (f_kind f)) fs).
Definition size (aligned : bool) (fs : list field) : Z :=
  let e := snd (offsets aligned 0 fs) in if aligned then round_up e (max_align fs) else e.
Definition layout (aligned : bool) (fs : list field) : list (field * Z) * Z :=
  (combine fs (fst (offsets aligned 0 fs)), size aligned fs).

Definition sc n k := mkF n k [].
Definition ar n k ds := mkF n k ds.

(** output.h 14-49 *)
Definition c_Output_t : list field :=
  [sc "t_start" I32; sc "t_end" I32; sc "t_break" I32; sc "pos" I32; sc "num_obs" I32;
   sc "category" I16; sc "change_prob" I16; ar "coefs" F32 [7; 8]; ar "rmse" F32 [7]; ar "magnitude" F32 [7]].
(** output.h 51-67 *)
Definition c_Output_sccd : list field :=
  [sc "t_start" I32; sc "t_break" I32; sc "num_obs" I32; ar "coefs" F32 [6; 6]; ar "rmse" F32 [6]; ar "magnitude" F32 [6]].
(** output.h 69-77 *)
Definition c_Output_sccd_pinpoint : list field :=
  [sc "t_break" I32; ar "coefs" F32 [6; 6]; ar "obs" I16 [6; 8]; ar "obs_date_since1982" I16 [8];
   ar "norm_cm" I16 [8]; ar "cm_angle" I16 [8]].
(** output.h 79-92 *)
Definition c_output_nrtmodel : list field :=
  [sc "t_start_since1982" I16; sc "num_obs" I16; ar "obs" I16 [6; 8]; ar "obs_date_since1982" I16 [8];
   ar "covariance" F32 [6; 36]; ar "nrt_coefs" F32 [6; 6]; ar "H" F32 [6]; ar "rmse_sum" U32 [6];
   sc "norm_cm" I16; sc "cm_angle" I16; sc "conse_last" U8].
(** output.h 94-98 *)
Definition c_output_nrtqueue : list field := [ar "clry" I16 [6]; sc "clrx_since1982" I16].

(** common.py 9-26 (align not given) *)
Definition py_reccg_dt : list field :=
  [sc "t_start" I32; sc "t_end" I32; sc "t_break" I32; sc "pos" I32; sc "num_obs" I32;
   sc "category" I16; sc "change_prob" I16; ar "coefs" F32 [7; 8]; ar "rmse" F32 [7]; ar "magnitude" F32 [7]].
(** common.py 31-41 *)
Definition py_sccd_dt : list field :=
  [sc "t_start" I32; sc "t_break" I32; sc "num_obs" I32; ar "coefs" F32 [6; 6]; ar "rmse" F32 [6]; ar "magnitude" F32 [6]].
(** common.py 43 *)
Definition py_nrtqueue_dt : list field := [ar "clry" I16 [6]; sc "clrx_since1982" I16].
(** common.py 45-60 *)
Definition py_nrtmodel_dt : list field :=
  [sc "t_start_since1982" I16; sc "num_obs" I16; ar "obs" I16 [6; 8]; ar "obs_date_since1982" I16 [8];
   ar "covariance" F32 [6; 36]; ar "nrt_coefs" F32 [6; 6]; ar "H" F32 [6]; ar "rmse_sum" U32 [6];
   sc "norm_cm" I16; sc "cm_angle" I16; sc "conse_last" U8].
(** common.py 63-73 *)
Definition py_pinpoint_dt : list field :=
  [sc "t_break" I32; ar "coefs" F32 [6; 6]; ar "obs" I16 [6; 8]; ar "obs_date_since1982" I16 [8];
   ar "norm_cm" I16 [8]; ar "cm_angle" I16 [8]].

(** The Cython declarations (_colds_cython.pyx 32-82) carry no layout of their
    own (cdef extern); they matter for field names and extents, which Cython
    checks against the dtype when a view is taken. *)
Definition pyx_output_nrtmodel : list field :=
  [sc "t_start_since1982" I16; sc "num_obs" I16; ar "obs" I16 [6; 8]; ar "obs_date_since1982" I16 [8];
   ar "covariance" F32 [6; 36]; ar "nrt_coefs" F32 [6; 6]; ar "H" F32 [6]; ar "rmse_sum" U32 [6];
   sc "norm_cm" I16; sc "cm_angle" I16; sc "conse_last" U8].

(** export_change_map.py 18-28, 30, 31-46 *)
Definition ex_output_sccd : list field :=
  [sc "t_start" I32; sc "t_break" I32; sc "num_obs" I32; ar "coefs" F32 [6; 6]; ar "rmse" F32 [6]; ar "magnitude" F32 [6]].
Definition ex_output_nrtqueue : list field := [ar "clry" I16 [6]; sc "clrx_since1982" I16].
Definition ex_output_nrtmodel : list field :=
  [sc "t_start_since1982" I16; sc "num_obs" I16; ar "obs" I16 [6; 5]; ar "obs_date_since1982" I16 [5];
   ar "covariance" F32 [6; 36]; ar "nrt_coefPs" F32 [6; 6]; ar "H" F32 [6]; ar "rmse_sum" U32 [6];
   sc "cm_outputs" I16; sc "cm_outputs_date" I16].
(** export_change_map.py 335-345 and 347-360, align not given *)
Definition ex_dt_sccd : list field := ex_output_sccd.
Definition ex_dt_cold : list field := py_reccg_dt.

(* ------------------------------------------------------------------ *)
(** * What a layout has to satisfy, without reference to [offsets] *)

(** Each field starts at the first multiple of its alignment at or after the
    end of the preceding field. *)
Definition least_multiple (a lo o : Z) : Prop := (a | o) /\ lo <= o /\ forall o', (a | o') -> lo <= o' -> o <= o'.

Inductive c_layout : Z -> list field -> list Z -> Z -> Prop :=
| cl_nil : forall e, c_layout e [] [] e
| cl_cons : forall at_ f t o os e, least_multiple (width (f_kind f)) at_ o ->
    c_layout (o + bytes f) t os e -> c_layout at_ (f :: t) (o :: os) e.

Lemma width_pos : forall k, 0 < width k. Proof. destruct k; reflexivity. Qed.

Lemma round_up_least : forall a n, 0 < a -> least_multiple a n (round_up n a).
Proof.
  intros a n Ha. unfold round_up. split; [exists ((n + a - 1) / a); reflexivity|].
  assert (H : n + a - 1 = a * ((n + a - 1) / a) + (n + a - 1) mod a) by (apply Z.div_mod; lia).
  pose proof (Z.mod_pos_bound (n + a - 1) a Ha). split; [lia|].
  intros o' [c ->] Hle. apply Z.mul_le_mono_nonneg_r; [lia|].
  apply Z.lt_succ_r. apply Z.div_lt_upper_bound; nia.
Qed.

Lemma least_multiple_unique : forall a lo o o', least_multiple a lo o -> least_multiple a lo o' -> o = o'.
Proof. intros a lo o o' (A & B & C) (A' & B' & C'). pose proof (C o' A' B'). pose proof (C' o A B). lia. Qed.

(** The computed layout is the C layout, and the C layout is unique. *)
Theorem C44_layout_sound : forall fs at_ os e, offsets true at_ fs = (os, e) <-> c_layout at_ fs os e.
Proof.
  induction fs as [|f t IH]; intros at_ os e; split; intros H.
  - injection H as <- <-. constructor.
  - inversion H; subst. reflexivity.
  - cbn [offsets] in H. destruct (offsets true (round_up at_ (width (f_kind f)) + bytes f) t) as [os' e'] eqn:E.
    injection H as <- <-. constructor; [apply round_up_least, width_pos|]. apply IH. assumption.
  - inversion H as [|? ? ? ? ? ? Hl Hc]; subst. cbn [offsets].
    assert (Eo : round_up at_ (width (f_kind f)) = o).
    { eapply least_multiple_unique; [apply round_up_least, width_pos|exact Hl]. }
    rewrite Eo. apply IH in Hc. rewrite Hc. reflexivity.
Qed.

(** Fields lie inside the struct, in order and without overlap. *)
Fixpoint apart (lo : Z) (l : list (field * Z)) (hi : Z) : Prop :=
  match l with
  | [] => lo <= hi
  | (f, o) :: t => lo <= o /\ apart (o + bytes f) t hi
  end.

Theorem C44_fields_apart : forall al fs, Forall (fun f => 0 <= bytes f) fs ->
  apart 0 (fst (layout al fs)) (snd (layout al fs)) /\ List.length (fst (layout al fs)) = List.length fs.
Proof.
  intros al fs Hf. unfold layout. cbn [fst snd].
  assert (G : forall fs at_, Forall (fun f => 0 <= bytes f) fs -> forall hi, snd (offsets al at_ fs) <= hi ->
    apart at_ (combine fs (fst (offsets al at_ fs))) hi /\ List.length (combine fs (fst (offsets al at_ fs))) = List.length fs
    /\ at_ <= snd (offsets al at_ fs)).
  { clear. induction fs as [|f t IH]; intros at_ Hf hi Hh; [cbn in *; repeat split; lia|].
    cbn [offsets] in *. set (o := if al then round_up at_ (width (f_kind f)) else at_) in *.
    assert (Ho : at_ <= o).
    { unfold o. destruct al; [|lia]. apply (round_up_least at_ (width_pos (f_kind f))). }
    inversion Hf as [|? ? Hb Ht]; subst. specialize (IH (o + bytes f) Ht hi).
    destruct (offsets al (o + bytes f) t) as [os e]. cbn [fst snd combine apart List.length] in *.
    destruct (IH Hh) as (I1 & I2 & I3). repeat split; auto; lia. }
  destruct (G fs 0 Hf (size al fs)) as (A & B & _); [|split; assumption].
  unfold size. destruct al; [|lia].
  apply (round_up_least (snd (offsets true 0 fs))). unfold max_align.
  induction (map (fun f => width (f_kind f)) fs); cbn; lia.
Qed.

(** C44: names, element types, extents, offsets and total size coincide for
    all five record types; for reccg_dt although numpy packs it. *)
Theorem C44_dtypes_match :
  layout false py_reccg_dt = layout true c_Output_t /\
  layout true py_sccd_dt = layout true c_Output_sccd /\
  layout true py_nrtqueue_dt = layout true c_output_nrtqueue /\
  layout true py_nrtmodel_dt = layout true c_output_nrtmodel /\
  layout true py_pinpoint_dt = layout true c_Output_sccd_pinpoint.
Proof. vm_compute. repeat split. Qed.

Theorem C44_pyx_match : pyx_output_nrtmodel = c_output_nrtmodel /\
  layout false ex_dt_sccd = layout true c_Output_sccd /\ layout false ex_dt_cold = layout true c_Output_t.
Proof. vm_compute. repeat split. Qed.

(** The sizes, and the padding that align=True is needed for. *)
Example sizes : map (fun p => size (fst p) (snd p))
  [(false, py_reccg_dt); (true, py_sccd_dt); (true, py_nrtqueue_dt); (true, py_nrtmodel_dt); (true, py_pinpoint_dt)]
  = [304; 204; 14; 1180; 292].
Proof. vm_compute. reflexivity. Qed.
(** An unpadded record: one int, one short, one byte. *)
Example unpadded : snd (offsets false 0 [mkF "a" I32 []; mkF "b" I16 []; mkF "c" U8 []; mkF "d" F32 []; mkF "e" U32 []]) = 4 + 2 + 1 + 4 + 4.
Proof. reflexivity. Qed.
Example packing_would_differ : size false py_nrtmodel_dt <> size true c_output_nrtmodel.
Proof. vm_compute. discriminate. Qed.

(** C67: the export tool's own copy of the nrt model type is not the type
    the library writes: other window length, other field names, no
    conse_last. *)
Theorem C67_export_dtypes_refuted :
  layout true ex_output_nrtmodel <> layout true py_nrtmodel_dt /\
  size true ex_output_nrtmodel <> size true py_nrtmodel_dt /\
  map f_name ex_output_nrtmodel <> map f_name py_nrtmodel_dt.
Proof. repeat split; vm_compute; discriminate. Qed.
Theorem C67_other_dtypes_match : ex_output_sccd = py_sccd_dt /\ ex_output_nrtqueue = py_nrtqueue_dt.
Proof. split; reflexivity. Qed.

Print Assumptions C44_layout_sound.
Print Assumptions C44_fields_apart.
Print Assumptions C44_dtypes_match.
Print Assumptions C44_pyx_match.
Print Assumptions C67_export_dtypes_refuted.
Print Assumptions C67_other_dtypes_match.
