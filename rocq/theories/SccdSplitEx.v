(** C26: cases meeting the splitting theorems, and splits that change the
    result. *)
From Verif Require Import Base SortModel LibModel LibProps ColdModel ColdLemmas FrontModel FrontProps
  SccdModel SccdProof SccdTop SccdPack SccdTerm SccdApi SccdToy SccdProps SccdProps2 SccdRefuted SccdExamples SccdResume SccdProps3.

Lemma toy_exact : forall rm, exact_store (toy rm).
Proof. intros rm m. reflexivity. Qed.

(** A change spread over two batches: the joint batch gives the same pack. *)
Example C26_two_updates_example : update toy (par 8 false) true junk0 jm0 (batch1 ++ batch2) pack0 = Ok pack2 /\
  io_mode pack2 = 5 /\ zlen (io_recs pack2) = 1.
Proof.
  split; [|split; vm_compute; reflexivity].
  apply (@C26_two_updates_partial Z Z Z Z toy (par 8 false) true junk0 jm0 [steady] batch1 batch2 pack0 pack1 pack2).
  - reflexivity.
  - reflexivity.
  - exact toy_fits.
  - exact toy_exact.
  - exact online1.
  - apply batches_check. vm_compute. reflexivity.
  - left. vm_compute. reflexivity.
  - exact pack1_eq.
  - vm_compute. reflexivity.
  - exact pack2_eq.
Qed.

(** The same rows one by one. *)
Definition one_by_one : list (list raw) := map (fun q => [q]) (firstn 9 (batch1 ++ batch2)).

Example C26_updates_example : exists d, updates toy (par 8 false) true junk0 jm0 one_by_one pack0 = Ok d /\
  update toy (par 8 false) true junk0 jm0 (firstn 9 (batch1 ++ batch2)) pack0 = Ok d /\ io_mode d = 5.
Proof.
  eexists. split; [vm_compute; reflexivity|]. split; [|vm_compute; reflexivity].
  apply (@C26_updates_partial Z Z Z Z toy (par 8 false) true junk0 jm0 one_by_one [steady] pack0).
  - reflexivity.
  - reflexivity.
  - exact toy_fits.
  - exact toy_exact.
  - exact online1.
  - apply batches_check. vm_compute. reflexivity.
  - left. vm_compute. reflexivity.
  - discriminate.
  - vm_compute. reflexivity.
Qed.

Definition joint : io Z Z := match tdetect 8 (steady ++ batch1 ++ batch2) with Ok a => a | _ => blank Z jm0 end.
Lemma joint_eq : detect toy (par 8 false) true junk0 jm0 (steady ++ batch1 ++ batch2) = Ok joint.
Proof. vm_compute. reflexivity. Qed.

Example C26_detect_example : io_recs joint = io_recs pack2 /\ zlen (io_recs joint) = 1.
Proof.
  split; [|vm_compute; reflexivity].
  apply (@C26_detect_partial Z Z Z Z toy (par 8 false) true junk0 jm0 steady (batch1 ++ batch2) pack0 pack2 joint).
  - reflexivity.
  - reflexivity.
  - reflexivity.
  - exact toy_exact.
  - reflexivity.
  - apply batches_check. vm_compute. reflexivity.
  - exact pack0_eq.
  - vm_compute. reflexivity.
  - apply C26_two_updates_example.
  - exact joint_eq.
  - unfold standard_mode. replace (io_mode joint) with 12 by (vm_compute; reflexivity). simpl. tauto.
Qed.

(** ** Splits that matter *)

(** Default window of six: one detection reports the change, a detection
    followed by an update is undefined. *)
Theorem C26_default_window_refuted : exists A B b, batches_ok [A; B] /\
  tdetect 6 (A ++ B) = Ok b /\ zlen (io_recs b) = 1 /\ trun 6 A [B] = UB.
Proof.
  exists steady, (rows_every 730800 20 8 800). eexists.
  split; [apply batches_check; vm_compute; reflexivity|].
  split; [vm_compute; reflexivity|]. split; vm_compute; reflexivity.
Qed.

(** Window of eight: after a break the next update only fills the queue
    (mode 5 becomes 12, s_ccd.c 3024-3035), so a split right after the break
    leaves the pixel without the model one detection builds. *)
Theorem C26_after_break_refuted : exists A B D b d, batches_ok [A; B; D] /\
  tdetect 8 (A ++ B ++ D) = Ok b /\ trun 8 A [B; D] = Ok d /\
  io_recs b = io_recs d /\ io_mode b = 1 /\ io_mode d = 12 /\ carried b <> carried d.
Proof.
  exists steady, (rows_every 730800 20 9 800), (rows_every 730980 20 22 800). eexists. eexists.
  split; [apply batches_check; vm_compute; reflexivity|].
  split; [vm_compute; reflexivity|]. split; [vm_compute; reflexivity|].
  split; [vm_compute; reflexivity|]. split; [vm_compute; reflexivity|]. split; [vm_compute; reflexivity|].
  vm_compute. discriminate.
Qed.

(** Magnitudes divided by min_rmse, as in the code (s_ccd.c 1769). *)
Definition scaled (rm : list Z) : skernel Z Z Z Z :=
  let d m o := match dist m o with Fin z => Fin (z / Z.max 1 (nth 0 rm 0)) | NaN => NaN end in
  mkSK (fun _ => Some (fun _ => false)) (fun w => Some (level w)) (fun _ _ => Fin 0) d (fun _ _ => Fin 0)
       (fun f _ _ => Some f) (fun _ w _ => Some (level w)) (fun m _ o => d m o) (fun _ _ _ => Fin 0)
       (fun m _ _ => m) (fun m _ _ => m) (fun m _ => m) (fun m => m) (fun m => m)
       (fun a => match a with Fin z => Some (Z.min z 32767) | NaN => None end)
       (fun a => match a with Fin z => Z.min z 32767 | NaN => 32767 end)
       (fun w => Some (level w)) (fun m _ _ => m).

(** The noise level is estimated once, from the rows of the first call: the
    same rows give a break or none. *)
Theorem C26_noise_refuted : exists A B b d, batches_ok [A; B] /\
  run scaled 8 (A ++ B) [] = Ok b /\ run scaled 8 A [B] = Ok d /\ io_recs b = [] /\ zlen (io_recs d) = 1.
Proof.
  exists (rows_every 730000 20 30 500),
    (concat (map (fun k => [rw (730600 + 40 * Z.of_nat k) 700; rw (730620 + 40 * Z.of_nat k) 740]) (seq 0 16))).
  eexists. eexists. split; [apply batches_check; vm_compute; reflexivity|].
  split; [vm_compute; reflexivity|]. split; [vm_compute; reflexivity|]. split; vm_compute; reflexivity.
Qed.

Print Assumptions C26_default_window_refuted.
Print Assumptions C26_after_break_refuted.
Print Assumptions C26_noise_refuted.
