(** Parameter and data validation of the Python entry points
    (src/python/pycold/_param_validation.py 25-98, 103-132, 363-414, 472-495,
    604-653; src/python/pycold/colds.py 15-31, 38-55, 56-99).

    Simplifications: Python values are classified by what [isinstance] and
    comparison can see; numpy integers and floats behave as [VInt]/[VFloat];
    finite floats are rationals; deprecation warnings are not modelled. *)
From Verif Require Import Base.
From Coq Require Import QArith String.
Local Open Scope string_scope.
Local Open Scope Z_scope.

Inductive pyfloat := FNan | FPinf | FNinf | FQ (q : Q).
Inductive pyval := VBool (b : bool) | VNpBool (b : bool) | VInt (z : Z) | VFloat (f : pyfloat) | VNone | VOther.

Inductive numtype := TIntegral | TReal.
Inductive side := Left | Right | Both | Neither.
Inductive constraint := Interval (ty : numtype) (left right : option Q) (closed : side) | Boolean.

(** isinstance(val, Integral/Real): bool is an Integral, np.bool_ is not a
    number. *)
Definition isinstance (v : pyval) (ty : numtype) : bool :=
  match v, ty with
  | VBool _, _ => true
  | VInt _, _ => true
  | VFloat _, TReal => true
  | _, _ => false
  end.

(** Result of one check: satisfied, not satisfied, or a TypeError escaping
    from np.isnan. *)
Inductive sat := Yes | No | TypeErr.

(** The value in comparisons. *)
Definition as_float (v : pyval) : pyfloat :=
  match v with
  | VBool b => FQ (inject_Z (if b then 1 else 0))
  | VInt z => FQ (inject_Z z)
  | VFloat f => f
  | _ => FNan
  end.

(** np.isnan on a Python int that fits neither int64 nor uint64 raises. *)
Definition isnan_ok (v : pyval) : bool :=
  match v with VInt z => (- 2 ^ 63 <=? z) && (z <? 2 ^ 64) | _ => true end.

(** val < left / val <= left (_param_validation.py 394-408); the missing
    bound is the infinity. *)
Definition below (strict : bool) (f : pyfloat) (left : option Q) : bool :=
  match f, left with
  | FNan, _ => false
  | FNinf, None => negb strict
  | FNinf, Some _ => true
  | FPinf, _ => false
  | FQ _, None => false
  | FQ q, Some l => if strict then negb (Qle_bool l q) else Qle_bool q l
  end.
(** val > right / val >= right *)
Definition above (strict : bool) (f : pyfloat) (right : option Q) : bool :=
  match f, right with
  | FNan, _ => false
  | FPinf, None => negb strict
  | FPinf, Some _ => true
  | FNinf, _ => false
  | FQ _, None => false
  | FQ q, Some r => if strict then negb (Qle_bool q r) else Qle_bool r q
  end.

Definition closed_left (s : side) := match s with Left | Both => true | _ => false end.
Definition closed_right (s : side) := match s with Right | Both => true | _ => false end.

(** Interval.__contains__ (_param_validation.py 394-408) *)
Definition contains (left right : option Q) (s : side) (v : pyval) : sat :=
  if negb (isnan_ok v) then TypeErr
  else match as_float v with
       | FNan => No
       | f => if below (closed_left s) f left then No
              else if above (closed_right s) f right then No else Yes
       end.

(** is_satisfied_by (410-414 and 486-495) *)
Definition satisfied (c : constraint) (v : pyval) : sat :=
  match c with
  | Interval ty l r s => if isinstance v ty then contains l r s v else No
  | Boolean => match v with VBool _ | VNpBool _ | VInt _ => Yes | _ => No end
  end.

(** colds.py 15-31 *)
Definition constraints : list (string * constraint) :=
  [("t_cg", Interval TReal (Some 0%Q) None Neither);
   ("pos", Interval TIntegral (Some 0%Q) None Neither);
   ("starting_date", Interval TIntegral (Some 0%Q) None Left);
   ("n_cm", Interval TIntegral (Some 0%Q) None Left);
   ("conse", Interval TIntegral (Some 0%Q) (Some 12%Q) Neither);
   ("b_output_cm", Boolean);
   ("gap_days", Interval TReal (Some 0%Q) None Left);
   ("b_pinpoint", Boolean);
   ("gate_tcg", Interval TReal (Some 0%Q) None Neither);
   ("predictability_tcg", Interval TReal (Some 0%Q) None Neither);
   ("dist_conse", Interval TIntegral (Some 0%Q) (Some 6%Q) Right);
   ("t_cg_scale100", Interval TReal (Some 0%Q) None Neither);
   ("t_cg_singleband_scale1000", Interval TReal None None Neither);
   ("t_angle_scale100", Interval TIntegral (Some 0%Q) (Some 18000%Q) Neither);
   ("transform_mode", Boolean)].

Fixpoint lookup (n : string) (l : list (string * constraint)) : option constraint :=
  match l with [] => None | (m, c) :: t => if String.eqb n m then Some c else lookup n t end.

Inductive verdict := Pass | ValueError (name : string) | TypeError.

(** validate_parameter_constraints (25-98): every declared parameter has a
    single constraint. *)
Fixpoint validate (params : list (string * pyval)) : verdict :=
  match params with
  | [] => Pass
  | (n, v) :: t =>
      match lookup n constraints with
      | None => validate t
      | Some c => match satisfied c v with Yes => validate t | No => ValueError n | TypeErr => TypeError end
      end
  end.

(** Parameters each entry point passes on (colds.py cold_detect 223-234,
    obcold_reconstruct 288, sccd_detect 349-358, sccd_update 439-448,
    sccd_identify 498-505). *)
Definition entry_cold : list string :=
  ["t_cg"; "pos"; "conse"; "b_output_cm"; "starting_date"; "n_cm"; "cm_output_interval"; "b_c2"; "gap_days"].
Definition entry_obcold : list string := ["pos"; "conse"; "b_c2"].
Definition entry_sccd : list string := ["t_cg"; "pos"; "conse"; "b_c2"; "b_pinpoint"; "gate_tcg"; "b_monitor_init"].
Definition entry_update : list string := ["t_cg"; "pos"; "conse"; "b_c2"; "b_pinpoint"; "gate_tcg"; "predictability_tcg"].
Definition entry_identify : list string :=
  ["dist_conse"; "t_cg_scale100"; "t_cg_singleband_scale1000"; "t_angle_scale100"; "transform_mode"].

(** ** Data: an array is its shape *)
Definition shape := list Z.
Inductive data_verdict := ToC (n : Z) | DataError.

(** _num_samples (604-620) *)
Definition num_samples (s : shape) : option Z := match s with [] => None | d :: _ => Some d end.
(** check_consistent_length (623-637): np.unique has at most one element *)
Fixpoint consistent (l : list shape) : option (option Z) :=
  match l with
  | [] => Some None
  | s :: t =>
      match num_samples s, consistent t with
      | Some n, Some None => Some (Some n)
      | Some n, Some (Some m) => if n =? m then Some (Some m) else None
      | _, _ => None
      end
  end.
Definition is_1d (s : shape) : bool := match s with [_] => true | _ => false end.
(** _validate_data (colds.py 56-99), then the buffer declarations of the
    Cython functions (_colds_cython.pyx 134-141: ndim=1 for all nine). *)
Definition data (dates b g r n s1 s2 t qas : shape) : data_verdict :=
  match consistent [dates; b; g; r; n; s1; s2; t; qas] with
  | Some (Some k) =>
      if forallb is_1d [dates; b; g; r; n; s1; s2; qas] then
        if forallb is_1d [dates; b; g; r; n; s1; s2; t; qas] then ToC k else DataError
      else DataError
  | _ => DataError
  end.

(* ------------------------------------------------------------------ *)
(** * What is documented, in terms of numbers only *)

Definition is_int (v : pyval) (z : Z) : Prop :=
  v = VInt z \/ (v = VBool true /\ z = 1) \/ (v = VBool false /\ z = 0).
Definition is_real (v : pyval) (q : Q) : Prop := v = VFloat (FQ q) \/ exists z, is_int v z /\ q = inject_Z z.
Definition is_flag (v : pyval) : Prop := (exists b, v = VBool b \/ v = VNpBool b) \/ exists z, v = VInt z.

Definition documented (n : string) (v : pyval) : Prop :=
  if String.eqb n "t_cg" then exists q, is_real v q /\ (0 < q)%Q
  else if String.eqb n "pos" then exists z, is_int v z /\ 0 < z
  else if String.eqb n "starting_date" then exists z, is_int v z /\ 0 <= z
  else if String.eqb n "n_cm" then exists z, is_int v z /\ 0 <= z
  else if String.eqb n "conse" then exists z, is_int v z /\ 1 <= z <= 11
  else if String.eqb n "b_output_cm" then is_flag v
  else if String.eqb n "gap_days" then exists q, is_real v q /\ (0 <= q)%Q
  else if String.eqb n "b_pinpoint" then is_flag v
  else if String.eqb n "gate_tcg" then exists q, is_real v q /\ (0 < q)%Q
  else if String.eqb n "predictability_tcg" then exists q, is_real v q /\ (0 < q)%Q
  else if String.eqb n "dist_conse" then exists z, is_int v z /\ 1 <= z <= 6
  else if String.eqb n "t_cg_scale100" then exists q, is_real v q /\ (0 < q)%Q
  else if String.eqb n "t_cg_singleband_scale1000" then exists q, is_real v q
  else if String.eqb n "t_angle_scale100" then exists z, is_int v z /\ 1 <= z <= 17999
  else if String.eqb n "transform_mode" then is_flag v
  else True.

Definition declared (n : string) : Prop := In n (map fst constraints).
(** Integers numpy can hold. *)
Definition machine (v : pyval) : Prop := forall z, v = VInt z -> - 2 ^ 63 <= z < 2 ^ 64.

Definition inb (l r : option Q) (s : side) (q : Q) : Prop :=
  match l with None => True | Some a => if closed_left s then (a <= q)%Q else (a < q)%Q end /\
  match r with None => True | Some a => if closed_right s then (q <= a)%Q else (q < a)%Q end.

Definition inside (v : pyval) (P : Q -> Prop) : Prop :=
  match v with
  | VInt z => P (inject_Z z)
  | VBool b => P (inject_Z (if b then 1 else 0))
  | VFloat (FQ q) => P q
  | _ => False
  end.

Lemma qle_false : forall a b, Qle_bool a b = false <-> (b < a)%Q.
Proof.
  intros a b. split; intros H.
  - apply Qnot_le_lt. intros E. apply Qle_bool_iff in E. congruence.
  - destruct (Qle_bool a b) eqn:E; [|reflexivity]. apply Qle_bool_iff in E. exfalso. eapply Qlt_not_le; eassumption.
Qed.

Lemma bounds_spec : forall l r s q,
  (if below (closed_left s) (FQ q) l then No else if above (closed_right s) (FQ q) r then No else Yes) = Yes <-> inb l r s q.
Proof.
  intros l r s q. unfold inb, below, above.
  assert (HL : (match l with None => false | Some a => if closed_left s then negb (Qle_bool a q) else Qle_bool q a end) = false <->
               match l with None => True | Some a => if closed_left s then (a <= q)%Q else (a < q)%Q end).
  { destruct l as [a|]; [|tauto]. destruct (closed_left s); [rewrite negb_false_iff; apply Qle_bool_iff|apply qle_false]. }
  assert (HR : (match r with None => false | Some a => if closed_right s then negb (Qle_bool q a) else Qle_bool a q end) = false <->
               match r with None => True | Some a => if closed_right s then (q <= a)%Q else (q < a)%Q end).
  { destruct r as [a|]; [|tauto]. destruct (closed_right s); [rewrite negb_false_iff; apply Qle_bool_iff|apply qle_false]. }
  rewrite <- HL, <- HR.
  destruct (match l with None => false | Some a => if closed_left s then negb (Qle_bool a q) else Qle_bool q a end) eqn:E1;
  destruct (match r with None => false | Some a => if closed_right s then negb (Qle_bool q a) else Qle_bool a q end) eqn:E2;
    destruct l, r; rewrite ?E1, ?E2; split; intuition congruence.
Qed.

(** Interval constraints whose closed ends have bounds. *)
Definition proper (c : constraint) : Prop :=
  match c with
  | Interval _ l r s => (l = None -> closed_left s = false) /\ (r = None -> closed_right s = false)
  | Boolean => True
  end.

Lemma satisfied_interval : forall ty l r s v, proper (Interval ty l r s) -> machine v ->
  satisfied (Interval ty l r s) v <> TypeErr /\
  (satisfied (Interval ty l r s) v = Yes <-> isinstance v ty = true /\ inside v (inb l r s)).
Proof.
  intros ty l r s v [P1 P2] Hm. unfold satisfied. destruct (isinstance v ty) eqn:Ei; [|split; [discriminate|split; [discriminate|intuition discriminate]]].
  unfold contains.
  assert (Hn : isnan_ok v = true).
  { destruct v; try reflexivity. specialize (Hm z eq_refl). unfold isnan_ok. apply andb_true_iff. split; [apply Z.leb_le|apply Z.ltb_lt]; lia. }
  rewrite Hn. cbn [negb].
  assert (G : forall q, inside v (inb l r s) = inb l r s q -> as_float v = FQ q ->
    match as_float v with FNan => No | f => if below (closed_left s) f l then No else if above (closed_right s) f r then No else Yes end <> TypeErr /\
    (match as_float v with FNan => No | f => if below (closed_left s) f l then No else if above (closed_right s) f r then No else Yes end = Yes <->
     true = true /\ inside v (inb l r s))).
  { intros q E1 E2. rewrite E1, E2. cbv beta iota zeta. split.
    - destruct (below (closed_left s) _ l); [discriminate|]. destruct (above (closed_right s) _ r); discriminate.
    - rewrite bounds_spec. tauto. }
  destruct v as [b|b|z|f| |]; try discriminate Ei; try (eapply G; reflexivity).
  destruct f as [| | |q]; try (eapply G; reflexivity); cbn [as_float inside].
  - split; [discriminate|]. split; [discriminate|tauto].
  - assert (E : above (closed_right s) FPinf r = true) by (unfold above; destruct r; [reflexivity|rewrite P2; reflexivity]).
    rewrite E. destruct (below (closed_left s) _ l); (split; [discriminate|]; split; [discriminate|tauto]).
  - assert (E : below (closed_left s) FNinf l = true) by (unfold below; destruct l; [reflexivity|rewrite P1; reflexivity]).
    rewrite E. split; [discriminate|]. split; [discriminate|tauto].
Qed.

Lemma int_case : forall v (P : Z -> Prop), (exists z, is_int v z /\ P z) <->
  match v with VInt z => P z | VBool b => P (if b then 1 else 0) | _ => False end.
Proof.
  intros v P. unfold is_int. split.
  - intros (z & [->|[[-> ->]|[-> ->]]] & H); exact H.
  - destruct v as [b|b|z|f| |]; try tauto; [destruct b; eexists; split; [tauto| |tauto|]; assumption|eauto].
Qed.
Lemma real_case : forall v (P : Q -> Prop), (exists q, is_real v q /\ P q) <-> inside v P.
Proof.
  intros v P. unfold is_real. split.
  - intros (q & [->|(z & [->|[[-> ->]|[-> ->]]] & ->)] & H); exact H.
  - destruct v as [b|b|z|f| |]; cbn [inside]; try tauto.
    + intros H. eexists. split; [right; exists (if b then 1 else 0); split; [unfold is_int; destruct b; tauto|reflexivity]|assumption].
    + intros H. eexists. split; [right; exists z; split; [left; reflexivity|reflexivity]|assumption].
    + destruct f; try tauto. intros H. exists q. auto.
Qed.

Definition check (n : string) (v : pyval) : sat := match lookup n constraints with Some c => satisfied c v | None => Yes end.

(** C48: for every declared parameter and every value numpy can hold, the
    check passes exactly for the documented values and otherwise rejects. *)
Theorem C48_check : forall n v, declared n -> machine v ->
  (check n v = Yes /\ documented n v) \/ (check n v = No /\ ~ documented n v).
Proof.
  intros n v Hd Hm. unfold declared, constraints in Hd. cbn [map fst In] in Hd.
  assert (Q1 : forall z, (0 < inject_Z z)%Q <-> 0 < z) by (intros z; change 0%Q with (inject_Z 0); rewrite <- Zlt_Qlt; tauto).
  assert (Q2 : forall z, (0 <= inject_Z z)%Q <-> 0 <= z) by (intros z; change 0%Q with (inject_Z 0); rewrite <- Zle_Qle; tauto).
  assert (Q3 : forall z, (inject_Z z < 12)%Q <-> z < 12) by (intros z; change 12%Q with (inject_Z 12); rewrite <- Zlt_Qlt; tauto).
  assert (Q4 : forall z, (inject_Z z <= 6)%Q <-> z <= 6) by (intros z; change 6%Q with (inject_Z 6); rewrite <- Zle_Qle; tauto).
  assert (Q5 : forall z, (inject_Z z < 18000)%Q <-> z < 18000) by (intros z; change 18000%Q with (inject_Z 18000); rewrite <- Zlt_Qlt; tauto).
  assert (G : forall c (D : Prop), proper c -> (satisfied c v = Yes <-> D) ->
    (satisfied c v = Yes /\ D) \/ (satisfied c v = No /\ ~ D)).
  { intros c D Hp Hs. destruct (satisfied c v) eqn:E; [tauto|right; split; [reflexivity|intros HD; apply Hs in HD; congruence]|].
    destruct c as [ty l r s|]; [exfalso; destruct (@satisfied_interval ty l r s v Hp Hm); congruence|].
    cbn in E. destruct v; discriminate. }
  assert (GI : forall l r s (P : Z -> Prop), proper (Interval TIntegral l r s) ->
    (forall z, inb l r s (inject_Z z) <-> P z) ->
    (satisfied (Interval TIntegral l r s) v = Yes <-> exists z, is_int v z /\ P z)).
  { intros l r s P Hp HP. destruct (@satisfied_interval TIntegral l r s v Hp Hm) as [_ E]. rewrite E, int_case.
    destruct v as [b|b|z|f| |]; cbn [isinstance inside]; rewrite ?HP; intuition discriminate. }
  assert (GR : forall l r s (P : Q -> Prop), proper (Interval TReal l r s) ->
    (forall q, inb l r s q <-> P q) ->
    (satisfied (Interval TReal l r s) v = Yes <-> exists q, is_real v q /\ P q)).
  { intros l r s P Hp HP. destruct (@satisfied_interval TReal l r s v Hp Hm) as [_ E]. rewrite E, real_case.
    destruct v as [b|b|z|f| |]; cbn [isinstance inside]; rewrite ?HP; try (intuition discriminate).
    destruct f; rewrite ?HP; intuition discriminate. }
  assert (GB : satisfied Boolean v = Yes <-> is_flag v).
  { unfold satisfied, is_flag. destruct v as [b|b|z|f| |]; split; try discriminate; eauto 6;
      intros [[b' [H|H]]|[z' H]]; discriminate. }
  unfold check.
  destruct Hd as [<-|[<-|[<-|[<-|[<-|[<-|[<-|[<-|[<-|[<-|[<-|[<-|[<-|[<-|[<-|[]]]]]]]]]]]]]]]];
    cbn [lookup constraints String.eqb Ascii.eqb Bool.eqb documented];
    (apply G; [cbn; tauto || (split; intros; (discriminate || reflexivity))|]);
    try exact GB.
  all: try (apply GI; [cbn; split; intros; (discriminate || reflexivity)|intros z; unfold inb; cbn [closed_left closed_right];
            rewrite ?Q1, ?Q2, ?Q3, ?Q4, ?Q5; lia]).
  all: try (apply GR; [cbn; split; intros; (discriminate || reflexivity)|intros q; unfold inb; cbn [closed_left closed_right]; tauto]).
  rewrite (GR None None Neither (fun _ => True)); [|cbn; split; intros; (discriminate || reflexivity)|intros; unfold inb; tauto].
  split; intros [q H]; exists q; tauto.
Qed.

Lemma lookup_in : forall n c l, lookup n l = Some c -> In n (map fst l).
Proof.
  intros n c. induction l as [|[m d] l IH]; [discriminate|]. cbn [lookup map fst].
  destruct (String.eqb n m) eqn:E; [apply String.eqb_eq in E; left; congruence|right; auto].
Qed.

(** C48, whole parameter lists: the call goes through exactly when all
    declared parameters are documented values, and the error names the first
    one that is not. *)
Theorem C48_validate : forall params, Forall (fun p => machine (snd p)) params ->
  match validate params with
  | Pass => Forall (fun p => declared (fst p) -> documented (fst p) (snd p)) params
  | ValueError n => exists pre v post, params = (pre ++ (n, v) :: post)%list /\ declared n /\ ~ documented n v /\
      Forall (fun p => declared (fst p) -> documented (fst p) (snd p)) pre
  | TypeError => False
  end.
Proof.
  induction params as [|[n v] t IH]; intros Hm; [constructor|]. inversion Hm as [|? ? Hv Ht]; subst. cbn [snd] in Hv.
  specialize (IH Ht). cbn [validate]. destruct (lookup n constraints) as [c|] eqn:E.
  - assert (Hd : declared n) by (eapply lookup_in; exact E).
    destruct (@C48_check n v Hd Hv) as [[H1 H2]|[H1 H2]]; unfold check in H1; rewrite E in H1; rewrite H1.
    + destruct (validate t) as [|m|]; [constructor; [auto|assumption]| |exact IH].
      destruct IH as (pre & w & post & -> & A & B & C). exists ((n, v) :: pre), w, post.
      split; [reflexivity|]. split; [assumption|]. split; [assumption|]. constructor; auto.
    + exists [], v, t. split; [reflexivity|]. split; [assumption|]. split; [assumption|constructor].
  - assert (Hd : ~ declared n).
    { intros Hd. assert (G : forall l, In n (map fst l) -> lookup n l <> None).
      { induction l as [|[m d] l IHl]; [intros []|]. cbn [map fst In lookup]. intros [->|Hi].
        - rewrite String.eqb_refl. discriminate.
        - destruct (String.eqb n m); [discriminate|auto]. }
      exact (G _ Hd E). }
    destruct (validate t) as [|m|]; [constructor; [cbn [fst snd]; tauto|assumption]| |exact IH].
    destruct IH as (pre & w & post & -> & A & B & C). exists ((n, v) :: pre), w, post.
    split; [reflexivity|]. split; [assumption|]. split; [assumption|]. constructor; [cbn [fst snd]; tauto|assumption].
Qed.

Example accepts_cold : validate [("t_cg", VFloat (FQ (150863 # 10000))); ("pos", VInt 1); ("conse", VInt 6); ("b_output_cm", VBool false)] = Pass.
Proof. vm_compute. reflexivity. Qed.
Example rejects_conse : map (fun v => validate [("t_cg", VInt 15); ("conse", v)])
    [VInt 0; VInt 12; VFloat (FQ 6); VNone; VFloat FNan; VInt 11; VBool true]
  = [ValueError "conse"; ValueError "conse"; ValueError "conse"; ValueError "conse"; ValueError "conse"; Pass; Pass].
Proof. vm_compute. reflexivity. Qed.
Example rejects_infinity : map (fun v => validate [("t_cg", v)]) [VFloat FPinf; VFloat FNinf; VFloat FNan; VInt 0; VFloat (FQ (1 # 1000))]
  = [ValueError "t_cg"; ValueError "t_cg"; ValueError "t_cg"; ValueError "t_cg"; Pass].
Proof. vm_compute. reflexivity. Qed.
Example rejects_angle : map (fun v => validate [("t_angle_scale100", v); ("dist_conse", VInt 7)]) [VInt 18000; VInt 4500]
  = [ValueError "t_angle_scale100"; ValueError "dist_conse"].
Proof. vm_compute. reflexivity. Qed.

(** C48 without the restriction to machine integers is false: a bad value can
    raise another error that does not name the parameter, and a documented
    value can be refused. *)
Theorem C48_huge_refuted :
  (exists n v, declared n /\ ~ documented n v /\ validate [(n, v)] = TypeError) /\
  (exists n v, declared n /\ documented n v /\ validate [(n, v)] <> Pass).
Proof.
  split.
  - exists "conse", (VInt (2 ^ 64)). split; [cbn; tauto|]. split; [|vm_compute; reflexivity].
    cbn [documented String.eqb Ascii.eqb Bool.eqb]. rewrite int_case. lia.
  - exists "pos", (VInt (2 ^ 64)). split; [cbn; tauto|]. split; [|vm_compute; discriminate].
    cbn [documented String.eqb Ascii.eqb Bool.eqb]. rewrite int_case. lia.
Qed.

(** C68: not every parameter handed over is checked.  These three pass with
    any value, so the range of cm_output_interval is never enforced. *)
Theorem C68_all_checked_refuted : exists n, In n entry_cold /\ forall v, validate [(n, v)] = Pass.
Proof. exists "cm_output_interval". split; [cbn; tauto|reflexivity]. Qed.
Definition unchecked (n : string) : bool := match lookup n constraints with None => true | Some _ => false end.
Theorem C68_unchecked : filter unchecked (entry_cold ++ entry_obcold ++ entry_sccd ++ entry_update ++ entry_identify)%list
  = ["cm_output_interval"; "b_c2"; "b_c2"; "b_c2"; "b_monitor_init"; "b_c2"].
Proof. vm_compute. reflexivity. Qed.

(** C69: the C code is entered only with nine one-dimensional arrays of one
    length. *)
Theorem C69_data : forall dates b g r n s1 s2 t qas k,
  data dates b g r n s1 s2 t qas = ToC k <-> Forall (fun s => s = [k]) [dates; b; g; r; n; s1; s2; t; qas].
Proof.
  intros dates b g r n s1 s2 t qas k. unfold data.
  assert (G : forall l k, forallb is_1d l = true -> l <> [] ->
    (consistent l = Some (Some k) <-> Forall (fun s => s = [k]) l)).
  { clear. induction l as [|s l IH]; intros k H1 H2; [congruence|]. cbn [forallb] in H1. apply andb_true_iff in H1. destruct H1 as [Hs H1].
    destruct s as [|d [|? ?]]; try discriminate. cbn [consistent num_samples]. destruct l as [|s' l'] eqn:El.
    - cbn. split; [intros H; injection H as ->; repeat constructor|intros H; inversion H; congruence].
    - rewrite <- El in *. specialize (IH k H1 ltac:(congruence)). split.
      + destruct (consistent l) as [[m|]|] eqn:Ec; [|subst l; cbn in Ec; destruct (num_samples s'); [destruct (consistent l') as [[?|]|]; [destruct (_ =? _)|..]|]; discriminate|discriminate].
        destruct (d =? m) eqn:E; [|discriminate]. intros H. injection H as ->. constructor; [f_equal; lia|apply IH; reflexivity].
      + intros H. inversion H as [|? ? Hd Hl]; subst. injection Hd as ->. apply IH in Hl. rewrite Hl, Z.eqb_refl. reflexivity. }
  set (all := [dates; b; g; r; n; s1; s2; t; qas]) in *.
  destruct (forallb is_1d all) eqn:E.
  - assert (E8 : forallb is_1d [dates; b; g; r; n; s1; s2; qas] = true).
    { rewrite forallb_forall in *. intros x Hx. apply E. unfold all. cbn [In] in *. tauto. }
    rewrite E8. rewrite <- (G all k E ltac:(discriminate)).
    destruct (consistent all) as [[m|]|]; split; intros H; try discriminate; congruence.
  - split.
    + destruct (consistent all) as [[m|]|]; try discriminate. destruct (forallb is_1d [dates; b; g; r; n; s1; s2; qas]); discriminate.
    + intros H. exfalso. assert (forallb is_1d all = true); [|congruence].
      rewrite forallb_forall. rewrite Forall_forall in H. intros x Hx. rewrite (H x Hx). reflexivity.
Qed.
Example data_ok : data [5] [5] [5] [5] [5] [5] [5] [5] [5] = ToC 5 /\ data [5] [5] [5] [4] [5] [5] [5] [5] [5] = DataError
  /\ data [5] [5] [5] [5] [5] [5] [5] [5; 2] [5] = DataError /\ data [] [5] [5] [5] [5] [5] [5] [5] [5] = DataError.
Proof. repeat split. Qed.

Print Assumptions C48_check.
Print Assumptions C48_validate.
Print Assumptions C48_huge_refuted.
Print Assumptions C68_all_checked_refuted.
Print Assumptions C68_unchecked.
Print Assumptions C69_data.
