(** Yearly break maps (src/python/pycold/imagetool/export_change_map.py
    193-246, 411-433, 484-532, 559-595, 629-653).  C60, C79, C80. *)
From Verif Require Import Base Calendar PyIndex.

(** ** The calendar of Python's datetime (CPython _ord2ymd, which
    pd.Timestamp.fromordinal uses): the year of an ordinal. *)
Definition py_year (d : Z) : Z :=
  let n := d - 1 in
  let n400 := n / 146097 in let n := n mod 146097 in
  let n100 := n / 36524 in let n := n mod 36524 in
  let n4 := n / 1461 in let n := n mod 1461 in
  let n1 := n / 365 in
  let y := 400 * n400 + 100 * n100 + 4 * n4 + n1 + 1 in
  if (n1 =? 4) || (n100 =? 4) then y - 1 else y.
(** datetime.date(y, 1, 1).toordinal() *)
Definition jan1 (y : Z) : Z := days_before y + 1.

Lemma digits : forall a b c e, 0 <= b <= 3 -> 0 <= c <= 24 -> 0 <= e <= 3 ->
  let y := 400 * a + 100 * b + 4 * c + e + 1 in
  days_before y = 146097 * a + 36524 * b + 1461 * c + 365 * e /\
  (e = 3 -> c < 24 \/ b = 3 -> year_days y = 366).
Proof.
  intros a b c e Hb Hc He y. split.
  - unfold days_before. replace (y - 1) with (400 * a + 100 * b + 4 * c + e) by (unfold y; lia).
    rewrite <- (Z.div_unique (400 * a + 100 * b + 4 * c + e) 4 (100 * a + 25 * b + c) e) by lia.
    rewrite <- (Z.div_unique (400 * a + 100 * b + 4 * c + e) 100 (4 * a + b) (4 * c + e)) by lia.
    rewrite <- (Z.div_unique (400 * a + 100 * b + 4 * c + e) 400 a (100 * b + 4 * c + e)) by lia. lia.
  - intros He3 Hcb. unfold year_days, is_leap_year.
    rewrite <- (Z.mod_unique y 4 (100 * a + 25 * b + c + 1) 0) by (unfold y; lia).
    destruct Hcb as [H| ->].
    + rewrite <- (Z.mod_unique y 100 (4 * a + b) (4 * c + e + 1)) by (unfold y; lia).
      rewrite (proj2 (Z.eqb_neq (4 * c + e + 1) 0)) by lia. reflexivity.
    + assert (C : c = 24 \/ c < 24) by lia. destruct C as [->|C].
      * rewrite <- (Z.mod_unique y 400 (a + 1) 0) by (unfold y; lia). rewrite andb_false_r. reflexivity.
      * rewrite <- (Z.mod_unique y 100 (4 * a + 3) (4 * c + e + 1)) by (unfold y; lia).
        rewrite (proj2 (Z.eqb_neq (4 * c + e + 1) 0)) by lia. reflexivity.
Qed.
Lemma py_year_ok : forall d, 1 <= d -> days_before (py_year d) < d <= days_before (py_year d + 1).
Proof.
  intros d Hd. rewrite days_step. unfold py_year. set (n := d - 1). cbv zeta.
  pose proof (Z.div_mod n 146097 ltac:(lia)) as D1. pose proof (Z.mod_pos_bound n 146097 ltac:(lia)) as M1.
  assert (Ha : 0 <= n / 146097) by (apply Z.div_pos; lia).
  set (a := n / 146097) in *. set (r1 := n mod 146097) in *. clearbody a r1.
  pose proof (Z.div_mod r1 36524 ltac:(lia)) as D2. pose proof (Z.mod_pos_bound r1 36524 ltac:(lia)) as M2.
  set (b := r1 / 36524) in *. set (r2 := r1 mod 36524) in *. clearbody b r2.
  pose proof (Z.div_mod r2 1461 ltac:(lia)) as D3. pose proof (Z.mod_pos_bound r2 1461 ltac:(lia)) as M3.
  set (c := r2 / 1461) in *. set (r3 := r2 mod 1461) in *. clearbody c r3.
  pose proof (Z.div_mod r3 365 ltac:(lia)) as D4. pose proof (Z.mod_pos_bound r3 365 ltac:(lia)) as M4.
  set (e := r3 / 365) in *. set (r4 := r3 mod 365) in *. clearbody e r4.
  assert (En : d = n + 1) by (unfold n; lia). clearbody n. rewrite En. clear d Hd En.
  destruct ((e =? 4) || (b =? 4)) eqn:E.
  - assert (C : b = 4 \/ (b <= 3 /\ e = 4)) by lia. destruct C as [->|[Hb3 ->]].
    + assert (r2 = 0) by lia. assert (c = 0) by lia. assert (e = 0) by lia. subst.
      destruct (@digits a 3 24 3 ltac:(lia) ltac:(lia) ltac:(lia)) as [P Q].
      replace (400 * a + 100 * 4 + 4 * 0 + 0 + 1 - 1) with (400 * a + 100 * 3 + 4 * 24 + 3 + 1) by lia.
      rewrite P, Q by lia. lia.
    + assert (Hc : c < 24 \/ b = 3) by lia. destruct (@digits a b c 3 ltac:(lia) ltac:(lia) ltac:(lia)) as [P Q].
      replace (400 * a + 100 * b + 4 * c + 4 + 1 - 1) with (400 * a + 100 * b + 4 * c + 3 + 1) by lia.
      rewrite P, Q by lia. lia.
  - assert (Hbe : b <= 3 /\ e <= 3) by lia. destruct (@digits a b c e ltac:(lia) ltac:(lia) ltac:(lia)) as [P Q]. rewrite P.
    pose proof (year_days_pos (400 * a + 100 * b + 4 * c + e + 1)). lia.
Qed.
Lemma py_year_date : forall d, 1 <= d -> is_date d (py_year d) (d - days_before (py_year d)).
Proof. intros d Hd. pose proof (py_year_ok Hd). unfold is_date. lia. Qed.
Lemma doy_range : forall d, 1 <= d -> 1 <= d - jan1 (py_year d) + 1 <= 366.
Proof.
  intros d Hd. pose proof (py_year_ok Hd) as H. rewrite days_step in H. unfold jan1.
  assert (year_days (py_year d) <= 366) by (unfold year_days; destruct (is_leap_year (py_year d)); lia). lia.
Qed.
Example py_year_example : map py_year [1; 365; 366; 146097; 146098; 730120; 730485; 730486] = [1; 1; 2; 400; 401; 2000; 2000; 2001].
Proof. vm_compute. reflexivity. Qed.

(** ** C60: the encoding *)

(** Lines 527-532: type * 1000 + t_break - toordinal(1 January) + 1. *)
Definition encode (ty d : Z) : Z := ty * 1000 + d - jan1 (py_year d) + 1.
(** Reading a map value: the type and the day of year, as the map's users do
    (line 635 divides by 1000). *)
Definition map_type (v : Z) : Z := Z.quot v 1000.
Definition map_doy (v : Z) : Z := Z.rem v 1000.

Theorem C60_encoding : forall ty d, 1 <= ty <= 4 -> 1 <= d ->
  map_type (encode ty d) = ty /\ is_date d (py_year d) (map_doy (encode ty d)) /\ -32768 <= encode ty d <= 32767 /\ encode ty d <> -9999.
Proof.
  intros ty d Ht Hd. pose proof (doy_range Hd) as H. pose proof (py_year_date Hd) as D. unfold map_type, map_doy, encode.
  set (k := d - jan1 (py_year d) + 1) in *. replace (ty * 1000 + d - jan1 (py_year d) + 1) with (k + ty * 1000) by (unfold k; lia).
  assert (Q : Z.quot (k + ty * 1000) 1000 = ty) by (rewrite Z.quot_div_nonneg by lia; rewrite Z.div_add by lia; rewrite Z.div_small by lia; lia).
  assert (R : Z.rem (k + ty * 1000) 1000 = k) by (rewrite Z.rem_mod_nonneg by lia; rewrite Z.mod_add by lia; apply Z.mod_small; lia).
  rewrite Q, R. split; [reflexivity|]. split; [|lia]. replace k with (d - days_before (py_year d)) by (unfold k, jan1; lia). exact D.
Qed.
(** Two breaks with the same value in the same yearly map have the same type
    and the same date. *)
Theorem C60_lossless : forall ty d ty' d', 1 <= ty <= 4 -> 1 <= ty' <= 4 -> 1 <= d -> 1 <= d' -> py_year d = py_year d' ->
  encode ty d = encode ty' d' -> ty = ty' /\ d = d'.
Proof.
  intros ty d ty' d' H1 H2 H3 H4 Hy E. destruct (C60_encoding H1 H3) as (A & _). destruct (C60_encoding H2 H4) as (A' & _).
  rewrite E in A. assert (ty = ty') by congruence. subst ty'. split; [reflexivity|]. unfold encode in E. rewrite Hy in E. lia.
Qed.
Example C60_example : encode 1 730120 = 1001 /\ encode 3 730485 = 3366 /\ py_year 730120 = 2000.
Proof. vm_compute. auto. Qed.

(** ** The block loop *)
Section Block.
Variable D : Type.
Record curve := mkCurve { c_pos : Z; c_break : Z; c_prob : Z; c_data : D }.
(** getcategory_cold / getcategory_obcold (193-246): of the previous record
    (if any), this one, the next one, and the previous type. *)
Variable category : option curve -> curve -> curve -> Z -> Z.
(** config n_cols, block width and height, block coordinates, year bounds *)
Variables (n_cols bw bh bx by_ lo hi : Z).

Definition maps := Z -> Z -> Z.     (* year, pixel index in the block *)
Definition set (m : maps) (y i v : Z) : maps := fun y' i' => if (y' =? y) && (i' =? i) then v else m y' i'.
Definition index (c : curve) : Z := get_row_index (c_pos c) n_cols by_ bh * bw + get_col_index (c_pos c) n_cols bx bw.
Definition breaks (c : curve) : bool := negb ((c_prob c <? 100) || (c_break c =? 0)).

(** Lines 491-532.  [None]: the function returns from inside the loop (518). *)
Fixpoint walk (prev : option curve) (pos last : Z) (l : list curve) (m : maps) : option maps :=
  match l with
  | [] => Some m
  | c :: t =>
      let last := if c_pos c =? pos then last else 0 in
      match t with
      | [] => Some m                                  (* count == len - 1 *)
      | nx :: _ =>
          if negb (breaks c) then walk (Some c) (c_pos c) last t m
          else if get_col_index (c_pos c) n_cols bx bw <? 0 then None
          else
            let ty := category prev c nx last in
            let y := py_year (c_break c) in
            walk (Some c) (c_pos c) ty t
              (if (y <? lo) || (hi <? y) then m else set m y (index c) (encode ty (c_break c)))
      end
  end.
Definition fill : maps := fun _ _ => -9999.
(** cold_block[0]["pos"] of an empty array raises. *)
Definition block_maps (l : list curve) : option maps :=
  match l with [] => None | c :: _ => walk None (c_pos c) 0 l fill end.

(** A record that marks pixel i in the map of year y: a confirmed break at the
    pixel's place in the tile, row by row, counted from the block's corner. *)
Definition marks (y i : Z) (c : curve) : Prop :=
  100 <= c_prob c /\ c_break c <> 0 /\
  (Z.quot (c_pos c - 1) n_cols - (by_ - 1) * bh) * bw + ((c_pos c - 1) mod n_cols - (bx - 1) * bw) = i /\ py_year (c_break c) = y.
(** The type given to the latest break of the same pixel among the records
    before [c], nearest first; 0 if there is none. *)
Fixpoint last_type (rp : list curve) (c : curve) : Z :=
  match rp with
  | [] => 0
  | p :: r =>
      if c_pos p =? c_pos c then
        if (100 <=? c_prob p) && negb (c_break p =? 0) then category (hd_error r) p c (last_type r p) else last_type r p
      else 0
  end.

(** What is in the maps: the last marking record of the pixel in that year, the
    final record of the block excepted; its type is that of the record among
    its neighbours and the last type of its pixel. *)
Definition entry_spec (rp l : list curve) (m m' : maps) (y i : Z) : Prop :=
  (m' y i = m y i /\ forall a c nx b, l = a ++ c :: nx :: b -> ~ marks y i c) \/
  (exists a c nx b, l = a ++ c :: nx :: b /\ marks y i c /\
     m' y i = encode (category (hd_error (rev a ++ rp)) c nx (last_type (rev a ++ rp) c)) (c_break c) /\
     forall a' c' nx' b', nx :: b = a' ++ c' :: nx' :: b' -> ~ marks y i c').

Lemma breaks_spec : forall c, breaks c = (100 <=? c_prob c) && negb (c_break c =? 0).
Proof. intros c. unfold breaks. rewrite negb_orb. f_equal. lia. Qed.
Lemma index_spec : forall c, index c = (Z.quot (c_pos c - 1) n_cols - (by_ - 1) * bh) * bw + ((c_pos c - 1) mod n_cols - (bx - 1) * bw).
Proof. reflexivity. Qed.
Lemma walk_spec : forall l rp prev pos last m m', walk prev pos last l m = Some m' ->
  prev = hd_error rp -> (forall c t, l = c :: t -> (if c_pos c =? pos then last else 0) = last_type rp c) ->
  forall y i, lo <= y <= hi -> entry_spec rp l m m' y i.
Proof.
  induction l as [|c t IH]; intros rp prev pos last m m' H Hprev Hlast y i Hy.
  - injection H as <-. left. split; [reflexivity|]. intros a c nx b E. destruct a; discriminate.
  - cbn [walk] in H. destruct t as [|nx t'].
    { injection H as <-. left. split; [reflexivity|]. intros a c0 nx b E. destruct a as [|x a]; [discriminate|]. injection E as _ E. destruct a; discriminate. }
    pose proof (Hlast c (nx :: t') eq_refl) as HL.
    set (last' := if c_pos c =? pos then last else 0) in *. set (tl := nx :: t') in *.
    assert (STEP : forall r m1, walk (Some c) (c_pos c) r tl m1 = Some m' ->
       (if c_pos nx =? c_pos c then r else 0) = last_type (c :: rp) nx ->
       (m1 y i = m y i /\ ~ marks y i c) \/ (marks y i c /\ m1 y i = encode (category (hd_error rp) c nx (last_type rp c)) (c_break c)) -> entry_spec rp (c :: tl) m m' y i).
    { intros r m1 H1 Hr HC.
      assert (Hr' : forall c0 t0, tl = c0 :: t0 -> (if c_pos c0 =? c_pos c then r else 0) = last_type (c :: rp) c0).
      { intros c0 t0 E0. injection E0 as <- _. exact Hr. }
      destruct (IH (c :: rp) (Some c) (c_pos c) r m1 m' H1 eq_refl Hr' y i Hy) as [[E1 E2]|(a & c0 & nx0 & b & E1 & E2 & E3 & E4)].
      - destruct HC as [[F1 F2]|(F1 & F2)].
        + left. split; [congruence|]. intros a c0 nx0 b E. destruct a as [|x a]; [injection E as -> _ _; exact F2|]. injection E as _ E. exact (E2 a c0 nx0 b E).
        + right. exists [], c, nx, t'. split; [reflexivity|]. split; [exact F1|]. split; [cbn [rev app]; congruence|]. exact E2.
      - right. exists (c :: a), c0, nx0, b. rewrite E1. split; [reflexivity|]. split; [exact E2|]. split; [|exact E4].
        cbn [rev]. rewrite <- app_assoc. cbn [app]. exact E3. }
    assert (EB' := breaks_spec c). destruct (negb (breaks c)) eqn:EB.
    + apply negb_true_iff in EB. rewrite EB in EB'. apply (STEP _ _ H).
      * cbn [last_type]. rewrite <- EB', <- HL. rewrite Z.eqb_sym. reflexivity.
      * left. split; [reflexivity|]. intros (B1 & B2 & _). symmetry in EB'. apply andb_false_iff in EB'. destruct EB' as [X|X]; lia.
    + apply negb_false_iff in EB. rewrite EB in EB'.
      destruct (get_col_index (c_pos c) n_cols bx bw <? 0); [discriminate|].
      apply (STEP _ _ H).
      * cbn [last_type]. rewrite <- EB', <- HL, <- Hprev. rewrite Z.eqb_sym. reflexivity.
      * rewrite <- Hprev, <- HL. symmetry in EB'. apply andb_prop in EB'. destruct EB' as [B1 B2].
        destruct ((py_year (c_break c) <? lo) || (hi <? py_year (c_break c))) eqn:ER.
        -- left. split; [reflexivity|]. intros (_ & _ & _ & Y). lia.
        -- unfold set. destruct ((y =? py_year (c_break c)) && (i =? index c)) eqn:ES.
           ++ right. apply andb_prop in ES. destruct ES as [ES1 ES2]. apply Z.eqb_eq in ES1, ES2. rewrite index_spec in ES2.
              split; [|reflexivity]. split; [lia|]. split; [lia|]. split; congruence.
           ++ left. split; [reflexivity|]. intros (_ & _ & X & Y). rewrite <- index_spec in X. apply andb_false_iff in ES. destruct ES as [ES|ES]; apply Z.eqb_neq in ES; congruence.
Qed.
Theorem C60_maps_partial : forall l m', block_maps l = Some m' -> forall y i, lo <= y <= hi -> entry_spec [] l fill m' y i.
Proof.
  intros l m' H y i Hy. destruct l as [|c t]; [discriminate|].
  refine (@walk_spec (c :: t) [] None (c_pos c) 0 fill m' H eq_refl _ y i Hy). intros c0 t0 E. injection E as <- _. rewrite Z.eqb_refl. reflexivity.
Qed.
(** The loop itself never stops on records of the block. *)
Theorem C60_no_abort : forall l, l <> [] -> (forall c, In c l -> 0 <= get_col_index (c_pos c) n_cols bx bw) -> exists m, block_maps l = Some m.
Proof.
  intros l Hne H. destruct l as [|c t]; [congruence|]. cbn [block_maps].
  assert (G : forall l prev pos last m, (forall c, In c l -> 0 <= get_col_index (c_pos c) n_cols bx bw) -> exists m', walk prev pos last l m = Some m').
  { induction l as [|c0 t0 IH]; intros prev pos last m Hl; [eexists; reflexivity|]. cbn [walk]. destruct t0 as [|nx t0]; [eexists; reflexivity|].
    assert (Hl' : forall x, In x (nx :: t0) -> 0 <= get_col_index (c_pos x) n_cols bx bw) by (intros x Hx; apply Hl; right; exact Hx).
    destruct (negb (breaks c0)); [apply IH, Hl'|]. rewrite (proj2 (Z.ltb_ge (get_col_index (c_pos c0) n_cols bx bw) 0) (Hl c0 (or_introl eq_refl))). apply IH, Hl'. }
  apply G, H.
Qed.

(** ** C80: recent and first disturbance maps (629-653), per pixel: the values
    of the yearly maps lo..hi in order. *)
Fixpoint recent (year : Z) (vs : list Z) (acc : Z) : Z :=
  match vs with [] => acc | v :: t => recent (year + 1) t (if map_type v =? 1 then year else acc) end.
(** The loop runs downwards over the same years. *)
Fixpoint first_from (year : Z) (vs : list Z) (acc : Z) : Z :=   (* vs given from the last year down *)
  match vs with [] => acc | v :: t => first_from (year - 1) t (if map_type v =? 1 then year else acc) end.
Theorem C80_recent : forall vs year acc, let r := recent year vs acc in
  (r = acc /\ forall k v, nth_error vs k = Some v -> map_type v <> 1) \/
  (exists k v, nth_error vs k = Some v /\ map_type v = 1 /\ r = year + Z.of_nat k /\
     forall k' v', (k < k')%nat -> nth_error vs k' = Some v' -> map_type v' <> 1).
Proof.
  induction vs as [|v t IH]; intros year acc r.
  - left. split; [reflexivity|]. intros [|k] v H; discriminate.
  - subst r. cbn [recent]. destruct (map_type v =? 1) eqn:E.
    + apply Z.eqb_eq in E. destruct (IH (year + 1) year) as [[A B]|(k & v' & A & B & C & F)].
      * right. exists 0%nat, v. repeat split; [exact E|rewrite A; lia|]. intros [|k'] v' Hk Hv; [lia|]. exact (B k' v' Hv).
      * right. exists (S k), v'. repeat split; [exact A|exact B|rewrite C; lia|]. intros [|k'] v'' Hk Hv; [lia|]. apply (F k' v''); [lia|exact Hv].
    + apply Z.eqb_neq in E. destruct (IH (year + 1) acc) as [[A B]|(k & v' & A & B & C & F)].
      * left. split; [exact A|]. intros [|k] w Hw; [injection Hw as <-; exact E|exact (B k w Hw)].
      * right. exists (S k), v'. repeat split; [exact A|exact B|rewrite C; lia|]. intros [|k'] v'' Hk Hv; [lia|]. apply (F k' v''); [lia|exact Hv].
Qed.
Theorem C80_first : forall vs year acc, let r := first_from year vs acc in
  (r = acc /\ forall k v, nth_error vs k = Some v -> map_type v <> 1) \/
  (exists k v, nth_error vs k = Some v /\ map_type v = 1 /\ r = year - Z.of_nat k /\
     forall k' v', (k < k')%nat -> nth_error vs k' = Some v' -> map_type v' <> 1).
Proof.
  induction vs as [|v t IH]; intros year acc r.
  - left. split; [reflexivity|]. intros [|k] v H; discriminate.
  - subst r. cbn [first_from]. destruct (map_type v =? 1) eqn:E.
    + apply Z.eqb_eq in E. destruct (IH (year - 1) year) as [[A B]|(k & v' & A & B & C & F)].
      * right. exists 0%nat, v. repeat split; [exact E|rewrite A; lia|]. intros [|k'] v' Hk Hv; [lia|]. exact (B k' v' Hv).
      * right. exists (S k), v'. repeat split; [exact A|exact B|rewrite C; lia|]. intros [|k'] v'' Hk Hv; [lia|]. apply (F k' v''); [lia|exact Hv].
    + apply Z.eqb_neq in E. destruct (IH (year - 1) acc) as [[A B]|(k & v' & A & B & C & F)].
      * left. split; [exact A|]. intros [|k] w Hw; [injection Hw as <-; exact E|exact (B k w Hw)].
      * right. exists (S k), v'. repeat split; [exact A|exact B|rewrite C; lia|]. intros [|k'] v'' Hk Hv; [lia|]. apply (F k' v''); [lia|exact Hv].
Qed.
End Block.
Example C80_example : recent 2000 [-9999; 1200; 2100; 1005; 3001] 0 = 2003 /\ first_from 2004 [3001; 1005; 2100; 1200; -9999] 0 = 2001 /\
  recent 2000 [-9999; 2100] 0 = 0.
Proof. vm_compute. auto. Qed.

(** getcategory_cold (193-209) on records carrying magnitude[2..4] and
    coefs[2..4, 1] (integers here). *)
Record bands := mkBands { g_m2 : Z; g_m3 : Z; g_m4 : Z; g_s2 : Z; g_s3 : Z; g_s4 : Z }.
Definition getcategory_cold (prev : option (curve bands)) (c nx : curve bands) (last : Z) : Z :=
  let a := c_data c in let b := c_data nx in
  if (g_m3 a >? -200) && (g_m2 a <? 200) && (g_m4 a <? 200) then
    (if (g_s3 b >? Z.abs (g_s3 a)) && (g_s2 b <? - Z.abs (g_s2 a)) && (g_s4 b <? - Z.abs (g_s4 a)) then 3 else 2)
  else 1.
(** getcategory_obcold (212-246); [flips] counts the sign changes between the
    magnitudes of this and the previous record (233-240). *)
Definition getcategory_obcold (flips : bands -> bands -> Z) (prev : option (curve bands)) (c nx : curve bands) (last : Z) : Z :=
  let a := c_data c in let b := c_data nx in
  if (g_m3 a >? -250) && (g_m2 a <? 250) && (g_m4 a <? 250) then
    (if (g_s3 b >? Z.abs (g_s3 a)) && (g_s2 b <? - Z.abs (g_s2 a)) && (g_s4 b <? - Z.abs (g_s4 a)) then 3 else 2)
  else match prev with
  | None => 1
  | Some p => if (4 * (c_break c - c_break p) >? 7305) || negb (last =? 1) then 1
              else if flips (c_data p) a >=? 4 then 4 else 1
  end.
Lemma categories : (forall prev c nx last, 1 <= getcategory_cold prev c nx last <= 4) /\
  (forall flips prev c nx last, 1 <= getcategory_obcold flips prev c nx last <= 4).
Proof.
  split; intros; unfold getcategory_cold, getcategory_obcold;
    repeat match goal with |- context [if ?b then _ else _] => destruct b | |- context [match ?p with Some _ => _ | None => _ end] => destruct p end; lia.
Qed.

(** The four types: 3 and 2 for a greener or as green pixel, 4 for a change
    undone within five years of a disturbance of the pixel, 1 otherwise. *)
Definition not_browner (t : Z) (a : bands) : Prop := - t < g_m3 a /\ g_m2 a < t /\ g_m4 a < t.
Definition greening (a b : bands) : Prop := Z.abs (g_s3 a) < g_s3 b /\ g_s2 b < - Z.abs (g_s2 a) /\ g_s4 b < - Z.abs (g_s4 a).
Theorem C79_types_cold : forall prev c nx last, let ty := getcategory_cold prev c nx last in
  (ty = 3 <-> not_browner 200 (c_data c) /\ greening (c_data c) (c_data nx)) /\
  (ty = 2 <-> not_browner 200 (c_data c) /\ ~ greening (c_data c) (c_data nx)) /\
  (ty = 1 <-> ~ not_browner 200 (c_data c)).
Proof.
  intros prev c nx last ty. unfold ty, getcategory_cold, not_browner, greening. set (a := c_data c). set (b := c_data nx). clearbody a b.
  destruct ((g_m3 a >? -200) && (g_m2 a <? 200) && (g_m4 a <? 200)) eqn:E1;
    [destruct ((g_s3 b >? Z.abs (g_s3 a)) && (g_s2 b <? - Z.abs (g_s2 a)) && (g_s4 b <? - Z.abs (g_s4 a))) eqn:E2|]; repeat split; lia.
Qed.
Theorem C79_types_obcold : forall flips prev c nx last, let ty := getcategory_obcold flips prev c nx last in
  let undone := exists p, prev = Some p /\ 4 * (c_break c - c_break p) <= 4 * 5 * 365 + 5 /\ last = 1 /\ 4 <= flips (c_data p) (c_data c) in
  (ty = 3 <-> not_browner 250 (c_data c) /\ greening (c_data c) (c_data nx)) /\
  (ty = 2 <-> not_browner 250 (c_data c) /\ ~ greening (c_data c) (c_data nx)) /\
  (ty = 4 <-> ~ not_browner 250 (c_data c) /\ undone) /\
  (ty = 1 <-> ~ not_browner 250 (c_data c) /\ ~ undone).
Proof.
  intros flips prev c nx last ty undone. unfold ty, undone, getcategory_obcold, not_browner, greening. set (a := c_data c). set (b := c_data nx). clearbody a b.
  destruct ((g_m3 a >? -250) && (g_m2 a <? 250) && (g_m4 a <? 250)) eqn:E1.
  - destruct ((g_s3 b >? Z.abs (g_s3 a)) && (g_s2 b <? - Z.abs (g_s2 a)) && (g_s4 b <? - Z.abs (g_s4 a))) eqn:E2; repeat split; lia.
  - destruct prev as [p|].
    + assert (U : (exists q, Some p = Some q /\ 4 * (c_break c - c_break q) <= 4 * 5 * 365 + 5 /\ last = 1 /\ 4 <= flips (c_data q) a) <->
        4 * (c_break c - c_break p) <= 4 * 5 * 365 + 5 /\ last = 1 /\ 4 <= flips (c_data p) a).
      { split; [intros (q & E & X); injection E as <-; exact X|intros X; exists p; split; [reflexivity|exact X]]. }
      rewrite U. destruct ((4 * (c_break c - c_break p) >? 7305) || negb (last =? 1)) eqn:E3; [repeat split; lia|].
      destruct (flips (c_data p) a >=? 4) eqn:E4; repeat split; lia.
    + assert (U : ~ exists q, @None (curve bands) = Some q /\ 4 * (c_break c - c_break q) <= 4 * 5 * 365 + 5 /\ last = 1 /\ 4 <= flips (c_data q) a) by (intros (q & E & _); discriminate).
      split; [split; lia|]. split; [split; lia|]. split; split; intros H; try lia; try tauto; try (split; [lia|exact U]). 
Qed.

Definition plain : bands := mkBands 500 0 0 0 0 0.
Definition green : bands := mkBands 0 0 0 0 0 0.
Definition greener : bands := mkBands 0 0 0 (-5) 5 (-5).
(** A block of 2 x 1 pixels (positions 1 and 2). *)
Definition ex_maps (l : list (curve bands)) (y i : Z) : option Z :=
  option_map (fun m => m y i) (block_maps getcategory_cold 2 2 1 1 1 1982 2020 l).
Definition cv (pos brk prob : Z) (d : bands) : curve bands := mkCurve pos brk prob d.
Example C60_maps_example :
  let l := [cv 1 730120 100 plain; cv 1 730600 100 green; cv 1 0 0 greener; cv 2 731000 100 plain; cv 2 0 0 green] in
  (ex_maps l 2000 0, ex_maps l 2001 0, ex_maps l 2001 1, ex_maps l 2002 1) = (Some 1001, Some 3115, Some (-9999), Some 1150).
Proof. vm_compute. reflexivity. Qed.

(** ** What is lost *)

(** The final record of a block is taken for an open segment even if it is a
    confirmed break: its break is in no map. *)
Theorem C60_last_break_refuted : exists l c, In c l /\ breaks c = true /\ 1982 <= py_year (c_break c) <= 2020 /\
  forall y, 1982 <= y <= 2020 -> forall i, exists m, block_maps getcategory_cold 2 2 1 1 1 1982 2020 l = Some m /\ m y i = -9999.
Proof.
  exists [cv 1 730120 100 plain], (cv 1 730120 100 plain). split; [left; reflexivity|]. split; [reflexivity|]. split; [vm_compute; split; discriminate|].
  intros y Hy i. exists fill. split; reflexivity.
Qed.
(** C79: the type of a break depends on the records of its own pixel only:
    false, because the "next segment" of a pixel's last record is the first
    record of the next pixel. *)
Theorem C79_neighbour_refuted : exists own other other' y i m m',
  (forall c, In c own -> c_pos c = 1) /\ (forall c, In c (other ++ other') -> c_pos c = 2) /\
  block_maps getcategory_cold 2 2 1 1 1 1982 2020 (own ++ other) = Some m /\
  block_maps getcategory_cold 2 2 1 1 1 1982 2020 (own ++ other') = Some m' /\
  i = index 2 2 1 1 1 (cv 1 730120 100 green) /\ m y i <> m' y i.
Proof.
  set (own := [cv 1 730120 100 green]). set (o1 := [cv 2 0 0 green]). set (o2 := [cv 2 0 0 greener]).
  destruct (@C60_no_abort bands getcategory_cold 2 2 1 1 1 1982 2020 (own ++ o1)) as [m Hm].
  { discriminate. } { intros c [<-|[<-|[]]]; vm_compute; discriminate. }
  destruct (@C60_no_abort bands getcategory_cold 2 2 1 1 1 1982 2020 (own ++ o2)) as [m' Hm'].
  { discriminate. } { intros c [<-|[<-|[]]]; vm_compute; discriminate. }
  exists own, o1, o2, 2000, 0, m, m'. split; [intros c [<-|[]]; reflexivity|]. split; [intros c [<-|[<-|[]]]; reflexivity|].
  split; [exact Hm|]. split; [exact Hm'|]. split; [reflexivity|].
  assert (E : ex_maps (own ++ o1) 2000 0 = Some 2001) by (vm_compute; reflexivity).
  assert (E' : ex_maps (own ++ o2) 2000 0 = Some 3001) by (vm_compute; reflexivity).
  unfold ex_maps in E, E'. rewrite Hm in E. rewrite Hm' in E'. cbn in E, E'. injection E as ->. injection E' as ->. discriminate.
Qed.

(** Which block files exist when the maps are put together.  A block without a
    record file saves fill maps (428-433); the saving loop after the records
    (559-567) is inside the branch of COLD and OBCOLD, so an S-CCD block with
    records saves nothing.  The assembly (574-578) loads every file. *)
Inductive method := COLD | OBCOLD | SCCDOFFLINE.
Definition saved (mt : method) (record_file : bool) : bool :=
  if negb record_file then true else match mt with SCCDOFFLINE => false | _ => true end.
(** [false]: np.load raises FileNotFoundError *)
Definition assembled (mt : method) (record_files : list bool) : bool := forallb (saved mt) record_files.
Theorem C60_cold_assembled : forall mt bs, mt <> SCCDOFFLINE -> assembled mt bs = true.
Proof. intros mt bs H. apply forallb_forall. intros b _. destruct mt, b; try reflexivity; congruence. Qed.
(** With S-CCD one processed block is enough to stop the export. *)
Theorem C60_sccd_refuted : forall bs, In true bs -> assembled SCCDOFFLINE bs = false.
Proof.
  intros bs H. destruct (assembled SCCDOFFLINE bs) eqn:E; [|reflexivity].
  unfold assembled in E. rewrite forallb_forall in E. discriminate (E true H).
Qed.
Example C60_sccd_example : assembled SCCDOFFLINE [false; true] = false /\ assembled COLD [false; true] = true /\ assembled SCCDOFFLINE [false] = true.
Proof. auto. Qed.

Print Assumptions C60_encoding.
Print Assumptions C79_types_cold.
Print Assumptions C79_types_obcold.
Print Assumptions C60_lossless.
Print Assumptions C60_maps_partial.
Print Assumptions C60_no_abort.
Print Assumptions C60_last_break_refuted.
Print Assumptions C79_neighbour_refuted.
Print Assumptions C80_recent.
Print Assumptions C80_first.
Print Assumptions C60_cold_assembled.
Print Assumptions C60_sccd_refuted.
