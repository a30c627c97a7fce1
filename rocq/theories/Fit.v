(** The LASSO fit of one band and the prediction from it (src/cxx/misc.c
    1642-1711, 2017-2215, 2241-2508): arrays, order of the terms and scaling in
    exact arithmetic, and the phases of the harmonic terms in floating point.

    c_glmnet (misc.c 2647-2740) is an arbitrary function of the two arrays it
    is handed; cosine and sine are arbitrary functions. *)
From Coq Require Import Reals Lra.
From Coq Require Import Floats.SpecFloat.
From Verif Require Import Base Angle.

Section Fit.
(** cos(k * w * date) and sin(k * w * date), w = TWO_PI / 365.25. *)
Variables co si : Z -> Z -> R.
(** SLOPE_SCALE (defines.h 131). *)
Definition slope_scale : R := 10000.

(** The terms of a model but the constant one, in the order of the rows of
    [x] (misc.c 2310-2454). *)
Definition terms (df d : Z) : option (list R) :=
  if df =? 2 then Some [IZR d]
  else if df =? 4 then Some [IZR d; co 1 d; si 1 d]
  else if df =? 5 then Some [co 1 d; si 1 d; co 2 d; si 2 d]
  else if df =? 6 then Some [IZR d; co 1 d; si 1 d; co 2 d; si 2 d]
  else if df =? 8 then Some [IZR d; co 1 d; si 1 d; co 2 d; si 2 d; co 3 d; si 3 d]
  else None.

(** One pass [x[0][i] = ...; x[1][i] = ...]: row [j] starts at [j * nums]. *)
Fixpoint put_terms (x : list R) (nums i j : Z) (vs : list R) : out (list R) :=
  match vs with
  | [] => Ok x
  | v :: t => x1 <- put x (j * nums + i) v ;; put_terms x1 nums i (j + 1) t
  end.

(** [for (i = 0; i < nums; i++)] filling [x] and [y]; [n] passes left. *)
Fixpoint fill_xy (n : nat) (df : Z) (clrx : list Z) (col : list R) (start nums i : Z) (x y : list R)
  : out (list R * list R) :=
  match n with
  | O => Ok (x, y)
  | S m =>
      d <- get clrx (i + start) ;; v <- get col (i + start) ;;
      vs <- of_opt (terms df d) ;;
      x1 <- put_terms x nums i 0 vs ;; y1 <- put y i v ;;
      fill_xy m df clrx col start nums (i + 1) x1 y1
  end.

(** [for (i = 0; i < width; i++) coefs[b][i] = 0] (width is LASSO_COEFFS 8 or
    SCCD_NUM_C 6; misc.c 2324-2325, 2100-2101). *)
Fixpoint zero_coefs (n : nat) (i : Z) (coefs : list R) : out (list R) :=
  match n with
  | O => Ok coefs
  | S m => c1 <- put coefs i 0%R ;; zero_coefs m (i + 1) c1
  end.

(** [for (j = 0; j < df; j++)]: the slope is stored times SLOPE_SCALE, except
    for df = 5, which has none (misc.c 2327-2337, 2400-2407). *)
Fixpoint copy_coefs (n : nat) (df j : Z) (c : nat -> R) (coefs : list R) : out (list R) :=
  match n with
  | O => Ok coefs
  | S m =>
      c1 <- put coefs j (if (j =? 1) && negb (df =? 5) then (c (Z.to_nat j) * slope_scale)%R else c (Z.to_nat j)) ;;
      copy_coefs m df (j + 1) c c1
  end.

(** auto_ts_predict_float (misc.c 1642-1711) for one date. *)
Definition predict (df : Z) (coefs : list R) (d : Z) : out R :=
  let lin := c0 <- get coefs 0 ;; c1 <- get coefs 1 ;; Ok (c0 + c1 * IZR d / slope_scale)%R in
  let har (a : R) (i k : Z) := p <- get coefs i ;; q <- get coefs (i + 1) ;; Ok (a + p * co k d + q * si k d)%R in
  if df =? 2 then lin
  else if df =? 4 then a <- lin ;; har a 2 1
  else if df =? 5 then c0 <- get coefs 0 ;; a <- har c0 1 1 ;; har a 3 2
  else if df =? 6 then a <- lin ;; b <- har a 2 1 ;; har b 4 2
  else if df =? 8 then a <- lin ;; b <- har a 2 1 ;; c <- har b 4 2 ;; har c 6 3
  else Fail.

(** Predicting with more terms than were fitted changes nothing: the terms
    from [df] on are zero (update_num_c may exceed the terms of the last fit,
    cold.c 1452-1478, 1581). *)
Theorem C91_more_terms : forall df df' coefs d, In df [2; 4; 6] -> In df' [4; 6; 8] -> df <= df' -> df' <= zlen coefs ->
  (forall j, df <= Z.of_nat j < df' -> nth j coefs 0%R = 0%R) -> predict df' coefs d = predict df coefs d.
Proof.
  intros df df' coefs d H H' Hle Hl Hz.
  assert (Hg : forall i, 0 <= i < df' -> get coefs i = Ok (nth (Z.to_nat i) coefs 0%R)).
  { intros i Hi. apply get_ok. lia. }
  assert (Hg0 : forall i, df <= i < df' -> get coefs i = Ok 0%R).
  { intros i Hi. rewrite Hg by (clear - H Hi; cbn in H; lia). f_equal. apply Hz. cbn in H. lia. }
  unfold predict. cbn [In] in H, H'.
  destruct H as [<-|[<-|[<-|[]]]]; destruct H' as [<-|[<-|[<-|[]]]]; try lia; cbn [Z.eqb Pos.eqb];
    repeat (first [rewrite Hg0 by lia | rewrite Hg by lia]; cbn [bind]); try reflexivity; f_equal; ring.
Qed.

(** The residuals [v_dif[b][i] = clry[b][i+start] - yhat[i]] (misc.c
    2484-2488). *)
Fixpoint residuals (n : nat) (df : Z) (coefs : list R) (clrx : list Z) (col : list R) (start i : Z) (v : list R)
  : out (list R) :=
  match n with
  | O => Ok v
  | S m =>
      d <- get clrx (i + start) ;; y <- get col (i + start) ;;
      p <- predict df coefs d ;; v1 <- put v i (y - p)%R ;;
      residuals m df coefs clrx col start (i + 1) v1
  end.

(** [norm / sqrt(nums - df)] (misc.c 2489-2490): no number for nums <= df. *)
Definition rmse_of (nums df : Z) (v : list R) : option R :=
  if df <? nums
  then Some (sqrt (fold_right Rplus 0 (map (fun r => r * r) (firstn (Z.to_nat nums) v))) / sqrt (IZR (nums - df)))%R
  else None.

(** c_glmnet(nums, df-1, x, y, 1, {20}, 1, ...): [None] for a status other
    than SUCCESS, otherwise cfs[0]. *)
Variable lasso : Z -> Z -> list R -> list R -> option (nat -> R).

(** auto_ts_fit_float with [width] 8 and auto_ts_fit_sccd with [width] 6.
    [junk]: contents of freshly allocated memory; [coefs] and [v]: the
    caller's buffers.  auto_ts_fit_sccd has no case for 5 and 8 (misc.c
    2086-2183); it is never called with them and the model refuses them.
    A window without observations is not modelled (UB). *)
Definition fit_band (width : Z) (junk : nat -> R) (clrx : list Z) (col : list R) (start endd df : Z)
  (coefs v : list R) : out (list R * list R * option R) :=
  let nums := endd - start + 1 in
  if negb ((df =? 2) || (df =? 4) || (df =? 6) || ((width =? 8) && ((df =? 5) || (df =? 8)))) then Fail
  else if nums <? 1 then UB
  else
    ' (x, y) <- fill_xy (Z.to_nat nums) df clrx col start nums 0
                  (map junk (seq 0 (Z.to_nat ((df - 1) * nums)))) (map junk (seq 0 (Z.to_nat nums))) ;;
    c <- of_opt (lasso nums (df - 1) x y) ;;
    z <- zero_coefs (Z.to_nat width) 0 coefs ;;
    coefs1 <- copy_coefs (Z.to_nat df) df 0 c z ;;
    v1 <- residuals (Z.to_nat nums) df coefs1 clrx col start 0 v ;;
    Ok (coefs1, v1, rmse_of nums df v1).

(* ------------------------------------------------------------------ *)
(** * What it computes, stated without arrays *)

(** The date itself, except for five coefficients, then cosine and sine of
    the harmonics 1, 2, ... as far as the coefficients reach. *)
Definition terms' (df d : Z) : list R :=
  (if df =? 5 then [] else [IZR d]) ++ flat_map (fun k => [co (Z.of_nat k) d; si (Z.of_nat k) d]) (seq 1 (Z.to_nat ((df - 1) / 2))).
(** The matrix handed to c_glmnet: one column of values per term, term by
    term (elnet expects x(no, ni) in column order, GLMnet.f). *)
Definition regressors (df : Z) (dates : list Z) : list R :=
  flat_map (fun j => map (fun d => nth j (terms' df d) 0%R) dates) (seq 0 (Z.to_nat (df - 1))).

(** The linear model with coefficients [c]. *)
Definition linear (df : Z) (c : nat -> R) (d : Z) : R :=
  (c 0%nat + fold_right Rplus 0 (map (fun j => c (S j) * nth j (terms' df d) 0) (seq 0 (Z.to_nat (df - 1)))))%R.

Definition known (width df : Z) : Prop :=
  (width = 8 /\ (df = 2 \/ df = 4 \/ df = 5 \/ df = 6 \/ df = 8)) \/ (width = 6 /\ (df = 2 \/ df = 4 \/ df = 6)).

Definition window {A} (start endd : Z) (l : list A) : list A :=
  firstn (Z.to_nat (endd - start + 1)) (skipn (Z.to_nat start) l).

(* ------------------------------------------------------------------ *)
(** * Lemmas *)

Lemma terms_len : forall w df d, known w df -> terms df d = Some (terms' df d) /\ zlen (terms' df d) = df - 1.
Proof.
  intros w df d H. unfold known in H. unfold terms.
  assert (G : df = 2 \/ df = 4 \/ df = 5 \/ df = 6 \/ df = 8) by lia. clear H.
  destruct G as [->|[->|[->|[->| ->]]]]; split; reflexivity.
Qed.

Lemma put_terms_spec : forall vs x nums i j, 0 <= i < nums -> 0 <= j -> (j + zlen vs) * nums <= zlen x ->
  exists x', put_terms x nums i j vs = Ok x' /\ length x' = length x /\
    forall k, nth k x' 0%R =
      if (Z.of_nat k mod nums =? i) && (j <=? Z.of_nat k / nums) && (Z.of_nat k / nums <? j + zlen vs)
      then nth (Z.to_nat (Z.of_nat k / nums - j)) vs 0%R else nth k x 0%R.
Proof.
  induction vs as [|v vs IH]; intros x nums i j Hi Hj Hx.
  - exists x. repeat split; auto. intros k. change (zlen (@nil R)) with 0. 
    destruct (_ && _ && _) eqn:E; [|reflexivity].
    apply andb_prop in E. destruct E as [E E3]. apply andb_prop in E. destruct E as [E1 E2].
    apply Z.leb_le in E2. apply Z.ltb_lt in E3. exfalso. clear - E2 E3. lia.
  - assert (Hl : zlen (v :: vs) = zlen vs + 1) by (unfold zlen; cbn [length]; lia). rewrite Hl in *.
    assert (Hp : 0 <= zlen vs) by (unfold zlen; lia).
    assert (Hin : 0 <= j * nums + i < zlen x) by (clear - Hi Hj Hx Hp; nia).
    cbn [put_terms]. rewrite (put_ok x v) by assumption. cbn [bind].
    set (x1 := firstn _ x ++ v :: _).
    assert (E1 : put x (j * nums + i) v = Ok x1) by (apply put_ok; assumption).
    assert (Hl1 : length x1 = length x) by (eapply put_len; exact E1).
    destruct (IH x1 nums i (j + 1)) as (x' & E' & Hl' & Hn'); [assumption|lia| |].
    { unfold zlen in *. rewrite Hl1. clear - Hx. nia. }
    exists x'. split; [exact E'|]. split; [congruence|]. intros k. rewrite Hn'.
    rewrite (@nth_put R x (j * nums + i) v x1 k 0%R E1).
    assert (Hk : Z.of_nat k = nums * (Z.of_nat k / nums) + Z.of_nat k mod nums) by (apply Z.div_mod; lia).
    set (q := Z.of_nat k / nums) in *. set (r := Z.of_nat k mod nums) in *.
    assert (Hr : 0 <= r < nums) by (apply Z.mod_pos_bound; lia). clearbody q r. clear E1 E' Hn' IH.
    destruct (r =? i) eqn:Er; cbn [andb].
    + apply Z.eqb_eq in Er. subst r.
      destruct (Z.eq_dec q j) as [->|Hq].
      * replace (j + 1 <=? j) with false by lia. cbn [andb].
        replace (j <=? j) with true by lia. replace (j <? j + (zlen vs + 1)) with true by lia. cbn [andb].
        replace (Nat.eqb k (Z.to_nat (j * nums + i))) with true by (symmetry; apply Nat.eqb_eq; lia).
        replace (Z.to_nat (j - j)) with O by lia. reflexivity.
      * assert (Hne : Nat.eqb k (Z.to_nat (j * nums + i)) = false).
        { apply Nat.eqb_neq. intros ->. rewrite Z2Nat.id in Hk by lia. apply Hq. destruct (Z.div_mod_unique nums j q i i) as [E2 _]; [left; lia|left; lia|lia|lia]. }
        rewrite Hne.
        destruct (j + 1 <=? q) eqn:A; destruct (q <? j + 1 + zlen vs) eqn:B; cbn [andb].
        -- replace (j <=? q) with true by lia. replace (q <? j + (zlen vs + 1)) with true by lia. cbn [andb].
           replace (Z.to_nat (q - j)) with (S (Z.to_nat (q - (j + 1)))) by lia. reflexivity.
        -- replace (q <? j + (zlen vs + 1)) with false by lia. rewrite andb_false_r. reflexivity.
        -- replace (j <=? q) with false by lia. reflexivity.
        -- replace (j <=? q) with false by lia. reflexivity.
    + replace (Nat.eqb k (Z.to_nat (j * nums + i))) with false; [reflexivity|].
      symmetry. apply Nat.eqb_neq. intros ->. rewrite Z2Nat.id in Hk by lia.
      destruct (Z.div_mod_unique nums j q i r) as [_ E2]; [left; lia|left; lia|lia|lia].
Qed.

(** The filled arrays. *)
Lemma fill_spec : forall n w df clrx col start nums i x y, known w df -> 0 <= start -> 0 <= i ->
  i + Z.of_nat n = nums -> start + nums <= zlen clrx -> start + nums <= zlen col ->
  zlen x = (df - 1) * nums -> zlen y = nums ->
  exists x' y', fill_xy n df clrx col start nums i x y = Ok (x', y') /\ length x' = length x /\ length y' = length y /\
    (forall k, (k < length x)%nat -> nth k x' 0%R =
      if i <=? Z.of_nat k mod nums then nth (Z.to_nat (Z.of_nat k / nums)) (terms' df (nth (Z.to_nat (Z.of_nat k mod nums + start)) clrx 0)) 0%R
      else nth k x 0%R) /\
    (forall k, (k < length y)%nat -> nth k y' 0%R =
      if i <=? Z.of_nat k then nth (Z.to_nat (Z.of_nat k + start)) col 0%R else nth k y 0%R).
Proof.
  induction n as [|n IH]; intros w df clrx col start nums i x y Hw Hs Hi Hn Hc Hv Hx Hy.
  - exists x, y. repeat split; auto.
    + intros k Hk. assert (0 < nums) by (unfold zlen in *; assert (0 <= df - 1) by (unfold known in Hw; lia); nia).
      assert (Z.of_nat k mod nums < nums) by (apply Z.mod_pos_bound; assumption).
      destruct (i <=? Z.of_nat k mod nums) eqn:E; [lia|reflexivity].
    + intros k Hk. replace (i <=? Z.of_nat k) with false; [reflexivity|]. unfold zlen in Hy. lia.
  - cbn [fill_xy].
    assert (Hdf : 1 <= df - 1) by (unfold known in Hw; lia).
    rewrite (get_ok clrx 0) by lia. cbn [bind]. rewrite (get_ok col 0%R) by lia. cbn [bind].
    set (d := nth (Z.to_nat (i + start)) clrx 0).
    destruct (terms_len d Hw) as (El & Hl). set (l := terms' df d) in *. rewrite El. cbn [of_opt bind].
    destruct (@put_terms_spec l x nums i 0) as (x1 & E1 & L1 & N1); [lia|lia|rewrite Hl; lia|].
    rewrite E1. cbn [bind].
    assert (Ey : put y i (nth (Z.to_nat (i + start)) col 0%R) =
      Ok (firstn (Z.to_nat i) y ++ nth (Z.to_nat (i + start)) col 0%R :: skipn (S (Z.to_nat i)) y)) by (apply put_ok; lia).
    rewrite Ey. cbn [bind]. set (y1 := firstn _ y ++ _) in *.
    assert (Ly1 : length y1 = length y) by (eapply put_len; exact Ey).
    destruct (IH w df clrx col start nums (i + 1) x1 y1) as (x' & y' & E' & L' & Ly' & N' & Ny'); auto; try lia.
    { unfold zlen in *. lia. } { unfold zlen in *. lia. }
    exists x', y'. split; [exact E'|]. split; [congruence|]. split; [congruence|]. split.
    + intros k Hk. rewrite N' by lia. rewrite N1.
      assert (Hk2 : Z.of_nat k = nums * (Z.of_nat k / nums) + Z.of_nat k mod nums) by (apply Z.div_mod; lia).
      assert (Hr : 0 <= Z.of_nat k mod nums < nums) by (apply Z.mod_pos_bound; lia).
      assert (Hq : 0 <= Z.of_nat k / nums < df - 1).
      { split; [apply Z.div_pos; lia|]. apply Z.div_lt_upper_bound; [lia|]. unfold zlen in Hx. clear - Hx Hk. nia. }
      set (q := Z.of_nat k / nums) in *. set (r := Z.of_nat k mod nums) in *. clearbody q r.
      destruct (i + 1 <=? r) eqn:A.
      * replace (i <=? r) with true by lia. reflexivity.
      * destruct (r =? i) eqn:B.
        -- apply Z.eqb_eq in B. subst r. replace (0 <=? q) with true by lia. replace (q <? 0 + zlen l) with true by lia.
           replace (i <=? i) with true by lia. cbn [andb]. fold d. fold l. f_equal. lia.
        -- replace (i <=? r) with false by lia. reflexivity.
    + intros k Hk. rewrite Ny' by lia. rewrite (@nth_put R y i _ y1 k 0%R Ey).
      destruct (i + 1 <=? Z.of_nat k) eqn:A.
      * replace (i <=? Z.of_nat k) with true by lia. reflexivity.
      * destruct (Nat.eqb k (Z.to_nat i)) eqn:B.
        -- apply Nat.eqb_eq in B. replace (i <=? Z.of_nat k) with true by lia. f_equal. lia.
        -- apply Nat.eqb_neq in B. replace (i <=? Z.of_nat k) with false by lia. reflexivity.
Qed.

Lemma flat_map_uniform : forall A (f : nat -> list A) n s m, (forall j, length (f j) = m) -> length (flat_map f (seq s n)) = (n * m)%nat.
Proof. induction n; intros s m H; cbn [seq flat_map]; [reflexivity|]. rewrite app_length, H, (IHn (S s) m H). lia. Qed.

Lemma nth_flat_map : forall A (f : nat -> list A) n s m k d, (0 < m)%nat -> (forall j, length (f j) = m) -> (k < n * m)%nat ->
  nth k (flat_map f (seq s n)) d = nth (k mod m) (f (s + k / m)%nat) d.
Proof.
  induction n; intros s m k d Hm H Hk; [lia|]. cbn [seq flat_map].
  destruct (Nat.lt_ge_cases k m) as [L|L].
  - rewrite app_nth1 by (rewrite H; lia). rewrite Nat.mod_small, Nat.div_small by lia. f_equal. f_equal. lia.
  - rewrite app_nth2 by (rewrite H; lia). rewrite H. rewrite (IHn (S s) m (k - m)%nat d) by (auto; lia).
    assert (E : (k = (k - m) + 1 * m)%nat) by lia.
    rewrite E at 3 4. rewrite Nat.mod_add, Nat.div_add by lia. f_equal. f_equal. lia.
Qed.

Lemma nth_map_lt : forall A B (f : A -> B) l k d d', (k < length l)%nat -> nth k (map f l) d' = f (nth k l d).
Proof. induction l; intros k d d' H; cbn [length] in H; [lia|]. destruct k; [reflexivity|]. apply IHl. lia. Qed.

Lemma window_len : forall A start endd (l : list A), 0 <= start -> start <= endd + 1 -> endd < zlen l ->
  length (window start endd l) = Z.to_nat (endd - start + 1).
Proof. intros. unfold window, zlen in *. rewrite firstn_length, skipn_length. lia. Qed.

Lemma window_nth : forall A start endd (l : list A) k d, (k < Z.to_nat (endd - start + 1))%nat -> 0 <= start ->
  nth k (window start endd l) d = nth (Z.to_nat (Z.of_nat k + start)) l d.
Proof. intros. unfold window. rewrite nth_firstn by lia. rewrite nth_skipn. f_equal. lia. Qed.

(** The arrays are the regressors of the window and its values. *)
Lemma fill_window : forall w df clrx col start endd x y, known w df -> 0 <= start <= endd ->
  endd < zlen clrx -> endd < zlen col -> zlen x = (df - 1) * (endd - start + 1) -> zlen y = endd - start + 1 ->
  fill_xy (Z.to_nat (endd - start + 1)) df clrx col start (endd - start + 1) 0 x y =
  Ok (regressors df (window start endd clrx), window start endd col).
Proof.
  intros w df clrx col start endd x y Hw Hs Hc Hv Hx Hy. set (nums := endd - start + 1) in *.
  destruct (@fill_spec (Z.to_nat nums) w df clrx col start nums 0 x y) as (x' & y' & E & L & Ly & N & Ny); auto; try lia.
  rewrite E. f_equal. assert (Hdf : 1 <= df - 1) by (unfold known in Hw; lia).
  assert (Hn : 0 < nums) by lia.
  f_equal.
  - unfold regressors. set (f := fun j => map _ _).
    assert (Hf : forall j, length (f j) = Z.to_nat nums) by (intros j; unfold f; rewrite map_length; apply window_len; lia).
    assert (Hlx : length x = (Z.to_nat (df - 1) * Z.to_nat nums)%nat) by (unfold zlen in Hx; rewrite <- Z2Nat.inj_mul by lia; lia).
    apply nth_ext with (d := 0%R) (d' := 0%R).
    + rewrite L. rewrite (@flat_map_uniform R f _ 0 (Z.to_nat nums) Hf). exact Hlx.
    + intros k Hk. rewrite L in Hk. rewrite N by assumption.
      rewrite (@nth_flat_map R f _ 0 (Z.to_nat nums)) by (auto; lia).
      assert (Hr : 0 <= Z.of_nat k mod nums < nums) by (apply Z.mod_pos_bound; lia).
      replace (0 <=? Z.of_nat k mod nums) with true by lia.
      assert (Em : (k mod Z.to_nat nums)%nat = Z.to_nat (Z.of_nat k mod nums)).
      { rewrite Z2Nat.inj_mod by lia. rewrite Nat2Z.id. reflexivity. }
      assert (Ed : (k / Z.to_nat nums)%nat = Z.to_nat (Z.of_nat k / nums)).
      { rewrite Z2Nat.inj_div by lia. rewrite Nat2Z.id. reflexivity. }
      rewrite Em, Ed. unfold f. cbn [Nat.add].
      rewrite (@nth_map_lt Z R (fun d => nth (Z.to_nat (Z.of_nat k / nums)) (terms' df d) 0%R) _ _ 0 0%R)
        by (rewrite window_len by lia; fold nums; lia).
      rewrite window_nth by (fold nums; lia). rewrite Z2Nat.id by lia. reflexivity.
  - apply nth_ext with (d := 0%R) (d' := 0%R).
    + rewrite Ly, window_len by lia. unfold zlen in Hy. lia.
    + intros k Hk. rewrite Ly in Hk. rewrite Ny by assumption. replace (0 <=? Z.of_nat k) with true by lia.
      rewrite window_nth by (unfold zlen in Hy; lia). reflexivity.
Qed.

(** The coefficient buffer. *)
Lemma zero_spec : forall n i coefs, 0 <= i -> i + Z.of_nat n <= zlen coefs ->
  exists c', zero_coefs n i coefs = Ok c' /\ length c' = length coefs /\
    forall k, nth k c' 0%R = if (i <=? Z.of_nat k) && (Z.of_nat k <? i + Z.of_nat n) then 0%R else nth k coefs 0%R.
Proof.
  induction n as [|n IH]; intros i coefs Hi Hl.
  - exists coefs. repeat split; auto. intros k. destruct (_ && _) eqn:E; [lia|reflexivity].
  - cbn [zero_coefs].
    assert (E : put coefs i 0%R = Ok (firstn (Z.to_nat i) coefs ++ 0%R :: skipn (S (Z.to_nat i)) coefs)) by (apply put_ok; lia).
    rewrite E. cbn [bind]. set (c1 := firstn _ coefs ++ _) in *. pose proof (put_len _ _ _ E) as L1.
    destruct (IH (i + 1) c1) as (c' & E' & L' & N'); [lia|unfold zlen in *; lia|].
    exists c'. split; [exact E'|]. split; [congruence|]. intros k. rewrite N', (@nth_put R coefs i 0%R c1 k 0%R E).
    destruct (Nat.eqb k (Z.to_nat i)) eqn:B.
    + apply Nat.eqb_eq in B. replace ((i <=? Z.of_nat k) && (Z.of_nat k <? i + Z.of_nat (S n))) with true by lia.
      destruct (_ && _); reflexivity.
    + apply Nat.eqb_neq in B.
      replace ((i <=? Z.of_nat k) && (Z.of_nat k <? i + Z.of_nat (S n)))
        with ((i + 1 <=? Z.of_nat k) && (Z.of_nat k <? i + 1 + Z.of_nat n)) by lia. reflexivity.
Qed.

Definition scaled (df : Z) (c : nat -> R) (j : nat) : R :=
  if (Z.of_nat j =? 1) && negb (df =? 5) then (c j * slope_scale)%R else c j.

Lemma copy_spec : forall n df i c coefs, 0 <= i -> i + Z.of_nat n <= zlen coefs ->
  exists c', copy_coefs n df i c coefs = Ok c' /\ length c' = length coefs /\
    forall k, nth k c' 0%R = if (i <=? Z.of_nat k) && (Z.of_nat k <? i + Z.of_nat n) then scaled df c k else nth k coefs 0%R.
Proof.
  induction n as [|n IH]; intros df i c coefs Hi Hl.
  - exists coefs. repeat split; auto. intros k. destruct (_ && _) eqn:E; [lia|reflexivity].
  - cbn [copy_coefs]. set (v := if _ && _ then _ else _).
    assert (E : put coefs i v = Ok (firstn (Z.to_nat i) coefs ++ v :: skipn (S (Z.to_nat i)) coefs)) by (apply put_ok; lia).
    rewrite E. cbn [bind]. set (c1 := firstn _ coefs ++ _) in *. pose proof (put_len _ _ _ E) as L1.
    destruct (IH df (i + 1) c c1) as (c' & E' & L' & N'); [lia|unfold zlen in *; lia|].
    exists c'. split; [exact E'|]. split; [congruence|]. intros k. rewrite N', (@nth_put R coefs i v c1 k 0%R E).
    destruct (Nat.eqb k (Z.to_nat i)) eqn:B.
    + apply Nat.eqb_eq in B. replace ((i <=? Z.of_nat k) && (Z.of_nat k <? i + Z.of_nat (S n))) with true by lia.
      replace ((i + 1 <=? Z.of_nat k) && (Z.of_nat k <? i + 1 + Z.of_nat n)) with false by lia.
      unfold v, scaled. subst k. rewrite Z2Nat.id by lia. reflexivity.
    + apply Nat.eqb_neq in B.
      replace ((i <=? Z.of_nat k) && (Z.of_nat k <? i + Z.of_nat (S n)))
        with ((i + 1 <=? Z.of_nat k) && (Z.of_nat k <? i + 1 + Z.of_nat n)) by lia. reflexivity.
Qed.

(** Prediction from a buffer that holds the scaled coefficients. *)
Lemma predict_spec : forall w df c coefs d, known w df -> w <= zlen coefs ->
  (forall k, Z.of_nat k < df -> nth k coefs 0%R = scaled df c k) -> predict df coefs d = Ok (linear df c d).
Proof.
  intros w df c coefs d Hw Hl Hn.
  assert (G : (df = 2 \/ df = 4 \/ df = 5 \/ df = 6 \/ df = 8) /\ df <= zlen coefs) by (unfold known in Hw; lia).
  destruct G as [G Hd]. clear Hw Hl.
  assert (Hg : forall i, 0 <= i < df -> get coefs i = Ok (scaled df c (Z.to_nat i))).
  { intros i Hi. rewrite (get_ok coefs 0%R) by lia. f_equal. apply Hn. lia. }
  unfold predict, linear.
  assert (Ht : terms' df d = match terms df d with Some l => l | None => [] end)
    by (destruct G as [->|[->|[->|[->| ->]]]]; reflexivity).
  rewrite Ht. clear Ht. unfold terms.
  destruct G as [->|[->|[->|[->| ->]]]]; cbn [Z.eqb Pos.eqb];
    repeat (rewrite Hg by lia; cbn [bind]);
    change (2 - 1) with 1; change (4 - 1) with 3; change (5 - 1) with 4; change (6 - 1) with 5; change (8 - 1) with 7;
    repeat match goal with |- context [Z.to_nat ?z] => let n := eval compute in (Z.to_nat z) in change (Z.to_nat z) with n end;
    unfold scaled, slope_scale; cbn [Z.of_nat Pos.of_succ_nat Pos.succ Z.eqb Pos.eqb negb andb seq map nth fold_right];
    f_equal; field.
Qed.

Lemma residuals_spec : forall n w df c coefs clrx col start i v, known w df -> w <= zlen coefs ->
  (forall k, Z.of_nat k < df -> nth k coefs 0%R = scaled df c k) -> 0 <= start -> 0 <= i ->
  i + Z.of_nat n + start <= zlen clrx -> i + Z.of_nat n + start <= zlen col -> i + Z.of_nat n <= zlen v ->
  exists v', residuals n df coefs clrx col start i v = Ok v' /\ length v' = length v /\
    forall k, nth k v' 0%R =
      if (i <=? Z.of_nat k) && (Z.of_nat k <? i + Z.of_nat n)
      then (nth (Z.to_nat (Z.of_nat k + start)) col 0 - linear df c (nth (Z.to_nat (Z.of_nat k + start)) clrx 0%Z))%R
      else nth k v 0%R.
Proof.
  induction n as [|n IH]; intros w df c coefs clrx col start i v Hw Hl Hc Hs Hi Hx Hy Hv.
  - exists v. repeat split; auto. intros k. destruct (_ && _) eqn:E; [lia|reflexivity].
  - cbn [residuals]. rewrite (get_ok clrx 0) by lia. cbn [bind]. rewrite (get_ok col 0%R) by lia. cbn [bind].
    rewrite (@predict_spec w df c coefs _ Hw Hl Hc). cbn [bind]. set (r := (_ - _)%R).
    assert (E : put v i r = Ok (firstn (Z.to_nat i) v ++ r :: skipn (S (Z.to_nat i)) v)) by (apply put_ok; lia).
    rewrite E. cbn [bind]. set (v1 := firstn _ v ++ _) in *. pose proof (put_len _ _ _ E) as L1.
    destruct (IH w df c coefs clrx col start (i + 1) v1) as (v' & E' & L' & N'); auto; try lia; [unfold zlen in *; lia|].
    exists v'. split; [exact E'|]. split; [congruence|]. intros k. rewrite N', (@nth_put R v i r v1 k 0%R E).
    destruct (Nat.eqb k (Z.to_nat i)) eqn:B.
    + apply Nat.eqb_eq in B. replace ((i <=? Z.of_nat k) && (Z.of_nat k <? i + Z.of_nat (S n))) with true by lia.
      replace ((i + 1 <=? Z.of_nat k) && (Z.of_nat k <? i + 1 + Z.of_nat n)) with false by lia.
      unfold r. subst k. rewrite Z2Nat.id by lia. reflexivity.
    + apply Nat.eqb_neq in B.
      replace ((i <=? Z.of_nat k) && (Z.of_nat k <? i + Z.of_nat (S n)))
        with ((i + 1 <=? Z.of_nat k) && (Z.of_nat k <? i + 1 + Z.of_nat n)) by lia. reflexivity.
Qed.

(* ------------------------------------------------------------------ *)
(** * C91 *)

Lemma squares_nonneg : forall l, (0 <= fold_right Rplus 0 (map (fun z => z * z) l))%R.
Proof.
  induction l as [|a l IH]; cbn [map fold_right]; [lra|]. pose proof (Rle_0_sqr a) as Ha. unfold Rsqr in Ha. lra.
Qed.

(** A fit hands c_glmnet exactly the regressors and the values of its window,
    whatever the fresh memory and the caller's buffers held; it fails exactly
    when c_glmnet does.  Otherwise predicting from the stored coefficients
    gives the linear model c_glmnet returned, at every date, the slope being
    stored times 10000; entries beyond
    the terms of the model are zero and entries of other bands untouched; the
    residuals are observation minus that model; the error is their norm over
    [sqrt (nums - df)]. *)
Theorem C91_fit : forall width df junk clrx col start endd coefs v,
  known width df -> 0 <= start <= endd -> endd < zlen clrx -> endd < zlen col ->
  width <= zlen coefs -> endd - start + 1 <= zlen v ->
  match lasso (endd - start + 1) (df - 1) (regressors df (window start endd clrx)) (window start endd col) with
  | None => fit_band width junk clrx col start endd df coefs v = Fail
  | Some c =>
      exists coefs' v' e, fit_band width junk clrx col start endd df coefs v = Ok (coefs', v', e) /\
        (forall d, predict df coefs' d = Ok (linear df c d)) /\
        (forall j, Z.of_nat j < df -> nth j coefs' 0%R = scaled df c j) /\
        (forall j, df <= Z.of_nat j < width -> nth j coefs' 0%R = 0%R) /\
        (forall j, width <= Z.of_nat j -> nth j coefs' 0%R = nth j coefs 0%R) /\ length coefs' = length coefs /\
        window 0 (endd - start) v' =
          map (fun p => (snd p - linear df c (fst p))%R) (combine (window start endd clrx) (window start endd col)) /\
        (forall k, endd - start + 1 <= Z.of_nat k -> nth k v' 0%R = nth k v 0%R) /\ length v' = length v /\
        (e = None <-> endd - start + 1 <= df) /\
        (forall r, e = Some r -> (0 <= r)%R /\
          (r * r * IZR (endd - start + 1 - df) = fold_right Rplus 0 (map (fun z => z * z) (window 0 (endd - start) v')))%R)
  end.
Proof.
  intros width df junk clrx col start endd coefs v Hw Hs Hx Hy Hc Hv.
  assert (Hdf : 2 <= df <= width) by (unfold known in Hw; lia).
  unfold fit_band.
  replace (negb _) with false by (unfold known in Hw; lia).
  replace (endd - start + 1 <? 1) with false by lia.
  rewrite (@fill_window width df clrx col start endd) by (auto; unfold zlen; rewrite ?map_length, ?seq_length; nia).
  cbn [bind]. set (nums := endd - start + 1) in *.
  destruct (lasso nums (df - 1) _ _) as [c|]; cbn [of_opt bind]; [|reflexivity].
  destruct (@zero_spec (Z.to_nat width) 0 coefs) as (z & Ez & Lz & Nz); [lia|lia|]. rewrite Ez. cbn [bind].
  destruct (@copy_spec (Z.to_nat df) df 0 c z) as (c' & Ec & Lc & Nc); [lia|unfold zlen in *; lia|]. rewrite Ec. cbn [bind].
  assert (Hk : forall k, Z.of_nat k < df -> nth k c' 0%R = scaled df c k).
  { intros k Hk. rewrite Nc. replace ((0 <=? Z.of_nat k) && (Z.of_nat k <? 0 + Z.of_nat (Z.to_nat df))) with true by lia. reflexivity. }
  assert (Hlc : width <= zlen c') by (unfold zlen in *; lia).
  destruct (@residuals_spec (Z.to_nat nums) width df c c' clrx col start 0 v) as (v' & Ev & Lv & Nv); auto; try lia.
  rewrite Ev. cbn [bind].
  assert (Wv : firstn (Z.to_nat nums) v' = window 0 (endd - start) v').
  { unfold window. replace (endd - start - 0 + 1) with nums by lia. reflexivity. }
  exists c', v', (rmse_of nums df v'). split; [reflexivity|]. split; [|split; [exact Hk|split; [|split; [|split; [|split; [|split; [|split; [|split]]]]]]]].
  - intros d. apply predict_spec with (w := width); assumption.
  - intros j Hj. rewrite Nc. replace ((0 <=? Z.of_nat j) && (Z.of_nat j <? 0 + Z.of_nat (Z.to_nat df))) with false by lia.
    rewrite Nz. replace ((0 <=? Z.of_nat j) && (Z.of_nat j <? 0 + Z.of_nat (Z.to_nat width))) with true by lia. reflexivity.
  - intros j Hj. rewrite Nc. replace ((0 <=? Z.of_nat j) && (Z.of_nat j <? 0 + Z.of_nat (Z.to_nat df))) with false by lia.
    rewrite Nz. replace ((0 <=? Z.of_nat j) && (Z.of_nat j <? 0 + Z.of_nat (Z.to_nat width))) with false by lia. reflexivity.
  - congruence.
  - assert (Lx : length (window start endd clrx) = Z.to_nat nums) by (apply window_len; lia).
    assert (Ly : length (window start endd col) = Z.to_nat nums) by (apply window_len; lia).
    assert (Lw : length (window 0 (endd - start) v') = Z.to_nat nums).
    { rewrite window_len by (unfold zlen in *; lia). f_equal. lia. }
    apply nth_ext with (d := 0%R) (d' := 0%R).
    + rewrite Lw, map_length, combine_length. lia.
    + intros k Hk'. rewrite Lw in Hk'. rewrite window_nth by lia. rewrite Nv.
      replace ((0 <=? Z.of_nat (Z.to_nat (Z.of_nat k + 0))) && (Z.of_nat (Z.to_nat (Z.of_nat k + 0)) <? 0 + Z.of_nat (Z.to_nat nums))) with true by lia.
      rewrite (@nth_map_lt (Z * R) R (fun p => (snd p - linear df c (fst p))%R) _ _ (0, 0%R) 0%R)
        by (rewrite combine_length; lia).
      rewrite combine_nth by congruence. cbn [fst snd].
      rewrite !window_nth by (fold nums; lia).
      replace (Z.of_nat (Z.to_nat (Z.of_nat k + 0)) + start) with (Z.of_nat k + start) by lia. reflexivity.
  - intros k Hk'. rewrite Nv.
    replace ((0 <=? Z.of_nat k) && (Z.of_nat k <? 0 + Z.of_nat (Z.to_nat nums))) with false by lia. reflexivity.
  - exact Lv.
  - unfold rmse_of. destruct (df <? nums) eqn:E; split; intros; try discriminate; try lia; reflexivity.
  - intros r Hr. unfold rmse_of in Hr. destruct (df <? nums) eqn:E; [|discriminate]. rewrite Wv in Hr.
    set (q := fold_right Rplus 0%R (map (fun z => (z * z)%R) (window 0 (endd - start) v'))) in *.
    assert (Hq : (0 <= q)%R).
    { apply squares_nonneg. }
    assert (Hp : (0 < IZR (nums - df))%R) by (apply IZR_lt; lia).
    injection Hr as <-. pose proof (sqrt_lt_R0 _ Hp) as Hsp. split.
    + apply Rmult_le_pos; [apply sqrt_pos|]. left. apply Rinv_0_lt_compat. assumption.
    + pose proof (sqrt_sqrt q Hq) as E1. pose proof (sqrt_sqrt (IZR (nums - df))) as E2.
      assert (E3 : (sqrt (IZR (nums - df)) * sqrt (IZR (nums - df)) = IZR (nums - df))%R) by (apply E2; lra).
      rewrite <- E3 at 3. rewrite <- E1 at 3. field. lra.
Qed.

End Fit.

(** A model with slope and annual terms, coefficients as c_glmnet returns
    them: the slope is stored times 10000 and predicts as c_glmnet meant. *)
Example fit_case : forall co si : Z -> Z -> R,
  let c j := nth j [100; 2; 3; 4]%R 0%R in
  fit_band co si (fun _ _ _ _ => Some c) 8 (fun _ => 7%R) [10; 20; 30] [1; 2; 3]%R 1 2 4
    (repeat 9%R 9) [5; 5; 5]%R =
  Ok ([100; 20000; 3; 4; 0; 0; 0; 0; 9]%R,
      [2 - (100 + 2 * 20 + 3 * co 1%Z 20%Z + 4 * si 1%Z 20%Z); 3 - (100 + 2 * 30 + 3 * co 1%Z 30%Z + 4 * si 1%Z 30%Z); 5]%R, None).
Proof.
  intros co si c. unfold c. cbv -[Rmult Rplus Rminus Rdiv IZR slope_scale].
  unfold slope_scale. replace (2 * 10000)%R with 20000%R by ring.
  replace (20000 * 20 / 10000)%R with (2 * 20)%R by field. replace (20000 * 30 / 10000)%R with (2 * 30)%R by field.
  reflexivity.
Qed.

(** Nothing beyond the slope was fitted; eight terms predict the same. *)
Example more_terms_case : forall co si,
  predict co si 8 [100; 20000; 0; 0; 0; 0; 0; 0]%R 30 = predict co si 2 [100; 20000; 0; 0; 0; 0; 0; 0]%R 30.
Proof.
  intros co si. apply (@C91_more_terms co si 2 8); [cbn; auto|cbn; auto|lia|unfold zlen; cbn [length]; lia|].
  intros j Hj. do 8 (destruct j as [|j]; [try (exfalso; lia); reflexivity|]). exfalso. lia.
Qed.

(** Predicting a fit that stored no zeros beyond its terms would be wrong. *)
Example stale_terms : predict (fun _ _ => 1%R) (fun _ _ => 0%R) 4 [100; 0; 50; 0]%R 10 <>
  predict (fun _ _ => 1%R) (fun _ _ => 0%R) 2 [100; 0; 50; 0]%R 10.
Proof. cbn. unfold slope_scale. intros H. injection H. lra. Qed.

(* ------------------------------------------------------------------ *)
(** * The phases in floating point *)

(** [float w = TWO_PI / AVE_DAYS_IN_A_YEAR] (misc.c 1657, 2050, 2274). *)
Definition w_c : spec_float :=
  narrow (SFdiv 53 1024 (SFmul 53 1024 (wide 2 0) pi_c) (wide 1461 (-2))).
(** float to double *)
Definition widen (x : spec_float) : spec_float :=
  match x with
  | S754_finite s m e => binary_normalize 53 1024 (if s then Zneg m else Zpos m) e s
  | _ => x
  end.

(** Argument of cosf and sinf of harmonic [k] in auto_ts_fit_float:
    [w * (float)d], [2 * w * (float)d], [3 * w * (float)d] (misc.c 2448-2453). *)
Definition phase_fit (k d : Z) : spec_float :=
  if k =? 1 then fmul w_c (of_int d) else fmul (fmul (of_int k) w_c) (of_int d).
(** In auto_ts_predict_float: [(float)d * w], [(float)d * w2], [(float)d * w3]
    with [w2 = 2 * w], [w3 = 3 * w] (misc.c 1656-1703). *)
Definition phase_predict (k d : Z) : spec_float :=
  fmul (of_int d) (if k =? 1 then w_c else fmul (of_int k) w_c).
(** In auto_ts_fit_sccd: [cos(w * (float)d)], [cos(2.0 * w * (float)d)], the
    product in double (misc.c 2120-2122, 2155-2158). *)
Definition phase_sccd (k d : Z) : spec_float :=
  if k =? 1 then widen (fmul w_c (of_int d))
  else SFmul 53 1024 (SFmul 53 1024 (wide k 0) (widen w_c)) (widen (of_int d)).

Lemma SFmul_comm : forall prec emax x y, SFmul prec emax x y = SFmul prec emax y x.
Proof.
  intros prec emax x y.
  destruct x as [sx|sx| |sx mx ex]; destruct y as [sy|sy| |sy my ey]; cbn [SFmul]; rewrite ?(xorb_comm sy sx); try reflexivity.
  rewrite (Pos.mul_comm my mx), (Z.add_comm ey ex). reflexivity.
Qed.

(** A COLD model is evaluated at the very phases it was fitted at. *)
Theorem C91_phase_cold : forall k d, phase_fit k d = phase_predict k d.
Proof. intros. unfold phase_fit, phase_predict, fmul. destruct (k =? 1); apply SFmul_comm. Qed.

(** So are the annual terms of an S-CCD model. *)
Theorem C91_phase_sccd_annual : forall d, phase_sccd 1 d = widen (phase_predict 1 d).
Proof. intros. unfold phase_sccd, phase_predict, fmul. cbn [Z.eqb Pos.eqb]. f_equal. apply SFmul_comm. Qed.

(** The semi-annual terms of an S-CCD model are not: 728678 (20 January
    1996) is fitted at a phase more than 0.0009 away from the phase it is predicted
    at. *)
Theorem C91_phase_sccd_refuted : exists d, 0 < d < 800000 /\
  SFltb (SFdiv 53 1024 (wide 9 0) (wide 10000 0))
        (SFabs (SFsub 53 1024 (phase_sccd 2 d) (widen (phase_predict 2 d)))) = true.
Proof. exists 728678. vm_compute. auto. Qed.

(** The phases of a date, and the same date where both agree exactly. *)
Example phase_case : phase_fit 3 728678 = phase_predict 3 728678 /\ phase_fit 3 728678 <> phase_fit 3 728679 /\
  phase_fit 3 728678 <> S754_nan.
Proof. vm_compute. repeat split; discriminate. Qed.

Print Assumptions C91_fit.
Print Assumptions C91_more_terms.
Print Assumptions C91_phase_cold.
Print Assumptions C91_phase_sccd_annual.
Print Assumptions C91_phase_sccd_refuted.
