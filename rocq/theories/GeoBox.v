(** The window a Collection 2 tile is cut to: looking up the tile's feature and
    taking the bounding box of its geometry (prepare_ard.py 1738-1760, used at
    2006).  JSON numbers are integers here (coordinates in some fixed unit);
    only their order matters. *)
From Verif Require Import Base.

(** A GeoJSON coordinates member: a number or a sequence. *)
Inductive geo := Num (z : Z) | Seq (l : list geo).

(** isinstance(e, (float, int)) (prepare_ard.py 1748) *)
Definition is_num (g : geo) : bool := match g with Num _ => true | Seq _ => false end.

(** explode (prepare_ard.py 1744-1753).  A generator over [coords]: at the
    first number it yields [coords] itself and stops; a sequence is exploded in
    turn.  Iterating over a number raises (outcome Fail), which the loop never
    does. *)
Fixpoint explode (g : geo) : out (list (list geo)) :=
  match g with
  | Num _ => Fail
  | Seq l =>
      (fix go (rest : list geo) : out (list (list geo)) :=
         match rest with
         | [] => Ok []
         | e :: t => if is_num e then Ok [l] else a <- explode e ;; b <- go t ;; Ok (a ++ b)
         end) l
  end.

(** zip of the yielded sequences (prepare_ard.py 1757): columns, as many as the
    shortest sequence has items; none if nothing was yielded. *)
Fixpoint zip_cols (fuel : nat) (rows : list (list geo)) : list (list geo) :=
  match fuel with
  | O => []
  | S n => if (match rows with [] => true | _ => false end) ||
              existsb (fun r => match r with [] => true | _ => false end) rows then []
           else map (fun r => hd (Num 0) r) rows :: zip_cols n (map (@tl geo) rows)
  end.
Definition zip_rows (rows : list (list geo)) : list (list geo) :=
  match rows with [] => [] | r :: _ => zip_cols (length r) rows end.

(** min and max of a column; comparing a number with a sequence raises
    TypeError (prepare_ard.py 1758). *)
Fixpoint nums (l : list geo) : out (list Z) :=
  match l with
  | [] => Ok []
  | Num z :: t => r <- nums t ;; Ok (z :: r)
  | Seq _ :: _ => Fail
  end.
Definition py_min (l : list Z) : out Z := match l with [] => Fail | z :: t => Ok (fold_left Z.min t z) end.
Definition py_max (l : list Z) : out Z := match l with [] => Fail | z :: t => Ok (fold_left Z.max t z) end.

(** bbox (prepare_ard.py 1756-1758): unpacking into exactly two names. *)
Definition bbox (g : geo) : out (Z * Z * Z * Z) :=
  rows <- explode g ;;
  match zip_rows rows with
  | [cx; cy] => x <- nums cx ;; y <- nums cy ;;
      x0 <- py_min x ;; y0 <- py_min y ;; x1 <- py_max x ;; y1 <- py_max y ;; Ok (x0, y0, x1, y1)
  | _ => Fail
  end.

(** get_feature (prepare_ard.py 1738-1741): the first feature with the id; the
    function ends without a value if there is none, and subscripting None
    raises in bbox. *)
Fixpoint get_feature (fs : list (Z * geo)) (id : Z) : option geo :=
  match fs with [] => None | (k, g) :: t => if k =? id then Some g else get_feature t id end.
Definition window (fs : list (Z * geo)) (id : Z) : out (Z * Z * Z * Z) :=
  match get_feature fs id with Some g => bbox g | None => Fail end.

(** ** Geometries *)
(** A position is a sequence of numbers; [rings n g ps]: [g] is positions [ps]
    nested [n] deep (Point 0, MultiPoint and LineString 1, Polygon and
    MultiLineString 2, MultiPolygon 3; RFC 7946 section 3.1). *)
Definition position (p : list Z) : geo := Seq (map Num p).
Inductive nested : nat -> geo -> list (list Z) -> Prop :=
| nested_point : forall p, p <> [] -> nested 0 (position p) [p]
| nested_seq : forall n l pss, nested_all n l pss -> nested (S n) (Seq l) (concat pss)
with nested_all : nat -> list geo -> list (list (list Z)) -> Prop :=
| nested_nil : forall n, nested_all n [] []
| nested_cons : forall n g l ps pss, nested n g ps -> nested_all n l pss -> nested_all n (g :: l) (ps :: pss).
Scheme nested_ind2 := Induction for nested Sort Prop
with nested_all_ind2 := Induction for nested_all Sort Prop.
Combined Scheme nested_mut from nested_ind2, nested_all_ind2.

Definition go_explode (l : list geo) := fix go (rest : list geo) : out (list (list geo)) :=
  match rest with
  | [] => Ok []
  | e :: t => if is_num e then Ok [l] else a <- explode e ;; b <- go t ;; Ok (a ++ b)
  end.

Lemma explode_seq : forall l, explode (Seq l) = go_explode l l.
Proof. reflexivity. Qed.

Lemma nested_shape : forall n g ps, nested n g ps -> exists l, g = Seq l.
Proof. intros n g ps H. destruct H; [exists (map Num p)|exists l]; reflexivity. Qed.

Lemma explode_mut :
  (forall n g ps, nested n g ps -> explode g = Ok (map (map Num) ps)) /\
  (forall n l pss, nested_all n l pss -> forall l0, go_explode l0 l = Ok (map (map Num) (concat pss))).
Proof.
  apply nested_mut.
  - intros p Hp. destruct p as [|z t]; [now contradiction Hp|]. reflexivity.
  - intros n l pss _ IH. rewrite explode_seq. apply IH.
  - reflexivity.
  - intros n g l ps pss Hg IHg _ IHl l0. destruct (nested_shape Hg) as [l' ->]. cbn [go_explode is_num].
    rewrite IHg. cbn [bind]. fold (go_explode l0). rewrite IHl. cbn [bind concat]. now rewrite map_app.
Qed.

(** Whatever the kind of geometry, explode lists its positions in order. *)
Theorem C111_explode : forall n g ps, nested n g ps -> explode g = Ok (map (map Num) ps).
Proof. exact (proj1 explode_mut). Qed.

(** ** Columns *)
Definition shortest (ps : list (list Z)) : nat := match ps with [] => O | p :: t => fold_left Nat.min (map (@length Z) t) (length p) end.

Lemma fold_min_le : forall l a, (fold_left Nat.min l a <= a)%nat /\ forall b, In b l -> (fold_left Nat.min l a <= b)%nat.
Proof.
  induction l as [|c l IH]; intro a; cbn [fold_left]; [split; [lia|intros b []]|].
  destruct (IH (Nat.min a c)) as [A B]. split; [lia|]. intros b [<-|Hb]; [lia|auto].
Qed.
Lemma fold_min_in : forall l a, fold_left Nat.min l a = a \/ In (fold_left Nat.min l a) l.
Proof.
  induction l as [|c l IH]; intro a; cbn [fold_left]; [now left|].
  destruct (IH (Nat.min a c)) as [E|E]; [|right; now right]. rewrite E.
  destruct (Nat.min_spec a c) as [[_ ->]|[_ ->]]; [now left|right; now left].
Qed.

Lemma zip_cols_spec : forall fuel rows m, rows <> [] -> (forall r, In r rows -> (m <= length r)%nat) ->
  (exists r, In r rows /\ length r = m) -> (m <= fuel)%nat ->
  zip_cols fuel rows = map (fun k => map (fun r => nth k r (Num 0)) rows) (seq 0 m).
Proof.
  induction fuel as [|n IH]; intros rows m Hne Hall [r0 [Hr0 E0]] Hf.
  - replace m with O by lia. reflexivity.
  - cbn [zip_cols]. destruct rows as [|q rows]; [now contradiction Hne|]. cbn [orb].
    destruct m as [|m].
    + replace (existsb _ (q :: rows)) with true; [reflexivity|]. symmetry. apply existsb_exists.
      exists r0. split; [exact Hr0|]. destruct r0; [reflexivity|discriminate].
    + replace (existsb _ (q :: rows)) with false.
      2:{ symmetry. apply not_true_is_false. intro E. apply existsb_exists in E. destruct E as [x [Hx Ex]].
          destruct x; [|discriminate]. specialize (Hall _ Hx). cbn in Hall. lia. }
      rewrite (IH _ m).
      * cbn [seq map]. f_equal.
        -- f_equal; [now destruct q|]. apply map_ext. intro a. now destruct a.
        -- rewrite <- seq_shift, map_map. apply map_ext. intro k. cbn [map]. rewrite map_map.
           f_equal; [now destruct q, k|]. apply map_ext. intro a. now destruct a, k.
      * discriminate.
      * intros r Hr. apply in_map_iff in Hr. destruct Hr as [x [<- Hx]]. specialize (Hall _ Hx).
        destruct x; cbn in *; lia.
      * exists (tl r0). split; [now apply in_map|]. destruct r0; cbn in *; lia.
      * lia.
Qed.

Lemma zip_positions : forall ps, ps <> [] -> zip_rows (map (map Num) ps) =
  map (fun k => map (fun p => nth k (map Num p) (Num 0)) ps) (seq 0 (shortest ps)).
Proof.
  intros [|p ps] H; [now contradiction H|]. unfold zip_rows. cbn [map].
  pose proof (fold_min_le (map (@length Z) ps) (length p)) as [A B]. fold (shortest (p :: ps)) in A, B.
  change (map Num p :: map (map Num) ps) with (map (map Num) (p :: ps)).
  rewrite (@zip_cols_spec _ _ (shortest (p :: ps))).
  - apply map_ext. intro k. now rewrite map_map.
  - discriminate.
  - intros r Hr. apply in_map_iff in Hr. destruct Hr as [x [<- Hx]]. rewrite map_length.
    destruct Hx as [<-|Hx]; [exact A|]. apply B. now apply in_map.
  - destruct (fold_min_in (map (@length Z) ps) (length p)) as [E|E].
    + exists (map Num p). split; [now left|]. now rewrite map_length.
    + apply in_map_iff in E. destruct E as [x [E Hx]]. exists (map Num x). split; [apply in_map; now right|].
      rewrite map_length. exact E.
  - now rewrite map_length.
Qed.

Lemma nums_col : forall k ps,
  nums (map (fun p => nth k (map Num p) (Num 0)) ps) = Ok (map (fun p => nth k p 0) ps).
Proof.
  induction ps as [|p ps IH]; [reflexivity|]. cbn [map nums].
  rewrite map_nth. rewrite IH. reflexivity.
Qed.

Lemma fold_min_spec : forall l a, fold_left Z.min l a <= a /\ (forall b, In b l -> fold_left Z.min l a <= b) /\
  (fold_left Z.min l a = a \/ In (fold_left Z.min l a) l).
Proof.
  induction l as [|c l IH]; intro a; cbn [fold_left]; [repeat split; [lia|intros b []|now left]|].
  destruct (IH (Z.min a c)) as (A & B & C). repeat split.
  - lia.
  - intros b [<-|Hb]; [lia|auto].
  - destruct C as [E|E]; [|right; now right]. rewrite E.
    destruct (Z.min_spec a c) as [[_ ->]|[_ ->]]; [now left|right; now left].
Qed.
Lemma fold_max_spec : forall l a, a <= fold_left Z.max l a /\ (forall b, In b l -> b <= fold_left Z.max l a) /\
  (fold_left Z.max l a = a \/ In (fold_left Z.max l a) l).
Proof.
  induction l as [|c l IH]; intro a; cbn [fold_left]; [repeat split; [lia|intros b []|now left]|].
  destruct (IH (Z.max a c)) as (A & B & C). repeat split.
  - lia.
  - intros b [<-|Hb]; [lia|auto].
  - destruct C as [E|E]; [|right; now right]. rewrite E.
    destruct (Z.max_spec a c) as [[_ ->]|[_ ->]]; [right; now left|now left].
Qed.

Lemma py_min_spec : forall l m, py_min l = Ok m -> In m l /\ forall b, In b l -> m <= b.
Proof.
  intros [|z t] m E; [discriminate|]. injection E as <-. destruct (fold_min_spec t z) as (A & B & C). split.
  - destruct C as [->|C]; [now left|now right].
  - intros b [<-|Hb]; auto.
Qed.
Lemma py_max_spec : forall l m, py_max l = Ok m -> In m l /\ forall b, In b l -> b <= m.
Proof.
  intros [|z t] m E; [discriminate|]. injection E as <-. destruct (fold_max_spec t z) as (A & B & C). split.
  - destruct C as [->|C]; [now left|now right].
  - intros b [<-|Hb]; auto.
Qed.

(** The smallest box around the positions: first coordinates x, second
    coordinates y. *)
Definition tight_box (ps : list (list Z)) (x0 y0 x1 y1 : Z) : Prop :=
  (forall p, In p ps -> x0 <= nth 0 p 0 <= x1 /\ y0 <= nth 1 p 0 <= y1) /\
  (exists p, In p ps /\ nth 0 p 0 = x0) /\ (exists p, In p ps /\ nth 1 p 0 = y0) /\
  (exists p, In p ps /\ nth 0 p 0 = x1) /\ (exists p, In p ps /\ nth 1 p 0 = y1).

(** Every position has two coordinates or more, and one has exactly two. *)
Definition planar (ps : list (list Z)) : Prop :=
  (forall p, In p ps -> (2 <= length p)%nat) /\ exists p, In p ps /\ length p = 2%nat.

Lemma planar_shortest : forall ps, planar ps <-> shortest ps = 2%nat.
Proof.
  intros [|q ps]; [split; [intros [_ [p [[] _]]]|discriminate]|]. cbn [shortest].
  destruct (fold_min_le (map (@length Z) ps) (length q)) as [A B].
  assert (B' : forall p, In p (q :: ps) -> (fold_left Nat.min (map (@length Z) ps) (length q) <= length p)%nat).
  { intros p [<-|Hp]; [exact A|]. apply B. now apply in_map. }
  assert (C : exists p, In p (q :: ps) /\ length p = fold_left Nat.min (map (@length Z) ps) (length q)).
  { destruct (fold_min_in (map (@length Z) ps) (length q)) as [E|E]; [exists q; split; [now left|auto]|].
    apply in_map_iff in E. destruct E as [x [E Hx]]. exists x. split; [now right|exact E]. }
  split.
  - intros [H [p [Hp E]]]. destruct C as [x [Hx Ex]]. specialize (B' _ Hp). specialize (H _ Hx). lia.
  - intro E. rewrite E in B', C. now split.
Qed.

(** A geometry in the plane: bbox returns the tight box, whatever the kind of
    geometry. *)
Theorem C111_bbox : forall n g ps, nested n g ps -> planar ps ->
  exists x0 y0 x1 y1, bbox g = Ok (x0, y0, x1, y1) /\ tight_box ps x0 y0 x1 y1.
Proof.
  intros n g ps H HP. assert (Hne : ps <> []) by (destruct HP as [_ [p [Hp _]]]; intros ->; contradiction).
  assert (E2 : shortest ps = 2%nat) by now apply planar_shortest. unfold bbox. rewrite (C111_explode H). cbn [bind]. rewrite zip_positions by assumption.
  rewrite E2. cbn [seq map].
  rewrite !nums_col. cbn [bind].
  set (xs := map (fun p => nth 0 p 0) ps). set (ys := map (fun p => nth 1 p 0) ps).
  assert (Hx : xs <> []) by (unfold xs; destruct ps; [now contradiction Hne|discriminate]).
  assert (Hy : ys <> []) by (unfold ys; destruct ps; [now contradiction Hne|discriminate]).
  destruct (py_min xs) as [x0| | |] eqn:A; try (destruct xs; [now contradiction Hx|discriminate A]).
  destruct (py_min ys) as [y0| | |] eqn:B; try (destruct ys; [now contradiction Hy|discriminate B]).
  destruct (py_max xs) as [x1| | |] eqn:C; try (destruct xs; [now contradiction Hx|discriminate C]).
  destruct (py_max ys) as [y1| | |] eqn:D; try (destruct ys; [now contradiction Hy|discriminate D]).
  cbn [bind]. exists x0, y0, x1, y1. split; [reflexivity|].
  apply py_min_spec in A. apply py_min_spec in B. apply py_max_spec in C. apply py_max_spec in D.
  destruct A as [A1 A2], B as [B1 B2], C as [C1 C2], D as [D1 D2].
  assert (W : forall k z, In z (map (fun p => nth k p 0) ps) -> exists p, In p ps /\ nth k p 0 = z).
  { intros k z Hz. apply in_map_iff in Hz. destruct Hz as [p [<- Hp]]. now exists p. }
  unfold tight_box. repeat split.
  - apply A2. unfold xs. now apply (in_map (fun p => nth 0 p 0)).
  - apply C2. unfold xs. now apply (in_map (fun p => nth 0 p 0)).
  - apply B2. unfold ys. now apply (in_map (fun p => nth 1 p 0)).
  - apply D2. unfold ys. now apply (in_map (fun p => nth 1 p 0)).
  - now apply W. 
  - now apply W.
  - now apply W.
  - now apply W.
Qed.

(** It raises in every other case: no position at all, a position with a
    single number, or three coordinates throughout. *)
Theorem C111_raises : forall n g ps, nested n g ps -> ~ planar ps -> bbox g = Fail.
Proof.
  intros n g ps H HP. rewrite planar_shortest in HP. rename HP into E2. unfold bbox. rewrite (C111_explode H). cbn [bind].
  destruct ps as [|p ps]; [reflexivity|]. rewrite zip_positions by discriminate.
  destruct (shortest (p :: ps)) as [|[|[|k]]]; [reflexivity|reflexivity|congruence|]. reflexivity.
Qed.

(** Features with positions of three coordinates (a shapefile of type PolygonZ)
    cannot be used, although their box is well defined; adding one position of
    two coordinates makes them usable. *)
Theorem C111_heights_refuted : exists g ps, nested 2 g ps /\
  (exists x0 y0 x1 y1, tight_box ps x0 y0 x1 y1) /\ bbox g = Fail /\
  exists g' ps', nested 2 g' (ps ++ ps') /\ bbox g' = Ok (0, 0, 7, 9).
Proof.
  exists (Seq [Seq [position [0; 0; 5]; position [7; 9; 5]]]), [[0; 0; 5]; [7; 9; 5]].
  assert (N1 : forall p t ps, p <> [] -> nested_all 0 t ps -> nested_all 0 (position p :: t) ([p] :: ps)).
  { intros. constructor; [now constructor|assumption]. }
  split; [|split; [|split; [reflexivity|]]].
  - apply (@nested_seq 1 _ [[[0; 0; 5]; [7; 9; 5]]]). apply nested_cons; [|apply nested_nil].
    apply (@nested_seq 0 _ [[[0; 0; 5]]; [[7; 9; 5]]]). apply N1; [discriminate|]. apply N1; [discriminate|apply nested_nil].
  - exists 0, 0, 7, 9. unfold tight_box. cbn [In]. split.
    + intros p [<-|[<-|[]]]; cbn; lia.
    + repeat split; [exists [0; 0; 5]|exists [0; 0; 5]|exists [7; 9; 5]|exists [7; 9; 5]]; cbn; auto.
  - exists (Seq [Seq [position [0; 0; 5]; position [7; 9; 5]; position [1; 1]]]), [[1; 1]]. split; [|reflexivity].
    apply (@nested_seq 1 _ [[[0; 0; 5]; [7; 9; 5]; [1; 1]]]). apply nested_cons; [|apply nested_nil].
    apply (@nested_seq 0 _ [[[0; 0; 5]]; [[7; 9; 5]]; [[1; 1]]]). apply N1; [discriminate|].
    apply N1; [discriminate|]. apply N1; [discriminate|apply nested_nil].
Qed.

(** The window is that of the first feature with the id; without one the run
    stops with an error. *)
Theorem C111_window : forall fs id,
  (forall g, In (id, g) fs -> exists before g0 after, fs = before ++ (id, g0) :: after /\
     (forall k g', In (k, g') before -> k <> id) /\ window fs id = bbox g0) /\
  ((forall g, ~ In (id, g) fs) -> window fs id = Fail).
Proof.
  intros fs id. unfold window. induction fs as [|[k g0] t [IH1 IH2]]; [split; [intros g []|reflexivity]|].
  cbn [get_feature]. destruct (Z.eqb_spec k id) as [->|Hk]; split.
  - intros g _. exists [], g0, t. split; [reflexivity|]. split; [intros k g' []|reflexivity].
  - intro H. exfalso. apply (H g0). now left.
  - intros g [E|Hg]; [congruence|]. destruct (IH1 g Hg) as (b & g1 & a & -> & Hb & E).
    exists ((k, g0) :: b), g1, a. repeat split; auto. intros k' g' [E'|H']; [congruence|eauto].
  - intro H. apply IH2. intros g Hg. apply (H g). now right.
Qed.

(** A polygon with a hole, and a multipolygon. *)
Definition ex_poly : geo := Seq [Seq [position [3; -4]; position [10; 2]; position [5; 8]; position [3; -4]];
                                 Seq [position [5; 1]; position [6; 1]; position [5; 2]; position [5; 1]]].
Example C111_case : bbox ex_poly = Ok (3, -4, 10, 8) /\ bbox (Seq [ex_poly; Seq [Seq [position [0; 9]]]]) = Ok (0, -4, 10, 9) /\
  bbox (position [2; 3]) = Ok (2, 3, 2, 3) /\ bbox (Seq []) = Fail /\
  window [(1, position [0; 0]); (4, ex_poly); (4, Seq [])] 4 = Ok (3, -4, 10, 8) /\ window [(1, ex_poly)] 2 = Fail.
Proof. vm_compute. repeat split. Qed.

Print Assumptions C111_explode.
Print Assumptions C111_bbox.
Print Assumptions C111_raises.
Print Assumptions C111_heights_refuted.
Print Assumptions C111_window.
