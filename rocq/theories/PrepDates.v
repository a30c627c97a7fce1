(** Dates in the preparation of a tile (prepare_ard.py).

    Rank 1 computes a date for each scene from the scene's name and writes the
    first and the last of the requested range to starting_last_dates.txt
    (1927-1968).  Each stacking routine computes the date again, from its own
    slices of the name, compares it with the range and writes it into the name
    of the block files (230-248, 518-536, 855-872, 1303-1320).  The detection
    reads the dates back from those names (tile_processing.py 234-239) and
    sizes its change magnitude output from the text file (120-145).

    Simplifications: int() is defined on decimal digits only (Python also takes
    blanks, signs and underscores); the image content is reduced to whether the
    routine stores the scene. *)
From Coq Require Import String Ascii.
From Verif Require Import Base Calendar ColdModel FrontModel ColdTop Prepare.
Open Scope Z_scope.
Open Scope list_scope.

(** ** Numbers in names *)
(** int(s), s a run of decimal digits; anything else raises ValueError. *)
Definition digit (c : ascii) : option Z :=
  let n := Z.of_nat (nat_of_ascii c) in if (48 <=? n) && (n <=? 57) then Some (n - 48) else None.
Fixpoint dec_from (acc : Z) (s : string) : option Z :=
  match s with
  | EmptyString => Some acc
  | String c t => match digit c with Some d => dec_from (10 * acc + d) t | None => None end
  end.
Definition dec (s : string) : option Z := match s with EmptyString => None | _ => dec_from 0 s end.

(** s[a:b] *)
Definition sl (a b : nat) (s : string) : string := substring a (b - a) s.

(** dt.datetime(y, m, d), as its ordinal; outside the calendar it raises. *)
Definition ymd (y m d : Z) : option Z :=
  if (1 <=? y) && (y <=? 9999) && (1 <=? m) && (m <=? 12) && (1 <=? d) && (d <=? month_days (is_leap_year y) m)
  then Some (days_before y + months_before (is_leap_year y) (Z.to_nat (m - 1)) + d) else None.
(** dt.datetime(y, 1, 1) + dt.timedelta(doy - 1) and
    toordinal(dt.datetime(y, 1, 1)) + doy - 1; the timedelta may run into
    other years. *)
Definition ydoy (y doy : Z) : option Z := if (1 <=? y) && (y <=? 9999) then Some (days_before y + 1 + (doy - 1)) else None.
(** datetime(...).strftime("%j"): day of year, three digits. *)
Definition char_of (d : Z) : ascii := ascii_of_nat (Z.to_nat (48 + d)).
Definition three (n : Z) : string :=
  String (char_of (n / 100 mod 10)) (String (char_of (n / 10 mod 10)) (String (char_of (n mod 10)) "")).
Definition doy_of (y m d : Z) : Z := months_before (is_leap_year y) (Z.to_nat (m - 1)) + d.

Definition opt2 {A B C} (f : A -> B -> option C) (x : option A) (y : option B) : option C :=
  match x, y with Some a, Some b => f a b | _, _ => None end.
Definition opt3 {A B C D} (f : A -> B -> C -> option D) (x : option A) (y : option B) (z : option C) : option D :=
  match x, y, z with Some a, Some b, Some c => f a b c | _, _, _ => None end.

(** folder.rsplit(".") *)
Fixpoint dots (s : string) : list string :=
  match s with
  | EmptyString => [EmptyString]
  | String c t => if Ascii.eqb c "." then EmptyString :: dots t
                  else match dots t with p :: r => String c p :: r | [] => [String c EmptyString] end
  end.

(** ** Names of scenes *)
Inductive collection := ARD (c2 : bool) | C2 | HLS.

(** The date in starting_last_dates.txt (prepare_ard.py 1927-1951); HLS14 takes
    the file name of the path and is then the same. *)
Definition list_date (k : collection) (f : string) : option Z :=
  match k with
  | ARD _ => opt3 ymd (dec (sl 15 19 f)) (dec (sl 19 21 f)) (dec (sl 21 23 f))
  | C2 => opt3 ymd (dec (sl 17 21 f)) (dec (sl 21 23 f)) (dec (sl 23 25 f))
  | HLS => opt2 ydoy (dec (sl 15 19 f)) (dec (sl 19 22 f))
  end.

(** Sensor of a Landsat scene (prepare_ard.py 840-851, 1287-1301); another
    character leaves the variable unset, and its use raises. *)
Definition landsat (f : string) : option string :=
  match String.get 3 f with
  | Some c => if Ascii.eqb c "5" then Some "LT5"%string else if Ascii.eqb c "7" then Some "LE7"%string
              else if Ascii.eqb c "8" then Some "LC8"%string else if Ascii.eqb c "4" then Some "LT4"%string
              else if Ascii.eqb c "9" then Some "LC9"%string else None
  | None => None
  end.

(** Name of the stored file and the date compared with the range: ARD
    (prepare_ard.py 853-870), C2 (1303-1319), HLS (239-248; 522-536 with one
    more part). *)
Definition store (k : collection) (f : string) : option (string * Z) :=
  match k with
  | ARD c2 =>
      match landsat f, dec (sl 15 19 f), dec (sl 19 21 f), dec (sl 21 23 f) with
      | Some s, Some y, Some m, Some d =>
          match ymd y m d with
          | Some _ => let doy := three (doy_of y m d) in
              match opt2 ydoy (Some y) (dec doy) with
              | Some o => Some (s ++ sl 8 11 f ++ sl 11 14 f ++ sl 15 19 f ++ doy ++
                                "C" ++ sl 35 36 f ++ (if c2 then sl 34 35 f else sl 37 40 f), o)%string
              | None => None end
          | None => None end
      | _, _, _, _ => None end
  | C2 =>
      match landsat f, dec (sl 17 21 f), dec (sl 21 23 f), dec (sl 23 25 f) with
      | Some s, Some y, Some m, Some d =>
          match ymd y m d with
          | Some _ => let doy := three (doy_of y m d) in
              match opt2 ydoy (Some y) (dec doy) with
              | Some o => let n := String.length f in
                  Some (s ++ sl 10 13 f ++ sl 13 16 f ++ sl 17 21 f ++ doy ++ "C2" ++ sl (n - 2) n f, o)%string
              | None => None end
          | None => None end
      | _, _, _, _ => None end
  | HLS =>
      match dots f with
      | [coll; sensor; tile; imagetime; v1; _] =>
          match opt2 ydoy (dec (sl 0 4 imagetime)) (dec (sl 4 7 imagetime)) with
          | Some o => Some (sensor ++ tile ++ sl 0 4 imagetime ++ sl 4 7 imagetime ++ coll ++ v1, o)%string
          | None => None end
      | _ => None end
  end.

(** The date the detection gives to a stored file (tile_processing.py 234-239). *)
Definition read_date (name : string) : option Z := opt2 ydoy (dec (name_year name)) (dec (name_doy name)).

(** ** One date per scene *)
Lemma digit_char : forall d, 0 <= d <= 9 -> digit (char_of d) = Some d.
Proof.
  intros d H. assert (C : d = 0 \/ d = 1 \/ d = 2 \/ d = 3 \/ d = 4 \/ d = 5 \/ d = 6 \/ d = 7 \/ d = 8 \/ d = 9) by lia.
  repeat destruct C as [->|C]; try reflexivity. now subst.
Qed.

Lemma dec_three : forall n, 0 <= n < 1000 -> dec (three n) = Some n.
Proof.
  intros n H. unfold dec, three. cbn [dec_from]. rewrite !digit_char by lia.
  f_equal. lia.
Qed.

Lemma doy_range : forall y m d, 1 <= m <= 12 -> 1 <= d <= month_days (is_leap_year y) m -> 1 <= doy_of y m d <= 366.
Proof.
  intros y m d Hm Hd. unfold doy_of.
  assert (C : m = 1 \/ m = 2 \/ m = 3 \/ m = 4 \/ m = 5 \/ m = 6 \/ m = 7 \/ m = 8 \/ m = 9 \/ m = 10 \/ m = 11 \/ m = 12) by lia.
  assert (F : forall lp, months_before lp (Z.to_nat (m - 1)) + month_days lp m <= 366 /\ 0 <= months_before lp (Z.to_nat (m - 1))).
  { intro lp. repeat destruct C as [->|C]; try subst m; destruct lp; vm_compute; split; discriminate. }
  specialize (F (is_leap_year y)). lia.
Qed.

Lemma ymd_inv : forall y m d o, ymd y m d = Some o ->
  1 <= y <= 9999 /\ 1 <= m <= 12 /\ 1 <= d <= month_days (is_leap_year y) m /\ o = days_before y + doy_of y m d.
Proof.
  intros y m d o E. unfold ymd in E.
  destruct ((1 <=? y) && (y <=? 9999) && (1 <=? m) && (m <=? 12) && (1 <=? d) && (d <=? month_days (is_leap_year y) m)) eqn:B; [|discriminate].
  injection E as <-. unfold doy_of. repeat rewrite andb_true_iff in B. lia.
Qed.

(** The day of year of a calendar date, written with three digits and read
    again, is the same day. *)
Lemma ymd_doy : forall y m d o, ymd y m d = Some o -> opt2 ydoy (Some y) (dec (three (doy_of y m d))) = Some o.
Proof.
  intros y m d o E. apply ymd_inv in E. destruct E as (Hy & Hm & Hd & ->). pose proof (doy_range y Hm Hd).
  rewrite dec_three by lia. cbn [opt2]. unfold ydoy. replace ((1 <=? y) && (y <=? 9999)) with true by lia. f_equal. lia.
Qed.

Lemma sub0 : forall m s, String.length (substring 0 m s) = Nat.min m (String.length s).
Proof.
  induction m as [|m IH]; intros [|c s]; cbn [substring String.length Nat.min]; try reflexivity. now rewrite IH.
Qed.
Lemma sub_len : forall n m s, String.length (substring n m s) = Nat.min m (String.length s - n).
Proof.
  induction n as [|n IH]; intros m s.
  - rewrite sub0. f_equal. lia.
  - destruct s as [|c s]; [destruct m; reflexivity|]. cbn [substring String.length Nat.sub]. apply IH.
Qed.

Lemma dec_len : forall a b s z, dec (sl a b s) = Some z -> (a < String.length s)%nat.
Proof.
  intros a b s z H. unfold sl in H. pose proof (sub_len a (b - a) s) as L.
  destruct (substring a (b - a) s) eqn:E; [discriminate|]. cbn [String.length] in L. lia.
Qed.

Lemma landsat_in : forall f s, landsat f = Some s -> In s sensors.
Proof.
  intros f s H. unfold landsat in H. destruct (String.get 3 f) as [c|]; [|discriminate].
  repeat match type of H with (if ?b then _ else _) = _ => destruct b end; try discriminate;
    injection H as <-; cbn; tauto.
Qed.

(** A stored file whose sensor and six further characters precede year and day
    is listed and read back with these. *)
Lemma read_back : forall s t4 t6 y d rest, In s sensors -> String.length (t4 ++ t6)%string = 6%nat ->
  String.length y = 4%nat -> String.length d = 3%nat ->
  listed (s ++ t4 ++ t6 ++ y ++ d ++ rest)%string = true /\
  read_date (s ++ t4 ++ t6 ++ y ++ d ++ rest)%string = opt2 ydoy (dec y) (dec d).
Proof.
  intros s t4 t6 y d rest Hs Ht Hy Hd.
  destruct (@C73_file_names s (t4 ++ t6) y d rest Hs Ht Hy Hd) as (A & B & C).
  unfold file_name in A, B, C. rewrite append_assoc_s in A, B, C. unfold read_date. now rewrite A, B, C.
Qed.

(** Every Landsat scene whose name yields a date at all: the range file, the
    comparison with the range and the stored name use the same date. *)
Theorem C112_landsat : forall k f name o, k <> HLS -> store k f = Some (name, o) ->
  list_date k f = Some o /\ listed name = true /\ read_date name = Some o.
Proof.
  intros k f name o Hk H. destruct k as [c2| |]; [| |now contradiction Hk]; cbn [store] in H;
    (destruct (landsat f) as [s|] eqn:Es; [|discriminate]).
  - destruct (dec (sl 15 19 f)) as [y|] eqn:Ey; [|discriminate]. destruct (dec (sl 19 21 f)) as [m|] eqn:Em; [|discriminate].
    destruct (dec (sl 21 23 f)) as [d|] eqn:Ed; [|discriminate]. destruct (ymd y m d) as [o1|] eqn:E1; [|discriminate].
    cbv zeta in H. rewrite (ymd_doy _ _ _ E1) in H. injection H as <- <-.
    pose proof (dec_len _ _ _ Ed) as L. cbn [list_date]. rewrite Ey, Em, Ed. cbn [opt3]. split; [exact E1|].
    destruct (@read_back s (sl 8 11 f) (sl 11 14 f) (sl 15 19 f) (three (doy_of y m d))
      ("C" ++ sl 35 36 f ++ (if c2 then sl 34 35 f else sl 37 40 f))%string) as [A B].
    + now apply landsat_in with f.
    + rewrite length_append. unfold sl. rewrite !sub_len. lia.
    + unfold sl. rewrite sub_len. lia.
    + reflexivity.
    + split; [exact A|]. etransitivity; [exact B|]. rewrite Ey. now apply ymd_doy.
  - destruct (dec (sl 17 21 f)) as [y|] eqn:Ey; [|discriminate]. destruct (dec (sl 21 23 f)) as [m|] eqn:Em; [|discriminate].
    destruct (dec (sl 23 25 f)) as [d|] eqn:Ed; [|discriminate]. destruct (ymd y m d) as [o1|] eqn:E1; [|discriminate].
    cbv zeta in H. rewrite (ymd_doy _ _ _ E1) in H. injection H as <- <-.
    pose proof (dec_len _ _ _ Ed) as L. cbn [list_date]. rewrite Ey, Em, Ed. cbn [opt3]. split; [exact E1|].
    set (n := String.length f) in *.
    destruct (@read_back s (sl 10 13 f) (sl 13 16 f) (sl 17 21 f) (three (doy_of y m d)) ("C2" ++ sl (n - 2) n f)%string) as [A B].
    + now apply landsat_in with f.
    + rewrite length_append. unfold sl. rewrite !sub_len. fold n. lia.
    + unfold sl. rewrite sub_len. fold n. lia.
    + reflexivity.
    + split; [exact A|]. etransitivity; [exact B|]. rewrite Ey. now apply ymd_doy.
Qed.

(** HLS: the range file slices the whole name, the routine splits it at the
    dots.  They agree for names with a three-character product, sensor and a
    six-character tile. *)
Definition no_dot (s : string) : Prop := forall n c, String.get n s = Some c -> c <> "."%char.
Definition hls_name (coll sensor tile time v1 v2 : string) : string :=
  (coll ++ "." ++ sensor ++ "." ++ tile ++ "." ++ time ++ "." ++ v1 ++ "." ++ v2)%string.

Lemma dots_last : forall s, no_dot s -> dots s = [s].
Proof.
  induction s as [|c t IH]; intro H; [reflexivity|]. cbn [dots].
  destruct (Ascii.eqb_spec c ".") as [Ec|Ec]; [exfalso; now apply (H O c)|].
  rewrite IH; [reflexivity|]. intros n c' E. now apply (H (S n) c').
Qed.
Lemma dots_app : forall s t, no_dot s -> dots (s ++ "." ++ t)%string = s :: dots t.
Proof.
  induction s as [|c s IH]; intros t H; [reflexivity|]. cbn [append dots].
  destruct (Ascii.eqb_spec c ".") as [Ec|Ec]; [exfalso; now apply (H O c)|].
  assert (E : dots (s ++ "." ++ t)%string = s :: dots t) by (apply IH; intros n' c' E; now apply (H (S n') c')).
  cbn [append] in E. rewrite E. reflexivity.
Qed.

Lemma sub_prefix : forall m a b, (m <= String.length a)%nat -> substring 0 m (a ++ b)%string = substring 0 m a.
Proof.
  induction m as [|m IH]; intros a b H; [destruct a, b; reflexivity|].
  destruct a as [|c a]; [cbn in H; lia|]. cbn [append substring]. rewrite IH by (cbn in H; lia). reflexivity.
Qed.
Lemma sub_within : forall n m a b, (n + m <= String.length a)%nat -> substring n m (a ++ b)%string = substring n m a.
Proof.
  induction n as [|n IH]; intros m a b H; [now apply sub_prefix|].
  destruct a as [|c a]; [cbn in H; lia|]. cbn [append substring]. apply IH. cbn in H. lia.
Qed.
Lemma sub_skip_more : forall p a b m n, String.length a = n -> substring (n + p) m (a ++ b)%string = substring p m b.
Proof. intros p a. induction a as [|c a IH]; intros b m n <-; [reflexivity|]. cbn [append String.length Nat.add substring]. now apply IH. Qed.

Theorem C112_hls : forall coll sensor tile time v1 v2,
  no_dot coll -> no_dot sensor -> no_dot tile -> no_dot time -> no_dot v1 -> no_dot v2 ->
  String.length coll = 3%nat -> In sensor ["L30"; "S30"]%string -> String.length tile = 6%nat -> (7 <= String.length time)%nat ->
  let f := hls_name coll sensor tile time v1 v2 in
  list_date HLS f = opt2 ydoy (dec (sl 0 4 time)) (dec (sl 4 7 time)) /\
  forall name o, store HLS f = Some (name, o) ->
    list_date HLS f = Some o /\ listed name = true /\ read_date name = Some o.
Proof.
  intros coll sensor tile time v1 v2 D1 D2 D3 D4 D5 D6 L1 Hs L3 L4 f.
  assert (L2 : String.length sensor = 3%nat) by (cbn in Hs; repeat destruct Hs as [<-|Hs]; try reflexivity; contradiction).
  assert (Hd : dots f = [coll; sensor; tile; time; v1; v2]).
  { unfold f, hls_name. rewrite !dots_app by assumption. now rewrite dots_last. }
  assert (E : list_date HLS f = opt2 ydoy (dec (sl 0 4 time)) (dec (sl 4 7 time))).
  { cbn [list_date]. unfold f, hls_name.
    replace (coll ++ "." ++ sensor ++ "." ++ tile ++ "." ++ time ++ "." ++ v1 ++ "." ++ v2)%string
      with ((coll ++ "." ++ sensor ++ "." ++ tile ++ ".") ++ (time ++ "." ++ v1 ++ "." ++ v2))%string
      by (repeat rewrite append_assoc_s; reflexivity).
    assert (L : String.length (coll ++ "." ++ sensor ++ "." ++ tile ++ ".")%string = 15%nat)
      by (rewrite !length_append; cbn; lia).
    unfold sl. change 15%nat with (15 + 0)%nat at 1. rewrite (@sub_skip_more 0 _ _ _ 15 L).
    change 19%nat with (15 + 4)%nat at 2. rewrite (@sub_skip_more 4 _ _ _ 15 L).
    rewrite !sub_within by (cbn; lia). reflexivity. }
  split; [exact E|]. intros name o H. cbn [store] in H. rewrite Hd in H.
  destruct (opt2 ydoy (dec (sl 0 4 time)) (dec (sl 4 7 time))) as [o1|] eqn:Eo; [|discriminate]. injection H as <- <-.
  split; [exact E|].
  destruct (@read_back sensor tile "" (sl 0 4 time) (sl 4 7 time) (coll ++ v1)%string) as [A B].
  - destruct Hs as [<-|[<-|[]]]; cbn; tauto.
  - rewrite length_append. cbn. lia.
  - unfold sl. rewrite sub_len. lia.
  - unfold sl. rewrite sub_len. lia.
  - cbn [append] in A, B. split; [exact A|]. now rewrite B.
Qed.

(** With another tile name the range file takes other characters: here a tile
    name of five characters shifts the slice by one, and day 123 of 2019 is
    entered as day 230 of the year 191 ... *)
Theorem C112_hls_slices_refuted : exists f name o d, store HLS f = Some (name, o) /\ list_date HLS f = Some d /\ d <> o.
Proof.
  exists "HLS.L30.17TPE.20191230000.v2.0"%string. eexists. eexists. eexists.
  split; [vm_compute; reflexivity|]. split; [vm_compute; reflexivity|]. discriminate.
Qed.

Example C112_names :
  list_date (ARD false) "LC08_CU_028009_20200229_20200315_C01_V01_SR" = Some 737484 /\
  store (ARD false) "LC08_CU_028009_20200229_20200315_C01_V01_SR" = Some ("LC80280092020060C1V01"%string, 737484) /\
  store C2 "LE07_L2SP_012031_20011231_20200917_02_T1" = Some ("LE70120312001365C2T1"%string, 730850) /\
  store HLS "HLS.S30.T18TYM.2018004T153701.v1.5" = Some ("S30T18TYM2018004HLSv1"%string, 736698) /\
  list_date HLS "HLS.S30.T18TYM.2018004T153701.v1.5" = Some 736698 /\
  read_date "S30T18TYM2018004HLSv1" = Some 736698.
Proof. vm_compute. repeat split. Qed.

(** ** The range *)
(** A bound is a point in time (parse of the option), here in seconds; the
    ordinal drops the time of day (prepare_ard.py 1955-1968). *)
Definition day_s : Z := 86400.
Definition bound := option Z.
Definition ordinal_of (t : Z) : Z := t / day_s.
Fixpoint least (d : Z) (l : list Z) : Z := match l with [] => d | e :: t => least (Z.min d e) t end.
Fixpoint greatest (d : Z) (l : list Z) : Z := match l with [] => d | e :: t => greatest (Z.max d e) t end.
(** First and last item of the sorted dates, cut to the range; the list must
    not be empty (IndexError). *)
Definition range_file (dates : list Z) (low upp : bound) : option (Z * Z) :=
  match dates with
  | [] => None
  | d :: t => Some (Z.max (least d t) (match low with Some b => ordinal_of b | None => 0 end),
                    Z.min (greatest d t) (match upp with Some b => ordinal_of b | None => 999999 end))
  end.
(** Whether a scene is kept (prepare_ard.py 243-248 and copies): its date at
    midnight is not before the lower and not after the upper bound. *)
Definition in_range (low upp : bound) (d : Z) : bool :=
  negb (match low with Some b => d * day_s <? b | None => false end) &&
  negb (match upp with Some b => d * day_s >? b | None => false end).

(** A scene: its date, and whether the routine gets as far as storing it
    (readable, enough clear pixels). *)
Definition scene := (Z * bool)%type.
(** The output directory: range file, dates of the stored images. *)
Record dir := mkDir { d_range : option (Z * Z); d_images : list Z }.
(** A run of all ranks.  Existing files stay (no routine removes block files);
    without a scene rank 1 stops before writing the range file. *)
Definition prepare (low upp : bound) (scenes : list scene) (d : dir) : dir :=
  match range_file (map fst scenes) low upp with
  | None => d
  | Some r => mkDir (Some r) (d_images d ++ map fst (filter (fun s => snd s && in_range low upp (fst s)) scenes))
  end.

Lemma least_spec : forall l d, least d l <= d /\ (forall e, In e l -> least d l <= e) /\ (least d l = d \/ In (least d l) l).
Proof.
  induction l as [|e t IH]; intro d; cbn [least]; [repeat split; [lia|intros e []|now left]|].
  destruct (IH (Z.min d e)) as (A & B & C). repeat split; [lia| |].
  - intros x [<-|Hx]; [lia|auto].
  - destruct C as [C|C]; [|right; now right]. destruct (Z.min_spec d e) as [[_ E]|[_ E]]; rewrite E in C; rewrite E, C;
      [now left|right; now left].
Qed.
Lemma greatest_spec : forall l d, d <= greatest d l /\ (forall e, In e l -> e <= greatest d l) /\ (greatest d l = d \/ In (greatest d l) l).
Proof.
  induction l as [|e t IH]; intro d; cbn [greatest]; [repeat split; [lia|intros e []|now left]|].
  destruct (IH (Z.max d e)) as (A & B & C). repeat split; [lia| |].
  - intros x [<-|Hx]; [lia|auto].
  - destruct C as [C|C]; [|right; now right]. destruct (Z.max_spec d e) as [[_ E]|[_ E]]; rewrite E in C; rewrite E, C;
      [right; now left|now left].
Qed.

(** In the units of the range: a date is kept exactly if it lies between the
    day after the last one starting before the lower bound and the day of the
    upper bound. *)
Lemma in_range_spec : forall low upp d, in_range low upp d = true <->
  (forall b, low = Some b -> b <= d * day_s) /\ (forall b, upp = Some b -> d * day_s <= b).
Proof.
  intros low upp d. unfold in_range. rewrite andb_true_iff, !negb_true_iff. split.
  - intros [A B]. split; intros b ->; lia.
  - intros [A B]. split.
    + destruct low as [b|]; [specialize (A b eq_refl); lia|reflexivity].
    + destruct upp as [b|]; [specialize (B b eq_refl); lia|reflexivity].
Qed.

(** A fresh directory: every stored image lies inside the range written, and
    the range is the least interval of days containing all scenes, cut to the
    days of the bounds. *)
Theorem C112_range : forall low upp scenes s e, 
  (forall d, In d (map fst scenes) -> 0 <= d <= 999999) ->
  d_range (prepare low upp scenes (mkDir None [])) = Some (s, e) ->
  (forall d, In d (d_images (prepare low upp scenes (mkDir None []))) -> s <= d <= e) /\
  (forall d, In d (map fst scenes) -> (forall b, low = Some b -> ordinal_of b <= d) -> s <= d) /\
  (forall d, In d (map fst scenes) -> (forall b, upp = Some b -> d <= ordinal_of b) -> d <= e) /\
  (In s (map fst scenes) \/ exists b, low = Some b /\ s = ordinal_of b) /\
  (In e (map fst scenes) \/ exists b, upp = Some b /\ e = ordinal_of b).
Proof.
  intros low upp scenes s e Hb H. unfold prepare in *.
  destruct (range_file (map fst scenes) low upp) as [[s' e']|] eqn:E; cbn [d_range d_images app] in *; [|discriminate].
  injection H as -> ->. unfold range_file in E. destruct (map fst scenes) as [|d0 t] eqn:Em; [discriminate|].
  injection E as Es Ee. destruct (least_spec t d0) as (A & B & C), (greatest_spec t d0) as (A' & B' & C').
  assert (G : forall d, In d (d0 :: t) -> least d0 t <= d <= greatest d0 t) by (intros d [<-|Hd]; [lia|split; auto]).
  assert (L : forall d, In d (d0 :: t) -> (forall b, low = Some b -> ordinal_of b <= d) -> s <= d).
  { intros d Hd Hl. rewrite <- Es. pose proof (G d Hd). pose proof (Hb d Hd). destruct low as [b|]; [specialize (Hl b eq_refl)|]; lia. }
  assert (U : forall d, In d (d0 :: t) -> (forall b, upp = Some b -> d <= ordinal_of b) -> d <= e).
  { intros d Hd Hu. rewrite <- Ee. pose proof (G d Hd). pose proof (Hb d Hd). destruct upp as [b|]; [specialize (Hu b eq_refl)|]; lia. }
  assert (Il : In (least d0 t) (d0 :: t)) by (destruct C as [->|C]; [now left|now right]).
  assert (Ig : In (greatest d0 t) (d0 :: t)) by (destruct C' as [->|C']; [now left|now right]).
  split; [|split; [exact L|split; [exact U|split]]].
  - intros d Hd. apply in_map_iff in Hd. destruct Hd as [[d' k] [<- Hd]]. apply filter_In in Hd. destruct Hd as [Hin Hk].
    cbn [fst snd] in *. apply andb_true_iff in Hk. destruct Hk as [_ Hk]. apply in_range_spec in Hk. destruct Hk as [K1 K2].
    assert (Hd : In d' (d0 :: t)) by (rewrite <- Em; apply (in_map fst _ _ Hin)).
    split; [apply L|apply U]; try assumption; intros b Eb; unfold ordinal_of, day_s in *.
    + specialize (K1 b Eb). apply Z.div_le_upper_bound; lia.
    + specialize (K2 b Eb). apply Z.div_le_lower_bound; lia.
  - pose proof (Hb _ Il). destruct low as [b|].
    + destruct (Z.max_spec (least d0 t) (ordinal_of b)) as [[_ M]|[_ M]]; rewrite M in Es; subst s; [right; eauto|left; exact Il].
    + left. rewrite Z.max_l in Es by lia. now subst s.
  - pose proof (Hb _ Ig). destruct upp as [b|].
    + destruct (Z.min_spec (greatest d0 t) (ordinal_of b)) as [[_ M]|[_ M]]; rewrite M in Ee; subst e; [left; exact Ig|right; eauto].
    + left. rewrite Z.min_l in Ee by lia. now subst e.
Qed.

(** So the change magnitude output sized from the range file has a slot for
    every observation of every pixel. *)
Theorem C112_slots : forall low upp scenes s e a q l,
  (forall d, In d (map fst scenes) -> 1 <= d <= 999999) ->
  d_range (prepare low upp scenes (mkDir None [])) = Some (s, e) ->
  a_on a = true -> 0 < a_int a -> a_start a = s -> a_n a = tile_n_cm s e (a_int a) ->
  (forall d, In d (map q_date (q :: l)) -> In d (d_images (prepare low upp scenes (mkDir None [])))) ->
  cm_covers a (q :: l).
Proof.
  intros low upp scenes s e a q l Hb Hr Hon Hi Hs Hn Hd.
  destruct (@C112_range low upp scenes s e) as (R & _ & _ & S1 & _); [intros d H; specialize (Hb d H); lia|exact Hr|].
  assert (Hpos : 0 < s).
  { unfold prepare in Hr. destruct (range_file _ _ _) as [[s' e']|] eqn:E; [|discriminate]. injection Hr as -> ->.
    unfold range_file in E. destruct (map fst scenes) as [|d0 t]; [discriminate|]. injection E as E _.
    destruct (least_spec t d0) as (_ & _ & [C|C]); rewrite <- E.
    - rewrite C. pose proof (Hb d0 (or_introl eq_refl)). lia.
    - pose proof (Hb _ (or_intror C)). lia. }
  apply (@C13_tile_covers a q l s e); auto.
Qed.

(** Preparing again with a narrower range keeps the old block files: the range
    file then no longer covers them, and an observation before the range has no
    slot (a negative index into the output arrays). *)
Theorem C112_rerun_refuted : exists scenes low upp low' upp' s e d,
  let d1 := prepare low upp scenes (mkDir None []) in let d2 := prepare low' upp' scenes d1 in
  d_range d2 = Some (s, e) /\ In d (d_images d2) /\ ~ s <= d <= e /\
  (forall interval, 0 < interval <= 1000 -> Z.quot (d - s) interval < 0).
Proof.
  exists [(730000, true); (736000, true)], None, None, (Some (733000 * 86400)), None, 733000, 736000, 730000.
  cbv zeta. split; [reflexivity|]. split; [now left|]. split; [lia|].
  intros i Hi. change (730000 - 733000) with (- (3000)). rewrite Z.quot_opp_l by lia.
  assert (1 <= 3000 / i) by (apply Z.div_le_lower_bound; lia). rewrite Z.quot_div_nonneg by lia. lia.
Qed.

(** A range without scenes is written all the same, its end before its start;
    the number of maps is then not positive. *)
Theorem C112_empty_refuted : exists scenes low s e,
  prepare (Some low) None scenes (mkDir None []) = mkDir (Some (s, e)) [] /\ e < s /\
  forall interval, 0 < interval <= 1000 -> tile_n_cm s e interval <= 0.
Proof.
  exists [(730000, true); (731000, true)], (733000 * 86400), 733000, 731000. split; [reflexivity|]. split; [lia|].
  intros i Hi. unfold tile_n_cm. change (731000 - 733000 + 1) with (- (1999)). rewrite Z.quot_opp_l by lia.
  assert (1 <= 1999 / i) by (apply Z.div_le_lower_bound; lia). rewrite Z.quot_div_nonneg by lia. lia.
Qed.

Example C112_case :
  prepare (Some (730100 * 86400 + 43200)) (Some (736000 * 86400)) [(730100, true); (731000, false); (735000, true); (737000, true); (730500, true)]
    (mkDir None []) = mkDir (Some (730100, 736000)) [735000; 730500].
Proof. reflexivity. Qed.

Print Assumptions C112_landsat.
Print Assumptions C112_hls.
Print Assumptions C112_hls_slices_refuted.
Print Assumptions C112_range.
Print Assumptions C112_slots.
Print Assumptions C112_rerun_refuted.
Print Assumptions C112_empty_refuted.
