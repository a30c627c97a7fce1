(** COLD on transformed observations (C119): only differences of dates, and
    what the numerical routines make of the values, matter. *)
From Verif Require Import Base ColdModel ColdSpec ColdLemmas ColdProof ColdProps ColdPass.

Definition omap {A B} (f : A -> B) (a : out A) : out B :=
  match a with Ok x => Ok (f x) | Fail => Fail | UB => UB | Fuel => Fuel end.
Lemma omap_bind : forall A B A' B' (f : A -> A') (h : B -> B') (a : out A) (g : A -> out B) (g' : A' -> out B'),
  (forall x, a = Ok x -> g' (f x) = omap h (g x)) -> bind (omap f a) g' = omap h (bind a g).
Proof. intros A B A' B' f h [x| | |] g g' H; try reflexivity. cbn [omap bind]. apply H. reflexivity. Qed.
Lemma omap_opt : forall A B (f : A -> B) (a : option A), of_opt (option_map f a) = omap f (of_opt a).
Proof. intros A B f [a|]; reflexivity. Qed.

Section Move.
Variables (M M' D : Type) (K : kernel M D) (K' : kernel M' D) (P : params) (c : Z) (mv : obs -> obs) (fm : M -> M').
Hypothesis Hc : 1 <= p_conse P.
Hypothesis Hcap : p_tcg P < p_cap P.
Hypothesis Hcm : p_cm P = None.
(** Dates move by [c], values in any way; the numerical routines give the
    moved models and the same flags, statistics and deviations. *)
Hypothesis Hd : forall o, o_date (mv o) = o_date o + c.
Hypothesis Hmask : forall w, k_mask K' (map mv w) = k_mask K w.
Hypothesis Hfit : forall n w, k_fit K' n (map mv w) = option_map fm (k_fit K n w).
Hypothesis Hstab : forall m w, w <> [] -> k_stab K' (fm m) (map mv w) = k_stab K m w.
Hypothesis Hdev : forall m n o, k_dev K' (fm m) n (mv o) = k_dev K m n o.
Hypothesis Hdevr : forall m n j w o, k_devr K' (fm m) n j (map mv w) (mv o) = k_devr K m n j w o.
Hypothesis Hnorm : forall d, k_norm K' d = k_norm K d.
Hypothesis Hangle : forall ds, k_angle K' ds = k_angle K ds.
Notation conse := (Z.to_nat (p_conse P)).
Notation first l := (hd dflt_obs l).
Notation final l := (last l dflt_obs).

(** The moved window, record (a record without deviations has no break),
    event and result *)
Definition mw (w : list (obs * D)) : list (obs * D) := map (fun p => (mv (fst p), snd p)) w.
Definition mr (r : rec M D) : rec M' D :=
  mkRec (t_start r + c) (t_end r + c) (match r_devs r with [] => t_break r | _ => t_break r + c end) (num_obs r) (category r) (change_prob r)
    (fm (r_model r)) (map mv (r_win r)) (mw (r_devs r)).
Definition me (e : event D) : event D :=
  match e with EvLook d w v => EvLook (d + c) (mw w) v | EvMon d w v => EvMon (d + c) (mw w) v | EvCM d w v => EvCM (d + c) w v end.
Definition mres (R : result M D) : result M' D :=
  mkRes (map mr (res_recs R)) (res_cm R) (map me (res_log R)) (map mv (res_live R)).
Definition mz (z : zst M D) : zst M' D :=
  mkZ (map mv (z_old z)) (map mv (z_pre z)) (map mv (z_seg z)) (option_map mr (z_cur z)) (z_skip z) (mw (z_win z))
    (map mr (z_recs z)) (z_cm z) (map me (z_log z)).
Ltac red_z := cbn [z_old z_pre z_seg z_cur z_skip z_win z_recs z_cm z_log at_obs join mz fst snd option_map map omap bind] in *.

Lemma first_mv : forall w, w <> [] -> first (map mv w) = mv (first w).
Proof. intros [|o w] H; [congruence|reflexivity]. Qed.
Lemma final_mv : forall w, w <> [] -> final (map mv w) = mv (final w).
Proof.
  induction w as [|o w IH]; intros H; [congruence|]. destruct w as [|o' w]; [reflexivity|].
  change (final (map mv (o' :: w)) = mv (final (o' :: w))). apply IH. discriminate.
Qed.
Lemma zlen_mv : forall A B (f : A -> B) w, zlen (map f w) = zlen w.
Proof. intros A B f w. unfold zlen. rewrite map_length. reflexivity. Qed.
Lemma nonnil_mv : forall A B (f : A -> B) w, w <> [] -> map f w <> [].
Proof. intros A B f [|a w] H; [congruence|discriminate]. Qed.
Lemma long_mv : forall w, long (map mv w) = long w.
Proof.
  intros w. unfold long. rewrite zlen_mv. destruct w as [|o w]; [reflexivity|]. rewrite first_mv, final_mv, !Hd by discriminate. f_equal. f_equal. lia.
Qed.
Lemma gappy_mv : forall w, gappy P (map mv w) = gappy P w.
Proof.
  induction w as [|a w IH]; [reflexivity|]. destruct w as [|b w]; [reflexivity|]. cbn [map gappy] in *. rewrite IH, !Hd. f_equal. f_equal. lia.
Qed.
Lemma kept_mv : forall f w, kept f (map mv w) = map mv (kept f w).
Proof.
  intros f w. unfold kept. rewrite map_length. generalize 0%nat. induction w as [|o w IH]; intros k; [reflexivity|].
  cbn [length seq map combine filter fst]. destruct (f k); cbn [negb map snd]; rewrite IH; reflexivity.
Qed.
Lemma devs_mv : forall m n os, devs K' (fm m) n (map mv os) = mw (devs K m n os).
Proof. intros m n os. unfold devs, mw. rewrite !map_map. apply map_ext. intros o. rewrite Hdev. reflexivity. Qed.
Lemma snd_mv : forall w, map snd (mw w) = map snd w.
Proof. intros w. unfold mw. rewrite map_map. reflexivity. Qed.
Lemma exceeds_mv : forall d, exceeds K' P d = exceeds K P d.
Proof. intros d. unfold exceeds. rewrite Hnorm. reflexivity. Qed.
Lemma change_mv : forall ds, change K' P ds = change K P ds.
Proof.
  intros ds. unfold change. rewrite Hangle. f_equal. induction ds as [|d ds IH]; [reflexivity|]. cbn [forallb]. rewrite IH, exceeds_mv. reflexivity.
Qed.
Lemma wild_mv : forall ds, wild K' P ds = wild K P ds.
Proof. intros [|d ds]; [reflexivity|]. cbn [wild]. rewrite Hnorm. reflexivity. Qed.
Lemma cm_mv : forall M1 (K1 : kernel M1 D) cm log d ds, cm_update K1 P cm log d ds = Ok (cm, log).
Proof. intros M1 K1 cm log d ds. unfold cm_update. rewrite Hcm. reflexivity. Qed.
Lemma long_some : forall w, long w = true -> w <> [].
Proof. intros [|o w] H; [discriminate|discriminate]. Qed.
Lemma firstn_some : forall (o : obs) t, firstn conse (o :: t) <> [].
Proof. intros o t. destruct conse eqn:E; [lia|discriminate]. Qed.

Definition mlook (a : list obs * list obs * list (obs * D) * list (Z * Z) * list (event D)) :=
  let '(rp, seg, lw, cm, log) := a in (map mv rp, map mv seg, mw lw, cm, map me log).
Lemma look_mv : forall m rp seg lw cm log, seg <> [] ->
  look K' P (fm m) (map mv rp) (map mv seg) (mw lw) cm (map me log) = omap mlook (look K P m rp seg lw cm log).
Proof.
  intros m. induction rp as [|o rp IH]; intros seg lw cm log Hs; [reflexivity|]. cbn [look map].
  change (mv o :: map mv rp) with (map mv (o :: rp)). rewrite firstn_map, devs_mv, snd_mv, change_mv, wild_mv, zlen_mv. rewrite !cm_mv.
  set (w := devs K m 4 (firstn conse (o :: rp))).
  replace (if p_conse P <=? zlen (o :: rp) then Ok (cm, map me log) else Ok (cm, map me log)) with (Ok (cm, map me log)) by (destruct (p_conse P <=? zlen (o :: rp)); reflexivity).
  replace (if p_conse P <=? zlen (o :: rp) then Ok (cm, log) else Ok (cm, log)) with (Ok (cm, log)) by (destruct (p_conse P <=? zlen (o :: rp)); reflexivity).
  cbn [bind]. rewrite Hd. change (EvLook (o_date o + c) (mw w) (change K P (map snd w)) :: map me log) with (map me (EvLook (o_date o) w (change K P (map snd w)) :: log)).
  destruct (change K P (map snd w)); [reflexivity|]. destruct (wild K P (map snd w)).
  - apply IH. exact Hs.
  - change (mv o :: map mv seg) with (map mv (o :: seg)). apply IH. discriminate.
Qed.
Lemma look_some : forall m rp seg lw cm log rp' seg' lw' cm' log', seg <> [] -> look K P m rp seg lw cm log = Ok (rp', seg', lw', cm', log') ->
  seg' <> [] /\ (rp' <> [] -> lw' <> []).
Proof.
  intros m. induction rp as [|o rp IH]; intros seg lw cm log rp' seg' lw' cm' log' Hs H; cbn [look] in H.
  - injection H as <- <- <- <- <-. split; [exact Hs|congruence].
  - apply bind_ok in H. destruct H as ([cm1 log1] & _ & H). destruct (change K P _).
    + injection H as <- <- <- <- <-. split; [exact Hs|]. intros _. unfold devs. apply nonnil_mv, firstn_some.
    + eapply IH; [|exact H]. destruct (wild K P _); [exact Hs|discriminate].
Qed.

Definition Inv (z : zst M D) : Prop := (z_cur z <> None -> z_seg z <> []) /\ Forall (fun r => r_devs r <> []) (z_recs z).
Lemma mr_break : forall r, r_devs r <> [] -> t_break (mr r) = t_break r + c.
Proof. intros r H. unfold mr. destruct (r_devs r); [congruence|reflexivity]. Qed.
Lemma close_mv : forall rs r, close (map mr rs) (mr r) = omap (map mr) (close rs r).
Proof. intros rs r. unfold close. rewrite zlen_mv. destruct (39 <=? zlen rs); [reflexivity|]. cbn [omap]. rewrite map_app. reflexivity. Qed.

Lemma watch_mv : forall z ahead, z_seg z <> [] -> ahead <> [] -> watch K' P (mz z) (map mv ahead) = omap mz (watch K P z ahead).
Proof.
  intros z ahead Hs Ha. unfold watch. red_z. rewrite !zlen_mv, Hfit, omap_opt, first_mv, final_mv, !Hd by exact Hs.
  set (n := zlen (z_seg z)). set (skip := if z_skip z =? 0 then n else z_skip z).
  destruct (z_cur z) as [r|]; red_z.
  - destruct (n <=? 24).
    + apply omap_bind. intros m _. red_z. rewrite devs_mv. reflexivity.
    + cbn [mr r_win]. rewrite zlen_mv.
      match goal with |- bind ?a _ = omap _ (bind ?b _) => replace a with (omap (fun p : rec M D * Z => (mr (fst p), snd p)) b) end.
      2:{ destruct ((1 <=? n - zlen (r_win r)) && (p_skip P skip <? n - zlen (r_win r))); [|reflexivity].
          symmetry. apply omap_bind. intros m _. reflexivity. }
      apply omap_bind.
      intros [r1 sk] _. red_z.
      rewrite final_mv by exact Ha. change (r_model (mr r1)) with (fm (r_model r1)). change (r_win (mr r1)) with (map mv (r_win r1)).
      rewrite Hdevr. change (category (mr r1)) with (category r1). unfold mz. red_z. f_equal. f_equal.
      unfold mw. rewrite map_app. cbn [map fst snd]. f_equal. destruct (z_win z); reflexivity.
  - apply omap_bind. intros m _. red_z. rewrite devs_mv. reflexivity.
Qed.
Lemma watch_keeps : forall z ahead z', ahead <> [] -> watch K P z ahead = Ok z' -> z_seg z' = z_seg z /\ z_recs z' = z_recs z /\ z_win z' <> [].
Proof.
  intros z ahead z' Ha H. unfold watch in H.
  assert (A : forall m n, devs K m n ahead <> []) by (intros m n; unfold devs; apply nonnil_mv; exact Ha).
  destruct (z_cur z) as [r|]; [destruct (zlen (z_seg z) <=? 24)|].
  - apply bind_ok in H. destruct H as (m & _ & H). injection H as <-. red_z. auto.
  - apply bind_ok in H. destruct H as ([r1 sk] & _ & H). injection H as <-. red_z. split; [reflexivity|]. split; [reflexivity|]. destruct (tl (z_win z)); discriminate.
  - apply bind_ok in H. destruct H as (m & _ & H). injection H as <-. red_z. auto.
Qed.
Lemma decide_mv : forall z o, z_win z <> [] -> decide K' P (mz z) (mv o) = omap mz (decide K P z o).
Proof.
  intros z o Hw. unfold decide. red_z. rewrite !cm_mv. red_z. rewrite snd_mv, change_mv, wild_mv. destruct (z_cur z) as [r|]; red_z; [|reflexivity].
  rewrite Hd. destruct (change K P (map snd (z_win z))).
  - match goal with |- bind (close _ ?a) _ = omap _ (bind (close _ ?b) _) => assert (E : a = mr b) end.
    { unfold mr. cbn [t_start t_end t_break num_obs category change_prob r_model r_win r_devs]. destruct (z_win z); [congruence|reflexivity]. }
    rewrite E, close_mv. apply omap_bind. intros rs _. unfold mz. red_z. rewrite !map_app. reflexivity.
  - red_z. unfold mz. red_z. destruct (wild K P (map snd (z_win z))); [reflexivity|]. rewrite map_app. reflexivity.
Qed.
Lemma decide_inv : forall z o z', z_win z <> [] -> z_seg z <> [] -> Inv z -> decide K P z o = Ok z' -> Inv z'.
Proof.
  intros z o z' Hw Hs [I1 I2] H. unfold decide in H. rewrite cm_mv in H. cbn [bind] in H. destruct (z_cur z) as [r|]; [|discriminate].
  destruct (change K P _).
  - apply bind_ok in H. destruct H as (rs & H1 & H). injection H as <-. split; red_z; [congruence|]. unfold close in H1. destruct (39 <=? zlen (z_recs z)); [discriminate|].
    injection H1 as <-. apply Forall_app. split; [exact I2|]. constructor; [exact Hw|constructor].
  - injection H as <-. split; red_z; [|exact I2]. intros _. destruct (wild K P _); [exact Hs|]. destruct (z_seg z); discriminate.
Qed.
Definition msum (a : zst M D + zst M D) : zst M' D + zst M' D := match a with inl z => inl (mz z) | inr z => inr (mz z) end.
Lemma tl_mv : forall w, tl (map mv w) = map mv (tl w).
Proof. intros [|o w]; reflexivity. Qed.
Lemma try_mv : forall z ahead, long (z_seg z) = true -> try_start K' P (mz z) (map mv ahead) = omap msum (try_start K P z ahead).
Proof.
  intros z ahead Hl. pose proof (long_some Hl) as Hs. unfold try_start. red_z. rewrite gappy_mv, <- map_app, Hmask.
  destruct (gappy P (z_seg z)).
  { cbn [omap msum]. rewrite first_mv by exact Hs. destruct (z_recs z); unfold mz; red_z; rewrite ?map_app, tl_mv; cbn [map]; reflexivity. }
  replace (of_opt (k_mask K (z_seg z ++ ahead))) with (omap (fun f : nat -> bool => f) (of_opt (k_mask K (z_seg z ++ ahead)))) at 1 by (destruct (k_mask K (z_seg z ++ ahead)); reflexivity).
  apply omap_bind. intros flags _. rewrite kept_mv, long_mv. destruct (long (kept flags (z_seg z))) eqn:Hk; cbn [negb]; [|reflexivity].
  pose proof (long_some Hk) as Hks. set (w := kept flags (z_seg z)) in *. rewrite Hfit, omap_opt. apply omap_bind. intros m _. rewrite Hstab by exact Hks.
  destruct (flt (Fin (p_tcg P)) (k_stab K m w)).
  { cbn [omap msum]. unfold mz. red_z. rewrite first_mv, tl_mv, map_app by exact Hks. reflexivity. }
  rewrite <- map_rev. change (@nil (obs * D)) with (mw []) at 1. rewrite look_mv by exact Hks. apply omap_bind.
  intros [[[[rp seg'] lw] cm] log] Hlook. cbn [mlook]. destruct (look_some _ _ _ _ _ Hks Hlook) as [Hs' Hlw].
  replace (match map mr (z_recs z) with
        | [] => if 6 <=? zlen (rev (map mv rp)) then
                  m2 <- of_opt (k_fit K' 4 (rev (map mv rp))) ;;
                  close [] (mkRec (o_date (first (rev (map mv rp)))) (o_date (final (rev (map mv rp)))) (o_date (first (map mv seg')))
                              (zlen (rev (map mv rp)) + 1) 14 100 m2 (rev (map mv rp)) (mw lw))
                else Ok []
        | rs => Ok rs end) with
   (omap (map mr) (match z_recs z with
        | [] => if 6 <=? zlen (rev rp) then
                  m2 <- of_opt (k_fit K 4 (rev rp)) ;;
                  close [] (mkRec (o_date (first (rev rp))) (o_date (final (rev rp))) (o_date (first seg'))
                              (zlen (rev rp) + 1) 14 100 m2 (rev rp) lw)
                else Ok []
        | rs => Ok rs end)).
  - apply omap_bind. intros rs _. cbn [omap msum]. unfold mz. red_z. rewrite map_app, map_rev. reflexivity.
  - destruct (z_recs z) as [|q qs]; [|reflexivity]. cbn [map]. rewrite <- map_rev, zlen_mv. destruct (6 <=? zlen (rev rp)) eqn:E6; [|reflexivity].
    assert (Hb : rev rp <> []) by (intros E; rewrite E in E6; discriminate).
    rewrite Hfit, omap_opt. symmetry. apply omap_bind. intros m2 _. rewrite !first_mv, final_mv, !Hd by assumption.
    change (@nil (ColdModel.rec M' D)) with (map mr []). rewrite <- close_mv. f_equal. unfold mr. cbn [t_start t_end t_break num_obs category change_prob r_model r_win r_devs].
    assert (Hl' : lw <> []) by (apply Hlw; intros E; apply Hb; rewrite E; reflexivity). destruct lw; [congruence|reflexivity].
Qed.
Lemma try_inv : forall z ahead a, z_cur z = None -> long (z_seg z) = true -> Inv z -> try_start K P z ahead = Ok a ->
  match a with inl z' => Inv z' /\ z_cur z' = None | inr z' => Inv z' /\ z_seg z' <> [] end.
Proof.
  intros z ahead a Hn Hl [I1 I2] H. unfold try_start in H. destruct (gappy P (z_seg z)).
  { injection H as <-. destruct (z_recs z) eqn:E; (split; [split; red_z; [congruence|rewrite E; exact I2]|exact Hn]). }
  apply bind_ok in H. destruct H as (flags & _ & H). destruct (long (kept flags (z_seg z))) eqn:Hk; cbn [negb] in H.
  2:{ injection H as <-. split; [split; assumption|exact Hn]. }
  pose proof (long_some Hk) as Hks. apply bind_ok in H. destruct H as (m & _ & H). destruct (flt _ _).
  { injection H as <-. split; [split; red_z; [congruence|exact I2]|exact Hn]. }
  apply bind_ok in H. destruct H as ([[[[rp seg'] lw] cm] log] & H1 & H). destruct (look_some _ _ _ _ _ Hks H1) as [Hs' Hlw].
  apply bind_ok in H. destruct H as (rs & H2 & H). injection H as <-. split; [|exact Hs']. split; red_z; [congruence|].
  destruct (z_recs z) as [|q qs]; [|injection H2 as <-; exact I2]. destruct (6 <=? zlen (rev rp)) eqn:E6; [|injection H2 as <-; constructor].
  apply bind_ok in H2. destruct H2 as (m2 & _ & H2). unfold close in H2. cbn in H2. injection H2 as <-. constructor; [|constructor]. cbn [r_devs].
  apply Hlw. intros E. rewrite E in E6. discriminate.
Qed.
Lemma advance_mv : forall z o t, Inv z -> advance K' P (mz z) (mv o) (map mv t) = omap mz (advance K P z o t).
Proof.
  intros z o t I. unfold advance. change (mv o :: map mv t) with (map mv (o :: t)). rewrite firstn_map. cbn [mz z_seg z_cur]. rewrite long_mv.
  destruct (long (z_seg z)) eqn:Hl.
  2:{ cbn [omap]. unfold mz. red_z. rewrite map_app. reflexivity. }
  pose proof (long_some Hl) as Hs. pose proof (firstn_some o t) as Ha. fold (mz z).
  destruct (z_cur z) eqn:Hz; cbn [option_map].
  - rewrite watch_mv by assumption. apply omap_bind. intros z1 H1. destruct (watch_keeps _ Ha H1) as (_ & _ & Hw). apply decide_mv. exact Hw.
  - rewrite try_mv by exact Hl. apply omap_bind. intros [z1|z1] H1; cbn [msum].
    + cbn [omap]. unfold mz. red_z. rewrite map_app. reflexivity.
    + destruct (@try_inv _ _ _ Hz Hl I H1) as [I1 Hs1]. rewrite watch_mv by assumption. apply omap_bind. intros z2 H2.
      destruct (watch_keeps _ Ha H2) as (_ & _ & Hw). apply decide_mv. exact Hw.
Qed.
Lemma advance_inv : forall z o t z', Inv z -> advance K P z o t = Ok z' -> Inv z'.
Proof.
  intros z o t z' I H. unfold advance in H. pose proof (firstn_some o t) as Ha. destruct (long (z_seg z)) eqn:Hl.
  2:{ injection H as <-. destruct I as [I1 I2]. split; red_z; [intros _; destruct (z_seg z); discriminate|exact I2]. }
  pose proof (long_some Hl) as Hs.
  assert (W : forall y, Inv y -> z_seg y <> [] -> forall y1, watch K P y (firstn conse (o :: t)) = Ok y1 -> forall y2, decide K P y1 o = Ok y2 -> Inv y2).
  { intros y [J1 J2] Sy y1 Hy1 y2 Hy2. destruct (watch_keeps _ Ha Hy1) as (A1 & A2 & A3).
    eapply decide_inv; [exact A3|rewrite A1; exact Sy| |exact Hy2]. split; [rewrite A1; auto|rewrite A2; exact J2]. }
  destruct (z_cur z) eqn:Hz.
  - apply bind_ok in H. destruct H as (z1 & H1 & H2). eapply W; eassumption.
  - apply bind_ok in H. destruct H as ([z1|z1] & H1 & H); destruct (@try_inv _ _ _ Hz Hl I H1) as [I1 Hn].
    + injection H as <-. destruct I1 as [J1 J2]. split; red_z; [congruence|exact J2].
    + apply bind_ok in H. destruct H as (z2 & H2 & H3). eapply W; eassumption.
Qed.
Definition mpass (a : zst M D * list obs) : zst M' D * list obs := (mz (fst a), map mv (snd a)).
Lemma pass_mv : forall rest z, Inv z -> pass K' P (mz z) (map mv rest) = omap mpass (pass K P z rest).
Proof.
  induction rest as [|o t IH]; intros z I; [reflexivity|]. cbn [map pass]. change (mv o :: map mv t) with (map mv (o :: t)). rewrite zlen_mv.
  destruct (p_conse P <=? zlen (o :: t)); [|reflexivity]. rewrite advance_mv by exact I. apply omap_bind. intros z1 H1. apply IH. eapply advance_inv; eassumption.
Qed.
Lemma pass_inv : forall rest z z' r, Inv z -> pass K P z rest = Ok (z', r) -> Inv z'.
Proof.
  induction rest as [|o t IH]; intros z z' r I H; cbn [pass] in H; [injection H as <- <-; exact I|].
  destruct (p_conse P <=? zlen (o :: t)); [|injection H as <- <-; exact I]. apply bind_ok in H. destruct H as (z1 & H1 & H2).
  eapply IH; [|exact H2]. eapply advance_inv; eassumption.
Qed.
Lemma suspects_mv : forall w, suspects K' P (mw w) = mw (suspects K P w).
Proof.
  induction w as [|a w IH]; [reflexivity|]. cbn [mw map suspects]. fold (mw w). rewrite IH. unfold mw at 2 3. rewrite !map_length.
  replace (doubtful K' P ((mv (fst a), snd a) :: mw w)) with (doubtful K P (a :: w)); [destruct (_ && _); reflexivity|].
  unfold doubtful. cbn [map snd]. rewrite snd_mv, exceeds_mv, Hangle. reflexivity.
Qed.
Lemma last_mv : forall z r rest, z_seg z <> [] -> last_record K' P (mz z) (mr r) (map mv rest) = mr (last_record K P z r rest).
Proof.
  intros z r rest Hs. unfold last_record. red_z. rewrite suspects_mv.
  assert (Lm : forall w, length (mw w) = length w) by (intros w; apply map_length). rewrite !Lm, map_length.
  set (s := if (length (suspects K P (z_win z)) =? length (z_win z))%nat then [] else suspects K P (z_win z)).
  replace (if (length (suspects K P (z_win z)) =? length (z_win z))%nat then [] else mw (suspects K P (z_win z))) with (mw s) by (unfold s; destruct (_ =? _)%nat; reflexivity).
  unfold zlen. rewrite Lm, firstn_map, <- map_app, final_mv, Hd by (destruct (z_seg z); [congruence|discriminate]).
  destruct s as [|[o d] s1]; unfold mr; cbn [t_start t_end t_break num_obs category change_prob r_model r_win r_devs mw map fst snd]; [reflexivity|]. rewrite Hd. reflexivity.
Qed.
Lemma left_mv : forall z rest, Inv z -> left_over K' (mz z) (map mv rest) = omap (map mr) (left_over K z rest).
Proof.
  intros z rest [_ I2]. unfold left_over. red_z.
  replace (match map mr (z_recs z) with [] => map mv (z_old z) | _ => [] end ++ map mv (z_pre z) ++ map mv (z_seg z) ++ map mv rest) with
    (map mv (match z_recs z with [] => z_old z | _ => [] end ++ z_pre z ++ z_seg z ++ rest)) by (rewrite !map_app; destruct (z_recs z); reflexivity).
  set (w0 := match z_recs z with [] => z_old z | _ => [] end ++ z_pre z ++ z_seg z ++ rest). rewrite zlen_mv, Hmask.
  replace (if 6 <=? zlen w0 then flags <- of_opt (k_mask K w0) ;; Ok (kept flags (map mv w0)) else Ok (map mv w0)) with
    (omap (map mv) (if 6 <=? zlen w0 then flags <- of_opt (k_mask K w0) ;; Ok (kept flags w0) else Ok w0)).
  2:{ destruct (6 <=? zlen w0); [|reflexivity]. destruct (k_mask K w0); [|reflexivity]. cbn [of_opt bind omap]. rewrite kept_mv. reflexivity. }
  apply omap_bind. intros w _. rewrite zlen_mv. destruct (6 <=? zlen w) eqn:E6; [|reflexivity].
  assert (Hw : w <> []) by (intros E; rewrite E in E6; discriminate).
  rewrite Hfit, omap_opt. apply omap_bind. intros m _. cbn [omap]. rewrite map_app, first_mv, final_mv, !Hd by exact Hw. f_equal. f_equal. cbn [map]. f_equal. unfold mr at 2.
  cbn [t_start t_end t_break num_obs category change_prob r_model r_win r_devs mw map]. f_equal. rewrite <- map_rev.
  apply Forall_rev in I2. destruct (rev (z_recs z)) as [|q qs]; [reflexivity|]. cbn [map]. inversion I2. apply mr_break. assumption.
Qed.

(** ** C119 *)
Theorem C119_moved : forall fuel x cm, asc x -> fuel_ok P x fuel ->
  stand_procedure K' P fuel (map mv x) cm = omap mres (stand_procedure K P fuel x cm).
Proof.
  intros fuel x cm A Hf.
  assert (A' : asc (map mv x)).
  { clear - A Hd. unfold asc, ascending in *. rewrite map_map. induction x as [|o x IH]; [constructor|]. cbn [map] in *. inversion A as [|? ? A1 A2]; subst.
    constructor; [apply IH; assumption|]. clear - A2 Hd. induction x as [|q x IH]; [constructor|]. cbn [map] in *. inversion A2; subst. constructor; [rewrite !Hd; lia|apply IH; assumption]. }
  assert (Hf' : fuel_ok P (map mv x) fuel) by (unfold fuel_ok in *; rewrite zlen_mv; exact Hf).
  rewrite (@C116_pass M' D K' P Hc Hcap fuel _ cm A' Hf'), (@C116_pass M D K P Hc Hcap fuel x cm A Hf). unfold cold_pass.
  rewrite firstn_map, skipn_map.
  set (z0 := mkZ [] [] (firstn 12 x) None 0 [] [] cm [] : zst M D).
  change (mkZ [] [] (map mv (firstn 12 x)) None 0 [] [] cm []) with (mz z0).
  assert (I0 : Inv z0) by (split; [intros N; exfalso; apply N; reflexivity|constructor]).
  rewrite pass_mv by exact I0. apply omap_bind. intros [z rest] H1. cbn [mpass fst snd]. pose proof (pass_inv _ I0 H1) as I.
  cbn [mz z_cur z_recs]. destruct (z_cur z) as [r|] eqn:Hz; cbn [option_map].
  - cbn [bind omap]. rewrite last_mv by (apply I; rewrite Hz; discriminate). unfold mres. cbn [res_recs res_cm res_log res_live mz z_cm z_log z_old z_pre z_seg]. rewrite !map_app. reflexivity.
  - rewrite left_mv by exact I. apply omap_bind. intros rs _. unfold mres. cbn [omap res_recs res_cm res_log res_live mz z_cm z_log z_old z_pre z_seg]. rewrite !map_app. reflexivity.
Qed.
End Move.

(** ** Example: the kernel [toy], dates four years later, values raised by 7 *)
Definition later (o : obs) : obs := mkObs (o_date o + 1461) [val o + 7].
Example toy_moves : forall fuel x cm, asc x -> fuel_ok (toyP None) x fuel ->
  stand_procedure toy (toyP None) fuel (map later x) cm = omap (mres 1461 later (fun m => m + 7)) (stand_procedure toy (toyP None) fuel x cm).
Proof.
  intros fuel x cm. apply C119_moved; try reflexivity; cbn [toy k_mask k_fit k_stab k_dev k_devr]; intros.
  - cbn. lia.
  - destruct w; reflexivity.
  - f_equal. f_equal. destruct w as [|o w] using rev_ind; [congruence|]. rewrite map_app. cbn [map]. rewrite !last_last. unfold val, later; cbn [o_vals hd]; unfold val; lia.
  - unfold val, later; cbn [o_vals hd]; unfold val; lia.
  - unfold val, later; cbn [o_vals hd]; unfold val; lia.
Qed.
Example moved_run : asc two_levels /\ fuel_ok (toyP None) two_levels 600 /\
  summary (stand_procedure toy (toyP None) 600 (map later two_levels) []) =
  Ok [(731461, 731925, 731941, (100, 8, 30), (30%nat, 6%nat)); (731941, 732405, 0, (0, 8, 24), (24%nat, 0%nat))].
Proof. split; [exact asc_two|]. split; [vm_compute; discriminate|]. vm_compute. reflexivity. Qed.

Print Assumptions C119_moved.
