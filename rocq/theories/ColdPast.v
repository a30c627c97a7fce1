(** What later observations can change (C117), and what earlier ones can
    (C118), in the results of COLD. *)
From Verif Require Import Base ColdModel ColdSpec ColdLemmas ColdProof ColdProps ColdPass.

Section Past.
Variables (M D : Type) (K : kernel M D) (P : params).
Hypothesis Hc : 1 <= p_conse P.
Hypothesis Hcap : p_tcg P < p_cap P.
Notation rec := (rec M D).
Notation zst := (zst M D).
Notation conse := (Z.to_nat (p_conse P)).

(** ** One observation adds records and decisions *)
Definition Grows (z z' : zst) (new : list rec) : Prop :=
  z_recs z' = z_recs z ++ new /\ (exists l, z_log z' = l ++ z_log z) /\ Forall (fun r => change_prob r = 100) new.
Lemma grows_none : forall z z', z_recs z' = z_recs z -> z_log z' = z_log z -> Grows z z' [].
Proof. intros z z' E1 E2. split; [rewrite app_nil_r; exact E1|]. split; [exists []; exact E2|constructor]. Qed.
Lemma grows_trans : forall a b c m n, Grows a b m -> Grows b c n -> Grows a c (m ++ n).
Proof.
  intros a b c m n (A1 & (l1 & A2) & A3) (B1 & (l2 & B2) & B3). split; [rewrite B1, A1, app_assoc; reflexivity|].
  split; [exists (l2 ++ l1); rewrite B2, A2, app_assoc; reflexivity|]. apply Forall_app. split; assumption.
Qed.
Lemma cm_log : forall cm log d w cm' log', cm_update K P cm log d w = Ok (cm', log') -> exists l, log' = l ++ log.
Proof.
  intros cm log d w cm' log' H. unfold cm_update in H. destruct (p_cm P) as [c|]; [|injection H as <- <-; exists []; reflexivity].
  destruct (cm_int c =? 0); [discriminate|]. destruct (k_cm K _ _) as [v|]; [|discriminate].
  apply bind_ok in H. destruct H as ([cv cd] & _ & H). destruct (cv <? _).
  - apply bind_ok in H. destruct H as (cm2 & _ & H). injection H as <- <-. exists [EvCM d w (wrap16 (if 32767 <? v then 32767 else v))]. reflexivity.
  - injection H as <- <-. exists [EvCM d w (wrap16 (if 32767 <? v then 32767 else v))]. reflexivity.
Qed.
Lemma look_log : forall m rp seg lw cm log rp' seg' lw' cm' log', look K P m rp seg lw cm log = Ok (rp', seg', lw', cm', log') -> exists l, log' = l ++ log.
Proof.
  induction rp as [|o rp IH]; intros seg lw cm log rp' seg' lw' cm' log' H.
  - cbn [look] in H. injection H as <- <- <- <- <-. exists []. reflexivity.
  - cbn [look] in H. apply bind_ok in H. destruct H as ([cm1 log1] & H1 & H).
    assert (L1 : exists l, log1 = l ++ log) by (destruct (p_conse P <=? zlen (o :: rp)); [apply cm_log in H1; exact H1|injection H1 as <- <-; exists []; reflexivity]).
    destruct L1 as (l1 & ->). destruct (change K P _).
    + injection H as <- <- <- <- <-. eexists (_ :: l1). reflexivity.
    + apply IH in H. destruct H as (l2 & ->). eexists (l2 ++ _ :: l1). rewrite <- app_assoc. reflexivity.
Qed.
Lemma close_add : forall (rs : list rec) r rs', close rs r = Ok rs' -> rs' = rs ++ [r].
Proof. intros rs r rs' H. unfold close in H. destruct (39 <=? zlen rs); [discriminate|]. injection H as <-. reflexivity. Qed.

(** The state right after a break at [o] *)
Definition Broken (z : zst) (o : obs) : Prop := z_pre z = [] /\ z_seg z = [o] /\ z_cur z = None /\ z_skip z = 0 /\ z_win z = [].

Lemma watch_grows : forall z z' a, watch K P z a = Ok z' -> Grows z z' [].
Proof.
  intros z z' a H. unfold watch in H. destruct (z_cur z) as [r|].
  - destruct (zlen (z_seg z) <=? 24).
    + apply bind_ok in H. destruct H as (m & _ & H). injection H as <-. apply grows_none; reflexivity.
    + apply bind_ok in H. destruct H as ([r1 sk] & _ & H). injection H as <-. apply grows_none; reflexivity.
  - apply bind_ok in H. destruct H as (m & _ & H). injection H as <-. apply grows_none; reflexivity.
Qed.
Lemma decide_grows : forall z z' o, decide K P z o = Ok z' -> exists new, Grows z z' new /\
  (new = [] \/ exists r, new = [r] /\ Broken z' o /\ t_break r = o_date o).
Proof.
  intros z z' o H. unfold decide in H. apply bind_ok in H. destruct H as ([cm log] & H1 & H). apply cm_log in H1. destruct H1 as (l & ->).
  destruct (z_cur z) as [r|]; [|discriminate]. destruct (change K P _).
  - apply bind_ok in H. destruct H as (rs & E & H). injection H as <-. apply close_add in E. eexists. split.
    + split; [exact E|]. split; [eexists (_ :: l); reflexivity|]. constructor; [reflexivity|constructor].
    + right. eexists. split; [reflexivity|]. split; [repeat split|reflexivity].
  - injection H as <-. exists []. split; [|now left]. split; [symmetry; apply app_nil_r|]. split; [eexists (_ :: l); reflexivity|constructor].
Qed.
Lemma try_grows : forall z a r, try_start K P z a = Ok r ->
  let z' := match r with inl z' => z' | inr z' => z' end in
  exists new, Grows z z' new /\ Forall (fun r => category r = 14) new.
Proof.
  intros z a r H. unfold try_start in H. destruct (gappy P (z_seg z)).
  { injection H as <-. exists []. split; [|constructor]. destruct (z_recs z) eqn:E; apply grows_none; cbn [at_obs z_recs z_log]; auto. }
  apply bind_ok in H. destruct H as (flags & _ & H). destruct (negb (long (kept flags (z_seg z)))).
  { injection H as <-. exists []. split; [apply grows_none; reflexivity|constructor]. }
  apply bind_ok in H. destruct H as (m & _ & H). destruct (flt _ _).
  { injection H as <-. exists []. split; [apply grows_none; reflexivity|constructor]. }
  apply bind_ok in H. destruct H as ([[[[rp seg'] lw] cm] log] & HL & H). apply look_log in HL. destruct HL as (l & ->).
  apply bind_ok in H. destruct H as (rs & Hr & H). injection H as <-. cbv zeta.
  destruct (z_recs z) as [|r0 rt] eqn:E.
  - destruct (6 <=? zlen (rev rp)).
    + apply bind_ok in Hr. destruct Hr as (m2 & _ & Hr). apply close_add in Hr. eexists. split.
      * split; [cbn [z_recs]; rewrite E; exact Hr|]. split; [exists l; reflexivity|]. constructor; [reflexivity|constructor].
      * constructor; [reflexivity|constructor].
    + injection Hr as <-. exists []. split; [|constructor]. split; [cbn [z_recs]; rewrite E; reflexivity|]. split; [exists l; reflexivity|constructor].
  - injection Hr as <-. exists []. split; [|constructor]. split; [cbn [z_recs]; rewrite E, app_nil_r; reflexivity|]. split; [exists l; reflexivity|constructor].
Qed.
Lemma advance_grows : forall z z' o t, advance K P z o t = Ok z' -> exists first new, Grows z z' (first ++ new) /\ Forall (fun r => category r = 14) first /\
  (new = [] \/ exists r, new = [r] /\ Broken z' o /\ t_break r = o_date o).
Proof.
  intros z z' o t H. unfold advance in H. destruct (long (z_seg z)).
  2:{ injection H as <-. exists [], []. split; [apply grows_none; reflexivity|]. split; [constructor|now left]. }
  destruct (z_cur z).
  - apply bind_ok in H. destruct H as (z1 & H1 & H). apply watch_grows in H1. apply decide_grows in H. destruct H as (new & G & B).
    exists [], new. split; [|split; [constructor|exact B]]. exact (grows_trans H1 G).
  - apply bind_ok in H. destruct H as ([z1|z1] & H1 & H); apply try_grows in H1; destruct H1 as (f & G1 & C1).
    + injection H as <-. exists f, []. split; [|split; [exact C1|now left]]. rewrite app_nil_r. destruct G1 as (A & B & C). split; [exact A|]. split; assumption.
    + apply bind_ok in H. destruct H as (z2 & H2 & H). apply watch_grows in H2. apply decide_grows in H. destruct H as (new & G & B).
      exists f, new. split; [|split; [exact C1|exact B]]. pose proof (grows_trans G1 (grows_trans H2 G)) as G'. exact G'.
Qed.
(** Every break leaves its mark: the pass goes on from it. *)
Lemma pass_grows : forall rest z z' r', pass K P z rest = Ok (z', r') -> exists new, Grows z z' new /\
  forall n1 r n2, new = n1 ++ r :: n2 -> category r <> 14 ->
    exists z1 o t pfx, rest = pfx ++ o :: t /\ pass K P z1 t = Ok (z', r') /\ Broken z1 o /\ t_break r = o_date o /\ z_recs z1 = z_recs z ++ n1 ++ [r].
Proof.
  induction rest as [|o t IH]; intros z z' r' H.
  - cbn [pass] in H. injection H as <- <-. exists []. split; [apply grows_none; reflexivity|]. intros n1 r n2 E. destruct n1; discriminate.
  - cbn [pass] in H. destruct (p_conse P <=? zlen (o :: t)).
    2:{ injection H as <- <-. exists []. split; [apply grows_none; reflexivity|]. intros n1 r n2 E. destruct n1; discriminate. }
    apply bind_ok in H. destruct H as (z1 & H1 & H). apply advance_grows in H1. destruct H1 as (f & b & G1 & F1 & B1).
    pose proof H as H0. apply IH in H. destruct H as (new & G2 & Br). exists ((f ++ b) ++ new). split; [exact (grows_trans G1 G2)|].
    intros n1 r n2 E Hr. destruct G1 as (G1 & _).
    assert (Cases : (exists n1', n1 = (f ++ b) ++ n1' /\ new = n1' ++ r :: n2) \/ (f ++ b = n1 ++ [r] /\ b <> [] /\ n2 = new)).
    { clear - E B1 F1 Hr. revert n1 E. assert (X : forall l n1, l ++ new = n1 ++ r :: n2 -> (exists n1', n1 = l ++ n1' /\ new = n1' ++ r :: n2) \/ exists q, l = n1 ++ r :: q /\ n2 = q ++ new).
      { induction l as [|a l IHl]; intros n1 E; [left; exists n1; split; [reflexivity|exact E]|].
        destruct n1 as [|c n1]; cbn [app] in E; injection E as -> E.
        - right. exists l. split; [reflexivity|symmetry; exact E].
        - apply IHl in E. destruct E as [(n1' & -> & E)|(q & -> & E)]; [left; exists n1'; auto|right; exists q; auto]. }
      intros n1 E. apply X in E. destruct E as [E|(q & E & E2)]; [left; exact E|right].
      assert (Hin : forall a, In a f -> a <> r) by (intros a Ha ->; rewrite Forall_forall in F1; apply Hr, F1, Ha).
      destruct B1 as [->|(rb & -> & _)].
      - exfalso. apply (Hin r); [|reflexivity]. rewrite app_nil_r in E. rewrite E. apply in_or_app. right. now left.
      - destruct q as [|c q] using rev_ind.
        + split; [exact E|]. split; [discriminate|exact E2].
        + exfalso. clear IHq. replace (n1 ++ r :: q ++ [c]) with ((n1 ++ r :: q) ++ [c]) in E by (rewrite <- app_assoc; reflexivity).
          apply app_inj_tail in E. destruct E as [E _]. apply (Hin r); [|reflexivity]. rewrite E. apply in_or_app. right. now left. }
    destruct Cases as [(n1' & -> & E')|(E' & Nb & ->)].
    + destruct (Br _ _ _ E' Hr) as (z2 & o2 & t2 & pfx & -> & Hp & B2 & T2 & R2). exists z2, o2, t2, (o :: pfx).
      split; [reflexivity|]. split; [exact Hp|]. split; [exact B2|]. split; [exact T2|]. rewrite R2, G1, <- !app_assoc. reflexivity.
    + destruct B1 as [->|(rb & -> & B1 & T1)]; [congruence|]. apply app_inj_tail in E'. destruct E' as [<- <-].
      exists z1, o, t, []. split; [reflexivity|]. split; [exact H0|]. split; [exact B1|]. split; [exact T1|]. exact G1.
Qed.

(** ** C117: adding observations *)
Lemma pass_app : forall y rest z z' r', pass K P z rest = Ok (z', r') -> pass K P z (rest ++ y) = pass K P z' (r' ++ y).
Proof.
  intros y. induction rest as [|o t IH]; intros z z' r' H.
  - cbn [pass] in H. injection H as <- <-. reflexivity.
  - cbn [pass] in H. destruct (p_conse P <=? zlen (o :: t)) eqn:E; [|injection H as <- <-; reflexivity].
    apply bind_ok in H. destruct H as (z1 & H1 & H). rewrite <- (IH _ _ _ H).
    cbn [app pass]. replace (p_conse P <=? zlen (o :: t ++ y)) with true.
    2:{ symmetry. change (o :: t ++ y) with ((o :: t) ++ y). rewrite zlen_app. pose proof (zlen_nonneg y). lia. }
    assert (Ea : advance K P z o (t ++ y) = Ok z1).
    { rewrite <- H1. unfold advance. replace (firstn conse (o :: t ++ y)) with (firstn conse (o :: t)); [reflexivity|].
      change (o :: t ++ y) with ((o :: t) ++ y). rewrite firstn_app. unfold zlen in E. replace (conse - length (o :: t))%nat with 0%nat by lia.
      cbn [firstn]. symmetry. apply app_nil_r. }
    rewrite Ea. reflexivity.
Qed.
(** The records at the end of the series (cold.c 4431-4725, as in [cold_pass]) *)
Definition closing (z : zst) (rest : list obs) : out (list rec) :=
  match z_cur z with Some r => Ok (z_recs z ++ [last_record K P z r rest]) | None => left_over K z rest end.
Lemma last_prob : forall z r rest, length (z_win z) = conse -> change_prob (last_record K P z r rest) < 100.
Proof.
  intros z r rest L. unfold last_record. set (s := if (length (suspects K P (z_win z)) =? length (z_win z))%nat then [] else suspects K P (z_win z)).
  assert (Ls : (length s < conse)%nat).
  { unfold s. destruct (suspects_suffix K P (z_win z)) as [_ A]. destruct (length (suspects K P (z_win z)) =? length (z_win z))%nat eqn:E; [cbn [length]; lia|]. apply Nat.eqb_neq in E. lia. }
  assert (Hp : zlen s * 100 / p_conse P < 100) by (apply Z.div_lt_upper_bound; unfold zlen; lia).
  destruct s as [|[o d] s1]; exact Hp.
Qed.
Lemma closing_adds : forall z rest rs, (z_cur z <> None -> length (z_win z) = conse) -> closing z rest = Ok rs ->
  exists tail, rs = z_recs z ++ tail /\ Forall (fun r => change_prob r < 100) tail.
Proof.
  intros z rest rs Hw H. unfold closing in H. destruct (z_cur z) as [r|].
  - injection H as <-. eexists. split; [reflexivity|]. constructor; [|constructor]. apply last_prob, Hw. discriminate.
  - unfold left_over in H. apply bind_ok in H. destruct H as (w & _ & H). destruct (6 <=? zlen w).
    + apply bind_ok in H. destruct H as (m & _ & H). injection H as <-. eexists. split; [reflexivity|]. constructor; [cbn; lia|constructor].
    + injection H as <-. exists []. split; [symmetry; apply app_nil_r|constructor].
Qed.
Lemma ends : forall fuel x cm R, asc x -> fuel_ok P x fuel -> stand_procedure K P fuel x cm = Ok R ->
  exists z rest, pass K P (mkZ [] [] (firstn 12 x) None 0 [] [] cm []) (skipn 12 x) = Ok (z, rest) /\ closing z rest = Ok (res_recs R) /\ res_log R = z_log z /\
    (z_cur z <> None -> length (z_win z) = conse).
Proof.
  intros fuel x cm R Ax Hf H. rewrite (@C116_pass M D K P Hc Hcap fuel x cm Ax Hf) in H. unfold cold_pass in H.
  apply bind_ok in H. destruct H as ([z rest] & H1 & H). apply bind_ok in H. destruct H as (rs & H2 & H). injection H as <-. cbn [res_recs res_log].
  exists z, rest. split; [exact H1|]. split; [exact H2|]. split; [reflexivity|]. intros Hcur.
  destruct (Z_lt_ge_dec (zlen x) 12) as [H12|H12].
  - exfalso. rewrite skipn_all2 in H1 by (unfold zlen in H12; lia). cbn [pass] in H1. injection H1 as <- <-. apply Hcur. reflexivity.
  - assert (Rl : Rel P (mkZ [] [] (firstn 12 x) None 0 [] [] cm []) (init_st M D x cm) (skipn 12 x)).
    { split; [|left; split; [reflexivity|]; split; [reflexivity|]; split; [reflexivity|]; reflexivity].
      constructor; try reflexivity; cbn [init_st s_live s_i z_old z_pre z_seg app].
      - symmetry. apply firstn_skipn.
      - rewrite !zlen_nil. unfold zlen. rewrite firstn_length. unfold zlen in H12. lia.
      - exact Ax.
      - destruct x; [unfold zlen in H12; cbn in H12; lia|discriminate]. }
    assert (Hr : zlen (skipn 12 x) = zlen x - 12) by (unfold zlen in *; rewrite skipn_length; lia).
    unfold fuel_ok in Hf. pose proof (@pass_code M D K P Hc Hcap (skipn 12 x) _ _ fuel Rl ltac:(lia)) as PC. rewrite H1 in PC.
    destruct (loop K P fuel (init_st M D x cm)) as [s| | |]; cbn [rel] in PC; try contradiction.
    destruct PC as [[_ [(N & _)|(r & _ & [W _] & _)]] _]; cbn [fst] in *; [congruence|exact W].
Qed.

(** Records closed by a break, and every decision taken, are the same when the
    series goes on. *)
Theorem C117_extend : forall f f' x y cm R R', asc (x ++ y) -> fuel_ok P x f -> fuel_ok P (x ++ y) f' ->
  stand_procedure K P f x cm = Ok R -> stand_procedure K P f' (x ++ y) cm = Ok R' ->
  exists more l, res_recs R' = filter (fun r => change_prob r =? 100) (res_recs R) ++ more /\ res_log R' = l ++ res_log R.
Proof.
  intros f f' x y cm R R' A Hf Hf' H H'.
  assert (Ax : asc x) by (revert A; apply asc_sub; rewrite <- (app_nil_r x) at 1; apply subseq_app; [apply subseq_refl|constructor]).
  destruct (ends _ Ax Hf H) as (z & rest & Hp & Hcl & Hlog & Hw). destruct (ends _ A Hf' H') as (z' & rest' & Hp' & Hcl' & Hlog' & Hw').
  destruct (closing_adds _ _ Hw Hcl) as (tail & Et & Pt). destruct (closing_adds _ _ Hw' Hcl') as (tail' & Et' & _).
  destruct (pass_grows _ _ Hp) as (new & (G1 & _ & G3) & _). cbn [z_recs app] in G1.
  assert (Fl : filter (fun r => change_prob r =? 100) (res_recs R) = z_recs z).
  { rewrite Et, filter_app. replace (filter (fun r => change_prob r =? 100) tail) with (@nil rec).
    - rewrite app_nil_r, G1. clear - G3. induction G3 as [|a l Ha _ IH]; [reflexivity|]. cbn [filter]. rewrite Ha, IH. reflexivity.
    - clear - Pt. induction Pt as [|a l Ha _ IH]; [reflexivity|]. cbn [filter]. replace (change_prob a =? 100) with false by lia. exact IH. }
  rewrite Fl, Et', Hlog, Hlog'.
  assert (G : exists n l, z_recs z' = z_recs z ++ n /\ z_log z' = l ++ z_log z).
  { destruct (Z_lt_ge_dec (zlen x) 12) as [H12|H12].
    - rewrite skipn_all2 in Hp by (unfold zlen in H12; lia). cbn [pass] in Hp. injection Hp as <- <-. cbn [z_recs z_log].
      exists (z_recs z'), (z_log z'). split; [reflexivity|symmetry; apply app_nil_r].
    - rewrite firstn_app, skipn_app in Hp'. replace (12 - length x)%nat with 0%nat in Hp' by (unfold zlen in H12; lia).
      change (firstn 0 y) with (@nil obs) in Hp'. change (skipn 0 y) with y in Hp'. rewrite app_nil_r in Hp'. rewrite (pass_app y _ _ Hp) in Hp'.
      destruct (pass_grows _ _ Hp') as (n & (E1 & (l & E2) & _) & _). exists n, l. auto. }
  destruct G as (n & l & -> & ->). exists (n ++ tail'), l. split; [rewrite app_assoc; reflexivity|reflexivity].
Qed.

(** ** C118: what happened before a break *)
Definition Alike (b1 b2 : list rec) (z1 z2 : zst) (n : list rec) : Prop :=
  z_pre z1 = z_pre z2 /\ z_seg z1 = z_seg z2 /\ z_cur z1 = z_cur z2 /\ z_skip z1 = z_skip z2 /\ z_win z1 = z_win z2 /\
  z_recs z1 = b1 ++ n /\ z_recs z2 = b2 ++ n.
Definition both {A B} (R : A -> B -> Prop) (a : out A) (b : out B) : Prop := forall x y, a = Ok x -> b = Ok y -> R x y.
Lemma both_bind : forall A B A' B' (R : A -> B -> Prop) (Q : A' -> B' -> Prop) a b (f : A -> out A') (g : B -> out B'),
  both R a b -> (forall x y, R x y -> both Q (f x) (g y)) -> both Q (bind a f) (bind b g).
Proof.
  intros A B A' B' R Q a b f g H F x y Hx Hy. apply bind_ok in Hx. destruct Hx as (u & Hu & Hx). apply bind_ok in Hy. destruct Hy as (v & Hv & Hy).
  exact (F u v (H u v Hu Hv) x y Hx Hy).
Qed.
Lemma both_eq : forall A (a : out A), both eq a a.
Proof. intros A a x y Hx Hy. congruence. Qed.
Lemma both_any : forall A B (a : out A) (b : out B), both (fun _ _ => True) a b.
Proof. intros A B a b x y _ _. exact I. Qed.
Lemma both_ok : forall A B (R : A -> B -> Prop) x y, R x y -> both R (Ok x) (Ok y).
Proof. intros A B R x y H u v Hu Hv. injection Hu as <-. injection Hv as <-. exact H. Qed.

Section Forget.
Variables b1 b2 : list rec.
Hypothesis N1 : b1 <> [].
Hypothesis N2 : b2 <> [].
Notation Same := (Alike b1 b2).
Ltac red_z := cbn [z_old z_pre z_seg z_cur z_skip z_win z_recs z_cm z_log at_obs join fst snd] in *.

Ltac same := unfold Alike; red_z; repeat split; congruence.
Lemma look_same : forall m rp seg lw c1 g1 c2 g2, both (fun a b => fst (fst (fst (fst a))) = fst (fst (fst (fst b))) /\ snd (fst (fst (fst a))) = snd (fst (fst (fst b))) /\ snd (fst (fst a)) = snd (fst (fst b)))
  (look K P m rp seg lw c1 g1) (look K P m rp seg lw c2 g2).
Proof.
  intros m. induction rp as [|o rp IH]; intros seg lw c1 g1 c2 g2; cbn [look].
  - apply both_ok. red_z. auto.
  - eapply both_bind; [apply both_any|]. intros [u1 v1] [u2 v2] _. destruct (change K P _).
    + apply both_ok. red_z. auto.
    + apply IH.
Qed.
Lemma watch_same : forall z1 z2 n a, Same z1 z2 n -> both (fun x y => Same x y n) (watch K P z1 a) (watch K P z2 a).
Proof.
  intros z1 z2 n a (E1 & E2 & E3 & E4 & E5 & E6 & E7). unfold watch. rewrite E2, E3, E4, E5. destruct (z_cur z2) as [r|].
  - destruct (zlen (z_seg z2) <=? 24).
    + eapply both_bind; [apply both_eq|]. intros m ? <-. apply both_ok. same.
    + eapply both_bind; [apply both_eq|]. intros [r1 sk] ? <-. apply both_ok. same.
  - eapply both_bind; [apply both_eq|]. intros m ? <-. apply both_ok. same.
Qed.
Lemma decide_same : forall z1 z2 n o, Same z1 z2 n -> both (fun x y => exists n', Same x y n') (decide K P z1 o) (decide K P z2 o).
Proof.
  intros z1 z2 n o (E1 & E2 & E3 & E4 & E5 & E6 & E7). unfold decide. rewrite E2, E3, E4, E5.
  eapply both_bind; [apply both_any|]. intros [u1 v1] [u2 v2] _. destruct (z_cur z2) as [r|]; [|intros x y Hx; discriminate].
  destruct (change K P _).
  - intros x y Hx Hy. apply bind_ok in Hx. destruct Hx as (s1 & C1 & Hx). injection Hx as <-. apply bind_ok in Hy. destruct Hy as (s2 & C2 & Hy). injection Hy as <-.
    apply close_add in C1. apply close_add in C2. rewrite E6, <- app_assoc in C1. rewrite E7, <- app_assoc in C2. eexists. unfold Alike; red_z. repeat split; eassumption.
  - apply both_ok. exists n. same.
Qed.
Lemma advance_same : forall z1 z2 n o t, Same z1 z2 n -> both (fun x y => exists n', Same x y n') (advance K P z1 o t) (advance K P z2 o t).
Proof.
  intros z1 z2 n o t S. pose proof S as (E1 & E2 & E3 & E4 & E5 & E6 & E7). unfold advance. rewrite E2, E3.
  destruct (long (z_seg z2)).
  2:{ apply both_ok. exists n. same. }
  destruct (z_cur z2) eqn:E8.
  - eapply both_bind; [apply watch_same; exact S|]. intros x y Sx. eapply decide_same. exact Sx.
  - apply both_bind with (R := fun a b => match a, b with inl x, inl y => Same x y n | inr x, inr y => Same x y n | _, _ => False end).
    + unfold try_start. rewrite E1, E2, E6, E7. destruct (gappy P (z_seg z2)).
      { destruct (b1 ++ n) as [|q1 l1] eqn:G1; [apply app_eq_nil in G1; tauto|]. destruct (b2 ++ n) as [|q2 l2] eqn:G2; [apply app_eq_nil in G2; tauto|].
        apply both_ok. same. }
      eapply both_bind; [apply both_eq|]. intros flags ? <-. destruct (negb (long (kept flags (z_seg z2)))); [apply both_ok; exact S|].
      eapply both_bind; [apply both_eq|]. intros m ? <-. destruct (flt _ _); [apply both_ok; same|].
      eapply both_bind; [apply look_same|]. intros [[[[p1 s1] l1] c1] g1] [[[[p2 s2] l2] c2] g2] (Q1 & Q2 & Q3). red_z. subst p2 s2 l2.
      destruct (b1 ++ n) as [|q1 k1] eqn:G1; [apply app_eq_nil in G1; tauto|]. destruct (b2 ++ n) as [|q2 k2] eqn:G2; [apply app_eq_nil in G2; tauto|].
      cbn [bind]. apply both_ok. same.
    + intros [x|x] [y|y] Q; try contradiction.
      * apply both_ok. exists n. destruct Q as (Q1 & Q2 & Q3 & Q4 & Q5 & Q6 & Q7). same.
      * eapply both_bind; [apply watch_same; exact Q|]. intros x' y' Sx. eapply decide_same. exact Sx.
Qed.
Lemma pass_same : forall rest z1 z2 n, Same z1 z2 n -> both (fun x y => snd x = snd y /\ exists n', Same (fst x) (fst y) n') (pass K P z1 rest) (pass K P z2 rest).
Proof.
  induction rest as [|o t IH]; intros z1 z2 n S; cbn [pass].
  - apply both_ok. red_z. split; [reflexivity|]. exists n. exact S.
  - destruct (p_conse P <=? zlen (o :: t)).
    + eapply both_bind; [eapply advance_same; exact S|]. intros x y (n' & S'). eapply IH. exact S'.
    + apply both_ok. red_z. split; [reflexivity|]. exists n. exact S.
Qed.
Lemma closing_same : forall z1 z2 n rest, (forall d, t_break (last b1 d) = t_break (last b2 d)) -> Same z1 z2 n ->
  both (fun x y => exists n', x = b1 ++ n ++ n' /\ y = b2 ++ n ++ n') (closing z1 rest) (closing z2 rest).
Proof.
  intros z1 z2 n rest Hb S. pose proof S as (E1 & E2 & E3 & E4 & E5 & E6 & E7). unfold closing. rewrite E3, E6, E7. destruct (z_cur z2) as [r|].
  - apply both_ok. assert (E : last_record K P z1 r rest = last_record K P z2 r rest) by (unfold last_record; rewrite E2, E5; reflexivity).
    rewrite E. eexists. split; symmetry; apply app_assoc.
  - unfold left_over. rewrite E1, E2, E6, E7.
    assert (X : forall (A : Type) (b : list rec) (e f : A), b <> [] -> match b ++ n with [] => e | _ :: _ => f end = f) by (intros A [|q b] e f Hbb; [congruence|reflexivity]).
    rewrite (X _ b1) by exact N1. rewrite (X _ b2) by exact N2.
    assert (T : forall e1 e2, match rev (b1 ++ n) with [] => e1 | r :: _ => t_break r end = match rev (b2 ++ n) with [] => e2 | r :: _ => t_break r end).
    { intros e1 e2. destruct n as [|q n0] using rev_ind; [rewrite !app_nil_r|rewrite !app_assoc, !rev_app_distr; reflexivity].
      destruct b1 as [|q1 c1] using rev_ind; [congruence|]. destruct b2 as [|q2 c2] using rev_ind; [congruence|].
      rewrite !rev_app_distr. cbn [rev app]. specialize (Hb q1). rewrite !last_last in Hb. exact Hb. }
    eapply both_bind; [apply both_eq|]. intros w ? <-. destruct (6 <=? zlen w).
    + eapply both_bind; [apply both_eq|]. intros m ? <-. apply both_ok. rewrite (T (o_date (hd dflt_obs w)) (o_date (hd dflt_obs w))). eexists. split; symmetry; apply app_assoc.
    + apply both_ok. exists []. rewrite app_nil_r. split; reflexivity.
Qed.
End Forget.

(** Two series with a break on the same day and the same observations from
    then on have the same records after it. *)
Theorem C118_forgets : forall f1 f2 x1 x2 cm1 cm2 R1 R2 a1 a2 r1 r2 n1 n2, asc x1 -> asc x2 -> fuel_ok P x1 f1 -> fuel_ok P x2 f2 ->
  stand_procedure K P f1 x1 cm1 = Ok R1 -> stand_procedure K P f2 x2 cm2 = Ok R2 ->
  res_recs R1 = a1 ++ r1 :: n1 -> change_prob r1 = 100 -> category r1 <> 14 ->
  res_recs R2 = a2 ++ r2 :: n2 -> change_prob r2 = 100 -> category r2 <> 14 ->
  t_break r1 = t_break r2 ->
  filter (fun o => t_break r1 <=? o_date o) x1 = filter (fun o => t_break r1 <=? o_date o) x2 ->
  n1 = n2.
Proof.
  assert (Half : forall f x cm R a r n, asc x -> fuel_ok P x f -> stand_procedure K P f x cm = Ok R -> res_recs R = a ++ r :: n -> change_prob r = 100 -> category r <> 14 ->
    exists z z' o t rest, pass K P z t = Ok (z', rest) /\ closing z' rest = Ok (res_recs R) /\ Broken z o /\ z_recs z = a ++ [r] /\
      filter (fun o => t_break r <=? o_date o) x = o :: t).
  { intros f x cm R a r n A Hf H E Hp Hcat. destruct (ends _ A Hf H) as (z' & rest & Hps & Hcl & _ & Hw).
    destruct (closing_adds _ _ Hw Hcl) as (tail & Et & Pt). destruct (pass_grows _ _ Hps) as (new & (G1 & _) & Br). cbn [z_recs app] in G1, Br.
    assert (Sp : exists n2, new = a ++ r :: n2).
    { rewrite Et, G1 in E. clear - E Pt Hp. revert a E. induction new as [|q new IH]; intros a E.
      - exfalso. cbn [app] in E. rewrite Forall_forall in Pt. specialize (Pt r). rewrite E in Pt. specialize (Pt ltac:(apply in_or_app; right; now left)). lia.
      - destruct a as [|c a]; cbn [app] in E; injection E as -> E; [exists new; reflexivity|]. destruct (IH a E) as (n2 & ->). exists n2. reflexivity. }
    destruct Sp as (n2 & Sp). destruct (Br _ _ _ Sp Hcat) as (z & o & t & pfx & Es & Hp2 & B & T & Rz).
    exists z, z', o, t, rest. split; [exact Hp2|]. split; [exact Hcl|]. split; [exact B|]. split; [exact Rz|].
    assert (Ex : x = (firstn 12 x ++ pfx) ++ o :: t) by (rewrite <- app_assoc, <- Es; symmetry; apply firstn_skipn).
    rewrite Ex in A. destruct (asc_split _ _ _ A) as (L1 & L2 & _). rewrite Ex, filter_app, T.
    replace (filter (fun o0 => o_date o <=? o_date o0) (firstn 12 x ++ pfx)) with (@nil obs).
    - cbn [app]. clear - L2. revert L2. generalize (o :: t). intros l L. induction L as [|q l Hq _ IH]; [reflexivity|]. cbn [filter].
      replace (o_date o <=? o_date q) with true by lia. rewrite IH. reflexivity.
    - clear - L1. induction L1 as [|q l Hq _ IH]; [reflexivity|]. cbn [filter]. replace (o_date o <=? o_date q) with false by lia. exact IH. }
  intros f1 f2 x1 x2 cm1 cm2 R1 R2 a1 a2 r1 r2 n1 n2 A1 A2 Hf1 Hf2 H1 H2 E1 P1 C1 E2 P2 C2 T F.
  destruct (Half _ _ _ _ _ _ _ A1 Hf1 H1 E1 P1 C1) as (z1 & z1' & o1 & t1 & e1 & Q1 & K1 & B1 & Z1 & F1).
  destruct (Half _ _ _ _ _ _ _ A2 Hf2 H2 E2 P2 C2) as (z2 & z2' & o2 & t2 & e2 & Q2 & K2 & B2 & Z2 & F2).
  rewrite F1 in F. rewrite T, F2 in F. injection F as <- <-.
  assert (M1 : a1 ++ [r1] <> []) by (destruct a1; discriminate). assert (M2 : a2 ++ [r2] <> []) by (destruct a2; discriminate).
  assert (S0 : Alike (a1 ++ [r1]) (a2 ++ [r2]) z1 z2 []).
  { destruct B1 as (U1 & U2 & U3 & U4 & U5), B2 as (V1 & V2 & V3 & V4 & V5). repeat split; try congruence; rewrite app_nil_r; assumption. }
  destruct (pass_same M1 M2 t1 S0 Q1 Q2) as (Ee & n' & S'). cbn [fst snd] in *. subst e2.
  destruct (closing_same M1 M2 e1 ltac:(intros d; rewrite !last_last; exact T) S' K1 K2) as (n'' & W1 & W2).
  rewrite E1, <- app_assoc in W1. rewrite E2, <- app_assoc in W2. cbn [app] in W1, W2.
  apply app_inv_head in W1. apply app_inv_head in W2. congruence.
Qed.
End Past.

(** ** Examples *)
(** [two_levels] and ten more observations on a third level: the first
    record, closed by a break, is kept, the open one is replaced. *)
Example extend_run : asc (two_levels ++ lvl 10 20 730960 16) /\
  summary (stand_procedure toy (toyP None) 60 two_levels []) =
    Ok [(730000, 730464, 730480, (100, 8, 30), (30%nat, 6%nat)); (730480, 730944, 0, (0, 8, 24), (24%nat, 0%nat))] /\
  summary (stand_procedure toy (toyP None) 70 (two_levels ++ lvl 10 20 730960 16) []) =
    Ok [(730000, 730464, 730480, (100, 8, 30), (30%nat, 6%nat)); (730480, 730944, 730960, (100, 8, 30), (30%nat, 6%nat)); (730960, 731104, 0, (0, 24, 10), (10%nat, 0%nat))].
Proof. split; [apply ascb_ok; vm_compute; reflexivity|]. split; vm_compute; reflexivity. Qed.

(** Another past of [two_levels]: a higher level and denser observations
    before the break on day 730480. *)
Definition other_past : list obs := lvl 40 50 730080 10 ++ lvl 30 10 730480 16.
Example forget_run : asc other_past /\
  filter (fun o => 730480 <=? o_date o) other_past = filter (fun o => 730480 <=? o_date o) two_levels /\
  summary (stand_procedure toy (toyP None) 70 other_past []) =
    Ok [(730080, 730470, 730480, (100, 8, 38), (38%nat, 6%nat)); (730480, 730944, 0, (0, 8, 24), (24%nat, 0%nat))].
Proof. split; [apply ascb_ok; vm_compute; reflexivity|]. split; vm_compute; reflexivity. Qed.

Print Assumptions C117_extend.
Print Assumptions C118_forgets.
