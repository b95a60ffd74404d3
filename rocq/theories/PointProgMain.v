(** Programs of point operations: simulation by the group of the curve (C61). *)
From Verif Require Import Prelude FieldZ Circuit Context Spec Logic ModArith Prims BaseChip BaseProofs
  RangeInfo RangeChip IntegerChip SpecInt InfoProofs IntArith RangeProofs IntInv IntSound IntComplete IntBridge
  IntRes EccChip SpecEcc Curve EccArith EccProofs EccHonest EccBridge EccEncode IntProgProofs
  Moduli Fields NativeMain IntMain EccMain SpecPointProg PointProg.

Lemma psteps_snoc w zs l op ps ps1 ps' : psteps w zs l ps ps1 -> pstep w zs op ps1 ps' -> psteps w zs (l ++ [op]) ps ps'.
Proof. induction 1; intros K; cbn; [econstructor; [exact K|constructor]|econstructor; eauto]. Qed.

Section Prog.
Context {NM : NMod}.
Variable w : Z.
Variable I : rinfo.
Hypothesis IO : info_ok w I.
Hypothesis n_prime : prime nmod.
Hypothesis w_prime : prime w.
Variable cv_b : Z.
Hypothesis b_range : 0 <= cv_b < w.
Variable ord : Z.
Local Notation OC := (on_curve w cv_b).

Lemma appends_with_curvature k a : appends (with_curvature I k a).
Proof. destruct k; cbn [with_curvature]; app. Qed.
Hint Resolve appends_with_curvature : app.
Lemma appends_run_pop bs rs op : appends (run_pop I ord bs rs op).
Proof. destruct op as [k []]; unfold run_pop; cbn [fst snd]; app. Qed.
Lemma OC_neg p : OC p -> OC (pt_neg w p).
Proof. apply pt_neg_on. exact w_prime. Qed.

Section Sound.
Variable T : env.
Variable A : cell -> Z.
Hypothesis A_range : forall x, 0 <= A x < nmod.
Definition sp (a : apoint) (p : pt) : Prop := (exists x y z, gp w I A a x y z /\ dec w x y z = p) /\ OC p.
Ltac regk R := apply ST_nth_k; let a := fresh "a" in let N := fresh "N" in intros a N;
  let p := fresh "p" in let Np := fresh "Np" in let x := fresh "x" in let y := fresh "y" in let z := fresh "z" in
  let Ha := fresh "Ha" in let Ea := fresh "Ea" in let Ca := fresh "Ca" in
  destruct (Forall2_nth_r _ _ _ _ _ R N) as (p & Np & (x & y & z & Ha & Ea) & Ca).

Lemma with_curvature_R (k : bool) a x y z : gp w I A a x y z ->
  ST T A (with_curvature I k a) (fun r => exists x' y' l t, gpc w I A r x' y' z l t /\ (z = false -> tangent_ok w x' y' l t) /\ dec w x' y' z = dec w x y z).
Proof.
  intros H. unfold with_curvature. destruct k.
  - eapply ST_weaken; [eapply (ecc_reduce_with_curvature_R w I IO); eauto|]. intros r (x' & y' & l & t & H1 & H2 & H3 & _). exists x', y', l, t. auto.
  - eapply ST_weaken; [eapply (to_pointc_R w I IO); eauto|]. intros r (l & t & H1 & H2). exists x, y, l, t. auto.
Qed.

Lemma run_pop_ST bs zs rs ps op : pop_ok w cv_b (snd op) -> Forall2 (br A) bs zs -> Forall2 sp rs ps ->
  ST T A (run_pop I ord bs rs op) (fun rs' => exists ps', pstep w zs (snd op) ps ps' /\ Forall2 sp rs' ps').
Proof.
  intros HO HB HR. destruct op as [k op]; cbn [fst snd] in *. destruct op as [p| |i j|i|i|i|kb i j|i j]; unfold run_pop; cbn [fst snd]; cbn [pop_ok] in HO.
  - eapply ST_bind; [eapply (assign_constant_point_R w I IO); eauto|app|app|].
    { intros x y ->. cbn in HO. tauto. }
    intros r Hr. apply ST_ret. eexists. split; [reflexivity|]. apply Forall2_snoc; [exact HR|]. split; [|exact HO].
    do 3 eexists. split; [exact Hr|]. eapply dec_of; eauto.
  - eapply ST_bind; [eapply (assign_identity_R w I IO); eauto|app|app|]. intros r ((Hr & _) & _). apply ST_ret.
    eexists. split; [reflexivity|]. apply Forall2_snoc; [exact HR|]. split; [|exact Logic.I]. do 3 eexists. split; [exact Hr|reflexivity].
  - regk HR. regk HR. eapply ST_bind; [apply with_curvature_R; exact Ha|app|app|]. intros ac (x' & y' & l & t & H1 & H2 & H3).
    eapply ST_bind; [eapply (ecc_add_R w I IO) with (cv_b := cv_b); eauto; congruence|app|app|]. intros r (x3 & y3 & z3 & Hr & AD). apply ST_ret.
    rewrite H3, Ea, Ea0 in AD. eexists. split; [exists p, p0; eexists; split; [exact Np|split; [exact Np0|split; [exact AD|reflexivity]]]|].
    apply Forall2_snoc; [exact HR|]. split; [eauto|]. eapply pt_add_on; [exact w_prime|exact Ca|exact Ca0|exact AD].
  - regk HR. eapply ST_bind; [apply with_curvature_R; exact Ha|app|app|]. intros ac (x' & y' & l & t & H1 & H2 & H3).
    eapply ST_bind; [eapply (ecc_double_R w I IO); eauto|app|app|]. intros r (x3 & y3 & z3 & Hr & AD). apply ST_ret.
    rewrite H3, Ea in AD. eexists. split; [exists p; eexists; split; [exact Np|split; [exact AD|reflexivity]]|].
    apply Forall2_snoc; [exact HR|]. split; [eauto|]. eapply pt_add_on; [exact w_prime|exact Ca|exact Ca|exact AD].
  - regk HR. eapply ST_bind; [eapply (ecc_neg_R w I IO); eauto|app|app|]. intros r Hr. cbv beta in Hr. apply ST_ret.
    eexists. split; [exists p; split; [exact Np|reflexivity]|]. apply Forall2_snoc; [exact HR|]. split; [|apply OC_neg; exact Ca].
    do 3 eexists. split; [exact Hr|]. rewrite neg_dec, Ea. reflexivity.
  - regk HR. eapply ST_bind; [eapply (ecc_reduce_R w I IO); eauto|app|app|]. intros r (Hr & _). apply ST_ret.
    eexists. split; [exists p; split; [exact Np|reflexivity]|]. apply Forall2_snoc; [exact HR|]. split; [|exact Ca].
    do 3 eexists. split; [exact Hr|]. rewrite dec_reduced. exact Ea.
  - apply ST_nth_k. intros c Nc. destruct (Forall2_nth_r _ _ _ _ _ HB Nc) as (zb & Nz & Hz). regk HR. regk HR.
    eapply ST_bind; [eapply (bisec_point_R w I IO); eauto|app|app|]. intros r (Hr & _). apply ST_ret.
    eexists. split; [exists zb, p, p0; split; [exact Nz|split; [exact Np|split; [exact Np0|reflexivity]]]|]. apply Forall2_snoc; [exact HR|].
    split; [|destruct zb; assumption]. do 3 eexists. split; [exact Hr|]. destruct zb; assumption.
  - regk HR. regk HR. eapply ST_bind; [eapply (ecc_assert_equal_R w I IO); eauto|app|app|]. intros u E. cbv beta in E. apply ST_ret.
    exists ps. split; [|exact HR]. exists p. rewrite Ea, Ea0 in E. rewrite <- E in Np0. auto.
Qed.

Lemma run_pops_ST bs zs rs ps prog : Forall (fun op => pop_ok w cv_b (snd op)) prog -> Forall2 (br A) bs zs -> Forall2 sp rs ps ->
  ST T A (run_pops I ord bs rs prog) (fun rs' => exists ps', psteps w zs (map snd prog) ps ps' /\ Forall2 sp rs' ps').
Proof.
  intros HO HB HR. unfold run_pops.
  apply (ST_foldM T A (run_pop I ord bs) (fun pre rs' => exists ps', psteps w zs (map snd pre) ps ps' /\ Forall2 sp rs' ps')).
  - intros. apply appends_run_pop.
  - exists ps. split; [constructor|exact HR].
  - intros pre op r1 Hin (p1 & H1 & H2). rewrite Forall_forall in HO. eapply ST_weaken; [apply run_pop_ST; [apply HO; exact Hin|exact HB|exact H2]|].
    intros r2 (p2 & H3 & H4). exists p2. split; [rewrite map_app; eapply psteps_snoc; eauto|exact H4].
Qed.
End Sound.

Section Complete.
Hypothesis HD : ri_d_bits I mod 108 <> 0.
Hypothesis OD : negb (Z.odd ((- 1) mod ord)) = true.
Definition hpp (c : ctx) (a : apoint) (p : pt) : Prop := (exists x y z, hp w I c a x y z /\ dec w x y z = p) /\ OC p.
Lemma hpp_mono c d a p : extends c d -> hpp c a p -> hpp d a p.
Proof. intros E ((x & y & z & H & K) & C). split; [|exact C]. exists x, y, z. split; [eapply hp_mono; eauto|exact K]. Qed.
Lemma hpps_mono c d rs ps : extends c d -> Forall2 (hpp c) rs ps -> Forall2 (hpp d) rs ps.
Proof. intros E. apply Forall2_impl. intros a p. apply hpp_mono. exact E. Qed.
Ltac regc R N := let a := fresh "a" in let Na := fresh "Na" in let x := fresh "x" in let y := fresh "y" in let z := fresh "z" in
  let Ha := fresh "Ha" in let Ea := fresh "Ea" in let Ca := fresh "Ca" in
  destruct (Forall2_nth_l _ _ _ _ _ R N) as (a & Na & (x & y & z & Ha & Ea) & Ca); eapply CT_nth_k; [exact Na|].

Lemma with_curvature_C (k : bool) c a x y z : wf c -> hp w I c a x y z ->
  CT c (with_curvature I k a) (fun r c' => exists x' y' l t, hpc w I c' r x' y' z l t /\ (z = false -> tangent_ok w x' y' l t) /\ dec w x' y' z = dec w x y z).
Proof.
  intros W H. unfold with_curvature. destruct k.
  - eapply CT_weaken; [eapply (ecc_reduce_with_curvature_C w I IO); eauto|]. intros r c' _ _ (x' & y' & l & t & H1 & H2 & H3 & _). exists x', y', l, t. auto.
  - eapply CT_weaken; [eapply (to_pointc_C w I IO); eauto|]. intros r c' _ _ (l & t & H1 & H2). exists x, y, l, t. auto.
Qed.

Lemma run_pop_CT c bs zs rs ps op ps' : wf c -> pop_ok w cv_b (snd op) -> Forall2 (cb c) bs zs -> Forall2 (hpp c) rs ps -> pstep w zs (snd op) ps ps' ->
  CT c (run_pop I ord bs rs op) (fun rs' c' => Forall2 (hpp c') rs' ps').
Proof.
  intros W HO HB HR HS. destruct op as [k op]; cbn [fst snd] in *. destruct op as [p| |i j|i|i|i|kb i j|i j]; unfold run_pop; cbn [fst snd]; cbn [pop_ok] in HO; cbn [pstep] in HS; cbv zeta in HS.
  - subst ps'. eapply CT_bind; [eapply (assign_constant_point_C w I IO); eauto|]. intros r c1 W1 E1 Hr. cbv beta in Hr. apply CT_ret; [exact W1|].
    apply Forall2_snoc; [eapply hpps_mono; eauto|]. split; [|exact HO]. do 3 eexists. split; [exact Hr|]. eapply dec_of; eauto.
  - subst ps'. eapply CT_bind; [eapply (assign_identity_C w I IO); eauto|]. intros r c1 W1 E1 ((Hr & _) & _). apply CT_ret; [exact W1|].
    apply Forall2_snoc; [eapply hpps_mono; eauto|]. split; [|exact Logic.I]. do 3 eexists. split; [exact Hr|reflexivity].
  - destruct HS as (p & q & s & N1 & N2 & AD0 & ->). regc HR N1. regc HR N2.
    eapply CT_bind; [apply with_curvature_C; [exact W|exact Ha]|]. intros ac c1 W1 E1 (x' & y' & l & t & H1 & H2 & H3).
    apply (hp_mono _ _ _ _ _ _ _ _ E1) in Ha0. assert (Ca1 : OC (dec w x' y' z)) by congruence. assert (Ca2 : OC (dec w x0 y0 z0)) by congruence.
    eapply CT_bind; [eapply (ecc_add_C w I IO) with (cv_b := cv_b); eauto|]. intros r c2 W2 E2 (x3 & y3 & z3 & Hr & AD). apply CT_ret; [exact W2|].
    rewrite H3, Ea, Ea0 in AD. assert (ES : dec w x3 y3 z3 = s) by (eapply pt_add_fun; [exact w_prime| | |exact AD|exact AD0]; eassumption).
    apply Forall2_snoc; [eapply hpps_mono; [|exact HR]; eapply extends_trans; eauto|]. split; [eauto|]. eapply pt_add_on; [exact w_prime|exact Ca|exact Ca0|exact AD0].
  - destruct HS as (p & s & N1 & AD0 & ->). regc HR N1.
    eapply CT_bind; [apply with_curvature_C; [exact W|exact Ha]|]. intros ac c1 W1 E1 (x' & y' & l & t & H1 & H2 & H3).
    eapply CT_bind; [eapply (ecc_double_C w I IO); eauto|]. intros r c2 W2 E2 (x3 & y3 & z3 & Hr & AD). apply CT_ret; [exact W2|].
    rewrite H3, Ea in AD. assert (ES : dec w x3 y3 z3 = s) by (eapply pt_add_fun; [exact w_prime| | |exact AD|exact AD0]; eassumption).
    apply Forall2_snoc; [eapply hpps_mono; [|exact HR]; eapply extends_trans; eauto|]. split; [eauto|]. eapply pt_add_on; [exact w_prime|exact Ca|exact Ca|exact AD0].
  - destruct HS as (p & N1 & ->). regc HR N1. eapply CT_bind; [eapply (ecc_neg_C w I IO); eauto|]. intros r c1 W1 E1 Hr. cbv beta in Hr. apply CT_ret; [exact W1|].
    apply Forall2_snoc; [eapply hpps_mono; eauto|]. split; [|apply OC_neg; exact Ca]. do 3 eexists. split; [exact Hr|]. rewrite neg_dec, Ea. reflexivity.
  - destruct HS as (p & N1 & ->). regc HR N1. eapply CT_bind; [eapply (ecc_reduce_C w I IO); eauto|]. intros r c1 W1 E1 (Hr & _). apply CT_ret; [exact W1|].
    apply Forall2_snoc; [eapply hpps_mono; eauto|]. split; [|exact Ca]. do 3 eexists. split; [exact Hr|]. rewrite dec_reduced. exact Ea.
  - destruct HS as (zb & p & q & Nz & N1 & N2 & ->). destruct (Forall2_nth_l _ _ _ _ _ HB Nz) as (kc & Nk & Hk). eapply CT_nth_k; [exact Nk|].
    regc HR N1. regc HR N2. eapply CT_bind; [eapply (bisec_point_C w I IO); eauto|]. intros r c1 W1 E1 (Hr & _). apply CT_ret; [exact W1|].
    apply Forall2_snoc; [eapply hpps_mono; eauto|]. split; [|destruct zb; assumption]. do 3 eexists. split; [exact Hr|]. destruct zb; assumption.
  - destruct HS as (p & N1 & N2 & ->). regc HR N1. regc HR N2. eapply CT_bind; [eapply (ecc_assert_equal_C w I IO); eauto; congruence|].
    intros u c1 W1 E1 _. apply CT_ret; [exact W1|]. eapply hpps_mono; eauto.
Qed.

Lemma run_pops_CT prog : forall c bs zs rs ps ps', wf c -> Forall (fun op => pop_ok w cv_b (snd op)) prog -> Forall2 (cb c) bs zs -> Forall2 (hpp c) rs ps ->
  psteps w zs (map snd prog) ps ps' -> CT c (run_pops I ord bs rs prog) (fun rs' c' => Forall2 (hpp c') rs' ps').
Proof.
  induction prog as [|op l IH]; intros c bs zs rs ps ps' W HO HB HR HS; unfold run_pops; cbn [foldM map] in *; inversion HS; subst.
  - apply CT_ret; [exact W|exact HR].
  - inversion HO; subst. eapply CT_bind; [eapply run_pop_CT; eauto|]. intros r1 c1 W1 E1 R1. cbv beta in R1.
    eapply IH; eauto. eapply Forall2_impl; [|exact HB]. intros a z0. apply cb_mono. exact E1.
Qed.
End Complete.
End Prog.

Lemma C61_point_programs_sound_main :
  forall (NM : NMod) w I b ord, prime nmod -> prime w -> range_info_new w = Ok I -> 0 <= b < w ->
  forall prog, Forall (fun op => pop_ok w b (snd op)) prog ->
  forall bs rs, sound (run_pops I ord bs rs prog) (fun A rs' =>
    forall zs ps, Forall2 (fun k z => A⟦k⟧ = Z.b2z z) bs zs -> Forall2 (point_is w (at_ A)) rs ps -> Forall (on_curve w b) ps ->
    exists ps', psteps w zs (map snd prog) ps ps' /\ Forall2 (point_is w (at_ A)) rs' ps' /\ Forall (on_curve w b) ps').
Proof.
  intros NM w I b ord P PW H Hb prog HO bs rs. info H. tosound. apply ST_all; intros zs. apply ST_all; intros ps.
  apply ST_impl; intros HB. apply ST_impl; intros HR. apply ST_impl; intros HC.
  eapply ST_wk; [apply (run_pops_ST w I IO P PW b Hb ord T A HA bs zs rs ps prog HO HB)|].
  - clear -IO HR HC. induction HR; inversion HC; subst; constructor; auto. split; [apply (gp_of _ _ IO); assumption|assumption].
  - intros rs' (ps' & H1 & H2). exists ps'. split; [exact H1|]. clear -IO H2. induction H2 as [|a p l l' ((x & y & z & Ha & Ea) & C) _ [IH1 IH2]]; [auto|].
    split; constructor; auto. subst p. apply (gp_to _ _ IO). exact Ha.
Qed.

Lemma C61_point_programs_honest_main :
  forall (NM : NMod) w I b ord, prime nmod -> prime w -> range_info_new w = Ok I -> 0 <= b < w ->
    (w_bits w + 13) mod 108 <> 0 -> Z.Odd ord -> 1 < ord ->
  forall prog, Forall (fun op => pop_ok w b (snd op)) prog ->
  forall c bs rs zs ps ps', wf c -> Forall (valid c) bs -> Forall2 (fun k z => a_val k = Z.b2z z) bs zs ->
    Forall (fun a => point_ok w c a valid) rs -> Forall2 (point_is w a_val) rs ps -> Forall (on_curve w b) ps ->
    psteps w zs (map snd prog) ps ps' ->
    accepts c (run_pops I ord bs rs prog) (fun rs' c' => Forall (fun a => point_ok w c' a valid) rs' /\ Forall2 (point_is w a_val) rs' ps').
Proof.
  intros NM w I b ord P PW H Hb HD0 OD Hord prog HO c bs rs zs ps ps' W VB HB VR HR HC HS. info H. hd IO HD0.
  assert (OD' : negb (Z.odd ((- 1) mod ord)) = true).
  { rewrite (Z_mod_nz_opp_full 1) by (rewrite Z.mod_small by lia; lia). rewrite Z.mod_small by lia.
    destruct OD as [m ->]. replace (2 * m + 1 - 1) with (2 * m) by lia. rewrite Z.odd_mul. reflexivity. }
  apply CT_accepts. eapply CT_weaken; [apply (run_pops_CT w I IO P PW b ord HD OD' prog c bs zs rs ps ps' W HO)|].
  - clear -VB HB. induction HB; inversion VB; subst; constructor; auto. split; assumption.
  - clear -IO VR HR HC. induction HR; inversion HC; inversion VR; subst; constructor; auto. split; [apply (hp_of _ _ IO); assumption|assumption].
  - exact HS.
  - intros rs' c' _ _ H2. clear -IO H2. induction H2 as [|a p l l' ((x & y & z & Ha & Ea) & C) _ [IH1 IH2]]; [auto|].
    destruct (hp_to _ _ IO _ _ _ _ _ Ha) as [O V]. split; constructor; auto. subst p. exact V.
Qed.
