(** Two ecc contexts over one recorder on bn256, each of which multiplies twice with the
    select chip, and a satisfying assignment with honest bits in which the last result is
    wrong (C60). *)
From Verif Require Import Prelude FieldZ Circuit Context Spec Logic ModArith Prims BaseChip BaseProofs
  RangeInfo RangeChip IntegerChip SpecInt InfoProofs IntArith RangeProofs IntInv IntSound IntComplete IntBridge
  IntRes EccChip SpecEcc Curve EccArith EccProofs EccHonest EccBridge EccEncode EccMain SpecMsm CurveGroup PointSum ScalarChip ScalarProofs Msm MsmMain
  SpecSelect SpecCalls SelectProofs SelectMsm HonestLogic HonestSel HonestTop SpecShape Shape KeccakShape SpecSchedule BnOrder Moduli Fields IntMain HonestMain
  TotalLogic TotalMsm TotalSel TotalTop ExpSchedule TotalMain PropsEcc PropsSelect PropsTotal Forge ForgeDec ForgeMsm ForgeMain ForgeShare.

Section G.
Context {NM : NMod}.
Variables (w : Z) (I : rinfo) (b : Z).
Hypothesis P : prime nmod.
Hypothesis PW : prime w.
Hypothesis HI : range_info_new w = Ok I.
Hypothesis Hb : 0 < b < w.
Hypothesis HD : (w_bits w + 13) mod 108 <> 0.
Local Notation IO := (IOI w I HI).
Local Notation m := (Z.to_nat (Z.log2 nmod + 1)).

(** An honest call leaves the sum of the auxiliary point and its point in the table, as
    candidate 1 of group 0. *)
Lemma honest_call c xg yg xa ya xl yl g p s Q : good c -> Forall (on_curve w b) [Aff xg yg; Aff xa ya; Aff xl yl] ->
  point_ok w c p valid -> point_is w a_val p (Aff xg yg) -> valid c s -> g < 2 ^ 28 -> chord w (Aff xl yl) (Aff xg yg) Q ->
  msm_schedule w 5 m (Aff xg yg) (Aff xa ya) (Aff xl yl) [(Aff xg yg, a_val s)] ->
  exists r c' a, msm_native I b (Some (xg, yg)) (Some (xa, ya)) (Some (xl, yl)) (Some g) [p] [s] c = Ok ((r, Some (g + 2 ^ 20)), c')
    /\ extends c c' /\ good c' /\ hv w I b c' a Q /\ shape1 I a /\ hcached c' g 1 0 (nhs a).
Proof.
  intros GC F O1 O2 Vs Hg HQ HS. inversion F as [|? ? A1 F']; subst. inversion F' as [|? ? A2 F'']; subst. inversion F'' as [|? ? A3 _]; subst.
  assert (HD' : ri_d_bits I mod 108 <> 0) by (rewrite (hd_bits _ _ IO); exact HD). pose proof (good_wf _ GC) as W.
  assert (K : CT c (msm_native I b (Some (xg, yg)) (Some (xa, ya)) (Some (xl, yl)) (Some g) [p] [s])
      (fun r c' => vp w I b c' (fst r) /\ snd r = Some (g + MSM_PREFIX_OFFSET) /\ stored w I b c' g (Aff xl yl) (map (eff_pt (Aff xg yg)) [Aff xg yg]))).
  { unfold msm_native. eapply (msm_T w I IO P PW HD' b Hb av (decompose_scalar_native 1) bisec (assign_constant 0) nsv) with (m := m) (vs := [a_val s]) (prefix := Some g); auto.
    - intros c0 d s0 v E [V K]. split; [eapply valid_mono; eauto|exact K].
    - pose proof (Z.log2_nonneg nmod). lia.
    - apply (native_dec_T P).
    - apply (native_bis_T P).
    - apply (native_zero_T P).
    - apply (hpvs_of w I b HI c [p] [Aff xg yg]); (constructor; [assumption|constructor]).
    - constructor; [split; [exact Vs|reflexivity]|constructor].
    - discriminate.
    - intros q Hq. injection Hq as <-. split; [discriminate|exact Hg]. }
  destruct (CT_accepts _ _ _ K) as ([r q] & c' & R & E & (_ & Eq & St) & G'). cbn [fst snd] in Eq. subst q.
  destruct St as (css & Lc & HC). cbn [map eff_pt] in Lc, HC. change (group_size 5 (length [Aff xg yg])) with 1%nat in Lc, HC. change (chunks 1 [Aff xg yg]) with [[Aff xg yg]] in Lc, HC.
  cbn [with_starts] in HC. destruct css as [|cs [|? ?]]; try discriminate Lc. destruct (HC 0%nat cs eq_refl) as (p0 & ps & E0 & (K0 & K1) & K2 & K3 & K4).
  injection E0 as <- <-. destruct cs as [|a0 [|a cs]]; try discriminate K2. destruct (K3 1%nat a eq_refl) as (p1 & Ha & Hc). destruct (K4 1%nat a eq_refl) as (S1 & S2).
  assert (p1 = Q) as ->.
  { inversion Hc as [|? ? ? ? Hn|? ? ? ? ? Hn Ch]; subst. inversion Hn; subst. eapply (chord_fun w b PW); [| |exact Ch|exact HQ]; assumption. }
  change (Z.of_nat 0) with 0 in S2. rewrite Z.add_0_r in S2. change (Z.of_nat 1) with 1 in S2.
  exists r, c', a. split; [exact R|]. split; [exact E|]. split; [exact (G' GC)|]. auto.
Qed.

(** A dishonest call by 1: Q is in the table from another call with the same prefix. *)
Lemma shared_forged c p s g xg yg xr yr S Q G2 L0 L1 B C xd yd a ra rl r pf c2 :
  on_curve w b (Aff xg yg) -> on_curve w b (Aff xr yr) ->
  chord w (Aff xr yr) (Aff xg yg) S -> chord w (Aff xr yr) (pt_neg w (Aff xg yg)) L0 -> chord w Q (pt_neg w (Aff xg yg)) L1 ->
  tangent w (Aff xg yg) G2 -> chord w L0 G2 S -> chord w S (pt_neg w (Aff xr yr)) (Aff xg yg) -> chord w L1 G2 B ->
  chord w B (pt_neg w (Aff xr yr)) C -> pt_add w C (pt_neg w (Aff xg yg)) (Aff xd yd) ->
  g < 2 ^ 28 -> good c -> hv w I b c a Q -> shape1 I a -> hcached c g 1 0 (nhs a) ->
  point_ok w c p valid -> point_is w a_val p (Aff xg yg) -> valid c s -> a_val s = 1 ->
  msm_native I b (Some (xg, yg)) ra rl (Some g) [p] [s] c = Ok ((r, pf), c2) ->
  exists A, satisfies c2 A /\ bit_consistent c2 A /\ point_is w (at_ A) p (Aff xg yg) /\ A⟦s⟧ = 1 /\ point_is w (at_ A) r (Aff xd yd).
Proof.
  intros OG OR K1 K2 K3 K4 K5 K6 K7 K8 K9 Hg GC Ha Sa Ca Op Pp Vs Es R.
  assert (HD' : ri_d_bits I mod 108 <> 0) by (rewrite (hd_bits _ _ IO); exact HD).
  pose proof (IntInv.n_big w I IO) as NB.
  assert (N2 : 2 < nmod) by (change (2 ^ 108) with 324518553658426726783156020576256 in NB; lia).
  assert (PL : planted w I b Q g a c) by (split; [exact Ha|]; split; [exact Sa|exact Ca]).
  assert (HPV : hpv w I b c p (Aff xg yg)).
  { assert (F : Forall2 (hpv w I b c) [p] [Aff xg yg]) by (apply (hpvs_of w I b HI c [p] [Aff xg yg]); (constructor; [assumption|constructor])). inversion F; assumption. }
  pose proof (msm_shared w I IO P PW HD' b Hb xg yg xr yr S Q G2 L0 L1 B C (Aff xd yd) OG OR K1 K2 K3 K4 K5 K6 K7 K8 K9 g a N2 Hg c p s (good_wf _ GC) PL HPV Vs Es) as MF.
  destruct (CT_accepts _ _ _ MF) as ([r' pf'] & d' & RF & XF & (_ & x3 & y3 & z3 & Hr' & ED) & LG). cbn [fst snd] in Hr'. specialize (LG GC).
  assert (N1 : 1 < nmod) by (clear -N2; lia). destruct (good_satisfies d' N1 LG) as [SF BF].
  destruct (sr_shared_select I b a g _ _ _ _ _ p s c c _ _ _ _ (shape_refl c) RF R) as [[SP _] SH]. cbn [fst snd] in SP.
  assert (AG : agrees d' (honest d')) by (intros ch r0 U col; reflexivity).
  destruct (hp_to w I IO d' r' x3 y3 z3 Hr') as [OR' PR]. rewrite ED in PR.
  apply (point_at d' (honest d') AG w r' _ OR') in PR.
  exists (honest d'). split; [eapply satisfies_shape; [exact SH|exact SF]|]. split; [eapply bitc_shape; [exact SH|exact BF]|].
  split; [apply (point_at d' (honest d') AG); [eapply point_ok_mono; [exact XF|exact Op]|exact Pp]|].
  split; [etransitivity; [exact (at_valid d' (honest d') AG s (valid_mono _ _ _ XF Vs))|exact Es]|].
  eapply point_is_shape; [exact SP|exact PR].
Qed.
End G.

Lemma C60_shared_recorder_refuted_main :
  let mul := fun xa ya xl yl prefix p s => @msm_native bn256_fr bn_fq_info 3 (Some (1, 2)) (Some (xa, ya)) (Some (xl, yl)) (Some prefix) [p] [s] in
  exists p s c xa ya xl yl r1 c1 r2 c2 r3 c3 r c4 A q,
    (p <- @assign_point bn256_fr bn_fq_info 3 (Some (1, 2)) ;; s <- assign 1 ;; mret (p, s)) ctx_new = Ok ((p, s), c)
  /\ mul xa ya xl yl 0 p s c = Ok ((r1, Some (2 ^ 20)), c1) /\ mul xa ya xl yl (2 ^ 20) p s c1 = Ok ((r2, Some (2 ^ 21)), c2)
  /\ mul xa ya xl yl 0 p s c2 = Ok ((r3, Some (2 ^ 20)), c3) /\ mul xa ya xl yl (2 ^ 20) p s c3 = Ok ((r, Some (2 ^ 21)), c4)
  /\ @satisfies bn256_fr c4 (honest c4)
  /\ @satisfies bn256_fr c4 A /\ @bit_consistent bn256_fr c4 A /\ @point_is bn256_fr bn256_fq_p (at_ A) p (Aff 1 2) /\ A⟦s⟧ = 1
  /\ @point_is bn256_fr bn256_fq_p (at_ A) r q /\ on_curve bn256_fq_p 3 q /\ q <> Aff 1 2.
Proof.
  intros mul. pose proof bn_fq_info_ok as HI. destruct C26_case as (_ & HD & C & _). pose proof bn256_fr_prime as PN. pose proof bn256_fq_p_prime as PW.
  pose proof (@good_new bn256_fr) as G0. assert (RB : 0 <= 3 < bn256_fq_p) by (split; [discriminate|reflexivity]). assert (RB' : 0 < 3 < bn256_fq_p) by (split; reflexivity).
  destruct (C26_honest_points_accepted bn256_fr bn256_fq_p bn_fq_info 3 PN PW HI RB HD ctx_new (Some (1, 2)) (good_wf _ G0) C)
    as ((p & c0 & R1 & E1 & (O1 & V1) & G1) & _). specialize (G1 G0).
  assert (H5 : 0 <= 1 < @nmod bn256_fr) by (split; [discriminate|reflexivity]).
  destruct (@CT_accepts bn256_fr _ _ _ _ (@assign_CT bn256_fr c0 1 (good_wf _ G1) H5)) as (s & c & R2 & E2 & (V2 & Es) & GC). specialize (GC G1).
  assert (O2 : @point_ok bn256_fr bn256_fq_p c p (@valid bn256_fr)) by (eapply point_ok_mono; [exact E2|exact O1]).
  destruct (bn_schedule 1 5 (Z.to_nat (Z.log2 (@nmod bn256_fr) + 1))) as (xa & ya & xl & yl & M3 & M4 & C3 & C4 & HS); [lia| |reflexivity|].
  { split; [discriminate|]. apply (Z.lt_trans _ bn256_fr_p); reflexivity. }
  assert (FA : Forall (on_curve bn256_fq_p 3) [Aff 1 2; Aff xa ya; Aff xl yl]) by (constructor; [exact C|constructor; [exact C3|constructor; [exact C4|constructor]]]).
  assert (HS' : msm_schedule bn256_fq_p 5 (Z.to_nat (Z.log2 (@nmod bn256_fr) + 1)) (Aff 1 2) (Aff xa ya) (Aff xl yl) [(Aff 1 2, a_val s)]) by (rewrite Es; exact HS).
  assert (W3 : 3 < bn256_fq_p) by reflexivity.
  (* multiples of the generator *)
  set (Gc := mkO bn256_fq_p 3 (Aff 1 2) C). assert (b0 : 3 mod bn256_fq_p <> 0) by (vm_compute; discriminate).
  assert (Gc0 : Gc <> czero bn256_fq_p 3) by (intros K; apply (f_equal (cp _ _)) in K; discriminate).
  assert (Gn : cmul bn256_fq_p 3 PW bn256_fr_p Gc = czero bn256_fq_p 3).
  { apply cp_inj. symmetry. apply (multiple_eq bn256_fq_p 3 PW W3 b0 Gc bn256_fr_p Inf). exact bn_generator_order. }
  set (pk := pe bn256_fq_p 3 bn256_fr_p PW Gc).
  assert (P1 : Aff 1 2 = pk 1). { unfold pk, pe, E. rewrite Z.mod_small by (split; [discriminate|reflexivity]). rewrite (cmul_1 bn256_fq_p 3 PW). reflexivity. }
  assert (P4 : Aff xl yl = pk 4). { unfold pk, pe, E. rewrite Z.mod_small by (split; [discriminate|reflexivity]). apply (multiple_eq bn256_fq_p 3 PW W3 b0 Gc 4 (Aff xl yl)). exact M4. }
  assert (CH : forall i j, i mod bn256_fr_p <> 0 -> j mod bn256_fr_p <> 0 -> (i - j) mod bn256_fr_p <> 0 -> (i + j) mod bn256_fr_p <> 0 -> chord bn256_fq_p (pk i) (pk j) (pk (i + j)))
    by (intros i j; apply (pe_chord bn256_fq_p 3 bn256_fr_p PW W3 b0 PN Gc Gc0 Gn)).
  assert (NG : forall k, pt_neg bn256_fq_p (pk k) = pk (- k)) by (intros k; apply (pe_neg bn256_fq_p 3 bn256_fr_p PW W3 b0 PN Gc Gn)).
  destruct (pe_aff bn256_fq_p 3 bn256_fr_p PW W3 b0 PN Gc Gc0 Gn 10 ltac:(vm_compute; discriminate)) as (xr & yr & E10). fold pk in E10.
  destruct (pe_aff bn256_fq_p 3 bn256_fr_p PW W3 b0 PN Gc Gc0 Gn (-5) ltac:(vm_compute; discriminate)) as (xd & yd & ED). fold pk in ED.
  assert (ON : forall k, on_curve bn256_fq_p 3 (pk k)) by (intros k; apply pe_on).
  assert (Q5 : chord bn256_fq_p (Aff xl yl) (Aff 1 2) (pk 5)) by (rewrite P4, P1; apply (CH 4 1); vm_compute; discriminate).
  (* four calls *)
  assert (CALL : forall d g, @good bn256_fr d -> @point_ok bn256_fr bn256_fq_p d p (@valid bn256_fr) -> @valid bn256_fr d s -> g < 2 ^ 28 ->
    exists r d' a, mul xa ya xl yl g p s d = Ok ((r, Some (g + 2 ^ 20)), d')
      /\ @good bn256_fr d' /\ @point_ok bn256_fr bn256_fq_p d' p (@valid bn256_fr) /\ @valid bn256_fr d' s /\ extends d d'
      /\ @hv bn256_fr bn256_fq_p bn_fq_info 3 d' a (pk 5) /\ shape1 bn_fq_info a /\ @hcached bn256_fr d' g 1 0 (nhs a)).
  { intros d g Gd Od Vd Hg.
    destruct (@honest_call bn256_fr bn256_fq_p bn_fq_info 3 PN PW HI RB' HD d 1 2 xa ya xl yl g p s (pk 5) Gd FA Od V1 Vd Hg Q5 HS') as (r & d' & a & H1 & H2 & H3 & H4 & H6 & H7).
    exists r, d', a. split; [exact H1|]. split; [exact H3|]. split; [eapply point_ok_mono; eauto|]. split; [eapply valid_mono; eauto|]. auto. }
  destruct (CALL c 0 GC O2 V2 ltac:(reflexivity)) as (r1 & c1 & a1 & RM1 & GC1 & Op1 & Vs1 & X1 & _).
  destruct (CALL c1 (2 ^ 20) GC1 Op1 Vs1 ltac:(reflexivity)) as (r2 & c2 & a2 & RM2 & GC2 & Op2 & Vs2 & X2 & Ha & Sa & Ca).
  destruct (CALL c2 0 GC2 Op2 Vs2 ltac:(reflexivity)) as (r3 & c3 & a3 & RM3 & GC3 & Op3 & Vs3 & X3 & _).
  destruct (CALL c3 (2 ^ 20) GC3 Op3 Vs3 ltac:(reflexivity)) as (r & c4 & a4 & RM4 & GC4 & _).
  destruct (@shared_forged bn256_fr bn256_fq_p bn_fq_info 3 PN PW HI RB' HD c3 p s (2 ^ 20) 1 2 xr yr (pk 11) (pk 5) (pk 2) (pk 9) (pk 4) (pk 6) (pk (-4)) xd yd a2
     (Some (xa, ya)) (Some (xl, yl)) r (Some (2 ^ 20 + 2 ^ 20)) c4) as (A & A1 & A0 & A2 & A3 & A4).
  { exact C. }
  { rewrite <- E10. apply ON. }
  { rewrite <- E10, P1. apply (CH 10 1); vm_compute; discriminate. }
  { rewrite <- E10, P1, NG. apply (CH 10 (-1)); vm_compute; discriminate. }
  { rewrite P1, NG. apply (CH 5 (-1)); vm_compute; discriminate. }
  { rewrite P1. apply (pe_tangent bn256_fq_p 3 bn256_fr_p PW W3 b0 PN Gc Gc0 Gn 1). vm_compute. discriminate. }
  { apply (CH 9 2); vm_compute; discriminate. }
  { rewrite <- E10, P1, NG. apply (CH 11 (-10)); vm_compute; discriminate. }
  { apply (CH 4 2); vm_compute; discriminate. }
  { rewrite <- E10, NG. apply (CH 6 (-10)); vm_compute; discriminate. }
  { rewrite <- ED, P1, NG. apply (CH (-4) (-1)); vm_compute; discriminate. }
  { reflexivity. }
  { exact GC3. }
  { eapply hv_rext; [apply rext_of; exact X3|exact Ha]. }
  { exact Sa. }
  { eapply hcached_rext; [apply rext_of; exact X3|exact Ca]. }
  { exact Op3. }
  { exact V1. }
  { exact Vs3. }
  { exact Es. }
  { exact RM4. }
  exists p, s, c, xa, ya, xl, yl, r1, c1, r2, c2, r3, c3, r, c4, A, (Aff xd yd).
  split; [unfold mbind; rewrite R1; cbv beta iota; rewrite R2; reflexivity|]. split; [exact RM1|]. split; [exact RM2|]. split; [exact RM3|]. split; [exact RM4|].
  split; [apply (good_satisfies (NM := bn256_fr)); [reflexivity|exact GC4]|]. split; [exact A1|]. split; [exact A0|]. split; [exact A2|]. split; [exact A3|]. split; [exact A4|].
  rewrite <- ED. split; [apply ON|]. rewrite P1. intros EU. 
  apply (pe_inj bn256_fq_p 3 bn256_fr_p PW W3 b0 PN Gc Gc0 Gn) in EU. vm_compute in EU. discriminate EU.
Qed.
