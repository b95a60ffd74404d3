(** Two multi-scalar multiplications with the select chip on bn256 and a satisfying
    assignment in which the result of the second is wrong (C35). *)
From Verif Require Import Prelude FieldZ Circuit Context Spec Logic ModArith Prims BaseChip BaseProofs
  RangeInfo RangeChip IntegerChip SpecInt InfoProofs IntArith RangeProofs IntInv IntSound IntComplete IntBridge
  IntRes EccChip SpecEcc Curve EccArith EccProofs EccHonest EccBridge EccEncode EccMain SpecMsm CurveGroup PointSum ScalarChip ScalarProofs Msm MsmMain
  SpecSelect SpecCalls SelectProofs SelectMsm HonestSel HonestTop SpecShape Shape KeccakShape SpecSchedule BnOrder Moduli Fields IntMain HonestMain
  TotalLogic TotalMsm TotalSel TotalTop ExpSchedule TotalMain PropsEcc PropsSelect PropsTotal Forge ForgeDec ForgeMsm ForgeMain ForgeSel.

Section G.
Context {NM : NMod}.
Variables (w : Z) (I : rinfo) (b : Z).
Hypothesis P : prime nmod.
Hypothesis PW : prime w.
Hypothesis HI : range_info_new w = Ok I.
Hypothesis Hb : 0 < b < w.
Hypothesis HD : (w_bits w + 13) mod 108 <> 0.
Local Notation IO := (IOI w I HI).
Local Notation m := (Z.to_nat (Z.log2 nmod + 1)).

(** An honest call leaves the auxiliary point in the table, as candidate 0 of group 0. *)
Lemma call_stores c xg yg xa ya xl yl g p s : wf c -> Forall (on_curve w b) [Aff xg yg; Aff xa ya; Aff xl yl] ->
  point_ok w c p valid -> point_is w a_val p (Aff xg yg) -> valid c s -> g < 2 ^ 28 ->
  msm_schedule w 5 m (Aff xg yg) (Aff xa ya) (Aff xl yl) [(Aff xg yg, a_val s)] ->
  exists r c' a, msm_native I b (Some (xg, yg)) (Some (xa, ya)) (Some (xl, yl)) (Some g) [p] [s] c = Ok ((r, Some (g + 2 ^ 20)), c')
    /\ extends c c' /\ hv w I b c' a (Aff xl yl) /\ shape1 I a /\ hcached c' g 0 0 (nhs a).
Proof.
  intros W F O1 O2 Vs Hg HS. inversion F as [|? ? A1 F']; subst. inversion F' as [|? ? A2 F'']; subst. inversion F'' as [|? ? A3 _]; subst.
  assert (HD' : ri_d_bits I mod 108 <> 0) by (rewrite (hd_bits _ _ IO); exact HD).
  assert (K : CT c (msm_native I b (Some (xg, yg)) (Some (xa, ya)) (Some (xl, yl)) (Some g) [p] [s])
      (fun r c' => vp w I b c' (fst r) /\ snd r = Some (g + MSM_PREFIX_OFFSET) /\ stored w I b c' g (Aff xl yl) (map (eff_pt (Aff xg yg)) [Aff xg yg]))).
  { unfold msm_native. eapply (msm_T w I IO P PW HD' b Hb av (decompose_scalar_native 1) bisec (assign_constant 0) nsv) with (m := m) (vs := [a_val s]) (prefix := Some g); auto.
    - intros c0 d s0 v E [V K]. split; [eapply valid_mono; eauto|exact K].
    - pose proof (Z.log2_nonneg nmod). lia.
    - apply (native_dec_T P).
    - apply (native_bis_T P).
    - apply (native_zero_T P).
    - apply (hpvs_of w I b HI c [p] [Aff xg yg]); (constructor; [assumption|constructor]).
    - constructor; [split; [exact Vs|reflexivity]|constructor].
    - discriminate.
    - intros q Hq. injection Hq as <-. split; [discriminate|exact Hg]. }
  destruct (CT_accepts _ _ _ K) as ([r q] & c' & R & E & (_ & Eq & St) & _). cbn [fst snd] in Eq. subst q.
  destruct St as (css & Lc & HC). cbn [map eff_pt] in Lc, HC. change (group_size 5 (length [Aff xg yg])) with 1%nat in Lc, HC. change (chunks 1 [Aff xg yg]) with [[Aff xg yg]] in Lc, HC.
  cbn [with_starts] in HC. destruct css as [|cs [|? ?]]; try discriminate Lc. destruct (HC 0%nat cs eq_refl) as (p0 & ps & E0 & (K0 & K1) & K2 & K3 & K4).
  injection E0 as <- <-. destruct cs as [|a cs]; [discriminate K2|]. destruct (K3 0%nat a eq_refl) as (p1 & Ha & Hc). destruct (K4 0%nat a eq_refl) as (S1 & S2).
  assert (p1 = Aff xl yl) as ->.
  { inversion Hc as [|? ? ? ? Hn|]; subst. inversion Hn; reflexivity. }
  change (Z.of_nat 0) with 0 in S2. rewrite Z.add_0_r in S2.
  exists r, c', a. split; [exact R|]. split; [exact E|]. auto.
Qed.

(** A dishonest second call: Q is in the table from an earlier call with prefix 0. *)
Lemma second_forged c p s u g xg yg xr yr S Q G2 L0 L1 B C xd yd a ra rl r pf c2 :
  Z.odd NUM_BITS = false -> on_curve w b (Aff xg yg) -> on_curve w b (Aff xr yr) ->
  chord w (Aff xr yr) (Aff xg yg) S -> chord w (Aff xr yr) (pt_neg w (Aff xg yg)) L0 -> chord w Q (pt_neg w (Aff xg yg)) L1 ->
  tangent w (Aff xg yg) G2 -> chord w L0 G2 S -> chord w S (pt_neg w (Aff xr yr)) (Aff xg yg) -> chord w L1 G2 B ->
  chord w B (pt_neg w (Aff xr yr)) C -> pt_add w C (pt_neg w (Aff xg yg)) (Aff xd yd) ->
  0 < u < nmod -> (u * 2 ^ 128 + g * 2 ^ 64) mod nmod = 0 -> g < 2 ^ 28 ->
  good c -> hv w I b c a Q -> shape1 I a -> hcached c 0 0 0 (nhs a) ->
  point_ok w c p valid -> point_is w a_val p (Aff xg yg) -> valid c s -> a_val s = u ->
  msm_native I b (Some (xg, yg)) ra rl (Some g) [p] [s] c = Ok ((r, pf), c2) ->
  exists A, satisfies c2 A /\ point_is w (at_ A) p (Aff xg yg) /\ A⟦s⟧ = u /\ point_is w (at_ A) r (Aff xd yd).
Proof.
  intros HE OG OR K1 K2 K3 K4 K5 K6 K7 K8 K9 Hu Hk Hg GC Ha Sa Ca Op Pp Vs Es R.
  assert (HD' : ri_d_bits I mod 108 <> 0) by (rewrite (hd_bits _ _ IO); exact HD).
  pose proof (IntInv.n_big w I IO) as NB.
  assert (N2 : 2 < nmod) by (change (2 ^ 108) with 324518553658426726783156020576256 in NB; lia).
  assert (PL : planted w I b Q u g a c).
  { split; [exact Ha|]. split; [exact Sa|]. intros k h Hh. specialize (Ca k h Hh). unfold encode_offset, fof in *.
    replace ((u * 2 ^ 128 + g * 2 ^ 64 + (0 + Z.of_nat k)) mod nmod) with ((0 * 2 ^ 128 + 0 * 2 ^ 64 + (0 + Z.of_nat k)) mod nmod); [exact Ca|].
    rewrite (Zplus_mod (u * 2 ^ 128 + g * 2 ^ 64)), Hk. rewrite Zplus_mod_idemp_r. reflexivity. }
  assert (HPV : hpv w I b c p (Aff xg yg)).
  { assert (F : Forall2 (hpv w I b c) [p] [Aff xg yg]) by (apply (hpvs_of w I b HI c [p] [Aff xg yg]); (constructor; [assumption|constructor])). inversion F; assumption. }
  pose proof (ForgeSel.msm_forged w I IO P PW HD' HE b Hb xg yg xr yr S Q G2 L0 L1 B C (Aff xd yd) OG OR K1 K2 K3 K4 K5 K6 K7 K8 K9 u g a Hu Hg c p s (good_wf _ GC) PL HPV Vs Es) as MF.
  destruct (CTF_runs _ _ _ MF) as ([r' pf'] & d' & RF & XF & (_ & x3 & y3 & z3 & Hr' & ED) & LG). cbn [fst snd] in Hr'. specialize (LG (loose_of _ GC)).
  pose proof (loose_satisfies d' ltac:(lia) LG) as SF.
  destruct (sr_forged_select I HE b N2 u a g _ _ _ _ _ p s c c _ _ _ _ (shape_refl c) RF R) as [[SP _] SH]. cbn [fst snd] in SP.
  assert (AG : agrees d' (honest d')) by (intros ch r0 U col; reflexivity).
  destruct (hp_to w I IO d' r' x3 y3 z3 Hr') as [OR' PR]. rewrite ED in PR.
  apply (point_at d' (honest d') AG w r' _ OR') in PR.
  exists (honest d'). split; [eapply satisfies_shape; [exact SH|exact SF]|].
  split; [apply (point_at d' (honest d') AG); [eapply point_ok_mono; [exact XF|exact Op]|exact Pp]|].
  split; [etransitivity; [exact (at_valid d' (honest d') AG s (valid_mono _ _ _ XF Vs))|exact Es]|].
  eapply point_is_shape; [exact SP|exact PR].
Qed.
End G.

Definition forged_scalar : Z := 14257617186829046020832788938230507210244663539175646843551347478986615434784.
Lemma forged_key : (forged_scalar * 2 ^ 128 + 2 ^ 20 * 2 ^ 64) mod bn256_fr_p = 0.
Proof. vm_compute. reflexivity. Qed.
Lemma C35_msm_select_native_refuted_main :
  exists p s c xa ya xl yl r1 c1 r c2 A q,
    (p <- @assign_point bn256_fr bn_fq_info 3 (Some (1, 2)) ;; s <- assign forged_scalar ;; mret (p, s)) ctx_new = Ok ((p, s), c)
  /\ @msm_native bn256_fr bn_fq_info 3 (Some (1, 2)) (Some (xa, ya)) (Some (xl, yl)) (Some 0) [p] [s] c = Ok ((r1, Some (2 ^ 20)), c1)
  /\ @msm_native bn256_fr bn_fq_info 3 (Some (1, 2)) (Some (xa, ya)) (Some (xl, yl)) (Some (2 ^ 20)) [p] [s] c1 = Ok ((r, Some (2 ^ 21)), c2)
  /\ @calls bn256_fr (ctx_new, 0) (c1, 2 ^ 20)
  /\ @satisfies bn256_fr c2 (honest c2)
  /\ (exists d, @point_is bn256_fr bn256_fq_p a_val r d /\ multiple bn256_fq_p (Aff 1 2) forged_scalar d)
  /\ @satisfies bn256_fr c2 A /\ @point_is bn256_fr bn256_fq_p (at_ A) p (Aff 1 2) /\ A⟦s⟧ = forged_scalar
  /\ @point_is bn256_fr bn256_fq_p (at_ A) r q /\ on_curve bn256_fq_p 3 q /\ ~ multiple bn256_fq_p (Aff 1 2) forged_scalar q.
Proof.
  pose proof bn_fq_info_ok as HI. destruct C26_case as (_ & HD & C & _). pose proof bn256_fr_prime as PN. pose proof bn256_fq_p_prime as PW.
  pose proof (@good_new bn256_fr) as G0. assert (RB : 0 <= 3 < bn256_fq_p) by (split; [discriminate|reflexivity]). assert (RB' : 0 < 3 < bn256_fq_p) by (split; reflexivity).
  set (u := forged_scalar).
  assert (U1 : 0 <= u /\ u + 20 < bn256_fr_p) by (split; [discriminate|reflexivity]).
  destruct (C26_honest_points_accepted bn256_fr bn256_fq_p bn_fq_info 3 PN PW HI RB HD ctx_new (Some (1, 2)) (good_wf _ G0) C)
    as ((p & c0 & R1 & E1 & (O1 & V1) & G1) & _). specialize (G1 G0).
  assert (H5 : 0 <= u < @nmod bn256_fr) by (change (@nmod bn256_fr) with bn256_fr_p; lia).
  destruct (@CT_accepts bn256_fr _ _ _ _ (@assign_CT bn256_fr c0 u (good_wf _ G1) H5)) as (s & c & R2 & E2 & (V2 & Es) & GC). specialize (GC G1).
  assert (O2 : point_ok bn256_fq_p c p valid) by (eapply point_ok_mono; [exact E2|exact O1]).
  destruct (bn_schedule u 5 (Z.to_nat (Z.log2 (@nmod bn256_fr) + 1))) as (xa & ya & xl & yl & M3 & M4 & C3 & C4 & HS); [lia| |apply U1|].
  { split; [apply U1|]. apply (Z.lt_trans _ bn256_fr_p); [lia|reflexivity]. }
  assert (FA : Forall (on_curve bn256_fq_p 3) [Aff 1 2; Aff xa ya; Aff xl yl]) by (constructor; [exact C|constructor; [exact C3|constructor; [exact C4|constructor]]]).
  assert (HS' : msm_schedule bn256_fq_p 5 (Z.to_nat (Z.log2 (@nmod bn256_fr) + 1)) (Aff 1 2) (Aff xa ya) (Aff xl yl) [(Aff 1 2, a_val s)]) by (rewrite Es; exact HS).
  (* the first call *)
  destruct (@call_stores bn256_fr bn256_fq_p bn_fq_info 3 PN PW HI RB' HD c 1 2 xa ya xl yl 0 p s (good_wf _ GC) FA O2 V1 V2 ltac:(reflexivity) HS')
    as (r1 & c1 & a & RM1 & X1 & Ha & Sa & Ca).
  change (0 + 2 ^ 20) with (2 ^ 20) in RM1.
  assert (Op : point_ok bn256_fq_p c1 p valid) by (eapply point_ok_mono; [exact X1|exact O2]).
  assert (Vs : @valid bn256_fr c1 s) by (eapply valid_mono; [exact X1|exact V2]).
  assert (CL0 : @calls bn256_fr (ctx_new, 0) (c, 0)).
  { destruct (C49_other_gadgets_are_quiet bn256_fr) as (Q1 & _ & _ & _ & _ & _ & _ & _ & Q2 & _). destruct (Q2 bn_fq_info) as (_ & _ & _ & _ & _ & _ & _ & _ & Q3 & _).
    eapply calls_quiet; [eapply calls_quiet; [apply calls_none|apply (Q3 3 (Some (1, 2)))|exact R1]|apply (Q1 u)|exact R2]. }
  assert (CL : @calls bn256_fr (ctx_new, 0) (c1, 2 ^ 20)).
  { eapply (@calls_native bn256_fr (ctx_new, 0) c 0 bn256_fq_p bn_fq_info 3); [exact CL0|exact HI|reflexivity|exact RM1]. }
  assert (Hlim : Z.of_nat (ri_limbs bn_fq_info) < 2 ^ 62) by reflexivity. assert (W3 : 3 < bn256_fq_p) by reflexivity.
  assert (GC1 : @good bn256_fr c1).
  { destruct (C57_msm_native_completes bn256_fr bn256_fq_p bn_fq_info 3 PN PW HI W3 RB' HD Hlim c 1 2 xa ya xl yl (Some 0) [p] [Aff 1 2] [s] GC FA) as (r' & q' & c' & R' & _ & G' & _).
    - constructor; [exact O2|constructor].
    - constructor; [exact V1|constructor].
    - constructor; [exact C|constructor].
    - constructor; [exact V2|constructor].
    - reflexivity.
    - discriminate.
    - intros k Hk. injection Hk as <-. split; [discriminate|reflexivity].
    - exact HS'.
    - rewrite RM1 in R'. injection R' as <- <- <-. exact G'. }
  (* the second call, honest *)
  destruct (C57_msm_native_completes bn256_fr bn256_fq_p bn_fq_info 3 PN PW HI W3 RB' HD Hlim c1 1 2 xa ya xl yl (Some (2 ^ 20)) [p] [Aff 1 2] [s] GC1 FA) as (r & q & c2 & RM2 & X2 & G2 & S2 & _ & K2).
  { constructor; [exact Op|constructor]. }
  { constructor; [exact V1|constructor]. }
  { constructor; [exact C|constructor]. }
  { constructor; [exact Vs|constructor]. }
  { reflexivity. }
  { discriminate. }
  { intros k Hk. injection Hk as <-. split; [discriminate|reflexivity]. }
  { exact HS'. }
  destruct (@call_stores bn256_fr bn256_fq_p bn_fq_info 3 PN PW HI RB' HD c1 1 2 xa ya xl yl (2 ^ 20) p s (good_wf _ GC1) FA Op V1 Vs ltac:(reflexivity) HS')
    as (r' & c2' & a' & RM2' & _).
  rewrite RM2 in RM2'. injection RM2' as <- -> <-.
  destruct K2 as (d & D1 & _ & D3).
  { intros k Hk. injection Hk as <-. exact CL. }
  { intros k [<-|[]]. exact bn_generator_order. }
  { intros [K|[]]. discriminate. }
  cbn [map combine] in D3. apply lin_one in D3. rewrite Es in D3.
  (* the points of the dishonest call *)
  set (Gc := mkO bn256_fq_p 3 (Aff 1 2) C). assert (b0 : 3 mod bn256_fq_p <> 0) by (vm_compute; discriminate).
  assert (Gc0 : Gc <> czero bn256_fq_p 3) by (intros K; apply (f_equal (cp _ _)) in K; discriminate).
  assert (Gn : cmul bn256_fq_p 3 PW bn256_fr_p Gc = czero bn256_fq_p 3).
  { apply cp_inj. symmetry. apply (multiple_eq bn256_fq_p 3 PW W3 b0 Gc bn256_fr_p Inf). exact bn_generator_order. }
  set (pk := pe bn256_fq_p 3 bn256_fr_p PW Gc).
  assert (P1 : Aff 1 2 = pk 1). { unfold pk, pe, E. rewrite Z.mod_small by (split; [discriminate|reflexivity]). rewrite (cmul_1 bn256_fq_p 3 PW). reflexivity. }
  assert (P4 : Aff xl yl = pk 4). { unfold pk, pe, E. rewrite Z.mod_small by (split; [discriminate|reflexivity]). apply (multiple_eq bn256_fq_p 3 PW W3 b0 Gc 4 (Aff xl yl)). exact M4. }
  assert (CH : forall i j, i mod bn256_fr_p <> 0 -> j mod bn256_fr_p <> 0 -> (i - j) mod bn256_fr_p <> 0 -> (i + j) mod bn256_fr_p <> 0 -> chord bn256_fq_p (pk i) (pk j) (pk (i + j)))
    by (intros i j; apply (pe_chord bn256_fq_p 3 bn256_fr_p PW W3 b0 PN Gc Gc0 Gn)).
  assert (NG : forall k, pt_neg bn256_fq_p (pk k) = pk (- k)) by (intros k; apply (pe_neg bn256_fq_p 3 bn256_fr_p PW W3 b0 PN Gc Gn)).
  destruct (pe_aff bn256_fq_p 3 bn256_fr_p PW W3 b0 PN Gc Gc0 Gn 10 ltac:(vm_compute; discriminate)) as (xr & yr & E10). fold pk in E10.
  destruct (pe_aff bn256_fq_p 3 bn256_fr_p PW W3 b0 PN Gc Gc0 Gn (-6) ltac:(vm_compute; discriminate)) as (xd & yd & ED). fold pk in ED.
  assert (ON : forall k, on_curve bn256_fq_p 3 (pk k)) by (intros k; apply pe_on).
  destruct (@second_forged bn256_fr bn256_fq_p bn_fq_info 3 PN PW HI RB' HD c1 p s u (2 ^ 20) 1 2 xr yr (pk 11) (Aff xl yl) (pk 2) (pk 9) (pk 3) (pk 5) (pk (-5)) xd yd a
     (Some (xa, ya)) (Some (xl, yl)) r (Some (2 ^ 20 + 2 ^ 20)) c2) as (A & A1 & A2 & A3 & A4).
  { exact num_bits_even. }
  { exact C. }
  { rewrite <- E10. apply ON. }
  { rewrite <- E10, P1. apply (CH 10 1); vm_compute; discriminate. }
  { rewrite <- E10, P1, NG. apply (CH 10 (-1)); vm_compute; discriminate. }
  { rewrite P4, P1, NG. apply (CH 4 (-1)); vm_compute; discriminate. }
  { rewrite P1. apply (pe_tangent bn256_fq_p 3 bn256_fr_p PW W3 b0 PN Gc Gc0 Gn 1). vm_compute. discriminate. }
  { apply (CH 9 2); vm_compute; discriminate. }
  { rewrite <- E10, P1, NG. apply (CH 11 (-10)); vm_compute; discriminate. }
  { apply (CH 3 2); vm_compute; discriminate. }
  { rewrite <- E10, NG. apply (CH 5 (-10)); vm_compute; discriminate. }
  { rewrite <- ED, P1, NG. apply (CH (-5) (-1)); vm_compute; discriminate. }
  { split; reflexivity. }
  { exact forged_key. }
  { reflexivity. }
  { exact GC1. }
  { exact Ha. }
  { exact Sa. }
  { exact Ca. }
  { exact Op. }
  { exact V1. }
  { exact Vs. }
  { exact Es. }
  { exact RM2. }
  exists p, s, c, xa, ya, xl, yl, r1, c1, r, c2, A, (Aff xd yd).
  split; [unfold mbind; rewrite R1; cbv beta iota; rewrite R2; reflexivity|]. split; [exact RM1|]. split; [exact RM2|]. split; [exact CL|]. split; [exact S2|].
  split; [exists d; split; [exact D1|exact D3]|]. split; [exact A1|]. split; [exact A2|]. split; [exact A3|]. split; [exact A4|].
  rewrite <- ED. split; [apply ON|]. intros K. destruct (multiple_eq bn256_fq_p 3 PW W3 b0 Gc u _ K) as [EQ _].
  assert (EU : pk (-6) = pk u).
  { rewrite EQ. unfold pk, pe, E. rewrite (Z.mod_small u) by lia. reflexivity. }
  apply (pe_inj bn256_fq_p 3 bn256_fr_p PW W3 b0 PN Gc Gc0 Gn) in EU. vm_compute in EU. discriminate EU.
Qed.
