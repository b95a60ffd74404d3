(** From halo2's acceptance to the pairing equation and back (C63). *)
From Verif Require Import Prelude FieldZ Circuit Context Spec Logic ModArith Prims BaseChip BaseProofs
  RangeInfo RangeChip IntegerChip SpecInt InfoProofs IntArith RangeProofs IntInv IntSound IntComplete IntBridge
  IntRes EccChip SpecEcc Curve EccArith EccProofs EccHonest EccBridge EccEncode IntProgProofs
  SpecTower SpecTowerRep SpecPairing SpecAte SpecPairingRep Fq12Chip PairingChip PairingProofs
  Moduli Fields NativeMain IntMain EccMain
  Synth SpecHeights SpecRecorder Progs ProgsMore ProgAppends SynthMain Halo2 Configure ConfigProofs ConfigMain
  SpecHandles Handles HandGadgets HandMore HandMain SpecShape Shape ShapeMain SpecShapePairing ShapePairing SpecEnd EndMain PairingMain PairEnd Ratio.

Local Opaque range_table.
Lemma ho_constant_g2 {NM : NMod} {Wd : World} I (P : Prop) q : J P (constant_g2 I q).
Proof. unfold constant_g2. hoa. Qed.
Lemma ho_term {NM : NMod} {Wd : World} I b (P : Prop) t : J P (pair_term I b t).
Proof. unfold pair_term. jb; [apply ho_constant_g2|intros]. hoa. Qed.
Section Gen.
Context {NM : NMod}.
Variable w : Z.
Variable I : rinfo.
Hypothesis IO : info_ok w I.
Hypothesis n_prime : prime nmod.
Hypothesis w_prime : prime w.
Variable b : Z.
Hypothesis b_range : 0 <= b < w.
Variable check : list (apoint * ag2a) -> M unit.
Variable pre : list ((Z * Z) * G2) -> Prop.
Variable post : list ((Z * Z) * G2) -> unit -> Prop.
Hypothesis pg_check : forall ts, gadget (check ts).
Hypothesis ho_check : forall (Wd : World) (P : Prop) ts, (P -> ok ts) -> J P (check ts).
Hypothesis sr_check : forall ts ts', Forall2 (both spt sg2a) ts ts' -> SR any (check ts) (check ts').
Hypothesis check_maps : maps w (listr (pairr (g1r w) (g2r w))) unitr pair_flags check pre post.
Hypothesis check_clears : clears pair_flags check.
Notation circuit := (pairing_circuit I b check).
Notation term := (pair_term I b).
Definition aff (p : Z * Z) : pt := pt_of (Some p).
Definition reducedG (q : G2) : Prop := reduced2 w (fst q) /\ reduced2 w (snd q).

Lemma pg_constant_g2 q : gadget (constant_g2 I q).
Proof. unfold constant_g2. pga. Qed.
Hint Resolve pg_constant_g2 : pga.
Lemma pg_term t : gadget (term t).
Proof. unfold pair_term. pga. Qed.
Hint Resolve pg_term pg_check : pga.
Lemma pg_pairing qs inputs : gadget (circuit qs inputs).
Proof. unfold pairing_circuit. pga. Qed.

Lemma ok_firsts {Wd : World} (ts : list (apoint * ag2a)) : ok ts -> ok (map fst ts).
Proof. induction ts as [|[a q] l IH]; intros H; [constructor|]. apply ok_cons in H as [H1 H2]. cbn [map fst]. apply ok_cons. split; [|apply IH, H2]. apply ok_pair in H1. exact (proj1 H1). Qed.
Lemma pairing_disciplined qs inputs : disciplined tt (circuit qs inputs).
Proof.
  apply J_disciplined. intros Wd. unfold pairing_circuit.
  jb; [refine (J_mapM _ _ _ _ _); [intros; apply ok_plain|intros; apply ho_term]|intros ts].
  jb; [apply ho_check; tauto|intros u]. apply J_ret. intros [[_ H] _]. apply ok_firsts, H.
Qed.

Lemma sr_pairing qs inputs inputs' : length inputs = length inputs' -> SR (Forall2 spt) (circuit qs inputs) (circuit qs inputs').
Proof.
  intros L. unfold pairing_circuit. eapply (SR_bind (Forall2 (both spt sg2a))).
  - apply (SR_mapM (fun t t' => snd t = snd t')).
    + revert inputs' qs L. induction inputs; intros [|] [|] L; try discriminate; cbn [combine]; constructor; auto.
    + intros [p q] [p' q'] E. cbn [snd] in E. subst q'. unfold pair_term. cbn [fst snd].
      eapply (SR_bind sg2a).
      * unfold constant_g2. eapply SR_bind; [apply sr_fq2_assign_constant|intros]. eapply SR_bind; [apply sr_fq2_assign_constant|intros].
        eapply SR_bind; [apply sr_assign_constant|intros]. apply SR_ret. constructor; assumption.
      * intros. eapply SR_bind; [apply sr_assign_point|intros]. apply SR_ret. split; assumption.
  - intros ts ts' H. eapply SR_bind; [apply sr_check; exact H|intros]. apply SR_ret. induction H as [|? ? ? ? [K _] _ IH]; constructor; auto.
Qed.

Lemma appends_constant_g2 q : appends (constant_g2 I q). Proof. apply gadget_appends, pg_constant_g2. Qed.
Lemma appends_term t : appends (term t). Proof. apply gadget_appends, pg_term. Qed.
Lemma appends_check ts : appends (check ts). Proof. apply gadget_appends, pg_check. Qed.
Lemma appends_fq2_constant k : appends (fq2_assign_constant I k). Proof. apply gadget_appends, pg_fq2_assign_constant. Qed.
Hint Resolve appends_constant_g2 appends_term appends_check appends_fq2_constant : app.

Lemma constant_ST T A k : (forall x, 0 <= A x < nmod) -> reduced2 w k -> ST T A (fq2_assign_constant I k) (fun r => fq2_is w (SpecInt.at_ A) r k).
Proof.
  intros HA [H1 H2]. unfold fq2_assign_constant.
  eapply ST_bind; [eapply (assign_int_constant_R w I IO); eauto|app|intros; app|]. intros x [Hx _].
  eapply ST_bind; [eapply (assign_int_constant_R w I IO); eauto|app|intros; app|]. intros y [Hy _].
  apply ST_ret. apply (ir_at _ _ IO) in Hx. apply (ir_at _ _ IO) in Hy. split; assumption.
Qed.
Lemma term_ST T A t : (forall x, 0 <= A x < nmod) -> reducedG (snd t) ->
  ST T A (term t) (fun r => fst (g2r w) (SpecInt.at_ A) (snd r) (snd t)
    /\ exists x y, 0 <= x < w /\ 0 <= y < w /\ int_is w (SpecInt.at_ A) (p_x (fst r)) x /\ int_is w (SpecInt.at_ A) (p_y (fst r)) y
       /\ (A (a_cell (p_z (fst r))) = 0 -> on_curve w b (Aff x y))).
Proof.
  intros HA [H1 H2]. unfold pair_term.
  eapply (ST_bind _ _ _ _ (fun q => fst (g2r w) (SpecInt.at_ A) q (snd t))).
  { unfold constant_g2. eapply ST_bind; [apply constant_ST; eassumption|app|intros; app|]. intros x Hx.
    eapply ST_bind; [apply constant_ST; eassumption|app|intros; app|]. intros y Hy.
    eapply ST_bind; [apply (ST_true T A)|app|intros; app|]. intros z _. apply ST_ret. split; assumption. }
  { app. } { intros; app. }
  intros q Hq. eapply ST_bind; [apply (assign_point_R w I IO n_prime w_prime b b_range T A HA)|app|intros; app|].
  intros a (x & y & Hx & Hy & C). apply ST_ret. split; [exact Hq|]. apply (ir_at _ _ IO) in Hx as [X1 X2]. apply (ir_at _ _ IO) in Hy as [Y1 Y2].
  pose proof (prime_ge_2 _ w_prime). exists (x mod w), (y mod w). cbn [fst].
  split; [apply Z.mod_pos_bound; lia|]. split; [apply Z.mod_pos_bound; lia|]. split; [split; assumption|]. split; [split; assumption|].
  intros Z0. destruct C as [C|C]; [|exact C]. unfold vA in C. rewrite Z0 in C. discriminate.
Qed.
Lemma circuit_sound qs inputs : length inputs = length qs -> Forall reducedG qs ->
  sound (circuit qs inputs) (fun A r => exists points, Forall2 (point_is w (SpecInt.at_ A)) r (map aff points)
    /\ Forall (fun p => on_curve w b (aff p)) points /\ post (combine points qs) tt).
Proof.
  intros L HQ c r c' cf A W E X S. unfold pairing_circuit in E. apply mbind_inv in E as (ts & c1 & E1 & E). apply mbind_inv in E as (u & c2 & E2 & E).
  injection E as <- <-.
  destruct (appends_mapM _ _ appends_term _ _ _ W E1) as [W1 X1]. destruct (appends_check _ _ _ _ W1 E2) as [W2 X2].
  pose proof (check_clears ts c1 u c2 cf A W1 E2 X S) as Z0.
  assert (M1 : sound (mapM term (combine inputs qs)) (fun A r => Forall2 (fun t r => fst (g2r w) (SpecInt.at_ A) (snd r) (snd t)
    /\ exists x y, 0 <= x < w /\ 0 <= y < w /\ int_is w (SpecInt.at_ A) (p_x (fst r)) x /\ int_is w (SpecInt.at_ A) (p_y (fst r)) y
       /\ (A (a_cell (p_z (fst r))) = 0 -> on_curve w b (Aff x y))) (combine inputs qs) r)).
  { clear -IO n_prime w_prime b_range HQ pg_check. tosound. apply ST_mapM; [apply appends_term|]. intros [p q] Hin. apply term_ST; [exact HA|].
    rewrite Forall_forall in HQ. apply HQ. apply (in_combine_r _ _ _ _ Hin). }
  specialize (M1 _ _ _ cf A W E1 (extends_trans _ _ _ X2 X) S). cbv beta in M1.
  assert (K : exists points, Forall2 (point_is w (SpecInt.at_ A)) (map fst ts) (map aff points) /\ Forall (fun p => on_curve w b (aff p)) points
    /\ fst (listr (pairr (g1r w) (g2r w))) (SpecInt.at_ A) ts (combine points qs)).
  { clear -M1 Z0 L. revert qs ts L M1 Z0. induction inputs as [|i l IH]; intros [|q qs] ts L M1 Z0; try discriminate.
    - inversion M1; subst. exists []. repeat constructor.
    - cbn [combine] in M1. inversion M1 as [|? [a g] ? ts' (G & x & y & Rx & Ry & Hx & Hy & C) M2]; subst.
      unfold pair_flags in Z0. cbn [flat_map app fst snd] in Z0, G, Hx, Hy, C. inversion Z0 as [|? ? Za Z1]; subst. inversion Z1 as [|? ? _ Z2]; subst.
      destruct (IH qs ts' ltac:(cbn in L; lia) M2 Z2) as (ps & K1 & K2 & K3). exists ((x, y) :: ps). cbn [map fst combine aff pt_of]. split; [|split].
      + constructor; [|exact K1]. cbn [point_is]. unfold SpecInt.at_ at 1. split; [exact Za|split; assumption].
      + constructor; [apply C; exact Za|exact K2].
      + constructor; [|exact K3]. split; [|exact G]. cbn [fst snd]. destruct Hx as [X1 X2], Hy as [Y1 Y2].
        cbn [fst snd g1r]. unfold fq_is. rewrite (Z.mod_small x w), (Z.mod_small y w) by assumption. auto. }
  destruct K as (points & K1 & K2 & K3). exists points. split; [exact K1|]. split; [exact K2|].
  destruct (proj1 check_maps ts c1 u c2 cf A W1 E2 X S _ K3) as ([] & _ & HP). exact HP.
Qed.

Hypothesis HD : ri_d_bits I mod 108 <> 0.
Hypothesis HS : honest_size w.
Lemma fq2_in_mono c c' a x : extends c c' -> fq2_in w c a x -> fq2_in w c' a x.
Proof. intros E [[H1 H2] [H3 H4]]. split; (split; [eapply int_ok_mono; eauto|assumption]). Qed.
Lemma constant_CT c k : wf c -> reduced2 w k -> CT c (fq2_assign_constant I k) (fun r c' => fq2_in w c' r k).
Proof.
  intros W [H1 H2]. unfold fq2_assign_constant.
  eapply CT_bind; [eapply (assign_int_constant_C w I IO); eauto|]. intros x c1 W1 E1 [Hx _].
  eapply CT_bind; [eapply (assign_int_constant_C w I IO); eauto|]. intros y c2 W2 E2 [Hy _].
  apply CT_ret; [exact W2|]. apply (cr_mono _ _ _ _ _ _ E2) in Hx. apply (cr_ok _ _ IO) in Hx. apply (cr_ok _ _ IO) in Hy. split; assumption.
Qed.
Definition term_in (t : (Z * Z) * G2) (r : apoint * ag2a) (c : ctx) : Prop :=
  fq2_in w c (ga_x (snd r)) (fst (snd t)) /\ fq2_in w c (ga_y (snd r)) (snd (snd t)) /\ cleared c (ga_z (snd r))
  /\ point_ok w c (fst r) valid /\ point_is w a_val (fst r) (aff (fst t)).
Lemma term_in_mono t r c c' : term_in t r c -> extends c c' -> term_in t r c'.
Proof.
  intros (H1 & H2 & (H3 & H3') & (H4 & H5 & H6) & H7) E. 
  split; [eapply fq2_in_mono; eassumption|]. split; [eapply fq2_in_mono; eassumption|]. split; [split; [eapply valid_mono; eassumption|assumption]|].
  split; [|assumption]. split; [eapply int_ok_mono; eassumption|]. split; [eapply int_ok_mono; eassumption|eapply valid_mono; eassumption].
Qed.
Lemma term_CT c t : wf c -> reducedG (snd t) -> on_curve w b (aff (fst t)) -> CT c (term t) (fun r c' => term_in t r c').
Proof.
  intros W [R1 R2] C. unfold pair_term.
  eapply (CT_bind _ _ _ (fun q c' => fq2_in w c' (ga_x q) (fst (snd t)) /\ fq2_in w c' (ga_y q) (snd (snd t)) /\ cleared c' (ga_z q))).
  { unfold constant_g2. eapply CT_bind; [apply constant_CT; assumption|]. intros x c1 W1 E1 Hx. cbv beta in Hx.
    eapply CT_bind; [apply constant_CT; assumption|]. intros y c2 W2 E2 Hy. cbv beta in Hy.
    eapply CT_bind; [apply (assign_constant_C n_prime _ false); exact W2|]. intros z c3 W3 E3 Hz. cbv beta in Hz.
    apply CT_ret; [exact W3|]. cbn [ga_x ga_y ga_z]. split; [eapply fq2_in_mono; [|exact Hx]; eapply extends_trans; eassumption|].
    split; [eapply fq2_in_mono; eassumption|exact Hz]. }
  intros q c1 W1 E1 (Hx & Hy & Hz). eapply CT_bind; [eapply (assign_point_C w I IO); eauto|]. intros a c2 W2 E2 Ha. cbv beta in Ha.
  apply CT_ret; [exact W2|]. apply (hp_to _ _ IO) in Ha as [Ha1 Ha2]. rewrite (dec_of w w_prime b _ C) in Ha2.
  split; [eapply fq2_in_mono; eassumption|]. split; [eapply fq2_in_mono; eassumption|]. destruct Hz as [Hz1 Hz2]. split; [split; [eapply valid_mono; eassumption|exact Hz2]|].
  split; assumption.
Qed.
Lemma circuit_accepts qs points : length points = length qs -> Forall reducedG qs -> Forall (fun p => on_curve w b (aff p)) points -> pre (combine points qs) ->
  accepts ctx_new (circuit qs points) (fun r c => Forall (fun a => point_ok w c a valid) r /\ Forall2 (point_is w a_val) r (map aff points)).
Proof.
  intros L HQ HC HP.
  assert (M1 : CT ctx_new (mapM term (combine points qs)) (fun r c => Forall2 (fun t r => term_in t r c) (combine points qs) r)).
  { apply CT_mapM; [apply wf_new|intros; eapply term_in_mono; eauto|]. intros [p q] c' Hin W' _. apply term_CT; [exact W'| |].
    - rewrite Forall_forall in HQ. apply HQ, (in_combine_r _ _ _ _ Hin).
    - rewrite Forall_forall in HC. apply HC, (in_combine_l _ _ _ _ Hin). }
  assert (W1 : forall ts c1, mapM term (combine points qs) ctx_new = Ok (ts, c1) -> wf c1).
  { intros ts c1 E1. apply (appends_mapM _ _ appends_term _ _ _ wf_new E1). }
  apply CT_accepts in M1. destruct M1 as (ts & c1 & E1 & X1 & HT & G1). specialize (W1 _ _ E1).
  assert (K : snd (listr (pairr (g1r w) (g2r w))) c1 ts (combine points qs) /\ Forall (cleared c1) (pair_flags ts)
     /\ Forall (fun a => point_ok w c1 a valid) (map fst ts) /\ Forall2 (point_is w a_val) (map fst ts) (map aff points)).
  { clear -HT L HC. revert qs ts L HT. induction HC as [|[x y] ps C _ IH]; intros [|q qs] ts L HT; try discriminate; cbn [combine] in HT.
    - inversion HT; subst. repeat constructor.
    - inversion HT as [|? [a g] ? ts' (G1 & G2 & G3 & G4 & G5) HT']; subst. destruct (IH qs ts' ltac:(cbn in L; lia) HT') as (K1 & K2 & K3 & K4).
      cbn [fst snd] in *. destruct C as (Rx & Ry & _). pose proof G4 as (P1 & P2 & P3). cbn [aff pt_of point_is] in G5. destruct G5 as (Z0 & (X1 & X2) & (Y1 & Y2)). split; [|split; [|split]].
      + constructor; [|exact K1]. split; [|split; assumption]. cbn [fst snd g1r]. unfold fq_in. rewrite (Z.mod_small x w), (Z.mod_small y w) by assumption. auto.
      + unfold pair_flags. cbn [flat_map app fst snd]. constructor; [split; assumption|]. constructor; [exact G3|exact K2].
      + constructor; assumption.
      + constructor; [|exact K4]. cbn [aff pt_of point_is]. unfold int_is. auto. }
  destruct K as (K1 & K2 & K3 & K4).
  destruct (proj2 check_maps HS c1 ts _ W1 K1 K2 HP) as (u & c2 & E2 & X2 & _ & G2).
  exists (map fst ts), c2. split; [unfold pairing_circuit; unfold mbind at 1; rewrite E1; unfold mbind; rewrite E2; reflexivity|].
  split; [eapply extends_trans; eassumption|]. split; [|auto]. split; [|exact K4].
  eapply Forall_impl; [|exact K3]. intros a (A1 & A2 & A3). split; [eapply int_ok_mono; eassumption|]. split; [eapply int_ok_mono; eassumption|eapply valid_mono; eassumption].
Qed.
Lemma end_sound : 2 ^ 18 < nmod -> forall qs inputs xs c F wt u n adv, length inputs = length qs -> Forall reducedG qs ->
    circuit qs inputs ctx_new = Ok (xs, c) ->
    let '(g, s) := configure cs_new in
    synthesise g s c = Ok (F, wt) ->
    (base_h c + 2 <= u)%nat -> (range_h c + 2 <= u)%nat -> (select_h c + 2 <= u)%nat -> 2 ^ 19 - 1 <= Z.of_nat u -> (u <= n)%nat ->
    cs_sat n u F adv s ->
    exists points, Forall2 (point_is w (read g adv)) xs (map aff points) /\ Forall (fun p => on_curve w b (aff p)) points /\ post (combine points qs) tt.
Proof.
  intros N18 qs inputs xs c F wt u n adv L HQ E. pose proof (p_gadget _ (pg_pairing qs inputs)) as PR.
  pose proof (C54_halo2_sound_main NM _ _ _ c F wt u n adv N18 PR E) as S. rewrite configured in *.
  intros HSY U1 U2 U3 U4 Un SAT. destruct (S HSY U1 U2 U3 U4 Un SAT) as (A & _ & RD & SD).
  destruct (pairing_disciplined qs inputs ctx_new _ _ ltac:(constructor) copies_new E) as (_ & _ & LX).
  assert (C : covered c) by (eapply program_covered; eauto using covered_new).
  destruct (SD _ (circuit_sound qs inputs L HQ)) as (ins & K1 & K2 & K3).
  exists ins. split; [|auto]. eapply points_ext; [|exact K1].
  intros a y Ha Hy. pose proof (ahandles_live _ _ _ (all_live_in _ _ _ LX Ha) Hy) as [L1 _]. unfold SpecInt.at_, read. apply RD.
  pose proof (C _ (or_introl L1)) as R. destruct (c_chip (a_cell y)); cbn [height] in R; lia.
Qed.

Lemma end_complete : 2 ^ 18 < nmod -> forall qs sample xs c, length sample = length qs -> Forall reducedG qs ->
    circuit qs sample ctx_new = Ok (xs, c) ->
    (0 < base_h c)%nat -> (let chunks := (base_h c + 15) / 16 in range_h c <= chunks * 16 * chunks)%nat ->
    let '(g, s) := configure cs_new in
    (exists F wt, synthesise g s c = Ok (F, wt))
 /\ forall F wt, synthesise g s c = Ok (F, wt) ->
    forall points, length points = length qs -> Forall (fun p => on_curve w b (aff p)) points -> pre (combine points qs) ->
    exists r c' F' wt', circuit qs points ctx_new = Ok (r, c') /\ synthesise g s c' = Ok (F', wt') /\ same_key F F' /\ (forall col row, 0 <= wt' col row < nmod)
      /\ forall u n adv, (base_h c + 2 <= u)%nat -> (range_h c + 2 <= u)%nat -> (select_h c + 2 <= u)%nat -> 2 ^ 19 - 1 <= Z.of_nat u -> (u <= n)%nat ->
        (forall col row, 0 <= adv col row < nmod) -> (forall col row, (row < u)%nat -> adv col row = wt' col row) ->
        cs_sat n u F adv s /\ Forall2 (point_is w (read g adv)) xs (map aff points).
Proof.
  intros N18 qs sample xs c LS HQ E B K.
  pose proof (C54_synthesis_succeeds_main NM _ _ _ _ c (p_gadget _ (pg_pairing qs sample)) (pairing_disciplined qs sample) E B K) as SY.
  rewrite configured in *. split; [exact SY|].
  intros F wt HSY points LEN HC HP.
  destruct (circuit_accepts qs points LEN HQ HC HP) as (xs' & c' & E' & _ & (OX & RX) & G). specialize (G good_new).
  destruct (sr_pairing qs sample points ltac:(congruence) ctx_new ctx_new _ _ c c' ltac:(constructor; reflexivity) E E') as (SX & SH).
  assert (B' : (0 < base_h c')%nat) by (rewrite <- (sh_base_h _ _ SH); exact B).
  assert (K' : (let chunks := (base_h c' + 15) / 16 in range_h c' <= chunks * 16 * chunks)%nat) by (rewrite <- (sh_base_h _ _ SH), <- (sh_range_h _ _ SH); exact K).
  pose proof (p_gadget _ (pg_pairing qs points)) as PR.
  pose proof (C54_synthesis_succeeds_main NM _ _ _ _ c' PR (pairing_disciplined qs points) E' B' K') as SY'.
  rewrite configured in SY'. destruct SY' as (F' & wt' & HSY').
  pose proof (one_key _ _ _ _ _ _ _ _ SH HSY HSY') as KEY.
  exists xs', c', F', wt'. split; [exact E'|]. split; [exact HSY'|]. split; [exact KEY|].
  split; [exact (witness_field _ _ _ _ _ (n_pos n_prime) (good_advs _ G) HSY')|].
  intros u n adv U1 U2 U3 U4 Un AF AW.
  rewrite (sh_base_h _ _ SH) in U1. rewrite (sh_range_h _ _ SH) in U2. rewrite (sh_select_h _ _ SH) in U3.
  pose proof (C54_halo2_complete_main NM _ _ _ c' F' wt' u n adv N18 PR E') as CM. rewrite configured in CM.
  assert (SAT : cs_sat n u F' adv css).
  { apply CM; auto. apply good_satisfies; [apply (n_pos n_prime)|exact G]. }
  split; [eapply same_key_sat; [|exact SAT]; destruct KEY as [Q1 Q2]; split; [intros; symmetry; apply Q1|symmetry; exact Q2]|].
  destruct (pairing_disciplined qs points ctx_new _ _ ltac:(constructor) copies_new E') as (_ & _ & LX).
  assert (C : covered c') by (eapply program_covered; eauto using covered_new).
  assert (EX : forall a y, In a xs' -> In y (ahandles a) -> a_val y = read cfg adv y).
  { intros a y Ha Hy. symmetry. rewrite Forall_forall in OX. destruct (ahandles_valid _ _ _ _ (OX a Ha) Hy) as (_ & GV & _).
    eapply read_honest; eauto; [apply fits_of; auto|]. eapply ahandles_live; [eapply all_live_in; eauto|exact Hy]. }
  assert (RC : forall a a', a_cell a = a_cell a' -> read cfg adv a = read cfg adv a') by (intros a a' Q; unfold read; rewrite Q; reflexivity).
  apply (points_same w _ RC xs'); [|exact (points_ext w _ _ _ _ EX RX)].
  clear -SX. induction SX as [|x y l l' [S1 S2 S3] _ IH]; constructor; auto. constructor; [apply saint_sym, S1|apply saint_sym, S2|symmetry; exact S3].
Qed.
End Gen.

Lemma C63_bn256_sound_main :
  forall (NM : NMod) I, prime nmod -> 2 ^ 18 < nmod -> range_info_new bn256_fq_p = Ok I ->
  forall qs inputs xs c F wt u n adv, length inputs = length qs -> Forall (fun q => reduced2 bn256_fq_p (fst q) /\ reduced2 bn256_fq_p (snd q)) qs ->
    pairing_circuit I 3 (bn_check_pairing I) qs inputs ctx_new = Ok (xs, c) ->
    let '(g, s) := configure cs_new in
    synthesise g s c = Ok (F, wt) ->
    (base_h c + 2 <= u)%nat -> (range_h c + 2 <= u)%nat -> (select_h c + 2 <= u)%nat -> 2 ^ 19 - 1 <= Z.of_nat u -> (u <= n)%nat ->
    cs_sat n u F adv s ->
    exists points, Forall2 (point_is bn256_fq_p (read g adv)) xs (map (fun p => pt_of (Some p)) points)
      /\ Forall (fun p => on_curve bn256_fq_p 3 (pt_of (Some p))) points
      /\ forall ls, bn_ate_terms (combine points qs) ls -> eq12 bn256_fq_p (bn_reduced_pairing ls) one12.
Proof.
  intros NM I P N18 H. destruct (C52_bn256_check_pairing_main NM I P H) as (M1 & M2 & _). info H.
  exact (end_sound bn256_fq_p I IO P bn256_fq_p_prime 3 ltac:(split; [discriminate|reflexivity]) _ _ _ (pg_bn_check_pairing I) (fun Wd P ts => ho_bn_check_pairing P I ts) M1 M2 N18).
Qed.

Lemma C63_bn256_complete_main :
  forall (NM : NMod) I, prime nmod -> 2 ^ 18 < nmod -> range_info_new bn256_fq_p = Ok I ->
  forall qs sample xs c, length sample = length qs -> Forall (fun q => reduced2 bn256_fq_p (fst q) /\ reduced2 bn256_fq_p (snd q)) qs ->
    pairing_circuit I 3 (bn_check_pairing I) qs sample ctx_new = Ok (xs, c) ->
    let '(g, s) := configure cs_new in
    (exists F wt, synthesise g s c = Ok (F, wt))
 /\ forall F wt, synthesise g s c = Ok (F, wt) ->
    forall points ls, length points = length qs -> Forall (fun p => on_curve bn256_fq_p 3 (pt_of (Some p))) points ->
    let ts := combine points qs in
    bn_ate_terms ts ls -> y_nonzero bn256_fq_p ts -> eq12 bn256_fq_p (bn_reduced_pairing ls) one12 ->
    exists r c' F' wt', pairing_circuit I 3 (bn_check_pairing I) qs points ctx_new = Ok (r, c') /\ synthesise g s c' = Ok (F', wt') /\ same_key F F' /\ (forall col row, 0 <= wt' col row < nmod)
      /\ forall u n adv, (base_h c + 2 <= u)%nat -> (range_h c + 2 <= u)%nat -> (select_h c + 2 <= u)%nat -> 2 ^ 19 - 1 <= Z.of_nat u -> (u <= n)%nat ->
        (forall col row, 0 <= adv col row < nmod) -> (forall col row, (row < u)%nat -> adv col row = wt' col row) ->
        cs_sat n u F adv s /\ Forall2 (point_is bn256_fq_p (read g adv)) xs (map (fun p => pt_of (Some p)) points).
Proof.
  intros NM I P N18 H qs sample xs c LS HQ E. destruct (C52_bn256_check_pairing_main NM I P H) as (M1 & M2 & HS). info H.
  assert (L4 : (ri_limbs I <= 4)%nat) by (pose proof (io_limbs _ _ IO) as L; rewrite (wb_w_bits _ _ IO) in L; change ((w_bits bn256_fq_p + 107) / 108) with 3 in L; lia).
  destruct (bn_chunks _ _ _ _ _ _ L4 E) as [B K].
  assert (HD := HS); unfold honest_size in HD; rewrite <- (hd_bits _ _ IO) in HD.
  pose proof (end_complete bn256_fq_p I IO P bn256_fq_p_prime 3 ltac:(split; [discriminate|reflexivity]) _ _ _ (pg_bn_check_pairing I) (fun Wd P ts => ho_bn_check_pairing P I ts)
    (sr_bn_check_pairing I) M1 HD HS N18 qs sample xs c LS HQ E B K) as Q.
  destruct (configure cs_new) as [g s]. destruct Q as [Q1 Q2]. split; [exact Q1|]. intros F wt HSY points ls L HC ts T1 T2 T3.
  apply (Q2 F wt HSY points L HC). exists ls. exact (conj T1 (conj T2 T3)).
Qed.

Lemma C63_bls12_381_sound_main :
  forall (NM : NMod) I, prime nmod -> 2 ^ 18 < nmod -> range_info_new bls12_381_fq_p = Ok I ->
  forall qs inputs xs c F wt u n adv, length inputs = length qs -> Forall (fun q => reduced2 bls12_381_fq_p (fst q) /\ reduced2 bls12_381_fq_p (snd q)) qs ->
    pairing_circuit I 4 (bls_check_pairing I) qs inputs ctx_new = Ok (xs, c) ->
    let '(g, s) := configure cs_new in
    synthesise g s c = Ok (F, wt) ->
    (base_h c + 2 <= u)%nat -> (range_h c + 2 <= u)%nat -> (select_h c + 2 <= u)%nat -> 2 ^ 19 - 1 <= Z.of_nat u -> (u <= n)%nat ->
    cs_sat n u F adv s ->
    exists points, Forall2 (point_is bls12_381_fq_p (read g adv)) xs (map (fun p => pt_of (Some p)) points)
      /\ Forall (fun p => on_curve bls12_381_fq_p 4 (pt_of (Some p))) points
      /\ forall ls, bls_ate_terms (combine points qs) ls -> eq12 bls12_381_fq_p (bls_reduced_pairing ls) one12.
Proof.
  intros NM I P N18 H. destruct (C52_bls12_381_check_pairing_main NM I P H) as (M1 & M2 & _). info H.
  exact (end_sound bls12_381_fq_p I IO P bls12_381_fq_p_prime 4 ltac:(split; [discriminate|reflexivity]) _ _ _ (pg_bls_check_pairing I) (fun Wd P ts => ho_bls_check_pairing P I ts) M1 M2 N18).
Qed.

Lemma C63_bls12_381_complete_main :
  forall (NM : NMod) I, prime nmod -> 2 ^ 18 < nmod -> range_info_new bls12_381_fq_p = Ok I ->
  forall qs sample xs c, length sample = length qs -> Forall (fun q => reduced2 bls12_381_fq_p (fst q) /\ reduced2 bls12_381_fq_p (snd q)) qs ->
    pairing_circuit I 4 (bls_check_pairing I) qs sample ctx_new = Ok (xs, c) ->
    let '(g, s) := configure cs_new in
    (exists F wt, synthesise g s c = Ok (F, wt))
 /\ forall F wt, synthesise g s c = Ok (F, wt) ->
    forall points ls, length points = length qs -> Forall (fun p => on_curve bls12_381_fq_p 4 (pt_of (Some p))) points ->
    let ts := combine points qs in
    bls_ate_terms ts ls -> y_nonzero bls12_381_fq_p ts -> eq12 bls12_381_fq_p (bls_reduced_pairing ls) one12 ->
    exists r c' F' wt', pairing_circuit I 4 (bls_check_pairing I) qs points ctx_new = Ok (r, c') /\ synthesise g s c' = Ok (F', wt') /\ same_key F F' /\ (forall col row, 0 <= wt' col row < nmod)
      /\ forall u n adv, (base_h c + 2 <= u)%nat -> (range_h c + 2 <= u)%nat -> (select_h c + 2 <= u)%nat -> 2 ^ 19 - 1 <= Z.of_nat u -> (u <= n)%nat ->
        (forall col row, 0 <= adv col row < nmod) -> (forall col row, (row < u)%nat -> adv col row = wt' col row) ->
        cs_sat n u F adv s /\ Forall2 (point_is bls12_381_fq_p (read g adv)) xs (map (fun p => pt_of (Some p)) points).
Proof.
  intros NM I P N18 H qs sample xs c LS HQ E. destruct (C52_bls12_381_check_pairing_main NM I P H) as (M1 & M2 & HS). info H.
  assert (L4 : (ri_limbs I <= 4)%nat) by (pose proof (io_limbs _ _ IO) as L; rewrite (wb_w_bits _ _ IO) in L; change ((w_bits bls12_381_fq_p + 107) / 108) with 4 in L; lia).
  destruct (bls_chunks _ _ _ _ _ _ L4 E) as [B K].
  assert (HD := HS); unfold honest_size in HD; rewrite <- (hd_bits _ _ IO) in HD.
  pose proof (end_complete bls12_381_fq_p I IO P bls12_381_fq_p_prime 4 ltac:(split; [discriminate|reflexivity]) _ _ _ (pg_bls_check_pairing I) (fun Wd P ts => ho_bls_check_pairing P I ts)
    (sr_bls_check_pairing I) M1 HD HS N18 qs sample xs c LS HQ E B K) as Q.
  destruct (configure cs_new) as [g s]. destruct Q as [Q1 Q2]. split; [exact Q1|]. intros F wt HSY points ls L HC ts T1 T2 T3.
  apply (Q2 F wt HSY points L HC). exists ls. exact (conj T1 (conj T2 T3)).
Qed.
