(** Proofs of completion of the multi-scalar multiplication (C57). *)
From Verif Require Import Prelude FieldZ Circuit Context Spec Logic ModArith Prims BaseChip BaseProofs
  RangeInfo RangeChip IntegerChip SpecInt InfoProofs IntArith RangeProofs IntInv IntSound IntComplete IntBridge
  IntRes EccChip SpecEcc Curve EccArith EccProofs EccHonest EccBridge EccEncode SpecMsm PointSum ScalarChip ScalarProofs
  Msm ParWindows MsmProofs SpecSelect SpecCalls SelectProofs BnOrder Moduli Fields
  NativeMain IntMain EccMain MsmMain SelectMain HonestLogic HonestScalar HonestMsm HonestTop HonestMain
  SpecSchedule TotalLogic TotalMsm TotalSel TotalTop ExpSchedule.
Section Msm.
Context {NM : NMod}.
Variables (w : Z) (I : rinfo) (b : Z).
Hypothesis n_prime : prime nmod.
Hypothesis w_prime : prime w.
Hypothesis HI : range_info_new w = Ok I.
Hypothesis b_range : 0 < b < w.
Hypothesis HD : (w_bits w + 13) mod 108 <> 0.
Lemma hpvs_of c points ps : Forall (fun a => point_ok w c a valid) points -> Forall2 (point_is w a_val) points ps -> Forall (on_curve w b) ps ->
  Forall2 (hpv w I b c) points ps.
Proof.
  intros F1 F2 F3. induction F2 as [|a p l l' H F2 IH]; [constructor|]. inversion F1; inversion F3; subst. constructor; [|auto].
  destruct (hp_of w I (IOI w I HI) c a p ltac:(auto) H) as (x & y & z & Hp & E). exists x, y, z. auto.
Qed.
Lemma msm_runs {S} (dec_ : S -> M (list (list acond))) bis_ zero_ (sv : ctx -> S -> Z -> Prop) m c xg yg xa ya xl yl prefix points ps scalars vs :
  (forall c d s v, extends c d -> sv c s v -> sv d s v) -> (1 <= m)%nat ->
  (forall c s v, wf c -> sv c s v -> CT c (dec_ s) (fun ws c' => bits_are c' m ws v)) ->
  (forall c k d s t u v, wf c -> cb c k d -> sv c s u -> sv c t v -> CT c (bis_ k s t) (fun r c' => sv c' r (if d then u else v))) ->
  (forall c, wf c -> CT c zero_ (fun r c' => sv c' r 0)) ->
  good c -> Forall (on_curve w b) [Aff xg yg; Aff xa ya; Aff xl yl] ->
  Forall (fun a => point_ok w c a valid) points -> Forall2 (point_is w a_val) points ps -> Forall (on_curve w b) ps -> Forall2 (sv c) scalars vs ->
  length points = length scalars -> points <> [] -> (forall p, prefix = Some p -> Z.of_nat (length points) <= 2 ^ 20 /\ p < 2 ^ 28) ->
  msm_schedule w (if prefix then 5 else 2) m (Aff xg yg) (Aff xa ya) (Aff xl yl) (combine ps vs) ->
  exists r prefix' c', msm I b dec_ bis_ zero_ (Some (xg, yg)) (Some (xa, ya)) (Some (xl, yl)) prefix points scalars c = Ok ((r, prefix'), c').
Proof.
  intros M1 M0 M2 M3 M4 G F F1 F2 F3 F4 LL NE HP HS. inversion F as [|? ? A1 F']; subst. inversion F' as [|? ? A2 F'']; subst. inversion F'' as [|? ? A3 _]; subst.
  assert (HD' : ri_d_bits I mod 108 <> 0) by (rewrite (hd_bits _ _ (IOI w I HI)); exact HD).
  pose proof (Cost.F2_len _ _ _ F2) as L1. pose proof (Cost.F2_len _ _ _ F4) as L2.
  assert (K : CT c (msm I b dec_ bis_ zero_ (Some (xg, yg)) (Some (xa, ya)) (Some (xl, yl)) prefix points scalars) (fun r c' => vp w I b c' (fst r))).
  { eapply CT_weaken; [eapply (msm_T w I (IOI w I HI) n_prime w_prime HD' b b_range S dec_ bis_ zero_ sv M1 m M0 M2 M3 M4 c xg yg xa ya xl yl prefix points ps scalars vs); auto|].
    - apply (good_wf _ G).
    - apply hpvs_of; auto.
    - lia.
    - destruct ps; [|discriminate]. destruct points; [congruence|discriminate].
    - intros p Ep. rewrite <- L1. exact (HP p Ep).
    - intros r0 c' _ _ H0. cbv beta in H0. destruct H0 as [H0 _]. exact H0. }
  destruct (CT_accepts _ _ _ K) as ([r q] & c' & R & _). eauto.
Qed.
End Msm.
Lemma nat_scalars {NM : NMod} c scalars : Forall (valid c) scalars -> Forall2 (nsv c) scalars (map a_val scalars).
Proof. induction 1; constructor; auto. split; auto. Qed.
Lemma int_scalars {NM : NMod} r J c scalars : info_ok r J -> Forall (fun s => int_ok r c s valid) scalars -> Forall2 (gsvv r J c) scalars (map (fun s => int_value a_val s mod r) scalars).
Proof. intros JO. induction 1 as [|s l H F IH]; constructor; auto. exists (int_value a_val s). split; [|reflexivity]. apply (cr_ok r J JO). split; [exact H|reflexivity]. Qed.

(** For the examples. *)
Lemma lin_one w p v q : lin_sum w [(p, v)] q -> multiple w p v q.
Proof.
  intros H. inversion H as [|? ? ? q1 s r M L A]; subst. inversion L; subst. inversion A; subst; auto.
Qed.
Lemma bn_schedule v best m : (1 <= best)%nat -> 0 <= v < 2 ^ Z.of_nat m -> v + 20 < bn256_fr_p -> exists xa ya xl yl,
  multiple bn256_fq_p (Aff 1 2) 3 (Aff xa ya) /\ multiple bn256_fq_p (Aff 1 2) 4 (Aff xl yl)
  /\ on_curve bn256_fq_p 3 (Aff xa ya) /\ on_curve bn256_fq_p 3 (Aff xl yl)
  /\ msm_schedule bn256_fq_p best m (Aff 1 2) (Aff xa ya) (Aff xl yl) [(Aff 1 2, v)].
Proof.
  intros Hb Hv Hn. assert (Hg : on_curve bn256_fq_p 3 (Aff 1 2)) by (split; [|split]; [split; [discriminate|reflexivity]..|reflexivity]).
  assert (w3 : 3 < bn256_fq_p) by reflexivity. assert (b0 : 3 mod bn256_fq_p <> 0) by (vm_compute; discriminate).
  set (G := mkO bn256_fq_p 3 (Aff 1 2) Hg).
  assert (G0 : G <> czero bn256_fq_p 3) by (intros K; apply (f_equal (cp _ _)) in K; discriminate).
  assert (Gn : cmul bn256_fq_p 3 bn256_fq_p_prime bn256_fr_p G = czero bn256_fq_p 3).
  { apply cp_inj. symmetry. apply (multiple_eq bn256_fq_p 3 bn256_fq_p_prime w3 b0 G bn256_fr_p Inf). exact bn_generator_order. }
  pose proof (one_point bn256_fq_p 3 bn256_fr_p bn256_fq_p_prime w3 b0 bn256_fr_prime G G0 Gn best m v Hb Hv Hn) as HS.
  assert (M : forall k, 0 <= k < bn256_fr_p -> multiple bn256_fq_p (Aff 1 2) k (pe bn256_fq_p 3 bn256_fr_p bn256_fq_p_prime G k)).
  { intros k Hk. unfold pe, E. rewrite Z.mod_small by exact Hk. apply (multiple_cmul bn256_fq_p 3 bn256_fq_p_prime w3 b0 G). apply Hk. }
  destruct (pe_aff bn256_fq_p 3 bn256_fr_p bn256_fq_p_prime w3 b0 bn256_fr_prime G G0 Gn 3 ltac:(vm_compute; discriminate)) as (xa & ya & E3).
  destruct (pe_aff bn256_fq_p 3 bn256_fr_p bn256_fq_p_prime w3 b0 bn256_fr_prime G G0 Gn 4 ltac:(vm_compute; discriminate)) as (xl & yl & E4).
  exists xa, ya, xl, yl. rewrite <- E3, <- E4.
  split; [apply M; split; [discriminate|reflexivity]|]. split; [apply M; split; [discriminate|reflexivity]|]. split; [apply pe_on|]. split; [apply pe_on|].
  unfold msm_schedule, replaced. cbn [map fst snd]. replace (Aff 1 2) with (pe bn256_fq_p 3 bn256_fr_p bn256_fq_p_prime G 1); [exact HS|].
  unfold pe, E. rewrite Z.mod_small by (split; [discriminate|reflexivity]). rewrite (cmul_1 bn256_fq_p 3 bn256_fq_p_prime). reflexivity.
Qed.

Lemma C57_msm_native_completes_main :
  forall (NM : NMod) w I b, prime nmod -> prime w -> range_info_new w = Ok I -> 3 < w -> 0 < b < w ->
    (w_bits w + 13) mod 108 <> 0 -> Z.of_nat (ri_limbs I) < 2 ^ 62 ->
  forall c xg yg xa ya xl yl prefix points ps scalars,
    good c -> Forall (on_curve w b) [Aff xg yg; Aff xa ya; Aff xl yl] ->
    Forall (fun a => point_ok w c a valid) points -> Forall2 (point_is w a_val) points ps -> Forall (on_curve w b) ps ->
    Forall (valid c) scalars ->
    length points = length scalars -> points <> [] ->
    (forall p, prefix = Some p -> Z.of_nat (length points) <= 2 ^ 20 /\ p < 2 ^ 28) ->
    let inputs := combine ps (map a_val scalars) in
    msm_schedule w (if prefix then 5 else 2) (Z.to_nat (Z.log2 nmod + 1)) (Aff xg yg) (Aff xa ya) (Aff xl yl) inputs ->
    exists r prefix' c',
      msm_native I b (Some (xg, yg)) (Some (xa, ya)) (Some (xl, yl)) prefix points scalars c = Ok ((r, prefix'), c')
   /\ extends c c' /\ good c' /\ satisfies c' (honest c') /\ point_ok w c' r valid
   /\ ((forall p, prefix = Some p -> calls (ctx_new, 0) (c, p)) ->
       (forall p, In p ps -> multiple w p nmod Inf) -> (In Inf ps -> forall g, on_curve w b g -> multiple w g nmod Inf) ->
       exists q, point_is w a_val r q /\ on_curve w b q /\ lin_sum w inputs q).
Proof.
  intros NM w I b P PW H W3 Hb HD HL c xg yg xa ya xl yl prefix points ps scalars G F F1 F2 F3 F4 LL NE HP inputs HS.
  destruct (msm_runs w I b P PW H Hb HD (decompose_scalar_native 1) bisec (assign_constant 0) nsv (Z.to_nat (Z.log2 nmod + 1))
    c xg yg xa ya xl yl prefix points ps scalars (map a_val scalars)) as (r & q & c' & R); auto.
  - intros c0 d s v E [V K]. split; [eapply valid_mono; eauto|exact K].
  - pose proof (Z.log2_nonneg nmod). lia.
  - apply (native_dec_T P).
  - apply (native_bis_T P).
  - apply (native_zero_T P).
  - apply nat_scalars, F4.
  - exists r, q, c'. split; [exact R|]. inversion F as [|? ? A1 F']; subst. inversion F' as [|? ? A2 F'']; subst. inversion F'' as [|? ? A3 _]; subst.
    destruct (C53_msm_native_honest_main NM w I b P PW H W3 Hb HD HL c (Some (xg, yg)) (Some (xa, ya)) (Some (xl, yl)) prefix points ps scalars r q c') as ((X & G' & S & V) & K); auto.
    { repeat constructor; eauto. }
    split; [exact X|]. split; [exact G'|]. split; [exact S|]. split; [exact V|]. intros K1 K2 K3. destruct (K K1) as (z & Z1 & Z2 & _ & Z3). exists z. auto.
Qed.

Lemma C57_msm_general_completes_main :
  forall (NM : NMod) w I b r J, prime nmod -> prime w -> range_info_new w = Ok I -> 3 < w -> 0 < b < w ->
    (w_bits w + 13) mod 108 <> 0 -> Z.of_nat (ri_limbs I) < 2 ^ 62 -> prime r -> range_info_new r = Ok J ->
  forall c xg yg xa ya xl yl prefix points ps scalars,
    good c -> Forall (on_curve w b) [Aff xg yg; Aff xa ya; Aff xl yl] ->
    Forall (fun a => point_ok w c a valid) points -> Forall2 (point_is w a_val) points ps -> Forall (on_curve w b) ps ->
    Forall (fun s => int_ok r c s valid) scalars ->
    length points = length scalars -> points <> [] ->
    (forall p, prefix = Some p -> Z.of_nat (length points) <= 2 ^ 20 /\ p < 2 ^ 28) ->
    let inputs := combine ps (map (fun s => int_value a_val s mod r) scalars) in
    msm_schedule w (if prefix then 5 else 2) (108 * ri_limbs J) (Aff xg yg) (Aff xa ya) (Aff xl yl) inputs ->
    exists x prefix' c',
      msm_general I J b (Some (xg, yg)) (Some (xa, ya)) (Some (xl, yl)) prefix points scalars c = Ok ((x, prefix'), c')
   /\ extends c c' /\ good c' /\ satisfies c' (honest c') /\ point_ok w c' x valid
   /\ ((forall p, prefix = Some p -> calls (ctx_new, 0) (c, p)) ->
       (forall p, In p ps -> multiple w p r Inf) -> (In Inf ps -> forall g, on_curve w b g -> multiple w g r Inf) ->
       exists q, point_is w a_val x q /\ on_curve w b q /\ lin_sum w inputs q).
Proof.
  intros NM w I b r J P PW H W3 Hb HD HL PR HJ c xg yg xa ya xl yl prefix points ps scalars G F F1 F2 F3 F4 LL NE HP inputs HS.
  pose proof (range_info_ok _ _ HJ) as JO.
  destruct (msm_runs w I b P PW H Hb HD (decompose_scalar_general J 1) (bisec_int J) (assign_int_constant J 0) (gsvv r J) (108 * ri_limbs J)
    c xg yg xa ya xl yl prefix points ps scalars (map (fun s => int_value a_val s mod r) scalars)) as (x & q & c' & R); auto.
  - intros c0 d s v. apply gsvv_mono.
  - pose proof (io_L3 _ _ JO). lia.
  - apply (general_dec_T P r J JO PR).
  - apply (general_bis_T P r J JO).
  - apply (general_zero_T P r J JO PR).
  - apply int_scalars; auto.
  - exists x, q, c'. split; [exact R|]. inversion F as [|? ? A1 F']; subst. inversion F' as [|? ? A2 F'']; subst. inversion F'' as [|? ? A3 _]; subst.
    destruct (C53_msm_general_honest_main NM w I b r J P PW H W3 Hb HD HL PR HJ c (Some (xg, yg)) (Some (xa, ya)) (Some (xl, yl)) prefix points ps scalars x q c') as ((X & G' & S & V) & K); auto.
    { repeat constructor; eauto. }
    split; [exact X|]. split; [exact G'|]. split; [exact S|]. split; [exact V|]. intros K1 K2 K3. destruct (K K1) as (z & Z1 & Z2 & _ & Z3). exists z. auto.
Qed.

