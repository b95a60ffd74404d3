(** Proofs of the pairing properties (C46-C48, C52) from the rules of the gadgets. *)
From Coq Require Import Znumtheory.
From Verif Require Import Prelude FieldZ Circuit Context Spec Logic ModArith RangeInfo IntegerChip SpecInt InfoProofs Prims BaseChip BaseProofs IntArith
  EccChip SpecTower TowerRing Cyclotomic Frobenius PairingExp Fq12Chip TowerProofs TowerInst PairingConsts PairingChip PairingFacts PairingProofs SpecTowerRep TowerBridge TowerField
  SpecPairing SpecAte PairingCurve PairingAte SpecPairingRep PairingBridge AteExample Moduli Fields NativeMain IntMain TowerMain.
Lemma bn_honest : honest_size bn256_fq_p. Proof. exact (proj1 honest_case). Qed.
Lemma bls_honest : honest_size bls12_381_fq_p. Proof. exact (proj2 honest_case). Qed.
(** With w for the literal prime, so that nothing is unfolded. *)
Lemma unit_nonzero w xi f : 1 < w -> (exists y, eq12 w (mul12 xi f y) one12) -> ~ eq12 w f zero12.
Proof.
  intros W1 [y E] K. rewrite K in E. assert (Z0 : mul12 xi zero12 y = zero12).
  { destruct y as [[[a b] c] [[d e] f0]]. Add Ring F2q : F2_ring. unfold mul12, mul6, zero12, zero6, add6, v6. repeat apply pair_eq; ring. }
  rewrite Z0 in E. destruct E as [[[E _] _] _]. change (0 ≡ 1 ⟨w⟩) in E. unfold eqm in E. rewrite Z.mod_0_l, Z.mod_1_l in E by lia. discriminate.
Qed.
Section BnGen.
Context {NM : NMod}.
Variable w : Z.
Hypothesis Ew : w = bn256_fq_p.
Variable I : rinfo.
Hypothesis IO : info_ok w I.
Hypothesis P : prime nmod.
Hypothesis PW : prime w.
Hypothesis field12 : forall x, ~ eq12 w x zero12 -> exists y, eq12 w (mul12 bn_xi x y) one12.
Lemma bn_final_gen : maps w (fq12r w) (fq12r w) no_flags (bn_final_exponentiation I)
  (fun f => ~ eq12 w f zero12) (fun f g => ~ eq12 w f zero12 /\ g = pow12 bn_xi f ((w ^ 12 - 1) / bn256_fr_p)).
Proof.
  apply (cmap_total w I IO P PW _ _ (b12 w I IO) _ _ (b12 w I IO)). intros W le TR rep zok strict RU LR v a x Ha _ HS.
  eapply (T_weaken _ _ _ _ _ _ _ _ RU); [apply (bn_final_T w I W le TR rep zok strict RU LR (w_gt1 w PW) Ew); [exact Ha|intros S; apply field12, HS, S]|].
  intros r u _ [U K]. eexists. split; [exact K|]. split; [|reflexivity]. exact (unit_nonzero w bn_xi x (w_gt1 w PW) U).
Qed.
End BnGen.
Section BlsGen.
Context {NM : NMod}.
Variable w : Z.
Hypothesis Ew : w = bls12_381_fq_p.
Variable I : rinfo.
Hypothesis IO : info_ok w I.
Hypothesis P : prime nmod.
Hypothesis PW : prime w.
Hypothesis field12 : forall x, ~ eq12 w x zero12 -> exists y, eq12 w (mul12 bls_xi x y) one12.
Lemma bls_final_gen : maps w (fq12r w) (fq12r w) no_flags (bls_final_exponentiation I)
  (fun f => ~ eq12 w f zero12) (fun f g => ~ eq12 w f zero12 /\ g = pow12 bls_xi f (3 * ((w ^ 12 - 1) / bls12_381_fr_p))).
Proof.
  apply (cmap_total w I IO P PW _ _ (b12 w I IO) _ _ (b12 w I IO)). intros W le TR rep zok strict RU LR v a x Ha _ HS.
  eapply (T_weaken _ _ _ _ _ _ _ _ RU); [apply (bls_final_T w I W le TR rep zok strict RU LR (w_gt1 w PW) Ew); [exact Ha|intros S; apply field12, HS, S]|].
  intros r u _ [U K]. eexists. split; [exact K|]. split; [|reflexivity]. exact (unit_nonzero w bls_xi x (w_gt1 w PW) U).
Qed.
End BlsGen.
Lemma r_divides p r : 0 < r -> (r | Phi p) -> (r | p ^ 12 - 1).
Proof.
  intros R [q E]. unfold Phi in E. exists ((p ^ 6 - 1) * (p ^ 2 + 1) * q).
  transitivity ((p ^ 6 - 1) * (p ^ 2 + 1) * (p ^ 4 - p ^ 2 + 1)); [ring|]. rewrite E. ring.
Qed.

Lemma C46_bn256_final_exponentiation_main :
  forall (NM : NMod) I, prime nmod -> range_info_new bn256_fq_p = Ok I ->
    maps bn256_fq_p (fq12r bn256_fq_p) (fq12r bn256_fq_p) no_flags (bn_final_exponentiation I)
      (fun f => ~ eq12 bn256_fq_p f zero12)
      (fun f g => ~ eq12 bn256_fq_p f zero12 /\ g = pow12 bn_xi f ((bn256_fq_p ^ 12 - 1) / bn256_fr_p))
 /\ honest_size bn256_fq_p
 /\ prime bn256_fr_p /\ (bn256_fr_p | bn256_fq_p ^ 12 - 1).
Proof.
  intros NM I P H. info H. split.
  - exact (bn_final_gen bn256_fq_p eq_refl I IO P bn256_fq_p_prime bn_field).
  - split; [exact bn_honest|]. split; [exact bn256_fr_prime|]. exact (r_divides bn256_fq_p bn256_fr_p eq_refl bn_r_div).
Qed.

Lemma C46_bls12_381_final_exponentiation_main :
  forall (NM : NMod) I, prime nmod -> range_info_new bls12_381_fq_p = Ok I ->
    maps bls12_381_fq_p (fq12r bls12_381_fq_p) (fq12r bls12_381_fq_p) no_flags (bls_final_exponentiation I)
      (fun f => ~ eq12 bls12_381_fq_p f zero12)
      (fun f g => ~ eq12 bls12_381_fq_p f zero12 /\ g = pow12 bls_xi f (3 * ((bls12_381_fq_p ^ 12 - 1) / bls12_381_fr_p)))
 /\ honest_size bls12_381_fq_p
 /\ prime bls12_381_fr_p /\ (bls12_381_fr_p | bls12_381_fq_p ^ 12 - 1) /\ rel_prime 3 bls12_381_fr_p.
Proof.
  intros NM I P H. info H. split.
  - exact (bls_final_gen bls12_381_fq_p eq_refl I IO P bls12_381_fq_p_prime bls_field).
  - split; [exact bls_honest|]. split; [exact bls12_381_fr_p_prime|].
    split; [exact (r_divides bls12_381_fq_p bls12_381_fr_p eq_refl bls_r_div)|].
    apply Zgcd_1_rel_prime. vm_compute. reflexivity.
Qed.

Add Ring F2q2 : F2_ring.
Lemma dbl_k_eq X : dbl_k X = smul2 4 (mul2 (t1 X) (mul2 (t2 X) (mul2 (t2 X) (t2 X)))).
Proof.
  destruct X as [[x y] z]. unfold dbl_k. cbn [t1 t2 fst snd]. replace (smul2 4 (mul2 y (mul2 z (mul2 z z)))) with (smul2 2 (smul2 2 (mul2 y (mul2 z (mul2 z z))))).
  - rewrite !smul2_2. ring.
  - destruct (mul2 _ _) as [a b]. unfold smul2. apply pair_eq; ring.
Qed.

Lemma C47_doubling_step_main :
  forall (NM : NMod) w I, prime nmod -> prime w -> range_info_new w = Ok I ->
    maps w (jacr w) (pairr (jacr w) (fq6r w)) no_flags (doubling_step I) (fun _ => True)
      (fun X r => let '(X', l) := r in
         eq2 w (t2 X') (smul2 2 (mul2 (t1 X) (t2 X)))
      /\ forall P lam, jacobian w X P -> tangent w P lam ->
           jacobian w X' (sum_by lam P P)
        /\ eq6 w l (scale (smul2 4 (mul2 (t1 X) (mul2 (t2 X) (mul2 (t2 X) (t2 X))))) (line_by lam P))).
Proof.
  intros NM w I P PW H. info H.
  apply (cmap_total w I IO P PW _ _ (bjac w I IO) _ _ (bpair w I _ _ (bjac w I IO) _ _ (b6 w I IO))).
  intros W le TR rep zok strict RU LR v a X Ha _ _.
  eapply (T_weaken _ _ _ _ _ _ _ _ RU); [apply (doubling_step_T w I W le TR rep zok strict RU LR (w_gt1 w PW)); exact Ha|].
  intros r u _ [K1 K2]. exists (dbl_pt X, dbl_line X). split; [split; [exact K1|exact K2]|]. cbv iota beta. split.
  - rewrite dbl_z, smul2_2. reflexivity.
  - intros Q lam HJ HT. rewrite <- dbl_k_eq. exact (dbl_jac w X Q lam HJ HT).
Qed.

Lemma C47_addition_step_main :
  forall (NM : NMod) w I, prime nmod -> prime w -> range_info_new w = Ok I ->
    maps w (pairr (jacr w) (g2r w)) (pairr (jacr w) (fq6r w)) no_flags (fun a => addition_step I (fst a) (snd a)) (fun _ => True)
      (fun x r => let '(X, Q) := x in let '(X', l) := r in
         forall P lam, jacobian w X P -> chord w P Q lam ->
           jacobian w X' (sum_by lam P Q)
        /\ eq2 w (t2 X') (smul2 2 (mul2 (sub2 (fst Q) (fst P)) (mul2 (t2 X) (mul2 (t2 X) (t2 X)))))
        /\ eq6 w l (scale (smul2 2 (t2 X')) (line_by lam Q))).
Proof.
  intros NM w I P PW H. info H.
  apply (cmap_total w I IO P PW _ _ (bpair w I _ _ (bjac w I IO) _ _ (bg2 w I IO)) _ _ (bpair w I _ _ (bjac w I IO) _ _ (b6 w I IO))).
  intros W le TR rep zok strict RU LR v [a b] [X Q] [Ha Hb] _ _. cbn [fst snd] in *.
  eapply (T_weaken _ _ _ _ _ _ _ _ RU); [apply (addition_step_T w I W le TR rep zok strict RU LR (w_gt1 w PW)); [exact Ha|exact Hb]|].
  intros r u _ [K1 K2]. exists (add_pt X Q, add_line X Q). split; [split; [exact K1|exact K2]|]. cbv iota beta.
  intros R lam HJ HC. destruct (add_jac w X R Q Q lam (eq2_by w _ _ eq_refl) (eq2_by w _ _ eq_refl) HJ HC) as [J1 J2]. split; [exact J1|]. split.
  - rewrite add_z, smul2_2, (add_h_eq w X R Q Q (eq2_by w _ _ eq_refl) HJ). apply eq2_by. ring.
  - rewrite add_z, smul2_2. replace (add2 (mul2 (t2 X) (add2 (add_h X Q) (add_h X Q))) (mul2 (t2 X) (add2 (add_h X Q) (add_h X Q)))) with (add_k X Q); [exact J2|].
    destruct X as [[x y] z]. unfold add_k. cbn [t2 fst snd]. reflexivity.
Qed.

Section BnLoop.
Context {NM : NMod}.
Variable w : Z.
Hypothesis Ew : w = bn256_fq_p.
Variable I : rinfo.
Hypothesis IO : info_ok w I.
Hypothesis P : prime nmod.
Hypothesis PW : prime w.
Lemma bn_miller_gen : maps w (listr (pairr (g1r w) (listr (fq6r w)))) (fq12r w) point_flags (bn_multi_miller_loop I)
  (fun ts => Forall (fun t => length (snd t) = bn_total) ts) (fun ts f => f = fst (bn_miller bn_digits ts)).
Proof.
  refine (cmap w I IO P PW _ _ (blist w I _ _ (bpair w I _ _ (bg1 w I IO) _ _ (blist w I _ _ (b6 w I IO)))) _ _ (b12 w I IO) point_flags (bn_multi_miller_loop I) _ _
    (fun (_ : apairs) ts => bn_all_ok ts) _ _ _).
  - intros A a. eapply PC_weaken; [apply bn_miller_length|]. intros r0 L x Hx. unfold bn_all_ok.
    cbv beta in L. clear - L Hx. induction Hx as [|? ? ? ? [_ K] Hx IH]; [constructor|]. pose proof (Forall_inv L) as L1. pose proof (Forall_inv_tail L) as L2.
    constructor; [|exact (IH L2)]. cbn [fst snd listr] in K. apply F2_length in K. rewrite <- K. exact L1.
  - intros c a x _ K. exact K.
  - intros W le TR rep zok strict RU LR v a x D Ha HF _.
    eapply (T_weaken _ _ _ _ _ _ _ _ RU); [apply (bn_miller_T w I W le TR rep zok strict RU LR (w_gt1 w PW)); [exact Ew| |exact D|]|].
    + eapply F2_impl; [|exact Ha]. intros q t [[H1 H2] H3]. split; [exact H1|]. split; [exact H2|exact H3].
    + unfold point_flags in HF. apply (proj1 (Forall_map _ _ _)) in HF. exact HF.
    + intros r u _ K. eexists. split; [exact K|]. apply bn_mresult_spec.
Qed.
Lemma bn_clears_miller : clears point_flags (bn_multi_miller_loop I).
Proof.
  intros l. apply ST_sound. intros T A HA. eapply ST_weaken; [apply (bn_miller_zero I P T A l); exact HA|]. intros r K. cbv beta in K. unfold point_flags. apply Forall_map. exact K.
Qed.
Lemma bn_clears_pairing : clears pair_flags (bn_pairing I).
Proof.
  intros l. apply ST_sound. intros T A HA. apply (pairing_zero T A); [intros; app3|intros; app3|intros; app3| |].
  - intros g. apply (bn_prepare_zero I P T A g HA).
  - intros ps. apply (bn_miller_zero I P T A ps HA).
Qed.
Lemma bn_clears_check : clears pair_flags (bn_check_pairing I).
Proof.
  intros l. apply ST_sound. intros T A HA. unfold bn_check_pairing. apply ST_first; [app3|intros; app3|].
  apply (pairing_zero T A); [intros; app3|intros; app3|intros; app3| |].
  - intros g. apply (bn_prepare_zero I P T A g HA).
  - intros ps. apply (bn_miller_zero I P T A ps HA).
Qed.
Hypothesis P4 : w mod 4 = 3.
Hypothesis field2 : forall x, ~ eq2 w x zero2 -> exists y, eq2 w (mul2 x y) one2.
Hypothesis field12 : forall x, ~ eq12 w x zero12 -> exists y, eq12 w (mul12 bn_xi x y) one12.
Hypothesis w_odd : 2 < w.
Hypothesis exps : exists m, 0 <= m /\ (w ^ 12 - 1) / bn256_fr_p = (w ^ 6 - 1) * m /\ (w ^ 12 - 1) / bn256_fr_p = (w ^ 2 - 1) * ((w ^ 4 + w ^ 2 + 1) * m).
Notation terms := (Forall2 (fun t l => fst t = fst l /\ bn_ate_lines w bn_digits (snd t) (snd l))).
Lemma bn_value_e ts ls : terms ts ls -> eq12 w (pow12 bn_xi (bn_mresult (bn_prepared ts)) ((w ^ 12 - 1) / bn256_fr_p)) (pow12 bn_xi (fst (bn_miller bn_digits ls)) ((w ^ 12 - 1) / bn256_fr_p)).
Proof.
  intros H. destruct exps as (m & L & _ & E). eapply (bn_value w Ew PW P4 field2 w_odd ts ls H _ (((w ^ 4 + w ^ 2 + 1) * m))); [nia|].
  rewrite E. ring.
Qed.
Lemma bn_pairing_gen : maps w (listr (pairr (g1r w) (g2r w))) (fq12r w) pair_flags (bn_pairing I)
  (fun ts => (exists ls, terms ts ls) /\ Forall (fun t : (Z * Z) * G2 => snd (fst t) mod w <> 0) ts)
  (fun ts e => forall ls, terms ts ls -> eq12 w e (pow12 bn_xi (fst (bn_miller bn_digits ls)) ((w ^ 12 - 1) / bn256_fr_p))).
Proof.
  refine (cmap_total w I IO P PW _ _ (blist w I _ _ (bpair w I _ _ (bg1 w I IO) _ _ (bg2 w I IO))) _ _ (b12 w I IO) pair_flags (bn_pairing I) _ _ _).
  intros W le TR rep zok strict RU LR v a ts Ha HF HS.
  eapply (T_weaken _ _ _ _ _ _ _ _ RU); [apply (bn_pairing_T w I W le TR rep zok strict RU LR (w_gt1 w PW) Ew v a ts Ha HF)|].
  - intros S. destruct (HS S) as [[ls H] Y]. exact (bn_value_unit w Ew field2 field12 w_odd ts ls H Y).
  - intros r u _ [_ K]. eexists. split; [exact K|]. intros ls H. exact (bn_value_e ts ls H).
Qed.
Lemma bn_check_gen : maps w (listr (pairr (g1r w) (g2r w))) unitr pair_flags (bn_check_pairing I)
  (fun ts => exists ls, terms ts ls /\ Forall (fun t : (Z * Z) * G2 => snd (fst t) mod w <> 0) ts /\ eq12 w (pow12 bn_xi (fst (bn_miller bn_digits ls)) ((w ^ 12 - 1) / bn256_fr_p)) one12)
  (fun ts _ => forall ls, terms ts ls -> eq12 w (pow12 bn_xi (fst (bn_miller bn_digits ls)) ((w ^ 12 - 1) / bn256_fr_p)) one12).
Proof.
  refine (cmap_total w I IO P PW _ _ (blist w I _ _ (bpair w I _ _ (bg1 w I IO) _ _ (bg2 w I IO))) _ _ (bunit w I) pair_flags (bn_check_pairing I) _ _ _).
  intros W le TR rep zok strict RU LR v a ts Ha HF HS.
  eapply (T_weaken _ _ _ _ _ _ _ _ RU); [apply (bn_check_pairing_T w I W le TR rep zok strict RU LR (w_gt1 w PW) Ew v a ts Ha HF)|].
  - intros S. destruct (HS S) as (ls & H & Y & E). split; [exact (bn_value_unit w Ew field2 field12 w_odd ts ls H Y)|].
    rewrite (bn_value_e ts ls H). exact E.
  - intros r u _ K. exists tt. split; [exact Logic.I|]. intros ls H. rewrite <- (bn_value_e ts ls H). exact K.
Qed.
End BnLoop.

Section BlsLoop.
Context {NM : NMod}.
Variable w : Z.
Hypothesis Ew : w = bls12_381_fq_p.
Variable I : rinfo.
Hypothesis IO : info_ok w I.
Hypothesis P : prime nmod.
Hypothesis PW : prime w.
Lemma bls_miller_gen : maps w (listr (pairr (g1r w) (listr (fq6r w)))) (fq12r w) point_flags (bls_multi_miller_loop I)
  (fun ts => Forall (fun t => (bls_total <= length (snd t))%nat) ts) (fun ts f => f = fst (bls_miller bls_digits ts)).
Proof.
  refine (cmap w I IO P PW _ _ (blist w I _ _ (bpair w I _ _ (bg1 w I IO) _ _ (blist w I _ _ (b6 w I IO)))) _ _ (b12 w I IO) point_flags (bls_multi_miller_loop I) _ _
    (fun (_ : apairs) ts => bls_all_ok ts) _ _ _).
  - intros A a. eapply PC_weaken; [apply bls_miller_length|]. intros r0 L x Hx. unfold bls_all_ok.
    cbv beta in L. clear - L Hx. induction Hx as [|? ? ? ? [_ K] Hx IH]; [constructor|]. pose proof (Forall_inv L) as L1. pose proof (Forall_inv_tail L) as L2.
    constructor; [|exact (IH L2)]. cbn [fst snd listr] in K. apply F2_length in K. rewrite <- K. exact L1.
  - intros c a x _ K. exact K.
  - intros W le TR rep zok strict RU LR v a x D Ha HF _.
    eapply (T_weaken _ _ _ _ _ _ _ _ RU); [apply (bls_miller_T w I W le TR rep zok strict RU LR (w_gt1 w PW)); [exact Ew| |exact D|]|].
    + eapply F2_impl; [|exact Ha]. intros q t [[H1 H2] H3]. split; [exact H1|]. split; [exact H2|exact H3].
    + unfold point_flags in HF. apply (proj1 (Forall_map _ _ _)) in HF. exact HF.
    + intros r u _ K. eexists. split; [exact K|]. apply bls_mresult_spec.
Qed.
Lemma bls_clears_miller : clears point_flags (bls_multi_miller_loop I).
Proof.
  intros l. apply ST_sound. intros T A HA. eapply ST_weaken; [apply (bls_miller_zero I P T A l); exact HA|]. intros r K. cbv beta in K. unfold point_flags. apply Forall_map. exact K.
Qed.
Lemma bls_clears_pairing : clears pair_flags (bls_pairing I).
Proof.
  intros l. apply ST_sound. intros T A HA. apply (pairing_zero T A); [intros; app3|intros; app3|intros; app3| |].
  - intros g. apply (bls_prepare_zero I P T A g HA).
  - intros ps. apply (bls_miller_zero I P T A ps HA).
Qed.
Lemma bls_clears_check : clears pair_flags (bls_check_pairing I).
Proof.
  intros l. apply ST_sound. intros T A HA. unfold bls_check_pairing. apply ST_first; [app3|intros; app3|].
  apply (pairing_zero T A); [intros; app3|intros; app3|intros; app3| |].
  - intros g. apply (bls_prepare_zero I P T A g HA).
  - intros ps. apply (bls_miller_zero I P T A ps HA).
Qed.
Hypothesis P4 : w mod 4 = 3.
Hypothesis field2 : forall x, ~ eq2 w x zero2 -> exists y, eq2 w (mul2 x y) one2.
Hypothesis field12 : forall x, ~ eq12 w x zero12 -> exists y, eq12 w (mul12 bls_xi x y) one12.
Hypothesis w_odd : 2 < w.
Hypothesis exps : exists m, 0 <= m /\ (w ^ 12 - 1) / bls12_381_fr_p = (w ^ 6 - 1) * m /\ (w ^ 12 - 1) / bls12_381_fr_p = (w ^ 2 - 1) * ((w ^ 4 + w ^ 2 + 1) * m).
Notation terms := (Forall2 (fun t l => fst t = fst l /\ bls_ate_lines w bls_digits (snd t) (snd l))).
Lemma bls_value_e ts ls : terms ts ls -> eq12 w (pow12 bls_xi (bls_mresult (bls_prepared ts)) (3 * ((w ^ 12 - 1) / bls12_381_fr_p))) (pow12 bls_xi (fst (bls_miller bls_digits ls)) (3 * ((w ^ 12 - 1) / bls12_381_fr_p))).
Proof.
  intros H. destruct exps as (m & L & _ & E). eapply (bls_value w PW P4 field2 w_odd ts ls H _ (3 * ((w ^ 4 + w ^ 2 + 1) * m))); [nia|].
  rewrite E. ring.
Qed.
Lemma bls_pairing_gen : maps w (listr (pairr (g1r w) (g2r w))) (fq12r w) pair_flags (bls_pairing I)
  (fun ts => (exists ls, terms ts ls) /\ Forall (fun t : (Z * Z) * G2 => snd (fst t) mod w <> 0) ts)
  (fun ts e => forall ls, terms ts ls -> eq12 w e (pow12 bls_xi (fst (bls_miller bls_digits ls)) (3 * ((w ^ 12 - 1) / bls12_381_fr_p)))).
Proof.
  refine (cmap_total w I IO P PW _ _ (blist w I _ _ (bpair w I _ _ (bg1 w I IO) _ _ (bg2 w I IO))) _ _ (b12 w I IO) pair_flags (bls_pairing I) _ _ _).
  intros W le TR rep zok strict RU LR v a ts Ha HF HS.
  eapply (T_weaken _ _ _ _ _ _ _ _ RU); [apply (bls_pairing_T w I W le TR rep zok strict RU LR (w_gt1 w PW) Ew v a ts Ha HF)|].
  - intros S. destruct (HS S) as [[ls H] Y]. exact (bls_value_unit w field2 field12 w_odd ts ls H Y).
  - intros r u _ [_ K]. eexists. split; [exact K|]. intros ls H. exact (bls_value_e ts ls H).
Qed.
Lemma bls_check_gen : maps w (listr (pairr (g1r w) (g2r w))) unitr pair_flags (bls_check_pairing I)
  (fun ts => exists ls, terms ts ls /\ Forall (fun t : (Z * Z) * G2 => snd (fst t) mod w <> 0) ts /\ eq12 w (pow12 bls_xi (fst (bls_miller bls_digits ls)) (3 * ((w ^ 12 - 1) / bls12_381_fr_p))) one12)
  (fun ts _ => forall ls, terms ts ls -> eq12 w (pow12 bls_xi (fst (bls_miller bls_digits ls)) (3 * ((w ^ 12 - 1) / bls12_381_fr_p))) one12).
Proof.
  refine (cmap_total w I IO P PW _ _ (blist w I _ _ (bpair w I _ _ (bg1 w I IO) _ _ (bg2 w I IO))) _ _ (bunit w I) pair_flags (bls_check_pairing I) _ _ _).
  intros W le TR rep zok strict RU LR v a ts Ha HF HS.
  eapply (T_weaken _ _ _ _ _ _ _ _ RU); [apply (bls_check_pairing_T w I W le TR rep zok strict RU LR (w_gt1 w PW) Ew v a ts Ha HF)|].
  - intros S. destruct (HS S) as (ls & H & Y & E). split; [exact (bls_value_unit w field2 field12 w_odd ts ls H Y)|].
    rewrite (bls_value_e ts ls H). exact E.
  - intros r u _ K. exists tt. split; [exact Logic.I|]. intros ls H. rewrite <- (bls_value_e ts ls H). exact K.
Qed.
End BlsLoop.

Lemma C48_bn256_miller_loop_main :
  forall (NM : NMod) I, prime nmod -> range_info_new bn256_fq_p = Ok I ->
    let total := snd (bn_miller bn_digits []) in
    (forall g c r c', bn_prepare_g2 I g c = Ok (r, c') -> length r = total)
 /\ (forall l c r c', bn_multi_miller_loop I l c = Ok (r, c') -> Forall (fun t => length (snd t) = total) l)
 /\ maps bn256_fq_p (listr (pairr (g1r bn256_fq_p) (listr (fq6r bn256_fq_p)))) (fq12r bn256_fq_p) point_flags (bn_multi_miller_loop I)
      (fun ts => Forall (fun t => length (snd t) = total) ts) (fun ts f => f = fst (bn_miller bn_digits ts))
 /\ clears point_flags (bn_multi_miller_loop I)
 /\ honest_size bn256_fq_p
 /\ digits_value bn_digits = 6 * bn_u + 2.
Proof.
  intros NM I P H. info H. intros total. assert (ET : total = bn_total) by reflexivity. clearbody total. subst total. split; [|split; [|split; [|split; [|split]]]].
  - intros g c r c' E. exact (bn_prepare_length I g c r c' E).
  - intros l c r c' E. exact (bn_miller_length I l c r c' E).
  - exact (bn_miller_gen bn256_fq_p eq_refl I IO P bn256_fq_p_prime).
  - exact (bn_clears_miller I P).
  - exact bn_honest.
  - reflexivity.
Qed.

Lemma C48_bls12_381_miller_loop_main :
  forall (NM : NMod) I, prime nmod -> range_info_new bls12_381_fq_p = Ok I ->
    let total := snd (bls_miller bls_digits []) in
    (forall g c r c', bls_prepare_g2 I g c = Ok (r, c') -> length r = total)
 /\ (forall l c r c', bls_multi_miller_loop I l c = Ok (r, c') -> Forall (fun t => (total <= length (snd t))%nat) l)
 /\ maps bls12_381_fq_p (listr (pairr (g1r bls12_381_fq_p) (listr (fq6r bls12_381_fq_p)))) (fq12r bls12_381_fq_p) point_flags (bls_multi_miller_loop I)
      (fun ts => Forall (fun t => (total <= length (snd t))%nat) ts) (fun ts f => f = fst (bls_miller bls_digits ts))
 /\ clears point_flags (bls_multi_miller_loop I)
 /\ honest_size bls12_381_fq_p
 /\ 2 * digits_value (map (fun b : bool => if b then 1 else 0) bls_digits) = - bls_x.
Proof.
  intros NM I P H. info H. intros total. assert (ET : total = bls_total) by reflexivity. clearbody total. subst total. split; [|split; [|split; [|split; [|split]]]].
  - intros g c r c' E. exact (bls_prepare_length I g c r c' E).
  - intros l c r c' E. exact (bls_miller_length I l c r c' E).
  - exact (bls_miller_gen bls12_381_fq_p eq_refl I IO P bls12_381_fq_p_prime).
  - exact (bls_clears_miller I P).
  - exact bls_honest.
  - reflexivity.
Qed.

Lemma bn_opposite_gen w x y g cs : w = bn256_fq_p -> prime w ->
  (forall x, ~ eq2 w x zero2 -> exists y, eq2 w (mul2 x y) one2) ->
  (forall x, ~ eq12 w x zero12 -> exists y, eq12 w (mul12 bn_xi x y) one12) -> 2 < w ->
  (forall x, eq12 w (pow12 bn_xi x (w ^ 6)) (conj12 x)) ->
  (exists m, 0 <= m /\ (w ^ 12 - 1) / bn256_fr_p = (w ^ 6 - 1) * m /\ (w ^ 12 - 1) / bn256_fr_p = (w ^ 2 - 1) * ((w ^ 4 + w ^ 2 + 1) * m)) ->
  bn_ate_lines w bn_digits g cs -> y mod w <> 0 ->
  let ts := [((x, y), g); ((x, - y), g)] in
  exists ls, Forall2 (fun t l => fst t = fst l /\ bn_ate_lines w bn_digits (snd t) (snd l)) ts ls /\
    Forall (fun t : (Z * Z) * G2 => snd (fst t) mod w <> 0) ts /\ eq12 w (pow12 bn_xi (fst (bn_miller bn_digits ls)) ((w ^ 12 - 1) / bn256_fr_p)) one12.
Proof.
  intros Ew PW field2 field12 W2 p6 (m & L & E & _) H Y ts. exists (opposite x y cs).
  assert (H2 : Forall2 (fun t l => fst t = fst l /\ bn_ate_lines w bn_digits (snd t) (snd l)) ts (opposite x y cs)) by (repeat constructor; assumption).
  assert (Y2 : Forall (fun t : (Z * Z) * G2 => snd (fst t) mod w <> 0) ts).
  { constructor; [exact Y|]. constructor; [|constructor]. cbn [fst snd]. intros K. apply Y. apply Z.mod_opp_l_z in K; [|lia]. rewrite Z.opp_involutive in K. exact K. }
  split; [exact H2|]. split; [exact Y2|].
  apply (real_pow w bn_xi _ _ (m) PW p6).
  - exact (bn_ate_unit w Ew field2 field12 W2 ts (opposite x y cs) H2 Y2).
  - apply bn_miller_real.
  - lia.
  - rewrite E. ring.
Qed.
Lemma bn_opposite_case : forall x y, y mod bn256_fq_p <> 0 -> let ts := [((x, y), bn_gen); ((x, - y), bn_gen)] in
  exists ls, bn_ate_terms ts ls /\ y_nonzero bn256_fq_p ts /\ eq12 bn256_fq_p (bn_reduced_pairing ls) one12.
Proof.
  intros x y Y. destruct bn_gen_lines as [cs H].
  exact (bn_opposite_gen bn256_fq_p x y bn_gen cs eq_refl bn256_fq_p_prime bn_field2 bn_field eq_refl bn_pow_p6 bn_exponents H Y).
Qed.

Lemma C52_bn256_pairing_main :
  forall (NM : NMod) I, prime nmod -> range_info_new bn256_fq_p = Ok I ->
    maps bn256_fq_p (listr (pairr (g1r bn256_fq_p) (g2r bn256_fq_p))) (fq12r bn256_fq_p) pair_flags (bn_pairing I)
      (fun ts => (exists ls, bn_ate_terms ts ls) /\ y_nonzero bn256_fq_p ts)
      (fun ts e => forall ls, bn_ate_terms ts ls -> eq12 bn256_fq_p e (bn_reduced_pairing ls))
 /\ clears pair_flags (bn_pairing I)
 /\ honest_size bn256_fq_p.
Proof.
  intros NM I P H. info H. split; [|split].
  - exact (bn_pairing_gen bn256_fq_p eq_refl I IO P bn256_fq_p_prime bn_p4 bn_field2 bn_field eq_refl bn_exponents).
  - exact (bn_clears_pairing I P).
  - exact bn_honest.
Qed.

Lemma C52_bn256_check_pairing_main :
  forall (NM : NMod) I, prime nmod -> range_info_new bn256_fq_p = Ok I ->
    maps bn256_fq_p (listr (pairr (g1r bn256_fq_p) (g2r bn256_fq_p))) unitr pair_flags (bn_check_pairing I)
      (fun ts => exists ls, bn_ate_terms ts ls /\ y_nonzero bn256_fq_p ts /\ eq12 bn256_fq_p (bn_reduced_pairing ls) one12)
      (fun ts _ => forall ls, bn_ate_terms ts ls -> eq12 bn256_fq_p (bn_reduced_pairing ls) one12)
 /\ clears pair_flags (bn_check_pairing I)
 /\ honest_size bn256_fq_p.
Proof.
  intros NM I P H. info H. split; [|split].
  - exact (bn_check_gen bn256_fq_p eq_refl I IO P bn256_fq_p_prime bn_p4 bn_field2 bn_field eq_refl bn_exponents).
  - exact (bn_clears_check I P).
  - exact bn_honest.
Qed.

Lemma bls_opposite_gen w x y g cs : w = bls12_381_fq_p -> prime w ->
  (forall x, ~ eq2 w x zero2 -> exists y, eq2 w (mul2 x y) one2) ->
  (forall x, ~ eq12 w x zero12 -> exists y, eq12 w (mul12 bls_xi x y) one12) -> 2 < w ->
  (forall x, eq12 w (pow12 bls_xi x (w ^ 6)) (conj12 x)) ->
  (exists m, 0 <= m /\ (w ^ 12 - 1) / bls12_381_fr_p = (w ^ 6 - 1) * m /\ (w ^ 12 - 1) / bls12_381_fr_p = (w ^ 2 - 1) * ((w ^ 4 + w ^ 2 + 1) * m)) ->
  bls_ate_lines w bls_digits g cs -> y mod w <> 0 ->
  let ts := [((x, y), g); ((x, - y), g)] in
  exists ls, Forall2 (fun t l => fst t = fst l /\ bls_ate_lines w bls_digits (snd t) (snd l)) ts ls /\
    Forall (fun t : (Z * Z) * G2 => snd (fst t) mod w <> 0) ts /\ eq12 w (pow12 bls_xi (fst (bls_miller bls_digits ls)) (3 * ((w ^ 12 - 1) / bls12_381_fr_p))) one12.
Proof.
  intros Ew PW field2 field12 W2 p6 (m & L & E & _) H Y ts. exists (opposite x y cs).
  assert (H2 : Forall2 (fun t l => fst t = fst l /\ bls_ate_lines w bls_digits (snd t) (snd l)) ts (opposite x y cs)) by (repeat constructor; assumption).
  assert (Y2 : Forall (fun t : (Z * Z) * G2 => snd (fst t) mod w <> 0) ts).
  { constructor; [exact Y|]. constructor; [|constructor]. cbn [fst snd]. intros K. apply Y. apply Z.mod_opp_l_z in K; [|lia]. rewrite Z.opp_involutive in K. exact K. }
  split; [exact H2|]. split; [exact Y2|].
  apply (real_pow w bls_xi _ _ (3 * m) PW p6).
  - exact (bls_ate_unit w field2 field12 W2 ts (opposite x y cs) H2 Y2).
  - apply bls_miller_real.
  - lia.
  - rewrite E. ring.
Qed.
Lemma bls_opposite_case : forall x y, y mod bls12_381_fq_p <> 0 -> let ts := [((x, y), bls_gen); ((x, - y), bls_gen)] in
  exists ls, bls_ate_terms ts ls /\ y_nonzero bls12_381_fq_p ts /\ eq12 bls12_381_fq_p (bls_reduced_pairing ls) one12.
Proof.
  intros x y Y. destruct bls_gen_lines as [cs H].
  exact (bls_opposite_gen bls12_381_fq_p x y bls_gen cs eq_refl bls12_381_fq_p_prime bls_field2 bls_field eq_refl bls_pow_p6 bls_exponents H Y).
Qed.

Lemma C52_bls12_381_pairing_main :
  forall (NM : NMod) I, prime nmod -> range_info_new bls12_381_fq_p = Ok I ->
    maps bls12_381_fq_p (listr (pairr (g1r bls12_381_fq_p) (g2r bls12_381_fq_p))) (fq12r bls12_381_fq_p) pair_flags (bls_pairing I)
      (fun ts => (exists ls, bls_ate_terms ts ls) /\ y_nonzero bls12_381_fq_p ts)
      (fun ts e => forall ls, bls_ate_terms ts ls -> eq12 bls12_381_fq_p e (bls_reduced_pairing ls))
 /\ clears pair_flags (bls_pairing I)
 /\ honest_size bls12_381_fq_p.
Proof.
  intros NM I P H. info H. split; [|split].
  - exact (bls_pairing_gen bls12_381_fq_p eq_refl I IO P bls12_381_fq_p_prime bls_p4 bls_field2 bls_field eq_refl bls_exponents).
  - exact (bls_clears_pairing I P).
  - exact bls_honest.
Qed.

Lemma C52_bls12_381_check_pairing_main :
  forall (NM : NMod) I, prime nmod -> range_info_new bls12_381_fq_p = Ok I ->
    maps bls12_381_fq_p (listr (pairr (g1r bls12_381_fq_p) (g2r bls12_381_fq_p))) unitr pair_flags (bls_check_pairing I)
      (fun ts => exists ls, bls_ate_terms ts ls /\ y_nonzero bls12_381_fq_p ts /\ eq12 bls12_381_fq_p (bls_reduced_pairing ls) one12)
      (fun ts _ => forall ls, bls_ate_terms ts ls -> eq12 bls12_381_fq_p (bls_reduced_pairing ls) one12)
 /\ clears pair_flags (bls_check_pairing I)
 /\ honest_size bls12_381_fq_p.
Proof.
  intros NM I P H. info H. split; [|split].
  - exact (bls_check_gen bls12_381_fq_p eq_refl I IO P bls12_381_fq_p_prime bls_p4 bls_field2 bls_field eq_refl bls_exponents).
  - exact (bls_clears_check I P).
  - exact bls_honest.
Qed.

