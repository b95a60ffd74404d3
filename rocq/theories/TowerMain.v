(** Proofs of the extension-field properties (C43-C45) from the rules of the gadgets. *)
From Verif Require Import Prelude FieldZ Circuit Context Spec Logic ModArith RangeInfo IntegerChip SpecInt InfoProofs Prims BaseChip BaseProofs IntArith
  EccChip SpecTower TowerRing Cyclotomic Frobenius PairingExp Fq12Chip TowerProofs TowerInst PairingConsts PairingChip PairingFacts PairingProofs SpecTowerRep TowerBridge TowerField
  Moduli Fields NativeMain IntMain.
Ltac w2 L := intros W le TR rep zok strict RU LR; intros; eapply (L _ _ W le TR rep zok strict RU); eauto.
Ltac w6 TW PW L := intros W le TR rep zok strict RU LR; intros;
  eapply (L _ _ W le TR rep zok strict RU _ _ (tower_T _ _ PW _ _ TW W le TR rep zok strict RU LR) (tower_appends _ _ _ TW) (w_gt1 _ PW)); eauto.
Lemma honest_case : honest_size bn256_fq_p /\ honest_size bls12_381_fq_p.
Proof. split; vm_compute; discriminate. Qed.

Lemma C43_fq2_gadgets_main :
  forall (NM : NMod) w I nonres xi, prime nmod -> prime w -> range_info_new w = Ok I -> tower I nonres xi ->
    computes0 w (fq2r w) (fq2_assign_zero I) zero2
 /\ computes0 w (fq2r w) (fq2_assign_one I) one2
 /\ (forall k, reduced2 w k -> computes0 w (fq2r w) (fq2_assign_constant I k) k)
 /\ computes1 w (fq2r w) (fq2_reduce I) (fun x => x)
 /\ compares w (fq2r w) (fq2_assert_equal I) (eq2 w)
 /\ computes2 w (fq2r w) (fq2r w) (fq2_add I) add2
 /\ computes2 w (fq2r w) (fq2r w) (fq2_sub I) sub2
 /\ computes2 w (fq2r w) (fq2r w) (fq2_mul I) mul2
 /\ computes1 w (fq2r w) (fq2_double I) (fun x => add2 x x)
 /\ computes1 w (fq2r w) (fq2_square I) (fun x => mul2 x x)
 /\ computes1 w (fq2r w) (fq2_neg I) neg2
 /\ computes1 w (fq2r w) (fq2_conjugate I) conj2
 /\ computes1 w (fq2r w) nonres (mul2 xi)
 /\ inverts w (fq2r w) (fq2_unsafe_invert I) (eq2 w) mul2 one2.
Proof.
  intros NM w I nonres xi P PW H TW. info H. pose proof (w_gt1 w PW) as W1.
  pose proof (b2 w I IO) as B. repeat match goal with |- _ /\ _ => split end.
  - apply (c0 w I IO P PW _ _ B). w2 fq2_assign_zero_T. lia.
  - apply (c0 w I IO P PW _ _ B). w2 fq2_assign_one_T.
  - intros k [? ?]. apply (c0 w I IO P PW _ _ B). w2 fq2_assign_constant_T.
  - apply (c1 w I IO P PW _ _ B). w2 fq2_reduce_T.
  - apply (ceq w I IO P PW _ _ B). w2 fq2_assert_equal_T.
  - apply (c2 w I IO P PW _ _ B _ _ B). w2 fq2_add_T.
  - apply (c2 w I IO P PW _ _ B _ _ B). w2 fq2_sub_T.
  - apply (c2 w I IO P PW _ _ B _ _ B). w2 fq2_mul_T.
  - apply (c1 w I IO P PW _ _ B). w2 fq2_double_T.
  - apply (c1 w I IO P PW _ _ B). w2 fq2_square_T.
  - apply (c1 w I IO P PW _ _ B). w2 fq2_neg_T.
  - apply (c1 w I IO P PW _ _ B). w2 fq2_conjugate_T.
  - apply (c1 w I IO P PW _ _ B). exact (tower_T w I PW nonres xi TW).
  - apply (cinv w I IO P PW _ _ B). w2 fq2_unsafe_invert_T.
Qed.

Lemma C43_fq6_gadgets_main :
  forall (NM : NMod) w I nonres xi, prime nmod -> prime w -> range_info_new w = Ok I -> tower I nonres xi ->
    computes0 w (fq6r w) (fq6_assign_zero I) zero6
 /\ computes0 w (fq6r w) (fq6_assign_one I) one6
 /\ (forall k, reduced6 w k -> computes0 w (fq6r w) (fq6_assign_constant I k) k)
 /\ computes1 w (fq6r w) (fq6_reduce I) (fun x => x)
 /\ compares w (fq6r w) (fq6_assert_equal I) (eq6 w)
 /\ computes2 w (fq6r w) (fq6r w) (fq6_add I) add6
 /\ computes2 w (fq6r w) (fq6r w) (fq6_sub I) sub6
 /\ computes2 w (fq6r w) (fq6r w) (fq6_mul I nonres) (mul6 xi)
 /\ computes1 w (fq6r w) (fq6_double I) (fun x => add6 x x)
 /\ computes1 w (fq6r w) (fq6_square I nonres) (fun x => mul6 xi x x)
 /\ computes1 w (fq6r w) (fq6_neg I) neg6
 /\ computes1 w (fq6r w) (fq6_mul_by_nonresidue nonres) (mul6 xi v6)
 /\ computes2 w (fq6r w) (fq2r w) (fq6_mul_by_1 I nonres) (fun x b1 => mul6 xi x (zero2, b1, zero2))
 /\ computes2 w (fq6r w) (pairr (fq2r w) (fq2r w)) (fun a b => fq6_mul_by_01 I nonres a (fst b) (snd b))
      (fun x b => mul6 xi x (fst b, snd b, zero2))
 /\ inverts w (fq6r w) (fq6_unsafe_invert I nonres) (eq6 w) (mul6 xi) one6.
Proof.
  intros NM w I nonres xi P PW H TW. info H. pose proof (b2 w I IO) as B2. pose proof (bpair w I _ _ B2 _ _ B2) as BP.
  pose proof (b6 w I IO) as B. repeat match goal with |- _ /\ _ => split end.
  - apply (c0 w I IO P PW _ _ B). w6 TW PW fq6_assign_zero_T.
  - apply (c0 w I IO P PW _ _ B). w6 TW PW fq6_assign_one_T.
  - intros k K. apply (c0 w I IO P PW _ _ B). w6 TW PW fq6_assign_constant_T.
  - apply (c1 w I IO P PW _ _ B). w6 TW PW fq6_reduce_T.
  - apply (ceq w I IO P PW _ _ B). w6 TW PW fq6_assert_equal_T.
  - apply (c2 w I IO P PW _ _ B _ _ B). w6 TW PW fq6_add_T.
  - apply (c2 w I IO P PW _ _ B _ _ B). w6 TW PW fq6_sub_T.
  - apply (c2 w I IO P PW _ _ B _ _ B). w6 TW PW fq6_mul_T.
  - apply (c1 w I IO P PW _ _ B). w6 TW PW fq6_double_T.
  - apply (c1 w I IO P PW _ _ B). w6 TW PW fq6_square_T.
  - apply (c1 w I IO P PW _ _ B). w6 TW PW fq6_neg_T.
  - apply (c1 w I IO P PW _ _ B). w6 TW PW fq6_mul_by_nonresidue_T.
  - apply (c2 w I IO P PW _ _ B _ _ B2). w6 TW PW fq6_mul_by_1_T.
  - apply (c2 w I IO P PW _ _ B _ _ BP). w6 TW PW fq6_mul_by_01_T; apply H1.
  - apply (cinv w I IO P PW _ _ B). w6 TW PW fq6_unsafe_invert_T.
Qed.

Lemma C43_fq12_gadgets_main :
  forall (NM : NMod) w I nonres xi, prime nmod -> prime w -> range_info_new w = Ok I -> tower I nonres xi ->
    computes0 w (fq12r w) (fq12_assign_zero I) zero12
 /\ computes0 w (fq12r w) (fq12_assign_one I) one12
 /\ (forall k, reduced12 w k -> computes0 w (fq12r w) (fq12_assign_constant I k) k)
 /\ computes1 w (fq12r w) (fq12_reduce I) (fun x => x)
 /\ compares w (fq12r w) (fq12_assert_eq I) (eq12 w)
 /\ compares w (fq12r w) (fun a _ => fq12_assert_one I a) (fun x _ => eq12 w x one12)
 /\ computes2 w (fq12r w) (fq12r w) (fq12_add I) add12
 /\ computes2 w (fq12r w) (fq12r w) (fq12_sub I) sub12
 /\ computes2 w (fq12r w) (fq12r w) (fq12_mul I nonres) (mul12 xi)
 /\ computes1 w (fq12r w) (fq12_double I) (fun x => add12 x x)
 /\ computes1 w (fq12r w) (fq12_square I nonres) (fun x => mul12 xi x x)
 /\ computes1 w (fq12r w) (fq12_neg I) neg12
 /\ computes1 w (fq12r w) (fq12_conjugate I) conj12
 /\ computes2 w (fq12r w) (fq6r w) (fun a k => fq12_mul_by_014 I nonres a (t0 k) (t1 k) (t2 k))
      (fun x y => mul12 xi x ((t0 y, t1 y, zero2), (zero2, t2 y, zero2)))
 /\ computes2 w (fq12r w) (fq6r w) (fun a k => fq12_mul_by_034 I nonres a (t0 k) (t1 k) (t2 k))
      (fun x y => mul12 xi x ((t0 y, zero2, zero2), (t1 y, t2 y, zero2)))
 /\ inverts w (fq12r w) (fq12_unsafe_invert I nonres) (eq12 w) (mul12 xi) one12.
Proof.
  intros NM w I nonres xi P PW H TW. info H. pose proof (b6 w I IO) as B6.
  pose proof (b12 w I IO) as B. repeat match goal with |- _ /\ _ => split end.
  - apply (c0 w I IO P PW _ _ B). w6 TW PW fq12_assign_zero_T.
  - apply (c0 w I IO P PW _ _ B). w6 TW PW fq12_assign_one_T.
  - intros k K. apply (c0 w I IO P PW _ _ B). w6 TW PW fq12_assign_constant_T.
  - apply (c1 w I IO P PW _ _ B). w6 TW PW fq12_reduce_T.
  - apply (ceq w I IO P PW _ _ B). w6 TW PW fq12_assert_eq_T.
  - apply (ceq w I IO P PW _ _ B). w6 TW PW fq12_assert_one_T.
  - apply (c2 w I IO P PW _ _ B _ _ B). w6 TW PW fq12_add_T.
  - apply (c2 w I IO P PW _ _ B _ _ B). w6 TW PW fq12_sub_T.
  - apply (c2 w I IO P PW _ _ B _ _ B). w6 TW PW fq12_mul_T.
  - apply (c1 w I IO P PW _ _ B). w6 TW PW fq12_double_T.
  - apply (c1 w I IO P PW _ _ B). w6 TW PW fq12_square_T.
  - apply (c1 w I IO P PW _ _ B). w6 TW PW fq12_neg_T.
  - apply (c1 w I IO P PW _ _ B). w6 TW PW fq12_conjugate_T.
  - apply (c2 w I IO P PW _ _ B _ _ B6). w6 TW PW fq12_mul_by_014_T; apply H1.
  - apply (c2 w I IO P PW _ _ B _ _ B6). w6 TW PW fq12_mul_by_034_T; apply H1.
  - apply (cinv w I IO P PW _ _ B). w6 TW PW fq12_unsafe_invert_T.
Qed.

Lemma C43_towers_are_fields_main :
  (forall x, ~ eq2 bn256_fq_p x zero2 -> exists y, eq2 bn256_fq_p (mul2 x y) one2)
  /\ (forall x, ~ eq6 bn256_fq_p x zero6 -> exists y, eq6 bn256_fq_p (mul6 bn_xi x y) one6)
  /\ (forall x, ~ eq12 bn256_fq_p x zero12 -> exists y, eq12 bn256_fq_p (mul12 bn_xi x y) one12)
  /\ (forall x, ~ eq2 bls12_381_fq_p x zero2 -> exists y, eq2 bls12_381_fq_p (mul2 x y) one2)
  /\ (forall x, ~ eq6 bls12_381_fq_p x zero6 -> exists y, eq6 bls12_381_fq_p (mul6 bls_xi x y) one6)
  /\ (forall x, ~ eq12 bls12_381_fq_p x zero12 -> exists y, eq12 bls12_381_fq_p (mul12 bls_xi x y) one12).
Proof.
  exact (conj bn_field2 (conj bn_field6 (conj bn_field (conj bls_field2 (conj bls_field6 bls_field))))).
Qed.

Lemma C44_bn256_frobenius_main :
  forall (NM : NMod) I (k : nat), prime nmod -> range_info_new bn256_fq_p = Ok I ->
    let p := bn256_fq_p in
    computes1 p (fq2r p) (fun a => bn_fq2_frobenius_map I a k) (fun x => pow2 x (p ^ Z.of_nat k))
 /\ computes1 p (fq6r p) (fun a => bn_fq6_frobenius_map I a k) (fun x => pow6 bn_xi x (p ^ Z.of_nat k))
 /\ computes1 p (fq12r p) (fun a => bn_fq12_frobenius_map I a k) (fun x => pow12 bn_xi x (p ^ Z.of_nat k)).
Proof.
  intros NM I k P H p. subst p. assert (PW := bn256_fq_p_prime). info H. pose proof (w_gt1 _ PW) as W1.
  split; [|split]; [apply (c1 _ I IO P PW _ _ (b2 _ I IO))|apply (c1 _ I IO P PW _ _ (b6 _ I IO))|apply (c1 _ I IO P PW _ _ (b12 _ I IO))];
    intros W le TR rep zok strict RU LR v a x Hx.
  - eapply (T_weaken _ _ _ _ _ _ _ _ RU); [apply (bn_fq2_frobenius_map_T _ I W le TR rep zok strict RU LR W1 eq_refl v a x k Hx)|].
    intros r u _ K. cbv beta in K. eapply (rep2_eqm _ I W le TR rep zok strict RU); [exact K|]. symmetry. apply bn_frob2.
  - eapply (T_weaken _ _ _ _ _ _ _ _ RU); [apply (bn_fq6_frobenius_map_T _ I W le TR rep zok strict RU LR W1 eq_refl v a x k Hx)|].
    intros r u _ K. cbv beta in K. eapply (rep6_eqm _ I W le TR rep zok strict RU); [exact K|]. symmetry. apply bn_frob6.
  - eapply (bn_frob_T _ I W le TR rep zok strict RU LR W1 eq_refl v a x k Hx).
Qed.

Lemma C44_bls12_381_frobenius_partial_main :
  forall (NM : NMod) I (k : nat), prime nmod -> range_info_new bls12_381_fq_p = Ok I ->
    let p := bls12_381_fq_p in
    computes1 p (fq2r p) (fun a => bls_fq2_frobenius_map I a k) (fun x => pow2 x p)
 /\ computes1 p (fq6r p) (fun a => bls_fq6_frobenius_map I a k) (fun x => pow6 bls_xi x p)
 /\ computes1 p (fq12r p) (fun a => bls_fq12_frobenius_map I a k) (fun x => pow12 bls_xi x p).
Proof.
  intros NM I k P H p. subst p. assert (PW := bls12_381_fq_p_prime). info H. pose proof (w_gt1 _ PW) as W1.
  split; [|split]; [apply (c1 _ I IO P PW _ _ (b2 _ I IO))|apply (c1 _ I IO P PW _ _ (b6 _ I IO))|apply (c1 _ I IO P PW _ _ (b12 _ I IO))];
    intros W le TR rep zok strict RU LR v a x Hx.
  - eapply (T_weaken _ _ _ _ _ _ _ _ RU); [apply (bls_fq2_frobenius_map_T _ I W le TR rep zok strict RU LR W1 eq_refl v a x k Hx)|].
    intros r u _ K. cbv beta in K. eapply (rep2_eqm _ I W le TR rep zok strict RU); [exact K|]. symmetry.
    rewrite fr2_conj. apply bls_frob2.
  - eapply (T_weaken _ _ _ _ _ _ _ _ RU); [apply (bls_fq6_frobenius_map_T _ I W le TR rep zok strict RU LR W1 eq_refl v a x k Hx)|].
    intros r u _ K. cbv beta in K. eapply (rep6_eqm _ I W le TR rep zok strict RU); [exact K|]. symmetry. apply bls_frob6.
  - eapply (bls_frob_T _ I W le TR rep zok strict RU LR W1 eq_refl v a x k Hx).
Qed.

Section Eqv.
Context {NM : NMod}.
Variable p : Z.
Lemma is_eq2 x y : eq2 p x y -> forall f a, fq2_is p f a x -> fq2_is p f a y.
Proof. intros [E1 E2] f a [[W1 V1] [W2 V2]]. split; split; auto; congruence. Qed.
Lemma in_eq2 x y : eq2 p x y -> forall f a, fq2_in p f a x -> fq2_in p f a y.
Proof. intros [E1 E2] f a [[W1 V1] [W2 V2]]. split; split; auto; congruence. Qed.
Lemma is_eq12 x y : eq12 p x y -> forall f a, fq12_is p f a x -> fq12_is p f a y.
Proof.
  destruct x as [[[x0 x1] x2] [[x3 x4] x5]], y as [[[y0 y1] y2] [[y3 y4] y5]].
  intros [(E0 & E1 & E2) (E3 & E4 & E5)] f a [(V0 & V1 & V2) (V3 & V4 & V5)].
  split; (split; [|split]); eapply is_eq2; eauto.
Qed.
Lemma in_eq12 x y : eq12 p x y -> forall f a, fq12_in p f a x -> fq12_in p f a y.
Proof.
  destruct x as [[[x0 x1] x2] [[x3 x4] x5]], y as [[[y0 y1] y2] [[y3 y4] y5]].
  intros [(E0 & E1 & E2) (E3 & E4 & E5)] f a [(V0 & V1 & V2) (V3 & V4 & V5)].
  split; (split; [|split]); eapply in_eq2; eauto.
Qed.
End Eqv.
Lemma bls_u_p2 : eq2 bls12_381_fq_p (pow2 (0, 1) (bls12_381_fq_p ^ Z.of_nat 2)) (0, 1).
Proof.
  pose proof (frob2_iter bls12_381_fq_p bls12_381_fq_p_prime bls_p4 (fun k => if Nat.even k then 1 else -1) eq_refl) as F.
  rewrite pow2_pw. etransitivity; [apply F|].
  - intros k. rewrite Nat.even_succ, <- Nat.negb_even. destruct (Nat.even k); reflexivity.
  - split; reflexivity.
Qed.

Lemma C44_bls12_381_frobenius_refuted_main :
  exists (NM : NMod) I a r c', prime nmod /\ range_info_new bls12_381_fq_p = Ok I
    /\ (a <- fq2_assign_constant I (0, 1) ;; r <- bls_fq2_frobenius_map I a 2 ;; mret (a, r)) ctx_new = Ok ((a, r), c')
    /\ satisfies c' (honest c')
    /\ fq2_is bls12_381_fq_p a_val a (0, 1) /\ fq2_is bls12_381_fq_p a_val r (0, -1)
    /\ eq2 bls12_381_fq_p (pow2 (0, 1) (bls12_381_fq_p ^ Z.of_nat 2)) (0, 1)
    /\ ~ eq2 bls12_381_fq_p (0, 1) (0, -1).
Proof.
  exists bn256_fr, bls_fq_info. pose proof bn256_fr_prime as P. pose proof bls_fq_info_ok as H.
  destruct (C43_fq2_gadgets_main bn256_fr bls12_381_fq_p bls_fq_info _ bls_xi P bls12_381_fq_p_prime H (or_intror (conj eq_refl eq_refl)))
    as (_ & _ & K & _).
  destruct (K (0, 1)) as [_ K1]. { split; vm_compute; split; congruence. }
  destruct (C44_bls12_381_frobenius_partial_main bn256_fr bls_fq_info 2 P H) as ([_ F] & _).
  destruct (K1 (proj2 honest_case) ctx_new) as (a & c1 & R1 & E1 & Ka & G1). { apply wf_new. }
  destruct (F (proj2 honest_case) c1 a (0, 1)) as (r & c2 & R2 & E2 & Kr & G2). { apply (good_wf _ (G1 good_new)). } { exact Ka. }
  exists a, r, c2. split; [exact P|]. split; [exact H|].
  split. { unfold mbind. rewrite R1, R2. reflexivity. }
  split. { apply good_satisfies; [apply n_pos; exact P|]. apply G2, G1, good_new. }
  assert (IN : forall c b x, @fq2_in bn256_fr bls12_381_fq_p c b x -> @fq2_is bn256_fr bls12_381_fq_p a_val b x).
  { intros c b x [[[Q1 _] Q2] [[Q3 _] Q4]]. split; split; assumption. }
  split; [exact (IN _ _ _ Ka)|]. split.
  { exact (is_eq2 _ _ _ (bls_frob2 (0, 1)) _ _ (IN _ _ _ Kr)). }
  split; [exact bls_u_p2|]. intros [_ Q]. vm_compute in Q. discriminate Q.
Qed.

Lemma cyc_one : cyclotomic bn256_fq_p bn_xi one12.
Proof. unfold cyclotomic. rewrite (pow_one bn256_fq_p bn256_fq_p_prime bn_xi bn_pow_p6). reflexivity. Qed.
Lemma cyc_easy_gen p (P : prime p) xi (p6 : forall x, eq12 p (pow12 xi x (p ^ 6)) (conj12 x)) y z : eq12 p (mul12 xi y z) one12 ->
  cyclotomic p xi (pow12 xi y ((p ^ 6 - 1) * (p ^ 2 + 1))).
Proof. exact (easy_cyclotomic p P xi p6 y z). Qed.
Lemma cyc_easy y : ~ eq12 bn256_fq_p y zero12 ->
  cyclotomic bn256_fq_p bn_xi (pow12 bn_xi y ((bn256_fq_p ^ 6 - 1) * (bn256_fq_p ^ 2 + 1))).
Proof.
  intros H. destruct (bn_field y H) as [z E]. exact (cyc_easy_gen bn256_fq_p bn256_fq_p_prime bn_xi bn_pow_p6 y z E).
Qed.

Lemma C45_cyclotomic_square_main :
  forall (NM : NMod) I nonres xi p, prime nmod -> range_info_new p = Ok I ->
    (p = bn256_fq_p /\ nonres = bn_nonres I /\ xi = bn_xi) \/ (p = bls12_381_fq_p /\ nonres = bls_nonres I /\ xi = bls_xi) ->
    (forall a, sound (fq12_cyclotomic_square I nonres a) (fun A r => forall x,
        fq12_is p (at_ A) a x -> cyclotomic p xi x -> fq12_is p (at_ A) r (mul12 xi x x)))
 /\ (forall c a x, wf c -> fq12_in p c a x -> cyclotomic p xi x ->
        accepts c (fq12_cyclotomic_square I nonres a) (fun r c' => fq12_in p c' r (mul12 xi x x))).
Proof.
  intros NM I nonres xi p P H T. assert (PW : prime p) by (destruct T as [(-> & _)|(-> & _)]; [exact bn256_fq_p_prime|exact bls12_381_fq_p_prime]).
  assert (TW : tower I nonres xi) by (destruct T as [(_ & T)|(_ & T)]; [left|right]; exact T).
  assert (HS : honest_size p) by (destruct T as [(-> & _)|(-> & _)]; apply honest_case).
  assert (CS : forall x, cyclotomic p xi x -> eq12 p (csq xi x) (mul12 xi x x)).
  { destruct T as [(-> & _ & ->)|(-> & _ & ->)]; [exact bn_cyc_square|exact bls_cyc_square]. }
  info H. assert (K : computes1 p (fq12r p) (fq12_cyclotomic_square I nonres) (csq xi)).
  { apply (c1 p I IO P PW _ _ (b12 p I IO)). w6 TW PW fq12_cyclotomic_square_T. }
  destruct K as [K1 K2]. split.
  - intros a c r c' d A W R E SA x Hx C. eapply is_eq12; [apply CS, C|]. exact (K1 a c r c' d A W R E SA x Hx).
  - intros c a x W Hx C. destruct (K2 HS c a x W Hx) as (r & c' & R & E & Kr & G). exists r, c'. split; [exact R|]. split; [exact E|].
    split; [|exact G]. eapply in_eq12; [apply CS, C|exact Kr].
Qed.

