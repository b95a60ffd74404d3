(** The case of C63. *)
From Verif Require Import Prelude FieldZ Circuit Context Spec Logic ModArith RangeInfo IntegerChip SpecInt InfoProofs IntArith BaseProofs EccChip SpecEcc Curve SpecTower SpecTowerRep SpecPairing SpecAte SpecPairingRep
  Fq12Chip PairingChip Moduli Fields NativeMain IntMain AteExample ProgsMore HandMore PairingMain EccMain HandMain IntBridge PairEnd PairEndMain PairEndCase.
Local Opaque pow12 bn_miller bls_miller bn_ate_lines bls_ate_lines bn_digits bls_digits pairing_circuit.
Lemma bn_gen_reduced : reduced2 bn256_fq_p (fst bn_gen) /\ reduced2 bn256_fq_p (snd bn_gen).
Proof. unfold reduced2. repeat split; vm_compute; congruence. Qed.
Lemma C63_bn256_case_main : forall x y, on_curve bn256_fq_p 3 (Aff x y) -> y <> 0 -> let points := [(x, y); (x, bn256_fq_p - y)] in
     (exists xs c, @pairing_circuit bn256_fr bn_fq_info 3 (@bn_check_pairing bn256_fr bn_fq_info) [bn_gen; bn_gen] points ctx_new = Ok (xs, c) /\ @satisfies bn256_fr c (honest c))
  /\ Forall (fun q => reduced2 bn256_fq_p (fst q) /\ reduced2 bn256_fq_p (snd q)) [bn_gen; bn_gen]
  /\ Forall (fun p => on_curve bn256_fq_p 3 (pt_of (Some p))) points
  /\ exists ls, let ts := combine points [bn_gen; bn_gen] in
       bn_ate_terms ts ls /\ y_nonzero bn256_fq_p ts /\ eq12 bn256_fq_p (bn_reduced_pairing ls) one12.
Proof.
  intros x y C Y points. pose proof C as (Rx & Ry & _). destruct (bn_opposite_reduced x y ltac:(lia)) as (ls & H1 & H2 & H3).
  assert (CN : on_curve bn256_fq_p 3 (Aff x (bn256_fq_p - y))).
  { pose proof (pt_neg_on _ _ bn256_fq_p_prime (Aff x y) C) as K. cbn [pt_neg] in K. replace (bn256_fq_p - y) with ((- y) mod bn256_fq_p); [exact K|].
    rewrite Z_mod_nz_opp_full by (rewrite Z.mod_small by lia; lia). rewrite Z.mod_small by lia. reflexivity. }
  assert (HC : Forall (fun p => on_curve bn256_fq_p 3 (pt_of (Some p))) points) by (constructor; [exact C|constructor; [exact CN|constructor]]).
  assert (HQ : Forall (fun q => reduced2 bn256_fq_p (fst q) /\ reduced2 bn256_fq_p (snd q)) [bn_gen; bn_gen]) by (constructor; [exact bn_gen_reduced|constructor; [exact bn_gen_reduced|constructor]]).
  split; [|split; [exact HQ|split; [exact HC|exists ls; exact (conj H1 (conj H2 H3))]]].
  pose proof bn256_fr_prime as PN. pose proof bn_fq_info_ok as H. destruct (C52_bn256_check_pairing_main bn256_fr bn_fq_info PN H) as (M1 & M2 & HS). info H.
  assert (HD := HS); unfold honest_size in HD; rewrite <- (hd_bits _ _ IO) in HD.
  destruct (@circuit_accepts bn256_fr bn256_fq_p bn_fq_info IO PN bn256_fq_p_prime 3 ltac:(split; [discriminate|reflexivity]) _ _ _
    M1 HD HS [bn_gen; bn_gen] points eq_refl HQ HC (ex_intro _ ls (conj H1 (conj H2 H3)))) as (xs & c & E & _ & _ & G).
  exists xs, c. split; [exact E|]. apply good_satisfies; [apply (n_pos PN)|apply G, good_new].
Qed.
Lemma bls_gen_reduced : reduced2 bls12_381_fq_p (fst bls_gen) /\ reduced2 bls12_381_fq_p (snd bls_gen).
Proof. unfold reduced2. repeat split; vm_compute; congruence. Qed.
Lemma C63_bls12_381_case_main : forall x y, on_curve bls12_381_fq_p 4 (Aff x y) -> y <> 0 -> let points := [(x, y); (x, bls12_381_fq_p - y)] in
     (exists xs c, @pairing_circuit bn256_fr bls_fq_info 4 (@bls_check_pairing bn256_fr bls_fq_info) [bls_gen; bls_gen] points ctx_new = Ok (xs, c) /\ @satisfies bn256_fr c (honest c))
  /\ Forall (fun q => reduced2 bls12_381_fq_p (fst q) /\ reduced2 bls12_381_fq_p (snd q)) [bls_gen; bls_gen]
  /\ Forall (fun p => on_curve bls12_381_fq_p 4 (pt_of (Some p))) points
  /\ exists ls, let ts := combine points [bls_gen; bls_gen] in
       bls_ate_terms ts ls /\ y_nonzero bls12_381_fq_p ts /\ eq12 bls12_381_fq_p (bls_reduced_pairing ls) one12.
Proof.
  intros x y C Y points. pose proof C as (Rx & Ry & _). destruct (bls_opposite_reduced x y ltac:(lia)) as (ls & H1 & H2 & H3).
  assert (CN : on_curve bls12_381_fq_p 4 (Aff x (bls12_381_fq_p - y))).
  { pose proof (pt_neg_on _ _ bls12_381_fq_p_prime (Aff x y) C) as K. cbn [pt_neg] in K. replace (bls12_381_fq_p - y) with ((- y) mod bls12_381_fq_p); [exact K|].
    rewrite Z_mod_nz_opp_full by (rewrite Z.mod_small by lia; lia). rewrite Z.mod_small by lia. reflexivity. }
  assert (HC : Forall (fun p => on_curve bls12_381_fq_p 4 (pt_of (Some p))) points) by (constructor; [exact C|constructor; [exact CN|constructor]]).
  assert (HQ : Forall (fun q => reduced2 bls12_381_fq_p (fst q) /\ reduced2 bls12_381_fq_p (snd q)) [bls_gen; bls_gen]) by (constructor; [exact bls_gen_reduced|constructor; [exact bls_gen_reduced|constructor]]).
  split; [|split; [exact HQ|split; [exact HC|exists ls; exact (conj H1 (conj H2 H3))]]].
  pose proof bn256_fr_prime as PN. pose proof bls_fq_info_ok as H. destruct (C52_bls12_381_check_pairing_main bn256_fr bls_fq_info PN H) as (M1 & M2 & HS). info H.
  assert (HD := HS); unfold honest_size in HD; rewrite <- (hd_bits _ _ IO) in HD.
  destruct (@circuit_accepts bn256_fr bls12_381_fq_p bls_fq_info IO PN bls12_381_fq_p_prime 4 ltac:(split; [discriminate|reflexivity]) _ _ _
    M1 HD HS [bls_gen; bls_gen] points eq_refl HQ HC (ex_intro _ ls (conj H1 (conj H2 H3)))) as (xs & c & E & _ & _ & G).
  exists xs, c. split; [exact E|]. apply good_satisfies; [apply (n_pos PN)|apply G, good_new].
Qed.
