(** The digests of the two encodings of n - 1 in the scalar field of bls12-381 are not
    the output of ForgeHash.v. *)
From Verif Require Import Prelude FieldZ Circuit Context Spec Logic ModArith Prims BaseChip BaseProofs ScalarChip SpecShape Shape
  KeccakChip SpecKeccak SpecKeccakState KeccakPure KeccakProofs KeccakInst KeccakShape KeccakMain Moduli Fields ForgeHash.

Lemma C41_output_forgeable_main :
  forall (NM : NMod), prime nmod -> 2 < nmod -> forall c input r c',
    good c -> input <> [] -> Forall (valid c) input -> hash input c = Ok (r, c') ->
    exists A, satisfies c' A /\ (forall a, valid c a -> A⟦a⟧ = a_val a) /\ (2 * A⟦r⟧) mod nmod = (2 ^ 256 - 1) mod nmod.
Proof. intros NM P B c input r c' G NE F R. exact (hash_forged P B c input r c' G NE F R). Qed.

Lemma C41_honest {NM : NMod} : prime nmod -> nmod <= 2 ^ 256 -> forall v, 0 <= v < nmod ->
  exists a r c0 c', assign v ctx_new = Ok (a, c0) /\ good c0 /\ valid c0 a /\ a_val a = v
    /\ hash [a] c0 = Ok (r, c') /\ good c' /\ a_val r = digest [v] mod nmod.
Proof.
  intros P B v R. destruct (CT_accepts _ _ _ (assign_CT ctx_new v (wf_new) R)) as (a & c0 & R1 & E1 & (V1 & H1) & G1). specialize (G1 good_new).
  destruct (C41_hash_honest_main NM P B c0 [a] (good_wf _ G1) ltac:(constructor; [exact V1|constructor])) as (r & c' & R2 & E2 & (V2 & H2) & G2). specialize (G2 G1).
  exists a, r, c0, c'. do 6 (split; [assumption|]). cbn [map] in H2. rewrite H1 in H2. exact H2.
Qed.

Definition bls_fr : NMod := mkNMod bls12_381_fr_p.
Definition no_digest (v : Z) : bool := negb ((2 * (digest [v] mod bls12_381_fr_p)) mod bls12_381_fr_p =? (2 ^ 256 - 1) mod bls12_381_fr_p).
Lemma no_digest_1 : no_digest (bls12_381_fr_p - 1) = true.
Proof. vm_cast_no_check (eq_refl true). Qed.
Lemma no_digest_2 : no_digest (2 * bls12_381_fr_p - 1) = true.
Proof. vm_cast_no_check (eq_refl true). Qed.
Lemma no_digest_neq v x : no_digest v = true -> (2 * x) mod bls12_381_fr_p = (2 ^ 256 - 1) mod bls12_381_fr_p -> x <> digest [v] mod bls12_381_fr_p.
Proof. unfold no_digest. intros H K ->. apply Bool.negb_true_iff, Z.eqb_neq in H. apply H. exact K. Qed.

Lemma C41_hash_refuted_main :
  exists (NM : NMod) a r c' A, nmod = bls12_381_fr_p
    /\ (a <- assign (nmod - 1) ;; r <- hash [a] ;; mret (a, r)) ctx_new = Ok ((a, r), c')
    /\ satisfies c' (honest c') /\ a_val r = digest [nmod - 1] mod nmod
    /\ satisfies c' A /\ A⟦a⟧ = nmod - 1
    /\ forall vs, Forall2 (fun a v => 0 <= v < 2 ^ 256 /\ v mod nmod = A⟦a⟧) [a] vs -> A⟦r⟧ <> digest vs mod nmod.
Proof.
  pose proof bls12_381_fr_p_prime as P.
  destruct (@C41_honest bls_fr P ltac:(discriminate) (bls12_381_fr_p - 1) ltac:(cbn; split; [discriminate|reflexivity])) as (a & r & c0 & c' & R1 & G1 & V1 & H1 & R2 & G2 & H2).
  destruct (@hash_forged bls_fr P ltac:(reflexivity) c0 [a] r c' G1 ltac:(discriminate) ltac:(constructor; [exact V1|constructor]) R2) as (A & SA & KA & OA).
  exists bls_fr, a, r, c', A. split; [reflexivity|]. split; [unfold mbind; change (@nmod bls_fr) with bls12_381_fr_p; rewrite R1; cbv beta iota; rewrite R2; reflexivity|].
  split; [apply good_satisfies; [reflexivity|exact G2]|]. split; [exact H2|]. split; [exact SA|]. pose proof (KA a V1) as EA. rewrite H1 in EA. split; [exact EA|].
  intros vs F. inversion F as [|x v l l' [HR HV] F' E1 E2]; subst. inversion F'; subst. rewrite EA in HV. change (@nmod bls_fr) with bls12_381_fr_p in *.
  assert (C : v = bls12_381_fr_p - 1 \/ v = 2 * bls12_381_fr_p - 1).
  { pose proof (Z.div_mod v bls12_381_fr_p ltac:(discriminate)) as D. rewrite HV in D.
    assert (Q : 0 <= v / bls12_381_fr_p < 2).
    { split; [apply Z.div_pos; [apply HR|reflexivity]|]. apply Z.div_lt_upper_bound; [reflexivity|].
      destruct (Z.lt_ge_cases v (bls12_381_fr_p * 2)) as [K|K]; [exact K|exfalso].
      assert (2 <= v / bls12_381_fr_p) by (apply Z.div_le_lower_bound; [reflexivity|lia]).
      assert (bls12_381_fr_p * 2 <= bls12_381_fr_p * (v / bls12_381_fr_p)) by (apply Z.mul_le_mono_nonneg_l; [discriminate|assumption]).
      assert (X : 2 ^ 256 <= bls12_381_fr_p * 2 + (bls12_381_fr_p - 1)) by (vm_compute; discriminate). lia. }
    assert (Q2 : v / bls12_381_fr_p = 0 \/ v / bls12_381_fr_p = 1) by lia. destruct Q2 as [Q2|Q2]; rewrite Q2 in D; [left|right]; lia. }
  destruct C as [-> | ->]; [apply (no_digest_neq _ _ no_digest_1 OA)|apply (no_digest_neq _ _ no_digest_2 OA)].
Qed.
