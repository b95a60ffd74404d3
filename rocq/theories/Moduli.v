(** The concrete moduli used by the project: the scalar and base fields of bn256
    (halo2_proofs::pairing::bn256, the native field N is [Fr]) and of
    bls12-381. *)
From Verif Require Import Prelude FieldZ Pocklington Primes.

Definition bn256_fr_p : Z := 21888242871839275222246405745257275088548364400416034343698204186575808495617.
Definition bn256_fq_p : Z := 21888242871839275222246405745257275088696311157297823662689037894645226208583.
Definition bls12_381_fr_p : Z := 0x73eda753299d7d483339d80809a1d80553bda402fffe5bfeffffffff00000001.
Definition bls12_381_fq_p : Z := 0x1a0111ea397fe69a4b1ba7b6434bacd764774b84f38512bf6730d2a0f6b0f6241eabfffeb153ffffb9feffffffffaaab.

(** The native field of all circuits in the project. *)
Definition bn256_fr : NMod := mkNMod bn256_fr_p.

Lemma bn256_fr_prime : prime (@nmod bn256_fr).
Proof. exact prime_bn256_fr. Qed.
Lemma bn256_fq_p_prime : prime bn256_fq_p.
Proof. exact prime_bn256_fq. Qed.
Lemma bls12_381_fr_p_prime : prime bls12_381_fr_p.
Proof. exact prime_bls12_381_fr. Qed.
Lemma bls12_381_fq_p_prime : prime bls12_381_fq_p.
Proof. exact prime_bls12_381_fq. Qed.
