(** The integer parameters ([RangeInfo::new]) of the concrete fields, evaluated. *)
From Verif Require Import Prelude FieldZ Circuit RangeInfo Moduli Prime311.

Definition dummy_info : rinfo := mkRI 0 0 0 0 0 0 0 [] [] [] 0 0 0 0 0 [].
Definition info_of (w : Z) : rinfo := match @range_info_new bn256_fr w with Ok J => J | Panic => dummy_info end.

(** range_info.rs:77-184 for bn256 Fq, bls12-381 Fr and bls12-381 Fq over bn256 Fr
    (the pairs used by src/context.rs and the tests), and for the prime of C50. *)
Definition bn_fq_info : rinfo := Eval vm_compute in info_of bn256_fq_p.
Definition bls_fr_info : rinfo := Eval vm_compute in info_of bls12_381_fr_p.
Definition bls_fq_info : rinfo := Eval vm_compute in info_of bls12_381_fq_p.
Definition w311_info : rinfo := Eval vm_compute in info_of w311.

Lemma bn_fq_info_ok : @range_info_new bn256_fr bn256_fq_p = Ok bn_fq_info.
Proof. vm_cast_no_check (eq_refl (@Ok rinfo bn_fq_info)). Qed.
Lemma bls_fr_info_ok : @range_info_new bn256_fr bls12_381_fr_p = Ok bls_fr_info.
Proof. vm_cast_no_check (eq_refl (@Ok rinfo bls_fr_info)). Qed.
Lemma bls_fq_info_ok : @range_info_new bn256_fr bls12_381_fq_p = Ok bls_fq_info.
Proof. vm_cast_no_check (eq_refl (@Ok rinfo bls_fq_info)). Qed.
Lemma w311_info_ok : @range_info_new bn256_fr w311 = Ok w311_info.
Proof. vm_cast_no_check (eq_refl (@Ok rinfo w311_info)). Qed.
