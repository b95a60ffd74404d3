(** PROPERTIES C43-C45: the extension-field gadgets (src/circuit/fq12.rs and the
    Frobenius maps of src/circuit/bn256_pairing_chip.rs and bls12_381_pairing_chip.rs).

    SpecTower.v defines the tower over the integers modulo w by schoolbook formulas:
    [mul2] (u^2 = -1), [mul6 xi] (v^3 = xi), [mul12 xi] (z^2 = v), [pow2], [pow6],
    [pow12] (repeated multiplication) and equality modulo w, [eq2 w] and so on.
    SpecTowerRep.v says when a handle stands for a field element ([fq2r w], [fq6r w],
    [fq12r w]: in an assignment, and recorded in a context), and
      [computes1 w R g op]: in EVERY satisfying assignment in which the operand of
        [g] stands for x the result stands for [op x]; and, if w meets
        [honest_size], the honest run of [g] on every recorded operand succeeds,
        extends the circuit to one it satisfies, and records [op x];
      [computes0], [computes2]: the same for constants and two operands;
      [compares]: equality is forced, and equal operands are accepted;
      [inverts]: the result is an inverse, and invertible operands are accepted.
    [tower I nonres xi]: [nonres] is the bn256 gadget and xi = 9 + u, or [nonres]
    is the bls12-381 gadget and xi = 1 + u.  w is any prime. *)
From Verif Require Import Prelude FieldZ Circuit Context Spec RangeInfo IntegerChip SpecInt SpecTower Fq12Chip PairingConsts PairingChip SpecTowerRep
  Moduli Fields NativeMain TowerMain.
(** C43, quadratic extension.  Every fq2 gadget computes its operation of
    F_w[u]/(u^2+1); multiplication by the non-residue multiplies by xi. *)
Theorem C43_fq2_gadgets :
  forall (NM : NMod) w I nonres xi, prime nmod -> prime w -> range_info_new w = Ok I -> tower I nonres xi ->
    computes0 w (fq2r w) (fq2_assign_zero I) zero2
 /\ computes0 w (fq2r w) (fq2_assign_one I) one2
 /\ (forall k, reduced2 w k -> computes0 w (fq2r w) (fq2_assign_constant I k) k)
 /\ computes1 w (fq2r w) (fq2_reduce I) (fun x => x)
 /\ compares w (fq2r w) (fq2_assert_equal I) (eq2 w)
 /\ computes2 w (fq2r w) (fq2r w) (fq2_add I) add2
 /\ computes2 w (fq2r w) (fq2r w) (fq2_sub I) sub2
 /\ computes2 w (fq2r w) (fq2r w) (fq2_mul I) mul2
 /\ computes1 w (fq2r w) (fq2_double I) (fun x => add2 x x)
 /\ computes1 w (fq2r w) (fq2_square I) (fun x => mul2 x x)
 /\ computes1 w (fq2r w) (fq2_neg I) neg2
 /\ computes1 w (fq2r w) (fq2_conjugate I) conj2
 /\ computes1 w (fq2r w) nonres (mul2 xi)
 /\ inverts w (fq2r w) (fq2_unsafe_invert I) (eq2 w) mul2 one2.
Proof. exact C43_fq2_gadgets_main. Qed.
Print Assumptions C43_fq2_gadgets.
(** Non-vacuous: both base fields of the repository meet all hypotheses, including
    [honest_size]. *)
Example C43_fields : let NM := bn256_fr in
  @range_info_new bn256_fr bn256_fq_p = Ok bn_fq_info /\ @range_info_new bn256_fr bls12_381_fq_p = Ok bls_fq_info
  /\ tower bn_fq_info (bn_nonres bn_fq_info) bn_xi /\ tower bls_fq_info (bls_nonres bls_fq_info) bls_xi
  /\ honest_size bn256_fq_p /\ honest_size bls12_381_fq_p.
Proof.
  split; [exact bn_fq_info_ok|]. split; [exact bls_fq_info_ok|]. split; [left; auto|]. split; [right; auto|]. exact honest_case.
Qed.

(** C43, sextic extension.  Every fq6 gadget computes its operation of
    F_w2[v]/(v^3-xi); the sparse multiplications are products with b1 v and b0 + b1 v. *)
Theorem C43_fq6_gadgets :
  forall (NM : NMod) w I nonres xi, prime nmod -> prime w -> range_info_new w = Ok I -> tower I nonres xi ->
    computes0 w (fq6r w) (fq6_assign_zero I) zero6
 /\ computes0 w (fq6r w) (fq6_assign_one I) one6
 /\ (forall k, reduced6 w k -> computes0 w (fq6r w) (fq6_assign_constant I k) k)
 /\ computes1 w (fq6r w) (fq6_reduce I) (fun x => x)
 /\ compares w (fq6r w) (fq6_assert_equal I) (eq6 w)
 /\ computes2 w (fq6r w) (fq6r w) (fq6_add I) add6
 /\ computes2 w (fq6r w) (fq6r w) (fq6_sub I) sub6
 /\ computes2 w (fq6r w) (fq6r w) (fq6_mul I nonres) (mul6 xi)
 /\ computes1 w (fq6r w) (fq6_double I) (fun x => add6 x x)
 /\ computes1 w (fq6r w) (fq6_square I nonres) (fun x => mul6 xi x x)
 /\ computes1 w (fq6r w) (fq6_neg I) neg6
 /\ computes1 w (fq6r w) (fq6_mul_by_nonresidue nonres) (mul6 xi v6)
 /\ computes2 w (fq6r w) (fq2r w) (fq6_mul_by_1 I nonres) (fun x b1 => mul6 xi x (zero2, b1, zero2))
 /\ computes2 w (fq6r w) (pairr (fq2r w) (fq2r w)) (fun a b => fq6_mul_by_01 I nonres a (fst b) (snd b))
      (fun x b => mul6 xi x (fst b, snd b, zero2))
 /\ inverts w (fq6r w) (fq6_unsafe_invert I nonres) (eq6 w) (mul6 xi) one6.
Proof. exact C43_fq6_gadgets_main. Qed.
Print Assumptions C43_fq6_gadgets.

(** C43, degree twelve.  Every fq12 gadget computes its operation of F_w6[z]/(z^2-v);
    the sparse multiplications are products with c0 + c1 v + c4 v z and
    c0 + c3 z + c4 v z. *)
Theorem C43_fq12_gadgets :
  forall (NM : NMod) w I nonres xi, prime nmod -> prime w -> range_info_new w = Ok I -> tower I nonres xi ->
    computes0 w (fq12r w) (fq12_assign_zero I) zero12
 /\ computes0 w (fq12r w) (fq12_assign_one I) one12
 /\ (forall k, reduced12 w k -> computes0 w (fq12r w) (fq12_assign_constant I k) k)
 /\ computes1 w (fq12r w) (fq12_reduce I) (fun x => x)
 /\ compares w (fq12r w) (fq12_assert_eq I) (eq12 w)
 /\ compares w (fq12r w) (fun a _ => fq12_assert_one I a) (fun x _ => eq12 w x one12)
 /\ computes2 w (fq12r w) (fq12r w) (fq12_add I) add12
 /\ computes2 w (fq12r w) (fq12r w) (fq12_sub I) sub12
 /\ computes2 w (fq12r w) (fq12r w) (fq12_mul I nonres) (mul12 xi)
 /\ computes1 w (fq12r w) (fq12_double I) (fun x => add12 x x)
 /\ computes1 w (fq12r w) (fq12_square I nonres) (fun x => mul12 xi x x)
 /\ computes1 w (fq12r w) (fq12_neg I) neg12
 /\ computes1 w (fq12r w) (fq12_conjugate I) conj12
 /\ computes2 w (fq12r w) (fq6r w) (fun a k => fq12_mul_by_014 I nonres a (t0 k) (t1 k) (t2 k))
      (fun x y => mul12 xi x ((t0 y, t1 y, zero2), (zero2, t2 y, zero2)))
 /\ computes2 w (fq12r w) (fq6r w) (fun a k => fq12_mul_by_034 I nonres a (t0 k) (t1 k) (t2 k))
      (fun x y => mul12 xi x ((t0 y, zero2, zero2), (t1 y, t2 y, zero2)))
 /\ inverts w (fq12r w) (fq12_unsafe_invert I nonres) (eq12 w) (mul12 xi) one12.
Proof. exact C43_fq12_gadgets_main. Qed.
Print Assumptions C43_fq12_gadgets.

(** C43: the two towers are fields: every element other than zero has an inverse, so
    the honest runs of the inversion gadgets are accepted on exactly the elements
    other than zero. *)
Theorem C43_towers_are_fields :
  (forall x, ~ eq2 bn256_fq_p x zero2 -> exists y, eq2 bn256_fq_p (mul2 x y) one2)
  /\ (forall x, ~ eq6 bn256_fq_p x zero6 -> exists y, eq6 bn256_fq_p (mul6 bn_xi x y) one6)
  /\ (forall x, ~ eq12 bn256_fq_p x zero12 -> exists y, eq12 bn256_fq_p (mul12 bn_xi x y) one12)
  /\ (forall x, ~ eq2 bls12_381_fq_p x zero2 -> exists y, eq2 bls12_381_fq_p (mul2 x y) one2)
  /\ (forall x, ~ eq6 bls12_381_fq_p x zero6 -> exists y, eq6 bls12_381_fq_p (mul6 bls_xi x y) one6)
  /\ (forall x, ~ eq12 bls12_381_fq_p x zero12 -> exists y, eq12 bls12_381_fq_p (mul12 bls_xi x y) one12).
Proof. exact C43_towers_are_fields_main. Qed.
Print Assumptions C43_towers_are_fields.
(** A case: v + z in the bn256 tower is not zero. *)
Example C43_fields_case : ~ eq12 bn256_fq_p (v6, one6) zero12.
Proof. intros [_ H]. revert H. vm_compute. intros ([H _] & _). discriminate H. Qed.

(** C44 for bn256: for every exponent k, the three Frobenius gadgets raise to the power
    p^k. *)
Theorem C44_bn256_frobenius :
  forall (NM : NMod) I (k : nat), prime nmod -> range_info_new bn256_fq_p = Ok I ->
    let p := bn256_fq_p in
    computes1 p (fq2r p) (fun a => bn_fq2_frobenius_map I a k) (fun x => pow2 x (p ^ Z.of_nat k))
 /\ computes1 p (fq6r p) (fun a => bn_fq6_frobenius_map I a k) (fun x => pow6 bn_xi x (p ^ Z.of_nat k))
 /\ computes1 p (fq12r p) (fun a => bn_fq12_frobenius_map I a k) (fun x => pow12 bn_xi x (p ^ Z.of_nat k)).
Proof. exact C44_bn256_frobenius_main. Qed.
Print Assumptions C44_bn256_frobenius.

(** C44 for bls12-381, the part that holds: whatever exponent k is passed, the gadgets
    raise to the power p, so they are right for k = 1 (the only exponent the repository
    passes).  Missing: other exponents, for which the claim is false, see below. *)
Theorem C44_bls12_381_frobenius_partial :
  forall (NM : NMod) I (k : nat), prime nmod -> range_info_new bls12_381_fq_p = Ok I ->
    let p := bls12_381_fq_p in
    computes1 p (fq2r p) (fun a => bls_fq2_frobenius_map I a k) (fun x => pow2 x p)
 /\ computes1 p (fq6r p) (fun a => bls_fq6_frobenius_map I a k) (fun x => pow6 bls_xi x p)
 /\ computes1 p (fq12r p) (fun a => bls_fq12_frobenius_map I a k) (fun x => pow12 bls_xi x p).
Proof. exact C44_bls12_381_frobenius_partial_main. Qed.
Print Assumptions C44_bls12_381_frobenius_partial.

(** C44 for bls12-381 with exponent 2 is false: from the empty circuit, assign x = u and
    apply fq2_frobenius_map with power 2.  The honest run is satisfied and returns -u,
    but u^(p^2) = u. *)
Theorem C44_bls12_381_frobenius_refuted :
  exists (NM : NMod) I a r c', prime nmod /\ range_info_new bls12_381_fq_p = Ok I
    /\ (a <- fq2_assign_constant I (0, 1) ;; r <- bls_fq2_frobenius_map I a 2 ;; mret (a, r)) ctx_new = Ok ((a, r), c')
    /\ satisfies c' (honest c')
    /\ fq2_is bls12_381_fq_p a_val a (0, 1) /\ fq2_is bls12_381_fq_p a_val r (0, -1)
    /\ eq2 bls12_381_fq_p (pow2 (0, 1) (bls12_381_fq_p ^ Z.of_nat 2)) (0, 1)
    /\ ~ eq2 bls12_381_fq_p (0, 1) (0, -1).
Proof. exact C44_bls12_381_frobenius_refuted_main. Qed.
Print Assumptions C44_bls12_381_frobenius_refuted.

(** C45.  For every element x of the cyclotomic subgroup (order dividing p^4 - p^2 + 1)
    fq12_cyclotomic_square returns x^2, on both curves: in every satisfying assignment,
    and the honest run is accepted. *)
Theorem C45_cyclotomic_square :
  forall (NM : NMod) I nonres xi p, prime nmod -> range_info_new p = Ok I ->
    (p = bn256_fq_p /\ nonres = bn_nonres I /\ xi = bn_xi) \/ (p = bls12_381_fq_p /\ nonres = bls_nonres I /\ xi = bls_xi) ->
    (forall a, sound (fq12_cyclotomic_square I nonres a) (fun A r => forall x,
        fq12_is p (at_ A) a x -> cyclotomic p xi x -> fq12_is p (at_ A) r (mul12 xi x x)))
 /\ (forall c a x, wf c -> fq12_in p c a x -> cyclotomic p xi x ->
        accepts c (fq12_cyclotomic_square I nonres a) (fun r c' => fq12_in p c' r (mul12 xi x x))).
Proof. exact C45_cyclotomic_square_main. Qed.
Print Assumptions C45_cyclotomic_square.
(** Non-vacuous: one is in the subgroup, and so is y^((p^6-1)(p^2+1)) for every y
    other than zero (this is what the final exponentiation squares). *)
Example C45_case : cyclotomic bn256_fq_p bn_xi one12.
Proof. exact cyc_one. Qed.
Example C45_case2 y : ~ eq12 bn256_fq_p y zero12 ->
  cyclotomic bn256_fq_p bn_xi (pow12 bn_xi y ((bn256_fq_p ^ 6 - 1) * (bn256_fq_p ^ 2 + 1))).
Proof. exact (cyc_easy y). Qed.

