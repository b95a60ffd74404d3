(** PROPERTIES C46-C48 and C52: the pairing gadgets (src/circuit/pairing_chip.rs,
    bn256_pairing_chip.rs, bls12_381_pairing_chip.rs).

    SpecTower.v defines the tower F_p12 by schoolbook formulas.  SpecAte.v defines,
    in affine coordinates, tangents and chords ([tangent], [chord]), sums ([sum_by]),
    lines ([line_by]) and the list of lines of the two ate pairings ([bn_ate_lines],
    [bls_ate_lines]).  SpecPairing.v defines the Miller loops over given lines
    ([bn_miller], [bls_miller]).  SpecPairingRep.v says when handles stand for
    points and lists ([jacr], [g2r], [g1r], [listr]) and
      [maps w R R' flags g pre post]: in EVERY satisfying assignment, if the operand of
        a successful run of [g] stands for x then the result stands for some y with
        [post x y]; and if w meets [honest_size] then from every recorded operand x with
        [pre x] and cleared [flags] the honest run succeeds, extends the circuit
        to one it satisfies, and records such a y;
      [clears flags g]: every satisfying assignment of a run of [g] has zero in the
        flags (so no point at infinity is accepted). *)
From Coq Require Import Znumtheory.
From Verif Require Import Prelude FieldZ Circuit Context Spec RangeInfo IntegerChip EccChip SpecInt SpecTower SpecPairing SpecAte Fq12Chip PairingConsts PairingChip
  SpecTowerRep SpecPairingRep Moduli Fields NativeMain PairingBridge AteExample PairingMain.
(** C46, bn256.  In every satisfying assignment the final exponentiation maps f to
    f^((p^12-1)/r), where f stands for the operand, and f is not zero; from every f
    that is not zero the honest run is accepted.  r is the prime group order, and divides
    p^12-1. *)
Theorem C46_bn256_final_exponentiation :
  forall (NM : NMod) I, prime nmod -> range_info_new bn256_fq_p = Ok I ->
    maps bn256_fq_p (fq12r bn256_fq_p) (fq12r bn256_fq_p) no_flags (bn_final_exponentiation I)
      (fun f => ~ eq12 bn256_fq_p f zero12)
      (fun f g => ~ eq12 bn256_fq_p f zero12 /\ g = pow12 bn_xi f ((bn256_fq_p ^ 12 - 1) / bn256_fr_p))
 /\ honest_size bn256_fq_p
 /\ prime bn256_fr_p /\ (bn256_fr_p | bn256_fq_p ^ 12 - 1).
Proof. exact C46_bn256_final_exponentiation_main. Qed.
Print Assumptions C46_bn256_final_exponentiation.
(** Non-vacuous: the chip for bn256 exists, and 1 + z is an element with all hypotheses. *)
Example C46_bn256_case : let NM := bn256_fr in @range_info_new bn256_fr bn256_fq_p = Ok bn_fq_info /\ ~ eq12 bn256_fq_p (one6, one6) zero12.
Proof. split; [exact bn_fq_info_ok|]. intros [[[E _] _] _]. vm_compute in E. discriminate E. Qed.

(** C46, bls12-381.  The same with exponent 3 (p^12-1)/r; 3 is prime to r. *)
Theorem C46_bls12_381_final_exponentiation :
  forall (NM : NMod) I, prime nmod -> range_info_new bls12_381_fq_p = Ok I ->
    maps bls12_381_fq_p (fq12r bls12_381_fq_p) (fq12r bls12_381_fq_p) no_flags (bls_final_exponentiation I)
      (fun f => ~ eq12 bls12_381_fq_p f zero12)
      (fun f g => ~ eq12 bls12_381_fq_p f zero12 /\ g = pow12 bls_xi f (3 * ((bls12_381_fq_p ^ 12 - 1) / bls12_381_fr_p)))
 /\ honest_size bls12_381_fq_p
 /\ prime bls12_381_fr_p /\ (bls12_381_fr_p | bls12_381_fq_p ^ 12 - 1) /\ rel_prime 3 bls12_381_fr_p.
Proof. exact C46_bls12_381_final_exponentiation_main. Qed.
Print Assumptions C46_bls12_381_final_exponentiation.
(** Non-vacuous. *)
Example C46_bls12_381_case : let NM := bn256_fr in @range_info_new bn256_fr bls12_381_fq_p = Ok bls_fq_info /\ ~ eq12 bls12_381_fq_p (one6, one6) zero12.
Proof. split; [exact bls_fq_info_ok|]. intros [[[E _] _] _]. vm_compute in E. discriminate E. Qed.

(** C47, doubling.  For any prime w.  X, Y, Z are the Jacobian coordinates of the
    operand.  The result has the Jacobian coordinates of the doubled point, with Z' =
    2 Y Z, and the coefficients of the tangent line multiplied by 4 Y Z^3. *)
Theorem C47_doubling_step :
  forall (NM : NMod) w I, prime nmod -> prime w -> range_info_new w = Ok I ->
    maps w (jacr w) (pairr (jacr w) (fq6r w)) no_flags (doubling_step I) (fun _ => True)
      (fun X r => let '(X', l) := r in
         eq2 w (t2 X') (smul2 2 (mul2 (t1 X) (t2 X)))
      /\ forall P lam, jacobian w X P -> tangent w P lam ->
           jacobian w X' (sum_by lam P P)
        /\ eq6 w l (scale (smul2 4 (mul2 (t1 X) (mul2 (t2 X) (mul2 (t2 X) (t2 X))))) (line_by lam P))).
Proof. exact C47_doubling_step_main. Qed.
Print Assumptions C47_doubling_step.
(** Non-vacuous: the generator of G2 of bn256, with Z = 1, and the first slope. *)
Example C47_doubling_case : jacobian bn256_fq_p (fst bn_gen, snd bn_gen, one2) bn_gen
  /\ tangent bn256_fq_p bn_gen (hd one2 bn_slopes) /\ ~ eq2 bn256_fq_p (snd bn_gen) zero2.
Proof.
  split; [split; split; vm_compute; reflexivity|]. split; [split; vm_compute; reflexivity|]. intros [E _]. vm_compute in E. discriminate E.
Qed.

(** C47, addition of an affine point.  The result has the Jacobian coordinates of
    P + Q, with Z' = 2 Z^3 (xQ - xP), and the coefficients of the chord line through
    Q multiplied by 2 Z'. *)
Theorem C47_addition_step :
  forall (NM : NMod) w I, prime nmod -> prime w -> range_info_new w = Ok I ->
    maps w (pairr (jacr w) (g2r w)) (pairr (jacr w) (fq6r w)) no_flags (fun a => addition_step I (fst a) (snd a)) (fun _ => True)
      (fun x r => let '(X, Q) := x in let '(X', l) := r in
         forall P lam, jacobian w X P -> chord w P Q lam ->
           jacobian w X' (sum_by lam P Q)
        /\ eq2 w (t2 X') (smul2 2 (mul2 (sub2 (fst Q) (fst P)) (mul2 (t2 X) (mul2 (t2 X) (t2 X)))))
        /\ eq6 w l (scale (smul2 2 (t2 X')) (line_by lam Q))).
Proof. exact C47_addition_step_main. Qed.
Print Assumptions C47_addition_step.
(** Non-vacuous: 2G + G on bn256, with the first two slopes. *)
Example C47_addition_case : let D := sum_by (hd one2 bn_slopes) bn_gen bn_gen in
  jacobian bn256_fq_p (fst D, snd D, one2) D /\ chord bn256_fq_p D bn_gen (nth 1 bn_slopes one2) /\ ~ eq2 bn256_fq_p (fst D) (fst bn_gen).
Proof.
  split; [split; split; vm_compute; reflexivity|]. split; [split; vm_compute; reflexivity|]. intros [E _]. vm_compute in E. discriminate E.
Qed.

(** C48, bn256.  [total] is the number of lines the loop of SpecPairing.v uses: number 0 to
    total-1, each once, in order.  A successful preparation returns exactly [total]
    lines.  A Miller loop only succeeds if every list has exactly [total] lines; from any
    number of pairs with [total] lines each it succeeds (so it never takes a line that is
    not there), and it returns the value of that loop.  The digits of
    the loop are those of 6u+2. *)
Theorem C48_bn256_miller_loop :
  forall (NM : NMod) I, prime nmod -> range_info_new bn256_fq_p = Ok I ->
    let total := snd (bn_miller bn_digits []) in
    (forall g c r c', bn_prepare_g2 I g c = Ok (r, c') -> length r = total)
 /\ (forall l c r c', bn_multi_miller_loop I l c = Ok (r, c') -> Forall (fun t => length (snd t) = total) l)
 /\ maps bn256_fq_p (listr (pairr (g1r bn256_fq_p) (listr (fq6r bn256_fq_p)))) (fq12r bn256_fq_p) point_flags (bn_multi_miller_loop I)
      (fun ts => Forall (fun t => length (snd t) = total) ts) (fun ts f => f = fst (bn_miller bn_digits ts))
 /\ clears point_flags (bn_multi_miller_loop I)
 /\ honest_size bn256_fq_p
 /\ digits_value bn_digits = 6 * bn_u + 2.
Proof. exact C48_bn256_miller_loop_main. Qed.
Print Assumptions C48_bn256_miller_loop.
(** Non-vacuous: the number of lines; the loop of one line at (2, 3) is that line. *)
Example C48_bn256_case : snd (bn_miller bn_digits []) = 91%nat
  /\ fst (bn_miller [] [((2, 3), [((1, 0), (5, 1), (7, 2)); ((1, 0), (1, 1), (0, 1))])]) <> one12.
Proof. split; [reflexivity|]. vm_compute. discriminate. Qed.

(** C48, bls12_381.  [total] is the number of lines the loop of SpecPairing.v uses: number 0 to
    total-1, each once, in order.  A successful preparation returns exactly [total]
    lines.  A Miller loop only succeeds if every list has at least [total] lines; from any
    number of pairs with [total] lines each it succeeds (so it never takes a line that is
    not there), and it returns the value of that loop.  The digits of the
    loop are those of |x|/2. *)
Theorem C48_bls12_381_miller_loop :
  forall (NM : NMod) I, prime nmod -> range_info_new bls12_381_fq_p = Ok I ->
    let total := snd (bls_miller bls_digits []) in
    (forall g c r c', bls_prepare_g2 I g c = Ok (r, c') -> length r = total)
 /\ (forall l c r c', bls_multi_miller_loop I l c = Ok (r, c') -> Forall (fun t => (total <= length (snd t))%nat) l)
 /\ maps bls12_381_fq_p (listr (pairr (g1r bls12_381_fq_p) (listr (fq6r bls12_381_fq_p)))) (fq12r bls12_381_fq_p) point_flags (bls_multi_miller_loop I)
      (fun ts => Forall (fun t => (total <= length (snd t))%nat) ts) (fun ts f => f = fst (bls_miller bls_digits ts))
 /\ clears point_flags (bls_multi_miller_loop I)
 /\ honest_size bls12_381_fq_p
 /\ 2 * digits_value (map (fun b : bool => if b then 1 else 0) bls_digits) = - bls_x.
Proof. exact C48_bls12_381_miller_loop_main. Qed.
Print Assumptions C48_bls12_381_miller_loop.
(** Non-vacuous: the number of lines; the loop of one line at (2, 3) is that line. *)
Example C48_bls12_381_case : snd (bls_miller bls_digits []) = 68%nat
  /\ fst (bls_miller [] [((2, 3), [((1, 0), (5, 1), (7, 2)); ((1, 0), (1, 1), (0, 1))])]) <> one12.
Proof. split; [reflexivity|]. vm_compute. discriminate. Qed.

(** C52, bn256, pairing.  For any number of pairs (P, Q).  In every satisfying assignment
    the result is the product of the reduced optimal ate pairings of the pairs, whenever the lines of
    the pairing exist for every Q (no vertical line is met); no identity flag is
    set.  If the lines exist and no P has y = 0 the honest run is accepted. *)
Theorem C52_bn256_pairing :
  forall (NM : NMod) I, prime nmod -> range_info_new bn256_fq_p = Ok I ->
    maps bn256_fq_p (listr (pairr (g1r bn256_fq_p) (g2r bn256_fq_p))) (fq12r bn256_fq_p) pair_flags (bn_pairing I)
      (fun ts => (exists ls, bn_ate_terms ts ls) /\ y_nonzero bn256_fq_p ts)
      (fun ts e => forall ls, bn_ate_terms ts ls -> eq12 bn256_fq_p e (bn_reduced_pairing ls))
 /\ clears pair_flags (bn_pairing I)
 /\ honest_size bn256_fq_p.
Proof. exact C52_bn256_pairing_main. Qed.
Print Assumptions C52_bn256_pairing.
(** Non-vacuous: the generator of G2 has lines; with the point (1, 2) of the curve. *)
Example C52_bn256_case : (exists ls, bn_ate_terms [((1, 2), bn_gen)] ls) /\ y_nonzero bn256_fq_p [((1, 2), bn_gen)].
Proof.
  destruct bn_gen_lines as [ls H]. split.
  - exists [((1, 2), ls)]. constructor; [split; [reflexivity|exact H]|constructor].
  - constructor; [|constructor]. intros E. vm_compute in E. discriminate E.
Qed.

(** C52, bn256, pairing check.  A satisfying assignment exists only if the product of the
    reduced pairings is one, and the honest run is accepted if it is. *)
Theorem C52_bn256_check_pairing :
  forall (NM : NMod) I, prime nmod -> range_info_new bn256_fq_p = Ok I ->
    maps bn256_fq_p (listr (pairr (g1r bn256_fq_p) (g2r bn256_fq_p))) unitr pair_flags (bn_check_pairing I)
      (fun ts => exists ls, bn_ate_terms ts ls /\ y_nonzero bn256_fq_p ts /\ eq12 bn256_fq_p (bn_reduced_pairing ls) one12)
      (fun ts _ => forall ls, bn_ate_terms ts ls -> eq12 bn256_fq_p (bn_reduced_pairing ls) one12)
 /\ clears pair_flags (bn_check_pairing I)
 /\ honest_size bn256_fq_p.
Proof. exact C52_bn256_check_pairing_main. Qed.
Print Assumptions C52_bn256_check_pairing.
(** Non-vacuous: e(P, G) e(-P, G) = 1 for every P = (x, y) with y not 0 and the
    generator G, so the hypotheses of acceptance are met. *)
Example C52_bn256_check_case : forall x y, y mod bn256_fq_p <> 0 -> let ts := [((x, y), bn_gen); ((x, - y), bn_gen)] in
  exists ls, bn_ate_terms ts ls /\ y_nonzero bn256_fq_p ts /\ eq12 bn256_fq_p (bn_reduced_pairing ls) one12.
Proof. exact bn_opposite_case. Qed.

(** C52, bls12_381, pairing.  For any number of pairs (P, Q).  In every satisfying assignment
    the result is the product of the reduced ate pairings, to the third power, of the pairs, whenever the lines of
    the pairing exist for every Q (no vertical line is met); no identity flag is
    set.  If the lines exist and no P has y = 0 the honest run is accepted. *)
Theorem C52_bls12_381_pairing :
  forall (NM : NMod) I, prime nmod -> range_info_new bls12_381_fq_p = Ok I ->
    maps bls12_381_fq_p (listr (pairr (g1r bls12_381_fq_p) (g2r bls12_381_fq_p))) (fq12r bls12_381_fq_p) pair_flags (bls_pairing I)
      (fun ts => (exists ls, bls_ate_terms ts ls) /\ y_nonzero bls12_381_fq_p ts)
      (fun ts e => forall ls, bls_ate_terms ts ls -> eq12 bls12_381_fq_p e (bls_reduced_pairing ls))
 /\ clears pair_flags (bls_pairing I)
 /\ honest_size bls12_381_fq_p.
Proof. exact C52_bls12_381_pairing_main. Qed.
Print Assumptions C52_bls12_381_pairing.
(** Non-vacuous: the generator of G2 has lines; with the point (0, 2) of the curve. *)
Example C52_bls12_381_case : (exists ls, bls_ate_terms [((0, 2), bls_gen)] ls) /\ y_nonzero bls12_381_fq_p [((0, 2), bls_gen)].
Proof.
  destruct bls_gen_lines as [ls H]. split.
  - exists [((0, 2), ls)]. constructor; [split; [reflexivity|exact H]|constructor].
  - constructor; [|constructor]. intros E. vm_compute in E. discriminate E.
Qed.

(** C52, bls12_381, pairing check.  A satisfying assignment exists only if the product of the
    reduced pairings is one, and the honest run is accepted if it is. *)
Theorem C52_bls12_381_check_pairing :
  forall (NM : NMod) I, prime nmod -> range_info_new bls12_381_fq_p = Ok I ->
    maps bls12_381_fq_p (listr (pairr (g1r bls12_381_fq_p) (g2r bls12_381_fq_p))) unitr pair_flags (bls_check_pairing I)
      (fun ts => exists ls, bls_ate_terms ts ls /\ y_nonzero bls12_381_fq_p ts /\ eq12 bls12_381_fq_p (bls_reduced_pairing ls) one12)
      (fun ts _ => forall ls, bls_ate_terms ts ls -> eq12 bls12_381_fq_p (bls_reduced_pairing ls) one12)
 /\ clears pair_flags (bls_check_pairing I)
 /\ honest_size bls12_381_fq_p.
Proof. exact C52_bls12_381_check_pairing_main. Qed.
Print Assumptions C52_bls12_381_check_pairing.
(** Non-vacuous: e(P, G) e(-P, G) = 1 for every P = (x, y) with y not 0 and the
    generator G, so the hypotheses of acceptance are met. *)
Example C52_bls12_381_check_case : forall x y, y mod bls12_381_fq_p <> 0 -> let ts := [((x, y), bls_gen); ((x, - y), bls_gen)] in
  exists ls, bls_ate_terms ts ls /\ y_nonzero bls12_381_fq_p ts /\ eq12 bls12_381_fq_p (bls_reduced_pairing ls) one12.
Proof. exact bls_opposite_case. Qed.

