(** SPECIFICATION: points and lists as operands of the pairing gadgets, and what it
    means that a gadget maps operands to results. *)
From Verif Require Import Prelude FieldZ Circuit Context Spec RangeInfo IntegerChip EccChip SpecInt SpecTower SpecPairing SpecAte Fq12Chip PairingChip SpecTowerRep Moduli.

Section Rep.
Context {NM : NMod}.
Variable w : Z.

(** Jacobian points of G2, affine points of G2 and of G1 by their coordinates; lists
    elementwise.  The identity flags are not part of the value. *)
Definition jacr : rel ag2 F6 :=
  ((fun f p X => fq2_is w f (gj_x p) (t0 X) /\ fq2_is w f (gj_y p) (t1 X) /\ fq2_is w f (gj_z p) (t2 X)),
   (fun c p X => fq2_in w c (gj_x p) (t0 X) /\ fq2_in w c (gj_y p) (t1 X) /\ fq2_in w c (gj_z p) (t2 X))).
Definition g2r : rel ag2a G2 :=
  ((fun f p Q => fq2_is w f (ga_x p) (fst Q) /\ fq2_is w f (ga_y p) (snd Q)),
   (fun c p Q => fq2_in w c (ga_x p) (fst Q) /\ fq2_in w c (ga_y p) (snd Q))).
Definition g1r : rel apoint (Z * Z) :=
  ((fun f p P => fq_is w f (p_x p) (fst P) /\ fq_is w f (p_y p) (snd P)),
   (fun c p P => fq_in w c (p_x p) (fst P) /\ fq_in w c (p_y p) (snd P))).
Definition listr {X Y} (R : rel X Y) : rel (list X) (list Y) :=
  ((fun f => Forall2 (fst R f)), (fun c => Forall2 (snd R c))).

(** The cell [z] is recorded in the context and holds zero. *)
Definition cleared (c : ctx) (z : av) : Prop := valid c z /\ a_val z = 0.

(** [g] maps operands to results related by [post]: in every satisfying assignment in
    which the operand of a successful run stands for x, the result stands for some y with
    [post x y]; and from every recorded operand x with [pre x], whose [flags] are
    cleared, the honest run succeeds, leaves a satisfied circuit and records such
    a y. *)
Definition maps {X Y X' Y'} (R : rel X Y) (R' : rel X' Y') (flags : X -> list av) (g : X -> M X')
    (pre : Y -> Prop) (post : Y -> Y' -> Prop) : Prop :=
  (forall a, sound (g a) (fun A r => forall x, fst R (at_ A) a x -> exists y, fst R' (at_ A) r y /\ post x y))
  /\ (honest_size w -> forall c a x, wf c -> snd R c a x -> Forall (cleared c) (flags a) -> pre x ->
        accepts c (g a) (fun r c' => exists y, snd R' c' r y /\ post x y)).
(** Operand and result without a value. *)
Definition unitr : rel unit unit := ((fun _ _ _ => True), (fun _ _ _ => True)).
(** Every satisfying assignment has zero in the flags. *)
Definition clears {X X'} (flags : X -> list av) (g : X -> M X') : Prop :=
  forall a, sound (g a) (fun A _ => Forall (fun z => A⟦z⟧ = 0) (flags a)).
Definition no_flags {X} (_ : X) : list av := [].
(** The flags of the two points of every pair. *)
Definition pair_flags (l : list (apoint * ag2a)) : list av := flat_map (fun t => [p_z (fst t); ga_z (snd t)]) l.
(** The flags of the points of G1. *)
Definition point_flags {X} (l : list (apoint * X)) : list av := map (fun t => p_z (fst t)) l.
End Rep.

(** Pairs of points with the lines of the ate pairing instead of the point of G2. *)
Definition bn_ate_terms (ts : list ((Z * Z) * G2)) (ls : list ((Z * Z) * list F6)) : Prop :=
  Forall2 (fun t l => fst t = fst l /\ bn_ate_lines bn256_fq_p bn_digits (snd t) (snd l)) ts ls.
Definition bls_ate_terms (ts : list ((Z * Z) * G2)) (ls : list ((Z * Z) * list F6)) : Prop :=
  Forall2 (fun t l => fst t = fst l /\ bls_ate_lines bls12_381_fq_p bls_digits (snd t) (snd l)) ts ls.
(** The optimal ate pairing of bn256, and the cube of the ate pairing of bls12-381: the
    Miller loop over the lines, to the power (p^12-1)/r, three times that. *)
Definition bn_reduced_pairing (ls : list ((Z * Z) * list F6)) : F12 :=
  pow12 bn_xi (fst (bn_miller bn_digits ls)) ((bn256_fq_p ^ 12 - 1) / bn256_fr_p).
Definition bls_reduced_pairing (ls : list ((Z * Z) * list F6)) : F12 :=
  pow12 bls_xi (fst (bls_miller bls_digits ls)) (3 * ((bls12_381_fq_p ^ 12 - 1) / bls12_381_fr_p)).
(** No point of G1 has y = 0. *)
Definition y_nonzero (p : Z) (ts : list ((Z * Z) * G2)) : Prop := Forall (fun t => snd (fst t) mod p <> 0) ts.
