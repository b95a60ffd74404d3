(** A whole circuit around the pairing check, after the second circuit of
    src/tests/native_scalar_pairing_chip.rs:66-95: points of G2 as constants ([fq2_assign_constant] of the coordinates, constant zero as
    identity flag, [AssignedG2Affine::new] of src/assign.rs:172-192), points of G1 as witnesses through [assign_point]
    (src/circuit/ecc_chip.rs:458-487), then [check_pairing].  Simplified: every pair has a point of G2 of its own, assigned just before its point of G1. *)
From Verif Require Import Prelude FieldZ Circuit Context RangeInfo BaseChip IntegerChip EccChip SpecTower SpecPairing SpecAte Fq12Chip PairingChip.

Section PairEnd.
Context {NM : NMod}.
Variable I : rinfo.
Variable b : Z.
Variable check : list (apoint * ag2a) -> M unit.

Definition constant_g2 (q : G2) : M ag2a :=
  x <- fq2_assign_constant I (fst q) ;; y <- fq2_assign_constant I (snd q) ;; z <- assign_constant 0 ;; mret (mkG2a x y z).
Definition pair_term (t : (Z * Z) * G2) : M (apoint * ag2a) :=
  q <- constant_g2 (snd t) ;; a <- assign_point I b (Some (fst t)) ;; mret (a, q).
(** Returns the handles of the points of G1. *)
Definition pairing_circuit (qs : list G2) (inputs : list (Z * Z)) : M (list apoint) :=
  ts <- mapM pair_term (combine inputs qs) ;; check ts ;;; mret (map fst ts).
End PairEnd.
