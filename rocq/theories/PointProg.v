(** Running a straight-line program through the complete point gadgets of
    src/circuit/ecc_chip.rs:436-731: every operation is one call of the API on the handles in the
    registers (with the tangent slope computed where the API wants it: [true] in [curves] asks for
    [ecc_reduce_with_curvature], [false] for [to_point_with_curvature]), its result is pushed on the registers.
    (This is what a user of the library writes; there is no such interpreter in /repo.) *)
From Verif Require Import Prelude FieldZ Circuit Context RangeInfo RangeChip BaseChip IntegerChip EccChip SpecPointProg.

Section PointProg.
Context {NM : NMod}.
Variable I : rinfo.
Variable ord : Z.

Definition with_curvature (reduced : bool) (a : apoint) : M apointc :=
  if reduced then ecc_reduce_with_curvature I a else to_point_with_curvature I a.

Definition run_pop (bs : list acond) (rs : list apoint) (op : bool * pop) : M (list apoint) :=
  match snd op with
  | PConst p => r <- assign_constant_point I p ;; mret (rs ++ [r])
  | PIdentity => r <- assign_identity I ;; mret (rs ++ [to_point r])
  | PAdd i j => a <- mnth rs i ;; b <- mnth rs j ;; ac <- with_curvature (fst op) a ;; r <- ecc_add I ac b ;; mret (rs ++ [r])
  | PDouble i => a <- mnth rs i ;; ac <- with_curvature (fst op) a ;; r <- ecc_double I ord ac ;; mret (rs ++ [r])
  | PNeg i => a <- mnth rs i ;; r <- ecc_neg I a ;; mret (rs ++ [r])
  | PReduce i => a <- mnth rs i ;; r <- ecc_reduce I a ;; mret (rs ++ [r])
  | PSelect k i j => c <- mnth bs k ;; a <- mnth rs i ;; b <- mnth rs j ;; r <- bisec_point I c a b ;; mret (rs ++ [r])
  | PAssertEqual i j => a <- mnth rs i ;; b <- mnth rs j ;; ecc_assert_equal I a b ;;; mret rs
  end.
Definition run_pops (bs : list acond) (rs : list apoint) (prog : list (bool * pop)) : M (list apoint) :=
  foldM (run_pop bs) rs prog.
End PointProg.
