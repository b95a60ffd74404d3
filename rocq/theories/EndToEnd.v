(** A whole circuit of point operations, as a user of the library writes it (there is no such function in /repo;
    compare the circuits of src/tests/native_scalar_ecc_chip.rs): constant conditions, points given as witnesses through
    [assign_non_zero_point] (src/circuit/ecc_chip.rs:489-512) and [ecc_non_zero_point_downgrade]
    (984-997), then a program of point operations. *)
From Verif Require Import Prelude FieldZ Circuit Context RangeInfo RangeChip BaseChip IntegerChip EccChip SpecPointProg PointProg.

Section EndToEnd.
Context {NM : NMod}.
Variable I : rinfo.
Variable b ord : Z.

Definition input_point (p : Z * Z) : M apoint :=
  a <- assign_non_zero_point I b (Some p) ;; ecc_non_zero_point_downgrade a.
(** Returns the handles of the inputs and the registers at the end. *)
Definition point_circuit (zs : list bool) (inputs : list (Z * Z)) (prog : list (bool * pop)) : M (list apoint * list apoint) :=
  bs <- mapM (fun z : bool => assign_constant (Z.b2z z)) zs ;;
  xs <- mapM input_point inputs ;;
  rs <- run_pops I ord bs xs prog ;;
  mret (xs, rs).
End EndToEnd.
