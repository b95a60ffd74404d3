(** Model of the scalar side of src/circuit/native_scalar_ecc_chip.rs:94-194 and
    src/circuit/general_scalar_ecc_chip.rs:93-169: decomposition of a scalar into
    bits. *)
From Verif Require Import Prelude FieldZ Circuit Context RangeInfo BaseChip RangeChip IntegerChip.

Section ScalarChip.
Context {NM : NMod}.

(** [PrimeField::NUM_BITS] of the native field: bit length of the modulus. *)
Definition NUM_BITS : Z := Z.log2 nmod + 1.
Definition bit_of (s i : Z) : Z := if Z.testbit s i then 1 else 0.

(** native_scalar_ecc_chip.rs:152-162 and general_scalar_ecc_chip.rs:130-137: pad
    with a constant zero cell to a multiple of the window size; native :164-170 and
    general :139-144: split into windows and reverse.  The native chip pads
    according to NUM_BITS mod W, the general one to the number of bits; the two
    agree since the native chip pushes NUM_BITS bits, so the model uses the
    latter and the panic of [try_into] on an incomplete window. *)
Definition to_windows (W : nat) (bits : list acond) : M (list (list acond)) :=
  massert (negb (W =? 0)%nat) ;;;
  let rem := (length bits mod W)%nat in
  bits <- (if (rem =? 0)%nat then mret bits
           else zero <- assign_constant 0 ;;
                mret (bits ++ repeat zero (W - rem))) ;;
  massert ((length bits mod W) =? 0)%nat ;;;
  mret (rev (chunks W bits)).

(** native_scalar_ecc_chip.rs:110-140: the state is (v, bits). *)
Definition native_step (s_bn : Z) (st : av * list acond) (i : nat) : M (av * list acond) :=
  let i := Z.of_nat i in
  b0 <- assign_bit (bit_of s_bn (i * 2)) ;;
  b1 <- assign_bit (bit_of s_bn (i * 2 + 1)) ;;
  let v_next := fof (Z.shiftr s_bn (i * 2 + 2)) in
  cells <- one_line_with_last [pu v_next (fadd (fadd 1 1) (fadd 1 1)); pa b1 (fadd 1 1); pa b0 1]
             (pa (fst st) (fneg 1)) None [] None ;;
  v <- mnth (fst cells) 0 ;;
  mret (v, snd st ++ [b0; b1]).

(** native_scalar_ecc_chip.rs:97-171 *)
Definition decompose_scalar_native (W : nat) (s : av) : M (list (list acond)) :=
  r <- foldM (native_step (a_val s)) (s, []) (seq 0 (Z.to_nat (NUM_BITS / 2))) ;;
  bits <- (if Z.odd NUM_BITS then assert_bit (fst r) ;;; mret (snd r ++ [fst r])
           else assert_constant (fst r) 0 ;;; mret (snd r)) ;;
  to_windows W bits.

(** general_scalar_ecc_chip.rs:111-125: the state is (rest, bits of the limb). *)
Definition general_step (two_inv v : Z) (st : av * list acond) (j : nat) : M (av * list acond) :=
  let rest := fst st in
  b <- assign_bit (bit_of v (Z.of_nat j)) ;;
  let v' := fmul (fsub (a_val rest) (a_val b)) two_inv in
  cells <- one_line_with_last [pa rest (fneg 1); pa b 1] (pu v' (fadd 1 1)) None [] None ;;
  mret (snd cells, snd st ++ [b]).

(** general_scalar_ecc_chip.rs:108-128, one limb. *)
Definition general_limb (two_inv : Z) (l : av) : M (list acond) :=
  r <- foldM (general_step two_inv (a_val l)) (l, []) (seq 0 (Z.to_nat LIMB_BITS)) ;;
  assert_constant (fst r) 0 ;;;
  mret (snd r).

(** general_scalar_ecc_chip.rs:96-147; [I] is the scalar chip's [RangeInfo]. *)
Definition decompose_scalar_general (I : rinfo) (W : nat) (s : aint) : M (list (list acond)) :=
  two_inv <- mopt (zinv nmod (fadd 1 1)) ;;
  s <- reduce I s ;;
  bs <- mapM (general_limb two_inv) (i_limbs s) ;;
  to_windows W (concat bs).

End ScalarChip.
