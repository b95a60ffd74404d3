(** SPECIFICATION of circuit satisfaction.

    This file does not model the recorder; it says what the halo2 constraint
    system built by the three [configure] functions demands of an arbitrary
    assignment of field elements to advice cells.  It is the reference against
    which soundness (any assignment) and completeness (the honest one) are
    stated. *)
From Verif Require Import Prelude FieldZ.

(** src/assign.rs:9-20, [Chip] and [Cell]. *)
Inductive chip := BaseChip | RangeChip | SelectChip.
Record cell := mkCell { c_chip : chip; c_col : nat; c_row : nat }.

Definition chip_eqb (a b : chip) : bool :=
  match a, b with
  | BaseChip, BaseChip | RangeChip, RangeChip | SelectChip, SelectChip => true
  | _, _ => false
  end.
Definition cell_eqb (a b : cell) : bool :=
  chip_eqb (c_chip a) (c_chip b) && Nat.eqb (c_col a) (c_col b)
  && Nat.eqb (c_row a) (c_row b).

(** src/circuit/base_chip.rs:14-16. *)
Definition VAR_COLUMNS : nat := 5.
Definition MUL_COLUMNS : nat := 2.
(** src/circuit/range_chip.rs:22-33. *)
Definition COMMON_RANGE_BITS : Z := 18.
Definition MAX_CHUNKS : Z := 3.
Definition RANGE_VALUE_DECOMPOSE : Z := 6.

Definition bcell (col row : nat) := mkCell BaseChip col row.
Definition rcell (col row : nat) := mkCell RangeChip col row.
Definition scell (col row : nat) := mkCell SelectChip col row.

(** Column indices of the range chip (range_chip.rs:82-92) and the select chip
    (select_chip.rs:43-52).  Advice and fixed columns are separate spaces. *)
Definition ValueAccCol : nat := 0.
Definition TaggedRangeCol : nat := 1.
Definition CommonRangeCol : nat := 2.
Definition AccLinesCol : nat := 0.
Definition TagCol : nat := 1.
Definition ValueCol : nat := 0.
Definition SelectCol : nat := 1.
Definition EncodeCol : nat := 0.
Definition IsLookupCol : nat := 1.

Section Sat.
Context {NM : NMod}.

(** [fx] is the value of fixed cells (0 where unassigned), [A] an assignment of
    the advice cells. *)
Variable fx : cell -> Z.
Variable A : cell -> Z.

(** base_chip.rs:50-69: constant + next * next_coeff + sum base_i * coeff_i
    + sum base_2i * base_2i+1 * mul_coeff_i. *)
Definition base_expr (r : nat) : Z :=
  fx (bcell 8 r) + A (bcell 4 (S r)) * fx (bcell 7 r)
  + A (bcell 0 r) * fx (bcell 0 r)
  + A (bcell 1 r) * fx (bcell 1 r)
  + A (bcell 2 r) * fx (bcell 2 r)
  + A (bcell 3 r) * fx (bcell 3 r)
  + A (bcell 4 r) * fx (bcell 4 r)
  + A (bcell 0 r) * A (bcell 1 r) * fx (bcell 5 r)
  + A (bcell 2 r) * A (bcell 3 r) * fx (bcell 6 r).
Definition base_gate (r : nat) : Prop := base_expr r mod nmod = 0.

(** range_chip.rs:230-258: the lookup table {(tag, v) | tag <= 18, v < 2^tag}. *)
Definition in_range_table (tag v : Z) : Prop :=
  0 <= tag <= COMMON_RANGE_BITS /\ 0 <= v < 2 ^ tag.

(** range_chip.rs:141-156, one line. *)
Definition range_expr1 (r : nat) : Z :=
  let l := fx (rcell AccLinesCol r) in
  (A (rcell ValueAccCol r) - A (rcell TaggedRangeCol r)) * l * (l - 2) * (l - 3).

(** range_chip.rs:158-188, two lines. *)
Definition range_expr2 (r : nat) : Z :=
  let l := fx (rcell AccLinesCol r) in
  (A (rcell ValueAccCol r)
   - A (rcell CommonRangeCol r)
   - A (rcell CommonRangeCol (S r)) * 2 ^ 18
   - A (rcell TaggedRangeCol r) * 2 ^ 36
   - A (rcell TaggedRangeCol (S r)) * 2 ^ 54) * l * (l - 1) * (l - 3).

(** range_chip.rs:190-220, three lines. *)
Definition range_expr3 (r : nat) : Z :=
  let l := fx (rcell AccLinesCol r) in
  (A (rcell ValueAccCol r)
   - A (rcell CommonRangeCol r)
   - A (rcell CommonRangeCol (S r)) * 2 ^ 18
   - A (rcell CommonRangeCol (S (S r))) * 2 ^ 36
   - A (rcell TaggedRangeCol r) * 2 ^ 54
   - A (rcell TaggedRangeCol (S r)) * 2 ^ 72
   - A (rcell TaggedRangeCol (S (S r))) * 2 ^ 90) * l * (l - 1) * (l - 2).

(** All constraints of the range chip at a row (range_chip.rs:119-220). *)
Definition range_row (r : nat) : Prop :=
  in_range_table (fx (rcell TagCol r)) (A (rcell TaggedRangeCol r))
  /\ in_range_table COMMON_RANGE_BITS (A (rcell CommonRangeCol r))
  /\ range_expr1 r mod nmod = 0
  /\ range_expr2 r mod nmod = 0
  /\ range_expr3 r mod nmod = 0.

(** select_chip.rs:71-88 ([lookup_any]): row [r]'s triple
    (limb_info, selector * 2^128 + encoded_offset, 0) is the triple
    (limb_info, encoded_offset, is_lookup) of some row. *)
Definition select_table (v e : Z) : Prop :=
  exists r, A (scell ValueCol r) = v /\ fx (scell EncodeCol r) = e
            /\ fx (scell IsLookupCol r) = 0.
Definition select_input (r : nat) : Z :=
  (A (scell SelectCol r) * 2 ^ 128 + fx (scell EncodeCol r)) mod nmod.
Definition select_row (r : nat) : Prop :=
  select_table (A (scell ValueCol r)) (select_input r).

End Sat.

(** The whole circuit: gates and lookups on every row, and copy constraints.
    Rows are not bounded: the real circuit has 2^k rows and the rows beyond the
    recorded ones carry fixed value 0, as here. *)
Definition circuit_sat {NM : NMod} (fx : cell -> Z) (perms : list (cell * cell))
           (A : cell -> Z) : Prop :=
  (forall x, 0 <= A x < nmod)
  /\ (forall r, base_gate fx A r)
  /\ (forall r, range_row fx A r)
  /\ (forall r, select_row fx A r)
  /\ (forall a b, In (a, b) perms -> A a = A b).
