(** SPECIFICATION vocabulary for C62: keys and reading a handle out of the advice columns. *)
From Verif Require Import Prelude FieldZ Circuit Context Halo2 Configure.

(** The same fixed columns and copy constraints, that is the same proving and verifying key. *)
Definition same_key (F F' : fixed_part) : Prop :=
  (forall col row, f_fix F col row = f_fix F' col row) /\ f_copies F = f_copies F'.

(** The value a handle has in the advice columns of the halo2 table. *)
Definition read (g : config) (adv : nat -> nat -> Z) (a : av) : Z :=
  adv (adv_col g (c_chip (a_cell a)) (c_col (a_cell a))) (c_row (a_cell a)).
