(** SPECIFICATION: programs that record nothing for the select chip (C56). *)
From Verif Require Import Prelude FieldZ Circuit Context.

(** m leaves the height of the select chip as it was (by C37 every recorded row lies below the height). *)
Definition leaves_select {X} (m : M X) : Prop := forall c x c', m c = Ok (x, c') -> select_h c' = select_h c.
