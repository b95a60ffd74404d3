(** Specification: heights cover the recorded rows (C37, C39). *)
From Verif Require Import Prelude FieldZ Circuit Context Spec Synth.

Definition recorded (c : ctx) (x : cell) : Prop :=
  get_adv (c_mem c) x <> None \/ get_fix (c_mem c) x <> None.
(** Every recorded row lies below the height of its chip. *)
Definition covered (c : ctx) : Prop := forall x, recorded c x -> (c_row x < height c (c_chip x))%nat.
(** Both ends of every copy constraint are marked as copied. *)
Definition flagged (c : ctx) : Prop :=
  forall p, In p (c_perms c) -> get_flag (c_mem c) (fst p) = true /\ get_flag (c_mem c) (snd p) = true.
(** Both ends of every copy constraint hold a recorded witness. *)
Definition ends_recorded (c : ctx) : Prop :=
  forall p, In p (c_perms c) -> get_adv (c_mem c) (fst p) <> None /\ get_adv (c_mem c) (snd p) <> None.
