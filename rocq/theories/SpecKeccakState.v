(** Specification: how the cells of the keccak gadgets stand for Keccak states and messages. *)
From Verif Require Import Prelude FieldZ Circuit Context Spec BaseChip KeccakChip SpecKeccak.

(** The state [st] of the gadget holds, under [val], the bits of the state [S]: five columns of five lanes of 64 cells, the most
    significant bit (z = 63) first. *)
Definition state_holds (val : av -> Z) (st : kstate) (S : kst) : Prop :=
  length st = 5%nat /\ (forall x, (x < 5)%nat -> length (nth x st []) = 5%nat)
  /\ (forall x y, (x < 5)%nat -> (y < 5)%nat -> length (nth y (nth x st []) []) = 64%nat)
  /\ forall x y z, (x < 5)%nat -> (y < 5)%nat -> (z < 64)%nat ->
       val (nth (63 - z) (nth y (nth x st []) []) (mkAv (bcell 0 0) 0)) = Z.b2z (get S x y z).
(** All cells of the state are recorded. *)
Definition state_valid {NM : NMod} (c : ctx) (st : kstate) : Prop := Forall (Forall (Forall (valid c))) st.

(** The message digested for the integers [vs]: each as 32 bytes, most significant first; and the digest as an integer. *)
Definition digest (vs : list Z) : Z := of_be (keccak256 (flat_map be32 vs)).
