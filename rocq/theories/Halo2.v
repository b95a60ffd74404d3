(** SPECIFICATION of what halo2 enforces: constraint systems and tables in general, nothing about
    the chips of this library.  (The library halo2_proofs itself is external code; this is its
    documented meaning.) *)
From Verif Require Import Prelude FieldZ.

(** [Expression]; a rotation looks [rot] rows ahead (only such rotations occur here). *)
Inductive expr :=
| EConst (v : Z)
| EFixed (col rot : nat)
| EAdvice (col rot : nat)
| ESum (a b : expr)
| ESub (a b : expr)
| EMul (a b : expr).

(** [ConstraintSystem]: numbers of advice and fixed columns, columns that may take part in copy
    constraints (only advice columns are enabled here), gates, lookups (pairs of an input
    and a table expression). *)
Record cs := mkCs {
  cs_adv : nat; cs_fix : nat; cs_eq : list nat;
  cs_gates : list expr; cs_lookups : list (list (expr * expr)) }.
Definition cs_new : cs := mkCs 0 0 [] [] [].

(** A table without its advice values: fixed columns and copy constraints between advice cells
    (column, row). *)
Record fixed_part := mkFixed {
  f_fix : nat -> nat -> Z;
  f_copies : list ((nat * nat) * (nat * nat)) }.

Section Sat.
Context {NM : NMod}.
(** [n] rows, of which the first [u] are usable; the others hold random values of the prover. *)
Variable n u : nat.
Variable F : fixed_part.
Variable adv : nat -> nat -> Z.

Fixpoint eval (row : nat) (e : expr) : Z :=
  match e with
  | EConst v => v
  | EFixed col rot => f_fix F col ((row + rot) mod n)
  | EAdvice col rot => adv col ((row + rot) mod n)
  | ESum a b => eval row a + eval row b
  | ESub a b => eval row a - eval row b
  | EMul a b => eval row a * eval row b
  end.

(** Advice values are field elements; gates vanish on all rows; the tuple of inputs of a lookup in
    a usable row is the tuple of table values of a usable row; copies are equal. *)
Record cs_sat (S : cs) : Prop := {
  cs_field : forall col row, 0 <= adv col row < nmod;
  cs_gate : forall e, In e (cs_gates S) -> forall row, (row < n)%nat -> eval row e mod nmod = 0;
  cs_lookup : forall l, In l (cs_lookups S) -> forall row, (row < u)%nat ->
    exists row', (row' < u)%nat /\ forall i t, In (i, t) l -> eval row i mod nmod = eval row' t mod nmod;
  cs_copy : forall c1 r1 c2 r2, In ((c1, r1), (c2, r2)) (f_copies F) -> adv c1 r1 = adv c2 r2 }.
End Sat.
