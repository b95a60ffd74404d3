(** SPECIFICATION vocabulary shared by the property theorems: what it means for
    a recorder state to be well formed, for one state to extend another, and for
    a gadget to be sound (every satisfying assignment) and to accept honest
    witnesses.  Nothing here depends on how gadgets are implemented. *)
From Verif Require Import Prelude FieldZ Circuit Context.

Definition off_of (c : ctx) (ch : chip) : nat :=
  match ch with BaseChip => base_off c | RangeChip => range_off c | SelectChip => select_off c end.

(** A row is used when some fixed cell of it has been recorded. *)
Definition used (c : ctx) (ch : chip) (r : nat) : Prop :=
  exists col v, get_fix (c_mem c) (mkCell ch col r) = Some v.

(** Nothing is recorded at or beyond the next free row of a chip. *)
Record wf (c : ctx) : Prop := {
  wf_fix : forall x v, get_fix (c_mem c) x = Some v -> (c_row x < off_of c (c_chip x))%nat;
  wf_adv : forall x v, get_adv (c_mem c) x = Some v -> (c_row x < off_of c (c_chip x))%nat
}.

(** [c'] was obtained from [c] by only adding rows and copy constraints: every
    cell of a used row keeps its fixed and its witness value (also "none"). *)
Record extends (c c' : ctx) : Prop := {
  ext_fix : forall ch r, used c ch r -> forall col,
      get_fix (c_mem c') (mkCell ch col r) = get_fix (c_mem c) (mkCell ch col r);
  ext_adv : forall ch r, used c ch r -> forall col,
      get_adv (c_mem c') (mkCell ch col r) = get_adv (c_mem c) (mkCell ch col r);
  ext_perms : incl (c_perms c) (c_perms c');
  ext_off : forall ch, (off_of c ch <= off_of c' ch)%nat
}.

(** Value that an assignment gives to the cell behind a handle. *)
Notation "A ⟦ a ⟧" := (A (a_cell a)) (at level 2, a at level 99, format "A ⟦ a ⟧").

(** sum_i A(a_i) * k_i *)
Fixpoint lincomb (A : cell -> Z) (elems : list (av * Z)) : Z :=
  match elems with [] => 0 | (a, k) :: l => A⟦a⟧ * k + lincomb A l end.
(** sum_i A(a_i) * A(b_i) + A(c_i) * k_i *)
Fixpoint dotsum (A : cell -> Z) (ls : list (av * av * av * Z)) : Z :=
  match ls with [] => 0 | (a, b, c, k) :: l => A⟦a⟧ * A⟦b⟧ + A⟦c⟧ * k + dotsum A l end.
(** The witness value recorded behind a handle, as an assignment would give it. *)
Fixpoint wlincomb (elems : list (av * Z)) : Z :=
  match elems with [] => 0 | (a, k) :: l => a_val a * k + wlincomb l end.
Fixpoint wdotsum (ls : list (av * av * av * Z)) : Z :=
  match ls with [] => 0 | (a, b, c, k) :: l => a_val a * a_val b + a_val c * k + wdotsum l end.

Section Spec.
Context {NM : NMod}.

(** The rows recorded by [assign_bit] and [assert_bit] (base_chip.rs:357-390):
    coefficients 1 and 0 on the first two columns, -1 on their product, and
    nothing else. *)
Definition bit_row (c : ctx) (r : nat) : Prop :=
  get_fix (c_mem c) (bcell 0 r) = Some 1 /\ get_fix (c_mem c) (bcell 1 r) = Some 0
  /\ get_fix (c_mem c) (bcell 2 r) = None /\ get_fix (c_mem c) (bcell 3 r) = None
  /\ get_fix (c_mem c) (bcell 4 r) = None
  /\ get_fix (c_mem c) (bcell 5 r) = Some (fneg 1) /\ get_fix (c_mem c) (bcell 6 r) = None
  /\ get_fix (c_mem c) (bcell 7 r) = None /\ get_fix (c_mem c) (bcell 8 r) = None.

(** The prover gave the two cells of every such row the same value.  The circuit
    does NOT enforce this for [assign_bit] (its two cells are not tied by a copy
    constraint; see C51); theorems that need it say so. *)
Definition bit_consistent (c : ctx) (A : cell -> Z) : Prop :=
  forall r, bit_row c r -> A (bcell 0 r) = A (bcell 1 r).

(** Soundness of a gadget: whatever circuit [cf] is finally built on top of the
    state [c'] left by a successful run, every assignment satisfying [cf] makes
    [Q] true of the returned handles. *)
Definition sound {X} (m : M X) (Q : (cell -> Z) -> X -> Prop) : Prop :=
  forall c x c' cf A, wf c -> m c = Ok (x, c') -> extends c' cf -> satisfies cf A -> Q A x.

(** Append-only behaviour: a successful run from a well-formed state leaves a
    well-formed state that extends it. *)
Definition append_only {X} (m : M X) : Prop :=
  forall c x c', wf c -> m c = Ok (x, c') -> wf c' /\ extends c c'.

(** The same, for assignments that are also bit-consistent. *)
Definition sound_bits {X} (m : M X) (Q : (cell -> Z) -> X -> Prop) : Prop :=
  forall c x c' cf A, wf c -> m c = Ok (x, c') -> extends c' cf -> satisfies cf A ->
                      bit_consistent cf A -> Q A x.

(** The handle [a] points to a recorded cell holding its witness value. *)
Definition valid (c : ctx) (a : av) : Prop :=
  used c (c_chip (a_cell a)) (c_row (a_cell a))
  /\ get_adv (c_mem c) (a_cell a) = Some (a_val a)
  /\ 0 <= a_val a < nmod.

(** *** Honest witnesses *)

(** Parameters of satisfaction of a partial circuit: [tbl T v e] says that (v, e)
    is an entry of the select chip's lookup table in the final circuit (that
    table grows as rows are added); [bitc T] says that the assignment is
    additionally assumed bit-consistent. *)
Record env := mkEnv { tbl : Z -> Z -> Prop; bitc : Prop }.

(** The cached rows recorded in [c] are in the final lookup table. *)
Definition tables_in (T : Z -> Z -> Prop) (c : ctx) (A : cell -> Z) : Prop :=
  forall r, used c SelectChip r -> fixv c (scell IsLookupCol r) = 0 ->
            T (A (scell ValueCol r)) (fixv c (scell EncodeCol r)).

(** [A] satisfies everything recorded so far. *)
Record sat (T : env) (c : ctx) (A : cell -> Z) : Prop := {
  sat_base : forall r, base_gate (fixv c) A r;
  sat_range : forall r, used c RangeChip r -> range_row (fixv c) A r;
  sat_select : forall r, used c SelectChip r ->
      tbl T (A (scell ValueCol r)) (select_input (fixv c) A r);
  sat_tables : tables_in (tbl T) c A;
  sat_bits : bitc T -> bit_consistent c A;
  sat_perms : forall a b, In (a, b) (c_perms c) -> A a = A b
}.

(** [A] holds the recorded witness on every row used in [c]. *)
Definition agrees (c : ctx) (A : cell -> Z) : Prop :=
  forall ch r, used c ch r -> forall col, A (mkCell ch col r) = honest c (mkCell ch col r).

(** The recorded witness is good: field elements on used rows only, and every
    assignment that holds it on the used rows satisfies everything recorded,
    whatever the rows recorded later hold. *)
Definition advs_ok (c : ctx) : Prop :=
  forall x v, get_adv (c_mem c) x = Some v -> used c (c_chip x) (c_row x) /\ 0 <= v < nmod.
Record good (c : ctx) : Prop := {
  good_wf : wf c;
  good_advs : advs_ok c;
  good_sat : forall T A, (forall y, 0 <= A y < nmod) -> agrees c A -> tables_in (tbl T) c A ->
                         sat T c A
}.

(** Completeness of a gadget from state [c]: the run does not panic, only adds,
    [Q] holds of its result, and if the recorded witness was good before then it
    is good after ([good_satisfies] in Logic.v: a good state's recorded witness
    satisfies the whole circuit). *)
Definition accepts {X} (c : ctx) (m : M X) (Q : X -> ctx -> Prop) : Prop :=
  exists x c', m c = Ok (x, c') /\ extends c c' /\ Q x c' /\ (good c -> good c').

End Spec.
