(** SPECIFICATION vocabulary for C35 and C49: histories of calls on one ecc context.
    The state of an ecc context with the select chip is the circuit context and the
    prefix counter (context.rs:190-206, 214-240); the model functions [msm_native] and
    [msm_general] take the counter and return the increased one. *)
From Verif Require Import Prelude FieldZ Circuit Context Spec BaseChip RangeInfo RangeChip IntegerChip EccChip
  ScalarChip Msm SpecSelect.

(** A program that leaves the lookup table of the select chip as it is. *)
Definition quiet {NM : NMod} {X} (m : M X) : Prop :=
  forall c x c', wf c -> m c = Ok (x, c') ->
    wf c' /\ extends c c' /\ forall r e, cache_row c' r e -> cache_row c r e.

(** [calls (c, p) (c', p')]: starting from context c with counter p, some sequence of
    quiet programs and multi-scalar multiplications with the select chip ended in c', p'.
    The curves and scalar fields may differ from call to call. *)
Inductive calls {NM : NMod} (s : ctx * Z) : ctx * Z -> Prop :=
| calls_none : calls s s
| calls_quiet c p X (m : M X) x c' : calls s (c, p) -> quiet m -> m c = Ok (x, c') -> calls s (c', p)
| calls_native c p w I b gen r_acc r_line points scalars x p' c' : calls s (c, p) ->
    range_info_new w = Ok I -> Z.of_nat (ri_limbs I) < 2 ^ 62 ->
    msm_native I b gen r_acc r_line (Some p) points scalars c = Ok ((x, Some p'), c') -> calls s (c', p')
| calls_general c p w I r J b gen r_acc r_line points scalars x p' c' : calls s (c, p) ->
    range_info_new w = Ok I -> range_info_new r = Ok J -> Z.of_nat (ri_limbs I) < 2 ^ 62 ->
    msm_general I J b gen r_acc r_line (Some p) points scalars c = Ok ((x, Some p'), c') -> calls s (c', p').
