(** Specification: programs over the recorder. *)
From Verif Require Import Prelude FieldZ Circuit Context BaseChip RangeInfo RangeChip IntegerChip EccChip ScalarChip Msm.

(** Anything put together from the recorder's operations: rows of the base chip, range-checked
    values, cached and selected values.  All gadgets of the modelled chips are such
    programs (Progs.v), except the multi-scalar multiplications, which clone contexts. *)
Inductive gadget {NM : NMod} : forall {X}, M X -> Prop :=
| g_ret {X} (x : X) : gadget (mret x)
| g_panic {X} : gadget (@mpanic X)
| g_assert b : gadget (massert b)
| g_bind {X Y} (m : M X) (k : X -> M Y) : gadget m -> (forall x, gadget (k x)) -> gadget (mbind m k)
| g_one_line pairs constant muls next : gadget (one_line pairs constant muls next)
| g_one_line_with_last pairs tail constant muls next : gadget (one_line_with_last pairs tail constant muls next)
| g_limb bn k b : gadget (assign_limb bn k b)
| g_common bn : gadget (assign_common bn)
| g_cache v off g sc : gadget (assign_cache_value v off g sc)
| g_select v off g s : gadget (assign_selected_value v off g s).

(** Gadgets and complete multi-scalar multiplications, in any sequence.  Control flow may depend
    on anything, including the state ([mget]). *)
Inductive program {NM : NMod} : forall {X}, M X -> Prop :=
| p_gadget {X} (m : M X) : gadget m -> program m
| p_get : program mget
| p_bind {X Y} (m : M X) (k : X -> M Y) : program m -> (forall x, program (k x)) -> program (mbind m k)
| p_msm I b {Sc} (dec : Sc -> M (list (list acond))) bis zero gen ra rl prefix points scalars :
    (forall s, program (dec s)) -> (forall c s t, program (bis c s t)) -> program zero ->
    program (msm I b dec bis zero gen ra rl prefix points scalars).
