(** Programs over the recorder only append. *)
From Verif Require Import Prelude FieldZ Circuit Context Spec Logic Prims BaseChip RangeInfo RangeChip IntegerChip EccChip ScalarChip Msm
  RangeProofs SelectProofs ParWindows MsmProofs MsmTop SelectMsm SpecRecorder.
Section PA.
Context {NM : NMod}.
Lemma gadget_appends {X} (m : M X) : gadget m -> appends m.
Proof.
  induction 1.
  - apply appends_ret.
  - intros c x c' _ E. discriminate.
  - apply appends_assert.
  - apply appends_bind; auto.
  - apply appends_one_line.
  - apply appends_one_line_with_last.
  - apply appends_assign_limb.
  - apply appends_assign_common.
  - apply appends_assign_cache_value.
  - apply appends_assign_selected_value.
Qed.
Lemma program_appends {X} (m : M X) : program m -> appends m.
Proof.
  induction 1.
  - apply gadget_appends; assumption.
  - apply appends_get.
  - apply appends_bind; auto.
  - destruct prefix as [p|]; [eapply msm_some_appends|eapply msm_none_appends]; eauto.
Qed.
End PA.
