(** PROPERTIES C37, C39: the heights of the record tables, merging of cloned contexts
    (native_scalar_ecc_chip.rs, general_scalar_ecc_chip.rs) and synthesis (context.rs).

    SpecRecorder.v: [program m] says that m is put together from the recorder's operations
    and multi-scalar multiplications; all gadgets are (Progs.v).  SpecHeights.v: [covered c] says that every recorded
    row lies below the height of its chip, [flagged c] and [ends_recorded c] that the
    cells of copy constraints are marked and recorded.  Synth.v is the model of
    [assign_all]. *)
From Verif Require Import Prelude FieldZ Circuit Context Spec BaseChip RangeInfo RangeChip IntegerChip
  EccChip ScalarChip Msm Synth SpecHeights SpecRecorder Progs Moduli Fields SynthMain.
(** C37, what holds.  (1) Programs, multi-scalar multiplications with their clones included,
    keep every recorded row below the height of its chip.  (2) So does merging one clone into
    its parent, when the parent recorded nothing in between.  (3) So does running windows on
    clones and merging them in order, as the multi-scalar multiplication does.  Missing: other
    merge orders, for which the property is false (C37_merge_order_refuted). *)
Theorem C37_merge_partial :
  forall (NM : NMod),
    (forall X (m : M X) c x c', program m -> covered c -> m c = Ok (x, c') -> covered c')
 /\ (forall X (m : M X) c d x c', program m -> covered c ->
       m (clone_with_offset (c_mem c) d c) = Ok (x, c') -> covered (merge (c_mem c') c c'))
 /\ (forall X (f : nat -> M (uresult X)) windows c xs c', (1 <= windows)%nat -> (forall i, program (f i)) -> covered c ->
       par_windows f windows c = Ok (UOk xs, c') -> covered c').
Proof. exact C37_merge_partial_main. Qed.
Print Assumptions C37_merge_partial.
Example C37_nonvacuous : covered ctx_new /\ (forall I b gen ra rl p ps ss, @program bn256_fr _ (@msm_native bn256_fr I b gen ra rl p ps ss))
  /\ exists c', @par_windows av (fun i => x <- @assign_nonleading_limb bn256_fr (Z.of_nat i) ;; mret (UOk x)) 4 ctx_new = Ok c'
  /\ range_h (snd c') = 13%nat.
Proof.
  split; [exact covered_new|]. split; [intros; apply pg_msm_native|]. eexists. split; [vm_compute; reflexivity|reflexivity].
Qed.

(** C37 is false for other merge orders: the range height of the result is computed from the
    select height of the parent instead of its range height (native_scalar_ecc_chip.rs:87,
    general_scalar_ecc_chip.rs:88).  Two clones of a fresh context record one limb each, at
    range offsets 0 and 3.  Merged in this order everything is covered.  Merged in the other
    order row 5 of the range chip is recorded while the height is 4. *)
Theorem C37_merge_order_refuted :
  let limb := @assign_nonleading_limb bn256_fr in
  exists x1 c1 x2 c2,
  limb 5 (clone_with_offset [] (mkOff 0 0 0) ctx_new) = Ok (x1, c1)
  /\ limb 6 (clone_with_offset (c_mem c1) (mkOff 0 3 0) ctx_new) = Ok (x2, c2)
  /\ covered c1 /\ covered c2
  /\ covered (merge (c_mem c2) (merge (c_mem c2) ctx_new c1) c2)
  /\ exists x, recorded (merge (c_mem c2) (merge (c_mem c2) ctx_new c2) c1) x
       /\ c_chip x = RangeChip /\ c_row x = 5%nat /\ height (merge (c_mem c2) (merge (c_mem c2) ctx_new c2) c1) RangeChip = 4%nat.
Proof. exact C37_merge_order_refuted_main. Qed.
Print Assumptions C37_merge_order_refuted.

(** C39, what holds.  After any program on a covered and flagged context (a fresh one is), if
    the handles given to it were recorded, the base chip is not empty and the range rows fit
    in the square of the number of chunks of base rows, assign_all completes and the region
    holds exactly the recorded values and copies.  Missing: the last two conditions, without
    which the property is false (C39_assign_all_refuted). *)
Theorem C39_assign_all_partial :
  forall (NM : NMod) X (m : M X) c x c', program m -> covered c -> flagged c -> m c = Ok (x, c') ->
    ends_recorded c' -> (0 < base_h c')%nat ->
    (let chunks := (base_h c' + 15) / 16 in range_h c' <= chunks * 16 * chunks)%nat ->
    exists r, assign_all c' = Ok r
      /\ (forall x, r_adv r x = get_adv (c_mem c') x)
      /\ (forall x, r_fix r x = get_fix (c_mem c') x)
      /\ r_copies r = rev (c_perms c').
Proof. exact C39_assign_all_partial_main. Qed.
Print Assumptions C39_assign_all_partial.
Example C39_nonvacuous : covered ctx_new /\ flagged ctx_new /\ exists x c',
  let m := (a <- @assign_nonleading_limb bn256_fr 77 ;; b <- assign 5 ;; c <- @mul bn256_fr a b ;; @add bn256_fr c b) in
  @program bn256_fr _ m /\ m ctx_new = Ok (x, c') /\ ends_recorded c' /\ (0 < base_h c')%nat /\ (range_h c' <= 16)%nat /\ length (c_perms c') = 4%nat.
Proof.
  split; [exact covered_new|]. split; [exact flagged_new|]. do 2 eexists. split; [apply p_gadget; unfold assign_nonleading_limb; pga|].
  split; [vm_compute; reflexivity|]. split; [apply ends_check_ok; vm_compute; reflexivity|]. cbn. repeat split; lia.
Qed.

(** C39 is false in general, because the range chip's rows are cut into chunks by the base
    chip's height (context.rs:412).  (1) Seven range-checked limbs, each used in one base row,
    take 21 range rows and 7 base rows: synthesis visits 16 range rows and panics on a copy
    constraint.  (2) One base row and 17 range rows without copies: synthesis completes and
    the witness in range row 16 is not assigned.  (3) A circuit without base rows panics. *)
Theorem C39_assign_all_refuted :
  let NM := bn256_fr in
    (exists c, (mapM (fun _ => a <- assign_nonleading_limb 1 ;; assert_bit a ;;; mret tt) (seq 0 7) ;;; mret tt) ctx_new = Ok (tt, c)
       /\ covered c /\ flagged c /\ ends_recorded c /\ assign_all c = Panic)
 /\ (exists c r x v, (assign 1 ;;; mapM (fun _ => assign_common 1) (seq 0 17) ;;; mret tt) ctx_new = Ok (tt, c)
       /\ covered c /\ flagged c /\ ends_recorded c /\ assign_all c = Ok r /\ get_adv (c_mem c) x = Some v /\ r_adv r x = None)
 /\ (exists c, (assign_common 1 ;;; mret tt) ctx_new = Ok (tt, c)
       /\ covered c /\ flagged c /\ ends_recorded c /\ assign_all c = Panic).
Proof. exact C39_assign_all_refuted_main. Qed.
Print Assumptions C39_assign_all_refuted.

