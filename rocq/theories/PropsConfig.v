(** PROPERTY C54: the constraint systems built by [configure] (base_chip.rs, range_chip.rs, select_chip.rs),
    the lookup table ([init_table], range_chip.rs) and the columns chosen by [assign_all] (context.rs)
    give the recorded circuit its meaning.

    Halo2.v says what halo2 enforces for any constraint system ([cs_sat n u F adv s]: n rows, u of them
    usable, F the fixed columns and copies, adv the advice columns) and knows nothing of
    the chips.  Configure.v is the model of [configure] and of synthesis.  Circuit.v's [satisfies], in terms
    of which all other properties are stated, speaks of the recorded tables. *)
From Verif Require Import Prelude FieldZ Circuit Context Spec BaseChip RangeInfo RangeChip IntegerChip
  EccChip ScalarChip Msm Synth SpecHeights SpecRecorder Progs Moduli Fields Halo2 Configure ConfigMain.
(** C54, soundness.  Let m be any program of recorder operations, gadgets and multi-scalar
    multiplications, recorded from a fresh context and synthesised into the columns that
    configure set up.  Whatever advice values halo2 accepts, read back through the column
    placement they satisfy the recorded circuit; so everything proved of m's results for satisfying
    assignments (sound) holds of them. *)
Theorem C54_halo2_sound :
  forall (NM : NMod) X (m : M X) x c F w u n adv, 2 ^ 18 < nmod -> program m -> m ctx_new = Ok (x, c) ->
    let '(g, s) := configure cs_new in
    synthesise g s c = Ok (F, w) ->
    (base_h c + 2 <= u)%nat -> (range_h c + 2 <= u)%nat -> (select_h c + 2 <= u)%nat -> 2 ^ 19 - 1 <= Z.of_nat u -> (u <= n)%nat ->
    cs_sat n u F adv s ->
    exists A, satisfies c A
      /\ (forall y, (c_row y < u)%nat -> A y = adv (adv_col g (c_chip y) (c_col y)) (c_row y))
      /\ (forall Q, sound m Q -> Q A x).
Proof. exact C54_halo2_sound_main. Qed.
Print Assumptions C54_halo2_sound.
(** The case: a range-checked limb, an input, their product and a sum; the recorded witness satisfies the
    circuit and synthesis succeeds, so with both theorems halo2 accepts it in every table of enough rows. *)
Example C54_nonvacuous :
  let m := (a <- @assign_nonleading_limb bn256_fr 77 ;; b <- assign 5 ;; c <- @mul bn256_fr a b ;; @add bn256_fr c b) in
  2 ^ 18 < @nmod bn256_fr /\ @program bn256_fr _ m /\ exists x c, m ctx_new = Ok (x, c)
  /\ (let '(g, s) := @configure bn256_fr cs_new in exists F w, @synthesise bn256_fr g s c = Ok (F, w))
  /\ @satisfies bn256_fr c (honest c) /\ (base_h c + 2 <= 10)%nat /\ (range_h c + 2 <= 10)%nat /\ (select_h c + 2 <= 10)%nat.
Proof.
  split; [reflexivity|]. split; [apply p_gadget; unfold assign_nonleading_limb; pga|]. do 2 eexists. split; [vm_compute; reflexivity|].
  split; [rewrite (@ConfigProofs.configured bn256_fr); apply (@synthesise_ok bn256_fr); vm_compute; reflexivity|].
  split; [apply (@Checker.check_honest bn256_fr); [reflexivity|vm_compute; reflexivity]|]. cbn. lia.
Qed.

(** C54, completeness.  Under the chunk condition of C39 (without which witnesses are lost), if the recorded
    witness satisfies the recorded circuit then halo2 accepts the table that synthesis
    fills in, whatever field elements the prover puts into the unusable rows. *)
Theorem C54_halo2_complete :
  forall (NM : NMod) X (m : M X) x c F w u n adv, 2 ^ 18 < nmod -> program m -> m ctx_new = Ok (x, c) ->
    let '(g, s) := configure cs_new in
    synthesise g s c = Ok (F, w) ->
    (let chunks := (base_h c + 15) / 16 in range_h c <= chunks * 16 * chunks)%nat ->
    (base_h c + 2 <= u)%nat -> (range_h c + 2 <= u)%nat -> (select_h c + 2 <= u)%nat -> 2 ^ 19 - 1 <= Z.of_nat u -> (u <= n)%nat ->
    satisfies c (honest c) ->
    (forall col row, 0 <= adv col row < nmod) -> (forall col row, (row < u)%nat -> adv col row = w col row) ->
    cs_sat n u F adv s.
Proof. exact C54_halo2_complete_main. Qed.
Print Assumptions C54_halo2_complete.

(** C54, the lookup table: its rows are exactly the pairs of a number t of bits from 0 to 18 and a value
    below 2^t, and there are 2^19 - 1 of them. *)
Theorem C54_range_table :
  forall (NM : NMod), 2 ^ 18 < nmod ->
    (forall t v, In (t, v) range_table <-> 0 <= t <= 18 /\ 0 <= v < 2 ^ t)
 /\ Z.of_nat (length range_table) = 2 ^ 19 - 1.
Proof. exact C54_range_table_main. Qed.
Print Assumptions C54_range_table.

