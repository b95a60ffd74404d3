(** Proofs of C54. *)
From Verif Require Import Prelude FieldZ Circuit Context Spec Logic Prims BaseChip RangeInfo RangeChip IntegerChip EccChip ScalarChip Msm
  Synth SpecHeights SpecRecorder Heights Progs SynthMain Moduli Fields Checker Halo2 Configure ConfigProofs Tags.
Lemma zrange_succ k : 0 <= k -> zrange (k + 1) = zrange k ++ [k].
Proof.
  intros H. unfold zrange. rewrite Z2Nat.inj_add by lia. change (Z.to_nat 1) with 1%nat. rewrite Nat.add_1_r, seq_S, map_app. cbn.
  rewrite Z2Nat.id by lia. reflexivity.
Qed.
Lemma blocks_len {X} (f : Z -> list X) k : (forall t, 0 <= t -> Z.of_nat (length (f t)) = 2 ^ t) ->
  0 <= k -> Z.of_nat (length (concat (map f (zrange k)))) = 2 ^ k - 1.
Proof.
  intros Hf. revert k. apply natlike_ind; [reflexivity|]. intros k Hk IH.
  change (Z.succ k) with (k + 1). rewrite zrange_succ, map_app, concat_app, app_length, Nat2Z.inj_add, IH by lia. cbn. rewrite app_nil_r, Hf by lia.
  rewrite Z.pow_add_r by lia. lia.
Qed.
Lemma table_len {NM : NMod} : Z.of_nat (length range_table) = 2 ^ 19 - 1.
Proof.
  unfold range_table. change (2 ^ 19 - 1) with (2 ^ (COMMON_RANGE_BITS + 1) - 1).
  apply blocks_len; [|unfold COMMON_RANGE_BITS; lia]. intros t Ht. rewrite map_length. unfold zrange. rewrite map_length, seq_length.
  apply Z2Nat.id. apply Z.pow_nonneg. lia.
Qed.
Lemma fits_of {NM : NMod} c u : (base_h c + 2 <= u)%nat -> (range_h c + 2 <= u)%nat -> (select_h c + 2 <= u)%nat -> 2 ^ 19 - 1 <= Z.of_nat u -> fits c u.
Proof. intros A B C D. pose proof table_len. unfold fits. repeat split; auto. lia. Qed.
Lemma extends_refl c : extends c c.
Proof. constructor; auto. apply incl_refl. Qed.
Lemma wf_new : wf ctx_new.
Proof. constructor; intros x v H; discriminate H. Qed.
Lemma adv_lim c : covered c -> (let chunks := (base_h c + 15) / 16 in range_h c <= chunks * 16 * chunks)%nat ->
  forall x, get_adv (c_mem c) x <> None -> (c_row x < adv_limit c (c_chip x))%nat.
Proof.
  cbv zeta. intros C R x H.
  assert (Q : recorded c x) by (left; exact H). specialize (C _ Q). set (k := ((base_h c + 15) / 16)%nat) in *.
  assert (K : chunk_size c = k) by (unfold chunk_size, threads, k; f_equal; lia).
  assert (K0 : (base_h c <= 16 * k)%nat).
  { pose proof (Nat.div_mod (base_h c + 15) 16 ltac:(lia)) as D. pose proof (Nat.mod_upper_bound (base_h c + 15) 16 ltac:(lia)).
    fold k in D. lia. }
  unfold adv_limit, threads. rewrite K. destruct (c_chip x); cbn [height] in C; [|lia|lia].
  assert (1 <= k)%nat by lia. assert (16 * k * 1 <= k * 16 * k)%nat by nia. lia.
Qed.
(** When synthesis succeeds, without looking at the lookup table. *)
Local Opaque range_table.
Lemma synthesise_ok {NM : NMod} g s c :
  match assign_all c with
  | Ok r => forallb (fun p => (adv_exists (fst p) && existsb (Nat.eqb (adv_col g (c_chip (fst p)) (c_col (fst p)))) (cs_eq s))
                           && (adv_exists (snd p) && existsb (Nat.eqb (adv_col g (c_chip (snd p)) (c_col (snd p)))) (cs_eq s))) (r_copies r)
  | Panic => false end = true -> exists F w, synthesise g s c = Ok (F, w).
Proof.
  unfold synthesise. destruct (assign_all c) as [r|]; [|discriminate]. cbn [res_bind]. intros ->. do 2 eexists. reflexivity.
Qed.

Lemma C54_halo2_sound_main :
  forall (NM : NMod) X (m : M X) x c F w u n adv, 2 ^ 18 < nmod -> program m -> m ctx_new = Ok (x, c) ->
    let '(g, s) := configure cs_new in
    synthesise g s c = Ok (F, w) ->
    (base_h c + 2 <= u)%nat -> (range_h c + 2 <= u)%nat -> (select_h c + 2 <= u)%nat -> 2 ^ 19 - 1 <= Z.of_nat u -> (u <= n)%nat ->
    cs_sat n u F adv s ->
    exists A, satisfies c A
      /\ (forall y, (c_row y < u)%nat -> A y = adv (adv_col g (c_chip y) (c_col y)) (c_row y))
      /\ (forall Q, sound m Q -> Q A x).
Proof.
  intros NM X m x c F w u n adv N P H. rewrite configured. intros E U1 U2 U3 U4 Un S.
  assert (SA : satisfies c (lifted u adv)).
  { eapply from_halo2; eauto.
    - eapply synthesise_inv; eauto.
    - eapply program_covered; eauto using covered_new.
    - eapply program_tags; eauto using tags_new. lia.
    - apply fits_of; assumption. }
  exists (lifted u adv). split; [exact SA|]. split; [intros y Hy; rewrite lifted_in by exact Hy; reflexivity|].
  intros Q HQ. eapply (HQ ctx_new); eauto using wf_new, extends_refl.
Qed.

Lemma C54_halo2_complete_main :
  forall (NM : NMod) X (m : M X) x c F w u n adv, 2 ^ 18 < nmod -> program m -> m ctx_new = Ok (x, c) ->
    let '(g, s) := configure cs_new in
    synthesise g s c = Ok (F, w) ->
    (let chunks := (base_h c + 15) / 16 in range_h c <= chunks * 16 * chunks)%nat ->
    (base_h c + 2 <= u)%nat -> (range_h c + 2 <= u)%nat -> (select_h c + 2 <= u)%nat -> 2 ^ 19 - 1 <= Z.of_nat u -> (u <= n)%nat ->
    satisfies c (honest c) ->
    (forall col row, 0 <= adv col row < nmod) -> (forall col row, (row < u)%nat -> adv col row = w col row) ->
    cs_sat n u F adv s.
Proof.
  intros NM X m x c F w u n adv N P H. rewrite configured. intros E R U1 U2 U3 U4 Un SA AF AW.
  assert (C : covered c) by (eapply program_covered; eauto using covered_new).
  eapply to_halo2; eauto.
  - eapply synthesise_inv; eauto.
  - apply fits_of; assumption.
  - apply adv_lim; assumption.
Qed.

Lemma C54_range_table_main :
  forall (NM : NMod), 2 ^ 18 < nmod ->
    (forall t v, In (t, v) range_table <-> 0 <= t <= 18 /\ 0 <= v < 2 ^ t)
 /\ Z.of_nat (length range_table) = 2 ^ 19 - 1.
Proof.
  intros NM N. split; [|exact table_len]. intros t v. rewrite in_table by exact N. unfold in_range_table, COMMON_RANGE_BITS. tauto.
Qed.

