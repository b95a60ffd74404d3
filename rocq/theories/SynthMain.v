(** Proofs of C37 and C39 from the height lemmas. *)
From Verif Require Import Msm ParWindows MsmProofs SelectMsm.
From Verif Require Import Prelude FieldZ Circuit Context Spec Logic ModArith Prims BaseChip BaseProofs
  RangeInfo RangeChip IntegerChip IntSound EccChip EccProofs ScalarChip ScalarProofs
  Synth SpecHeights SpecRecorder Heights Progs Moduli Fields.
Section H.
Context {NM : NMod}.
Lemma program_hp {X} (m : M X) : program m -> hp m.
Proof.
  induction 1 as [X m G| | |]; auto with hpa nocore.
  - induction G; auto with hpa nocore. apply hp_bind; auto.
  - apply hp_bind; auto.
  - apply hp_msm; auto.
Qed.
Lemma program_covered {X} (m : M X) c x c' : program m -> covered c -> m c = Ok (x, c') -> covered c'.
Proof. intros P C H. eapply hstep_covered; [eapply program_hp; eauto|auto]. Qed.
Lemma program_flagged {X} (m : M X) c x c' : program m -> flagged c -> m c = Ok (x, c') -> flagged c'.
Proof. intros P C H. eapply hstep_flagged; [eapply program_hp; eauto|auto]. Qed.
Lemma covered_merge m c o : c_mem o = m -> covered o -> covered (merge m c o).
Proof.
  intros <- C x Hx. specialize (C x Hx). pose proof (merge_h (c_mem o) c o (c_chip x)). lia.
Qed.
Lemma covered_clone d c : covered c -> covered (clone_with_offset (c_mem c) d c).
Proof. intros C x Hx. specialize (C x Hx). destruct (c_chip x); exact C. Qed.
Lemma covered_new : covered ctx_new.
Proof. intros x [H|H]; destruct H; reflexivity. Qed.
Lemma flagged_new : flagged ctx_new.
Proof. intros p []. Qed.
Lemma covered_windows {X} (f : nat -> M (uresult X)) windows c ls c' : (1 <= windows)%nat ->
  (forall i, program (f i)) -> covered c -> par_windows f windows c = Ok (UOk ls, c') -> covered c'.
Proof.
  intros W P C H. eapply hstep_covered; [|exact C]. refine (uhp_par_windows f _ windows _ _ _ _ H).
  - intros i. apply uhp_of, program_hp, P.
  - intros ->. lia.
Qed.

Lemma assign_all_ok c : covered c -> flagged c -> ends_recorded c -> (0 < base_h c)%nat ->
  (range_h c <= ((base_h c + 15) / 16) * 16 * ((base_h c + 15) / 16))%nat ->
  exists r, assign_all c = Ok r /\ (forall x, r_adv r x = get_adv (c_mem c) x) /\ (forall x, r_fix r x = get_fix (c_mem c) x)
    /\ r_copies r = rev (c_perms c).
Proof.
  intros C F E B R. set (k := ((base_h c + 15) / 16)%nat) in *.
  assert (K : chunk_size c = k) by (unfold chunk_size, threads, k; f_equal; lia).
  assert (K0 : (base_h c <= 16 * k /\ 1 <= k)%nat).
  { pose proof (Nat.div_mod (base_h c + 15) 16 ltac:(lia)) as D. pose proof (Nat.mod_upper_bound (base_h c + 15) 16 ltac:(lia)).
    fold k in D. lia. }
  assert (AL : forall x, recorded c x -> (c_row x < adv_limit c (c_chip x))%nat).
  { intros x Hx. specialize (C x Hx). unfold adv_limit, threads. rewrite K. destruct (c_chip x); cbn [height] in C; nia. }
  assert (FL : forall x, recorded c x -> (c_row x < fix_limit c (c_chip x))%nat).
  { intros x Hx. specialize (C x Hx). unfold fix_limit. destruct (c_chip x); cbn [height] in C; lia. }
  assert (V : forall x, get_adv (c_mem c) x <> None -> visited c x = true).
  { intros x Hx. unfold visited. rewrite (proj2 (Nat.ltb_lt _ _) (AL x (or_introl Hx))). destruct (get_adv (c_mem c) x); [reflexivity|congruence]. }
  unfold assign_all. rewrite K. destruct (Nat.eqb_spec k 0) as [Q|_]; [lia|].
  assert (G1 : forallb (handle_fits c) (c_mem c) = true).
  { apply forallb_forall. intros w Hw. destruct w as [x v|x v|x]; cbn; auto. destruct (visited c x && _) eqn:Q; [|reflexivity].
    apply andb_prop in Q as [Q _]. unfold visited in Q. apply andb_prop in Q as [_ Q]. apply Nat.ltb_lt, C. left.
    destruct (get_adv (c_mem c) x); [discriminate|discriminate]. }
  assert (G2 : forallb (fun p => has_handle c (fst p) && has_handle c (snd p)) (c_perms c) = true).
  { apply forallb_forall. intros p Hp. destruct (F p Hp) as [F1 F2], (E p Hp) as [E1 E2]. unfold has_handle.
    rewrite !V, F1, F2 by auto. rewrite (proj2 (Nat.ltb_lt _ _) (C _ (or_introl E1))), (proj2 (Nat.ltb_lt _ _) (C _ (or_introl E2))). reflexivity. }
  rewrite G1, G2. cbn [negb andb]. eexists. split; [reflexivity|]. cbn [r_adv r_fix r_copies]. split; [|split; [|reflexivity]].
  - intros x. destruct (c_row x <? _)%nat eqn:Q; [reflexivity|]. destruct (get_adv (c_mem c) x) eqn:G; [|reflexivity].
    apply Nat.ltb_ge in Q. assert (recorded c x) as RX by (left; congruence). specialize (AL x RX). lia.
  - intros x. destruct (c_row x <? _)%nat eqn:Q; [reflexivity|]. destruct (get_fix (c_mem c) x) eqn:G; [|reflexivity].
    apply Nat.ltb_ge in Q. assert (recorded c x) as RX by (right; congruence). specialize (FL x RX). lia.
Qed.

(** Deciding [ends_recorded]. *)
Definition ends_check (c : ctx) : bool :=
  forallb (fun p => negb (is_none (get_adv (c_mem c) (fst p))) && negb (is_none (get_adv (c_mem c) (snd p)))) (c_perms c).
Lemma ends_check_ok c : ends_check c = true -> ends_recorded c.
Proof.
  unfold ends_check. rewrite forallb_forall. intros H p Hp. specialize (H p Hp). apply andb_prop in H as [H1 H2].
  destruct (get_adv (c_mem c) (fst p)), (get_adv (c_mem c) (snd p)); try discriminate. split; discriminate.
Qed.
End H.

Lemma C37_merge_partial_main :
  forall (NM : NMod),
    (forall X (m : M X) c x c', program m -> covered c -> m c = Ok (x, c') -> covered c')
 /\ (forall X (m : M X) c d x c', program m -> covered c ->
       m (clone_with_offset (c_mem c) d c) = Ok (x, c') -> covered (merge (c_mem c') c c'))
 /\ (forall X (f : nat -> M (uresult X)) windows c xs c', (1 <= windows)%nat -> (forall i, program (f i)) -> covered c ->
       par_windows f windows c = Ok (UOk xs, c') -> covered c').
Proof.
  intros NM. split; [|split].
  - intros. eapply program_covered; eauto.
  - intros X m c d x c' P C H. apply covered_merge; [reflexivity|]. eapply program_covered; [exact P| |exact H]. apply covered_clone, C.
  - intros. eapply covered_windows; eauto.
Qed.

Section Ref.
Local Existing Instance bn256_fr.
Lemma order_refuted : exists x1 c1 x2 c2,
  assign_nonleading_limb 5 (clone_with_offset [] (mkOff 0 0 0) ctx_new) = Ok (x1, c1)
  /\ assign_nonleading_limb 6 (clone_with_offset (c_mem c1) (mkOff 0 3 0) ctx_new) = Ok (x2, c2)
  /\ covered c1 /\ covered c2
  /\ covered (merge (c_mem c2) (merge (c_mem c2) ctx_new c1) c2)
  /\ exists x, recorded (merge (c_mem c2) (merge (c_mem c2) ctx_new c2) c1) x
       /\ c_chip x = RangeChip /\ c_row x = 5%nat /\ height (merge (c_mem c2) (merge (c_mem c2) ctx_new c2) c1) RangeChip = 4%nat.
Proof.
  destruct (assign_nonleading_limb 5 (clone_with_offset [] (mkOff 0 0 0) ctx_new)) as [[x1 c1]|] eqn:E1; [|vm_compute in E1; discriminate].
  destruct (assign_nonleading_limb 6 (clone_with_offset (c_mem c1) (mkOff 0 3 0) ctx_new)) as [[x2 c2]|] eqn:E2;
    [|vm_compute in E1; injection E1 as <- <-; vm_compute in E2; discriminate].
  exists x1, c1, x2, c2. split; [reflexivity|]. split; [exact E2|].
  assert (C1 : covered c1).
  { eapply program_covered; [|exact covered_new|exact E1]. apply p_gadget, pg_assign_limb. }
  assert (C2 : covered c2).
  { assert (H : covered (clone_with_offset (c_mem c1) (mkOff 0 3 0) ctx_new) -> covered c2).
    { intros H. eapply program_covered; [apply p_gadget, (pg_assign_limb 6 6 LIMB_BITS)|exact H|exact E2]. }
    intros x Hx. vm_compute in E1. injection E1 as <- <-. vm_compute in E2. injection E2 as <- <-. clear H.
    unfold recorded in Hx. cbn [c_mem get_adv get_fix] in Hx.
    repeat match type of Hx with context [cell_eqb ?a x] =>
      let E := fresh "E" in destruct (cell_eqb a x) eqn:E; [apply cell_eqb_eq in E; subst x; cbn; lia|] end.
    destruct Hx as [[]|[]]; reflexivity. }
  split; [exact C1|]. split; [exact C2|]. split; [apply covered_merge; [reflexivity|exact C2]|].
  exists (rcell CommonRangeCol 5). vm_compute in E1. injection E1 as <- <-. vm_compute in E2. injection E2 as <- <-.
  split; [left; cbn; discriminate|]. split; [reflexivity|]. split; reflexivity.
Qed.
End Ref.

Lemma C37_merge_order_refuted_main :
  let limb := @assign_nonleading_limb bn256_fr in
  exists x1 c1 x2 c2,
  limb 5 (clone_with_offset [] (mkOff 0 0 0) ctx_new) = Ok (x1, c1)
  /\ limb 6 (clone_with_offset (c_mem c1) (mkOff 0 3 0) ctx_new) = Ok (x2, c2)
  /\ covered c1 /\ covered c2
  /\ covered (merge (c_mem c2) (merge (c_mem c2) ctx_new c1) c2)
  /\ exists x, recorded (merge (c_mem c2) (merge (c_mem c2) ctx_new c2) c1) x
       /\ c_chip x = RangeChip /\ c_row x = 5%nat /\ height (merge (c_mem c2) (merge (c_mem c2) ctx_new c2) c1) RangeChip = 4%nat.
Proof.
  exact order_refuted.
Qed.

Lemma C39_assign_all_partial_main :
  forall (NM : NMod) X (m : M X) c x c', program m -> covered c -> flagged c -> m c = Ok (x, c') ->
    ends_recorded c' -> (0 < base_h c')%nat ->
    (let chunks := (base_h c' + 15) / 16 in range_h c' <= chunks * 16 * chunks)%nat ->
    exists r, assign_all c' = Ok r
      /\ (forall x, r_adv r x = get_adv (c_mem c') x)
      /\ (forall x, r_fix r x = get_fix (c_mem c') x)
      /\ r_copies r = rev (c_perms c').
Proof.
  intros NM X m c x c' P C F H E B R. apply assign_all_ok; auto.
  - eapply program_covered; eauto.
  - eapply program_flagged; eauto.
Qed.

Section Ref2.
Local Existing Instance bn256_fr.
Definition all_panics (m : M unit) : bool :=
  match m ctx_new with Ok (_, c) => ends_check c && match assign_all c with Panic => true | _ => false end | _ => false end.
Lemma all_panics_ok (m : M unit) : program m -> all_panics m = true ->
  exists c, m ctx_new = Ok (tt, c) /\ covered c /\ flagged c /\ ends_recorded c /\ assign_all c = Panic.
Proof.
  unfold all_panics. intros P. destruct (m ctx_new) as [[[] c]|] eqn:E; [|discriminate]. intros H. apply andb_prop in H as [H1 H2].
  exists c. split; [reflexivity|]. split; [eapply program_covered; eauto using covered_new|].
  split; [eapply program_flagged; eauto using flagged_new|]. split; [apply ends_check_ok, H1|]. destruct (assign_all c); [discriminate|reflexivity].
Qed.
Definition all_loses (m : M unit) : bool :=
  match m ctx_new with Ok (_, c) => ends_check c && match assign_all c with Ok r =>
     is_none (r_adv r (rcell ValueAccCol 16)) && negb (is_none (get_adv (c_mem c) (rcell ValueAccCol 16))) | _ => false end | _ => false end.
Lemma all_loses_ok (m : M unit) : program m -> all_loses m = true ->
  exists c r x v, m ctx_new = Ok (tt, c) /\ covered c /\ flagged c /\ ends_recorded c
     /\ assign_all c = Ok r /\ get_adv (c_mem c) x = Some v /\ r_adv r x = None.
Proof.
  unfold all_loses. intros P. destruct (m ctx_new) as [[[] c]|] eqn:E; [|discriminate]. intros H. apply andb_prop in H as [H1 H2].
  destruct (assign_all c) as [r|] eqn:A; [|discriminate]. apply andb_prop in H2 as [H2 H3].
  destruct (r_adv r (rcell ValueAccCol 16)) eqn:R; [discriminate|]. destruct (get_adv (c_mem c) (rcell ValueAccCol 16)) as [v|] eqn:G; [|discriminate].
  exists c, r, (rcell ValueAccCol 16), v. split; [reflexivity|]. split; [eapply program_covered; eauto using covered_new|].
  split; [eapply program_flagged; eauto using flagged_new|]. split; [apply ends_check_ok, H1|]. auto.
Qed.
Local Notation limb3 := (a <- assign_nonleading_limb 1 ;; assert_bit a ;;; mret tt).
Lemma panic_run : all_panics (mapM (fun _ => limb3) (seq 0 7) ;;; mret tt) = true.
Proof. vm_cast_no_check (eq_refl true). Qed.
Lemma empty_run : all_panics (assign_common 1 ;;; mret tt) = true.
Proof. vm_cast_no_check (eq_refl true). Qed.
Lemma loses_run : all_loses (assign 1 ;;; mapM (fun _ => assign_common 1) (seq 0 17) ;;; mret tt) = true.
Proof. vm_cast_no_check (eq_refl true). Qed.
End Ref2.

Lemma C39_assign_all_refuted_main :
  let NM := bn256_fr in
    (exists c, (mapM (fun _ => a <- assign_nonleading_limb 1 ;; assert_bit a ;;; mret tt) (seq 0 7) ;;; mret tt) ctx_new = Ok (tt, c)
       /\ covered c /\ flagged c /\ ends_recorded c /\ assign_all c = Panic)
 /\ (exists c r x v, (assign 1 ;;; mapM (fun _ => assign_common 1) (seq 0 17) ;;; mret tt) ctx_new = Ok (tt, c)
       /\ covered c /\ flagged c /\ ends_recorded c /\ assign_all c = Ok r /\ get_adv (c_mem c) x = Some v /\ r_adv r x = None)
 /\ (exists c, (assign_common 1 ;;; mret tt) ctx_new = Ok (tt, c)
       /\ covered c /\ flagged c /\ ends_recorded c /\ assign_all c = Panic).
Proof.
  split; [|split].
  - apply all_panics_ok; [apply p_gadget; unfold assign_nonleading_limb; pga|exact panic_run].
  - apply all_loses_ok; [apply p_gadget; pga|exact loses_run].
  - apply all_panics_ok; [apply p_gadget; pga|exact empty_run].
Qed.

