(** The select chip: what a cache row and a selection row mean. *)
From Verif Require Import Prelude FieldZ Circuit Context Spec Logic ModArith Prims BaseChip BaseProofs
  RangeInfo RangeChip RangeProofs SpecSelect.

Section Select.
Context {NM : NMod}.

Definition cache_ws (o : nat) (v : av) (e : Z) : list wr :=
  [WAdv (scell ValueCol o) (a_val v); WFlag (scell ValueCol o); WFlag (a_cell v);
   WFix (scell EncodeCol o) e; WFix (scell IsLookupCol o) 0].
Definition sel_ws (o : nat) (v : av) (e : Z) (s : av) : list wr :=
  [WAdv (scell ValueCol o) (a_val v); WAdv (scell SelectCol o) (a_val s);
   WFlag (scell SelectCol o); WFlag (a_cell s);
   WFix (scell EncodeCol o) e; WFix (scell IsLookupCol o) 1].
Lemma select_block ws ps c h :
  Forall (write_in SelectChip (select_off c) (select_off c + 1)) ws ->
  block SelectChip 1 ws ps c
    (mkCtx (rev_append ws (c_mem c)) (rev_append ps (c_perms c)) (base_off c) (range_off c) (S (select_off c))
           (base_h c) (range_h c) h).
Proof.
  intros F. constructor; cbn [c_mem c_perms]; [reflexivity|reflexivity| |exact F].
  intros [| |]; cbn; lia.
Qed.
Lemma cache_inv v off g sc c u c' : assign_cache_value v off g sc c = Ok (u, c') ->
  block SelectChip 1 (cache_ws (select_off c) v (encode_offset g sc off)) [(scell ValueCol (select_off c), a_cell v)] c c'.
Proof.
  intros H. destruct c as [mm pp bo ro so bh rh sh]. cbv [assign_cache_value rec_assign_cache_value mbind mget mret
    bump_select_h do_writes push_perms incr_select_off] in H.
  cbn [c_mem c_perms base_off range_off select_off base_h range_h select_h] in H. injection H as <- <-.
  apply (select_block (cache_ws so v (encode_offset g sc off)) [(scell ValueCol so, a_cell v)] (mkCtx mm pp bo ro so bh rh sh)).
  repeat constructor; cbn; lia.
Qed.
Lemma cache_run v off g sc c : exists c', assign_cache_value v off g sc c = Ok (tt, c').
Proof. eexists. reflexivity. Qed.
Lemma sel_inv v off g s c r c' : assign_selected_value v off g s c = Ok (r, c') ->
  r = mkAv (scell ValueCol (select_off c)) (a_val v) /\
  block SelectChip 1 (sel_ws (select_off c) v (encode_offset g 0 off) s) [(scell SelectCol (select_off c), a_cell s)] c c'.
Proof.
  intros H. destruct c as [mm pp bo ro so bh rh sh]. cbv [assign_selected_value rec_assign_select_value mbind mget mret
    bump_select_h do_writes push_perms incr_select_off] in H.
  cbn [c_mem c_perms base_off range_off select_off base_h range_h select_h] in H. injection H as <- <-. split; [reflexivity|].
  apply (select_block (sel_ws so v (encode_offset g 0 off) s) [(scell SelectCol so, a_cell s)] (mkCtx mm pp bo ro so bh rh sh)).
  repeat constructor; cbn; lia.
Qed.
Lemma sel_run v off g s c : exists r c', assign_selected_value v off g s c = Ok (r, c').
Proof. do 2 eexists. reflexivity. Qed.

Lemma appends_assign_cache_value v off g sc : appends (assign_cache_value v off g sc).
Proof. intros c u c' W H. apply cache_inv in H. split; [eapply block_wf; eauto|eapply block_extends; eauto]. Qed.
Lemma appends_assign_selected_value v off g s : appends (assign_selected_value v off g s).
Proof. intros c u c' W H. apply sel_inv in H as [_ H]. split; [eapply block_wf; eauto|eapply block_extends; eauto]. Qed.

Section Rows.
Variables (ws : list wr) (ps : list (cell * cell)) (c c' : ctx).
Hypothesis W : wf c.
Hypothesis B : block SelectChip 1 ws ps c c'.
Lemma srow_fix col : get_fix (c_mem c') (scell col (select_off c)) = assoc (rev (fixes ws)) (scell col (select_off c)).
Proof. eapply blk_fix_fresh; [exact W|exact B|reflexivity|cbn; lia]. Qed.
Lemma srow_adv col : get_adv (c_mem c') (scell col (select_off c)) = assoc (rev (advs ws)) (scell col (select_off c)).
Proof. eapply blk_adv_fresh; [exact W|exact B|reflexivity|cbn; lia]. Qed.
End Rows.
Ltac seval := cbn [rev app fixes advs cache_ws sel_ws assoc]; unfold cell_eqb, scell; cbn [c_chip c_col c_row chip_eqb];
  rewrite ?Nat.eqb_refl; cbn [Nat.eqb andb ValueCol SelectCol EncodeCol IsLookupCol].
Ltac sfix := first [unfold fixv|idtac]; erewrite srow_fix by eassumption; seval; cbn [opt0]; try reflexivity.
Ltac sadv := erewrite srow_adv by eassumption; seval; cbn [opt0]; try reflexivity.

Lemma encode_sum g s off : (s * 2 ^ 128 + encode_offset g 0 off) mod nmod = encode_offset g s off.
Proof. unfold encode_offset, fof. rewrite Zplus_mod_idemp_r. f_equal. ring. Qed.

(** *** Soundness *)
Lemma assign_cache_value_ST T A v off g sc :
  ST T A (assign_cache_value v off g sc) (fun _ => tbl T A⟦v⟧ (encode_offset g sc off)).
Proof.
  intros c u c' W H S. apply cache_inv in H as B.
  destruct (proj1 (sat_block _ _ _ _ _ _ _ A W B) S) as (_ & HR & HP). cbn [off_of] in HR.
  assert (U : used c' SelectChip (select_off c + 0)).
  { rewrite Nat.add_0_r. exists IsLookupCol, 0. change (mkCell SelectChip IsLookupCol (select_off c)) with (scell IsLookupCol (select_off c)). sfix. }
  destruct (HR 0%nat ltac:(lia) U) as [_ HT]. rewrite Nat.add_0_r in HT.
  assert (E1 : fixv c' (scell IsLookupCol (select_off c)) = 0) by sfix.
  assert (E2 : fixv c' (scell EncodeCol (select_off c)) = encode_offset g sc off) by sfix.
  specialize (HT E1). rewrite E2 in HT. rewrite <- (HP _ _ (or_introl eq_refl)). exact HT.
Qed.
Lemma assign_selected_value_ST T A v off g s :
  ST T A (assign_selected_value v off g s) (fun r => tbl T A⟦r⟧ (encode_offset g A⟦s⟧ off)).
Proof.
  intros c r c' W H S. apply sel_inv in H as [-> B]. cbn [a_cell].
  destruct (proj1 (sat_block _ _ _ _ _ _ _ A W B) S) as (_ & HR & HP). cbn [off_of] in HR.
  assert (U : used c' SelectChip (select_off c + 0)).
  { rewrite Nat.add_0_r. exists IsLookupCol, 1. change (mkCell SelectChip IsLookupCol (select_off c)) with (scell IsLookupCol (select_off c)). sfix. }
  destruct (HR 0%nat ltac:(lia) U) as [HT _]. rewrite Nat.add_0_r in HT.
  assert (E2 : fixv c' (scell EncodeCol (select_off c)) = encode_offset g 0 off) by sfix.
  unfold select_input in HT. rewrite E2, (HP _ _ (or_introl eq_refl)), encode_sum in HT. exact HT.
Qed.

(** *** Honest runs *)
Lemma select_CT {X} ws ps c c' (r : X) (m : M X) (P : X -> ctx -> Prop) :
  wf c -> m c = Ok (r, c') -> block SelectChip 1 ws ps c c' ->
  used c' SelectChip (select_off c) ->
  Forall (fun p => 0 <= snd p < nmod) (advs ws) ->
  (forall T A, (forall y, 0 <= A y < nmod) -> agrees c' A -> tables_in (tbl T) c' A ->
      tbl T (A (scell ValueCol (select_off c))) (select_input (fixv c') A (select_off c))
      /\ (forall a b, In (a, b) ps -> A a = A b)) ->
  P r c' -> CT c m P.
Proof.
  intros W H B U F HR HP. exists r, c'. split; [exact H|].
  split; [eapply block_wf; eauto|]. assert (E : extends c c') by (eapply block_extends; eauto).
  split; [exact E|]. split; [|exact HP]. split.
  - intros AO x v Hx. destruct (advs_ok_block _ _ _ _ _ _ _ _ W B E AO Hx) as [Hx'|(Hin & Hc & Hr)]; [exact Hx'|].
    rewrite Forall_forall in F. split; [|apply F in Hin; exact Hin].
    rewrite Hc. cbn [off_of] in Hr. replace (c_row x) with (select_off c) by lia. exact U.
  - intros T A HA HG HT HS. destruct (HR T A HA HG HT) as [H1 H2]. apply (sat_block _ _ _ _ _ _ _ A W B). split; [exact HS|]. split; [|exact H2].
    intros i Hi _. replace (off_of c SelectChip + i)%nat with (select_off c) by (cbn; lia). split; [exact H1|].
    apply HT. exact U.
Qed.

Lemma encode_range g s off : 1 < nmod -> 0 <= encode_offset g s off < nmod.
Proof. intros. apply Z.mod_pos_bound. lia. Qed.
Lemma cached_mono c c' e v : extends c c' -> cached c e v -> cached c' e v.
Proof.
  intros E (r & (U & H1 & H2) & H3). exists r. split; [|unfold scell in *; rewrite (ext_adv _ _ E); auto].
  split; [eapply used_extends; eauto|]. unfold fixv, scell in *. rewrite !(ext_fix _ _ E) by auto. auto.
Qed.
Lemma assign_cache_value_CT c v off g sc : 1 < nmod -> wf c -> valid c v ->
  CT c (assign_cache_value v off g sc) (fun _ c' => cached c' (encode_offset g sc off) (a_val v)).
Proof.
  intros N W V. destruct (cache_run v off g sc c) as (c' & H). pose proof (cache_inv _ _ _ _ _ _ _ H) as B.
  assert (U : used c' SelectChip (select_off c)).
  { exists IsLookupCol, 0. change (mkCell SelectChip IsLookupCol (select_off c)) with (scell IsLookupCol (select_off c)). sfix. }
  assert (E1 : fixv c' (scell IsLookupCol (select_off c)) = 0) by sfix.
  assert (E2 : fixv c' (scell EncodeCol (select_off c)) = encode_offset g sc off) by sfix.
  assert (E3 : get_adv (c_mem c') (scell ValueCol (select_off c)) = Some (a_val v)) by sadv.
  assert (E4 : get_adv (c_mem c') (scell SelectCol (select_off c)) = None) by sadv.
  assert (E : extends c c') by (eapply block_extends; eauto).
  eapply select_CT; [exact W|exact H|exact B|exact U| | |].
  - cbn [advs cache_ws]. constructor; [apply V|constructor].
  - intros T A HA HG HT. unfold select_input. rewrite E2.
    assert (A1 : A (scell SelectCol (select_off c)) = 0).
    { unfold scell. rewrite (HG _ _ U). unfold honest. fold (scell SelectCol (select_off c)). rewrite E4. reflexivity. }
    assert (A2 : A (scell ValueCol (select_off c)) = a_val v).
    { unfold scell. rewrite (HG _ _ U). unfold honest. fold (scell ValueCol (select_off c)). rewrite E3. reflexivity. }
    rewrite A1, Z.mul_0_l, Z.add_0_l, (Z.mod_small _ _ (encode_range g sc off N)).
    split; [rewrite <- E2; apply HT; auto|]. intros a b [K|[]]. injection K as <- <-. rewrite A2. symmetry.
    eapply valid_agrees; [eapply valid_mono; eauto|exact HG].
  - exists (select_off c). split; [split; [exact U|split; auto]|exact E3].
Qed.
Lemma assign_selected_value_CT c v off g s : 1 < nmod -> wf c -> valid c v -> valid c s -> cached c (encode_offset g (a_val s) off) (a_val v) ->
  CT c (assign_selected_value v off g s) (fun r c' => valid c' r /\ a_val r = a_val v).
Proof.
  intros N W V VS HC. destruct (sel_run v off g s c) as (r & c' & H). pose proof (sel_inv _ _ _ _ _ _ _ H) as [-> B].
  assert (U : used c' SelectChip (select_off c)).
  { exists IsLookupCol, 1. change (mkCell SelectChip IsLookupCol (select_off c)) with (scell IsLookupCol (select_off c)). sfix. }
  assert (E2 : fixv c' (scell EncodeCol (select_off c)) = encode_offset g 0 off) by sfix.
  assert (E3 : get_adv (c_mem c') (scell ValueCol (select_off c)) = Some (a_val v)) by sadv.
  assert (E4 : get_adv (c_mem c') (scell SelectCol (select_off c)) = Some (a_val s)) by sadv.
  assert (E : extends c c') by (eapply block_extends; eauto).
  eapply select_CT; [exact W|exact H|exact B|exact U| | |].
  - cbn [advs sel_ws]. constructor; [apply V|constructor; [apply VS|constructor]].
  - intros T A HA HG HT. unfold select_input. rewrite E2.
    assert (A1 : A (scell SelectCol (select_off c)) = a_val s).
    { unfold scell. rewrite (HG _ _ U). unfold honest. fold (scell SelectCol (select_off c)). rewrite E4. reflexivity. }
    assert (A2 : A (scell ValueCol (select_off c)) = a_val v).
    { unfold scell. rewrite (HG _ _ U). unfold honest. fold (scell ValueCol (select_off c)). rewrite E3. reflexivity. }
    rewrite A1, A2, encode_sum. split.
    + destruct (cached_mono _ _ _ _ E HC) as (q & (Uq & Q1 & Q2) & Q3). rewrite <- Q2.
      assert (A3 : A (scell ValueCol q) = a_val v).
      { unfold scell. rewrite (HG _ _ Uq). unfold honest. fold (scell ValueCol q). rewrite Q3. reflexivity. }
      rewrite <- A3. apply HT; auto.
    + intros a b [K|[]]. injection K as <- <-. rewrite A1. symmetry. eapply valid_agrees; [eapply valid_mono; eauto|exact HG].
  - cbn [a_val a_cell]. split; [|reflexivity]. split; [exact U|]. split; [exact E3|apply V].
Qed.

(** *** The lookup table of a whole circuit *)
Lemma table_row c A v e : select_table (fixv c) A v e -> e <> 0 -> exists r, cache_row c r e /\ A (scell ValueCol r) = v.
Proof.
  intros (r & H1 & H2 & H3) N. exists r. split; [|exact H1]. split; [|auto].
  unfold fixv in H2. destruct (get_fix (c_mem c) (scell EncodeCol r)) as [x|] eqn:E; [|cbn in H2; congruence].
  exists EncodeCol, x. exact E.
Qed.
End Select.
#[export] Hint Resolve appends_assign_cache_value appends_assign_selected_value : app.
