(** Fixed values recorded in the range and select chips are field elements, whatever the program. *)
From Verif Require Import Msm ParWindows MsmProofs SelectMsm.
From Verif Require Import Prelude FieldZ Circuit Context Spec Logic ModArith Prims BaseChip BaseProofs
  RangeInfo RangeChip IntegerChip InfoProofs IntArith RangeProofs IntInv IntSound EccChip EccProofs ScalarChip ScalarProofs
  SelectProofs Synth SpecHeights SpecRecorder Progs Heights Halo2 Configure ConfigProofs.

Section T.
Context {NM : NMod}.
Hypothesis N : 1 < nmod.
Definition okw (w : wr) : Prop :=
  match w with WFix x v => c_chip x <> BaseChip -> 0 <= v < nmod | _ => True end.
Definition tstep (c c' : ctx) : Prop := exists ws, c_mem c' = ws ++ c_mem c /\ Forall okw ws.
Lemma tstep_refl c : tstep c c.
Proof. exists []. auto. Qed.
Lemma tstep_trans a b c : tstep a b -> tstep b c -> tstep a c.
Proof. intros (w1 & E1 & F1) (w2 & E2 & F2). exists (w2 ++ w1). rewrite E2, E1, app_assoc. split; [reflexivity|]. apply Forall_app; auto. Qed.
Lemma tstep_tags c c' : tstep c c' -> tags_ok c -> tags_ok c'.
Proof.
  intros (ws & E & F) T x v Hx. rewrite E. clear E. induction ws as [|w ws IH]; cbn [app get_fix]; [apply T; exact Hx|].
  inversion F; subst. destruct w as [y z|y z|y]; auto. destruct (cell_eqb y x) eqn:Q; [|auto].
  intros H; injection H as <-. apply cell_eqb_eq in Q as ->. auto.
Qed.
Lemma block_tstep ch k ws ps c c' : block ch k ws ps c c' -> Forall okw ws -> tstep c c'.
Proof. intros B F. exists (rev ws). rewrite (blk_mem _ _ _ _ _ _ B), rev_append_rev. split; [reflexivity|]. apply Forall_rev, F. Qed.
Lemma mod_field a : 0 <= a mod nmod < nmod.
Proof. apply Z.mod_pos_bound. lia. Qed.
Ltac okws := repeat constructor; cbn [okw c_chip]; intros; try (exfalso; match goal with H : _ <> BaseChip |- _ => apply H; reflexivity end); try apply mod_field; try lia.

Definition tp {X} (m : M X) : Prop := forall c x c', m c = Ok (x, c') -> tstep c c'.
Lemma tp_bind {X Y} (m : M X) (k : X -> M Y) : tp m -> (forall x, tp (k x)) -> tp (mbind m k).
Proof. intros Hm Hk c y c'' H. apply mbind_inv in H as (x & c' & H1 & H2). eapply tstep_trans; [eapply Hm|eapply Hk]; eauto. Qed.
Lemma tp_ret {X} (x : X) : tp (mret x).
Proof. intros c y c' H. injection H as _ <-. apply tstep_refl. Qed.
Lemma base_okw lo hi w : write_in BaseChip lo hi w -> okw w.
Proof. destruct w; cbn; auto. intros [H _] Q. congruence. Qed.
Lemma ol_okw off pairs constant muls next : Forall okw (ol_writes off pairs constant muls next).
Proof. eapply Forall_impl; [apply base_okw|apply ol_writes_in]. Qed.
Lemma gadget_tp {X} (m : M X) : gadget m -> tp m.
Proof.
  induction 1; try apply tp_ret.
  - intros c y c' H. discriminate.
  - intros c y c' H. apply massert_inv in H as [_ ->]. apply tstep_refl.
  - apply tp_bind; auto.
  - intros c r c' H. apply one_line_inv in H as (_ & _ & B & _). eapply block_tstep; [exact B|apply ol_okw].
  - intros c r c' H. apply one_line_with_last_inv in H as (_ & _ & B & _). eapply block_tstep; [exact B|].
    apply Forall_app. split; [apply ol_okw|]. eapply Forall_impl; [apply base_okw|apply adv_writes_in].
  - intros c r c' H. apply assign_limb_inv in H as (_ & [(_ & B)|[(_ & B)|(_ & B)]]);
      (eapply block_tstep; [exact B|]); unfold rw1, rw2, rw3; okws.
  - intros c r c' H. pose proof (assign_common_inv _ _ _ _ H) as [B _]. eapply block_tstep; [exact B|]. okws.
  - intros c r c' H. pose proof (cache_inv _ _ _ _ _ _ _ H) as B. eapply block_tstep; [exact B|]. okws.
  - intros c r c' H. pose proof (sel_inv _ _ _ _ _ _ _ H) as [_ B]. eapply block_tstep; [exact B|]. okws.
Qed.
Lemma tp_ubind {X Y} (m : M (uresult X)) (k : X -> M (uresult Y)) : tp m -> (forall x, tp (k x)) -> tp (ubind m k).
Proof. intros Hm Hk. apply tp_bind; [auto|]. intros [x|e]; [auto|apply tp_ret]. Qed.
Lemma tp_mapM {X Y} (f : X -> M Y) l : (forall x, tp (f x)) -> tp (mapM f l).
Proof.
  intros Hf; induction l as [|x l IH]; simpl; [apply tp_ret|].
  apply tp_bind; [auto|intros]. apply tp_bind; [auto|intros]. apply tp_ret.
Qed.
Lemma run_clones_tp {X} (f : nat -> M (uresult X)) c diff : (forall i, tp (f i)) -> forall is m r m', run_clones f c diff is m = Ok (r, m') ->
  exists ws, m' = ws ++ m /\ Forall okw ws.
Proof.
  intros F. induction is as [|i is IH]; intros m r m' H; cbn [run_clones] in H.
  - injection H as _ <-. exists []. auto.
  - destruct (f i _) as [[[x|e] ci']|] eqn:E; try discriminate.
    + destruct (off_eqb _ _); [|discriminate]. pose proof (F _ _ _ _ E) as (w1 & E1 & F1). cbn [clone_with_offset c_mem] in E1.
      destruct (run_clones f c diff is (c_mem ci')) as [[[xs|e] m1]|] eqn:R; try discriminate;
        (destruct (IH _ _ _ R) as (w2 & E2 & F2); injection H as _ <-; exists (w2 ++ w1); rewrite E2, E1, app_assoc; split; [reflexivity|]; apply Forall_app; auto).
    + injection H as _ <-. pose proof (F _ _ _ _ E) as (w1 & E1 & F1). exists w1. auto.
Qed.
Lemma tp_par_windows {X} (f : nat -> M (uresult X)) windows : (forall i, tp (f i)) -> tp (par_windows f windows).
Proof.
  intros F c r c' H. unfold par_windows in H. set (c0 := clone_with_offset (c_mem c) (mkOff 0 0 0) c) in H.
  destruct (f 0%nat c0) as [[[x0|e] c0']|] eqn:E0; try discriminate; pose proof (F _ _ _ _ E0) as (w1 & E1 & F1); cbn in E1.
  - destruct (run_clones f _ _ _ _) as [[[xs|e] m]|] eqn:R; try discriminate;
      (destruct (run_clones_tp f _ _ F _ _ _ _ R) as (w2 & E2 & F2); cbn [merge c_mem] in E2; injection H as _ <-;
       exists (w2 ++ w1); split; [|apply Forall_app; auto]).
    + cbn [apply_offset_diff c_mem]. rewrite merge_fold_mem by reflexivity. rewrite E2, E1, app_assoc. reflexivity.
    + cbn [with_mem c_mem]. rewrite E2, E1, app_assoc. reflexivity.
  - injection H as _ <-. exists w1. auto.
Qed.
Lemma pg_all_candidates I cache l ln gs : (forall g i p, gadget (cache g i p)) -> gadget (all_candidates I cache l ln gs).
Proof.
  intros Hc. unfold all_candidates. apply pg_ufoldM. intros cs gc. cbv zeta. apply pg_ubind; [|intros; pga].
  unfold group_candidates. apply pg_bind; [auto|intros _]. apply pg_ufoldM. intros cl i. cbv zeta.
  apply pg_bind; [pga|intros c]. apply pg_bind; [pga|intros q].
  apply pg_ubind; [pga|intros p]. apply pg_bind; [pga|intros p']. apply pg_bind; [auto|intros; pga].
Qed.
Lemma pg_bisec_pairs I b : forall n cs, (length cs <= n)%nat -> gadget (bisec_pairs I b cs).
Proof.
  induction n as [|n IH]; intros [|a [|b0 cs]] H; cbn [bisec_pairs]; try solve [pga]; cbn [length] in H; try lia.
  apply pg_bind; [pga|intros p]. apply pg_bind; [apply IH; lia|intros ps]. pga.
Qed.
Lemma pg_bisec_candidate I cs bits : gadget (bisec_candidate_non_zero I cs bits).
Proof.
  unfold bisec_candidate_non_zero. apply pg_bind; [|intros; pga]. apply pg_foldM. intros. eapply pg_bisec_pairs. reflexivity.
Qed.
Lemma tp_msm_batch I b {S} (dec : S -> M (list (list acond))) pick cache best points scalars ra rl :
  (forall s, tp (dec s)) -> (forall g cs bs, gadget (pick g cs bs)) -> (forall g i p, gadget (cache g i p)) ->
  tp (msm_batch I b dec pick cache best points scalars ra rl).
Proof.
  intros Hd Hp Hc. unfold msm_batch. cbv zeta.
  repeat (apply tp_bind; [first [apply tp_mapM; intros; apply gadget_tp; solve [pga] | apply gadget_tp; solve [pga]]|intros ?]).
  apply tp_ubind; [apply gadget_tp, pg_all_candidates, Hc|intros cands].
  apply tp_bind; [apply tp_mapM, Hd|intros bits]. apply tp_bind; [apply gadget_tp; solve [pga]|intros bits0].
  apply tp_ubind; [apply tp_par_windows; intros i; apply gadget_tp, pg_window, Hp|intros lines].
  apply gadget_tp. pga.
Qed.
Lemma tp_msm I b {Sc} (dec : Sc -> M (list (list acond))) bis zero gen ra rl prefix points scalars :
  (forall s, tp (dec s)) -> (forall c s t, tp (bis c s t)) -> tp zero ->
  tp (msm I b dec bis zero gen ra rl prefix points scalars).
Proof.
  intros Hd Hb Hz. unfold msm, msm_unsafe. apply tp_bind; [|intros r; unfold unwrap_result; destruct (fst r); [apply tp_ret|intros c y c' H; discriminate]].
  apply tp_bind; [apply gadget_tp; pga|intros nzp]. apply tp_bind; [exact Hz|intros z].
  apply tp_bind; [apply tp_mapM; intros ps; apply tp_bind; [apply Hb|intros; apply gadget_tp; pga]|intros ps].
  destruct prefix as [g|].
  - apply tp_bind; [|intros; apply tp_ret]. unfold msm_batch_on_group_non_zero_with_select_chip.
    do 2 (apply tp_bind; [apply gadget_tp, g_assert|intros _]). apply tp_msm_batch; [exact Hd|intros; pga|intros; pga].
  - apply tp_bind; [|intros; apply tp_ret]. unfold msm_batch_on_group_non_zero_without_select_chip.
    apply tp_msm_batch; [exact Hd|intros; apply pg_bisec_candidate|intros; pga].
Qed.
Lemma program_tp {X} (m : M X) : program m -> tp m.
Proof.
  induction 1 as [X m G| | |].
  - apply gadget_tp, G.
  - intros c y c' H. injection H as _ <-. apply tstep_refl.
  - apply tp_bind; auto.
  - apply tp_msm; auto.
Qed.
Lemma program_tags {X} (m : M X) c x c' : program m -> tags_ok c -> m c = Ok (x, c') -> tags_ok c'.
Proof. intros P T H. eapply tstep_tags; [eapply program_tp; eauto|exact T]. Qed.
Lemma tags_new : tags_ok ctx_new.
Proof. intros x v _ H. discriminate. Qed.
End T.
