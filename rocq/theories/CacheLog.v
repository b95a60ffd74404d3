(** Which table entries a run adds: the keys cached by one multi-scalar multiplication
    are pairwise different and carry its group prefix. *)
From Verif Require Import Msm ParWindows MsmProofs MsmSound SelectMsm.
From Verif Require Import Prelude FieldZ Circuit Context Spec Logic ModArith Prims BaseChip BaseProofs
  RangeInfo RangeChip IntegerChip InfoProofs IntArith RangeProofs IntInv IntSound EccChip EccProofs ScalarChip ScalarProofs
  SpecSelect SelectProofs NoCache.

Definition ca (E : Z -> Prop) (c c' : ctx) : Prop :=
  exists N : nat -> Z -> Prop, (forall r e, cache_row c' r e -> cache_row c r e \/ N r e)
    /\ (forall r e, N r e -> E e) /\ (forall r r' e, N r e -> N r' e -> r = r').
Definition none (_ : Z) : Prop := False.
Lemma ca_refl c : ca none c c.
Proof. exists (fun _ _ => False). firstorder. Qed.
Lemma ca_wk (E E' : Z -> Prop) c c' : ca E c c' -> (forall e, E e -> E' e) -> ca E' c c'.
Proof. intros (N & H1 & H2 & H3) H. exists N. eauto. Qed.
Lemma ca_trans E1 E2 (E : Z -> Prop) c c1 c2 : ca E1 c c1 -> ca E2 c1 c2 ->
  (forall e, E1 e -> E2 e -> False) -> (forall e, E1 e -> E e) -> (forall e, E2 e -> E e) -> ca E c c2.
Proof.
  intros (N1 & A1 & B1 & C1) (N2 & A2 & B2 & C2) D I1 I2. exists (fun r e => N1 r e \/ N2 r e). split; [|split].
  - intros r e H. apply A2 in H as [H|H]; [apply A1 in H as [H|H]|]; auto.
  - intros r e [H|H]; eauto.
  - intros r r' e [H|H] [H'|H']; eauto; exfalso; eauto.
Qed.
Lemma ca_spec E c c' : ca E c c' -> caches_within E c c'.
Proof.
  intros (N & A & B & C) e. split.
  - intros r H1 H2. destruct (A _ _ H1); [contradiction|eauto].
  - intros r r' H1 H2 H3 H4. destruct (A _ _ H1); [contradiction|]. destruct (A _ _ H3); [contradiction|eauto].
Qed.
Lemma ca_rows E c c' d d' : c_mem c = c_mem d -> c_mem c' = c_mem d' -> ca E c c' -> ca E d d'.
Proof.
  intros H1 H2 (N & A & B & C). exists N. split; [|auto]. intros r e H.
  assert (K : forall a b : ctx, c_mem a = c_mem b -> cache_row b r e -> cache_row a r e).
  { intros a b Em ((col & v & U) & R1 & R2). unfold cache_row, used, fixv in *. rewrite Em. eauto 6. }
  destruct (A r e) as [Q|Q]; [eapply K; eauto|left; eapply K; eauto|auto].
Qed.

(** ** Programs *)
Definition pca {X} (E : Z -> Prop) (m : M X) (Q : X -> Prop) : Prop :=
  forall c x c', wf c -> m c = Ok (x, c') -> wf c' /\ ca E c c' /\ Q x.
Definition uca {X} (E : Z -> Prop) (m : M (uresult X)) : Prop :=
  forall c x c', wf c -> m c = Ok (UOk x, c') -> wf c' /\ ca E c c'.
Definition disj (E F : Z -> Prop) : Prop := forall e, E e -> F e -> False.
Definition sub_ (E F : Z -> Prop) : Prop := forall e, E e -> F e.
Lemma pca_nc {X} (m : M X) : nc m -> pca none m (fun _ => True).
Proof.
  intros H c x c' W R. destruct (H _ _ _ W R) as [W' G]. split; [auto|]. split; [|auto]. exists (fun _ _ => False). split; [auto|split; intros; contradiction].
Qed.
Lemma pca_ret {X} (x : X) (Q : X -> Prop) : Q x -> pca none (mret x) Q.
Proof. intros H c y c' W R. injection R as <- <-. split; [auto|]. split; [apply ca_refl|auto]. Qed.
Lemma pca_wk {X} (E E' : Z -> Prop) (m : M X) (Q Q' : X -> Prop) : pca E m Q -> sub_ E E' -> (forall x, Q x -> Q' x) -> pca E' m Q'.
Proof. intros H S I c x c' W R. destruct (H _ _ _ W R) as (W' & C & HQ). split; [auto|]. split; [eapply ca_wk; eauto|auto]. Qed.
Lemma pca_bind {X Y} E1 E2 E (m : M X) (k : X -> M Y) (Q : X -> Prop) (R : Y -> Prop) :
  pca E1 m Q -> (forall x, Q x -> pca E2 (k x) R) -> disj E1 E2 -> sub_ E1 E -> sub_ E2 E -> pca E (mbind m k) R.
Proof.
  intros Hm Hk D S1 S2 c y c'' W H. apply mbind_inv in H as (x & c' & H1 & H2).
  destruct (Hm _ _ _ W H1) as (W1 & C1 & Hx). destruct (Hk x Hx _ _ _ W1 H2) as (W2 & C2 & Hy).
  split; [auto|]. split; [eapply ca_trans; eauto|auto].
Qed.
Lemma pca_nc_bind {X Y} E (m : M X) (k : X -> M Y) (R : Y -> Prop) :
  nc m -> (forall x, pca E (k x) R) -> pca E (mbind m k) R.
Proof. intros Hm Hk. eapply pca_bind; [apply pca_nc; exact Hm|intros; apply Hk| | |]; unfold disj, sub_, none; tauto. Qed.
Lemma pca_assert_k {Y} E b (k : unit -> M Y) R : (b = true -> pca E (k tt) R) -> pca E (mbind (massert b) k) R.
Proof. intros Hk c y c'' W H. apply mbind_inv in H as ([] & c' & H1 & H2). apply massert_inv in H1 as [H1 ->]. eapply Hk; eauto. Qed.
Lemma uca_of {X} E (m : M (uresult X)) Q : pca E m Q -> uca E m.
Proof. intros H c x c' W R. destruct (H _ _ _ W R) as (? & ? & _). auto. Qed.
Lemma uca_nc {X} (m : M (uresult X)) : nc m -> uca none m.
Proof. intros H. eapply uca_of. apply pca_nc. exact H. Qed.
Lemma uca_wk {X} (E E' : Z -> Prop) (m : M (uresult X)) : uca E m -> sub_ E E' -> uca E' m.
Proof. intros H S c x c' W R. destruct (H _ _ _ W R) as (W' & C). split; [auto|]. eapply ca_wk; eauto. Qed.
Lemma uca_bind {X Y} E1 E2 E (m : M X) (k : X -> M (uresult Y)) Q :
  pca E1 m Q -> (forall x, Q x -> uca E2 (k x)) -> disj E1 E2 -> sub_ E1 E -> sub_ E2 E -> uca E (mbind m k).
Proof.
  intros Hm Hk D S1 S2 c y c'' W H. apply mbind_inv in H as (x & c' & H1 & H2).
  destruct (Hm _ _ _ W H1) as (W1 & C1 & Hx). destruct (Hk x Hx _ _ _ W1 H2) as (W2 & C2).
  split; [auto|]. eapply ca_trans; eauto.
Qed.
Lemma uca_nc_bind {X Y} E (m : M X) (k : X -> M (uresult Y)) : nc m -> (forall x, uca E (k x)) -> uca E (mbind m k).
Proof. intros Hm Hk. eapply uca_bind; [apply pca_nc; exact Hm|intros; apply Hk| | |]; unfold disj, sub_, none; tauto. Qed.
Lemma uca_ubind {X Y} E1 E2 E (m : M (uresult X)) (k : X -> M (uresult Y)) :
  uca E1 m -> (forall x, uca E2 (k x)) -> disj E1 E2 -> sub_ E1 E -> sub_ E2 E -> uca E (ubind m k).
Proof.
  intros Hm Hk D S1 S2 c y c'' W H. apply ubind_inv in H as (x & c' & H1 & H2).
  destruct (Hm _ _ _ W H1) as (W1 & C1). destruct (Hk x _ _ _ W1 H2) as (W2 & C2).
  split; [auto|]. eapply ca_trans; eauto.
Qed.
Lemma uca_ubind_l {X Y} E (m : M (uresult X)) (k : X -> M (uresult Y)) :
  uca none m -> (forall x, uca E (k x)) -> uca E (ubind m k).
Proof. intros. eapply uca_ubind; eauto; unfold disj, sub_, none; tauto. Qed.
Lemma uca_ubind_r {X Y} E (m : M (uresult X)) (k : X -> M (uresult Y)) :
  uca E m -> (forall x, uca none (k x)) -> uca E (ubind m k).
Proof. intros. eapply uca_ubind; eauto; unfold disj, sub_, none; tauto. Qed.
Lemma uca_assert_k {Y} E b (k : unit -> M (uresult Y)) : (b = true -> uca E (k tt)) -> uca E (mbind (massert b) k).
Proof. intros Hk c y c'' W H. apply mbind_inv in H as ([] & c' & H1 & H2). apply massert_inv in H1 as [H1 ->]. eapply Hk; eauto. Qed.
Lemma uca_nth_k {X Y} E (l : list X) i (k : X -> M (uresult Y)) :
  (forall x, nth_error l i = Some x -> uca E (k x)) -> uca E (mbind (mnth l i) k).
Proof. intros Hk c y c'' W H. apply mbind_inv in H as (x & c' & H1 & H2). apply mopt_inv in H1 as [H1 ->]. eapply Hk; eauto. Qed.
Lemma uca_ufoldM {X S} (f : S -> X -> M (uresult S)) (EE : X -> Z -> Prop) l :
  (forall s x, In x l -> uca (EE x) (f s x)) -> NoDup l ->
  (forall x y, In x l -> In y l -> x <> y -> disj (EE x) (EE y)) ->
  forall s, uca (fun e => exists x, In x l /\ EE x e) (ufoldM f s l).
Proof.
  intros Hf ND. revert Hf. induction ND as [|x l Hx ND IH]; intros Hf D s; cbn [ufoldM].
  - eapply uca_wk; [apply uca_nc, nc_ret|]. intros e [].
  - eapply uca_ubind; [apply Hf; left; reflexivity|intros s'; apply IH| | |].
    + intros; apply Hf; right; auto.
    + intros; apply D; auto; right; auto.
    + intros e H1 (y & Hy & H2). assert (N : x <> y) by (intros <-; auto).
      apply (D x y (or_introl eq_refl) (or_intror Hy) N e H1 H2).
    + intros e H. exists x. split; [left; reflexivity|exact H].
    + intros e (y & Hy & H). exists y. split; [right; exact Hy|exact H].
Qed.
Lemma uca_ufoldM_none {X S} (f : S -> X -> M (uresult S)) l s : (forall s x, uca none (f s x)) -> uca none (ufoldM f s l).
Proof.
  intros H. revert s. induction l as [|x l IH]; intros s; cbn [ufoldM]; [apply uca_nc, nc_ret|].
  apply uca_ubind_l; auto.
Qed.

(** Cloned windows. *)
Section Clones.
Context {X : Type}.
Variable f : nat -> M (uresult X).
Hypothesis f_app : forall i, uapp (f i).
Hypothesis f_ca : forall i, uca none (f i).
Lemma none_trans c c1 c2 : ca none c c1 -> ca none c1 c2 -> ca none c c2.
Proof. intros. eapply ca_trans; eauto; unfold none; tauto. Qed.
Lemma run_clones_ca c diff k : forall i m xs m',
  run_clones f c diff (seq i k) m = Ok (UOk xs, m') -> wf (stage c diff m i) ->
  ca none (stage c diff m i) (stage c diff m' (i + k)).
Proof.
  induction k as [|k IH]; intros i m xs m' H W; cbn [seq run_clones] in H.
  - injection H as <- <-. rewrite Nat.add_0_r. apply ca_refl.
  - fold (stage c diff m i) in H. destruct (f i (stage c diff m i)) as [[[x|e] ci']|] eqn:E; try discriminate.
    destruct (off_eqb _ _) eqn:O; [|discriminate].
    destruct (run_clones f c diff (seq (S i) k) (c_mem ci')) as [[[ys|e] m1]|] eqn:R; try discriminate.
    injection H as <- <-. destruct (f_app i _ _ _ W E) as [Wi Ei]. destruct (f_ca i _ _ _ W E) as [_ Ci].
    apply off_eqb_eq in O.
    assert (SR : same_rows ci' (stage c diff (c_mem ci') (S i))).
    { split; [reflexivity|]. intros ch. pose proof (ext_off _ _ Ei ch) as LE. rewrite stage_off in LE |- *.
      destruct O as (O1 & O2 & O3). cbn [off_sub offset_of o_base o_range o_select] in O1, O2, O3.
      unfold stage, clone_with_offset, off_scale in O1, O2, O3.
      cbn [base_off range_off select_off o_base o_range o_select] in O1, O2, O3.
      destruct ch; cbn [off_of] in *; lia. }
    pose proof (wf_rows _ _ SR Wi) as W2. pose proof (IH (S i) _ _ _ R W2) as C3.
    replace (i + S k)%nat with (S i + k)%nat by lia. eapply none_trans; [|exact C3].
    eapply ca_rows; [reflexivity|apply SR|exact Ci].
Qed.
Lemma uca_par_windows windows : (windows = O -> forall c x c', wf c -> f O c = Ok (UOk x, c') -> False) ->
  uca none (par_windows f windows).
Proof.
  intros HW c ls c' W H. split; [eapply uapp_par_windows; eauto|].
  assert (H1 : (1 <= windows)%nat).
  { destruct windows; [|lia]. exfalso. unfold par_windows in H. set (c0 := clone_with_offset (c_mem c) (mkOff 0 0 0) c) in H.
    destruct (f 0%nat c0) as [[[x0|e] c0']|] eqn:E0; try discriminate. eapply (HW eq_refl); [|exact E0].
    eapply wf_rows; [|exact W]. split; [reflexivity|]. intros []; cbn; lia. }
  clear HW. unfold par_windows in H. set (c0 := clone_with_offset (c_mem c) (mkOff 0 0 0) c) in H.
  assert (S0 : same_rows c c0).
  { split; [reflexivity|]. intros []; cbn; lia. }
  destruct (f 0%nat c0) as [[[x0|e] c0']|] eqn:E0; try discriminate.
  pose proof (wf_rows _ _ S0 W) as W0. destruct (f_app _ _ _ _ W0 E0) as [W0' X0]. destruct (f_ca _ _ _ _ W0 E0) as [_ C0].
  set (diff := off_sub (offset_of c0') (offset_of c0)) in H. set (c1 := merge (c_mem c0') c c0') in H.
  destruct (run_clones f c1 diff (seq 1 (windows - 1)) (c_mem c1)) as [[[xs|e] m]|] eqn:R; try discriminate.
  injection H as <- <-.
  assert (S1 : same_rows c0' (stage c1 diff (c_mem c1) 1)).
  { split; [reflexivity|]. intros ch. rewrite stage_off. pose proof (ext_off _ _ X0 ch) as LE.
    unfold diff, off_sub, offset_of. cbn [o_base o_range o_select]. destruct ch; cbn in *; lia. }
  pose proof (run_clones_ca c1 diff _ _ _ _ _ R (wf_rows _ _ S1 W0')) as C2.
  destruct (merge_all m xs (with_mem m c1)) as (O & M & P & FP).
  eapply none_trans.
  - eapply ca_rows; [reflexivity|reflexivity|exact C0].
  - eapply ca_rows; [reflexivity| |exact C2]. cbn [stage clone_with_offset c_mem apply_offset_diff]. symmetry. apply M. reflexivity.
Qed.
End Clones.

(** ** Keys *)
Section Keys.
Context {NM : NMod}.
Lemma entry_code_eq g s off : encode_offset g s off = entry_code g s off.
Proof. reflexivity. Qed.
Lemma entry_code_inj g s off g' s' off' : 2 ^ 200 <= nmod ->
  0 <= g < 2 ^ 64 -> 0 <= g' < 2 ^ 64 -> 0 <= off < 2 ^ 64 -> 0 <= off' < 2 ^ 64 -> 0 <= s < 2 ^ 72 -> 0 <= s' < 2 ^ 72 ->
  entry_code g s off = entry_code g' s' off' -> g = g' /\ s = s' /\ off = off'.
Proof.
  intros N Hg Hg' Ho Ho' Hs Hs'. unfold entry_code.
  change (2 ^ 200) with (2 ^ 72 * 2 ^ 128) in N. change (2 ^ 128) with (2 ^ 64 * 2 ^ 64) in *.
  assert (P : 0 < 2 ^ 64) by reflexivity. set (B := 2 ^ 64) in *. assert (P72 : 0 < 2 ^ 72) by reflexivity. set (C := 2 ^ 72) in *. clearbody B C.
  rewrite !Z.mod_small by nia. intros E.
  assert (E1 : s = s') by nia. subst s'. assert (E2 : g = g') by nia. subst g'. lia.
Qed.
Lemma entry_code_0 g s off : 2 ^ 200 <= nmod ->
  0 <= g < 2 ^ 64 -> 0 <= off < 2 ^ 64 -> 0 <= s < 2 ^ 72 -> entry_code g s off = 0 -> g = 0 /\ s = 0 /\ off = 0.
Proof.
  intros N Hg Ho Hs E. apply entry_code_inj; auto; try lia.
Qed.
End Keys.

(** ** Caching a point *)
Section Cache.
Context {NM : NMod}.
Variable I : rinfo.
Local Notation L := (ri_limbs I).
Hypothesis N200 : 2 ^ 200 <= nmod.
Hypothesis L62 : Z.of_nat L < 2 ^ 62.

Lemma assign_cache_value_pca v off g sc : pca (fun e => e = entry_code g sc off) (assign_cache_value v off g sc) (fun _ => True).
Proof.
  intros c u c' W H. apply cache_inv in H as B. split; [eapply block_wf; eauto|]. split; [|auto].
  exists (fun r e => r = select_off c /\ e = entry_code g sc off). split; [|split; [tauto|intros r r' e [-> _] [-> _]; reflexivity]].
  intros r e (U & H1 & H2). destruct (Nat.eq_dec r (select_off c)) as [->|Ne].
  - right. split; [reflexivity|]. unfold fixv in H2. rewrite (srow_fix _ _ c c' W B) in H2. cbn in H2. unfold cell_eqb, scell in H2. cbn in H2.
    rewrite !Nat.eqb_refl in H2. cbn in H2. symmetry. exact H2.
  - left. assert (G : forall col, get_fix (c_mem c') (scell col r) = get_fix (c_mem c) (scell col r)).
    { intros col. destruct B as [B1 B2 B3 B4]. rewrite B1, fixes_app. apply get_fix_skip. intros y v0 Hin.
      apply in_rev in Hin. cbn in Hin. intros ->. unfold scell in Hin. intuition; try discriminate; congruence. }
    unfold fixv in *. rewrite G in H1, H2. split; [|auto]. destruct U as (col & x & U). exists col, x.
    change (mkCell SelectChip col r) with (scell col r) in *. rewrite <- G. exact U.
Qed.
(** The keys of the limbs off .. off + n - 1. *)
Definition keys (g sc off : Z) (n : nat) (e : Z) : Prop := exists k, (k < n)%nat /\ e = entry_code g sc (off + Z.of_nat k).
Lemma keys_disj g sc off n off' n' : 0 <= g < 2 ^ 64 -> 0 <= sc < 2 ^ 72 -> 0 <= off -> off + Z.of_nat n <= off' -> off' + Z.of_nat n' < 2 ^ 64 ->
  disj (keys g sc off n) (keys g sc off' n').
Proof.
  intros Hg Hs H0 H1 H2 e (k & Hk & E) (k' & Hk' & E'). rewrite E in E'. apply entry_code_inj in E'; auto; lia.
Qed.
Lemma assign_cache_integer_pca p sc g off : 0 <= g < 2 ^ 64 -> 0 <= sc < 2 ^ 72 -> 0 <= off -> off + Z.of_nat L + 1 < 2 ^ 64 ->
  pca (keys g sc off (S L)) (assign_cache_integer I p sc g off) (fun r => r = off + Z.of_nat L + 1).
Proof.
  intros Hg Hs H0 HB. unfold assign_cache_integer. apply pca_assert_k. intros _.
  eapply (pca_bind (keys g sc off L) (keys g sc (off + Z.of_nat L) 1) _ _ _ (fun o => o = off + Z.of_nat L)).
  - assert (G : forall n s o, 0 <= o -> o + Z.of_nat n < 2 ^ 64 -> pca (keys g sc o n)
       (foldM (fun offset j => l <- mnth (i_limbs p) j ;; assign_cache_value l offset g sc ;;; mret (offset + 1)) o (seq s n)) (fun r => r = o + Z.of_nat n)).
    { induction n as [|n IH]; intros s o Ho Hn; cbn [seq foldM].
      - eapply pca_wk; [apply (pca_ret o (fun r => r = o)); reflexivity|intros e []|]. intros r ->. lia.
      - eapply (pca_bind (keys g sc o 1) (keys g sc (o + 1) n) _ _ _ (fun r => r = o + 1)).
        + apply pca_nc_bind; [nca|intros l]. eapply pca_bind; [apply assign_cache_value_pca|intros u _; apply (pca_ret (o + 1)); reflexivity| | |].
          * intros e _ [].
          * intros e ->. exists 0%nat. split; [lia|]. f_equal. lia.
          * intros e [].
        + intros r ->. eapply pca_wk; [apply IH; lia|intros e H; exact H|]. intros r ->. lia.
        + apply keys_disj; auto; lia.
        + intros e (k & Hk & ->). exists k. split; [lia|auto].
        + intros e (k & Hk & ->). exists (S k). split; [lia|]. f_equal. lia. }
    apply G; lia.
  - intros o ->. eapply pca_bind; [apply assign_cache_value_pca|intros u _; apply pca_ret; reflexivity| | |].
    + intros e _ [].
    + intros e ->. exists 0%nat. split; [lia|]. f_equal. lia.
    + intros e [].
  - apply keys_disj; auto; lia.
  - intros e (k & Hk & ->). exists k. split; [lia|auto].
  - intros e (k & Hk & ->). exists L. split; [lia|]. f_equal. lia.
Qed.
Lemma assign_cache_nz_pca p g sc : 0 <= g < 2 ^ 64 -> 0 <= sc < 2 ^ 72 ->
  pca (keys g sc 0 (2 * S L)) (assign_cache_point_non_zero I p g sc) (fun _ => True).
Proof.
  intros Hg Hs. unfold assign_cache_point_non_zero.
  eapply (pca_bind (keys g sc 0 (S L)) (keys g sc (0 + Z.of_nat L + 1) (S L))).
  - apply assign_cache_integer_pca; auto; lia.
  - intros i ->. eapply pca_bind; [apply assign_cache_integer_pca; auto; lia|intros o _; apply pca_ret; exact Logic.I| | |].
    + intros e _ [].
    + intros e H; exact H.
    + intros e [].
  - apply keys_disj; auto; lia.
  - intros e (k & Hk & ->). exists k. split; [lia|auto].
  - intros e (k & Hk & ->). exists (S L + k)%nat. split; [lia|]. f_equal. lia.
Qed.

(** ** The candidates *)
Variable prefix : Z.
Hypothesis P_range : 0 <= prefix < 2 ^ 40.
Local Notation cache := (fun (gi i : nat) p => assign_cache_point_non_zero I p (prefix + Z.of_nat gi) (Z.of_nat i)).
Definition gkeys (g n : nat) (e : Z) : Prop := exists i, (i < n)%nat /\ keys (prefix + Z.of_nat g) (Z.of_nat i) 0 (2 * S L) e.
Lemma small_nat i : (i < 32)%nat -> 0 <= Z.of_nat i < 2 ^ 72. Proof. lia. Qed.
Lemma keys_inj g i g' i' : 0 <= g < 2 ^ 64 -> 0 <= g' < 2 ^ 64 -> 0 <= i < 2 ^ 72 -> 0 <= i' < 2 ^ 72 ->
  forall e, keys g i 0 (2 * S L) e -> keys g' i' 0 (2 * S L) e -> g = g' /\ i = i'.
Proof. intros Hg Hg' Hi Hi' e (k & Hk & E) (k' & Hk' & E'). rewrite E in E'. apply entry_code_inj in E'; auto; lia. Qed.

Lemma group_candidates_uca g init chunk : Z.of_nat g < 2 ^ 20 -> (length chunk <= 5)%nat ->
  uca (gkeys g 32) (group_candidates I (cache g) init chunk).
Proof.
  intros Hg H5. unfold group_candidates. assert (P5 : (2 ^ length chunk <= 32)%nat) by (change 32%nat with (2 ^ 5)%nat; apply Nat.pow_le_mono_r; lia).
  eapply (uca_bind (keys (prefix + Z.of_nat g) 0 0 (2 * S L)) (fun e => exists i, In i (seq 1 (2 ^ length chunk - 1)) /\ keys (prefix + Z.of_nat g) (Z.of_nat i) 0 (2 * S L) e)).
  - apply assign_cache_nz_pca; lia.
  - intros u _. apply (uca_ufoldM _ (fun i => keys (prefix + Z.of_nat g) (Z.of_nat i) 0 (2 * S L))).
    + intros cl i Hi. apply in_seq in Hi. cbv zeta. apply uca_nc_bind; [nca|intros a]. apply uca_nc_bind; [nca|intros q].
      apply uca_ubind_l; [apply uca_nc; nca|intros p]. apply uca_nc_bind; [nca|intros p'].
      eapply uca_bind; [apply assign_cache_nz_pca; lia|intros _ _; apply uca_nc; nca| | |]; unfold disj, sub_, none; try tauto.
    + apply seq_NoDup.
    + intros x y Hx Hy Ne e H1 H2. apply in_seq in Hx, Hy. apply Ne. apply Nat2Z.inj. eapply (keys_inj (prefix + Z.of_nat g) _ (prefix + Z.of_nat g)); [| | | |exact H1|exact H2]; lia.
  - intros e H1 (i & Hi & H2). apply in_seq in Hi. assert (0 = Z.of_nat i) by (eapply (keys_inj (prefix + Z.of_nat g) _ (prefix + Z.of_nat g)); [| | | |exact H1|exact H2]; lia). lia.
  - intros e H. exists 0%nat. split; [lia|exact H].
  - intros e (i & Hi & H). apply in_seq in Hi. exists i. split; [lia|exact H].
Qed.
(** All keys of one multiplication. *)
Definition msm_keys (e : Z) : Prop := exists g i k, 0 <= g < 2 ^ 20 /\ 0 <= i < 32 /\ 0 <= k < 2 * (Z.of_nat L + 1) /\ e = entry_code (prefix + g) i k.
Lemma all_candidates_uca line ln groups : Z.of_nat (length groups) <= 2 ^ 20 -> Forall (fun g : list anz => (length g <= 5)%nat) groups ->
  uca msm_keys (all_candidates I cache line ln groups).
Proof.
  intros HG H5. unfold all_candidates. eapply uca_wk; [apply (uca_ufoldM _ (fun gc => gkeys (fst gc) 32))|].
  - intros cs [g chunk] Hin. cbn [fst snd]. cbv zeta. apply uca_ubind_r; [|intros; apply uca_nc; nca].
    apply group_candidates_uca; [apply in_combine_l in Hin; apply in_seq in Hin; lia|].
    rewrite Forall_forall in H5. apply H5. apply in_combine_r in Hin. exact Hin.
  - apply (NoDup_map_inv fst). assert (E : map fst (combine (seq 0 (length groups)) groups) = seq 0 (length groups)).
    { generalize 0%nat. clear. induction groups as [|g gs IH]; intros s; cbn; [reflexivity|]. f_equal. apply IH. }
    rewrite E. apply seq_NoDup.
  - intros [g c1] [g' c2] H1 H2 Ne e (i & Hi & K1) (i' & Hi' & K2). cbn [fst] in *.
    assert (Z.of_nat g < 2 ^ 20 /\ Z.of_nat g' < 2 ^ 20) as [B1 B2].
    { apply in_combine_l in H1, H2. apply in_seq in H1, H2. lia. }
    assert (E : prefix + Z.of_nat g = prefix + Z.of_nat g') by (apply (keys_inj _ (Z.of_nat i) _ (Z.of_nat i')) with (e := e); auto; lia).
    assert (g = g') as -> by lia. apply Ne. f_equal.
    assert (X : forall s (gs : list (list anz)) c, In (g', c) (combine (seq s (length gs)) gs) -> nth_error gs (g' - s) = Some c /\ (s <= g')%nat).
    { clear. intros s gs. revert s. induction gs as [|x gs IH]; intros s c H; cbn in H; [contradiction|]. destruct H as [H|H].
      - injection H as -> ->. rewrite Nat.sub_diag. auto.
      - apply IH in H as [H H']. split; [|lia]. replace (g' - s)%nat with (S (g' - S s)) by lia. exact H. }
    apply X in H1 as [H1 _]. apply X in H2 as [H2 _]. congruence.
  - intros e ([g chunk] & Hin & i & Hi & k & Hk & ->). cbn [fst]. apply in_combine_l, in_seq in Hin.
    exists (Z.of_nat g), (Z.of_nat i), (Z.of_nat k). split; [lia|]. split; [lia|]. split; [lia|]. try (f_equal; lia).
Qed.

Lemma nc_ufoldM {X S} (f : S -> X -> M (uresult S)) l s : (forall s x, nc (f s x)) -> nc (ufoldM f s l).
Proof.
  intros H. revert s. induction l as [|x l IH]; intros s; cbn [ufoldM]; [apply nc_ret|].
  unfold ubind. apply nc_bind; auto. intros [y|e]; [auto|apply nc_ret].
Qed.
Lemma nc_window_body pick an cands groups wi : (forall g cs bs, nc (pick g cs bs)) -> nc (window_body I pick an cands groups wi).
Proof.
  intros Hp. unfold window_body. apply nc_ufoldM. intros acc gi. apply nc_bind; [nca|intros g]. apply nc_bind; [nca|intros bs].
  apply nc_bind; [nca|intros cs]. apply nc_bind; [auto|intros ci]. nca.
Qed.

Lemma msm_batch_uca {S} (dec : S -> M (list (list acond))) pick cch cv_b best points scalars ra rl E :
  (forall s, nc (dec s)) -> (forall g cs bs, nc (pick g cs bs)) -> (forall g cs bs, appends (pick g cs bs)) ->
  (forall line ln groups, Z.of_nat (length groups) <= Z.of_nat (length points) -> Forall (fun g : list anz => (length g <= best)%nat) groups -> uca E (all_candidates I cch line ln groups)) ->
  uca E (msm_batch I cv_b dec pick cch best points scalars ra rl).
Proof.
  intros Hd Hp Ha HC. unfold msm_batch.
  eapply (uca_bind none E E _ _ (fun pts => length pts = length points)); [| |unfold disj, none; tauto|unfold sub_, none; tauto|unfold sub_; auto].
  { intros c x c' W H. assert (N : nc (mapM (ecc_reduce_non_zero I) points)) by nca. destruct (pca_nc _ N c x c' W H) as (W' & C & _).
    split; [auto|]. split; [auto|]. clear - H. revert c x c' H. induction points as [|p ps IH]; intros c x c' H; cbn [mapM] in H.
    - injection H as <- _. reflexivity.
    - apply mbind_inv in H as (y & c1 & _ & H). apply mbind_inv in H as (ys & c2 & H1 & H). injection H as <- _. cbn. f_equal. eapply IH; eauto. }
  intros pts Lp. do 6 (apply uca_nc_bind; [nca|intros ?]). cbv zeta. apply uca_assert_k. intros NG.
  set (gs := ((length pts + _ - 1) / _)%nat).
  apply uca_ubind_r.
  - assert (N1 : ((length pts + best - 1) / best <> 0)%nat).
    { destruct ((length pts + best - 1) / best =? 0)%nat eqn:E0; [discriminate|apply Nat.eqb_neq; auto]. }
    assert (B1 : (best <> 0)%nat) by (intros KK; apply N1; rewrite KK; reflexivity).
    assert (GS1 : (1 <= gs)%nat).
    { unfold gs. apply Nat.div_le_lower_bound; [auto|]. destruct (length pts) eqn:Lq; [|lia]. exfalso. apply N1.
      apply Nat.div_small. lia. }
    assert (GSB : (gs <= best)%nat).
    { unfold gs. set (ng := ((length pts + best - 1) / best)%nat) in *.
      pose proof (Nat.div_mod (length pts + best - 1) best B1) as DM. fold ng in DM. pose proof (Nat.mod_upper_bound (length pts + best - 1) best B1).
      apply Nat.lt_succ_r. apply Nat.div_lt_upper_bound; [auto|]. nia. }
    apply HC.
    + pose proof (chunks_length_le gs pts GS1). lia.
    + eapply Forall_impl; [|apply chunks_size]. intros q Hq. cbv beta in Hq. lia.
  - intros cands. apply uca_nc_bind; [apply nc_mapM; auto|intros bits]. cbv zeta. apply uca_nth_k. intros bits0 Hb.
    apply uca_ubind_l.
    + apply uca_par_windows.
      * intros i. apply uapp_of, appends_window_body. auto.
      * intros i. apply uca_nc, nc_window_body. auto.
      * unfold gs. eapply par_side; eauto.
    + intros lines. apply uca_ubind_l.
      * apply uca_ufoldM_none. intros acc wi. apply uca_ubind_l; [apply uca_nc; nca|intros acc1]. apply uca_nc_bind; [nca|intros l].
        apply uca_ubind_l; [apply uca_nc; nca|intros acc2]. destruct (Nat.odd _); apply uca_nc; nca.
      * intros acc. do 4 (apply uca_nc_bind; [nca|intros ?]). apply uca_nc; nca.
Qed.
End Cache.

(** ** One multiplication *)
Section MsmCache.
Context {NM : NMod}.
Variable I : rinfo.
Local Notation L := (ri_limbs I).
Hypothesis N200 : 2 ^ 200 <= nmod.
Hypothesis L62 : Z.of_nat L < 2 ^ 62.

Lemma msm_some_pca {S} (dec : S -> M (list (list acond))) bis zero cv_b gen ra rl prefix points scalars :
  0 <= prefix -> (forall s, nc (dec s)) -> (forall c s t, nc (bis c s t)) -> nc zero ->
  pca (msm_keys I prefix) (msm I cv_b dec bis zero gen ra rl (Some prefix) points scalars)
      (fun x => prefix < MSM_LIMIT /\ snd x = Some (prefix + MSM_PREFIX_OFFSET)).
Proof.
  intros P0 Hd Hb Hz c x c' W E. unfold msm, msm_unsafe in E.
  apply mbind_inv in E as (q & c1 & E & E2). apply mbind_inv in E as (n & c2 & E3 & E). apply mbind_inv in E as (z & c3 & E4 & E).
  apply mbind_inv in E as (l & c4 & E5 & E). apply mbind_inv in E as (q0 & c5 & E6 & E).
  injection E as <- <-. destruct q0 as [q0|e]; [|discriminate]. cbn in E2. injection E2 as <- <-. cbn [snd].
  destruct (pca_nc _ (ltac:(nca) : nc (assign_non_zero_point I cv_b gen)) _ _ _ W E3) as (W2 & C2 & _).
  destruct (pca_nc _ Hz _ _ _ W2 E4) as (W3 & C3 & _).
  destruct (pca_nc _ (ltac:(nca) : nc (mapM (fun ps => s <- bis (p_z (fst ps)) z (snd ps) ;; p <- ecc_bisec_to_non_zero_point I (fst ps) n ;; mret (p, s)) (combine points scalars))) _ _ _ W3 E5) as (W4 & C4 & _).
  unfold msm_batch_on_group_non_zero_with_select_chip in E6.
  apply mbind_inv in E6 as ([] & c6 & A1 & E6). apply massert_inv in A1 as [A1 ->].
  apply mbind_inv in E6 as ([] & c7 & A2 & E6). apply massert_inv in A2 as [A2 ->]. apply Z.leb_le in A1. apply Z.ltb_lt in A2.
  assert (PR : 0 <= prefix < 2 ^ 40) by (unfold MSM_LIMIT, MSM_PREFIX_OFFSET in A2; lia).
  assert (U : uca (msm_keys I prefix) (msm_batch I cv_b dec
    (fun gi cs bits => r <- pick_candidate_non_zero cs bits ;; assign_selected_point_non_zero I (snd r) (fst r) (Z.of_nat gi + prefix))
    (fun gi i p => assign_cache_point_non_zero I p (prefix + Z.of_nat gi) (Z.of_nat i)) 5 (map fst l) (map snd l) ra rl)).
  { apply (msm_batch_uca I N200 prefix PR); auto.
    - intros; nca.
    - intros; app.
    - intros line ln groups HG HF. apply all_candidates_uca; auto. unfold MSM_PREFIX_OFFSET in A1. lia. }
  destruct (U _ _ _ W4 E6) as (W5 & C5). split; [exact W5|]. split; [|auto].
  assert (X : forall E a b c0, ca none a b -> ca E b c0 -> ca E a c0) by (intros; eapply ca_trans; eauto; unfold none; tauto).
  eapply X; [exact C2|]. eapply X; [exact C3|]. eapply X; [exact C4|exact C5].
Qed.
End MsmCache.
