(** Honest runs of the two ways in which the multi-scalar multiplication picks a
    candidate: by conditional swaps and by the select chip. *)
From Verif Require Import Prelude FieldZ Circuit Context Spec Logic ModArith Prims BaseChip BaseProofs
  RangeInfo RangeChip IntegerChip SpecInt InfoProofs IntArith RangeProofs IntInv IntSound IntComplete IntBridge
  IntRes EccChip SpecEcc Curve EccArith EccProofs EccHonest EccEncode ScalarChip Msm ParWindows MsmProofs MsmSound
  SpecSelect SelectProofs SelectMsm HonestLogic HonestMsm.

Lemma PT_foldM {NM : NMod} {X S} c (f : S -> X -> M S) (J : list X -> S -> ctx -> Prop) l s :
  wf c -> J [] s c ->
  (forall pre x post s c', l = pre ++ x :: post -> wf c' -> extends c c' -> J pre s c' -> PT c' (f s x) (J (pre ++ [x]))) ->
  PT c (foldM f s l) (J l).
Proof.
  intros W H0 Hf.
  assert (G : forall post pre s c', l = pre ++ post -> wf c' -> extends c c' -> J pre s c' -> PT c' (foldM f s post) (J l)).
  { induction post as [|x post IH]; intros pre s' c' E W' X' H.
    - cbn [foldM]. rewrite app_nil_r in E. subst. apply PT_ret; auto.
    - cbn [foldM]. eapply PT_bind; [eapply Hf; eauto|]. intros s1 c1 W1 X1 H1.
      apply (IH (pre ++ [x])); auto; [rewrite <- app_assoc; exact E|eapply extends_trans; eauto]. }
  apply (G l []); auto using extends_refl.
Qed.
Lemma PT_foldM_seq {NM : NMod} {S} c (f : S -> nat -> M S) (J : nat -> S -> ctx -> Prop) n s :
  wf c -> J 0%nat s c ->
  (forall i s c', (i < n)%nat -> wf c' -> extends c c' -> J i s c' -> PT c' (f s i) (J (Datatypes.S i))) ->
  PT c (foldM f s (seq 0 n)) (J n).
Proof.
  intros W H0 Hf. eapply PT_weaken; [apply (PT_foldM c f (fun pre s c' => J (length pre) s c')); auto|].
  - intros pre x post s' c' E W' X' H. destruct (nth_seq_pre _ _ _ _ _ E) as [-> L]. cbn [Nat.add].
    eapply PT_weaken; [apply Hf; auto|]. intros x c2 _ _ Hx. rewrite app_length, Nat.add_comm. exact Hx.
  - intros x c' _ _. cbv beta. rewrite seq_length. auto.
Qed.

Section S.
Context {NM : NMod}.
Variable w : Z.
Variable I : rinfo.
Hypothesis IO : info_ok w I.
Hypothesis n_prime : prime nmod.
Hypothesis w_prime : prime w.
Variable cv_b : Z.
Local Notation L := (ri_limbs I).
Local Notation vn := (vn w I cv_b).

(** *** Conditional swaps *)
Lemma bisec_pairs_P bit : forall k cs c, (length cs <= k)%nat -> wf c -> bitv c bit -> Forall (vn c) cs ->
  PT c (bisec_pairs I bit cs) (fun r c' => Forall (vn c') r).
Proof.
  induction k as [|k IH]; intros cs c Lk W B F; (destruct cs as [|a0 [|a1 cs]]; cbn [bisec_pairs]; [apply PT_ret; auto|intros x c' E; discriminate|]); [cbn in Lk; lia|].
  inversion_clear F as [|? ? V0 F']. inversion_clear F' as [|? ? V1 F].
  eapply PT_bind; [eapply (bisec_P w I IO n_prime); eauto|]. intros p c1 W1 E1 Vp.
  eapply PT_bind; [apply IH; [cbn in Lk; lia|auto|eapply bitv_mono; eauto|eapply Fvn_mono; eauto]|]. intros ps c2 W2 E2 Fp.
  apply PT_ret; [auto|]. constructor; [eapply vn_mono; eauto|exact Fp].
Qed.
Lemma bisec_pick_P c cs bits : wf c -> Forall (vn c) cs -> Forall (bitv c) bits ->
  PT c (bisec_candidate_non_zero I cs bits) (fun r c' => vn c' r).
Proof.
  intros W F B. unfold bisec_candidate_non_zero.
  eapply PT_bind; [apply (PT_foldM c _ (fun _ cs c' => Forall (vn c') cs)); auto|].
  - intros pre x post cs' c' E W' X' H. eapply (bisec_pairs_P x (length cs')); auto. eapply bitv_mono; [exact X'|].
    rewrite Forall_forall in B. apply B. rewrite E. apply in_or_app. right. left. reflexivity.
  - intros cs' c1 W1 E1 F1. apply PT_assert_k. intros _. intros x c2 E. apply mopt_inv in E as [E ->].
    split; [auto|]. split; [apply extends_refl|]. split; [apply step_refl|]. exact (Forall_nth _ _ _ _ F1 E).
Qed.

(** *** Select chip *)
Definition hcached (c : ctx) (g sc off : Z) (hs : list av) : Prop :=
  forall k h, nth_error hs k = Some h -> cached c (encode_offset g sc (off + Z.of_nat k)) (a_val h).
Lemma cached_rext c d e v : rext c d -> cached c e v -> cached d e v.
Proof.
  intros (e' & E & [M _]) H. apply (cached_mono _ _ _ _ E) in H as (r & (U & H1 & H2) & H3). exists r. unfold cache_row, used, fixv in *. rewrite <- M. auto.
Qed.
Lemma hcached_rext c d g sc off hs : rext c d -> hcached c g sc off hs -> hcached d g sc off hs.
Proof. intros E H k h Hk. eapply cached_rext; eauto. Qed.
Lemma hcached_mono c d g sc off hs : extends c d -> hcached c g sc off hs -> hcached d g sc off hs.
Proof. intros E. apply hcached_rext, rext_of, E. Qed.
Lemma hcached_app c g sc off a b : hcached c g sc off a -> hcached c g sc (off + Z.of_nat (length a)) b -> hcached c g sc off (a ++ b).
Proof.
  intros H1 H2 k h Hk. destruct (Nat.lt_ge_cases k (length a)) as [Lk|Lk].
  - rewrite nth_error_app1 in Hk by auto. apply H1; auto.
  - rewrite nth_error_app2 in Hk by auto. specialize (H2 _ _ Hk). replace (off + Z.of_nat k) with (off + Z.of_nat (length a) + Z.of_nat (k - length a)) by lia. exact H2.
Qed.
Lemma hcached_split c g sc off a b : hcached c g sc off (a ++ b) -> hcached c g sc off a /\ hcached c g sc (off + Z.of_nat (length a)) b.
Proof.
  intros H. split; intros k h Hk.
  - apply H. rewrite nth_error_app1; [exact Hk|]. apply nth_error_Some. congruence.
  - replace (off + Z.of_nat (length a) + Z.of_nat k) with (off + Z.of_nat (length a + k)) by lia. apply H.
    rewrite nth_error_app2 by lia. replace (length a + k - length a)%nat with k by lia. exact Hk.
Qed.
Lemma n1 : 1 < nmod. Proof. pose proof (n_pos n_prime). lia. Qed.

Lemma cache_integer_P c p sc g off : wf c -> hok I c p ->
  PT c (assign_cache_integer I p sc g off) (fun r c' => i_times p = 1 /\ r = off + Z.of_nat L + 1 /\ hcached c' g sc off (ihs p)).
Proof.
  intros W [V1 V2 V3]. pose proof n1. pose proof (wf_len _ _ _ V3) as HL.
  unfold assign_cache_integer. apply PT_assert_k. intros H1. apply Z.eqb_eq in H1.
  eapply PT_bind; [apply (PT_foldM_seq c _ (fun k o c' => o = off + Z.of_nat k /\ hcached c' g sc off (firstn k (i_limbs p)))); [auto| |]|].
  - split; [cbn; lia|]. intros [|k] h; discriminate.
  - intros k o c1 Hk W1 E1 (-> & HJ). apply PT_nth_k. intros l Hl.
    eapply PT_bind; [apply PT_of, assign_cache_value_CT; auto; eapply valid_mono; [exact E1|]; eapply Forall_nth; eauto|].
    intros u c2 W2 E2 Hu. cbv beta in Hu. clear u. apply PT_ret; [auto|]. split; [lia|].
    assert (ES : firstn (S k) (i_limbs p) = firstn k (i_limbs p) ++ [l]).
    { clear - Hl. revert k Hl. induction (i_limbs p) as [|a q IH]; intros [|k] Hl; try discriminate; [injection Hl as ->; reflexivity|]. cbn [firstn app]. f_equal. apply IH. exact Hl. }
    rewrite ES. apply hcached_app; [eapply hcached_mono; eauto|]. intros [|j] h Hj; [|destruct j; discriminate]. injection Hj as <-.
    rewrite firstn_length, Z.add_0_r. replace (Nat.min k (length (i_limbs p))) with k by lia. exact Hu.
  - intros o c1 W1 E1 (-> & HJ). eapply PT_bind; [apply PT_of, assign_cache_value_CT; auto; eapply valid_mono; eauto|].
    intros u c2 W2 E2 Hu. cbv beta in Hu. clear u. apply PT_ret; [auto|]. split; [exact H1|]. split; [lia|].
    rewrite firstn_all2 in HJ by lia. unfold ihs. apply hcached_app; [eapply hcached_mono; eauto|].
    intros [|j] h Hj; [|destruct j; discriminate]. injection Hj as <-. rewrite Z.add_0_r, HL. exact Hu.
Qed.
Lemma selected_integer_P c p s g off : wf c -> hok I c p -> valid c s -> hcached c g (a_val s) off (ihs p) ->
  PT c (assign_selected_integer I p s g off) (fun r c' => i_times (fst r) = 1 /\ snd r = off + Z.of_nat L + 1
     /\ Forall (valid c') (ihs (fst r)) /\ map a_val (i_limbs (fst r)) = map a_val (i_limbs p) /\ a_val (i_native (fst r)) = a_val (i_native p)).
Proof.
  intros W [V1 V2 V3] Vs HC. pose proof n1. pose proof (wf_len _ _ _ V3) as HL. apply hcached_split in HC as [HC1 HC2].
  unfold assign_selected_integer.
  eapply PT_bind; [apply (PT_foldM_seq c _ (fun k st c' => snd st = off + Z.of_nat k /\ Forall (valid c') (fst st) /\ map a_val (fst st) = map a_val (firstn k (i_limbs p)))); [auto| |]|].
  - split; [cbn; lia|]. split; [constructor|reflexivity].
  - intros k st c1 Hk W1 E1 (H1 & H2 & H3). apply PT_nth_k. intros l Hl.
    eapply PT_bind; [apply PT_of, assign_selected_value_CT; auto|].
    { eapply valid_mono; [exact E1|]. eapply Forall_nth; eauto. }
    { eapply valid_mono; eauto. }
    { rewrite H1. eapply cached_mono; [exact E1|]. apply HC1. exact Hl. }
    intros v c2 W2 E2 [Vv Ev]. apply PT_ret; [auto|]. cbn [fst snd]. split; [lia|]. split.
    + apply Forall_app. split; [|constructor; auto]. eapply Forall_impl; [|exact H2]. intros a. apply valid_mono; auto.
    + assert (ES : firstn (S k) (i_limbs p) = firstn k (i_limbs p) ++ [l]).
      { clear - Hl. revert k Hl. induction (i_limbs p) as [|a q IH]; intros [|k] Hl; try discriminate; [injection Hl as ->; reflexivity|]. cbn [firstn app]. f_equal. apply IH. exact Hl. }
      rewrite ES, !map_app, H3. cbn [map]. rewrite Ev. reflexivity.
  - intros st c1 W1 E1 (H1 & H2 & H3). rewrite firstn_all2 in H3 by lia.
    eapply PT_bind; [apply PT_of, assign_selected_value_CT; auto|].
    { eapply valid_mono; [exact E1|]. exact V2. }
    { eapply valid_mono; eauto. }
    { rewrite H1. eapply cached_mono; [exact E1|]. specialize (HC2 0%nat _ eq_refl). rewrite HL, Z.add_0_r in HC2. exact HC2. }
    intros v c2 W2 E2 [Vv Ev]. apply PT_ret; [auto|]. cbn [fst snd i_limbs i_native i_times]. split; [reflexivity|]. split; [lia|]. split; [|auto].
    unfold ihs. cbn [i_limbs i_native]. apply Forall_app. split; [|constructor; auto]. eapply Forall_impl; [|exact H2]. intros a. apply valid_mono; auto.
Qed.
Lemma cr_same c c' x y r : cr w I c x r -> i_times x = 1 -> i_times y = 1 -> Forall (valid c') (ihs y) ->
  map a_val (i_limbs y) = map a_val (i_limbs x) -> a_val (i_native y) = a_val (i_native x) -> cr w I c' y r.
Proof.
  intros [(HO & HT & HV) V] T1 T2 F E1 E2. unfold ihs in F. apply Forall_app in F as [F1 F2]. inversion_clear F2.
  assert (EV : val a_val y = val a_val x) by (unfold val; rewrite E1; reflexivity).
  split; [|rewrite EV; exact V]. split; [|split; [lia|rewrite EV; intros _; apply HV; exact T1]].
  constructor; [exact F1|assumption|]. destruct HO as [_ _ [K1 K2 K3 K4 K5 K6]]. 
  constructor; unfold lv, val in *; rewrite ?E1, ?E2, ?T2, <- ?T1; auto; [|lia].
  rewrite <- K1. transitivity (length (map a_val (i_limbs y))); [rewrite map_length; auto|]. rewrite E1. apply map_length.
Qed.

Variable prefix : Z.
Definition KSel (c : ctx) (g i : nat) (p : anz) : Prop :=
  shape1 I p /\ hcached c (prefix + Z.of_nat g) (Z.of_nat i) 0 (nhs p).
Lemma KSel_rext c d g i p : rext c d -> KSel c g i p -> KSel d g i p.
Proof. intros E [H1 H2]. split; [exact H1|eapply hcached_rext; eauto]. Qed.
Lemma sel_cache_P c g i p : wf c -> vn c p ->
  PT c (assign_cache_point_non_zero I p (prefix + Z.of_nat g) (Z.of_nat i)) (fun _ c' => KSel c' g i p).
Proof.
  intros W (x & y & [[(H1 & _) _] [(H2 & _) _]] & _). unfold assign_cache_point_non_zero.
  pose proof (wf_len _ _ _ (hk_w _ _ _ H1)) as L1. pose proof (wf_len _ _ _ (hk_w _ _ _ H2)) as L2.
  eapply PT_bind; [apply cache_integer_P; auto|]. intros o c1 W1 E1 (T1 & -> & C1).
  eapply PT_bind; [apply cache_integer_P; [auto|eapply hok_mono; eauto]|]. intros o c2 W2 E2 (T2 & _ & C2).
  apply PT_ret; [auto|]. split; [unfold shape1; auto|]. unfold nhs. apply hcached_app; [eapply hcached_mono; eauto|].
  rewrite (ihs_len I _ L1). replace (0 + Z.of_nat (S L)) with (0 + Z.of_nat L + 1) by lia. exact C2.
Qed.
Lemma hlin_bits c : forall bits k, Forall (bitv c) bits -> exists ds, length ds = length bits
  /\ hlin (mapi_from k (fun i x => (x, fof (2 ^ Z.of_nat i))) bits) ≡ 2 ^ Z.of_nat k * Z.of_nat (index_of ds) ⟨nmod⟩.
Proof.
  induction bits as [|b bits IH]; intros k F; cbn [mapi_from hlin fold_right fst snd].
  - exists []. split; [reflexivity|]. cbn. apply eqm_eq. lia.
  - inversion_clear F as [|? ? (d & Vd & Ed) F']. destruct (IH (S k) F') as (ds & Ls & Es). exists (d :: ds). split; [cbn; congruence|].
    fold (hlin (mapi_from (S k) (fun i x => (x, fof (2 ^ Z.of_nat i))) bits)). rewrite Es, Ed. cbn [index_of].
    unfold fof. estrip. apply eqm_eq. rewrite Nat2Z.inj_succ, Z.pow_succ_r by lia. destruct d; cbn [Z.b2z Nat.b2n]; lia.
Qed.
Lemma sel_pick_P c g cs bits : wf c -> (length bits <= 5)%nat -> Forall (vn c) cs -> kc KSel c g cs -> Forall (bitv c) bits ->
  PT c (r <- pick_candidate_non_zero cs bits ;; assign_selected_point_non_zero I (snd r) (fst r) (Z.of_nat g + prefix)) (fun r c' => vn c' r).
Proof.
  intros W Lb F K B. unfold pick_candidate_non_zero.
  destruct bits as [|b0 bits0] eqn:EB.
  { intros r c' E. unfold mbind in E. cbn in E. discriminate. }
  rewrite <- EB in *. assert (Lp : (0 < length bits)%nat) by (rewrite EB; cbn; lia). clear EB b0 bits0.
  destruct (hlin_bits c bits 0 B) as (ds & Ls & Es).
  assert (BN : 32 <= nmod) by (apply (big_n w I); auto).
  assert (P5 : (2 ^ length ds <= 32)%nat) by (rewrite Ls; change 32%nat with (2 ^ 5)%nat; apply Nat.pow_le_mono_r; lia).
  pose proof (index_bound ds) as IB.
  assert (FV : Forall (fun e => valid c (fst e)) (mapi (fun i x => (x, fof (2 ^ Z.of_nat i))) bits)).
  { unfold mapi. clear - B. generalize 0%nat. induction B as [|b bits (d & Vd & _) B IH]; intros k; cbn [mapi_from]; constructor; auto. }
  assert (LM : length (mapi (fun i x => (x, fof (2 ^ Z.of_nat i))) bits) = length bits).
  { unfold mapi. generalize 0%nat. clear. induction bits as [|b bits IH]; intros k; cbn [mapi_from length]; auto. }
  eapply (PT_bind c _ _ (fun r c' => valid c' (fst r) /\ a_val (fst r) = Z.of_nat (index_of ds) /\ nth_error cs (index_of ds) = Some (snd r))).
  - eapply PT_bind; [apply PT_of, swc_CT; [exact n_prime|exact W|exact FV|unfold acond in *; rewrite LM; exact Lp|discriminate]|]. intros ix c1 W1 E1 [V1 H1]. cbv beta in H1.
    unfold mapi in H1. cbn [opt0] in H1. rewrite Es in H1. change (2 ^ Z.of_nat 0) with 1 in H1.
    assert (EI : a_val ix = Z.of_nat (index_of ds)).
    { apply (eqm_small nmod); [rewrite H1; apply eqm_eq; ring|apply V1|lia]. }
    apply PT_nth_k. intros ci Hci. apply PT_ret; [auto|]. cbn [fst snd]. split; [auto|]. split; [exact EI|].
    rewrite EI, Z.mod_small, Nat2Z.id in Hci by lia. exact Hci.
  - intros [ix p] c1 W1 E1 (V1 & EI & Hp). cbn [fst snd] in *.
    assert (Vp : vn c p) by (eapply Forall_nth; eauto). destruct (K _ _ Hp) as [(S1 & S2 & S3 & S4) KC].
    apply (hcached_mono _ _ _ _ _ _ E1) in KC. apply (vn_mono _ _ _ _ _ _ E1) in Vp.
    destruct Vp as (x & y & [Hx Hy] & C). unfold nhs in KC. apply hcached_split in KC as [K1 K2]. rewrite (ihs_len I _ S3) in K2.
    unfold assign_selected_point_non_zero.
    eapply PT_bind; [apply selected_integer_P; [auto|apply Hx|auto|rewrite EI, Z.add_comm; exact K1]|].
    intros r1 c2 W2 E2 (T1 & O1 & F1 & M1 & N1).
    eapply PT_bind; [apply selected_integer_P; [auto|eapply hok_mono; [exact E2|apply Hy]|eapply valid_mono; eauto|]|].
    { rewrite EI, Z.add_comm, O1. replace (0 + Z.of_nat L + 1) with (0 + Z.of_nat (S L)) by lia. eapply hcached_mono; eauto. }
    intros r2 c3 W3 E3 (T2 & O2 & F2 & M2 & N2). apply PT_ret; [auto|]. exists x, y. split; [|exact C]. split; cbn [nz_x nz_y].
    + eapply (cr_same c1 c3 (nz_x p)); eauto. eapply Forall_impl; [|exact F1]. intros a. apply valid_mono; auto.
    + eapply (cr_same c1 c3 (nz_y p)); eauto.
Qed.
End S.
