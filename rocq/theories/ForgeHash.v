(** The keccak gadget of a dishonest prover: with 1/2 in the cells of bit rows the state becomes
    1/2 everywhere in the first round and stays so, because 1/2 xor b = 1/2 for every b. *)
From Verif Require Import Prelude FieldZ Circuit Context Spec Logic ModArith Prims BaseChip BaseProofs
  RangeInfo RangeChip IntegerChip InfoProofs IntArith RangeProofs IntInv IntSound IntComplete
  ScalarChip SpecMsm ScalarProofs SpecShape Shape KeccakChip SpecKeccak SpecKeccakState KeccakPure KeccakProofs KeccakInst KeccakShape KeccakMain Forge ForgeDec.

Section H.
Context {NM : NMod}.
Hypothesis n_prime : prime nmod.
Hypothesis n_big : 2 < nmod.
Definition half : Z := (nmod + 1) / 2.
Lemma n_odd : nmod mod 2 = 1.
Proof.
  pose proof (Z.mod_pos_bound nmod 2 ltac:(lia)). destruct (Z.eq_dec (nmod mod 2) 0) as [E|E]; [|lia]. exfalso.
  apply Z.mod_divide in E; [|lia]. destruct (prime_divisors _ n_prime 2 E) as [K|[K|[K|K]]]; lia.
Qed.
Lemma half_spec : 2 * half = nmod + 1.
Proof. unfold half. pose proof n_odd. pose proof (Z.div_mod nmod 2 ltac:(lia)). replace (nmod + 1) with ((nmod / 2 + 1) * 2) by lia. rewrite Z.div_mul by lia. lia. Qed.
Lemma half_range : 0 <= half < nmod.
Proof. pose proof half_spec. lia. Qed.
Lemma half_twice : 2 * half ≡ 1 ⟨nmod⟩.
Proof. rewrite half_spec. unfold eqm. rewrite <- (Z.mod_small 1 nmod) at 2 by lia. rewrite Z.mod_mod by lia. replace (nmod + 1) with (1 + 1 * nmod) by lia. apply Z_mod_plus_full. Qed.
Definition hf (a : av) : Prop := a_val a = half.
Lemma is_half z : 0 <= z < nmod -> z ≡ half ⟨nmod⟩ -> z = half.
Proof. intros R H. apply (eqm_small nmod); auto using half_range. Qed.
Lemma xor_half_l y : half + y - 2 * half * y ≡ half ⟨nmod⟩.
Proof. rewrite half_twice. apply eqm_eq. ring. Qed.

Lemma xor_H c a b : wf c -> valid c a -> valid c b -> CT c (xor_ a b) (fun r c' => valid c' r /\ (hf a \/ hf b -> hf r)).
Proof.
  intros W Va Vb. eapply CT_weaken; [apply xor_CT; auto|]. intros r c' _ _ [V E]. split; [exact V|]. intros H. apply is_half; [apply V|]. rewrite E. unf. estrip.
  destruct H as [-> | ->].
  - rewrite <- (xor_half_l (a_val b)) at 3. apply eqm_eq. ring.
  - rewrite <- (xor_half_l (a_val a)) at 3. apply eqm_eq. ring.
Qed.
Lemma not_H c a : wf c -> valid c a -> CT c (not_ a) (fun r c' => valid c' r /\ (hf a -> hf r)).
Proof.
  intros W Va. eapply CT_weaken; [apply not_CT; auto|]. intros r c' _ _ [V E]. split; [exact V|]. intros H. apply is_half; [apply V|]. rewrite E, H. unf. estrip.
  rewrite <- half_twice. apply eqm_eq. ring.
Qed.
Definition hs (k : bool) (c : ctx) (l : list acond) : Prop := vl c l /\ (k = true -> Forall hf l).
Lemma hs_mono k c c' l : extends c c' -> hs k c l -> hs k c' l.
Proof. intros E [H K]. split; [eapply vl_mono; eauto|exact K]. Qed.
Lemma hs_weaken c l : vl c l -> hs false c l.
Proof. intros H. split; [exact H|discriminate]. Qed.
Lemma xor_lanes_H k j c a b : wf c -> hs k c a -> hs j c b -> CT c (xor_lanes a b) (fun r c' => hs (k || j) c' r).
Proof.
  intros W [[La Fa] Ka] [[Lb Fb] Kb]. unfold xor_lanes.
  eapply CT_weaken; [apply (CT_mapM c _ _ (fun _ r c' => valid c' r /\ ((k || j)%bool = true -> hf r)) W)|].
  - intros x y c1 c2 [V H] E. split; [eapply valid_mono; eauto|exact H].
  - intros p c' Hp W' E'. destruct (In_combine_valid _ _ _ _ Fa Fb Hp) as [V1 V2].
    eapply CT_weaken; [apply xor_H; eauto using valid_mono|]. intros r c2 _ _ [V H]. split; [exact V|]. intros KJ. apply H. destruct p as [x y]. cbn [fst snd].
    apply Bool.orb_true_iff in KJ as [K|K].
    + left. specialize (Ka K). rewrite Forall_forall in Ka. apply Ka. eapply in_combine_l; eauto.
    + right. specialize (Kb K). rewrite Forall_forall in Kb. apply Kb. eapply in_combine_r; eauto.
  - intros r c' _ _ F. pose proof (F2_length _ _ _ F) as L. rewrite combine_length in L. unfold acond in *. rewrite La, Lb in L. split; [split; [symmetry; exact L|]|].
    + apply F2_Forall_r in F. eapply Forall_impl; [|exact F]. intros a0 [V _]. exact V.
    + intros K. apply F2_Forall_r in F. eapply Forall_impl; [|exact F]. intros a0 [_ H]. exact (H K).
Qed.
Lemma hs_rotate k i c l : hs k c l -> hs k c (rotate_left i l).
Proof.
  intros [V H]. split; [apply vl_rotate; exact V|]. intros K. specialize (H K). unfold rotate_left. rewrite <- (firstn_skipn i l) in H. apply Forall_app in H as [H1 H2]. apply Forall_app; auto.
Qed.
Lemma hs_rev_bytes k c l : hs k c l -> hs k c (rev_bytes l).
Proof.
  intros [V H]. split; [apply vl_rev_bytes; exact V|]. intros K. specialize (H K). unfold rev_bytes. apply Forall_concat'. apply Forall_rev. apply Forall_concat_inv. unfold acond in *. rewrite chunks_concat by lia. exact H.
Qed.
(** The whole state is 1/2. *)
Definition hst (c : ctx) (st : kstate) : Prop := all5 (all5 (hs true c)) st.
Lemma hst_mono c c' st : extends c c' -> hst c st -> hst c' st.
Proof. intros E. apply all5_impl. intros p. apply all5_impl. intros l. apply hs_mono; auto. Qed.
Lemma hst_lane c st x y : hst c st -> (x < 5)%nat -> (y < 5)%nat -> hs true c (lane st x y).
Proof. intros H Hx Hy. unfold lane. apply all5_nth; auto. apply all5_nth; auto. Qed.
Lemma hst_vst c st : hst c st -> vst c st.
Proof. apply all5_impl. intros p. apply all5_impl. intros l [H _]. exact H. Qed.
Lemma hst_set c st x y l : hst c st -> (x < 5)%nat -> hs true c l -> hst c (set_lane x y l st).
Proof. intros H Hx Hl. unfold set_lane. apply all5_set; auto. apply all5_set; auto. apply all5_nth; auto. Qed.
Lemma rho_pi_hst c st : hst c st -> hst c (rho_and_pi st).
Proof.
  intros H. unfold rho_and_pi.
  assert (G : forall l s, (forall i, In i l -> i < 24)%nat -> hst c (fst s) /\ hs true c (snd s) ->
    let r := fold_left (fun s i => let px := (nth i PI 0 mod 5)%nat in let py := (nth i PI 0 / 5)%nat in
      (set_lane px py (rotate_left (nth i RHO 0%nat) (snd s)) (fst s), lane (fst s) px py)) l s in hst c (fst r) /\ hs true c (snd r)).
  { induction l as [|i l IH]; intros s Hi [H1 H2]; [split; auto|]. cbn [fold_left]. apply IH; [intros j Hj; apply Hi; right; exact Hj|]. cbv zeta. cbn [fst snd].
    assert (Hp : (nth i PI 0 < 25)%nat).
    { specialize (Hi i (or_introl eq_refl)). do 24 (destruct i as [|i]; [cbn; lia|]). lia. }
    assert (nth i PI 0 mod 5 < 5)%nat by (apply Nat.mod_upper_bound; lia).
    assert (nth i PI 0 / 5 < 5)%nat by (apply Nat.div_lt_upper_bound; lia).
    split; [apply hst_set; auto; apply hs_rotate; auto|apply hst_lane; auto]. }
  apply (G (seq 0 24) (st, lane st 1 0)); [intros i Hi; apply in_seq in Hi; lia|]. split; [exact H|]. apply hst_lane; auto; lia.
Qed.

(** Three lanes are 1/2. *)
Definition h123 (st : kstate) : Prop := forall x, (1 <= x <= 3)%nat -> Forall hf (lane st x 0).
Definition mid (x : nat) : bool := ((1 <=? x) && (x <=? 3))%nat.
Lemma mid_true x : mid x = true -> (1 <= x <= 3)%nat.
Proof. unfold mid. intros H. apply andb_prop in H as [H1 H2]. apply Nat.leb_le in H1, H2. lia. Qed.
Lemma mid_near x : (x < 5)%nat -> (mid ((x + 4) mod 5) || mid ((x + 1) mod 5))%bool = true.
Proof. intros H. do 5 (destruct x as [|x]; [reflexivity|]). lia. Qed.
Lemma hst_123 c st : hst c st -> h123 st.
Proof. intros H x Hx. apply (hst_lane c st x 0 H); [lia|lia|reflexivity]. Qed.
Lemma theta_H c st : wf c -> vst c st -> h123 st -> CT c (theta st) (fun r c' => hst c' r).
Proof.
  intros W H H3. unfold theta. eapply CT_bind; [apply (CT_mapM_seq _ (fun x r c' => hs (mid x) c' r) 0 5 c W)|].
  - intros x y c1 c2 K E. eapply hs_mono; eauto.
  - intros x c' Hx W' E'.
    assert (G : forall l ci c1, (forall i, In i l -> (i < 5)%nat) -> wf c1 -> extends c c1 -> hs (mid x) c1 ci ->
      CT c1 (foldM (fun ci i => xor_lanes ci (lane st x i)) ci l) (fun r c' => hs (mid x) c' r)).
    { induction l as [|i l IH]; intros ci c1 Hl W1 E1 V1; [apply CT_ret; auto|]. cbn [foldM].
      eapply CT_bind; [apply (xor_lanes_H (mid x) false); [exact W1|exact V1|apply hs_weaken; eapply vl_mono; [exact E1|]; apply vst_lane; [auto|lia|apply Hl; left; reflexivity]]|].
      intros r c2 W2 E2 V2. cbv beta in V2. rewrite Bool.orb_false_r in V2. apply IH; auto; [intros j Hj; apply Hl; right; exact Hj|]. eapply extends_trans; eauto. }
    apply G; auto; [intros i [<-|[<-|[<-|[<-|[]]]]]; lia|]. split; [eapply vl_mono; [exact E'|]; apply vst_lane; auto; lia|]. intros K. apply H3. apply mid_true. exact K.
  - intros cc c1 W1 E1 [LC HC].
    assert (HN : forall x, (x < 5)%nat -> hs (mid x) c1 (nth x cc [])).
    { intros x Hx. destruct (HC x Hx) as (y & Hy & K). rewrite (nth_error_nth _ _ _ Hy). exact K. }
    apply (mapM_all5 c1 _ (fun c => all5 (hs true c))); [exact W1|intros c2 c3 p E; apply all5_impl; intros; eapply hs_mono; eauto|].
    intros x c2 Hx W2 E2. eapply CT_bind; [apply (xor_lanes_H (mid ((x + 4) mod 5)) (mid ((x + 1) mod 5))); [exact W2| |]|].
    + eapply hs_mono; [exact E2|]. apply HN. apply Nat.mod_upper_bound; lia.
    + eapply hs_mono; [exact E2|]. apply hs_rotate. apply HN. apply Nat.mod_upper_bound; lia.
    + intros di c3 W3 E3 V3. cbv beta in V3. rewrite (mid_near x Hx) in V3.
      apply (mapM_all5 c3 _ (hs true)); [exact W3|intros; eapply hs_mono; eauto|]. intros y c4 Hy W4 E4. apply (xor_lanes_H false true); [exact W4| |].
      * apply hs_weaken. eapply vl_mono; [|apply vst_lane; [exact H|auto|auto]]. eauto using extends_trans.
      * eapply hs_mono; eauto.
Qed.
Lemma xi_H c st : wf c -> hst c st -> CT c (xi st) (fun r c' => hst c' r).
Proof.
  intros W H. unfold xi. apply (mapM_all5 c _ (fun c => all5 (hs true c))); [exact W|intros c2 c3 p E; apply all5_impl; intros; eapply hs_mono; eauto|].
  intros x c1 Hx W1 E1. apply (mapM_all5 c1 _ (hs true)); [exact W1|intros; eapply hs_mono; eauto|]. intros y c2 Hy W2 E2.
  assert (V : forall x', (x' < 5)%nat -> hs true c2 (lane st x' y)) by (intros x' Hx'; eapply hs_mono; [|apply hst_lane; [exact H|auto|auto]]; eauto using extends_trans).
  assert (X1 : ((x + 1) mod 5 < 5)%nat) by (apply Nat.mod_upper_bound; lia). assert (X2 : ((x + 2) mod 5 < 5)%nat) by (apply Nat.mod_upper_bound; lia).
  destruct (V x Hx) as [[L0 F0] K0], (V _ X1) as [[L1 F1] _], (V _ X2) as [[L2 F2] _]. specialize (K0 eq_refl).
  eapply CT_weaken; [apply (CT_mapM c2 _ _ (fun _ r c' => valid c' r /\ hf r) W2)|].
  - intros p r c3 c4 [Vr Hr] E. split; [eapply valid_mono; eauto|exact Hr].
  - intros [a [b d]] c' Hp W' E'. cbn [fst snd]. pose proof (in_combine_l _ _ _ _ Hp) as Ia. apply in_combine_r in Hp.
    destruct (In_combine_valid _ _ _ _ F1 F2 Hp) as [Vb Vd]. cbn [fst snd] in Vb, Vd. rewrite Forall_forall in F0, K0. specialize (F0 _ Ia). specialize (K0 _ Ia).
    eapply CT_bind; [apply not_and_CT; eauto using valid_mono|]. intros t c3 W3 E3 [Vt _].
    eapply CT_weaken; [apply xor_H; eauto using valid_mono, extends_trans|]. intros r c4 _ _ [Vr Hr]. split; [exact Vr|]. apply Hr. left. exact K0.
  - intros r c' _ _ F. pose proof (F2_length _ _ _ F) as L. apply F2_Forall_r in F. unfold acond in *. rewrite !combine_length, L0, L1, L2 in L.
    split; [split; [symmetry; exact L|]|intros _]; (eapply Forall_impl; [|exact F]; intros a0 [V0 H0]; assumption).
Qed.
Lemma iota_H c st i : wf c -> hst c st -> CT c (iota st i) (fun r c' => hst c' r).
Proof.
  intros W H. unfold iota. destruct (hst_lane c st 0 0 H ltac:(lia) ltac:(lia)) as [[L F] K]. specialize (K eq_refl).
  eapply CT_bind; [apply (CT_mapM c _ _ (fun _ r c' => valid c' r /\ hf r) W)|].
  - intros p r c3 c4 [Vr Hr] E. split; [eapply valid_mono; eauto|exact Hr].
  - intros [z a] c' Hp W' E'. cbn [fst snd]. apply in_combine_r in Hp. rewrite Forall_forall in F, K. specialize (F _ Hp). specialize (K _ Hp). destruct (Z.testbit _ _).
    + eapply CT_weaken; [apply not_H; eauto using valid_mono|]. intros r c2 _ _ [V Hr]. auto.
    + apply CT_ret; eauto using valid_mono.
  - intros l c' W' E' F'. apply CT_ret; [exact W'|]. apply hst_set; [eapply hst_mono; eauto|lia|].
    pose proof (F2_length _ _ _ F') as L'. apply F2_Forall_r in F'. unfold acond in *. rewrite combine_length, seq_length, L in L'.
    split; [split; [symmetry; exact L'|]|intros _]; (eapply Forall_impl; [|exact F']; intros a0 [V0 H0]; assumption).
Qed.
Lemma permute_H c st : wf c -> vst c st -> h123 st -> CT c (permute st) (fun r c' => hst c' r).
Proof.
  intros W V H. unfold permute. eapply CT_weaken; [apply (CT_foldM_seq _ (fun i st c => vst c st /\ h123 st /\ ((0 < i)%nat -> hst c st)) 24 0 st c W)|].
  - split; [exact V|]. split; [exact H|lia].
  - intros i s c1 _ W1 E1 (V1 & H1 & _).
    eapply CT_bind; [apply theta_H; auto|]. intros s2 c2 W2 E2 V2. eapply CT_bind; [apply xi_H; auto; apply rho_pi_hst; exact V2|].
    intros s3 c3 W3 E3 V3. eapply CT_weaken; [apply iota_H; auto|]. intros s4 c4 _ _ V4. cbv beta in V4.
    split; [apply hst_vst; exact V4|]. split; [eapply hst_123; exact V4|auto].
  - intros s c1 _ _ (_ & _ & K). apply K. lia.
Qed.
Lemma lane_set st x y l x' y' c : vst c st -> (x < 5)%nat -> (y < 5)%nat ->
  lane (set_lane x y l st) x' y' = if ((x' =? x) && (y' =? y))%nat then l else lane st x' y'.
Proof.
  intros [L F] Hx Hy. unfold set_lane, lane. unfold kstate, acond in *. rewrite nth_set_nth by lia. destruct (Nat.eqb_spec x' x) as [->|N]; [|reflexivity].
  assert (L2 : length (nth x st []) = 5%nat). { rewrite Forall_forall in F. apply F. apply nth_In. lia. }
  rewrite nth_set_nth by lia. cbn [andb]. destruct (Nat.eqb_spec y' y); reflexivity.
Qed.
(** The first block: three of its lanes are 1/2. *)
Definition in123 (input : list acond) : Prop := Forall hf (skipn 64 (firstn 256 input)).
Lemma in123_lane input i : (1 <= i <= 3)%nat -> in123 input -> Forall hf (firstn 64 (skipn (64 * i) input)).
Proof.
  intros Hi H. unfold in123 in H.
  assert (E : firstn 64 (skipn (64 * i) input) = firstn 64 (skipn (64 * (i - 1)) (skipn 64 (firstn 256 input)))).
  { rewrite skipn_skipn. replace (64 * (i - 1) + 64)%nat with (64 * i)%nat by lia. rewrite !firstn_skipn_comm, firstn_firstn. f_equal. f_equal. lia. }
  rewrite E. apply Forall_firstn', Forall_skipn'. exact H.
Qed.
Lemma absorb_first c st input : wf c -> vst c st -> length input = ABSORB_BITS_RATE -> Forall (valid c) input -> in123 input -> CT c (absorb st input) (fun r c' => hst c' r).
Proof.
  intros W H L F HI. unfold absorb. apply CT_assert_k; [apply Nat.eqb_eq; exact L|].
  eapply CT_bind; [apply (CT_foldM_seq _ (fun k st c => vst c st /\ forall x, (1 <= x <= 3)%nat -> (x < k)%nat -> Forall hf (lane st x 0)) 17 0 st c W)|].
  - split; [exact H|]. intros; lia.
  - intros i s c1 Hi W1 E1 [V1 K1]. assert (i mod 5 < 5)%nat by (apply Nat.mod_upper_bound; lia). assert (i / 5 < 5)%nat by (apply Nat.div_lt_upper_bound; lia).
    eapply CT_bind; [apply (xor_lanes_H (mid i) false); [exact W1| |apply hs_weaken, vl_rev_bytes; apply vst_lane; auto]|].
    + split; [split|].
      * unfold acond in *; rewrite firstn_length, skipn_length, L; unfold ABSORB_BITS_RATE; lia.
      * eapply Forall_impl; [intros a; apply valid_mono; exact E1|]. unfold acond in *. apply Forall_firstn', Forall_skipn'. exact F.
      * intros K. apply in123_lane; [apply mid_true; exact K|exact HI].
    + intros l c2 W2 E2 V2. cbv beta in V2. rewrite Bool.orb_false_r in V2. apply CT_ret; [exact W2|]. pose proof (vst_mono _ _ _ E2 V1) as V1'.
      split; [apply vst_set; [exact V1'|auto|apply vl_rev_bytes; apply V2]|]. intros x Hx Hk. rewrite (lane_set s _ _ _ x 0 c2 V1') by auto.
      destruct (Nat.eqb_spec x (i mod 5)) as [E|N]; cbn [andb]; [destruct (Nat.eqb_spec 0 (i / 5)) as [E0|N0]|].
      * assert (i = x) by (pose proof (Nat.div_mod i 5 ltac:(lia)); lia). subst i. apply (hs_rev_bytes _ _ _ V2).
        unfold mid. apply andb_true_intro. split; apply Nat.leb_le; lia.
      * apply K1; [exact Hx|]. pose proof (Nat.div_mod i 5 ltac:(lia)). lia.
      * apply K1; [exact Hx|]. assert (x <> i); [|lia]. intros ->. apply N. symmetry. apply Nat.mod_small. lia.
  - intros s c1 W1 E1 [V1 K1]. apply permute_H; auto. intros x Hx. apply K1; [exact Hx|lia].
Qed.
Lemma absorb_H c st input : wf c -> hst c st -> length input = ABSORB_BITS_RATE -> Forall (valid c) input -> CT c (absorb st input) (fun r c' => hst c' r).
Proof.
  intros W H L F. unfold absorb. apply CT_assert_k; [apply Nat.eqb_eq; exact L|].
  eapply CT_bind; [apply (CT_foldM_seq _ (fun _ st c => hst c st) 17 0 st c W H)|].
  - intros i s c1 Hi W1 E1 V1. assert (i mod 5 < 5)%nat by (apply Nat.mod_upper_bound; lia). assert (i / 5 < 5)%nat by (apply Nat.div_lt_upper_bound; lia).
    eapply CT_bind; [apply (xor_lanes_H false true); [exact W1|apply hs_weaken|apply hs_rev_bytes; apply hst_lane; auto]|].
    + split; [unfold acond in *; rewrite firstn_length, skipn_length, L; unfold ABSORB_BITS_RATE; lia|].
      eapply Forall_impl; [intros a; apply valid_mono; exact E1|]. unfold acond in *. apply Forall_firstn', Forall_skipn'. exact F.
    + intros l c2 W2 E2 V2. apply CT_ret; [exact W2|]. apply hst_set; [eapply hst_mono; eauto|auto|apply hs_rev_bytes; exact V2].
  - intros s c1 W1 E1 V1. apply permute_H; auto; [apply hst_vst; exact V1|eapply hst_123; exact V1].
Qed.
Lemma absorb_all_H l : forall c st, wf c -> hst c st -> Forall (fun ch => length ch = ABSORB_BITS_RATE) l -> Forall (Forall (valid c)) l ->
  CT c (foldM absorb st l) (fun r c' => hst c' r).
Proof.
  induction l as [|ch l IH]; intros c st W H L F; cbn [foldM]; [apply CT_ret; auto|].
  inversion_clear L; inversion_clear F. eapply CT_bind; [apply absorb_H; auto|]. intros s c1 W1 E1 V1. apply IH; auto.
  eapply Forall_impl; [|eassumption]. intros x Hx. eapply Forall_impl; [|exact Hx]. intros a. apply valid_mono; auto.
Qed.
Lemma compose_H k : forall l c acc j, length l = (2 * k)%nat -> wf c -> valid c acc -> Forall (valid c) l -> Forall hf l -> 2 * a_val acc ≡ 4 ^ Z.of_nat j - 1 ⟨nmod⟩ ->
  CT c (compose_loop acc l) (fun r c' => valid c' r /\ 2 * a_val r ≡ 4 ^ Z.of_nat (j + k) - 1 ⟨nmod⟩).
Proof.
  induction k as [|k IH]; intros l c acc j L W V F FH H.
  - destruct l; [|discriminate]. apply CT_ret; [auto|]. rewrite Nat.add_0_r. auto.
  - destruct l as [|b1 [|b0 l]]; try (cbn in L; lia). cbn [compose_loop]. inversion_clear F as [|? ? V1 F']. inversion_clear F' as [|? ? V0 F].
    inversion_clear FH as [|? ? H1 FH']. inversion_clear FH' as [|? ? H0 FH].
    eapply CT_bind; [apply swc_CT; [assumption|assumption|repeat (constructor; [assumption|]); constructor|cbn; lia|discriminate]|].
    intros r c1 W1 E1 [V2 E2]. replace (j + S k)%nat with (S j + k)%nat by lia. apply IH; auto; [cbn in L; lia|eapply Forall_impl; [|exact F]; intros a; apply valid_mono; auto|].
    rewrite E2. cbn [hlin map fst snd opt0 fold_right]. unfold hlin. cbn [map fst snd fold_right]. rewrite H0, H1. unf. estrip.
    rewrite Nat2Z.inj_succ, Z.pow_succ_r by lia.
    transitivity (3 * (2 * half) + 4 * (2 * a_val acc)); [apply eqm_eq; ring|]. rewrite half_twice, H. apply eqm_eq. ring.
Qed.

(** The decomposition: 1/2 for the lower 192 bits, the rest in one digit. *)
Definition fdigits (i : nat) (v : Z) : Z * Z * Z :=
  if (i <? 96)%nat then (half, half, fmul (fsub v (fmul 3 half)) (fmul half half)) else (v, 0, 0).
Definition fu256_step (st : av * list acond) (i : nat) : M (av * list acond) :=
  let '(x0, x1, vn) := fdigits i (a_val (fst st)) in
  b0 <- forged_bit x0 ;;
  b1 <- forged_bit x1 ;;
  cells <- one_line_with_last [pu vn (fadd (fadd 1 1) (fadd 1 1)); pa b1 (fadd 1 1); pa b0 1]
             (pa (fst st) (fneg 1)) None [] None ;;
  v <- mnth (fst cells) 0 ;;
  mret (v, snd st ++ [b0; b1]).
Definition fdecompose (s : av) : M (list acond) :=
  r <- foldM fu256_step (s, []) (seq 0 (256 / 2)) ;;
  assert_constant (fst r) 0 ;;;
  mret (rev (snd r)).
Definition fhash (input : list av) : M av :=
  one <- assign_constant 1 ;;
  zero <- assign_constant 0 ;;
  st <- k_init ;;
  input_bits <- mapM fdecompose input ;;
  st <- foldM absorb st (chunks ABSORB_BITS_RATE (concat input_bits ++ k_padding one zero (length input * 256))) ;;
  compose_to_scalar_be (concat (map (fun x => rev_bytes (lane st x 0)) [0; 1; 2; 3]%nat)).
Lemma sr_fu256_step e st st' i : both sav slane st st' -> SR (both sav slane) (fu256_step st i) (u256_step e st' i).
Proof.
  intros H. unfold fu256_step, u256_step. cbv zeta. unfold acond in *. destruct (fdigits i (a_val (fst st))) as [[x0 x1] vn]. cbv beta iota.
  eapply SR_bind; [apply sr_forged_bit|]. intros b0 b0' H0. eapply SR_bind; [apply sr_forged_bit|]. intros b1 b1' H1. dst. sra.
Qed.
Lemma sr_fdecompose e s s' : sav s s' -> SR slane (fdecompose s) (decompose_u256_with e s').
Proof.
  intros H. unfold fdecompose, decompose_u256_with. eapply (SR_bind (both sav slane)).
  - eapply (SR_foldM_eq (both sav slane)); [split; [exact H|constructor]|]. intros a b i Hab. apply sr_fu256_step. exact Hab.
  - intros r r' [H1 H2]. eapply SR_bind; [apply sr_assert_constant; exact H1|]. intros _ _ _. apply SR_ret. apply F2_rev'. exact H2.
Qed.
Lemma sr_fhash l e : Forall2 (fun i j => sav i (snd j)) l e -> SR sav (fhash l) (hash_with e).
Proof.
  intros H. unfold fhash, hash_with. eapply SR_bind; [apply sr_assign_constant|]. intros one one' H1. eapply SR_bind; [apply sr_assign_constant|]. intros zero zero' H0.
  eapply SR_bind; [apply sr_k_init|]. intros st st' Hst. eapply (SR_bind (Forall2 slane)).
  - eapply SR_mapM; [exact H|]. intros x y Hxy. apply sr_fdecompose. exact Hxy.
  - intros b b' Hb. eapply (SR_bind sstate).
    + eapply (SR_foldM slane sstate); [|intros s t x y Hs Hx; apply sr_absorb; assumption|exact Hst].
      apply F2_chunks. apply Forall2_app; [apply F2_concat; exact Hb|]. rewrite (F2_len _ _ _ H). unfold k_padding. cbv zeta.
      destruct (Nat.eqb _ _); [repeat (constructor; [assumption|]); constructor|].
      apply Forall2_app; [repeat (constructor; [assumption|]); constructor|]. apply Forall2_app; [apply F2_repeat; assumption|repeat (constructor; [assumption|]); constructor].
    + intros s t Hs. unfold compose_to_scalar_be. eapply SR_bind; [apply SR_assert|]. intros _ _ _. eapply SR_bind; [apply sr_assign_constant|]. intros acc acc' Hacc.
      eapply sr_compose_loop; [reflexivity| |exact Hacc]. cbn [map concat]. repeat apply Forall2_app; try (apply F2_rev_bytes, F2_lane; exact Hs). constructor.
Qed.

Definition dinv (k : nat) (st : av * list acond) (c : ctx) : Prop :=
  valid c (fst st) /\ ((96 < k)%nat -> a_val (fst st) = 0) /\ Forall (valid c) (snd st) /\ length (snd st) = (2 * k)%nat /\ Forall hf (firstn 192 (snd st)).
Lemma fdigits_ok i v : 0 <= v < nmod -> let '(x0, x1, vn) := fdigits i v in
  0 <= x0 < nmod /\ 0 <= x1 < nmod /\ 0 <= vn < nmod /\ 4 * vn + 2 * x1 + x0 ≡ v ⟨nmod⟩ /\ ((96 <= i)%nat -> vn = 0) /\ ((i < 96)%nat -> x0 = half /\ x1 = half).
Proof.
  intros R. unfold fdigits. pose proof half_range as HR. destruct (Nat.ltb_spec i 96) as [H|H].
  - split; [exact HR|]. split; [exact HR|]. split; [unfold fmul; apply mod_range; exact n_prime|]. split; [|split; [lia|auto]].
    unf. estrip. transitivity ((v - 3 * half) * ((2 * half) * (2 * half)) + 3 * half); [apply eqm_eq; ring|]. rewrite half_twice. apply eqm_eq. ring.
  - split; [exact R|]. split; [lia|]. split; [lia|]. split; [apply eqm_eq; ring|]. split; [auto|lia].
Qed.
Lemma fu256_step_F c i st : wf c -> dinv i st c -> CTF c (fu256_step st i) (fun r c' => dinv (S i) r c').
Proof.
  intros W (V & Z0 & F & L & HH). unfold fu256_step. assert (RV : 0 <= a_val (fst st) < nmod) by apply V.
  pose proof (fdigits_ok i (a_val (fst st)) RV) as D. destruct (fdigits i (a_val (fst st))) as [[x0 x1] vn]. destruct D as (R0 & R1 & RN & EQ & DZ & DH).
  eapply CTF_bind; [apply forged_bit_CTF; auto|]. intros b0 c1 W1 E1 [V0 H0].
  eapply CTF_bind; [apply forged_bit_CTF; auto|]. intros b1 c2 W2 E2 [V1 H1]. apply CTF_of. pose proof (n_pos n_prime).
  assert (VV : valid c2 (fst st)) by eauto using valid_mono, extends_trans. assert (valid c2 b0) by eauto using valid_mono.
  eapply CT_bind; [apply CT_one_line_with_last; [assumption|cbn;lia|cbn;lia| |exact VV|]|].
  - constructor; [exact RN|]. constructor; [exact V1|]. constructor; [assumption|constructor].
  - unfold gate_sum, with_tail, tail_val, pair_val, pa, pu. cbn [map fst snd nth opt0 schema_val]. rewrite H0, H1, <- EQ. unf. estrip. apply eqm_eq. ring.
  - intros x c3 W3 E3 (-> & FV & _). cbn [fst] in FV. cbn [fst].
    destruct (nth_handles_valid _ _ _ 0%nat _ FV eq_refl) as [EN VN].
    eapply CT_nth_k; [exact EN|]. apply CT_ret; [exact W3|]. split; [exact VN|]. cbn [fst snd a_val pu schema_val]. split; [intros; apply DZ; lia|]. split; [|split].
    + apply Forall_app. split; [|constructor; [|constructor; [|constructor]]]; eauto using valid_mono, extends_trans.
      eapply Forall_impl; [|exact F]. intros a. apply valid_mono. eauto using extends_trans.
    + rewrite app_length. cbn [length]. unfold acond in *. lia.
    + unfold acond in *. rewrite firstn_app. apply Forall_app. split; [exact HH|]. rewrite L. destruct (Nat.lt_ge_cases i 96) as [K|K].
      * destruct (DH K) as [-> ->]. apply Forall_firstn'. constructor; [exact H0|constructor; [exact H1|constructor]].
      * replace (192 - 2 * i)%nat with 0%nat by lia. constructor.
Qed.
Lemma CTF_foldM_seq {S0} (f : S0 -> nat -> M S0) (J : nat -> S0 -> ctx -> Prop) k : forall s0 s c,
  wf c -> J s0 s c -> (forall i s c', wf c' -> extends c c' -> J i s c' -> CTF c' (f s i) (J (S i))) -> CTF c (foldM f s (seq s0 k)) (J (s0 + k)%nat).
Proof.
  induction k as [|k IH]; intros s0 s c W H0 Hf; cbn [seq foldM].
  - rewrite Nat.add_0_r. apply CTF_of. apply CT_ret; auto.
  - eapply CTF_bind; [apply Hf; auto; apply extends_refl|]. intros s' c' W' E' H'. replace (s0 + S k)%nat with (S s0 + k)%nat by lia. apply IH; auto.
    intros i s1 c1 W1 E1. apply Hf; auto. eapply extends_trans; eauto.
Qed.
Lemma fdecompose_F c s : wf c -> valid c s -> CTF c (fdecompose s) (fun r c' => Forall (valid c') r /\ length r = 256%nat /\ Forall hf (skipn 64 r)).
Proof.
  intros W V. unfold fdecompose. change (256 / 2)%nat with 128%nat.
  eapply CTF_bind; [apply (CTF_foldM_seq _ dinv 128 0 (s, []) c W)|].
  - split; [exact V|]. split; [lia|]. split; [constructor|]. split; [reflexivity|constructor].
  - intros i st c1 W1 _ U. apply fu256_step_F; auto.
  - intros st c1 W1 E1 (V1 & Z1 & F1 & L1 & H1). apply CTF_of.
    eapply CT_bind; [apply assert_constant_CT; auto; apply Z1; lia|]. intros u c2 W2 E2 _. apply CT_ret; [exact W2|]. split; [|split].
    + apply Forall_rev. eapply Forall_impl; [|exact F1]. intros a. apply valid_mono; auto.
    + unfold acond in *. rewrite rev_length. exact L1.
    + unfold acond in *. rewrite skipn_rev, L1. apply Forall_rev. exact H1.
Qed.
Lemma CTF_mapM {X Y} (f : X -> M Y) (Q : Y -> ctx -> Prop) l : forall c, wf c -> (forall y c1 c2, Q y c1 -> extends c1 c2 -> Q y c2) ->
  (forall x c', In x l -> wf c' -> extends c c' -> CTF c' (f x) Q) -> CTF c (mapM f l) (fun ys c' => length ys = length l /\ Forall (fun y => Q y c') ys).
Proof.
  induction l as [|x l IH]; intros c W HM Hf; cbn [mapM]; [apply CTF_of, CT_ret; auto|].
  eapply CTF_bind; [apply Hf; [left; reflexivity|exact W|apply extends_refl]|]. intros y c1 W1 E1 Hy.
  eapply CTF_bind; [apply IH; [exact W1|exact HM|]|].
  - intros x' c' Hx W' E'. apply Hf; [right; exact Hx|exact W'|eapply extends_trans; eauto].
  - intros ys c2 W2 E2 [L F]. apply CTF_of, CT_ret; [exact W2|]. split; [cbn; lia|]. constructor; [eapply HM; eauto|exact F].
Qed.
Lemma fhash_F c input : wf c -> input <> [] -> Forall (valid c) input ->
  CTF c (fhash input) (fun r c' => valid c' r /\ 2 * a_val r ≡ 2 ^ 256 - 1 ⟨nmod⟩).
Proof.
  intros W NE F. pose proof (n_pos n_prime). unfold fhash.
  eapply CTF_bind; [apply CTF_of, assign_constant_CT; auto; lia|]. intros one c1 W1 E1 [V1 _].
  eapply CTF_bind; [apply CTF_of, assign_constant_CT; auto; lia|]. intros zero c2 W2 E2 [V2 _].
  assert (KI : CT c2 k_init (fun st c' => vst c' st)).
  { unfold k_init. eapply CT_bind; [apply assign_constant_CT; auto; lia|]. intros z c3 W3 E3 [V3 _]. apply CT_ret; [exact W3|].
    repeat (split; [reflexivity|]; apply Forall_forall; intros ? ->%repeat_spec). exact V3. }
  eapply CTF_bind; [apply CTF_of; exact KI|]. intros st c3 W3 E3 V3.
  assert (F3 : Forall (valid c3) input) by (eapply Forall_impl; [|exact F]; intros a; apply valid_mono; eauto using extends_trans).
  rewrite Forall_forall in F3.
  eapply CTF_bind; [apply (CTF_mapM fdecompose (fun r c' => Forall (valid c') r /\ length r = 256%nat /\ Forall hf (skipn 64 r)) input c3 W3)|].
  - intros y c4 c5 (FV & L & HF) E. split; [|split; [exact L|exact HF]]. eapply Forall_impl; [|exact FV]. intros a. apply valid_mono; auto.
  - intros x c4 Hx W4 E4. apply fdecompose_F; eauto using valid_mono.
  - intros bits c4 W4 E4 [LN FB]. apply CTF_of. assert (LB : length (concat bits) = (length input * 256)%nat).
    { clear -FB LN. revert input LN. induction FB as [|x l (_ & H & _) FB IH]; intros input LN; [destruct input; [reflexivity|discriminate]|].
      destruct input as [|a input]; [discriminate|]. cbn [concat]. rewrite app_length, (IH input) by (cbn in LN; lia). cbn [length]. unfold acond in *. lia. }
    assert (VB : Forall (valid c4) (concat bits ++ k_padding one zero (length input * 256))).
    { apply Forall_app. split; [|apply k_padding_valid; eauto using valid_mono, extends_trans].
      apply Forall_concat'. eapply Forall_impl; [|exact FB]. intros a [Ha _]. exact Ha. }
    assert (LL : length (concat bits ++ k_padding one zero (length input * 256)) = (nblocks (length input) * ABSORB_BITS_RATE)%nat).
    { unfold acond in *. rewrite app_length, k_padding_length, LB. destruct (nblocks_spec (length input)) as (j & EJ & _). lia. }
    set (msg := concat bits ++ k_padding one zero (length input * 256)) in *.
    assert (FC : Forall (fun ch => length ch = ABSORB_BITS_RATE) (chunks ABSORB_BITS_RATE msg)) by apply (proj1 (chunks_even ABSORB_BITS_RATE (nblocks (length input)) _ ltac:(unfold ABSORB_BITS_RATE; lia) LL)).
    assert (CC : concat (chunks ABSORB_BITS_RATE msg) = msg) by (apply chunks_concat; unfold ABSORB_BITS_RATE; lia).
    assert (FV : Forall (Forall (valid c4)) (chunks ABSORB_BITS_RATE msg)) by (apply Forall_concat_inv; unfold acond in *; rewrite CC; exact VB).
    assert (H256 : exists b rest, msg = b ++ rest /\ length b = 256%nat /\ Forall hf (skipn 64 b)).
    { destruct bits as [|b bits]; [destruct input; [congruence|discriminate]|]. inversion_clear FB as [|? ? (_ & Lb & Hb) _]. unfold msg. cbn [concat]. rewrite <- app_assoc. eauto. }
    unfold acond in *. destruct (chunks ABSORB_BITS_RATE msg) as [|ch chs] eqn:EC.
    { exfalso. cbn in CC. destruct H256 as (b & rest & E & Lb & _). rewrite <- CC in E. destruct b; discriminate. }
    inversion_clear FC as [|? ? LC FC']. inversion_clear FV as [|? ? VC FV'].
    assert (IN : in123 ch).
    { destruct H256 as (b & rest & E & Lb & Hb). unfold in123. assert (EQ : firstn 256 ch = b); [|unfold acond in *; rewrite EQ; exact Hb].
      cbn [concat] in CC. assert (K : firstn 256 (ch ++ concat chs) = firstn 256 (b ++ rest)) by (rewrite CC, E; reflexivity).
      unfold acond in *. rewrite !firstn_app, LC, Lb in K. unfold ABSORB_BITS_RATE in K. change (256 - 17 * 64)%nat with 0%nat in K. rewrite Nat.sub_diag, !firstn_O, !app_nil_r in K.
      rewrite K. apply firstn_all2. lia. }
    cbn [foldM]. eapply (CT_bind _ _ _ (fun s c' => hst c' s)).
    { eapply CT_bind; [apply absorb_first; [exact W4|eapply vst_mono; eauto|exact LC|exact VC|exact IN]|].
      intros s c5 W5 E5 V5. apply absorb_all_H; auto.
      eapply Forall_impl; [|exact FV']. intros x Hx. eapply Forall_impl; [|exact Hx]. intros a. apply valid_mono; auto. }
    intros s c5 W5 E5 V5. cbv beta in V5. unfold compose_to_scalar_be. cbn [map concat].
    destruct (hs_rev_bytes _ _ _ (hst_lane _ _ 0 0 V5 ltac:(lia) ltac:(lia))) as [[L0 F0] K0].
    destruct (hs_rev_bytes _ _ _ (hst_lane _ _ 1 0 V5 ltac:(lia) ltac:(lia))) as [[L1 F1] K1].
    destruct (hs_rev_bytes _ _ _ (hst_lane _ _ 2 0 V5 ltac:(lia) ltac:(lia))) as [[L2 F2] K2].
    destruct (hs_rev_bytes _ _ _ (hst_lane _ _ 3 0 V5 ltac:(lia) ltac:(lia))) as [[L3 F4] K3].
    apply CT_assert_k; [unfold acond in *; rewrite !app_length, L0, L1, L2, L3; reflexivity|].
    eapply CT_bind; [apply assign_constant_CT; auto; lia|]. intros acc c6 W6 E6 [V6 E0].
    eapply CT_weaken; [apply (compose_H 128) with (j := 0%nat); [unfold acond in *; rewrite !app_length, L0, L1, L2, L3; reflexivity|exact W6|exact V6| | |]|].
    + eapply Forall_impl; [intros a; apply valid_mono; exact E6|]. repeat (apply Forall_app; split); auto.
    + repeat (apply Forall_app; split); auto.
    + rewrite E0. apply eqm_eq. reflexivity.
    + intros r c7 _ _ [V7 E7]. split; [exact V7|]. rewrite E7. apply eqm_eq. reflexivity.
Qed.

(** Every circuit of the gadget has a satisfying assignment that keeps all earlier cells and
    in which the output is (2^256 - 1) / 2. *)
Lemma hash_forged c input r c' : good c -> input <> [] -> Forall (valid c) input -> hash input c = Ok (r, c') ->
  exists A, satisfies c' A /\ (forall a, valid c a -> A⟦a⟧ = a_val a) /\ 2 * A⟦r⟧ ≡ 2 ^ 256 - 1 ⟨nmod⟩.
Proof.
  intros G NE F R. pose proof (n_pos n_prime).
  destruct (CTF_runs _ _ _ (fhash_F c input (good_wf _ G) NE F)) as (x & d & R' & X' & [V E] & LG). specialize (LG (loose_of _ G)).
  assert (H2 : Forall2 (fun i (j : Z * av) => sav i (snd j)) input (map (fun v => (a_val v, v)) input)).
  { clear. induction input; constructor; [reflexivity|assumption]. }
  destruct (sr_fhash _ _ H2 c c x r d c' (shape_refl _) R' R) as [Sx SH].
  exists (honest d). split; [eapply satisfies_shape; [exact SH|apply loose_satisfies; auto]|]. split.
  - intros a Va. apply (honest_valid NM). eapply valid_mono; eauto.
  - unfold sav in Sx. rewrite <- Sx, (honest_valid _ d x V). exact E.
Qed.
End H.
