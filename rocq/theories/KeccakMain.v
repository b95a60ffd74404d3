From Verif Require Import Prelude FieldZ Circuit Context Spec Logic ModArith Prims BaseChip BaseProofs ScalarChip SpecShape Shape
  KeccakChip SpecKeccak SpecKeccakState KeccakPure KeccakProofs KeccakInst KeccakShape Moduli Fields.
Definition fof_state (S : kst) : kfun := fun x y z => get S x y (63 - z).
Lemma holds_srep v st S : state_holds v st S -> srep v st (fof_state S).
Proof.
  intros (L1 & L2 & L3 & H). split; [exact L1|]. split; [exact L2|]. intros x y Hx Hy. split; [exact (L3 x y Hx Hy)|].
  intros z Hz. unfold isb, fof_state. specialize (H x y (63 - z)%nat Hx Hy ltac:(lia)). replace (63 - (63 - z))%nat with z in H by lia. exact H.
Qed.
Lemma srep_holds v st F S : srep v st F -> agree F S -> state_holds v st S.
Proof.
  intros (L1 & L2 & H) G. split; [exact L1|]. split; [exact L2|]. split; [intros x y Hx Hy; apply (H x y Hx Hy)|].
  intros x y z Hx Hy Hz. destruct (H x y Hx Hy) as [_ Hb]. specialize (Hb (63 - z)%nat ltac:(lia)). unfold isb in Hb. unfold lane in Hb. etransitivity; [exact Hb|].
  f_equal. rewrite G by lia. f_equal. lia.
Qed.
Lemma agree_fof S : agree (fof_state S) S.
Proof. intros x y z _ _ _. reflexivity. Qed.
Lemma valid_vst (NM : NMod) v c st S : state_holds v st S -> state_valid c st -> vst c st.
Proof.
  intros (L1 & L2 & L3 & _) V. unfold state_valid in V. split; [exact L1|]. apply Forall_forall. intros p Hp. destruct (In_nth _ _ [] Hp) as (x & Hx & <-).
  unfold acond in *. rewrite L1 in Hx. split; [apply L2; exact Hx|]. apply Forall_forall. intros l Hl. destruct (In_nth _ _ [] Hl) as (y & Hy & <-).
  unfold acond in *. rewrite L2 in Hy by exact Hx. split; [apply L3; auto|]. rewrite Forall_forall in V. specialize (V _ Hp). rewrite Forall_forall in V. exact (V _ Hl).
Qed.
Lemma vst_valid (NM : NMod) c st : vst c st -> state_valid c st.
Proof. intros [_ V]. eapply Forall_impl; [|exact V]. intros p [_ Vp]. eapply Forall_impl; [|exact Vp]. intros l [_ Vl]. exact Vl. Qed.
Lemma permute_R {NM : NMod} (P : prime nmod) st F : srep a_val st F -> GT (fun _ => True) (permute st) (fun st' => srep a_val st' (fold_left rdF (seq 0 24) F)).
Proof. apply permute_G; [exact R_mono|exact (R_xor P)|exact (R_not_and P)|exact (R_not P)]. Qed.

Lemma F2_map_eq {X Y} (f : X -> Y) l l' : Forall2 (fun x y => y = f x) l l' -> l' = map f l.
Proof. induction 1; cbn [map]; congruence. Qed.
Lemma shape_sym c d : same_shape c d -> same_shape d c.
Proof. intros S. destruct S. constructor; intros; symmetry; auto. Qed.
Lemma honest_valid (NM : NMod) c a : valid c a -> honest c (a_cell a) = a_val a.
Proof. intros (_ & G & _). unfold honest. rewrite G. reflexivity. Qed.
Local Instance NMbn : NMod := bn256_fr.
Definition enc (e : Z) : M (av * av) := a <- assign 0 ;; r <- hash_with [(e, a)] ;; mret (a, r).
Lemma enc_run e : 0 <= e < 2 ^ 256 -> e mod bn256_fr_p = 0 -> exists a r c, enc e ctx_new = Ok ((a, r), c) /\ good c /\ valid c a /\ a_val a = 0 /\ valid c r
  /\ a_val r = digest [e] mod bn256_fr_p.
Proof.
  intros R E. pose proof bn256_fr_prime as P.
  assert (H : CT ctx_new (enc e) (fun x c => valid c (fst x) /\ a_val (fst x) = 0 /\ valid c (snd x) /\ a_val (snd x) = digest [e] mod bn256_fr_p)).
  { unfold enc. eapply CT_bind; [apply assign_CT; [apply wf_new|split; [lia|reflexivity]]|]. intros a c1 W1 E1 [V1 H1].
    eapply CT_bind; [apply CT_GT; [exact W1|apply hash_V; [exact P|exact W1|]|apply (hash_R P)]|].
    - constructor; [|constructor]. cbn [fst snd]. split; [exact V1|]. split; [|exact R]. rewrite H1. unfold eqm. change (@nmod NMbn) with bn256_fr_p. rewrite E. reflexivity.
    - intros r c2 W2 E2 [V2 (Vs & F & D)]. apply CT_ret; [exact W2|]. cbn [fst snd]. split; [eapply valid_mono; eauto|]. split; [exact H1|]. split; [exact V2|].
      inversion F as [|? v ? ? [Hv _] F' EQ1 EQ2]; subst. inversion F'; subst. cbn [fst] in D. rewrite (Z.mod_small e) in D by exact R. unfold eqm in D. unfold digest.
      change bn256_fr_p with (@nmod NMbn). etransitivity; [|exact D]. symmetry. apply Z.mod_small. apply V2. }
  apply CT_accepts in H. destruct H as ([a r] & c & R1 & _ & (V1 & H1 & V2 & H2) & G). exists a, r, c. split; [exact R1|]. split; [apply G; apply good_new|]. auto.
Qed.
Lemma enc_shape e e' : SR (both sav sav) (enc e) (enc e').
Proof.
  unfold enc. eapply SR_bind; [apply sr_assign|]. intros a a' Ha. eapply SR_bind; [apply sr_hash_with; constructor; [exact Ha|constructor]|].
  intros r r' Hr. apply SR_ret. split; assumption.
Qed.
Lemma enc_0 x c : enc 0 ctx_new = Ok (x, c) -> (a <- assign 0 ;; r <- hash [a] ;; mret (a, r)) ctx_new = Ok (x, c).
Proof.
  unfold enc, hash. intros H. apply mbind_inv in H as (a & c1 & H1 & H). unfold mbind at 1. rewrite H1.
  assert (E : a_val a = 0).
  { unfold assign, one_line_add in H1. apply mbind_inv in H1 as (cs & c2 & H1 & H2). apply one_line_inv in H1 as (_ & _ & _ & ->).
    apply mopt_inv in H2 as [H2 _]. injection H2 as <-. reflexivity. }
  cbn [map]. rewrite E. exact H.
Qed.
Lemma digest_0 : digest [0] = 0x290decd9548b62a8d60345a988386fc84ba6bc95484008f6362f93160ef3e563.
Proof. vm_cast_no_check (eq_refl (digest [0])). Qed.
Lemma digest_unfold vs : digest vs = of_be (keccak256 (flat_map be32 vs)).
Proof. reflexivity. Qed.
Lemma zeros : flat_map be32 [0] = repeat 0 32.
Proof. reflexivity. Qed.
Lemma digest_zeros : of_be (keccak256 (repeat 0 32)) = 0x290decd9548b62a8d60345a988386fc84ba6bc95484008f6362f93160ef3e563.
Proof. rewrite <- zeros, <- digest_unfold. exact digest_0. Qed.
Lemma digest_n : digest [bn256_fr_p] mod bn256_fr_p =? 0x290decd9548b62a8d60345a988386fc84ba6bc95484008f6362f93160ef3e563 mod bn256_fr_p = false.
Proof. vm_cast_no_check (eq_refl false). Qed.
Lemma hash_run :   exists a r c', (a <- assign 0 ;; r <- hash [a] ;; mret (a, r)) ctx_new = Ok ((a, r), c') /\ satisfies c' (honest c')
    /\ a_val a = 0 /\ a_val r = 0x290decd9548b62a8d60345a988386fc84ba6bc95484008f6362f93160ef3e563 mod bn256_fr_p.
Proof.
  destruct (enc_run 0 ltac:(lia) eq_refl) as (a & r & c & R1 & G1 & V1 & Va & Vr & D1). exists a, r, c. split; [exact (enc_0 _ _ R1)|].
  split; [apply good_satisfies; [reflexivity|exact G1]|]. split; [exact Va|]. rewrite D1, digest_0. reflexivity.
Qed.

Lemma C40_permutation_sound_main :
  forall (NM : NMod), prime nmod -> forall st,
    sound (permute st) (fun A st' => forall S, state_holds (fun a => A⟦a⟧) st S -> state_holds (fun a => A⟦a⟧) st' (keccak_f S)).
Proof.
  intros NM P st. apply ST_sound. intros T A HA c st' c' W R HS S H.
  eapply srep_holds; [|apply agree_f; apply agree_fof].
  exact (permute_S P T A HA st _ (holds_srep _ _ _ H) c st' c' W R HS).
Qed.

Lemma C40_permutation_honest_main :
  forall (NM : NMod), prime nmod -> forall c st S, wf c -> state_valid c st -> state_holds a_val st S ->
    accepts c (permute st) (fun st' c' => state_valid c' st' /\ state_holds a_val st' (keccak_f S)).
Proof.
  intros NM P c st S W V H. apply CT_accepts. eapply CT_weaken; [apply CT_GT; [exact W|apply permute_V; [exact P|exact W|eapply valid_vst; eauto]|apply (permute_R P); apply holds_srep; exact H]|].
  intros st' c' _ _ [V' H']. split; [apply vst_valid; exact V'|]. eapply srep_holds; [exact H'|]. apply agree_f. apply agree_fof.
Qed.

Lemma C41_hash_partial_main :
  forall (NM : NMod), prime nmod -> forall input,
    sound_bits (hash input) (fun A r => exists vs,
      Forall2 (fun a v => 0 <= v < 2 ^ 256 /\ v mod nmod = A⟦a⟧) input vs /\ A⟦r⟧ = digest vs mod nmod).
Proof.
  intros NM P input. apply ST_sound_bits. intros T A HA HB c r c' W R HS.
  destruct (hash_S P T A HA HB _ c r c' W R HS) as (Vs & F & E). exists Vs. split.
  - clear -F HA. remember (map (fun v => (a_val v, v)) input) as e. revert input Heqe. induction F as [|i V e Vs [H1 H2] F IH]; intros input E.
    + destruct input; [constructor|discriminate].
    + destruct input as [|a input]; [discriminate|]. cbn in E. injection E as -> ->. constructor; [|apply IH; reflexivity].
      split; [exact H2|]. unfold eqm in H1. rewrite H1. apply Z.mod_small. apply HA.
  - unfold eqm in E. etransitivity; [|exact E]. symmetry. apply Z.mod_small. apply HA.
Qed.

Lemma C41_hash_honest_main :
  forall (NM : NMod), prime nmod -> nmod <= 2 ^ 256 -> forall c input, wf c -> Forall (valid c) input ->
    accepts c (hash input) (fun r c' => valid c' r /\ a_val r = digest (map a_val input) mod nmod).
Proof.
  intros NM P N c input W F. apply CT_accepts. eapply CT_weaken; [apply CT_GT; [exact W|apply hash_V; [exact P|exact W|]|apply (hash_R P)]|].
  - apply Forall_map. eapply Forall_impl; [|exact F]. intros a V. cbn [fst snd]. split; [exact V|]. split; [reflexivity|]. destruct V as (_ & _ & V). lia.
  - intros r c' _ _ [V (Vs & HV & E)]. split; [exact V|].
    assert (EV : Vs = map a_val input).
    { clear -HV F N. remember (map (fun v => (a_val v, v)) input) as e. revert input F Heqe. induction HV as [|i V e Vs [H1 H2] HV IH]; intros input F E.
      - destruct input; [reflexivity|discriminate].
      - destruct input as [|a input]; [discriminate|]. cbn in E. injection E as -> ->. inversion_clear F as [|? ? Va F']. cbn [map].
        rewrite (IH input F' eq_refl). f_equal. rewrite H1. cbn [fst]. apply Z.mod_small. destruct Va as (_ & _ & Va). lia. }
    rewrite EV in E. unfold eqm in E. etransitivity; [|exact E]. symmetry. apply Z.mod_small. apply V.
Qed.

Lemma C42_hash_determined_refuted_main :
  exists (NM : NMod) a r c' A A', nmod = bn256_fr_p
    /\ (a <- assign 0 ;; r <- hash [a] ;; mret (a, r)) ctx_new = Ok ((a, r), c')
    /\ satisfies c' A /\ satisfies c' A' /\ bit_consistent c' A /\ bit_consistent c' A'
    /\ A⟦a⟧ = 0 /\ A'⟦a⟧ = 0 /\ A⟦r⟧ = digest [0] mod nmod /\ A'⟦r⟧ = digest [bn256_fr_p] mod nmod /\ A⟦r⟧ <> A'⟦r⟧.
Proof.
  exists bn256_fr. destruct (enc_run 0 ltac:(lia) eq_refl) as (a & r & c & R1 & G1 & V1 & Va & Vr & D1).
  destruct (enc_run bn256_fr_p ltac:(unfold bn256_fr_p; lia) eq_refl) as (a' & r' & d & R2 & G2 & V2 & Va' & Vr' & D2).
  destruct (enc_shape 0 bn256_fr_p ctx_new ctx_new (a, r) (a', r') c d (shape_refl _) R1 R2) as [[Sa Sr] SH]. cbn [fst snd] in Sa, Sr.
  destruct (good_satisfies c (n_pos bn256_fr_prime) G1) as [S1 B1]. destruct (good_satisfies d (n_pos bn256_fr_prime) G2) as [S2 B2].
  exists a, r, c, (honest c), (honest d). split; [reflexivity|]. split; [exact (enc_0 _ _ R1)|]. split; [exact S1|].
  split; [eapply satisfies_shape; [apply shape_sym; exact SH|exact S2]|]. split; [exact B1|].
  split; [eapply bitc_shape; [apply shape_sym; exact SH|exact B2]|].
  unfold sav in Sa, Sr. pose proof (honest_valid _ c a V1) as Q1. pose proof (honest_valid _ d a' V2) as Q2. rewrite <- Sa, Va' in Q2. rewrite Va in Q1.
  pose proof (honest_valid _ c r Vr) as Q3. pose proof (honest_valid _ d r' Vr') as Q4. rewrite <- Sr, D2 in Q4. rewrite D1 in Q3.
  split; [exact Q1|]. split; [exact Q2|]. split; [exact Q3|]. split; [exact Q4|].
  intros E. pose proof digest_n as N. apply Z.eqb_neq in N. apply N. rewrite digest_0 in Q3. rewrite <- Q4, <- Q3. symmetry. exact E.
Qed.

