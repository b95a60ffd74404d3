(** A decomposition of a scalar with the scalar itself as the digit in the lowest place. *)
From Verif Require Import Prelude FieldZ Circuit Context Spec Logic ModArith Prims BaseChip BaseProofs
  RangeInfo RangeChip IntegerChip SpecInt InfoProofs IntArith RangeProofs IntInv IntSound IntComplete IntBridge
  IntRes EccChip SpecEcc Curve EccArith EccProofs EccHonest ScalarChip ScalarProofs Msm HonestLogic HonestScalar SpecShape Shape SpecSchedule TotalLogic TotalMsm Forge.

Section D.
Context {NM : NMod}.
Hypothesis n_prime : prime nmod.
Hypothesis n_big : 2 < nmod.
Variable dg : Z.
(** The row of [assign_bit] (base_chip.rs:357-367) with x in the first cell and 1 in the
    second: what a dishonest prover can put there. *)
Definition forged_bit (x : Z) : M acond := cells <- one_line [pu x 1; pu 1 0] None [fneg 1] None ;; mnth cells 0.
Lemma forged_bit_CTF c x : wf c -> 0 <= x < nmod -> CTF c (forged_bit x) (fun r c' => valid c' r /\ a_val r = x).
Proof.
  intros W Hx. unfold forged_bit. pose proof (n_pos n_prime).
  eapply CTF_bind; [apply CTF_one_line; [assumption|cbn;lia|cbn;lia| |]|].
  - constructor; [exact Hx|]. constructor; [cbn; lia|constructor].
  - unfold gate_sum, pair_val, pu. cbn [map fst snd nth opt0 schema_val]. unf. estrip. apply eqm_eq. ring.
  - intros r c' W' E' (-> & F). destruct (nth_handles_valid _ _ _ 0%nat _ F eq_refl) as [E V].
    apply CTF_of. eapply CT_nth; [assumption|exact E|]. split; [exact V|reflexivity].
Qed.
Lemma sr_forged_bit x y : SR sav (forged_bit x) (assign_bit y).
Proof.
  unfold forged_bit, assign_bit. eapply SR_bind; [apply SR_one_line; constructor; [|constructor; [|constructor]]; split; reflexivity|].
  intros l l' H. apply SR_nth. exact H.
Qed.
(** native_scalar_ecc_chip.rs:110-140, first step, with the digits dg and 0 for the scalar dg. *)
Definition forged_step (st : av * list acond) : M (av * list acond) :=
  b0 <- forged_bit dg ;;
  b1 <- assign_bit 0 ;;
  cells <- one_line_with_last [pu 0 (fadd (fadd 1 1) (fadd 1 1)); pa b1 (fadd 1 1); pa b0 1]
             (pa (fst st) (fneg 1)) None [] None ;;
  v <- mnth (fst cells) 0 ;;
  mret (v, snd st ++ [b0; b1]).
Lemma sr_forged_step v st st' i : both sav (Forall2 sav) st st' -> SR (both sav (Forall2 sav)) (forged_step st) (native_step v st' i).
Proof.
  intros H. unfold forged_step, native_step. cbv zeta. eapply SR_bind; [apply sr_forged_bit|]. intros b0 b0' H0.
  eapply SR_bind; [apply sr_assign_bit|]. intros b1 b1' H1. dst. sra.
Qed.
(** native_scalar_ecc_chip.rs:97-171 for the scalar dg, with the first step forged: nothing is left for the other
    steps. *)
Definition forged_dec (s : av) : M (list (list acond)) :=
  st <- forged_step (s, []) ;;
  r <- foldM (native_step 0) st (seq 1 (Z.to_nat (NUM_BITS / 2) - 1)) ;;
  bits <- (assert_constant (fst r) 0 ;;; mret (snd r)) ;;
  to_windows 1 bits.
Hypothesis even_bits : Z.odd NUM_BITS = false.
Lemma num_bits_2 : 2 <= NUM_BITS.
Proof. unfold NUM_BITS. assert (1 <= Z.log2 nmod) by (apply (Z.log2_le_pow2 nmod 1); [|change (2 ^ 1) with 2]; lia). lia. Qed.
Lemma half_bits : exists k, Z.to_nat (NUM_BITS / 2) = S k.
Proof.
  pose proof num_bits_2. assert (1 <= NUM_BITS / 2) by (apply Z.div_le_lower_bound; lia).
  exists (Z.to_nat (NUM_BITS / 2) - 1)%nat. lia.
Qed.
Lemma sr_forged_dec s s' : sav s s' -> SR (Forall2 (Forall2 sav)) (forged_dec s) (decompose_scalar_native 1 s').
Proof.
  intros H. unfold forged_dec, decompose_scalar_native. rewrite even_bits. destruct half_bits as (k & ->). rewrite Nat.sub_succ, Nat.sub_0_r. cbn [seq foldM].
  intros c d x y c' d' Sh E F.
  assert (Assoc : forall X Y Z' (m : M X) (k : X -> M Y) (l : Y -> M Z') c, mbind (mbind m k) l c = mbind m (fun x => mbind (k x) l) c).
  { intros X Y Z' m k0 l c0. unfold mbind. destruct (m c0) as [[x0 c0']|]; reflexivity. }
  rewrite Assoc in F. revert c d x y c' d' Sh E F.
  eapply SR_bind; [apply sr_forged_step; split; [exact H|constructor]|]. intros st st' Hst.
  eapply (SR_bind (both sav (Forall2 sav))); [apply SR_foldM_eq; [exact Hst|]; intros; apply sr_native_step; assumption|]. intros r r' Hr. dst.
  eapply (SR_bind (Forall2 sav)); [sra|intros; sra].
Qed.

Definition finv (k : nat) (st : av * list acond) (c : ctx) : Prop :=
  valid c (fst st) /\ a_val (fst st) = 0 /\ exists j, hbits c (snd st) (dg :: repeat 0 j) /\ S j = (2 * k)%nat.
Lemma bit_of_0 i : bit_of 0 i = 0.
Proof. unfold bit_of. rewrite Z.bits_0. reflexivity. Qed.
Lemma repeat_app0 j : repeat 0 j ++ [0; 0] = repeat 0 (S (S j)).
Proof. induction j as [|j IH]; [reflexivity|]. cbn [repeat app]. rewrite IH. reflexivity. Qed.
Lemma finv_step i st c : (1 <= i)%nat -> wf c -> finv i st c -> CT c (native_step 0 st i) (fun r c' => finv (S i) r c').
Proof.
  intros Hi W (V & H & j & HB & Hj). unfold native_step. cbv zeta. rewrite !bit_of_0, Z.shiftr_0_l. change (fof 0) with 0.
  eapply CT_bind; [apply assign_bit_CT; auto|]. intros b0 c1 W1 E1 [V0 H0].
  eapply CT_bind; [apply assign_bit_CT; auto|]. intros b1 c2 W2 E2 [V1 H1]. pose proof (n_pos n_prime).
  assert (VV : valid c2 (fst st)) by eauto using valid_mono, extends_trans. assert (valid c2 b0) by eauto using valid_mono.
  eapply CT_bind; [apply CT_one_line_with_last; [assumption|cbn;lia|cbn;lia| |exact VV|]|].
  - constructor; [cbn; lia|]. constructor; [exact V1|]. constructor; [assumption|constructor].
  - unfold gate_sum, with_tail, tail_val, pair_val, pa, pu. cbn [map fst snd nth opt0 schema_val]. rewrite H0, H1, H. unf. estrip. apply eqm_eq. ring.
  - intros x c3 W3 E3 (-> & FV & _). cbn [fst] in FV. cbn [fst].
    destruct (nth_handles_valid _ _ _ 0%nat _ FV eq_refl) as [EN VN].
    eapply CT_nth_k; [exact EN|]. apply CT_ret; [exact W3|]. split; [exact VN|]. cbn [fst snd a_val pu schema_val]. split; [reflexivity|].
    exists (S (S j)). split; [|lia]. rewrite <- repeat_app0, app_comm_cons. apply hbits_app; [eapply hbits_mono; [|exact HB]; eauto using extends_trans|].
    split; [constructor; [|constructor; [|constructor]]; eauto using valid_mono, extends_trans|]. cbn [map]. rewrite H0, H1. reflexivity.
Qed.
Lemma forged_step_CTF c s : 0 <= dg < nmod -> wf c -> valid c s -> a_val s = dg -> CTF c (forged_step (s, [])) (fun r c' => finv 1 r c').
Proof.
  intros RD W V H. unfold forged_step.
  eapply CTF_bind; [apply forged_bit_CTF; auto; lia|]. intros b0 c1 W1 E1 [V0 H0]. apply CTF_of.
  eapply CT_bind; [apply assign_bit_CT; auto|]. intros b1 c2 W2 E2 [V1 H1]. pose proof (n_pos n_prime).
  assert (VV : valid c2 s) by eauto using valid_mono, extends_trans. assert (valid c2 b0) by eauto using valid_mono.
  eapply CT_bind; [apply CT_one_line_with_last; [assumption|cbn;lia|cbn;lia| |exact VV|]|].
  - constructor; [cbn; lia|]. constructor; [exact V1|]. constructor; [assumption|constructor].
  - unfold gate_sum, with_tail, tail_val, pair_val, pa, pu. cbn [map fst snd nth opt0 schema_val]. rewrite H0, H1, H. unf. estrip. apply eqm_eq. ring.
  - intros x c3 W3 E3 (-> & FV & _). cbn [fst] in FV. cbn [fst].
    destruct (nth_handles_valid _ _ _ 0%nat _ FV eq_refl) as [EN VN].
    eapply CT_nth_k; [exact EN|]. apply CT_ret; [exact W3|]. split; [exact VN|]. cbn [fst snd a_val pu schema_val app]. split; [reflexivity|].
    exists 1%nat. split; [|lia]. split; [constructor; [|constructor; [|constructor]]; eauto using valid_mono, extends_trans|]. cbn [map repeat]. rewrite H0, H1. reflexivity.
Qed.
(** Windows of one digit each: all 0, the last one dg. *)
Definition digits_are (c : ctx) (m : nat) (ws : list (list acond)) : Prop :=
  length ws = m /\ forall i, (i < m)%nat -> exists b, nth_error ws i = Some [b] /\ valid c b /\ a_val b = if (i =? m - 1)%nat then dg else 0.
Lemma forged_dec_CTF c s : 0 <= dg < nmod -> wf c -> valid c s -> a_val s = dg -> CTF c (forged_dec s) (fun ws c' => digits_are c' (Z.to_nat NUM_BITS) ws).
Proof.
  intros RD W V H. unfold forged_dec. pose proof num_bits_2 as NB2. pose proof (Z.div_mod NUM_BITS 2 ltac:(lia)) as DM. rewrite Zmod_odd, even_bits in DM.
  destruct half_bits as (k & HK). rewrite HK, Nat.sub_succ, Nat.sub_0_r.
  eapply CTF_bind; [apply forged_step_CTF; auto|]. intros st c1 W1 E1 H1. cbv beta in H1. apply CTF_of.
  eapply CT_bind; [apply (CT_foldM_seq _ finv k 1 st c1 W1 H1)|]. { intros i s' c' Hi W' _ H'. apply finv_step; auto. lia. }
  intros [v bits] c2 W2 E2 (V2 & H2 & j & HB & Hj). cbn [fst snd] in *.
  eapply (CT_bind _ _ _ (fun b c' => hbits c' b (dg :: repeat 0 j))).
  { eapply CT_bind; [apply assert_constant_CT; auto|]. intros u c3 W3 E3 _. apply CT_ret; [auto|]. eapply hbits_mono; eauto. }
  intros b c3 W3 E3 HB3. cbv beta in HB3. eapply CT_weaken; [eapply to_windows_CT; eauto|]. intros ws c4 _ _ (q & [HV HM] & F1 & LW).
  assert (Lb : length b = Z.to_nat NUM_BITS). { destruct HB3 as [_ K]. apply (f_equal (@length Z)) in K. rewrite map_length in K. cbn [length] in K. rewrite repeat_length in K. unfold acond in *. lia. }
  unfold acond in *. rewrite Lb in LW. unfold n_windows in LW. rewrite Nat.div_1_r in LW. set (m := Z.to_nat NUM_BITS) in *.
  assert (LL : length ws = m) by lia. split; [exact LL|]. intros i Hi.
  destruct (nth_lt ws i ltac:(lia)) as (x & Hx). assert (L1 : length x = 1%nat) by (rewrite Forall_forall in F1; apply F1; eapply nth_error_In; eauto).
  destruct x as [|b1 [|? ?]]; try discriminate. exists b1. split; [exact Hx|].
  assert (Hc : nth_error (concat (rev ws)) (m - 1 - i) = Some b1).
  { assert (K1 : forall l : list (list acond), Forall (fun w => length w = 1%nat) l -> forall j y, nth_error l j = Some [y] -> nth_error (concat l) j = Some y).
    { clear. induction 1 as [|x l Hx F IH]; intros [|j] y H; try discriminate.
      - injection H as ->. reflexivity.
      - destruct x as [|z [|? ?]]; try discriminate. cbn [concat app nth_error]. apply IH. exact H. }
    apply K1; [apply Forall_rev; exact F1|]. rewrite nth_error_nth' with (d := []) by (rewrite rev_length; lia). rewrite rev_nth by lia.
    replace (length ws - S (m - 1 - i))%nat with i by lia. f_equal. exact (nth_error_nth ws i [] Hx). }
  split; [rewrite Forall_forall in HV; apply HV; eapply nth_error_In; eauto|].
  pose proof (map_nth_error a_val _ _ Hc) as Hm. unfold acond in *. rewrite HM in Hm. cbn [app] in Hm.
  destruct (Nat.eqb_spec i (m - 1)) as [E|N].
  - replace (m - 1 - i)%nat with 0%nat in Hm by lia. cbn in Hm. congruence.
  - destruct (m - 1 - i)%nat as [|t] eqn:Et; [lia|]. cbn [nth_error] in Hm. apply nth_error_In in Hm. apply in_app_or in Hm as [Hm|Hm]; apply repeat_spec in Hm; exact Hm.
Qed.
End D.
