(** decompose_scalar of both scalar chips: append-only, soundness, honest runs. *)
From Verif Require Import Prelude FieldZ Circuit Context Spec Logic ModArith Prims BaseChip BaseProofs
  RangeInfo RangeChip IntegerChip SpecInt InfoProofs IntArith RangeProofs IntInv IntSound IntComplete IntBridge
  IntRes ScalarChip SpecMsm.

(** ** Lists *)
Lemma chunks_fuel_even {X} k : (1 <= k)%nat -> forall q (l : list X) fuel, length l = (q * k)%nat -> (q <= fuel)%nat ->
  Forall (fun c => length c = k) (chunks_fuel fuel k l) /\ length (chunks_fuel fuel k l) = q.
Proof.
  intros Hk. induction q as [|q IH]; intros l fuel HL HF.
  - destruct l; [|discriminate]. destruct fuel; cbn; auto.
  - destruct fuel as [|fuel]; [lia|]. cbn [chunks_fuel]. destruct l as [|x l]; [cbn in HL; lia|].
    assert (L1 : length (firstn k (x :: l)) = k) by (rewrite firstn_length; lia).
    destruct (IH (skipn k (x :: l)) fuel) as [F E]; [rewrite skipn_length; lia|lia|].
    split; [constructor; auto|]. cbn [length]. f_equal. exact E.
Qed.
Lemma chunks_even {X} k q (l : list X) : (1 <= k)%nat -> length l = (q * k)%nat ->
  Forall (fun c => length c = k) (chunks k l) /\ length (chunks k l) = q.
Proof. intros Hk HL. apply chunks_fuel_even; auto. rewrite HL. nia. Qed.

Lemma bin_le_app a b : bin_le (a ++ b) = bin_le a + 2 ^ Z.of_nat (length a) * bin_le b.
Proof.
  induction a as [|x a IH]; [cbn [app length]; change (2 ^ Z.of_nat 0) with 1; change (bin_le []) with 0; ring|]. cbn [bin_le app length]. rewrite IH, Nat2Z.inj_succ, Z.pow_succ_r by lia. ring.
Qed.
Lemma bin_le_bound a : Forall (fun x => x = 0 \/ x = 1) a -> 0 <= bin_le a < 2 ^ Z.of_nat (length a).
Proof.
  induction 1 as [|x a H F IH]; [cbn; lia|]. cbn [bin_le length]. rewrite Nat2Z.inj_succ, Z.pow_succ_r by lia. lia.
Qed.
Lemma bin_le_zeros a : Forall (fun x => x = 0) a -> bin_le a = 0.
Proof. induction 1 as [|x a -> F IH]; [reflexivity|]. cbn [bin_le]. rewrite IH. reflexivity. Qed.
Lemma bin_le_eqm m a a' : Forall2 (eqm m) a a' -> bin_le a ≡ bin_le a' ⟨m⟩.
Proof. induction 1 as [|x y a a' H F IH]; [reflexivity|]. cbn [bin_le]. rewrite H, IH. reflexivity. Qed.
(** Number of windows. *)
Definition n_windows (nb W : nat) : nat := ((nb + W - 1) / W)%nat.

Section App.
Context {NM : NMod}.
Lemma appends_to_windows W b : appends (to_windows W b).
Proof. unfold to_windows. app. Qed.
Lemma appends_native_step s st i : appends (native_step s st i).
Proof. unfold native_step. app. Qed.
Hint Resolve appends_to_windows appends_native_step : app.
Lemma appends_dec_native W s : appends (decompose_scalar_native W s).
Proof. unfold decompose_scalar_native. app. Qed.
Lemma appends_general_step t v st i : appends (general_step t v st i).
Proof. unfold general_step. app. Qed.
Hint Resolve appends_general_step : app.
Lemma appends_general_limb t l : appends (general_limb t l).
Proof. unfold general_limb. app. Qed.
Hint Resolve appends_general_limb : app.
Lemma appends_dec_general I W s : appends (decompose_scalar_general I W s).
Proof. unfold decompose_scalar_general. app. Qed.
End App.
Global Hint Resolve appends_to_windows appends_native_step appends_dec_native appends_general_step
  appends_general_limb appends_dec_general : app.

Section Sound.
Context {NM : NMod}.
Hypothesis n_prime : prime nmod.
Variable T : env.
Variable A : cell -> Z.
Hypothesis A_range : forall x, 0 <= A x < nmod.
Local Notation vA := (vA A).
Local Notation ST := (ST T A).

Lemma vA_eq a z : vA a ≡ z ⟨nmod⟩ -> 0 <= z < nmod -> vA a = z.
Proof. intros H R. apply (eqm_small nmod); auto. apply A_range. Qed.

Definition isbit (a : av) : Prop := vA a = 0 \/ vA a = 1.

Lemma to_windows_ST W bits :
  ST (to_windows W bits) (fun ws => exists zs, concat (rev ws) = bits ++ zs /\ Forall (fun a => vA a = 0) zs
     /\ Forall (fun w => length w = W) ws /\ length ws = n_windows (length bits) W).
Proof.
  unfold to_windows. apply ST_assert_k. intros HW.
  assert (W1 : (1 <= W)%nat) by (destruct W; [discriminate|lia]). cbv zeta. pose proof (n_pos n_prime).
  eapply (ST_bind T A _ _ (fun b => exists zs, b = bits ++ zs /\ Forall (fun a => vA a = 0) zs /\ (length zs < W)%nat)).
  - destruct (length bits mod W =? 0)%nat eqn:E.
    + apply ST_ret. exists []. rewrite app_nil_r. split; [reflexivity|]. split; [auto|cbn; lia].
    + eapply ST_bind; [apply assign_constant_ST|app|app|]. intros z Hz. apply ST_ret.
      eexists. split; [reflexivity|]. apply Nat.eqb_neq in E. rewrite repeat_length. split; [|lia].
      apply Forall_forall. intros a Ha. apply repeat_spec in Ha. subst a. apply vA_eq; [exact Hz|lia].
  - app.
  - app.
  - intros b (zs & -> & F & L). apply ST_assert_k. intros E. apply Nat.eqb_eq in E. apply ST_ret.
    exists zs. rewrite rev_involutive, chunks_concat by auto. split; [reflexivity|]. split; [auto|].
    apply Nat.mod_divides in E; [|lia]. destruct E as [q E].
    destruct (chunks_even W q (bits ++ zs) W1) as [F1 L1]; [lia|]. split.
    + apply Forall_forall. intros x Hx. apply in_rev in Hx. rewrite Forall_forall in F1. auto.
    + rewrite rev_length, L1. unfold n_windows. rewrite app_length in E.
      apply (Nat.div_unique _ _ q (W - 1 - length zs)); [lia|nia].
Qed.

(** The state of both loops: the value is the digits so far plus the rest. *)
Definition dinv (s : av) (st : av * list acond) : Prop :=
  vA s ≡ bin_le (map vA (snd st)) + 2 ^ Z.of_nat (length (snd st)) * vA (fst st) ⟨nmod⟩
  /\ (bitc T -> Forall isbit (snd st)).

Lemma assign_bit_any v : ST (assign_bit v) (fun r => bitc T -> isbit r).
Proof. intros c x c' W H S B. exact (assign_bit_ST n_prime T A A_range v B c x c' W H S). Qed.

Lemma native_step_ST s sbn st i : dinv s st ->
  ST (native_step sbn st i) (fun st' => dinv s st' /\ length (snd st') = (length (snd st) + 2)%nat).
Proof.
  intros [H1 H2]. unfold native_step. cbv zeta.
  eapply ST_bind; [apply assign_bit_any|app|app|]. intros b0 B0.
  eapply ST_bind; [apply assign_bit_any|app|app|]. intros b1 B1.
  stb ST_one_line_with_last. row x C0 C1 G. estrip_in G. repeat estrip_in G.
  apply ST_nth_k. intros v Hv. cbn in Hv. injection Hv as <-. apply ST_ret.
  split; [|cbn [snd]; rewrite app_length; reflexivity]. split; cbn [fst snd].
  - rewrite map_app, bin_le_app, app_length, map_length. cbn [length map bin_le].
    rewrite H1. rewrite Nat2Z.inj_add, Z.pow_add_r by lia. change (2 ^ Z.of_nat 2) with 4.
    set (q := 2 ^ Z.of_nat (length (snd st))).
    assert (E : vA (fst st) ≡ 4 * A (bcell 0 off) + 2 * vA b1 + vA b0 ⟨nmod⟩).
    { unfold vA. eby G. }
    rewrite E. clearbody q. unfold acond in *. generalize (bin_le (map vA (snd st))); intros y.
    unfold vA. cbn [a_cell]. apply eqm_eq. ring.
  - intros B. apply Forall_app. split; [auto|]. constructor; [auto|]. constructor; auto.
Qed.

Definition NB : nat := Z.to_nat NUM_BITS.
Lemma num_bits_pos : 2 <= NUM_BITS.
Proof.
  unfold NUM_BITS. pose proof (n_pos n_prime). assert (1 <= Z.log2 nmod); [|lia].
  change 1 with (Z.log2 2). apply Z.log2_le_mono. lia.
Qed.

Lemma decompose_native_ST W s :
  ST (decompose_scalar_native W s) (fun ws =>
     let bs := concat (rev ws) in
     vA s ≡ bin_le (map vA bs) ⟨nmod⟩ /\ (bitc T -> Forall isbit bs)
     /\ Forall (fun w => length w = W) ws /\ length ws = n_windows NB W).
Proof.
  unfold decompose_scalar_native.
  eapply ST_bind; [apply (ST_foldM T A _ (fun pre st => dinv s st /\ length (snd st) = (2 * length pre)%nat))|app|app|].
  - intros. app.
  - split; [|reflexivity]. split; [|constructor]. cbn [fst snd map length bin_le]. change (2 ^ Z.of_nat 0) with 1. apply eqm_eq. ring.
  - intros pre i st _ [D L]. eapply ST_weaken; [apply native_step_ST; exact D|]. intros st' [D' L'].
    split; [exact D'|]. rewrite L', L, app_length. cbn [length]. lia.
  - intros [v bits] [[H1 H2] L]. cbn [fst snd] in *. rewrite seq_length in L. unfold acond in *. pose proof num_bits_pos as NP.
    eapply (ST_bind T A _ _ (fun bs => vA s ≡ bin_le (map vA bs) ⟨nmod⟩ /\ (bitc T -> Forall isbit bs) /\ length bs = NB)); [|app|app|].
    + destruct (Z.odd NUM_BITS) eqn:O.
      * eapply ST_bind; [apply (assert_bit_ST n_prime T A A_range)|app|app|]. intros u Hu. apply ST_ret.
        rewrite map_app, bin_le_app, map_length. cbn [map bin_le]. split; [rewrite H1; unfold acond in *; apply eqm_eq; ring|]. split.
        -- intros B. apply Forall_app. split; auto.
        -- rewrite app_length, L. unfold NB. cbn [length]. pose proof (Z.div_mod NUM_BITS 2 ltac:(lia)) as E.
           rewrite Zmod_odd, O in E. lia.
      * eapply ST_bind; [apply assert_constant_ST|app|app|]. intros u Hu. apply ST_ret. cbv beta in Hu.
        split; [rewrite H1, Hu; unfold acond in *; apply eqm_eq; ring|]. split; [auto|].
        unfold acond in *. rewrite L. unfold NB. pose proof (Z.div_mod NUM_BITS 2 ltac:(lia)) as E. rewrite Zmod_odd, O in E. lia.
    + intros bs (E & B & LB). eapply ST_weaken; [apply to_windows_ST|]. intros ws (zs & Ec & Fz & FW & LW). cbv zeta. unfold acond in *.
      rewrite Ec, map_app, bin_le_app. rewrite (bin_le_zeros (map vA zs)) by (apply Forall_map; exact Fz).
      split; [rewrite E; unfold acond in *; unfold acond in *; apply eqm_eq; ring|]. split; [|split; [auto|rewrite LW, LB; reflexivity]].
      intros BC. apply Forall_app. split; [auto|]. eapply Forall_impl; [|exact Fz]. intros a Ha. left. exact Ha.
Qed.

(** General scalars. *)
Lemma general_step_ST s t v st i : dinv s st ->
  ST (general_step t v st i) (fun st' => dinv s st' /\ length (snd st') = (length (snd st) + 1)%nat).
Proof.
  intros [H1 H2]. unfold general_step. cbv zeta.
  eapply ST_bind; [apply assign_bit_any|app|app|]. intros b B.
  stb ST_one_line_with_last. row x C0 C1 G. estrip_in G. repeat estrip_in G. apply ST_ret.
  split; [|cbn [snd]; rewrite app_length; reflexivity]. split; cbn [fst snd].
  - rewrite map_app, bin_le_app, app_length, map_length. cbn [length map bin_le].
    rewrite H1. rewrite Nat2Z.inj_add, Z.pow_add_r by lia. change (2 ^ Z.of_nat 1) with 2.
    set (q := 2 ^ Z.of_nat (length (snd st))).
    assert (E : vA (fst st) ≡ vA b + 2 * A (bcell 4 off) ⟨nmod⟩).
    { unfold vA. eby G. }
    rewrite E. clearbody q. unfold acond in *. generalize (bin_le (map vA (snd st))); intros y.
    unfold vA. cbn [a_cell]. apply eqm_eq. ring.
  - intros BC. apply Forall_app. split; [auto|]. constructor; auto.
Qed.

Lemma general_limb_ST t l :
  ST (general_limb t l) (fun bs => vA l ≡ bin_le (map vA bs) ⟨nmod⟩ /\ (bitc T -> Forall isbit bs) /\ length bs = 108%nat).
Proof.
  unfold general_limb.
  eapply ST_bind; [apply (ST_foldM T A _ (fun pre st => dinv l st /\ length (snd st) = length pre))|app|app|].
  - intros. app.
  - split; [|reflexivity]. split; [|constructor]. cbn [fst snd map length bin_le]. change (2 ^ Z.of_nat 0) with 1. apply eqm_eq. ring.
  - intros pre i st _ [D L]. eapply ST_weaken; [apply general_step_ST; exact D|]. intros st' [D' L'].
    split; [exact D'|]. rewrite L', L, app_length. reflexivity.
  - intros [v bits] [[H1 H2] L]. cbn [fst snd] in *. rewrite seq_length in L.
    eapply ST_bind; [apply assert_constant_ST|app|app|]. intros u Hu. cbv beta in Hu. apply ST_ret.
    split; [rewrite H1, Hu; unfold acond in *; apply eqm_eq; ring|]. split; auto.
Qed.
End Sound.

Section General.
Context {NM : NMod}.
Hypothesis n_prime : prime nmod.
Variable r : Z.
Variable J : rinfo.
Hypothesis JO : info_ok r J.
Hypothesis r_prime : prime r.
Variable T : env.
Variable A : cell -> Z.
Hypothesis A_range : forall x, 0 <= A x < nmod.
Local Notation vA := (vA A).
Local Notation ST := (ST T A).

Lemma iwf_small f x : iwf J f x -> i_times x = 1 -> Forall (fun a => 0 <= f a < LIMB) (i_limbs x).
Proof.
  intros H E. apply Forall_forall. intros a Ha. apply In_nth_error in Ha as (i & Hi).
  assert (L : (i < length (i_limbs x))%nat) by (apply nth_error_Some; congruence).
  rewrite (wf_len _ _ _ H) in L. rewrite (lv_nth f x i a Hi).
  destruct (Nat.eq_dec i (ri_limbs J - 1)) as [->|N].
  - pose proof (wf_lead _ _ _ H). pose proof (lead_le J). lia.
  - pose proof (wf_low _ _ _ H i ltac:(lia)). lia.
Qed.

Lemma bits_value ls bss : Forall (fun a => 0 <= vA a < LIMB) ls ->
  Forall2 (fun l bs => vA l ≡ bin_le (map vA bs) ⟨nmod⟩ /\ Forall (isbit A) bs /\ length bs = 108%nat) ls bss ->
  limbs_value vA ls = bin_le (map vA (concat bss)) /\ Forall (isbit A) (concat bss) /\ length (concat bss) = (108 * length ls)%nat.
Proof.
  intros F H. induction H as [|l bs ls bss (E & B & L) H IH]; [cbn; auto|]. inversion F; subst.
  destruct IH as (I1 & I2 & I3); auto. cbn [limbs_value concat]. rewrite map_app, bin_le_app, map_length, L.
  assert (EQ : vA l = bin_le (map vA bs)).
  { assert (BB : 0 <= bin_le (map vA bs) < 2 ^ 108).
    { change 108 with (Z.of_nat 108). rewrite <- L, <- (map_length vA bs). apply bin_le_bound. apply Forall_map. exact B. }
    pose proof (IntInv.n_big r J JO). apply (eqm_small nmod); [exact E|apply A_range|lia]. }
  rewrite EQ, I1. split; [reflexivity|]. split; [apply Forall_app; auto|]. rewrite app_length, I3, L. cbn [length]. lia.
Qed.

Lemma decompose_general_ST W s v : bitc T -> ir r J A s v ->
  ST (decompose_scalar_general J W s) (fun ws =>
     let bs := concat (rev ws) in
     v ≡ bin_le (map vA bs) ⟨r⟩ /\ Forall (isbit A) bs
     /\ Forall (fun w => length w = W) ws /\ length ws = n_windows (108 * ri_limbs J) W).
Proof.
  intros BC Hs. unfold decompose_scalar_general. apply ST_opt_k. intros ti _.
  eapply ST_bind; [eapply (reduce_R r J JO); eauto|app|app|]. intros s' [[Hi Hv] Ht]. 
  eapply ST_bind; [apply (ST_mapM T A _ _ (fun l bs => vA l ≡ bin_le (map vA bs) ⟨nmod⟩ /\ (bitc T -> Forall (isbit A) bs) /\ length bs = 108%nat))|app|app|].
  - intros; app.
  - intros l _. apply general_limb_ST; auto.
  - intros bss HB. eapply ST_weaken; [apply to_windows_ST; auto|]. intros ws (zs & Ec & Fz & FW & LW). cbv zeta. unfold acond in *.
    destruct (bits_value (i_limbs s') bss) as (E & B & L).
    { apply iwf_small; auto. }
    { clear - HB BC. induction HB as [|l bs ls bss (E & B & L) H IH]; constructor; auto. }
    rewrite (wf_len _ _ _ Hi) in L. rewrite Ec, map_app, bin_le_app.
    rewrite (bin_le_zeros (map vA zs)) by (apply Forall_map; exact Fz). rewrite Z.mul_0_r, Z.add_0_r, <- E.
    split; [|split; [|split; [auto|rewrite LW, L; reflexivity]]].
    + rewrite <- Hv. rewrite <- int_value_val. reflexivity.
    + apply Forall_app. split; [auto|]. eapply Forall_impl; [|exact Fz]. intros a Ha. left. exact Ha.
Qed.
End General.
