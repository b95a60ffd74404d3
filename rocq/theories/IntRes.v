(** The integer gadgets restated on residues: [ir x r] says that the limbs of [x]
    are well formed and stand for the residue r, [br x b] that the cell of [x]
    holds the bit b; [cr], [cb] are the same for the recorded witness.  These are
    the rules from which the curve and extension-field gadgets are built. *)
From Verif Require Import Prelude FieldZ Circuit Context Spec Logic ModArith Prims BaseChip BaseProofs
  RangeInfo RangeChip IntegerChip SpecInt InfoProofs IntArith RangeProofs IntInv IntSound IntComplete IntBridge.

Global Hint Resolve appends_native_of appends_nonleading appends_w_lead appends_d_lead
  appends_mul_column appends_mul_carry appends_mul_limbs appends_mul_native appends_assign_w
  appends_assign_d appends_reduce_step appends_reduce appends_cond_reduce appends_pad_of
  appends_int_add appends_int_sub appends_int_neg appends_int_mul appends_is_pure_zero
  appends_is_pure_w appends_is_int_zero appends_is_int_equal appends_int_div
  appends_assign_int_constant appends_int_unsafe_invert appends_assert_int_equal appends_int_square
  appends_int_mul_small appends_bisec_int : app.

Section Res.
Context {NM : NMod}.
Variable w : Z.
Variable I : rinfo.
Hypothesis IO : info_ok w I.
Hypothesis n_prime : prime nmod.
Hypothesis w_prime : prime w.

Section S.
Variable T : env.
Variable A : cell -> Z.
Hypothesis A_range : forall x, 0 <= A x < nmod.

Lemma ST_true {X} (m : M X) : ST T A m (fun _ => True).
Proof. intros c x c' _ _ _. exact Logic.I. Qed.
Lemma ST_and {X} (m : M X) (Q R : X -> Prop) : ST T A m Q -> ST T A m R -> ST T A m (fun x => Q x /\ R x).
Proof. intros H1 H2 c x c' W E S. split; [eapply H1|eapply H2]; eauto. Qed.
Definition ir (x : aint) (r : Z) : Prop := iwf I (vA A) x /\ val (vA A) x ≡ r ⟨w⟩.
Definition br (x : av) (b : bool) : Prop := vA A x = Z.b2z b.

Lemma ir_eq x r s : ir x r -> r ≡ s ⟨w⟩ -> ir x s.
Proof. intros [H1 H2] H3. split; [auto|]. rewrite H2. exact H3. Qed.
Lemma bitv_br x P b : bitv A x P -> (P <-> b = true) -> br x b.
Proof.
  intros [H1 H2] H3. unfold br. destruct b; cbn [Z.b2z].
  - apply H2, H3. reflexivity.
  - destruct H1 as [H1|H1]; [exact H1|]. apply H2, H3 in H1. discriminate.
Qed.
Lemma br_bit x b : br x b -> vA A x = 0 \/ vA A x = 1.
Proof. intros H. unfold br in H. rewrite H. destruct b; cbn; auto. Qed.

Lemma assign_w_R x : ST T A (assign_w I x) (fun r => exists v, 0 <= v < w /\ ir r v).
Proof.
  eapply ST_weaken; [eapply (assign_w_ST w I IO); eauto|]. intros r [H _]. pose proof (w_pos w w_prime).
  exists (val (vA A) r mod w). split; [apply Z.mod_pos_bound; lia|]. split; [auto|]. rewrite mod_eqm. reflexivity.
Qed.
Lemma assign_int_constant_R x : 0 <= x < w -> ST T A (assign_int_constant I x) (fun r => ir r x /\ i_times r = 1).
Proof.
  intros H. eapply ST_weaken; [eapply (assign_int_constant_ST w I IO); eauto|].
  intros r (H1 & H3 & H2). split; [|auto]. split; [auto|]. rewrite H2. reflexivity.
Qed.
Lemma int_add_R a b ra rb : ir a ra -> ir b rb -> ST T A (int_add I a b) (fun x => ir x (ra + rb)).
Proof.
  intros [Wa Va] [Wb Vb]. eapply ST_weaken; [eapply (int_add_ST w I IO); eauto|].
  intros r (H1 & _ & H2). split; [auto|]. rewrite H2, Va, Vb. reflexivity.
Qed.
Lemma int_sub_R a b ra rb : ir a ra -> ir b rb -> ST T A (int_sub I a b) (fun x => ir x (ra - rb)).
Proof.
  intros [Wa Va] [Wb Vb]. eapply ST_weaken; [eapply (int_sub_ST w I IO); eauto|].
  intros r (H1 & _ & H2). split; [auto|]. rewrite H2, Va, Vb. reflexivity.
Qed.
Lemma int_neg_R a ra : ir a ra -> ST T A (int_neg I a) (fun x => ir x (- ra)).
Proof.
  intros [Wa Va]. eapply ST_weaken; [eapply (int_neg_ST w I IO); eauto|].
  intros r (H1 & _ & H2). split; [auto|]. rewrite H2, Va. reflexivity.
Qed.
Lemma int_mul_R a b ra rb : ir a ra -> ir b rb -> ST T A (int_mul I a b) (fun x => ir x (ra * rb)).
Proof.
  intros [Wa Va] [Wb Vb]. eapply ST_weaken; [eapply (int_mul_ST w I IO); eauto|].
  intros r (H1 & _ & H2). split; [auto|]. rewrite H2, Va, Vb. reflexivity.
Qed.
Lemma int_square_R a ra : ir a ra -> ST T A (int_square I a) (fun x => ir x (ra * ra)).
Proof. intros H. apply int_mul_R; auto. Qed.
Lemma int_mul_small_R a k ra : 1 <= k -> ir a ra -> ST T A (int_mul_small_constant I a k) (fun x => ir x (ra * k)).
Proof.
  intros Hk [Wa Va]. eapply ST_weaken; [eapply (int_mul_small_ST w I IO); eauto|].
  intros r (H1 & _ & H2). split; [auto|]. rewrite H2, Va. reflexivity.
Qed.
Lemma reduce_R a ra : ir a ra -> ST T A (reduce I a) (fun x => ir x ra /\ i_times x = 1).
Proof.
  intros [Wa Va]. eapply ST_weaken; [eapply (reduce_ST w I IO); eauto|].
  intros r (H1 & H3 & H2). split; [|auto]. split; [auto|]. rewrite H2, Va. reflexivity.
Qed.
Lemma int_div_R a b ra rb : ir a ra -> ir b rb ->
  ST T A (int_div I a b) (fun r => br (fst r) (rb mod w =? 0) /\
     exists q, ir (snd r) q /\ (rb mod w <> 0 -> rb * q ≡ ra ⟨w⟩)).
Proof.
  intros [Wa Va] [Wb Vb]. eapply ST_weaken; [eapply (int_div_ST w I IO); eauto|].
  intros r (H1 & H2 & _ & H3 & _). split.
  - eapply bitv_br; [exact H1|]. rewrite Z.eqb_eq, <- eqm_0_iff, Vb. reflexivity.
  - exists (val (vA A) (snd r)). split; [split; [auto|reflexivity]|]. intros NZ.
    rewrite <- Vb, <- Va. apply H3. rewrite Vb, eqm_0_iff. exact NZ.
Qed.
Lemma int_unsafe_invert_R a ra : ir a ra ->
  ST T A (int_unsafe_invert I a) (fun r => exists q, ir r q /\ ra * q ≡ 1 ⟨w⟩).
Proof.
  intros [Wa Va]. eapply ST_weaken; [eapply (int_unsafe_invert_ST w I IO); eauto|].
  intros r (H1 & _ & H2). exists (val (vA A) r). split; [split; [auto|reflexivity]|]. rewrite <- Va. exact H2.
Qed.
Lemma is_int_zero_R a ra : ir a ra -> ST T A (is_int_zero I a) (fun r => br r (ra mod w =? 0)).
Proof.
  intros [Wa Va]. eapply ST_weaken; [eapply (is_int_zero_ST w I IO); eauto|].
  intros r H. cbv beta in H. eapply bitv_br; [exact H|]. rewrite Z.eqb_eq, <- eqm_0_iff, Va. reflexivity.
Qed.
Lemma is_int_equal_R a b ra rb : ir a ra -> ir b rb ->
  ST T A (is_int_equal I a b) (fun r => br r ((ra - rb) mod w =? 0)).
Proof.
  intros [Wa Va] [Wb Vb]. eapply ST_weaken; [eapply (is_int_equal_ST w I IO); eauto|].
  intros r H. cbv beta in H. eapply bitv_br; [exact H|]. rewrite Z.eqb_eq, <- eqm_0_iff, Va, Vb. apply eqm_sub_0.
Qed.
Lemma assert_int_equal_R a b ra rb : ir a ra -> ir b rb -> ST T A (assert_int_equal I a b) (fun _ => ra ≡ rb ⟨w⟩).
Proof.
  intros [Wa Va] [Wb Vb]. eapply ST_weaken; [eapply (assert_int_equal_ST w I IO); eauto|].
  intros r H. cbv beta in H. rewrite <- Va, <- Vb. exact H.
Qed.
Lemma bisec_int_R c k a b ra rb : br c k -> ir a ra -> ir b rb ->
  ST T A (bisec_int I c a b) (fun x => ir x (if k then ra else rb) /\ i_times x = Z.max (i_times a) (i_times b)).
Proof.
  intros Hc [Wa Va] [Wb Vb]. eapply ST_weaken; [eapply (bisec_int_ST w I IO); eauto using br_bit|].
  intros r (H1 & H3 & H2). split; [|auto]. split; [auto|]. rewrite H2. unfold br in Hc. rewrite Hc.
  destruct k; cbn [Z.b2z Z.eqb Pos.eqb]; auto.
Qed.

(** Bits. *)
Lemma nbit b : 0 <= Z.b2z b < nmod.
Proof. pose proof (n_pos n_prime). destruct b; cbn; lia. Qed.
Lemma br_of x z b : vA A x ≡ z ⟨nmod⟩ -> z = Z.b2z b -> br x b.
Proof. intros H E. unfold br. apply (eqm_small nmod); [rewrite H, E; reflexivity|apply A_range|apply nbit]. Qed.
Ltac bw L := eapply ST_weaken; [apply L; auto|]; let r := fresh in let H := fresh in intros r H; cbv beta in H; eapply br_of; [exact H|].
Lemma and_R a b x y : br a x -> br b y -> ST T A (and_ a b) (fun r => br r (x && y)).
Proof. intros Ha Hb. bw and_ST. rewrite Ha, Hb. destruct x, y; reflexivity. Qed.
Lemma or_R a b x y : br a x -> br b y -> ST T A (or_ a b) (fun r => br r (x || y)).
Proof. intros Ha Hb. bw or_ST. rewrite Ha, Hb. destruct x, y; reflexivity. Qed.
Lemma xor_R a b x y : br a x -> br b y -> ST T A (xor_ a b) (fun r => br r (xorb x y)).
Proof. intros Ha Hb. bw xor_ST. rewrite Ha, Hb. destruct x, y; reflexivity. Qed.
Lemma xnor_R a b x y : br a x -> br b y -> ST T A (xnor_ a b) (fun r => br r (Bool.eqb x y)).
Proof. intros Ha Hb. bw xnor_ST. rewrite Ha, Hb. destruct x, y; reflexivity. Qed.
Lemma not_R a x : br a x -> ST T A (not_ a) (fun r => br r (negb x)).
Proof. intros Ha. bw not_ST. rewrite Ha. destruct x; reflexivity. Qed.
Lemma not_and_R a b x y : br a x -> br b y -> ST T A (not_and a b) (fun r => br r (negb x && y)).
Proof. intros Ha Hb. bw not_and_ST. rewrite Ha, Hb. destruct x, y; reflexivity. Qed.
Lemma assign_constant_R b : ST T A (assign_constant (Z.b2z b)) (fun r => br r b).
Proof. bw assign_constant_ST. reflexivity. Qed.
Lemma bisec_cond_any_R c k a b : br c k ->
  ST T A (bisec_cond c a b) (fun r => vA A r = if k then vA A a else vA A b).
Proof.
  intros Hc. eapply ST_weaken; [apply bisec_ST; auto|]. intros r H. cbv beta in H. rewrite Hc in H.
  apply (eqm_small nmod); [|apply A_range|destruct k; apply A_range].
  rewrite H. apply eqm_eq. destruct k; cbn [Z.b2z]; ring.
Qed.
Lemma bisec_cond_R c k a b x y : br c k -> br a x -> br b y -> ST T A (bisec_cond c a b) (fun r => br r (if k then x else y)).
Proof.
  intros Hc Ha Hb. eapply ST_weaken; [apply (bisec_cond_any_R c k a b Hc)|]. intros r H. cbv beta in H.
  unfold br in *. rewrite H. destruct k; auto.
Qed.
Lemma assert_true_R a x : br a x -> ST T A (assert_true a) (fun _ => x = true).
Proof.
  intros Ha. eapply ST_weaken; [apply assert_true_ST; auto|]. intros r H. cbv beta in H. rewrite Ha in H.
  destruct x; [reflexivity|]. pose proof (n_pos n_prime). apply (eqm_small nmod) in H; cbn in *; lia.
Qed.
Lemma assert_false_R a x : br a x -> ST T A (assert_false a) (fun _ => x = false).
Proof.
  intros Ha. eapply ST_weaken; [apply assert_false_ST; auto|]. intros r H. cbv beta in H. rewrite Ha in H.
  destruct x; [|reflexivity]. pose proof (n_pos n_prime). apply (eqm_small nmod) in H; cbn in *; lia.
Qed.
Lemma try_assert_false_R a x : br a x -> ST T A (try_assert_false a) (fun r => x = false /\ r = true).
Proof.
  intros Ha c r c' W H S. pose proof (try_assert_false_ST T A a c r c' W H S) as K. cbv beta in K.
  rewrite Ha in K. pose proof (n_pos n_prime). split.
  - destruct x; [|reflexivity]. apply (eqm_small nmod) in K; cbn in *; lia.
  - unfold try_assert_false, assert_constant, mbind in H. unfold massert in H.
    destruct (a_val a =? 0) eqn:E; [|discriminate].
    destruct (one_line_add _ _ _) as [[? ?]|]; [|discriminate]. cbn in H. injection H as <- _. reflexivity.
Qed.
End S.

(** ** Honest runs *)
Section C.
Hypothesis HD : ri_d_bits I mod 108 <> 0.

Definition cr (c : ctx) (x : aint) (r : Z) : Prop := hint w I c x /\ val a_val x ≡ r ⟨w⟩.
Definition cb (c : ctx) (x : av) (b : bool) : Prop := valid c x /\ a_val x = Z.b2z b.
Lemma cr_mono c c' x r : extends c c' -> cr c x r -> cr c' x r.
Proof. intros E [H1 H2]. split; [eapply hint_mono; eauto|auto]. Qed.
Lemma cb_mono c c' x r : extends c c' -> cb c x r -> cb c' x r.
Proof. intros E [H1 H2]. split; [eapply valid_mono; eauto|auto]. Qed.
Lemma cr_eq c x r s : cr c x r -> r ≡ s ⟨w⟩ -> cr c x s.
Proof. intros [H1 H2] H3. split; [auto|]. rewrite H2. exact H3. Qed.

Lemma assign_w_C c x : wf c -> 0 <= x < w -> CT c (assign_w I x) (fun r c' => cr c' r x).
Proof.
  intros W H. pose proof (w_lt w I IO w_prime) as WL.
  eapply CT_weaken; [apply (assign_w_CT w I IO n_prime c x W); lia|].
  intros r c' _ _ (H1 & H2 & H3). split; [|rewrite H3; reflexivity]. split; [auto|]. split; [lia|]. intros _. lia.
Qed.
Lemma assign_int_constant_C c x : wf c -> 0 <= x < w -> CT c (assign_int_constant I x) (fun r c' => cr c' r x /\ i_times r = 1).
Proof.
  intros W H. eapply CT_weaken; [eapply (assign_int_constant_CT w I IO); eauto|].
  intros r c' _ _ (H1 & H3 & H2). split; [|auto]. split; [auto|rewrite H2; reflexivity].
Qed.
Lemma int_add_C c a b ra rb : wf c -> cr c a ra -> cr c b rb -> CT c (int_add I a b) (fun r c' => cr c' r (ra + rb)).
Proof.
  intros W [Ha Va] [Hb Vb]. eapply CT_weaken; [eapply (int_add_CT w I IO); eauto|].
  intros r c' _ _ (H1 & H2). split; [auto|rewrite H2, Va, Vb; reflexivity].
Qed.
Lemma int_sub_C c a b ra rb : wf c -> cr c a ra -> cr c b rb -> CT c (int_sub I a b) (fun r c' => cr c' r (ra - rb)).
Proof.
  intros W [Ha Va] [Hb Vb]. eapply CT_weaken; [eapply (int_sub_CT w I IO); eauto|].
  intros r c' _ _ (H1 & H2). split; [auto|rewrite H2, Va, Vb; reflexivity].
Qed.
Lemma int_neg_C c a ra : wf c -> cr c a ra -> CT c (int_neg I a) (fun r c' => cr c' r (- ra)).
Proof.
  intros W [Ha Va]. eapply CT_weaken; [eapply (int_neg_CT w I IO); eauto|].
  intros r c' _ _ (H1 & H2). split; [auto|rewrite H2, Va; reflexivity].
Qed.
Lemma int_mul_C c a b ra rb : wf c -> cr c a ra -> cr c b rb -> CT c (int_mul I a b) (fun r c' => cr c' r (ra * rb)).
Proof.
  intros W [Ha Va] [Hb Vb]. eapply CT_weaken; [apply (int_mul_CT w I IO n_prime w_prime HD c a b W); [apply Ha|apply Hb]|].
  intros r c' _ _ (H1 & _ & H2). split; [auto|rewrite H2, mod_eqm, Va, Vb; reflexivity].
Qed.
Lemma int_square_C c a ra : wf c -> cr c a ra -> CT c (int_square I a) (fun r c' => cr c' r (ra * ra)).
Proof. intros. apply int_mul_C; auto. Qed.
Lemma int_mul_small_C c a k ra : wf c -> 1 <= k < 16 -> cr c a ra ->
  CT c (int_mul_small_constant I a k) (fun r c' => cr c' r (ra * k)).
Proof.
  intros W Hk [Ha Va]. eapply CT_weaken; [eapply (int_mul_small_CT w I IO); eauto|].
  intros r c' _ _ (H1 & H2). split; [auto|rewrite H2, Va; reflexivity].
Qed.
Lemma reduce_C c a ra : wf c -> cr c a ra -> CT c (reduce I a) (fun r c' => cr c' r ra /\ i_times r = 1).
Proof.
  intros W [Ha Va]. destruct Ha as (H1 & H2 & H3). pose proof (w_pos w w_prime).
  eapply CT_weaken; [eapply (reduce_CT w I IO); eauto|].
  intros r c' _ _ (K1 & K2 & K3). split; [|auto]. split; [|rewrite K3, mod_eqm; auto]. split; [auto|]. split; [lia|].
  intros _. rewrite K3. apply Z.mod_pos_bound. lia.
Qed.
Lemma int_div_C c a b ra rb : wf c -> cr c a ra -> cr c b rb ->
  CT c (int_div I a b) (fun r c' => cb c' (fst r) (rb mod w =? 0) /\
     exists q, cr c' (snd r) q /\ (rb mod w <> 0 -> rb * q ≡ ra ⟨w⟩)).
Proof.
  intros W [(H1 & _ & H3) Va] [(K1 & _ & K3) Vb].
  assert (EB : val a_val b mod w = rb mod w) by exact Vb.
  eapply CT_weaken; [eapply (int_div_CT w I IO); eauto|].
  intros r c' _ _ (P1 & P2 & P3 & _ & P4 & _). split.
  - split; [auto|]. rewrite P2, EB. reflexivity.
  - exists (val a_val (snd r)). split; [split; [auto|reflexivity]|]. intros NZ. rewrite <- Vb, <- Va. apply P4. congruence.
Qed.
Lemma is_int_zero_C c a ra : wf c -> cr c a ra -> CT c (is_int_zero I a) (fun r c' => cb c' r (ra mod w =? 0)).
Proof.
  intros W [(H1 & _ & H3) Va]. assert (EA : val a_val a mod w = ra mod w) by exact Va.
  eapply CT_weaken; [eapply (is_int_zero_CT w I IO); eauto|].
  intros r c' _ _ (P1 & P2). split; [auto|]. rewrite P2, EA. reflexivity.
Qed.
Lemma is_int_equal_C c a b ra rb : wf c -> cr c a ra -> cr c b rb ->
  CT c (is_int_equal I a b) (fun r c' => cb c' r ((ra - rb) mod w =? 0)).
Proof.
  intros W [Ha Va] [Hb Vb].
  assert (EB : (val a_val a - val a_val b) mod w = (ra - rb) mod w).
  { change (val a_val a - val a_val b ≡ ra - rb ⟨w⟩). rewrite Va, Vb. reflexivity. }
  eapply CT_weaken; [eapply (is_int_equal_CT w I IO); eauto|].
  intros r c' _ _ (P1 & P2). split; [auto|]. rewrite P2, EB. reflexivity.
Qed.
Lemma assert_int_equal_C c a b ra rb : wf c -> cr c a ra -> cr c b rb -> ra ≡ rb ⟨w⟩ ->
  CT c (assert_int_equal I a b) (fun _ _ => True).
Proof.
  intros W [Ha Va] [Hb Vb] E. eapply (assert_int_equal_CT w I IO); eauto. rewrite Va, Vb. exact E.
Qed.
Lemma bisec_int_C c x k a b ra rb : wf c -> cb c x k -> cr c a ra -> cr c b rb ->
  CT c (bisec_int I x a b) (fun r c' => cr c' r (if k then ra else rb) /\ i_times r = Z.max (i_times a) (i_times b)).
Proof.
  intros W [Vx Ex] [Ha Va] [Hb Vb]. eapply CT_weaken; [apply (bisec_int_CT w I IO n_prime c x a b W Ha Hb Vx)|].
  - rewrite Ex. destruct k; cbn; auto.
  - intros r c' _ _ (P1 & P3 & P2). split; [|auto]. split; [auto|]. rewrite P2, Ex. destruct k; cbn [Z.b2z Z.eqb Pos.eqb]; auto.
Qed.
Lemma int_times1 c x r : cr c x r -> i_times x = 1 -> 0 <= val a_val x < w.
Proof. intros [(H1 & _ & H3) _] E. pose proof (wf_val _ _ _ (hk_w _ _ _ H1)). specialize (H3 E). lia. Qed.

(** Bits. *)
Lemma fnb z b : z mod nmod = Z.b2z b mod nmod -> z mod nmod = Z.b2z b.
Proof. intros ->. apply Z.mod_small, nbit. Qed.
Ltac bc L := eapply CT_weaken; [apply L; auto|]; let H := fresh in intros ? ? _ _ H; cbv beta in H;
  destruct H as [H ?E]; split; [exact H|].
Ltac fsolve := pose proof (n_pos n_prime); unfold fadd, fsub, fmul; cbn [Z.b2z];
  repeat (rewrite Z.mod_small by lia); try (rewrite Zmod_small; lia); try lia.
Lemma b2z_ring z b (H : z ≡ Z.b2z b ⟨nmod⟩) : z mod nmod = Z.b2z b.
Proof. unfold eqm in H. rewrite H. apply Z.mod_small, nbit. Qed.
Lemma fand_b x y : fmul (Z.b2z x) (Z.b2z y) = Z.b2z (x && y).
Proof. apply b2z_ring. destruct x, y; reflexivity. Qed.
Lemma f2sub x y z b : z = x - y -> z ≡ Z.b2z b ⟨nmod⟩ -> fsub x y = Z.b2z b.
Proof. intros -> H. apply b2z_ring. exact H. Qed.
Lemma and_C c a b x y : wf c -> cb c a x -> cb c b y -> CT c (and_ a b) (fun r c' => cb c' r (x && y)).
Proof. intros W [Ha Ea] [Hb Eb]. bc and_CT. rewrite E, Ea, Eb. apply fand_b. Qed.
Lemma or_C c a b x y : wf c -> cb c a x -> cb c b y -> CT c (or_ a b) (fun r c' => cb c' r (x || y)).
Proof.
  intros W [Ha Ea] [Hb Eb]. bc or_CT. rewrite E, Ea, Eb, fand_b. apply b2z_ring. unfold fadd. estrip.
  apply eqm_eq. destruct x, y; reflexivity.
Qed.
Lemma xnor_C c a b x y : wf c -> cb c a x -> cb c b y -> CT c (xnor_ a b) (fun r c' => cb c' r (Bool.eqb x y)).
Proof.
  intros W [Ha Ea] [Hb Eb]. bc xnor_CT. rewrite E, Ea, Eb. apply b2z_ring. unfold fadd, fsub, fmul. estrip.
  apply eqm_eq. destruct x, y; reflexivity.
Qed.
Lemma xor_C c a b x y : wf c -> cb c a x -> cb c b y -> CT c (xor_ a b) (fun r c' => cb c' r (xorb x y)).
Proof.
  intros W [Ha Ea] [Hb Eb]. bc xor_CT. rewrite E, Ea, Eb. apply b2z_ring. unfold fadd, fsub, fmul. estrip.
  apply eqm_eq. destruct x, y; reflexivity.
Qed.
Lemma not_C c a x : wf c -> cb c a x -> CT c (not_ a) (fun r c' => cb c' r (negb x)).
Proof.
  intros W [Ha Ea]. bc not_CT. rewrite E, Ea. apply b2z_ring. apply eqm_eq. destruct x; reflexivity.
Qed.
Lemma not_and_C c a b x y : wf c -> cb c a x -> cb c b y -> CT c (not_and a b) (fun r c' => cb c' r (negb x && y)).
Proof.
  intros W [Ha Ea] [Hb Eb]. bc not_and_CT. rewrite E, Ea, Eb, fand_b. apply b2z_ring.
  apply eqm_eq. destruct x, y; reflexivity.
Qed.
Lemma assign_constant_C c b : wf c -> CT c (assign_constant (Z.b2z b)) (fun r c' => cb c' r b).
Proof.
  intros W. eapply CT_weaken; [apply assign_constant_CT; auto; apply nbit|]. intros r c' _ _ H. exact H.
Qed.
Lemma assign_bit_C c b : wf c -> CT c (assign_bit (Z.b2z b)) (fun r c' => cb c' r b).
Proof.
  intros W. eapply CT_weaken; [apply assign_bit_CT; auto; destruct b; cbn; auto|]. intros r c' _ _ H. exact H.
Qed.
Lemma bisec_cond_any_C c d k a b : wf c -> cb c d k -> valid c a -> valid c b ->
  CT c (bisec_cond d a b) (fun r c' => valid c' r /\ a_val r ≡ (if k then a_val a else a_val b) ⟨nmod⟩).
Proof.
  intros W [Hd Ed] Ha Hb. bc bisec_CT. rewrite E, Ed. unfold fadd, fsub, fmul. estrip.
  apply eqm_eq. destruct k; cbn [Z.b2z]; ring.
Qed.
Lemma bisec_cond_C c d k a b x y : wf c -> cb c d k -> cb c a x -> cb c b y ->
  CT c (bisec_cond d a b) (fun r c' => cb c' r (if k then x else y)).
Proof.
  intros W [Hd Ed] [Ha Ea] [Hb Eb]. bc bisec_CT. rewrite E, Ed, Ea, Eb. apply b2z_ring. unfold fsub, fmul. estrip.
  apply eqm_eq. destruct k, x, y; reflexivity.
Qed.
Lemma assert_true_C c a : wf c -> cb c a true -> CT c (assert_true a) (fun _ _ => True).
Proof. intros W [Ha Ea]. apply assert_true_CT; auto. Qed.
Lemma assert_false_C c a : wf c -> cb c a false -> CT c (assert_false a) (fun _ _ => True).
Proof. intros W [Ha Ea]. apply assert_false_CT; auto. Qed.
Lemma try_assert_false_C c a : wf c -> cb c a false -> CT c (try_assert_false a) (fun r _ => r = true).
Proof. intros W [Ha Ea]. apply try_assert_false_CT; auto. Qed.
End C.
End Res.

(** One gadget of a program, from the rules above. *)
Ltac sg L := eapply ST_bind; [eapply L; eauto|app|app|cbv beta].
Ltac up E := match type of E with extends ?c ?c' =>
  repeat match goal with
  | H : cr _ _ c _ _ |- _ => apply (cr_mono _ _ _ _ _ _ E) in H
  | H : cb c _ _ |- _ => apply (cb_mono _ _ _ _ E) in H
  | H : valid c _ |- _ => apply (valid_mono _ _ _ E) in H
  end end.
Ltac cg L := eapply CT_bind; [eapply L; eauto|cbv beta].
