(** Integer invariants and the arithmetic behind the integer gadgets. *)
From Verif Require Import Prelude FieldZ Circuit Context Spec Logic ModArith Prims BaseChip BaseProofs
  RangeInfo RangeChip IntegerChip InfoProofs IntArith RangeProofs SpecInt.

(** ** Iteration over index ranges *)
Section Iter.
Context {NM : NMod}.

Lemma ST_foldM_seq T A {S} (f : S -> nat -> M S) (J : nat -> S -> Prop) k : forall s0 s,
  (forall s x, appends (f s x)) -> J s0 s ->
  (forall i s, (s0 <= i < s0 + k)%nat -> J i s -> ST T A (f s i) (J (Datatypes.S i))) ->
  ST T A (foldM f s (seq s0 k)) (J (s0 + k)%nat).
Proof.
  induction k as [|k IH]; intros s0 s Af H0 Hf; cbn [seq foldM].
  - rewrite Nat.add_0_r. apply ST_ret. exact H0.
  - eapply ST_bind; [apply Hf; [lia|exact H0]|auto|intros; apply appends_foldM; auto|].
    intros s1 H1. replace (s0 + Datatypes.S k)%nat with (Datatypes.S s0 + k)%nat by lia.
    apply IH; auto. intros i s' Hi. apply Hf. lia.
Qed.

Lemma Forall2_seq {Y} (Q : nat -> Y -> Prop) k : forall s ys,
  Forall2 Q (seq s k) ys ->
  length ys = k /\ forall i, (i < k)%nat -> exists y, nth_error ys i = Some y /\ Q (s + i)%nat y.
Proof.
  induction k as [|k IH]; intros s ys H; cbn [seq] in H; inversion H; subst.
  - split; [reflexivity|]. intros; lia.
  - apply IH in H4 as [L G]. split; [cbn [length]; lia|]. intros [|i] Hi; cbn [nth_error].
    + rewrite Nat.add_0_r. eauto.
    + replace (s + S i)%nat with (S s + i)%nat by lia. apply G. lia.
Qed.

Lemma Forall2_length {X Y} (Q : X -> Y -> Prop) l ys : Forall2 Q l ys -> length l = length ys.
Proof. induction 1; cbn [length]; congruence. Qed.
Lemma Forall2_nth_error_l {X Y} (Q : X -> Y -> Prop) l ys : Forall2 Q l ys ->
  forall i x, nth_error l i = Some x -> exists y, nth_error ys i = Some y /\ Q x y.
Proof.
  induction 1 as [|x y l ys H _ IH]; intros [|i] z Hz; cbn [nth_error] in *; try discriminate; eauto.
  injection Hz as <-. eauto.
Qed.

Lemma ST_mapM_seq T A {Y} (f : nat -> M Y) (Q : nat -> Y -> Prop) s k :
  (forall x, appends (f x)) ->
  (forall i, (s <= i < s + k)%nat -> ST T A (f i) (Q i)) ->
  ST T A (mapM f (seq s k))
     (fun ys => length ys = k /\ forall i, (i < k)%nat -> exists y, nth_error ys i = Some y /\ Q (s + i)%nat y).
Proof.
  intros Af Hf. eapply ST_weaken.
  - apply (ST_mapM T A f (seq s k) Q); [auto|]. intros i Hi. apply in_seq in Hi. apply Hf. lia.
  - intros ys H. apply Forall2_seq in H. exact H.
Qed.

Lemma nth_map_error {X} (f : X -> Z) l i x : nth_error l i = Some x -> nth i (map f l) 0 = f x.
Proof.
  intros H. apply (map_nth_error f) in H. erewrite nth_error_nth by exact H. reflexivity.
Qed.
End Iter.

(** ** Invariants *)
Section Inv.
Context {NM : NMod}.
Variable w : Z.
Variable I : rinfo.
Hypothesis IO : info_ok w I.
Hypothesis n_prime : prime nmod.
Hypothesis w_prime : prime w.

Notation L := (ri_limbs I).
Notation wb := (ri_w_ceil_bits I).

Lemma n_gt : 2 ^ 20 * LIMB < nmod.
Proof.
  pose proof (io_mul_n _ _ IO). pose proof LIMB_ge. nia.
Qed.
Lemma n_gt2 : LIMB * LIMB < nmod.
Proof. pose proof (io_mul_n _ _ IO). pose proof LIMB_ge. nia. Qed.
Lemma n_big : 2 ^ 108 < nmod.
Proof. pose proof n_gt. fold LIMB. pose proof LIMB_ge. lia. Qed.
Lemma L_le : 3970 * Z.of_nat L <= 2 ^ 18 - 1.
Proof. pose proof (io_mul_v _ _ IO). pose proof LIMB_ge. nia. Qed.
Lemma wb_pos : 0 < 2 ^ wb.
Proof. apply Z.pow_pos_nonneg; pose proof (io_wb1 _ _ IO); lia. Qed.
Lemma w_le : w <= 2 ^ wb.
Proof. pose proof (io_whi _ _ IO). lia. Qed.
Lemma w_pos : 1 < w.
Proof. pose proof (prime_ge_2 _ w_prime). lia. Qed.
Lemma w_2 : 2 ^ wb < 2 * w.
Proof.
  pose proof (io_wlo _ _ IO). pose proof (io_wb1 _ _ IO).
  replace wb with (Z.succ (wb - 1)) at 1 by lia. rewrite Z.pow_succ_r by lia. lia.
Qed.
Lemma L_cover : (Z.of_nat L - 1) * 108 + wb mod 108 <= wb <= Z.of_nat L * 108.
Proof.
  pose proof (io_limbs _ _ IO). pose proof (io_wb1 _ _ IO).
  pose proof (Z.div_mod wb 108 ltac:(lia)). pose proof (Z.mod_pos_bound wb 108 ltac:(lia)).
  pose proof (Z.div_mod (wb + 107) 108 ltac:(lia)). pose proof (Z.mod_pos_bound (wb + 107) 108 ltac:(lia)).
  lia.
Qed.
Lemma LIMB_pow k : 0 <= k -> LIMB ^ k = 2 ^ (k * 108).
Proof. intros H. unfold LIMB. rewrite <- Z.pow_mul_r by lia. f_equal. lia. Qed.
Lemma w_lt : w < 2 ^ wb.
Proof.
  pose proof (io_whi _ _ IO).
  destruct (Z.eq_dec w (2 ^ wb)) as [E|N]; [|lia]. exfalso.
  pose proof L_cover. pose proof (io_L3 _ _ IO). pose proof (io_wb1 _ _ IO).
  pose proof (Z.mod_pos_bound wb 108 ltac:(lia)).
  assert (D : (2 | w)).
  { exists (2 ^ (wb - 1)). rewrite Z.mul_comm, <- Z.pow_succ_r by lia. rewrite E. f_equal. lia. }
  apply prime_divisors in D; [|exact w_prime].
  assert (2 ^ 2 <= 2 ^ wb) by (apply Z.pow_le_mono_r; lia). lia.
Qed.

Lemma w_lt_LIMB : 0 <= w < LIMB ^ Z.of_nat L.
Proof.
  pose proof w_pos. split; [lia|]. rewrite LIMB_pow by lia. pose proof w_lt. pose proof L_cover.
  eapply Z.lt_le_trans; [eassumption|]. apply Z.pow_le_mono_r; lia.
Qed.

(** Digits of w. *)
Definition wd (i : nat) : Z := if (i <? L)%nat then limb_at w i else 0.
Lemma wd_lsum : lsum wd L = w.
Proof.
  transitivity (lval (bn_to_limb_le L w)); [|apply lval_limbs; apply w_lt_LIMB].
  rewrite lval_lsum, bn_to_limb_le_length. apply lsum_ext. intros i Hi. unfold wd, bn_to_limb_le. rewrite nth_map_seq by auto.
  destruct (Nat.ltb_spec i L); [reflexivity|lia].
Qed.
Lemma wd_range i : 0 <= wd i < LIMB.
Proof. unfold wd. pose proof LIMB_pos. destruct (i <? L)%nat; [apply limb_at_range|lia]. Qed.
Definition maxw := fold_right Z.max 0 (ri_w_limbs_bn I).
Lemma wd_max i : 0 <= wd i <= maxw.
Proof.
  pose proof (io_maxw _ _ IO) as F. fold maxw in F. unfold wd. destruct (Nat.ltb_spec i L) as [H|H].
  - rewrite Forall_forall in F. apply F. rewrite (io_wl_bn _ _ IO). unfold bn_to_limb_le.
    apply in_map. apply in_seq. lia.
  - pose proof (io_L3 _ _ IO) as H3. rewrite Forall_forall in F.
    assert (K : In (limb_at w 0) (ri_w_limbs_bn I)).
    { rewrite (io_wl_bn _ _ IO). unfold bn_to_limb_le. apply in_map. apply in_seq. lia. }
    apply F in K. lia.
Qed.
Lemma wl_nth i x : nth_error (ri_w_limbs I) i = Some x -> (i < L)%nat /\ x = wd i.
Proof.
  rewrite (io_wl _ _ IO). intros H.
  assert (Hi : (i < L)%nat).
  { assert (K : nth_error (map fof (bn_to_limb_le L w)) i <> None) by congruence.
    apply nth_error_Some in K. rewrite map_length, bn_to_limb_le_length in K. exact K. }
  split; [exact Hi|]. unfold bn_to_limb_le in H. rewrite map_map in H.
  rewrite nth_error_map_seq in H by exact Hi. injection H as <-. unfold wd.
  destruct (Nat.ltb_spec i L); [|lia]. apply fof_small; [exact n_big|]. apply limb_at_range.
Qed.

(** ** Well-formed integers *)
Section Wf.
Variable f : av -> Z.
Definition lv (x : aint) (i : nat) : Z := nth i (map f (i_limbs x)) 0.
Definition val (x : aint) : Z := lval (map f (i_limbs x)).

Record iwf (x : aint) : Prop := {
  wf_len : length (i_limbs x) = L;
  wf_t : 1 <= i_times x <= 63;
  wf_low : forall i, (i < L - 1)%nat -> 0 <= lv x i < i_times x * LIMB;
  wf_lead : 0 <= lv x (L - 1) < i_times x * 2 ^ (wb mod 108);
  wf_val : 0 <= val x < i_times x * 2 ^ wb;
  wf_nat : f (i_native x) = val x mod nmod
}.

Lemma lead_le : 2 ^ (wb mod 108) <= LIMB.
Proof.
  unfold LIMB. apply Z.pow_le_mono_r; [lia|]. pose proof (Z.mod_pos_bound wb 108 ltac:(lia)). lia.
Qed.
Lemma lv_out x i : length (i_limbs x) = L -> (L <= i)%nat -> lv x i = 0.
Proof. intros H1 H2. unfold lv. apply nth_overflow. rewrite map_length. lia. Qed.
Lemma val_lsum x : length (i_limbs x) = L -> val x = lsum (lv x) L.
Proof. intros H. unfold val. rewrite lval_lsum, map_length, H. reflexivity. Qed.
Lemma lv_range x i : iwf x -> 0 <= lv x i < i_times x * LIMB.
Proof.
  intros H. pose proof (wf_t _ H). pose proof LIMB_pos. pose proof lead_le.
  destruct (le_lt_dec L i); [rewrite lv_out by (auto; apply H); nia|].
  destruct (Nat.eq_dec i (L - 1)) as [->|]; [pose proof (wf_lead _ H); nia|].
  apply (wf_low _ H). lia.
Qed.
Lemma lv_nth x i a : nth_error (i_limbs x) i = Some a -> f a = lv x i.
Proof. intros H. symmetry. apply nth_map_error. exact H. Qed.

Lemma limbs_of g (ys : list av) k :
  length ys = k /\ (forall i, (i < k)%nat -> exists y, nth_error ys i = Some y /\ f y = g i) ->
  forall i, (i < k)%nat -> nth i (map f ys) 0 = g i.
Proof.
  intros [H1 H2] i Hi. destruct (H2 i Hi) as (y & Hy & E). rewrite <- E. apply nth_map_error. exact Hy.
Qed.
Lemma lval_of g (ys : list av) k :
  length ys = k /\ (forall i, (i < k)%nat -> exists y, nth_error ys i = Some y /\ f y = g i) ->
  lval (map f ys) = lsum g k.
Proof.
  intros H. rewrite lval_lsum, map_length. rewrite (proj1 H). apply lsum_ext. apply limbs_of. exact H.
Qed.
End Wf.

Lemma lsum_le g h k : (forall i, (i < k)%nat -> g i <= h i) -> lsum g k <= lsum h k.
Proof.
  intros H. enough (0 <= lsum (fun i => h i - g i) k) by (rewrite lsum_sub in *; lia).
  apply lsum_nonneg. intros i Hi. specialize (H i Hi). lia.
Qed.
Lemma lsum_top k : lsum (fun _ => LIMB - 1) k = LIMB ^ Z.of_nat k - 1.
Proof.
  induction k as [|k IH]; [reflexivity|]. cbn [lsum]. rewrite IH, LIMB_pow_S. ring.
Qed.
(** The padding table can only be built when the leading limb is a proper one. *)
Lemma wb_mod : 36 <= wb mod 108 < 108.
Proof.
  destruct (io_lead _ _ IO) as [E|H]; [|exact H]. exfalso.
  destruct (io_pad _ _ IO 1 ltac:(lia)) as (us & _ & P).
  pose proof (io_L3 _ _ IO) as H3. pose proof L_cover as LC. pose proof (io_wb1 _ _ IO).
  pose proof (ps_lead _ _ _ _ _ P) as PL. rewrite E in PL. change (2 ^ 0) with 1 in PL.
  pose proof (ps_lo _ _ _ _ _ P) as LO.
  assert (WE : wb = Z.of_nat L * 108).
  { pose proof (io_limbs _ _ IO).
    pose proof (Z.div_mod wb 108 ltac:(lia)).
    pose proof (Z.div_mod (wb + 107) 108 ltac:(lia)). pose proof (Z.mod_pos_bound (wb + 107) 108 ltac:(lia)). lia. }
  rewrite WE, <- LIMB_pow in LO by lia.
  rewrite lval_lsum, (ps_len _ _ _ _ _ P) in LO.
  replace L with (S (L - 1)) in LO by lia. cbn [lsum] in LO. rewrite LIMB_pow_S in LO.
  assert (B : lsum (fun i => nth i us 0) (L - 1) <= 3 * lsum (fun _ => LIMB - 1) (L - 1)).
  { rewrite <- lsum_scale. apply lsum_le. intros i Hi. pose proof (ps_low _ _ _ _ _ P i Hi).
    pose proof LIMB_ge. lia. }
  rewrite lsum_top in B. pose proof (LIMB_pow_pos (L - 1)). pose proof LIMB_ge. nia.
Qed.
Lemma wb_eq : wb = 108 * (Z.of_nat L - 1) + wb mod 108.
Proof.
  pose proof wb_mod. pose proof (io_limbs _ _ IO). pose proof (io_wb1 _ _ IO).
  pose proof (Z.div_mod wb 108 ltac:(lia)).
  pose proof (Z.div_mod (wb + 107) 108 ltac:(lia)). pose proof (Z.mod_pos_bound (wb + 107) 108 ltac:(lia)). lia.
Qed.
(** Leading limb of a number below 2^wb. *)
Lemma lead_limb x : 0 <= x < 2 ^ wb -> 0 <= limb_at x (L - 1) < 2 ^ (wb mod 108).
Proof.
  intros Hx. pose proof (io_L3 _ _ IO) as H3. pose proof wb_mod. pose proof lead_le.
  split; [apply limb_at_range|]. rewrite limb_at_spec.
  assert (x / LIMB ^ Z.of_nat (L - 1) < 2 ^ (wb mod 108)).
  { apply Z.div_lt_upper_bound; [apply LIMB_pow_pos|]. rewrite LIMB_pow by lia.
    rewrite <- Z.pow_add_r by lia. rewrite wb_eq in Hx.
    replace (Z.of_nat (L - 1) * 108 + wb mod 108) with (108 * (Z.of_nat L - 1) + wb mod 108) by lia. lia. }
  assert (0 <= x / LIMB ^ Z.of_nat (L - 1)) by (apply Z.div_pos; [lia|apply LIMB_pow_pos]).
  rewrite Z.mod_small by lia. lia.
Qed.

Definition linf (f : av -> Z) (elems : list (av * Z)) : Z :=
  fold_right (fun e acc => f (fst e) * snd e + acc) 0 elems.
Lemma linf_coeffs f limbs : (length limbs <= L)%nat ->
  linf f (combine limbs (ri_coeffs I)) ≡ lval (map f limbs) ⟨nmod⟩.
Proof.
  rewrite (io_coeffs _ _ IO). intros H.
  assert (G : forall limbs s k, (length limbs <= k)%nat ->
    linf f (combine limbs (map (fun i => fof (LIMB ^ Z.of_nat i)) (seq s k)))
      ≡ LIMB ^ Z.of_nat s * lval (map f limbs) ⟨nmod⟩).
  { clear limbs H. induction limbs as [|x l IH]; intros s k H.
    - cbn. rewrite Z.mul_0_r. reflexivity.
    - destruct k as [|k]; [cbn [length] in H; lia|].
      cbn [seq map combine linf fold_right fst snd lval].
      change (fold_right _ 0 ?y) with (linf f y). rewrite IH by (cbn [length] in H; lia).
      rewrite LIMB_pow_S. unfold fof. rewrite mod_eqm. apply eqm_eq. ring. }
  rewrite G by exact H. change (LIMB ^ Z.of_nat 0) with 1. rewrite Z.mul_1_l. reflexivity.
Qed.
Lemma linf_ones f limbs : linf f (map (fun v => (v, 1)) limbs) = fold_right (fun x acc => f x + acc) 0 limbs.
Proof. induction limbs as [|x l IH]; cbn [map linf fold_right fst snd]; [reflexivity|]. unfold linf in IH. lia. Qed.
End Inv.
