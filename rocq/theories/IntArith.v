(** Integer arithmetic behind the limb equations: positional sums, convolution,
    carries and the Chinese-remainder step.  No circuit here. *)
From Verif Require Import Prelude FieldZ Circuit RangeInfo ModArith InfoProofs.

(** sum_{i<k} g i * LIMB^i *)
Fixpoint lsum (g : nat -> Z) (k : nat) : Z :=
  match k with O => 0 | S k' => lsum g k' + LIMB ^ Z.of_nat k' * g k' end.

Lemma LIMB_ge : 2 ^ 40 <= LIMB.
Proof. unfold LIMB. apply Z.pow_le_mono_r; lia. Qed.
Lemma LIMB_pow_pos k : 0 < LIMB ^ Z.of_nat k.
Proof. apply Z.pow_pos_nonneg; [apply LIMB_pos|lia]. Qed.
Lemma LIMB_pow_S k : LIMB ^ Z.of_nat (S k) = LIMB ^ Z.of_nat k * LIMB.
Proof. rewrite Nat2Z.inj_succ, Z.pow_succ_r by lia. ring. Qed.

Lemma lsum_ext g h k : (forall i, (i < k)%nat -> g i = h i) -> lsum g k = lsum h k.
Proof.
  induction k as [|k IH]; intros H; cbn [lsum]; [reflexivity|].
  rewrite IH by (intros; apply H; lia). rewrite H by lia. reflexivity.
Qed.
Lemma lsum_add g h k : lsum (fun i => g i + h i) k = lsum g k + lsum h k.
Proof. induction k as [|k IH]; cbn [lsum]; [reflexivity|]. rewrite IH. ring. Qed.
Lemma lsum_sub g h k : lsum (fun i => g i - h i) k = lsum g k - lsum h k.
Proof. induction k as [|k IH]; cbn [lsum]; [reflexivity|]. rewrite IH. ring. Qed.
Lemma lsum_scale a g k : lsum (fun i => a * g i) k = a * lsum g k.
Proof. induction k as [|k IH]; cbn [lsum]; [ring|]. rewrite IH. ring. Qed.
Lemma lsum_zero g k : (forall i, (i < k)%nat -> g i = 0) -> lsum g k = 0.
Proof.
  induction k as [|k IH]; intros H; cbn [lsum]; [reflexivity|].
  rewrite IH by (intros; apply H; lia). rewrite H by lia. ring.
Qed.
Lemma lsum_nonneg g k : (forall i, (i < k)%nat -> 0 <= g i) -> 0 <= lsum g k.
Proof.
  induction k as [|k IH]; intros H; cbn [lsum]; [lia|].
  pose proof (IH ltac:(intros; apply H; lia)). pose proof (H k ltac:(lia)).
  pose proof (LIMB_pow_pos k). nia.
Qed.
Lemma lsum_bound g k : (forall i, (i < k)%nat -> 0 <= g i < LIMB) -> 0 <= lsum g k < LIMB ^ Z.of_nat k.
Proof.
  induction k as [|k IH]; intros H; cbn [lsum]; [change (LIMB ^ Z.of_nat 0) with 1; lia|].
  pose proof (IH ltac:(intros; apply H; lia)). pose proof (H k ltac:(lia)).
  pose proof (LIMB_pow_pos k). rewrite LIMB_pow_S. nia.
Qed.
Lemma lsum_shift g k : lsum g (S k) = g 0%nat + LIMB * lsum (fun i => g (S i)) k.
Proof.
  induction k as [|k IH]; [cbn [lsum]; change (LIMB ^ Z.of_nat 0) with 1; ring|].
  cbn [lsum] in *. rewrite IH. rewrite LIMB_pow_S. ring.
Qed.
Lemma lval_lsum l : lval l = lsum (fun i => nth i l 0) (length l).
Proof.
  induction l as [|x l IH]; [reflexivity|]. cbn [length]. rewrite lsum_shift. cbn [lval nth].
  rewrite IH. reflexivity.
Qed.
(** Beyond k limbs the rest is a multiple of LIMB^k. *)
Lemma lsum_mod g k m : (k <= m)%nat -> lsum g m ≡ lsum g k ⟨LIMB ^ Z.of_nat k⟩.
Proof.
  intros H. induction m as [|m IH]; [replace k with 0%nat by lia; reflexivity|].
  destruct (Nat.eq_dec k (S m)) as [->|N]; [reflexivity|].
  cbn [lsum]. rewrite IH by lia. apply eqm_divide; [pose proof (LIMB_pow_pos k); lia|].
  replace (Z.of_nat m) with (Z.of_nat k + Z.of_nat (m - k)) by lia. rewrite Z.pow_add_r by lia.
  exists (LIMB ^ Z.of_nat (m - k) * g m). ring.
Qed.
Lemma lsum_eq_digits g h k : (forall i, (i < k)%nat -> 0 <= g i < LIMB) ->
  (forall i, (i < k)%nat -> 0 <= h i < LIMB) -> lsum g k = lsum h k ->
  forall i, (i < k)%nat -> g i = h i.
Proof.
  induction k as [|k IH]; intros Hg Hh E i Hi; [lia|].
  assert (G : lsum g k = lsum h k /\ g k = h k).
  { cbn [lsum] in E. pose proof (lsum_bound g k ltac:(intros; apply Hg; lia)).
    pose proof (lsum_bound h k ltac:(intros; apply Hh; lia)). pose proof (LIMB_pow_pos k).
    set (P := LIMB ^ Z.of_nat k) in *.
    assert (g k = h k); [|split; [nia|auto]]. nia. }
  destruct G as [G1 G2]. destruct (Nat.eq_dec i k) as [->|N]; [exact G2|].
  apply IH; [intros; apply Hg; lia|intros; apply Hh; lia|exact G1|lia].
Qed.
Lemma lsum_zero_inv g k : (forall i, (i < k)%nat -> 0 <= g i) -> lsum g k = 0 ->
  forall i, (i < k)%nat -> g i = 0.
Proof.
  induction k as [|k IH]; intros Hg E i Hi; [lia|]. cbn [lsum] in E.
  pose proof (lsum_nonneg g k ltac:(intros; apply Hg; lia)). pose proof (Hg k ltac:(lia)).
  pose proof (LIMB_pow_pos k). assert (g k = 0) by nia.
  destruct (Nat.eq_dec i k) as [->|N]; [auto|]. apply IH; [intros; apply Hg; lia|nia|lia].
Qed.

(** Plain finite sums over an index list. *)
Definition zsum (g : nat -> Z) (l : list nat) : Z := fold_right (fun i acc => g i + acc) 0 l.
Lemma zsum_app g a b : zsum g (a ++ b) = zsum g a + zsum g b.
Proof. induction a as [|x a IH]; cbn [app zsum fold_right]; [reflexivity|]. unfold zsum in *. lia. Qed.
Lemma zsum_ext g h l : (forall i, In i l -> g i = h i) -> zsum g l = zsum h l.
Proof.
  induction l as [|x l IH]; intros H; [reflexivity|]. cbn [zsum fold_right].
  fold (zsum g l) (zsum h l). rewrite H by (left; auto). rewrite IH by (intros; apply H; right; auto).
  reflexivity.
Qed.
Lemma zsum_zero g l : (forall i, In i l -> g i = 0) -> zsum g l = 0.
Proof.
  induction l as [|x l IH]; intros H; [reflexivity|]. cbn [zsum fold_right].
  fold (zsum g l). rewrite H by (left; auto). rewrite IH by (intros; apply H; right; auto). reflexivity.
Qed.
Lemma zsum_add g h l : zsum (fun i => g i + h i) l = zsum g l + zsum h l.
Proof.
  induction l as [|x l IH]; [reflexivity|]. cbn [zsum fold_right].
  fold (zsum g l) (zsum h l) (zsum (fun i => g i + h i) l). lia.
Qed.
Lemma zsum_sub g h l : zsum (fun i => g i - h i) l = zsum g l - zsum h l.
Proof.
  induction l as [|x l IH]; [reflexivity|]. cbn [zsum fold_right].
  fold (zsum g l) (zsum h l) (zsum (fun i => g i - h i) l). lia.
Qed.
Lemma zsum_bound g l m : (forall i, In i l -> 0 <= g i <= m) -> 0 <= zsum g l <= Z.of_nat (length l) * m.
Proof.
  induction l as [|x l IH]; intros H; [cbn; lia|]. cbn [zsum fold_right length].
  fold (zsum g l). pose proof (H x ltac:(left; auto)).
  pose proof (IH ltac:(intros; apply H; right; auto)). rewrite Nat2Z.inj_succ. lia.
Qed.
Lemma zsum_eqm m g h l : (forall i, In i l -> g i ≡ h i ⟨m⟩) -> zsum g l ≡ zsum h l ⟨m⟩.
Proof.
  induction l as [|x l IH]; intros H; [reflexivity|]. cbn [zsum fold_right].
  fold (zsum g l) (zsum h l). rewrite H by (left; auto). rewrite IH by (intros; apply H; right; auto).
  reflexivity.
Qed.

(** Convolution column of two zero-extended digit sequences. *)
Definition conv (a b : nat -> Z) (p : nat) : Z := zsum (fun i => a i * b (p - i)%nat) (seq 0 (S p)).

Lemma seq_split3 l r p : (l <= r)%nat -> (r <= S p)%nat ->
  seq 0 (S p) = seq 0 l ++ seq l (r - l) ++ seq r (S p - r).
Proof.
  intros H1 H2.
  replace (S p) with (l + ((r - l) + (S p - r)))%nat at 1 by lia.
  rewrite !seq_app. repeat f_equal; lia.
Qed.
(** Only the indices in the window contribute. *)
Lemma conv_window a b L p :
  (forall i, (L <= i)%nat -> a i = 0) -> (forall i, (L <= i)%nat -> b i = 0) ->
  conv a b p = zsum (fun i => a i * b (p - i)%nat)
     (seq (p - (L - 1)) (Nat.min (p + 1) L - (p - (L - 1)))).
Proof.
  intros Ha Hb. unfold conv. set (l := (p - (L - 1))%nat). set (r := Nat.min (p + 1) L).
  destruct (le_lt_dec l r) as [H|H].
  - rewrite (seq_split3 l r p) by (unfold r; lia). rewrite !zsum_app.
    rewrite (zsum_zero _ (seq 0 l)), (zsum_zero _ (seq r (S p - r))); [lia| |].
    + intros i Hi. apply in_seq in Hi. rewrite Ha; [ring|]. unfold r in *. lia.
    + intros i Hi. apply in_seq in Hi. rewrite Hb; [ring|]. unfold l in *. lia.
  - replace (r - l)%nat with 0%nat by lia. transitivity 0; [|reflexivity].
    apply zsum_zero. intros i Hi. apply in_seq in Hi.
    destruct (le_lt_dec L i); [rewrite Ha by lia; ring|].
    rewrite Hb; [ring|]. unfold l, r in *. lia.
Qed.

Lemma conv_cons a b p : conv a b (S p) = a 0%nat * b (S p) + conv (fun i => a (S i)) b p.
Proof.
  unfold conv. rewrite <- cons_seq. cbn [zsum fold_right]. f_equal.
  rewrite <- seq_shift. generalize (seq 0 (S p)). intros l. induction l as [|x l IH]; [reflexivity|].
  cbn [map fold_right]. unfold zsum in IH. rewrite IH. reflexivity.
Qed.

Lemma eqm_scale_LIMB k a b : a ≡ b ⟨LIMB ^ Z.of_nat k⟩ -> LIMB * a ≡ LIMB * b ⟨LIMB ^ Z.of_nat (S k)⟩.
Proof.
  intros H. pose proof (LIMB_pow_pos k). pose proof (LIMB_pow_pos (S k)).
  apply eqm_divide in H; [|lia]. apply eqm_divide; [lia|]. destruct H as [q H].
  exists q. rewrite LIMB_pow_S. nia.
Qed.

(** Columns of the product, modulo LIMB^M. *)
Lemma conv_lsum b LB : (forall i, (LB <= i)%nat -> b i = 0) ->
  forall LA a M, (forall i, (LA <= i)%nat -> a i = 0) ->
  lsum (conv a b) M ≡ lsum a LA * lsum b LB ⟨LIMB ^ Z.of_nat M⟩.
Proof.
  intros Hb. induction LA as [|LA IH]; intros a M Ha.
  - cbn [lsum]. rewrite Z.mul_0_l. apply eqm_eq. apply lsum_zero. intros i _. unfold conv.
    apply zsum_zero. intros j _. rewrite Ha by lia. ring.
  - destruct M as [|M]; [unfold eqm; change (LIMB ^ Z.of_nat 0) with 1; rewrite !Z.mod_1_r; reflexivity|].
    rewrite (lsum_shift a LA).
    assert (E : lsum (conv a b) (S M) = a 0%nat * lsum b (S M) + LIMB * lsum (conv (fun i => a (S i)) b) M).
    { rewrite (lsum_shift (conv a b)), (lsum_shift b).
      rewrite (lsum_ext (fun i => conv a b (S i)) (fun i => a 0%nat * b (S i) + conv (fun j => a (S j)) b i))
        by (intros; apply conv_cons).
      rewrite lsum_add, lsum_scale. unfold conv at 1. cbn [seq zsum fold_right Nat.sub]. ring. }
    rewrite E. rewrite (eqm_scale_LIMB M _ _ (IH (fun i => a (S i)) M ltac:(intros; apply Ha; lia))).
    assert (EB : lsum b (S M) ≡ lsum b LB ⟨LIMB ^ Z.of_nat (S M)⟩).
    { destruct (le_lt_dec (S M) LB) as [H|H].
      - symmetry. apply lsum_mod. exact H.
      - apply eqm_eq. replace (S M) with (LB + (S M - LB))%nat by lia.
        generalize (S M - LB)%nat as e. induction e as [|e IHe]; [rewrite Nat.add_0_r; reflexivity|].
        rewrite Nat.add_succ_r. cbn [lsum]. rewrite IHe, (Hb (LB + e)%nat) by lia. ring. }
    rewrite EB. apply eqm_eq. ring.
Qed.

(** Chinese remainder: equal modulo both n and m, and both below lcm. *)
Lemma crt_eq n m x y : 0 < n -> 0 < m -> x ≡ y ⟨n⟩ -> x ≡ y ⟨m⟩ ->
  0 <= x < Z.lcm n m -> 0 <= y < Z.lcm n m -> x = y.
Proof.
  intros Hn Hm E1 E2 Hx Hy. apply eqm_divide in E1; [|lia]. apply eqm_divide in E2; [|lia].
  assert (D : (Z.lcm n m | x - y)) by (apply Z.lcm_least; auto).
  apply (eqm_small (Z.lcm n m)); auto. apply eqm_divide; [lia|exact D].
Qed.
