(** No gadget of the multi-scalar multiplication, keccak, tower and pairing chips ties or returns a cell that is not live.  Generated. *)
From Verif Require Import Prelude FieldZ Circuit Context Spec Logic Prims BaseChip RangeInfo RangeChip IntegerChip EccChip ScalarChip Msm
  Moduli PairingConsts Fq12Chip PairingChip KeccakChip SpecHandles Handles HandGadgets.

Section MoreOk.
Context {W : World}.
Lemma ok_hd {X} `{Handles X} (l : list X) : ok l -> ok (hd_error l).
Proof. destruct l as [|x l]; [intros; apply ok_none|]. intros K. apply ok_cons in K. apply (proj2 (ok_some _)), K. Qed.
Lemma ok_tl {X} `{Handles X} (l : list X) : ok l -> ok (tl l).
Proof. destruct l as [|x l]; [auto|]. intros K. apply ok_cons in K. apply K. Qed.
Lemma ok_lane {X} `{Handles X} (st : list (list (list X))) x y : ok st -> ok (lane st x y).
Proof. intros K. unfold lane. hs. Qed.
Lemma ok_set_nth {X} `{Handles X} i (a : X) l : ok a -> ok l -> ok (set_nth i a l).
Proof.
  intros Ka. revert i. induction l as [|b l IH]; intros [|i] K; cbn [set_nth]; try (apply ok_nil); apply ok_cons in K; destruct K; apply ok_cons; auto.
Qed.
Lemma ok_set_lane {X} `{Handles X} x y (l : list X) st : ok l -> ok st -> ok (set_lane x y l st).
Proof. intros Kl K. unfold set_lane. apply ok_set_nth; [|exact K]. apply ok_set_nth; [exact Kl|hs]. Qed.
Lemma ok_rotate {X} `{Handles X} k (l : list X) : ok l -> ok (rotate_left k l).
Proof. intros. unfold rotate_left. hs. Qed.
Lemma ok_rev_bytes {X} `{Handles X} (l : list X) : ok l -> ok (rev_bytes l).
Proof. intros. unfold rev_bytes. hs. Qed.
Lemma ok_rho_and_pi {X} `{Handles X} (st : list (list (list X))) : ok st -> ok (rho_and_pi st).
Proof.
  intros K. unfold rho_and_pi. apply ok_fst.
  assert (G : forall l (s : list (list (list X)) * list X), ok s -> ok (fold_left (fun s i =>
    let px := (nth i PI 0 mod 5)%nat in let py := (nth i PI 0 / 5)%nat in
    (set_lane px py (rotate_left (nth i RHO 0%nat) (snd s)) (fst s), lane (fst s) px py)) l s)).
  { induction l as [|i l IH]; intros s Ks; cbn [fold_left]; [exact Ks|]. apply IH. cbv zeta. apply ok_pair. split.
    - apply ok_set_lane; [apply ok_rotate, ok_snd, Ks|apply ok_fst, Ks].
    - apply ok_lane, ok_fst, Ks. }
  apply G. apply ok_pair. split; [exact K|apply ok_lane, K].
Qed.
Lemma ok_padding one zero n : ok one -> ok zero -> ok (k_padding one zero n).
Proof. intros. unfold k_padding. cbv zeta. hs. Qed.
End MoreOk.
Ltac hs2 := lazymatch goal with
  | |- ok (hd_error _) => apply ok_hd; hs
  | |- ok (tl _) => apply ok_tl; hs
  | |- ok (lane _ _ _) => apply ok_lane; hs
  | |- ok (set_lane _ _ _ _) => apply ok_set_lane; hs
  | |- ok (rotate_left _ _) => apply ok_rotate; hs
  | |- ok (rev_bytes _) => apply ok_rev_bytes; hs
  | |- ok (rho_and_pi _) => apply ok_rho_and_pi; hs
  | |- ok (k_padding _ _ _) => apply ok_padding; hs
  end.
Ltac hs_more ::= hs2.


Lemma ho_group_candidates {NM : NMod} {Wd : World} (P : Prop) I cache init chunk : (forall (Q : Prop) i p, (Q -> ok p) -> J Q (cache i p)) ->
  (P -> ok init) -> (P -> ok chunk) -> J P (group_candidates I cache init chunk).
Proof. intros Hc K1 K2. unfold group_candidates. hoa. Qed.
Global Hint Extern 0 (J _ (group_candidates _ _ _ _)) => (apply ho_group_candidates; [intros; hoa|hrel|hrel]) : hodb.
Lemma ho_all_candidates {NM : NMod} {Wd : World} (P : Prop) I cache l ln gs : (forall (Q : Prop) g i p, (Q -> ok p) -> J Q (cache g i p)) ->
  (P -> ok l) -> (P -> ok ln) -> (P -> ok gs) -> J P (all_candidates I cache l ln gs).
Proof. intros Hc K1 K2 K3. unfold all_candidates. hoa. Qed.
Global Hint Extern 0 (J _ (all_candidates _ _ _ _ _)) => (apply ho_all_candidates; [intros; hoa|hrel|hrel|hrel]) : hodb.
Lemma ho_window_body {NM : NMod} {Wd : World} (P : Prop) I pick acc cands groups wi :
  (forall (Q : Prop) g cs bs, (Q -> ok cs) -> (Q -> ok bs) -> J Q (pick g cs bs)) ->
  (P -> ok acc) -> (P -> ok cands) -> (P -> ok groups) -> J P (window_body I pick acc cands groups wi).
Proof. intros Hc K1 K2 K3. unfold window_body. hoa. Qed.
Global Hint Extern 0 (J _ (window_body _ _ _ _ _ _)) => (apply ho_window_body; [intros; hoa|hrel|hrel|hrel]) : hodb.
Global Hint Extern 0 (J _ (par_windows _ _)) => (apply J_par_windows; intros; hoa) : hodb.
Lemma ho_msm_batch {NM : NMod} {Wd : World} (P : Prop) I b {S} `{Handles S} (dec : S -> M (list (list acond))) pick cache best points scalars ra rl :
  (forall (Q : Prop) s, (Q -> ok s) -> J Q (dec s)) ->
  (forall (Q : Prop) g cs bs, (Q -> ok cs) -> (Q -> ok bs) -> J Q (pick g cs bs)) ->
  (forall (Q : Prop) g i p, (Q -> ok p) -> J Q (cache g i p)) ->
  (P -> ok points) -> (P -> ok scalars) -> J P (msm_batch I b dec pick cache best points scalars ra rl).
Proof. intros Hd Hp Hc K1 K2. unfold msm_batch. hoa. Qed.
Global Hint Extern 0 (J _ (msm_batch _ _ _ _ _ _ _ _ _ _)) => (eapply ho_msm_batch; [intros; hoa|intros; hoa|intros; hoa|hrel|hrel]) : hodb.
Lemma ho_msm {NM : NMod} {Wd : World} (P : Prop) I b {S} `{Handles S} (dec : S -> M (list (list acond))) bis zero gen ra rl prefix points scalars :
  (forall (Q : Prop) s, (Q -> ok s) -> J Q (dec s)) ->
  (forall (Q : Prop) c s t, (Q -> ok c) -> (Q -> ok s) -> (Q -> ok t) -> J Q (bis c s t)) -> (forall (Q : Prop), J Q zero) ->
  (P -> ok points) -> (P -> ok scalars) -> J P (msm I b dec bis zero gen ra rl prefix points scalars).
Proof.
  intros Hd Hb Hz K1 K2. unfold msm, msm_unsafe, msm_batch_on_group_non_zero_with_select_chip, msm_batch_on_group_non_zero_without_select_chip.
  jb; [hoa|]. intros [[x|e] y]; unfold unwrap_result; cbn [fst snd]; hoa.
Qed.
Lemma ho_msm_native {NM : NMod} {Wd : World} (P : Prop) I b gen ra rl prefix points scalars : (P -> ok points) -> (P -> ok scalars) ->
  J P (msm_native I b gen ra rl prefix points scalars).
Proof. intros. unfold msm_native. eapply ho_msm; first [hrel|intros; hoa]. Qed.
Lemma ho_msm_general {NM : NMod} {Wd : World} (P : Prop) I J0 b gen ra rl prefix points scalars : (P -> ok points) -> (P -> ok scalars) ->
  J P (msm_general I J0 b gen ra rl prefix points scalars).
Proof. intros. unfold msm_general. eapply ho_msm; first [hrel|intros; hoa]. Qed.

Lemma ho_fq2_reduce {NM : NMod} {Wd : World} (P : Prop) I x : (P -> ok x) -> J P (fq2_reduce I x).
Proof. intros; unfold fq2_reduce; hoa. Qed.
Global Hint Extern 0 (J _ (fq2_reduce _ _)) => (apply ho_fq2_reduce; hrel) : hodb.

Lemma ho_fq2_assert_equal {NM : NMod} {Wd : World} (P : Prop) I x y : (P -> ok x) -> (P -> ok y) -> J P (fq2_assert_equal I x y).
Proof. intros; unfold fq2_assert_equal; hoa. Qed.
Global Hint Extern 0 (J _ (fq2_assert_equal _ _ _)) => (apply ho_fq2_assert_equal; hrel) : hodb.

Lemma ho_fq2_assign_zero {NM : NMod} {Wd : World} (P : Prop) I : J P (fq2_assign_zero I).
Proof. intros; unfold fq2_assign_zero; hoa. Qed.
Global Hint Extern 0 (J _ (fq2_assign_zero _)) => (apply ho_fq2_assign_zero; hrel) : hodb.

Lemma ho_fq2_assign_one {NM : NMod} {Wd : World} (P : Prop) I : J P (fq2_assign_one I).
Proof. intros; unfold fq2_assign_one; hoa. Qed.
Global Hint Extern 0 (J _ (fq2_assign_one _)) => (apply ho_fq2_assign_one; hrel) : hodb.

Lemma ho_fq2_assign_constant {NM : NMod} {Wd : World} (P : Prop) I c : J P (fq2_assign_constant I c).
Proof. intros; unfold fq2_assign_constant; hoa. Qed.
Global Hint Extern 0 (J _ (fq2_assign_constant _ _)) => (apply ho_fq2_assign_constant; hrel) : hodb.

Lemma ho_fq2_add {NM : NMod} {Wd : World} (P : Prop) I a b : (P -> ok a) -> (P -> ok b) -> J P (fq2_add I a b).
Proof. intros; unfold fq2_add; hoa. Qed.
Global Hint Extern 0 (J _ (fq2_add _ _ _)) => (apply ho_fq2_add; hrel) : hodb.

Lemma ho_fq2_mul {NM : NMod} {Wd : World} (P : Prop) I a b : (P -> ok a) -> (P -> ok b) -> J P (fq2_mul I a b).
Proof. intros; unfold fq2_mul; hoa. Qed.
Global Hint Extern 0 (J _ (fq2_mul _ _ _)) => (apply ho_fq2_mul; hrel) : hodb.

Lemma ho_fq2_sub {NM : NMod} {Wd : World} (P : Prop) I a b : (P -> ok a) -> (P -> ok b) -> J P (fq2_sub I a b).
Proof. intros; unfold fq2_sub; hoa. Qed.
Global Hint Extern 0 (J _ (fq2_sub _ _ _)) => (apply ho_fq2_sub; hrel) : hodb.

Lemma ho_fq2_double {NM : NMod} {Wd : World} (P : Prop) I a : (P -> ok a) -> J P (fq2_double I a).
Proof. intros; unfold fq2_double; hoa. Qed.
Global Hint Extern 0 (J _ (fq2_double _ _)) => (apply ho_fq2_double; hrel) : hodb.

Lemma ho_fq2_square {NM : NMod} {Wd : World} (P : Prop) I a : (P -> ok a) -> J P (fq2_square I a).
Proof. intros; unfold fq2_square; hoa. Qed.
Global Hint Extern 0 (J _ (fq2_square _ _)) => (apply ho_fq2_square; hrel) : hodb.

Lemma ho_fq2_neg {NM : NMod} {Wd : World} (P : Prop) I a : (P -> ok a) -> J P (fq2_neg I a).
Proof. intros; unfold fq2_neg; hoa. Qed.
Global Hint Extern 0 (J _ (fq2_neg _ _)) => (apply ho_fq2_neg; hrel) : hodb.

Lemma ho_fq2_conjugate {NM : NMod} {Wd : World} (P : Prop) I a : (P -> ok a) -> J P (fq2_conjugate I a).
Proof. intros; unfold fq2_conjugate; hoa. Qed.
Global Hint Extern 0 (J _ (fq2_conjugate _ _)) => (apply ho_fq2_conjugate; hrel) : hodb.

Lemma ho_fq2_unsafe_invert {NM : NMod} {Wd : World} (P : Prop) I x : (P -> ok x) -> J P (fq2_unsafe_invert I x).
Proof. intros; unfold fq2_unsafe_invert; hoa. Qed.
Global Hint Extern 0 (J _ (fq2_unsafe_invert _ _)) => (apply ho_fq2_unsafe_invert; hrel) : hodb.

Lemma ho_fq6_reduce {NM : NMod} {Wd : World} (P : Prop) I x : (P -> ok x) -> J P (fq6_reduce I x).
Proof. intros; unfold fq6_reduce; hoa. Qed.
Global Hint Extern 0 (J _ (fq6_reduce _ _)) => (apply ho_fq6_reduce; hrel) : hodb.

Lemma ho_fq6_assert_equal {NM : NMod} {Wd : World} (P : Prop) I x y : (P -> ok x) -> (P -> ok y) -> J P (fq6_assert_equal I x y).
Proof. intros; unfold fq6_assert_equal; hoa. Qed.
Global Hint Extern 0 (J _ (fq6_assert_equal _ _ _)) => (apply ho_fq6_assert_equal; hrel) : hodb.

Lemma ho_fq6_assign_zero {NM : NMod} {Wd : World} (P : Prop) I : J P (fq6_assign_zero I).
Proof. intros; unfold fq6_assign_zero; hoa. Qed.
Global Hint Extern 0 (J _ (fq6_assign_zero _)) => (apply ho_fq6_assign_zero; hrel) : hodb.

Lemma ho_fq6_assign_one {NM : NMod} {Wd : World} (P : Prop) I : J P (fq6_assign_one I).
Proof. intros; unfold fq6_assign_one; hoa. Qed.
Global Hint Extern 0 (J _ (fq6_assign_one _)) => (apply ho_fq6_assign_one; hrel) : hodb.

Lemma ho_fq6_add {NM : NMod} {Wd : World} (P : Prop) I a b : (P -> ok a) -> (P -> ok b) -> J P (fq6_add I a b).
Proof. intros; unfold fq6_add; hoa. Qed.
Global Hint Extern 0 (J _ (fq6_add _ _ _)) => (apply ho_fq6_add; hrel) : hodb.

Lemma ho_fq6_mul {NM : NMod} {Wd : World} (P : Prop) I nonres a b : (forall (Q : Prop) a, (Q -> ok a) -> J Q (nonres a)) -> (P -> ok a) -> (P -> ok b) -> J P (fq6_mul I nonres a b).
Proof. intros; unfold fq6_mul; hoa. Qed.
Global Hint Extern 0 (J _ (fq6_mul _ _ _ _)) => (apply ho_fq6_mul; first [hrel|intros; hoa]) : hodb.

Lemma ho_fq6_sub {NM : NMod} {Wd : World} (P : Prop) I a b : (P -> ok a) -> (P -> ok b) -> J P (fq6_sub I a b).
Proof. intros; unfold fq6_sub; hoa. Qed.
Global Hint Extern 0 (J _ (fq6_sub _ _ _)) => (apply ho_fq6_sub; hrel) : hodb.

Lemma ho_fq6_double {NM : NMod} {Wd : World} (P : Prop) I a : (P -> ok a) -> J P (fq6_double I a).
Proof. intros; unfold fq6_double; hoa. Qed.
Global Hint Extern 0 (J _ (fq6_double _ _)) => (apply ho_fq6_double; hrel) : hodb.

Lemma ho_fq6_square {NM : NMod} {Wd : World} (P : Prop) I nonres a : (forall (Q : Prop) a, (Q -> ok a) -> J Q (nonres a)) -> (P -> ok a) -> J P (fq6_square I nonres a).
Proof. intros; unfold fq6_square; hoa. Qed.
Global Hint Extern 0 (J _ (fq6_square _ _ _)) => (apply ho_fq6_square; first [hrel|intros; hoa]) : hodb.

Lemma ho_fq6_neg {NM : NMod} {Wd : World} (P : Prop) I a : (P -> ok a) -> J P (fq6_neg I a).
Proof. intros; unfold fq6_neg; hoa. Qed.
Global Hint Extern 0 (J _ (fq6_neg _ _)) => (apply ho_fq6_neg; hrel) : hodb.

Lemma ho_fq6_mul_by_1 {NM : NMod} {Wd : World} (P : Prop) I nonres a b1 : (forall (Q : Prop) a, (Q -> ok a) -> J Q (nonres a)) -> (P -> ok a) -> (P -> ok b1) -> J P (fq6_mul_by_1 I nonres a b1).
Proof. intros; unfold fq6_mul_by_1; hoa. Qed.
Global Hint Extern 0 (J _ (fq6_mul_by_1 _ _ _ _)) => (apply ho_fq6_mul_by_1; first [hrel|intros; hoa]) : hodb.

Lemma ho_fq6_mul_by_01 {NM : NMod} {Wd : World} (P : Prop) I nonres a b0 b1 : (forall (Q : Prop) a, (Q -> ok a) -> J Q (nonres a)) -> (P -> ok a) -> (P -> ok b0) -> (P -> ok b1) -> J P (fq6_mul_by_01 I nonres a b0 b1).
Proof. intros; unfold fq6_mul_by_01; hoa. Qed.
Global Hint Extern 0 (J _ (fq6_mul_by_01 _ _ _ _ _)) => (apply ho_fq6_mul_by_01; first [hrel|intros; hoa]) : hodb.

Lemma ho_fq6_unsafe_invert {NM : NMod} {Wd : World} (P : Prop) I nonres x : (forall (Q : Prop) a, (Q -> ok a) -> J Q (nonres a)) -> (P -> ok x) -> J P (fq6_unsafe_invert I nonres x).
Proof. intros; unfold fq6_unsafe_invert; hoa. Qed.
Global Hint Extern 0 (J _ (fq6_unsafe_invert _ _ _)) => (apply ho_fq6_unsafe_invert; first [hrel|intros; hoa]) : hodb.

Lemma ho_fq6_assign_constant {NM : NMod} {Wd : World} (P : Prop) I c : J P (fq6_assign_constant I c).
Proof. intros; unfold fq6_assign_constant; hoa. Qed.
Global Hint Extern 0 (J _ (fq6_assign_constant _ _)) => (apply ho_fq6_assign_constant; hrel) : hodb.

Lemma ho_fq6_mul_by_nonresidue {NM : NMod} {Wd : World} (P : Prop) nonres a : (forall (Q : Prop) a, (Q -> ok a) -> J Q (nonres a)) -> (P -> ok a) -> J P (fq6_mul_by_nonresidue nonres a).
Proof. intros; unfold fq6_mul_by_nonresidue; hoa. Qed.
Global Hint Extern 0 (J _ (fq6_mul_by_nonresidue _ _)) => (apply ho_fq6_mul_by_nonresidue; first [hrel|intros; hoa]) : hodb.

Lemma ho_fq12_reduce {NM : NMod} {Wd : World} (P : Prop) I x : (P -> ok x) -> J P (fq12_reduce I x).
Proof. intros; unfold fq12_reduce; hoa. Qed.
Global Hint Extern 0 (J _ (fq12_reduce _ _)) => (apply ho_fq12_reduce; hrel) : hodb.

Lemma ho_fq12_assert_eq {NM : NMod} {Wd : World} (P : Prop) I x y : (P -> ok x) -> (P -> ok y) -> J P (fq12_assert_eq I x y).
Proof. intros; unfold fq12_assert_eq; hoa. Qed.
Global Hint Extern 0 (J _ (fq12_assert_eq _ _ _)) => (apply ho_fq12_assert_eq; hrel) : hodb.

Lemma ho_fq12_assign_zero {NM : NMod} {Wd : World} (P : Prop) I : J P (fq12_assign_zero I).
Proof. intros; unfold fq12_assign_zero; hoa. Qed.
Global Hint Extern 0 (J _ (fq12_assign_zero _)) => (apply ho_fq12_assign_zero; hrel) : hodb.

Lemma ho_fq12_assign_one {NM : NMod} {Wd : World} (P : Prop) I : J P (fq12_assign_one I).
Proof. intros; unfold fq12_assign_one; hoa. Qed.
Global Hint Extern 0 (J _ (fq12_assign_one _)) => (apply ho_fq12_assign_one; hrel) : hodb.

Lemma ho_fq12_assert_one {NM : NMod} {Wd : World} (P : Prop) I x : (P -> ok x) -> J P (fq12_assert_one I x).
Proof. intros; unfold fq12_assert_one; hoa. Qed.
Global Hint Extern 0 (J _ (fq12_assert_one _ _)) => (apply ho_fq12_assert_one; hrel) : hodb.

Lemma ho_fq12_add {NM : NMod} {Wd : World} (P : Prop) I a b : (P -> ok a) -> (P -> ok b) -> J P (fq12_add I a b).
Proof. intros; unfold fq12_add; hoa. Qed.
Global Hint Extern 0 (J _ (fq12_add _ _ _)) => (apply ho_fq12_add; hrel) : hodb.

Lemma ho_fq12_mul {NM : NMod} {Wd : World} (P : Prop) I nonres a b : (forall (Q : Prop) a, (Q -> ok a) -> J Q (nonres a)) -> (P -> ok a) -> (P -> ok b) -> J P (fq12_mul I nonres a b).
Proof. intros; unfold fq12_mul; hoa. Qed.
Global Hint Extern 0 (J _ (fq12_mul _ _ _ _)) => (apply ho_fq12_mul; first [hrel|intros; hoa]) : hodb.

Lemma ho_fq12_sub {NM : NMod} {Wd : World} (P : Prop) I a b : (P -> ok a) -> (P -> ok b) -> J P (fq12_sub I a b).
Proof. intros; unfold fq12_sub; hoa. Qed.
Global Hint Extern 0 (J _ (fq12_sub _ _ _)) => (apply ho_fq12_sub; hrel) : hodb.

Lemma ho_fq12_double {NM : NMod} {Wd : World} (P : Prop) I a : (P -> ok a) -> J P (fq12_double I a).
Proof. intros; unfold fq12_double; hoa. Qed.
Global Hint Extern 0 (J _ (fq12_double _ _)) => (apply ho_fq12_double; hrel) : hodb.

Lemma ho_fq12_square {NM : NMod} {Wd : World} (P : Prop) I nonres a : (forall (Q : Prop) a, (Q -> ok a) -> J Q (nonres a)) -> (P -> ok a) -> J P (fq12_square I nonres a).
Proof. intros; unfold fq12_square; hoa. Qed.
Global Hint Extern 0 (J _ (fq12_square _ _ _)) => (apply ho_fq12_square; first [hrel|intros; hoa]) : hodb.

Lemma ho_fq12_neg {NM : NMod} {Wd : World} (P : Prop) I a : (P -> ok a) -> J P (fq12_neg I a).
Proof. intros; unfold fq12_neg; hoa. Qed.
Global Hint Extern 0 (J _ (fq12_neg _ _)) => (apply ho_fq12_neg; hrel) : hodb.

Lemma ho_fq12_conjugate {NM : NMod} {Wd : World} (P : Prop) I x : (P -> ok x) -> J P (fq12_conjugate I x).
Proof. intros; unfold fq12_conjugate; hoa. Qed.
Global Hint Extern 0 (J _ (fq12_conjugate _ _)) => (apply ho_fq12_conjugate; hrel) : hodb.

Lemma ho_fq12_mul_by_014 {NM : NMod} {Wd : World} (P : Prop) I nonres x c0 c1 c4 : (forall (Q : Prop) a, (Q -> ok a) -> J Q (nonres a)) -> (P -> ok x) -> (P -> ok c0) -> (P -> ok c1) -> (P -> ok c4) -> J P (fq12_mul_by_014 I nonres x c0 c1 c4).
Proof. intros; unfold fq12_mul_by_014; hoa. Qed.
Global Hint Extern 0 (J _ (fq12_mul_by_014 _ _ _ _ _ _)) => (apply ho_fq12_mul_by_014; first [hrel|intros; hoa]) : hodb.

Lemma ho_fq12_mul_by_034 {NM : NMod} {Wd : World} (P : Prop) I nonres x c0 c3 c4 : (forall (Q : Prop) a, (Q -> ok a) -> J Q (nonres a)) -> (P -> ok x) -> (P -> ok c0) -> (P -> ok c3) -> (P -> ok c4) -> J P (fq12_mul_by_034 I nonres x c0 c3 c4).
Proof. intros; unfold fq12_mul_by_034; hoa. Qed.
Global Hint Extern 0 (J _ (fq12_mul_by_034 _ _ _ _ _ _)) => (apply ho_fq12_mul_by_034; first [hrel|intros; hoa]) : hodb.

Lemma ho_fp4_square {NM : NMod} {Wd : World} (P : Prop) I nonres a0 a1 : (forall (Q : Prop) a, (Q -> ok a) -> J Q (nonres a)) -> (P -> ok a0) -> (P -> ok a1) -> J P (fp4_square I nonres a0 a1).
Proof. intros; unfold fp4_square; hoa. Qed.
Global Hint Extern 0 (J _ (fp4_square _ _ _ _)) => (apply ho_fp4_square; first [hrel|intros; hoa]) : hodb.

Lemma ho_fq12_cyclotomic_square {NM : NMod} {Wd : World} (P : Prop) I nonres x : (forall (Q : Prop) a, (Q -> ok a) -> J Q (nonres a)) -> (P -> ok x) -> J P (fq12_cyclotomic_square I nonres x).
Proof. intros; unfold fq12_cyclotomic_square; hoa. Qed.
Global Hint Extern 0 (J _ (fq12_cyclotomic_square _ _ _)) => (apply ho_fq12_cyclotomic_square; first [hrel|intros; hoa]) : hodb.

Lemma ho_fq12_unsafe_invert {NM : NMod} {Wd : World} (P : Prop) I nonres x : (forall (Q : Prop) a, (Q -> ok a) -> J Q (nonres a)) -> (P -> ok x) -> J P (fq12_unsafe_invert I nonres x).
Proof. intros; unfold fq12_unsafe_invert; hoa. Qed.
Global Hint Extern 0 (J _ (fq12_unsafe_invert _ _ _)) => (apply ho_fq12_unsafe_invert; first [hrel|intros; hoa]) : hodb.

Lemma ho_fq12_assign_constant {NM : NMod} {Wd : World} (P : Prop) I c : J P (fq12_assign_constant I c).
Proof. intros; unfold fq12_assign_constant; hoa. Qed.
Global Hint Extern 0 (J _ (fq12_assign_constant _ _)) => (apply ho_fq12_assign_constant; hrel) : hodb.

Lemma ho_doubling_step {NM : NMod} {Wd : World} (P : Prop) I pt : (P -> ok pt) -> J P (doubling_step I pt).
Proof. intros; unfold doubling_step; hoa. Qed.
Global Hint Extern 0 (J _ (doubling_step _ _)) => (apply ho_doubling_step; hrel) : hodb.

Lemma ho_addition_step {NM : NMod} {Wd : World} (P : Prop) I pt pq : (P -> ok pt) -> (P -> ok pq) -> J P (addition_step I pt pq).
Proof. intros; unfold addition_step; hoa. Qed.
Global Hint Extern 0 (J _ (addition_step _ _ _)) => (apply ho_addition_step; hrel) : hodb.

Lemma ho_g2affine_to_g2 {NM : NMod} {Wd : World} (P : Prop) I g : (P -> ok g) -> J P (g2affine_to_g2 I g).
Proof. intros; unfold g2affine_to_g2; hoa. Qed.
Global Hint Extern 0 (J _ (g2affine_to_g2 _ _)) => (apply ho_g2affine_to_g2; hrel) : hodb.

Lemma ho_g2_neg {NM : NMod} {Wd : World} (P : Prop) I g : (P -> ok g) -> J P (g2_neg I g).
Proof. intros; unfold g2_neg; hoa. Qed.
Global Hint Extern 0 (J _ (g2_neg _ _)) => (apply ho_g2_neg; hrel) : hodb.

Lemma ho_ell_all {NM : NMod} {Wd : World} (P : Prop) ell st :
  (forall (Q : Prop) f k q, (Q -> ok f) -> (Q -> ok k) -> (Q -> ok q) -> J Q (ell f k q)) -> (P -> ok st) -> J P (ell_all ell st).
Proof. intros. unfold ell_all. hoa. Qed.
Global Hint Extern 0 (J _ (ell_all _ _)) => (apply ho_ell_all; [intros; hoa|hrel]) : hodb.

Lemma ho_bn_nonres {NM : NMod} {Wd : World} (P : Prop) I a : (P -> ok a) -> J P (bn_nonres I a).
Proof. intros; unfold bn_nonres; hoa. Qed.
Global Hint Extern 0 (J _ (bn_nonres _ _)) => (apply ho_bn_nonres; hrel) : hodb.

Lemma ho_bn_fq2_frobenius_map {NM : NMod} {Wd : World} (P : Prop) I x power : (P -> ok x) -> J P (bn_fq2_frobenius_map I x power).
Proof. intros; unfold bn_fq2_frobenius_map; hoa. Qed.
Global Hint Extern 0 (J _ (bn_fq2_frobenius_map _ _ _)) => (apply ho_bn_fq2_frobenius_map; hrel) : hodb.

Lemma ho_bn_fq6_frobenius_map {NM : NMod} {Wd : World} (P : Prop) I x power : (P -> ok x) -> J P (bn_fq6_frobenius_map I x power).
Proof. intros; unfold bn_fq6_frobenius_map; hoa. Qed.
Global Hint Extern 0 (J _ (bn_fq6_frobenius_map _ _ _)) => (apply ho_bn_fq6_frobenius_map; hrel) : hodb.

Lemma ho_bn_fq12_frobenius_map {NM : NMod} {Wd : World} (P : Prop) I x power : (P -> ok x) -> J P (bn_fq12_frobenius_map I x power).
Proof. intros; unfold bn_fq12_frobenius_map; hoa. Qed.
Global Hint Extern 0 (J _ (bn_fq12_frobenius_map _ _ _)) => (apply ho_bn_fq12_frobenius_map; hrel) : hodb.

Lemma ho_bn_prepare_loop {NM : NMod} {Wd : World} (P : Prop) I g2 neg_g2 r : (P -> ok g2) -> (P -> ok neg_g2) -> (P -> ok r) -> J P (bn_prepare_loop I g2 neg_g2 r).
Proof. intros; unfold bn_prepare_loop; hoa. Qed.
Global Hint Extern 0 (J _ (bn_prepare_loop _ _ _ _)) => (apply ho_bn_prepare_loop; hrel) : hodb.

Lemma ho_bn_prepare_g2 {NM : NMod} {Wd : World} (P : Prop) I g2 : (P -> ok g2) -> J P (bn_prepare_g2 I g2).
Proof. intros; unfold bn_prepare_g2; hoa. Qed.
Global Hint Extern 0 (J _ (bn_prepare_g2 _ _)) => (apply ho_bn_prepare_g2; hrel) : hodb.

Lemma ho_bn_ell {NM : NMod} {Wd : World} (P : Prop) I f k p : (P -> ok f) -> (P -> ok k) -> (P -> ok p) -> J P (bn_ell I f k p).
Proof. intros; unfold bn_ell; hoa. Qed.
Global Hint Extern 0 (J _ (bn_ell _ _ _ _)) => (apply ho_bn_ell; hrel) : hodb.

Lemma ho_bn_multi_miller_loop {NM : NMod} {Wd : World} (P : Prop) I terms : (P -> ok terms) -> J P (bn_multi_miller_loop I terms).
Proof. intros; unfold bn_multi_miller_loop; hoa. Qed.
Global Hint Extern 0 (J _ (bn_multi_miller_loop _ _)) => (apply ho_bn_multi_miller_loop; hrel) : hodb.

Lemma ho_bn_exp_by_x {NM : NMod} {Wd : World} (P : Prop) I f : (P -> ok f) -> J P (bn_exp_by_x I f).
Proof. intros; unfold bn_exp_by_x; hoa. Qed.
Global Hint Extern 0 (J _ (bn_exp_by_x _ _)) => (apply ho_bn_exp_by_x; hrel) : hodb.

Lemma ho_bn_final_exponentiation {NM : NMod} {Wd : World} (P : Prop) I f : (P -> ok f) -> J P (bn_final_exponentiation I f).
Proof. intros; unfold bn_final_exponentiation; hoa. Qed.
Global Hint Extern 0 (J _ (bn_final_exponentiation _ _)) => (apply ho_bn_final_exponentiation; hrel) : hodb.

Lemma ho_bls_nonres {NM : NMod} {Wd : World} (P : Prop) I a : (P -> ok a) -> J P (bls_nonres I a).
Proof. intros; unfold bls_nonres; hoa. Qed.
Global Hint Extern 0 (J _ (bls_nonres _ _)) => (apply ho_bls_nonres; hrel) : hodb.

Lemma ho_bls_fq2_frobenius_map {NM : NMod} {Wd : World} (P : Prop) I x _power : (P -> ok x) -> J P (bls_fq2_frobenius_map I x _power).
Proof. intros; unfold bls_fq2_frobenius_map; hoa. Qed.
Global Hint Extern 0 (J _ (bls_fq2_frobenius_map _ _ _)) => (apply ho_bls_fq2_frobenius_map; hrel) : hodb.

Lemma ho_bls_fq6_frobenius_map {NM : NMod} {Wd : World} (P : Prop) I x power : (P -> ok x) -> J P (bls_fq6_frobenius_map I x power).
Proof. intros; unfold bls_fq6_frobenius_map; hoa. Qed.
Global Hint Extern 0 (J _ (bls_fq6_frobenius_map _ _ _)) => (apply ho_bls_fq6_frobenius_map; hrel) : hodb.

Lemma ho_bls_fq12_frobenius_map {NM : NMod} {Wd : World} (P : Prop) I x power : (P -> ok x) -> J P (bls_fq12_frobenius_map I x power).
Proof. intros; unfold bls_fq12_frobenius_map; hoa. Qed.
Global Hint Extern 0 (J _ (bls_fq12_frobenius_map _ _ _)) => (apply ho_bls_fq12_frobenius_map; hrel) : hodb.

Lemma ho_bls_ell {NM : NMod} {Wd : World} (P : Prop) I f k p : (P -> ok f) -> (P -> ok k) -> (P -> ok p) -> J P (bls_ell I f k p).
Proof. intros; unfold bls_ell; hoa. Qed.
Global Hint Extern 0 (J _ (bls_ell _ _ _ _)) => (apply ho_bls_ell; hrel) : hodb.

Lemma ho_bls_cycolotomic_exp {NM : NMod} {Wd : World} (P : Prop) I f : (P -> ok f) -> J P (bls_cycolotomic_exp I f).
Proof. intros; unfold bls_cycolotomic_exp; hoa. Qed.
Global Hint Extern 0 (J _ (bls_cycolotomic_exp _ _)) => (apply ho_bls_cycolotomic_exp; hrel) : hodb.

Lemma ho_bls_prepare_g2 {NM : NMod} {Wd : World} (P : Prop) I g2 : (P -> ok g2) -> J P (bls_prepare_g2 I g2).
Proof. intros; unfold bls_prepare_g2; hoa. Qed.
Global Hint Extern 0 (J _ (bls_prepare_g2 _ _)) => (apply ho_bls_prepare_g2; hrel) : hodb.

Lemma ho_bls_multi_miller_loop {NM : NMod} {Wd : World} (P : Prop) I terms : (P -> ok terms) -> J P (bls_multi_miller_loop I terms).
Proof. intros; unfold bls_multi_miller_loop; hoa. Qed.
Global Hint Extern 0 (J _ (bls_multi_miller_loop _ _)) => (apply ho_bls_multi_miller_loop; hrel) : hodb.

Lemma ho_bls_final_exponentiation {NM : NMod} {Wd : World} (P : Prop) I f : (P -> ok f) -> J P (bls_final_exponentiation I f).
Proof. intros; unfold bls_final_exponentiation; hoa. Qed.
Global Hint Extern 0 (J _ (bls_final_exponentiation _ _)) => (apply ho_bls_final_exponentiation; hrel) : hodb.

Lemma ho_bn_pairing {NM : NMod} {Wd : World} (P : Prop) I terms : (P -> ok terms) -> J P (bn_pairing I terms).
Proof. intros; unfold bn_pairing, pairing; hoa. Qed.
Global Hint Extern 0 (J _ (bn_pairing _ _)) => (apply ho_bn_pairing; hrel) : hodb.

Lemma ho_bn_check_pairing {NM : NMod} {Wd : World} (P : Prop) I terms : (P -> ok terms) -> J P (bn_check_pairing I terms).
Proof. intros; unfold bn_check_pairing; hoa. Qed.
Global Hint Extern 0 (J _ (bn_check_pairing _ _)) => (apply ho_bn_check_pairing; hrel) : hodb.

Lemma ho_bls_pairing {NM : NMod} {Wd : World} (P : Prop) I terms : (P -> ok terms) -> J P (bls_pairing I terms).
Proof. intros; unfold bls_pairing, pairing; hoa. Qed.
Global Hint Extern 0 (J _ (bls_pairing _ _)) => (apply ho_bls_pairing; hrel) : hodb.

Lemma ho_bls_check_pairing {NM : NMod} {Wd : World} (P : Prop) I terms : (P -> ok terms) -> J P (bls_check_pairing I terms).
Proof. intros; unfold bls_check_pairing; hoa. Qed.
Global Hint Extern 0 (J _ (bls_check_pairing _ _)) => (apply ho_bls_check_pairing; hrel) : hodb.

Lemma ho_xor_lanes {NM : NMod} {Wd : World} (P : Prop) a b : (P -> ok a) -> (P -> ok b) -> J P (xor_lanes a b).
Proof. intros; unfold xor_lanes; hoa. Qed.
Global Hint Extern 0 (J _ (xor_lanes _ _)) => (apply ho_xor_lanes; hrel) : hodb.

Lemma ho_k_init {NM : NMod} {Wd : World} (P : Prop)  : J P (k_init).
Proof. intros; unfold k_init; hoa. Qed.
Global Hint Extern 0 (J _ (k_init )) => (apply ho_k_init; hrel) : hodb.

Lemma ho_theta {NM : NMod} {Wd : World} (P : Prop) st : (P -> ok st) -> J P (theta st).
Proof. intros; unfold theta; hoa. Qed.
Global Hint Extern 0 (J _ (theta _)) => (apply ho_theta; hrel) : hodb.

Lemma ho_xi {NM : NMod} {Wd : World} (P : Prop) st : (P -> ok st) -> J P (xi st).
Proof. intros; unfold xi; hoa. Qed.
Global Hint Extern 0 (J _ (xi _)) => (apply ho_xi; hrel) : hodb.

Lemma ho_iota {NM : NMod} {Wd : World} (P : Prop) st round : (P -> ok st) -> J P (iota st round).
Proof. intros; unfold iota; hoa. Qed.
Global Hint Extern 0 (J _ (iota _ _)) => (apply ho_iota; hrel) : hodb.

Lemma ho_permute {NM : NMod} {Wd : World} (P : Prop) st : (P -> ok st) -> J P (permute st).
Proof. intros; unfold permute; hoa. Qed.
Global Hint Extern 0 (J _ (permute _)) => (apply ho_permute; hrel) : hodb.

Lemma ho_absorb {NM : NMod} {Wd : World} (P : Prop) st input : (P -> ok st) -> (P -> ok input) -> J P (absorb st input).
Proof. intros; unfold absorb; hoa. Qed.
Global Hint Extern 0 (J _ (absorb _ _)) => (apply ho_absorb; hrel) : hodb.

Lemma ho_u256_step {NM : NMod} {Wd : World} (P : Prop) s_bn st i : (P -> ok st) -> J P (u256_step s_bn st i).
Proof. intros; unfold u256_step; hoa. Qed.
Global Hint Extern 0 (J _ (u256_step _ _ _)) => (apply ho_u256_step; hrel) : hodb.

Lemma ho_decompose_u256_with {NM : NMod} {Wd : World} (P : Prop) s_bn s : (P -> ok s) -> J P (decompose_u256_with s_bn s).
Proof. intros; unfold decompose_u256_with; hoa. Qed.
Global Hint Extern 0 (J _ (decompose_u256_with _ _)) => (apply ho_decompose_u256_with; hrel) : hodb.

Lemma ho_decompose_scalar_as_u256_be {NM : NMod} {Wd : World} (P : Prop) s : (P -> ok s) -> J P (decompose_scalar_as_u256_be s).
Proof. intros; unfold decompose_scalar_as_u256_be; hoa. Qed.
Global Hint Extern 0 (J _ (decompose_scalar_as_u256_be _)) => (apply ho_decompose_scalar_as_u256_be; hrel) : hodb.

Lemma ho_compose_loop {NM : NMod} {Wd : World} (P : Prop) acc s : (P -> ok acc) -> (P -> ok s) -> J P (compose_loop acc s).
Proof. intros Ka K. cut (forall n (Q : Prop) acc s, (length s <= n)%nat -> (Q -> ok acc) -> (Q -> ok s) -> J Q (compose_loop acc s)); [intros G; apply (G (length s)); auto|]. clear. induction n as [|n IH]; intros Q acc s L Ka K; (destruct s as [|b1 [|b0 s]]; cbn [compose_loop]; [hoa|hoa|]; cbn [length] in L; try lia). jb; [hoa|intros; apply IH; [lia|hrel|hrel]]. Qed.
Global Hint Extern 0 (J _ (compose_loop _ _)) => (apply ho_compose_loop; hrel) : hodb.

Lemma ho_compose_to_scalar_be {NM : NMod} {Wd : World} (P : Prop) s : (P -> ok s) -> J P (compose_to_scalar_be s).
Proof. intros; unfold compose_to_scalar_be; hoa. Qed.
Global Hint Extern 0 (J _ (compose_to_scalar_be _)) => (apply ho_compose_to_scalar_be; hrel) : hodb.

Lemma ho_hash_with {NM : NMod} {Wd : World} (P : Prop) input : (P -> ok input) -> J P (hash_with input).
Proof. intros; unfold hash_with; hoa. Qed.
Global Hint Extern 0 (J _ (hash_with _)) => (apply ho_hash_with; hrel) : hodb.

Lemma ho_hash {NM : NMod} {Wd : World} (P : Prop) input : (P -> ok input) -> J P (hash input).
Proof. intros; unfold hash; hoa. Qed.
Global Hint Extern 0 (J _ (hash _)) => (apply ho_hash; hrel) : hodb.
