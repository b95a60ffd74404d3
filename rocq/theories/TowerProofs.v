(** What the tower gadgets compute, proved once for two readings of a gadget run:
    for every assignment satisfying the constraints (soundness) and for the run of
    the honest prover (completeness).  The two readings are the two instances in
    TowerInst.v. *)
From Verif Require Import Prelude FieldZ Circuit Context Spec Logic ModArith Prims BaseChip BaseProofs
  RangeInfo RangeChip IntegerChip SpecInt InfoProofs IntArith RangeProofs IntInv IntSound IntComplete IntBridge
  IntRes SpecTower TowerRing Cyclotomic Fq12Chip.
From Coq Require Import Setoid Morphisms.


Add Ring F2r : F2_ring.

(** ** All gadgets only append *)
Ltac head_of f := match f with ?g _ => head_of g | _ => f end.
Ltac ap := intros; match goal with |- appends ?f => let h := head_of f in unfold h end; app.
Section App.
Context {NM : NMod}.
Variable I : rinfo.
Lemma appends_fq2_reduce x : appends (fq2_reduce I x). Proof. ap. Qed.
Hint Resolve appends_fq2_reduce : app.
Lemma appends_fq2_assert_equal x y : appends (fq2_assert_equal I x y). Proof. ap. Qed.
Hint Resolve appends_fq2_assert_equal : app.
Lemma appends_fq2_assign_zero  : appends (fq2_assign_zero I). Proof. ap. Qed.
Hint Resolve appends_fq2_assign_zero : app.
Lemma appends_fq2_assign_one  : appends (fq2_assign_one I). Proof. ap. Qed.
Hint Resolve appends_fq2_assign_one : app.
Lemma appends_fq2_assign_constant c : appends (fq2_assign_constant I c). Proof. ap. Qed.
Hint Resolve appends_fq2_assign_constant : app.
Lemma appends_fq2_add a b : appends (fq2_add I a b). Proof. ap. Qed.
Hint Resolve appends_fq2_add : app.
Lemma appends_fq2_mul a b : appends (fq2_mul I a b). Proof. ap. Qed.
Hint Resolve appends_fq2_mul : app.
Lemma appends_fq2_sub a b : appends (fq2_sub I a b). Proof. ap. Qed.
Hint Resolve appends_fq2_sub : app.
Lemma appends_fq2_double a : appends (fq2_double I a). Proof. ap. Qed.
Hint Resolve appends_fq2_double : app.
Lemma appends_fq2_square a : appends (fq2_square I a). Proof. ap. Qed.
Hint Resolve appends_fq2_square : app.
Lemma appends_fq2_neg a : appends (fq2_neg I a). Proof. ap. Qed.
Hint Resolve appends_fq2_neg : app.
Lemma appends_fq2_conjugate a : appends (fq2_conjugate I a). Proof. ap. Qed.
Hint Resolve appends_fq2_conjugate : app.
Lemma appends_fq2_unsafe_invert x : appends (fq2_unsafe_invert I x). Proof. ap. Qed.
Hint Resolve appends_fq2_unsafe_invert : app.
Variable nonres : afq2 -> M afq2.
Hypothesis nonres_appends : forall x, appends (nonres x).
Hint Resolve nonres_appends : app.
Lemma appends_fq6_reduce x : appends (fq6_reduce I x). Proof. ap. Qed.
Hint Resolve appends_fq6_reduce : app.
Lemma appends_fq6_assert_equal x y : appends (fq6_assert_equal I x y). Proof. ap. Qed.
Hint Resolve appends_fq6_assert_equal : app.
Lemma appends_fq6_assign_zero  : appends (fq6_assign_zero I). Proof. ap. Qed.
Hint Resolve appends_fq6_assign_zero : app.
Lemma appends_fq6_assign_one  : appends (fq6_assign_one I). Proof. ap. Qed.
Hint Resolve appends_fq6_assign_one : app.
Lemma appends_fq6_add a b : appends (fq6_add I a b). Proof. ap. Qed.
Hint Resolve appends_fq6_add : app.
Lemma appends_fq6_mul a b : appends (fq6_mul I nonres a b). Proof. ap. Qed.
Hint Resolve appends_fq6_mul : app.
Lemma appends_fq6_sub a b : appends (fq6_sub I a b). Proof. ap. Qed.
Hint Resolve appends_fq6_sub : app.
Lemma appends_fq6_double a : appends (fq6_double I a). Proof. ap. Qed.
Hint Resolve appends_fq6_double : app.
Lemma appends_fq6_square a : appends (fq6_square I nonres a). Proof. ap. Qed.
Hint Resolve appends_fq6_square : app.
Lemma appends_fq6_neg a : appends (fq6_neg I a). Proof. ap. Qed.
Hint Resolve appends_fq6_neg : app.
Lemma appends_fq6_mul_by_1 a b1 : appends (fq6_mul_by_1 I nonres a b1). Proof. ap. Qed.
Hint Resolve appends_fq6_mul_by_1 : app.
Lemma appends_fq6_mul_by_01 a b0 b1 : appends (fq6_mul_by_01 I nonres a b0 b1). Proof. ap. Qed.
Hint Resolve appends_fq6_mul_by_01 : app.
Lemma appends_fq6_unsafe_invert x : appends (fq6_unsafe_invert I nonres x). Proof. ap. Qed.
Hint Resolve appends_fq6_unsafe_invert : app.
Lemma appends_fq6_assign_constant c : appends (fq6_assign_constant I c). Proof. ap. Qed.
Hint Resolve appends_fq6_assign_constant : app.
Lemma appends_fq6_mul_by_nonresidue a : appends (fq6_mul_by_nonresidue nonres a). Proof. ap. Qed.
Hint Resolve appends_fq6_mul_by_nonresidue : app.
Lemma appends_fq12_reduce x : appends (fq12_reduce I x). Proof. ap. Qed.
Hint Resolve appends_fq12_reduce : app.
Lemma appends_fq12_assert_eq x y : appends (fq12_assert_eq I x y). Proof. ap. Qed.
Hint Resolve appends_fq12_assert_eq : app.
Lemma appends_fq12_assign_zero  : appends (fq12_assign_zero I). Proof. ap. Qed.
Hint Resolve appends_fq12_assign_zero : app.
Lemma appends_fq12_assign_one  : appends (fq12_assign_one I). Proof. ap. Qed.
Hint Resolve appends_fq12_assign_one : app.
Lemma appends_fq12_assert_one x : appends (fq12_assert_one I x). Proof. ap. Qed.
Hint Resolve appends_fq12_assert_one : app.
Lemma appends_fq12_add a b : appends (fq12_add I a b). Proof. ap. Qed.
Hint Resolve appends_fq12_add : app.
Lemma appends_fq12_mul a b : appends (fq12_mul I nonres a b). Proof. ap. Qed.
Hint Resolve appends_fq12_mul : app.
Lemma appends_fq12_sub a b : appends (fq12_sub I a b). Proof. ap. Qed.
Hint Resolve appends_fq12_sub : app.
Lemma appends_fq12_double a : appends (fq12_double I a). Proof. ap. Qed.
Hint Resolve appends_fq12_double : app.
Lemma appends_fq12_square a : appends (fq12_square I nonres a). Proof. ap. Qed.
Hint Resolve appends_fq12_square : app.
Lemma appends_fq12_neg a : appends (fq12_neg I a). Proof. ap. Qed.
Hint Resolve appends_fq12_neg : app.
Lemma appends_fq12_conjugate x : appends (fq12_conjugate I x). Proof. ap. Qed.
Hint Resolve appends_fq12_conjugate : app.
Lemma appends_fq12_mul_by_014 x c0 c1 c4 : appends (fq12_mul_by_014 I nonres x c0 c1 c4). Proof. ap. Qed.
Hint Resolve appends_fq12_mul_by_014 : app.
Lemma appends_fq12_mul_by_034 x c0 c3 c4 : appends (fq12_mul_by_034 I nonres x c0 c3 c4). Proof. ap. Qed.
Hint Resolve appends_fq12_mul_by_034 : app.
Lemma appends_fp4_square a0 a1 : appends (fp4_square I nonres a0 a1). Proof. ap. Qed.
Hint Resolve appends_fp4_square : app.
Lemma appends_fq12_cyclotomic_square x : appends (fq12_cyclotomic_square I nonres x). Proof. ap. Qed.
Hint Resolve appends_fq12_cyclotomic_square : app.
Lemma appends_fq12_unsafe_invert x : appends (fq12_unsafe_invert I nonres x). Proof. ap. Qed.
Hint Resolve appends_fq12_unsafe_invert : app.
Lemma appends_fq12_assign_constant c : appends (fq12_assign_constant I c). Proof. ap. Qed.
Hint Resolve appends_fq12_assign_constant : app.
End App.
Global Hint Resolve appends_fq2_reduce appends_fq2_assert_equal appends_fq2_assign_zero appends_fq2_assign_one appends_fq2_assign_constant appends_fq2_add appends_fq2_mul appends_fq2_sub appends_fq2_double appends_fq2_square appends_fq2_neg appends_fq2_conjugate appends_fq2_unsafe_invert appends_fq6_reduce appends_fq6_assert_equal appends_fq6_assign_zero appends_fq6_assign_one appends_fq6_add appends_fq6_mul appends_fq6_sub appends_fq6_double appends_fq6_square appends_fq6_neg appends_fq6_mul_by_1 appends_fq6_mul_by_01 appends_fq6_unsafe_invert appends_fq6_assign_constant appends_fq6_mul_by_nonresidue appends_fq12_reduce appends_fq12_assert_eq appends_fq12_assign_zero appends_fq12_assign_one appends_fq12_assert_one appends_fq12_add appends_fq12_mul appends_fq12_sub appends_fq12_double appends_fq12_square appends_fq12_neg appends_fq12_conjugate appends_fq12_mul_by_014 appends_fq12_mul_by_034 appends_fp4_square appends_fq12_cyclotomic_square appends_fq12_unsafe_invert appends_fq12_assign_constant : app.

(** ** The abstract reading *)
Set Default Proof Using "All".
Section World.
Context {NM : NMod}.
Variable w : Z.
Variable I : rinfo.
Variable W : Type.
Variable le : W -> W -> Prop.
Variable TR : forall X, W -> M X -> (X -> W -> Prop) -> Prop.
Variable rep : W -> aint -> Z -> Prop.
Variable zok : W -> av -> Prop.
Variable strict : Prop.
Arguments TR {X}.

(** The rules both readings provide. *)
Record rules : Prop := {
  le_trans : forall u v t, le u v -> le v t -> le u t;
  rep_mono : forall u v a r, le u v -> rep u a r -> rep v a r;
  rep_eqm : forall v a r s, rep v a r -> r ≡ s ⟨w⟩ -> rep v a s;
  zok_mono : forall u v a, le u v -> zok u a -> zok v a;
  T_ret : forall X v (x : X) (Q : X -> W -> Prop), Q x v -> TR v (mret x) Q;
  T_bind : forall X Y v (m : M X) (k : X -> M Y) Q R,
    TR v m Q -> appends m -> (forall x, appends (k x)) ->
    (forall x u, le v u -> Q x u -> TR u (k x) R) -> TR v (mbind m k) R;
  T_weaken : forall X v (m : M X) (Q R : X -> W -> Prop),
    TR v m Q -> (forall x u, le v u -> Q x u -> R x u) -> TR v m R;
  T_const : forall v x, 0 <= x < w -> TR v (assign_int_constant I x) (fun r u => rep u r x);
  T_add : forall v a b x y, rep v a x -> rep v b y -> TR v (int_add I a b) (fun r u => rep u r (x + y));
  T_sub : forall v a b x y, rep v a x -> rep v b y -> TR v (int_sub I a b) (fun r u => rep u r (x - y));
  T_neg : forall v a x, rep v a x -> TR v (int_neg I a) (fun r u => rep u r (- x));
  T_mul : forall v a b x y, rep v a x -> rep v b y -> TR v (int_mul I a b) (fun r u => rep u r (x * y));
  T_reduce : forall v a x, rep v a x -> TR v (reduce I a) (fun r u => rep u r x);
  T_inv : forall v a x, rep v a x -> (strict -> exists q, x * q ≡ 1 ⟨w⟩) ->
    TR v (int_unsafe_invert I a) (fun r u => exists q, rep u r q /\ x * q ≡ 1 ⟨w⟩);
  T_eq : forall v a b x y, rep v a x -> rep v b y -> (strict -> x ≡ y ⟨w⟩) ->
    TR v (assert_int_equal I a b) (fun _ _ => x ≡ y ⟨w⟩);
  T_zero : forall v a, zok v a -> TR v (assert_false a) (fun _ _ => True)
}.
Hypothesis RU : rules.

Definition rep2 v (a : afq2) (x : F2) : Prop := rep v (fst a) (fst x) /\ rep v (snd a) (snd x).
Definition rep6 v (a : afq6) (x : F6) : Prop := rep2 v (t0 a) (t0 x) /\ rep2 v (t1 a) (t1 x) /\ rep2 v (t2 a) (t2 x).
Definition rep12 v (a : afq12) (x : F12) : Prop := rep6 v (fst a) (fst x) /\ rep6 v (snd a) (snd x).

Lemma rep2_mono u v a x : le u v -> rep2 u a x -> rep2 v a x.
Proof. intros L [H1 H2]. split; eapply (rep_mono RU); eauto. Qed.
Lemma rep6_mono u v a x : le u v -> rep6 u a x -> rep6 v a x.
Proof. intros L (H1 & H2 & H3). split; [|split]; eapply rep2_mono; eauto. Qed.
Lemma rep12_mono u v a x : le u v -> rep12 u a x -> rep12 v a x.
Proof. intros L (H1 & H2). split; eapply rep6_mono; eauto. Qed.
Lemma rep2_eqm v a x y : rep2 v a x -> eq2 w x y -> rep2 v a y.
Proof. intros [H1 H2] [E1 E2]. split; eapply (rep_eqm RU); eauto. Qed.
Lemma rep6_eqm v a x y : rep6 v a x -> eq6 w x y -> rep6 v a y.
Proof.
  intros (H1 & H2 & H3) E. destruct x as [[x0 x1] x2], y as [[y0 y1] y2]. destruct E as (E1 & E2 & E3).
  split; [|split]; eapply rep2_eqm; eauto.
Qed.
Lemma rep12_eqm v a x y : rep12 v a x -> eq12 w x y -> rep12 v a y.
Proof. intros [H1 H2] [E1 E2]. split; eapply rep6_eqm; eauto. Qed.
Lemma rep_eq v a x y : rep v a x -> x = y -> rep v a y.
Proof. intros H <-. exact H. Qed.
Lemma rep2_eq v a x y : rep2 v a x -> x = y -> rep2 v a y.
Proof. intros H <-. exact H. Qed.
Lemma rep6_eq v a x y : rep6 v a x -> x = y -> rep6 v a y.
Proof. intros H <-. exact H. Qed.
Lemma rep12_eq v a x y : rep12 v a x -> x = y -> rep12 v a y.
Proof. intros H <-. exact H. Qed.

(** One step of a gadget: apply its rule, carry what is known to the new world. *)
Ltac lift L u v :=
  repeat match goal with
  | H : rep u ?a ?x |- _ => apply (rep_mono RU u v a x L) in H
  | H : rep2 u ?a ?x |- _ => apply (rep2_mono u v a x L) in H
  | H : rep6 u ?a ?x |- _ => apply (rep6_mono u v a x L) in H
  | H : rep12 u ?a ?x |- _ => apply (rep12_mono u v a x L) in H
  | H : zok u ?a |- _ => apply (zok_mono RU u v a L) in H
  end.
Ltac simp := cbn [t0 t1 t2 fst snd] in *.
Ltac st r :=
  eapply (T_bind RU); [eapply r; simp; eauto 2|app|app|
    let x := fresh "r" in let u := fresh "u" in let L := fresh "L" in let H := fresh "H" in
    intros x u L H; cbv beta in H;
    match type of L with le ?v _ => lift L v u; clear L end;
    lazymatch type of H with _ /\ _ => destruct H as [? ?] | _ => idtac end; simp].
Ltac dx :=
  repeat match goal with
  | a : afq12 |- _ => destruct a | a : afq6 |- _ => destruct a as [[? ?] ?] | a : afq2 |- _ => destruct a
  | a : F12 |- _ => destruct a | a : F6 |- _ => destruct a as [[? ?] ?] | a : F2 |- _ => destruct a
  end.
Ltac d2 := intros; repeat match goal with H : rep2 _ _ _ |- _ => destruct H end;
  repeat match goal with a : afq2 |- _ => destruct a | a : F2 |- _ => destruct a end; simp.
Ltac e2 := apply (T_ret RU); split; simp; (eapply rep_eq; [eassumption|first [reflexivity|cbn; ring]]).

Lemma fq2_reduce_T v a x : rep2 v a x -> TR v (fq2_reduce I a) (fun r u => rep2 u r x).
Proof. d2. unfold fq2_reduce. simp. st (T_reduce RU). st (T_reduce RU). e2. Qed.
Lemma fq2_assign_zero_T v : 0 < w -> TR v (fq2_assign_zero I) (fun r u => rep2 u r zero2).
Proof. intros. unfold fq2_assign_zero. st (T_const RU); [lia|]. e2. Qed.
Lemma fq2_assign_constant_T v c : 0 <= fst c < w -> 0 <= snd c < w ->
  TR v (fq2_assign_constant I c) (fun r u => rep2 u r c).
Proof. d2. unfold fq2_assign_constant. simp. st (T_const RU). st (T_const RU). e2. Qed.
Lemma fq2_assign_one_T v : 1 < w -> TR v (fq2_assign_one I) (fun r u => rep2 u r one2).
Proof. intros. apply (fq2_assign_constant_T v (1, 0)); simp; lia. Qed.
Lemma fq2_add_T v a b x y : rep2 v a x -> rep2 v b y -> TR v (fq2_add I a b) (fun r u => rep2 u r (add2 x y)).
Proof. d2. unfold fq2_add. simp. st (T_add RU). st (T_add RU). e2. Qed.
Lemma fq2_sub_T v a b x y : rep2 v a x -> rep2 v b y -> TR v (fq2_sub I a b) (fun r u => rep2 u r (sub2 x y)).
Proof. d2. unfold fq2_sub. simp. st (T_sub RU). st (T_sub RU). e2. Qed.
Lemma fq2_double_T v a x : rep2 v a x -> TR v (fq2_double I a) (fun r u => rep2 u r (add2 x x)).
Proof. intros. apply fq2_add_T; auto. Qed.
Lemma fq2_neg_T v a x : rep2 v a x -> TR v (fq2_neg I a) (fun r u => rep2 u r (neg2 x)).
Proof. d2. unfold fq2_neg. simp. st (T_neg RU). st (T_neg RU). e2. Qed.
Lemma fq2_conjugate_T v a x : rep2 v a x -> TR v (fq2_conjugate I a) (fun r u => rep2 u r (conj2 x)).
Proof. d2. unfold fq2_conjugate. simp. st (T_neg RU). e2. Qed.
Lemma fq2_mul_T v a b x y : rep2 v a x -> rep2 v b y -> TR v (fq2_mul I a b) (fun r u => rep2 u r (mul2 x y)).
Proof.
  d2. unfold fq2_mul. simp. st (T_mul RU). st (T_mul RU). st (T_sub RU). st (T_add RU). st (T_add RU).
  st (T_mul RU). st (T_sub RU). st (T_sub RU). e2.
Qed.
Lemma fq2_square_T v a x : rep2 v a x -> TR v (fq2_square I a) (fun r u => rep2 u r (mul2 x x)).
Proof. intros. apply fq2_mul_T; auto. Qed.
Lemma fq2_assert_equal_T v a b x y : rep2 v a x -> rep2 v b y -> (strict -> eq2 w x y) ->
  TR v (fq2_assert_equal I a b) (fun _ _ => eq2 w x y).
Proof.
  d2. unfold fq2_assert_equal. simp. st (T_eq RU). { intros S. apply H1, S. }
  eapply (T_weaken RU); [eapply (T_eq RU); eauto; intros S; apply H1, S|].
  intros ? ? ? E. split; auto.
Qed.

Definition inv2 (x : F2) : Prop := exists y, eq2 w (mul2 x y) one2.
Lemma fq2_unsafe_invert_T v a x : rep2 v a x -> (strict -> inv2 x) ->
  TR v (fq2_unsafe_invert I a) (fun r u => exists y, rep2 u r y /\ eq2 w (mul2 x y) one2).
Proof.
  d2. unfold fq2_unsafe_invert. simp. st (T_mul RU). st (T_mul RU). st (T_add RU). st (T_inv RU).
  { intros S. destruct (H0 S) as [[c d] [E1 E2]]. cbn [mul2 one2 fst snd] in E1, E2.
    exists (c * c + d * d). change (z * c - z0 * d ≡ 1 ⟨w⟩) in E1. change (z * d + z0 * c ≡ 0 ⟨w⟩) in E2.
    replace ((z * z + z0 * z0) * (c * c + d * d)) with
      ((z * c - z0 * d) * (z * c - z0 * d) + (z * d + z0 * c) * (z * d + z0 * c)) by ring.
    rewrite E1, E2. reflexivity. }
  destruct H5 as (q & Hq & Eq). simp.
  st (T_mul RU). st (T_mul RU). st (T_neg RU).
  apply (T_ret RU). exists (z * q, - (z0 * q)). split; [split; simp; assumption|].
  split; cbn [mul2 one2 fst snd].
  - change (z * (z * q) - z0 * - (z0 * q) ≡ 1 ⟨w⟩). rewrite <- Eq. apply eqm_eq. ring.
  - f_equal. ring.
Qed.

Variable xi : F2.
Variable nonres : afq2 -> M afq2.
Hypothesis nonres_T : forall v a x, rep2 v a x -> TR v (nonres a) (fun r u => rep2 u r (mul2 xi x)).
Hypothesis nonres_appends : forall x, appends (nonres x).
Hint Resolve nonres_appends : app.
Hypothesis w_gt1 : 1 < w.
Add Ring F6r : (F6_ring xi).
Add Ring F12r : (F12_ring xi).

Ltac app ::= repeat (intros; first [solve [auto 2 with app nocore] | progress cbv beta zeta | app1]).
Ltac d6 := intros; repeat match goal with H : rep6 _ _ _ |- _ => destruct H as (? & ? & ?) end;
  repeat match goal with a : afq6 |- _ => destruct a as [[? ?] ?] | a : F6 |- _ => destruct a as [[? ?] ?] end; simp.
Ltac e6 := apply (T_ret RU); split; [|split]; simp; (eapply rep2_eq; [eassumption|first [reflexivity|cbn [add6 sub6 neg6 mul6 t0 t1 t2 fst snd]; ring]]).

Lemma fq6_reduce_T v a x : rep6 v a x -> TR v (fq6_reduce I a) (fun r u => rep6 u r x).
Proof. d6. unfold fq6_reduce. simp. st fq2_reduce_T. st fq2_reduce_T. st fq2_reduce_T. e6. Qed.
Lemma fq6_assert_equal_T v a b x y : rep6 v a x -> rep6 v b y -> (strict -> eq6 w x y) ->
  TR v (fq6_assert_equal I a b) (fun _ _ => eq6 w x y).
Proof.
  d6. unfold fq6_assert_equal. simp. st fq2_assert_equal_T. { intros S. apply H1, S. }
  st fq2_assert_equal_T. { intros S. apply H1, S. }
  eapply (T_weaken RU); [eapply fq2_assert_equal_T; eauto; intros S; apply H1, S|].
  intros ? ? ? E. split; [|split]; auto.
Qed.
Lemma fq6_assign_zero_T v : TR v (fq6_assign_zero I) (fun r u => rep6 u r zero6).
Proof. unfold fq6_assign_zero. st fq2_assign_zero_T; [lia|]. e6. Qed.
Lemma fq6_assign_one_T v : TR v (fq6_assign_one I) (fun r u => rep6 u r one6).
Proof. unfold fq6_assign_one. st fq2_assign_one_T. st fq2_assign_zero_T; [lia|]. e6. Qed.
Definition inr2 (c : F2) : Prop := 0 <= fst c < w /\ 0 <= snd c < w.
Definition inr6 (c : F6) : Prop := inr2 (t0 c) /\ inr2 (t1 c) /\ inr2 (t2 c).
Lemma fq6_assign_constant_T v c : inr6 c -> TR v (fq6_assign_constant I c) (fun r u => rep6 u r c).
Proof.
  intros ([? ?] & [? ?] & [? ?]). d6. unfold fq6_assign_constant. simp. st fq2_assign_constant_T.
  st fq2_assign_constant_T. st fq2_assign_constant_T. e6.
Qed.
Lemma fq6_add_T v a b x y : rep6 v a x -> rep6 v b y -> TR v (fq6_add I a b) (fun r u => rep6 u r (add6 x y)).
Proof. d6. unfold fq6_add. simp. st fq2_add_T. st fq2_add_T. st fq2_add_T. e6. Qed.
Lemma fq6_sub_T v a b x y : rep6 v a x -> rep6 v b y -> TR v (fq6_sub I a b) (fun r u => rep6 u r (sub6 x y)).
Proof. d6. unfold fq6_sub. simp. st fq2_sub_T. st fq2_sub_T. st fq2_sub_T. e6. Qed.
Lemma fq6_double_T v a x : rep6 v a x -> TR v (fq6_double I a) (fun r u => rep6 u r (add6 x x)).
Proof. intros. apply fq6_add_T; auto. Qed.
Lemma fq6_neg_T v a x : rep6 v a x -> TR v (fq6_neg I a) (fun r u => rep6 u r (neg6 x)).
Proof. d6. unfold fq6_neg. simp. st fq2_neg_T. st fq2_neg_T. st fq2_neg_T. e6. Qed.
Lemma fq6_mul_T v a b x y : rep6 v a x -> rep6 v b y -> TR v (fq6_mul I nonres a b) (fun r u => rep6 u r (mul6 xi x y)).
Proof.
  d6. unfold fq6_mul. simp. st fq2_mul_T. st fq2_mul_T. st fq2_mul_T. st fq2_add_T. st fq2_add_T. st fq2_mul_T.
  st fq2_sub_T. st fq2_sub_T. st nonres_T. st fq2_add_T. st fq2_add_T. st fq2_add_T. st fq2_mul_T. st fq2_sub_T.
  st fq2_sub_T. st nonres_T. st fq2_add_T. st fq2_add_T. st fq2_add_T. st fq2_mul_T. st fq2_sub_T. st fq2_add_T.
  st fq2_sub_T. e6.
Qed.
Lemma fq6_square_T v a x : rep6 v a x -> TR v (fq6_square I nonres a) (fun r u => rep6 u r (mul6 xi x x)).
Proof. intros. apply fq6_mul_T; auto. Qed.
Lemma fq6_mul_by_1_T v a b1 x y1 : rep6 v a x -> rep2 v b1 y1 ->
  TR v (fq6_mul_by_1 I nonres a b1) (fun r u => rep6 u r (mul6 xi x (zero2, y1, zero2))).
Proof.
  d6. unfold fq6_mul_by_1. simp. st fq2_mul_T. st fq2_add_T. st fq2_mul_T. st fq2_sub_T. st nonres_T. st fq2_add_T.
  st fq2_mul_T. st fq2_sub_T. e6.
Qed.
Lemma fq6_mul_by_01_T v a b0 b1 x y0 y1 : rep6 v a x -> rep2 v b0 y0 -> rep2 v b1 y1 ->
  TR v (fq6_mul_by_01 I nonres a b0 b1) (fun r u => rep6 u r (mul6 xi x (y0, y1, zero2))).
Proof.
  d6. unfold fq6_mul_by_01. simp. st fq2_mul_T. st fq2_mul_T. st fq2_add_T. st fq2_mul_T. st fq2_sub_T. st nonres_T.
  st fq2_add_T. st fq2_add_T. st fq2_add_T. st fq2_mul_T. st fq2_sub_T. st fq2_sub_T. st fq2_add_T. st fq2_mul_T.
  st fq2_sub_T. st fq2_add_T. e6.
Qed.
Lemma fq6_mul_by_nonresidue_T v a x : rep6 v a x ->
  TR v (fq6_mul_by_nonresidue nonres a) (fun r u => rep6 u r (mul6 xi v6 x)).
Proof. d6. unfold fq6_mul_by_nonresidue. simp. st nonres_T. apply (T_ret RU). split; [|split]; simp;
  (eapply rep2_eq; [eassumption|cbn [mul6 v6 t0 t1 t2 fst snd]; ring]). Qed.

Lemma eq2_of x y : x = y -> eq2 w x y.
Proof. intros ->. split; reflexivity. Qed.
Lemma eq6_of x y : x = y -> eq6 w x y.
Proof. intros ->. destruct y as [[? ?] ?]. split; [|split]; apply eq2_of; reflexivity. Qed.
(** The adjugate and norm of an element of F_w6, as computed by [fq6_unsafe_invert]. *)
Definition adj6 (x : F6) : F6 :=
  let '(a, b, c) := x in
  (sub2 (mul2 a a) (mul2 (mul2 xi c) b), sub2 (mul2 xi (mul2 c c)) (mul2 a b), sub2 (mul2 b b) (mul2 a c)).
Definition norm6 (x : F6) : F2 :=
  let '(a, b, c) := x in let '(p, q, r) := adj6 x in
  add2 (mul2 xi (add2 (mul2 q c) (mul2 r b))) (mul2 p a).
Lemma norm6_mul x y : norm6 (mul6 xi x y) = mul2 (norm6 x) (norm6 y).
Proof. destruct x as [[a b] c], y as [[d e] f]. cbn [norm6 adj6 mul6]. ring. Qed.
Global Instance norm6_proper : Proper (eq6 w ==> eq2 w) norm6.
Proof.
  intros [[a b] c] [[d e] f] (E1 & E2 & E3). cbn [norm6 adj6]. rewrite E1, E2, E3. reflexivity.
Qed.
Lemma norm6_one : norm6 one6 = one2.
Proof. unfold one6. cbn [norm6 adj6]. ring. Qed.
Definition inv6 (x : F6) : Prop := exists y, eq6 w (mul6 xi x y) one6.
Lemma inv6_norm x : inv6 x -> inv2 (norm6 x).
Proof. intros [y E]. exists (norm6 y). rewrite <- norm6_mul, E, norm6_one. reflexivity. Qed.

Lemma fq6_unsafe_invert_T v a x : rep6 v a x -> (strict -> inv6 x) ->
  TR v (fq6_unsafe_invert I nonres a) (fun r u => exists y, rep6 u r y /\ eq6 w (mul6 xi x y) one6).
Proof.
  intros H0 Hs. assert (Hn : strict -> inv2 (norm6 x)) by (intros S; apply inv6_norm, Hs, S). clear Hs.
  destruct x as [[x0 x1] x2]. d6. unfold fq6_unsafe_invert. simp.
  st nonres_T. st fq2_mul_T. st fq2_neg_T. st fq2_square_T. st fq2_add_T. st fq2_square_T. st nonres_T.
  st fq2_mul_T. st fq2_sub_T. st fq2_square_T. st fq2_mul_T. st fq2_sub_T. st fq2_mul_T. st fq2_mul_T.
  st fq2_mul_T. st fq2_add_T. st nonres_T. st fq2_add_T.
  eapply (T_bind RU); [eapply (fq2_unsafe_invert_T _ _ (norm6 (x0, x1, x2)))|app|app|].
  { eapply rep2_eq; [eassumption|]. cbn [norm6 adj6]. ring. } { exact Hn. }
  intros t u' L (q & Hq & Eq). match type of L with le ?v _ => lift L v u' end. clear L.
  st fq2_mul_T. st fq2_mul_T. st fq2_mul_T. apply (T_ret RU).
  match goal with H1 : rep2 ?v ?A ?x, H2 : rep2 ?v ?B ?y, H3 : rep2 ?v ?C ?z |- exists _, rep6 _ (?A, ?B, ?C) _ /\ _ =>
    exists (x, y, z) end.
  split; [split; [|split]; simp; assumption|].
  cbn [norm6 adj6] in Eq. cbn [mul6]. split; [|split]; cbn [one6].
  - rewrite <- Eq. apply eq2_of; ring.
  - apply eq2_of; ring.
  - apply eq2_of; ring.
Qed.

(** ** F_w12 *)
Ltac d12 := intros; repeat match goal with H : rep12 _ _ _ |- _ => destruct H as (? & ?) end;
  repeat match goal with a : afq12 |- _ => destruct a as [? ?] | a : F12 |- _ => destruct a as [? ?] end; simp.
Ltac e12 := apply (T_ret RU); split; simp; (eapply rep6_eq; [eassumption|first [reflexivity|cbn [add12 sub12 neg12 mul12 fst snd]; ring]]).
Lemma fq12_reduce_T v a x : rep12 v a x -> TR v (fq12_reduce I a) (fun r u => rep12 u r x).
Proof. d12. unfold fq12_reduce. simp. st fq6_reduce_T. st fq6_reduce_T. e12. Qed.
Lemma fq12_assert_eq_T v a b x y : rep12 v a x -> rep12 v b y -> (strict -> eq12 w x y) ->
  TR v (fq12_assert_eq I a b) (fun _ _ => eq12 w x y).
Proof.
  d12. unfold fq12_assert_eq. simp. st fq6_assert_equal_T. { intros S. apply H1, S. }
  eapply (T_weaken RU); [eapply fq6_assert_equal_T; eauto; intros S; apply H1, S|].
  intros ? ? ? E. split; auto.
Qed.
Lemma fq12_assign_zero_T v : TR v (fq12_assign_zero I) (fun r u => rep12 u r zero12).
Proof. unfold fq12_assign_zero. st fq6_assign_zero_T. e12. Qed.
Lemma fq12_assign_one_T v : TR v (fq12_assign_one I) (fun r u => rep12 u r one12).
Proof. unfold fq12_assign_one. st fq6_assign_one_T. st fq6_assign_zero_T. e12. Qed.
Lemma fq12_assert_one_T v a x : rep12 v a x -> (strict -> eq12 w x one12) ->
  TR v (fq12_assert_one I a) (fun _ _ => eq12 w x one12).
Proof. intros. unfold fq12_assert_one. st fq12_assign_one_T. eapply fq12_assert_eq_T; eauto. Qed.
Definition inr12 (c : F12) : Prop := inr6 (fst c) /\ inr6 (snd c).
Lemma fq12_assign_constant_T v c : inr12 c -> TR v (fq12_assign_constant I c) (fun r u => rep12 u r c).
Proof. intros [? ?]. d12. unfold fq12_assign_constant. simp. st fq6_assign_constant_T. st fq6_assign_constant_T. e12. Qed.
Lemma fq12_add_T v a b x y : rep12 v a x -> rep12 v b y -> TR v (fq12_add I a b) (fun r u => rep12 u r (add12 x y)).
Proof. d12. unfold fq12_add. simp. st fq6_add_T. st fq6_add_T. e12. Qed.
Lemma fq12_sub_T v a b x y : rep12 v a x -> rep12 v b y -> TR v (fq12_sub I a b) (fun r u => rep12 u r (sub12 x y)).
Proof. d12. unfold fq12_sub. simp. st fq6_sub_T. st fq6_sub_T. e12. Qed.
Lemma fq12_double_T v a x : rep12 v a x -> TR v (fq12_double I a) (fun r u => rep12 u r (add12 x x)).
Proof. intros. apply fq12_add_T; auto. Qed.
Lemma fq12_neg_T v a x : rep12 v a x -> TR v (fq12_neg I a) (fun r u => rep12 u r (neg12 x)).
Proof. d12. unfold fq12_neg. simp. st fq6_neg_T. st fq6_neg_T. e12. Qed.
Lemma fq12_conjugate_T v a x : rep12 v a x -> TR v (fq12_conjugate I a) (fun r u => rep12 u r (conj12 x)).
Proof. d12. unfold fq12_conjugate. simp. st fq6_neg_T. e12. Qed.
Lemma fq12_mul_T v a b x y : rep12 v a x -> rep12 v b y -> TR v (fq12_mul I nonres a b) (fun r u => rep12 u r (mul12 xi x y)).
Proof.
  d12. unfold fq12_mul. simp. st fq6_mul_T. st fq6_mul_T. st fq6_add_T. st fq6_add_T. st fq6_mul_T. st fq6_sub_T.
  st fq6_sub_T. st fq6_mul_by_nonresidue_T. st fq6_add_T. e12.
Qed.
Lemma fq12_square_T v a x : rep12 v a x -> TR v (fq12_square I nonres a) (fun r u => rep12 u r (mul12 xi x x)).
Proof. intros. apply fq12_mul_T; auto. Qed.
Lemma fq12_mul_by_014_T v a c0 c1 c4 x y0 y1 y4 : rep12 v a x -> rep2 v c0 y0 -> rep2 v c1 y1 -> rep2 v c4 y4 ->
  TR v (fq12_mul_by_014 I nonres a c0 c1 c4)
    (fun r u => rep12 u r (mul12 xi x ((y0, y1, zero2), (zero2, y4, zero2)))).
Proof.
  d12. unfold fq12_mul_by_014. simp. st fq6_mul_by_01_T. st fq6_mul_by_1_T. st fq2_add_T. st fq6_mul_by_nonresidue_T.
  st fq6_add_T. st fq6_add_T. st fq6_mul_by_01_T. st fq6_sub_T. st fq6_sub_T.
  assert (E : (y0, add2 y1 y4, zero2) = add6 (y0, y1, zero2) (zero2, y4, zero2)) by (cbn [add6]; apply pair_eq; [apply pair_eq|]; ring).
  rewrite E in *. e12.
Qed.
Lemma fq12_mul_by_034_T v a c0 c3 c4 x y0 y3 y4 : rep12 v a x -> rep2 v c0 y0 -> rep2 v c3 y3 -> rep2 v c4 y4 ->
  TR v (fq12_mul_by_034 I nonres a c0 c3 c4)
    (fun r u => rep12 u r (mul12 xi x ((y0, zero2, zero2), (y3, y4, zero2)))).
Proof.
  d12. unfold fq12_mul_by_034. simp.
  pose proof H as H'. destruct H' as (A0 & A1 & A2).
  st fq2_mul_T. st fq2_mul_T. st fq2_mul_T.
  assert (S0 : rep6 u1 (r, r0, r1) (mul6 xi f (y0, zero2, zero2))).
  { destruct f as [[? ?] ?]. split; [|split]; simp; (eapply rep2_eq; [eassumption|]); cbn [mul6 t0 t1 t2 fst snd]; ring. }
  st fq6_mul_by_01_T. st fq6_add_T. st fq2_add_T. st fq6_mul_by_01_T. st fq6_sub_T. st fq6_sub_T.
  st fq6_mul_by_nonresidue_T. st fq6_add_T.
  assert (E : (add2 y0 y3, y4, zero2) = add6 (y0, zero2, zero2) (y3, y4, zero2)) by (cbn [add6]; apply pair_eq; [apply pair_eq|]; ring).
  rewrite E in *. e12.
Qed.
Lemma fp4_square_T v a b x y : rep2 v a x -> rep2 v b y ->
  TR v (fp4_square I nonres a b) (fun r u => rep2 u (fst r) (add2 (mul2 xi (mul2 y y)) (mul2 x x)) /\
    rep2 u (snd r) (add2 (mul2 x y) (mul2 x y))).
Proof.
  intros. unfold fp4_square. st fq2_square_T. st fq2_square_T. st nonres_T. st fq2_add_T. st fq2_add_T.
  st fq2_square_T. st fq2_sub_T. st fq2_sub_T. apply (T_ret RU). simp.
  split; (eapply rep2_eq; [eassumption|ring]).
Qed.

Lemma fq12_cyclotomic_square_T v a x : rep12 v a x ->
  TR v (fq12_cyclotomic_square I nonres a) (fun r u => rep12 u r (csq xi x)).
Proof.
  intros. destruct x as [[[x0 x2] x4] [[x1 x3] x5]]. destruct H as [(H0 & H2 & H4) (H1 & H3 & H5)].
  destruct a as [[[a0 a2] a4] [[a1 a3] a5]]. unfold fq12_cyclotomic_square. simp.
  st fq2_assign_zero_T; [lia|]. st fp4_square_T.
  st fq2_sub_T. st fq2_double_T. st fq2_add_T. st fq2_add_T. st fq2_double_T. st fq2_add_T.
  st fp4_square_T. st fp4_square_T.
  st fq2_sub_T. st fq2_double_T. st fq2_add_T. st fq2_add_T. st fq2_double_T. st fq2_add_T.
  st nonres_T. st fq2_add_T. st fq2_double_T. st fq2_add_T. st fq2_sub_T. st fq2_double_T. st fq2_add_T.
  apply (T_ret RU). unfold csq.
  replace (3, 0) with (add2 one2 (add2 one2 one2)) by reflexivity.
  replace (2, 0) with (add2 one2 one2) by reflexivity.
  split; (split; [|split]); simp; (eapply rep2_eq; [eassumption|ring]).
Qed.

(** Norm of F_w12 over F_w6. *)
Definition norm12 (x : F12) : F6 := let '(a, b) := x in sub6 (mul6 xi a a) (mul6 xi v6 (mul6 xi b b)).
Lemma norm12_mul x y : norm12 (mul12 xi x y) = mul6 xi (norm12 x) (norm12 y).
Proof. destruct x as [a b], y as [c d]. cbn [norm12 mul12]. ring. Qed.
Global Instance norm12_proper : Proper (eq12 w ==> eq6 w) norm12.
Proof. intros [a b] [c d] (E1 & E2). cbn [fst snd] in *. cbn [norm12]. rewrite E1, E2. reflexivity. Qed.
Lemma norm12_one : norm12 one12 = one6.
Proof. unfold one12. cbn [norm12]. ring. Qed.
Definition inv12 (x : F12) : Prop := exists y, eq12 w (mul12 xi x y) one12.
Lemma inv12_norm x : inv12 x -> inv6 (norm12 x).
Proof. intros [y E]. exists (norm12 y). rewrite <- norm12_mul, E, norm12_one. reflexivity. Qed.
Lemma fq12_unsafe_invert_T v a x : rep12 v a x -> (strict -> inv12 x) ->
  TR v (fq12_unsafe_invert I nonres a) (fun r u => exists y, rep12 u r y /\ eq12 w (mul12 xi x y) one12).
Proof.
  intros H0 Hs. assert (Hn : strict -> inv6 (norm12 x)) by (intros S; apply inv12_norm, Hs, S). clear Hs.
  destruct x as [x0 x1]. d12. unfold fq12_unsafe_invert. simp.
  st fq6_square_T. st fq6_square_T. st fq6_mul_by_nonresidue_T. st fq6_sub_T.
  eapply (T_bind RU); [eapply (fq6_unsafe_invert_T _ _ (norm12 (x0, x1)))|app|app|].
  { eapply rep6_eq; [eassumption|]. cbn [norm12]. ring. } { exact Hn. }
  intros t u' L (q & Hq & Eq). match type of L with le ?v _ => lift L v u' end. clear L.
  st fq6_mul_T. st fq6_mul_T. st fq6_neg_T. apply (T_ret RU).
  exists (mul6 xi q x0, neg6 (mul6 xi q x1)). split; [split; simp; assumption|].
  cbn [norm12] in Eq. cbn [mul12]. split; cbn [fst snd one12].
  - rewrite <- Eq. apply eq6_of. ring.
  - apply eq6_of. ring.
Qed.
End World.
