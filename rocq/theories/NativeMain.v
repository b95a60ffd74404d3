(** Proofs of the native-field properties (C01-C09, C51) from the gadget lemmas. *)
From Verif Require Import Prelude FieldZ Circuit Context Spec Logic ModArith Prims BaseChip BaseProofs Moduli Checker.
Ltac tosound := apply ST_sound; intros T A HA.
Lemma eqm_to_eq (NM : NMod) x y : 0 <= x < nmod -> eqm nmod x y -> x = y mod nmod.
Proof. intros H E. unfold eqm in E. rewrite Z.mod_small in E by lia. exact E. Qed.
Ltac fin := let r := fresh "r" in let H := fresh "H" in
  intros r H; apply eqm_to_eq; [auto|exact H].
Lemma ST_wk {NM : NMod} {X} T A (m : M X) (P Q : X -> Prop) :
  ST T A m P -> (forall x, P x -> Q x) -> ST T A m Q.
Proof. intros H I c x c' W R S. apply I. eapply H; eauto. Qed.
Lemma lin_lincomb A elems : lin A elems = lincomb A elems.
Proof. induction elems as [|[a k] l IH]; [reflexivity|]. simpl. rewrite IH. reflexivity. Qed.
Lemma mdot_dotsum A ls : mdot A ls = dotsum A ls.
Proof. induction ls as [|[[[a b] c] k] l IH]; [reflexivity|]. simpl. rewrite IH. reflexivity. Qed.
Lemma hlin_w elems : hlin elems = wlincomb elems.
Proof. induction elems as [|[a k] l IH]; [reflexivity|]. simpl. rewrite IH. reflexivity. Qed.
Lemma hdot_w ls : hdot ls = wdotsum ls.
Proof. induction ls as [|[[[a b] c] k] l IH]; [reflexivity|]. simpl. rewrite IH. reflexivity. Qed.
Lemma append_only_of {NM : NMod} {X} (m : M X) : appends m -> append_only m.
Proof. auto. Qed.
(** Hypotheses of a soundness statement are met by every honest run. *)
Lemma accepts_witnessed (NM : NMod) {X} c (m : M X) Q :
  prime nmod -> good c -> accepts c m Q ->
  exists x c', m c = Ok (x, c') /\ extends c' c' /\ satisfies c' (honest c') /\ Q x c'.
Proof.
  intros P G (x & c' & R & E & HQ & HG). exists x, c'. split; [auto|]. split; [apply extends_refl|].
  split; [|auto]. apply good_satisfies; [apply n_pos; auto|auto].
Qed.

Lemma C01_native_arithmetic_sound_main :
  forall (NM : NMod), prime nmod -> forall a b c k kc,
    sound (add a b) (fun A r => A⟦r⟧ = (A⟦a⟧ + A⟦b⟧) mod nmod)
 /\ sound (add_constant a k) (fun A r => A⟦r⟧ = (A⟦a⟧ + k) mod nmod)
 /\ sound (sub a b) (fun A r => A⟦r⟧ = (A⟦a⟧ - A⟦b⟧) mod nmod)
 /\ sound (mul a b) (fun A r => A⟦r⟧ = (A⟦a⟧ * A⟦b⟧) mod nmod)
 /\ sound (mul_add_constant a b k) (fun A r => A⟦r⟧ = (A⟦a⟧ * A⟦b⟧ + k) mod nmod)
 /\ sound (mul_add a b k c kc) (fun A r => A⟦r⟧ = (A⟦a⟧ * A⟦b⟧ * k + A⟦c⟧ * kc) mod nmod).
Proof.
  intros NM P a b c k kc. repeat match goal with |- _ /\ _ => split end; tosound; eapply ST_wk;
    [apply add_ST|fin|apply add_constant_ST|fin|apply sub_ST|fin|apply mul_ST|fin
    |apply mul_add_constant_ST|fin|apply mul_add_ST|fin].
Qed.

Lemma C02_linear_combination_sound_main :
  forall (NM : NMod), prime nmod -> forall elems constant,
    sound (sum_with_constant elems constant)
          (fun A r => A⟦r⟧ = (opt0 constant + lincomb A elems) mod nmod).
Proof.
  intros NM P elems constant. tosound. eapply ST_wk; [apply swc_ST|].
  intros r H. rewrite <- lin_lincomb. apply eqm_to_eq; auto.
Qed.

Lemma C03_dot_product_sound_main :
  forall (NM : NMod), prime nmod -> forall ls,
    sound (mul_add_with_next_line ls) (fun A r => A⟦r⟧ = dotsum A ls mod nmod).
Proof.
  intros NM P ls. tosound. eapply ST_wk; [apply mawnl_ST|].
  intros r H. rewrite <- mdot_dotsum. apply eqm_to_eq; auto.
Qed.

Lemma C04_boolean_gadgets_sound_main :
  forall (NM : NMod), prime nmod -> forall a b c,
    sound (and_ a b) (fun A r => forall x y, A⟦a⟧ = Z.b2z x -> A⟦b⟧ = Z.b2z y -> A⟦r⟧ = Z.b2z (x && y))
 /\ sound (or_ a b) (fun A r => forall x y, A⟦a⟧ = Z.b2z x -> A⟦b⟧ = Z.b2z y -> A⟦r⟧ = Z.b2z (x || y))
 /\ sound (xor_ a b) (fun A r => forall x y, A⟦a⟧ = Z.b2z x -> A⟦b⟧ = Z.b2z y -> A⟦r⟧ = Z.b2z (xorb x y))
 /\ sound (xnor_ a b) (fun A r => forall x y, A⟦a⟧ = Z.b2z x -> A⟦b⟧ = Z.b2z y -> A⟦r⟧ = Z.b2z (Bool.eqb x y))
 /\ sound (not_ a) (fun A r => forall x, A⟦a⟧ = Z.b2z x -> A⟦r⟧ = Z.b2z (negb x))
 /\ sound (not_and a b) (fun A r => forall x y, A⟦a⟧ = Z.b2z x -> A⟦b⟧ = Z.b2z y -> A⟦r⟧ = Z.b2z (negb x && y))
 /\ sound (bisec_cond c a b) (fun A r => forall x y z, A⟦c⟧ = Z.b2z z -> A⟦a⟧ = Z.b2z x -> A⟦b⟧ = Z.b2z y ->
                                                       A⟦r⟧ = Z.b2z (if z then x else y))
 /\ sound (assert_bit a) (fun A _ => A⟦a⟧ = 0 \/ A⟦a⟧ = 1).
Proof.
  intros NM P a b c. pose proof (n_pos P) as N.
  assert (B : forall x, 0 <= Z.b2z x < nmod) by (intros []; simpl; lia).
  repeat match goal with |- _ /\ _ => split end; tosound; eapply ST_wk;
    [apply and_ST| |apply or_ST| |apply xor_ST| |apply xnor_ST| |apply not_ST| |apply not_and_ST|
    |apply bisec_ST| |apply assert_bit_ST; auto|auto]; cbv beta; intros r H;
  [ intros x y Hx Hy | intros x y Hx Hy | intros x y Hx Hy | intros x y Hx Hy | intros x Hx
  | intros x y Hx Hy | intros x y z Hz Hx Hy];
  unfold vA in H; rewrite ?Hx, ?Hy, ?Hz in H; (apply (eqm_small nmod); [|apply HA|apply B]);
  rewrite H; try destruct x; try destruct y; try destruct z; reflexivity.
Qed.

Lemma C04_assign_bit_partial_main :
  forall (NM : NMod), prime nmod -> forall v,
    sound_bits (assign_bit v) (fun A r => A⟦r⟧ = 0 \/ A⟦r⟧ = 1).
Proof.
  intros NM P v. apply ST_sound_bits. intros T A HA HB. apply assign_bit_ST; auto.
Qed.

Lemma C51_assign_bit_forces_a_bit_refuted_main :
  forall (NM : NMod), prime nmod -> forall v x, 0 <= x < nmod ->
    exists r c' A, assign_bit v ctx_new = Ok (r, c') /\ satisfies c' A /\ A⟦r⟧ = x.
Proof.
  intros NM P v x X. pose proof (n_pos P) as N.
  exists (mkAv (bcell 0 0) v).
  eexists. exists (fun y => if cell_eqb y (bcell 0 0) then x else if cell_eqb y (bcell 1 0) then 1 else 0).
  split; [reflexivity|]. split; [|reflexivity].
  split; [|split; [|split; [|split]]].
  - intros y. destruct (cell_eqb y _); [lia|]. destruct (cell_eqb y _); lia.
  - intros r. unfold base_gate, base_expr. destruct r as [|r].
    + cbn. unfold fneg. change (- (1)) with (-1).
      match goal with |- ?e mod _ = 0 => replace e with (x + x * ((-1) mod nmod)) by ring end.
      rewrite Z.add_mod, Z.mul_mod_idemp_r, <- Z.add_mod by lia.
      replace (x + x * -1) with 0 by ring. reflexivity.
    + cbn. reflexivity.
  - intros r. unfold range_row, in_range_table, range_expr1, range_expr2, range_expr3, rcell, COMMON_RANGE_BITS.
    cbn. repeat split; try lia; reflexivity.
  - intros r. exists r. unfold select_input, scell. cbn. repeat split; reflexivity.
  - intros a b Hin. simpl in Hin. contradiction.
Qed.

Lemma C05_inverse_and_zero_test_sound_main :
  forall (NM : NMod), prime nmod -> forall a b,
    sound (is_zero a) (fun A r => A⟦r⟧ = if A⟦a⟧ =? 0 then 1 else 0)
 /\ sound (invert a) (fun A r => A⟦fst r⟧ = (if A⟦a⟧ =? 0 then 1 else 0)
                                 /\ (A⟦a⟧ <> 0 -> (A⟦a⟧ * A⟦snd r⟧) mod nmod = 1))
 /\ sound (invert_unsafe a) (fun A r => (A⟦a⟧ * A⟦r⟧) mod nmod = 1)
 /\ sound (div_unsafe a b) (fun A r => (A⟦b⟧ * A⟦r⟧) mod nmod = A⟦a⟧).
Proof.
  intros NM P a b. pose proof (n_pos P) as N.
  assert (E1 : forall x, eqm nmod x 1 -> x mod nmod = 1).
  { intros x H. unfold eqm in H. rewrite H. apply Z.mod_1_l. lia. }
  assert (E2 : forall x y, (x = 0 \/ x = 1) -> (x = 1 <-> y = 0) -> x = if y =? 0 then 1 else 0).
  { intros x y D I. destruct (Z.eqb_spec y 0); lia. }
  repeat match goal with |- _ /\ _ => split end; tosound; eapply ST_wk;
    [apply is_zero_ST; auto| |apply invert_ST; auto| |apply invert_unsafe_ST; auto| |apply div_unsafe_ST; auto|].
  - intros r (H1 & H2). apply E2; auto.
  - intros r (H1 & H2 & H3). split; [apply E2; auto|]. intros K. apply E1, H3, K.
  - intros r H. apply E1, H.
  - intros r H. unfold vA in H. red in H. rewrite (Z.mod_small (A _)) in H by auto. exact H.
Qed.

Lemma C06_selection_sound_main :
  forall (NM : NMod), prime nmod -> forall c a b,
    sound (bisec c a b) (fun A r => (A⟦c⟧ = 1 -> A⟦r⟧ = A⟦a⟧) /\ (A⟦c⟧ = 0 -> A⟦r⟧ = A⟦b⟧)).
Proof.
  intros NM P c a b. tosound. eapply ST_wk; [apply bisec_ST|]. intros r H. unfold vA in H.
  split; intros E; rewrite E in H; apply (eqm_small nmod); auto; rewrite H; apply eqm_eq; ring.
Qed.

Lemma C07_assertions_bind_main :
  forall (NM : NMod), prime nmod -> forall a b v, 0 <= v < nmod ->
    sound (assert_equal a b) (fun A _ => A⟦a⟧ = A⟦b⟧)
 /\ sound (assert_constant a v) (fun A _ => A⟦a⟧ = v)
 /\ sound (assert_true a) (fun A _ => A⟦a⟧ = 1)
 /\ sound (assert_false a) (fun A _ => A⟦a⟧ = 0)
 /\ sound (try_assert_false a) (fun A _ => A⟦a⟧ = 0)
 /\ sound (assign_constant v) (fun A r => A⟦r⟧ = v).
Proof.
  intros NM P a b v V. pose proof (n_pos P) as N.
  repeat match goal with |- _ /\ _ => split end; tosound; eapply ST_wk;
    [apply assert_equal_ST| |apply assert_constant_ST| |apply assert_true_ST| |apply assert_false_ST|
    |apply try_assert_false_ST| |apply assign_constant_ST|];
    intros r H; apply (eqm_small nmod); auto; unfold vA in *; lia.
Qed.

Lemma C07_assertions_accept_main :
  forall (NM : NMod), prime nmod -> forall c a b v, wf c -> valid c a -> valid c b -> 0 <= v < nmod ->
    (a_val a = a_val b -> accepts c (assert_equal a b) (fun _ _ => True))
 /\ (a_val a = v -> accepts c (assert_constant a v) (fun _ _ => True))
 /\ (a_val a = 1 -> accepts c (assert_true a) (fun _ _ => True))
 /\ (a_val a = 0 -> accepts c (assert_false a) (fun _ _ => True))
 /\ (a_val a = 0 -> accepts c (try_assert_false a) (fun ok _ => ok = true))
 /\ accepts c (assign_constant v) (fun r c' => valid c' r /\ a_val r = v).
Proof.
  intros NM P c a b v W Va Vb V. repeat match goal with |- _ /\ _ => split end; intros; apply CT_accepts.
  - apply assert_equal_CT; auto.
  - apply assert_constant_CT; auto.
  - apply assert_true_CT; auto.
  - apply assert_false_CT; auto.
  - apply try_assert_false_CT; auto.
  - apply assign_constant_CT; auto.
Qed.

Lemma C08_native_gadgets_accept_main :
  forall (NM : NMod), prime nmod ->
  forall c a b d, wf c -> valid c a -> valid c b -> valid c d ->
    (forall v, 0 <= v < nmod -> accepts c (assign v) (fun r c' => valid c' r /\ a_val r = v))
 /\ (forall v, v = 0 \/ v = 1 -> accepts c (assign_bit v) (fun r c' => valid c' r /\ a_val r = v))
 /\ (a_val a = 0 \/ a_val a = 1 -> accepts c (assert_bit a) (fun _ _ => True))
 /\ accepts c (add a b) (fun r c' => valid c' r /\ a_val r = (a_val a + a_val b) mod nmod)
 /\ (forall k, 0 <= k < nmod ->
       accepts c (add_constant a k) (fun r c' => valid c' r /\ a_val r = (a_val a + k) mod nmod))
 /\ accepts c (sub a b) (fun r c' => valid c' r /\ a_val r = (a_val a - a_val b) mod nmod)
 /\ accepts c (mul a b) (fun r c' => valid c' r /\ a_val r = (a_val a * a_val b) mod nmod)
 /\ (forall k, accepts c (mul_add_constant a b k)
       (fun r c' => valid c' r /\ a_val r = (a_val a * a_val b + k) mod nmod))
 /\ (forall k kd, accepts c (mul_add a b k d kd)
       (fun r c' => valid c' r /\ a_val r = (a_val a * a_val b * k + a_val d * kd) mod nmod))
 /\ (forall elems constant, Forall (fun e => valid c (fst e)) elems -> elems <> [] ->
       (forall k, constant = Some k -> 0 <= k < nmod) ->
       accepts c (sum_with_constant elems constant)
         (fun r c' => valid c' r /\ a_val r = (opt0 constant + wlincomb elems) mod nmod))
 /\ (forall ls, Forall (fun l => let '(x, y, z, _) := l in valid c x /\ valid c y /\ valid c z) ls -> ls <> [] ->
       accepts c (mul_add_with_next_line ls)
         (fun r c' => valid c' r /\ a_val r = wdotsum ls mod nmod))
 /\ accepts c (invert a) (fun r c' => valid c' (fst r) /\ valid c' (snd r)
       /\ a_val (fst r) = (if a_val a =? 0 then 1 else 0)
       /\ (a_val a <> 0 -> (a_val a * a_val (snd r)) mod nmod = 1))
 /\ accepts c (is_zero a) (fun r c' => valid c' r /\ a_val r = (if a_val a =? 0 then 1 else 0))
 /\ (a_val a <> 0 -> accepts c (invert_unsafe a)
       (fun r c' => valid c' r /\ (a_val a * a_val r) mod nmod = 1))
 /\ (a_val b <> 0 -> accepts c (div_unsafe a b)
       (fun r c' => valid c' r /\ (a_val b * a_val r) mod nmod = a_val a))
 /\ accepts c (bisec d a b) (fun r c' => valid c' r /\
       a_val r = (a_val d * a_val a + (1 - a_val d) * a_val b) mod nmod)
 /\ accepts c (and_ a b) (fun r c' => valid c' r /\ a_val r = (a_val a * a_val b) mod nmod)
 /\ accepts c (not_ a) (fun r c' => valid c' r /\ a_val r = (1 - a_val a) mod nmod)
 /\ accepts c (not_and a b) (fun r c' => valid c' r /\ a_val r = ((1 - a_val a) * a_val b) mod nmod)
 /\ accepts c (or_ a b) (fun r c' => valid c' r /\
       a_val r = (a_val a + a_val b - a_val a * a_val b) mod nmod)
 /\ accepts c (xor_ a b) (fun r c' => valid c' r /\
       a_val r = (a_val a + a_val b - 2 * a_val a * a_val b) mod nmod)
 /\ accepts c (xnor_ a b) (fun r c' => valid c' r /\
       a_val r = (1 - a_val a - a_val b + 2 * a_val a * a_val b) mod nmod).
Proof.
  intros NM P c a b d W Va Vb Vd. pose proof (n_pos P) as N.
  assert (E1 : forall x, eqm nmod x 1 -> x mod nmod = 1).
  { intros x H. unfold eqm in H. rewrite H. apply Z.mod_1_l. lia. }
  Ltac cwk L := apply CT_accepts; eapply CT_weaken; [apply L; auto|
    let r := fresh "r" in let c' := fresh "c'" in let W := fresh in let E := fresh in
    intros r c' W E; cbv beta].
  Ltac vv := let V := fresh in let H := fresh in intros (V & H); split; [exact V|];
    apply eqm_to_eq; [apply V|]; rewrite H; estrip; try (apply eqm_eq; ring).
  repeat match goal with |- _ /\ _ => split end; intros;
  [cwk assign_CT|cwk assign_bit_CT|cwk assert_bit_CT|cwk add_CT|cwk add_constant_CT|cwk sub_CT|cwk mul_CT
  |cwk mul_add_constant_CT|cwk mul_add_CT|cwk swc_CT|cwk mawnl_CT|cwk invert_CT|cwk is_zero_CT|cwk invert_unsafe_CT
  |cwk div_unsafe_CT|cwk bisec_CT|cwk and_CT|cwk not_CT|cwk not_and_CT|cwk or_CT|cwk xor_CT|cwk xnor_CT];
  try solve [auto|vv].
  - destruct elems; [congruence|simpl; lia].
  - intros (V & H'). split; [exact V|]. apply eqm_to_eq; [apply V|]. rewrite H', hlin_w. reflexivity.
  - intros (V & H'). split; [exact V|]. apply eqm_to_eq; [apply V|]. rewrite H', hdot_w. reflexivity.
  - intros (V1 & V2 & H' & H''). repeat split; auto; try apply V1; try apply V2.
  - intros (V & H'). split; [exact V|]. apply E1, H'.
  - intros (V & H'). split; [exact V|]. red in H'. rewrite (Z.mod_small (a_val a)) in H' by apply Va. exact H'.
Qed.

Lemma C08_good_witness_satisfies_main :
  forall (NM : NMod), prime nmod ->
    good ctx_new /\ forall c, good c -> satisfies c (honest c) /\ bit_consistent c (honest c).
Proof.
  intros NM P. split; [apply good_new|]. intros c G. apply good_satisfies; [apply n_pos; auto|auto].
Qed.

Lemma C09_gadgets_only_append_main :
  forall (NM : NMod),
    (forall a b c k kc v elems constant ls,
       append_only (add a b) /\ append_only (add_constant a k) /\ append_only (sub a b)
    /\ append_only (mul a b) /\ append_only (mul_add_constant a b k) /\ append_only (mul_add a b k c kc)
    /\ append_only (sum_with_constant elems constant) /\ append_only (mul_add_with_next_line ls)
    /\ append_only (invert a) /\ append_only (is_zero a) /\ append_only (invert_unsafe a)
    /\ append_only (div_unsafe a b) /\ append_only (assign v) /\ append_only (assign_constant v)
    /\ append_only (assign_bit v) /\ append_only (assert_equal a b) /\ append_only (assert_constant a v)
    /\ append_only (assert_bit a) /\ append_only (assert_true a) /\ append_only (assert_false a)
    /\ append_only (try_assert_false a) /\ append_only (and_ a b) /\ append_only (or_ a b)
    /\ append_only (xor_ a b) /\ append_only (xnor_ a b) /\ append_only (not_ a)
    /\ append_only (not_and a b) /\ append_only (bisec c a b) /\ append_only (bisec_cond c a b))
 /\ (forall c c' A, extends c c' -> satisfies c' A ->
       sat (mkEnv (select_table (fixv c') A) False) c A).
Proof.
  intros NM. split.
  - intros. repeat match goal with |- _ /\ _ => split end; apply append_only_of; auto 1 with app nocore.
  - intros c c' A E S. apply satisfies_sat; auto. intros [].
Qed.

Lemma C01_case_main : exists r c', (a <- @assign 5 ;; b <- assign 7 ;; @mul bn256_fr a b) ctx_new = Ok (r, c')
  /\ @satisfies bn256_fr c' (honest c') /\ (honest c')⟦r⟧ = 35.
Proof.
  destruct (run_check_ok (NM := bn256_fr) (a <- @assign 5 ;; b <- assign 7 ;; @mul bn256_fr a b) (fun r A => (A⟦r⟧ =? 35)))
    as (r & c' & R & S & T); [reflexivity|vm_cast_no_check (eq_refl true)|].
  exists r, c'. rewrite ?andb_true_iff, ?Z.eqb_eq in T. tauto.
Qed.

Lemma C02_case_main : exists r c',
  (l <- mapM (fun v => a <- @assign v ;; mret (a, v)) [1;2;3;4;5;6;7;8] ;;
   @sum_with_constant bn256_fr l (Some 9)) ctx_new = Ok (r, c')
  /\ @satisfies bn256_fr c' (honest c') /\ (honest c')⟦r⟧ = 213.
Proof.
  destruct (run_check_ok (NM := bn256_fr) (l <- mapM (fun v => a <- @assign v ;; mret (a, v)) [1;2;3;4;5;6;7;8] ;;
   @sum_with_constant bn256_fr l (Some 9)) (fun r A => (A⟦r⟧ =? 213)))
    as (r & c' & R & S & T); [reflexivity|vm_cast_no_check (eq_refl true)|].
  exists r, c'. rewrite ?andb_true_iff, ?Z.eqb_eq in T. tauto.
Qed.

Lemma C03_case_main : exists r c',
  (a <- @assign 5 ;; b <- assign 7 ;;
   @mul_add_with_next_line bn256_fr [(a, b, a, 2); (b, b, a, 1); (a, a, b, 3)]) ctx_new = Ok (r, c')
  /\ @satisfies bn256_fr c' (honest c') /\ (honest c')⟦r⟧ = 145.
Proof.
  destruct (run_check_ok (NM := bn256_fr) (a <- @assign 5 ;; b <- assign 7 ;;
   @mul_add_with_next_line bn256_fr [(a, b, a, 2); (b, b, a, 1); (a, a, b, 3)]) (fun r A => (A⟦r⟧ =? 145)))
    as (r & c' & R & S & T); [reflexivity|vm_cast_no_check (eq_refl true)|].
  exists r, c'. rewrite ?andb_true_iff, ?Z.eqb_eq in T. tauto.
Qed.

Lemma C04_case_main : exists r c',
  (a <- @assign_bit bn256_fr 1 ;; b <- @assign_bit bn256_fr 0 ;; @xor_ bn256_fr a b) ctx_new = Ok (r, c')
  /\ @satisfies bn256_fr c' (honest c') /\ (honest c')⟦r⟧ = 1.
Proof.
  destruct (run_check_ok (NM := bn256_fr) (a <- @assign_bit bn256_fr 1 ;; b <- @assign_bit bn256_fr 0 ;; @xor_ bn256_fr a b) (fun r A => (A⟦r⟧ =? 1)))
    as (r & c' & R & S & T); [reflexivity|vm_cast_no_check (eq_refl true)|].
  exists r, c'. rewrite ?andb_true_iff, ?Z.eqb_eq in T. tauto.
Qed.

Lemma C05_case_main : exists r c',
  (a <- @assign 5 ;; z <- @assign 0 ;; x <- @is_zero bn256_fr z ;; y <- @is_zero bn256_fr a ;;
   @div_unsafe bn256_fr x a ;;; mret (x, y)) ctx_new = Ok (r, c')
  /\ @satisfies bn256_fr c' (honest c') /\ (honest c')⟦fst r⟧ = 1 /\ (honest c')⟦snd r⟧ = 0.
Proof.
  destruct (run_check_ok (NM := bn256_fr) (a <- @assign 5 ;; z <- @assign 0 ;; x <- @is_zero bn256_fr z ;; y <- @is_zero bn256_fr a ;;
   @div_unsafe bn256_fr x a ;;; mret (x, y)) (fun r A => (A⟦fst r⟧ =? 1) && (A⟦snd r⟧ =? 0)))
    as (r & c' & R & S & T); [reflexivity|vm_cast_no_check (eq_refl true)|].
  exists r, c'. rewrite ?andb_true_iff, ?Z.eqb_eq in T. tauto.
Qed.

Lemma C06_case_main : exists r c',
  (c <- @assign_bit bn256_fr 0 ;; a <- @assign 5 ;; b <- @assign 6 ;; @bisec bn256_fr c a b) ctx_new = Ok (r, c')
  /\ @satisfies bn256_fr c' (honest c') /\ (honest c')⟦r⟧ = 6.
Proof.
  destruct (run_check_ok (NM := bn256_fr) (c <- @assign_bit bn256_fr 0 ;; a <- @assign 5 ;; b <- @assign 6 ;; @bisec bn256_fr c a b) (fun r A => (A⟦r⟧ =? 6)))
    as (r & c' & R & S & T); [reflexivity|vm_cast_no_check (eq_refl true)|].
  exists r, c'. rewrite ?andb_true_iff, ?Z.eqb_eq in T. tauto.
Qed.

Lemma C07_case_main : exists r c',
  (a <- @assign 5 ;; b <- @assign_constant bn256_fr 5 ;; @assert_equal bn256_fr a b ;;;
   @assert_constant bn256_fr a 5) ctx_new = Ok (r, c')
  /\ @satisfies bn256_fr c' (honest c').
Proof.
  destruct (run_check_ok (NM := bn256_fr) (a <- @assign 5 ;; b <- @assign_constant bn256_fr 5 ;; @assert_equal bn256_fr a b ;;;
   @assert_constant bn256_fr a 5) (fun r A => true))
    as (r & c' & R & S & T); [reflexivity|vm_cast_no_check (eq_refl true)|].
  exists r, c'. rewrite ?andb_true_iff, ?Z.eqb_eq in T. tauto.
Qed.

