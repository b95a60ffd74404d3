(** Soundness, append-only behaviour and completeness of the base chip. *)
From Verif Require Import Prelude FieldZ Circuit Context Logic ModArith Prims BaseChip.

Create HintDb app discriminated.
Global Hint Constants Opaque : app.
Global Hint Transparent acond : app.
Global Hint Resolve appends_ret appends_panic appends_assert appends_opt appends_nth appends_get
  appends_lift appends_one_line appends_one_line_with_last : app.

(** Solve [appends] goals structurally. *)
Ltac app1 :=
  match goal with
  | |- appends (mbind _ _) => apply appends_bind
  | |- appends (mapM _ _) => apply appends_mapM
  | |- appends (foldM _ _ _) => apply appends_foldM
  | |- appends (if ?b then _ else _) => destruct b
  | |- appends (match ?x with _ => _ end) => destruct x
  end.
Ltac app := repeat (intros; first [solve [auto 1 with app nocore] | progress cbv beta zeta | app1]).

(** Strip inner reductions from a congruence. *)
Ltac unf := unfold fneg, fadd, fsub, fmul, fof in *.
(** Prove a congruence that differs from [H : E ≡ 0] by ring steps and sign. *)
Ltac eby H :=
  apply eqm_sub_0;
  match type of H with
  | eqm ?m ?E 0 =>
      match goal with
      | |- eqm _ ?F 0 =>
          first [ replace F with E by ring; exact H
                | replace F with (0 - E) by ring; rewrite H; reflexivity ]
      end
  end.
Ltac gsimp H :=
  unfold gate_sum, with_tail in H;
  cbn [map fst snd nth pa pu opt0] in H.
Ltac stb L := eapply ST_bind; [apply L|solve [app]|solve [app]|].
Ltac rwcopies := repeat match goal with E : ?A (bcell _ _) = ?A (a_cell _) |- _ => rewrite E in * end.
Ltac row x C0 C1 G :=
  intros x (off & -> & C0 & C1 & G);
  cbn [copies fst snd pa pu] in C0, C1; gsimp G;
  decompose [and] C0; decompose [and] C1; clear C0 C1;
  rwcopies.

Section Base.
Context {NM : NMod}.
Hypothesis n_prime : prime nmod.

Lemma n_pos : 1 < nmod.
Proof. pose proof (prime_ge_2 _ n_prime). lia. Qed.

(** ** Append-only *)
Lemma appends_one_line_add p c : appends (one_line_add p c).
Proof. unfold one_line_add. app. Qed.
Hint Resolve appends_one_line_add : app.
Lemma appends_swcol e c : appends (sum_with_constant_in_one_line e c).
Proof. unfold sum_with_constant_in_one_line. app. Qed.
Hint Resolve appends_swcol : app.
Lemma appends_swc e c : appends (sum_with_constant e c).
Proof. unfold sum_with_constant. app. Qed.
Hint Resolve appends_swc : app.
Lemma appends_add a b : appends (add a b).
Proof. unfold add. app. Qed.
Lemma appends_add_constant a b : appends (add_constant a b).
Proof. unfold add_constant. app. Qed.
Lemma appends_sub a b : appends (sub a b).
Proof. unfold sub. app. Qed.
Lemma appends_mul a b : appends (mul a b).
Proof. unfold mul. app. Qed.
Lemma appends_mul_add_constant a b c : appends (mul_add_constant a b c).
Proof. unfold mul_add_constant. app. Qed.
Lemma appends_mul_add a b c d e : appends (mul_add a b c d e).
Proof. unfold mul_add. app. Qed.
Hint Resolve appends_add appends_add_constant appends_sub appends_mul appends_mul_add_constant
  appends_mul_add : app.
Lemma appends_mul_add_lines f t ls : appends (mul_add_lines f t ls).
Proof.
  revert f t; induction ls as [|[[[a b] c] cc] ls IH]; intros f t; cbn [mul_add_lines]; app.
Qed.
Hint Resolve appends_mul_add_lines : app.
Lemma appends_mawnl ls : appends (mul_add_with_next_line ls).
Proof. unfold mul_add_with_next_line. app. Qed.
Lemma appends_invert_unsafe a : appends (invert_unsafe a).
Proof. unfold invert_unsafe. app. Qed.
Lemma appends_invert a : appends (invert a).
Proof. unfold invert. app. Qed.
Hint Resolve appends_mawnl appends_invert_unsafe appends_invert : app.
Lemma appends_is_zero a : appends (is_zero a).
Proof. unfold is_zero. app. Qed.
Lemma appends_div_unsafe a b : appends (div_unsafe a b).
Proof. unfold div_unsafe. app. Qed.
Lemma appends_assign_constant a : appends (assign_constant a).
Proof. unfold assign_constant. app. Qed.
Lemma appends_assign a : appends (assign a).
Proof. unfold assign. app. Qed.
Lemma appends_assign_bit a : appends (assign_bit a).
Proof. unfold assign_bit. app. Qed.
Lemma appends_assert_equal a b : appends (assert_equal a b).
Proof. unfold assert_equal. app. Qed.
Lemma appends_assert_constant a b : appends (assert_constant a b).
Proof. unfold assert_constant. app. Qed.
Lemma appends_assert_bit a : appends (assert_bit a).
Proof. unfold assert_bit. app. Qed.
Hint Resolve appends_is_zero appends_div_unsafe appends_assign_constant appends_assign
  appends_assign_bit appends_assert_equal appends_assert_constant appends_assert_bit : app.
Lemma appends_and a b : appends (and_ a b).
Proof. unfold and_. app. Qed.
Lemma appends_not a : appends (not_ a).
Proof. unfold not_. app. Qed.
Lemma appends_not_and a b : appends (not_and a b).
Proof. unfold not_and. app. Qed.
Lemma appends_or a b : appends (or_ a b).
Proof. unfold or_. app. Qed.
Lemma appends_xor a b : appends (xor_ a b).
Proof. unfold xor_. app. Qed.
Lemma appends_xnor a b : appends (xnor_ a b).
Proof. unfold xnor_. app. Qed.
Lemma appends_bisec c a b : appends (bisec c a b).
Proof. unfold bisec. app. Qed.
Lemma appends_bisec_cond c a b : appends (bisec_cond c a b).
Proof. apply appends_bisec. Qed.
Lemma appends_assert_true a : appends (assert_true a).
Proof. unfold assert_true. app. Qed.
Lemma appends_assert_false a : appends (assert_false a).
Proof. unfold assert_false. app. Qed.
Lemma appends_try_assert_false a : appends (try_assert_false a).
Proof. unfold try_assert_false. app. Qed.

End Base.

Global Hint Resolve appends_one_line_add appends_swcol appends_swc appends_add appends_add_constant
  appends_sub appends_mul appends_mul_add_constant
  appends_mul_add appends_mul_add_lines appends_mawnl appends_invert_unsafe appends_invert
  appends_is_zero appends_div_unsafe appends_assign_constant appends_assign
  appends_assign_bit appends_assert_equal appends_assert_constant appends_assert_bit
  appends_and appends_not appends_not_and appends_or appends_xor appends_xnor appends_bisec
  appends_bisec_cond appends_assert_true appends_assert_false appends_try_assert_false : app.

(** ** Soundness *)
Section Sound.
Context {NM : NMod}.
Hypothesis n_prime : prime nmod.
Variable T : env.
Variable A : cell -> Z.

(** Value of a handle's cell in the assignment under consideration. *)
Definition vA (a : av) : Z := A (a_cell a).

Definition lin (elems : list (av * Z)) : Z :=
  fold_right (fun e acc => vA (fst e) * snd e + acc) 0 elems.

Lemma lin_app a b : lin (a ++ b) = lin a + lin b.
Proof. induction a as [|e a IH]; simpl; [ring|]. rewrite IH. ring. Qed.

Lemma swcol_ST elems constant :
  ST T A (sum_with_constant_in_one_line elems constant)
     (fun r => vA r ≡ opt0 constant + lin elems ⟨nmod⟩).
Proof.
  unfold sum_with_constant_in_one_line.
  apply ST_assert_k. intros HL.
  apply Nat.ltb_lt in HL. unfold VAR_COLUMNS in HL.
  apply ST_assert_k. intros HN.
  stb ST_one_line_with_last. intros x (off & -> & C0 & C1 & G). apply ST_ret.
  unfold vA. cbn [snd a_cell].
  destruct elems as [|[e0 k0] [|[e1 k1] [|[e2 k2] [|[e3 k3] [|]]]]]; simpl in HL; try lia;
  cbn [map copies fst snd pa pu] in C0, C1; gsimp G; estrip_in G;
  decompose [and] C0; clear C0;
  rwcopies;
  unfold lin, vA; cbn [fold_right fst snd]; eby G.
Qed.

Lemma chunks_fuel_concat {X} k (l : list X) fuel :
  (1 <= k)%nat -> (length l <= fuel)%nat -> concat (chunks_fuel fuel k l) = l.
Proof.
  intros Hk; revert l; induction fuel as [|f IH]; intros l Hl; cbn [chunks_fuel].
  - destruct l; [reflexivity|simpl in Hl; lia].
  - destruct l as [|x l]; [reflexivity|]. cbn [concat]. rewrite IH.
    + apply firstn_skipn.
    + rewrite skipn_length. cbn [length] in *. lia.
Qed.
Lemma chunks_concat {X} k (l : list X) : (1 <= k)%nat -> concat (chunks k l) = l.
Proof. intros H. apply chunks_fuel_concat; auto. Qed.

Lemma swc_ST elems constant :
  ST T A (sum_with_constant elems constant)
     (fun r => vA r ≡ opt0 constant + lin elems ⟨nmod⟩).
Proof.
  unfold sum_with_constant. destruct (_ <? _)%nat; [apply swcol_ST|].
  stb swcol_ST. intros acc Hacc.
  eapply ST_weaken.
  - apply (ST_foldM T A _ (fun pre acc => vA acc ≡ opt0 constant
             + lin (firstn (VAR_COLUMNS - 1) elems) + lin (concat pre) ⟨nmod⟩)).
    + intros. app.
    + rewrite Hacc. simpl. rewrite Z.add_0_r. reflexivity.
    + intros pre chunk s Hin Hs. eapply ST_weaken; [apply swcol_ST|].
      intros r Hr. cbv beta in Hr. rewrite Hr. rewrite lin_app, concat_app, lin_app.
      cbn [opt0 concat]. rewrite app_nil_r. cbn [lin fold_right fst snd].
      fold (lin chunk). rewrite Hs. apply eqm_eq. ring.
  - intros r Hr. cbv beta in Hr. rewrite Hr. rewrite chunks_concat by (unfold VAR_COLUMNS; lia).
    rewrite <- Z.add_assoc, <- lin_app, firstn_skipn. reflexivity.
Qed.

Ltac sum1 := eapply ST_weaken; [apply swc_ST|]; intros r Hr; cbv beta in Hr; rewrite Hr;
  unfold lin; cbn [fold_right fst snd opt0]; estrip; apply eqm_eq; ring.

Lemma add_ST a b : ST T A (add a b) (fun r => vA r ≡ vA a + vA b ⟨nmod⟩).
Proof. unfold add. sum1. Qed.
Lemma add_constant_ST a k : ST T A (add_constant a k) (fun r => vA r ≡ vA a + k ⟨nmod⟩).
Proof. unfold add_constant. sum1. Qed.
Lemma sub_ST a b : ST T A (sub a b) (fun r => vA r ≡ vA a - vA b ⟨nmod⟩).
Proof. unfold sub. sum1. Qed.
Lemma not_ST a : ST T A (not_ a) (fun r => vA r ≡ 1 - vA a ⟨nmod⟩).
Proof. unfold not_. sum1. Qed.

Ltac gate1 :=
  let x := fresh "x" in let C0 := fresh "C" in let C1 := fresh "C" in let G := fresh "G" in
  stb ST_one_line_with_last; row x C0 C1 G; estrip_in G; apply ST_ret;
  unfold vA; cbn [snd a_cell]; eby G.

Lemma mul_ST a b : ST T A (mul a b) (fun r => vA r ≡ vA a * vA b ⟨nmod⟩).
Proof. unfold mul. gate1. Qed.
Lemma mul_add_constant_ST a b k :
  ST T A (mul_add_constant a b k) (fun r => vA r ≡ vA a * vA b + k ⟨nmod⟩).
Proof. unfold mul_add_constant. gate1. Qed.
Lemma mul_add_ST a b k c kc :
  ST T A (mul_add a b k c kc) (fun r => vA r ≡ vA a * vA b * k + vA c * kc ⟨nmod⟩).
Proof. unfold mul_add. gate1. Qed.
Lemma and_ST a b : ST T A (and_ a b) (fun r => vA r ≡ vA a * vA b ⟨nmod⟩).
Proof. apply mul_ST. Qed.
Lemma not_and_ST a b : ST T A (not_and a b) (fun r => vA r ≡ (1 - vA a) * vA b ⟨nmod⟩).
Proof. unfold not_and. gate1. Qed.
Lemma or_ST a b : ST T A (or_ a b) (fun r => vA r ≡ vA a + vA b - vA a * vA b ⟨nmod⟩).
Proof. unfold or_. gate1. Qed.
Lemma xor_ST a b : ST T A (xor_ a b) (fun r => vA r ≡ vA a + vA b - 2 * vA a * vA b ⟨nmod⟩).
Proof. unfold xor_. gate1. Qed.
Lemma xnor_ST a b : ST T A (xnor_ a b) (fun r => vA r ≡ 1 - vA a - vA b + 2 * vA a * vA b ⟨nmod⟩).
Proof. unfold xnor_. gate1. Qed.
Lemma bisec_ST c a b :
  ST T A (bisec c a b) (fun r => vA r ≡ vA c * vA a + (1 - vA c) * vA b ⟨nmod⟩).
Proof. unfold bisec. gate1. Qed.

(** Chained rows. *)
Definition mdot (ls : list mterm) : Z :=
  fold_right (fun (l : mterm) acc => let '(a, b, c, cc) := l in vA a * vA b + vA c * cc + acc) 0 ls.

Lemma mul_add_lines_sat ls : forall first t c t' c',
  wf c -> mul_add_lines first t ls c = Ok (t', c') -> sat T c' A ->
  (first = true -> ls <> []) ->
  A (bcell 4 (base_off c')) ≡ (if first then 0 else A (bcell 4 (base_off c))) + mdot ls ⟨nmod⟩.
Proof.
  induction ls as [|[[[a b] d] cc] ls IH]; intros first t c t' c' W H S NE.
  - cbn [mul_add_lines] in H. injection H as _ <-. destruct first; [destruct (NE eq_refl eq_refl)|].
    simpl. rewrite Z.add_0_r. reflexivity.
  - cbn [mul_add_lines] in H. apply mbind_inv in H as (x & c1 & H1 & H2).
    destruct (one_line_with_last_sat T A _ _ _ _ _ _ _ _ W H1) as (W1 & E1 & _ & O1 & HS).
    destruct (appends_mul_add_lines _ _ _ _ _ _ W1 H2) as [W2 E2].
    assert (S1 : sat T c1 A) by (eapply sat_mono; eauto).
    apply HS in S1 as (_ & C0 & C1 & G).
    cbn [copies fst snd pa pu] in C0, C1. gsimp G. decompose [and] C0. clear C0.
    rwcopies.
    rewrite (IH _ _ _ _ _ W2 H2 S) || rewrite (IH _ _ _ _ _ W1 H2 S) by discriminate.
    cbn [mdot fold_right]. fold (mdot ls). rewrite O1. unfold vA.
    estrip_in G. destruct first; eby G.
Qed.

Lemma mawnl_ST ls : ST T A (mul_add_with_next_line ls) (fun r => vA r ≡ mdot ls ⟨nmod⟩).
Proof.
  assert (GEN : forall ls, ls <> [] ->
    ST T A (t <- mul_add_lines true 0 ls ;;
            cells <- one_line_with_last [] (pu t 0) None [] None ;; mret (snd cells))
       (fun r => vA r ≡ mdot ls ⟨nmod⟩)).
  { clear ls. intros ls NE c x c' W H S. apply mbind_inv in H as (t & c1 & H1 & H2).
    destruct (appends_mul_add_lines _ _ _ _ _ _ W H1) as [W1 E1].
    apply mbind_inv in H2 as (cells & c2 & H2 & H3). injection H3 as <- <-.
    destruct (one_line_with_last_sat T A _ _ _ _ _ _ _ _ W1 H2) as (W2 & E2 & -> & _ & _).
    unfold vA. cbn [snd a_cell].
    rewrite (mul_add_lines_sat ls true 0 c t c1); auto.
    - apply eqm_eq. ring.
    - eapply sat_mono; eauto. }
  unfold mul_add_with_next_line.
  destruct ls as [|[[[a b] d] cc] ls]; [apply ST_panic|].
  destruct ls as [|l ls].
  - eapply ST_weaken; [apply mul_add_ST|]. intros r Hr. cbv beta in Hr. rewrite Hr.
    cbn [mdot fold_right]. apply eqm_eq. ring.
  - apply GEN. discriminate.
Qed.

Ltac row1 x C0 G :=
  intros x (off & -> & C0 & G & GB);
  cbn [copies fst snd pa pu] in C0; gsimp G;
  decompose [and] C0; clear C0;
  rwcopies.

Lemma assert_equal_ST a b : ST T A (assert_equal a b) (fun _ => vA a ≡ vA b ⟨nmod⟩).
Proof.
  unfold assert_equal, one_line_add. stb ST_one_line. row1 x C0 G. estrip_in G. apply ST_ret.
  unfold vA. eby G.
Qed.
Lemma assert_constant_ST a b : ST T A (assert_constant a b) (fun _ => vA a ≡ b ⟨nmod⟩).
Proof.
  unfold assert_constant, one_line_add.
  apply ST_assert_k. intros _.
  stb ST_one_line. row1 x C0 G. estrip_in G. apply ST_ret. unfold vA. eby G.
Qed.
Lemma assert_true_ST a : ST T A (assert_true a) (fun _ => vA a ≡ 1 ⟨nmod⟩).
Proof.
  unfold assert_true. apply ST_assert_k. intros _.
  apply assert_constant_ST.
Qed.
Lemma assert_false_ST a : ST T A (assert_false a) (fun _ => vA a ≡ 0 ⟨nmod⟩).
Proof.
  unfold assert_false. apply ST_assert_k. intros _.
  apply assert_constant_ST.
Qed.
Lemma try_assert_false_ST a : ST T A (try_assert_false a) (fun _ => vA a ≡ 0 ⟨nmod⟩).
Proof.
  unfold try_assert_false. stb assert_constant_ST. intros u H. cbv beta in H. apply ST_ret. exact H.
Qed.
Lemma assign_constant_ST v : ST T A (assign_constant v) (fun r => vA r ≡ v ⟨nmod⟩).
Proof.
  unfold assign_constant, one_line_add. stb ST_one_line. row1 x C0 G. estrip_in G.
  apply ST_nth. intros y Hy. injection Hy as <-. unfold vA. cbn [a_cell]. eby G.
Qed.
Lemma assign_ST v : ST T A (assign v) (fun r => True).
Proof. intros c x c' _ _ _. auto. Qed.

Lemma bit_cases x : x * (1 - x) ≡ 0 ⟨nmod⟩ -> 0 <= x < nmod -> x = 0 \/ x = 1.
Proof.
  intros H R. pose proof (n_pos n_prime). apply eqm_cancel in H; auto. destruct H as [H|H].
  - left. apply (eqm_small nmod); auto; lia.
  - right. apply (eqm_small nmod); [|auto|lia]. symmetry. apply eqm_sub_0. exact H.
Qed.

Hypothesis A_range : forall x, 0 <= A x < nmod.

(** Only under bit consistency does [assign_bit] give a bit (C51). *)
Lemma assign_bit_ST v : bitc T -> ST T A (assign_bit v) (fun r => vA r = 0 \/ vA r = 1).
Proof.
  intros HB. unfold assign_bit. stb ST_one_line. row1 x C0 G. estrip_in G.
  apply ST_nth. intros y Hy. injection Hy as <-. unfold vA. cbn [a_cell].
  assert (E : A (bcell 0 off) = A (bcell 1 off)) by (apply GB; [auto|repeat split]).
  apply bit_cases; [|apply A_range]. rewrite <- E in G. eby G.
Qed.

Lemma assert_bit_ST a : ST T A (assert_bit a) (fun _ => vA a = 0 \/ vA a = 1).
Proof.
  unfold assert_bit. stb ST_one_line. row1 x C0 G. estrip_in G. apply ST_ret.
  apply bit_cases; [|apply A_range]. unfold vA. eby G.
Qed.

(** (is_zero flag, inverse) *)
Lemma invert_ST a :
  ST T A (invert a) (fun r =>
     (vA (fst r) = 0 \/ vA (fst r) = 1)
     /\ (vA (fst r) = 1 <-> vA a = 0)
     /\ (vA a <> 0 -> vA a * vA (snd r) ≡ 1 ⟨nmod⟩)).
Proof.
  unfold invert. stb ST_one_line. row1 x C0 G. estrip_in G.
  apply ST_nth_k. intros c Hc.
  injection Hc as <-.
  stb ST_one_line_with_last. intros x (off2 & -> & C0 & C1 & G2).
  cbn [copies fst snd pa pu a_cell] in C0, C1; gsimp G2; estrip_in G2.
  destruct C0 as (C0 & _ & _). destruct C1 as (C1 & _). rewrite C0, C1 in *.
  apply ST_nth_k. intros bi Hbi.
  injection Hbi as <-. apply ST_ret. unfold vA. cbn [fst snd a_cell].
  rewrite C1. pose proof (n_pos n_prime) as NP.
  pose proof (A_range (a_cell a)) as RA. pose proof (A_range (bcell 1 off)) as RC.
  set (x := A (a_cell a)) in *. set (z := A (bcell 1 off)) in *. set (b := A (bcell 1 off2)) in *.
  assert (G1 : x * z ≡ 0 ⟨nmod⟩) by eby G.
  assert (G2' : x * b + z ≡ 1 ⟨nmod⟩) by eby G2.
  destruct (Z.eq_dec x 0) as [X|X].
  - rewrite X in *. assert (z = 1).
    { apply (eqm_small nmod); [|auto|lia]. rewrite <- G2'. apply eqm_eq. ring. }
    split; [auto|]. split; [tauto|]. lia.
  - apply eqm_cancel in G1; auto. destruct G1 as [G1|G1].
    { exfalso. apply X. apply (eqm_small nmod); auto; lia. }
    assert (z = 0) by (apply (eqm_small nmod); auto; lia).
    split; [auto|]. split; [split; lia|]. intros _. rewrite <- G2'.
    replace z with 0 by auto. apply eqm_eq. ring.
Qed.
Lemma is_zero_ST a :
  ST T A (is_zero a) (fun r => (vA r = 0 \/ vA r = 1) /\ (vA r = 1 <-> vA a = 0)).
Proof. unfold is_zero. stb invert_ST. intros x (H1 & H2 & _). apply ST_ret. auto. Qed.
Lemma invert_unsafe_ST a : ST T A (invert_unsafe a) (fun r => vA a * vA r ≡ 1 ⟨nmod⟩).
Proof.
  unfold invert_unsafe. apply ST_opt_k.
  intros b _. stb ST_one_line. row1 x C0 G. estrip_in G.
  apply ST_nth. intros y Hy. injection Hy as <-. unfold vA. cbn [a_cell]. eby G.
Qed.
Lemma div_unsafe_ST a b : ST T A (div_unsafe a b) (fun r => vA b * vA r ≡ vA a ⟨nmod⟩).
Proof.
  unfold div_unsafe. apply ST_opt_k.
  intros bi _. stb ST_one_line_with_last. row x C0 C1 G. estrip_in G.
  apply ST_nth. intros y Hy. injection Hy as <-. unfold vA. cbn [a_cell]. eby G.
Qed.

End Sound.

(** ** Honest runs *)
Section Complete.
Context {NM : NMod}.
Hypothesis n_prime : prime nmod.

Lemma mod_range x : 0 <= x mod nmod < nmod.
Proof. apply Z.mod_pos_bound. pose proof (n_pos n_prime). lia. Qed.

Ltac modr := first [apply mod_range | assumption
  | match goal with V : valid _ ?a |- 0 <= a_val ?a < nmod => apply V end
  | pose proof (n_pos n_prime); cbn [schema_val]; lia].
Ltac fall := repeat match goal with
  | |- Forall _ (_ :: _) => apply Forall_cons | |- Forall _ [] => apply Forall_nil end.
Ltac vall := fall; cbn [fst]; assumption.
Ltac sok := fall; cbn [fst snd pa pu schema_ok];
  first [assumption | unfold fneg, fadd, fsub, fmul, fof; modr].
Ltac gate_honest :=
  unfold gate_sum, with_tail, tail_val, pair_val, pa, pu;
  cbn [map fst snd nth opt0 schema_val]; estrip; apply eqm_eq; ring.
Ltac bpat := let H := fresh in intros (H & _); cbn [map snd pa pu] in H; first [reflexivity|congruence].
Ltac ctrow := eapply CT_bind; [apply CT_one_line_with_last; [assumption|cbn;lia|cbn;lia|sok|sok|gate_honest]|].
Ltac ctrow1 := eapply CT_bind; [apply CT_one_line; [assumption|cbn;lia|cbn;lia|sok|gate_honest|bpat]|].
Ltac ctgate := ctrow; intros ? ? ? ? (-> & ? & ?); apply CT_ret; [assumption|]; split; [assumption|reflexivity].

Lemma lin_val_spec elems constant :
  Forall (fun e => 0 <= a_val (fst e) < nmod) elems -> elems <> [] ->
  (forall k, constant = Some k -> 0 <= k < nmod) ->
  lin_val elems constant ≡ opt0 constant
     + fold_right (fun e acc => a_val (fst e) * snd e + acc) 0 elems ⟨nmod⟩
  /\ 0 <= lin_val elems constant < nmod.
Proof.
  intros F NE K. unfold lin_val.
  assert (G : forall l t, fold_left fadd (map (fun e : av * Z => fmul (a_val (fst e)) (snd e)) l) t
     ≡ t + fold_right (fun e acc => a_val (fst e) * snd e + acc) 0 l ⟨nmod⟩).
  { induction l as [|e l IH]; intros t; cbn [map fold_left fold_right].
    - rewrite Z.add_0_r. reflexivity.
    - rewrite IH. estrip. apply eqm_eq. ring. }
  assert (R : forall l t, 0 <= t < nmod ->
     0 <= fold_left fadd (map (fun e : av * Z => fmul (a_val (fst e)) (snd e)) l) t < nmod).
  { induction l as [|e l IH]; intros t Ht; cbn [map fold_left]; [auto|]. apply IH. apply mod_range. }
  destruct elems as [|e l]; [congruence|]. cbn [map fold_right].
  destruct constant as [k|]; cbn [opt0].
  - split; [|apply mod_range]. unfold fadd at 1. rewrite mod_eqm, G. estrip. apply eqm_eq. ring.
  - split; [|apply R; apply mod_range]. rewrite G. estrip. apply eqm_eq. ring.
Qed.

Definition hlin (elems : list (av * Z)) : Z :=
  fold_right (fun e acc => a_val (fst e) * snd e + acc) 0 elems.
Lemma hlin_app a b : hlin (a ++ b) = hlin a + hlin b.
Proof. induction a as [|e a IH]; simpl; [ring|]. rewrite IH. ring. Qed.

Lemma swcol_CT c elems constant :
  wf c -> Forall (fun e => valid c (fst e)) elems -> (0 < length elems < 5)%nat ->
  (forall k, constant = Some k -> 0 <= k < nmod) ->
  CT c (sum_with_constant_in_one_line elems constant)
     (fun r c' => valid c' r /\ a_val r ≡ opt0 constant + hlin elems ⟨nmod⟩).
Proof.
  intros W F L K. unfold sum_with_constant_in_one_line.
  apply CT_assert_k; [apply Nat.ltb_lt; unfold VAR_COLUMNS; lia|].
  apply CT_assert_k; [destruct (Nat.eqb_spec (length elems) 0); [lia|reflexivity]|].
  destruct (lin_val_spec elems constant) as [H1 H2]; auto.
  { eapply Forall_impl; [|exact F]. intros e V; apply V. }
  { destruct elems; [simpl in L; lia|discriminate]. }
  eapply CT_bind; [apply CT_one_line_with_last|].
  - assumption.
  - rewrite map_length; lia.
  - cbn; lia.
  - apply Forall_map. eapply Forall_impl; [|exact F]. intros e V. exact V.
  - exact H2.
  - destruct elems as [|[e0 k0] [|[e1 k1] [|[e2 k2] [|[e3 k3] [|]]]]]; simpl in L; try lia;
    unfold gate_sum, with_tail, tail_val, pair_val, pa, pu;
    cbn [map fst snd nth schema_val]; rewrite H1; cbn [fold_right fst snd]; estrip; apply eqm_eq; ring.
  - intros x c' W' E' (-> & V1 & V2). apply CT_ret; [assumption|]. split; [exact V2|exact H1].
Qed.

Lemma swc_CT c elems constant :
  wf c -> Forall (fun e => valid c (fst e)) elems -> (0 < length elems)%nat ->
  (forall k, constant = Some k -> 0 <= k < nmod) ->
  CT c (sum_with_constant elems constant)
     (fun r c' => valid c' r /\ a_val r ≡ opt0 constant + hlin elems ⟨nmod⟩).
Proof.
  intros W F L K. unfold sum_with_constant. destruct (Nat.ltb_spec (length elems) VAR_COLUMNS) as [H|H].
  { apply swcol_CT; auto. }
  unfold VAR_COLUMNS in *. cbn [Nat.sub].
  eapply CT_bind; [apply swcol_CT; auto|].
  { apply Forall_forall. intros e He. rewrite Forall_forall in F. apply F.
    rewrite <- (firstn_skipn 4 elems). apply in_or_app; auto. }
  { rewrite firstn_length. lia. }
  intros acc c1 W1 E1 (V1 & H1).
  assert (G : forall chunks c1 acc done,
     wf c1 -> valid c1 acc -> Forall (fun ch => (length ch <= 3)%nat) chunks ->
     Forall (fun e => valid c1 (fst e)) (concat chunks) ->
     a_val acc ≡ opt0 constant + hlin done ⟨nmod⟩ ->
     CT c1 (foldM (fun acc chunk => sum_with_constant_in_one_line (chunk ++ [(acc, 1)]) None) acc chunks)
        (fun r c' => valid c' r /\ a_val r ≡ opt0 constant + hlin (done ++ concat chunks) ⟨nmod⟩)).
  { clear -n_prime. induction chunks as [|ch chs IH]; intros c1 acc done W1 V1 L1 F1 H1; cbn [foldM concat].
    - apply CT_ret; [auto|]. rewrite app_nil_r. auto.
    - inversion L1; subst. cbn [concat] in F1. apply Forall_app in F1 as [F1 F2].
      eapply CT_bind; [apply swcol_CT; auto|].
      + apply Forall_app. split; [auto|]. constructor; [exact V1|constructor].
      + rewrite app_length. simpl. lia.
      + discriminate.
      + intros r c2 W2 E2 (V2 & H2'). rewrite app_assoc. apply IH; auto.
        * eapply Forall_impl; [|exact F2]. intros e V. eapply valid_mono; eauto.
        * rewrite H2'. rewrite !hlin_app. cbn [hlin fold_right fst snd opt0].
          fold (hlin ch). rewrite H1. apply eqm_eq. ring. }
  eapply CT_weaken; [apply (G _ _ _ (firstn 4 elems))|]; auto.
  - unfold chunks. clear. generalize (skipn 4 elems) as l. intros l.
    generalize (length l) as f. intros f. revert l. induction f as [|f IH]; intros l; cbn [chunks_fuel]; [constructor|].
    destruct l; constructor; [|apply IH]. apply firstn_le_length.
  - rewrite chunks_concat by lia. apply Forall_forall. intros e He. rewrite Forall_forall in F.
    eapply valid_mono; [exact E1|]. apply F. rewrite <- (firstn_skipn 4 elems). apply in_or_app; auto.
  - intros x c' _ _ (V & Hx). split; [auto|].
    rewrite chunks_concat, firstn_skipn in Hx by lia. exact Hx.
Qed.

Lemma eqm_val m x y : 0 <= x < m -> x ≡ y ⟨m⟩ -> x = y mod m.
Proof. intros. apply eqm_mod_intro; auto. Qed.

Ltac ctsum := eapply CT_weaken; [apply swc_CT; [assumption|vall|cbn; lia|]|].

Lemma add_CT c a b : wf c -> valid c a -> valid c b ->
  CT c (add a b) (fun r c' => valid c' r /\ a_val r = fadd (a_val a) (a_val b)).
Proof.
  intros W Va Vb. unfold add. ctsum; [discriminate|].
  intros r c' _ _ (V & H). split; [auto|]. apply eqm_val; [apply V|]. rewrite H.
  cbn [hlin fold_right fst snd opt0]. apply eqm_eq. ring.
Qed.
Lemma add_constant_CT c a k : wf c -> valid c a -> 0 <= k < nmod ->
  CT c (add_constant a k) (fun r c' => valid c' r /\ a_val r = fadd (a_val a) k).
Proof.
  intros W Va Vb. unfold add_constant. ctsum; [intros k' Hk; injection Hk as <-; auto|].
  intros r c' _ _ (V & H). split; [auto|]. apply eqm_val; [apply V|]. rewrite H.
  cbn [hlin fold_right fst snd opt0]. apply eqm_eq. ring.
Qed.
Lemma sub_CT c a b : wf c -> valid c a -> valid c b ->
  CT c (sub a b) (fun r c' => valid c' r /\ a_val r = fsub (a_val a) (a_val b)).
Proof.
  intros W Va Vb. unfold sub. ctsum; [discriminate|].
  intros r c' _ _ (V & H). split; [auto|]. apply eqm_val; [apply V|]. rewrite H.
  cbn [hlin fold_right fst snd opt0]. estrip. apply eqm_eq. ring.
Qed.
Lemma not_CT c a : wf c -> valid c a ->
  CT c (not_ a) (fun r c' => valid c' r /\ a_val r = fsub 1 (a_val a)).
Proof.
  intros W Va. pose proof (n_pos n_prime). unfold not_.
  ctsum; [intros k' Hk; injection Hk as <-; lia|].
  intros r c' _ _ (V & H'). split; [auto|]. apply eqm_val; [apply V|]. rewrite H'.
  cbn [hlin fold_right fst snd opt0]. estrip. apply eqm_eq. ring.
Qed.

Lemma mul_CT c a b : wf c -> valid c a -> valid c b ->
  CT c (mul a b) (fun r c' => valid c' r /\ a_val r = fmul (a_val a) (a_val b)).
Proof. intros W Va Vb. unfold mul. ctgate. Qed.
Lemma and_CT c a b : wf c -> valid c a -> valid c b ->
  CT c (and_ a b) (fun r c' => valid c' r /\ a_val r = fmul (a_val a) (a_val b)).
Proof. apply mul_CT. Qed.
Lemma mul_add_constant_CT c a b k : wf c -> valid c a -> valid c b ->
  CT c (mul_add_constant a b k) (fun r c' => valid c' r /\ a_val r = fadd (fmul (a_val a) (a_val b)) k).
Proof. intros W Va Vb. unfold mul_add_constant. ctgate. Qed.
Lemma mul_add_CT c a b k d kd : wf c -> valid c a -> valid c b -> valid c d ->
  CT c (mul_add a b k d kd) (fun r c' => valid c' r /\
     a_val r = fadd (fmul (fmul (a_val a) (a_val b)) k) (fmul (a_val d) kd)).
Proof. intros W Va Vb Vd. unfold mul_add. ctgate. Qed.
Lemma not_and_CT c a b : wf c -> valid c a -> valid c b ->
  CT c (not_and a b) (fun r c' => valid c' r /\
     a_val r = fsub (a_val b) (fmul (a_val a) (a_val b))).
Proof. intros W Va Vb. unfold not_and. ctgate. Qed.
Lemma or_CT c a b : wf c -> valid c a -> valid c b ->
  CT c (or_ a b) (fun r c' => valid c' r /\
     a_val r = fsub (fadd (a_val a) (a_val b)) (fmul (a_val a) (a_val b))).
Proof. intros W Va Vb. unfold or_. ctgate. Qed.
Lemma xor_CT c a b : wf c -> valid c a -> valid c b ->
  CT c (xor_ a b) (fun r c' => valid c' r /\
     a_val r = fsub (fadd (a_val a) (a_val b)) (fmul (fmul (fadd 1 1) (a_val a)) (a_val b))).
Proof. intros W Va Vb. unfold xor_. ctgate. Qed.
Lemma xnor_CT c a b : wf c -> valid c a -> valid c b ->
  CT c (xnor_ a b) (fun r c' => valid c' r /\
     a_val r = fadd (fsub (fsub 1 (a_val a)) (a_val b)) (fmul (fmul (fadd 1 1) (a_val a)) (a_val b))).
Proof. intros W Va Vb. unfold xnor_. ctgate. Qed.
Lemma bisec_CT c d a b : wf c -> valid c d -> valid c a -> valid c b ->
  CT c (bisec d a b) (fun r c' => valid c' r /\
     a_val r = fadd (fmul (a_val d) (a_val a)) (fmul (fsub 1 (a_val d)) (a_val b))).
Proof. intros W Vd Va Vb. unfold bisec. ctgate. Qed.

Lemma nth_handles_valid c off pairs i p :
  Forall (valid c) (ol_handles off pairs) -> nth_error pairs i = Some p ->
  nth_error (ol_handles off pairs) i = Some (mkAv (bcell i off) (schema_val (fst p)))
  /\ valid c (mkAv (bcell i off) (schema_val (fst p))).
Proof.
  intros F H.
  assert (E : nth_error (ol_handles off pairs) i = Some (mkAv (bcell i off) (schema_val (fst p)))).
  { unfold ol_handles, mapi. clear F.
    assert (G : forall l k, nth_error (mapi_from k (fun i (p : pair_t) => mkAv (bcell i off) (schema_val (fst p))) l) i
                = option_map (fun p => mkAv (bcell (k + i) off) (schema_val (fst p))) (nth_error l i)).
    { clear. intros l; revert i; induction l as [|x l IH]; intros i k; destruct i; simpl; auto.
      - rewrite Nat.add_0_r. reflexivity.
      - rewrite IH. replace (S k + i)%nat with (k + S i)%nat by lia. reflexivity. }
    rewrite G, H. reflexivity. }
  split; [exact E|]. apply nth_error_In in E. rewrite Forall_forall in F. auto.
Qed.

Lemma assign_CT c v : wf c -> 0 <= v < nmod ->
  CT c (assign v) (fun r c' => valid c' r /\ a_val r = v).
Proof.
  intros W Hv. unfold assign, one_line_add. ctrow1. intros x c' W' E' (-> & F).
  destruct (nth_handles_valid _ _ _ 0%nat _ F eq_refl) as [E V].
  eapply CT_nth; [assumption|exact E|]. split; [exact V|reflexivity].
Qed.
Lemma assign_constant_CT c v : wf c -> 0 <= v < nmod ->
  CT c (assign_constant v) (fun r c' => valid c' r /\ a_val r = v).
Proof.
  intros W Hv. unfold assign_constant, one_line_add. ctrow1. intros x c' W' E' (-> & F).
  destruct (nth_handles_valid _ _ _ 0%nat _ F eq_refl) as [E V].
  eapply CT_nth; [assumption|exact E|]. split; [exact V|reflexivity].
Qed.
Lemma assign_bit_CT c v : wf c -> v = 0 \/ v = 1 ->
  CT c (assign_bit v) (fun r c' => valid c' r /\ a_val r = v).
Proof.
  intros W Hv. pose proof (n_pos n_prime). assert (0 <= v < nmod) by lia.
  unfold assign_bit.
  eapply CT_bind; [apply CT_one_line; [assumption|cbn;lia|cbn;lia|sok| |bpat]|].
  { destruct Hv; subst v; gate_honest. }
  intros x c' W' E' (-> & F).
  destruct (nth_handles_valid _ _ _ 0%nat _ F eq_refl) as [E V].
  eapply CT_nth; [assumption|exact E|]. split; [exact V|reflexivity].
Qed.
Lemma assert_bit_CT c a : wf c -> valid c a -> a_val a = 0 \/ a_val a = 1 ->
  CT c (assert_bit a) (fun _ _ => True).
Proof.
  intros W V Hv. unfold assert_bit.
  eapply CT_bind; [apply CT_one_line; [assumption|cbn;lia|cbn;lia|sok| |bpat]|].
  { unfold gate_sum, with_tail, tail_val, pair_val, pa, pu;
    cbn [map fst snd nth opt0 schema_val]. destruct Hv as [-> | ->]; estrip; apply eqm_eq; ring. }
  intros x c' W' E' _. apply CT_ret; auto.
Qed.
Lemma assert_equal_CT c a b : wf c -> valid c a -> valid c b -> a_val a = a_val b ->
  CT c (assert_equal a b) (fun _ _ => True).
Proof.
  intros W Va Vb Hv. unfold assert_equal, one_line_add.
  eapply CT_bind; [apply CT_one_line; [assumption|cbn;lia|cbn;lia|sok| |bpat]|].
  { unfold gate_sum, with_tail, tail_val, pair_val, pa, pu;
    cbn [map fst snd nth opt0 schema_val]. rewrite Hv. estrip; apply eqm_eq; ring. }
  intros x c' W' E' _. apply CT_ret; auto.
Qed.
Lemma assert_constant_CT c a b : wf c -> valid c a -> a_val a = b ->
  CT c (assert_constant a b) (fun _ _ => True).
Proof.
  intros W Va Hv. unfold assert_constant, one_line_add. apply CT_assert_k; [apply Z.eqb_eq; auto|].
  eapply CT_bind; [apply CT_one_line; [assumption|cbn;lia|cbn;lia|sok| |bpat]|].
  { unfold gate_sum, with_tail, tail_val, pair_val, pa, pu;
    cbn [map fst snd nth opt0 schema_val]. rewrite Hv. estrip; apply eqm_eq; ring. }
  intros x c' W' E' _. apply CT_ret; auto.
Qed.
Lemma assert_true_CT c a : wf c -> valid c a -> a_val a = 1 -> CT c (assert_true a) (fun _ _ => True).
Proof.
  intros W Va Hv. unfold assert_true. apply CT_assert_k; [apply Z.eqb_eq; auto|].
  apply assert_constant_CT; auto.
Qed.
Lemma assert_false_CT c a : wf c -> valid c a -> a_val a = 0 -> CT c (assert_false a) (fun _ _ => True).
Proof.
  intros W Va Hv. unfold assert_false. apply CT_assert_k; [apply Z.eqb_eq; auto|].
  apply assert_constant_CT; auto.
Qed.
Lemma try_assert_false_CT c a : wf c -> valid c a -> a_val a = 0 ->
  CT c (try_assert_false a) (fun r _ => r = true).
Proof.
  intros W Va Hv. unfold try_assert_false. eapply CT_bind; [apply assert_constant_CT; auto|].
  intros x c' W' E' _. apply CT_ret; [auto|]. apply Z.eqb_eq; auto.
Qed.

(** The honest inverse (0 for 0). *)
Lemma inv_val a : 0 <= a < nmod ->
  (a = 0 /\ zinv nmod a = None) \/
  (a <> 0 /\ exists b, zinv nmod a = Some b /\ a * b ≡ 1 ⟨nmod⟩ /\ 0 <= b < nmod).
Proof.
  intros R. destruct (Z.eq_dec a 0) as [->|N].
  - left. split; [auto|]. apply zinv_none; auto.
  - right. split; [auto|]. destruct (zinv_some nmod a) as [b Hb]; auto.
    + rewrite Z.mod_small; auto.
    + destruct (zinv_correct _ _ _ n_prime Hb). eauto.
Qed.

Lemma invert_CT c a : wf c -> valid c a ->
  CT c (invert a) (fun r c' => valid c' (fst r) /\ valid c' (snd r)
     /\ a_val (fst r) = (if a_val a =? 0 then 1 else 0)
     /\ (a_val a <> 0 -> a_val a * a_val (snd r) ≡ 1 ⟨nmod⟩)).
Proof.
  intros W Va. pose proof (n_pos n_prime) as NP. unfold invert.
  set (b := match zinv nmod (a_val a) with Some b => b | None => 0 end).
  set (cv := fsub 1 (fmul (a_val a) b)).
  assert (HB : 0 <= b < nmod /\ a_val a * cv ≡ 0 ⟨nmod⟩ /\ cv = (if a_val a =? 0 then 1 else 0)
               /\ (a_val a <> 0 -> a_val a * b ≡ 1 ⟨nmod⟩)).
  { destruct (inv_val (a_val a)) as [[E1 E2]|(N & x & E1 & E2 & E3)]; [apply Va| |].
    - assert (b = 0) as Hb by (unfold b; rewrite E2; reflexivity).
      assert (cv = 1) as Hc.
      { unfold cv, fsub, fmul. rewrite Hb, Z.mul_0_r, Zmod_0_l, Z.sub_0_r. apply Z.mod_1_l. lia. }
      rewrite Hb, Hc, E1. repeat split; try lia.
    - assert (b = x) as Hb by (unfold b; rewrite E1; reflexivity).
      assert (cv = 0) as Hc.
      { unfold cv, fsub, fmul. rewrite Hb. rewrite Zminus_mod_idemp_r.
        change 0 with (0 mod nmod). change (1 - a_val a * x ≡ 0 ⟨nmod⟩). rewrite E2. reflexivity. }
      rewrite Hb, Hc. split; [auto|]. split; [rewrite Z.mul_0_r; reflexivity|].
      destruct (Z.eqb_spec (a_val a) 0); [contradiction|]. auto. }
  destruct HB as (Rb & G1 & Hcv & Hinv).
  assert (Rc : 0 <= cv < nmod) by (unfold cv; apply mod_range).
  eapply CT_bind; [apply CT_one_line; [assumption|cbn;lia|cbn;lia|sok| |bpat]|].
  { unfold gate_sum, pair_val, pa, pu; cbn [map fst snd nth opt0 schema_val].
    transitivity (a_val a * cv); [apply eqm_eq; ring|exact G1]. }
  intros x c1 W1 E1 (-> & F).
  destruct (nth_handles_valid _ _ _ 1%nat _ F eq_refl) as [E V]. cbn [pu fst schema_val] in E, V.
  eapply CT_nth_k; [exact E|].
  assert (Va1 : valid c1 a) by (eapply valid_mono; eauto).
  eapply CT_bind; [apply CT_one_line_with_last; [assumption|cbn;lia|cbn;lia|sok|sok|]|].
  { unfold gate_sum, with_tail, tail_val, pair_val, pa, pu; cbn [map fst snd nth opt0 schema_val a_val].
    unfold cv. estrip. apply eqm_eq. ring. }
  intros y c2 W2 E2 (-> & F2 & V2). cbn [fst snd] in F2, V2.
  destruct (nth_handles_valid _ _ _ 1%nat _ F2 eq_refl) as [E' V'].
  eapply CT_nth_k; [exact E'|]. apply CT_ret; [assumption|]. cbn [fst snd a_val schema_val pu].
  split; [exact V2|]. split; [exact V'|]. split; [exact Hcv|exact Hinv].
Qed.
Lemma is_zero_CT c a : wf c -> valid c a ->
  CT c (is_zero a) (fun r c' => valid c' r /\ a_val r = (if a_val a =? 0 then 1 else 0)).
Proof.
  intros W Va. unfold is_zero. eapply CT_bind; [apply invert_CT; auto|].
  intros x c' W' E' (V1 & V2 & H & _). apply CT_ret; auto.
Qed.
Lemma invert_unsafe_CT c a : wf c -> valid c a -> a_val a <> 0 ->
  CT c (invert_unsafe a) (fun r c' => valid c' r /\ a_val a * a_val r ≡ 1 ⟨nmod⟩).
Proof.
  intros W Va N. unfold invert_unsafe.
  destruct (inv_val (a_val a)) as [[E1 E2]|(_ & x & E1 & E2 & E3)]; [apply Va|contradiction|].
  eapply CT_opt_k; [exact E1|].
  eapply CT_bind; [apply CT_one_line; [assumption|cbn;lia|cbn;lia|sok| |bpat]|].
  { unfold gate_sum, pair_val, pa, pu; cbn [map fst snd nth opt0 schema_val]. estrip.
    transitivity (a_val a * x - 1); [apply eqm_eq; ring|]. rewrite E2. reflexivity. }
  intros y c1 W1 E (-> & F).
  destruct (nth_handles_valid _ _ _ 1%nat _ F eq_refl) as [E' V].
  eapply CT_nth; [assumption|exact E'|]. split; [exact V|exact E2].
Qed.
Lemma div_unsafe_CT c a b : wf c -> valid c a -> valid c b -> a_val b <> 0 ->
  CT c (div_unsafe a b) (fun r c' => valid c' r /\ a_val b * a_val r ≡ a_val a ⟨nmod⟩).
Proof.
  intros W Va Vb N. unfold div_unsafe.
  destruct (inv_val (a_val b)) as [[E1 E2]|(_ & x & E1 & E2 & E3)]; [apply Vb|contradiction|].
  eapply CT_opt_k; [exact E1|].
  assert (G : a_val b * fmul x (a_val a) ≡ a_val a ⟨nmod⟩).
  { estrip. transitivity (a_val b * x * a_val a); [apply eqm_eq; ring|]. rewrite E2. apply eqm_eq. ring. }
  eapply CT_bind; [apply CT_one_line_with_last; [assumption|cbn;lia|cbn;lia|sok|sok|]|].
  { unfold gate_sum, with_tail, tail_val, pair_val, pa, pu; cbn [map fst snd nth opt0 schema_val].
    estrip. apply eqm_sub_0 in G. unfold fmul in *. rewrite mod_eqm in G.
    transitivity (a_val b * (x * a_val a) - a_val a); [apply eqm_eq; ring|exact G]. }
  intros y c1 W1 E (-> & F & V). cbn [fst snd] in *.
  destruct (nth_handles_valid _ _ _ 1%nat _ F eq_refl) as [E' V'].
  eapply CT_nth; [assumption|exact E'|]. split; [exact V'|exact G].
Qed.

(** Chained rows: the honest run of [mul_add_with_next_line]. *)
Definition hdot (ls : list mterm) : Z :=
  fold_right (fun (l : mterm) acc => let '(a, b, c, cc) := l in
     a_val a * a_val b + a_val c * cc + acc) 0 ls.
Definition mterm_valid (c : ctx) (l : mterm) : Prop :=
  let '(a, b, d, cc) := l in valid c a /\ valid c b /\ valid c d.

Lemma mul_add_lines_CT ls : forall first t c,
  wf c -> Forall (mterm_valid c) ls -> 0 <= t < nmod -> (first = true -> t = 0) ->
  exists t' c', mul_add_lines first t ls c = Ok (t', c') /\ wf c' /\ extends c c'
    /\ (advs_ok c -> advs_ok c')
    /\ t' ≡ t + hdot ls ⟨nmod⟩ /\ 0 <= t' < nmod
    /\ (forall A, agrees c' A -> A (bcell 4 (base_off c')) = t' -> A (bcell 4 (base_off c)) = t)
    /\ (forall T A, agrees c' A -> A (bcell 4 (base_off c')) = t' -> sat T c A -> sat T c' A).
Proof.
  induction ls as [|[[[a b] d] cc] ls IH]; intros first t c W F Ht Hf.
  - exists t, c. cbn [mul_add_lines]. split; [reflexivity|]. split; [auto|]. split; [apply extends_refl|]. split; [auto|].
    split; [simpl; rewrite Z.add_0_r; reflexivity|]. split; [auto|]. split; auto.
  - inversion F as [|x y Hm F']; subst. destruct Hm as (Va & Vb & Vd).
    destruct (one_line_with_last_ok [pa a 0; pa b 0; pa d cc] (pu t (if first then 0 else 1)) None [1]
               (Some (fneg 1)) c W ltac:(cbn; lia) ltac:(cbn; lia)) as (c1 & H1).
    assert (SOK : Forall (fun p => schema_ok c (fst p)) [pa a 0; pa b 0; pa d cc]) by sok.
    assert (TOK : schema_ok c (fst (pu t (if first then 0 else 1)))) by exact Ht.
    destruct (olt_honest _ _ _ _ _ _ _ _ W SOK TOK H1) as (_ & _ & U & HV & HC).
    destruct (one_line_with_last_sat (mkEnv (fun _ _ => True) False) (fun _ => 0) _ _ _ _ _ _ _ _ W H1)
      as (W1 & E1 & _ & O1 & _).
    destruct (IH false (mterm_val t (a, b, d, cc)) c1 W1) as (t' & c' & H2 & W2 & E2 & AO & Ht' & R' & HA & HS).
    + eapply Forall_impl; [|exact F']. intros [[[? ?] ?] ?] (?&?&?). repeat split; eapply valid_mono; eauto.
    + unfold mterm_val, fadd. apply mod_range.
    + discriminate.
    + exists t', c'. cbn [mul_add_lines].
      split; [unfold mbind; rewrite H1; exact H2|]. split; [exact W2|].
      split; [eapply extends_trans; eauto|].
      split; [intros P; apply AO; exact (olt_advs_ok _ _ _ _ _ _ _ _ W SOK TOK H1 P)|]. split.
      { rewrite Ht'. cbn [hdot fold_right mterm_val]. fold (hdot ls). estrip. apply eqm_eq. ring. }
      split; [exact R'|]. split.
      * intros A HG _. rewrite (HV A) by (try lia; eapply agrees_mono; eauto). reflexivity.
      * intros T A HG Hl S. apply HS; auto.
        destruct (one_line_with_last_sat T A _ _ _ _ _ _ _ _ W H1) as (_ & _ & _ & _ & ->).
        assert (HG1 : agrees c1 A) by (eapply agrees_mono; eauto).
        split; [auto|]. destruct (HC A HG1) as [C1 C2]. split; [exact C1|]. split; [exact C2|].
        rewrite (gate_sum_ext _ (tail_val [pa a 0; pa b 0; pa d cc] (pu t (if first then 0 else 1))))
          by (intros; apply HV; auto).
        rewrite <- O1, (HA A HG Hl).
        unfold gate_sum, with_tail, tail_val, pair_val, pa, pu; cbn [map fst snd nth opt0 schema_val mterm_val].
        estrip. destruct first; [rewrite (Hf eq_refl)|]; apply eqm_eq; ring.
Qed.

Lemma mawnl_CT c ls : wf c -> Forall (mterm_valid c) ls -> ls <> [] ->
  CT c (mul_add_with_next_line ls) (fun r c' => valid c' r /\ a_val r ≡ hdot ls ⟨nmod⟩).
Proof.
  intros W F NE. pose proof (n_pos n_prime) as NP.
  assert (GEN : CT c (t <- mul_add_lines true 0 ls ;;
            cells <- one_line_with_last [] (pu t 0) None [] None ;; mret (snd cells))
       (fun r c' => valid c' r /\ a_val r ≡ hdot ls ⟨nmod⟩)).
  { destruct (mul_add_lines_CT ls true 0 c W F ltac:(lia) ltac:(auto))
      as (t & c1 & H1 & W1 & E1 & AO & Ht & R & _ & HS).
    destruct (one_line_with_last_ok [] (pu t 0) None [] None c1 W1 ltac:(cbn; lia) ltac:(cbn; lia)) as (c2 & H2).
    assert (TOK : schema_ok c1 (fst (pu t 0))) by exact R.
    destruct (olt_honest _ _ _ _ _ _ _ _ W1 (Forall_nil _) TOK H2) as (_ & V2 & U & HV & HC).
    destruct (one_line_with_last_sat (mkEnv (fun _ _ => True) False) (fun _ => 0) _ _ _ _ _ _ _ _ W1 H2)
      as (W2 & E2 & _ & O2 & _).
    eexists _, c2. split; [unfold mbind; rewrite H1, H2; reflexivity|].
    split; [exact W2|]. split; [eapply extends_trans; eauto|]. split.
    - split; [intros P; exact (olt_advs_ok _ _ _ _ _ _ _ _ W1 (Forall_nil _) TOK H2 (AO P))|]. intros T A HA HG HT S.
      destruct (one_line_with_last_sat T A _ _ _ _ _ _ _ _ W1 H2) as (_ & _ & _ & _ & ->).
      split.
      + apply HS; [eapply agrees_mono; eauto| |exact S]. rewrite (HV A HG) by lia. reflexivity.
      + destruct (HC A HG) as [C1 C2]. split; [exact C1|]. split; [exact C2|].
        unfold gate_sum, with_tail, pu; cbn [map fst snd nth opt0]. apply eqm_eq. ring.
    - split; [exact V2|]. cbn [snd a_val pu fst schema_val]. rewrite Ht. reflexivity. }
  unfold mul_add_with_next_line.
  destruct ls as [|[[[a b] d] cc] [|l ls]]; [congruence| |exact GEN].
  inversion F as [|x y Hm F']; subst. destruct Hm as (Va & Vb & Vd).
  eapply CT_weaken; [apply mul_add_CT; auto|]. intros r c' _ _ (V & H). split; [auto|].
  rewrite H. cbn [hdot fold_right]. estrip. apply eqm_eq. ring.
Qed.

End Complete.
