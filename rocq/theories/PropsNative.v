(** PROPERTIES C01-C09 and C51: native-field gadgets (src/circuit/base_chip.rs).

    [sound m Q]: in every circuit built on top of the recorded one, every
    satisfying assignment makes [Q] true of the returned handles.
    [A⟦a⟧] is the value the assignment [A] gives to the cell of handle [a].
    [accepts c m Q]: run from [c], [m] does not panic, [Q] holds of its result
    and a good recorded witness stays good (hence satisfies the circuit). *)
From Verif Require Import Prelude FieldZ Circuit Context Spec Logic BaseChip Moduli NativeMain.
(** C01.  In every satisfying assignment the cells returned by the arithmetic
    gadgets hold the corresponding field expression of the operand cells. *)
Theorem C01_native_arithmetic_sound :
  forall (NM : NMod), prime nmod -> forall a b c k kc,
    sound (add a b) (fun A r => A⟦r⟧ = (A⟦a⟧ + A⟦b⟧) mod nmod)
 /\ sound (add_constant a k) (fun A r => A⟦r⟧ = (A⟦a⟧ + k) mod nmod)
 /\ sound (sub a b) (fun A r => A⟦r⟧ = (A⟦a⟧ - A⟦b⟧) mod nmod)
 /\ sound (mul a b) (fun A r => A⟦r⟧ = (A⟦a⟧ * A⟦b⟧) mod nmod)
 /\ sound (mul_add_constant a b k) (fun A r => A⟦r⟧ = (A⟦a⟧ * A⟦b⟧ + k) mod nmod)
 /\ sound (mul_add a b k c kc) (fun A r => A⟦r⟧ = (A⟦a⟧ * A⟦b⟧ * k + A⟦c⟧ * kc) mod nmod).
Proof. exact C01_native_arithmetic_sound_main. Qed.
Print Assumptions C01_native_arithmetic_sound.
(** Non-vacuous: over bn256 Fr, with two freshly assigned operands, the run
    succeeds and its recorded witness is a satisfying assignment. *)
Example C01_case : exists r c', (a <- @assign 5 ;; b <- assign 7 ;; @mul bn256_fr a b) ctx_new = Ok (r, c')
  /\ @satisfies bn256_fr c' (honest c') /\ (honest c')⟦r⟧ = 35.
Proof. exact C01_case_main. Qed.

(** C02.  Linear combinations of any length, through the one-row and the chunked path. *)
Theorem C02_linear_combination_sound :
  forall (NM : NMod), prime nmod -> forall elems constant,
    sound (sum_with_constant elems constant)
          (fun A r => A⟦r⟧ = (opt0 constant + lincomb A elems) mod nmod).
Proof. exact C02_linear_combination_sound_main. Qed.
Print Assumptions C02_linear_combination_sound.
(** Non-vacuous: a run with [k] terms (any k) over freshly assigned cells. *)
Example C02_case : exists r c',
  (l <- mapM (fun v => a <- @assign v ;; mret (a, v)) [1;2;3;4;5;6;7;8] ;;
   @sum_with_constant bn256_fr l (Some 9)) ctx_new = Ok (r, c')
  /\ @satisfies bn256_fr c' (honest c') /\ (honest c')⟦r⟧ = 213.
Proof. exact C02_case_main. Qed.

(** C03.  Chained multiply-add rows of any positive length. *)
Theorem C03_dot_product_sound :
  forall (NM : NMod), prime nmod -> forall ls,
    sound (mul_add_with_next_line ls) (fun A r => A⟦r⟧ = dotsum A ls mod nmod).
Proof. exact C03_dot_product_sound_main. Qed.
Print Assumptions C03_dot_product_sound.
Example C03_case : exists r c',
  (a <- @assign 5 ;; b <- assign 7 ;;
   @mul_add_with_next_line bn256_fr [(a, b, a, 2); (b, b, a, 1); (a, a, b, 3)]) ctx_new = Ok (r, c')
  /\ @satisfies bn256_fr c' (honest c') /\ (honest c')⟦r⟧ = 145.
Proof. exact C03_case_main. Qed.

(** C04.  On operand cells that hold bits [x], [y] (and [z] for the condition) the
    boolean gadgets compute the boolean function; [assert_bit] forces a bit.  The
    remaining clause of C04 ([assign_bit] forces a bit) is false of the code:
    see [C51_assign_bit_forces_a_bit_refuted] and [C04_assign_bit_partial]. *)
Theorem C04_boolean_gadgets_sound :
  forall (NM : NMod), prime nmod -> forall a b c,
    sound (and_ a b) (fun A r => forall x y, A⟦a⟧ = Z.b2z x -> A⟦b⟧ = Z.b2z y -> A⟦r⟧ = Z.b2z (x && y))
 /\ sound (or_ a b) (fun A r => forall x y, A⟦a⟧ = Z.b2z x -> A⟦b⟧ = Z.b2z y -> A⟦r⟧ = Z.b2z (x || y))
 /\ sound (xor_ a b) (fun A r => forall x y, A⟦a⟧ = Z.b2z x -> A⟦b⟧ = Z.b2z y -> A⟦r⟧ = Z.b2z (xorb x y))
 /\ sound (xnor_ a b) (fun A r => forall x y, A⟦a⟧ = Z.b2z x -> A⟦b⟧ = Z.b2z y -> A⟦r⟧ = Z.b2z (Bool.eqb x y))
 /\ sound (not_ a) (fun A r => forall x, A⟦a⟧ = Z.b2z x -> A⟦r⟧ = Z.b2z (negb x))
 /\ sound (not_and a b) (fun A r => forall x y, A⟦a⟧ = Z.b2z x -> A⟦b⟧ = Z.b2z y -> A⟦r⟧ = Z.b2z (negb x && y))
 /\ sound (bisec_cond c a b) (fun A r => forall x y z, A⟦c⟧ = Z.b2z z -> A⟦a⟧ = Z.b2z x -> A⟦b⟧ = Z.b2z y ->
                                                       A⟦r⟧ = Z.b2z (if z then x else y))
 /\ sound (assert_bit a) (fun A _ => A⟦a⟧ = 0 \/ A⟦a⟧ = 1).
Proof. exact C04_boolean_gadgets_sound_main. Qed.
Print Assumptions C04_boolean_gadgets_sound.
Example C04_case : exists r c',
  (a <- @assign_bit bn256_fr 1 ;; b <- @assign_bit bn256_fr 0 ;; @xor_ bn256_fr a b) ctx_new = Ok (r, c')
  /\ @satisfies bn256_fr c' (honest c') /\ (honest c')⟦r⟧ = 1.
Proof. exact C04_case_main. Qed.

(** C04, the [assign_bit] clause, PARTIAL: it holds for assignments that give both
    cells of every bit row the same value (the honest prover does).  The circuit
    does not enforce that: the full statement, without [bit_consistent], is
    refuted by [C51_assign_bit_forces_a_bit_refuted]. *)
Theorem C04_assign_bit_partial :
  forall (NM : NMod), prime nmod -> forall v,
    sound_bits (assign_bit v) (fun A r => A⟦r⟧ = 0 \/ A⟦r⟧ = 1).
Proof. exact C04_assign_bit_partial_main. Qed.
Print Assumptions C04_assign_bit_partial.

(** C51 (REFUTED).  The property "the cell returned by assign_bit holds 0 or 1 in
    every satisfying assignment" fails: for every native field and EVERY field
    element x there is an assignment satisfying the circuit recorded by
    [assign_bit] in which the returned cell holds x.  (base_chip.rs:357-367
    multiplies two unconstrained cells instead of a cell with its copy.) *)
Theorem C51_assign_bit_forces_a_bit_refuted :
  forall (NM : NMod), prime nmod -> forall v x, 0 <= x < nmod ->
    exists r c' A, assign_bit v ctx_new = Ok (r, c') /\ satisfies c' A /\ A⟦r⟧ = x.
Proof. exact C51_assign_bit_forces_a_bit_refuted_main. Qed.
Print Assumptions C51_assign_bit_forces_a_bit_refuted.

(** C05.  The zero flag is exactly the zero test; the inverse cell inverts every
    non-zero operand; invert_unsafe and div_unsafe satisfy a*b = 1 and b*c = a. *)
Theorem C05_inverse_and_zero_test_sound :
  forall (NM : NMod), prime nmod -> forall a b,
    sound (is_zero a) (fun A r => A⟦r⟧ = if A⟦a⟧ =? 0 then 1 else 0)
 /\ sound (invert a) (fun A r => A⟦fst r⟧ = (if A⟦a⟧ =? 0 then 1 else 0)
                                 /\ (A⟦a⟧ <> 0 -> (A⟦a⟧ * A⟦snd r⟧) mod nmod = 1))
 /\ sound (invert_unsafe a) (fun A r => (A⟦a⟧ * A⟦r⟧) mod nmod = 1)
 /\ sound (div_unsafe a b) (fun A r => (A⟦b⟧ * A⟦r⟧) mod nmod = A⟦a⟧).
Proof. exact C05_inverse_and_zero_test_sound_main. Qed.
Print Assumptions C05_inverse_and_zero_test_sound.
Example C05_case : exists r c',
  (a <- @assign 5 ;; z <- @assign 0 ;; x <- @is_zero bn256_fr z ;; y <- @is_zero bn256_fr a ;;
   @div_unsafe bn256_fr x a ;;; mret (x, y)) ctx_new = Ok (r, c')
  /\ @satisfies bn256_fr c' (honest c') /\ (honest c')⟦fst r⟧ = 1 /\ (honest c')⟦snd r⟧ = 0.
Proof. exact C05_case_main. Qed.

(** C06.  Conditional selection. *)
Theorem C06_selection_sound :
  forall (NM : NMod), prime nmod -> forall c a b,
    sound (bisec c a b) (fun A r => (A⟦c⟧ = 1 -> A⟦r⟧ = A⟦a⟧) /\ (A⟦c⟧ = 0 -> A⟦r⟧ = A⟦b⟧)).
Proof. exact C06_selection_sound_main. Qed.
Print Assumptions C06_selection_sound.
Example C06_case : exists r c',
  (c <- @assign_bit bn256_fr 0 ;; a <- @assign 5 ;; b <- @assign 6 ;; @bisec bn256_fr c a b) ctx_new = Ok (r, c')
  /\ @satisfies bn256_fr c' (honest c') /\ (honest c')⟦r⟧ = 6.
Proof. exact C06_case_main. Qed.

(** C07, binding half: a satisfiable circuit containing the assertion has equal cells.
    Constants are field elements (0 <= v < n). *)
Theorem C07_assertions_bind :
  forall (NM : NMod), prime nmod -> forall a b v, 0 <= v < nmod ->
    sound (assert_equal a b) (fun A _ => A⟦a⟧ = A⟦b⟧)
 /\ sound (assert_constant a v) (fun A _ => A⟦a⟧ = v)
 /\ sound (assert_true a) (fun A _ => A⟦a⟧ = 1)
 /\ sound (assert_false a) (fun A _ => A⟦a⟧ = 0)
 /\ sound (try_assert_false a) (fun A _ => A⟦a⟧ = 0)
 /\ sound (assign_constant v) (fun A r => A⟦r⟧ = v).
Proof. exact C07_assertions_bind_main. Qed.
Print Assumptions C07_assertions_bind.

(** C07, accepting half: when the equality holds of the recorded witness the
    assertion succeeds and the recorded witness satisfies it. *)
Theorem C07_assertions_accept :
  forall (NM : NMod), prime nmod -> forall c a b v, wf c -> valid c a -> valid c b -> 0 <= v < nmod ->
    (a_val a = a_val b -> accepts c (assert_equal a b) (fun _ _ => True))
 /\ (a_val a = v -> accepts c (assert_constant a v) (fun _ _ => True))
 /\ (a_val a = 1 -> accepts c (assert_true a) (fun _ _ => True))
 /\ (a_val a = 0 -> accepts c (assert_false a) (fun _ _ => True))
 /\ (a_val a = 0 -> accepts c (try_assert_false a) (fun ok _ => ok = true))
 /\ accepts c (assign_constant v) (fun r c' => valid c' r /\ a_val r = v).
Proof. exact C07_assertions_accept_main. Qed.
Print Assumptions C07_assertions_accept.
Example C07_case : exists r c',
  (a <- @assign 5 ;; b <- @assign_constant bn256_fr 5 ;; @assert_equal bn256_fr a b ;;;
   @assert_constant bn256_fr a 5) ctx_new = Ok (r, c')
  /\ @satisfies bn256_fr c' (honest c').
Proof. exact C07_case_main. Qed.

(** C08.  Every native gadget, run on recorded cells with arbitrary witness values,
    does not panic (bar inverses of zero) and returns a recorded cell with the
    expected witness value, keeping the recorded witness good. *)
Theorem C08_native_gadgets_accept :
  forall (NM : NMod), prime nmod ->
  forall c a b d, wf c -> valid c a -> valid c b -> valid c d ->
    (forall v, 0 <= v < nmod -> accepts c (assign v) (fun r c' => valid c' r /\ a_val r = v))
 /\ (forall v, v = 0 \/ v = 1 -> accepts c (assign_bit v) (fun r c' => valid c' r /\ a_val r = v))
 /\ (a_val a = 0 \/ a_val a = 1 -> accepts c (assert_bit a) (fun _ _ => True))
 /\ accepts c (add a b) (fun r c' => valid c' r /\ a_val r = (a_val a + a_val b) mod nmod)
 /\ (forall k, 0 <= k < nmod ->
       accepts c (add_constant a k) (fun r c' => valid c' r /\ a_val r = (a_val a + k) mod nmod))
 /\ accepts c (sub a b) (fun r c' => valid c' r /\ a_val r = (a_val a - a_val b) mod nmod)
 /\ accepts c (mul a b) (fun r c' => valid c' r /\ a_val r = (a_val a * a_val b) mod nmod)
 /\ (forall k, accepts c (mul_add_constant a b k)
       (fun r c' => valid c' r /\ a_val r = (a_val a * a_val b + k) mod nmod))
 /\ (forall k kd, accepts c (mul_add a b k d kd)
       (fun r c' => valid c' r /\ a_val r = (a_val a * a_val b * k + a_val d * kd) mod nmod))
 /\ (forall elems constant, Forall (fun e => valid c (fst e)) elems -> elems <> [] ->
       (forall k, constant = Some k -> 0 <= k < nmod) ->
       accepts c (sum_with_constant elems constant)
         (fun r c' => valid c' r /\ a_val r = (opt0 constant + wlincomb elems) mod nmod))
 /\ (forall ls, Forall (fun l => let '(x, y, z, _) := l in valid c x /\ valid c y /\ valid c z) ls -> ls <> [] ->
       accepts c (mul_add_with_next_line ls)
         (fun r c' => valid c' r /\ a_val r = wdotsum ls mod nmod))
 /\ accepts c (invert a) (fun r c' => valid c' (fst r) /\ valid c' (snd r)
       /\ a_val (fst r) = (if a_val a =? 0 then 1 else 0)
       /\ (a_val a <> 0 -> (a_val a * a_val (snd r)) mod nmod = 1))
 /\ accepts c (is_zero a) (fun r c' => valid c' r /\ a_val r = (if a_val a =? 0 then 1 else 0))
 /\ (a_val a <> 0 -> accepts c (invert_unsafe a)
       (fun r c' => valid c' r /\ (a_val a * a_val r) mod nmod = 1))
 /\ (a_val b <> 0 -> accepts c (div_unsafe a b)
       (fun r c' => valid c' r /\ (a_val b * a_val r) mod nmod = a_val a))
 /\ accepts c (bisec d a b) (fun r c' => valid c' r /\
       a_val r = (a_val d * a_val a + (1 - a_val d) * a_val b) mod nmod)
 /\ accepts c (and_ a b) (fun r c' => valid c' r /\ a_val r = (a_val a * a_val b) mod nmod)
 /\ accepts c (not_ a) (fun r c' => valid c' r /\ a_val r = (1 - a_val a) mod nmod)
 /\ accepts c (not_and a b) (fun r c' => valid c' r /\ a_val r = ((1 - a_val a) * a_val b) mod nmod)
 /\ accepts c (or_ a b) (fun r c' => valid c' r /\
       a_val r = (a_val a + a_val b - a_val a * a_val b) mod nmod)
 /\ accepts c (xor_ a b) (fun r c' => valid c' r /\
       a_val r = (a_val a + a_val b - 2 * a_val a * a_val b) mod nmod)
 /\ accepts c (xnor_ a b) (fun r c' => valid c' r /\
       a_val r = (1 - a_val a - a_val b + 2 * a_val a * a_val b) mod nmod).
Proof. exact C08_native_gadgets_accept_main. Qed.
Print Assumptions C08_native_gadgets_accept.

(** C08, what "good" buys: the empty recorder state is good, and the recorded
    witness of a good state satisfies the whole recorded circuit. *)
Theorem C08_good_witness_satisfies :
  forall (NM : NMod), prime nmod ->
    good ctx_new /\ forall c, good c -> satisfies c (honest c) /\ bit_consistent c (honest c).
Proof. exact C08_good_witness_satisfies_main. Qed.
Print Assumptions C08_good_witness_satisfies.

(** C09.  Every native gadget leaves all earlier rows, fixed values, copy
    constraints and recorded witness values unchanged, and whatever an assignment
    of the later circuit [c'] satisfies includes everything recorded before in [c]
    (lookups being answered by the later circuit's table). *)
Theorem C09_gadgets_only_append :
  forall (NM : NMod),
    (forall a b c k kc v elems constant ls,
       append_only (add a b) /\ append_only (add_constant a k) /\ append_only (sub a b)
    /\ append_only (mul a b) /\ append_only (mul_add_constant a b k) /\ append_only (mul_add a b k c kc)
    /\ append_only (sum_with_constant elems constant) /\ append_only (mul_add_with_next_line ls)
    /\ append_only (invert a) /\ append_only (is_zero a) /\ append_only (invert_unsafe a)
    /\ append_only (div_unsafe a b) /\ append_only (assign v) /\ append_only (assign_constant v)
    /\ append_only (assign_bit v) /\ append_only (assert_equal a b) /\ append_only (assert_constant a v)
    /\ append_only (assert_bit a) /\ append_only (assert_true a) /\ append_only (assert_false a)
    /\ append_only (try_assert_false a) /\ append_only (and_ a b) /\ append_only (or_ a b)
    /\ append_only (xor_ a b) /\ append_only (xnor_ a b) /\ append_only (not_ a)
    /\ append_only (not_and a b) /\ append_only (bisec c a b) /\ append_only (bisec_cond c a b))
 /\ (forall c c' A, extends c c' -> satisfies c' A ->
       sat (mkEnv (select_table (fixv c') A) False) c A).
Proof. exact C09_gadgets_only_append_main. Qed.
Print Assumptions C09_gadgets_only_append.

