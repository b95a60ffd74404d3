(** PROPERTIES C35, C36, C49: the select chip and the multi-scalar multiplication that
    uses it (src/circuit/select_chip.rs, ecc_chip.rs).

    SpecSelect.v: [entry_code g s off] is the table key of limb [off] of candidate [s]
    in group [g], [cache_row c r e] says that row r of the circuit records a value
    under key e, [cached_once c e] that at most one row does.  SpecCalls.v: [quiet]
    programs add no such row, [calls] are histories of calls on one context. *)
From Verif Require Import Prelude FieldZ Circuit Context Spec BaseChip RangeInfo RangeChip IntegerChip
  SpecInt EccChip SpecEcc SpecMsm ScalarChip Msm SpecSelect SpecCalls Moduli Fields SelectMain.
(** C36.  (1) In every satisfying assignment A of a circuit containing a selection, the
    returned cell has the value of a row that caches under the key of the group, the limb
    and the value of the selector cell in A, provided that key is not 0.  (2) Hence it has
    the value of any cell cached under that key, if only one row caches under it.  (3)
    Caching is accepted, and so is selecting a value that is recorded under the key of
    the selector's value; the handle then carries that value.
    Missing: the key 0, i.e. limb 0 of candidate 0 of group 0, for which the claim is false
    ([C36_key_zero_refuted]). *)
Theorem C36_selection_partial :
  forall (NM : NMod), 1 < nmod ->
    (forall v off g sel c r c' cf A, wf c -> assign_selected_value v off g sel c = Ok (r, c') ->
       extends c' cf -> satisfies cf A -> let e := entry_code g A⟦sel⟧ off in e <> 0 ->
       exists row, cache_row cf row e /\ A (scell ValueCol row) = A⟦r⟧)
 /\ (forall v off g sel l s d u d' c r c' cf A,
       wf d -> assign_cache_value l off g s d = Ok (u, d') -> extends d' cf ->
       wf c -> assign_selected_value v off g sel c = Ok (r, c') -> extends c' cf ->
       satisfies cf A -> A⟦sel⟧ = s mod nmod -> entry_code g s off <> 0 -> cached_once cf (entry_code g s off) ->
       A⟦r⟧ = A⟦l⟧)
 /\ (forall c l off g s, wf c -> valid c l ->
       accepts c (assign_cache_value l off g s) (fun _ c' => cached c' (entry_code g s off) (a_val l)))
 /\ (forall c v off g sel, wf c -> valid c v -> valid c sel -> cached c (entry_code g (a_val sel) off) (a_val v) ->
       accepts c (assign_selected_value v off g sel) (fun r c' => valid c' r /\ a_val r = a_val v)).
Proof. exact C36_selection_partial_main. Qed.
Print Assumptions C36_selection_partial.
(** Non-vacuous: bn256 scalar field, the key of limb 0 of candidate 1 of group 0 is not
    0. *)
Example C36_case : 1 < @nmod bn256_fr /\ @entry_code bn256_fr 0 1 0 <> 0.
Proof. split; [reflexivity|discriminate]. Qed.


(** C36, C35: select chip rows that were never written belong to the lookup table, with key
    0 and a value of the prover's choice.  So the value selected under key 0 is free: this
    circuit caches the cell l under key 0, selects it, and is satisfied by the honest
    assignment and by one in which l is 5 and the selected value is 7. *)
Theorem C36_key_zero_refuted :
  exists l r c A0 A,
    (l <- assign 5 ;; s <- @assign_constant bn256_fr 0 ;; @assign_cache_value bn256_fr l 0 0 0 ;;;
     r <- @assign_selected_value bn256_fr l 0 0 s ;; mret (l, r)) ctx_new = Ok ((l, r), c)
    /\ @satisfies bn256_fr c A0 /\ @satisfies bn256_fr c A /\ A⟦l⟧ = 5 /\ A⟦r⟧ = 7.
Proof. exact C36_key_zero_refuted_main. Qed.
Print Assumptions C36_key_zero_refuted.

(** C49.  (1) Keys of different groups, candidates and limbs are different.  (2) After any
    history of calls on one context the key of every cache row was cached once.  (3) A call
    with prefix p caches only under groups p .. p + 2^20 - 1, and leaves the prefix p + 2^20
    for the next call. *)
Theorem C49_keys_never_collide :
  forall (NM : NMod),
    (2 ^ 200 <= nmod -> forall g s k g' s' k', 0 <= g < 2 ^ 64 -> 0 <= g' < 2 ^ 64 -> 0 <= k < 2 ^ 64 -> 0 <= k' < 2 ^ 64 ->
       0 <= s < 2 ^ 72 -> 0 <= s' < 2 ^ 72 -> entry_code g s k = entry_code g' s' k' -> g = g' /\ s = s' /\ k = k')
 /\ (forall c p, calls (ctx_new, 0) (c, p) -> forall e, cached_once c e)
 /\ (forall w I, range_info_new w = Ok I -> Z.of_nat (ri_limbs I) < 2 ^ 62 ->
     let keys p e := exists g i k, 0 <= g < 2 ^ 20 /\ 0 <= i < 32 /\ 0 <= k < 2 * (Z.of_nat (ri_limbs I) + 1) /\ e = entry_code (p + g) i k in
     (forall b gen r_acc r_line p points scalars c x c', calls (ctx_new, 0) (c, p) ->
        msm_native I b gen r_acc r_line (Some p) points scalars c = Ok (x, c') ->
        caches_within (keys p) c c' /\ snd x = Some (p + 2 ^ 20))
  /\ (forall r J b gen r_acc r_line p points scalars c x c', range_info_new r = Ok J -> calls (ctx_new, 0) (c, p) ->
        msm_general I J b gen r_acc r_line (Some p) points scalars c = Ok (x, c') ->
        caches_within (keys p) c c' /\ snd x = Some (p + 2 ^ 20))).
Proof. exact C49_keys_never_collide_main. Qed.
Print Assumptions C49_keys_never_collide.
(** Non-vacuous: the bn256 base field over the bn256 scalar field; a history. *)
Example C49_case : 2 ^ 200 <= @nmod bn256_fr
  /\ @range_info_new bn256_fr bn256_fq_p = Ok bn_fq_info /\ Z.of_nat (ri_limbs bn_fq_info) < 2 ^ 62
  /\ exists c, @calls bn256_fr (ctx_new, 0) (c, 0) /\ c <> ctx_new.
Proof.
  split; [discriminate|]. split; [exact bn_fq_info_ok|]. split; [reflexivity|].
  eexists. split; [eapply (@calls_quiet bn256_fr _ _ _ _ (assign 5)); [apply calls_none|exact assign_quiet|reflexivity]|discriminate].
Qed.


(** C49.  What the histories may contain between multi-scalar multiplications: the gadgets
    of the native, integer and curve chips, and selections, add no cache row. *)
Theorem C49_other_gadgets_are_quiet :
  forall (NM : NMod),
    (forall v, quiet (assign v)) /\ (forall v, quiet (assign_constant v)) /\ (forall v, quiet (assign_bit v))
 /\ (forall a b, quiet (add a b)) /\ (forall a b, quiet (mul a b)) /\ (forall a, quiet (invert a)) /\ (forall c a b, quiet (bisec c a b))
 /\ (forall v off g s, quiet (assign_selected_value v off g s))
 /\ (forall I, (forall v, quiet (assign_w I v)) /\ (forall v, quiet (assign_int_constant I v))
     /\ (forall a b, quiet (int_add I a b)) /\ (forall a b, quiet (int_sub I a b)) /\ (forall a b, quiet (int_mul I a b)) /\ (forall a b, quiet (int_div I a b))
     /\ (forall a, quiet (reduce I a)) /\ (forall a b, quiet (assert_int_equal I a b))
     /\ (forall b v, quiet (assign_point I b v)) /\ (forall a b, quiet (ecc_add I a b)) /\ (forall b a, quiet (ecc_double I b a)) /\ (forall a, quiet (ecc_neg I a))
     /\ (forall a, quiet (ecc_encode I a)) /\ (forall c a b, quiet (bisec_point I c a b)) /\ (forall a b, quiet (ecc_assert_equal I a b)))
 /\ (forall W s, quiet (decompose_scalar_native W s)) /\ (forall J W s, quiet (decompose_scalar_general J W s)).
Proof. exact C49_other_gadgets_are_quiet_main. Qed.
Print Assumptions C49_other_gadgets_are_quiet.

(** C35, native scalars.  For a call with a positive prefix in any history of calls on one
    context, and every assignment satisfying the whole circuit of the history, the result
    stands for the same point as in C34.
    Missing: the first call of a context (prefix 0), where key 0 of the table is not bound
    to the cached candidate ([C36_key_zero_refuted]); and as in C34 the agreement of the
    two cells of each [assign_bit] row is assumed. *)
Theorem C35_msm_select_native_partial :
  forall (NM : NMod) w I b, prime nmod -> prime w -> range_info_new w = Ok I -> 3 < w -> 0 < b < w ->
    Z.of_nat (ri_limbs I) < 2 ^ 62 ->
  forall gen r_acc r_line p points scalars c r p' c' cf pf A,
    calls (ctx_new, 0) (c, p) -> 0 < p ->
    msm_native I b gen r_acc r_line (Some p) points scalars c = Ok ((r, Some p'), c') ->
    calls (c', p') (cf, pf) -> satisfies cf A -> bit_consistent cf A ->
    forall ps, Forall2 (point_is w (at_ A)) points ps -> Forall (on_curve w b) ps ->
      let inputs := combine ps (map (at_ A) scalars) in
      (exists g terms q, g <> Inf /\ on_curve w b g /\ msm_terms nmod g inputs terms
         /\ lin_sum w terms q /\ on_curve w b q /\ point_is w (at_ A) r q)
   /\ ((forall p, In p ps -> multiple w p nmod Inf) ->
       (In Inf ps -> forall g, on_curve w b g -> multiple w g nmod Inf) ->
       exists q, lin_sum w inputs q /\ on_curve w b q /\ point_is w (at_ A) r q).
Proof. exact C35_msm_select_native_partial_main. Qed.
Print Assumptions C35_msm_select_native_partial.
(** Non-vacuous: see C34_case and C49_case. *)


(** C35, scalars that are integers modulo a prime r foreign to the circuit: as
    [C35_msm_select_native_partial]. *)
Theorem C35_msm_select_general_partial :
  forall (NM : NMod) w I b r J, prime nmod -> prime w -> range_info_new w = Ok I -> 3 < w -> 0 < b < w ->
    prime r -> range_info_new r = Ok J -> Z.of_nat (ri_limbs I) < 2 ^ 62 ->
  forall gen r_acc r_line p points scalars c x p' c' cf pf A,
    calls (ctx_new, 0) (c, p) -> 0 < p ->
    msm_general I J b gen r_acc r_line (Some p) points scalars c = Ok ((x, Some p'), c') ->
    calls (c', p') (cf, pf) -> satisfies cf A -> bit_consistent cf A ->
    forall ps, Forall2 (point_is w (at_ A)) points ps -> Forall (on_curve w b) ps ->
    forall ss, Forall2 (int_is r (at_ A)) scalars ss ->
      let inputs := combine ps ss in
      (exists g terms q, g <> Inf /\ on_curve w b g /\ msm_terms r g inputs terms
         /\ lin_sum w terms q /\ on_curve w b q /\ point_is w (at_ A) x q)
   /\ ((forall p, In p ps -> multiple w p r Inf) ->
       (In Inf ps -> forall g, on_curve w b g -> multiple w g r Inf) ->
       exists q, lin_sum w inputs q /\ on_curve w b q /\ point_is w (at_ A) x q).
Proof. exact C35_msm_select_general_partial_main. Qed.
Print Assumptions C35_msm_select_general_partial.
(** Non-vacuous: see C34_general_case and C49_case. *)


