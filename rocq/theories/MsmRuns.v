(** A satisfying assignment of the scalar decomposition circuit in which a returned
    "bit" is 2 (used for C33). *)
From Verif Require Import Prelude FieldZ Circuit Context Spec Logic BaseChip RangeInfo RangeChip IntegerChip ScalarChip
  Moduli Fields Checker FastCheck EccRuns.
Local Existing Instance bn256_fr.

(** Decomposition with the cells of the first two [assign_bit] rows chosen freely. *)
Definition bad_bits : M (list (list acond)) :=
  s <- assign 2 ;;
  b0 <- (cells <- one_line [pu 2 1; pu 1 0] None [fneg 1] None ;; mnth cells 0) ;;
  b1 <- assign_bit 0 ;;
  cells <- one_line_with_last [pu 0 (fadd (fadd 1 1) (fadd 1 1)); pa b1 (fadd 1 1); pa b0 1] (pa s (fneg 1)) None [] None ;;
  v <- mnth (fst cells) 0 ;;
  r <- foldM (native_step 0) (v, [b0; b1]) (seq 1 126) ;;
  assert_constant (fst r) 0 ;;;
  to_windows 1 (snd r).
Local Notation prog := (s <- assign 2 ;; @decompose_scalar_native bn256_fr 1 s).
Definition has_two (ws : list (list acond)) (_ m2 : mem) : bool :=
  existsb (existsb (fun a => asg m2 (a_cell a) =? 2)) ws.
Lemma bits_fork : fork prog bad_bits has_two = true.
Proof. vm_cast_no_check (eq_refl true). Qed.
Lemma bits_gen (p1 p2 : M (list (list acond))) : fork p1 p2 has_two = true ->
  exists ws c A0 A, p1 ctx_new = Ok (ws, c) /\ satisfies c A0 /\ satisfies c A /\ exists w b, In w ws /\ In b w /\ A⟦b⟧ = 2.
Proof.
  intros F. destruct (fork_ok _ _ _ F) as (a & c & A1 & A2 & R & S1 & S2 & m1 & m2 & E1 & E2 & H).
  exists a, c, A1, A2. split; [exact R|]. split; [exact S1|]. split; [exact S2|]. unfold has_two in H.
  apply existsb_exists in H as (w & Hw & H). apply existsb_exists in H as (b & Hb & H). apply Z.eqb_eq in H.
  exists w, b. subst. auto.
Qed.
Lemma bits_two : exists ws c A0 A, prog ctx_new = Ok (ws, c) /\ @satisfies bn256_fr c A0 /\ @satisfies bn256_fr c A
  /\ exists w b, In w ws /\ In b w /\ A⟦b⟧ = 2.
Proof. exact (bits_gen _ _ bits_fork). Qed.
