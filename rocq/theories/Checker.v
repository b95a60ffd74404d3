(** A computable check that a given finite assignment satisfies a recorded
    circuit, with its correctness proof.  Used for the concrete cases beside the
    theorems and for the witnesses of refutations. *)
From Verif Require Import Prelude FieldZ Circuit Context Spec Logic.

Section Checker.
Context {NM : NMod}.

(** The assignment given by the newest advice stores of a log, 0 elsewhere. *)
Definition asg (m : mem) (x : cell) : Z := opt0 (get_adv m x).

Definition wr_row (w : wr) : nat :=
  match w with WAdv x _ | WFix x _ | WFlag x => c_row x end.
Definition max_row (m : mem) : nat := fold_right (fun w n => Nat.max (S (wr_row w)) n) 0%nat m.

Definition range_tableb (tag v : Z) : bool :=
  (0 <=? tag) && (tag <=? COMMON_RANGE_BITS) && (0 <=? v) && (v <? 2 ^ tag).
Definition base_rowb (fx A : cell -> Z) (r : nat) : bool := base_expr fx A r mod nmod =? 0.
Definition range_rowb (fx A : cell -> Z) (r : nat) : bool :=
  range_tableb (fx (rcell TagCol r)) (A (rcell TaggedRangeCol r))
  && range_tableb COMMON_RANGE_BITS (A (rcell CommonRangeCol r))
  && (range_expr1 fx A r mod nmod =? 0)
  && (range_expr2 fx A r mod nmod =? 0)
  && (range_expr3 fx A r mod nmod =? 0).
Definition select_rowb (fx A : cell -> Z) (n r : nat) : bool :=
  let v := A (scell ValueCol r) in let e := select_input fx A r in
  existsb (fun r' => (A (scell ValueCol r') =? v) && (fx (scell EncodeCol r') =? e)
                     && (fx (scell IsLookupCol r') =? 0)) (seq 0 (S n)).

Definition check (c : ctx) (m : mem) : bool :=
  let n := Nat.max (max_row (c_mem c)) (max_row m) in
  let fx := fixv c in let A := asg m in
  forallb (fun w => match w with WAdv _ v => (0 <=? v) && (v <? nmod) | _ => true end) m
  && forallb (fun r => base_rowb fx A r && range_rowb fx A r && select_rowb fx A n r) (seq 0 n)
  && forallb (fun ab => A (fst ab) =? A (snd ab)) (c_perms c).

Lemma max_row_adv m x v : get_adv m x = Some v -> (c_row x < max_row m)%nat.
Proof.
  induction m as [|w m IH]; [discriminate|]. cbn [get_adv get_fix max_row fold_right wr_row]. fold (max_row m). destruct w as [y u|y u|y]; intros H.
  - destruct (cell_eqb y x) eqn:E; [apply cell_eqb_eq in E; subst; cbn [wr_row]; lia|].
    apply IH in H. cbn [wr_row]. lia.
  - apply IH in H. cbn [wr_row]. lia.
  - apply IH in H. cbn [wr_row]. lia.
Qed.
Lemma max_row_fix m x v : get_fix m x = Some v -> (c_row x < max_row m)%nat.
Proof.
  induction m as [|w m IH]; [discriminate|]. cbn [get_adv get_fix max_row fold_right wr_row]. fold (max_row m). destruct w as [y u|y u|y]; intros H.
  - apply IH in H. cbn [wr_row]. lia.
  - destruct (cell_eqb y x) eqn:E; [apply cell_eqb_eq in E; subst; cbn [wr_row]; lia|].
    apply IH in H. cbn [wr_row]. lia.
  - apply IH in H. cbn [wr_row]. lia.
Qed.

Lemma range_tableb_ok tag v : range_tableb tag v = true -> in_range_table tag v.
Proof. unfold range_tableb, in_range_table. rewrite !andb_true_iff, !Z.leb_le, Z.ltb_lt. tauto. Qed.

Lemma check_ok c m : 1 < nmod -> check c m = true -> satisfies c (asg m).
Proof.
  intros N H. unfold check in H. rewrite !andb_true_iff in H. destruct H as [[HA HR] HP].
  set (n := Nat.max (max_row (c_mem c)) (max_row m)) in *.
  rewrite !forallb_forall in *.
  assert (A0 : forall x, (n <= c_row x)%nat -> asg m x = 0).
  { intros x L. unfold asg. destruct (get_adv m x) eqn:E; [|reflexivity].
    apply max_row_adv in E. lia. }
  assert (F0 : forall x, (n <= c_row x)%nat -> fixv c x = 0).
  { intros x L. unfold fixv. destruct (get_fix (c_mem c) x) eqn:E; [|reflexivity].
    apply max_row_fix in E. lia. }
  assert (D : forall r, (r < n)%nat -> base_rowb (fixv c) (asg m) r = true
      /\ range_rowb (fixv c) (asg m) r = true /\ select_rowb (fixv c) (asg m) n r = true).
  { intros r L. specialize (HR r). rewrite !andb_true_iff in HR. destruct HR as [[? ?] ?]; [|auto].
    apply in_seq. lia. }
  split; [|split; [|split; [|split]]].
  - intros x. unfold asg. destruct (get_adv m x) eqn:E; [|simpl; lia].
    assert (In (WAdv x z) m).
    { clear -E. induction m as [|w m IH]; [discriminate|]. simpl in E.
      destruct w as [y u|y u|y]; [|right; auto|right; auto].
      destruct (cell_eqb y x) eqn:K; [|right; auto].
      apply cell_eqb_eq in K. injection E as ->. subst. left. reflexivity. }
    apply HA in H. cbv beta iota in H. cbn [opt0]. lia.
  - intros r. destruct (Nat.lt_ge_cases r n) as [L|L].
    + destruct (D r L) as (B & _). apply Z.eqb_eq in B. exact B.
    + unfold base_gate, base_expr. rewrite !F0 by (cbn; lia). rewrite !Z.mul_0_r. reflexivity.
  - intros r. destruct (Nat.lt_ge_cases r n) as [L|L].
    + destruct (D r L) as (_ & B & _). unfold range_rowb in B. rewrite !andb_true_iff, !Z.eqb_eq in B.
      destruct B as [[[[B1 B2] B3] B4] B5]. repeat split; auto; try (apply range_tableb_ok in B1; apply B1);
        apply range_tableb_ok in B2; apply B2.
    + unfold range_row, in_range_table, range_expr1, range_expr2, range_expr3, COMMON_RANGE_BITS.
      rewrite !F0, !A0 by (cbn; lia). cbn. repeat split; try lia; reflexivity.
  - intros r. destruct (Nat.lt_ge_cases r n) as [L|L].
    + destruct (D r L) as (_ & _ & B). unfold select_rowb in B. rewrite existsb_exists in B.
      destruct B as (r' & _ & B). rewrite !andb_true_iff, !Z.eqb_eq in B. exists r'. tauto.
    + exists r. unfold select_input. rewrite !F0, !A0 by (cbn; lia). rewrite Z.mul_0_l, Zmod_0_l. auto.
  - intros a b Hin. apply HP in Hin. apply Z.eqb_eq in Hin. exact Hin.
Qed.

(** The recorded witness itself. *)
Lemma check_honest c : 1 < nmod -> check c (c_mem c) = true -> satisfies c (honest c).
Proof. apply check_ok. Qed.

(** Run from the empty state, check the recorded witness and test the result. *)
Definition run_check {X} (m : M X) (t : X -> (cell -> Z) -> bool) : bool :=
  match m ctx_new with
  | Ok (x, c') => check c' (c_mem c') && t x (honest c')
  | Panic => false
  end.
Lemma run_check_ok {X} (m : M X) t : 1 < nmod -> run_check m t = true ->
  exists r c', m ctx_new = Ok (r, c') /\ satisfies c' (honest c') /\ t r (honest c') = true.
Proof.
  intros N H. unfold run_check in H. destruct (m ctx_new) as [[x c']|] eqn:E; [|discriminate].
  apply andb_true_iff in H as [H1 H2]. exists x, c'. split; [auto|]. split; [|auto].
  apply check_honest; auto.
Qed.

End Checker.
