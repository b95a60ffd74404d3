(** Concrete runs used as refutation witnesses for C26 (flag) and C32. *)
From Verif Require Import Prelude FieldZ Circuit Context Spec Logic ModArith Prims BaseChip BaseProofs
  RangeInfo RangeChip IntegerChip SpecInt InfoProofs IntArith RangeProofs IntInv IntSound IntComplete IntBridge
  IntRes EccChip SpecEcc Curve EccArith EccProofs EccHonest EccBridge
  Moduli Fields Checker FastCheck NativeMain.
Local Existing Instance bn256_fr.

Definition fork {X} (m1 m2 : M X) (t : X -> mem -> mem -> bool) : bool :=
  match m1 ctx_new, m2 ctx_new with
  | Ok (x1, c1), Ok (x2, c2) => fcheck c1 (c_mem c1) && (fcheck c1 (c_mem c2) && t x1 (c_mem c1) (c_mem c2))
  | _, _ => false
  end.
Lemma fork_ok {X} (m1 m2 : M X) t : fork m1 m2 t = true -> exists x c A1 A2,
  m1 ctx_new = Ok (x, c) /\ satisfies c A1 /\ satisfies c A2
  /\ exists w1 w2, A1 = asg w1 /\ A2 = asg w2 /\ t x w1 w2 = true.
Proof.
  unfold fork. destruct (m1 ctx_new) as [[x1 c1]|]; [|discriminate]. destruct (m2 ctx_new) as [[x2 c2]|]; [|discriminate].
  intros H. apply andb_prop in H as [H1 H]. apply andb_prop in H as [H2 H].
  exists x1, c1, (asg (c_mem c1)), (asg (c_mem c2)). split; [reflexivity|].
  split; [apply fcheck_ok; [reflexivity|auto]|]. split; [apply fcheck_ok; [reflexivity|auto]|]. eauto.
Qed.

Local Notation prog x :=
  (a <- @assign_point bn256_fr bn_fq_info 3 (Some (x, 2)) ;; e <- @ecc_encode bn256_fr bn_fq_info a ;; mret (a, e)).
Definition is12 (a : apoint) (m : mem) : bool :=
  (asg m (a_cell (p_z a)) =? 0)
  && ((int_value (at_ (asg m)) (p_x a) mod bn256_fq_p =? 1) && (int_value (at_ (asg m)) (p_y a) mod bn256_fq_p =? 2)).
Lemma prog_wf x : sound (prog x) (fun A r => int_wf bn256_fq_p (at_ A) (p_x (fst r)) /\ int_wf bn256_fq_p (at_ A) (p_y (fst r))).
Proof.
  pose proof (range_info_ok _ _ bn_fq_info_ok) as IO. tosound.
  eapply ST_bind; [apply (assign_point_R bn256_fq_p bn_fq_info IO bn256_fr_prime bn256_fq_p_prime 3 ltac:(split; [discriminate|reflexivity]) T A HA)|app|app|].
  intros a (x1 & y1 & H1 & H2 & _). apply (ir_at _ _ IO) in H1 as [H1 _]. apply (ir_at _ _ IO) in H2 as [H2 _].
  eapply ST_bind; [apply (ST_true T A)|app|app|]. intros e _. apply ST_ret. cbn [fst]. auto.
Qed.
Definition differ (r : apoint * list av) (m1 m2 : mem) : bool :=
  is12 (fst r) m1 && (is12 (fst r) m2 && match snd r with s :: _ => negb (asg m1 (a_cell s) =? asg m2 (a_cell s)) | [] => false end).
Lemma differ_ok (p1 p2 : M (apoint * list av)) :
  sound p1 (fun A r => int_wf bn256_fq_p (at_ A) (p_x (fst r)) /\ int_wf bn256_fq_p (at_ A) (p_y (fst r))) ->
  fork p1 p2 differ = true -> exists a e c A1 A2, p1 ctx_new = Ok ((a, e), c)
    /\ satisfies c A1 /\ satisfies c A2
    /\ point_is bn256_fq_p (at_ A1) a (Aff 1 2) /\ point_is bn256_fq_p (at_ A2) a (Aff 1 2)
    /\ map (at_ A1) e <> map (at_ A2) e.
Proof.
  intros PW F.
  destruct (fork_ok _ _ _ F) as ([a e] & c & A1 & A2 & R & S1 & S2 & m1 & m2 & E1 & E2 & H).
  unfold differ in H. cbn [fst snd] in H. apply andb_prop in H as [K1 H]. apply andb_prop in H as [K2 K3].
  exists a, e, c, A1, A2. split; [exact R|]. split; [exact S1|]. split; [exact S2|].
  assert (P : forall A m, A = asg m -> satisfies c A -> is12 a m = true -> point_is bn256_fq_p (at_ A) a (Aff 1 2)).
  { intros A m -> SA K. destruct (PW ctx_new _ c c _ (good_wf _ good_new) R (extends_refl c) SA) as (W1 & W2).
    unfold is12 in K. apply andb_prop in K as [Z1 K]. apply andb_prop in K as [Z2 Z3]. apply Z.eqb_eq in Z1, Z2, Z3.
    cbn [fst] in W1, W2. split; [exact Z1|]. split; split; auto. }
  split; [eapply P; eauto|]. split; [eapply P; eauto|].
  destruct e as [|s e]; [discriminate|]. apply negb_true_iff, Z.eqb_neq in K3. subst. cbn [map]. intros E. injection E as E _. apply K3. exact E.
Qed.
Lemma encode_fork : fork (prog 1) (prog (1 + bn256_fq_p)) differ = true.
Proof. vm_cast_no_check (eq_refl true). Qed.
Lemma encode_two_ways : exists a e c A1 A2, prog 1 ctx_new = Ok ((a, e), c)
    /\ @satisfies bn256_fr c A1 /\ @satisfies bn256_fr c A2
    /\ @point_is bn256_fr bn256_fq_p (at_ A1) a (Aff 1 2) /\ @point_is bn256_fr bn256_fq_p (at_ A2) a (Aff 1 2)
    /\ map (at_ A1) e <> map (at_ A2) e.
Proof. exact (differ_ok _ _ (prog_wf 1) encode_fork). Qed.

(** [assign_point] with other cells in the [assign_bit] row: 2 and 1 instead of 0 and 0. *)
Definition flag_prog : M apoint :=
  x <- assign_w bn_fq_info 1 ;;
  y <- assign_w bn_fq_info 2 ;;
  z <- (cells <- one_line [pu 2 1; pu 1 0] None [fneg 1] None ;; mnth cells 0) ;;
  s <- curve_sides bn_fq_info 3 x y ;;
  eq <- is_int_equal bn_fq_info (fst s) (snd s) ;;
  eq_or_identity <- or_ eq z ;;
  assert_true eq_or_identity ;;;
  mret (mkPt x y z).
Lemma flag_fork : fork (assign_point bn_fq_info 3 (Some (1, 2))) flag_prog (fun a _ m2 => asg m2 (a_cell (p_z a)) =? 2) = true.
Proof. vm_cast_no_check (eq_refl true). Qed.
Lemma flag_gen (p1 p2 : M apoint) : fork p1 p2 (fun a _ m2 => asg m2 (a_cell (p_z a)) =? 2) = true ->
  exists a c A, p1 ctx_new = Ok (a, c) /\ satisfies c A /\ A⟦p_z a⟧ = 2.
Proof.
  intros F. destruct (fork_ok _ _ _ F) as (a & c & A1 & A2 & R & S1 & S2 & m1 & m2 & E1 & E2 & H).
  exists a, c, A2. split; [exact R|]. split; [exact S2|]. subst. apply Z.eqb_eq in H. exact H.
Qed.
Lemma flag_two : exists a c A, @assign_point bn256_fr bn_fq_info 3 (Some (1, 2)) ctx_new = Ok (a, c)
    /\ @satisfies bn256_fr c A /\ A⟦p_z a⟧ = 2.
Proof. exact (flag_gen _ _ flag_fork). Qed.
