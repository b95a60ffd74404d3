(** Points of the curve as a type, with the group operations as functions;
    multiples, linear combinations, and the relation to SpecMsm.v. *)
From Verif Require Import Prelude FieldZ ModArith SpecEcc SpecMsm FieldSatz Curve CurveGroup.
From Coq Require Import Eqdep_dec.

Local Open Scope Z_scope.

Section PointSum.
Variable w b : Z.
Hypothesis P : prime w.
Hypothesis w3 : 3 < w.
Hypothesis b0 : b mod w <> 0.

Local Notation OC := (SpecEcc.on_curve w b).
Local Notation ADD := (SpecEcc.pt_add w).

Definition ocb (p : pt) : bool :=
  match p with
  | Inf => true
  | Aff x y => (0 <=? x) && (x <? w) && (0 <=? y) && (y <? w) && ((y * y) mod w =? (x * x * x + b) mod w)
  end.
Lemma ocb_iff p : ocb p = true <-> OC p.
Proof.
  destruct p as [|x y]; [cbn; tauto|]. unfold ocb, on_curve.
  rewrite !Bool.andb_true_iff, !Z.leb_le, !Z.ltb_lt, Z.eqb_eq. tauto.
Qed.

Definition inv_ (a : Z) : Z := match zinv w a with Some i => i | None => 0 end.
Definition padd (p q : pt) : pt :=
  match p, q with
  | Inf, _ => q
  | _, Inf => p
  | Aff x1 y1, Aff x2 y2 =>
      if x1 =? x2 then
        if (y1 + y2) mod w =? 0 then Inf else third w (3 * x1 * x1 * inv_ (2 * y1)) x1 y1 x2
      else third w ((y1 - y2) * inv_ (x1 - x2)) x1 y1 x2
  end.
Lemma inv_ok a : a mod w <> 0 -> a * inv_ a ≡ 1 ⟨w⟩.
Proof.
  intros N. unfold inv_. destruct (zinv_some w a P N) as [i E]. rewrite E. apply (zinv_correct w a i P E).
Qed.
Lemma padd_spec p q : OC p -> OC q -> ADD p q (padd p q).
Proof.
  intros Cp Cq. destruct p as [|x1 y1]; [constructor|]. destruct q as [|x2 y2]; [constructor|].
  cbn [padd]. destruct (x1 =? x2) eqn:E.
  - apply Z.eqb_eq in E. subst x2. destruct ((y1 + y2) mod w =? 0) eqn:E.
    + apply Z.eqb_eq in E. apply add_opposite. exact E.
    + apply Z.eqb_neq in E. destruct (same_x w b P _ _ _ Cp Cq) as [<-|K]; [|contradiction].
      assert (N : (2 * y1) mod w <> 0) by (intros K; apply E; rewrite <- K; f_equal; ring).
      apply add_tangent; [exact N|]. pose proof (inv_ok _ N) as K.
      match goal with |- ?a mod w = ?b mod w => change (a ≡ b ⟨w⟩) end.
      transitivity (3 * x1 * x1 * (2 * y1 * inv_ (2 * y1))); [apply eqm_eq; ring|]. rewrite K. apply eqm_eq. ring.
  - apply Z.eqb_neq in E. apply add_chord; [exact E|].
    assert (N : (x1 - x2) mod w <> 0).
    { intros K. destruct Cp as (R1 & _), Cq as (R2 & _). apply (ne_sub w _ _ R1 R2 E). apply eqm_0_iff. exact K. }
    pose proof (inv_ok _ N) as K. match goal with |- ?a mod w = ?b mod w => change (a ≡ b ⟨w⟩) end.
    transitivity ((y1 - y2) * ((x1 - x2) * inv_ (x1 - x2))); [apply eqm_eq; ring|]. rewrite K. apply eqm_eq. ring.
Qed.

(** Points of the curve. *)
Record cpt := mkC { cp : pt; cp_on : ocb cp = true }.
Lemma cp_inj p q : cp p = cp q -> p = q.
Proof.
  destruct p as [p Hp], q as [q Hq]. cbn. intros <-. f_equal. apply UIP_dec. apply Bool.bool_dec.
Qed.
Lemma cp_oc p : OC (cp p).
Proof. apply ocb_iff, cp_on. Qed.
Definition mkO (p : pt) (H : OC p) : cpt := mkC p (proj2 (ocb_iff p) H).
Definition czero : cpt := mkC Inf eq_refl.
Definition cadd (p q : cpt) : cpt :=
  mkO (padd (cp p) (cp q)) (pt_add_on w b P _ _ _ (cp_oc p) (cp_oc q) (padd_spec _ _ (cp_oc p) (cp_oc q))).
Definition cneg (p : cpt) : cpt := mkO (pt_neg w (cp p)) (pt_neg_on w b P _ (cp_oc p)).

Lemma cadd_spec p q : ADD (cp p) (cp q) (cp (cadd p q)).
Proof. apply padd_spec; apply cp_oc. Qed.
Lemma cadd_of p q r : ADD (cp p) (cp q) r -> r = cp (cadd p q).
Proof. intros H. eapply (pt_add_fun w b P); [apply cp_oc|apply cp_oc|exact H|apply cadd_spec]. Qed.
Lemma cadd_0_l p : cadd czero p = p.
Proof. apply cp_inj. reflexivity. Qed.
Lemma cadd_comm p q : cadd p q = cadd q p.
Proof.
  apply cp_inj. symmetry. apply cadd_of. apply (pt_add_comm w b); try apply cp_oc. apply cadd_spec.
Qed.
Lemma cadd_0_r p : cadd p czero = p.
Proof. rewrite cadd_comm. apply cadd_0_l. Qed.
Lemma cadd_assoc p q r : cadd (cadd p q) r = cadd p (cadd q r).
Proof.
  apply cp_inj. eapply (add_assoc w b P w3 b0); [apply (cp_oc p)|apply (cp_oc q)|apply (cp_oc r)|apply cadd_spec..].
Qed.
Lemma cadd_neg p : cadd p (cneg p) = czero.
Proof. apply cp_inj. symmetry. apply cadd_of. cbn. apply (pt_add_neg w b). apply cp_oc. Qed.
Lemma cadd_swap p q r : cadd p (cadd q r) = cadd q (cadd p r).
Proof. rewrite <- !cadd_assoc, (cadd_comm p q). reflexivity. Qed.
Lemma cadd_aca p q r s : cadd (cadd p q) (cadd r s) = cadd (cadd p r) (cadd q s).
Proof. rewrite !cadd_assoc, (cadd_swap q r s). reflexivity. Qed.

(** n times a point. *)
Fixpoint nmul (n : nat) (p : cpt) : cpt := match n with O => czero | S k => cadd p (nmul k p) end.
Definition cmul (n : Z) (p : cpt) : cpt := nmul (Z.to_nat n) p.
Lemma nmul_add n m p : nmul (n + m) p = cadd (nmul n p) (nmul m p).
Proof. induction n as [|n IH]; cbn [nmul Nat.add]; [rewrite cadd_0_l; auto|]. rewrite IH, cadd_assoc. reflexivity. Qed.
Lemma cmul_add n m p : 0 <= n -> 0 <= m -> cmul (n + m) p = cadd (cmul n p) (cmul m p).
Proof. intros. unfold cmul. rewrite Z2Nat.inj_add by auto. apply nmul_add. Qed.
Lemma cmul_0 p : cmul 0 p = czero. Proof. reflexivity. Qed.
Lemma cmul_1 p : cmul 1 p = p. Proof. unfold cmul. cbn. apply cadd_0_r. Qed.
Lemma nmul_zero n : nmul n czero = czero.
Proof. induction n as [|n IH]; cbn [nmul]; auto. rewrite IH. apply cadd_0_l. Qed.
Lemma cmul_zero n : cmul n czero = czero. Proof. apply nmul_zero. Qed.
Lemma nmul_nmul n m p : nmul n (nmul m p) = nmul (n * m) p.
Proof. induction n as [|n IH]; cbn [nmul Nat.mul]; auto. rewrite IH, nmul_add. reflexivity. Qed.
Lemma cmul_cmul n m p : 0 <= n -> 0 <= m -> cmul n (cmul m p) = cmul (n * m) p.
Proof. intros. unfold cmul. rewrite nmul_nmul, Z2Nat.inj_mul by auto. reflexivity. Qed.
(** Multiples by congruent numbers agree on points whose order divides r. *)
Lemma cmul_mod r n p : 0 < r -> 0 <= n -> cmul r p = czero -> cmul n p = cmul (n mod r) p.
Proof.
  intros Hr Hn H. rewrite (Z.div_mod n r) at 1 by lia. rewrite cmul_add.
  - rewrite Z.mul_comm, <- cmul_cmul by (try apply Z.div_pos; lia). rewrite H, cmul_zero, cadd_0_l. reflexivity.
  - apply Z.mul_nonneg_nonneg; [lia|apply Z.div_pos; lia].
  - apply Z.mod_pos_bound; lia.
Qed.
Lemma multiple_cmul p n : 0 <= n -> multiple w (cp p) n (cp (cmul n p)).
Proof.
  revert n. apply natlike_ind; [constructor|]. intros n Hn IH. unfold Z.succ. econstructor; [exact Hn|exact IH|].
  rewrite cmul_add by lia. rewrite cmul_1, cadd_comm. apply cadd_spec.
Qed.
Lemma multiple_eq p n q : multiple w (cp p) n q -> q = cp (cmul n p) /\ 0 <= n.
Proof.
  intros H. induction H as [|n q r Hn H IH A]; [split; [reflexivity|lia]|].
  destruct IH as [-> _]. split; [|lia]. apply cadd_of in A. rewrite A.
  rewrite cmul_add by lia. rewrite cmul_1, cadd_comm. reflexivity.
Qed.

(** n1 p1 + n2 p2 + ... *)
Fixpoint lsum (l : list (cpt * Z)) : cpt :=
  match l with [] => czero | (p, n) :: l' => cadd (cmul n p) (lsum l') end.
Lemma lin_sum_lsum l : Forall (fun e => 0 <= snd e) l ->
  lin_sum w (map (fun e => (cp (fst e), snd e)) l) (cp (lsum l)).
Proof.
  induction l as [|[p n] l IH]; intros H; [constructor|]. inversion H; subst. cbn [map lsum fst snd].
  econstructor; [apply multiple_cmul; auto|apply IH; auto|apply cadd_spec].
Qed.

(** Doubling the coefficients and adding digits. *)
Lemma cmul_double n d p : 0 <= n -> 0 <= d -> cmul (2 * n + d) p = cadd (cadd (cmul n p) (cmul n p)) (cmul d p).
Proof. intros. rewrite cmul_add by lia. replace (2 * n) with (n + n) by ring. rewrite cmul_add by lia. reflexivity. Qed.

Definition selb (d : bool) (p : cpt) : cpt := if d then p else czero.
Lemma cmul_b d p : cmul (Z.b2z d) p = selb d p.
Proof. destruct d; [apply cmul_1|reflexivity]. Qed.

(** Sum of the points selected by bits. *)
Fixpoint ssum (ps : list cpt) (bs : list bool) : cpt :=
  match ps, bs with p :: ps', d :: bs' => cadd (selb d p) (ssum ps' bs') | _, _ => czero end.
Lemma ssum_app ps qs bs cs : length ps = length bs ->
  ssum (ps ++ qs) (bs ++ cs) = cadd (ssum ps bs) (ssum qs cs).
Proof.
  revert bs. induction ps as [|p ps IH]; intros [|d bs] H; try discriminate; cbn [ssum app].
  - rewrite cadd_0_l. reflexivity.
  - injection H as H. rewrite IH by auto. rewrite cadd_assoc. reflexivity.
Qed.
(** One window of double-and-add for all points at once. *)
Lemma lsum_step ps vs ds : length ps = length vs -> length ps = length ds -> Forall (fun v => 0 <= v) vs ->
  lsum (combine ps (map (fun e => 2 * fst e + Z.b2z (snd e)) (combine vs ds)))
  = cadd (cadd (lsum (combine ps vs)) (lsum (combine ps vs))) (ssum ps ds).
Proof.
  revert vs ds. induction ps as [|p ps IH]; intros [|v vs] [|d ds] H1 H2 F; try discriminate; cbn [lsum combine map ssum].
  - rewrite !cadd_0_l. reflexivity.
  - injection H1 as H1. injection H2 as H2. inversion F; subst. cbn [fst snd].
    rewrite IH by auto. rewrite cmul_double by (try destruct d; cbn; lia). rewrite cmul_b.
    rewrite (cadd_aca (cmul v p) (lsum _) (cmul v p) (lsum _)).
    rewrite (cadd_aca (cadd (cmul v p) (cmul v p)) _ (selb d p)). reflexivity.
Qed.
End PointSum.
