(** No gadget ties or returns a cell that is not live.  Generated from the signatures of the models. *)
From Verif Require Import Prelude FieldZ Circuit Context Spec Logic Prims BaseChip RangeInfo RangeChip IntegerChip EccChip ScalarChip Msm
  Fq12Chip PairingChip SpecHandles Handles.

Global Opaque ok J.
Create HintDb hodb.
Ltac hin := repeat match goal with
  | H : _ /\ _ |- _ => destruct H
  | H : ?P -> ok _, p : ?P |- _ => specialize (H p)
  | H : ok (_, _) |- _ => apply ok_pair in H
  | H : ok (_ :: _) |- _ => apply ok_cons in H
  | H : ok (Some _) |- _ => apply (proj1 (ok_some _)) in H
  | H : ok (UOk _) |- _ => apply (proj1 (ok_uok _)) in H
  end.
Ltac hs_more := fail.
Ltac hs := first [ assumption | apply ok_plain | lazymatch goal with
  | |- _ /\ _ => split; hs
  | |- ok (_, _) => apply ok_pair; split; hs
  | |- ok (fst _) => apply ok_fst; hs
  | |- ok (snd _) => apply ok_snd; hs
  | |- ok nil => apply ok_nil
  | |- ok (_ :: _) => apply ok_cons; split; hs
  | |- ok (_ ++ _) => apply ok_app; split; hs
  | |- ok (firstn _ _) => apply ok_firstn; hs
  | |- ok (skipn _ _) => apply ok_skipn; hs
  | |- ok (rev _) => apply ok_rev; hs
  | |- ok (repeat _ _) => apply ok_repeat; hs
  | |- ok (concat _) => apply ok_concat; hs
  | |- ok (chunks _ _) => apply ok_chunks; hs
  | |- ok (combine _ _) => apply ok_combine; hs
  | |- ok (nth _ _ _) => apply ok_nth; hs
  | |- ok (map ?f ?l) => refine (ok_map f l _ _); [intros; hin; hs|hs]
  | |- ok (mapi ?f ?l) => refine (ok_mapi f l _ _); [intros; hin; hs|hs]
  | |- ok (match ?o with _ => _ end) => destruct o; hin; hs
  | |- ok (Some _) => apply (proj2 (ok_some _)); hs
  | |- ok None => apply ok_none
  | |- ok (UOk _) => apply (proj2 (ok_uok _)); hs
  | |- ok (UErr _) => apply ok_uerr
  | |- ok (pa _ _) => apply ok_pa; hs
  | |- ok (pu _ _) => apply ok_pu
  | |- ok (mkInt _ _ _) => apply ok_int; hs
  | |- ok (mkCurv _ _) => apply ok_curv; hs
  | |- ok (mkPt _ _ _) => apply ok_pt; hs
  | |- ok (mkNz _ _) => apply ok_nz; hs
  | |- ok (mkPtc _ _ _ _) => apply ok_ptc; hs
  | |- ok (mkG2a _ _ _) => apply ok_g2a; hs
  | |- ok (mkG2 _ _ _) => apply ok_g2; hs
  | |- ok (i_limbs _) => apply ok_limbs; hs
  | |- ok (i_native _) => apply ok_native; hs
  | |- ok (k_v _) => apply ok_kv; hs
  | |- ok (k_z _) => apply ok_kz; hs
  | |- ok (p_x _) => apply ok_px; hs
  | |- ok (p_y _) => apply ok_py; hs
  | |- ok (p_z _) => apply ok_pz; hs
  | |- ok (nz_x _) => apply ok_nx; hs
  | |- ok (nz_y _) => apply ok_ny; hs
  | |- ok (pc_x _) => apply ok_pcx; hs
  | |- ok (pc_y _) => apply ok_pcy; hs
  | |- ok (pc_z _) => apply ok_pcz; hs
  | |- ok (pc_c _) => apply ok_pcc; hs
  | |- ok (to_point _) => apply ok_to_point; hs
  | |- ok (ga_x _) => apply ok_gax; hs
  | |- ok (ga_y _) => apply ok_gay; hs
  | |- ok (ga_z _) => apply ok_gaz; hs
  | |- ok (gj_x _) => apply ok_gjx; hs
  | |- ok (gj_y _) => apply ok_gjy; hs
  | |- ok (gj_z _) => apply ok_gjz; hs
  | |- ok (t0 _) => apply ok_t0; hs
  | |- ok (t1 _) => apply ok_t1; hs
  | |- ok (t2 _) => apply ok_t2; hs
  | |- _ => hs_more
  end ].
Ltac hrel := intros; hin; hs.
Ltac hoa := cbv zeta beta; lazymatch goal with
  | |- J _ (mret _) => apply J_ret; hrel
  | |- J _ mpanic => apply J_panic
  | |- J _ (massert _) => apply J_assert
  | |- J _ (mbind mget _) => apply J_get; intros; hoa
  | |- J _ (mbind _ _) => jb; [hoa|intros; hoa]
  | |- J _ (ubind _ _) => jb; [hoa|intros; hoa]
  | |- J _ (mopt ?o) => refine (J_opt _ o _); hrel
  | |- J _ (mnth ?l ?i) => refine (J_nth _ l i _); hrel
  | |- J _ (mapM ?f ?l) => refine (J_mapM _ f l _ _); [hrel|intros; hoa]
  | |- J _ (foldM ?f ?s ?l) => refine (J_foldM _ f l _ _ s _); [hrel|intros; hoa|hrel]
  | |- J _ (ufoldM ?f ?s ?l) => refine (J_ufoldM _ f l _ _ s _); [hrel|intros; hoa|hrel]
  | |- J _ (one_line _ _ _ _) => apply J_one_line; hrel
  | |- J _ (one_line_with_last _ _ _ _ _) => apply J_one_line_with_last; hrel
  | |- J _ (if ?b then _ else _) => destruct b; hoa
  | |- J _ (match ?o with _ => _ end) => destruct o; hoa
  | |- _ => first [solve [auto 1 with hodb nocore] | match goal with H : forall _ : Prop, _ |- _ => apply H; hrel end]
  end.
Global Hint Extern 0 (J _ (assign_common _)) => apply J_common : hodb.
Global Hint Extern 0 (J _ (assign_limb _ _ _)) => apply J_limb : hodb.
Global Hint Extern 0 (J _ (assign_cache_value _ _ _ _)) => (apply J_cache; hrel) : hodb.
Global Hint Extern 0 (J _ (assign_selected_value _ _ _ _)) => (apply J_select; hrel) : hodb.
Lemma ho_one_line_add {NM : NMod} {Wd : World} (P : Prop) pairs constant : (P -> ok pairs) -> J P (one_line_add pairs constant).
Proof. intros; unfold one_line_add; hoa. Qed.
Global Hint Extern 0 (J _ (one_line_add _ _)) => (apply ho_one_line_add; hrel) : hodb.
Lemma ho_sum_with_constant_in_one_line {NM : NMod} {Wd : World} (P : Prop) elems constant : (P -> ok elems) -> J P (sum_with_constant_in_one_line elems constant).
Proof. intros; unfold sum_with_constant_in_one_line; hoa. Qed.
Global Hint Extern 0 (J _ (sum_with_constant_in_one_line _ _)) => (apply ho_sum_with_constant_in_one_line; hrel) : hodb.
Lemma ho_sum_with_constant {NM : NMod} {Wd : World} (P : Prop) elems constant : (P -> ok elems) -> J P (sum_with_constant elems constant).
Proof. intros; unfold sum_with_constant; hoa. Qed.
Global Hint Extern 0 (J _ (sum_with_constant _ _)) => (apply ho_sum_with_constant; hrel) : hodb.
Lemma ho_add {NM : NMod} {Wd : World} (P : Prop) a b : (P -> ok a) -> (P -> ok b) -> J P (add a b).
Proof. intros; unfold add; hoa. Qed.
Global Hint Extern 0 (J _ (add _ _)) => (apply ho_add; hrel) : hodb.
Lemma ho_add_constant {NM : NMod} {Wd : World} (P : Prop) a c : (P -> ok a) -> J P (add_constant a c).
Proof. intros; unfold add_constant; hoa. Qed.
Global Hint Extern 0 (J _ (add_constant _ _)) => (apply ho_add_constant; hrel) : hodb.
Lemma ho_sub {NM : NMod} {Wd : World} (P : Prop) a b : (P -> ok a) -> (P -> ok b) -> J P (sub a b).
Proof. intros; unfold sub; hoa. Qed.
Global Hint Extern 0 (J _ (sub _ _)) => (apply ho_sub; hrel) : hodb.
Lemma ho_mul {NM : NMod} {Wd : World} (P : Prop) a b : (P -> ok a) -> (P -> ok b) -> J P (mul a b).
Proof. intros; unfold mul; hoa. Qed.
Global Hint Extern 0 (J _ (mul _ _)) => (apply ho_mul; hrel) : hodb.
Lemma ho_mul_add_constant {NM : NMod} {Wd : World} (P : Prop) a b c : (P -> ok a) -> (P -> ok b) -> J P (mul_add_constant a b c).
Proof. intros; unfold mul_add_constant; hoa. Qed.
Global Hint Extern 0 (J _ (mul_add_constant _ _ _)) => (apply ho_mul_add_constant; hrel) : hodb.
Lemma ho_mul_add {NM : NMod} {Wd : World} (P : Prop) a b ab_coeff c c_coeff : (P -> ok a) -> (P -> ok b) -> (P -> ok c) -> J P (mul_add a b ab_coeff c c_coeff).
Proof. intros; unfold mul_add; hoa. Qed.
Global Hint Extern 0 (J _ (mul_add _ _ _ _ _)) => (apply ho_mul_add; hrel) : hodb.
Lemma ho_mul_add_lines {NM : NMod} {Wd : World} (P : Prop) first t ls : (P -> ok ls) -> J P (mul_add_lines first t ls).
Proof. intros K. cut (forall (Q : Prop) first t, (Q -> ok ls) -> J Q (mul_add_lines first t ls)); [auto|]. clear. induction ls as [|[[[a b] c] z] ls IH]; intros Q first t K; cbn [mul_add_lines]; [hoa|]. jb; [hoa|intros; apply IH; hrel]. Qed.
Global Hint Extern 0 (J _ (mul_add_lines _ _ _)) => (apply ho_mul_add_lines; hrel) : hodb.
Lemma ho_mul_add_with_next_line {NM : NMod} {Wd : World} (P : Prop) ls : (P -> ok ls) -> J P (mul_add_with_next_line ls).
Proof. intros K. unfold mul_add_with_next_line. destruct ls as [|[[[a b] c] z] [|t ls]]; [hoa|hoa|]. jb; [apply ho_mul_add_lines; exact K|intros; hoa]. Qed.
Global Hint Extern 0 (J _ (mul_add_with_next_line _)) => (apply ho_mul_add_with_next_line; hrel) : hodb.
Lemma ho_invert_unsafe {NM : NMod} {Wd : World} (P : Prop) a : (P -> ok a) -> J P (invert_unsafe a).
Proof. intros; unfold invert_unsafe; hoa. Qed.
Global Hint Extern 0 (J _ (invert_unsafe _)) => (apply ho_invert_unsafe; hrel) : hodb.
Lemma ho_invert {NM : NMod} {Wd : World} (P : Prop) a : (P -> ok a) -> J P (invert a).
Proof. intros; unfold invert; hoa. Qed.
Global Hint Extern 0 (J _ (invert _)) => (apply ho_invert; hrel) : hodb.
Lemma ho_is_zero {NM : NMod} {Wd : World} (P : Prop) a : (P -> ok a) -> J P (is_zero a).
Proof. intros; unfold is_zero; hoa. Qed.
Global Hint Extern 0 (J _ (is_zero _)) => (apply ho_is_zero; hrel) : hodb.
Lemma ho_div_unsafe {NM : NMod} {Wd : World} (P : Prop) a b : (P -> ok a) -> (P -> ok b) -> J P (div_unsafe a b).
Proof. intros; unfold div_unsafe; hoa. Qed.
Global Hint Extern 0 (J _ (div_unsafe _ _)) => (apply ho_div_unsafe; hrel) : hodb.
Lemma ho_assign_constant {NM : NMod} {Wd : World} (P : Prop) v : J P (assign_constant v).
Proof. intros; unfold assign_constant; hoa. Qed.
Global Hint Extern 0 (J _ (assign_constant _)) => (apply ho_assign_constant; hrel) : hodb.
Lemma ho_assign {NM : NMod} {Wd : World} (P : Prop) v : J P (assign v).
Proof. intros; unfold assign; hoa. Qed.
Global Hint Extern 0 (J _ (assign _)) => (apply ho_assign; hrel) : hodb.
Lemma ho_assign_bit {NM : NMod} {Wd : World} (P : Prop) a : J P (assign_bit a).
Proof. intros; unfold assign_bit; hoa. Qed.
Global Hint Extern 0 (J _ (assign_bit _)) => (apply ho_assign_bit; hrel) : hodb.
Lemma ho_assert_equal {NM : NMod} {Wd : World} (P : Prop) a b : (P -> ok a) -> (P -> ok b) -> J P (assert_equal a b).
Proof. intros; unfold assert_equal; hoa. Qed.
Global Hint Extern 0 (J _ (assert_equal _ _)) => (apply ho_assert_equal; hrel) : hodb.
Lemma ho_assert_constant {NM : NMod} {Wd : World} (P : Prop) a b : (P -> ok a) -> J P (assert_constant a b).
Proof. intros; unfold assert_constant; hoa. Qed.
Global Hint Extern 0 (J _ (assert_constant _ _)) => (apply ho_assert_constant; hrel) : hodb.
Lemma ho_assert_bit {NM : NMod} {Wd : World} (P : Prop) a : (P -> ok a) -> J P (assert_bit a).
Proof. intros; unfold assert_bit; hoa. Qed.
Global Hint Extern 0 (J _ (assert_bit _)) => (apply ho_assert_bit; hrel) : hodb.
Lemma ho_and_ {NM : NMod} {Wd : World} (P : Prop) a b : (P -> ok a) -> (P -> ok b) -> J P (and_ a b).
Proof. intros; unfold and_; hoa. Qed.
Global Hint Extern 0 (J _ (and_ _ _)) => (apply ho_and_; hrel) : hodb.
Lemma ho_not_ {NM : NMod} {Wd : World} (P : Prop) a : (P -> ok a) -> J P (not_ a).
Proof. intros; unfold not_; hoa. Qed.
Global Hint Extern 0 (J _ (not_ _)) => (apply ho_not_; hrel) : hodb.
Lemma ho_not_and {NM : NMod} {Wd : World} (P : Prop) a b : (P -> ok a) -> (P -> ok b) -> J P (not_and a b).
Proof. intros; unfold not_and; hoa. Qed.
Global Hint Extern 0 (J _ (not_and _ _)) => (apply ho_not_and; hrel) : hodb.
Lemma ho_or_ {NM : NMod} {Wd : World} (P : Prop) a b : (P -> ok a) -> (P -> ok b) -> J P (or_ a b).
Proof. intros; unfold or_; hoa. Qed.
Global Hint Extern 0 (J _ (or_ _ _)) => (apply ho_or_; hrel) : hodb.
Lemma ho_xor_ {NM : NMod} {Wd : World} (P : Prop) a b : (P -> ok a) -> (P -> ok b) -> J P (xor_ a b).
Proof. intros; unfold xor_; hoa. Qed.
Global Hint Extern 0 (J _ (xor_ _ _)) => (apply ho_xor_; hrel) : hodb.
Lemma ho_xnor_ {NM : NMod} {Wd : World} (P : Prop) a b : (P -> ok a) -> (P -> ok b) -> J P (xnor_ a b).
Proof. intros; unfold xnor_; hoa. Qed.
Global Hint Extern 0 (J _ (xnor_ _ _)) => (apply ho_xnor_; hrel) : hodb.
Lemma ho_bisec {NM : NMod} {Wd : World} (P : Prop) cond a b : (P -> ok cond) -> (P -> ok a) -> (P -> ok b) -> J P (bisec cond a b).
Proof. intros; unfold bisec; hoa. Qed.
Global Hint Extern 0 (J _ (bisec _ _ _)) => (apply ho_bisec; hrel) : hodb.
Lemma ho_bisec_cond {NM : NMod} {Wd : World} (P : Prop) cond a b : (P -> ok cond) -> (P -> ok a) -> (P -> ok b) -> J P (bisec_cond cond a b).
Proof. intros; unfold bisec_cond; hoa. Qed.
Global Hint Extern 0 (J _ (bisec_cond _ _ _)) => (apply ho_bisec_cond; hrel) : hodb.
Lemma ho_assert_true {NM : NMod} {Wd : World} (P : Prop) a : (P -> ok a) -> J P (assert_true a).
Proof. intros; unfold assert_true; hoa. Qed.
Global Hint Extern 0 (J _ (assert_true _)) => (apply ho_assert_true; hrel) : hodb.
Lemma ho_assert_false {NM : NMod} {Wd : World} (P : Prop) a : (P -> ok a) -> J P (assert_false a).
Proof. intros; unfold assert_false; hoa. Qed.
Global Hint Extern 0 (J _ (assert_false _)) => (apply ho_assert_false; hrel) : hodb.
Lemma ho_try_assert_false {NM : NMod} {Wd : World} (P : Prop) a : (P -> ok a) -> J P (try_assert_false a).
Proof. intros; unfold try_assert_false; hoa. Qed.
Global Hint Extern 0 (J _ (try_assert_false _)) => (apply ho_try_assert_false; hrel) : hodb.
Lemma ho_assign_nonleading_limb {NM : NMod} {Wd : World} (P : Prop) bn : J P (assign_nonleading_limb bn).
Proof. intros; unfold assign_nonleading_limb; hoa. Qed.
Global Hint Extern 0 (J _ (assign_nonleading_limb _)) => (apply ho_assign_nonleading_limb; hrel) : hodb.
Lemma ho_assign_w_ceil_leading_limb {NM : NMod} {Wd : World} (P : Prop) I0 bn : J P (assign_w_ceil_leading_limb I0 bn).
Proof. intros; unfold assign_w_ceil_leading_limb; hoa. Qed.
Global Hint Extern 0 (J _ (assign_w_ceil_leading_limb _ _)) => (apply ho_assign_w_ceil_leading_limb; hrel) : hodb.
Lemma ho_assign_d_leading_limb {NM : NMod} {Wd : World} (P : Prop) I0 bn : J P (assign_d_leading_limb I0 bn).
Proof. intros; unfold assign_d_leading_limb; hoa. Qed.
Global Hint Extern 0 (J _ (assign_d_leading_limb _ _)) => (apply ho_assign_d_leading_limb; hrel) : hodb.
Lemma ho_native_of {NM : NMod} {Wd : World} (P : Prop) x0 limbs : (P -> ok limbs) -> J P (native_of x0 limbs).
Proof. intros; unfold native_of; hoa. Qed.
Global Hint Extern 0 (J _ (native_of _ _)) => (apply ho_native_of; hrel) : hodb.
Lemma ho_mul_column {NM : NMod} {Wd : World} (P : Prop) x0 a b d pos : (P -> ok a) -> (P -> ok b) -> (P -> ok d) -> J P (mul_column x0 a b d pos).
Proof. intros; unfold mul_column; hoa. Qed.
Global Hint Extern 0 (J _ (mul_column _ _ _ _ _)) => (apply ho_mul_column; hrel) : hodb.
Lemma ho_mul_carry {NM : NMod} {Wd : World} (P : Prop) x0 u : (P -> ok u) -> J P (mul_carry x0 u).
Proof. intros; unfold mul_carry; hoa. Qed.
Global Hint Extern 0 (J _ (mul_carry _ _)) => (apply ho_mul_carry; hrel) : hodb.
Lemma ho_mul_equation_on_limbs {NM : NMod} {Wd : World} (P : Prop) x0 a b d rem : (P -> ok a) -> (P -> ok b) -> (P -> ok d) -> (P -> ok rem) -> J P (mul_equation_on_limbs x0 a b d rem).
Proof. intros; unfold mul_equation_on_limbs; hoa. Qed.
Global Hint Extern 0 (J _ (mul_equation_on_limbs _ _ _ _ _)) => (apply ho_mul_equation_on_limbs; hrel) : hodb.
Lemma ho_mul_equation_on_native {NM : NMod} {Wd : World} (P : Prop) x0 a b d_native rem : (P -> ok a) -> (P -> ok b) -> (P -> ok d_native) -> (P -> ok rem) -> J P (mul_equation_on_native x0 a b d_native rem).
Proof. intros; unfold mul_equation_on_native; hoa. Qed.
Global Hint Extern 0 (J _ (mul_equation_on_native _ _ _ _ _)) => (apply ho_mul_equation_on_native; hrel) : hodb.
Lemma ho_assign_w {NM : NMod} {Wd : World} (P : Prop) x0 w : J P (assign_w x0 w).
Proof. intros; unfold assign_w; hoa. Qed.
Global Hint Extern 0 (J _ (assign_w _ _)) => (apply ho_assign_w; hrel) : hodb.
Lemma ho_assign_d {NM : NMod} {Wd : World} (P : Prop) x0 d : J P (assign_d x0 d).
Proof. intros; unfold assign_d; hoa. Qed.
Global Hint Extern 0 (J _ (assign_d _ _)) => (apply ho_assign_d; hrel) : hodb.
Lemma ho_reduce_step {NM : NMod} {Wd : World} (P : Prop) x0 a d rem ad arem last i : (P -> ok a) -> (P -> ok ad) -> (P -> ok arem) -> (P -> ok last) -> J P (reduce_step x0 a d rem ad arem last i).
Proof. intros; unfold reduce_step; hoa. Qed.
Global Hint Extern 0 (J _ (reduce_step _ _ _ _ _ _ _ _)) => (apply ho_reduce_step; hrel) : hodb.
Lemma ho_reduce {NM : NMod} {Wd : World} (P : Prop) x0 a : (P -> ok a) -> J P (reduce x0 a).
Proof. intros; unfold reduce; hoa. Qed.
Global Hint Extern 0 (J _ (reduce _ _)) => (apply ho_reduce; hrel) : hodb.
Lemma ho_conditionally_reduce {NM : NMod} {Wd : World} (P : Prop) x0 a : (P -> ok a) -> J P (conditionally_reduce x0 a).
Proof. intros; unfold conditionally_reduce; hoa. Qed.
Global Hint Extern 0 (J _ (conditionally_reduce _ _)) => (apply ho_conditionally_reduce; hrel) : hodb.
Lemma ho_int_add {NM : NMod} {Wd : World} (P : Prop) x0 a b : (P -> ok a) -> (P -> ok b) -> J P (int_add x0 a b).
Proof. intros; unfold int_add; hoa. Qed.
Global Hint Extern 0 (J _ (int_add _ _ _)) => (apply ho_int_add; hrel) : hodb.
Lemma ho_pad_of {NM : NMod} {Wd : World} (P : Prop) x0 times : J P (pad_of x0 times).
Proof. intros; unfold pad_of; hoa. Qed.
Global Hint Extern 0 (J _ (pad_of _ _)) => (apply ho_pad_of; hrel) : hodb.
Lemma ho_int_sub {NM : NMod} {Wd : World} (P : Prop) x0 a b : (P -> ok a) -> (P -> ok b) -> J P (int_sub x0 a b).
Proof. intros; unfold int_sub; hoa. Qed.
Global Hint Extern 0 (J _ (int_sub _ _ _)) => (apply ho_int_sub; hrel) : hodb.
Lemma ho_int_neg {NM : NMod} {Wd : World} (P : Prop) x0 a : (P -> ok a) -> J P (int_neg x0 a).
Proof. intros; unfold int_neg; hoa. Qed.
Global Hint Extern 0 (J _ (int_neg _ _)) => (apply ho_int_neg; hrel) : hodb.
Lemma ho_int_mul {NM : NMod} {Wd : World} (P : Prop) x0 a b : (P -> ok a) -> (P -> ok b) -> J P (int_mul x0 a b).
Proof. intros; unfold int_mul; hoa. Qed.
Global Hint Extern 0 (J _ (int_mul _ _ _)) => (apply ho_int_mul; hrel) : hodb.
Lemma ho_is_pure_zero {NM : NMod} {Wd : World} (P : Prop) a : (P -> ok a) -> J P (is_pure_zero a).
Proof. intros; unfold is_pure_zero; hoa. Qed.
Global Hint Extern 0 (J _ (is_pure_zero _)) => (apply ho_is_pure_zero; hrel) : hodb.
Lemma ho_is_pure_w_modulus {NM : NMod} {Wd : World} (P : Prop) x0 a : (P -> ok a) -> J P (is_pure_w_modulus x0 a).
Proof. intros; unfold is_pure_w_modulus; hoa. Qed.
Global Hint Extern 0 (J _ (is_pure_w_modulus _ _)) => (apply ho_is_pure_w_modulus; hrel) : hodb.
Lemma ho_is_int_zero {NM : NMod} {Wd : World} (P : Prop) x0 a : (P -> ok a) -> J P (is_int_zero x0 a).
Proof. intros; unfold is_int_zero; hoa. Qed.
Global Hint Extern 0 (J _ (is_int_zero _ _)) => (apply ho_is_int_zero; hrel) : hodb.
Lemma ho_is_int_equal {NM : NMod} {Wd : World} (P : Prop) x0 a b : (P -> ok a) -> (P -> ok b) -> J P (is_int_equal x0 a b).
Proof. intros; unfold is_int_equal; hoa. Qed.
Global Hint Extern 0 (J _ (is_int_equal _ _ _)) => (apply ho_is_int_equal; hrel) : hodb.
Lemma ho_int_div {NM : NMod} {Wd : World} (P : Prop) x0 a b : (P -> ok a) -> (P -> ok b) -> J P (int_div x0 a b).
Proof. intros; unfold int_div; hoa. Qed.
Global Hint Extern 0 (J _ (int_div _ _ _)) => (apply ho_int_div; hrel) : hodb.
Lemma ho_assign_int_constant {NM : NMod} {Wd : World} (P : Prop) x0 w : J P (assign_int_constant x0 w).
Proof. intros; unfold assign_int_constant; hoa. Qed.
Global Hint Extern 0 (J _ (assign_int_constant _ _)) => (apply ho_assign_int_constant; hrel) : hodb.
Lemma ho_int_unsafe_invert {NM : NMod} {Wd : World} (P : Prop) x0 x : (P -> ok x) -> J P (int_unsafe_invert x0 x).
Proof. intros; unfold int_unsafe_invert; hoa. Qed.
Global Hint Extern 0 (J _ (int_unsafe_invert _ _)) => (apply ho_int_unsafe_invert; hrel) : hodb.
Lemma ho_assert_int_equal {NM : NMod} {Wd : World} (P : Prop) x0 a b : (P -> ok a) -> (P -> ok b) -> J P (assert_int_equal x0 a b).
Proof. intros; unfold assert_int_equal; hoa. Qed.
Global Hint Extern 0 (J _ (assert_int_equal _ _ _)) => (apply ho_assert_int_equal; hrel) : hodb.
Lemma ho_int_square {NM : NMod} {Wd : World} (P : Prop) x0 a : (P -> ok a) -> J P (int_square x0 a).
Proof. intros; unfold int_square; hoa. Qed.
Global Hint Extern 0 (J _ (int_square _ _)) => (apply ho_int_square; hrel) : hodb.
Lemma ho_int_mul_small_constant {NM : NMod} {Wd : World} (P : Prop) x0 a b : (P -> ok a) -> J P (int_mul_small_constant x0 a b).
Proof. intros; unfold int_mul_small_constant; hoa. Qed.
Global Hint Extern 0 (J _ (int_mul_small_constant _ _ _)) => (apply ho_int_mul_small_constant; hrel) : hodb.
Lemma ho_bisec_int {NM : NMod} {Wd : World} (P : Prop) x0 cond a b : (P -> ok cond) -> (P -> ok a) -> (P -> ok b) -> J P (bisec_int x0 cond a b).
Proof. intros; unfold bisec_int; hoa. Qed.
Global Hint Extern 0 (J _ (bisec_int _ _ _ _)) => (apply ho_bisec_int; hrel) : hodb.
Lemma ho_assign_constant_point {NM : NMod} {Wd : World} (P : Prop) x0 p : J P (assign_constant_point x0 p).
Proof. intros; unfold assign_constant_point; hoa. Qed.
Global Hint Extern 0 (J _ (assign_constant_point _ _)) => (apply ho_assign_constant_point; hrel) : hodb.
Lemma ho_curve_sides {NM : NMod} {Wd : World} (P : Prop) x0 x1 x y : (P -> ok x) -> (P -> ok y) -> J P (curve_sides x0 x1 x y).
Proof. intros; unfold curve_sides; hoa. Qed.
Global Hint Extern 0 (J _ (curve_sides _ _ _ _)) => (apply ho_curve_sides; hrel) : hodb.
Lemma ho_assign_point {NM : NMod} {Wd : World} (P : Prop) x0 x1 p : J P (assign_point x0 x1 p).
Proof. intros; unfold assign_point; hoa. Qed.
Global Hint Extern 0 (J _ (assign_point _ _ _)) => (apply ho_assign_point; hrel) : hodb.
Lemma ho_assign_non_zero_point {NM : NMod} {Wd : World} (P : Prop) x0 x1 p : J P (assign_non_zero_point x0 x1 p).
Proof. intros; unfold assign_non_zero_point; hoa. Qed.
Global Hint Extern 0 (J _ (assign_non_zero_point _ _ _)) => (apply ho_assign_non_zero_point; hrel) : hodb.
Lemma ho_assign_identity {NM : NMod} {Wd : World} (P : Prop) x0 : J P (assign_identity x0).
Proof. intros; unfold assign_identity; hoa. Qed.
Global Hint Extern 0 (J _ (assign_identity _)) => (apply ho_assign_identity; hrel) : hodb.
Lemma ho_bisec_point {NM : NMod} {Wd : World} (P : Prop) x0 cond a b : (P -> ok cond) -> (P -> ok a) -> (P -> ok b) -> J P (bisec_point x0 cond a b).
Proof. intros; unfold bisec_point; hoa. Qed.
Global Hint Extern 0 (J _ (bisec_point _ _ _ _)) => (apply ho_bisec_point; hrel) : hodb.
Lemma ho_bisec_curvature {NM : NMod} {Wd : World} (P : Prop) x0 cond a b : (P -> ok cond) -> (P -> ok a) -> (P -> ok b) -> J P (bisec_curvature x0 cond a b).
Proof. intros; unfold bisec_curvature; hoa. Qed.
Global Hint Extern 0 (J _ (bisec_curvature _ _ _ _)) => (apply ho_bisec_curvature; hrel) : hodb.
Lemma ho_bisec_point_with_curvature {NM : NMod} {Wd : World} (P : Prop) x0 cond a b : (P -> ok cond) -> (P -> ok a) -> (P -> ok b) -> J P (bisec_point_with_curvature x0 cond a b).
Proof. intros; unfold bisec_point_with_curvature; hoa. Qed.
Global Hint Extern 0 (J _ (bisec_point_with_curvature _ _ _ _)) => (apply ho_bisec_point_with_curvature; hrel) : hodb.
Lemma ho_lambda_xy {NM : NMod} {Wd : World} (P : Prop) x0 l ax ay bx : (P -> ok l) -> (P -> ok ax) -> (P -> ok ay) -> (P -> ok bx) -> J P (lambda_xy x0 l ax ay bx).
Proof. intros; unfold lambda_xy; hoa. Qed.
Global Hint Extern 0 (J _ (lambda_xy _ _ _ _ _)) => (apply ho_lambda_xy; hrel) : hodb.
Lemma ho_lambda_to_point {NM : NMod} {Wd : World} (P : Prop) x0 lambda a b : (P -> ok lambda) -> (P -> ok a) -> (P -> ok b) -> J P (lambda_to_point x0 lambda a b).
Proof. intros; unfold lambda_to_point; hoa. Qed.
Global Hint Extern 0 (J _ (lambda_to_point _ _ _ _)) => (apply ho_lambda_to_point; hrel) : hodb.
Lemma ho_ecc_add {NM : NMod} {Wd : World} (P : Prop) x0 a b : (P -> ok a) -> (P -> ok b) -> J P (ecc_add x0 a b).
Proof. intros; unfold ecc_add; hoa. Qed.
Global Hint Extern 0 (J _ (ecc_add _ _ _)) => (apply ho_ecc_add; hrel) : hodb.
Lemma ho_ecc_double {NM : NMod} {Wd : World} (P : Prop) x0 x1 a : (P -> ok a) -> J P (ecc_double x0 x1 a).
Proof. intros; unfold ecc_double; hoa. Qed.
Global Hint Extern 0 (J _ (ecc_double _ _ _)) => (apply ho_ecc_double; hrel) : hodb.
Lemma ho_ecc_assert_equal {NM : NMod} {Wd : World} (P : Prop) x0 a b : (P -> ok a) -> (P -> ok b) -> J P (ecc_assert_equal x0 a b).
Proof. intros; unfold ecc_assert_equal; hoa. Qed.
Global Hint Extern 0 (J _ (ecc_assert_equal _ _ _)) => (apply ho_ecc_assert_equal; hrel) : hodb.
Lemma ho_ecc_neg {NM : NMod} {Wd : World} (P : Prop) x0 a : (P -> ok a) -> J P (ecc_neg x0 a).
Proof. intros; unfold ecc_neg; hoa. Qed.
Global Hint Extern 0 (J _ (ecc_neg _ _)) => (apply ho_ecc_neg; hrel) : hodb.
Lemma ho_ecc_reduce {NM : NMod} {Wd : World} (P : Prop) x0 a : (P -> ok a) -> J P (ecc_reduce x0 a).
Proof. intros; unfold ecc_reduce; hoa. Qed.
Global Hint Extern 0 (J _ (ecc_reduce _ _)) => (apply ho_ecc_reduce; hrel) : hodb.
Lemma ho_curvature_of {NM : NMod} {Wd : World} (P : Prop) x0 x y : (P -> ok x) -> (P -> ok y) -> J P (curvature_of x0 x y).
Proof. intros; unfold curvature_of; hoa. Qed.
Global Hint Extern 0 (J _ (curvature_of _ _ _)) => (apply ho_curvature_of; hrel) : hodb.
Lemma ho_ecc_reduce_with_curvature {NM : NMod} {Wd : World} (P : Prop) x0 a : (P -> ok a) -> J P (ecc_reduce_with_curvature x0 a).
Proof. intros; unfold ecc_reduce_with_curvature; hoa. Qed.
Global Hint Extern 0 (J _ (ecc_reduce_with_curvature _ _)) => (apply ho_ecc_reduce_with_curvature; hrel) : hodb.
Lemma ho_to_point_with_curvature {NM : NMod} {Wd : World} (P : Prop) x0 a : (P -> ok a) -> J P (to_point_with_curvature x0 a).
Proof. intros; unfold to_point_with_curvature; hoa. Qed.
Global Hint Extern 0 (J _ (to_point_with_curvature _ _)) => (apply ho_to_point_with_curvature; hrel) : hodb.
Lemma ho_ecc_encode {NM : NMod} {Wd : World} (P : Prop) x0 p : (P -> ok p) -> J P (ecc_encode x0 p).
Proof. intros; unfold ecc_encode; hoa. Qed.
Global Hint Extern 0 (J _ (ecc_encode _ _)) => (apply ho_ecc_encode; hrel) : hodb.
Lemma ho_assign_cache_integer {NM : NMod} {Wd : World} (P : Prop) x0 p sc g offset : (P -> ok p) -> J P (assign_cache_integer x0 p sc g offset).
Proof. intros; unfold assign_cache_integer; hoa. Qed.
Global Hint Extern 0 (J _ (assign_cache_integer _ _ _ _ _)) => (apply ho_assign_cache_integer; hrel) : hodb.
Lemma ho_assign_selected_integer {NM : NMod} {Wd : World} (P : Prop) x0 p sc g offset : (P -> ok p) -> (P -> ok sc) -> J P (assign_selected_integer x0 p sc g offset).
Proof. intros; unfold assign_selected_integer; hoa. Qed.
Global Hint Extern 0 (J _ (assign_selected_integer _ _ _ _ _)) => (apply ho_assign_selected_integer; hrel) : hodb.
Lemma ho_assign_cache_point {NM : NMod} {Wd : World} (P : Prop) x0 p g sc : (P -> ok p) -> J P (assign_cache_point x0 p g sc).
Proof. intros; unfold assign_cache_point; hoa. Qed.
Global Hint Extern 0 (J _ (assign_cache_point _ _ _ _)) => (apply ho_assign_cache_point; hrel) : hodb.
Lemma ho_assign_selected_point {NM : NMod} {Wd : World} (P : Prop) x0 p sc g : (P -> ok p) -> (P -> ok sc) -> J P (assign_selected_point x0 p sc g).
Proof. intros; unfold assign_selected_point; hoa. Qed.
Global Hint Extern 0 (J _ (assign_selected_point _ _ _ _)) => (apply ho_assign_selected_point; hrel) : hodb.
Lemma ho_lambda_to_point_non_zero {NM : NMod} {Wd : World} (P : Prop) x0 lambda a b : (P -> ok lambda) -> (P -> ok a) -> (P -> ok b) -> J P (lambda_to_point_non_zero x0 lambda a b).
Proof. intros; unfold lambda_to_point_non_zero; hoa. Qed.
Global Hint Extern 0 (J _ (lambda_to_point_non_zero _ _ _ _)) => (apply ho_lambda_to_point_non_zero; hrel) : hodb.
Lemma ho_ecc_add_unsafe {NM : NMod} {Wd : World} (P : Prop) x0 a b : (P -> ok a) -> (P -> ok b) -> J P (ecc_add_unsafe x0 a b).
Proof. intros; unfold ecc_add_unsafe; hoa. Qed.
Global Hint Extern 0 (J _ (ecc_add_unsafe _ _ _)) => (apply ho_ecc_add_unsafe; hrel) : hodb.
Lemma ho_ecc_double_unsafe {NM : NMod} {Wd : World} (P : Prop) x0 a : (P -> ok a) -> J P (ecc_double_unsafe x0 a).
Proof. intros; unfold ecc_double_unsafe; hoa. Qed.
Global Hint Extern 0 (J _ (ecc_double_unsafe _ _)) => (apply ho_ecc_double_unsafe; hrel) : hodb.
Lemma ho_ecc_neg_non_zero {NM : NMod} {Wd : World} (P : Prop) x0 a : (P -> ok a) -> J P (ecc_neg_non_zero x0 a).
Proof. intros; unfold ecc_neg_non_zero; hoa. Qed.
Global Hint Extern 0 (J _ (ecc_neg_non_zero _ _)) => (apply ho_ecc_neg_non_zero; hrel) : hodb.
Lemma ho_ecc_reduce_non_zero {NM : NMod} {Wd : World} (P : Prop) x0 a : (P -> ok a) -> J P (ecc_reduce_non_zero x0 a).
Proof. intros; unfold ecc_reduce_non_zero; hoa. Qed.
Global Hint Extern 0 (J _ (ecc_reduce_non_zero _ _)) => (apply ho_ecc_reduce_non_zero; hrel) : hodb.
Lemma ho_ecc_bisec_non_zero_point {NM : NMod} {Wd : World} (P : Prop) x0 cond a b : (P -> ok cond) -> (P -> ok a) -> (P -> ok b) -> J P (ecc_bisec_non_zero_point x0 cond a b).
Proof. intros; unfold ecc_bisec_non_zero_point; hoa. Qed.
Global Hint Extern 0 (J _ (ecc_bisec_non_zero_point _ _ _ _)) => (apply ho_ecc_bisec_non_zero_point; hrel) : hodb.
Lemma ho_bisec_pairs {NM : NMod} {Wd : World} (P : Prop) x0 bit cs : (P -> ok bit) -> (P -> ok cs) -> J P (bisec_pairs x0 bit cs).
Proof. intros Kb K. cut (forall n (Q : Prop) cs, (length cs <= n)%nat -> (Q -> ok bit) -> (Q -> ok cs) -> J Q (bisec_pairs x0 bit cs)); [intros G; apply (G (length cs)); auto|]. clear. induction n as [|n IH]; intros Q cs L Kb K; (destruct cs as [|a [|b cs]]; cbn [bisec_pairs]; [hoa|hoa|]; cbn [length] in L; try lia). jb; [hoa|intros]. jb; [apply IH; [lia|hrel|hrel]|intros; hoa]. Qed.
Global Hint Extern 0 (J _ (bisec_pairs _ _ _)) => (apply ho_bisec_pairs; hrel) : hodb.
Lemma ho_bisec_candidate_non_zero {NM : NMod} {Wd : World} (P : Prop) x0 candidates group_bits : (P -> ok candidates) -> (P -> ok group_bits) -> J P (bisec_candidate_non_zero x0 candidates group_bits).
Proof. intros; unfold bisec_candidate_non_zero; hoa. Qed.
Global Hint Extern 0 (J _ (bisec_candidate_non_zero _ _ _)) => (apply ho_bisec_candidate_non_zero; hrel) : hodb.
Lemma ho_pick_candidate_non_zero {NM : NMod} {Wd : World} (P : Prop) candidates group_bits : (P -> ok candidates) -> (P -> ok group_bits) -> J P (pick_candidate_non_zero candidates group_bits).
Proof. intros; unfold pick_candidate_non_zero; hoa. Qed.
Global Hint Extern 0 (J _ (pick_candidate_non_zero _ _)) => (apply ho_pick_candidate_non_zero; hrel) : hodb.
Lemma ho_assign_selected_point_non_zero {NM : NMod} {Wd : World} (P : Prop) x0 p sc g : (P -> ok p) -> (P -> ok sc) -> J P (assign_selected_point_non_zero x0 p sc g).
Proof. intros; unfold assign_selected_point_non_zero; hoa. Qed.
Global Hint Extern 0 (J _ (assign_selected_point_non_zero _ _ _ _)) => (apply ho_assign_selected_point_non_zero; hrel) : hodb.
Lemma ho_assign_cache_point_non_zero {NM : NMod} {Wd : World} (P : Prop) x0 p g sc : (P -> ok p) -> J P (assign_cache_point_non_zero x0 p g sc).
Proof. intros; unfold assign_cache_point_non_zero; hoa. Qed.
Global Hint Extern 0 (J _ (assign_cache_point_non_zero _ _ _ _)) => (apply ho_assign_cache_point_non_zero; hrel) : hodb.
Lemma ho_ecc_assert_equal_non_zero {NM : NMod} {Wd : World} (P : Prop) x0 a b : (P -> ok a) -> (P -> ok b) -> J P (ecc_assert_equal_non_zero x0 a b).
Proof. intros; unfold ecc_assert_equal_non_zero; hoa. Qed.
Global Hint Extern 0 (J _ (ecc_assert_equal_non_zero _ _ _)) => (apply ho_ecc_assert_equal_non_zero; hrel) : hodb.
Lemma ho_ecc_non_zero_point_downgrade {NM : NMod} {Wd : World} (P : Prop) a : (P -> ok a) -> J P (ecc_non_zero_point_downgrade a).
Proof. intros; unfold ecc_non_zero_point_downgrade; hoa. Qed.
Global Hint Extern 0 (J _ (ecc_non_zero_point_downgrade _)) => (apply ho_ecc_non_zero_point_downgrade; hrel) : hodb.
Lemma ho_ecc_bisec_to_non_zero_point {NM : NMod} {Wd : World} (P : Prop) x0 a b : (P -> ok a) -> (P -> ok b) -> J P (ecc_bisec_to_non_zero_point x0 a b).
Proof. intros; unfold ecc_bisec_to_non_zero_point; hoa. Qed.
Global Hint Extern 0 (J _ (ecc_bisec_to_non_zero_point _ _ _)) => (apply ho_ecc_bisec_to_non_zero_point; hrel) : hodb.
Lemma ho_to_windows {NM : NMod} {Wd : World} (P : Prop) W bits : (P -> ok bits) -> J P (to_windows W bits).
Proof. intros; unfold to_windows; hoa. Qed.
Global Hint Extern 0 (J _ (to_windows _ _)) => (apply ho_to_windows; hrel) : hodb.
Lemma ho_native_step {NM : NMod} {Wd : World} (P : Prop) s_bn st i : (P -> ok st) -> J P (native_step s_bn st i).
Proof. intros; unfold native_step; hoa. Qed.
Global Hint Extern 0 (J _ (native_step _ _ _)) => (apply ho_native_step; hrel) : hodb.
Lemma ho_decompose_scalar_native {NM : NMod} {Wd : World} (P : Prop) W s : (P -> ok s) -> J P (decompose_scalar_native W s).
Proof. intros; unfold decompose_scalar_native; hoa. Qed.
Global Hint Extern 0 (J _ (decompose_scalar_native _ _)) => (apply ho_decompose_scalar_native; hrel) : hodb.
Lemma ho_general_step {NM : NMod} {Wd : World} (P : Prop) two_inv v st j : (P -> ok st) -> J P (general_step two_inv v st j).
Proof. intros; unfold general_step; hoa. Qed.
Global Hint Extern 0 (J _ (general_step _ _ _ _)) => (apply ho_general_step; hrel) : hodb.
Lemma ho_general_limb {NM : NMod} {Wd : World} (P : Prop) two_inv l : (P -> ok l) -> J P (general_limb two_inv l).
Proof. intros; unfold general_limb; hoa. Qed.
Global Hint Extern 0 (J _ (general_limb _ _)) => (apply ho_general_limb; hrel) : hodb.
Lemma ho_decompose_scalar_general {NM : NMod} {Wd : World} (P : Prop) I0 W s : (P -> ok s) -> J P (decompose_scalar_general I0 W s).
Proof. intros; unfold decompose_scalar_general; hoa. Qed.
Global Hint Extern 0 (J _ (decompose_scalar_general _ _ _)) => (apply ho_decompose_scalar_general; hrel) : hodb.
