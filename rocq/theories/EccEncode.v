(** [ecc_encode] on a three-limb base field: the encoding determines the
    coordinates; and what the unsafe operations do on degenerate operands. *)
From Verif Require Import Prelude FieldZ Circuit Context Spec Logic ModArith Prims BaseChip BaseProofs
  RangeInfo RangeChip IntegerChip SpecInt InfoProofs IntArith RangeProofs IntInv IntSound IntComplete IntBridge
  IntRes EccChip SpecEcc Curve EccArith EccProofs EccHonest EccBridge.

(** Reading the coordinates back from the three field elements. *)
Definition enc_x (l : list Z) : Z := nth 0 l 0 + 2 ^ 216 * (nth 1 l 0 mod 2 ^ 108).
Definition enc_y (l : list Z) : Z := nth 1 l 0 / 2 ^ 108 + 2 ^ 108 * nth 2 l 0.

Section Enc.
Context {NM : NMod}.
Variable w : Z.
Variable I : rinfo.
Hypothesis IO : info_ok w I.
Hypothesis n_prime : prime nmod.
Hypothesis w_prime : prime w.
Variable T : env.
Variable A : cell -> Z.
Hypothesis A_range : forall x, 0 <= A x < nmod.
Hypothesis three : ri_limbs I = 3%nat.
Hypothesis n_big : 2 ^ 216 <= nmod.

Lemma limbs3 x : iwf I (vA A) x -> i_times x = 1 -> exists a b c, i_limbs x = [a; b; c]
  /\ 0 <= vA A a < 2 ^ 108 /\ 0 <= vA A b < 2 ^ 108 /\ 0 <= vA A c < 2 ^ 108
  /\ val (vA A) x = vA A a + 2 ^ 108 * vA A b + 2 ^ 216 * vA A c.
Proof.
  intros H Ht. pose proof (wf_len _ _ _ H) as HL. rewrite three in HL.
  pose proof (wf_low _ _ _ H 0 ltac:(lia)) as L0. pose proof (wf_low _ _ _ H 1 ltac:(lia)) as L1.
  pose proof (wf_lead _ _ _ H) as L2. pose proof (lead_le I) as LL.
  rewrite three in L2. rewrite Ht in *. unfold LIMB in *.
  destruct (i_limbs x) as [|a [|b [|c [|]]]] eqn:E; try discriminate HL. exists a, b, c.
  unfold lv in L0, L1, L2. rewrite E in L0, L1, L2. cbn [map nth Nat.sub] in L0, L1, L2.
  split; [reflexivity|]. split; [lia|]. split; [lia|]. split; [lia|].
  unfold val. rewrite E. cbn [map lval]. change (2 ^ 216) with (2 ^ 108 * 2 ^ 108). unfold LIMB. ring.
Qed.

Lemma pair_ST a b : 0 <= vA A a < 2 ^ 108 -> 0 <= vA A b < 2 ^ 108 ->
  ST T A (sum_with_constant [(a, 1); (b, fof LIMB)] None) (fun r => vA A r = vA A a + 2 ^ 108 * vA A b).
Proof.
  intros Ha Hb. eapply ST_weaken; [apply swc_ST; auto|]. intros r Hr. cbv beta in Hr.
  unfold lin in Hr. cbn [opt0 fold_right fst snd] in Hr. fold (vA A a) in Hr. fold (vA A b) in Hr.
  apply (eqm_small nmod); [|apply A_range|].
  - rewrite Hr. unfold fof, LIMB. estrip. apply eqm_eq. ring.
  - change (2 ^ 216) with (2 ^ 108 * 2 ^ 108) in n_big. nia.
Qed.

Lemma enc_back a b c d e f s0 s1 s2 : 0 <= a < 2 ^ 108 -> 0 <= b < 2 ^ 108 -> 0 <= c < 2 ^ 108 ->
  0 <= d < 2 ^ 108 -> s0 = a + 2 ^ 108 * b -> s1 = c + 2 ^ 108 * d -> s2 = e + 2 ^ 108 * f ->
  enc_x [s0; s1; s2] = a + 2 ^ 108 * b + 2 ^ 216 * c /\ enc_y [s0; s1; s2] = d + 2 ^ 108 * e + 2 ^ 216 * f.
Proof.
  intros Ha Hb Hc Hd -> -> ->. unfold enc_x, enc_y. cbn [nth].
  rewrite (Z.mul_comm (2 ^ 108) d), Z.mod_add, Z.div_add by lia.
  rewrite (Z.mod_small c), (Z.div_small c) by lia. change (2 ^ 216) with (2 ^ 108 * 2 ^ 108). split; ring.
Qed.

Lemma ecc_encode_R a x y z : gp w I A a x y z ->
  ST T A (ecc_encode I a) (fun r => enc_x (map (vA A) r) ≡ (if z then 0 else x) ⟨w⟩
                              /\ enc_y (map (vA A) r) ≡ (if z then 0 else y) ⟨w⟩).
Proof.
  intros H. unfold ecc_encode.
  eapply ST_bind; [eapply (ecc_reduce_R w I IO n_prime w_prime T A A_range); eauto|app|app|cbv beta].
  intros p (((Wx & Vx) & (Wy & Vy) & Hz) & Tx & Ty).
  destruct (limbs3 _ Wx Tx) as (x0 & x1 & x2 & Ex & Bx0 & Bx1 & Bx2 & Sx).
  destruct (limbs3 _ Wy Ty) as (y0 & y1 & y2 & Ey & By0 & By1 & By2 & Sy).
  cbv zeta. rewrite Ex, Ey.
  apply ST_nth_k. intros ? K. injection K as <-. apply ST_nth_k. intros ? K. injection K as <-.
  eapply ST_bind; [apply (pair_ST x0 x1); auto|app|app|cbv beta]. intros s0 H0.
  apply ST_nth_k. intros ? K. injection K as <-. apply ST_nth_k. intros ? K. injection K as <-.
  eapply ST_bind; [apply (pair_ST x2 y0); auto|app|app|cbv beta]. intros s1 H1.
  apply ST_nth_k. intros ? K. injection K as <-. apply ST_nth_k. intros ? K. injection K as <-.
  eapply ST_bind; [apply (pair_ST y1 y2); auto|app|app|cbv beta]. intros s2 H2.
  apply ST_ret. cbn [map].
  destruct (enc_back _ _ _ _ _ _ _ _ _ Bx0 Bx1 Bx2 By0 H0 H1 H2) as (-> & ->).
  rewrite <- Sx, <- Sy. auto.
Qed.
End Enc.

(** A run that panics after an honest prefix. *)
Section Pan.
Context {NM : NMod}.
Lemma CT_panic {X Y} c (m : M X) (k : X -> M Y) Q : CT c m Q ->
  (forall x c', wf c' -> extends c c' -> Q x c' -> k x c' = Panic) -> mbind m k c = Panic.
Proof. intros (x & c' & R & W & E & _ & HQ) K. unfold mbind. rewrite R. apply K; auto. Qed.

Lemma try_assert_false_panic {X} (a : av) (k : bool -> M X) c : a_val a = 1 -> 1 < nmod ->
  mbind (try_assert_false a) k c = Panic.
Proof.
  intros H N. unfold try_assert_false, assert_constant, mbind, massert. rewrite H.
  unfold fof. rewrite ?Z.mod_0_l by lia. cbn [Z.eqb]. reflexivity.
Qed.
End Pan.

Section Deg.
Context {NM : NMod}.
Variable w : Z.
Variable I : rinfo.
Hypothesis IO : info_ok w I.
Hypothesis n_prime : prime nmod.
Hypothesis w_prime : prime w.
Hypothesis HD : ri_d_bits I mod 108 <> 0.
Lemma add_unsafe_degenerate c0 a b x1 y1 x2 y2 : wf c0 -> hn w I c0 a x1 y1 -> hn w I c0 b x2 y2 ->
  x1 mod w = x2 mod w -> ecc_add_unsafe I a b c0 = Panic.
Proof.
  intros W0 (A1 & A2) (B1 & B2) EQ. unfold ecc_add_unsafe.
  eapply CT_panic; [eapply (int_sub_C w I IO); eauto|]. intros dx ? ? ? Hdx. cbv beta in *. upz.
  eapply CT_panic; [eapply (int_sub_C w I IO); eauto|]. intros dy ? ? ? Hdy. cbv beta in *. upz.
  eapply CT_panic; [eapply (int_div_C w I IO); eauto|]. intros t ? ? ? (Hxe & q & Hq & Q). cbv beta in *.
  rewrite (sub_mod0 w), EQ, Z.eqb_refl in Hxe. destruct Hxe as [_ Hxe]. apply try_assert_false_panic; [exact Hxe|].
  apply (n_pos n_prime).
Qed.
Lemma double_unsafe_degenerate c0 a x1 y1 : wf c0 -> hn w I c0 a x1 y1 -> (2 * y1) mod w = 0 ->
  ecc_double_unsafe I a c0 = Panic.
Proof.
  intros W0 (A1 & A2) EQ. unfold ecc_double_unsafe.
  eapply CT_panic; [eapply (curvature_of_C w I IO); eauto|]. intros t ? ? ? (l & k & (Vk & Hk) & Hl & TO). cbv beta in *.
  destruct TO as [-> _]. rewrite EQ in Hk. apply try_assert_false_panic; [exact Hk|]. apply (n_pos n_prime).
Qed.
End Deg.

(** The honest encoding, for any number of limbs: the lowest 324 bits of the
    canonical coordinates (0 for the identity). *)
Lemma lval_digit l : Forall (fun x => 0 <= x < LIMB) l ->
  forall i, nth i l 0 = lval l / LIMB ^ Z.of_nat i mod LIMB.
Proof.
  assert (LP : 0 < LIMB) by (unfold LIMB; lia).
  induction 1 as [|x l Hx Hl IH]; intros i.
  - cbn [lval]. rewrite Z.div_0_l by (pose proof (LIMB_pow_pos i); lia). destruct i; reflexivity.
  - cbn [lval]. destruct i as [|i].
    + cbn [nth]. change (LIMB ^ Z.of_nat 0) with 1. rewrite Z.div_1_r, (Z.mul_comm LIMB), Z.mod_add by lia.
      symmetry. apply Z.mod_small. exact Hx.
    + cbn [nth]. rewrite IH, LIMB_pow_S, (Z.mul_comm (LIMB ^ Z.of_nat i) LIMB). rewrite <- (Z.div_div _ LIMB) by (pose proof (LIMB_pow_pos i); lia).
      rewrite (Z.mul_comm LIMB (lval l)), Z.div_add by lia. rewrite (Z.div_small x) by lia. reflexivity.
Qed.
Definition encoding (x y : Z) : list Z :=
  [x mod 2 ^ 216; (x / 2 ^ 216) mod 2 ^ 108 + 2 ^ 108 * (y mod 2 ^ 108); (y / 2 ^ 108) mod 2 ^ 216].

Section HEnc.
Context {NM : NMod}.
Variable w : Z.
Variable I : rinfo.
Hypothesis IO : info_ok w I.
Hypothesis n_prime : prime nmod.
Hypothesis w_prime : prime w.
Hypothesis HD : ri_d_bits I mod 108 <> 0.
Hypothesis n_big : 2 ^ 216 <= nmod.

Lemma limbs_canon c x r : cr w I c x r -> i_times x = 1 -> exists a0 a1 a2,
  nth_error (i_limbs x) 0 = Some a0 /\ nth_error (i_limbs x) 1 = Some a1 /\ nth_error (i_limbs x) 2 = Some a2
  /\ valid c a0 /\ valid c a1 /\ valid c a2
  /\ a_val a0 = (r mod w) mod 2 ^ 108 /\ a_val a1 = (r mod w) / 2 ^ 108 mod 2 ^ 108 /\ a_val a2 = (r mod w) / 2 ^ 216 mod 2 ^ 108.
Proof.
  intros (([V _ W] & _ & C) & E) Ht. specialize (C Ht). pose proof (wf_len _ _ _ W) as HL.
  pose proof (io_L3 _ _ IO) as H3.
  assert (V0 : val a_val x = r mod w).
  { rewrite <- E. symmetry. apply Z.mod_small. pose proof (wf_val _ _ _ W). lia. }
  assert (F : Forall (fun x => 0 <= x < LIMB) (map a_val (i_limbs x))).
  { apply Forall_forall. intros v Hv. apply (In_nth _ _ 0) in Hv as (i & Hi & <-). rewrite map_length in Hi.
    change (0 <= lv a_val x i < LIMB). pose proof (lead_le I).
    destruct (Nat.eq_dec i (ri_limbs I - 1)) as [->|N].
    - pose proof (wf_lead _ _ _ W). rewrite Ht in *. lia.
    - pose proof (wf_low _ _ _ W i ltac:(lia)). rewrite Ht in *. lia. }
  pose proof (lval_digit _ F) as D.
  destruct (i_limbs x) as [|a0 [|a1 [|a2 rest]]] eqn:EL; cbn [length] in HL; try lia.
  exists a0, a1, a2. split; [reflexivity|]. split; [reflexivity|]. split; [reflexivity|].
  inversion V as [|? ? Va0 V1]; subst. inversion V1 as [|? ? Va1 V2]; subst. inversion V2 as [|? ? Va2 V3]; subst.
  split; [auto|]. split; [auto|]. split; [auto|].
  unfold val in V0. rewrite EL in V0. rewrite V0 in D.
  split; [|split].
  - rewrite <- (Z.div_1_r (r mod w)). exact (D 0%nat).
  - exact (D 1%nat).
  - exact (D 2%nat).
Qed.

Lemma pair_CT c a b : wf c -> valid c a -> valid c b -> 0 <= a_val a < 2 ^ 108 -> 0 <= a_val b < 2 ^ 108 ->
  CT c (sum_with_constant [(a, 1); (b, fof LIMB)] None) (fun r c' => valid c' r /\ a_val r = a_val a + 2 ^ 108 * a_val b).
Proof.
  intros W Va Vb Ha Hb. eapply CT_weaken; [apply swc_CT; auto|].
  - cbn; lia.
  - discriminate.
  - intros r c' _ _ (V & Hr). split; [exact V|].
    unfold hlin in Hr. cbn [opt0 fold_right fst snd] in Hr.
    apply (eqm_small nmod); [|apply V|].
    + rewrite Hr. unfold fof, LIMB. estrip. apply eqm_eq. ring.
    + change (2 ^ 216) with (2 ^ 108 * 2 ^ 108) in n_big. nia.
Qed.

Lemma mod216 v : v mod 2 ^ 216 = v mod 2 ^ 108 + 2 ^ 108 * (v / 2 ^ 108 mod 2 ^ 108).
Proof. change (2 ^ 216) with (2 ^ 108 * 2 ^ 108). rewrite Z.rem_mul_r by lia. reflexivity. Qed.

Lemma ecc_encode_C c0 a x y z : wf c0 -> hp w I c0 a x y z ->
  CT c0 (ecc_encode I a) (fun r c => Forall (valid c) r
     /\ map a_val r = encoding (if z then 0 else x mod w) (if z then 0 else y mod w)).
Proof.
  intros W0 H. unfold ecc_encode.
  eapply CT_bind; [eapply (ecc_reduce_C w I IO n_prime w_prime); eauto|cbv beta].
  intros p c W _ ((Hx & Hy & Hz) & Tx & Ty).
  destruct (limbs_canon _ _ _ Hx Tx) as (x0 & x1 & x2 & Ex0 & Ex1 & Ex2 & Vx0 & Vx1 & Vx2 & Bx0 & Bx1 & Bx2).
  destruct (limbs_canon _ _ _ Hy Ty) as (y0 & y1 & y2 & Ey0 & Ey1 & Ey2 & Vy0 & Vy1 & Vy2 & By0 & By1 & By2).
  assert (R : forall v, 0 <= v mod 2 ^ 108 < 2 ^ 108) by (intros; apply Z.mod_pos_bound; lia).
  cbv zeta.
  eapply CT_nth_k; [exact Ex0|]. eapply CT_nth_k; [exact Ex1|].
  eapply CT_bind; [apply (pair_CT c x0 x1); rewrite ?Bx0, ?Bx1; auto|cbv beta]. intros s0 c1 W1 E1 (V1 & H1). up E1.
  eapply CT_nth_k; [exact Ex2|]. eapply CT_nth_k; [exact Ey0|].
  eapply CT_bind; [apply (pair_CT c1 x2 y0); rewrite ?Bx2, ?By0; auto|cbv beta]. intros s1 c2 W2 E2 (V2 & H2). up E2.
  eapply CT_nth_k; [exact Ey1|]. eapply CT_nth_k; [exact Ey2|].
  eapply CT_bind; [apply (pair_CT c2 y1 y2); rewrite ?By1, ?By2; auto|cbv beta]. intros s2 c3 W3 E3 (V3 & H3). up E3.
  apply CT_ret; [auto|]. split; [auto|]. cbn [map]. unfold encoding. rewrite H1, H2, H3, Bx0, Bx1, Bx2, By0, By1, By2.
  assert (Y2 : (if z then 0 else y) mod w / 2 ^ 216 = (if z then 0 else y) mod w / 2 ^ 108 / 2 ^ 108)
    by (rewrite Z.div_div by lia; reflexivity).
  rewrite Y2, !mod216. destruct z; rewrite ?Z.mod_0_l by (pose proof (w_pos w w_prime); lia); reflexivity.
Qed.
End HEnc.

Section UnsafeOk.
Context {NM : NMod}.
Lemma try_assert_false_true a c s c' : try_assert_false a c = Ok (s, c') -> s = true.
Proof.
  intros H. unfold try_assert_false in H. apply mbind_inv in H as (u & c1 & H & R). injection R as <- _.
  unfold assert_constant in H. apply mbind_inv in H as (u' & c2 & H & _). unfold massert in H.
  destruct (a_val a =? 0); [reflexivity|discriminate].
Qed.
Lemma unsafe_ok I a a' c r c' : 1 < nmod ->
  ecc_add_unsafe I a a' c = Ok (r, c') \/ ecc_double_unsafe I a c = Ok (r, c') -> exists s, r = UOk s.
Proof.
  intros _ [H|H].
  - unfold ecc_add_unsafe in H. do 3 apply mbind_inv in H as (? & ? & _ & H).
    apply mbind_inv in H as (s & ? & K & H). apply try_assert_false_true in K. subst s.
    apply mbind_inv in H as (? & ? & _ & H). injection H as <- _. eauto.
  - unfold ecc_double_unsafe in H. apply mbind_inv in H as (? & ? & _ & H).
    apply mbind_inv in H as (s & ? & K & H). apply try_assert_false_true in K. subst s.
    apply mbind_inv in H as (? & ? & _ & H). injection H as <- _. eauto.
Qed.
Lemma int_ok_mono w c c' x : extends c c' -> int_ok w c x valid -> int_ok w c' x valid.
Proof.
  intros E [H1 H2 H3 H4 H5]. constructor; auto; [|eapply valid_mono; eauto].
  eapply Forall_impl; [|exact H1]. intros a Ha. eapply valid_mono; eauto.
Qed.
Lemma point_ok_mono w c c' a : extends c c' -> point_ok w c a valid -> point_ok w c' a valid.
Proof. intros E (H1 & H2 & H3). split; [|split]; [eapply int_ok_mono; eauto..|eapply valid_mono; eauto]. Qed.
End UnsafeOk.

(** Two points of bls12-381 whose coordinates differ by 2^324. *)
Definition col_x : Z := 242839255926905338421573125409674444750770566792086312807601121129248379986498904439122408878594573703823834788652.
Definition col_y : Z := 1035532027775057107050067033476535896291026716827810873239448950113593848762693650240952706284352405503934448425348.
