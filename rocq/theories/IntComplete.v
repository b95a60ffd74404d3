(** Honest runs of the foreign-field integer gadgets. *)
From Verif Require Import Prelude FieldZ Circuit Context Spec Logic ModArith Prims BaseChip BaseProofs
  RangeInfo RangeChip IntegerChip InfoProofs IntArith RangeProofs IntInv IntSound.

Section Iter.
Context {NM : NMod}.
Lemma CT_foldM_seq {S} (f : S -> nat -> M S) (J : nat -> S -> ctx -> Prop) k : forall s0 s c,
  wf c -> J s0 s c ->
  (forall i s c', (s0 <= i < s0 + k)%nat -> wf c' -> extends c c' -> J i s c' ->
     CT c' (f s i) (J (Datatypes.S i))) ->
  CT c (foldM f s (seq s0 k)) (J (s0 + k)%nat).
Proof.
  induction k as [|k IH]; intros s0 s c W H0 Hf; cbn [seq foldM].
  - rewrite Nat.add_0_r. apply CT_ret; auto.
  - eapply CT_bind; [apply Hf; [lia|auto|apply extends_refl|exact H0]|].
    intros s1 c1 W1 E1 H1. replace (s0 + Datatypes.S k)%nat with (Datatypes.S s0 + k)%nat by lia.
    apply IH; auto. intros i s' c' Hi W' E' HJ. apply Hf; auto; [lia|]. eapply extends_trans; eauto.
Qed.
Lemma CT_mapM_seq {Y} (f : nat -> M Y) (Q : nat -> Y -> ctx -> Prop) s k c :
  wf c -> (forall x y c1 c2, Q x y c1 -> extends c1 c2 -> Q x y c2) ->
  (forall i c', (s <= i < s + k)%nat -> wf c' -> extends c c' -> CT c' (f i) (Q i)) ->
  CT c (mapM f (seq s k))
     (fun ys c' => length ys = k /\ forall i, (i < k)%nat -> exists y, nth_error ys i = Some y /\ Q (s + i)%nat y c').
Proof.
  intros W Hs Hf. eapply CT_weaken.
  - apply (CT_mapM c f (seq s k) Q); auto. intros i c' Hi. apply in_seq in Hi. apply Hf. lia.
  - intros ys c' _ _ H. apply Forall2_seq in H. exact H.
Qed.
End Iter.

Section Complete.
Context {NM : NMod}.
Variable w : Z.
Variable I : rinfo.
Hypothesis IO : info_ok w I.
Hypothesis n_prime : prime nmod.
Hypothesis w_prime : prime w.
(** d_leading is not a full limb (see C50). *)
Hypothesis HD : ri_d_bits I mod 108 <> 0.

Notation L := (ri_limbs I).
Notation wb := (ri_w_ceil_bits I).
Notation lv := (lv a_val).
Notation val := (val a_val).
Notation iwf := (iwf I a_val).
Let n_gt := n_gt w I IO.
Let n_big := n_big w I IO.

Record hok (c : ctx) (x : aint) : Prop := {
  hk_l : Forall (valid c) (i_limbs x);
  hk_n : valid c (i_native x);
  hk_w : iwf x
}.
Lemma hok_mono c c' x : extends c c' -> hok c x -> hok c' x.
Proof.
  intros E [H1 H2 H3]. split; auto; [|eapply valid_mono; eauto].
  eapply Forall_impl; [|exact H1]. intros a. apply valid_mono; auto.
Qed.
Lemma hok_nth c x i : hok c x -> (i < L)%nat ->
  exists y, nth_error (i_limbs x) i = Some y /\ valid c y /\ a_val y = lv x i.
Proof.
  intros H Hi. destruct (nth_error (i_limbs x) i) as [y|] eqn:E.
  - exists y. split; [auto|]. split.
    + pose proof (hk_l _ _ H) as F. rewrite Forall_forall in F. apply F. eapply nth_error_In; eauto.
    + apply lv_nth. exact E.
  - apply nth_error_None in E. rewrite (wf_len _ _ _ (hk_w _ _ H)) in E. lia.
Qed.

Lemma a_exact c x y : valid c x -> a_val x ≡ y ⟨nmod⟩ -> 0 <= y < nmod -> a_val x = y.
Proof. intros V H1 H2. apply (eqm_small nmod); auto. apply V. Qed.
Lemma mod_exact x y : x ≡ y ⟨nmod⟩ -> 0 <= y < nmod -> x mod nmod = y.
Proof. intros H1 H2. rewrite H1. apply Z.mod_small. exact H2. Qed.

(** A list of limbs with known honest values. *)
Definition limbs_are (c : ctx) (g : nat -> Z) (ls : list av) : Prop :=
  length ls = L /\ forall i, (i < L)%nat ->
    exists y, nth_error ls i = Some y /\ valid c y /\ a_val y = g i.
Lemma limbs_are_valid c g ls : limbs_are c g ls -> Forall (valid c) ls.
Proof.
  intros [H1 H2]. apply Forall_forall. intros x Hx. apply In_nth_error in Hx as [i Hi].
  assert (K : nth_error ls i <> None) by congruence. apply nth_error_Some in K.
  destruct (H2 i ltac:(lia)) as (y & Hy & V & _). congruence.
Qed.
Lemma limbs_are_nth c g ls i : limbs_are c g ls -> (i < L)%nat -> nth i (map a_val ls) 0 = g i.
Proof.
  intros [H1 H2] Hi. destruct (H2 i Hi) as (y & Hy & _ & E). rewrite <- E. apply nth_map_error. exact Hy.
Qed.
Lemma limbs_are_lval c g ls : limbs_are c g ls -> lval (map a_val ls) = lsum g L.
Proof.
  intros H. rewrite lval_lsum, map_length, (proj1 H). apply lsum_ext. intros i Hi.
  eapply limbs_are_nth; eauto.
Qed.
Lemma limbs_are_mono c c' g ls : extends c c' -> limbs_are c g ls -> limbs_are c' g ls.
Proof.
  intros E [H1 H2]. split; [auto|]. intros i Hi. destruct (H2 i Hi) as (y & Hy & V & Ev).
  exists y. split; [auto|]. split; [eapply valid_mono; eauto|auto].
Qed.

Lemma mapM_limbs c (op : nat -> M av) (g : nat -> Z) : wf c ->
  (forall i c', (i < L)%nat -> wf c' -> extends c c' -> CT c' (op i) (fun r c2 => valid c2 r /\ a_val r = g i)) ->
  CT c (mapM op (seq 0 L)) (fun ls c' => limbs_are c' g ls).
Proof.
  intros W H. eapply CT_weaken; [apply (CT_mapM_seq op (fun i r c2 => valid c2 r /\ a_val r = g i))|].
  - auto.
  - intros x y c1 c2 [V E] X. split; [eapply valid_mono; eauto|auto].
  - intros i c' Hi. apply H. lia.
  - intros ls c' _ _ HL. exact HL.
Qed.

Lemma native_of_CT c g ls : wf c -> limbs_are c g ls ->
  CT c (native_of I ls) (fun r c' => valid c' r /\ a_val r = lval (map a_val ls) mod nmod).
Proof.
  intros W H. unfold native_of. pose proof (io_L3 _ _ IO) as H3.
  assert (LC : length (ri_coeffs I) = L) by (rewrite (io_coeffs _ _ IO), map_length, seq_length; reflexivity).
  eapply CT_weaken; [apply swc_CT; auto|].
  - apply Forall_forall. intros [x k] Hx. apply in_combine_l in Hx. cbn [fst].
    pose proof (limbs_are_valid _ _ _ H) as F. rewrite Forall_forall in F. auto.
  - rewrite combine_length, LC, (proj1 H). lia.
  - discriminate.
  - intros r c' _ _ [V E]. split; [exact V|]. cbn [opt0] in E. rewrite Z.add_0_l in E.
    change hlin with (linf a_val) in E. apply eqm_mod_intro; [|apply V]. rewrite E.
    apply linf_coeffs with (w := w); auto. rewrite (proj1 H). lia.
Qed.

Lemma nonleading_CT c bn : wf c -> 0 <= bn < LIMB ->
  CT c (assign_nonleading_limb bn) (fun r c' => valid c' r /\ a_val r = bn).
Proof. intros W H. apply assign_limb_CT; auto; unfold LIMB_BITS; lia. Qed.

Lemma limbs_app_CT c x (m : Z -> M av) : wf c ->
  (forall c', wf c' -> CT c' (m (limb_at x (L - 1))) (fun r c2 => valid c2 r /\ a_val r = limb_at x (L - 1))) ->
  CT c (ls <- mapM (fun i => assign_nonleading_limb (limb_at x i)) (seq 0 (L - 1)) ;;
        l <- m (limb_at x (L - 1)) ;; mret (ls ++ [l]))
     (fun ls c' => limbs_are c' (limb_at x) ls).
Proof.
  intros W Hm. pose proof (io_L3 _ _ IO) as H3.
  eapply CT_bind.
  - apply (CT_mapM_seq _ (fun i r c2 => valid c2 r /\ a_val r = limb_at x i)); auto.
    + intros i y c1 c2 [V E] X. split; [eapply valid_mono; eauto|auto].
    + intros i c' Hi W' E'. apply nonleading_CT; auto. apply limb_at_range.
  - intros ls c1 W1 E1 [L1 HL]. cbn [Nat.add] in HL. eapply CT_bind; [apply Hm; auto|].
    intros l c2 W2 E2 [V Ev]. apply CT_ret; auto. split.
    + rewrite app_length. cbn [length]. lia.
    + intros i Hi. destruct (Nat.eq_dec i (L - 1)) as [->|].
      * exists l. rewrite nth_error_app2 by lia. rewrite L1, Nat.sub_diag. split; [reflexivity|auto].
      * destruct (HL i ltac:(lia)) as (y & Hy & V' & E'). exists y.
        rewrite nth_error_app1 by lia. split; [auto|]. split; [eapply valid_mono; eauto|auto].
Qed.

Lemma lsum_limb_at x : 0 <= x < LIMB ^ Z.of_nat L -> lsum (limb_at x) L = x.
Proof.
  intros H. transitivity (lval (bn_to_limb_le L x)); [|apply lval_limbs; auto].
  rewrite lval_lsum, bn_to_limb_le_length. apply lsum_ext. intros i Hi.
  unfold bn_to_limb_le. rewrite nth_map_seq by auto. reflexivity.
Qed.

Lemma CT_assoc {X Y Z0} c (m : M X) (k : X -> M Y) (h : Y -> M Z0) Q :
  CT c (y <- (x <- m ;; k x) ;; h y) Q -> CT c (x <- m ;; y <- k x ;; h y) Q.
Proof.
  unfold CT, mbind. intros (y & c' & H & R). exists y, c'. split; [|exact R].
  destruct (m c) as [[x c1]|]; auto.
Qed.

Lemma pow_wb_LIMB : 2 ^ wb <= LIMB ^ Z.of_nat L.
Proof.
  rewrite LIMB_pow by lia. apply Z.pow_le_mono_r; [lia|]. pose proof (L_cover w I IO). lia.
Qed.

Lemma assign_w_CT c x : wf c -> 0 <= x < 2 ^ wb ->
  CT c (assign_w I x) (fun r c' => hok c' r /\ i_times r = 1 /\ val r = x).
Proof.
  intros W Hx. pose proof (wb_mod w I IO) as WM. pose proof (io_L3 _ _ IO) as H3.
  pose proof pow_wb_LIMB as PL.
  assert (K := limbs_app_CT c x (assign_w_ceil_leading_limb I) W
    ltac:(intros c' W'; apply assign_limb_CT; auto; unfold LIMB_BITS;
      [apply lead_limb with (w := w); auto
      |pose proof (io_wdec _ _ IO) as WD; cbv zeta in WD; destruct (Z.eqb_spec (wb mod 108) 0); lia
      |lia])).
  unfold assign_w.
  assert (G : CT c (ls <- (ls <- mapM (fun i => assign_nonleading_limb (limb_at x i)) (seq 0 (L - 1)) ;;
        l <- assign_w_ceil_leading_limb I (limb_at x (L - 1)) ;; mret (ls ++ [l])) ;;
        native <- native_of I ls ;; mret (mkInt ls native 1))
     (fun r c' => hok c' r /\ i_times r = 1 /\ val r = x)).
  { eapply CT_bind; [exact K|]. intros ls c1 W1 E1 HL. cbv beta in HL.
    eapply CT_bind; [eapply native_of_CT; eauto|]. intros nt c2 W2 E2 [Vn En]. apply CT_ret; auto.
    assert (LN := fun i => limbs_are_nth _ _ _ i HL). assert (LV := limbs_are_lval _ _ _ HL).
    rewrite lsum_limb_at in LV by lia.
    split; [|split; [reflexivity|exact LV]].
    split; cbn [i_limbs i_native]; [eapply limbs_are_valid; eapply limbs_are_mono; eauto|exact Vn|].
    constructor; unfold IntInv.lv, IntInv.val; cbn [i_limbs i_times i_native]; rewrite ?Z.mul_1_l.
    - apply HL.
    - lia.
    - intros i Hi. rewrite LN by lia. apply limb_at_range.
    - rewrite LN by lia. apply lead_limb with (w := w); auto.
    - rewrite LV. lia.
    - exact En. }
  clear K. unfold CT, mbind in *. destruct G as (r & c' & H & R). exists r, c'. split; [|exact R].
  destruct (mapM _ _ c) as [[ls c1]|]; [|discriminate].
  destruct (assign_w_ceil_leading_limb _ _ c1) as [[l c2]|]; auto.
Qed.

Lemma db_mod : ri_d_bits I mod 108 = wb mod 108 + 13.
Proof.
  pose proof (wb_mod w I IO). pose proof (io_dbits _ _ IO) as E. pose proof (io_dlead _ _ IO) as DL.
  pose proof (Z.div_mod wb 108 ltac:(lia)). rewrite E in *.
  pose proof (Z.div_mod (wb + 13) 108 ltac:(lia)). pose proof (Z.mod_pos_bound (wb + 13) 108 ltac:(lia)). lia.
Qed.
Lemma db_eq : ri_d_bits I = 108 * (Z.of_nat L - 1) + ri_d_bits I mod 108.
Proof. rewrite db_mod. pose proof (wb_eq w I IO). pose proof (io_dbits _ _ IO). lia. Qed.

Lemma assign_d_CT c x : wf c -> 0 <= x < 2 ^ ri_d_bits I ->
  CT c (assign_d I x) (fun r c' => limbs_are c' (limb_at x) (fst r) /\ valid c' (snd r)
      /\ a_val (snd r) = x mod nmod /\ lsum (limb_at x) L = x).
Proof.
  intros W Hx. pose proof (wb_mod w I IO) as WM. pose proof (io_L3 _ _ IO) as H3.
  pose proof db_mod as DM. pose proof db_eq as DE.
  pose proof (Z.mod_pos_bound (ri_d_bits I) 108 eq_refl) as DB.
  assert (LD : 2 ^ (ri_d_bits I mod 108) <= LIMB).
  { unfold LIMB. apply Z.pow_le_mono_r; lia. }
  assert (XL : 0 <= x < LIMB ^ Z.of_nat L).
  { rewrite LIMB_pow by lia. assert (2 ^ ri_d_bits I <= 2 ^ (Z.of_nat L * 108)) by (apply Z.pow_le_mono_r; lia). lia. }
  assert (LX : 0 <= limb_at x (L - 1) < 2 ^ (ri_d_bits I mod 108)).
  { split; [apply limb_at_range|]. rewrite limb_at_spec.
    assert (x / LIMB ^ Z.of_nat (L - 1) < 2 ^ (ri_d_bits I mod 108)).
    { apply Z.div_lt_upper_bound; [apply LIMB_pow_pos|]. rewrite LIMB_pow by lia.
      rewrite <- Z.pow_add_r by lia. rewrite DE in Hx.
      replace (Z.of_nat (L - 1) * 108 + ri_d_bits I mod 108) with (108 * (Z.of_nat L - 1) + ri_d_bits I mod 108) by lia. lia. }
    assert (0 <= x / LIMB ^ Z.of_nat (L - 1)) by (apply Z.div_pos; [lia|apply LIMB_pow_pos]).
    rewrite Z.mod_small by lia. lia. }
  assert (K := limbs_app_CT c x (assign_d_leading_limb I) W
    ltac:(intros c' W'; apply assign_limb_CT; auto; unfold LIMB_BITS;
      [pose proof (io_ddec _ _ IO) as WD; cbv zeta in WD; destruct (Z.eqb_spec (ri_d_bits I mod 108) 0); lia
      |lia])).
  unfold assign_d.
  assert (G : CT c (ls <- (ls <- mapM (fun i => assign_nonleading_limb (limb_at x i)) (seq 0 (L - 1)) ;;
        l <- assign_d_leading_limb I (limb_at x (L - 1)) ;; mret (ls ++ [l])) ;;
        native <- native_of I ls ;; mret (ls, native))
     (fun r c' => limbs_are c' (limb_at x) (fst r) /\ valid c' (snd r)
      /\ a_val (snd r) = x mod nmod /\ lsum (limb_at x) L = x)).
  { eapply CT_bind; [exact K|]. intros ls c1 W1 E1 HL. cbv beta in HL.
    eapply CT_bind; [eapply native_of_CT; eauto|]. intros nt c2 W2 E2 [Vn En]. apply CT_ret; auto.
    assert (LV := limbs_are_lval _ _ _ HL). pose proof (lsum_limb_at x XL) as LS. rewrite LS in LV.
    cbn [fst snd]. rewrite LV in En. split; [eapply limbs_are_mono; eauto|auto]. }
  clear K. unfold CT, mbind in *. destruct G as (r & c' & H & R). exists r, c'. split; [|exact R].
  destruct (mapM _ _ c) as [[ls c1]|]; [|discriminate].
  destruct (assign_d_leading_limb _ _ c1) as [[l c2]|]; auto.
Qed.

(** [get_w_bn] reads the integer value of the witness. *)
Lemma get_w_bn_val x : length (i_limbs x) = L -> get_w_bn I x = val x.
Proof.
  intros H. unfold get_w_bn, IntInv.val. rewrite <- H, firstn_all. clear H.
  induction (i_limbs x) as [|y l IH]; cbn [fold_right map lval]; [reflexivity|]. rewrite IH. ring.
Qed.

(** ** Reduction *)
Ltac modr := first [apply mod_range; assumption | assumption
  | match goal with V : valid _ ?a |- 0 <= a_val ?a < nmod => apply V end
  | pose proof (n_pos n_prime); cbn [schema_val]; lia].
Ltac fall := repeat match goal with
  | |- Forall _ (_ :: _) => apply Forall_cons | |- Forall _ [] => apply Forall_nil end.
Ltac vall := fall; cbn [fst]; assumption.
Ltac sok := fall; cbn [fst snd pa pu schema_ok];
  first [assumption | unfold fneg, fadd, fsub, fmul, fof; modr].
Ltac gunf := unfold gate_sum, with_tail, tail_val, pair_val, pa, pu;
  cbn [map fst snd nth opt0 schema_val].
Ltac vm := match goal with
  | E : extends ?c ?c', V : valid ?c ?a |- valid ?c' ?a => apply (valid_mono c c' a E V)
  | E : extends ?c ?c', V : hok ?c ?a |- hok ?c' ?a => apply (hok_mono c c' a E V)
  end.

Lemma w_limbs_nth i : (i < L)%nat -> nth_error (ri_w_limbs I) i = Some (wd w I i).
Proof.
  intros Hi. destruct (nth_error (ri_w_limbs I) i) as [x|] eqn:E.
  - apply (wl_nth w I IO) in E as [_ ->]. reflexivity.
  - apply nth_error_None in E. rewrite (io_wl _ _ IO), map_length, bn_to_limb_le_length in E. lia.
Qed.
Lemma w_limbs_bn_nth i : (i < L)%nat -> nth_error (ri_w_limbs_bn I) i = Some (wd w I i).
Proof.
  intros Hi. rewrite (io_wl_bn _ _ IO). unfold bn_to_limb_le, wd.
  destruct (Nat.ltb_spec i L); [|lia]. exact (nth_error_map_seq (limb_at w) L i Hi).
Qed.
Lemma bn_limbs_nth x i : (i < L)%nat -> nth_error (bn_to_limb_le L x) i = Some (limb_at x i).
Proof. intros Hi. exact (nth_error_map_seq (limb_at x) L i Hi). Qed.
Lemma coeffs_at i : (i < L)%nat -> nth_error (ri_coeffs I) i = Some (fof (LIMB ^ Z.of_nat i)).
Proof. intros Hi. rewrite (io_coeffs _ _ IO). exact (nth_error_map_seq (fun i => fof (LIMB ^ Z.of_nat i)) L i Hi). Qed.

Definition hred_J (d : Z) (a rem : aint) (i : nat) (last : option av) (c : ctx) : Prop :=
  match last with
  | None => i = 0%nat
  | Some x => (1 <= i)%nat /\ valid c x /\ 0 <= a_val x < LIMB
      /\ lsum (fun i => d * wd w I i + lv rem i - lv a i) i = LIMB ^ Z.of_nat i * (a_val x - 64)
  end.

Lemma reduce_step_CT c a q r ad arem i last : wf c ->
  hok c a -> hok c arem -> valid c ad -> a_val ad = q -> 0 <= q < 2 ^ 18 ->
  i_times arem = 1 -> (forall i, (i < L)%nat -> limb_at r i = lv arem i) -> (i < L)%nat ->
  lsum (fun i => q * wd w I i + lv arem i - lv a i) L = 0 ->
  hred_J q a arem i last c ->
  CT c (reduce_step I a q r ad arem last i) (hred_J q a arem (S i)).
Proof.
  intros W Ha Hr Vd Eq Hq Tr Er Hi HZ HJ. unfold reduce_step.
  destruct (hok_nth c a i Ha Hi) as (ai & Nai & Vai & Eai).
  destruct (hok_nth c arem i Hr Hi) as (remi & Nremi & Vremi & Eremi).
  pose proof (hk_w _ _ Ha) as Wa. pose proof (hk_w _ _ Hr) as Wr.
  pose proof (lv_range I a_val a i Wa) as Ra. pose proof (lv_range I a_val arem i Wr) as Rr.
  pose proof (wf_t _ _ _ Wa) as Ta. pose proof (wd_max w I IO i) as Rw.
  pose proof (io_red_v _ _ IO) as B1. pose proof (io_red_vn _ _ IO) as B2.
  fold (maxw I) in B1. pose proof LIMB_ge as LG. rewrite Tr, Z.mul_1_l in Rr.
  eapply CT_nth_k; [apply w_limbs_bn_nth; auto|]. eapply CT_nth_k; [apply bn_limbs_nth; auto|].
  eapply CT_nth_k; [exact Nai|]. cbv zeta. rewrite (Er i Hi), Eai. unfold OVERFLOW_LIMIT.
  set (carry := match last with Some v => a_val v | None => 0 end).
  set (lb := if (i =? 0)%nat then 0 else 64).
  set (h := fun i => q * wd w I i + lv arem i - lv a i) in *.
  set (u := q * wd w I i + lv arem i + LIMB * 64 - lv a i + carry - lb).
  assert (CB : 0 <= carry < LIMB).
  { unfold carry. destruct last as [x|]; [apply HJ|lia]. }
  assert (LB : 0 <= lb <= 64) by (unfold lb; destruct (i =? 0)%nat; lia).
  assert (HS : lsum h i = LIMB ^ Z.of_nat i * (carry - lb)).
  { unfold carry, lb. destruct last as [x|]; cbn [hred_J] in HJ.
    - destruct HJ as (H1 & _ & _ & H2). destruct (Nat.eqb_spec i 0); [lia|]. exact H2.
    - subst i. cbn. reflexivity. }
  assert (HS' : lsum h (S i) = LIMB ^ Z.of_nat i * (u - LIMB * 64)).
  { cbn [lsum]. rewrite HS. unfold h, u. ring. }
  assert (QW : 0 <= q * wd w I i <= (2 ^ 18 - 1) * maxw I) by (clear - Rw Hq; nia).
  assert (UB : 0 <= u <= (LIMB - 1) * LIMB).
  { unfold u. clear - QW Ra Rr Ta B1 CB LB LG. assert (LIMB * 63 >= i_times a * LIMB) by nia. lia. }
  assert (UD : (LIMB | u)).
  { assert (K := lsum_mod h (S i) L ltac:(lia)). rewrite HZ, HS', LIMB_pow_S in K.
    pose proof (LIMB_pow_pos i) as PP. symmetry in K. apply eqm_divide in K; [|clear - PP LG; nia].
    rewrite Z.sub_0_r in K. apply Z.mul_divide_cancel_l in K; [|lia].
    destruct K as [k Hk]. exists (k + 64). clear - Hk. lia. }
  assert (UE : u = LIMB * (u / LIMB)).
  { destruct UD as [k Hk]. rewrite Hk at 2. rewrite Z.div_mul by lia. lia. }
  assert (UB1 : lv a i <= q * wd w I i + lv arem i + LIMB * 64) by (clear - Ra Ta LG Rr QW; nia).
  apply CT_assert_k; [apply Z.leb_le; exact UB1|].
  apply CT_assert_k; [apply Z.leb_le; unfold u in UB; lia|].
  apply CT_assert_k; [apply Z.eqb_eq; apply Z.mod_divide; [lia|exact UD]|].
  eapply CT_bind; [apply nonleading_CT; [auto|]|].
  { fold u. clear - UB LG. split; [apply Z.div_pos; lia|]. apply Z.div_lt_upper_bound; lia. }
  intros x c1 W1 E1 [Vx Ex]. fold u in Ex.
  eapply CT_nth_k; [apply w_limbs_nth; auto|]. eapply CT_nth_k; [exact Nremi|].
  assert (valid c1 ad) by vm. assert (valid c1 remi) by vm. assert (valid c1 ai) by vm.
  assert (SL : schema_ok c1 (fst match last with Some lv0 => pa lv0 1 | None => pu 0 0 end)).
  { destruct last as [y|]; cbn [pa pu fst schema_ok].
    - eapply valid_mono; [exact E1|apply HJ].
    - pose proof (n_pos n_prime). lia. }
  eapply CT_bind; [apply CT_one_line_with_last; [assumption|cbn;lia|cbn;lia| |sok|]|].
  { fall; cbn [fst snd pa schema_ok]; try assumption. }
  { gunf. rewrite Eq, Eremi, Eai, Ex.
    assert (EC : schema_val (fst match last with Some lv0 => pa lv0 1 | None => pu 0 0 end)
                 * snd match last with Some lv0 => pa lv0 1 | None => pu 0 0 end = carry).
    { unfold carry. destruct last; cbn [pa pu fst snd schema_val]; ring. }
    unfold pa, pu in EC. estrip.
    match goal with |- ?E ≡ 0 ⟨_⟩ => replace E with (u - LIMB * (u / LIMB)) end; [rewrite <- UE; rewrite Z.sub_diag; reflexivity|].
    unfold u at 1. rewrite <- EC. unfold lb. ring. }
  intros y c2 W2 E2 _. apply CT_ret; [assumption|]. cbn [hred_J]. split; [lia|].
  split; [vm|]. rewrite Ex. split; [clear - UB LG; split; [apply Z.div_pos; lia|apply Z.div_lt_upper_bound; lia]|].
  fold h. rewrite HS', LIMB_pow_S. rewrite UE at 1. ring.
Qed.

Lemma reduce_CT c a : wf c -> hok c a -> (i_times a = 1 -> val a < w) ->
  CT c (reduce I a) (fun r c' => hok c' r /\ i_times r = 1 /\ val r = val a mod w).
Proof.
  intros W Ha Hc. pose proof (hk_w _ _ Ha) as Wa. pose proof (wf_t _ _ _ Wa) as Ta.
  pose proof (wf_val _ _ _ Wa) as Va. pose proof (w_pos w w_prime) as WP. pose proof (wb_pos w I IO) as WBP.
  unfold reduce. destruct (Z.eqb_spec (i_times a) 1) as [E|NE].
  - apply CT_ret; [auto|]. split; [auto|]. split; [auto|]. symmetry. apply Z.mod_small. specialize (Hc E). lia.
  - apply CT_assert_k; [apply Z.ltb_lt; unfold OVERFLOW_LIMIT; lia|]. cbv zeta.
    rewrite get_w_bn_val by apply Wa. rewrite (io_w _ _ IO).
    pose proof (Z.mod_pos_bound (val a) w ltac:(lia)) as RM. pose proof (w_le w I IO) as WL.
    eapply CT_bind; [apply assign_w_CT; [auto|lia]|].
    intros arem c1 W1 E1 (Hr & Tr & Vr).
    pose proof (Z.div_mod (val a) w ltac:(lia)) as DM.
    assert (QB : 0 <= val a / w < 2 ^ 18).
    { split; [apply Z.div_pos; lia|]. pose proof (io_red_a _ _ IO). nia. }
    eapply CT_bind; [apply assign_common_CT; auto|]. intros ad c2 W2 E2 [Vd Ed].
    assert (hok c2 arem) by vm. assert (hok c1 a) by vm. assert (hok c2 a) by vm.
    assert (valid c2 (i_native arem)) by (apply hk_n; auto). assert (valid c2 (i_native a)) by (apply hk_n; auto).
    pose proof (hk_w _ _ Hr) as Wr.
    eapply CT_bind; [apply CT_one_line_with_last; [assumption|cbn;lia|cbn;lia|sok|sok|]|].
    { gunf. rewrite Ed, (wf_nat _ _ _ Wa), (wf_nat _ _ _ Wr), Vr, (io_w_native _ _ IO). estrip.
      apply eqm_eq. lia. }
    intros y c3 W3 E3 _. pose proof (io_red_L _ _ IO) as HRL.
    assert (hok c3 arem) by vm. assert (hok c3 a) by vm. assert (valid c3 ad) by vm.
    assert (LZ : lsum (fun i => val a / w * wd w I i + lv arem i - lv a i) L = 0).
    { rewrite lsum_sub, lsum_add, lsum_scale, (wd_lsum w I IO w_prime).
      rewrite <- !(val_lsum I) by (eapply wf_len; eauto). rewrite Vr. lia. }
    assert (LR : forall i, (i < L)%nat -> limb_at (val a mod w) i = lv arem i).
    { apply (lsum_eq_digits (limb_at (val a mod w)) (lv arem) L).
      - intros i _. apply limb_at_range.
      - intros i _. pose proof (lv_range I a_val arem i Wr) as R. rewrite Tr in R. lia.
      - rewrite lsum_limb_at, <- (val_lsum I) by (try (eapply wf_len; eauto); pose proof pow_wb_LIMB; lia). auto. }
    eapply CT_bind.
    + apply (CT_foldM_seq _ (hred_J (val a / w) a arem)); [auto|reflexivity|].
      intros i s c4 Hi W4 E4 HJ. apply reduce_step_CT; auto; try vm. lia.
    + intros last c5 W5 E5 _. apply CT_ret; [auto|]. split; [vm|]. auto.
Qed.

Definition hint (c : ctx) (x : aint) : Prop :=
  hok c x /\ i_times x <= 16 /\ (i_times x = 1 -> val x < w).
Lemma hint_mono c c' x : extends c c' -> hint c x -> hint c' x.
Proof. intros E (H1 & H2 & H3). split; [eapply hok_mono; eauto|auto]. Qed.

Lemma eqm_mod_w x : x mod w ≡ x ⟨w⟩.
Proof. apply mod_eqm. Qed.

Lemma cond_reduce_CT c a : wf c -> hok c a -> (i_times a = 1 -> val a < w) ->
  CT c (conditionally_reduce I a) (fun r c' => hint c' r /\ val r ≡ val a ⟨w⟩).
Proof.
  intros W Ha Hc. unfold conditionally_reduce, THRESHOLD. pose proof (w_pos w w_prime) as WP.
  destruct (Z.ltb_spec 16 (i_times a)) as [H|H].
  - eapply CT_weaken; [apply reduce_CT; auto|]. intros r c' _ _ (H1 & H2 & H3).
    split; [|rewrite H3; apply mod_eqm]. split; [auto|]. split; [lia|]. intros _. rewrite H3.
    apply Z.mod_pos_bound. lia.
  - apply CT_ret; auto. split; [|reflexivity]. split; auto.
Qed.

Lemma comb_CT c (op : nat -> M av) (g : nat -> Z) t : wf c ->
  (forall i c', (i < L)%nat -> wf c' -> extends c c' -> CT c' (op i) (fun r c2 => valid c2 r /\ a_val r = g i)) ->
  2 <= t <= 63 ->
  (forall i, (i < L - 1)%nat -> 0 <= g i < t * LIMB) -> 0 <= g (L - 1)%nat < t * 2 ^ (wb mod 108) ->
  0 <= lsum g L < t * 2 ^ wb ->
  CT c (limbs <- mapM op (seq 0 L) ;; native <- native_of I limbs ;;
        conditionally_reduce I (mkInt limbs native t))
     (fun r c' => hint c' r /\ val r ≡ lsum g L ⟨w⟩).
Proof.
  intros W Ho Ht G1 G2 G3. pose proof (io_L3 _ _ IO) as H3.
  eapply CT_bind; [apply (mapM_limbs c op g); auto|]. intros ls c1 W1 E1 HL. cbv beta in HL.
  eapply CT_bind; [eapply native_of_CT; eauto|]. intros nt c2 W2 E2 [Vn En].
  assert (LN := fun i => limbs_are_nth _ _ _ i HL). assert (LV := limbs_are_lval _ _ _ HL).
  assert (HK : hok c2 (mkInt ls nt t)).
  { split; cbn [i_limbs i_native]; [eapply limbs_are_valid; eapply limbs_are_mono; eauto|exact Vn|].
    constructor; unfold IntInv.lv, IntInv.val; cbn [i_limbs i_times i_native].
    - apply HL.
    - lia.
    - intros i Hi. rewrite LN by lia. auto.
    - rewrite LN by lia. auto.
    - rewrite LV. auto.
    - exact En. }
  eapply CT_weaken; [apply cond_reduce_CT; auto|].
  - cbn [i_times]. lia.
  - intros r c' _ _ [H1 H2]. split; [auto|]. rewrite H2. unfold IntInv.val. cbn [i_limbs]. rewrite LV. reflexivity.
Qed.

Lemma int_add_CT c a b : wf c -> hint c a -> hint c b ->
  CT c (int_add I a b) (fun r c' => hint c' r /\ val r ≡ val a + val b ⟨w⟩).
Proof.
  intros W (Ha & Ta & _) (Hb & Tb & _). pose proof (hk_w _ _ Ha) as Wa. pose proof (hk_w _ _ Hb) as Wb.
  pose proof (wf_t _ _ _ Wa). pose proof (wf_t _ _ _ Wb). pose proof LIMB_pos.
  unfold int_add. eapply CT_weaken; [apply (comb_CT c _ (fun i => lv a i + lv b i)); [auto| |lia| | |]|].
  - intros i c' Hi W' E'.
    destruct (hok_nth c a i Ha Hi) as (x & Nx & Vx & Ex). destruct (hok_nth c b i Hb Hi) as (y & Ny & Vy & Ey).
    eapply CT_nth_k; [exact Nx|]. eapply CT_nth_k; [exact Ny|].
    eapply CT_weaken; [apply add_CT; auto; vm|]. intros r c2 _ _ [V E]. split; [auto|].
    rewrite E, Ex, Ey. apply mod_exact; [reflexivity|].
    pose proof (lv_range I a_val a i Wa). pose proof (lv_range I a_val b i Wb). nia.
  - intros i Hi. pose proof (wf_low _ _ _ Wa i Hi). pose proof (wf_low _ _ _ Wb i Hi). lia.
  - pose proof (wf_lead _ _ _ Wa). pose proof (wf_lead _ _ _ Wb). lia.
  - rewrite lsum_add, <- !(val_lsum I) by (eapply wf_len; eauto).
    pose proof (wf_val _ _ _ Wa). pose proof (wf_val _ _ _ Wb). lia.
  - intros r c' _ _ [K1 K2]. split; [auto|]. rewrite K2.
    rewrite lsum_add, <- !(val_lsum I) by (eapply wf_len; eauto). reflexivity.
Qed.

Lemma pad_of_CT c t : wf c -> 1 <= t <= 63 ->
  CT c (pad_of I t) (fun u c' => exists us, u = map fof us /\ pad_spec L w wb t us).
Proof.
  intros W Ht. unfold pad_of. destruct (io_pad _ _ IO t Ht) as (us & Hus & P).
  eapply CT_nth_k; [exact Hus|]. eapply CT_opt; [auto|reflexivity|]. eauto.
Qed.
Lemma pad_at us i : length us = L -> (i < L)%nat -> nth_error (map fof us) i = Some (fof (nth i us 0)).
Proof. intros H Hi. rewrite nth_error_map. rewrite (nth_error_nth' us 0) by lia. reflexivity. Qed.

Lemma int_sub_CT c a b : wf c -> hint c a -> hint c b ->
  CT c (int_sub I a b) (fun r c' => hint c' r /\ val r ≡ val a - val b ⟨w⟩).
Proof.
  intros W (Ha & Ta & _) (Hb & Tb & _). pose proof (hk_w _ _ Ha) as Wa. pose proof (hk_w _ _ Hb) as Wb.
  pose proof (wf_t _ _ _ Wa) as Ta'. pose proof (wf_t _ _ _ Wb) as Tb'. pose proof LIMB_pos as LP.
  unfold int_sub. eapply CT_bind; [apply pad_of_CT; auto; lia|]. intros u c1 W1 E1 (us & -> & P).
  assert (GB : forall i, (i < L)%nat -> lv b i <= nth i us 0).
  { intros i Hi. destruct (Nat.eq_dec i (L - 1)) as [->|].
    - pose proof (ps_lead _ _ _ _ _ P). pose proof (wf_lead _ _ _ Wb). lia.
    - pose proof (ps_low _ _ _ _ _ P i ltac:(lia)). pose proof (wf_low _ _ _ Wb i ltac:(lia)). lia. }
  assert (LS : lsum (fun i => lv a i - lv b i + nth i us 0) L = val a - val b + lval us).
  { rewrite lsum_add, lsum_sub, <- !(val_lsum I) by (eapply wf_len; eauto).
    rewrite (pad_lsum w I _ _ P). reflexivity. }
  eapply CT_weaken; [apply (comb_CT c1 _ (fun i => lv a i - lv b i + nth i us 0)); [auto| |lia| | |]|].
  - intros i c' Hi W' E'.
    destruct (hok_nth c a i Ha Hi) as (x & Nx & Vx & Ex). destruct (hok_nth c b i Hb Hi) as (y & Ny & Vy & Ey).
    eapply CT_nth_k; [exact Nx|]. eapply CT_nth_k; [exact Ny|].
    eapply CT_nth_k; [apply pad_at; [apply P|auto]|].
    assert (valid c1 x) by vm. assert (valid c1 y) by vm. assert (valid c' x) by vm. assert (valid c' y) by vm.
    eapply CT_weaken; [apply swc_CT; [auto|auto|vall|cbn; lia|]|].
    + intros k Hk. injection Hk as <-. apply mod_range; auto.
    + intros r c2 _ _ [V E]. split; [auto|]. eapply a_exact; [exact V| |].
      * rewrite E. unfold hlin. cbn [fold_right fst snd opt0]. rewrite Ex, Ey. estrip. apply eqm_eq. ring.
      * pose proof (lv_range I a_val a i Wa). pose proof (lv_range I a_val b i Wb).
        pose proof (pad_range w I IO _ _ Tb' P i Hi). specialize (GB i Hi). nia.
  - intros i Hi. pose proof (wf_low _ _ _ Wa i Hi). pose proof (wf_low _ _ _ Wb i Hi).
    pose proof (ps_low _ _ _ _ _ P i Hi). nia.
  - pose proof (wf_lead _ _ _ Wa). pose proof (wf_lead _ _ _ Wb). pose proof (ps_lead _ _ _ _ _ P). nia.
  - rewrite LS. pose proof (wf_val _ _ _ Wa). pose proof (wf_val _ _ _ Wb).
    pose proof (ps_hi _ _ _ _ _ P). pose proof (ps_lo _ _ _ _ _ P). pose proof (w_lt w I IO w_prime). nia.
  - intros r c' _ _ [K1 K2]. split; [auto|]. rewrite K2, LS, (pad_mod w I w_prime _ _ P). apply eqm_eq. ring.
Qed.

Lemma int_neg_CT c a : wf c -> hint c a ->
  CT c (int_neg I a) (fun r c' => hint c' r /\ val r ≡ - val a ⟨w⟩).
Proof.
  intros W (Ha & Ta & _). pose proof (hk_w _ _ Ha) as Wa.
  pose proof (wf_t _ _ _ Wa) as Ta'. pose proof LIMB_pos as LP.
  unfold int_neg. eapply CT_bind; [apply pad_of_CT; auto; lia|]. intros u c1 W1 E1 (us & -> & P).
  assert (GB : forall i, (i < L)%nat -> lv a i <= nth i us 0).
  { intros i Hi. destruct (Nat.eq_dec i (L - 1)) as [->|].
    - pose proof (ps_lead _ _ _ _ _ P). pose proof (wf_lead _ _ _ Wa). lia.
    - pose proof (ps_low _ _ _ _ _ P i ltac:(lia)). pose proof (wf_low _ _ _ Wa i ltac:(lia)). lia. }
  assert (LS : lsum (fun i => nth i us 0 - lv a i) L = lval us - val a).
  { rewrite lsum_sub, <- !(val_lsum I) by (eapply wf_len; eauto).
    rewrite (pad_lsum w I _ _ P). reflexivity. }
  eapply CT_weaken; [apply (comb_CT c1 _ (fun i => nth i us 0 - lv a i)); [auto| |lia| | |]|].
  - intros i c' Hi W' E'.
    destruct (hok_nth c a i Ha Hi) as (x & Nx & Vx & Ex).
    eapply CT_nth_k; [exact Nx|].
    eapply CT_nth_k; [apply pad_at; [apply P|auto]|].
    assert (valid c1 x) by vm. assert (valid c' x) by vm.
    eapply CT_weaken; [apply swc_CT; [auto|auto|vall|cbn; lia|]|].
    + intros k Hk. injection Hk as <-. apply mod_range; auto.
    + intros r c2 _ _ [V E]. split; [auto|]. eapply a_exact; [exact V| |].
      * rewrite E. unfold hlin. cbn [fold_right fst snd opt0]. rewrite Ex. estrip. apply eqm_eq. ring.
      * pose proof (lv_range I a_val a i Wa).
        pose proof (pad_range w I IO _ _ Ta' P i Hi). specialize (GB i Hi). nia.
  - intros i Hi. pose proof (wf_low _ _ _ Wa i Hi). pose proof (ps_low _ _ _ _ _ P i Hi). nia.
  - pose proof (wf_lead _ _ _ Wa). pose proof (ps_lead _ _ _ _ _ P). nia.
  - rewrite LS. pose proof (wf_val _ _ _ Wa).
    pose proof (ps_hi _ _ _ _ _ P). pose proof (ps_lo _ _ _ _ _ P). pose proof (w_lt w I IO w_prime). nia.
  - intros r c' _ _ [K1 K2]. split; [auto|]. rewrite K2, LS, (pad_mod w I w_prime _ _ P). apply eqm_eq. ring.
Qed.

Lemma bisec_val x y k : 0 <= x < nmod -> 0 <= y < nmod -> k = 0 \/ k = 1 ->
  fadd (fmul k x) (fmul (fsub 1 k) y) = if k =? 1 then x else y.
Proof.
  intros Hx Hy Hk. apply mod_exact; [|destruct (_ =? _); auto].
  destruct Hk as [-> | ->]; [change (0 =? 1) with false|change (1 =? 1) with true]; cbv iota; estrip;
  apply eqm_eq; ring.
Qed.
Lemma bisec_int_CT c k a b : wf c -> hint c a -> hint c b -> valid c k -> a_val k = 0 \/ a_val k = 1 ->
  CT c (bisec_int I k a b) (fun r c' => hint c' r /\ i_times r = Z.max (i_times a) (i_times b)
     /\ val r = (if a_val k =? 1 then val a else val b)).
Proof.
  intros W (Ha & Ta & Ca) (Hb & Tb & Cb) Vk Hk. pose proof (hk_w _ _ Ha) as Wa. pose proof (hk_w _ _ Hb) as Wb.
  unfold bisec_int. set (s := if a_val k =? 1 then a else b).
  assert (Ws : iwf s) by (unfold s; destruct (_ =? _); auto).
  assert (Ts : i_times s <= Z.max (i_times a) (i_times b)) by (unfold s; destruct (_ =? _); lia).
  eapply CT_bind; [apply (mapM_limbs c _ (lv s)); auto|].
  { intros i c' Hi W' E'.
    destruct (hok_nth c a i Ha Hi) as (x & Nx & Vx & Ex). destruct (hok_nth c b i Hb Hi) as (y & Ny & Vy & Ey).
    eapply CT_nth_k; [exact Nx|]. eapply CT_nth_k; [exact Ny|].
    eapply CT_weaken; [apply bisec_CT; auto; vm|]. intros r c2 _ _ [V E]. split; [auto|].
    rewrite E, bisec_val by (try (apply Vx); try (apply Vy); auto). unfold s.
    destruct (_ =? _); auto. }
  intros ls c1 W1 E1 HL. cbv beta in HL.
  assert (Na : valid c (i_native a)) by (apply hk_n; auto). assert (Nb : valid c (i_native b)) by (apply hk_n; auto).
  eapply CT_bind; [apply bisec_CT; auto; vm|]. intros nt c2 W2 E2 [Vn En]. apply CT_ret; auto.
  rewrite bisec_val in En by (try (apply Na); try (apply Nb); auto).
  assert (LN := fun i => limbs_are_nth _ _ _ i HL). assert (LV := limbs_are_lval _ _ _ HL).
  rewrite <- (val_lsum I) in LV by (eapply wf_len; eauto).
  pose proof (wf_t _ _ _ Ws). pose proof (wf_t _ _ _ Wa). pose proof (wf_t _ _ _ Wb).
  pose proof LIMB_pos. pose proof (io_L3 _ _ IO).
  assert (0 < 2 ^ (wb mod 108)) by (apply Z.pow_pos_nonneg; [lia|apply Z.mod_pos_bound; lia]).
  pose proof (wb_pos w I IO).
  assert (VS : val s = if a_val k =? 1 then val a else val b) by (unfold s; destruct (_ =? _); reflexivity).
  split; [|split; [reflexivity|rewrite <- VS; exact LV]].
  split; [|split; cbn [i_times]; [lia|]].
  - split; cbn [i_limbs i_native]; [eapply limbs_are_valid; eapply limbs_are_mono; eauto|exact Vn|].
    constructor; unfold IntInv.lv, IntInv.val; cbn [i_limbs i_times i_native].
    + apply HL.
    + lia.
    + intros i Hi. rewrite LN by lia. pose proof (wf_low _ _ _ Ws i Hi). nia.
    + rewrite LN by lia. pose proof (wf_lead _ _ _ Ws). nia.
    + rewrite LV. pose proof (wf_val _ _ _ Ws). nia.
    + rewrite LV, En, VS. destruct (_ =? _); [apply (wf_nat _ _ _ Wa)|apply (wf_nat _ _ _ Wb)].
  - intros HT. unfold IntInv.val. cbn [i_limbs]. rewrite LV, VS. destruct (_ =? _); [apply Ca|apply Cb]; lia.
Qed.

Lemma int_mul_small_CT c a k : wf c -> hint c a -> 1 <= k < 16 ->
  CT c (int_mul_small_constant I a k) (fun r c' => hint c' r /\ val r ≡ val a * k ⟨w⟩).
Proof.
  intros W (Ha & Ta & Ca) Hk. pose proof (w_pos w w_prime) as WP.
  unfold int_mul_small_constant, THRESHOLD, OVERFLOW_LIMIT.
  apply CT_assert_k; [apply Z.ltb_lt; lia|].
  pose proof (wf_t _ _ _ (hk_w _ _ Ha)) as Ta0.
  eapply CT_bind with (Q := fun r c' => hok c' r /\ i_times r * k < 64 /\ val r ≡ val a ⟨w⟩
     /\ (i_times r = 1 -> val r < w)).
  - destruct (Z.leb_spec 64 (i_times a * k)).
    + eapply CT_weaken; [apply reduce_CT; auto|]. intros r c' _ _ (H1 & H2 & H3).
      split; [auto|]. split; [lia|]. split; [rewrite H3; apply mod_eqm|]. intros _. rewrite H3.
      apply Z.mod_pos_bound. lia.
    + apply CT_ret; auto. split; [auto|]. split; [lia|]. split; [reflexivity|auto].
  - intros a1 c1 W1 E1 (H1 & HT & EV & C1). clear Ha Ta Ca Ta0.
    pose proof (hk_w _ _ H1) as Wa. pose proof (wf_t _ _ _ Wa) as Ta. pose proof LIMB_pos.
    assert (LS : lsum (fun i => k * lv a1 i) L = k * val a1).
    { rewrite lsum_scale, <- !(val_lsum I) by (eapply wf_len; eauto). reflexivity. }
    assert (OP : forall i c', (i < L)%nat -> wf c' -> extends c1 c' ->
       CT c' (x <- mnth (i_limbs a1) i ;; sum_with_constant [(x, fof k)] None)
          (fun r c2 => valid c2 r /\ a_val r = k * lv a1 i)).
    { intros i c' Hi W' E'. destruct (hok_nth c1 a1 i H1 Hi) as (x & Nx & Vx & Ex).
      eapply CT_nth_k; [exact Nx|]. assert (valid c' x) by vm.
      eapply CT_weaken; [apply swc_CT; [auto|auto|vall|cbn; lia|discriminate]|].
      intros r c2 _ _ [V E]. split; [auto|]. eapply a_exact; [exact V| |].
      - rewrite E. unfold hlin. cbn [fold_right fst snd opt0]. rewrite Ex. estrip. apply eqm_eq. ring.
      - pose proof (lv_range I a_val a1 i Wa). nia. }
    destruct (Z.eq_dec (i_times a1 * k) 1) as [E1'|NE].
    + (* k = 1 and the operand is already reduced: nothing to reduce *)
      assert (k = 1 /\ i_times a1 = 1) as [-> T1] by nia. pose proof (io_L3 _ _ IO).
      eapply CT_bind; [apply (mapM_limbs c1 _ _ W1 OP)|]. intros ls c2 W2 E2 HL. cbv beta in HL.
      eapply CT_bind; [eapply native_of_CT; eauto|]. intros nt c3 W3 E3 [Vn En].
      assert (LN := fun i => limbs_are_nth _ _ _ i HL). assert (LV := limbs_are_lval _ _ _ HL).
      rewrite LS, Z.mul_1_l in LV.
      assert (HK : hok c3 (mkInt ls nt (i_times a1 * 1))).
      { split; cbn [i_limbs i_native]; [eapply limbs_are_valid; eapply limbs_are_mono; eauto|exact Vn|].
        constructor; unfold IntInv.lv, IntInv.val; cbn [i_limbs i_times i_native]; rewrite ?Z.mul_1_r.
        - apply HL.
        - lia.
        - intros i Hi. rewrite LN, Z.mul_1_l by lia. apply (wf_low _ _ _ Wa i Hi).
        - rewrite LN, Z.mul_1_l by lia. apply (wf_lead _ _ _ Wa).
        - rewrite LV. apply (wf_val _ _ _ Wa).
        - exact En. }
      eapply CT_weaken; [apply cond_reduce_CT; auto|].
      * intros _. unfold IntInv.val. cbn [i_limbs]. rewrite LV. apply C1. exact T1.
      * intros r c' _ _ [K1 K2]. split; [auto|]. rewrite K2. unfold IntInv.val at 1. cbn [i_limbs].
        rewrite LV, EV. apply eqm_eq. ring.
    + eapply CT_weaken; [apply (comb_CT c1 _ (fun i => k * lv a1 i)); [auto|exact OP|nia| | |]|].
      * intros i Hi. pose proof (wf_low _ _ _ Wa i Hi). nia.
      * pose proof (wf_lead _ _ _ Wa). nia.
      * rewrite LS. pose proof (wf_val _ _ _ Wa). nia.
      * intros r c' _ _ [K1 K2]. split; [auto|]. rewrite K2, LS, EV. apply eqm_eq. ring.
Qed.

(** ** Multiplication *)
Notation "'dl' d" := (fun i => nth i (map a_val d) 0) (at level 10).
Definition hcol (a b : aint) (d : list av) (p : nat) : Z :=
  conv (lv a) (lv b) p - conv (dl d) (wd w I) p.

Lemma hdl_out (d : list av) i : length d = L -> (L <= i)%nat -> nth i (map a_val d) 0 = 0.
Proof. intros H1 H2. apply nth_overflow. rewrite map_length. lia. Qed.

Lemma mul_column_CT c a b g d p : wf c -> hok c a -> hok c b -> limbs_are c g d -> (p < 2 * L - 1)%nat ->
  CT c (mul_column I a b d p) (fun r c' => valid c' r /\ a_val r ≡ hcol a b d p ⟨nmod⟩).
Proof.
  intros W Ha Hb Hd Hp. unfold mul_column. cbv zeta. pose proof (io_L3 _ _ IO) as H3.
  set (win := seq (p - (L - 1)) (Nat.min (p + 1) L - (p - (L - 1)))).
  eapply CT_bind.
  - apply (CT_mapM c _ win (fun i (t : mterm) c' => mterm_valid c' t /\ let '(x, y, z, k) := t in
        a_val x * a_val y + a_val z * k ≡ lv a i * lv b (p - i) - nth i (map a_val d) 0 * wd w I (p - i) ⟨nmod⟩));
      [auto| |].
    + intros i [[[x y] z] k] c1 c2 [(V1 & V2 & V3) K] E.
      split; [|exact K]. repeat split; apply (valid_mono c1 c2); auto.
    + intros i c' Hi W' E'. apply in_seq in Hi.
      destruct (hok_nth c a i Ha ltac:(lia)) as (x & Nx & Vx & Ex).
      destruct (hok_nth c b (p - i) Hb ltac:(lia)) as (y & Ny & Vy & Ey).
      destruct Hd as [Ld Hd]. destruct (Hd i ltac:(lia)) as (z & Nz & Vz & Ez).
      eapply CT_nth_k; [exact Nx|]. eapply CT_nth_k; [exact Ny|]. eapply CT_nth_k; [exact Nz|].
      eapply CT_nth_k; [apply w_limbs_nth; lia|]. apply CT_ret; [auto|].
      split; [split; [vm|split; vm]|]. rewrite Ex, Ey, (nth_map_error a_val _ _ _ Nz). estrip. apply eqm_eq. ring.
  - intros ts c1 W1 E1 HF. cbv beta in HF.
    eapply CT_weaken; [apply mawnl_CT; [auto|auto| |]|].
    + clear - HF. induction HF; constructor; tauto.
    + intros ->. apply Forall2_length in HF. unfold win in HF. rewrite seq_length in HF. cbn in HF. lia.
    + intros r c2 _ _ [V E]. split; [auto|]. rewrite E.
      assert (HS : hdot ts ≡ zsum (fun i => lv a i * lv b (p - i) - nth i (map a_val d) 0 * wd w I (p - i)) win ⟨nmod⟩).
      { clear - HF. induction HF as [|i [[[x y] z] k] l ts [_ H] _ IH]; [reflexivity|].
        cbn [hdot fold_right zsum]. fold (hdot ts). rewrite H, IH. reflexivity. }
      rewrite HS. unfold hcol. destruct Hd as [Ld Hd].
      rewrite (conv_window (lv a) (lv b) L p), (conv_window (dl d) (wd w I) L p).
      * rewrite <- zsum_sub. reflexivity.
      * intros i Hi. apply hdl_out; auto.
      * apply wd_out.
      * intros i Hi. apply lv_out with (I := I); [apply (hk_w _ _ Ha)|auto].
      * intros i Hi. apply lv_out with (I := I); [apply (hk_w _ _ Hb)|auto].
Qed.

Definition hpair (x : av * av) : Z := a_val (fst x) * LIMB + a_val (snd x).
Definition pvalid (c : ctx) (x : av * av) : Prop := valid c (fst x) /\ valid c (snd x).

Lemma mul_carry_CT c u : wf c -> valid c u -> (LIMB | a_val u) -> a_val u <= (LIMB * 2 ^ 18 - 1) * LIMB ->
  CT c (mul_carry I u) (fun r c' => pvalid c' r /\ LIMB * hpair r = a_val u /\ 0 <= hpair r <= LIMB * 2 ^ 18 - 1).
Proof.
  intros W V D B. unfold mul_carry. cbv zeta. pose proof LIMB_ge as LG. pose proof (io_L3 _ _ IO) as H3.
  apply CT_assert_k; [apply Z.eqb_eq; apply Z.mod_divide; [lia|exact D]|].
  assert (UV : 0 <= a_val u < nmod) by apply V.
  set (q := a_val u / LIMB). assert (UE : a_val u = LIMB * q).
  { unfold q. destruct D as [k Hk]. rewrite Hk. rewrite Z.div_mul by lia. ring. }
  assert (QB : 0 <= q <= LIMB * 2 ^ 18 - 1) by (clear - UE B UV LG; nia).
  pose proof (Z.div_mod q LIMB ltac:(lia)) as DM. pose proof (Z.mod_pos_bound q LIMB ltac:(lia)) as MB.
  eapply CT_bind; [apply assign_common_CT; auto; split; [apply Z.div_pos; lia|apply Z.div_lt_upper_bound; lia]|].
  intros vh c1 W1 E1 [Vh Eh].
  eapply CT_bind; [apply nonleading_CT; [auto|exact MB]|]. intros vl c2 W2 E2 [Vl El].
  eapply CT_nth_k; [apply coeffs_at; lia|]. eapply CT_nth_k; [apply coeffs_at; lia|].
  assert (valid c2 vh) by vm. assert (valid c1 u) by vm. assert (valid c2 u) by vm.
  assert (HP : hpair (vh, vl) = q) by (unfold hpair; cbn [fst snd]; rewrite Eh, El; lia).
  eapply CT_bind; [apply CT_one_line_with_last; [assumption|cbn;lia|cbn;lia|sok|sok|]|].
  { gunf. rewrite UE, <- HP. unfold hpair. cbn [fst snd]. estrip. apply eqm_eq.
    change (Z.of_nat 2) with 2. change (Z.of_nat 1) with 1. ring. }
  intros y c3 W3 E3 _. apply CT_ret; [auto|]. split; [split; vm|]. rewrite HP. auto.
Qed.

Section MulEq.
Variables (c0 : ctx) (a b rem : aint) (d : list av) (g : nat -> Z).
Hypothesis Ha : hok c0 a. Hypothesis Hb : hok c0 b. Hypothesis Hr : hok c0 rem.
Hypothesis Hd : limbs_are c0 g d.
Hypothesis Rd : forall i, (i < L)%nat -> 0 <= g i < LIMB.
Hypothesis Tr : i_times rem = 1.
Hypothesis EQ : val a * val b = lval (map a_val d) * w + val rem.

Lemma dl_range i : 0 <= nth i (map a_val d) 0 < LIMB.
Proof.
  pose proof LIMB_pos. destruct (Nat.lt_ge_cases i L) as [Hi|Hi].
  - rewrite (limbs_are_nth _ _ _ i Hd Hi). auto.
  - rewrite (hdl_out d i (proj1 Hd) Hi). lia.
Qed.
Lemma hlv63 x i : iwf x -> 0 <= lv x i < 63 * LIMB.
Proof. intros W. pose proof (lv_range I a_val x i W). pose proof (wf_t _ _ _ W). pose proof LIMB_pos. nia. Qed.

Lemma hcol_step V p : 0 <= V <= LIMB * 2 ^ 18 - 1 ->
  0 <= hcol a b d p - lv rem p + V + LIMB * borrow I - borrow I
  /\ hcol a b d p - lv rem p + V + LIMB * borrow I <= (LIMB * 2 ^ 18 - 1) * LIMB.
Proof.
  intros HV. pose proof (hk_w _ _ Ha) as Wa. pose proof (hk_w _ _ Hb) as Wb. pose proof (hk_w _ _ Hr) as Wr.
  assert (B := col_bounds w I IO (lv a) (lv b) (dl d) (lv rem) V p
    (fun i => lv_out I a_val a i (wf_len _ _ _ Wa)) (fun i => lv_out I a_val b i (wf_len _ _ _ Wb))
    (fun i => hdl_out d i (proj1 Hd)) (fun i => hlv63 a i Wa) (fun i => hlv63 b i Wb) dl_range
    ltac:(intros i; pose proof (lv_range I a_val rem i Wr) as R; rewrite Tr in R; lia) HV).
  exact B.
Qed.

Lemma col_total k : lsum (fun i => hcol a b d i - lv rem i) k ≡ 0 ⟨LIMB ^ Z.of_nat k⟩.
Proof.
  pose proof (hk_w _ _ Ha) as Wa. pose proof (hk_w _ _ Hb) as Wb. pose proof (hk_w _ _ Hr) as Wr.
  unfold hcol. rewrite !lsum_sub.
  rewrite (conv_lsum (lv b) L (fun i => lv_out I a_val b i (wf_len _ _ _ Wb)) L (lv a) k
     (fun i => lv_out I a_val a i (wf_len _ _ _ Wa))).
  rewrite (conv_lsum (wd w I) L (wd_out w I) L (dl d) k (fun i => hdl_out d i (proj1 Hd))).
  assert (ER : lsum (lv rem) k ≡ val rem ⟨LIMB ^ Z.of_nat k⟩).
  { rewrite (val_lsum I) by (eapply wf_len; eauto).
    destruct (Nat.le_ge_cases k L) as [Hk|Hk]; [symmetry; apply lsum_mod; auto|].
    apply eqm_eq. replace k with (L + (k - L))%nat by lia.
    generalize (k - L)%nat as e. induction e as [|e IHe]; [rewrite Nat.add_0_r; reflexivity|].
    rewrite Nat.add_succ_r. cbn [lsum]. rewrite IHe, (lv_out I a_val rem (L + e)%nat) by (auto; try eapply wf_len; eauto; lia). ring. }
  rewrite ER, (wd_lsum w I IO w_prime), <- !(val_lsum I) by (eapply wf_len; eauto).
  assert (ED : lsum (dl d) L = lval (map a_val d)) by (rewrite lval_lsum, map_length, (proj1 Hd); reflexivity).
  rewrite ED, EQ. apply eqm_eq. ring.
Qed.

Definition hmul_J (k : nat) (x : av * av) (c : ctx) : Prop :=
  pvalid c x /\ 0 <= hpair x <= LIMB * 2 ^ 18 - 1 /\
  lsum (fun i => hcol a b d i - lv rem i) k = LIMB ^ Z.of_nat k * (hpair x - borrow I).

Lemma hmul_step k V u c : wf c -> valid c u ->
  lsum (fun i => hcol a b d i - lv rem i) k = LIMB ^ Z.of_nat k * V ->
  a_val u = hcol a b d k - lv rem k + V + LIMB * borrow I -> a_val u <= (LIMB * 2 ^ 18 - 1) * LIMB ->
  CT c (mul_carry I u) (hmul_J (S k)).
Proof.
  intros W Vu HS EU BU. pose proof LIMB_ge as LG. pose proof (LIMB_pow_pos k) as PP.
  assert (HS' : lsum (fun i => hcol a b d i - lv rem i) (S k) = LIMB ^ Z.of_nat k * (a_val u - LIMB * borrow I)).
  { cbn [lsum]. rewrite HS, EU. ring. }
  eapply CT_weaken; [apply mul_carry_CT; auto|].
  - assert (K := col_total (S k)). rewrite HS', LIMB_pow_S in K.
    apply eqm_divide in K; [|clear - PP LG; nia].
    rewrite Z.sub_0_r in K. apply Z.mul_divide_cancel_l in K; [|lia].
    destruct K as [q Hq]. exists (q + borrow I). clear - Hq. lia.
  - intros r c' _ _ (H1 & H2 & H3). split; [exact H1|]. split; [exact H3|].
    rewrite HS', LIMB_pow_S, <- H2. ring.
Qed.

Lemma mul_limbs_CT c : wf c -> extends c0 c ->
  CT c (mul_equation_on_limbs I a b d rem) (fun _ _ => True).
Proof.
  intros W E0. unfold mul_equation_on_limbs, OVERFLOW_LIMIT.
  pose proof (hk_w _ _ Ha) as Wa. pose proof (hk_w _ _ Hb) as Wb. pose proof (hk_w _ _ Hr) as Wr.
  pose proof (wf_t _ _ _ Wa). pose proof (wf_t _ _ _ Wb).
  apply CT_assert_k; [apply Z.ltb_lt; lia|]. apply CT_assert_k; [apply Z.ltb_lt; lia|].
  apply CT_assert_k; [apply Z.eqb_eq; auto|]. pose proof (io_mul_L _ _ IO) as HM. pose proof (io_L3 _ _ IO) as H3.
  pose proof (wf_len _ _ _ Wr) as Lr. pose proof (io_mul_n _ _ IO) as MN. pose proof LIMB_ge as LG.
  eapply CT_bind.
  { apply (CT_mapM_seq _ (fun p r c' => valid c' r /\ a_val r ≡ hcol a b d p ⟨nmod⟩)); [auto| |].
    - intros i y c1 c2 [V K] E. split; [vm|auto].
    - intros i c' Hi W' E'. assert (E2 : extends c0 c') by (eapply extends_trans; eauto).
      eapply mul_column_CT; auto; [vm|vm|eapply limbs_are_mono; eauto|lia]. }
  intros limbs c1 W1 E1 [HL HC]. cbn [Nat.add] in HC. cbv zeta.
  assert (E01 : extends c0 c1) by (eapply extends_trans; eauto).
  set (bf := fadd (fmul (fof (Z.of_nat L)) (ri_limb_n I)) (fof 2)).
  assert (EB : bf ≡ borrow I ⟨nmod⟩).
  { unfold bf, borrow. rewrite (io_limb_n _ _ IO). estrip. reflexivity. }
  assert (ELN : ri_limb_n I ≡ LIMB ⟨nmod⟩) by (rewrite (io_limb_n _ _ IO); apply mod_eqm).
  destruct (HC 0%nat ltac:(lia)) as (l0 & Nl0 & V0 & C0). eapply CT_nth_k; [exact Nl0|].
  destruct (hok_nth c0 rem 0 Hr ltac:(lia)) as (r0 & Nr0 & Vr0 & Er0). eapply CT_nth_k; [exact Nr0|].
  assert (valid c1 r0) by vm.
  eapply CT_bind; [apply swc_CT; [auto|auto|vall|cbn; lia|]|].
  { intros k Hk. injection Hk as <-. apply mod_range; auto. }
  intros u c2 W2 E2 [Vu Hu].
  assert (BP : 0 <= borrow I) by (unfold borrow; lia).
  eapply CT_bind.
  { assert (B := hcol_step 0 0 ltac:(lia)).
    assert (EU : a_val u = hcol a b d 0 - lv rem 0 + 0 + LIMB * borrow I).
    { eapply a_exact; [exact Vu| |lia].
      rewrite Hu. unfold hlin. cbn [fold_right fst snd opt0]. rewrite Er0, C0.
      estrip. rewrite EB, ELN. apply eqm_eq. ring. }
    apply (hmul_step 0 0 u c2 W2 Vu); [cbn; ring|exact EU|lia]. }
  intros v0 c3 W3 E3 HJ0.
  assert (E03 : extends c0 c3) by (eapply extends_trans; [|exact E3]; eapply extends_trans; eauto).
  assert (E13 : extends c1 c3) by (eapply extends_trans; eauto).
  assert (N1 := coeffs_at 1 ltac:(lia)). assert (N0 := coeffs_at 0 ltac:(lia)).
  eapply CT_bind with (Q := hmul_J L).
  { replace L with (1 + (L - 1))%nat at 2 by lia.
    apply (CT_foldM_seq _ hmul_J); [auto|exact HJ0|].
    intros i s c4 Hi W4 E4 ((Vs1 & Vs2) & Bs & Hs).
    assert (E04 : extends c0 c4) by (eapply extends_trans; eauto).
    assert (E14 : extends c1 c4) by (eapply extends_trans; eauto).
    destruct (HC i ltac:(lia)) as (li & Nli & Vi & Ci). eapply CT_nth_k; [exact Nli|].
    destruct (hok_nth c0 rem i Hr ltac:(lia)) as (ri & Nri & Vri & Eri). eapply CT_nth_k; [exact Nri|].
    eapply CT_nth_k; [exact N1|]. eapply CT_nth_k; [exact N0|].
    assert (valid c4 ri) by vm. assert (valid c4 li) by vm.
    eapply CT_bind; [apply swc_CT; [auto|auto|vall|cbn; lia|]|].
    { intros k Hk. injection Hk as <-. apply mod_range; auto. }
    intros u' c5 W5 E5 [Vu' Hu'].
    assert (B := hcol_step (hpair s) i Bs).
    assert (EU : a_val u' = hcol a b d i - lv rem i + (hpair s - borrow I) + LIMB * borrow I).
    { eapply a_exact; [exact Vu'| |lia].
      rewrite Hu'. unfold hlin. cbn [fold_right fst snd opt0]. rewrite Eri, Ci.
      estrip. rewrite EB, ELN. unfold hpair.
      change (LIMB ^ Z.of_nat 0) with 1. change (LIMB ^ Z.of_nat 1) with (LIMB * 1). apply eqm_eq. ring. }
    apply (hmul_step i (hpair s - borrow I) u' c5 W5 Vu'); [exact Hs|exact EU|lia]. }
  intros v1 c4 W4 E4 HJ1. apply CT_assert_k; [apply Nat.leb_le; lia|].
  assert (E14 : extends c1 c4) by (eapply extends_trans; eauto).
  eapply CT_bind with (Q := hmul_J (ri_mul I)).
  { replace (ri_mul I) with (L + (ri_mul I - L))%nat at 2 by lia.
    apply (CT_foldM_seq _ hmul_J); [auto|exact HJ1|].
    intros i s c5 Hi W5 E5 ((Vs1 & Vs2) & Bs & Hs).
    assert (E15 : extends c1 c5) by (eapply extends_trans; eauto).
    destruct (HC i ltac:(lia)) as (li & Nli & Vi & Ci). eapply CT_nth_k; [exact Nli|].
    eapply CT_nth_k; [exact N1|]. eapply CT_nth_k; [exact N0|].
    assert (valid c5 li) by vm.
    eapply CT_bind; [apply swc_CT; [auto|auto|vall|cbn; lia|]|].
    { intros k Hk. injection Hk as <-. apply mod_range; auto. }
    intros u' c6 W6 E6 [Vu' Hu'].
    assert (B := hcol_step (hpair s) i Bs).
    assert (EU : a_val u' = hcol a b d i - lv rem i + (hpair s - borrow I) + LIMB * borrow I).
    { eapply a_exact; [exact Vu'| |lia].
      rewrite Hu'. unfold hlin. cbn [fold_right fst snd opt0]. rewrite Ci.
      rewrite (lv_out I a_val rem i Lr) by lia.
      estrip. rewrite EB, ELN. unfold hpair.
      change (LIMB ^ Z.of_nat 0) with 1. change (LIMB ^ Z.of_nat 1) with (LIMB * 1). apply eqm_eq. ring. }
    apply (hmul_step i (hpair s - borrow I) u' c6 W6 Vu'); [exact Hs|exact EU|lia]. }
  intros v2 c5 W5 E5 _. apply CT_ret; auto.
Qed.

Lemma mul_native_CT c dn : wf c -> extends c0 c -> valid c dn -> a_val dn = lval (map a_val d) mod nmod ->
  CT c (mul_equation_on_native I a b dn rem) (fun _ _ => True).
Proof.
  intros W E0 Vd Ed. unfold mul_equation_on_native.
  pose proof (hk_n _ _ Ha). pose proof (hk_n _ _ Hb). pose proof (hk_n _ _ Hr).
  assert (valid c (i_native a)) by vm. assert (valid c (i_native b)) by vm. assert (valid c (i_native rem)) by vm.
  pose proof (hk_w _ _ Ha) as Wa. pose proof (hk_w _ _ Hb) as Wb. pose proof (hk_w _ _ Hr) as Wr.
  eapply CT_bind; [apply CT_one_line; [assumption|cbn;lia|cbn;lia|sok| |]|].
  { gunf. rewrite (wf_nat _ _ _ Wa), (wf_nat _ _ _ Wb), (wf_nat _ _ _ Wr), Ed, (io_w_native _ _ IO). estrip.
    transitivity (lval (map a_val d) * w + val rem - val a * val b); [apply eqm_eq; ring|].
    rewrite EQ. apply eqm_eq. ring. }
  { intros (H' & _). cbn [map snd pa pu] in H'. discriminate. }
  intros x c' W' E' _. apply CT_ret; auto.
Qed.
End MulEq.

Lemma limb_at_range' (x : Z) (i : nat) : (i < L)%nat -> 0 <= limb_at x i < LIMB.
Proof. intros _. apply limb_at_range. Qed.

(** The two equations for an honest quotient and remainder. *)
Lemma mul_eqs_CT c a b rem d dn q : wf c -> hok c a -> hok c b -> hok c rem -> i_times rem = 1 ->
  limbs_are c (limb_at q) d -> lval (map a_val d) = q -> valid c dn -> a_val dn = q mod nmod ->
  val a * val b = q * w + val rem ->
  CT c (mul_equation_on_limbs I a b d rem ;;; mul_equation_on_native I a b dn rem) (fun _ _ => True).
Proof.
  intros W Ha Hb Hr Tr Hd Ed Vd En EQ. subst q.
  eapply CT_bind; [apply (mul_limbs_CT c a b rem d _ Ha Hb Hr Hd (limb_at_range' _) Tr EQ c W (extends_refl c))|].
  intros ? c1 W1 E1 _. apply (mul_native_CT c a b rem d Ha Hb Hr EQ c1 dn W1 E1); [vm|exact En].
Qed.

Lemma w_dbits : w < 2 ^ ri_d_bits I.
Proof.
  pose proof (w_lt w I IO w_prime). pose proof (io_dbits _ _ IO). pose proof (io_wb1 _ _ IO).
  assert (2 ^ wb <= 2 ^ ri_d_bits I) by (apply Z.pow_le_mono_r; lia). lia.
Qed.

Lemma int_mul_CT c a b : wf c -> hok c a -> hok c b ->
  CT c (int_mul I a b) (fun r c' => hint c' r /\ i_times r = 1 /\ val r = (val a * val b) mod w).
Proof.
  intros W Ha Hb. unfold int_mul. cbv zeta. rewrite !get_w_bn_val, (io_w _ _ IO) by (eapply wf_len; eapply hk_w; eauto).
  pose proof (w_pos w w_prime) as WP. set (p := val a * val b).
  pose proof (hk_w _ _ Ha) as Wa. pose proof (hk_w _ _ Hb) as Wb.
  pose proof (wf_val _ _ _ Wa) as Va. pose proof (wf_val _ _ _ Wb) as Vb.
  pose proof (wf_t _ _ _ Wa) as Ta. pose proof (wf_t _ _ _ Wb) as Tb.
  pose proof (Z.mod_pos_bound p w ltac:(lia)) as RM. pose proof (w_le w I IO) as WL.
  pose proof (w_lt w I IO w_prime) as WLT. pose proof (wb_pos w I IO) as WBP.
  assert (P1 : 0 <= p <= (2 ^ wb * 63 - 1) * (2 ^ wb * 63 - 1)).
  { unfold p. assert (val a <= 2 ^ wb * 63 - 1) by nia. assert (val b <= 2 ^ wb * 63 - 1) by nia.
    split; [nia|]. apply Z.mul_le_mono_nonneg; lia. }
  pose proof (Z.div_mod p w ltac:(lia)) as DM.
  assert (QB : 0 <= p / w < 2 ^ ri_d_bits I).
  { split; [apply Z.div_pos; lia|]. pose proof (io_mul_a _ _ IO) as K. clear - P1 DM RM K WP.
    assert (w * (p / w) < w * 2 ^ ri_d_bits I) by lia. nia. }
  eapply CT_bind; [apply assign_w_CT; [auto|lia]|]. intros rem c1 W1 E1 (Hr & Tr & Vr).
  eapply CT_bind; [apply assign_d_CT; [auto|exact QB]|]. intros d c2 W2 E2 (Ld & Vd & Ed & Ld').
  assert (hok c1 a) by vm. assert (hok c1 b) by vm. assert (hok c2 a) by vm. assert (hok c2 b) by vm.
  assert (hok c2 rem) by vm.
  apply CT_assoc. eapply CT_bind.
  { apply (mul_eqs_CT c2 a b rem (fst d) (snd d) (p / w)); auto.
    - rewrite (limbs_are_lval _ _ _ Ld). exact Ld'.
    - rewrite Vr. fold p. lia. }
  intros ? c3 W3 E3 _. apply CT_ret; [auto|]. split; [|split; auto].
  split; [vm|]. split; [lia|]. intros _. rewrite Vr. lia.
Qed.

(** ** Zero tests *)
Lemma hlv1 a i : iwf a -> i_times a = 1 -> 0 <= lv a i < LIMB.
Proof. intros W E. pose proof (lv_range I a_val a i W) as R. rewrite E in R. lia. Qed.

Lemma hsum_range l : (forall i, 0 <= nth i (map a_val l) 0 < LIMB) -> (length l <= L)%nat ->
  0 <= fold_right (fun x acc => a_val x + acc) 0 l < nmod.
Proof.
  intros H HL. assert (K : 0 <= fold_right (fun x acc => a_val x + acc) 0 l <= Z.of_nat (length l) * LIMB).
  { clear HL. induction l as [|x l IH]; cbn [fold_right length]; [lia|].
    specialize (IH (fun i => H (S i))). pose proof (H 0%nat) as H0. cbn [map nth] in H0. lia. }
  pose proof (L_small w I IO). pose proof LIMB_pos. nia.
Qed.
Lemma hsum_zero l : (forall i, 0 <= nth i (map a_val l) 0 < LIMB) ->
  fold_right (fun x acc => a_val x + acc) 0 l = 0 <-> lval (map a_val l) = 0.
Proof.
  pose proof LIMB_pos.
  assert (NN : forall l, (forall i, 0 <= nth i (map a_val l) 0 < LIMB) ->
     0 <= fold_right (fun x acc => a_val x + acc) 0 l /\ 0 <= lval (map a_val l)).
  { clear l. induction l as [|x l IH]; intros H'; cbn [fold_right map lval]; [lia|].
    specialize (IH (fun i => H' (S i))). pose proof (H' 0%nat) as H0. cbn [map nth] in H0. nia. }
  induction l as [|x l IH]; intros H'; cbn [fold_right map lval]; [tauto|].
  specialize (IH (fun i => H' (S i))). pose proof (H' 0%nat) as H0. cbn [map nth] in H0.
  pose proof (NN l (fun i => H' (S i))). nia.
Qed.

Lemma hlin_ones l : hlin (map (fun x => (x, 1)) l) = fold_right (fun x acc => a_val x + acc) 0 l.
Proof.
  unfold hlin. induction l as [|x l IH]; [reflexivity|]. cbn [map fold_right fst snd]. rewrite IH. ring.
Qed.
Lemma limb_sum_CT c a : wf c -> hok c a -> i_times a = 1 ->
  CT c (sum_with_constant (map (fun v => (v, 1)) (i_limbs a)) None)
     (fun r c' => valid c' r /\ (a_val r = 0 <-> val a = 0)).
Proof.
  intros W Ha Ta. pose proof (hk_w _ _ Ha) as Wa. pose proof (io_L3 _ _ IO).
  eapply CT_weaken; [apply swc_CT; [auto|auto| | |discriminate]|].
  - pose proof (hk_l _ _ Ha) as HF. clear - HF. induction HF; constructor; auto.
  - rewrite map_length, (wf_len _ _ _ Wa). lia.
  - intros r c' _ _ [V E]. split; [auto|]. rewrite hlin_ones in E. cbn [opt0] in E. rewrite Z.add_0_l in E.
    apply (a_exact c') in E; [|auto|].
    + rewrite E. apply hsum_zero. intros i. apply (hlv1 a i Wa Ta).
    + apply hsum_range; [intros i; apply (hlv1 a i Wa Ta)|rewrite (wf_len _ _ _ Wa); lia].
Qed.

Definition b2z (b : bool) : Z := if b then 1 else 0.
Lemma b2z_and x y : fmul (b2z x) (b2z y) = b2z (x && y).
Proof. pose proof (prime_ge_2 _ n_prime). destruct x, y; apply Z.mod_small; cbn; lia. Qed.
Lemma b2z_or x y : fsub (fadd (b2z x) (b2z y)) (fmul (b2z x) (b2z y)) = b2z (x || y).
Proof.
  pose proof (prime_ge_2 _ n_prime). apply mod_exact; [|destruct x, y; cbn; lia]. estrip.
  destruct x, y; cbn [b2z orb]; apply eqm_eq; reflexivity.
Qed.

Lemma is_pure_zero_CT c a : wf c -> hok c a -> i_times a = 1 ->
  CT c (is_pure_zero a) (fun r c' => valid c' r /\ a_val r = b2z (val a =? 0)).
Proof.
  intros W Ha Ta. unfold is_pure_zero. eapply CT_bind; [apply limb_sum_CT; auto|].
  intros s c1 W1 E1 [V H]. eapply CT_weaken; [apply is_zero_CT; auto|].
  intros r c' _ _ [Vr Er]. split; [auto|]. rewrite Er. unfold b2z.
  destruct (Z.eqb_spec (a_val s) 0), (Z.eqb_spec (val a) 0); tauto.
Qed.

(** The digits of a reduced integer decide whether it is the modulus; the code looks
    only at the native residue and the first limbs. *)
Lemma is_pure_w_CT c a : wf c -> hok c a -> i_times a = 1 ->
  CT c (is_pure_w_modulus I a) (fun r c' => valid c' r /\ a_val r = b2z (val a =? w)).
Proof.
  intros W Ha Ta. unfold is_pure_w_modulus. apply CT_assert_k; [apply Z.eqb_eq; auto|].
  pose proof (hk_w _ _ Ha) as Wa. pose proof (n_pos n_prime) as NP. pose proof (hk_n _ _ Ha) as Vn.
  eapply CT_bind; [apply add_constant_CT; [auto|auto|auto|apply mod_range; auto]|].
  intros nd c1 W1 E1 [Vnd End]. eapply CT_bind; [apply is_zero_CT; auto|].
  intros e0 c2 W2 E2 [Ve0 Ee0]. pose proof (io_pure_L _ _ IO) as HP.
  set (E := fun k => (val a mod nmod =? w mod nmod) && forallb (fun i => lv a i =? wd w I i) (seq 0 k)).
  eapply CT_weaken.
  - apply (CT_foldM_seq _ (fun k e c' => valid c' e /\ a_val e = b2z (E k)));
      [auto| |].
    + split; [auto|]. rewrite Ee0, End. unfold E. cbn [seq forallb]. rewrite andb_true_r.
      rewrite (wf_nat _ _ _ Wa), (io_w_native _ _ IO). unfold b2z.
      assert (K : fadd (val a mod nmod) (fneg (fof w)) = 0 <-> val a mod nmod = w mod nmod).
      { split; intros K.
        - apply eqm_sub_0. transitivity (fadd (val a mod nmod) (fneg (fof w))); [|rewrite K; reflexivity].
          estrip. reflexivity.
        - apply mod_exact; [|lia]. estrip. apply eqm_sub_0 in K. exact K. }
      destruct (Z.eqb_spec (fadd (val a mod nmod) (fneg (fof w))) 0), (Z.eqb_spec (val a mod nmod) (w mod nmod)); tauto.
    + intros i s c3 Hi W3 E3 [Vs Es]. cbn [Nat.add] in Hi.
      destruct (hok_nth c a i Ha ltac:(lia)) as (x & Nx & Vx & Ex). eapply CT_nth_k; [exact Nx|].
      eapply CT_nth_k; [apply w_limbs_nth; lia|].
      assert (valid c1 x) by vm. assert (valid c2 x) by vm. assert (valid c3 x) by vm.
      eapply CT_bind; [apply add_constant_CT; [auto|auto|auto|apply mod_range; auto]|].
      intros ld c4 W4 E4 [Vld Eld]. eapply CT_bind; [apply is_zero_CT; auto|].
      intros e c5 W5 E5 [Ve Ee]. assert (valid c4 s) by vm. assert (valid c5 s) by vm.
      eapply CT_weaken; [apply and_CT; auto|]. intros r c6 _ _ [Vr Er]. split; [auto|].
      assert (EE : a_val e = b2z (lv a i =? wd w I i)).
      { rewrite Ee, Eld, Ex. unfold b2z.
        pose proof (hlv1 a i Wa Ta) as R1. pose proof (wd_range w I i) as R2.
        pose proof n_gt as NG. pose proof LIMB_pos.
        assert (K : fadd (lv a i) (fneg (wd w I i)) = 0 <-> lv a i = wd w I i).
        { split; intros K.
          - apply (eqm_small nmod); [|lia|lia]. apply eqm_sub_0.
            transitivity (fadd (lv a i) (fneg (wd w I i))); [|rewrite K; reflexivity]. estrip. reflexivity.
          - apply mod_exact; [|lia]. rewrite K. estrip. apply eqm_eq. ring. }
        destruct (Z.eqb_spec (fadd (lv a i) (fneg (wd w I i))) 0), (Z.eqb_spec (lv a i) (wd w I i)); tauto. }
      rewrite Er, Es, EE, b2z_and. f_equal. unfold E. rewrite seq_S, forallb_app. cbn [forallb Nat.add].
      rewrite andb_true_r, andb_assoc. reflexivity.
  - intros r c' _ _ [Vr Er]. split; [auto|]. rewrite Er. f_equal. cbn [Nat.add]. unfold E.
    apply Bool.eq_iff_eq_true. rewrite andb_true_iff, !Z.eqb_eq, forallb_forall. split.
    + intros [K1 K2]. pose proof (wf_val _ _ _ Wa) as VA. rewrite Ta, Z.mul_1_l in VA.
      pose proof (w_lt w I IO w_prime). pose proof (w_pos w w_prime). pose proof (io_pure _ _ IO).
      apply (crt_eq nmod (LIMB ^ Z.of_nat (ri_pure I))); [lia|apply LIMB_pow_pos|exact K1| |lia|lia].
      rewrite (val_lsum I) by (eapply wf_len; eauto).
      transitivity (lsum (wd w I) L); [|rewrite (wd_lsum w I IO w_prime); reflexivity].
      rewrite (lsum_mod (lv a) _ _ HP). rewrite (lsum_mod (wd w I) _ _ HP).
      apply eqm_eq. apply lsum_ext. intros i Hi. apply Z.eqb_eq, K2, in_seq. lia.
    + intros K. split; [rewrite K; reflexivity|]. intros i Hi. apply in_seq in Hi. apply Z.eqb_eq.
      apply (lsum_eq_digits (lv a) (wd w I) L).
      * intros j _. apply (hlv1 a j Wa Ta).
      * intros j _. apply (wd_range w I j).
      * rewrite <- (val_lsum I) by (eapply wf_len; eauto). rewrite K, (wd_lsum w I IO w_prime). reflexivity.
      * lia.
Qed.

Lemma is_int_zero_CT c a : wf c -> hok c a -> (i_times a = 1 -> val a < w) ->
  CT c (is_int_zero I a) (fun r c' => valid c' r /\ a_val r = b2z (val a mod w =? 0)).
Proof.
  intros W Ha Ca. unfold is_int_zero. eapply CT_bind; [apply reduce_CT; auto|].
  intros a1 c1 W1 E1 (H1 & T1 & V1). pose proof (w_pos w w_prime) as WP.
  pose proof (Z.mod_pos_bound (val a) w ltac:(lia)) as MB.
  eapply CT_bind; [apply is_pure_zero_CT; auto|]. intros z c2 W2 E2 [Vz Ez].
  assert (hok c2 a1) by vm.
  eapply CT_bind; [apply is_pure_w_CT; auto|]. intros m c3 W3 E3 [Vm Em].
  assert (valid c3 z) by vm.
  eapply CT_weaken; [apply or_CT; auto|]. intros r c' _ _ [V E]. split; [auto|].
  rewrite E, Ez, Em, b2z_or, V1. f_equal. destruct (Z.eqb_spec (val a mod w) w); [lia|]. apply orb_false_r.
Qed.

Lemma is_int_equal_CT c a b : wf c -> hint c a -> hint c b ->
  CT c (is_int_equal I a b) (fun r c' => valid c' r /\ a_val r = b2z ((val a - val b) mod w =? 0)).
Proof.
  intros W Ha Hb. unfold is_int_equal. eapply CT_bind; [apply int_sub_CT; auto|].
  intros d c1 W1 E1 [(Hd & Td & Cd) Vd]. eapply CT_weaken; [apply is_int_zero_CT; auto|].
  intros r c' _ _ [V E]. split; [auto|]. rewrite E, Vd. reflexivity.
Qed.

Lemma assert_int_equal_CT c a b : wf c -> hint c a -> hint c b -> val a ≡ val b ⟨w⟩ ->
  CT c (assert_int_equal I a b) (fun _ _ => True).
Proof.
  intros W Ha Hb EQ. unfold assert_int_equal. eapply CT_bind; [apply int_sub_CT; auto|].
  intros d c1 W1 E1 [(Hd & Td & Cd) Vd]. eapply CT_bind; [apply reduce_CT; auto|].
  intros d1 c2 W2 E2 (H1 & T1 & V1). eapply CT_bind; [apply limb_sum_CT; auto|].
  intros s c3 W3 E3 [Vs Hs]. apply assert_constant_CT; auto. apply Hs.
  rewrite V1. apply eqm_0_iff. rewrite Vd. apply eqm_sub_0 in EQ. exact EQ.
Qed.

Lemma assign_int_constant_CT c x : wf c -> 0 <= x < w ->
  CT c (assign_int_constant I x) (fun r c' => hint c' r /\ i_times r = 1 /\ val r = x).
Proof.
  intros W Hx. unfold assign_int_constant. pose proof (w_lt w I IO w_prime). pose proof (io_L3 _ _ IO).
  pose proof pow_wb_LIMB. pose proof LIMB_pos. pose proof (n_pos n_prime). pose proof n_gt as NG.
  assert (XL : 0 <= x < LIMB ^ Z.of_nat L) by lia.
  assert (E : bn_to_limb_le_n L x = map (fun i => fof (limb_at x i)) (seq 0 L)).
  { unfold bn_to_limb_le_n, bn_to_limb_le. apply map_map. }
  eapply CT_bind with (Q := fun ls c' => limbs_are c' (limb_at x) ls).
  - rewrite E. eapply CT_weaken.
    + apply (CT_mapM c _ _ (fun k r c' => valid c' r /\ a_val r = k)); [auto| |].
      * intros k r c1 c2 [V K] E'. split; [vm|auto].
      * intros k c' Hk W' E'. apply in_map_iff in Hk as (i & <- & _). apply assign_constant_CT; auto.
        apply mod_range; auto.
    + intros ls c' _ _ HF. split.
      * apply Forall2_length in HF. rewrite map_length, seq_length in HF. auto.
      * intros i Hi.
        assert (K : nth_error (map (fun i => fof (limb_at x i)) (seq 0 L)) i = Some (fof (limb_at x i)))
          by (apply (nth_error_map_seq (fun i => fof (limb_at x i))); auto).
        destruct (Forall2_nth_error_l _ _ _ HF _ _ K) as (y & Hy & Vy & Q). exists y. split; [exact Hy|].
        split; [auto|]. rewrite Q. apply Z.mod_small. pose proof (limb_at_range x i). lia.
  - intros ls c1 W1 E1 HL. cbv beta in HL.
    eapply CT_bind; [apply assign_constant_CT; auto; apply mod_range; auto|].
    intros nt c2 W2 E2 [Vn En]. apply CT_ret; [auto|].
    assert (LN := fun i => limbs_are_nth _ _ _ i HL). assert (LV := limbs_are_lval _ _ _ HL).
    rewrite (lsum_limb_at x XL) in LV.
    assert (VX : val (mkInt ls nt 1) = x) by exact LV.
    split; [|split; [reflexivity|exact LV]].
    split; [|split; [cbn; lia|intros _; lia]].
    split; cbn [i_limbs i_native]; [eapply limbs_are_valid; eapply limbs_are_mono; eauto|exact Vn|].
    constructor; unfold IntInv.lv, IntInv.val; cbn [i_limbs i_times i_native]; rewrite ?Z.mul_1_l.
    + apply HL.
    + lia.
    + intros i Hi. rewrite LN by lia. apply limb_at_range.
    + rewrite LN by lia. apply (lead_limb w I IO). pose proof (w_lt w I IO w_prime). lia.
    + rewrite LV. lia.
    + rewrite LV, En. unfold fof. rewrite Zmod_mod. reflexivity.
Qed.

Lemma int_div_CT c a b : wf c -> hok c a -> hok c b -> (i_times a = 1 -> val a < w) -> (i_times b = 1 -> val b < w) ->
  CT c (int_div I a b) (fun r c' => valid c' (fst r) /\ a_val (fst r) = b2z (val b mod w =? 0)
     /\ hint c' (snd r) /\ i_times (snd r) = 1
     /\ (val b mod w <> 0 -> val b * val (snd r) ≡ val a ⟨w⟩) /\ (val b mod w = 0 -> val (snd r) = 0)).
Proof.
  intros W Ha Hb Ca Cb. unfold int_div. pose proof (w_pos w w_prime) as WP.
  pose proof (w_lt w I IO w_prime) as WLT. pose proof (io_L3 _ _ IO). pose proof (n_pos n_prime) as NP.
  eapply CT_bind; [apply reduce_CT; auto|]. intros b1 c1 W1 E1 (Hb1 & Tb1 & Vb1).
  pose proof (Z.mod_pos_bound (val b) w ltac:(lia)) as MBb. pose proof (Z.mod_pos_bound (val a) w ltac:(lia)) as MBa.
  eapply CT_bind; [apply is_int_zero_CT; [auto|auto|lia]|]. intros z c2 W2 E2 [Vz Ez].
  rewrite Vb1, Zmod_mod in Ez.
  eapply CT_bind; [apply not_CT; auto|]. intros k c3 W3 E3 [Vk Ek].
  assert (hok c1 a) by vm. assert (hok c2 a) by vm. assert (hok c3 a) by vm.
  assert (Ek' : a_val k = b2z (negb (val b mod w =? 0))).
  { rewrite Ek, Ez. apply mod_exact; [|destruct (_ =? 0); cbn; lia]. apply eqm_eq.
    destruct (_ =? 0); reflexivity. }
  clear Ek. assert (K01 : a_val k = 0 \/ a_val k = 1) by (rewrite Ek'; destruct (_ =? 0); cbn; auto).
  eapply CT_bind; [apply reduce_CT; auto|]. intros a1 c4 W4 E4 (Ha1 & Ta1 & Va1).
  pose proof (hk_w _ _ Ha1) as Wa1.
  assert (MS : forall c' x, wf c' -> valid c' x -> valid c' k -> CT c' (mul x k) (fun r c2 => valid c2 r /\ a_val r = a_val k * a_val x)).
  { intros c' x W' Vx Vk'. eapply CT_weaken; [apply mul_CT; auto|]. intros r c'' _ _ [V E]. split; [auto|].
    rewrite E. apply mod_exact; [apply eqm_eq; ring|]. pose proof (proj2 Vx). destruct K01 as [-> | ->]; lia. }
  assert (valid c4 k) by vm.
  eapply CT_bind.
  { apply (mapM_limbs c4 _ (fun i => a_val k * lv a1 i)); [auto|].
    intros i c' Hi W' E'. destruct (hok_nth c4 a1 i Ha1 Hi) as (x & Nx & Vx & Ex).
    eapply CT_nth_k; [exact Nx|]. rewrite <- Ex. apply MS; auto; vm. }
  intros ls c5 W5 E5 HL. cbv beta in HL.
  pose proof (hk_n _ _ Ha1). assert (valid c5 (i_native a1)) by vm. assert (valid c5 k) by vm.
  eapply CT_bind; [apply MS; auto|]. intros nt c6 W6 E6 [Vn En]. cbv zeta.
  assert (LN := fun i => limbs_are_nth _ _ _ i HL). assert (LV := limbs_are_lval _ _ _ HL).
  rewrite lsum_scale, <- (val_lsum I) in LV by (eapply wf_len; eauto).
  set (a' := mkInt ls nt (i_times a1)).
  assert (VA' : val a' = a_val k * val a1) by exact LV.
  assert (Ha' : hok c6 a').
  { pose proof LIMB_pos. pose proof (wb_pos w I IO).
    assert (0 < 2 ^ (wb mod 108)) by (apply Z.pow_pos_nonneg; [lia|apply Z.mod_pos_bound; lia]).
    split; unfold a'; cbn [i_limbs i_native]; [eapply limbs_are_valid; eapply limbs_are_mono; eauto|exact Vn|].
    constructor; unfold IntInv.lv, IntInv.val; cbn [i_limbs i_times i_native]; rewrite ?Ta1.
    - apply HL.
    - lia.
    - intros i Hi. rewrite LN by lia. pose proof (wf_low _ _ _ Wa1 i Hi) as R. rewrite Ta1 in R.
      destruct K01 as [-> | ->]; lia.
    - rewrite LN by lia. pose proof (wf_lead _ _ _ Wa1) as R. rewrite Ta1 in R. destruct K01 as [-> | ->]; lia.
    - rewrite LV. pose proof (wf_val _ _ _ Wa1) as R. rewrite Ta1 in R. destruct K01 as [-> | ->]; lia.
    - rewrite LV, En, (wf_nat _ _ _ Wa1).
      destruct K01 as [-> | ->]; rewrite ?Z.mul_0_l, ?Z.mul_1_l; [rewrite Zmod_0_l|]; reflexivity. }
  rewrite !get_w_bn_val, (io_w _ _ IO) by (eapply wf_len; eapply hk_w; eauto).
  rewrite VA', Vb1, Zmod_mod.
  set (va := a_val k * val a1). set (vb := val b mod w).
  assert (Bva : 0 <= va < w) by (unfold va; rewrite Va1; destruct K01 as [-> | ->]; lia).
  set (q := match zinv w vb with Some bi => (va mod w) * bi mod w | None => 0 end).
  assert (Bq : 0 <= q < w).
  { unfold q. destruct (zinv w vb); [apply Z.mod_pos_bound|]; lia. }
  assert (Q1 : vb * q ≡ va ⟨w⟩ /\ (vb = 0 -> q = 0)).
  { unfold q. destruct (Z.eq_dec vb 0) as [E0|N0].
    - rewrite (zinv_none w vb w_prime) by (rewrite E0; apply Zmod_0_l). split; [|auto].
      unfold va. rewrite Ek'. fold vb. rewrite E0. cbn [Z.eqb negb b2z]. reflexivity.
    - destruct (zinv_some w vb w_prime) as [bi Hbi]; [rewrite Z.mod_small by (unfold vb; lia); auto|].
      rewrite Hbi. split; [|lia]. destruct (zinv_correct w vb bi w_prime Hbi) as [K _].
      rewrite !mod_eqm. transitivity ((vb * bi) * va); [apply eqm_eq; ring|]. rewrite K. apply eqm_eq. ring. }
  destruct Q1 as [Q1 Q0].
  assert (QD : (w | vb * q - va)) by (apply eqm_divide; [lia|auto]). destruct QD as [dq Hdq].
  assert (Bvb : 0 <= vb < w) by auto.
  assert (PQ : 0 <= vb * q) by (apply Z.mul_nonneg_nonneg; lia).
  assert (D0 : 0 <= dq) by (clear - Hdq PQ Bva; nia).
  apply CT_assert_k; [apply Z.leb_le; clear - Hdq D0 WP; nia|].
  assert (DE : (vb * q - va) / w = dq) by (rewrite Hdq; apply Z.div_mul; lia).
  rewrite DE.
  assert (D1 : dq < w) by (clear - Hdq D0 WP Bvb Bq Bva; nia).
  pose proof w_dbits as WDB.
  eapply CT_bind; [apply assign_w_CT; [auto|lia]|]. intros qq c7 W7 E7 (Hq & Tq & Vq).
  eapply CT_bind; [apply assign_d_CT; [auto|lia]|]. intros d c8 W8 E8 (Ld & Vd & Ed & Ld').
  assert (hok c2 b1) by vm. assert (hok c3 b1) by vm. assert (hok c4 b1) by vm. assert (hok c5 b1) by vm.
  assert (hok c6 b1) by vm. assert (hok c7 b1) by vm. assert (hok c8 b1) by vm.
  assert (hok c7 a') by vm. assert (hok c8 a') by vm. assert (hok c8 qq) by vm.
  apply CT_assoc. eapply CT_bind.
  { apply (mul_eqs_CT c8 b1 qq a' (fst d) (snd d) dq); auto.
    - rewrite (limbs_are_lval _ _ _ Ld). exact Ld'.
    - rewrite Vb1, Vq, VA'. fold vb va. lia. }
  intros ? c9 W9 E9 _. apply CT_ret; [auto|]. cbn [fst snd].
  assert (valid c3 z) by vm. assert (valid c4 z) by vm. assert (valid c5 z) by vm. assert (valid c6 z) by vm.
  assert (valid c7 z) by vm. assert (valid c8 z) by vm.
  split; [vm|]. split; [auto|]. split.
  { split; [vm|]. split; [lia|]. intros _. lia. }
  split; [auto|]. split.
  - intros N0. fold vb in N0. rewrite Vq. transitivity (vb * q); [unfold vb; rewrite mod_eqm; reflexivity|].
    rewrite Q1. unfold va. rewrite Ek'. fold vb. destruct (Z.eqb_spec vb 0); [tauto|]. cbn [negb b2z].
    rewrite Va1, mod_eqm. apply eqm_eq. ring.
  - intros Z0. rewrite Vq. apply Q0. exact Z0.
Qed.

Lemma int_unsafe_invert_CT c x : wf c -> hint c x -> val x mod w <> 0 ->
  CT c (int_unsafe_invert I x) (fun r c' => hint c' r /\ i_times r = 1 /\ val x * val r ≡ 1 ⟨w⟩).
Proof.
  intros W Hx NZ. unfold int_unsafe_invert. pose proof (prime_ge_2 _ w_prime).
  eapply CT_bind; [apply assign_int_constant_CT; [auto|lia]|]. intros one c1 W1 E1 ((H1 & _) & T1 & V1).
  destruct Hx as (Hx & Tx & Cx). assert (hok c1 x) by vm.
  eapply CT_bind; [apply int_div_CT; auto; lia|]. intros [z r] c2 W2 E2 (Vz & Ez & Hr & Tr & HQ & _). cbn [fst snd] in *.
  eapply CT_bind; [apply assert_false_CT; auto|].
  { rewrite Ez. destruct (Z.eqb_spec (val x mod w) 0); [tauto|reflexivity]. }
  intros ? c3 W3 E3 _. apply CT_ret; [auto|]. split; [eapply hint_mono; eauto|]. split; [auto|].
  rewrite HQ, V1 by auto. reflexivity.
Qed.
End Complete.
