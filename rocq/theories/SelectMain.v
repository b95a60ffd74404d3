(** Proofs of the select chip properties (C35, C36, C49) from the gadget lemmas. *)
From Verif Require Import Msm ParWindows MsmProofs MsmSound MsmTop SelectMsm MsmMain.
From Verif Require Import Prelude FieldZ Circuit Context Spec Logic ModArith Prims BaseChip BaseProofs
  RangeInfo RangeChip IntegerChip SpecInt InfoProofs IntArith RangeProofs IntInv IntSound IntComplete IntBridge
  IntRes EccChip SpecEcc Curve EccArith EccProofs EccHonest EccBridge SpecMsm PointSum ScalarChip ScalarProofs
  SpecSelect SelectProofs NoCache CacheLog SpecCalls Moduli Fields Checker FastCheck NativeMain IntMain EccMain.
Section Hist.
Context {NM : NMod}.
Definition PS (c : ctx) (p : Z) : Prop :=
  wf c /\ 0 <= p /\ (forall e, cached_once c e)
  /\ (forall r e, cache_row c r e -> exists G i k, 0 <= G < p /\ 0 <= G < 2 ^ 64 /\ 0 <= i < 32 /\ 0 <= k < 2 ^ 64 /\ e = entry_code G i k).
Lemma no_rows_new r e : ~ cache_row ctx_new r e.
Proof. intros ((col & v & U) & _). discriminate. Qed.
Lemma PS_new : PS ctx_new 0.
Proof.
  split; [apply wf_new|]. split; [lia|]. split; [intros e r r' H; destruct (no_rows_new _ _ H)|].
  intros r e H. destruct (no_rows_new _ _ H).
Qed.
Lemma n200 w I : info_ok w I -> 2 ^ 200 <= nmod.
Proof. intros IO. pose proof (io_red_vn _ _ IO) as K. assert (E : LIMB = 2 ^ 108) by reflexivity. rewrite E in K. lia. Qed.
Lemma nc_quiet {X} (m : M X) : nc m -> append_only m -> quiet m.
Proof. intros N A c x c' W H. destruct (A _ _ _ W H). destruct (N _ _ _ W H). auto. Qed.
Lemma nc_q {X} (m : M X) : nc m -> appends m -> quiet m.
Proof. intros N A. apply nc_quiet; [exact N|]. intros c x c' W H. apply (A _ _ _ W H). Qed.

Lemma PS_msm w I c p x p' c' {S} (dec : S -> M (list (list acond))) bis zero b gen ra rl points scalars :
  info_ok w I -> Z.of_nat (ri_limbs I) < 2 ^ 62 -> (forall s, nc (dec s)) -> (forall c s t, nc (bis c s t)) -> nc zero ->
  PS c p -> msm I b dec bis zero gen ra rl (Some p) points scalars c = Ok ((x, Some p'), c') ->
  PS c' p' /\ p' = p + 2 ^ 20 /\ ca (msm_keys I p) c c'.
Proof.
  intros IO L62 Hd Hb Hz (W & P0 & O & K) H. pose proof (n200 _ _ IO) as N.
  destruct (msm_some_pca I N L62 dec bis zero b gen ra rl p points scalars P0 Hd Hb Hz _ _ _ W H) as (W' & C & LIM & EP).
  cbn [snd] in EP. injection EP as ->. assert (E20 : MSM_PREFIX_OFFSET = 2 ^ 20) by reflexivity. rewrite E20 in *.
  assert (LIM' : p < 2 ^ 28) by exact LIM. clear LIM.
  split; [|split; [reflexivity|exact C]]. destruct C as (F & C1 & C2 & C3).
  assert (X : forall r e, F r e -> exists G i k, p <= G < p + 2 ^ 20 /\ 0 <= i < 32 /\ 0 <= k < 2 ^ 64 /\ e = entry_code G i k).
  { intros r e HF. destruct (C2 _ _ HF) as (g & i & k & H1 & H2 & H3 & ->). exists (p + g), i, k. repeat split; lia. }
  split; [exact W'|]. split; [lia|]. split.
  - assert (D : forall r r' e, cache_row c r e -> F r' e -> False).
    { intros r r' e H1 H2. apply K in H1 as (G & i & k & A1 & A2 & A3 & A4 & E). apply X in H2 as (G' & i' & k' & B1 & B2 & B3 & E').
      rewrite E in E'. apply entry_code_inj in E' as (E1 & _); auto; lia. }
    intros e r r' H1 H2. apply C1 in H1 as [H1|H1], H2 as [H2|H2]; [eapply O; eauto|exfalso; eauto|exfalso; eauto|eauto].
  - intros r e H1. apply C1 in H1 as [H1|H1].
    + apply K in H1 as (G & i & k & A1 & A2 & A3 & A4 & ->). exists G, i, k. repeat split; lia.
    + apply X in H1 as (G & i & k & A1 & A2 & A3 & ->). exists G, i, k. repeat split; lia.
Qed.
Lemma msm_native_app w I c p x p' c' b gen ra rl points scalars :
  info_ok w I -> wf c -> msm_native I b gen ra rl (Some p) points scalars c = Ok ((x, Some p'), c') -> wf c' /\ extends c c'.
Proof.
  intros IO W H. eapply (msm_some_appends I b p av); [| | |exact W|exact H].
  - intros; app.
  - intros; app.
  - app.
Qed.
Lemma msm_general_app w I r J c p x p' c' b gen ra rl points scalars :
  info_ok w I -> info_ok r J -> wf c -> msm_general I J b gen ra rl (Some p) points scalars c = Ok ((x, Some p'), c') -> wf c' /\ extends c c'.
Proof.
  intros IO IO' W H. eapply (msm_some_appends I b p aint); [| | |exact W|exact H].
  - intros; app.
  - intros; app.
  - app.
Qed.
Lemma PS_calls s t : calls s t -> PS (fst s) (snd s) -> PS (fst t) (snd t) /\ extends (fst s) (fst t) /\ snd s <= snd t.
Proof.
  intros H HS. induction H as [|c p X m x c' H IH Q E|c p w I b gen ra rl ps ss x p' c' H IH HI HL E|c p w I r J b gen ra rl ps ss x p' c' H IH HI HJ HL E].
  - split; [auto|]. split; [apply extends_refl|lia].
  - cbn [fst snd] in *. destruct IH as ((W & P0 & O & K) & X0 & LE). destruct (Q _ _ _ W E) as (W' & E' & R). split; [|split; [eapply extends_trans; eauto|lia]].
    split; [auto|]. split; [auto|]. split; [intros e r r' H1 H2; eapply O; eauto|intros r e H1; apply K with (r := r); auto].
  - cbn [fst snd] in *. destruct IH as (HP & X0 & LE). info HI.
    destruct (PS_msm _ _ _ _ _ _ _ (decompose_scalar_native 1) bisec (assign_constant 0) b gen ra rl ps ss IO HL ltac:(intros; nca) ltac:(intros; nca) ltac:(nca) HP E) as (HP' & -> & _).
    split; [auto|]. destruct HP as (W & _). split; [|lia]. eapply extends_trans; [exact X0|]. destruct (msm_native_app _ _ _ _ _ _ _ _ _ _ _ _ _ IO W E) as [_ K]. exact K.
  - cbn [fst snd] in *. destruct IH as (HP & X0 & LE). info HI. info HJ.
    destruct (PS_msm _ _ _ _ _ _ _ (decompose_scalar_general J 1) (bisec_int J) (assign_int_constant J 0) b gen ra rl ps ss IO HL ltac:(intros; nca) ltac:(intros; nca) ltac:(nca) HP E) as (HP' & -> & _).
    split; [auto|]. destruct HP as (W & _). split; [|lia]. eapply extends_trans; [exact X0|]. destruct (msm_general_app _ _ _ _ _ _ _ _ _ _ _ _ _ _ _ IO IO0 W E) as [_ K]. exact K.
Qed.
Lemma calls_trans s t u : calls s t -> calls t u -> calls s u.
Proof.
  intros H K. induction K; [auto|eapply calls_quiet; eauto|eapply calls_native; eauto|eapply calls_general with (I := I) (J := J); eauto].
Qed.
Lemma hist_once c p : calls (ctx_new, 0) (c, p) -> PS c p.
Proof. intros H. apply (PS_calls _ _ H PS_new). Qed.
(** The table of a whole circuit with unique keys is a function on the keys of one call. *)
Lemma hist_tbl w I cf p A : info_ok w I -> 0 < p < 2 ^ 28 -> (forall e, cached_once cf e) -> Z.of_nat (ri_limbs I) < 2 ^ 62 ->
  tbl_fun I (mkEnv (select_table (fixv cf) A) True) p (Z.to_nat MSM_PREFIX_OFFSET).
Proof.
  intros IO HP O HL g i k v v' Hg Hi Hk H1 H2. cbn [tbl] in *. pose proof (n200 _ _ IO) as N.
  assert (Gz : Z.of_nat g < 2 ^ 20) by (assert (E20 : MSM_PREFIX_OFFSET = 2 ^ 20) by reflexivity; rewrite E20 in Hg; lia).
  rewrite entry_code_eq in *.
  assert (NZ : entry_code (p + Z.of_nat g) (Z.of_nat i) (Z.of_nat k) <> 0).
  { intros E. apply entry_code_0 in E as (E & _); auto; lia. }
  apply table_row in H1 as (r & R1 & <-); auto. apply table_row in H2 as (r' & R2 & <-); auto. rewrite (O _ _ _ R1 R2). reflexivity.
Qed.
Lemma hist_NG : MSM_PREFIX_OFFSET <= Z.of_nat (Z.to_nat MSM_PREFIX_OFFSET).
Proof. rewrite Z2Nat.id; [lia|]. unfold MSM_PREFIX_OFFSET. lia. Qed.
Lemma msm_lim I b {S} (dec : S -> M (list (list acond))) bis zero gen ra rl p points scalars c x c' :
  msm I b dec bis zero gen ra rl (Some p) points scalars c = Ok (x, c') -> p < 2 ^ 28.
Proof.
  intros E. unfold msm, msm_unsafe in E.
  apply mbind_inv in E as (q & c1 & E & E2). apply mbind_inv in E as (n & c2 & E3 & E). apply mbind_inv in E as (z & c3 & E4 & E).
  apply mbind_inv in E as (l & c4 & E5 & E). apply mbind_inv in E as (q0 & c5 & E6 & E).
  unfold msm_batch_on_group_non_zero_with_select_chip in E6.
  apply mbind_inv in E6 as ([] & c6 & A1 & E6). apply mbind_inv in E6 as ([] & c7 & A2 & E6). apply massert_inv in A2 as [A2 _].
  apply Z.ltb_lt in A2. exact A2.
Qed.
End Hist.

Lemma C36_selection_partial_main :
  forall (NM : NMod), 1 < nmod ->
    (forall v off g sel c r c' cf A, wf c -> assign_selected_value v off g sel c = Ok (r, c') ->
       extends c' cf -> satisfies cf A -> let e := entry_code g A⟦sel⟧ off in e <> 0 ->
       exists row, cache_row cf row e /\ A (scell ValueCol row) = A⟦r⟧)
 /\ (forall v off g sel l s d u d' c r c' cf A,
       wf d -> assign_cache_value l off g s d = Ok (u, d') -> extends d' cf ->
       wf c -> assign_selected_value v off g sel c = Ok (r, c') -> extends c' cf ->
       satisfies cf A -> A⟦sel⟧ = s mod nmod -> entry_code g s off <> 0 -> cached_once cf (entry_code g s off) ->
       A⟦r⟧ = A⟦l⟧)
 /\ (forall c l off g s, wf c -> valid c l ->
       accepts c (assign_cache_value l off g s) (fun _ c' => cached c' (entry_code g s off) (a_val l)))
 /\ (forall c v off g sel, wf c -> valid c v -> valid c sel -> cached c (entry_code g (a_val sel) off) (a_val v) ->
       accepts c (assign_selected_value v off g sel) (fun r c' => valid c' r /\ a_val r = a_val v)).
Proof.
  intros NM N. assert (S1 : forall v off g sel c r c' cf A, wf c -> assign_selected_value v off g sel c = Ok (r, c') ->
       extends c' cf -> satisfies cf A -> select_table (fixv cf) A A⟦r⟧ (entry_code g A⟦sel⟧ off)).
  { intros v off g sel c r c' cf A W H E S.
    exact (assign_selected_value_ST (mkEnv (select_table (fixv cf) A) False) A v off g sel c r c' W H (satisfies_sat _ _ _ False E S (False_ind _))). }
  split; [|split; [|split]].
  - intros v off g sel c r c' cf A W H E S e NZ. eapply table_row; eauto.
  - intros v off g sel l s d u d' c r c' cf A Wd Hd Ed W H E S Es NZ O.
    assert (EC : entry_code g A⟦sel⟧ off = entry_code g s off).
    { unfold entry_code. rewrite Es, <- !Z.add_assoc, <- (Zplus_mod_idemp_l (s mod nmod * 2 ^ 128)), <- (Zplus_mod_idemp_l (s * 2 ^ 128)), Zmult_mod_idemp_l. reflexivity. }
    pose proof (S1 _ _ _ _ _ _ _ _ _ W H E S) as T1. rewrite EC in T1. apply table_row in T1 as (r1 & R1 & <-); auto.
    pose proof (assign_cache_value_ST (mkEnv (select_table (fixv cf) A) False) A l off g s d u d' Wd Hd (satisfies_sat _ _ _ False Ed S (False_ind _))) as T2.
    cbn [tbl] in T2. rewrite entry_code_eq in T2. apply table_row in T2 as (r2 & R2 & <-); auto. rewrite (O _ _ R1 R2). reflexivity.
  - intros c l off g s W V. apply CT_accepts. apply assign_cache_value_CT; auto.
  - intros c v off g sel W V VS HC. apply CT_accepts. apply assign_selected_value_CT; auto.
Qed.

Section KeyZero.
Local Existing Instance bn256_fr.
Definition free_zero (p : M (av * av)) : bool :=
  match p ctx_new with
  | Ok (lr, c) => let m := WAdv (scell ValueCol 1) 7 :: WAdv (scell ValueCol 2) 7 :: c_mem c in
      fcheck c (c_mem c) && fcheck c m && (asg m (a_cell (fst lr)) =? 5) && (asg m (a_cell (snd lr)) =? 7)
  | _ => false end.
Lemma free_zero_ok p : free_zero p = true -> exists l r c A0 A, p ctx_new = Ok ((l, r), c)
  /\ satisfies c A0 /\ satisfies c A /\ A⟦l⟧ = 5 /\ A⟦r⟧ = 7.
Proof.
  unfold free_zero. destruct (p ctx_new) as [[[l r] c]|]; [|discriminate]. cbv zeta. set (m := _ :: _). intros H.
  apply andb_prop in H as [H H4]. apply andb_prop in H as [H H3]. apply andb_prop in H as [H1 H2].
  apply Z.eqb_eq in H3, H4. exists l, r, c, (asg (c_mem c)), (asg m). assert (N : 1 < nmod) by reflexivity.
  split; [reflexivity|]. split; [apply fcheck_ok; auto|]. split; [apply fcheck_ok; auto|]. auto.
Qed.
Local Notation prog := (l <- assign 5 ;; s <- @assign_constant bn256_fr 0 ;; @assign_cache_value bn256_fr l 0 0 0 ;;;
     r <- @assign_selected_value bn256_fr l 0 0 s ;; mret (l, r)).
Lemma zero_run : free_zero prog = true.
Proof. vm_cast_no_check (eq_refl true). Qed.
End KeyZero.

Lemma C36_key_zero_refuted_main :
  exists l r c A0 A,
    (l <- assign 5 ;; s <- @assign_constant bn256_fr 0 ;; @assign_cache_value bn256_fr l 0 0 0 ;;;
     r <- @assign_selected_value bn256_fr l 0 0 s ;; mret (l, r)) ctx_new = Ok ((l, r), c)
    /\ @satisfies bn256_fr c A0 /\ @satisfies bn256_fr c A /\ A⟦l⟧ = 5 /\ A⟦r⟧ = 7.
Proof.
  exact (free_zero_ok _ zero_run).
Qed.

Lemma C49_keys_never_collide_main :
  forall (NM : NMod),
    (2 ^ 200 <= nmod -> forall g s k g' s' k', 0 <= g < 2 ^ 64 -> 0 <= g' < 2 ^ 64 -> 0 <= k < 2 ^ 64 -> 0 <= k' < 2 ^ 64 ->
       0 <= s < 2 ^ 72 -> 0 <= s' < 2 ^ 72 -> entry_code g s k = entry_code g' s' k' -> g = g' /\ s = s' /\ k = k')
 /\ (forall c p, calls (ctx_new, 0) (c, p) -> forall e, cached_once c e)
 /\ (forall w I, range_info_new w = Ok I -> Z.of_nat (ri_limbs I) < 2 ^ 62 ->
     let keys p e := exists g i k, 0 <= g < 2 ^ 20 /\ 0 <= i < 32 /\ 0 <= k < 2 * (Z.of_nat (ri_limbs I) + 1) /\ e = entry_code (p + g) i k in
     (forall b gen r_acc r_line p points scalars c x c', calls (ctx_new, 0) (c, p) ->
        msm_native I b gen r_acc r_line (Some p) points scalars c = Ok (x, c') ->
        caches_within (keys p) c c' /\ snd x = Some (p + 2 ^ 20))
  /\ (forall r J b gen r_acc r_line p points scalars c x c', range_info_new r = Ok J -> calls (ctx_new, 0) (c, p) ->
        msm_general I J b gen r_acc r_line (Some p) points scalars c = Ok (x, c') ->
        caches_within (keys p) c c' /\ snd x = Some (p + 2 ^ 20))).
Proof.
  intros NM. split; [|split].
  - intros N g s k g' s' k' H1 H2 H3 H4 H5 H6. apply entry_code_inj; auto.
  - intros c p H. apply (hist_once _ _ H).
  - intros w I HI HL keys. info HI. pose proof (n200 _ _ IO) as N. split.
    + intros b gen ra rl p points scalars c x c' H E. destruct (hist_once _ _ H) as (W & P0 & _).
      destruct (msm_some_pca I N HL (decompose_scalar_native 1) bisec (assign_constant 0) b gen ra rl p points scalars P0 ltac:(intros; nca) ltac:(intros; nca) ltac:(nca) _ _ _ W E) as (_ & C & _ & EP).
      split; [|exact EP]. apply ca_spec. exact C.
    + intros r J b gen ra rl p points scalars c x c' HJ H E. destruct (hist_once _ _ H) as (W & P0 & _).
      destruct (msm_some_pca I N HL (decompose_scalar_general J 1) (bisec_int J) (assign_int_constant J 0) b gen ra rl p points scalars P0 ltac:(intros; nca) ltac:(intros; nca) ltac:(nca) _ _ _ W E) as (_ & C & _ & EP).
      split; [|exact EP]. apply ca_spec. exact C.
Qed.

Lemma assign_quiet : @quiet bn256_fr av (assign 5).
Proof. apply nc_q; [nca|app]. Qed.

Lemma C49_other_gadgets_are_quiet_main :
  forall (NM : NMod),
    (forall v, quiet (assign v)) /\ (forall v, quiet (assign_constant v)) /\ (forall v, quiet (assign_bit v))
 /\ (forall a b, quiet (add a b)) /\ (forall a b, quiet (mul a b)) /\ (forall a, quiet (invert a)) /\ (forall c a b, quiet (bisec c a b))
 /\ (forall v off g s, quiet (assign_selected_value v off g s))
 /\ (forall I, (forall v, quiet (assign_w I v)) /\ (forall v, quiet (assign_int_constant I v))
     /\ (forall a b, quiet (int_add I a b)) /\ (forall a b, quiet (int_sub I a b)) /\ (forall a b, quiet (int_mul I a b)) /\ (forall a b, quiet (int_div I a b))
     /\ (forall a, quiet (reduce I a)) /\ (forall a b, quiet (assert_int_equal I a b))
     /\ (forall b v, quiet (assign_point I b v)) /\ (forall a b, quiet (ecc_add I a b)) /\ (forall b a, quiet (ecc_double I b a)) /\ (forall a, quiet (ecc_neg I a))
     /\ (forall a, quiet (ecc_encode I a)) /\ (forall c a b, quiet (bisec_point I c a b)) /\ (forall a b, quiet (ecc_assert_equal I a b)))
 /\ (forall W s, quiet (decompose_scalar_native W s)) /\ (forall J W s, quiet (decompose_scalar_general J W s)).
Proof.
  intros NM. repeat match goal with |- _ /\ _ => split | |- forall _, _ => intro end; (apply nc_q; [nca|app]).
Qed.

Lemma C35_msm_select_native_partial_main :
  forall (NM : NMod) w I b, prime nmod -> prime w -> range_info_new w = Ok I -> 3 < w -> 0 < b < w ->
    Z.of_nat (ri_limbs I) < 2 ^ 62 ->
  forall gen r_acc r_line p points scalars c r p' c' cf pf A,
    calls (ctx_new, 0) (c, p) -> 0 < p ->
    msm_native I b gen r_acc r_line (Some p) points scalars c = Ok ((r, Some p'), c') ->
    calls (c', p') (cf, pf) -> satisfies cf A -> bit_consistent cf A ->
    forall ps, Forall2 (point_is w (at_ A)) points ps -> Forall (on_curve w b) ps ->
      let inputs := combine ps (map (at_ A) scalars) in
      (exists g terms q, g <> Inf /\ on_curve w b g /\ msm_terms nmod g inputs terms
         /\ lin_sum w terms q /\ on_curve w b q /\ point_is w (at_ A) r q)
   /\ ((forall p, In p ps -> multiple w p nmod Inf) ->
       (In Inf ps -> forall g, on_curve w b g -> multiple w g nmod Inf) ->
       exists q, lin_sum w inputs q /\ on_curve w b q /\ point_is w (at_ A) r q).
Proof.
  intros NM w I b P PW H W3 Hb HL gen ra rl p points scalars c r p' c' cf pf A H1 P0 E H2 S BC ps Hps HC. info H.
  destruct (hist_once _ _ H1) as (W & _).
  pose proof (calls_trans _ _ _ (calls_native _ _ _ _ _ _ _ _ _ _ _ _ _ _ H1 H HL E) H2) as H3. destruct (hist_once _ _ H3) as (_ & _ & O & _).
  assert (EX : extends c' cf).
  { apply (PS_calls _ _ H2). apply (hist_once _ _ (calls_native _ _ _ _ _ _ _ _ _ _ _ _ _ _ H1 H HL E)). }
  pose proof (satisfies_sat c' cf A True EX S (fun _ => BC)) as SAT. set (T := mkEnv (select_table (fixv cf) A) True) in *.
  assert (HA : forall y, 0 <= A y < nmod) by apply S. assert (HB : bitc T) by exact Logic.I.
  assert (PL : p < 2 ^ 28) by (eapply msm_lim; exact E).
  pose proof (hist_tbl w I cf p A IO (conj P0 PL) O HL) as TF.
  destruct (gq_of w I IO b A points ps Hps HC) as (cs & <- & GQ).
  assert (R : msm_ok w I PW b A nmod cs (map (at_ A) scalars) r).
  { refine (msm_some_ST w I IO P PW b Hb W3 T A HA p (Z.to_nat MSM_PREFIX_OFFSET) TF av (decompose_scalar_native 1) bisec (assign_constant 0) (nat_is A) nmod nw_native (nw_native1 P) _ _ _ _ _ _ hist_NG gen ra rl points cs scalars (map (at_ A) scalars) GQ _ c (r, Some p') c' W E SAT).
    - intros; app.
    - intros; app.
    - app.
    - intros s v. apply (native_dec_ok P T A HA HB).
    - intros c0 k s t u v. apply (native_bis_ok T A).
    - apply native_zero_ok.
    - apply (F2_map (nat_is A) (at_ A)). intros x. reflexivity. }
  cbv zeta. split.
  - eapply (msm_ok_terms w I IO PW b Hb W3); eauto.
  - intros O1 O2. assert (0 < nmod) by (destruct P; lia). eapply (msm_ok_exact w I IO PW b Hb W3); eauto. apply Forall_forall. intros s Hs. apply in_map_iff in Hs as (y & <- & _). apply HA.
Qed.

Lemma C35_msm_select_general_partial_main :
  forall (NM : NMod) w I b r J, prime nmod -> prime w -> range_info_new w = Ok I -> 3 < w -> 0 < b < w ->
    prime r -> range_info_new r = Ok J -> Z.of_nat (ri_limbs I) < 2 ^ 62 ->
  forall gen r_acc r_line p points scalars c x p' c' cf pf A,
    calls (ctx_new, 0) (c, p) -> 0 < p ->
    msm_general I J b gen r_acc r_line (Some p) points scalars c = Ok ((x, Some p'), c') ->
    calls (c', p') (cf, pf) -> satisfies cf A -> bit_consistent cf A ->
    forall ps, Forall2 (point_is w (at_ A)) points ps -> Forall (on_curve w b) ps ->
    forall ss, Forall2 (int_is r (at_ A)) scalars ss ->
      let inputs := combine ps ss in
      (exists g terms q, g <> Inf /\ on_curve w b g /\ msm_terms r g inputs terms
         /\ lin_sum w terms q /\ on_curve w b q /\ point_is w (at_ A) x q)
   /\ ((forall p, In p ps -> multiple w p r Inf) ->
       (In Inf ps -> forall g, on_curve w b g -> multiple w g r Inf) ->
       exists q, lin_sum w inputs q /\ on_curve w b q /\ point_is w (at_ A) x q).
Proof.
  intros NM w I b r J P PW H W3 Hb PR H' HL gen ra rl p points scalars c x p' c' cf pf A H1 P0 E H2 S BC ps Hps HC ss Hss. info H. info H'.
  destruct (hist_once _ _ H1) as (W & _).
  pose proof (calls_general _ _ _ _ _ _ _ _ _ _ _ _ _ _ _ _ H1 H H' HL E) as H3'.
  pose proof (calls_trans _ _ _ H3' H2) as H3. destruct (hist_once _ _ H3) as (_ & _ & O & _).
  assert (EX : extends c' cf).
  { apply (PS_calls _ _ H2). apply (hist_once _ _ H3'). }
  pose proof (satisfies_sat c' cf A True EX S (fun _ => BC)) as SAT. set (T := mkEnv (select_table (fixv cf) A) True) in *.
  assert (HA : forall y, 0 <= A y < nmod) by apply S. assert (HB : bitc T) by exact Logic.I.
  assert (PL : p < 2 ^ 28) by (eapply msm_lim; exact E).
  pose proof (hist_tbl w I cf p A IO (conj P0 PL) O HL) as TF.
  destruct (gq_of w I IO b A points ps Hps HC) as (cs & <- & GQ).
  assert (R : msm_ok w I PW b A r cs ss x).
  { refine (msm_some_ST w I IO P PW b Hb W3 T A HA p (Z.to_nat MSM_PREFIX_OFFSET) TF aint (decompose_scalar_general J 1) (bisec_int J) (assign_int_constant J 0) (ir r J A) r (nw_general J) (nw_general1 r J IO0) _ _ _ _ _ _ hist_NG gen ra rl points cs scalars ss GQ _ c (x, Some p') c' W E SAT).
    - intros; app.
    - intros; app.
    - app.
    - intros s v. apply (general_dec_ok P T A HA HB r J IO0 PR).
    - intros c0 k s t u v. apply (general_bis_ok T A HA r J IO0).
    - apply (general_zero_ok T A HA r J IO0 PR).
    - eapply F2_wk; [|exact Hss]. intros s v [Wv Ev]. apply (ir_at _ _ IO0). split; [exact Wv|]. unfold eqm. rewrite <- Ev, Zmod_mod. reflexivity. }
  cbv zeta. split.
  - eapply (msm_ok_terms w I IO PW b Hb W3); eauto.
  - assert (0 < r) by (destruct PR; lia). intros O1 O2. eapply (msm_ok_exact w I IO PW b Hb W3); eauto. clear - Hss H0. induction Hss as [|s v l m [_ EE] F IH]; constructor; auto. rewrite <- EE. apply Z.mod_pos_bound. exact H0.
Qed.

