(** Proofs of C58 and of C59, corollaries of C22, C53 and C57. *)
From Verif Require Import Prelude FieldZ Circuit Context Spec Logic BaseChip RangeInfo RangeChip IntegerChip
  SpecInt SpecProg IntProg EccChip SpecEcc SpecMsm ScalarChip Msm SpecSelect SpecCalls SpecSchedule
  Moduli Fields InfoProofs IntInv IntRes IntBridge IntEval IntMain BaseProofs HonestMain TotalMain.

Lemma get_w_value {NM : NMod} w I : range_info_new w = Ok I -> forall x, int_wf w a_val x ->
  get_w I x = int_value a_val x mod w.
Proof.
  intros H x W. pose proof (range_info_ok _ _ H) as IO.
  assert (HL : length (i_limbs x) = ri_limbs I) by (apply (iwf_int_wf _ _ IO) in W; exact (wf_len _ _ _ W)).
  unfold get_w. rewrite (proj2 (proj2 C12_limb_splitting_main) NM w I H x HL), (io_w _ _ IO). reflexivity.
Qed.

Lemma C58_read_back_main :
  forall (NM : NMod) w I, range_info_new w = Ok I ->
    (forall x, int_wf w a_val x -> get_w I x = int_value a_val x mod w)
 /\ (prime nmod -> prime w -> (w_bits w + 13) mod 108 <> 0 ->
     forall inputs prog, Forall (fun x => 0 <= x < w) inputs -> Forall (iop_ok w) prog -> ican w prog (inputs, []) ->
     forall c, wf c -> accepts c (run_prog I inputs prog) (fun r c' => exists s', isteps w prog (inputs, []) s'
       /\ map (get_w I) (fst (snd r)) = fst s')).
Proof.
  intros NM w I H. split; [apply (get_w_value w I H)|].
  intros P PW HD inputs prog F1 F2 F3 c W.
  pose proof (C22_honest_programs_accepted_main NM w I P PW H HD inputs prog F1 F2 F3 c W) as K.
  destruct K as (r & c' & R & E & (s' & S1 & S2 & S3) & G).
  exists r, c'. split; [exact R|]. split; [exact E|]. split; [|exact G].
  exists s'. split; [exact S1|]. clear - S2 H. induction S2 as [|x v l m [O V] _ IH]; [reflexivity|].
  cbn [map]. rewrite IH, (get_w_value w I H x (ik_wf _ _ _ _ O)), V. reflexivity.
Qed.

Ltac ones := repeat first [assumption | reflexivity | discriminate | apply Forall_cons | apply Forall_nil | apply Forall2_cons | apply Forall2_nil
  | eexists; eexists; split; [reflexivity|assumption]].

Lemma C59_ecc_mul_native_main :
  forall (NM : NMod) w I b, prime nmod -> prime w -> range_info_new w = Ok I -> 3 < w -> 0 < b < w ->
    (w_bits w + 13) mod 108 <> 0 -> Z.of_nat (ri_limbs I) < 2 ^ 62 ->
  forall c xg yg xa ya xl yl prefix a p s,
    good c -> Forall (on_curve w b) [Aff xg yg; Aff xa ya; Aff xl yl] ->
    point_ok w c a valid -> point_is w a_val a p -> on_curve w b p -> valid c s ->
    (forall k, prefix = Some k -> k < 2 ^ 28 /\ calls (ctx_new, 0) (c, k)) ->
    multiple w p nmod Inf -> (p = Inf -> forall g, on_curve w b g -> multiple w g nmod Inf) ->
    (forall x prefix' c', ecc_mul_native I b (Some (xg, yg)) (Some (xa, ya)) (Some (xl, yl)) prefix a s c = Ok ((x, prefix'), c') ->
       good c' /\ point_ok w c' x valid /\ exists q, point_is w a_val x q /\ on_curve w b q /\ multiple w p (a_val s) q)
 /\ (msm_schedule w (if prefix then 5 else 2) (Z.to_nat (Z.log2 nmod + 1)) (Aff xg yg) (Aff xa ya) (Aff xl yl) [(p, a_val s)] ->
     exists x prefix' c', ecc_mul_native I b (Some (xg, yg)) (Some (xa, ya)) (Some (xl, yl)) prefix a s c = Ok ((x, prefix'), c')).
Proof.
  intros NM w I b P PW H W3 HB HD HL c xg yg xa ya xl yl prefix a p s G F O V C VS HK HN HI. split.
  - intros x prefix' c' R. inversion F as [|? ? C1 F1]; subst. inversion F1 as [|? ? C2 F2]; subst. inversion F2 as [|? ? C3 F3]; subst.
    destruct (C53_msm_native_honest_main NM w I b P PW H W3 HB HD HL c (Some (xg, yg)) (Some (xa, ya)) (Some (xl, yl)) prefix [a] [p] [s] x prefix' c' G) as ((E & G' & _ & O') & K); ones.
    split; [exact G'|]. split; [exact O'|].
      destruct K as (q & Q1 & Q2 & _ & Q3); [intros k Hk; apply (HK k Hk)|].
      exists q. split; [exact Q1|]. split; [exact Q2|]. apply lin_one. apply Q3.
      * intros k [<-|[]]. exact HN.
      * intros [E1|[]]. exact (HI E1).
  - intros S.
    destruct (C57_msm_native_completes_main NM w I b P PW H W3 HB HD HL c xg yg xa ya xl yl prefix [a] [p] [s] G F) as (x & prefix' & c' & R & _); ones.
    + intros k Hk. split; [discriminate|apply (HK k Hk)].
    + exists x, prefix', c'. exact R.
Qed.

Lemma C59_ecc_mul_general_main :
  forall (NM : NMod) w I b r J, prime nmod -> prime w -> range_info_new w = Ok I -> 3 < w -> 0 < b < w ->
    (w_bits w + 13) mod 108 <> 0 -> Z.of_nat (ri_limbs I) < 2 ^ 62 -> prime r -> range_info_new r = Ok J ->
  forall c xg yg xa ya xl yl prefix a p s,
    good c -> Forall (on_curve w b) [Aff xg yg; Aff xa ya; Aff xl yl] ->
    point_ok w c a valid -> point_is w a_val a p -> on_curve w b p -> int_ok r c s valid ->
    (forall k, prefix = Some k -> k < 2 ^ 28 /\ calls (ctx_new, 0) (c, k)) ->
    multiple w p r Inf -> (p = Inf -> forall g, on_curve w b g -> multiple w g r Inf) ->
    (forall x prefix' c', ecc_mul_general I J b (Some (xg, yg)) (Some (xa, ya)) (Some (xl, yl)) prefix a s c = Ok ((x, prefix'), c') ->
       good c' /\ point_ok w c' x valid /\ exists q, point_is w a_val x q /\ on_curve w b q /\ multiple w p (int_value a_val s mod r) q)
 /\ (msm_schedule w (if prefix then 5 else 2) (108 * ri_limbs J) (Aff xg yg) (Aff xa ya) (Aff xl yl) [(p, int_value a_val s mod r)] ->
     exists x prefix' c', ecc_mul_general I J b (Some (xg, yg)) (Some (xa, ya)) (Some (xl, yl)) prefix a s c = Ok ((x, prefix'), c')).
Proof.
  intros NM w I b o J P PW H W3 HB HD HL PR HJ c xg yg xa ya xl yl prefix a p s G F O V C VS HK HN HI. split.
  - intros x prefix' c' R. inversion F as [|? ? C1 F1]; subst. inversion F1 as [|? ? C2 F2]; subst. inversion F2 as [|? ? C3 F3]; subst.
    destruct (C53_msm_general_honest_main NM w I b o J P PW H W3 HB HD HL PR HJ c (Some (xg, yg)) (Some (xa, ya)) (Some (xl, yl)) prefix [a] [p] [s] x prefix' c' G) as ((E & G' & _ & O') & K); ones.
    split; [exact G'|]. split; [exact O'|].
      destruct K as (q & Q1 & Q2 & _ & Q3); [intros k Hk; apply (HK k Hk)|].
      exists q. split; [exact Q1|]. split; [exact Q2|]. apply lin_one. apply Q3.
      * intros k [<-|[]]. exact HN.
      * intros [E1|[]]. exact (HI E1).
  - intros S.
    destruct (C57_msm_general_completes_main NM w I b o J P PW H W3 HB HD HL PR HJ c xg yg xa ya xl yl prefix [a] [p] [s] G F) as (x & prefix' & c' & R & _); ones.
    + intros k Hk. split; [discriminate|apply (HK k Hk)].
    + exists x, prefix', c'. exact R.
Qed.

Lemma ecc_mul_native_msm {NM : NMod} I b gen r_acc r_line prefix a s c :
  ecc_mul_native I b gen r_acc r_line prefix a s c = msm_native I b gen r_acc r_line prefix [a] [s] c.
Proof. reflexivity. Qed.

(** For the examples: a program with one result, and the bn256 scalar field as a foreign field. *)
Lemma ieval_read {NM : NMod} w I inputs prog s' :
  prime nmod -> prime w -> range_info_new w = Ok I -> (w_bits w + 13) mod 108 <> 0 ->
  Forall (fun x => 0 <= x < w) inputs -> Forall (iop_ok w) prog -> ieval w prog (inputs, []) = Some s' ->
  exists r c', run_prog I inputs prog ctx_new = Ok (r, c') /\ satisfies c' (honest c') /\ map (get_w I) (fst (snd r)) = fst s'.
Proof.
  intros P PW H HD H1 H2 H3. destruct (ieval_ok _ _ PW _ _ H3) as [HC HU].
  destruct (proj2 (C58_read_back_main NM w I H) P PW HD inputs prog H1 H2 HC ctx_new (good_wf _ good_new)) as (r & c' & R & _ & (s2 & S2 & K) & G).
  apply HU in S2. subst s2. exists r, c'. split; [exact R|]. split; [|exact K].
  apply good_satisfies; [apply n_pos; auto|exact (G good_new)].
Qed.

Definition bn_fr_info : rinfo := Eval vm_compute in info_of bn256_fr_p.
Lemma bn_fr_info_ok : @range_info_new bn256_fr bn256_fr_p = Ok bn_fr_info.
Proof. vm_cast_no_check (eq_refl (@Ok rinfo bn_fr_info)). Qed.
