(** Runs of a dishonest prover: as the completeness logic of Logic.v, but without the
    demand that the two cells of a bit row hold the same value (C51). *)
From Verif Require Import Prelude FieldZ Circuit Context Spec Logic ModArith Prims BaseChip BaseProofs
  RangeInfo RangeChip IntegerChip SpecInt InfoProofs IntArith RangeProofs IntInv IntSound IntComplete IntBridge
  IntRes EccChip SpecEcc Curve EccArith EccProofs EccHonest ScalarChip ScalarProofs Msm HonestLogic HonestScalar SpecShape Shape SpecSchedule TotalLogic TotalMsm.

Section F.
Context {NM : NMod}.
Definition loose (tb : Z -> Z -> Prop) : env := mkEnv tb False.
Definition CTF {X} (c : ctx) (m : M X) (Q : X -> ctx -> Prop) : Prop :=
  exists x c', m c = Ok (x, c') /\ wf c' /\ extends c c'
    /\ ((advs_ok c -> advs_ok c') /\
        forall tb A, (forall y, 0 <= A y < nmod) -> agrees c' A -> tables_in tb c' A ->
                     sat (loose tb) c A -> sat (loose tb) c' A)
    /\ Q x c'.
Lemma CTF_of {X} c (m : M X) Q : CT c m Q -> CTF c m Q.
Proof.
  intros (x & c' & E & W & X' & (S1 & S2) & HQ). exists x, c'. split; [exact E|]. split; [exact W|]. split; [exact X'|].
  split; [|exact HQ]. split; [exact S1|]. intros tb A. exact (S2 (loose tb) A).
Qed.
Lemma CTF_bind {X Y} c (m : M X) (k : X -> M Y) (Q : X -> ctx -> Prop) (R : Y -> ctx -> Prop) :
  CTF c m Q -> (forall x c', wf c' -> extends c c' -> Q x c' -> CTF c' (k x) R) -> CTF c (mbind m k) R.
Proof.
  intros (x & c1 & E1 & W1 & X1 & (A1 & S1) & HQ) Hk. destruct (Hk x c1 W1 X1 HQ) as (y & c2 & E2 & W2 & X2 & (A2 & S2) & HR).
  exists y, c2. split; [unfold mbind; rewrite E1; exact E2|]. split; [exact W2|]. split; [eapply extends_trans; eauto|].
  split; [|exact HR]. split; [auto|]. intros tb A HA HG HT HS. apply S2; auto. apply S1; auto.
  - eapply agrees_mono; eauto.
  - eapply tables_in_mono; eauto.
Qed.
Lemma CTF_weaken {X} c (m : M X) (Q R : X -> ctx -> Prop) : CTF c m Q -> (forall x c', wf c' -> extends c c' -> Q x c' -> R x c') -> CTF c m R.
Proof. intros (x & c1 & E1 & W1 & X1 & S & HQ) H. exists x, c1. auto 10. Qed.

(** The recorded witness satisfies the circuit recorded so far. *)
Record loose_good (c : ctx) : Prop := {
  lg_wf : wf c;
  lg_advs : advs_ok c;
  lg_sat : forall tb A, (forall y, 0 <= A y < nmod) -> agrees c A -> tables_in tb c A -> sat (loose tb) c A
}.
Lemma loose_of c : good c -> loose_good c.
Proof. intros [W A S]. split; [exact W|exact A|]. intros tb. exact (S (loose tb)). Qed.
Lemma CTF_runs {X} c (m : M X) Q : CTF c m Q -> exists x c', m c = Ok (x, c') /\ extends c c' /\ Q x c' /\ (loose_good c -> loose_good c').
Proof.
  intros (x & c' & E & W & X' & (S1 & S2) & HQ). exists x, c'. split; [exact E|]. split; [exact X'|]. split; [exact HQ|].
  intros [W0 A0 S0]. split; [exact W|auto|]. intros tb A HA HG HT. apply S2; auto. apply S0; auto.
  - eapply agrees_mono; eauto.
  - eapply tables_in_mono; eauto.
Qed.
Lemma loose_satisfies c : 1 < nmod -> loose_good c -> satisfies c (honest c).
Proof.
  intros N G.
  assert (HA : forall y, 0 <= honest c y < nmod).
  { intros y. unfold honest. destruct (get_adv (c_mem c) y) as [v|] eqn:E; [|simpl; lia].
    apply (lg_advs _ G) in E. apply E. }
  set (T := loose (select_table (fixv c) (honest c))).
  assert (S : sat T c (honest c)).
  { apply G; [exact HA|intros ch r U col; reflexivity|].
    intros r U L. exists r. auto. }
  assert (BL : forall ch r, (forall col, (col < 9)%nat -> get_fix (c_mem c) (mkCell ch col r) = None) ->
             forall x, c_chip x = ch -> c_row x = r -> (c_col x < 9)%nat -> fixv c x = 0).
  { intros ch r H [ch' col r']; simpl; intros -> -> Hc. unfold fixv. rewrite H; auto. }
  assert (HU : forall ch r col, ~ used c ch r -> honest c (mkCell ch col r) = 0
                                                 /\ fixv c (mkCell ch col r) = 0).
  { intros ch r col NU. split.
    - unfold honest. destruct (get_adv (c_mem c) (mkCell ch col r)) eqn:E; [|reflexivity].
      apply (lg_advs _ G) in E. destruct NU. apply E.
    - unfold fixv. rewrite not_used_fix; auto. }
  split; [exact HA|]. split; [apply S|].
  assert (D : forall ch r, (ch = RangeChip \/ ch = SelectChip) -> used c ch r \/
      ((forall col, (col < 9)%nat -> fixv c (mkCell ch col r) = 0)
       /\ (used c ch r \/ forall col, honest c (mkCell ch col r) = 0))).
  { intros ch r Hch. destruct (used_dec c ch r) as [(col & v & _ & H)|H].
    - left; exists col, v; auto.
    - right. split.
      + intros col Hc. unfold fixv. rewrite H; auto.
      + assert (DD : used c ch r \/ forall col, get_adv (c_mem c) (mkCell ch col r) = None).
        { clear -G. destruct G as [W P _].
          assert (L : forall l : list (cell * Z), (exists x v, In (x, v) l /\ c_chip x = ch /\ c_row x = r) \/
                                (forall x v, In (x, v) l -> ~ (c_chip x = ch /\ c_row x = r))).
          { induction l as [|[x v] l IH]; [right; intros ? ? []|].
            destruct IH as [(y & u & Hin & HH)|IH]; [left; exists y, u; split; [right; auto|auto]|].
            destruct (chip_eqb (c_chip x) ch) eqn:E1; [apply chip_eqb_eq in E1|].
            - destruct (Nat.eq_dec (c_row x) r) as [E2|E2]; [left; exists x, v; simpl; auto|].
              right. intros y u [Hy|Hy]; [injection Hy as <- <-; intros [_ K]; auto|eauto].
            - right. intros y u [Hy|Hy]; [injection Hy as <- <-|eauto].
              intros [K _]. apply chip_eqb_eq in K. congruence. }
          destruct (L (advs (c_mem c))) as [(x & v & Hin & <- & <-)|N].
          - left. destruct (get_adv (c_mem c) x) as [u|] eqn:E; [apply (P _ _ E)|].
            exfalso. rewrite get_adv_assoc in E. clear -Hin E.
            induction (advs (c_mem c)) as [|[y u] l IH]; simpl in *; [auto|].
            destruct (cell_eqb y x) eqn:K; [discriminate|].
            destruct Hin as [Hin|Hin]; [|auto]. injection Hin as -> ->.
            rewrite cell_eqb_refl in K. discriminate.
          - right. intros col. destruct (get_adv (c_mem c) (mkCell ch col r)) eqn:E; [|auto].
            rewrite get_adv_assoc in E. apply assoc_in in E. apply N in E. simpl in E. tauto. }
        destruct DD as [DD|DD]; [auto|]. right. intros col. unfold honest. rewrite DD. reflexivity. }
  split; [|split; [|apply S]].
  - intros r. destruct (D RangeChip r ltac:(auto)) as [U|[F [U|V]]]; try (apply S; exact U).
    unfold range_row, range_expr1, range_expr2, range_expr3, in_range_table, rcell, TagCol, AccLinesCol,
      TaggedRangeCol, CommonRangeCol, ValueAccCol, COMMON_RANGE_BITS.
    rewrite !F, !V by lia. rewrite !Z.mul_0_r, !Z.mul_0_l, !Zmod_0_l.
    repeat split; try lia; reflexivity.
  - intros r. destruct (D SelectChip r ltac:(auto)) as [U|[F [U|V]]]; try (apply (sat_select _ _ _ S); exact U).
    unfold select_row, select_input, scell, SelectCol, EncodeCol, ValueCol. rewrite !F, !V by lia.
    rewrite Z.mul_0_l, Z.add_0_l, Zmod_0_l.
    exists r. unfold scell, ValueCol, EncodeCol, IsLookupCol. rewrite !F, V by lia. auto.
Qed.

(** A row as [one_line] records it, whatever the two cells of a bit row hold. *)
Lemma CTF_one_line c pairs constant muls :
  wf c -> (0 < length pairs <= 5)%nat -> (length muls <= 2)%nat ->
  Forall (fun p => schema_ok c (fst p)) pairs ->
  gate_sum (pair_val pairs) (map snd pairs) constant muls ≡ 0 ⟨nmod⟩ ->
  CTF c (one_line pairs constant muls None)
     (fun r c' => r = ol_handles (base_off c) pairs /\ Forall (valid c') r).
Proof.
  intros W L1 L2 F G.
  destruct (one_line_ok pairs constant muls None c W ltac:(lia) L2) as (c' & H).
  pose proof (one_line_inv _ _ _ _ _ _ _ H) as (_ & _ & B & _).
  assert (W' : wf c') by (eapply block_wf; eauto).
  assert (E : extends c c') by (eapply block_extends; eauto).
  assert (ADV : forall i, get_adv (c_mem c') (bcell i (base_off c))
           = nth_error (map (fun p => schema_val (fst p)) pairs) i).
  { intros i. rewrite (blk_adv_fresh _ _ _ _ _ _ _ W B) by (simpl; first [reflexivity|lia]). apply ol_adv_col. }
  assert (FIX : forall i, (i < length pairs)%nat ->
           exists v, get_fix (c_mem c') (bcell i (base_off c)) = Some v).
  { intros i Hi. rewrite (blk_fix_fresh _ _ _ _ _ _ _ W B) by (simpl; first [reflexivity|lia]).
    rewrite ol_fix_col by lia. unfold ol_fixcol.
    destruct (Nat.ltb_spec i 5) as [H5|H5]; [|lia].
    rewrite nth_error_map. destruct (nth_error pairs i) eqn:E'; [simpl; eauto|].
    apply nth_error_None in E'. lia. }
  exists (ol_handles (base_off c) pairs), c'.
  split; [exact H|]. split; [exact W'|]. split; [exact E|]. split.
  - assert (U : used c' BaseChip (base_off c)).
    { destruct (FIX 0%nat ltac:(lia)) as [v Hv]. exists 0%nat, v. exact Hv. }
    split.
    { intros P x v Hx. destruct (advs_ok_block _ _ _ _ _ _ _ _ W B E P Hx) as [K|[Hin [Kc Kr]]]; [exact K|].
      simpl in Kr. replace (c_row x) with (base_off c) by lia. rewrite Kc. split; [exact U|].
      rewrite advs_ol_writes in Hin. apply in_mapi in Hin as (i & p & _ & Hp & Ep).
      injection Ep as -> ->. rewrite Forall_forall in F. apply F in Hp.
      destruct p as [[a|y] co]; simpl in *; [apply Hp|auto]. }
    intros T A HA HG HT HS.
    destruct (one_line_sat (loose T) A _ _ _ _ _ _ _ W H) as (_ & _ & _ & _ & ->).
    assert (V : forall i, A (bcell i (base_off c)) = pair_val pairs i).
    { intros i. unfold bcell. rewrite (HG _ _ U). unfold honest. unfold bcell in ADV. rewrite ADV.
      unfold pair_val. apply opt0_nth_error. }
    split; [auto|]. split.
    + apply (copies_honest c); auto; [eapply agrees_mono; eauto|].
      intros i p Hp. simpl. rewrite V. unfold pair_val. apply nth_error_nth.
      rewrite nth_error_map, Hp. reflexivity.
    + cbn [opt0]. rewrite Z.mul_0_r, Z.add_0_r.
      rewrite (gate_sum_ext _ (pair_val pairs)) by auto. split; [exact G|]. intros K. destruct K.
  - split; [reflexivity|]. apply ol_handles_valid; auto.
    intros i p Hp. split.
    + rewrite ADV, nth_error_map, Hp. reflexivity.
    + apply FIX. apply nth_error_Some. congruence.
Qed.
End F.
