(** Soundness and completeness of the range-checked limb assignments. *)
From Verif Require Import Prelude FieldZ Circuit Context Spec Logic ModArith Prims BaseChip BaseProofs
  RangeInfo RangeChip InfoProofs.

(** Evaluate a lookup in an explicit list of stores. *)
Lemma cell_eqb_r i r j s : cell_eqb (rcell i r) (rcell j s) = ((i =? j) && (r =? s))%nat.
Proof. reflexivity. Qed.
Lemma eqb_off0 off k : (off + S k =? off)%nat = false.
Proof. apply Nat.eqb_neq. lia. Qed.
Lemma eqb_off0' off k : (off =? off + S k)%nat = false.
Proof. apply Nat.eqb_neq. lia. Qed.
Lemma eqb_off off j k : (off + j =? off + k)%nat = (j =? k)%nat.
Proof. destruct (Nat.eqb_spec j k); [subst; apply Nat.eqb_refl|]. apply Nat.eqb_neq. lia. Qed.

Ltac reval :=
  cbn [rev app fixes advs rfix radv assoc];
  rewrite ?Nat.add_0_r, ?cell_eqb_r, ?eqb_off0, ?eqb_off0', ?eqb_off, ?Nat.eqb_refl;
  cbn [Nat.eqb andb AccLinesCol TagCol ValueAccCol TaggedRangeCol CommonRangeCol].

Section Range.
Context {NM : NMod}.

(** The recorded rows. *)
Definition rw1 (off : nat) (v0 vacc b : Z) : list wr :=
  [rfix AccLinesCol off 1; rfix TagCol off (fof b);
   radv TaggedRangeCol off v0; radv ValueAccCol off vacc].
Definition rw2 (off : nat) (v0 v1 v2 v3 vacc b0 b1 : Z) : list wr :=
  [rfix AccLinesCol off (fadd 1 1);
   radv CommonRangeCol off v0; radv CommonRangeCol (off + 1) v1;
   rfix TagCol off (fof b0); radv TaggedRangeCol off v2;
   rfix TagCol (off + 1) (fof b1); radv TaggedRangeCol (off + 1) v3;
   radv ValueAccCol off vacc].
Definition rw3 (off : nat) (v0 v1 v2 v3 v4 v5 vacc b0 b1 b2 : Z) : list wr :=
  [rfix AccLinesCol off (fadd (fadd 1 1) 1);
   radv CommonRangeCol off v0; radv CommonRangeCol (off + 1) v1;
   radv CommonRangeCol (off + 2) v2;
   rfix TagCol off (fof b0); radv TaggedRangeCol off v3;
   rfix TagCol (off + 1) (fof b1); radv TaggedRangeCol (off + 1) v4;
   rfix TagCol (off + 2) (fof b2); radv TaggedRangeCol (off + 2) v5;
   radv ValueAccCol off vacc].

Definition bits2_0 b := if 54 <=? b then 18 else b mod 18.
Definition bits2_1 b := if 54 <? b then b - 54 else 0.
Definition bits3_0 b := if 72 <=? b then 18 else b mod 18.
Definition bits3_1 b := if 90 <=? b then 18 else if 72 <? b then b mod 18 else 0.
Definition bits3_2 b := if 90 <? b then b - 90 else 0.

(** Piece [i] of a decomposition into [k] pieces, 0 beyond. *)
Definition piece (bn : Z) (k i : nat) : Z :=
  if (i <? k)%nat then fof (Z.land (Z.shiftr bn (Z.of_nat i * COMMON_RANGE_BITS)) COMMON_MASK) else 0.

Lemma nth_error_firstn_lt {X} (l : list X) : forall m i, (i < m)%nat ->
  nth_error (firstn m l) i = nth_error l i.
Proof.
  induction l as [|x l IH]; intros m i H; destruct m as [|m]; try lia; [reflexivity|].
  destruct i as [|i]; cbn [firstn nth_error]; [reflexivity|]. apply IH. lia.
Qed.
Lemma piece_nth bn k m i : (i < m)%nat ->
  nth_error (resize m 0 (snd (decompose_bn bn k))) i = Some (piece bn k i).
Proof.
  intros H. unfold decompose_bn, piece, resize. cbn [snd].
  set (f := fun i => fof (Z.land (Z.shiftr bn (Z.of_nat i * COMMON_RANGE_BITS)) COMMON_MASK)).
  rewrite map_length, seq_length.
  destruct (Nat.ltb_spec i k) as [Hk|Hk].
  - rewrite nth_error_app1 by (rewrite firstn_length, map_length, seq_length; lia).
    rewrite nth_error_firstn_lt by lia.
    exact (nth_error_map_seq f k i Hk).
  - rewrite nth_error_app2 by (rewrite firstn_length, map_length, seq_length; lia).
    rewrite firstn_length, map_length, seq_length.
    rewrite (nth_error_nth' _ 0) by (rewrite repeat_length; lia).
    f_equal. apply nth_repeat.
Qed.

Lemma range_block k ws c v :
  Forall (write_in RangeChip (range_off c) (range_off c + k)) ws ->
  block RangeChip k ws [] c
    (mkCtx (rev_append ws (c_mem c)) (c_perms c) (base_off c) (range_off c + k)%nat (select_off c)
           (base_h c) v (select_h c)).
Proof.
  intros F. constructor; cbn [c_mem c_perms]; [reflexivity|reflexivity| |exact F].
  intros [| |]; reflexivity.
Qed.

Lemma assign_common_inv bn c r c' : assign_common bn c = Ok (r, c') ->
  block RangeChip 1 (rw1 (range_off c) (fof bn) (fof bn) 18) [] c c'
  /\ r = mkAv (rcell ValueAccCol (range_off c)) (fof bn).
Proof.
  intros H. cbv [assign_common assign_one_line_range_value mbind mget massert mnth mopt nth_error mret
    bump_range_h do_writes add_range_off COMMON_RANGE_BITS Z.leb Z.compare Pos.compare Pos.compare_cont c_mem c_perms base_off
    range_off select_off base_h range_h select_h] in H.
  cbn [c_mem c_perms base_off range_off select_off base_h range_h select_h] in H.
  destruct c as [mm pp bo ro so bh rh sh]. injection H as <- <-. split; [|reflexivity].
  apply (range_block 1 (rw1 ro (fof bn) (fof bn) 18) (mkCtx mm pp bo ro so bh rh sh)).
  repeat constructor; cbn; lia.
Qed.

Lemma assign_limb_inv bn k b c r c' : assign_limb bn k b c = Ok (r, c') ->
  r = mkAv (rcell ValueAccCol (range_off c)) (fof bn) /\
  ((b <= 18 /\ block RangeChip 1 (rw1 (range_off c) (piece bn k 0) (fof bn) b) [] c c')
   \/ (36 <= b <= 72 /\ block RangeChip 2 (rw2 (range_off c) (piece bn k 0) (piece bn k 1) (piece bn k 2)
            (piece bn k 3) (fof bn) (bits2_0 b) (bits2_1 b)) [] c c')
   \/ (72 < b <= 108 /\ block RangeChip 3 (rw3 (range_off c) (piece bn k 0) (piece bn k 1) (piece bn k 2)
            (piece bn k 3) (piece bn k 4) (piece bn k 5) (fof bn)
            (bits3_0 b) (bits3_1 b) (bits3_2 b)) [] c c')).
Proof.
  intros H. unfold assign_limb in H. apply mbind_inv in H as (x & c1 & Hg & H).
  injection Hg as <- <-. apply mbind_inv in H as (a & c2 & H1 & H2).
  apply mbind_inv in H2 as (u & c3 & H2 & H3). injection H2 as <- <-. injection H3 as <- <-.
  unfold assign_range_value in H1. unfold COMMON_RANGE_BITS in H1 at 1 2 3 4.
  destruct (Z.leb_spec b 18) as [B1|B1].
  { apply mbind_inv in H1 as (a' & c4 & H1 & H4). injection H4 as <- <-.
    unfold assign_one_line_range_value in H1.
    apply mbind_inv in H1 as (u1 & c5 & Ha & H1). apply massert_inv in Ha as [_ ->].
    apply mbind_inv in H1 as (u2 & c5 & Hb & H1). injection Hb as <- <-.
    apply mbind_inv in H1 as (v0 & c5 & Hn & H1). apply mopt_inv in Hn as [Hn ->].
    apply mbind_inv in H1 as (u3 & c5 & Hw & H1). injection Hw as <- <-. injection H1 as <- <-.
    cbn [fst snd].
    assert (E : v0 = piece bn k 0).
    { destruct k as [|k]; [discriminate Hn|]. injection Hn as <-. reflexivity. }
    subst v0.
    split; [reflexivity|]. left. split; [lia|].
    cbn [c_mem c_perms base_off range_off select_off base_h range_h select_h].
    apply (range_block 1 (rw1 (range_off c) (piece bn k 0) (fof bn) b) c).
    repeat constructor; cbn; lia. }
  destruct (Z.ltb_spec b (2 * 18)) as [B2|B2]; [discriminate|].
  destruct (Z.leb_spec b (4 * 18)) as [B3|B3].
  { apply mbind_inv in H1 as (a' & c4 & H1 & H4). injection H4 as <- <-.
    unfold assign_two_line_range_value in H1.
    apply mbind_inv in H1 as (u1 & c5 & Ha & H1). apply massert_inv in Ha as [_ ->].
    apply mbind_inv in H1 as (u1' & c5 & Ha & H1). apply massert_inv in Ha as [_ ->].
    apply mbind_inv in H1 as (u2 & c5 & Hb & H1). injection Hb as <- <-.
    do 4 (let v := fresh "v" in let c6 := fresh "c" in let Hn := fresh "Hn" in
      apply mbind_inv in H1 as (v & c6 & Hn & H1); apply mopt_inv in Hn as [Hn ->];
      rewrite piece_nth in Hn by lia; injection Hn as <-).
    apply mbind_inv in H1 as (u3 & c5 & Hw & H1). injection Hw as <- <-. injection H1 as <- <-.
    cbn [fst snd].
    split; [reflexivity|]. right. left. split; [lia|].
    cbn [c_mem c_perms base_off range_off select_off base_h range_h select_h].
    apply (range_block 2 (rw2 (range_off c) (piece bn k 0) (piece bn k 1) (piece bn k 2)
            (piece bn k 3) (fof bn) (bits2_0 b) (bits2_1 b)) c).
    repeat constructor; cbn; lia. }
  destruct (Z.leb_spec b (6 * 18)) as [B4|B4]; [|discriminate].
  { apply mbind_inv in H1 as (a' & c4 & H1 & H4). injection H4 as <- <-.
    unfold assign_three_line_range_value in H1.
    apply mbind_inv in H1 as (u1 & c5 & Ha & H1). apply massert_inv in Ha as [_ ->].
    apply mbind_inv in H1 as (u1' & c5 & Ha & H1). apply massert_inv in Ha as [_ ->].
    apply mbind_inv in H1 as (u2 & c5 & Hb & H1). injection Hb as <- <-.
    do 6 (let v := fresh "v" in let c6 := fresh "c" in let Hn := fresh "Hn" in
      apply mbind_inv in H1 as (v & c6 & Hn & H1); apply mopt_inv in Hn as [Hn ->];
      rewrite piece_nth in Hn by lia; injection Hn as <-).
    apply mbind_inv in H1 as (u3 & c5 & Hw & H1). injection Hw as <- <-. injection H1 as <- <-.
    cbn [fst snd].
    split; [reflexivity|]. right. right. split; [lia|].
    cbn [c_mem c_perms base_off range_off select_off base_h range_h select_h].
    apply (range_block 3 (rw3 (range_off c) (piece bn k 0) (piece bn k 1) (piece bn k 2)
            (piece bn k 3) (piece bn k 4) (piece bn k 5) (fof bn)
            (bits3_0 b) (bits3_1 b) (bits3_2 b)) c).
    repeat constructor; cbn; lia. }
Qed.

Lemma assign_limb_run bn k b c :
  (b <= 18 /\ (1 <= k)%nat) \/ 36 <= b <= 108 ->
  exists r c', assign_limb bn k b c = Ok (r, c').
Proof.
  intros H. unfold assign_limb, assign_range_value. unfold COMMON_RANGE_BITS at 1 2 3 4.
  cbv [mbind mget].
  destruct (Z.leb_spec b 18) as [B1|B1].
  { destruct k as [|k]; [lia|].
    unfold assign_one_line_range_value, COMMON_RANGE_BITS.
    destruct (Z.leb_spec b 18); [|lia]. eexists _, _. reflexivity. }
  destruct (Z.ltb_spec b (2 * 18)); [lia|].
  destruct (Z.leb_spec b (4 * 18)).
  { unfold assign_two_line_range_value.
    replace (COMMON_RANGE_BITS * 2 <=? b) with true by (unfold COMMON_RANGE_BITS; lia).
    replace (b <=? COMMON_RANGE_BITS * 4) with true by (unfold COMMON_RANGE_BITS; lia).
    unfold mnth. rewrite !piece_nth by lia. eexists _, _. reflexivity. }
  destruct (Z.leb_spec b (6 * 18)); [|lia].
  unfold assign_three_line_range_value.
  replace (COMMON_RANGE_BITS * 3 <=? b) with true by (unfold COMMON_RANGE_BITS; lia).
  replace (b <=? COMMON_RANGE_BITS * 6) with true by (unfold COMMON_RANGE_BITS; lia).
  unfold mnth. rewrite !piece_nth by lia. eexists _, _. reflexivity.
Qed.

(** ** Contents of the recorded rows *)
Section Rows.
Variables (k : nat) (ws : list wr) (c c' : ctx).
Hypothesis W : wf c.
Hypothesis B : block RangeChip k ws [] c c'.

Lemma row_fix col i : get_fix (c_mem c') (rcell col (range_off c + i)) =
  assoc (rev (fixes ws)) (rcell col (range_off c + i)).
Proof. eapply blk_fix_fresh; [exact W|exact B|reflexivity|cbn; lia]. Qed.
Lemma row_adv col i : get_adv (c_mem c') (rcell col (range_off c + i)) =
  assoc (rev (advs ws)) (rcell col (range_off c + i)).
Proof. eapply blk_adv_fresh; [exact W|exact B|reflexivity|cbn; lia]. Qed.
End Rows.

Hypothesis n_prime : prime nmod.
Hypothesis n_big : 2 ^ 108 < nmod.

Lemma fof_small x : 0 <= x < 2 ^ 108 -> fof x = x.
Proof. intros H. apply Z.mod_small. lia. Qed.
Lemma two_n : fadd 1 1 = 2.
Proof. apply Z.mod_small. lia. Qed.
Lemma three_n : fadd (fadd 1 1) 1 = 3.
Proof. rewrite two_n. apply Z.mod_small. lia. Qed.

Lemma small_unit_cancel x u : 0 < u < nmod -> u * x ≡ 0 ⟨nmod⟩ -> x ≡ 0 ⟨nmod⟩.
Proof.
  intros Hu H. apply eqm_cancel in H; [|auto]. destruct H as [H|H]; [|exact H].
  exfalso. apply eqm_small in H; lia.
Qed.

Section Sound.
Variable T : env.
Variable A : cell -> Z.
Hypothesis A_range : forall x, 0 <= A x < nmod.
Variable fx : cell -> Z.

Lemma row1_sound off b : fx (rcell AccLinesCol off) = 1 -> fx (rcell TagCol off) = b ->
  range_row fx A off -> 0 <= A (rcell ValueAccCol off) < 2 ^ b.
Proof.
  intros HL HT ((_ & H1) & _ & E1 & _). rewrite HT in H1. unfold range_expr1 in E1. rewrite HL in E1.
  assert (E : A (rcell ValueAccCol off) ≡ A (rcell TaggedRangeCol off) ⟨nmod⟩).
  { apply eqm_sub_0. apply (small_unit_cancel _ 2); [lia|]. apply eqm_0_iff. rewrite <- E1. f_equal. ring. }
  apply eqm_small in E; [|apply A_range|apply A_range]. lia.
Qed.

Lemma row2_sound off b0 b1 : fx (rcell AccLinesCol off) = 2 ->
  fx (rcell TagCol off) = b0 -> fx (rcell TagCol (S off)) = b1 ->
  range_row fx A off -> range_row fx A (S off) ->
  exists c0 c1 t0 t1, 0 <= c0 < 2 ^ 18 /\ 0 <= c1 < 2 ^ 18 /\ 0 <= t0 < 2 ^ b0 /\ 0 <= t1 < 2 ^ b1
    /\ A (rcell ValueAccCol off) ≡ c0 + c1 * 2 ^ 18 + t0 * 2 ^ 36 + t1 * 2 ^ 54 ⟨nmod⟩.
Proof.
  intros HL HT HT1 ((_ & H1) & (_ & H2) & _ & E1 & _) ((_ & H3) & (_ & H4) & _).
  rewrite HT in H1. rewrite HT1 in H3. unfold range_expr2 in E1. rewrite HL in E1.
  unfold COMMON_RANGE_BITS in *.
  exists (A (rcell CommonRangeCol off)), (A (rcell CommonRangeCol (S off))),
    (A (rcell TaggedRangeCol off)), (A (rcell TaggedRangeCol (S off))).
  repeat (split; [assumption|]).
  apply eqm_sub_0. apply (small_unit_cancel _ 2); [lia|].
  match goal with |- ?F ≡ 0 ⟨_⟩ => match type of E1 with ?E mod _ = 0 => replace F with (0 - E) by ring end end.
  apply eqm_0_iff in E1. rewrite E1. reflexivity.
Qed.

Lemma row3_sound off b0 b1 b2 : fx (rcell AccLinesCol off) = 3 ->
  fx (rcell TagCol off) = b0 -> fx (rcell TagCol (S off)) = b1 -> fx (rcell TagCol (S (S off))) = b2 ->
  range_row fx A off -> range_row fx A (S off) -> range_row fx A (S (S off)) ->
  exists c0 c1 c2 t0 t1 t2, 0 <= c0 < 2 ^ 18 /\ 0 <= c1 < 2 ^ 18 /\ 0 <= c2 < 2 ^ 18
    /\ 0 <= t0 < 2 ^ b0 /\ 0 <= t1 < 2 ^ b1 /\ 0 <= t2 < 2 ^ b2
    /\ A (rcell ValueAccCol off) ≡
       c0 + c1 * 2 ^ 18 + c2 * 2 ^ 36 + t0 * 2 ^ 54 + t1 * 2 ^ 72 + t2 * 2 ^ 90 ⟨nmod⟩.
Proof.
  intros HL HT HT1 HT2 ((_ & H1) & (_ & H2) & _ & _ & E1) ((_ & H3) & (_ & H4) & _)
    ((_ & H5) & (_ & H6) & _).
  rewrite HT in H1. rewrite HT1 in H3. rewrite HT2 in H5. unfold range_expr3 in E1. rewrite HL in E1.
  unfold COMMON_RANGE_BITS in *.
  exists (A (rcell CommonRangeCol off)), (A (rcell CommonRangeCol (S off))), (A (rcell CommonRangeCol (S (S off)))),
    (A (rcell TaggedRangeCol off)), (A (rcell TaggedRangeCol (S off))), (A (rcell TaggedRangeCol (S (S off)))).
  repeat (split; [assumption|]).
  apply eqm_sub_0. apply (small_unit_cancel _ 6); [lia|].
  match goal with |- ?F ≡ 0 ⟨_⟩ => match type of E1 with ?E mod _ = 0 => replace F with E by ring end end.
  apply eqm_0_iff in E1. exact E1.
Qed.
End Sound.

Ltac fixv_at :=
  unfold fixv; erewrite row_fix by eassumption; unfold rw1, rw2, rw3; reval; cbn [opt0]; try reflexivity.
Ltac used_at :=
  exists TagCol; eexists; erewrite row_fix by eassumption; unfold rw1, rw2, rw3; reval; reflexivity.

Lemma fof_bits b : 0 <= b <= 108 -> fof b = b.
Proof. intros H. apply fof_small. assert (109 < 2 ^ 108) by reflexivity. lia. Qed.

Lemma pow_split a b : 0 <= b <= a -> 2 ^ a = 2 ^ b * 2 ^ (a - b).
Proof. intros H. rewrite <- Z.pow_add_r by lia. f_equal. lia. Qed.

Lemma assign_limb_ST T A (A_range : forall x, 0 <= A x < nmod) bn k b : 0 <= b <= 108 ->
  ST T A (assign_limb bn k b) (fun r => 0 <= A⟦r⟧ < 2 ^ b).
Proof.
  intros Hb c r c' W H S. apply assign_limb_inv in H as (-> & [(B1 & B)|[(B1 & B)|(B1 & B)]]);
    cbn [a_cell];
    destruct (proj1 (sat_block _ _ _ _ _ _ _ A W B) S) as (_ & HR & _); cbn [off_of] in HR.
  - assert (R0 := HR 0%nat ltac:(lia) ltac:(used_at)). clear HR.
    assert (E1 : fixv c' (rcell AccLinesCol (range_off c + 0)) = 1) by fixv_at.
    assert (E2 : fixv c' (rcell TagCol (range_off c + 0)) = b).
    { fixv_at. apply fof_bits. lia. }
    rewrite Nat.add_0_r in *. eapply row1_sound; eauto.
  - assert (R0 := HR 0%nat ltac:(lia) ltac:(used_at)).
    assert (R1 := HR 1%nat ltac:(lia) ltac:(used_at)). clear HR.
    assert (0 <= bits2_0 b <= 18) by (unfold bits2_0; pose proof (Z.mod_pos_bound b 18 ltac:(lia));
      destruct (_ <=? _); lia).
    assert (0 <= bits2_1 b <= 18) by (unfold bits2_1; destruct (Z.ltb_spec 54 b); lia).
    assert (E1 : fixv c' (rcell AccLinesCol (range_off c + 0)) = 2) by (fixv_at; apply two_n).
    assert (E2 : fixv c' (rcell TagCol (range_off c + 0)) = bits2_0 b) by (fixv_at; apply fof_bits; lia).
    assert (E3 : fixv c' (rcell TagCol (range_off c + 1)) = bits2_1 b) by (fixv_at; apply fof_bits; lia).
    rewrite Nat.add_0_r in *. rewrite Nat.add_1_r in *.
    destruct (row2_sound A _ _ _ _ E1 E2 E3 R0 R1) as (c0 & c1 & t0 & t1 & H1 & H2 & H3 & H4 & E).
    set (s := c0 + c1 * 2 ^ 18 + t0 * 2 ^ 36 + t1 * 2 ^ 54) in *.
    assert (HS : 0 <= s < 2 ^ b).
    { unfold s, bits2_0, bits2_1 in *. destruct (Z.leb_spec 54 b).
      - rewrite (pow_split b 54) by lia. destruct (Z.ltb_spec 54 b).
        + set (P := 2 ^ (b - 54)) in *. lia.
        + assert (b = 54) as -> by lia. change (2 ^ 0) with 1 in *. change (2 ^ (54 - 54)) with 1. lia.
      - rewrite (pow_split b 36) by lia. replace (b mod 18) with (b - 36) in *.
        2:{ apply Z.mod_unique with 2; lia. }
        set (P := 2 ^ (b - 36)) in *. destruct (Z.ltb_spec 54 b); [lia|].
        change (2 ^ 0) with 1 in *. lia. }
    assert (2 ^ b <= 2 ^ 108) by (apply Z.pow_le_mono_r; lia).
    apply eqm_small in E; [rewrite E; exact HS|apply A_range|lia].
  - assert (R0 := HR 0%nat ltac:(lia) ltac:(used_at)).
    assert (R1 := HR 1%nat ltac:(lia) ltac:(used_at)).
    assert (R2 := HR 2%nat ltac:(lia) ltac:(used_at)). clear HR.
    pose proof (Z.mod_pos_bound b 18 ltac:(lia)).
    assert (0 <= bits3_0 b <= 18) by (unfold bits3_0; destruct (_ <=? _); lia).
    assert (0 <= bits3_1 b <= 18) by (unfold bits3_1; destruct (90 <=? b), (72 <? b); lia).
    assert (0 <= bits3_2 b <= 18) by (unfold bits3_2; destruct (Z.ltb_spec 90 b); lia).
    assert (E1 : fixv c' (rcell AccLinesCol (range_off c + 0)) = 3) by (fixv_at; apply three_n).
    assert (E2 : fixv c' (rcell TagCol (range_off c + 0)) = bits3_0 b) by (fixv_at; apply fof_bits; lia).
    assert (E3 : fixv c' (rcell TagCol (range_off c + 1)) = bits3_1 b) by (fixv_at; apply fof_bits; lia).
    assert (E4 : fixv c' (rcell TagCol (range_off c + 2)) = bits3_2 b) by (fixv_at; apply fof_bits; lia).
    rewrite Nat.add_0_r in *. rewrite Nat.add_1_r in *.
    replace (range_off c + 2)%nat with (Datatypes.S (Datatypes.S (range_off c))) in * by lia.
    destruct (row3_sound A _ _ _ _ _ E1 E2 E3 E4 R0 R1 R2)
      as (c0 & c1 & c2 & t0 & t1 & t2 & ? & ? & ? & ? & ? & ? & E).
    set (s := c0 + c1 * 2 ^ 18 + c2 * 2 ^ 36 + t0 * 2 ^ 54 + t1 * 2 ^ 72 + t2 * 2 ^ 90) in *.
    assert (HS : 0 <= s < 2 ^ b).
    { unfold s, bits3_0, bits3_1, bits3_2 in *. destruct (Z.leb_spec 72 b); [|lia].
      destruct (Z.leb_spec 90 b).
      - rewrite (pow_split b 90) by lia. destruct (Z.ltb_spec 90 b).
        + set (P := 2 ^ (b - 90)) in *. lia.
        + assert (b = 90) as -> by lia. change (2 ^ 0) with 1 in *. change (2 ^ (90 - 90)) with 1. lia.
      - rewrite (pow_split b 72) by lia. replace (b mod 18) with (b - 72) in *.
        2:{ apply Z.mod_unique with 4; lia. }
        set (P := 2 ^ (b - 72)) in *. destruct (Z.ltb_spec 90 b); [lia|].
        destruct (Z.ltb_spec 72 b); [|lia].
        change (2 ^ 0) with 1 in *. lia. }
    assert (2 ^ b <= 2 ^ 108) by (apply Z.pow_le_mono_r; lia).
    apply eqm_small in E; [rewrite E; exact HS|apply A_range|lia].
Qed.

Lemma assign_common_ST T A (A_range : forall x, 0 <= A x < nmod) bn :
  ST T A (assign_common bn) (fun r => 0 <= A⟦r⟧ < 2 ^ 18).
Proof.
  intros c r c' W H S. apply assign_common_inv in H as (B & ->). cbn [a_cell].
  destruct (proj1 (sat_block _ _ _ _ _ _ _ A W B) S) as (_ & HR & _); cbn [off_of] in HR.
  assert (R0 := HR 0%nat ltac:(lia) ltac:(used_at)). clear HR.
  assert (E1 : fixv c' (rcell AccLinesCol (range_off c + 0)) = 1) by fixv_at.
  assert (E2 : fixv c' (rcell TagCol (range_off c + 0)) = 18) by (fixv_at; apply fof_bits; lia).
  rewrite Nat.add_0_r in *. eapply row1_sound; eauto.
Qed.

Lemma appends_assign_limb bn k b : appends (assign_limb bn k b).
Proof.
  intros c r c' W H. apply assign_limb_inv in H as (_ & [(_ & B)|[(_ & B)|(_ & B)]]);
  (split; [eapply block_wf; eauto|eapply block_extends; eauto]).
Qed.
Lemma appends_assign_common bn : appends (assign_common bn).
Proof.
  intros c r c' W H. apply assign_common_inv in H as (B & _).
  split; [eapply block_wf; eauto|eapply block_extends; eauto].
Qed.

(** ** Completeness *)
Lemma range_row_ok0 fx A off t : fx (rcell AccLinesCol off) = 0 -> fx (rcell TagCol off) = t ->
  0 <= t <= 18 -> 0 <= A (rcell TaggedRangeCol off) < 2 ^ t ->
  0 <= A (rcell CommonRangeCol off) < 2 ^ 18 -> range_row fx A off.
Proof.
  intros HL HT Ht H1 H2. unfold range_row, in_range_table, range_expr1, range_expr2, range_expr3.
  rewrite HL, HT. unfold COMMON_RANGE_BITS. rewrite !Z.mul_0_r, !Z.mul_0_l, Zmod_0_l. intuition lia.
Qed.

Definition pc (v : Z) (i : Z) : Z := (v / 2 ^ (18 * i)) mod 2 ^ 18.

Lemma piece_val v k b i : 0 <= v < 2 ^ b -> 0 <= b <= 18 * Z.of_nat k ->
  piece v k i = pc v (Z.of_nat i).
Proof.
  intros Hv Hb. unfold piece, pc, COMMON_RANGE_BITS, COMMON_MASK. change (2 ^ 18 - 1) with (Z.ones 18).
  destruct (Nat.ltb_spec i k).
  - rewrite Z.land_ones, Z.shiftr_div_pow2 by lia. rewrite (Z.mul_comm 18). apply fof_small.
    pose proof (Z.mod_pos_bound (v / 2 ^ (Z.of_nat i * 18)) (2 ^ 18) ltac:(lia)).
    assert (2 ^ 18 < 2 ^ 108) by reflexivity. lia.
  - rewrite Z.div_small; [reflexivity|]. split; [lia|].
    eapply Z.lt_le_trans; [apply Hv|]. apply Z.pow_le_mono_r; lia.
Qed.

Lemma pc_bound v i : 0 <= pc v i < 2 ^ 18.
Proof. apply Z.mod_pos_bound. lia. Qed.
Lemma pc_top v i b : 0 <= v < 2 ^ b -> 0 <= i -> 18 * i <= b -> 0 <= pc v i < 2 ^ (b - 18 * i).
Proof.
  intros Hv Hi Hb. pose proof (pc_bound v i). split; [lia|]. unfold pc.
  assert (0 < 2 ^ (18 * i)) by (apply Z.pow_pos_nonneg; lia).
  eapply Z.le_lt_trans; [apply Z.mod_le; [apply Z.div_pos; lia|lia]|].
  apply Z.div_lt_upper_bound; [lia|]. rewrite <- Z.pow_add_r by lia.
  replace (18 * i + (b - 18 * i)) with b by lia. lia.
Qed.
Lemma pc_zero v i b : 0 <= v < 2 ^ b -> 0 <= b <= 18 * i -> pc v i = 0.
Proof.
  intros Hv Hb. unfold pc. rewrite Z.div_small; [reflexivity|]. split; [lia|].
  eapply Z.lt_le_trans; [apply Hv|]. apply Z.pow_le_mono_r; lia.
Qed.
Lemma pc_sum v : 0 <= v < 2 ^ 108 ->
  v = pc v 0 + pc v 1 * 2 ^ 18 + pc v 2 * 2 ^ 36 + pc v 3 * 2 ^ 54 + pc v 4 * 2 ^ 72 + pc v 5 * 2 ^ 90.
Proof.
  intros Hv.
  assert (ST : forall i, 0 <= i -> v / 2 ^ (18 * i) = pc v i + 2 ^ 18 * (v / 2 ^ (18 * (i + 1)))).
  { intros i Hi. unfold pc.
    assert (0 < 2 ^ (18 * i)) by (apply Z.pow_pos_nonneg; lia).
    replace (18 * (i + 1)) with (18 * i + 18) by lia. rewrite Z.pow_add_r by lia.
    rewrite <- Z.div_div by lia.
    pose proof (Z.div_mod (v / 2 ^ (18 * i)) (2 ^ 18) ltac:(lia)). lia. }
  pose proof (ST 0 ltac:(lia)) as S0. pose proof (ST 1 ltac:(lia)) as S1.
  pose proof (ST 2 ltac:(lia)) as S2. pose proof (ST 3 ltac:(lia)) as S3.
  pose proof (ST 4 ltac:(lia)) as S4. pose proof (ST 5 ltac:(lia)) as S5.
  change (0 + 1) with 1 in *. change (1 + 1) with 2 in *. change (2 + 1) with 3 in *.
  change (3 + 1) with 4 in *. change (4 + 1) with 5 in *. change (5 + 1) with 6 in *.
  change (18 * 0) with 0 in S0. change (2 ^ 0) with 1 in S0. rewrite Z.div_1_r in S0.
  rewrite (Z.div_small v (2 ^ (18 * 6))) in S5 by (change (18 * 6) with 108; lia).
  lia.
Qed.

Ltac adv_at :=
  unfold honest; erewrite row_adv by eassumption; unfold rw1, rw2, rw3; reval; cbn [opt0]; try reflexivity.

Lemma block_CT k ws c c' (r : av) (m : M av) (P : av -> ctx -> Prop) :
  wf c -> m c = Ok (r, c') -> block RangeChip k ws [] c c' ->
  (forall i, (i < k)%nat -> used c' RangeChip (range_off c + i)) ->
  Forall (fun p => 0 <= snd p < nmod) (advs ws) ->
  (forall A, (forall y, 0 <= A y < nmod) ->
     (forall i col, (i < k)%nat -> A (rcell col (range_off c + i)) = honest c' (rcell col (range_off c + i))) ->
     forall i, (i < k)%nat -> range_row (fixv c') A (range_off c + i)) ->
  P r c' -> CT c m P.
Proof.
  intros W H B U F HR HP. exists r, c'. split; [exact H|].
  split; [eapply block_wf; eauto|]. assert (E : extends c c') by (eapply block_extends; eauto).
  split; [exact E|]. split; [|exact HP]. split.
  - intros AO x v Hx. destruct (advs_ok_block _ _ _ _ _ _ _ _ W B E AO Hx) as [Hx'|(Hin & Hc & Hr)]; [exact Hx'|].
    rewrite Forall_forall in F. split; [|apply F in Hin; exact Hin].
    rewrite Hc. cbn [off_of] in Hr.
    replace (c_row x) with (range_off c + (c_row x - range_off c))%nat by lia. apply U. lia.
  - intros T A HA HG HT HS. apply (sat_block _ _ _ _ _ _ _ A W B). split; [exact HS|]. split; [|intros a b []].
    intros i Hi _. apply HR; [exact HA| |exact Hi]. intros j col Hj. apply HG. apply U. exact Hj.
Qed.

Lemma row0 (n : nat) : (n + 0)%nat = n. Proof. lia. Qed.

Ltac splitS i := destruct i as [|i]; [|try lia].

Lemma assign_limb_CT c bn k b : wf c -> 0 <= bn < 2 ^ b -> b <= 18 * Z.of_nat k ->
  (0 <= b <= 18 /\ (1 <= k)%nat) \/ 36 <= b <= 108 ->
  CT c (assign_limb bn k b) (fun r c' => valid c' r /\ a_val r = bn).
Proof.
  intros W Hv Hk Hb.
  destruct (assign_limb_run bn k b c) as (r & c' & H); [lia|].
  assert (PW : 2 ^ b <= 2 ^ 108) by (apply Z.pow_le_mono_r; lia).
  assert (FV : fof bn = bn) by (apply fof_small; lia).
  assert (PC : forall i, piece bn k i = pc bn (Z.of_nat i)) by (intros; apply (piece_val _ _ b); lia).
  assert (PN : forall i, 0 <= pc bn i < nmod).
  { intros i. pose proof (pc_bound bn i). assert (2 ^ 18 < 2 ^ 108) by reflexivity. lia. }
  pose proof (pc_sum bn ltac:(lia)) as SUM.
  pose proof H as H'. apply assign_limb_inv in H' as (-> & [(B1 & B)|[(B1 & B)|(B1 & B)]]);
  rewrite !FV, !PC in B; cbn [Z.of_nat Pos.of_succ_nat Pos.succ] in B;
  (eapply block_CT; [exact W|exact H|exact B| | | |]).
  - intros i Hi. splitS i. used_at.
  - unfold rw1. cbn [advs radv rfix]. repeat (apply Forall_cons || apply Forall_nil); cbn [snd]; first [apply PN|lia].
  - intros A HA HG i Hi. splitS i.
    assert (E1 : fixv c' (rcell AccLinesCol (range_off c + 0)) = 1) by fixv_at.
    assert (E2 : fixv c' (rcell TagCol (range_off c + 0)) = b) by (fixv_at; apply fof_bits; lia).
    assert (A1 : A (rcell ValueAccCol (range_off c + 0)) = bn) by (rewrite HG by lia; adv_at).
    assert (A2 : A (rcell TaggedRangeCol (range_off c + 0)) = pc bn 0) by (rewrite HG by lia; adv_at).
    assert (A3 : A (rcell CommonRangeCol (range_off c + 0)) = 0) by (rewrite HG by lia; adv_at).
    assert (pc bn 0 = bn).
    { unfold pc. change (2 ^ (18 * 0)) with 1. rewrite Z.div_1_r. apply Z.mod_small. split; [lia|].
      eapply Z.lt_le_trans; [apply Hv|]. apply Z.pow_le_mono_r; lia. }
    unfold range_row, in_range_table, range_expr1, range_expr2, range_expr3.
    rewrite E1, E2, A1, A2, A3. unfold COMMON_RANGE_BITS. rewrite H0.
    repeat match goal with |- _ /\ _ => split end; try lia;
    match goal with |- ?e mod _ = 0 => replace e with 0 by ring end; apply Zmod_0_l.
  - split; [|exact FV]. split; [|split; [|cbn [a_val]; rewrite FV; lia]].
    + cbn [a_cell c_chip c_row rcell]. rewrite <- (row0 (range_off c)). used_at.
    + cbn [a_cell a_val]. rewrite <- (row0 (range_off c)). erewrite row_adv by eassumption.
      unfold rw1. reval. congruence.
  - intros i Hi. destruct i as [|[|i]]; [used_at|used_at|lia].
  - unfold rw2. cbn [advs radv rfix]. repeat (apply Forall_cons || apply Forall_nil); cbn [snd]; first [apply PN|lia].
  - intros A HA HG.
    assert (0 <= bits2_0 b <= 18) by (unfold bits2_0; pose proof (Z.mod_pos_bound b 18 ltac:(lia));
      destruct (_ <=? _); lia).
    assert (0 <= bits2_1 b <= 18) by (unfold bits2_1; destruct (Z.ltb_spec 54 b); lia).
    assert (E1 : fixv c' (rcell AccLinesCol (range_off c + 0)) = 2) by (fixv_at; apply two_n).
    assert (E1' : fixv c' (rcell AccLinesCol (range_off c + 1)) = 0) by (fixv_at; reflexivity).
    assert (E2 : fixv c' (rcell TagCol (range_off c + 0)) = bits2_0 b) by (fixv_at; apply fof_bits; lia).
    assert (E3 : fixv c' (rcell TagCol (range_off c + 1)) = bits2_1 b) by (fixv_at; apply fof_bits; lia).
    assert (A1 : A (rcell ValueAccCol (range_off c + 0)) = bn) by (rewrite HG by lia; adv_at).
    assert (A2 : A (rcell TaggedRangeCol (range_off c + 0)) = pc bn 2) by (rewrite HG by lia; adv_at).
    assert (A3 : A (rcell CommonRangeCol (range_off c + 0)) = pc bn 0) by (rewrite HG by lia; adv_at).
    assert (A4 : A (rcell TaggedRangeCol (range_off c + 1)) = pc bn 3) by (rewrite HG by lia; adv_at).
    assert (A5 : A (rcell CommonRangeCol (range_off c + 1)) = pc bn 1) by (rewrite HG by lia; adv_at).
    assert (T2 : 0 <= pc bn 2 < 2 ^ bits2_0 b).
    { unfold bits2_0. destruct (Z.leb_spec 54 b); [apply pc_bound|].
      replace (b mod 18) with (b - 18 * 2) by (apply Z.mod_unique with 2; lia). apply pc_top; lia. }
    assert (T3 : 0 <= pc bn 3 < 2 ^ bits2_1 b).
    { unfold bits2_1. destruct (Z.ltb_spec 54 b); [apply (pc_top _ 3); lia|].
      rewrite (pc_zero bn 3 b) by lia. lia. }
    rewrite (pc_zero bn 4 b), (pc_zero bn 5 b) in SUM by lia.
    intros i Hi. destruct i as [|[|i]]; [| |lia].
    + unfold range_row, in_range_table, range_expr1, range_expr2, range_expr3.
      rewrite Nat.add_1_r in *. rewrite Nat.add_0_r in *.
      rewrite E1, E2, A1, A2, A3, A4, A5. unfold COMMON_RANGE_BITS.
      repeat match goal with |- _ /\ _ => split end; try lia; try apply pc_bound; try apply T2;
      match goal with |- ?e mod _ = 0 => replace e with 0 by (first [ring | rewrite SUM at 1; ring]) end; apply Zmod_0_l.
    + apply (range_row_ok0 _ _ _ (bits2_1 b)); auto; [rewrite A4; exact T3|rewrite A5; apply pc_bound].
  - split; [|exact FV]. split; [|split; [|cbn [a_val]; rewrite FV; lia]].
    + cbn [a_cell c_chip c_row rcell]. rewrite <- (row0 (range_off c)). used_at.
    + cbn [a_cell a_val]. rewrite <- (row0 (range_off c)). erewrite row_adv by eassumption.
      unfold rw2. reval. congruence.
  - intros i Hi. destruct i as [|[|[|i]]]; [used_at|used_at|used_at|lia].
  - unfold rw3. cbn [advs radv rfix]. repeat (apply Forall_cons || apply Forall_nil); cbn [snd]; first [apply PN|lia].
  - intros A HA HG.
    pose proof (Z.mod_pos_bound b 18 ltac:(lia)).
    assert (0 <= bits3_0 b <= 18) by (unfold bits3_0; destruct (_ <=? _); lia).
    assert (0 <= bits3_1 b <= 18) by (unfold bits3_1; destruct (90 <=? b), (72 <? b); lia).
    assert (0 <= bits3_2 b <= 18) by (unfold bits3_2; destruct (Z.ltb_spec 90 b); lia).
    assert (E1 : fixv c' (rcell AccLinesCol (range_off c + 0)) = 3) by (fixv_at; apply three_n).
    assert (E1' : fixv c' (rcell AccLinesCol (range_off c + 1)) = 0) by (fixv_at; reflexivity).
    assert (E1'' : fixv c' (rcell AccLinesCol (range_off c + 2)) = 0) by (fixv_at; reflexivity).
    assert (E2 : fixv c' (rcell TagCol (range_off c + 0)) = bits3_0 b) by (fixv_at; apply fof_bits; lia).
    assert (E3 : fixv c' (rcell TagCol (range_off c + 1)) = bits3_1 b) by (fixv_at; apply fof_bits; lia).
    assert (E4 : fixv c' (rcell TagCol (range_off c + 2)) = bits3_2 b) by (fixv_at; apply fof_bits; lia).
    assert (A1 : A (rcell ValueAccCol (range_off c + 0)) = bn) by (rewrite HG by lia; adv_at).
    assert (A2 : A (rcell TaggedRangeCol (range_off c + 0)) = pc bn 3) by (rewrite HG by lia; adv_at).
    assert (A3 : A (rcell CommonRangeCol (range_off c + 0)) = pc bn 0) by (rewrite HG by lia; adv_at).
    assert (A4 : A (rcell TaggedRangeCol (range_off c + 1)) = pc bn 4) by (rewrite HG by lia; adv_at).
    assert (A5 : A (rcell CommonRangeCol (range_off c + 1)) = pc bn 1) by (rewrite HG by lia; adv_at).
    assert (A6 : A (rcell TaggedRangeCol (range_off c + 2)) = pc bn 5) by (rewrite HG by lia; adv_at).
    assert (A7 : A (rcell CommonRangeCol (range_off c + 2)) = pc bn 2) by (rewrite HG by lia; adv_at).
    assert (T3 : 0 <= pc bn 3 < 2 ^ bits3_0 b).
    { unfold bits3_0. destruct (Z.leb_spec 72 b); [apply pc_bound|lia]. }
    assert (T4 : 0 <= pc bn 4 < 2 ^ bits3_1 b).
    { unfold bits3_1. destruct (Z.leb_spec 90 b); [apply pc_bound|].
      destruct (Z.ltb_spec 72 b); [|lia].
      replace (b mod 18) with (b - 18 * 4) by (apply Z.mod_unique with 4; lia). apply pc_top; lia. }
    assert (T5 : 0 <= pc bn 5 < 2 ^ bits3_2 b).
    { unfold bits3_2. destruct (Z.ltb_spec 90 b); [apply (pc_top _ 5); lia|].
      rewrite (pc_zero bn 5 b) by lia. lia. }
    replace (range_off c + 2)%nat with (S (S (range_off c + 0))) in * by lia.
    replace (range_off c + 1)%nat with (S (range_off c + 0)) in * by lia.
    intros i Hi. destruct i as [|[|[|i]]]; [| | |lia].
    + unfold range_row, in_range_table, range_expr1, range_expr2, range_expr3.
      rewrite E1, E2, A1, A2, A3, A4, A5, A6, A7. unfold COMMON_RANGE_BITS.
      repeat match goal with |- _ /\ _ => split end; try lia; try apply pc_bound; try apply T3;
      match goal with |- ?e mod _ = 0 => replace e with 0 by (first [ring | rewrite SUM at 1; ring]) end; apply Zmod_0_l.
    + replace (range_off c + 1)%nat with (S (range_off c + 0)) by lia.
      apply (range_row_ok0 _ _ _ (bits3_1 b)); auto; [rewrite A4; exact T4|rewrite A5; apply pc_bound].
    + replace (range_off c + 2)%nat with (S (S (range_off c + 0))) by lia.
      apply (range_row_ok0 _ _ _ (bits3_2 b)); auto; [rewrite A6; exact T5|rewrite A7; apply pc_bound].
  - split; [|exact FV]. split; [|split; [|cbn [a_val]; rewrite FV; lia]].
    + cbn [a_cell c_chip c_row rcell]. rewrite <- (row0 (range_off c)). used_at.
    + cbn [a_cell a_val]. rewrite <- (row0 (range_off c)). erewrite row_adv by eassumption.
      unfold rw3. reval. congruence.
Qed.

Lemma assign_common_CT c bn : wf c -> 0 <= bn < 2 ^ 18 ->
  CT c (assign_common bn) (fun r c' => valid c' r /\ a_val r = bn).
Proof.
  intros W Hv. pose proof (assign_limb_CT c bn 1 18 W Hv ltac:(lia) ltac:(lia)) as H.
  assert (E : assign_common bn c = assign_limb bn 1 18 c); [|unfold CT in *; rewrite E; exact H].
  unfold assign_common, assign_limb, decompose_bn, assign_range_value. cbn [fst snd].
  change (18 <=? COMMON_RANGE_BITS) with true. cbv iota.
  change (seq 0 1) with [0%nat]. cbn [map]. change (Z.of_nat 0 * COMMON_RANGE_BITS) with 0.
  replace (Z.land (Z.shiftr bn 0) COMMON_MASK) with bn; [reflexivity|].
  unfold COMMON_MASK. change (2 ^ 18 - 1) with (Z.ones 18). rewrite Z.shiftr_0_r, Z.land_ones by lia.
  symmetry. apply Z.mod_small. lia.
Qed.

End Range.

Global Hint Resolve appends_assign_limb appends_assign_common : app.
