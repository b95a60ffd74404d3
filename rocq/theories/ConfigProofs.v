(** Proofs about the configured constraint system and the synthesised table. *)
From Verif Require Import Prelude FieldZ Circuit Context Spec Synth SpecHeights Halo2 Configure.

Section P.
Context {NM : NMod}.
Definition cfg : config := Eval cbv -[fof fmul Z.pow COMMON_RANGE_BITS nmod] in fst (configure cs_new).
Definition css : cs := Eval cbv -[fof fmul Z.pow COMMON_RANGE_BITS nmod] in snd (configure cs_new).
Lemma configured : configure cs_new = (cfg, css).
Proof. cbv -[fof fmul Z.pow COMMON_RANGE_BITS nmod]. reflexivity. Qed.

(** What the columns of a table say about cells of the record tables. *)
Definition cell_fix (F : fixed_part) (x : cell) : Z := f_fix F (fix_col cfg (c_chip x) (c_col x)) (c_row x).
Definition cell_adv (adv : nat -> nat -> Z) (x : cell) : Z := adv (adv_col cfg (c_chip x) (c_col x)) (c_row x).

Definition gate (i : nat) : expr := nth i (cs_gates css) (EConst 0).
Definition look (i : nat) : list (expr * expr) := nth i (cs_lookups css) [].
Lemma gates_are : cs_gates css = [gate 0; gate 1; gate 2; gate 3].
Proof. unfold gate, css. cbn [cs_gates nth]. reflexivity. Qed.
Lemma looks_are : cs_lookups css = [look 0; look 1; look 2].
Proof. unfold look, css. cbn [cs_lookups nth]. reflexivity. Qed.

Lemma base_eval n F adv r : (r + 1 < n)%nat -> eval n F adv r (gate 0) = base_expr (cell_fix F) (cell_adv adv) r.
Proof.
  intros H. cbn. rewrite !(Nat.mod_small _ n) by lia. unfold base_expr, cell_fix, cell_adv. cbn.
  replace (r + 0)%nat with r by lia. replace (r + 1)%nat with (S r) by lia. reflexivity.
Qed.
Lemma base_eval_zero n F adv r : (r < n)%nat -> (forall col, (col < 9)%nat -> f_fix F col r = 0) -> eval n F adv r (gate 0) = 0.
Proof.
  intros H Z. cbn. replace (r + 0)%nat with r by lia. rewrite !(Nat.mod_small r n) by lia. rewrite !Z by lia. lia.
Qed.
Lemma modeq e e' : (exists k, e = e' + k * nmod) -> e mod nmod = e' mod nmod.
Proof. intros (k & ->). apply Z_mod_plus_full. Qed.
Lemma modex a : exists k, a mod nmod = a + k * nmod.
Proof.
  destruct (Z.eq_dec nmod 0) as [->|N]; [exists 0; rewrite Zmod_0_r; lia|].
  exists (- (a / nmod)). pose proof (Z.div_mod a nmod N). lia.
Qed.
Lemma fofex a : exists k, fof a = a + k * nmod.
Proof. apply modex. Qed.
Lemma shiftex a b p : a = b mod nmod -> fmul a (fof (2 ^ COMMON_RANGE_BITS)) = (b * 2 ^ 18 + 0 * p) mod nmod.
Proof.
  intros ->. unfold fmul, fof. rewrite <- Zmult_mod. f_equal. change COMMON_RANGE_BITS with 18. ring.
Qed.
Ltac consts :=
  repeat match goal with
  | |- context [fof ?a] => lazymatch a with 2 ^ _ => fail | _ => let k := fresh "k" in destruct (fofex a) as [k ->] end
  end.
Lemma fmul1 : fmul 1 (fof (2 ^ COMMON_RANGE_BITS)) = 2 ^ 18 mod nmod.
Proof. unfold fmul, fof. rewrite Z.mul_1_l. apply Zmod_mod. Qed.
Lemma fmuls k : 0 <= k -> fmul (2 ^ k mod nmod) (fof (2 ^ COMMON_RANGE_BITS)) = 2 ^ (k + 18) mod nmod.
Proof. intros H. unfold fmul, fof. rewrite <- Zmult_mod. change COMMON_RANGE_BITS with 18. rewrite Z.pow_add_r by lia. reflexivity. Qed.
Ltac shifts :=
  rewrite ?fmul1;
  repeat (rewrite fmuls by (cbn; lia); change (18 + 18) with 36; change (36 + 18) with 54; change (54 + 18) with 72; change (72 + 18) with 90);
  change COMMON_RANGE_BITS with 18 in *;
  repeat match goal with |- context [(2 ^ ?k) mod nmod] => let q := fresh "q" in destruct (modex (2 ^ k)) as [q ->] end.
Ltac rows n r := rewrite ?(Nat.mod_small _ n) by lia; replace (r + 0)%nat with r in * by lia;
  replace (r + 1)%nat with (S r) in * by lia; replace (r + 2)%nat with (S (S r)) in * by lia.

Lemma range1_eval n F adv r : (r < n)%nat ->
  eval n F adv r (gate 1) mod nmod = range_expr1 (cell_fix F) (cell_adv adv) r mod nmod.
Proof.
  intros H. cbn -[Z.pow]. unfold range_expr1, cell_fix, cell_adv. cbn -[Z.pow]. rows n r.
  set (l := f_fix F 9 r). set (v := adv 5%nat r). set (t := adv 6%nat r).
  destruct (fofex 2) as [a ->], (fofex 3) as [b ->]. apply modeq.
  exists ((v - t) * l * (- a * (l - 3 - b * nmod) - b * (l - 2))). ring.
Qed.
Lemma mod_sub_congr a b c d : a mod nmod = c mod nmod -> b mod nmod = d mod nmod -> (a - b) mod nmod = (c - d) mod nmod.
Proof. intros H1 H2. rewrite Zminus_mod, H1, H2, <- Zminus_mod. reflexivity. Qed.
Lemma mod_mul_congr a b c d : a mod nmod = c mod nmod -> b mod nmod = d mod nmod -> (a * b) mod nmod = (c * d) mod nmod.
Proof. intros H1 H2. rewrite Zmult_mod, H1, H2, <- Zmult_mod. reflexivity. Qed.
Lemma fof_mod a : fof a mod nmod = a mod nmod.
Proof. apply Zmod_mod. Qed.
Ltac congr := repeat first [reflexivity | apply mod_sub_congr | apply mod_mul_congr | apply fof_mod | apply Zmod_mod].
Lemma range2_eval n F adv r : (r + 1 < n)%nat ->
  eval n F adv r (gate 2) mod nmod = range_expr2 (cell_fix F) (cell_adv adv) r mod nmod.
Proof.
  intros H. cbn -[Z.pow COMMON_RANGE_BITS]. unfold range_expr2, cell_fix, cell_adv. cbn -[Z.pow COMMON_RANGE_BITS]. rows n r.
  rewrite fmul1. rewrite !fmuls by lia. change (18 + 18) with 36. change (36 + 18) with 54. rewrite Z.mul_1_r. congr.
Qed.
Lemma range3_eval n F adv r : (r + 2 < n)%nat ->
  eval n F adv r (gate 3) mod nmod = range_expr3 (cell_fix F) (cell_adv adv) r mod nmod.
Proof.
  intros H. cbn -[Z.pow COMMON_RANGE_BITS]. unfold range_expr3, cell_fix, cell_adv. cbn -[Z.pow COMMON_RANGE_BITS]. rows n r.
  rewrite fmul1. rewrite !fmuls by lia. change (18 + 18) with 36. change (36 + 18) with 54. change (54 + 18) with 72. change (72 + 18) with 90.
  rewrite Z.mul_1_r. congr.
Qed.
Lemma range_eval_zero n F adv r i : (1 <= i <= 3)%nat -> (r < n)%nat -> f_fix F 9 r = 0 -> eval n F adv r (gate i) = 0.
Proof.
  intros Hi H Z.
  destruct i as [|[|[|[|i]]]]; try lia; cbn -[Z.pow COMMON_RANGE_BITS]; replace (r + 0)%nat with r by lia;
    rewrite !(Nat.mod_small r n) by lia; rewrite Z; ring.
Qed.

(** The lookup table. *)
Lemma in_zrange k v : 0 <= k -> In v (zrange k) <-> 0 <= v < k.
Proof.
  intros H. unfold zrange. rewrite in_map_iff. split.
  - intros (j & <- & Hj). apply in_seq in Hj. lia.
  - intros Hv. exists (Z.to_nat v). rewrite Z2Nat.id by lia. split; [reflexivity|]. apply in_seq. lia.
Qed.
Lemma in_table a b : 2 ^ 18 < nmod -> In (a, b) range_table <-> in_range_table a b.
Proof.
  intros N. unfold range_table, in_range_table. rewrite in_concat. change COMMON_RANGE_BITS with 18. split.
  - intros (l & Hl & Hin). apply in_map_iff in Hl as (t & <- & Ht). apply in_zrange in Ht; [|lia].
    apply in_map_iff in Hin as (v & E & Hv). apply in_zrange in Hv; [|apply Z.pow_nonneg; lia].
    assert (P : 2 ^ t <= 2 ^ 18) by (apply Z.pow_le_mono_r; lia). unfold fof in E.
    rewrite !Z.mod_small in E by lia. injection E as <- <-. lia.
  - intros [Ha Hb]. exists (map (fun v => (fof a, fof v)) (zrange (2 ^ a))). split.
    + apply in_map_iff. exists a. split; [reflexivity|]. apply in_zrange; lia.
    + apply in_map_iff. exists b. assert (P : 2 ^ a <= 2 ^ 18) by (apply Z.pow_le_mono_r; lia).
      split; [unfold fof; rewrite !Z.mod_small by lia; reflexivity|]. apply in_zrange; lia.
Qed.
Lemma table_nonempty : 2 ^ 18 < nmod -> hd (0, 0) range_table = (0, 0) /\ In (0, 0) range_table.
Proof.
  intros N. split; [|apply in_table; [exact N|unfold in_range_table, COMMON_RANGE_BITS; lia]].
  unfold range_table. change (zrange (COMMON_RANGE_BITS + 1)) with (0 :: map Z.of_nat (seq 1 18)). cbn [map concat].
  change (zrange (2 ^ 0)) with [0]. cbn [map app hd]. unfold fof. rewrite Z.mod_0_l by lia. reflexivity.
Qed.
Lemma table_row i : 2 ^ 18 < nmod -> In (nth i range_table (hd (0, 0) range_table)) range_table.
Proof.
  intros N. destruct (Nat.lt_ge_cases i (length range_table)) as [L|L]; [apply nth_In, L|].
  rewrite nth_overflow by exact L. rewrite (proj1 (table_nonempty N)). apply table_nonempty, N.
Qed.

Local Opaque range_table.
(** The parts of a synthesised table. *)
Record table_of (c : ctx) (F : fixed_part) (w : nat -> nat -> Z) : Prop := {
  to_tag : forall row, f_fix F (rc_tag_table (cf_range cfg)) row = fst (nth row range_table (hd (0, 0) range_table));
  to_value : forall row, f_fix F (rc_value_table (cf_range cfg)) row = snd (nth row range_table (hd (0, 0) range_table));
  to_fix : forall ch col row, In (ch, col) fix_columns -> f_fix F (fix_col cfg ch col) row
     = opt0 (if (row <? fix_limit c ch)%nat then get_fix (c_mem c) (mkCell ch col row) else None);
  to_adv : forall ch col row, In (ch, col) adv_columns -> w (adv_col cfg ch col) row
     = opt0 (if (row <? adv_limit c ch)%nat then get_adv (c_mem c) (mkCell ch col row) else None);
  to_copy : forall a b, In (a, b) (c_perms c) <->
     In (((adv_col cfg (c_chip a) (c_col a)), c_row a), ((adv_col cfg (c_chip b) (c_col b)), c_row b)) (f_copies F)
     /\ adv_exists a = true /\ adv_exists b = true;
  to_copies : forall p q, In (p, q) (f_copies F) -> exists a b, In (a, b) (c_perms c)
     /\ p = (adv_col cfg (c_chip a) (c_col a), c_row a) /\ q = (adv_col cfg (c_chip b) (c_col b), c_row b);
  to_rows : forall a b, In (a, b) (c_perms c) -> (c_row a < height c (c_chip a))%nat /\ (c_row b < height c (c_chip b))%nat }.

Lemma adv_col_inj a b : adv_exists a = true -> adv_exists b = true ->
  adv_col cfg (c_chip a) (c_col a) = adv_col cfg (c_chip b) (c_col b) -> c_chip a = c_chip b /\ c_col a = c_col b.
Proof.
  destruct a as [cha ca ra], b as [chb cb rb]. unfold adv_exists. cbn [c_chip c_col]. intros Ha Hb.
  apply Nat.ltb_lt in Ha, Hb.
  destruct cha, chb;
    repeat (destruct ca as [|ca]; [|try (exfalso; lia)]); repeat (destruct cb as [|cb]; [|try (exfalso; lia)]); cbn; intros E; try discriminate E; auto.
Qed.

Lemma synthesise_inv c F w : synthesise cfg css c = Ok (F, w) -> table_of c F w.
Proof.
  unfold synthesise. destruct (assign_all c) as [r|] eqn:E; [|discriminate]. cbn [res_bind].
  destruct (forallb _ (r_copies r)) eqn:Q; [|discriminate]. intros H. injection H as <- <-.
  unfold assign_all in E. destruct (negb (chunk_size c =? 0)%nat && forallb (handle_fits c) (c_mem c) && _) eqn:G; [|discriminate].
  injection E as <-. cbn [r_copies r_adv r_fix] in *. apply andb_prop in G as [_ G]. rewrite forallb_forall in G, Q.
  constructor; cbn [f_fix f_copies].
  - reflexivity.
  - reflexivity.
  - intros ch col row H. unfold fix_columns in H. cbn in H.
    repeat match type of H with _ \/ _ => destruct H as [H|H]; [injection H as <- <-; reflexivity|] end. destruct H.
  - intros ch col row H. unfold adv_columns in H. cbn in H.
    repeat match type of H with _ \/ _ => destruct H as [H|H]; [injection H as <- <-; reflexivity|] end. destruct H.
  - intros a b. split.
    + intros H. split; [|].
      * apply in_map_iff. exists (a, b). split; [reflexivity|]. apply -> in_rev. exact H.
      * specialize (Q (a, b) (proj1 (in_rev _ _) H)). cbn [fst snd] in Q. apply andb_prop in Q as [Qa Qb].
        apply andb_prop in Qa as [Qa _]. apply andb_prop in Qb as [Qb _]. auto.
    + intros (H & Ha & Hb). apply in_map_iff in H as ([a' b'] & E & H). cbn [fst snd] in E.
      specialize (Q (a', b') H). cbn [fst snd] in Q. apply andb_prop in Q as [Qa Qb].
      apply andb_prop in Qa as [Qa _]. apply andb_prop in Qb as [Qb _].
      pose proof (f_equal (fun z => fst (fst z)) E) as E1. pose proof (f_equal (fun z => snd (fst z)) E) as E2.
      pose proof (f_equal (fun z => fst (snd z)) E) as E3. pose proof (f_equal (fun z => snd (snd z)) E) as E4.
      cbn [fst snd] in E1, E2, E3, E4.
      apply adv_col_inj in E1 as [E1 E1']; auto. apply adv_col_inj in E3 as [E3 E3']; auto.
      apply in_rev. destruct a, b, a', b'. cbn in *. subst. exact H.
  - intros p q H. apply in_map_iff in H as ([a b] & E & H). exists a, b. split; [apply in_rev; exact H|].
    injection E as <- <-. auto.
  - intros a b H. specialize (G (a, b) H). cbn [fst snd] in G. apply andb_prop in G as [Ga Gb]. unfold has_handle in Ga, Gb.
    apply andb_prop in Ga as [_ Ga]. apply andb_prop in Gb as [_ Gb]. apply Nat.ltb_lt in Ga, Gb. auto.
Qed.

(** Fixed cells of a covered context. *)
Lemma fix_at c F w ch col row : table_of c F w -> covered c -> In (ch, col) fix_columns ->
  f_fix F (fix_col cfg ch col) row = fixv c (mkCell ch col row).
Proof.
  intros T C H. rewrite (to_fix _ _ _ T) by exact H. unfold fixv. destruct (row <? fix_limit c ch)%nat eqn:L; [reflexivity|].
  destruct (get_fix (c_mem c) (mkCell ch col row)) eqn:E; [|reflexivity]. exfalso.
  assert (R : recorded c (mkCell ch col row)) by (right; congruence). specialize (C _ R). cbn [c_row c_chip] in C.
  apply Nat.ltb_ge in L. destruct ch; cbn [height fix_limit] in *; lia.
Qed.
Lemma fix_zero c x : covered c -> (height c (c_chip x) <= c_row x)%nat -> fixv c x = 0.
Proof.
  intros C H. unfold fixv. destruct (get_fix (c_mem c) x) eqn:E; [|reflexivity]. exfalso.
  assert (R : recorded c x) by (right; congruence). specialize (C _ R). lia.
Qed.
Ltac incol := unfold fix_columns, adv_columns; cbn; repeat first [left; reflexivity | right].

(** Non-base fixed values are field elements. *)
Definition tags_ok (c : ctx) : Prop := forall x v, c_chip x <> BaseChip -> get_fix (c_mem c) x = Some v -> 0 <= v < nmod.
Lemma tag_field c x : 0 < nmod -> tags_ok c -> c_chip x <> BaseChip -> 0 <= fixv c x < nmod.
Proof. intros N T H. unfold fixv. destruct (get_fix (c_mem c) x) eqn:E; cbn [opt0]; [eapply T; eauto|lia]. Qed.

Definition fits (c : ctx) (u : nat) : Prop := (base_h c + 2 <= u /\ range_h c + 2 <= u /\ select_h c + 2 <= u /\ length range_table <= u)%nat.

Section Dir.
Variables (c : ctx) (F : fixed_part) (w : nat -> nat -> Z) (u n : nat).
Hypothesis N : 2 ^ 18 < nmod.
Hypothesis T : table_of c F w.
Hypothesis C : covered c.
Hypothesis TG : tags_ok c.
Hypothesis U : fits c u.
Hypothesis Un : (u <= n)%nat.

Lemma cf ch col row : In (ch, col) fix_columns -> cell_fix F (mkCell ch col row) = fixv c (mkCell ch col row).
Proof. intros H. unfold cell_fix. cbn [c_chip c_col c_row]. eapply fix_at; eauto. Qed.

Lemma base_congr fx gx A B r : (forall col, (col < 9)%nat -> fx (bcell col r) = gx (bcell col r)) ->
  (forall col row, (col < 5)%nat -> (row = r \/ row = S r) -> A (bcell col row) = B (bcell col row)) ->
  base_expr fx A r = base_expr gx B r.
Proof. intros Hf Ha. unfold base_expr. rewrite !Hf, !Ha by (auto; lia). reflexivity. Qed.
Lemma range_congr fx gx A B r : fx (rcell AccLinesCol r) = gx (rcell AccLinesCol r) ->
  (forall col row, (col < 3)%nat -> (row = r \/ row = S r \/ row = S (S r)) -> A (rcell col row) = B (rcell col row)) ->
  range_expr1 fx A r = range_expr1 gx B r /\ range_expr2 fx A r = range_expr2 gx B r /\ range_expr3 fx A r = range_expr3 gx B r.
Proof.
  intros Hf Ha. unfold range_expr1, range_expr2, range_expr3. rewrite !Hf. unfold ValueAccCol, TaggedRangeCol, CommonRangeCol.
  rewrite !Ha by (auto; lia). auto.
Qed.

Ltac zerom := match goal with |- ?e mod _ = 0 => replace e with 0 by ring end; apply Z.mod_0_l; lia.
Ltac rr r r' E := rewrite ?Nat.add_0_r in E; repeat rewrite (Nat.mod_small r n) in E by lia; repeat rewrite (Nat.mod_small r' n) in E by lia.
(** Every assignment halo2 accepts comes from one that satisfies the recorded circuit. *)
Definition lifted (adv : nat -> nat -> Z) (x : cell) : Z := if (c_row x <? u)%nat then cell_adv adv x else 0.
Lemma lifted_in adv x : (c_row x < u)%nat -> lifted adv x = cell_adv adv x.
Proof. intros H. unfold lifted. rewrite (proj2 (Nat.ltb_lt _ _) H). reflexivity. Qed.
Lemma lifted_out adv x : (u <= c_row x)%nat -> lifted adv x = 0.
Proof. intros H. unfold lifted. rewrite (proj2 (Nat.ltb_ge _ _) H). reflexivity. Qed.
Lemma from_halo2 adv : cs_sat n u F adv css -> satisfies c (lifted adv).
Proof.
  intros S. destruct U as (U1 & U2 & U3 & U4).
  assert (FE : forall x, 0 <= lifted adv x < nmod).
  { intros x. unfold lifted. destruct (c_row x <? u)%nat; [apply (cs_field _ _ _ _ _ S)|lia]. }
  assert (G : forall i, (i < 4)%nat -> In (gate i) (cs_gates css)).
  { intros i Hi. rewrite gates_are. destruct i as [|[|[|[|i]]]]; cbn; auto 6; lia. }
  assert (L : forall i, (i < 3)%nat -> In (look i) (cs_lookups css)).
  { intros i Hi. rewrite looks_are. destruct i as [|[|[|i]]]; cbn; auto 6; lia. }
  split; [exact FE|]. split; [|split; [|split]].
  - intros r. unfold base_gate. destruct (Nat.lt_ge_cases r (base_h c)) as [H|H].
    + pose proof (cs_gate _ _ _ _ _ S _ (G 0%nat ltac:(lia)) r ltac:(lia)) as E. rewrite base_eval in E by lia. rewrite <- E. f_equal.
      apply base_congr.
      * intros col Hc. symmetry. apply cf. unfold fix_columns. do 9 (destruct col as [|col]; [incol|]). lia.
      * intros col row Hc Hr. apply lifted_in. cbn. lia.
    + unfold base_expr. rewrite !(fix_zero c) by (auto; cbn; lia). zerom.
  - intros r.
    assert (TC : in_range_table (fixv c (rcell TagCol r)) (lifted adv (rcell TaggedRangeCol r))
              /\ in_range_table COMMON_RANGE_BITS (lifted adv (rcell CommonRangeCol r))).
    { destruct (Nat.lt_ge_cases r u) as [H|H].
      - split.
        + destruct (cs_lookup _ _ _ _ _ S _ (L 0%nat ltac:(lia)) r H) as (r' & Hr' & E).
          pose proof (E (EFixed 10 0) (EFixed 11 0) ltac:(cbn; auto)) as E1. pose proof (E (EAdvice 6 0) (EFixed 12 0) ltac:(cbn; auto)) as E2.
          cbn [eval] in E1, E2. rr r r' E1. rr r r' E2.
          change (f_fix F 11 r') with (f_fix F (rc_tag_table (cf_range cfg)) r') in E1.
          change (f_fix F 12 r') with (f_fix F (rc_value_table (cf_range cfg)) r') in E2.
          rewrite (to_tag _ _ _ T) in E1. rewrite (to_value _ _ _ T) in E2.
          change (f_fix F 10 r) with (cell_fix F (mkCell RangeChip TagCol r)) in E1. rewrite cf in E1 by incol.
          pose proof (table_row r' N) as TR. destruct (nth r' range_table _) as [t v]. cbn [fst snd] in E1, E2.
          apply in_table in TR; [|exact N]. unfold in_range_table in TR. change COMMON_RANGE_BITS with 18 in TR.
          assert (2 ^ t <= 2 ^ 18) by (apply Z.pow_le_mono_r; lia).
          rewrite Z.mod_small in E1 by (apply tag_field; [lia|exact TG|discriminate]).
          rewrite Z.mod_small in E1 by lia.
          rewrite Z.mod_small in E2 by apply (cs_field _ _ _ _ _ S). rewrite Z.mod_small in E2 by lia.
          rewrite lifted_in by exact H. unfold cell_adv. cbn. change (fixv c (mkCell RangeChip TagCol r)) with (fixv c (rcell TagCol r)) in E1.
          rewrite E1. change (adv 6%nat r) with (adv 6%nat r) in E2. rewrite E2. exact TR.
        + destruct (cs_lookup _ _ _ _ _ S _ (L 1%nat ltac:(lia)) r H) as (r' & Hr' & E).
          pose proof (E (EConst (fof COMMON_RANGE_BITS)) (EFixed 11 0) ltac:(left; reflexivity)) as E1.
          pose proof (E (EAdvice 7 0) (EFixed 12 0) ltac:(right; left; reflexivity)) as E2.
          cbn [eval] in E1, E2. rr r r' E1. rr r r' E2.
          change (f_fix F 11 r') with (f_fix F (rc_tag_table (cf_range cfg)) r') in E1.
          change (f_fix F 12 r') with (f_fix F (rc_value_table (cf_range cfg)) r') in E2.
          rewrite (to_tag _ _ _ T) in E1. rewrite (to_value _ _ _ T) in E2.
          pose proof (table_row r' N) as TR. destruct (nth r' range_table _) as [t v]. cbn [fst snd] in E1, E2.
          apply in_table in TR; [|exact N]. unfold in_range_table in TR. change COMMON_RANGE_BITS with 18 in *.
          assert (2 ^ t <= 2 ^ 18) by (apply Z.pow_le_mono_r; lia).
          unfold fof in E1. rewrite Zmod_mod in E1. rewrite !Z.mod_small in E1 by lia.
          rewrite Z.mod_small in E2 by apply (cs_field _ _ _ _ _ S). rewrite Z.mod_small in E2 by lia.
          rewrite lifted_in by exact H. unfold cell_adv. cbn. rewrite E1, E2. exact TR.
      - rewrite !lifted_out by exact H. rewrite (fix_zero c) by (auto; cbn; lia). unfold in_range_table, COMMON_RANGE_BITS. lia. }
    destruct TC as [T1 T2]. split; [exact T1|]. split; [exact T2|].
    destruct (Nat.lt_ge_cases r (range_h c)) as [H|H].
    + destruct (range_congr (fixv c) (cell_fix F) (lifted adv) (cell_adv adv) r) as (E1 & E2 & E3).
      * symmetry. apply cf. incol.
      * intros col row Hc Hr. apply lifted_in. cbn. lia.
      * rewrite E1, E2, E3, <- (range1_eval n), <- (range2_eval n), <- (range3_eval n) by lia.
        split; [|split]; apply (cs_gate _ _ _ _ _ S); auto with arith; lia.
    + unfold range_expr1, range_expr2, range_expr3. rewrite !(fix_zero c) by (auto; cbn; lia).
      split; [|split]; zerom.
  - intros r. unfold select_row, select_input. destruct (Nat.lt_ge_cases r u) as [H|H].
    + destruct (cs_lookup _ _ _ _ _ S _ (L 2%nat ltac:(lia)) r H) as (r' & Hr' & E).
      pose proof (E _ _ (or_introl eq_refl)) as E1. pose proof (E _ _ (or_intror (or_introl eq_refl))) as E2.
      pose proof (E _ _ (or_intror (or_intror (or_introl eq_refl)))) as E3.
      cbn [eval] in E1, E2, E3. rr r r' E1. rr r r' E2. rr r r' E3.
      rewrite !Z.mod_small in E1 by apply (cs_field _ _ _ _ _ S).
      change (f_fix F 13) with (fun q => cell_fix F (mkCell SelectChip EncodeCol q)) in E2. change (f_fix F 14 r') with (cell_fix F (mkCell SelectChip IsLookupCol r')) in E3.
      cbv beta in E2. rewrite !cf in E2 by incol. rewrite cf in E3 by incol.
      rewrite (Z.mod_small (fixv c (mkCell SelectChip EncodeCol r'))) in E2 by (apply tag_field; [lia|exact TG|discriminate]).
      rewrite (Z.mod_small (fixv c (mkCell SelectChip IsLookupCol r'))) in E3 by (apply tag_field; [lia|exact TG|discriminate]).
      exists r'. rewrite !lifted_in by assumption. unfold cell_adv. cbn [scell c_chip c_col c_row]. cbn -[Z.pow Z.modulo].
      split; [symmetry; exact E1|]. split; [|rewrite Z.mod_0_l in E3 by lia; symmetry; exact E3].
      refine (eq_trans (eq_sym E2) _). rewrite Zplus_mod, (Zmult_mod _ (fof _)), fof_mod, <- Zmult_mod, <- Zplus_mod. reflexivity.
    + exists r. rewrite !lifted_out by exact H. rewrite !(fix_zero c) by (auto; cbn; lia).
      split; [reflexivity|]. split; [|reflexivity]. rewrite Z.mul_0_l. symmetry. apply Z.mod_0_l. lia.
  - intros a b H. destruct (to_rows _ _ _ T _ _ H) as [Ra Rb].
    assert (Ra' : (c_row a < u)%nat) by (destruct (c_chip a); cbn in Ra; lia).
    assert (Rb' : (c_row b < u)%nat) by (destruct (c_chip b); cbn in Rb; lia).
    rewrite !lifted_in by assumption. apply (to_copy _ _ _ T) in H as (H & _ & _). apply (cs_copy _ _ _ _ _ S) in H. exact H.
Qed.

(** The honest witness is accepted by halo2. *)
Hypothesis V : forall x, get_adv (c_mem c) x <> None -> (c_row x < adv_limit c (c_chip x))%nat.
Lemma to_halo2 adv : satisfies c (honest c) -> (forall col row, 0 <= adv col row < nmod) ->
  (forall col row, (row < u)%nat -> adv col row = w col row) -> cs_sat n u F adv css.
Proof.
  intros (FE & B & R & SE & P) AF AW. destruct U as (U1 & U2 & U3 & U4).
  assert (AH : forall ch col row, In (ch, col) adv_columns -> (row < u)%nat ->
     adv (adv_col cfg ch col) row = honest c (mkCell ch col row)).
  { intros ch col row Hc Hr. rewrite AW by exact Hr. rewrite (to_adv _ _ _ T) by exact Hc. unfold honest.
    destruct (row <? adv_limit c ch)%nat eqn:L; [reflexivity|]. destruct (get_adv (c_mem c) (mkCell ch col row)) eqn:E; [|reflexivity].
    apply Nat.ltb_ge in L. exfalso. assert (Q : get_adv (c_mem c) (mkCell ch col row) <> None) by congruence. specialize (V _ Q). cbn in V. lia. }
  assert (HZ : forall x, (height c (c_chip x) <= c_row x)%nat -> honest c x = 0).
  { intros x H. unfold honest. destruct (get_adv (c_mem c) x) eqn:E; [|reflexivity]. exfalso.
    assert (Q : recorded c x) by (left; congruence). specialize (C _ Q). lia. }
  assert (FZ : forall ch col row, In (ch, col) fix_columns -> (height c ch <= row)%nat -> f_fix F (fix_col cfg ch col) row = 0).
  { intros ch col row Hc Hr. erewrite fix_at by eauto. apply fix_zero; auto. }
  constructor.
  - exact AF.
  - intros e He row Hr. rewrite gates_are in He. cbn [In] in He.
    assert (RR : forall i, (1 <= i <= 3)%nat -> eval n F adv row (gate i) mod nmod = 0).
    { intros i Hi. destruct (Nat.lt_ge_cases row (range_h c)) as [H|H].
      - destruct (range_congr (cell_fix F) (fixv c) (cell_adv adv) (honest c) row) as (E1 & E2 & E3).
        + apply cf. incol.
        + intros col r0 Hc Hr0. unfold cell_adv. cbn [rcell c_chip c_col c_row]. apply AH; [|lia].
          do 3 (destruct col as [|col]; [incol|]). lia.
        + specialize (R row). destruct R as (_ & _ & R1 & R2 & R3).
          destruct i as [|[|[|[|i]]]]; try lia; [rewrite range1_eval by lia|rewrite range2_eval by lia|rewrite range3_eval by lia];
            rewrite ?E1, ?E2, ?E3; assumption.
      - rewrite range_eval_zero; [apply Z.mod_0_l; lia|exact Hi|exact Hr|]. apply (FZ RangeChip AccLinesCol); [incol|exact H]. }
    destruct He as [<-|[<-|[<-|[<-|[]]]]]; [|apply RR; lia..].
    destruct (Nat.lt_ge_cases row (base_h c)) as [H|H].
    + rewrite base_eval by lia. rewrite (base_congr (cell_fix F) (fixv c) (cell_adv adv) (honest c)); [apply B| |].
      * intros col Hc. apply cf. do 9 (destruct col as [|col]; [incol|]). lia.
      * intros col r0 Hc Hr0. unfold cell_adv. cbn [bcell c_chip c_col c_row]. apply AH; [|lia].
        do 5 (destruct col as [|col]; [incol|]). lia.
    + rewrite base_eval_zero; [apply Z.mod_0_l; lia|exact Hr|]. intros col Hc.
      do 9 (destruct col as [|col]; [match goal with |- f_fix F ?k _ = 0 => apply (FZ BaseChip k); [incol|exact H] end|]). lia.
  - intros l Hl row Hr. rewrite looks_are in Hl. cbn [In] in Hl.
    assert (TB : forall t v, in_range_table t v -> exists r', (r' < u)%nat /\ f_fix F 11 r' = t /\ f_fix F 12 r' = v).
    { intros t v H. apply in_table in H; [|exact N]. destruct (In_nth _ _ (hd (0, 0) range_table) H) as (r' & Hr' & E).
      exists r'. split; [lia|].
      change (f_fix F 11 r') with (f_fix F (rc_tag_table (cf_range cfg)) r'). change (f_fix F 12 r') with (f_fix F (rc_value_table (cf_range cfg)) r').
      rewrite (to_tag _ _ _ T), (to_value _ _ _ T), E. auto. }
    destruct (R row) as (R1 & R2 & _).
    destruct Hl as [<-|[<-|[<-|[]]]].
    + destruct (TB _ _ R1) as (r' & Hr' & E1 & E2). exists r'. split; [exact Hr'|].
      intros i t [H|[H|[]]]; injection H as <- <-; cbn [eval]; rewrite !Nat.add_0_r, !(Nat.mod_small _ n) by lia; rewrite ?E1, ?E2; f_equal.
      * apply (fix_at _ _ _ RangeChip TagCol row T C). incol.
      * apply (AH RangeChip TaggedRangeCol row); [incol|exact Hr].
    + destruct (TB _ _ R2) as (r' & Hr' & E1 & E2). exists r'. split; [exact Hr'|].
      intros i t [H|[H|[]]]; injection H as <- <-; cbn [eval]; rewrite ?Nat.add_0_r, ?(Nat.mod_small _ n) by lia; rewrite ?E1, ?E2.
      * apply fof_mod.
      * f_equal. apply (AH RangeChip CommonRangeCol row); [incol|exact Hr].
    + destruct (SE row) as (r' & E1 & E2 & E3).
      set (r0 := if (r' <? u)%nat then r' else select_h c).
      assert (R0 : (r0 < u)%nat) by (unfold r0; destruct (r' <? u)%nat eqn:Q; [apply Nat.ltb_lt in Q|]; lia).
      assert (Q : honest c (scell ValueCol r0) = honest c (scell ValueCol r') /\ fixv c (scell EncodeCol r0) = fixv c (scell EncodeCol r')
               /\ fixv c (scell IsLookupCol r0) = fixv c (scell IsLookupCol r')).
      { unfold r0. destruct (r' <? u)%nat eqn:Q; [auto|]. apply Nat.ltb_ge in Q.
        rewrite !HZ by (cbn; lia). rewrite !(fix_zero c) by (auto; cbn; lia). auto. }
      destruct Q as (Q1 & Q2 & Q3). exists r0. split; [exact R0|].
      assert (F13 : forall q, f_fix F 13 q = fixv c (scell EncodeCol q)) by (intros q; apply (fix_at _ _ _ SelectChip EncodeCol q T C); incol).
      assert (F14 : forall q, f_fix F 14 q = fixv c (scell IsLookupCol q)) by (intros q; apply (fix_at _ _ _ SelectChip IsLookupCol q T C); incol).
      assert (A8 : forall q, (q < u)%nat -> adv 8%nat q = honest c (scell ValueCol q)) by (intros q Hq; apply (AH SelectChip ValueCol q); [incol|exact Hq]).
      assert (A9 : forall q, (q < u)%nat -> adv 9%nat q = honest c (scell SelectCol q)) by (intros q Hq; apply (AH SelectChip SelectCol q); [incol|exact Hq]).
      intros i t [H|[H|[H|[]]]]; injection H as <- <-; cbn [eval]; rewrite ?Nat.add_0_r, ?(Nat.mod_small _ n) by lia.
      * change (sl_limb_info _) with 8%nat. rewrite !A8 by assumption. rewrite Q1, E1. reflexivity.
      * rewrite A9 by assumption. rewrite !F13. rewrite Q2, E2. unfold select_input. rewrite Zmod_mod.
        rewrite Zplus_mod, (Zmult_mod _ (fof _)), fof_mod, <- Zmult_mod, <- Zplus_mod. reflexivity.
      * rewrite F14, Q3, E3. reflexivity.
  - intros c1 r1 c2 r2 H. apply (to_copies _ _ _ T) in H as (a & b & H & Ea & Eb). injection Ea as -> ->. injection Eb as -> ->.
    destruct (to_rows _ _ _ T _ _ H) as [Ra Rb].
    assert (Ra' : (c_row a < u)%nat) by (destruct (c_chip a); cbn in Ra; lia).
    assert (Rb' : (c_row b < u)%nat) by (destruct (c_chip b); cbn in Rb; lia).
    pose proof (proj2 (proj1 (to_copy _ _ _ T a b) H)) as [Xa Xb].
    assert (IN : forall x, adv_exists x = true -> In (c_chip x, c_col x) adv_columns).
    { intros [ch col row]. unfold adv_exists. cbn [c_chip c_col]. intros Q. apply Nat.ltb_lt in Q.
      destruct ch; cbn in Q; do 5 (destruct col as [|col]; [solve [incol]|try (exfalso; lia)]). }
    rewrite !AH by auto. specialize (P a b H). destruct a, b. exact P.
Qed.
End Dir.
End P.
