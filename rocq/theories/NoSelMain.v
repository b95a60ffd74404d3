(** Proofs of C56. *)
From Verif Require Import Prelude FieldZ Circuit Context Spec Logic Prims BaseChip RangeInfo RangeChip IntegerChip EccChip ScalarChip Msm
  Moduli Fields PairingConsts Fq12Chip PairingChip KeccakChip Synth SpecHeights SpecRecorder Heights Progs SynthMain Halo2 Configure ConfigProofs ConfigMain
  SpecHandles HandMain NoSelect SpecNoSelect NoSelGadgets NoSelMore.
Ltac nsg := solve [intros; auto 4 with nsa nocore | NoSelGadgets.nsa].
Local Opaque range_table.
Section Ns.
Context {NM : NMod}.
Definition cfg_ns : config_ns := Eval cbv -[fof fmul Z.pow COMMON_RANGE_BITS nmod] in fst (configure_ns cs_new).
Definition css_ns : cs := Eval cbv -[fof fmul Z.pow COMMON_RANGE_BITS nmod] in snd (configure_ns cs_new).
Lemma configured_ns : configure_ns cs_new = (cfg_ns, css_ns).
Proof. cbv -[fof fmul Z.pow COMMON_RANGE_BITS nmod]. reflexivity. Qed.

Fixpoint within (e : expr) : bool :=
  match e with
  | EConst _ => true
  | EFixed col _ => (col <? 13)%nat
  | EAdvice col _ => (col <? 8)%nat
  | ESum a b | ESub a b | EMul a b => within a && within b
  end.
Lemma eval_within n F F0 adv adv0 row e : within e = true ->
  (forall col r, (col < 13)%nat -> f_fix F col r = f_fix F0 col r) -> (forall col r, (col < 8)%nat -> adv col r = adv0 col r) ->
  eval n F adv row e = eval n F0 adv0 row e.
Proof.
  intros W HF HA. induction e; cbn [within eval] in *; try reflexivity.
  - apply HF. apply Nat.ltb_lt, W.
  - apply HA. apply Nat.ltb_lt, W.
  - apply andb_prop in W as [W1 W2]. rewrite IHe1, IHe2; auto.
  - apply andb_prop in W as [W1 W2]. rewrite IHe1, IHe2; auto.
  - apply andb_prop in W as [W1 W2]. rewrite IHe1, IHe2; auto.
Qed.
Lemma gates_same : cs_gates css = cs_gates css_ns.
Proof. reflexivity. Qed.
Lemma gates_within e : In e (cs_gates css_ns) -> within e = true.
Proof.
  assert (H : forallb within (cs_gates css_ns) = true) by (unfold css_ns; cbn [cs_gates forallb within]; reflexivity).
  rewrite forallb_forall in H. apply H.
Qed.
Definition sel_look : list (expr * expr) := nth 2 (cs_lookups css) [].
Lemma looks_split : cs_lookups css = cs_lookups css_ns ++ [sel_look].
Proof. reflexivity. Qed.
Lemma looks_within l i t : In l (cs_lookups css_ns) -> In (i, t) l -> within i = true /\ within t = true.
Proof.
  assert (H : forallb (forallb (fun p => within (fst p) && within (snd p))) (cs_lookups css_ns) = true)
    by (unfold css_ns; cbn [cs_lookups forallb within fst snd]; reflexivity).
  rewrite forallb_forall in H. intros Hl Hp. specialize (H l Hl). rewrite forallb_forall in H. specialize (H _ Hp). cbn [fst snd] in H.
  apply andb_prop in H. exact H.
Qed.

(** Nothing is recorded for a select chip of height 0. *)
Lemma sel_none c x : covered c -> select_h c = O -> is_select x = true -> get_adv (c_mem c) x = None /\ get_fix (c_mem c) x = None.
Proof.
  intros C S0 H. unfold is_select in H. destruct (c_chip x) eqn:E; try discriminate.
  assert (N : ~ recorded c x) by (intros R; apply C in R; rewrite E in R; cbn in R; lia).
  unfold recorded in N. split; [destruct (get_adv (c_mem c) x)|destruct (get_fix (c_mem c) x)]; auto; exfalso; apply N; [left|right]; discriminate.
Qed.
Lemma in_mem_adv mm x v : In (WAdv x v) mm -> get_adv mm x <> None.
Proof.
  induction mm as [|w mm IH]; [intros []|]. cbn [In get_adv]. intros [->|H].
  - rewrite cell_eqb_refl. discriminate.
  - destruct w as [y v'|y v'|y]; auto. destruct (cell_eqb y x); [discriminate|auto].
Qed.
Lemma handle_not_select c x : covered c -> select_h c = O -> has_handle c x = true -> is_select x = false.
Proof.
  intros C S0 H. destruct (is_select x) eqn:E; [|reflexivity]. destruct (sel_none c x C S0 E) as [A _].
  unfold has_handle, visited in H. rewrite A in H. rewrite andb_false_r in H. discriminate.
Qed.
Lemma assign_ns_eq c : covered c -> match assign_all_with_optional_select_chip false c with
  | Ok r => select_h c = O /\ exists r', assign_all c = Ok r' /\ (forall x, r_adv r x = r_adv r' x) /\ (forall x, r_fix r x = r_fix r' x)
            /\ (forall x, is_select x = true -> r_adv r' x = None /\ r_fix r' x = None)
            /\ r_copies r = r_copies r' /\ forallb (fun p => negb (is_select (fst p)) && negb (is_select (snd p))) (r_copies r) = true
  | Panic => select_h c = O -> assign_all c = Panic end.
Proof.
  intros C. unfold assign_all_with_optional_select_chip. destruct (Nat.eqb_spec (select_h c) 0) as [S0|S0].
  2:{ rewrite andb_false_r. cbn. intros E. contradiction. }
  assert (E1 : forallb (handle_fits c) (filter (fun w => negb (writes_select w)) (c_mem c)) = forallb (handle_fits c) (c_mem c)).
  { apply eq_true_iff_eq. rewrite !forallb_forall. split; intros H w Hw.
    - destruct (writes_select w) eqn:E; [|apply H; apply filter_In; rewrite E; auto].
      destruct w as [x v|x v|x]; try reflexivity. cbn in E. destruct (sel_none c x C S0 E) as [A _]. apply in_mem_adv in Hw. contradiction.
    - apply filter_In in Hw as [Hw _]. auto. }
  assert (E2 : forallb (fun p => negb (is_select (fst p)) && has_handle c (fst p) && (negb (is_select (snd p)) && has_handle c (snd p))) (c_perms c)
    = forallb (fun p => has_handle c (fst p) && has_handle c (snd p)) (c_perms c)).
  { apply eq_true_iff_eq. rewrite !forallb_forall. split; intros H p Hp; specialize (H p Hp).
    - apply andb_prop in H as [H1 H2]. apply andb_prop in H1 as [_ ->]. apply andb_prop in H2 as [_ ->]. reflexivity.
    - apply andb_prop in H as [H1 H2]. rewrite H1, H2, (handle_not_select _ _ C S0 H1), (handle_not_select _ _ C S0 H2). reflexivity. }
  rewrite E1, E2. cbn [andb]. rewrite andb_true_r. unfold assign_all.
  destruct (negb (chunk_size c =? 0)%nat && forallb (handle_fits c) (c_mem c)
     && forallb (fun p => has_handle c (fst p) && has_handle c (snd p)) (c_perms c)) eqn:G; [|reflexivity].
  split; [exact S0|]. eexists. split; [reflexivity|]. cbn [r_adv r_fix r_copies].
  split; [|split; [|split; [|split; [reflexivity|]]]].
  - intros x. destruct (is_select x) eqn:E; [|reflexivity]. destruct (sel_none c x C S0 E) as [-> _]. cbn. repeat match goal with |- context [if ?b then _ else _] => destruct b end; reflexivity.
  - intros x. destruct (is_select x) eqn:E; [|reflexivity]. destruct (sel_none c x C S0 E) as [_ ->]. cbn. repeat match goal with |- context [if ?b then _ else _] => destruct b end; reflexivity.
  - intros x E. destruct (sel_none c x C S0 E) as [-> ->]. split; repeat match goal with |- context [if ?b then _ else _] => destruct b end; reflexivity.
  - apply andb_prop in G as [_ G]. rewrite forallb_forall in *. intros p Hp. apply in_rev in Hp. specialize (G p Hp). apply andb_prop in G as [H1 H2].
    rewrite (handle_not_select _ _ C S0 H1), (handle_not_select _ _ C S0 H2). reflexivity.
Qed.
Lemma ok_same x : is_select x = false ->
  (adv_exists x && existsb (Nat.eqb (adv_col cfg (c_chip x) (c_col x))) (cs_eq css))
  = (adv_exists x && existsb (Nat.eqb (adv_col_ns cfg_ns (c_chip x) (c_col x))) (cs_eq css_ns)).
Proof.
  destruct x as [[| |] col row]; intros E; [| |discriminate]; unfold adv_exists, adv_col, adv_col_ns, cfg, cfg_ns, css, css_ns; cbn.
  - do 5 (destruct col as [|col]; [reflexivity|]). reflexivity.
  - do 3 (destruct col as [|col]; [reflexivity|]). reflexivity.
Qed.
Lemma place_same x : is_select x = false -> adv_col cfg (c_chip x) (c_col x) = adv_col_ns cfg_ns (c_chip x) (c_col x).
Proof. destruct x as [[| |] col row]; intros E; [reflexivity|reflexivity|discriminate]. Qed.
Lemma col_small x : is_select x = false ->
  (adv_exists x && existsb (Nat.eqb (adv_col_ns cfg_ns (c_chip x) (c_col x))) (cs_eq css_ns)) = true -> (adv_col_ns cfg_ns (c_chip x) (c_col x) < 8)%nat.
Proof.
  intros _ H. apply andb_prop in H as [_ H]. apply existsb_exists in H as (k & Hk & E). apply Nat.eqb_eq in E. rewrite E.
  unfold css_ns in Hk. cbn [cs_eq In] in Hk. lia.
Qed.
Definition same_table (c : ctx) (F F0 : fixed_part) (w w0 : nat -> nat -> Z) : Prop :=
  (forall col r, (col < 13)%nat -> f_fix F col r = f_fix F0 col r) /\ (forall r, f_fix F 13 r = 0 /\ f_fix F 14 r = 0)
  /\ f_copies F = f_copies F0 /\ (forall col r, (col < 8)%nat -> w col r = w0 col r) /\ (forall col r, (8 <= col)%nat -> w col r = 0)
  /\ (forall a b, In (a, b) (f_copies F0) -> (fst a < 8)%nat /\ (fst b < 8)%nat).
Lemma ns_ok c : covered c -> (match synthesise_ns cfg_ns css_ns c with
  | Ok (F0, w0) => select_h c = O /\ exists F w, synthesise cfg css c = Ok (F, w) /\ same_table c F F0 w w0
  | Panic => select_h c = O -> synthesise cfg css c = Panic end).
Proof.
  intros C. pose proof (assign_ns_eq c C) as A. unfold synthesise_ns, synthesise.
  destruct (assign_all_with_optional_select_chip false c) as [r|]; [|intros S0; rewrite (A S0); reflexivity].
  destruct A as (S0 & r' & -> & HA & HF & NS & HC & HS). cbn [res_bind].
  assert (E : forallb (fun p => (adv_exists (fst p) && existsb (Nat.eqb (adv_col cfg (c_chip (fst p)) (c_col (fst p)))) (cs_eq css))
                           && (adv_exists (snd p) && existsb (Nat.eqb (adv_col cfg (c_chip (snd p)) (c_col (snd p)))) (cs_eq css))) (r_copies r')
            = forallb (fun p => (adv_exists (fst p) && existsb (Nat.eqb (adv_col_ns cfg_ns (c_chip (fst p)) (c_col (fst p)))) (cs_eq css_ns))
                           && (adv_exists (snd p) && existsb (Nat.eqb (adv_col_ns cfg_ns (c_chip (snd p)) (c_col (snd p)))) (cs_eq css_ns))) (r_copies r)).
  { rewrite <- HC. rewrite forallb_forall in HS. clear - HS. induction (r_copies r) as [|p l IH]; [reflexivity|]. cbn [forallb].
    assert (Hp := HS p (or_introl eq_refl)). apply andb_prop in Hp as [H1 H2]. apply negb_true_iff in H1, H2.
    rewrite (ok_same _ H1), (ok_same _ H2), IH; [reflexivity|]. intros q Hq. apply HS. right. exact Hq. }
  rewrite E. match goal with |- context [if ?b then _ else _] => destruct b eqn:G end; [|intros _; reflexivity].
  split; [exact S0|]. do 2 eexists. split; [reflexivity|].
  unfold same_table. cbn [f_fix f_copies]. split; [|split; [|split; [|split; [|split]]]].
  - intros col row L. do 13 (destruct col as [|col]; [cbn; rewrite ?HF; reflexivity|]). lia.
  - intros row. split; cbn; destruct (NS (mkCell SelectChip 0 row) eq_refl) as [_ N0]; destruct (NS (mkCell SelectChip 1 row) eq_refl) as [_ N1]; rewrite ?N0, ?N1; reflexivity.
  - rewrite <- HC. apply map_ext_in. intros p Hp. rewrite forallb_forall in HS. specialize (HS p Hp). apply andb_prop in HS as [H1 H2].
    apply negb_true_iff in H1, H2. rewrite (place_same _ H1), (place_same _ H2). reflexivity.
  - intros col row L. do 8 (destruct col as [|col]; [cbn; rewrite ?HA; reflexivity|]). lia.
  - intros col row L. do 8 (destruct col as [|col]; [lia|]).
    destruct (NS (mkCell SelectChip 0 row) eq_refl) as [N0 _]; destruct (NS (mkCell SelectChip 1 row) eq_refl) as [N1 _].
    destruct col as [|col]; [cbn; rewrite ?N0, ?N1; reflexivity|]. destruct col as [|col]; [cbn; rewrite ?N0, ?N1; reflexivity|]. reflexivity.
  - intros a b Hab. apply in_map_iff in Hab as (p & Ep & Hp). injection Ep as <- <-. cbn [fst].
    rewrite forallb_forall in G, HS. specialize (G p Hp). specialize (HS p Hp). apply andb_prop in HS as [H1 H2]. apply negb_true_iff in H1, H2.
    apply andb_prop in G as [G1 G2]. split; [exact (col_small _ H1 G1)|exact (col_small _ H2 G2)].
Qed.
Lemma sat_full c F F0 w w0 n u adv0 : 0 < nmod -> same_table c F F0 w w0 ->
  cs_sat n u F0 adv0 css_ns -> cs_sat n u F (fun col r => if (col <? 8)%nat then adv0 col r else 0) css.
Proof.
  intros NP (T1 & T2 & T3 & T4 & T5 & T6) [S1 S2 S3 S4].
  set (adv := fun col r => if (col <? 8)%nat then adv0 col r else 0).
  assert (HA : forall col r, (col < 8)%nat -> adv col r = adv0 col r) by (intros col r L; unfold adv; apply Nat.ltb_lt in L; rewrite L; reflexivity).
  constructor.
  - intros col r. unfold adv. destruct (col <? 8)%nat; [apply S1|lia].
  - rewrite gates_same. intros e He row Hr. rewrite (eval_within n F F0 adv adv0); auto using gates_within.
  - rewrite looks_split. intros l Hl row Hr. apply in_app_iff in Hl as [Hl|[<-|[]]].
    + destruct (S3 l Hl row Hr) as (row' & Hr' & K). exists row'. split; [exact Hr'|]. intros i t Hit.
      destruct (looks_within l i t Hl Hit) as [Wi Wt]. rewrite (eval_within n F F0 adv adv0 row i), (eval_within n F F0 adv adv0 row' t); auto.
    + exists row. split; [exact Hr|]. intros i t Hit. unfold sel_look, css in Hit. cbn [cs_lookups nth In] in Hit.
      assert (Z13 : forall r, f_fix F 13 r = 0) by (intros; apply T2). assert (Z14 : forall r, f_fix F 14 r = 0) by (intros; apply T2).
      destruct Hit as [E|[E|[E|[]]]]; injection E as <- <-; cbn [eval]; rewrite ?Z13, ?Z14; unfold adv; cbn [Nat.ltb Nat.leb]; reflexivity.
  - intros c1 r1 c2 r2 Hc. rewrite T3 in Hc. destruct (T6 _ _ Hc) as [L1 L2]. cbn [fst] in L1, L2. rewrite !HA by assumption. apply S4. exact Hc.
Qed.
Lemma sat_part c F F0 w w0 n u adv adv0 : same_table c F F0 w w0 -> (forall col r, 0 <= adv0 col r < nmod) ->
  (forall col r, (col < 8)%nat -> adv col r = adv0 col r) -> cs_sat n u F adv css -> cs_sat n u F0 adv0 css_ns.
Proof.
  intros (T1 & T2 & T3 & T4 & T5 & T6) AF HA [S1 S2 S3 S4]. constructor.
  - exact AF.
  - intros e He row Hr. rewrite <- (eval_within n F F0 adv adv0 row e (gates_within e He) T1 HA). apply S2; [rewrite gates_same|]; assumption.
  - intros l Hl row Hr. destruct (S3 l) with (row := row) as (row' & Hr' & K); [rewrite looks_split; apply in_app_iff; auto|exact Hr|].
    exists row'. split; [exact Hr'|]. intros i t Hit. destruct (looks_within l i t Hl Hit) as [Wi Wt].
    rewrite <- (eval_within n F F0 adv adv0 row i), <- (eval_within n F F0 adv adv0 row' t); auto.
  - intros c1 r1 c2 r2 Hc. destruct (T6 _ _ Hc) as [L1 L2]. cbn [fst] in L1, L2. rewrite <- !HA by assumption. apply S4. rewrite T3. exact Hc.
Qed.
End Ns.

Lemma C56_gadgets_main :
  forall (NM : NMod),
    (forall (pairs : list pair_t) (constant : option Z), leaves_select (one_line_add pairs constant))
 /\ (forall (elems : list (av * Z)) (constant : option Z), leaves_select (sum_with_constant_in_one_line elems constant))
 /\ (forall (elems : list (av * Z)) (constant : option Z), leaves_select (sum_with_constant elems constant))
 /\ (forall (a : av) (b : av), leaves_select (add a b))
 /\ (forall (a : av) (c : Z), leaves_select (add_constant a c))
 /\ (forall (a : av) (b : av), leaves_select (sub a b))
 /\ (forall (a : av) (b : av), leaves_select (mul a b))
 /\ (forall (a : av) (b : av) (c : Z), leaves_select (mul_add_constant a b c))
 /\ (forall (a : av) (b : av) (ab_coeff : Z) (c : av) (c_coeff : Z), leaves_select (mul_add a b ab_coeff c c_coeff))
 /\ (forall (first : bool) (t : Z) (ls : list mterm), leaves_select (mul_add_lines first t ls))
 /\ (forall (ls : list mterm), leaves_select (mul_add_with_next_line ls))
 /\ (forall (a : av), leaves_select (invert_unsafe a))
 /\ (forall (a : av), leaves_select (invert a))
 /\ (forall (a : av), leaves_select (is_zero a))
 /\ (forall (a : av) (b : av), leaves_select (div_unsafe a b))
 /\ (forall (v : Z), leaves_select (assign_constant v))
 /\ (forall (v : Z), leaves_select (assign v))
 /\ (forall (a : Z), leaves_select (assign_bit a))
 /\ (forall (a : av) (b : av), leaves_select (assert_equal a b))
 /\ (forall (a : av) (b : Z), leaves_select (assert_constant a b))
 /\ (forall (a : av), leaves_select (assert_bit a))
 /\ (forall (a : acond) (b : acond), leaves_select (and_ a b))
 /\ (forall (a : acond), leaves_select (not_ a))
 /\ (forall (a : acond) (b : acond), leaves_select (not_and a b))
 /\ (forall (a : acond) (b : acond), leaves_select (or_ a b))
 /\ (forall (a : acond) (b : acond), leaves_select (xor_ a b))
 /\ (forall (a : acond) (b : acond), leaves_select (xnor_ a b))
 /\ (forall (cond : acond) (a : av) (b : av), leaves_select (bisec cond a b))
 /\ (forall (cond : acond) (a : acond) (b : acond), leaves_select (bisec_cond cond a b))
 /\ (forall (a : acond), leaves_select (assert_true a))
 /\ (forall (a : acond), leaves_select (assert_false a))
 /\ (forall (a : acond), leaves_select (try_assert_false a))
 /\ (forall (bn : Z), leaves_select (assign_nonleading_limb bn))
 /\ (forall (I0 : rinfo) (bn : Z), leaves_select (assign_w_ceil_leading_limb I0 bn))
 /\ (forall (I0 : rinfo) (bn : Z), leaves_select (assign_d_leading_limb I0 bn))
 /\ (forall x0 (limbs : list av), leaves_select (native_of x0 limbs))
 /\ (forall x0 (a : aint) (b : aint) (d : list av) (pos : nat), leaves_select (mul_column x0 a b d pos))
 /\ (forall x0 (u : av), leaves_select (mul_carry x0 u))
 /\ (forall x0 (a : aint) (b : aint) (d : list av) (rem : aint), leaves_select (mul_equation_on_limbs x0 a b d rem))
 /\ (forall x0 (a : aint) (b : aint) (d_native : av) (rem : aint), leaves_select (mul_equation_on_native x0 a b d_native rem))
 /\ (forall x0 (w : Z), leaves_select (assign_w x0 w))
 /\ (forall x0 (d : Z), leaves_select (assign_d x0 d))
 /\ (forall x0 (a : aint) (d : Z) (rem : Z) (ad : av) (arem : aint) (last : option av) (i : nat), leaves_select (reduce_step x0 a d rem ad arem last i))
 /\ (forall x0 (a : aint), leaves_select (reduce x0 a))
 /\ (forall x0 (a : aint), leaves_select (conditionally_reduce x0 a))
 /\ (forall x0 (a : aint) (b : aint), leaves_select (int_add x0 a b))
 /\ (forall x0 (times : Z), leaves_select (pad_of x0 times))
 /\ (forall x0 (a : aint) (b : aint), leaves_select (int_sub x0 a b))
 /\ (forall x0 (a : aint), leaves_select (int_neg x0 a))
 /\ (forall x0 (a : aint) (b : aint), leaves_select (int_mul x0 a b))
 /\ (forall (a : aint), leaves_select (is_pure_zero a))
 /\ (forall x0 (a : aint), leaves_select (is_pure_w_modulus x0 a))
 /\ (forall x0 (a : aint), leaves_select (is_int_zero x0 a))
 /\ (forall x0 (a : aint) (b : aint), leaves_select (is_int_equal x0 a b))
 /\ (forall x0 (a : aint) (b : aint), leaves_select (int_div x0 a b))
 /\ (forall x0 (w : Z), leaves_select (assign_int_constant x0 w))
 /\ (forall x0 (x : aint), leaves_select (int_unsafe_invert x0 x))
 /\ (forall x0 (a : aint) (b : aint), leaves_select (assert_int_equal x0 a b))
 /\ (forall x0 (a : aint), leaves_select (int_square x0 a))
 /\ (forall x0 (a : aint) (b : Z), leaves_select (int_mul_small_constant x0 a b))
 /\ (forall x0 (cond : acond) (a : aint) (b : aint), leaves_select (bisec_int x0 cond a b))
 /\ (forall x0 (p : option (Z * Z)), leaves_select (assign_constant_point x0 p))
 /\ (forall x0 x1 (x : aint) (y : aint), leaves_select (curve_sides x0 x1 x y))
 /\ (forall x0 x1 (p : option (Z * Z)), leaves_select (assign_point x0 x1 p))
 /\ (forall x0 x1 (p : option (Z * Z)), leaves_select (assign_non_zero_point x0 x1 p))
 /\ (forall x0, leaves_select (assign_identity x0))
 /\ (forall x0 (cond : acond) (a : apoint) (b : apoint), leaves_select (bisec_point x0 cond a b))
 /\ (forall x0 (cond : acond) (a : acurv) (b : acurv), leaves_select (bisec_curvature x0 cond a b))
 /\ (forall x0 (cond : acond) (a : apointc) (b : apointc), leaves_select (bisec_point_with_curvature x0 cond a b))
 /\ (forall x0 (l : aint) (ax : aint) (ay : aint) (bx : aint), leaves_select (lambda_xy x0 l ax ay bx))
 /\ (forall x0 (lambda : acurv) (a : apoint) (b : apoint), leaves_select (lambda_to_point x0 lambda a b))
 /\ (forall x0 (a : apointc) (b : apoint), leaves_select (ecc_add x0 a b))
 /\ (forall x0 x1 (a : apointc), leaves_select (ecc_double x0 x1 a))
 /\ (forall x0 (a : apoint) (b : apoint), leaves_select (ecc_assert_equal x0 a b))
 /\ (forall x0 (a : apoint), leaves_select (ecc_neg x0 a))
 /\ (forall x0 (a : apoint), leaves_select (ecc_reduce x0 a))
 /\ (forall x0 (x : aint) (y : aint), leaves_select (curvature_of x0 x y))
 /\ (forall x0 (a : apoint), leaves_select (ecc_reduce_with_curvature x0 a))
 /\ (forall x0 (a : apoint), leaves_select (to_point_with_curvature x0 a))
 /\ (forall x0 (p : apoint), leaves_select (ecc_encode x0 p))
 /\ (forall x0 (lambda : aint) (a : anz) (b : anz), leaves_select (lambda_to_point_non_zero x0 lambda a b))
 /\ (forall x0 (a : anz) (b : anz), leaves_select (ecc_add_unsafe x0 a b))
 /\ (forall x0 (a : anz), leaves_select (ecc_double_unsafe x0 a))
 /\ (forall x0 (a : anz), leaves_select (ecc_neg_non_zero x0 a))
 /\ (forall x0 (a : anz), leaves_select (ecc_reduce_non_zero x0 a))
 /\ (forall x0 (cond : acond) (a : anz) (b : anz), leaves_select (ecc_bisec_non_zero_point x0 cond a b))
 /\ (forall x0 (bit : acond) (cs : list anz), leaves_select (bisec_pairs x0 bit cs))
 /\ (forall x0 (candidates : list anz) (group_bits : list acond), leaves_select (bisec_candidate_non_zero x0 candidates group_bits))
 /\ (forall (candidates : list anz) (group_bits : list acond), leaves_select (pick_candidate_non_zero candidates group_bits))
 /\ (forall x0 (a : anz) (b : anz), leaves_select (ecc_assert_equal_non_zero x0 a b))
 /\ (forall (a : anz), leaves_select (ecc_non_zero_point_downgrade a))
 /\ (forall x0 (a : apoint) (b : anz), leaves_select (ecc_bisec_to_non_zero_point x0 a b))
 /\ (forall (W : nat) (bits : list acond), leaves_select (to_windows W bits))
 /\ (forall (s_bn : Z) (st : av * list acond) (i : nat), leaves_select (native_step s_bn st i))
 /\ (forall (W : nat) (s : av), leaves_select (decompose_scalar_native W s))
 /\ (forall (two_inv : Z) (v : Z) (st : av * list acond) (j : nat), leaves_select (general_step two_inv v st j))
 /\ (forall (two_inv : Z) (l : av), leaves_select (general_limb two_inv l))
 /\ (forall (I0 : rinfo) (W : nat) (s : aint), leaves_select (decompose_scalar_general I0 W s))
 /\ (forall I (x : afq2), leaves_select (fq2_reduce I x))
 /\ (forall I (x : afq2) (y : afq2), leaves_select (fq2_assert_equal I x y))
 /\ (forall I, leaves_select (fq2_assign_zero I))
 /\ (forall I, leaves_select (fq2_assign_one I))
 /\ (forall I (c : Z * Z), leaves_select (fq2_assign_constant I c))
 /\ (forall I (a : afq2) (b : afq2), leaves_select (fq2_add I a b))
 /\ (forall I (a : afq2) (b : afq2), leaves_select (fq2_mul I a b))
 /\ (forall I (a : afq2) (b : afq2), leaves_select (fq2_sub I a b))
 /\ (forall I (a : afq2), leaves_select (fq2_double I a))
 /\ (forall I (a : afq2), leaves_select (fq2_square I a))
 /\ (forall I (a : afq2), leaves_select (fq2_neg I a))
 /\ (forall I (a : afq2), leaves_select (fq2_conjugate I a))
 /\ (forall I (x : afq2), leaves_select (fq2_unsafe_invert I x))
 /\ (forall I (x : afq6), leaves_select (fq6_reduce I x))
 /\ (forall I (x : afq6) (y : afq6), leaves_select (fq6_assert_equal I x y))
 /\ (forall I, leaves_select (fq6_assign_zero I))
 /\ (forall I, leaves_select (fq6_assign_one I))
 /\ (forall I (a : afq6) (b : afq6), leaves_select (fq6_add I a b))
 /\ (forall I (a : afq6) (b : afq6), leaves_select (fq6_sub I a b))
 /\ (forall I (a : afq6), leaves_select (fq6_double I a))
 /\ (forall I (a : afq6), leaves_select (fq6_neg I a))
 /\ (forall I (c : (Z * Z) * (Z * Z) * (Z * Z)), leaves_select (fq6_assign_constant I c))
 /\ (forall I (x : afq12), leaves_select (fq12_reduce I x))
 /\ (forall I (x : afq12) (y : afq12), leaves_select (fq12_assert_eq I x y))
 /\ (forall I, leaves_select (fq12_assign_zero I))
 /\ (forall I, leaves_select (fq12_assign_one I))
 /\ (forall I (x : afq12), leaves_select (fq12_assert_one I x))
 /\ (forall I (a : afq12) (b : afq12), leaves_select (fq12_add I a b))
 /\ (forall I (a : afq12) (b : afq12), leaves_select (fq12_sub I a b))
 /\ (forall I (a : afq12), leaves_select (fq12_double I a))
 /\ (forall I (a : afq12), leaves_select (fq12_neg I a))
 /\ (forall I (x : afq12), leaves_select (fq12_conjugate I x))
 /\ (forall I (c : ((Z * Z) * (Z * Z) * (Z * Z)) * ((Z * Z) * (Z * Z) * (Z * Z))), leaves_select (fq12_assign_constant I c))
 /\ (forall I (pt : ag2), leaves_select (doubling_step I pt))
 /\ (forall I (pt : ag2) (pq : ag2a), leaves_select (addition_step I pt pq))
 /\ (forall I (g : ag2a), leaves_select (g2affine_to_g2 I g))
 /\ (forall I (g : ag2a), leaves_select (g2_neg I g))
 /\ (forall I (a : afq2), leaves_select (bn_nonres I a))
 /\ (forall I (x : afq2) (power : nat), leaves_select (bn_fq2_frobenius_map I x power))
 /\ (forall I (x : afq6) (power : nat), leaves_select (bn_fq6_frobenius_map I x power))
 /\ (forall I (x : afq12) (power : nat), leaves_select (bn_fq12_frobenius_map I x power))
 /\ (forall I (g2 : ag2a) (neg_g2 : ag2a) (r : ag2), leaves_select (bn_prepare_loop I g2 neg_g2 r))
 /\ (forall I (g2 : ag2a), leaves_select (bn_prepare_g2 I g2))
 /\ (forall I (f : afq12) (k : acoeff) (p : apoint), leaves_select (bn_ell I f k p))
 /\ (forall I (terms : list (apoint * list acoeff)), leaves_select (bn_multi_miller_loop I terms))
 /\ (forall I (f : afq12), leaves_select (bn_exp_by_x I f))
 /\ (forall I (f : afq12), leaves_select (bn_final_exponentiation I f))
 /\ (forall I (a : afq2), leaves_select (bls_nonres I a))
 /\ (forall I (x : afq2) (_power : nat), leaves_select (bls_fq2_frobenius_map I x _power))
 /\ (forall I (x : afq6) (power : nat), leaves_select (bls_fq6_frobenius_map I x power))
 /\ (forall I (x : afq12) (power : nat), leaves_select (bls_fq12_frobenius_map I x power))
 /\ (forall I (f : afq12) (k : acoeff) (p : apoint), leaves_select (bls_ell I f k p))
 /\ (forall I (f : afq12), leaves_select (bls_cycolotomic_exp I f))
 /\ (forall I (g2 : ag2a), leaves_select (bls_prepare_g2 I g2))
 /\ (forall I (terms : list (apoint * list acoeff)), leaves_select (bls_multi_miller_loop I terms))
 /\ (forall I (f : afq12), leaves_select (bls_final_exponentiation I f))
 /\ (forall I (terms : list (apoint * ag2a)), leaves_select (bn_pairing I terms))
 /\ (forall I (terms : list (apoint * ag2a)), leaves_select (bn_check_pairing I terms))
 /\ (forall I (terms : list (apoint * ag2a)), leaves_select (bls_pairing I terms))
 /\ (forall I (terms : list (apoint * ag2a)), leaves_select (bls_check_pairing I terms))
 /\ (forall (a : list acond) (b : list acond), leaves_select (xor_lanes a b))
 /\ (leaves_select (k_init))
 /\ (forall (st : kstate), leaves_select (theta st))
 /\ (forall (st : kstate), leaves_select (xi st))
 /\ (forall (st : kstate) (round : nat), leaves_select (iota st round))
 /\ (forall (st : kstate), leaves_select (permute st))
 /\ (forall (st : kstate) (input : list acond), leaves_select (absorb st input))
 /\ (forall (s_bn : Z) (st : av * list acond) (i : nat), leaves_select (u256_step s_bn st i))
 /\ (forall (s_bn : Z) (s : av), leaves_select (decompose_u256_with s_bn s))
 /\ (forall (s : av), leaves_select (decompose_scalar_as_u256_be s))
 /\ (forall (acc : av) (s : list acond), leaves_select (compose_loop acc s))
 /\ (forall (s : list acond), leaves_select (compose_to_scalar_be s))
 /\ (forall (input : list (Z * av)), leaves_select (hash_with input))
 /\ (forall (input : list av), leaves_select (hash input))
 /\ (forall (I : rinfo) (nonres : afq2 -> M afq2), (forall a, leaves_select (nonres a)) ->
    (forall I (a : afq6) (b : afq6), leaves_select (fq6_mul I nonres a b))
 /\ (forall I (a : afq6), leaves_select (fq6_square I nonres a))
 /\ (forall I (a : afq6) (b1 : afq2), leaves_select (fq6_mul_by_1 I nonres a b1))
 /\ (forall I (a : afq6) (b0 : afq2) (b1 : afq2), leaves_select (fq6_mul_by_01 I nonres a b0 b1))
 /\ (forall I (x : afq6), leaves_select (fq6_unsafe_invert I nonres x))
 /\ (forall (a : afq6), leaves_select (fq6_mul_by_nonresidue nonres a))
 /\ (forall I (a : afq12) (b : afq12), leaves_select (fq12_mul I nonres a b))
 /\ (forall I (a : afq12), leaves_select (fq12_square I nonres a))
 /\ (forall I (x : afq12) (c0 : afq2) (c1 : afq2) (c4 : afq2), leaves_select (fq12_mul_by_014 I nonres x c0 c1 c4))
 /\ (forall I (x : afq12) (c0 : afq2) (c3 : afq2) (c4 : afq2), leaves_select (fq12_mul_by_034 I nonres x c0 c3 c4))
 /\ (forall I (a0 : afq2) (a1 : afq2), leaves_select (fp4_square I nonres a0 a1))
 /\ (forall I (x : afq12), leaves_select (fq12_cyclotomic_square I nonres x))
 /\ (forall I (x : afq12), leaves_select (fq12_unsafe_invert I nonres x)))
 /\ (forall I b gen ra rl points scalars, leaves_select (msm_native I b gen ra rl None points scalars))
 /\ (forall I Is b gen ra rl points scalars, leaves_select (msm_general I Is b gen ra rl None points scalars)).
Proof.
  intros NM.
  split; [nsg|].
  split; [nsg|].
  split; [nsg|].
  split; [nsg|].
  split; [nsg|].
  split; [nsg|].
  split; [nsg|].
  split; [nsg|].
  split; [nsg|].
  split; [nsg|].
  split; [nsg|].
  split; [nsg|].
  split; [nsg|].
  split; [nsg|].
  split; [nsg|].
  split; [nsg|].
  split; [nsg|].
  split; [nsg|].
  split; [nsg|].
  split; [nsg|].
  split; [nsg|].
  split; [nsg|].
  split; [nsg|].
  split; [nsg|].
  split; [nsg|].
  split; [nsg|].
  split; [nsg|].
  split; [nsg|].
  split; [nsg|].
  split; [nsg|].
  split; [nsg|].
  split; [nsg|].
  split; [nsg|].
  split; [nsg|].
  split; [nsg|].
  split; [nsg|].
  split; [nsg|].
  split; [nsg|].
  split; [nsg|].
  split; [nsg|].
  split; [nsg|].
  split; [nsg|].
  split; [nsg|].
  split; [nsg|].
  split; [nsg|].
  split; [nsg|].
  split; [nsg|].
  split; [nsg|].
  split; [nsg|].
  split; [nsg|].
  split; [nsg|].
  split; [nsg|].
  split; [nsg|].
  split; [nsg|].
  split; [nsg|].
  split; [nsg|].
  split; [nsg|].
  split; [nsg|].
  split; [nsg|].
  split; [nsg|].
  split; [nsg|].
  split; [nsg|].
  split; [nsg|].
  split; [nsg|].
  split; [nsg|].
  split; [nsg|].
  split; [nsg|].
  split; [nsg|].
  split; [nsg|].
  split; [nsg|].
  split; [nsg|].
  split; [nsg|].
  split; [nsg|].
  split; [nsg|].
  split; [nsg|].
  split; [nsg|].
  split; [nsg|].
  split; [nsg|].
  split; [nsg|].
  split; [nsg|].
  split; [nsg|].
  split; [nsg|].
  split; [nsg|].
  split; [nsg|].
  split; [nsg|].
  split; [nsg|].
  split; [nsg|].
  split; [nsg|].
  split; [nsg|].
  split; [nsg|].
  split; [nsg|].
  split; [nsg|].
  split; [nsg|].
  split; [nsg|].
  split; [nsg|].
  split; [nsg|].
  split; [nsg|].
  split; [nsg|].
  split; [nsg|].
  split; [nsg|].
  split; [nsg|].
  split; [nsg|].
  split; [nsg|].
  split; [nsg|].
  split; [nsg|].
  split; [nsg|].
  split; [nsg|].
  split; [nsg|].
  split; [nsg|].
  split; [nsg|].
  split; [nsg|].
  split; [nsg|].
  split; [nsg|].
  split; [nsg|].
  split; [nsg|].
  split; [nsg|].
  split; [nsg|].
  split; [nsg|].
  split; [nsg|].
  split; [nsg|].
  split; [nsg|].
  split; [nsg|].
  split; [nsg|].
  split; [nsg|].
  split; [nsg|].
  split; [nsg|].
  split; [nsg|].
  split; [nsg|].
  split; [nsg|].
  split; [nsg|].
  split; [nsg|].
  split; [nsg|].
  split; [nsg|].
  split; [nsg|].
  split; [nsg|].
  split; [nsg|].
  split; [nsg|].
  split; [nsg|].
  split; [nsg|].
  split; [nsg|].
  split; [nsg|].
  split; [nsg|].
  split; [nsg|].
  split; [nsg|].
  split; [nsg|].
  split; [nsg|].
  split; [nsg|].
  split; [nsg|].
  split; [nsg|].
  split; [nsg|].
  split; [nsg|].
  split; [nsg|].
  split; [nsg|].
  split; [nsg|].
  split; [nsg|].
  split; [nsg|].
  split; [nsg|].
  split; [nsg|].
  split; [nsg|].
  split; [nsg|].
  split; [nsg|].
  split; [nsg|].
  split; [nsg|].
  split; [nsg|].
  split; [nsg|].
  split; [nsg|].
  split; [nsg|].
  split; [nsg|].
  split; [nsg|].
  split; [nsg|].
  split; [nsg|].
  split; [nsg|].
  split; [intros I nonres Hn|].
  { split; [intros; apply ns_fq6_mul; exact Hn|]. split; [intros; apply ns_fq6_square; exact Hn|]. split; [intros; apply ns_fq6_mul_by_1; exact Hn|]. split; [intros; apply ns_fq6_mul_by_01; exact Hn|]. split; [intros; apply ns_fq6_unsafe_invert; exact Hn|]. split; [intros; apply ns_fq6_mul_by_nonresidue; exact Hn|]. split; [intros; apply ns_fq12_mul; exact Hn|]. split; [intros; apply ns_fq12_square; exact Hn|]. split; [intros; apply ns_fq12_mul_by_014; exact Hn|]. split; [intros; apply ns_fq12_mul_by_034; exact Hn|]. split; [intros; apply ns_fp4_square; exact Hn|]. split; [intros; apply ns_fq12_cyclotomic_square; exact Hn|]. intros; apply ns_fq12_unsafe_invert; exact Hn. }
  split; [intros; apply ns_msm_native|intros; apply ns_msm_general].
Qed.

Lemma C56_detects_main :
  forall (NM : NMod) X (m : M X) x c y, program m -> m ctx_new = Ok (x, c) ->
    c_chip y = SelectChip -> recorded c y -> assign_all_with_optional_select_chip false c = Panic.
Proof.
  intros NM X m x c y P E Hy R. pose proof (program_covered m ctx_new x c P covered_new E) as C. pose proof (assign_ns_eq c C) as A.
  destruct (assign_all_with_optional_select_chip false c) as [r|]; [|reflexivity]. destruct A as (S0 & _).
  apply C in R. rewrite Hy in R. cbn in R. lia.
Qed.

Lemma C56_halo2_sound_main :
  forall (NM : NMod) X (m : M X) x c F w u n adv, 2 ^ 18 < nmod -> program m -> m ctx_new = Ok (x, c) ->
    let '(g, s) := configure_ns cs_new in
    synthesise_ns g s c = Ok (F, w) ->
    (base_h c + 2 <= u)%nat -> (range_h c + 2 <= u)%nat -> 2 ^ 19 - 1 <= Z.of_nat u -> (u <= n)%nat ->
    cs_sat n u F adv s ->
    exists A, satisfies c A
      /\ (forall y, c_chip y <> SelectChip -> (c_row y < u)%nat -> (c_col y < 5)%nat -> (c_chip y = RangeChip -> (c_col y < 3)%nat) ->
           A y = adv (adv_col_ns g (c_chip y) (c_col y)) (c_row y))
      /\ (forall Q, sound m Q -> Q A x).
Proof.
  intros NM X m x c F0 w0 u n adv N P H. rewrite configured_ns. intros E U1 U2 U4 Un S.
  pose proof (program_covered m ctx_new x c P covered_new H) as C. pose proof (ns_ok c C) as K. rewrite E in K. destruct K as (S0 & F & w & E' & T).
  apply (sat_full c F F0 w w0) in S; [|lia|exact T].
  pose proof (C54_halo2_sound_main NM X m x c F w u n (fun col r => if (col <? 8)%nat then adv col r else 0) N P H) as B. rewrite configured in B.
  destruct (B E' U1 U2 ltac:(lia) U4 Un S) as (A & SA & RA & QA). exists A. split; [exact SA|]. split; [|exact QA].
  intros y Hs Hr Hc Hc'. rewrite RA by exact Hr. assert (Sy : is_select y = false) by (unfold is_select; destruct (c_chip y); try reflexivity; contradiction).
  rewrite <- (place_same y Sy).
  assert (L : (adv_col cfg (c_chip y) (c_col y) < 8)%nat).
  { destruct y as [[| |] col row]; cbn [c_chip c_col] in *; [| |contradiction].
    - do 5 (destruct col as [|col]; [unfold adv_col, cfg; cbn; lia|]). lia.
    - specialize (Hc' eq_refl). do 3 (destruct col as [|col]; [unfold adv_col, cfg; cbn; lia|]). lia. }
  apply Nat.ltb_lt in L. rewrite L. reflexivity.
Qed.

Lemma C56_halo2_complete_main :
  forall (NM : NMod) X (m : M X) x c F w u n adv, 2 ^ 18 < nmod -> program m -> m ctx_new = Ok (x, c) ->
    let '(g, s) := configure_ns cs_new in
    synthesise_ns g s c = Ok (F, w) ->
    (let chunks := (base_h c + 15) / 16 in range_h c <= chunks * 16 * chunks)%nat ->
    (base_h c + 2 <= u)%nat -> (range_h c + 2 <= u)%nat -> 2 ^ 19 - 1 <= Z.of_nat u -> (u <= n)%nat ->
    satisfies c (honest c) ->
    (forall col row, 0 <= adv col row < nmod) -> (forall col row, (row < u)%nat -> adv col row = w col row) ->
    cs_sat n u F adv s.
Proof.
  intros NM X m x c F0 w0 u n adv N P H. rewrite configured_ns. intros E R U1 U2 U4 Un SA AF AW.
  pose proof (program_covered m ctx_new x c P covered_new H) as C. pose proof (ns_ok c C) as K. rewrite E in K. destruct K as (S0 & F & w & E' & T).
  pose proof (C54_halo2_complete_main NM X m x c F w u n (fun col r => if (col <? 8)%nat then adv col r else 0) N P H) as B. rewrite configured in B.
  assert (D := T). destruct D as (_ & _ & _ & T4 & T5 & _).
  eapply sat_part; [exact T|exact AF| |apply B; try assumption].
  - intros col r L. cbv beta. apply Nat.ltb_lt in L. rewrite L. reflexivity.
  - lia.
  - intros col r. cbv beta. destruct (col <? 8)%nat; [apply AF|lia].
  - intros col r Hr. cbv beta. destruct (Nat.ltb_spec col 8) as [L|L]; [rewrite T4 by exact L; auto|rewrite T5 by exact L; reflexivity].
Qed.

Lemma C56_synthesis_succeeds_main :
  forall (NM : NMod) X (HX : Handles X) (m : M X) x c, program m -> disciplined tt m -> leaves_select m -> m ctx_new = Ok (x, c) ->
    (0 < base_h c)%nat -> (let chunks := (base_h c + 15) / 16 in range_h c <= chunks * 16 * chunks)%nat ->
    let '(g, s) := configure_ns cs_new in exists F w, synthesise_ns g s c = Ok (F, w).
Proof.
  intros NM X HX m x c P D L E B K. rewrite configured_ns. pose proof (program_covered m ctx_new x c P covered_new E) as C.
  pose proof (ns_ok c C) as A. pose proof (C54_synthesis_succeeds_main NM X HX m x c P D E B K) as F. rewrite configured in F. destruct F as (F1 & w & F).
  pose proof (L _ _ _ E) as S0. destruct (synthesise_ns cfg_ns css_ns c) as [[F0 w0]|]; [do 2 eexists; reflexivity|].
  rewrite (A S0) in F. discriminate.
Qed.

