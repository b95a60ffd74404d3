(** What the pairing gadgets compute, for both readings of TowerProofs. *)
From Coq Require Import Znumtheory Setoid Morphisms.
From Verif Require Import Prelude FieldZ Circuit Context Spec Logic ModArith Prims BaseChip BaseProofs
  RangeInfo RangeChip IntegerChip SpecInt InfoProofs IntArith RangeProofs IntInv IntSound IntComplete IntBridge
  IntRes EccChip SpecTower TowerRing Frobenius Cyclotomic Moduli PairingConsts Fq12Chip PairingChip TowerProofs PairingFacts PairingExp SpecPairing.

Add Ring F2r : F2_ring.

(** ** All gadgets only append *)
Ltac app3 := repeat (intros; first [solve [auto 3 with app nocore] | progress cbv beta zeta | app1]).
Ltac ap := intros; match goal with |- appends ?f => let h := head_of f in unfold h end; app3.
Section App.
Context {NM : NMod}.
Variable I : rinfo.
Lemma appends_doubling_step p : appends (doubling_step I p). Proof. ap. Qed.
Lemma appends_addition_step p q : appends (addition_step I p q). Proof. ap. Qed.
Hint Resolve appends_doubling_step appends_addition_step : app.
Lemma appends_g2affine_to_g2 g : appends (g2affine_to_g2 I g). Proof. ap. Qed.
Lemma appends_g2_neg g : appends (g2_neg I g). Proof. ap. Qed.
Hint Resolve appends_g2affine_to_g2 appends_g2_neg : app.
Lemma appends_bn_nonres a : appends (bn_nonres I a). Proof. ap. Qed.
Lemma appends_bls_nonres a : appends (bls_nonres I a). Proof. ap. Qed.
Hint Resolve appends_bn_nonres appends_bls_nonres : app.
Lemma appends_bn_fq2_frobenius_map x k : appends (bn_fq2_frobenius_map I x k). Proof. ap. Qed.
Hint Resolve appends_bn_fq2_frobenius_map : app.
Lemma appends_bn_fq6_frobenius_map x k : appends (bn_fq6_frobenius_map I x k). Proof. ap. Qed.
Hint Resolve appends_bn_fq6_frobenius_map : app.
Lemma appends_bn_fq12_frobenius_map x k : appends (bn_fq12_frobenius_map I x k). Proof. ap. Qed.
Hint Resolve appends_bn_fq12_frobenius_map : app.
Lemma appends_bls_fq2_frobenius_map x k : appends (bls_fq2_frobenius_map I x k). Proof. unfold bls_fq2_frobenius_map. app3. Qed.
Hint Resolve appends_bls_fq2_frobenius_map : app.
Lemma appends_bls_fq6_frobenius_map x k : appends (bls_fq6_frobenius_map I x k).
Proof. unfold bls_fq6_frobenius_map, bls_fq2_frobenius_map. app3. Qed.
Hint Resolve appends_bls_fq6_frobenius_map : app.
Lemma appends_bls_fq12_frobenius_map x k : appends (bls_fq12_frobenius_map I x k). Proof. ap. Qed.
Hint Resolve appends_bls_fq12_frobenius_map : app.
Lemma appends_bn_ell f k p : appends (bn_ell I f k p). Proof. ap. Qed.
Lemma appends_bls_ell f k p : appends (bls_ell I f k p). Proof. ap. Qed.
Hint Resolve appends_bn_ell appends_bls_ell : app.
Lemma appends_ell_all ell st : (forall f k p, appends (ell f k p)) -> appends (ell_all ell st).
Proof. intros H. unfold ell_all. app3. Qed.
Hint Resolve appends_ell_all : app.
Lemma appends_bn_prepare_loop g n r : appends (bn_prepare_loop I g n r). Proof. ap. Qed.
Hint Resolve appends_bn_prepare_loop : app.
Lemma appends_bn_prepare_g2 g : appends (bn_prepare_g2 I g). Proof. ap. Qed.
Lemma appends_bls_prepare_g2 g : appends (bls_prepare_g2 I g). Proof. ap. Qed.
Lemma appends_bn_multi_miller_loop g : appends (bn_multi_miller_loop I g). Proof. ap. Qed.
Lemma appends_bls_multi_miller_loop g : appends (bls_multi_miller_loop I g). Proof. ap. Qed.
Lemma appends_bn_exp_by_x f : appends (bn_exp_by_x I f). Proof. ap. Qed.
Lemma appends_bls_cycolotomic_exp f : appends (bls_cycolotomic_exp I f). Proof. ap. Qed.
Hint Resolve appends_bn_prepare_g2 appends_bls_prepare_g2 appends_bn_multi_miller_loop appends_bls_multi_miller_loop
  appends_bn_exp_by_x appends_bls_cycolotomic_exp : app.
Lemma appends_bn_final_exponentiation f : appends (bn_final_exponentiation I f). Proof. ap. Qed.
Lemma appends_bls_final_exponentiation f : appends (bls_final_exponentiation I f). Proof. ap. Qed.
Hint Resolve appends_bn_final_exponentiation appends_bls_final_exponentiation : app.
Lemma appends_bn_pairing t : appends (bn_pairing I t). Proof. unfold bn_pairing. ap. Qed.
Lemma appends_bls_pairing t : appends (bls_pairing I t). Proof. unfold bls_pairing. ap. Qed.
Hint Resolve appends_bn_pairing appends_bls_pairing : app.
Lemma appends_bn_check_pairing t : appends (bn_check_pairing I t). Proof. ap. Qed.
Lemma appends_bls_check_pairing t : appends (bls_check_pairing I t). Proof. ap. Qed.
End App.
Global Hint Resolve appends_doubling_step appends_addition_step appends_g2affine_to_g2 appends_g2_neg appends_bn_nonres
  appends_bls_nonres appends_bn_fq2_frobenius_map appends_bn_fq6_frobenius_map appends_bn_fq12_frobenius_map
  appends_bls_fq2_frobenius_map appends_bls_fq6_frobenius_map appends_bls_fq12_frobenius_map appends_bn_ell appends_bls_ell appends_ell_all
  appends_bn_prepare_loop appends_bn_prepare_g2 appends_bls_prepare_g2 appends_bn_multi_miller_loop
  appends_bls_multi_miller_loop appends_bn_exp_by_x appends_bls_cycolotomic_exp appends_bn_final_exponentiation
  appends_bls_final_exponentiation appends_bn_pairing appends_bls_pairing appends_bn_check_pairing appends_bls_check_pairing : app.

(** ** Formulas computed by the two point steps *)
Notation "2* x" := (add2 x x) (at level 35).
Definition dbl_pt (p : F6) : F6 :=
  let '(x, y, z) := p in
  let m := add2 (2* mul2 x x) (mul2 x x) in
  let s := 2* 2* mul2 (mul2 y y) x in
  let rx := sub2 (mul2 m m) (2* s) in
  (rx, sub2 (mul2 (sub2 s rx) m) (2* mul2 (2* mul2 y y) (2* mul2 y y)), 2* mul2 y z).
Definition dbl_line (p : F6) : F6 :=
  let '(x, y, z) := p in
  let m := add2 (2* mul2 x x) (mul2 x x) in
  (2* mul2 (mul2 z z) (2* mul2 y z), neg2 (mul2 (mul2 z z) (2* m)), sub2 (mul2 (2* m) x) (2* 2* mul2 y y)).
Definition add_h (p : F6) (q : F2 * F2) : F2 := let '(x, y, z) := p in sub2 (mul2 (fst q) (mul2 z z)) x.
Definition add_r (p : F6) (q : F2 * F2) : F2 := let '(x, y, z) := p in 2* sub2 (mul2 (mul2 (snd q) z) (mul2 z z)) y.
Definition add_pt (p : F6) (q : F2 * F2) : F6 :=
  let '(x, y, z) := p in
  let h := add_h p q in let r := add_r p q in
  let i := mul2 (2* h) (2* h) in
  let rx := sub2 (sub2 (mul2 r r) (mul2 i h)) (mul2 (2* i) x) in
  (rx, sub2 (mul2 r (sub2 (mul2 i x) rx)) (mul2 (mul2 (2* h) i) y), mul2 z (2* h)).
Definition add_line (p : F6) (q : F2 * F2) : F6 :=
  let '(x, y, z) := p in
  let h := add_h p q in let r := add_r p q in
  let rz := mul2 z (2* h) in
  (2* rz, neg2 (2* r), sub2 (mul2 (2* r) (fst q)) (2* mul2 (snd q) rz)).

(** ** Generic rules *)
Set Default Proof Using "All".
Section World.
Context {NM : NMod}.
Variable w : Z.
Variable I : rinfo.
Variable W : Type.
Variable le : W -> W -> Prop.
Variable TR : forall X, W -> M X -> (X -> W -> Prop) -> Prop.
Variable rep : W -> aint -> Z -> Prop.
Variable zok : W -> av -> Prop.
Variable strict : Prop.
Arguments TR {X}.
Hypothesis RU : rules w I W le (@TR) rep zok strict.
Hypothesis le_refl : forall v, le v v.
Hypothesis w_gt1 : 1 < w.

Notation rep2 := (rep2 W rep).
Notation rep6 := (rep6 W rep).
Notation rep12 := (rep12 W rep).

Notation "'$' f" := (f w I W le (@TR) rep zok strict RU) (at level 9).

Definition repJ v (p : ag2) (x : F6) : Prop := rep2 v (gj_x p) (t0 x) /\ rep2 v (gj_y p) (t1 x) /\ rep2 v (gj_z p) (t2 x).
Definition repA v (q : ag2a) (x : F2 * F2) : Prop := rep2 v (ga_x q) (fst x) /\ rep2 v (ga_y q) (snd x).
Definition repL v (cs : list acoeff) (ls : list F6) : Prop := Forall2 (rep6 v) cs ls.
Definition repP v (pq : apoint * list acoeff) (t : (Z * Z) * list F6) : Prop :=
  rep v (p_x (fst pq)) (fst (fst t)) /\ rep v (p_y (fst pq)) (snd (fst t)) /\ repL v (snd pq) (snd t).

Lemma rep2_m u v a x : le u v -> rep2 u a x -> rep2 v a x. Proof. apply ($ rep2_mono). Qed.
Lemma rep6_m u v a x : le u v -> rep6 u a x -> rep6 v a x. Proof. apply ($ rep6_mono). Qed.
Lemma rep12_m u v a x : le u v -> rep12 u a x -> rep12 v a x. Proof. apply ($ rep12_mono). Qed.
Lemma repJ_m u v a x : le u v -> repJ u a x -> repJ v a x.
Proof. intros L (H1 & H2 & H3). split; [|split]; eapply rep2_m; eauto. Qed.
Lemma repA_m u v a x : le u v -> repA u a x -> repA v a x.
Proof. intros L (H1 & H2). split; eapply rep2_m; eauto. Qed.
Lemma repL_m u v a x : le u v -> repL u a x -> repL v a x.
Proof. intros L H. induction H; constructor; auto. eapply rep6_m; eauto. Qed.
Lemma repP_m u v a x : le u v -> repP u a x -> repP v a x.
Proof. intros L (H1 & H2 & H3). split; [|split]; [eapply (($ rep_mono)); eauto..|eapply repL_m; eauto]. Qed.
Lemma repPs_m u v a x : le u v -> Forall2 (repP u) a x -> Forall2 (repP v) a x.
Proof. intros L H. induction H; constructor; auto. eapply repP_m; eauto. Qed.

Ltac lift L u v :=
  repeat match goal with
  | H : rep u ?a ?x |- _ => apply (($ rep_mono) u v a x L) in H
  | H : TowerProofs.rep2 W rep u ?a ?x |- _ => apply (rep2_m u v a x L) in H
  | H : TowerProofs.rep6 W rep u ?a ?x |- _ => apply (rep6_m u v a x L) in H
  | H : TowerProofs.rep12 W rep u ?a ?x |- _ => apply (rep12_m u v a x L) in H
  | H : repJ u ?a ?x |- _ => apply (repJ_m u v a x L) in H
  | H : repA u ?a ?x |- _ => apply (repA_m u v a x L) in H
  | H : repL u ?a ?x |- _ => apply (repL_m u v a x L) in H
  | H : Forall2 (repP u) ?a ?x |- _ => apply (repPs_m u v a x L) in H
  | H : zok u ?a |- _ => apply (($ zok_mono) u v a L) in H
  end.
Ltac simp := cbn [t0 t1 t2 fst snd gj_x gj_y gj_z ga_x ga_y ga_z] in *.
Ltac st r :=
  eapply ($ T_bind); [eapply r; simp; eauto 2|app3|app3|
    let x := fresh "r" in let u := fresh "u" in let L := fresh "L" in let H := fresh "H" in
    intros x u L H; cbv beta in H;
    match type of L with le ?v _ => lift L v u; clear L end;
    lazymatch type of H with _ /\ _ => destruct H as [? ?] | _ => idtac end; simp].
Ltac e2 := eapply ($ rep2_eq); [eassumption|first [reflexivity|ring]].

(** Left folds. *)
Lemma T_foldM {X S Y} (f : S -> X -> M S) (g : Y -> X -> Y) (Rel : W -> S -> Y -> Prop) :
  (forall s x, appends (f s x)) ->
  (forall v s y x, Rel v s y -> TR v (f s x) (fun s' u => Rel u s' (g y x))) ->
  forall l v s y, Rel v s y -> TR v (foldM f s l) (fun s' u => Rel u s' (fold_left g l y)).
Proof.
  intros Af Hf l. induction l as [|x l IH]; intros v s y H; cbn [foldM fold_left].
  - apply ($ T_ret). exact H.
  - eapply ($ T_bind); [apply Hf, H|apply Af|intros; app3|]. intros s' u L H'. apply IH, H'.
Qed.
Lemma T_mapM_true {X Y} (f : X -> M Y) (P : W -> X -> Prop) :
  (forall x, appends (f x)) -> (forall u v x, le u v -> P u x -> P v x) ->
  (forall v x, P v x -> TR v (f x) (fun _ _ => True)) ->
  forall l v, Forall (P v) l -> TR v (mapM f l) (fun _ _ => True).
Proof.
  intros Af Hm Hf l. induction l as [|x l IH]; intros v H; cbn [mapM].
  - apply ($ T_ret). exact Logic.I.
  - inversion H; subst. eapply ($ T_bind); [apply Hf; auto|apply Af|intros; app3|]. intros y u L _.
    eapply ($ T_bind); [apply IH|app3|intros; app3|].
    { eapply Forall_impl; [|eassumption]. intros a Ha. cbv beta in Ha. eapply Hm; eauto. }
    intros ys u' L' _. apply ($ T_ret). exact Logic.I.
Qed.

Lemma doubling_step_T v p x : repJ v p x ->
  TR v (doubling_step I p) (fun r u => repJ u (fst r) (dbl_pt x) /\ rep6 u (snd r) (dbl_line x)).
Proof.
  intros (H1 & H2 & H3). destruct x as [[x y] z]. simp. unfold doubling_step.
  st ($ fq2_square_T). st ($ fq2_square_T). st ($ fq2_double_T). st ($ fq2_double_T). st ($ fq2_square_T).
  st ($ fq2_double_T). st ($ fq2_square_T). st ($ fq2_mul_T). st ($ fq2_double_T). st ($ fq2_double_T).
  st ($ fq2_double_T). st ($ fq2_add_T). st ($ fq2_double_T). st ($ fq2_square_T). st ($ fq2_add_T).
  st ($ fq2_sub_T). st ($ fq2_sub_T). st ($ fq2_sub_T). st ($ fq2_mul_T). st ($ fq2_sub_T).
  st ($ fq2_mul_T). st ($ fq2_double_T). st ($ fq2_mul_T). st ($ fq2_double_T). st ($ fq2_mul_T).
  st ($ fq2_neg_T). st ($ fq2_mul_T). st ($ fq2_sub_T).
  apply ($ T_ret). split; (split; [|split]); simp; cbn [dbl_pt dbl_line t0 t1 t2 fst snd]; e2.
Qed.
Lemma addition_step_T v p q x y : repJ v p x -> repA v q y ->
  TR v (addition_step I p q) (fun r u => repJ u (fst r) (add_pt x y) /\ rep6 u (snd r) (add_line x y)).
Proof.
  intros (H1 & H2 & H3) (H4 & H5). destruct x as [[x1 y1] z1], y as [x2 y2]. simp. unfold addition_step.
  st ($ fq2_square_T). st ($ fq2_mul_T). st ($ fq2_mul_T). st ($ fq2_sub_T). st ($ fq2_double_T).
  st ($ fq2_mul_T). st ($ fq2_sub_T). st ($ fq2_double_T). st ($ fq2_square_T). st ($ fq2_mul_T).
  st ($ fq2_double_T). st ($ fq2_mul_T). st ($ fq2_square_T). st ($ fq2_sub_T). st ($ fq2_sub_T).
  st ($ fq2_mul_T). st ($ fq2_sub_T). st ($ fq2_mul_T). st ($ fq2_mul_T). st ($ fq2_mul_T). st ($ fq2_sub_T).
  st ($ fq2_mul_T). st ($ fq2_double_T). st ($ fq2_double_T). st ($ fq2_neg_T). st ($ fq2_double_T).
  st ($ fq2_mul_T). st ($ fq2_mul_T). st ($ fq2_double_T). st ($ fq2_sub_T).
  apply ($ T_ret). split; (split; [|split]); simp; cbn [add_pt add_line add_h add_r t0 t1 t2 fst snd]; e2.
Qed.
Lemma g2affine_to_g2_T v q x : repA v q x -> zok v (ga_z q) ->
  TR v (g2affine_to_g2 I q) (fun r u => repJ u r (fst x, snd x, one2)).
Proof.
  intros [H1 H2] Z. unfold g2affine_to_g2. st ($ T_zero). st ($ fq2_assign_one_T).
  apply ($ T_ret). split; [|split]; simp; assumption.
Qed.
Lemma g2_neg_T v q x : repA v q x -> TR v (g2_neg I q) (fun r u => repA u r (fst x, neg2 (snd x)) /\ ga_z r = ga_z q).
Proof.
  intros [H1 H2]. unfold g2_neg. st ($ fq2_neg_T). apply ($ T_ret). split; [split; simp; assumption|reflexivity].
Qed.

(** ** Multiplication by the non-residue *)
Lemma bn_nonres_T v a x : rep2 v a x -> TR v (bn_nonres I a) (fun r u => rep2 u r (mul2 bn_xi x)).
Proof.
  intros H. destruct x as [x0 x1]. unfold bn_nonres. st ($ fq2_double_T). st ($ fq2_double_T). st ($ fq2_double_T).
  repeat match goal with H : TowerProofs.rep2 _ _ _ _ _ |- _ => destruct H end. simp.
  st ($ T_add). st ($ T_sub). st ($ T_add). st ($ T_add). apply ($ T_ret). unfold bn_xi.
  split; cbn [fst snd add2 mul2] in *; (eapply ($ rep_eq); [eassumption|ring]).
Qed.
Lemma bls_nonres_T v a x : rep2 v a x -> TR v (bls_nonres I a) (fun r u => rep2 u r (mul2 bls_xi x)).
Proof.
  intros [H1 H2]. destruct x as [x0 x1]. unfold bls_nonres. simp. st ($ T_sub). st ($ T_add).
  apply ($ T_ret). unfold bls_xi.
  split; cbn [fst snd add2 mul2] in *; (eapply ($ rep_eq); [eassumption|ring]).
Qed.

(** Left folds whose invariant mentions what is left to do. *)
Lemma T_foldM_rem {X S Y} (f : S -> X -> M S) (g : Y -> X -> Y) (Rel : list X -> W -> S -> Y -> Prop) :
  (forall s x, appends (f s x)) ->
  (forall x l v s y, Rel (x :: l) v s y -> TR v (f s x) (fun s' u => Rel l u s' (g y x))) ->
  forall l v s y, Rel l v s y -> TR v (foldM f s l) (fun s' u => Rel [] u s' (fold_left g l y)).
Proof.
  intros Af Hf l. induction l as [|x l IH]; intros v s y H; cbn [foldM fold_left].
  - apply ($ T_ret). exact H.
  - eapply ($ T_bind); [eapply Hf, H|apply Af|intros; app3|]. intros s' u L H'. apply IH, H'.
Qed.

(** ** Line evaluation for all pairs *)
Definition dropped (j : nat) (terms : list ((Z * Z) * list F6)) : list ((Z * Z) * list F6) :=
  map (fun t => (fst t, skipn j (snd t))) terms.
Section Ell.
Variable xi : F2.
Variable ell : afq12 -> acoeff -> apoint -> M afq12.
Variable line : F6 -> Z * Z -> F12.
Hypothesis ell_appends : forall f k p, appends (ell f k p).
Hypothesis ell_T : forall v f k p x c px py, rep12 v f x -> rep6 v k c -> rep v (p_x p) px -> rep v (p_y p) py ->
  TR v (ell f k p) (fun r u => rep12 u r (mul12 xi x (line c (px, py)))).
Add Ring F12r : (F12_ring xi).
Lemma ell_fold_T j terms : Forall (fun t => (j < length (snd t))%nat) terms ->
  forall l v f x acc, rep12 v f x -> Forall2 (repP v) l (dropped j terms) ->
  TR v (foldM (fun (s : afq12 * apairs) (pq : apoint * list acoeff) =>
         k <- mopt (hd_error (snd pq)) ;;
         f <- ell (fst s) k (fst pq) ;;
         mret (f, (fst pq, tl (snd pq)) :: snd s)) (f, acc) l)
    (fun r u => rep12 u (fst r) (mul12 xi x (lines xi line terms j)) /\
       exists l', snd r = rev l' ++ acc /\ Forall2 (repP u) l' (dropped (S j) terms)).
Proof.
  induction terms as [|[[px py] cs] terms IH]; intros LEN l v f x acc Hf Hl.
  - inversion Hl; subst. cbn [foldM]. apply ($ T_ret). cbn [fst snd lines]. split.
    + eapply ($ rep12_eq); [exact Hf|]. ring.
    + exists []. split; [reflexivity|constructor].
  - inversion LEN as [|? ? L1 L2]; subst. cbn [dropped map] in Hl. inversion Hl as [|pq ? l0 ? (P1 & P2 & P3) Hl0]; subst.
    clear Hl LEN. cbn [fst snd] in *. destruct pq as [p ks]. cbn [fst snd] in *. cbn [foldM fst snd].
    assert (E : skipn j cs = nth j cs zero6 :: skipn (S j) cs).
    { clear - L1. revert j L1. induction cs as [|c cs IH]; intros j L; [cbn in L; lia|].
      destruct j; [reflexivity|]. cbn [skipn nth]. rewrite IH by (cbn in L; lia). reflexivity. }
    rewrite E in P3. inversion P3 as [|k c0 ks' ? Hk Hks]; subst. cbn [hd_error tl].
    eapply ($ T_bind) with (Q := fun s u => rep12 u (fst s) (mul12 xi x (line (nth j cs zero6) (px, py))) /\
       snd s = (p, ks') :: acc /\ repP u (p, ks') (px, py, skipn (S j) cs) /\
       Forall2 (repP u) l0 (dropped j terms)).
    { change (mopt (Some k)) with (@mret acoeff k).
      eapply ($ T_bind) with (Q := fun r u => r = k /\ rep12 u f x /\ rep6 u k (nth j cs zero6) /\ rep u (p_x p) px /\
         rep u (p_y p) py /\ repL u ks' (skipn (S j) cs) /\ Forall2 (repP u) l0 (dropped j terms)).
      { apply ($ T_ret). repeat (split; [first [assumption|reflexivity]|]). assumption. }
      { app3. } { intros; app3. }
      intros ? u L (-> & H1 & H2 & H3 & H4 & H5 & H6).
      eapply ($ T_bind); [eapply ell_T; eauto|app3|intros; app3|]. intros r u1 L' Hr. cbv beta in Hr.
      lift L' u u1. apply ($ T_ret). cbn [fst snd]. split; [exact Hr|]. split; [reflexivity|]. split; [|assumption].
      split; [|split]; cbn [fst snd]; assumption. }
    { app3. } { intros; app3. }
    intros [f1 acc1] u L (H1 & H2 & H3 & H4). cbn [fst snd] in *. subst acc1.
    eapply ($ T_weaken); [eapply IH; eauto|]. intros [f2 acc2] u2 L2' (K1 & l' & K2 & K3). cbn [fst snd] in *.
    split.
    + eapply ($ rep12_eq); [exact K1|]. cbn [lines]. ring.
    + exists ((p, ks') :: l'). split.
      * rewrite K2. cbn [rev]. rewrite <- app_assoc. reflexivity.
      * cbn [dropped map]. constructor; [|exact K3]. eapply repP_m; eauto.
Qed.
Lemma ell_all_T j terms : Forall (fun t => (j < length (snd t))%nat) terms ->
  forall v f l x, rep12 v f x -> Forall2 (repP v) l (dropped j terms) ->
  TR v (ell_all ell (f, l)) (fun r u => rep12 u (fst r) (mul12 xi x (lines xi line terms j)) /\
     Forall2 (repP u) (snd r) (dropped (S j) terms)).
Proof.
  intros LEN v f l x Hf Hl. unfold ell_all. cbn [fst snd].
  eapply ($ T_bind); [eapply ell_fold_T; eauto|app3|intros; app3|].
  intros [f1 acc] u L (H1 & l' & H2 & H3). cbn [fst snd] in *. apply ($ T_ret). cbn [fst snd].
  split; [exact H1|]. rewrite H2, app_nil_r, rev_involutive. exact H3.
Qed.
End Ell.


Lemma repL_app v a b x y : repL v a x -> repL v b y -> repL v (a ++ b) (x ++ y).
Proof. apply Forall2_app. Qed.
Lemma repL_1 v c l : rep6 v c l -> repL v [c] [l].
Proof. intros H. constructor; [exact H|constructor]. Qed.
Lemma drop_0 terms : dropped 0 terms = terms.
Proof.
  unfold dropped. induction terms as [|[P cs] l IH]; [reflexivity|]. etransitivity; [|exact (f_equal (cons (P, cs)) IH)]. reflexivity.
Qed.
Lemma lens_lt N terms j : Forall (fun t : (Z * Z) * list F6 => length (snd t) = N) terms -> (j < N)%nat ->
  Forall (fun t : (Z * Z) * list F6 => (j < length (snd t))%nat) terms.
Proof. intros H L. eapply Forall_impl; [|exact H]. cbv beta. intros t E. lia. Qed.


(** ** Powers of a fixed element *)
Section Powers.
Variable xi : F2.
Variable nonres : afq2 -> M afq2.
Hypothesis nonres_T : forall v a x, rep2 v a x -> TR v (nonres a) (fun r u => rep2 u r (mul2 xi x)).
Hypothesis nonres_appends : forall a, appends (nonres a).
Hypothesis w_prime : prime w.
Hypothesis pow_p6 : forall x, eq12 w (pow12 xi x (w ^ 6)) (conj12 x).
Hypothesis cyc_sq : forall x, cyclotomic w xi x -> eq12 w (csq xi x) (mul12 xi x x).
Notation "'$$' f" := (f w I W le (@TR) rep zok strict RU xi nonres nonres_T nonres_appends w_gt1) (at level 9).
Notation "'%' f" := (f w w_prime xi pow_p6) (at level 9).

Definition repE (g : F12) v (a : afq12) (e : Z) : Prop := 0 <= e /\ rep12 v a (pow12 xi g e).
Lemma repE_m g u v a e : le u v -> repE g u a e -> repE g v a e.
Proof. intros L [H1 H2]. split; [exact H1|]. eapply rep12_m; eauto. Qed.
Lemma mul_E g v a b d e : repE g v a d -> repE g v b e -> TR v (fq12_mul I nonres a b) (fun r u => repE g u r (d + e)).
Proof.
  intros [D HD] [E HE]. eapply ($ T_weaken); [eapply ($$ fq12_mul_T); eauto|]. intros r u _ K. split; [lia|].
  rewrite (% pow_add) by lia. exact K.
Qed.
Lemma repE_frob g v a e n y : 0 <= n -> repE g v a e -> rep12 v y (pow12 xi (pow12 xi g e) n) -> repE g v y (e * n).
Proof. intros N [E HE] H. split; [nia|]. rewrite (% pow_mul) by lia. exact H. Qed.
(** The first two factors of the exponent. *)
Lemma easy_1 f y : eq12 w (mul12 xi f y) one12 -> eq12 w (mul12 xi (conj12 f) y) (pow12 xi f (w ^ 6 - 1)).
Proof.
  intros H. pose proof (% p_pos 6 ltac:(lia)). rewrite <- (pow_p6 f). apply (% pow_less); [exact H|lia].
Qed.
(** Powers of an element of the cyclotomic subgroup: any integer exponent. *)
Definition repC (g : F12) v (a : afq12) (e : Z) : Prop := rep12 v a (pow12 xi g (e mod Phi w)).
Lemma repC_m g u v a e : le u v -> repC g u a e -> repC g v a e.
Proof. apply rep12_m. Qed.
Lemma mod_Phi e : 0 <= e mod Phi w.
Proof. apply Z.mod_pos_bound. apply (% Phi_pos). Qed.
Section Group.
Variable g : F12.
Hypothesis C : cyclotomic w xi g.
Lemma repC_n v a e : repC g v a e -> forall n y, 0 <= n -> eq12 w y (pow12 xi (pow12 xi g (e mod Phi w)) n) ->
  eq12 w y (pow12 xi g ((e * n) mod Phi w)).
Proof.
  intros _ n y N ->. pose proof (mod_Phi e). rewrite <- (% pow_mul) by lia. rewrite (% pow_mod _ _ C) by nia.
  rewrite Z.mul_mod_idemp_l by (pose proof (% Phi_pos); lia). reflexivity.
Qed.
Lemma repC_1 v a : rep12 v a g -> repC g v a 1.
Proof.
  intros H. eapply ($ rep12_eqm); [exact H|]. rewrite <- (% pow_mod _ _ C) by lia. rewrite (% pow_1). reflexivity.
Qed.
Lemma mul_C v a b d e : repC g v a d -> repC g v b e -> TR v (fq12_mul I nonres a b) (fun r u => repC g u r (d + e)).
Proof.
  intros HD HE. eapply ($ T_weaken); [eapply ($$ fq12_mul_T); eauto|]. intros r u _ K.
  eapply ($ rep12_eqm); [exact K|]. pose proof (mod_Phi d). pose proof (mod_Phi e). rewrite <- (% pow_add) by lia.
  rewrite (% pow_mod _ _ C) by lia. rewrite <- Z.add_mod by (pose proof (% Phi_pos); lia). reflexivity.
Qed.
Lemma conj_C v a e : repC g v a e -> TR v (fq12_conjugate I a) (fun r u => repC g u r (- e)).
Proof.
  intros HE. eapply ($ T_weaken); [eapply ($$ fq12_conjugate_T); eauto|]. intros r u _ K.
  pose proof (% p_pos 6 ltac:(lia)). eapply ($ rep12_eqm); [exact K|]. rewrite <- pow_p6.
  replace (- e) with (e * w ^ 6 + (- e * (w ^ 2 + 1)) * Phi w) by (unfold Phi; ring). rewrite Z_mod_plus_full.
  eapply repC_n; [exact HE|lia|reflexivity].
Qed.
Lemma csq_C v a e : repC g v a e -> TR v (fq12_cyclotomic_square I nonres a) (fun r u => repC g u r (2 * e)).
Proof.
  intros HE. eapply ($ T_weaken); [eapply ($$ fq12_cyclotomic_square_T); eauto|]. intros r u _ K.
  pose proof (mod_Phi e) as HM. eapply ($ rep12_eqm); [exact K|]. rewrite (cyc_sq _ (% cyc_pow g _ C HM)).
  rewrite <- (% pow_add) by lia. rewrite (% pow_mod _ _ C) by lia.
  rewrite <- Z.add_mod by (pose proof (% Phi_pos); lia). replace (e + e) with (2 * e) by ring. reflexivity.
Qed.
Lemma one_C v : TR v (fq12_assign_one I) (fun r u => repC g u r 0).
Proof. eapply ($ T_weaken); [eapply ($$ fq12_assign_one_T)|]. intros r u _ K. unfold repC. rewrite Zmod_0_l. exact K. Qed.
Lemma frob_C v a e n y : 0 <= n -> repC g v a e -> rep12 v y (pow12 xi (pow12 xi g (e mod Phi w)) n) -> repC g v y (e * n).
Proof. intros N H K. eapply ($ rep12_eqm); [exact K|]. eapply repC_n; [exact H|exact N|reflexivity]. Qed.
End Group.
Lemma hard f y r m E : eq12 w (mul12 xi f y) one12 -> 0 <= m -> 0 < r -> (r | Phi w) -> E mod Phi w = m * (Phi w / r) ->
  eq12 w (pow12 xi (pow12 xi f (easy w)) (E mod Phi w)) (pow12 xi f (m * ((w ^ 12 - 1) / r))).
Proof.
  intros H Hm Hr HD HM. rewrite HM.
  pose proof (% Phi_pos). assert (0 <= Phi w / r) by (apply Z.div_pos; lia).
  pose proof (% easy_pos). rewrite <- (% pow_mul) by nia.
  replace (easy w * (m * (Phi w / r))) with (m * ((w ^ 12 - 1) / r)); [reflexivity|].
  rewrite <- (% easy_Phi). rewrite Z.divide_div_mul_exact by (auto; lia). ring.
Qed.
End Powers.
(** ** bn256 *)
Section Bn.
Hypothesis Ew : w = bn256_fq_p.
Notation "'$$' f" := (f w I W le (@TR) rep zok strict RU bn_xi (bn_nonres I) bn_nonres_T (appends_bn_nonres I) w_gt1) (at level 9).
Add Ring F12bn : (F12_ring bn_xi).

Lemma bn_to_fq_range x : 0 <= bn_to_fq x < w.
Proof. rewrite Ew. unfold bn_to_fq. apply Z.mod_pos_bound. reflexivity. Qed.
Lemma bn_to_fq2_range x : 0 <= fst (bn_to_fq2 x) < w /\ 0 <= snd (bn_to_fq2 x) < w.
Proof. split; apply bn_to_fq_range. Qed.
Lemma bn_const2_T v c : TR v (fq2_assign_constant I (bn_to_fq2 c)) (fun r u => rep2 u r (bn_to_fq2 c)).
Proof. apply ($ fq2_assign_constant_T); apply bn_to_fq2_range. Qed.
Lemma bn_fq2_frobenius_map_T v a x k : rep2 v a x ->
  TR v (bn_fq2_frobenius_map I a k) (fun r u => rep2 u r (fr2 (bn_kt k) x)).
Proof.
  intros [H1 H2]. destruct x as [x0 x1]. unfold bn_fq2_frobenius_map. simp. st ($ T_const). { apply bn_to_fq_range. }
  st ($ T_mul). apply ($ T_ret). split; simp; assumption.
Qed.
Lemma bn_fq6_frobenius_map_T v a x k : rep6 v a x ->
  TR v (bn_fq6_frobenius_map I a k) (fun r u => rep6 u r (fr6 (bn_kt k) (bn_t1 k) (bn_t2 k) x)).
Proof.
  intros (H1 & H2 & H3). destruct x as [[x0 x1] x2]. unfold bn_fq6_frobenius_map. simp.
  st bn_fq2_frobenius_map_T. st bn_fq2_frobenius_map_T. st bn_fq2_frobenius_map_T.
  st bn_const2_T. st ($ fq2_mul_T). st bn_const2_T. st ($ fq2_mul_T).
  apply ($ T_ret). split; [|split]; simp; assumption.
Qed.
Lemma bn_fq12_frobenius_map_T v a x k : rep12 v a x ->
  TR v (bn_fq12_frobenius_map I a k) (fun r u => rep12 u r (fr12 (bn_kt k) (bn_t1 k) (bn_t2 k) (bn_tz k) x)).
Proof.
  intros (H1 & H2). destruct x as [x0 x1]. unfold bn_fq12_frobenius_map. simp.
  st bn_fq6_frobenius_map_T. st bn_fq6_frobenius_map_T. st bn_const2_T.
  match goal with H : TowerProofs.rep6 _ _ _ _ (fr6 _ _ _ x1) |- _ => rename H into HF; destruct HF as (? & ? & ?) end.
  destruct x1 as [[y0 y1] y2]. cbn [fr6 t0 t1 t2 fst snd] in *.
  st ($ fq2_mul_T). st ($ fq2_mul_T). st ($ fq2_mul_T).
  apply ($ T_ret). split; [simp; assumption|]. split; [|split]; simp; assumption.
Qed.
Lemma bn_frob_T v a x k : rep12 v a x ->
  TR v (bn_fq12_frobenius_map I a k) (fun r u => rep12 u r (pow12 bn_xi x (bn256_fq_p ^ Z.of_nat k))).
Proof.
  intros H. eapply ($ T_weaken); [eapply bn_fq12_frobenius_map_T, H|]. intros r u _ K. cbv beta in K.
  eapply ($ rep12_eqm); [exact K|]. rewrite Ew. symmetry. apply bn_frob12.
Qed.

(** Lines prepared from an affine point. *)
Definition bn_digit (i : nat) : Z := nth (i - 1) SIX_U_PLUS_2_NAF 0.
Definition bn_prep_step (q : F2 * F2) (s : F6 * list F6) (i : nat) : F6 * list F6 :=
  let '(p, ls) := s in
  let d := dbl_pt p in let ls := ls ++ [dbl_line p] in
  if bn_digit i =? 1 then (add_pt d q, ls ++ [add_line d q])
  else if bn_digit i =? -1 then (add_pt d (fst q, neg2 (snd q)), ls ++ [add_line d (fst q, neg2 (snd q))])
  else (d, ls).
Definition bn_lines (q : F2 * F2) : list F6 :=
  let '(p, ls) := fold_left (bn_prep_step q) bn_loop_indices ((fst q, snd q, one2), []) in
  let q1 := (mul2 (conj2 (fst q)) (bn_to_fq2 (nth 1 FROBENIUS_COEFF_FQ6_C1 (0, 0))),
             mul2 (conj2 (snd q)) (bn_to_fq2 XI_TO_Q_MINUS_1_OVER_2)) in
  let q2 := (mul2 (fst q) (bn_to_fq2 (nth 2 FROBENIUS_COEFF_FQ6_C1 (0, 0))), snd q) in
  ls ++ [add_line p q1] ++ [add_line (add_pt p q1) q2].
Lemma bn_prepare_loop_T v g n r q x : repA v g q -> repA v n (fst q, neg2 (snd q)) -> repJ v r x ->
  TR v (bn_prepare_loop I g n r) (fun s u => repJ u (fst s) (fst (fold_left (bn_prep_step q) bn_loop_indices (x, []))) /\
    repL u (snd s) (snd (fold_left (bn_prep_step q) bn_loop_indices (x, [])))).
Proof.
  intros Hg Hn Hr. unfold bn_prepare_loop.
  eapply ($ T_weaken).
  - eapply (T_foldM _ (bn_prep_step q) (fun v s y => repA v g q /\ repA v n (fst q, neg2 (snd q)) /\
      repJ v (fst s) (fst y) /\ repL v (snd s) (snd y))) with (y := (x, [])).
    + intros; app3.
    + intros v0 [p cs] [px ls] i (H1 & H2 & H3 & H4). cbn [fst snd] in *.
      st doubling_step_T. unfold bn_prep_step. fold (bn_digit i).
      match goal with H : TowerProofs.rep6 _ _ _ _ (dbl_line px) |- _ => apply repL_1 in H; pose proof (repL_app _ _ _ _ _ H4 H) as HL; clear H end.
      destruct (bn_digit i =? 1).
      { st addition_step_T. apply ($ T_ret). cbn [fst snd]. split; [assumption|]. split; [assumption|]. split; [assumption|].
        apply repL_app; [assumption|]. apply repL_1; assumption. }
      destruct (bn_digit i =? -1).
      { st addition_step_T. apply ($ T_ret). cbn [fst snd]. split; [assumption|]. split; [assumption|]. split; [assumption|].
        apply repL_app; [assumption|]. apply repL_1; assumption. }
      apply ($ T_ret). cbn [fst snd]. split; [assumption|]. split; [assumption|]. split; assumption.
    + cbn [fst snd]. split; [assumption|]. split; [assumption|]. split; [assumption|constructor].
  - intros s u _ (_ & _ & H). exact H.
Qed.
Lemma bn_prepare_g2_T v g q : repA v g q -> zok v (ga_z g) ->
  TR v (bn_prepare_g2 I g) (fun r u => repL u r (bn_lines q)).
Proof.
  intros Hg Hz. unfold bn_prepare_g2. st g2_neg_T. st g2affine_to_g2_T. st bn_prepare_loop_T. unfold bn_lines.
  destruct (fold_left (bn_prep_step q) bn_loop_indices _) as [px ls]. cbn [fst snd] in *.
  st bn_const2_T. st bn_const2_T. st bn_const2_T.
  pose proof Hg as Hg'. destruct Hg' as [[X0 X1] [Y0 Y1]]. destruct q as [[qx0 qx1] [qy0 qy1]]. simp.
  st ($ T_neg).
  eapply ($ T_bind); [eapply ($ fq2_mul_T) with (x := conj2 (qx0, qx1)); [split; cbn [conj2 fst snd]; eassumption|eassumption]|app3|intros; app3|].
  intros r8 u8 L8 H8. cbv beta in H8. match type of L8 with le ?v _ => lift L8 v u8; clear L8 end.
  st ($ T_neg).
  eapply ($ T_bind); [eapply ($ fq2_mul_T) with (x := conj2 (qy0, qy1)); [split; cbn [conj2 fst snd]; eassumption|eassumption]|app3|intros; app3|].
  intros r10 u10 L10 H10. cbv beta in H10. match type of L10 with le ?v _ => lift L10 v u10; clear L10 end.
  eapply ($ T_bind); [eapply addition_step_T with (y := (mul2 (conj2 (qx0, qx1)) (bn_to_fq2 (nth 1 FROBENIUS_COEFF_FQ6_C1 (0, 0))), mul2 (conj2 (qy0, qy1)) (bn_to_fq2 XI_TO_Q_MINUS_1_OVER_2))); [eassumption|split; cbn [ga_x ga_y fst snd]; eassumption]|app3|intros; app3|].
  intros ra ua La [Ha1 Ha2]. match type of La with le ?v _ => lift La v ua; clear La end.
  st ($ fq2_mul_T). { apply Hg. }
  eapply ($ T_bind); [eapply addition_step_T with (y := (mul2 (qx0, qx1) (bn_to_fq2 (nth 2 FROBENIUS_COEFF_FQ6_C1 (0, 0))), (qy0, qy1)));
    [eassumption|split; cbn [ga_x ga_y fst snd]; [eassumption|apply Hg]]|app3|intros; app3|].
  intros rb ub Lb [Hb1 Hb2]. match type of Lb with le ?v _ => lift Lb v ub; clear Lb end.
  apply ($ T_ret). apply repL_app; [assumption|]. apply repL_app; apply repL_1; assumption.
Qed.

(** ** Lines and Miller loop *)
Lemma bn_ell_T v f k p x c px py : rep12 v f x -> rep6 v k c -> rep v (p_x p) px -> rep v (p_y p) py ->
  TR v (bn_ell I f k p) (fun r u => rep12 u r (mul12 bn_xi x (bn_line c (px, py)))).
Proof.
  intros Hf (H0 & H1 & H2) Hx Hy. destruct c as [[[c00 c01] [c10 c11]] c2]. destruct H0 as [? ?], H1 as [? ?].
  unfold bn_ell. simp. st ($ T_mul). st ($ T_mul). st ($ T_mul). st ($ T_mul).
  eapply ($ T_weaken); [eapply ($$ fq12_mul_by_034_T) with (y0 := (c00 * py, c01 * py)) (y3 := (c10 * px, c11 * px));
    [eassumption|split; simp; assumption|split; simp; assumption|eassumption]|].
  intros ? ? _ K. exact K.
Qed.
Definition bn_uses (i : nat) : nat := if ((bn_digit i =? 1) || (bn_digit i =? -1))%bool then 2 else 1.
Definition bn_total : nat := fold_right (fun i n => (bn_uses i + n)%nat) 2%nat bn_loop_indices.
Definition bn_mstep terms (s : F12 * nat) (i : nat) : F12 * nat :=
  let '(f, j) := s in
  let f := if (i =? 64)%nat then f else mul12 bn_xi f f in
  let f := mul12 bn_xi f (lines bn_xi bn_line terms j) in
  if ((bn_digit i =? 1) || (bn_digit i =? -1))%bool then (mul12 bn_xi f (lines bn_xi bn_line terms (S j)), S (S j))
  else (f, S j).
Definition bn_all_ok terms : Prop := Forall (fun t : (Z * Z) * list F6 => length (snd t) = bn_total) terms.
Definition bn_left (l : list nat) : nat := fold_right (fun i n => (bn_uses i + n)%nat) 2%nat l.
Definition bn_rel terms (l : list nat) v (s : afq12 * apairs) (y : F12 * nat) : Prop :=
  rep12 v (fst s) (fst y) /\ Forall2 (repP v) (snd s) (dropped (snd y) terms) /\ (snd y + bn_left l = bn_total)%nat.
Lemma bn_ell_all_T terms j : Forall (fun t => (j < length (snd t))%nat) terms ->
  forall v s x, rep12 v (fst s) x -> Forall2 (repP v) (snd s) (dropped j terms) ->
  TR v (ell_all (bn_ell I) s) (fun r u => rep12 u (fst r) (mul12 bn_xi x (lines bn_xi bn_line terms j)) /\
     Forall2 (repP u) (snd r) (dropped (S j) terms)).
Proof. intros L v [f l] x H1 H2. apply ell_all_T; auto. { intros; app3. } apply bn_ell_T. Qed.
Lemma massert_all_T v l terms N : Forall (fun t : (Z * Z) * list F6 => length (snd t) = N) terms ->
  Forall2 (repP v) l (dropped N terms) ->
  TR v (mapM (fun pq : apoint * list acoeff => massert (match snd pq with [] => true | _ => false end)) l) (fun _ _ => True).
Proof.
  intros LEN H. apply (T_mapM_true (fun pq : apoint * list acoeff => massert (match snd pq with [] => true | _ => false end)) (fun _ x => snd x = [])).
  - intros; app3.
  - auto.
  - intros v0 x ->. apply ($ T_ret). exact Logic.I.
  - clear - LEN H. remember (dropped N terms) as d eqn:D. revert terms LEN D.
    induction H as [|a b l d Hab Hd IH]; intros terms LEN D; [constructor|].
    destruct terms as [|t terms]; [discriminate|]. cbn [dropped map] in D. injection D as -> D2.
    inversion LEN; subst. constructor.
    + destruct Hab as (_ & _ & K). cbn [snd] in K. rewrite skipn_all in K. inversion K. reflexivity.
    + eapply IH; [eassumption|reflexivity].
Qed.
Lemma bn_step_T terms : bn_all_ok terms -> forall i l v s y, bn_rel terms (i :: l) v s y ->
  TR v (f <- (if negb (i =? length SIX_U_PLUS_2_NAF - 1)%nat then fq12_square I (bn_nonres I) (fst s) else mret (fst s)) ;;
    s <- ell_all (bn_ell I) (f, snd s) ;;
    let x := nth (i - 1) SIX_U_PLUS_2_NAF 0 in
    if x =? 1 then ell_all (bn_ell I) s
    else if x =? -1 then ell_all (bn_ell I) s
    else mret s)
  (fun s' u => bn_rel terms l u s' (bn_mstep terms y i)).
Proof.
  intros LEN i l v [f ps] [x j] (H1 & H2 & H3). cbn [fst snd] in *. unfold bn_mstep.
  change (length SIX_U_PLUS_2_NAF - 1)%nat with 64%nat. cbn [bn_left fold_right] in H3. fold (bn_left l) in H3.
  assert (J : (j < bn_total)%nat). { unfold bn_uses in H3. destruct ((bn_digit i =? 1) || (bn_digit i =? -1))%bool; lia. }
  eapply ($ T_bind) with (Q := fun f u => rep12 u f (if (i =? 64)%nat then x else mul12 bn_xi x x) /\ Forall2 (repP u) ps (dropped j terms)).
  { destruct (i =? 64)%nat; cbn [negb].
    - apply ($ T_ret). auto.
    - eapply ($ T_weaken); [eapply ($$ fq12_square_T), H1|]. intros r u L K. cbv beta in K. lift L v u. auto. }
  { destruct (negb (i =? 64)%nat); app3. }
  { intros. app3. }
  intros f1 u L [K1 K2]. clear H1 H2.
  eapply ($ T_bind); [eapply (bn_ell_all_T terms j); [eapply lens_lt; eauto|exact K1|exact K2]|intros; app3|intros; app3|].
  intros [f2 ps2] u2 L2 [M1 M2]. fold (bn_digit i). clear K1 K2 L2. cbn [fst snd] in M1, M2.
  unfold bn_uses in H3. destruct (bn_digit i =? 1); cbn [orb].
  { cbn [orb] in H3. eapply ($ T_weaken); [eapply (bn_ell_all_T terms (S j)); [eapply lens_lt; eauto; lia|exact M1|exact M2]|].
    intros r u3 _ [K1 K2]. split; [exact K1|]. split; [exact K2|]. cbn [snd]. lia. }
  destruct (bn_digit i =? -1); cbn [orb] in H3.
  { eapply ($ T_weaken); [eapply (bn_ell_all_T terms (S j)); [eapply lens_lt; eauto; lia|exact M1|exact M2]|].
    intros r u3 _ [K1 K2]. split; [exact K1|]. split; [exact K2|]. cbn [snd]. lia. }
  apply ($ T_ret). split; [exact M1|]. split; [exact M2|]. cbn [snd]. lia.
Qed.
Definition bn_mresult terms : F12 :=
  let '(f, j) := fold_left (bn_mstep terms) bn_loop_indices (one12, 0%nat) in
  mul12 bn_xi (mul12 bn_xi f (lines bn_xi bn_line terms j)) (lines bn_xi bn_line terms (S j)).
Lemma bn_miller_T v l terms : Forall2 (repP v) l terms -> bn_all_ok terms -> Forall (fun t => zok v (p_z (fst t))) l ->
  TR v (bn_multi_miller_loop I l) (fun r u => rep12 u r (bn_mresult terms)).
Proof.
  intros H LEN Z0. unfold bn_multi_miller_loop.
  eapply ($ T_bind); [apply (T_mapM_true (fun t => assert_false (p_z (fst t))) (fun v (t : apoint * list acoeff) => zok v (p_z (fst t))))|..].
  { intros; app3. } { intros u w0 x L. apply ($ zok_mono); assumption. } { intros v0 x K. eapply ($ T_weaken); [apply ($ T_zero), K|auto]. }
  { exact Z0. } { app3. } { intros; app3. }
  intros _ u0 L0 _. lift L0 v u0. clear Z0 L0.
  eapply ($ T_bind); [eapply ($ fq12_assign_one_T) with (xi := bn_xi) (nonres := bn_nonres I); [apply bn_nonres_T|apply appends_bn_nonres|apply w_gt1]|app3|intros; app3|].
  intros one u1 L1 H1. lift L1 u0 u1. clear L1. cbv beta in H1.
  eapply ($ T_bind); [eapply (T_foldM_rem _ (bn_mstep terms) (bn_rel terms)) with (y := (one12, 0%nat))|..].
  { intros [f ps] i. app3. }
  { apply bn_step_T. exact LEN. }
  { split; [exact H1|]. cbn [fst snd]. rewrite drop_0. split; [exact H|reflexivity]. }
  { app3. } { intros; app3. }
  intros [f ps] u2 _ (K1 & K2 & K3). unfold bn_mresult. destruct (fold_left (bn_mstep terms) bn_loop_indices _) as [x j]. cbn [fst snd] in *.
  change (bn_left []) with 2%nat in K3.
  eapply ($ T_bind); [eapply (bn_ell_all_T terms j); [eapply lens_lt; eauto; lia|exact K1|exact K2]|intros; app3|intros; app3|].
  intros s3 u3 _ [M1 M2].
  eapply ($ T_bind); [eapply (bn_ell_all_T terms (S j)); [eapply lens_lt; eauto; lia|exact M1|exact M2]|intros; app3|intros; app3|].
  intros s4 u4 _ [N1 N2].
  eapply ($ T_bind) with (Q := fun _ u => rep12 u (fst s4) (mul12 bn_xi (mul12 bn_xi x (lines bn_xi bn_line terms j)) (lines bn_xi bn_line terms (S j)))).
  { eapply ($ T_weaken); [eapply (massert_all_T _ _ terms bn_total); [exact LEN|]|].
    - replace bn_total with (S (S j)) by lia. exact N2.
    - intros _ u5 L _. cbv beta. lift L u4 u5. exact N1. }
  { intros; app3. } { intros; app3. }
  intros _ u5 _ R. apply ($ T_ret). exact R.
Qed.

(** ** Final exponentiation *)
Lemma bn_w_prime : prime w. Proof. rewrite Ew. exact bn256_fq_p_prime. Qed.
Lemma bn_w_p6 x : eq12 w (pow12 bn_xi x (w ^ 6)) (conj12 x). Proof. rewrite Ew. apply bn_pow_p6. Qed.
Lemma bn_w_csq x : cyclotomic w bn_xi x -> eq12 w (csq bn_xi x) (mul12 bn_xi x x). Proof. rewrite Ew. apply bn_cyc_square. Qed.
Notation "'&' f" := (f bn_xi (bn_nonres I) bn_nonres_T (appends_bn_nonres I) bn_w_prime bn_w_p6 bn_w_csq) (at level 9).
Notation repB := (repE bn_xi).
Notation repG := (repC bn_xi).
Ltac liftE L u v := lift L u v;
  repeat match goal with H : repE _ ?g u ?a ?e |- _ => apply (& repE_m g u v a e L) in H
  | H : repC _ ?g u ?a ?e |- _ => apply (& repC_m g u v a e L) in H end.
Ltac ste r :=
  eapply ($ T_bind); [eapply r; cbn [fst snd]; eauto 2|app3|app3|
    let x := fresh "r" in let u := fresh "u" in let L := fresh "L" in let H := fresh "H" in
    intros x u L H; cbv beta in H;
    match type of L with le ?v _ => liftE L v u; clear L end; cbn [fst snd] in *].
Lemma bn_frob_E g v a e k : repB g v a e -> TR v (bn_fq12_frobenius_map I a k) (fun r u => repB g u r (e * w ^ Z.of_nat k)).
Proof.
  intros H. eapply ($ T_weaken); [eapply bn_frob_T; exact (proj2 H)|]. intros r u L K. cbv beta in K.
  rewrite <- Ew in K. pose proof (& repE_m _ _ _ _ _ L H) as H'. eapply (& repE_frob); [|exact H'|exact K].
  apply Z.pow_nonneg. pose proof w_gt1. lia.
Qed.
Lemma bn_frob_C g v a e k : cyclotomic w bn_xi g -> repG g v a e ->
  TR v (bn_fq12_frobenius_map I a k) (fun r u => repG g u r (e * w ^ Z.of_nat k)).
Proof.
  intros C H. eapply ($ T_weaken); [eapply bn_frob_T; exact H|]. intros r u L K. cbv beta in K.
  rewrite <- Ew in K. pose proof (& repC_m _ _ _ _ _ L H) as H'. eapply (& frob_C); [exact C| |exact H'|exact K].
  apply Z.pow_nonneg. pose proof w_gt1. lia.
Qed.
Lemma bn_exp_by_x_C g v a e : cyclotomic w bn_xi g -> repG g v a e ->
  TR v (bn_exp_by_x I a) (fun r u => repG g u r (e * BN_X)).
Proof.
  intros C H. unfold bn_exp_by_x. ste ((& one_C) g).
  eapply ($ T_weaken).
  - eapply (T_foldM _ (fun m i => 2 * m + (if Z.testbit BN_X (Z.of_nat i) then 1 else 0)) (fun v r m => repG g v a e /\ repG g v r (e * m))) with (y := 0).
    + intros s x. app3.
    + intros v0 s m i [K1 K2]. ste (& csq_C). destruct (Z.testbit BN_X (Z.of_nat i)).
      * eapply ($ T_weaken); [eapply (& mul_C); eauto|]. intros r2 u2 L K. cbv beta in K. liftE L u0 u2. split; [assumption|].
        replace (e * (2 * m + 1)) with (2 * (e * m) + e) by ring. exact K.
      * apply ($ T_ret). split; [assumption|]. replace (e * (2 * m + 0)) with (2 * (e * m)) by ring. assumption.
    + rewrite Z.mul_0_r. split; assumption.
  - intros r1 u1 _ [_ K]. change BN_X with (fold_left (fun m i => 2 * m + (if Z.testbit BN_X (Z.of_nat i) then 1 else 0)) (rev (seq 0 64)) 0). exact K.
Qed.
Lemma bn_r_divides : (bn256_fr_p | Phi bn256_fq_p).
Proof. apply Z.mod_divide; [discriminate|]. vm_cast_no_check (eq_refl 0). Qed.
Lemma bn_final_T v a f : rep12 v a f -> (strict -> exists y, eq12 w (mul12 bn_xi f y) one12) ->
  TR v (bn_final_exponentiation I a) (fun r u => (exists y, eq12 w (mul12 bn_xi f y) one12) /\
    rep12 u r (pow12 bn_xi f ((w ^ 12 - 1) / bn256_fr_p))).
Proof.
  intros H HS. unfold bn_final_exponentiation.
  ste ($$ fq12_conjugate_T).
  eapply ($ T_bind); [eapply ($$ fq12_unsafe_invert_T); [exact H|exact HS]|app3|app3|].
  intros iv u1 L (y & Hy & E). liftE L u u1. clear L.
  eapply ($ T_bind); [eapply ($$ fq12_mul_T); eauto|app3|app3|].
  intros r1 u2 L K. cbv beta in K.
  assert (R1 : repB f u2 r1 (w ^ 6 - 1)).
  { split; [pose proof (p_pos w bn_w_prime bn_xi bn_w_p6 6 ltac:(lia)); lia|]. eapply ($ rep12_eqm); [exact K|].
    apply (& easy_1). exact E. }
  clear K L H H0 Hy HS. ste bn_frob_E. ste (& mul_E).
  pose proof (easy_cyclotomic w bn_w_prime bn_xi bn_w_p6 f y E) as C.
  assert (R : repG (pow12 bn_xi f (easy w)) u3 r2 1).
  { apply (& repC_1); [exact C|]. destruct H0 as [_ H0].
    replace (easy w) with ((w ^ 6 - 1) * w ^ Z.of_nat 2 + (w ^ 6 - 1)); [exact H0|]. unfold easy. change (Z.of_nat 2) with 2. ring. }
  clear H H0 R1.
  set (g := pow12 bn_xi f (easy w)) in *.
  ste bn_frob_C. ste bn_frob_C. ste bn_frob_C.
  ste bn_exp_by_x_C. ste bn_exp_by_x_C. ste bn_exp_by_x_C.
  ste bn_frob_C. ste bn_frob_C. ste bn_frob_C. ste bn_frob_C.
  ste (& mul_C). ste (& mul_C).
  ste (& conj_C). ste (& conj_C). ste (& conj_C).
  ste (& mul_C). ste (& conj_C). ste (& mul_C). ste (& conj_C). ste (& csq_C).
  ste (& mul_C). ste (& mul_C). ste (& mul_C). ste (& mul_C). ste (& mul_C). ste (& csq_C). ste (& mul_C). ste (& csq_C).
  ste (& mul_C). ste (& mul_C). ste (& csq_C).
  eapply ($ T_weaken); [eapply (& mul_C); eauto|].
  intros res uu _ K2. split; [exists y; exact E|].
  eapply ($ rep12_eqm); [exact K2|]. rewrite <- (Z.mul_1_l ((w ^ 12 - 1) / bn256_fr_p)).
  apply ((& hard) f y); [exact E|lia|reflexivity|rewrite Ew; exact bn_r_divides|].
  rewrite Ew. clear. vm_cast_no_check (eq_refl (1 * (Phi bn256_fq_p / bn256_fr_p))).
Qed.
End Bn.

(** ** bls12-381 *)
Section Bls.
Hypothesis Ew : w = bls12_381_fq_p.
Notation "'$$' f" := (f w I W le (@TR) rep zok strict RU bls_xi (bls_nonres I) bls_nonres_T (appends_bls_nonres I) w_gt1) (at level 9).
Add Ring F12bls : (F12_ring bls_xi).

Lemma bls_raw_range l : 0 <= from_raw_unchecked l < w.
Proof. rewrite Ew. unfold from_raw_unchecked. apply Z.mod_pos_bound. reflexivity. Qed.
Lemma bls_0_range : 0 <= 0 < w. Proof. pose proof w_gt1. lia. Qed.
Lemma bls_fq2_frobenius_map_T v a x k : rep2 v a x ->
  TR v (bls_fq2_frobenius_map I a k) (fun r u => rep2 u r (fr2 (-1) x)).
Proof. intros H. rewrite fr2_conj. apply ($ fq2_conjugate_T), H. Qed.
Lemma bls_fq6_frobenius_map_T v a x k : rep6 v a x ->
  TR v (bls_fq6_frobenius_map I a k) (fun r u => rep6 u r (fr6 (-1) bls_g1 bls_g2 x)).
Proof.
  intros (H1 & H2 & H3). destruct x as [[x0 x1] x2]. unfold bls_fq6_frobenius_map. simp.
  st bls_fq2_frobenius_map_T. st bls_fq2_frobenius_map_T. st bls_fq2_frobenius_map_T.
  st ($ fq2_assign_constant_T). { apply bls_0_range. } { apply bls_raw_range. } st ($ fq2_mul_T).
  st ($ fq2_assign_constant_T). { apply bls_raw_range. } { apply bls_0_range. } st ($ fq2_mul_T).
  apply ($ T_ret). split; [|split]; simp; assumption.
Qed.
Lemma bls_fq12_frobenius_map_T v a x k : rep12 v a x ->
  TR v (bls_fq12_frobenius_map I a k) (fun r u => rep12 u r (fr12 (-1) bls_g1 bls_g2 bls_g x)).
Proof.
  intros (H1 & H2). destruct x as [x0 x1]. unfold bls_fq12_frobenius_map. simp.
  st bls_fq6_frobenius_map_T. st bls_fq6_frobenius_map_T. st ($ fq2_assign_constant_T). { apply bls_raw_range. } { apply bls_raw_range. }
  match goal with H : TowerProofs.rep6 _ _ _ _ (fr6 _ _ _ x1) |- _ => rename H into HF; destruct HF as (? & ? & ?) end.
  destruct x1 as [[y0 y1] y2]. cbn [fr6 t0 t1 t2 fst snd] in *.
  st ($ fq2_mul_T). st ($ fq2_mul_T). st ($ fq2_mul_T).
  apply ($ T_ret). split; [simp; assumption|]. split; [|split]; simp; assumption.
Qed.
Lemma bls_frob_T v a x k : rep12 v a x ->
  TR v (bls_fq12_frobenius_map I a k) (fun r u => rep12 u r (pow12 bls_xi x bls12_381_fq_p)).
Proof.
  intros H. eapply ($ T_weaken); [eapply bls_fq12_frobenius_map_T, H|]. intros r u _ K. cbv beta in K.
  eapply ($ rep12_eqm); [exact K|]. rewrite Ew. symmetry. apply bls_frob12.
Qed.

(** Lines prepared from an affine point. *)
Definition bls_prep_step (q : F2 * F2) (s : bool * (F6 * list F6)) (i : bool) : bool * (F6 * list F6) :=
  let '(found, (p, ls)) := s in
  if found then
    let d := dbl_pt p in let ls := ls ++ [dbl_line p] in
    if i then (true, (add_pt d q, ls ++ [add_line d q])) else (true, (d, ls))
  else (i, (p, ls)).
Definition bls_lines (q : F2 * F2) : list F6 :=
  let '(_, (p, ls)) := fold_left (bls_prep_step q) (bls_bits (Z.shiftr BLS_X 1)) (false, ((fst q, snd q, one2), [])) in
  ls ++ [dbl_line p].
Lemma bls_prepare_g2_T v g q : repA v g q -> zok v (ga_z g) ->
  TR v (bls_prepare_g2 I g) (fun r u => repL u r (bls_lines q)).
Proof.
  intros Hg Hz. unfold bls_prepare_g2. st g2affine_to_g2_T.
  eapply ($ T_bind); [eapply (T_foldM _ (bls_prep_step q) (fun v s y => repA v g q /\ fst s = fst y /\ repJ v (fst (snd s)) (fst (snd y)) /\ repL v (snd (snd s)) (snd (snd y))))
     with (y := (false, ((fst q, snd q, one2), [])))|..].
  { intros [b [p cs]] i. app3. }
  { intros v0 [b [p cs]] [b' [px ls]] i (H1 & H2 & H3 & H4). cbn [fst snd] in *. subst b'. unfold bls_prep_step.
    destruct b; cbn [negb].
    - st doubling_step_T.
      match goal with H : TowerProofs.rep6 _ _ _ _ (dbl_line px) |- _ => apply repL_1 in H; pose proof (repL_app _ _ _ _ _ H4 H) as HL; clear H end.
      destruct i.
      + st addition_step_T. apply ($ T_ret). cbn [fst snd]. split; [assumption|]. split; [reflexivity|]. split; [assumption|].
        apply repL_app; [assumption|]. apply repL_1; assumption.
      + apply ($ T_ret). cbn [fst snd]. split; [assumption|]. split; [reflexivity|]. split; assumption.
    - apply ($ T_ret). cbn [fst snd]. split; [assumption|]. split; [reflexivity|]. split; assumption. }
  { cbn [fst snd]. split; [assumption|]. split; [reflexivity|]. split; [assumption|constructor]. }
  { app3. } { intros; app3. }
  intros s u1 _ (K1 & K2 & K3 & K4). unfold bls_lines.
  destruct (fold_left (bls_prep_step q) (bls_bits (Z.shiftr BLS_X 1)) _) as [b [p ls]]. cbn [fst snd] in *.
  st doubling_step_T. apply ($ T_ret). apply repL_app; [assumption|]. apply repL_1; assumption.
Qed.

(** ** Lines and Miller loop *)
Lemma bls_ell_T v f k p x c px py : rep12 v f x -> rep6 v k c -> rep v (p_x p) px -> rep v (p_y p) py ->
  TR v (bls_ell I f k p) (fun r u => rep12 u r (mul12 bls_xi x (bls_line c (px, py)))).
Proof.
  intros Hf (H0 & H1 & H2) Hx Hy. destruct c as [[[c00 c01] [c10 c11]] c2]. destruct H0 as [? ?], H1 as [? ?].
  unfold bls_ell. simp. st ($ T_mul). st ($ T_mul). st ($ T_mul). st ($ T_mul).
  eapply ($ T_weaken); [eapply ($$ fq12_mul_by_014_T) with (y4 := (c00 * py, c01 * py)) (y1 := (c10 * px, c11 * px));
    [eassumption|eassumption|split; simp; assumption|split; simp; assumption]|].
  intros ? ? _ K. exact K.
Qed.
Lemma bls_ell_all_T terms j : Forall (fun t => (j < length (snd t))%nat) terms ->
  forall v s x, rep12 v (fst s) x -> Forall2 (repP v) (snd s) (dropped j terms) ->
  TR v (ell_all (bls_ell I) s) (fun r u => rep12 u (fst r) (mul12 bls_xi x (lines bls_xi bls_line terms j)) /\
     Forall2 (repP u) (snd r) (dropped (S j) terms)).
Proof. intros L v [f l] x H1 H2. apply ell_all_T; auto. { intros; app3. } apply bls_ell_T. Qed.
Fixpoint bls_left (found : bool) (l : list bool) : nat :=
  match l with
  | [] => 1
  | i :: l => if found then (if i then 2 else 1) + bls_left true l else bls_left i l
  end.
Definition bls_total : nat := bls_left false (bls_bits (Z.shiftr BLS_X 1)).
Definition bls_mstep terms (s : bool * (F12 * nat)) (i : bool) : bool * (F12 * nat) :=
  if fst s then (true, bls_step terms (snd s) i) else (i, snd s).
Definition bls_all_ok terms : Prop := Forall (fun t : (Z * Z) * list F6 => (bls_total <= length (snd t))%nat) terms.
Lemma lens_le N terms j : Forall (fun t : (Z * Z) * list F6 => (N <= length (snd t))%nat) terms -> (j < N)%nat ->
  Forall (fun t : (Z * Z) * list F6 => (j < length (snd t))%nat) terms.
Proof. intros H L. eapply Forall_impl; [|exact H]. cbv beta. intros t E. lia. Qed.
Definition bls_rel terms (l : list bool) v (s : bool * (afq12 * apairs)) (y : bool * (F12 * nat)) : Prop :=
  fst s = fst y /\ rep12 v (fst (snd s)) (fst (snd y)) /\ Forall2 (repP v) (snd (snd s)) (dropped (snd (snd y)) terms) /\
  (snd (snd y) + bls_left (fst y) l = bls_total)%nat.
Lemma bls_step_T terms : bls_all_ok terms -> forall i l v s y, bls_rel terms (i :: l) v s y ->
  TR v (if negb (fst s) then mret (i, snd s)
    else
      r <- ell_all (bls_ell I) (snd s) ;;
      r <- (if i then ell_all (bls_ell I) r else mret r) ;;
      f <- fq12_square I (bls_nonres I) (fst r) ;;
      mret (true, (f, snd r)))
  (fun s' u => bls_rel terms l u s' (bls_mstep terms y i)).
Proof.
  intros LEN i l v [b [f ps]] [b' [x j]] (H0 & H1 & H2 & H3). cbn [fst snd] in *. subst b'. unfold bls_mstep. cbn [fst snd bls_left] in *.
  destruct b; cbn [negb].
  2: { apply ($ T_ret). split; [reflexivity|]. split; [exact H1|]. split; [exact H2|exact H3]. }
  eapply ($ T_bind); [eapply (bls_ell_all_T terms j); [eapply lens_le; eauto; destruct i; lia|exact H1|exact H2]|intros; app3|intros; app3|].
  intros [f2 ps2] u2 _ [M1 M2]. cbn [fst snd] in M1, M2. clear H1 H2.
  eapply ($ T_bind) with (Q := fun (r : afq12 * apairs) u =>
     rep12 u (fst r) (let f := mul12 bls_xi x (lines bls_xi bls_line terms j) in if i then mul12 bls_xi f (lines bls_xi bls_line terms (S j)) else f) /\
     Forall2 (repP u) (snd r) (dropped (if i then S (S j) else S j) terms)).
  { destruct i; [|apply ($ T_ret); auto]. eapply bls_ell_all_T; [eapply lens_le; eauto; lia|exact M1|exact M2]. }
  { destruct i; app3. } { intros; app3. }
  intros [f3 ps3] u3 _ [N1 N2]. cbn [fst snd] in N1, N2. clear M1 M2.
  eapply ($ T_bind); [eapply ($$ fq12_square_T); exact N1|app3|app3|]. intros f4 u4 L4 N3. cbv beta in N3. lift L4 u3 u4.
  apply ($ T_ret). split; [reflexivity|]. unfold bls_step. destruct i; cbn [fst snd] in *; (split; [exact N3|]; split; [exact N2|]; lia).
Qed.
Definition bls_mresult terms : F12 :=
  let '(_, (f, j)) := fold_left (bls_mstep terms) (bls_bits (Z.shiftr BLS_X 1)) (false, (one12, 0%nat)) in
  conj12 (mul12 bls_xi f (lines bls_xi bls_line terms j)).
Lemma bls_miller_T v l terms : Forall2 (repP v) l terms -> bls_all_ok terms -> Forall (fun t => zok v (p_z (fst t))) l ->
  TR v (bls_multi_miller_loop I l) (fun r u => rep12 u r (bls_mresult terms)).
Proof.
  intros H LEN Z0. unfold bls_multi_miller_loop.
  eapply ($ T_bind); [apply (T_mapM_true (fun t => assert_false (p_z (fst t))) (fun v (t : apoint * list acoeff) => zok v (p_z (fst t))))|..].
  { intros; app3. } { intros u w0 x L. apply ($ zok_mono); assumption. } { intros v0 x K. eapply ($ T_weaken); [apply ($ T_zero), K|auto]. }
  { exact Z0. } { app3. } { intros; app3. }
  intros _ u0 L0 _. lift L0 v u0. clear Z0 L0.
  eapply ($ T_bind); [eapply ($$ fq12_assign_one_T)|app3|intros; app3|].
  intros one u1 L1 H1. lift L1 u0 u1. clear L1. cbv beta in H1.
  eapply ($ T_bind); [eapply (T_foldM_rem _ (bls_mstep terms) (bls_rel terms)) with (y := (false, (one12, 0%nat)))|..].
  { intros [b [f ps]] i. app3. }
  { apply bls_step_T. exact LEN. }
  { split; [reflexivity|]. split; [exact H1|]. cbn [fst snd]. rewrite drop_0. split; [exact H|reflexivity]. }
  { app3. } { intros; app3. }
  intros [b [f ps]] u2 _ (K0 & K1 & K2 & K3). unfold bls_mresult.
  destruct (fold_left (bls_mstep terms) (bls_bits (Z.shiftr BLS_X 1)) _) as [b' [x j]]. cbn [fst snd] in *.
  cbn [bls_left] in K3.
  eapply ($ T_bind); [eapply (bls_ell_all_T terms j); [eapply lens_le; eauto; lia|exact K1|exact K2]|intros; app3|intros; app3|].
  intros s3 u3 _ [M1 M2]. apply ($$ fq12_conjugate_T). exact M1.
Qed.

(** ** Final exponentiation *)
Lemma bls_w_prime : prime w. Proof. rewrite Ew. exact bls12_381_fq_p_prime. Qed.
Lemma bls_w_p6 x : eq12 w (pow12 bls_xi x (w ^ 6)) (conj12 x). Proof. rewrite Ew. apply bls_pow_p6. Qed.
Lemma bls_w_csq x : cyclotomic w bls_xi x -> eq12 w (csq bls_xi x) (mul12 bls_xi x x). Proof. rewrite Ew. apply bls_cyc_square. Qed.
Notation "'&' f" := (f bls_xi (bls_nonres I) bls_nonres_T (appends_bls_nonres I) bls_w_prime bls_w_p6 bls_w_csq) (at level 9).
Notation repB := (repE bls_xi).
Notation repG := (repC bls_xi).
Ltac liftE L u v := lift L u v;
  repeat match goal with H : repE _ ?g u ?a ?e |- _ => apply (& repE_m g u v a e L) in H
  | H : repC _ ?g u ?a ?e |- _ => apply (& repC_m g u v a e L) in H end.
Ltac ste r :=
  eapply ($ T_bind); [eapply r; cbn [fst snd]; eauto 2|app3|app3|
    let x := fresh "r" in let u := fresh "u" in let L := fresh "L" in let H := fresh "H" in
    intros x u L H; cbv beta in H;
    match type of L with le ?v _ => liftE L v u; clear L end; cbn [fst snd] in *].
Lemma bls_frob_E g v a e k : repB g v a e -> TR v (bls_fq12_frobenius_map I a k) (fun r u => repB g u r (e * w)).
Proof.
  intros H. eapply ($ T_weaken); [eapply bls_frob_T; exact (proj2 H)|]. intros r u L K. cbv beta in K.
  rewrite <- Ew in K. pose proof (& repE_m _ _ _ _ _ L H) as H'. eapply (& repE_frob); [|exact H'|exact K].
  pose proof w_gt1. lia.
Qed.
Lemma bls_frob_C g v a e k : cyclotomic w bls_xi g -> repG g v a e ->
  TR v (bls_fq12_frobenius_map I a k) (fun r u => repG g u r (e * w)).
Proof.
  intros C H. eapply ($ T_weaken); [eapply bls_frob_T; exact H|]. intros r u L K. cbv beta in K.
  rewrite <- Ew in K. pose proof (& repC_m _ _ _ _ _ L H) as H'. eapply (& frob_C); [exact C| |exact H'|exact K].
  pose proof w_gt1. lia.
Qed.
Lemma bls_exp_C g v a e : cyclotomic w bls_xi g -> repG g v a e ->
  TR v (bls_cycolotomic_exp I a) (fun r u => repG g u r (- (e * BLS_X))).
Proof.
  intros C H. unfold bls_cycolotomic_exp. ste ((& one_C) g).
  set (h := fun (s : bool * Z) (i : bool) => (fst s || i, 2 * snd s + (if i then 1 else 0))%bool).
  eapply ($ T_bind).
  - eapply (T_foldM _ h (fun v s y => fst s = fst y /\ (fst y = false -> snd y = 0) /\ repG g v a e /\ repG g v (snd s) (e * snd y))) with (y := (false, 0)).
    + intros [b s] x. app3.
    + intros v0 [b s] [b' m] i (K1 & K2 & K3 & K4). cbn [fst snd] in *. subst b'.
      eapply ($ T_bind) with (Q := fun s u => fst s = (b || i)%bool /\ repG g u a e /\ repG g u (snd s) (e * (2 * m))).
      * destruct b.
        -- ste (& csq_C). apply ($ T_ret). cbn [fst snd]. split; [reflexivity|]. split; [assumption|].
           replace (e * (2 * m)) with (2 * (e * m)) by ring. assumption.
        -- apply ($ T_ret). cbn [fst snd]. split; [reflexivity|]. split; [assumption|]. rewrite (K2 eq_refl) in *. exact K4.
      * destruct b; app3.
      * intros; app3.
      * intros [b1 s1] u1 _ (M1 & M2 & M3). cbn [fst snd] in *. subst b1. unfold h. cbn [fst snd].
        destruct i.
        -- ste (& mul_C). apply ($ T_ret). cbn [fst snd]. split; [reflexivity|]. split; [rewrite orb_true_r; discriminate|].
           split; [assumption|]. replace (e * (2 * m + 1)) with (e * (2 * m) + e) by ring. assumption.
        -- apply ($ T_ret). cbn [fst snd]. split; [reflexivity|]. split; [rewrite orb_false_r; intros ->; rewrite K2 by reflexivity; reflexivity|].
           split; [assumption|]. replace (e * (2 * m + 0)) with (e * (2 * m)) by ring. assumption.
    + cbn [fst snd]. rewrite Z.mul_0_r. split; [reflexivity|]. split; [reflexivity|]. split; assumption.
  - app3.
  - intros; app3.
  - intros s u1 _ (_ & _ & _ & K). change BLS_X with (snd (fold_left h (bls_bits BLS_X) (false, 0))).
    apply (& conj_C); [exact C|exact K].
Qed.
Lemma bls_r_divides : (bls12_381_fr_p | Phi bls12_381_fq_p).
Proof. apply Z.mod_divide; [discriminate|]. vm_cast_no_check (eq_refl 0). Qed.
Lemma bls_final_T v a f : rep12 v a f -> (strict -> exists y, eq12 w (mul12 bls_xi f y) one12) ->
  TR v (bls_final_exponentiation I a) (fun r u => (exists y, eq12 w (mul12 bls_xi f y) one12) /\
    rep12 u r (pow12 bls_xi f (3 * ((w ^ 12 - 1) / bls12_381_fr_p)))).
Proof.
  intros H HS. unfold bls_final_exponentiation.
  assert (F : repB f v a 1) by (split; [lia|]; rewrite (pow_1 w bls_w_prime bls_xi bls_w_p6); exact H).
  ste bls_frob_E. ste bls_frob_E. ste bls_frob_E. ste bls_frob_E. ste bls_frob_E. ste bls_frob_E.
  clear H0 H1 H2 H3 H4 F.
  eapply ($ T_bind); [eapply ($$ fq12_unsafe_invert_T); [exact H|exact HS]|app3|app3|].
  intros iv v1 L (y & Hy & E). liftE L u4 v1. clear L.
  eapply ($ T_bind); [eapply ($$ fq12_mul_T); [exact (proj2 H5)|exact Hy]|app3|app3|].
  intros s2 v2 L K. cbv beta in K.
  assert (R1 : repB f v2 s2 (w ^ 6 - 1)).
  { pose proof (p_pos w bls_w_prime bls_xi bls_w_p6 6 ltac:(lia)). split; [lia|]. eapply ($ rep12_eqm); [exact K|].
    replace (1 * w * w * w * w * w * w) with (w ^ 6) by ring.
    apply (pow_less w bls_w_prime bls_xi bls_w_p6); [exact E|lia]. }
  clear K L H H5 Hy HS. ste bls_frob_E. ste bls_frob_E. ste (& mul_E).
  pose proof (easy_cyclotomic w bls_w_prime bls_xi bls_w_p6 f y E) as C.
  assert (R : repG (pow12 bls_xi f (easy w)) u7 r7 1).
  { apply (& repC_1); [exact C|]. destruct H1 as [_ H1].
    replace (easy w) with ((w ^ 6 - 1) * w * w + (w ^ 6 - 1)); [exact H1|]. unfold easy. ring. }
  clear H H0 H1 R1.
  set (g := pow12 bls_xi f (easy w)) in *.
  ste (& csq_C). ste (& conj_C). ste bls_exp_C. ste (& csq_C). ste (& mul_C).
  ste bls_exp_C. ste bls_exp_C. ste bls_exp_C. ste (& mul_C). ste bls_exp_C. ste (& conj_C).
  ste (& mul_C). ste (& mul_C). ste (& conj_C). ste (& mul_C).
  ste bls_frob_C. ste bls_frob_C. ste bls_frob_C. ste (& mul_C). ste bls_frob_C. ste (& mul_C).
  ste bls_frob_C. ste bls_frob_C. ste (& mul_C). ste (& mul_C).
  eapply ($ T_weaken); [eapply (& mul_C); eauto|].
  intros res uu _ K2. split; [exists y; exact E|].
  eapply ($ rep12_eqm); [exact K2|].
  apply ((& hard) f y); [exact E|lia|reflexivity|rewrite Ew; exact bls_r_divides|].
  rewrite Ew. clear. vm_cast_no_check (eq_refl (3 * (Phi bls12_381_fq_p / bls12_381_fr_p))).
Qed.
End Bls.
End World.
