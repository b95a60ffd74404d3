(** The point steps in Jacobian coordinates against the affine chord-and-tangent
    rules, and line coefficients up to factors in F_w2. *)
From Coq Require Import ZArith Znumtheory Lia Ring Setoid Morphisms List.
From Verif Require Import ModArith SpecTower TowerRing Frobenius Fq12Chip PairingProofs SpecPairing SpecAte.
Import ListNotations.
Local Open Scope Z_scope.

Add Ring F2r : F2_ring.
Lemma smul2_mul k x : smul2 k x = mul2 (k, 0) x.
Proof. destruct x. unfold smul2, mul2. apply pair_eq; ring. Qed.
Lemma smul2_2 x : smul2 2 x = add2 x x.
Proof. destruct x. unfold smul2, add2. apply pair_eq; ring. Qed.
Lemma smul2_3 x : smul2 3 x = add2 (add2 x x) x.
Proof. destruct x. unfold smul2, add2. apply pair_eq; ring. Qed.
Lemma eq2_by w (a b : F2) : a = b -> eq2 w a b. Proof. intros ->. reflexivity. Qed.

Section Steps.
Variable w : Z.
Notation "x == y" := (eq2 w x y) (at level 70).
Ltac rg := apply eq2_by; ring.

Definition dbl_k (X : F6) : F2 := let '(x, y, z) := X in 2* mul2 (mul2 z z) (2* mul2 y z).
Lemma dbl_jac X P lam : jacobian w X P -> tangent w P lam ->
  jacobian w (dbl_pt X) (sum_by lam P P) /\ eq6 w (dbl_line X) (scale (dbl_k X) (line_by lam P)).
Proof.
  destruct X as [[X Y] Z], P as [x y]. intros [HX HY] HT. unfold tangent in HT. cbn [fst snd] in *. rewrite smul2_2, smul2_3 in HT.
  assert (M : add2 (2* mul2 X X) (mul2 X X) == mul2 (mul2 (2* y) lam) (mul2 (mul2 Z Z) (mul2 Z Z))).
  { rewrite HT, HX. rg. }
  unfold dbl_pt, dbl_line, dbl_k, jacobian, scale, line_by, sum_by. cbn [fst snd].
  set (m := add2 (2* mul2 X X) (mul2 X X)) in *. clearbody m.
  split; [split|apply eq6_intro]; rewrite ?M, ?HX, ?HY; clear M HX HY HT; rg.
Qed.
Definition add_k (X : F6) (q : G2) : F2 := let '(x, y, z) := X in 2* mul2 z (2* add_h X q).
Lemma add_jac X P q Q lam : fst q == fst Q -> snd q == snd Q -> jacobian w X P -> chord w P Q lam ->
  jacobian w (add_pt X q) (sum_by lam P Q) /\ eq6 w (add_line X q) (scale (add_k X q) (line_by lam Q)).
Proof.
  destruct X as [[X Y] Z], P as [x y], q as [qx qy], Q as [x2 y2]. cbn [fst snd]. intros Ex Ey [HX HY] HC. unfold chord in HC. cbn [fst snd] in *.
  assert (H : add_h (X, Y, Z) (qx, qy) == mul2 (sub2 x2 x) (mul2 Z Z)).
  { cbn [add_h fst snd]. rewrite Ex, HX. rg. }
  assert (R : add_r (X, Y, Z) (qx, qy) == 2* mul2 (mul2 (sub2 x2 x) lam) (mul2 Z (mul2 Z Z))).
  { cbn [add_r fst snd]. rewrite HC, Ey, HY. rg. }
  unfold add_pt, add_line, add_k, jacobian, scale, line_by, sum_by.
  set (h := add_h (X, Y, Z) (qx, qy)) in *. set (r := add_r (X, Y, Z) (qx, qy)) in *. clearbody h r. cbn [fst snd].
  assert (C : y2 == add2 y (mul2 (sub2 x2 x) lam)). { rewrite HC. rg. }
  split; [split|apply eq6_intro]; rewrite ?R, ?H, ?HX, ?HY, ?Ex, ?Ey; clear R H HX HY HC Ex Ey C; rg.
Qed.
Lemma dbl_z X : t2 (dbl_pt X) = 2* mul2 (t1 X) (t2 X).
Proof. destruct X as [[X Y] Z]. reflexivity. Qed.
Lemma add_z X q : t2 (add_pt X q) = mul2 (t2 X) (2* add_h X q).
Proof. destruct X as [[X Y] Z]. reflexivity. Qed.
Lemma add_h_eq X (P q Q : G2) : fst q == fst Q -> jacobian w X P -> add_h X q == mul2 (sub2 (fst Q) (fst P)) (mul2 (t2 X) (t2 X)).
Proof.
  destruct X as [[X Y] Z], P as [x y], q as [qx qy], Q as [x2 y2]. cbn [fst snd]. intros Ex [HX HY]. cbn [fst snd] in *.
  cbn [add_h t2 fst snd]. rewrite Ex, HX. rg.
Qed.

(** F_w2 is a field of odd characteristic. *)
Hypothesis field2 : forall x, ~ x == zero2 -> exists y, mul2 x y == one2.
Hypothesis w_odd : 2 < w.
Lemma nz_mul x y : ~ x == zero2 -> ~ y == zero2 -> ~ mul2 x y == zero2.
Proof.
  intros Hx Hy E. destruct (field2 x Hx) as [x' Ex]. apply Hy.
  transitivity (mul2 one2 y); [rg|]. rewrite <- Ex. transitivity (mul2 x' (mul2 x y)); [rg|]. rewrite E. rg.
Qed.
Lemma nz_one : ~ one2 == zero2.
Proof. intros [E _]. cbn [fst one2 zero2] in E. rewrite Z.mod_1_l, Z.mod_0_l in E by lia. discriminate. Qed.
Lemma nz_dbl x : ~ x == zero2 -> ~ 2* x == zero2.
Proof.
  intros H. replace (2* x) with (mul2 (2, 0) x) by (destruct x; unfold mul2, add2; apply pair_eq; ring).
  apply nz_mul; [|exact H]. intros [E _]. cbn [fst zero2] in E. rewrite Z.mod_small, Z.mod_0_l in E by lia. discriminate.
Qed.
Lemma nz_eq x y : x == y -> ~ x == zero2 -> ~ y == zero2.
Proof. intros E H K. apply H. rewrite E. exact K. Qed.
Lemma nz_sub x y : ~ x == y -> ~ sub2 y x == zero2.
Proof. intros H E. apply H. transitivity (sub2 y (sub2 y x)); [rg|]. rewrite E. rg. Qed.

(** The coefficient l is the line a up to a factor of F_w2 other than zero. *)
Definition multiple (l a : F6) : Prop := exists k, ~ k == zero2 /\ eq6 w l (scale k a).
(** A Jacobian triple of a finite point. *)
Definition finite (X : F6) (P : G2) : Prop := jacobian w X P /\ ~ t2 X == zero2.

Lemma dbl_finite X P lam : finite X P -> ~ snd P == zero2 -> tangent w P lam ->
  finite (dbl_pt X) (sum_by lam P P) /\ multiple (dbl_line X) (line_by lam P).
Proof.
  intros [J NZ] HY HT. destruct (dbl_jac X P lam J HT) as [J' L].
  assert (NY : ~ t1 X == zero2).
  { destruct X as [[X Y] Z]. destruct J as [_ J]. cbn [t1 t2 fst snd] in *. eapply nz_eq; [symmetry; exact J|].
    apply nz_mul; [exact HY|]. apply nz_mul; [exact NZ|]. apply nz_mul; exact NZ. }
  split; [split; [exact J'|]|].
  - rewrite dbl_z. apply nz_dbl, nz_mul; assumption.
  - exists (dbl_k X). split; [|exact L]. destruct X as [[X Y] Z]. cbn [dbl_k t1 t2 fst snd] in *.
    apply nz_dbl, nz_mul; [apply nz_mul; exact NZ|]. apply nz_dbl, nz_mul; assumption.
Qed.
Lemma add_finite X P q Q lam : fst q == fst Q -> snd q == snd Q -> finite X P -> ~ fst P == fst Q -> chord w P Q lam ->
  finite (add_pt X q) (sum_by lam P Q) /\ multiple (add_line X q) (line_by lam Q).
Proof.
  intros E1 E2 [J NZ] HX HC. destruct (add_jac X P q Q lam E1 E2 J HC) as [J' L].
  assert (NH : ~ add_h X q == zero2).
  { eapply nz_eq; [symmetry; apply (add_h_eq X P q Q E1 J)|]. apply nz_mul; [apply nz_sub; exact HX|]. apply nz_mul; exact NZ. }
  split; [split; [exact J'|]|].
  - rewrite add_z. apply nz_mul; [exact NZ|]. apply nz_dbl, NH.
  - exists (add_k X q). split; [|exact L]. destruct X as [[X Y] Z]. unfold add_k. cbn [t2 snd] in *.
    apply nz_dbl, nz_mul; [exact NZ|]. apply nz_dbl, NH.
Qed.
Lemma finite_start Q : finite (fst Q, snd Q, one2) Q.
Proof. split; [split; rg|]. exact nz_one. Qed.

(** The lines of the gadgets, by digits. *)
Fixpoint prep (q : G2) (ds : list Z) (X : F6) : F6 * list F6 :=
  match ds with
  | [] => (X, [])
  | d :: ds =>
    let D := dbl_pt X in
    let r := if d =? 1 then q else neg_pt q in
    if (d =? 1) || (d =? -1) then
      let '(X', ls) := prep q ds (add_pt D r) in (X', dbl_line X :: add_line D r :: ls)
    else let '(X', ls) := prep q ds D in (X', dbl_line X :: ls)
  end%bool.
Definition uses (d : Z) : nat := if ((d =? 1) || (d =? -1))%bool then 2 else 1.
Lemma prep_length q ds X : length (snd (prep q ds X)) = fold_right (fun d n => (uses d + n)%nat) 0%nat ds.
Proof.
  revert X. induction ds as [|d ds IH]; intros X; cbn [prep fold_right]; [reflexivity|]. unfold uses at 1.
  destruct ((d =? 1) || (d =? -1))%bool.
  - specialize (IH (add_pt (dbl_pt X) (if d =? 1 then q else neg_pt q))). destruct (prep _ _ _). cbn [snd length] in *. lia.
  - specialize (IH (dbl_pt X)). destruct (prep _ _ _). cbn [snd length] in *. lia.
Qed.
Lemma prep_steps Q ds T T' ls : steps w Q ds T T' ls -> forall X, finite X T ->
  finite (fst (prep Q ds X)) T' /\ Forall2 multiple (snd (prep Q ds X)) ls.
Proof.
  induction 1 as [T|ds T T' lam ls HY HT HS IH|d ds T T' lam mu ls Hd D R HY HT HX HC HS IH]; intros X HF.
  - split; [exact HF|constructor].
  - cbn [prep Z.eqb orb]. destruct (dbl_finite X T lam HF HY HT) as [F1 M1]. specialize (IH _ F1).
    destruct (prep Q ds (dbl_pt X)) as [X' l']. cbn [fst snd] in *. destruct IH as [IH1 IH2]. split; [exact IH1|]. constructor; assumption.
  - cbn [prep]. replace ((d =? 1) || (d =? -1))%bool with true by (destruct Hd; subst d; reflexivity).
    destruct (dbl_finite X T lam HF HY HT) as [F1 M1]. fold D in F1.
    destruct (add_finite (dbl_pt X) D R R mu (reflexivity (fst R)) (reflexivity (snd R)) F1 HX HC) as [F2 M2]. specialize (IH _ F2).
    fold R. destruct (prep Q ds (add_pt (dbl_pt X) R)) as [X' l']. cbn [fst snd] in *. destruct IH as [IH1 IH2].
    split; [exact IH1|]. constructor; [exact M1|]. constructor; assumption.
Qed.
End Steps.

(** ** Miller values up to factors in F_w2 *)
Definition emb (k : F2) : F12 := ((k, zero2, zero2), zero6).
Section Sim.
Variable w : Z.
Variable xi : F2.
Add Ring F6r : (F6_ring xi).
Add Ring F12r : (F12_ring xi).
Notation mul := (mul12 xi).
Notation "x == y" := (eq12 w x y) (at level 70).
Hypothesis field2 : forall x, ~ eq2 w x zero2 -> exists y, eq2 w (mul2 x y) one2.
Hypothesis field12 : forall x, ~ x == zero12 -> exists y, mul x y == one12.
Hypothesis w_odd : 2 < w.
Ltac rg := apply eq_subrelation; [typeclasses eauto|ring].
Notation unit12 := (fun f : F12 => exists y, mul f y == one12).

Lemma emb_mul a b : emb (mul2 a b) = mul (emb a) (emb b).
Proof. unfold emb, mul12, zero6, add6, mul6, v6. repeat apply pair_eq; ring. Qed.
Lemma emb_one : emb one2 = one12. Proof. reflexivity. Qed.
Lemma emb_proper a b : eq2 w a b -> emb a == emb b.
Proof. intros H. split; [apply eq6_intro; [exact H|reflexivity|reflexivity]|reflexivity]. Qed.
Lemma emb_conj k f : conj12 (mul (emb k) f) = mul (emb k) (conj12 f).
Proof. destruct f as [[[a b] c] [[d e] f]]. unfold emb, conj12, mul12, zero6, add6, mul6, v6, neg6. repeat apply pair_eq; ring. Qed.
Lemma emb_pow k n : emb (pow2 k n) = pow12 xi (emb k) n.
Proof.
  destruct (Z_lt_le_dec n 0) as [L|L]. { destruct n; try lia. reflexivity. }
  change pow2 with (@pw F2 one2 mul2). change (pow12 xi) with (@pw F12 one12 (mul12 xi)). pattern n. apply natlike_ind; [reflexivity| |exact L].
  intros m Hm IH. rewrite !pw_succ by lia. rewrite <- IH. apply emb_mul.
Qed.

Definition sim (f g : F12) : Prop := exists k, ~ eq2 w k zero2 /\ f == mul (emb k) g.
Lemma sim_refl f : sim f f.
Proof. exists one2. split; [apply (nz_one w w_odd)|]. rewrite emb_one. rg. Qed.
Lemma sim_mul f g f' g' : sim f g -> sim f' g' -> sim (mul f f') (mul g g').
Proof.
  intros (k & N & E) (k' & N' & E'). exists (mul2 k k'). split; [apply (nz_mul w field2); assumption|].
  rewrite E, E', emb_mul. rg.
Qed.
Lemma sim_conj f g : sim f g -> sim (conj12 f) (conj12 g).
Proof. intros (k & N & E). exists k. split; [exact N|]. rewrite E, emb_conj. reflexivity. Qed.
Lemma unit_mul f g : unit12 f -> unit12 g -> unit12 (mul f g).
Proof.
  intros [y E] [y' E']. exists (mul y y'). transitivity (mul (mul f y) (mul g y')); [rg|]. rewrite E, E'. rg.
Qed.
Lemma unit_emb k : ~ eq2 w k zero2 -> unit12 (emb k).
Proof. intros N. destruct (field2 k N) as [y E]. exists (emb y). rewrite <- emb_mul. exact (emb_proper _ _ E). Qed.
Lemma unit_eq f g : f == g -> unit12 f -> unit12 g.
Proof. intros E [y H]. exists y. rewrite <- E. exact H. Qed.
Lemma unit_one : unit12 one12. Proof. exists one12. rg. Qed.
Lemma unit_conj f : unit12 f -> unit12 (conj12 f).
Proof.
  intros [y E]. exists (conj12 y). transitivity (conj12 (mul f y)).
  - destruct f as [f0 f1], y as [y0 y1]. apply eq_subrelation; [typeclasses eauto|]. unfold conj12, mul12. apply pair_eq; ring.
  - rewrite E. reflexivity.
Qed.
Lemma unit_sim f g : sim f g -> unit12 g -> unit12 f.
Proof. intros (k & N & E) U. eapply unit_eq; [symmetry; exact E|]. apply unit_mul; [apply unit_emb, N|exact U]. Qed.

(** A power that kills F_w2. *)
Lemma pow_kills k n : prime w -> w mod 4 = 3 -> ~ eq2 w k zero2 -> 0 <= n -> eq2 w (pow2 k ((w ^ 2 - 1) * n)) one2.
Proof.
  intros P P4 N L. destruct (field2 k N) as [y E].
  assert (F : eq2 w (pow2 k (w ^ 2)) k).
  { change (pow2 k (w ^ 2)) with (@pw F2 one2 mul2 k (w ^ 2)). replace (w ^ 2) with (w * w) by ring.
    rewrite (pw_mul F2_ring) by lia. etransitivity; [apply (frob2 w P P4)|]. etransitivity; [apply conj2_proper, (frob2 w P P4)|].
    destruct k as [a b]. apply eq2_intro; cbn [conj2]; [reflexivity|]. apply eqm_eq. ring. }
  assert (G : eq2 w (pow2 k (w ^ 2 - 1)) one2).
  { transitivity (mul2 (pow2 k (w ^ 2)) y).
    - replace (w ^ 2) with (1 + (w ^ 2 - 1)) at 2 by ring. change pow2 with (@pw F2 one2 mul2).
      rewrite (pw_add F2_ring) by nia. rewrite (pw_1 F2_ring).
      set (q := pw k (w ^ 2 - 1)). clearbody q.
      transitivity (mul2 one2 q); [apply eq2_by; ring|]. rewrite <- E. apply eq2_by. ring.
    - rewrite F. exact E. }
  change pow2 with (@pw F2 one2 mul2) in *. rewrite (pw_mul F2_ring) by nia.
  assert (K : forall a b m, eq2 w a b -> 0 <= m -> eq2 w (pw (one:=one2) (mul:=mul2) a m) (pw (one:=one2) (mul:=mul2) b m)).
  { intros a b m Hab Lm. pattern m. apply natlike_ind; [reflexivity| |exact Lm].
    intros x Hx IH. rewrite !pw_succ by lia. rewrite IH, Hab. reflexivity. }
  etransitivity; [apply K; [exact G|exact L]|]. rewrite (pw_one F2_ring). reflexivity.
Qed.
Lemma sim_pow f g e n : prime w -> w mod 4 = 3 -> 0 <= n -> e = (w ^ 2 - 1) * n -> sim f g -> pow12 xi f e == pow12 xi g e.
Proof.
  intros P P4 L -> (k & N & E). pose proof (prime_ge_2 _ P) as W2.
  set (e := (w ^ 2 - 1) * n). assert (L2 : 0 <= e) by (unfold e; nia).
  assert (K : forall a b m, a == b -> 0 <= m -> pow12 xi a m == pow12 xi b m).
  { intros a b m Hab Lm. change (pow12 xi) with (@pw F12 one12 (mul12 xi)). pattern m. apply natlike_ind; [reflexivity| |exact Lm].
    intros x Hx IH. rewrite !pw_succ by lia. rewrite IH, Hab. reflexivity. }
  etransitivity; [apply K; [exact E|exact L2]|].
  change (pow12 xi (mul (emb k) g) e) with (@pw F12 one12 (mul12 xi) (mul (emb k) g) e).
  rewrite (pw_mul_base (F12_ring xi)). change (@pw F12 one12 (mul12 xi) (emb k) e) with (pow12 xi (emb k) e).
  rewrite <- emb_pow. rewrite (emb_proper (pow2 k e) one2 (pow_kills k n P P4 N L)). rewrite emb_one. change (@pw F12 one12 (mul12 xi) g e) with (pow12 xi g e). rg.
Qed.

Section Lines.
Variable line : F6 -> Z * Z -> F12.
Hypothesis line_scale : forall k a P, line (scale k a) P = mul (emb k) (line a P).
Hypothesis line_proper : forall a b P, eq6 w a b -> line a P == line b P.
Definition tsim (t t' : (Z * Z) * list F6) : Prop := fst t = fst t' /\ Forall2 (multiple w) (snd t) (snd t').
Lemma multiple_nth l l' j : Forall2 (multiple w) l l' -> multiple w (nth j l zero6) (nth j l' zero6).
Proof.
  intros H. revert j. induction H as [|a b l l' Hab Hl IH]; intros j.
  - replace (nth j [] zero6) with zero6 by (destruct j; reflexivity). exists one2. split; [apply (nz_one w w_odd)|].
    apply eq_subrelation; [typeclasses eauto|]. unfold scale, zero6. repeat apply pair_eq; ring.
  - destruct j; [exact Hab|apply IH].
Qed.
Lemma lines_sim ts ts' j : Forall2 tsim ts ts' -> sim (lines xi line ts j) (lines xi line ts' j).
Proof.
  induction 1 as [|[P l] [P' l'] ts ts' [E H] _ IH]; [apply sim_refl|]. cbn [fst snd] in E, H. subst P'. cbn [lines].
  apply sim_mul; [|exact IH]. destruct (multiple_nth l l' j H) as (k & N & K). exists k. split; [exact N|].
  rewrite (line_proper _ _ P K), line_scale. reflexivity.
Qed.
Definition good_line (P : Z * Z) (a : F6) : Prop := unit12 (line a P).
Lemma lines_unit ts j : Forall (fun t => (j < length (snd t))%nat /\ Forall (good_line (fst t)) (snd t)) ts -> unit12 (lines xi line ts j).
Proof.
  induction 1 as [|[P l] ts [L H] _ IH]; [apply unit_one|]. cbn [fst snd lines] in *. apply unit_mul; [|exact IH].
  rewrite Forall_forall in H. apply (H (nth j l zero6)). apply nth_In, L.
Qed.
End Lines.
End Sim.
