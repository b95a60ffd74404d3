(** The check of [Checker] with the cell store turned into a map first. *)
From Coq Require Import FMapPositive.
From Verif Require Import Prelude FieldZ Circuit Context Spec Logic Checker.

(** An injective key for cells. *)
Fixpoint pnat (n : nat) (p : positive) : positive :=
  match n with O => xO p | S n' => xI (xI (pnat n' p)) end.
Definition kchip (ch : chip) (p : positive) : positive :=
  match ch with BaseChip => xO (xO p) | RangeChip => xO (xI p) | SelectChip => xI p end.
Definition key (x : cell) : positive :=
  kchip (c_chip x) (pnat (c_col x) (Pos.of_succ_nat (c_row x))).
Lemma pnat_inj n m p q : pnat n p = pnat m q -> n = m /\ p = q.
Proof.
  revert m. induction n as [|n IH]; intros [|m] E; cbn in E; try discriminate.
  - injection E as ->. auto.
  - injection E as E. apply IH in E as [-> ->]. auto.
Qed.
Lemma key_inj x y : key x = key y -> x = y.
Proof.
  destruct x as [c1 k1 r1], y as [c2 k2 r2]. unfold key. cbn [c_chip c_col c_row].
  destruct c1, c2; cbn [kchip]; intros E; try discriminate; injection E as E; apply pnat_inj in E as [-> E];
    apply SuccNat2Pos.inj in E; subst; reflexivity.
Qed.

Definition amap (m : mem) : PositiveMap.t Z :=
  fold_right (fun w t => match w with WAdv x v => PositiveMap.add (key x) v t | _ => t end) (PositiveMap.empty Z) m.
Definition fmap (m : mem) : PositiveMap.t Z :=
  fold_right (fun w t => match w with WFix x v => PositiveMap.add (key x) v t | _ => t end) (PositiveMap.empty Z) m.
Lemma amap_ok m x : PositiveMap.find (key x) (amap m) = get_adv m x.
Proof.
  induction m as [|w m IH]; [apply PositiveMap.gempty|]. destruct w as [y v|y v|y]; cbn [amap fold_right get_adv]; try exact IH.
  destruct (cell_eqb y x) eqn:E.
  - apply cell_eqb_eq in E. subst. apply PositiveMap.gss.
  - rewrite PositiveMap.gso; [exact IH|]. intros K. apply key_inj in K. subst.
    assert (cell_eqb y y = true) by (apply cell_eqb_eq; reflexivity). congruence.
Qed.
Lemma fmap_ok m x : PositiveMap.find (key x) (fmap m) = get_fix m x.
Proof.
  induction m as [|w m IH]; [apply PositiveMap.gempty|]. destruct w as [y v|y v|y]; cbn [fmap fold_right get_fix]; try exact IH.
  destruct (cell_eqb y x) eqn:E.
  - apply cell_eqb_eq in E. subst. apply PositiveMap.gss.
  - rewrite PositiveMap.gso; [exact IH|]. intros K. apply key_inj in K. subst.
    assert (cell_eqb y y = true) by (apply cell_eqb_eq; reflexivity). congruence.
Qed.

Section Fast.
Context {NM : NMod}.

Definition select_rowf (fx A : cell -> Z) (n r : nat) : bool :=
  let v := A (scell ValueCol r) in let e := select_input fx A r in
  existsb (fun r' => (A (scell ValueCol r') =? v) && (fx (scell EncodeCol r') =? e)
                     && (fx (scell IsLookupCol r') =? 0)) (n :: seq 0 n).

Definition fcheck (c : ctx) (m : mem) : bool :=
  let n := Nat.max (max_row (c_mem c)) (max_row m) in
  let fm := fmap (c_mem c) in let am := amap m in
  let fx := fun x => opt0 (PositiveMap.find (key x) fm) in
  let A := fun x => opt0 (PositiveMap.find (key x) am) in
  forallb (fun w => match w with WAdv _ v => (0 <=? v) && (v <? nmod) | _ => true end) m
  && forallb (fun r => base_rowb fx A r && range_rowb fx A r && select_rowf fx A n r) (seq 0 n)
  && forallb (fun ab => A (fst ab) =? A (snd ab)) (c_perms c).

Lemma forallb_ext' {X} (f g : X -> bool) l : (forall x, f x = g x) -> forallb f l = forallb g l.
Proof. intros E. induction l as [|x l IH]; cbn; [auto|]. rewrite E, IH. reflexivity. Qed.

Lemma fcheck_ok c m : 1 < nmod -> fcheck c m = true -> satisfies c (asg m).
Proof.
  intros N H. apply check_ok; [exact N|]. rewrite <- H. symmetry. unfold fcheck, check.
  set (n := Nat.max _ _).
  assert (EF : forall x, opt0 (PositiveMap.find (key x) (fmap (c_mem c))) = fixv c x)
    by (intros x; rewrite fmap_ok; reflexivity).
  assert (EA : forall x, opt0 (PositiveMap.find (key x) (amap m)) = asg m x)
    by (intros x; rewrite amap_ok; reflexivity).
  set (fx := fun x => opt0 (PositiveMap.find (key x) (fmap (c_mem c)))) in *.
  set (A := fun x => opt0 (PositiveMap.find (key x) (amap m))) in *.
  assert (EF' : forall x, fx x = fixv c x) by exact EF. assert (EA' : forall x, A x = asg m x) by exact EA.
  clearbody fx A. clear EF EA.
  f_equal; [f_equal|].
  - apply forallb_ext'. intros r. f_equal; [f_equal|].
    + unfold base_rowb, base_expr. rewrite !EF', !EA'. reflexivity.
    + unfold range_rowb, range_expr1, range_expr2, range_expr3. rewrite !EF', !EA'. reflexivity.
    + unfold select_rowf, select_rowb. rewrite seq_S, existsb_app. cbn [existsb Nat.add].
      assert (EI : select_input fx A r = select_input (fixv c) (asg m) r)
        by (unfold select_input; rewrite !EF', !EA'; reflexivity).
      rewrite EI, !EF', !EA', Bool.orb_false_r, Bool.orb_comm. f_equal.
      induction (seq 0 n) as [|k l IH]; [reflexivity|]. cbn [existsb]. rewrite IH, !EF', !EA'. reflexivity.
  - apply forallb_ext'. intros [a b]. cbn [fst snd]. rewrite !amap_ok. reflexivity.
Qed.
Definition frun_check {X} (m : M X) (t : X -> (cell -> Z) -> bool) : bool :=
  match m ctx_new with
  | Ok (x, c') => fcheck c' (c_mem c') && t x (honest c')
  | Panic => false
  end.
Lemma frun_check_ok {X} (m : M X) t : 1 < nmod -> frun_check m t = true ->
  exists r c', m ctx_new = Ok (r, c') /\ satisfies c' (honest c') /\ t r (honest c') = true.
Proof.
  intros N H. unfold frun_check in H. destruct (m ctx_new) as [[x c']|] eqn:E; [|discriminate].
  apply andb_true_iff in H as [H1 H2]. exists x, c'. split; [auto|]. split; [|auto].
  apply (fcheck_ok c' (c_mem c')); auto.
Qed.
End Fast.
