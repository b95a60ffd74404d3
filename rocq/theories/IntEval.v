(** An evaluator for integer programs over the residues, used to show concrete
    programs runnable: it stops at divisions by zero, so its result is the only
    one allowed by the relational semantics. *)
From Verif Require Import Prelude FieldZ ModArith SpecProg Spec Circuit Context IntegerChip IntProg SpecInt
  RangeInfo InfoProofs IntProgProofs Logic BaseProofs IntInv IntArith IntSound IntComplete IntBridge.

Definition ieval1 (w : Z) (op : iop) (s : istate) : option istate :=
  let xs := fst s in let bs := snd s in
  let get i k := match nth_error xs i with Some x => k x | None => None end in
  let ret x := Some (xs ++ [x mod w], bs) in
  let retb b := Some (xs, bs ++ [b]) in
  match op with
  | IConst x => ret x
  | IAdd i j => get i (fun x => get j (fun y => ret (x + y)))
  | ISub i j => get i (fun x => get j (fun y => ret (x - y)))
  | INeg i => get i (fun x => ret (- x))
  | IMul i j => get i (fun x => get j (fun y => ret (x * y)))
  | ISquare i => get i (fun x => ret (x * x))
  | IMulSmall i k => get i (fun x => ret (x * k))
  | IReduce i => get i ret
  | IDiv i j => get i (fun x => get j (fun y =>
      match zinv w y with
      | Some q => if y mod w =? 0 then None else Some (xs ++ [(x * q) mod w], bs ++ [false])
      | None => None end))
  | IInvert i => get i (fun x => match zinv w x with Some q => Some (xs ++ [q mod w], bs) | None => None end)
  | ISelect b i j => match nth_error bs b with
      | Some c => get i (fun x => get j (fun y => ret (if c then x else y))) | None => None end
  | IIsZero i => get i (fun x => retb (x mod w =? 0))
  | IIsEqual i j => get i (fun x => get j (fun y => retb ((x - y) mod w =? 0)))
  | IAssertEqual i j => get i (fun x => get j (fun y => if x mod w =? y mod w then Some s else None))
  end.
Fixpoint ieval (w : Z) (l : list iop) (s : istate) : option istate :=
  match l with
  | [] => Some s
  | op :: l' => match ieval1 w op s with Some s1 => ieval w l' s1 | None => None end
  end.

Lemma mod1 w : prime w -> 1 mod w = 1.
Proof. intros P. apply Z.mod_small. pose proof (prime_ge_2 _ P). lia. Qed.
Lemma inv_unique w x a b c : prime w -> a * b ≡ 1 ⟨w⟩ -> a * c ≡ x ⟨w⟩ -> 0 <= c < w -> c = (x * b) mod w.
Proof.
  intros P H1 H2 H3. rewrite <- (Z.mod_small c w) by lia. change (c ≡ x * b ⟨w⟩).
  rewrite <- H2. transitivity ((a * b) * c); [rewrite H1|]; apply eqm_eq; ring.
Qed.

Lemma ieval1_ok w op s s' : prime w -> ieval1 w op s = Some s' ->
  istep w op s s' /\ forall s'', istep w op s s'' -> s'' = s'.
Proof.
  intros P H. pose proof (w_pos w P) as WP.
  destruct op; cbn [ieval1 istep] in *;
    repeat match type of H with context [match nth_error ?l ?i with _ => _ end] =>
      let E := fresh "N" in destruct (nth_error l i) eqn:E; [|discriminate] end;
    try (injection H as <-; split;
         [repeat eexists; eauto
         |intros s'' K; repeat match type of K with ex _ => destruct K as [? K] | _ /\ _ => let Q := fresh "Q" in destruct K as [Q K] end;
          subst; congruence]).
  - destruct (zinv w z0) as [q|] eqn:EQ; [|discriminate]. destruct (z0 mod w =? 0) eqn:Z0; [discriminate|].
    apply zinv_correct in EQ as [E1 E2]; auto. injection H as <-. split.
    + exists z, z0, ((z * q) mod w). repeat split; auto; try (apply Z.mod_pos_bound; lia); [|rewrite Z0; reflexivity].
      intros _. change (z0 * ((z * q) mod w) ≡ z ⟨w⟩). rewrite mod_eqm.
      transitivity (z * (z0 * q)); [apply eqm_eq; ring|]. rewrite E1. apply eqm_eq. ring.
    + intros s'' (x & y & q' & K1 & K2 & K3 & K4 & ->). injection K1 as <-. injection K2 as <-.
      rewrite Z0. apply Z.eqb_neq in Z0. specialize (K4 Z0).
      rewrite (inv_unique w z z0 q q'); auto.
  - destruct (zinv w z) as [q|] eqn:EQ; [|discriminate]. apply zinv_correct in EQ as [E1 E2]; auto. injection H as <-.
    rewrite (Z.mod_small q) by lia. split.
    + exists z, q. repeat split; auto; try lia. rewrite <- (mod1 w P). exact E1.
    + intros s'' (x & q' & K1 & K2 & K3 & ->). injection K1 as <-.
      rewrite (inv_unique w 1 z q q'); auto.
      * rewrite Z.mul_1_l, Z.mod_small by lia. reflexivity.
      * red. rewrite K3. symmetry. apply mod1; auto.
  - injection H as <-. split; [exists b0, z, z0; auto|]. intros s'' (x & y & y0 & K1 & K2 & K3 & ->).
    injection K1 as <-. injection K2 as <-. injection K3 as <-. reflexivity.
  - destruct (z mod w =? z0 mod w) eqn:E; [|discriminate]. assert (s' = s) by congruence; subst s'. apply Z.eqb_eq in E. split.
    + exists z, z0. auto.
    + intros s'' (x & y & K1 & K2 & K3 & ->). reflexivity.
Qed.

Lemma ieval_ok w l : prime w -> forall s s', ieval w l s = Some s' ->
  ican w l s /\ forall s'', isteps w l s s'' -> s'' = s'.
Proof.
  intros P. induction l as [|op l IH]; intros s s' H; cbn [ieval] in H.
  - injection H as <-. split; [exact Logic.I|]. intros s'' K. inversion K. reflexivity.
  - destruct (ieval1 w op s) as [s1|] eqn:E; [|discriminate]. apply ieval1_ok in E as [E1 E2]; auto.
    destruct (IH _ _ H) as [I1 I2]. split.
    + split; [eauto|]. intros s2 K. apply E2 in K. subst. exact I1.
    + intros s'' K. inversion K as [|? ? ? s2 ? K1 K2]; subst. apply E2 in K1. subst s2. auto.
Qed.

(** A program that evaluates runs from the empty circuit, and the recorded
    witness satisfies the circuit and represents the result. *)
Lemma ieval_run {NM : NMod} w I inputs prog s' :
  prime nmod -> prime w -> range_info_new w = Ok I -> (w_bits w + 13) mod 108 <> 0 ->
  Forall (fun x => 0 <= x < w) inputs -> Forall (iop_ok w) prog -> ieval w prog (inputs, []) = Some s' ->
  exists r c', run_prog I inputs prog ctx_new = Ok (r, c') /\ satisfies c' (honest c')
    /\ map (fun x => int_value (at_ (honest c')) x mod w) (fst (snd r)) = fst s'
    /\ map (at_ (honest c')) (snd (snd r)) = map Z.b2z (snd s').
Proof.
  intros P PW H HD H1 H2 H3. pose proof (range_info_ok _ _ H) as IO.
  rewrite <- (hd_bits w I IO) in HD. destruct (ieval_ok _ _ PW _ _ H3) as [HC HU].
  destruct (CT_accepts _ _ _ (run_prog_CT w I IO P PW HD ctx_new inputs prog (good_wf _ good_new) H1 H2 HC))
    as (r & c' & R & _ & (s2 & S2 & K1 & K2) & G).
  apply HU in S2. subst s2. specialize (G good_new).
  assert (HV : forall x, valid c' x -> at_ (honest c') x = a_val x).
  { intros x (U1 & U2 & U3). unfold at_, honest. rewrite U2. reflexivity. }
  exists r, c'. split; [exact R|]. split; [apply good_satisfies; [apply n_pos; auto|exact G]|]. split.
  - clear -K1 HV. induction K1 as [|x v l1 l2 [Q1 Q2] _ IH]; [reflexivity|]. cbn [map]. rewrite IH. f_equal.
    rewrite <- Q2. f_equal. rewrite int_value_val. unfold val. f_equal. apply map_ext_in. intros a Ha.
    apply HV. destruct Q1 as [[Q1 _ _] _]. rewrite Forall_forall in Q1. auto.
  - clear -K2 HV. induction K2 as [|x v l1 l2 [Q1 Q2] _ IH]; [reflexivity|]. cbn [map]. rewrite IH. f_equal.
    rewrite <- Q2. auto.
Qed.
