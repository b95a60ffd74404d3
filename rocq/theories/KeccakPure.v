(** Keccak: the bits of the gadget's state, most significant first, against the specification. *)
From Verif Require Import Prelude FieldZ Circuit Context KeccakChip SpecKeccak.
From Coq Require Import Bool.

(** ** Lists *)
Lemma Forall2_nth_d {X Y} (Q : X -> Y -> Prop) l l' dx dy i : Forall2 Q l l' -> (i < length l)%nat -> Q (nth i l dx) (nth i l' dy).
Proof. intros F; revert i; induction F as [|a b l l' Hab F IH]; intros [|i] Hi; cbn in *; try lia; auto. apply IH. lia. Qed.
Lemma F2_length {X Y} (Q : X -> Y -> Prop) l l' : Forall2 Q l l' -> length l = length l'.
Proof. induction 1; cbn; congruence. Qed.
Lemma nth_combine {X Y} (l : list X) (l' : list Y) i dx dy : length l = length l' ->
  nth i (combine l l') (dx, dy) = (nth i l dx, nth i l' dy).
Proof. intros. apply combine_nth. auto. Qed.
Lemma set_nth_length {X} i (a : X) l : length (set_nth i a l) = length l.
Proof. revert i; induction l as [|b l IH]; intros [|i]; cbn; auto. Qed.
Lemma nth_set_nth {X} i (a : X) l j d : (i < length l)%nat -> nth j (set_nth i a l) d = if (j =? i)%nat then a else nth j l d.
Proof.
  revert i j; induction l as [|b l IH]; intros i j H; [cbn in H; lia|]. destruct i as [|i], j as [|j]; cbn in *; auto. apply IH. lia.
Qed.
Lemma rotate_left_length {X} k (l : list X) : length (rotate_left k l) = length l.
Proof. unfold rotate_left. rewrite app_length, skipn_length, firstn_length. lia. Qed.
Lemma nth_skipn {X} k (l : list X) i d : nth i (skipn k l) d = nth (k + i) l d.
Proof. revert l; induction k as [|k IH]; intros l; [reflexivity|]. destruct l as [|a l]; [destruct i; reflexivity|]. cbn. apply IH. Qed.
Lemma nth_firstn {X} k (l : list X) i d : nth i (firstn k l) d = if (i <? k)%nat then nth i l d else d.
Proof.
  revert l i; induction k as [|k IH]; intros l i; [destruct i; reflexivity|]. destruct l as [|a l]; [cbn [firstn]; replace (nth i [] d) with d by (destruct i; reflexivity); destruct (i <? S k)%nat; reflexivity|].
  destruct i as [|i]; [reflexivity|]. cbn [firstn nth]. rewrite IH. reflexivity.
Qed.
Lemma nth_rotate_left {X} k (l : list X) i d : (k < length l)%nat -> (i < length l)%nat ->
  nth i (rotate_left k l) d = nth ((i + k) mod length l) l d.
Proof.
  intros Hk Hi. unfold rotate_left. destruct (Nat.lt_ge_cases i (length l - k)) as [L|L].
  - rewrite app_nth1 by (rewrite skipn_length; lia). rewrite nth_skipn, Nat.mod_small by lia. f_equal. lia.
  - rewrite app_nth2 by (rewrite skipn_length; lia). rewrite skipn_length, nth_firstn.
    replace (i - (length l - k) <? k)%nat with true by (symmetry; apply Nat.ltb_lt; lia).
    f_equal. symmetry. rewrite <- (Nat.mod_unique (i + k) (length l) 1 (i - (length l - k))); lia.
Qed.
Lemma chunks_fuel_ge {X} k (l : list X) f1 f2 : (1 <= k)%nat -> (length l <= f1)%nat -> (length l <= f2)%nat -> chunks_fuel f1 k l = chunks_fuel f2 k l.
Proof.
  intros Hk. revert l f2. induction f1 as [|f1 IH]; intros l f2 H1 H2.
  - destruct l; [|cbn in H1; lia]. destruct f2; reflexivity.
  - destruct l as [|a l]; [destruct f2; reflexivity|]. destruct f2 as [|f2]; [cbn in H2; lia|]. cbn [chunks_fuel]. f_equal.
    apply IH; rewrite skipn_length; cbn [length] in *; lia.
Qed.
Lemma chunks_step {X} k (l : list X) : (1 <= k)%nat -> l <> [] -> chunks k l = firstn k l :: chunks k (skipn k l).
Proof.
  intros Hk HN. unfold chunks. destruct l as [|a l]; [congruence|]. cbn [length chunks_fuel]. f_equal.
  apply chunks_fuel_ge; auto. rewrite skipn_length. cbn [length]. lia.
Qed.

Definition rho8 (z : nat) : nat := (8 * (7 - z / 8) + z mod 8)%nat.
Ltac upto z H k := let z' := fresh in destruct (Nat.eq_dec z k) as [->|z'].
(** Decide a boolean statement on all z below a literal bound. *)
Lemma below (P : nat -> bool) (k : nat) : forallb P (seq 0 k) = true -> forall z, (z < k)%nat -> P z = true.
Proof. intros H z Hz. rewrite forallb_forall in H. apply H, in_seq. lia. Qed.
Lemma nth_map_seq {X} (f : nat -> X) k i d : (i < k)%nat -> nth i (map f (seq 0 k)) d = f i.
Proof.
  intros H. rewrite (nth_indep _ d (f 0%nat)) by (rewrite map_length, seq_length; auto). rewrite map_nth, seq_nth by auto. reflexivity.
Qed.
Lemma list64 {X} (l : list X) (d : X) : length l = 64%nat -> l = map (fun i => nth i l d) (seq 0 64).
Proof.
  intros H. apply nth_ext with (d := d) (d' := d); [rewrite map_length, seq_length; auto|]. intros n Hn.
  rewrite nth_map_seq by lia. reflexivity.
Qed.
Lemma map_chunks_fuel {X Y} (f : X -> Y) k l n : chunks_fuel n k (map f l) = map (map f) (chunks_fuel n k l).
Proof.
  revert l; induction n as [|n IH]; intros l; [reflexivity|]. destruct l as [|a l]; [reflexivity|]. cbn [chunks_fuel map].
  rewrite <- !map_cons, firstn_map, skipn_map, IH. reflexivity.
Qed.
Lemma rev_bytes_map {X Y} (f : X -> Y) l : rev_bytes (map f l) = map f (rev_bytes l).
Proof. unfold rev_bytes, chunks. rewrite map_length, map_chunks_fuel, <- map_rev, concat_map. reflexivity. Qed.
Lemma rev_bytes_length {X} (l : list X) : length l = 64%nat -> length (rev_bytes l) = 64%nat.
Proof.
  intros H. destruct l as [|d l']; [discriminate|]. rewrite (list64 _ d H), rev_bytes_map, map_length. reflexivity.
Qed.
Lemma nth_rev_bytes {X} (l : list X) d z : length l = 64%nat -> (z < 64)%nat -> nth z (rev_bytes l) d = nth (rho8 z) l d.
Proof.
  intros H Hz. rewrite (list64 _ d H) at 1. rewrite rev_bytes_map.
  rewrite (nth_indep _ d (nth 0 l d)) by (rewrite map_length; exact Hz).
  rewrite map_nth with (d := 0%nat). f_equal. apply Nat.eqb_eq. revert z Hz. apply below. vm_compute. reflexivity.
Qed.

(** ** States as functions of the gadget's indices, z = 0 the most significant bit *)
Definition kfun := nat -> nat -> nat -> bool.
Definition agree (F : kfun) (S : kst) : Prop :=
  forall x y z, (x < 5)%nat -> (y < 5)%nat -> (z < 64)%nat -> F x y z = get S x y (63 - z).

Lemma get_build f x y z : (x < 5)%nat -> (y < 5)%nat -> (z < 64)%nat -> get (build f) x y z = f x y z.
Proof. intros. unfold get, build. rewrite nth_map_seq by auto. rewrite nth_map_seq by auto. apply nth_map_seq; auto. Qed.

Definition Cf (F : kfun) (x z : nat) : bool := xorb (xorb (xorb (xorb (F x 0%nat z) (F x 1%nat z)) (F x 2%nat z)) (F x 3%nat z)) (F x 4%nat z).
Definition thF (F : kfun) : kfun := fun x y z =>
  xorb (F x y z) (xorb (Cf F ((x + 4) mod 5) z) (Cf F ((x + 1) mod 5) ((z + 1) mod 64))).
Definition rpF (F : kfun) : kfun := fun x y z => let x' := ((x + 3 * y) mod 5)%nat in F x' x ((z + rho_offset x' x) mod 64)%nat.
Definition xiF (F : kfun) : kfun := fun x y z => xorb (F x y z) (negb (F ((x + 1) mod 5)%nat y z) && F ((x + 2) mod 5)%nat y z).
Definition ioF (r : nat) (F : kfun) : kfun := fun x y z =>
  if (x =? 0)%nat && (y =? 0)%nat then xorb (F x y z) (Z.testbit (nth r ROUND_CONSTANTS 0) (63 - Z.of_nat z)) else F x y z.
Definition rdF (F : kfun) (r : nat) : kfun := ioF r (xiF (rpF (thF F))).

Lemma mod5 x : (x mod 5 < 5)%nat.
Proof. apply Nat.mod_upper_bound. discriminate. Qed.
Lemma mod64 x : (x mod 64 < 64)%nat.
Proof. apply Nat.mod_upper_bound. discriminate. Qed.
Lemma back_spec z k : (z < 64)%nat -> (k < 64)%nat -> (63 - (z + k) mod 64 = back (63 - z) k)%nat.
Proof.
  intros Hz Hk. unfold back. destruct (Nat.leb_spec k (63 - z)) as [L|L].
  - rewrite Nat.mod_small by lia. lia.
  - rewrite <- (Nat.mod_unique (z + k) 64 1 (z + k - 64)); lia.
Qed.
Lemma rho_offset_lt x y : (rho_offset x y < 64)%nat.
Proof. unfold rho_offset. destruct (find _ _); [apply mod64|lia]. Qed.

Lemma agree_theta F S : agree F S -> agree (thF F) (f_theta S).
Proof.
  intros H x y z Hx Hy Hz. unfold f_theta. cbv zeta. rewrite get_build by lia. unfold thF, Cf.
  rewrite nth_map_seq by apply mod5. rewrite nth_map_seq by lia. rewrite nth_map_seq by apply mod5.
  assert (B : (back (63 - z) 1 < 64)%nat) by (unfold back; destruct (Nat.leb_spec 1 (63 - z)); lia).
  rewrite nth_map_seq by exact B. rewrite <- (back_spec z 1) by lia.
  repeat (rewrite H by (auto using mod5, mod64; lia)). f_equal. rewrite !xorb_assoc. reflexivity.
Qed.
Lemma agree_rho_pi F S : agree F S -> agree (rpF F) (f_pi (f_rho S)).
Proof.
  intros H x y z Hx Hy Hz. unfold f_pi. rewrite get_build by lia. cbv zeta. unfold f_rho. rewrite get_build by (auto using mod5; lia).
  cbv zeta. unfold rpF. rewrite H by (auto using mod5, mod64). f_equal. apply back_spec; [auto|apply rho_offset_lt].
Qed.
Lemma agree_chi F S : agree F S -> agree (xiF F) (f_chi S).
Proof.
  intros H x y z Hx Hy Hz. unfold f_chi. rewrite get_build by lia. cbv zeta. unfold xiF. rewrite !H by auto using mod5. reflexivity.
Qed.
Lemma round_constants_ok r z : (r < 24)%nat -> (z < 64)%nat ->
  Z.testbit (nth r ROUND_CONSTANTS 0) (63 - Z.of_nat z) = RC r (63 - z).
Proof.
  intros Hr Hz. apply eqb_prop. revert z Hz. apply below. revert r Hr. apply below. vm_compute. reflexivity.
Qed.
Lemma agree_iota r F S : (r < 24)%nat -> agree F S -> agree (ioF r F) (f_iota r S).
Proof.
  intros Hr H x y z Hx Hy Hz. unfold f_iota. cbv zeta. rewrite get_build by lia. unfold ioF.
  destruct (_ && _); [|apply H; auto]. rewrite nth_map_seq by lia. rewrite H, round_constants_ok by auto. reflexivity.
Qed.
Lemma agree_round r F S : (r < 24)%nat -> agree F S -> agree (rdF F r) (f_round S r).
Proof. intros Hr H. unfold rdF, f_round. apply agree_iota; auto. apply agree_chi, agree_rho_pi, agree_theta, H. Qed.
Lemma agree_f F S : agree F S -> agree (fold_left rdF (seq 0 24) F) (keccak_f S).
Proof.
  unfold keccak_f. assert (G : Forall (fun r => (r < 24)%nat) (seq 0 24)).
  { apply Forall_forall. intros r Hr. apply in_seq in Hr. lia. }
  revert F S. induction (seq 0 24) as [|r l IH]; intros F S H; [exact H|]. inversion G; subst. cbn [fold_left].
  apply IH; auto. apply agree_round; auto.
Qed.
