(** SPECIFICATION: when handles of the extension-field chips stand for elements of
    the tower of SpecTower.v, and what it means that a gadget computes an operation. *)
From Verif Require Import Prelude FieldZ Circuit Context Spec RangeInfo IntegerChip EccChip SpecInt SpecTower Fq12Chip PairingChip.

Section Rep.
Context {NM : NMod}.
Variable w : Z.

(** Reading cells with [f] (an assignment, or the recorded witness): a well-formed
    integer congruent to [v] modulo w, and coordinatewise for the extensions. *)
Definition fq_is (f : av -> Z) (a : aint) (v : Z) : Prop := int_wf w f a /\ int_value f a mod w = v mod w.
Definition fq2_is (f : av -> Z) (a : afq2) (x : F2) : Prop := fq_is f (fst a) (fst x) /\ fq_is f (snd a) (snd x).
Definition fq6_is (f : av -> Z) (a : afq6) (x : F6) : Prop :=
  fq2_is f (t0 a) (t0 x) /\ fq2_is f (t1 a) (t1 x) /\ fq2_is f (t2 a) (t2 x).
Definition fq12_is (f : av -> Z) (a : afq12) (x : F12) : Prop := fq6_is f (fst a) (fst x) /\ fq6_is f (snd a) (snd x).

(** Handles recorded in the context [c] whose witness stands for an element. *)
Definition fq_in (c : ctx) (a : aint) (v : Z) : Prop := int_ok w c a valid /\ int_value a_val a mod w = v mod w.
Definition fq2_in (c : ctx) (a : afq2) (x : F2) : Prop := fq_in c (fst a) (fst x) /\ fq_in c (snd a) (snd x).
Definition fq6_in (c : ctx) (a : afq6) (x : F6) : Prop :=
  fq2_in c (t0 a) (t0 x) /\ fq2_in c (t1 a) (t1 x) /\ fq2_in c (t2 a) (t2 x).
Definition fq12_in (c : ctx) (a : afq12) (x : F12) : Prop := fq6_in c (fst a) (fst x) /\ fq6_in c (snd a) (snd x).

(** The size condition on w under which honest runs of the integer chip are known to
    be accepted (C23). *)
Definition honest_size : Prop := (w_bits w + 13) mod 108 <> 0.

(** A gadget computes an operation: in every satisfying assignment its result stands
    for the operation's value, and from recorded operands the honest run succeeds,
    leaves a satisfied circuit and records that value.  [R] is the representation of
    operands and result: (in an assignment, in a context). *)
Definition rel (X Y : Type) : Type := ((av -> Z) -> X -> Y -> Prop) * (ctx -> X -> Y -> Prop).
Definition fq2r : rel afq2 F2 := (fq2_is, fq2_in).
Definition fq6r : rel afq6 F6 := (fq6_is, fq6_in).
Definition fq12r : rel afq12 F12 := (fq12_is, fq12_in).
(** Two operands at once. *)
Definition pairr {X Y X' Y'} (R : rel X Y) (R' : rel X' Y') : rel (X * X') (Y * Y') :=
  ((fun f a x => fst R f (fst a) (fst x) /\ fst R' f (snd a) (snd x)),
   (fun c a x => snd R c (fst a) (fst x) /\ snd R' c (snd a) (snd x))).

Definition computes0 {X Y} (R : rel X Y) (g : M X) (v : Y) : Prop :=
  sound g (fun A r => fst R (at_ A) r v)
  /\ (honest_size -> forall c, wf c -> accepts c g (fun r c' => snd R c' r v)).
Definition computes1 {X Y} (R : rel X Y) (g : X -> M X) (op : Y -> Y) : Prop :=
  (forall a, sound (g a) (fun A r => forall x, fst R (at_ A) a x -> fst R (at_ A) r (op x)))
  /\ (honest_size -> forall c a x, wf c -> snd R c a x -> accepts c (g a) (fun r c' => snd R c' r (op x))).
Definition computes2 {X Y X' Y'} (R : rel X Y) (R' : rel X' Y') (g : X -> X' -> M X) (op : Y -> Y' -> Y) : Prop :=
  (forall a b, sound (g a b) (fun A r => forall x y, fst R (at_ A) a x -> fst R' (at_ A) b y -> fst R (at_ A) r (op x y)))
  /\ (honest_size -> forall c a b x y, wf c -> snd R c a x -> snd R' c b y -> accepts c (g a b) (fun r c' => snd R c' r (op x y))).
(** [g] forces equality, and accepts equal operands. *)
Definition compares {X Y} (R : rel X Y) (g : X -> X -> M unit) (eqv : Y -> Y -> Prop) : Prop :=
  (forall a b, sound (g a b) (fun A _ => forall x y, fst R (at_ A) a x -> fst R (at_ A) b y -> eqv x y))
  /\ (honest_size -> forall c a b x y, wf c -> snd R c a x -> snd R c b y -> eqv x y -> accepts c (g a b) (fun _ _ => True)).
(** [g] inverts: the result times the operand is one; every invertible operand is accepted. *)
Definition inverts {X Y} (R : rel X Y) (g : X -> M X) (eqv : Y -> Y -> Prop) (mul : Y -> Y -> Y) (one : Y) : Prop :=
  (forall a, sound (g a) (fun A r => forall x, fst R (at_ A) a x -> exists y, fst R (at_ A) r y /\ eqv (mul x y) one))
  /\ (honest_size -> forall c a x, wf c -> snd R c a x -> (exists y, eqv (mul x y) one) ->
        accepts c (g a) (fun r c' => exists y, snd R c' r y /\ eqv (mul x y) one)).

(** The two towers: the chip's multiplication by the non-residue, and xi. *)
Definition tower (I : rinfo) (nonres : afq2 -> M afq2) (xi : F2) : Prop :=
  (nonres = bn_nonres I /\ xi = bn_xi) \/ (nonres = bls_nonres I /\ xi = bls_xi).

(** Coordinates are reduced. *)
Definition reduced2 (x : F2) : Prop := 0 <= fst x < w /\ 0 <= snd x < w.
Definition reduced6 (x : F6) : Prop := reduced2 (t0 x) /\ reduced2 (t1 x) /\ reduced2 (t2 x).
Definition reduced12 (x : F12) : Prop := reduced6 (fst x) /\ reduced6 (snd x).
End Rep.
