(** SPECIFICATION of straight-line programs of foreign-field operations: their
    syntax and their meaning over the residues modulo [w].  Registers are numbered
    in order of creation; integers and booleans are numbered separately. *)
From Verif Require Import Prelude.

Inductive iop :=
| IConst (x : Z)                 (* a new integer register holding the constant x *)
| IAdd (i j : nat) | ISub (i j : nat) | INeg (i : nat)
| IMul (i j : nat) | ISquare (i : nat) | IMulSmall (i : nat) (k : Z)
| IReduce (i : nat)
| IDiv (i j : nat)               (* new boolean: divisor is zero; new integer: the quotient *)
| IInvert (i : nat)
| ISelect (b i j : nat)          (* register i if boolean b, else register j *)
| IIsZero (i : nat) | IIsEqual (i j : nat)
| IAssertEqual (i j : nat).

Definition istate := (list Z * list bool)%type.

(** One step, as a relation: the quotient of a division by zero can be anything. *)
Definition istep (w : Z) (op : iop) (s s' : istate) : Prop :=
  let xs := fst s in let bs := snd s in
  let un (i : nat) (f : Z -> Z) :=
    exists x, nth_error xs i = Some x /\ s' = (xs ++ [f x mod w], bs) in
  let bin (i j : nat) (f : Z -> Z -> Z) :=
    exists x y, nth_error xs i = Some x /\ nth_error xs j = Some y /\ s' = (xs ++ [f x y mod w], bs) in
  match op with
  | IConst x => s' = (xs ++ [x mod w], bs)
  | IAdd i j => bin i j Z.add
  | ISub i j => bin i j Z.sub
  | INeg i => un i Z.opp
  | IMul i j => bin i j Z.mul
  | ISquare i => un i (fun x => x * x)
  | IMulSmall i k => un i (fun x => x * k)
  | IReduce i => un i (fun x => x)
  | IDiv i j => exists x y q, nth_error xs i = Some x /\ nth_error xs j = Some y
      /\ 0 <= q < w /\ (y mod w <> 0 -> (y * q) mod w = x mod w)
      /\ s' = (xs ++ [q], bs ++ [y mod w =? 0])
  | IInvert i => exists x q, nth_error xs i = Some x
      /\ 0 <= q < w /\ (x * q) mod w = 1 /\ s' = (xs ++ [q], bs)
  | ISelect b i j => exists c x y, nth_error bs b = Some c /\ nth_error xs i = Some x
      /\ nth_error xs j = Some y /\ s' = (xs ++ [(if c then x else y) mod w], bs)
  | IIsZero i => exists x, nth_error xs i = Some x /\ s' = (xs, bs ++ [x mod w =? 0])
  | IIsEqual i j => exists x y, nth_error xs i = Some x /\ nth_error xs j = Some y
      /\ s' = (xs, bs ++ [(x - y) mod w =? 0])
  | IAssertEqual i j => exists x y, nth_error xs i = Some x /\ nth_error xs j = Some y
      /\ x mod w = y mod w /\ s' = s
  end.

Inductive isteps (w : Z) : list iop -> istate -> istate -> Prop :=
| isteps_nil s : isteps w [] s s
| isteps_cons op l s s1 s' : istep w op s s1 -> isteps w l s1 s' -> isteps w (op :: l) s s'.

(** Operations the API documents as usable: constants are residues, small
    constants are positive and below 16 (see C23 for the constant 0). *)
Definition iop_ok (w : Z) (op : iop) : Prop :=
  match op with IConst x => 0 <= x < w | IMulSmall _ k => 1 <= k < 16 | _ => True end.

(** A program can be run from [s] without using a register that does not exist,
    asserting a false equality or inverting zero: whatever the earlier steps
    produce (any quotient of a division by zero), the next step is possible. *)
Fixpoint ican (w : Z) (prog : list iop) (s : istate) : Prop :=
  match prog with
  | [] => True
  | op :: l => (exists s1, istep w op s s1) /\ forall s1, istep w op s s1 -> ican w l s1
  end.
