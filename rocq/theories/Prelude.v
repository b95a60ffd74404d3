(** Shared imports, the result type used for panics, and list helpers. *)
From Coq Require Export ZArith List Lia Bool Znumtheory Arith.
From Coq Require Export ZifyBool.
Export ListNotations.

Global Open Scope Z_scope.

(** Outcome of running a piece of Rust code: a value, or a panic
    ([assert!], [unwrap] on [None], index out of bounds, BigUint underflow,
    [unreachable!]). *)
Inductive res (A : Type) : Type :=
| Ok (a : A)
| Panic.
Arguments Ok {A} a.
Arguments Panic {A}.

Definition res_bind {A B} (m : res A) (k : A -> res B) : res B :=
  match m with Ok a => k a | Panic => Panic end.

Definition res_assert (b : bool) : res unit := if b then Ok tt else Panic.

Notation "'let!' x ':=' m 'in' k" := (res_bind m (fun x => k))
  (at level 200, x pattern, m at level 100, k at level 200).

(** Indexed map, as [iter().enumerate().map(..)]. *)
Fixpoint mapi_from {A B} (i : nat) (f : nat -> A -> B) (l : list A) : list B :=
  match l with
  | [] => []
  | x :: xs => f i x :: mapi_from (S i) f xs
  end.
Definition mapi {A B} (f : nat -> A -> B) (l : list A) := mapi_from 0 f l.

(** [Vec::resize(k, d)]: truncate or pad. *)
Definition resize {A} (k : nat) (d : A) (l : list A) : list A :=
  firstn k l ++ repeat d (k - length l).

(** [slice::chunks(k)]; fuel is the length of the list, enough for k >= 1. *)
Fixpoint chunks_fuel {A} (fuel k : nat) (l : list A) : list (list A) :=
  match fuel with
  | O => []
  | S f => match l with
           | [] => []
           | _ => firstn k l :: chunks_fuel f k (skipn k l)
           end
  end.
Definition chunks {A} (k : nat) (l : list A) := chunks_fuel (length l) k l.
