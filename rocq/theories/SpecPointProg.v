(** SPECIFICATION of straight-line programs of point operations: their syntax and their meaning in
    the group of the curve y^2 = x^3 + b over the residues modulo w.  Point registers are numbered in
    order of creation; the boolean registers are given. *)
From Verif Require Import Prelude SpecEcc.

Inductive pop :=
| PConst (p : option (Z * Z))    (* a new register holding a constant point *)
| PIdentity
| PAdd (i j : nat) | PDouble (i : nat) | PNeg (i : nat) | PReduce (i : nat)
| PSelect (k i j : nat)          (* register i if boolean k, else register j *)
| PAssertEqual (i j : nat).

(** One step from registers [ps] to registers [ps']; [zs] are the booleans. *)
Definition pstep (w : Z) (zs : list bool) (op : pop) (ps ps' : list pt) : Prop :=
  let reg i p := nth_error ps i = Some p in
  match op with
  | PConst p => ps' = ps ++ [pt_of p]
  | PIdentity => ps' = ps ++ [Inf]
  | PAdd i j => exists p q s, reg i p /\ reg j q /\ pt_add w p q s /\ ps' = ps ++ [s]
  | PDouble i => exists p s, reg i p /\ pt_add w p p s /\ ps' = ps ++ [s]
  | PNeg i => exists p, reg i p /\ ps' = ps ++ [pt_neg w p]
  | PReduce i => exists p, reg i p /\ ps' = ps ++ [p]
  | PSelect k i j => exists z p q, nth_error zs k = Some z /\ reg i p /\ reg j q /\ ps' = ps ++ [if z then p else q]
  | PAssertEqual i j => exists p, reg i p /\ reg j p /\ ps' = ps
  end.

Inductive psteps (w : Z) (zs : list bool) : list pop -> list pt -> list pt -> Prop :=
| psteps_nil ps : psteps w zs [] ps ps
| psteps_cons op l ps ps1 ps' : pstep w zs op ps ps1 -> psteps w zs l ps1 ps' -> psteps w zs (op :: l) ps ps'.

(** Constants are points of the curve. *)
Definition pop_ok (w b : Z) (op : pop) : Prop := match op with PConst p => on_curve w b (pt_of p) | _ => True end.
