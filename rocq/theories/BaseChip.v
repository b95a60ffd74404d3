(** Model of src/circuit/base_chip.rs:81-605 (trait [BaseChipOps] and its
    implementation for [Context]).  [pair!(a, c)] is [(SAssigned a, c)] for an
    assigned cell and [(SUnassigned v, c)] for a value. *)
From Verif Require Import Prelude FieldZ Circuit Context.

Section BaseChip.
Context {NM : NMod}.

Definition pa (a : av) (c : Z) : pair_t := (SAssigned a, c).
Definition pu (v : Z) (c : Z) : pair_t := (SUnassigned v, c).

(** base_chip.rs:94-100 *)
Definition one_line_add (pairs : list pair_t) (constant : option Z) : M (list av) :=
  one_line pairs constant [] None.

(** base_chip.rs:117-122, the honest value of a linear combination. *)
Definition lin_val (elems : list (av * Z)) (constant : option Z) : Z :=
  let terms := map (fun e => fmul (a_val (fst e)) (snd e)) elems in
  let sum := match terms with
             | [] => 0
             | t :: ts => fold_left fadd ts t
             end in
  match constant with None => sum | Some x => fadd x sum end.

(** base_chip.rs:110-132; [reduce(..).unwrap()] panics on an empty list. *)
Definition sum_with_constant_in_one_line (elems : list (av * Z)) (constant : option Z)
  : M av :=
  massert (length elems <? VAR_COLUMNS)%nat ;;;
  massert (negb (length elems =? 0)%nat) ;;;
  cells <- one_line_with_last (map (fun e => pa (fst e) (snd e)) elems)
             (pu (lin_val elems constant) (fneg 1)) constant [] None ;;
  mret (snd cells).

(** base_chip.rs:134-153 *)
Definition sum_with_constant (elems : list (av * Z)) (constant : option Z) : M av :=
  if (length elems <? VAR_COLUMNS)%nat then sum_with_constant_in_one_line elems constant
  else
    acc <- sum_with_constant_in_one_line (firstn (VAR_COLUMNS - 1) elems) constant ;;
    foldM (fun acc chunk => sum_with_constant_in_one_line (chunk ++ [(acc, 1)]) None)
          acc (chunks (VAR_COLUMNS - 2) (skipn (VAR_COLUMNS - 1) elems)).

(** base_chip.rs:155-174 *)
Definition add (a b : av) : M av := sum_with_constant [(a, 1); (b, 1)] None.
Definition add_constant (a : av) (c : Z) : M av := sum_with_constant [(a, 1)] (Some c).
Definition sub (a b : av) : M av := sum_with_constant [(a, 1); (b, fneg 1)] None.

(** base_chip.rs:176-193 *)
Definition mul (a b : av) : M av :=
  cells <- one_line_with_last [pa a 0; pa b 0]
             (pu (fmul (a_val a) (a_val b)) (fneg 1)) None [1] None ;;
  mret (snd cells).

(** base_chip.rs:195-217 *)
Definition mul_add_constant (a b : av) (c : Z) : M av :=
  cells <- one_line_with_last [pa a 0; pa b 0]
             (pu (fadd (fmul (a_val a) (a_val b)) c) (fneg 1)) (Some c) [1] None ;;
  mret (snd cells).

(** base_chip.rs:219-243 *)
Definition mul_add (a b : av) (ab_coeff : Z) (c : av) (c_coeff : Z) : M av :=
  cells <- one_line_with_last [pa a 0; pa b 0; pa c c_coeff]
             (pu (fadd (fmul (fmul (a_val a) (a_val b)) ab_coeff)
                       (fmul (a_val c) c_coeff)) (fneg 1)) None [ab_coeff] None ;;
  mret (snd cells).

(** base_chip.rs:245-281; a term is (a, b, c, c_coeff). *)
Definition mterm := (av * av * av * Z)%type.
Definition mterm_val (t : Z) (l : mterm) : Z :=
  let '(a, b, c, cc) := l in
  fadd (fadd (fmul (a_val a) (a_val b)) (fmul (a_val c) cc)) t.
Fixpoint mul_add_lines (first : bool) (t : Z) (ls : list mterm) : M Z :=
  match ls with
  | [] => mret t
  | ((a, b, c, cc) as l) :: ls' =>
      one_line_with_last [pa a 0; pa b 0; pa c cc]
        (pu t (if first then 0 else 1)) None [1] (Some (fneg 1)) ;;;
      mul_add_lines false (mterm_val t l) ls'
  end.
Definition mul_add_with_next_line (ls : list mterm) : M av :=
  match ls with
  | [] => mpanic                                        (* assert!(ls.len() > 0) *)
  | [(a, b, c, cc)] => mul_add a b 1 c cc
  | _ =>
      t <- mul_add_lines true 0 ls ;;
      cells <- one_line_with_last [] (pu t 0) None [] None ;;
      mret (snd cells)
  end.

(** base_chip.rs:283-296 *)
Definition invert_unsafe (a : av) : M av :=
  b <- mopt (zinv nmod (a_val a)) ;;
  cells <- one_line [pa a 0; pu b 0] (Some (fneg 1)) [1] None ;;
  mnth cells 1.

(** base_chip.rs:298-321; returns (is_zero flag, inverse). *)
Definition invert (a : av) : M (acond * av) :=
  let b := match zinv nmod (a_val a) with Some b => b | None => 0 end in
  let cv := fsub 1 (fmul (a_val a) b) in
  cells <- one_line [pa a 0; pu cv 0] None [1] None ;;
  c <- mnth cells 1 ;;
  cells2 <- one_line_with_last [pa a 0; pu b 0] (pa c 1) (Some (fneg 1)) [1] None ;;
  binv <- mnth (fst cells2) 1 ;;
  mret (snd cells2, binv).

(** base_chip.rs:323-325 *)
Definition is_zero (a : av) : M acond :=
  r <- invert a ;; mret (fst r).

(** base_chip.rs:327-342 *)
Definition div_unsafe (a b : av) : M av :=
  bi <- mopt (zinv nmod (a_val b)) ;;
  let c := fmul bi (a_val a) in
  cells <- one_line_with_last [pa b 0; pu c 0] (pa a (fneg 1)) None [1] None ;;
  mnth (fst cells) 1.

(** base_chip.rs:344-355 *)
Definition assign_constant (v : Z) : M av :=
  cells <- one_line_add [pu v (fneg 1)] (Some v) ;; mnth cells 0.
Definition assign (v : Z) : M av :=
  cells <- one_line_add [pu v 0] None ;; mnth cells 0.

(** base_chip.rs:357-367 *)
Definition assign_bit (a : Z) : M acond :=
  cells <- one_line [pu a 1; pu a 0] None [fneg 1] None ;; mnth cells 0.

(** base_chip.rs:369-379 *)
Definition assert_equal (a b : av) : M unit :=
  one_line_add [pa a (fneg 1); pa b 1] None ;;; mret tt.
Definition assert_constant (a : av) (b : Z) : M unit :=
  massert (a_val a =? b) ;;;
  one_line_add [pa a (fneg 1)] (Some b) ;;; mret tt.

(** base_chip.rs:381-390 *)
Definition assert_bit (a : av) : M unit :=
  one_line [pa a 1; pa a 0] None [fneg 1] None ;;; mret tt.

(** base_chip.rs:392-467 *)
Definition and_ (a b : acond) : M acond := mul a b.
Definition not_ (a : acond) : M acond := sum_with_constant [(a, fneg 1)] (Some 1).
Definition not_and (a b : acond) : M acond :=
  cells <- one_line_with_last [pa a 0; pa b 1]
     (pu (fsub (a_val b) (fmul (a_val a) (a_val b))) (fneg 1)) None [fneg 1] None ;;
  mret (snd cells).
Definition or_ (a b : acond) : M acond :=
  cells <- one_line_with_last [pa a 1; pa b 1]
     (pu (fsub (fadd (a_val a) (a_val b)) (fmul (a_val a) (a_val b))) (fneg 1))
     None [fneg 1] None ;;
  mret (snd cells).
Definition xor_ (a b : acond) : M acond :=
  let two := fadd 1 1 in
  cells <- one_line_with_last [pa a 1; pa b 1]
     (pu (fsub (fadd (a_val a) (a_val b)) (fmul (fmul two (a_val a)) (a_val b))) (fneg 1))
     None [fneg two] None ;;
  mret (snd cells).
Definition xnor_ (a b : acond) : M acond :=
  let two := fadd 1 1 in
  cells <- one_line_with_last [pa a (fneg 1); pa b (fneg 1)]
     (pu (fadd (fsub (fsub 1 (a_val a)) (a_val b)) (fmul (fmul two (a_val a)) (a_val b)))
         (fneg 1))
     (Some 1) [two] None ;;
  mret (snd cells).

(** base_chip.rs:574-604 (VAR_COLUMNS = 5, first branch). *)
Definition bisec (cond : acond) (a b : av) : M av :=
  let c := fadd (fmul (a_val cond) (a_val a)) (fmul (fsub 1 (a_val cond)) (a_val b)) in
  cells <- one_line_with_last [pa cond 0; pa a 0; pa cond 0; pa b 1]
     (pu c (fneg 1)) None [1; fneg 1] None ;;
  mret (snd cells).

(** base_chip.rs:477-485 *)
Definition bisec_cond (cond a b : acond) : M acond := bisec cond a b.

(** base_chip.rs:487-500 *)
Definition assert_true (a : acond) : M unit :=
  massert (a_val a =? 1) ;;; assert_constant a 1.
Definition assert_false (a : acond) : M unit :=
  massert (a_val a =? 0) ;;; assert_constant a 0.
Definition try_assert_false (a : acond) : M bool :=
  assert_constant a 0 ;;; mret (a_val a =? 0).

End BaseChip.
