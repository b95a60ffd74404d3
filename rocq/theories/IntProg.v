(** Running a straight-line program through the integer gadgets of
    src/circuit/integer_chip.rs: every operation is one call of the API on the
    handles in the registers, its results are pushed on the registers.  (This is
    what a user of the library writes; there is no such interpreter in /repo.) *)
From Verif Require Import Prelude FieldZ Circuit Context RangeInfo RangeChip BaseChip IntegerChip SpecProg.

Definition iregs := (list aint * list acond)%type.

Section IntProg.
Context {NM : NMod}.
Variable I : rinfo.

Definition push (s : iregs) (r : aint) : iregs := (fst s ++ [r], snd s).
Definition pushb (s : iregs) (r : acond) : iregs := (fst s, snd s ++ [r]).

Definition run_op (s : iregs) (op : iop) : M iregs :=
  let reg i := mnth (fst s) i in
  match op with
  | IConst x => r <- assign_int_constant I x ;; mret (push s r)
  | IAdd i j => a <- reg i ;; b <- reg j ;; r <- int_add I a b ;; mret (push s r)
  | ISub i j => a <- reg i ;; b <- reg j ;; r <- int_sub I a b ;; mret (push s r)
  | INeg i => a <- reg i ;; r <- int_neg I a ;; mret (push s r)
  | IMul i j => a <- reg i ;; b <- reg j ;; r <- int_mul I a b ;; mret (push s r)
  | ISquare i => a <- reg i ;; r <- int_square I a ;; mret (push s r)
  | IMulSmall i k => a <- reg i ;; r <- int_mul_small_constant I a k ;; mret (push s r)
  | IReduce i => a <- reg i ;; r <- reduce I a ;; mret (push s r)
  | IDiv i j => a <- reg i ;; b <- reg j ;; r <- int_div I a b ;; mret (pushb (push s (snd r)) (fst r))
  | IInvert i => a <- reg i ;; r <- int_unsafe_invert I a ;; mret (push s r)
  | ISelect k i j => c <- mnth (snd s) k ;; a <- reg i ;; b <- reg j ;;
      r <- bisec_int I c a b ;; mret (push s r)
  | IIsZero i => a <- reg i ;; r <- is_int_zero I a ;; mret (pushb s r)
  | IIsEqual i j => a <- reg i ;; b <- reg j ;; r <- is_int_equal I a b ;; mret (pushb s r)
  | IAssertEqual i j => a <- reg i ;; b <- reg j ;; assert_int_equal I a b ;;; mret s
  end.

Definition run_ops (s : iregs) (prog : list iop) : M iregs := foldM run_op s prog.

(** Assign the inputs with [assign_w], then run; returns the input handles and
    the final registers. *)
Definition run_prog (inputs : list Z) (prog : list iop) : M (list aint * iregs) :=
  xs <- mapM (assign_w I) inputs ;;
  s <- run_ops (xs, []) prog ;;
  mret (xs, s).
End IntProg.
