(** Model of the circuit recorder: src/assign.rs and src/context.rs. *)
From Verif Require Import Prelude FieldZ Circuit.

(** src/assign.rs:26-29 [AssignedValue]: a handle = cell + witness value. *)
Record av := mkAv { a_cell : cell; a_val : Z }.

(** src/assign.rs [AssignedCondition] is a newtype of [AssignedValue]; the model
    uses [av] for both. *)
Definition acond := av.

(** src/assign.rs [ValueSchema]: copy an assigned cell, or a fresh value. *)
Inductive schema := SAssigned (a : av) | SUnassigned (v : Z).
Definition schema_val (s : schema) : Z :=
  match s with SAssigned a => a_val a | SUnassigned v => v end.
Definition schema_cell (s : schema) : option cell :=
  match s with SAssigned a => Some (a_cell a) | SUnassigned _ => None end.

(** One store into the shared record tables (context.rs:242-252,
    [RecordsInner]): an advice value, a fixed value, or the "copied" flag. *)
Inductive wr :=
| WAdv (x : cell) (v : Z)
| WFix (x : cell) (v : Z)
| WFlag (x : cell).

(** The record tables are represented by the log of stores, newest first; a
    read returns the newest store.  Simplification: the tables are unbounded,
    the code panics at row HALO2ECC_S_MAX_ROWS (default 2^23). *)
Definition mem := list wr.

Fixpoint get_adv (m : mem) (x : cell) : option Z :=
  match m with
  | [] => None
  | WAdv y v :: m' => if cell_eqb y x then Some v else get_adv m' x
  | _ :: m' => get_adv m' x
  end.
Fixpoint get_fix (m : mem) (x : cell) : option Z :=
  match m with
  | [] => None
  | WFix y v :: m' => if cell_eqb y x then Some v else get_fix m' x
  | _ :: m' => get_fix m' x
  end.
Fixpoint get_flag (m : mem) (x : cell) : bool :=
  match m with
  | [] => false
  | WFlag y :: m' => if cell_eqb y x then true else get_flag m' x
  | _ :: m' => get_flag m' x
  end.

(** context.rs:41-46 [Context] and 295-301 [Records].  [perms] is the vector of
    copy constraints, newest first. *)
Record ctx := mkCtx {
  c_mem : mem;
  c_perms : list (cell * cell);
  base_off : nat; range_off : nat; select_off : nat;
  base_h : nat; range_h : nat; select_h : nat
}.

(** context.rs:136-143 [Context::new]. *)
Definition ctx_new : ctx := mkCtx [] [] 0 0 0 0 0 0.

(** State and panic monad over the recorder. *)
Definition M (X : Type) := ctx -> res (X * ctx).
Definition mret {X} (x : X) : M X := fun c => Ok (x, c).
Definition mpanic {X} : M X := fun _ => Panic.
Definition mbind {X Y} (m : M X) (k : X -> M Y) : M Y :=
  fun c => match m c with Ok (x, c') => k x c' | Panic => Panic end.
Definition massert (b : bool) : M unit := fun c => if b then Ok (tt, c) else Panic.
Definition mget : M ctx := fun c => Ok (c, c).
Definition mlift {X} (r : res X) : M X :=
  fun c => match r with Ok x => Ok (x, c) | Panic => Panic end.
Definition mopt {X} (o : option X) : M X :=             (* unwrap *)
  match o with Some x => mret x | None => mpanic end.
Definition mnth {X} (l : list X) (i : nat) : M X := mopt (nth_error l i).

Notation "x <- m ;; k" := (mbind m (fun x => k))
  (at level 61, m at next level, right associativity).
Notation "' p <- m ;; k" := (mbind m (fun p => k))
  (at level 61, p pattern, m at next level, right associativity).
Notation "m ;;; k" := (mbind m (fun _ => k))
  (at level 61, right associativity).

Fixpoint mapM {X Y} (f : X -> M Y) (l : list X) : M (list Y) :=
  match l with
  | [] => mret []
  | x :: xs => y <- f x ;; ys <- mapM f xs ;; mret (y :: ys)
  end.
Fixpoint foldM {X S} (f : S -> X -> M S) (s : S) (l : list X) : M S :=
  match l with
  | [] => mret s
  | x :: xs => s' <- f s x ;; foldM f s' xs
  end.

(** Apply stores in program order. *)
Definition do_writes (ws : list wr) : M unit :=
  fun c => Ok (tt, mkCtx (rev_append ws (c_mem c)) (c_perms c)
                         (base_off c) (range_off c) (select_off c)
                         (base_h c) (range_h c) (select_h c)).
Definition push_perms (ps : list (cell * cell)) : M unit :=
  fun c => Ok (tt, mkCtx (c_mem c) (rev_append ps (c_perms c))
                         (base_off c) (range_off c) (select_off c)
                         (base_h c) (range_h c) (select_h c)).

(** context.rs:643-645: [if offset >= base_height { base_height = offset + 1 }]. *)
Definition bump_h (off h : nat) : nat := if Nat.leb h off then S off else h.
Definition bump_base_h (off : nat) : M unit :=
  fun c => Ok (tt, mkCtx (c_mem c) (c_perms c)
                         (base_off c) (range_off c) (select_off c)
                         (bump_h off (base_h c)) (range_h c) (select_h c)).
(** context.rs:716-720 [ensure_range_record_size]. *)
Definition bump_range_h (off : nat) : M unit :=
  fun c => Ok (tt, mkCtx (c_mem c) (c_perms c)
                         (base_off c) (range_off c) (select_off c)
                         (base_h c) (bump_h off (range_h c)) (select_h c)).
(** context.rs:750-752. *)
Definition bump_select_h (off : nat) : M unit :=
  fun c => Ok (tt, mkCtx (c_mem c) (c_perms c)
                         (base_off c) (range_off c) (select_off c)
                         (base_h c) (range_h c) (bump_h off (select_h c))).
Definition incr_base_off : M unit :=
  fun c => Ok (tt, mkCtx (c_mem c) (c_perms c)
                         (S (base_off c)) (range_off c) (select_off c)
                         (base_h c) (range_h c) (select_h c)).
Definition add_range_off (k : nat) : M unit :=
  fun c => Ok (tt, mkCtx (c_mem c) (c_perms c)
                         (base_off c) (range_off c + k)%nat (select_off c)
                         (base_h c) (range_h c) (select_h c)).
Definition incr_select_off : M unit :=
  fun c => Ok (tt, mkCtx (c_mem c) (c_perms c)
                         (base_off c) (range_off c) (S (select_off c))
                         (base_h c) (range_h c) (select_h c)).

Notation pair_t := (schema * Z)%type.

(** Stores and copy constraints for one advice column of a base row
    (context.rs:647-661). *)
Definition adv_writes (off col : nat) (p : pair_t) : list wr :=
  let '(s, coeff) := p in
  (match schema_cell s with
   | Some x => [WFlag (bcell col off); WFlag x]
   | None => []
   end)
  ++ [WAdv (bcell col off) (schema_val s); WFix (bcell col off) coeff].
Definition adv_perms (off col : nat) (p : pair_t) : list (cell * cell) :=
  match schema_cell (fst p) with
  | Some x => [(x, bcell col off)]
  | None => []
  end.

Definition opt_fix (off col : nat) (o : option Z) : list wr :=
  match o with Some v => [WFix (bcell col off) v] | None => [] end.

Definition is_none {X} (o : option X) : bool :=
  match o with None => true | Some _ => false end.

(** context.rs:634-683 [Records::one_line].  Simplification: [mul_coeffs] longer
    than MUL_COLUMNS is a panic here; the code has no such call (a third
    coefficient would be stored into the next_coeff column). *)
Definition rec_one_line (off : nat) (pairs : list pair_t) (constant : option Z)
           (muls : list Z) (next : option Z) : M unit :=
  massert (length pairs <=? VAR_COLUMNS)%nat ;;;
  massert (length muls <=? MUL_COLUMNS)%nat ;;;
  bump_base_h off ;;;
  push_perms (concat (mapi (adv_perms off) pairs)) ;;;
  do_writes (concat (mapi (adv_writes off) pairs)) ;;;
  do_writes (mapi (fun i m => WFix (bcell (VAR_COLUMNS + i) off) m) muls) ;;;
  (match next with
   | Some v => do_writes [WFix (bcell (VAR_COLUMNS + MUL_COLUMNS) off) v]
   | None => c <- mget ;;
             massert (is_none (get_fix (c_mem c) (bcell (VAR_COLUMNS + MUL_COLUMNS) off)))
   end) ;;;
  (match constant with
   | Some v => do_writes [WFix (bcell (VAR_COLUMNS + MUL_COLUMNS + 1) off) v]
   | None => c <- mget ;;
             massert (is_none (get_fix (c_mem c) (bcell (VAR_COLUMNS + MUL_COLUMNS + 1) off)))
   end).

(** context.rs:685-714 [Records::one_line_with_last]. *)
Definition rec_one_line_with_last (off : nat) (pairs : list pair_t) (tail : pair_t)
           (constant : option Z) (muls : list Z) (next : option Z) : M unit :=
  massert (length pairs <=? VAR_COLUMNS - 1)%nat ;;;
  rec_one_line off pairs constant muls next ;;;
  push_perms (adv_perms off (VAR_COLUMNS - 1) tail) ;;;
  do_writes (adv_writes off (VAR_COLUMNS - 1) tail).

(** base_chip.rs:516-539 [Context::one_line]. *)
Definition one_line (pairs : list pair_t) (constant : option Z)
           (muls : list Z) (next : option Z) : M (list av) :=
  c <- mget ;;
  let off := base_off c in
  rec_one_line off pairs constant muls next ;;;
  incr_base_off ;;;
  mret (mapi (fun i p => mkAv (bcell i off) (schema_val (fst p))) pairs).

(** base_chip.rs:541-572 [Context::one_line_with_last]. *)
Definition one_line_with_last (pairs : list pair_t) (tail : pair_t)
           (constant : option Z) (muls : list Z) (next : option Z)
  : M (list av * av) :=
  c <- mget ;;
  let off := base_off c in
  rec_one_line_with_last off pairs tail constant muls next ;;;
  incr_base_off ;;;
  mret (mapi (fun i p => mkAv (bcell i off) (schema_val (fst p))) pairs,
        mkAv (bcell (VAR_COLUMNS - 1) off) (schema_val (fst tail))).

Definition rfix (col row : nat) (v : Z) := WFix (rcell col row) v.
Definition radv (col row : nat) (v : Z) := WAdv (rcell col row) v.

(** context.rs:835-857 [assign_one_line_range_value]. *)
Definition assign_one_line_range_value {NM : NMod} (off : nat) (v : list Z) (v_acc : Z)
           (bits : Z) : M av :=
  massert (bits <=? COMMON_RANGE_BITS) ;;;
  bump_range_h (off + 1) ;;;
  v0 <- mnth v 0 ;;
  do_writes [rfix AccLinesCol off 1; rfix TagCol off (fof bits);
             radv TaggedRangeCol off v0; radv ValueAccCol off v_acc] ;;;
  mret (mkAv (rcell ValueAccCol off) v_acc).

(** context.rs:859-907 [assign_two_line_range_value]. *)
Definition assign_two_line_range_value {NM : NMod} (off : nat) (v : list Z) (v_acc : Z)
           (bits : Z) : M av :=
  massert (COMMON_RANGE_BITS * 2 <=? bits) ;;;
  massert (bits <=? COMMON_RANGE_BITS * 4) ;;;
  bump_range_h (off + 2) ;;;
  v0 <- mnth v 0 ;; v1 <- mnth v 1 ;; v2 <- mnth v 2 ;; v3 <- mnth v 3 ;;
  let bits0 := if 3 * COMMON_RANGE_BITS <=? bits then COMMON_RANGE_BITS
               else bits mod COMMON_RANGE_BITS in
  let bits1 := if 3 * COMMON_RANGE_BITS <? bits then bits - 3 * COMMON_RANGE_BITS
               else 0 in
  do_writes [rfix AccLinesCol off (fadd 1 1);
             radv CommonRangeCol off v0; radv CommonRangeCol (off + 1) v1;
             rfix TagCol off (fof bits0); radv TaggedRangeCol off v2;
             rfix TagCol (off + 1) (fof bits1); radv TaggedRangeCol (off + 1) v3;
             radv ValueAccCol off v_acc] ;;;
  mret (mkAv (rcell ValueAccCol off) v_acc).

(** context.rs:909-972 [assign_three_line_range_value]. *)
Definition assign_three_line_range_value {NM : NMod} (off : nat) (v : list Z) (v_acc : Z)
           (bits : Z) : M av :=
  massert (COMMON_RANGE_BITS * 3 <=? bits) ;;;
  massert (bits <=? COMMON_RANGE_BITS * 6) ;;;
  bump_range_h (off + 3) ;;;
  v0 <- mnth v 0 ;; v1 <- mnth v 1 ;; v2 <- mnth v 2 ;;
  v3 <- mnth v 3 ;; v4 <- mnth v 4 ;; v5 <- mnth v 5 ;;
  let bits0 := if 4 * COMMON_RANGE_BITS <=? bits then COMMON_RANGE_BITS
               else bits mod COMMON_RANGE_BITS in
  let bits1 := if 5 * COMMON_RANGE_BITS <=? bits then COMMON_RANGE_BITS
               else if 4 * COMMON_RANGE_BITS <? bits then bits mod COMMON_RANGE_BITS
               else 0 in
  let bits2 := if 5 * COMMON_RANGE_BITS <? bits then bits - 5 * COMMON_RANGE_BITS
               else 0 in
  do_writes [rfix AccLinesCol off (fadd (fadd 1 1) 1);
             radv CommonRangeCol off v0; radv CommonRangeCol (off + 1) v1;
             radv CommonRangeCol (off + 2) v2;
             rfix TagCol off (fof bits0); radv TaggedRangeCol off v3;
             rfix TagCol (off + 1) (fof bits1); radv TaggedRangeCol (off + 1) v4;
             rfix TagCol (off + 2) (fof bits2); radv TaggedRangeCol (off + 2) v5;
             radv ValueAccCol off v_acc] ;;;
  mret (mkAv (rcell ValueAccCol off) v_acc).

(** context.rs:974-997 [assign_range_value]; [unreachable!()] is a panic. *)
Definition assign_range_value {NM : NMod} (off : nat) (v : list Z) (v_acc : Z) (bits : Z)
  : M (av * nat) :=
  if bits <=? COMMON_RANGE_BITS then
    a <- assign_one_line_range_value off v v_acc bits ;; mret (a, 1%nat)
  else if bits <? 2 * COMMON_RANGE_BITS then mpanic
  else if bits <=? 4 * COMMON_RANGE_BITS then
    a <- assign_two_line_range_value off (resize 4 0 v) v_acc bits ;; mret (a, 2%nat)
  else if bits <=? 6 * COMMON_RANGE_BITS then
    a <- assign_three_line_range_value off (resize 6 0 v) v_acc bits ;; mret (a, 3%nat)
  else mpanic.

(** context.rs:749-767 [Records::assign_cache_value]. *)
Definition rec_assign_cache_value (off : nat) (v : av) (encode : Z) : M unit :=
  bump_select_h off ;;;
  push_perms [(scell ValueCol off, a_cell v)] ;;;
  do_writes [WAdv (scell ValueCol off) (a_val v);
             WFlag (scell ValueCol off); WFlag (a_cell v);
             WFix (scell EncodeCol off) encode; WFix (scell IsLookupCol off) 0].

(** context.rs:769-801 [Records::assign_select_value]. *)
Definition rec_assign_select_value (off : nat) (v : av) (encode : Z) (selector : av)
  : M av :=
  bump_select_h off ;;;
  push_perms [(scell SelectCol off, a_cell selector)] ;;;
  do_writes [WAdv (scell ValueCol off) (a_val v);
             WAdv (scell SelectCol off) (a_val selector);
             WFlag (scell SelectCol off); WFlag (a_cell selector);
             WFix (scell EncodeCol off) encode; WFix (scell IsLookupCol off) 1] ;;;
  mret (mkAv (scell ValueCol off) (a_val v)).

(** The circuit recorded so far, in the terms of Circuit.v. *)
Definition opt0 (o : option Z) : Z := match o with Some v => v | None => 0 end.
Definition fixv (c : ctx) (x : cell) : Z := opt0 (get_fix (c_mem c) x).
(** The honest prover's assignment: recorded witness, 0 where none. *)
Definition honest (c : ctx) (x : cell) : Z := opt0 (get_adv (c_mem c) x).

Definition satisfies {NM : NMod} (c : ctx) (A : cell -> Z) : Prop :=
  circuit_sat (fixv c) (c_perms c) A.
