(** Model of the constraint systems and of the placement of the record tables in halo2's columns:
    [configure] of base_chip.rs, range_chip.rs and select_chip.rs, [init_table] of range_chip.rs,
    the column choices of [assign_all] in context.rs, and how a circuit puts them together
    (tests/mod.rs:59-117; the library leaves this to its users). *)
From Verif Require Import Prelude FieldZ Circuit Context Synth Halo2.

(** Building a constraint system ([&mut ConstraintSystem]). *)
Definition C X := cs -> X * cs.
Definition cret {X} (x : X) : C X := fun s => (x, s).
Definition cbind {X Y} (m : C X) (k : X -> C Y) : C Y := fun s => let '(x, s') := m s in k x s'.
Notation "x <-- m ; k" := (cbind m (fun x => k)) (at level 90, m at level 89, right associativity).
Fixpoint crep {X} (k : nat) (m : C X) : C (list X) :=
  match k with O => cret [] | S k' => x <-- m ; l <-- crep k' m ; cret (x :: l) end.
Definition advice_column : C nat := fun s => (cs_adv s, mkCs (S (cs_adv s)) (cs_fix s) (cs_eq s) (cs_gates s) (cs_lookups s)).
Definition fixed_column : C nat := fun s => (cs_fix s, mkCs (cs_adv s) (S (cs_fix s)) (cs_eq s) (cs_gates s) (cs_lookups s)).
(** A table column is a fixed column set aside. *)
Definition lookup_table_column : C nat := fixed_column.
Definition enable_equality (col : nat) : C unit :=
  fun s => (tt, mkCs (cs_adv s) (cs_fix s) (cs_eq s ++ [col]) (cs_gates s) (cs_lookups s)).
Definition create_gate (e : expr) : C unit :=
  fun s => (tt, mkCs (cs_adv s) (cs_fix s) (cs_eq s) (cs_gates s ++ [e]) (cs_lookups s)).
Definition lookup (l : list (expr * expr)) : C unit :=
  fun s => (tt, mkCs (cs_adv s) (cs_fix s) (cs_eq s) (cs_gates s) (cs_lookups s ++ [l])).
Fixpoint ceach {X} (f : X -> C unit) (l : list X) : C unit :=
  match l with [] => cret tt | x :: xs => _ <-- f x ; ceach f xs end.

(** [l[i]]; indices are literals inside the bounds. *)
Definition at_ (l : list nat) (i : nat) : nat := nth i l O.

(** base_chip.rs:20-28 [BaseChipConfig]. *)
Record base_config := mkBaseConfig {
  bc_base : list nat; bc_coeff : list nat; bc_mul_coeff : list nat; bc_next_coeff : nat; bc_constant : nat }.
(** base_chip.rs:41-78 [BaseChip::configure]. *)
Definition base_configure : C base_config :=
  base <-- crep VAR_COLUMNS advice_column ;
  coeff <-- crep VAR_COLUMNS fixed_column ;
  mul_coeff <-- crep MUL_COLUMNS fixed_column ;
  next_coeff <-- fixed_column ;
  constant <-- fixed_column ;
  _ <-- ceach enable_equality base ;
  (let acc := ESum (EFixed constant 0) (EMul (EAdvice (at_ base (VAR_COLUMNS - 1)) 1) (EFixed next_coeff 0)) in
   let acc := fold_left (fun acc i => ESum acc (EMul (EAdvice (at_ base i) 0) (EFixed (at_ coeff i) 0))) (seq 0 VAR_COLUMNS) acc in
   let acc := fold_left (fun acc i => ESum acc (EMul (EMul (EAdvice (at_ base (i * 2)) 0) (EAdvice (at_ base (i * 2 + 1)) 0))
                                                     (EFixed (at_ mul_coeff i) 0))) (seq 0 MUL_COLUMNS) acc in
   _ <-- create_gate acc ;
   cret (mkBaseConfig base coeff mul_coeff next_coeff constant)).

(** range_chip.rs:66-80 [RangeChipConfig]. *)
Record range_config := mkRangeConfig {
  rc_tag_table : nat; rc_value_table : nat; rc_adv : list nat; rc_fix : list nat }.
Section Range.
Context {NM : NMod}.
(** The loops over the values of [k] lines in range_chip.rs:171-181 and 203-213: the running
    expression and the running shift. *)
Definition range_acc (col k : nat) (st : expr * Z) : expr * Z :=
  fold_left (fun st j => (ESub (fst st) (EMul (EAdvice col j) (EConst (snd st))), fmul (snd st) (fof (2 ^ COMMON_RANGE_BITS)))) (seq 0 k) st.
(** The product over the other values of [acc_lines] (148-153, 182-187, 214-219). *)
Definition range_roots (lines : nat) (k : Z) (acc : expr) : expr :=
  fold_left (fun acc root => if root =? k then acc else EMul acc (ESub (EFixed lines 0) (EConst (fof root)))) [1; 2; 3]
    (EMul acc (EFixed lines 0)).
(** range_chip.rs:102-228 [RangeChip::configure]. *)
Definition range_configure : C range_config :=
  fix_cols <-- crep 2 fixed_column ;
  adv_cols <-- crep 3 advice_column ;
  tag_table <-- lookup_table_column ;
  value_table <-- lookup_table_column ;
  (let tag := at_ fix_cols TagCol in
   let acc_lines := at_ fix_cols AccLinesCol in
   let value_acc := at_ adv_cols ValueAccCol in
   let tagged := at_ adv_cols TaggedRangeCol in
   let common := at_ adv_cols CommonRangeCol in
   _ <-- enable_equality value_acc ;
   _ <-- lookup [(EFixed tag 0, EFixed tag_table 0); (EAdvice tagged 0, EFixed value_table 0)] ;
   _ <-- lookup [(EConst (fof COMMON_RANGE_BITS), EFixed tag_table 0); (EAdvice common 0, EFixed value_table 0)] ;
   _ <-- create_gate (range_roots acc_lines 1 (ESub (EAdvice value_acc 0) (EAdvice tagged 0))) ;
   _ <-- create_gate (range_roots acc_lines 2
           (fst (range_acc tagged 2 (range_acc common 2 (EAdvice value_acc 0, 1))))) ;
   _ <-- create_gate (range_roots acc_lines 3
           (fst (range_acc tagged 3 (range_acc common 3 (EAdvice value_acc 0, 1))))) ;
   cret (mkRangeConfig tag_table value_table adv_cols fix_cols)).
(** range_chip.rs:230-258 [init_table]: the pairs (tag, value) in the order of the rows. *)
Definition zrange (k : Z) : list Z := map Z.of_nat (seq 0 (Z.to_nat k)).
Definition range_table : list (Z * Z) :=
  concat (map (fun tag => map (fun v => (fof tag, fof v)) (zrange (2 ^ tag))) (zrange (COMMON_RANGE_BITS + 1))).

(** select_chip.rs:30-35 [SelectChipConfig]. *)
Record select_config := mkSelectConfig { sl_limb_info : nat; sl_selector : nat; sl_encoded_offset : nat; sl_is_lookup : nat }.
(** select_chip.rs:62-97 [SelectChip::configure]; SELECTOR_ENCODE_OFFSET is 128. *)
Definition select_configure : C select_config :=
  limb_info <-- advice_column ;
  selector <-- advice_column ;
  encoded_offset <-- fixed_column ;
  is_lookup <-- fixed_column ;
  _ <-- enable_equality limb_info ;
  _ <-- enable_equality selector ;
  _ <-- lookup [(EAdvice limb_info 0, EAdvice limb_info 0);
                (ESum (EMul (EAdvice selector 0) (EConst (fof (2 ^ 128)))) (EFixed encoded_offset 0), EFixed encoded_offset 0);
                (EConst 0, EFixed is_lookup 0)] ;
  cret (mkSelectConfig limb_info selector encoded_offset is_lookup).

(** tests/mod.rs:79-88. *)
Record config := mkConfig { cf_base : base_config; cf_range : range_config; cf_select : select_config }.
Definition configure : C config :=
  b <-- base_configure ; r <-- range_configure ; s <-- select_configure ; cret (mkConfig b r s).
End Range.

(** The halo2 columns of the record tables' columns: advice (context.rs:341, 427, 466, 477) and fixed
    (366-374, 404, 495, 503). *)
Definition adv_col (g : config) (ch : chip) (col : nat) : nat :=
  match ch with
  | BaseChip => at_ (bc_base (cf_base g)) col
  | RangeChip => at_ (rc_adv (cf_range g)) col
  | SelectChip => if (col =? ValueCol)%nat then sl_limb_info (cf_select g) else sl_selector (cf_select g)
  end.
Definition fix_col (g : config) (ch : chip) (col : nat) : nat :=
  match ch with
  | BaseChip =>
      if (col <? VAR_COLUMNS)%nat then at_ (bc_coeff (cf_base g)) col
      else if (col - VAR_COLUMNS <? MUL_COLUMNS)%nat then at_ (bc_mul_coeff (cf_base g)) (col - VAR_COLUMNS)
      else if (col - VAR_COLUMNS - MUL_COLUMNS =? 0)%nat then bc_next_coeff (cf_base g)
      else bc_constant (cf_base g)
  | RangeChip => at_ (rc_fix (cf_range g)) col
  | SelectChip => if (col =? EncodeCol)%nat then sl_encoded_offset (cf_select g) else sl_is_lookup (cf_select g)
  end.
(** The columns of the record tables (context.rs:267-283). *)
Definition adv_columns : list (chip * nat) :=
  map (pair BaseChip) (seq 0 5) ++ map (pair RangeChip) (seq 0 3) ++ map (pair SelectChip) (seq 0 2).
Definition fix_columns : list (chip * nat) :=
  map (pair BaseChip) (seq 0 9) ++ map (pair RangeChip) (seq 0 2) ++ map (pair SelectChip) (seq 0 2).
Definition adv_exists (x : cell) : bool :=
  (c_col x <? match c_chip x with BaseChip => 5 | RangeChip => 3 | SelectChip => 2 end)%nat.

(** A column of the halo2 table after the region was assigned: 0 where nothing was. *)
Definition placed (place : chip -> nat -> nat) (cols : list (chip * nat)) (v : cell -> option Z) (col row : nat) : Z :=
  match find (fun k => (place (fst k) (snd k) =? col)%nat) cols with
  | Some (ch, k) => opt0 (v (mkCell ch k row))
  | None => 0
  end.

Section Synth.
Context {NM : NMod}.
(** [init_table] and [assign_all] in one circuit (tests/mod.rs:90-117).  halo2 fills the rows of a table column
    beyond the assigned ones with its first value.  A copy between columns that were not
    enabled for equality is an error of halo2, and a copy of a column that does not exist an
    index out of bounds; both are a panic here. *)
Definition synthesise (g : config) (S : cs) (c : ctx) : res (fixed_part * (nat -> nat -> Z)) :=
  let! r := assign_all c in
  let ok x := adv_exists x && existsb (Nat.eqb (adv_col g (c_chip x) (c_col x))) (cs_eq S) in
  let place x := (adv_col g (c_chip x) (c_col x), c_row x) in
  if forallb (fun p => ok (fst p) && ok (snd p)) (r_copies r) then
    Ok (mkFixed
          (fun col row =>
             if (col =? rc_tag_table (cf_range g))%nat then fst (nth row range_table (hd (0, 0) range_table))
             else if (col =? rc_value_table (cf_range g))%nat then snd (nth row range_table (hd (0, 0) range_table))
             else placed (fix_col g) fix_columns (r_fix r) col row)
          (map (fun p => (place (fst p), place (snd p))) (r_copies r)),
        placed (adv_col g) adv_columns (r_adv r))
  else Panic.
End Synth.
