(** Model of circuits without a select chip: context.rs:554-576 [assign_all_with_optional_select_chip] and the circuit
    of tests/mod.rs:201-256 (the library leaves this to its users). *)
From Verif Require Import Prelude FieldZ Circuit Context Synth Halo2 Configure.

Definition is_select (x : cell) : bool := match c_chip x with SelectChip => true | _ => false end.
Definition writes_select (w : wr) : bool := match w with WAdv x _ => is_select x | WFix x _ => is_select x | WFlag x => is_select x end.

(** context.rs:554-576; [select] says whether a select chip is passed.  Without one the tables of the select chip are not
    visited, its vector of handles is empty ([vec![]]), and the assertion [select_height == 0] guards against lost rows. *)
Definition assign_all_with_optional_select_chip (select : bool) (c : ctx) : res region :=
  if select then assign_all c else
  if negb (chunk_size c =? 0)%nat
     && forallb (handle_fits c) (filter (fun w => negb (writes_select w)) (c_mem c))
     && (select_h c =? 0)%nat
     && forallb (fun p => negb (is_select (fst p)) && has_handle c (fst p) && (negb (is_select (snd p)) && has_handle c (snd p))) (c_perms c)
  then Ok (mkRegion (fun x => if negb (is_select x) && (c_row x <? adv_limit c (c_chip x))%nat then get_adv (c_mem c) x else None)
                    (fun x => if negb (is_select x) && (c_row x <? fix_limit c (c_chip x))%nat then get_fix (c_mem c) x else None)
                    (rev (c_perms c)))
  else Panic.

(** tests/mod.rs:201-205, 220-227. *)
Record config_ns := mkConfigNs { ns_base : base_config; ns_range : range_config }.
Section Config.
Context {NM : NMod}.
Definition configure_ns : C config_ns := b <-- base_configure ; r <-- range_configure ; cret (mkConfigNs b r).
End Config.

(** The columns, as in Configure.v; 0 stands for the columns of the select chip, which do not exist and are not used below. *)
Definition adv_col_ns (g : config_ns) (ch : chip) (col : nat) : nat :=
  match ch with
  | BaseChip => at_ (bc_base (ns_base g)) col
  | RangeChip => at_ (rc_adv (ns_range g)) col
  | SelectChip => 0
  end.
Definition fix_col_ns (g : config_ns) (ch : chip) (col : nat) : nat :=
  match ch with
  | BaseChip =>
      if (col <? VAR_COLUMNS)%nat then at_ (bc_coeff (ns_base g)) col
      else if (col - VAR_COLUMNS <? MUL_COLUMNS)%nat then at_ (bc_mul_coeff (ns_base g)) (col - VAR_COLUMNS)
      else if (col - VAR_COLUMNS - MUL_COLUMNS =? 0)%nat then bc_next_coeff (ns_base g)
      else bc_constant (ns_base g)
  | RangeChip => at_ (rc_fix (ns_range g)) col
  | SelectChip => 0
  end.
Definition adv_columns_ns : list (chip * nat) := map (pair BaseChip) (seq 0 5) ++ map (pair RangeChip) (seq 0 3).
Definition fix_columns_ns : list (chip * nat) := map (pair BaseChip) (seq 0 9) ++ map (pair RangeChip) (seq 0 2).

Section Synth.
Context {NM : NMod}.
(** tests/mod.rs:229-255. *)
Definition synthesise_ns (g : config_ns) (S : cs) (c : ctx) : res (fixed_part * (nat -> nat -> Z)) :=
  let! r := assign_all_with_optional_select_chip false c in
  let ok x := adv_exists x && existsb (Nat.eqb (adv_col_ns g (c_chip x) (c_col x))) (cs_eq S) in
  let place x := (adv_col_ns g (c_chip x) (c_col x), c_row x) in
  if forallb (fun p => ok (fst p) && ok (snd p)) (r_copies r) then
    Ok (mkFixed
          (fun col row =>
             if (col =? rc_tag_table (ns_range g))%nat then fst (nth row range_table (hd (0, 0) range_table))
             else if (col =? rc_value_table (ns_range g))%nat then snd (nth row range_table (hd (0, 0) range_table))
             else placed (fix_col_ns g) fix_columns_ns (r_fix r) col row)
          (map (fun p => (place (fst p), place (snd p))) (r_copies r)),
        placed (adv_col_ns g) adv_columns_ns (r_adv r))
  else Panic.
End Synth.
