(** Model of synthesis: src/context.rs:303-535 ([assign_all] and its helpers). *)
From Verif Require Import Prelude FieldZ Circuit Context.

(** What the halo2 region holds afterwards.  Simplification: the columns of the
    three chips keep the names they have in the record tables. *)
Record region := mkRegion {
  r_adv : cell -> option Z;
  r_fix : cell -> option Z;
  r_copies : list (cell * cell)
}.

Definition height (c : ctx) (ch : chip) : nat :=
  match ch with BaseChip => base_h c | RangeChip => range_h c | SelectChip => select_h c end.

(** context.rs:326-328 and 411-413: [(base_height + threads - 1) / threads], for both
    the base and the range chip. *)
Definition threads : nat := 16.
Definition chunk_size (c : ctx) : nat := ((base_h c + threads - 1) / threads)%nat.

(** Rows of the advice tables that are visited: [chunk_size * threads] chunks of
    [chunk_size] rows (context.rs:329-335, 414-420); [take(select_height + 1)] (462). *)
Definition adv_limit (c : ctx) (ch : chip) : nat :=
  match ch with
  | SelectChip => select_h c + 1
  | _ => chunk_size c * threads * chunk_size c
  end%nat.
(** Rows of the fixed tables that are visited: 357-362, 395-400, 487-492. *)
Definition fix_limit (c : ctx) (ch : chip) : nat :=
  match ch with BaseChip => base_h c | RangeChip => range_h c + 1 | SelectChip => select_h c + 1 end%nat.

Definition visited (c : ctx) (x : cell) : bool :=
  (c_row x <? adv_limit c (c_chip x))%nat && match get_adv (c_mem c) x with Some _ => true | None => false end.
(** Writing the handle of a visited, flagged cell past the end of the vector of
    [height] cells is a panic (select chip) or an out-of-bounds raw write (base
    and range chips, 349-352, 433-436), modelled as a panic too. *)
Definition handle_fits (c : ctx) (w : wr) : bool :=
  match w with
  | WAdv x _ => if visited c x && get_flag (c_mem c) x then (c_row x <? height c (c_chip x))%nat else true
  | _ => true
  end.
(** [cells[region][col][row].unwrap()] (514-521). *)
Definition has_handle (c : ctx) (x : cell) : bool :=
  visited c x && get_flag (c_mem c) x && (c_row x <? height c (c_chip x))%nat.

(** context.rs:523-535 [assign_all]; [par_chunks(0)] panics.  Failures of the
    region's own operations (not enough rows) are not modelled. *)
Definition assign_all (c : ctx) : res region :=
  if negb (chunk_size c =? 0)%nat
     && forallb (handle_fits c) (c_mem c)
     && forallb (fun p => has_handle c (fst p) && has_handle c (snd p)) (c_perms c)
  then Ok (mkRegion (fun x => if (c_row x <? adv_limit c (c_chip x))%nat then get_adv (c_mem c) x else None)
                    (fun x => if (c_row x <? fix_limit c (c_chip x))%nat then get_fix (c_mem c) x else None)
                    (rev (c_perms c)))
  else Panic.
