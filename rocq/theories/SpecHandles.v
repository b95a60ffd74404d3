(** Specification: handles are never dangling (C55). *)
From Verif Require Import Prelude FieldZ Circuit Context BaseChip RangeInfo RangeChip IntegerChip EccChip Fq12Chip PairingChip.

(** The columns on which the chips enable equality: the five advice columns of the base chip, the accumulator of the
    range chip, value and selector of the select chip. *)
Definition copyable (x : cell) : Prop :=
  match c_chip x with
  | BaseChip => (c_col x < 5)%nat
  | RangeChip => c_col x = ValueAccCol
  | SelectChip => c_col x = ValueCol \/ c_col x = SelectCol
  end.
(** A cell that can be tied: a value is recorded there and its column admits copy constraints. *)
Definition live (c : ctx) (x : cell) : Prop := get_adv (c_mem c) x <> None /\ copyable x.
Definition copies_live (c : ctx) : Prop := forall a b, In (a, b) (c_perms c) -> live c a /\ live c b.

(** The cells a value refers to: the cells of all the handles in it. *)
Class Handles (X : Type) := cells_of : X -> list cell.
#[global] Instance hs_Z : Handles Z := fun _ => [].
#[global] Instance hs_nat : Handles nat := fun _ => [].
#[global] Instance hs_bool : Handles bool := fun _ => [].
#[global] Instance hs_unit : Handles unit := fun _ => [].
#[global] Instance hs_av : Handles av := fun a => [a_cell a].
#[global] Instance hs_schema : Handles schema := fun s => match schema_cell s with Some x => [x] | None => [] end.
#[global] Instance hs_pair {X Y} `{Handles X} `{Handles Y} : Handles (X * Y) := fun p => cells_of (fst p) ++ cells_of (snd p).
#[global] Instance hs_list {X} `{Handles X} : Handles (list X) := fun l => concat (map cells_of l).
#[global] Instance hs_option {X} `{Handles X} : Handles (option X) := fun o => match o with Some x => cells_of x | None => [] end.
#[global] Instance hs_uresult {X} `{Handles X} : Handles (uresult X) := fun r => match r with UOk x => cells_of x | UErr _ => [] end.
#[global] Instance hs_aint : Handles aint := fun a => cells_of (i_limbs a) ++ cells_of (i_native a).
#[global] Instance hs_curv : Handles acurv := fun a => cells_of (k_v a) ++ cells_of (k_z a).
#[global] Instance hs_point : Handles apoint := fun a => cells_of (p_x a) ++ cells_of (p_y a) ++ cells_of (p_z a).
#[global] Instance hs_nz : Handles anz := fun a => cells_of (nz_x a) ++ cells_of (nz_y a).
#[global] Instance hs_pointc : Handles apointc :=
  fun a => cells_of (pc_x a) ++ cells_of (pc_y a) ++ cells_of (pc_z a) ++ cells_of (pc_c a).
#[global] Instance hs_g2a : Handles ag2a := fun a => cells_of (ga_x a) ++ cells_of (ga_y a) ++ cells_of (ga_z a).
#[global] Instance hs_g2 : Handles ag2 := fun a => cells_of (gj_x a) ++ cells_of (gj_y a) ++ cells_of (gj_z a).

Definition all_live {X} `{Handles X} (c : ctx) (x : X) : Prop := Forall (live c) (cells_of x).

(** Run in a state whose copy constraints all tie live cells, with handles that are live, m ties live cells only,
    invalidates no handle and returns live handles. *)
Definition disciplined {X Y} `{Handles X} `{Handles Y} (args : X) (m : M Y) : Prop :=
  forall c y c', all_live c args -> copies_live c -> m c = Ok (y, c') ->
    copies_live c' /\ (forall x, live c x -> live c' x) /\ all_live c' y.
