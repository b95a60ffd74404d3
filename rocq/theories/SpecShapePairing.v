(** Specification: handles of the same shape for the tower and pairing chips (C25), as in SpecShape.v. *)
From Verif Require Import Prelude FieldZ Circuit Context BaseChip RangeInfo RangeChip IntegerChip EccChip SpecShape Fq12Chip PairingChip.
Definition sf2 : afq2 -> afq2 -> Prop := both saint saint.
Definition sf6 : afq6 -> afq6 -> Prop := both (both sf2 sf2) sf2.
Definition sf12 : afq12 -> afq12 -> Prop := both sf6 sf6.
Record sg2a (a b : ag2a) : Prop := { sga_x : sf2 (ga_x a) (ga_x b); sga_y : sf2 (ga_y a) (ga_y b); sga_z : sav (ga_z a) (ga_z b) }.
Record sg2 (a b : ag2) : Prop := { sgj_x : sf2 (gj_x a) (gj_x b); sgj_y : sf2 (gj_y a) (gj_y b); sgj_z : sf2 (gj_z a) (gj_z b) }.
Definition scoeff : acoeff -> acoeff -> Prop := both (both sf2 sf2) sf2.
