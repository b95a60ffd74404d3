(** SPECIFICATION vocabulary of the select chip: rows that cache a value. *)
From Verif Require Import Prelude FieldZ Circuit Context Spec.

(** The table key of candidate [s] (the selector value), limb [off] of group [g]. *)
Definition entry_code {NM : NMod} (g s off : Z) : Z := (s * 2 ^ 128 + g * 2 ^ 64 + off) mod nmod.
(** Row [r] of the select chip caches a value under the encoding [e]. *)
Definition cache_row (c : ctx) (r : nat) (e : Z) : Prop :=
  used c SelectChip r /\ fixv c (scell IsLookupCol r) = 0 /\ fixv c (scell EncodeCol r) = e.
(** The value [v] is recorded as cached under [e]. *)
Definition cached (c : ctx) (e v : Z) : Prop :=
  exists r, cache_row c r e /\ get_adv (c_mem c) (scell ValueCol r) = Some v.
(** No two rows cache under the encoding [e]. *)
Definition cached_once (c : ctx) (e : Z) : Prop :=
  forall r r', cache_row c r e -> cache_row c r' e -> r = r'.
(** Between [c] and [c'] at most one row was added for each key in [E], and no row for
    another key. *)
Definition caches_within (E : Z -> Prop) (c c' : ctx) : Prop :=
  forall e, (forall r, cache_row c' r e -> ~ cache_row c r e -> E e)
    /\ (forall r r', cache_row c' r e -> ~ cache_row c r e -> cache_row c' r' e -> ~ cache_row c r' e -> r = r').
