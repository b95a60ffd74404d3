(** Model of src/circuit/ecc_chip.rs:36-436 (traits [ParallelClone] and
    [EccChipScalarOps]: multi-scalar multiplication) and of the [ParallelClone]
    implementations in native_scalar_ecc_chip.rs:50-90 and
    general_scalar_ecc_chip.rs:43-91. *)
From Verif Require Import Prelude FieldZ Circuit Context RangeInfo BaseChip RangeChip IntegerChip EccChip ScalarChip.

(** ** Cloned contexts *)

(** ecc_chip.rs:36-41 [Offset]. *)
Record offs := mkOff { o_base : nat; o_range : nat; o_select : nat }.
(** ecc_chip.rs:43-52 [Sub]; a negative difference would be an overflow panic, and
    cannot arise between the offsets before and after recording. *)
Definition off_sub (a b : offs) : offs :=
  mkOff (o_base a - o_base b) (o_range a - o_range b) (o_select a - o_select b).
(** ecc_chip.rs:54-62 *)
Definition off_scale (n : nat) (a : offs) : offs :=
  mkOff (o_base a * n) (o_range a * n) (o_select a * n).
Definition off_eqb (a b : offs) : bool :=
  (o_base a =? o_base b)%nat && (o_range a =? o_range b)%nat && (o_select a =? o_select b)%nat.

(** native_scalar_ecc_chip.rs:72-78 *)
Definition offset_of (c : ctx) : offs := mkOff (base_off c) (range_off c) (select_off c).
(** native_scalar_ecc_chip.rs:51-55 *)
Definition apply_offset_diff (d : offs) (c : ctx) : ctx :=
  mkCtx (c_mem c) (c_perms c) (base_off c + o_base d) (range_off c + o_range d) (select_off c + o_select d)
        (base_h c) (range_h c) (select_h c).
(** native_scalar_ecc_chip.rs:57-70 with context.rs:145-158
    [clone_without_permutation]: the record tables are shared, the copy constraints
    start empty.  [m] is the current content of the shared tables. *)
Definition clone_with_offset (m : mem) (d : offs) (c : ctx) : ctx :=
  mkCtx m [] (base_off c + o_base d) (range_off c + o_range d) (select_off c + o_select d)
        (base_h c) (range_h c) (select_h c).
(** native_scalar_ecc_chip.rs:80-89, general_scalar_ecc_chip.rs:81-90 [merge]; the
    range height is computed from the select height, as in the code. *)
Definition merge (m : mem) (c other : ctx) : ctx :=
  mkCtx m (c_perms other ++ c_perms c) (base_off c) (range_off c) (select_off c)
        (Nat.max (base_h c) (base_h other)) (Nat.max (select_h c) (range_h other))
        (Nat.max (select_h c) (select_h other)).

(** The same context after the shared tables changed. *)
Definition with_mem (m : mem) (c : ctx) : ctx :=
  mkCtx m (c_perms c) (base_off c) (range_off c) (select_off c) (base_h c) (range_h c) (select_h c).

(** ecc_chip.rs:172-192, 309-336: the cloned windows.  The clones are made before any of them
    runs and share the tables; here they run one after the other (C38 treats
    interleavings).  An error ends the sequence. *)
Fixpoint run_clones {X} (f : nat -> M (uresult X)) (c : ctx) (diff : offs) (is : list nat) (m : mem)
  : res (uresult (list (X * ctx)) * mem) :=
  match is with
  | [] => Ok (UOk [], m)
  | i :: is' =>
      let ci := clone_with_offset m (off_scale i diff) c in
      match f i ci with
      | Panic => Panic
      | Ok (UErr e, ci') => Ok (UErr e, c_mem ci')
      | Ok (UOk x, ci') =>
          if off_eqb diff (off_sub (offset_of ci') (offset_of ci)) then
            match run_clones f c diff is' (c_mem ci') with
            | Panic => Panic
            | Ok (UErr e, m') => Ok (UErr e, m')
            | Ok (UOk xs, m') => Ok (UOk ((x, ci') :: xs), m')
            end
          else Panic
      end
  end.

(** ecc_chip.rs:146-200, 281-344: run the first window on a clone to predict the
    offset difference, merge it, run the others on clones with scaled offsets,
    merge them and move to the tail. *)
Definition par_windows {X} (f : nat -> M (uresult X)) (windows : nat) : M (uresult (list X)) :=
  fun c =>
    let c0 := clone_with_offset (c_mem c) (mkOff 0 0 0) c in
    match f O c0 with
    | Panic => Panic
    | Ok (UErr e, c0') => Ok (UErr e, with_mem (c_mem c0') c)
    | Ok (UOk x0, c0') =>
        let diff := off_sub (offset_of c0') (offset_of c0) in
        let c1 := merge (c_mem c0') c c0' in
        match run_clones f c1 diff (seq 1 (windows - 1)) (c_mem c1) with
        | Panic => Panic
        | Ok (UErr e, m) => Ok (UErr e, with_mem m c1)
        | Ok (UOk xs, m) =>
            let c2 := fold_left (fun c x => merge m c (snd x)) xs (with_mem m c1) in
            Ok (UOk (x0 :: map fst xs), apply_offset_diff (off_scale windows diff) c2)
        end
    end.

(** Rust's [for] with [?] in the body. *)
Fixpoint ufoldM {X S} (f : S -> X -> M (uresult S)) (s : S) (l : list X) : M (uresult S) :=
  match l with [] => mret (UOk s) | x :: xs => ubind (f s x) (fun s' => ufoldM f s' xs) end.

(** [reverse_bits().leading_zeros()] of a positive u32. *)
Fixpoint ptz (p : positive) : nat := match p with xO q => S (ptz q) | _ => O end.
Definition low_pos (i : nat) : nat := ptz (Pos.of_nat i).

Section Msm.
Context {NM : NMod}.
Variable I : rinfo.
Variable cv_b : Z.

(** ecc_chip.rs:118-138, 256-275, one group: the sums of the initial point and of every
    subset of the points of the chunk.  [cache i p] is what the select-chip variant
    does with candidate number i. *)
Definition group_candidates (cache : nat -> anz -> M unit) (init : anz) (chunk : list anz)
  : M (uresult (list anz)) :=
  cache O init ;;;
  ufoldM (fun cl i =>
      let pos := low_pos i in
      let other := (i - 2 ^ pos)%nat in
      c <- mnth cl other ;;
      q <- mnth chunk pos ;;
      ubind (ecc_add_unsafe I c q) (fun p =>
        p <- ecc_reduce_non_zero I p ;;
        cache i p ;;;
        mret (UOk (cl ++ [p]))))
    [init] (seq 1 (2 ^ length chunk - 1)).

(** ecc_chip.rs:116-138, 254-275, all groups. *)
Definition all_candidates (cache : nat -> nat -> anz -> M unit) (line line_neg : anz)
           (groups : list (list anz)) : M (uresult (list (list anz))) :=
  ufoldM (fun cs gc =>
      let init := if Nat.even (fst gc) then line else line_neg in
      ubind (group_candidates (cache (fst gc)) init (snd gc)) (fun cl => mret (UOk (cs ++ [cl]))))
    [] (combine (seq 0 (length groups)) groups).

(** ecc_chip.rs:150-161, 176-187, 285-300, 316-331: one window. *)
Definition window_body (pick : nat -> list anz -> list acond -> M anz) (acc_neg : anz)
           (candidates : list (list anz)) (groups : list (list (list (list acond)))) (wi : nat)
  : M (uresult anz) :=
  ufoldM (fun acc gi =>
      g <- mnth groups gi ;;
      group_bits <- mapM (fun bits => w <- mnth bits wi ;; mnth w 0) g ;;
      cs <- mnth candidates gi ;;
      ci <- pick gi cs group_bits ;;
      ecc_add_unsafe I ci acc)
    acc_neg (seq 0 (length groups)).

(** ecc_chip.rs:91-219 and 223-367, the parts common to both variants.  [best] is the group size
    aimed at, [dec] is [decompose_scalar::<1>]. *)
Definition msm_batch {S} (dec : S -> M (list (list acond)))
           (pick : nat -> list anz -> list acond -> M anz) (cache : nat -> nat -> anz -> M unit)
           (best : nat) (points : list anz) (scalars : list S) (r_acc r_line : option (Z * Z))
  : M (uresult apoint) :=
  points <- mapM (ecc_reduce_non_zero I) points ;;
  acc0 <- assign_non_zero_point I cv_b r_acc ;;
  line <- assign_non_zero_point I cv_b r_line ;;
  acc_neg <- ecc_neg_non_zero I acc0 ;;
  acc_neg <- ecc_reduce_non_zero I acc_neg ;;
  line_neg <- ecc_neg_non_zero I line ;;
  line_neg <- ecc_reduce_non_zero I line_neg ;;
  let n := length points in
  let n_group := ((n + best - 1) / best)%nat in
  massert (negb (n_group =? 0)%nat) ;;;                     (* division by zero *)
  let group_size := ((n + n_group - 1) / n_group)%nat in
  ubind (all_candidates cache line line_neg (chunks group_size points)) (fun candidates =>
    bits <- mapM dec scalars ;;
    let groups := chunks group_size bits in
    bits0 <- mnth bits 0 ;;
    let windows := length bits0 in
    ubind (par_windows (window_body pick acc_neg candidates groups) windows) (fun lines =>
      ubind (ufoldM (fun acc wi =>
          ubind (ecc_double_unsafe I acc) (fun acc =>
            l <- mnth lines wi ;;
            ubind (ecc_add_unsafe I l acc) (fun acc =>
              if Nat.odd (length groups) then ecc_add_unsafe I acc line_neg else mret (UOk acc))))
        acc0 (seq 0 windows)) (fun acc =>
        a <- ecc_non_zero_point_downgrade acc ;;
        a <- to_point_with_curvature I a ;;
        carry <- ecc_non_zero_point_downgrade acc_neg ;;
        r <- ecc_add I a carry ;;
        mret (UOk r)))).

(** ecc_chip.rs:91-220 *)
Definition msm_batch_on_group_non_zero_without_select_chip {S} (dec : S -> M (list (list acond)))
  : list anz -> list S -> option (Z * Z) -> option (Z * Z) -> M (uresult apoint) :=
  msm_batch dec (fun _ => bisec_candidate_non_zero I) (fun _ _ _ => mret tt) 2.

(** ecc_chip.rs:20-21 *)
Definition MSM_PREFIX_OFFSET : Z := 2 ^ 20.
Definition MSM_LIMIT : Z := 2 ^ 8 * MSM_PREFIX_OFFSET.

(** ecc_chip.rs:222-368, [prefix] is the value returned by
    [get_and_increase_msm_prefix] (native_scalar_ecc_chip.rs:173-178). *)
Definition msm_batch_on_group_non_zero_with_select_chip {S} (dec : S -> M (list (list acond))) (prefix : Z)
           (points : list anz) (scalars : list S) (r_acc r_line : option (Z * Z))
  : M (uresult apoint) :=
  massert (Z.of_nat (length points) <=? MSM_PREFIX_OFFSET) ;;;
  massert (prefix <? MSM_LIMIT) ;;;
  msm_batch dec
    (fun gi cs bits =>
       r <- pick_candidate_non_zero cs bits ;;
       assign_selected_point_non_zero I (snd r) (fst r) (Z.of_nat gi + prefix))
    (fun gi i p => assign_cache_point_non_zero I p (prefix + Z.of_nat gi) (Z.of_nat i))
    5 points scalars r_acc r_line.

(** ecc_chip.rs:370-410 [msm_unsafe].  [gen] is [C::generator()], [r_acc] and [r_line] the two
    random multiples of it, [prefix] the select chip's state ([None]: no select
    chip); the new state is returned with the result.  [zip] drops the tail of the
    longer argument. *)
Definition msm_unsafe {S} (dec : S -> M (list (list acond))) (bisec_scalar : acond -> S -> S -> M S)
           (zero_scalar : M S) (gen r_acc r_line : option (Z * Z)) (prefix : option Z)
           (points : list apoint) (scalars : list S) : M (uresult apoint * option Z) :=
  nzp <- assign_non_zero_point I cv_b gen ;;
  s_zero <- zero_scalar ;;
  ps <- mapM (fun ps =>
      s <- bisec_scalar (p_z (fst ps)) s_zero (snd ps) ;;
      p <- ecc_bisec_to_non_zero_point I (fst ps) nzp ;;
      mret (p, s)) (combine points scalars) ;;
  match prefix with
  | Some g =>
      r <- msm_batch_on_group_non_zero_with_select_chip dec g (map fst ps) (map snd ps) r_acc r_line ;;
      mret (r, Some (g + MSM_PREFIX_OFFSET))
  | None =>
      r <- msm_batch_on_group_non_zero_without_select_chip dec (map fst ps) (map snd ps) r_acc r_line ;;
      mret (r, None)
  end.

(** ecc_chip.rs:410-416 [msm] and 418-420 [ecc_mul]: [unwrap] of the above. *)
Definition unwrap_result {X Y} (r : uresult X * Y) : M (X * Y) :=
  match fst r with UOk x => mret (x, snd r) | UErr _ => mpanic end.
Definition msm {S} (dec : S -> M (list (list acond))) bisec_scalar zero_scalar gen r_acc r_line prefix
           points (scalars : list S) : M (apoint * option Z) :=
  r <- msm_unsafe dec bisec_scalar zero_scalar gen r_acc r_line prefix points scalars ;;
  unwrap_result r.
Definition ecc_mul {S} (dec : S -> M (list (list acond))) bisec_scalar zero_scalar gen r_acc r_line prefix
           (a : apoint) (s : S) : M (apoint * option Z) :=
  msm dec bisec_scalar zero_scalar gen r_acc r_line prefix [a] [s].

End Msm.

(** The two instances of [EccChipScalarOps]. *)
Section Inst.
Context {NM : NMod}.
(** native_scalar_ecc_chip.rs:180-193 *)
Definition msm_native (I : rinfo) (cv_b : Z) :=
  msm I cv_b (decompose_scalar_native 1) bisec (assign_constant 0).
(** general_scalar_ecc_chip.rs:156-168; [J] is the scalar chip's RangeInfo. *)
Definition msm_general (I J : rinfo) (cv_b : Z) :=
  msm I cv_b (decompose_scalar_general J 1) (bisec_int J) (assign_int_constant J 0).
(** ecc_chip.rs:418-420 for the same two instances. *)
Definition ecc_mul_native (I : rinfo) (cv_b : Z) :=
  ecc_mul I cv_b (decompose_scalar_native 1) bisec (assign_constant 0).
Definition ecc_mul_general (I J : rinfo) (cv_b : Z) :=
  ecc_mul I cv_b (decompose_scalar_general J 1) (bisec_int J) (assign_int_constant J 0).
End Inst.
