(** Specification: runs of a program whose record tables are written by other threads at the
    same time (C38). *)
From Verif Require Import Prelude FieldZ Circuit Context Spec EccChip Msm.

(** What happens to the shared tables: a store by this thread or by another one; a check by
    this thread that a fixed cell is empty. *)
Inductive event := EWrite (own : bool) (w : wr) | ECheck (x : cell).

(** The state of a thread is a [ctx]; its [c_mem] is the shared memory as it is at the moment. *)
Definition stored (w : wr) (c : ctx) : ctx := with_mem (w :: c_mem c) c.

(** [trun m c x c' es]: m, started when the thread's state is c, ends with result x
    in state c', and es is what happened to the shared tables meanwhile, in order.
    Single stores are the atomic steps; another thread may store anything between any two steps.
    Copy constraints, offsets and heights are the thread's own. *)
Inductive trun : forall {X}, M X -> ctx -> X -> ctx -> list event -> Prop :=
| t_ret {X} (x : X) c : trun (mret x) c x c []
| t_assert c : trun (massert true) c tt c []
| t_bind {X Y} (m : M X) (k : X -> M Y) c x c1 es1 y c2 es2 :
    trun m c x c1 es1 -> trun (k x) c1 y c2 es2 -> trun (mbind m k) c y c2 (es1 ++ es2)
| t_before {X} (m : M X) w c x c' es : trun m (stored w c) x c' es -> trun m c x c' (EWrite false w :: es)
| t_after {X} (m : M X) w c x c' es : trun m c x c' es -> trun m c x (stored w c') (es ++ [EWrite false w])
| t_write w c : trun (do_writes [w]) c tt (stored w c) [EWrite true w]
| t_writes0 c : trun (do_writes []) c tt c []
| t_writes w ws c c1 es1 c2 es2 : trun (do_writes [w]) c tt c1 es1 -> trun (do_writes ws) c1 tt c2 es2 ->
    trun (do_writes (w :: ws)) c tt c2 (es1 ++ es2)
| t_check x c : get_fix (c_mem c) x = None ->
    trun (c <- mget ;; massert (is_none (get_fix (c_mem c) x))) c tt c [ECheck x]
| t_offset {X} ch (k : nat -> M X) c x c' es : trun (k (off_of c ch)) c x c' es ->
    trun (c <- mget ;; k (off_of c ch)) c x c' es
(* thread-local steps *)
| t_perms ps c : trun (push_perms ps) c tt (mkCtx (c_mem c) (rev_append ps (c_perms c))
                         (base_off c) (range_off c) (select_off c) (base_h c) (range_h c) (select_h c)) []
| t_base_h off c : trun (bump_base_h off) c tt (mkCtx (c_mem c) (c_perms c)
                         (base_off c) (range_off c) (select_off c) (bump_h off (base_h c)) (range_h c) (select_h c)) []
| t_range_h off c : trun (bump_range_h off) c tt (mkCtx (c_mem c) (c_perms c)
                         (base_off c) (range_off c) (select_off c) (base_h c) (bump_h off (range_h c)) (select_h c)) []
| t_select_h off c : trun (bump_select_h off) c tt (mkCtx (c_mem c) (c_perms c)
                         (base_off c) (range_off c) (select_off c) (base_h c) (range_h c) (bump_h off (select_h c))) []
| t_base_off c : trun incr_base_off c tt (mkCtx (c_mem c) (c_perms c)
                         (S (base_off c)) (range_off c) (select_off c) (base_h c) (range_h c) (select_h c)) []
| t_range_off k c : trun (add_range_off k) c tt (mkCtx (c_mem c) (c_perms c)
                         (base_off c) (range_off c + k)%nat (select_off c) (base_h c) (range_h c) (select_h c)) []
| t_select_off c : trun incr_select_off c tt (mkCtx (c_mem c) (c_perms c)
                         (base_off c) (range_off c) (S (select_off c)) (base_h c) (range_h c) (select_h c)) [].

(** One sequence L of stores, each marked with the number of the thread that did it, as seen by
    thread i. *)
Definition view (i : nat) (L : list (nat * wr)) : list (bool * wr) :=
  map (fun jw => (Nat.eqb (fst jw) i, snd jw)) L.
Fixpoint stores (es : list event) : list (bool * wr) :=
  match es with
  | [] => []
  | EWrite b w :: es' => (b, w) :: stores es'
  | ECheck _ :: es' => stores es'
  end.

(** The windows [is] run on their clones (Msm.v, [run_clones]) at the same time: L is the sequence
    of all stores, xs are the threads' results with their final states. *)
Definition concurrent {X} (f : nat -> M (uresult X)) (c : ctx) (diff : offs) (is : list nat) (m0 : mem)
           (L : list (nat * wr)) (xs : list (X * ctx)) : Prop :=
  (forall jw, In jw L -> In (fst jw) is) /\
  Forall2 (fun i x => exists es,
      trun (f i) (clone_with_offset m0 (off_scale i diff) c) (UOk (fst x)) (snd x) es
      /\ stores es = view i L
      /\ off_sub (offset_of (snd x)) (offset_of (clone_with_offset m0 (off_scale i diff) c)) = diff) is xs.

(** Equal tables: the same value and mark in every cell. *)
Definition same_tables (m m' : mem) : Prop :=
  forall x, get_adv m x = get_adv m' x /\ get_fix m x = get_fix m' x /\ get_flag m x = get_flag m' x.
(** Equal but for the tables. *)
Definition same_thread (c c' : ctx) : Prop :=
  c_perms c = c_perms c' /\ base_off c = base_off c' /\ range_off c = range_off c' /\ select_off c = select_off c'
  /\ base_h c = base_h c' /\ range_h c = range_h c' /\ select_h c = select_h c'.
