(** PROPERTY C38: the windows of a multi-scalar multiplication run on clones that share the
    record tables (ecc_chip.rs:172-192, 309-336).

    SpecSched.v describes runs in which other threads store into the shared tables between any
    two steps: [trun] for one thread, [concurrent] for all windows together with the
    sequence L of all their stores.  Msm.v, [run_clones], is the same windows run one
    after the other. *)
From Verif Require Import Prelude FieldZ Circuit Context Spec BaseChip RangeInfo RangeChip IntegerChip EccChip ScalarChip Msm SpecRecorder SpecSched Moduli Fields Progs SchedMain.
(** C38. Gadgets f i run as windows [is] on clones of c, all at the same time, with any interleaving L of their
    single stores, and complete.  Then running them one after the other completes with the same results,
    copy constraints, offsets and heights, and the tables hold the same value and mark in every
    cell.  Hence all schedules that complete agree.
    (A schedule in which some window ends in an error makes the whole multiplication end in an error
    and nothing is claimed of the tables; the next theorem excludes this when the sequential run completes.) *)
Theorem C38_schedule_independent :
  forall (NM : NMod) X (f : nat -> M (uresult X)) c diff is m0 L xs, (forall i, gadget (f i)) -> NoDup is ->
    concurrent f c diff is m0 L xs ->
    exists xs' m', run_clones f c diff is m0 = Ok (UOk xs', m')
      /\ Forall2 (fun x x' => fst x = fst x' /\ same_thread (snd x) (snd x')) xs xs'
      /\ same_tables (rev_append (map snd L) m0) m'.
Proof. exact C38_schedule_independent_main. Qed.
Print Assumptions C38_schedule_independent.

(** C38, existence.  If the windows run one after the other complete, then so do they under every schedule: there are
    sequences of stores, one per window, which the sequential run does in order, and every
    interleaving L of them is a concurrent run, with the same results and tables. *)
Theorem C38_every_schedule_completes :
  forall (NM : NMod) X (f : nat -> M (uresult X)) c diff is m0 xs m', (forall i, gadget (f i)) -> NoDup is ->
    run_clones f c diff is m0 = Ok (UOk xs, m') ->
    exists o : nat -> list wr, m' = rev_append (concat (map o is)) m0
      /\ forall L, (forall jw, In jw L -> In (fst jw) is) ->
           (forall i, In i is -> map snd (filter (fun jw => Nat.eqb (fst jw) i) L) = o i) ->
           exists xs', concurrent f c diff is m0 L xs'
             /\ Forall2 (fun x' x => fst x' = fst x /\ same_thread (snd x') (snd x)) xs' xs
             /\ same_tables (rev_append (map snd L) m0) m'.
Proof. exact C38_every_schedule_completes_main. Qed.
Print Assumptions C38_every_schedule_completes.
(** The windows of the multi-scalar multiplication are gadgets; and a concrete case: two windows
    of one range-checked limb each complete, so every interleaving of their stores is covered. *)
Example C38_nonvacuous :
  (exists xs m', @run_clones av (fun i => x <- @assign_nonleading_limb bn256_fr (Z.of_nat i) ;; mret (UOk x))
     ctx_new (mkOff 0 3 0) (seq 1 2) [] = Ok (UOk xs, m') /\ map (fun x => a_val (fst x)) xs = [1; 2])
  /\ (forall i, @gadget bn256_fr _ (x <- @assign_nonleading_limb bn256_fr (Z.of_nat i) ;; mret (UOk x)))
  /\ forall (NM : NMod) I pick an cands groups i, (forall g cs bs, gadget (pick g cs bs)) -> gadget (window_body I pick an cands groups i).
Proof.
  split; [do 2 eexists; split; [vm_compute; reflexivity|reflexivity]|].
  split; [intros i; apply g_bind; [apply g_limb|intros; apply g_ret]|]. intros. apply pg_window. assumption.
Qed.

