(** Every gadget takes the same number of rows wherever it runs.  Generated from the signatures of the models. *)
From Verif Require Import Prelude FieldZ Circuit Context Spec Logic Prims BaseChip RangeInfo RangeChip IntegerChip EccChip ScalarChip Msm ParWindows SpecShape SpecCost.
Notation CR := cost_indep.
Notation CRU := cost_indep_u.
Lemma same_cost_refl c d : same_cost c c d d.
Proof. repeat split; apply Nat.add_comm. Qed.
Lemma same_cost_trans c d c1 d1 c' d' : same_cost c c1 d d1 -> same_cost c1 c' d1 d' -> same_cost c c' d d'.
Proof. intros (A1 & A2 & A3) (B1 & B2 & B3). repeat split; lia. Qed.

Lemma CR_ret {X Y} (R : X -> Y -> Prop) x y : R x y -> CR R (mret x) (mret y).
Proof. intros H c d a b c' d' E F. injection E as <- <-. injection F as <- <-. split; [exact H|apply same_cost_refl]. Qed.
Lemma CR_bind {X Y X' Y'} (R : X -> Y -> Prop) (S : X' -> Y' -> Prop) m n k l :
  CR R m n -> (forall x y, R x y -> CR S (k x) (l y)) -> CR S (mbind m k) (mbind n l).
Proof.
  intros Hm Hk c d a b c' d' E F. apply mbind_inv in E as (x & c1 & E1 & E2). apply mbind_inv in F as (y & d1 & F1 & F2).
  destruct (Hm _ _ _ _ _ _ E1 F1) as [Rx S1]. destruct (Hk x y Rx _ _ _ _ _ _ E2 F2) as [Ra S2]. split; [exact Ra|exact (same_cost_trans _ _ _ _ _ _ S1 S2)].
Qed.
Lemma CR_wk {X Y} (R S : X -> Y -> Prop) m n : CR R m n -> (forall x y, R x y -> S x y) -> CR S m n.
Proof. intros H I c d a b c' d' E F. destruct (H _ _ _ _ _ _ E F). auto. Qed.
Lemma CR_panic_l {X Y} (R : X -> Y -> Prop) n : CR R mpanic n. Proof. intros c d a b c' d' E. discriminate. Qed.
Lemma CR_panic_r {X Y} (R : X -> Y -> Prop) m : CR R m mpanic. Proof. intros c d a b c' d' E F. discriminate. Qed.
Lemma CR_assert b b' : CR (fun _ _ => True) (massert b) (massert b').
Proof. intros c d x y c' d' E F. apply massert_inv in E as [_ ->]. apply massert_inv in F as [_ ->]. split; [exact I|apply same_cost_refl]. Qed.
Lemma CR_opt_eq {X} (o : option X) : CR eq (mopt o) (mopt o).
Proof. destruct o; [apply CR_ret; reflexivity|apply CR_panic_l]. Qed.
Lemma CR_opt_any {X Y} (o : option X) (o' : option Y) : CR any (mopt o) (mopt o').
Proof. destruct o; [|apply CR_panic_l]. destruct o'; [|apply CR_panic_r]. apply CR_ret. exact I. Qed.
Lemma F2_nth {X Y} (R : X -> Y -> Prop) l l' : Forall2 R l l' -> forall i x y, nth_error l i = Some x -> nth_error l' i = Some y -> R x y.
Proof. induction 1; intros [|i] a b; cbn; try discriminate; [congruence|apply IHForall2]. Qed.
Lemma CR_nth {X Y} (R : X -> Y -> Prop) l l' i : Forall2 R l l' -> CR R (mnth l i) (mnth l' i).
Proof.
  intros H c d a b c' d' E F. apply mopt_inv in E as [E ->]. apply mopt_inv in F as [F ->]. split; [|apply same_cost_refl]. eapply F2_nth; eauto.
Qed.
Lemma CR_nth_eq {X} (l : list X) i : CR eq (mnth l i) (mnth l i). Proof. apply CR_opt_eq. Qed.
Lemma CR_nth_any {X Y} (l : list X) (l' : list Y) i j : CR any (mnth l i) (mnth l' j). Proof. apply CR_opt_any. Qed.
Lemma CR_mapM {X Y X' Y'} (Q : X -> Y -> Prop) (R : X' -> Y' -> Prop) f g l l' : Forall2 Q l l' ->
  (forall x y, Q x y -> CR R (f x) (g y)) -> CR (Forall2 R) (mapM f l) (mapM g l').
Proof.
  intros H Hf. induction H; cbn [mapM]; [apply CR_ret; constructor|]. eapply CR_bind; [apply Hf; eassumption|intros]. eapply CR_bind; [eassumption|intros].
  apply CR_ret. constructor; auto.
Qed.
Lemma CR_mapM_eq {X X' Y'} (R : X' -> Y' -> Prop) (f : X -> M X') (g : X -> M Y') l :
  (forall x, CR R (f x) (g x)) -> CR (Forall2 R) (mapM f l) (mapM g l).
Proof. intros H. apply (CR_mapM eq); [induction l; constructor; auto|]. intros x y <-. apply H. Qed.
Lemma CR_foldM {X Y X' Y'} (Q : X -> Y -> Prop) (R : X' -> Y' -> Prop) f g l l' : Forall2 Q l l' ->
  (forall s t x y, R s t -> Q x y -> CR R (f s x) (g t y)) -> forall s t, R s t -> CR R (foldM f s l) (foldM g t l').
Proof.
  intros H Hf. induction H; intros s t Hs; cbn [foldM]; [apply CR_ret; exact Hs|]. eapply CR_bind; [apply Hf; eassumption|]. intros. auto.
Qed.
Lemma CR_foldM_eq {X X' Y'} (R : X' -> Y' -> Prop) f g (l : list X) s t : R s t ->
  (forall s t x, R s t -> CR R (f s x) (g t x)) -> CR R (foldM f s l) (foldM g t l).
Proof. intros Hs H. apply (CR_foldM eq); [induction l; constructor; auto| |exact Hs]. intros a b x y Hab <-. apply H, Hab. Qed.
Lemma CR_if {X Y} (R : X -> Y -> Prop) (b b' : bool) m n p q : b = b' -> CR R m n -> CR R p q -> CR R (if b then m else p) (if b' then n else q).
Proof. intros <- H1 H2. destruct b; assumption. Qed.
Lemma CRU_ret {X Y} (R : X -> Y -> Prop) x y : R x y -> CRU R (mret (UOk x)) (mret (UOk y)).
Proof. intros H c d a b c' d' E F. injection E as <- <-. injection F as <- <-. split; [exact H|apply same_cost_refl]. Qed.
Lemma CRU_bind {X Y X' Y'} (R : X -> Y -> Prop) (S : X' -> Y' -> Prop) (m : M X) (n : M Y) k l :
  CR R m n -> (forall x y, R x y -> CRU S (k x) (l y)) -> CRU S (mbind m k) (mbind n l).
Proof.
  intros Hm Hk c d a b c' d' E F. apply mbind_inv in E as (x & c1 & E1 & E2). apply mbind_inv in F as (y & d1 & F1 & F2).
  destruct (Hm _ _ _ _ _ _ E1 F1) as [Rx S1]. destruct (Hk x y Rx _ _ _ _ _ _ E2 F2) as [Ra S2]. split; [exact Ra|exact (same_cost_trans _ _ _ _ _ _ S1 S2)].
Qed.
Lemma CRU_ubind {X Y X' Y'} (R : X -> Y -> Prop) (S : X' -> Y' -> Prop) m n k l :
  CRU R m n -> (forall x y, R x y -> CRU S (k x) (l y)) -> CRU S (ubind m k) (ubind n l).
Proof.
  intros Hm Hk c d a b c' d' E F. apply ubind_inv in E as (x & c1 & E1 & E2). apply ubind_inv in F as (y & d1 & F1 & F2).
  destruct (Hm _ _ _ _ _ _ E1 F1) as [Rx S1]. destruct (Hk x y Rx _ _ _ _ _ _ E2 F2) as [Ra S2]. split; [exact Ra|exact (same_cost_trans _ _ _ _ _ _ S1 S2)].
Qed.
Lemma CRU_ufoldM {X Y X' Y'} (Q : X -> Y -> Prop) (R : X' -> Y' -> Prop) f g l l' : Forall2 Q l l' ->
  (forall s t x y, R s t -> Q x y -> CRU R (f s x) (g t y)) -> forall s t, R s t -> CRU R (ufoldM f s l) (ufoldM g t l').
Proof.
  intros H Hf. induction H; intros s t Hs; cbn [ufoldM]; [apply CRU_ret; exact Hs|]. eapply CRU_ubind; [apply Hf; eassumption|]. intros. auto.
Qed.
Lemma CRU_ufoldM_eq {X X' Y'} (R : X' -> Y' -> Prop) f g (l : list X) s t : R s t ->
  (forall s t x, R s t -> CRU R (f s x) (g t x)) -> CRU R (ufoldM f s l) (ufoldM g t l).
Proof. intros Hs H. apply (CRU_ufoldM eq); [induction l; constructor; auto| |exact Hs]. intros a b x y Hab <-. apply H, Hab. Qed.
Lemma CRU_if_ok {X Y} (R : X -> Y -> Prop) x y (b b' : bool) e e' : R x y -> CRU R (mret (if b then UOk x else UErr e)) (mret (if b' then UOk y else UErr e')).
Proof. intros H c d a a' c' d' E F. unfold mret in *; destruct b, b'; inversion E; inversion F; subst; split; auto using same_cost_refl. Qed.

Lemma F2_mapi {X Y X' Y'} (R : X -> Y -> Prop) (S : X' -> Y' -> Prop) f g l l' : Forall2 R l l' -> (forall i x y, R x y -> S (f i x) (g i y)) ->
  forall k, Forall2 S (mapi_from k f l) (mapi_from k g l').
Proof. intros H Hf. induction H; intros k; cbn [mapi_from]; constructor; auto. Qed.
Notation spair := (both tsch (@eq Z)).
Lemma CR_get : CR any mget mget.
Proof. intros c d x y c' d' E F. injection E as <- <-. injection F as <- <-. split; [exact I|apply same_cost_refl]. Qed.
Lemma CR_free m n : (forall c x c', m c = Ok (x, c') -> base_off c' = base_off c /\ range_off c' = range_off c /\ select_off c' = select_off c) ->
  (forall c x c', n c = Ok (x, c') -> base_off c' = base_off c /\ range_off c' = range_off c /\ select_off c' = select_off c) -> CR (@any unit unit) m n.
Proof.
  intros Hm Hn c d x y c' d' E F. split; [exact I|]. destruct (Hm _ _ _ E) as (A1 & A2 & A3). destruct (Hn _ _ _ F) as (B1 & B2 & B3).
  repeat split; rewrite ?A1, ?A2, ?A3, ?B1, ?B2, ?B3; apply Nat.add_comm.
Qed.
Definition frees (m : M unit) : Prop := forall c x c', m c = Ok (x, c') -> base_off c' = base_off c /\ range_off c' = range_off c /\ select_off c' = select_off c.
Lemma fr_writes ws : frees (do_writes ws).
Proof. intros c x c' E. injection E as <- <-. auto. Qed.
Lemma fr_perms ps : frees (push_perms ps). Proof. intros c x c' E. injection E as <- <-. auto. Qed.
Lemma fr_base_h o : frees (bump_base_h o). Proof. intros c x c' E. injection E as <- <-. auto. Qed.
Lemma fr_range_h o : frees (bump_range_h o). Proof. intros c x c' E. injection E as <- <-. auto. Qed.
Lemma fr_select_h o : frees (bump_select_h o). Proof. intros c x c' E. injection E as <- <-. auto. Qed.
Lemma fr_assert b : frees (massert b). Proof. intros c x c' E. apply massert_inv in E as [_ ->]. auto. Qed.
Lemma fr_bind m k : frees m -> (forall x, frees (k x)) -> frees (mbind m k).
Proof.
  intros H K c x c' E. apply mbind_inv in E as (u & c1 & E1 & E2). destruct (H _ _ _ E1) as (? & ? & ?). destruct (K _ _ _ _ E2) as (? & ? & ?).
  repeat split; congruence.
Qed.
Lemma fr_check x : frees (c <- mget ;; massert (is_none (get_fix (c_mem c) x))).
Proof. intros c u c' E. apply mbind_inv in E as (c0 & c1 & E1 & E2). injection E1 as <- <-. exact (fr_assert _ _ _ _ E2). Qed.
Lemma fr_rec_one_line off l constant muls next : frees (rec_one_line off l constant muls next).
Proof.
  unfold rec_one_line. repeat (apply fr_bind; [first [apply fr_assert|apply fr_base_h|apply fr_perms|apply fr_writes|destruct next; [apply fr_writes|apply fr_check]]|intros _]).
  destruct constant; [apply fr_writes|apply fr_check].
Qed.
Lemma CR_base_off : CR any incr_base_off incr_base_off.
Proof. intros c d x y c' d' F G. injection F as <- <-. injection G as <- <-. split; [exact I|]. repeat split; cbn; lia. Qed.
Lemma CR_range_off k : CR any (add_range_off k) (add_range_off k).
Proof. intros c d x y c' d' F G. injection F as <- <-. injection G as <- <-. split; [exact I|]. repeat split; cbn; lia. Qed.
Lemma CR_select_off : CR any incr_select_off incr_select_off.
Proof. intros c d x y c' d' F G. injection F as <- <-. injection G as <- <-. split; [exact I|]. repeat split; cbn; lia. Qed.
Ltac sk := eapply CR_bind; [|intros ? ? _].
Lemma cells_same off off' l l' : Forall2 spair l l' ->
  Forall2 tav (mapi (fun i p => mkAv (bcell i off) (schema_val (fst p))) l) (mapi (fun i (p : pair_t) => mkAv (bcell i off') (schema_val (fst p))) l').
Proof. intros H. apply (F2_mapi _ _ _ _ _ _ H). intros; exact I. Qed.
Lemma CR_one_line l l' constant muls next : Forall2 spair l l' -> CR (Forall2 tav) (one_line l constant muls next) (one_line l' constant muls next).
Proof.
  intros H. unfold one_line. sk; [apply CR_get|]. cbv zeta.
  sk; [apply CR_free; apply fr_rec_one_line|]. sk; [apply CR_base_off|]. apply CR_ret, cells_same, H.
Qed.
Lemma CR_one_line_with_last l l' t t' constant muls next : Forall2 spair l l' -> spair t t' ->
  CR (both (Forall2 tav) tav) (one_line_with_last l t constant muls next) (one_line_with_last l' t' constant muls next).
Proof.
  intros H Ht. unfold one_line_with_last. sk; [apply CR_get|]. cbv zeta.
  sk; [|sk; [apply CR_base_off|]; apply CR_ret; split; [apply cells_same, H|exact I]].
  apply CR_free; unfold rec_one_line_with_last; repeat (apply fr_bind; [first [apply fr_assert|apply fr_rec_one_line|apply fr_perms]|intros _]); apply fr_writes.
Qed.
Section R.
Context {NM : NMod}.
Lemma CR_one off off' v v' a a' b : CR tav (assign_one_line_range_value off v a b) (assign_one_line_range_value off' v' a' b).
Proof.
  unfold assign_one_line_range_value. sk; [apply CR_assert|]. sk; [apply CR_free; apply fr_range_h|]. sk; [apply CR_nth_any|].
  sk; [apply CR_free; apply fr_writes|]. apply CR_ret. exact I.
Qed.
Lemma CR_two off off' v v' a a' b : CR tav (assign_two_line_range_value off v a b) (assign_two_line_range_value off' v' a' b).
Proof.
  unfold assign_two_line_range_value. do 2 (sk; [apply CR_assert|]). sk; [apply CR_free; apply fr_range_h|]. do 4 (sk; [apply CR_nth_any|]).
  sk; [apply CR_free; apply fr_writes|]. apply CR_ret. exact I.
Qed.
Lemma CR_three off off' v v' a a' b : CR tav (assign_three_line_range_value off v a b) (assign_three_line_range_value off' v' a' b).
Proof.
  unfold assign_three_line_range_value. do 2 (sk; [apply CR_assert|]). sk; [apply CR_free; apply fr_range_h|]. do 6 (sk; [apply CR_nth_any|]).
  sk; [apply CR_free; apply fr_writes|]. apply CR_ret. exact I.
Qed.
Lemma co_assign_common bn bn' : CR tav (assign_common bn) (assign_common bn').
Proof.
  unfold assign_common. sk; [apply CR_get|].
  eapply CR_bind; [apply CR_one|intros]. sk; [apply CR_range_off|]. apply CR_ret. assumption.
Qed.
Lemma co_assign_limb bn bn' k b : CR tav (assign_limb bn k b) (assign_limb bn' k b).
Proof.
  unfold assign_limb. sk; [apply CR_get|].
  eapply (CR_bind (both tav eq)); [|intros x1 y1 [A B]; rewrite B; sk; [apply CR_range_off|]; apply CR_ret; exact A].
  unfold assign_range_value.
  destruct (b <=? _); [eapply CR_bind; [apply CR_one|intros; apply CR_ret; split; [assumption|reflexivity]]|].
  destruct (b <? _); [apply CR_panic_l|].
  destruct (b <=? _); [eapply CR_bind; [apply CR_two|intros; apply CR_ret; split; [assumption|reflexivity]]|].
  destruct (b <=? _); [eapply CR_bind; [apply CR_three|intros; apply CR_ret; split; [assumption|reflexivity]]|apply CR_panic_l].
Qed.
Lemma co_assign_cache_value v v' off g s off' g' s' : CR any (assign_cache_value v off g s) (assign_cache_value v' off' g' s').
Proof.
  unfold assign_cache_value. sk; [apply CR_get|]. sk; [|apply CR_select_off].
  apply CR_free; unfold rec_assign_cache_value; repeat (apply fr_bind; [first [apply fr_select_h|apply fr_perms]|intros _]); apply fr_writes.
Qed.
Lemma co_assign_selected_value v v' off g s off' g' s' : CR tav (assign_selected_value v off g s) (assign_selected_value v' off' g' s').
Proof.
  unfold assign_selected_value, rec_assign_select_value. sk; [apply CR_get|].
  eapply CR_bind; [|intros; sk; [apply CR_select_off|]; apply CR_ret; eassumption]. sk; [apply CR_free; apply fr_select_h|]. sk; [apply CR_free; apply fr_perms|].
  sk; [apply CR_free; apply fr_writes|]. apply CR_ret. exact I.
Qed.
End R.

Notation smterm := (both (both (both tav tav) tav) (@eq Z)).
(** Solve relations between handles. *)
Ltac dst := unfold acond in *;
  repeat (match goal with
  | H : both _ _ _ _ |- _ => destruct H as [? ?]
  | H : taint ?a ?b |- _ => match goal with _ : i_times a = i_times b |- _ => fail 1 | _ => pose proof (ta_limbs _ _ H); pose proof (ta_native _ _ H); pose proof (ta_times _ _ H) end
  | H : tcurv ?a ?b |- _ => destruct H as [? ?]
  | H : tpt ?a ?b |- _ => destruct H as [? ? ?]
  | H : tnz ?a ?b |- _ => destruct H as [? ?]
  | H : tptc ?a ?b |- _ => destruct H as [? ? ? ?]
  | H : any _ _ |- _ => clear H
  | H : @eq Z ?x ?y |- _ => is_var y; subst y
  | H : @eq nat ?x ?y |- _ => is_var y; subst y
  | H : @eq (option _) ?x ?y |- _ => is_var y; subst y
  | H : @eq (list Z) ?x ?y |- _ => is_var y; subst y
  end; cbn [fst snd] in *); cbn [fst snd] in *.
Lemma F2_len {X Y} (R : X -> Y -> Prop) l l' : Forall2 R l l' -> length l = length l'.
Proof. induction 1; cbn; congruence. Qed.
Lemma F2_combine {X Y Z'} (R : X -> Y -> Prop) l l' (k : list Z') : Forall2 R l l' -> Forall2 (both R eq) (combine l k) (combine l' k).
Proof. intros H. revert k. induction H; intros [|z k]; cbn [combine]; constructor; auto. split; auto. Qed.
Lemma F2_map {X Y X' Y'} (R : X -> Y -> Prop) (S : X' -> Y' -> Prop) f g l l' : Forall2 R l l' -> (forall x y, R x y -> S (f x) (g y)) ->
  Forall2 S (map f l) (map g l').
Proof. intros H Hf. induction H; cbn [map]; constructor; auto. Qed.
Lemma F2_firstn {X Y} (R : X -> Y -> Prop) l l' k : Forall2 R l l' -> Forall2 R (firstn k l) (firstn k l').
Proof. intros H. revert k. induction H; intros [|k]; cbn [firstn]; constructor; auto. Qed.
Lemma F2_skipn {X Y} (R : X -> Y -> Prop) l l' k : Forall2 R l l' -> Forall2 R (skipn k l) (skipn k l').
Proof. intros H. revert k. induction H; intros [|k]; cbn [skipn]; try constructor; auto. Qed.
Lemma F2_app {X Y} (R : X -> Y -> Prop) a b c d : Forall2 R a b -> Forall2 R c d -> Forall2 R (a ++ c) (b ++ d).
Proof. intros H. induction H; cbn [app]; [auto|constructor; auto]. Qed.
Lemma F2_rev {X Y} (R : X -> Y -> Prop) a b : Forall2 R a b -> Forall2 R (rev a) (rev b).
Proof. intros H. induction H; cbn [rev]; [constructor|]. apply F2_app; [assumption|repeat constructor; assumption]. Qed.
Lemma F2_repeat {X Y} (R : X -> Y -> Prop) a b k : R a b -> Forall2 R (repeat a k) (repeat b k).
Proof. intros H. induction k; cbn; constructor; auto. Qed.
Lemma F2_concat {X Y} (R : X -> Y -> Prop) l l' : Forall2 (Forall2 R) l l' -> Forall2 R (concat l) (concat l').
Proof. intros H. induction H; cbn [concat]; [constructor|]. apply F2_app; assumption. Qed.
Lemma F2_chunks {X Y} (R : X -> Y -> Prop) k l l' : Forall2 R l l' -> Forall2 (Forall2 R) (chunks k l) (chunks k l').
Proof.
  intros H. unfold chunks. rewrite (F2_len _ _ _ H). generalize (length l'); intros f0.
  revert l l' H. induction f0 as [|f IH]; intros l l' H; cbn [chunks_fuel]; [constructor|].
  inversion H as [|x y l1 l2 Hx Hl]; subst; [constructor|].
  assert (F : forall n l l', Forall2 R l l' -> Forall2 R (firstn n l) (firstn n l') /\ Forall2 R (skipn n l) (skipn n l')).
  { clear. induction n as [|n IH]; intros l l' H; [cbn; split; auto|]. inversion H; subst; cbn [firstn skipn]; [auto|].
    destruct (IH _ _ H1). split; [constructor|]; auto. }
  destruct (F k _ _ H) as [F1 F2]. constructor; auto.
Qed.
Ltac rel1 := first [eassumption | reflexivity | exact Logic.I | congruence].
Ltac rel :=
  dst; cbn [i_limbs i_native i_times k_v k_z p_x p_y p_z nz_x nz_y pc_x pc_y pc_z pc_c fst snd to_point pa pu];
  first [ solve [rel1]
  | match goal with
    | |- Forall2 _ (map _ _) (map _ _) => eapply F2_map; [|intros ? ? ?]; rel
    | |- Forall2 _ (combine _ _) (combine _ _) => eapply F2_combine; rel
    | |- Forall2 _ (firstn _ _) (firstn _ _) => eapply F2_firstn; rel
    | |- Forall2 _ (skipn _ _) (skipn _ _) => eapply F2_skipn; rel
    | |- Forall2 _ (chunks _ _) (chunks _ _) => eapply F2_chunks; rel
    | |- Forall2 _ (rev _) (rev _) => eapply F2_rev; rel
    | |- Forall2 _ (_ ++ _) (_ ++ _) => eapply F2_app; rel
    | |- Forall2 _ (repeat _ _) (repeat _ _) => eapply F2_repeat; rel
    | |- Forall2 _ (concat _) (concat _) => eapply F2_concat; rel
    | |- Forall2 _ (mapi _ _) (mapi _ _) => eapply F2_mapi; [|intros ? ? ? ?]; rel
    | |- Forall2 _ _ _ => constructor; rel
    | |- taint _ _ => constructor; rel
    | |- tcurv _ _ => constructor; rel
    | |- tpt _ _ => constructor; rel
    | |- tnz _ _ => constructor; rel
    | |- tptc _ _ => constructor; rel
    | |- both _ _ _ _ => split; rel
    | |- any _ _ => exact Logic.I
    | |- tsch _ _ => exact Logic.I
    | |- tav _ _ => exact Logic.I
    | |- topt _ _ => unfold topt in *; first [exact Logic.I | assumption]
    end ].
Create HintDb codb discriminated.
Global Hint Constants Opaque : codb.
Global Hint Transparent acond : codb.
Ltac co_known := match goal with |- CR _ _ _ => idtac | |- CRU _ _ _ => idtac end; solve [eauto 1 with codb nocore].
Ltac sra1 :=
  match goal with
  | |- CR _ (mbind _ _) (mbind _ _) => eapply CR_bind; [|intros ? ? ?; dst]
  | |- CRU _ (mbind _ _) (mbind _ _) => eapply CRU_bind; [|intros ? ? ?; dst]
  | |- CRU _ (ubind _ _) (ubind _ _) => eapply CRU_ubind; [|intros ? ? ?; dst]
  | |- CR _ (massert _) (massert _) => apply CR_assert
  | |- CR _ mpanic _ => apply CR_panic_l
  | |- CR _ _ mpanic => apply CR_panic_r
  | |- CR _ (mnth ?l ?i) (mnth ?l ?i) => apply CR_nth_eq
  | |- CR _ (mnth _ ?i) (mnth _ ?i) => apply CR_nth; rel
  | |- CR _ (mopt ?o) (mopt ?o) => apply CR_opt_eq
  | |- CR _ (mnth _ _) (mnth _ _) => apply CR_nth_any
  | |- CR _ (mopt _) (mopt _) => apply CR_opt_any
  | |- CR _ (one_line _ _ _ _) (one_line _ _ _ _) => apply CR_one_line; rel
  | |- CR _ (one_line_with_last _ _ _ _ _) (one_line_with_last _ _ _ _ _) => apply CR_one_line_with_last; rel
  | |- CR _ (mapM _ ?l) (mapM _ ?l) => eapply CR_mapM_eq; intros ?
  | |- CR _ (mapM _ _) (mapM _ _) => eapply CR_mapM; [solve [rel]|intros ? ? ?; dst]
  | |- CR _ (mret _) (mret _) => apply CR_ret; solve [rel]
  | |- CRU _ (mret (UOk _)) (mret (UOk _)) => apply CRU_ret; solve [rel]
  | |- CRU _ (mret (if _ then _ else _)) (mret (if _ then _ else _)) => apply CRU_if_ok; solve [rel]
  | |- CR _ (if _ then _ else _) (if _ then _ else _) => apply CR_if; [solve [congruence]| |]
  end.
Ltac tms := repeat match goal with H : i_times ?a = i_times ?b |- context[i_times ?b] => tryif constr_eq a b then fail else rewrite <- H
  | H : @eq Z (snd ?a) (snd ?b) |- context[snd ?b] => tryif constr_eq a b then fail else rewrite <- H end.
Ltac sra := repeat (dst; tms; cbv beta zeta; first [sra1 | co_known ]).

Ltac fld R := match goal with
  | |- CR _ (foldM _ _ ?l) (foldM _ _ ?l) => eapply (CR_foldM_eq R); [solve [rel]|intros ? ? ? ?; dst]
  | |- CR _ (foldM _ _ _) (foldM _ _ _) => eapply (CR_foldM _ R); [solve [rel]|intros ? ? ? ? ? ?; dst|solve [rel]]
  end.
Global Hint Extern 0 (CR _ (assign_common _) (assign_common _)) => (eapply co_assign_common; rel) : codb.
Global Hint Extern 0 (CR _ (assign_limb _ _ _) (assign_limb _ _ _)) => (eapply co_assign_limb; rel) : codb.
Global Hint Extern 0 (CR _ (assign_cache_value _ _ _ _) (assign_cache_value _ _ _ _)) => (eapply co_assign_cache_value; rel) : codb.
Global Hint Extern 0 (CR _ (assign_selected_value _ _ _ _) (assign_selected_value _ _ _ _)) => (eapply co_assign_selected_value; rel) : codb.
Lemma co_one_line_add {NM : NMod} pairs pairs' constant : (Forall2 spair) pairs pairs' -> CR (Forall2 tav) (one_line_add pairs constant) (one_line_add pairs' constant).
Proof. intros; dst; unfold one_line_add; sra. Qed.
Global Hint Extern 0 (CR _ (one_line_add _ _) (one_line_add _ _)) => (eapply co_one_line_add; rel) : codb.
Lemma co_sum_with_constant_in_one_line {NM : NMod} elems elems' constant : (Forall2 (both tav (@eq Z))) elems elems' -> CR tav (sum_with_constant_in_one_line elems constant) (sum_with_constant_in_one_line elems' constant).
Proof. intros; dst; unfold sum_with_constant_in_one_line; sra. Qed.
Global Hint Extern 0 (CR _ (sum_with_constant_in_one_line _ _) (sum_with_constant_in_one_line _ _)) => (eapply co_sum_with_constant_in_one_line; rel) : codb.
Lemma co_sum_with_constant {NM : NMod} elems elems' constant : (Forall2 (both tav (@eq Z))) elems elems' -> CR tav (sum_with_constant elems constant) (sum_with_constant elems' constant).
Proof. intros; dst; unfold sum_with_constant; pose proof (F2_len _ _ _ H) as HL; sra; try fld tav; sra. Qed.
Global Hint Extern 0 (CR _ (sum_with_constant _ _) (sum_with_constant _ _)) => (eapply co_sum_with_constant; rel) : codb.
Lemma co_add {NM : NMod} a a' b b' : tav a a' -> tav b b' -> CR tav (add a b) (add a' b').
Proof. intros; dst; unfold add; sra. Qed.
Global Hint Extern 0 (CR _ (add _ _) (add _ _)) => (eapply co_add; rel) : codb.
Lemma co_add_constant {NM : NMod} a a' c : tav a a' -> CR tav (add_constant a c) (add_constant a' c).
Proof. intros; dst; unfold add_constant; sra. Qed.
Global Hint Extern 0 (CR _ (add_constant _ _) (add_constant _ _)) => (eapply co_add_constant; rel) : codb.
Lemma co_sub {NM : NMod} a a' b b' : tav a a' -> tav b b' -> CR tav (sub a b) (sub a' b').
Proof. intros; dst; unfold sub; sra. Qed.
Global Hint Extern 0 (CR _ (sub _ _) (sub _ _)) => (eapply co_sub; rel) : codb.
Lemma co_mul {NM : NMod} a a' b b' : tav a a' -> tav b b' -> CR tav (mul a b) (mul a' b').
Proof. intros; dst; unfold mul; sra. Qed.
Global Hint Extern 0 (CR _ (mul _ _) (mul _ _)) => (eapply co_mul; rel) : codb.
Lemma co_mul_add_constant {NM : NMod} a a' b b' c : tav a a' -> tav b b' -> CR tav (mul_add_constant a b c) (mul_add_constant a' b' c).
Proof. intros; dst; unfold mul_add_constant; sra. Qed.
Global Hint Extern 0 (CR _ (mul_add_constant _ _ _) (mul_add_constant _ _ _)) => (eapply co_mul_add_constant; rel) : codb.
Lemma co_mul_add {NM : NMod} a a' b b' ab_coeff c c' c_coeff : tav a a' -> tav b b' -> tav c c' -> CR tav (mul_add a b ab_coeff c c_coeff) (mul_add a' b' ab_coeff c' c_coeff).
Proof. intros; dst; unfold mul_add; sra. Qed.
Global Hint Extern 0 (CR _ (mul_add _ _ _ _ _) (mul_add _ _ _ _ _)) => (eapply co_mul_add; rel) : codb.
Lemma co_mul_add_lines {NM : NMod} first t t' ls ls' : (Forall2 smterm) ls ls' -> CR any (mul_add_lines first t ls) (mul_add_lines first t' ls').
Proof. intros H. revert first t t'. induction H as [|[[[a b] c] z] [[[a' b'] c'] z'] ls ls' H]; intros; cbn [mul_add_lines]; dst; sra; try apply IHForall2. Qed.
Global Hint Extern 0 (CR _ (mul_add_lines _ _ _) (mul_add_lines _ _ _)) => (eapply co_mul_add_lines; rel) : codb.
Lemma co_mul_add_with_next_line {NM : NMod} ls ls' : (Forall2 smterm) ls ls' -> CR tav (mul_add_with_next_line ls) (mul_add_with_next_line ls').
Proof. intros H. unfold mul_add_with_next_line. destruct H as [|[[[a b] c] z] [[[a' b'] c'] z'] ls ls' H H0]; [apply CR_panic_l|]; dst. destruct H0; [sra|]. eapply CR_bind; [apply co_mul_add_lines; repeat (constructor; auto)|intros; sra]. Qed.
Global Hint Extern 0 (CR _ (mul_add_with_next_line _) (mul_add_with_next_line _)) => (eapply co_mul_add_with_next_line; rel) : codb.
Lemma co_invert_unsafe {NM : NMod} a a' : tav a a' -> CR tav (invert_unsafe a) (invert_unsafe a').
Proof. intros; dst; unfold invert_unsafe; sra. Qed.
Global Hint Extern 0 (CR _ (invert_unsafe _) (invert_unsafe _)) => (eapply co_invert_unsafe; rel) : codb.
Lemma co_invert {NM : NMod} a a' : tav a a' -> CR (both tav tav) (invert a) (invert a').
Proof. intros; dst; unfold invert; sra. Qed.
Global Hint Extern 0 (CR _ (invert _) (invert _)) => (eapply co_invert; rel) : codb.
Lemma co_is_zero {NM : NMod} a a' : tav a a' -> CR tav (is_zero a) (is_zero a').
Proof. intros; dst; unfold is_zero; sra. Qed.
Global Hint Extern 0 (CR _ (is_zero _) (is_zero _)) => (eapply co_is_zero; rel) : codb.
Lemma co_div_unsafe {NM : NMod} a a' b b' : tav a a' -> tav b b' -> CR tav (div_unsafe a b) (div_unsafe a' b').
Proof. intros; dst; unfold div_unsafe; sra. Qed.
Global Hint Extern 0 (CR _ (div_unsafe _ _) (div_unsafe _ _)) => (eapply co_div_unsafe; rel) : codb.
Lemma co_assign_constant {NM : NMod} v : CR tav (assign_constant v) (assign_constant v).
Proof. intros; dst; unfold assign_constant; sra. Qed.
Global Hint Extern 0 (CR _ (assign_constant _) (assign_constant _)) => (eapply co_assign_constant; rel) : codb.
Lemma co_assign {NM : NMod} v v' : CR tav (assign v) (assign v').
Proof. intros; dst; unfold assign; sra. Qed.
Global Hint Extern 0 (CR _ (assign _) (assign _)) => (eapply co_assign; rel) : codb.
Lemma co_assign_bit {NM : NMod} a a' : CR tav (assign_bit a) (assign_bit a').
Proof. intros; dst; unfold assign_bit; sra. Qed.
Global Hint Extern 0 (CR _ (assign_bit _) (assign_bit _)) => (eapply co_assign_bit; rel) : codb.
Lemma co_assert_equal {NM : NMod} a a' b b' : tav a a' -> tav b b' -> CR any (assert_equal a b) (assert_equal a' b').
Proof. intros; dst; unfold assert_equal; sra. Qed.
Global Hint Extern 0 (CR _ (assert_equal _ _) (assert_equal _ _)) => (eapply co_assert_equal; rel) : codb.
Lemma co_assert_constant {NM : NMod} a a' b : tav a a' -> CR any (assert_constant a b) (assert_constant a' b).
Proof. intros; dst; unfold assert_constant; sra. Qed.
Global Hint Extern 0 (CR _ (assert_constant _ _) (assert_constant _ _)) => (eapply co_assert_constant; rel) : codb.
Lemma co_assert_bit {NM : NMod} a a' : tav a a' -> CR any (assert_bit a) (assert_bit a').
Proof. intros; dst; unfold assert_bit; sra. Qed.
Global Hint Extern 0 (CR _ (assert_bit _) (assert_bit _)) => (eapply co_assert_bit; rel) : codb.
Lemma co_and_ {NM : NMod} a a' b b' : tav a a' -> tav b b' -> CR tav (and_ a b) (and_ a' b').
Proof. intros; dst; unfold and_; sra. Qed.
Global Hint Extern 0 (CR _ (and_ _ _) (and_ _ _)) => (eapply co_and_; rel) : codb.
Lemma co_not_ {NM : NMod} a a' : tav a a' -> CR tav (not_ a) (not_ a').
Proof. intros; dst; unfold not_; sra. Qed.
Global Hint Extern 0 (CR _ (not_ _) (not_ _)) => (eapply co_not_; rel) : codb.
Lemma co_not_and {NM : NMod} a a' b b' : tav a a' -> tav b b' -> CR tav (not_and a b) (not_and a' b').
Proof. intros; dst; unfold not_and; sra. Qed.
Global Hint Extern 0 (CR _ (not_and _ _) (not_and _ _)) => (eapply co_not_and; rel) : codb.
Lemma co_or_ {NM : NMod} a a' b b' : tav a a' -> tav b b' -> CR tav (or_ a b) (or_ a' b').
Proof. intros; dst; unfold or_; sra. Qed.
Global Hint Extern 0 (CR _ (or_ _ _) (or_ _ _)) => (eapply co_or_; rel) : codb.
Lemma co_xor_ {NM : NMod} a a' b b' : tav a a' -> tav b b' -> CR tav (xor_ a b) (xor_ a' b').
Proof. intros; dst; unfold xor_; sra. Qed.
Global Hint Extern 0 (CR _ (xor_ _ _) (xor_ _ _)) => (eapply co_xor_; rel) : codb.
Lemma co_xnor_ {NM : NMod} a a' b b' : tav a a' -> tav b b' -> CR tav (xnor_ a b) (xnor_ a' b').
Proof. intros; dst; unfold xnor_; sra. Qed.
Global Hint Extern 0 (CR _ (xnor_ _ _) (xnor_ _ _)) => (eapply co_xnor_; rel) : codb.
Lemma co_bisec {NM : NMod} cond cond' a a' b b' : tav cond cond' -> tav a a' -> tav b b' -> CR tav (bisec cond a b) (bisec cond' a' b').
Proof. intros; dst; unfold bisec; sra. Qed.
Global Hint Extern 0 (CR _ (bisec _ _ _) (bisec _ _ _)) => (eapply co_bisec; rel) : codb.
Lemma co_bisec_cond {NM : NMod} cond cond' a a' b b' : tav cond cond' -> tav a a' -> tav b b' -> CR tav (bisec_cond cond a b) (bisec_cond cond' a' b').
Proof. intros; dst; unfold bisec_cond; sra. Qed.
Global Hint Extern 0 (CR _ (bisec_cond _ _ _) (bisec_cond _ _ _)) => (eapply co_bisec_cond; rel) : codb.
Lemma co_assert_true {NM : NMod} a a' : tav a a' -> CR any (assert_true a) (assert_true a').
Proof. intros; dst; unfold assert_true; sra. Qed.
Global Hint Extern 0 (CR _ (assert_true _) (assert_true _)) => (eapply co_assert_true; rel) : codb.
Lemma co_assert_false {NM : NMod} a a' : tav a a' -> CR any (assert_false a) (assert_false a').
Proof. intros; dst; unfold assert_false; sra. Qed.
Global Hint Extern 0 (CR _ (assert_false _) (assert_false _)) => (eapply co_assert_false; rel) : codb.
Lemma co_try_assert_false {NM : NMod} a a' : tav a a' -> CR any (try_assert_false a) (try_assert_false a').
Proof. intros; dst; unfold try_assert_false; sra. Qed.
Global Hint Extern 0 (CR _ (try_assert_false _) (try_assert_false _)) => (eapply co_try_assert_false; rel) : codb.
Lemma co_assign_nonleading_limb {NM : NMod} bn bn' : CR tav (assign_nonleading_limb bn) (assign_nonleading_limb bn').
Proof. intros; dst; unfold assign_nonleading_limb; sra. Qed.
Global Hint Extern 0 (CR _ (assign_nonleading_limb _) (assign_nonleading_limb _)) => (eapply co_assign_nonleading_limb; rel) : codb.
Lemma co_assign_w_ceil_leading_limb {NM : NMod} I0 bn bn' : CR tav (assign_w_ceil_leading_limb I0 bn) (assign_w_ceil_leading_limb I0 bn').
Proof. intros; dst; unfold assign_w_ceil_leading_limb; sra. Qed.
Global Hint Extern 0 (CR _ (assign_w_ceil_leading_limb _ _) (assign_w_ceil_leading_limb _ _)) => (eapply co_assign_w_ceil_leading_limb; rel) : codb.
Lemma co_assign_d_leading_limb {NM : NMod} I0 bn bn' : CR tav (assign_d_leading_limb I0 bn) (assign_d_leading_limb I0 bn').
Proof. intros; dst; unfold assign_d_leading_limb; sra. Qed.
Global Hint Extern 0 (CR _ (assign_d_leading_limb _ _) (assign_d_leading_limb _ _)) => (eapply co_assign_d_leading_limb; rel) : codb.
Lemma co_native_of {NM : NMod} x0 limbs limbs' : (Forall2 tav) limbs limbs' -> CR tav (native_of x0 limbs) (native_of x0 limbs').
Proof. intros; dst; unfold native_of; sra. Qed.
Global Hint Extern 0 (CR _ (native_of _ _) (native_of _ _)) => (eapply co_native_of; rel) : codb.
Lemma co_mul_column {NM : NMod} x0 a a' b b' d d' pos : taint a a' -> taint b b' -> (Forall2 tav) d d' -> CR tav (mul_column x0 a b d pos) (mul_column x0 a' b' d' pos).
Proof. intros; dst; unfold mul_column; cbv zeta. eapply (CR_bind (Forall2 smterm)); [eapply CR_mapM_eq; intros; sra|intros; sra]. Qed.
Global Hint Extern 0 (CR _ (mul_column _ _ _ _ _) (mul_column _ _ _ _ _)) => (eapply co_mul_column; rel) : codb.
Lemma co_mul_carry {NM : NMod} x0 u u' : tav u u' -> CR (both tav tav) (mul_carry x0 u) (mul_carry x0 u').
Proof. intros; dst; unfold mul_carry; sra. Qed.
Global Hint Extern 0 (CR _ (mul_carry _ _) (mul_carry _ _)) => (eapply co_mul_carry; rel) : codb.
Lemma co_mul_equation_on_limbs {NM : NMod} x0 a a' b b' d d' rem rem' : taint a a' -> taint b b' -> (Forall2 tav) d d' -> taint rem rem' -> CR any (mul_equation_on_limbs x0 a b d rem) (mul_equation_on_limbs x0 a' b' d' rem').
Proof. intros; dst; unfold mul_equation_on_limbs; sra; try fld (both tav tav); sra. Qed.
Global Hint Extern 0 (CR _ (mul_equation_on_limbs _ _ _ _ _) (mul_equation_on_limbs _ _ _ _ _)) => (eapply co_mul_equation_on_limbs; rel) : codb.
Lemma co_mul_equation_on_native {NM : NMod} x0 a a' b b' d_native d_native' rem rem' : taint a a' -> taint b b' -> tav d_native d_native' -> taint rem rem' -> CR any (mul_equation_on_native x0 a b d_native rem) (mul_equation_on_native x0 a' b' d_native' rem').
Proof. intros; dst; unfold mul_equation_on_native; sra. Qed.
Global Hint Extern 0 (CR _ (mul_equation_on_native _ _ _ _ _) (mul_equation_on_native _ _ _ _ _)) => (eapply co_mul_equation_on_native; rel) : codb.
Lemma co_assign_w {NM : NMod} x0 w w' : CR taint (assign_w x0 w) (assign_w x0 w').
Proof. intros; dst; unfold assign_w; sra. Qed.
Global Hint Extern 0 (CR _ (assign_w _ _) (assign_w _ _)) => (eapply co_assign_w; rel) : codb.
Lemma co_assign_d {NM : NMod} x0 d d' : CR (both (Forall2 tav) tav) (assign_d x0 d) (assign_d x0 d').
Proof. intros; dst; unfold assign_d; sra. Qed.
Global Hint Extern 0 (CR _ (assign_d _ _) (assign_d _ _)) => (eapply co_assign_d; rel) : codb.
Lemma co_reduce_step {NM : NMod} x0 a a' d d' rem rem' ad ad' arem arem' last last' i : taint a a' -> tav ad ad' -> taint arem arem' -> topt last last' -> CR topt (reduce_step x0 a d rem ad arem last i) (reduce_step x0 a' d' rem' ad' arem' last' i).
Proof. intros; dst; unfold reduce_step; sra. destruct last, last'; try contradiction; sra. Qed.
Global Hint Extern 0 (CR _ (reduce_step _ _ _ _ _ _ _ _) (reduce_step _ _ _ _ _ _ _ _)) => (eapply co_reduce_step; rel) : codb.
Lemma co_reduce {NM : NMod} x0 a a' : taint a a' -> CR taint (reduce x0 a) (reduce x0 a').
Proof. intros; dst; unfold reduce; sra; try fld topt; sra. Qed.
Global Hint Extern 0 (CR _ (reduce _ _) (reduce _ _)) => (eapply co_reduce; rel) : codb.
Lemma co_conditionally_reduce {NM : NMod} x0 a a' : taint a a' -> CR taint (conditionally_reduce x0 a) (conditionally_reduce x0 a').
Proof. intros; dst; unfold conditionally_reduce; sra. Qed.
Global Hint Extern 0 (CR _ (conditionally_reduce _ _) (conditionally_reduce _ _)) => (eapply co_conditionally_reduce; rel) : codb.
Lemma co_int_add {NM : NMod} x0 a a' b b' : taint a a' -> taint b b' -> CR taint (int_add x0 a b) (int_add x0 a' b').
Proof. intros; dst; unfold int_add; sra. Qed.
Global Hint Extern 0 (CR _ (int_add _ _ _) (int_add _ _ _)) => (eapply co_int_add; rel) : codb.
Lemma co_pad_of {NM : NMod} x0 times : CR (@eq (list Z)) (pad_of x0 times) (pad_of x0 times).
Proof. intros; dst; unfold pad_of; sra. Qed.
Global Hint Extern 0 (CR _ (pad_of _ _) (pad_of _ _)) => (eapply co_pad_of; rel) : codb.
Lemma co_int_sub {NM : NMod} x0 a a' b b' : taint a a' -> taint b b' -> CR taint (int_sub x0 a b) (int_sub x0 a' b').
Proof. intros; dst; unfold int_sub; sra. Qed.
Global Hint Extern 0 (CR _ (int_sub _ _ _) (int_sub _ _ _)) => (eapply co_int_sub; rel) : codb.
Lemma co_int_neg {NM : NMod} x0 a a' : taint a a' -> CR taint (int_neg x0 a) (int_neg x0 a').
Proof. intros; dst; unfold int_neg; sra. Qed.
Global Hint Extern 0 (CR _ (int_neg _ _) (int_neg _ _)) => (eapply co_int_neg; rel) : codb.
Lemma co_int_mul {NM : NMod} x0 a a' b b' : taint a a' -> taint b b' -> CR taint (int_mul x0 a b) (int_mul x0 a' b').
Proof. intros; dst; unfold int_mul; sra. Qed.
Global Hint Extern 0 (CR _ (int_mul _ _ _) (int_mul _ _ _)) => (eapply co_int_mul; rel) : codb.
Lemma co_is_pure_zero {NM : NMod} a a' : taint a a' -> CR tav (is_pure_zero a) (is_pure_zero a').
Proof. intros; dst; unfold is_pure_zero; sra. Qed.
Global Hint Extern 0 (CR _ (is_pure_zero _) (is_pure_zero _)) => (eapply co_is_pure_zero; rel) : codb.
Lemma co_is_pure_w_modulus {NM : NMod} x0 a a' : taint a a' -> CR tav (is_pure_w_modulus x0 a) (is_pure_w_modulus x0 a').
Proof. intros; dst; unfold is_pure_w_modulus; sra; try fld tav; sra. Qed.
Global Hint Extern 0 (CR _ (is_pure_w_modulus _ _) (is_pure_w_modulus _ _)) => (eapply co_is_pure_w_modulus; rel) : codb.
Lemma co_is_int_zero {NM : NMod} x0 a a' : taint a a' -> CR tav (is_int_zero x0 a) (is_int_zero x0 a').
Proof. intros; dst; unfold is_int_zero; sra. Qed.
Global Hint Extern 0 (CR _ (is_int_zero _ _) (is_int_zero _ _)) => (eapply co_is_int_zero; rel) : codb.
Lemma co_is_int_equal {NM : NMod} x0 a a' b b' : taint a a' -> taint b b' -> CR tav (is_int_equal x0 a b) (is_int_equal x0 a' b').
Proof. intros; dst; unfold is_int_equal; sra. Qed.
Global Hint Extern 0 (CR _ (is_int_equal _ _ _) (is_int_equal _ _ _)) => (eapply co_is_int_equal; rel) : codb.
Lemma co_int_div {NM : NMod} x0 a a' b b' : taint a a' -> taint b b' -> CR (both tav taint) (int_div x0 a b) (int_div x0 a' b').
Proof. intros; dst; unfold int_div; sra. Qed.
Global Hint Extern 0 (CR _ (int_div _ _ _) (int_div _ _ _)) => (eapply co_int_div; rel) : codb.
Lemma co_assign_int_constant {NM : NMod} x0 w : CR taint (assign_int_constant x0 w) (assign_int_constant x0 w).
Proof. intros; dst; unfold assign_int_constant; sra. Qed.
Global Hint Extern 0 (CR _ (assign_int_constant _ _) (assign_int_constant _ _)) => (eapply co_assign_int_constant; rel) : codb.
Lemma co_int_unsafe_invert {NM : NMod} x0 x x' : taint x x' -> CR taint (int_unsafe_invert x0 x) (int_unsafe_invert x0 x').
Proof. intros; dst; unfold int_unsafe_invert; sra. Qed.
Global Hint Extern 0 (CR _ (int_unsafe_invert _ _) (int_unsafe_invert _ _)) => (eapply co_int_unsafe_invert; rel) : codb.
Lemma co_assert_int_equal {NM : NMod} x0 a a' b b' : taint a a' -> taint b b' -> CR any (assert_int_equal x0 a b) (assert_int_equal x0 a' b').
Proof. intros; dst; unfold assert_int_equal; sra. Qed.
Global Hint Extern 0 (CR _ (assert_int_equal _ _ _) (assert_int_equal _ _ _)) => (eapply co_assert_int_equal; rel) : codb.
Lemma co_int_square {NM : NMod} x0 a a' : taint a a' -> CR taint (int_square x0 a) (int_square x0 a').
Proof. intros; dst; unfold int_square; sra. Qed.
Global Hint Extern 0 (CR _ (int_square _ _) (int_square _ _)) => (eapply co_int_square; rel) : codb.
Lemma co_int_mul_small_constant {NM : NMod} x0 a a' b : taint a a' -> CR taint (int_mul_small_constant x0 a b) (int_mul_small_constant x0 a' b).
Proof. intros; dst; unfold int_mul_small_constant; sra. Qed.
Global Hint Extern 0 (CR _ (int_mul_small_constant _ _ _) (int_mul_small_constant _ _ _)) => (eapply co_int_mul_small_constant; rel) : codb.
Lemma co_bisec_int {NM : NMod} x0 cond cond' a a' b b' : tav cond cond' -> taint a a' -> taint b b' -> CR taint (bisec_int x0 cond a b) (bisec_int x0 cond' a' b').
Proof. intros; dst; unfold bisec_int; sra. Qed.
Global Hint Extern 0 (CR _ (bisec_int _ _ _ _) (bisec_int _ _ _ _)) => (eapply co_bisec_int; rel) : codb.
Lemma co_assign_constant_point {NM : NMod} x0 p : CR tpt (assign_constant_point x0 p) (assign_constant_point x0 p).
Proof. intros; dst; unfold assign_constant_point; sra. Qed.
Global Hint Extern 0 (CR _ (assign_constant_point _ _) (assign_constant_point _ _)) => (eapply co_assign_constant_point; rel) : codb.
Lemma co_curve_sides {NM : NMod} x0 x1 x x' y y' : taint x x' -> taint y y' -> CR (both taint taint) (curve_sides x0 x1 x y) (curve_sides x0 x1 x' y').
Proof. intros; dst; unfold curve_sides; sra. Qed.
Global Hint Extern 0 (CR _ (curve_sides _ _ _ _) (curve_sides _ _ _ _)) => (eapply co_curve_sides; rel) : codb.
Lemma co_assign_point {NM : NMod} x0 x1 p p' : CR tpt (assign_point x0 x1 p) (assign_point x0 x1 p').
Proof. intros; dst; unfold assign_point; sra. Qed.
Global Hint Extern 0 (CR _ (assign_point _ _ _) (assign_point _ _ _)) => (eapply co_assign_point; rel) : codb.
Lemma co_assign_non_zero_point {NM : NMod} x0 x1 p p' : CR tnz (assign_non_zero_point x0 x1 p) (assign_non_zero_point x0 x1 p').
Proof. intros; dst; unfold assign_non_zero_point; sra. Qed.
Global Hint Extern 0 (CR _ (assign_non_zero_point _ _ _) (assign_non_zero_point _ _ _)) => (eapply co_assign_non_zero_point; rel) : codb.
Lemma co_assign_identity {NM : NMod} x0 : CR tptc (assign_identity x0) (assign_identity x0).
Proof. intros; dst; unfold assign_identity; sra. Qed.
Global Hint Extern 0 (CR _ (assign_identity _) (assign_identity _)) => (eapply co_assign_identity; rel) : codb.
Lemma co_bisec_point {NM : NMod} x0 cond cond' a a' b b' : tav cond cond' -> tpt a a' -> tpt b b' -> CR tpt (bisec_point x0 cond a b) (bisec_point x0 cond' a' b').
Proof. intros; dst; unfold bisec_point; sra. Qed.
Global Hint Extern 0 (CR _ (bisec_point _ _ _ _) (bisec_point _ _ _ _)) => (eapply co_bisec_point; rel) : codb.
Lemma co_bisec_curvature {NM : NMod} x0 cond cond' a a' b b' : tav cond cond' -> tcurv a a' -> tcurv b b' -> CR tcurv (bisec_curvature x0 cond a b) (bisec_curvature x0 cond' a' b').
Proof. intros; dst; unfold bisec_curvature; sra. Qed.
Global Hint Extern 0 (CR _ (bisec_curvature _ _ _ _) (bisec_curvature _ _ _ _)) => (eapply co_bisec_curvature; rel) : codb.
Lemma co_bisec_point_with_curvature {NM : NMod} x0 cond cond' a a' b b' : tav cond cond' -> tptc a a' -> tptc b b' -> CR tptc (bisec_point_with_curvature x0 cond a b) (bisec_point_with_curvature x0 cond' a' b').
Proof. intros; dst; unfold bisec_point_with_curvature; sra. Qed.
Global Hint Extern 0 (CR _ (bisec_point_with_curvature _ _ _ _) (bisec_point_with_curvature _ _ _ _)) => (eapply co_bisec_point_with_curvature; rel) : codb.
Lemma co_lambda_xy {NM : NMod} x0 l l' ax ax' ay ay' bx bx' : taint l l' -> taint ax ax' -> taint ay ay' -> taint bx bx' -> CR (both taint taint) (lambda_xy x0 l ax ay bx) (lambda_xy x0 l' ax' ay' bx').
Proof. intros; dst; unfold lambda_xy; sra. Qed.
Global Hint Extern 0 (CR _ (lambda_xy _ _ _ _ _) (lambda_xy _ _ _ _ _)) => (eapply co_lambda_xy; rel) : codb.
Lemma co_lambda_to_point {NM : NMod} x0 lambda lambda' a a' b b' : tcurv lambda lambda' -> tpt a a' -> tpt b b' -> CR tpt (lambda_to_point x0 lambda a b) (lambda_to_point x0 lambda' a' b').
Proof. intros; dst; unfold lambda_to_point; sra. Qed.
Global Hint Extern 0 (CR _ (lambda_to_point _ _ _ _) (lambda_to_point _ _ _ _)) => (eapply co_lambda_to_point; rel) : codb.
Lemma co_ecc_add {NM : NMod} x0 a a' b b' : tptc a a' -> tpt b b' -> CR tpt (ecc_add x0 a b) (ecc_add x0 a' b').
Proof. intros; dst; unfold ecc_add; sra. Qed.
Global Hint Extern 0 (CR _ (ecc_add _ _ _) (ecc_add _ _ _)) => (eapply co_ecc_add; rel) : codb.
Lemma co_ecc_double {NM : NMod} x0 x1 a a' : tptc a a' -> CR tpt (ecc_double x0 x1 a) (ecc_double x0 x1 a').
Proof. intros; dst; unfold ecc_double; sra. Qed.
Global Hint Extern 0 (CR _ (ecc_double _ _ _) (ecc_double _ _ _)) => (eapply co_ecc_double; rel) : codb.
Lemma co_ecc_assert_equal {NM : NMod} x0 a a' b b' : tpt a a' -> tpt b b' -> CR any (ecc_assert_equal x0 a b) (ecc_assert_equal x0 a' b').
Proof. intros; dst; unfold ecc_assert_equal; sra. Qed.
Global Hint Extern 0 (CR _ (ecc_assert_equal _ _ _) (ecc_assert_equal _ _ _)) => (eapply co_ecc_assert_equal; rel) : codb.
Lemma co_ecc_neg {NM : NMod} x0 a a' : tpt a a' -> CR tpt (ecc_neg x0 a) (ecc_neg x0 a').
Proof. intros; dst; unfold ecc_neg; sra. Qed.
Global Hint Extern 0 (CR _ (ecc_neg _ _) (ecc_neg _ _)) => (eapply co_ecc_neg; rel) : codb.
Lemma co_ecc_reduce {NM : NMod} x0 a a' : tpt a a' -> CR tpt (ecc_reduce x0 a) (ecc_reduce x0 a').
Proof. intros; dst; unfold ecc_reduce; sra. Qed.
Global Hint Extern 0 (CR _ (ecc_reduce _ _) (ecc_reduce _ _)) => (eapply co_ecc_reduce; rel) : codb.
Lemma co_curvature_of {NM : NMod} x0 x x' y y' : taint x x' -> taint y y' -> CR (both tav taint) (curvature_of x0 x y) (curvature_of x0 x' y').
Proof. intros; dst; unfold curvature_of; sra. Qed.
Global Hint Extern 0 (CR _ (curvature_of _ _ _) (curvature_of _ _ _)) => (eapply co_curvature_of; rel) : codb.
Lemma co_ecc_reduce_with_curvature {NM : NMod} x0 a a' : tpt a a' -> CR tptc (ecc_reduce_with_curvature x0 a) (ecc_reduce_with_curvature x0 a').
Proof. intros; dst; unfold ecc_reduce_with_curvature; sra. Qed.
Global Hint Extern 0 (CR _ (ecc_reduce_with_curvature _ _) (ecc_reduce_with_curvature _ _)) => (eapply co_ecc_reduce_with_curvature; rel) : codb.
Lemma co_to_point_with_curvature {NM : NMod} x0 a a' : tpt a a' -> CR tptc (to_point_with_curvature x0 a) (to_point_with_curvature x0 a').
Proof. intros; dst; unfold to_point_with_curvature; sra. Qed.
Global Hint Extern 0 (CR _ (to_point_with_curvature _ _) (to_point_with_curvature _ _)) => (eapply co_to_point_with_curvature; rel) : codb.
Lemma co_ecc_encode {NM : NMod} x0 p p' : tpt p p' -> CR (Forall2 tav) (ecc_encode x0 p) (ecc_encode x0 p').
Proof. intros; dst; unfold ecc_encode; sra. Qed.
Global Hint Extern 0 (CR _ (ecc_encode _ _) (ecc_encode _ _)) => (eapply co_ecc_encode; rel) : codb.
Lemma co_assign_cache_integer {NM : NMod} x0 p p' sc g offset : taint p p' -> CR (@eq Z) (assign_cache_integer x0 p sc g offset) (assign_cache_integer x0 p' sc g offset).
Proof. intros; dst; unfold assign_cache_integer; sra; try fld (@eq Z); sra. Qed.
Global Hint Extern 0 (CR _ (assign_cache_integer _ _ _ _ _) (assign_cache_integer _ _ _ _ _)) => (eapply co_assign_cache_integer; rel) : codb.
Lemma co_assign_selected_integer {NM : NMod} x0 p p' sc sc' g offset : tav sc sc' -> CR (both taint (@eq Z)) (assign_selected_integer x0 p sc g offset) (assign_selected_integer x0 p' sc' g offset).
Proof. intros; dst; unfold assign_selected_integer; sra; try fld (both (Forall2 tav) (@eq Z)); sra. Qed.
Global Hint Extern 0 (CR _ (assign_selected_integer _ _ _ _ _) (assign_selected_integer _ _ _ _ _)) => (eapply co_assign_selected_integer; rel) : codb.
Lemma co_assign_cache_point {NM : NMod} x0 p p' g sc : tptc p p' -> CR any (assign_cache_point x0 p g sc) (assign_cache_point x0 p' g sc).
Proof. intros; dst; unfold assign_cache_point; sra. Qed.
Global Hint Extern 0 (CR _ (assign_cache_point _ _ _ _) (assign_cache_point _ _ _ _)) => (eapply co_assign_cache_point; rel) : codb.
Lemma co_assign_selected_point {NM : NMod} x0 p p' sc sc' g : tav sc sc' -> CR tptc (assign_selected_point x0 p sc g) (assign_selected_point x0 p' sc' g).
Proof. intros; dst; unfold assign_selected_point; sra. Qed.
Global Hint Extern 0 (CR _ (assign_selected_point _ _ _ _) (assign_selected_point _ _ _ _)) => (eapply co_assign_selected_point; rel) : codb.
Lemma co_lambda_to_point_non_zero {NM : NMod} x0 lambda lambda' a a' b b' : taint lambda lambda' -> tnz a a' -> tnz b b' -> CR tnz (lambda_to_point_non_zero x0 lambda a b) (lambda_to_point_non_zero x0 lambda' a' b').
Proof. intros; dst; unfold lambda_to_point_non_zero; sra. Qed.
Global Hint Extern 0 (CR _ (lambda_to_point_non_zero _ _ _ _) (lambda_to_point_non_zero _ _ _ _)) => (eapply co_lambda_to_point_non_zero; rel) : codb.
Lemma co_ecc_add_unsafe {NM : NMod} x0 a a' b b' : tnz a a' -> tnz b b' -> CRU tnz (ecc_add_unsafe x0 a b) (ecc_add_unsafe x0 a' b').
Proof. intros; dst; unfold ecc_add_unsafe; sra. Qed.
Global Hint Extern 0 (CRU _ (ecc_add_unsafe _ _ _) (ecc_add_unsafe _ _ _)) => (eapply co_ecc_add_unsafe; rel) : codb.
Lemma co_ecc_double_unsafe {NM : NMod} x0 a a' : tnz a a' -> CRU tnz (ecc_double_unsafe x0 a) (ecc_double_unsafe x0 a').
Proof. intros; dst; unfold ecc_double_unsafe; sra. Qed.
Global Hint Extern 0 (CRU _ (ecc_double_unsafe _ _) (ecc_double_unsafe _ _)) => (eapply co_ecc_double_unsafe; rel) : codb.
Lemma co_ecc_neg_non_zero {NM : NMod} x0 a a' : tnz a a' -> CR tnz (ecc_neg_non_zero x0 a) (ecc_neg_non_zero x0 a').
Proof. intros; dst; unfold ecc_neg_non_zero; sra. Qed.
Global Hint Extern 0 (CR _ (ecc_neg_non_zero _ _) (ecc_neg_non_zero _ _)) => (eapply co_ecc_neg_non_zero; rel) : codb.
Lemma co_ecc_reduce_non_zero {NM : NMod} x0 a a' : tnz a a' -> CR tnz (ecc_reduce_non_zero x0 a) (ecc_reduce_non_zero x0 a').
Proof. intros; dst; unfold ecc_reduce_non_zero; sra. Qed.
Global Hint Extern 0 (CR _ (ecc_reduce_non_zero _ _) (ecc_reduce_non_zero _ _)) => (eapply co_ecc_reduce_non_zero; rel) : codb.
Lemma co_ecc_bisec_non_zero_point {NM : NMod} x0 cond cond' a a' b b' : tav cond cond' -> tnz a a' -> tnz b b' -> CR tnz (ecc_bisec_non_zero_point x0 cond a b) (ecc_bisec_non_zero_point x0 cond' a' b').
Proof. intros; dst; unfold ecc_bisec_non_zero_point; sra. Qed.
Global Hint Extern 0 (CR _ (ecc_bisec_non_zero_point _ _ _ _) (ecc_bisec_non_zero_point _ _ _ _)) => (eapply co_ecc_bisec_non_zero_point; rel) : codb.
Lemma co_bisec_pairs {NM : NMod} x0 bit bit' cs cs' : tav bit bit' -> (Forall2 tnz) cs cs' -> CR (Forall2 tnz) (bisec_pairs x0 bit cs) (bisec_pairs x0 bit' cs').
Proof. intros Hb Hc. assert (G : forall n cs cs', (length cs <= n)%nat -> Forall2 tnz cs cs' -> CR (Forall2 tnz) (bisec_pairs x0 bit cs) (bisec_pairs x0 bit' cs')); [|apply (G (length cs)); auto]. clear cs cs' Hc. induction n as [|n IH]; intros cs cs' L H; (destruct H as [|p q l l' P H]; [apply CR_ret; constructor|]; destruct H as [|p1 q1 l l' P1 H]; [apply CR_panic_l|]; cbn [length] in L; try lia). cbn [bisec_pairs]. eapply CR_bind; [apply co_ecc_bisec_non_zero_point; assumption|intros]. eapply CR_bind; [apply IH; [lia|assumption]|intros; sra]. Qed.
Global Hint Extern 0 (CR _ (bisec_pairs _ _ _) (bisec_pairs _ _ _)) => (eapply co_bisec_pairs; rel) : codb.
Lemma co_bisec_candidate_non_zero {NM : NMod} x0 candidates candidates' group_bits group_bits' : (Forall2 tnz) candidates candidates' -> (Forall2 tav) group_bits group_bits' -> CR tnz (bisec_candidate_non_zero x0 candidates group_bits) (bisec_candidate_non_zero x0 candidates' group_bits').
Proof. intros; dst; unfold bisec_candidate_non_zero; sra; try fld (Forall2 tnz); sra. Qed.
Global Hint Extern 0 (CR _ (bisec_candidate_non_zero _ _ _) (bisec_candidate_non_zero _ _ _)) => (eapply co_bisec_candidate_non_zero; rel) : codb.
Lemma co_pick_candidate_non_zero {NM : NMod} candidates candidates' group_bits group_bits' : (Forall2 tav) group_bits group_bits' -> CR (both tav any) (pick_candidate_non_zero candidates group_bits) (pick_candidate_non_zero candidates' group_bits').
Proof. intros; dst; unfold pick_candidate_non_zero; sra. Qed.
Global Hint Extern 0 (CR _ (pick_candidate_non_zero _ _) (pick_candidate_non_zero _ _)) => (eapply co_pick_candidate_non_zero; rel) : codb.
Lemma co_assign_selected_point_non_zero {NM : NMod} x0 p p' sc sc' g : tav sc sc' -> CR tnz (assign_selected_point_non_zero x0 p sc g) (assign_selected_point_non_zero x0 p' sc' g).
Proof. intros; dst; unfold assign_selected_point_non_zero; sra. Qed.
Global Hint Extern 0 (CR _ (assign_selected_point_non_zero _ _ _ _) (assign_selected_point_non_zero _ _ _ _)) => (eapply co_assign_selected_point_non_zero; rel) : codb.
Lemma co_assign_cache_point_non_zero {NM : NMod} x0 p p' g sc : tnz p p' -> CR any (assign_cache_point_non_zero x0 p g sc) (assign_cache_point_non_zero x0 p' g sc).
Proof. intros; dst; unfold assign_cache_point_non_zero; sra. Qed.
Global Hint Extern 0 (CR _ (assign_cache_point_non_zero _ _ _ _) (assign_cache_point_non_zero _ _ _ _)) => (eapply co_assign_cache_point_non_zero; rel) : codb.
Lemma co_ecc_assert_equal_non_zero {NM : NMod} x0 a a' b b' : tnz a a' -> tnz b b' -> CR any (ecc_assert_equal_non_zero x0 a b) (ecc_assert_equal_non_zero x0 a' b').
Proof. intros; dst; unfold ecc_assert_equal_non_zero; sra. Qed.
Global Hint Extern 0 (CR _ (ecc_assert_equal_non_zero _ _ _) (ecc_assert_equal_non_zero _ _ _)) => (eapply co_ecc_assert_equal_non_zero; rel) : codb.
Lemma co_ecc_non_zero_point_downgrade {NM : NMod} a a' : tnz a a' -> CR tpt (ecc_non_zero_point_downgrade a) (ecc_non_zero_point_downgrade a').
Proof. intros; dst; unfold ecc_non_zero_point_downgrade; sra. Qed.
Global Hint Extern 0 (CR _ (ecc_non_zero_point_downgrade _) (ecc_non_zero_point_downgrade _)) => (eapply co_ecc_non_zero_point_downgrade; rel) : codb.
Lemma co_ecc_bisec_to_non_zero_point {NM : NMod} x0 a a' b b' : tpt a a' -> tnz b b' -> CR tnz (ecc_bisec_to_non_zero_point x0 a b) (ecc_bisec_to_non_zero_point x0 a' b').
Proof. intros; dst; unfold ecc_bisec_to_non_zero_point; sra. Qed.
Global Hint Extern 0 (CR _ (ecc_bisec_to_non_zero_point _ _ _) (ecc_bisec_to_non_zero_point _ _ _)) => (eapply co_ecc_bisec_to_non_zero_point; rel) : codb.
Lemma co_to_windows {NM : NMod} W bits bits' : (Forall2 tav) bits bits' -> CR (Forall2 (Forall2 tav)) (to_windows W bits) (to_windows W bits').
Proof. intros; dst; unfold to_windows; cbv zeta. unfold acond in *. pose proof (F2_len _ _ _ H) as HL. eapply CR_bind; [apply CR_assert|intros _ _ _]. rewrite <- HL. eapply (CR_bind (Forall2 tav)); [sra|intros; sra]. Qed.
Global Hint Extern 0 (CR _ (to_windows _ _) (to_windows _ _)) => (eapply co_to_windows; rel) : codb.
Lemma co_native_step {NM : NMod} s_bn s_bn' st st' i : (both tav (Forall2 tav)) st st' -> CR (both tav (Forall2 tav)) (native_step s_bn st i) (native_step s_bn' st' i).
Proof. intros; dst; unfold native_step; sra. Qed.
Global Hint Extern 0 (CR _ (native_step _ _ _) (native_step _ _ _)) => (eapply co_native_step; rel) : codb.
Lemma co_decompose_scalar_native {NM : NMod} W s s' : tav s s' -> CR (Forall2 (Forall2 tav)) (decompose_scalar_native W s) (decompose_scalar_native W s').
Proof. intros; dst; unfold decompose_scalar_native. eapply (CR_bind (both tav (Forall2 tav))); [fld (both tav (Forall2 tav)); sra|intros; dst]. eapply (CR_bind (Forall2 tav)); [sra|intros; sra]. Qed.
Global Hint Extern 0 (CR _ (decompose_scalar_native _ _) (decompose_scalar_native _ _)) => (eapply co_decompose_scalar_native; rel) : codb.
Lemma co_general_step {NM : NMod} two_inv v v' st st' j : (both tav (Forall2 tav)) st st' -> CR (both tav (Forall2 tav)) (general_step two_inv v st j) (general_step two_inv v' st' j).
Proof. intros; dst; unfold general_step; sra. Qed.
Global Hint Extern 0 (CR _ (general_step _ _ _ _) (general_step _ _ _ _)) => (eapply co_general_step; rel) : codb.
Lemma co_general_limb {NM : NMod} two_inv l l' : tav l l' -> CR (Forall2 tav) (general_limb two_inv l) (general_limb two_inv l').
Proof. intros; dst; unfold general_limb. eapply (CR_bind (both tav (Forall2 tav))); [fld (both tav (Forall2 tav)); sra|intros; dst]. sra. Qed.
Global Hint Extern 0 (CR _ (general_limb _ _) (general_limb _ _)) => (eapply co_general_limb; rel) : codb.
Lemma co_decompose_scalar_general {NM : NMod} I0 W s s' : taint s s' -> CR (Forall2 (Forall2 tav)) (decompose_scalar_general I0 W s) (decompose_scalar_general I0 W s').
Proof. intros; dst; unfold decompose_scalar_general; sra. Qed.
Global Hint Extern 0 (CR _ (decompose_scalar_general _ _ _) (decompose_scalar_general _ _ _)) => (eapply co_decompose_scalar_general; rel) : codb.

