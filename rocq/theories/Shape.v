(** Shape independence of every gadget.  Generated from the signatures of the models. *)
From Verif Require Import Prelude FieldZ Circuit Context Spec Logic Prims BaseChip RangeInfo RangeChip IntegerChip EccChip ScalarChip Msm ParWindows SpecShape.
Notation SR := shape_indep.
Notation SRU := shape_indep_u.

Lemma SR_ret {X Y} (R : X -> Y -> Prop) x y : R x y -> SR R (mret x) (mret y).
Proof. intros H c d a b c' d' S E F. injection E as <- <-. injection F as <- <-. auto. Qed.
Lemma SR_bind {X Y X' Y'} (R : X -> Y -> Prop) (S : X' -> Y' -> Prop) m n k l :
  SR R m n -> (forall x y, R x y -> SR S (k x) (l y)) -> SR S (mbind m k) (mbind n l).
Proof.
  intros Hm Hk c d a b c' d' Sh E F. apply mbind_inv in E as (x & c1 & E1 & E2). apply mbind_inv in F as (y & d1 & F1 & F2).
  destruct (Hm _ _ _ _ _ _ Sh E1 F1) as [Rx S1]. exact (Hk x y Rx _ _ _ _ _ _ S1 E2 F2).
Qed.
Lemma SR_wk {X Y} (R S : X -> Y -> Prop) m n : SR R m n -> (forall x y, R x y -> S x y) -> SR S m n.
Proof. intros H I c d a b c' d' Sh E F. destruct (H _ _ _ _ _ _ Sh E F). auto. Qed.
Lemma SR_panic_l {X Y} (R : X -> Y -> Prop) n : SR R mpanic n. Proof. intros c d a b c' d' S E. discriminate. Qed.
Lemma SR_panic_r {X Y} (R : X -> Y -> Prop) m : SR R m mpanic. Proof. intros c d a b c' d' S E F. discriminate. Qed.
Lemma SR_assert b b' : SR (fun _ _ => True) (massert b) (massert b').
Proof. intros c d x y c' d' S E F. apply massert_inv in E as [_ ->]. apply massert_inv in F as [_ ->]. auto. Qed.
Lemma SR_opt_eq {X} (o : option X) : SR eq (mopt o) (mopt o).
Proof. destruct o; [apply SR_ret; reflexivity|apply SR_panic_l]. Qed.
Lemma SR_opt_any {X Y} (o : option X) (o' : option Y) : SR any (mopt o) (mopt o').
Proof. destruct o; [|apply SR_panic_l]. destruct o'; [|apply SR_panic_r]. apply SR_ret. exact I. Qed.
Lemma F2_nth {X Y} (R : X -> Y -> Prop) l l' : Forall2 R l l' -> forall i x y, nth_error l i = Some x -> nth_error l' i = Some y -> R x y.
Proof. induction 1; intros [|i] a b; cbn; try discriminate; [congruence|apply IHForall2]. Qed.
Lemma SR_nth {X Y} (R : X -> Y -> Prop) l l' i : Forall2 R l l' -> SR R (mnth l i) (mnth l' i).
Proof.
  intros H c d a b c' d' S E F. apply mopt_inv in E as [E ->]. apply mopt_inv in F as [F ->]. split; [|exact S]. eapply F2_nth; eauto.
Qed.
Lemma SR_nth_eq {X} (l : list X) i : SR eq (mnth l i) (mnth l i). Proof. apply SR_opt_eq. Qed.
Lemma SR_nth_any {X Y} (l : list X) (l' : list Y) i j : SR any (mnth l i) (mnth l' j). Proof. apply SR_opt_any. Qed.
Lemma SR_mapM {X Y X' Y'} (Q : X -> Y -> Prop) (R : X' -> Y' -> Prop) f g l l' : Forall2 Q l l' ->
  (forall x y, Q x y -> SR R (f x) (g y)) -> SR (Forall2 R) (mapM f l) (mapM g l').
Proof.
  intros H Hf. induction H; cbn [mapM]; [apply SR_ret; constructor|]. eapply SR_bind; [apply Hf; eassumption|intros]. eapply SR_bind; [eassumption|intros].
  apply SR_ret. constructor; auto.
Qed.
Lemma SR_mapM_eq {X X' Y'} (R : X' -> Y' -> Prop) (f : X -> M X') (g : X -> M Y') l :
  (forall x, SR R (f x) (g x)) -> SR (Forall2 R) (mapM f l) (mapM g l).
Proof. intros H. apply (SR_mapM eq); [induction l; constructor; auto|]. intros x y <-. apply H. Qed.
Lemma SR_foldM {X Y X' Y'} (Q : X -> Y -> Prop) (R : X' -> Y' -> Prop) f g l l' : Forall2 Q l l' ->
  (forall s t x y, R s t -> Q x y -> SR R (f s x) (g t y)) -> forall s t, R s t -> SR R (foldM f s l) (foldM g t l').
Proof.
  intros H Hf. induction H; intros s t Hs; cbn [foldM]; [apply SR_ret; exact Hs|]. eapply SR_bind; [apply Hf; eassumption|]. intros. auto.
Qed.
Lemma SR_foldM_eq {X X' Y'} (R : X' -> Y' -> Prop) f g (l : list X) s t : R s t ->
  (forall s t x, R s t -> SR R (f s x) (g t x)) -> SR R (foldM f s l) (foldM g t l).
Proof. intros Hs H. apply (SR_foldM eq); [induction l; constructor; auto| |exact Hs]. intros a b x y Hab <-. apply H, Hab. Qed.
Lemma SR_if {X Y} (R : X -> Y -> Prop) (b b' : bool) m n p q : b = b' -> SR R m n -> SR R p q -> SR R (if b then m else p) (if b' then n else q).
Proof. intros <- H1 H2. destruct b; assumption. Qed.
Lemma SRU_of {X Y} (R : X -> Y -> Prop) m n : SR any m n -> (forall c d x y c' d', same_shape c d -> m c = Ok (UOk x, c') -> n d = Ok (UOk y, d') -> R x y) -> SRU R m n.
Proof. intros H1 H2 c d x y c' d' S E F. split; [eapply H2; eauto|]. eapply H1; eauto. Qed.
Lemma SRU_ret {X Y} (R : X -> Y -> Prop) x y : R x y -> SRU R (mret (UOk x)) (mret (UOk y)).
Proof. intros H c d a b c' d' S E F. injection E as <- <-. injection F as <- <-. auto. Qed.
Lemma SRU_bind {X Y X' Y'} (R : X -> Y -> Prop) (S : X' -> Y' -> Prop) (m : M X) (n : M Y) k l :
  SR R m n -> (forall x y, R x y -> SRU S (k x) (l y)) -> SRU S (mbind m k) (mbind n l).
Proof.
  intros Hm Hk c d a b c' d' Sh E F. apply mbind_inv in E as (x & c1 & E1 & E2). apply mbind_inv in F as (y & d1 & F1 & F2).
  destruct (Hm _ _ _ _ _ _ Sh E1 F1) as [Rx S1]. exact (Hk x y Rx _ _ _ _ _ _ S1 E2 F2).
Qed.
Lemma SRU_ubind {X Y X' Y'} (R : X -> Y -> Prop) (S : X' -> Y' -> Prop) m n k l :
  SRU R m n -> (forall x y, R x y -> SRU S (k x) (l y)) -> SRU S (ubind m k) (ubind n l).
Proof.
  intros Hm Hk c d a b c' d' Sh E F. apply ubind_inv in E as (x & c1 & E1 & E2). apply ubind_inv in F as (y & d1 & F1 & F2).
  destruct (Hm _ _ _ _ _ _ Sh E1 F1) as [Rx S1]. exact (Hk x y Rx _ _ _ _ _ _ S1 E2 F2).
Qed.
Lemma SRU_ufoldM {X Y X' Y'} (Q : X -> Y -> Prop) (R : X' -> Y' -> Prop) f g l l' : Forall2 Q l l' ->
  (forall s t x y, R s t -> Q x y -> SRU R (f s x) (g t y)) -> forall s t, R s t -> SRU R (ufoldM f s l) (ufoldM g t l').
Proof.
  intros H Hf. induction H; intros s t Hs; cbn [ufoldM]; [apply SRU_ret; exact Hs|]. eapply SRU_ubind; [apply Hf; eassumption|]. intros. auto.
Qed.
Lemma SRU_ufoldM_eq {X X' Y'} (R : X' -> Y' -> Prop) f g (l : list X) s t : R s t ->
  (forall s t x, R s t -> SRU R (f s x) (g t x)) -> SRU R (ufoldM f s l) (ufoldM g t l).
Proof. intros Hs H. apply (SRU_ufoldM eq); [induction l; constructor; auto| |exact Hs]. intros a b x y Hab <-. apply H, Hab. Qed.
Lemma SRU_if_ok {X Y} (R : X -> Y -> Prop) x y (b b' : bool) e e' : R x y -> SRU R (mret (if b then UOk x else UErr e)) (mret (if b' then UOk y else UErr e')).
Proof. intros H c d a a' c' d' S E F. unfold mret in *; destruct b, b'; inversion E; inversion F; subst; auto. Qed.

(** The recorder. *)
Definition blank (w : wr) : wr := match w with WAdv x _ => WAdv x 0 | w => w end.
Lemma SR_get : SR same_shape mget mget.
Proof. intros c d x y c' d' S E F. injection E as <- <-. injection F as <- <-. auto. Qed.
Lemma same_store w w' c d : blank w = blank w' -> same_shape c d ->
  same_shape (mkCtx (w :: c_mem c) (c_perms c) (base_off c) (range_off c) (select_off c) (base_h c) (range_h c) (select_h c))
             (mkCtx (w' :: c_mem d) (c_perms d) (base_off d) (range_off d) (select_off d) (base_h d) (range_h d) (select_h d)).
Proof.
  intros E S. destruct S. destruct w as [y v|y v|y], w' as [y' v'|y' v'|y']; try discriminate; cbn in E; injection E; intros; subst;
  constructor; cbn; auto; intros x; destruct (cell_eqb y' x); auto; split; discriminate.
Qed.
Lemma SR_writes ws ws' : map blank ws = map blank ws' -> SR any (do_writes ws) (do_writes ws').
Proof.
  intros E c d x y c' d' S F G. injection F as <- <-. injection G as <- <-. split; [exact I|].
  revert ws' E c d S. induction ws as [|w ws IH]; intros [|w' ws'] E c d S; try discriminate; cbn [rev_append].
  - destruct c, d. exact S.
  - cbn in E. injection E as E1 E2. exact (IH ws' E2 _ _ (same_store _ _ _ _ E1 S)).
Qed.
Lemma SR_perms ps : SR any (push_perms ps) (push_perms ps).
Proof. intros c d x y c' d' S F G. injection F as <- <-. injection G as <- <-. split; [exact I|]. destruct S. constructor; cbn; auto; congruence. Qed.
Lemma SR_base_h o : SR any (bump_base_h o) (bump_base_h o).
Proof. intros c d x y c' d' S F G. injection F as <- <-. injection G as <- <-. split; [exact I|]. destruct S. constructor; cbn; auto; congruence. Qed.
Lemma SR_range_h o : SR any (bump_range_h o) (bump_range_h o).
Proof. intros c d x y c' d' S F G. injection F as <- <-. injection G as <- <-. split; [exact I|]. destruct S. constructor; cbn; auto; congruence. Qed.
Lemma SR_select_h o : SR any (bump_select_h o) (bump_select_h o).
Proof. intros c d x y c' d' S F G. injection F as <- <-. injection G as <- <-. split; [exact I|]. destruct S. constructor; cbn; auto; congruence. Qed.
Lemma SR_base_off : SR any incr_base_off incr_base_off.
Proof. intros c d x y c' d' S F G. injection F as <- <-. injection G as <- <-. split; [exact I|]. destruct S. constructor; cbn; auto; congruence. Qed.
Lemma SR_range_off k : SR any (add_range_off k) (add_range_off k).
Proof. intros c d x y c' d' S F G. injection F as <- <-. injection G as <- <-. split; [exact I|]. destruct S. constructor; cbn; auto; congruence. Qed.
Lemma SR_select_off : SR any incr_select_off incr_select_off.
Proof. intros c d x y c' d' S F G. injection F as <- <-. injection G as <- <-. split; [exact I|]. destruct S. constructor; cbn; auto; congruence. Qed.
Lemma SR_check x : SR any (c <- mget ;; massert (is_none (get_fix (c_mem c) x))) (c <- mget ;; massert (is_none (get_fix (c_mem c) x))).
Proof. eapply SR_bind; [apply SR_get|]. intros. eapply SR_wk; [apply SR_assert|]. intros; exact I. Qed.

Lemma F2_mapi {X Y X' Y'} (R : X -> Y -> Prop) (S : X' -> Y' -> Prop) f g l l' : Forall2 R l l' -> (forall i x y, R x y -> S (f i x) (g i y)) ->
  forall k, Forall2 S (mapi_from k f l) (mapi_from k g l').
Proof. intros H Hf. induction H; intros k; cbn [mapi_from]; constructor; auto. Qed.
Notation spair := (both ssch (@eq Z)).
Lemma adv_writes_blank off k p q : spair p q -> map blank (adv_writes off k p) = map blank (adv_writes off k q).
Proof. destruct p as [s z], q as [t y]. intros [H E]. cbn in H, E. subst y. unfold adv_writes. unfold ssch in H. rewrite H. destruct (schema_cell t); reflexivity. Qed.
Lemma adv_perms_eq off k p q : spair p q -> adv_perms off k p = adv_perms off k q.
Proof. destruct p as [s z], q as [t y]. intros [H E]. cbn in H. unfold adv_perms, ssch in *. cbn [fst]. rewrite H. reflexivity. Qed.
Lemma concat_blank off l l' : Forall2 spair l l' -> forall k, map blank (concat (mapi_from k (adv_writes off) l)) = map blank (concat (mapi_from k (adv_writes off) l')).
Proof. intros H. induction H; intros k; cbn [mapi_from concat]; [reflexivity|]. rewrite !map_app, IHForall2, (adv_writes_blank _ _ _ _ H). reflexivity. Qed.
Lemma concat_perms off l l' : Forall2 spair l l' -> forall k, concat (mapi_from k (adv_perms off) l) = concat (mapi_from k (adv_perms off) l').
Proof. intros H. induction H; intros k; cbn [mapi_from concat]; [reflexivity|]. rewrite IHForall2, (adv_perms_eq _ _ _ _ H). reflexivity. Qed.
Ltac sk := eapply SR_bind; [|intros ? ? _].
Lemma SR_rec_one_line off l l' constant muls next : Forall2 spair l l' -> SR any (rec_one_line off l constant muls next) (rec_one_line off l' constant muls next).
Proof.
  intros H. unfold rec_one_line. sk; [apply SR_assert|]. sk; [apply SR_assert|]. sk; [apply SR_base_h|].
  sk; [unfold mapi; rewrite (concat_perms off l l' H); apply SR_perms|]. sk; [apply SR_writes, (concat_blank off l l' H)|]. sk; [apply SR_writes; reflexivity|].
  sk; [destruct next; [apply SR_writes; reflexivity|apply SR_check]|]. destruct constant; [apply SR_writes; reflexivity|apply SR_check].
Qed.
Lemma cells_same off l l' : Forall2 spair l l' ->
  Forall2 sav (mapi (fun i p => mkAv (bcell i off) (schema_val (fst p))) l) (mapi (fun i (p : pair_t) => mkAv (bcell i off) (schema_val (fst p))) l').
Proof. intros H. apply (F2_mapi _ _ _ _ _ _ H). reflexivity. Qed.
Lemma SR_one_line l l' constant muls next : Forall2 spair l l' -> SR (Forall2 sav) (one_line l constant muls next) (one_line l' constant muls next).
Proof.
  intros H. unfold one_line. eapply SR_bind; [apply SR_get|]. intros c d S. cbv zeta. rewrite (sh_base_off _ _ S).
  sk; [apply SR_rec_one_line; exact H|]. sk; [apply SR_base_off|]. apply SR_ret, cells_same, H.
Qed.
Lemma SR_one_line_with_last l l' t t' constant muls next : Forall2 spair l l' -> spair t t' ->
  SR (both (Forall2 sav) sav) (one_line_with_last l t constant muls next) (one_line_with_last l' t' constant muls next).
Proof.
  intros H Ht. unfold one_line_with_last, rec_one_line_with_last. eapply SR_bind; [apply SR_get|]. intros c d S. cbv zeta. rewrite (sh_base_off _ _ S).
  sk; [|sk; [apply SR_base_off|]; apply SR_ret; split; [apply cells_same, H|reflexivity]].
  sk; [apply SR_assert|]. sk; [apply SR_rec_one_line; exact H|]. sk; [rewrite (adv_perms_eq _ _ _ _ Ht); apply SR_perms|].
  apply SR_writes, adv_writes_blank, Ht.
Qed.
Section R.
Context {NM : NMod}.
Lemma SR_one off v v' a a' b : SR sav (assign_one_line_range_value off v a b) (assign_one_line_range_value off v' a' b).
Proof.
  unfold assign_one_line_range_value. sk; [apply SR_assert|]. sk; [apply SR_range_h|]. sk; [apply SR_nth_any|].
  sk; [apply SR_writes; reflexivity|]. apply SR_ret. reflexivity.
Qed.
Lemma SR_two off v v' a a' b : SR sav (assign_two_line_range_value off v a b) (assign_two_line_range_value off v' a' b).
Proof.
  unfold assign_two_line_range_value. do 2 (sk; [apply SR_assert|]). sk; [apply SR_range_h|]. do 4 (sk; [apply SR_nth_any|]).
  sk; [apply SR_writes; reflexivity|]. apply SR_ret. reflexivity.
Qed.
Lemma SR_three off v v' a a' b : SR sav (assign_three_line_range_value off v a b) (assign_three_line_range_value off v' a' b).
Proof.
  unfold assign_three_line_range_value. do 2 (sk; [apply SR_assert|]). sk; [apply SR_range_h|]. do 6 (sk; [apply SR_nth_any|]).
  sk; [apply SR_writes; reflexivity|]. apply SR_ret. reflexivity.
Qed.
Lemma sr_assign_common bn bn' : SR sav (assign_common bn) (assign_common bn').
Proof.
  unfold assign_common. eapply SR_bind; [apply SR_get|]. intros c d S. rewrite (sh_range_off _ _ S).
  eapply SR_bind; [apply SR_one|intros]. sk; [apply SR_range_off|]. apply SR_ret. assumption.
Qed.
Lemma sr_assign_limb bn bn' k b : SR sav (assign_limb bn k b) (assign_limb bn' k b).
Proof.
  unfold assign_limb. eapply SR_bind; [apply SR_get|]. intros c d S. rewrite (sh_range_off _ _ S).
  eapply (SR_bind (both sav eq)); [|intros x y [A B]; rewrite B; sk; [apply SR_range_off|]; apply SR_ret; exact A].
  unfold assign_range_value.
  destruct (b <=? _); [eapply SR_bind; [apply SR_one|intros; apply SR_ret; split; [assumption|reflexivity]]|].
  destruct (b <? _); [apply SR_panic_l|].
  destruct (b <=? _); [eapply SR_bind; [apply SR_two|intros; apply SR_ret; split; [assumption|reflexivity]]|].
  destruct (b <=? _); [eapply SR_bind; [apply SR_three|intros; apply SR_ret; split; [assumption|reflexivity]]|apply SR_panic_l].
Qed.
Lemma sr_assign_cache_value v v' off g s : sav v v' -> SR any (assign_cache_value v off g s) (assign_cache_value v' off g s).
Proof.
  intros H. unfold assign_cache_value, rec_assign_cache_value. eapply SR_bind; [apply SR_get|]. intros c d S. rewrite (sh_select_off _ _ S).
  sk; [|apply SR_select_off]. sk; [apply SR_select_h|]. rewrite H. sk; [apply SR_perms|]. apply SR_writes. reflexivity.
Qed.
(** Of the value to be selected only the witness is used. *)
Lemma sr_assign_selected_value v v' off g s s' : sav s s' -> SR sav (assign_selected_value v off g s) (assign_selected_value v' off g s').
Proof.
  intros H. unfold assign_selected_value, rec_assign_select_value. eapply SR_bind; [apply SR_get|]. intros c d S. rewrite (sh_select_off _ _ S).
  eapply SR_bind; [|intros; sk; [apply SR_select_off|]; apply SR_ret; eassumption]. sk; [apply SR_select_h|]. rewrite H. sk; [apply SR_perms|].
  sk; [apply SR_writes; reflexivity|]. apply SR_ret. reflexivity.
Qed.
End R.

Notation smterm := (both (both (both sav sav) sav) (@eq Z)).
(** Solve relations between handles. *)
Ltac dst := unfold acond in *;
  repeat (match goal with
  | H : both _ _ _ _ |- _ => destruct H as [? ?]
  | H : saint ?a ?b |- _ => match goal with _ : i_times a = i_times b |- _ => fail 1 | _ => pose proof (sa_limbs _ _ H); pose proof (sa_native _ _ H); pose proof (sa_times _ _ H) end
  | H : scurv ?a ?b |- _ => destruct H as [? ?]
  | H : spt ?a ?b |- _ => destruct H as [? ? ?]
  | H : snz ?a ?b |- _ => destruct H as [? ?]
  | H : sptc ?a ?b |- _ => destruct H as [? ? ? ?]
  | H : any _ _ |- _ => clear H
  | H : @eq Z ?x ?y |- _ => is_var y; subst y
  | H : @eq nat ?x ?y |- _ => is_var y; subst y
  | H : @eq (option _) ?x ?y |- _ => is_var y; subst y
  | H : @eq (list Z) ?x ?y |- _ => is_var y; subst y
  end; cbn [fst snd] in *); cbn [fst snd] in *.
Lemma F2_len {X Y} (R : X -> Y -> Prop) l l' : Forall2 R l l' -> length l = length l'.
Proof. induction 1; cbn; congruence. Qed.
Lemma F2_combine {X Y Z'} (R : X -> Y -> Prop) l l' (k : list Z') : Forall2 R l l' -> Forall2 (both R eq) (combine l k) (combine l' k).
Proof. intros H. revert k. induction H; intros [|z k]; cbn [combine]; constructor; auto. split; auto. Qed.
Lemma F2_map {X Y X' Y'} (R : X -> Y -> Prop) (S : X' -> Y' -> Prop) f g l l' : Forall2 R l l' -> (forall x y, R x y -> S (f x) (g y)) ->
  Forall2 S (map f l) (map g l').
Proof. intros H Hf. induction H; cbn [map]; constructor; auto. Qed.
Lemma F2_firstn {X Y} (R : X -> Y -> Prop) l l' k : Forall2 R l l' -> Forall2 R (firstn k l) (firstn k l').
Proof. intros H. revert k. induction H; intros [|k]; cbn [firstn]; constructor; auto. Qed.
Lemma F2_skipn {X Y} (R : X -> Y -> Prop) l l' k : Forall2 R l l' -> Forall2 R (skipn k l) (skipn k l').
Proof. intros H. revert k. induction H; intros [|k]; cbn [skipn]; try constructor; auto. Qed.
Lemma F2_app {X Y} (R : X -> Y -> Prop) a b c d : Forall2 R a b -> Forall2 R c d -> Forall2 R (a ++ c) (b ++ d).
Proof. intros H. induction H; cbn [app]; [auto|constructor; auto]. Qed.
Lemma F2_rev {X Y} (R : X -> Y -> Prop) a b : Forall2 R a b -> Forall2 R (rev a) (rev b).
Proof. intros H. induction H; cbn [rev]; [constructor|]. apply F2_app; [assumption|repeat constructor; assumption]. Qed.
Lemma F2_repeat {X Y} (R : X -> Y -> Prop) a b k : R a b -> Forall2 R (repeat a k) (repeat b k).
Proof. intros H. induction k; cbn; constructor; auto. Qed.
Lemma F2_concat {X Y} (R : X -> Y -> Prop) l l' : Forall2 (Forall2 R) l l' -> Forall2 R (concat l) (concat l').
Proof. intros H. induction H; cbn [concat]; [constructor|]. apply F2_app; assumption. Qed.
Lemma F2_chunks {X Y} (R : X -> Y -> Prop) k l l' : Forall2 R l l' -> Forall2 (Forall2 R) (chunks k l) (chunks k l').
Proof.
  intros H. unfold chunks. rewrite (F2_len _ _ _ H). generalize (length l'); intros f0.
  revert l l' H. induction f0 as [|f IH]; intros l l' H; cbn [chunks_fuel]; [constructor|].
  inversion H as [|x y l1 l2 Hx Hl]; subst; [constructor|].
  assert (F : forall n l l', Forall2 R l l' -> Forall2 R (firstn n l) (firstn n l') /\ Forall2 R (skipn n l) (skipn n l')).
  { clear. induction n as [|n IH]; intros l l' H; [cbn; split; auto|]. inversion H; subst; cbn [firstn skipn]; [auto|].
    destruct (IH _ _ H1). split; [constructor|]; auto. }
  destruct (F k _ _ H) as [F1 F2]. constructor; auto.
Qed.
Ltac rel1 := first [eassumption | reflexivity | exact Logic.I | congruence].
Ltac rel :=
  dst; cbn [i_limbs i_native i_times k_v k_z p_x p_y p_z nz_x nz_y pc_x pc_y pc_z pc_c fst snd to_point pa pu];
  first [ solve [rel1]
  | match goal with
    | |- Forall2 _ (map _ _) (map _ _) => eapply F2_map; [|intros ? ? ?]; rel
    | |- Forall2 _ (combine _ _) (combine _ _) => eapply F2_combine; rel
    | |- Forall2 _ (firstn _ _) (firstn _ _) => eapply F2_firstn; rel
    | |- Forall2 _ (skipn _ _) (skipn _ _) => eapply F2_skipn; rel
    | |- Forall2 _ (chunks _ _) (chunks _ _) => eapply F2_chunks; rel
    | |- Forall2 _ (rev _) (rev _) => eapply F2_rev; rel
    | |- Forall2 _ (_ ++ _) (_ ++ _) => eapply F2_app; rel
    | |- Forall2 _ (repeat _ _) (repeat _ _) => eapply F2_repeat; rel
    | |- Forall2 _ (concat _) (concat _) => eapply F2_concat; rel
    | |- Forall2 _ (mapi _ _) (mapi _ _) => eapply F2_mapi; [|intros ? ? ? ?]; rel
    | |- Forall2 _ _ _ => constructor; rel
    | |- saint _ _ => constructor; rel
    | |- scurv _ _ => constructor; rel
    | |- spt _ _ => constructor; rel
    | |- snz _ _ => constructor; rel
    | |- sptc _ _ => constructor; rel
    | |- both _ _ _ _ => split; rel
    | |- any _ _ => exact Logic.I
    | |- ssch _ _ => unfold ssch, sav in *; cbn [pa pu fst snd schema_cell]; congruence
    | |- sav _ _ => unfold sav in *; cbn [a_cell] in *; congruence
    | |- sopt _ _ => unfold sopt, sav in *; cbn [option_map]; congruence
    end ].
Create HintDb srdb discriminated.
Global Hint Constants Opaque : srdb.
Global Hint Transparent acond : srdb.
Ltac sr_known := match goal with |- SR _ _ _ => idtac | |- SRU _ _ _ => idtac end; solve [eauto 1 with srdb nocore].
Ltac sra1 :=
  match goal with
  | |- SR _ (mbind _ _) (mbind _ _) => eapply SR_bind; [|intros ? ? ?; dst]
  | |- SRU _ (mbind _ _) (mbind _ _) => eapply SRU_bind; [|intros ? ? ?; dst]
  | |- SRU _ (ubind _ _) (ubind _ _) => eapply SRU_ubind; [|intros ? ? ?; dst]
  | |- SR _ (massert _) (massert _) => apply SR_assert
  | |- SR _ mpanic _ => apply SR_panic_l
  | |- SR _ _ mpanic => apply SR_panic_r
  | |- SR _ (mnth ?l ?i) (mnth ?l ?i) => apply SR_nth_eq
  | |- SR _ (mnth _ ?i) (mnth _ ?i) => apply SR_nth; rel
  | |- SR _ (mopt ?o) (mopt ?o) => apply SR_opt_eq
  | |- SR _ (mnth _ _) (mnth _ _) => apply SR_nth_any
  | |- SR _ (mopt _) (mopt _) => apply SR_opt_any
  | |- SR _ (one_line _ _ _ _) (one_line _ _ _ _) => apply SR_one_line; rel
  | |- SR _ (one_line_with_last _ _ _ _ _) (one_line_with_last _ _ _ _ _) => apply SR_one_line_with_last; rel
  | |- SR _ (mapM _ ?l) (mapM _ ?l) => eapply SR_mapM_eq; intros ?
  | |- SR _ (mapM _ _) (mapM _ _) => eapply SR_mapM; [solve [rel]|intros ? ? ?; dst]
  | |- SR _ (mret _) (mret _) => apply SR_ret; solve [rel]
  | |- SRU _ (mret (UOk _)) (mret (UOk _)) => apply SRU_ret; solve [rel]
  | |- SRU _ (mret (if _ then _ else _)) (mret (if _ then _ else _)) => apply SRU_if_ok; solve [rel]
  | |- SR _ (if _ then _ else _) (if _ then _ else _) => apply SR_if; [solve [congruence]| |]
  end.
Ltac tms := repeat match goal with H : i_times ?a = i_times ?b |- context[i_times ?b] => tryif constr_eq a b then fail else rewrite <- H
  | H : @eq Z (snd ?a) (snd ?b) |- context[snd ?b] => tryif constr_eq a b then fail else rewrite <- H end.
Ltac sra := repeat (dst; tms; cbv beta zeta; first [sra1 | sr_known ]).

Ltac fld R := match goal with
  | |- SR _ (foldM _ _ ?l) (foldM _ _ ?l) => eapply (SR_foldM_eq R); [solve [rel]|intros ? ? ? ?; dst]
  | |- SR _ (foldM _ _ _) (foldM _ _ _) => eapply (SR_foldM _ R); [solve [rel]|intros ? ? ? ? ? ?; dst|solve [rel]]
  end.
Global Hint Extern 0 (SR _ (assign_common _) (assign_common _)) => (eapply sr_assign_common; rel) : srdb.
Global Hint Extern 0 (SR _ (assign_limb _ _ _) (assign_limb _ _ _)) => (eapply sr_assign_limb; rel) : srdb.
Global Hint Extern 0 (SR _ (assign_cache_value _ _ _ _) (assign_cache_value _ _ _ _)) => (eapply sr_assign_cache_value; rel) : srdb.
Global Hint Extern 0 (SR _ (assign_selected_value _ _ _ _) (assign_selected_value _ _ _ _)) => (eapply sr_assign_selected_value; rel) : srdb.
Lemma sr_one_line_add {NM : NMod} pairs pairs' constant : (Forall2 spair) pairs pairs' -> SR (Forall2 sav) (one_line_add pairs constant) (one_line_add pairs' constant).
Proof. intros; dst; unfold one_line_add; sra. Qed.
Global Hint Extern 0 (SR _ (one_line_add _ _) (one_line_add _ _)) => (eapply sr_one_line_add; rel) : srdb.
Lemma sr_sum_with_constant_in_one_line {NM : NMod} elems elems' constant : (Forall2 (both sav (@eq Z))) elems elems' -> SR sav (sum_with_constant_in_one_line elems constant) (sum_with_constant_in_one_line elems' constant).
Proof. intros; dst; unfold sum_with_constant_in_one_line; sra. Qed.
Global Hint Extern 0 (SR _ (sum_with_constant_in_one_line _ _) (sum_with_constant_in_one_line _ _)) => (eapply sr_sum_with_constant_in_one_line; rel) : srdb.
Lemma sr_sum_with_constant {NM : NMod} elems elems' constant : (Forall2 (both sav (@eq Z))) elems elems' -> SR sav (sum_with_constant elems constant) (sum_with_constant elems' constant).
Proof. intros; dst; unfold sum_with_constant; pose proof (F2_len _ _ _ H) as HL; sra; try fld sav; sra. Qed.
Global Hint Extern 0 (SR _ (sum_with_constant _ _) (sum_with_constant _ _)) => (eapply sr_sum_with_constant; rel) : srdb.
Lemma sr_add {NM : NMod} a a' b b' : sav a a' -> sav b b' -> SR sav (add a b) (add a' b').
Proof. intros; dst; unfold add; sra. Qed.
Global Hint Extern 0 (SR _ (add _ _) (add _ _)) => (eapply sr_add; rel) : srdb.
Lemma sr_add_constant {NM : NMod} a a' c : sav a a' -> SR sav (add_constant a c) (add_constant a' c).
Proof. intros; dst; unfold add_constant; sra. Qed.
Global Hint Extern 0 (SR _ (add_constant _ _) (add_constant _ _)) => (eapply sr_add_constant; rel) : srdb.
Lemma sr_sub {NM : NMod} a a' b b' : sav a a' -> sav b b' -> SR sav (sub a b) (sub a' b').
Proof. intros; dst; unfold sub; sra. Qed.
Global Hint Extern 0 (SR _ (sub _ _) (sub _ _)) => (eapply sr_sub; rel) : srdb.
Lemma sr_mul {NM : NMod} a a' b b' : sav a a' -> sav b b' -> SR sav (mul a b) (mul a' b').
Proof. intros; dst; unfold mul; sra. Qed.
Global Hint Extern 0 (SR _ (mul _ _) (mul _ _)) => (eapply sr_mul; rel) : srdb.
Lemma sr_mul_add_constant {NM : NMod} a a' b b' c : sav a a' -> sav b b' -> SR sav (mul_add_constant a b c) (mul_add_constant a' b' c).
Proof. intros; dst; unfold mul_add_constant; sra. Qed.
Global Hint Extern 0 (SR _ (mul_add_constant _ _ _) (mul_add_constant _ _ _)) => (eapply sr_mul_add_constant; rel) : srdb.
Lemma sr_mul_add {NM : NMod} a a' b b' ab_coeff c c' c_coeff : sav a a' -> sav b b' -> sav c c' -> SR sav (mul_add a b ab_coeff c c_coeff) (mul_add a' b' ab_coeff c' c_coeff).
Proof. intros; dst; unfold mul_add; sra. Qed.
Global Hint Extern 0 (SR _ (mul_add _ _ _ _ _) (mul_add _ _ _ _ _)) => (eapply sr_mul_add; rel) : srdb.
Lemma sr_mul_add_lines {NM : NMod} first t t' ls ls' : (Forall2 smterm) ls ls' -> SR any (mul_add_lines first t ls) (mul_add_lines first t' ls').
Proof. intros H. revert first t t'. induction H as [|[[[a b] c] z] [[[a' b'] c'] z'] ls ls' H]; intros; cbn [mul_add_lines]; dst; sra; try apply IHForall2. Qed.
Global Hint Extern 0 (SR _ (mul_add_lines _ _ _) (mul_add_lines _ _ _)) => (eapply sr_mul_add_lines; rel) : srdb.
Lemma sr_mul_add_with_next_line {NM : NMod} ls ls' : (Forall2 smterm) ls ls' -> SR sav (mul_add_with_next_line ls) (mul_add_with_next_line ls').
Proof. intros H. unfold mul_add_with_next_line. destruct H as [|[[[a b] c] z] [[[a' b'] c'] z'] ls ls' H H0]; [apply SR_panic_l|]; dst. destruct H0; [sra|]. eapply SR_bind; [apply sr_mul_add_lines; repeat (constructor; auto)|intros; sra]. Qed.
Global Hint Extern 0 (SR _ (mul_add_with_next_line _) (mul_add_with_next_line _)) => (eapply sr_mul_add_with_next_line; rel) : srdb.
Lemma sr_invert_unsafe {NM : NMod} a a' : sav a a' -> SR sav (invert_unsafe a) (invert_unsafe a').
Proof. intros; dst; unfold invert_unsafe; sra. Qed.
Global Hint Extern 0 (SR _ (invert_unsafe _) (invert_unsafe _)) => (eapply sr_invert_unsafe; rel) : srdb.
Lemma sr_invert {NM : NMod} a a' : sav a a' -> SR (both sav sav) (invert a) (invert a').
Proof. intros; dst; unfold invert; sra. Qed.
Global Hint Extern 0 (SR _ (invert _) (invert _)) => (eapply sr_invert; rel) : srdb.
Lemma sr_is_zero {NM : NMod} a a' : sav a a' -> SR sav (is_zero a) (is_zero a').
Proof. intros; dst; unfold is_zero; sra. Qed.
Global Hint Extern 0 (SR _ (is_zero _) (is_zero _)) => (eapply sr_is_zero; rel) : srdb.
Lemma sr_div_unsafe {NM : NMod} a a' b b' : sav a a' -> sav b b' -> SR sav (div_unsafe a b) (div_unsafe a' b').
Proof. intros; dst; unfold div_unsafe; sra. Qed.
Global Hint Extern 0 (SR _ (div_unsafe _ _) (div_unsafe _ _)) => (eapply sr_div_unsafe; rel) : srdb.
Lemma sr_assign_constant {NM : NMod} v : SR sav (assign_constant v) (assign_constant v).
Proof. intros; dst; unfold assign_constant; sra. Qed.
Global Hint Extern 0 (SR _ (assign_constant _) (assign_constant _)) => (eapply sr_assign_constant; rel) : srdb.
Lemma sr_assign {NM : NMod} v v' : SR sav (assign v) (assign v').
Proof. intros; dst; unfold assign; sra. Qed.
Global Hint Extern 0 (SR _ (assign _) (assign _)) => (eapply sr_assign; rel) : srdb.
Lemma sr_assign_bit {NM : NMod} a a' : SR sav (assign_bit a) (assign_bit a').
Proof. intros; dst; unfold assign_bit; sra. Qed.
Global Hint Extern 0 (SR _ (assign_bit _) (assign_bit _)) => (eapply sr_assign_bit; rel) : srdb.
Lemma sr_assert_equal {NM : NMod} a a' b b' : sav a a' -> sav b b' -> SR any (assert_equal a b) (assert_equal a' b').
Proof. intros; dst; unfold assert_equal; sra. Qed.
Global Hint Extern 0 (SR _ (assert_equal _ _) (assert_equal _ _)) => (eapply sr_assert_equal; rel) : srdb.
Lemma sr_assert_constant {NM : NMod} a a' b : sav a a' -> SR any (assert_constant a b) (assert_constant a' b).
Proof. intros; dst; unfold assert_constant; sra. Qed.
Global Hint Extern 0 (SR _ (assert_constant _ _) (assert_constant _ _)) => (eapply sr_assert_constant; rel) : srdb.
Lemma sr_assert_bit {NM : NMod} a a' : sav a a' -> SR any (assert_bit a) (assert_bit a').
Proof. intros; dst; unfold assert_bit; sra. Qed.
Global Hint Extern 0 (SR _ (assert_bit _) (assert_bit _)) => (eapply sr_assert_bit; rel) : srdb.
Lemma sr_and_ {NM : NMod} a a' b b' : sav a a' -> sav b b' -> SR sav (and_ a b) (and_ a' b').
Proof. intros; dst; unfold and_; sra. Qed.
Global Hint Extern 0 (SR _ (and_ _ _) (and_ _ _)) => (eapply sr_and_; rel) : srdb.
Lemma sr_not_ {NM : NMod} a a' : sav a a' -> SR sav (not_ a) (not_ a').
Proof. intros; dst; unfold not_; sra. Qed.
Global Hint Extern 0 (SR _ (not_ _) (not_ _)) => (eapply sr_not_; rel) : srdb.
Lemma sr_not_and {NM : NMod} a a' b b' : sav a a' -> sav b b' -> SR sav (not_and a b) (not_and a' b').
Proof. intros; dst; unfold not_and; sra. Qed.
Global Hint Extern 0 (SR _ (not_and _ _) (not_and _ _)) => (eapply sr_not_and; rel) : srdb.
Lemma sr_or_ {NM : NMod} a a' b b' : sav a a' -> sav b b' -> SR sav (or_ a b) (or_ a' b').
Proof. intros; dst; unfold or_; sra. Qed.
Global Hint Extern 0 (SR _ (or_ _ _) (or_ _ _)) => (eapply sr_or_; rel) : srdb.
Lemma sr_xor_ {NM : NMod} a a' b b' : sav a a' -> sav b b' -> SR sav (xor_ a b) (xor_ a' b').
Proof. intros; dst; unfold xor_; sra. Qed.
Global Hint Extern 0 (SR _ (xor_ _ _) (xor_ _ _)) => (eapply sr_xor_; rel) : srdb.
Lemma sr_xnor_ {NM : NMod} a a' b b' : sav a a' -> sav b b' -> SR sav (xnor_ a b) (xnor_ a' b').
Proof. intros; dst; unfold xnor_; sra. Qed.
Global Hint Extern 0 (SR _ (xnor_ _ _) (xnor_ _ _)) => (eapply sr_xnor_; rel) : srdb.
Lemma sr_bisec {NM : NMod} cond cond' a a' b b' : sav cond cond' -> sav a a' -> sav b b' -> SR sav (bisec cond a b) (bisec cond' a' b').
Proof. intros; dst; unfold bisec; sra. Qed.
Global Hint Extern 0 (SR _ (bisec _ _ _) (bisec _ _ _)) => (eapply sr_bisec; rel) : srdb.
Lemma sr_bisec_cond {NM : NMod} cond cond' a a' b b' : sav cond cond' -> sav a a' -> sav b b' -> SR sav (bisec_cond cond a b) (bisec_cond cond' a' b').
Proof. intros; dst; unfold bisec_cond; sra. Qed.
Global Hint Extern 0 (SR _ (bisec_cond _ _ _) (bisec_cond _ _ _)) => (eapply sr_bisec_cond; rel) : srdb.
Lemma sr_assert_true {NM : NMod} a a' : sav a a' -> SR any (assert_true a) (assert_true a').
Proof. intros; dst; unfold assert_true; sra. Qed.
Global Hint Extern 0 (SR _ (assert_true _) (assert_true _)) => (eapply sr_assert_true; rel) : srdb.
Lemma sr_assert_false {NM : NMod} a a' : sav a a' -> SR any (assert_false a) (assert_false a').
Proof. intros; dst; unfold assert_false; sra. Qed.
Global Hint Extern 0 (SR _ (assert_false _) (assert_false _)) => (eapply sr_assert_false; rel) : srdb.
Lemma sr_try_assert_false {NM : NMod} a a' : sav a a' -> SR any (try_assert_false a) (try_assert_false a').
Proof. intros; dst; unfold try_assert_false; sra. Qed.
Global Hint Extern 0 (SR _ (try_assert_false _) (try_assert_false _)) => (eapply sr_try_assert_false; rel) : srdb.
Lemma sr_assign_nonleading_limb {NM : NMod} bn bn' : SR sav (assign_nonleading_limb bn) (assign_nonleading_limb bn').
Proof. intros; dst; unfold assign_nonleading_limb; sra. Qed.
Global Hint Extern 0 (SR _ (assign_nonleading_limb _) (assign_nonleading_limb _)) => (eapply sr_assign_nonleading_limb; rel) : srdb.
Lemma sr_assign_w_ceil_leading_limb {NM : NMod} I0 bn bn' : SR sav (assign_w_ceil_leading_limb I0 bn) (assign_w_ceil_leading_limb I0 bn').
Proof. intros; dst; unfold assign_w_ceil_leading_limb; sra. Qed.
Global Hint Extern 0 (SR _ (assign_w_ceil_leading_limb _ _) (assign_w_ceil_leading_limb _ _)) => (eapply sr_assign_w_ceil_leading_limb; rel) : srdb.
Lemma sr_assign_d_leading_limb {NM : NMod} I0 bn bn' : SR sav (assign_d_leading_limb I0 bn) (assign_d_leading_limb I0 bn').
Proof. intros; dst; unfold assign_d_leading_limb; sra. Qed.
Global Hint Extern 0 (SR _ (assign_d_leading_limb _ _) (assign_d_leading_limb _ _)) => (eapply sr_assign_d_leading_limb; rel) : srdb.
Lemma sr_native_of {NM : NMod} x0 limbs limbs' : (Forall2 sav) limbs limbs' -> SR sav (native_of x0 limbs) (native_of x0 limbs').
Proof. intros; dst; unfold native_of; sra. Qed.
Global Hint Extern 0 (SR _ (native_of _ _) (native_of _ _)) => (eapply sr_native_of; rel) : srdb.
Lemma sr_mul_column {NM : NMod} x0 a a' b b' d d' pos : saint a a' -> saint b b' -> (Forall2 sav) d d' -> SR sav (mul_column x0 a b d pos) (mul_column x0 a' b' d' pos).
Proof. intros; dst; unfold mul_column; cbv zeta. eapply (SR_bind (Forall2 smterm)); [eapply SR_mapM_eq; intros; sra|intros; sra]. Qed.
Global Hint Extern 0 (SR _ (mul_column _ _ _ _ _) (mul_column _ _ _ _ _)) => (eapply sr_mul_column; rel) : srdb.
Lemma sr_mul_carry {NM : NMod} x0 u u' : sav u u' -> SR (both sav sav) (mul_carry x0 u) (mul_carry x0 u').
Proof. intros; dst; unfold mul_carry; sra. Qed.
Global Hint Extern 0 (SR _ (mul_carry _ _) (mul_carry _ _)) => (eapply sr_mul_carry; rel) : srdb.
Lemma sr_mul_equation_on_limbs {NM : NMod} x0 a a' b b' d d' rem rem' : saint a a' -> saint b b' -> (Forall2 sav) d d' -> saint rem rem' -> SR any (mul_equation_on_limbs x0 a b d rem) (mul_equation_on_limbs x0 a' b' d' rem').
Proof. intros; dst; unfold mul_equation_on_limbs; sra; try fld (both sav sav); sra. Qed.
Global Hint Extern 0 (SR _ (mul_equation_on_limbs _ _ _ _ _) (mul_equation_on_limbs _ _ _ _ _)) => (eapply sr_mul_equation_on_limbs; rel) : srdb.
Lemma sr_mul_equation_on_native {NM : NMod} x0 a a' b b' d_native d_native' rem rem' : saint a a' -> saint b b' -> sav d_native d_native' -> saint rem rem' -> SR any (mul_equation_on_native x0 a b d_native rem) (mul_equation_on_native x0 a' b' d_native' rem').
Proof. intros; dst; unfold mul_equation_on_native; sra. Qed.
Global Hint Extern 0 (SR _ (mul_equation_on_native _ _ _ _ _) (mul_equation_on_native _ _ _ _ _)) => (eapply sr_mul_equation_on_native; rel) : srdb.
Lemma sr_assign_w {NM : NMod} x0 w w' : SR saint (assign_w x0 w) (assign_w x0 w').
Proof. intros; dst; unfold assign_w; sra. Qed.
Global Hint Extern 0 (SR _ (assign_w _ _) (assign_w _ _)) => (eapply sr_assign_w; rel) : srdb.
Lemma sr_assign_d {NM : NMod} x0 d d' : SR (both (Forall2 sav) sav) (assign_d x0 d) (assign_d x0 d').
Proof. intros; dst; unfold assign_d; sra. Qed.
Global Hint Extern 0 (SR _ (assign_d _ _) (assign_d _ _)) => (eapply sr_assign_d; rel) : srdb.
Lemma sr_reduce_step {NM : NMod} x0 a a' d d' rem rem' ad ad' arem arem' last last' i : saint a a' -> sav ad ad' -> saint arem arem' -> sopt last last' -> SR sopt (reduce_step x0 a d rem ad arem last i) (reduce_step x0 a' d' rem' ad' arem' last' i).
Proof. intros; dst; unfold reduce_step; sra. destruct last, last'; try discriminate; sra. Qed.
Global Hint Extern 0 (SR _ (reduce_step _ _ _ _ _ _ _ _) (reduce_step _ _ _ _ _ _ _ _)) => (eapply sr_reduce_step; rel) : srdb.
Lemma sr_reduce {NM : NMod} x0 a a' : saint a a' -> SR saint (reduce x0 a) (reduce x0 a').
Proof. intros; dst; unfold reduce; sra; try fld sopt; sra. Qed.
Global Hint Extern 0 (SR _ (reduce _ _) (reduce _ _)) => (eapply sr_reduce; rel) : srdb.
Lemma sr_conditionally_reduce {NM : NMod} x0 a a' : saint a a' -> SR saint (conditionally_reduce x0 a) (conditionally_reduce x0 a').
Proof. intros; dst; unfold conditionally_reduce; sra. Qed.
Global Hint Extern 0 (SR _ (conditionally_reduce _ _) (conditionally_reduce _ _)) => (eapply sr_conditionally_reduce; rel) : srdb.
Lemma sr_int_add {NM : NMod} x0 a a' b b' : saint a a' -> saint b b' -> SR saint (int_add x0 a b) (int_add x0 a' b').
Proof. intros; dst; unfold int_add; sra. Qed.
Global Hint Extern 0 (SR _ (int_add _ _ _) (int_add _ _ _)) => (eapply sr_int_add; rel) : srdb.
Lemma sr_pad_of {NM : NMod} x0 times : SR (@eq (list Z)) (pad_of x0 times) (pad_of x0 times).
Proof. intros; dst; unfold pad_of; sra. Qed.
Global Hint Extern 0 (SR _ (pad_of _ _) (pad_of _ _)) => (eapply sr_pad_of; rel) : srdb.
Lemma sr_int_sub {NM : NMod} x0 a a' b b' : saint a a' -> saint b b' -> SR saint (int_sub x0 a b) (int_sub x0 a' b').
Proof. intros; dst; unfold int_sub; sra. Qed.
Global Hint Extern 0 (SR _ (int_sub _ _ _) (int_sub _ _ _)) => (eapply sr_int_sub; rel) : srdb.
Lemma sr_int_neg {NM : NMod} x0 a a' : saint a a' -> SR saint (int_neg x0 a) (int_neg x0 a').
Proof. intros; dst; unfold int_neg; sra. Qed.
Global Hint Extern 0 (SR _ (int_neg _ _) (int_neg _ _)) => (eapply sr_int_neg; rel) : srdb.
Lemma sr_int_mul {NM : NMod} x0 a a' b b' : saint a a' -> saint b b' -> SR saint (int_mul x0 a b) (int_mul x0 a' b').
Proof. intros; dst; unfold int_mul; sra. Qed.
Global Hint Extern 0 (SR _ (int_mul _ _ _) (int_mul _ _ _)) => (eapply sr_int_mul; rel) : srdb.
Lemma sr_is_pure_zero {NM : NMod} a a' : saint a a' -> SR sav (is_pure_zero a) (is_pure_zero a').
Proof. intros; dst; unfold is_pure_zero; sra. Qed.
Global Hint Extern 0 (SR _ (is_pure_zero _) (is_pure_zero _)) => (eapply sr_is_pure_zero; rel) : srdb.
Lemma sr_is_pure_w_modulus {NM : NMod} x0 a a' : saint a a' -> SR sav (is_pure_w_modulus x0 a) (is_pure_w_modulus x0 a').
Proof. intros; dst; unfold is_pure_w_modulus; sra; try fld sav; sra. Qed.
Global Hint Extern 0 (SR _ (is_pure_w_modulus _ _) (is_pure_w_modulus _ _)) => (eapply sr_is_pure_w_modulus; rel) : srdb.
Lemma sr_is_int_zero {NM : NMod} x0 a a' : saint a a' -> SR sav (is_int_zero x0 a) (is_int_zero x0 a').
Proof. intros; dst; unfold is_int_zero; sra. Qed.
Global Hint Extern 0 (SR _ (is_int_zero _ _) (is_int_zero _ _)) => (eapply sr_is_int_zero; rel) : srdb.
Lemma sr_is_int_equal {NM : NMod} x0 a a' b b' : saint a a' -> saint b b' -> SR sav (is_int_equal x0 a b) (is_int_equal x0 a' b').
Proof. intros; dst; unfold is_int_equal; sra. Qed.
Global Hint Extern 0 (SR _ (is_int_equal _ _ _) (is_int_equal _ _ _)) => (eapply sr_is_int_equal; rel) : srdb.
Lemma sr_int_div {NM : NMod} x0 a a' b b' : saint a a' -> saint b b' -> SR (both sav saint) (int_div x0 a b) (int_div x0 a' b').
Proof. intros; dst; unfold int_div; sra. Qed.
Global Hint Extern 0 (SR _ (int_div _ _ _) (int_div _ _ _)) => (eapply sr_int_div; rel) : srdb.
Lemma sr_assign_int_constant {NM : NMod} x0 w : SR saint (assign_int_constant x0 w) (assign_int_constant x0 w).
Proof. intros; dst; unfold assign_int_constant; sra. Qed.
Global Hint Extern 0 (SR _ (assign_int_constant _ _) (assign_int_constant _ _)) => (eapply sr_assign_int_constant; rel) : srdb.
Lemma sr_int_unsafe_invert {NM : NMod} x0 x x' : saint x x' -> SR saint (int_unsafe_invert x0 x) (int_unsafe_invert x0 x').
Proof. intros; dst; unfold int_unsafe_invert; sra. Qed.
Global Hint Extern 0 (SR _ (int_unsafe_invert _ _) (int_unsafe_invert _ _)) => (eapply sr_int_unsafe_invert; rel) : srdb.
Lemma sr_assert_int_equal {NM : NMod} x0 a a' b b' : saint a a' -> saint b b' -> SR any (assert_int_equal x0 a b) (assert_int_equal x0 a' b').
Proof. intros; dst; unfold assert_int_equal; sra. Qed.
Global Hint Extern 0 (SR _ (assert_int_equal _ _ _) (assert_int_equal _ _ _)) => (eapply sr_assert_int_equal; rel) : srdb.
Lemma sr_int_square {NM : NMod} x0 a a' : saint a a' -> SR saint (int_square x0 a) (int_square x0 a').
Proof. intros; dst; unfold int_square; sra. Qed.
Global Hint Extern 0 (SR _ (int_square _ _) (int_square _ _)) => (eapply sr_int_square; rel) : srdb.
Lemma sr_int_mul_small_constant {NM : NMod} x0 a a' b : saint a a' -> SR saint (int_mul_small_constant x0 a b) (int_mul_small_constant x0 a' b).
Proof. intros; dst; unfold int_mul_small_constant; sra. Qed.
Global Hint Extern 0 (SR _ (int_mul_small_constant _ _ _) (int_mul_small_constant _ _ _)) => (eapply sr_int_mul_small_constant; rel) : srdb.
Lemma sr_bisec_int {NM : NMod} x0 cond cond' a a' b b' : sav cond cond' -> saint a a' -> saint b b' -> SR saint (bisec_int x0 cond a b) (bisec_int x0 cond' a' b').
Proof. intros; dst; unfold bisec_int; sra. Qed.
Global Hint Extern 0 (SR _ (bisec_int _ _ _ _) (bisec_int _ _ _ _)) => (eapply sr_bisec_int; rel) : srdb.
Lemma sr_assign_constant_point {NM : NMod} x0 p : SR spt (assign_constant_point x0 p) (assign_constant_point x0 p).
Proof. intros; dst; unfold assign_constant_point; sra. Qed.
Global Hint Extern 0 (SR _ (assign_constant_point _ _) (assign_constant_point _ _)) => (eapply sr_assign_constant_point; rel) : srdb.
Lemma sr_curve_sides {NM : NMod} x0 x1 x x' y y' : saint x x' -> saint y y' -> SR (both saint saint) (curve_sides x0 x1 x y) (curve_sides x0 x1 x' y').
Proof. intros; dst; unfold curve_sides; sra. Qed.
Global Hint Extern 0 (SR _ (curve_sides _ _ _ _) (curve_sides _ _ _ _)) => (eapply sr_curve_sides; rel) : srdb.
Lemma sr_assign_point {NM : NMod} x0 x1 p p' : SR spt (assign_point x0 x1 p) (assign_point x0 x1 p').
Proof. intros; dst; unfold assign_point; sra. Qed.
Global Hint Extern 0 (SR _ (assign_point _ _ _) (assign_point _ _ _)) => (eapply sr_assign_point; rel) : srdb.
Lemma sr_assign_non_zero_point {NM : NMod} x0 x1 p p' : SR snz (assign_non_zero_point x0 x1 p) (assign_non_zero_point x0 x1 p').
Proof. intros; dst; unfold assign_non_zero_point; sra. Qed.
Global Hint Extern 0 (SR _ (assign_non_zero_point _ _ _) (assign_non_zero_point _ _ _)) => (eapply sr_assign_non_zero_point; rel) : srdb.
Lemma sr_assign_identity {NM : NMod} x0 : SR sptc (assign_identity x0) (assign_identity x0).
Proof. intros; dst; unfold assign_identity; sra. Qed.
Global Hint Extern 0 (SR _ (assign_identity _) (assign_identity _)) => (eapply sr_assign_identity; rel) : srdb.
Lemma sr_bisec_point {NM : NMod} x0 cond cond' a a' b b' : sav cond cond' -> spt a a' -> spt b b' -> SR spt (bisec_point x0 cond a b) (bisec_point x0 cond' a' b').
Proof. intros; dst; unfold bisec_point; sra. Qed.
Global Hint Extern 0 (SR _ (bisec_point _ _ _ _) (bisec_point _ _ _ _)) => (eapply sr_bisec_point; rel) : srdb.
Lemma sr_bisec_curvature {NM : NMod} x0 cond cond' a a' b b' : sav cond cond' -> scurv a a' -> scurv b b' -> SR scurv (bisec_curvature x0 cond a b) (bisec_curvature x0 cond' a' b').
Proof. intros; dst; unfold bisec_curvature; sra. Qed.
Global Hint Extern 0 (SR _ (bisec_curvature _ _ _ _) (bisec_curvature _ _ _ _)) => (eapply sr_bisec_curvature; rel) : srdb.
Lemma sr_bisec_point_with_curvature {NM : NMod} x0 cond cond' a a' b b' : sav cond cond' -> sptc a a' -> sptc b b' -> SR sptc (bisec_point_with_curvature x0 cond a b) (bisec_point_with_curvature x0 cond' a' b').
Proof. intros; dst; unfold bisec_point_with_curvature; sra. Qed.
Global Hint Extern 0 (SR _ (bisec_point_with_curvature _ _ _ _) (bisec_point_with_curvature _ _ _ _)) => (eapply sr_bisec_point_with_curvature; rel) : srdb.
Lemma sr_lambda_xy {NM : NMod} x0 l l' ax ax' ay ay' bx bx' : saint l l' -> saint ax ax' -> saint ay ay' -> saint bx bx' -> SR (both saint saint) (lambda_xy x0 l ax ay bx) (lambda_xy x0 l' ax' ay' bx').
Proof. intros; dst; unfold lambda_xy; sra. Qed.
Global Hint Extern 0 (SR _ (lambda_xy _ _ _ _ _) (lambda_xy _ _ _ _ _)) => (eapply sr_lambda_xy; rel) : srdb.
Lemma sr_lambda_to_point {NM : NMod} x0 lambda lambda' a a' b b' : scurv lambda lambda' -> spt a a' -> spt b b' -> SR spt (lambda_to_point x0 lambda a b) (lambda_to_point x0 lambda' a' b').
Proof. intros; dst; unfold lambda_to_point; sra. Qed.
Global Hint Extern 0 (SR _ (lambda_to_point _ _ _ _) (lambda_to_point _ _ _ _)) => (eapply sr_lambda_to_point; rel) : srdb.
Lemma sr_ecc_add {NM : NMod} x0 a a' b b' : sptc a a' -> spt b b' -> SR spt (ecc_add x0 a b) (ecc_add x0 a' b').
Proof. intros; dst; unfold ecc_add; sra. Qed.
Global Hint Extern 0 (SR _ (ecc_add _ _ _) (ecc_add _ _ _)) => (eapply sr_ecc_add; rel) : srdb.
Lemma sr_ecc_double {NM : NMod} x0 x1 a a' : sptc a a' -> SR spt (ecc_double x0 x1 a) (ecc_double x0 x1 a').
Proof. intros; dst; unfold ecc_double; sra. Qed.
Global Hint Extern 0 (SR _ (ecc_double _ _ _) (ecc_double _ _ _)) => (eapply sr_ecc_double; rel) : srdb.
Lemma sr_ecc_assert_equal {NM : NMod} x0 a a' b b' : spt a a' -> spt b b' -> SR any (ecc_assert_equal x0 a b) (ecc_assert_equal x0 a' b').
Proof. intros; dst; unfold ecc_assert_equal; sra. Qed.
Global Hint Extern 0 (SR _ (ecc_assert_equal _ _ _) (ecc_assert_equal _ _ _)) => (eapply sr_ecc_assert_equal; rel) : srdb.
Lemma sr_ecc_neg {NM : NMod} x0 a a' : spt a a' -> SR spt (ecc_neg x0 a) (ecc_neg x0 a').
Proof. intros; dst; unfold ecc_neg; sra. Qed.
Global Hint Extern 0 (SR _ (ecc_neg _ _) (ecc_neg _ _)) => (eapply sr_ecc_neg; rel) : srdb.
Lemma sr_ecc_reduce {NM : NMod} x0 a a' : spt a a' -> SR spt (ecc_reduce x0 a) (ecc_reduce x0 a').
Proof. intros; dst; unfold ecc_reduce; sra. Qed.
Global Hint Extern 0 (SR _ (ecc_reduce _ _) (ecc_reduce _ _)) => (eapply sr_ecc_reduce; rel) : srdb.
Lemma sr_curvature_of {NM : NMod} x0 x x' y y' : saint x x' -> saint y y' -> SR (both sav saint) (curvature_of x0 x y) (curvature_of x0 x' y').
Proof. intros; dst; unfold curvature_of; sra. Qed.
Global Hint Extern 0 (SR _ (curvature_of _ _ _) (curvature_of _ _ _)) => (eapply sr_curvature_of; rel) : srdb.
Lemma sr_ecc_reduce_with_curvature {NM : NMod} x0 a a' : spt a a' -> SR sptc (ecc_reduce_with_curvature x0 a) (ecc_reduce_with_curvature x0 a').
Proof. intros; dst; unfold ecc_reduce_with_curvature; sra. Qed.
Global Hint Extern 0 (SR _ (ecc_reduce_with_curvature _ _) (ecc_reduce_with_curvature _ _)) => (eapply sr_ecc_reduce_with_curvature; rel) : srdb.
Lemma sr_to_point_with_curvature {NM : NMod} x0 a a' : spt a a' -> SR sptc (to_point_with_curvature x0 a) (to_point_with_curvature x0 a').
Proof. intros; dst; unfold to_point_with_curvature; sra. Qed.
Global Hint Extern 0 (SR _ (to_point_with_curvature _ _) (to_point_with_curvature _ _)) => (eapply sr_to_point_with_curvature; rel) : srdb.
Lemma sr_ecc_encode {NM : NMod} x0 p p' : spt p p' -> SR (Forall2 sav) (ecc_encode x0 p) (ecc_encode x0 p').
Proof. intros; dst; unfold ecc_encode; sra. Qed.
Global Hint Extern 0 (SR _ (ecc_encode _ _) (ecc_encode _ _)) => (eapply sr_ecc_encode; rel) : srdb.
Lemma sr_assign_cache_integer {NM : NMod} x0 p p' sc g offset : saint p p' -> SR (@eq Z) (assign_cache_integer x0 p sc g offset) (assign_cache_integer x0 p' sc g offset).
Proof. intros; dst; unfold assign_cache_integer; sra; try fld (@eq Z); sra. Qed.
Global Hint Extern 0 (SR _ (assign_cache_integer _ _ _ _ _) (assign_cache_integer _ _ _ _ _)) => (eapply sr_assign_cache_integer; rel) : srdb.
Lemma sr_assign_selected_integer {NM : NMod} x0 p p' sc sc' g offset : sav sc sc' -> SR (both saint (@eq Z)) (assign_selected_integer x0 p sc g offset) (assign_selected_integer x0 p' sc' g offset).
Proof. intros; dst; unfold assign_selected_integer; sra; try fld (both (Forall2 sav) (@eq Z)); sra. Qed.
Global Hint Extern 0 (SR _ (assign_selected_integer _ _ _ _ _) (assign_selected_integer _ _ _ _ _)) => (eapply sr_assign_selected_integer; rel) : srdb.
Lemma sr_assign_cache_point {NM : NMod} x0 p p' g sc : sptc p p' -> SR any (assign_cache_point x0 p g sc) (assign_cache_point x0 p' g sc).
Proof. intros; dst; unfold assign_cache_point; sra. Qed.
Global Hint Extern 0 (SR _ (assign_cache_point _ _ _ _) (assign_cache_point _ _ _ _)) => (eapply sr_assign_cache_point; rel) : srdb.
Lemma sr_assign_selected_point {NM : NMod} x0 p p' sc sc' g : sav sc sc' -> SR sptc (assign_selected_point x0 p sc g) (assign_selected_point x0 p' sc' g).
Proof. intros; dst; unfold assign_selected_point; sra. Qed.
Global Hint Extern 0 (SR _ (assign_selected_point _ _ _ _) (assign_selected_point _ _ _ _)) => (eapply sr_assign_selected_point; rel) : srdb.
Lemma sr_lambda_to_point_non_zero {NM : NMod} x0 lambda lambda' a a' b b' : saint lambda lambda' -> snz a a' -> snz b b' -> SR snz (lambda_to_point_non_zero x0 lambda a b) (lambda_to_point_non_zero x0 lambda' a' b').
Proof. intros; dst; unfold lambda_to_point_non_zero; sra. Qed.
Global Hint Extern 0 (SR _ (lambda_to_point_non_zero _ _ _ _) (lambda_to_point_non_zero _ _ _ _)) => (eapply sr_lambda_to_point_non_zero; rel) : srdb.
Lemma sr_ecc_add_unsafe {NM : NMod} x0 a a' b b' : snz a a' -> snz b b' -> SRU snz (ecc_add_unsafe x0 a b) (ecc_add_unsafe x0 a' b').
Proof. intros; dst; unfold ecc_add_unsafe; sra. Qed.
Global Hint Extern 0 (SRU _ (ecc_add_unsafe _ _ _) (ecc_add_unsafe _ _ _)) => (eapply sr_ecc_add_unsafe; rel) : srdb.
Lemma sr_ecc_double_unsafe {NM : NMod} x0 a a' : snz a a' -> SRU snz (ecc_double_unsafe x0 a) (ecc_double_unsafe x0 a').
Proof. intros; dst; unfold ecc_double_unsafe; sra. Qed.
Global Hint Extern 0 (SRU _ (ecc_double_unsafe _ _) (ecc_double_unsafe _ _)) => (eapply sr_ecc_double_unsafe; rel) : srdb.
Lemma sr_ecc_neg_non_zero {NM : NMod} x0 a a' : snz a a' -> SR snz (ecc_neg_non_zero x0 a) (ecc_neg_non_zero x0 a').
Proof. intros; dst; unfold ecc_neg_non_zero; sra. Qed.
Global Hint Extern 0 (SR _ (ecc_neg_non_zero _ _) (ecc_neg_non_zero _ _)) => (eapply sr_ecc_neg_non_zero; rel) : srdb.
Lemma sr_ecc_reduce_non_zero {NM : NMod} x0 a a' : snz a a' -> SR snz (ecc_reduce_non_zero x0 a) (ecc_reduce_non_zero x0 a').
Proof. intros; dst; unfold ecc_reduce_non_zero; sra. Qed.
Global Hint Extern 0 (SR _ (ecc_reduce_non_zero _ _) (ecc_reduce_non_zero _ _)) => (eapply sr_ecc_reduce_non_zero; rel) : srdb.
Lemma sr_ecc_bisec_non_zero_point {NM : NMod} x0 cond cond' a a' b b' : sav cond cond' -> snz a a' -> snz b b' -> SR snz (ecc_bisec_non_zero_point x0 cond a b) (ecc_bisec_non_zero_point x0 cond' a' b').
Proof. intros; dst; unfold ecc_bisec_non_zero_point; sra. Qed.
Global Hint Extern 0 (SR _ (ecc_bisec_non_zero_point _ _ _ _) (ecc_bisec_non_zero_point _ _ _ _)) => (eapply sr_ecc_bisec_non_zero_point; rel) : srdb.
Lemma sr_bisec_pairs {NM : NMod} x0 bit bit' cs cs' : sav bit bit' -> (Forall2 snz) cs cs' -> SR (Forall2 snz) (bisec_pairs x0 bit cs) (bisec_pairs x0 bit' cs').
Proof. intros Hb Hc. assert (G : forall n cs cs', (length cs <= n)%nat -> Forall2 snz cs cs' -> SR (Forall2 snz) (bisec_pairs x0 bit cs) (bisec_pairs x0 bit' cs')); [|apply (G (length cs)); auto]. clear cs cs' Hc. induction n as [|n IH]; intros cs cs' L H; (destruct H as [|p q l l' P H]; [apply SR_ret; constructor|]; destruct H as [|p1 q1 l l' P1 H]; [apply SR_panic_l|]; cbn [length] in L; try lia). cbn [bisec_pairs]. eapply SR_bind; [apply sr_ecc_bisec_non_zero_point; assumption|intros]. eapply SR_bind; [apply IH; [lia|assumption]|intros; sra]. Qed.
Global Hint Extern 0 (SR _ (bisec_pairs _ _ _) (bisec_pairs _ _ _)) => (eapply sr_bisec_pairs; rel) : srdb.
Lemma sr_bisec_candidate_non_zero {NM : NMod} x0 candidates candidates' group_bits group_bits' : (Forall2 snz) candidates candidates' -> (Forall2 sav) group_bits group_bits' -> SR snz (bisec_candidate_non_zero x0 candidates group_bits) (bisec_candidate_non_zero x0 candidates' group_bits').
Proof. intros; dst; unfold bisec_candidate_non_zero; sra; try fld (Forall2 snz); sra. Qed.
Global Hint Extern 0 (SR _ (bisec_candidate_non_zero _ _ _) (bisec_candidate_non_zero _ _ _)) => (eapply sr_bisec_candidate_non_zero; rel) : srdb.
Lemma sr_pick_candidate_non_zero {NM : NMod} candidates candidates' group_bits group_bits' : (Forall2 sav) group_bits group_bits' -> SR (both sav any) (pick_candidate_non_zero candidates group_bits) (pick_candidate_non_zero candidates' group_bits').
Proof. intros; dst; unfold pick_candidate_non_zero; sra. Qed.
Global Hint Extern 0 (SR _ (pick_candidate_non_zero _ _) (pick_candidate_non_zero _ _)) => (eapply sr_pick_candidate_non_zero; rel) : srdb.
Lemma sr_assign_selected_point_non_zero {NM : NMod} x0 p p' sc sc' g : sav sc sc' -> SR snz (assign_selected_point_non_zero x0 p sc g) (assign_selected_point_non_zero x0 p' sc' g).
Proof. intros; dst; unfold assign_selected_point_non_zero; sra. Qed.
Global Hint Extern 0 (SR _ (assign_selected_point_non_zero _ _ _ _) (assign_selected_point_non_zero _ _ _ _)) => (eapply sr_assign_selected_point_non_zero; rel) : srdb.
Lemma sr_assign_cache_point_non_zero {NM : NMod} x0 p p' g sc : snz p p' -> SR any (assign_cache_point_non_zero x0 p g sc) (assign_cache_point_non_zero x0 p' g sc).
Proof. intros; dst; unfold assign_cache_point_non_zero; sra. Qed.
Global Hint Extern 0 (SR _ (assign_cache_point_non_zero _ _ _ _) (assign_cache_point_non_zero _ _ _ _)) => (eapply sr_assign_cache_point_non_zero; rel) : srdb.
Lemma sr_ecc_assert_equal_non_zero {NM : NMod} x0 a a' b b' : snz a a' -> snz b b' -> SR any (ecc_assert_equal_non_zero x0 a b) (ecc_assert_equal_non_zero x0 a' b').
Proof. intros; dst; unfold ecc_assert_equal_non_zero; sra. Qed.
Global Hint Extern 0 (SR _ (ecc_assert_equal_non_zero _ _ _) (ecc_assert_equal_non_zero _ _ _)) => (eapply sr_ecc_assert_equal_non_zero; rel) : srdb.
Lemma sr_ecc_non_zero_point_downgrade {NM : NMod} a a' : snz a a' -> SR spt (ecc_non_zero_point_downgrade a) (ecc_non_zero_point_downgrade a').
Proof. intros; dst; unfold ecc_non_zero_point_downgrade; sra. Qed.
Global Hint Extern 0 (SR _ (ecc_non_zero_point_downgrade _) (ecc_non_zero_point_downgrade _)) => (eapply sr_ecc_non_zero_point_downgrade; rel) : srdb.
Lemma sr_ecc_bisec_to_non_zero_point {NM : NMod} x0 a a' b b' : spt a a' -> snz b b' -> SR snz (ecc_bisec_to_non_zero_point x0 a b) (ecc_bisec_to_non_zero_point x0 a' b').
Proof. intros; dst; unfold ecc_bisec_to_non_zero_point; sra. Qed.
Global Hint Extern 0 (SR _ (ecc_bisec_to_non_zero_point _ _ _) (ecc_bisec_to_non_zero_point _ _ _)) => (eapply sr_ecc_bisec_to_non_zero_point; rel) : srdb.
Lemma sr_to_windows {NM : NMod} W bits bits' : (Forall2 sav) bits bits' -> SR (Forall2 (Forall2 sav)) (to_windows W bits) (to_windows W bits').
Proof. intros; dst; unfold to_windows; cbv zeta. unfold acond in *. pose proof (F2_len _ _ _ H) as HL. eapply SR_bind; [apply SR_assert|intros _ _ _]. rewrite <- HL. eapply (SR_bind (Forall2 sav)); [sra|intros; sra]. Qed.
Global Hint Extern 0 (SR _ (to_windows _ _) (to_windows _ _)) => (eapply sr_to_windows; rel) : srdb.
Lemma sr_native_step {NM : NMod} s_bn s_bn' st st' i : (both sav (Forall2 sav)) st st' -> SR (both sav (Forall2 sav)) (native_step s_bn st i) (native_step s_bn' st' i).
Proof. intros; dst; unfold native_step; sra. Qed.
Global Hint Extern 0 (SR _ (native_step _ _ _) (native_step _ _ _)) => (eapply sr_native_step; rel) : srdb.
Lemma sr_decompose_scalar_native {NM : NMod} W s s' : sav s s' -> SR (Forall2 (Forall2 sav)) (decompose_scalar_native W s) (decompose_scalar_native W s').
Proof. intros; dst; unfold decompose_scalar_native. eapply (SR_bind (both sav (Forall2 sav))); [fld (both sav (Forall2 sav)); sra|intros; dst]. eapply (SR_bind (Forall2 sav)); [sra|intros; sra]. Qed.
Global Hint Extern 0 (SR _ (decompose_scalar_native _ _) (decompose_scalar_native _ _)) => (eapply sr_decompose_scalar_native; rel) : srdb.
Lemma sr_general_step {NM : NMod} two_inv v v' st st' j : (both sav (Forall2 sav)) st st' -> SR (both sav (Forall2 sav)) (general_step two_inv v st j) (general_step two_inv v' st' j).
Proof. intros; dst; unfold general_step; sra. Qed.
Global Hint Extern 0 (SR _ (general_step _ _ _ _) (general_step _ _ _ _)) => (eapply sr_general_step; rel) : srdb.
Lemma sr_general_limb {NM : NMod} two_inv l l' : sav l l' -> SR (Forall2 sav) (general_limb two_inv l) (general_limb two_inv l').
Proof. intros; dst; unfold general_limb. eapply (SR_bind (both sav (Forall2 sav))); [fld (both sav (Forall2 sav)); sra|intros; dst]. sra. Qed.
Global Hint Extern 0 (SR _ (general_limb _ _) (general_limb _ _)) => (eapply sr_general_limb; rel) : srdb.
Lemma sr_decompose_scalar_general {NM : NMod} I0 W s s' : saint s s' -> SR (Forall2 (Forall2 sav)) (decompose_scalar_general I0 W s) (decompose_scalar_general I0 W s').
Proof. intros; dst; unfold decompose_scalar_general; sra. Qed.
Global Hint Extern 0 (SR _ (decompose_scalar_general _ _ _) (decompose_scalar_general _ _ _)) => (eapply sr_decompose_scalar_general; rel) : srdb.

(** The multi-scalar multiplications. *)
Lemma same_mem c d c1 d1 : same_shape c d -> same_shape c1 d1 -> same_shape (with_mem (c_mem c) c1) (with_mem (c_mem d) d1).
Proof. intros [] []. constructor; cbn; auto. Qed.
Section Par.
Context {X Y : Type}.
Variable R : X -> Y -> Prop.
Variable f : nat -> M (uresult X).
Variable g : nat -> M (uresult Y).
Hypothesis fg : forall i, SRU R (f i) (g i).
Definition loc (c d : ctx) : Prop := c_perms c = c_perms d /\ base_h c = base_h d /\ range_h c = range_h d /\ select_h c = select_h d.
Lemma sr_run_clones diff c d : forall is m m' xs ys m1 m1', same_shape (with_mem m c) (with_mem m' d) ->
  run_clones f c diff is m = Ok (UOk xs, m1) -> run_clones g d diff is m' = Ok (UOk ys, m1') ->
  Forall2 (both R loc) xs ys /\ same_shape (with_mem m1 c) (with_mem m1' d).
Proof.
  induction is as [|i is IH]; intros m m' xs ys m1 m1' S E F; cbn [run_clones] in *.
  - injection E as <- <-. injection F as <- <-. split; [constructor|exact S].
  - destruct (f i _) as [[[x|e] ci]|] eqn:E1; try discriminate. destruct (off_eqb _ _); [|discriminate].
    destruct (run_clones f c diff is _) as [[[xs'|e] mm]|] eqn:E2; try discriminate. injection E as <- <-.
    destruct (g i _) as [[[y|e] di]|] eqn:F1; try discriminate. destruct (off_eqb _ _); [|discriminate].
    destruct (run_clones g d diff is _) as [[[ys'|e] mm']|] eqn:F2; try discriminate. injection F as <- <-.
    assert (S0 : same_shape (clone_with_offset m (off_scale i diff) c) (clone_with_offset m' (off_scale i diff) d)) by (destruct S; constructor; cbn in *; auto; congruence).
    destruct (fg i _ _ _ _ _ _ S0 E1 F1) as [Rxy S1].
    assert (S2 : same_shape (with_mem (c_mem ci) c) (with_mem (c_mem di) d)) by (destruct S, S1; constructor; cbn in *; auto).
    destruct (IH _ _ _ _ _ _ S2 E2 F2) as [H1 H2].
    split; [|exact H2]. constructor; [|exact H1]. split; [exact Rxy|]. destruct S1. repeat split; assumption.
Qed.
Lemma sr_fold_merge xs ys m m' : Forall2 (both R loc) xs ys -> forall c d, same_shape (with_mem m c) (with_mem m' d) ->
  same_shape (fold_left (fun c x => merge m c (snd x)) xs (with_mem m c)) (fold_left (fun c x => merge m' c (snd x)) ys (with_mem m' d)).
Proof.
  intros H. induction H as [|x y xs ys [_ (P & H1 & H2 & H3)] H IH]; intros c d S; cbn [fold_left]; [exact S|].
  apply (IH (merge m (with_mem m c) (snd x)) (merge m' (with_mem m' d) (snd y))). destruct S. constructor; cbn in *; auto; congruence.
Qed.
Lemma sr_par_windows w : SRU (Forall2 R) (par_windows f w) (par_windows g w).
Proof.
  intros c d a b c' d' S E F. unfold par_windows in *.
  set (c0 := clone_with_offset (c_mem c) (mkOff 0 0 0) c) in *. set (d0 := clone_with_offset (c_mem d) (mkOff 0 0 0) d) in *.
  assert (S0 : same_shape c0 d0) by (destruct S; constructor; cbn; auto; congruence).
  destruct (f O c0) as [[[x0|e] c0']|] eqn:E0; try discriminate. destruct (g O d0) as [[[y0|e] d0']|] eqn:F0; try discriminate.
  destruct (fg O _ _ _ _ _ _ S0 E0 F0) as [R0 S0'].
  replace (off_sub (offset_of d0') (offset_of d0)) with (off_sub (offset_of c0') (offset_of c0)) in F.
  2: { unfold off_sub, offset_of. rewrite (sh_base_off _ _ S0), (sh_range_off _ _ S0), (sh_select_off _ _ S0), (sh_base_off _ _ S0'), (sh_range_off _ _ S0'), (sh_select_off _ _ S0'). reflexivity. }
  set (diff := off_sub _ _) in *. cbv zeta in *.
  set (c1 := merge (c_mem c0') c c0') in *. set (d1 := merge (c_mem d0') d d0') in *.
  assert (S1 : same_shape c1 d1) by (destruct S, S0'; constructor; cbn; auto; congruence).
  destruct (run_clones f c1 diff _ _) as [[[xs|e] m]|] eqn:E1; try discriminate.
  destruct (run_clones g d1 diff _ _) as [[[ys|e] m']|] eqn:F1; try discriminate.
  injection E as <- <-. injection F as <- <-.
  assert (S2 : same_shape (with_mem (c_mem c1) c1) (with_mem (c_mem d1) d1)) by (destruct S1; constructor; cbn; auto).
  destruct (sr_run_clones diff c1 d1 _ _ _ _ _ _ _ S2 E1 F1) as [H1 H2].
  split.
  - constructor; [exact R0|]. clear - H1. induction H1 as [|x y xs ys [H _] H1 IH]; cbn [map]; constructor; auto.
  - pose proof (sr_fold_merge _ _ _ _ H1 _ _ H2) as S3. destruct S3. constructor; cbn; auto; congruence.
Qed.
End Par.

Section MsmS.
Context {NM : NMod}.
Variable I : rinfo.
Variable b : Z.
Lemma sr_group_candidates cache cache' init init' chunk chunk' : (forall i p p', snz p p' -> SR any (cache i p) (cache' i p')) ->
  snz init init' -> Forall2 snz chunk chunk' -> SRU (Forall2 snz) (group_candidates I cache init chunk) (group_candidates I cache' init' chunk').
Proof.
  intros Hc Hi Hk. unfold group_candidates. eapply SRU_bind; [apply Hc; exact Hi|intros _ _ _]. rewrite <- (F2_len _ _ _ Hk).
  apply SRU_ufoldM_eq; [constructor; [exact Hi|constructor]|]. intros s t i Hs. cbv zeta.
  eapply SRU_bind; [apply SR_nth; exact Hs|intros u u' Hu]. eapply SRU_bind; [apply SR_nth; exact Hk|intros q q' Hq].
  eapply SRU_ubind; [apply sr_ecc_add_unsafe; assumption|intros p p' Hp]. eapply SRU_bind; [apply sr_ecc_reduce_non_zero; exact Hp|intros r r' Hr].
  eapply SRU_bind; [apply Hc; exact Hr|intros _ _ _]. apply SRU_ret. apply F2_app; [exact Hs|constructor; [exact Hr|constructor]].
Qed.
Lemma F2_combine_eq {A B X} (R : A -> B -> Prop) (k : list X) l l' : Forall2 R l l' -> Forall2 (both eq R) (combine k l) (combine k l').
Proof. intros H. revert k. induction H; intros [|z k]; cbn [combine]; constructor; auto. split; auto. Qed.
Lemma sr_all_candidates cache cache' line line' neg neg' groups groups' : (forall g i p p', snz p p' -> SR any (cache g i p) (cache' g i p')) ->
  snz line line' -> snz neg neg' -> Forall2 (Forall2 snz) groups groups' ->
  SRU (Forall2 (Forall2 snz)) (all_candidates I cache line neg groups) (all_candidates I cache' line' neg' groups').
Proof.
  intros Hc Hl Hn Hg. unfold all_candidates. eapply (SRU_ufoldM (both eq (Forall2 snz))); [rewrite <- (F2_len _ _ _ Hg); apply F2_combine_eq; exact Hg| |constructor].
  intros s t [x1 x2] [y1 y2] Hs [Hx1 Hx2]. cbn [fst snd] in *. subst y1. cbv zeta. eapply SRU_ubind; [apply sr_group_candidates; [intros; apply Hc; assumption| |exact Hx2]|].
  - destruct (Nat.even x1); assumption.
  - intros. apply SRU_ret. apply F2_app; [exact Hs|repeat constructor; assumption].
Qed.
Lemma sr_window_body pick pick' an an' cands cands' groups groups' wi :
  (forall g cs cs' bs bs', Forall2 snz cs cs' -> Forall2 sav bs bs' -> SR snz (pick g cs bs) (pick' g cs' bs')) ->
  snz an an' -> Forall2 (Forall2 snz) cands cands' -> Forall2 (Forall2 (Forall2 (Forall2 sav))) groups groups' ->
  SRU snz (window_body I pick an cands groups wi) (window_body I pick' an' cands' groups' wi).
Proof.
  intros Hp Ha Hc Hg. unfold window_body, acond in *. rewrite <- (F2_len _ _ _ Hg). apply SRU_ufoldM_eq; [exact Ha|]. intros s t i Hs.
  eapply SRU_bind; [apply SR_nth; exact Hg|intros x y Hx]. eapply (SRU_bind (Forall2 sav)).
  { eapply SR_mapM; [exact Hx|]. intros u v Hu. eapply SR_bind; [apply SR_nth; exact Hu|]. intros p q Hq. apply SR_nth. exact Hq. }
  intros bs bs' Hb. eapply SRU_bind; [apply SR_nth; exact Hc|intros cs cs' Hcs]. eapply SRU_bind; [apply Hp; eassumption|intros p q Hq].
  apply sr_ecc_add_unsafe; assumption.
Qed.
Lemma sr_msm_batch {S S'} (RS : S -> S' -> Prop) dec dec' pick pick' cache cache' best points points' scalars scalars' ra ra' rl rl' :
  (forall s s', RS s s' -> SR (Forall2 (Forall2 sav)) (dec s) (dec' s')) ->
  (forall g cs cs' bs bs', Forall2 snz cs cs' -> Forall2 sav bs bs' -> SR snz (pick g cs bs) (pick' g cs' bs')) ->
  (forall g i p p', snz p p' -> SR any (cache g i p) (cache' g i p')) ->
  Forall2 snz points points' -> Forall2 RS scalars scalars' ->
  SRU spt (msm_batch I b dec pick cache best points scalars ra rl) (msm_batch I b dec' pick' cache' best points' scalars' ra' rl').
Proof.
  intros Hd Hp Hc HP HS. unfold msm_batch, acond in *.
  eapply SRU_bind; [eapply SR_mapM; [exact HP|intros; sra]|intros ps ps' Hps].
  eapply SRU_bind; [sra|intros acc acc' Hacc]. eapply SRU_bind; [sra|intros line line' Hline]. 
  eapply SRU_bind; [sra|intros an0 an0' Han0]. eapply SRU_bind; [sra|intros an an' Han].
  eapply SRU_bind; [sra|intros ln0 ln0' Hln0]. eapply SRU_bind; [sra|intros ln ln' Hln]. cbv zeta.
  eapply SRU_bind; [apply SR_assert|intros _ _ _]. rewrite <- (F2_len _ _ _ Hps).
  eapply SRU_ubind; [apply sr_all_candidates; [exact Hc|exact Hline|exact Hln|apply F2_chunks; exact Hps]|intros cands cands' Hcands].
  eapply SRU_bind; [eapply SR_mapM; [exact HS|exact Hd]|intros bits bits' Hbits].
  eapply SRU_bind; [apply SR_nth; exact Hbits|intros b0 b0' Hb0]. rewrite <- (F2_len _ _ _ Hb0).
  eapply SRU_ubind; [apply (sr_par_windows snz); intros i; apply sr_window_body; [exact Hp|exact Han|exact Hcands|apply F2_chunks; exact Hbits]|intros lines lines' Hlines].
  eapply (SRU_ubind snz).
  { apply SRU_ufoldM_eq; [exact Hacc|]. intros s t wi Hst. eapply SRU_ubind; [apply sr_ecc_double_unsafe; exact Hst|intros p p' Hp'].
    eapply SRU_bind; [apply SR_nth; exact Hlines|intros l l' Hl]. eapply SRU_ubind; [apply sr_ecc_add_unsafe; assumption|intros q q' Hq].
    rewrite (F2_len _ _ _ (F2_chunks _ _ _ _ Hbits)). destruct (Nat.odd _); [apply sr_ecc_add_unsafe; assumption|apply SRU_ret; exact Hq]. }
  intros r r' Hr. eapply SRU_bind; [sra|intros a a' Ha]. eapply SRU_bind; [sra|intros a1 a1' Ha1]. eapply SRU_bind; [sra|intros cr cr' Hcr].
  eapply SRU_bind; [sra|intros u u' Hu]. apply SRU_ret. exact Hu.
Qed.
Lemma SRU_pair {X Y Z'} (R : X -> Y -> Prop) m n (z : Z') : SRU R m n ->
  forall c d x y c' d', same_shape c d -> (r <- m ;; mret (r, z)) c = Ok ((UOk x, z), c') -> (r <- n ;; mret (r, z)) d = Ok ((UOk y, z), d') -> R x y /\ same_shape c' d'.
Proof.
  intros H c d x y c' d' S E F. apply mbind_inv in E as (r & c1 & E1 & E2). injection E2 as -> <-.
  apply mbind_inv in F as (r' & d1 & F1 & F2). injection F2 as -> <-. exact (H _ _ _ _ _ _ S E1 F1).
Qed.
Definition smsm (p q : apoint * option Z) : Prop := both spt eq p q.
Lemma sr_msm {S S'} (RS : S -> S' -> Prop) dec dec' bis bis' zero zero' gen ra ra' rl rl' prefix points points' scalars scalars' :
  (forall s s', RS s s' -> SR (Forall2 (Forall2 sav)) (dec s) (dec' s')) ->
  (forall c c' s s' t t', sav c c' -> RS s s' -> RS t t' -> SR RS (bis c s t) (bis' c' s' t')) -> SR RS zero zero' ->
  Forall2 spt points points' -> Forall2 RS scalars scalars' ->
  SR smsm (msm I b dec bis zero gen ra rl prefix points scalars) (msm I b dec' bis' zero' gen ra' rl' prefix points' scalars').
Proof.
  intros Hd Hb Hz HP HS. unfold msm, msm_unsafe.
  assert (Assoc : forall X Y Z' (m : M X) (k : X -> M Y) (l : Y -> M Z') c, mbind (mbind m k) l c = mbind m (fun x => mbind (k x) l) c).
  { intros X Y Z' m k l c. unfold mbind. destruct (m c) as [[x c']|]; reflexivity. }
  intros c d x y c' d' Sh E F. rewrite Assoc in E, F. revert c d x y c' d' Sh E F.
  eapply SR_bind; [sra|intros nzp nzp' Hn]. intros c d x y c' d' Sh E F. rewrite Assoc in E, F. revert c d x y c' d' Sh E F.
  eapply SR_bind; [exact Hz|intros z z' Hzz]. intros c d x y c' d' Sh E F. rewrite Assoc in E, F. revert c d x y c' d' Sh E F.
  eapply (SR_bind (Forall2 (both snz RS))).
  { assert (HC : Forall2 (both spt RS) (combine points scalars) (combine points' scalars')).
    { clear - HP HS. revert scalars scalars' HS. induction HP; intros s s' HS; [constructor|]. destruct HS; cbn [combine]; constructor; auto. split; auto. }
    eapply SR_mapM; [exact HC|]. intros [p s] [p' s'] [Hp Hs]. cbn [fst snd] in *. eapply SR_bind; [apply Hb; [apply sp_z; exact Hp|exact Hzz|exact Hs]|intros t t' Ht].
    eapply SR_bind; [apply sr_ecc_bisec_to_non_zero_point; assumption|intros q q' Hq]. apply SR_ret. split; assumption. }
  intros ps ps' Hps.
  assert (H1 : Forall2 snz (map fst ps) (map fst ps')) by (clear - Hps; induction Hps as [|u v us vs [A B] H IH]; cbn [map]; constructor; auto).
  assert (H2 : Forall2 RS (map snd ps) (map snd ps')) by (clear - Hps; induction Hps as [|u v us vs [A B] H IH]; cbn [map]; constructor; auto).
  assert (U : forall (o : option Z) m n, SRU spt m n -> SR smsm (r <- (r <- m ;; mret (r, o)) ;; unwrap_result r) (r <- (r <- n ;; mret (r, o)) ;; unwrap_result r)).
  { intros o m n H c d x y c' d' Sh E F. rewrite Assoc in E, F. apply mbind_inv in E as (r & c1 & E1 & E2). apply mbind_inv in F as (r' & d1 & F1 & F2).
    unfold mbind, mret, unwrap_result in E2, F2. cbn [fst snd] in *. destruct r as [r|]; [|discriminate]. destruct r' as [r'|]; [|discriminate].
    injection E2 as <- <-. injection F2 as <- <-. destruct (H _ _ _ _ _ _ Sh E1 F1). split; [split; [assumption|reflexivity]|assumption]. }
  destruct prefix as [g|].
  - apply U. unfold msm_batch_on_group_non_zero_with_select_chip. eapply SRU_bind; [apply SR_assert|intros _ _ _]. eapply SRU_bind; [apply SR_assert|intros _ _ _].
    apply (sr_msm_batch RS); auto.
    + intros gi cs cs' bs bs' Hcs Hbs. eapply SR_bind; [apply sr_pick_candidate_non_zero; exact Hbs|intros [i p] [i' p'] [Hi _]]. apply sr_assign_selected_point_non_zero. exact Hi.
    + intros gi i p p' Hp. apply sr_assign_cache_point_non_zero. exact Hp.
  - apply U. unfold msm_batch_on_group_non_zero_without_select_chip. apply (sr_msm_batch RS); auto.
    + intros gi cs cs' bs bs' Hcs Hbs. apply sr_bisec_candidate_non_zero; assumption.
    + intros gi i p p' Hp. apply SR_ret. exact Logic.I.
Qed.
Lemma sr_msm_native gen ra ra' rl rl' prefix points points' scalars scalars' : Forall2 spt points points' -> Forall2 sav scalars scalars' ->
  SR smsm (msm_native I b gen ra rl prefix points scalars) (msm_native I b gen ra' rl' prefix points' scalars').
Proof.
  intros HP HS. unfold msm_native. apply (sr_msm sav); auto.
  - intros. apply sr_decompose_scalar_native. assumption.
  - intros. apply sr_bisec; assumption.
  - apply sr_assign_constant.
Qed.
Lemma sr_msm_general J gen ra ra' rl rl' prefix points points' scalars scalars' : Forall2 spt points points' -> Forall2 saint scalars scalars' ->
  SR smsm (msm_general I J b gen ra rl prefix points scalars) (msm_general I J b gen ra' rl' prefix points' scalars').
Proof.
  intros HP HS. unfold msm_general. apply (sr_msm saint); auto.
  - intros. apply sr_decompose_scalar_general. assumption.
  - intros. apply sr_bisec_int; assumption.
  - apply sr_assign_int_constant.
Qed.
End MsmS.
