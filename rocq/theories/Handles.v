(** Reasoning about the cells that gadgets tie and return (C55).  [world] is the set of cells that are
    live at the end of the execution; a judgement [J P m] says that m, given P, only ties cells of the world
    and returns handles to cells of the world. *)
From Verif Require Import Prelude FieldZ Circuit Context Spec Logic Prims BaseChip RangeInfo RangeChip RangeProofs IntegerChip EccChip
  ScalarChip Msm ParWindows Heights SelectProofs Fq12Chip PairingChip SpecHandles.

Class World := world : cell -> Prop.
Definition ok {W : World} {X} `{Handles X} (x : X) : Prop := Forall world (cells_of x).
Definition grow (c c' : ctx) : Prop := forall x, get_adv (c_mem c) x <> None -> get_adv (c_mem c') x <> None.
Definition below {W : World} (c : ctx) : Prop := forall x, live c x -> world x.
Definition pok {W : World} (c : ctx) : Prop := forall a b, In (a, b) (c_perms c) -> world a /\ world b.
Definition J {W : World} (P : Prop) {X} `{Handles X} (m : M X) : Prop :=
  forall c x c', m c = Ok (x, c') -> grow c c' /\ (P -> below c' -> pok c -> ok x /\ pok c').

Lemma grow_refl c : grow c c. Proof. intros x H; exact H. Qed.
Lemma grow_trans a b c : grow a b -> grow b c -> grow a c. Proof. intros H K x Hx. apply K, H, Hx. Qed.

Lemma J_disciplined {X Y} `{Handles X} `{Handles Y} (a : X) (m : M Y) : (forall W : World, J (ok a) m) -> disciplined a m.
Proof.
  intros Hm c y c' La Cl E. pose (W := live c' : World).
  destruct (Hm W c y c' E) as [G K].
  assert (Lv : forall x, live c x -> live c' x) by (intros x [Hx Cx]; split; [apply G, Hx|exact Cx]).
  destruct K as [K1 K2].
  - eapply Forall_impl; [|exact La]. exact Lv.
  - intros x Hx; exact Hx.
  - intros p q Hpq. destruct (Cl p q Hpq). split; apply Lv; assumption.
  - split; [exact K2|]. split; [exact Lv|exact K1].
Qed.

Section L.
Context {NM : NMod} {W : World}.

Lemma below_grow c c' : grow c c' -> below c' -> below c.
Proof. intros G B x [Hx Cx]. apply B. split; [apply G, Hx|exact Cx]. Qed.
Lemma J_wk (P Q : Prop) {X} `{Handles X} (m : M X) : (Q -> P) -> J P m -> J Q m.
Proof. intros I K c x c' E. destruct (K c x c' E) as [G L]. split; [exact G|]. intros q. apply L, I, q. Qed.
Lemma J_ret (P : Prop) {X} `{Handles X} (x : X) : (P -> ok x) -> J P (mret x).
Proof. intros K c y c' E. injection E as <- <-. split; [apply grow_refl|]. auto. Qed.
Lemma J_panic (P : Prop) {X} `{Handles X} : J P (@mpanic X).
Proof. intros c y c' E. discriminate. Qed.
Lemma J_bind (P : Prop) {X Y} `{Handles X} `{Handles Y} (m : M X) (k : X -> M Y) :
  J P m -> (forall x, J (P /\ ok x) (k x)) -> J P (mbind m k).
Proof.
  intros Hm Hk c y c' E. apply mbind_inv in E as (x & c1 & E1 & E2).
  destruct (Hm _ _ _ E1) as [G1 K1]. destruct (Hk x _ _ _ E2) as [G2 K2]. split; [eapply grow_trans; eauto|].
  intros p B C. destruct (K1 p (below_grow _ _ G2 B) C) as [A1 C1]. apply K2; auto.
Qed.
Lemma J_bind_plain (P : Prop) {X Y} `{Handles Y} (m : M X) (k : X -> M Y) :
  (forall c x c', m c = Ok (x, c') -> c' = c) -> (forall x, J P (k x)) -> J P (mbind m k).
Proof. intros Hm Hk c y c' E. apply mbind_inv in E as (x & c1 & E1 & E2). apply Hm in E1 as ->. apply (Hk x _ _ _ E2). Qed.
Lemma J_get (P : Prop) {Y} `{Handles Y} (k : ctx -> M Y) : (forall c, J P (k c)) -> J P (mbind mget k).
Proof. intros. apply J_bind_plain; [|assumption]. intros c x c' E. injection E as _ <-. reflexivity. Qed.
Lemma J_ubind (P : Prop) {X Y} `{Handles X} `{Handles Y} (m : M (uresult X)) (k : X -> M (uresult Y)) :
  J P m -> (forall x, J (P /\ ok x) (k x)) -> J P (ubind m k).
Proof.
  intros Hm Hk. unfold ubind. eapply J_bind ; [exact Hm|]. intros [x|e]; [exact (Hk x)|]. apply J_ret. intros _. constructor.
Qed.
Ltac jb := lazymatch goal with
  | |- J _ (mbind ?m ?k) => refine (J_bind _ m k _ _)
  | |- J _ (ubind ?m ?k) => refine (J_ubind _ m k _ _)
  end.
Lemma ok_tt : ok tt. Proof. constructor. Qed.
Lemma J_assert (P : Prop) b : J P (massert b).
Proof. intros c x c' E. apply massert_inv in E as [_ ->]. split; [apply grow_refl|]. intros _ _ C. split; [constructor|exact C]. Qed.

(** ** Handles of composite values *)
Lemma ok_pair {X Y} `{Handles X} `{Handles Y} (x : X) (y : Y) : ok (x, y) <-> ok x /\ ok y.
Proof. unfold ok, cells_of at 1, hs_pair. cbn [fst snd]. apply Forall_app. Qed.
Lemma ok_fst {X Y} `{Handles X} `{Handles Y} (p : X * Y) : ok p -> ok (fst p).
Proof. destruct p as [x y]. intros K. apply ok_pair in K. apply K. Qed.
Lemma ok_snd {X Y} `{Handles X} `{Handles Y} (p : X * Y) : ok p -> ok (snd p).
Proof. destruct p as [x y]. intros K. apply ok_pair in K. apply K. Qed.
Lemma ok_nil {X} `{Handles X} : ok (@nil X). Proof. constructor. Qed.
Lemma ok_cons {X} `{Handles X} (x : X) l : ok (x :: l) <-> ok x /\ ok l.
Proof. unfold ok, cells_of at 1, hs_list. cbn [map concat]. apply Forall_app. Qed.
Lemma ok_list {X} `{Handles X} (l : list X) : ok l <-> Forall ok l.
Proof.
  induction l as [|x l IH]; [split; constructor|]. rewrite ok_cons, IH. split; [intros [? ?]; constructor; auto|].
  intros F; inversion F; auto.
Qed.
Lemma ok_app {X} `{Handles X} (l k : list X) : ok (l ++ k) <-> ok l /\ ok k.
Proof. rewrite !ok_list. apply Forall_app. Qed.
Lemma ok_incl {X} `{Handles X} (l k : list X) : incl k l -> ok l -> ok k.
Proof. rewrite !ok_list, !Forall_forall. auto. Qed.
Lemma ok_firstn {X} `{Handles X} n (l : list X) : ok l -> ok (firstn n l).
Proof. apply ok_incl. intros x. intros K. rewrite <- (firstn_skipn n l). apply in_or_app. auto. Qed.
Lemma ok_skipn {X} `{Handles X} n (l : list X) : ok l -> ok (skipn n l).
Proof. apply ok_incl. intros x K. rewrite <- (firstn_skipn n l). apply in_or_app. auto. Qed.
Lemma ok_rev {X} `{Handles X} (l : list X) : ok l -> ok (rev l).
Proof. apply ok_incl. intros x. rewrite <- in_rev. auto. Qed.
Lemma ok_repeat {X} `{Handles X} (x : X) n : ok x -> ok (repeat x n).
Proof. intros K. apply ok_list. induction n; constructor; auto. Qed.
Lemma ok_concat {X} `{Handles X} (l : list (list X)) : ok l -> ok (concat l).
Proof. induction l as [|x l IH]; cbn [concat]; [auto|]. rewrite ok_cons, ok_app. intros [? ?]. auto. Qed.
Lemma ok_map {X Y} `{Handles X} `{Handles Y} (f : X -> Y) l : (forall x, ok x -> ok (f x)) -> ok l -> ok (map f l).
Proof. intros F. induction l as [|x l IH]; cbn [map]; [intros; constructor|]. rewrite !ok_cons. intros [? ?]. auto. Qed.
Lemma ok_mapi_from {X Y} `{Handles X} `{Handles Y} (f : nat -> X -> Y) l : (forall i x, ok x -> ok (f i x)) -> forall k, ok l -> ok (mapi_from k f l).
Proof. intros F. induction l as [|x l IH]; intros k; cbn [mapi_from]; [intros; constructor|]. rewrite !ok_cons. intros [? ?]. auto. Qed.
Lemma ok_mapi {X Y} `{Handles X} `{Handles Y} (f : nat -> X -> Y) l : (forall i x, ok x -> ok (f i x)) -> ok l -> ok (mapi f l).
Proof. intros F. apply ok_mapi_from, F. Qed.
Lemma ok_combine {X Y} `{Handles X} `{Handles Y} (l : list X) (k : list Y) : ok l -> ok k -> ok (combine l k).
Proof.
  revert k. induction l as [|x l IH]; intros [|y k]; cbn [combine]; try (intros; constructor).
  rewrite !ok_cons. intros [? ?] [? ?]. split; [apply ok_pair; auto|auto].
Qed.
Lemma ok_nth_error {X} `{Handles X} (l : list X) i x : nth_error l i = Some x -> ok l -> ok x.
Proof. intros E. rewrite ok_list, Forall_forall. intros F. apply F. eapply nth_error_In, E. Qed.
Lemma ok_nth {X} `{Handles X} (l : list X) i d : ok l -> ok d -> ok (nth i l d).
Proof. revert i. induction l as [|x l IH]; intros [|i]; cbn [nth]; rewrite ?ok_cons; intuition. Qed.
Lemma ok_chunks_n {X} `{Handles X} k n : forall l : list X, ok l -> ok (chunks_fuel n k l).
Proof.
  induction n as [|n IH]; intros l K; cbn [chunks_fuel]; [constructor|]. destruct l as [|x l]; [constructor|].
  apply ok_cons. split; [apply ok_firstn, K|apply IH, ok_skipn, K].
Qed.
Lemma ok_chunks {X} `{Handles X} k (l : list X) : ok l -> ok (chunks k l).
Proof. apply ok_chunks_n. Qed.
Lemma ok_some {X} `{Handles X} (x : X) : ok (Some x) <-> ok x. Proof. reflexivity. Qed.
Lemma ok_none {X} `{Handles X} : ok (@None X). Proof. constructor. Qed.
Lemma ok_uok {X} `{Handles X} (x : X) : ok (UOk x) <-> ok x. Proof. reflexivity. Qed.
Lemma ok_uerr {X} `{Handles X} e : ok (@UErr X e). Proof. constructor. Qed.
Lemma ok_if {X} `{Handles X} (b : bool) (x y : X) : ok x -> ok y -> ok (if b then x else y).
Proof. destruct b; auto. Qed.

Lemma ok_int l n t : ok (mkInt l n t) <-> ok l /\ ok n. Proof. apply Forall_app. Qed.
Lemma ok_limbs a : ok a -> ok (i_limbs a). Proof. destruct a. intros K. apply ok_int in K. apply K. Qed.
Lemma ok_native a : ok a -> ok (i_native a). Proof. destruct a. intros K. apply ok_int in K. apply K. Qed.
Lemma ok_curv v z : ok (mkCurv v z) <-> ok v /\ ok z. Proof. apply Forall_app. Qed.
Lemma ok_kv a : ok a -> ok (k_v a). Proof. destruct a. intros K. apply ok_curv in K. apply K. Qed.
Lemma ok_kz a : ok a -> ok (k_z a). Proof. destruct a. intros K. apply ok_curv in K. apply K. Qed.
Lemma ok_pt x y z : ok (mkPt x y z) <-> ok x /\ ok y /\ ok z.
Proof. unfold ok at 1, cells_of, hs_point. cbn [p_x p_y p_z]. rewrite !Forall_app. reflexivity. Qed.
Lemma ok_px a : ok a -> ok (p_x a). Proof. destruct a. intros K. apply ok_pt in K. apply K. Qed.
Lemma ok_py a : ok a -> ok (p_y a). Proof. destruct a. intros K. apply ok_pt in K. apply K. Qed.
Lemma ok_pz a : ok a -> ok (p_z a). Proof. destruct a. intros K. apply ok_pt in K. apply K. Qed.
Lemma ok_nz x y : ok (mkNz x y) <-> ok x /\ ok y. Proof. apply Forall_app. Qed.
Lemma ok_nx a : ok a -> ok (nz_x a). Proof. destruct a. intros K. apply ok_nz in K. apply K. Qed.
Lemma ok_ny a : ok a -> ok (nz_y a). Proof. destruct a. intros K. apply ok_nz in K. apply K. Qed.
Lemma ok_ptc x y z k : ok (mkPtc x y z k) <-> ok x /\ ok y /\ ok z /\ ok k.
Proof. unfold ok at 1, cells_of, hs_pointc. cbn [pc_x pc_y pc_z pc_c]. rewrite !Forall_app. reflexivity. Qed.
Lemma ok_pcx a : ok a -> ok (pc_x a). Proof. destruct a. intros K. apply ok_ptc in K. apply K. Qed.
Lemma ok_pcy a : ok a -> ok (pc_y a). Proof. destruct a. intros K. apply ok_ptc in K. apply K. Qed.
Lemma ok_pcz a : ok a -> ok (pc_z a). Proof. destruct a. intros K. apply ok_ptc in K. apply K. Qed.
Lemma ok_pcc a : ok a -> ok (pc_c a). Proof. destruct a. intros K. apply ok_ptc in K. apply K. Qed.
Lemma ok_to_point a : ok a -> ok (to_point a).
Proof. destruct a. intros K. apply ok_ptc in K. apply ok_pt. tauto. Qed.
Lemma ok_g2a x y z : ok (mkG2a x y z) <-> ok x /\ ok y /\ ok z.
Proof. unfold ok at 1, cells_of, hs_g2a. cbn [ga_x ga_y ga_z]. rewrite !Forall_app. reflexivity. Qed.
Lemma ok_gax a : ok a -> ok (ga_x a). Proof. destruct a. intros K. apply ok_g2a in K. apply K. Qed.
Lemma ok_gay a : ok a -> ok (ga_y a). Proof. destruct a. intros K. apply ok_g2a in K. apply K. Qed.
Lemma ok_gaz a : ok a -> ok (ga_z a). Proof. destruct a. intros K. apply ok_g2a in K. apply K. Qed.
Lemma ok_g2 x y z : ok (mkG2 x y z) <-> ok x /\ ok y /\ ok z.
Proof. unfold ok at 1, cells_of, hs_g2. cbn [gj_x gj_y gj_z]. rewrite !Forall_app. reflexivity. Qed.
Lemma ok_gjx a : ok a -> ok (gj_x a). Proof. destruct a. intros K. apply ok_g2 in K. apply K. Qed.
Lemma ok_gjy a : ok a -> ok (gj_y a). Proof. destruct a. intros K. apply ok_g2 in K. apply K. Qed.
Lemma ok_gjz a : ok a -> ok (gj_z a). Proof. destruct a. intros K. apply ok_g2 in K. apply K. Qed.
Lemma ok_t0 {X} `{Handles X} (x : X * X * X) : ok x -> ok (t0 x). Proof. intros. apply ok_fst, ok_fst. assumption. Qed.
Lemma ok_t1 {X} `{Handles X} (x : X * X * X) : ok x -> ok (t1 x). Proof. intros. apply ok_snd, ok_fst. assumption. Qed.
Lemma ok_t2 {X} `{Handles X} (x : X * X * X) : ok x -> ok (t2 x). Proof. intros. apply ok_snd. assumption. Qed.
Lemma ok_pa a k : ok (pa a k) <-> ok a.
Proof. unfold pa. rewrite ok_pair. split; [intros [K _]; exact K|]. intros K; split; [exact K|constructor]. Qed.
Lemma ok_pu v k : ok (pu v k). Proof. constructor. Qed.

(** ** Values without handles *)
End L.

Class Plain X `{Handles X} := plain : forall x : X, cells_of x = [].
#[global] Instance plain_Z : Plain Z. Proof. intros x; reflexivity. Qed.
#[global] Instance plain_nat : Plain nat. Proof. intros x; reflexivity. Qed.
#[global] Instance plain_bool : Plain bool. Proof. intros x; reflexivity. Qed.
#[global] Instance plain_unit : Plain unit. Proof. intros x; reflexivity. Qed.
#[global] Instance plain_pair {X Y} `{Plain X} `{Plain Y} : Plain (X * Y).
Proof. intros [x y]. change (cells_of x ++ cells_of y = []). rewrite (plain x : cells_of x = []), (plain y : cells_of y = []). reflexivity. Qed.
#[global] Instance plain_list {X} `{Plain X} : Plain (list X).
Proof. intros l. induction l as [|x l IH]; [reflexivity|]. change (cells_of x ++ cells_of l = []). rewrite IH, (plain x : cells_of x = []). reflexivity. Qed.
#[global] Instance plain_option {X} `{Plain X} : Plain (option X).
Proof. intros [x|]; [exact (plain x)|reflexivity]. Qed.

Ltac jb := lazymatch goal with
  | |- J _ (mbind ?m ?k) => refine (J_bind _ m k _ _)
  | |- J _ (ubind ?m ?k) => refine (J_ubind _ m k _ _)
  end.
Section L2.
Context {NM : NMod} {W : World}.
Lemma ok_plain {X} `{Plain X} (x : X) : ok x. Proof. unfold ok. rewrite (plain x : cells_of x = []). constructor. Qed.

Lemma J_opt (P : Prop) {X} `{Handles X} (o : option X) : (P -> ok o) -> J P (mopt o).
Proof. intros K. destruct o as [x|]; [change (J P (mret x)); apply J_ret; exact K|apply J_panic]. Qed.
Lemma J_nth (P : Prop) {X} `{Handles X} (l : list X) i : (P -> ok l) -> J P (mnth l i).
Proof.
  intros K. apply J_opt. intros p. destruct (nth_error l i) eqn:E; [|constructor]. apply ok_some. eapply ok_nth_error; [exact E|auto].
Qed.
Lemma J_mapM (P : Prop) {X Y} `{Handles X} `{Handles Y} (f : X -> M Y) l : (P -> ok l) -> (forall x, J (P /\ ok x) (f x)) -> J P (mapM f l).
Proof.
  intros K Hf. induction l as [|x l IH]; cbn [mapM]; [apply J_ret; intros; constructor|].
  jb; [eapply J_wk; [|apply (Hf x)]; intros p; split; [exact p|]; apply K in p; apply ok_cons in p; apply p|intros y].
  jb; [eapply J_wk; [|apply IH]; [tauto|intros p; apply K in p; apply ok_cons in p; apply p]|intros ys].
  apply J_ret. intros [[_ ?] ?]. apply ok_cons. auto.
Qed.
Lemma J_foldM (P : Prop) {X S} `{Handles X} `{Handles S} (f : S -> X -> M S) l : (P -> ok l) -> (forall s x, J ((P /\ ok s) /\ ok x) (f s x)) ->
  forall s, (P -> ok s) -> J P (foldM f s l).
Proof.
  intros K Hf. cut (forall s (Q : Prop), (Q -> P /\ ok l /\ ok s) -> J Q (foldM f s l)).
  { intros G s Hs. apply G. auto. }
  clear K. induction l as [|x l IH]; intros s Q K; cbn [foldM].
  - apply J_ret. intros q. apply K, q.
  - jb; [eapply J_wk; [|apply Hf]; intros q; destruct (K q) as (? & L & ?); apply ok_cons in L; tauto|intros s'].
    apply IH. intros [q ?]. destruct (K q) as (? & L & ?). apply ok_cons in L. tauto.
Qed.
Lemma J_ufoldM (P : Prop) {X S} `{Handles X} `{Handles S} (f : S -> X -> M (uresult S)) l : (P -> ok l) -> (forall s x, J ((P /\ ok s) /\ ok x) (f s x)) ->
  forall s, (P -> ok s) -> J P (ufoldM f s l).
Proof.
  intros K Hf. cut (forall s (Q : Prop), (Q -> P /\ ok l /\ ok s) -> J Q (ufoldM f s l)).
  { intros G s Hs. apply G. auto. }
  clear K. induction l as [|x l IH]; intros s Q K; cbn [ufoldM].
  - apply J_ret. intros q. apply K, q.
  - jb; [eapply J_wk; [|apply Hf]; intros q; destruct (K q) as (? & L & ?); apply ok_cons in L; tauto|intros s'].
    apply IH. intros [q ?]. destruct (K q) as (? & L & ?). apply ok_cons in L. tauto.
Qed.

(** ** The recorder *)
Lemma get_adv_app ws m x : get_adv m x <> None -> get_adv (ws ++ m) x <> None.
Proof. intros K. induction ws as [|w ws IH]; [exact K|]. cbn [app get_adv]. destruct w; auto. destruct (cell_eqb _ x); [discriminate|auto]. Qed.
Lemma get_adv_in ws m x v : In (WAdv x v) ws -> get_adv (ws ++ m) x <> None.
Proof.
  induction ws as [|w ws IH]; [intros []|]. intros [->|K]; cbn [app get_adv].
  - replace (cell_eqb x x) with true by (symmetry; apply cell_eqb_eq; reflexivity). discriminate.
  - destruct w; auto. destruct (cell_eqb _ x); [discriminate|auto].
Qed.
Lemma J_block (P : Prop) {X} `{Handles X} (m : M X) :
  (forall c x c', m c = Ok (x, c') -> exists ch k ws ps, block ch k ws ps c c'
     /\ (P -> (forall y v, In (WAdv y v) ws -> copyable y -> world y) -> ok x /\ (forall a b, In (a, b) ps -> world a /\ world b))) -> J P m.
Proof.
  intros K c x c' E. destruct (K c x c' E) as (ch & k & ws & ps & B & L).
  pose proof (blk_mem _ _ _ _ _ _ B) as Em. pose proof (blk_perms _ _ _ _ _ _ B) as Ep. rewrite rev_append_rev in Em, Ep.
  split; [intros y Hy; rewrite Em; apply get_adv_app, Hy|].
  intros p Bl C. destruct (L p) as [L1 L2].
  { intros y v Hy Cy. apply Bl. split; [|exact Cy]. rewrite Em. eapply get_adv_in. rewrite <- in_rev. exact Hy. }
  split; [exact L1|]. intros a b. rewrite Ep, in_app_iff, <- in_rev. intros [K1|K1]; auto.
Qed.

Lemma mapi_from_nth {X Y} (g : nat -> X -> list Y) l : forall k, forall y i x,
  (k <= i)%nat -> nth_error l (i - k) = Some x -> In y (g i x) -> In y (concat (mapi_from k g l)).
Proof.
  induction l as [|a l IH]; intros k y i x L E Hy; cbn [mapi_from concat]; [destruct (i - k)%nat; discriminate|].
  apply in_or_app. destruct (Nat.eq_dec i k) as [->|Q].
  - rewrite Nat.sub_diag in E. injection E as ->. auto.
  - right. apply (IH (S k) y i x); [lia| |exact Hy]. replace (i - k)%nat with (S (i - S k)) in E by lia. exact E.
Qed.

(** The advice cells of a row. *)
Lemma row_world off pairs k0 : (k0 + length pairs <= 5)%nat ->
  (forall y v, In (WAdv y v) (concat (mapi_from k0 (adv_writes off) pairs)) -> copyable y -> world y) ->
  forall i, (k0 <= i < k0 + length pairs)%nat -> world (bcell i off).
Proof.
  intros L K i Hi. destruct (nth_error pairs (i - k0)) as [p|] eqn:E; [|apply nth_error_None in E; lia].
  destruct p as [s z]. eapply (K (bcell i off) (schema_val s)); [|cbn; lia].
  eapply (mapi_from_nth _ _ k0 _ i (s, z)); [lia|exact E|].
  unfold adv_writes. apply in_or_app. right. left. reflexivity.
Qed.
Lemma adv_perms_world off k p a b : ok p -> world (bcell k off) -> In (a, b) (adv_perms off k p) -> world a /\ world b.
Proof.
  destruct p as [s z]. intros K R. unfold adv_perms. cbn [fst]. destruct s as [h|v]; cbn [schema_cell]; [|intros []].
  apply ok_pair in K as [K _]. intros [E|[]]. injection E as <- <-. inversion K; subst. auto.
Qed.
Lemma ol_perms_world off pairs k0 : ok pairs -> (forall i, (k0 <= i < k0 + length pairs)%nat -> world (bcell i off)) ->
  forall a b, In (a, b) (concat (mapi_from k0 (adv_perms off) pairs)) -> world a /\ world b.
Proof.
  revert k0. induction pairs as [|p l IH]; intros k0 K R a b; cbn [mapi_from concat]; [intros []|].
  apply ok_cons in K as [K1 K2]. cbn [length] in R. intros Hab. apply in_app_or in Hab as [Hab|Hab].
  - eapply adv_perms_world; [exact K1| |exact Hab]. apply R. lia.
  - eapply (IH (S k0)); [exact K2| |exact Hab]. intros i Hi. apply R. lia.
Qed.
Lemma ol_handles_world off pairs k0 : (forall i, (k0 <= i < k0 + length pairs)%nat -> world (bcell i off)) ->
  ok (mapi_from k0 (fun i (p : pair_t) => mkAv (bcell i off) (schema_val (fst p))) pairs).
Proof.
  revert k0. induction pairs as [|p l IH]; intros k0 R; cbn [mapi_from]; [constructor|]. cbn [length] in R. apply ok_cons. split.
  - constructor; [apply R; lia|constructor].
  - apply IH. intros i Hi. apply R. lia.
Qed.
Lemma J_one_line (P : Prop) pairs constant muls next : (P -> ok pairs) -> J P (one_line pairs constant muls next).
Proof.
  intros K. apply J_block. intros c r c' H. apply one_line_inv in H as (L & _ & B & ->). do 4 eexists. split; [exact B|].
  intros p Wd. assert (R : forall i, (0 <= i < 0 + length pairs)%nat -> world (bcell i (base_off c))).
  { apply row_world; [exact L|]. intros y v Hy. apply (Wd y v). unfold ol_writes. rewrite !in_app_iff. auto. }
  split; [apply ol_handles_world, R|]. apply ol_perms_world; [auto|exact R].
Qed.
Lemma J_one_line_with_last (P : Prop) pairs tail constant muls next : (P -> ok pairs) -> (P -> ok tail) ->
  J P (one_line_with_last pairs tail constant muls next).
Proof.
  intros K T. apply J_block. intros c r c' H. apply one_line_with_last_inv in H as (L & _ & B & ->). do 4 eexists. split; [exact B|].
  intros p Wd. assert (R : forall i, (0 <= i < 0 + length pairs)%nat -> world (bcell i (base_off c))).
  { apply row_world; [lia|]. intros y v Hy. apply (Wd y v). unfold olt_writes, ol_writes. rewrite !in_app_iff. auto. }
  assert (R4 : world (bcell 4 (base_off c))).
  { apply (Wd _ (schema_val (fst tail))); [|cbn; lia]. unfold olt_writes. apply in_or_app. right. unfold adv_writes. destruct tail as [s z].
    apply in_or_app. right. left. reflexivity. }
  split; [apply ok_pair; split; [apply ol_handles_world, R|repeat constructor; exact R4]|].
  intros a b Hab. unfold olt_perms in Hab. apply in_app_or in Hab as [Hab|Hab].
  - eapply ol_perms_world; [exact (K p)|exact R|exact Hab].
  - eapply adv_perms_world; [exact (T p)|exact R4|exact Hab].
Qed.
Lemma J_common (P : Prop) bn : J P (assign_common bn).
Proof.
  apply J_block. intros c r c' H. apply assign_common_inv in H as [B ->]. do 4 eexists. split; [exact B|].
  intros _ Wd. split; [|intros ? ? []]. repeat constructor. eapply Wd; [|reflexivity]. unfold rw1. cbn [In]. intuition eauto.
Qed.
Lemma J_limb (P : Prop) bn k b : J P (assign_limb bn k b).
Proof.
  apply J_block. intros c r c' H. apply assign_limb_inv in H as (-> & [(_ & B)|[(_ & B)|(_ & B)]]); do 4 eexists; (split; [exact B|]);
  (intros _ Wd; split; [|intros ? ? []]; repeat constructor; eapply Wd; [|reflexivity]); unfold rw1, rw2, rw3; cbn [In]; intuition eauto.
Qed.
Lemma J_cache (P : Prop) v off g sc : (P -> ok v) -> J P (assign_cache_value v off g sc).
Proof.
  intros K. apply J_block. intros c r c' H. pose proof (cache_inv _ _ _ _ _ _ _ H) as B. destruct r. do 4 eexists. split; [exact B|].
  intros p Wd. split; [constructor|]. intros a b [E|[]]. injection E as <- <-. split; [|specialize (K p); inversion K; assumption].
  eapply Wd; [|left; reflexivity]. unfold cache_ws. cbn [In]. intuition eauto.
Qed.
Lemma J_select (P : Prop) v off g s : (P -> ok s) -> J P (assign_selected_value v off g s).
Proof.
  intros K. apply J_block. intros c r c' H. apply sel_inv in H as [-> B]. do 4 eexists. split; [exact B|].
  intros p Wd. split; [repeat constructor; eapply Wd; [|left; reflexivity]; unfold sel_ws; cbn [In]; intuition eauto|].
  intros a b [E|[]]. injection E as <- <-. split; [|specialize (K p); inversion K; assumption].
  eapply Wd; [|right; reflexivity]. unfold sel_ws. cbn [In]. intuition eauto.
Qed.

(** ** Cloned contexts *)
Lemma run_clones_ok (P : Prop) {X} `{Handles X} (f : nat -> M (uresult X)) c diff : (forall i, J P (f i)) ->
  forall is m r m', run_clones f c diff is m = Ok (r, m') ->
    (forall x, get_adv m x <> None -> get_adv m' x <> None)
    /\ (P -> (forall x, get_adv m' x <> None -> copyable x -> world x) ->
        match r with UOk xs => ok (map fst xs) /\ Forall (fun x => pok (snd x)) xs | UErr _ => True end).
Proof.
  intros F. induction is as [|i is IH]; intros m r m' E; cbn [run_clones] in E.
  - injection E as <- <-. split; [auto|]. intros _ _. split; constructor.
  - destruct (f i _) as [[[x|e] ci']|] eqn:Ef; try discriminate; pose proof (F _ _ _ _ Ef) as [G K].
    + destruct (off_eqb _ _); [|discriminate].
      destruct (run_clones f c diff is (c_mem ci')) as [[[xs|e] m1]|] eqn:R; try discriminate; injection E as <- <-;
        destruct (IH _ _ _ R) as [G2 K2]; (split; [intros y Hy; apply G2, (G y), Hy|]); intros p Wd; [|exact Logic.I].
      destruct (K2 p Wd) as [A2 B2]. destruct K as [A1 B1]; [exact p| |intros ? ? []|].
      * intros y [Hy Cy]. apply Wd; [apply G2, Hy|exact Cy].
      * cbn [map fst]. split; [apply ok_cons; auto|constructor; auto].
    + injection E as <- <-. split; [exact G|]. intros; exact Logic.I.
Qed.
Lemma merge_pok m xs : forall c, pok c -> Forall (fun x => pok (snd x)) xs -> pok (fold_left (fun c (x : anz * ctx) => merge m c (snd x)) xs c).
Proof.
  induction xs as [|x xs IH]; intros c K F; [exact K|]. inversion F; subst. cbn [fold_left]. apply IH; [|assumption].
  intros a b. unfold merge. cbn [c_perms]. rewrite in_app_iff. intros [?|?]; auto.
Qed.
Lemma J_par_windows (P : Prop) (f : nat -> M (uresult anz)) windows : (forall i, J P (f i)) -> J P (par_windows f windows).
Proof.
  intros F c r c' E. unfold par_windows in E.
  destruct (f 0%nat _) as [[[x0|e] c0']|] eqn:E0; try discriminate; pose proof (F _ _ _ _ E0) as [G0 K0].
  - destruct (run_clones f _ _ _ _) as [[[xs|e] m]|] eqn:R; try discriminate; destruct (run_clones_ok P f _ _ F _ _ _ _ R) as [G1 K1];
      cbn [merge c_mem] in G1; injection E as <- <-.
    + assert (Em : c_mem (apply_offset_diff (off_scale windows (off_sub (offset_of c0') (offset_of (clone_with_offset (c_mem c) {| o_base := 0; o_range := 0; o_select := 0 |} c))))
         (fold_left (fun c x => merge m c (snd x)) xs (with_mem m (merge (c_mem c0') c c0')))) = m).
      { cbn [apply_offset_diff c_mem]. rewrite merge_fold_mem; reflexivity. }
      split; [intros y Hy; rewrite Em; apply G1, (G0 y), Hy|].
      intros p B C. assert (Wd : forall y, get_adv m y <> None -> copyable y -> world y) by (intros y Hy Cy; apply B; split; [rewrite Em; exact Hy|exact Cy]).
      destruct (K1 p Wd) as [A1 B1]. destruct K0 as [A0 B0]; [exact p|intros y [Hy Cy]; apply Wd; [apply G1, Hy|exact Cy]|intros ? ? []|].
      split; [change (ok (x0 :: map fst xs)); apply ok_cons; auto|].
      assert (Q : pok (fold_left (fun c x => merge m c (snd x)) xs (with_mem m (merge (c_mem c0') c c0')))).
      { apply merge_pok; [|exact B1]. intros a b. unfold merge, with_mem. cbn [c_perms]. rewrite in_app_iff. intros [?|?]; auto. }
      exact Q.
    + split; [intros y Hy; cbn [with_mem c_mem]; apply G1, (G0 y), Hy|]. intros p B C. split; [constructor|].
      destruct K0 as [_ B0]; [exact p| |intros ? ? []|].
      { intros y [Hy Cy]. apply B. split; [apply G1, Hy|exact Cy]. }
      intros a b. unfold with_mem, merge. cbn [c_perms]. rewrite in_app_iff. intros [?|?]; auto.
  - injection E as <- <-. split; [exact G0|]. intros p B C. split; [constructor|]. exact C.
Qed.
End L2.
