(** The invariants used in the proofs are the well-formedness notions of [SpecInt]. *)
From Verif Require Import Prelude FieldZ Circuit Context Spec Logic ModArith Prims BaseChip BaseProofs
  RangeInfo RangeChip IntegerChip SpecInt InfoProofs IntArith RangeProofs IntInv IntSound IntComplete.

Lemma limbs_value_lval f l : limbs_value f l = lval (map f l).
Proof.
  induction l as [|x l IH]; [reflexivity|]. cbn [limbs_value map lval]. rewrite IH. reflexivity.
Qed.
Lemma int_value_val f x : int_value f x = val f x.
Proof. apply limbs_value_lval. Qed.

Lemma nth_removelast {X} (d : X) l i : (i < length l - 1)%nat -> nth i (removelast l) d = nth i l d.
Proof.
  revert i; induction l as [|x l IH]; intros i H; [reflexivity|].
  destruct l as [|y l]; [cbn in H; lia|]. destruct i as [|i]; [reflexivity|].
  change (nth (S i) (x :: removelast (y :: l)) d = nth (S i) (x :: y :: l) d). cbn [nth]. apply IH. cbn [length] in *. lia.
Qed.
Lemma length_removelast {X} (l : list X) : length (removelast l) = (length l - 1)%nat.
Proof.
  induction l as [|x l IH]; [reflexivity|]. destruct l as [|y l]; [reflexivity|].
  change (S (length (removelast (y :: l))) = (S (length (y :: l)) - 1)%nat). rewrite IH. cbn [length]. lia.
Qed.

Section Bridge.
Context {NM : NMod}.
Variable w : Z.
Variable I : rinfo.
Hypothesis IO : info_ok w I.

Lemma wb_w_bits : ri_w_ceil_bits I = w_bits w.
Proof. apply (io_wb _ _ IO). Qed.

Lemma iwf_int_wf f x : iwf I f x <-> int_wf w f x.
Proof.
  pose proof (io_limbs _ _ IO) as HL. pose proof (io_L3 _ _ IO) as H3. rewrite wb_w_bits in HL.
  split; intros H.
  - pose proof (wf_len _ _ _ H) as HN. constructor.
    + rewrite HN. exact HL.
    + pose proof (wf_t _ _ _ H). lia.
    + apply Forall_forall. intros a Ha. apply (In_nth _ _ a) in Ha as (i & Hi & E).
      rewrite length_removelast in Hi. rewrite nth_removelast in E by auto.
      pose proof (wf_low _ _ _ H i ltac:(lia)) as K. unfold lv in K.
      rewrite (nth_indep _ 0 (f a)), map_nth, E in K by (rewrite map_length; lia). exact K.
    + intros a Ha. pose proof (wf_lead _ _ _ H) as K. rewrite <- HN in K.
      rewrite <- (lv_nth f x _ a Ha), wb_w_bits in K. exact K.
    + rewrite int_value_val, <- wb_w_bits. apply (wf_val _ _ _ H).
    + rewrite int_value_val. apply (wf_nat _ _ _ H).
  - pose proof (iw_len _ _ _ H) as HN. unfold n_limbs in HN. rewrite <- HL in HN.
    assert (HN' : length (i_limbs x) = ri_limbs I) by lia. constructor.
    + exact HN'.
    + pose proof (iw_times _ _ _ H). lia.
    + intros i Hi. pose proof (iw_low _ _ _ H) as K. rewrite Forall_forall in K. unfold lv.
      destruct (nth_error (i_limbs x) i) as [a|] eqn:E.
      2:{ apply nth_error_None in E. lia. }
      rewrite (nth_map_error f _ _ _ E). apply K.
      apply (nth_error_nth _ _ a) in E. rewrite <- E. rewrite <- nth_removelast by lia.
      apply nth_In. rewrite length_removelast. lia.
    + destruct (nth_error (i_limbs x) (ri_limbs I - 1)) as [a|] eqn:E.
      2:{ apply nth_error_None in E. lia. }
      rewrite <- (lv_nth f x _ a E), wb_w_bits. apply (iw_lead _ _ _ H). rewrite HN'. exact E.
    + rewrite <- int_value_val, wb_w_bits. apply (iw_val _ _ _ H).
    + rewrite <- int_value_val. apply (iw_native _ _ _ H).
Qed.

Lemma hint_int_ok c x : hint w I c x <-> int_ok w c x valid.
Proof.
  split.
  - intros ([H1 H2 H3] & H4 & H5). constructor; auto; [apply iwf_int_wf; auto|].
    rewrite int_value_val. auto.
  - intros [H1 H2 H3 H4 H5]. rewrite int_value_val in H5. split; [|split; auto].
    constructor; auto. apply iwf_int_wf; auto.
Qed.

Lemma hd_bits : ri_d_bits I = w_bits w + 13.
Proof. rewrite (io_dbits _ _ IO), wb_w_bits. reflexivity. Qed.
End Bridge.
