(** Concrete runs used by the examples in PropsInt.v. *)
From Verif Require Import Prelude FieldZ Circuit Context Spec BaseChip
  RangeInfo RangeChip IntegerChip SpecInt IntProg SpecProg Moduli Fields Checker IntEval.
Lemma C14_case_main : exists r c', @run_prog bn256_fr bn_fq_info [bn256_fq_p-1; bn256_fq_p]
    [IReduce 0] ctx_new = Ok (r, c')
  /\ @satisfies bn256_fr c' (honest c')
  /\ map (fun x => int_value (at_ (honest c')) x mod bn256_fq_p) (fst (snd r)) = [bn256_fq_p - 1; 0; bn256_fq_p - 1]
  /\ map (at_ (honest c')) (snd (snd r)) = [].
Proof.
  destruct (run_check_ok (NM := bn256_fr) (@run_prog bn256_fr bn_fq_info [bn256_fq_p-1; bn256_fq_p]
    [IReduce 0])
    (fun r A => (if list_eq_dec Z.eq_dec (map (fun x => int_value (at_ A) x mod bn256_fq_p) (fst (snd r))) [bn256_fq_p - 1; 0; bn256_fq_p - 1] then true else false)
             && (if list_eq_dec Z.eq_dec (map (at_ A) (snd (snd r))) [] then true else false)))
    as (r & c' & R & S & T); [reflexivity|vm_cast_no_check (eq_refl true)|].
  exists r, c'. split; [exact R|]. split; [exact S|].
  apply andb_prop in T as [T1 T2]. destruct list_eq_dec in T1; [|discriminate]. destruct list_eq_dec in T2; [|discriminate].
  split; assumption.
Qed.
Lemma C16_case_main : exists r c', @run_prog bn256_fr bn_fq_info [bn256_fq_p-1; 5]
    [IAdd 0 1; ISub 2 1; INeg 3; IMulSmall 4 7] ctx_new = Ok (r, c')
  /\ @satisfies bn256_fr c' (honest c')
  /\ map (fun x => int_value (at_ (honest c')) x mod bn256_fq_p) (fst (snd r)) = [bn256_fq_p - 1; 5; 4; bn256_fq_p - 1; 1; 7]
  /\ map (at_ (honest c')) (snd (snd r)) = [].
Proof.
  apply (ieval_run (NM := bn256_fr) bn256_fq_p bn_fq_info [bn256_fq_p-1; 5]
    [IAdd 0 1; ISub 2 1; INeg 3; IMulSmall 4 7] ([bn256_fq_p - 1; 5; 4; bn256_fq_p - 1; 1; 7], []));
    [apply bn256_fr_prime|apply bn256_fq_p_prime|apply bn_fq_info_ok|discriminate
    |repeat constructor; discriminate|repeat constructor; discriminate|vm_compute; reflexivity].
Qed.
Lemma C17_case_main : exists r c', @run_prog bn256_fr bn_fq_info [bn256_fq_p-1; bn256_fq_p-1]
    [IMul 0 1; ISquare 2] ctx_new = Ok (r, c')
  /\ @satisfies bn256_fr c' (honest c')
  /\ map (fun x => int_value (at_ (honest c')) x mod bn256_fq_p) (fst (snd r)) = [bn256_fq_p - 1; bn256_fq_p - 1; 1; 1]
  /\ map (at_ (honest c')) (snd (snd r)) = [].
Proof.
  apply (ieval_run (NM := bn256_fr) bn256_fq_p bn_fq_info [bn256_fq_p-1; bn256_fq_p-1]
    [IMul 0 1; ISquare 2] ([bn256_fq_p - 1; bn256_fq_p - 1; 1; 1], []));
    [apply bn256_fr_prime|apply bn256_fq_p_prime|apply bn_fq_info_ok|discriminate
    |repeat constructor; discriminate|repeat constructor; discriminate|vm_compute; reflexivity].
Qed.
Lemma C18_case_main : exists r c', @run_prog bn256_fr bn_fq_info [6; 3]
    [IDiv 0 1; IInvert 1] ctx_new = Ok (r, c')
  /\ @satisfies bn256_fr c' (honest c')
  /\ map (fun x => int_value (at_ (honest c')) x mod bn256_fq_p) (fst (snd r)) = [6; 3; 2; 14592161914559516814830937163504850059130874104865215775126025263096817472389]
  /\ map (at_ (honest c')) (snd (snd r)) = [0].
Proof.
  apply (ieval_run (NM := bn256_fr) bn256_fq_p bn_fq_info [6; 3]
    [IDiv 0 1; IInvert 1] ([6; 3; 2; 14592161914559516814830937163504850059130874104865215775126025263096817472389], [false]));
    [apply bn256_fr_prime|apply bn256_fq_p_prime|apply bn_fq_info_ok|discriminate
    |repeat constructor; discriminate|repeat constructor; discriminate|vm_compute; reflexivity].
Qed.
Lemma C19_case_main : exists r c', @run_prog bn256_fr bn_fq_info [0; bn256_fq_p; 3]
    [IIsZero 0; IIsZero 1; IIsZero 2] ctx_new = Ok (r, c')
  /\ @satisfies bn256_fr c' (honest c')
  /\ map (fun x => int_value (at_ (honest c')) x mod bn256_fq_p) (fst (snd r)) = [0; 0; 3]
  /\ map (at_ (honest c')) (snd (snd r)) = [1; 1; 0].
Proof.
  destruct (run_check_ok (NM := bn256_fr) (@run_prog bn256_fr bn_fq_info [0; bn256_fq_p; 3]
    [IIsZero 0; IIsZero 1; IIsZero 2])
    (fun r A => (if list_eq_dec Z.eq_dec (map (fun x => int_value (at_ A) x mod bn256_fq_p) (fst (snd r))) [0; 0; 3] then true else false)
             && (if list_eq_dec Z.eq_dec (map (at_ A) (snd (snd r))) [1; 1; 0] then true else false)))
    as (r & c' & R & S & T); [reflexivity|vm_cast_no_check (eq_refl true)|].
  exists r, c'. split; [exact R|]. split; [exact S|].
  apply andb_prop in T as [T1 T2]. destruct list_eq_dec in T1; [|discriminate]. destruct list_eq_dec in T2; [|discriminate].
  split; assumption.
Qed.
Lemma C19_case2_main : exists r c', @run_prog bn256_fr bn_fq_info [4; 3]
    [IIsEqual 0 1; IIsEqual 0 0] ctx_new = Ok (r, c')
  /\ @satisfies bn256_fr c' (honest c')
  /\ map (fun x => int_value (at_ (honest c')) x mod bn256_fq_p) (fst (snd r)) = [4; 3]
  /\ map (at_ (honest c')) (snd (snd r)) = [0; 1].
Proof.
  apply (ieval_run (NM := bn256_fr) bn256_fq_p bn_fq_info [4; 3]
    [IIsEqual 0 1; IIsEqual 0 0] ([4; 3], [false; true]));
    [apply bn256_fr_prime|apply bn256_fq_p_prime|apply bn_fq_info_ok|discriminate
    |repeat constructor; discriminate|repeat constructor; discriminate|vm_compute; reflexivity].
Qed.
Lemma C20_case_main : exists r c', @run_prog bn256_fr bn_fq_info [bn256_fq_p-1]
    [IConst 0; INeg 1; IAdd 0 2; IAssertEqual 0 3] ctx_new = Ok (r, c')
  /\ @satisfies bn256_fr c' (honest c')
  /\ map (fun x => int_value (at_ (honest c')) x mod bn256_fq_p) (fst (snd r)) = [bn256_fq_p - 1; 0; 0; bn256_fq_p - 1]
  /\ map (at_ (honest c')) (snd (snd r)) = [].
Proof.
  apply (ieval_run (NM := bn256_fr) bn256_fq_p bn_fq_info [bn256_fq_p-1]
    [IConst 0; INeg 1; IAdd 0 2; IAssertEqual 0 3] ([bn256_fq_p - 1; 0; 0; bn256_fq_p - 1], []));
    [apply bn256_fr_prime|apply bn256_fq_p_prime|apply bn_fq_info_ok|discriminate
    |repeat constructor; discriminate|repeat constructor; discriminate|vm_compute; reflexivity].
Qed.
Lemma C21_case_main : exists r c', @run_prog bn256_fr bn_fq_info [5]
    [IConst 7; IIsZero 0; ISelect 0 0 1] ctx_new = Ok (r, c')
  /\ @satisfies bn256_fr c' (honest c')
  /\ map (fun x => int_value (at_ (honest c')) x mod bn256_fq_p) (fst (snd r)) = [5; 7; 7]
  /\ map (at_ (honest c')) (snd (snd r)) = [0].
Proof.
  apply (ieval_run (NM := bn256_fr) bn256_fq_p bn_fq_info [5]
    [IConst 7; IIsZero 0; ISelect 0 0 1] ([5; 7; 7], [false]));
    [apply bn256_fr_prime|apply bn256_fq_p_prime|apply bn_fq_info_ok|discriminate
    |repeat constructor; discriminate|repeat constructor; discriminate|vm_compute; reflexivity].
Qed.
Lemma C24_case_main : exists r c', @run_prog bn256_fr bn_fq_info [7; 3]
    [IAdd 0 1; IMul 0 2; IDiv 3 1; IIsEqual 0 0; ISelect 1 3 4; IAssertEqual 3 5] ctx_new = Ok (r, c')
  /\ @satisfies bn256_fr c' (honest c')
  /\ map (fun x => int_value (at_ (honest c')) x mod bn256_fq_p) (fst (snd r)) = [7; 3; 10; 70; 14592161914559516814830937163504850059130874104865215775126025263096817472412; 70]
  /\ map (at_ (honest c')) (snd (snd r)) = [0; 1].
Proof.
  apply (ieval_run (NM := bn256_fr) bn256_fq_p bn_fq_info [7; 3]
    [IAdd 0 1; IMul 0 2; IDiv 3 1; IIsEqual 0 0; ISelect 1 3 4; IAssertEqual 3 5] ([7; 3; 10; 70; 14592161914559516814830937163504850059130874104865215775126025263096817472412; 70], [false; true]));
    [apply bn256_fr_prime|apply bn256_fq_p_prime|apply bn_fq_info_ok|discriminate
    |repeat constructor; discriminate|repeat constructor; discriminate|vm_compute; reflexivity].
Qed.
