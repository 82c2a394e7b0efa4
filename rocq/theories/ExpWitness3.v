(** Bootstrapping with a subject who did not vote. *)
From Coq Require Import String.
From Coq Require Import List ZArith Bool Arith Reals Lra Lia.
From Verif Require Import PyBase Num ExtReal NumPy Dataset Mocked Preproc Mos AP Mle Experimental SpecMos SpecAp SpecMle SpecExperimental BaseProofs ExtRealProofs
  ArrayProofs StepsProofs MosWitness Eval MleWitness ExpProofs ExpWitness ExpWitness2.
Import ListNotations.
Local Open Scope R_scope.
Local Open Scope string_scope.

Definition wl_ds := w_ds [ w_dv 0 0 "v0" (OSeq false [w_vote 4; w_vote 2; PNum NaN]); w_dv 0 1 "v1" (OSeq false [w_vote 1; w_vote 3; PNum NaN]) ].
Definition wl_choice (i n : nat) : list Z := match n with 3%nat => [2; 0; 1]%Z | _ => map Z.of_nat (seq 0 n) end.
Lemma wl_draws : index_draws wl_choice.
Proof.
  intros i n. unfold wl_choice. destruct n as [|[|[|[|n]]]]; cbn [seq map length]; split; try reflexivity; try (repeat constructor; lia).
  - rewrite map_length, seq_length. reflexivity.
  - repeat (constructor; [lia|]). apply Forall_forall. intros z Hz. apply in_map_iff in Hz as (k & <- & Hk). apply in_seq in Hk. lia.
Qed.
Definition wl_s : arr3 ef := arr_of (select_subject_3darray wl_ds (Some [2; 0; 1]%Z)).

Lemma wl_q0 : along1 np_nanmean (stack1 (w_arr wl_ds)) = [Fin 3; Fin 2].
Proof. efcbv. ev. efred. ev. reflexivity. Qed.
Lemma wl_qs : along1 np_nanmean (stack1 wl_s) = [Fin 3; Fin 2].
Proof. efcbv. ev. efred. ev. reflexivity. Qed.
Lemma wl_start0 : mle_start ContentOblivious (w_arr wl_ds) [0; 0]%nat 2 [Fin 3; Fin 2] = ([Fin 3; Fin 2], zeros 3, [Fin 1; Fin 1; NaN], zeros 2).
Proof. start_tac. Qed.
Lemma wl_starts : mle_start ContentOblivious wl_s [0; 0]%nat 2 [Fin 3; Fin 2] = ([Fin 3; Fin 2], zeros 3, [NaN; Fin 1; Fin 1], zeros 2).
Proof. start_tac. Qed.
Lemma wl0_b : fst (b_simplified (w_arr wl_ds) [0; 0]%nat [Fin 3; Fin 2] (zeros 3) [Fin 1; Fin 1; NaN] (zeros 2)) = [Fin 0; Fin 0; NaN].
Proof. step_tac. Qed.
Lemma wl0_rb : refresh (zeros 3) [Fin 0; Fin 0; NaN] = [Fin 0; Fin 0; NaN].
Proof. efcbv. ev. reflexivity. Qed.
Lemma wl0_v : fst (v_simplified (w_arr wl_ds) [0; 0]%nat [Fin 3; Fin 2] [Fin 0; Fin 0; NaN] [Fin 1; Fin 1; NaN] (zeros 2)) = [Fin 1; Fin 1; NaN].
Proof. step_tac. Qed.
Lemma wl0_rv : clip0 (refresh [Fin 1; Fin 1; NaN] [Fin 1; Fin 1; NaN]) = [Fin 1; Fin 1; NaN].
Proof. clip_tac. Qed.
Lemma wl0_x : fst (x_simplified (w_arr wl_ds) [0; 0]%nat [Fin 3; Fin 2] [Fin 0; Fin 0; NaN] [Fin 1; Fin 1; NaN] (zeros 2)) = [Fin 3; Fin 2].
Proof. step_tac. Qed.
Lemma wl0_rx : refresh [Fin 3; Fin 2] [Fin 3; Fin 2] = [Fin 3; Fin 2].
Proof. efcbv. ev. reflexivity. Qed.
Lemma wls_b : fst (b_simplified wl_s [0; 0]%nat [Fin 3; Fin 2] (zeros 3) [NaN; Fin 1; Fin 1] (zeros 2)) = [NaN; Fin 0; Fin 0].
Proof. step_tac. Qed.
Lemma wls_rb : refresh (zeros 3) [NaN; Fin 0; Fin 0] = [NaN; Fin 0; Fin 0].
Proof. efcbv. ev. reflexivity. Qed.
Lemma wls_v : fst (v_simplified wl_s [0; 0]%nat [Fin 3; Fin 2] [NaN; Fin 0; Fin 0] [NaN; Fin 1; Fin 1] (zeros 2)) = [NaN; Fin 1; Fin 1].
Proof. step_tac. Qed.
Lemma wls_rv : clip0 (refresh [NaN; Fin 1; Fin 1] [NaN; Fin 1; Fin 1]) = [NaN; Fin 1; Fin 1].
Proof. clip_tac. Qed.
Lemma wls_x : fst (x_simplified wl_s [0; 0]%nat [Fin 3; Fin 2] [NaN; Fin 0; Fin 0] [NaN; Fin 1; Fin 1] (zeros 2)) = [Fin 3; Fin 2].
Proof. step_tac. Qed.

Section Runs.
  Variable chi : ef -> ef -> ef.
  Lemma wl_ref : exists m, mle_run chi MLE_CO (w_reader wl_ds) no_options wx_opts = Ok m /\ ml_quality m = [Fin 3; Fin 2] /\ ml_bias m = Some [Fin 0; Fin 0; NaN].
  Proof.
    destruct (pass_steps (w_arr wl_ds) _ _ _ _ _ _ _ _ eq_refl wl0_b wl0_rb wl0_v wl0_rv wl0_x wl0_rx) as (st & P & Q & B & V).
    destruct (one_pass_run chi wl_ds (ds_dis wl_ds) (w_arr wl_ds) None _ _ st eq_refl eq_refl eq_refl eq_refl eq_refl wl_q0 wl_start0 P) as (m & H & H1 & H2 & H3); [fins|rewrite Q; fins|].
    exists m. rewrite <- Q, <- B. auto.
  Qed.
  Lemma wl_subjects : exists m, mle_run chi MLE_CO (subject_reader wl_ds [2; 0; 1]%Z) no_options wx_opts = Ok m /\ ml_quality m = [Fin 3; Fin 2] /\ ml_bias m = Some [NaN; Fin 0; Fin 0].
  Proof.
    destruct (pass_steps wl_s _ _ _ _ _ _ _ _ eq_refl wls_b wls_rb wls_v wls_rv wls_x wl0_rx) as (st & P & Q & B & V).
    destruct (one_pass_run chi wl_ds (ds_dis wl_ds) wl_s None _ _ st eq_refl eq_refl eq_refl eq_refl eq_refl wl_qs wl_starts P) as (m & H & H1 & H2 & H3); [fins|rewrite Q; fins|].
    exists m. rewrite <- Q, <- B. auto.
  Qed.
  Lemma wl_run : exists res, boot_run chi wl_choice MLE_CO_BSTP (w_reader wl_ds) no_options wx_opts (BootOpts (Some 1%Z) None (Some false)) = Ok res /\
    ml_quality (br_mle res) = [Fin 3; Fin 2] /\ br_quality_ci res = Some ([NaN; NaN], [NaN; NaN]).
  Proof.
    unfold boot_run. cbn [mo_gradient mo_pdf mo_delta mo_force bo_n bo_subjects bo_videos wx_opts]. cbv zeta. fold wx_opts. cbn [boot_base].
    destruct wl_ref as (ref & -> & Q & B). cbn [bind rd_ds rd_dvs w_reader]. change (get_num_observers (ds_dis wl_ds)) with (@Ok nat 3%nat). cbn [bind].
    change (assert_ (0 <? 1)%Z) with (@Ok unit tt). cbn [bind]. change (Z.to_nat 1) with 1%nat.
    unfold bootstrap_subjects. cbn [seq mapM]. unfold subject_replicate. cbn [wl_choice boot_base]. cbv zeta.
    destruct wl_subjects as (m & -> & Qm & Bm). cbn [bind]. rewrite Bm, B. cbn [bind entry_of].
    assert (O : bootstrap_offset [NaN; Fin 0; Fin 0] [Fin 0; Fin 0; NaN] [2; 0; 1]%Z = Ok NaN).
    { efcbv. ev. efred. ev. reflexivity. }
    rewrite O. cbn [bind map ml_quality with_scores]. rewrite Qm, Q.
    eexists. split; [reflexivity|]. cbn [br_mle br_quality_ci]. auto.
  Qed.

  (** The same votes, with asset ids that are not positions. *)
  Definition wk_ds := w_ds [ w_dv 0 7 "v0" (OSeq false [w_vote 4; w_vote 2; PNum NaN]); w_dv 0 9 "v1" (OSeq false [w_vote 1; w_vote 3; PNum NaN]) ].
  Lemma wk_ref : exists m, mle_run chi MLE_CO (w_reader wk_ds) no_options wx_opts = Ok m.
  Proof.
    destruct (pass_steps (w_arr wl_ds) _ _ _ _ _ _ _ _ eq_refl wl0_b wl0_rb wl0_v wl0_rv wl0_x wl0_rx) as (st & P & Q & B & V).
    destruct (one_pass_run chi wk_ds (ds_dis wk_ds) (w_arr wl_ds) None _ _ st eq_refl eq_refl eq_refl eq_refl eq_refl wl_q0 wl_start0 P) as (m & H & H1 & H2 & H3); [fins|rewrite Q; fins|].
    exists m. auto.
  Qed.
  Lemma wk_run : forall choice, index_draws choice ->
    boot_run chi choice MLE_CO_BSTP (w_reader wk_ds) no_options wx_opts (BootOpts (Some 1%Z) (Some false) None) = Err KeyError.
  Proof.
    intros choice D. unfold boot_run. cbn [mo_gradient mo_pdf mo_delta mo_force bo_n bo_subjects bo_videos wx_opts]. cbv zeta. fold wx_opts. cbn [boot_base].
    destruct wk_ref as (ref & ->). cbn [bind rd_ds rd_dvs w_reader]. change (get_num_observers (ds_dis wk_ds)) with (@Ok nat 3%nat). cbn [bind].
    change (assert_ (0 <? 1)%Z) with (@Ok unit tt). cbn [bind]. change (Z.to_nat 1) with 1%nat. change (length (ds_dis wk_ds)) with 2%nat.
    unfold bootstrap_dis_videos. cbn [seq mapM]. unfold video_replicate. cbv zeta.
    assert (E : select_dis_video_reader wk_ds (Some (choice 0%nat 2%nat)) = Err KeyError).
    { destruct (D 0%nat 2%nat) as (L & F). destruct (choice 0%nat 2%nat) as [|z [|z' [|? ?]]]; try discriminate L.
      inversion F as [|? ? Hz F']; subst. inversion F' as [|? ? Hz' _]; subst.
      assert (Cz : z = 0%Z \/ z = 1%Z) by lia. assert (Cz' : z' = 0%Z \/ z' = 1%Z) by lia.
      destruct Cz as [-> | ->], Cz' as [-> | ->]; vm_compute; reflexivity. }
    rewrite E. reflexivity.
  Qed.
End Runs.
