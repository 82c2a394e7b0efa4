(** The runs on the datasets of ExpWitness. *)
From Coq Require Import String.
From Coq Require Import List ZArith Bool Arith Reals Lra Lia.
From Verif Require Import PyBase Num ExtReal NumPy Dataset Mocked Preproc Mos AP Mle Experimental SpecMos SpecAp SpecMle SpecExperimental BaseProofs ExtRealProofs
  ArrayProofs StepsProofs MosWitness Eval MleWitness ExpProofs ExpWitness.
Import ListNotations.
Local Open Scope R_scope.

Ltac fins := repeat (constructor; try exact I).
Section Runs.
  Variable chi : ef -> ef -> ef.

  Lemma wx_ref : exists m, mle_run chi MLE_CO (w_reader wx_ds) no_options wx_opts = Ok m /\
    ml_quality m = [Fin (21083254168467123 / 7200098288214070); Fin (101495659084580669 / 50400688017498490)] /\
    ml_bias m = Some [Fin (1 / 20); Fin (-1 / 20); Fin 0] /\ ml_incons m = Some [Fin (6837 / 4540); Fin (4511 / 8860); Fin 1].
  Proof.
    destruct wx0_pass as (st & P & Q & B & V).
    destruct (one_pass_run chi wx_ds (ds_dis wx_ds) (w_arr wx_ds) None _ _ st eq_refl eq_refl eq_refl eq_refl eq_refl wx_q0 wx_start0 P) as (m & H & H1 & H2 & H3); [fins|rewrite Q; fins|].
    exists m. rewrite <- Q, <- B, <- V. auto.
  Qed.
  Lemma wx_subjects : exists m, mle_run chi MLE_CO (subject_reader wx_ds [0; 0; 1]%Z) no_options wx_opts = Ok m /\
    ml_quality m = [Fin (1829 / 450); Fin (589 / 450)] /\
    ml_bias m = Some [Fin (1 / 30); Fin (1 / 30); Fin (-1 / 15)].
  Proof.
    destruct wxs_pass as (st & P & Q & B & V).
    destruct (one_pass_run chi wx_ds (ds_dis wx_ds) wx_s None _ _ st eq_refl eq_refl eq_refl eq_refl eq_refl wx_qs wx_starts P) as (m & H & H1 & H2 & H3); [fins|rewrite Q; fins|].
    exists m. rewrite <- Q, <- B. auto.
  Qed.
  Lemma wx_videos : select_dis_video_reader wx_ds (Some [1; 0]%Z) = Ok (wx_vids, Ok wx_v) /\
    exists m, mle_run chi MLE_CO (Reader wx_ds wx_vids (Ok wx_v)) no_options wx_opts = Ok m /\
    ml_quality m = [Fin (101495659084580669 / 50400688017498490); Fin (21083254168467123 / 7200098288214070)] /\
    ml_bias m = Some [Fin (1 / 20); Fin (-1 / 20); Fin 0] /\ ml_incons m = Some [Fin (6837 / 4540); Fin (4511 / 8860); Fin 1].
  Proof.
    split; [reflexivity|]. destruct wxv_pass as (st & P & Q & B & V).
    destruct (one_pass_run chi wx_ds wx_vids wx_v None _ _ st eq_refl eq_refl eq_refl eq_refl eq_refl wx_qv wx_startv P) as (m & H & H1 & H2 & H3); [fins|rewrite Q; fins|].
    exists m. rewrite <- Q, <- B, <- V. auto.
  Qed.

  Lemma wx_boot_subjects : forall ref, ml_quality ref = [Fin (21083254168467123 / 7200098288214070); Fin (101495659084580669 / 50400688017498490)] ->
    ml_bias ref = Some [Fin (1 / 20); Fin (-1 / 20); Fin 0] ->
    exists hi l0 l1, bootstrap_subjects chi wx_choice MLE_CO_BSTP wx_ds ref 3 1 no_options wx_opts = Ok ([Fin l0; Fin l1], hi) /\ l0 < 0.
  Proof.
    intros ref Q B. unfold bootstrap_subjects. cbn [seq mapM]. unfold subject_replicate. cbn [wx_choice boot_base]. cbv zeta.
    destruct wx_subjects as (m & -> & Qm & Bm). cbn [bind]. rewrite Bm, B. cbn [bind entry_of].
    assert (O : bootstrap_offset [Fin (1 / 30); Fin (1 / 30); Fin (-1 / 15)] [Fin (1 / 20); Fin (-1 / 20); Fin 0] [0; 0; 1]%Z = Ok (Fin (-1 / 60))).
    { efcbv. ev. efred. ev. reflexivity. }
    rewrite O. cbn [bind map ml_quality with_scores]. rewrite Qm.
    assert (V : vshift (Fin (-1 / 60)) [Fin (1829 / 450); Fin (589 / 450)] = map Fin [3643 / 900; 1163 / 900]).
    { efcbv. ev. reflexivity. }
    assert (K : forall k, (k = 1%nat \/ k = 39%nat) -> percentile_rows k [map Fin [3643 / 900; 1163 / 900]] = Ok (map Fin [3643 / 900; 1163 / 900])).
    { intros k Hk. assert (K1 : forall x, np_percentile k [Fin x] = Fin x).
      { intro x. change [Fin x] with (map Fin [x]). rewrite percentile_value by (discriminate || (destruct Hk; lia)).
        unfold at_fortieths. cbn [isort fold_right ins length Nat.sub]. rewrite Nat.mul_0_r. change (0 / 40)%nat with 0%nat. change (0 mod 40)%nat with 0%nat.
        cbn [nth Nat.min INR plus]. f_equal. field. }
      cbn [map percentile_rows forallb length Nat.eqb andb seq vat nth]. rewrite !K1. reflexivity. }
    rewrite V. unfold bootstrap_margins. rewrite Q, !K by auto. cbn [bind map]. unfold vsub. cbn [length Nat.eqb bind]. unfold vmap2. cbn [combine map fst snd].
    do 3 eexists. split; [reflexivity|]. lra.
  Qed.

  Lemma wx_boot_videos : forall ref, ml_quality ref = [Fin (21083254168467123 / 7200098288214070); Fin (101495659084580669 / 50400688017498490)] ->
    ml_bias ref = Some [Fin (1 / 20); Fin (-1 / 20); Fin 0] -> ml_incons ref = Some [Fin (6837 / 4540); Fin (4511 / 8860); Fin 1] ->
    exists ci, bootstrap_dis_videos chi wx_choice MLE_CO_BSTP wx_ds ref 2 1 no_options wx_opts = Ok ci.
  Proof.
    intros ref Q B V. unfold bootstrap_dis_videos. cbn [seq mapM]. unfold video_replicate. cbn [wx_choice boot_base]. cbv zeta.
    destruct wx_videos as (-> & m & Hm & Qm & Bm & Vm). cbn [bind fst snd]. rewrite Hm. cbn [bind].
    rewrite Qm, Q, Bm. unfold bootstrap_offset at 1. cbn [take_entries mapM bind length]. change (py_norm_index 2 1) with (Some 1%nat). change (py_norm_index 2 0) with (Some 0%nat).
    cbn [bind]. unfold vsub at 1. cbn [length Nat.eqb bind vat nth entry_of mapM ml_bias with_scores ml_incons]. rewrite B, Vm, V. cbn [bind entry_of].
    unfold bootstrap_margins, percentile_rows. cbn [vshift map length forallb Nat.eqb andb bind seq vsub]. eexists. reflexivity.
  Qed.

  (** The whole run with one replicate of each kind. *)
  Lemma wx_run : exists res lo hi, boot_run chi wx_choice MLE_CO_BSTP (w_reader wx_ds) no_options (MleOpts None None (Some PInf) None) (BootOpts (Some 1%Z) None None) = Ok res /\
    br_quality_ci res = Some (lo, hi) /\ exists l0 l1, lo = [Fin l0; Fin l1] /\ l0 < 0.
  Proof.
    unfold boot_run. cbn [mo_gradient mo_pdf mo_delta mo_force bo_n bo_subjects bo_videos]. cbv zeta. fold wx_opts. cbn [boot_base].
    destruct wx_ref as (ref & -> & Q & B & V). cbn [bind rd_ds rd_dvs w_reader]. change (get_num_observers (ds_dis wx_ds)) with (@Ok nat 3%nat). cbn [bind].
    change (assert_ (0 <? 1)%Z) with (@Ok unit tt). cbn [bind]. change (Z.to_nat 1) with 1%nat. change (length (ds_dis wx_ds)) with 2%nat.
    destruct (wx_boot_subjects ref Q B) as (hi & l0 & l1 & -> & L). cbn [bind]. destruct (wx_boot_videos ref Q B V) as (ci & ->). cbn [bind].
    rewrite B. cbn [bind entry_of]. do 3 eexists. split; [reflexivity|]. cbn [br_quality_ci]. split; [reflexivity|]. exists l0, l1. auto.
  Qed.
End Runs.
