(** Proofs for bootstrapping: whole runs. *)
From Coq Require Import String.
From Coq Require Import List ZArith Bool Arith Reals Lra Lia.
From Verif Require Import PyBase Num ExtReal NumPy Dataset Mocked SpecMocked Preproc Mos AP Mle Experimental SpecExperimental BaseProofs ExtRealProofs
  ArrayProofs MockedProofs Ap2Proofs StepsProofs ExpProofs.
Import ListNotations.
Local Open Scope R_scope.

Lemma mapM_seq : forall A (f : nat -> res A) n l, mapM f (seq 0 n) = Ok l -> length l = n /\ forall i r, nth_error l i = Some r -> f i = Ok r.
Proof.
  intros A f n l H. split; [apply mapM_length in H; rewrite seq_length in H; exact H|]. intros i r E.
  destruct (mapM_nth_inv _ _ _ _ _ _ _ H E) as (j & K & F). assert (Hi : (i < n)%nat) by (rewrite <- (seq_length n 0); apply nth_error_Some; congruence).
  rewrite (nth_error_nth' _ 0%nat) in K by (rewrite seq_length; exact Hi). rewrite seq_nth in K by exact Hi. injection K as <-. exact F.
Qed.

Lemma take_columns_Ok : forall (a : arr3 ef) sel a', Forall (fun z => (0 <= z)%Z) sel -> take_columns a sel = Ok a' -> columns_of a sel a'.
Proof.
  intros a sel a' F H. unfold take_columns in H. destruct (mapM _ sel) as [idx|] eqn:E; [|discriminate]. cbn [bind] in H. apply Ok_inj in H. subst a'.
  assert (L := mapM_length _ _ _ _ _ E). unfold columns_of. cbn [dE dS dR at3]. split; [reflexivity|]. split; [exact L|]. split; [reflexivity|].
  intros e k z r Hk He Hr. destruct (mapM_nth _ _ _ _ _ _ _ E Hk) as (i & Ei & Fi). destruct (py_norm_index (dS a) z) as [i'|] eqn:En; [|discriminate].
  apply Ok_inj in Fi. subst i'. rewrite Forall_forall in F. destruct (Pc6Proofs.norm_index_nonneg _ _ _ (F z (nth_error_In _ _ Hk)) En) as [-> _].
  rewrite Nat2Z.id. rewrite (nth_error_nth _ _ _ Ei). reflexivity.
Qed.

Section Runs.
  Variable chi : ef -> ef -> ef.
  Variable choice : nat -> nat -> list Z.
  Hypothesis draws : index_draws choice.

  Lemma select_same : forall ds n i, get_num_observers (ds_dis ds) = Ok n -> forall a', select_subject_3darray ds (Some (choice i n)) = Ok a' ->
    exists a, raw_reader_3darray ds = Ok a /\ columns_of a (choice i n) a'.
  Proof.
    intros ds n i Hn a' H. unfold select_subject_3darray in H. unfold raw_reader_3darray.
    destruct (assert_dataset_raw (ds_refs ds) (ds_dis ds)); [|discriminate]. cbn [bind] in *. rewrite Hn in *. cbn [bind] in H.
    destruct (forM_ _ _); [|discriminate]. cbn [bind] in H. rewrite (proj1 (draws i n)) in H.
    destruct (opinion_score_3darray_with (ds_dis ds) (Ok n)) as [a1|] eqn:Ea1; [|discriminate]. cbn [bind] in H. exists a1. split; [reflexivity|].
    apply take_columns_Ok; [apply draws_nonneg; exact draws|exact H].
  Qed.

  Lemma mle_run_array : forall c ds dvs arr k o m, mle_run chi c (Reader ds dvs arr) k o = Ok m -> exists a, arr = Ok a.
  Proof.
    intros c ds dvs arr k o m H. unfold mle_run in H. destruct (assert_ _); [|discriminate]. cbn [bind] in H.
    destruct (match mo_gradient o with Some OtherGradient => Err AssertionError | _ => Ok tt end); [|discriminate]. cbn [bind] in H.
    unfold preprocess at 1 in H. cbn [rd_arr] in H. destruct arr as [a1|]; [|discriminate]. exists a1. reflexivity.
  Qed.

  Lemma subject_resampled : forall c ds ref n k o i r, get_num_observers (ds_dis ds) = Ok n ->
    subject_replicate chi choice c ds ref n k o i = Ok r -> subject_resample chi c ds k o ref (choice i n) r.
  Proof.
    intros c ds ref n k o i r Hn H. destruct (subject_replicate_spec chi choice draws _ _ _ _ _ _ _ _ H) as (m & b & rb & A & B & C & D & E & F & G & _).
    unfold subject_reader in A. destruct (mle_run_array _ _ _ _ _ _ _ A) as (a' & Ea). destruct (select_same _ _ i Hn a' Ea) as (a & R & Co).
    rewrite Ea in A. exists a, a', m, b, rb. rewrite (proj1 (draws i n)). auto 12.
  Qed.
  Lemma video_resampled : forall c ds ref n k o i r,
    video_replicate chi choice c ds ref n k o i = Ok r -> video_resample chi c ds k o ref (choice i n) r.
  Proof.
    intros c ds ref n k o i r H. destruct (video_replicate_spec chi choice draws _ _ _ _ _ _ _ _ H) as (dvs & arr & m & b & A & B & C & D & E & F & G & _).
    destruct (c18_by_id _ _ _ _ A) as (S1 & -> & _). exists dvs, m, b. rewrite (proj1 (draws i n)). auto 12.
  Qed.

  (** The parts of a run. *)
  Lemma run_parts : forall c rd k o bo res, boot_run chi choice c rd k o bo = Ok res ->
    exists ref n, mle_run chi (boot_base c) rd k (unforced o) = Ok ref /\ get_num_observers (rd_dvs rd) = Ok n /\ (0 < replicates bo)%nat /\
      (if on (bo_subjects bo)
       then exists ci, bootstrap_subjects chi choice c (rd_ds rd) ref n (replicates bo) k (unforced o) = Ok ci /\ br_quality_ci res = Some ci
       else br_quality_ci res = None) /\
      (if on (bo_videos bo)
       then exists ci, bootstrap_dis_videos chi choice c (rd_ds rd) ref (length (rd_dvs rd)) (replicates bo) k (unforced o) = Ok ci /\
              br_bias_ci res = Some (fst ci) /\ br_incons_ci res = Some (snd ci)
       else br_bias_ci res = None /\ br_incons_ci res = None) /\
      (if on (mo_force o)
       then exists b, ml_bias ref = Some b /\ br_mle res = with_scores ref (vshift (np_mean b) (ml_quality ref)) (vshift_down (np_mean b) b)
       else br_mle res = ref).
  Proof.
    intros c rd k o bo res H. unfold boot_run in H. cbv zeta in H. fold (unforced o) in H. fold (on (bo_subjects bo)) in H. fold (on (bo_videos bo)) in H. fold (on (mo_force o)) in H.
    destruct (mle_run _ _ _ _ _) as [ref|] eqn:E1; [|discriminate]. cbn [bind] in H.
    destruct (get_num_observers (rd_dvs rd)) as [n|] eqn:E2; [|discriminate]. cbn [bind] in H.
    destruct (assert_ _) as [u|] eqn:E3; [|discriminate]. cbn [bind] in H. apply assert_Ok in E3. apply Z.ltb_lt in E3.
    fold (replicates bo) in H. exists ref, n. split; [reflexivity|]. split; [reflexivity|]. split; [unfold replicates; lia|].
    destruct (if on (bo_subjects bo) then _ else _) as [qci|] eqn:E4 in H; [|discriminate]. cbn [bind] in H.
    destruct (if on (bo_videos bo) then _ else _) as [oci|] eqn:E5 in H; [|discriminate]. cbn [bind] in H.
    destruct (if on (mo_force o) then _ else _) as [fin|] eqn:E6 in H; [|discriminate]. cbn [bind] in H. apply Ok_inj in H. subst res.
    cbn [br_quality_ci br_bias_ci br_incons_ci br_mle]. split; [|split].
    - destruct (on (bo_subjects bo)); [|apply Ok_inj in E4; subst; reflexivity].
      destruct (bootstrap_subjects _ _ _ _ _ _ _ _ _) as [ci|]; [|discriminate]. cbn [bind] in E4. apply Ok_inj in E4. subst qci. exists ci. auto.
    - destruct (on (bo_videos bo)); [|apply Ok_inj in E5; subst; split; reflexivity].
      destruct (bootstrap_dis_videos _ _ _ _ _ _ _ _ _) as [ci|]; [|discriminate]. cbn [bind] in E5. apply Ok_inj in E5. subst oci. exists ci. auto.
    - destruct (on (mo_force o)); [|apply Ok_inj in E6; subst; reflexivity].
      destruct (ml_bias ref) as [b|] eqn:Eb; [|discriminate]. cbn [bind entry_of] in E6. apply Ok_inj in E6. subst fin. exists b. auto.
  Qed.

  Lemma c65_subjects : forall c ds rd k o bo res, raw_reader ds = Ok rd -> boot_run chi choice c rd k o bo = Ok res -> on (bo_subjects bo) = true ->
    exists ref n reps ci, mle_run chi (boot_base c) rd k (unforced o) = Ok ref /\ get_num_observers (ds_dis ds) = Ok n /\
      length reps = replicates bo /\ (0 < replicates bo)%nat /\
      (forall i r, nth_error reps i = Some r -> subject_resample chi c ds k (unforced o) ref (choice i n) r) /\
      br_quality_ci res = Some ci /\ spans (ml_quality ref) (map ml_quality reps) ci.
  Proof.
    intros c ds rd k o bo res Hr H On. unfold raw_reader in Hr. destruct (assert_dataset_raw _ _); [|discriminate]. cbn [bind] in Hr. apply Ok_inj in Hr. subst rd.
    destruct (run_parts _ _ _ _ _ _ H) as (ref & n & A & B & C & D & _). rewrite On in D. destruct D as (ci & D & Q). cbn [rd_dvs rd_ds] in *.
    unfold bootstrap_subjects in D. destruct (mapM _ _) as [reps|] eqn:E; [|discriminate]. cbn [bind] in D.
    destruct (mapM_seq _ _ _ _ E) as (L & F). exists ref, n, reps, ci. split; [exact A|]. split; [exact B|]. split; [exact L|]. split; [exact C|]. split.
    - intros i r Hi. apply subject_resampled; [exact B|apply F; exact Hi].
    - split; [exact Q|]. apply margins_span. exact D.
  Qed.

  Lemma c65_videos : forall c ds rd k o bo res, raw_reader ds = Ok rd -> boot_run chi choice c rd k o bo = Ok res -> on (bo_videos bo) = true ->
    exists ref reps rb rv bs vs ci_b ci_v, mle_run chi (boot_base c) rd k (unforced o) = Ok ref /\
      length reps = replicates bo /\ (0 < replicates bo)%nat /\
      (forall i r, nth_error reps i = Some r -> video_resample chi c ds k (unforced o) ref (choice i (length (ds_dis ds))) r) /\
      ml_bias ref = Some rb /\ map ml_bias reps = map Some bs /\ br_bias_ci res = Some ci_b /\ spans rb bs ci_b /\
      ml_incons ref = Some rv /\ map ml_incons reps = map Some vs /\ br_incons_ci res = Some ci_v /\ spans rv vs ci_v.
  Proof.
    intros c ds rd k o bo res Hr H On. unfold raw_reader in Hr. destruct (assert_dataset_raw _ _); [|discriminate]. cbn [bind] in Hr. apply Ok_inj in Hr. subst rd.
    destruct (run_parts _ _ _ _ _ _ H) as (ref & n & A & B & C & _ & D & _). rewrite On in D. destruct D as (ci & D & Q1 & Q2). cbn [rd_dvs rd_ds] in *.
    unfold bootstrap_dis_videos in D. destruct (mapM _ (seq _ _)) as [reps|] eqn:E; [|discriminate]. cbn [bind] in D.
    destruct (mapM _ reps) as [bs|] eqn:E1 in D; [|discriminate]. cbn [bind] in D.
    destruct (ml_bias ref) as [rb|] eqn:Eb; [|discriminate]. cbn [bind entry_of] in D.
    destruct (bootstrap_margins rb bs) as [ci_b|] eqn:E2; [|discriminate]. cbn [bind] in D.
    destruct (mapM _ reps) as [vs|] eqn:E3 in D; [|discriminate]. cbn [bind] in D.
    destruct (ml_incons ref) as [rv|] eqn:Ev; [|discriminate]. cbn [bind entry_of] in D.
    destruct (bootstrap_margins rv vs) as [ci_v|] eqn:E4; [|discriminate]. cbn [bind] in D. apply Ok_inj in D. subst ci. cbn [fst snd] in *.
    destruct (mapM_seq _ _ _ _ E) as (L & F). exists ref, reps, rb, rv, bs, vs, ci_b, ci_v. split; [exact A|]. split; [exact L|]. split; [exact C|]. split.
    - intros i r Hi. apply video_resampled. apply F. exact Hi.
    - assert (M : forall (f : mleres ef -> option (list ef)) l ys, mapM (fun r => entry_of (f r)) l = Ok ys -> map f l = map Some ys).
      { intros f l ys HM. apply mapM_Ok in HM. induction HM as [|x y l ys Hx HM IH]; [reflexivity|]. cbn. rewrite IH. destruct (f x); [|discriminate]. apply Ok_inj in Hx. subst. reflexivity. }
      split; [first [reflexivity|assumption]|]. split; [apply M; exact E1|]. split; [exact Q1|]. split; [apply margins_span; exact E2|].
      split; [first [reflexivity|assumption]|]. split; [apply M; exact E3|]. split; [exact Q2|]. apply margins_span; exact E4.
  Qed.

  (** What is reported in the end. *)
  Lemma c77_final : forall c rd k o bo res, boot_run chi choice c rd k o bo = Ok res ->
    exists ref, mle_run chi (boot_base c) rd k (unforced o) = Ok ref /\ same_but_scores ref (br_mle res) /\
      (on (mo_force o) = false -> br_mle res = ref) /\
      (on (mo_force o) = true -> forall b, ml_bias ref = Some (map Fin b) ->
         same_predictions ref (br_mle res) /\ exists b', ml_bias (br_mle res) = Some (map Fin b') /\ length b' = length b /\ Rsum b' = 0) /\
      (on (bo_subjects bo) = false -> br_quality_ci res = None) /\
      (on (bo_videos bo) = false -> br_bias_ci res = None /\ br_incons_ci res = None).
  Proof.
    intros c rd k o bo res H. destruct (run_parts _ _ _ _ _ _ H) as (ref & n & A & B & C & D & E & F). exists ref. split; [exact A|].
    destruct (on (mo_force o)).
    - destruct F as (b & Eb & ->). split; [apply same_but_with|]. split; [discriminate|]. split.
      + intros _ br Hb. rewrite Eb in Hb. injection Hb as ->.
        split; [apply predictions_shift; [exact Eb|]; intro Hne; rewrite np_mean_Fin, nanmeanR_ne by (destruct br; [contradiction|discriminate]); eexists; reflexivity|].
        cbn [ml_bias with_scores]. destruct br as [|b0 br]; [exists []; repeat split|].
        rewrite np_mean_Fin, nanmeanR_ne by discriminate. exists (map (fun x => x - Rmean (b0 :: br)) (b0 :: br)).
        split; [|split; [apply map_length|apply Rsum_dev; discriminate]]. f_equal. unfold vshift_down. rewrite !map_map. apply map_ext. intro. cbn. f_equal.
      + split; intro K; rewrite K in *; assumption.
    - subst ref. split; [unfold same_but_scores; repeat split|]. split; [auto|]. split; [discriminate|]. split; intro K; rewrite K in *; assumption.
  Qed.

  (** A replicate with a bias that is NaN, of the reference or its own, is lost. *)
  Lemma c65_lost : forall c ds ref n k o i r, subject_replicate chi choice c ds ref n k o i = Ok r ->
    forall m b rb, mle_run chi (boot_base c) (subject_reader ds (choice i n)) k o = Ok m -> ml_bias m = Some b -> ml_bias ref = Some rb ->
    (In NaN b \/ exists z, In z (choice i n) /\ nth (Z.to_nat z) rb NaN = NaN) -> Forall (eq NaN) (ml_quality r).
  Proof.
    intros c ds ref n k o i r H m b rb A B C Hn. destruct (subject_replicate_spec chi choice draws _ _ _ _ _ _ _ _ H) as (m' & b' & rb' & A' & B' & C' & _ & _ & _ & _ & G).
    rewrite A in A'. apply Ok_inj in A'. subst m'. rewrite B in B'. injection B' as <-. rewrite C in C'. injection C' as <-. apply G. exact Hn.
  Qed.
End Runs.
