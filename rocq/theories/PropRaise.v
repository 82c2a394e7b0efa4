(** Theorems for claim C132: raising a vote. *)
From Coq Require Import String.
From Coq Require Import List ZArith Bool Arith Lia Reals Lra.
From Verif Require Import PyBase Num ExtReal NumPy Dataset Preproc Mos SpecDataset SpecMos MosProofs MosWitness SpecRaise RaiseProofs RaiseWitness.
Import ListNotations.
Local Open Scope list_scope.
Local Open Scope R_scope.

(** C132 for MOS: the score of the video rises by the difference divided by the
    number of its votes; no other score changes. *)
Theorem C132_mos : forall (rd rd' : reader ef) a a' m m' e0 s0 r0 x x', rd_arr rd = Ok a -> rd_arr rd' = Ok a' -> finite_votes a ->
  raised a a' e0 s0 r0 x x' -> run_modeling MOS rd no_options = Ok m -> run_modeling MOS rd' no_options = Ok m' ->
  (forall e, (e < dE a)%nat -> e <> e0 -> nth_error (mr_quality m') e = nth_error (mr_quality m) e) /\
  exists v, nth_error (mr_quality m) e0 = Some (Fin v) /\
    nth_error (mr_quality m') e0 = Some (Fin (v + (x' - x) / INR (length (video_votes a e0)))).
Proof. exact c132_mos. Qed.
Print Assumptions C132_mos.

(** C132 for BR_MOS, whoever voted for what. *)
Theorem C132_bias : forall (rd rd' : reader ef) a a' m m' e0 s0 r0 x x', rd_arr rd = Ok a -> rd_arr rd' = Ok a' -> finite_votes a ->
  raised a a' e0 s0 r0 x x' -> run_modeling BR_MOS rd no_options = Ok m -> run_modeling BR_MOS rd' no_options = Ok m' ->
  not_lower (mr_quality m) (mr_quality m') e0.
Proof. exact c132_bias. Qed.
Print Assumptions C132_bias.

(** C132 for ZS_MOS, if the subject voted once for the video and not always the
    same, before and after. *)
Theorem C132_zscore_partial : forall (rd rd' : reader ef) a a' m m' e0 s0 r0 x x', rd_arr rd = Ok a -> rd_arr rd' = Ok a' -> finite_votes a ->
  raised a a' e0 s0 r0 x x' -> only_vote a e0 s0 r0 -> has_spread (subject_votes a s0) -> has_spread (subject_votes a' s0) ->
  run_modeling ZS_MOS rd no_options = Ok m -> run_modeling ZS_MOS rd' no_options = Ok m' ->
  not_lower (mr_quality m) (mr_quality m') e0.
Proof. exact c132_zscore. Qed.
Print Assumptions C132_zscore_partial.

(** Eight subjects, two videos: the first vote of the first subject is raised. *)
Example C132_nonvacuous : rd_arr (w_reader (rk_ds 4)) = Ok (w_arr (rk_ds 4)) /\ rd_arr (w_reader (rk_ds 5)) = Ok (w_arr (rk_ds 5)) /\
  finite_votes (w_arr (rk_ds 4)) /\ raised (w_arr (rk_ds 4)) (w_arr (rk_ds 5)) 0 0 0 4 5 /\ only_vote (w_arr (rk_ds 4)) 0 0 0 /\
  has_spread (subject_votes (w_arr (rk_ds 4)) 0) /\ has_spread (subject_votes (w_arr (rk_ds 5)) 0) /\
  forall c, In c [MOS; BR_MOS; ZS_MOS] -> exists m m', run_modeling c (w_reader (rk_ds 4)) no_options = Ok m /\ run_modeling c (w_reader (rk_ds 5)) no_options = Ok m'.
Proof.
  split; [apply rk_arr|]. split; [apply rk_arr|]. split; [apply rk_finite|]. split; [apply rk_raised; lia|].
  split; [intros r I N; destruct (rk_at 4 0 0 r I) as (_ & _ & _ & -> & _); contradiction|].
  split; [exists 4, 1; cbn; split; [auto|]; split; [auto|lra]|]. split; [exists 5, 1; cbn; split; [auto|]; split; [auto|lra]|].
  intros c Hc. destruct (attach_total _ _ (rk_reader 4)) as (o & Ho). destruct (attach_total _ _ (rk_reader 5)) as (o' & Ho').
  destruct (plain_total c (w_reader (rk_ds 4)) _ o no_options (rk_arr 4) Ho (no_conflict _)) as (m & Hm);
    [destruct Hc as [<-|[<-|[<-|[]]]]; reflexivity..|].
  destruct (plain_total c (w_reader (rk_ds 5)) _ o' no_options (rk_arr 5) Ho' (no_conflict _)) as (m' & Hm');
    [destruct Hc as [<-|[<-|[<-|[]]]]; reflexivity..|].
  exists m, m'. split; assumption.
Qed.

(** C132 is false for ZS_MOS with repetitions: a subject voted 3 and 2 for one
    video and twice 1 for another, and raises the 3 to a 4. *)
Theorem C132_zscore_refuted : exists ds ds' m m' x x', raw_reader ds = Ok (w_reader ds) /\ raw_reader ds' = Ok (w_reader ds') /\
  finite_votes (w_arr ds) /\ raised (w_arr ds) (w_arr ds') 0 0 0 x x' /\ rd_arr (w_reader ds) = Ok (w_arr ds) /\ rd_arr (w_reader ds') = Ok (w_arr ds') /\
  has_spread (subject_votes (w_arr ds) 0) /\ has_spread (subject_votes (w_arr ds') 0) /\
  run_modeling ZS_MOS (w_reader ds) no_options = Ok m /\ run_modeling ZS_MOS (w_reader ds') no_options = Ok m' /\ lower (mr_quality m) (mr_quality m') 0.
Proof.
  destruct c132_zs_lower as (m & m' & H & H' & L). exists (rz_ds 3), (rz_ds 4), m, m', 3, 4.
  split; [apply rz_reader|]. split; [apply rz_reader|]. split; [apply rz_finite|]. split; [apply rz_raised; lia|]. split; [apply rz_arr|]. split; [apply rz_arr|].
  split; [exists 3, 2; cbn; split; [auto|]; split; [auto|lra]|]. split; [exists 4, 2; cbn; split; [auto|]; split; [auto|lra]|]. auto.
Qed.
Print Assumptions C132_zscore_refuted.

(** C132 is false for SR_MOS: the raised vote makes its subject an outlier to
    both sides. *)
Theorem C132_rejection_refuted : exists ds ds' m m' x x', raw_reader ds = Ok (w_reader ds) /\ raw_reader ds' = Ok (w_reader ds') /\
  finite_votes (w_arr ds) /\ raised (w_arr ds) (w_arr ds') 0 0 0 x x' /\ rd_arr (w_reader ds) = Ok (w_arr ds) /\ rd_arr (w_reader ds') = Ok (w_arr ds') /\
  run_modeling SR_MOS (w_reader ds) no_options = Ok m /\ run_modeling SR_MOS (w_reader ds') no_options = Ok m' /\ lower (mr_quality m) (mr_quality m') 0.
Proof.
  destruct c132_sr_lower as (m & m' & H & H' & L). exists (rk_ds 4), (rk_ds 5), m, m', 4, 5.
  split; [apply rk_reader|]. split; [apply rk_reader|]. split; [apply rk_finite|]. split; [apply rk_raised; lia|]. split; [apply rk_arr|]. split; [apply rk_arr|]. auto.
Qed.
Print Assumptions C132_rejection_refuted.
