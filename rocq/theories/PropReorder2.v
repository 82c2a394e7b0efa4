(** Theorems for claim C139: listing videos and subjects in another order for the
    MLE classes. *)
From Coq Require Import String.
From Coq Require Import List ZArith Bool Arith Lia Permutation.
From Verif Require Import PyBase Num ExtReal NumPy Dataset Preproc Mos Mle SpecDataset SpecMos MosProofs MosWitness MleWitness SpecReorder SpecReorder2 Reorder2Proofs.
Import ListNotations.
Local Open Scope list_scope.

(** C139 for any reader, every class, all gradients, densities and options. *)
Theorem C139_reordering : forall (chi : ef -> ef -> ef) c p q (rd rd' : reader ef) a a' k o m o', rd_arr rd = Ok a -> rd_arr rd' = Ok a' ->
  rearranged p q a a' -> same_videos p rd rd' -> mle_run_modeling chi c rd k o = Ok m -> attach_observers rd' = Ok o' ->
  exists m', mle_run_modeling chi c rd' k o = Ok m' /\ mle_reordered p q (dE a) (dS a) m m'.
Proof. exact mle_re. Qed.
Print Assumptions C139_reordering.
(** C139 for datasets whose votes are lists: videos in the order p, subjects in the order q. *)
Theorem C139_lists : forall (chi : ef -> ef -> ef) c p q n ds ds' (rd rd' : reader ef) a a' k o m, raw_reader ds = Ok rd -> raw_reader ds' = Ok rd' ->
  rd_arr rd = Ok a -> rd_arr rd' = Ok a' -> permutes n q -> same_dataset p (same_list_votes n q) ds ds' ->
  mle_run_modeling chi c rd k o = Ok m -> exists m', mle_run_modeling chi c rd' k o = Ok m' /\ mle_reordered p q (length (ds_dis ds)) n m m'.
Proof. exact mle_lists. Qed.
Print Assumptions C139_lists.
(** C139 for datasets whose votes are dicts: videos in the order p, the entries of
    the dicts in any order. *)
Theorem C139_dicts : forall (chi : ef -> ef -> ef) c p ds ds' (rd rd' : reader ef) a a' k o m, raw_reader ds = Ok rd -> raw_reader ds' = Ok rd' ->
  rd_arr rd = Ok a -> rd_arr rd' = Ok a' -> same_dataset p same_dict_votes ds ds' ->
  mle_run_modeling chi c rd k o = Ok m -> exists m', mle_run_modeling chi c rd' k o = Ok m' /\ mle_reordered p (fun s => s) (length (ds_dis ds)) (dS a) m m'.
Proof. exact mle_dicts. Qed.
Print Assumptions C139_dicts.

(** Two videos and two subjects, listed in the other order in the second dataset. *)
Definition wf_swapped := w_ds [ w_dv 0 1 "v1" (OSeq false [w_vote 3; w_vote 1]); w_dv 0 0 "v0" (OSeq false [w_vote 2; w_vote 4]) ].
Definition flip (i : nat) : nat := match i with 0 => 1 | 1 => 0 | _ => i end.
Example C139_nonvacuous : raw_reader wf_ds = Ok (w_reader wf_ds) /\ raw_reader wf_swapped = Ok (w_reader wf_swapped) /\
  rd_arr (w_reader wf_ds) = Ok (w_arr wf_ds) /\ rd_arr (w_reader wf_swapped) = Ok (w_arr wf_swapped) /\
  permutes 2 flip /\ same_dataset flip (same_list_votes 2 flip) wf_ds wf_swapped /\
  forall chi, exists m, mle_run_modeling chi MLE_CO (w_reader wf_ds) no_options (MleOpts None None None None) = Ok m.
Proof.
  split; [reflexivity|]. split; [reflexivity|]. split; [reflexivity|]. split; [reflexivity|].
  assert (PF : permutes 2 flip) by (split; [intros [|[|i]] Hi; cbn in *; lia|intros [|[|i]] [|[|j]] Hi Hj E; cbn in *; lia]).
  split; [exact PF|]. split.
  - split; [reflexivity|]. split; [reflexivity|]. split; [reflexivity|]. split; [exact PF|].
    intros [|[|e]] dv dv' E E' He; cbn in E, E', He; try lia; injection E as <-; injection E' as <-; (split; [reflexivity|]); do 4 eexists; (split; [reflexivity|]); (split; [reflexivity|]);
      (split; [reflexivity|]); (split; [reflexivity|]); intros i Hi; do 2 (destruct i as [|i]; [reflexivity|]); lia.
  - intro chi. destruct (wf_run chi None) as (m & E & _). exists m. exact E.
Qed.
(** The same votes with names; the entries are listed in another order. *)
Definition wf_named := w_ds [ w_dv 0 0 "v0" (ODict [("ann"%string, w_vote 4); ("bob"%string, w_vote 2)]); w_dv 0 1 "v1" (ODict [("ann"%string, w_vote 1); ("bob"%string, w_vote 3)]) ].
Definition wf_named' := w_ds [ w_dv 0 1 "v1" (ODict [("bob"%string, w_vote 3); ("ann"%string, w_vote 1)]); w_dv 0 0 "v0" (ODict [("ann"%string, w_vote 4); ("bob"%string, w_vote 2)]) ].
Example C139_dicts_nonvacuous : raw_reader wf_named = Ok (w_reader wf_named) /\ raw_reader wf_named' = Ok (w_reader wf_named') /\
  rd_arr (w_reader wf_named) = Ok (w_arr wf_named) /\ rd_arr (w_reader wf_named') = Ok (w_arr wf_named') /\ same_dataset flip same_dict_votes wf_named wf_named' /\
  forall chi, exists m, mle_run_modeling chi MLE_CO (w_reader wf_named) no_options (MleOpts None None None None) = Ok m.
Proof.
  split; [reflexivity|]. split; [reflexivity|]. split; [reflexivity|]. split; [reflexivity|]. split.
  - split; [reflexivity|]. split; [reflexivity|]. split; [reflexivity|].
    split; [split; [intros [|[|i]] Hi; cbn in *; lia|intros [|[|i]] [|[|j]] Hi Hj E; cbn in *; lia]|].
    intros [|[|e]] dv dv' E E' He; cbn in E, E', He; try lia; injection E as <-; injection E' as <-; (split; [reflexivity|]); split.
    + do 2 eexists. split; [reflexivity|]. split; [reflexivity|]. apply perm_swap.
    + intros d Hd. injection Hd as <-. repeat constructor; cbn; intuition discriminate.
    + do 2 eexists. split; [reflexivity|]. split; [reflexivity|]. apply Permutation_refl.
    + intros d Hd. injection Hd as <-. repeat constructor; cbn; intuition discriminate.
  - intro chi. destruct (wf_run chi None) as (m & E & _).
    destruct (mle_re chi MLE_CO (fun i => i) (fun i => i) (w_reader wf_ds) (w_reader wf_named) (w_arr wf_ds) (w_arr wf_named) no_options (MleOpts None None None None) m (Some ["ann"; "bob"]%string)) as (m' & E' & _);
      [reflexivity|reflexivity| | |exact E|reflexivity|exists m'; exact E'].
    + split; [reflexivity|]. split; [reflexivity|]. split; [reflexivity|]. split; [split; auto|]. split; [split; auto|].
      intros [|[|e]] [|[|s]] [|r] (He & Hs & Hr); cbn in He, Hs, Hr; try lia; reflexivity.
    + split; [reflexivity|]. split; [reflexivity|]. split; [reflexivity|]. split; [reflexivity|]. split; [reflexivity|]. split; [reflexivity|]. auto.
Qed.
