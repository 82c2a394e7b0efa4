(** Theorems for claim C140: listing videos and subjects in another order for the
    projection classes and the remaining rating models. *)
From Coq Require Import String.
From Coq Require Import List ZArith Bool Arith Lia.
From Verif Require Import PyBase Num ExtReal NumPy Dataset Preproc Mos AP OtherModels SpecDataset SpecMos SpecAp SpecOther MosProofs MosWitness ApWitness MleWitness OtherWitness LsProofs
  SpecReorder SpecReorder3 Reorder3Proofs PropReorder2.
Import ListNotations.
Local Open Scope nat_scope.
Local Open Scope list_scope.

(** C140 for the four projection classes, P910 among them, with any options; with
    subject rejection the kept subjects come in some order q2. *)
Theorem C140_projection : forall (chi : ef -> ef -> ef) c p q (rd rd' : reader ef) a a' k f m o', rd_arr rd = Ok a -> rd_arr rd' = Ok a' ->
  rearranged p q a a' -> same_videos p rd rd' -> ap_run_modeling chi c rd k f = Ok m -> attach_observers rd' = Ok o' ->
  exists m' q2, ap_run_modeling chi c rd' k f = Ok m' /\ (kw_rej k = false -> q2 = q /\ dS (ap_raw m) = dS a) /\
    ap_reordered p q2 (dE a) (dS (ap_raw m)) m m'.
Proof. exact ap_re. Qed.
Print Assumptions C140_projection.
(** C140 for LIVE DMOS (which reports no biases). *)
Theorem C140_live : forall p q (rd rd' : reader ef) a a' k m o' n, rd_arr rd = Ok a -> rd_arr rd' = Ok a' -> rearranged p q a a' -> same_videos p rd rd' ->
  live_run_modeling rd k = Ok m -> attach_observers rd' = Ok o' -> exists m', live_run_modeling rd' k = Ok m' /\ other_reordered p q (dE a) n m m'.
Proof. exact live_re. Qed.
Print Assumptions C140_live.
(** C140 for the early maximum likelihood model. *)
Theorem C140_legacy : forall p q (rd rd' : reader ef) a a' k o m o', rd_arr rd = Ok a -> rd_arr rd' = Ok a' -> rearranged p q a a' -> same_videos p rd rd' ->
  leg_run_modeling rd k o = Ok m -> attach_observers rd' = Ok o' -> exists m', leg_run_modeling rd' k o = Ok m' /\ other_reordered p q (dE a) (dS a) m m'.
Proof. exact leg_re. Qed.
Print Assumptions C140_legacy.
(** C140 for least squares on complete votes; [pinv] stands for scipy.linalg.pinv. *)
Theorem C140_least_squares : forall pinv p q (rd rd' : reader ef) a a' k m0 o', rd_arr rd = Ok a -> rd_arr rd' = Ok a' -> rearranged p q a a' -> same_videos p rd rd' ->
  kw_rej k = false -> run_modeling MOS rd k = Ok m0 -> attach_observers rd' = Ok o' ->
  complete_votes (mr_raw m0) -> dR (mr_raw m0) = 1 -> 0 < dE a -> 0 < dS a -> inverts pinv (dE a) (dS a) ->
  exists m m', ls_run_modeling pinv rd k = Ok m /\ ls_run_modeling pinv rd' k = Ok m' /\ other_reordered p q (dE a) (dS a) m m'.
Proof. exact ls_re. Qed.
Print Assumptions C140_least_squares.
(** C140 for the scores per subject. *)
Theorem C140_per_subject : forall p q (rd rd' : reader ef) a a' k m o', rd_arr rd = Ok a -> rd_arr rd' = Ok a' -> rearranged p q a a' -> same_videos p rd rd' ->
  per_run_modeling rd k = Ok m -> attach_observers rd' = Ok o' ->
  exists m' q2, per_run_modeling rd' k = Ok m' /\ (kw_rej k = false -> q2 = q /\ dS (fst m) = dS a) /\ rearranged p q2 (fst m) (fst m').
Proof. exact per_re. Qed.
Print Assumptions C140_per_subject.
(** The hypotheses hold for datasets whose votes are lists in the order q, with the
    videos in the order p. *)
Theorem C140_lists : forall p q n ds ds' (rd rd' : reader ef) a a', raw_reader ds = Ok rd -> raw_reader ds' = Ok rd' ->
  rd_arr rd = Ok a -> rd_arr rd' = Ok a' -> permutes n q -> same_dataset p (same_list_votes n q) ds ds' ->
  rearranged p q a a' /\ same_videos p rd rd' /\ (exists o', attach_observers rd' = Ok o') /\ dE a = length (ds_dis ds) /\ dS a = n.
Proof. exact lists_premises. Qed.
Print Assumptions C140_lists.
(** They hold for datasets whose votes are dicts, entered in any order. *)
Theorem C140_dicts : forall p ds ds' (rd rd' : reader ef) a a', raw_reader ds = Ok rd -> raw_reader ds' = Ok rd' ->
  rd_arr rd = Ok a -> rd_arr rd' = Ok a' -> same_dataset p same_dict_votes ds ds' ->
  rearranged p (fun s => s) a a' /\ same_videos p rd rd' /\ (exists o', attach_observers rd' = Ok o') /\ dE a = length (ds_dis ds).
Proof. exact dicts_premises. Qed.
Print Assumptions C140_dicts.

(** Two videos and three subjects with a missing vote, the first two of each listed
    in the other order in the second dataset. *)
Definition wp_swapped := w_ds [ w_dv 0 1 "v1" (OSeq false [w_missing; w_vote 3; w_vote 5]); w_dv 0 0 "v0" (OSeq false [w_vote 2; w_vote 1; w_vote 4]) ].
Lemma flip_permutes : forall n, 2 <= n -> permutes n flip.
Proof. intros n Hn. split; [intros [|[|i]] Hi; cbn; lia|]. intros [|[|i]] [|[|j]] Hi Hj E; cbn in E; lia. Qed.
Example C140_nonvacuous : raw_reader wp_ds = Ok (w_reader wp_ds) /\ raw_reader wp_swapped = Ok (w_reader wp_swapped) /\
  rd_arr (w_reader wp_ds) = Ok (w_arr wp_ds) /\ rd_arr (w_reader wp_swapped) = Ok (w_arr wp_swapped) /\
  permutes 3 flip /\ same_dataset flip (same_list_votes 3 flip) wp_ds wp_swapped /\
  (forall chi c, exists m, ap_run_modeling chi c (w_reader wp_ds) no_options None = Ok m) /\ exists m, per_run_modeling (w_reader wp_ds) no_options = Ok m.
Proof.
  split; [reflexivity|]. split; [reflexivity|]. split; [reflexivity|]. split; [reflexivity|]. split; [apply flip_permutes; lia|]. split.
  - split; [reflexivity|]. split; [reflexivity|]. split; [reflexivity|]. split; [apply flip_permutes; cbn; lia|].
    intros [|[|e]] dv dv' E E' He; cbn in E, E', He; try lia; injection E as <-; injection E' as <-; (split; [reflexivity|]); do 4 eexists; (split; [reflexivity|]); (split; [reflexivity|]);
      (split; [reflexivity|]); (split; [reflexivity|]); intros i Hi; do 3 (destruct i as [|i]; [reflexivity|]); lia.
  - split; [intros chi c; apply w_run; [cbn; tauto|exact wp_finite|exact wp_rated]|]. eexists. reflexivity.
Qed.
(** Two complete videos; the early model and least squares. *)
Example C140_complete_nonvacuous : same_dataset flip (same_list_votes 2 flip) wf_ds wf_swapped /\
  (exists m, leg_run_modeling (w_reader wf_ds) no_options (LegOpts None None) = Ok m) /\
  exists m0 pinv, run_modeling MOS (w_reader wf_ds) no_options = Ok m0 /\ complete_votes (mr_raw m0) /\ dR (mr_raw m0) = 1 /\ dE (w_arr wf_ds) = 2 /\ dS (w_arr wf_ds) = 2 /\ inverts pinv 2 2.
Proof.
  split; [exact (proj1 (proj2 (proj2 (proj2 (proj2 (proj2 C139_nonvacuous))))))|]. split; [destruct wf_leg as (m & H & _); exists m; exact H|].
  destruct (mos_total _ _ _ (proj1 wf_reads) (proj1 (proj2 wf_reads))) as (m & H). exists m, (ls_pinv 2 2). split; [exact H|].
  destruct (mos_run_parts _ _ _ H) as (pp & Hp & -> & _). injection Hp as <-. cbn [pp_arr].
  split; [intros [|[|e]] [|[|s]] [|r] (He & Hs & Hr); cbn in He, Hs, Hr; try lia; exact I|]. split; [reflexivity|]. split; [reflexivity|]. split; [reflexivity|]. apply ls_pinv_inverts; lia.
Qed.
(** The first two of eleven videos in the other order, for LIVE DMOS. *)
Definition wl_swapped := w_ds [ wl_dv 1 5 "v1"; wl_dv 0 5 "ref0"; wl_dv 2 5 "v2"; wl_dv 3 5 "v3"; wl_dv 4 5 "v4"; wl_dv 5 5 "v5"; wl_dv 6 5 "v6"; wl_dv 7 5 "v7";
  wl_dv 8 5 "v8"; wl_dv 9 5 "v9"; wl_dv 10 1 "v10" ].
Example C140_live_nonvacuous : raw_reader wl_swapped = Ok (w_reader wl_swapped) /\ rd_arr (w_reader wl_swapped) = Ok (w_arr wl_swapped) /\
  same_dataset flip (same_list_votes 1 (fun s => s)) wl_ds wl_swapped /\ exists m, live_run_modeling (w_reader wl_ds) no_options = Ok m.
Proof.
  split; [reflexivity|]. split; [reflexivity|]. split.
  - split; [reflexivity|]. split; [reflexivity|]. split; [reflexivity|]. split; [apply flip_permutes; cbn; lia|].
    intros e dv dv' E E' He. change (e < 11) in He. do 11 (destruct e as [|e]; [cbn in E, E'; injection E as <-; injection E' as <-; (split; [reflexivity|]); do 4 eexists; (split; [reflexivity|]); (split; [reflexivity|]);
      (split; [reflexivity|]); (split; [reflexivity|]); intros [|i] Hi; [reflexivity|lia]|]). lia.
  - destruct wl_below as (m & q & H & _). exists m. exact H.
Qed.
