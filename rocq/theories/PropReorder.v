(** Theorems for claim C133: listing videos and subjects in another order. *)
From Coq Require Import String.
From Coq Require Import List ZArith Bool Arith Lia Permutation.
From Verif Require Import PyBase Num ExtReal NumPy Dataset Preproc Mos SpecDataset SpecMos MosProofs MosWitness SpecReorder ReorderProofs RaiseWitness.
Import ListNotations.
Local Open Scope list_scope.

(** C133 for any reader, every class and all options: votes need not be finite. *)
Theorem C133_reordering : forall c p q (rd rd' : reader ef) a a' k m m', rd_arr rd = Ok a -> rd_arr rd' = Ok a' ->
  rearranged p q a a' -> same_videos p rd rd' -> run_modeling c rd k = Ok m -> run_modeling c rd' k = Ok m' ->
  (forall f, In f [mr_quality; mr_std; mr_ci_lo; mr_ci_hi; mr_ambiguity] -> relisted (dE a) p (f m) (f m')) /\
  mr_dof m' = mr_dof m /\ mr_ll m' = mr_ll m /\ mr_aic m' = mr_aic m /\ mr_bic m' = mr_bic m /\
  same_bias q (dS a) (mr_bias m) (mr_bias m') /\ same_lists q (dS a) (mr_rej m) (mr_rej m').
Proof. exact re_both. Qed.
Print Assumptions C133_reordering.

(** C133 for datasets whose votes are lists: videos in the order p, subjects in
    the order q; the second run succeeds if the first does. *)
Theorem C133_lists : forall c p q n ds ds' (rd rd' : reader ef) a a' k m, raw_reader ds = Ok rd -> raw_reader ds' = Ok rd' ->
  rd_arr rd = Ok a -> rd_arr rd' = Ok a' -> permutes n q -> same_dataset p (same_list_votes n q) ds ds' ->
  run_modeling c rd k = Ok m -> exists m', run_modeling c rd' k = Ok m' /\
  (forall f, In f [mr_quality; mr_std; mr_ci_lo; mr_ci_hi; mr_ambiguity] -> relisted (length (ds_dis ds)) p (f m) (f m')) /\
  mr_dof m' = mr_dof m /\ mr_ll m' = mr_ll m /\ mr_aic m' = mr_aic m /\ mr_bic m' = mr_bic m /\
  same_bias q n (mr_bias m) (mr_bias m') /\ same_lists q n (mr_rej m) (mr_rej m').
Proof. exact re_lists. Qed.
Print Assumptions C133_lists.

(** C133 for datasets whose votes are dicts: videos in the order p, the entries
    of the dicts in any order; the subjects are sorted by name. *)
Theorem C133_dicts : forall c p ds ds' (rd rd' : reader ef) a a' k m, raw_reader ds = Ok rd -> raw_reader ds' = Ok rd' ->
  rd_arr rd = Ok a -> rd_arr rd' = Ok a' -> same_dataset p same_dict_votes ds ds' ->
  run_modeling c rd k = Ok m -> exists m', run_modeling c rd' k = Ok m' /\
  (forall f, In f [mr_quality; mr_std; mr_ci_lo; mr_ci_hi; mr_ambiguity] -> relisted (length (ds_dis ds)) p (f m) (f m')) /\
  mr_dof m' = mr_dof m /\ mr_ll m' = mr_ll m /\ mr_aic m' = mr_aic m /\ mr_bic m' = mr_bic m /\
  same_bias (fun s => s) (dS a) (mr_bias m) (mr_bias m') /\ same_lists (fun s => s) (dS a) (mr_rej m) (mr_rej m').
Proof. exact re_dicts. Qed.
Print Assumptions C133_dicts.

(** Eight subjects and two videos; the second dataset lists the videos and the
    first two subjects in the other order. *)
Definition rk_swapped (x : Z) := w_ds [
  w_dv 0 1 "v1" (OSeq false [w_vote 3; w_vote 1; w_vote 5; w_vote 3; w_vote 3; w_vote 3; w_vote 3; w_vote 3]);
  w_dv 0 0 "v0" (OSeq false [w_vote 1; w_vote x; w_vote 3; w_vote 3; w_vote 3; w_vote 3; w_vote 3; w_vote 3]) ].
Definition swap01 (i : nat) : nat := match i with 0 => 1 | 1 => 0 | _ => i end.
Example C133_nonvacuous : raw_reader (rk_ds 5) = Ok (w_reader (rk_ds 5)) /\ raw_reader (rk_swapped 5) = Ok (w_reader (rk_swapped 5)) /\
  rd_arr (w_reader (rk_ds 5)) = Ok (w_arr (rk_ds 5)) /\ rd_arr (w_reader (rk_swapped 5)) = Ok (w_arr (rk_swapped 5)) /\
  permutes 8 swap01 /\ same_dataset swap01 (same_list_votes 8 swap01) (rk_ds 5) (rk_swapped 5) /\
  forall c, In c [SR_MOS; MOS; ZS_MOS; BR_MOS] -> exists m, run_modeling c (w_reader (rk_ds 5)) no_options = Ok m.
Proof.
  split; [reflexivity|]. split; [reflexivity|]. split; [reflexivity|]. split; [reflexivity|].
  assert (PW : forall n, 2 <= n -> permutes n swap01).
  { intros n Hn. split; [intros [|[|i]] Hi; cbn; lia|]. intros [|[|i]] [|[|j]] Hi Hj E; cbn in E; lia. }
  split; [apply PW; lia|]. split.
  - split; [reflexivity|]. split; [reflexivity|]. split; [reflexivity|]. split; [apply PW; cbn; lia|].
    intros [|[|e]] dv dv' E E' He; cbn in E, E', He; try lia; injection E as <-; injection E' as <-; (split; [reflexivity|]); do 4 eexists; (split; [reflexivity|]); (split; [reflexivity|]);
      (split; [reflexivity|]); (split; [reflexivity|]); intros i Hi; do 8 (destruct i as [|i]; [reflexivity|]); lia.
  - intros c Hc. destruct (attach_total _ _ (rk_reader 5)) as (o & Ho).
    destruct Hc as [<-|Hc]; [exact (kurtosis_total _ _ (rk_reader 5) (rk_arr 5))|].
    eapply (plain_total c (w_reader (rk_ds 5)) _ o no_options (rk_arr 5) Ho (no_conflict c)); destruct Hc as [<-|[<-|[<-|[]]]]; reflexivity.
Qed.

(** Two videos with votes of named subjects, listed in another order. *)
Definition rd_ds := w_ds [ w_dv 0 0 "v0" (ODict [("ann"%string, w_vote 4); ("bob"%string, w_vote 2)]); w_dv 0 1 "v1" (ODict [("bob"%string, w_vote 1)]) ].
Definition rd_ds' := w_ds [ w_dv 0 1 "v1" (ODict [("bob"%string, w_vote 1)]); w_dv 0 0 "v0" (ODict [("bob"%string, w_vote 2); ("ann"%string, w_vote 4)]) ].
Example C133_dicts_nonvacuous : raw_reader rd_ds = Ok (w_reader rd_ds) /\ raw_reader rd_ds' = Ok (w_reader rd_ds') /\
  rd_arr (w_reader rd_ds) = Ok (w_arr rd_ds) /\ rd_arr (w_reader rd_ds') = Ok (w_arr rd_ds') /\
  same_dataset swap01 same_dict_votes rd_ds rd_ds' /\ exists m, run_modeling SR_MOS (w_reader rd_ds) no_options = Ok m.
Proof.
  split; [reflexivity|]. split; [reflexivity|]. split; [reflexivity|]. split; [reflexivity|]. split; [|exact (kurtosis_total rd_ds (w_arr rd_ds) eq_refl eq_refl)].
  split; [reflexivity|]. split; [reflexivity|]. split; [reflexivity|].
  split; [split; [intros [|[|i]] Hi; cbn in *; lia|intros [|[|i]] [|[|j]] Hi Hj E; cbn in *; lia]|].
  intros [|[|e]] dv dv' E E' He; cbn in E, E', He; try lia; injection E as <-; injection E' as <-; (split; [reflexivity|]); split.
  - do 2 eexists. split; [reflexivity|]. split; [reflexivity|]. apply Permutation_refl.
  - intros d Hd. injection Hd as <-. repeat constructor; cbn; tauto.
  - do 2 eexists. split; [reflexivity|]. split; [reflexivity|]. apply perm_swap.
  - intros d Hd. injection Hd as <-. repeat constructor; cbn; intuition discriminate.
Qed.
