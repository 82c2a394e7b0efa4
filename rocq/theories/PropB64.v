(** Theorems for claims C105-C109: the mean opinion score in binary64, for any
    exponential and logarithm. *)
From Coq Require Import String.
From Coq Require Import List ZArith Bool Arith Reals Lra Lia.
From Flocq Require Import Core IEEE754.BinarySingleNaN.
From Verif Require Import PyBase Num ExtReal NumPy Dataset Preproc Mos NumB64 SpecDataset SpecMos SpecB64
  B64Proofs B64SumProofs B64MosProofs B64StdProofs B64SpreadProofs B64Witness.
Import ListNotations.
Local Open Scope R_scope.

(** C105: the score of a video with whole votes is its exact mean, rounded once. *)
Theorem C105_rounded_mean : forall bexp bln (rd : reader b64) a m, rd_arr rd = Ok a ->
  @run_modeling b64 (Num_b64 bexp bln) MOS rd no_opts = Ok m -> whole_votes a -> length (mr_quality m) = dE a /\
  forall e, (e < dE a)%nat -> small_whole (video_votes (exact a) e) ->
    exists q, nth_error (mr_quality m) e = Some q /\
      (video_votes (exact a) e = [] -> q = b64_nan) /\
      (video_votes (exact a) e <> [] -> b2ef q = Fin (rnd (Rsum (video_votes (exact a) e) / INR (length (video_votes (exact a) e))))).
Proof. exact b64_whole. Qed.
Print Assumptions C105_rounded_mean.

(** ... and it orders the videos as their exact means do, ties apart. *)
Theorem C105_order : forall bexp bln (rd : reader b64) a m, rd_arr rd = Ok a ->
  @run_modeling b64 (Num_b64 bexp bln) MOS rd no_opts = Ok m -> whole_votes a ->
  forall e e' v v', (e < dE a)%nat -> (e' < dE a)%nat ->
    let vs := video_votes (exact a) e in let vs' := video_votes (exact a) e' in
    small_whole vs -> small_whole vs' -> vs <> [] -> vs' <> [] -> Rmean vs <= Rmean vs' ->
    option_map b2ef (nth_error (mr_quality m) e) = Some (Fin v) -> option_map b2ef (nth_error (mr_quality m) e') = Some (Fin v') -> v <= v'.
Proof. exact b64_order. Qed.
Print Assumptions C105_order.

(** No sum of such votes depends on the order or the bracketing. *)
Theorem C105_any_order : forall bexp bln l x, some_sum (@nadd b64 (Num_b64 bexp bln)) l x -> Forall (fun y => is_finite y = true) l ->
  (forall y, In y l -> exists k : Z, b2ef y = Fin (IZR k)) -> small_whole (map B2R l) -> b2ef x = Fin (Rsum (map B2R l)).
Proof. exact any_order_whole. Qed.
Print Assumptions C105_any_order.

Example C105_nonvacuous : forall bexp bln, exists m,
  @raw_reader b64 (Num_b64 bexp bln) wb_votes = Ok (wb_reader bexp bln wb_votes) /\
  rd_arr (wb_reader bexp bln wb_votes) = Ok (wb_arr bexp bln wb_votes) /\
  @run_modeling b64 (Num_b64 bexp bln) MOS (wb_reader bexp bln wb_votes) no_opts = Ok m /\
  whole_votes (wb_arr bexp bln wb_votes) /\
  (forall e, (e < 3)%nat -> small_whole (video_votes (exact (wb_arr bexp bln wb_votes)) e)) /\
  video_votes (exact (wb_arr bexp bln wb_votes)) 0 = [1; 2; 2] /\
  option_map b2ef (nth_error (mr_quality m) 0) = Some (Fin (rnd (5 / 3))) /\
  option_map b2ef (nth_error (mr_quality m) 2) = Some NaN.
Proof.
  intros bexp bln. destruct (wb_reads bexp bln) as (R1 & R2). destruct (wb_run bexp bln) as (m & Hm). exists m.
  destruct (b64_whole bexp bln _ _ m R2 Hm (wb_whole bexp bln)) as (_ & K). destruct (wb_dims bexp bln) as (D1 & _).
  destruct (wb_video bexp bln) as (V0 & V1 & V2).
  split; [exact R1|]. split; [exact R2|]. split; [exact Hm|]. split; [apply wb_whole|]. split; [apply wb_small|]. split; [exact V0|]. split.
  - destruct (K 0%nat) as (q & -> & _ & Q); [rewrite D1; lia|apply wb_small; lia|]. cbn [option_map]. rewrite Q; rewrite V0; [|discriminate].
    do 2 f_equal. f_equal. unfold Rsum. cbn [fold_right length INR]. lra.
  - destruct (K 2%nat) as (q & -> & Q & _); [rewrite D1; lia|apply wb_small; lia|]. rewrite (Q V2). reflexivity.
Qed.

(** C106: the score of any finite votes, up to overflow, has a relative error of
    about one unit roundoff per vote. *)
Theorem C106_error : forall bexp bln (rd : reader b64) a m, rd_arr rd = Ok a ->
  @run_modeling b64 (Num_b64 bexp bln) MOS rd no_opts = Ok m -> finite_votes (exact a) -> length (mr_quality m) = dE a /\
  forall e, (e < dE a)%nat -> moderate (video_votes (exact a) e) -> let vs := video_votes (exact a) e in
    exists q, nth_error (mr_quality m) e = Some q /\
      (vs = [] -> q = b64_nan) /\
      (vs <> [] -> exists v, b2ef q = Fin v /\
        Rabs (v - Rsum vs / INR (length vs)) <= ((1 + u64) ^ length vs - 1) * (abs_sum vs / INR (length vs)) + tiny64).
Proof. exact b64_error. Qed.
Print Assumptions C106_error.

(** ... and so has every other order of summation. *)
Theorem C106_any_order : forall bexp bln l x, some_sum (@nadd b64 (Num_b64 bexp bln)) l x -> Forall (fun y => is_finite y = true) l ->
  moderate (map B2R l) -> exists v, b2ef x = Fin v /\
    Rabs (v - Rsum (map B2R l)) <= ((1 + u64) ^ (length l - 1) - 1) * abs_sum (map B2R l).
Proof. exact any_order_error. Qed.
Print Assumptions C106_any_order.

Example C106_nonvacuous : forall bexp bln, exists m,
  @raw_reader b64 (Num_b64 bexp bln) wb_tenths = Ok (wb_reader bexp bln wb_tenths) /\
  rd_arr (wb_reader bexp bln wb_tenths) = Ok (wb_arr bexp bln wb_tenths) /\
  @run_modeling b64 (Num_b64 bexp bln) MOS (wb_reader bexp bln wb_tenths) no_opts = Ok m /\
  finite_votes (exact (wb_arr bexp bln wb_tenths)) /\ (0 < dE (wb_arr bexp bln wb_tenths))%nat /\
  moderate (video_votes (exact (wb_arr bexp bln wb_tenths)) 0) /\
  video_votes (exact (wb_arr bexp bln wb_tenths)) 0 = [B2R tenth; B2R tenth; B2R tenth].
Proof.
  intros bexp bln. destruct (wt_reads bexp bln) as (R1 & R2). destruct (wt_run bexp bln) as (m & Hm). exists m.
  destruct (wt_dims bexp bln) as (D1 & _). rewrite D1.
  split; [exact R1|]. split; [exact R2|]. split; [exact Hm|]. split; [apply wt_finite|]. split; [lia|]. split; [apply wt_moderate|apply wt_video].
Qed.

(** C107: the score of a video lies between its smallest and its largest vote;
    for whole votes. *)
Theorem C107_whole : forall bexp bln (rd : reader b64) a m, rd_arr rd = Ok a ->
  @run_modeling b64 (Num_b64 bexp bln) MOS rd no_opts = Ok m -> whole_votes a ->
  forall e, (e < dE a)%nat -> let vs := video_votes (exact a) e in small_whole vs -> vs <> [] ->
    exists q v lo hi, nth_error (mr_quality m) e = Some q /\ b2ef q = Fin v /\ In lo vs /\ In hi vs /\ lo <= v <= hi /\
      forall x, In x vs -> lo <= x <= hi.
Proof. exact b64_range. Qed.
Print Assumptions C107_whole.

(** Not for all votes: three votes of 0.1 have a score above 0.1. *)
Theorem C107_refuted : forall bexp bln, exists (rd : reader b64) a m, rd_arr rd = Ok a /\
  @run_modeling b64 (Num_b64 bexp bln) MOS rd no_opts = Ok m /\ finite_votes (exact a) /\ moderate (video_votes (exact a) 0) /\
  exists q v, nth_error (mr_quality m) 0 = Some q /\ b2ef q = Fin v /\
    forall x, In x (video_votes (exact a) 0) -> x < v.
Proof.
  exact (fun bexp bln => match wt_run bexp bln with
    | ex_intro _ m Hm => ex_intro _ (wb_reader bexp bln wb_tenths) (ex_intro _ (wb_arr bexp bln wb_tenths) (ex_intro _ m
        (conj (proj2 (wt_reads bexp bln)) (conj Hm (conj (wt_finite bexp bln) (conj (wt_moderate bexp bln) (wt_outside bexp bln m Hm))))))) end).
Qed.
Print Assumptions C107_refuted.

Example C107_nonvacuous : forall bexp bln,
  whole_votes (wb_arr bexp bln wb_votes) /\ small_whole (video_votes (exact (wb_arr bexp bln wb_votes)) 1) /\
  video_votes (exact (wb_arr bexp bln wb_votes)) 1 = [5; 4].
Proof.
  intros bexp bln. split; [apply wb_whole|]. split; [apply wb_small; lia|]. exact (proj1 (proj2 (wb_video bexp bln))).
Qed.

(** C108: with two votes or more the standard deviation, the standard deviation
    of the mean and the margins are finite and not negative, otherwise NaN; for
    whole votes they are 0 exactly if all votes are the same. *)
Theorem C108_spread : forall bexp bln (rd : reader b64) a m, rd_arr rd = Ok a ->
  @run_modeling b64 (Num_b64 bexp bln) MOS rd no_opts = Ok m -> finite_votes (exact a) ->
  forall e, (e < dE a)%nat -> let vs := video_votes (exact a) e in modest vs ->
    exists s sm c, nth_error (mr_ambiguity m) e = Some s /\ nth_error (mr_std m) e = Some sm /\
      nth_error (mr_ci_lo m) e = Some c /\ nth_error (mr_ci_hi m) e = Some c /\
      ((length vs < 2)%nat -> s = b64_nan /\ sm = b64_nan /\ c = b64_nan) /\
      ((2 <= length vs)%nat -> exists v vm vc, b2ef s = Fin v /\ b2ef sm = Fin vm /\ b2ef c = Fin vc /\ 0 <= v /\ 0 <= vm /\ 0 <= vc /\
        (whole_votes a -> small_whole vs -> (v = 0 <-> unanimous vs) /\ (vm = 0 <-> unanimous vs) /\ (vc = 0 <-> unanimous vs))).
Proof. exact b64_spread. Qed.
Print Assumptions C108_spread.

(** Other votes can be the same and have a standard deviation above 0. *)
Theorem C108_refuted : forall bexp bln, exists (rd : reader b64) a m, rd_arr rd = Ok a /\
  @run_modeling b64 (Num_b64 bexp bln) MOS rd no_opts = Ok m /\ finite_votes (exact a) /\ modest (video_votes (exact a) 0) /\
  unanimous (video_votes (exact a) 0) /\ exists s v, nth_error (mr_ambiguity m) 0 = Some s /\ b2ef s = Fin v /\ 0 < v.
Proof.
  exact (fun bexp bln => match wt_run bexp bln with
    | ex_intro _ m Hm => ex_intro _ (wb_reader bexp bln wb_tenths) (ex_intro _ (wb_arr bexp bln wb_tenths) (ex_intro _ m
        (conj (proj2 (wt_reads bexp bln)) (conj Hm (conj (wt_finite bexp bln) (conj (wt_modest bexp bln)
          (conj (wt_unanimous bexp bln) (wt_spread bexp bln m Hm)))))))) end).
Qed.
Print Assumptions C108_refuted.

Example C108_nonvacuous : forall bexp bln,
  let a := wb_arr bexp bln wb_votes in whole_votes a /\ finite_votes (exact a) /\ small_whole (video_votes (exact a) 0) /\
  modest (video_votes (exact a) 0) /\ video_votes (exact a) 0 = [1; 2; 2] /\ ~ unanimous (video_votes (exact a) 0) /\
  exists m, @run_modeling b64 (Num_b64 bexp bln) MOS (wb_reader bexp bln wb_votes) no_opts = Ok m.
Proof.
  intros bexp bln a. destruct (wb_video bexp bln) as (V0 & _). fold a in V0. assert (S := wb_small bexp bln 0 ltac:(lia)). fold a in S.
  split; [apply wb_whole|]. split; [apply whole_finite, wb_whole|]. split; [exact S|].
  split. { destruct S as (S1 & S2). split; [exact S1|]. apply Rlt_le, (Rlt_le_trans _ _ _ S2). change (IZR (2 ^ 53)) with (bpow radix2 53). apply bpow_le. lia. }
  split; [exact V0|]. split; [|apply wb_run].
  intro U. rewrite V0 in U. specialize (U 1 2 (or_introl eq_refl) (or_intror (or_introl eq_refl))). lra.
Qed.

(** C109: two runs, of the same or of other datasets, give a video the same
    score if its votes are the same in another order; for whole votes. *)
Theorem C109_whole : forall bexp bln (rd rd' : reader b64) a a' m m', rd_arr rd = Ok a -> rd_arr rd' = Ok a' ->
  @run_modeling b64 (Num_b64 bexp bln) MOS rd no_opts = Ok m -> @run_modeling b64 (Num_b64 bexp bln) MOS rd' no_opts = Ok m' ->
  whole_votes a -> whole_votes a' -> forall e e', (e < dE a)%nat -> (e' < dE a')%nat -> small_whole (video_votes (exact a) e) ->
    Permutation.Permutation (video_votes (exact a) e) (video_votes (exact a') e') ->
    exists q q', nth_error (mr_quality m) e = Some q /\ nth_error (mr_quality m') e' = Some q' /\ b2ef q = b2ef q'.
Proof. exact b64_reordered. Qed.
Print Assumptions C109_whole.

(** Not for all votes: 0.1, 0.2, 0.3 in the other order. *)
Theorem C109_refuted : forall bexp bln, exists (rd rd' : reader b64) a a' m m', rd_arr rd = Ok a /\ rd_arr rd' = Ok a' /\
  @run_modeling b64 (Num_b64 bexp bln) MOS rd no_opts = Ok m /\ @run_modeling b64 (Num_b64 bexp bln) MOS rd' no_opts = Ok m' /\
  finite_votes (exact a) /\ finite_votes (exact a') /\
  Permutation.Permutation (video_votes (exact a) 0) (video_votes (exact a') 0) /\
  exists q q' v v', nth_error (mr_quality m) 0 = Some q /\ nth_error (mr_quality m') 0 = Some q' /\
    b2ef q = Fin v /\ b2ef q' = Fin v' /\ v < v'.
Proof. exact wo_differ. Qed.
Print Assumptions C109_refuted.

Example C109_nonvacuous : forall bexp bln,
  let a := wb_arr bexp bln (wb_ds [[b_ 1; b_ 2; b_ 2]]) in let a' := wb_arr bexp bln (wb_ds [[b_ 2; b_ 1; b_ 2]]) in
  video_votes (exact a) 0 = [1; 2; 2] /\ Permutation.Permutation (video_votes (exact a) 0) (video_votes (exact a') 0) /\
  exists m m', @run_modeling b64 (Num_b64 bexp bln) MOS (wb_reader bexp bln (wb_ds [[b_ 1; b_ 2; b_ 2]])) no_opts = Ok m /\
    @run_modeling b64 (Num_b64 bexp bln) MOS (wb_reader bexp bln (wb_ds [[b_ 2; b_ 1; b_ 2]])) no_opts = Ok m'.
Proof.
  intros bexp bln a a'. destruct (val_ofZ bexp bln 1 ltac:(reflexivity)) as (F1 & E1). destruct (val_ofZ bexp bln 2 ltac:(reflexivity)) as (F2 & E2).
  destruct (wo_video bexp bln (b_ 1) (b_ 2) (b_ 2) F1 F2 F2) as (V & _). destruct (wo_video bexp bln (b_ 2) (b_ 1) (b_ 2) F2 F1 F2) as (V' & _).
  fold a in V. fold a' in V'. rewrite V, V'.
  change (B2R (b_ 1)) with (B2R (@nofZ b64 (Num_b64 bexp bln) 1)). change (B2R (b_ 2)) with (B2R (@nofZ b64 (Num_b64 bexp bln) 2)). rewrite E1, E2.
  split; [reflexivity|]. split; [apply Permutation.perm_swap|].
  destruct (wo_run bexp bln (b_ 1) (b_ 2) (b_ 2)) as (m & Hm). destruct (wo_run bexp bln (b_ 2) (b_ 1) (b_ 2)) as (m' & Hm'). exists m, m'. auto.
Qed.
