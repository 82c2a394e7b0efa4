(** Theorems for claims C23-C35 and C67. *)
From Coq Require Import String.
From Coq Require Import List ZArith Bool Arith Reals Permutation Lra Lia.
From Verif Require Import PyBase Num ExtReal NumPy Dataset Preproc Mos SpecDataset SpecMos
  ExtRealProofs ArrayProofs MosProofs PreprocProofs RejectProofs Reject2Proofs StepsProofs MosWitness.
Import ListNotations.
Local Open Scope list_scope.
Local Open Scope string_scope.

(** C23. *)
Theorem C23_mos_mean : forall ds rd m, raw_reader ds = Ok rd -> python_dicts (ds_dis ds) -> finite_dataset (ds_dis ds) ->
  run_modeling MOS rd no_options = Ok m ->
  length (mr_quality m) = length (ds_dis ds) /\
  forall e dv vs, nth_error (ds_dis ds) e = Some dv -> recorded dv vs ->
    exists q, nth_error (mr_quality m) e = Some q /\ is_mean q (presents vs) /\
      forall lo hi, presents vs <> [] -> (forall x, In x (presents vs) -> (lo <= x <= hi)%R) ->
        exists v, q = Fin v /\ (lo <= v <= hi)%R.
Proof. exact mos_mean_hull. Qed.
Print Assumptions C23_mos_mean.

Theorem C23_mos_exists : forall ds rd a, raw_reader ds = Ok rd -> rd_arr rd = Ok a ->
  exists m, run_modeling MOS rd no_options = Ok m.
Proof. exact mos_total. Qed.
Print Assumptions C23_mos_exists.

Example C23_nonvacuous : exists m, raw_reader wd_ds = Ok (w_reader wd_ds) /\ python_dicts (ds_dis wd_ds) /\
  finite_dataset (ds_dis wd_ds) /\ run_modeling MOS (w_reader wd_ds) no_options = Ok m /\
  exists dv, nth_error (ds_dis wd_ds) 1 = Some dv /\ recorded dv [Fin 2; Fin 3].
Proof.
  destruct (mos_total _ _ _ wd_reader wd_arr) as (m & H). exists m. split; [exact wd_reader|]. split; [exact wd_dicts|].
  split; [exact wd_finite_ds|]. split; [exact H|]. eexists. split; [reflexivity|]. right.
  eexists. exists [[Fin 2]; [Fin 3]]. split; [reflexivity|]. split; [repeat constructor|reflexivity].
Qed.

(** C24. *)
Theorem C24_mos_uncertainty : forall ds rd m, raw_reader ds = Ok rd -> python_dicts (ds_dis ds) -> finite_dataset (ds_dis ds) ->
  run_modeling MOS rd no_options = Ok m ->
  length (mr_quality m) = length (ds_dis ds) /\ length (mr_ambiguity m) = length (ds_dis ds) /\
  length (mr_std m) = length (ds_dis ds) /\ length (mr_ci_lo m) = length (ds_dis ds) /\
  length (mr_ci_hi m) = length (ds_dis ds) /\
  forall e dv vs, nth_error (ds_dis ds) e = Some dv -> recorded dv vs ->
    exists q amb std lo hi,
      nth_error (mr_quality m) e = Some q /\ nth_error (mr_ambiguity m) e = Some amb /\
      nth_error (mr_std m) e = Some std /\ nth_error (mr_ci_lo m) e = Some lo /\
      nth_error (mr_ci_hi m) e = Some hi /\ mos_entry_ok q amb std lo hi (presents vs).
Proof. exact mos_dataset. Qed.
Print Assumptions C24_mos_uncertainty.

(** The second video has two votes, the third only one. *)
Example C24_nonvacuous : (exists dv, nth_error (ds_dis wd_ds) 1 = Some dv /\ recorded dv [Fin 2; Fin 3]) /\
  (exists dv, nth_error (ds_dis wd_ds) 2 = Some dv /\ recorded dv [Fin 4]).
Proof.
  split; eexists; (split; [reflexivity|]); right; eexists;
    [exists [[Fin 2]; [Fin 3]]|exists [[Fin 4]]]; (split; [reflexivity|]); (split; [repeat constructor|reflexivity]).
Qed.

(** C25: only the multiset of votes of each video matters. *)
Theorem C25_votes_only : forall rd rd' a a' m m',
  rd_arr rd = Ok a -> rd_arr rd' = Ok a' -> finite_votes a -> finite_votes a' -> dE a = dE a' ->
  (forall e, e < dE a -> Permutation (video_votes a e) (video_votes a' e)) ->
  run_modeling MOS rd no_options = Ok m -> run_modeling MOS rd' no_options = Ok m' ->
  same_mos_results m m'.
Proof. exact mos_votes_only. Qed.
Print Assumptions C25_votes_only.

(** Permuting the subjects keeps these multisets. *)
Theorem C25_subject_permutation : forall a a' p e, permutes (dS a) p -> dS a' = dS a -> dR a' = dR a -> e < dE a ->
  (forall s r, s < dS a -> r < dR a -> at3 a' e s r = at3 a e (p s) r) ->
  Permutation (video_votes a e) (video_votes a' e).
Proof. exact subject_perm_votes. Qed.
Print Assumptions C25_subject_permutation.

(** So does adding subjects or repetitions without votes. *)
Theorem C25_empty_columns : forall a a' e, e < dE a -> dS a <= dS a' -> dR a <= dR a' ->
  (forall s r, s < dS a' -> r < dR a' ->
     at3 a' e s r = if (Nat.ltb s (dS a) && Nat.ltb r (dR a))%bool then at3 a e s r else NaN) ->
  video_votes a' e = video_votes a e.
Proof. exact empty_columns_votes. Qed.
Print Assumptions C25_empty_columns.

(** Permuting the videos permutes the results. *)
Theorem C25_video_permutation : forall rd rd' a a' m m' p,
  rd_arr rd = Ok a -> rd_arr rd' = Ok a' -> finite_votes a -> permutes (dE a) p ->
  dE a' = dE a -> dS a' = dS a -> dR a' = dR a ->
  (forall e s r, inside a e s r -> at3 a' e s r = at3 a (p e) s r) ->
  run_modeling MOS rd no_options = Ok m -> run_modeling MOS rd' no_options = Ok m' ->
  forall f : mosres ef -> list ef, In f [mr_quality; mr_std; mr_ci_lo; mr_ci_hi; mr_ambiguity] ->
  length (f m') = length (f m) /\ forall e, e < dE a -> nth_error (f m') e = nth_error (f m) (p e).
Proof. exact video_perm. Qed.
Print Assumptions C25_video_permutation.

(** Swapping two subjects of a 1x2x1 array. *)
Example C25_nonvacuous :
  let a := Arr3 1 2 1 (fun _ s _ => if Nat.eqb s 0 then Fin 1 else Fin 4) in
  let a' := Arr3 1 2 1 (fun _ s _ => if Nat.eqb s 0 then Fin 4 else Fin 1) in
  let p := fun i => 1 - i in
  permutes (dS a) p /\ (forall s r, s < dS a -> r < dR a -> at3 a' 0 s r = at3 a 0 (p s) r) /\
  video_votes a 0 <> video_votes a' 0 /\ finite_votes a /\ finite_votes a'.
Proof.
  cbn [dS dR]. split; [|split; [|split; [|split]]].
  - split; intros; lia.
  - intros s r Hs Hr. destruct s as [|[|s]]; [reflexivity|reflexivity|lia].
  - cbn. intro H. injection H. lra.
  - intros e s r _. cbn. destruct (Nat.eqb s 0); exact I.
  - intros e s r _. cbn. destruct (Nat.eqb s 0); exact I.
Qed.

(** C26. *)
Theorem C26_mos_affine : forall rd rd' a a' m m' k c,
  rd_arr rd = Ok a -> rd_arr rd' = Ok a' -> finite_votes a -> transformed (affine k c) a a' ->
  run_modeling MOS rd no_options = Ok m -> run_modeling MOS rd' no_options = Ok m' ->
  mr_quality m' = map (affine k c) (mr_quality m) /\
  mr_ambiguity m' = map (scaled (Rabs k)) (mr_ambiguity m) /\
  mr_std m' = map (scaled (Rabs k)) (mr_std m) /\
  mr_ci_lo m' = map (scaled (Rabs k)) (mr_ci_lo m) /\
  mr_ci_hi m' = map (scaled (Rabs k)) (mr_ci_hi m).
Proof. exact mos_affine. Qed.
Print Assumptions C26_mos_affine.

Example C26_nonvacuous :
  let a := w_arr wd_ds in let a' := map3 (fun _ _ _ => affine (-2) 7) a in
  finite_votes a /\ transformed (affine (-2) 7) a a' /\
  exists m m', run_modeling MOS (w_reader wd_ds) no_options = Ok m /\
    run_modeling MOS (with_array (w_reader wd_ds) a') no_options = Ok m'.
Proof.
  cbv zeta. split; [exact wd_finite|]. split; [repeat split; reflexivity|].
  destruct (mos_total _ _ _ wd_reader wd_arr) as (m & H).
  destruct (plain_total MOS (with_array (w_reader wd_ds) (map3 (fun _ _ _ => affine (-2) 7) (w_arr wd_ds))) _ _ no_options
    eq_refl eq_refl (no_conflict _) eq_refl eq_refl eq_refl eq_refl) as (m' & H').
  exists m, m'. split; assumption.
Qed.

(** C27. *)
Theorem C27_dmos_anchor : forall ds rd m rs, raw_reader ds = Ok rd -> python_dicts (ds_dis ds) -> finite_dataset (ds_dis ds) ->
  ds_ref_score ds = Some (Some (Fin rs)) -> run_modeling DMOS rd no_options = Ok m ->
  length (mr_quality m) = length (ds_dis ds) /\
  forall e dv vs, nth_error (ds_dis ds) e = Some dv -> recorded dv vs ->
    one_reference (ds_refs ds) (ds_dis ds) (dv_cid dv) /\
    forall i dvr vsr, is_reference (ds_refs ds) (ds_dis ds) (dv_cid dv) i -> nth_error (ds_dis ds) i = Some dvr -> recorded dvr vsr ->
      exists q, nth_error (mr_quality m) e = Some q /\
        (presents vs = [] \/ presents vsr = [] -> q = NaN) /\
        (presents vs <> [] -> presents vsr <> [] -> q = Fin (Rmean (presents vs) + rs - Rmean (presents vsr))%R) /\
        (e = i -> presents vs <> [] -> q = Fin rs).
Proof. exact dmos_dataset. Qed.
Print Assumptions C27_dmos_anchor.

Theorem C27_dmos_bad_references : forall ds rd a rs, raw_reader ds = Ok rd -> python_dicts (ds_dis ds) -> rd_arr rd = Ok a ->
  ds_ref_score ds = Some (Some rs) ->
  (exists dv, In dv (ds_dis ds) /\ ~ one_reference (ds_refs ds) (ds_dis ds) (dv_cid dv)) ->
  run_modeling DMOS rd no_options = Err AssertionError.
Proof. exact dmos_dataset_error. Qed.
Print Assumptions C27_dmos_bad_references.

Theorem C27_dmos_exists : forall ds rd a rs, raw_reader ds = Ok rd -> python_dicts (ds_dis ds) -> rd_arr rd = Ok a ->
  ds_ref_score ds = Some (Some rs) ->
  (forall dv, In dv (ds_dis ds) -> one_reference (ds_refs ds) (ds_dis ds) (dv_cid dv)) ->
  exists m, run_modeling DMOS rd no_options = Ok m.
Proof. exact dmos_dataset_total. Qed.
Print Assumptions C27_dmos_exists.

Example C27_nonvacuous : exists m, run_modeling DMOS (w_reader wd_ds) no_options = Ok m /\
  is_reference (ds_refs wd_ds) (ds_dis wd_ds) 0 0 /\ is_reference (ds_refs wd_ds) (ds_dis wd_ds) 1 2.
Proof.
  assert (R0 : forall i, is_reference (ds_refs wd_ds) (ds_dis wd_ds) 0 i <-> i = 0) by exact wd_ref0.
  assert (R1 : forall i, is_reference (ds_refs wd_ds) (ds_dis wd_ds) 1 i <-> i = 2) by exact wd_ref1.
  destruct (C27_dmos_exists wd_ds _ _ _ wd_reader wd_dicts wd_arr eq_refl) as (m & H); [|exists m; split; [exact H|split; [apply R0|apply R1]; reflexivity]].
  intros dv Hdv. cbn in Hdv. destruct Hdv as [<-|[<-|[<-|[]]]]; cbn [dv_cid w_dv];
    [exists 0|exists 0|exists 2]; (split; [apply R0 || apply R1; reflexivity|intros j Hj; symmetry; apply R0 || apply R1; exact Hj]).
Qed.
(** No video of content 0 is its reference. *)
Example C27_bad_nonvacuous : ~ one_reference (ds_refs wc_ds) (ds_dis wc_ds) 0 /\
  run_modeling DMOS (w_reader wc_ds) no_options = Err AssertionError.
Proof.
  assert (N : ~ one_reference (ds_refs wc_ds) (ds_dis wc_ds) 0).
  2: { split; [exact N|]. refine (C27_dmos_bad_references wc_ds _ _ _ wc_reader wc_dicts wc_arr eq_refl _). eexists. split; [left; reflexivity|exact N]. }
  intros (i & (dv & r & Hi & _ & (l1 & l2 & E & _) & P) & _).
  assert (Hr : In r (ds_refs wc_ds)) by (rewrite E; apply in_elt).
  destruct i as [|[|i]]; cbn in Hi; [| |destruct i; discriminate]; injection Hi as <-; cbn in P, Hr;
    destruct Hr as [<-|[<-|[]]]; discriminate.
Qed.

(** C28. *)
Theorem C28_zscore : forall (rd : reader ef) a m, rd_arr rd = Ok a -> finite_votes a -> run_modeling ZS_MOS rd no_options = Ok m ->
  dE (mr_raw m) = dE a /\ dS (mr_raw m) = dS a /\ dR (mr_raw m) = dR a /\
  forall s, s < dS a ->
    (has_spread (subject_votes a s) ->
       length (subject_votes (mr_raw m) s) = length (subject_votes a s) /\
       Rsum (subject_votes (mr_raw m) s) = 0%R /\ is_sample_std (Fin 1) (subject_votes (mr_raw m) s) /\
       exists mu sd, (0 < sd)%R /\ forall e r, e < dE a -> r < dR a ->
         at3 (mr_raw m) e s r = match at3 a e s r with Fin x => Fin ((x - mu) / sd)%R | _ => NaN end) /\
    (~ has_spread (subject_votes a s) -> forall e r, e < dE a -> r < dR a -> at3 (mr_raw m) e s r = NaN).
Proof. exact zs_spec. Qed.
Print Assumptions C28_zscore.

(** Subject 0 of [wc_ds] has spread, subject 1 has none. *)
Example C28_nonvacuous : finite_votes (w_arr wc_ds) /\ has_spread (subject_votes (w_arr wc_ds) 0) /\
  ~ has_spread (subject_votes (w_arr wc_ds) 1) /\
  exists m, run_modeling ZS_MOS (w_reader wc_ds) no_options = Ok m.
Proof.
  split; [exact (complete_fin _ wc_complete)|]. split; [|split].
  - exists 1%R, 2%R. cbn. repeat split; [left; reflexivity|right; left; reflexivity|lra].
  - intros (x & y & Hx & Hy & N). cbn in Hx, Hy. destruct Hx as [<-|[<-|[]]], Hy as [<-|[<-|[]]]; apply N; reflexivity.
  - apply (plain_total _ _ _ _ _ wc_arr eq_refl); [apply no_conflict|reflexivity..].
Qed.

(** C29. *)
Theorem C29_bias_removal : forall (rd : reader ef) a m, rd_arr rd = Ok a -> finite_votes a ->
  run_modeling BR_MOS rd no_options = Ok m ->
  exists delta, mr_bias m = Some delta /\ length delta = dS a /\
    dE (mr_raw m) = dE a /\ dS (mr_raw m) = dS a /\ dR (mr_raw m) = dR a /\
    forall s, s < dS a -> exists d, nth_error delta s = Some d /\ is_mean d (bias_diffs a s) /\
      forall e r, inside a e s r ->
        match at3 a e s r with
        | Fin x => exists v, d = Fin v /\ at3 (mr_raw m) e s r = Fin (x - v)%R
        | _ => at3 (mr_raw m) e s r = NaN
        end.
Proof. exact br_spec. Qed.
Print Assumptions C29_bias_removal.

Theorem C29_bias_removal_complete : forall (rd rd2 : reader ef) a m m0 m2,
  rd_arr rd = Ok a -> complete_votes a -> 0 < dE a -> 0 < dS a -> 0 < dR a ->
  run_modeling BR_MOS rd no_options = Ok m -> run_modeling MOS rd no_options = Ok m0 ->
  rd_arr rd2 = Ok (mr_raw m) -> run_modeling BR_MOS rd2 no_options = Ok m2 ->
  (exists delta, mr_bias m = Some (map Fin delta) /\ Rsum delta = 0%R) /\
  mr_quality m = mr_quality m0 /\
  arr3_eq (mr_raw m2) (mr_raw m) /\ mr_bias m2 = Some (repeat (Fin 0) (dS a)) /\ mr_quality m2 = mr_quality m.
Proof. exact br_complete. Qed.
Print Assumptions C29_bias_removal_complete.

Example C29_nonvacuous : complete_votes (w_arr wc_ds) /\ dE (w_arr wc_ds) = 2 /\ dS (w_arr wc_ds) = 2 /\ dR (w_arr wc_ds) = 1 /\
  exists m m0 m2, run_modeling BR_MOS (w_reader wc_ds) no_options = Ok m /\ run_modeling MOS (w_reader wc_ds) no_options = Ok m0 /\
    run_modeling BR_MOS (with_array (w_reader wc_ds) (mr_raw m)) no_options = Ok m2.
Proof.
  split; [exact wc_complete|]. repeat (split; [reflexivity|]). 
  destruct (plain_total BR_MOS _ _ _ no_options wc_arr eq_refl) as (m & H); [apply no_conflict|reflexivity..|].
  destruct (plain_total MOS _ _ _ no_options wc_arr eq_refl) as (m0 & H0); [apply no_conflict|reflexivity..|].
  destruct (plain_total BR_MOS (with_array (w_reader wc_ds) (mr_raw m)) _ _ no_options
    eq_refl eq_refl (no_conflict _) eq_refl eq_refl eq_refl eq_refl) as (m2 & H2).
  exists m, m0, m2. repeat split; assumption.
Qed.

(** C30: for every class and every choice of options with kurtosis-based
    rejection, compared with the same run without rejection. *)
Theorem C30_outlier_rejection : forall c (rd : reader ef) k m, run_modeling c rd k = Ok m ->
  kw_rej (plus_announced c k) = true ->
  (kw_rejtype (plus_announced c k) = None \/ kw_rejtype (plus_announced c k) = Some Kurtosis) ->
  exists m0 flags st1 st2, run_modeling MOS rd (without_rejection (plus_announced c k)) = Ok m0 /\
    mr_rej m = Some (flags, st1, st2) /\
    (finite_votes (mr_raw m0) ->
      rejection_result (mr_raw m0) (mr_raw m)
        (fun s => outlier_subject (mr_raw m0) s /\ exists s', s' < dS (mr_raw m0) /\ ~ outlier_subject (mr_raw m0) s') flags /\
      (0 < dS (mr_raw m0) -> 0 < dS (mr_raw m))).
Proof. exact kurtosis_class. Qed.
Print Assumptions C30_outlier_rejection.

(** Two of four subjects are rejected here. *)
Example C30_nonvacuous : exists m st1 st2, run_modeling SR_MOS (w_reader wu_ds) no_options = Ok m /\
  mr_rej m = Some ([true; true; false; false], st1, st2) /\ finite_votes (w_arr wu_ds).
Proof. destruct wu_result as (m & s1 & s2 & H & J & _). exists m, s1, s2. split; [exact H|]. split; [exact J|exact wu_finite]. Qed.

(** C31. *)
Theorem C31_rejection_scale : forall c (rd rd' : reader ef) a a' kw k c0 m m',
  rd_arr rd = Ok a -> rd_arr rd' = Ok a' -> finite_votes a -> transformed (affine k c0) a a' -> k <> 0%R ->
  kw_dscore (plus_announced c kw) = false -> kw_rej (plus_announced c kw) = true ->
  (kw_rejtype (plus_announced c kw) = None \/ kw_rejtype (plus_announced c kw) = Some Kurtosis) ->
  run_modeling c rd kw = Ok m -> run_modeling c rd' kw = Ok m' ->
  exists flags st1 st2 st1' st2', mr_rej m = Some (flags, st1, st2) /\ mr_rej m' = Some (flags, st1', st2').
Proof. exact rejection_affine_class. Qed.
Print Assumptions C31_rejection_scale.

Example C31_nonvacuous : finite_votes (w_arr wu_ds) /\
  let a' := map3 (fun _ _ _ => affine (-1) 6) (w_arr wu_ds) in
  transformed (affine (-1) 6) (w_arr wu_ds) a' /\
  exists m m', run_modeling SR_MOS (w_reader wu_ds) no_options = Ok m /\
    run_modeling SR_MOS (with_array (w_reader wu_ds) a') no_options = Ok m'.
Proof.
  split; [exact wu_finite|]. cbv zeta. split; [repeat split; reflexivity|].
  destruct (kurtosis_total_arr (w_reader wu_ds) _ _ wu_arr eq_refl) as (m & H).
  edestruct (kurtosis_total_arr (with_array (w_reader wu_ds) (map3 (fun _ _ _ => affine (-1) 6) (w_arr wu_ds)))) as (m' & H'); [reflexivity|reflexivity|].
  exists m, m'. split; assumption.
Qed.

(** C32: what correlation based rejection does, for every class and options. *)
Theorem C32_correlation_rejection : forall c (rd : reader ef) k m, run_modeling c rd k = Ok m ->
  let k' := plus_announced c k in
  kw_rej k' = true -> (kw_rejtype k' = Some Pearson \/ kw_rejtype k' = Some Spearman) ->
  exists m0 flags r zeros, run_modeling MOS rd (without_rejection k') = Ok m0 /\
    mr_rej m = Some (flags, r, zeros) /\
    let a := mr_raw m0 in
    (finite_votes a ->
      length r = dS a /\ length flags = dS a /\
      (forall s, s < dS a -> exists v, nth_error r s = Some v /\
         (kw_rejtype k' = Some Pearson -> is_corr v (own_scores a s) (all_scores a s)) /\
         (kw_rejtype k' = Some Spearman -> is_corr v (ranks (own_scores a s)) (ranks (all_scores a s)))) /\
      (In NaN r -> dS (mr_raw m) = 0 /\ flags = repeat false (dS a)) /\
      (forall rs, r = map Fin rs -> 0 < dS a ->
         rejection_result a (mr_raw m) (fun s => exists x, nth_error rs s = Some x /\ (x <= threshold rs)%R) flags /\
         (0 < dS (mr_raw m) <-> (exists x, In x rs /\ (7/10 < x)%R) \/ (exists x y, In x rs /\ In y rs /\ x <> y)))).
Proof. exact corr_class. Qed.
Print Assumptions C32_correlation_rejection.

(** C32 is false: with a subject that always votes the same, nobody is
    flagged, yet nobody is retained. *)
Theorem C32_flags_refuted : exists m st1 st2, run_modeling SR_MOS_PCC (w_reader wc_ds) no_options = Ok m /\
  mr_rej m = Some ([false; false], st1, st2) /\ dS (mr_raw m) = 0 /\ mr_quality m = [NaN; NaN].
Proof. exact wc_result. Qed.
Print Assumptions C32_flags_refuted.

(** C32 is false: with all correlations equal and at most 0.7 everybody is
    rejected. *)
Theorem C32_retained_refuted : exists m st2, run_modeling SR_MOS_PCC (w_reader we_ds) no_options = Ok m /\
  mr_rej m = Some ([true; true], [Fin (1 / 2); Fin (1 / 2)], st2) /\ dS (mr_raw m) = 0 /\ mr_quality m = [NaN; NaN; NaN].
Proof. exact we_result. Qed.
Print Assumptions C32_retained_refuted.

(** C33: a step asked for twice. *)
Theorem C33_conflict : forall c (rd : reader ef) k, conflict c k -> run_modeling c rd k = Err AssertionError.
Proof. exact run_conflict. Qed.
Print Assumptions C33_conflict.

(** C33: options that exclude each other. *)
Theorem C33_bad_options : forall c (rd : reader ef) a k, rd_arr rd = Ok a -> ~ conflict c k ->
  let k' := plus_announced c k in
  (kw_zscore k' = true /\ kw_bias k' = true) \/ (kw_rej k' = false /\ kw_rejtype k' <> None) \/ kw_rejtype k' = Some OtherRej ->
  run_modeling c rd k = Err AssertionError.
Proof. exact bad_options. Qed.
Print Assumptions C33_bad_options.

(** C33: exactly the announced steps and the requested ones are applied. *)
Theorem C33_announced : forall c (rd : reader ef) k, ~ conflict c k -> is_biasremv c = false ->
  run_modeling c rd k = run_modeling MOS rd (plus_announced c k).
Proof. exact run_announced. Qed.
Print Assumptions C33_announced.

Theorem C33_announced_biasremv : forall c (rd : reader ef) k, ~ conflict c k -> is_biasremv c = true ->
  (forall ex, run_modeling c rd k = Err ex <-> run_modeling MOS rd (plus_announced c k) = Err ex) /\
  forall m, run_modeling c rd k = Ok m -> exists m', run_modeling MOS rd (plus_announced c k) = Ok m' /\ same_but_dof m m' /\
    exists a, rd_arr rd = Ok a /\
      mr_dof m = ef_div (Fin (INR (dE a * 2 + dS a * dR a))) (Fin (INR (length (notnan (flat3 a))))) /\
      mr_dof m' = ef_div (Fin (INR (dE a * 2))) (Fin (INR (length (notnan (flat3 a))))).
Proof. exact run_announced_bias. Qed.
Print Assumptions C33_announced_biasremv.

(** C33: the steps are applied one after the other, in a fixed order. *)
Theorem C33_steps_compose : forall (rd : reader ef) k pp, preprocess rd k = Ok pp ->
  exists p1 p2 p3 p4,
    preprocess rd (KW (kw_dscore k) false false false None false None) = Ok p1 /\
    preprocess (with_array rd (pp_arr p1)) (KW false (kw_zscore k) false false None false None) = Ok p2 /\
    preprocess (with_array rd (pp_arr p2)) (KW false false (kw_bias k) false None false None) = Ok p3 /\
    preprocess (with_array rd (pp_arr p3)) (KW false false false (kw_rej k) (kw_rejtype k) false None) = Ok p4 /\
    pp_arr pp = pp_arr p4 /\ pp_rej pp = pp_rej p4 /\ pp_bias pp = pp_bias p3.
Proof. exact steps_compose. Qed.
Print Assumptions C33_steps_compose.

Example C33_nonvacuous :
  conflict SR_DMOS (KW true false false false None false None) /\
  ~ conflict SR_MOS (KW false false true false None false None) /\
  exists m, run_modeling BR_MOS (w_reader wc_ds) no_options = Ok m.
Proof.
  split; [left; split; reflexivity|]. split.
  - intros [[? ?]|[[? ?]|[[? ?]|[? ?]]]]; discriminate.
  - apply (plain_total _ _ _ _ _ wc_arr eq_refl); [apply no_conflict|reflexivity..].
Qed.

(** C34. *)
Theorem C34_final_only_quality : forall c (rd : reader ef) k m, run_modeling c rd k = Ok m ->
  exists m0, run_modeling c rd (without_final k) = Ok m0 /\ same_but_quality m m0 /\
    mr_quality m = postprocess k (mr_quality m0).
Proof. exact run_final. Qed.
Print Assumptions C34_final_only_quality.

Theorem C34_normalize : forall k q, kw_normalize_final k = true -> kw_transform_final k = None -> has_spread q ->
  exists mu sd, (0 < sd)%R /\ mu = Rmean q /\ (sd * sd = pvar q)%R /\
    postprocess k (map Fin q) = map Fin (map (fun x => (x - mu) / sd)%R q) /\
    Rmean (map (fun x => (x - mu) / sd)%R q) = 0%R /\ pvar (map (fun x => (x - mu) / sd)%R q) = 1%R.
Proof. exact normalize_spec. Qed.
Print Assumptions C34_normalize.

Theorem C34_transform : forall k q p2 p1 p0, kw_normalize_final k = false ->
  kw_transform_final k = Some (option_map Fin p2, option_map Fin p1, option_map Fin p0) ->
  let c o := match o with Some x => x | None => 0%R end in
  postprocess k (map Fin q) = map Fin (map (fun x => c p2 * x * x + c p1 * x + c p0)%R q).
Proof. exact transform_spec. Qed.
Print Assumptions C34_transform.

Theorem C34_length : forall k (q : list ef), length (postprocess k q) = length q.
Proof. exact postprocess_length. Qed.
Print Assumptions C34_length.

Theorem C34_no_options : forall k (q : list ef), kw_normalize_final k = false -> kw_transform_final k = None -> postprocess k q = q.
Proof. exact postprocess_none. Qed.
Print Assumptions C34_no_options.

(** Both options: the normalised scores are transformed. *)
Theorem C34_both : forall k (q : list ef),
  postprocess k q = postprocess (KW false false false false None false (kw_transform_final k))
                      (postprocess (KW false false false false None (kw_normalize_final k) None) q).
Proof. exact postprocess_both. Qed.
Print Assumptions C34_both.

Theorem C34_normalize_ranking : forall k q q', kw_normalize_final k = true -> kw_transform_final k = None -> has_spread q ->
  postprocess k (map Fin q) = map Fin q' ->
  forall i j x y, nth_error q i = Some x -> nth_error q j = Some y ->
    exists x' y', nth_error q' i = Some x' /\ nth_error q' j = Some y' /\ ((x < y)%R <-> (x' < y')%R).
Proof. exact normalize_rank. Qed.
Print Assumptions C34_normalize_ranking.

Theorem C34_transform_ranking : forall k q q' p1 p0, kw_normalize_final k = false ->
  kw_transform_final k = Some (None, Some (Fin p1), option_map Fin p0) -> (0 < p1)%R ->
  postprocess k (map Fin q) = map Fin q' ->
  forall i j x y, nth_error q i = Some x -> nth_error q j = Some y ->
    exists x' y', nth_error q' i = Some x' /\ nth_error q' j = Some y' /\ ((x < y)%R <-> (x' < y')%R).
Proof. exact transform_rank. Qed.
Print Assumptions C34_transform_ranking.

Example C34_nonvacuous : has_spread [3; 1; 3]%R /\
  postprocess (KW false false false false None false (Some (Some (Fin 2), Some (Fin 1), None))) [Fin 3; Fin 1] = [Fin 21; Fin 3].
Proof.
  split; [exists 3%R, 1%R; cbn; repeat split; [left; reflexivity|right; left; reflexivity|lra]|].
  change [Fin 3; Fin 1] with (map Fin [3; 1]%R).
  rewrite (transform_spec _ _ (Some 2%R) (Some 1%R) None) by reflexivity. cbn. repeat f_equal; lra.
Qed.

(** C35. *)
Theorem C35_stack_columns : forall T (a : arr3 T), n0 (stack1 a) = dE a /\ n1 (stack1 a) = dS a * dR a /\
  forall e k, e < n0 (stack1 a) -> k < n1 (stack1 a) ->
    k mod dS a < dS a /\ k / dS a < dR a /\ at2 (stack1 a) e k = at3 a e (k mod dS a) (k / dS a).
Proof. exact stack1_at. Qed.
Print Assumptions C35_stack_columns.
Theorem C35_stack_columns_once : forall T (a : arr3 T) e s r, inside a e s r ->
  exists! k, k < n1 (stack1 a) /\ k mod dS a = s /\ k / dS a = r.
Proof. exact stack1_once. Qed.
Print Assumptions C35_stack_columns_once.
Theorem C35_stack_rows : forall T (a : arr3 T), n1 (stack0 a) = dS a /\ n0 (stack0 a) = dE a * dR a /\
  forall k s, k < n0 (stack0 a) -> s < n1 (stack0 a) ->
    k mod dE a < dE a /\ k / dE a < dR a /\ at2 (stack0 a) k s = at3 a (k mod dE a) s (k / dE a).
Proof. exact stack0_at. Qed.
Print Assumptions C35_stack_rows.
Theorem C35_stack_rows_once : forall T (a : arr3 T) e s r, inside a e s r ->
  exists! k, k < n0 (stack0 a) /\ k mod dE a = e /\ k / dE a = r.
Proof. exact stack0_once. Qed.
Print Assumptions C35_stack_rows_once.

Example C35_nonvacuous : let a := Arr3 2 3 2 (fun e s r => (e, s, r)) in
  inside a 1 2 1 /\ at2 (stack1 a) 1 5 = (1, 2, 1) /\ at2 (stack0 a) 3 2 = (1, 2, 1).
Proof. cbv zeta. split; [unfold inside; cbn; lia|split; reflexivity]. Qed.

(** C67: a subject all of whose votes lie strictly within two standard
    deviations of the mean of their video is never an outlier ... *)
Theorem C67_central_kept : forall a s,
  (forall e r x, inside a e s r -> at3 a e s r = Fin x ->
     (Rabs (x - Rmean (video_votes a e)) < 2 * sqrt (pvar (video_votes a e)))%R) -> s < dS a -> ~ outlier_subject a s.
Proof. exact central_kept. Qed.
Print Assumptions C67_central_kept.

(** ... but a vote for a video on which all agree counts as an outlier to both
    sides ... *)
Theorem C67_unanimous_counted : forall a e s r x, inside a e s r -> at3 a e s r = Fin x -> ~ has_spread (video_votes a e) ->
  high_vote a s e r /\ low_vote a s e r.
Proof. exact unanimous_counted. Qed.
Print Assumptions C67_unanimous_counted.

(** ... so that subjects A and B, who agree with everybody who rated the first
    video, are both rejected and the video is left without a score. *)
Theorem C67_agreement_refuted : exists m st1 st2, run_modeling SR_MOS (w_reader wu_ds) no_options = Ok m /\
  mr_rej m = Some ([true; true; false; false], st1, st2) /\ nth_error (mr_quality m) 0 = Some NaN.
Proof. exact wu_result. Qed.
Print Assumptions C67_agreement_refuted.

Example C67_nonvacuous : ~ has_spread (video_votes (w_arr wu_ds) 0) /\ video_votes (w_arr wu_ds) 0 = [3; 3]%R.
Proof. split; [|reflexivity]. intros (x & y & Hx & Hy & N). cbn in Hx, Hy. destruct Hx as [<-|[<-|[]]], Hy as [<-|[<-|[]]]; apply N; reflexivity. Qed.
