(** Theorems for claim C128: comparing models by the likelihood they report. *)
From Coq Require Import String.
From Coq Require Import List ZArith Bool Arith Reals Lra Lia.
From Verif Require Import PyBase Num ExtReal NumPy Dataset Preproc Mos AP SpecMos SpecAp SpecMosReport SpecUnit MosWitness UnitProofs.
Import ListNotations.
Local Open Scope R_scope.

(** C128: if no video has votes that are all the same, another unit of the scale
    adds one number to the criteria of both models ... *)
Theorem C128_shift_partial : forall c (rd rd' : reader ef) a a' m m' k d, compared c -> rd_arr rd = Ok a -> rd_arr rd' = Ok a' -> finite_votes a -> some_vote a ->
  0 < k -> transformed (affine k d) a a' -> run_modeling c rd no_options = Ok m -> run_modeling c rd' no_options = Ok m' -> all_spread (mr_raw m) ->
  exists L A B, mr_ll m = Fin L /\ mr_ll m' = Fin (L - ln k) /\ mr_aic m = Fin A /\ mr_aic m' = Fin (A + 2 * ln k) /\
    mr_bic m = Fin B /\ mr_bic m' = Fin (B + 2 * ln k).
Proof. exact unit_shift. Qed.
Print Assumptions C128_shift_partial.

(** ... and so leaves their order as it is. *)
Theorem C128_order_partial : forall (rd rd' : reader ef) a a' k d m b m' b', rd_arr rd = Ok a -> rd_arr rd' = Ok a' -> finite_votes a -> some_vote a ->
  0 < k -> transformed (affine k d) a a' ->
  run_modeling MOS rd no_options = Ok m -> run_modeling BR_MOS rd no_options = Ok b ->
  run_modeling MOS rd' no_options = Ok m' -> run_modeling BR_MOS rd' no_options = Ok b' ->
  all_spread (mr_raw m) -> all_spread (mr_raw b) ->
  ef_ltb (mr_aic m') (mr_aic b') = ef_ltb (mr_aic m) (mr_aic b) /\ ef_ltb (mr_bic m') (mr_bic b') = ef_ltb (mr_bic m) (mr_bic b).
Proof. exact unit_order. Qed.
Print Assumptions C128_order_partial.

(** The likelihood in closed form. *)
Theorem C128_closed_partial : forall c (rd : reader ef) k a0 m, rd_arr rd = Ok a0 -> finite_votes a0 -> (forall rs, ds_ref_score (rd_ds rd) = Some (Some rs) -> finnan rs) ->
  kw_normalize_final k = false -> kw_transform_final k = None -> run_modeling c rd k = Ok m -> some_vote (mr_raw m) -> all_spread (mr_raw m) ->
  mr_ll m = Fin (Rsum (map (fun e => closed_ll (INR (length (video_votes (mr_raw m) e))) (sstd (video_votes (mr_raw m) e)))
    (filter (fun e => negb (Nat.eqb (length (video_votes (mr_raw m) e)) 0)) (seq 0 (dE (mr_raw m))))) / total_votes (mr_raw m)).
Proof. exact closed_form. Qed.
Print Assumptions C128_closed_partial.

(** A video whose votes are all the same is left out of the likelihood, but not
    of the number of votes: on a scale from 1 to 5 the criterion prefers one
    model, on a scale from 0 to 1 the other. *)
Theorem C128_unit_refuted : exists (ds ds' : dataset ef string) rd rd' a a' m b m' b',
  raw_reader ds = Ok rd /\ raw_reader ds' = Ok rd' /\ rd_arr rd = Ok a /\ rd_arr rd' = Ok a' /\ complete_votes a /\ transformed (affine (1/4) (- (1/4))) a a' /\
  run_modeling MOS rd no_options = Ok m /\ run_modeling BR_MOS rd no_options = Ok b /\
  run_modeling MOS rd' no_options = Ok m' /\ run_modeling BR_MOS rd' no_options = Ok b' /\
  ef_ltb (mr_aic m) (mr_aic b) = true /\ ef_ltb (mr_aic b') (mr_aic m') = true.
Proof. exact unit_refuted. Qed.
Print Assumptions C128_unit_refuted.

Example C128_nonvacuous : rd_arr (w_reader wc_ds) = Ok (w_arr wc_ds) /\ finite_votes (w_arr wc_ds) /\ some_vote (w_arr wc_ds) /\
  exists m b m' b', run_modeling MOS (w_reader wc_ds) no_options = Ok m /\ run_modeling BR_MOS (w_reader wc_ds) no_options = Ok b /\
    all_spread (mr_raw m) /\ all_spread (mr_raw b) /\
    let rd' := StepsProofs.with_array (w_reader wc_ds) (map3 (fun _ _ _ => affine (1/4) (-(1/4))) (w_arr wc_ds)) in
    run_modeling MOS rd' no_options = Ok m' /\ run_modeling BR_MOS rd' no_options = Ok b'.
Proof. exact unit_example. Qed.
