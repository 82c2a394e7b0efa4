(** Theorems for claims C84, C85 and C86: reconstruction statistics, running
    lists of models on datasets and samples of them, coverage percentages. *)
From Coq Require Import String.
From Coq Require Import List ZArith Bool Arith Reals Lra Lia.
From Verif Require Import PyBase Num ExtReal NumPy Dataset Preproc Mos Perf Mocked Runs SpecDataset SpecMos SpecMocked SpecPerf SpecRuns
  ExtRealProofs MosWitness Perf3Proofs RunsProofs Runs2Proofs RunsWitness.
Import ListNotations.
Local Open Scope list_scope.
Local Open Scope R_scope.

(** C84: arrays of different dimensions are refused. *)
Theorem C84_shape : forall lstsq raw rec, ~ same_shape raw rec -> reconstruction_stats lstsq raw rec = Err AssertionError.
Proof. exact c84_shape. Qed.
Print Assumptions C84_shape.
Example C84_shape_ex : forall lstsq, reconstruction_stats lstsq (Arr3 1 2 1 (fun _ _ _ => Fin 1)) (Arr3 2 1 1 (fun _ _ _ => Fin 1)) = Err AssertionError.
Proof. intro. apply C84_shape. intros (A & _). discriminate. Qed.

(** C84: with fewer than two complete pairs there are no statistics. *)
Theorem C84_few : forall lstsq raw rec, same_shape raw rec -> finite_votes raw -> finite_votes rec ->
  (length (complete_pairs (flat3 raw) (flat3 rec)) < 2)%nat -> reconstruction_stats lstsq raw rec = Err ValueError.
Proof. exact c84_stats. Qed.
Print Assumptions C84_few.
Example C84_few_ex : forall lstsq, reconstruction_stats lstsq (Arr3 1 2 1 (fun _ s _ => if Nat.eqb s 0 then Fin 1 else NaN)) (Arr3 1 2 1 (fun _ _ _ => Fin 1)) = Err ValueError.
Proof.
  intro. apply C84_few; [repeat split| | |cbn; lia].
  - intros e s r _. cbn. destruct (Nat.eqb s 0); exact I.
  - intros e s r _. exact I.
Qed.

(** C84: otherwise they are root mean squared distance, linear correlation and
    rank correlation of the complete pairs, the correlations missing if one of the
    sides has no spread. *)
Theorem C84_values : forall lstsq raw rec g p, same_shape raw rec -> finite_votes raw -> finite_votes rec ->
  g = map fst (complete_pairs (flat3 raw) (flat3 rec)) -> p = map snd (complete_pairs (flat3 raw) (flat3 rec)) -> (2 <= length g)%nat ->
  (has_spread g -> has_spread p ->
     reconstruction_stats lstsq raw rec = Ok (Recon (Fin (distance g p)) (Fin (pearson g p)) (Fin (pearson (map (avg_rank g) g) (map (avg_rank p) p))))) /\
  (~ (has_spread g /\ has_spread p) -> reconstruction_stats lstsq raw rec = Ok (Recon (Fin (distance g p)) NaN NaN)).
Proof. exact c84_values. Qed.
Print Assumptions C84_values.
Example C84_values_ex : let raw := Arr3 1 3 1 (fun _ s _ => if Nat.eqb s 1 then NaN else Fin (INR s)) in let rec := Arr3 1 3 1 (fun _ s _ => Fin (INR s / 2)) in
  same_shape raw rec /\ finite_votes raw /\ finite_votes rec /\ (2 <= length (map fst (complete_pairs (flat3 raw) (flat3 rec))))%nat /\
  has_spread (map fst (complete_pairs (flat3 raw) (flat3 rec))) /\ has_spread (map snd (complete_pairs (flat3 raw) (flat3 rec))).
Proof.
  cbv zeta. split; [repeat split|]. split; [intros e s r _; cbn; destruct (Nat.eqb s 1); exact I|]. split; [intros e s r _; exact I|]. split; [cbn; lia|].
  change (complete_pairs _ _) with [(INR 0, INR 0 / 2); (INR 2, INR 2 / 2)]. split.
  - exists (INR 0), (INR 2). cbn. split; [auto|]. split; [auto|lra].
  - exists (INR 0 / 2), (INR 2 / 2). cbn. split; [auto|]. split; [auto|lra].
Qed.

(** C84: perfect reconstruction. *)
Theorem C84_perfect : forall lstsq a, finite_votes a -> has_spread (all_votes a) -> reconstruction_stats lstsq a a = Ok (Recon (Fin 0) (Fin 1) (Fin 1)).
Proof. exact c84_perfect. Qed.
Print Assumptions C84_perfect.
Example C84_perfect_ex : finite_votes (w_arr wc_ds) /\ has_spread (all_votes (w_arr wc_ds)).
Proof. split; [exact (complete_fin _ wc_complete)|]. rewrite wc_votes. exists 1, 3. cbn. split; [auto|]. split; [auto|lra]. Qed.

(** C84 for every MOS class and all options: the distance is the smallest
    possible with one score per video, the linear correlation is positive and its
    square is the share of the variance explained. *)
Theorem C84_mos : forall lstsq c (rd : reader ef) k a0 m g p, rd_arr rd = Ok a0 -> finite_votes a0 -> (forall rs, ds_ref_score (rd_ds rd) = Some (Some rs) -> finnan rs) ->
  run_modeling c rd k = Ok m -> g = all_votes (mr_raw m) -> p = score_of_each (mr_raw m) (fun e => Rmean (video_votes (mr_raw m) e)) ->
  ((length g < 2)%nat -> reconstruction_stats lstsq (mr_raw m) (mr_recon m) = Err ValueError) /\
  ((2 <= length g)%nat -> ~ has_spread p -> reconstruction_stats lstsq (mr_raw m) (mr_recon m) = Ok (Recon (Fin (distance g p)) NaN NaN)) /\
  (has_spread p -> exists rm cc sr, reconstruction_stats lstsq (mr_raw m) (mr_recon m) = Ok (Recon (Fin rm) (Fin cc) (Fin sr)) /\
     rm = distance g p /\ (forall q, rm <= distance g (score_of_each (mr_raw m) q)) /\ 0 < cc <= 1 /\ cc * cc = 1 - rm * rm / pvar g /\ -1 <= sr <= 1).
Proof. exact c84_mos. Qed.
Print Assumptions C84_mos.
Example C84_mos_ex : exists m, rd_arr (w_reader wc_ds) = Ok (w_arr wc_ds) /\ finite_votes (w_arr wc_ds) /\
  (forall rs, ds_ref_score (rd_ds (w_reader wc_ds)) = Some (Some rs) -> finnan rs) /\ run_modeling MOS (w_reader wc_ds) no_options = Ok m /\
  all_votes (mr_raw m) = [1; 3; 2; 3] /\ score_of_each (mr_raw m) (fun e => Rmean (video_votes (mr_raw m) e)) = [2; 2; 5/2; 5/2].
Proof.
  destruct wc_run as (m & H & R). exists m. split; [exact wc_arr|]. split; [exact (complete_fin _ wc_complete)|]. split; [intros rs E; injection E as <-; exact I|].
  split; [exact H|]. rewrite R. split; [exact wc_votes|exact wc_scores].
Qed.

(** C85: what a run returns. *)
Theorem C85_run : forall lstsq D M (ip ij : string -> res D) (raw_of rec_of : M -> option (arr3 ef)) path reader_of models ds out,
  run_subjective_models lstsq ip ij raw_of rec_of path reader_of models = Ok (ds, out) <->
  exists rd rs, loaded ip ij path (Ok ds) /\ reader_of ds = Ok rd /\ runs_in_order models rd (Ok rs) /\ Forall2 (extended lstsq rd raw_of rec_of) rs out.
Proof. exact @c85_run. Qed.
Print Assumptions C85_run.
(** C85: the first exception of importing, reading or modelling ends the run. *)
Theorem C85_raise : forall lstsq D M (ip ij : string -> res D) (raw_of rec_of : M -> option (arr3 ef)) path reader_of models ds rd e,
  (loaded ip ij path (Err e) -> run_subjective_models lstsq ip ij raw_of rec_of path reader_of models = Err e) /\
  (loaded ip ij path (Ok ds) -> reader_of ds = Err e -> run_subjective_models lstsq ip ij raw_of rec_of path reader_of models = Err e) /\
  (loaded ip ij path (Ok ds) -> reader_of ds = Ok rd -> runs_in_order models rd (Err e) -> run_subjective_models lstsq ip ij raw_of rec_of path reader_of models = Err e).
Proof. exact @c85_raise. Qed.
Print Assumptions C85_raise.
Example C85_raise_ex : loaded (fun _ => Ok wc_ds) (fun _ => Ok wc_ds) "d.txt" (Err AssertionError) /\ loaded (fun _ => Ok wc_ds) (fun _ => Err KeyError) "d.json" (Err KeyError) /\
  runs_in_order [(fun _ => Ok 1%nat); (fun _ => Err ZeroDivisionError); (fun _ => Err KeyError)] (w_reader wc_ds) (Err ZeroDivisionError).
Proof.
  split; [|split].
  - apply load_spec. reflexivity.
  - apply load_spec. reflexivity.
  - eapply runs_fail; [reflexivity|]. apply runs_stop. reflexivity.
Qed.

(** C85 for lists of MOS classes: results exactly when each of them keeps two
    votes. *)
Theorem C85_mos_partial : forall lstsq D (ip ij : string -> res D) path ds reader_of (rd : reader ef) a0 k cs ms,
  loaded ip ij path (Ok ds) -> reader_of ds = Ok rd -> rd_arr rd = Ok a0 -> finite_votes a0 -> (forall rs, ds_ref_score (rd_ds rd) = Some (Some rs) -> finnan rs) ->
  Forall2 (fun c m => run_modeling c rd k = Ok m) cs ms ->
  (Forall (fun m => 2 <= length (all_votes (mr_raw m)))%nat ms ->
     exists sts, Forall2 (fun m st => reconstruction_stats lstsq (mr_raw m) (mr_recon m) = Ok st) ms sts /\
     run_subjective_models lstsq ip ij mos_raw mos_rec path reader_of (mos_models k cs) =
       Ok (ds, map (fun p => RunResult (fst p) (map dv_path (rd_dvs rd)) (Some (snd p))) (combine ms sts))) /\
  (~ Forall (fun m => 2 <= length (all_votes (mr_raw m)))%nat ms -> run_subjective_models lstsq ip ij mos_raw mos_rec path reader_of (mos_models k cs) = Err ValueError).
Proof. exact c85_mos. Qed.
Print Assumptions C85_mos_partial.
Example C85_mos_ex : exists m, loaded (fun _ => Ok wc_ds) (fun _ => Err ValueError) "d.py" (Ok wc_ds) /\ raw_reader wc_ds = Ok (w_reader wc_ds) /\ rd_arr (w_reader wc_ds) = Ok (w_arr wc_ds) /\
  Forall2 (fun c m => run_modeling c (w_reader wc_ds) no_options = Ok m) [MOS; MOS] [m; m] /\ Forall (fun m => 2 <= length (all_votes (mr_raw m)))%nat [m; m].
Proof.
  destruct wc_run as (m & H & R). exists m. split; [apply load_spec; reflexivity|]. split; [exact wc_reader|]. split; [exact wc_arr|]. split; [repeat constructor; exact H|].
  repeat constructor; rewrite R, wc_votes; cbn; lia.
Qed.
(** C85 "every dataset the models accept is reported" is false: with a single
    vote the model has a result, the run ends in ValueError. *)
Theorem C85_single_vote_refuted : forall lstsq, exists ds rd m, raw_reader ds = Ok rd /\ run_modeling MOS rd no_options = Ok m /\
  run_subjective_models lstsq (fun _ => Ok ds) (fun _ => Err ValueError) mos_raw mos_rec "d.py" raw_reader (mos_models no_options [MOS]) = Err ValueError.
Proof. intro lstsq. destruct (single_vote lstsq) as (m & H). exists w1_ds, (w_reader w1_ds), m. split; [reflexivity|exact H]. Qed.
Print Assumptions C85_single_vote_refuted.

(** C85: one list of results per dataset, in order. *)
Theorem C85_samples : forall lstsq M (ip ij : string -> res (dataset ef string)) (raw_of rec_of : M -> option (arr3 ef)) choice paths models f out,
  get_sample_stats lstsq ip ij raw_of rec_of choice paths models f = Ok out <->
  length out = length paths /\ forall i path, nth_error paths i = Some path ->
    exists o, nth_error out i = Some o /\ sample_one lstsq ip ij raw_of rec_of choice models f (i, path) = Ok o.
Proof. exact c85_samples. Qed.
Print Assumptions C85_samples.
(** C85: without a fraction that of the plain reader. *)
Theorem C85_whole : forall lstsq M (ip ij : string -> res (dataset ef string)) (raw_of rec_of : M -> option (arr3 ef)) choice models i path o,
  sample_one lstsq ip ij raw_of rec_of choice models None (i, path) = Ok o <->
  exists ds, run_subjective_models lstsq ip ij raw_of rec_of path raw_reader models = Ok (ds, o).
Proof. exact c85_all. Qed.
Print Assumptions C85_whole.
Example C85_samples_ex : forall lstsq, get_sample_stats (M := nat) lstsq (fun _ => Ok wc_ds) (fun _ => Ok w1_ds) (fun _ => None) (fun _ => None) (fun _ _ _ => []) ["d.py"; "e.json"]%string [(fun rd => Ok (length (rd_dvs rd)))] None =
  Ok [[RunResult 2%nat ["v0"; "v1"]%string None]; [RunResult 1%nat ["v0"]%string None]].
Proof. intro. reflexivity. Qed.

(** C85: a fraction outside (0, 1] is refused. *)
Theorem C85_fraction : forall lstsq M (ip ij : string -> res (dataset ef string)) (raw_of rec_of : M -> option (arr3 ef)) choice models f paths, ~ (0 < f <= 1) -> paths <> [] ->
  get_sample_stats lstsq ip ij raw_of rec_of choice paths models (Some (Fin f)) = Err AssertionError.
Proof. exact @c85_fraction. Qed.
Print Assumptions C85_fraction.
Example C85_fraction_ex : forall lstsq, get_sample_stats (M := nat) lstsq (fun _ => Ok wc_ds) (fun _ => Ok wc_ds) (fun _ => None) (fun _ => None) (fun _ _ _ => []) ["d.py"%string] [] (Some (Fin 0)) = Err AssertionError.
Proof. intro. apply C85_fraction; [lra|discriminate]. Qed.

(** C85 for votes with names: the models run on the columns of whole(n f) drawn
    subjects. *)
Theorem C85_sample_named : forall lstsq M (ip ij : string -> res (dataset ef string)) (raw_of rec_of : M -> option (arr3 ef)) choice models f i path ds a k,
  0 < f <= 1 -> loaded ip ij path (Ok ds) -> raw_reader_3darray ds = Ok a -> dict_style (ds_dis ds) ->
  whole (INR (dS a) * f) k -> (forall s, In s (choice i (dS a) k) -> (s < dS a)%nat) ->
  exists a', columns_of a (map Z.of_nat (choice i (dS a) k)) a' /\
    sample_one lstsq ip ij raw_of rec_of choice models (Some (Fin f)) (i, path) =
      (do o <- run_subjective_models lstsq ip ij raw_of rec_of path (fun d => Ok (Reader d (ds_dis d) (Ok a'))) models; Ok (snd o)).
Proof. exact @c85_dict. Qed.
Print Assumptions C85_sample_named.
Example C85_sample_named_ex : exists a, raw_reader_3darray wn_ds = Ok a /\ dict_style (ds_dis wn_ds) /\ dS a = 3%nat /\ whole (INR (dS a) * (1/2)) 1 /\
  (forall s, In s (second 0 (dS a) 1) -> (s < dS a)%nat).
Proof.
  eexists. split; [reflexivity|]. split; [exact wn_dict|]. split; [reflexivity|]. change (dS _) with 3%nat. split; [split; cbn; lra|]. intros s [<-|[]]. cbn. lia.
Qed.

(** C85 for votes in lists: the votes of the drawn subjects with an index below
    the size of the sample; those of the others are lost. *)
Theorem C85_sample_list_partial : forall lstsq (ip ij : string -> res (dataset ef string)) choice M (raw_of rec_of : M -> option (arr3 ef)) models f i path ds S k,
  0 < f <= 1 -> loaded ip ij path (Ok ds) ->
  raw_dataset_ok ds -> list_style (ds_dis ds) S -> votes_wf (ds_dis ds) ->
  whole (INR S * f) k -> length (choice i S k) = k -> (forall s, In s (choice i S k) -> (s < S)%nat) ->
  exists a', dE a' = length (ds_dis ds) /\ dS a' = k /\
    (forall e dv j s, nth_error (ds_dis ds) e = Some dv -> nth_error (choice i S k) j = Some s ->
      ((s < k)%nat -> exists xs, voted_list dv s xs /\ (length xs <= dR a')%nat /\ forall r, (r < dR a')%nat -> at3 a' e j r = nth r xs NaN) /\
      ((k <= s)%nat -> forall r, at3 a' e j r = NaN)) /\
    sample_one lstsq ip ij raw_of rec_of choice models (Some (Fin f)) (i, path) =
      (do o <- run_subjective_models lstsq ip ij raw_of rec_of path (fun d => Ok (Reader d (ds_dis d) (Ok a'))) models; Ok (snd o)).
Proof. exact c85_list. Qed.
Print Assumptions C85_sample_list_partial.
Example C85_sample_list_ex : raw_dataset_ok wc_ds /\ list_style (ds_dis wc_ds) 2 /\ votes_wf (ds_dis wc_ds) /\ whole (INR 2 * (1/2)) 1 /\ length (second 0 2 1) = 1%nat /\
  (forall s, In s (second 0 2 1) -> (s < 2)%nat).
Proof.
  split; [exact wc_ok|]. split; [exact wc_style|]. split; [exact wc_wf|]. split; [split; cbn; lra|]. split; [reflexivity|]. intros s [<-|[]]. cbn. lia.
Qed.
(** Every vote is there and both subjects voted on both videos; drawing the
    second of them yields no vote at all. *)
Theorem C85_sample_list_refuted : forall lstsq, exists ds a choice, raw_reader_3darray ds = Ok a /\ complete_votes a /\ dS a = 2%nat /\ choice 0%nat 2%nat 1%nat = [1%nat] /\
  sample_one lstsq (fun _ => Ok ds) (fun _ => Err ValueError) mos_raw mos_rec choice (mos_models no_options [MOS]) (Some (Fin (1/2))) (0%nat, "d.py"%string) = Err ValueError.
Proof. intro lstsq. exists wc_ds, (w_arr wc_ds), second. split; [reflexivity|]. split; [exact wc_complete|]. split; [reflexivity|]. split; [reflexivity|apply list_sample]. Qed.
Print Assumptions C85_sample_list_refuted.

(** C85: a fraction below one subject never has results of MOS classes. *)
Theorem C85_small_fraction : forall lstsq (ip ij : string -> res (dataset ef string)) choice k cs f i path ds n,
  0 < f <= 1 -> loaded ip ij path (Ok ds) -> get_num_observers (ds_dis ds) = Ok n -> INR n * f < 1 ->
  ((exists a, raw_reader_3darray ds = Ok a /\ dict_style (ds_dis ds)) \/ (raw_dataset_ok ds /\ (exists S, list_style (ds_dis ds) S) /\ votes_wf (ds_dis ds))) ->
  (forall rs, ds_ref_score ds = Some (Some rs) -> finnan rs) -> choice i n 0%nat = [] -> cs <> [] ->
  exists e, sample_one lstsq ip ij mos_raw mos_rec choice (mos_models k cs) (Some (Fin f)) (i, path) = Err e.
Proof. exact c85_small. Qed.
Print Assumptions C85_small_fraction.
Example C85_small_fraction_ex : loaded (fun _ => Ok wc_ds) (fun _ => Err ValueError) "d.py" (Ok wc_ds) /\ get_num_observers (ds_dis wc_ds) = Ok 2%nat /\ INR 2 * (1/3) < 1 /\
  raw_dataset_ok wc_ds /\ list_style (ds_dis wc_ds) 2 /\ votes_wf (ds_dis wc_ds) /\ second 0 2 0 = [].
Proof.
  split; [apply load_spec; reflexivity|]. split; [reflexivity|]. split; [cbn; lra|]. split; [exact wc_ok|]. split; [exact wc_style|]. split; [exact wc_wf|reflexivity].
Qed.

(** C85 "the observers listed are those whose votes are used" is false of
    samples: all observers are listed. *)
Theorem C85_observers_refuted : exists ds sel rd m names, select_reader sel ds = Ok rd /\ run_modeling MOS rd no_options = Ok m /\ mr_observers m = Some names /\
  dS (mr_raw m) = length sel /\ length names <> dS (mr_raw m).
Proof. exact named_sample. Qed.
Print Assumptions C85_observers_refuted.

(** C86: the probability of a missing vote lies in [0, 1). *)
Theorem C86_probability : forall syn p models, ~ probability_ok p -> validate_results (option_map Fin p) models syn = Err AssertionError.
Proof. exact c86_probability. Qed.
Print Assumptions C86_probability.
Example C86_probability_ex : validate_results (Some (Fin 1)) [] (Syn None None None) = Err AssertionError.
Proof. apply (C86_probability _ (Some 1)). cbn. lra. Qed.

(** C86: one entry per type: the result of the last model of the type with the
    percentages of the last one that has them. *)
Theorem C86_entry : forall syn p models d, validate_results (option_map Fin p) models syn = Ok d -> exists rs,
  Forall2 (fun m r => fst m = fst r /\ snd m = Ok (snd r)) models rs /\
  (forall t, In t (map fst d) <-> In t (map fst models)) /\
  (NoDup (map fst models) -> map fst d = map fst models) /\
  forall t i r, last_at rs t i -> nth_error rs i = Some (t, r) -> exists q b c, dget String.eqb d t = Some (r, Perc q b c) /\
    last_percent (sy_quality syn) v_quality rs t q /\ last_percent (sy_bias syn) v_bias rs t b /\ last_percent (sy_incons syn) v_incons rs t c.
Proof. exact c86_entry. Qed.
Print Assumptions C86_entry.

(** C86: there is a result exactly when all percentages that are due exist. *)
Theorem C86_total : forall syn p models rs, probability_ok p -> Forall2 (fun m r => fst m = fst r /\ snd m = Ok (snd r)) models rs ->
  ((exists d, validate_results (option_map Fin p) models syn = Ok d) <->
   forall t r, In (t, r) rs -> fine (sy_quality syn) (v_quality r) /\ fine (sy_bias syn) (v_bias r) /\ fine (sy_incons syn) (v_incons r)).
Proof. exact c86_total. Qed.
Print Assumptions C86_total.

(** C86: the first model that raises ends the validation. *)
Theorem C86_raise : forall syn p models rs t e rest, probability_ok p -> Forall2 (fun m r => fst m = fst r /\ snd m = Ok (snd r)) models rs ->
  validate_results (option_map Fin p) (models ++ (t, Err e) :: rest) syn = Err e.
Proof. exact c86_raise. Qed.
Print Assumptions C86_raise.

Definition v_with : vresult ef := VRes (Est (Some [Fin 1]) (Some [[Fin 1]; [Fin 1]])) (Est None None) (Est None None).
Definition v_without : vresult ef := VRes (Est (Some [Fin 4]) None) (Est None None) (Est None None).
Example C86_ex : (exists d, validate_results (Some (Fin (1/2))) [("A", Ok v_with); ("B", Ok v_without)]%string (Syn (Some [Fin 1]) None None) = Ok d) /\
  validate_results (Some (Fin (1/2))) ([("A"%string, Ok v_with)] ++ ("B"%string, Err KeyError) :: [("C"%string, Ok v_with)]) (Syn (Some [Fin 1]) None None) = Err KeyError.
Proof.
  split.
  - apply (C86_total (Syn (Some [Fin 1]) None None) (Some (1/2)) _ [("A", v_with); ("B", v_without)]%string); [cbn; lra|repeat constructor|].
    intros t r [E|[E|[]]]; injection E as <- <-; (split; [|split]); intros (A & B & C); try (cbn in *; congruence).
    destruct (proj2 (Perf3Proofs.c62_accepts [Fin 1] [Fin 1] [[Fin 1]; [Fin 1]])) as (v & V); [exists [Fin 1], [Fin 1]; repeat split; discriminate|].
    exists v, [Fin 1], [Fin 1], [[Fin 1]; [Fin 1]]. repeat split. exact V.
  - apply (C86_raise _ (Some (1/2)) _ [("A", v_with)]%string); [cbn; lra|repeat constructor].
Qed.

(** C86 "the percentages of an entry are those of its result" is false when two
    models have the same type. *)
Theorem C86_attribution_refuted : exists syn models d r q b c, validate_results None models syn = Ok d /\ dget String.eqb d "A"%string = Some (r, Perc (Some q) b c) /\
  ~ measurable (sy_quality syn) (v_quality r).
Proof.
  set (syn := Syn (Some [Fin 1]) None None : synthetic ef). set (models := [("A", Ok v_with); ("A", Ok v_without)]%string).
  set (rs := [("A", v_with); ("A", v_without)]%string).
  assert (F : Forall2 (fun m r => fst m = fst r /\ snd m = Ok (snd r)) models rs) by repeat constructor.
  destruct (proj2 (Perf3Proofs.c62_accepts [Fin 1] [Fin 1] [[Fin 1]; [Fin 1]])) as (v & V); [exists [Fin 1], [Fin 1]; repeat split; discriminate|].
  exists syn, models, [("A"%string, (v_without, Perc (Some v) None None))], v_without, v, None, None. split; [|split; [reflexivity|]].
  - unfold models, syn, validate_results. cbn [bind mapM snd fst foldM collect fold_left validate_one dget dset String.eqb Ascii.eqb Bool.eqb coverage v_with v_without v_quality v_bias v_incons es_value es_ci sy_quality sy_bias sy_incons pc_quality pc_bias pc_incons].
    rewrite V. reflexivity.
  - intros (_ & _ & H). apply H. reflexivity.
Qed.
Print Assumptions C86_attribution_refuted.
