(** Running models on a dataset file and collecting the results:
    sureal/routine.py:32-105 (without plotting), 754-840 (without plotting) and
    983-1067.  Files, models and random draws are arguments. *)
From Coq Require Import String.
From Coq Require Import List ZArith Bool Arith.
From Verif Require Import PyBase Num NumPy Dataset Preproc Mocked Mos Perf.
Import ListNotations.
Local Open Scope list_scope.

(** [s.endswith(suffix)] (sureal/routine.py:83,85). *)
Definition ends_with (suffix s : string) : bool :=
  let n := String.length s in
  let k := String.length suffix in
  Nat.leb k n && String.eqb (String.substring (n - k) k s) suffix.

(** The entry 'reconstruction_stats' (sureal/routine.py:41-45). *)
Record recon (T : Type) := Recon { rs_rmse : T; rs_cc : T; rs_srocc : T }.
Arguments Recon {T} _ _ _. Arguments rs_rmse {T} _. Arguments rs_cc {T} _. Arguments rs_srocc {T} _.

Section Runs.
  Context {T : Type} {N : Num T}.
  Local Open Scope num_scope.
  (** Not called: the metrics are evaluated without mapping (routine.py:38-40). *)
  Variable lstsq : list (T * T) -> list T -> res (T * T).

  (** sureal/routine.py:34-45 _get_reconstruction_stats *)
  Definition reconstruction_stats (raw rec : arr3 T) : res (recon T) :=
    do _ <- assert_ (Nat.eqb (dE raw) (dE rec) && Nat.eqb (dS raw) (dS rec) && Nat.eqb (dR raw) (dR rec));
    do rm <- reconstruction_stat lstsq RMSE (flat3 raw) (flat3 rec);
    do cc <- reconstruction_stat lstsq PCC (flat3 raw) (flat3 rec);
    do sr <- reconstruction_stat lstsq SRCC (flat3 raw) (flat3 rec);
    Ok (Recon rm cc sr).

  (** A result dictionary as run_subjective_models extends it: the model's own
      entries, dis_video_names and maybe reconstruction_stats
      (sureal/routine.py:99-105). *)
  Record run_result (M : Type) := RunResult { rr_result : M; rr_names : list string; rr_stats : option (recon T) }.
  Arguments RunResult {M} _ _ _. Arguments rr_result {M} _. Arguments rr_names {M} _. Arguments rr_stats {M} _.

  Section Run.
    Context {D M : Type}.
    (** import_python_file and import_json_file (sureal/tools/misc.py:109-149). *)
    Variables import_py import_json : string -> res D.
    (** The entries 'raw_scores' and 'reconstructions' of a result, if present. *)
    Variables raw_of rec_of : M -> option (arr3 T).

    (** sureal/routine.py:83-88, 1032-1037 *)
    Definition load (path : string) : res D :=
      if ends_with ".py" path then import_py path
      else if ends_with ".json" path then import_json path
      else Err AssertionError.

    (** sureal/routine.py:99-105, one result. *)
    Definition extend (rd : reader T) (r : M) : res (run_result M) :=
      do st <- match raw_of r, rec_of r with
               | Some raw, Some rec => do s <- reconstruction_stats raw rec; Ok (Some s)
               | _, _ => Ok None
               end;
      Ok (RunResult r (map dv_path (rd_dvs rd)) st).

    (** sureal/routine.py:32-105 without plots; [reader_of] is the constructor of
        dataset_reader_class, a model is its class with the keyword arguments.
        All models run before the first result is extended. *)
    Definition run_subjective_models (path : string) (reader_of : D -> res (reader T)) (models : list (reader T -> res M)) : res (D * list (run_result M)) :=
      do ds <- load path;
      do rd <- reader_of ds;
      do rs <- mapM (fun m => m rd) models;
      do out <- mapM (extend rd) rs;
      Ok (ds, out).
  End Run.

  (** [int(num_subj * subj_fraction)] (sureal/routine.py:1040) for a product
      between 0 and [n]: the number of positive integers up to it. *)
  Definition frac_count (n : nat) (fraction : T) : nat :=
    length (filter (fun k => nofnat (S k) <=? nofnat n * fraction) (seq 0 n)).

  (** The reader of sureal/routine.py:1046-1055 with selected_subjects: the array is
      that of SelectSubjectRawDatasetReader, the videos are the dataset's. *)
  Definition select_reader (sel : list Z) (ds : dataset T string) : res (reader T) :=
    do _ <- assert_dataset_raw (ds_refs ds) (ds_dis ds);
    do n <- get_num_observers (ds_dis ds);
    do _ <- forM_ (fun z => assert_ (in_range n z)) sel;
    Ok (Reader ds (ds_dis ds) (select_subject_3darray ds (Some sel))).

  Section Sample.
    Context {M : Type}.
    Variables import_py import_json : string -> res (dataset T string).
    Variables raw_of rec_of : M -> option (arr3 T).
    (** np.random.choice(list(range(n)), size=k, replace=False) after the optional
        seeding (sureal/routine.py:1041-1043), in the round [i] of the loop. *)
    Variable choice : nat -> nat -> nat -> list nat.

    (** sureal/routine.py:1016-1056, one dataset; [models] already holds
        normalize_final=False. *)
    Definition sample_one (models : list (reader T -> res M)) (fraction : option T) (ip : nat * string) : res (list (run_result M)) :=
      let '(i, path) := ip in
      match fraction with
      | None =>
          do o <- run_subjective_models import_py import_json raw_of rec_of path raw_reader models;
          Ok (snd o)
      | Some f =>
          do _ <- assert_ ((nzero <? f) && (f <=? none_));
          do ds <- load import_py import_json path;
          do rd <- raw_reader ds;
          do n <- get_num_observers (rd_dvs rd);
          let sel := map Z.of_nat (choice i n (frac_count n f)) in
          do o <- run_subjective_models import_py import_json raw_of rec_of path (select_reader sel) models;
          Ok (snd o)
      end.

    (** sureal/routine.py:983-1067 get_sample_stats without plots. *)
    Definition get_sample_stats (paths : list string) (models : list (reader T -> res M)) (fraction : option T) : res (list (list (run_result M))) :=
      mapM (sample_one models fraction) (enumerate paths).
  End Sample.

  (** A column with its margins, both as they stand in a result dictionary; the
      outer options say whether the keys are there. *)
  Record estimates := Est { es_value : option (list T); es_ci : option (list (list T)) }.
  (** The entries of a result that validate_with_synthetic_dataset reads
      (sureal/routine.py:826-838). *)
  Record vresult := VRes { v_quality : estimates; v_bias : estimates; v_incons : estimates }.
  (** The entries of synthetic_result (dictionary keys may be absent). *)
  Record synthetic := Syn { sy_quality : option (list T); sy_bias : option (list T); sy_incons : option (list T) }.
  (** The three percentages added to a result (None: not added). *)
  Record percents := Perc { pc_quality : option T; pc_bias : option T; pc_incons : option T }.

  (** One of the three blocks of sureal/routine.py:826-838: the new value of the
      percentage entry [old] of the dictionary written to. *)
  Definition coverage (syn : option (list T)) (e : estimates) (old : option T) : res (option T) :=
    match es_value e, syn, es_ci e with
    | Some ys, Some xs, Some ci => do p <- get_ci_percentage xs ys ci; Ok (Some p)
    | _, _, _ => Ok old
    end.

  (** ret['results'] (sureal/routine.py:813-815): a dictionary by TYPE; an entry
      holds a result and the percentages written into it so far. *)
  Definition vdict := list (string * (vresult * percents)).

  (** sureal/routine.py:813-815 *)
  Definition collect (rs : list (string * vresult)) : vdict :=
    fold_left (fun d r => dset String.eqb d (fst r) (snd r, Perc None None None)) rs [].

  (** sureal/routine.py:822-838, one round: percentages of this result, written
      into the entry of its TYPE. *)
  Definition validate_one (syn : synthetic) (d : vdict) (r : string * vresult) : res vdict :=
    match dget String.eqb d (fst r) with
    | None => Err KeyError
    | Some (own, p) =>
        do q <- coverage (sy_quality syn) (v_quality (snd r)) (pc_quality p);
        do b <- coverage (sy_bias syn) (v_bias (snd r)) (pc_bias p);
        do i <- coverage (sy_incons syn) (v_incons (snd r)) (pc_incons p);
        Ok (dset String.eqb d (fst r) (own, Perc q b i))
    end.

  (** sureal/routine.py:769-770, 802-805, 813-838: the check of
      missing_probability, the models in order, the dictionary.  Loading and
      simulation are part of the models here. *)
  Definition validate_results (missing_probability : option T) (models : list (string * res vresult)) (syn : synthetic) : res vdict :=
    do _ <- match missing_probability with
            | None => Ok tt
            | Some p => assert_ ((nzero <=? p) && (p <? none_))
            end;
    do rs <- mapM (fun m => do r <- snd m; Ok (fst m, r)) models;
    foldM (validate_one syn) rs (collect rs).
End Runs.
Arguments run_result : clear implicits.
Arguments RunResult {T M} _ _ _. Arguments rr_result {T M} _. Arguments rr_names {T M} _. Arguments rr_stats {T M} _.
Arguments estimates : clear implicits. Arguments vresult : clear implicits. Arguments synthetic : clear implicits.
Arguments percents : clear implicits. Arguments vdict : clear implicits.
