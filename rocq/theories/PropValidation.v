(** Theorems for claim C104. *)
From Coq Require Import String.
From Coq Require Import List ZArith Bool Arith Reals Lra Lia.
From Verif Require Import PyBase Num ExtReal NumPy Dataset Mocked Validation SpecDataset SpecMos SpecMocked SpecValidation
  ValidationProofs ValidationWitness.
Import ListNotations.
Local Open Scope list_scope.

(** C104 with the normal reader and an integer seed: there is one array, fixed
    by the dataset, the parameters, the seed and the missing probability, that
    every model analyses and that the written dataset holds. *)
Theorem C104_seeded : forall (T : Type) (N : Num T) (G : Type) (rg : rng T G) (ds : dataset T string) i z missing, exists a,
  forall A write (models : list (arr3 T -> res A)) g w rs,
    validation_runs rg SyntheticNormal ds i (SeedInt z) missing write models g = Ok (w, rs) ->
    models_see (fun a' => a' = a) models rs /\ file_holds (fun a' => a' = a) write w.
Proof. exact @c104_seeded. Qed.
Print Assumptions C104_seeded.

(** ... and the whole run does not depend on the state of the generator. *)
Theorem C104_reproducible : forall (T : Type) (N : Num T) (G : Type) (rg : rng T G) A (ds : dataset T string) i z missing write
    (models : list (arr3 T -> res A)) g g',
  validation_runs rg SyntheticNormal ds i (SeedInt z) missing write models g =
  validation_runs rg SyntheticNormal ds i (SeedInt z) missing write models g'.
Proof. exact @c104_state. Qed.
Print Assumptions C104_reproducible.

(** With any seed and either reader, with missing votes: there is one synthetic
    array, and models and file have it with some votes removed, each possibly
    other ones. *)
Theorem C104_missing : forall (G : Type) (rg : rng ef G), proper_draws rg ->
  forall A c ds i s p write (models : list (arr3 ef -> res A)) g w rs,
    validation_runs rg c ds i s (Some p) write models g = Ok (w, rs) ->
    exists a0, synthetic_votes c ds i a0 /\ models_see (some_removed a0) models rs /\ file_holds (some_removed a0) write w.
Proof. exact @c104_missing. Qed.
Print Assumptions C104_missing.

(** Without missing votes: models and file each have votes of the synthetic reader. *)
Theorem C104_drawn : forall (G : Type) (rg : rng ef G), proper_draws rg ->
  forall A c ds i s write (models : list (arr3 ef -> res A)) g w rs,
    validation_runs rg c ds i s None write models g = Ok (w, rs) ->
    models_see (synthetic_votes c ds i) models rs /\ file_holds (synthetic_votes c ds i) write w.
Proof. exact @c104_unseeded. Qed.
Print Assumptions C104_drawn.

(** Without noise these are all the same, whatever the seed. *)
Theorem C104_noiseless : forall (G : Type) (rg : rng ef G), proper_draws rg ->
  forall A ds i q ob oi cb ca phi s write (models : list (arr3 ef -> res A)) g w rs,
    raw_dataset_ok ds -> synth_params ds i q ob oi cb ca phi -> contents_numbered ds ->
    (forall x, In x oi -> x = 0%R) -> (forall x, In x ca -> x = 0%R) -> (forall l x, phi = Some l -> In x l -> x = 0%R) ->
    validation_runs rg SyntheticNormal ds i s None write models g = Ok (w, rs) ->
    models_see (exact_votes ds q ob cb) models rs /\ file_holds (exact_votes ds q ob cb) write w.
Proof. exact @c104_noiseless. Qed.
Print Assumptions C104_noiseless.

(** The runs above exist: for all well-formed parameters, seeds numpy takes and
    probabilities in [0, 1), if the models have results. *)
Theorem C104_total : forall (G : Type) (rg : rng ef G), proper_draws rg ->
  forall A c ds i q ob oi cb ca phi s missing write (models : list (arr3 ef -> res A)) g,
    raw_dataset_ok ds -> synth_params ds i q ob oi cb ca phi -> contents_numbered ds -> seed_fits s ->
    (c = SyntheticLogistic -> phi = None) -> (forall p, missing = Some p -> exists x, p = Fin x /\ (0 <= x < 1)%R) ->
    (forall m a, In m models -> exists r, m a = Ok r) ->
    exists w rs, validation_runs rg c ds i s missing write models g = Ok (w, rs).
Proof. exact @c104_total. Qed.
Print Assumptions C104_total.

(** Any other missing probability is refused. *)
Theorem C104_refused : forall (G : Type) (rg : rng ef G) A c ds i s p write (models : list (arr3 ef -> res A)) g,
  ~ (exists x, p = Fin x /\ (0 <= x < 1)%R) -> validation_runs rg c ds i s (Some p) write models g = Err AssertionError.
Proof. exact c104_refused_p. Qed.
Print Assumptions C104_refused.

(** Without a seed every access takes numbers of its own from the generator, all
    before those of the next access; so does the removal of votes. *)
Theorem C104_fresh : forall (T : Type) (N : Num T) c (ds : dataset T string) i g g',
  takes (fun u g => do rd <- synth_reader (tape u) c ds i NoSeed; rd_read rd g) g g'.
Proof. exact @c104_fresh. Qed.
Print Assumptions C104_fresh.
Theorem C104_fresh_missing : forall (T : Type) (N : Num T) (ds : dataset T string) p g g', takes (fun u g => missing_read (tape u) ds p NoSeed g) g g'.
Proof. exact @c104_fresh_missing. Qed.
Print Assumptions C104_fresh_missing.

(** Without an integer seed, and with the logistic reader whatever the seed, two
    runs of the same model in one validation can have different votes, and the
    written dataset others again. *)
Theorem C104_refuted : forall c s, (c = SyntheticLogistic \/ forall z, s <> SeedInt z) ->
  exists (rg : rng ef nat) ds i (m : arr3 ef -> res ef) d x y,
    proper_draws rg /\ raw_dataset_ok ds /\
    validation_runs rg c ds i s None true [m; m] 0 = Ok (Some d, [x; y]) /\ x <> y /\
    forall a z, holds_votes d a -> m a = Ok z -> z <> x /\ z <> y.
Proof. exact vw_refuted. Qed.
Print Assumptions C104_refuted.

Example C104_nonvacuous :
  proper_draws vw_rng /\ raw_dataset_ok vw_ds /\ contents_numbered vw_ds /\
  synth_params vw_ds vw_noisy [3; 4]%R [0; 1; -1]%R [1; 1; 1]%R [1; 2]%R [0; 0]%R None /\ seed_fits (SeedInt 3) /\
  exists d, validation_runs vw_rng SyntheticNormal vw_ds vw_noisy (SeedInt 3) None true [vw_model; vw_model] 0 = Ok (Some d, [Fin 7; Fin 7]).
Proof. exact vw_seeded. Qed.

Example C104_missing_nonvacuous : exists w rs,
  validation_runs vw_rng SyntheticNormal vw_ds vw_noisy NoSeed (Some (Fin (1/4))) true [vw_model; vw_model] 0 = Ok (w, rs) /\ length rs = 2.
Proof. exact vw_missing. Qed.

Example C104_noiseless_nonvacuous : exists w rs,
  validation_runs vw_rng SyntheticNormal vw_ds (vw_in [0; 0; 0]%R [0; 0]%R) NoSeed None true [vw_model; vw_model] 0 = Ok (w, rs) /\ rs = [Fin 4; Fin 4].
Proof. exact vw_noiseless. Qed.

(** Two videos and three subjects, two draws for each vote: an access at position
    5 takes the numbers up to position 17. *)
Example C104_fresh_nonvacuous : forall u, exists a,
  (do rd <- synth_reader (tape u) SyntheticNormal vw_ds vw_noisy NoSeed; rd_read rd 5) = Ok (a, 17).
Proof. exact vw_fresh. Qed.
