(** Model of sureal/routine.py:754-805, the set-up of
    validate_with_synthetic_dataset, and of the random draws that
    sureal/dataset_reader.py:650-782 makes on every access of
    opinion_score_3darray. *)
From Coq Require Import String.
From Coq Require Import List ZArith Bool Arith.
From Verif Require Import PyBase Num NumPy Dataset Mocked.
Import ListNotations.
Local Open Scope list_scope.

(** numpy's global generator: a state and what seeding and the three kinds of
    draws used below do to it (np.random.seed at sureal/dataset_reader.py:697,
    777; np.random.normal at 707, 713, 720; np.random.logistic at 746, 752;
    np.random.uniform at 778).  [fresh] is np.random.seed(None): a state made
    from the entropy of the system, which is part of the state here. *)
Record rng (T G : Type) := Rng {
  seeded : Z -> G;
  fresh : G -> G;
  normals : nat -> nat -> G -> (nat -> nat -> T) * G;
  logistics : nat -> nat -> G -> (nat -> nat -> T) * G;
  uniforms : nat -> nat -> nat -> G -> (nat -> nat -> nat -> T) * G }.
Arguments Rng {T G}. Arguments seeded {T G}. Arguments fresh {T G}.
Arguments normals {T G}. Arguments logistics {T G}. Arguments uniforms {T G}.

Section Validation.
  Context {T : Type} {N : Num T} {G : Type} (rg : rng T G).
  Notation ds_t := (dataset T string).
  Local Open Scope num_scope.

  (** The entry 'seed' of input_dict: absent, None or an integer
      (sureal/dataset_reader.py:679-680). *)
  Inductive seed_entry := NoSeed | SeedNone | SeedInt (z : Z).

  (** sureal/dataset_reader.py:696-697, 776-777; numpy takes 0 .. 2^32 - 1. *)
  Definition reseed (s : seed_entry) (g : G) : res G :=
    match s with
    | NoSeed => Ok g
    | SeedNone => Ok (fresh rg g)
    | SeedInt z => if ((0 <=? z) && (z <? 4294967296))%Z then Ok (seeded rg z) else Err ValueError
    end.

  (** A reader: its dataset and what one access of opinion_score_3darray
      returns and does to the generator (sureal/dataset_reader.py:618-647). *)
  Record reader := Reader { rd_ds : ds_t; rd_read : G -> res (arr3 T * G) }.

  (** The two classes of synthetic readers (sureal/dataset_reader.py:650, 728). *)
  Inductive synth_class := SyntheticNormal | SyntheticLogistic.

  (** One access of SyntheticRawDatasetReader.opinion_score_3darray
      (sureal/dataset_reader.py:684-725).  The third draw is made only with
      quality_ambiguity.  The number of observers is len(observer_bias)
      (656-661). *)
  Definition normal_read (ds : ds_t) (i : synth_in T) (s : seed_entry) (g : G) : res (arr3 T * G) :=
    do g0 <- reseed s g;
    let nE := length (ds_dis ds) in
    let nS := match si_obias i with Some l => length l | None => 0 end in
    let '(d1, g1) := normals rg nE nS g0 in
    let '(d2, g2) := normals rg nE nS g1 in
    let '(d3, g3) := match si_qamb i with
                     | Some _ => normals rg nE nS g2
                     | None => (fun _ _ => nzero, g2)
                     end in
    do a <- synthetic_3darray ds i d1 d2 d3;
    Ok (a, g3).

  (** One access of SyntheticLogisticRawDatasetReader.opinion_score_3darray
      (sureal/dataset_reader.py:730-761): the seed is not looked at. *)
  Definition logistic_read (ds : ds_t) (i : synth_in T) (s : seed_entry) (g : G) : res (arr3 T * G) :=
    let nE := length (ds_dis ds) in
    let nS := match si_obias i with Some l => length l | None => 0 end in
    let '(d1, g1) := logistics rg nE nS g in
    let '(d2, g2) := logistics rg nE nS g1 in
    do a <- synthetic_logistic_3darray ds i d1 d2 (fun _ _ => nzero);
    Ok (a, g2).

  (** One access of MissingDataRawDatasetReader.opinion_score_3darray
      (sureal/dataset_reader.py:772-782). *)
  Definition missing_read (ds : ds_t) (p : T) (s : seed_entry) (g : G) : res (arr3 T * G) :=
    do a <- plain_3darray (ds_dis ds);
    do g0 <- reseed s g;
    let '(u, g1) := uniforms rg (dE a) (dS a) (dR a) g0 in
    do a' <- missing_3darray ds (Some p) u;
    Ok (a', g1).

  (** Construction of the synthetic reader (sureal/routine.py:776). *)
  Definition synth_reader (c : synth_class) (ds : ds_t) (i : synth_in T) (s : seed_entry) : res reader :=
    do _ <- synth_assert ds i;
    Ok (Reader ds (match c with
                   | SyntheticNormal => normal_read ds i s
                   | SyntheticLogistic => logistic_read ds i s
                   end)).

  (** MockedRawDatasetReader.to_dataset (sureal/dataset_reader.py:628-647)
      makes one access. *)
  Definition reader_to_dataset (rd : reader) (g : G) : res (ds_t * G) :=
    do ag <- rd_read rd g;
    do ds' <- mocked_to_dataset (rd_ds rd) (ds_dis (rd_ds rd)) (Ok (fst ag));
    Ok (ds', snd ag).

  (** sureal/routine.py:778-782: with a missing probability the synthetic votes
      are put into a dataset, and a reader of that dataset removes votes; its
      input_dict, and so its seed, is that of the synthetic reader. *)
  Definition removing_reader (rd : reader) (missing : option T) (s : seed_entry) (g : G) : res (reader * G) :=
    match missing with
    | None => Ok (rd, g)
    | Some p =>
        do dg <- reader_to_dataset rd g;
        do _ <- assert_dataset_raw (ds_refs (fst dg)) (ds_dis (fst dg));
        Ok (Reader (fst dg) (missing_read (fst dg) p s), snd dg)
    end.

  (** sureal/routine.py:784-786: the dataset written, if a path is given. *)
  Definition written_dataset (rd : reader) (write : bool) (g : G) : res (option ds_t * G) :=
    if write then do dg <- reader_to_dataset rd g; Ok (Some (fst dg), snd dg) else Ok (None, g).

  (** sureal/routine.py:788-805: every model runs on the same reader and reads
      its array once (_get_opinion_score_3darray_with_preprocessing,
      sureal/subjective_model.py:152-156).  A model is what it computes from
      the array; the models themselves draw nothing. *)
  Fixpoint run_models {A} (models : list (arr3 T -> res A)) (rd : reader) (g : G) : res (list A) :=
    match models with
    | [] => Ok []
    | m :: ms =>
        do ag <- rd_read rd g;
        do r <- m (fst ag);
        do rs <- run_models ms rd (snd ag);
        Ok (r :: rs)
    end.

  (** sureal/routine.py:754-805 *)
  Definition validation_runs {A} (c : synth_class) (ds : ds_t) (i : synth_in T) (s : seed_entry)
             (missing : option T) (write : bool) (models : list (arr3 T -> res A)) (g : G)
    : res (option ds_t * list A) :=
    do _ <- assert_ (match missing with None => true | Some p => (nzero <=? p) && (p <? none_) end)%bool;
    do rd <- synth_reader c ds i s;
    do rg1 <- removing_reader rd missing s g;
    do wg <- written_dataset (fst rg1) write (snd rg1);
    do rs <- run_models models (fst rg1) (snd wg);
    Ok (fst wg, rs).
End Validation.
