(** Theorems for claims C01-C03. *)
From Coq Require Import String.
From Coq Require Import List ZArith Bool Arith Sorted Permutation Reals.
From Verif Require Import PyBase Num ExtReal NumPy Dataset SpecDataset DatasetProofs.
Import ListNotations.
Local Open Scope list_scope.
Local Open Scope string_scope.

(** C01, list style, every successful read is faithful. *)
Theorem C01_list_array_faithful : forall (T : Type) (N : Num T) (dvs : list (dvideo T string)) S a,
  dvs <> [] -> list_style dvs S ->
  opinion_score_3darray_with dvs (get_num_observers dvs) = Ok a ->
  dE a = length dvs /\ dS a = S /\ max_repetitions dvs (dR a) /\
  forall e dv s, nth_error dvs e = Some dv -> s < S ->
    exists xs, voted_list dv s xs /\
      forall k, k < dR a -> at3 a e s k = nth k xs nnan.
Proof. exact @array_list_sound. Qed.
Print Assumptions C01_list_array_faithful.

(** C01, list style, every dataset whose votes are numbers or sequences of
    numbers can be read. *)
Theorem C01_list_array_exists : forall (T : Type) (N : Num T) (dvs : list (dvideo T string)) S,
  dvs <> [] -> list_style dvs S -> votes_wf dvs ->
  exists a, opinion_score_3darray_with dvs (get_num_observers dvs) = Ok a.
Proof. exact @array_list_total. Qed.
Print Assumptions C01_list_array_exists.

(** C01, dict style. *)
Theorem C01_dict_array_faithful : forall (T : Type) (N : Num T) (dvs : list (dvideo T string)) names nobs a,
  dvs <> [] -> dict_style dvs -> observer_names dvs names ->
  opinion_score_3darray_with dvs nobs = Ok a ->
  dE a = length dvs /\ dS a = length names /\ max_repetitions dvs (dR a) /\
  forall e dv s name, nth_error dvs e = Some dv -> nth_error names s = Some name ->
    exists xs, voted_dict dv name xs /\
      forall k, k < dR a -> at3 a e s k = nth k xs nnan.
Proof. exact @array_dict_sound. Qed.
Print Assumptions C01_dict_array_faithful.

Theorem C01_dict_array_exists : forall (T : Type) (N : Num T) (dvs : list (dvideo T string)) nobs,
  dvs <> [] -> dict_style dvs -> votes_wf dvs ->
  exists a, opinion_score_3darray_with dvs nobs = Ok a.
Proof. exact @array_dict_total. Qed.
Print Assumptions C01_dict_array_exists.

(** test/resource/test_dataset_os_as_dict_with_repetitions.py, votes only. *)
Definition ex_vote (z : Z) : pyv ef := PNum (Fin (IZR z)).
Definition ex_votes (l : list Z) : pyv ef := PSeq true (map ex_vote l).
Definition ex_dv (c a : Z) (p : string) (o : osval ef string) : dvideo ef string :=
  DVideo c a p (Some o) None None [].
Definition ex_dict_dvs : list (dvideo ef string) :=
  [ ex_dv 0 0 "baz1" (ODict [("Tom", ex_votes [3; 2]); ("Jerry", ex_vote 4); ("Pinokio", ex_vote 1)]);
    ex_dv 0 1 "baz2" (ODict [("Tom", ex_votes [2; 2]); ("Jerry", ex_vote 1); ("Pinokio", ex_votes [3; 3; 1])]);
    ex_dv 1 2 "baz3" (ODict [("Tom", ex_vote 4); ("Jerry", ex_vote 1)]) ]%Z.

Example C01_dict_nonvacuous :
  exists a, opinion_score_3darray_with ex_dict_dvs (Ok 3) = Ok a /\
    dE a = 3 /\ dS a = 3 /\ dR a = 3 /\
    at3 a 0 2 1 = Fin 2 /\ at3 a 1 1 2 = Fin 1 /\ at3 a 2 1 0 = NaN /\ at3 a 0 0 1 = NaN.
Proof. eexists. split; [vm_compute; reflexivity|]. vm_compute. repeat split. Qed.

Definition ex_list_dvs : list (dvideo ef string) :=
  [ ex_dv 0 0 "baz1" (OSeq true [ex_votes [3; 2]; ex_vote 4; ex_vote 1]);
    ex_dv 1 1 "baz2" (OSeq false [ex_vote 2; ex_votes []; PSeq false [ex_vote 5]]) ]%Z.

Example C01_list_nonvacuous :
  ex_list_dvs <> [] /\ list_style ex_list_dvs 3 /\ votes_wf ex_list_dvs /\
  exists a, opinion_score_3darray_with ex_list_dvs (get_num_observers ex_list_dvs) = Ok a /\
    at3 a 0 0 1 = Fin 2 /\ at3 a 1 1 0 = NaN /\ at3 a 1 2 0 = Fin 5.
Proof.
  split; [discriminate|]. split; [|split].
  - repeat constructor; eexists; eexists; split; reflexivity.
  - repeat constructor; try (eexists; apply (vv_num _)).
    + exists [Fin 3; Fin 2]. exact (vv_seq true [Fin 3; Fin 2]).
    + exists []. exact (vv_seq true []).
    + exists [Fin 5]. exact (vv_seq false [Fin 5]).
  - eexists. split; [vm_compute; reflexivity|]. vm_compute. repeat split.
Qed.

(** C02. *)
Theorem C02_observers_canonical : forall (T : Type) (dvs dvs' : list (dvideo T string)),
  dict_style dvs -> reordered dvs dvs' ->
  exists names, get_list_observers dvs = Ok names /\ get_list_observers dvs' = Ok names /\
    observer_names dvs names /\ observer_names dvs' names.
Proof. exact @observers_reordered. Qed.
Print Assumptions C02_observers_canonical.

Theorem C02_columns_canonical :
  forall (T : Type) (N : Num T) (dvs dvs' : list (dvideo T string)) nobs nobs' a a',
  dvs <> [] -> dict_style dvs -> reordered dvs dvs' ->
  opinion_score_3darray_with dvs nobs = Ok a ->
  opinion_score_3darray_with dvs' nobs' = Ok a' ->
  dS a = dS a' /\ dR a = dR a' /\
  forall e e' dv dv', nth_error dvs e = Some dv -> nth_error dvs' e' = Some dv' -> same_votes dv dv' ->
    forall s k, s < dS a -> k < dR a -> at3 a e s k = at3 a' e' s k.
Proof. exact @array_reordered. Qed.
Print Assumptions C02_columns_canonical.

Example C02_nonvacuous :
  dict_style ex_dict_dvs /\ reordered ex_dict_dvs (rev ex_dict_dvs) /\
  get_list_observers ex_dict_dvs = Ok ["Jerry"; "Pinokio"; "Tom"].
Proof.
  split; [|split; [|vm_compute; reflexivity]].
  - repeat constructor; eexists; (split; [reflexivity|]); simpl;
      repeat constructor; simpl; intuition discriminate.
  - exists (rev ex_dict_dvs). split; [apply Permutation_rev|].
    repeat constructor; eexists; eexists; (split; [reflexivity|]; split; reflexivity).
Qed.

(** C03. *)
Theorem C03_validation_exact : forall (T K : Type) (ds : dataset T K),
  (exists r, assert_dataset_raw (ds_refs ds) (ds_dis ds) = Ok r) <-> raw_dataset_ok ds.
Proof. exact @assert_dataset_raw_iff. Qed.
Print Assumptions C03_validation_exact.

Example C03_nonvacuous :
  (exists r, assert_dataset_raw [RVideo 0 "foo" []; RVideo 1 "bar" []]%Z ex_dict_dvs = Ok r) /\
  assert_dataset_raw [RVideo 0 "foo" []; RVideo 2 "bar" []]%Z ex_dict_dvs = Err AssertionError /\
  assert_dataset_raw [] ex_dict_dvs = Err ValueError.
Proof. split; [exists tt|split]; vm_compute; reflexivity. Qed.
