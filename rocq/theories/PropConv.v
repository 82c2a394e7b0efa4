(** Theorems for claims C04-C08 and C68. *)
From Coq Require Import String.
From Coq Require Import List ZArith Bool Arith Reals.
From Verif Require Import PyBase Num ExtReal NumPy Dataset Preproc Mos Combine SpecDataset SpecMos SpecConv DatasetProofs ConvProofs CombineProofs.
Import ListNotations.
Local Open Scope list_scope.
Local Open Scope string_scope.

(** ** Datasets used by the examples *)
Definition xv (z : Z) : pyv ef := PNum (Fin (IZR z)).
Definition xl (l : list Z) : pyv ef := PSeq true (map xv l).
Definition xt (l : list Z) : pyv ef := PSeq false (map xv l).
Definition xdv (c a : Z) (p : string) (o : osval ef string) : dvideo ef string := DVideo c a p (Some o) None None [("fps", "25")].
Definition xds (name : string) (dvs : list (dvideo ef string)) : dataset ef string :=
  Dataset [RVideo 4 "ref4" []; RVideo 7 "ref7" [("x", "1")]] dvs (Some name) None [("yuv_fmt", "420p"); ("quality_width", "64"); ("__doc__", "no")].
Definition x_list : dataset ef string := xds "first" [xdv 4 0 "p0" (OSeq true [xv 3; xv 4]); xdv 7 1 "p1" (OSeq true [xv 1; xl [2; 5]])]%Z.
Definition x_dict : dataset ef string :=
  xds "second" [xdv 4 0 "p1" (ODict [("b", xv 1); ("a", xv 2)]); xdv 7 1 "p2" (ODict [("a", xv 5)])]%Z.
Definition x_kw : convkw ef := ConvKw (Some "128") None None (Some [Fin 1; Fin 2]) None (Some [1%Z]).

(** C04: what is produced; [sel] is membership of the ids asked for. *)
Theorem C04_aggregated : forall (T : Type) (ds : dataset T string) dvs scores kw ds', to_aggregated_dataset ds dvs scores kw = Ok ds' ->
  ds_refs ds' = ds_refs ds /\ attributes_kept ds kw ds' /\
  exists full sel, length full = length dvs /\ length scores = length dvs /\
    (forall i dv s, nth_error dvs i = Some dv -> nth_error scores i = Some s ->
       exists dv', nth_error full i = Some dv' /\ same_video dv dv' /\ dv_os dv' = None /\
         (exists g, dv_gt dv' = Some g /\ score_entry s g) /\
         match kw_scores_std kw with None => dv_gtstd dv' = dv_gtstd dv
         | Some st => exists x, nth_error st i = Some x /\ dv_gtstd dv' = Some x end) /\
    ds_dis ds' = filter sel full /\
    forall dv, sel dv = true <->
      (forall ids, kw_content_ids kw = Some ids -> In (dv_cid dv) ids) /\
      (forall ids, kw_asset_ids kw = Some ids -> In (dv_aid dv) ids).
Proof. exact @aggregated_spec. Qed.
Print Assumptions C04_aggregated.

(** C04: it is produced iff the lengths agree. *)
Theorem C04_outcome : forall (T : Type) (ds : dataset T string) dvs scores kw,
  (length scores = length dvs /\ (forall st, kw_scores_std kw = Some st -> length st = length dvs) ->
     exists ds', to_aggregated_dataset ds dvs scores kw = Ok ds') /\
  (length scores <> length dvs \/ (exists st, kw_scores_std kw = Some st /\ length st <> length dvs) ->
     to_aggregated_dataset ds dvs scores kw = Err AssertionError).
Proof. exact @aggregated_outcome. Qed.
Print Assumptions C04_outcome.

Example C04_nonvacuous :
  to_aggregated_dataset x_list (ds_dis x_list) [SNum (Fin 3); SArr [Fin 2; Fin 5]] x_kw =
  Ok (Dataset (ds_refs x_list) [DVideo 7 1 "p1" None (Some (GList [Fin 2; Fin 5])) (Some (Fin 2)) [("fps", "25")]]
        (Some "first") None [("yuv_fmt", "420p"); ("quality_width", "128")]) /\
  to_aggregated_dataset x_list (ds_dis x_list) [SNum (Fin 3)] no_kw = Err AssertionError.
Proof. split; reflexivity. Qed.

(** C05: one entry per vote, block by block. *)
Theorem C05_persubject : forall (T : Type) (N : Num T) (ds : dataset T string) dvs qss kw ds', to_persubject_dataset ds dvs qss kw = Ok ds' ->
  ds_refs ds' = ds_refs ds /\ attributes_kept ds kw ds' /\
  exists blocks, ds_dis ds' = concat blocks /\ length blocks = Nat.min (length dvs) (length qss) /\
    forall i dv qs, nth_error dvs i = Some dv -> nth_error qss i = Some qs ->
      exists bl n vs, nth_error blocks i = Some bl /\ persubject_votes dv qs n vs /\ length vs = n /\
        Forall2 (persubject_entry dv) vs bl.
Proof. exact @persubject_spec. Qed.
Print Assumptions C05_persubject.

Theorem C05_outcome : forall (T : Type) (N : Num T) (ds : dataset T string) dvs qss kw, Forall (Forall scalar) qss ->
  (forall dv, In dv dvs -> exists o, dv_os dv = Some o /\ o <> OOther) ->
  ((forall i dv qs n vs, nth_error dvs i = Some dv -> nth_error qss i = Some qs -> persubject_votes dv qs n vs -> length vs = n) ->
     exists ds', to_persubject_dataset ds dvs qss kw = Ok ds') /\
  ((exists i dv qs n vs, nth_error dvs i = Some dv /\ nth_error qss i = Some qs /\ persubject_votes dv qs n vs /\ length vs <> n) ->
     to_persubject_dataset ds dvs qss kw = Err AssertionError).
Proof. exact @persubject_outcome. Qed.
Print Assumptions C05_outcome.

Example C05_nonvacuous :
  (exists ds', to_persubject_dataset x_dict (ds_dis x_dict) [[SNum (Fin 2); SNum (Fin 1)]; [SNum (Fin 5); SNum NaN]] no_kw = Ok ds' /\
    map (@dv_gt _ _) (ds_dis ds') = [Some (GNum (Fin 2)); Some (GNum (Fin 1)); Some (GNum (Fin 5))] /\
    map (@dv_path _ _) (ds_dis ds') = ["p1"; "p1"; "p2"]) /\
  to_persubject_dataset x_dict (ds_dis x_dict) [[SNum (Fin 2); SNum NaN]; [SNum (Fin 5); SNum NaN]] no_kw = Err AssertionError.
Proof. split; [eexists; repeat split|reflexivity]. Qed.

(** C06: list style. *)
Theorem C06_votes_kept : forall (T : Type) (ds : dataset T string) kw S name, ds_dis ds <> [] -> list_style (ds_dis ds) S ->
  ds_name ds = Some name ->
  exists ds', to_dictionary_style_dataset ds (ds_dis ds) kw = Ok ds' /\
    ds_refs ds' = ds_refs ds /\ attributes_kept ds kw ds' /\ length (ds_dis ds') = length (ds_dis ds) /\
    forall i dv, nth_error (ds_dis ds) i = Some dv ->
      exists dv' b l d, nth_error (ds_dis ds') i = Some dv' /\ same_video dv dv' /\ dv_gt dv' = dv_gt dv /\ dv_gtstd dv' = dv_gtstd dv /\
        dv_os dv = Some (OSeq b l) /\ dv_os dv' = Some (ODict d) /\ named_votes name l d.
Proof. exact @dictionary_style_spec. Qed.
Print Assumptions C06_votes_kept.

(** C06: dict style is returned as is. *)
Theorem C06_dict_unchanged : forall (T : Type) (ds : dataset T string) kw, ds_dis ds <> [] ->
  (forall dv, In dv (ds_dis ds) -> exists d, dv_os dv = Some (ODict d)) ->
  to_dictionary_style_dataset ds (ds_dis ds) kw = Ok ds.
Proof. exact @dictionary_style_same. Qed.
Print Assumptions C06_dict_unchanged.

(** C06: every MOS, standard deviation, interval and fit statistic is the same. *)
Theorem C06_mos_kept : forall ds ds' kw S name rd rd' m m', list_style (ds_dis ds) S -> ds_name ds = Some name ->
  raw_reader ds = Ok rd -> finite_dataset (ds_dis ds) -> votes_wf (ds_dis ds) ->
  to_dictionary_style_dataset ds (ds_dis ds) kw = Ok ds' -> raw_reader ds' = Ok rd' ->
  run_modeling MOS rd no_options = Ok m -> run_modeling MOS rd' no_options = Ok m' ->
  python_dicts (ds_dis ds') /\ same_mos_results m m'.
Proof. exact dictionary_style_mos. Qed.
Print Assumptions C06_mos_kept.

Example C06_nonvacuous : list_style (ds_dis x_list) 2 /\
  exists ds', to_dictionary_style_dataset x_list (ds_dis x_list) no_kw = Ok ds' /\
  map (@dv_os _ _) (ds_dis ds') =
    [Some (ODict [("first_subject0", xv 3); ("first_subject1", xv 4)]);
     Some (ODict [("first_subject0", xv 1); ("first_subject1", xl [2; 5])])]%Z /\
  (exists rd, raw_reader x_list = Ok rd) /\ exists rd, raw_reader ds' = Ok rd.
Proof.
  split; [repeat constructor; do 2 eexists; split; reflexivity|].
  eexists. split; [reflexivity|]. split; [reflexivity|]. split; eexists; reflexivity.
Qed.

(** C68: up to ten observers, the array is the same. *)
Theorem C68_columns_kept : forall (T : Type) (N : Num T) (ds ds' : dataset T string) kw S name a a' nobs,
  ds_dis ds <> [] -> list_style (ds_dis ds) S -> S <= 10 -> ds_name ds = Some name ->
  to_dictionary_style_dataset ds (ds_dis ds) kw = Ok ds' ->
  opinion_score_3darray_with (ds_dis ds) (get_num_observers (ds_dis ds)) = Ok a ->
  opinion_score_3darray_with (ds_dis ds') nobs = Ok a' -> arr3_eq a a'.
Proof. exact dictionary_style_columns. Qed.
Print Assumptions C68_columns_kept.

(** C68 is false with eleven: "subject10" sorts before "subject2". *)
Definition x_eleven : dataset ef string := xds "e" [xdv 4 0 "p0" (OSeq true (map xv [0; 1; 2; 3; 4; 5; 6; 7; 8; 9; 10]%Z))]%Z.
Theorem C68_columns_refuted : exists ds ds' a a',
  to_dictionary_style_dataset ds (ds_dis ds) no_kw = Ok ds' /\
  opinion_score_3darray_with (ds_dis ds) (get_num_observers (ds_dis ds)) = Ok a /\
  opinion_score_3darray_with (ds_dis ds') (get_num_observers (ds_dis ds')) = Ok a' /\
  at3 a 0 2 0 = Fin 2 /\ at3 a' 0 2 0 = Fin 10.
Proof. exists x_eleven. do 3 eexists. split; [vm_compute; reflexivity|]. split; [vm_compute; reflexivity|]. split; vm_compute; repeat split. Qed.
Print Assumptions C68_columns_refuted.

Example C68_nonvacuous : exists ds' a a', list_style (ds_dis x_list) 2 /\
  to_dictionary_style_dataset x_list (ds_dis x_list) no_kw = Ok ds' /\
  opinion_score_3darray_with (ds_dis x_list) (get_num_observers (ds_dis x_list)) = Ok a /\
  opinion_score_3darray_with (ds_dis ds') (get_num_observers (ds_dis ds')) = Ok a' /\ at3 a' 1 1 1 = Fin 5.
Proof.
  do 3 eexists. split; [repeat constructor; do 2 eexists; split; reflexivity|].
  split; [vm_compute; reflexivity|]. split; [vm_compute; reflexivity|]. split; vm_compute; repeat split.
Qed.

(** C07.  Votes are numbers or lists of numbers.  A first video to whose lists
    votes get appended is matched only once. *)
Theorem C07_combined : forall (T : Type) (ds1 ds2 f1 f2 out ds1' : dataset T string) kw,
  no_dup_keys (ds_dis ds1) -> no_dup_keys (ds_dis ds2) ->
  to_dictionary_style_dataset ds1 (ds_dis ds1) no_kw = Ok f1 -> to_dictionary_style_dataset ds2 (ds_dis ds2) no_kw = Ok f2 ->
  list_votes (ds_dis f1) -> list_votes (ds_dis f2) ->
  (forall v1 v2, In (v1, v2) (same_path_pairs (ds_dis f1) (ds_dis f2)) -> appends v1 v2 ->
     filter (fun v => String.eqb (dv_path v1) (dv_path v)) (ds_dis f2) = [v2]) ->
  (forall dv, In dv (ds_dis ds1) -> exists r, In r (ds_refs ds1) /\ rv_cid r = dv_cid dv) ->
  to_combined_overlap_dataset ds1 ds2 kw = Ok (out, ds1') ->
  attributes_kept ds1 kw out /\
  Forall2 (fun p v => combined (fst p) (snd p) v) (same_path_pairs (ds_dis f1) (ds_dis f2)) (ds_dis out) /\
  (forall i j p q v w, nth_error (same_path_pairs (ds_dis f1) (ds_dis f2)) i = Some p -> nth_error (same_path_pairs (ds_dis f1) (ds_dis f2)) j = Some q ->
     nth_error (ds_dis out) i = Some v -> nth_error (ds_dis out) j = Some w ->
     (dv_cid v = dv_cid w <-> dv_cid (fst p) = dv_cid (fst q))) /\
  map rv_cid (ds_refs out) = map Z.of_nat (seq 0 (length (ds_refs out))) /\
  (forall i p v, nth_error (same_path_pairs (ds_dis f1) (ds_dis f2)) i = Some p -> nth_error (ds_dis out) i = Some v ->
     exists r r1, In r (ds_refs out) /\ rv_cid r = dv_cid v /\ find (fun r => Z.eqb (rv_cid r) (dv_cid (fst p))) (ds_refs ds1) = Some r1 /\
       rv_path r = rv_path r1 /\ rv_extra r = rv_extra r1) /\
  (forall r, In r (ds_refs out) -> exists v, In v (ds_dis out) /\ dv_cid v = rv_cid r).
Proof. exact @combined_spec. Qed.
Print Assumptions C07_combined.

(** C07: a result is produced whenever both datasets can be converted. *)
Theorem C07_exists : forall (T : Type) (ds1 ds2 f1 f2 : dataset T string) kw, no_dup_keys (ds_dis ds1) -> no_dup_keys (ds_dis ds2) ->
  to_dictionary_style_dataset ds1 (ds_dis ds1) no_kw = Ok f1 -> to_dictionary_style_dataset ds2 (ds_dis ds2) no_kw = Ok f2 ->
  exists out, to_combined_overlap_dataset ds1 ds2 kw = Ok out.
Proof. exact @combined_total. Qed.
Print Assumptions C07_exists.

Definition x_one (v : pyv ef) : dataset ef string := xds "one" [xdv 7 3 "p1" (ODict [("b", v); ("c", xv 9)])]%Z.
Example C07_nonvacuous : exists out ds1',
  to_combined_overlap_dataset (x_one (xl [4; 5]%Z)) x_dict no_kw = Ok (out, ds1') /\
  ds_dis out = [xdv 0 3 "p1" (ODict [("b", xl [4; 5; 1]); ("c", xv 9); ("a", xv 2)])]%Z /\
  ds_refs out = [RVideo 0 "ref7" [("x", "1")]] /\
  same_path_pairs (ds_dis (x_one (xl [4; 5]%Z))) (ds_dis x_dict) =
    [(xdv 7 3 "p1" (ODict [("b", xl [4; 5]); ("c", xv 9)]), xdv 4 0 "p1" (ODict [("b", xv 1); ("a", xv 2)]))]%Z.
Proof. do 2 eexists. split; [vm_compute; reflexivity|]. repeat split. Qed.

(** C07 is false when votes are tuples: the tuple is nested in a list. *)
Theorem C07_tuple_refuted : exists v1 v2 out ds1' v,
  ds_dis (x_one (xt [4; 5]%Z)) = [v1] /\ In v2 (ds_dis x_dict) /\ dv_path v1 = dv_path v2 /\
  to_combined_overlap_dataset (x_one (xt [4; 5]%Z)) x_dict no_kw = Ok (out, ds1') /\ ds_dis out = [v] /\
  voted_dict v1 "b" [Fin 4; Fin 5] /\ voted_dict v2 "b" [Fin 1] /\ forall xs, ~ voted_dict v "b" xs.
Proof.
  do 2 eexists. do 3 eexists. split; [reflexivity|]. split; [left; reflexivity|]. split; [reflexivity|].
  split; [vm_compute; reflexivity|]. split; [reflexivity|]. split; [|split].
  - eexists. split; [reflexivity|]. left. eexists. split; [left; reflexivity|]. exact (vv_seq false [Fin 4; Fin 5]).
  - eexists. split; [reflexivity|]. left. eexists. split; [left; reflexivity|]. constructor.
  - intros xs (d & E & H). injection E as <-. destruct H as [(v & Hin & Hv)|(Hn & _)].
    + destruct Hin as [E|[E|[E|[]]]]; try discriminate. injection E as <-. inversion Hv as [|b l Hl|]. match goal with H : map PNum ?l = _ |- _ => destruct l as [|x0 l0]; discriminate H end.
    + apply Hn. left. reflexivity.
Qed.
Print Assumptions C07_tuple_refuted.

(** C07 is false when two videos of the second dataset have the path of a video
    with list votes: all appended votes show in both combined videos. *)
Definition x_twice : dataset ef string :=
  xds "second" [xdv 4 0 "p1" (ODict [("b", xv 1)]); xdv 7 1 "p1" (ODict [("b", xv 2)])]%Z.
Theorem C07_duplicate_refuted : exists out ds1' w1 w2,
  to_combined_overlap_dataset (x_one (xl [4; 5]%Z)) x_twice no_kw = Ok (out, ds1') /\ ds_dis out = [w1; w2] /\
  (forall v, In v (ds_dis (x_one (xl [4; 5]%Z))) -> voted_dict v "b" [Fin 4; Fin 5]) /\
  (exists v2, nth_error (ds_dis x_twice) 0 = Some v2 /\ voted_dict v2 "b" [Fin 1]) /\
  voted_dict w1 "b" [Fin 4; Fin 5; Fin 1; Fin 2] /\ voted_dict w2 "b" [Fin 4; Fin 5; Fin 1; Fin 2].
Proof.
  do 4 eexists. split; [vm_compute; reflexivity|]. split; [reflexivity|]. split; [|split; [|split]].
  - intros v [<-|[]]. eexists. split; [reflexivity|]. left. eexists. split; [left; reflexivity|]. exact (vv_seq true [Fin 4; Fin 5]).
  - eexists. split; [reflexivity|]. eexists. split; [reflexivity|]. left. eexists. split; [left; reflexivity|]. constructor.
  - eexists. split; [reflexivity|]. left. eexists. split; [left; reflexivity|]. exact (vv_seq true [Fin 4; Fin 5; Fin 1; Fin 2]).
  - eexists. split; [reflexivity|]. left. eexists. split; [left; reflexivity|]. exact (vv_seq true [Fin 4; Fin 5; Fin 1; Fin 2]).
Qed.
Print Assumptions C07_duplicate_refuted.

(** C08: the first dataset is unchanged exactly when no subject of a matched
    pair has a list of votes in the first and something else in the second. *)
Theorem C08_unchanged_iff : forall (T : Type) (ds1 ds2 f1 f2 out ds1' : dataset T string) kw,
  no_dup_keys (ds_dis ds1) -> no_dup_keys (ds_dis ds2) ->
  to_dictionary_style_dataset ds1 (ds_dis ds1) no_kw = Ok f1 -> to_dictionary_style_dataset ds2 (ds_dis ds2) no_kw = Ok f2 ->
  to_combined_overlap_dataset ds1 ds2 kw = Ok (out, ds1') ->
  (ds1' = ds1 <-> forall v1 v2, In (v1, v2) (same_path_pairs (ds_dis f1) (ds_dis f2)) -> ~ appends v1 v2).
Proof. exact @combined_unchanged_iff. Qed.
Print Assumptions C08_unchanged_iff.

(** C08 is false. *)
Theorem C08_unchanged_refuted : exists ds1 ds2 out ds1', to_combined_overlap_dataset ds1 ds2 no_kw = Ok (out, ds1') /\
  ds1 = x_one (xl [4; 5]%Z) /\ ds1' = x_one (xl [4; 5; 1]%Z) /\ ds1' <> ds1.
Proof.
  exists (x_one (xl [4; 5]%Z)), x_dict. do 2 eexists. split; [vm_compute; reflexivity|]. split; [reflexivity|]. split; [reflexivity|].
  intro H. apply (f_equal (@ds_dis ef string)) in H. discriminate.
Qed.
Print Assumptions C08_unchanged_refuted.

Example C08_nonvacuous : exists out, to_combined_overlap_dataset (x_one (xv 4)) x_dict no_kw = Ok (out, x_one (xv 4)) /\
  no_dup_keys (ds_dis (x_one (xv 4))) /\ no_dup_keys (ds_dis x_dict) /\ length (ds_dis out) = 1.
Proof.
  eexists. split; [vm_compute; reflexivity|]. split; [|split; [|reflexivity]].
  - intros dv d [<-|[]] E. injection E as <-. repeat constructor; cbn; intuition discriminate.
  - intros dv d [<-|[<-|[]]] E; injection E as <-; repeat constructor; cbn; intuition discriminate.
Qed.
