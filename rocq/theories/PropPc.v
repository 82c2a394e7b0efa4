(** Theorems for claims C09-C16. *)
From Coq Require Import String.
From Coq Require Import List ZArith Bool Arith Reals Lra Sorted.
From Verif Require Import PyBase Num ExtReal NumPy Dataset PcDataset SpecDataset SpecMos SpecConv SpecPc Pc2Proofs Pc3Proofs Pc4Proofs Pc5Proofs Pc6Proofs Pc7Proofs PcWitness.
Import ListNotations.
Local Open Scope list_scope.
Local Open Scope string_scope.

(** C09.  The loop bound [fuel] only has to exceed the number of comparisons of
    a pair; 2 suffices here. *)
Theorem C09_winner : forall fuel ds kw o g, pc_source (ds_dis ds) -> finite_single (ds_dis ds) -> plain o -> known_type o ->
  (po_tie o = None \/ po_tie o = Some "even_split"%string) -> 2 <= fuel ->
  exists pc after, to_pc_dataset fuel ds kw o g = Ok (pc, after, 0) /\
    ds_refs pc = ds_refs ds /\ attributes_kept ds kw pc /\ Forall2 pc_video (ds_dis ds) (ds_dis pc) /\
    forall a s b v, outcome pc a s b v <->
      exists va vb x y, In va (ds_dis ds) /\ In vb (ds_dis ds) /\ dv_aid va = a /\ dv_aid vb = b /\ a <> b /\
        (any_content o = true \/ dv_cid va = dv_cid vb) /\ rated va s (Fin x) /\ rated vb s (Fin y) /\
        ((y < x)%R /\ v = Fin 1 \/ x = y /\ v = Fin (1/2)).
Proof. exact c09. Qed.
Print Assumptions C09_winner.

(** The same for arbitrary numbers, NaN included. *)
Theorem C09_winner_any : forall fuel ds kw o g, pc_source (ds_dis ds) -> scored o (ds_dis ds) -> plain o -> known_type o ->
  (po_tie o = None \/ po_tie o = Some "even_split"%string) -> 2 <= fuel ->
  exists pc after, to_pc_dataset fuel ds kw o g = Ok (pc, after, 0) /\
    ds_refs pc = ds_refs ds /\ attributes_kept ds kw pc /\ Forall2 pc_video (ds_dis ds) (ds_dis pc) /\
    forall a s b v, outcome pc a s b v <->
      exists va vb x y, In va (ds_dis ds) /\ In vb (ds_dis ds) /\ dv_aid va = a /\ dv_aid vb = b /\ a <> b /\
        (any_content o = true \/ dv_cid va = dv_cid vb) /\ rated va s x /\ rated vb s y /\ wins_or_ties x y v.
Proof. exact c09_any. Qed.
Print Assumptions C09_winner_any.

(** A missing vote (NaN) is recorded as a tie. *)
Theorem C09_missing_refuted : exists pc after, to_pc_dataset 2 y_missing no_kw y_none (y_stream []) = Ok (pc, after, 0) /\
  vote_of (ydv 0 1 "p1" (OSeq true [PNum NaN])) "0" (PNum NaN) /\ outcome pc 0 "0" 1 (Fin (1/2)) /\ outcome pc 1 "0" 0 (Fin (1/2)).
Proof. exact y_missing_tie. Qed.
Print Assumptions C09_missing_refuted.

Example C09_nonvacuous : pc_source (ds_dis y_main) /\ finite_single (ds_dis y_main) /\ plain y_none /\ known_type y_none /\
  exists after, to_pc_dataset 2 y_main no_kw y_none (y_stream []) =
    Ok (y_pc [("yuv_fmt", "420p")] [(0, 0, "p0", [(("b", 1), 1%R); (("a", 1), (1/2)%R)]); (0, 1, "p1", [(("a", 0), (1/2)%R)]); (1, 2, "p2", [])]%Z, after, 0).
Proof. split; [apply y_main_source|]. split; [apply y_main_wf|]. split; [repeat split|]. split; [left; reflexivity|]. apply y_main_run. Qed.

(** C10: rates up to 1, or no randomness in the comparisons. *)
Theorem C10_coherent : forall fuel ds kw o g pc after n, pc_source (ds_dis ds) -> scored o (ds_dis ds) -> rates_within o 1 \/ deterministic o ->
  to_pc_dataset fuel ds kw o g = Ok (pc, after, n) -> coherent pc.
Proof. exact pc_coherent. Qed.
Print Assumptions C10_coherent.

Theorem C10_refuted : exists ds o g pc after n, pc_source (ds_dis ds) /\ finite_single (ds_dis ds) /\ to_pc_dataset 4 ds no_kw o g = Ok (pc, after, n) /\
  exists a s b, outcome pc a s b (Fin 1) /\ outcome pc b s a (Fin 1).
Proof. exact y_contradiction. Qed.
Print Assumptions C10_refuted.

Example C10_nonvacuous : exists pc after, scored (y_sampled (Fin (1/2)) (Some "coin_toss")) (ds_dis y_tie) /\ rates_within (y_sampled (Fin (1/2)) (Some "coin_toss")) 1 /\
  to_pc_dataset 4 y_tie no_kw (y_sampled (Fin (1/2)) (Some "coin_toss")) (y_stream [0; 9/10; 9/10]%R) = Ok (pc, after, 3) /\ outcome pc 1 "0" 0 (Fin 1).
Proof.
  destruct y_half_run as [after E]. exists (y_pc [("yuv_fmt", "420p")] [(0, 0, "p0", []); (0, 1, "p1", [(("0", 0), 1%R)])]%Z), after. split; [apply finite_scored; [reflexivity|apply y_tie_finite]|].
  split; [repeat split; cbn; [|discriminate|discriminate]; intros r Er; injection Er as <-; exists (1/2)%R; split; [reflexivity|lra]|]. split; [exact E|]. outc ltac:(right; left).
Qed.

(** C11 *)
Theorem C11_zero : forall fuel ds kw o g pc after n x, pc_source (ds_dis ds) -> scored o (ds_dis ds) -> po_rate o = Some (Fin x) -> (x <= 0)%R ->
  to_pc_dataset fuel ds kw o g = Ok (pc, after, n) -> n = 0 /\ forall a s b v, ~ outcome pc a s b v.
Proof. exact c11_zero. Qed.
Print Assumptions C11_zero.

(** Any rates, comparisons without randomness; the two runs may use different
    streams and keywords. *)
Theorem C11_subcollection : forall fuel fuel0 ds kw kw0 o g g0 pc after n pc0 after0 n0, pc_source (ds_dis ds) -> scored o (ds_dis ds) -> deterministic o ->
  to_pc_dataset fuel ds kw o g = Ok (pc, after, n) -> to_pc_dataset fuel0 ds kw0 (unsampled o) g0 = Ok (pc0, after0, n0) ->
  forall a s b v, outcome pc a s b v -> outcome pc0 a s b v.
Proof. exact c11_sub. Qed.
Print Assumptions C11_subcollection.

Theorem C11_integer_rate : forall k fuel ds kw o g pc after n, pc_source (ds_dis ds) -> scored o (ds_dis ds) -> deterministic o ->
  po_rate o = Some (Fin (INR (S k))) -> to_pc_dataset fuel ds kw o g = Ok (pc, after, n) ->
  n = 0 /\ forall fuel0 g0, 2 <= fuel0 -> to_pc_dataset fuel0 ds kw (unsampled o) g0 = Ok (pc, after, 0).
Proof. exact c11_integer. Qed.
Print Assumptions C11_integer_rate.

(** [ps] are the compared pairs. *)
Theorem C11_draws : forall fuel ds kw o g pc after n, pc_source (ds_dis ds) -> scored o (ds_dis ds) ->
  to_pc_dataset fuel ds kw o g = Ok (pc, after, n) ->
  exists ps : list (string * Z * Z), NoDup ps /\
    (forall s a b, In (s, a, b) ps <-> exists va vb, compared (ds_dis ds) (any_content o) s va vb /\ dv_aid va = a /\ dv_aid vb = b) /\
    forall k, rates_within o k -> n <= 5 * k * length ps.
Proof. exact pairs_known. Qed.
Print Assumptions C11_draws.

(** Termination: a loop bound above the rate is never used up. *)
Theorem C11_terminates : forall k fuel ds kw o g, pc_source (ds_dis ds) -> scored o (ds_dis ds) -> valid_options o (length (ds_dis ds)) ->
  rates_within o k -> k < fuel -> exists pc after n, to_pc_dataset fuel ds kw o g = Ok (pc, after, n).
Proof. exact c72_accepted. Qed.
Print Assumptions C11_terminates.

(** With ties broken by coin toss the sampled outcomes need not be a
    sub-collection, even with the same stream. *)
Theorem C11_subcollection_refuted : exists ds o g pc after n pc0 after0 n0 x, pc_source (ds_dis ds) /\ finite_single (ds_dis ds) /\ po_rate o = Some (Fin x) /\ (x <= 1)%R /\
  to_pc_dataset 4 ds no_kw o g = Ok (pc, after, n) /\ to_pc_dataset 4 ds no_kw (unsampled o) g = Ok (pc0, after0, n0) /\
  exists a s b v, outcome pc a s b v /\ ~ outcome pc0 a s b v.
Proof. exact y_not_sub. Qed.
Print Assumptions C11_subcollection_refuted.

(** An infinite sampling rate is accepted and the loop never ends. *)
Theorem C11_terminates_refuted : exists ds o g, pc_source (ds_dis ds) /\ finite_single (ds_dis ds) /\ valid_options o (length (ds_dis ds)) /\
  forall fuel, to_pc_dataset fuel ds no_kw o g = Err Diverges.
Proof. exists y_tie, (y_sampled PInf None), (y_stream []). split; [apply y_tie_source|]. split; [apply y_tie_finite|]. split; [apply check_valid; reflexivity|exact y_infinite]. Qed.
Print Assumptions C11_terminates_refuted.

Example C11_nonvacuous : exists pc after, deterministic (y_sampled (Fin (INR 3)) None) /\ valid_options (y_sampled (Fin (INR 3)) None) (length (ds_dis y_main)) /\
  rates_within (y_sampled (Fin (INR 3)) None) 3 /\ to_pc_dataset 4 y_main no_kw (y_sampled (Fin (INR 3)) None) (y_stream []) = Ok (pc, after, 0) /\ outcome pc 0 "b" 1 (Fin 1).
Proof.
  assert (R : rates_within (y_sampled (Fin (INR 3)) None) 3). { repeat split; cbn [y_sampled po_rate po_rates]; [|discriminate|discriminate]. intros r Er. injection Er as <-. eexists. split; [reflexivity|apply Rle_refl]. }
  assert (D : deterministic (y_sampled (Fin (INR 3)) None)) by (repeat split; left; reflexivity).
  assert (Sc : scored (y_sampled (Fin (INR 3)) None) (ds_dis y_main)) by (apply finite_scored; [reflexivity|apply y_main_wf]).
  assert (C : valid_options (y_sampled (Fin (INR 3)) None) (length (ds_dis y_main))). { apply check_valid. cbn [INR]. run_pc. reflexivity. }
  destruct (c72_accepted 3 4 y_main no_kw _ (y_stream []) y_main_source Sc C R) as (pc & after & n & E); [repeat constructor|].
  destruct (c11_integer 2 4 _ _ _ _ _ _ _ y_main_source Sc D eq_refl E) as [-> K]. exists pc, after. repeat (split; [assumption|]).
  destruct y_main_run as [after' E']. specialize (K 2 (y_stream []) (le_n 2)). change (unsampled (y_sampled (Fin (INR 3)) None)) with y_none in K. rewrite E' in K.
  assert (Ep : y_pc [("yuv_fmt", "420p")] [(0, 0, "p0", [(("b", 1), 1%R); (("a", 1), (1/2)%R)]); (0, 1, "p1", [(("a", 0), (1/2)%R)]); (1, 2, "p2", [])]%Z = pc) by congruence.
  rewrite <- Ep. outc ltac:(left).
Qed.

(** C12: up to ten list-style observers, or dict style. *)
Theorem C12_unchanged : forall T (N : Num T) fuel (ds : dataset T string) kw o g pc after n, pc_source (ds_dis ds) -> votes_wf (ds_dis ds) ->
  (forall S, list_style (ds_dis ds) S -> S <= 10) -> to_pc_dataset fuel ds kw o g = Ok (pc, after, n) ->
  exists a a', opinion_score_3darray_with (ds_dis ds) (get_num_observers (ds_dis ds)) = Ok a /\
    opinion_score_3darray_with (ds_dis after) (get_num_observers (ds_dis after)) = Ok a' /\ arr3_eq a a'.
Proof. exact c12_read. Qed.
Print Assumptions C12_unchanged.

(** A dict-style dataset is not touched at all; of a list-style one, any number
    of observers, vote i becomes the vote of subject str(i) and nothing else
    changes. *)
Theorem C12_dict_untouched : forall T (N : Num T) fuel (ds : dataset T string) kw o g pc after n, pc_source (ds_dis ds) -> dict_style (ds_dis ds) ->
  to_pc_dataset fuel ds kw o g = Ok (pc, after, n) -> after = ds.
Proof. exact c12_dict. Qed.
Print Assumptions C12_dict_untouched.
Theorem C12_list_votes_kept : forall T (N : Num T) fuel (ds : dataset T string) kw o g pc after n S, pc_source (ds_dis ds) -> list_style (ds_dis ds) S ->
  to_pc_dataset fuel ds kw o g = Ok (pc, after, n) ->
  ds_refs after = ds_refs ds /\ ds_name after = ds_name ds /\ ds_ref_score after = ds_ref_score ds /\ ds_attrs after = ds_attrs ds /\
  Forall2 (fun dv dv' => exists b l d, dv_os dv = Some (OSeq b l) /\ dv' = with_os dv (ODict d) /\ map snd d = l /\ map fst d = map str_of_nat (seq 0 S))
    (ds_dis ds) (ds_dis after).
Proof. exact c12_list. Qed.
Print Assumptions C12_list_votes_kept.

Theorem C12_refuted : exists pc after, to_pc_dataset 2 y_eleven no_kw y_none (y_stream []) = Ok (pc, after, 0) /\
  exists a a', opinion_score_3darray_with (ds_dis y_eleven) (get_num_observers (ds_dis y_eleven)) = Ok a /\
    opinion_score_3darray_with (ds_dis after) (get_num_observers (ds_dis after)) = Ok a' /\ at3 a 0 2 0 = Fin 2 /\ at3 a' 0 2 0 = Fin 10.
Proof. exact y_eleven_run. Qed.
Print Assumptions C12_refuted.

Example C12_nonvacuous : list_style (ds_dis y_tie) 2 /\ votes_wf (ds_dis y_tie) /\
  exists pc after, to_pc_dataset 4 y_tie no_kw (y_rates [Fin 0; Fin 2]) (y_stream []) = Ok (pc, after, 0).
Proof.
  split; [apply y_tie_style|]. split; [repeat constructor; eexists; constructor|]. destruct y_tie_rates_run as [after E]. do 2 eexists. exact E.
Qed.

(** C13: the options used are those at the ranks of the videos among the ones
    rated by the subject ... *)
Theorem C13_by_rank : forall fuel ds kw o g pc after n, pc_source (ds_dis ds) -> scored o (ds_dis ds) -> to_pc_dataset fuel ds kw o g = Ok (pc, after, n) ->
  (forall s va vb i j, compared (ds_dis ds) (any_content o) s va vb -> rank (ds_dis ds) s va i -> rank (ds_dis ds) s vb j ->
     exists q, deciding_at o s va vb i j q /\ decided pc g q s (dv_aid va) (dv_aid vb)) /\
  (forall a s b v, outcome pc a s b v -> exists va vb, compared (ds_dis ds) (any_content o) s va vb /\
     (a = dv_aid va /\ b = dv_aid vb \/ a = dv_aid vb /\ b = dv_aid va)).
Proof. exact pc_general. Qed.
Print Assumptions C13_by_rank.

(** ... which are the entries of the two videos when nobody skipped a video and
    the asset ids increase. *)
Theorem C13_by_position : forall fuel ds kw o g pc after n, pc_source (ds_dis ds) -> scored o (ds_dis ds) -> everyone_rated_all (ds_dis ds) -> increasing_ids (ds_dis ds) ->
  to_pc_dataset fuel ds kw o g = Ok (pc, after, n) ->
  forall s i j va vb, nth_error (ds_dis ds) i = Some va -> nth_error (ds_dis ds) j = Some vb -> compared (ds_dis ds) (any_content o) s va vb ->
    exists q, deciding_at o s va vb i j q /\ decided pc g q s (dv_aid va) (dv_aid vb).
Proof. exact c13. Qed.
Print Assumptions C13_by_position.

Theorem C13_refuted : exists ds o g pc after n, pc_source (ds_dis ds) /\ finite_single (ds_dis ds) /\ increasing_ids (ds_dis ds) /\ to_pc_dataset 4 ds no_kw o g = Ok (pc, after, n) /\
  exists s i j va vb, nth_error (ds_dis ds) i = Some va /\ nth_error (ds_dis ds) j = Some vb /\ compared (ds_dis ds) (any_content o) s va vb /\
    (exists q, deciding_at o s va vb i j q) /\ forall q, deciding_at o s va vb i j q -> ~ decided pc g q s (dv_aid va) (dv_aid vb).
Proof. exact y_wrong_rate. Qed.
Print Assumptions C13_refuted.

Example C13_nonvacuous : everyone_rated_all (ds_dis y_tie) /\ increasing_ids (ds_dis y_tie) /\
  exists pc after, to_pc_dataset 4 y_tie no_kw (y_rates [Fin 0; Fin 2]) (y_stream []) = Ok (pc, after, 0) /\ outcome pc 0 "0" 1 (Fin (1/2)).
Proof.
  split; [apply y_tie_complete|]. split; [apply y_tie_complete|]. destruct y_tie_rates_run as [after E].
  exists (y_pc [("yuv_fmt", "420p")] [(0, 0, "p0", [(("0", 1), (1/2)%R)]); (0, 1, "p1", [(("0", 0), (1/2)%R); (("1", 0), 1%R)])]%Z), after. split; [exact E|]. outc ltac:(left).
Qed.

(** C14 *)
Theorem C14_antisymmetric : forall (ds : dataset ef (string * Z)) a, pc_reader_3darray ds = Ok a ->
  dE a = length (ds_dis ds) /\ dS a = length (ds_dis ds) /\ (exists names, pc_observers (ds_dis ds) names /\ dR a = length names) /\
  (forall i j s, at3 a i j s = NaN \/ exists x, at3 a i j s = Fin x /\ pc_val x) /\
  (forall i j s x, i <> j -> at3 a i j s = Fin x -> at3 a j i s = Fin (1 - x)).
Proof. exact c14. Qed.
Print Assumptions C14_antisymmetric.

Theorem C14_counts : forall (ds : dataset ef (string * Z)) a i j, pc_reader_3darray ds = Ok a -> i <> j ->
  exists p q L, np_nansum (map (at3 a i j) (seq 0 (dR a))) = Fin p /\ np_nansum (map (at3 a j i) (seq 0 (dR a))) = Fin q /\
    NoDup L /\ (forall s, In s L <-> s < dR a /\ at3 a i j s <> NaN) /\ (p + q = INR (length L))%R.
Proof. exact c14_count. Qed.
Print Assumptions C14_counts.

Example C14_nonvacuous : exists a, pc_reader_3darray y_straight = Ok a /\ dR a = 2 /\ at3 a 0 1 0 = Fin 1 /\ at3 a 1 0 0 = Fin 0 /\ at3 a 1 0 1 = Fin (1/2) /\ at3 a 0 0 0 = NaN.
Proof. exact y_straight_run. Qed.

(** C15: when asset ids are positions and the entries are consistent. *)
Theorem C15_addresses : forall (ds : dataset ef (string * Z)) a, pc_reader_3darray ds = Ok a -> ids_are_positions (ds_dis ds) -> consistent ds ->
  exists names, pc_observers (ds_dis ds) names /\ dE a = length (ds_dis ds) /\ dS a = length (ds_dis ds) /\ dR a = length names /\
    forall i j k name, i < length (ds_dis ds) -> j < length (ds_dis ds) -> nth_error names k = Some name ->
      (at3 a i j k = NaN \/ exists x, at3 a i j k = Fin x) /\
      forall x, at3 a i j k = Fin x <-> outcome ds (Z.of_nat i) name (Z.of_nat j) (Fin x) \/ outcome ds (Z.of_nat j) name (Z.of_nat i) (Fin (1 - x)).
Proof. exact c15. Qed.
Print Assumptions C15_addresses.

Theorem C15_refuted : exists ds a, pc_reader_3darray ds = Ok a /\ outcome ds 1 "s" 0 (Fin 1) /\ pc_observers (ds_dis ds) ["s"] /\ at3 a 1 0 0 = NaN.
Proof. exact y_misplaced. Qed.
Print Assumptions C15_refuted.

Example C15_nonvacuous : ids_are_positions (ds_dis y_straight) /\ consistent y_straight /\ exists a, pc_reader_3darray y_straight = Ok a.
Proof.
  split; [intros [|[|[|i]]] dv E; cbn in E; try discriminate; injection E as <-; reflexivity|]. split; [|destruct y_straight_run as (a & E & _); eauto].
  assert (O : forall a s b v, outcome y_straight a s b v -> a = 0%Z /\ b = 1%Z /\ (s = "s" /\ v = Fin 1 \/ s = "t" /\ v = Fin (1/2))).
  { intros a s b v (dv & d & Hin & Ea & Eo & Hv). cbn in Hin. destruct Hin as [<-|[<-|[]]]; cbn in Ea, Eo; injection Eo as <-; cbn in Hv; [|contradiction].
    destruct Hv as [Hv|[Hv|[]]]; injection Hv as <- <- <-; auto 6. }
  split; [|split].
  - intros a s b v H. apply O in H. destruct H as (-> & -> & _). split; [discriminate|]. apply Z.leb_le. reflexivity.
  - intros a s b x y H1 H2. apply O in H1. apply O in H2. destruct H1 as (-> & -> & _), H2 as (E & _). discriminate.
  - intros a s b v w H1 H2. apply O in H1. apply O in H2. destruct H1 as (_ & _ & [[-> ->]|[-> ->]]), H2 as (_ & _ & [[E ->]|[E ->]]); try reflexivity; discriminate.
Qed.

(** C16 *)
Theorem C16_round_trip : forall fuel ds kw o g, raw_dataset_ok ds -> pc_source (ds_dis ds) -> finite_single (ds_dis ds) -> ids_are_positions (ds_dis ds) -> plain o -> known_type o ->
  (po_tie o = None \/ po_tie o = Some "even_split"%string) -> 2 <= fuel ->
  exists pc after a names, to_pc_dataset fuel ds kw o g = Ok (pc, after, 0) /\ pc_reader_3darray pc = Ok a /\
    dE a = length (ds_dis ds) /\ dS a = length (ds_dis ds) /\ dR a = length names /\
    StronglySorted str_lt names /\ (forall name, In name names <-> exists va vb, compared (ds_dis ds) (any_content o) name va vb) /\
    forall i j k va vb name, nth_error (ds_dis ds) i = Some va -> nth_error (ds_dis ds) j = Some vb -> nth_error names k = Some name ->
      (forall x y, i <> j -> any_content o = true \/ dv_cid va = dv_cid vb -> rated va name (Fin x) -> rated vb name (Fin y) ->
         ((y < x)%R -> at3 a i j k = Fin 1) /\ (x = y -> at3 a i j k = Fin (1/2)) /\ ((x < y)%R -> at3 a i j k = Fin 0)) /\
      (i = j \/ (any_content o = false /\ dv_cid va <> dv_cid vb) \/ ~ (exists v, vote_of va name v) \/ ~ (exists v, vote_of vb name v) -> at3 a i j k = NaN).
Proof. exact c16. Qed.
Print Assumptions C16_round_trip.

Example C16_nonvacuous : raw_dataset_ok y_main /\ pc_source (ds_dis y_main) /\ finite_single (ds_dis y_main) /\ ids_are_positions (ds_dis y_main) /\
  exists va vb, compared (ds_dis y_main) (any_content y_none) "b" va vb.
Proof.
  split; [apply y_main_wf|]. split; [apply y_main_source|]. split; [apply y_main_wf|]. split; [apply y_main_wf|]. do 2 eexists.
  split; [right; left; reflexivity|]. split; [left; reflexivity|]. split; [eexists; eapply vo_dict; [reflexivity|right; left; reflexivity]|]. split; [eexists; eapply vo_dict; [reflexivity|left; reflexivity]|]. split; [reflexivity|]. right. reflexivity.
Qed.

(** C72: options that are not acceptable are refused, whatever the dataset. *)
Theorem C72_rejected : forall fuel ds kw o (g : rng ef), ~ valid_options o (length (ds_dis ds)) -> to_pc_dataset fuel ds kw o g = Err AssertionError.
Proof. exact c72_rejected. Qed.
Print Assumptions C72_rejected.

(** C72: acceptable options are accepted. *)
Theorem C72_accepted : forall k fuel ds kw o g, pc_source (ds_dis ds) -> scored o (ds_dis ds) -> valid_options o (length (ds_dis ds)) ->
  rates_within o k -> k < fuel -> exists pc after n, to_pc_dataset fuel ds kw o g = Ok (pc, after, n).
Proof. exact c72_accepted. Qed.
Print Assumptions C72_accepted.

Example C72_nonvacuous : ~ valid_options (PcOpts None None None None (Some (Fin 2)) None None None None) 3 /\
  ~ valid_options (PcOpts None None None None None None (Some (Fin 1)) (Some [Fin 1; Fin 1; Fin 1]) None) 3 /\
  valid_options (y_sampled (Fin (INR 3)) None) (length (ds_dis y_main)) /\ pc_source (ds_dis y_main) /\ scored (y_sampled (Fin (INR 3)) None) (ds_dis y_main) /\
  rates_within (y_sampled (Fin (INR 3)) None) 3.
Proof.
  split; [intros [_ _ _ (_ & H & _) _ _]; destruct (H _ eq_refl) as (r & E & K); injection E as <-; lra|].
  split; [intros [_ _ _ _ ([H|H] & _) _]; discriminate|].
  split; [|split; [exact y_main_source|split; [apply finite_scored; [reflexivity|apply y_main_wf]|]]].
  - split; cbn; try (left; reflexivity).
    + split; [right; reflexivity|]. split; [|intros ? K; discriminate]. intros r K. injection K as <-. right. eexists. split; [reflexivity|]. lra.
    + split; [right; reflexivity|]. split; intros ? K; discriminate.
    + split; [right; reflexivity|]. split; intros ? K; discriminate.
    + intros ? K; discriminate.
  - repeat split; cbn [y_sampled po_rate po_rates]; [|discriminate|discriminate]. intros r Er. injection Er as <-. eexists. split; [reflexivity|apply Rle_refl].
Qed.
