(** Theorems for claims C110-C115: files of datasets, figures, paths, decorators and
    tests. *)
From Coq Require Import Ascii String.
From Coq Require Import List ZArith Bool Arith Reals Lra.
From Verif Require Import PyBase Num ExtReal Dataset Combine PcDataset Tools Names Commands Converter SpecDataset SpecMocked SpecTools
  Extras SpecExtras PcWitness ExtrasProofs.
Import ListNotations.
Local Open Scope list_scope.

(** C110: the file holds what the conversion returns; a conversion that raises
    leaves all files alone. *)
Theorem C110_aggregated : forall T ds dvs scores kw path (f f' : files T) r, to_aggregated_dataset_file ds dvs scores kw path f = (f', r) ->
  match to_aggregated_dataset ds dvs scores kw with
  | Ok d => r = Ok tt /\ holds f' path d /\ others_kept path f f'
  | Err e => r = Err e /\ f' = f
  end.
Proof. exact @aggregated_file. Qed.
Print Assumptions C110_aggregated.

Theorem C110_persubject : forall T (N : Num T) ds dvs qss kw path (f f' : files T) r, to_persubject_dataset_file ds dvs qss kw path f = (f', r) ->
  match to_persubject_dataset ds dvs qss kw with
  | Ok d => r = Ok tt /\ holds f' path d /\ others_kept path f f'
  | Err e => r = Err e /\ f' = f
  end.
Proof. exact @persubject_file. Qed.
Print Assumptions C110_persubject.

Theorem C110_pc : forall T (N : Num T) fuel ds kw o g path (f f' : files T) r, to_pc_dataset_file fuel ds kw o g path f = (f', r) ->
  match to_pc_dataset fuel ds kw o g with
  | Ok (d, ds', n) => r = Ok (ds', n) /\ holds_pc f' path d /\ others_kept path f f'
  | Err e => r = Err e /\ f' = f
  end.
Proof. exact @pc_file. Qed.
Print Assumptions C110_pc.

Theorem C110_combined : forall T ds ds2 kw path (f f' : files T) r, to_combined_overlap_dataset_file ds ds2 kw path f = (f', r) ->
  match to_combined_overlap_dataset ds ds2 kw with
  | Ok (d, ds') => r = Ok ds' /\ holds f' path d /\ others_kept path f f'
  | Err e => r = Err e /\ f' = f
  end.
Proof. exact @combined_file. Qed.
Print Assumptions C110_combined.

(** C110 for votes by name: without options, or when the votes have names already. *)
Theorem C110_dictionary_partial : forall T ds dvs kw path (f f' : files T) r, to_dictionary_style_dataset_file ds dvs kw path f = (f', r) ->
  (kw_quality_width kw = None /\ kw_quality_height kw = None /\ kw_resampling_type kw = None \/ exists d0, first_os dvs = Ok (ODict d0)) ->
  match to_dictionary_style_dataset ds dvs kw with
  | Ok d => r = Ok tt /\ holds f' path d /\ others_kept path f f'
  | Err e => r = Err e /\ f' = f
  end.
Proof. exact @dictionary_file. Qed.
Print Assumptions C110_dictionary_partial.

(** C110 fails: the options of the conversion to votes by name do not reach the file. *)
Theorem C110_dictionary_refuted : exists (ds d : dataset ef string) kw path (f f' : files ef), to_dictionary_style_dataset ds (ds_dis ds) kw = Ok d /\
  to_dictionary_style_dataset_file ds (ds_dis ds) kw path f = (f', Ok tt) /\ ~ holds f' path d.
Proof. exact c110_refuted. Qed.
Print Assumptions C110_dictionary_refuted.

Example C110_nonvacuous : exists f' d, to_aggregated_dataset_file y_tie (ds_dis y_tie) [SNum (Fin 3); SNum (Fin 4)] y_wide "out.py" (fun _ => None) = (f', Ok tt) /\
  f' "out.py"%string = Some (inl d) /\ map dv_gt (ds_dis d) = [Some (GNum (Fin 3)); Some (GNum (Fin 4))] /\ ds_attrs d = [("yuv_fmt", "420p"); ("quality_width", "1920")]%string /\
  f' "other.py"%string = None.
Proof. do 2 eexists. split; [reflexivity|]. split; [reflexivity|]. split; [reflexivity|]. split; reflexivity. Qed.
Example C110_nonvacuous_error : to_aggregated_dataset_file y_tie (ds_dis y_tie) [SNum (Fin 3)] no_kw "out.py" (fun _ => None) = (fun _ => None, Err AssertionError).
Proof. reflexivity. Qed.
Example C110_nonvacuous_dictionary : exists f' d, to_dictionary_style_dataset_file y_tie (ds_dis y_tie) no_kw "out.py" (fun _ => None) = (f', Ok tt) /\
  f' "out.py"%string = Some (inl d) /\ map dv_os (ds_dis d) = [Some (ODict [("pc_subject0", yv 3); ("pc_subject1", yv 4)]); Some (ODict [("pc_subject0", yv 3); ("pc_subject1", yv 5)])]%string.
Proof. do 2 eexists. split; [unfold to_dictionary_style_dataset_file; vm_compute; reflexivity|]. split; [reflexivity|vm_compute; reflexivity]. Qed.

(** C111: one file for each open figure, named after its number. *)
Theorem C111_saved : forall root d fmt figs ev r, show root (Some d) fmt figs = (ev, r) -> fmt <> Some None \/ figs = [] -> NoDup figs ->
  let dir := match d with Some x => x | None => path_join (path_join root "workspace") "output" end in
  let f := match fmt with Some (Some x) => x | _ => "png"%string end in
  r = Ok tt /\ nth_error ev 0 = Some (MadeDir dir) /\ saved_numbers ev = figs /\ length ev = S (length figs) /\ NoDup (saved_paths ev) /\
  forall n p m, In (SavedFigure n p m) ev -> m = f /\ in_dir dir (str_of_nat n ++ "." ++ f) p /\
    p <> path_join dir "output.json" /\ p <> path_join dir "sureal.json".
Proof. exact c111. Qed.
Print Assumptions C111_saved.

(** C111: the format None saves nothing; without a directory nothing is written. *)
Theorem C111_no_format : forall root d figs, figs <> [] -> exists dir, show root (Some d) (Some None) figs = ([MadeDir dir], Err TypeError).
Proof. exact c111_none. Qed.
Print Assumptions C111_no_format.
Theorem C111_window : forall root fmt figs, show root None fmt figs = ([Window], Ok tt).
Proof. exact c111_window. Qed.
Print Assumptions C111_window.

Example C111_nonvacuous : show "/r" (Some None) None [1; 12] =
  ([MadeDir "/r/workspace/output"; SavedFigure 1 "/r/workspace/output/1.png" "png"; SavedFigure 12 "/r/workspace/output/12.png" "png"], Ok tt) /\ NoDup [1; 12].
Proof. split; [reflexivity|]. repeat constructor; cbn; intuition discriminate. Qed.
Example C111_nonvacuous_format : show "/r" (Some (Some "out/"%string)) (Some (Some "eps"%string)) [3] = ([MadeDir "out/"; SavedFigure 3 "out/3.eps" "eps"], Ok tt).
Proof. reflexivity. Qed.

(** C112: relative components stay below the directory of the function. *)
Theorem C112_below_partial : forall root comps, Forall (fun c => String.prefix "/" c = false) comps ->
  (exists x, root_path root comps = root ++ x)%string /\
  (exists x, workspace_path root comps = path_join root "workspace" ++ x)%string /\
  (exists x, workdir_path root comps = path_join (path_join root "workspace") "workdir" ++ x)%string /\
  (exists x, resource_path root comps = path_join root "resource" ++ x)%string /\
  (exists x, test_resource_path root comps = path_join (path_join root "test") "resource" ++ x)%string.
Proof. exact c112. Qed.
Print Assumptions C112_below_partial.

(** C112 fails: an absolute component replaces everything before it. *)
Theorem C112_absolute_refuted : exists root comps, forall x, workspace_path root comps <> (root ++ x)%string.
Proof. exact c112_refuted. Qed.
Print Assumptions C112_absolute_refuted.

Example C112_nonvacuous : Forall (fun c => String.prefix "/" c = false) ["a"; "b.py"]%string /\ test_resource_path "/r" ["a"; "b.py"]%string = "/r/test/resource/a/b.py"%string.
Proof. split; [repeat constructor|reflexivity]. Qed.

(** C113: the call is the function's, the warning always shows; afterwards the
    action is "default", and further calls change nothing. *)
Theorem C113_transparent_partial : forall A V (func : A -> res V) fs args fs' a r, deprecated_call func fs args = (fs', a, r) ->
  r = func args /\ a = Always /\ meets fs' Default /\ length fs' <= length fs + 2 /\
  forall args', exists a' r', deprecated_call func fs' args' = (fs', a', r').
Proof. exact c113. Qed.
Print Assumptions C113_transparent_partial.

(** C113 fails: warnings that were ignored before the call are not after it. *)
Theorem C113_filters_refuted : exists (fs fs' : list (action * category)) a b r, deprecated_call (fun n : nat => Ok (S n)) fs 1 = (fs', b, r) /\ meets fs a /\ ~ meets fs' a.
Proof. exact c113_refuted. Qed.
Print Assumptions C113_filters_refuted.

Example C113_nonvacuous : deprecated_call (fun n => Ok (S n)) [(ErrorAction, Deprecation); (Ignore, OtherWarning)] 4 =
  ([(Default, Deprecation); (Always, Deprecation); (ErrorAction, Deprecation); (Ignore, OtherWarning)], Always, Ok 5).
Proof. reflexivity. Qed.

(** C114: when equal objects are interchangeable, each gets its own method's values. *)
Theorem C114_own_values_partial : forall O A V (same_o : O -> O -> bool) (same_a : A -> A -> bool) hashable (f : O * A -> res V), equivalence same_o -> equivalence same_a ->
  (forall o o' a a', hashable (o, a) = true -> hashable (o', a') = true -> same_o o o' = true -> same_a a a' = true -> f (o, a) = f (o', a')) ->
  forall l m rs, Forall (fun x => hashable x = true) l -> method_calls same_o same_a hashable f memo_new l = (m, rs) ->
  rs = map f l /\ evaluated_once (fun x y => same_o (fst x) (fst y) && same_a (snd x) (snd y)) (m_evals m) (fun x => exists v, f x = Ok v).
Proof. exact @c114. Qed.
Print Assumptions C114_own_values_partial.

(** C114 fails: two objects that compare equal share one cache entry. *)
Theorem C114_per_object_refuted : exists l m rs, equivalence w_obj_same /\ equivalence Nat.eqb /\
  method_calls w_obj_same Nat.eqb (fun _ => true) w_method memo_new l = (m, rs) /\ rs <> map w_method l.
Proof. exact c114_refuted. Qed.
Print Assumptions C114_per_object_refuted.

Example C114_nonvacuous : method_calls w_obj_same Nat.eqb (fun _ => true) w_method memo_new [((7, 10%Z), 1); ((8, 20%Z), 1); ((7, 10%Z), 1)] =
  (Memo [(((7, 10%Z), 1), 11%Z); (((8, 20%Z), 1), 21%Z)] [((7, 10%Z), 1); ((8, 20%Z), 1)], [Ok 11%Z; Ok 21%Z; Ok 11%Z]).
Proof. reflexivity. Qed.

(** C115: every comparison is made, and the test passes iff all of them do. *)
Theorem C115_collects : forall l, Forall proper l -> exists flags, Forall2 (fun x b => b = true <-> close x) l flags /\
  my_comparisons l = Ok (count_occ Bool.bool_dec flags false).
Proof. exact c115_collects. Qed.
Print Assumptions C115_collects.

Theorem C115_verdict : forall l, Forall proper l -> (my_test l = Ok tt <-> Forall close l) /\ (my_test l = Err AssertionError <-> ~ Forall close l).
Proof. exact c115. Qed.
Print Assumptions C115_verdict.

(** C115: another exception only for different numbers with both a delta and places. *)
Theorem C115_refused : forall l, my_test l = Err TypeError <-> Exists confused l.
Proof. exact c115_type. Qed.
Print Assumptions C115_refused.

Local Open Scope R_scope.
Example C115_nonvacuous : let l := [Almost (Fin 1) (Fin 2) None (Some (Fin 3)); Almost NaN NaN None None; Almost PInf PInf (Some 4%nat) None] in
  Forall proper l /\ my_comparisons l = Ok 1%nat /\ my_test l = Err AssertionError.
Proof.
  intros l. assert (P : Forall proper l) by (repeat constructor). split; [exact P|].
  assert (E : my_comparisons l = Ok 1%nat).
  { assert (E1 : my_almost 0 (Fin 1) (Fin 2) None (Some (Fin 3)) = Ok 0%nat).
    { unfold my_almost, unittest_almost. cbn [neqb Num_ef ef_eqb nleb nabs nsub ef_sub ef_neg ef_add ef_abs ef_leb]. unfold Reqbb, Rleb.
      destruct (Req_EM_T 1 2); [reflexivity|]. destruct (Rle_dec (Rabs (1 + - (2))) 3) as [|G]; [reflexivity|]. exfalso. apply G. apply Rabs_le. lra. }
    assert (E2 : my_almost 0 (NaN : ef) NaN None None = Ok 1%nat).
    { unfold my_almost, unittest_almost. change (neqb (NaN : ef) NaN) with false. change (nabs (nsub (NaN : ef) NaN)) with NaN. cbv iota zeta. rewrite scaled_nan. reflexivity. }
    unfold l, my_comparisons. cbn [foldM al_first al_second al_places al_delta]. rewrite E1. cbn [bind]. rewrite E2. reflexivity. }
  split; [exact E|]. unfold my_test. rewrite E. reflexivity.
Qed.
Example C115_nonvacuous_refused : my_test [Almost PInf (Fin 0) (Some 3%nat) (Some (Fin 1))] = Err TypeError.
Proof. reflexivity. Qed.
