(** Theorems for claims C53-C58: helpers and class lookup. *)
From Coq Require Import String.
From Coq Require Import List ZArith Bool Arith Lia Permutation.
From Verif Require Import PyBase Tools Classes SpecTools ToolsProofs Tools2Proofs ClassesProofs ToolsWitness.
Import ListNotations.
Local Open Scope list_scope.

(** C53: never more than [limit] live workers. *)
Theorem C53_bounded : forall V limit (value : nat -> V) n es s, reached limit value n es s -> (1 <= limit)%Z ->
  NoDup (pm_running s) /\ (Z.of_nat (length (pm_running s)) <= limit)%Z.
Proof. exact (@c53_bounded). Qed.
Print Assumptions C53_bounded.

(** C53: at most one start per job, at any time. *)
Theorem C53_once : forall V limit (value : nat -> V) n es s, reached limit value n es s ->
  NoDup (pm_log s) /\ (forall i, In i (pm_log s) -> i < n) /\ incl (pm_running s) (pm_log s).
Proof. exact (@c53_once). Qed.
Print Assumptions C53_once.

(** C53: at the end every job was started once, and the results come in input
    order; KeyError when a worker died without a result. *)
Theorem C53_result : forall V limit (value : nat -> V) n es s, reached limit value n es s -> pm_at s = Finished ->
  pm_running s = [] /\ Permutation (pm_log s) (seq 0 n) /\
  (all_stored n es -> pm_collect true n (pm_dict s) = Ok (map value (seq 0 n))) /\
  (~ all_stored n es -> pm_collect true n (pm_dict s) = Err KeyError).
Proof. exact (@c53_result). Qed.
Print Assumptions C53_result.

(** C53: no deadlock. *)
Theorem C53_progress : forall V limit (value : nat -> V) n es s, reached limit value n es s -> (1 <= limit)%Z ->
  exists es' s', reached limit value n (es ++ es') s' /\ pm_at s' = Finished.
Proof. exact (@c53_progress). Qed.
Print Assumptions C53_progress.

(** C53: with a limit of 0 the loop never ends. *)
Theorem C53_zero : forall V limit (value : nat -> V) n es s, reached limit value n es s -> (limit <= 0)%Z -> 0 < n ->
  pm_log s = [] /\ pm_at s <> Finished.
Proof. exact (@c53_zero). Qed.
Print Assumptions C53_zero.

Example C53_nonvacuous : exists s, reached 2 (fun i => i * i) 3 w_sched s /\ pm_at s = Finished /\ all_stored 3 w_sched /\
  pm_log s = [1; 0; 2] /\ pm_dict s = [(1, 1); (0, 0); (2, 4)].
Proof.
  eexists. split; [vm_compute; reflexivity|]. repeat split. intros [|[|[|i]]] H; [| | |lia]; unfold w_sched; cbn; tauto.
Qed.
Example C53_nonvacuous_full : exists s, reached 2 (fun i => i) 3 (firstn 8 w_sched) s /\ length (pm_running s) = 2.
Proof. eexists. split; vm_compute; reflexivity. Qed.

(** C54: when equal arguments are interchangeable and all can be hashed. *)
Theorem C54_transparent_partial : forall A V (same : A -> A -> bool) hashable (f : A -> res V), equivalence same ->
  (forall a b, hashable a = true -> hashable b = true -> same a b = true -> f a = f b) ->
  forall l m rs, Forall (fun a => hashable a = true) l -> memo_calls same hashable f memo_new l = (m, rs) ->
  rs = map f l /\ evaluated_once same (m_evals m) (fun a => exists v, f a = Ok v).
Proof. exact (@c54). Qed.
Print Assumptions C54_transparent_partial.

(** C54: the function is evaluated on nothing but the callers' arguments. *)
Theorem C54_evaluations : forall A V same hashable (f : A -> res V) l m rs, memo_calls same hashable f memo_new l = (m, rs) -> incl (m_evals m) l.
Proof. exact c54_evaluations. Qed.
Print Assumptions C54_evaluations.

(** C54 fails: 1 == 1.0, so the second call gets the first one's value. *)
Theorem C54_equal_refuted : exists l m rs, Forall (fun a => f_hash a = true) l /\ memo_calls w_same f_hash w_float memo_new l = (m, rs) /\ rs <> map w_float l.
Proof. exact c54_equal. Qed.
Print Assumptions C54_equal_refuted.

(** C54 fails: a list argument is a TypeError although the function returns. *)
Theorem C54_unhashable_refuted : exists (A V : Type) (same : A -> A -> bool) (hashable : A -> bool) (f : A -> res V) a v, equivalence same /\ f a = Ok v /\
  snd (memo_call same hashable f memo_new a) = Err TypeError.
Proof. exact c54_unhashable. Qed.
Print Assumptions C54_unhashable_refuted.

Example C54_nonvacuous : equivalence Nat.eqb /\
  memo_calls Nat.eqb (fun _ => true) w_fun memo_new [0; 1; 0; 0; 1] = (Memo [(0, 12); (1, 7)] [0; 1], [Ok 12; Ok 7; Ok 12; Ok 12; Ok 7]).
Proof. split; [exact nat_equivalence|reflexivity]. Qed.

(** C55: every answer is the function's, when different arguments get different
    files (or have the same value), JSON gives the results back, and no crash
    leaves a truncated file. *)
Theorem C55_answers_partial : forall A V (name : A -> string) (f : A -> res V) dump load (used : A -> Prop),
  (forall a b, used a -> used b -> name a = name b -> f a = f b) ->
  (forall a v, used a -> f a = Ok v -> snd (dump v) = true /\ load (fst (dump v)) = Ok v) ->
  forall l, Forall (fun e => used (arg_of e)) l -> Forall (harmless f dump) l -> snd (persist_history name f dump load [] l) = answers f l.
Proof. exact (@c55). Qed.
Print Assumptions C55_answers_partial.

(** C55 fails: after a crash between opening and writing, every later call
    raises ValueError. *)
Theorem C55_crash : forall A V (name : A -> string) (f : A -> res V) dump load a v k, f a = Ok v -> load ""%string = Err ValueError ->
  snd (persist_history name f dump load [] (Killed a (Some 0) :: repeat (Called a) k)) = repeat (a, Err ValueError) k.
Proof. exact c55_crash. Qed.
Print Assumptions C55_crash.
Theorem C55_crash_refuted : exists l, (forall a b, w_name a = w_name b -> w_fun a = w_fun b) /\
  (forall a v, w_fun a = Ok v -> snd (w_dump v) = true /\ w_load (fst (w_dump v)) = Ok v) /\
  snd (persist_history w_name w_fun w_dump w_load [] l) <> answers w_fun l.
Proof. exact c55_crash_refuted. Qed.
Print Assumptions C55_crash_refuted.

(** C55 fails: a truncated file can also be a different value (12 read as 1). *)
Theorem C55_truncated_refuted : snd (persist_history w_name w_fun w_dump w_load [] [Killed 0 (Some 1); Called 0]) = [(0, Ok 1)] /\ w_fun 0 = Ok 12.
Proof. exact c55_truncated. Qed.
Print Assumptions C55_truncated_refuted.

(** C55 fails without any crash: a result JSON cannot write leaves a file behind. *)
Theorem C55_unserializable : forall A V (name : A -> string) (f : A -> res V) dump load a v, f a = Ok v -> dump v = (""%string, false) -> load ""%string = Err ValueError ->
  snd (persist_history name f dump load [] [Called a; Called a]) = [(a, Err TypeError); (a, Err ValueError)].
Proof. exact c55_unserializable. Qed.
Print Assumptions C55_unserializable.

(** C55 fails without any crash: a tuple comes back as a list. *)
Theorem C55_tuple_refuted : exists f : nat -> res w_seq, snd (persist_history w_name f w_seq_dump w_seq_load [] [Called 0; Called 0]) = [(0, Ok (WTuple 3)); (0, Ok (WList 3))].
Proof. exact c55_tuple. Qed.
Print Assumptions C55_tuple_refuted.

Example C55_nonvacuous : (forall a b, True -> True -> w_name a = w_name b -> w_fun a = w_fun b) /\
  (forall a v, True -> w_fun a = Ok v -> snd (w_dump v) = true /\ w_load (fst (w_dump v)) = Ok v) /\
  Forall (harmless w_fun w_dump) [Killed 0 None; Called 0; Killed 1 (Some 1); Called 1; Called 0].
Proof. exact c55_example. Qed.

(** C56: the class found is the only one below the base with that TYPE ... *)
Theorem C56_found : forall h, defined_in_order h -> forall c t d, tree_below h c -> (find_subclass h c t = Ok d <-> only_typed h c t d).
Proof. exact c56_found. Qed.
Print Assumptions C56_found.

(** ... and AssertionError is raised when there is no such class. *)
Theorem C56_rejected : forall h, defined_in_order h -> forall c t, tree_below h c -> (forall d, ~ only_typed h c t d) -> find_subclass h c t = Err AssertionError.
Proof. exact c56_rejected. Qed.
Print Assumptions C56_rejected.

(** C56: every TYPE of the package names its class. *)
Theorem C56_package : forall d t, typed package d t -> find_subclass package subjective_model t = Ok d.
Proof. exact c56_package. Qed.
Print Assumptions C56_package.
Theorem C56_experimental : forall d t, typed package_experimental d t -> find_subclass package_experimental subjective_model t = Ok d.
Proof. exact c56_experimental. Qed.
Print Assumptions C56_experimental.

(** C56 beyond trees: with multiple inheritance a class with a unique TYPE can
    be refused, but one that is found is still the only one. *)
Theorem C56_sound : forall h, defined_in_order h -> forall c t d, find_subclass h c t = Ok d -> only_typed h c t d.
Proof. exact c56_sound. Qed.
Print Assumptions C56_sound.
Theorem C56_diamond_refuted : exists h c t d, defined_in_order h /\ only_typed h c t d /\ find_subclass h c t = Err AssertionError.
Proof. exact c56_diamond. Qed.
Print Assumptions C56_diamond_refuted.

Example C56_nonvacuous : defined_in_order w_clash /\ tree_below w_clash 0 /\ find_subclass w_clash 0 "d" = Ok 3 /\ find_subclass w_clash 0 "b" = Err AssertionError /\
  find_subclass w_clash 0 "x" = Err AssertionError /\ find_subclass w_clash 1 "b" = Ok 2.
Proof. split; [exact w_clash_ordered|]. split; [exact w_clash_tree|]. repeat split. Qed.
Example C56_nonvacuous_package : defined_in_order package /\ tree_below package subjective_model /\ typed package 31 "P910".
Proof. split; [exact package_ordered|]. split; [exact package_tree|]. eexists. split; reflexivity. Qed.

(** C57: the rating reader iff all models are rating models. *)
Theorem C57_rating : forall h base pc, defined_in_order h -> tree_below h base -> forall models cs,
  main_classes h base pc models = Ok (cs, RatingReader) <-> models <> [] /\ Forall2 (rating_named h base pc) models cs.
Proof. exact c57_rating. Qed.
Print Assumptions C57_rating.

(** C57: the paired comparison reader iff all are paired comparison models. *)
Theorem C57_paired : forall h base pc, defined_in_order h -> tree_below h base -> forall models cs,
  main_classes h base pc models = Ok (cs, PairedReader) <-> models <> [] /\ Forall2 (paired_named h base pc) models cs.
Proof. exact c57_paired. Qed.
Print Assumptions C57_paired.

(** C57: everything else (mixtures, unknown names, no model) is refused. *)
Theorem C57_refused : forall h base pc, defined_in_order h -> tree_below h base -> forall models,
  (~ exists cs, models <> [] /\ Forall2 (rating_named h base pc) models cs) ->
  (~ exists cs, models <> [] /\ Forall2 (paired_named h base pc) models cs) ->
  main_classes h base pc models = Err AssertionError.
Proof. exact c57_rejected. Qed.
Print Assumptions C57_refused.

(** C57: for the models of the package, by name. *)
Theorem C57_package_rating : forall models, (exists cs, main_classes package subjective_model paired_comp_model models = Ok (cs, RatingReader)) <->
  models <> [] /\ Forall (fun t => In t rating_names) models.
Proof. exact c57_package_rating. Qed.
Print Assumptions C57_package_rating.
Theorem C57_package_paired : forall models, (exists cs, main_classes package subjective_model paired_comp_model models = Ok (cs, PairedReader)) <->
  models <> [] /\ Forall (fun t => In t paired_names) models.
Proof. exact c57_package_paired. Qed.
Print Assumptions C57_package_paired.

Example C57_nonvacuous : main_classes package 1 32 ["MOS"; "P910"]%string = Ok ([2; 31], RatingReader) /\
  main_classes package 1 32 ["BT_MLE"; "THURSTONE_MLE"]%string = Ok ([34; 35], PairedReader) /\
  main_classes package 1 32 ["MOS"; "BT_MLE"]%string = Err AssertionError /\ main_classes package 1 32 [] = Err AssertionError.
Proof. vm_compute. repeat split. Qed.

(** C58: the argument after the first occurrence. *)
Theorem C58_found : forall argv b e i o x, (- Z.of_nat (length argv) <= b)%Z -> first_at argv b e i o -> (i + 1 < e)%Z -> holds_at argv (i + 1) x ->
  get_cmd_option argv b e o = Ok (Some x).
Proof. exact c58_found. Qed.
Print Assumptions C58_found.

(** C58: None when it is last in the range, None when it is absent. *)
Theorem C58_last : forall argv b e o, (- Z.of_nat (length argv) <= b)%Z -> first_at argv b e (e - 1) o -> get_cmd_option argv b e o = Ok None.
Proof. exact c58_last. Qed.
Print Assumptions C58_last.
Theorem C58_absent : forall argv b e o, in_bounds argv b e -> absent argv b e o -> get_cmd_option argv b e o = Ok None.
Proof. exact c58_absent. Qed.
Print Assumptions C58_absent.

Theorem C58_exists : forall argv b e o, in_bounds argv b e ->
  (cmd_option_exists argv b e o = Ok true <-> exists i, (b <= i < e)%Z /\ holds_at argv i o) /\
  (cmd_option_exists argv b e o = Ok false <-> absent argv b e o).
Proof. exact c58_exists. Qed.
Print Assumptions C58_exists.

(** C58: ranges that leave the argument vector. *)
Theorem C58_out_of_range : forall argv b e o, (- Z.of_nat (length argv) <= b < e)%Z -> (Z.of_nat (length argv) < e)%Z -> absent argv b (Z.of_nat (length argv)) o ->
  get_cmd_option argv b e o = Err IndexError /\ cmd_option_exists argv b e o = Err IndexError.
Proof. exact c58_out. Qed.
Print Assumptions C58_out_of_range.
Theorem C58_last_argument : forall argv b e o, (- Z.of_nat (length argv) <= b)%Z -> (Z.of_nat (length argv) < e)%Z ->
  first_at argv b e (Z.of_nat (length argv) - 1) o -> get_cmd_option argv b e o = Err IndexError.
Proof. exact c58_end. Qed.
Print Assumptions C58_last_argument.
Theorem C58_before : forall argv b e o, (b < e)%Z -> (b < - Z.of_nat (length argv))%Z ->
  get_cmd_option argv b e o = Err IndexError /\ cmd_option_exists argv b e o = Err IndexError.
Proof. exact c58_before. Qed.
Print Assumptions C58_before.

Example C58_nonvacuous : first_at w_argv 0 8 1 "--models" /\ holds_at w_argv 2 "MOS" /\ in_bounds w_argv 0 8 /\
  get_cmd_option w_argv 0 8 "--models" = Ok (Some "MOS"%string) /\ get_cmd_option w_argv 2 8 "--models" = Ok (Some "P910"%string) /\
  get_cmd_option w_argv 0 8 "--print" = Ok None /\ get_cmd_option w_argv 0 9 "--print" = Err IndexError.
Proof. exact c58_example. Qed.
