(** Theorems for claims C89 (file names and versions), C90 (the file cache) and
    C91 (the commands). *)
From Coq Require Import Ascii String.
From Coq Require Import List ZArith Bool Arith Lia.
From Verif Require Import PyBase Classes Tools Names Commands SpecTools SpecNames SpecCommands ClassesProofs NamesProofs CommandsProofs.
Import ListNotations.
Local Open Scope string_scope.

(** C89: the name is what follows the last slash. *)
Theorem C89_name : forall n, free "/" n -> get_file_name_with_extension n = n /\ forall d, get_file_name_with_extension (d ++ "/" ++ n) = n.
Proof. exact c89_name. Qed.
Print Assumptions C89_name.
Example C89_name_ex : free "/" "src01_hrc01.yuv" /\ get_file_name_with_extension "abc/xyz/src01_hrc01.yuv" = "src01_hrc01.yuv".
Proof. split; [|reflexivity]. intro H. cbn [list_ascii_of_string In] in H. intuition discriminate. Qed.

(** C89: stem and extension are what precedes and follows the last dot, if the stem is not only dots. *)
Theorem C89_stem : forall s e, free "/" (s ++ "." ++ e) -> free "." e -> not_only "." s ->
  get_file_name_without_extension (s ++ "." ++ e) = s /\ get_file_name_extension (s ++ "." ++ e) = e /\
  forall d, get_file_name_without_extension (d ++ "/" ++ s ++ "." ++ e) = s /\ get_file_name_extension (d ++ "/" ++ s ++ "." ++ e) = e.
Proof. exact c89_stem. Qed.
Print Assumptions C89_stem.
Example C89_stem_ex : get_file_name_without_extension "abc.d/src01_hrc01.sdr.yuv" = "src01_hrc01.sdr" /\ get_file_name_extension "abc.d/src01_hrc01.sdr.yuv" = "yuv".
Proof.
  assert (H := C89_stem "src01_hrc01.sdr" "yuv"). destruct H as [_ [_ H]].
  - intro H. cbn [append list_ascii_of_string In] in H. intuition discriminate.
  - intro H. cbn [list_ascii_of_string In] in H. intuition discriminate.
  - exists "s"%char. split; [left; reflexivity|discriminate].
  - exact (H "abc.d").
Qed.

(** C89: without a dot that separates, the name is kept whole. *)
Theorem C89_plain : forall n, free "/" n -> (free "." n \/ exists d e, n = d ++ "." ++ e /\ free "." e /\ only "." d) ->
  get_file_name_without_extension n = n /\ forall d, get_file_name_without_extension (d ++ "/" ++ n) = n.
Proof. exact c89_plain. Qed.
Print Assumptions C89_plain.
Example C89_plain_ex : get_file_name_without_extension "a.b/c" = "c" /\ get_file_name_without_extension "a/..c" = "..c".
Proof. split; reflexivity. Qed.
(** Every path is one of these. *)
Theorem C89_every : forall p, exists n, free "/" n /\ (p = n \/ exists d, p = d ++ "/" ++ n) /\
  (free "." n \/ (exists d e, n = d ++ "." ++ e /\ free "." e /\ only "." d) \/ exists s e, n = s ++ "." ++ e /\ free "." e /\ not_only "." s).
Proof. exact c89_every. Qed.
Print Assumptions C89_every.

(** C89: the extension is not always part of the name, and with the stem not always the name. *)
Theorem C89_extension_refuted : exists p, get_file_name_extension p = "b/c" /\ ~ free "/" (get_file_name_extension p).
Proof. exact c89_slash_refuted. Qed.
Print Assumptions C89_extension_refuted.
Theorem C89_hidden_refuted : exists p, get_file_name_with_extension p = ".bashrc" /\ get_file_name_extension p = "bashrc" /\ get_file_name_without_extension p = ".bashrc".
Proof. exact c89_hidden_refuted. Qed.
Print Assumptions C89_hidden_refuted.

(** C89: a version is accepted iff it is made of the announced characters, with or without a line feed. *)
Theorem C89_version : forall s, (assert_type_version s = Ok tt <-> exists b, proper_version b /\ (s = b \/ s = b ++ line_feed)) /\
  ((forall b, proper_version b -> s <> b /\ s <> b ++ line_feed) -> assert_type_version s = Err AssertionError).
Proof. exact c89_version. Qed.
Print Assumptions C89_version.
Example C89_version_ex : assert_type_version "0.1-b_2" = Ok tt /\ assert_type_version "0 1" = Err AssertionError /\ assert_type_version "" = Err AssertionError.
Proof. repeat split. Qed.
Theorem C89_version_refuted : exists s, assert_type_version s = Ok tt /\ ~ proper_version s.
Proof. exact c89_version_refuted. Qed.
Print Assumptions C89_version_refuted.

(** C89: type and version can be read off the combined string, if versions have no V;
    off the longer form for all accepted versions. *)
Theorem C89_unique_partial : forall t1 t2 v1 v2, free "V" v1 -> free "V" v2 -> type_version_string t1 v1 = type_version_string t2 v2 -> t1 = t2 /\ v1 = v2.
Proof. exact c89_unique. Qed.
Print Assumptions C89_unique_partial.
Example C89_unique_ex : type_version_string "MLE_CO_AP2" "1.0" = "MLE_CO_AP2_V1.0" /\ free "V" "1.0".
Proof. split; [reflexivity|]. intro H. cbn [list_ascii_of_string In] in H. intuition discriminate. Qed.
Theorem C89_cozy : forall t1 t2 v1 v2, assert_type_version v1 = Ok tt -> assert_type_version v2 = Ok tt ->
  cozy_type_version_string t1 v1 = cozy_type_version_string t2 v2 -> t1 = t2 /\ v1 = v2.
Proof. exact c89_cozy. Qed.
Print Assumptions C89_cozy.
Example C89_cozy_ex : assert_type_version "1_V2" = Ok tt /\ cozy_type_version_string "MOS" "1_V2" = "MOS VERSION 1_V2".
Proof. split; reflexivity. Qed.
Theorem C89_unique_refuted : exists t1 t2 v1 v2, assert_type_version v1 = Ok tt /\ assert_type_version v2 = Ok tt /\
  type_version_string t1 v1 = type_version_string t2 v2 /\ (t1, v1) <> (t2, v2).
Proof. exact c89_unique_refuted. Qed.
Print Assumptions C89_unique_refuted.

(** C90: what decorating does with the file. *)
Theorem C90_decorate : forall V (load : string -> res (list (string * V))),
  persist_to_file load None = Cached [] /\
  (forall text c, load text = Ok c -> persist_to_file load (Some text) = Cached c) /\
  (forall text, load text = Err ValueError -> persist_to_file load (Some text) = Exits 1).
Proof. exact c90_decorate. Qed.
Print Assumptions C90_decorate.
Example C90_decorate_ex : persist_to_file (fun t => if String.eqb t "{" then Err ValueError else Ok [("h", 1%Z)]) (Some "{") = Exits 1.
Proof. reflexivity. Qed.
(** C90: no call has a value, whatever the function; cache and file never change. *)
Theorem C90_calls : forall A V digest (name : A -> string) (f : A -> res V) dump calls cache file,
  fold_left (fun st x => let '(c, t, out) := st in let '(c', t', v) := persist_file_call digest name f dump c t x in (c', t', (out ++ [v])%list)) calls (cache, file, [])
  = (cache, file, repeat (Err TypeError) (List.length calls)).
Proof. exact c90_calls. Qed.
Print Assumptions C90_calls.
Theorem C90_value_refuted : exists (f : Z -> res Z) x, f x = Ok (x + 1)%Z /\
  forall digest name dump cache file, snd (persist_file_call digest name f dump cache file x) = Err TypeError.
Proof. exact c90_value_refuted. Qed.
Print Assumptions C90_value_refuted.

(** C91, sureal/cmd_deprecated.py: with fewer than two arguments the usage and 2. *)
Theorem C91_usage : forall R (models : list nat -> string -> list string -> reader_class -> res R) show there makedirs save h base print_json dump argv,
  (List.length argv < 3)%nat -> deprecated_main models show there makedirs save h base print_json dump argv = ([UsageShown], Ok 2%Z).
Proof. exact @c91_usage. Qed.
Print Assumptions C91_usage.
(** C91: a name that is not the TYPE of exactly one class: a message and 1, nothing run. *)
Theorem C91_unknown : forall R (models : list nat -> string -> list string -> reader_class -> res R) show there makedirs save h base print_json dump,
  defined_in_order h -> tree_below h base -> forall p m d rest, (forall c, ~ only_typed h base m c) ->
  deprecated_main models show there makedirs save h base print_json dump (p :: m :: d :: rest) = ([ErrorShown], Ok 1%Z).
Proof. exact @c91_unknown. Qed.
Print Assumptions C91_unknown.
(** C91: an exception of the model leaves nothing shown or written. *)
Theorem C91_raises : forall R (models : list nat -> string -> list string -> reader_class -> res R) show there makedirs save h base print_json dump,
  defined_in_order h -> tree_below h base -> forall p m d rest c e, only_typed h base m c -> models [c] d (deprecated_plots m) RatingReader = Err e ->
  deprecated_main models show there makedirs save h base print_json dump (p :: m :: d :: rest) = ([], Err e).
Proof. exact @c91_raises. Qed.
Print Assumptions C91_raises.
(** C91: otherwise the plan is followed up to the first exception, and completed with 0 if there is none. *)
Theorem C91_runs : forall R (models : list nat -> string -> list string -> reader_class -> res R) show there makedirs save h base print_json dump,
  defined_in_order h -> tree_below h base -> forall p m d rest c r dir plan, only_typed h base m c -> models [c] d (deprecated_plots m) RatingReader = Ok r ->
  option_value "--output-dir" rest dir -> deprecated_plan c d (deprecated_plots m) (In "--print" rest) there dir plan ->
  follows (operation show (print_json r) makedirs save (fun x => dump x r)) plan (deprecated_main models show there makedirs save h base print_json dump (p :: m :: d :: rest)) /\
  ((exists r', print_json r = Ok r') -> show = Ok tt -> (forall x, makedirs x = Ok tt) -> (forall x, save x = Ok tt) -> (forall x, dump x r = Ok tt) ->
   deprecated_main models show there makedirs save h base print_json dump (p :: m :: d :: rest) = (plan, Ok 0%Z)).
Proof. exact @c91_runs. Qed.
Print Assumptions C91_runs.
Theorem C91_plan_exists : forall there c path plots rest dir, exists plan, deprecated_plan c path plots (In "--print" rest) there dir plan.
Proof. exact c91_plan_exists. Qed.
Print Assumptions C91_plan_exists.
Theorem C91_option_value : forall o l, (exists r, option_value o l r) /\ forall r r', option_value o l r -> option_value o l r' -> r = r'.
Proof. exact option_value_fun. Qed.
Print Assumptions C91_option_value.
Theorem C91_plots : forall m x, (In x (deprecated_plots m) <->
    x = "raw_scores" \/ x = "quality_scores" \/
    (x = "subject_scores" /\ In m ["MLE"; "MLE_CO"; "MLE_CO_AP"; "MLE_CO_AP2"; "DMOS_MLE"; "DMOS_MLE_CO"]) \/
    (x = "content_scores" /\ In m ["MLE"; "DMOS_MLE"])) /\ NoDup (deprecated_plots m).
Proof. exact c91_plots. Qed.
Print Assumptions C91_plots.
(** C91: the models it accepts: all it lists, and exactly the rating models of the package. *)
Theorem C91_listed : forall t, In t SUBJECTIVE_MODELS -> exists c, find_subclass package_deprecated subjective_model t = Ok c /\ find_subclass package subjective_model t = Ok c.
Proof. exact c91_listed. Qed.
Print Assumptions C91_listed.
Theorem C91_accepted : forall t, (exists c, find_subclass package_deprecated subjective_model t = Ok c) <-> In t rating_names.
Proof. exact c91_accepted. Qed.
Print Assumptions C91_accepted.

Example C91_ex : defined_in_order package_deprecated /\ tree_below package_deprecated subjective_model /\
  w_world ["x"; "MOS"] = ([UsageShown], Ok 2%Z) /\ w_world ["x"; "BT_MLE"; "d.py"] = ([ErrorShown], Ok 1%Z) /\ w_world ["x"; "MOS"; "bad.py"] = ([], Err KeyError) /\
  w_world ["x"; "MLE_CO"; "d.py"; "--print"; "--output-dir"; "out/"] =
    ([ModelRun [8] "d.py" ["raw_scores"; "quality_scores"; "subject_scores"] RatingReader; ResultShown; DirectoryMade "out/"; FiguresSaved "out/"; FileWritten "out/sureal.json"], Ok 0%Z) /\
  w_world ["x"; "MOS"; "d.py"; "--output-dir"; "--print"] =
    ([ModelRun [2] "d.py" ["raw_scores"; "quality_scores"] RatingReader; ResultShown; DirectoryMade "--print"; FiguresSaved "--print"; FileWritten "--print/sureal.json"], Ok 0%Z).
Proof. split; [exact deprecated_ordered|]. split; [exact deprecated_tree|]. repeat split; vm_compute; reflexivity. Qed.

(** C91, sureal/__main__.py: models that are not all of one kind are refused, nothing run. *)
Theorem C91_main_refused : forall R O (models : list nat -> string -> list string -> reader_class -> res R) show makedirs save h base pc (format : R -> res O) print_json dump o,
  defined_in_order h -> tree_below h base ->
  (~ exists cs, o_models o <> [] /\ Forall2 (rating_named h base pc) (o_models o) cs) ->
  (~ exists cs, o_models o <> [] /\ Forall2 (paired_named h base pc) (o_models o) cs) ->
  main_command models show makedirs save h base pc format print_json dump o = ([], Err AssertionError).
Proof. exact @c91_main_refused. Qed.
Print Assumptions C91_main_refused.
(** C91: an exception of the models or of formatting leaves nothing shown or written. *)
Theorem C91_main_raises : forall R O (models : list nat -> string -> list string -> reader_class -> res R) show makedirs save h base pc (format : R -> res O) print_json dump o reader cs e,
  defined_in_order h -> tree_below h base -> o_models o <> [] ->
  (reader = RatingReader /\ Forall2 (rating_named h base pc) (o_models o) cs) \/ (reader = PairedReader /\ Forall2 (paired_named h base pc) (o_models o) cs) ->
  models cs (o_dataset o) (main_plots o reader) reader = Err e -> main_command models show makedirs save h base pc format print_json dump o = ([], Err e).
Proof. exact @c91_main_raises. Qed.
Print Assumptions C91_main_raises.
Theorem C91_main_unformatted : forall R O (models : list nat -> string -> list string -> reader_class -> res R) show makedirs save h base pc (format : R -> res O) print_json dump o reader cs r e,
  defined_in_order h -> tree_below h base -> o_models o <> [] ->
  (reader = RatingReader /\ Forall2 (rating_named h base pc) (o_models o) cs) \/ (reader = PairedReader /\ Forall2 (paired_named h base pc) (o_models o) cs) ->
  models cs (o_dataset o) (main_plots o reader) reader = Ok r -> format r = Err e ->
  main_command models show makedirs save h base pc format print_json dump o = ([ModelRun cs (o_dataset o) (main_plots o reader) reader], Err e).
Proof. exact @c91_main_unformatted. Qed.
Print Assumptions C91_main_unformatted.
(** C91: otherwise the plan is followed up to the first exception, and completed with 0 if there is none. *)
Theorem C91_main_runs : forall R O (models : list nat -> string -> list string -> reader_class -> res R) show makedirs save h base pc (format : R -> res O) print_json dump o reader cs r out plan,
  defined_in_order h -> tree_below h base -> o_models o <> [] ->
  (reader = RatingReader /\ Forall2 (rating_named h base pc) (o_models o) cs) \/ (reader = PairedReader /\ Forall2 (paired_named h base pc) (o_models o) cs) ->
  models cs (o_dataset o) (main_plots o reader) reader = Ok r -> format r = Ok out ->
  main_plan cs (o_dataset o) (main_plots o reader) reader (o_output_dir o) plan ->
  follows (operation show (print_json out) makedirs save (fun x => dump x out)) plan (main_command models show makedirs save h base pc format print_json dump o) /\
  (print_json out = Ok tt -> show = Ok tt -> (forall x, makedirs x = Ok tt) -> (forall x, save x = Ok tt) -> (forall x, dump x out = Ok tt) ->
   main_command models show makedirs save h base pc format print_json dump o = (plan, Ok 0%Z)).
Proof. exact @c91_main_runs. Qed.
Print Assumptions C91_main_runs.
Theorem C91_main_plots : forall o reader x, (In x (main_plots o reader) <->
    (x = "raw_scores" /\ o_raw_data o = true) \/
    ((x = "raw_counts" \/ x = "raw_counts_per_subject") /\ o_raw_data o = true /\ reader = RatingReader) \/
    (x = "quality_scores" /\ o_dis_videos o = true) \/ (x = "subject_scores" /\ o_observers o = true)) /\ NoDup (main_plots o reader).
Proof. exact c91_main_plots. Qed.
Print Assumptions C91_main_plots.
Example C91_main_ex :
  main_command (fun cs _ plots _ => Ok (List.length plots)) (Ok tt) (fun _ => Ok tt) (fun _ => Ok tt) package subjective_model paired_comp_model (fun n => Ok (n + 1)%nat) (fun _ => Ok tt) (fun _ _ => Ok tt)
    (Options "d.json" ["BT_MLE"; "THURSTONE_MLE"] (Some "out") true false true) =
  ([ModelRun [34; 35] "d.json" ["raw_scores"; "subject_scores"] PairedReader; DirectoryMade "out"; FileWritten "out/output.json"; FiguresSaved "out"], Ok 0%Z).
Proof. vm_compute. reflexivity. Qed.
