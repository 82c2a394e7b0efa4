(** The command lines: sureal/cmd_deprecated.py and sureal/__main__.py. *)
From Coq Require Import Ascii String.
From Coq Require Import List ZArith Bool Arith.
From Verif Require Import PyBase Classes Tools Names.
Import ListNotations.
Local Open Scope list_scope.

(** What a command does to the outside, in order.  Texts printed are named, not
    spelled out; [k_] is the number of a class in the hierarchy. *)
Inductive effect :=
| UsageShown
| ErrorShown
| ModelRun (classes : list nat) (path : string) (plots : list string) (reader : reader_class)
| ResultShown
| FiguresShown
| DirectoryMade (dir : string)
| FiguresSaved (dir : string)
| FileWritten (path : string).

(** A computation with effects: what it did, and its value or exception. *)
Definition act (A : Type) : Type := (list effect * res A)%type.
Definition done {A} (a : A) : act A := ([], Ok a).
Definition lift {A} (r : res A) : act A := ([], r).
Definition emit (e : effect) : act unit := ([e], Ok tt).
(** The effect takes place when the operation succeeds. *)
Definition perform (e : effect) (r : res unit) : act unit := match r with Ok _ => ([e], Ok tt) | Err x => ([], Err x) end.
Definition andThen {A B} (m : act A) (f : A -> act B) : act B :=
  match snd m with
  | Ok a => let n := f a in (fst m ++ fst n, snd n)
  | Err x => (fst m, Err x)
  end.
Notation "'run' x <- m ; k" := (andThen m (fun x => k)) (at level 200, x name, m at level 100, k at level 200).

(** os.path.join(dir, file) for a file that does not start with a slash
    (sureal/cmd_deprecated.py:74, sureal/__main__.py:102). *)
Definition path_join (dir file : string) : string :=
  match rfind "/"%char dir with
  | Some i => if Nat.eqb (S i) (String.length dir) then (dir ++ file)%string else (dir ++ "/" ++ file)%string
  | None => if String.eqb dir "" then file else (dir ++ "/" ++ file)%string
  end.

Section Commands.
  Context {R O : Type}.
  (** The world: run_subjective_models for classes, a path, plots and a
      reader class (normalize_final is False, its default, in both commands); the
      operations that can fail. *)
  Variables (models : list nat -> string -> list string -> reader_class -> res R)
            (show : res unit) (exists_ : string -> bool) (makedirs : string -> res unit) (save : string -> res unit).

  (** ** sureal/cmd_deprecated.py *)
  (** cmd_deprecated.py:38-42 *)
  Definition deprecated_plots (model : string) : list string :=
    ["raw_scores"; "quality_scores"]%string ++
    (if memb String.eqb model ["MLE"; "MLE_CO"; "MLE_CO_AP"; "MLE_CO_AP2"; "DMOS_MLE"; "DMOS_MLE_CO"]%string then ["subject_scores"%string] else []) ++
    (if memb String.eqb model ["MLE"; "DMOS_MLE"]%string then ["content_scores"%string] else []).

  (** cmd_deprecated.py:23-80 main; sys.argv is [argv], find_subclass looks in the
      loaded classes [h] below [base].  [print_json]: json.dumps of the lists of
      the result (line 69); [dump]: json.dump into the open file (lines 75-76). *)
  Definition deprecated_main (h : hierarchy) (base : nat) (print_json : R -> res unit) (dump : string -> R -> res unit) (argv : list string) : act Z :=
    if Nat.ltb (List.length argv) 3 then (run _ <- emit UsageShown; done 2%Z)
    else
      run model <- lift (py_index argv 1);
      run path <- lift (py_index argv 2);
      run output_dir <- lift (get_cmd_option argv 3 (Z.of_nat (List.length argv)) "--output-dir"%string);
      run print_ <- lift (cmd_option_exists argv 3 (Z.of_nat (List.length argv)) "--print"%string);
      match find_subclass h base model with
      | Err _ => run _ <- emit ErrorShown; done 1%Z
      | Ok c =>
          run r <- lift (models [c] path (deprecated_plots model) RatingReader);
          run _ <- emit (ModelRun [c] path (deprecated_plots model) RatingReader);
          run _ <- (if (print_ : bool) then perform ResultShown (print_json r) else done tt);
          match output_dir with
          | None => run _ <- perform FiguresShown show; done 0%Z
          | Some dir =>
              run _ <- (if exists_ dir then done tt else perform (DirectoryMade dir) (makedirs dir));
              run _ <- perform (FiguresSaved dir) (save dir);
              run _ <- perform (FileWritten (path_join dir "sureal.json"%string)) (dump (path_join dir "sureal.json"%string) r);
              done 0%Z
          end
      end.

  (** ** sureal/__main__.py *)
  (** The parsed arguments (lines 43-48); argparse itself is not modelled. *)
  Record options := Options { o_dataset : string; o_models : list string; o_output_dir : option string;
                              o_raw_data : bool; o_dis_videos : bool; o_observers : bool }.

  (** __main__.py:78-87 *)
  Definition main_plots (o : options) (reader : reader_class) : list string :=
    (if o_raw_data o then
       ["raw_scores"%string] ++ match reader with RatingReader => ["raw_counts"; "raw_counts_per_subject"]%string | PairedReader => [] end
     else []) ++
    (if o_dis_videos o then ["quality_scores"%string] else []) ++
    (if o_observers o then ["subject_scores"%string] else []).

  (** __main__.py:13-108 main; [format]: format_output_of_run_subjective_models;
      [print_json] and [dump]: json.dumps and json.dump of the formatted output;
      [makedirs] with exist_ok. *)
  Definition main_command (h : hierarchy) (base pc : nat) (format : R -> res O) (print_json : O -> res unit) (dump : string -> O -> res unit) (o : options) : act Z :=
    run cr <- lift (main_classes h base pc (o_models o));
    let plots := main_plots o (snd cr) in
    run r <- lift (models (fst cr) (o_dataset o) plots (snd cr));
    run _ <- emit (ModelRun (fst cr) (o_dataset o) plots (snd cr));
    run out <- lift (format r);
    match o_output_dir o with
    | None =>
        run _ <- perform ResultShown (print_json out);
        run _ <- perform FiguresShown show;
        done 0%Z
    | Some dir =>
        run _ <- perform (DirectoryMade dir) (makedirs dir);
        run _ <- perform (FileWritten (path_join dir "output.json"%string)) (dump (path_join dir "output.json"%string) out);
        run _ <- perform (FiguresSaved dir) (save dir);
        done 0%Z
    end.
End Commands.
Arguments options : clear implicits.

(** The classes loaded by sureal/cmd_deprecated.py: sureal/pc_subjective_model.py is
    imported by sureal/__main__.py:9 only. *)
Definition package_deprecated : hierarchy := firstn 32 package.
(** cmd_deprecated.py:15 *)
Definition SUBJECTIVE_MODELS : list string :=
  ["MOS"; "MLE"; "MLE_CO"; "MLE_CO_AP"; "MLE_CO_AP2"; "DMOS"; "DMOS_MLE"; "DMOS_MLE_CO"; "SR_MOS"; "ZS_SR_MOS"; "SR_DMOS"; "ZS_SR_DMOS"]%string.
