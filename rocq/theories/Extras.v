(** The rest of the package: the methods that write converted datasets, the paths
    and the saving of figures, decorators and helpers of tests
    (sureal/dataset_reader.py, sureal/config.py, sureal/tools/decorator.py,
    sureal/tools/misc.py). *)
From Coq Require Import Ascii String.
From Coq Require Import List ZArith Bool Arith.
From Verif Require Import PyBase Num Dataset Combine PcDataset Tools Names Commands Converter.
Import ListNotations.
Local Open Scope list_scope.

(** ** Files of datasets *)
Section Files.
  Context {T : Type} {N : Num T}.
  Notation ds_t := (dataset T string).
  Notation pc_t := (dataset T (string * Z)).

  (** What open(path, 'wt') and the writes leave: the files by path.  The text
      itself is Mocked.write_out_dataset; a file is named here by the dataset
      importing it gives. *)
  Definition files : Type := string -> option (ds_t + pc_t).
  Definition put (f : files) (path : string) (d : ds_t + pc_t) : files := fun q => if String.eqb q path then Some d else f q.

  (** sureal/dataset_reader.py:88-112 write_out_dataset: no attributes whose name
      starts with two underscores. *)
  Definition written {K} (d : dataset T K) : dataset T K :=
    Dataset (ds_refs d) (ds_dis d) (ds_name d) (ds_ref_score d) (filter (fun kv => negb (dunder (fst kv))) (ds_attrs d)).

  (** sureal/dataset_reader.py:296-298 *)
  Definition to_aggregated_dataset_file (ds : ds_t) dvs scores kw (path : string) (f : files) : files * res unit :=
    match to_aggregated_dataset ds dvs scores kw with
    | Ok d => (put f path (inl (written d)), Ok tt)
    | Err e => (f, Err e)
    end.
  (** sureal/dataset_reader.py:340-342 *)
  Definition to_persubject_dataset_file (ds : ds_t) dvs qss kw (path : string) (f : files) : files * res unit :=
    match to_persubject_dataset ds dvs qss kw with
    | Ok d => (put f path (inl (written d)), Ok tt)
    | Err e => (f, Err e)
    end.
  (** sureal/dataset_reader.py:524-526; also the reader's dataset after the call
      and the number of draws. *)
  Definition to_pc_dataset_file fuel (ds : ds_t) kw o g (path : string) (f : files) : files * res (ds_t * nat) :=
    match to_pc_dataset fuel ds kw o g with
    | Ok (d, ds', n) => (put f path (inr (written d)), Ok (ds', n))
    | Err e => (f, Err e)
    end.
  (** sureal/dataset_reader.py:583-585; also the first dataset after the call. *)
  Definition to_combined_overlap_dataset_file (ds ds2 : ds_t) kw (path : string) (f : files) : files * res ds_t :=
    match to_combined_overlap_dataset ds ds2 kw with
    | Ok (d, ds') => (put f path (inl (written d)), Ok ds')
    | Err e => (f, Err e)
    end.
  (** sureal/dataset_reader.py:613-615: the options are not passed on. *)
  Definition to_dictionary_style_dataset_file (ds : ds_t) dvs (kw : convkw T) (path : string) (f : files) : files * res unit :=
    match to_dictionary_style_dataset ds dvs no_kw with
    | Ok d => (put f path (inl (written d)), Ok tt)
    | Err e => (f, Err e)
    end.

  (** sureal/dataset_reader.py:1055-1063 with 340-342 and 583-585: the readers of
      paired comparisons do not have these conversions. *)
  Definition pc_ref_score : res T := Err NotImplementedError.
  Definition pc_to_persubject_dataset_file (path : string) (f : files) : files * res unit := (f, Err NotImplementedError).
  Definition pc_to_combined_overlap_dataset_file (path : string) (f : files) : files * res unit := (f, Err NotImplementedError).
End Files.
Arguments files : clear implicits.

(** ** Paths and figures *)
(** os.path.join with any number of components. *)
Definition os_joins (dir : string) (comps : list string) : string := fold_left os_join comps dir.

Section Config.
  (** PYTHON_ROOT (sureal/config.py:6): the directory above the package. *)
  Variable root : string.
  (** sureal/config.py:11-29 SurealConfig *)
  Definition root_path (comps : list string) : string := os_joins root comps.
  Definition workspace_path (comps : list string) : string := root_path ("workspace"%string :: comps).
  Definition workdir_path (comps : list string) : string := root_path ("workspace"%string :: "workdir"%string :: comps).
  Definition resource_path (comps : list string) : string := root_path ("resource"%string :: comps).
  Definition test_resource_path (comps : list string) : string := root_path ("test"%string :: "resource"%string :: comps).

  (** What DisplayConfig.show does, in order. *)
  Inductive shown := Window | MadeDir (dir : string) | SavedFigure (fignum : nat) (path : string) (format : string).

  (** sureal/config.py:34-45 DisplayConfig.show.  [write_to_dir] and [format]: None
      if the option is not given, Some None if it is None; [fignums]: plt.get_fignums().
      '.' + None is a TypeError, raised for the first figure. *)
  Definition show (write_to_dir : option (option string)) (format : option (option string)) (fignums : list nat) : list shown * res unit :=
    match write_to_dir with
    | None => ([Window], Ok tt)
    | Some d =>
        let filedir := match d with Some x => x | None => workspace_path ["output"%string] end in
        match format, fignums with
        | Some None, _ :: _ => ([MadeDir filedir], Err TypeError)
        | _, _ =>
            let fmt := match format with Some (Some x) => x | _ => "png"%string end in
            (MadeDir filedir :: map (fun n => SavedFigure n (os_join filedir (str_of_nat n ++ "." ++ fmt)) fmt) fignums, Ok tt)
        end
    end.
End Config.

(** ** deprecated *)
Section Deprecated.
  (** The actions and categories of the warnings module that matter here. *)
  Inductive action := Always | Default | Ignore | ErrorAction.
  Inductive category := Deprecation | OtherWarning | AnyWarning.
  Definition action_eqb (a b : action) : bool :=
    match a, b with Always, Always | Default, Default | Ignore, Ignore | ErrorAction, ErrorAction => true | _, _ => false end.
  Definition category_eqb (a b : category) : bool :=
    match a, b with Deprecation, Deprecation | OtherWarning, OtherWarning | AnyWarning, AnyWarning => true | _, _ => false end.
  Definition filter_eqb (x y : action * category) : bool := action_eqb (fst x) (fst y) && category_eqb (snd x) (snd y).
  (** warnings.simplefilter: an equal filter is removed, the new one comes first. *)
  Fixpoint remove_first (x : action * category) (l : list (action * category)) : list (action * category) :=
    match l with
    | [] => []
    | y :: l' => if filter_eqb y x then l' else y :: remove_first x l'
    end.
  Definition simplefilter (a : action) (c : category) (fs : list (action * category)) : list (action * category) :=
    (a, c) :: remove_first (a, c) fs.
  (** The action for a DeprecationWarning: that of the first filter that matches,
      or the default one. *)
  Fixpoint action_for (fs : list (action * category)) : action :=
    match fs with
    | [] => Default
    | (a, c) :: fs' => match c with Deprecation | AnyWarning => a | OtherWarning => action_for fs' end
    end.

  (** sureal/tools/decorator.py:63-79: a call of the decorated function.  Returns the
      filters afterwards, the action the warning met, and the call's outcome. *)
  Definition deprecated_call {A V} (func : A -> res V) (fs : list (action * category)) (args : A)
    : list (action * category) * action * res V :=
    let fs1 := simplefilter Always Deprecation fs in
    (simplefilter Default Deprecation fs1, action_for fs1, func args).
End Deprecated.

(** ** memoized on methods *)
(** sureal/tools/decorator.py:110-114 __get__ and 99-107: o.method( *args) is
    self.__call__(o, *args), with one cache for all objects. *)
Definition method_call {O A V} (same_o : O -> O -> bool) (same_a : A -> A -> bool) (hashable : O * A -> bool) (f : O * A -> res V)
  (m : memo (A := O * A) (V := V)) (o : O) (args : A) : memo * res V :=
  memo_call (fun x y => same_o (fst x) (fst y) && same_a (snd x) (snd y)) hashable f m (o, args).

(** Calls one after the other (sureal/tools/decorator.py:99-114): the values seen
    by the callers. *)
Fixpoint method_calls {O A V} (same_o : O -> O -> bool) (same_a : A -> A -> bool) (hashable : O * A -> bool) (f : O * A -> res V)
  (m : memo (A := O * A) (V := V)) (l : list (O * A)) : memo * list (res V) :=
  match l with
  | [] => (m, [])
  | (o, a) :: l' =>
      let (m1, r) := method_call same_o same_a hashable f m o a in
      let (m2, rs) := method_calls same_o same_a hashable f m1 l' in (m2, r :: rs)
  end.

(** sureal/tools/decorator.py:117-123 override *)
Definition override (interface : list string) (method : string) : res string :=
  do _ <- assert_ (memb String.eqb method interface); Ok method.

(** ** Tests with collected errors *)
Section TestCase.
  Context {T : Type} {N : Num T}.
  (** unittest's assertAlmostEqual: equal numbers pass; delta and places together
      are a TypeError; |first - second| <= delta, or rounded to [places] digits
      (7 unless given) zero, i.e. at most half a unit of the last one. *)
  Fixpoint ten_to (p : nat) : T := match p with O => nofZ 1 | S q => nmul (nofZ 10) (ten_to q) end.
  Definition unittest_almost (first second : T) (places : option nat) (delta : option T) : res unit :=
    if neqb first second then Ok tt else
    match delta, places with
    | Some _, Some _ => Err TypeError
    | Some d, None => assert_ (nleb (nabs (nsub first second)) d)
    | None, _ =>
        let p := match places with Some p => p | None => 7 end in
        assert_ (nleb (nmul (nofZ 2) (nmul (nabs (nsub first second)) (ten_to p))) (nofZ 1))
    end.

  (** sureal/tools/misc.py:276-280: [verificationErrors] is the number of messages. *)
  Definition my_almost (errors : nat) (first second : T) (places : option nat) (delta : option T) : res nat :=
    match unittest_almost first second places delta with
    | Ok _ => Ok errors
    | Err AssertionError => Ok (S errors)
    | Err e => Err e
    end.
  (** A comparison of a test. *)
  Record almost := Almost { al_first : T; al_second : T; al_places : option nat; al_delta : option T }.
  (** sureal/tools/misc.py:269-271, 276-280: setUp and the comparisons; the number
      of messages. *)
  Definition my_comparisons (l : list almost) : res nat :=
    foldM (fun n x => my_almost n (al_first x) (al_second x) (al_places x) (al_delta x)) l 0.
  (** ... and tearDown (sureal/tools/misc.py:273-274). *)
  Definition my_test (l : list almost) : res unit := do n <- my_comparisons l; assert_ (Nat.eqb n 0).
End TestCase.
Arguments almost : clear implicits.

(** ** Processes and colours *)
(** What subprocess.check_output does. *)
Inductive process := Exits (code : Z) | CannotStart (e : exn).
(** sureal/tools/misc.py:283-288 run_process: a non-zero exit code is a
    CalledProcessError, turned into an AssertionError. *)
Definition run_process (p : process) : res Z :=
  match p with
  | Exits code => if (code =? 0)%Z then Ok 0%Z else Err AssertionError
  | CannotStart e => Err e
  end.

(** sureal/tools/misc.py:291-305 cmap_factory: the colours and their positions in
    hundredths handed to LinearSegmentedColormap.from_list; without positions it
    spaces them evenly. *)
Definition cmap_factory (name : string) : res (list (option Z * string)) :=
  if String.eqb name "red2green" then Ok [(None, "r"); (None, "w"); (None, "g")]%string
  else if String.eqb name "red2green2" then
    Ok (map (fun p => (Some (fst p), snd p)) (combine [0; 15; 40; 50; 60; 90; 100]%Z
      ["darkred"; "red"; "lightcoral"; "white"; "palegreen"; "green"; "darkgreen"]%string))
  else Err AssertionError.

(** sureal/tools/misc.py:239-246 Timer: the clock at __enter__ and __exit__. *)
Definition timer_interval {T} {N : Num T} (start end_ : T) : T := nsub end_ start.
