(** Class hierarchies: sureal/core/mixin.py, sureal/__main__.py. *)
From Coq Require Import String.
From Coq Require Import List ZArith Bool Arith.
From Verif Require Import PyBase.
Import ListNotations.
Local Open Scope list_scope.
Local Open Scope string_scope.

(** A class statement: name, bases (numbers of earlier statements) and the
    attribute TYPE, None when it is absent or not a string (the abstract property
    of sureal/core/mixin.py:19-22 equals no string).  TYPE is given as resolved
    by attribute lookup; in /repo every model class has its own. *)
Record klass := Klass { k_name : string; k_bases : list nat; k_type : option string }.
(** All class statements in the order they were executed. *)
Definition hierarchy := list klass.

(** cls.__subclasses__(): the direct subclasses, in order of definition. *)
Definition subclasses (h : hierarchy) (c : nat) : list nat :=
  filter (fun d => match nth_error h d with Some k => memb Nat.eqb c (k_bases k) | None => false end)
         (seq 0 (List.length h)).

(** sureal/core/mixin.py:67-73 get_subclasses_recursively.  A subclass is defined
    after its base, so the recursion is at most as deep as there are classes. *)
Fixpoint below_list (fuel : nat) (h : hierarchy) (c : nat) : list nat :=
  match fuel with
  | O => []
  | S f => (subclasses h c ++ flat_map (below_list f h) (subclasses h c))%list
  end.
Definition get_subclasses_recursively (h : hierarchy) (c : nat) : list nat := below_list (List.length h) h c.

(** hasattr(subclass, 'TYPE') and subclass.TYPE == subclass_type (mixin.py:57) *)
Definition has_type (h : hierarchy) (t : string) (c : nat) : bool :=
  match nth_error h c with Some k => match k_type k with Some u => String.eqb u t | None => false end | None => false end.

(** sureal/core/mixin.py:48-65 find_subclass *)
Definition find_subclass (h : hierarchy) (c : nat) (t : string) : res nat :=
  match filter (has_type h t) (get_subclasses_recursively h c) with
  | [d] => Ok d
  | _ => Err AssertionError
  end.

(** c in d.__mro__: d itself or an ancestor. *)
Fixpoint in_mro (fuel : nat) (h : hierarchy) (c d : nat) : bool :=
  Nat.eqb c d ||
  match fuel with
  | O => false
  | S f => match nth_error h d with Some k => existsb (in_mro f h c) (k_bases k) | None => false end
  end.
Definition mro (h : hierarchy) (c d : nat) : bool := in_mro (List.length h) h c d.

(** The classes loaded by [python -m sureal]: sureal/core/mixin.py:9,
    sureal/subjective_model.py:24-1649, sureal/__init__.py:13-22 and
    sureal/pc_subjective_model.py:17-285 (sureal/experimental.py is not imported). *)
Definition package : hierarchy := [
  (* 0 *) Klass "TypeVersionEnabled" [] None;
  (* 1 *) Klass "SubjectiveModel" [0] None;
  (* 2 *) Klass "MosModel" [1] (Some "MOS");
  (* 3 *) Klass "DmosModel" [2] (Some "DMOS");
  (* 4 *) Klass "LiveDmosModel" [1] (Some "LIVE_DMOS");
  (* 5 *) Klass "LeastSquaresModel" [1] (Some "LS");
  (* 6 *) Klass "LegacyMaximumLikelihoodEstimationModel" [1] (Some "MLE_legacy");
  (* 7 *) Klass "MaximumLikelihoodEstimationModel" [1] (Some "MLE");
  (* 8 *) Klass "MaximumLikelihoodEstimationModelContentOblivious" [7] (Some "MLE_CO");
  (* 9 *) Klass "MaximumLikelihoodEstimationModelSubjectOblivious" [7] (Some "MLE_SO");
  (* 10 *) Klass "SubjrejMosModel" [2] (Some "SR_MOS");
  (* 11 *) Klass "SubjrejMosModelPearson" [2] (Some "SR_MOS_PCC");
  (* 12 *) Klass "SubjrejMosModelSpearman" [2] (Some "SR_MOS_SRCC");
  (* 13 *) Klass "ZscoringMosModel" [2] (Some "ZS_MOS");
  (* 14 *) Klass "ZscoringSubjrejMosModel" [2] (Some "ZS_SR_MOS");
  (* 15 *) Klass "MaximumLikelihoodEstimationDmosModel" [7] (Some "DMOS_MLE");
  (* 16 *) Klass "MaximumLikelihoodEstimationDmosModelContentOblivious" [8] (Some "DMOS_MLE_CO");
  (* 17 *) Klass "SubjrejDmosModel" [2] (Some "SR_DMOS");
  (* 18 *) Klass "ZscoringSubjrejDmosModel" [2] (Some "ZS_SR_DMOS");
  (* 19 *) Klass "PerSubjectModel" [1] (Some "PERSUBJECT");
  (* 20 *) Klass "BiasremvMosModel" [2] (Some "BR_MOS");
  (* 21 *) Klass "BiasremvSubjrejMosModel" [20] (Some "BR_SR_MOS");
  (* 22 *) Klass "BiasremvSubjrejMosModelPearson" [20] (Some "BR_SR_MOS_PCC");
  (* 23 *) Klass "BiasremvSubjrejMosModelSpearman" [20] (Some "BR_SR_MOS_SRCC");
  (* 24 *) Klass "SubjectMLEModelProjectionSolver" [1] (Some "Subject_MLE_Projection");
  (* 25 *) Klass "SubjectMLEModelProjectionSolverAltSubjStdMixin" [] None;
  (* 26 *) Klass "SubjectMLEModelProjectionSolver2" [25; 24] (Some "Subject_MLE_Projection2");
  (* 27 *) Klass "MaximumLikelihoodEstimationModelContentObliviousAlternativeProjection" [24] (Some "MLE_CO_AP");
  (* 28 *) Klass "MaximumLikelihoodEstimationModelContentObliviousAlternativeProjection2" [26] (Some "MLE_CO_AP2");
  (* 29 *) Klass "BT500Model" [10] (Some "BT500");
  (* 30 *) Klass "P913124Model" [21] (Some "P913");
  (* 31 *) Klass "P910AnnexEModel" [26] (Some "P910");
  (* 32 *) Klass "PairedCompSubjectiveModel" [1] None;
  (* 33 *) Klass "BradleyTerryNewtonRaphsonPairedCompSubjectiveModel" [32] (Some "BT_NR");
  (* 34 *) Klass "BradleyTerryMlePairedCompSubjectiveModel" [32] (Some "BT_MLE");
  (* 35 *) Klass "ThurstoneMlePairedCompSubjectiveModel" [32] (Some "THURSTONE_MLE")].

(** SubjectiveModel and PairedCompSubjectiveModel in [package]. *)
Definition subjective_model : nat := 1.
Definition paired_comp_model : nat := 32.

(** The same with sureal/experimental.py:9-12, 146-148 imported as well. *)
Definition package_experimental : hierarchy := (package ++ [
  (* 36 *) Klass "MaximumLikelihoodEstimationModelWithBootstrapping" [7] (Some "MLE_BSTP");
  (* 37 *) Klass "MaximumLikelihoodEstimationModelContentObliviousWithBootstrapping" [36] (Some "MLE_CO_BSTP")])%list.

(** DatasetReaderClass, sureal/__main__.py:73-76. *)
Inductive reader_class := RatingReader | PairedReader.

(** sureal/__main__.py:57-59, 61-62. *)
Definition is_subj (h : hierarchy) (base pc c : nat) : bool := mro h base c && negb (mro h pc c).
Definition is_pc_subj (h : hierarchy) (pc c : nat) : bool := mro h pc c.

(** sureal/__main__.py:52-76: the model classes and the reader class. *)
Definition main_classes (h : hierarchy) (base pc : nat) (models : list string) : res (list nat * reader_class) :=
  do cs <- mapM (find_subclass h base) models;
  let all_subj := forallb (is_subj h base pc) cs in
  let all_pc := forallb (is_pc_subj h pc) cs in
  do _ <- assert_ ((all_subj && negb all_pc) || (negb all_subj && all_pc));
  Ok (cs, if all_subj then RatingReader else PairedReader).
