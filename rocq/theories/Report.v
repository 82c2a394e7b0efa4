(** The result dictionaries of the bundled models, as format_output sees them. *)
From Coq Require Import String.
From Coq Require Import List ZArith Bool Arith.
From Verif Require Import PyBase Num NumPy Dataset Preproc Mos AP Mle PairedComp Routine.
Import ListNotations.
Local Open Scope list_scope.

Section Report.
  Context {T : Type}.

  (** A column / a pair of margins that is a list. *)
  Definition lst (l : list T) : option (column T) := Some (Some l).
  Definition pair_ (lo hi : list T) : option (margins T) := Some (Some [lo; hi]).

  (** sureal/pc_subjective_model.py:196-202, with the observers that
      run_modeling (sureal/subjective_model.py:66-72) may add. *)
  Definition bt_report {N : Num T} (obs : option (list string)) (r : bt_result T) : mresult T :=
    MR None (lst (bt_v r)) (lst (bt_v_std r)) (pair_ (bt_ci r) (bt_ci r)) obs
       None None None None None None None None None None None None None None.
  (** sureal/pc_subjective_model.py:177-179: quality_scores_std is None. *)
  Definition nr_report (obs : option (list string)) (q : list T) : mresult T :=
    MR None (lst q) (Some None) None obs
       None None None None None None None None None None None None None None.
  (** sureal/pc_subjective_model.py:310-315 *)
  Definition th_report {N : Num T} (obs : option (list string)) (r : list T * list T) : mresult T :=
    MR None (lst (fst r)) (lst (snd r)) (pair_ (th_ci r) (th_ci r)) obs
       None None None None None None None None None None None None None None.

  (** sureal/subjective_model.py:383-412, 1376; quality_ambiguity is not among
      the keys format_output looks at. *)
  Definition mos_report (r : mosres T) : mresult T :=
    MR None (lst (mr_quality r)) (lst (mr_std r)) (pair_ (mr_ci_lo r) (mr_ci_hi r)) (mr_observers r)
       (option_map Some (mr_bias r)) None None None None None None None None None None None
       (Some (mr_aic r)) (Some (mr_bic r)).
  (** sureal/subjective_model.py:1549-1588 *)
  Definition ap_report (r : apres T) : mresult T :=
    MR None (lst (ap_quality r)) (lst (ap_quality_std r)) (pair_ (ap_quality_lo r) (ap_quality_hi r)) (ap_observers r)
       (lst (ap_bias r)) (lst (ap_bias_std r)) (pair_ (ap_bias_lo r) (ap_bias_hi r))
       (lst (ap_incons r)) (lst (ap_incons_std r)) (pair_ (ap_incons_lo r) (ap_incons_hi r))
       (lst (ap_scores_mean r)) (lst (ap_scores_std r)) None None None None
       (Some (ap_aic r)) (Some (ap_bic r)).
  (** sureal/subjective_model.py:1098-1164 *)
  Definition pair_opt (lo hi : option (list T)) : option (margins T) :=
    match lo, hi with Some lo, Some hi => pair_ lo hi | _, _ => None end.
  Definition mle_report (r : mleres T) : mresult T :=
    MR None (lst (ml_quality r)) (lst (ml_quality_std r)) (pair_ (ml_quality_lo r) (ml_quality_hi r)) (ml_observers r)
       (option_map Some (ml_bias r)) (option_map Some (ml_bias_std r)) (pair_opt (ml_bias_lo r) (ml_bias_hi r))
       (option_map Some (ml_incons r)) (option_map Some (ml_incons_std r)) (pair_opt (ml_incons_lo r) (ml_incons_hi r))
       None None
       (option_map Some (ml_ambiguity r)) (option_map Some (ml_ambiguity_std r)) (pair_opt (ml_ambiguity_lo r) (ml_ambiguity_hi r)) None
       (Some (ml_aic r)) (Some (ml_bic r)).

  (** sureal/routine.py:99-101: every result gets the paths of the reader's
      videos. *)
  Definition named {V K} (dvs : list (dvideo V K)) (r : mresult T) : mresult T := set_names r (map dv_path dvs).
End Report.
