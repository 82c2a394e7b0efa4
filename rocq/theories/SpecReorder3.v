(** Specification vocabulary for claim C140: results of the projection classes and
    of the remaining rating models for the same votes, with the videos and the
    subjects listed in another order. *)
From Coq Require Import String.
From Coq Require Import List Arith.
From Verif Require Import PyBase Num ExtReal NumPy Dataset AP OtherModels SpecMos SpecReorder.
Import ListNotations.

(** nE videos in the order p, nS subjects in the order q. *)
Definition ap_reordered (p q : nat -> nat) (nE nS : nat) (m m' : apres ef) : Prop :=
  rearranged p q (ap_raw m) (ap_raw m') /\ rearranged p q (ap_recon m) (ap_recon m') /\
  (forall f, In f [ap_quality; ap_quality_std; ap_quality_lo; ap_quality_hi] -> relisted nE p (f m) (f m')) /\
  (forall f, In f [ap_bias; ap_bias_std; ap_bias_lo; ap_bias_hi; ap_incons; ap_incons_std; ap_incons_lo; ap_incons_hi; ap_scores_mean; ap_scores_std] ->
     relisted nS q (f m) (f m')) /\
  (forall f, In f [ap_dof; ap_ll; ap_aic; ap_bic] -> f m' = f m) /\ ap_iter m' = ap_iter m.

Definition other_reordered (p q : nat -> nat) (nE nS : nat) (m m' : otherres ef) : Prop :=
  relisted nE p (or_quality m) (or_quality m') /\ same_bias q nS (or_bias m) (or_bias m') /\ same_bias q nS (or_incons m) (or_incons m').
