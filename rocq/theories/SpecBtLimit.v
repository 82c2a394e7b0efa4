(** Specification of the Bradley-Terry estimates as maxima of the likelihood and
    of the limit of the passes (C123-C125). *)
From Coq Require Import List ZArith Bool Arith Reals.
From Verif Require Import PyBase Num ExtReal NumPy SpecMos PairedComp SpecBt.
Import ListNotations.
Local Open Scope R_scope.

(** [i] beat [j], or beat a video that in turn stands above [j]. *)
Inductive above (m : nat) (w : nat -> nat -> R) : nat -> nat -> Prop :=
| above_self : forall i, (i < m)%nat -> above m w i i
| above_beat : forall i k j, (i < m)%nat -> 0 < w i k -> above m w k j -> above m w i j.

(** Every video stands above every other. *)
Definition linked (m : nat) (w : nat -> nat -> R) : Prop :=
  forall i j, (i < m)%nat -> (j < m)%nat -> above m w i j.

(** A chain of comparisons leads from every video to every other. *)
Definition connected (m : nat) (w : nat -> nat -> R) : Prop := linked m (games w).

(** No positive vector is more likely than p. *)
Definition most_likely (m : nat) (w : nat -> nat -> R) (p : nat -> R) : Prop :=
  positive m p /\ forall q, positive m q -> bt_likelihood m w q <= bt_likelihood m w p.

(** The strengths after n passes of the loop. *)
Definition passes (a : arr2 ef) (m n : nat) : list ef := Nat.iter n (bt_step a) (bt_start m).

(** ** Thurstone *)

(** No scores are more likely than v. *)
Definition most_likely_scores (F : R -> R) (m : nat) (w : nat -> nat -> R) (v : nat -> R) : Prop :=
  forall u, th_likelihood F m w u <= th_likelihood F m w v.

(** The likelihood with the small number d added to every probability. *)
Definition softened (F : R -> R) (d : R) (m : nat) (w : nat -> nat -> R) (v : nat -> R) : R :=
  total m (fun i => total m (fun j => w i j * ln (F (v i - v j) + d))).
