(** Specification of the progress of the projection solver (C120-C122). *)
From Coq Require Import List ZArith Bool Arith Reals.
From Verif Require Import PyBase Num ExtReal NumPy AP SpecMos SpecAp.
Import ListNotations.
Local Open Scope R_scope.

(** The number in position [k]; 0 for what is not a number. *)
Definition value (l : list ef) (k : nat) : R := match nth k l NaN with Fin v => v | _ => 0 end.

(** Mean squared residual of subject [i]. *)
Definition mean_square (x : arr3 ef) (s b : list ef) (i : nat) : R :=
  ssum x i (fun e v => (v - value s e - value b i) * (v - value s e - value b i)) / scount x i.

(** How badly scores and biases fit the votes: the sum over all votes of the log
    of the mean squared residual of their subject plus 1e-8.  Up to a constant,
    minus twice the log-likelihood of the votes at the most likely spreads. *)
Definition misfit (x : arr3 ef) (s b : list ef) : R :=
  Rsum (map (fun i => scount x i * ln (mean_square x s b i + 1 / 100000000)) (seq 0 (dS x))).

(** Euclidean distance of two lists of scores. *)
Definition distance (x : arr3 ef) (s s' : list ef) : R :=
  sqrt (Rsum (map (fun e => (value s e - value s' e) * (value s e - value s' e)) (seq 0 (dE x)))).

(** The estimates after [n] passes. *)
Inductive after (x : arr3 ef) : nat -> list ef -> list ef -> Prop :=
| after_start : after x 0 (along1 np_nanmean (stack1 x)) (bias_of x (along1 np_nanmean (stack1 x)))
| after_pass : forall n s b e, after x n s b -> ap_pass x s b = Ok e -> after x (S n) (es e) (eb e).

(** [l] with the number [t] in position [k]. *)
Definition with_value (l : list ef) (k : nat) (t : R) : list ef := firstn k l ++ Fin t :: skipn (S k) l.
