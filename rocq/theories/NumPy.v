(** numpy reductions used by /repo/sureal, on vectors given as lists, and the
    array shapes.  Mirrors numpy's documented semantics for the calls cited. *)
From Coq Require Import List ZArith Bool Arith.
From Verif Require Import Num PyBase.
Import ListNotations.

Section NumPy.
  Context {T : Type} {N : Num T}.
  Local Open Scope num_scope.

  (** np.sum of a vector. *)
  Definition np_sum (l : list T) : T := fold_left nadd l nzero.

  (** x[~np.isnan(x)] (sureal/subjective_model.py:230). *)
  Definition notnan (l : list T) : list T := filter (fun x => negb (nisnan x)) l.

  (** np.nansum: sum of the entries that are not NaN (0 when there are none). *)
  Definition np_nansum (l : list T) : T := np_sum (notnan l).

  (** np.sum(~np.isnan(x)): number of entries present. *)
  Definition np_cnt (l : list T) : nat := length (notnan l).

  (** np.mean: sum / size; NaN on an empty vector (0/0). *)
  Definition np_mean (l : list T) : T := np_sum l / nofnat (length l).

  (** np.nanmean: nansum / count, NaN when nothing is present (0/0). *)
  Definition np_nanmean (l : list T) : T := np_nansum l / nofnat (np_cnt l).

  (** np.std with ddof=0: sqrt(mean(|x - mean|^2)). *)
  Definition np_std (l : list T) : T :=
    let mu := np_mean l in
    nsqrt (np_mean (map (fun x => nsq (x - mu)) l)).

  (** np.nanstd: NaN when count <= ddof. *)
  Definition np_nanstd (ddof : nat) (l : list T) : T :=
    let l' := notnan l in
    let n := length l' in
    let mu := np_sum l' / nofnat n in
    if Nat.leb n ddof then nnan
    else nsqrt (np_sum (map (fun x => nsq (x - mu)) l') / nofnat (n - ddof)).

  (** scipy.linalg.norm of a vector: check_finite raises ValueError on NaN or
      Inf, otherwise the Euclidean norm (sureal/subjective_model.py:1086,1525). *)
  Definition sp_norm (l : list T) : res T :=
    if existsb (fun x => nisnan x || nisinf x)%bool l then Err ValueError
    else Ok (nsqrt (np_sum (map nsq l))).

  (** scipy.stats.kurtosis(x, fisher=False): m4 / m2^2 with biased moments. *)
  Definition sp_kurtosis (l : list T) : T :=
    let mu := np_mean l in
    let m2 := np_mean (map (fun x => nsq (x - mu)) l) in
    let m4 := np_mean (map (fun x => nsq (nsq (x - mu))) l) in
    m4 / (m2 * m2).

  (** np.max / np.min of a non-empty vector without NaN. *)
  Definition np_max2 (x y : T) : T := nmaximum x y.

  (** A 3-d array with its shape (E, S, R). *)
  Record arr3 := Arr3 { dE : nat; dS : nat; dR : nat; at3 : nat -> nat -> nat -> T }.

  (** A 2-d array with its shape. *)
  Record arr2 := Arr2 { n0 : nat; n1 : nat; at2 : nat -> nat -> T }.

  (** Row i / column j of a 2-d array. *)
  Definition row (a : arr2) (i : nat) : list T := map (at2 a i) (seq 0 (n1 a)).
  Definition col (a : arr2) (j : nat) : list T := map (fun i => at2 a i j) (seq 0 (n0 a)).

  (** f(x, axis=1) and f(x, axis=0) for a vector reduction f. *)
  Definition along1 (f : list T -> T) (a : arr2) : list T := map (fun i => f (row a i)) (seq 0 (n0 a)).
  Definition along0 (f : list T -> T) (a : arr2) : list T := map (fun j => f (col a j)) (seq 0 (n1 a)).

  (** v[i]; used only with i in range (NaN otherwise). *)
  Definition vat (v : list T) (i : nat) : T := nth i v nnan.

  (** All entries of a 3-d array, for reductions over the whole array. *)
  Definition flat3 (a : arr3) : list T :=
    flat_map (fun e => flat_map (fun s => map (fun r => at3 a e s r) (seq 0 (dR a)))
                                (seq 0 (dS a))) (seq 0 (dE a)).

  (** Elementwise map of a 3-d array with its indices. *)
  Definition map3 (f : nat -> nat -> nat -> T -> T) (a : arr3) : arr3 :=
    Arr3 (dE a) (dS a) (dR a) (fun e s r => f e s r (at3 a e s r)).

  (** sureal/subjective_model.py:119-149 _stack_repetitions_along_axis, axis=0:
      o[r*E:(r+1)*E, :] = s_esr[:, :, r]; row k holds (k mod E, k / E). *)
  Definition stack0 (a : arr3) : arr2 :=
    Arr2 (dR a * dE a) (dS a) (fun k s => at3 a (k mod dE a) s (k / dE a)).

  (** The same with axis=1: o[:, r*S:(r+1)*S] = s_esr[:, :, r]. *)
  Definition stack1 (a : arr3) : arr2 :=
    Arr2 (dE a) (dR a * dS a) (fun e k => at3 a e (k mod dS a) (k / dS a)).
End NumPy.
Arguments arr3 : clear implicits.
Arguments arr2 : clear implicits.
