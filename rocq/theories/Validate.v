(** Helpers of the validation runs: comparison with the numbers of the package's
    tests.  No theorem depends on this file. *)
From Coq Require Import String.
From Coq Require Import List ZArith Bool Floats.
From Verif Require Import PyBase Num NumFloat NumPy Dataset Preproc Mos.
Import ListNotations.

(** assertAlmostEqual(x, y, places=4) and places=6, without the rounding to places. *)
Definition near (tol x y : float) : bool := PrimFloat.ltb (PrimFloat.abs (PrimFloat.sub x y)) tol.
Definition near4 : float -> float -> bool := near 0x1p-14.
Definition near6 : float -> float -> bool := near 0x1p-20.

(** Every value is close to the expected one; false when the run failed. *)
Definition agree4 (l : list (float * float)) : bool := forallb (fun p => near4 (fst p) (snd p)) l.
Definition agree6 (l : list (float * float)) : bool := forallb (fun p => near6 (fst p) (snd p)) l.
Definition ran {A} (r : res A) (f : A -> bool) : bool := match r with Ok a => f a | Err _ => false end.

(** np.sum, np.mean, np.var, np.std of all entries. *)
Definition fsum (l : list float) : float := np_sum l.
Definition fmean (l : list float) : float := np_mean l.
Definition fvar (l : list float) : float := nsq (np_std l).
Definition fstd3 (a : arr3 float) : float := np_std (flat3 a).
(** np.nanstd of all entries. *)
Definition fnanstd3 (a : arr3 float) : float := np_nanstd 0 (flat3 a).

(** The same array with its entries computed once. *)
Definition freeze (a : arr3 float) : arr3 float :=
  let t := map (fun e => map (fun s => map (fun r => at3 a e s r) (seq 0 (dR a))) (seq 0 (dS a))) (seq 0 (dE a)) in
  Arr3 (dE a) (dS a) (dR a) (fun e s r => nth r (nth s (nth e t []) []) nnan).

Definition no_kwargs : kwargs float := KW false false false false None false None.

(** Equality of lists by an equality of entries. *)
Fixpoint forallb2 {A} (eq : A -> A -> bool) (l l' : list A) : bool :=
  match l, l' with
  | [], [] => true
  | x :: l, y :: l' => eq x y && forallb2 eq l l'
  | _, _ => false
  end.
