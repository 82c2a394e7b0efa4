(** Specification vocabulary for results in binary64. *)
From Coq Require Import List ZArith Bool Reals.
From Flocq Require Import Core IEEE754.BinarySingleNaN.
From Verif Require Import PyBase Num ExtReal NumPy Dataset Preproc NumB64 SpecMos.
Import ListNotations.
Local Open Scope R_scope.

(** The binary64 number nearest to a real, ties to even (no overflow). *)
Definition rnd (x : R) : R := round radix2 (FLT_exp (-1074) 53) ZnearestE x.

(** The value of a binary64 number. *)
Definition b2ef (x : b64) : ef :=
  match x with
  | B754_nan => NaN
  | B754_infinity false => PInf
  | B754_infinity true => NInf
  | _ => Fin (B2R x)
  end.
Definition exact (a : arr3 b64) : arr3 ef := Arr3 (dE a) (dS a) (dR a) (fun e s r => b2ef (at3 a e s r)).

(** Votes are whole numbers or missing. *)
Definition whole_votes (a : arr3 b64) : Prop := forall e s r, (e < dE a)%nat -> (s < dS a)%nat -> (r < dR a)%nat ->
  b2ef (at3 a e s r) = NaN \/ exists k : Z, b2ef (at3 a e s r) = Fin (IZR k).

(** The sum of the absolute values. *)
Definition abs_sum (l : list R) : R := Rsum (map Rabs l).

(** Sums of the list in any order and with any bracketing. *)
Inductive some_sum (add : b64 -> b64 -> b64) : list b64 -> b64 -> Prop :=
| sum_one : forall x, some_sum add [x] x
| sum_two : forall l1 l2 l x y, some_sum add l1 x -> some_sum add l2 y -> Permutation.Permutation (l1 ++ l2) l ->
    some_sum add l (add x y).

(** Half the distance from 1 to the next number, and from 0. *)
Definition u64 : R := / 2 * bpow radix2 (-52).
Definition tiny64 : R := / 2 * bpow radix2 (-1074).

(** run_modeling() without options. *)
Definition no_opts : kwargs b64 := KW false false false false None false None.

(** Votes for which no sum overflows: at most 2^52 of them, the sum of their
    absolute values at most 2^1022; whole numbers for which none is inexact. *)
Definition few (vs : list R) : Prop := (Z.of_nat (length vs) <= 2 ^ 52)%Z.
Definition moderate (vs : list R) : Prop := few vs /\ abs_sum vs <= bpow radix2 1022.
Definition small_whole (vs : list R) : Prop := few vs /\ abs_sum vs < IZR (2 ^ 53).
(** Votes for which no square overflows. *)
Definition modest (vs : list R) : Prop := few vs /\ abs_sum vs <= bpow radix2 480.
(** All votes are the same. *)
Definition unanimous (vs : list R) : Prop := forall x y, In x vs -> In y vs -> x = y.
