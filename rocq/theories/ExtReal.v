(** The exact instance of [Num]: IEEE-754 arithmetic over the real numbers,
    without rounding, overflow or signed zero.  Stands for numpy float64
    throughout /repo/sureal; the idealisation is stated in DESIGN.md. *)
From Coq Require Import Reals List ZArith Bool.
From Verif Require Import Num.
Local Open Scope R_scope.

Inductive ef := Fin (r : R) | PInf | NInf | NaN.

(** Decidable comparisons on R as booleans. *)
Definition Rltb (a b : R) : bool := if Rlt_dec a b then true else false.
Definition Rleb (a b : R) : bool := if Rle_dec a b then true else false.
Definition Reqbb (a b : R) : bool := if Req_EM_T a b then true else false.

(** Sum, NaN for Inf - Inf. *)
Definition ef_add (x y : ef) : ef :=
  match x, y with
  | Fin a, Fin b => Fin (a + b)
  | NaN, _ | _, NaN => NaN
  | PInf, NInf | NInf, PInf => NaN
  | PInf, _ | _, PInf => PInf
  | NInf, _ | _, NInf => NInf
  end.

Definition ef_neg (x : ef) : ef :=
  match x with Fin a => Fin (- a) | PInf => NInf | NInf => PInf | NaN => NaN end.

Definition ef_sub (x y : ef) : ef := ef_add x (ef_neg y).

(** An infinity times a finite number: NaN at 0, otherwise the sign decides. *)
Definition ef_infmul (pos : bool) (r : R) : ef :=
  if Req_EM_T r 0 then NaN
  else if Bool.eqb pos (Rltb 0 r) then PInf else NInf.

Definition ef_mul (x y : ef) : ef :=
  match x, y with
  | Fin a, Fin b => Fin (a * b)
  | NaN, _ | _, NaN => NaN
  | PInf, Fin b | Fin b, PInf => ef_infmul true b
  | NInf, Fin b | Fin b, NInf => ef_infmul false b
  | PInf, PInf | NInf, NInf => PInf
  | PInf, NInf | NInf, PInf => NInf
  end.

(** numpy division: 0/0 = NaN, x/0 = an infinity (zero counted as +0). *)
Definition ef_div (x y : ef) : ef :=
  match x, y with
  | NaN, _ | _, NaN => NaN
  | Fin a, Fin b =>
      if Req_EM_T b 0 then
        (if Req_EM_T a 0 then NaN else if Rltb 0 a then PInf else NInf)
      else Fin (a / b)
  | Fin _, _ => Fin 0
  | PInf, Fin b => if Rleb 0 b then PInf else NInf
  | NInf, Fin b => if Rleb 0 b then NInf else PInf
  | _, _ => NaN
  end.

Definition ef_abs (x : ef) : ef :=
  match x with Fin a => Fin (Rabs a) | NaN => NaN | _ => PInf end.

(** np.sqrt: NaN below zero. *)
Definition ef_sqrt (x : ef) : ef :=
  match x with
  | Fin a => if Rltb a 0 then NaN else Fin (sqrt a)
  | PInf => PInf | NInf => NaN | NaN => NaN
  end.

Definition ef_exp (x : ef) : ef :=
  match x with Fin a => Fin (exp a) | PInf => PInf | NInf => Fin 0 | NaN => NaN end.

(** np.log: -Inf at zero, NaN below. *)
Definition ef_ln (x : ef) : ef :=
  match x with
  | Fin a => if Rltb a 0 then NaN else if Req_EM_T a 0 then NInf else Fin (ln a)
  | PInf => PInf | NInf => NaN | NaN => NaN
  end.

(** Ordered comparisons: False as soon as one side is NaN. *)
Definition ef_ltb (x y : ef) : bool :=
  match x, y with
  | Fin a, Fin b => Rltb a b
  | NInf, Fin _ | NInf, PInf | Fin _, PInf => true
  | _, _ => false
  end.
Definition ef_leb (x y : ef) : bool :=
  match x, y with
  | Fin a, Fin b => Rleb a b
  | NaN, _ | _, NaN => false
  | NInf, _ | _, PInf => true
  | _, _ => false
  end.
Definition ef_eqb (x y : ef) : bool :=
  match x, y with
  | Fin a, Fin b => Reqbb a b
  | PInf, PInf | NInf, NInf => true
  | _, _ => false
  end.
Definition ef_isnan (x : ef) : bool := match x with NaN => true | _ => false end.
Definition ef_isinf (x : ef) : bool := match x with PInf | NInf => true | _ => false end.

Global Instance Num_ef : Num ef := {|
  nofZ := fun z => Fin (IZR z);
  nadd := ef_add; nsub := ef_sub; nmul := ef_mul; ndiv := ef_div;
  nneg := ef_neg; nabs := ef_abs; nsqrt := ef_sqrt; nexp := ef_exp; nln := ef_ln;
  nltb := ef_ltb; nleb := ef_leb; neqb := ef_eqb;
  nisnan := ef_isnan; nisinf := ef_isinf; nnan := NaN; npi := Fin PI |}.

(** Finite or missing: the range of recorded votes. *)
Definition finnan (x : ef) : Prop := match x with Fin _ | NaN => True | _ => False end.
Definition isfin (x : ef) : Prop := match x with Fin _ => True | _ => False end.

(** The real value of a finite number (0 otherwise, only used under [isfin]). *)
Definition toR (x : ef) : R := match x with Fin a => a | _ => 0 end.

(** The votes that are present, in order. *)
Fixpoint presents (l : list ef) : list R :=
  match l with
  | nil => nil
  | Fin a :: l' => a :: presents l'
  | _ :: l' => presents l'
  end.

(** Sum of a list of reals. *)
Definition Rsum (l : list R) : R := fold_right Rplus 0 l.
Definition Rmean (l : list R) : R := Rsum l / INR (length l).
