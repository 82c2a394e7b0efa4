(** The binary64 instance of [Num], on Coq's primitive floats.  Used only to run
    the model on the test data of /repo (Validate*.v); no theorem depends on it.
    exp and log are approximations accurate to about 1e-15 (libm's algorithms
    are not modelled). *)
From Coq Require Import List ZArith Bool Floats Uint63.
From Verif Require Import Num.
Import ListNotations.
Local Open Scope float_scope.

(** float(z) for |z| < 2^62 (np.float64(int)). *)
Definition f_ofZ (z : Z) : float :=
  match z with
  | Z0 => 0
  | Zpos _ => of_uint63 (Uint63.of_Z z)
  | Zneg p => - of_uint63 (Uint63.of_Z (Zpos p))
  end.

Definition f_ln2 : float := 0x1.62e42fefa39efp-1.
Definition f_pi : float := 0x1.921fb54442d18p+1.

(** exp(r) by its Taylor polynomial of degree n: 1 + r/k (1 + r/(k+1) ...). *)
Fixpoint f_exp_poly (n : nat) (k r : float) : float :=
  match n with O => 1 | S m => 1 + r / k * f_exp_poly m (k + 1) r end.
(** The nearest integer of a small float, through an integer comparison search. *)
Definition f_round (x : float) : Z :=
  let (m, e) := frshiftexp (abs x + 0.5) in
  (* abs x + 0.5 = m * 2^(e - 2101), m in [0.5, 1): the integer part. *)
  let sh := (Uint63.to_Z e - 2101)%Z in
  let i := Z.shiftr (Uint63.to_Z (normfr_mantissa m)) (53 - sh) in
  if x <? 0 then (- i)%Z else i.
Definition f_exp (x : float) : float :=
  if is_nan x then x
  else if 710 <? x then infinity
  else if x <? -745 then 0
  else let k := f_round (x / f_ln2) in
       let r := x - f_ofZ k * f_ln2 in
       ldshiftexp (f_exp_poly 22 1 r) (Uint63.of_Z (k + 2101)).

(** 2 artanh(t) = 2 (t + t^3/3 + ...). *)
Fixpoint f_artanh_poly (n : nat) (k t2 : float) : float :=
  match n with O => 0 | S m => 1 / k + t2 * f_artanh_poly m (k + 2) t2 end.
Definition f_ln (x : float) : float :=
  if is_nan x then x
  else if x <? 0 then nan
  else if x =? 0 then neg_infinity
  else if is_infinity x then x
  else let (m, e) := frshiftexp x in
       let k := (Uint63.to_Z e - 2101)%Z in
       let '(m, k) := if m <? 0x1.6a09e667f3bcdp-1 then (m * 2, (k - 1)%Z) else (m, k) in
       let t := (m - 1) / (m + 1) in
       f_ofZ k * f_ln2 + 2 * t * f_artanh_poly 24 1 (t * t).

#[export] Instance Num_float : Num float := {
  nofZ := f_ofZ;
  nadd := PrimFloat.add; nsub := PrimFloat.sub; nmul := PrimFloat.mul; ndiv := PrimFloat.div;
  nneg := PrimFloat.opp; nabs := PrimFloat.abs; nsqrt := PrimFloat.sqrt; nexp := f_exp; nln := f_ln;
  nltb := PrimFloat.ltb; nleb := PrimFloat.leb; neqb := PrimFloat.eqb;
  nisnan := is_nan; nisinf := is_infinity; nnan := nan; npi := f_pi }.

