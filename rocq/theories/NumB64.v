(** The binary64 instance of [Num] on Flocq's IEEE-754 data type: every operation
    is rounded to nearest, ties to even, as numpy's float64 does.  Exp and log,
    which IEEE-754 does not fix, are arguments.  NaNs are not distinguished. *)
From Coq Require Import ZArith Bool Reals.
From Flocq Require Import Core IEEE754.BinarySingleNaN.
From Verif Require Import Num.

Definition b64 := binary_float 53 1024.

Lemma b64_prec : FLX.Prec_gt_0 53.
Proof. reflexivity. Qed.
Lemma b64_emax : Prec_lt_emax 53 1024.
Proof. reflexivity. Qed.

(** m * 2^e, rounded. *)
Definition b64_of (m e : Z) : b64 := @binary_normalize 53 1024 b64_prec b64_emax mode_NE m e false.
Definition b64_nan : b64 := B754_nan.

(** numpy float64 arithmetic; np.pi is 884279719003555 / 2^48. *)
Definition Num_b64 (bexp bln : b64 -> b64) : Num b64 := {|
  nofZ := fun z => b64_of z 0;
  nadd := @Bplus 53 1024 b64_prec b64_emax mode_NE;
  nsub := @Bminus 53 1024 b64_prec b64_emax mode_NE;
  nmul := @Bmult 53 1024 b64_prec b64_emax mode_NE;
  ndiv := @Bdiv 53 1024 b64_prec b64_emax mode_NE;
  nneg := @Bopp 53 1024; nabs := @Babs 53 1024;
  nsqrt := @Bsqrt 53 1024 b64_prec b64_emax mode_NE;
  nexp := bexp; nln := bln;
  nltb := @Bltb 53 1024; nleb := @Bleb 53 1024; neqb := @Beqb 53 1024;
  nisnan := @is_nan 53 1024;
  nisinf := fun x => match x with B754_infinity _ => true | _ => false end;
  nnan := b64_nan; npi := b64_of 884279719003555 (-48) |}.
