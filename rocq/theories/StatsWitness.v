(** Concrete data for the examples of claims C87 and C88. *)
From Coq Require Import Reals List Bool Arith ZArith Lra Lia.
From Verif Require Import PyBase Num NumPy ExtReal ExtRealProofs Stats SpecStats StatsProofs Stats2Proofs ConvolveProofs.
Import ListNotations.
Local Open Scope R_scope.

Lemma w_spans : forall lo hi, spans [1; 2; 2; 5] lo hi -> lo = 1 /\ hi = 5.
Proof.
  intros lo hi [a [b [Ia [Ib [V [S1 S2]]]]]].
  assert (A1 := V 1 ltac:(cbn; auto)). assert (A5 := V 5 ltac:(cbn; auto)).
  assert (a = 1) by (destruct Ia as [<-|[<-|[<-|[<-|[]]]]]; lra). assert (b = 5) by (destruct Ib as [<-|[<-|[<-|[<-|[]]]]]; lra).
  destruct (S1 ltac:(lra)). lra.
Qed.

(** A triangle between -1 and 1 and its inverse at 0. *)
Definition triangle (x : R) : R := Rmax 0 (1 - Rabs x).
Definition triangleF (x : ef) : ef := match x with Fin r => Fin (triangle r) | _ => NaN end.
Lemma triangle_even : forall x, 0 <= triangle x /\ triangle x = triangle (- x).
Proof. intro x. unfold triangle. split; [apply Rmax_l|rewrite Rabs_Ropp; reflexivity]. Qed.
Lemma triangle_1 : triangle 1 = 0.
Proof. unfold triangle. rewrite Rabs_pos_eq by lra. replace (1 - 1) with 0 by lra. apply Rmax_left. lra. Qed.
Lemma triangle_m1 : triangle (-1) = 0.
Proof. unfold triangle. replace (Rabs (-1)) with 1; [replace (1 - 1) with 0 by lra; apply Rmax_left; lra|]. rewrite Rabs_left by lra. lra. Qed.
Lemma triangle_0 : triangle 0 = 1.
Proof. unfold triangle. rewrite Rabs_R0, Rmax_right; lra. Qed.
Lemma triangle_case : conv_case triangle triangle triangleF triangleF (fun _ => 2%nat) (fun _ _ => Ok (Fin 1)) Ok 1 0 0 1 1 2.
Proof.
  unfold conv_case, covers. rewrite (Rmax_left 1 1) by lra. cbn [INR]. repeat split; try reflexivity; lra.
Qed.
Lemma triangle_mass0 : cell_mass triangle 1 1 2 0 = / 2.
Proof.
  unfold cell_mass, point. cbn [INR Nat.eqb]. replace (-(1) + 0 * 1) with (-1) by lra. replace (-(1) + 1 * 1) with 0 by lra. rewrite triangle_m1, triangle_0. lra.
Qed.
Lemma triangle_mass1 : cell_mass triangle 1 1 2 1 = 1.
Proof. unfold cell_mass, point. cbn [INR Nat.eqb]. replace (-(1) + 1 * 1) with 0 by lra. rewrite triangle_0. lra. Qed.
Definition tri_conv : conv ef := conv_new triangleF triangleF (Fin 1) (Fin 0) (Fin 0).
Lemma triangle_values :
  snd (conv_pdf (fun _ => 2%nat) (fun _ _ => Ok (Fin 1)) tri_conv (Fin (-1))) = Ok (Fin (/ 4)) /\
  snd (conv_pdf (fun _ => 2%nat) (fun _ _ => Ok (Fin 1)) tri_conv (Fin 0)) = Ok (Fin 1).
Proof.
  assert (A0 := at_point _ _ _ _ _ _ _ _ _ _ _ _ triangle_case 0 ltac:(lia)). assert (A1 := at_point _ _ _ _ _ _ _ _ _ _ _ _ triangle_case 1 ltac:(lia)).
  fold tri_conv in A0, A1. rewrite (Rmax_left 1 1) in A0, A1 by lra. unfold point in A0, A1. cbn [INR] in A0, A1.
  replace (-(1) + 0 * 1) with (-1) in A0 by lra. replace (-(1) + 1 * 1) with 0 in A1 by lra. rewrite A0, A1.
  unfold pdf_at. rewrite (Rmax_left 1 1) by lra. unfold idx_mass. cbn [Nat.sub Nat.div Nat.divmod fst Nat.add seq map Nat.eqb Rsum fold_right].
  rewrite triangle_mass0, triangle_mass1. unfold Rsum. cbn [fold_right]. split; f_equal; f_equal; lra.
Qed.
Lemma c88_symmetric_refuted : exists f F ceil inverse delta ft a N x u v,
  conv_case f f F F ceil inverse Ok delta ft ft a a N /\ (forall y, 0 <= f y /\ f y = f (- y)) /\ f a = ft /\
  snd (conv_pdf ceil inverse (conv_new F F (Fin delta) (Fin ft) (Fin ft)) (Fin x)) = Ok (Fin u) /\
  snd (conv_pdf ceil inverse (conv_new F F (Fin delta) (Fin ft) (Fin ft)) (Fin (- x))) = Ok (Fin v) /\ u <> v.
Proof.
  exists triangle, triangleF, (fun _ => 2%nat), (fun _ _ => Ok (Fin 1)), 1, 0, 1, 2%nat, 1, 0, (/ 4). split; [apply triangle_case|]. split; [apply triangle_even|].
  split; [apply triangle_1|]. split; [|split; [|lra]].
  - rewrite (c88_outside_ _ _ _ _ _ _ _ _ _ _ _ _ triangle_case 1) by (right; unfold point; rewrite Rmax_left by lra; cbn [Nat.sub INR]; lra). f_equal. f_equal. lra.
  - apply (proj1 triangle_values).
Qed.
