(** A table of comparisons in two tiers (C131). *)
From Coq Require Import List ZArith Bool Arith Reals Lia Lra.
From Verif Require Import PyBase Num ExtReal NumPy SpecMos PairedComp SpecBt SpecBtLimit BtProofs BtLimitProofs BtEndsProofs.
Import ListNotations.
Local Open Scope list_scope.
Local Open Scope R_scope.

(** Two pairs of videos, even within each; the first pair beat the second. *)
Definition w_tiers (i j : nat) : R :=
  match i, j with O, 1%nat | 1%nat, O | 2%nat, 3%nat | 3%nat, 2%nat => 1 | O, 2%nat => 1 | _, _ => 0 end.
Definition tiers_arr : arr2 ef := Arr2 4 4 (fun i j => Fin (w_tiers i j)).
Ltac four := repeat match goal with H : (?i < 4)%nat |- _ => destruct i as [|[|[|[|?]]]]; [| | | |exfalso; lia]; clear H end.
Lemma tiers_nonneg : nonneg_counts 4 w_tiers. Proof. intros i j Hi Hj. four; unfold w_tiers; lra. Qed.
Lemma tiers_won : each_won 4 w_tiers. Proof. intros i Hi. unfold wins, total, Rsum. four; cbn; lra. Qed.
Lemma tiers_connected : connected 4 w_tiers.
Proof.
  assert (S : forall i j, (i < 4)%nat -> (j < 4)%nat -> 0 < games w_tiers i j -> forall k, above 4 (games w_tiers) j k -> above 4 (games w_tiers) i k) by (intros i j Hi Hj W k A; apply above_beat with j; assumption).
  assert (R0 : forall i, (i < 4)%nat -> above 4 (games w_tiers) i i) by (intros; constructor; assumption).
  assert (G01 := S 0%nat 1%nat ltac:(lia) ltac:(lia) ltac:(unfold games, w_tiers; lra)). assert (G10 := S 1%nat 0%nat ltac:(lia) ltac:(lia) ltac:(unfold games, w_tiers; lra)).
  assert (G02 := S 0%nat 2%nat ltac:(lia) ltac:(lia) ltac:(unfold games, w_tiers; lra)). assert (G20 := S 2%nat 0%nat ltac:(lia) ltac:(lia) ltac:(unfold games, w_tiers; lra)).
  assert (G23 := S 2%nat 3%nat ltac:(lia) ltac:(lia) ltac:(unfold games, w_tiers; lra)). assert (G32 := S 3%nat 2%nat ltac:(lia) ltac:(lia) ltac:(unfold games, w_tiers; lra)).
  assert (R00 := R0 0%nat ltac:(lia)). assert (R11 := R0 1%nat ltac:(lia)). assert (R22 := R0 2%nat ltac:(lia)). assert (R33 := R0 3%nat ltac:(lia)).
  intros i j Hi Hj. four; auto 9.
Qed.
Lemma tiers_not_linked : ~ linked 4 w_tiers.
Proof.
  intro L. destruct (crossing 4 w_tiers 2 0 (fun k => (2 <= k)%nat) (L 2%nat 0%nat ltac:(lia) ltac:(lia)) (le_n 2) (Nat.nle_succ_0 1)) as (x & y & Hx & Hy & Sx & Sy & W).
  four; cbn in W; try lra; lia.
Qed.

Lemma c131_arbitrary : forall pinv, (forall x, exists y, pinv x = Ok y) -> exists a m w fuel r,
  counts a m w /\ nonneg_counts m w /\ connected m w /\ bt_resolve pinv fuel a = Ok r /\ forall p, ~ most_likely m w p.
Proof.
  intros pinv Hp. destruct (won_ends pinv tiers_arr 4 w_tiers ltac:(lia) ltac:(repeat split) tiers_nonneg tiers_won Hp) as (fuel & r & E).
  exists tiers_arr, 4%nat, w_tiers, fuel, r. split; [repeat split|]. split; [exact tiers_nonneg|]. split; [exact tiers_connected|]. split; [exact E|].
  intros p M. apply tiers_not_linked. apply (c125_exists 4 w_tiers ltac:(lia) tiers_nonneg tiers_connected). exists p. exact M.
Qed.
