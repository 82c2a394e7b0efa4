(** Proofs about binary64 results. *)
From Coq Require Import String.
From Coq Require Import List ZArith Bool Arith Reals Lra Lia Permutation.
From Flocq Require Import Core IEEE754.BinarySingleNaN.
From Verif Require Import PyBase Num ExtReal NumPy Dataset Preproc Mos NumB64 SpecDataset SpecMos SpecB64
  BaseProofs ExtRealProofs ArrayProofs MosProofs.
Import ListNotations.
Local Open Scope list_scope.
Local Open Scope R_scope.

Notation fexp64 := (FLT_exp (-1074) 53).
#[local] Existing Instance b64_prec.
#[local] Existing Instance b64_emax.

Lemma fexp_valid : Valid_exp fexp64.
Proof. apply FLT_exp_valid. reflexivity. Qed.
#[local] Existing Instance fexp_valid.

Lemma rnd_le : forall x y, x <= y -> rnd x <= rnd y.
Proof. intros. unfold rnd. apply round_le; [exact fexp_valid|apply valid_rnd_N|assumption]. Qed.
Lemma rnd_fmt : forall x, generic_format radix2 fexp64 x -> rnd x = x.
Proof. intros. unfold rnd. apply round_generic; [apply valid_rnd_N|assumption]. Qed.
Lemma fmt_IZR : forall k : Z, (Z.abs k < 2 ^ 53)%Z -> generic_format radix2 fexp64 (IZR k).
Proof.
  intros k H. apply generic_format_FLT. exists (Float radix2 k 0); [unfold F2R; cbn; lra|exact H|cbn; lia].
Qed.
Lemma fmt_p53 : generic_format radix2 fexp64 (IZR (2 ^ 53)).
Proof.
  apply generic_format_FLT. exists (Float radix2 (2 ^ 52) 1); [|cbn; lia|cbn; lia]. unfold F2R. cbn [Fnum Fexp].
  change (bpow radix2 1) with (IZR 2). rewrite <- mult_IZR. reflexivity.
Qed.
Lemma rnd_big : forall x, Rabs x <= IZR (2 ^ 53) -> Rabs (rnd x) < bpow radix2 1024.
Proof.
  intros x H. apply Rle_lt_trans with (IZR (2 ^ 53)).
  - unfold rnd. apply abs_round_le_generic; [exact fexp_valid|apply valid_rnd_N|exact fmt_p53|exact H].
  - rewrite (IZR_Zpower radix2) by lia. apply bpow_lt. reflexivity.
Qed.

(** [x] is finite with value [v]. *)
Definition val (x : b64) (v : R) : Prop := is_finite x = true /\ B2R x = v.
Lemma val_ef : forall x v, val x v <-> b2ef x = Fin v.
Proof.
  intros [s|[|]| |s m e H] v; unfold val; cbn [is_finite b2ef]; split; intro E; try discriminate; try (destruct E; discriminate).
  - destruct E as [_ <-]. reflexivity.
  - injection E as <-. split; reflexivity.
  - destruct E as [_ <-]. reflexivity.
  - injection E as <-. split; reflexivity.
Qed.

Section Ops.
  Variables bexp bln : b64 -> b64.
  Let NB := Num_b64 bexp bln.
  #[local] Existing Instance NB.

  Lemma val_add : forall x y u v, val x u -> val y v -> Rabs (rnd (u + v)) < bpow radix2 1024 -> val (nadd x y) (rnd (u + v)).
  Proof.
    intros x y u v (F1 & <-) (F2 & <-) H. pose proof (Bplus_correct 53 1024 _ _ mode_NE x y F1 F2) as C.
    rewrite Rlt_bool_true in C; [|exact H]. destruct C as (C1 & C2 & _). split; [exact C2|exact C1].
  Qed.
  Lemma val_sub : forall x y u v, val x u -> val y v -> Rabs (rnd (u - v)) < bpow radix2 1024 -> val (nsub x y) (rnd (u - v)).
  Proof.
    intros x y u v (F1 & <-) (F2 & <-) H. pose proof (Bminus_correct 53 1024 _ _ mode_NE x y F1 F2) as C.
    rewrite Rlt_bool_true in C; [|exact H]. destruct C as (C1 & C2 & _). split; [exact C2|exact C1].
  Qed.
  Lemma val_div : forall x y u v, val x u -> val y v -> v <> 0 -> Rabs (rnd (u / v)) < bpow radix2 1024 -> val (ndiv x y) (rnd (u / v)).
  Proof.
    intros x y u v (F1 & <-) (F2 & <-) H0 H. pose proof (Bdiv_correct 53 1024 _ _ mode_NE x y H0) as C.
    rewrite Rlt_bool_true in C; [|exact H]. destruct C as (C1 & C2 & _). split; [rewrite <- F1; exact C2|exact C1].
  Qed.
  Lemma val_ofZ : forall k, (Z.abs k < 2 ^ 53)%Z -> val (nofZ k) (IZR k).
  Proof.
    intros k H. pose proof (binary_normalize_correct 53 1024 _ _ mode_NE k 0 false) as C. cbn zeta in C.
    assert (E : F2R (Float radix2 k 0) = IZR k) by (unfold F2R; cbn; lra). rewrite E in C.
    change (round radix2 (SpecFloat.fexp 53 1024) (round_mode mode_NE) (IZR k)) with (rnd (IZR k)) in C.
    rewrite (rnd_fmt _ (fmt_IZR k H)) in C. rewrite Rlt_bool_true in C.
    - destruct C as (C1 & C2 & _). split; [exact C2|exact C1].
    - rewrite <- (rnd_fmt _ (fmt_IZR k H)). apply rnd_big. rewrite <- abs_IZR. apply IZR_le. lia.
  Qed.
End Ops.
