(** Rounded sums of real numbers: exact for whole numbers, error bounds. *)
From Coq Require Import List ZArith Bool Arith Reals Lra Lia Permutation.
From Flocq Require Import Core Relative Plus_error.
From Verif Require Import PyBase Num ExtReal NumPy NumB64 SpecMos SpecB64 ExtRealProofs B64Proofs.
Import ListNotations.
Local Open Scope list_scope.
Local Open Scope R_scope.
#[local] Existing Instance b64_prec.
#[local] Existing Instance fexp_valid.

(** Sums in some order and bracketing, every addition rounded. *)
Inductive vsum : list R -> R -> Prop :=
| vs_one : forall v, generic_format radix2 fexp64 v -> vsum [v] v
| vs_two : forall l1 l2 l x y, vsum l1 x -> vsum l2 y -> Permutation (l1 ++ l2) l -> vsum l (rnd (x + y)).

Lemma rnd_format : forall x, generic_format radix2 fexp64 (rnd x).
Proof. intro x. unfold rnd. apply generic_format_round; [exact fexp_valid|apply valid_rnd_N]. Qed.
Lemma vsum_fmt : forall l x, vsum l x -> generic_format radix2 fexp64 x.
Proof. intros l x H. destruct H; [assumption|apply rnd_format]. Qed.
Lemma vsum_len : forall l x, vsum l x -> (1 <= length l)%nat.
Proof.
  intros l x H. induction H as [v F|l1 l2 l x y H1 I1 H2 I2 P]; [cbn; lia|].
  rewrite <- (Permutation_length P), app_length. lia.
Qed.

Lemma Rsum_app' : forall l l', Rsum (l ++ l') = Rsum l + Rsum l'.
Proof. induction l as [|x l IH]; intro l'; cbn [app Rsum fold_right] in *; [unfold Rsum; cbn; lra|]. change (x + Rsum (l ++ l') = (x + Rsum l) + Rsum l'). rewrite IH. lra. Qed.
Lemma abs_sum_app : forall l l', abs_sum (l ++ l') = abs_sum l + abs_sum l'.
Proof. intros. unfold abs_sum. rewrite map_app. apply Rsum_app'. Qed.
Lemma abs_sum_perm : forall l l', Permutation l l' -> abs_sum l = abs_sum l'.
Proof. intros l l' P. unfold abs_sum. apply Rsum_perm, Permutation_map, P. Qed.
Lemma abs_sum_pos : forall l, 0 <= abs_sum l.
Proof. induction l as [|x l IH]; [apply Rle_refl|]. change (0 <= Rabs x + abs_sum l). pose proof (Rabs_pos x). lra. Qed.
Lemma Rsum_abs : forall l, Rabs (Rsum l) <= abs_sum l.
Proof.
  induction l as [|x l IH]; [change (Rabs 0 <= 0); rewrite Rabs_R0; lra|]. change (Rabs (x + Rsum l) <= Rabs x + abs_sum l).
  pose proof (Rabs_triang x (Rsum l)). lra.
Qed.

(** *** Whole numbers *)
Definition wholes (l : list R) : Prop := Forall (fun x => exists k : Z, x = IZR k) l.
Lemma wholes_sum : forall l, wholes l -> exists k : Z, Rsum l = IZR k.
Proof.
  intros l H. induction H as [|x l (k & ->) H (k' & IH)]; [exists 0%Z; reflexivity|]. exists (k + k')%Z.
  change (IZR k + Rsum l = IZR (k + k')). rewrite IH, plus_IZR. reflexivity.
Qed.
Lemma whole_fmt : forall l, wholes l -> abs_sum l < IZR (2 ^ 53) -> generic_format radix2 fexp64 (Rsum l).
Proof.
  intros l H B. destruct (wholes_sum l H) as (k & E). pose proof (Rsum_abs l) as A. rewrite E in *. apply fmt_IZR.
  rewrite <- abs_IZR in A. apply lt_IZR. lra.
Qed.
Lemma vsum_whole : forall l x, vsum l x -> wholes l -> abs_sum l < IZR (2 ^ 53) -> x = Rsum l.
Proof.
  intros l x H. induction H as [v F|l1 l2 l x y H1 I1 H2 I2 P]; intros W B; [unfold Rsum; cbn; lra|].
  assert (W' : wholes (l1 ++ l2)) by (unfold wholes in *; rewrite P; exact W). apply Forall_app in W' as (W1 & W2).
  rewrite <- (abs_sum_perm _ _ P), abs_sum_app in B. pose proof (abs_sum_pos l1). pose proof (abs_sum_pos l2).
  rewrite (I1 W1), (I2 W2) by lra. rewrite <- (Rsum_perm _ _ P), <- Rsum_app'. apply rnd_fmt. apply whole_fmt.
  - apply Forall_app. split; assumption.
  - rewrite abs_sum_app. exact B.
Qed.

(** *** Error bounds *)
Lemma u64_pos : 0 < u64.
Proof. unfold u64. pose proof (bpow_gt_0 radix2 (-52)). lra. Qed.

Lemma rnd_add : forall x y, generic_format radix2 fexp64 x -> generic_format radix2 fexp64 y ->
  Rabs (rnd (x + y) - (x + y)) <= u64 * Rabs (x + y).
Proof.
  intros x y Fx Fy. destruct (FLT_plus_error_N_ex radix2 (-1074) 53 (fun z => negb (Z.even z)) x y Fx Fy) as (e & He & E).
  change (rnd (x + y) = (x + y) * (1 + e)) in E. rewrite E. replace ((x + y) * (1 + e) - (x + y)) with (e * (x + y)) by ring.
  rewrite Rabs_mult. apply Rmult_le_compat_r; [apply Rabs_pos|]. eapply Rle_trans; [exact He|].
  apply (u_rod1pu_ro_le_u_ro radix2 53).
Qed.

Lemma rnd_any : forall x, Rabs (rnd x - x) <= u64 * Rabs x + tiny64.
Proof.
  intro x. assert (T0 : 0 <= tiny64) by (unfold tiny64; pose proof (bpow_gt_0 radix2 (-1074)); lra).
  destruct (Rle_or_lt (bpow radix2 (-1074 + 53 - 1)) (Rabs x)) as [H|H].
  - pose proof (relative_error_N_FLT radix2 (-1074) 53 b64_prec (fun z => negb (Z.even z)) x H) as E.
    change (Rabs (rnd x - x) <= u64 * Rabs x) in E. lra.
  - pose proof (error_le_half_ulp radix2 fexp64 (fun z => negb (Z.even z)) x) as E.
    rewrite (ulp_FLT_small radix2 (-1074) 53) in E.
    + change (Rabs (rnd x - x) <= tiny64) in E. pose proof (Rabs_pos x). pose proof u64_pos. nra.
    + eapply Rlt_le_trans; [exact H|]. apply bpow_le. lia.
Qed.

Definition gam (n : nat) : R := (1 + u64) ^ n - 1.
Lemma gam_mono : forall m n, (m <= n)%nat -> gam m <= gam n.
Proof. intros m n H. unfold gam. pose proof u64_pos. pose proof (Rle_pow (1 + u64) m n ltac:(lra) H). lra. Qed.
Lemma gam_step : forall m n, (m < n)%nat -> (1 + u64) * gam m + u64 <= gam n.
Proof. intros m n H. pose proof (gam_mono (S m) n H) as G. unfold gam in *. cbn [pow] in *. lra. Qed.
Lemma gam_0 : gam 0 = 0.
Proof. unfold gam. cbn. lra. Qed.
Lemma gam_pos : forall n, 0 <= gam n.
Proof. intro n. rewrite <- gam_0. apply gam_mono. lia. Qed.
Lemma gam_small : forall n, INR n * u64 <= / 2 -> gam n <= 1.
Proof.
  intros n H. pose proof u64_pos as U.
  assert (B : forall k, (k <= n)%nat -> (1 - INR k * u64) * (1 + u64) ^ k <= 1).
  { induction k as [|k IH]; intro L; [cbn; lra|]. specialize (IH ltac:(lia)). rewrite S_INR. cbn [pow].
    assert (P : 0 < (1 + u64) ^ k) by (apply pow_lt; lra).
    assert (E : (1 - (INR k + 1) * u64) * ((1 + u64) * (1 + u64) ^ k) =
                (1 - INR k * u64) * (1 + u64) ^ k - (INR k + 1) * (u64 * u64) * (1 + u64) ^ k) by ring.
    rewrite E. pose proof (pos_INR k). assert (0 <= (INR k + 1) * (u64 * u64) * (1 + u64) ^ k) by (apply Rmult_le_pos; [|lra]; nra). lra. }
  specialize (B n (le_n n)). unfold gam. assert (P : 0 < (1 + u64) ^ n) by (apply pow_lt; lra). nra.
Qed.

Lemma vsum_error : forall l x, vsum l x -> Rabs (x - Rsum l) <= gam (length l - 1) * abs_sum l.
Proof.
  intros l x H. induction H as [v F|l1 l2 l x y H1 I1 H2 I2 P].
  - cbn [length Nat.sub]. rewrite gam_0. unfold Rsum; cbn. replace (v - (v + 0)) with 0 by ring. rewrite Rabs_R0. lra.
  - pose proof (vsum_len _ _ H1) as L1. pose proof (vsum_len _ _ H2) as L2.
    rewrite <- (Permutation_length P), <- (Rsum_perm _ _ P), <- (abs_sum_perm _ _ P), app_length, Rsum_app', abs_sum_app.
    set (n := (length l1 + length l2 - 1)%nat).
    pose proof (rnd_add x y (vsum_fmt _ _ H1) (vsum_fmt _ _ H2)) as E.
    pose proof (gam_step (length l1 - 1) n ltac:(unfold n; lia)) as G1. pose proof (gam_step (length l2 - 1) n ltac:(unfold n; lia)) as G2.
    pose proof (abs_sum_pos l1) as A1. pose proof (abs_sum_pos l2) as A2. pose proof u64_pos as U.
    pose proof (Rsum_abs l1) as B1. pose proof (Rsum_abs l2) as B2.
    assert (D : Rabs (x + y - (Rsum l1 + Rsum l2)) <= gam (length l1 - 1) * abs_sum l1 + gam (length l2 - 1) * abs_sum l2).
    { replace (x + y - (Rsum l1 + Rsum l2)) with ((x - Rsum l1) + (y - Rsum l2)) by ring.
      eapply Rle_trans; [apply Rabs_triang|]. lra. }
    assert (C : Rabs (x + y) <= Rabs (x + y - (Rsum l1 + Rsum l2)) + (abs_sum l1 + abs_sum l2)).
    { replace (x + y) with ((x + y - (Rsum l1 + Rsum l2)) + (Rsum l1 + Rsum l2)) at 1 by ring.
      eapply Rle_trans; [apply Rabs_triang|]. pose proof (Rabs_triang (Rsum l1) (Rsum l2)). lra. }
    replace (rnd (x + y) - (Rsum l1 + Rsum l2)) with ((rnd (x + y) - (x + y)) + (x + y - (Rsum l1 + Rsum l2))) by ring.
    eapply Rle_trans; [apply Rabs_triang|].
    assert (M1 : ((1 + u64) * gam (length l1 - 1) + u64) * abs_sum l1 <= gam n * abs_sum l1) by (apply Rmult_le_compat_r; lra).
    assert (M2 : ((1 + u64) * gam (length l2 - 1) + u64) * abs_sum l2 <= gam n * abs_sum l2) by (apply Rmult_le_compat_r; lra).
    assert (M3 : u64 * Rabs (x + y) <= u64 * (gam (length l1 - 1) * abs_sum l1 + gam (length l2 - 1) * abs_sum l2 + (abs_sum l1 + abs_sum l2)))
      by (apply Rmult_le_compat_l; lra).
    lra.
Qed.

Lemma vsum_bound : forall l x, vsum l x -> INR (length l) * u64 <= / 2 -> Rabs x <= 2 * abs_sum l.
Proof.
  intros l x H B. pose proof (vsum_error l x H) as E. pose proof (vsum_len _ _ H) as L.
  assert (G : gam (length l - 1) <= 1) by (apply Rle_trans with (gam (length l)); [apply gam_mono; lia|apply gam_small, B]).
  pose proof (abs_sum_pos l). pose proof (Rsum_abs l). pose proof (gam_pos (length l - 1)).
  replace x with ((x - Rsum l) + Rsum l) by ring. eapply Rle_trans; [apply Rabs_triang|].
  assert (gam (length l - 1) * abs_sum l <= 1 * abs_sum l) by (apply Rmult_le_compat_r; lra). lra.
Qed.
