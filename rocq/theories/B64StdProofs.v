(** Standard deviations and margins in binary64. *)
From Coq Require Import String.
From Coq Require Import List ZArith Bool Arith Reals Lra Lia Permutation.
From Flocq Require Import Core IEEE754.BinarySingleNaN.
From Verif Require Import PyBase Num ExtReal NumPy Dataset Preproc Mos NumB64 SpecDataset SpecMos SpecB64
  BaseProofs ExtRealProofs ArrayProofs MosProofs B64Proofs B64SumProofs B64MosProofs.
Import ListNotations.
Local Open Scope list_scope.
Local Open Scope R_scope.
#[local] Existing Instance b64_prec.
#[local] Existing Instance b64_emax.
#[local] Existing Instance fexp_valid.

(** ** Bounds by powers of two *)
Lemma fmt_bpow : forall k, (-1074 <= k)%Z -> generic_format radix2 fexp64 (bpow radix2 k).
Proof. intros k H. apply generic_format_bpow. unfold FLT_exp. lia. Qed.
Lemma rnd_le_bpow : forall x k, (-1074 <= k)%Z -> Rabs x <= bpow radix2 k -> Rabs (rnd x) <= bpow radix2 k.
Proof. intros x k H B. unfold rnd. apply abs_round_le_generic; [exact fexp_valid|apply valid_rnd_N|apply fmt_bpow, H|exact B]. Qed.
Lemma rnd_ge_bpow : forall x k, (-1074 <= k)%Z -> bpow radix2 k <= x -> bpow radix2 k <= rnd x.
Proof. intros x k H B. rewrite <- (rnd_fmt _ (fmt_bpow k H)). apply rnd_le, B. Qed.
Lemma rnd_0 : rnd 0 = 0.
Proof. apply rnd_fmt, generic_format_0. Qed.
Lemma rnd_pos : forall x, 0 <= x -> 0 <= rnd x.
Proof. intros x H. rewrite <- rnd_0. apply rnd_le, H. Qed.
Lemma below1024 : forall x k, (k < 1024)%Z -> Rabs x <= bpow radix2 k -> Rabs x < bpow radix2 1024.
Proof. intros x k H B. eapply Rle_lt_trans; [exact B|]. apply bpow_lt, H. Qed.

(** ** Sums of non-negative numbers *)
Lemma vsum_nonneg : forall l x, vsum l x -> (forall y, In y l -> 0 <= y) -> 0 <= x /\ forall y, In y l -> y <= x.
Proof.
  intros l x H. induction H as [v F|l1 l2 l x y H1 I1 H2 I2 P]; intro Hp.
  - split; [apply Hp; left; reflexivity|]. intros y [<-|[]]. lra.
  - destruct (I1 (fun z Hz => Hp z (Permutation_in _ P (in_or_app _ _ _ (or_introl Hz))))) as (A1 & B1).
    destruct (I2 (fun z Hz => Hp z (Permutation_in _ P (in_or_app _ _ _ (or_intror Hz))))) as (A2 & B2).
    assert (C1 : x <= rnd (x + y)) by (rewrite <- (rnd_fmt x (vsum_fmt _ _ H1)) at 1; apply rnd_le; lra).
    assert (C2 : y <= rnd (x + y)) by (rewrite <- (rnd_fmt y (vsum_fmt _ _ H2)) at 1; apply rnd_le; lra).
    split; [lra|]. intros z Hz. apply (Permutation_in _ (Permutation_sym P)) in Hz. apply in_app_or in Hz as [Hz|Hz].
    + specialize (B1 z Hz). lra.
    + specialize (B2 z Hz). lra.
Qed.
Lemma vsum_zero : forall l x, vsum l x -> (forall y, In y l -> y = 0) -> x = 0.
Proof.
  intros l x H. induction H as [v F|l1 l2 l x y H1 I1 H2 I2 P]; intro Hp; [apply Hp; left; reflexivity|].
  rewrite I1, I2, Rplus_0_r; [apply rnd_0| |]; intros z Hz; apply Hp, (Permutation_in _ P), in_or_app; auto.
Qed.

Lemma abs_sum_le : forall l B, (forall x, In x l -> Rabs x <= B) -> abs_sum l <= INR (length l) * B.
Proof.
  induction l as [|x l IH]; intros B H; [change (0 <= 0 * B); lra|]. change (length (x :: l)) with (S (length l)). rewrite S_INR.
  change (Rabs x + abs_sum l <= (INR (length l) + 1) * B). pose proof (H x (or_introl eq_refl)). pose proof (IH B (fun y Hy => H y (or_intror Hy))). lra.
Qed.
Lemma abs_sum_In : forall l x, In x l -> Rabs x <= abs_sum l.
Proof.
  induction l as [|y l IH]; intros x H; [contradiction|]. destruct H as [<-|H]; change (abs_sum (y :: l)) with (Rabs y + abs_sum l).
  - pose proof (abs_sum_pos l). lra.
  - pose proof (IH x H). pose proof (Rabs_pos y). lra.
Qed.
Lemma few_INR : forall l, few l -> INR (length l) <= bpow radix2 52.
Proof. intros l H. rewrite INR_IZR_INZ. change (bpow radix2 52) with (IZR (2 ^ 52)). apply IZR_le, H. Qed.

(** The squared rounded deviations from [m]. *)
Definition sqdev (m x : R) : R := rnd (rnd (x - m) * rnd (x - m)).
Lemma sqdev_pos : forall m x, 0 <= sqdev m x.
Proof. intros. apply rnd_pos. nra. Qed.
Lemma sqdev_bound : forall m x, Rabs x <= bpow radix2 480 -> Rabs m <= bpow radix2 481 ->
  Rabs (rnd (x - m)) <= bpow radix2 482 /\ Rabs (sqdev m x) <= bpow radix2 964.
Proof.
  intros m x Hx Hm.
  assert (E1 : bpow radix2 481 = 2 * bpow radix2 480) by (change 481%Z with (1 + 480)%Z; rewrite bpow_plus; reflexivity).
  assert (E2 : bpow radix2 482 = 4 * bpow radix2 480) by (change 482%Z with (2 + 480)%Z; rewrite bpow_plus; reflexivity).
  assert (D : Rabs (rnd (x - m)) <= bpow radix2 482).
  { apply rnd_le_bpow; [lia|]. eapply Rle_trans; [apply Rabs_triang|]. rewrite Rabs_Ropp. pose proof (bpow_gt_0 radix2 480). lra. }
  split; [exact D|]. apply rnd_le_bpow; [lia|]. rewrite Rabs_mult. change 964%Z with (482 + 482)%Z. rewrite bpow_plus.
  apply Rmult_le_compat; try apply Rabs_pos; exact D.
Qed.

Section Std.
  Variables bexp bln : b64 -> b64.
  Let NB := Num_b64 bexp bln.
  #[local] Existing Instance NB.

  Lemma val_mul : forall x y u v, val x u -> val y v -> Rabs (rnd (u * v)) < bpow radix2 1024 -> val (nmul x y) (rnd (u * v)).
  Proof.
    intros x y u v (F1 & <-) (F2 & <-) H. pose proof (Bmult_correct 53 1024 _ _ mode_NE x y) as C.
    rewrite Rlt_bool_true in C; [|exact H]. destruct C as (C1 & C2 & _). split; [|exact C1].
    change (is_finite (Bmult mode_NE x y) = true). rewrite C2, F1, F2. reflexivity.
  Qed.
  Lemma val_sqrt : forall x u, val x u -> 0 <= u -> val (nsqrt x) (rnd (sqrt u)).
  Proof.
    intros x u (F & <-) H. pose proof (Bsqrt_correct 53 1024 _ _ mode_NE x) as (C1 & C2 & _). split; [|exact C1].
    change (is_finite (Bsqrt mode_NE x) = true). rewrite C2. destruct x as [s|s| |s m e B]; try discriminate; try reflexivity.
    destruct s; [|reflexivity]. exfalso. cbn in H. assert (F2R (Float radix2 (Zneg m) e) < 0) by (apply F2R_lt_0; reflexivity).
    change (F2R (Float radix2 (Zneg m) e)) with (F2R (Float radix2 (Z.neg m) e)) in *. lra.
  Qed.

  Lemma sqdev_val : forall l mu m, val mu m -> Rabs m <= bpow radix2 481 -> Forall (fun y => is_finite y = true) l ->
    (forall x, In x (map B2R l) -> Rabs x <= bpow radix2 480) ->
    Forall (fun y => is_finite y = true) (map (fun x => nsq (nsub x mu)) l) /\
    map B2R (map (fun x => nsq (nsub x mu)) l) = map (sqdev m) (map B2R l).
  Proof.
    induction l as [|x l IH]; intros mu m Hmu Hm HF HB; [split; [constructor|reflexivity]|].
    inversion HF as [|x' l' Fx Fl]; subst. destruct (IH mu m Hmu Hm Fl (fun y Hy => HB y (or_intror Hy))) as (I1 & I2).
    destruct (sqdev_bound m (B2R x) (HB _ (or_introl eq_refl)) Hm) as (D1 & D2).
    assert (VX : val x (B2R x)) by (split; [exact Fx|reflexivity]).
    assert (V1 : val (nsub x mu) (rnd (B2R x - m))) by (apply (val_sub bexp bln); [exact VX|exact Hmu|apply (below1024 _ 482); [lia|exact D1]]).
    assert (V2 : val (nsq (nsub x mu)) (sqdev m (B2R x))).
    { unfold nsq, sqdev. apply val_mul; [exact V1|exact V1|apply (below1024 _ 964); [lia|exact D2]]. }
    cbn [map]. split; [constructor; [apply V2|exact I1]|]. rewrite I2. f_equal. apply V2.
  Qed.

  Lemma div_small : forall u v k, 1 <= v -> Rabs u <= bpow radix2 k -> Rabs (u / v) <= bpow radix2 k.
  Proof.
    intros u v k Hv Hu. unfold Rdiv. rewrite Rabs_mult, (Rabs_pos_eq (/ v)) by (apply Rlt_le, Rinv_0_lt_compat; lra).
    apply Rle_trans with (Rabs u * 1); [|lra]. apply Rmult_le_compat_l; [apply Rabs_pos|]. rewrite <- Rinv_1. apply Rinv_le_contravar; lra.
  Qed.

  Lemma nofnat_val : forall n, (Z.of_nat n < 2 ^ 53)%Z -> val (nofnat n) (INR n).
  Proof. intros n H. rewrite INR_IZR_INZ. apply (val_ofZ bexp bln). lia. Qed.

  (** np.nanstd with ddof = 1, with all roundings. *)
  Lemma nanstd_val : forall l, Forall (fun y => is_finite y = true) (notnan l) -> modest (map B2R (notnan l)) ->
    (2 <= length (notnan l))%nat -> let vs := map B2R (notnan l) in exists t w,
      vsum vs t /\ vsum (map (sqdev (rnd (t / INR (length vs)))) vs) w /\ 0 <= w <= bpow radix2 1017 /\
      val (np_nanstd 1 l) (rnd (sqrt (rnd (w / INR (length vs - 1))))).
  Proof.
    intros l HF (M1 & M2) L vs. fold vs in M1, M2. unfold np_nanstd. set (p := notnan l) in *. assert (EL : length vs = length p) by apply map_length.
    assert (Hne : p <> []) by (destruct p; [cbn in L; lia|discriminate]).
    assert (MO : moderate vs) by (split; [exact M1|eapply Rle_trans; [exact M2|apply bpow_le; lia]]).
    destruct (np_sum_val bexp bln p Hne HF MO) as (t & V & S). fold vs in S.
    assert (P1 : 1 <= INR (length p)) by (change 1 with (INR 1); apply le_INR; lia).
    assert (P2 : 1 <= INR (length p - 1)) by (change 1 with (INR 1); apply le_INR; lia).
    pose proof (few_INR _ M1) as FI. unfold few in M1. rewrite EL in M1, FI.
    assert (Bt : Rabs t <= bpow radix2 481).
    { pose proof (vsum_bound _ _ S (few_u64 _ (proj1 MO))) as B. change 481%Z with (1 + 480)%Z. rewrite bpow_plus. change (bpow radix2 1) with 2. lra. }
    set (m := rnd (t / INR (length vs))).
    assert (Bm : Rabs m <= bpow radix2 481) by (apply rnd_le_bpow; [lia|]; apply div_small; [rewrite EL; exact P1|exact Bt]).
    assert (Vm : val (ndiv (np_sum p) (nofnat (length p))) m).
    { unfold m. rewrite EL. apply (val_div bexp bln); [exact V|apply nofnat_val; lia|lra|]. apply (below1024 _ 481); [lia|]. rewrite <- EL. exact Bm. }
    assert (HB : forall x, In x vs -> Rabs x <= bpow radix2 480) by (intros x Hx; pose proof (abs_sum_In _ _ Hx); lra).
    destruct (sqdev_val p _ m Vm Bm HF HB) as (F2 & E2).
    set (q := map (fun x => nsq (nsub x (ndiv (np_sum p) (nofnat (length p))))) p).
    change (map B2R q = map (sqdev m) vs) in E2. change (Forall (fun y => is_finite y = true) q) in F2.
    assert (Hq : q <> []) by (unfold q; destruct p; [contradiction|discriminate]).
    assert (AB : abs_sum (map B2R q) <= bpow radix2 1016).
    { rewrite E2. eapply Rle_trans; [apply (abs_sum_le _ (bpow radix2 964))|].
      - intros y Hy. apply in_map_iff in Hy as (x & <- & Hx). apply (sqdev_bound m x); [apply HB, Hx|exact Bm].
      - rewrite map_length. rewrite EL. change 1016%Z with (52 + 964)%Z. rewrite bpow_plus. apply Rmult_le_compat_r; [apply bpow_ge_0|exact FI]. }
    assert (FQ : few (map B2R q)) by (unfold few; rewrite E2, map_length, EL; exact M1).
    destruct (np_sum_val bexp bln q Hq F2) as (w & Vw & Sw); [split; [exact FQ|eapply Rle_trans; [exact AB|apply bpow_le; lia]]|].
    exists t, w. split; [exact S|]. assert (Sw' := Sw). rewrite E2 in Sw'. split; [exact Sw'|].
    assert (W0 : 0 <= w).
    { refine (proj1 (vsum_nonneg _ _ Sw' _)). intros y Hy. apply in_map_iff in Hy as (x & <- & _). apply sqdev_pos. }
    assert (W1 : w <= bpow radix2 1017).
    { pose proof (vsum_bound _ _ Sw (few_u64 _ FQ)) as B. rewrite Rabs_pos_eq in B by exact W0. change 1017%Z with (1 + 1016)%Z. rewrite bpow_plus.
      change (bpow radix2 1) with 2. lra. }
    split; [lra|]. rewrite EL.
    destruct (Nat.leb_spec (length p) 1) as [HL|HL]; [lia|].
    assert (D0 : 0 <= w / INR (length p - 1)) by (apply Rmult_le_pos; [exact W0|apply Rlt_le, Rinv_0_lt_compat; lra]).
    apply val_sqrt; [|apply rnd_pos, D0].
    apply (val_div bexp bln); [exact Vw|apply nofnat_val; lia|lra|]. apply (below1024 _ 1017); [lia|]. apply rnd_le_bpow; [lia|].
    apply div_small; [exact P2|rewrite Rabs_pos_eq by exact W0; exact W1].
  Qed.
End Std.

(** ** Whole votes: no spread exactly for unanimous votes *)
Lemma Rsum_below : forall l lo hi, In lo l -> (forall x, In x l -> x <= hi) -> Rsum l <= INR (length l) * hi - (hi - lo).
Proof.
  induction l as [|x l IH]; intros lo hi HI HB; [contradiction|]. change (length (x :: l)) with (S (length l)). rewrite S_INR.
  change (x + Rsum l <= (INR (length l) + 1) * hi - (hi - lo)). pose proof (HB x (or_introl eq_refl)) as Hx. destruct HI as [<-|HI].
  - assert (B : Rsum l <= INR (length l) * hi).
    { clear IH. induction l as [|y l IH]; [change (0 <= 0 * hi); lra|]. change (length (y :: l)) with (S (length l)). rewrite S_INR.
      change (y + Rsum l <= (INR (length l) + 1) * hi). pose proof (HB y (or_intror (or_introl eq_refl))).
      assert (Rsum l <= INR (length l) * hi) by (apply IH; intros z [<-|Hz]; apply HB; [left; reflexivity|right; right; exact Hz]). lra. }
    lra.
  - pose proof (IH lo hi HI (fun y Hy => HB y (or_intror Hy))). lra.
Qed.
Lemma Rsum_same : forall l x, (forall y, In y l -> y = x) -> Rsum l = INR (length l) * x.
Proof.
  induction l as [|y l IH]; intros x H; [change (0 = 0 * x); lra|]. change (length (y :: l)) with (S (length l)). rewrite S_INR.
  change (y + Rsum l = (INR (length l) + 1) * x). rewrite (H y (or_introl eq_refl)), (IH x (fun z Hz => H z (or_intror Hz))). lra.
Qed.

Lemma unanimous_dev : forall vs, vs <> [] -> unanimous vs -> (forall x, In x vs -> generic_format radix2 fexp64 x) ->
  forall x, In x vs -> sqdev (rnd (Rsum vs / INR (length vs))) x = 0.
Proof.
  intros vs Hne HU HF x Hx. rewrite (Rsum_same vs x (fun y Hy => HU y x Hy Hx)).
  assert (P : INR (length vs) <> 0) by (apply not_0_INR; destruct vs; [contradiction|discriminate]).
  replace (INR (length vs) * x / INR (length vs)) with x by (field; exact P). rewrite (rnd_fmt x (HF x Hx)). unfold sqdev.
  rewrite Rminus_diag_eq by reflexivity. rewrite rnd_0, Rmult_0_l. apply rnd_0.
Qed.

Lemma divided_dev : forall vs, wholes vs -> small_whole vs -> ~ unanimous vs -> exists x, In x vs /\
  bpow radix2 (-106) <= x - rnd (Rsum vs / INR (length vs)).
Proof.
  intros vs HW (HF & HS) HU. assert (Hne : vs <> []) by (intros ->; apply HU; intros x y []).
  destruct (extreme vs Hne) as (lo & hi & L & H & B). exists hi. split; [exact H|].
  assert (LH : lo < hi).
  { destruct (Rlt_le_dec lo hi) as [K|K]; [exact K|]. exfalso. apply HU. intros x y Hx Hy. pose proof (B x Hx). pose proof (B y Hy). lra. }
  assert (W := HW). unfold wholes in W. rewrite Forall_forall in W. destruct (W lo L) as (kl & El). destruct (W hi H) as (kh & Eh).
  assert (G1 : 1 <= hi - lo). { rewrite El, Eh in *. apply lt_IZR in LH. rewrite <- minus_IZR. apply IZR_le. lia. }
  pose proof (Rsum_below vs lo hi L (fun x Hx => proj2 (B x Hx))) as S1.
  destruct (wholes_sum vs HW) as (k & Ek). pose proof (Rsum_abs vs) as S2.
  assert (S3 : Rabs (Rsum vs) <= IZR (2 ^ 53) - 1).
  { rewrite Ek in *. rewrite <- abs_IZR in *. rewrite <- minus_IZR. apply IZR_le. assert (Z.abs k < 2 ^ 53)%Z by (apply lt_IZR; lra). lia. }
  set (n := INR (length vs)) in *. assert (Pn : 1 <= n).
  { unfold n. change 1 with (INR 1). apply le_INR. destruct vs; [contradiction|cbn; lia]. }
  pose proof (few_INR vs HF) as Hn. fold n in Hn.
  set (M := Rsum vs / n). pose proof (rnd_any M) as E.
  assert (I0 : 0 < / n) by (apply Rinv_0_lt_compat; lra).
  assert (I1 : bpow radix2 (-52) <= / n) by (change (-52)%Z with (- (52))%Z; rewrite bpow_opp; apply Rinv_le_contravar; lra).
  assert (HM : hi - M >= / n).
  { unfold M, Rdiv. assert (Rsum vs * / n <= (n * hi - 1) * / n) by (apply Rmult_le_compat_r; lra).
    assert ((n * hi - 1) * / n = hi - / n) by (field; lra). lra. }
  assert (AM : u64 * Rabs M <= (1 - bpow radix2 (-53)) * / n).
  { unfold M, Rdiv. rewrite Rabs_mult, (Rabs_pos_eq (/ n)) by lra. rewrite <- Rmult_assoc. apply Rmult_le_compat_r; [lra|].
    assert (EU : u64 = bpow radix2 (-53)) by (unfold u64; change (-52)%Z with (1 + -53)%Z; rewrite bpow_plus; change (bpow radix2 1) with 2; lra).
    rewrite EU. apply Rle_trans with (bpow radix2 (-53) * (IZR (2 ^ 53) - 1)); [apply Rmult_le_compat_l; [apply bpow_ge_0|exact S3]|].
    change (IZR (2 ^ 53)) with (bpow radix2 53). assert (bpow radix2 (-53) * bpow radix2 53 = 1) by (rewrite <- bpow_plus; reflexivity). lra. }
  assert (T1 : tiny64 <= bpow radix2 (-106)).
  { unfold tiny64. assert (bpow radix2 (-1074) <= bpow radix2 (-106)) by (apply bpow_le; lia). pose proof (bpow_gt_0 radix2 (-1074)). lra. }
  assert (T2 : bpow radix2 (-105) <= bpow radix2 (-53) * / n).
  { change (-105)%Z with (-53 + -52)%Z. rewrite bpow_plus. apply Rmult_le_compat_l; [apply bpow_ge_0|exact I1]. }
  assert (T3 : bpow radix2 (-105) = 2 * bpow radix2 (-106)) by (change (-105)%Z with (1 + -106)%Z; rewrite bpow_plus; reflexivity).
  assert (E' : rnd M - M <= u64 * Rabs M + tiny64) by (eapply Rle_trans; [apply Rle_abs|exact E]). lra.
Qed.

Lemma divided_sq : forall m x, bpow radix2 (-106) <= x - m -> bpow radix2 (-212) <= sqdev m x.
Proof.
  intros m x H. assert (D : bpow radix2 (-106) <= rnd (x - m)) by (apply rnd_ge_bpow; [lia|exact H]).
  apply rnd_ge_bpow; [lia|]. change (-212)%Z with (-106 + -106)%Z. rewrite bpow_plus. pose proof (bpow_gt_0 radix2 (-106)). nra.
Qed.

(** From the sum of squares to the standard deviation. *)
Definition std_of (w n : R) : R := rnd (sqrt (rnd (w / n))).
Lemma std_pos : forall w n, 0 <= std_of w n.
Proof. intros. apply rnd_pos, sqrt_pos. Qed.
Lemma std_zero : forall n, std_of 0 n = 0.
Proof. intro n. unfold std_of, Rdiv. rewrite Rmult_0_l, rnd_0, sqrt_0. apply rnd_0. Qed.
Lemma std_big : forall w n, 1 <= n <= bpow radix2 52 -> bpow radix2 (-212) <= w -> bpow radix2 (-132) <= std_of w n.
Proof.
  intros w n (N1 & N2) H. apply rnd_ge_bpow; [lia|].
  assert (D : bpow radix2 (-264) <= rnd (w / n)).
  { apply rnd_ge_bpow; [lia|]. change (-264)%Z with (-212 + -52)%Z. rewrite bpow_plus. apply Rmult_le_compat; try apply bpow_ge_0; [exact H|].
    change (-52)%Z with (- (52))%Z. rewrite bpow_opp. apply Rinv_le_contravar; lra. }
  rewrite <- (sqrt_square (bpow radix2 (-132))) by apply bpow_ge_0. apply sqrt_le_1_alt. rewrite <- bpow_plus. exact D.
Qed.

Lemma whole_spread : forall vs t w, wholes vs -> small_whole vs -> (2 <= length vs)%nat -> (forall x, In x vs -> generic_format radix2 fexp64 x) ->
  vsum vs t -> vsum (map (sqdev (rnd (t / INR (length vs)))) vs) w ->
  (unanimous vs -> std_of w (INR (length vs - 1)) = 0) /\ (~ unanimous vs -> bpow radix2 (-132) <= std_of w (INR (length vs - 1))).
Proof.
  intros vs t w HW HS HL HF Ht Hw. rewrite (vsum_whole vs t Ht HW (proj2 HS)) in Hw. assert (Hne : vs <> []) by (intros ->; cbn in HL; lia). split; intro HU.
  - assert (w = 0) as ->.
    { apply (vsum_zero _ _ Hw). intros y Hy. apply in_map_iff in Hy as (x & <- & Hx). apply unanimous_dev; assumption. }
    apply std_zero.
  - destruct (divided_dev vs HW HS HU) as (x & Hx & D). apply divided_sq in D.
    assert (N2 := few_INR vs (proj1 HS)). apply std_big.
    + split; [change 1 with (INR 1); apply le_INR; lia|]. eapply Rle_trans; [|exact N2]. apply le_INR. lia.
    + eapply Rle_trans; [exact D|]. apply (vsum_nonneg _ _ Hw); [|apply in_map; exact Hx].
      intros y Hy. apply in_map_iff in Hy as (z & <- & _). apply sqdev_pos.
Qed.

(** ** The standard deviation of the mean and the margins *)
Definition sem_of (s n : R) : R := rnd (s / rnd (sqrt n)).
Definition ci_of (s : R) : R := rnd (rnd (195996 / 100000) * s).
Lemma root_range : forall n, 1 <= n <= bpow radix2 52 -> 1 <= rnd (sqrt n) <= bpow radix2 26.
Proof.
  intros n (H1 & H2). split.
  - change 1 with (bpow radix2 0). apply rnd_ge_bpow; [lia|]. change (bpow radix2 0) with 1. rewrite <- sqrt_1. apply sqrt_le_1_alt, H1.
  - rewrite <- (Rabs_pos_eq (rnd (sqrt n))) by apply rnd_pos, sqrt_pos. apply rnd_le_bpow; [lia|]. rewrite Rabs_pos_eq by apply sqrt_pos.
    rewrite <- (sqrt_square (bpow radix2 26)) by apply bpow_ge_0. apply sqrt_le_1_alt. rewrite <- bpow_plus. exact H2.
Qed.
Lemma sem_facts : forall s n, 1 <= n <= bpow radix2 52 -> 0 <= s -> 0 <= sem_of s n /\ (s = 0 -> sem_of s n = 0) /\
  (bpow radix2 (-132) <= s -> bpow radix2 (-158) <= sem_of s n).
Proof.
  intros s n Hn Hs. destruct (root_range n Hn) as (R1 & R2). unfold sem_of. set (r := rnd (sqrt n)) in *.
  assert (I : 0 < / r) by (apply Rinv_0_lt_compat; lra). split; [apply rnd_pos, Rmult_le_pos; lra|]. split; intro H.
  - rewrite H. unfold Rdiv. rewrite Rmult_0_l. apply rnd_0.
  - apply rnd_ge_bpow; [lia|]. change (-158)%Z with (-132 + -26)%Z. rewrite bpow_plus. apply Rmult_le_compat; try apply bpow_ge_0; [exact H|].
    change (-26)%Z with (- (26))%Z. rewrite bpow_opp. apply Rinv_le_contravar; lra.
Qed.
Lemma z95_range : 1 <= rnd (195996 / 100000) <= 2.
Proof.
  split.
  - change 1 with (bpow radix2 0). apply rnd_ge_bpow; [lia|]. change (bpow radix2 0) with 1. lra.
  - change 2 with (bpow radix2 1). rewrite <- (Rabs_pos_eq (rnd _)) by (apply rnd_pos; lra). apply rnd_le_bpow; [lia|].
    rewrite Rabs_pos_eq by lra. change (bpow radix2 1) with 2. lra.
Qed.
Lemma ci_facts : forall s, 0 <= s -> 0 <= ci_of s /\ (s = 0 -> ci_of s = 0) /\ (bpow radix2 (-158) <= s -> bpow radix2 (-158) <= ci_of s).
Proof.
  intros s Hs. pose proof z95_range as (Z1 & Z2). unfold ci_of. set (z := rnd (195996 / 100000)) in *.
  split; [apply rnd_pos, Rmult_le_pos; lra|]. split; intro H.
  - rewrite H, Rmult_0_r. apply rnd_0.
  - apply rnd_ge_bpow; [lia|]. pose proof (bpow_gt_0 radix2 (-158)). nra.
Qed.
