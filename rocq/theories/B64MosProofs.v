(** The MOS in binary64. *)
From Coq Require Import String.
From Coq Require Import List ZArith Bool Arith Reals Lra Lia Permutation.
From Flocq Require Import Core IEEE754.BinarySingleNaN.
From Verif Require Import PyBase Num ExtReal NumPy Dataset Preproc Mos NumB64 SpecDataset SpecMos SpecB64
  BaseProofs ExtRealProofs ArrayProofs MosProofs B64Proofs B64SumProofs.
Import ListNotations.
Local Open Scope list_scope.
Local Open Scope R_scope.
#[local] Existing Instance b64_prec.
#[local] Existing Instance b64_emax.
#[local] Existing Instance fexp_valid.

Lemma val_fmt : forall x v, val x v -> generic_format radix2 fexp64 v.
Proof. intros x v (_ & <-). apply (generic_format_B2R 53 1024). Qed.
Lemma p1023 : forall x, Rabs x <= bpow radix2 1023 -> Rabs (rnd x) < bpow radix2 1024.
Proof.
  intros x H. apply Rle_lt_trans with (bpow radix2 1023); [|apply bpow_lt; lia].
  unfold rnd. apply abs_round_le_generic; [exact fexp_valid|apply valid_rnd_N| |exact H].
  apply generic_format_bpow. cbv; discriminate.
Qed.
Lemma bpow1023 : bpow radix2 1023 = 2 * bpow radix2 1022.
Proof. change 1023%Z with (1 + 1022)%Z. rewrite bpow_plus. reflexivity. Qed.

Lemma few_u64 : forall l, few l -> INR (length l) * u64 <= / 2.
Proof.
  intros l H. unfold few in H. apply IZR_le in H. rewrite <- INR_IZR_INZ in H. unfold u64.
  change (IZR (2 ^ 52)) with (IZR (radix2 ^ 52)) in H. rewrite (IZR_Zpower radix2) in H by lia.
  assert (E : bpow radix2 52 * bpow radix2 (-52) = 1) by (rewrite <- bpow_plus; reflexivity).
  pose proof (bpow_gt_0 radix2 (-52)) as P.
  assert (INR (length l) * bpow radix2 (-52) <= bpow radix2 52 * bpow radix2 (-52)) by (apply Rmult_le_compat_r; lra). lra.
Qed.
Lemma moderate_perm : forall l l', Permutation l l' -> moderate l -> moderate l'.
Proof. intros l l' P (H1 & H2). split; [unfold few; rewrite <- (Permutation_length P); exact H1|rewrite <- (abs_sum_perm _ _ P); exact H2]. Qed.
Lemma moderate_app : forall l l', moderate (l ++ l') -> moderate l /\ moderate l'.
Proof.
  intros l l' (H1 & H2). unfold few in H1. rewrite app_length in H1. rewrite abs_sum_app in H2.
  pose proof (abs_sum_pos l). pose proof (abs_sum_pos l'). unfold moderate, few. repeat split; solve [lia|lra].
Qed.
Lemma vsum_fits : forall l x, vsum l x -> moderate l -> Rabs x < bpow radix2 1024.
Proof.
  intros l x H (H1 & H2). pose proof (vsum_bound l x H (few_u64 _ H1)) as B. apply Rle_lt_trans with (bpow radix2 1023); [|apply bpow_lt; lia].
  rewrite bpow1023. lra.
Qed.

Section B64Mos.
  Variables bexp bln : b64 -> b64.
  Let NB := Num_b64 bexp bln.
  #[local] Existing Instance NB.

  Lemma some_sum_val : forall l x, some_sum nadd l x -> Forall (fun y => is_finite y = true) l -> moderate (map B2R l) ->
    exists v, val x v /\ vsum (map B2R l) v.
  Proof.
    intros l x H. induction H as [x|l1 l2 l x y H1 I1 H2 I2 P]; intros HF HM.
    - inversion HF; subst. exists (B2R x). split; [split; [assumption|reflexivity]|]. apply vs_one. apply (generic_format_B2R 53 1024).
    - assert (PR := Permutation_map (@B2R 53 1024) P). rewrite map_app in PR.
      rewrite <- P in HF. apply Forall_app in HF as (F1 & F2).
      assert (HM' := moderate_perm _ _ (Permutation_sym PR) HM). destruct (moderate_app _ _ HM') as (M1 & M2).
      destruct (I1 F1 M1) as (v1 & V1 & S1). destruct (I2 F2 M2) as (v2 & V2 & S2).
      assert (SS : vsum (map B2R l) (rnd (v1 + v2))) by (eapply vs_two; [exact S1|exact S2|exact PR]).
      exists (rnd (v1 + v2)). split; [|exact SS]. apply (val_add bexp bln); [exact V1|exact V2|]. exact (vsum_fits _ _ SS HM).
  Qed.

  Lemma fold_val : forall l acc l0 v0, val acc v0 -> vsum l0 v0 -> Forall (fun y => is_finite y = true) l -> moderate (l0 ++ map B2R l) ->
    exists v, val (fold_left nadd l acc) v /\ vsum (l0 ++ map B2R l) v.
  Proof.
    induction l as [|x l IH]; intros acc l0 v0 HV HS HF HM; cbn [fold_left map] in *.
    - rewrite app_nil_r. exists v0. split; assumption.
    - inversion HF as [|x' l' Fx Fl]; subst. assert (VX : val x (B2R x)) by (split; [exact Fx|reflexivity]).
      assert (SX : vsum [B2R x] (B2R x)) by (apply vs_one, (val_fmt x), VX).
      assert (SS : vsum (l0 ++ [B2R x]) (rnd (v0 + B2R x))) by (eapply vs_two; [exact HS|exact SX|apply Permutation_refl]).
      replace (l0 ++ B2R x :: map B2R l) with ((l0 ++ [B2R x]) ++ map B2R l) in * by (rewrite <- app_assoc; reflexivity).
      destruct (moderate_app _ _ HM) as (M1 & _).
      apply (IH _ _ (rnd (v0 + B2R x))); [|exact SS|exact Fl|exact HM].
      apply (val_add bexp bln); [exact HV|exact VX|exact (vsum_fits _ _ SS M1)].
  Qed.

  Lemma np_sum_val : forall l, l <> [] -> Forall (fun y => is_finite y = true) l -> moderate (map B2R l) ->
    exists v, val (np_sum l) v /\ vsum (map B2R l) v.
  Proof.
    intros [|x l] Hne HF HM; [contradiction|]. inversion HF as [|x' l' Fx Fl]; subst.
    assert (VX : val x (B2R x)) by (split; [exact Fx|reflexivity]).
    unfold np_sum. cbn [fold_left map]. change (B2R x :: map B2R l) with ([B2R x] ++ map B2R l).
    apply (fold_val l _ [B2R x] (B2R x)); [|apply vs_one, (val_fmt x), VX|exact Fl|exact HM].
    assert (SX : vsum [B2R x] (B2R x)) by (apply vs_one, (val_fmt x), VX).
    destruct (moderate_app [B2R x] (map B2R l) HM) as (M1 & _).
    assert (E : rnd (0 + B2R x) = B2R x) by (rewrite Rplus_0_l; apply rnd_fmt, (val_fmt x), VX).
    assert (HA : val (nadd nzero x) (rnd (0 + B2R x))).
    { apply (val_add bexp bln); [apply (val_ofZ bexp bln 0); reflexivity|exact VX|]. rewrite E. exact (vsum_fits _ _ SX M1). }
    rewrite E in HA. exact HA.
  Qed.

  Lemma moderate_len : forall vs, moderate vs -> (Z.of_nat (length vs) < 2 ^ 53)%Z.
  Proof.
    intros vs (H & _). unfold few in H. lia.
  Qed.

  (** np.mean of finite numbers: a rounded sum, divided and rounded. *)
  Lemma np_mean_val : forall l, l <> [] -> Forall (fun y => is_finite y = true) l -> moderate (map B2R l) ->
    exists v, val (np_mean l) (rnd (v / INR (length l))) /\ vsum (map B2R l) v.
  Proof.
    intros l Hne HF HM. destruct (np_sum_val l Hne HF HM) as (v & HV & HS). exists v. split; [|exact HS].
    assert (L : (1 <= length l)%nat) by (destruct l; [contradiction|cbn; lia]).
    assert (HN : val (nofnat (length l)) (INR (length l))).
    { rewrite INR_IZR_INZ. apply (val_ofZ bexp bln). pose proof (moderate_len _ HM) as B. rewrite map_length in B. lia. }
    assert (P : 1 <= INR (length l)) by (change 1 with (INR 1); apply le_INR; lia).
    apply (val_div bexp bln); [exact HV|exact HN|lra|]. apply p1023.
    destruct HM as (M1 & M2). pose proof (vsum_bound _ _ HS (few_u64 _ M1)) as B. rewrite bpow1023. unfold Rdiv. rewrite Rabs_mult, (Rabs_pos_eq (/ _)).
    - apply Rle_trans with (Rabs v * 1); [|lra]. apply Rmult_le_compat_l; [apply Rabs_pos|].
      rewrite <- Rinv_1. apply Rinv_le_contravar; lra.
    - apply Rlt_le, Rinv_0_lt_compat. lra.
  Qed.

  Lemma nanmean_present : forall l, np_nanmean l = np_mean (notnan l).
  Proof. reflexivity. Qed.

  Lemma notnan_presents : forall l, allfinnan (map b2ef l) ->
    Forall (fun y => is_finite y = true) (notnan l) /\ map B2R (notnan l) = presents (map b2ef l).
  Proof.
    induction l as [|x l IH]; intro H; cbn [map] in H; [split; [constructor|reflexivity]|]. inversion H as [|y l' Hx Hl]; subst.
    destruct (IH Hl) as (I1 & I2). change (notnan (x :: l)) with (if negb (is_nan x) then x :: notnan l else notnan l).
    destruct x as [s|[|]| |s m e B]; cbn in Hx; try contradiction; cbn [is_nan negb map].
    - split; [constructor; [reflexivity|exact I1]|]. rewrite I2. reflexivity.
    - split; [exact I1|exact I2].
    - split; [constructor; [reflexivity|exact I1]|]. rewrite I2. reflexivity.
  Qed.

  Lemma nan00 : np_mean (@nil b64) = b64_nan.
  Proof. reflexivity. Qed.

  Lemma row_exact : forall a e, row (stack1 (exact a)) e = map b2ef (row (stack1 a) e).
  Proof. intros a e. unfold row, stack1, exact. cbn. rewrite map_map. reflexivity. Qed.

  Lemma run_mos_quality : forall (rd : reader b64) m, run_modeling MOS rd no_opts = Ok m ->
    exists a, rd_arr rd = Ok a /\ mr_quality m = along1 np_nanmean (stack1 a).
  Proof.
    intros rd m H. unfold run_modeling, run_kwargs, mos_run, preprocess in H. cbn [bind] in H.
    destruct (rd_arr rd) as [a|ex]; [|discriminate]. exists a. split; [reflexivity|].
    cbn [bind no_opts kw_rej kw_rejtype kw_zscore kw_bias kw_dscore assert_ negb andb is_biasremv pp_arr pp_orig pp_rej] in H.
    destruct (attach_observers rd) as [o|ex]; [|discriminate]. cbn [bind] in H. assert (E : forall (A : Type) (x y : A), Ok x = Ok y -> x = y) by (intros A x y [= ->]; reflexivity). apply E in H. subst m. reflexivity.
  Qed.

  (** Every quality score: the votes present summed and divided with roundings. *)
  Lemma quality_val : forall (rd : reader b64) a m, rd_arr rd = Ok a -> run_modeling MOS rd no_opts = Ok m -> finite_votes (exact a) ->
    length (mr_quality m) = dE a /\
    forall e, (e < dE a)%nat -> moderate (video_votes (exact a) e) -> exists q, nth_error (mr_quality m) e = Some q /\
      (video_votes (exact a) e = [] -> q = b64_nan) /\
      (video_votes (exact a) e <> [] -> exists l v, Permutation l (video_votes (exact a) e) /\ vsum l v /\ val q (rnd (v / INR (length l)))).
  Proof.
    intros rd a m Ha Hm HF. destruct (run_mos_quality rd m Hm) as (a' & Ha' & ->). rewrite Ha in Ha'. injection Ha' as <-.
    unfold along1. cbn [n0 stack1]. rewrite map_length, seq_length. split; [reflexivity|]. intros e He HM.
    rewrite nth_error_map, nth_error_seq by exact He. eexists. split; [reflexivity|]. rewrite nanmean_present.
    pose proof (row_finnan (exact a) e HF He) as RF. rewrite row_exact in RF.
    destruct (notnan_presents _ RF) as (NF & NP). pose proof (presents_row (exact a) e) as PR. rewrite row_exact, <- NP in PR.
    split; intro HV.
    - rewrite HV in PR. apply Permutation_sym, Permutation_nil in PR. apply map_eq_nil in PR. unfold stack1 in PR |- *. rewrite PR. exact nan00.
    - assert (Hne : notnan (row (stack1 a) e) <> []).
      { intro E. rewrite E in PR. cbn in PR. apply Permutation_nil in PR. contradiction. }
      destruct (np_mean_val _ Hne NF (moderate_perm _ _ (Permutation_sym PR) HM)) as (v & V1 & V2).
      exists (map B2R (notnan (row (stack1 a) e))), v. split; [exact PR|]. split; [exact V2|]. rewrite map_length. exact V1.
  Qed.
End B64Mos.

(** ** The claims *)
Lemma whole_votes_list : forall a e, whole_votes a -> (e < dE a)%nat -> wholes (video_votes (exact a) e) /\ finite_votes (exact a).
Proof.
  intros a e H He. split.
  - apply Forall_forall. intros x Hx. unfold video_votes in Hx. apply presents_In in Hx. apply in_flat_map in Hx as (s & Hs & Hx).
    apply in_map_iff in Hx as (r & Hx & Hr). apply in_seq in Hs, Hr. cbn in Hs, Hr.
    destruct (H e s r He ltac:(lia) ltac:(lia)) as [E|(k & E)]; cbn [exact at3] in Hx; rewrite E in Hx; [discriminate|].
    injection Hx as <-. exists k. reflexivity.
  - intros e' s r (I1 & I2 & I3). cbn in I1, I2, I3. cbn [exact at3]. destruct (H e' s r I1 I2 I3) as [->|(k & ->)]; exact I.
Qed.

Lemma p53_1022 : IZR (2 ^ 53) <= bpow radix2 1022.
Proof. rewrite (IZR_Zpower radix2) by lia. apply bpow_le. lia. Qed.

Lemma b64_whole : forall bexp bln (rd : reader b64) a m, rd_arr rd = Ok a -> @run_modeling b64 (Num_b64 bexp bln) MOS rd no_opts = Ok m ->
  whole_votes a -> length (mr_quality m) = dE a /\
  forall e, (e < dE a)%nat -> small_whole (video_votes (exact a) e) ->
    exists q, nth_error (mr_quality m) e = Some q /\
      (video_votes (exact a) e = [] -> q = b64_nan) /\
      (video_votes (exact a) e <> [] -> b2ef q = Fin (rnd (Rsum (video_votes (exact a) e) / INR (length (video_votes (exact a) e))))).
Proof.
  intros bexp bln rd a m Ha Hm HW.
  assert (HF : finite_votes (exact a)).
  { intros e s r (I1 & I2 & I3). cbn in I1, I2, I3. cbn [exact at3]. destruct (HW e s r I1 I2 I3) as [->|(k & ->)]; exact I. }
  destruct (quality_val bexp bln rd a m Ha Hm HF) as (HL & HQ). split; [exact HL|]. intros e He (H1 & H2).
  assert (HM : moderate (video_votes (exact a) e)) by (split; [exact H1|pose proof p53_1022; lra]).
  destruct (HQ e He HM) as (q & Hq & Q1 & Q2). exists q. split; [exact Hq|]. split; [exact Q1|]. intro Hne.
  destruct (Q2 Hne) as (l & v & P & HS & V). apply val_ef.
  destruct (whole_votes_list a e HW He) as (WL & _).
  assert (WL' : wholes l) by (unfold wholes; rewrite P; exact WL). assert (B : abs_sum l < IZR (2 ^ 53)) by (rewrite (abs_sum_perm _ _ P); exact H2).
  rewrite (vsum_whole l v HS WL' B), (Rsum_perm _ _ P), (Permutation_length P) in V. exact V.
Qed.

Lemma b64_error : forall bexp bln (rd : reader b64) a m, rd_arr rd = Ok a -> @run_modeling b64 (Num_b64 bexp bln) MOS rd no_opts = Ok m ->
  finite_votes (exact a) -> length (mr_quality m) = dE a /\
  forall e, (e < dE a)%nat -> moderate (video_votes (exact a) e) -> let vs := video_votes (exact a) e in
    exists q, nth_error (mr_quality m) e = Some q /\
      (vs = [] -> q = b64_nan) /\
      (vs <> [] -> exists v, b2ef q = Fin v /\
        Rabs (v - Rsum vs / INR (length vs)) <= ((1 + u64) ^ length vs - 1) * (abs_sum vs / INR (length vs)) + tiny64).
Proof.
  intros bexp bln rd a m Ha Hm HF. destruct (quality_val bexp bln rd a m Ha Hm HF) as (HL & HQ). split; [exact HL|]. intros e He HM vs.
  destruct (HQ e He HM) as (q & Hq & Q1 & Q2). exists q. split; [exact Hq|]. split; [exact Q1|]. intro Hne.
  destruct (Q2 Hne) as (l & v & P & HS & V). exists (rnd (v / INR (length l))). split; [apply val_ef; exact V|].
  unfold vs. rewrite <- (Permutation_length P), <- (Rsum_perm _ _ P), <- (abs_sum_perm _ _ P).
  pose proof (vsum_error l v HS) as E. pose proof (vsum_len l v HS) as L.
  set (n := INR (length l)). assert (Hn : 1 <= n) by (unfold n; change 1 with (INR 1); apply le_INR; lia).
  assert (Hi : 0 < / n) by (apply Rinv_0_lt_compat; lra).
  pose proof (rnd_any (v / n)) as R1. pose proof u64_pos as U. pose proof (gam_pos (length l - 1)) as G0. pose proof (abs_sum_pos l) as A0. pose proof (Rsum_abs l) as A1.
  assert (EN : gam (length l) = (1 + u64) * gam (length l - 1) + u64).
  { destruct (length l) as [|k] eqn:Ek; [lia|]. replace (S k - 1)%nat with k by lia. unfold gam. cbn [pow]. ring. }
  assert (D1 : Rabs (v / n - Rsum l / n) <= gam (length l - 1) * (abs_sum l / n)).
  { replace (v / n - Rsum l / n) with ((v - Rsum l) * / n) by (unfold Rdiv; ring). rewrite Rabs_mult, (Rabs_pos_eq (/ n)) by lra.
    replace (gam (length l - 1) * (abs_sum l / n)) with (gam (length l - 1) * abs_sum l * / n) by (unfold Rdiv; ring). apply Rmult_le_compat_r; lra. }
  assert (D2 : Rabs (Rsum l / n) <= abs_sum l / n).
  { unfold Rdiv. rewrite Rabs_mult, (Rabs_pos_eq (/ n)) by lra. apply Rmult_le_compat_r; lra. }
  assert (D3 : Rabs (v / n) <= gam (length l - 1) * (abs_sum l / n) + abs_sum l / n).
  { replace (v / n) with ((v / n - Rsum l / n) + Rsum l / n) by ring. eapply Rle_trans; [apply Rabs_triang|]. lra. }
  replace (rnd (v / n) - Rsum l / n) with ((rnd (v / n) - v / n) + (v / n - Rsum l / n)) by ring.
  eapply Rle_trans; [apply Rabs_triang|]. fold (gam (length l)). rewrite EN.
  assert (D4 : u64 * Rabs (v / n) <= u64 * (gam (length l - 1) * (abs_sum l / n) + abs_sum l / n)) by (apply Rmult_le_compat_l; lra).
  lra.
Qed.

(** *** Consequences for whole votes *)
Lemma fmt_range : forall lo hi x, generic_format radix2 fexp64 lo -> generic_format radix2 fexp64 hi -> lo <= x <= hi -> lo <= rnd x <= hi.
Proof. intros lo hi x F1 F2 (H1 & H2). split; [rewrite <- (rnd_fmt lo F1)|rewrite <- (rnd_fmt hi F2)]; apply rnd_le; assumption. Qed.

Lemma vote_b64 : forall a e x, finite_votes (exact a) -> In x (video_votes (exact a) e) -> generic_format radix2 fexp64 x.
Proof.
  intros a e x HF Hx. unfold video_votes in Hx. apply presents_In in Hx. apply in_flat_map in Hx as (s & Hs & Hx).
  apply in_map_iff in Hx as (r & Hx & Hr). cbn [exact at3] in Hx. apply val_ef in Hx. apply (val_fmt _ _ Hx).
Qed.

Lemma whole_finite : forall a, whole_votes a -> finite_votes (exact a).
Proof. intros a H e s r (I1 & I2 & I3). cbn in I1, I2, I3. cbn [exact at3]. destruct (H e s r I1 I2 I3) as [->|(k & ->)]; exact I. Qed.

Lemma Rsum_between : forall l lo hi, (forall x, In x l -> lo <= x <= hi) -> INR (length l) * lo <= Rsum l <= INR (length l) * hi.
Proof.
  induction l as [|x l IH]; intros lo hi H; [change (Rsum []) with 0; change (INR (length (@nil R))) with 0; lra|]. destruct (IH lo hi (fun y Hy => H y (or_intror Hy))) as (A & B).
  destruct (H x (or_introl eq_refl)). change (Rsum (x :: l)) with (x + Rsum l). change (length (x :: l)) with (S (length l)). rewrite S_INR. split; lra.
Qed.

(** The largest and the smallest vote. *)
Lemma extreme : forall l : list R, l <> [] -> exists lo hi, In lo l /\ In hi l /\ forall x, In x l -> lo <= x <= hi.
Proof.
  induction l as [|x l IH]; intro H; [contradiction|]. destruct l as [|y l].
  - exists x, x. repeat split; try (left; reflexivity); destruct H0 as [<-|[]]; lra.
  - destruct (IH ltac:(discriminate)) as (lo & hi & H1 & H2 & H3).
    exists (Rmin x lo), (Rmax x hi). repeat split.
    + unfold Rmin. destruct (Rle_dec x lo); [left; reflexivity|right; exact H1].
    + unfold Rmax. destruct (Rle_dec x hi); [right; exact H2|left; reflexivity].
    + destruct H0 as [<-|H0]; [apply Rmin_l|]. apply Rle_trans with lo; [apply Rmin_r|apply H3, H0].
    + destruct H0 as [<-|H0]; [apply Rmax_l|]. apply Rle_trans with hi; [apply H3, H0|apply Rmax_r].
Qed.

Lemma b64_order : forall bexp bln (rd : reader b64) a m, rd_arr rd = Ok a -> @run_modeling b64 (Num_b64 bexp bln) MOS rd no_opts = Ok m ->
  whole_votes a -> forall e e' v v', (e < dE a)%nat -> (e' < dE a)%nat ->
    let vs := video_votes (exact a) e in let vs' := video_votes (exact a) e' in
    small_whole vs -> small_whole vs' -> vs <> [] -> vs' <> [] -> Rmean vs <= Rmean vs' ->
    option_map b2ef (nth_error (mr_quality m) e) = Some (Fin v) -> option_map b2ef (nth_error (mr_quality m) e') = Some (Fin v') -> v <= v'.
Proof.
  intros bexp bln rd a m Ha Hm HW e e' v v' He He' vs vs' H1 H2 N1 N2 HM Hv Hv'.
  destruct (b64_whole bexp bln rd a m Ha Hm HW) as (_ & K).
  destruct (K e He H1) as (q & Hq & _ & Q). destruct (K e' He' H2) as (q' & Hq' & _ & Q').
  rewrite Hq in Hv. rewrite Hq' in Hv'. cbn [option_map] in Hv, Hv'. rewrite (Q N1) in Hv. rewrite (Q' N2) in Hv'.
  injection Hv as <-. injection Hv' as <-. apply rnd_le. exact HM.
Qed.

Lemma b64_range : forall bexp bln (rd : reader b64) a m, rd_arr rd = Ok a -> @run_modeling b64 (Num_b64 bexp bln) MOS rd no_opts = Ok m ->
  whole_votes a -> forall e, (e < dE a)%nat -> let vs := video_votes (exact a) e in small_whole vs -> vs <> [] ->
    exists q v lo hi, nth_error (mr_quality m) e = Some q /\ b2ef q = Fin v /\ In lo vs /\ In hi vs /\ lo <= v <= hi /\
      forall x, In x vs -> lo <= x <= hi.
Proof.
  intros bexp bln rd a m Ha Hm HW e He vs H1 Hne. destruct (b64_whole bexp bln rd a m Ha Hm HW) as (_ & K).
  destruct (K e He H1) as (q & Hq & _ & Q). destruct (extreme vs Hne) as (lo & hi & L & H & B).
  exists q, (rnd (Rsum vs / INR (length vs))), lo, hi. repeat split; try assumption; try apply (Q Hne); try (apply B; assumption).
  all: assert (P : 0 < INR (length vs)) by (apply lt_0_INR; destruct vs; [contradiction|cbn; lia]).
  all: destruct (Rsum_between vs lo hi B) as (B1 & B2).
  all: assert (R : lo <= rnd (Rsum vs / INR (length vs)) <= hi); [|lra].
  all: apply fmt_range; [apply (vote_b64 a e lo); [apply whole_finite, HW|exact L]|apply (vote_b64 a e hi); [apply whole_finite, HW|exact H]|].
  all: unfold Rdiv; split; apply Rmult_le_reg_r with (INR (length vs)); try exact P; rewrite Rmult_assoc, Rinv_l by lra; lra.
Qed.

(** *** Other orders of summation *)
Lemma any_order_whole : forall bexp bln l x, some_sum (@nadd b64 (Num_b64 bexp bln)) l x -> Forall (fun y => is_finite y = true) l ->
  (forall y, In y l -> exists k : Z, b2ef y = Fin (IZR k)) -> small_whole (map B2R l) -> b2ef x = Fin (Rsum (map B2R l)).
Proof.
  intros bexp bln l x H HF HW (H1 & H2). pose proof p53_1022.
  destruct (some_sum_val bexp bln l x H HF) as (v & V & S); [split; [exact H1|lra]|].
  apply val_ef. rewrite <- (vsum_whole _ _ S); [exact V| |exact H2].
  apply Forall_forall. intros y Hy. apply in_map_iff in Hy as (b & <- & Hb). destruct (HW b Hb) as (k & E). exists k.
  apply val_ef in E. destruct E as (_ & E). exact E.
Qed.
Lemma any_order_error : forall bexp bln l x, some_sum (@nadd b64 (Num_b64 bexp bln)) l x -> Forall (fun y => is_finite y = true) l ->
  moderate (map B2R l) -> exists v, b2ef x = Fin v /\
    Rabs (v - Rsum (map B2R l)) <= ((1 + u64) ^ (length l - 1) - 1) * abs_sum (map B2R l).
Proof.
  intros bexp bln l x H HF HM. destruct (some_sum_val bexp bln l x H HF HM) as (v & V & S). exists v. split; [apply val_ef, V|].
  pose proof (vsum_error _ _ S) as E. rewrite map_length in E. exact E.
Qed.
