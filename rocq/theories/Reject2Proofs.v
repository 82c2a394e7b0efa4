(** Rejection: results of the models, scale invariance, correlation-based
    rejection; options of the classes; post-processing; stacking. *)
From Coq Require Import String.
From Coq Require Import List ZArith Bool Arith Lia Reals Lra Permutation.
From Verif Require Import PyBase Num ExtReal NumPy Dataset Preproc Mos BaseProofs ExtRealProofs SpecDataset SpecMos
  DatasetProofs ArrayProofs RecordedProofs MosProofs PreprocProofs RejectProofs.
Import ListNotations.
Local Open Scope list_scope.

(** ** Results in terms of the preprocessing *)
Lemma run_pp : forall c (rd : reader ef) k m, run_modeling c rd k = Ok m ->
  exists k' pp, run_kwargs c k = Ok k' /\ preprocess rd k' = Ok pp /\
    mr_raw m = pp_arr pp /\ mr_rej m = pp_rej pp /\
    mr_quality m = postprocess k' (along1 np_nanmean (stack1 (pp_arr pp))) /\
    (is_biasremv c = true -> mr_bias m = pp_bias pp).
Proof.
  intros c rd k m H. unfold run_modeling in H. destruct (run_kwargs c k) as [k'|]; [|discriminate]. cbn [bind] in H.
  unfold mos_run in H. destruct (preprocess rd k') as [pp|] eqn:EP; [|discriminate]. cbn [bind] in H.
  exists k', pp. split; [reflexivity|]. split; [exact EP|].
  destruct (is_biasremv c).
  - destruct (pp_bias pp) eqn:B; [|discriminate]. cbn [bind] in H. destruct (attach_observers rd); [|discriminate].
    cbn [bind] in H. injection H as <-. cbn. rewrite <- B. repeat split; reflexivity.
  - cbn [bind] in H. destruct (attach_observers rd); [|discriminate]. cbn [bind] in H. injection H as <-. cbn. repeat split; try reflexivity. discriminate.
Qed.

Lemma pp_reject : forall (rd : reader ef) k pp, kw_rej k = true -> preprocess rd k = Ok pp ->
  exists pp0, preprocess rd (without_rejection k) = Ok pp0 /\ pp_orig pp0 = pp_orig pp /\ pp_bias pp0 = pp_bias pp /\
    exists rr, match kw_rejtype k with
               | None | Some Kurtosis => Ok (reject_kurtosis (pp_arr pp0))
               | Some Pearson => reject_corr sp_pearsonr (pp_arr pp0)
               | Some Spearman => reject_corr sp_spearmanr (pp_arr pp0)
               | Some OtherRej => Err AssertionError
               end = Ok rr /\ let '(b, flags, st1, st2) := rr in pp_arr pp = b /\ pp_rej pp = Some (flags, st1, st2).
Proof.
  intros rd k pp Hr H. unfold preprocess in *. destruct (rd_arr rd) as [a0|]; [|discriminate]. cbn [bind] in *.
  rewrite Hr in H. cbn [without_rejection kw_rej kw_rejtype kw_zscore kw_bias kw_dscore bind] in *.
  match type of H with bind ?m _ = _ => destruct m as [[]|]; [|discriminate] end. cbn [bind] in H.
  match type of H with bind ?m _ = _ => destruct m as [[]|]; [|discriminate] end. cbn [bind] in H |- *.
  match type of H with bind ?m _ = _ => destruct m as [w|]; [|discriminate] end. cbn [bind] in H |- *.
  eexists. split; [reflexivity|]. cbn [pp_orig pp_bias pp_arr].
  match type of H with bind ?m _ = _ => destruct m as [[[[b fl] s1] s2]|]; [|discriminate] end.
  cbn [bind] in H. injection H as <-. cbn. repeat split; try reflexivity.
  exists (b, fl, s1, s2). repeat split; reflexivity.
Qed.

Lemma nth_error_ext : forall A (l l' : list A), (forall i, nth_error l i = nth_error l' i) -> l = l'.
Proof.
  induction l as [|x l IH]; intros [|y l'] H; try reflexivity; try (specialize (H 0); discriminate).
  assert (H0 := H 0). simpl in H0. injection H0 as ->. f_equal. apply IH. intro i. apply (H (S i)).
Qed.

(** ** C30 *)
Lemma kurtosis_pp : forall (rd : reader ef) k pp, kw_rej k = true -> (kw_rejtype k = None \/ kw_rejtype k = Some Kurtosis) ->
  preprocess rd k = Ok pp ->
  exists pp0 flags st1 st2, preprocess rd (without_rejection k) = Ok pp0 /\
    pp_orig pp0 = pp_orig pp /\ pp_bias pp0 = pp_bias pp /\ pp_rej pp = Some (flags, st1, st2) /\
    (finite_votes (pp_arr pp0) ->
      rejection_result (pp_arr pp0) (pp_arr pp)
        (fun s => outlier_subject (pp_arr pp0) s /\ exists s', s' < dS (pp_arr pp0) /\ ~ outlier_subject (pp_arr pp0) s') flags /\
      (0 < dS (pp_arr pp0) -> 0 < dS (pp_arr pp))).
Proof.
  intros rd k pp Hr Ht H. destruct (pp_reject rd k pp Hr H) as (pp0 & H0 & HO & HB & rr & E & P).
  assert (E' : rr = reject_kurtosis (pp_arr pp0)) by (destruct Ht as [Ht|Ht]; rewrite Ht in E; congruence). clear E.
  destruct rr as [[[b fl] s1] s2]. destruct P as [-> P]. exists pp0, fl, s1, s2. repeat (split; [assumption|]).
  intro Hf. assert (S := reject_kurtosis_spec _ Hf). rewrite <- E' in S. destruct S as (L & _ & _ & HF & kept & HU & HC & HN).
  split; [split; [exact L|split; [exact HF|exists kept; auto]]|].
  intro Hs. destruct HC as (_ & _ & -> & _). destruct kept; [exfalso; apply HN; auto|simpl; lia].
Qed.

(** ** C31 *)
Lemma affine_perm_pvar : forall k c l, l <> [] -> pvar (map (fun x => k * x + c)%R l) = (k * k * pvar l)%R.
Proof.
  intros k c l H. unfold pvar. rewrite <- !Rss_sumsq, Rss_affine, map_length. unfold Rdiv. ring.
Qed.
Lemma affine_moment4 : forall k c l, l <> [] -> moment4 (map (fun x => k * x + c)%R l) = (k * k * (k * k) * moment4 l)%R.
Proof.
  intros k c l H. unfold moment4. rewrite map_length, map_map, Rmean_affine by exact H.
  rewrite (Rsum_map_ext _ _ (fun x => (k * k * (k * k)) * ((x - Rmean l) * (x - Rmean l) * ((x - Rmean l) * (x - Rmean l))))%R)
    by (intros; ring). rewrite Rsum_map_mul. unfold Rdiv. ring.
Qed.
Lemma affine_regular : forall k c l, k <> 0%R -> l <> [] -> (regular (map (fun x => k * x + c)%R l) <-> regular l).
Proof.
  intros k c l Hk H. unfold regular. rewrite affine_perm_pvar, affine_moment4 by exact H.
  assert (KK : (k * k <> 0)%R) by (apply Rmult_integral_contrapositive_currified; exact Hk).
  destruct (Req_dec (pvar l) 0) as [E|E].
  - rewrite E. split; intros [K _]; exfalso; apply K; [ring|reflexivity].
  - assert (Q : (k * k * (k * k) * moment4 l / (k * k * pvar l * (k * k * pvar l)) = moment4 l / (pvar l * pvar l))%R) by (field; auto).
    rewrite Q. split; intros [_ K]; (split; [|exact K]); [exact E|].
    apply Rmult_integral_contrapositive_currified; assumption.
Qed.
Lemma affine_factor : forall k c l c0, k <> 0%R -> l <> [] -> (factor (map (fun x => k * x + c)%R l) c0 <-> factor l c0).
Proof. intros k c l c0 Hk H. unfold factor. rewrite (affine_regular k c l Hk H). reflexivity. Qed.

Lemma factor_pos : forall l c, factor l c -> (2 <= c)%R.
Proof.
  intros l c [[_ ->]|[_ ->]]; [lra|]. replace 2%R with (sqrt 4) by (replace 4%R with (2 * 2)%R by ring; apply sqrt_square; lra).
  apply sqrt_le_1; lra.
Qed.

Section Scale.
  Variables (a a' : arr3 ef) (k c : R).
  Hypothesis Hf : finite_votes a.
  Hypothesis Hk : k <> 0%R.
  Hypothesis HT : transformed (affine k c) a a'.

  Lemma scale_votes : forall s e r, inside a e s r ->
    (high_vote a' s e r <-> if Rlt_dec 0 k then high_vote a s e r else low_vote a s e r) /\
    (low_vote a' s e r <-> if Rlt_dec 0 k then low_vote a s e r else high_vote a s e r).
  Proof.
    intros s e r I. assert (HV := transformed_votes k c a a' e HT Hf (proj1 I)).
    assert (HX : at3 a' e s r = affine k c (at3 a e s r)) by (apply HT; exact I).
    assert (F := Hf e s r I).
    destruct (at3 a e s r) as [x| | |] eqn:Ex; simpl in F; try contradiction.
    2:{ unfold high_vote, low_vote. rewrite HX, Ex. destruct (Rlt_dec 0 k); split; split; intros (? & ? & E & _); discriminate. }
    cbn [affine] in HX.
    assert (Hin : In x (video_votes a e)) by (apply video_votes_In; exists s, r; unfold inside in I; repeat split; try lia; exact Ex).
    assert (Hne : video_votes a e <> []) by (intro E; rewrite E in Hin; contradiction).
    unfold high_vote, low_vote. rewrite HV, HX, Ex.
    assert (SQ : sqrt (pvar (map (fun x => k * x + c)%R (video_votes a e))) = (Rabs k * sqrt (pvar (video_votes a e)))%R).
    { rewrite affine_perm_pvar by exact Hne. rewrite sqrt_mult; [|apply Rle_0_sqr|apply pvar_nonneg].
      f_equal. apply sqrt_Rsqr_abs. }
    rewrite SQ, Rmean_affine by exact Hne.
    set (mu := Rmean (video_votes a e)). set (sd := sqrt (pvar (video_votes a e))).
    assert (HFac : forall c0, factor (map (fun x => k * x + c)%R (video_votes a e)) c0 <-> factor (video_votes a e) c0)
      by (intro; apply affine_factor; assumption).
    assert (Flip : forall (A B : R -> Prop), (forall c0, A c0 <-> B c0) ->
       ((exists x0 c0, Fin (k * x + c)%R = Fin x0 /\ factor (map (fun x => k * x + c)%R (video_votes a e)) c0 /\ (x0 = k * x + c)%R /\ A c0) <->
        (exists x0 c0, Fin x = Fin x0 /\ factor (video_votes a e) c0 /\ x0 = x /\ B c0))).
    { intros A B AB. split; intros (x0 & c0 & E & Hc & E2 & H).
      - exists x, c0. repeat split; [apply HFac; exact Hc|apply AB; exact H].
      - exists (k * x + c)%R, c0. repeat split; [apply HFac; exact Hc|apply AB; exact H]. }
    assert (Norm : forall (y : R) l (P : R -> R -> Prop), (exists x0 c0, Fin y = Fin x0 /\ factor l c0 /\ P x0 c0) <->
       (exists x0 c0, Fin y = Fin x0 /\ factor l c0 /\ x0 = y /\ P y c0)).
    { intros y l P. split; intros (x0 & c0 & E & Hc & H); injection E as <-.
      - exists y, c0. tauto.
      - exists y, c0. destruct H as [_ H]. tauto. }
    destruct (Rlt_dec 0 k) as [P|P].
    - rewrite (Norm (k * x + c)%R _ (fun x0 c0 => k * mu + c + c0 * (Rabs k * sd) <= x0)%R). rewrite (Norm (k * x + c)%R _ (fun x0 c0 => x0 <= k * mu + c - c0 * (Rabs k * sd))%R). rewrite (Norm x _ (fun x0 c0 => mu + c0 * sd <= x0)%R). rewrite (Norm x _ (fun x0 c0 => x0 <= mu - c0 * sd)%R). 
      rewrite (Rabs_pos_eq k) by lra.
      split; apply Flip; intro c0; split; intro H.
      + apply Rmult_le_reg_l with k; [exact P|]. lra.
      + apply Rmult_le_compat_l with (r := k) in H; [|lra]. lra.
      + apply Rmult_le_reg_l with k; [exact P|]. lra.
      + apply Rmult_le_compat_l with (r := k) in H; [|lra]. lra.
    - rewrite (Norm (k * x + c)%R _ (fun x0 c0 => k * mu + c + c0 * (Rabs k * sd) <= x0)%R). rewrite (Norm (k * x + c)%R _ (fun x0 c0 => x0 <= k * mu + c - c0 * (Rabs k * sd))%R). rewrite (Norm x _ (fun x0 c0 => mu + c0 * sd <= x0)%R). rewrite (Norm x _ (fun x0 c0 => x0 <= mu - c0 * sd)%R). 
      assert (P' : (0 < - k)%R) by lra. rewrite (Rabs_left k) by lra.
      split; apply Flip; intro c0; split; intro H.
      + apply Rmult_le_reg_l with (- k)%R; [exact P'|]. lra.
      + apply Rmult_le_compat_l with (r := (- k)%R) in H; [|lra]. lra.
      + apply Rmult_le_reg_l with (- k)%R; [exact P'|]. lra.
      + apply Rmult_le_compat_l with (r := (- k)%R) in H; [|lra]. lra.
  Qed.

  Lemma counted_transfer : forall P Q n, (forall e r, e < dE a -> r < dR a -> (P e r <-> Q e r)) -> counted a' P n -> counted a Q n.
  Proof.
    intros P Q n HPQ (L & HN & HL & E). exists L. split; [exact HN|]. split; [|exact E].
    destruct HT as (HE & _ & HR & _). rewrite HE, HR in HL. intros e r. rewrite HL.
    split; intros (H1 & H2 & H3); repeat split; auto; apply HPQ; auto.
  Qed.

  Lemma scale_outlier : forall s, s < dS a -> (outlier_subject a' s <-> outlier_subject a s).
  Proof.
    intros s Hs.
    assert (HV : forall e r, e < dE a -> r < dR a ->
      (high_vote a' s e r <-> if Rlt_dec 0 k then high_vote a s e r else low_vote a s e r) /\
      (low_vote a' s e r <-> if Rlt_dec 0 k then low_vote a s e r else high_vote a s e r))
      by (intros; apply scale_votes; unfold inside; auto).
    assert (CT : forall P Q n, (forall e r, e < dE a -> r < dR a -> (P e r <-> Q e r)) -> (counted a' P n <-> counted a Q n)).
    { intros P Q n HPQ. split; [apply counted_transfer; exact HPQ|]. intros (L & HN & HL & E). exists L. split; [exact HN|]. split; [|exact E].
      destruct HT as (HE & _ & HR & _). rewrite HE, HR. intros e r. rewrite HL.
      split; intros (H1 & H2 & H3); repeat split; auto; apply HPQ; auto. }
    assert (DE : dE a' * dR a' = dE a * dR a) by (destruct HT as (-> & _ & -> & _); reflexivity).
    unfold outlier_subject. rewrite DE.
    destruct (Rlt_dec 0 k) as [P|P].
    - split; intros (p & q & H1 & H2 & H3); exists p, q; (split; [|split; [|exact H3]]);
        (eapply CT; [|eassumption]); intros e r He Hr; destruct (HV e r He Hr); tauto.
    - split; intros (p & q & H1 & H2 & H3 & H4); exists q, p; (split; [|split; [|split]]);
        try (eapply CT; [|eassumption]; intros e r He Hr; destruct (HV e r He Hr); tauto);
        try (rewrite Rplus_comm; exact H3); rewrite Rabs_minus_sym, Rplus_comm; exact H4.
  Qed.

  Lemma scale_flags : snd (fst (fst (reject_kurtosis a'))) = snd (fst (fst (reject_kurtosis a))).
  Proof.
    assert (Hf' := transformed_finite _ _ _ _ HT Hf).
    assert (S1 := reject_kurtosis_spec a Hf). assert (S2 := reject_kurtosis_spec a' Hf').
    destruct (reject_kurtosis a) as [[[b fl] s1] s2]. destruct (reject_kurtosis a') as [[[b' fl'] s1'] s2']. cbn.
    destruct S1 as (L & _ & _ & HF & _). destruct S2 as (L' & _ & _ & HF' & _).
    assert (HS : dS a' = dS a) by apply HT. rewrite HS in *.
    apply nth_error_ext. intro s. destruct (Nat.ltb_spec s (dS a)) as [Hs|Hs].
    - assert (EQ : nth_error fl s = Some true <-> nth_error fl' s = Some true).
      { rewrite (HF s Hs), (HF' s Hs), (scale_outlier s Hs). split; intros [H (s' & Hs' & Hn)]; (split; [exact H|]);
          exists s'; (split; [exact Hs'|]); intro K; apply Hn; apply (scale_outlier s' Hs'); exact K. }
      destruct (nth_error fl s) as [x|] eqn:E1; [|apply nth_error_None in E1; lia].
      destruct (nth_error fl' s) as [y|] eqn:E2; [|apply nth_error_None in E2; lia].
      destruct x, y; try reflexivity; exfalso; destruct EQ as [EQ1 EQ2]; [specialize (EQ1 eq_refl)|specialize (EQ2 eq_refl)]; discriminate.
    - assert (A1 : nth_error fl s = None) by (apply nth_error_None; lia).
      assert (A2 : nth_error fl' s = None) by (apply nth_error_None; lia). congruence.
  Qed.
End Scale.

Lemma bias_diffs_affine : forall a a' k c s, finite_votes a -> transformed (affine k c) a a' -> s < dS a ->
  bias_diffs a' s = map (fun x => k * x + 0)%R (bias_diffs a s).
Proof.
  intros a a' k c s Hf HT Hs. unfold bias_diffs. destruct HT as (HE & HS & HR & H) eqn:Q. rewrite HE, HR.
  rewrite !flat_map_concat_map, concat_map, map_map. f_equal. apply map_ext_in. intros e He. apply in_seq in He.
  rewrite !flat_map_concat_map, concat_map, map_map. f_equal. apply map_ext_in. intros r Hr. apply in_seq in Hr.
  assert (I : inside a e s r) by (unfold inside; lia). rewrite H by exact I.
  destruct (at3 a e s r) as [x| | |] eqn:Ex; try reflexivity. cbn [affine map].
  rewrite (transformed_votes k c a a' e HT Hf) by lia. rewrite map_length.
  assert (Hin : In x (video_votes a e)) by (apply video_votes_In; exists s, r; repeat split; try lia; exact Ex).
  assert (Hne : video_votes a e <> []) by (intro E; rewrite E in Hin; contradiction).
  rewrite Rsum_map_affine. f_equal. field. apply INR_len_neq; exact Hne.
Qed.

Lemma diffs_ne : forall a e s r x, inside a e s r -> at3 a e s r = Fin x -> bias_diffs a s <> [].
Proof.
  intros a e s r x (I1 & I2 & I3) Hx E.
  assert (In (x - Rsum (video_votes a e) / INR (length (video_votes a e)))%R (bias_diffs a s)).
  { unfold bias_diffs. apply in_flat_map. exists e. split; [apply in_seq; lia|]. apply in_flat_map. exists r.
    split; [apply in_seq; lia|]. rewrite Hx. left; reflexivity. }
  rewrite E in H. contradiction.
Qed.

Lemma remove_bias_at : forall a e s r, finite_votes a -> inside a e s r ->
  at3 (remove_bias a (bias_estimate a)) e s r =
  match at3 a e s r with Fin x => Fin (x - Rmean (bias_diffs a s))%R | _ => NaN end.
Proof.
  intros a e s r Hf I. unfold remove_bias. cbn [at3 map3]. rewrite bias_estimate_eq by exact Hf.
  rewrite vat_map_seq by apply I. assert (F := Hf e s r I). destruct (at3 a e s r) as [x| | |] eqn:Ex; simpl in F; try contradiction.
  - rewrite nanmeanR_ne by (eapply diffs_ne; eassumption). efc. apply ef_sub_Fin.
  - efc. destruct (nanmeanR (bias_diffs a s)); reflexivity.
Qed.

Lemma remove_bias_affine : forall a a' k c, finite_votes a -> transformed (affine k c) a a' ->
  transformed (affine k c) (remove_bias a (bias_estimate a)) (remove_bias a' (bias_estimate a')).
Proof.
  intros a a' k c Hf HT. assert (Hf' := transformed_finite _ _ _ _ HT Hf).
  destruct HT as (HE & HS & HR & H) eqn:Q. split; [exact HE|]. split; [exact HS|]. split; [exact HR|].
  intros e s r I. assert (I0 : inside a e s r) by exact I.
  rewrite remove_bias_at; [|exact Hf'|unfold inside in *; lia]. rewrite remove_bias_at by assumption. rewrite H by exact I0.
  rewrite (bias_diffs_affine a a' k c s Hf HT) by apply I0.
  destruct (at3 a e s r) as [x| | |] eqn:Ex; cbn [affine]; try reflexivity. f_equal.
  rewrite Rmean_affine by (eapply diffs_ne; eassumption). ring.
Qed.

Lemma remove_bias_finite : forall a, finite_votes a -> finite_votes (remove_bias a (bias_estimate a)).
Proof.
  intros a Hf e s r I. rewrite remove_bias_at by assumption. destruct (at3 a e s r); exact Logic.I.
Qed.

Lemma zscore_finite : forall a, finite_votes a -> finite_votes (zscore a).
Proof.
  intros a Hf e s r I. assert (Hs : s < dS a) by apply I. destruct (zscore_entry a s Hf Hs) as [Z1 Z2].
  destruct (Classical_Prop.classic (has_spread (subject_votes a s))) as [HS|HS].
  - destruct (Z1 HS) as (mu & sd & _ & _ & _ & _ & E). rewrite E by apply I. destruct (at3 a e s r); exact Logic.I.
  - rewrite (Z2 HS) by apply I. exact Logic.I.
Qed.

Lemma subject_affine : forall k c a a' s, transformed (affine k c) a a' -> finite_votes a -> s < dS a ->
  subject_votes a' s = map (fun x => k * x + c)%R (subject_votes a s).
Proof.
  intros k c a a' e (HE & HS & HR & H) Hf He.
  apply (subject_votes_map a a' e (affine k c)); auto. intros; apply H; unfold inside; lia.
Qed.

Definition sgn (k : R) : R := if Rlt_dec 0 k then 1%R else (-1)%R.

Lemma zscore_affine : forall a a' k c, finite_votes a -> transformed (affine k c) a a' -> k <> 0%R ->
  transformed (affine (sgn k) 0) (zscore a) (zscore a').
Proof.
  intros a a' k c Hf HT Hk. assert (Hf' := transformed_finite _ _ _ _ HT Hf).
  destruct HT as (HE & HS & HR & H) eqn:Q. split; [exact HE|]. split; [exact HS|]. split; [exact HR|].
  intros e s r I. assert (I0 : inside a e s r) by exact I. assert (Hs : s < dS a) by apply I.
  assert (SV := subject_affine k c a a' s HT Hf Hs).
  destruct (zscore_entry a s Hf Hs) as [Z1 Z2]. destruct (zscore_entry a' s Hf' ltac:(lia)) as [Z1' Z2'].
  assert (SP : has_spread (subject_votes a' s) <-> has_spread (subject_votes a s)).
  { rewrite SV. split; intros (x & y & Hx & Hy & Hn).
    - apply in_map_iff in Hx as (u & <- & Hu). apply in_map_iff in Hy as (v & <- & Hv). exists u, v. repeat split; auto. congruence.
    - exists (k * x + c)%R, (k * y + c)%R. repeat split; [apply in_map_iff; eauto|apply in_map_iff; eauto|].
      intro E. apply Hn. apply Rmult_eq_reg_l with k; [lra|exact Hk]. }
  destruct (Classical_Prop.classic (has_spread (subject_votes a s))) as [HSp|HSp].
  - destruct (Z1 HSp) as (mu & sd & P & M & D & L & E). destruct (Z1' (proj2 SP HSp)) as (mu' & sd' & P' & M' & D' & L' & E').
    rewrite E by apply I0. rewrite E' by (unfold inside in I0; lia). rewrite H by exact I0.
    destruct (at3 a e s r) as [x| | |]; cbn [affine]; try reflexivity. f_equal.
    cbv zeta in *. rewrite SV in M', D', L'. rewrite map_length in D', L'. rewrite Rss_affine in D'.
    assert (Hne : subject_votes a s <> []) by (destruct (subject_votes a s); [simpl in L; lia|discriminate]).
    rewrite Rmean_affine in M' by exact Hne. rewrite <- M in M'.
    assert (N : (INR (length (subject_votes a s)) - 1 > 0)%R).
    { apply le_INR in L. simpl in L. lra. }
    assert (SS : (sd' * sd' = k * k * (sd * sd))%R).
    { apply Rmult_eq_reg_r with (INR (length (subject_votes a s)) - 1)%R; [|lra]. rewrite D', <- D. ring. }
    assert (SD : sd' = (Rabs k * sd)%R).
    { assert (B : (0 < Rabs k)%R) by (apply Rabs_pos_lt; exact Hk). assert (0 < Rabs k * sd)%R by (apply Rmult_lt_0_compat; assumption).
      assert (BB : (Rabs k * Rabs k = k * k)%R) by (unfold Rabs; destruct (Rcase_abs k); ring).
      assert (Z : ((sd' - Rabs k * sd) * (sd' + Rabs k * sd) = 0)%R).
      { replace ((sd' - Rabs k * sd) * (sd' + Rabs k * sd))%R with (sd' * sd' - Rabs k * Rabs k * (sd * sd))%R by ring.
        rewrite SS, BB. ring. }
      apply Rmult_integral in Z as [Z|Z]; lra. }
    rewrite M', SD. unfold sgn. destruct (Rlt_dec 0 k) as [K|K].
    + rewrite Rabs_pos_eq by lra. field. split; lra.
    + rewrite Rabs_left by lra. field. split; lra.
  - rewrite (Z2 HSp) by apply I0. rewrite Z2' by (try (unfold inside in I0; lia); tauto). reflexivity.
Qed.

(** Everything before the rejection, with finite votes. *)
Lemma pp_affine : forall (rd rd' : reader ef) a a' kw k c pp pp',
  rd_arr rd = Ok a -> rd_arr rd' = Ok a' -> finite_votes a -> transformed (affine k c) a a' -> k <> 0%R ->
  kw_dscore kw = false -> kw_rej kw = false -> preprocess rd kw = Ok pp -> preprocess rd' kw = Ok pp' ->
  finite_votes (pp_arr pp) /\ exists k' c', k' <> 0%R /\ transformed (affine k' c') (pp_arr pp) (pp_arr pp').
Proof.
  intros rd rd' a a' kw k c pp pp' HA HA' Hf HT Hk Hd Hr H H'. unfold preprocess in H, H'. rewrite HA in H. rewrite HA' in H'.
  rewrite Hd, Hr in H, H'. cbn [bind] in H, H'.
  match type of H with bind ?m _ = _ => destruct m as [[]|]; [|discriminate] end. cbn [bind] in H, H'.
  match type of H with bind ?m _ = _ => destruct m as [[]|]; [|discriminate] end. cbn [bind] in H, H'.
  injection H as <-. injection H' as <-. cbn [pp_arr].
  destruct (kw_zscore kw), (kw_bias kw).
  - split; [apply remove_bias_finite, zscore_finite, Hf|]. exists (sgn k), 0%R. split; [unfold sgn; destruct (Rlt_dec 0 k); lra|].
    apply remove_bias_affine; [apply zscore_finite, Hf|]. eapply zscore_affine; eassumption.
  - split; [apply zscore_finite, Hf|]. exists (sgn k), 0%R. split; [unfold sgn; destruct (Rlt_dec 0 k); lra|]. eapply zscore_affine; eassumption.
  - split; [apply remove_bias_finite, Hf|]. exists k, c. split; [exact Hk|]. apply remove_bias_affine; assumption.
  - split; [exact Hf|]. exists k, c. auto.
Qed.

Lemma rejection_affine : forall (rd rd' : reader ef) a a' kw k c pp pp',
  rd_arr rd = Ok a -> rd_arr rd' = Ok a' -> finite_votes a -> transformed (affine k c) a a' -> k <> 0%R ->
  kw_dscore kw = false -> kw_rej kw = true -> (kw_rejtype kw = None \/ kw_rejtype kw = Some Kurtosis) ->
  preprocess rd kw = Ok pp -> preprocess rd' kw = Ok pp' ->
  exists flags st1 st2 st1' st2', pp_rej pp = Some (flags, st1, st2) /\ pp_rej pp' = Some (flags, st1', st2').
Proof.
  intros rd rd' a a' kw k c pp pp' HA HA' Hf HT Hk Hd Hr Ht H H'.
  destruct (pp_reject rd kw pp Hr H) as (q & Q & _ & _ & rr & E & P).
  destruct (pp_reject rd' kw pp' Hr H') as (q' & Q' & _ & _ & rr' & E' & P').
  assert (K : rr = reject_kurtosis (pp_arr q)) by (destruct Ht as [Ht|Ht]; rewrite Ht in E; congruence).
  assert (K' : rr' = reject_kurtosis (pp_arr q')) by (destruct Ht as [Ht|Ht]; rewrite Ht in E'; congruence).
  destruct (pp_affine rd rd' a a' (without_rejection kw) k c q q' HA HA' Hf HT Hk Hd eq_refl Q Q') as (F & k' & c' & Hk' & HT').
  assert (SF := scale_flags _ _ k' c' F Hk' HT'). rewrite <- K, <- K' in SF.
  destruct rr as [[[b fl] s1] s2]. destruct rr' as [[[b' fl'] s1'] s2']. cbn in SF. subst fl'.
  destruct P as [_ P]. destruct P' as [_ P']. exists fl, s1, s2, s1', s2'. auto.
Qed.

(** ** Correlation-based rejection *)
Lemma np_sum_nan : forall l : list ef, In NaN l -> np_sum l = NaN.
Proof.
  intros l H. apply in_split in H as (l1 & l2 & ->).
  rewrite (np_sum_perm _ (NaN :: l1 ++ l2)) by (symmetry; apply Permutation_middle).
  rewrite np_sum_cons. reflexivity.
Qed.
Lemma np_mean_nan : forall l : list ef, In NaN l -> np_mean l = NaN.
Proof. intros l H. unfold np_mean. rewrite np_sum_nan by exact H. efc. destruct (nofnat (length l)); reflexivity. Qed.

Lemma threshold_nan : forall l : list ef, In NaN l -> corr_threshold l = NaN.
Proof.
  intros l H. unfold corr_threshold. rewrite np_mean_nan by exact H. efc.
  assert (E : forall x, ef_sub NaN x = NaN) by (intros []; reflexivity). rewrite E.
  rewrite ndec_ef by lia. reflexivity.
Qed.

Lemma reject_corr_nan : forall corr (a : arr3 ef) rr r, observer_corr corr a = Ok r -> In NaN r ->
  reject_corr corr a = Ok rr ->
  let '(b, flags, st1, st2) := rr in dS b = 0 /\ dE b = dE a /\ flags = repeat false (dS a).
Proof.
  intros corr a [[[b fl] s1] s2] r HO HN H. unfold reject_corr in H. rewrite HO in H. cbn [bind] in H.
  rewrite (threshold_nan r HN) in H. injection H as <- <- <- <-.
  assert (L : length r = dS a). { unfold observer_corr in HO. apply mapM_length in HO. rewrite seq_length in HO. congruence. }
  cbn [dS dE select_cols]. split; [|split; [reflexivity|]].
  - assert (G : forall l, filter (fun s => nltb NaN (vat r s)) l = []).
    { induction l as [|s l IH]; simpl; [reflexivity|exact IH]. }
    rewrite G. reflexivity.
  - rewrite (map_ext _ (fun _ => false)).
    + rewrite map_const_repeat, L. reflexivity.
    + intros []; reflexivity.
Qed.

(** Finite correlations. *)
Definition thrR (rs : list R) : R := let t := (Rmean rs - sqrt (pvar rs))%R in if Rlt_dec (7/10) t then (7/10)%R else t.
Lemma threshold_fin : forall rs, rs <> [] -> corr_threshold (map Fin rs) = Fin (thrR rs).
Proof.
  intros rs H. unfold corr_threshold, thrR. rewrite np_mean_Fin, nanmeanR_ne, np_std_Fin by exact H.
  assert (SD : nanstdR 0 rs = Fin (sqrt (pvar rs))).
  { unfold nanstdR. destruct (Nat.leb_spec (length rs) 0); [destruct rs; [contradiction|simpl in *; lia]|].
    rewrite Nat.sub_0_r. reflexivity. }
  rewrite SD, ndec_ef by lia. efc. rewrite ef_sub_Fin. cbn [ef_ltb]. unfold Rltb. cbv zeta.
  destruct (Rlt_dec (7 / 10) (Rmean rs - sqrt (pvar rs))); reflexivity.
Qed.

Lemma max_ge_mean : forall rs, rs <> [] -> exists x, In x rs /\ (Rmean rs <= x)%R.
Proof.
  intros rs H. destruct (Classical_Prop.classic (exists x, In x rs /\ (Rmean rs <= x)%R)) as [K|K]; [exact K|].
  exfalso. assert (A : forall x, In x rs -> (x < Rmean rs)%R).
  { intros x Hx. destruct (Rlt_le_dec x (Rmean rs)); [assumption|]. exfalso. apply K. exists x. auto. }
  assert (B : (Rsum (map (fun x => Rmean rs - x) rs) = 0)%R).
  { rewrite (Rsum_map_sub _ (fun _ => Rmean rs) (fun x => x)), Rsum_map_const, map_id. unfold Rmean. field. apply INR_len_neq; exact H. }
  destruct rs as [|x0 l]; [contradiction|].
  assert (C : (Rmean (x0 :: l) - x0 = 0)%R).
  { apply (Rsum_eq0 (map (fun x => Rmean (x0 :: l) - x)%R (x0 :: l))); [|exact B|left; reflexivity].
    intros y Hy. apply in_map_iff in Hy as (z & <- & Hz). assert (z < Rmean (x0 :: l))%R by (apply A; exact Hz). lra. }
  assert (D := A x0 (or_introl eq_refl)). lra.
Qed.

Lemma pvar_zero : forall l, l <> [] -> (pvar l = 0%R <-> forall x y, In x l -> In y l -> x = y).
Proof.
  intros l H. rewrite <- Rss_zero. unfold pvar. rewrite <- Rss_sumsq. assert (P := INR_len_pos _ l H). split; intro E.
  - unfold Rdiv in E. apply Rmult_integral in E as [E|E]; [exact E|].
    assert (0 < / INR (length l))%R by (apply Rinv_0_lt_compat; exact P). lra.
  - rewrite E. unfold Rdiv. ring.
Qed.

Lemma thr_exceeded : forall rs, rs <> [] ->
  ((exists x, In x rs /\ (thrR rs < x)%R) <-> (exists x, In x rs /\ (7/10 < x)%R) \/ (exists x y, In x rs /\ In y rs /\ x <> y)).
Proof.
  intros rs H. assert (V := pvar_nonneg rs). assert (SV := sqrt_pos (pvar rs)).
  destruct (Classical_Prop.classic (exists x y, In x rs /\ In y rs /\ x <> y)) as [K|K].
  - split; [intros _; right; exact K|intros _].
    assert (P : (0 < sqrt (pvar rs))%R).
    { apply sqrt_lt_R0. destruct V as [V|V]; [exact V|]. exfalso. symmetry in V. rewrite (pvar_zero rs H) in V.
      destruct K as (x & y & Hx & Hy & Hn). apply Hn. apply V; assumption. }
    destruct (max_ge_mean rs H) as (x & Hx & Hm). exists x. split; [exact Hx|].
    unfold thrR. cbv zeta. destruct (Rlt_dec (7/10) _); lra.
  - assert (A : forall x y, In x rs -> In y rs -> x = y).
    { intros x y Hx Hy. destruct (Req_dec x y); [assumption|]. exfalso. apply K. exists x, y. auto. }
    assert (Z := proj2 (pvar_zero rs H) A).
    assert (M : forall x, In x rs -> Rmean rs = x).
    { intros x Hx. unfold Rmean. rewrite (Rsum_const rs x) by (intros; apply A; assumption). field. apply INR_len_neq; exact H. }
    unfold thrR. rewrite Z, sqrt_0, Rminus_0_r. cbv zeta. split.
    + intros (x & Hx & Hl). left. exists x. split; [exact Hx|]. rewrite (M x Hx) in Hl. destruct (Rlt_dec (7/10) x); lra.
    + intros [(x & Hx & Hl)|K']; [|contradiction]. exists x. split; [exact Hx|]. rewrite (M x Hx). destruct (Rlt_dec (7/10) x); lra.
Qed.

Lemma reject_corr_fin : forall corr (a : arr3 ef) rr rs, observer_corr corr a = Ok (map Fin rs) -> 0 < dS a ->
  reject_corr corr a = Ok rr ->
  let '(b, flags, st1, st2) := rr in
  st1 = map Fin rs /\
  rejection_result a b (fun s => exists x, nth_error rs s = Some x /\ (x <= thrR rs)%R) flags /\
  (0 < dS b <-> (exists x, In x rs /\ (7/10 < x)%R) \/ (exists x y, In x rs /\ In y rs /\ x <> y)).
Proof.
  intros corr a [[[b fl] s1] s2] rs HO HS H. unfold reject_corr in H. rewrite HO in H. cbn [bind] in H.
  assert (L : length rs = dS a). { unfold observer_corr in HO. apply mapM_length in HO. rewrite seq_length, map_length in HO. congruence. }
  assert (Hne : rs <> []) by (intro E; rewrite E in L; simpl in L; lia).
  rewrite (threshold_fin rs Hne) in H. injection H as <- EFL <- _.
  split; [reflexivity|].
  set (flag := fun s => ef_leb (vat (map Fin rs) s) (Fin (thrR rs))).
  assert (VAT : forall s, s < dS a -> exists x, nth_error rs s = Some x /\ vat (map Fin rs) s = Fin x).
  { intros s Hs. destruct (nth_error rs s) as [x|] eqn:E; [|apply nth_error_None in E; lia]. exists x. split; [reflexivity|].
    unfold vat. erewrite nth_error_nth; [reflexivity|]. rewrite nth_error_map, E. reflexivity. }
  assert (FL : map (fun x => nleb x (Fin (thrR rs))) (map Fin rs) = map flag (seq 0 (dS a))).
  { rewrite map_map. apply nth_error_ext. intro i. rewrite nth_error_map. destruct (Nat.ltb_spec i (dS a)) as [Hi|Hi].
    - rewrite nth_error_map_seq by exact Hi. unfold flag. destruct (VAT i Hi) as (x & E & ->). rewrite E. reflexivity.
    - assert (A1 : nth_error rs i = None) by (apply nth_error_None; lia). rewrite A1. symmetry. apply nth_error_None. rewrite map_length, seq_length. exact Hi. }
  assert (FL' : fl = map flag (seq 0 (dS a))) by (rewrite <- FL; symmetry; exact EFL). rewrite FL'.
  assert (KP : filter (fun s => nltb (Fin (thrR rs)) (vat (map Fin rs) s)) (seq 0 (dS a)) = filter (fun s => negb (flag s)) (seq 0 (dS a))).
  { apply filter_ext_in. intros s Hs. apply in_seq in Hs. unfold flag. destruct (VAT s ltac:(lia)) as (x & E & ->). efc. cbn [ef_ltb ef_leb].
    unfold Rltb, Rleb. destruct (Rlt_dec (thrR rs) x), (Rle_dec x (thrR rs)); try reflexivity; lra. }
  assert (KP' := f_equal (select_cols a) KP). match goal with |- rejection_result a ?x _ _ /\ _ => change x with (select_cols a (filter (fun s => nltb (Fin (thrR rs)) (vat (map Fin rs) s)) (seq 0 (dS a)))) end.
  rewrite KP. clear KP'. split.
  - split; [rewrite map_length, seq_length; reflexivity|]. split.
    + intros s Hs. rewrite nth_error_map_seq by exact Hs. unfold flag. destruct (VAT s Hs) as (x & E & ->). cbn [ef_leb].
      split.
      * intros [= K]. apply Rleb_true in K. exists x. auto.
      * intros (x' & E' & K). rewrite E in E'. injection E' as <-. f_equal. apply Rleb_true. exact K.
    + exists (filter (fun s => negb (flag s)) (seq 0 (dS a))). split; [apply unflagged_filter|apply select_columns].
  - rewrite <- thr_exceeded by exact Hne. cbn [dS select_cols]. split.
    + intro K. destruct (filter (fun s => negb (flag s)) (seq 0 (dS a))) as [|s l] eqn:E; [simpl in K; lia|].
      assert (Hin : In s (filter (fun s => negb (flag s)) (seq 0 (dS a)))) by (rewrite E; left; reflexivity).
      apply filter_In in Hin as [Hi Hn]. apply in_seq in Hi. unfold flag in Hn. destruct (VAT s ltac:(lia)) as (x & Ex & Ev). rewrite Ev in Hn.
      exists x. split; [eapply nth_error_In; exact Ex|]. cbn [ef_leb] in Hn. unfold Rleb in Hn. destruct (Rle_dec x (thrR rs)); [discriminate|lra].
    + intros (x & Hx & Hl). apply In_nth_error in Hx as (s & Es). assert (Hs : s < dS a) by (rewrite <- L; apply nth_error_Some; congruence).
      assert (Hin : In s (filter (fun s => negb (flag s)) (seq 0 (dS a)))).
      { apply filter_In. split; [apply in_seq; lia|]. unfold flag. destruct (VAT s Hs) as (y & Ey & ->). rewrite Es in Ey. injection Ey as <-.
        cbn [ef_leb]. unfold Rleb. destruct (Rle_dec x (thrR rs)); [lra|reflexivity]. }
      destruct (filter (fun s => negb (flag s)) (seq 0 (dS a))); [contradiction|simpl; lia].
Qed.

(** Pearson's statistic on numbers. *)
Lemma combine_map2 : forall A B C D (f : A -> C) (g : B -> D) l l', combine (map f l) (map g l') = map (fun p => (f (fst p), g (snd p))) (combine l l').
Proof. induction l as [|x l IH]; intros [|y l']; simpl; try reflexivity. rewrite IH. reflexivity. Qed.
Lemma pearsonr_Fin : forall x y, 2 <= length x -> length y = length x ->
  sp_pearsonr (map Fin x) (map Fin y) =
  Ok (ef_div (Fin (covsum x y)) (Fin (sqrt (sumsq (Rmean x) x) * sqrt (sumsq (Rmean y) y)))).
Proof.
  intros x y Hx Hy. unfold sp_pearsonr. rewrite map_length. destruct (Nat.ltb_spec (length x) 2); [lia|].
  assert (Nx : x <> []) by (destruct x; simpl in *; [lia|discriminate]).
  assert (Ny : y <> []) by (destruct y; simpl in *; [lia|discriminate]).
  rewrite !np_mean_Fin, !nanmeanR_ne by assumption. rewrite !map_map. rewrite combine_map2. rewrite map_map.
  rewrite (map_ext _ (fun p => Fin ((fst p - Rmean x) * (snd p - Rmean y)))%R) by (intro; reflexivity).
  rewrite (map_ext (fun x0 => nsq (nsub (Fin x0) (Fin (Rmean x)))) (fun v => Fin ((v - Rmean x) * (v - Rmean x)))%R) by (intro; reflexivity).
  rewrite (map_ext (fun x0 => nsq (nsub (Fin x0) (Fin (Rmean y)))) (fun v => Fin ((v - Rmean y) * (v - Rmean y)))%R) by (intro; reflexivity).
  rewrite <- (map_map (fun p : R * R => (fst p - Rmean x) * (snd p - Rmean y))%R Fin).
  rewrite <- (map_map (fun v => (v - Rmean x) * (v - Rmean x))%R Fin).
  rewrite <- (map_map (fun v => (v - Rmean y) * (v - Rmean y))%R Fin).
  rewrite !np_sum_Fin. efc. rewrite !ef_sqrt_Fin by (apply Rss_nonneg). reflexivity.
Qed.
Lemma pearsonr_const : forall x y c, 2 <= length x -> length y = length x -> (forall v, In v x -> v = c) ->
  sp_pearsonr (map Fin x) (map Fin y) = Ok NaN.
Proof.
  intros x y c Hx Hy Hc. rewrite pearsonr_Fin by assumption.
  assert (M : Rmean x = c).
  { unfold Rmean. rewrite (Rsum_const x c Hc). field. apply INR_len_neq. destruct x; simpl in *; [lia|discriminate]. }
  assert (S0 : sumsq (Rmean x) x = 0%R).
  { rewrite <- Rss_sumsq. apply Rss_zero. intros u v Hu Hv. rewrite (Hc u Hu), (Hc v Hv). reflexivity. }
  assert (C0 : covsum x y = 0%R).
  { unfold covsum. rewrite (Rsum_map_ext _ _ (fun _ => 0%R)); [rewrite Rsum_map_const; ring|].
    intros [u v] Hin. simpl. assert (Hu : In u x) by (eapply in_combine_l; exact Hin). rewrite M, (Hc u Hu). ring. }
  rewrite S0, C0, sqrt_0, Rmult_0_l. f_equal. apply ef_0div0.
Qed.

Lemma spread_pos : forall l, has_spread l <-> (0 < sumsq (Rmean l) l)%R.
Proof.
  intro l. rewrite <- Rss_sumsq. split.
  - intros (x & y & Hx & Hy & Hn). destruct (Rss_nonneg l) as [H|H]; [exact H|]. symmetry in H. rewrite Rss_zero in H.
    exfalso. apply Hn. apply H; assumption.
  - intro H. destruct (Classical_Prop.classic (has_spread l)) as [K|K]; [exact K|]. exfalso.
    assert (Z : Rss l = 0%R); [|lra]. apply Rss_zero. intros x y Hx Hy. destruct (Req_dec x y); [assumption|]. exfalso. apply K. exists x, y. auto.
Qed.
Lemma covsum_const_l : forall x y, ~ has_spread x -> covsum x y = 0%R.
Proof.
  intros x y H. unfold covsum. rewrite (Rsum_map_ext _ _ (fun _ => 0%R)); [rewrite Rsum_map_const; ring|].
  intros [u v] Hin. simpl. assert (Hu : In u x) by (eapply in_combine_l; exact Hin).
  assert (M : Rmean x = u).
  { unfold Rmean. rewrite (Rsum_const x u); [field; apply INR_len_neq; intro E; rewrite E in Hu; contradiction|].
    intros w Hw. destruct (Req_dec w u); [assumption|]. exfalso. apply H. exists w, u. auto. }
  rewrite M. ring.
Qed.
Lemma covsum_const_r : forall x y, ~ has_spread y -> covsum x y = 0%R.
Proof.
  intros x y H. unfold covsum. rewrite (Rsum_map_ext _ _ (fun _ => 0%R)); [rewrite Rsum_map_const; ring|].
  intros [u v] Hin. simpl. assert (Hu : In v y) by (eapply in_combine_r; exact Hin).
  assert (M : Rmean y = v).
  { unfold Rmean. rewrite (Rsum_const y v); [field; apply INR_len_neq; intro E; rewrite E in Hu; contradiction|].
    intros w Hw. destruct (Req_dec w v); [assumption|]. exfalso. apply H. exists w, v. auto. }
  rewrite M. ring.
Qed.
Lemma no_spread_zero : forall l, ~ has_spread l -> sumsq (Rmean l) l = 0%R.
Proof. intros l H. destruct (Rss_nonneg l) as [K|K]; [|symmetry; exact K]. exfalso. apply H. apply spread_pos. exact K. Qed.

Lemma pearsonr_is_corr : forall x y v, length y = length x -> sp_pearsonr (map Fin x) (map Fin y) = Ok v ->
  2 <= length x /\ is_corr v x y.
Proof.
  intros x y v L H. destruct (Nat.ltb_spec (length x) 2) as [Hl|Hl].
  - unfold sp_pearsonr in H. rewrite map_length in H. destruct (Nat.ltb_spec (length x) 2); [discriminate|lia].
  - split; [lia|]. rewrite pearsonr_Fin in H by assumption. injection H as <-.
    destruct (Classical_Prop.classic (has_spread x)) as [Sx|Sx]; [destruct (Classical_Prop.classic (has_spread y)) as [Sy|Sy]|].
    + left. split; [exact Sx|]. split; [exact Sy|]. apply ef_div_Fin. apply spread_pos in Sx. apply spread_pos in Sy.
      apply sqrt_lt_R0 in Sx. apply sqrt_lt_R0 in Sy. apply Rmult_integral_contrapositive_currified; lra.
    + right. split; [tauto|]. rewrite (covsum_const_r x y Sy), (no_spread_zero y Sy), sqrt_0, Rmult_0_r. apply ef_0div0.
    + right. split; [tauto|]. rewrite (covsum_const_l x y Sx), (no_spread_zero x Sx), sqrt_0, Rmult_0_l. apply ef_0div0.
Qed.
Lemma count_if_Fin : forall (f : ef -> bool) l, count_if f (map Fin l) = length (filter (fun x => f (Fin x)) l).
Proof. intros f l. unfold count_if. induction l as [|x l IH]; simpl; [reflexivity|]. destruct (f (Fin x)); simpl; rewrite IH; reflexivity. Qed.
Lemma rankdata_Fin : forall l, rankdata (map Fin l) = map Fin (ranks l).
Proof.
  intro l. unfold rankdata, ranks. rewrite !map_map. apply map_ext. intro x. rewrite !count_if_Fin, !nofnat_ef. efc. cbn [ef_ltb ef_eqb ef_add].
  change (@none_ ef Num_ef) with (Fin 1). change (@nofZ ef Num_ef 2) with (Fin 2). cbn [ef_add]. rewrite ef_div_Fin by lra. reflexivity.
Qed.
Lemma ranks_length : forall l, length (ranks l) = length l.
Proof. intro. unfold ranks. apply map_length. Qed.
Lemma spearmanr_is_corr : forall x y v, length y = length x -> sp_spearmanr (map Fin x) (map Fin y) = Ok v ->
  is_corr v (ranks x) (ranks y).
Proof.
  intros x y v L H. unfold sp_spearmanr in H. rewrite map_length in H. destruct (Nat.ltb_spec (length x) 2) as [Hl|Hl].
  - injection H as <-. right. split; [|reflexivity]. intros [(u & w & Hu & Hw & Hn) _].
    assert (length (ranks x) < 2) by (rewrite ranks_length; exact Hl).
    destruct (ranks x) as [|z [|z' t]]; simpl in *; [contradiction| |lia]. destruct Hu as [->|[]], Hw as [->|[]]. contradiction.
  - rewrite !rankdata_Fin in H. apply pearsonr_is_corr in H; [tauto|]. rewrite !ranks_length. exact L.
Qed.

Section Observer.
  Variable a : arr3 ef.
  Hypothesis Hf : finite_votes a.
  Definition sesR e s := np_nanmean (map (fun r => at3 a e s r) (seq 0 (dR a))).
  Lemma ses_eq : forall e s, e < dE a -> s < dS a -> sesR e s = nanmeanR (rep_votes a e s).
  Proof.
    intros e s He Hs. unfold sesR. apply np_nanmean_finnan. apply Forall_forall. intros x Hx.
    apply in_map_iff in Hx as (r & <- & Hr). apply in_seq in Hr. apply Hf. unfold inside; lia.
  Qed.
  Lemma presents_means : forall e l, e < dE a -> (forall s, In s l -> s < dS a) ->
    allfinnan (map (sesR e) l) /\ presents (map (sesR e) l) = map (fun s => Rmean (rep_votes a e s)) (filter (fun s => nonempty (rep_votes a e s)) l).
  Proof.
    intros e l He. induction l as [|s l IH]; intro H; simpl; [split; constructor|].
    destruct IH as [I1 I2]; [intros; apply H; right; assumption|]. rewrite ses_eq by (try assumption; apply H; left; reflexivity).
    destruct (rep_votes a e s) as [|x t] eqn:E; simpl.
    - split; [constructor; [exact I|exact I1]|exact I2].
    - split; [constructor; [exact I|exact I1]|]. rewrite E, I2. reflexivity.
  Qed.
  Lemma mos_eq : forall e s, e < dE a -> s < dS a -> nonempty (rep_votes a e s) = true ->
    np_nanmean (map (sesR e) (seq 0 (dS a))) = Fin (mean_of_means a e).
  Proof.
    intros e s He Hs Hn. destruct (presents_means e (seq 0 (dS a)) He) as [F P]; [intros x Hx; apply in_seq in Hx; lia|].
    rewrite np_nanmean_finnan by exact F. rewrite P. apply nanmeanR_ne.
    assert (Hin : In s (filter (fun s => nonempty (rep_votes a e s)) (seq 0 (dS a)))) by (apply filter_In; split; [apply in_seq; lia|exact Hn]).
    destruct (filter (fun s => nonempty (rep_votes a e s)) (seq 0 (dS a))); [contradiction|discriminate].
  Qed.
  Lemma seen_eq : forall s, s < dS a -> filter (fun e => negb (nisnan (sesR e s))) (seq 0 (dE a)) = seen a s.
  Proof.
    intros s Hs. apply filter_ext_in. intros e He. apply in_seq in He. rewrite ses_eq by lia.
    destruct (rep_votes a e s); reflexivity.
  Qed.
  Lemma observer_scores : forall corr r, observer_corr corr a = Ok r -> length r = dS a /\
    forall s, s < dS a -> exists v, nth_error r s = Some v /\ corr (map Fin (own_scores a s)) (map Fin (all_scores a s)) = Ok v.
  Proof.
    intros corr r H. unfold observer_corr in H. split; [apply mapM_length in H; rewrite seq_length in H; congruence|].
    intros s Hs. assert (E : nth_error (seq 0 (dS a)) s = Some s) by (apply nth_error_seq; exact Hs).
    eapply mapM_nth in E as (v & Ev & Hv); [|exact H]. exists v. split; [exact Ev|]. rewrite <- Hv.
    change (fun e0 => negb (nisnan (np_nanmean (map (fun r0 => at3 a e0 s r0) (seq 0 (dR a)))))) with (fun e => negb (nisnan (sesR e s))).
    rewrite seen_eq by exact Hs. unfold own_scores, all_scores. rewrite !map_map. f_equal.
    - apply map_ext_in. intros e He. unfold seen in He. apply filter_In in He as [He Hn]. apply in_seq in He.
      change (Fin (Rmean (rep_votes a e s)) = sesR e s).
      rewrite ses_eq by lia. destruct (rep_votes a e s); [discriminate|reflexivity].
    - apply map_ext_in. intros e He. unfold seen in He. apply filter_In in He as [He Hn]. apply in_seq in He.
      rewrite vat_map_seq by lia. symmetry. apply (mos_eq e s); [lia|exact Hs|exact Hn].
  Qed.
End Observer.

Lemma thrR_min : forall rs, thrR rs = threshold rs.
Proof. intro rs. unfold thrR, threshold, Rmin. cbv zeta. destruct (Rlt_dec (7/10) _), (Rle_dec (7/10) _); lra. Qed.

Lemma corr_pp : forall (rd : reader ef) k pp, kw_rej k = true -> (kw_rejtype k = Some Pearson \/ kw_rejtype k = Some Spearman) ->
  preprocess rd k = Ok pp ->
  exists pp0 flags r zeros, preprocess rd (without_rejection k) = Ok pp0 /\
    pp_orig pp0 = pp_orig pp /\ pp_bias pp0 = pp_bias pp /\ pp_rej pp = Some (flags, r, zeros) /\
    let a := pp_arr pp0 in
    (finite_votes a ->
      length r = dS a /\ length flags = dS a /\
      (forall s, s < dS a -> exists v, nth_error r s = Some v /\
         (kw_rejtype k = Some Pearson -> is_corr v (own_scores a s) (all_scores a s)) /\
         (kw_rejtype k = Some Spearman -> is_corr v (ranks (own_scores a s)) (ranks (all_scores a s)))) /\
      (In NaN r -> dS (pp_arr pp) = 0 /\ flags = repeat false (dS a)) /\
      (forall rs, r = map Fin rs -> 0 < dS a ->
         rejection_result a (pp_arr pp) (fun s => exists x, nth_error rs s = Some x /\ (x <= threshold rs)%R) flags /\
         (0 < dS (pp_arr pp) <-> (exists x, In x rs /\ (7/10 < x)%R) \/ (exists x y, In x rs /\ In y rs /\ x <> y)))).
Proof.
  intros rd k pp Hr Ht H. destruct (pp_reject rd k pp Hr H) as (pp0 & H0 & HO & HB & rr & E & P).
  destruct rr as [[[b fl] r] z]. destruct P as [-> P]. exists pp0, fl, r, z. repeat (split; [assumption|]).
  cbv zeta. intro Hf.
  set (corr := match kw_rejtype k with Some Pearson => sp_pearsonr | _ => sp_spearmanr end).
  assert (E' : reject_corr corr (pp_arr pp0) = Ok (b, fl, r, z)) by (unfold corr; destruct Ht as [Ht|Ht]; rewrite Ht in *; exact E).
  assert (R0 : exists r0, observer_corr corr (pp_arr pp0) = Ok r0 /\ r0 = r /\ length fl = length r0).
  { unfold reject_corr in E'. destruct (observer_corr corr (pp_arr pp0)) as [r0|]; [|discriminate]. cbn [bind] in E'.
    exists r0. split; [reflexivity|]. injection E' as _ <- -> _. split; [reflexivity|apply map_length]. }
  destruct R0 as (r0 & OC & -> & FLn). destruct (observer_scores _ Hf corr r OC) as [L HS].
  split; [exact L|]. split; [congruence|]. split; [|split].
  - intros s Hs. destruct (HS s Hs) as (v & Ev & Hv). exists v. split; [exact Ev|].
    assert (LL : length (all_scores (pp_arr pp0) s) = length (own_scores (pp_arr pp0) s)) by (unfold all_scores, own_scores; rewrite !map_length; reflexivity).
    unfold corr in Hv. split; intro K; rewrite K in Hv; [apply pearsonr_is_corr in Hv|apply spearmanr_is_corr in Hv]; tauto.
  - intro HN. assert (A := reject_corr_nan corr _ _ r OC HN E'). cbv beta iota in A. tauto.
  - intros rs -> Hpos. assert (A := reject_corr_fin corr _ _ rs OC Hpos E'). cbv beta iota in A. rewrite thrR_min in A. tauto.
Qed.
