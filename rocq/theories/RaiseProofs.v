(** Raising one vote: lemmas for claim C132. *)
From Coq Require Import String.
From Coq Require Import List ZArith Bool Arith Lia Reals Lra Permutation.
From Verif Require Import PyBase Num ExtReal NumPy Dataset Preproc Mos BaseProofs ExtRealProofs SpecDataset SpecMos
  DatasetProofs ArrayProofs RecordedProofs MosProofs PreprocProofs RejectProofs Reject2Proofs StepsProofs SpecRaise.
Import ListNotations.
Local Open Scope list_scope.
Local Open Scope R_scope.

Definition pv (y : ef) : R := match y with Fin x => x | _ => 0 end.
Definition pc (y : ef) : R := match y with Fin _ => 1 | _ => 0 end.
Lemma sum_presents : forall l, Rsum (presents l) = Rsum (map pv l).
Proof. induction l as [|[x| | |] l IH]; cbn [presents map pv]; rewrite ?Rsum_cons, ?IH; try reflexivity; rewrite Rplus_0_l; reflexivity. Qed.
Lemma len_presents : forall l, INR (length (presents l)) = Rsum (map pc l).
Proof.
  induction l as [|[x| | |] l IH]; cbn [presents map pc length]; rewrite ?Rsum_cons, <- ?IH; try rewrite S_INR; try reflexivity; try ring.
Qed.
Lemma sum_votes : forall a e, Rsum (video_votes a e) = S3 (fun s => S3 (fun r => pv (at3 a e s r)) (dR a)) (dS a).
Proof.
  intros a e. unfold video_votes. rewrite presents_flat_map, Rsum_flat_map. apply Rsum_map_ext. intros s _.
  rewrite sum_presents, map_map. reflexivity.
Qed.
Lemma len_flat : forall A (f : A -> list R) l, INR (length (flat_map f l)) = Rsum (map (fun x => INR (length (f x))) l).
Proof. induction l as [|x l IH]; cbn [flat_map map length]; [reflexivity|]. rewrite app_length, plus_INR, IH, Rsum_cons. reflexivity. Qed.
Lemma len_votes : forall a e, INR (length (video_votes a e)) = S3 (fun s => S3 (fun r => pc (at3 a e s r)) (dR a)) (dS a).
Proof.
  intros a e. unfold video_votes. rewrite presents_flat_map, len_flat. apply Rsum_map_ext. intros s _.
  rewrite len_presents, map_map. reflexivity.
Qed.

Lemma S3_le : forall f g n, (forall i, (i < n)%nat -> f i <= g i) -> S3 f n <= S3 g n.
Proof. intros f g n H. apply Rsum_le. intros x Hx. apply in_seq in Hx. apply H. lia. Qed.
Lemma S3_S : forall f n, S3 f (S n) = S3 f n + f n.
Proof. intros f n. unfold S3. rewrite seq_S, map_app, Rsum_app. cbn [map]. rewrite Rsum_cons. change (Rsum []) with 0. change (0 + n)%nat with n. ring. Qed.
Lemma S3_bump : forall f g n i0 c, (i0 < n)%nat -> (forall i, (i < n)%nat -> i <> i0 -> f i <= g i) -> f i0 + c <= g i0 -> S3 f n + c <= S3 g n.
Proof.
  induction n as [|n IH]; intros i0 c Hi H H0; [lia|]. rewrite !S3_S. destruct (Nat.eq_dec i0 n) as [->|N].
  - assert (S3 f n <= S3 g n) by (apply S3_le; intros i Hl; apply H; lia). lra.
  - assert (S3 f n + c <= S3 g n) by (apply (IH i0); [lia|intros; apply H; lia|exact H0]). specialize (H n ltac:(lia) ltac:(lia)). lra.
Qed.
Lemma S3_change : forall f g n i0 c, (i0 < n)%nat -> (forall i, (i < n)%nat -> i <> i0 -> g i = f i) -> g i0 = f i0 + c -> S3 g n = S3 f n + c.
Proof.
  induction n as [|n IH]; intros i0 c Hi H H0; [lia|]. rewrite !S3_S. destruct (Nat.eq_dec i0 n) as [->|N].
  - assert (S3 g n = S3 f n) by (apply S3_ext; intros i Hl; apply H; lia). lra.
  - assert (S3 g n = S3 f n + c) by (apply (IH i0); [lia|intros; apply H; lia|exact H0]). specialize (H n ltac:(lia) ltac:(lia)). lra.
Qed.

Section Raised.
  Variables (a a' : arr3 ef) (e0 s0 r0 : nat) (x x' : R).
  Hypothesis HR : raised a a' e0 s0 r0 x x'.
  Hypothesis Hf : finite_votes a.

  Lemma raised_finite : finite_votes a'.
  Proof.
    destruct HR as (E & S & R & I0 & Hx & Hx' & L & H). intros e s r I. unfold inside in I. rewrite E, S, R in I.
    destruct (Nat.eq_dec e e0) as [->|N]; [destruct (Nat.eq_dec s s0) as [->|N]; [destruct (Nat.eq_dec r r0) as [->|N]|]|].
    - rewrite Hx'. exact Logic.I.
    - rewrite H; [apply Hf; exact I|exact I|congruence].
    - rewrite H; [apply Hf; exact I|exact I|congruence].
    - rewrite H; [apply Hf; exact I|exact I|congruence].
  Qed.
  Lemma raised_same : forall e s r, inside a e s r -> pc (at3 a' e s r) = pc (at3 a e s r).
  Proof.
    destruct HR as (E & S & R & I0 & Hx & Hx' & L & H). intros e s r I.
    destruct (Nat.eq_dec e e0) as [->|N]; [destruct (Nat.eq_dec s s0) as [->|N]; [destruct (Nat.eq_dec r r0) as [->|N]|]|];
      [rewrite Hx, Hx'; reflexivity| | |]; (rewrite H; [reflexivity|exact I|congruence]).
  Qed.
  Lemma raised_len : forall e, (e < dE a)%nat -> INR (length (video_votes a' e)) = INR (length (video_votes a e)).
  Proof.
    assert (HR' := HR). destruct HR' as (E & S & R & I0 & Hx & Hx' & L & H). intros e He. rewrite !len_votes, S, R.
    apply S3_ext. intros s Hs. apply S3_ext. intros r Hr. apply raised_same. unfold inside. auto.
  Qed.
  Lemma raised_sum : Rsum (video_votes a' e0) = Rsum (video_votes a e0) + (x' - x).
  Proof.
    assert (HR' := HR). destruct HR' as (E & S & R & I0 & Hx & Hx' & L & H). rewrite !sum_votes, S, R. unfold inside in I0.
    apply (S3_change _ _ _ s0); [lia| |].
    - intros s Hs N. apply S3_ext. intros r Hr. rewrite H; [reflexivity|unfold inside; lia|congruence].
    - apply (S3_change _ _ _ r0); [lia| |].
      + intros r Hr N. rewrite H; [reflexivity|unfold inside; lia|congruence].
      + rewrite Hx, Hx'. cbn [pv]. lra.
  Qed.
  Lemma raised_other : forall e, (e < dE a)%nat -> e <> e0 -> video_votes a' e = video_votes a e.
  Proof.
    assert (HR' := HR). destruct HR' as (E & S & R & I0 & Hx & Hx' & L & H). intros e He N. unfold video_votes. rewrite S, R. f_equal.
    apply flat_map_ext_in. intros s Hs. apply in_seq in Hs. apply map_ext_in. intros r Hr. apply in_seq in Hr.
    apply H; [unfold inside; lia|congruence].
  Qed.
  Lemma raised_mean : forall e, (e < dE a)%nat -> Rmean (video_votes a e) <= Rmean (video_votes a' e).
  Proof.
    intros e He. assert (HR' := HR). destruct HR' as (E & S & R & I0 & Hx & Hx' & L & H).
    destruct (Nat.eq_dec e e0) as [->|N]; [|rewrite raised_other by assumption; lra].
    unfold Rmean. rewrite raised_len by exact He. rewrite raised_sum. unfold Rdiv.
    assert (In x (video_votes a e0)) by (apply video_votes_In; exists s0, r0; unfold inside in I0; intuition).
    apply Rmult_le_compat_r; [|lra]. apply Rlt_le, Rinv_0_lt_compat, lt_0_INR. destruct (video_votes a e0); [contradiction|cbn; lia].
  Qed.
  Lemma raised_in : video_votes a e0 <> [] /\ video_votes a' e0 <> [].
  Proof.
    destruct HR as (E & S & R & I0 & Hx & Hx' & L & H). unfold inside in I0.
    assert (In x (video_votes a e0)) by (apply video_votes_In; exists s0, r0; intuition).
    assert (In x' (video_votes a' e0)) by (apply video_votes_In; exists s0, r0; rewrite S, R; intuition).
    split; intro Q; rewrite Q in *; contradiction.
  Qed.

  (** Bias. *)
  Definition dif (b : arr3 ef) e s r : R := match at3 b e s r with Fin y => y - Rmean (video_votes b e) | _ => 0 end.
  Lemma sum_diffs : forall b s, Rsum (bias_diffs b s) = S3 (fun e => S3 (fun r => dif b e s r) (dR b)) (dE b).
  Proof.
    intros b s. unfold bias_diffs. rewrite Rsum_flat_map. apply Rsum_map_ext. intros e _. rewrite Rsum_flat_map. apply Rsum_map_ext.
    intros r _. unfold dif, Rmean. destruct (at3 b e s r); try reflexivity. rewrite Rsum_cons. change (Rsum []) with 0. apply Rplus_0_r.
  Qed.
  Lemma len_diffs : forall b s, INR (length (bias_diffs b s)) = S3 (fun e => S3 (fun r => pc (at3 b e s r)) (dR b)) (dE b).
  Proof.
    intros b s. unfold bias_diffs. rewrite len_flat. apply Rsum_map_ext. intros e _. rewrite len_flat. apply Rsum_map_ext.
    intros r _. destruct (at3 b e s r); reflexivity.
  Qed.
  Lemma raised_difflen : forall s, (s < dS a)%nat -> INR (length (bias_diffs a' s)) = INR (length (bias_diffs a s)).
  Proof.
    assert (HR' := HR). destruct HR' as (E & S & R & I0 & Hx & Hx' & L & H). intros s Hs. rewrite !len_diffs, E, R.
    apply S3_ext. intros e He. apply S3_ext. intros r Hr. apply raised_same. unfold inside. auto.
  Qed.
  Lemma dif_le : forall e s r, inside a e s r -> (e, s, r) <> (e0, s0, r0) -> dif a' e s r <= dif a e s r.
  Proof.
    assert (HR' := HR). destruct HR' as (E & S & R & I0 & Hx & Hx' & L & H). intros e s r I N. unfold dif. rewrite (H e s r I N).
    assert (M := raised_mean e (proj1 I)). destruct (at3 a e s r); lra.
  Qed.
  Lemma raised_diffs : forall s, (s < dS a)%nat -> s <> s0 -> Rsum (bias_diffs a' s) <= Rsum (bias_diffs a s).
  Proof.
    assert (HR' := HR). destruct HR' as (E & S & R & I0 & Hx & Hx' & L & H). intros s Hs N. rewrite !sum_diffs, E, R.
    apply S3_le. intros e He. apply S3_le. intros r Hr. apply dif_le; [unfold inside; auto|congruence].
  Qed.
  Lemma raised_diffs0 : Rsum (bias_diffs a' s0) <= Rsum (bias_diffs a s0) + (x' - x).
  Proof.
    assert (HR' := HR). destruct HR' as (E & S & R & I0 & Hx & Hx' & L & H). rewrite !sum_diffs, E, R. unfold inside in I0.
    cut (S3 (fun e => S3 (fun r => dif a' e s0 r) (dR a)) (dE a) + - (x' - x) <= S3 (fun e => S3 (fun r => dif a e s0 r) (dR a)) (dE a)); [lra|].
    apply (S3_bump _ _ _ e0); [lia| |].
    - intros e He N. apply S3_le. intros r Hr. apply dif_le; [unfold inside; lia|congruence].
    - apply (S3_bump _ _ _ r0); [lia| |].
      + intros r Hr N. apply dif_le; [unfold inside; lia|congruence].
      + unfold dif. rewrite Hx, Hx'. assert (M := raised_mean e0 (proj1 I0)). lra.
  Qed.
  Lemma diffs_one : forall b s e r y, inside b e s r -> at3 b e s r = Fin y -> 0 < INR (length (bias_diffs b s)).
  Proof. intros b s e r y I Hy. apply lt_0_INR. assert (Q := diffs_ne b e s r y I Hy). destruct (bias_diffs b s); [contradiction|cbn; lia]. Qed.
  Lemma raised_bias : forall s, (s < dS a)%nat -> s <> s0 -> Rmean (bias_diffs a' s) <= Rmean (bias_diffs a s).
  Proof.
    intros s Hs N. assert (D := raised_diffs s Hs N). unfold Rmean. rewrite raised_difflen by exact Hs. unfold Rdiv.
    destruct (bias_diffs a s) as [|u l] eqn:Q; [|apply Rmult_le_compat_r; [apply Rlt_le, Rinv_0_lt_compat, lt_0_INR; cbn; lia|exact D]].
    cbn [length INR]. assert (Z := raised_difflen s Hs). rewrite Q in Z. cbn in Z. destruct (bias_diffs a' s) as [|w k]; [lra|].
    exfalso. apply (Rlt_irrefl 0). rewrite <- Z at 2. apply lt_0_INR. cbn; lia.
  Qed.

  Definition rb (b : arr3 ef) := remove_bias b (bias_estimate b).
  Lemma raised_br : Rsum (video_votes (rb a) e0) <= Rsum (video_votes (rb a') e0) /\
    INR (length (video_votes (rb a') e0)) = INR (length (video_votes (rb a) e0)).
  Proof.
    assert (HR' := HR). destruct HR' as (E & S & R & I0 & Hx & Hx' & L & H). assert (Hf' := raised_finite).
    assert (J : forall b, dE (rb b) = dE b /\ dS (rb b) = dS b /\ dR (rb b) = dR b) by (intro b; repeat split).
    destruct (J a) as (Ja1 & Ja2 & Ja3). destruct (J a') as (Jb1 & Jb2 & Jb3).
    assert (I' : forall e s r, inside a e s r -> inside a' e s r) by (intros e s r I; unfold inside in *; rewrite E, S, R; exact I).
    assert (A : forall s r, (s < dS a)%nat -> (r < dR a)%nat -> at3 (rb a) e0 s r = match at3 a e0 s r with Fin y => Fin (y - Rmean (bias_diffs a s)) | _ => NaN end)
      by (intros s r Hs Hr; apply remove_bias_at; [exact Hf|unfold inside in *; lia]).
    assert (B : forall s r, (s < dS a)%nat -> (r < dR a)%nat -> at3 (rb a') e0 s r = match at3 a' e0 s r with Fin y => Fin (y - Rmean (bias_diffs a' s)) | _ => NaN end)
      by (intros s r Hs Hr; apply remove_bias_at; [exact Hf'|apply I'; unfold inside in *; lia]).
    unfold inside in I0. split.
    - rewrite !sum_votes, Ja2, Ja3, Jb2, Jb3, S, R. apply S3_le. intros s Hs. destruct (Nat.eq_dec s s0) as [->|N].
      + set (d := Rmean (bias_diffs a s0)). set (d' := Rmean (bias_diffs a' s0)).
        set (k := S3 (fun r => pc (at3 a e0 s0 r)) (dR a)). set (n := INR (length (bias_diffs a s0))).
        assert (P0 : 0 < n) by (apply (diffs_one a s0 e0 r0 x); [unfold inside; lia|exact Hx]).
        assert (Hk : k <= n).
        { unfold k, n. rewrite len_diffs. rewrite <- (Rplus_0_l (S3 _ (dR a))).
          replace 0 with (S3 (fun _ => 0) (dE a)) at 1 by (rewrite S3_const; ring).
          apply (S3_bump _ _ _ e0); [lia| |lra]. intros e He _. replace 0 with (S3 (fun _ => 0) (dR a)) by (rewrite S3_const; ring).
          apply S3_le. intros r _. destruct (at3 a e s0 r); cbn; lra. }
        assert (K0 : 0 <= k).
        { unfold k. replace 0 with (S3 (fun _ => 0) (dR a)) by (rewrite S3_const; ring). apply S3_le. intros r _. destruct (at3 a e0 s0 r); cbn; lra. }
        assert (D : n * d' <= n * d + (x' - x)).
        { assert (D := raised_diffs0). unfold d, d', Rmean. rewrite raised_difflen by lia. fold n. replace (n * (Rsum (bias_diffs a' s0) / n)) with (Rsum (bias_diffs a' s0)) by (field; lra).
          replace (n * (Rsum (bias_diffs a s0) / n)) with (Rsum (bias_diffs a s0)) by (field; lra). exact D. }
        assert (X : S3 (fun r => pv (at3 (rb a) e0 s0 r)) (dR a) = S3 (fun r => pv (at3 a e0 s0 r)) (dR a) - k * d).
        { unfold k. rewrite <- S3_mulr, <- S3_sub. apply S3_ext. intros r Hr. rewrite A by lia. fold d. destruct (at3 a e0 s0 r); cbn; ring. }
        assert (X' : S3 (fun r => pv (at3 (rb a') e0 s0 r)) (dR a) = S3 (fun r => pv (at3 a' e0 s0 r)) (dR a) - k * d').
        { unfold k. rewrite <- S3_mulr, <- S3_sub. apply S3_ext. intros r Hr. rewrite B by lia. fold d'.
          rewrite <- raised_same by (unfold inside; lia). destruct (at3 a' e0 s0 r); cbn; ring. }
        rewrite X, X'.
        assert (Y : S3 (fun r => pv (at3 a' e0 s0 r)) (dR a) = S3 (fun r => pv (at3 a e0 s0 r)) (dR a) + (x' - x)).
        { apply (S3_change _ _ _ r0); [lia| |].
          - intros r Hr N. rewrite H; [reflexivity|unfold inside; lia|congruence].
          - rewrite Hx, Hx'. cbn [pv]. lra. }
        rewrite Y. assert (W : k * (d' - d) <= x' - x).
        { destruct (Rle_lt_dec (d' - d) 0) as [Q|Q]; [apply Rle_trans with 0; [|lra]; assert (0 <= k * (d - d')) by (apply Rmult_le_pos; lra); lra|].
          apply Rle_trans with (n * (d' - d)); [apply Rmult_le_compat_r; lra|lra]. }
        lra.
      + apply S3_le. intros r Hr. rewrite A, B by lia. rewrite H; [|unfold inside; lia|congruence].
        assert (D := raised_bias s Hs N). destruct (at3 a e0 s r); cbn [pv]; lra.
    - rewrite !len_votes, Ja2, Ja3, Jb2, Jb3, S, R. apply S3_ext. intros s Hs. apply S3_ext. intros r Hr. rewrite A, B by lia.
      assert (Q := raised_same e0 s r ltac:(unfold inside; lia)). destruct (at3 a e0 s r), (at3 a' e0 s r); cbn in *; lra.
  Qed.
End Raised.

Lemma mean_not_lower : forall l l', l <> [] -> INR (length l') = INR (length l) -> Rsum l <= Rsum l' ->
  exists v v', nanmeanR l = Fin v /\ nanmeanR l' = Fin v' /\ v <= v'.
Proof.
  intros l l' N E H. apply INR_eq in E. assert (N' : l' <> []) by (intro Q; subst; destruct l; [contradiction|discriminate]).
  rewrite !nanmeanR_ne by assumption. exists (Rmean l), (Rmean l'). repeat split. unfold Rmean. rewrite E. unfold Rdiv. apply Rmult_le_compat_r; [|exact H].
  apply Rlt_le, Rinv_0_lt_compat, lt_0_INR. destruct l; [contradiction|cbn; lia].
Qed.

Lemma mos_quality : forall (rd : reader ef) a m, rd_arr rd = Ok a -> finite_votes a -> run_modeling MOS rd no_options = Ok m ->
  mr_quality m = map (fun e => nanmeanR (video_votes a e)) (seq 0 (dE a)).
Proof.
  intros rd a m HA Hf H. destruct (run_mos_inv rd m H) as (b & HB & o & ->). rewrite HA in HB. injection HB as <-.
  cbn [mr_quality]. unfold mos_and_stats. cbn [mr_quality]. apply mean_rows. exact Hf.
Qed.

Lemma c132_mos : forall (rd rd' : reader ef) a a' m m' e0 s0 r0 x x', rd_arr rd = Ok a -> rd_arr rd' = Ok a' -> finite_votes a ->
  raised a a' e0 s0 r0 x x' -> run_modeling MOS rd no_options = Ok m -> run_modeling MOS rd' no_options = Ok m' ->
  (forall e, (e < dE a)%nat -> e <> e0 -> nth_error (mr_quality m') e = nth_error (mr_quality m) e) /\
  exists v, nth_error (mr_quality m) e0 = Some (Fin v) /\
    nth_error (mr_quality m') e0 = Some (Fin (v + (x' - x) / INR (length (video_votes a e0)))).
Proof.
  intros rd rd' a a' m m' e0 s0 r0 x x' HA HA' Hf HR H H'. assert (Hf' := raised_finite _ _ _ _ _ _ _ HR Hf).
  rewrite (mos_quality rd a m HA Hf H), (mos_quality rd' a' m' HA' Hf' H'). assert (HR' := HR). destruct HR' as (E & S & R & I0 & _). rewrite E. split.
  - intros e He N. rewrite !nth_error_map_seq by exact He. rewrite (raised_other _ _ _ _ _ _ _ HR e He N). reflexivity.
  - destruct (raised_in _ _ _ _ _ _ _ HR) as (N & N'). exists (Rmean (video_votes a e0)). rewrite !nth_error_map_seq by apply I0.
    rewrite !nanmeanR_ne by assumption. split; [reflexivity|]. f_equal. f_equal. unfold Rmean.
    rewrite (raised_len _ _ _ _ _ _ _ HR) by apply I0. rewrite (raised_sum _ _ _ _ _ _ _ HR). unfold Rdiv. ring.
Qed.

Lemma c132_bias : forall (rd rd' : reader ef) a a' m m' e0 s0 r0 x x', rd_arr rd = Ok a -> rd_arr rd' = Ok a' -> finite_votes a ->
  raised a a' e0 s0 r0 x x' -> run_modeling BR_MOS rd no_options = Ok m -> run_modeling BR_MOS rd' no_options = Ok m' ->
  not_lower (mr_quality m) (mr_quality m') e0.
Proof.
  intros rd rd' a a' m m' e0 s0 r0 x x' HA HA' Hf HR H H'. assert (Hf' := raised_finite _ _ _ _ _ _ _ HR Hf).
  destruct (run_br_inv rd m H) as (b & HB & _ & _ & Q). rewrite HA in HB. injection HB as <-.
  destruct (run_br_inv rd' m' H') as (b & HB & _ & _ & Q'). rewrite HA' in HB. injection HB as <-.
  assert (HR' := HR). destruct HR' as (E & S & R & I0 & Hx & Hx' & L & HO).
  destruct (raised_br _ _ _ _ _ _ _ HR Hf) as (B1 & B2).
  rewrite Q, Q', !mean_rows by (apply remove_bias_finite; assumption). change (dE (remove_bias a (bias_estimate a))) with (dE a).
  change (dE (remove_bias a' (bias_estimate a'))) with (dE a'). rewrite E. unfold not_lower. rewrite !nth_error_map_seq by apply I0.
  destruct (mean_not_lower (video_votes (rb a) e0) (video_votes (rb a') e0)) as (v & v' & V & V' & Hl); [|exact B2|exact B1|].
  - assert (X : In (x - Rmean (bias_diffs a s0)) (video_votes (rb a) e0)).
    { apply video_votes_In. exists s0, r0. unfold inside in I0. split; [apply I0|]. split; [apply I0|]. unfold rb. rewrite remove_bias_at by assumption. rewrite Hx. reflexivity. }
    intro N. rewrite N in X. contradiction.
  - exists v, v'. unfold rb in V, V'. rewrite V, V'. auto.
Qed.

(** ** Z-scores *)
Lemma zs_at : forall a e s r, finite_votes a -> (s < dS a)%nat ->
  at3 (zscore a) e s r = ef_div (ef_sub (at3 a e s r) (nanmeanR (subject_votes a s))) (nanstdR 1 (subject_votes a s)).
Proof.
  intros a e s r Hf Hs. unfold zscore. cbn [at3 map3]. rewrite mean_cols, std_cols by exact Hf. rewrite !vat_map_seq by exact Hs. reflexivity.
Qed.
Lemma sum_dev : forall l c, l <> [] ->
  Rsum (map (fun y => (y - c) * (y - c)) l) = Rss l + INR (length l) * ((Rmean l - c) * (Rmean l - c)).
Proof.
  intros l c N. unfold Rss.
  assert (D := Rsum_dev l N).
  rewrite (Rsum_map_ext _ (fun y => (y - c) * (y - c)) (fun y => (y - Rmean l) * (y - Rmean l) + (2 * (Rmean l - c) * (y - Rmean l) + (Rmean l - c) * (Rmean l - c)))) by (intros; ring).
  rewrite Rsum_map_add. rewrite Rsum_map_add. rewrite Rsum_map_mul, D, Rsum_map_const. ring.
Qed.
Lemma Rss_cons : forall x l, l <> [] ->
  Rss (x :: l) = Rss l + INR (length l) / (INR (length l) + 1) * ((x - Rmean l) * (x - Rmean l)) /\
  x - Rmean (x :: l) = INR (length l) / (INR (length l) + 1) * (x - Rmean l).
Proof.
  intros x l N. assert (P : 0 < INR (length l)) by (apply lt_0_INR; destruct l; [contradiction|cbn; lia]).
  assert (M : Rmean (x :: l) = (x + INR (length l) * Rmean l) / (INR (length l) + 1)).
  { unfold Rmean. cbn [length]. rewrite S_INR, Rsum_cons. field. lra. }
  split.
  - unfold Rss at 1. cbn [map]. rewrite Rsum_cons, sum_dev by exact N. rewrite M. field. lra.
  - rewrite M. field. lra.
Qed.
Lemma zmono : forall S c u u' v v', 0 <= S -> 0 < c -> 0 < v -> 0 < v' -> u <= u' -> v * v = S + c * (u * u) -> v' * v' = S + c * (u' * u') ->
  u / v <= u' / v'.
Proof.
  intros S c u u' v v' HS Hc Hv Hv' Hu E E'.
  assert (K : u * v' <= u' * v).
  { destruct (Rle_lt_dec u 0) as [U|U]; [destruct (Rle_lt_dec 0 u') as [U'|U']|].
    - apply Rle_trans with 0; nra.
    - cut (- u' * v <= - u * v'); [lra|]. apply Rsqr_incr_0_var; [|nra]. unfold Rsqr.
      replace (- u' * v * (- u' * v)) with (u' * u' * (v * v)) by ring. replace (- u * v' * (- u * v')) with (u * u * (v' * v')) by ring. rewrite E, E'.
      assert (u' * u' * S <= u * u * S) by (apply Rmult_le_compat_r; [exact HS|nra]). nra.
    - apply Rsqr_incr_0_var; [|nra]. unfold Rsqr.
      replace (u * v' * (u * v')) with (u * u * (v' * v')) by ring. replace (u' * v * (u' * v)) with (u' * u' * (v * v)) by ring. rewrite E, E'.
      assert (u * u * S <= u' * u' * S) by (apply Rmult_le_compat_r; [exact HS|nra]). nra. }
  apply (Rmult_le_reg_r (v * v')); [nra|]. replace (u / v * (v * v')) with (u * v') by (field; lra). replace (u' / v' * (v * v')) with (u' * v) by (field; lra). exact K.
Qed.
Lemma spread_two : forall l, has_spread l -> (2 <= length l)%nat.
Proof.
  intros l (x & y & Hx & Hy & N). destruct l as [|u [|w l]]; cbn in *; [contradiction| |lia]. destruct Hx as [<-|[]], Hy as [<-|[]]. contradiction.
Qed.
Lemma zraise : forall l1 l2 x x' v v', x <= x' -> let l := l1 ++ x :: l2 in let l' := l1 ++ x' :: l2 in has_spread l ->
  0 < v -> 0 < v' -> v * v * (INR (length l) - 1) = Rss l -> v' * v' * (INR (length l') - 1) = Rss l' ->
  (x - Rmean l) / v <= (x' - Rmean l') / v'.
Proof.
  intros l1 l2 x x' v v' Hx l l' Sp Hv Hv' E E'. assert (L2 := spread_two l Sp).
  assert (P : Permutation l (x :: l1 ++ l2)) by (symmetry; apply Permutation_middle).
  assert (P' : Permutation l' (x' :: l1 ++ l2)) by (symmetry; apply Permutation_middle).
  set (k := l1 ++ l2) in *. assert (Hl : length l = S (length k)) by (rewrite (Permutation_length P); reflexivity).
  assert (Hl' : length l' = S (length k)) by (rewrite (Permutation_length P'); reflexivity).
  assert (N : k <> []) by (intro Q; rewrite Q in Hl; cbn in Hl; lia).
  assert (PK : 0 < INR (length k)) by (apply lt_0_INR; destruct k; [contradiction|cbn; lia]).
  assert (M : Rmean l = Rmean (x :: k)) by (unfold Rmean; rewrite (Rsum_perm _ _ P), (Permutation_length P); reflexivity).
  assert (M' : Rmean l' = Rmean (x' :: k)) by (unfold Rmean; rewrite (Rsum_perm _ _ P'), (Permutation_length P'); reflexivity).
  rewrite (Rss_perm _ _ P) in E. rewrite (Rss_perm _ _ P') in E'. rewrite Hl, S_INR in E. rewrite Hl', S_INR in E'.
  destruct (Rss_cons x k N) as (A & B). destruct (Rss_cons x' k N) as (A' & B'). rewrite M, M', B, B'. rewrite A in E. rewrite A' in E'.
  set (n := INR (length k)) in *. set (t := Rmean k) in *.
  assert (C : 0 < n / (n + 1)) by (apply Rdiv_lt_0_compat; lra).
  replace (n / (n + 1) * (x - t) / v) with (n / (n + 1) * ((x - t) / v)) by (field; lra).
  replace (n / (n + 1) * (x' - t) / v') with (n / (n + 1) * ((x' - t) / v')) by (field; lra).
  apply Rmult_le_compat_l; [lra|].
  apply (zmono (Rss k / n) (n / (n + 1) / n)); [|apply Rdiv_lt_0_compat; lra|exact Hv|exact Hv'|lra| |].
  - apply Rmult_le_pos; [apply Rss_nonneg|apply Rlt_le, Rinv_0_lt_compat; exact PK].
  - apply (Rmult_eq_reg_r n); [|lra]. replace (v * v * n) with (v * v * (n + 1 - 1)) by ring. rewrite E. field. lra.
  - apply (Rmult_eq_reg_r n); [|lra]. replace (v' * v' * n) with (v' * v' * (n + 1 - 1)) by ring. rewrite E'. field. lra.
Qed.
Lemma seq_split : forall n i, (i < n)%nat -> seq 0 n = seq 0 i ++ i :: seq (S i) (n - S i).
Proof. intros n i H. replace n with (i + S (n - S i))%nat at 1 by lia. rewrite seq_app. reflexivity. Qed.
Lemma raised_subject : forall a a' e0 s0 r0 x x', raised a a' e0 s0 r0 x x' ->
  exists l1 l2, subject_votes a s0 = l1 ++ x :: l2 /\ subject_votes a' s0 = l1 ++ x' :: l2.
Proof.
  intros a a' e0 s0 r0 x x' (E & S & R & I0 & Hx & Hx' & L & H). unfold inside in I0. unfold subject_votes. rewrite E, R.
  rewrite (seq_split (dE a) e0) by lia. rewrite !flat_map_app. cbn [flat_map]. rewrite (seq_split (dR a) r0) by lia. rewrite !map_app. cbn [map].
  rewrite Hx, Hx'. rewrite !presents_app. cbn [presents].
  assert (Q1 : forall es, (forall e, In e es -> (e < dE a)%nat /\ e <> e0) ->
    flat_map (fun e => map (fun r => at3 a' e s0 r) (seq 0 r0 ++ r0 :: seq (Datatypes.S r0) (dR a - Datatypes.S r0))) es =
    flat_map (fun e => map (fun r => at3 a e s0 r) (seq 0 r0 ++ r0 :: seq (Datatypes.S r0) (dR a - Datatypes.S r0))) es).
  { intros es He. apply flat_map_ext_in. intros e Hin. destruct (He e Hin) as (He1 & He2). rewrite <- seq_split by lia. apply map_ext_in. intros r Hr. apply in_seq in Hr.
    apply H; [unfold inside; lia|congruence]. }
  rewrite !Q1 by (intros e He; apply in_seq in He; lia).
  assert (Q2 : forall rs, (forall r, In r rs -> (r < dR a)%nat /\ r <> r0) -> map (fun r => at3 a' e0 s0 r) rs = map (fun r => at3 a e0 s0 r) rs).
  { intros rs Hr. apply map_ext_in. intros r Hin. destruct (Hr r Hin) as (Hr1 & Hr2). apply H; [unfold inside; lia|congruence]. }
  rewrite !Q2 by (intros r Hr; apply in_seq in Hr; lia).
  match goal with |- exists l1 l2, ?A ++ (?B ++ x :: ?C) ++ ?D = _ /\ _ => exists (A ++ B), (C ++ D) end. split; rewrite <- !app_assoc; cbn [app]; reflexivity.
Qed.
Lemma raised_subject_other : forall a a' e0 s0 r0 x x' s, raised a a' e0 s0 r0 x x' -> (s < dS a)%nat -> s <> s0 -> subject_votes a' s = subject_votes a s.
Proof.
  intros a a' e0 s0 r0 x x' s (E & S & R & I0 & Hx & Hx' & L & H) Hs N. unfold subject_votes. rewrite E, R. f_equal.
  apply flat_map_ext_in. intros e He. apply in_seq in He. apply map_ext_in. intros r Hr. apply in_seq in Hr. apply H; [unfold inside; lia|congruence].
Qed.
Lemma c132_zscore : forall (rd rd' : reader ef) a a' m m' e0 s0 r0 x x', rd_arr rd = Ok a -> rd_arr rd' = Ok a' -> finite_votes a ->
  raised a a' e0 s0 r0 x x' -> only_vote a e0 s0 r0 -> has_spread (subject_votes a s0) -> has_spread (subject_votes a' s0) ->
  run_modeling ZS_MOS rd no_options = Ok m -> run_modeling ZS_MOS rd' no_options = Ok m' ->
  not_lower (mr_quality m) (mr_quality m') e0.
Proof.
  intros rd rd' a a' m m' e0 s0 r0 x x' HA HA' Hf HR HO Sp Sp' H H'. assert (Hf' := raised_finite _ _ _ _ _ _ _ HR Hf).
  destruct (run_zs_inv rd m H) as (b & HB & _ & Q). rewrite HA in HB. injection HB as <-.
  destruct (run_zs_inv rd' m' H') as (b & HB & _ & Q'). rewrite HA' in HB. injection HB as <-.
  assert (HR' := HR). destruct HR' as (E & S & R & I0 & Hx & Hx' & L & HQ).
  rewrite Q, Q', !mean_rows by (apply zscore_finite; assumption). change (dE (zscore a)) with (dE a). change (dE (zscore a')) with (dE a').
  rewrite E. unfold not_lower. rewrite !nth_error_map_seq by apply I0.
  destruct (zscore_entry a s0 Hf (proj1 (proj2 I0))) as (Z & _). destruct (Z Sp) as (mu & sd & Hsd & Hmu & Hss & _ & Hat). clear Z.
  destruct (zscore_entry a' s0 Hf' ltac:(rewrite S; apply I0)) as (Z & _). destruct (Z Sp') as (mu' & sd' & Hsd' & Hmu' & Hss' & _ & Hat'). clear Z.
  destruct (raised_subject _ _ _ _ _ _ _ HR) as (l1 & l2 & E1 & E2).
  assert (ZZ : (x - mu) / sd <= (x' - mu') / sd').
  { subst mu mu'. rewrite E1 in *. rewrite E2 in *. apply zraise; [lra|exact Sp|exact Hsd|exact Hsd'|exact Hss|exact Hss']. }
  unfold inside in I0.
  assert (Ent : forall s r, (s < dS a)%nat -> (r < dR a)%nat -> pv (at3 (zscore a) e0 s r) <= pv (at3 (zscore a') e0 s r) /\ pc (at3 (zscore a') e0 s r) = pc (at3 (zscore a) e0 s r)).
  { intros s r Hs Hr. destruct (Nat.eq_dec s s0) as [->|N].
    - rewrite Hat, Hat' by lia. destruct (Nat.eq_dec r r0) as [->|N].
      + rewrite Hx, Hx'. cbn [pv pc]. auto.
      + rewrite HQ; [|unfold inside; lia|congruence]. rewrite (HO r); [|unfold inside; lia|exact N]. cbn. lra.
    - rewrite !zs_at by (try assumption; lia). rewrite (raised_subject_other _ _ _ _ _ _ _ s HR Hs N). rewrite HQ; [|unfold inside; lia|congruence]. lra. }
  destruct (mean_not_lower (video_votes (zscore a) e0) (video_votes (zscore a') e0)) as (v & v' & V & V' & Hl).
  - assert (X : In ((x - mu) / sd) (video_votes (zscore a) e0)).
    { apply video_votes_In. exists s0, r0. split; [apply I0|]. split; [apply I0|]. rewrite Hat by lia. rewrite Hx. reflexivity. }
    intro N. rewrite N in X. contradiction.
  - rewrite !len_votes. change (dS (zscore a')) with (dS a'). change (dR (zscore a')) with (dR a'). change (dS (zscore a)) with (dS a). change (dR (zscore a)) with (dR a).
    rewrite S, R. apply S3_ext. intros s Hs. apply S3_ext. intros r Hr. apply Ent; assumption.
  - rewrite !sum_votes. change (dS (zscore a')) with (dS a'). change (dR (zscore a')) with (dR a'). change (dS (zscore a)) with (dS a). change (dR (zscore a)) with (dR a).
    rewrite S, R. apply S3_le. intros s Hs. apply S3_le. intros r Hr. apply Ent; assumption.
  - exists v, v'. rewrite V, V'. auto.
Qed.
