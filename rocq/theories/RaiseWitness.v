(** Datasets in which raising a vote lowers the score of its video (C132). *)
From Coq Require Import String.
From Coq Require Import List ZArith Bool Arith Lia Reals Lra Permutation.
From Verif Require Import PyBase Num ExtReal NumPy Dataset Preproc Mos BaseProofs ExtRealProofs SpecDataset SpecMos
  DatasetProofs ArrayProofs RecordedProofs MosProofs PreprocProofs RejectProofs Reject2Proofs StepsProofs MosWitness SpecRaise RaiseProofs.
Import ListNotations.
Local Open Scope list_scope.
Local Open Scope string_scope.
Local Open Scope R_scope.

(** One subject who voted twice for two videos. *)
Definition rz_ds (x : Z) := w_ds [ w_dv 0 0 "v0" (OSeq false [PSeq true [w_vote x; w_vote 2]]);
                                   w_dv 0 1 "v1" (OSeq false [PSeq true [w_vote 1; w_vote 1]]) ].
Lemma rz_reader : forall x, raw_reader (rz_ds x) = Ok (w_reader (rz_ds x)).
Proof. reflexivity. Qed.
Lemma rz_arr : forall x, rd_arr (w_reader (rz_ds x)) = Ok (w_arr (rz_ds x)).
Proof. reflexivity. Qed.
Lemma rz_shape : forall x, dE (w_arr (rz_ds x)) = 2%nat /\ dS (w_arr (rz_ds x)) = 1%nat /\ dR (w_arr (rz_ds x)) = 2%nat.
Proof. repeat split. Qed.
Lemma rz_at : forall x, at3 (w_arr (rz_ds x)) 0 0 0 = Fin (IZR x) /\ at3 (w_arr (rz_ds x)) 0 0 1 = Fin 2 /\
  at3 (w_arr (rz_ds x)) 1 0 0 = Fin 1 /\ at3 (w_arr (rz_ds x)) 1 0 1 = Fin 1.
Proof. repeat split. Qed.
Ltac three e s r I :=
  let a := fresh in let b := fresh in let c := fresh in destruct I as (a & b & c);
  destruct e as [|[|e]]; [| |cbn in a; lia]; (destruct s as [|s]; [|cbn in b; lia]); (destruct r as [|[|r]]; [| |cbn in c; lia]).
Lemma rz_finite : forall x, finite_votes (w_arr (rz_ds x)).
Proof. intros x e s r I. three e s r I; exact Logic.I. Qed.
Lemma rz_raised : forall x x', (x < x')%Z -> raised (w_arr (rz_ds x)) (w_arr (rz_ds x')) 0 0 0 (IZR x) (IZR x').
Proof.
  intros x x' L. split; [reflexivity|]. split; [reflexivity|]. split; [reflexivity|]. split; [unfold inside; cbn; lia|]. split; [apply rz_at|].
  split; [apply rz_at|]. split; [apply IZR_lt; exact L|]. intros e s r I N. three e s r I; try reflexivity. exfalso. apply N. reflexivity.
Qed.
Lemma rz_subject : forall x, subject_votes (w_arr (rz_ds x)) 0 = [IZR x; 2; 1; 1].
Proof. reflexivity. Qed.
Lemma rz_run : forall x, (2 < x)%Z -> exists m sd, run_modeling ZS_MOS (w_reader (rz_ds x)) no_options = Ok m /\ 0 < sd /\
  sd * sd * 3 = Rss [IZR x; 2; 1; 1] /\ nth_error (mr_quality m) 0 = Some (Fin ((IZR x + 2 - 2 * Rmean [IZR x; 2; 1; 1]) / (2 * sd))).
Proof.
  intros x L. assert (XL : 2 < IZR x) by (apply IZR_lt; exact L). destruct (attach_total _ _ (rz_reader x)) as (o & Ho).
  destruct (plain_total ZS_MOS (w_reader (rz_ds x)) _ o no_options (rz_arr x) Ho (no_conflict _)) as (m & Hm); try reflexivity.
  destruct (zscore_entry _ 0 (rz_finite x) (Nat.lt_0_succ 0)) as (Z & _). rewrite rz_subject in Z.
  destruct Z as (mu & sd & Hsd & Hmu & Hss & _ & Hat); [exists (IZR x), 2; cbn; split; [auto|]; split; [auto|lra]|].
  exists m, sd. split; [exact Hm|]. split; [exact Hsd|]. split; [rewrite <- Hss; cbn [length INR]; ring|].
  destruct (run_zs_inv _ m Hm) as (b & HB & _ & Q). rewrite rz_arr in HB. injection HB as <-.
  rewrite Q, mean_rows by (apply zscore_finite, rz_finite). rewrite nth_error_map_seq by (cbn; lia). f_equal.
  assert (V : video_votes (zscore (w_arr (rz_ds x))) 0 = [(IZR x - mu) / sd; (2 - mu) / sd]).
  { unfold video_votes. change (dS (zscore (w_arr (rz_ds x)))) with 1%nat. change (dR (zscore (w_arr (rz_ds x)))) with 2%nat. cbn [seq flat_map map app].
    rewrite !Hat by (cbn; lia). destruct (rz_at x) as (E1 & E2 & _). rewrite E1, E2. reflexivity. }
  rewrite V, nanmeanR_ne by discriminate. rewrite Rmean2, Hmu. f_equal. field. lra.
Qed.
Lemma c132_zs_lower : exists m m', run_modeling ZS_MOS (w_reader (rz_ds 3)) no_options = Ok m /\
  run_modeling ZS_MOS (w_reader (rz_ds 4)) no_options = Ok m' /\ lower (mr_quality m) (mr_quality m') 0.
Proof.
  destruct (rz_run 3) as (m & sd & H & P & E & Q); [lia|]. destruct (rz_run 4) as (m' & sd' & H' & P' & E' & Q'); [lia|].
  exists m, m'. split; [exact H|]. split; [exact H'|]. eexists _, _. split; [exact Q|]. split; [exact Q'|].
  assert (M : Rmean [3; 2; 1; 1] = 7 / 4) by (unfold Rmean, Rsum; cbn [fold_right length INR]; lra).
  assert (M' : Rmean [4; 2; 1; 1] = 2) by (unfold Rmean, Rsum; cbn [fold_right length INR]; lra).
  unfold Rss in E, E'. rewrite M in E. rewrite M' in E'. unfold Rsum in E, E'. cbn [map fold_right] in E, E'. rewrite M, M'.
  apply (Rmult_lt_reg_r (2 * sd * (2 * sd'))); [nra|].
  replace ((4 + 2 - 2 * 2) / (2 * sd') * (2 * sd * (2 * sd'))) with (4 * sd) by (field; lra).
  replace ((3 + 2 - 2 * (7 / 4)) / (2 * sd) * (2 * sd * (2 * sd'))) with (3 * sd') by (field; lra).
  apply Rsqr_incrst_0; [unfold Rsqr; nra|lra|lra].
Qed.

(** ** A raised vote that makes its subject an outlier *)
Definition rk_ds (x : Z) := w_ds [
  w_dv 0 0 "v0" (OSeq false [w_vote x; w_vote 1; w_vote 3; w_vote 3; w_vote 3; w_vote 3; w_vote 3; w_vote 3]);
  w_dv 0 1 "v1" (OSeq false [w_vote 1; w_vote 3; w_vote 5; w_vote 3; w_vote 3; w_vote 3; w_vote 3; w_vote 3]) ].
Lemma rk_reader : forall x, raw_reader (rk_ds x) = Ok (w_reader (rk_ds x)).
Proof. reflexivity. Qed.
Lemma rk_arr : forall x, rd_arr (w_reader (rk_ds x)) = Ok (w_arr (rk_ds x)).
Proof. reflexivity. Qed.
Definition rk_v0 (x : R) : list R := [x; 1; 3; 3; 3; 3; 3; 3].
Definition rk_v1 : list R := [1; 3; 5; 3; 3; 3; 3; 3].
Lemma rk_votes : forall x, video_votes (w_arr (rk_ds x)) 0 = rk_v0 (IZR x) /\ video_votes (w_arr (rk_ds x)) 1 = rk_v1.
Proof. split; reflexivity. Qed.
Lemma rk_at : forall x e s r, inside (w_arr (rk_ds x)) e s r -> exists v, at3 (w_arr (rk_ds x)) e s r = Fin v /\
  ((e = 0%nat /\ nth_error (rk_v0 (IZR x)) s = Some v) \/ (e = 1%nat /\ nth_error rk_v1 s = Some v)) /\ r = 0%nat /\ (s < 8)%nat.
Proof.
  intros x e s r (He & Hs & Hr). change (dE (w_arr (rk_ds x))) with 2%nat in He. change (dS (w_arr (rk_ds x))) with 8%nat in Hs. change (dR (w_arr (rk_ds x))) with 1%nat in Hr.
  destruct r as [|r]; [|lia]. destruct e as [|[|e]]; [| |lia];
  (destruct s as [|[|[|[|[|[|[|[|s]]]]]]]]; [| | | | | | | |lia]); eexists; (split; [reflexivity|]); (split; [|lia]); [left..| | | | | | | |]; try (split; reflexivity); right; split; reflexivity.
Qed.
Lemma rk_finite : forall x, finite_votes (w_arr (rk_ds x)).
Proof. intros x e s r I. destruct (rk_at x e s r I) as (v & E & _). rewrite E. exact Logic.I. Qed.
Lemma rk_raised : forall x x', (x < x')%Z -> raised (w_arr (rk_ds x)) (w_arr (rk_ds x')) 0 0 0 (IZR x) (IZR x').
Proof.
  intros x x' L. split; [reflexivity|]. split; [reflexivity|]. split; [reflexivity|]. split; [unfold inside; cbn; lia|]. split; [reflexivity|].
  split; [reflexivity|]. split; [apply IZR_lt; exact L|]. intros e s r I N. destruct (rk_at x e s r I) as (v & E & H & Hr & Hs). subst r.
  destruct H as [(-> & _)|(-> & _)]; (destruct s as [|[|[|[|[|[|[|[|s]]]]]]]]; [| | | | | | | |lia]); try reflexivity. exfalso. apply N. reflexivity.
Qed.
Lemma one_sided_high : forall a s, (forall e r, (e < dE a)%nat -> (r < dR a)%nat -> ~ high_vote a s e r) -> ~ outlier_subject a s.
Proof.
  intros a s H (p & q & Hp & Hq & _ & K). assert (p = 0%nat) by (eapply counted_none; [|exact Hp]; exact H). subst p.
  assert (0 <= INR q) by apply pos_INR. cbn [INR] in K. unfold Rabs in K. destruct (Rcase_abs _); lra.
Qed.
Lemma one_sided_low : forall a s, (forall e r, (e < dE a)%nat -> (r < dR a)%nat -> ~ low_vote a s e r) -> ~ outlier_subject a s.
Proof.
  intros a s H (p & q & Hp & Hq & _ & K). assert (q = 0%nat) by (eapply counted_none; [|exact Hq]; exact H). subst q.
  assert (0 <= INR p) by apply pos_INR. cbn [INR] in K. unfold Rabs in K. destruct (Rcase_abs _); lra.
Qed.
Lemma not_high : forall a s e r v, at3 a e s r = Fin v -> v < Rmean (video_votes a e) + 2 * sqrt (pvar (video_votes a e)) -> ~ high_vote a s e r.
Proof.
  intros a s e r v E H (y & c & E' & F & K). rewrite E in E'. injection E' as <-. apply factor_pos in F. assert (P := sqrt_pos (pvar (video_votes a e))).
  assert (2 * sqrt (pvar (video_votes a e)) <= c * sqrt (pvar (video_votes a e))) by (apply Rmult_le_compat_r; assumption). lra.
Qed.
Lemma not_low : forall a s e r v, at3 a e s r = Fin v -> Rmean (video_votes a e) - 2 * sqrt (pvar (video_votes a e)) < v -> ~ low_vote a s e r.
Proof.
  intros a s e r v E H (y & c & E' & F & K). rewrite E in E'. injection E' as <-. apply factor_pos in F. assert (P := sqrt_pos (pvar (video_votes a e))).
  assert (2 * sqrt (pvar (video_votes a e)) <= c * sqrt (pvar (video_votes a e))) by (apply Rmult_le_compat_r; assumption). lra.
Qed.
Lemma mean8 : forall a b c d e f g h, Rmean [a; b; c; d; e; f; g; h] = (a + b + c + d + e + f + g + h) / 8.
Proof. intros. unfold Rmean, Rsum. cbn [fold_right length INR]. field. Qed.
Lemma rk_moments : Rmean rk_v1 = 3 /\ sqrt (pvar rk_v1) = 1 /\ Rmean (rk_v0 5) = 3 /\ sqrt (pvar (rk_v0 5)) = 1 /\
  Rmean (rk_v0 4) = 23 / 8 /\ 3 / 4 <= sqrt (pvar (rk_v0 4)) /\ regular rk_v1 /\ regular (rk_v0 5).
Proof.
  assert (M1 : Rmean rk_v1 = 3) by (unfold rk_v1; rewrite mean8; lra).
  assert (M5 : Rmean (rk_v0 5) = 3) by (unfold rk_v0; rewrite mean8; lra).
  assert (M4 : Rmean (rk_v0 4) = 23 / 8) by (unfold rk_v0; rewrite mean8; lra).
  assert (P1 : pvar rk_v1 = 1) by (unfold pvar, sumsq; rewrite M1; unfold rk_v1, Rsum; cbn [map fold_right length INR]; lra).
  assert (P5 : pvar (rk_v0 5) = 1) by (unfold pvar, sumsq; rewrite M5; unfold rk_v0, Rsum; cbn [map fold_right length INR]; lra).
  assert (P4 : pvar (rk_v0 4) = 39 / 64) by (unfold pvar, sumsq; rewrite M4; unfold rk_v0, Rsum; cbn [map fold_right length INR]; lra).
  assert (F1 : moment4 rk_v1 = 4) by (unfold moment4; rewrite M1; unfold rk_v1, Rsum; cbn [map fold_right length INR]; lra).
  assert (F5 : moment4 (rk_v0 5) = 4) by (unfold moment4; rewrite M5; unfold rk_v0, Rsum; cbn [map fold_right length INR]; lra).
  repeat split; try assumption; rewrite ?P1, ?P5, ?F1, ?F5, ?sqrt_1; try lra.
  rewrite P4. rewrite <- (sqrt_square (3 / 4)) by lra. apply sqrt_le_1_alt. lra.
Qed.
Ltac rk_not_high x s :=
  intros e r He Hr; let I := fresh in assert (I : inside (w_arr (rk_ds x)) e s r) by (split; [exact He|]; split; [cbn; lia|exact Hr]); destruct (rk_at x e s r I) as (v & Ev & Hv & -> & _); apply (not_high _ _ _ _ v Ev);
  destruct rk_moments as (M1 & S1 & M5 & S5 & M4 & S4 & _); destruct (rk_votes x) as (V0 & V1);
  destruct Hv as [(-> & Hv)|(-> & Hv)]; [rewrite V0, ?M4, ?M5, ?S5|rewrite V1, M1, S1]; cbn in Hv; injection Hv as <-; try lra.
Ltac rk_not_low x s :=
  intros e r He Hr; let I := fresh in assert (I : inside (w_arr (rk_ds x)) e s r) by (split; [exact He|]; split; [cbn; lia|exact Hr]); destruct (rk_at x e s r I) as (v & Ev & Hv & -> & _); apply (not_low _ _ _ _ v Ev);
  destruct rk_moments as (M1 & S1 & M5 & S5 & M4 & S4 & _); destruct (rk_votes x) as (V0 & V1);
  destruct Hv as [(-> & Hv)|(-> & Hv)]; [rewrite V0, ?M4, ?M5, ?S5|rewrite V1, M1, S1]; cbn in Hv; injection Hv as <-; try lra.
Lemma rk_before : forall s, (s < 8)%nat -> ~ outlier_subject (w_arr (rk_ds 4)) s.
Proof.
  intros s Hs. destruct s as [|[|[|[|[|[|[|[|s]]]]]]]]; [| | | | | | | |lia].
  - apply one_sided_high. rk_not_high 4%Z 0%nat.
  - apply one_sided_high. rk_not_high 4%Z 1%nat.
  - apply one_sided_low. rk_not_low 4%Z 2%nat.
  - apply one_sided_low. rk_not_low 4%Z 3%nat.
  - apply one_sided_low. rk_not_low 4%Z 4%nat.
  - apply one_sided_low. rk_not_low 4%Z 5%nat.
  - apply one_sided_low. rk_not_low 4%Z 6%nat.
  - apply one_sided_low. rk_not_low 4%Z 7%nat.
Qed.
Lemma rk_after : forall s, (0 < s < 8)%nat -> ~ outlier_subject (w_arr (rk_ds 5)) s.
Proof.
  intros s Hs. destruct s as [|[|[|[|[|[|[|[|s]]]]]]]]; [lia| | | | | | | |lia].
  - apply one_sided_high. rk_not_high 5%Z 1%nat.
  - apply one_sided_low. rk_not_low 5%Z 2%nat.
  - apply one_sided_low. rk_not_low 5%Z 3%nat.
  - apply one_sided_low. rk_not_low 5%Z 4%nat.
  - apply one_sided_low. rk_not_low 5%Z 5%nat.
  - apply one_sided_low. rk_not_low 5%Z 6%nat.
  - apply one_sided_low. rk_not_low 5%Z 7%nat.
Qed.
Lemma rk_outlier : outlier_subject (w_arr (rk_ds 5)) 0.
Proof.
  set (a := w_arr (rk_ds 5)). destruct rk_moments as (M1 & S1 & M5 & S5 & M4 & S4 & G1 & G5). destruct (rk_votes 5) as (V0 & V1). fold a in V0, V1.
  assert (CNT : forall (P : nat -> nat -> Prop) (k k' : nat), (k < 2)%nat -> (k' < 2)%nat -> k <> k' -> P k 0%nat -> ~ P k' 0%nat -> counted a P 1).
  { intros P k k' Hk Hk' N H0 H1. exists [(k, 0%nat)]. split; [constructor; [intros []|constructor]|]. split; [|reflexivity].
    intros e r. change (dE a) with 2%nat. change (dR a) with 1%nat. split.
    - intros [[= <- <-]|[]]. repeat split; try lia. exact H0.
    - intros (He & Hr & HP). assert (r = 0%nat) by lia. subst r. destruct (Nat.eq_dec e k) as [->|N']; [left; reflexivity|]. exfalso. apply H1. replace k' with e by lia. exact HP. }
  exists 1%nat, 1%nat. split; [apply (CNT _ 0%nat 1%nat); try lia|split; [apply (CNT _ 1%nat 0%nat); try lia|]].
  - exists 5, 2. split; [reflexivity|]. rewrite V0, M5, S5. split; [left; auto|lra].
  - apply (not_high _ _ _ _ 1); [reflexivity|]. rewrite V1, M1, S1. lra.
  - exists 1, 2. split; [reflexivity|]. rewrite V1, M1, S1. split; [left; auto|lra].
  - apply (not_low _ _ _ _ 5); [reflexivity|]. rewrite V0, M5, S5. lra.
  - change (dE a * dR a)%nat with 2%nat. cbn [INR]. split; [lra|]. rewrite Rminus_diag_eq by reflexivity. rewrite Rabs_R0. lra.
Qed.

(** What outlier rejection keeps, when the outliers are known. *)
Lemma reject_known : forall a (f : nat -> bool), finite_votes a -> (forall s, (s < dS a)%nat -> (f s = true <-> outlier_subject a s)) ->
  length (filter f (seq 0 (dS a))) <> dS a ->
  fst (fst (fst (reject_kurtosis a))) = select_cols a (filter (fun s => negb (f s)) (seq 0 (dS a))).
Proof.
  intros a f Hf H N.
  assert (T : forall s, (s < dS a)%nat -> reject_test (nth s (map (reject_stats a) (seq 0 (dS a))) (nnan, nnan)) = f s).
  { intros s Hs. rewrite nth_map_seq by exact Hs. destruct (f s) eqn:E; [apply test_spec; [exact Hf|exact Hs|]; apply H; assumption|].
    destruct (reject_test (reject_stats a s)) eqn:Q; [|reflexivity]. apply test_spec in Q; [|exact Hf|exact Hs]. apply H in Q; [congruence|exact Hs]. }
  unfold reject_kurtosis. cbn zeta.
  rewrite (filter_ext_in _ f) by (intros s Hs; apply in_seq in Hs; apply T; lia).
  rewrite (filter_ext_in (fun s => negb _) (fun s => negb (f s))) by (intros s Hs; apply in_seq in Hs; rewrite T by lia; reflexivity).
  destruct (Nat.eqb_spec (length (filter f (seq 0 (dS a)))) (dS a)); [contradiction|reflexivity].
Qed.
Lemma sr_quality : forall ds a, raw_reader ds = Ok (w_reader ds) -> rd_arr (w_reader ds) = Ok a ->
  exists m, run_modeling SR_MOS (w_reader ds) no_options = Ok m /\ mr_quality m = along1 np_nanmean (stack1 (fst (fst (fst (reject_kurtosis a))))).
Proof.
  intros ds a Hr HA. destruct (kurtosis_total ds a Hr HA) as (m & Hm). exists m. split; [exact Hm|].
  destruct (run_pp _ _ _ _ Hm) as (k' & pp & Hk & Hp & _ & _ & HQ & _). rewrite (kwargs_plus _ _ (no_conflict SR_MOS)) in Hk. injection Hk as <-.
  rewrite HQ, postprocess_none by reflexivity. f_equal. f_equal. unfold preprocess in Hp. rewrite HA in Hp.
  cbn [bind plus_announced announced no_options st_dscore st_zscore st_bias st_rej st_type orb kw_rej kw_rejtype kw_zscore kw_bias kw_dscore assert_ negb andb] in Hp.
  cbv zeta in Hp. destruct (reject_kurtosis a) as [[[b fl] s1] s2]. cbn in Hp. injection Hp as <-. reflexivity.
Qed.
Lemma select_finite : forall a cols, finite_votes a -> (forall s, In s cols -> (s < dS a)%nat) -> finite_votes (select_cols a cols).
Proof.
  intros a cols Hf H e s r (He & Hs & Hr). cbn in He, Hs, Hr |- *. apply Hf. unfold inside. split; [exact He|]. split; [|exact Hr]. apply H. apply nth_In. exact Hs.
Qed.
Lemma c132_sr_lower : exists m m', run_modeling SR_MOS (w_reader (rk_ds 4)) no_options = Ok m /\
  run_modeling SR_MOS (w_reader (rk_ds 5)) no_options = Ok m' /\ lower (mr_quality m) (mr_quality m') 0.
Proof.
  destruct (sr_quality (rk_ds 4) _ (rk_reader 4) (rk_arr 4)) as (m & Hm & Q). destruct (sr_quality (rk_ds 5) _ (rk_reader 5) (rk_arr 5)) as (m' & Hm' & Q').
  exists m, m'. split; [exact Hm|]. split; [exact Hm'|].
  rewrite (reject_known _ (fun _ => false) (rk_finite 4)) in Q; [|intros s Hs; split; [discriminate|intro O; exfalso; exact (rk_before s Hs O)]|cbn; lia].
  rewrite (reject_known _ (fun s => Nat.eqb s 0) (rk_finite 5)) in Q'; [| |cbn; lia].
  2:{ intros s Hs. split; [intro E; apply Nat.eqb_eq in E; subst s; exact rk_outlier|].
      intro O. destruct s as [|s]; [reflexivity|]. exfalso. refine (rk_after (S s) _ O). change (dS (w_arr (rk_ds 5))) with 8%nat in Hs. lia. }
  rewrite mean_rows in Q by (apply select_finite; [apply rk_finite|intros s Hs; apply filter_In in Hs as [Hs _]; apply in_seq in Hs; lia]).
  rewrite mean_rows in Q' by (apply select_finite; [apply rk_finite|intros s Hs; apply filter_In in Hs as [Hs _]; apply in_seq in Hs; lia]).
  rewrite Q, Q'. unfold lower. rewrite !nth_error_map_seq by (cbn; lia).
  assert (V : video_votes (select_cols (w_arr (rk_ds 4)) (filter (fun s => negb false) (seq 0 (dS (w_arr (rk_ds 4)))))) 0 = [4; 1; 3; 3; 3; 3; 3; 3]) by reflexivity.
  assert (V' : video_votes (select_cols (w_arr (rk_ds 5)) (filter (fun s => negb (Nat.eqb s 0)) (seq 0 (dS (w_arr (rk_ds 5)))))) 0 = [1; 3; 3; 3; 3; 3; 3]) by reflexivity.
  rewrite V, V', !nanmeanR_ne by discriminate. eexists _, _. split; [reflexivity|]. split; [reflexivity|].
  unfold Rmean, Rsum. cbn [fold_right length INR]. lra.
Qed.
