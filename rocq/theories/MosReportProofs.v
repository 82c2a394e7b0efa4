(** Proofs for the other entries of MOS results and the start values. *)
From Coq Require Import String.
From Coq Require Import List ZArith Bool Arith Reals Lra Lia.
From Verif Require Import PyBase Num ExtReal NumPy Dataset Preproc Mos AP Mle SpecMos SpecAp SpecMle SpecMosReport BaseProofs ExtRealProofs
  ArrayProofs PreprocProofs MosProofs RejectProofs Reject2Proofs StepsProofs ApProofs Ap2Proofs MleProofs Mle2Proofs Mle3Proofs Mle6Proofs.
Import ListNotations.
Local Open Scope R_scope.

(** ** Preprocessing keeps votes finite *)
Lemma ref_mos_finnan : forall refs (all dvs : list (dvideo ef string)) mos rm, Forall finnan mos -> get_ref_mos refs all dvs mos = Ok rm -> Forall finnan rm.
Proof.
  intros refs all dvs mos rm F H. unfold get_ref_mos in H. apply mapM_Ok in H. induction H as [|dv y l l' H _ IH]; constructor; [|exact IH].
  destruct (disvideo_is_refvideo refs dvs); [|discriminate]. cbn [bind] in H. destruct (assert_ _); [|discriminate]. cbn [bind] in H.
  unfold py_index in H. destruct (nth_error mos _) eqn:E; [|discriminate]. apply Ok_inj in H. subst. rewrite Forall_forall in F. apply F. eapply nth_error_In. exact E.
Qed.
Lemma mean_rows_finnan : forall a : arr3 ef, finite_votes a -> Forall finnan (along1 np_nanmean (stack1 a)).
Proof.
  intros a Hf. assert (E := mos_quality_eq a Hf dof_mos a). unfold mos_and_stats in E. cbn [mr_quality] in E. rewrite E.
  apply Forall_forall. intros y Hy. apply in_map_iff in Hy as (e & <- & _). apply nanmeanR_finnan.
Qed.
Lemma dscore_finite : forall refs all dvs rs a a1, finite_votes a -> finnan rs -> dscore refs all dvs rs a = Ok a1 ->
  dE a1 = dE a /\ dS a1 = dS a /\ dR a1 = dR a /\ finite_votes a1.
Proof.
  intros refs all dvs rs a a1 Hf Hr H. unfold dscore in H. destruct (get_ref_mos _ _ _ _) as [rm|] eqn:E; [|discriminate]. cbn [bind] in H.
  destruct (Nat.eqb (length rm) (dE a)) eqn:L; [|discriminate]. apply Nat.eqb_eq in L. apply Ok_inj in H. subst a1. cbn [map3 dE dS dR at3].
  split; [reflexivity|]. split; [reflexivity|]. split; [reflexivity|]. intros e s r I. cbn [map3 dE dS dR at3] in *. efc.
  assert (F := ref_mos_finnan _ _ _ _ _ (mean_rows_finnan a Hf) E). rewrite Forall_forall in F.
  apply finnan_sub; [apply finnan_add; [apply Hf; exact I|exact Hr]|]. unfold vat. apply F. apply nth_In. destruct I as (I & _). rewrite L. exact I.
Qed.
Lemma select_cols_finite : forall a cols, finite_votes a -> (forall s, In s cols -> (s < dS a)%nat) -> finite_votes (select_cols a cols).
Proof.
  intros a cols Hf H e s r I. unfold select_cols in *. cbn [dE dS dR at3] in *. apply Hf. destruct I as (A & B & C). cbn [dE dS dR] in *. 
  split; [exact A|]. split; [apply H, nth_In; exact B|exact C].
Qed.
Lemma filter_le : forall A (f : A -> bool) l, (length (filter f l) <= length l)%nat.
Proof. intros A f l. induction l as [|a l IH]; [reflexivity|]. cbn [filter length]. destruct (f a); cbn [length]; lia. Qed.
Lemma filter_split : forall A (f : A -> bool) l, (length (filter (fun x => negb (f x)) l) + length (filter f l) = length l)%nat.
Proof. intros A f l. induction l as [|a l IH]; [reflexivity|]. cbn [filter length]. destruct (f a); cbn [length negb]; lia. Qed.
Lemma reject_kurtosis_cols : forall a : arr3 ef, exists cols, fst (fst (fst (reject_kurtosis a))) = select_cols a cols /\ (length cols <= dS a)%nat /\ forall s, In s cols -> (s < dS a)%nat.
Proof.
  intro a. unfold reject_kurtosis. set (sts := map (reject_stats a) (seq 0 (dS a))).
  set (t := fun s => reject_test (nth s sts (nnan, nnan))). 
  assert (L : forall f : nat -> bool, (length (filter f (seq 0 (dS a))) <= dS a)%nat).
  { intro f. rewrite <- (seq_length (dS a) 0) at 2. apply filter_le. }
  assert (LL : (length (filter (fun s => negb (t s)) (seq 0 (dS a))) + length (filter t (seq 0 (dS a))) = dS a)%nat).
  { rewrite <- (seq_length (dS a) 0) at 3. apply filter_split. }
  destruct (Nat.eqb _ _).
  - eexists. cbn [fst]. split; [reflexivity|]. split; [rewrite app_length; exact (Nat.eq_le_incl _ _ LL)|].
    intros s Hs. apply in_app_iff in Hs as [Hs|Hs]; apply filter_In in Hs as (Hs & _); apply in_seq in Hs; lia.
  - eexists. cbn [fst]. split; [reflexivity|]. split; [apply (L (fun s => negb (t s)))|]. intros s Hs. apply filter_In in Hs as (Hs & _); apply in_seq in Hs; lia.
Qed.
Lemma reject_corr_cols : forall corr (a : arr3 ef) rr, reject_corr corr a = Ok rr -> exists cols, fst (fst (fst rr)) = select_cols a cols /\ (length cols <= dS a)%nat /\ forall s, In s cols -> (s < dS a)%nat.
Proof.
  intros corr a rr H. unfold reject_corr in H. destruct (observer_corr corr a) as [r|]; [|discriminate]. cbn [bind] in H. apply Ok_inj in H. subst rr. cbn [fst].
  eexists. split; [reflexivity|]. split; [rewrite <- (seq_length (dS a) 0) at 2; apply filter_le|]. intros s Hs. apply filter_In in Hs as (Hs & _); apply in_seq in Hs; lia.
Qed.
Lemma bias_length : forall a : arr3 ef, length (bias_estimate a) = dS a.
Proof. intro a. unfold bias_estimate, along0. rewrite map_length, seq_length. reflexivity. Qed.

Lemma pp_shape : forall (rd : reader ef) k pp a0, rd_arr rd = Ok a0 -> finite_votes a0 -> (forall rs, ds_ref_score (rd_ds rd) = Some (Some rs) -> finnan rs) ->
  preprocess rd k = Ok pp ->
  pp_orig pp = a0 /\ dE (pp_arr pp) = dE a0 /\ dR (pp_arr pp) = dR a0 /\ (dS (pp_arr pp) <= dS a0)%nat /\ finite_votes (pp_arr pp) /\
  (kw_bias k = true <-> pp_bias pp <> None) /\ (forall b, pp_bias pp = Some b -> length b = dS a0).
Proof.
  intros rd k pp a0 Ha Hf Hr H. unfold preprocess in H. rewrite Ha in H. cbn [bind] in H.
  match type of H with bind ?m _ = _ => destruct m as [[]|]; [|discriminate] end. cbn [bind] in H.
  match type of H with bind ?m _ = _ => destruct m as [[]|]; [|discriminate] end. cbn [bind] in H.
  match type of H with bind ?m _ = _ => destruct m as [a1|] eqn:E1; [|discriminate] end. cbn [bind] in H. cbv zeta in H.
  assert (S1 : dE a1 = dE a0 /\ dS a1 = dS a0 /\ dR a1 = dR a0 /\ finite_votes a1).
  { destruct (kw_dscore k); [|apply Ok_inj in E1; subst; auto]. destruct (ds_ref_score (rd_ds rd)) as [[rs|]|]; try discriminate.
    eapply dscore_finite; [exact Hf|apply Hr; reflexivity|exact E1]. }
  set (a2 := if kw_zscore k then zscore a1 else a1) in *.
  assert (S2 : dE a2 = dE a0 /\ dS a2 = dS a0 /\ dR a2 = dR a0 /\ finite_votes a2).
  { unfold a2. destruct S1 as (A & B & C & D). destruct (kw_zscore k); [|auto]. split; [exact A|]. split; [exact B|]. split; [exact C|apply zscore_finite; exact D]. }
  set (a3 := if kw_bias k then remove_bias a2 (bias_estimate a2) else a2) in *.
  assert (S3 : dE a3 = dE a0 /\ dS a3 = dS a0 /\ dR a3 = dR a0 /\ finite_votes a3).
  { unfold a3. destruct S2 as (A & B & C & D). destruct (kw_bias k); [|auto]. split; [exact A|]. split; [exact B|]. split; [exact C|apply remove_bias_finite; exact D]. }
  assert (SB : forall p : ppres ef, pp_bias p = (if kw_bias k then Some (bias_estimate a2) else None) ->
     (kw_bias k = true <-> pp_bias p <> None) /\ (forall b, pp_bias p = Some b -> length b = dS a0)).
  { intros p ->. destruct (kw_bias k); (split; [split; [discriminate||reflexivity|congruence]|]).
    - intros b Eb. injection Eb as <-. rewrite bias_length. apply S2.
    - discriminate. }
  destruct (kw_rej k).
  - match type of H with bind ?m _ = _ => destruct m as [rr|] eqn:E; [|discriminate] end. cbn [bind] in H.
    assert (Q : exists cols, fst (fst (fst rr)) = select_cols a3 cols /\ (length cols <= dS a3)%nat /\ forall s, In s cols -> (s < dS a3)%nat).
    { destruct (kw_rejtype k) as [[| | |]|]; try discriminate; try (apply Ok_inj in E; subst rr; apply reject_kurtosis_cols); eapply reject_corr_cols; exact E. }
    destruct rr as [[[a4 fl] s1] s2]. cbn [fst] in Q. destruct Q as (cols & -> & L & M). apply Ok_inj in H. subst pp. cbn [pp_orig pp_arr].
    destruct S3 as (A & B & C & D). split; [reflexivity|]. split; [exact A|]. split; [exact C|]. split; [cbn [select_cols dS]; lia|].
    split; [apply select_cols_finite; assumption|]. apply SB. reflexivity.
  - apply Ok_inj in H. subst pp. cbn [pp_orig pp_arr]. destruct S3 as (A & B & C & D). split; [reflexivity|]. split; [exact A|]. split; [exact C|]. split; [lia|].
    split; [exact D|]. apply SB. reflexivity.
Qed.

(** ** Log-likelihood *)
Lemma gaussian_nostd : forall v m s, s = Fin 0 \/ s = NaN -> v = m -> nln (gaussian (Fin v) (Fin m) s) = NaN.
Proof.
  intros v m s H ->. unfold gaussian, none_, nsq. efc. rewrite ef_sub_Fin.
  assert (G : forall u y, y = NaN -> ef_ln (ef_mul u (ef_exp y)) = NaN) by (intros u y ->; destruct u; reflexivity).
  apply G. replace (m - m) with 0 by ring. destruct H as [->| ->].
  - cbn [ef_mul ef_neg]. rewrite !Rmult_0_r, Ropp_0. apply ef_0div0.
  - reflexivity.
Qed.
Lemma Rss_single : forall l, (length l <= 1)%nat -> Rss l = 0.
Proof.
  intros [|a [|b l]] H; [reflexivity| |cbn in H; lia]. apply Rss_zero. intros x y [<-|[]] [<-|[]]. reflexivity.
Qed.
Lemma sstd_pos : forall l, sumsq (Rmean l) l <> 0 -> (2 <= length l)%nat /\ 0 < sstd l /\ nanstdR 1 l = Fin (sstd l).
Proof.
  intros l H. change (sumsq (Rmean l) l) with (Rss l) in H. assert (L : (2 <= length l)%nat).
  { destruct (le_lt_dec 2 (length l)) as [L|L]; [exact L|]. exfalso. apply H, Rss_single. lia. }
  split; [exact L|]. assert (P := Rss_nonneg l). assert (N : 0 < INR (length l) - 1) by (apply le_INR in L; cbn in L; lra).
  split.
  - unfold sstd. apply sqrt_lt_R0. apply Rdiv_lt_0_compat; [change (sumsq (Rmean l) l) with (Rss l); lra|exact N].
  - unfold nanstdR. destruct (Nat.leb_spec (length l) 1); [lia|]. unfold sstd. change (sumsq (Rmean l) l) with (Rss l). rewrite minus_INR by lia. reflexivity.
Qed.
Lemma notnan_none : forall (f : R -> ef) l, (forall v, In v l -> f v = NaN) -> notnan (map f l) = [].
Proof.
  intros f l. induction l as [|v l IH]; intro A; [reflexivity|]. cbn [map]. unfold notnan. cbn [filter]. rewrite (A v (or_introl eq_refl)).
  cbn. apply IH. intros u Hu. apply A. right. exact Hu.
Qed.
Lemma video_ll_sum : forall l, np_sum (notnan (map (fun x => nln (gaussian x (nanmeanR l) (nanstdR 1 l))) (map Fin l))) = Fin (video_ll l).
Proof.
  intro l. unfold video_ll. destruct (Req_EM_T (sumsq (Rmean l) l) 0) as [Z|Z].
  - assert (E : notnan (map (fun x => nln (gaussian x (nanmeanR l) (nanstdR 1 l))) (map Fin l)) = []).
    { rewrite map_map. apply notnan_none. intros v Hv. assert (N : l <> []) by (intros ->; contradiction). rewrite nanmeanR_ne by exact N. apply gaussian_nostd.
      - unfold nanstdR. destruct (Nat.leb _ _); [right; reflexivity|left]. change (sumsq (Rmean l) l) with (Rss l) in Z. rewrite Z. unfold Rdiv. rewrite Rmult_0_l, sqrt_0. reflexivity.
      - assert (C := proj1 (Rss_zero l) Z). assert (B := Rmean_bounds l v v N). assert (v <= Rmean l <= v); [|lra].
        apply B. intros y Hy. rewrite (C y v Hy Hv). lra. }
    rewrite E. apply np_sum_nil.
  - destruct (sstd_pos l Z) as (L & P & ->). assert (N : l <> []) by (destruct l; [cbn in L; lia|discriminate]). rewrite nanmeanR_ne by exact N.
    rewrite map_map. rewrite (map_ext _ (fun v => Fin (log_density v (Rmean l) (sstd l)))) by (intro; apply gaussian_Fin; exact P).
    rewrite <- (map_map (fun v => log_density v (Rmean l) (sstd l)) Fin).
    rewrite notnan_finnan by (apply Forall_forall; intros y Hy; apply in_map_iff in Hy as (w & <- & _); exact I).
    rewrite presents_map_Fin. apply np_sum_Fin.
Qed.

Lemma mos_ll_sum : forall a : arr3 ef, finite_votes a ->
  np_nansum (flat3 (map3 (fun e s r x => nln (gaussian x (vat (along1 np_nanmean (stack1 a)) e) (vat (along1 (np_nanstd 1) (stack1 a)) e))) a)) = Fin (mos_ll a).
Proof.
  intros a Hf. unfold np_nansum.
  rewrite (flat3_votes a (fun e x => nln (gaussian x (vat (along1 np_nanmean (stack1 a)) e) (vat (along1 (np_nanstd 1) (stack1 a)) e))) Hf) by (intro; apply ln_gaussian_nan).
  unfold mos_ll. apply np_sum_flat. intros e He. apply in_seq in He.
  assert (E1 := mos_quality_eq a Hf dof_mos a). assert (E2 := mos_amb_eq a Hf dof_mos a). unfold mos_and_stats in E1, E2. cbn [mr_quality mr_ambiguity] in E1, E2.
  rewrite E1, E2. unfold vat. rewrite !nth_map_seq by lia. apply video_ll_sum.
Qed.

(** ** The report *)
Lemma removing_spec : forall c, is_biasremv c = true <-> removing_bias c.
Proof. intro c. unfold removing_bias. destruct c; cbn; split; intro H; try discriminate; auto; repeat destruct H as [H|H]; discriminate. Qed.
Lemma kwargs_bias : forall c (k k' : kwargs ef), run_kwargs c k = Ok k' -> is_biasremv c = true -> kw_bias k' = true.
Proof.
  intros c k k' H B. destruct (Classical_Prop.classic (conflict c k)) as [Q|Q]; [rewrite (kwargs_conflict c k Q) in H; discriminate|].
  rewrite (kwargs_plus c k Q) in H. apply Ok_inj in H. subst k'. destruct c; try discriminate B; reflexivity.
Qed.
Lemma kwargs_final : forall c (k k' : kwargs ef), run_kwargs c k = Ok k' -> kw_normalize_final k' = kw_normalize_final k /\ kw_transform_final k' = kw_transform_final k.
Proof.
  intros c k k' H. destruct (Classical_Prop.classic (conflict c k)) as [Q|Q]; [rewrite (kwargs_conflict c k Q) in H; discriminate|].
  rewrite (kwargs_plus c k Q) in H. apply Ok_inj in H. subst k'. split; reflexivity.
Qed.
Lemma c73 : forall c (rd : reader ef) k a0 m, rd_arr rd = Ok a0 -> finite_votes a0 -> (forall rs, ds_ref_score (rd_ds rd) = Some (Some rs) -> finnan rs) ->
  kw_normalize_final k = false -> kw_transform_final k = None -> run_modeling c rd k = Ok m -> finite_votes (mr_raw m) /\ mos_report c rd a0 m.
Proof.
  intros c rd k a0 m Ha Hf Hr Kn Kt H. unfold run_modeling in H. destruct (run_kwargs c k) as [k'|] eqn:Ek; [|discriminate]. cbn [bind] in H.
  destruct (kwargs_final _ _ _ Ek) as (Kn' & Kt'). rewrite Kn in Kn'. rewrite Kt in Kt'.
  unfold mos_run in H. destruct (preprocess rd k') as [pp|] eqn:Ep; [|discriminate]. cbn [bind] in H. cbv zeta in H.
  destruct (pp_shape _ _ _ _ Ha Hf Hr Ep) as (O & DE & DR & DS & F & B1 & B2).
  match type of H with bind (bind ?mm _) _ = _ => destruct mm as [b|] eqn:Eb; [|discriminate] end. cbn [bind] in H.
  destruct (attach_observers rd) as [obs|] eqn:Eo; [|discriminate]. cbn [bind] in H. apply Ok_inj in H. subst m.
  set (x := pp_arr pp) in *. set (dof := if is_biasremv c then dof_biasremv else dof_mos) in *.
  assert (E1 := mos_quality_eq x F dof (pp_orig pp)). assert (E2 := mos_amb_eq x F dof (pp_orig pp)). assert (E3 := mos_std_eq x F dof (pp_orig pp)).
  destruct (mos_ci_eq x F dof (pp_orig pp)) as (E4 & E5).
  assert (RW : mr_raw (mos_and_stats dof x (pp_orig pp)) = x) by reflexivity.
  cbn [mr_raw]. rewrite RW. split; [exact F|].
  rewrite (postprocess_none k' _ Kn' Kt').
  constructor; cbn [mr_quality mr_std mr_ci_lo mr_ci_hi mr_ambiguity mr_raw mr_recon mr_dof mr_ll mr_aic mr_bic mr_bias mr_rej mr_observers]; rewrite ?RW.
  - auto.
  - rewrite E1, E2, E3, E4, E5, !map_length, !seq_length. auto.
  - intros e He. rewrite E1, E2, E3, E4, E5, !nth_map_seq by lia. apply entry_ok.
  - unfold mos_and_stats. cbn [mr_recon mos_reconstructions dE dS dR at3]. split; [unfold along1; rewrite map_length, seq_length; reflexivity|].
    split; [reflexivity|]. split; [reflexivity|]. intros. reflexivity.
  - intros n H1 H2. unfold mos_and_stats. cbn [mr_dof]. rewrite O, (cnt_flat3 a0 Hf), nofnat_ef.
    unfold dof. destruct (is_biasremv c) eqn:B; [rewrite H1 by (apply removing_spec; exact B)|rewrite H2 by (intro Q; apply removing_spec in Q; congruence)]; unfold dof_biasremv, dof_mos; efc; do 3 f_equal; lia.
  - unfold mos_and_stats. cbn [mr_ll]. rewrite (mos_ll_sum x F), (cnt_flat3 x F). reflexivity.
  - reflexivity.
  - unfold mos_and_stats. cbn [mr_bic mr_dof mr_ll]. rewrite O, (cnt_flat3 a0 Hf). reflexivity.
  - destruct (is_biasremv c) eqn:B.
    + destruct (pp_bias pp) as [d|] eqn:Ed; [|discriminate]. apply Ok_inj in Eb. subst b. split; [split; [discriminate|intros _; apply removing_spec; exact B]|].
      intros b Hb. apply B2. congruence.
    + apply Ok_inj in Eb. subst b. split; [split; [intro Q; apply removing_spec in Q; congruence|congruence]|discriminate].
  - intros o Ho. unfold attach_observers in Eo. rewrite Ho in Eo. apply Ok_inj in Eo. congruence.
  - intros e He. unfold attach_observers in Eo. rewrite He in Eo. destruct e; try discriminate; apply Ok_inj in Eo; congruence.
Qed.

(** ** Start values of the likelihood models *)
Lemma pop_std : forall l, is_pop_std (nanstdR 0 l) l.
Proof.
  intro l. destruct l as [|a l]; [left; auto|right]. split; [discriminate|]. unfold nanstdR. cbn [length Nat.leb]. rewrite Nat.sub_0_r. reflexivity.
Qed.
Section Start.
  Variable x : arr3 ef.
  Hypothesis HF : finite_votes x.
  Variable mos : list ef.
  Variable q : nat -> R.
  Hypothesis Hq : forall e, (e < dE x)%nat -> rated x e -> nth e mos NaN = Fin (q e).

  Lemma residual_at : forall e s r, inside x e s r -> at3 (minus_quality x mos) e s r = match at3 x e s r with Fin y => Fin (y - q e) | _ => NaN end.
  Proof.
    intros e s r HI. assert (F := HF e s r HI). unfold minus_quality. cbn [map3 at3]. destruct (at3 x e s r) as [y| | |] eqn:E; cbn in F; try contradiction.
    - unfold vat. change nnan with NaN. efc. rewrite Hq; [apply ef_sub_Fin|apply HI|exists s, r, y; auto].
    - reflexivity.
  Qed.
  Lemma residual_finite : finite_votes (minus_quality x mos).
  Proof. intros e s r HI. rewrite residual_at by exact HI. destruct (at3 x e s r); exact I. Qed.
  Lemma residual_cells : forall (f : nat -> nat -> ef) (g : nat -> nat -> ef) l l',
    (forall a b, In a l -> In b l' -> f a b = g a b) -> flat_map (fun a => map (f a) l') l = flat_map (fun a => map (g a) l') l.
  Proof.
    intros f g l l' H. apply flat_map_ext_in. intros a Ha. apply map_ext_in. intros b Hb. apply H; assumption.
  Qed.
  Lemma presents_cells : forall (y : nat -> nat -> ef) (h : nat -> nat -> R -> R) l l',
    presents (flat_map (fun a => map (fun b => match y a b with Fin v => Fin (h a b v) | _ => NaN end) l') l) =
    flat_map (fun a => flat_map (fun b => match y a b with Fin v => [h a b v] | _ => [] end) l') l.
  Proof.
    intros y h l l'. rewrite presents_flat_map. apply flat_map_ext. intro a. induction l' as [|b l' IH]; [reflexivity|]. cbn [map flat_map].
    destruct (y a b); cbn [presents flat_map app]; rewrite <- IH; reflexivity.
  Qed.
  Lemma subject_spread : forall i, (i < dS x)%nat -> nth i (along0 (np_nanstd 0) (stack0 (minus_quality x mos))) NaN = nanstdR 0 (subject_residuals x q i).
  Proof.
    intros i Hi. rewrite std_cols by exact residual_finite. change (dS (minus_quality x mos)) with (dS x). rewrite nth_map_seq by exact Hi. f_equal.
    unfold subject_votes, subject_residuals. change (dR (minus_quality x mos)) with (dR x). change (dE (minus_quality x mos)) with (dE x).
    rewrite (residual_cells _ (fun e r => match at3 x e i r with Fin y => Fin (y - q e) | _ => NaN end)).
    - apply (presents_cells (fun e r => at3 x e i r) (fun e _ y => y - q e)).
    - intros e r He Hr. apply in_seq in He. apply in_seq in Hr. apply residual_at. repeat split; lia.
  Qed.
  Lemma enumerate_map : forall (l : list nat), enumerate l = map (fun e => (e, nth e l 0%nat)) (seq 0 (length l)).
  Proof.
    intro l. apply (nth_ext _ _ (0, 0)%nat (0, 0)%nat).
    - unfold enumerate. rewrite combine_length, map_length, !seq_length. lia.
    - intros n Hn. unfold enumerate in *. rewrite combine_length, seq_length, Nat.min_id in Hn. rewrite combine_nth by apply seq_length.
      rewrite seq_nth by exact Hn. set (f := fun e => (e, nth e l 0%nat)). rewrite (nth_indep _ (0, 0)%nat (f 0%nat)) by (rewrite map_length, seq_length; exact Hn).
      rewrite map_nth, seq_nth by exact Hn. reflexivity.
  Qed.
  Lemma content_spread : forall cids C c, length cids = dE x -> (c < C)%nat ->
    nth c (std_over_cid (minus_quality x mos) cids C) NaN = nanstdR 0 (content_residuals x (cid_of cids) q c).
  Proof.
    intros cids C c L Hc. unfold std_over_cid. rewrite nth_map_seq by exact Hc. rewrite enumerate_map, L, flat_map_concat_map, map_map, <- flat_map_concat_map. cbn [fst snd].
    change (dR (minus_quality x mos)) with (dR x). change (dS (minus_quality x mos)) with (dS x).
    assert (E : forall e, (e < dE x)%nat -> flat_map (fun s => map (fun r => at3 (minus_quality x mos) e s r) (seq 0 (dR x))) (seq 0 (dS x)) =
      flat_map (fun s => map (fun r => match at3 x e s r with Fin y => Fin (y - q e) | _ => NaN end) (seq 0 (dR x))) (seq 0 (dS x))).
    { intros e He. apply residual_cells. intros s r Hs Hr. apply in_seq in Hs. apply in_seq in Hr. apply residual_at. repeat split; lia. }
    rewrite np_nanstd_finnan.
    - f_equal. rewrite presents_flat_map. unfold content_residuals, cid_of. apply flat_map_ext_in. intros e He. apply in_seq in He.
      destruct (Nat.eqb (nth e cids 0%nat) c); [|reflexivity]. rewrite E by lia.
      apply (presents_cells (fun s r => at3 x e s r) (fun _ _ y => y - q e)).
    - apply Forall_forall. intros y Hy. apply in_flat_map in Hy as (e & He & Hy). apply in_seq in He. destruct (Nat.eqb (nth e cids 0%nat) c); [|contradiction].
      rewrite E in Hy by lia. apply in_flat_map in Hy as (s & _ & Hy). apply in_map_iff in Hy as (r & <- & _). destruct (at3 x e s r); exact I.
  Qed.
End Start.

(** Preprocessing adds no votes. *)
Lemma pp_rated : forall (rd : reader ef) k pp a0, rd_arr rd = Ok a0 -> finite_votes a0 -> preprocess rd k = Ok pp ->
  forall e, rated (pp_arr pp) e -> rated a0 e.
Proof.
  intros rd k pp a0 Ha Hf H. unfold preprocess in H. rewrite Ha in H. cbn [bind] in H.
  match type of H with bind ?m _ = _ => destruct m as [[]|]; [|discriminate] end. cbn [bind] in H.
  match type of H with bind ?m _ = _ => destruct m as [[]|]; [|discriminate] end. cbn [bind] in H.
  match type of H with bind ?m _ = _ => destruct m as [a1|] eqn:E1; [|discriminate] end. cbn [bind] in H. cbv zeta in H.
  assert (M : forall a (f : nat -> nat -> nat -> ef -> ef), (forall e s r, f e s r NaN = NaN) -> (forall e s r, inside a e s r -> at3 a e s r = NaN \/ rated a0 e) -> forall e s r, inside (map3 f a) e s r -> at3 (map3 f a) e s r = NaN \/ rated a0 e).
  { intros a f Hn Ha' e s r HI. cbn [map3 at3]. destruct (Ha' e s r HI) as [->|Q]; [left; apply Hn|right; exact Q]. }
  assert (S0 : forall e s r, inside a0 e s r -> at3 a0 e s r = NaN \/ rated a0 e).
  { intros e s r HI. assert (F := Hf e s r HI). destruct (at3 a0 e s r) as [y| | |] eqn:E; cbn in F; try contradiction; [right|left; reflexivity]. exists s, r, y. auto. }
  assert (S1 : forall e s r, inside a1 e s r -> at3 a1 e s r = NaN \/ rated a0 e).
  { destruct (kw_dscore k); [|apply Ok_inj in E1; subst; exact S0]. destruct (ds_ref_score (rd_ds rd)) as [[rs|]|]; try discriminate.
    unfold dscore in E1. destruct (get_ref_mos _ _ _ _) as [rm|]; [|discriminate]. cbn [bind] in E1. destruct (Nat.eqb _ _); [|discriminate]. apply Ok_inj in E1. subst a1.
    apply M; [|exact S0]. intros. reflexivity. }
  set (a2 := if kw_zscore k then zscore a1 else a1) in *.
  assert (S2 : forall e s r, inside a2 e s r -> at3 a2 e s r = NaN \/ rated a0 e).
  { unfold a2. destruct (kw_zscore k); [|exact S1]. apply M; [|exact S1]. intros. reflexivity. }
  set (a3 := if kw_bias k then remove_bias a2 (bias_estimate a2) else a2) in *.
  assert (S3 : forall e s r, inside a3 e s r -> at3 a3 e s r = NaN \/ rated a0 e).
  { unfold a3. destruct (kw_bias k); [|exact S2]. apply M; [|exact S2]. intros. reflexivity. }
  assert (G : forall b, (forall e s r, inside b e s r -> at3 b e s r = NaN \/ rated a0 e) -> forall e, rated b e -> rated a0 e).
  { intros b Hb e (s & r & y & HI & E). destruct (Hb e s r HI) as [Q|Q]; [rewrite E in Q; discriminate|exact Q]. }
  destruct (kw_rej k).
  - match type of H with bind ?m _ = _ => destruct m as [rr|] eqn:E; [|discriminate] end. cbn [bind] in H.
    assert (Q : exists cols, fst (fst (fst rr)) = select_cols a3 cols /\ (length cols <= dS a3)%nat /\ forall s, In s cols -> (s < dS a3)%nat).
    { destruct (kw_rejtype k) as [[| | |]|]; try discriminate; try (apply Ok_inj in E; subst rr; apply reject_kurtosis_cols); eapply reject_corr_cols; exact E. }
    destruct rr as [[[a4 fl] s1] s2]. cbn [fst] in Q. destruct Q as (cols & -> & L & Mc). apply Ok_inj in H. subst pp. cbn [pp_arr]. apply G.
    intros e s r HI. destruct HI as (A & B & C). cbn [select_cols dE dS dR] in A, B, C. cbn [select_cols at3]. apply S3. split; [exact A|]. split; [apply Mc, nth_In; exact B|exact C].
  - apply Ok_inj in H. subst pp. cbn [pp_arr]. apply G. exact S3.
Qed.

Lemma rated_votes : forall a e, rated a e -> video_votes a e <> [].
Proof.
  intros a e (s & r & y & HI & E) Q. assert (K : In y (video_votes a e)); [|rewrite Q in K; contradiction].
  unfold video_votes. apply presents_In. apply in_flat_map. exists s. split; [apply in_seq; unfold inside in HI; lia|]. apply in_map_iff. exists r. split; [exact E|apply in_seq; unfold inside in HI; lia].
Qed.
Lemma nanmean_is : forall l, is_mean (nanmeanR l) l.
Proof. intro l. destruct l as [|a l]; [left; auto|right]. split; [discriminate|reflexivity]. Qed.

Lemma c78 : forall c (rd : reader ef) k a0 x cids C s, rd_arr rd = Ok a0 -> finite_votes a0 -> (forall rs, ds_ref_score (rd_ds rd) = Some (Some rs) -> finnan rs) ->
  length (rd_dvs rd) = dE a0 -> begins c rd k x cids C s ->
  exists q b v a, s = (q, b, v, a) /\ length q = dE x /\ length b = dS x /\ length v = dS x /\ length a = C /\
    (forall e, (e < dE x)%nat -> is_mean (nth e q NaN) (video_votes a0 e)) /\
    (forall i, (i < dS x)%nat -> nth i b NaN = Fin 0) /\
    (c = MLE_SO -> forall i, (i < dS x)%nat -> nth i v NaN = Fin 0) /\
    (c <> MLE_SO -> forall i, (i < dS x)%nat -> is_pop_std (nth i v NaN) (subject_residuals x (fun e => Rmean (video_votes a0 e)) i)) /\
    (c = MLE_CO \/ c = DMOS_MLE_CO -> forall j, (j < C)%nat -> nth j a NaN = Fin 0) /\
    (c <> MLE_CO -> c <> DMOS_MLE_CO -> forall j, (j < C)%nat -> is_pop_std (nth j a NaN) (content_residuals x (cid_of cids) (fun e => Rmean (video_votes a0 e)) j)).
Proof.
  intros c rd k a0 x cids C s Ha Hf Hr Hl (k' & pp & m & Kk & P & Hx & M & Hc & (mx & Z & HC) & Hs).
  destruct (pp_shape _ _ _ _ Ha Hf Hr P) as (O & DE & DR & DS & F & _). rewrite <- Hx in *.
  destruct (run_mos_inv rd m M) as (a & Ha' & o & Em). rewrite Ha in Ha'. apply Ok_inj in Ha'. subst a.
  assert (Eq : mr_quality m = map (fun e => nanmeanR (video_votes a0 e)) (seq 0 (dE a0))) by (rewrite Em; cbn [mr_quality]; apply mos_quality_eq; exact Hf).
  assert (Hq : forall e, (e < dE x)%nat -> rated x e -> nth e (mr_quality m) NaN = Fin (Rmean (video_votes a0 e))).
  { intros e He Hre. rewrite Eq, nth_map_seq by lia. apply nanmeanR_ne. apply rated_votes. rewrite Hx in Hre. exact (pp_rated _ _ _ _ Ha Hf P e Hre). }
  assert (Lc : length cids = dE x) by (rewrite Hc; unfold content_id_of_dis_videos; rewrite !map_length; lia).
  assert (Z0 : forall n i, (i < n)%nat -> nth i (@zeros ef Num_ef n) NaN = Fin 0).
  { intros n i Hi. unfold zeros. rewrite (nth_indep _ NaN nzero) by (rewrite repeat_length; exact Hi). apply nth_repeat. }
  assert (ZL : forall n, length (@zeros ef Num_ef n) = n) by (intro n; apply repeat_length).
  assert (LA : length (along0 (np_nanstd 0) (stack0 (minus_quality x (mr_quality m)))) = dS x) by apply along0_length.
  assert (LC : length (std_over_cid (minus_quality x (mr_quality m)) cids C) = C) by (unfold std_over_cid; rewrite map_length; apply seq_length).
  unfold mle_start in Hs. do 4 eexists. split; [exact Hs|].
  split; [rewrite Eq, map_length, seq_length; lia|]. split; [apply ZL|]. split; [destruct (mode_of c); first [apply ZL|exact LA]|]. split; [destruct (mode_of c); first [apply ZL|exact LC]|].
  split; [intros e He; rewrite Eq, nth_map_seq by lia; apply nanmean_is|]. split; [apply Z0|].
  assert (SS : forall i, (i < dS x)%nat -> is_pop_std (nth i (along0 (np_nanstd 0) (stack0 (minus_quality x (mr_quality m)))) NaN) (subject_residuals x (fun e => Rmean (video_votes a0 e)) i)).
  { intros i Hi. rewrite (subject_spread x F _ _ Hq i Hi). apply pop_std. }
  assert (SC : forall j, (j < C)%nat -> is_pop_std (nth j (std_over_cid (minus_quality x (mr_quality m)) cids C) NaN) (content_residuals x (cid_of cids) (fun e => Rmean (video_votes a0 e)) j)).
  { intros j Hj. rewrite (content_spread x F _ _ Hq cids C j Lc Hj). apply pop_std. }
  destruct c; cbn [mode_of]; (split; [first [discriminate|intros _; apply Z0]|]); (split; [first [intros _; exact SS|intro Q; congruence]|]);
    (split; [first [intros [Q|Q]; discriminate|intros _; apply Z0]|]); first [intros _ _; exact SC|intros Q Q'; congruence].
Qed.

(** ** Classes and defaults *)
Lemma oblivious_subject : forall c, mode_of c = SubjectOblivious <-> c = MLE_SO.
Proof. intro c. destruct c; split; intro H; try discriminate; reflexivity. Qed.
Lemma oblivious_content : forall c, mode_of c = ContentOblivious <-> c = MLE_CO \/ c = DMOS_MLE_CO.
Proof. intro c. destruct c; split; intro H; try discriminate; auto; destruct H; discriminate. Qed.
Section Classes.
  Variable chi : ef -> ef -> ef.
  Lemma c38_classes : forall c (rd : reader ef) k o m, mle_run_modeling chi c rd k o = Ok m ->
    Forall nonneg (ml_quality_std m) /\ Forall nonneg (ml_quality_lo m) /\ Forall nonneg (ml_quality_hi m) /\
    opt_nonneg (ml_bias_std m) /\ opt_nonneg (ml_bias_lo m) /\ opt_nonneg (ml_bias_hi m) /\
    opt_nonneg (ml_incons m) /\ opt_nonneg (ml_incons_std m) /\
    opt_nonneg (ml_ambiguity m) /\ opt_nonneg (ml_ambiguity_std m) /\ opt_nonneg (ml_ambiguity_lo m) /\ opt_nonneg (ml_ambiguity_hi m) /\
    (c = MLE_SO <-> ml_bias m = None) /\ (c = MLE_SO <-> ml_incons m = None) /\
    (c = MLE_CO \/ c = DMOS_MLE_CO <-> ml_ambiguity m = None).
  Proof. intros c rd k o m H. rewrite <- oblivious_subject, <- oblivious_content. exact (c38 chi c rd k o m H). Qed.
  Lemma c38_modes_classes : forall c (rd : reader ef) k x cids C s g pdf j q b v a, begins c rd k x cids C s ->
    passes (mode_of c) g pdf x cids C j s = Ok (q, b, v, a) ->
    (c = MLE_CO \/ c = DMOS_MLE_CO -> a = repeat (Fin 0) C) /\
    (c = MLE_SO -> b = repeat (Fin 0) (dS x) /\ v = repeat (Fin 0) (dS x)) /\
    ((1 <= j)%nat -> Forall nonneg v /\ Forall nonneg a).
  Proof. intros c rd k x cids C s g pdf j q b v a B P. rewrite <- oblivious_subject, <- oblivious_content. exact (c38_modes _ _ _ _ _ _ _ _ _ _ _ _ _ _ B P). Qed.
  Lemma c33_announced : forall (rd : reader ef) k o c c', (c = DMOS_MLE /\ c' = MLE) \/ (c = DMOS_MLE_CO /\ c' = MLE_CO) -> kw_dscore k = false ->
    mle_run_modeling chi c rd k o = mle_run_modeling chi c' rd (KW true (kw_zscore k) (kw_bias k) (kw_rej k) (kw_rejtype k) (kw_normalize_final k) (kw_transform_final k)) o.
  Proof. intros rd k o c c' H K. destruct H as [[-> ->]|[-> ->]]; unfold mle_run_modeling; cbn [mle_kwargs]; unfold guard; rewrite K; reflexivity. Qed.
  Lemma c71_defaults : forall c (rd : reader ef) k o, mle_run_modeling chi c rd k o =
    mle_run_modeling chi c rd k (MleOpts (Some (match mo_gradient o with Some g => g | None => Simplified end)) (Some (match mo_pdf o with Some p => p | None => GaussianPdf end))
      (Some (match mo_delta o with Some d => d | None => Fin (1 / 100000000) end)) (Some (match mo_force o with Some f => f | None => true end))).
  Proof.
    intros c rd k o. destruct o as [g p d f]. cbn [mo_gradient mo_pdf mo_delta mo_force].
    assert (E : epsilon = Fin (1 / 100000000)) by (unfold epsilon; rewrite ndec_ef by lia; reflexivity).
    unfold mle_run_modeling, mle_run, mle_solve. cbn [mo_gradient mo_pdf mo_delta mo_force]. rewrite <- E. destruct g, p, d, f; reflexivity.
  Qed.
  Lemma c70_default : forall c (rd : reader ef) k, ap_run_modeling chi c rd k None = ap_run_modeling chi c rd k (Some true).
  Proof. reflexivity. Qed.
End Classes.
