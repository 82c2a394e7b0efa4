(** Proofs about listing videos and subjects in another order for the projection
    classes and the remaining rating models (C140). *)
From Coq Require Import String.
From Coq Require Import Reals List ZArith Bool Arith Lia Permutation.
From Verif Require Import SpecAp SpecOther ExtRealProofs LsProofs.
From Verif Require Import PyBase Num ExtReal NumPy Dataset Preproc Mos AP Mle OtherModels BaseProofs ExtRealProofs SpecDataset SpecMos
  DatasetProofs ArrayProofs RecordedProofs MosProofs PreprocProofs SpecReorder ReorderProofs SpecReorder2 Reorder2Proofs SpecReorder3.
From Verif Require ApProofs.
Import ListNotations.
Local Open Scope nat_scope.
Local Open Scope list_scope.

(** ** The projection solver *)
Lemma vec_is : forall (w : list ef) n, length w = n -> w = map (vat w) (seq 0 n).
Proof.
  intros w n <-. apply nth_ext with (d := nnan) (d' := vat w 0); [rewrite map_length, seq_length; reflexivity|]. intros i Hi.
  rewrite (map_nth (vat w)), seq_nth by exact Hi. reflexivity.
Qed.
Lemma weighed_is : forall (x : arr3 ef) w e, length w = dS x -> weighed_nanmean (row (stack1 x) e) (np_tile w (dR x)) =
  ndiv (np_nansum (row (stack1 (map3 (fun _ i _ v => nmul v (vat w i)) x)) e)) (np_nansum (row (stack1 (map3 (fun _ i _ v => nmul (present v) (vat w i)) x)) e)).
Proof.
  intros x w e L. unfold weighed_nanmean. rewrite (vec_is w (dS x) L).
  rewrite !ApProofs.tile_map. rewrite <- (vec_is w (dS x) L). reflexivity.
Qed.

Section Ap.
  Variable chi2_ppf : ef -> ef -> ef.
  Variables (p q : nat -> nat) (x x' : arr3 ef).
  Hypothesis HR : rearranged p q x x'.
  Notation vids := (relisted (dE x) p).
  Notation subs := (relisted (dS x) q).
  Let P := re_pp _ _ _ _ HR.
  Let Q := re_pq _ _ _ _ HR.
  Let vv : forall l l' e, vids l l' -> e < dE x -> vat l' e = vat l (p e).
  Proof. intros l l' e H He. apply (relisted_vat _ _ _ _ e H He). apply P, He. Qed.
  Let vs : forall l l' s, subs l l' -> s < dS x -> vat l' s = vat l (q s).
  Proof. intros l l' s H Hs. apply (relisted_vat _ _ _ _ s H Hs). apply Q, Hs. Qed.
  Let m3 : forall f g, (forall e s r z, e < dE x -> s < dS x -> g e s r z = f (p e) (q s) r z) -> rearranged p q (map3 f x) (map3 g x').
  Proof. intros f g E. apply re_map3; [exact HR|]. intros e s r z (He & Hs & Hr). apply E; assumption. Qed.
  Lemma weighed_re : forall y y' w w', rearranged p q y y' -> dE y = dE x -> dS y = dS x -> subs w w' ->
    vids (along1 (fun l => weighed_nanmean l (np_tile w (dR y))) (stack1 y)) (along1 (fun l => weighed_nanmean l (np_tile w' (dR y'))) (stack1 y')).
  Proof.
    intros y y' w w' HY DE DS HW. assert (HW' := HW). destruct HW' as (L & L' & _). unfold along1. cbn [n0 stack1]. rewrite (re_dE _ _ _ _ HY), DE.
    apply relisted_map; [apply P|]. intros e He. rewrite !weighed_is by (rewrite ?(re_dS _ _ _ _ HY), ?DS; assumption).
    f_equal; apply nansum_perm; refine (re_row p q _ _ _ e _); try (cbn [dE map3]; rewrite DE; exact He); apply re_map3; try exact HY; intros e0 s r z (He0 & Hs & Hr); rewrite (vs _ _ s HW) by (rewrite <- DS; exact Hs); reflexivity.
  Qed.
  Lemma minus_quality_re : forall l l', vids l l' -> rearranged p q (minus_quality x l) (minus_quality x' l').
  Proof. intros l l' H. apply m3. intros e s r z He Hs. rewrite (vv _ _ e H He). reflexivity. Qed.
  Lemma minus_bias_re : forall b b', subs b b' -> rearranged p q (minus_bias x b) (minus_bias x' b').
  Proof. intros b b' H. apply m3. intros e s r z He Hs. rewrite (vs _ _ s H Hs). reflexivity. Qed.
  Lemma bias_of_re : forall l l', vids l l' -> subs (bias_of x l) (bias_of x' l').
  Proof. intros l l' H. exact (re_along0 _ _ _ _ (minus_quality_re _ _ H) np_nanmean nanmean_perm). Qed.
  Definition est_rel (e e' : apest ef) : Prop := vids (es e) (es e') /\ subs (eb e) (eb e') /\ subs (ev e) (ev e') /\ vids (evj e) (evj e').
  Lemma ap_pass_re : forall l l' b b', vids l l' -> subs b b' -> same_res est_rel (ap_pass x l b) (ap_pass x' l' b').
  Proof.
    intros l l' b b' HL HB. unfold ap_pass. cbv zeta. cbn [weighed_nanmean_2d bind same_res].
    assert (RR := residual_re p q x x' HR l l' b b' HL HB). assert (V := re_along0 _ _ _ _ RR (np_nanstd 0) (nanstd_perm 0)).
    assert (VJ := re_along1 _ _ _ _ RR (np_nanstd 0) (nanstd_perm 0)).
    assert (W := weighed_re _ _ _ _ (minus_bias_re b b' HB) eq_refl eq_refl (relisted_mapl _ _ (fun v => ndiv none_ (nadd (nsq v) epsilon)) _ _ _ _ V)).
    unfold est_rel. cbn [es eb ev evj]. split; [exact W|]. split; [apply bias_of_re; exact W|]. split; [exact V|exact VJ].
  Qed.
  Lemma ap_loop_re : forall fuel itr l l' b b', vids l l' -> subs b b' ->
    same_res (fun u u' => est_rel (fst u) (fst u') /\ snd u' = snd u) (ap_loop fuel itr x l b) (ap_loop fuel itr x' l' b').
  Proof.
    induction fuel as [|f IH]; intros itr l l' b b' HL HB; [reflexivity|]. cbn [ap_loop].
    eapply same_bind; [apply ap_pass_re; assumption|]. intros st st' HS. cbv zeta. assert (HS' := HS). destruct HS' as (X & B & V & J).
    assert (NM : sp_norm (vmap2 nsub l' (es st')) = sp_norm (vmap2 nsub l (es st))) by (apply norm_perm, (relisted_perm _ (dE x) p); [exact P|apply relisted_vmap2; assumption]).
    unfold vmap2 in NM. rewrite NM. destruct (sp_norm (map _ (combine l _))) as [d|e]; [|reflexivity]. cbn [bind]. destruct (nltb d epsilon); [cbn; auto|]. destruct (Nat.leb _ _); [cbn; auto|]. apply IH; assumption.
  Qed.
  Let one := one_re p q x x' HR.
  Lemma quality_std_re : forall alt v v' j j', subs v v' -> vids j j' -> vids (quality_std alt x v j) (quality_std alt x' v' j').
  Proof.
    intros alt v v' j j' HV HJ. unfold quality_std. apply relisted_mapl.
    refine (re_along1 p q (map3 _ (one_or_nan x)) _ _ np_nansum nansum_perm).
    apply re_map3; [exact one|]. intros e s r z (He & Hs & Hr). destruct alt; [rewrite (vv _ _ e HJ He)|rewrite (vs _ _ s HV Hs)]; reflexivity.
  Qed.
  Lemma bias_std_re : forall v v', subs v v' -> subs (bias_std x v) (bias_std x' v').
  Proof.
    intros v v' HV. unfold bias_std. apply relisted_mapl.
    refine (re_along0 p q (map3 _ (one_or_nan x)) _ _ np_nansum nansum_perm).
    apply re_map3; [exact one|]. intros e s r z (He & Hs & Hr). rewrite (vs _ _ s HV Hs). reflexivity.
  Qed.
  Lemma incons_std_re : forall l l' b b' v v', vids l l' -> subs b b' -> subs v v' -> subs (inconsistency_std x l b v) (inconsistency_std x' l' b' v').
  Proof.
    intros l l' b b' v v' HL HB HV. unfold inconsistency_std. apply relisted_mapl.
    refine (re_along0 p q (map3 _ (residual x l b)) _ _ np_nansum nansum_perm).
    apply re_map3; [apply residual_re; assumption|]. intros e s r z (He & Hs & Hr). rewrite (vs _ _ s HV Hs). reflexivity.
  Qed.
  Lemma flat_pairs : forall (y : arr3 ef) f, combine (flat3 y) (flat3 (map3 f y)) =
    flat_map (fun e => flat_map (fun s => map (fun r => (at3 y e s r, f e s r (at3 y e s r))) (seq 0 (dR y))) (seq 0 (dS y))) (seq 0 (dE y)).
  Proof.
    intros y f. unfold flat3. cbn [dE dS dR at3 map3].
    assert (G : forall (I : Type) (u v : I -> list ef) (w : I -> list (ef * ef)) l, (forall i, combine (u i) (v i) = w i /\ length (u i) = length (v i)) ->
      combine (flat_map u l) (flat_map v l) = flat_map w l /\ length (flat_map u l) = length (flat_map v l)).
    { intros I u v w l H. induction l as [|i l (IH1 & IH2)]; [split; reflexivity|]. cbn [flat_map]. destruct (H i) as (H1 & H2).
      rewrite ApProofs.combine_app by exact H2. rewrite H1, IH1, !app_length, H2, IH2. split; reflexivity. }
    eapply proj1. apply G. intro e. apply G. intro s. split; [apply ApProofs.combine_map_map|rewrite !map_length; reflexivity].
  Qed.
  Lemma ap_loglik_re : forall l l' b b' v v', vids l l' -> subs b b' -> subs v v' -> ap_loglik x' l' b' v' = ap_loglik x l b v.
  Proof.
    intros l l' b b' v v' HL HB HV. unfold ap_loglik. apply np_sum_perm, Permutation_map, perm_filter. rewrite !flat_pairs.
    assert (HR2 := HR); destruct HR2 as (DE & DS & DR & PP & QQ & AT). rewrite DE, DS, DR.
    set (F := fun e s r => (at3 x e s r, nln (norm_pdf (at3 x e s r) (nadd (vat l e) (vat b s)) (vat v s)))).
    etransitivity; [|exact (flat_map_relist _ (fun e => flat_map (fun s => map (fun r => F e s r) (seq 0 (dR x))) (seq 0 (dS x))) _ p PP)]. apply flat_map_perm_ext. intros e He. apply in_seq in He.
    etransitivity; [|exact (flat_map_relist _ (fun s => map (fun r => F (p e) s r) (seq 0 (dR x))) _ q QQ)]. apply flat_map_perm_ext. intros s Hs. apply in_seq in Hs.
    rewrite (map_ext_in _ (fun r => F (p e) (q s) r)); [reflexivity|]. intros r Hr. apply in_seq in Hr. unfold F.
    rewrite (AT e s r) by (unfold inside; lia). rewrite (vv _ _ e HL), (vs _ _ s HB), (vs _ _ s HV) by lia. reflexivity.
  Qed.
  Lemma zero_mean_re : forall force l l' b b', vids l l' -> subs b b' ->
    vids (fst (zero_mean force l b)) (fst (zero_mean force l' b')) /\ subs (snd (zero_mean force l b)) (snd (zero_mean force l' b')).
  Proof.
    intros force l l' b b' HL HB. unfold zero_mean. destruct force; [|cbn; auto]. cbv zeta. cbn [fst snd]. rewrite (mean_perm _ _ (relisted_perm _ _ _ _ _ Q HB)). split; apply relisted_mapl; assumption.
  Qed.
  Lemma recon_re : forall l l' b b', vids l l' -> subs b b' -> rearranged p q (ap_reconstructions x l b) (ap_reconstructions x' l' b').
  Proof.
    intros l l' b b' HL HB. unfold ap_reconstructions. assert (HR2 := HR); destruct HR2 as (DE & DS & DR & PP & QQ & _). unfold rearranged. cbn [dE dS dR at3]. rewrite DE, DS, DR. repeat (split; [first [reflexivity|assumption]|]).
    intros e s r (He & Hs & Hr). cbn [dE dS dR] in He, Hs. rewrite (vv _ _ e HL He), (vs _ _ s HB Hs). reflexivity.
  Qed.
  Lemma ap_solve_re : forall x0 x0' alt force, dE x0' = dE x0 -> dS x0' = dS x0 -> dR x0' = dR x0 -> Permutation (flat3 x0') (flat3 x0) ->
    same_res (ap_reordered p q (dE x) (dS x)) (ap_solve chi2_ppf alt force x x0) (ap_solve chi2_ppf alt force x' x0').
  Proof.
    intros x0 x0' alt force D1 D2 D3 D4. unfold ap_solve. cbv zeta. rewrite D1, D2, D3.
    assert (S0 := re_along1 _ _ _ _ HR np_nanmean nanmean_perm).
    eapply same_bind; [apply ap_loop_re; [exact S0|apply bias_of_re; exact S0]|].
    intros [e n] [e' n'] ((X & B & V & J) & EN). cbn [fst snd] in *. subst n'.
    assert (ZM := zero_mean_re force _ _ _ _ X B). assert (IS := incons_std_re _ _ _ _ _ _ X B V).
    destruct (zero_mean force (es e) (eb e)) as [l b]. destruct (zero_mean force (es e') (eb e')) as [l' b']. cbn [fst snd] in ZM. destruct ZM as (L & B').
    rewrite (ap_loglik_re _ _ _ _ _ _ L B' V), (cnt_perm _ _ (re_flat _ _ _ _ HR)), (cnt_perm _ _ D4). cbn [same_res].
    assert (CN : subs (map (fun s => np_cnt (col (stack0 x) s)) (seq 0 (n1 (stack0 x)))) (map (fun s => np_cnt (col (stack0 x') s)) (seq 0 (n1 (stack0 x'))))).
    { cbn [n1 stack0]. rewrite (re_dS _ _ _ _ HR). apply relisted_map; [apply Q|]. intros s Hs. apply cnt_perm. apply (re_col _ _ _ _ HR), Hs. }
    assert (CV := relisted_combine _ _ _ _ _ _ _ _ Q CN V).
    assert (QS := quality_std_re alt _ _ _ _ V J). assert (BS := bias_std_re _ _ V).
    split; [exact HR|]. split; [apply recon_re; assumption|].
    split; [intros f [<-|[<-|[<-|[<-|[]]]]]; cbn [ap_quality ap_quality_std ap_quality_lo ap_quality_hi]; first [assumption|apply relisted_mapl; assumption]|].
    split; [|split; [intros f [<-|[<-|[<-|[<-|[]]]]]; reflexivity|reflexivity]].
    intros f [<-|[<-|[<-|[<-|[<-|[<-|[<-|[<-|[<-|[<-|[]]]]]]]]]]];
      cbn [ap_bias ap_bias_std ap_bias_lo ap_bias_hi ap_incons ap_incons_std ap_incons_lo ap_incons_hi ap_scores_mean ap_scores_std].
    - exact B'. - exact BS. - apply relisted_mapl, BS. - apply relisted_mapl, BS.
    - exact V. - exact IS. - apply relisted_mapl, CV. - apply relisted_mapl, CV.
    - exact (re_along0 _ _ _ _ HR np_nanmean nanmean_perm). - exact (re_along0 _ _ _ _ HR (np_nanstd 0) (nanstd_perm 0)).
  Qed.
End Ap.

Lemma pre_any : forall p q (rd rd' : reader ef) a a' k pp, rd_arr rd = Ok a -> rd_arr rd' = Ok a' -> rearranged p q a a' -> same_videos p rd rd' ->
  preprocess rd k = Ok pp -> exists pp' q2, preprocess rd' k = Ok pp' /\ (kw_rej k = false -> q2 = q /\ dS (pp_arr pp) = dS a) /\
    dE (pp_arr pp) = dE a /\ rearranged p q2 (pp_arr pp) (pp_arr pp') /\ pp_orig pp = a /\ pp_orig pp' = a'.
Proof.
  intros p q rd rd' a a' k pp HA HA' HR HV H. destruct (kw_rej k) eqn:RJ.
  - destruct (re_pre p q rd rd' a a' k pp HA HA' HR HV H) as (pp' & E & N & (q2 & K) & O1 & O2 & _). exists pp', q2. split; [exact E|]. split; [discriminate|]. auto.
  - destruct (re_pre_plain p q rd rd' a a' k pp HA HA' HR HV RJ H) as (pp' & E & N1 & N2 & K & O1 & O2). exists pp', q. auto 10.
Qed.

Lemma ap_re : forall chi2 c p q (rd rd' : reader ef) a a' k f m o', rd_arr rd = Ok a -> rd_arr rd' = Ok a' -> rearranged p q a a' -> same_videos p rd rd' ->
  ap_run_modeling chi2 c rd k f = Ok m -> attach_observers rd' = Ok o' ->
  exists m' q2, ap_run_modeling chi2 c rd' k f = Ok m' /\ (kw_rej k = false -> q2 = q /\ dS (ap_raw m) = dS a) /\ ap_reordered p q2 (dE a) (dS (ap_raw m)) m m'.
Proof.
  intros chi2 c p q rd rd' a a' k f m o' HA HA' HR HV H HO. unfold ap_run_modeling in *.
  destruct (preprocess rd k) as [pp|] eqn:EP; [|discriminate]. cbn [bind] in H.
  destruct (pre_any p q rd rd' a a' k pp HA HA' HR HV EP) as (pp' & q2 & -> & J & N & RP & O1 & O2). cbn [bind].
  set (force := match f with Some b => b | None => true end) in *.
  assert (S := ap_solve_re chi2 p q2 (pp_arr pp) (pp_arr pp') RP (pp_orig pp) (pp_orig pp') (is_alt c) force).
  rewrite O1, O2 in *. specialize (S (re_dE _ _ _ _ HR) (re_dS _ _ _ _ HR) (re_dR _ _ _ _ HR) (re_flat _ _ _ _ HR)).
  assert (RAW : forall r, ap_solve chi2 (is_alt c) force (pp_arr pp) a = Ok r -> ap_raw r = pp_arr pp).
  { intros r E. unfold ap_solve in E. cbv zeta in E. destruct (ap_loop _ _ _ _ _) as [[e n]|]; [|discriminate]. cbn [bind] in E.
    destruct (zero_mean _ _ _). apply ok_same in E. subst r. reflexivity. }
  destruct (ap_solve chi2 (is_alt c) force (pp_arr pp) a) as [r|] eqn:ER; [|discriminate]. cbn [bind] in H. specialize (RAW r eq_refl).
  destruct (ap_solve chi2 (is_alt c) force (pp_arr pp') a') as [r'|]; [|contradiction]. cbn [bind]. rewrite HO. destruct (attach_observers rd) as [ob|]; [|discriminate]. cbn [bind] in *.
  apply ok_same in H. subst m. cbn [same_res] in S. destruct S as (R1 & R2 & R3 & R4 & R5 & R6). rewrite N in R3. assert (PE := re_pp _ _ _ _ HR).
  eexists. exists q2. split; [reflexivity|]. cbn [ap_raw]. rewrite RAW in *. split; [exact J|].
  split; [cbn [ap_raw]; rewrite ?RAW; exact R1|]. split; [exact R2|].
  split; [intros g [<-|[<-|[<-|[<-|[]]]]]; cbn [ap_quality ap_quality_std ap_quality_lo ap_quality_hi]; [apply re_post; [exact PE|]| | |]; apply R3; cbn; tauto|].
  split; [intros g [<-|[<-|[<-|[<-|[<-|[<-|[<-|[<-|[<-|[<-|[]]]]]]]]]]]; cbn [ap_bias ap_bias_std ap_bias_lo ap_bias_hi ap_incons ap_incons_std ap_incons_lo ap_incons_hi ap_scores_mean ap_scores_std]; apply R4; cbn; tauto|].
  split; [intros g [<-|[<-|[<-|[<-|[]]]]]; cbn [ap_dof ap_ll ap_aic ap_bic]; apply R5; cbn; tauto|exact R6].
Qed.

(** ** LIVE DMOS *)
Lemma live_re : forall p q (rd rd' : reader ef) a a' k m o' n, rd_arr rd = Ok a -> rd_arr rd' = Ok a' -> rearranged p q a a' -> same_videos p rd rd' ->
  live_run_modeling rd k = Ok m -> attach_observers rd' = Ok o' -> exists m', live_run_modeling rd' k = Ok m' /\ other_reordered p q (dE a) n m m'.
Proof.
  intros p q rd rd' a a' k m o' n HA HA' HR HV H HO. unfold live_run_modeling, live_dmos, finish in *.
  destruct (guard (kw_dscore k)) as [[]|]; [|discriminate]. cbn [bind] in *. destruct (guard (kw_zscore k)) as [[]|]; [|discriminate]. cbn [bind] in *.
  destruct (preprocess rd _) as [pp|] eqn:EP; [|discriminate]. cbn [bind] in H.
  destruct (pre_any p q rd rd' a a' _ pp HA HA' HR HV EP) as (pp' & q2 & -> & _ & N & RP & _). cbn [bind]. rewrite HO. destruct (attach_observers rd) as [ob|]; [|discriminate]. cbn [bind] in *.
  apply ok_same in H. subst m. eexists. split; [reflexivity|]. unfold other_reordered. cbn [or_quality or_bias or_incons same_bias]. split; [|split; exact I].
  apply re_post; [exact (re_pp _ _ _ _ HR)|]. rewrite <- N.
  refine (re_along1 p q2 (map3 _ (pp_arr pp)) _ _ np_nanmean nanmean_perm). apply re_map3; [exact RP|]. reflexivity.
Qed.

(** ** The early maximum likelihood model *)
Section Legacy.
  Variables (p q : nat -> nat) (x x' : arr3 ef).
  Hypothesis HR : rearranged p q x x'.
  Notation vids := (relisted (dE x) p).
  Notation subs := (relisted (dS x) q).
  Let P := re_pp _ _ _ _ HR.
  Let Q := re_pq _ _ _ _ HR.
  Let vv : forall l l' e, vids l l' -> e < dE x -> vat l' e = vat l (p e).
  Proof. intros l l' e H He. apply (relisted_vat _ _ _ _ e H He). apply P, He. Qed.
  Let vs : forall l l' s, subs l l' -> s < dS x -> vat l' s = vat l (q s).
  Proof. intros l l' s H Hs. apply (relisted_vat _ _ _ _ s H Hs). apply Q, Hs. Qed.
  Let one := one_re p q x x' HR.
  Definition leg_rel (st st' : list ef * list ef * list ef * list ef) : Prop :=
    let '(l, b, v, w) := st in let '(l', b', v', w') := st' in vids l l' /\ subs b b' /\ subs v v' /\ subs w w'.
  Let sE : forall y y' f g, rearranged p q y y' -> dE y = dE x -> dS y = dS x -> (forall e s r z, e < dE x -> s < dS x -> g e s r z = f (p e) (q s) r z) ->
    subs (sum_e (map3 f y)) (sum_e (map3 g y')).
  Proof. intros y y' f g H DE DS E. apply (sum_e_re p q x); [apply (map3_re p q x); assumption|exact DS]. Qed.
  Let sS : forall y y' f g, rearranged p q y y' -> dE y = dE x -> dS y = dS x -> (forall e s r z, e < dE x -> s < dS x -> g e s r z = f (p e) (q s) r z) ->
    vids (sum_s (map3 f y)) (sum_s (map3 g y')).
  Proof. intros y y' f g H DE DS E. apply (sum_s_re p q x); [apply (map3_re p q x); assumption|exact DE]. Qed.
  Lemma leg_start_re : leg_rel (leg_start x) (leg_start x').
  Proof.
    unfold leg_start, leg_rel. cbv zeta. rewrite (re_dS _ _ _ _ HR). assert (S0 := re_along1 _ _ _ _ HR np_nanmean nanmean_perm).
    assert (V := re_along0 _ _ _ _ (minus_quality_re p q x x' HR _ _ S0) (np_nanstd 0) (nanstd_perm 0)).
    split; [exact S0|]. split; [apply relisted_const; exact Q|]. split; [exact V|apply relisted_mapl; exact V].
  Qed.
  Lemma leg_pass_re : forall ul st st', leg_rel st st' -> leg_rel (leg_pass ul x st) (leg_pass ul x' st').
  Proof.
    intros ul [[[l b] v] w] [[[l' b'] v'] w'] (HL & HB & HV & HW). unfold leg_pass.
    assert (B : subs (leg_bias x l b) (leg_bias x' l' b')).
    { unfold leg_bias, refresh. apply relisted_vmap2; [exact Q|exact HB|]. apply relisted_vmap2; [exact Q| |].
      - apply (sum_e_re p q x); [apply minus_quality_re; assumption|reflexivity].
      - apply (sum_e_re p q x); [exact one|reflexivity]. }
    set (c := leg_bias x l b) in *. set (c' := leg_bias x' l' b') in *. assert (RR := residual_re p q x x' HR l l' c c' HL B).
    assert (W : subs (if ul then leg_log x l c v w else w) (if ul then leg_log x' l' c' v' w' else w')).
    { destruct ul; [|exact HW]. unfold leg_log. cbv zeta. unfold refresh. apply relisted_vmap2; [exact Q|exact HW|]. apply relisted_vmap2; [exact Q|exact HW|].
      apply relisted_vmap2; [exact Q| |]; (apply sE; [exact RR|reflexivity|reflexivity|]); intros e s r z He Hs; rewrite (vs _ _ s HV Hs); reflexivity. }
    set (lw := if ul then leg_log x l c v w else w) in *. set (lw' := if ul then leg_log x' l' c' v' w' else w') in *.
    assert (V : subs (if ul then map nexp lw else leg_incons x l c v) (if ul then map nexp lw' else leg_incons x' l' c' v')).
    { destruct ul; [apply relisted_mapl; exact W|]. unfold leg_incons. cbv zeta. unfold refresh. apply relisted_vmap2; [exact Q|exact HV|].
      apply relisted_vmap2; [exact Q| |]; (apply sE; [exact RR|reflexivity|reflexivity|]); intros e s r z He Hs; rewrite (vs _ _ s HV Hs); reflexivity. }
    set (nv := if ul then map nexp lw else leg_incons x l c v) in *. set (nv' := if ul then map nexp lw' else leg_incons x' l' c' v') in *.
    unfold leg_rel. split; [|auto]. unfold leg_quality. cbv zeta. unfold refresh. apply relisted_vmap2; [exact P|exact HL|]. apply relisted_vmap2; [exact P| |].
    - apply sS; [exact HR|reflexivity|reflexivity|]. intros e s r z He Hs. rewrite (vs _ _ s V Hs), (vs _ _ s B Hs). reflexivity.
    - apply sS; [exact one|reflexivity|reflexivity|]. intros e s r z He Hs. rewrite (vs _ _ s V Hs). reflexivity.
  Qed.
  Lemma leg_loop_re : forall fuel itr ul st st', leg_rel st st' ->
    same_res (fun u u' => leg_rel (fst u) (fst u') /\ snd u' = snd u) (leg_loop fuel itr ul x st) (leg_loop fuel itr ul x' st').
  Proof.
    induction fuel as [|f IH]; intros itr ul st st' HS; [reflexivity|]. cbn [leg_loop]. assert (HP := leg_pass_re ul st st' HS). cbv zeta.
    destruct (leg_pass ul x st) as [[[l1 b1] v1] w1]. destruct (leg_pass ul x' st') as [[[l1' b1'] v1'] w1'].
    destruct st as [[[l b] v] w]. destruct st' as [[[l' b'] v'] w']. assert (HL := proj1 HS). assert (HL1 := proj1 HP).
    assert (NM : sp_norm (vmap2 nsub l' l1') = sp_norm (vmap2 nsub l l1)) by (apply norm_perm, (relisted_perm _ (dE x) p); [exact P|apply relisted_vmap2; assumption]).
    rewrite NM. destruct (sp_norm (vmap2 nsub l l1)) as [d|e]; [|reflexivity]. cbn [bind]. destruct (nltb d epsilon); [split; [exact HP|reflexivity]|]. destruct (Nat.leb _ _); [split; [exact HP|reflexivity]|]. apply IH; assumption.
  Qed.
  Lemma leg_center_re : forall force l l' b b', vids l l' -> subs b b' ->
    vids (fst (leg_center force l b)) (fst (leg_center force l' b')) /\ subs (snd (leg_center force l b)) (snd (leg_center force l' b')).
  Proof.
    intros force l l' b b' HL HB. unfold leg_center. destruct force; [|cbn; auto]. cbv zeta. cbn [fst snd]. rewrite (nanmean_perm _ _ (relisted_perm _ _ _ _ _ Q HB)). split; apply relisted_mapl; assumption.
  Qed.
End Legacy.
Lemma leg_re : forall p q (rd rd' : reader ef) a a' k o m o', rd_arr rd = Ok a -> rd_arr rd' = Ok a' -> rearranged p q a a' -> same_videos p rd rd' ->
  leg_run_modeling rd k o = Ok m -> attach_observers rd' = Ok o' -> exists m', leg_run_modeling rd' k o = Ok m' /\ other_reordered p q (dE a) (dS a) m m'.
Proof.
  intros p q rd rd' a a' k o m o' HA HA' HR HV H HO. unfold leg_run_modeling, finish in *.
  destruct (assert_ (negb (kw_rej k))) as [[]|] eqn:NR; [|discriminate]. cbn [bind] in *.
  assert (RJ : kw_rej k = false) by (unfold assert_ in NR; destruct (kw_rej k); [discriminate|reflexivity]).
  destruct (preprocess rd k) as [pp|] eqn:EP; [|discriminate]. cbn [bind] in H.
  destruct (re_pre_plain p q rd rd' a a' k pp HA HA' HR HV RJ EP) as (pp' & -> & N1 & N2 & RP & O1 & O2). cbn [bind]. cbv zeta in *. rewrite (re_dR _ _ _ _ RP).
  destruct (assert_ (Nat.eqb (dR (pp_arr pp)) 1)) as [[]|]; [|discriminate]. cbn [bind] in *.
  assert (L := leg_loop_re p q _ _ RP leg_max_itr 0 (match lo_log o with Some l => l | None => false end) _ _ (leg_start_re p q _ _ RP)).
  destruct (leg_loop _ _ _ (pp_arr pp) _) as [[[[[l b] v] w] n]|]; [|discriminate]. destruct (leg_loop _ _ _ (pp_arr pp') _) as [[[[[l' b'] v'] w'] n']|]; [|contradiction]. cbn [bind same_res fst snd] in *.
  destruct L as ((HL & HB & HVV & _) & _). set (force := match lo_force o with Some f => f | None => true end) in *.
  assert (C := leg_center_re p q _ _ RP force _ _ _ _ HL HB). destruct (leg_center force l b) as [l2 b2]. destruct (leg_center force l' b') as [l2' b2']. cbn [fst snd] in C. destruct C as (C1 & C2).
  rewrite HO. destruct (attach_observers rd) as [ob|]; [|discriminate]. cbn [bind] in *. apply ok_same in H. subst m. eexists. split; [reflexivity|].
  unfold other_reordered. cbn [or_quality or_bias or_incons same_bias]. rewrite <- N1, <- N2. split; [|auto]. apply re_post; [exact (re_pp _ _ _ _ RP)|exact C1].
Qed.

(** ** Scores per subject *)
Lemma per_post_re : forall p q x x' k, rearranged p q x x' -> rearranged p q (per_postprocess k x) (per_postprocess k x').
Proof.
  intros p q x x' k H. unfold per_postprocess. cbv zeta. rewrite (mean_perm _ _ (re_flat _ _ _ _ H)), (std_perm _ _ (re_flat _ _ _ _ H)).
  set (y := if kw_normalize_final k then _ else x). set (y' := if kw_normalize_final k then _ else x').
  assert (Y : rearranged p q y y') by (unfold y, y'; destruct (kw_normalize_final k); [apply re_map3; [exact H|reflexivity]|exact H]).
  destruct (kw_transform_final k) as [[[p2 p1] p0]|]; [|exact Y]. apply re_map3; [exact Y|reflexivity].
Qed.
Lemma per_re : forall p q (rd rd' : reader ef) a a' k m o', rd_arr rd = Ok a -> rd_arr rd' = Ok a' -> rearranged p q a a' -> same_videos p rd rd' ->
  per_run_modeling rd k = Ok m -> attach_observers rd' = Ok o' ->
  exists m' q2, per_run_modeling rd' k = Ok m' /\ (kw_rej k = false -> q2 = q /\ dS (fst m) = dS a) /\ rearranged p q2 (fst m) (fst m').
Proof.
  intros p q rd rd' a a' k m o' HA HA' HR HV H HO. unfold per_run_modeling in *.
  destruct (preprocess rd k) as [pp|] eqn:EP; [|discriminate]. cbn [bind] in H.
  destruct (pre_any p q rd rd' a a' k pp HA HA' HR HV EP) as (pp' & q2 & -> & J & N & RP & O1 & O2). cbn [bind]. rewrite HO. destruct (attach_observers rd) as [ob|]; [|discriminate]. cbn [bind] in *.
  apply ok_same in H. subst m. eexists. exists q2. split; [reflexivity|]. cbn [fst].
  split; [|apply per_post_re; exact RP]. intro K. destruct (J K) as (J1 & J2). split; [exact J1|]. rewrite <- J2.
  unfold per_postprocess. cbv zeta. destruct (kw_transform_final k) as [[[? ?] ?]|], (kw_normalize_final k); reflexivity.
Qed.

(** ** Datasets *)
Lemma lists_premises : forall p q n ds ds' (rd rd' : reader ef) a a', raw_reader ds = Ok rd -> raw_reader ds' = Ok rd' ->
  rd_arr rd = Ok a -> rd_arr rd' = Ok a' -> permutes n q -> same_dataset p (same_list_votes n q) ds ds' ->
  rearranged p q a a' /\ same_videos p rd rd' /\ (exists o', attach_observers rd' = Ok o') /\ dE a = length (ds_dis ds) /\ dS a = n.
Proof.
  intros p q n ds ds' rd rd' a a' R R' HA HA' Q HS. destruct (list_rearranged ds ds' rd rd' a a' n p q R R' HA HA' Q HS) as (N & HR).
  split; [exact HR|]. split; [exact (ds_same_videos _ _ _ _ _ _ R R' HS)|]. split; [exact (attach_total _ _ R')|]. split; [exact (array_videos _ _ _ R HA)|exact N].
Qed.
Lemma dicts_premises : forall p ds ds' (rd rd' : reader ef) a a', raw_reader ds = Ok rd -> raw_reader ds' = Ok rd' ->
  rd_arr rd = Ok a -> rd_arr rd' = Ok a' -> same_dataset p same_dict_votes ds ds' ->
  rearranged p (fun s => s) a a' /\ same_videos p rd rd' /\ (exists o', attach_observers rd' = Ok o') /\ dE a = length (ds_dis ds).
Proof.
  intros p ds ds' rd rd' a a' R R' HA HA' HS. split; [exact (dict_rearranged ds ds' rd rd' a a' p R R' HA HA' HS)|].
  split; [exact (ds_same_videos _ _ _ _ _ _ R R' HS)|]. split; [exact (attach_total _ _ R')|exact (array_videos _ _ _ R HA)].
Qed.

(** ** Least squares *)
Lemma mos_raw_re : forall p q (rd rd' : reader ef) a a' k m o', rd_arr rd = Ok a -> rd_arr rd' = Ok a' -> rearranged p q a a' -> same_videos p rd rd' -> kw_rej k = false ->
  run_modeling MOS rd k = Ok m -> attach_observers rd' = Ok o' -> exists m', run_modeling MOS rd' k = Ok m' /\ rearranged p q (mr_raw m) (mr_raw m') /\
    relisted (dE (mr_raw m)) p (mr_quality m) (mr_quality m') /\ dE (mr_raw m) = dE a /\ dS (mr_raw m) = dS a.
Proof.
  intros p q rd rd' a a' k m o' HA HA' HR HV RJ H HO. destruct (re_run MOS p q rd rd' a a' k m o' HA HA' HR HV H HO) as (m' & H' & MQ & _).
  exists m'. split; [exact H'|]. assert (MQ' := MQ mr_quality (or_introl eq_refl)). clear MQ.
  unfold run_modeling in *. cbn [run_kwargs bind] in *. unfold mos_run in *. cbn [is_biasremv] in *.
  destruct (preprocess rd k) as [pp|] eqn:EP; [|discriminate]. cbn [bind] in H.
  destruct (re_pre_plain p q rd rd' a a' k pp HA HA' HR HV RJ EP) as (pp' & EP' & N1 & N2 & RP & O1 & O2). rewrite EP' in H'. cbn [bind] in H'.
  rewrite HO in H'. destruct (attach_observers rd) as [ob|]; [|discriminate]. cbn [bind] in *.
  assert (R : mr_raw m = pp_arr pp) by (apply ok_same in H; subst m; reflexivity). assert (R' : mr_raw m' = pp_arr pp') by (apply ok_same in H'; subst m'; reflexivity).
  rewrite R, R', N1, N2. auto.
Qed.
Lemma Rsum_relist : forall (f : nat -> R) n p, permutes n p -> Rsum (map (fun i => f (p i)) (seq 0 n)) = Rsum (map f (seq 0 n)).
Proof. intros f n p H. apply Rsum_perm, map_relist, H. Qed.
Section Means.
  Variables (p q : nat -> nat) (x x' : arr3 ef).
  Hypothesis HR : rearranged p q x x'.
  Lemma ssum_re : forall i (g : R -> R), i < dS x -> ssum x' i (fun _ => g) = ssum x (q i) (fun _ => g).
  Proof.
    intros i g Hi. destruct HR as (DE & DS & DR & P & Q & E). unfold ssum. rewrite DE, DR.
    rewrite <- (Rsum_relist (fun e => Rsum (map (fun r => vote_term g (at3 x e (q i) r)) (seq 0 (dR x)))) _ p P). f_equal. apply map_ext_in. intros e He. apply in_seq in He.
    f_equal. apply map_ext_in. intros r Hr. apply in_seq in Hr. rewrite E by (unfold inside; lia). reflexivity.
  Qed.
  Lemma vsum_re : forall e (g : R -> R), e < dE x -> SpecAp.vsum x' e (fun _ => g) = SpecAp.vsum x (p e) (fun _ => g).
  Proof.
    intros e g He. destruct HR as (DE & DS & DR & P & Q & E). unfold SpecAp.vsum. rewrite DS, DR.
    rewrite <- (Rsum_relist (fun i => Rsum (map (fun r => vote_term g (at3 x (p e) i r)) (seq 0 (dR x)))) _ q Q). f_equal. apply map_ext_in. intros i Hi. apply in_seq in Hi.
    f_equal. apply map_ext_in. intros r Hr. apply in_seq in Hr. rewrite E by (unfold inside; lia). reflexivity.
  Qed.
  Lemma own_mean_re : forall i, i < dS x -> own_mean x' i = own_mean x (q i).
  Proof. intros i Hi. unfold own_mean, scount. rewrite !ssum_re by exact Hi. reflexivity. Qed.
  Lemma grand_mean_re : grand_mean x' = grand_mean x.
  Proof.
    assert (P := re_pp _ _ _ _ HR). unfold grand_mean, sum_to. rewrite (re_dE _ _ _ _ HR). f_equal. rewrite <- (Rsum_relist (mean_vote x) _ p P). f_equal. apply map_ext_in. intros e He. apply in_seq in He.
    unfold mean_vote, vcount. rewrite !vsum_re by lia. reflexivity.
  Qed.
  Lemma complete_re : complete_votes x -> complete_votes x'.
  Proof.
    intros C e s r (He & Hs & Hr). destruct HR as (DE & DS & DR & P & Q & E). rewrite E by (unfold inside; lia). apply C. unfold inside.
    assert (p e < dE x) by (apply P; lia). assert (q s < dS x) by (apply Q; lia). lia.
  Qed.
End Means.
Lemma ls_re : forall pinv p q (rd rd' : reader ef) a a' k m0 o', rd_arr rd = Ok a -> rd_arr rd' = Ok a' -> rearranged p q a a' -> same_videos p rd rd' -> kw_rej k = false ->
  run_modeling MOS rd k = Ok m0 -> attach_observers rd' = Ok o' ->
  complete_votes (mr_raw m0) -> dR (mr_raw m0) = 1 -> 0 < dE a -> 0 < dS a -> inverts pinv (dE a) (dS a) ->
  exists m m', ls_run_modeling pinv rd k = Ok m /\ ls_run_modeling pinv rd' k = Ok m' /\ other_reordered p q (dE a) (dS a) m m'.
Proof.
  intros pinv p q rd rd' a a' k m0 o' HA HA' HR HV RJ H HO C D1 DE DS I.
  destruct (mos_raw_re p q rd rd' a a' k m0 o' HA HA' HR HV RJ H HO) as (m0' & H' & RR & MQ & N1 & N2). rewrite <- N1 in DE, I. rewrite <- N2 in DS, I. rewrite <- N1, <- N2.
  destruct (c80_complete pinv rd k m0 RJ H C D1 DE DS I) as (m & L & LQ & LB & LI & _).
  destruct (c80_complete pinv rd' k m0' RJ H' (complete_re _ _ _ _ RR C) ltac:(rewrite (re_dR _ _ _ _ RR); exact D1) ltac:(rewrite (re_dE _ _ _ _ RR); exact DE) ltac:(rewrite (re_dS _ _ _ _ RR); exact DS)
    ltac:(rewrite (re_dE _ _ _ _ RR), (re_dS _ _ _ _ RR); exact I)) as (m' & L' & LQ' & LB' & LI' & _).
  exists m, m'. split; [exact L|]. split; [exact L'|]. unfold other_reordered. rewrite LQ, LQ', LB, LB', LI, LI'. split; [exact MQ|]. split; [|exact Logic.I].
  cbn [same_bias]. rewrite (re_dS _ _ _ _ RR), (grand_mean_re _ _ _ _ RR). apply relisted_map; [exact (proj1 (re_pq _ _ _ _ RR))|]. intros i Hi. rewrite (own_mean_re _ _ _ _ RR i Hi). reflexivity.
Qed.
