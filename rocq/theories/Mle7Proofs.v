(** Maximum likelihood models: the zero-mean shift of the biases (C39). *)
From Coq Require Import String.
From Coq Require Import List ZArith Bool Arith Reals Lra Lia.
From Verif Require Import PyBase Num ExtReal NumPy Dataset Preproc Mos AP Mle SpecMos SpecAp SpecMle
  BaseProofs ExtRealProofs ArrayProofs StepsProofs MosProofs ApProofs Ap2Proofs Ap6Proofs MleProofs Mle2Proofs Mle3Proofs Mle4Proofs Mle5Proofs Mle6Proofs.
Import ListNotations.
Local Open Scope list_scope.
Local Open Scope R_scope.

Lemma len_vmap2 : forall (f : ef -> ef -> ef) u v, length (vmap2 f u v) = Nat.min (length u) (length v).
Proof. intros. unfold vmap2. rewrite map_length, combine_length. reflexivity. Qed.
Lemma len_sum_e : forall x : arr3 ef, length (sum_e x) = dS x.
Proof. intro x. unfold sum_e, along0. rewrite map_length, seq_length. reflexivity. Qed.
Lemma len_sum_s : forall x : arr3 ef, length (sum_s x) = dE x.
Proof. intro x. unfold sum_s, along1. rewrite map_length, seq_length. reflexivity. Qed.
Lemma len_ll_e : forall pdf (x : arr3 ef) q b v a cids l, ll_e pdf x q b v a cids = Ok l -> length l = dS x.
Proof.
  intros pdf x q b v a cids l H. unfold ll_e, logpdf in H. destruct pdf; cbn [bind] in H; try discriminate.
  - apply Ok_inj in H. subst l. rewrite len_sum_e. reflexivity.
  - destruct (Nat.eqb (dR x) 1); discriminate.
  - apply Ok_inj in H. subst l. rewrite len_sum_e. reflexivity.
Qed.
Lemma len_ll_s : forall pdf (x : arr3 ef) q b v a cids l, ll_s pdf x q b v a cids = Ok l -> length l = dE x.
Proof.
  intros pdf x q b v a cids l H. unfold ll_s, logpdf in H. destruct pdf; cbn [bind] in H; try discriminate.
  - apply Ok_inj in H. subst l. rewrite len_sum_s. reflexivity.
  - destruct (Nat.eqb (dR x) 1); discriminate.
  - apply Ok_inj in H. subst l. rewrite len_sum_s. reflexivity.
Qed.
Lemma len_numerical : forall (f : list ef -> res (list ef)) p n d, (forall p l, f p = Ok l -> length l = n) -> numerical f p = Ok d ->
  length (fst d) = n /\ length (snd d) = n.
Proof.
  intros f p n d Hf H. unfold numerical in H.
  destruct (f (vshift _ p)) as [l1|] eqn:E1; [|discriminate]. cbn [bind] in H.
  destruct (f (vshift_down _ p)) as [l2|] eqn:E2; [|discriminate]. cbn [bind] in H.
  destruct (f (vshift eps_num p)) as [l3|] eqn:E3; [|discriminate]. cbn [bind] in H.
  destruct (f p) as [l4|] eqn:E4; [|discriminate]. cbn [bind] in H.
  destruct (f (vshift_down eps_num p)) as [l5|] eqn:E5; [|discriminate]. cbn [bind] in H. apply Ok_inj in H. subst d. cbn [fst snd].
  apply Hf in E1, E2, E3, E4, E5. rewrite !map_length, !len_vmap2. lia.
Qed.
Lemma len_refresh : forall u v : list ef, length (refresh u v) = Nat.min (length u) (length v).
Proof. intros. apply len_vmap2. Qed.

Section Len.
  Variables (mode : mlemode) (g : gradmethod) (pdf : pdfkind) (x : arr3 ef) (cids : list nat) (C : nat).
  Lemma pass_len_b : forall q b v a st, mle_pass mode g pdf x cids C q b v a = Ok st -> length b = dS x -> length (sb st) = dS x.
  Proof.
    intros q b v a st H Hb. unfold mle_pass in H.
    destruct (pick g (b_simplified x cids q b v a) _ _) as [pb|] eqn:E; [|discriminate]. cbn [bind] in H. cbv zeta in H.
    destruct (pick g (v_simplified _ _ _ _ _ _) _ _) as [pv|]; [|discriminate]. cbn [bind] in H.
    destruct (pick g (a_simplified _ _ _ _ _ _ _) _ _) as [pa|]; [|discriminate]. cbn [bind] in H.
    destruct (pick g (x_simplified _ _ _ _ _ _) _ _) as [px|]; [|discriminate]. cbn [bind] in H. apply Ok_inj in H. subst st. cbn [sb].
    assert (L : length (fst pb) = dS x).
    { destruct g; cbn [pick] in E; try discriminate.
      - apply Ok_inj in E. subst pb. unfold b_simplified. cbn [fst]. rewrite len_vmap2, !len_sum_e. cbn. lia.
      - apply Ok_inj in E. subst pb. unfold b_original. cbn [fst]. rewrite !len_vmap2, !len_sum_e. cbn. lia.
      - unfold b_numerical in E. destruct (numerical _ b) as [d|] eqn:En; [|discriminate]. cbn [bind] in E. apply Ok_inj in E. subst pb. unfold newton. cbn [fst].
        apply (len_numerical _ _ (dS x)) in En as [L1 L2]; [|intros; eapply len_ll_e; eassumption]. rewrite !len_vmap2. lia. }
    destruct mode; try (rewrite len_refresh; lia). unfold zeros. apply repeat_length.
  Qed.
  Lemma passes_len_b : forall j s q b v a, (let '(_, b0, _, _) := s in length b0 = dS x) -> passes mode g pdf x cids C j s = Ok (q, b, v, a) -> length b = dS x.
  Proof.
    induction j as [|j IH]; intros s q b v a Hs P.
    - cbn in P. apply Ok_inj in P. subst s. exact Hs.
    - rewrite passes_S in P. destruct (passes mode g pdf x cids C j s) as [[[[q1 b1] v1] a1]|] eqn:E; [|discriminate]. cbn [bind one] in P.
      destruct (mle_pass _ _ _ _ _ _ _ _ _ _) as [st|] eqn:E2; [|discriminate]. cbn [bind] in P. apply Ok_inj in P. unfold vecs in P. injection P as <- <- <- <-.
      eapply pass_len_b; [exact E2|]. eapply IH; [exact Hs|exact E].
  Qed.
End Len.

(** Quality scores of a finished pass are finite. *)
Lemma sub_fin : forall u w : ef, isfin (ef_sub u w) -> isfin u /\ isfin w.
Proof. intros [] []; cbn; auto. Qed.
Lemma moved_finite : forall q b v a (st : mlest ef) d, (exists y, sx st = refresh q y) -> moved (q, b, v, a) (vecs st) = Ok d -> Forall isfin (sx st).
Proof.
  intros q b v a st d (y & Hy) H. unfold moved, vecs in H. unfold sp_norm in H. destruct (existsb _ _) eqn:E; [discriminate|]. clear H.
  assert (L : (length (sx st) <= length q)%nat) by (rewrite Hy, len_refresh; lia). clear Hy.
  revert q L E. induction (sx st) as [|z l IH]; intros [|w q] L E; try constructor; try (cbn in L; lia).
  - cbn in E. apply orb_false_iff in E as [E _]. assert (F : isfin (ef_sub w z)). { change (nisnan (ef_sub w z) || nisinf (ef_sub w z) = false)%bool in E. destruct (ef_sub w z); try discriminate; exact I. }
    apply sub_fin in F. tauto.
  - cbn in E. apply orb_false_iff in E as [_ E]. apply (IH q); [cbn in L; lia|exact E].
Qed.

Lemma fin_list : forall l : list ef, Forall isfin l -> exists r, l = map Fin r.
Proof.
  induction l as [|z l IH]; intro H; [exists []; reflexivity|]. inversion H as [|? ? A B]. subst. destruct (IH B) as (r & ->).
  destruct z as [w| | |]; try contradiction. exists (w :: r). reflexivity.
Qed.
Lemma vat_affine : forall k t l i, vat (map (affine k t) l) i = affine k t (vat l i).
Proof. intros. unfold vat. rewrite <- (map_nth (affine k t)). reflexivity. Qed.
Lemma vat_fin : forall l i, Forall isfin l -> finnan (vat l i).
Proof.
  intros l i H. unfold vat. destruct (nth_in_or_default i l nnan) as [Hin| ->]; [|exact I]. rewrite Forall_forall in H. specialize (H _ Hin).
  destruct (nth i l nnan); try contradiction; exact I.
Qed.

(** Shifting q by t and b by -t. *)
Lemma shift_sum : forall t u w, finnan u -> finnan w -> ef_add (affine 1 t u) (affine 1 (- t) w) = ef_add u w.
Proof. intros t [] [] Hu Hw; try contradiction; cbn; try reflexivity. f_equal. ring. Qed.
Lemma shift_diff : forall t y u w, finnan u -> finnan w -> ef_sub (ef_sub y (affine 1 (- t) w)) (affine 1 t u) = ef_sub (ef_sub y w) u.
Proof. intros t [] [] [] Hu Hw; try contradiction; cbn; try reflexivity. f_equal. ring. Qed.
Lemma logpdf_shift : forall pdf (x : arr3 ef) t q b v a cids, Forall isfin q -> Forall isfin b ->
  match logpdf pdf x (map (affine 1 t) q) (map (affine 1 (- t)) b) v a cids, logpdf pdf x q b v a cids with
  | Ok l, Ok l' => dE l = dE l' /\ dS l = dS l' /\ dR l = dR l' /\ forall e i r, at3 l e i r = at3 l' e i r
  | Err e, Err e' => e = e'
  | _, _ => False
  end.
Proof.
  intros pdf x t q b v a cids Hq Hb. unfold logpdf. cbv zeta. destruct pdf; try reflexivity.
  - repeat split. intros e i r. cbn [map3 at3]. rewrite !vat_affine. efc. rewrite shift_sum by (apply vat_fin; assumption). reflexivity.
  - destruct (Nat.eqb (dR x) 1); reflexivity.
  - repeat split. intros e i r. cbn [map3 at3]. rewrite !vat_affine. unfold convolution_of_two_uniforms. cbv zeta. efc.
    rewrite shift_diff by (apply vat_fin; assumption). reflexivity.
Qed.
Lemma sum_s_ext : forall l l' : arr3 ef, dE l = dE l' -> dS l = dS l' -> dR l = dR l' -> (forall e i r, at3 l e i r = at3 l' e i r) -> sum_s l = sum_s l'.
Proof.
  intros l l' E1 E2 E3 H. unfold sum_s, along1. cbn [stack1 n0]. rewrite E1. apply map_ext. intro e. f_equal. unfold row. cbn [stack1 n1 at2].
  rewrite E2, E3. apply map_ext. intro k. apply H.
Qed.
Lemma ll_s_shift : forall pdf (x : arr3 ef) t q b v a cids, Forall isfin q -> Forall isfin b ->
  ll_s pdf x (map (affine 1 t) q) (map (affine 1 (- t)) b) v a cids = ll_s pdf x q b v a cids.
Proof.
  intros pdf x t q b v a cids Hq Hb. unfold ll_s. assert (H := logpdf_shift pdf x t q b v a cids Hq Hb).
  destruct (logpdf pdf x (map (affine 1 t) q) (map (affine 1 (- t)) b) v a cids), (logpdf pdf x q b v a cids); try contradiction; cbn [bind].
  - destruct H as (H1 & H2 & H3 & H4). f_equal. apply sum_s_ext; assumption.
  - now subst.
Qed.

Lemma zero_mean_fin : forall (q : list ef) bs, Forall isfin q -> bs <> [] ->
  zero_mean true q (map Fin bs) = (map (affine 1 (Rmean bs)) q, map (affine 1 (- Rmean bs)) (map Fin bs)) /\
  Rsum (map (fun b => b - Rmean bs) bs) = 0.
Proof.
  intros q bs Hq Hb. split; [|apply Rsum_dev; exact Hb]. unfold zero_mean. rewrite np_mean_Fin, nanmeanR_ne by exact Hb. f_equal.
  - apply map_ext_in. intros z Hz. rewrite Forall_forall in Hq. specialize (Hq z Hz). destruct z; try contradiction. cbn. f_equal. ring.
  - apply map_ext_in. intros z Hz. apply in_map_iff in Hz as (w & <- & _). cbn. f_equal. ring.
Qed.

Section C39.
  Variable chi : ef -> ef -> ef.
  Lemma report_shift : forall mode g pdf d x x0 cids C st itr m m' bs,
    report chi mode (MleOpts g pdf d (Some true)) x x0 cids C st itr = Ok m ->
    report chi mode (MleOpts g pdf d (Some false)) x x0 cids C st itr = Ok m' ->
    Forall isfin (sx st) -> sb st = map Fin bs -> bs <> [] ->
    (mode = SubjectOblivious -> forall w, In w bs -> w = 0) ->
    exists t,
      ml_quality m = map (affine 1 t) (ml_quality m') /\
      ml_bias m = option_map (map (affine 1 (- t))) (ml_bias m') /\
      (forall b, ml_bias m = Some b -> exists r, b = map Fin r /\ length r = length bs /\ Rsum r = 0) /\
      (forall e i r, at3 (ml_recon m) e i r = at3 (ml_recon m') e i r) /\ same_report m m'.
  Proof.
    intros mode g pdf d x x0 cids C st itr m m' bs H H' Hq Hb Hne Hz.
    destruct (zero_mean_fin (sx st) bs Hq Hne) as [Z S0].
    assert (Fb : Forall isfin (map Fin bs)) by (apply Forall_forall; intros y Hy; apply in_map_iff in Hy as (w & <- & _); exact I).
    unfold report in H, H'. cbn [mo_force] in H, H'. rewrite Hb in H, H'. rewrite Z in H. cbn [zero_mean] in H'. cbv zeta in H, H'.
    change (pdf_of (MleOpts g pdf d (Some true))) with (pdf_of (MleOpts g pdf d (Some false))) in H.
    rewrite ll_s_shift in H by assumption.
    destruct (ll_s _ x (sx st) (map Fin bs) (sv st) (sa st) cids) as [l|]; [|discriminate]. cbn [bind] in H, H'.
    apply Ok_inj in H. apply Ok_inj in H'. subst m m'. exists (Rmean bs).
    cbn [ml_quality ml_bias ml_recon]. split; [reflexivity|]. split; [destruct mode; reflexivity|]. split; [|split].
    - intros b Eb. exists (map (fun b => b - Rmean bs) bs). destruct mode; try discriminate; injection Eb as <-; rewrite map_length;
        (split; [rewrite !map_map; apply map_ext; intro w; cbn; f_equal; ring|split; [reflexivity|exact S0]]).
    - intros e i r. cbn [ap_reconstructions at3]. rewrite !vat_affine. efc. apply shift_sum; apply vat_fin; assumption.
    - repeat split.
  Qed.

  Lemma c39 : forall c (rd : reader ef) k g pdf d m m', kw_normalize_final k = false -> kw_transform_final k = None ->
    mle_run_modeling chi c rd k (MleOpts g pdf d (Some true)) = Ok m -> mle_run_modeling chi c rd k (MleOpts g pdf d (Some false)) = Ok m' ->
    (0 < dS (ml_raw m'))%nat -> (forall b, ml_bias m' = Some b -> Forall isfin b) ->
    exists t,
      ml_quality m = map (affine 1 t) (ml_quality m') /\
      ml_bias m = option_map (map (affine 1 (- t))) (ml_bias m') /\
      (forall b, ml_bias m = Some b -> exists r, b = map Fin r /\ length r = dS (ml_raw m') /\ Rsum r = 0) /\
      (forall e i r, at3 (ml_recon m) e i r = at3 (ml_recon m') e i r) /\ same_report m m'.
  Proof.
    intros c rd k g pdf d m m' N1 N2 H H' HS HB.
    destruct (begins_exists chi _ _ _ _ _ H) as (x & cids & C & s & B).
    destruct (run_begins chi _ _ _ _ _ _ _ _ _ H B) as (k1 & pp1 & mm1 & obs1 & m1 & H1 & H2 & H3 & H4 & H5 & H6 & H7).
    destruct (run_inv chi _ _ _ _ _ H') as (k2 & pp2 & mm2 & mx2 & obs2 & m2 & K1 & K2 & K3 & K4 & K5 & K6 & K7 & (K8 & K9) & K10).
    destruct (run_inv chi _ _ _ _ _ H) as (k3 & pp3 & mm3 & mx3 & obs3 & m3 & J1 & J2 & J3 & J4 & J5 & J6 & J7 & (J8 & J9) & J10).
    rewrite J1 in K1. apply Ok_inj in K1. subst k2. rewrite J4 in K4. apply Ok_inj in K4. subst pp2. rewrite J5 in K5. apply Ok_inj in K5. subst mx2.
    rewrite J6 in K6. apply Ok_inj in K6. subst mm2. rewrite J7 in K7. apply Ok_inj in K7. subst obs2.
    clear H1 H2 H3 H4 H5 H6 H7 B x cids C s k1 pp1 mm1 obs1 m1.
    set (cids := map Z.to_nat (content_id_of_dis_videos (rd_dvs rd))) in *. set (C := Z.to_nat (mx3 + 1)) in *. set (x := pp_arr pp3) in *.
    destruct (solve_inv chi _ _ _ _ _ _ _ _ J9) as (st & itr & L & R). destruct (solve_inv chi _ _ _ _ _ _ _ _ K9) as (st' & itr' & L' & R').
    change (loop_from (mode_of c) (MleOpts g pdf d (Some false)) x cids C) with (loop_from (mode_of c) (MleOpts g pdf d (Some true)) x cids C) in L'.
    rewrite L in L'. apply Ok_inj in L'. injection L' as <- <-.
    unfold loop_from in L. assert (Es : exists q0 v0 a0, mle_start (mode_of c) x cids C (mr_quality mm3) = (q0, zeros (dS x), v0, a0)) by (do 3 eexists; reflexivity).
    destruct Es as (q0 & v0 & a0 & Es). rewrite Es in L.
    destruct (loop_stops _ _ _ _ _ _ _ _ _ _ _ _ _ _ _ L) as (_ & (q' & b' & v' & a' & dd & P1 & P2 & P3 & P4 & _) & _).
    destruct (pass_facts _ _ _ _ _ _ _ _ _ _ _ P2) as (_ & _ & _ & _ & _ & _ & _ & F8 & F9).
    assert (Fx : Forall isfin (sx st)) by (eapply moved_finite; eassumption).
    assert (Lb : length (sb st) = dS x) by (eapply (passes_len_b (mode_of c)); [|exact P3]; cbn; apply repeat_length).
    assert (Xr : ml_raw m2 = x) by (apply (report_iter _ _ _ _ _ _ _ _ _ _ R')).
    assert (Fb : Forall isfin (sb st)).
    { destruct (mode_of c) eqn:Em.
      - apply HB. rewrite K10. unfold report in R'. cbn [mo_force zero_mean] in R'. cbv zeta in R'. destruct (ll_s _ _ _ _ _ _ _); [|discriminate].
        cbn [bind] in R'. apply Ok_inj in R'. rewrite <- R'. reflexivity.
      - destruct (F8 eq_refl) as [-> _]. apply Forall_forall. intros y Hy. apply repeat_spec in Hy. subst. exact I.
      - apply HB. rewrite K10. unfold report in R'. cbn [mo_force zero_mean] in R'. cbv zeta in R'. destruct (ll_s _ _ _ _ _ _ _); [|discriminate].
        cbn [bind] in R'. apply Ok_inj in R'. rewrite <- R'. reflexivity. }
    destruct (fin_list _ Fb) as (bs & Ebs).
    assert (Lbs : length bs = dS x) by (rewrite <- Lb, Ebs, map_length; reflexivity).
    assert (Hraw : ml_raw m' = x) by (rewrite K10; exact Xr). rewrite Hraw in *.
    destruct (report_shift _ _ _ _ _ _ _ _ _ _ _ _ bs R R' Fx Ebs) as (t & Q1 & Q2 & Q3 & Q4 & Q5).
    { intro E. rewrite E in Lbs. cbn in Lbs. lia. }
    { intros Em w Hw. destruct (F8 Em) as [F _]. rewrite Ebs in F. assert (In (Fin w) (map Fin bs)) by (apply in_map; exact Hw).
      rewrite F in H0. apply repeat_spec in H0. injection H0. auto. }
    exists t. rewrite J10, K10. unfold finish. cbn [ml_quality ml_bias ml_recon].
    assert (NP : forall q, postprocess k3 q = q).
    { intro q. assert (N : kw_normalize_final k3 = false /\ kw_transform_final k3 = None).
      { clear - J1 N1 N2. unfold mle_kwargs in J1. destruct c; try (apply Ok_inj in J1; subst k3; auto);
          unfold guard, assert_ in J1; destruct (kw_dscore k); cbn [negb bind] in J1; try discriminate; apply Ok_inj in J1; subst k3; auto. }
      unfold postprocess. destruct N as [-> ->]. reflexivity. }
    rewrite !NP. split; [exact Q1|]. split; [exact Q2|]. split; [rewrite <- Lbs; exact Q3|]. split; [exact Q4|].
    unfold same_report in *. cbn [ml_raw ml_iter ml_quality_std ml_quality_lo ml_quality_hi ml_bias_std ml_bias_lo ml_bias_hi ml_incons ml_incons_std ml_incons_lo ml_incons_hi
      ml_ambiguity ml_ambiguity_std ml_ambiguity_lo ml_ambiguity_hi ml_dof ml_ll ml_aic ml_bic ml_observers]. intuition congruence.
  Qed.
End C39.
