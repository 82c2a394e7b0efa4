(** Proofs about the likelihood models on another rating scale (C141): whole runs. *)
From Coq Require Import String.
From Coq Require Import List ZArith Bool Arith Reals Lra Lia.
From Verif Require Import PyBase Num ExtReal NumPy Dataset Preproc Mos AP Mle SpecMos SpecAp SpecMle SpecScale
  BaseProofs ExtRealProofs ArrayProofs StepsProofs MosProofs ApProofs Ap2Proofs Ap6Proofs MleProofs Mle2Proofs Mle3Proofs Mle4Proofs Mle5Proofs Mle7Proofs Mle9Proofs ScaleProofs Scale2Proofs.
Import ListNotations.
Local Open Scope list_scope.
Local Open Scope R_scope.

Lemma vsc_1 : forall u u', vsc 1 u u' -> u' = u.
Proof. intros u u' ->. rewrite <- (map_id u) at 2. apply map_ext. exact times_1. Qed.
Lemma map_times_1 : forall u, map (times 1) u = u.
Proof. intro u. rewrite <- (map_id u) at 2. apply map_ext. exact times_1. Qed.

(** ** Numerical derivatives under a translation *)
Section Shift.
  Variables (t : R) (x x' : arr3 ef) (cids : list nat) (C : nat).
  Let H1 : 1 <> 0 := R1_neq_R0.
  Hypothesis HX : transformed (rescale 1 t) x x'.
  Notation Q := (map (rescale 1 t)).
  Lemma shift_away : forall y q b, nsub (rescale 1 t y) (nadd (rescale 1 t q) b) = nsub y (nadd q b).
  Proof.
    intros y q b. rewrite <- (times_1 b) at 1. rewrite rescale_add by exact H1. rewrite (rescale_sub 1 t H1 y (nadd q b)), times_1. reflexivity.
  Qed.
  Lemma logpdf_sh : forall q b v a, exists y y', logpdf GaussianPdf x q b v a cids = Ok y /\ logpdf GaussianPdf x' (Q q) b v a cids = Ok y' /\ asc 1 y y'.
  Proof.
    intros q b v a. eexists. eexists. split; [reflexivity|]. split; [reflexivity|]. destruct HX as (DE & DS & DR & A). repeat split; try assumption.
    intros e s r J. cbn [map3 at3]. rewrite A by exact J. rewrite vat_rescale by exact H1. unfold gaussian. rewrite shift_away. apply sc_same.
  Qed.
  Lemma ll_e_sh : forall q b v a, ll_e GaussianPdf x' (Q q) b v a cids = ll_e GaussianPdf x q b v a cids.
  Proof.
    intros q b v a. unfold ll_e. destruct (logpdf_sh q b v a) as (y & y' & E & E' & A). rewrite E, E'. cbn [bind]. f_equal. apply vsc_1. apply sum_e_sc; assumption.
  Qed.
  Lemma ll_s_sh : forall q b v a, ll_s GaussianPdf x' (Q q) b v a cids = ll_s GaussianPdf x q b v a cids.
  Proof.
    intros q b v a. unfold ll_s. destruct (logpdf_sh q b v a) as (y & y' & E & E' & A). rewrite E, E'. cbn [bind]. f_equal. apply vsc_1. apply sum_s_sc; assumption.
  Qed.
  Lemma vshift_sh : forall d q, vshift d (Q q) = Q (vshift d q).
  Proof. intros d q. unfold vshift. rewrite !map_map. apply map_ext. intro a. rewrite <- (times_1 d) at 1. apply rescale_add. exact H1. Qed.
  Lemma vshift_down_sh : forall d q, vshift_down d (Q q) = Q (vshift_down d q).
  Proof. intros d q. unfold vshift_down. rewrite !map_map. apply map_ext. intro a. rewrite <- (times_1 d) at 1. apply rescale_step. exact H1. Qed.
  Lemma numerical_same : forall f g p, (forall p, f p = g p) -> numerical f p = (numerical g p : res (list ef * list ef)).
  Proof. intros f g p H. unfold numerical. rewrite !H. reflexivity. Qed.
  Lemma b_num_sh : forall q b v a, b_numerical GaussianPdf x' cids (Q q) b v a = b_numerical GaussianPdf x cids q b v a.
  Proof. intros q b v a. unfold b_numerical. rewrite (numerical_same _ _ b (fun p => ll_e_sh q p v a)). reflexivity. Qed.
  Lemma v_num_sh : forall q b v a, v_numerical GaussianPdf x' cids (Q q) b v a = v_numerical GaussianPdf x cids q b v a.
  Proof. intros q b v a. unfold v_numerical. rewrite (numerical_same _ _ v (fun p => ll_e_sh q b p a)). reflexivity. Qed.
  Lemma a_num_sh : forall q b v a, a_numerical GaussianPdf x' cids C (Q q) b v a = a_numerical GaussianPdf x cids C q b v a.
  Proof. intros q b v a. unfold a_numerical. rewrite (numerical_same _ _ a (fun p => ll_s_sh q b v p)). reflexivity. Qed.
  Lemma newton_sh : forall q d, newton (Q q) d = (Q (fst (newton q d)), snd (newton q d)).
  Proof. intros q d. unfold newton. cbn [fst snd]. f_equal. apply step_rescale; [exact H1|]. unfold vsc. rewrite map_times_1. reflexivity. Qed.
  Lemma x_num_sh : forall q b v a, x_numerical GaussianPdf x' cids (Q q) b v a =
    do d <- x_numerical GaussianPdf x cids q b v a; Ok (Q (fst d), snd d).
  Proof.
    intros q b v a. unfold x_numerical.
    assert (E : numerical (fun p => ll_s GaussianPdf x' p b v a cids) (Q q) = numerical (fun p => ll_s GaussianPdf x p b v a cids) q).
    { unfold numerical. rewrite !vshift_sh, !vshift_down_sh, !ll_s_sh. reflexivity. }
    rewrite E. destruct (numerical (fun p => ll_s GaussianPdf x p b v a cids) q) as [dx|e]; [|reflexivity]. cbn [bind]. rewrite newton_sh. reflexivity.
  Qed.
  Lemma est_1 : forall q q' b v a xs bs vs as_, q' = Q q -> est_sc 1 t (MlEst q b v a xs bs vs as_) (MlEst q' b v a xs bs vs as_).
  Proof.
    intros q q' b v a xs bs vs as_ E. assert (ONE : Rabs 1 = 1) by (apply Rabs_right; lra).
    constructor; cbn [sx sb sv sa sx_std sb_std sv_std sa_std]; unfold vsc; rewrite ?ONE, ?map_times_1; try reflexivity. exact E.
  Qed.
  (** One pass, with the steps as results. *)
  Definition after (mode : mlemode) (n : nat) (C : nat) (b v a q : list ef) (ub : list ef * list ef) (fv fa fx : list ef -> list ef -> list ef -> res (list ef * list ef)) : res (mlest ef) :=
    let so := match mode with SubjectOblivious => true | _ => false end in
    let co := match mode with ContentOblivious => true | _ => false end in
    let b' := if so then zeros n else refresh b (fst ub) in
    do uv <- fv b' v a;
    let v' := if so then zeros n else clip0 (refresh v (fst uv)) in
    do ua <- fa b' v' a;
    let a' := if co then zeros C else clip0 (refresh a (fst ua)) in
    do ux <- fx b' v' a';
    Ok (MlEst (refresh q (fst ux)) b' v' a' (map inv_sqrt_pos (snd ux)) (if so then zeros n else map inv_sqrt_pos (snd ub))
      (if so then zeros n else map inv_sqrt_pos (snd uv)) (if co then zeros C else map inv_sqrt_pos (snd ua))).
  Lemma pass_is : forall mode (y : arr3 ef) q b v a, mle_pass mode Numerical GaussianPdf y cids C q b v a =
    do ub <- b_numerical GaussianPdf y cids q b v a;
    after mode (dS y) C b v a q ub (v_numerical GaussianPdf y cids q) (a_numerical GaussianPdf y cids C q) (x_numerical GaussianPdf y cids q).
  Proof. reflexivity. Qed.
  Lemma after_sh : forall mode n b v a q ub fv fa fx fv' fa' fx' st, (forall b v a, fv' b v a = fv b v a) -> (forall b v a, fa' b v a = fa b v a) ->
    (forall b v a, fx' b v a = do d <- fx b v a; Ok (Q (fst d), snd d)) -> after mode n C b v a q ub fv fa fx = Ok st ->
    exists st', after mode n C b v a (Q q) ub fv' fa' fx' = Ok st' /\ est_sc 1 t st st'.
  Proof.
    intros mode n b v a q ub fv fa fx fv' fa' fx' st F1 F2 F3 H. unfold after in *. cbv zeta in *.
    rewrite F1. destruct (fv _ v a) as [uv|]; [|discriminate]. cbn [bind] in *.
    rewrite F2. destruct (fa _ _ a) as [ua|]; [|discriminate]. cbn [bind] in *.
    rewrite F3. destruct (fx _ _ _) as [ux|]; [|discriminate]. cbn [bind fst snd] in *. apply Ok_inj in H. subst st.
    eexists. split; [reflexivity|]. apply est_1. apply refresh_rescale. exact H1.
  Qed.
  Lemma pass_num : forall mode q b v a st, mle_pass mode Numerical GaussianPdf x cids C q b v a = Ok st ->
    exists st', mle_pass mode Numerical GaussianPdf x' cids C (Q q) b v a = Ok st' /\ est_sc 1 t st st'.
  Proof.
    intros mode q b v a st. rewrite (pass_is mode x q b v a), (pass_is mode x' (Q q) b v a), b_num_sh.
    destruct HX as (_ & DS & _). rewrite DS. clear DS.
    assert (F1 := v_num_sh q). assert (F2 := a_num_sh q). assert (F3 := x_num_sh q). revert F1 F2 F3.
    generalize (v_numerical GaussianPdf x cids q) (a_numerical GaussianPdf x cids C q) (x_numerical GaussianPdf x cids q).
    generalize (v_numerical GaussianPdf x' cids (Q q)) (a_numerical GaussianPdf x' cids C (Q q)) (x_numerical GaussianPdf x' cids (Q q)).
    generalize (b_numerical GaussianPdf x cids q b v a). intros [ub|e] fv' fa' fx' fv fa fx F1 F2 F3 H; [|discriminate]. cbn [bind] in H |- *.
    exact (after_sh mode (dS x) b v a q ub fv fa fx fv' fa' fx' st F1 F2 F3 H).
  Qed.
End Shift.

(** ** Loop and report *)
Lemma cnt_map : forall A (f g : A -> ef) l, (forall a, In a l -> ef_isnan (g a) = ef_isnan (f a)) -> np_cnt (map g l) = np_cnt (map f l).
Proof.
  intros A f g. unfold np_cnt, notnan. cbn [nisnan Num_ef]. induction l as [|a l IH]; intro H; [reflexivity|]. cbn [map filter]. rewrite (H a) by (left; reflexivity).
  destruct (ef_isnan (f a)); cbn [negb length]; [apply IH; intros; apply H; right; assumption|]. f_equal. apply IH. intros; apply H; right; assumption.
Qed.
Lemma cnt_flat : forall A (F : A -> list ef) l, np_cnt (flat_map F l) = list_sum (map (fun a => np_cnt (F a)) l).
Proof.
  intros A F. induction l as [|a l IH]; [reflexivity|]. cbn [flat_map map]. change (list_sum (np_cnt (F a) :: map (fun a => np_cnt (F a)) l)) with (np_cnt (F a) + list_sum (map (fun a => np_cnt (F a)) l))%nat.
  rewrite <- IH. unfold np_cnt, notnan. rewrite filter_app, app_length. reflexivity.
Qed.

Section Whole.
  Variable chi : ef -> ef -> ef.
  Variables (k t : R).
  Hypothesis Hk : k <> 0.
  Notation L := (Rabs k).
  Notation Q := (map (rescale k t)).
  Let HL : 0 < L := abs_pos k Hk.
  Let HLn : L <> 0 := Rgt_not_eq _ _ HL.

  Section Votes.
    Variables (x x' : arr3 ef) (cids : list nat) (C : nat).
    Hypothesis HX : transformed (rescale k t) x x'.
    Lemma cnt_cols : map (fun s => np_cnt (col (stack0 x') s)) (seq 0 (n1 (stack0 x'))) = map (fun s => np_cnt (col (stack0 x) s)) (seq 0 (n1 (stack0 x))).
    Proof.
      destruct HX as (DE & DS & DR & A). cbn [stack0 n1]. rewrite DS. apply map_ext_in. intros s Hs. apply in_seq in Hs. unfold col. cbn [stack0 n0 at2]. rewrite DE, DR.
      apply cnt_map. intros i Hi. apply in_seq in Hi. destruct (stack_in (dE x) (dR x) i) as [I J]; [lia|]. rewrite A by (unfold inside; lia). apply rescale_isnan. exact Hk.
    Qed.
    Lemma cnt_all : np_cnt (flat3 x') = np_cnt (flat3 x).
    Proof.
      destruct HX as (DE & DS & DR & A). unfold flat3. rewrite DE, DS, DR. rewrite !cnt_flat. f_equal. apply map_ext_in. intros e He. apply in_seq in He.
      rewrite !cnt_flat. f_equal. apply map_ext_in. intros s Hs. apply in_seq in Hs. apply cnt_map. intros r Hr. apply in_seq in Hr.
      rewrite A by (unfold inside; lia). apply rescale_isnan. exact Hk.
    Qed.

    (** What the scale demands of the gradient. *)
    Definition allowed (g : gradmethod) (pdf : pdfkind) : Prop := g = Simplified \/ g = Original \/ g = Numerical /\ k = 1 /\ pdf = GaussianPdf.
    Lemma ll_ok : forall pdf q b v a q' b' v' a' l, ll_s pdf x q b v a cids = Ok l -> exists l', ll_s pdf x' q' b' v' a' cids = Ok l'.
    Proof. intros pdf q b v a q' b' v' a' l H. unfold ll_s, logpdf in *. destruct pdf; cbn [bind] in *; try (eexists; reflexivity); try discriminate. destruct (Nat.eqb (dR x) 1); discriminate. Qed.
    Lemma pass_any : forall mode g pdf q b b' v v' a a' st, allowed g pdf -> vsc k b b' -> vsc L v v' -> vsc L a a' ->
      mle_pass mode g pdf x cids C q b v a = Ok st ->
      (g = Simplified -> t = 0 \/ finite_votes x /\ fits x cids C /\ regular_state x cids C (q, b, v, a) /\ regular_state x cids C (vecs st)) ->
      exists st', mle_pass mode g pdf x' cids C (Q q) b' v' a' = Ok st' /\ est_sc k t st st'.
    Proof.
      intros mode g pdf q b b' v v' a a' st [G|[G|(G & K & P)]] HB HV HA H HR.
      - apply (pass_sc k t x x' cids C Hk HX mode g pdf q b b' v v' a a' st (or_introl G) HB HV HA H HR).
      - apply (pass_sc k t x x' cids C Hk HX mode g pdf q b b' v v' a a' st (or_intror G) HB HV HA H HR).
      - subst g pdf. clear HR. unfold vsc in *. subst b' v' a'. assert (L1 : L = 1) by (rewrite K; apply Rabs_right; lra). rewrite L1 in *. revert HX. rewrite K. intro HX1. rewrite !map_times_1.
        apply (pass_num t x x' cids C HX1). exact H.
    Qed.
    Lemma loop_sc : forall mode g pdf thr thr' fuel itr q b b' v v' a a' st n, allowed g pdf -> sc L thr thr' -> vsc k b b' -> vsc L v v' -> vsc L a a' ->
      mle_loop fuel itr mode g pdf thr x cids C q b v a = Ok (st, n) ->
      (g = Simplified -> t = 0 \/ finite_votes x /\ fits x cids C /\
         forall j s, (j <= n - itr)%nat -> passes mode g pdf x cids C j (q, b, v, a) = Ok s -> regular_state x cids C s) ->
      (itr < n)%nat /\ exists st', mle_loop fuel itr mode g pdf thr' x' cids C (Q q) b' v' a' = Ok (st', n) /\ est_sc k t st st'.
    Proof.
      intros mode g pdf thr thr'. induction fuel as [|f IH]; intros itr q b b' v v' a a' st n G T HB HV HA H HR; [discriminate|]. rewrite loop_unfold in *.
      destruct (mle_pass mode g pdf x cids C q b v a) as [st1|] eqn:E1; [|discriminate]. cbn [bind] in H.
      destruct (moved (q, b, v, a) (vecs st1)) as [d|] eqn:E2; [|discriminate]. cbn [bind] in H.
      destruct (ll_s pdf x (sx st1) (sb st1) (sv st1) (sa st1) cids) as [l|] eqn:E3; [|discriminate]. cbn [bind] in H.
      assert (N : (itr < n)%nat).
      { destruct (ef_ltb d thr); [apply Ok_inj in H; injection H as _ <-; lia|]. destruct (Nat.leb mle_max_itr (S itr)); [apply Ok_inj in H; injection H as _ <-; lia|].
        cut (S itr < n)%nat; [lia|]. clear - H. revert H. generalize (sx st1), (sb st1), (sv st1), (sa st1). generalize (S itr).
        induction f as [|f IHf]; intros i l0 l1 l2 l3 H; [discriminate|]. rewrite loop_unfold in H.
        destruct (mle_pass _ _ _ _ _ _ _ _ _ _) as [st2|]; [|discriminate]. cbn [bind] in H.
        destruct (moved _ _) as [d'|]; [|discriminate]. cbn [bind] in H. destruct (ll_s _ _ _ _ _ _ _); [|discriminate]. cbn [bind] in H.
        destruct (ef_ltb d' thr); [apply Ok_inj in H; injection H as <- <-; lia|].
        destruct (Nat.leb mle_max_itr (S i)); [apply Ok_inj in H; injection H as <- <-; lia|].
        apply IHf in H. lia. }
      assert (One : one mode pdf x cids C g (q, b, v, a) = Ok (vecs st1)) by (unfold one; rewrite E1; reflexivity).
      split; [exact N|].
      destruct (pass_any mode g pdf q b b' v v' a a' st1 G HB HV HA E1) as (st1' & E1' & ES).
      { intro GS. destruct (HR GS) as [Ht|(F & I & R)]; [left; exact Ht|right]. split; [exact F|]. split; [exact I|]. split; [apply (R 0%nat); [lia|reflexivity]|].
        apply (R 1%nat); [lia|]. rewrite passes_shift, One. reflexivity. }
      rewrite E1'. cbn [bind]. assert (M := moved_sc k t Hk q b v a st1 b' v' a' st1' ES). rewrite E2 in M.
      destruct (moved (Q q, b', v', a') (vecs st1')) as [d'|]; [|contradiction]. cbn [bind].
      destruct (ll_ok pdf _ _ _ _ (sx st1') (sb st1') (sv st1') (sa st1') _ E3) as [l' E3']. rewrite E3'. cbn [bind].
      assert (TL : ef_ltb d' thr' = ef_ltb d thr) by (rewrite M, T; apply times_ltb; exact HL). rewrite TL.
      destruct (ef_ltb d thr); [apply Ok_inj in H; injection H as <- <-; exists st1'; auto|].
      destruct (Nat.leb mle_max_itr (S itr)); [apply Ok_inj in H; injection H as <- <-; exists st1'; auto|].
      rewrite (es_x _ _ _ _ ES). destruct (IH (S itr) _ _ _ _ _ _ _ _ _ G T (es_b _ _ _ _ ES) (es_v _ _ _ _ ES) (es_a _ _ _ _ ES) H) as [_ (st' & E & F)]; [|exists st'; auto].
      intro GS. destruct (HR GS) as [Ht|(F & I & R)]; [left; exact Ht|right]. split; [exact F|]. split; [exact I|]. intros j s Hj P. apply (R (S j)); [lia|].
      rewrite passes_shift, One. exact P.
    Qed.

    (** Start values. *)
    Lemma flat_map_sc : forall A (F G : A -> list ef) l, (forall a, In a l -> vsc k (F a) (G a)) -> vsc k (flat_map F l) (flat_map G l).
    Proof.
      intros A F G. unfold vsc. induction l as [|a l IH]; intro H; [reflexivity|]. cbn [flat_map]. rewrite map_app, (H a) by (left; reflexivity). f_equal.
      apply IH. intros. apply H. right. assumption.
    Qed.
    Lemma std_cid_sc : forall y y', asc k y y' -> (length cids <= dE y)%nat -> vsc L (std_over_cid y cids C) (std_over_cid y' cids C).
    Proof.
      intros y y' (ME & MS & MR & MA) HC. unfold std_over_cid, vsc. rewrite map_map. apply map_ext. intro c. apply nanstd_sc; [exact Hk|]. rewrite MS, MR.
      apply flat_map_sc. intros [i d] Hi. cbn [fst snd]. destruct (Nat.eqb d c); [|reflexivity].
      assert (I : (i < length cids)%nat) by (unfold enumerate in Hi; apply in_combine_l in Hi; apply in_seq in Hi; lia).
      apply flat_map_sc. intros u Hu. apply in_seq in Hu. unfold vsc. rewrite map_map. apply map_ext_in. intros r Hr. apply in_seq in Hr. apply MA. unfold inside. lia.
    Qed.
    Lemma start_sc : fits x cids C -> forall mode q, let '(q0, b0, v0, a0) := mle_start mode x cids C q in let '(q0', b0', v0', a0') := mle_start mode x' cids C (Q q) in
      q0' = Q q0 /\ vsc k b0 b0' /\ vsc L v0 v0' /\ vsc L a0 a0'.
    Proof.
      intros [HC _] mode q. unfold mle_start. cbv zeta. assert (DS : dS x' = dS x) by apply HX. rewrite DS.
      assert (M : asc k (minus_quality x q) (minus_quality x' (Q q))).
      { unfold minus_quality. apply (minus_q_sc k t x x' Hk HX q (fun _ _ _ y => y) (fun _ _ _ y => y) k). auto. }
      assert (LC : (length cids <= dE (minus_quality x q))%nat) by (change (dE (minus_quality x q)) with (dE x); lia).
      split; [reflexivity|]. split; [apply vsc_zeros|]. split.
      - destruct mode; try apply vsc_zeros; (apply (along0_sc k L); [exact M|]); intros; apply nanstd_sc; assumption.
      - destruct mode; try apply vsc_zeros; apply std_cid_sc; assumption.
    Qed.

    (** The report. *)
    Lemma zero_mean_sc : forall f q b b', vsc k b b' ->
      fst (zero_mean f (Q q) b') = Q (fst (zero_mean f q b)) /\ vsc k (snd (zero_mean f q b)) (snd (zero_mean f (Q q) b')).
    Proof.
      intros f q b b' HB. unfold zero_mean. destruct f; cbn [fst snd]; [|auto]. assert (M := mean_sc k b b' Hk HB). split.
      - rewrite !map_map. apply map_ext. intro a. rewrite M. apply rescale_add. exact Hk.
      - apply (vsc_map k); [exact HB|]. intros a a' A. apply sc_sub; assumption.
    Qed.
    Lemma ci_sc : forall u u', vsc L u u' -> vsc L (map (fun y => nmul z95 y) u) (map (fun y => nmul z95 y) u').
    Proof. intros u u' U. apply (vsc_map L); [exact U|]. intros a a' A. apply sc_mul_r; assumption. Qed.
    Lemma chi_sc : forall (f : nat -> ef) cs u u', vsc L u u' ->
      vsc L (map (fun p => nmul (f (fst p)) (snd p)) (combine cs u)) (map (fun p => nmul (f (fst p)) (snd p)) (combine cs u')).
    Proof.
      intros f cs u u' ->. unfold vsc. rewrite <- (map_id cs) at 1. rewrite combine_map2, !map_map. apply map_ext. intros [c a]. cbn [fst snd]. apply sc_mul_r; [assumption|reflexivity].
    Qed.
    Definition same_fit_if (pdf : pdfkind) (m m' : mleres ef) : Prop := k = 1 -> pdf = GaussianPdf -> same_fit m m'.
    Definition unless {A} (f : bool) (l : A) : option A := if f then None else Some l.
    Lemma report_sc : forall mode o o' x0 x0' st st' n m, same_options k o o' -> transformed (rescale k t) x0 x0' -> est_sc k t st st' ->
      report chi mode o x x0 cids C st n = Ok m ->
      exists m', report chi mode o' x' x0' cids C st' n = Ok m' /\ on_scale k t m m' /\ same_fit_if (pdf_of o) m m'.
    Proof.
      intros mode o o' x0 x0' st st' n m (O1 & O2 & O3 & O4) H0 [X B V A XS BS VS AS_] H. unfold report in *. rewrite O3, O2.
      set (force := match mo_force o with Some f => f | None => true end) in *.
      destruct (zero_mean_sc force (sx st) (sb st) (sb st') B) as [ZQ ZB]. rewrite <- X in ZQ, ZB.
      destruct (zero_mean force (sx st) (sb st)) as [q b]. destruct (zero_mean force (sx st') (sb st')) as [q' b']. cbn [fst snd] in ZQ, ZB. cbv zeta in *.
      destruct (ll_s (pdf_of o) x q b (sv st) (sa st) cids) as [l|] eqn:E; [|discriminate].
      destruct (ll_ok (pdf_of o) q b (sv st) (sa st) q' b' (sv st') (sa st') l E) as [l' E']. rewrite E'. cbn [bind] in *. apply Ok_inj in H.
      rewrite cnt_cols. assert (D0 : np_cnt (flat3 x0') = np_cnt (flat3 x0)).
      { clear - H0 Hk. destruct H0 as (DE & DS & DR & A). unfold flat3. rewrite DE, DS, DR. rewrite !cnt_flat. f_equal. apply map_ext_in. intros e He. apply in_seq in He.
        rewrite !cnt_flat. f_equal. apply map_ext_in. intros s Hs. apply in_seq in Hs. apply cnt_map. intros r Hr. apply in_seq in Hr.
        rewrite A by (unfold inside; lia). apply rescale_isnan. exact Hk. }
      rewrite cnt_all, D0. replace (dE x0') with (dE x0) by (symmetry; apply H0). replace (dS x0') with (dS x0) by (symmetry; apply H0). replace (dR x0') with (dR x0) by (symmetry; apply H0).
      eexists. split; [reflexivity|]. subst m. split.
      - constructor; cbn [ml_raw ml_quality ml_quality_std ml_quality_lo ml_quality_hi ml_iter ml_bias ml_bias_std ml_bias_lo ml_bias_hi ml_incons ml_incons_std ml_incons_lo ml_incons_hi
          ml_ambiguity ml_ambiguity_std ml_ambiguity_lo ml_ambiguity_hi ml_recon ml_dof ml_observers]; try reflexivity; try assumption.
        all: try (apply ci_sc; assumption).
        all: try (destruct mode; try reflexivity; cbn [option_map]; apply f_equal; first [exact ZB|assumption|apply ci_sc; assumption]).
        1,2: destruct mode; try reflexivity; cbn [option_map]; apply f_equal;
          first [apply (chi_sc (fun c => nsub none_ (nsqrt (ndiv (nofnat c) (chi (nsub none_ (ndec 25 1000)) (nofnat c)))))); assumption
                |apply (chi_sc (fun c => nsub (nsqrt (ndiv (nofnat c) (chi (ndec 25 1000) (nofnat c)))) none_)); assumption].
        destruct HX as (DE & DS & DR & _). unfold ap_reconstructions. repeat split; try assumption. intros e s r _. cbn [at3]. rewrite ZQ.
        rewrite vat_rescale by exact Hk. rewrite (vsc_vat _ _ _ s ZB). apply rescale_add. exact Hk.
      - intros K P. unfold same_fit. cbn [ml_ll ml_aic ml_bic]. assert (EL : l' = l).
        { clear - E E' ZQ ZB V A HX K P. rewrite P in *. assert (L1 : L = 1) by (rewrite K; apply Rabs_right; lra). rewrite L1 in *. revert HX ZQ ZB. rewrite K. intros HX1 ZQ ZB.
          apply vsc_1 in ZB, V, A. subst b'. rewrite V, A, ZQ in E'. rewrite (ll_s_sh t x x' cids HX1) in E'. congruence. }
        rewrite EL. auto.
    Qed.
  End Votes.

  (** The votes after preprocessing. *)
  Lemma bias_sc : forall a a', finite_votes a -> transformed (rescale k t) a a' -> vsc k (bias_estimate a) (bias_estimate a').
  Proof.
    intros a a' F H. unfold bias_estimate. cbv zeta.
    assert (M : along1 np_nanmean (stack1 a') = Q (along1 np_nanmean (stack1 a))).
    { assert (HA : transformed (affine k t) a a').
      { destruct H as (DE & DS & DR & A). repeat split; try assumption. intros e s r J. rewrite A by exact J. apply rescale_affine; [exact Hk|]. apply F. exact J. }
      assert (F' := transformed_finite k t a a' HA F). change (along1 np_nanmean (stack1 a')) with (mr_quality (mos_and_stats dof_mos a' a')). change (along1 np_nanmean (stack1 a)) with (mr_quality (mos_and_stats dof_mos a a)).
      rewrite (mos_quality_eq a F), (mos_quality_eq a' F'). replace (dE a') with (dE a) by (symmetry; apply H). rewrite map_map.
      apply map_ext_in. intros e He. apply in_seq in He. rewrite (transformed_votes k t a a' e HA F) by lia. rewrite nanmeanR_affine. symmetry. apply rescale_affine; [exact Hk|].
      destruct (video_votes a e) as [|w l]; [exact I|]. rewrite nanmeanR_ne by discriminate. exact I. }
    rewrite M. apply (along0_sc k k).
    - apply (minus_q_sc k t a a' Hk H _ (fun _ _ _ y => y) (fun _ _ _ y => y) k). auto.
    - intros u u' U. apply nanmean_sc; assumption.
  Qed.

  Lemma pre_sc : forall (rd rd' : reader ef) kw a a' pp, rd_arr rd = Ok a -> rd_arr rd' = Ok a' -> finite_votes a -> transformed (rescale k t) a a' ->
    kw_dscore kw = false -> kw_zscore kw = false -> kw_rej kw = false -> preprocess rd kw = Ok pp ->
    exists pp', preprocess rd' kw = Ok pp' /\ transformed (rescale k t) (pp_arr pp) (pp_arr pp') /\ pp_orig pp = a /\ pp_orig pp' = a'.
  Proof.
    intros rd rd' kw a a' pp Ha Ha' F HT D Z RJ H. unfold preprocess in *. rewrite Ha in H. rewrite Ha'. rewrite D, Z, RJ in *. cbn [bind andb negb] in *.
    destruct (match kw_rejtype kw with None => Ok tt | Some _ => Err AssertionError end) as [u|]; [|discriminate]. cbn [bind assert_] in *. cbv zeta in *. apply Ok_inj in H. subst pp.
    eexists. split; [reflexivity|]. cbn [pp_arr pp_orig]. split; [|split; reflexivity]. destruct (kw_bias kw); [|exact HT].
    assert (B := bias_sc a a' F HT). destruct HT as (DE & DS & DR & A). unfold remove_bias. repeat split; try assumption. intros e s r J. cbn [map3 at3]. rewrite A by exact J.
    rewrite (vsc_vat _ _ _ s B). apply rescale_step. exact Hk.
  Qed.
  Lemma finish_sc : forall kw obs m m', kw_normalize_final kw = false -> kw_transform_final kw = None -> on_scale k t m m' -> on_scale k t (finish kw obs m) (finish kw obs m').
  Proof.
    intros kw obs m m' N1 N2 [h1 h2 h3 h4 h5 h6 h7 h8 h9 h10 h11 h12 h13 h14 h15 h16 h17 h18 h19 h20 h21].
    assert (NP : forall q, postprocess kw q = q) by (intro q; unfold postprocess; rewrite N1, N2; reflexivity).
    constructor; cbn [finish ml_raw ml_quality ml_quality_std ml_quality_lo ml_quality_hi ml_iter ml_bias ml_bias_std ml_bias_lo ml_bias_hi ml_incons ml_incons_std ml_incons_lo ml_incons_hi
          ml_ambiguity ml_ambiguity_std ml_ambiguity_lo ml_ambiguity_hi ml_recon ml_dof ml_observers]; rewrite ?NP; try assumption. reflexivity.
  Qed.

  Lemma c141 : forall c (rd rd' : reader ef) a a' kw o o' m, c = MLE \/ c = MLE_CO \/ c = MLE_SO ->
    rd_arr rd = Ok a -> rd_arr rd' = Ok a' -> finite_votes a -> transformed (rescale k t) a a' -> same_test rd rd' -> plain_votes kw -> same_options k o o' ->
    allowed (gradient_of o) (pdf_of o) -> mle_run_modeling chi c rd kw o = Ok m ->
    (gradient_of o = Simplified -> t = 0 \/ stays_regular c rd kw o (ml_iter m)) ->
    exists m', mle_run_modeling chi c rd' kw o' = Ok m' /\ on_scale k t m m' /\ same_fit_if (pdf_of o) m m'.
  Proof.
    intros c rd rd' a a' kw o o' m Hc Ha Ha' F HT (T1 & T2 & T3) (P1 & P2 & P3 & P4) HO G H HR.
    destruct (run_inv chi _ _ _ _ _ H) as (k' & pp & mm & mx & obs & m0 & H1 & H2 & H3 & H4 & H5 & H6 & H7 & (H8 & H9) & H10).
    assert (Ek : mle_kwargs c kw = Ok kw) by (destruct Hc as [->|[->| ->]]; reflexivity). assert (k' = kw) by congruence. subst k'.
    destruct (pre_sc rd rd' kw a a' pp Ha Ha' F HT P1 P2 H2 H4) as (pp' & H4' & HX & O1 & O2).
    assert (H7' : attach_observers rd' = Ok obs) by (unfold attach_observers in *; rewrite T3; exact H7).
    assert (HA : transformed (affine k t) a a').
    { destruct HT as (DE & DS & DR & A). repeat split; try assumption. intros e s r J. rewrite A by exact J. apply rescale_affine; [exact Hk|]. apply F. exact J. }
    assert (TM : exists mm', run_modeling MOS rd' no_options = Ok mm').
    { unfold run_modeling, run_kwargs, mos_run, preprocess. cbn [bind]. rewrite Ha'. cbn [bind no_options kw_dscore kw_zscore kw_bias kw_rej kw_rejtype andb negb assert_].
      rewrite H7'. cbn [bind]. eexists. reflexivity. }
    destruct TM as (mm' & H6').
    assert (QM : mr_quality mm' = Q (mr_quality mm)).
    { destruct (mos_affine rd rd' a a' mm mm' k t Ha Ha' F HA H6 H6') as [E _]. rewrite E. apply map_ext_in. intros q Hq. symmetry. apply rescale_affine; [exact Hk|].
      destruct (run_mos_inv rd mm H6) as (a2 & Ea & ob & Em). assert (a2 = a) by congruence. subst a2. subst mm. cbv zeta in Hq. cbn [mr_quality] in Hq. rewrite (mos_quality_eq a F) in Hq.
      apply in_map_iff in Hq as (e & <- & _). destruct (video_votes a e) as [|w l]; [exact I|]. rewrite nanmeanR_ne by discriminate. exact I. }
    set (cids := map Z.to_nat (content_id_of_dis_videos (rd_dvs rd))) in *.
    assert (B : begins c rd kw (pp_arr pp) cids (Z.to_nat (mx + 1)) (mle_start (mode_of c) (pp_arr pp) cids (Z.to_nat (mx + 1)) (mr_quality mm))).
    { exists kw, pp, mm. repeat (split; [first [assumption|reflexivity]|]). split; [exists mx; split; [exact H5|reflexivity]|reflexivity]. }
    assert (S : exists m0', mle_solve chi (mode_of c) o' (pp_arr pp') (pp_orig pp') (mr_quality mm') cids (Z.to_nat (mx + 1)) = Ok m0' /\ on_scale k t m0 m0' /\ same_fit_if (pdf_of o) m0 m0').
    { destruct (solve_inv chi _ _ _ _ _ _ _ _ H9) as (st & itr & LP & RP). rewrite solve_split, QM. unfold loop_from in *.
      assert (ST := start_sc (pp_arr pp) (pp_arr pp') cids (Z.to_nat (mx + 1)) HX H8 (mode_of c) (mr_quality mm)).
      destruct (mle_start (mode_of c) (pp_arr pp) cids (Z.to_nat (mx + 1)) (mr_quality mm)) as [[[q0 b0] v0] a0].
      destruct (mle_start (mode_of c) (pp_arr pp') cids (Z.to_nat (mx + 1)) (Q (mr_quality mm))) as [[[q0' b0'] v0'] a0']. destruct ST as (-> & SB & SV & SA).
      assert (HO2 := HO). destruct HO2 as (G1 & G2 & G3 & G4). assert (GG : gradient_of o' = gradient_of o) by (unfold gradient_of; rewrite G1; reflexivity). rewrite GG, G2.
      destruct (report_iter _ _ _ _ _ _ _ _ _ _ RP) as [Ei _]. assert (Em : ml_iter m = itr) by (rewrite H10; exact Ei).
      destruct (loop_sc (pp_arr pp) (pp_arr pp') cids (Z.to_nat (mx + 1)) HX (mode_of c) (gradient_of o) (pdf_of o) (threshold_of o) (threshold_of o') _ _ q0 b0 b0' v0 v0' a0 a0' st itr G G4 SB SV SA LP) as [_ (st' & L' & ES)].
      { intro GS. destruct (HR GS) as [Ht|R]; [left; exact Ht|right]. destruct (R _ _ _ _ B) as [FX RX]. split; [exact FX|]. split; [exact H8|]. intros j s Hj PJ. apply (RX j); [lia|exact PJ]. }
      rewrite L'. cbn [bind]. apply (report_sc (pp_arr pp) (pp_arr pp') cids (Z.to_nat (mx + 1)) HX (mode_of c) o o' (pp_orig pp) (pp_orig pp') st st' itr m0 HO); [|exact ES|exact RP].
      rewrite O1, O2. exact HT. }
    destruct S as (m0' & S1 & S2 & S3).
    exists (finish kw obs m0'). split; [|rewrite H10; split; [apply finish_sc; assumption|exact S3]].
    apply (run_intro chi c rd' kw o' kw pp' mm' mx obs m0' Ek H2).
    - destruct HO as (-> & _). exact H3.
    - exact H4'.
    - rewrite T1. exact H5.
    - exact H6'.
    - exact H7'.
    - rewrite T2. destruct H8 as [LN _]. unfold cids in LN. rewrite map_length in LN. rewrite LN. symmetry. apply HX.
    - rewrite T2. clear - H chi H4 H5 Ek. unfold mle_run_modeling in H. rewrite Ek in H. cbn [bind] in H. destruct (mle_run chi c rd kw o) as [m0|] eqn:E2; [|discriminate]. clear H.
      unfold mle_run in E2. destruct (assert_ (negb (kw_rej kw))); [|discriminate]. cbn [bind] in E2.
      destruct (match mo_gradient o with Some OtherGradient => Err AssertionError | _ => Ok tt end) as [u|]; [|discriminate]. cbn [bind] in E2. rewrite H4, H5 in E2. cbn [bind] in E2. cbv zeta in E2.
      destruct (run_modeling MOS rd _); [|discriminate]. cbn [bind] in E2. destruct (assert_ (Nat.eqb _ _)); [|discriminate]. cbn [bind] in E2.
      destruct (forM_ _ (content_id_of_dis_videos (rd_dvs rd))) as [u2|] eqn:E10; [|discriminate]. apply forM_assert in E10. rewrite Forall_forall in *. intros z Hz. specialize (E10 z Hz).
      apply andb_true_iff in E10 as [A B]. apply Z.leb_le in A. apply Z.ltb_lt in B. lia.
    - rewrite T2. exact S1.
  Qed.
End Whole.
