(** Maximum likelihood models: properties of whole runs (C36, C38-C40, C33). *)
From Coq Require Import String.
From Coq Require Import List ZArith Bool Arith Reals Lra Lia.
From Verif Require Import PyBase Num ExtReal NumPy Dataset Preproc Mos AP Mle SpecMos SpecAp SpecMle
  BaseProofs ExtRealProofs ArrayProofs StepsProofs MosProofs ApProofs Ap2Proofs Ap6Proofs MleProofs Mle2Proofs Mle3Proofs Mle4Proofs.
Import ListNotations.
Local Open Scope list_scope.
Local Open Scope R_scope.

Lemma epsilon_is : (epsilon : ef) = Fin (1 / 100000000).
Proof. apply epsilon_ef. Qed.

(** ** Taking a run apart *)
Section Run.
  Variable chi : ef -> ef -> ef.

  Definition finish (k' : kwargs ef) (obs : option (list string)) (m : mleres ef) : mleres ef :=
    MleRes (ml_raw m) (postprocess k' (ml_quality m)) (ml_quality_std m) (ml_quality_lo m) (ml_quality_hi m) (ml_iter m)
          (ml_bias m) (ml_bias_std m) (ml_bias_lo m) (ml_bias_hi m)
          (ml_incons m) (ml_incons_std m) (ml_incons_lo m) (ml_incons_hi m)
          (ml_ambiguity m) (ml_ambiguity_std m) (ml_ambiguity_lo m) (ml_ambiguity_hi m)
          (ml_recon m) (ml_dof m) (ml_ll m) (ml_aic m) (ml_bic m) obs.

  Lemma forM_assert : forall A (t : A -> bool) l u, forM_ (fun c => assert_ (t c)) l = Ok u -> Forall (fun c => t c = true) l.
  Proof.
    intros A t. induction l as [|a l IH]; intros u H; [constructor|]. cbn in H. unfold assert_ in H at 1. destruct (t a) eqn:E; [|discriminate].
    cbn in H. constructor; [exact E|]. eapply IH. exact H.
  Qed.

  Lemma run_inv : forall c (rd : reader ef) k o m, mle_run_modeling chi c rd k o = Ok m ->
    exists k' pp mm mx obs m0,
      mle_kwargs c k = Ok k' /\ kw_rej k' = false /\ mo_gradient o <> Some OtherGradient /\
      preprocess rd k' = Ok pp /\ zmax_list (map rv_cid (ds_refs (rd_ds rd))) = Ok mx /\
      run_modeling MOS rd no_options = Ok mm /\ attach_observers rd = Ok obs /\
      (let cids := map Z.to_nat (content_id_of_dis_videos (rd_dvs rd)) in
       fits (pp_arr pp) cids (Z.to_nat (mx + 1)) /\
       mle_solve chi (mode_of c) o (pp_arr pp) (pp_orig pp) (mr_quality mm) cids (Z.to_nat (mx + 1)) = Ok m0) /\
      m = finish k' obs m0.
  Proof.
    intros c rd k o m H. unfold mle_run_modeling in H.
    destruct (mle_kwargs c k) as [k'|] eqn:E1; [|discriminate]. cbn [bind] in H.
    destruct (mle_run chi c rd k' o) as [m0|] eqn:E2; [|discriminate]. cbn [bind] in H.
    destruct (attach_observers rd) as [obs|] eqn:E3; [|discriminate]. cbn [bind] in H.
    unfold mle_run in E2. unfold assert_ at 1 in E2. destruct (kw_rej k') eqn:E4; [discriminate|]. cbn [negb bind] in E2.
    destruct (match mo_gradient o with Some OtherGradient => Err AssertionError | _ => Ok tt end) as [u|] eqn:E5; [|discriminate]. cbn [bind] in E2.
    destruct (preprocess rd k') as [pp|] eqn:E6; [|discriminate]. cbn [bind] in E2.
    destruct (zmax_list (map rv_cid (ds_refs (rd_ds rd)))) as [mx|] eqn:E7; [|discriminate]. cbn [bind] in E2. cbv zeta in E2.
    destruct (run_modeling MOS rd (KW false false false false None false None)) as [mm|] eqn:E8; [|discriminate]. cbn [bind] in E2.
    unfold assert_ at 1 in E2. destruct (Nat.eqb (dE (pp_arr pp)) (length (content_id_of_dis_videos (rd_dvs rd)))) eqn:E9; [|discriminate]. cbn [bind] in E2.
    destruct (forM_ _ (content_id_of_dis_videos (rd_dvs rd))) as [u2|] eqn:E10; [|discriminate]. cbn [bind] in E2.
    exists k', pp, mm, mx, obs, m0. split; [reflexivity|]. split; [exact E4|]. split; [intro K; rewrite K in E5; discriminate|].
    split; [exact E6|]. split; [reflexivity|]. split; [exact E8|]. split; [reflexivity|]. split.
    - cbv zeta. split; [|exact E2]. split; [rewrite map_length; apply Nat.eqb_eq in E9; symmetry; exact E9|].
      apply forM_assert in E10. rewrite Forall_forall in *. intros y Hy. apply in_map_iff in Hy as (z & <- & Hz). specialize (E10 z Hz).
      apply andb_true_iff in E10 as [A B]. apply Z.leb_le in A. apply Z.ltb_lt in B. lia.
    - apply Ok_inj in H. symmetry. exact H.
  Qed.

  Lemma run_begins : forall c (rd : reader ef) k o m x cids C s, mle_run_modeling chi c rd k o = Ok m -> begins c rd k x cids C s ->
    exists k' pp mm obs m0, mle_kwargs c k = Ok k' /\ preprocess rd k' = Ok pp /\ x = pp_arr pp /\ fits x cids C /\
      s = mle_start (mode_of c) x cids C (mr_quality mm) /\
      mle_solve chi (mode_of c) o x (pp_orig pp) (mr_quality mm) cids C = Ok m0 /\ m = finish k' obs m0.
  Proof.
    intros c rd k o m x cids C s H (k' & pp & mm & K1 & K2 & K3 & K4 & K5 & (mx & K6 & K7) & K8).
    destruct (run_inv _ _ _ _ _ H) as (k2 & pp2 & mm2 & mx2 & obs & m0 & H1 & H2 & H3 & H4 & H5 & H6 & H7 & (H8 & H9) & H10).
    rewrite K1 in H1. apply Ok_inj in H1. subst k2. rewrite K2 in H4. apply Ok_inj in H4. subst pp2. rewrite K6 in H5. apply Ok_inj in H5. subst mx2.
    rewrite K4 in H6. apply Ok_inj in H6. subst mm2. subst x cids C.
    exists k', pp, mm, obs, m0. auto 10.
  Qed.
  Lemma begins_exists : forall c (rd : reader ef) k o m, mle_run_modeling chi c rd k o = Ok m -> exists x cids C s, begins c rd k x cids C s.
  Proof.
    intros c rd k o m H. destruct (run_inv _ _ _ _ _ H) as (k2 & pp2 & mm2 & mx2 & obs & m0 & H1 & H2 & H3 & H4 & H5 & H6 & H7 & _).
    exists (pp_arr pp2), (map Z.to_nat (content_id_of_dis_videos (rd_dvs rd))), (Z.to_nat (mx2 + 1)),
      (mle_start (mode_of c) (pp_arr pp2) (map Z.to_nat (content_id_of_dis_videos (rd_dvs rd))) (Z.to_nat (mx2 + 1)) (mr_quality mm2)).
    exists k2, pp2, mm2. repeat (split; [first [assumption|reflexivity]|]). split; [exists mx2; split; [exact H5|reflexivity]|reflexivity].
  Qed.

  (** The solver as its loop and the report. *)
  Definition report (mode : mlemode) (o : mleopts ef) (x x0 : arr3 ef) (cids : list nat) (C : nat) (st : mlest ef) (itr : nat) : res (mleres ef) :=
    let force := match mo_force o with Some f => f | None => true end in
    let '(q, b) := zero_mean force (sx st) (sb st) in
    let ci l := map (fun y => nmul z95 y) l in
    let so := match mode with SubjectOblivious => true | _ => false end in
    let co := match mode with ContentOblivious => true | _ => false end in
    let unless (f : bool) (l : list ef) := if f then None else Some l in
    let cnt_s := map (fun s => np_cnt (col (stack0 x) s)) (seq 0 (n1 (stack0 x))) in
    let num_os0 := np_cnt (flat3 x0) in
    let num_os := np_cnt (flat3 x) in
    let dof := ndiv (nofnat (mle_dof mode (dE x0) (dS x0) C (dR x0))) (nofnat num_os0) in
    do l <- ll_s (pdf_of o) x q b (sv st) (sa st) cids;
    let ll := ndiv (np_sum l) (nofnat num_os) in
    Ok (MleRes x
         q (sx_std st) (ci (sx_std st)) (ci (sx_std st)) itr
         (unless so b) (unless so (sb_std st)) (unless so (ci (sb_std st))) (unless so (ci (sb_std st)))
         (unless so (sv st)) (unless so (sv_std st))
         (unless so (map (fun p => nmul (nsub none_ (nsqrt (ndiv (nofnat (fst p)) (chi (nsub none_ (ndec 25 1000)) (nofnat (fst p)))))) (snd p)) (combine cnt_s (sv st))))
         (unless so (map (fun p => nmul (nsub (nsqrt (ndiv (nofnat (fst p)) (chi (ndec 25 1000) (nofnat (fst p))))) none_) (snd p)) (combine cnt_s (sv st))))
         (unless co (sa st)) (unless co (sa_std st)) (unless co (ci (sa_std st))) (unless co (ci (sa_std st)))
         (ap_reconstructions x q b)
         dof ll (nsub (nmul (nofZ 2) dof) (nmul (nofZ 2) ll)) (nsub (nmul (nln (nofnat num_os0)) dof) (nmul (nofZ 2) ll)) None).

  Definition loop_from (mode : mlemode) (o : mleopts ef) (x : arr3 ef) (cids : list nat) (C : nat) (s : vectors) : res (mlest ef * nat) :=
    let '(q, b, v, a) := s in mle_loop mle_max_itr 0 mode (gradient_of o) (pdf_of o) (threshold_of o) x cids C q b v a.
  Lemma solve_split : forall mode o x x0 mos cids C, mle_solve chi mode o x x0 mos cids C =
    do en <- loop_from mode o x cids C (mle_start mode x cids C mos); let '(st, itr) := en in report mode o x x0 cids C st itr.
  Proof.
    intros. unfold mle_solve, loop_from, report, threshold_of, gradient_of, pdf_of. rewrite <- epsilon_is.
    destruct (mle_start mode x cids C mos) as [[[q0 b0] v0] a0]. reflexivity.
  Qed.
  Lemma solve_inv : forall mode o x x0 mos cids C m, mle_solve chi mode o x x0 mos cids C = Ok m ->
    exists st itr, loop_from mode o x cids C (mle_start mode x cids C mos) = Ok (st, itr) /\ report mode o x x0 cids C st itr = Ok m.
  Proof.
    intros mode o x x0 mos cids C m H. rewrite solve_split in H. destruct (loop_from _ _ _ _ _ _) as [[st itr]|] eqn:E; [|discriminate].
    cbn [bind] in H. exists st, itr. auto.
  Qed.
  Lemma report_iter : forall mode o x x0 cids C st itr m, report mode o x x0 cids C st itr = Ok m -> ml_iter m = itr /\ ml_raw m = x.
  Proof.
    intros mode o x x0 cids C st itr m H. unfold report in H. destruct (zero_mean _ _ _) as [q b]. cbv zeta in H.
    destruct (ll_s _ _ _ _ _ _ _); [|discriminate]. cbn [bind] in H. apply Ok_inj in H. subst m. split; reflexivity.
  Qed.

  (** ** C36 *)
  Definition with_gradient (g : gradmethod) (o : mleopts ef) : mleopts ef := MleOpts (Some g) (mo_pdf o) (mo_delta o) (mo_force o).
  Lemma solve_agree : forall mode o x x0 mos cids C m, finite_votes x -> fits x cids C -> gradient_of o = Simplified ->
    mle_solve chi mode o x x0 mos cids C = Ok m ->
    (forall j s, (j <= ml_iter m)%nat -> passes mode Simplified (pdf_of o) x cids C j (mle_start mode x cids C mos) = Ok s -> regular_state x cids C s) ->
    mle_solve chi mode (with_gradient Original o) x x0 mos cids C = Ok m.
  Proof.
    intros mode o x x0 mos cids C m HF HC HG H HR. destruct (solve_inv _ _ _ _ _ _ _ _ H) as (st & itr & L & R).
    rewrite solve_split. unfold loop_from in *. destruct (mle_start mode x cids C mos) as [[[q0 b0] v0] a0]. rewrite HG in L.
    destruct (report_iter _ _ _ _ _ _ _ _ _ R) as [I _]. rewrite I in HR.
    destruct (loop_agree mode (pdf_of o) x cids C _ _ _ _ _ _ _ _ _ HF HC L) as [_ L2].
    { intros j s Hj P. apply (HR j); [lia|exact P]. }
    change (gradient_of (with_gradient Original o)) with Original. change (pdf_of (with_gradient Original o)) with (pdf_of o).
    change (threshold_of (with_gradient Original o)) with (threshold_of o). rewrite L2. cbn [bind]. exact R.
  Qed.

  Lemma run_intro : forall c (rd : reader ef) k o k' pp mm mx obs m0,
      mle_kwargs c k = Ok k' -> kw_rej k' = false -> mo_gradient o <> Some OtherGradient ->
      preprocess rd k' = Ok pp -> zmax_list (map rv_cid (ds_refs (rd_ds rd))) = Ok mx ->
      run_modeling MOS rd no_options = Ok mm -> attach_observers rd = Ok obs ->
      length (content_id_of_dis_videos (rd_dvs rd)) = dE (pp_arr pp) -> Forall (fun c => (0 <= c < mx + 1)%Z) (content_id_of_dis_videos (rd_dvs rd)) ->
      mle_solve chi (mode_of c) o (pp_arr pp) (pp_orig pp) (mr_quality mm) (map Z.to_nat (content_id_of_dis_videos (rd_dvs rd))) (Z.to_nat (mx + 1)) = Ok m0 ->
      mle_run_modeling chi c rd k o = Ok (finish k' obs m0).
  Proof.
    intros c rd k o k' pp mm mx obs m0 H1 H2 H3 H4 H5 H6 H7 H8 H9 H10. unfold mle_run_modeling. rewrite H1. cbn [bind].
    unfold mle_run. rewrite H2. cbn [negb assert_ bind]. rewrite H4. cbn [bind].
    assert (G : match mo_gradient o with Some OtherGradient => Err AssertionError | _ => Ok tt end = Ok tt).
    { destruct (mo_gradient o) as [[]|]; try reflexivity. contradiction. }
    rewrite G. cbn [bind]. rewrite H5. cbn [bind]. cbv zeta. unfold no_options in H6. rewrite H6. cbn [bind]. rewrite <- H8, Nat.eqb_refl. cbn [assert_ bind].
    assert (F : forall l, Forall (fun c => (0 <= c < mx + 1)%Z) l -> forM_ (fun c0 : Z => assert_ ((0 <=? c0)%Z && (c0 <? mx + 1)%Z)) l = Ok tt).
    { induction l as [|z l IH]; intro F; [reflexivity|]. inversion F as [|? ? A B]. subst. cbn.
      rewrite (proj2 (Z.leb_le 0 z)) by lia. rewrite (proj2 (Z.ltb_lt z (mx + 1))) by lia. cbn. apply IH. exact B. }
    rewrite F by exact H9. cbn [bind]. rewrite H10. cbn [bind]. rewrite H7. reflexivity.
  Qed.
End Run.
