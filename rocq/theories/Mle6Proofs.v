(** Maximum likelihood models: the claims about runs. *)
From Coq Require Import String.
From Coq Require Import List ZArith Bool Arith Reals Lra Lia.
From Verif Require Import PyBase Num ExtReal NumPy Dataset Preproc Mos AP Mle SpecMos SpecAp SpecMle
  BaseProofs ExtRealProofs ArrayProofs StepsProofs MosProofs ApProofs Ap2Proofs Ap6Proofs MleProofs Mle2Proofs Mle3Proofs Mle4Proofs Mle5Proofs.
Import ListNotations.
Local Open Scope list_scope.
Local Open Scope R_scope.

Section Claims.
  Variable chi : ef -> ef -> ef.

  Lemma c36 : forall c (rd : reader ef) k o m,
    gradient_of o = Simplified -> mle_run_modeling chi c rd k o = Ok m ->
    (forall x cids C s, begins c rd k x cids C s -> finite_votes x /\
       forall j s', (j <= ml_iter m)%nat -> passes (mode_of c) Simplified (pdf_of o) x cids C j s = Ok s' -> regular_state x cids C s') ->
    mle_run_modeling chi c rd k (MleOpts (Some Original) (mo_pdf o) (mo_delta o) (mo_force o)) = Ok m.
  Proof.
    intros c rd k o m HG H HR.
    destruct (run_inv chi _ _ _ _ _ H) as (k' & pp & mm & mx & obs & m0 & H1 & H2 & H3 & H4 & H5 & H6 & H7 & (H8 & H9) & H10).
    set (cids := map Z.to_nat (content_id_of_dis_videos (rd_dvs rd))) in *.
    assert (B : begins c rd k (pp_arr pp) cids (Z.to_nat (mx + 1)) (mle_start (mode_of c) (pp_arr pp) cids (Z.to_nat (mx + 1)) (mr_quality mm))).
    { exists k', pp, mm. repeat (split; [first [assumption|reflexivity]|]). split; [exists mx; split; [exact H5|reflexivity]|reflexivity]. }
    destruct (HR _ _ _ _ B) as [HF HS]. assert (Ei : ml_iter m = ml_iter m0) by (rewrite H10; reflexivity). rewrite Ei in HS.
    assert (G := solve_agree chi (mode_of c) o _ _ _ _ _ m0 HF H8 HG H9 HS).
    unfold mle_run_modeling in *. rewrite H1 in *. cbn [bind] in *. unfold mle_run in *.
    rewrite H2 in *. cbn [negb assert_ bind] in *. rewrite H4 in *. cbn [mo_gradient bind] in *.
    destruct (match mo_gradient o with Some OtherGradient => Err AssertionError | _ => Ok tt end) as [u|]; [|discriminate]. cbn [bind] in *.
    rewrite H5 in *. cbn [bind] in *. cbv zeta in *. unfold no_options in H6. rewrite H6 in *. cbn [bind] in *.
    destruct (assert_ (Nat.eqb (dE (pp_arr pp)) (Datatypes.length (content_id_of_dis_videos (rd_dvs rd))))); [|discriminate]. cbn [bind] in *.
    destruct (forM_ _ (content_id_of_dis_videos (rd_dvs rd))); [|discriminate]. cbn [bind] in *. fold cids in H |- *.
    rewrite H9 in H. unfold with_gradient in G. rewrite G. exact H.
  Qed.

  (** ** C40 *)
  Lemma pick_diverges : forall A g (s o : A) n, n <> Err Diverges -> pick g s o n <> Err Diverges.
  Proof. intros A [] s o n H; cbn; congruence. Qed.
  Lemma ll_diverges : forall pdf (x : arr3 ef) q b v a cids, ll_s pdf x q b v a cids <> Err Diverges /\ ll_e pdf x q b v a cids <> Err Diverges.
  Proof. intros. unfold ll_s, ll_e, logpdf. destruct pdf; cbn; try (split; discriminate). destruct (Nat.eqb (dR x) 1); cbn; split; discriminate. Qed.
  Lemma bind_diverges : forall A B (r : res A) (f : A -> res B), r <> Err Diverges -> (forall y, f y <> Err Diverges) -> bind r f <> Err Diverges.
  Proof. intros A B [y|e] f H1 H2; cbn; [apply H2|congruence]. Qed.
  Lemma numerical_diverges : forall (f : list ef -> res (list ef)) p, (forall p, f p <> Err Diverges) -> numerical f p <> Err Diverges.
  Proof. intros f p H. unfold numerical. repeat (apply bind_diverges; [apply H|intro]). discriminate. Qed.
  Lemma pass_diverges : forall mode g pdf (x : arr3 ef) cids C q b v a, mle_pass mode g pdf x cids C q b v a <> Err Diverges.
  Proof.
    intros. unfold mle_pass.
    assert (NB : forall q b v a, b_numerical pdf x cids q b v a <> Err Diverges).
    { intros. apply bind_diverges; [apply numerical_diverges; intro; apply ll_diverges|discriminate]. }
    assert (NV : forall q b v a, v_numerical pdf x cids q b v a <> Err Diverges).
    { intros. apply bind_diverges; [apply numerical_diverges; intro; apply ll_diverges|discriminate]. }
    assert (NA : forall q b v a, a_numerical pdf x cids C q b v a <> Err Diverges).
    { intros. apply bind_diverges; [apply numerical_diverges; intro; apply ll_diverges|discriminate]. }
    assert (NX : forall q b v a, x_numerical pdf x cids q b v a <> Err Diverges).
    { intros. apply bind_diverges; [apply numerical_diverges; intro; apply ll_diverges|discriminate]. }
    apply bind_diverges; [apply pick_diverges, NB|]. intro pb. cbv zeta.
    apply bind_diverges; [apply pick_diverges, NV|]. intro pv.
    apply bind_diverges; [apply pick_diverges, NA|]. intro pa.
    apply bind_diverges; [apply pick_diverges, NX|]. discriminate.
  Qed.
  Lemma moved_diverges : forall s s', moved s s' <> Err Diverges.
  Proof. intros [[[q b] v] a] [[[q' b'] v'] a']. unfold moved, sp_norm. destruct (existsb _ _); discriminate. Qed.
  Lemma loop_terminates : forall mode g pdf (x : arr3 ef) cids C thr fuel itr q b v a,
    (mle_max_itr <= fuel + itr)%nat -> fuel <> 0%nat -> mle_loop fuel itr mode g pdf thr x cids C q b v a <> Err Diverges.
  Proof.
    intros mode g pdf x cids C thr. induction fuel as [|f IH]; intros itr q b v a L N; [contradiction|]. rewrite loop_unfold.
    apply bind_diverges; [apply pass_diverges|]. intro st. apply bind_diverges; [apply moved_diverges|]. intro d.
    apply bind_diverges; [apply ll_diverges|]. intros _. destruct (ef_ltb d thr); [discriminate|].
    destruct (Nat.leb mle_max_itr (S itr)) eqn:E; [discriminate|]. apply Nat.leb_gt in E. apply IH; lia.
  Qed.
  Lemma max_itr_pos : mle_max_itr <> 0%nat.
  Proof. unfold mle_max_itr. lia. Qed.
  Lemma solve_terminates : forall mode o x x0 mos cids C, mle_solve chi mode o x x0 mos cids C <> Err Diverges.
  Proof.
    intros. rewrite solve_split. apply bind_diverges.
    - unfold loop_from. destruct (mle_start mode x cids C mos) as [[[q b] v] a]. apply loop_terminates; [lia|exact max_itr_pos].
    - intros [st itr]. unfold report. destruct (zero_mean _ _ _). apply bind_diverges; [apply ll_diverges|discriminate].
  Qed.
  Lemma c40_terminates : forall c ds (rd : reader ef) k o x cids C s, raw_reader ds = Ok rd -> begins c rd k x cids C s ->
    mle_run_modeling chi c rd k o <> Err Diverges.
  Proof.
    intros c ds rd k o x cids C s HD (k' & pp & mm & K1 & K2 & K3 & K4 & K5 & (mx & K6 & K7) & K8).
    destruct (attach_total ds rd HD) as (obs & Ho). unfold mle_run_modeling. rewrite K1. cbn [bind]. apply bind_diverges; [|intro; rewrite Ho; discriminate].
    unfold mle_run. unfold assert_ at 1. destruct (negb (kw_rej k')); [|discriminate]. cbn [bind].
    apply bind_diverges; [destruct (mo_gradient o) as [[]|]; discriminate|]. intros _. rewrite K2. cbn [bind]. rewrite K6. cbn [bind]. cbv zeta.
    unfold no_options in K4. rewrite K4. cbn [bind]. apply bind_diverges; [unfold assert_; destruct (Nat.eqb _ _); discriminate|]. intros _.
    apply bind_diverges; [|intro; apply solve_terminates].
    generalize (content_id_of_dis_videos (rd_dvs rd)). induction l as [|z l IH]; [discriminate|]. cbn. unfold assert_ at 1.
    destruct (_ && _)%bool; cbn; [exact IH|discriminate].
  Qed.
  Lemma c40_stops : forall c (rd : reader ef) k o x cids C s m, begins c rd k x cids C s -> mle_run_modeling chi c rd k o = Ok m ->
    stops_at (mode_of c) (gradient_of o) (pdf_of o) x cids C (threshold_of o) s (ml_iter m).
  Proof.
    intros c rd k o x cids C s m B H. destruct (run_begins chi _ _ _ _ _ _ _ _ _ H B) as (k' & pp & mm & obs & m0 & H1 & H2 & H3 & H4 & H5 & H6 & H7).
    destruct (solve_inv chi _ _ _ _ _ _ _ _ H6) as (st & itr & L & R). destruct (report_iter _ _ _ _ _ _ _ _ _ _ R) as [I _].
    replace (ml_iter m) with itr by (rewrite H7, <- I; reflexivity). unfold loop_from in L. rewrite <- H5 in L. destruct s as [[[q b] v] a].
    destruct (loop_stops _ _ _ _ _ _ _ _ _ _ _ _ _ _ _ L) as (L1 & (q' & b' & v' & a' & d & P1 & P2 & P3 & P4 & P5) & J).
    rewrite Nat.add_0_r in L1. rewrite Nat.sub_0_r in *.
    split; [change (100 * 100)%nat with mle_max_itr; lia|]. split.
    - exists (q', b', v', a'), (vecs st), d. split; [exact P1|]. split; [exact P3|]. split; [exact P4|].
      destruct P5 as [P5|P5]; [left; exact P5|right]. change (100 * 100)%nat with mle_max_itr. lia.
    - exact J.
  Qed.

  (** ** C38 *)
  Lemma clip0_nonneg : forall l : list ef, Forall nonneg (clip0 l).
  Proof.
    intro l. unfold clip0. apply Forall_forall. intros y Hy. apply in_map_iff in Hy as (z & <- & _). unfold nmaximum, nzero, none_. efc.
    cbn [ef_mul]. destruct z as [r| | |]; cbn; try exact I.
    - destruct (Rltb (0 * 1) r) eqn:E; cbn; [apply Rltb_true in E; lra|lra].
    - lra.
  Qed.
  Lemma zeros_nonneg : forall n, Forall nonneg (zeros (T := ef) n).
  Proof. intro n. unfold zeros. apply Forall_forall. intros y Hy. apply repeat_spec in Hy. subst. cbn. lra. Qed.
  Lemma inv_list_nonneg : forall l, Forall nonneg (map inv_sqrt_pos l).
  Proof. intro l. apply Forall_forall. intros y Hy. apply in_map_iff in Hy as (z & <- & _). apply inv_sqrt_pos_nonneg. Qed.

  Lemma pass_facts : forall mode g pdf (x : arr3 ef) cids C q b v a st, mle_pass mode g pdf x cids C q b v a = Ok st ->
    Forall nonneg (sv st) /\ Forall nonneg (sa st) /\ Forall nonneg (sx_std st) /\ Forall nonneg (sb_std st) /\ Forall nonneg (sv_std st) /\ Forall nonneg (sa_std st) /\
    (mode = ContentOblivious -> sa st = repeat (Fin 0) C) /\
    (mode = SubjectOblivious -> sb st = repeat (Fin 0) (dS x) /\ sv st = repeat (Fin 0) (dS x)) /\
    (exists y, sx st = refresh q y).
  Proof.
    intros mode g pdf x cids C q b v a st H. unfold mle_pass in H.
    destruct (pick g (b_simplified x cids q b v a) _ _) as [pb|]; [|discriminate]. cbn [bind] in H. cbv zeta in H.
    destruct (pick g (v_simplified _ _ _ _ _ _) _ _) as [pv|]; [|discriminate]. cbn [bind] in H.
    destruct (pick g (a_simplified _ _ _ _ _ _ _) _ _) as [pa|]; [|discriminate]. cbn [bind] in H.
    destruct (pick g (x_simplified _ _ _ _ _ _) _ _) as [px|]; [|discriminate]. cbn [bind] in H. apply Ok_inj in H. subst st.
    cbn [sv sa sb sx sx_std sb_std sv_std sa_std].
    destruct mode; repeat (split; [first [apply clip0_nonneg|apply zeros_nonneg|apply inv_list_nonneg|discriminate|intros _; repeat split; reflexivity]|]); eexists; reflexivity.
  Qed.

  Definition opt_nonneg (l : option (list ef)) : Prop := match l with Some l => Forall nonneg l | None => True end.
  Lemma ci_nonneg : forall l : list ef, Forall nonneg l -> Forall nonneg (map (fun y => nmul z95 y) l).
  Proof.
    intros l Hl. apply Forall_forall. intros y Hy. apply in_map_iff in Hy as (w & <- & Hw). rewrite z95_ef. apply z95_nonneg.
    rewrite Forall_forall in Hl. apply Hl. exact Hw.
  Qed.
  Lemma report_facts : forall mode o x x0 cids C st itr m, report chi mode o x x0 cids C st itr = Ok m ->
    Forall nonneg (sv st) -> Forall nonneg (sa st) -> Forall nonneg (sx_std st) -> Forall nonneg (sb_std st) -> Forall nonneg (sv_std st) -> Forall nonneg (sa_std st) ->
    Forall nonneg (ml_quality_std m) /\ Forall nonneg (ml_quality_lo m) /\ Forall nonneg (ml_quality_hi m) /\
    opt_nonneg (ml_bias_std m) /\ opt_nonneg (ml_bias_lo m) /\ opt_nonneg (ml_bias_hi m) /\
    opt_nonneg (ml_incons m) /\ opt_nonneg (ml_incons_std m) /\
    opt_nonneg (ml_ambiguity m) /\ opt_nonneg (ml_ambiguity_std m) /\ opt_nonneg (ml_ambiguity_lo m) /\ opt_nonneg (ml_ambiguity_hi m) /\
    (mode = SubjectOblivious <-> ml_bias m = None) /\ (mode = SubjectOblivious <-> ml_incons m = None) /\ (mode = ContentOblivious <-> ml_ambiguity m = None).
  Proof.
    intros mode o x x0 cids C st itr m H F1 F2 F3 F4 F5 F6. unfold report in H. destruct (zero_mean _ _ _) as [q b]. cbv zeta in H.
    destruct (ll_s _ _ _ _ _ _ _); [|discriminate]. cbn [bind] in H. apply Ok_inj in H. subst m.
    cbn [ml_quality_std ml_quality_lo ml_quality_hi ml_bias_std ml_bias_lo ml_bias_hi ml_incons ml_incons_std ml_ambiguity ml_ambiguity_std ml_ambiguity_lo ml_ambiguity_hi ml_bias].
    destruct mode; cbn [opt_nonneg]; repeat (split; [first [assumption|exact I|apply ci_nonneg; assumption|split; (discriminate || reflexivity)]|]); split; (discriminate || reflexivity).
  Qed.

  Lemma c38 : forall c (rd : reader ef) k o m, mle_run_modeling chi c rd k o = Ok m ->
    Forall nonneg (ml_quality_std m) /\ Forall nonneg (ml_quality_lo m) /\ Forall nonneg (ml_quality_hi m) /\
    opt_nonneg (ml_bias_std m) /\ opt_nonneg (ml_bias_lo m) /\ opt_nonneg (ml_bias_hi m) /\
    opt_nonneg (ml_incons m) /\ opt_nonneg (ml_incons_std m) /\
    opt_nonneg (ml_ambiguity m) /\ opt_nonneg (ml_ambiguity_std m) /\ opt_nonneg (ml_ambiguity_lo m) /\ opt_nonneg (ml_ambiguity_hi m) /\
    (mode_of c = SubjectOblivious <-> ml_bias m = None) /\ (mode_of c = SubjectOblivious <-> ml_incons m = None) /\
    (mode_of c = ContentOblivious <-> ml_ambiguity m = None).
  Proof.
    intros c rd k o m H.
    destruct (run_inv chi _ _ _ _ _ H) as (k' & pp & mm & mx & obs & m0 & H1 & H2 & H3 & H4 & H5 & H6 & H7 & (H8 & H9) & H10).
    destruct (solve_inv chi _ _ _ _ _ _ _ _ H9) as (st & itr & L & R). unfold loop_from in L. destruct (mle_start _ _ _ _ _) as [[[q b] v] a].
    destruct (loop_stops _ _ _ _ _ _ _ _ _ _ _ _ _ _ _ L) as (_ & (q' & b' & v' & a' & d & _ & P & _) & _).
    destruct (pass_facts _ _ _ _ _ _ _ _ _ _ _ P) as (F1 & F2 & F3 & F4 & F5 & F6 & _).
    rewrite H10. exact (report_facts _ _ _ _ _ _ _ _ _ R F1 F2 F3 F4 F5 F6).
  Qed.
  Lemma c38_modes : forall c (rd : reader ef) k x cids C s g pdf j q b v a, begins c rd k x cids C s ->
    passes (mode_of c) g pdf x cids C j s = Ok (q, b, v, a) ->
    (mode_of c = ContentOblivious -> a = repeat (Fin 0) C) /\
    (mode_of c = SubjectOblivious -> b = repeat (Fin 0) (dS x) /\ v = repeat (Fin 0) (dS x)) /\
    ((1 <= j)%nat -> Forall nonneg v /\ Forall nonneg a).
  Proof.
    intros c rd k x cids C s g pdf j q b v a (k' & pp & mm & K1 & K2 & K3 & K4 & K5 & K6 & K8) P.
    destruct j as [|j].
    - cbn in P. apply Ok_inj in P. rewrite K8 in P. unfold mle_start in P. injection P as _ <- <- <-.
      split; [|split; [|lia]]; intro M; rewrite M; repeat split; reflexivity.
    - rewrite passes_S in P. destruct (passes (mode_of c) g pdf x cids C j s) as [[[[q1 b1] v1] a1]|]; [|discriminate]. cbn [bind one] in P.
      destruct (mle_pass _ _ _ _ _ _ _ _ _ _) as [st|] eqn:E; [|discriminate]. cbn [bind] in P. apply Ok_inj in P. unfold vecs in P. injection P as <- <- <- <-.
      destruct (pass_facts _ _ _ _ _ _ _ _ _ _ _ E) as (F1 & F2 & F3 & F4 & F5 & F6 & F7 & F8 & _). auto.
  Qed.

  (** ** C33: subject rejection is refused before anything is computed. *)
  Lemma c33 : forall c (rd : reader ef) k o, kw_rej k = true -> mle_run_modeling chi c rd k o = Err AssertionError.
  Proof.
    intros c rd k o H. unfold mle_run_modeling. destruct c; cbn [mle_kwargs bind]; unfold guard, assert_;
      try (unfold mle_run; rewrite H; reflexivity).
    - destruct (kw_dscore k); cbn [negb bind]; [reflexivity|]. unfold mle_run. change (kw_rej (set_dscore k)) with (kw_rej k). rewrite H. reflexivity.
    - destruct (kw_dscore k); cbn [negb bind]; [reflexivity|]. unfold mle_run. change (kw_rej (set_dscore k)) with (kw_rej k). rewrite H. reflexivity.
  Qed.
  Lemma c33_dscore : forall (rd : reader ef) k o c, (c = DMOS_MLE \/ c = DMOS_MLE_CO) -> kw_dscore k = true -> mle_run_modeling chi c rd k o = Err AssertionError.
  Proof. intros rd k o c [->| ->] H; unfold mle_run_modeling; cbn [mle_kwargs]; unfold guard; rewrite H; reflexivity. Qed.
End Claims.
