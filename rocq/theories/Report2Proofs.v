(** Results of the rating models fit the formatter: lengths (C76). *)
From Coq Require Import String.
From Coq Require Import List ZArith Bool Arith Lia Sorted.
From Verif Require Import PyBase BaseProofs Num NumPy Dataset Preproc Mos AP Mle Routine Report SpecRoutine.
Import ListNotations.
Local Open Scope list_scope.

Section Lengths.
  Context {T : Type} {N : Num T}.

  (** ** Preprocessing *)
  Lemma preprocess_dims : forall (rd : reader T) k pp, preprocess rd k = Ok pp -> exists a, rd_arr rd = Ok a /\
    dE (pp_arr pp) = dE a /\ (kw_rej k = false -> dS (pp_arr pp) = dS a) /\ (forall b, pp_bias pp = Some b -> length b = dS a) /\ pp_orig pp = a.
  Proof.
    intros rd k pp H. unfold preprocess in H. destruct (rd_arr rd) as [a|]; [|discriminate]. cbn [bind] in H. exists a. split; [reflexivity|].
    destruct (if kw_rej k then _ else _) as [[]|]; [|discriminate]. cbn [bind] in H.
    destruct (assert_ _) as [[]|]; [|discriminate]. cbn [bind] in H.
    destruct (if kw_dscore k then _ else _) as [a1|] eqn:E1; [|discriminate]. cbn [bind] in H. cbv zeta in H.
    assert (D1 : dE a1 = dE a /\ dS a1 = dS a).
    { destruct (kw_dscore k); [|injection E1 as <-; auto]. destruct (ds_ref_score (rd_ds rd)) as [[rs|]|]; try discriminate. unfold dscore in E1. cbv zeta in E1.
      destruct (get_ref_mos _ _ _ _) as [rm|]; [|discriminate]. cbn [bind] in E1. destruct (Nat.eqb _ _); [|discriminate]. injection E1 as <-. auto. }
    set (a2 := if kw_zscore k then zscore a1 else a1) in *.
    assert (D2 : dE a2 = dE a /\ dS a2 = dS a) by (unfold a2; destruct (kw_zscore k); exact D1).
    set (a3 := if kw_bias k then remove_bias a2 (bias_estimate a2) else a2) in *.
    assert (D3 : dE a3 = dE a /\ dS a3 = dS a) by (unfold a3; destruct (kw_bias k); exact D2).
    assert (B : forall b, (if kw_bias k then Some (bias_estimate a2) else None) = Some b -> length b = dS a).
    { intros b Hb. destruct (kw_bias k); [|discriminate]. injection Hb as <-. unfold bias_estimate, along0. rewrite map_length, seq_length. exact (proj2 D2). }
    destruct (kw_rej k).
    - assert (G : forall rr : rejres, (let '(a4, flags, st1, st2) := rr in Ok (PP a4 a (if kw_bias k then Some (bias_estimate a2) else None) (Some (flags, st1, st2)))) = Ok pp ->
        dE (fst (fst (fst rr))) = dE a -> dE (pp_arr pp) = dE a /\ (true = false -> dS (pp_arr pp) = dS a) /\ (forall b, pp_bias pp = Some b -> length b = dS a) /\ pp_orig pp = a).
      { intros [[[a4 fl] s1] s2] Hp De. injection Hp as <-. cbn in *. split; [exact De|]. split; [discriminate|]. split; [exact B|reflexivity]. }
      assert (K : dE (fst (fst (fst (reject_kurtosis a3)))) = dE a).
      { unfold reject_kurtosis. destruct (Nat.eqb _ _); exact (proj1 D3). }
      assert (C : forall f rr, reject_corr f a3 = Ok rr -> dE (fst (fst (fst rr))) = dE a).
      { intros f rr Hr. unfold reject_corr in Hr. destruct (observer_corr f a3); [|discriminate]. cbn [bind] in Hr. cbv zeta in Hr. injection Hr as <-. exact (proj1 D3). }
      destruct (kw_rejtype k) as [[]|].
      + cbn [bind] in H. apply (G _ H K).
      + destruct (reject_corr sp_pearsonr a3) as [rr|] eqn:E; [|discriminate]. cbn [bind] in H. apply (G _ H). eapply C; exact E.
      + destruct (reject_corr sp_spearmanr a3) as [rr|] eqn:E; [|discriminate]. cbn [bind] in H. apply (G _ H). eapply C; exact E.
      + discriminate.
      + cbn [bind] in H. apply (G _ H K).
    - injection H as <-. cbn. split; [exact (proj1 D3)|]. split; [intros _; exact (proj2 D3)|]. split; [exact B|reflexivity].
  Qed.
  Lemma post_len : forall k (q : list T), length (postprocess k q) = length q.
  Proof.
    intros k q. unfold postprocess. destruct (kw_transform_final k) as [[[p2 p1] p0]|]; destruct (kw_normalize_final k); cbv zeta; rewrite ?map_length; reflexivity.
  Qed.

  (** ** MOS family *)
  Lemma mos_len : forall c (rd : reader T) k m, run_modeling c rd k = Ok m -> exists a, rd_arr rd = Ok a /\
    length (mr_quality m) = dE a /\ length (mr_std m) = dE a /\ length (mr_ci_lo m) = dE a /\ length (mr_ci_hi m) = dE a /\
    (forall b, mr_bias m = Some b -> length b = dS a) /\ attach_observers rd = Ok (mr_observers m).
  Proof.
    intros c rd k m H. unfold run_modeling in H. destruct (run_kwargs c k) as [k'|]; [|discriminate]. cbn [bind] in H.
    destruct (mos_run c rd k') as [m0|] eqn:E; [|discriminate]. cbn [bind] in H. destruct (attach_observers rd) as [o|]; [|discriminate]. cbn [bind] in H. injection H as <-.
    unfold mos_run in E. destruct (preprocess rd k') as [pp|] eqn:EP; [|discriminate]. cbn [bind] in E. cbv zeta in E.
    destruct (preprocess_dims _ _ _ EP) as (a & RA & DE & DS & DB & _). exists a. split; [exact RA|].
    destruct (if is_biasremv c then _ else _) as [b|] eqn:EB; [|discriminate]. cbn [bind] in E. injection E as <-. cbn.
    rewrite post_len, !map_length, combine_length, !map_length, !seq_length. cbn [n0 stack1]. rewrite DE, Nat.min_id. repeat split.
    intros b' Hb. destruct (is_biasremv c); [|injection EB as <-; discriminate]. destruct (pp_bias pp) as [d|]; [|discriminate]. injection EB as <-. injection Hb as <-. apply DB. reflexivity.
  Qed.

  (** ** Projection solver *)
  Lemma ap_pass_len : forall (x : arr3 T) s b e, ap_pass x s b = Ok e -> length (es e) = dE x /\ length (eb e) = dS x /\ length (ev e) = dS x.
  Proof.
    intros x s b e H. unfold ap_pass in H. cbv zeta in H. cbn [weighed_nanmean_2d bind] in H. injection H as <-. cbn. unfold along0, along1. rewrite !map_length, !seq_length. auto.
  Qed.
  Lemma ap_loop_len : forall fuel itr (x : arr3 T) s b e n, ap_loop fuel itr x s b = Ok (e, n) -> length (es e) = dE x /\ length (eb e) = dS x /\ length (ev e) = dS x.
  Proof.
    induction fuel as [|f IH]; intros itr x s b e n H; cbn [ap_loop] in H; [discriminate|]. destruct (ap_pass x s b) as [e1|] eqn:E; [|discriminate]. cbn [bind] in H. cbv zeta in H.
    destruct (sp_norm _) as [d|]; [|discriminate]. cbn [bind] in H. destruct (nltb d epsilon); [injection H as <- _; eapply ap_pass_len; exact E|].
    destruct (Nat.leb max_itr (S itr)); [injection H as <- _; eapply ap_pass_len; exact E|]. eapply IH; exact H.
  Qed.
  Lemma ap_len : forall chi c (rd : reader T) k f m, ap_run_modeling chi c rd k f = Ok m -> exists a pp, rd_arr rd = Ok a /\ preprocess rd k = Ok pp /\
    let S := dS (pp_arr pp) in
    length (ap_quality m) = dE a /\ length (ap_quality_std m) = dE a /\ length (ap_quality_lo m) = dE a /\ length (ap_quality_hi m) = dE a /\
    length (ap_bias m) = S /\ length (ap_bias_std m) = S /\ length (ap_bias_lo m) = S /\ length (ap_bias_hi m) = S /\
    length (ap_incons m) = S /\ length (ap_incons_std m) = S /\ length (ap_incons_lo m) = S /\ length (ap_incons_hi m) = S /\
    length (ap_scores_mean m) = S /\ length (ap_scores_std m) = S /\ attach_observers rd = Ok (ap_observers m).
  Proof.
    intros chi c rd k f m H. unfold ap_run_modeling in H. destruct (preprocess rd k) as [pp|] eqn:EP; [|discriminate]. cbn [bind] in H.
    destruct (preprocess_dims _ _ _ EP) as (a & RA & DE & _). exists a, pp. split; [exact RA|]. split; [reflexivity|].
    destruct (ap_solve _ _ _ _ _) as [m0|] eqn:E; [|discriminate]. cbn [bind] in H. destruct (attach_observers rd) as [o|]; [|discriminate]. cbn [bind] in H. injection H as <-.
    unfold ap_solve in E. cbv zeta in E. destruct (ap_loop _ _ _ _ _) as [[e n]|] eqn:EL; [|discriminate]. cbn [bind] in E. apply ap_loop_len in EL. destruct EL as (L1 & L2 & L3).
    unfold zero_mean in E. destruct (match f with Some b => b | None => true end); injection E as <-; cbn;
      unfold quality_std, bias_std, inconsistency_std, along0, along1; rewrite post_len, ?map_length, ?combine_length, ?map_length, ?seq_length; cbn; rewrite ?L1, ?L2, ?L3, ?Nat.min_id, ?DE; repeat split.
  Qed.

  (** ** Maximum likelihood *)
  Lemma vmap2_len : forall (f : T -> T -> T) u v, length (vmap2 f u v) = Nat.min (length u) (length v).
  Proof. intros. unfold vmap2. rewrite map_length, combine_length. reflexivity. Qed.
  Lemma sum_e_len : forall x : arr3 T, length (sum_e x) = dS x.
  Proof. intro x. unfold sum_e, along0. rewrite map_length, seq_length. reflexivity. Qed.
  Lemma sum_s_len : forall x : arr3 T, length (sum_s x) = dE x.
  Proof. intro x. unfold sum_s, along1. rewrite map_length, seq_length. reflexivity. Qed.
  Lemma over_cid_len : forall (l : list T) cids C, length (sum_over_cid l cids C) = C.
  Proof. intros. unfold sum_over_cid. rewrite map_length, seq_length. reflexivity. Qed.
  Lemma ll_e_len : forall pdf (x : arr3 T) q b v a cids l, ll_e pdf x q b v a cids = Ok l -> length l = dS x.
  Proof.
    intros pdf x q b v a cids l H. unfold ll_e, logpdf in H. destruct pdf; cbn [bind] in H; try discriminate; [| destruct (Nat.eqb (dR x) 1); discriminate |]; injection H as <-; rewrite sum_e_len; reflexivity.
  Qed.
  Lemma ll_s_len : forall pdf (x : arr3 T) q b v a cids l, ll_s pdf x q b v a cids = Ok l -> length l = dE x.
  Proof.
    intros pdf x q b v a cids l H. unfold ll_s, logpdf in H. destruct pdf; cbn [bind] in H; try discriminate; [| destruct (Nat.eqb (dR x) 1); discriminate |]; injection H as <-; rewrite sum_s_len; reflexivity.
  Qed.
  Lemma numerical_len : forall (f : list T -> res (list T)) p n d, (forall p l, f p = Ok l -> length l = n) -> numerical f p = Ok d -> length (fst d) = n /\ length (snd d) = n.
  Proof.
    intros f p n d Hf H. unfold numerical in H.
    destruct (f (vshift _ p)) as [l1|] eqn:E1; [|discriminate]. cbn [bind] in H.
    destruct (f (vshift_down _ p)) as [l2|] eqn:E2; [|discriminate]. cbn [bind] in H.
    destruct (f (vshift eps_num p)) as [l3|] eqn:E3; [|discriminate]. cbn [bind] in H.
    destruct (f p) as [l4|] eqn:E4; [|discriminate]. cbn [bind] in H.
    destruct (f (vshift_down eps_num p)) as [l5|] eqn:E5; [|discriminate]. cbn [bind] in H. injection H as <-. cbn [fst snd].
    apply Hf in E1, E2, E3, E4, E5. rewrite !map_length, !vmap2_len. lia.
  Qed.
  Definition both (n : nat) (p : list T * list T) : Prop := length (fst p) = n /\ length (snd p) = n.
  Ltac lens := unfold both, b_simplified, b_original, v_simplified, v_original, a_simplified, a_original, x_simplified, x_original, newton; cbv zeta; cbn [fst snd];
    rewrite ?map_length, ?vmap2_len, ?sum_e_len, ?sum_s_len, ?over_cid_len; cbn; lia.

  Record sized (x : arr3 T) (C : nat) (st : mlest T) : Prop := Sized {
    z_x : length (sx st) = dE x; z_b : length (sb st) = dS x; z_v : length (sv st) = dS x; z_a : length (sa st) = C;
    z_xs : length (sx_std st) = dE x; z_bs : length (sb_std st) = dS x; z_vs : length (sv_std st) = dS x; z_as : length (sa_std st) = C }.

  Lemma pass_len : forall mode g pdf (x : arr3 T) cids C q b v a st, mle_pass mode g pdf x cids C q b v a = Ok st ->
    length q = dE x -> length b = dS x -> length v = dS x -> length a = C -> sized x C st.
  Proof.
    intros mode g pdf x cids C q b v a st H Lq Lb Lv La. unfold mle_pass in H.
    destruct (pick g (b_simplified x cids q b v a) _ _) as [pb|] eqn:Eb; [|discriminate]. cbn [bind] in H. cbv zeta in H.
    assert (B : both (dS x) pb).
    { destruct g; cbn [pick] in Eb; try discriminate.
      - injection Eb as <-. lens.
      - injection Eb as <-. lens.
      - unfold b_numerical in Eb. destruct (numerical _ b) as [d|] eqn:En; [|discriminate]. cbn [bind] in Eb. injection Eb as <-.
        apply (numerical_len _ _ (dS x)) in En as [L1 L2]; [|intros; eapply ll_e_len; eassumption]. lens. }
    set (b1 := if match mode with SubjectOblivious => true | _ => false end then zeros (dS x) else refresh b (fst pb)) in *.
    assert (Lb1 : length b1 = dS x). { unfold b1, zeros, refresh. destruct mode; rewrite ?repeat_length, ?vmap2_len; destruct B; lia. }
    destruct (pick g (v_simplified x cids q b1 v a) _ _) as [pv|] eqn:Ev; [|discriminate]. cbn [bind] in H.
    assert (Vv : both (dS x) pv).
    { destruct g; cbn [pick] in Ev; try discriminate.
      - injection Ev as <-. lens.
      - injection Ev as <-. lens.
      - unfold v_numerical in Ev. destruct (numerical _ v) as [d|] eqn:En; [|discriminate]. cbn [bind] in Ev. injection Ev as <-.
        apply (numerical_len _ _ (dS x)) in En as [L1 L2]; [|intros; eapply ll_e_len; eassumption]. lens. }
    set (v1 := if match mode with SubjectOblivious => true | _ => false end then zeros (dS x) else clip0 (refresh v (fst pv))) in *.
    assert (Lv1 : length v1 = dS x). { unfold v1, zeros, clip0, refresh. destruct mode; rewrite ?map_length, ?repeat_length, ?vmap2_len; destruct Vv; lia. }
    destruct (pick g (a_simplified x cids C q b1 v1 a) _ _) as [pa|] eqn:Ea; [|discriminate]. cbn [bind] in H.
    assert (A : both C pa).
    { destruct g; cbn [pick] in Ea; try discriminate.
      - injection Ea as <-. lens.
      - injection Ea as <-. lens.
      - unfold a_numerical in Ea. destruct (numerical _ a) as [d|] eqn:En; [|discriminate]. cbn [bind] in Ea. injection Ea as <-. lens. }
    set (a1 := if match mode with ContentOblivious => true | _ => false end then zeros C else clip0 (refresh a (fst pa))) in *.
    assert (La1 : length a1 = C). { unfold a1, zeros, clip0, refresh. destruct mode; rewrite ?map_length, ?repeat_length, ?vmap2_len; destruct A; lia. }
    destruct (pick g (x_simplified x cids q b1 v1 a1) _ _) as [px|] eqn:Ex; [|discriminate]. cbn [bind] in H. injection H as <-.
    assert (X : both (dE x) px).
    { destruct g; cbn [pick] in Ex; try discriminate.
      - injection Ex as <-. lens.
      - injection Ex as <-. lens.
      - unfold x_numerical in Ex. destruct (numerical _ q) as [d|] eqn:En; [|discriminate]. cbn [bind] in Ex. injection Ex as <-.
        apply (numerical_len _ _ (dE x)) in En as [L1 L2]; [|intros; eapply ll_s_len; eassumption]. lens. }
    destruct B, Vv, A, X. constructor; cbn [sx sb sv sa sx_std sb_std sv_std sa_std]; try assumption; try (destruct mode); unfold refresh, zeros; rewrite ?map_length, ?repeat_length, ?vmap2_len; lia.
  Qed.
  Lemma loop_len : forall fuel itr mode g pdf thr (x : arr3 T) cids C q b v a st n, mle_loop fuel itr mode g pdf thr x cids C q b v a = Ok (st, n) ->
    length q = dE x -> length b = dS x -> length v = dS x -> length a = C -> sized x C st.
  Proof.
    induction fuel as [|f IH]; intros itr mode g pdf thr x cids C q b v a st n H Lq Lb Lv La; cbn [mle_loop] in H; [discriminate|].
    destruct (mle_pass _ _ _ _ _ _ _ _ _ _) as [s1|] eqn:E; [|discriminate]. cbn [bind] in H. cbv zeta in H.
    assert (S := pass_len _ _ _ _ _ _ _ _ _ _ _ E Lq Lb Lv La).
    destruct (sp_norm _) as [d|]; [|discriminate]. cbn [bind] in H. destruct (ll_s _ _ _ _ _ _ _); [|discriminate]. cbn [bind] in H.
    destruct (nltb d thr); [injection H as <- _; exact S|]. destruct (Nat.leb mle_max_itr (Datatypes.S itr)); [injection H as <- _; exact S|]. destruct S. eapply IH; eassumption.
  Qed.

  Definition opt_len (n : nat) (o : option (list T)) : Prop := forall l, o = Some l -> length l = n.
  Record mle_sized (E S C : nat) (m : mleres T) : Prop := MleSized {
    y_q : length (ml_quality m) = E; y_qs : length (ml_quality_std m) = E; y_ql : length (ml_quality_lo m) = E; y_qh : length (ml_quality_hi m) = E;
    y_b : opt_len S (ml_bias m); y_bs : opt_len S (ml_bias_std m); y_bl : opt_len S (ml_bias_lo m); y_bh : opt_len S (ml_bias_hi m);
    y_v : opt_len S (ml_incons m); y_vs : opt_len S (ml_incons_std m); y_vl : opt_len S (ml_incons_lo m); y_vh : opt_len S (ml_incons_hi m);
    y_a : opt_len C (ml_ambiguity m); y_as : opt_len C (ml_ambiguity_std m); y_al : opt_len C (ml_ambiguity_lo m); y_ah : opt_len C (ml_ambiguity_hi m) }.
  Lemma mle_len : forall chi c (rd : reader T) k o m, mle_run_modeling chi c rd k o = Ok m -> exists a mx, rd_arr rd = Ok a /\ zmax_list (map rv_cid (ds_refs (rd_ds rd))) = Ok mx /\
    mle_sized (dE a) (dS a) (Z.to_nat (mx + 1)) m /\ attach_observers rd = Ok (ml_observers m) /\
    (ml_ambiguity m = None <-> mode_of c = ContentOblivious) /\ (ml_bias m = None <-> mode_of c = SubjectOblivious).
  Proof.
    intros chi c rd k o m H. unfold mle_run_modeling in H. destruct (mle_kwargs c k) as [k'|]; [|discriminate]. cbn [bind] in H.
    destruct (mle_run chi c rd k' o) as [m0|] eqn:E; [|discriminate]. cbn [bind] in H. destruct (attach_observers rd) as [ob|]; [|discriminate]. cbn [bind] in H. injection H as <-.
    unfold mle_run in E. destruct (assert_ (negb (kw_rej k'))) as [[]|] eqn:ER; [|discriminate]. cbn [bind] in E.
    assert (R : kw_rej k' = false) by (destruct (kw_rej k'); [discriminate|reflexivity]).
    set (gc := match mo_gradient o with Some OtherGradient => _ | _ => _ end) in E. destruct gc as [[]|]; [|discriminate]. cbn [bind] in E.
    destruct (preprocess rd k') as [pp|] eqn:EP; [|discriminate]. cbn [bind] in E. destruct (preprocess_dims _ _ _ EP) as (a & RA & DE & DS & _). specialize (DS R).
    destruct (zmax_list _) as [mx|] eqn:EZ; [|discriminate]. cbn [bind] in E. cbv zeta in E. exists a, mx. split; [exact RA|]. split; [reflexivity|].
    destruct (run_modeling MOS rd _) as [mm|] eqn:EM; [|discriminate]. cbn [bind] in E. destruct (mos_len _ _ _ _ EM) as (a' & RA' & LM & _).
    assert (a' = a) by congruence. subst a'.
    destruct (assert_ (Nat.eqb _ _)) as [[]|]; [|discriminate]. cbn [bind] in E. destruct (forM_ _ _) as [[]|]; [|discriminate]. cbn [bind] in E.
    unfold mle_solve in E. cbv zeta in E. set (C := Z.to_nat (mx + 1)) in *. set (cids := map Z.to_nat _) in *.
    destruct (mle_start _ _ _ _ _) as [[[q0 b0] v0] a0] eqn:ES. destruct (mle_loop _ _ _ _ _ _ _ _ _ _ _ _ _) as [[st n]|] eqn:EL; [|discriminate]. cbn [bind] in E.
    apply loop_len in EL.
    2-5: unfold mle_start in ES; injection ES as <- <- <- <-; unfold zeros, std_over_cid, along0; try (destruct (mode_of c)); rewrite ?repeat_length, ?map_length, ?seq_length; cbn; rewrite ?DE, ?LM; reflexivity.
    rewrite <- DE, <- DS. destruct EL. destruct (zero_mean _ (sx st) (sb st)) as [q b] eqn:EZM.
    assert (LZ : length q = length (sx st) /\ length b = length (sb st)).
    { unfold zero_mean in EZM. destruct (match mo_force o with Some f => f | None => true end); injection EZM as <- <-; rewrite ?map_length; auto. }
    destruct LZ as [LZ1 LZ2]. destruct (ll_s _ _ _ _ _ _ _) as [l|]; [|discriminate]. cbn [bind] in E. injection E as <-. split.
    - constructor; cbn; try (destruct (mode_of c)); unfold opt_len; try (intros l0 HL; try discriminate; injection HL as <-);
        rewrite ?post_len, ?map_length, ?combine_length, ?map_length, ?seq_length; cbn; lia.
    - split; [reflexivity|]; cbn; destruct (mode_of c); split; split; intro; try reflexivity; discriminate.
  Qed.
End Lengths.
