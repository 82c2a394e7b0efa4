(** Proofs about the early maximum likelihood model: the steps of a pass. *)
From Coq Require Import String.
From Coq Require Import List ZArith Bool Arith Reals Lra Lia.
From Verif Require Import PyBase Num ExtReal NumPy Dataset Preproc Mos AP Mle OtherModels SpecMos SpecAp SpecMle SpecOther
  BaseProofs ExtRealProofs ArrayProofs StepsProofs MosProofs ApProofs Ap2Proofs MleProofs Mle2Proofs Mle3Proofs Mle7Proofs Mle8Proofs.
Import ListNotations.
Local Open Scope R_scope.

Lemma newton_step_ext : forall f g t s c, (forall z, f z = g z) -> newton_step f t s c -> newton_step g t s c.
Proof.
  intros f g t s c H (f' & d2 & (w & Hw & D) & D2 & Es & Ec). exists f', d2. split; [|auto]. exists w. split; [exact Hw|].
  intros z Hz. apply (d_ext f); auto.
Qed.
Lemma plain_is : forall x q b v cid, plain_lik x q b v = log_lik x cid (Params q b v (fun _ => 0)).
Proof.
  intros. unfold plain_lik, log_lik, variance. cbn [pq pb pv pa]. apply tsum_ext. intros e i r w _ _. f_equal.
  rewrite Rmult_0_l, Rplus_0_r. symmetry. apply (sqrt_Rsqr_abs (v i)).
Qed.
Section Pass.
  Variables (x : arr3 ef) (q b v lv : list ef) (Q B V : nat -> R).
  Hypothesis (HF : finite_votes x) (HQ : holds_videos x q Q) (HB : holds_subjects x b B) (HV : holds_subjects x v V) (HN : nonzero_spread x V).
  Let cids := repeat 0%nat (dE x).
  Let p := Params Q B V (fun _ => 0).
  Lemma leg_fits : fits x cids 1.
  Proof. split; [apply repeat_length|]. apply Forall_forall. intros c Hc. apply repeat_spec in Hc. lia. Qed.
  Lemma leg_holds : holds x cids 1 p q b v [Fin 0].
  Proof.
    split; try apply HQ; try apply HB; try apply HV; [|reflexivity]. intros c (e & He & Ec & _). unfold cid_of, cids in Ec. rewrite nth_repeat in Ec. subst c. reflexivity.
  Qed.
  Lemma vote_spread : forall e i r w, inside x e i r -> at3 x e i r = Fin w -> V i <> 0.
  Proof. intros e i r w I E. apply HN; [apply I|]. exists e, r, w. split; assumption. Qed.
  Lemma var_is : forall e i, variance (cid_of cids) p e i = V i * V i.
  Proof. intros. unfold variance. cbn. ring. Qed.
  Lemma leg_regular : regular x (cid_of cids) p.
  Proof. intros e i r w I E. rewrite var_is. apply Rsqr_pos_lt. exact (vote_spread e i r w I E). Qed.

  Ltac ders := split; [reflexivity|split; [reflexivity|split; [reflexivity|]]];
    let e := fresh "e" in let i := fresh "i" in let r := fresh "r" in let HI := fresh "HI" in
    intros e i r HI; cbn [map3 at3 one_or_nan residual minus_quality]; assert (HX := HF e i r HI);
    destruct (at3 x e i r) as [w| | |] eqn:E; try contradiction; try reflexivity.

  Lemma q_in : forall e i r w, inside x e i r -> at3 x e i r = Fin w -> vat q e = Fin (Q e).
  Proof. exact (q_at x cids 1 p q b v [Fin 0] leg_holds). Qed.
  Lemma b_in : forall e i r w, inside x e i r -> at3 x e i r = Fin w -> vat b i = Fin (B i).
  Proof. exact (b_at x cids 1 p q b v [Fin 0] leg_holds). Qed.
  Lemma v_in : forall e i r w, inside x e i r -> at3 x e i r = Fin w -> vat v i = Fin (V i).
  Proof. exact (v_at x cids 1 p q b v [Fin 0] leg_holds). Qed.

  (** *** Bias *)
  Lemma leg_bias_step : forall i, (i < dS x)%nat -> voted x i ->
    nth i (vmap2 ndiv (sum_e (minus_quality x q)) (sum_e (one_or_nan x))) NaN = nth i (fst (b_simplified x cids q b v [Fin 0])) NaN.
  Proof.
    intros i Hi Vi.
    assert (D1 : derived x (minus_quality x q) (fun e _ w => w - Q e)).
    { ders. rewrite (q_in e i0 r w HI E). efc. apply ef_sub_Fin. }
    assert (D2 : derived x (one_or_nan x) (fun _ _ _ => 1)) by ders.
    rewrite (sum_e_derived x _ _ HF D1), (sum_e_derived x _ _ HF D2), vmap2_map_map.
    rewrite (b_simplified_eq x cids 1 p q b v [Fin 0] HF leg_fits leg_holds leg_regular). cbn [fst].
    rewrite !nth_map_seq by exact Hi. unfold Nb, Db. efc.
    assert (Vn : V i <> 0) by (apply HN; assumption).
    assert (VV : V i * V i <> 0) by (apply Rmult_integral_contrapositive_currified; exact Vn).
    rewrite (ssum_ext x i (fun e w => (w - pq p e) / variance (cid_of cids) p e i) (fun e w => / (V i * V i) * (w - Q e))) by (intros; rewrite var_is; cbn [pq p]; unfold Rdiv; ring).
    rewrite (ssum_ext x i (fun e w => 1 / variance (cid_of cids) p e i) (fun e w => / (V i * V i) * 1)) by (intros; rewrite var_is; unfold Rdiv; ring).
    rewrite !ssum_mul. assert (0 < ssum x i (fun _ _ => 1)) by (apply ssum_pos_votes; [exact Vi|intros; lra]).
    rewrite !ef_div_Fin; [f_equal; field; lra| |lra]. apply Rmult_integral_contrapositive_currified; [apply Rinv_neq_0_compat; exact VV|lra].
  Qed.

  (** *** Inconsistency *)
  Lemma leg_incons_step : forall i, (i < dS x)%nat -> voted x i ->
    nth i (vmap2 ndiv
      (sum_e (map3 (fun e s _ y => nsub (nmul (nmul (nofZ 2) none_) (nmul (nsq (vat v s)) (vat v s))) (nmul (nmul (nofZ 4) (vat v s)) (nsq y))) (residual x q b)))
      (sum_e (map3 (fun e s _ y => nsub (nmul none_ (nsq (vat v s))) (nmul (nofZ 3) (nsq y))) (residual x q b)))) NaN
    = nth i (fst (v_simplified x cids q b v [Fin 0])) NaN.
  Proof.
    intros i Hi Vi.
    assert (D1 : derived x (map3 (fun e s _ y => nsub (nmul (nmul (nofZ 2) none_) (nmul (nsq (vat v s)) (vat v s))) (nmul (nmul (nofZ 4) (vat v s)) (nsq y))) (residual x q b))
      (fun e i w => 2 * 1 * (V i * V i * V i) - 4 * V i * ((w - Q e - B i) * (w - Q e - B i)))).
    { ders.
      - rewrite (q_in e i0 r w HI E), (b_in e i0 r w HI E), (v_in e i0 r w HI E). unfold nsq, none_. efc. rewrite !ef_sub_Fin. cbn [ef_mul]. rewrite ef_sub_Fin. reflexivity.
      - unfold nsq. efc. cbn [ef_sub ef_add ef_mul ef_neg]. unfold ef_sub. cbn [ef_add ef_neg ef_mul]. rewrite mul_nan. cbn [ef_neg]. apply add_nan. }
    assert (D2 : derived x (map3 (fun e s _ y => nsub (nmul none_ (nsq (vat v s))) (nmul (nofZ 3) (nsq y))) (residual x q b))
      (fun e i w => 1 * (V i * V i) - 3 * ((w - Q e - B i) * (w - Q e - B i)))).
    { ders.
      - rewrite (q_in e i0 r w HI E), (b_in e i0 r w HI E), (v_in e i0 r w HI E). unfold nsq, none_. efc. rewrite !ef_sub_Fin. cbn [ef_mul]. rewrite ef_sub_Fin. reflexivity.
      - unfold nsq. efc. unfold ef_sub. cbn [ef_add ef_neg ef_mul]. apply add_nan. }
    rewrite (sum_e_derived x _ _ HF D1), (sum_e_derived x _ _ HF D2), vmap2_map_map.
    rewrite (v_simplified_eq x cids 1 p q b v [Fin 0] HF leg_fits leg_holds leg_regular). cbn [fst].
    rewrite !nth_map_seq by exact Hi. efc.
    assert (Vn : V i <> 0) by (apply HN; assumption).
    destruct HV as [_ HV']. rewrite (HV' i Hi Vi).
    set (n := ssum x i (fun _ _ => 1)).
    set (s2 := ssum x i (fun e w => (w - Q e - B i) * (w - Q e - B i))).
    assert (Hn : 0 < n) by (apply ssum_pos_votes; [exact Vi|intros; lra]).
    assert (E1 : ssum x i (fun e w => 2 * 1 * (V i * V i * V i) - 4 * V i * ((w - Q e - B i) * (w - Q e - B i))) = 2 * (V i * V i * V i) * n - 4 * V i * s2).
    { unfold n, s2. rewrite <- !ssum_mul, <- ssum_sub. apply ssum_ext. intros. ring. }
    assert (E2 : ssum x i (fun e w => 1 * (V i * V i) - 3 * ((w - Q e - B i) * (w - Q e - B i))) = V i * V i * n - 3 * s2).
    { unfold n, s2. rewrite <- !ssum_mul, <- ssum_sub. apply ssum_ext. intros. ring. }
    assert (E3 : ssum x i (fun e w => rv1 cids p e i w) = (s2 - V i * V i * n) / (V i * V i * V i)).
    { unfold Rdiv, n, s2. rewrite <- ssum_mul, <- ssum_sub, Rmult_comm, <- ssum_mul. apply ssum_ext. intros. unfold rv1. rewrite var_is. cbn [pq pb pv p]. field. exact Vn. }
    assert (E4 : ssum x i (fun e w => rv2 cids p e i w) = (V i * V i * n - 3 * s2) / (V i * V i * (V i * V i))).
    { unfold Rdiv, n, s2. rewrite <- !ssum_mul, <- ssum_sub, Rmult_comm, <- ssum_mul. apply ssum_ext. intros. unfold rv2. cbv zeta. rewrite var_is. cbn [pq pb pv pa p]. field. exact Vn. }
    rewrite E1, E2, E3, E4. set (z := V i) in *. assert (Z2 : 0 < z * z) by (apply Rsqr_pos_lt; exact Vn).
    assert (Z3 : z * z * z <> 0) by (repeat apply Rmult_integral_contrapositive_currified; exact Vn).
    assert (Z4 : z * z * (z * z) <> 0) by (repeat apply Rmult_integral_contrapositive_currified; exact Vn).
    destruct (Req_EM_T (z * z * n - 3 * s2) 0) as [D0|D0].
    - rewrite D0. replace (0 / (z * z * (z * z))) with 0 by (unfold Rdiv; ring).
      assert (K : 0 < z * z * n) by (apply Rmult_lt_0_compat; assumption).
      replace (2 * (z * z * z) * n - 4 * z * s2) with (z * (2 * s2)) by (replace (2 * (z * z * z) * n) with (2 * z * (z * z * n)) by ring; replace (z * z * n) with (3 * s2) by lra; ring).
      replace ((s2 - z * z * n) / (z * z * z)) with (/ z * (- (2 * s2) / (z * z))) by (replace (z * z * n) with (3 * s2) by lra; field; exact Vn).
      assert (S2 : 0 < 2 * s2) by lra.
      assert (S3 : - (2 * s2) / (z * z) < 0) by (unfold Rdiv; assert (0 < / (z * z)) by (apply Rinv_0_lt_compat; exact Z2); nra).
      set (t := - (2 * s2) / (z * z)) in *. set (u := 2 * s2) in *. clearbody t u. clear - Vn S2 S3.
      unfold ef_div. destruct (Req_EM_T 0 0) as [_|]; [|lra].
      destruct (Rlt_dec 0 z) as [P|P].
      + assert (0 < / z) by (apply Rinv_0_lt_compat; exact P).
        destruct (Req_EM_T (z * u) 0); [nra|]. destruct (Req_EM_T (/ z * t) 0); [nra|]. rewrite (proj2 (Rltb_true 0 (z * u))) by nra. rewrite (proj2 (Rltb_false 0 (/ z * t))) by nra. reflexivity.
      + assert (z < 0) by lra. assert (/ z < 0) by (apply Rinv_lt_0_compat; assumption).
        destruct (Req_EM_T (z * u) 0); [nra|]. destruct (Req_EM_T (/ z * t) 0); [nra|]. rewrite (proj2 (Rltb_false 0 (z * u))) by nra. rewrite (proj2 (Rltb_true 0 (/ z * t))) by nra. reflexivity.
    - assert (D1' : (z * z * n - 3 * s2) / (z * z * (z * z)) <> 0).
      { unfold Rdiv. apply Rmult_integral_contrapositive_currified; [exact D0|apply Rinv_neq_0_compat; exact Z4]. }
      rewrite !ef_div_Fin by assumption. rewrite ef_sub_Fin. f_equal. cbn [pv p]. field. repeat split; first [assumption|lra].
  Qed.

  (** *** Quality *)
  Lemma leg_quality_step : forall e, (e < dE x)%nat -> rated x e ->
    nth e (vmap2 ndiv (sum_s (map3 (fun e s _ y => ndiv (nsub y (vat b s)) (nsq (vat v s))) x)) (sum_s (map3 (fun e s _ y => ndiv y (nsq (vat v s))) (one_or_nan x)))) NaN
    = nth e (fst (x_simplified x cids q b v [Fin 0])) NaN.
  Proof.
    intros e He Re.
    assert (D1 : derived x (map3 (fun e s _ y => ndiv (nsub y (vat b s)) (nsq (vat v s))) x) (fun e i w => (w - B i) / (V i * V i))).
    { ders. assert (NV := vote_spread _ _ _ _ HI E). rewrite (b_in e0 i r w HI E), (v_in e0 i r w HI E). unfold nsq. efc. cbn [ef_mul]. rewrite ef_sub_Fin, ef_div_Fin; [reflexivity|]. apply Rmult_integral_contrapositive_currified; exact NV. }
    assert (D2 : derived x (map3 (fun e s _ y => ndiv y (nsq (vat v s))) (one_or_nan x)) (fun e i w => 1 / (V i * V i))).
    { ders. assert (NV := vote_spread _ _ _ _ HI E). rewrite (v_in e0 i r w HI E). unfold nsq, none_. efc. cbn [ef_isnan ef_mul]. rewrite ef_div_Fin; [reflexivity|]. apply Rmult_integral_contrapositive_currified; exact NV. }
    rewrite (sum_s_derived x _ _ HF D1), (sum_s_derived x _ _ HF D2), vmap2_map_map.
    rewrite (x_simplified_eq x cids 1 p q b v [Fin 0] HF leg_fits leg_holds leg_regular). cbn [fst].
    rewrite !nth_map_seq by exact He. unfold Nx, Dx. efc. f_equal; f_equal; apply vsum_ext; intros; rewrite var_is; reflexivity.
  Qed.

  (** *** Logarithm of the inconsistency *)
  Lemma exp_window : forall z : R, 0 < exp z * exp z + 0.
  Proof. intro z. assert (H := exp_pos z). nra. Qed.
  Lemma leg_log_step : positive_spread x V -> holds_subjects x lv (fun i => ln (V i)) -> forall i, (i < dS x)%nat -> voted x i ->
    exists curv, newton_step (fun t => plain_lik x Q B (set_at V i (exp t))) (ln (V i))
      (nth i (vmap2 nsub lv (vmap2 ndiv
        (sum_e (map3 (fun e s _ y => nadd (nneg none_) (ndiv (nsq y) (nsq (vat v s)))) (residual x q b)))
        (sum_e (map3 (fun e s _ y => ndiv (nmul (nofZ (-2)) (nsq y)) (nsq (vat v s))) (residual x q b))))) NaN) curv.
  Proof.
    intros HP [HLl HL] i Hi Vi.
    assert (D1 : derived x (map3 (fun e s _ y => nadd (nneg none_) (ndiv (nsq y) (nsq (vat v s)))) (residual x q b))
      (fun e i w => - (1) + (w - Q e - B i) * (w - Q e - B i) / (V i * V i))).
    { ders. assert (NV := vote_spread _ _ _ _ HI E). rewrite (q_in e i0 r w HI E), (b_in e i0 r w HI E), (v_in e i0 r w HI E). unfold nsq, none_. efc. rewrite !ef_sub_Fin. cbn [ef_mul].
      rewrite ef_div_Fin by (apply Rmult_integral_contrapositive_currified; exact NV). reflexivity. }
    assert (D2 : derived x (map3 (fun e s _ y => ndiv (nmul (nofZ (-2)) (nsq y)) (nsq (vat v s))) (residual x q b))
      (fun e i w => -2 * ((w - Q e - B i) * (w - Q e - B i)) / (V i * V i))).
    { ders. assert (NV := vote_spread _ _ _ _ HI E). rewrite (q_in e i0 r w HI E), (b_in e i0 r w HI E), (v_in e i0 r w HI E). unfold nsq, none_. efc. rewrite !ef_sub_Fin. cbn [ef_mul].
      rewrite ef_div_Fin by (apply Rmult_integral_contrapositive_currified; exact NV). f_equal. }
    rewrite (sum_e_derived x _ _ HF D1), (sum_e_derived x _ _ HF D2), vmap2_map_map.
    rewrite (list_as_seq lv (dS x) HLl), vmap2_map_map. rewrite nth_map_seq by exact Hi. rewrite (HL i Hi Vi). efc.
    assert (PV := HP i Hi Vi). assert (EV : exp (ln (V i)) = V i) by (apply exp_ln; exact PV).
    eexists. exists (fun t => tsum x (fun e j w => if Nat.eqb j i then - (1) + (w - Q e - B j) * (w - Q e - B j) / (exp t * exp t) else 0)),
      (tsum x (fun e j w => if Nat.eqb j i then -2 * ((w - Q e - B j) * (w - Q e - B j)) / (V j * V j) else 0)).
    split; [|split; [|split; [|reflexivity]]].
    - exists 1. split; [lra|]. intros t _. unfold plain_lik.
      apply (d_tsum x (fun t e j w => log_density w (Q e + B j) (Rabs (set_at V i (exp t) j)))).
      intros e j r w HI E. destruct (Nat.eqb_spec j i) as [->|Ne].
      + apply (d_ext (fun t => log_density w (Q e + B i) (sqrt (exp t * exp t + 0)))).
        { intro z. rewrite set_at_same, Rplus_0_r. f_equal. apply (sqrt_Rsqr_abs (exp z)). }
        assert (P := exp_pos t).
        eapply d_val; [|apply (d_comp exp (fun s => log_density w (Q e + B i) (sqrt (s * s + 0))) t (exp t)); [apply derivable_pt_lim_exp|apply d_scale; apply exp_window]].
        field. lra.
      + apply (d_ext (fun t => log_density w (Q e + B j) (Rabs (V j)))); [intro z; rewrite set_at_other by exact Ne; reflexivity|]. apply d_const.
    - apply (d_tsum x (fun t e j w => if Nat.eqb j i then - (1) + (w - Q e - B j) * (w - Q e - B j) / (exp t * exp t) else 0)).
      intros e j r w HI E. destruct (Nat.eqb_spec j i) as [->|Ne]; [|apply d_const].
      eapply d_val; [|apply d_add; [apply d_const|]; apply (d_div (fun _ => (w - Q e - B i) * (w - Q e - B i)) (fun t => exp t * exp t)); [apply d_const| |]].
      2: { apply (d_mul exp exp); apply derivable_pt_lim_exp. }
      + rewrite EV. field. lra.
      + rewrite EV. assert (0 < V i * V i) by (apply Rmult_lt_0_compat; exact PV). lra.
    - rewrite (tsum_subject x i (fun e j w => - (1) + (w - Q e - B j) * (w - Q e - B j) / (exp (ln (V i)) * exp (ln (V i))))) by exact Hi.
      rewrite (tsum_subject x i (fun e j w => -2 * ((w - Q e - B j) * (w - Q e - B j)) / (V j * V j))) by exact Hi. rewrite EV. reflexivity.
  Qed.

  (** *** Moves *)
  Lemma len_leg_bias : length (leg_bias x q b) = dS x.
  Proof. unfold leg_bias. rewrite len_refresh, len_vmap2, !len_sum_e. cbn [minus_quality one_or_nan map3 dS]. destruct HB as [-> _]. lia. Qed.
  Lemma len_leg_incons : length (leg_incons x q b v) = dS x.
  Proof. unfold leg_incons. rewrite len_refresh, len_vmap2, !len_sum_e. cbn [residual map3 dS]. destruct HV as [-> _]. lia. Qed.
  Lemma len_leg_log : length lv = dS x -> length (leg_log x q b v lv) = dS x.
  Proof. intro L. unfold leg_log. rewrite len_refresh, !len_vmap2, !len_sum_e. cbn [residual map3 dS]. lia. Qed.
  Lemma len_leg_quality : length (leg_quality x q b v) = dE x.
  Proof. unfold leg_quality. rewrite len_refresh, len_vmap2, !len_sum_s. cbn [one_or_nan map3 dE]. destruct HQ as [-> _]. lia. Qed.
  Lemma move_bias : forall i, (i < dS x)%nat -> voted x i -> newton_move (fun t => plain_lik x Q (set_at B i t) V) (B i) (nth i (leg_bias x q b) NaN).
  Proof.
    intros i Hi Vi. do 2 eexists. split.
    - eapply newton_step_ext; [|apply (newton_b_simplified x cids 1 p q b v [Fin 0] HF leg_fits leg_holds leg_regular i Hi Vi)].
      intro z. symmetry. apply plain_is.
    - rewrite <- leg_bias_step by assumption. unfold leg_bias. destruct HB as [L HB']. apply refresh_damped; [lia| |apply HB'; assumption].
      rewrite len_vmap2, !len_sum_e. cbn [minus_quality one_or_nan map3 dS]. lia.
  Qed.
  Lemma move_incons : forall i, (i < dS x)%nat -> voted x i -> newton_move (fun t => plain_lik x Q B (set_at V i t)) (V i) (nth i (leg_incons x q b v) NaN).
  Proof.
    intros i Hi Vi. do 2 eexists. split.
    - eapply newton_step_ext; [|apply (newton_v x cids 1 p q b v [Fin 0] HF leg_fits leg_holds leg_regular i Hi Vi)].
      intro z. symmetry. apply plain_is.
    - rewrite <- leg_incons_step by assumption. unfold leg_incons. destruct HV as [L HV']. apply refresh_damped; [lia| |apply HV'; assumption].
      rewrite len_vmap2, !len_sum_e. cbn [residual map3 dS]. lia.
  Qed.
  Lemma move_log : positive_spread x V -> holds_subjects x lv (fun i => ln (V i)) -> forall i, (i < dS x)%nat -> voted x i ->
    newton_move (fun t => plain_lik x Q B (set_at V i (exp t))) (ln (V i)) (nth i (leg_log x q b v lv) NaN).
  Proof.
    intros HP HL i Hi Vi. destruct (leg_log_step HP HL i Hi Vi) as (c & H). eexists. exists c. split; [exact H|].
    unfold leg_log. destruct HL as [L HL]. apply refresh_damped; [lia| |apply HL; assumption]. rewrite !len_vmap2, !len_sum_e. cbn [residual map3 dS]. lia.
  Qed.
  Lemma move_quality : forall e, (e < dE x)%nat -> rated x e -> newton_move (fun t => plain_lik x (set_at Q e t) B V) (Q e) (nth e (leg_quality x q b v) NaN).
  Proof.
    intros e He Re. do 2 eexists. split.
    - eapply newton_step_ext; [|apply (newton_x_simplified x cids 1 p q b v [Fin 0] HF leg_fits leg_holds leg_regular e He Re)].
      intro z. symmetry. apply plain_is.
    - rewrite <- leg_quality_step by assumption. unfold leg_quality. destruct HQ as [L HQ']. apply refresh_damped; [lia| |apply HQ'; assumption].
      rewrite len_vmap2, !len_sum_s. cbn [one_or_nan map3 dE]. lia.
  Qed.
  (** The new biases are numbers. *)
  Lemma bias_number : exists B', holds_subjects x (leg_bias x q b) B'.
  Proof.
    exists (fun i => toR (nth i (leg_bias x q b) NaN)). split; [apply len_leg_bias|]. intros i Hi Vi.
    assert (F : isfin (nth i (leg_bias x q b) NaN)).
    { unfold leg_bias. destruct HB as [L HB']. rewrite (refresh_damped _ _ i (B i)); [|lia| |apply HB'; assumption].
      2: { rewrite len_vmap2, !len_sum_e. cbn [minus_quality one_or_nan map3 dS]. lia. }
      rewrite leg_bias_step by assumption. rewrite (b_simplified_eq x cids 1 p q b v [Fin 0] HF leg_fits leg_holds leg_regular). cbn [fst]. rewrite nth_map_seq by exact Hi.
      rewrite ef_div_Fin; [exact I|]. assert (D := Db_pos x cids p leg_regular i Vi). lra. }
    destruct (nth i (leg_bias x q b) NaN); cbn in F; try contradiction. reflexivity.
  Qed.
End Pass.

Lemma c81_pass : forall x (use_log : bool) q b v lv Q B V, finite_votes x -> holds_videos x q Q -> holds_subjects x b B -> holds_subjects x v V -> nonzero_spread x V ->
  (use_log = true -> positive_spread x V /\ holds_subjects x lv (fun i => ln (V i))) ->
  exists q' b' v' lv', leg_pass use_log x (q, b, v, lv) = (q', b', v', lv') /\
    (forall i, (i < dS x)%nat -> voted x i -> newton_move (fun t => plain_lik x Q (set_at B i t) V) (B i) (nth i b' NaN)) /\
    (exists B', holds_subjects x b' B' /\
      (use_log = false -> lv' = lv /\ forall i, (i < dS x)%nat -> voted x i -> newton_move (fun t => plain_lik x Q B' (set_at V i t)) (V i) (nth i v' NaN)) /\
      (use_log = true -> length v' = dS x /\ forall i, (i < dS x)%nat -> (voted x i -> newton_move (fun t => plain_lik x Q B' (set_at V i (exp t))) (ln (V i)) (nth i lv' NaN)) /\ nth i v' NaN = ef_exp (nth i lv' NaN)) /\
      (forall V', holds_subjects x v' V' -> nonzero_spread x V' ->
        forall e, (e < dE x)%nat -> rated x e -> newton_move (fun t => plain_lik x (set_at Q e t) B' V') (Q e) (nth e q' NaN))).
Proof.
  intros x ul q b v lv Q B V HF HQ HB HV HN HL. do 4 eexists. split; [reflexivity|].
  split; [intros i Hi Vi; exact (move_bias x q b v Q B V HF HQ HB HV HN i Hi Vi)|].
  destruct (bias_number x q b v Q B V HF HQ HB HV HN) as (B' & HB'). exists B'. split; [exact HB'|]. split; [|split].
  - intros ->. split; [reflexivity|]. intros i Hi Vi. exact (move_incons x q (leg_bias x q b) v Q B' V HF HQ HB' HV HN i Hi Vi).
  - intros ->. destruct (HL eq_refl) as [HP HL'].
    assert (L : length (leg_log x q (leg_bias x q b) v lv) = dS x) by (apply len_leg_log; apply HL').
    split; [rewrite map_length; exact L|]. intros i Hi. split.
    + intro Vi. exact (move_log x q (leg_bias x q b) v lv Q B' V HF HQ HB' HV HN HP HL' i Hi Vi).
    + rewrite nth_map_ef by lia. reflexivity.
  - intros V' HV' HN' e He Re. apply (move_quality x q (leg_bias x q b) _ Q B' V' HF HQ HB' HV' HN' e He Re).
Qed.
