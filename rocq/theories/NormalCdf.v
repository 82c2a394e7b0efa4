(** The standard normal distribution function exists: the antiderivative of the
    density through (0, 1/2) stays strictly between 0 and 1 (the Gaussian
    integral).  Uses Coquelicot's Riemann integral. *)
From Coq Require Import Reals Lra.
From Coquelicot Require Import Coquelicot.
From Verif Require Import SpecBt.
Local Open Scope R_scope.

Definition bell (t : R) : R := exp (- (t * t) / 2).
Lemma bell_deriv : forall t, is_derive bell t (- t * bell t).
Proof. intros t. unfold bell, Rdiv. auto_derive; [exact I|]. field. Qed.
Lemma bell_cont : forall t, continuous bell t.
Proof. intros t. apply (ex_derive_continuous (V := R_NormedModule)). eexists. apply bell_deriv. Qed.
Lemma bell_int : forall a b, ex_RInt bell a b.
Proof. intros a b. apply (ex_RInt_continuous (V := R_CompleteNormedModule)). intros. apply bell_cont. Qed.

Definition area (x : R) : R := RInt bell 0 x.
Lemma area_deriv : forall x, is_derive area x (bell x).
Proof.
  intros x. apply (is_derive_RInt (V := R_NormedModule) bell area 0 x); [|apply bell_cont].
  apply filter_forall. intros y. apply (RInt_correct (V := R_CompleteNormedModule)), bell_int.
Qed.

Definition ker (x t : R) : R := 2 * (exp (- (x * x) * (1 + t * t) / 2) * / (1 + t * t)).
Definition dker (x t : R) : R := - 2 * x * exp (- (x * x) * (1 + t * t) / 2).
Lemma ker_deriv : forall x t, is_derive (fun u => ker u t) x (dker x t).
Proof. intros x t. unfold ker, dker, Rdiv. auto_derive; [exact I|]. assert (1 + t * t <> 0) by nra. field. assumption. Qed.
Lemma ker_cont_t : forall x t, continuous (ker x) t.
Proof.
  intros x t. apply (ex_derive_continuous (V := R_NormedModule)). unfold ker. auto_derive. assert (0 < 1 + t * t) by nra. lra.
Qed.
Lemma dker_cont_2d : forall x t, continuity_2d_pt dker x t.
Proof.
  intros x t. unfold dker. apply continuity_2d_pt_mult.
  - apply continuity_2d_pt_mult; [apply continuity_2d_pt_const|apply continuity_2d_pt_id1].
  - apply (continuity_1d_2d_pt_comp exp (fun u v => - (u * u) * (1 + v * v) / 2)).
    + apply derivable_continuous_pt, derivable_pt_exp.
    + unfold Rdiv. apply continuity_2d_pt_mult; [|apply continuity_2d_pt_const]. apply continuity_2d_pt_mult.
      * apply continuity_2d_pt_opp, continuity_2d_pt_mult; apply continuity_2d_pt_id1.
      * apply continuity_2d_pt_plus; [apply continuity_2d_pt_const|]. apply continuity_2d_pt_mult; apply continuity_2d_pt_id2.
Qed.
Definition rest (x : R) : R := RInt (ker x) 0 1.
Lemma ker_int : forall x, ex_RInt (ker x) 0 1.
Proof. intros x. apply (ex_RInt_continuous (V := R_CompleteNormedModule)). intros. apply ker_cont_t. Qed.

Lemma rest_deriv : forall x, is_derive rest x (- 2 * bell x * area x).
Proof.
  intros x.
  assert (D := is_derive_RInt_param (fun u t => ker u t) 0 1 x).
  assert (E : RInt (fun t => Derive (fun u => ker u t) x) 0 1 = - 2 * bell x * area x).
  { rewrite (RInt_ext (V := R_CompleteNormedModule) _ (fun t => scal (- 2 * bell x) (scal x (bell (x * t + 0))))).
    - rewrite (RInt_scal (V := R_CompleteNormedModule)).
      + rewrite (RInt_comp_lin (V := R_CompleteNormedModule)) by apply bell_int.
        unfold area. change scal with Rmult. cbv beta. f_equal. f_equal; ring.
      + apply (ex_RInt_comp_lin (V := R_NormedModule)). apply bell_int.
    - intros t _. transitivity (dker x t); [apply is_derive_unique, ker_deriv|].
      change (dker x t = - 2 * bell x * (x * bell (x * t + 0))). unfold dker, bell.
      replace (- (x * x) * (1 + t * t) / 2) with (- (x * x) / 2 + - ((x * t + 0) * (x * t + 0)) / 2) by field.
      rewrite exp_plus. ring. }
  rewrite <- E. apply D.
  - apply filter_forall. intros y t _. eexists. apply ker_deriv.
  - intros t _. apply (continuity_2d_pt_ext dker); [|apply dker_cont_2d]. intros u v. symmetry. apply is_derive_unique, ker_deriv.
  - apply filter_forall. intros y. apply ker_int.
Qed.
Lemma rest_pos : forall x, 0 < rest x.
Proof.
  intros x. apply RInt_gt_0; [lra| |].
  - intros t _. unfold ker. assert (0 < / (1 + t * t)) by (apply Rinv_0_lt_compat; nra). assert (P := exp_pos (- (x * x) * (1 + t * t) / 2)). nra.
  - intros t _. apply ker_cont_t.
Qed.
Lemma rest_0 : rest 0 = PI / 2.
Proof.
  unfold rest. rewrite (RInt_ext (V := R_CompleteNormedModule) _ (fun t => 2 * / (1 + t * t))).
  - assert (D : is_RInt (fun t => 2 * / (1 + t * t)) 0 1 (minus (2 * atan 1) (2 * atan 0))).
    { apply (is_RInt_derive (V := R_CompleteNormedModule) (fun t => 2 * atan t)).
      - intros t _. auto_derive; [exact I|]. unfold Rsqr. assert (0 < 1 + t * t) by nra. field. lra.
      - intros t _. apply (ex_derive_continuous (V := R_NormedModule)). auto_derive. assert (0 < 1 + t * t) by nra. lra. }
    rewrite (is_RInt_unique _ _ _ _ D), atan_1, atan_0. change (minus (2 * (PI / 4)) (2 * 0)) with (2 * (PI / 4) + - (2 * 0)). field.
  - intros t _. unfold ker. replace (- (0 * 0) * (1 + t * t) / 2) with 0 by field. rewrite exp_0. rewrite Rmult_1_l. reflexivity.
Qed.
Lemma area_0 : area 0 = 0.
Proof. unfold area. apply (RInt_point (V := R_CompleteNormedModule)). Qed.

Lemma total_const : forall x, area x * area x + rest x = PI / 2.
Proof.
  intros x. set (g := fun x => area x * area x + rest x).
  assert (D : forall y, is_derive g y 0).
  { intros y. unfold g. assert (A := area_deriv y). assert (B := rest_deriv y).
    assert (M := is_derive_mult (K := R_AbsRing) area area y _ _ A A Rmult_comm).
    assert (P := is_derive_plus (V := R_NormedModule) _ _ _ _ _ M B).
    eapply (is_derive_ext (V := R_NormedModule)); [|]. 2:{ replace 0 with (plus (plus (mult (bell y) (area y)) (mult (area y) (bell y))) (- 2 * bell y * area y)).
      - exact P. - change (bell y * area y + area y * bell y + - 2 * bell y * area y = 0). ring. }
    intros t. reflexivity. }
  destruct (MVT_gen g 0 x (fun _ => 0)) as [c [_ E]].
  - intros. apply D.
  - intros y _. apply derivable_continuous_pt. exists 0. apply is_derive_Reals, D.
  - assert (G0 : g 0 = PI / 2) by (unfold g; rewrite area_0, rest_0; ring).
    change (g x = PI / 2). lra.
Qed.

Definition normal (x : R) : R := 1 / 2 + area x / sqrt (2 * PI).

Lemma area_bound : forall x, Rabs (area x) < sqrt (2 * PI) / 2.
Proof.
  intros x. assert (T := total_const x). assert (R := rest_pos x). assert (P := PI_RGT_0).
  assert (S : 0 < sqrt (2 * PI)) by (apply sqrt_lt_R0; lra).
  assert (SS : sqrt (2 * PI) * sqrt (2 * PI) = 2 * PI) by (apply sqrt_sqrt; lra).
  apply Rsqr_incrst_0; [|apply Rabs_pos|lra]. rewrite <- Rsqr_abs. unfold Rsqr.
  replace (sqrt (2 * PI) / 2 * (sqrt (2 * PI) / 2)) with (sqrt (2 * PI) * sqrt (2 * PI) / 4) by field. rewrite SS. lra.
Qed.
Lemma area_odd : forall x, area (- x) = - area x.
Proof.
  intros x. unfold area.
  assert (E := RInt_comp_lin (V := R_CompleteNormedModule) bell (-1) 0 0 x).
  replace (-1 * 0 + 0) with 0 in E by ring. replace (-1 * x + 0) with (- x) in E by ring.
  rewrite <- E by apply bell_int.
  rewrite (RInt_ext (V := R_CompleteNormedModule) _ (fun t => scal (-1) (bell t))).
  - rewrite (RInt_scal (V := R_CompleteNormedModule)) by apply bell_int. change (-1 * RInt bell 0 x = - RInt bell 0 x). ring.
  - intros t _. f_equal. unfold bell. f_equal. field.
Qed.

Lemma normal_is_cdf : normal_cdf normal.
Proof.
  assert (P := PI_RGT_0). assert (S : 0 < sqrt (2 * PI)) by (apply sqrt_lt_R0; lra). repeat split.
  - assert (B := area_bound x). apply Rabs_def2 in B. unfold normal.
    assert (Q : - (1 / 2) < area x / sqrt (2 * PI)).
    { apply Rmult_lt_reg_r with (sqrt (2 * PI)); [exact S|]. unfold Rdiv at 2. rewrite Rmult_assoc, Rinv_l by lra. lra. }
    lra.
  - assert (B := area_bound x). apply Rabs_def2 in B. unfold normal.
    assert (Q : area x / sqrt (2 * PI) < 1 / 2).
    { apply Rmult_lt_reg_r with (sqrt (2 * PI)); [exact S|]. unfold Rdiv at 1. rewrite Rmult_assoc, Rinv_l by lra. lra. }
    lra.
  - intros x. unfold normal. rewrite area_odd. field. lra.
  - intros x. apply is_derive_Reals. unfold normal, gauss. fold (bell x).
    assert (D := is_derive_scal area x (/ sqrt (2 * PI)) _ (area_deriv x)).
    assert (C := is_derive_const (V := R_NormedModule) (1 / 2) x).
    assert (Q := is_derive_plus (V := R_NormedModule) _ _ _ _ _ C D).
    replace (bell x / sqrt (2 * PI)) with (plus zero (/ sqrt (2 * PI) * bell x)).
    + eapply (is_derive_ext (V := R_NormedModule)); [|exact Q]. intros t. change (1 / 2 + / sqrt (2 * PI) * area t = 1 / 2 + area t / sqrt (2 * PI)). unfold Rdiv. ring.
    + change (0 + / sqrt (2 * PI) * bell x = bell x / sqrt (2 * PI)). unfold Rdiv. ring.
Qed.
