(** Lemmas for claim C138. *)
From Coq Require Import List Arith Lia Reals Lra.
From Coquelicot Require Import Coquelicot.
From Verif Require Import PyBase Num ExtReal ExtRealProofs NumPy Dataset Mos Mle Stats SpecMos SpecBt SpecStats NormalCdf Stats2Proofs SpecDensity.
Local Open Scope R_scope.

Lemma whole_unique : forall f m n, whole f m -> whole f n -> m = n.
Proof.
  intros f m n HM HN. destruct (Req_dec m n) as [E|D]; [exact E|exfalso].
  assert (P : 0 < Rabs (m - n) / 2) by (assert (Q := Rabs_pos_lt (m - n)); assert (m - n <> 0) by lra; specialize (Q H); lra).
  destruct (HM _ P) as [A HA]. destruct (HN _ P) as [B HB].
  destruct (HA (- Rmax A B) (Rmax A B)) as (v & V & EV); [assert (Q := Rmax_l A B); lra|apply Rmax_l|].
  destruct (HB (- Rmax A B) (Rmax A B)) as (u & U & EU); [assert (Q := Rmax_r A B); lra|apply Rmax_r|].
  assert (E : v = u) by (rewrite <- (is_RInt_unique _ _ _ _ V); apply (is_RInt_unique _ _ _ _ U)). subst u.
  assert (T := Rabs_triang (v - n) (- (v - m))). rewrite Rabs_Ropp in T. replace (v - n + - (v - m)) with (m - n) in T by ring. lra.
Qed.
(** An antiderivative with limits at both ends. *)
Definition to_right (F : R -> R) (l : R) : Prop := forall eps, 0 < eps -> exists A, forall x, A <= x -> Rabs (F x - l) < eps.
Definition to_left (F : R -> R) (l : R) : Prop := forall eps, 0 < eps -> exists A, forall x, x <= - A -> Rabs (F x - l) < eps.
Lemma whole_by : forall F f p q, (forall x, is_derive F x (f x)) -> (forall x, continuous f x) -> to_right F p -> to_left F q -> whole f (p - q).
Proof.
  intros F f p q D C HP HQ eps HE.
  destruct (HP (eps / 2)) as [A HA]; [lra|]. destruct (HQ (eps / 2)) as [B HB]; [lra|].
  exists (Rmax A B). intros a b Ha Hb. exists (F b - F a). split.
  - apply (is_RInt_derive (V := R_CompleteNormedModule) F f); intros; [apply D|apply C].
  - assert (I1 := HA b ltac:(assert (Q := Rmax_l A B); lra)). assert (I2 := HB a ltac:(assert (Q := Rmax_r A B); lra)).
    replace (F b - F a - (p - q)) with ((F b - p) + - (F a - q)) by ring. assert (T := Rabs_triang (F b - p) (- (F a - q))). rewrite Rabs_Ropp in T. lra.
Qed.
Lemma whole_ext : forall f g m, (forall x, f x = g x) -> whole f m -> whole g m.
Proof.
  intros f g m E H eps HE. destruct (H eps HE) as [A HA]. exists A. intros a b Ha Hb. destruct (HA a b Ha Hb) as (v & V & EV). exists v. split; [|exact EV].
  eapply (is_RInt_ext (V := R_CompleteNormedModule)); [|exact V]. intros x _. apply E.
Qed.
Lemma whole_scal : forall c f m, whole f m -> whole (fun x => c * f x) (c * m).
Proof.
  intros c f m H eps HE. assert (C := Rabs_pos c).
  destruct (H (eps / (Rabs c + 1))) as [A HA]; [apply Rdiv_lt_0_compat; lra|]. exists A. intros a b Ha Hb. destruct (HA a b Ha Hb) as (v & V & EV).
  exists (c * v). split; [exact (is_RInt_scal (V := R_NormedModule) f a b c v V)|].
  replace (c * v - c * m) with (c * (v - m)) by ring. rewrite Rabs_mult.
  apply Rle_lt_trans with (Rabs c * (eps / (Rabs c + 1))); [apply Rmult_le_compat_l; lra|].
  apply Rmult_lt_reg_r with (Rabs c + 1); [lra|]. replace (Rabs c * (eps / (Rabs c + 1)) * (Rabs c + 1)) with (Rabs c * eps) by (field; lra). nra.
Qed.
Lemma whole_plus : forall f g m n, whole f m -> whole g n -> whole (fun x => f x + g x) (m + n).
Proof.
  intros f g m n HM HN eps HE. destruct (HM (eps / 2)) as [A HA]; [lra|]. destruct (HN (eps / 2)) as [B HB]; [lra|].
  exists (Rmax A B). intros a b Ha Hb.
  destruct (HA a b) as (v & V & EV); [assert (Q := Rmax_l A B); lra|assert (Q := Rmax_l A B); lra|].
  destruct (HB a b) as (u & U & EU); [assert (Q := Rmax_r A B); lra|assert (Q := Rmax_r A B); lra|].
  exists (v + u). split; [exact (is_RInt_plus (V := R_NormedModule) f g a b v u V U)|].
  replace (v + u - (m + n)) with ((v - m) + (u - n)) by ring. assert (T := Rabs_triang (v - m) (u - n)). lra.
Qed.
(** A shifted and stretched function. *)
Lemma whole_affine : forall f m c s, 0 < s -> whole f m -> whole (fun x => f ((x - c) / s) / s) m.
Proof.
  intros f m c s S H eps HE. destruct (H eps HE) as [A HA]. exists (s * Rabs A + Rabs c). intros a b Ha Hb.
  assert (QA := Rle_abs A). assert (QC := Rle_abs c). assert (QD := Rle_abs (- c)). rewrite Rabs_Ropp in QD. assert (PA := Rabs_pos A).
  destruct (HA (/ s * a + - c / s) (/ s * b + - c / s)) as (v & V & EV).
  - apply Rmult_le_reg_r with s; [exact S|]. replace ((/ s * a + - c / s) * s) with (a - c) by (field; lra). nra.
  - apply Rmult_le_reg_r with s; [exact S|]. replace ((/ s * b + - c / s) * s) with (b - c) by (field; lra). nra.
  - exists v. split; [|exact EV].
    assert (K := is_RInt_comp_lin (V := R_CompleteNormedModule) f (/ s) (- c / s) a b v V).
    eapply (is_RInt_ext (V := R_CompleteNormedModule)); [|exact K]. intros x _. change (/ s * f (/ s * x + - c / s) = f ((x - c) / s) / s).
    replace (/ s * x + - c / s) with ((x - c) / s) by (field; lra). unfold Rdiv. ring.
Qed.

(** ** The bell *)
Lemma bell_pos : forall x, 0 < bell x. Proof. intro. apply exp_pos. Qed.
Lemma bell_le : forall x, x <> 0 -> bell x <= 2 / (x * x).
Proof.
  intros x H. unfold bell. replace (- (x * x) / 2) with (- (x * x / 2)) by field. rewrite exp_Ropp.
  assert (P : 0 < x * x) by nra. assert (E := exp_ineq1 (x * x / 2) ltac:(lra)).
  replace (2 / (x * x)) with (/ (x * x / 2)) by (field; lra). apply Rinv_le_contravar; lra.
Qed.
Lemma rest_le : forall x, rest x <= 2 * bell x.
Proof.
  intros x. unfold rest. apply Rle_trans with (RInt (fun _ => 2 * bell x) 0 1).
  - apply RInt_le; [lra|apply ker_int|apply (ex_RInt_const (V := R_CompleteNormedModule))|]. intros t _. unfold ker, bell.
    assert (E : exp (- (x * x) * (1 + t * t) / 2) <= exp (- (x * x) / 2)).
    { destruct (Req_dec (x * x * (t * t)) 0) as [Z|NZ]; [right; f_equal; lra|left; apply exp_increasing; assert (0 <= x * x * (t * t)) by (apply Rmult_le_pos; apply Rle_0_sqr); lra]. }
    assert (I : 0 < / (1 + t * t) <= 1). { split; [apply Rinv_0_lt_compat; nra|]. rewrite <- Rinv_1 at 2. apply Rinv_le_contravar; nra. }
    assert (P := exp_pos (- (x * x) * (1 + t * t) / 2)). nra.
  - rewrite (RInt_const (V := R_CompleteNormedModule)). right. change ((1 - 0) * (2 * bell x) = 2 * bell x). ring.
Qed.
Lemma area_pos : forall x, 0 < x -> 0 < area x.
Proof. intros x H. unfold area. apply RInt_gt_0; [exact H|intros; apply bell_pos|intros; apply bell_cont]. Qed.
Lemma normal_upper : forall x, 0 < x -> 0 < 1 - normal x <= 8 / (x * x).
Proof.
  intros x H. assert (P := PI_RGT_0). assert (S : 0 < sqrt (2 * PI)) by (apply sqrt_lt_R0; lra).
  assert (SS : sqrt (2 * PI) * sqrt (2 * PI) = 2 * PI) by (apply sqrt_sqrt; lra).
  destruct normal_is_cdf as (B & _ & _). specialize (B x). split; [lra|].
  assert (T := total_const x). assert (L := rest_le x). assert (M := bell_le x ltac:(lra)). assert (A := area_pos x H).
  set (k := sqrt (2 * PI)) in *. unfold normal in *. fold k in B. fold k.
  set (z := area x / k) in *. assert (EZ : area x = z * k) by (unfold z; field; lra). assert (Z : 0 < z) by (unfold z; apply Rdiv_lt_0_compat; lra).
  rewrite EZ in T. assert (W : (1 / 4 - z * z) * (k * k) = rest x) by lra.
  assert (PI1 : 2 < PI). { assert (Q := PI2_1). lra. }
  assert (G : (1 / 4 - z * z) * (2 * PI) <= 2 * (2 / (x * x))) by (rewrite <- SS; lra).
  assert (X : 0 < 2 / (x * x)) by (apply Rdiv_lt_0_compat; nra).
  assert (F : 1 / 4 - z * z <= 2 / (x * x)) by nra.
  replace (8 / (x * x)) with (4 * (2 / (x * x))) by (field; lra). nra.
Qed.
Lemma normal_right : to_right normal 1.
Proof.
  intros eps HE. exists (1 + 8 / eps). intros x Hx. assert (Q : 0 < 8 / eps) by (apply Rdiv_lt_0_compat; lra).
  destruct (normal_upper x ltac:(lra)) as [L U]. rewrite Rabs_left by lra. apply Rle_lt_trans with (8 / (x * x)); [lra|].
  apply Rmult_lt_reg_r with (x * x); [nra|]. replace (8 / (x * x) * (x * x)) with 8 by (field; lra).
  assert (8 = 8 / eps * eps) by (field; lra). nra.
Qed.
Lemma normal_left : to_left normal 0.
Proof.
  intros eps HE. destruct (normal_right eps HE) as [A HA]. exists A. intros x Hx. destruct normal_is_cdf as (_ & S & _).
  specialize (HA (- x) ltac:(lra)). rewrite S in HA. replace (1 - normal x - 1) with (- (normal x - 0)) in HA by ring. rewrite Rabs_Ropp in HA. exact HA.
Qed.
Lemma gauss_bell : forall x, gauss x = / sqrt (2 * PI) * bell x.
Proof. intro. unfold gauss, bell, Rdiv. ring. Qed.
Lemma k_bounds : 1 < sqrt (2 * PI).
Proof. assert (Q := PI2_1). rewrite <- sqrt_1 at 1. apply sqrt_lt_1; lra. Qed.
Lemma gauss_pos : forall x, 0 < gauss x.
Proof. intro x. rewrite gauss_bell. apply Rmult_lt_0_compat; [apply Rinv_0_lt_compat; assert (K := k_bounds); lra|apply bell_pos]. Qed.
Lemma gauss_le : forall x, x <> 0 -> gauss x <= 2 / (x * x).
Proof.
  intros x H. rewrite gauss_bell. assert (K := k_bounds). assert (B := bell_le x H). assert (P := bell_pos x).
  assert (I : 0 < / sqrt (2 * PI) <= 1). { split; [apply Rinv_0_lt_compat; lra|]. rewrite <- Rinv_1. apply Rinv_le_contravar; lra. } nra.
Qed.
Lemma gauss_deriv : forall x, is_derive gauss x (- x * gauss x).
Proof. intro x. unfold gauss, Rdiv. auto_derive; [exact I|]. field. assert (K := k_bounds). lra. Qed.
Lemma gauss_cont : forall x, continuous gauss x.
Proof. intro x. apply (ex_derive_continuous (V := R_NormedModule)). eexists. apply gauss_deriv. Qed.
Lemma normal_deriv : forall x, is_derive normal x (gauss x).
Proof. intro x. apply is_derive_Reals. apply normal_is_cdf. Qed.
Lemma gauss_mass : whole gauss 1.
Proof. replace 1 with (1 - 0) by ring. apply (whole_by normal); [apply normal_deriv|apply gauss_cont|apply normal_right|apply normal_left]. Qed.
Lemma small_tail : forall (h : R -> R) c, 0 < c -> (forall x, 1 <= Rabs x -> Rabs (h x) <= c / Rabs x) -> to_right h 0 /\ to_left h 0.
Proof.
  intros h c C H.
  assert (K : forall eps x, 0 < eps -> 1 + c / eps <= Rabs x -> Rabs (h x - 0) < eps).
  { intros eps x HE Hx. assert (P : 0 < c / eps) by (apply Rdiv_lt_0_compat; lra). rewrite Rminus_0_r. apply Rle_lt_trans with (c / Rabs x); [apply H; lra|].
    apply Rmult_lt_reg_r with (Rabs x); [lra|]. replace (c / Rabs x * Rabs x) with c by (field; lra). assert (c = c / eps * eps) by (field; lra). nra. }
  split; intros eps HE; exists (1 + c / eps); intros x Hx; apply K; try exact HE; assert (P : 0 < c / eps) by (apply Rdiv_lt_0_compat; lra).
  - rewrite Rabs_right; lra.
  - rewrite Rabs_left; lra.
Qed.
Lemma gauss_first : whole (fun z => z * gauss z) 0.
Proof.
  destruct (small_tail (fun z => - gauss z) 2) as [R L]; [lra| |].
  - intros x H. rewrite Rabs_Ropp, Rabs_right by (assert (P := gauss_pos x); lra). assert (NZ : x <> 0) by (intros ->; rewrite Rabs_R0 in H; lra).
    apply Rle_trans with (1 := gauss_le x NZ). assert (E : x * x = Rabs x * Rabs x) by (rewrite <- Rabs_mult; symmetry; apply Rabs_right; nra). rewrite E.
    unfold Rdiv. rewrite Rinv_mult. assert (I : 0 < / Rabs x <= 1). { split; [apply Rinv_0_lt_compat; lra|]. rewrite <- Rinv_1. apply Rinv_le_contravar; lra. } nra.
  - replace 0 with (0 - 0) by ring. apply (whole_by (fun z => - gauss z)); [| |exact R|exact L].
    + intro x. assert (D := is_derive_opp (K := R_AbsRing) (V := R_NormedModule) _ _ _ (gauss_deriv x)). replace (x * gauss x) with (opp (- x * gauss x)); [exact D|]. change (- (- x * gauss x) = x * gauss x). ring.
    + intro x. apply (continuous_mult (K := R_AbsRing) (fun z => z) gauss); [apply continuous_id|apply gauss_cont].
Qed.
Lemma gauss_second : whole (fun z => z * z * gauss z) 1.
Proof.
  destruct (small_tail (fun z => z * gauss z) 2) as [R L]; [lra| |].
  - intros x H. assert (NZ : x <> 0) by (intros ->; rewrite Rabs_R0 in H; lra). rewrite Rabs_mult, (Rabs_right (gauss x)) by (assert (P := gauss_pos x); lra).
    assert (G := gauss_le x NZ). assert (E : x * x = Rabs x * Rabs x) by (rewrite <- Rabs_mult; symmetry; apply Rabs_right; nra). rewrite E in G.
    replace (2 / Rabs x) with (Rabs x * (2 / (Rabs x * Rabs x))) by (field; lra). apply Rmult_le_compat_l; lra.
  - replace 1 with ((1 - 0) - (0 - 0)) by ring.
    apply (whole_by (fun z => normal z - z * gauss z)).
    + intro x. assert (D := is_derive_mult (K := R_AbsRing) (fun z => z) gauss x 1 (- x * gauss x) (is_derive_id x) (gauss_deriv x) Rmult_comm).
      assert (M := is_derive_minus (K := R_AbsRing) (V := R_NormedModule) normal (fun z => z * gauss z) x _ _ (normal_deriv x) D).
      match type of M with is_derive _ _ ?d => replace (x * x * gauss x) with d; [exact M|] end.
      change (gauss x + - (1 * gauss x + x * (- x * gauss x)) = x * x * gauss x). ring.
    + intro x. apply (continuous_mult (K := R_AbsRing) (fun z => z * z) gauss); [|apply gauss_cont]. apply (continuous_mult (K := R_AbsRing) (fun z => z) (fun z => z)); apply continuous_id.
    + intros eps HE. destruct (normal_right (eps / 2)) as [A HA]; [lra|]. destruct (R (eps / 2)) as [B HB]; [lra|]. exists (Rmax A B). intros x Hx.
      assert (I1 := HA x ltac:(assert (Q := Rmax_l A B); lra)). assert (I2 := HB x ltac:(assert (Q := Rmax_r A B); lra)).
      replace (normal x - x * gauss x - (1 - 0)) with ((normal x - 1) + - (x * gauss x - 0)) by ring. assert (T := Rabs_triang (normal x - 1) (- (x * gauss x - 0))). rewrite Rabs_Ropp in T. lra.
    + intros eps HE. destruct (normal_left (eps / 2)) as [A HA]; [lra|]. destruct (L (eps / 2)) as [B HB]; [lra|]. exists (Rmax A B). intros x Hx.
      assert (I1 := HA x ltac:(assert (Q := Rmax_l A B); lra)). assert (I2 := HB x ltac:(assert (Q := Rmax_r A B); lra)).
      replace (normal x - x * gauss x - (0 - 0)) with ((normal x - 0) + - (x * gauss x - 0)) by ring. assert (T := Rabs_triang (normal x - 0) (- (x * gauss x - 0))). rewrite Rabs_Ropp in T. lra.
Qed.

(** ** Shifted and stretched *)
Section Family.
  Variables (g : R -> R) (m s : R).
  Hypothesis S : 0 < s.
  Let f (x : R) := g ((x - m) / s) / s.
  Lemma family_density : density g -> density f.
  Proof. intros (P & M). split; [intro x; apply Rdiv_lt_0_compat; [apply P|exact S]|apply whole_affine; assumption]. Qed.
  Lemma family_mean : density g -> has_mean g 0 -> has_mean f m.
  Proof.
    intros (_ & M) H. assert (A := whole_affine _ _ m s S M). assert (B := whole_affine _ _ m s S H).
    assert (K := whole_plus _ _ _ _ (whole_scal s _ _ B) (whole_scal m _ _ A)). replace m with (s * 0 + m * 1) at 1 by ring.
    eapply whole_ext; [|exact K]. intro x. cbv beta. unfold f. field. lra.
  Qed.
  Lemma family_variance : forall v, has_variance g 0 v -> has_variance f m (s * s * v).
  Proof.
    intros v H. assert (B := whole_scal (s * s) _ _ (whole_affine _ _ m s S H)).
    eapply whole_ext; [|exact B]. intro x. cbv beta. unfold f. field. lra.
  Qed.
End Family.

Lemma normal_density_gauss : forall m s x, 0 < s -> normal_density m s x = gauss ((x - m) / s) / s.
Proof.
  intros m s x S. unfold normal_density, gauss. assert (K := k_bounds).
  replace (- ((x - m) / s * ((x - m) / s)) / 2) with (- ((x - m) * (x - m)) / (2 * (s * s))) by (field; lra). field. lra.
Qed.
Lemma density_ext : forall f g, (forall x, f x = g x) -> density f -> density g.
Proof. intros f g E (P & M). split; [intro x; rewrite <- E; apply P|exact (whole_ext f g 1 E M)]. Qed.
Lemma normal_density_is : forall m s, 0 < s -> density (normal_density m s) /\ has_mean (normal_density m s) m /\ has_variance (normal_density m s) m (s * s).
Proof.
  intros m s S. assert (E : forall x, gauss ((x - m) / s) / s = normal_density m s x) by (intro; symmetry; apply normal_density_gauss; exact S).
  assert (D : density gauss) by (split; [exact gauss_pos|exact gauss_mass]). split; [|split].
  - apply (density_ext _ _ E). apply family_density; assumption.
  - eapply whole_ext; [|exact (family_mean gauss m s S D gauss_first)]. intro x. cbv beta. rewrite E. reflexivity.
  - assert (G2 : has_variance gauss 0 1) by (eapply whole_ext; [|exact gauss_second]; intro x; cbv beta; ring).
    replace (s * s) with (s * s * 1) by ring. eapply whole_ext; [|exact (family_variance gauss m s S 1 G2)]. intro x. cbv beta. rewrite E. reflexivity.
Qed.
Lemma gaussian_computes : forall m s, 0 < s -> computes (fun x => gaussian x (Fin m) (Fin s)) (normal_density m s).
Proof.
  intros m s S w. unfold gaussian, none_, nsq. cbn [nofZ npi nsub ndiv nexp nneg nadd nmul nsqrt Num_ef].
  assert (K := k_bounds). assert (P := PI_RGT_0).
  cbn [ef_mul]. rewrite ef_sqrt_Fin by lra. rewrite ef_sub_Fin. cbn [ef_mul ef_neg].
  rewrite !ef_div_Fin by (try lra; assert (0 < s * s) by (apply Rmult_lt_0_compat; lra); lra).
  cbn [ef_exp ef_mul]. f_equal. unfold normal_density. set (y := - _ / _). field. split; lra.
Qed.
(** The normal density of the sum of two normal numbers. *)
Lemma normal_sum : forall m1 s1 m2 s2 x, 0 < s1 -> 0 < s2 ->
  sum_density (normal_density m1 s1) (normal_density m2 s2) x (normal_density (m1 + m2) (sqrt (s1 * s1 + s2 * s2)) x).
Proof.
  intros m1 s1 m2 s2 x S1 S2. assert (Q : 0 < s1 * s1 + s2 * s2) by nra. set (S := sqrt (s1 * s1 + s2 * s2)).
  assert (PS : 0 < S) by (apply sqrt_lt_R0; exact Q). assert (SS : S * S = s1 * s1 + s2 * s2) by (apply sqrt_sqrt; lra).
  set (w := s1 * s2 / S). assert (W : 0 < w) by (unfold w; apply Rdiv_lt_0_compat; nra).
  set (c := (m1 * (s2 * s2) + (x - m2) * (s1 * s1)) / (S * S)).
  destruct (normal_density_is c w W) as ((_ & M) & _ & _).
  assert (K := whole_scal (normal_density (m1 + m2) S x) _ _ M). rewrite Rmult_1_r in K. eapply whole_ext; [|exact K]. intro t. cbv beta.
  unfold normal_density. assert (KB := k_bounds). set (k := sqrt (2 * PI)) in *.
  transitivity (exp (- ((x - (m1 + m2)) * (x - (m1 + m2))) / (2 * (S * S)) + - ((t - c) * (t - c)) / (2 * (w * w))) / (S * w * (k * k))).
  { rewrite exp_plus. field. repeat split; lra. }
  transitivity (exp (- ((t - m1) * (t - m1)) / (2 * (s1 * s1)) + - ((x - t - m2) * (x - t - m2)) / (2 * (s2 * s2))) / (s1 * s2 * (k * k))).
  2: { rewrite exp_plus. field. repeat split; lra. }
  assert (E : S * w = s1 * s2) by (unfold w; field; lra). rewrite E. f_equal. f_equal.
  assert (E2 : w * w = s1 * s1 * (s2 * s2) / (s1 * s1 + s2 * s2)) by (unfold w; rewrite <- SS; field; lra). rewrite E2. unfold c. rewrite SS. field. repeat split; nra.
Qed.

(** ** Logistic *)
Lemma exp_small : forall z, 0 < z -> exp (- z) <= 4 / (z * z) /\ exp (- z) <= 1.
Proof.
  intros z H. assert (E := exp_ineq1 (z / 2) ltac:(lra)). rewrite exp_Ropp. assert (EZ : exp z = exp (z / 2) * exp (z / 2)) by (rewrite <- exp_plus; f_equal; field).
  assert (G : z * z / 4 <= exp z) by (rewrite EZ; nra). assert (G1 : 1 <= exp z) by (rewrite EZ; nra). split.
  - replace (4 / (z * z)) with (/ (z * z / 4)) by (field; lra). apply Rinv_le_contravar; nra.
  - rewrite <- Rinv_1. apply Rinv_le_contravar; lra.
Qed.
Definition sig (z : R) : R := / (1 + exp (- z)).
Definition dsig (z : R) : R := exp (- z) / ((1 + exp (- z)) * (1 + exp (- z))).
Lemma sig_deriv : forall z, is_derive sig z (dsig z).
Proof. intro z. unfold sig, dsig. assert (P := exp_pos (- z)). auto_derive; [lra|]. field. lra. Qed.
Lemma dsig_cont : forall z, continuous dsig z.
Proof. intro z. apply (ex_derive_continuous (V := R_NormedModule)). unfold dsig. assert (P := exp_pos (- z)). auto_derive. assert (0 < (1 + exp (- z)) * (1 + exp (- z))) by nra; repeat split; lra. Qed.
Lemma dsig_pos : forall z, 0 < dsig z.
Proof. intro z. unfold dsig. assert (P := exp_pos (- z)). apply Rdiv_lt_0_compat; nra. Qed.
Lemma sig_flip : forall z, sig (- z) = 1 - sig z.
Proof. intro z. unfold sig. rewrite Ropp_involutive, exp_Ropp. assert (P := exp_pos z). field. lra. Qed.
Lemma sig_upper : forall z, 0 < 1 - sig z < exp (- z).
Proof. intro z. unfold sig. assert (P := exp_pos (- z)). replace (1 - / (1 + exp (- z))) with (exp (- z) / (1 + exp (- z))) by (field; lra). split; [apply Rdiv_lt_0_compat; lra|].
  apply Rmult_lt_reg_r with (1 + exp (- z)); [lra|]. unfold Rdiv. rewrite Rmult_assoc, Rinv_l by lra. nra. Qed.
Lemma by_abs : forall (h : R -> R) l, (forall z, h (- z) = h z) -> to_right h l -> to_left h l.
Proof. intros h l E H eps HE. destruct (H eps HE) as [A HA]. exists A. intros x Hx. rewrite <- E. apply HA. lra. Qed.
Lemma dsig_mass : whole dsig 1.
Proof.
  assert (R : to_right sig 1).
  { intros eps HE. exists (1 + 4 / eps). intros x Hx. assert (Q : 0 < 4 / eps) by (apply Rdiv_lt_0_compat; lra). destruct (sig_upper x) as [L U]. rewrite Rabs_left by lra.
    destruct (exp_small x ltac:(lra)) as [B _]. apply Rlt_le_trans with (4 / (x * x)); [lra|]. apply Rmult_le_reg_r with (x * x); [nra|]. replace (4 / (x * x) * (x * x)) with 4 by (field; lra).
    assert (4 = 4 / eps * eps) by (field; lra). nra. }
  replace 1 with (1 - 0) by ring. apply (whole_by sig); [exact sig_deriv|exact dsig_cont|exact R|].
  intros eps HE. destruct (R eps HE) as [A HA]. exists A. intros x Hx. specialize (HA (- x) ltac:(lra)). rewrite sig_flip in HA.
  replace (1 - sig x - 1) with (- (sig x - 0)) in HA by ring. rewrite Rabs_Ropp in HA. exact HA.
Qed.
Definition anti (z : R) : R := z * sig z - ln (1 + exp z).
Lemma anti_even : forall z, anti (- z) = anti z.
Proof.
  intro z. unfold anti. rewrite sig_flip. assert (P := exp_pos z).
  assert (E : ln (1 + exp z) = z + ln (1 + exp (- z))).
  { rewrite <- (ln_exp z) at 2. rewrite <- ln_mult by (assert (Q := exp_pos (- z)); lra). f_equal. rewrite exp_Ropp. field. lra. }
  rewrite E. ring.
Qed.
Lemma anti_left : to_left anti 0.
Proof.
  assert (K : forall z, 0 < z -> Rabs (anti (- z)) <= z * exp (- z) + exp (- z)).
  { intros z H. unfold anti. rewrite sig_flip. destruct (sig_upper z) as [L U]. assert (P := exp_pos (- z)).
    assert (LN : 0 < ln (1 + exp (- z)) <= exp (- z)).
    { split; [rewrite <- ln_1; apply ln_increasing; lra|]. rewrite <- (ln_exp (exp (- z))) at 2. left. apply ln_increasing; [lra|apply exp_ineq1; lra]. }
    rewrite Rabs_left by nra. nra. }
  intros eps HE. exists (1 + 8 / eps). intros x Hx. assert (Q : 0 < 8 / eps) by (apply Rdiv_lt_0_compat; lra).
  specialize (K (- x) ltac:(lra)). rewrite !Ropp_involutive in K. rewrite Rminus_0_r. destruct (exp_small (- x) ltac:(lra)) as [B _]. rewrite Ropp_involutive in B.
  apply Rle_lt_trans with (1 := K). set (z := - x) in *. assert (Z : 1 + 8 / eps <= z) by (unfold z; lra). assert (P := exp_pos x).
  apply Rle_lt_trans with (2 * z * (4 / (z * z))); [nra|]. replace (2 * z * (4 / (z * z))) with (8 / z) by (field; lra).
  apply Rmult_lt_reg_r with z; [lra|]. replace (8 / z * z) with 8 by (field; lra). assert (8 = 8 / eps * eps) by (field; lra). nra.
Qed.
Lemma dsig_first : whole (fun z => z * dsig z) 0.
Proof.
  replace 0 with (0 - 0) by ring. apply (whole_by anti).
  - intro z. unfold anti, sig, dsig. assert (P := exp_pos (- z)). assert (P' := exp_pos z). auto_derive; [repeat split; lra|].
    rewrite exp_Ropp. field. split; lra.
  - intro x. apply (continuous_mult (K := R_AbsRing) (fun z => z) dsig); [apply continuous_id|apply dsig_cont].
  - intros eps HE. destruct (anti_left eps HE) as [A HA]. exists A. intros x Hx. rewrite <- anti_even. apply HA. lra.
  - exact anti_left.
Qed.
Lemma logistic_density_is : forall m s, 0 < s -> density (logistic_density_at m s) /\ has_mean (logistic_density_at m s) m.
Proof.
  intros m s S. assert (E : forall x, dsig ((x - m) / s) / s = logistic_density_at m s x).
  { intro x. unfold dsig, logistic_density_at. assert (P := exp_pos (- ((x - m) / s))). field. split; lra. }
  assert (D : density dsig) by (split; [exact dsig_pos|exact dsig_mass]). split.
  - apply (density_ext _ _ E). apply family_density; assumption.
  - eapply whole_ext; [|exact (family_mean dsig m s S D dsig_first)]. intro x. cbv beta. rewrite E. reflexivity.
Qed.
Lemma pdf_same : forall m s x, 0 < s -> logistic_pdf m s x = logistic_density_at m s x.
Proof. intros m s x S. unfold logistic_pdf, logistic_density_at. assert (P := exp_pos (- ((x - m) / s))). field. split; lra. Qed.

(** ** The likelihood of one vote *)
Lemma ln_computed : forall v, 0 < v -> ef_ln (Fin v) = Fin (ln v).
Proof. intros v P. unfold ef_ln. rewrite (proj2 (Rltb_false _ 0)) by lra. destruct (Req_EM_T _ 0) as [Q|_]; [lra|reflexivity]. Qed.
Lemma vat_at : forall (l : list ef) i v, nth_error l i = Some v -> vat l i = v.
Proof. intros l i v H. unfold vat. apply nth_error_nth with (1 := H). Qed.
Lemma c138_vote : forall x q b v a cids y, logpdf GaussianPdf x q b v a cids = Ok y ->
  forall e s r w c Q B V A, inside x e s r -> at3 x e s r = Fin w ->
  nth_error q e = Some (Fin Q) -> nth_error b s = Some (Fin B) -> nth_error v s = Some (Fin V) -> nth_error cids e = Some c -> nth_error a c = Some (Fin A) -> 0 < V -> 0 < A ->
  exists d, 0 < d /\ at3 y e s r = Fin (ln d) /\ sum_density (normal_density B V) (normal_density Q A) w d.
Proof.
  intros x q b v a cids y HY e s r w c Q B V A HI E HQ HB HV HC HA PV PA. unfold logpdf in HY. cbv zeta in HY. match type of HY with Ok ?t = _ => assert (HY' : t = y) by congruence end. clear HY. rename HY' into HY.
  exists (normal_density (B + Q) (sqrt (V * V + A * A)) w). assert (P : 0 < V * V + A * A) by nra. assert (S : 0 < sqrt (V * V + A * A)) by (apply sqrt_lt_R0; exact P).
  assert (D : 0 < normal_density (B + Q) (sqrt (V * V + A * A)) w) by (apply normal_density_is; exact S).
  split; [exact D|]. split; [|apply normal_sum; assumption]. rewrite <- HY. cbn [map3 at3]. rewrite E.
  assert (W : w_es v (amb_of a cids) e s = Fin (V * V + A * A)).
  { unfold w_es, nsq. rewrite (vat_at v s _ HV). rewrite (vat_at (amb_of a cids) e (Fin A)); [cbn; f_equal; ring|].
    unfold amb_of. rewrite nth_error_map, HC. cbn [option_map]. f_equal. apply vat_at. exact HA. }
  rewrite W, (vat_at q e _ HQ), (vat_at b s _ HB). cbn [nadd nsqrt nln Num_ef ef_add]. rewrite ef_sqrt_Fin by lra. rewrite (Rplus_comm Q B).
  assert (G := gaussian_computes (B + Q) (sqrt (V * V + A * A)) S w). rewrite G. apply ln_computed. exact D.
Qed.

Lemma computed_same : forall code f g, computes code f -> computes code g -> forall x, f x = g x.
Proof. intros code f g HF HG x. assert (E := HF x). rewrite (HG x) in E. injection E as E. symmetry. exact E. Qed.
Lemma c138_sum : forall m1 s1 m2 s2 f g, 0 < s1 -> 0 < s2 ->
  computes (fun x => gaussian x (Fin m1) (Fin s1)) f -> computes (fun x => gaussian x (Fin m2) (Fin s2)) g ->
  forall x, exists v, gaussian (Fin x) (Fin (m1 + m2)) (Fin (sqrt (s1 * s1 + s2 * s2))) = Fin v /\ sum_density f g x v.
Proof.
  intros m1 s1 m2 s2 f g S1 S2 HF HG x. assert (S : 0 < sqrt (s1 * s1 + s2 * s2)) by (apply sqrt_lt_R0; nra).
  eexists. split; [exact (gaussian_computes (m1 + m2) _ S x)|]. eapply whole_ext; [|exact (normal_sum m1 s1 m2 s2 x S1 S2)].
  intro t. cbv beta. rewrite (computed_same _ _ _ HF (gaussian_computes m1 s1 S1)), (computed_same _ _ _ HG (gaussian_computes m2 s2 S2)). reflexivity.
Qed.
Lemma c138_logistic : forall m s, 0 < s -> exists f,
  computes (fun x => logistic x (Fin m) (Fin s)) f /\ computes (fun x => logistic_density (Fin s) (nsub x (Fin m))) f /\ density f /\ has_mean f m.
Proof.
  intros m s S. exists (logistic_density_at m s). split; [intro x; cbv beta; rewrite (logistic_value x m s S), (pdf_same m s x S); reflexivity|]. split; [|exact (logistic_density_is m s S)].
  intro x. cbn [nsub Num_ef]. rewrite ef_sub_Fin, (density_value (x - m) s S), (pdf_same 0 s (x - m) S). unfold logistic_density_at. rewrite Rminus_0_r. reflexivity.
Qed.
