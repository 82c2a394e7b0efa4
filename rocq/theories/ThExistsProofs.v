(** When the Thurstone likelihood has a maximum (C129). *)
From Coq Require Import List ZArith Bool Arith Reals Lia Lra Classical.
From Verif Require Import PyBase Num ExtReal NumPy SpecMos PairedComp SpecBt BtProofs Bt3Proofs Bt4Proofs NormalCdf SpecBtLimit BtLimitProofs ThurstoneProofs SpecThExists BtWitness.
Import ListNotations.
Local Open Scope R_scope.

(** ** Cluster points of nested sets of vectors *)
Lemma nest1 : forall (A : R -> (nat -> R) -> Prop) i B, (forall e e' v, 0 < e <= e' -> A e v -> A e' v) ->
  (forall e, 0 < e -> exists v, A e v) -> (forall e v, A e v -> Rabs (v i) <= B) -> exists l, forall e, 0 < e -> exists v, A e v /\ Rabs (v i - l) < e.
Proof.
  intros A i B Hmono Hinf Hb. set (E := fun x => forall e, 0 < e -> exists v, A e v /\ x <= v i).
  assert (E0 : E (- B)).
  { intros e He. destruct (Hinf e He) as (v & Av). exists v. split; [assumption|]. generalize (Hb e v Av). unfold Rabs. destruct (Rcase_abs (v i)); lra. }
  assert (Eb : bound E).
  { exists B. intros x Ex. destruct (Ex 1 Rlt_0_1) as (v & Av & L). generalize (Hb 1 v Av). unfold Rabs. destruct (Rcase_abs (v i)); lra. }
  destruct (completeness E Eb (ex_intro _ _ E0)) as [l [Lub Least]]. exists l. intros e He.
  assert (E1 : E (l - e / 2)).
  { destruct (classic (exists x, E x /\ l - e / 2 < x)) as [(x & Ex & Lx)|No].
    - intros d Hd. destruct (Ex d Hd) as (v & Av & Uv). exists v. split; [assumption|lra].
    - exfalso. assert (l <= l - e / 2); [|lra]. apply Least. intros x Ex. destruct (Rle_dec x (l - e / 2)); [assumption|]. exfalso. apply No. exists x. split; [assumption|lra]. }
  assert (E2 : ~ E (l + e / 2)) by (intro H; generalize (Lub _ H); lra).
  assert (E3 : exists e0, 0 < e0 /\ forall v, A e0 v -> v i < l + e / 2).
  { apply NNPP. intro No. apply E2. intros d Hd. apply NNPP. intro No2. apply No. exists d. split; [assumption|].
    intros v Av. apply Rnot_le_lt. intro L. apply No2. exists v. auto. }
  destruct E3 as (e0 & He0 & H3). assert (Hd : 0 < Rmin e e0) by (apply Rmin_glb_lt; assumption).
  destruct (E1 _ Hd) as (v & Av & Uv). exists v. split.
  - apply (Hmono _ _ _ (conj Hd (Rmin_l e e0)) Av).
  - assert (U := H3 v (Hmono _ _ _ (conj Hd (Rmin_r e e0)) Av)). unfold Rabs. destruct (Rcase_abs (v i - l)); lra.
Qed.
Lemma nest : forall m (A : R -> (nat -> R) -> Prop) B, (forall e e' v, 0 < e <= e' -> A e v -> A e' v) ->
  (forall e, 0 < e -> exists v, A e v) -> (forall e v i, (i < m)%nat -> A e v -> Rabs (v i) <= B) ->
  exists l : nat -> R, forall e, 0 < e -> exists v, A e v /\ forall i, (i < m)%nat -> Rabs (v i - l i) < e.
Proof.
  induction m as [|m IH]; intros A B Hm Hi Hb.
  - exists (fun _ => 0). intros e He. destruct (Hi e He) as (v & Av). exists v. split; [exact Av|]. intros; lia.
  - destruct (IH A B Hm Hi (fun e v i Hi' => Hb e v i ltac:(lia))) as [l Hl].
    destruct (nest1 (fun e v => A e v /\ forall i, (i < m)%nat -> Rabs (v i - l i) < e) m B) as [lm Hlm].
    + intros e e' v He [Av H]. split; [apply (Hm e e' v He Av)|]. intros i Hi'. generalize (H i Hi'). lra.
    + exact Hl.
    + intros e v [Av _]. apply (Hb e v m ltac:(lia) Av).
    + exists (fun i => if Nat.eqb i m then lm else l i). intros e He. destruct (Hlm e He) as (v & [Av H] & Hv). exists v. split; [exact Av|].
      intros i Hi'. destruct (Nat.eqb_spec i m) as [-> |Ne]; [exact Hv|]. apply H. lia.
Qed.

Section Exists.
  Variable F : R -> R.
  Hypothesis HF : normal_cdf F.
  Let Fp : forall x, 0 < F x. Proof. intro x. apply HF. Qed.
  Let F1 : forall x, F x < 1. Proof. intro x. apply HF. Qed.

  Lemma score_pos : forall x, 0 < score_ F x.
  Proof. intro x. unfold score_. apply Rdiv_lt_0_compat; [|apply Fp]. unfold gauss. apply Rdiv_lt_0_compat; [apply exp_pos|]. apply sqrt_lt_R0. assert (P := PI_RGT_0). lra. Qed.
  Lemma lnF_mono : forall x y, x < y -> ln (F x) < ln (F y).
  Proof. intros x y L. generalize (proj1 (tangent F HF y x)) (score_pos y). nra. Qed.
  Lemma lnF_neg : forall x, ln (F x) < 0.
  Proof. intro x. rewrite <- ln_1. apply ln_increasing; [apply Fp|apply F1]. Qed.
  (** A likely win has a difference bounded from below. *)
  Lemma low_diff : forall t, exists c, 0 < c /\ forall z, t <= ln (F z) -> - c <= z.
  Proof.
    intro t. exists (2 * exp (- t) + 1 + 1). assert (P := exp_pos (- t)). split; [lra|]. intros z Hz. apply Rnot_lt_le. intro L.
    set (c := 2 * exp (- t) + 1 + 1) in *. assert (M := lnF_mono z (- c) L). assert (T := normal_tail c ltac:(unfold c; lra)). rewrite <- (F_normal F HF) in T.
    assert (E : F (- c) < exp t).
    { apply Rle_lt_trans with (1 := T). replace (exp t) with (/ exp (- t)) by (rewrite exp_Ropp, Rinv_inv; reflexivity).
      apply Rmult_lt_reg_r with (c * c * exp (- t)); [unfold c; nra|].
      replace (2 / (c * c) * (c * c * exp (- t))) with (2 * exp (- t)) by (field; unfold c; lra).
      replace (/ exp (- t) * (c * c * exp (- t))) with (c * c) by (field; lra). unfold c. nra. }
    apply ln_increasing in E; [|apply Fp]. rewrite ln_exp in E. lra.
  Qed.
  Lemma th_term : forall m w v i j, nonneg_counts m w -> (i < m)%nat -> (j < m)%nat -> th_likelihood F m w v <= w i j * ln (F (v i - v j)).
  Proof.
    intros m w v i j Hw Hi Hj. unfold th_likelihood.
    assert (N : forall a b, (a < m)%nat -> (b < m)%nat -> w a b * ln (F (v a - v b)) <= 0).
    { intros a b Ha Hb. generalize (Hw a b Ha Hb) (lnF_neg (v a - v b)). nra. }
    apply Rle_trans with (total m (fun j => w i j * ln (F (v i - v j)))).
    - apply (total_ge_one m (fun i => total m (fun j => w i j * ln (F (v i - v j)))) i Hi). intros a Ha.
      assert (X := total_le m (fun b => w a b * ln (F (v a - v b))) (fun _ => 0 * 0) (fun b Hb => ltac:(generalize (N a b Ha Hb); lra))). rewrite total_mul in X. lra.
    - apply (total_ge_one m (fun j => w i j * ln (F (v i - v j))) j Hj). intros b Hb. apply N; assumption.
  Qed.
  Lemma th_nonpos : forall m w v, nonneg_counts m w -> th_likelihood F m w v <= 0.
  Proof.
    intros m w v Hw. destruct m as [|m]; [unfold th_likelihood, total, Rsum; cbn; lra|].
    assert (T := th_term (S m) w v 0 0 Hw ltac:(lia) ltac:(lia)). generalize (Hw 0%nat 0%nat ltac:(lia) ltac:(lia)) (lnF_neg (v 0%nat - v 0%nat)). nra.
  Qed.
  Lemma diff_bound : forall m w L i j, nonneg_counts m w -> above m w i j -> exists c, forall v, L <= th_likelihood F m w v -> v j - v i <= c.
  Proof.
    intros m w L i j Hw A. induction A as [i Hi|i k j Hi Wk A [c IH]].
    - exists 0. intros. lra.
    - destruct (low_diff (L / w i k)) as (d & Hd & Hc). exists (c + d). intros v HL. destruct (above_range _ _ _ _ A) as [Hk Hj].
      assert (B := IH v HL). assert (T := th_term m w v i k Hw Hi Hk).
      assert (E : L / w i k <= ln (F (v i - v k))).
      { apply Rmult_le_reg_r with (w i k); [assumption|]. unfold Rdiv. rewrite Rmult_assoc, Rinv_l by lra. lra. }
      generalize (Hc _ E). lra.
  Qed.
  Lemma all_bound : forall m w L, nonneg_counts m w -> linked m w -> exists c, forall v i j, (i < m)%nat -> (j < m)%nat -> L <= th_likelihood F m w v -> v j - v i <= c.
  Proof.
    intros m w L Hw Hl.
    destruct (finite_bound m (fun i c => forall j, (j < m)%nat -> forall v, L <= th_likelihood F m w v -> v j - v i <= c)) as (c & _ & Hc).
    - intros i c c' Hi Hc H j Hj v HL. generalize (H j Hj v HL). lra.
    - intros i Hi. destruct (finite_bound m (fun j c => forall v, L <= th_likelihood F m w v -> v j - v i <= c)) as (c & _ & Hc).
      + intros j c c' Hj Hc H v HL. generalize (H v HL). lra.
      + intros j Hj. apply diff_bound; [assumption|]. apply Hl; assumption.
      + exists c. exact Hc.
    - exists c. intros v i j Hi Hj HL. apply Hc; assumption.
  Qed.
  Lemma th_shift : forall m w v c, th_likelihood F m w (fun i => v i - c) = th_likelihood F m w v.
  Proof. intros. unfold th_likelihood. apply total_ext. intros i _. apply total_ext. intros j _. do 3 f_equal. ring. Qed.

  (** How much more likely scores nearby can be. *)
  Lemma near : forall m w l, nonneg_counts m w -> exists K, 0 <= K /\ forall e v, 0 < e -> (forall i, (i < m)%nat -> Rabs (v i - l i) < e) ->
    th_likelihood F m w v <= th_likelihood F m w l + K * e.
  Proof.
    intros m w l Hw. exists (2 * total m (fun i => total m (fun j => w i j * score_ F (l i - l j)))).
    split.
    - apply Rmult_le_pos; [lra|]. apply total_nonneg. intros i Hi. apply total_nonneg. intros j Hj. generalize (Hw i j Hi Hj) (score_pos (l i - l j)). nra.
    - intros e v He H. assert (D := th_diff F m w l v).
      assert (B : total m (fun i => total m (fun j => w i j * (ln (F (v i - v j)) - ln (F (l i - l j))))) <= 2 * e * total m (fun i => total m (fun j => w i j * score_ F (l i - l j)))).
      { rewrite <- total_mul. apply total_le. intros i Hi. rewrite <- total_mul. apply total_le. intros j Hj.
        generalize (proj1 (tangent F HF (l i - l j) (v i - v j))) (score_pos (l i - l j)) (Hw i j Hi Hj). intros T S W.
        assert (U : v i - v j - (l i - l j) <= 2 * e). { generalize (H i Hi) (H j Hj). intros A1 A2. apply Rabs_def2 in A1. apply Rabs_def2 in A2. lra. }
        replace (2 * e * (w i j * score_ F (l i - l j))) with (w i j * (2 * e * score_ F (l i - l j))) by ring.
        apply Rmult_le_compat_l; [exact W|]. nra. }
      lra.
  Qed.

  Lemma linked_exists : forall m w, (0 < m)%nat -> nonneg_counts m w -> linked m w -> exists v, most_likely_scores F m w v.
  Proof.
    intros m w Hm Hw Hl. set (E := fun y => exists v, y = th_likelihood F m w v).
    assert (Eb : bound E) by (exists 0; intros y (v & ->); apply th_nonpos; assumption).
    destruct (completeness E Eb (ex_intro _ _ (ex_intro _ (fun _ => 0) eq_refl))) as [M [Ub Least]].
    destruct (all_bound m w (M - 1) Hw Hl) as (c & Hc).
    set (A := fun e (v : nat -> R) => M - Rmin e 1 < th_likelihood F m w v /\ v 0%nat = 0).
    destruct (nest m A c) as (l & Cl).
    - intros e e' v [He He'] [L Z]. split; [|exact Z]. assert (Rmin e 1 <= Rmin e' 1); [|lra].
      apply Rmin_glb; [|apply Rmin_r]. generalize (Rmin_l e 1). lra.
    - intros e He. assert (P : 0 < Rmin e 1) by (apply Rmin_glb_lt; lra).
      destruct (classic (exists v, M - Rmin e 1 < th_likelihood F m w v)) as [(v & L)|No].
      + exists (fun i => v i - v 0%nat). split; [rewrite th_shift; exact L|ring].
      + exfalso. assert (M <= M - Rmin e 1); [|lra]. apply Least. intros y (v & ->). apply Rnot_lt_le. intro L. apply No. exists v. exact L.
    - intros e v i Hi [L Z]. assert (HL : M - 1 <= th_likelihood F m w v) by (generalize (Rmin_r e 1); lra).
      generalize (Hc v i 0%nat Hi Hm HL) (Hc v 0%nat i Hm Hi HL). rewrite Z. intros B1 B2. apply Rabs_le. lra.
    - exists l. intro u. destruct (near m w l Hw) as (K & HK & HN).
      assert (U : th_likelihood F m w u <= M) by (apply Ub; exists u; reflexivity).
      assert (X : M <= th_likelihood F m w l); [|lra]. apply Rnot_lt_le. intro L.
      set (g := M - th_likelihood F m w l) in *. assert (Hg : 0 < g) by (unfold g; lra).
      assert (He : 0 < g / (K + 2)) by (apply Rdiv_lt_0_compat; lra). destruct (Cl _ He) as (v & [Av _] & Hv).
      assert (B := HN _ v He Hv). generalize (Rmin_l (g / (K + 2)) 1). intro R1.
      assert (Q : (K + 2) * (g / (K + 2)) = g) by (field; lra). unfold g in *. nra.
  Qed.

  Lemma exists_linked : forall m w, nonneg_counts m w -> connected m w -> (exists v, most_likely_scores F m w v) -> linked m w.
  Proof.
    intros m w Hw Hc (v & M) i j Hi Hj. apply NNPP. intro N.
    destruct (finite_decide m (fun k => above m w i k)) as (b & Hb).
    destruct (crossing m (games w) i j (fun k => above m w i k) (Hc i j Hi Hj) (above_self m w i Hi) N) as (x & y & Hx & Hy & Sx & Ny & G).
    assert (Z : w x y = 0). { generalize (Hw x y Hx Hy). intros [W|W]; [exfalso; apply Ny, (above_app m w i x y); assumption|auto]. }
    unfold games in G.
    assert (C : forall i' j', (i' < m)%nat -> (j' < m)%nat -> b i' = true -> b j' = false -> w i' j' = 0).
    { intros i' j' Hi' Hj' Bi Bj. generalize (Hw i' j' Hi' Hj'). intros [W|W]; [|auto]. exfalso.
      assert (A := above_app m w i i' j' (proj1 (Hb i' Hi') Bi) Hj' W). apply (Hb j' Hj') in A. congruence. }
    assert (Bx : b x = true) by (apply Hb; assumption). assert (By : b y = false) by (destruct (b y) eqn:By; [exfalso; apply Ny, Hb; assumption|reflexivity]).
    set (u := fun k => if b k then v k - 1 else v k).
    assert (T : forall p q, (p < m)%nat -> (q < m)%nat -> 0 <= w p q * (ln (F (u p - u q)) - ln (F (v p - v q)))).
    { intros p q Hp Hq. unfold u. destruct (b p) eqn:Bp, (b q) eqn:Bq.
      - replace (v p - 1 - (v q - 1)) with (v p - v q) by ring. generalize (Hw p q Hp Hq). nra.
      - rewrite (C p q) by assumption. lra.
      - generalize (Hw p q Hp Hq) (lnF_mono (v p - v q) (v p - (v q - 1)) ltac:(lra)). nra.
      - generalize (Hw p q Hp Hq). nra. }
    assert (P : 0 < total m (fun p => total m (fun q => w p q * (ln (F (u p - u q)) - ln (F (v p - v q)))))).
    { apply (total_pos m (fun p => total m (fun q => w p q * (ln (F (u p - u q)) - ln (F (v p - v q))))) y Hy).
      - intros p Hp. apply total_nonneg. intros q Hq. apply T; assumption.
      - apply (total_pos m (fun q => w y q * (ln (F (u y - u q)) - ln (F (v y - v q)))) x Hx); [intros; apply T; assumption|].
        unfold u. rewrite Bx, By. generalize (lnF_mono (v y - v x) (v y - (v x - 1)) ltac:(lra)). intro D. apply Rmult_lt_0_compat; lra. }
    rewrite (th_diff F) in P. generalize (M u). lra.
  Qed.
  Lemma c129_exists : forall m w, (0 < m)%nat -> nonneg_counts m w -> connected m w -> ((exists v, most_likely_scores F m w v) <-> linked m w).
  Proof. intros m w Hm Hw Hc. split; [apply exists_linked; assumption|apply linked_exists; assumption]. Qed.

  (** ** The objective of the code *)
  Section Soft.
    Variable d : R.
    Hypothesis Hd : 0 < d.
    Hypothesis Hd1 : d <= 1 / 100000000.
    Lemma ln_gap : forall a b, 0 < a -> 0 < b -> ln b - ln a <= (b - a) / a.
    Proof.
      intros a b Ha Hb. assert (E : ln b = ln a + ln (b / a)) by (rewrite <- ln_mult by (try apply Rdiv_lt_0_compat; assumption); f_equal; field; lra).
      assert (P : 0 < b / a) by (apply Rdiv_lt_0_compat; assumption). assert (U := exp_ineq1_le (ln (b / a))). rewrite exp_ln in U by assumption.
      replace ((b - a) / a) with (b / a - 1) by (field; lra). lra.
    Qed.
    Lemma gauss_le1 : forall x, gauss x <= 1.
    Proof.
      intro x. unfold gauss. assert (P := PI_RGT_0). assert (S1 : 1 <= sqrt (2 * PI)) by (rewrite <- sqrt_1; apply sqrt_le_1_alt; assert (Q := PI2_1); lra).
      apply Rmult_le_reg_r with (sqrt (2 * PI)); [lra|]. unfold Rdiv at 1. rewrite Rmult_assoc, Rinv_l by lra.
      assert (X : exp (- (x * x) / 2) <= 1); [|lra]. rewrite <- exp_0. destruct (Req_dec (x * x) 0) as [E|E]; [rewrite E; right; f_equal; lra|]. left. apply exp_increasing. nra.
    Qed.
    Lemma F_lip : forall x y, x <= y -> F y - F x <= y - x.
    Proof.
      intros x y [L|<-]; [|lra]. assert (D : forall t, derivable_pt_lim F t (gauss t)) by (intro t; apply HF).
      destruct (MVT_cor2 F gauss x y L (fun t _ => D t)) as (t & E & _). rewrite E. generalize (gauss_le1 t). nra.
    Qed.
    Lemma F_mono : forall x y, x < y -> F x < F y.
    Proof. intros x y L. apply ln_lt_inv; [apply Fp|apply Fp|]. apply lnF_mono. exact L. Qed.
    Lemma soft_lip : forall x y e, 0 <= e -> y - x <= e -> ln (F y + d) - ln (F x + d) <= e / d.
    Proof.
      intros x y e He Hl. assert (A := Fp x). assert (B := Fp y). destruct (Rle_dec y x) as [L|L].
      - assert (ln (F y + d) <= ln (F x + d)).
        { destruct L as [L| ->]; [|lra]. left. apply ln_increasing; [lra|]. generalize (F_mono y x L). lra. }
        assert (0 <= e / d) by (apply Rmult_le_pos; [lra|left; apply Rinv_0_lt_compat; lra]). lra.
      - assert (G := ln_gap (F x + d) (F y + d) ltac:(lra) ltac:(lra)). assert (I := F_lip x y ltac:(lra)). assert (M := F_mono x y ltac:(lra)).
        apply Rle_trans with (1 := G). apply Rle_trans with (e / (F x + d)).
        + apply Rmult_le_compat_r; [left; apply Rinv_0_lt_compat; lra|lra].
        + apply Rmult_le_compat_l; [lra|]. apply Rinv_le_contravar; lra.
    Qed.
    Lemma soft_diff : forall m w v u, total m (fun i => total m (fun j => w i j * (ln (F (u i - u j) + d) - ln (F (v i - v j) + d)))) = softened F d m w u - softened F d m w v.
    Proof. intros. unfold softened. rewrite <- total_sub. apply total_ext. intros i _. rewrite <- total_sub. apply total_ext. intros j _. ring. Qed.
    Lemma soft_shift : forall m w v c, softened F d m w (fun i => v i - c) = softened F d m w v.
    Proof. intros. unfold softened. apply total_ext. intros i _. apply total_ext. intros j _. do 3 f_equal. f_equal. ring. Qed.
    Lemma soft_near : forall m w l, nonneg_counts m w -> exists K, 0 <= K /\ forall e v, 0 < e -> (forall i, (i < m)%nat -> Rabs (v i - l i) < e) ->
      softened F d m w v <= softened F d m w l + K * e.
    Proof.
      intros m w l Hw. exists (2 / d * comparisons m w). split.
      - apply Rmult_le_pos; [apply Rlt_le, Rdiv_lt_0_compat; lra|]. apply total_nonneg. intros i Hi. apply total_nonneg. intros j Hj. apply Hw; assumption.
      - intros e v He H. assert (D := soft_diff m w l v).
        assert (B : total m (fun i => total m (fun j => w i j * (ln (F (v i - v j) + d) - ln (F (l i - l j) + d)))) <= 2 * e / d * comparisons m w).
        { unfold comparisons. rewrite <- total_mul. apply total_le. intros i Hi. rewrite <- total_mul. apply total_le. intros j Hj.
          assert (U : v i - v j - (l i - l j) <= 2 * e). { generalize (H i Hi) (H j Hj). intros A1 A2. apply Rabs_def2 in A1. apply Rabs_def2 in A2. lra. }
          assert (S := soft_lip (l i - l j) (v i - v j) (2 * e) ltac:(lra) U). rewrite Rmult_comm. apply Rmult_le_compat_r; [apply Hw; assumption|exact S]. }
        replace (2 / d * comparisons m w * e) with (2 * e / d * comparisons m w) by (unfold Rdiv; ring). lra.
    Qed.
    Lemma soft_top : forall x, ln (F x + d) <= ln (1 + d).
    Proof. intro x. left. apply ln_increasing; generalize (Fp x) (F1 x); lra. Qed.
    Lemma ln1d : 0 < ln (1 + d). Proof. rewrite <- ln_1. apply ln_increasing; lra. Qed.
    Lemma soft_term : forall m w v i k, nonneg_counts m w -> (i < m)%nat -> (k < m)%nat ->
      softened F d m w v <= w i k * (ln (F (v i - v k) + d) - ln (1 + d)) + comparisons m w * ln (1 + d).
    Proof.
      intros m w v i k Hw Hi Hk.
      assert (E : softened F d m w v - comparisons m w * ln (1 + d) = total m (fun i => total m (fun j => w i j * (ln (F (v i - v j) + d) - ln (1 + d))))).
      { unfold softened, comparisons. rewrite <- total_mulr, <- total_sub. apply total_ext. intros a _. rewrite <- total_mulr, <- total_sub. apply total_ext. intros b _. ring. }
      assert (N : forall a b, (a < m)%nat -> (b < m)%nat -> w a b * (ln (F (v a - v b) + d) - ln (1 + d)) <= 0).
      { intros a b Ha Hb. generalize (Hw a b Ha Hb) (soft_top (v a - v b)). nra. }
      cut (total m (fun i => total m (fun j => w i j * (ln (F (v i - v j) + d) - ln (1 + d)))) <= w i k * (ln (F (v i - v k) + d) - ln (1 + d))); [lra|].
      apply Rle_trans with (total m (fun j => w i j * (ln (F (v i - v j) + d) - ln (1 + d)))).
      - apply (total_ge_one m (fun i => total m (fun j => w i j * (ln (F (v i - v j) + d) - ln (1 + d)))) i Hi). intros a Ha.
        assert (X := total_le m (fun b => w a b * (ln (F (v a - v b) + d) - ln (1 + d))) (fun _ => 0 * 0) (fun b Hb => ltac:(generalize (N a b Ha Hb); lra))). rewrite total_mul in X. lra.
      - apply (total_ge_one m (fun j => w i j * (ln (F (v i - v j) + d) - ln (1 + d))) k Hk). intros b Hb. apply N; assumption.
    Qed.
    Lemma soft_zero : forall m w, nonneg_counts m w -> - (comparisons m w * ln 2) <= softened F d m w (fun _ => 0).
    Proof.
      intros m w Hw. replace (- (comparisons m w * ln 2)) with (comparisons m w * - ln 2) by ring. unfold comparisons, softened.
      rewrite <- total_mulr. apply total_le. intros i Hi. rewrite <- total_mulr. apply total_le. intros j Hj. apply Rmult_le_compat_l; [apply Hw; assumption|].
      assert (Z : F (0 - 0) = / 2). { replace (0 - 0) with 0 by ring. assert (S : F (- 0) = 1 - F 0) by apply HF. rewrite Ropp_0 in S. lra. }
      rewrite Z, <- ln_Rinv by lra. left. apply ln_increasing; lra.
    Qed.
    Lemma small : 26 * (ln 2 + ln (1 + d)) < - ln d.
    Proof.
      rewrite <- ln_mult by lra. rewrite <- ln_Rinv by lra. replace 26 with (INR 26) by (cbn; lra). rewrite <- ln_pow by lra.
      apply ln_increasing; [apply pow_lt; lra|]. apply Rle_lt_trans with ((2 * (1 + 1 / 100000000)) ^ 26); [apply pow_incr; lra|].
      apply Rlt_le_trans with (/ (1 / 100000000)); [|apply Rinv_le_contravar; lra]. lra.
    Qed.
    Lemma soft_diff_bound : forall m w i j, nonneg_counts m w -> no_rare_win m w -> above m w i j ->
      exists c, forall v, softened F d m w (fun _ => 0) <= softened F d m w v -> v j - v i <= c.
    Proof.
      intros m w i j Hw Hr A. induction A as [i Hi|i k j Hi Wk A [c IH]].
      - exists 0. intros. lra.
      - destruct (above_range _ _ _ _ A) as [Hk Hj]. set (W := comparisons m w) in *.
        assert (HW : W <= 26 * w i k) by (apply Hr; assumption).
        set (t := (- (W * ln 2) - W * ln (1 + d)) / w i k + ln (1 + d)).
        assert (Ht : ln d < t).
        { unfold t. assert (S := small). assert (L2 : 0 < ln 2) by (rewrite <- ln_1; apply ln_increasing; lra). assert (L1 := ln1d).
          assert (Q : - (26 * (ln 2 + ln (1 + d))) <= (- (W * ln 2) - W * ln (1 + d)) / w i k).
          { apply Rmult_le_reg_r with (w i k); [assumption|]. unfold Rdiv. rewrite Rmult_assoc, Rinv_l by lra. nra. }
          lra. }
        assert (Hs : 0 < exp t - d). { apply exp_increasing in Ht. rewrite exp_ln in Ht by assumption. lra. }
        destruct (low_diff (ln (exp t - d))) as (b & Hb & Hc). exists (c + b). intros v HL.
        assert (B := IH v HL). assert (T := soft_term m w v i k Hw Hi Hk). assert (Z := soft_zero m w Hw). fold W in T, Z.
        assert (E : t <= ln (F (v i - v k) + d)).
        { cut ((- (W * ln 2) - W * ln (1 + d)) / w i k <= ln (F (v i - v k) + d) - ln (1 + d)); [unfold t; lra|].
          apply Rmult_le_reg_r with (w i k); [assumption|]. unfold Rdiv. rewrite Rmult_assoc, Rinv_l by lra. lra. }
        assert (E2 : ln (exp t - d) <= ln (F (v i - v k))).
        { assert (Y : exp t <= F (v i - v k) + d).
          { assert (P := Fp (v i - v k)). destruct E as [E|E]; [apply exp_increasing in E|rewrite E]; rewrite exp_ln in * by lra; lra. }
          destruct (Req_dec (exp t - d) (F (v i - v k))) as [Q|Q]; [rewrite Q; lra|]. left. apply ln_increasing; lra. }
        generalize (Hc _ E2). lra.
    Qed.
    Lemma soft_all_bound : forall m w, nonneg_counts m w -> no_rare_win m w -> linked m w ->
      exists c, forall v i j, (i < m)%nat -> (j < m)%nat -> softened F d m w (fun _ => 0) <= softened F d m w v -> v j - v i <= c.
    Proof.
      intros m w Hw Hr Hl.
      destruct (finite_bound m (fun i c => forall j, (j < m)%nat -> forall v, softened F d m w (fun _ => 0) <= softened F d m w v -> v j - v i <= c)) as (c & _ & Hc).
      - intros i c c' Hi Hc H j Hj v HL. generalize (H j Hj v HL). lra.
      - intros i Hi. destruct (finite_bound m (fun j c => forall v, softened F d m w (fun _ => 0) <= softened F d m w v -> v j - v i <= c)) as (c & _ & Hc).
        + intros j c c' Hj Hc H v HL. generalize (H v HL). lra.
        + intros j Hj. apply soft_diff_bound; [assumption|assumption|]. apply Hl; assumption.
        + exists c. exact Hc.
      - exists c. intros v i j Hi Hj HL. apply Hc; assumption.
    Qed.
    Lemma soft_exists : forall m w, (0 < m)%nat -> nonneg_counts m w -> no_rare_win m w -> linked m w ->
      exists v, forall u, softened F d m w u <= softened F d m w v.
    Proof.
      intros m w Hm Hw Hr Hl. set (L := softened F d m w). set (E := fun y => exists v, y = L v).
      assert (Eb : bound E).
      { exists (comparisons m w * ln (1 + d)). intros y (v & ->). assert (T := soft_term m w v 0 0 Hw Hm Hm). generalize (Hw 0%nat 0%nat Hm Hm) (soft_top (v 0%nat - v 0%nat)). unfold L. nra. }
      destruct (completeness E Eb (ex_intro _ _ (ex_intro _ (fun _ => 0) eq_refl))) as [M [Ub Least]].
      destruct (classic (M <= L (fun _ => 0))) as [Z|Z].
      { exists (fun _ => 0). intro u. assert (X : L u <= M) by (apply Ub; exists u; reflexivity). unfold L in *. lra. }
      assert (Z' : L (fun _ => 0) < M) by lra. set (g0 := M - L (fun _ => 0)) in *.
      destruct (soft_all_bound m w Hw Hr Hl) as (c & Hc).
      set (A := fun e (v : nat -> R) => M - Rmin e g0 < L v /\ v 0%nat = 0).
      destruct (nest m A c) as (l & Cl).
      - intros e e' v [He He'] [Lv Zv]. split; [|exact Zv]. assert (Rmin e g0 <= Rmin e' g0); [|lra].
        apply Rmin_glb; [|apply Rmin_r]. generalize (Rmin_l e g0). lra.
      - intros e He. assert (P : 0 < Rmin e g0) by (apply Rmin_glb_lt; [|unfold g0]; lra).
        destruct (classic (exists v, M - Rmin e g0 < L v)) as [(v & Lv)|No].
        + exists (fun i => v i - v 0%nat). split; [unfold L; rewrite soft_shift; exact Lv|ring].
        + exfalso. assert (M <= M - Rmin e g0); [|lra]. apply Least. intros y (v & ->). apply Rnot_lt_le. intro Lv. apply No. exists v. exact Lv.
      - intros e v i Hi [Lv Zv]. assert (HL : L (fun _ => 0) <= L v) by (generalize (Rmin_r e g0); unfold g0 in *; lra).
        generalize (Hc v i 0%nat Hi Hm HL) (Hc v 0%nat i Hm Hi HL). rewrite Zv. intros B1 B2. apply Rabs_le. lra.
      - exists l. intro u. destruct (soft_near m w l Hw) as (K & HK & HN). fold L in HN |- *.
        assert (U : L u <= M) by (apply Ub; exists u; reflexivity).
        assert (X : M <= L l); [|lra]. apply Rnot_lt_le. intro Ll.
        set (g := M - L l) in *. assert (Hg : 0 < g) by (unfold g; lra).
        assert (He : 0 < g / (K + 2)) by (apply Rdiv_lt_0_compat; lra). destruct (Cl _ He) as (v & [Av _] & Hv).
        assert (B := HN _ v He Hv). generalize (Rmin_l (g / (K + 2)) g0). intro R1.
        assert (Q : (K + 2) * (g / (K + 2)) = g) by (field; lra). unfold g in *. nra.
    Qed.
    Lemma soft_linked : forall m w, nonneg_counts m w -> connected m w -> (exists v, forall u, softened F d m w u <= softened F d m w v) -> linked m w.
    Proof.
      intros m w Hw Hc (v & M) i j Hi Hj. apply NNPP. intro N.
      destruct (finite_decide m (fun k => above m w i k)) as (b & Hb).
      destruct (crossing m (games w) i j (fun k => above m w i k) (Hc i j Hi Hj) (above_self m w i Hi) N) as (x & y & Hx & Hy & Sx & Ny & G).
      assert (Z : w x y = 0). { generalize (Hw x y Hx Hy). intros [W|W]; [exfalso; apply Ny, (above_app m w i x y); assumption|auto]. }
      unfold games in G.
      assert (C : forall i' j', (i' < m)%nat -> (j' < m)%nat -> b i' = true -> b j' = false -> w i' j' = 0).
      { intros i' j' Hi' Hj' Bi Bj. generalize (Hw i' j' Hi' Hj'). intros [W|W]; [|auto]. exfalso.
        assert (A := above_app m w i i' j' (proj1 (Hb i' Hi') Bi) Hj' W). apply (Hb j' Hj') in A. congruence. }
      assert (Bx : b x = true) by (apply Hb; assumption). assert (By : b y = false) by (destruct (b y) eqn:By; [exfalso; apply Ny, Hb; assumption|reflexivity]).
      set (u := fun k => if b k then v k - 1 else v k).
      assert (I : forall s t, s < t -> ln (F s + d) < ln (F t + d)) by (intros s t L; apply ln_increasing; generalize (Fp s) (F_mono s t L); lra).
      assert (T : forall p q, (p < m)%nat -> (q < m)%nat -> 0 <= w p q * (ln (F (u p - u q) + d) - ln (F (v p - v q) + d))).
      { intros p q Hp Hq. unfold u. destruct (b p) eqn:Bp, (b q) eqn:Bq.
        - replace (v p - 1 - (v q - 1)) with (v p - v q) by ring. generalize (Hw p q Hp Hq). nra.
        - rewrite (C p q) by assumption. lra.
        - generalize (Hw p q Hp Hq) (I (v p - v q) (v p - (v q - 1)) ltac:(lra)). nra.
        - generalize (Hw p q Hp Hq). nra. }
      assert (P : 0 < total m (fun p => total m (fun q => w p q * (ln (F (u p - u q) + d) - ln (F (v p - v q) + d))))).
      { apply (total_pos m (fun p => total m (fun q => w p q * (ln (F (u p - u q) + d) - ln (F (v p - v q) + d)))) y Hy).
        - intros p Hp. apply total_nonneg. intros q Hq. apply T; assumption.
        - apply (total_pos m (fun q => w y q * (ln (F (u y - u q) + d) - ln (F (v y - v q) + d))) x Hx); [intros; apply T; assumption|].
          unfold u. rewrite Bx, By. generalize (I (v y - v x) (v y - (v x - 1)) ltac:(lra)). intro D. apply Rmult_lt_0_compat; lra. }
      rewrite soft_diff in P. generalize (M u). lra.
    Qed.
  End Soft.

  Section Code.
    Variable cdf : ef -> ef.
    Hypothesis Hcdf : computes cdf F.
    Lemma code_d : forall m, (0 < m)%nat -> 0 < 1 / 100000000 / INR m <= 1 / 100000000.
    Proof.
      intros m Hm. assert (I1 : 1 <= INR m) by (apply (le_INR 1); lia). split; [apply Rdiv_lt_0_compat; lra|].
      apply Rmult_le_reg_r with (INR m); [lra|]. unfold Rdiv at 1. rewrite Rmult_assoc, Rinv_l by lra. lra.
    Qed.
    Lemma least_soft : forall a m w v, (0 < m)%nat -> counts a m w ->
      (least_objective cdf a m v <-> forall u, softened F (1 / 100000000 / INR m) m w u <= softened F (1 / 100000000 / INR m) m w v).
    Proof.
      intros a m w v Hm Ha. assert (O := fun v => c126_objective F HF cdf Hcdf a m w v Hm Ha). unfold least_objective. split.
      - intros (x & Ex & H) u. destruct (H u) as (y & Ey & L). rewrite O in Ex, Ey. injection Ex as <-. injection Ey as <-. lra.
      - intro H. eexists. split; [apply O|]. intro u. eexists. split; [apply O|]. generalize (H u). lra.
    Qed.
    Lemma c130_needed : forall a m w, (0 < m)%nat -> counts a m w -> nonneg_counts m w -> connected m w -> (exists v, least_objective cdf a m v) -> linked m w.
    Proof.
      intros a m w Hm Ha Hw Hc (v & H). destruct (code_d m Hm) as [D1 D2]. apply (soft_linked _ D1); [assumption|assumption|]. exists v. apply (least_soft a m w v Hm Ha). exact H.
    Qed.
    Lemma c130_exists : forall a m w, (0 < m)%nat -> counts a m w -> nonneg_counts m w -> no_rare_win m w -> linked m w -> exists v, least_objective cdf a m v.
    Proof.
      intros a m w Hm Ha Hw Hr Hl. destruct (code_d m Hm) as [D1 D2]. destruct (soft_exists _ D1 D2 m w Hm Hw Hr Hl) as (v & H). exists v. apply (least_soft a m w v Hm Ha). exact H.
    Qed.
    Definition w_rare (i j : nat) : R := match i, j with O, 1%nat => 1000000000 | 1%nat, O => 1 | _, _ => 0 end.
    Definition w_rare_arr : arr2 ef := Arr2 2 2 (fun i j => Fin (w_rare i j)).
    Lemma rare_nonneg : nonneg_counts 2 w_rare. Proof. intros i j Hi Hj. two; unfold w_rare; lra. Qed.
    Lemma rare_linked : linked 2 w_rare.
    Proof.
      assert (A : above 2 w_rare 0 1) by (apply above_beat with 1%nat; [lia|unfold w_rare; lra|constructor; lia]).
      assert (B : above 2 w_rare 1 0) by (apply above_beat with 0%nat; [lia|unfold w_rare; lra|constructor; lia]).
      intros i j Hi Hj. two; try assumption; constructor; lia.
    Qed.
    Lemma c130_refuted : exists a m w, counts a m w /\ nonneg_counts m w /\ linked m w /\ forall v, ~ least_objective cdf a m v.
    Proof.
      exists w_rare_arr, 2%nat, w_rare. split; [repeat split|]. split; [exact rare_nonneg|]. split; [exact rare_linked|]. intros v H.
      assert (C : counts w_rare_arr 2 w_rare) by (repeat split).
      generalize (proj1 (least_soft w_rare_arr 2 w_rare v ltac:(lia) C) H). clear H. intro H. specialize (H (fun i => match i with O => v 0%nat + 1 | _ => v i end)).
      unfold softened in H. rewrite !total2 in H. cbn [w_rare] in H. set (d := 1 / 100000000 / INR 2) in *. assert (Ed : d = 1 / 200000000) by (unfold d; cbn; field).
      set (z := v 0%nat - v 1%nat) in *. replace (v 0%nat + 1 - v 1%nat) with (z + 1) in H by (unfold z; ring).
      replace (v 1%nat - (v 0%nat + 1)) with (- (z + 1)) in H by (unfold z; ring). replace (v 1%nat - v 0%nat) with (- z) in H by (unfold z; ring).
      assert (Sy : forall x, F (- x) = 1 - F x) by (intro x; apply HF). rewrite !Sy in H.
      assert (M := F_mono z (z + 1) ltac:(lra)). assert (A0 := Fp z). assert (A1 := F1 (z + 1)). set (p := F z) in *. set (q := F (z + 1)) in *.
      assert (G1 := ln_gap (q + d) (p + d) ltac:(lra) ltac:(lra)). assert (G2 := ln_gap (1 - q + d) (1 - p + d) ltac:(lra) ltac:(lra)).
      assert (B1 : (p + d - (q + d)) / (q + d) <= - ((q - p) / 2)).
      { replace ((p + d - (q + d)) / (q + d)) with (- ((q - p) * / (q + d))) by (field; lra). apply Ropp_le_contravar. apply Rmult_le_compat_l; [lra|]. apply Rinv_le_contravar; lra. }
      assert (B2 : (1 - p + d - (1 - q + d)) / (1 - q + d) <= (q - p) * 200000000).
      { replace ((1 - p + d - (1 - q + d)) / (1 - q + d)) with ((q - p) * / (1 - q + d)) by (field; lra). apply Rmult_le_compat_l; [lra|].
        replace 200000000 with (/ d) by (rewrite Ed; field). apply Rinv_le_contravar; lra. }
      lra.
    Qed.
  End Code.
End Exists.
