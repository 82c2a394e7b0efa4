(** Reported uncertainties of the projection solver. *)
From Coq Require Import String.
From Coq Require Import List ZArith Bool Arith Reals Lra Lia Permutation.
From Verif Require Import PyBase Num ExtReal NumPy Dataset Preproc Mos AP SpecMos SpecAp
  BaseProofs ExtRealProofs ArrayProofs ApProofs.
Import ListNotations.
Local Open Scope list_scope.
Local Open Scope R_scope.

Lemma nansum_row_at : forall a e, (e < dE a)%nat ->
  (forall i r, (i < dS a)%nat -> (r < dR a)%nat -> finnan (at3 a e i r)) ->
  np_nansum (row (stack1 a) e) = Fin (vsum a e (fun _ v => v)).
Proof.
  intros a e He H.
  set (y := Arr3 (dE a) (dS a) (dR a) (fun e' i r => if Nat.eqb e' e then at3 a e i r else Fin 0)).
  replace (row (stack1 a) e) with (row (stack1 y) e).
  2:{ rewrite !row_stack1. cbn [dR dS at3 y]. rewrite Nat.eqb_refl. reflexivity. }
  rewrite nansum_row.
  - f_equal. unfold vsum. cbn [dR dS at3 y]. rewrite Nat.eqb_refl. reflexivity.
  - intros e' i r (H1 & H2 & H3). cbn in *. destruct (Nat.eqb_spec e' e); [|exact I]. apply H; assumption.
  - exact He.
Qed.
Lemma nansum_col_at : forall a i, (i < dS a)%nat ->
  (forall e r, (e < dE a)%nat -> (r < dR a)%nat -> finnan (at3 a e i r)) ->
  np_nansum (col (stack0 a) i) = Fin (ssum a i (fun _ v => v)).
Proof.
  intros a i Hi H.
  set (y := Arr3 (dE a) (dS a) (dR a) (fun e i' r => if Nat.eqb i' i then at3 a e i r else Fin 0)).
  replace (col (stack0 a) i) with (col (stack0 y) i).
  2:{ rewrite !col_stack0. cbn [dR dE at3 y]. rewrite Nat.eqb_refl. reflexivity. }
  rewrite nansum_col.
  - f_equal. unfold ssum. cbn [dR dE at3 y]. rewrite Nat.eqb_refl. reflexivity.
  - intros e i' r (H1 & H2 & H3). cbn in *. destruct (Nat.eqb_spec i' i); [|exact I]. apply H; assumption.
  - exact Hi.
Qed.

(** Infinite terms. *)
Lemma np_sum_noneg : forall l, (forall y, In y l -> y <> NInf /\ y <> NaN) -> np_sum l <> NInf /\ np_sum l <> NaN.
Proof.
  induction l as [|a l IH]; intro H; [split; discriminate|]. rewrite np_sum_cons.
  destruct (H a (or_introl eq_refl)) as [Ha Hb]. destruct IH as [Hc Hd]; [intros; apply H; right; assumption|].
  destruct a, (np_sum l); cbn; split; congruence.
Qed.
Lemma np_sum_inf : forall l, (forall y, In y l -> y <> NInf /\ y <> NaN) -> In PInf l -> np_sum l = PInf.
Proof.
  induction l as [|a l IH]; intros H Hin; [contradiction|]. rewrite np_sum_cons.
  assert (H' : forall y, In y l -> y <> NInf /\ y <> NaN) by (intros; apply H; right; assumption).
  destruct (np_sum_noneg l H') as [Hc Hd]. destruct (H a (or_introl eq_refl)) as [Ha Hb].
  destruct Hin as [->|Hin].
  - destruct (np_sum l); try reflexivity; congruence.
  - rewrite (IH H' Hin). destruct a; try reflexivity; congruence.
Qed.
Lemma nansum_inf : forall l, (forall y, In y l -> y <> NInf) -> In PInf l -> np_nansum l = PInf.
Proof.
  intros l H Hin. unfold np_nansum. apply np_sum_inf.
  - intros y Hy. unfold notnan in Hy. apply filter_In in Hy as [Hy Hb]. split; [apply H; exact Hy|]. intros ->. discriminate.
  - unfold notnan. apply filter_In. split; [exact Hin|reflexivity].
Qed.
Lemma nansum_nan : forall l : list ef, (forall y, In y l -> y = NaN) -> np_nansum l = Fin 0.
Proof.
  intros l H. unfold np_nansum. replace (notnan l) with (@nil ef); [reflexivity|]. induction l as [|a l IH]; [reflexivity|].
  unfold notnan. cbn [filter]. rewrite (H a (or_introl eq_refl)). cbn. apply IH. intros; apply H; right; assumption.
Qed.
Lemma in_row : forall (a : arr3 ef) e y, In y (row (stack1 a) e) <-> exists i r, (i < dS a)%nat /\ (r < dR a)%nat /\ at3 a e i r = y.
Proof.
  intros a e y. rewrite row_stack1, in_flat_map. split.
  - intros (r & Hr & Hy). apply in_map_iff in Hy as (i & <- & Hi). apply in_seq in Hr, Hi. exists i, r. repeat split; lia.
  - intros (i & r & Hi & Hr & <-). exists r. split; [apply in_seq; lia|]. apply in_map_iff. exists i. split; [reflexivity|]. apply in_seq; lia.
Qed.
Lemma in_col : forall (a : arr3 ef) i y, In y (col (stack0 a) i) <-> exists e r, (e < dE a)%nat /\ (r < dR a)%nat /\ at3 a e i r = y.
Proof.
  intros a e y. rewrite col_stack0, in_flat_map. split.
  - intros (r & Hr & Hy). apply in_map_iff in Hy as (i & <- & Hi). apply in_seq in Hr, Hi. exists i, r. repeat split; lia.
  - intros (i & r & Hi & Hr & <-). exists r. split; [apply in_seq; lia|]. apply in_map_iff. exists i. split; [reflexivity|]. apply in_seq; lia.
Qed.

Lemma inv_sqrt_pos_Fin : forall d, 0 < d -> inv_sqrt_pos (Fin d) = Fin (1 / sqrt d).
Proof.
  intros d H. unfold inv_sqrt_pos, nmaximum, nzero, none_. efc. cbn [ef_isnan ef_ltb]. rewrite (proj2 (Rltb_false d 0)) by lra.
  rewrite ef_sqrt_Fin by lra. apply ef_div_Fin. assert (G := sqrt_lt_R0 d H). lra.
Qed.
Lemma inv_sqrt_pos_neg : forall d, d <= 0 -> inv_sqrt_pos (Fin d) = PInf.
Proof.
  intros d H. unfold inv_sqrt_pos, nmaximum, nzero, none_. efc. cbn [ef_isnan ef_ltb].
  assert (E : (if Rltb d 0 then Fin 0 else Fin d) = Fin 0).
  { destruct (Rltb d 0) eqn:E; [reflexivity|]. apply Rltb_false in E. f_equal. lra. }
  rewrite E. rewrite ef_sqrt_Fin, sqrt_0 by lra. cbn. destruct (Req_EM_T 0 0); [|contradiction].
  destruct (Req_EM_T 1 0); [lra|]. rewrite (proj2 (Rltb_true 0 1)) by lra. reflexivity.
Qed.
Lemma inv_sqrt_pos_inf : inv_sqrt_pos PInf = Fin 0.
Proof. reflexivity. Qed.

(** Division of 1 by the square of a list entry. *)
Lemma inv_sq : forall v, ef_div (Fin 1) (ef_mul (Fin v) (Fin v)) = if Req_EM_T v 0 then PInf else Fin (1 / (v * v)).
Proof.
  intro v. cbn [ef_mul]. destruct (Req_EM_T v 0) as [->|H].
  - cbn. destruct (Req_EM_T (0*0) 0) as [_|N]; [|exfalso; apply N; ring]. destruct (Req_EM_T 1 0); [lra|].
    rewrite (proj2 (Rltb_true 0 1)) by lra. reflexivity.
  - apply ef_div_Fin. intro E. apply Rmult_integral in E. tauto.
Qed.

Lemma rms_nonneg : forall x p i, 0 <= rms x p i.
Proof. intros. apply sqrt_pos. Qed.
Lemma vlist_at : forall x p i, voted x i -> (i < dS x)%nat -> vat (vlist x p) i = Fin (rms x p i).
Proof. intros. unfold vlist. rewrite vat_map_seq by assumption. apply nan_if0_ne. apply voted_count in H. lra. Qed.
Lemma vlist_unvoted : forall x p i, scount x i = 0 -> (i < dS x)%nat -> vat (vlist x p) i = NaN.
Proof. intros x p i H Hi. unfold vlist. rewrite vat_map_seq by assumption. rewrite H. apply nan_if0_0. Qed.
Lemma vjlist_at : forall x p e, rated x e -> (e < dE x)%nat -> vat (vjlist x p) e = Fin (video_spread x p e).
Proof. intros. unfold vjlist. rewrite vat_map_seq by assumption. apply nan_if0_ne. apply rated_count in H. lra. Qed.

Lemma one_or_nan_at : forall (x : arr3 ef) e i r, finite_votes x -> inside x e i r ->
  at3 (one_or_nan x) e i r = match at3 x e i r with Fin _ => Fin 1 | _ => NaN end.
Proof.
  intros x e i r HF HI. cbn [one_or_nan map3 at3]. specialize (HF e i r HI). efc. destruct (at3 x e i r); cbn in *; try contradiction; reflexivity.
Qed.

Lemma vsum_eq0 : forall x e f, (forall i v, 0 <= f i v) -> vsum x e f = 0 ->
  forall i r v, inside x e i r -> at3 x e i r = Fin v -> f i v = 0.
Proof. intros x e f H H0 i r v HI E. assert (G := vsum_ge x e f i r v H HI E). specialize (H i v). lra. Qed.
Lemma vsum_0 : forall x e f, (forall i r v, (i < dS x)%nat -> (r < dR x)%nat -> at3 x e i r = Fin v -> f i v = 0) -> vsum x e f = 0.
Proof. intros x e f H. rewrite (vsum_ext x e f (fun _ _ => 0)) by exact H. rewrite vsum_const. ring. Qed.

Definition zflag (x : arr3 ef) (p : est) (i : nat) : R := if Req_EM_T (rms x p i) 0 then 1 else 0.
Lemma zflag_nonneg : forall x p i, 0 <= zflag x p i.
Proof. intros. unfold zflag. destruct (Req_EM_T _ _); lra. Qed.

Lemma quality_std_spec : forall x p, finite_votes x -> all_rated x ->
  quality_std false x (vlist x p) (vjlist x p) = map (fun e => Fin (quality_se x p e)) (seq 0 (dE x)).
Proof.
  intros x p HF HR. unfold quality_std, along1. rewrite map_map. cbn [stack1 n0 map3 dE one_or_nan]. apply map_ext_in. intros e He. apply in_seq in He.
  set (y := map3 _ (one_or_nan x)).
  assert (Hy : forall i r, inside x e i r -> at3 y e i r = match at3 x e i r with
      Fin _ => (if Req_EM_T (rms x p i) 0 then PInf else Fin (1 / (rms x p i * rms x p i))) | _ => NaN end).
  { intros i r HI. unfold y. cbn [map3 at3]. fold (one_or_nan x). unfold nsq. efc.
    match goal with |- _ = ?R => change (ef_div (at3 (one_or_nan x) e i r) (ef_mul (vat (vlist x p) i) (vat (vlist x p) i)) = R) end.
    rewrite one_or_nan_at by assumption. destruct (at3 x e i r) eqn:E; try reflexivity.
    rewrite vlist_at by (first [apply (inside_voted x e i r r0 HI E)|apply HI]). apply inv_sq. }
  unfold quality_se. change (vsum x e (fun i _ => if Req_EM_T (rms x p i) 0 then 1 else 0)) with (vsum x e (fun i _ => zflag x p i)). destruct (Req_EM_T (vsum x e (fun i _ => zflag x p i)) 0) as [Z|Z].
  - assert (Hz : forall i r v, inside x e i r -> at3 x e i r = Fin v -> rms x p i <> 0).
    { intros i r v HI E H0. assert (G := vsum_eq0 x e (fun i _ => zflag x p i) (fun i _ => zflag_nonneg x p i) Z i r v HI E).
      unfold zflag in G. destruct (Req_EM_T (rms x p i) 0); [lra|contradiction]. }
    rewrite nansum_row_at.
    + assert (E : vsum y e (fun _ v => v) = vsum x e (fun i _ => 1 / (rms x p i * rms x p i))).
      { unfold vsum. cbn [y map3 one_or_nan dS dR]. apply Rsum_map_ext. intros i Hi. apply in_seq in Hi. apply Rsum_map_ext. intros r Hr. apply in_seq in Hr.
        assert (HI : inside x e i r) by (repeat split; lia). fold (one_or_nan x). fold y. rewrite Hy by exact HI.
        destruct (at3 x e i r) eqn:Ex; try reflexivity. destruct (Req_EM_T (rms x p i) 0) as [G|G]; [|reflexivity].
        exfalso. apply (Hz i r r0 HI Ex G). }
      rewrite E. apply inv_sqrt_pos_Fin.
      destruct (HR e ltac:(lia)) as (i & r & v & HI & Ex).
      apply Rlt_le_trans with (1 / (rms x p i * rms x p i)).
      * assert (Hn := Hz i r v HI Ex). apply Rdiv_lt_0_compat; [lra|]. assert (H := rms_nonneg x p i). apply Rmult_lt_0_compat; lra.
      * apply (vsum_ge x e (fun i _ => 1 / (rms x p i * rms x p i)) i r v); [|exact HI|exact Ex].
        intros i' _. destruct (Req_EM_T (rms x p i') 0) as [->|G]; [unfold Rdiv; rewrite Rmult_0_l, Rinv_0; lra|].
        apply Rlt_le, Rdiv_lt_0_compat; [lra|]. assert (H := rms_nonneg x p i'). apply Rmult_lt_0_compat; lra.
    + cbn. lia.
    + cbn [y map3 dS dR one_or_nan]. intros i r Hi Hr. assert (HI : inside x e i r) by (repeat split; cbn in *; lia).
      fold (one_or_nan x). fold y. rewrite Hy by exact HI.
      destruct (at3 x e i r) eqn:Ex; try exact I. destruct (Req_EM_T (rms x p i) 0) as [G|G]; [|exact I]. exfalso. apply (Hz i r r0 HI Ex G).
  - assert (Hex : exists i r v, inside x e i r /\ at3 x e i r = Fin v /\ rms x p i = 0).
    { destruct (existsb (fun i => existsb (fun r => match at3 x e i r with Fin _ => Reqbb (rms x p i) 0 | _ => false end) (seq 0 (dR x))) (seq 0 (dS x))) eqn:B.
      - apply existsb_exists in B as (i & Hi & B). apply existsb_exists in B as (r & Hr & B). apply in_seq in Hi, Hr.
        destruct (at3 x e i r) eqn:Ex; try discriminate. exists i, r, r0. repeat split; try lia; [exact Ex|]. apply Reqbb_true. exact B.
      - exfalso. apply Z. apply vsum_0. intros i r v Hi Hr Ex. unfold zflag. destruct (Req_EM_T (rms x p i) 0) as [G|G]; [|reflexivity].
        exfalso. assert (B' : existsb (fun i => existsb (fun r => match at3 x e i r with Fin _ => Reqbb (rms x p i) 0 | _ => false end) (seq 0 (dR x))) (seq 0 (dS x)) = true).
        { apply existsb_exists. exists i. split; [apply in_seq; lia|]. apply existsb_exists. exists r. split; [apply in_seq; lia|].
          rewrite Ex. apply Reqbb_true. exact G. }
        congruence. }
    rewrite nansum_inf; [reflexivity| |].
    + intros z Hin. apply in_row in Hin as (i & r & Hi & Hr & <-). cbn in Hi, Hr. assert (HI : inside x e i r) by (repeat split; lia).
      rewrite Hy by exact HI. destruct (at3 x e i r); try discriminate. destruct (Req_EM_T _ _); discriminate.
    + destruct Hex as (i & r & v & HI & Ex & G). apply in_row. exists i, r. split; [apply HI|]. split; [apply HI|].
      rewrite Hy by exact HI. rewrite Ex. destruct (Req_EM_T (rms x p i) 0); [reflexivity|contradiction].
Qed.

Lemma sqrt_inv_sq : forall v n, 0 < v -> 0 < n -> 1 / sqrt (n / (v * v)) = v / sqrt n.
Proof.
  intros v n Hv Hn. rewrite sqrt_div by (try lra; apply Rmult_lt_0_compat; lra).
  rewrite sqrt_square by lra. field. split; [|lra]. assert (H := sqrt_lt_R0 n Hn). lra.
Qed.

Lemma quality_std_alt_spec : forall x p, finite_votes x -> all_rated x ->
  quality_std true x (vlist x p) (vjlist x p) = map (fun e => Fin (video_spread x p e / sqrt (vcount x e))) (seq 0 (dE x)).
Proof.
  intros x p HF HR. unfold quality_std, along1. rewrite map_map. cbn [stack1 n0 map3 dE one_or_nan]. apply map_ext_in. intros e He. apply in_seq in He.
  set (y := map3 _ (one_or_nan x)).
  assert (Hr := HR e ltac:(lia)). assert (Hc := rated_count x e Hr). assert (Hs : 0 <= video_spread x p e) by apply sqrt_pos.
  assert (Hy : forall i r, inside x e i r -> at3 y e i r = match at3 x e i r with
      Fin _ => (if Req_EM_T (video_spread x p e) 0 then PInf else Fin (1 / (video_spread x p e * video_spread x p e))) | _ => NaN end).
  { intros i r HI. unfold y. cbn [map3 at3]. fold (one_or_nan x). unfold nsq. efc.
    match goal with |- _ = ?R => change (ef_div (at3 (one_or_nan x) e i r) (ef_mul (vat (vjlist x p) e) (vat (vjlist x p) e)) = R) end.
    rewrite one_or_nan_at by assumption. destruct (at3 x e i r) eqn:E; try reflexivity.
    rewrite vjlist_at by (first [exact Hr|lia]). apply inv_sq. }
  destruct (Req_EM_T (video_spread x p e) 0) as [Z|Z].
  - rewrite Z. rewrite nansum_inf.
    + rewrite inv_sqrt_pos_inf. unfold Rdiv. rewrite Rmult_0_l. reflexivity.
    + intros z Hin. apply in_row in Hin as (i & r & Hi & Hr' & <-). cbn in Hi, Hr'. assert (HI : inside x e i r) by (repeat split; lia).
      rewrite Hy by exact HI. destruct (at3 x e i r); discriminate.
    + destruct Hr as (i & r & v & HI & Ex). apply in_row. exists i, r. split; [apply HI|]. split; [apply HI|].
      rewrite Hy by exact HI. rewrite Ex. reflexivity.
  - rewrite nansum_row_at.
    + assert (E : vsum y e (fun _ v => v) = vcount x e / (video_spread x p e * video_spread x p e)).
      { transitivity (vsum x e (fun _ _ => 1 / (video_spread x p e * video_spread x p e))).
        - unfold vsum. cbn [y map3 one_or_nan dS dR]. apply Rsum_map_ext. intros i Hi. apply in_seq in Hi. apply Rsum_map_ext. intros r Hr'. apply in_seq in Hr'.
          assert (HI : inside x e i r) by (repeat split; lia). fold (one_or_nan x). fold y. rewrite Hy by exact HI.
          destruct (at3 x e i r) eqn:Ex; reflexivity.
        - rewrite vsum_const. unfold Rdiv. ring. }
      rewrite E. rewrite inv_sqrt_pos_Fin.
      * f_equal. apply sqrt_inv_sq; lra.
      * apply Rdiv_lt_0_compat; [exact Hc|]. apply Rmult_lt_0_compat; lra.
    + cbn. lia.
    + cbn [y map3 dS dR one_or_nan]. intros i r Hi Hr'. assert (HI : inside x e i r) by (repeat split; cbn in *; lia).
      fold (one_or_nan x). fold y. rewrite Hy by exact HI.
      destruct (at3 x e i r) eqn:Ex; exact I.
Qed.

Lemma ssum_eq_count : forall x i c, ssum x i (fun _ _ => c) = c * scount x i.
Proof. intros. apply ssum_const. Qed.

Lemma bias_std_spec : forall x p, finite_votes x ->
  bias_std x (vlist x p) = map (fun i => if Req_EM_T (scount x i) 0 then PInf else Fin (rms x p i / sqrt (scount x i))) (seq 0 (dS x)).
Proof.
  intros x p HF. unfold bias_std, along0. rewrite map_map. cbn [stack0 n1 map3 dS one_or_nan]. apply map_ext_in. intros i Hi. apply in_seq in Hi.
  set (y := map3 _ (one_or_nan x)).
  assert (Hs := rms_nonneg x p i).
  destruct (Req_EM_T (scount x i) 0) as [Z|Z].
  - (* nobody's votes *)
    rewrite nansum_nan; [rewrite inv_sqrt_pos_neg by lra; reflexivity|].
    intros z Hin. apply in_col in Hin as (e & r & He & Hr & <-). cbn in He, Hr. assert (HI : inside x e i r) by (repeat split; lia).
    unfold y. cbn [map3 at3]. fold (one_or_nan x). unfold nsq. efc.
    match goal with |- _ = ?R => change (ef_div (at3 (one_or_nan x) e i r) (ef_mul (vat (vlist x p) i) (vat (vlist x p) i)) = R) end.
    rewrite one_or_nan_at by assumption. destruct (at3 x e i r) eqn:E; try reflexivity.
    exfalso. assert (V : voted x i) by (exists e, r, r0; split; assumption). apply voted_count in V. lra.
  - assert (V : voted x i) by (apply scount_voted; [lia|exact Z]).
    assert (Hc := voted_count x i V).
    assert (Hy : forall e r, inside x e i r -> at3 y e i r = match at3 x e i r with
        Fin _ => (if Req_EM_T (rms x p i) 0 then PInf else Fin (1 / (rms x p i * rms x p i))) | _ => NaN end).
    { intros e r HI. unfold y. cbn [map3 at3]. fold (one_or_nan x). unfold nsq. efc.
      match goal with |- _ = ?R => change (ef_div (at3 (one_or_nan x) e i r) (ef_mul (vat (vlist x p) i) (vat (vlist x p) i)) = R) end.
      rewrite one_or_nan_at by assumption. destruct (at3 x e i r) eqn:E; try reflexivity.
      rewrite vlist_at by (first [exact V|lia]). apply inv_sq. }
    destruct (Req_EM_T (rms x p i) 0) as [Z'|Z'].
    + rewrite Z'. rewrite nansum_inf.
      * rewrite inv_sqrt_pos_inf. unfold Rdiv. rewrite Rmult_0_l. reflexivity.
      * intros z Hin. apply in_col in Hin as (e & r & He & Hr' & <-). cbn in He, Hr'. assert (HI : inside x e i r) by (repeat split; lia).
        rewrite Hy by exact HI. destruct (at3 x e i r); discriminate.
      * destruct V as (e & r & v & HI & Ex). apply in_col. exists e, r. split; [apply HI|]. split; [apply HI|].
        rewrite Hy by exact HI. rewrite Ex. reflexivity.
    + rewrite nansum_col_at.
      * assert (E : ssum y i (fun _ v => v) = scount x i / (rms x p i * rms x p i)).
        { transitivity (ssum x i (fun _ _ => 1 / (rms x p i * rms x p i))).
          - unfold ssum. cbn [y map3 one_or_nan dE dR]. apply Rsum_map_ext. intros e He. apply in_seq in He. apply Rsum_map_ext. intros r Hr'. apply in_seq in Hr'.
            assert (HI : inside x e i r) by (repeat split; lia). fold (one_or_nan x). fold y. rewrite Hy by exact HI.
            destruct (at3 x e i r) eqn:Ex; reflexivity.
          - rewrite ssum_const. unfold Rdiv. ring. }
        rewrite E. rewrite inv_sqrt_pos_Fin.
        -- f_equal. apply sqrt_inv_sq; lra.
        -- apply Rdiv_lt_0_compat; [exact Hc|]. apply Rmult_lt_0_compat; lra.
      * cbn. lia.
      * cbn [y map3 dE dR one_or_nan]. intros e r He Hr'. assert (HI : inside x e i r) by (repeat split; cbn in *; lia).
        fold (one_or_nan x). fold y. rewrite Hy by exact HI.
        destruct (at3 x e i r) eqn:Ex; exact I.
Qed.

Lemma incons_std_spec : forall x p p', finite_votes x ->
  inconsistency_std x (qlist x p') (blist x p') (vlist x p) =
  map (fun i => if Req_EM_T (scount x i) 0 then PInf else incons_se x p p' i) (seq 0 (dS x)).
Proof.
  intros x p p' HF. unfold inconsistency_std, along0. rewrite map_map. cbn [stack0 n1 map3 dS residual]. apply map_ext_in. intros i Hi. apply in_seq in Hi.
  set (y := map3 _ (residual x (qlist x p') (blist x p'))).
  assert (Hs := rms_nonneg x p i).
  assert (Hres : forall e r, inside x e i r -> at3 (residual x (qlist x p') (blist x p')) e i r =
    match at3 x e i r with Fin v => Fin (v - eq_ p' e - eb_ p' i) | _ => NaN end).
  { intros e r HI. destruct (residual_derived x p' HF) as (_ & _ & _ & G). rewrite (G e i r HI).
    specialize (HF e i r HI). destruct (at3 x e i r); cbn in *; try contradiction; reflexivity. }
  assert (NZ : ef_neg (Fin 0) = Fin 0) by (cbn; f_equal; ring).
  destruct (Req_EM_T (scount x i) 0) as [Z|Z].
  - rewrite nansum_nan; [efc; rewrite NZ, inv_sqrt_pos_neg by lra; reflexivity|].
    intros z Hin. apply in_col in Hin as (e & r & He & Hr & <-). cbn in He, Hr. assert (HI : inside x e i r) by (repeat split; lia).
    unfold y. cbn [map3 at3]. rewrite (vlist_unvoted x p i Z) by lia. reflexivity.
  - assert (V : voted x i) by (apply scount_voted; [lia|exact Z]).
    assert (Hc := voted_count x i V).
    assert (Hy : forall e r, inside x e i r -> at3 y e i r = match at3 x e i r with
        Fin v => (if Req_EM_T (rms x p i) 0 then NaN else
           Fin (1 / (rms x p i * rms x p i) + -3 * ((v - eq_ p' e - eb_ p' i) * (v - eq_ p' e - eb_ p' i)) / (rms x p i * rms x p i * (rms x p i * rms x p i)))) | _ => NaN end).
    { intros e r HI. unfold y.
      match goal with |- _ = ?R => change (ef_add (ef_div (Fin 1) (ef_mul (vat (vlist x p) i) (vat (vlist x p) i)))
        (ef_div (ef_mul (ef_mul (at3 (residual x (qlist x p') (blist x p')) e i r) (at3 (residual x (qlist x p') (blist x p')) e i r))
          (ef_mul (Fin (-3)) (npow4 (vat (vlist x p) i)))) (npow4 (ef_mul (vat (vlist x p) i) (vat (vlist x p) i)))) = R) end.
      rewrite (vlist_at x p i V) by lia. rewrite Hres by exact HI. rewrite inv_sq.
      destruct (at3 x e i r) as [v| | |] eqn:E.
      2-4: destruct (Req_EM_T (rms x p i) 0); reflexivity.
      unfold npow4. efc. cbn [ef_mul]. destruct (Req_EM_T (rms x p i) 0) as [Z'|Z'].
      - rewrite Z'. unfold nsq. efc. cbn [ef_mul]. cbn [ef_div]. destruct (Req_EM_T _ 0) as [_|N]; [|exfalso; apply N; ring].
        destruct (Req_EM_T _ 0) as [_|N]; [reflexivity|exfalso; apply N; ring].
      - unfold nsq. efc. cbn [ef_mul]. rewrite ef_div_Fin.
        + cbn [ef_add]. f_equal. field. exact Z'.
        + repeat apply Rmult_integral_contrapositive_currified; exact Z'. }
    unfold incons_se. destruct (Req_EM_T (rms x p i) 0) as [Z'|Z'].
    + rewrite nansum_nan; [efc; rewrite NZ, inv_sqrt_pos_neg by lra; reflexivity|].
      intros z Hin. apply in_col in Hin as (e & r & He & Hr & <-). cbn in He, Hr. assert (HI : inside x e i r) by (repeat split; lia).
      rewrite Hy by exact HI. destruct (at3 x e i r); reflexivity.
    + rewrite nansum_col_at.
      * assert (E : ssum y i (fun _ v => v) = - curvature x p p' i).
        { transitivity (ssum x i (fun e v => 1 / (rms x p i * rms x p i) + -3 / (rms x p i * rms x p i * (rms x p i * rms x p i)) * ((v - eq_ p' e - eb_ p' i) * (v - eq_ p' e - eb_ p' i)))).
          - unfold ssum. cbn [y map3 residual dE dR]. apply Rsum_map_ext. intros e He. apply in_seq in He. apply Rsum_map_ext. intros r Hr'. apply in_seq in Hr'.
            assert (HI : inside x e i r) by (repeat split; lia). fold y. rewrite Hy by exact HI.
            destruct (at3 x e i r) eqn:Ex; cbn [vote_term]; try reflexivity. unfold Rdiv. ring.
          - rewrite ssum_add, ssum_const. rewrite (ssum_mul x i (-3 / (rms x p i * rms x p i * (rms x p i * rms x p i)))
              (fun e v => (v - eq_ p' e - eb_ p' i) * (v - eq_ p' e - eb_ p' i))). unfold curvature. unfold Rdiv. ring. }
        rewrite E. efc. cbn [ef_neg]. rewrite Ropp_involutive. destruct (Rlt_dec 0 (curvature x p p' i)).
        -- apply inv_sqrt_pos_Fin. assumption.
        -- apply inv_sqrt_pos_neg. lra.
      * cbn. lia.
      * cbn [y map3 dE dR residual]. intros e r He Hr'. assert (HI : inside x e i r) by (repeat split; cbn in *; lia).
        fold y. rewrite Hy by exact HI.
        destruct (at3 x e i r) eqn:Ex; exact I.
Qed.

(** Log-likelihood. *)
Lemma norm_pdf_Fin : forall v m s, 0 < s -> nln (norm_pdf (Fin v) (Fin m) (Fin s)) = Fin (log_density v m s).
Proof.
  intros v m s Hs. unfold norm_pdf, nzero. efc. cbn [ef_ltb]. rewrite (proj2 (Rltb_true 0 s)) by lra.
  unfold nsq. efc. rewrite ef_sub_Fin, ef_div_Fin by lra. cbn [ef_mul ef_neg].
  rewrite ef_div_Fin by lra. cbn [ef_exp]. rewrite ef_sqrt_Fin by (assert (H := PI_RGT_0); lra).
  assert (Hp : 0 < sqrt (2 * PI)) by (apply sqrt_lt_R0; assert (H := PI_RGT_0); lra).
  rewrite ef_div_Fin by lra. rewrite ef_div_Fin by lra.
  assert (G := exp_pos (- ((v - m) / s * ((v - m) / s)) / 2)).
  assert (G1 : 0 < exp (- ((v - m) / s * ((v - m) / s)) / 2) / sqrt (2 * PI)) by (apply Rdiv_lt_0_compat; lra).
  assert (G2 : 0 < exp (- ((v - m) / s * ((v - m) / s)) / 2) / sqrt (2 * PI) / s) by (apply Rdiv_lt_0_compat; lra).
  unfold ef_ln. rewrite (proj2 (Rltb_false _ 0)) by lra. destruct (Req_EM_T _ 0) as [Q|_]; [lra|].
  f_equal. unfold Rdiv at 1. rewrite ln_mult by (first [exact G1|apply Rinv_0_lt_compat; exact Hs]).
  unfold Rdiv at 1. rewrite ln_mult by (first [exact G|apply Rinv_0_lt_compat; exact Hp]).
  rewrite !ln_Rinv by assumption. rewrite ln_exp. unfold log_density. field. lra.
Qed.

Lemma np_sum_app : forall l l' : list ef, np_sum (l ++ l') = ef_add (np_sum l) (np_sum l').
Proof.
  induction l as [|a l IH]; intro l'.
  - cbn [app]. rewrite np_sum_nil. destruct (np_sum l'); cbn; try reflexivity. f_equal. ring.
  - cbn [app]. rewrite !np_sum_cons, IH. destruct a, (np_sum l), (np_sum l'); cbn; try reflexivity. f_equal. ring.
Qed.
Lemma np_sum_flat : forall A (l : list A) (f : A -> list ef) (g : A -> R), (forall a, In a l -> np_sum (f a) = Fin (g a)) ->
  np_sum (flat_map f l) = Fin (Rsum (map g l)).
Proof.
  induction l as [|a l IH]; intros f g H; [reflexivity|]. cbn [flat_map map]. rewrite np_sum_app, (H a (or_introl eq_refl)), (IH f g) by (intros; apply H; right; assumption).
  reflexivity.
Qed.
Lemma combine_flat_map : forall A B C (f : A -> list B) (g : A -> list C) l, (forall a, In a l -> length (f a) = length (g a)) ->
  combine (flat_map f l) (flat_map g l) = flat_map (fun a => combine (f a) (g a)) l.
Proof.
  intros A B C f g. induction l as [|a l IH]; intro H; [reflexivity|]. cbn [flat_map]. rewrite combine_app by (apply H; left; reflexivity).
  rewrite IH by (intros; apply H; right; assumption). reflexivity.
Qed.
Lemma flat_map_length_const : forall A B (f : A -> list B) c l, (forall a, In a l -> length (f a) = c) -> length (flat_map f l) = (c * length l)%nat.
Proof.
  intros A B f c. induction l as [|a l IH]; intro H; [cbn; lia|]. cbn [flat_map]. rewrite app_length, (H a (or_introl eq_refl)), IH by (intros; apply H; right; assumption).
  cbn [length]. lia.
Qed.
Lemma filter_flat_map : forall A B (p : B -> bool) (f : A -> list B) l, filter p (flat_map f l) = flat_map (fun a => filter p (f a)) l.
Proof. intros A B p f. induction l as [|a l IH]; [reflexivity|]. cbn [flat_map]. rewrite filter_app, IH. reflexivity. Qed.
Lemma map_flat_map : forall A B C (h : B -> C) (f : A -> list B) l, map h (flat_map f l) = flat_map (fun a => map h (f a)) l.
Proof. intros A B C h f. induction l as [|a l IH]; [reflexivity|]. cbn [flat_map]. rewrite map_app, IH. reflexivity. Qed.

Definition ll_terms (x : arr3 ef) (F : nat -> nat -> nat -> ef -> ef) : list ef :=
  flat_map (fun e => flat_map (fun i => flat_map (fun r => if nisnan (at3 x e i r) then [] else [F e i r (at3 x e i r)])
     (seq 0 (dR x))) (seq 0 (dS x))) (seq 0 (dE x)).
Lemma flat3_terms : forall (x : arr3 ef) F,
  map snd (filter (fun p => negb (nisnan (fst p))) (combine (flat3 x) (flat3 (map3 F x)))) = ll_terms x F.
Proof.
  intros x F. unfold flat3, ll_terms. cbn [map3 dE dS dR at3].
  rewrite combine_flat_map.
  2:{ intros e _. rewrite !(flat_map_length_const _ _ _ (dR x)); [reflexivity| |]; intros i _; rewrite map_length, seq_length; reflexivity. }
  rewrite filter_flat_map, map_flat_map. apply flat_map_ext. intro e.
  rewrite combine_flat_map by (intros i _; rewrite !map_length; reflexivity).
  rewrite filter_flat_map, map_flat_map. apply flat_map_ext. intro i.
  rewrite combine_map_map. induction (seq 0 (dR x)) as [|r l IH]; [reflexivity|].
  cbn [map filter fst flat_map]. destruct (nisnan (at3 x e i r)); cbn [negb]; [exact IH|]. cbn [map snd app]. f_equal. exact IH.
Qed.
Lemma ll_terms_In : forall x F y, In y (ll_terms x F) <-> exists e i r, inside x e i r /\ nisnan (at3 x e i r) = false /\ y = F e i r (at3 x e i r).
Proof.
  intros x F y. unfold ll_terms. rewrite in_flat_map. split.
  - intros (e & He & H). apply in_flat_map in H as (i & Hi & H). apply in_flat_map in H as (r & Hr & H). apply in_seq in He, Hi, Hr.
    exists e, i, r. destruct (nisnan (at3 x e i r)) eqn:E; [contradiction|]. destruct H as [<-|[]]. repeat split; lia || assumption || reflexivity.
  - intros (e & i & r & (He & Hi & Hr) & E & ->). exists e. split; [apply in_seq; lia|]. apply in_flat_map. exists i. split; [apply in_seq; lia|].
    apply in_flat_map. exists r. split; [apply in_seq; lia|]. rewrite E. left. reflexivity.
Qed.
Lemma ll_terms_sum : forall x F (g : nat -> nat -> R -> R), finite_votes x ->
  (forall e i r v, inside x e i r -> at3 x e i r = Fin v -> F e i r (Fin v) = Fin (g e i v)) ->
  np_sum (ll_terms x F) = Fin (Rsum (map (fun e => vsum x e (g e)) (seq 0 (dE x)))).
Proof.
  intros x F g HF H. unfold ll_terms. apply np_sum_flat. intros e He. apply in_seq in He. unfold vsum. apply np_sum_flat. intros i Hi. apply in_seq in Hi.
  apply np_sum_flat. intros r Hr. apply in_seq in Hr. assert (HI : inside x e i r) by (repeat split; lia).
  specialize (HF e i r HI). destruct (at3 x e i r) as [v| | |] eqn:E; cbn in HF; try contradiction.
  - efc. cbn [ef_isnan]. rewrite (H e i r v HI E). rewrite np_sum_cons, np_sum_nil. cbn. f_equal. ring.
  - reflexivity.
Qed.
Lemma cnt_flat3 : forall x, finite_votes x -> nofnat (np_cnt (flat3 x)) = Fin (total_votes x).
Proof.
  intros x HF. rewrite nofnat_ef. f_equal. unfold np_cnt. 
  assert (E : notnan (flat3 x) = ll_terms x (fun _ _ _ v => v)).
  { unfold notnan, flat3, ll_terms. rewrite filter_flat_map. apply flat_map_ext. intro e. rewrite filter_flat_map. apply flat_map_ext. intro i.
    induction (seq 0 (dR x)) as [|r l IH]; [reflexivity|]. cbn [map filter flat_map]. destruct (nisnan (at3 x e i r)); cbn [negb]; [exact IH|]. cbn [app]. f_equal. exact IH. }
  rewrite E. unfold ll_terms, total_votes, vcount, vsum.
  assert (G : forall A (l : list A) (f : A -> list ef) (g : A -> R), (forall a, In a l -> INR (length (f a)) = g a) -> INR (length (flat_map f l)) = Rsum (map g l)).
  { intros A l f g. induction l as [|a l IH]; intro H; [reflexivity|]. cbn [flat_map map Rsum]. rewrite app_length, plus_INR, (H a (or_introl eq_refl)), IH by (intros; apply H; right; assumption). reflexivity. }
  apply G. intros e He. apply in_seq in He. apply G. intros i Hi. apply in_seq in Hi. apply G. intros r Hr. apply in_seq in Hr.
  assert (HI : inside x e i r) by (repeat split; lia).
  specialize (HF e i r HI). destruct (at3 x e i r) as [v| | |] eqn:E'; cbn in HF; try contradiction; reflexivity.
Qed.


Lemma total_ll_shifted : forall x p p' m, total_ll x p (shifted m p') = total_ll x p p'.
Proof.
  intros. unfold total_ll. apply Rsum_map_ext. intros e _. apply vsum_ext. intros. cbn [shifted eq_ eb_]. unfold log_density.
  replace (eq_ p' e + m + (eb_ p' i - m)) with (eq_ p' e + eb_ p' i) by ring. reflexivity.
Qed.

Lemma loglik_spec : forall x p p', finite_votes x -> all_spread x p ->
  ap_loglik x (qlist x p') (blist x p') (vlist x p) = Fin (total_ll x p p').
Proof.
  intros x p p' HF HS. unfold ap_loglik. rewrite flat3_terms.
  apply (ll_terms_sum x _ (fun e i v => log_density v (eq_ p' e + eb_ p' i) (rms x p i)) HF).
  intros e i r v HI E. assert (V := inside_voted x e i r v HI E). destruct HI as (He & Hi & Hr).
  rewrite qlist_at, blist_at, vlist_at by assumption. efc. cbn [ef_add]. apply norm_pdf_Fin.
  assert (H := rms_nonneg x p i). specialize (HS i Hi V). lra.
Qed.
Lemma np_sum_nan : forall l : list ef, In NaN l -> np_sum l = NaN.
Proof.
  induction l as [|a l IH]; intros H; [contradiction|]. rewrite np_sum_cons. destruct H as [->|H]; [reflexivity|].
  rewrite (IH H). destruct a; reflexivity.
Qed.
Lemma loglik_nospread : forall x p (s b : list ef), (exists i, (i < dS x)%nat /\ voted x i /\ rms x p i = 0) ->
  ap_loglik x s b (vlist x p) = NaN.
Proof.
  intros x p s b (i & Hi & V & Z). unfold ap_loglik. rewrite flat3_terms. apply np_sum_nan.
  apply ll_terms_In. assert (V' := V). destruct V as (e & r & v & HI & E). exists e, i, r. split; [exact HI|]. rewrite E. split; [reflexivity|].
  rewrite vlist_at by assumption. rewrite Z. unfold norm_pdf, nzero. efc. cbn [ef_ltb]. rewrite (proj2 (Rltb_false 0 0)) by lra. reflexivity.
Qed.
Lemma loglik_nan_mean : forall x s b v, (exists e i r w, inside x e i r /\ at3 x e i r = Fin w) -> (forall e i, vat s e = NaN \/ vat b i = NaN) ->
  ap_loglik x s b v = NaN.
Proof.
  intros x s b v (e & i & r & w & HI & E) H. unfold ap_loglik. rewrite flat3_terms. apply np_sum_nan.
  apply ll_terms_In. exists e, i, r. split; [exact HI|]. rewrite E. split; [reflexivity|].
  efc. replace (ef_add (vat s e) (vat b i)) with NaN. 2:{ destruct (H e i) as [->| ->]; [reflexivity|destruct (vat s e); reflexivity]. }
  unfold norm_pdf, nzero. efc. destruct (ef_ltb (Fin 0) (vat v i)); [|reflexivity].
  unfold nsq. efc. destruct (vat v i) as [z| | |]; try reflexivity. 
Qed.

(** Reported estimates when every subject voted. *)
Lemma blist_all : forall x p, all_voted x -> blist x p = map Fin (map (eb_ p) (seq 0 (dS x))).
Proof.
  intros x p H. unfold blist. rewrite map_map. apply map_ext_in. intros i Hi. apply in_seq in Hi. apply nan_if0_ne.
  assert (G := voted_count x i (H i ltac:(lia))). lra.
Qed.
Lemma zero_mean_voted : forall x p, all_voted x -> (0 < dS x)%nat ->
  zero_mean true (qlist x p) (blist x p) = (qlist x (shifted (mean_bias x p) p), blist x (shifted (mean_bias x p) p)).
Proof.
  intros x p H Hd. unfold zero_mean. rewrite !blist_all by exact H. rewrite np_mean_Fin.
  assert (E : nanmeanR (map (eb_ p) (seq 0 (dS x))) = Fin (mean_bias x p)).
  { rewrite nanmeanR_if0. apply nan_if0_ne. rewrite map_length, seq_length. apply not_0_INR. lia. }
  rewrite E. unfold qlist. rewrite !map_map. f_equal.
Qed.
Lemma zero_mean_unvoted : forall x p, (exists i, (i < dS x)%nat /\ ~ voted x i) ->
  zero_mean true (qlist x p) (blist x p) = (repeat NaN (dE x), repeat NaN (dS x)).
Proof.
  intros x p (i & Hi & HV). unfold zero_mean.
  assert (E : np_mean (blist x p) = NaN).
  { unfold np_mean. rewrite np_sum_nan; [reflexivity|]. unfold blist. apply in_map_iff. exists i. split; [|apply in_seq; lia].
    destruct (Req_EM_T (scount x i) 0) as [->|Z]; [apply nan_if0_0|]. exfalso. apply HV. apply scount_voted; assumption. }
  rewrite E. unfold qlist, blist. rewrite !map_map.
  assert (G : forall A (f : A -> ef) l, (forall a, In a l -> f a = NaN) -> map f l = repeat NaN (length l)).
  { intros A f. induction l as [|a l IH]; intro H; [reflexivity|]. cbn. rewrite (H a (or_introl eq_refl)), IH by (intros; apply H; right; assumption). reflexivity. }
  rewrite !G, !seq_length; [reflexivity| |].
  - intros a _. efc. destruct (nan_if0 (scount x a) (eb_ p a)); reflexivity.
  - intros a _. reflexivity.
Qed.
