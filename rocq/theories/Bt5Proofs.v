(** Bradley-Terry by Newton's method: the vector and the matrix of a step are
    the gradient and the second derivatives of the log-likelihood. *)
From Coq Require Import List ZArith Bool Arith Reals Lia Lra Permutation.
From Verif Require Import PyBase Num ExtReal ExtRealProofs NumPy ArrayProofs SpecMos PairedComp SpecBt BtProofs Bt2Proofs Bt3Proofs.
Import ListNotations.
Local Open Scope list_scope.
Local Open Scope R_scope.

Definition pexp (g : nat -> R) (i : nat) : R := exp (g i).
Lemma pexp_pos : forall m g, positive m (pexp g).
Proof. intros m g i _. apply exp_pos. Qed.

Lemma dlim_exp_upd : forall g i k, derivable_pt_lim (fun t => exp (upd g i t k)) (g i) (delta k i * exp (g k)).
Proof.
  intros g i k. assert (D := derivable_pt_lim_comp (fun t => upd g i t k) exp (g i) _ _ (dlim_upd g i k) (derivable_pt_lim_exp _)).
  cbv beta in D. rewrite upd_id in D. eapply dlim_eq; [exact D|]. unfold delta. ring.
Qed.
Lemma dlim_beats : forall g i k j, derivable_pt_lim (fun t => beats (pexp (upd g i t)) k j) (g i)
  ((delta k i - delta j i) * (exp (g k) * exp (g j) / ((exp (g k) + exp (g j)) * (exp (g k) + exp (g j))))).
Proof.
  intros g i k j. assert (Pk := exp_pos (g k)). assert (Pj := exp_pos (g j)).
  assert (D := dlim_div (fun t => exp (upd g i t k)) (fun t => exp (upd g i t k) + exp (upd g i t j)) (g i) (delta k i * exp (g k)) (delta k i * exp (g k) + delta j i * exp (g j))).
  cbv beta in D. rewrite !upd_id in D. eapply dlim_eq; [apply D|].
  - lra. - apply dlim_exp_upd. - apply (dlim_plus (fun t => exp (upd g i t k)) (fun t => exp (upd g i t j))); apply dlim_exp_upd.
  - field. lra.
Qed.

Definition ngrad (m : nat) (w : nat -> nat -> R) (g : nat -> R) (i : nat) : R := wins m w i - expected m w (pexp g) i.
Lemma beats_sum : forall g i j, beats (pexp g) i j + beats (pexp g) j i = 1.
Proof. intros. unfold beats, pexp. generalize (exp_pos (g i)) (exp_pos (g j)). intros. field. lra. Qed.

Lemma log_partial : forall m w g i, (i < m)%nat -> partial (bt_log_likelihood m w) i g (ngrad m w g i).
Proof.
  intros m w g i Hi. unfold partial.
  apply dlim_eq with (total m (fun k => total m (fun j => w k j * ((delta k i - delta j i) * beats (pexp g) j k)))).
  - unfold bt_log_likelihood, bt_likelihood. apply dlim_total. intros k Hk. apply dlim_total. intros j Hj. apply dlim_scal.
    assert (Pk := exp_pos (g k)). assert (Pj := exp_pos (g j)).
    assert (U : beats (pexp (upd g i (g i))) k j = beats (pexp g) k j) by (unfold beats, pexp; rewrite !upd_id; reflexivity).
    assert (D := dlim_ln (fun t => beats (pexp (upd g i t)) k j) (g i) _
      (beats_pos (S (max k j)) _ k j (pexp_pos _ _) ltac:(lia) ltac:(lia)) (dlim_beats g i k j)).
    cbv beta in D. rewrite U in D. eapply dlim_eq; [exact D|]. unfold beats, pexp. field. lra.
  - rewrite (total_ext m _ (fun k => delta k i * total m (fun j => w k j * beats (pexp g) j k) - total m (fun j => delta j i * (w k j * beats (pexp g) j k)))).
    + rewrite total_sub. unfold delta at 1. rewrite total_delta by exact Hi.
      rewrite (total_ext m (fun k => total m (fun j => delta j i * (w k j * beats (pexp g) j k))) (fun k => w k i * beats (pexp g) i k)).
      * unfold ngrad, expected, games. rewrite <- total_sub. unfold wins. rewrite <- total_sub. apply total_ext. intros j Hj.
        assert (B := beats_sum g i j). replace (beats (pexp g) j i) with (1 - beats (pexp g) i j) by lra. ring.
      * intros k Hk. unfold delta. apply (total_delta m i (fun j => w k j * beats (pexp g) j k) Hi).
    + intros k Hk. rewrite <- total_mul, <- total_sub. apply total_ext. intros j Hj. ring.
Qed.

Definition nhess (m : nat) (w : nat -> nat -> R) (g : nat -> R) (i l : nat) : R :=
  - total m (fun j => games w i j * ((delta i l - delta j l) * (exp (g i) * exp (g j) / ((exp (g i) + exp (g j)) * (exp (g i) + exp (g j)))))).
Lemma ngrad_partial : forall m w g i l, partial (fun q => ngrad m w q i) l g (nhess m w g i l).
Proof.
  intros m w g i l. unfold partial, ngrad, nhess.
  eapply dlim_eq; [apply (derivable_pt_lim_minus (fun _ => wins m w i) (fun t => expected m w (pexp (upd g l t)) i)); [apply dlim_const|]|].
  - unfold expected. apply dlim_total. intros j Hj. apply dlim_scal. apply dlim_beats.
  - unfold Rminus. rewrite Rplus_0_l. reflexivity.
Qed.
Lemma nhess_iff : forall m w g i l h, (i < m)%nat ->
  (second_partial (fun _ => True) (bt_log_likelihood m w) i l g h <-> h = nhess m w g i l).
Proof.
  intros m w g i l h Hi. split.
  - intros [G [H1 H2]]. eapply partial_unique; [|apply ngrad_partial]. unfold partial in *. eapply dlim_ext; [|exact H2].
    intros t. cbv beta. exact (partial_unique _ _ _ _ _ (H1 _ I) (log_partial m w _ i Hi)).
  - intros ->. exists (fun q => ngrad m w q i). split; [intros; apply log_partial, Hi|apply ngrad_partial].
Qed.

Section Newton.
  Variables (a : arr2 ef) (m : nat) (w : nat -> nat -> R) (g : nat -> R).
  Hypothesis Ha : counts a m w.
  Hypothesis Hw : nonneg_counts m w.

  Lemma rus_Fin : forall i j, (i < m)%nat -> (j < m)%nat ->
    nr_rus a (vec m g) i j = Fin (if Rltb 0 (games w i j) then beats (pexp g) i j else 0).
  Proof.
    intros i j Hi Hj. unfold nr_rus. rewrite (played_Fin a m w) by assumption. unfold ngtb, nzero. efc.
    rewrite !vat_vec by assumption. cbn [ef_ltb ef_exp ef_add]. destruct (Rltb 0 (games w i j)); [|reflexivity].
    rewrite ef_div_Fin; [reflexivity|]. generalize (exp_pos (g i)) (exp_pos (g j)). lra.
  Qed.
  Lemma games_nonneg : forall i j, (i < m)%nat -> (j < m)%nat -> 0 <= games w i j.
  Proof. intros i j Hi Hj. unfold games. generalize (Hw i j Hi Hj) (Hw j i Hj Hi). lra. Qed.
  Lemma y_Fin : forall i j, (i < m)%nat -> (j < m)%nat -> nr_y a (vec m g) i j = Fin (games w i j * beats (pexp g) i j).
  Proof.
    intros i j Hi Hj. unfold nr_y. rewrite rus_Fin by assumption. rewrite (played_Fin a m w) by assumption. unfold ngtb, nzero. efc. cbn [ef_ltb ef_mul].
    destruct (Rltb 0 (games w i j)) eqn:B; [reflexivity|]. apply Rltb_false in B. assert (G := games_nonneg i j Hi Hj).
    f_equal. replace (games w i j) with 0 by lra. ring.
  Qed.
  Lemma y2_Fin : forall i j, (i < m)%nat -> (j < m)%nat ->
    nr_y2 a (vec m g) i j = Fin (games w i j * (exp (g i) * exp (g j) / ((exp (g i) + exp (g j)) * (exp (g i) + exp (g j))))).
  Proof.
    intros i j Hi Hj. unfold nr_y2. rewrite rus_Fin, y_Fin by assumption. rewrite (played_Fin a m w) by assumption.
    unfold ngtb, nzero, none_. efc. cbn [ef_ltb]. destruct (Rltb 0 (games w i j)) eqn:B.
    - rewrite ef_sub_Fin. cbn [ef_mul]. f_equal. unfold beats, pexp. generalize (exp_pos (g i)) (exp_pos (g j)). intros. field. lra.
    - apply Rltb_false in B. assert (G := games_nonneg i j Hi Hj). f_equal. replace (games w i j) with 0 by lra. ring.
  Qed.
  Lemma dL_Fin : forall i, (i < m)%nat -> nr_dL a (vec m g) i = Fin (ngrad m w g i).
  Proof.
    intros i Hi. unfold nr_dL. destruct Ha as (E0 & E1 & H). unfold row. rewrite E1.
    rewrite (np_sum_total_ext m (at2 a i) (w i)) by (intros; apply H; assumption).
    rewrite (np_sum_total_ext m _ (fun j => games w i j * beats (pexp g) i j)) by (intros; apply y_Fin; assumption).
    efc. cbn [ef_neg ef_add]. unfold ngrad, wins, expected. reflexivity.
  Qed.
  Lemma d2L_Fin : forall i l, no_self m w -> (i < m)%nat -> (l < m)%nat -> nr_d2L a (vec m g) i l = Fin (nhess m w g i l).
  Proof.
    intros i l Hn Hi Hl. unfold nr_d2L. rewrite (played_Fin a m w) by assumption. unfold ngtb, nzero. efc. cbn [ef_ltb].
    set (c := fun i j => exp (g i) * exp (g j) / ((exp (g i) + exp (g j)) * (exp (g i) + exp (g j)))).
    destruct (Rltb 0 (games w i l)) eqn:B.
    - rewrite y2_Fin by assumption. f_equal. fold (c i l). unfold nhess. apply Rltb_true in B.
      assert (N : i <> l) by (intros ->; unfold games in B; rewrite (Hn l Hl) in B; lra).
      rewrite (total_ext m _ (fun j => delta j l * - (games w i j * c i j))).
      + unfold delta. rewrite total_delta by exact Hl. ring.
      + intros j Hj. fold (c i j). unfold delta. destruct (Nat.eqb_spec i l) as [C|_]; [contradiction|]. ring.
    - apply Rltb_false in B. assert (G := games_nonneg i l Hi Hl). assert (G0 : games w i l = 0) by lra. clear B G.
      assert (D : diag (fun i => np_sum (map (nr_y2 a (vec m g) i) (seq 0 (n1 a)))) i l = Fin (delta i l * total m (fun j => games w i j * c i j))).
      { unfold diag, delta. destruct (Nat.eqb i l); [|unfold nzero; efc; f_equal; ring].
        destruct Ha as (_ & E1 & _). rewrite E1. rewrite (np_sum_total_ext m _ (fun j => games w i j * c i j)) by (intros; apply y2_Fin; assumption). f_equal. ring. }
      rewrite D. cbn [ef_neg]. f_equal. unfold nhess.
      rewrite (total_ext m (fun j => games w i j * ((delta i l - delta j l) * (exp (g i) * exp (g j) / ((exp (g i) + exp (g j)) * (exp (g i) + exp (g j))))))
        (fun j => delta i l * (games w i j * c i j) - delta j l * (games w i j * c i j))) by (intros j Hj; fold (c i j); ring).
      rewrite total_sub, total_mul. unfold delta at 3. rewrite total_delta by exact Hl. rewrite G0. ring.
  Qed.
End Newton.

Lemma c74_gradient : forall a m w g i, counts a m w -> nonneg_counts m w -> (i < m)%nat ->
  exists x, nr_dL a (vec m g) i = Fin x /\ partial (bt_log_likelihood m w) i g x.
Proof. intros a m w g i Ha Hw Hi. eexists. split; [apply (dL_Fin a m w g); assumption|apply log_partial, Hi]. Qed.
Lemma c74_hessian : forall a m w g i l, counts a m w -> nonneg_counts m w -> no_self m w -> (i < m)%nat -> (l < m)%nat ->
  exists x, nr_d2L a (vec m g) i l = Fin x /\ second_partial (fun _ => True) (bt_log_likelihood m w) i l g x.
Proof. intros a m w g i l Ha Hw Hn Hi Hl. eexists. split; [apply (d2L_Fin a m w g); assumption|]. apply nhess_iff; [exact Hi|reflexivity]. Qed.

(** ** The result *)
Lemma nr_loop_length : forall pinv fuel (a : arr2 ef) g q, nr_loop pinv fuel a g = Ok q -> length q = n0 a.
Proof.
  intros pinv fuel a. induction fuel as [|k IH]; intros g q H; [discriminate|]. cbn [nr_loop] in H.
  destruct (nr_change pinv a g) as [c|e]; cbn [bind] in H; [|discriminate].
  destruct (sp_norm c) as [d|e]; cbn [bind] in H; [|discriminate]. destruct (ngtb d pc_thr); [exact (IH _ _ H)|].
  injection H as <-. rewrite map_length, seq_length. reflexivity.
Qed.
Lemma c74_last : forall pinv fuel (a : arr2 ef) q, nr_resolve pinv fuel false a = Ok q ->
  (0 < n0 a)%nat /\ n1 a = n0 a /\ length q = n0 a /\ vat q (n0 a - 1) = Fin 0.
Proof.
  intros pinv fuel a q H. unfold nr_resolve in H. destruct (Nat.eqb_spec (n0 a) (n1 a)) as [E|E]; [|discriminate].
  cbn [assert_ bind] in H. destruct (Nat.eqb_spec (n0 a) 0) as [Z|Z]; [discriminate|].
  destruct (nr_loop _ _ _ _) as [g|e]; cbn [bind] in H; [|discriminate]. injection H as <-.
  split; [lia|]. split; [congruence|]. split.
  - rewrite app_length, map_length, seq_length. cbn [length]. lia.
  - unfold vat. rewrite app_nth2; rewrite map_length, seq_length; [|lia]. replace (n0 a - 1 - (n0 a - 1))%nat with 0%nat by lia. reflexivity.
Qed.

(** ** One Newton step and the stopping rule *)
Lemma sp_norm_ok : forall (l : list ef) d, sp_norm l = Ok d -> exists f, l = vec (length l) f.
Proof.
  intros l d H. unfold sp_norm in H. destruct (existsb _ l) eqn:B; [discriminate|]. clear H.
  exists (fun i => toR (nth i l NaN)). unfold vec. apply nth_ext with (d := NaN) (d' := NaN); [rewrite map_length, seq_length; reflexivity|].
  intros i Hi. rewrite (nth_indep (map _ _) NaN (Fin (toR (nth 0 l NaN)))) by (rewrite map_length, seq_length; exact Hi).
  rewrite (map_nth (fun i => Fin (toR (nth i l NaN)))). rewrite seq_nth by exact Hi. cbn [plus].
  assert (I : In (nth i l NaN) l) by (apply nth_In, Hi). destruct (nth i l NaN) as [x| | |] eqn:E; [reflexivity| | |]; exfalso.
  all: assert (T : existsb (fun x : ef => (nisnan x || nisinf x)%bool) l = true) by (apply existsb_exists; eexists; split; [exact I|reflexivity]); congruence.
Qed.
Lemma add_fin : forall x y z, ef_add x y = Fin z -> isfin x /\ isfin y.
Proof. intros [x| | |] [y| | |] z H; try discriminate; split; exact I. Qed.
Lemma sum_fin : forall (l : list ef) z, np_sum l = Fin z -> Forall isfin l.
Proof.
  induction l as [|x l IH]; intros z H; [constructor|]. rewrite np_sum_cons in H. revert H. efc. intro H.
  destruct (add_fin _ _ _ H) as [A B]. constructor; [exact A|]. destruct (np_sum l) as [y| | |] eqn:E; try contradiction. exact (IH _ eq_refl).
Qed.
Lemma mul_fin : forall x d, isfin (ef_mul x (Fin d)) -> exists r, x = Fin r.
Proof.
  intros [r| | |] d H; [exists r; reflexivity| | |]; exfalso; revert H; unfold ef_mul, ef_infmul; try (intro H; exact H);
  repeat match goal with |- context [if ?b then _ else _] => destruct b end; intro H; exact H.
Qed.

Lemma change_length : forall pinv (a : arr2 ef) g c, nr_change pinv a g = Ok c -> length c = (n0 a - 1 + 1)%nat.
Proof.
  intros pinv a g c H. unfold nr_change in H. destruct (pinv _); cbn [bind] in H; [|discriminate]. injection H as <-.
  rewrite app_length, map_length, seq_length. reflexivity.
Qed.
Lemma change_step : forall pinv a m w g c, (0 < m)%nat -> counts a m w -> nonneg_counts m w -> no_self m w ->
  nr_change pinv a (vec m g) = Ok (vec m c) -> newton_step pinv m w g c.
Proof.
  intros pinv a m w g c Hm Ha Hw Hn H. assert (E0 := proj1 Ha). unfold nr_change in H. rewrite E0 in H.
  destruct (pinv _) as [h|e] eqn:P; cbn [bind] in H; [|discriminate].
  assert (Q : forall x y : list ef, Ok x = Ok y -> x = y) by (intros x y E; injection E; auto). apply Q in H.
  assert (C : forall i, (i < m - 1)%nat -> np_sum (map (fun j => nmul (at2 h i j) (nr_dL a (vec m g) j)) (seq 0 (m - 1))) = Fin (c i)).
  { intros i Hi. rewrite <- (vat_vec m c i) by lia. rewrite <- H. unfold vat. rewrite app_nth1 by (rewrite map_length, seq_length; exact Hi).
    symmetry. apply (vat_map_seq (fun i => np_sum (map (fun j => nmul (at2 h i j) (nr_dL a (vec m g) j)) (seq 0 (m - 1))))). exact Hi. }
  assert (F : forall i k, (i < m - 1)%nat -> (k < m - 1)%nat -> exists r, at2 h i k = Fin r).
  { intros i k Hi Hk. assert (S := sum_fin _ _ (C i Hi)). rewrite Forall_forall in S.
    specialize (S (nmul (at2 h i k) (nr_dL a (vec m g) k))). apply (mul_fin _ (ngrad m w g k)).
    rewrite (dL_Fin a m w g Ha Hw) in S by lia. apply S. apply in_map_iff. exists k. split; [rewrite (dL_Fin a m w g Ha Hw) by lia; reflexivity|apply in_seq; lia]. }
  exists (mat (m - 1) (nr_d2L a (vec m g))), h. split; [exact P|]. split; [reflexivity|]. split; [reflexivity|]. split.
  - intros i k Hi Hk. cbn [mat at2]. apply c74_hessian; try assumption; lia.
  - exists (fun i k => toR (at2 h i k)), (ngrad m w g). split; [|split; [|split]].
    + intros i k Hi Hk. destruct (F i k Hi Hk) as [r ->]. reflexivity.
    + intros k Hk. apply log_partial. lia.
    + intros i Hi. specialize (C i Hi). rewrite (np_sum_total_ext (m - 1) _ (fun k => toR (at2 h i k) * ngrad m w g k)) in C; [injection C; auto|].
      intros k Hk. destruct (F i k Hi Hk) as [r ->]. rewrite (dL_Fin a m w g Ha Hw) by lia. reflexivity.
    + assert (V := vat_vec m c (m - 1) ltac:(lia)). rewrite <- H in V. unfold vat in V.
      rewrite app_nth2 in V by (rewrite map_length, seq_length; lia). rewrite map_length, seq_length, Nat.sub_diag in V. cbn [nth] in V.
      unfold nzero in V. revert V. efc. intro V. injection V. auto.
Qed.

Lemma nr_loop_spec : forall pinv fuel a m w g q, (0 < m)%nat -> counts a m w -> nonneg_counts m w -> no_self m w ->
  g (m - 1)%nat = 0 -> nr_loop pinv fuel a (vec m g) = Ok q ->
  exists g' c, q = vec m (fun i => g' i - c i) /\ g' (m - 1)%nat = 0 /\ newton_step pinv m w g' c /\ distance m (fun i => g' i - c i) g' <= 1 / 100000000.
Proof.
  intros pinv fuel a m w g q Hm Ha Hw Hn. revert g. induction fuel as [|k IH]; intros g G H; [discriminate|]. cbn [nr_loop] in H.
  destruct (nr_change pinv a (vec m g)) as [c|e] eqn:C; cbn [bind] in H; [|discriminate].
  destruct (sp_norm c) as [d|e] eqn:D; cbn [bind] in H; [|discriminate].
  destruct (sp_norm_ok _ _ D) as [f Ef]. rewrite (change_length _ _ _ _ C) in Ef. rewrite (proj1 Ha) in Ef. replace (m - 1 + 1)%nat with m in Ef by lia. subst c.
  assert (N := change_step pinv a m w g f Hm Ha Hw Hn C).
  assert (V : map (fun i => nsub (vat (vec m g) i) (vat (vec m f) i)) (seq 0 (n0 a)) = vec m (fun i => g i - f i)).
  { rewrite (proj1 Ha). unfold vec at 3. apply map_ext_in. intros i Hi. apply in_seq0 in Hi. rewrite !vat_vec by exact Hi. efc. apply ef_sub_Fin. }
  rewrite V in H. unfold vec at 1 in D. rewrite sp_norm_Fin in D. injection D as <-. unfold ngtb in H. rewrite pc_thr_ef in H. revert H. efc. cbn [ef_ltb]. intro H.
  destruct (Rltb _ _) eqn:B.
  - apply (IH (fun i => g i - f i)); [|exact H]. destruct N as (x & h & _ & _ & _ & _ & HH & dd & _ & _ & _ & Z). rewrite G, Z. ring.
  - apply Rltb_false in B. injection H as <-. exists g, f. split; [reflexivity|]. split; [exact G|]. split; [exact N|].
    unfold distance. rewrite (total_ext m _ (fun i => f i * f i)) by (intros; ring). lra.
Qed.
Lemma c74_result : forall pinv fuel a m w q, counts a m w -> nonneg_counts m w -> no_self m w ->
  nr_resolve pinv fuel false a = Ok q ->
  exists g c, q = vec m (fun i => g i - c i) /\ g (m - 1)%nat = 0 /\ newton_step pinv m w g c /\ distance m (fun i => g i - c i) g <= 1 / 100000000.
Proof.
  intros pinv fuel a m w q Ha Hw Hn H. unfold nr_resolve in H. assert (E0 := proj1 Ha). assert (E1 := proj1 (proj2 Ha)).
  rewrite E0, E1, Nat.eqb_refl in H. cbn [assert_ bind] in H. destruct (Nat.eqb_spec m 0) as [Z|Z]; [discriminate|]. assert (Hm : (0 < m)%nat) by lia.
  destruct (nr_loop _ _ _ _) as [y|e] eqn:L; cbn [bind] in H; [|discriminate].
  change (map (fun _ : nat => nzero) (seq 0 m)) with (vec m (fun _ => 0)) in L.
  destruct (nr_loop_spec pinv fuel a m w _ _ Hm Ha Hw Hn eq_refl L) as (g & c & -> & G & N & D).
  exists g, c. split; [|split; [exact G|split; [exact N|exact D]]].
  assert (Q : forall x y : list ef, Ok x = Ok y -> x = y) by (intros x y E; injection E; auto). apply Q in H. rewrite <- H. clear H Q.
  destruct m as [|m]; [lia|]. replace (S m - 1)%nat with m in * by lia. unfold vec at 2. rewrite seq_S, map_app. cbn [map plus].
  f_equal.
  - apply map_ext_in. intros i Hi. apply in_seq0 in Hi. apply vat_vec. lia.
  - destruct N as (x & h & _ & _ & _ & _ & HH & dd & _ & _ & _ & C0). replace (S m - 1)%nat with m in C0 by lia. rewrite G, C0. unfold nzero. efc. do 2 f_equal. ring.
Qed.

(** ** z-scored output *)
Lemma c74_zscore : forall pinv fuel (a : arr2 ef) m x, nr_resolve pinv fuel false a = Ok (vec m x) -> (exists i, (i < m)%nat /\ x i <> x (m - 1)%nat) ->
  exists z, nr_resolve pinv fuel true a = Ok (vec m z) /\ total m z = 0 /\ total m (fun i => z i * z i) = INR m /\
    exists mu s, 0 < s /\ forall i, (i < m)%nat -> z i = (x i - mu) / s.
Proof.
  intros pinv fuel a m x H (i0 & Hi0 & N).
  assert (Hm : (0 < m)%nat) by lia. assert (Rm : 0 < INR m) by (apply lt_0_INR, Hm).
  set (mu := total m x / INR m). set (v := total m (fun i => (x i - mu) * (x i - mu))).
  assert (Pv : 0 < v).
  { assert (P : 0 <= v) by (apply total_nonneg; intros; apply Rle_0_sqr). destruct P as [P|P]; [exact P|exfalso].
    assert (Z : forall i, (i < m)%nat -> x i = mu).
    { intros i Hi. destruct (Req_dec (x i) mu) as [E|E]; [exact E|exfalso].
      assert (0 < v) by (apply (total_pos m (fun i => (x i - mu) * (x i - mu)) i Hi); [intros; apply Rle_0_sqr|apply Rlt_0_sqr; lra]). lra. }
    apply N. rewrite (Z i0 Hi0), (Z (m - 1)%nat) by lia. reflexivity. }
  set (s := sqrt (v / INR m)). assert (Pq : 0 < v / INR m) by (apply Rdiv_lt_0_compat; assumption).
  assert (Ps : 0 < s) by (apply sqrt_lt_R0; exact Pq). assert (Ss : s * s = v / INR m) by (apply sqrt_sqrt; lra).
  assert (M : np_mean (vec m x) = Fin mu).
  { unfold np_mean, vec. rewrite np_sum_total, map_length, seq_length, nofnat_ef. efc. rewrite ef_div_Fin by lra. reflexivity. }
  assert (S : np_std (vec m x) = Fin s).
  { unfold np_std. rewrite M. unfold np_mean. rewrite !map_length. unfold vec. rewrite map_length, seq_length, !map_map.
    rewrite (np_sum_total_ext m _ (fun i => (x i - mu) * (x i - mu))).
    - rewrite nofnat_ef. efc. rewrite ef_div_Fin by lra. rewrite ef_sqrt_Fin by (fold v; lra). reflexivity.
    - intros i Hi. unfold nsq. efc. rewrite !ef_sub_Fin. reflexivity. }
  exists (fun i => (x i - mu) / s).
  assert (T1 : total m (fun i => x i - mu) = 0).
  { rewrite total_sub. replace (total m (fun _ => mu)) with (INR m * mu).
    - unfold mu. field. lra.
    - clear. unfold total. rewrite <- (seq_length m 0) at 1. induction (seq 0 m) as [|y l IH]; [unfold Rsum; cbn; ring|].
      cbn [map length]. rewrite S_INR. change (Rsum (mu :: map (fun _ : nat => mu) l)) with (mu + Rsum (map (fun _ : nat => mu) l)). rewrite <- IH. ring. }
  split; [|split; [|split]].
  - unfold nr_resolve in *. destruct (assert_ _); cbn [bind] in *; [|discriminate]. destruct (Nat.eqb (n0 a) 0); [discriminate|].
    destruct (nr_loop _ _ _ _) as [y|e]; cbn [bind] in *; [|discriminate].
    assert (Q : forall x y : list ef, Ok x = Ok y -> x = y) by (intros x' y' E; injection E; auto). apply Q in H. rewrite H. f_equal.
    unfold zscored. rewrite M, S. unfold vec. rewrite map_map. apply map_ext. intros i. efc. rewrite ef_sub_Fin, ef_div_Fin by lra. reflexivity.
  - unfold Rdiv. rewrite total_mulr, T1. ring.
  - rewrite (total_ext m _ (fun i => (x i - mu) * (x i - mu) * / (s * s))) by (intros; field; lra).
    rewrite total_mulr. fold v. rewrite Ss. field. lra.
  - exists mu, s. split; [exact Ps|]. reflexivity.
Qed.
