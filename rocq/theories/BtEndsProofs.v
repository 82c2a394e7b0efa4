(** When the Bradley-Terry loop ends, and how (C131). *)
From Coq Require Import List ZArith Bool Arith Reals Lia Lra Classical.
From Verif Require Import PyBase Num ExtReal ExtRealProofs NumPy ArrayProofs SpecMos PairedComp SpecBt BtProofs Bt2Proofs SpecBtLimit BtLimitProofs.
Import ListNotations.
Local Open Scope list_scope.
Local Open Scope R_scope.

(** ** Every video won: the passes come to rest *)
Lemma step_near : forall m w p e, (0 < m)%nat -> nonneg_counts m w -> each_won m w -> probabilities m p -> 0 < e ->
  (forall i, (i < m)%nat -> Rabs (ln (load m w p i)) <= e) -> within m p (exp (- (2 * e))) (exp (2 * e)) (step m w p).
Proof.
  intros m w p e Hm Hw He Hp He0 HL. destruct Hp as [Pp Sp].
  assert (B : forall i, (i < m)%nat -> exp (- e) * p i <= raw m w p i <= exp e * p i).
  { intros i Hi. generalize (HL i Hi). rewrite (load_raw m w p i) by assumption. assert (Q := raw_pos m w p Hw He Pp i Hi). assert (P := Pp i Hi).
    rewrite ln_div by assumption. intro A. set (q := raw m w p i) in *.
    assert (A' : ln (p i) + - e <= ln q <= ln (p i) + e) by (unfold Rabs in A; destruct (Rcase_abs _); lra).
    rewrite <- (exp_ln (p i) P) at 1 2. rewrite <- !exp_plus. rewrite <- (exp_ln q Q). split; apply exp_le; lra. }
  assert (S1 : exp (- e) <= total m (raw m w p)). { replace (exp (- e)) with (exp (- e) * total m p) by (rewrite Sp; ring). rewrite <- total_mul. apply total_le. intros i Hi. apply B, Hi. }
  assert (S2 : total m (raw m w p) <= exp e). { replace (exp e) with (exp e * total m p) by (rewrite Sp; ring). rewrite <- total_mul. apply total_le. intros i Hi. apply B, Hi. }
  intros i Hi. unfold step. set (s := total m (raw m w p)) in *. assert (X := exp_pos (- e)). assert (Y := exp_pos e). assert (P := Pp i Hi). destruct (B i Hi) as [B1 B2].
  replace (- (2 * e)) with (- e + - e) by ring. replace (2 * e) with (e + e) by ring. rewrite !exp_plus. assert (XY : exp (- e) * exp e = 1) by (rewrite <- exp_plus; replace (- e + e) with 0 by ring; apply exp_0).
  set (x := exp (- e)) in *. set (y := exp e) in *.
  assert (I1 : / s <= y). { apply Rmult_le_reg_r with s; [lra|]. rewrite Rinv_l by lra. nra. }
  assert (I2 : x <= / s). { apply Rmult_le_reg_r with s; [lra|]. rewrite Rinv_l by lra. nra. }
  assert (I0 : 0 < / s) by lra. unfold Rdiv. split.
  - apply Rle_trans with (x * p i * / s); [|apply Rmult_le_compat_r; lra]. replace (x * x * p i) with (x * p i * x) by ring. apply Rmult_le_compat_l; [nra|exact I2].
  - apply Rle_trans with (y * p i * / s); [apply Rmult_le_compat_r; lra|]. replace (y * y * p i) with (y * p i * y) by ring. apply Rmult_le_compat_l; [nra|exact I1].
Qed.
Lemma won_rests : forall m w, (0 < m)%nat -> nonneg_counts m w -> each_won m w -> exists n, distance m (it m w (S n)) (it m w n) <= 1 / 100000000.
Proof.
  intros m w Hm Hw He. assert (M1 : 1 <= INR m) by (change 1 with (INR 1); apply le_INR; lia).
  set (t := 1 / 100000000 / INR m). assert (Ht : 0 < t) by (apply Rdiv_lt_0_compat; lra).
  assert (Le : 0 < ln (1 + t)) by (rewrite <- ln_1; apply ln_increasing; lra).
  destruct (load_small m w (fun _ => / INR m) (ln (1 + t) / 2) Hw He) as (d & Hd & HL); [apply (start_prob m Hm)|lra|].
  destruct (small_gain m w (fun _ => True) d Hm Hw He) as (n & _ & G); [intro N0; exists N0; split; [lia|exact I]|exact Hd|].
  assert (P := it_prob m w n Hm Hw He). exists n. apply distance_small; [exact Hm|]. intros i Hi. rewrite it_S.
  apply (within_abs m (it m w n) (step m w (it m w n)) t P); [apply step_prob; try assumption; apply P|exact Ht| |exact Hi].
  replace (ln (1 + t)) with (2 * (ln (1 + t) / 2)) by field. apply step_near; try assumption; [lra|].
  intros k Hk. apply HL; [exact Hk|apply P|exact G].
Qed.
Lemma won_ends : forall pinv a m w, (0 < m)%nat -> counts a m w -> nonneg_counts m w -> each_won m w -> (forall x, exists y, pinv x = Ok y) ->
  exists fuel r, bt_resolve pinv fuel a = Ok r.
Proof.
  intros pinv a m w Hm Ha Hw He Hpi. destruct (won_rests m w Hm Hw He) as (n & D).
  destruct (loop_ends a m w n (fun _ => / INR m) Hm Ha Hw He (start_prob m Hm) D) as (q & Eq).
  exists (S n). destruct Ha as (A0 & A1 & A2). unfold bt_resolve. rewrite A0, A1, Nat.eqb_refl. cbn [assert_ bind].
  replace (Nat.eqb m 0) with false by (symmetry; apply Nat.eqb_neq; lia). rewrite (bt_start_eq m Hm), Eq. cbn [bind].
  destruct (Hpi (bordered m (bt_lbda a (vec m q)))) as (y & Ey). rewrite Ey. cbn [bind]. eexists. reflexivity.
Qed.

(** ** A video never won: NaN *)
Lemma np_sum_nan : forall l : list ef, In NaN l -> np_sum l = NaN.
Proof.
  assert (A : forall l : list ef, fold_left nadd l NaN = NaN) by (induction l as [|x l IH]; [reflexivity|exact IH]).
  assert (B : forall (l : list ef) s, In NaN l -> fold_left nadd l s = NaN).
  { induction l as [|x l IH]; intros s H; [destruct H|]. destruct H as [-> |H]; [|apply IH, H]. cbn [fold_left]. replace (nadd s NaN) with NaN by (destruct s; reflexivity). apply A. }
  intros l H. apply B, H.
Qed.
Lemma nan_pass : forall a p k, (k < n0 a)%nat -> nth_error (bt_raw a p) k = Some NaN -> 
  sp_norm (map (fun i => nsub (vat (bt_step a p) i) (vat p i)) (seq 0 (n0 a))) = Err ValueError.
Proof.
  intros a p k Hk H. unfold sp_norm. replace (existsb _ _) with true; [reflexivity|]. symmetry. apply existsb_exists. exists NaN. split; [|reflexivity].
  apply in_map_iff. exists k. split; [|apply in_seq; lia]. assert (S : np_sum (bt_raw a p) = NaN) by (apply np_sum_nan; exact (nth_error_In _ _ H)).
  unfold bt_step, bt_normalised, vat at 1. rewrite S. rewrite (nth_error_nth _ _ _ (map_nth_error (fun x : ef => ndiv x NaN) k _ H)). reflexivity.
Qed.
Lemma raw_entry : forall a m w p k, counts a m w -> (k < m)%nat -> nth_error (bt_raw a (vec m p)) k =
  Some (ndiv (Fin (wins m w k)) (np_sum (map (fun j => ndiv (Fin (games w k j)) (Fin (p k + p j))) (seq 0 m)))).
Proof.
  intros a m w p k Ha Hk. destruct Ha as (A0 & A1 & A2) eqn:EA. clear EA. unfold bt_raw. rewrite A0, A1.
  assert (E : nth_error (seq 0 m) k = Some k). { rewrite (nth_error_nth' (seq 0 m) 0%nat) by (rewrite seq_length; exact Hk). f_equal. rewrite seq_nth by exact Hk. reflexivity. }
  rewrite (map_nth_error _ _ _ E). do 2 f_equal.
  - unfold row. rewrite A1. apply np_sum_total_ext. intros j Hj. apply A2; assumption.
  - f_equal. apply map_ext_in. intros j Hj. apply in_seq0 in Hj. rewrite (played_Fin a m w) by (repeat split; assumption). unfold bt_pp. rewrite !vat_vec by assumption. reflexivity.
Qed.
Lemma winless_row : forall m w k, nonneg_counts m w -> (k < m)%nat -> ~ 0 < wins m w k -> (forall j, (j < m)%nat -> w k j = 0) /\ wins m w k = 0.
Proof.
  intros m w k Hw Hk N. assert (P : 0 <= wins m w k) by (apply total_nonneg; intros j Hj; apply Hw; assumption). split; [|lra].
  intros j Hj. destruct (Hw k j Hk Hj) as [L|L]; [|auto]. exfalso. apply N. apply (total_pos m (w k) j Hj); [intros; apply Hw; assumption|exact L].
Qed.
(** Finite entries of a pass from positive strengths. *)
Lemma raw_finite : forall a m w p, counts a m w -> nonneg_counts m w -> positive m p -> (forall i, (i < m)%nat -> 0 < total m (games w i)) ->
  bt_raw a (vec m p) = vec m (raw m w p) /\ forall i, (i < m)%nat -> 0 < rate m w p i.
Proof.
  intros a m w p Ha Hw Hp Hg.
  assert (RP : forall i, (i < m)%nat -> 0 < rate m w p i).
  { intros i Hi. destruct (total_pos_elim m (games w i) (Hg i Hi)) as (j & Hj & G). apply (total_pos m (fun j => games w i j / (p i + p j)) j Hj).
    - intros k Hk. apply Rmult_le_pos; [generalize (Hw i k Hi Hk) (Hw k i Hk Hi); unfold games; lra|]. left. apply Rinv_0_lt_compat. generalize (Hp i Hi) (Hp k Hk). lra.
    - apply Rdiv_lt_0_compat; [exact G|]. generalize (Hp i Hi) (Hp j Hj). lra. }
  split; [|exact RP]. destruct Ha as (E0 & E1 & H). unfold bt_raw. rewrite E0, E1. unfold vec at 2.
  apply map_ext_in. intros i Hi. apply in_seq0 in Hi. unfold row. rewrite E1.
  rewrite (np_sum_total_ext m (at2 a i) (w i)) by (intros; apply H; assumption).
  rewrite (np_sum_total_ext m _ (fun j => games w i j / (p i + p j))).
  - efc. rewrite ef_div_Fin; [reflexivity|]. apply Rgt_not_eq. apply RP, Hi.
  - intros j Hj. rewrite (played_Fin a m w) by (repeat split; assumption). unfold bt_pp. rewrite !vat_vec by assumption.
    efc. cbn [ef_add]. rewrite ef_div_Fin; [reflexivity|]. generalize (Hp i Hi) (Hp j Hj). lra.
Qed.
Lemma winless_loop : forall a m w k fuel, counts a m w -> nonneg_counts m w -> (k < m)%nat -> ~ 0 < wins m w k -> INR m < 100000000 -> (2 <= fuel)%nat ->
  bt_loop fuel a (vec m (fun _ => / INR m)) = Err ValueError.
Proof.
  intros a m w k fuel Ha Hw Hk N Hbig Hf. assert (Hm : (0 < m)%nat) by lia. assert (A0 := proj1 Ha).
  assert (M0 : 0 < INR m) by (apply lt_0_INR; exact Hm). destruct (winless_row m w k Hw Hk N) as [Z Wz].
  destruct fuel as [|[|fuel]]; try lia.
  change (bt_loop (S (S fuel)) a (vec m (fun _ => / INR m))) with (let p' := bt_step a (vec m (fun _ => / INR m)) in do change <- sp_norm (map (fun i => nsub (vat p' i) (vat (vec m (fun _ => / INR m)) i)) (seq 0 (n0 a)));
        if ngtb change pc_thr then bt_loop (S fuel) a p' else Ok p'). cbv zeta.
  destruct (classic (exists i, (i < m)%nat /\ ~ 0 < total m (games w i))) as [(i & Hi & G)|No].
  - rewrite (nan_pass a _ i) with (1 := eq_ind_r (fun n => (i < n)%nat) Hi A0); [reflexivity|]. rewrite (raw_entry a m w) by assumption. f_equal.
    assert (GN : forall j, (j < m)%nat -> 0 <= games w i j) by (intros j Hj; generalize (Hw i j Hi Hj) (Hw j i Hj Hi); unfold games; lra).
    assert (GZ : forall j, (j < m)%nat -> games w i j = 0).
    { intros j Hj. destruct (GN j Hj) as [L|L]; [|auto]. exfalso. apply G. apply (total_pos m (games w i) j Hj); assumption. }
    assert (W0 : wins m w i = 0). { unfold wins. rewrite (total_ext m (w i) (fun _ => 0 * 0)); [rewrite total_mul; ring|]. intros j Hj. generalize (GZ j Hj) (Hw i j Hi Hj) (Hw j i Hj Hi). unfold games. lra. }
    rewrite (np_sum_total_ext m _ (fun _ => 0 * 0)).
    + rewrite total_mul, W0. efc. rewrite Rmult_0_l. unfold ef_div. destruct (Req_EM_T 0 0); [|lra]. destruct (Req_EM_T 0 0); [reflexivity|lra].
    + intros j Hj. rewrite (GZ j Hj). efc. assert (I0 := Rinv_0_lt_compat _ M0). rewrite ef_div_Fin by lra. f_equal. unfold Rdiv. ring.
  - assert (Hg : forall i, (i < m)%nat -> 0 < total m (games w i)) by (intros i Hi; apply NNPP; intro G; apply No; exists i; auto).
    assert (Hp : positive m (fun _ => / INR m)) by (intros i _; apply Rinv_0_lt_compat; exact M0).
    destruct (raw_finite a m w (fun _ => / INR m) Ha Hw Hp Hg) as [Er RP]. set (u := fun _ : nat => / INR m) in *.
    assert (Rn : forall i, (i < m)%nat -> 0 <= raw m w u i).
    { intros i Hi. apply Rmult_le_pos; [apply total_nonneg; intros j Hj; apply Hw; assumption|left; apply Rinv_0_lt_compat, RP, Hi]. }
    assert (Rs : 0 < total m (raw m w u)).
    { destruct (total_pos_elim m (games w k) (Hg k Hk)) as (j & Hj & G). unfold games in G. rewrite (Z j Hj) in G.
      apply (total_pos m (raw m w u) j Hj Rn). apply Rdiv_lt_0_compat; [|apply RP, Hj]. apply (total_pos m (w j) k Hk); [intros; apply Hw; assumption|lra]. }
    assert (Es : bt_step a (vec m u) = vec m (step m w u)).
    { unfold bt_step. rewrite Er. unfold bt_normalised, vec. rewrite np_sum_total, map_map. apply map_ext. intro i. efc. rewrite ef_div_Fin by lra. reflexivity. }
    assert (S0 : step m w u k = 0) by (unfold step, raw; rewrite Wz; unfold Rdiv; ring).
    rewrite Es, A0, sp_norm_diff. cbn [bind].
    assert (D : 1 / 100000000 < distance m (step m w u) u).
    { apply Rlt_le_trans with (/ INR m); [replace (1 / 100000000) with (/ 100000000) by field; apply Rinv_lt_contravar; [nra|exact Hbig]|].
      unfold distance. rewrite <- (sqrt_square (/ INR m)) by (left; apply Rinv_0_lt_compat; exact M0). apply sqrt_le_1_alt.
      apply Rle_trans with ((step m w u k - u k) * (step m w u k - u k)); [rewrite S0; unfold u; right; ring|].
      assert (T := total_ge_one m (fun i => - ((step m w u i - u i) * (step m w u i - u i))) k Hk). cbv beta in T.
      assert (T' : total m (fun i => - ((step m w u i - u i) * (step m w u i - u i))) = - total m (fun i => (step m w u i - u i) * (step m w u i - u i))).
      { rewrite (total_ext m _ (fun i => -1 * ((step m w u i - u i) * (step m w u i - u i)))) by (intros; ring). rewrite total_mul. ring. }
      rewrite T' in T. specialize (T ltac:(intros i _; generalize (Rle_0_sqr (step m w u i - u i)); unfold Rsqr; lra)). lra. }
    replace (ngtb (Fin (distance m (step m w u) u)) pc_thr) with true.
    2:{ symmetry. unfold ngtb. rewrite pc_thr_ef. efc. cbn [ef_ltb]. destruct (Rltb (1 / 100000000) (distance m (step m w u) u)) eqn:B; [reflexivity|]. apply Rltb_false in B. lra. }
    change (bt_loop (S fuel) a (vec m (step m w u))) with (let p' := bt_step a (vec m (step m w u)) in do change <- sp_norm (map (fun i => nsub (vat p' i) (vat (vec m (step m w u)) i)) (seq 0 (n0 a)));
        if ngtb change pc_thr then bt_loop fuel a p' else Ok p'). cbv zeta.
    rewrite (nan_pass a _ k) with (1 := eq_ind_r (fun n => (k < n)%nat) Hk A0); [reflexivity|]. rewrite (raw_entry a m w) by assumption. f_equal.
    rewrite np_sum_nan; [reflexivity|]. apply in_map_iff. exists k. split; [|apply in_seq; lia]. unfold games. rewrite (Z k Hk), S0. efc. rewrite !Rplus_0_l. unfold ef_div. destruct (Req_EM_T 0 0); [|lra]. destruct (Req_EM_T 0 0); [reflexivity|lra].
Qed.
Lemma winless_fails : forall pinv a m w fuel, (0 < m)%nat -> counts a m w -> nonneg_counts m w -> ~ each_won m w -> INR m < 100000000 -> (2 <= fuel)%nat ->
  bt_resolve pinv fuel a = Err ValueError.
Proof.
  intros pinv a m w fuel Hm Ha Hw N Hb Hf. destruct (not_all_ex_not _ _ N) as (k & Nk). apply imply_to_and in Nk as [Hk Nk].
  unfold bt_resolve. rewrite (proj1 Ha), (proj1 (proj2 Ha)), Nat.eqb_refl. cbn [assert_ bind].
  replace (Nat.eqb m 0) with false by (symmetry; apply Nat.eqb_neq; lia). rewrite (bt_start_eq m Hm), (winless_loop a m w k fuel) by assumption. reflexivity.
Qed.
Lemma c131_ends : forall pinv a m w, (0 < m)%nat -> INR m < 100000000 -> counts a m w -> nonneg_counts m w -> (forall x, exists y, pinv x = Ok y) ->
  ((exists fuel r, bt_resolve pinv fuel a = Ok r) <-> each_won m w).
Proof.
  intros pinv a m w Hm Hb Ha Hw Hpi. split; [|intro He; apply (won_ends pinv a m w); assumption].
  intros (fuel & r & E). apply NNPP. intro N. destruct fuel as [|[|fuel]].
  - unfold bt_resolve in E. rewrite (proj1 Ha), (proj1 (proj2 Ha)), Nat.eqb_refl in E. cbn [assert_ bind] in E. replace (Nat.eqb m 0) with false in E by (symmetry; apply Nat.eqb_neq; lia). discriminate E.
  - destruct (not_all_ex_not _ _ N) as (k & Nk). apply imply_to_and in Nk as [Hk Nk]. assert (L := winless_loop a m w k 2 Ha Hw Hk Nk Hb ltac:(lia)).
    unfold bt_resolve in E. rewrite (proj1 Ha), (proj1 (proj2 Ha)), Nat.eqb_refl in E. cbn [assert_ bind] in E. replace (Nat.eqb m 0) with false in E by (symmetry; apply Nat.eqb_neq; lia). rewrite (bt_start_eq m Hm) in E.
    cbn [bt_loop] in L, E. destruct (sp_norm (map (fun i => nsub (vat (bt_step a (vec m (fun _ => / INR m))) i) (vat (vec m (fun _ => / INR m)) i)) (seq 0 (n0 a)))) as [c|e]; cbn [bind] in L, E; [|discriminate E].
    destruct (ngtb c pc_thr); [discriminate E|]. discriminate L.
  - rewrite (winless_fails pinv a m w) in E; try assumption; [discriminate E|lia].
Qed.
Lemma c131_run : forall pinv a m, (0 < m)%nat -> INR m < 100000000 -> dE a = m -> dS a = m -> finite_votes a -> nonneg_counts m (preferences a) -> (forall x, exists y, pinv x = Ok y) ->
  ((exists fuel r, bt_run pinv fuel a = Ok r) <-> forall i, (i < m)%nat -> exists j, (j < m)%nat /\ 0 < preferences a i j).
Proof.
  intros pinv a m Hm Hb H1 H2 Hf Hw Hpi. unfold bt_run. rewrite (c131_ends pinv (win_matrix a) m (preferences a) Hm Hb (win_counts a m H1 H2 Hf) Hw Hpi). split; intros H i Hi.
  - apply total_pos_elim. apply H, Hi.
  - destruct (H i Hi) as (j & Hj & P). apply (total_pos m (preferences a i) j Hj); [intros; apply Hw; assumption|exact P].
Qed.
