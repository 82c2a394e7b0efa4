(** Proofs about the early maximum likelihood model: runs. *)
From Coq Require Import String.
From Coq Require Import List ZArith Bool Arith Reals Lra Lia.
From Verif Require Import PyBase Num ExtReal NumPy Dataset Preproc Mos AP Mle OtherModels SpecMos SpecAp SpecMle SpecMosReport SpecOther
  BaseProofs ExtRealProofs ArrayProofs StepsProofs MosProofs ApProofs Ap2Proofs MleProofs Mle2Proofs Mle3Proofs Mle7Proofs Mle8Proofs MosReportProofs LsProofs LegacyProofs.
Import ListNotations.
Local Open Scope R_scope.

Lemma epsilon_val : (epsilon : ef) = Fin (1 / 100000000).
Proof. unfold epsilon. apply ndec_ef. lia. Qed.
Lemma norm_cases : forall l : list ef, (exists d, sp_norm l = Ok d) \/ sp_norm l = Err ValueError.
Proof. intro l. unfold sp_norm. destruct (existsb _ l); [right; reflexivity|left; eauto]. Qed.
Lemma diff_combine : forall u w : list ef, vmap2 nsub u w = map (fun p => ef_sub (fst p) (snd p)) (combine u w).
Proof. reflexivity. Qed.

Section Loop.
  Variables (l : bool) (x : arr3 ef) (s : legstate (T := ef)).
  Lemma leg_loop_ends : forall fuel itr, (itr + fuel = leg_max_itr)%nat -> (0 < fuel)%nat ->
    (forall j, (1 <= j <= itr)%nat -> exists d, leg_moved (leg_passes l x (j - 1) s) (leg_passes l x j s) = Ok d /\ ef_ltb d (Fin (1 / 100000000)) = false) ->
    (exists n, leg_stops l x s n /\ leg_loop fuel itr l x (leg_passes l x itr s) = Ok (leg_passes l x n s, n)) \/
    (exists n, leg_breaks l x s n /\ leg_loop fuel itr l x (leg_passes l x itr s) = Err ValueError).
  Proof.
    induction fuel as [|fuel IH]; intros itr HM HP HJ; [lia|]. cbn [leg_loop].
    assert (ES : leg_pass l x (leg_passes l x itr s) = leg_passes l x (S itr) s) by reflexivity. rewrite ES.
    assert (MV : leg_moved (leg_passes l x itr s) (leg_passes l x (S itr) s) =
      (let '(q, _, _, _) := leg_passes l x itr s in let '(q', _, _, _) := leg_passes l x (S itr) s in sp_norm (vmap2 nsub q q'))).
    { unfold leg_moved. destruct (leg_passes l x itr s) as [[[q b] v] lv], (leg_passes l x (S itr) s) as [[[q' b'] v'] lv']. rewrite diff_combine. reflexivity. }
    assert (IHn := IH (S itr)). destruct (leg_passes l x itr s) as [[[q b] v] lv] eqn:E1, (leg_passes l x (S itr) s) as [[[q' b'] v'] lv'] eqn:E2. clear IH.
    destruct (norm_cases (vmap2 nsub q q')) as [[d Hd]|Hd]; rewrite Hd in *; cbn [bind].
    - rewrite epsilon_val. change (nltb d (Fin (1 / 100000000))) with (ef_ltb d (Fin (1 / 100000000))).
      destruct (ef_ltb d (Fin (1 / 100000000))) eqn:Ed.
      + left. exists (S itr). rewrite E2. split; [|reflexivity]. split; [change (50 * 100)%nat with leg_max_itr; lia|]. split.
        * exists d. rewrite Nat.sub_succ, Nat.sub_0_r, E1, E2. split; [exact MV|left; exact Ed].
        * intros j Hj. apply HJ. lia.
      + destruct (Nat.leb leg_max_itr (S itr)) eqn:EM.
        * left. exists (S itr). rewrite E2. split; [|reflexivity]. apply Nat.leb_le in EM. split; [change (50 * 100)%nat with leg_max_itr; lia|]. split.
          -- exists d. rewrite Nat.sub_succ, Nat.sub_0_r, E1, E2. split; [exact MV|right]. change (50 * 100)%nat with leg_max_itr. lia.
          -- intros j Hj. apply HJ. lia.
        * apply Nat.leb_gt in EM. apply IHn; [lia|lia|]. intros j Hj. destruct (Nat.eq_dec j (S itr)) as [->|Ne]; [|apply HJ; lia].
          exists d. rewrite Nat.sub_succ, Nat.sub_0_r, E1, E2. split; [exact MV|exact Ed].
    - right. exists (S itr). split; [|reflexivity]. split; [change (50 * 100)%nat with leg_max_itr; lia|]. split.
      + rewrite Nat.sub_succ, Nat.sub_0_r, E1, E2. exact MV.
      + intros j Hj. apply HJ. lia.
  Qed.
End Loop.

Lemma run_ends : forall (rd : reader ef) k o m0, kw_rej k = false -> run_modeling MOS rd k = Ok m0 -> dR (mr_raw m0) = 1%nat ->
  (exists n q b v lv m, leg_stops (log_of o) (mr_raw m0) (leg_start (mr_raw m0)) n /\
     leg_passes (log_of o) (mr_raw m0) n (leg_start (mr_raw m0)) = (q, b, v, lv) /\
     leg_run_modeling rd k o = Ok m /\
     or_quality m = postprocess k (fst (leg_center (force_of o) q b)) /\ or_bias m = Some (snd (leg_center (force_of o) q b)) /\
     or_incons m = Some v /\ or_observers m = mr_observers m0) \/
  (exists n, leg_breaks (log_of o) (mr_raw m0) (leg_start (mr_raw m0)) n /\ leg_run_modeling rd k o = Err ValueError).
Proof.
  intros rd k o m0 K H R1. destruct (mos_run_parts _ _ _ H) as (pp & Hpp & Er & _ & Eo). rewrite Er in *.
  unfold leg_run_modeling. rewrite K, Hpp. cbn [negb assert_ bind]. rewrite R1. cbn [Nat.eqb assert_ bind]. fold (log_of o) (force_of o).
  assert (P0 : (0 < leg_max_itr)%nat) by (unfold leg_max_itr; lia).
  destruct (leg_loop_ends (log_of o) (pp_arr pp) (leg_start (pp_arr pp)) leg_max_itr 0 ltac:(lia) P0 ltac:(intros; lia)) as [(n & Hs & Hl)|(n & Hb & Hl)].
  - left. change (leg_passes (log_of o) (pp_arr pp) 0 (leg_start (pp_arr pp))) with (leg_start (pp_arr pp)) in Hl. rewrite Hl. cbn [bind].
    destruct (leg_passes (log_of o) (pp_arr pp) n (leg_start (pp_arr pp))) as [[[q b] v] lv] eqn:E. exists n, q, b, v, lv.
    destruct (leg_center (force_of o) q b) as [q' b'] eqn:Ec. unfold finish. rewrite Eo. cbn [bind]. eexists. split; [exact Hs|]. split; [exact E|]. split; [reflexivity|]. cbn [fst snd]. repeat split.
  - right. exists n. split; [exact Hb|]. change (leg_passes (log_of o) (pp_arr pp) 0 (leg_start (pp_arr pp))) with (leg_start (pp_arr pp)) in Hl. rewrite Hl. reflexivity.
Qed.
Lemma c81_rejection : forall (rd : reader ef) k o, kw_rej k = true -> leg_run_modeling rd k o = Err AssertionError.
Proof. intros rd k o K. unfold leg_run_modeling. rewrite K. reflexivity. Qed.
Lemma c81_repetitions : forall (rd : reader ef) k o m0, kw_rej k = false -> run_modeling MOS rd k = Ok m0 -> dR (mr_raw m0) <> 1%nat ->
  leg_run_modeling rd k o = Err AssertionError.
Proof.
  intros rd k o m0 K H R1. destruct (mos_run_parts _ _ _ H) as (pp & Hpp & Er & _ & Eo).
  unfold leg_run_modeling. rewrite K, Hpp. cbn [negb assert_ bind]. rewrite Er in R1. apply Nat.eqb_neq in R1. rewrite R1. reflexivity.
Qed.
Lemma c81_start : forall x, finite_votes x -> exists q b v lv, leg_start x = (q, b, v, lv) /\
  length q = dE x /\ length b = dS x /\ length v = dS x /\ length lv = dS x /\
  (forall e, (e < dE x)%nat -> is_mean (nth e q NaN) (video_votes x e)) /\
  (forall i, (i < dS x)%nat -> nth i b NaN = Fin 0) /\
  (forall i, (i < dS x)%nat -> is_pop_std (nth i v NaN) (subject_residuals x (fun e => Rmean (video_votes x e)) i)) /\
  (forall i, (i < dS x)%nat -> nth i lv NaN = ef_ln (nth i v NaN)).
Proof.
  intros x F. unfold leg_start. cbv zeta. do 4 eexists. split; [reflexivity|].
  assert (Eq : along1 np_nanmean (stack1 x) = map (fun e => nanmeanR (video_votes x e)) (seq 0 (dE x))) by (apply mean_rows; exact F).
  rewrite Eq. set (q := map (fun e => nanmeanR (video_votes x e)) (seq 0 (dE x))).
  assert (LA : length (along0 (np_nanstd 0) (stack0 (minus_quality x q))) = dS x) by apply along0_length.
  split; [unfold q; rewrite map_length, seq_length; reflexivity|]. split; [apply repeat_length|]. split; [exact LA|]. split; [rewrite map_length; exact LA|].
  split; [intros e He; unfold q; rewrite nth_map_seq by lia; apply nanmean_is|].
  split; [intros i Hi; unfold zeros; rewrite (nth_indep _ NaN nzero) by (rewrite repeat_length; exact Hi); apply nth_repeat|].
  split.
  - intros i Hi. rewrite (subject_spread x F q (fun e => Rmean (video_votes x e))); [apply pop_std| |exact Hi].
    intros e He Re. unfold q. rewrite nth_map_seq by lia. apply nanmeanR_ne. apply rated_votes. exact Re.
  - intros i Hi. rewrite nth_map_ef by lia. reflexivity.
Qed.

(** Rated videos only. *)
Lemma refresh_nan_at : forall (u w : list ef) i, nth i u NaN = NaN -> nth i (refresh u w) NaN = NaN.
Proof.
  intros u w i E. destruct (Nat.lt_ge_cases i (length (refresh u w))) as [L|L]; [|apply nth_overflow; exact L].
  rewrite len_refresh in L. unfold refresh. rewrite nth_vmap2 by lia. rewrite E. reflexivity.
Qed.
Lemma norm_nan : forall l : list ef, In NaN l -> sp_norm l = Err ValueError.
Proof. intros l H. unfold sp_norm. assert (E : existsb (fun y : ef => (nisnan y || nisinf y)%bool) l = true) by (apply existsb_exists; exists NaN; split; [exact H|reflexivity]). rewrite E. reflexivity. Qed.
Lemma c81_unrated : forall (rd : reader ef) k o m0, kw_rej k = false -> run_modeling MOS rd k = Ok m0 -> finite_votes (mr_raw m0) -> dR (mr_raw m0) = 1%nat ->
  (exists e, (e < dE (mr_raw m0))%nat /\ ~ rated (mr_raw m0) e) -> leg_run_modeling rd k o = Err ValueError.
Proof.
  intros rd k o m0 K H F R1 (e & He & Hu). destruct (run_ends rd k o m0 K H R1) as [(n & q & b & v & lv & m & Hs & _)|(n & _ & R)]; [|exact R]. exfalso.
  set (x := mr_raw m0) in *. destruct (c81_start x F) as (q0 & b0 & v0 & l0 & Es & Lq & _ & _ & _ & Mq & _). rewrite Es in Hs.
  assert (E0 : nth e q0 NaN = NaN).
  { assert (V : video_votes x e = []).
    { destruct (video_votes x e) as [|y t] eqn:Ev; [reflexivity|]. exfalso. apply Hu. assert (In y (video_votes x e)) by (rewrite Ev; left; reflexivity).
      apply video_votes_In in H0 as (s & r & Hi & Hr & E). exists s, r, y. split; [unfold inside; lia|exact E]. }
    destruct (Mq e He) as [[_ Z]|[Z _]]; [exact Z|contradiction]. }
  assert (Hb : leg_moved (leg_passes (log_of o) x 0 (q0, b0, v0, l0)) (leg_passes (log_of o) x 1 (q0, b0, v0, l0)) = Err ValueError).
  { cbn [leg_passes Nat.iter]. unfold leg_passes. cbn [Nat.iter nat_rect]. unfold leg_moved, leg_pass. apply norm_nan.
    set (w := leg_quality _ _ _ _). assert (Lw : length w = dE x). { unfold w, leg_quality. rewrite len_refresh, len_vmap2, !len_sum_s. cbn [one_or_nan map3 dE]. lia. }
    apply in_map_iff. exists (nth e q0 NaN, nth e w NaN). split; [cbn [fst snd]; rewrite E0; reflexivity|].
    rewrite <- combine_nth by lia. apply nth_In. rewrite combine_length. lia. }
  destruct Hs as (Hn & (d & Hd & _) & Hj). destruct (Nat.eq_dec n 1) as [->|Ne].
  - cbn [Nat.sub] in Hd. rewrite Hb in Hd. discriminate.
  - destruct (Hj 1%nat ltac:(lia)) as (d' & Hd' & _). cbn [Nat.sub] in Hd'. rewrite Hb in Hd'. discriminate.
Qed.

(** Centred biases. *)
Lemma presents_shift : forall (mu : R) l, presents (map (fun y => ef_sub y (Fin mu)) l) = map (fun r => r - mu) (presents l).
Proof. intros mu l. induction l as [|[r| | |] l IH]; cbn; try exact IH; try (f_equal; exact IH). Qed.
Lemma presents_drop : forall l, presents (map (fun y => ef_sub y NaN) l) = [].
Proof. intro l. induction l as [|[r| | |] l IH]; cbn; first [reflexivity|exact IH]. Qed.
Lemma center_centred : forall q b, allfinnan b -> centred q b (fst (leg_center true q b)) (snd (leg_center true q b)).
Proof.
  intros q b F. unfold leg_center, centred. cbv zeta. cbn [fst snd]. rewrite np_nanmean_finnan by exact F. rewrite !map_length. split; [reflexivity|]. split; [reflexivity|]. split; [|split].
  - change (fun y : ef => nsub y (nanmeanR (presents b))) with (fun y => ef_sub y (nanmeanR (presents b))).
    destruct (presents b) as [|r l] eqn:E.
    + cbn [nanmeanR]. rewrite presents_drop. reflexivity.
    + rewrite nanmeanR_ne by discriminate. rewrite presents_shift, E. rewrite Rsum_map_sub. rewrite map_id, Rsum_map_const. unfold Rmean. field.
      apply not_0_INR. discriminate.
  - intros i Hi. destruct (Nat.lt_ge_cases i (length b)) as [L|L]; [|apply nth_overflow; rewrite map_length; exact L]. rewrite nth_map_ef by exact L. rewrite Hi. reflexivity.
  - intros e i t u Ht Hu.
    assert (P : presents b <> []).
    { assert (Hi : (i < length b)%nat) by (destruct (Nat.lt_ge_cases i (length b)) as [L|L]; [exact L|rewrite nth_overflow in Hu by exact L; discriminate]).
      assert (J : In u (presents b)) by (apply presents_In; rewrite <- Hu; apply nth_In; exact Hi). intro Z. rewrite Z in J. contradiction. }
    assert (He : (e < length q)%nat) by (destruct (Nat.lt_ge_cases e (length q)) as [L|L]; [exact L|rewrite nth_overflow in Ht by exact L; discriminate]).
    assert (Hi : (i < length b)%nat) by (destruct (Nat.lt_ge_cases i (length b)) as [L|L]; [exact L|rewrite nth_overflow in Hu by exact L; discriminate]).
    rewrite nanmeanR_ne by exact P. exists (t + Rmean (presents b)), (u - Rmean (presents b)).
    rewrite !nth_map_ef by assumption. rewrite Ht, Hu. efc. rewrite ef_sub_Fin. cbn [ef_add]. split; [reflexivity|]. split; [reflexivity|ring].
Qed.

(** Scores and biases of a run. *)
Lemma norm_finite : forall (l : list ef) d, sp_norm l = Ok d -> Forall isfin l.
Proof.
  intros l d H. unfold sp_norm in H. destruct (existsb _ l) eqn:E; [discriminate|]. apply Forall_forall. intros y Hy.
  destruct y as [r| | |]; try exact I; exfalso; (assert (T : existsb (fun y : ef => (nisnan y || nisinf y)%bool) l = true); [apply existsb_exists; eexists; split; [exact Hy|reflexivity]|]; congruence).
Qed.
Lemma moved_finite : forall q b v lv q' b' v' lv' d, length q = length q' -> leg_moved (q, b, v, lv) (q', b', v', lv') = Ok d -> Forall isfin q /\ Forall isfin q'.
Proof.
  intros q b v lv q' b' v' lv' d L H. unfold leg_moved in H. apply norm_finite in H. clear - L H. revert q' L H.
  induction q as [|y q IH]; intros [|y' q'] L H; try discriminate; [split; constructor|]. cbn [combine map] in H. inversion H as [|? ? H1 H2]; subst.
  destruct (IH q') as [A B]; [cbn in L; lia|exact H2|]. cbn [fst snd] in H1. destruct y, y'; cbn in H1; try contradiction; split; constructor; try exact I; assumption.
Qed.
Lemma bias_finnan : forall x q b, finite_votes x -> length q = dE x -> Forall isfin q -> allfinnan b -> allfinnan (leg_bias x q b).
Proof.
  intros x q b F L Hq Hb.
  assert (Q : forall e, (e < dE x)%nat -> vat q e = Fin (toR (vat q e))).
  { intros e He. assert (G : isfin (vat q e)) by (rewrite Forall_forall in Hq; apply Hq, nth_In; lia). destruct (vat q e); cbn in G; try contradiction. reflexivity. }
  assert (D1 : derived x (minus_quality x q) (fun e _ w => w - toR (vat q e))).
  { split; [reflexivity|split; [reflexivity|split; [reflexivity|]]]. intros e i r HI. cbn [map3 at3 minus_quality]. assert (HX := F e i r HI).
    destruct (at3 x e i r) as [w| | |] eqn:E; try contradiction; [|reflexivity]. rewrite (Q e) at 1 by apply HI. efc. apply ef_sub_Fin. }
  assert (D2 : derived x (one_or_nan x) (fun _ _ _ => 1)).
  { split; [reflexivity|split; [reflexivity|split; [reflexivity|]]]. intros e i r HI. cbn [map3 at3 one_or_nan]. assert (HX := F e i r HI).
    destruct (at3 x e i r) as [w| | |] eqn:E; try contradiction; reflexivity. }
  unfold leg_bias. rewrite (sum_e_derived x _ _ F D1), (sum_e_derived x _ _ F D2), vmap2_map_map.
  apply Forall_forall. intros y Hy. apply (In_nth _ _ NaN) in Hy as (i & Hi & <-). rewrite len_refresh, map_length, seq_length in Hi.
  unfold refresh. rewrite nth_vmap2 by (rewrite ?map_length, ?seq_length; lia). rewrite nth_map_seq by lia.
  assert (G : finnan (nth i b NaN)) by (unfold allfinnan in Hb; rewrite Forall_forall in Hb; apply Hb, nth_In; lia).
  unfold none_, refresh_rate, ndec. efc. rewrite ef_div_Fin by lra. rewrite ef_sub_Fin.
  destruct (voted_dec x i) as [Vi|Vi]; [lia| |].
  - assert (P : 0 < ssum x i (fun _ _ => 1)) by (apply ssum_pos_votes; [exact Vi|intros; lra]). rewrite ef_div_Fin by lra. destruct (nth i b NaN); cbn in G; try contradiction; exact I.
  - rewrite !ssum_0 by (first [lia|exact Vi]). rewrite ef_0div0. destruct (nth i b NaN); cbn in G; try contradiction; exact I.
Qed.
Lemma stops_finite : forall l x n q b v lv, finite_votes x -> leg_stops l x (leg_start x) n -> leg_passes l x n (leg_start x) = (q, b, v, lv) ->
  length q = dE x /\ length b = dS x /\ length v = dS x /\ Forall isfin q /\ allfinnan b.
Proof.
  intros l x n q b v lv F (Hn & (d & Hd & _) & Hj) E.
  assert (M : forall j, (1 <= j <= n)%nat -> exists d, leg_moved (leg_passes l x (j - 1) (leg_start x)) (leg_passes l x j (leg_start x)) = Ok d).
  { intros j J. destruct (Nat.eq_dec j n) as [->|Ne]; [eauto|]. destruct (Hj j ltac:(lia)) as (d' & Hd' & _). eauto. }
  clear Hj. destruct (c81_start x F) as (q0 & b0 & v0 & l0 & Es & Lq & Lb & Lv & Ll & _ & B0 & _). rewrite Es in *.
  assert (G : forall j, (j <= n)%nat -> forall q b v lv, leg_passes l x j (q0, b0, v0, l0) = (q, b, v, lv) -> length q = dE x /\ length b = dS x /\ length v = dS x /\ length lv = dS x /\ allfinnan b).
  { induction j as [|j IH]; intros J q1 b1 v1 l1 E1.
    - injection E1 as <- <- <- <-. repeat split; try assumption. apply Forall_forall. intros y Hy. apply (In_nth _ _ NaN) in Hy as (i & Hi & <-). rewrite B0 by lia. exact I.
    - change (leg_pass l x (leg_passes l x j (q0, b0, v0, l0)) = (q1, b1, v1, l1)) in E1.
      destruct (leg_passes l x j (q0, b0, v0, l0)) as [[[q2 b2] v2] l2] eqn:E2. destruct (IH ltac:(lia) _ _ _ _ eq_refl) as (A1 & A2 & A3 & A4 & A5).
      assert (LB : length (leg_bias x q2 b2) = dS x) by (unfold leg_bias; rewrite len_refresh, len_vmap2, !len_sum_e; cbn [minus_quality one_or_nan map3 dS]; lia).
      assert (LL : length (leg_log x q2 (leg_bias x q2 b2) v2 l2) = dS x) by (apply len_leg_log; exact A4).
      assert (LQ : forall w, length (leg_quality x q2 (leg_bias x q2 b2) w) = dE x) by (intro w; unfold leg_quality; rewrite len_refresh, len_vmap2, !len_sum_s; cbn [one_or_nan map3 dE]; lia).
      assert (Q2 : Forall isfin q2).
      { destruct (M (S j) ltac:(lia)) as (d' & Hd'). rewrite Nat.sub_succ, Nat.sub_0_r, E2 in Hd'. change (leg_passes l x (S j) (q0, b0, v0, l0)) with (leg_pass l x (leg_passes l x j (q0, b0, v0, l0))) in Hd'. rewrite E2 in Hd'.
        unfold leg_pass in Hd'. apply moved_finite in Hd'; [apply Hd'|]. rewrite LQ. exact A1. }
      assert (GB := bias_finnan x q2 b2 F A1 Q2 A5). unfold leg_pass in E1. injection E1 as <- <- <- <-.
      split; [apply LQ|]. split; [exact LB|]. split; [|split; [|exact GB]].
      + destruct l; [rewrite map_length; exact LL|]. unfold leg_incons. rewrite len_refresh, len_vmap2, !len_sum_e. cbn [residual map3 dS]. lia.
      + destruct l; [exact LL|exact A4]. }
  destruct (G n ltac:(lia) _ _ _ _ E) as (A1 & A2 & A3 & _ & A5). repeat split; try assumption.
  destruct (leg_passes l x (n - 1) (q0, b0, v0, l0)) as [[[q2 b2] v2] l2] eqn:E2. destruct (G (n - 1)%nat ltac:(lia) _ _ _ _ E2) as (L2 & _). rewrite E in Hd.
  apply moved_finite in Hd; [apply Hd|lia].
Qed.

Lemma c81_run : forall (rd : reader ef) k o m0, kw_rej k = false -> run_modeling MOS rd k = Ok m0 -> finite_votes (mr_raw m0) -> dR (mr_raw m0) = 1%nat ->
  (exists n q b v lv m q' b', leg_stops (log_of o) (mr_raw m0) (leg_start (mr_raw m0)) n /\
     leg_passes (log_of o) (mr_raw m0) n (leg_start (mr_raw m0)) = (q, b, v, lv) /\
     Forall isfin q /\ length q = dE (mr_raw m0) /\ length b = dS (mr_raw m0) /\ length v = dS (mr_raw m0) /\
     leg_run_modeling rd k o = Ok m /\
     (force_of o = false -> q' = q /\ b' = b) /\ (force_of o = true -> centred q b q' b') /\
     or_quality m = postprocess k q' /\ or_bias m = Some b' /\ or_incons m = Some v /\ or_observers m = mr_observers m0) \/
  (exists n, leg_breaks (log_of o) (mr_raw m0) (leg_start (mr_raw m0)) n /\ leg_run_modeling rd k o = Err ValueError).
Proof.
  intros rd k o m0 K H F R1. destruct (run_ends rd k o m0 K H R1) as [(n & q & b & v & lv & m & Hs & Hp & Hr & Q1 & Q2 & Q3 & Q4)|Hb]; [left|right; exact Hb].
  destruct (stops_finite _ _ _ _ _ _ _ F Hs Hp) as (L1 & L2 & L3 & Fq & Fb).
  exists n, q, b, v, lv, m, (fst (leg_center (force_of o) q b)), (snd (leg_center (force_of o) q b)).
  split; [exact Hs|]. split; [exact Hp|]. split; [exact Fq|]. split; [exact L1|]. split; [exact L2|]. split; [exact L3|]. split; [exact Hr|].
  split; [intro Z; rewrite Z; split; reflexivity|]. split; [intro Z; rewrite Z; apply center_centred; exact Fb|]. repeat split; assumption.
Qed.

Lemma c40_legacy : forall ds (rd : reader ef) k o pp, raw_reader ds = Ok rd -> preprocess rd k = Ok pp ->
  leg_run_modeling rd k o <> Err Diverges /\
  forall m, leg_run_modeling rd k o = Ok m -> exists n q b v lv, leg_stops (log_of o) (pp_arr pp) (leg_start (pp_arr pp)) n /\
    leg_passes (log_of o) (pp_arr pp) n (leg_start (pp_arr pp)) = (q, b, v, lv) /\ or_incons m = Some v.
Proof.
  intros ds rd k o pp Hd Hp. unfold leg_run_modeling. destruct (kw_rej k); cbn [negb assert_ bind]; [split; discriminate|].
  rewrite Hp. cbn [bind]. destruct (Nat.eqb (dR (pp_arr pp)) 1); cbn [assert_ bind]; [|split; discriminate]. fold (log_of o) (force_of o).
  assert (P0 : (0 < leg_max_itr)%nat) by (unfold leg_max_itr; lia).
  destruct (leg_loop_ends (log_of o) (pp_arr pp) (leg_start (pp_arr pp)) leg_max_itr 0 ltac:(lia) P0 ltac:(intros; lia)) as [(n & Hs & Hl)|(n & Hb & Hl)];
    change (leg_passes (log_of o) (pp_arr pp) 0 (leg_start (pp_arr pp))) with (leg_start (pp_arr pp)) in Hl; rewrite Hl; cbn [bind]; [|split; discriminate].
  destruct (leg_passes (log_of o) (pp_arr pp) n (leg_start (pp_arr pp))) as [[[q b] v] lv] eqn:E. destruct (leg_center (force_of o) q b) as [q' b'].
  unfold finish. destruct (MosProofs.attach_total ds rd Hd) as (ob & ->). cbn [bind]. split; [discriminate|]. intros m H. apply Ok_inj in H. subst m.
  exists n, q, b, v, lv. auto.
Qed.
