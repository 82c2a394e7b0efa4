(** The spread of the votes of a video in binary64. *)
From Coq Require Import String.
From Coq Require Import List ZArith Bool Arith Reals Lra Lia Permutation.
From Flocq Require Import Core IEEE754.BinarySingleNaN.
From Verif Require Import PyBase Num ExtReal NumPy Dataset Preproc Mos NumB64 SpecDataset SpecMos SpecB64
  BaseProofs ExtRealProofs ArrayProofs MosProofs B64Proofs B64SumProofs B64MosProofs B64StdProofs.
Import ListNotations.
Local Open Scope list_scope.
Local Open Scope R_scope.
#[local] Existing Instance b64_prec.
#[local] Existing Instance b64_emax.
#[local] Existing Instance fexp_valid.

Lemma modest_perm : forall l l', Permutation l l' -> modest l -> modest l'.
Proof. intros l l' P (H1 & H2). split; [unfold few; rewrite <- (Permutation_length P); exact H1|rewrite <- (abs_sum_perm _ _ P); exact H2]. Qed.
Lemma small_perm : forall l l', Permutation l l' -> small_whole l -> small_whole l'.
Proof. intros l l' P (H1 & H2). split; [unfold few; rewrite <- (Permutation_length P); exact H1|rewrite <- (abs_sum_perm _ _ P); exact H2]. Qed.
Lemma unanimous_perm : forall l l', Permutation l l' -> unanimous l -> unanimous l'.
Proof. intros l l' P H x y Hx Hy. apply H; eapply Permutation_in; try (apply Permutation_sym; exact P); assumption. Qed.
Lemma unanimous_or : forall l, unanimous l \/ ~ unanimous l.
Proof.
  intros [|x l]; [left; intros a b []|]. destruct (extreme (x :: l) ltac:(discriminate)) as (lo & hi & L & H & B).
  destruct (Req_dec lo hi) as [E|E].
  - left. intros a b Ha Hb. pose proof (B a Ha). pose proof (B b Hb). lra.
  - right. intro U. apply E, U; assumption.
Qed.

Section Spread.
  Variables bexp bln : b64 -> b64.
  #[local] Hint Extern 0 (Num b64) => exact (Num_b64 bexp bln) : typeclass_instances.

  Lemma run_mos_stats : forall (rd : reader b64) m, run_modeling MOS rd no_opts = Ok m ->
    exists a, rd_arr rd = Ok a /\ let x := mos_and_stats dof_mos a a in
      mr_ambiguity m = mr_ambiguity x /\ mr_std m = mr_std x /\ mr_ci_lo m = mr_ci_lo x /\ mr_ci_hi m = mr_ci_hi x.
  Proof.
    intros rd m H. unfold run_modeling, run_kwargs, mos_run, preprocess in H. cbn [bind] in H.
    destruct (rd_arr rd) as [a|ex]; [|discriminate]. exists a. split; [reflexivity|].
    cbn [bind no_opts kw_rej kw_rejtype kw_zscore kw_bias kw_dscore assert_ negb andb is_biasremv pp_arr pp_orig pp_rej] in H.
    destruct (attach_observers rd) as [o|ex]; [|discriminate]. cbn [bind] in H.
    assert (E : forall (A : Type) (x y : A), Ok x = Ok y -> x = y) by (intros A x y [= ->]; reflexivity). apply E in H. subst m.
    repeat split.
  Qed.

  Lemma stats_at : forall (a : arr3 b64) e, (e < dE a)%nat -> let x := mos_and_stats dof_mos a a in
    let s := np_nanstd 1 (row (stack1 a) e) in let sm := ndiv s (nsqrt (nofnat (np_cnt (row (stack1 a) e)))) in
    nth_error (mr_ambiguity x) e = Some s /\ nth_error (mr_std x) e = Some sm /\
    nth_error (mr_ci_lo x) e = Some (nmul z95 sm) /\ nth_error (mr_ci_hi x) e = Some (nmul z95 sm).
  Proof.
    intros a e He x s sm. unfold x, mos_and_stats. cbn [mr_ambiguity mr_std mr_ci_lo mr_ci_hi]. unfold along1. cbn [n0 stack1].
    assert (CM : forall A B C (f : A -> B) (g : A -> C) l, combine (map f l) (map g l) = map (fun z => (f z, g z)) l).
    { intros A B C f g l. induction l as [|z l IH]; [reflexivity|]. cbn. rewrite IH. reflexivity. }
    rewrite CM, !nth_error_map, nth_error_seq by exact He. cbn [option_map fst snd]. repeat split.
  Qed.

  Lemma nan_ops : forall y, ndiv b64_nan y = b64_nan /\ nmul z95 b64_nan = b64_nan.
  Proof. intro y. split; [reflexivity|]. unfold nmul. cbn [Num_b64]. destruct z95; reflexivity. Qed.

  Lemma z95_val : val (@z95 b64 (Num_b64 bexp bln)) (rnd (195996 / 100000)).
  Proof.
    unfold z95, ndec. apply (val_div bexp bln); [apply (val_ofZ bexp bln); reflexivity|apply (val_ofZ bexp bln); reflexivity|lra|].
    pose proof z95_range. rewrite Rabs_pos_eq by lra. apply Rle_lt_trans with 2; [lra|]. change 2 with (bpow radix2 1). apply bpow_lt. lia.
  Qed.

  Lemma b64_spread : forall (rd : reader b64) a m, rd_arr rd = Ok a -> run_modeling MOS rd no_opts = Ok m -> finite_votes (exact a) ->
    forall e, (e < dE a)%nat -> let vs := video_votes (exact a) e in modest vs ->
      exists s sm c, nth_error (mr_ambiguity m) e = Some s /\ nth_error (mr_std m) e = Some sm /\
        nth_error (mr_ci_lo m) e = Some c /\ nth_error (mr_ci_hi m) e = Some c /\
        ((length vs < 2)%nat -> s = b64_nan /\ sm = b64_nan /\ c = b64_nan) /\
        ((2 <= length vs)%nat -> exists v vm vc, b2ef s = Fin v /\ b2ef sm = Fin vm /\ b2ef c = Fin vc /\ 0 <= v /\ 0 <= vm /\ 0 <= vc /\
          (whole_votes a -> small_whole vs -> (v = 0 <-> unanimous vs) /\ (vm = 0 <-> unanimous vs) /\ (vc = 0 <-> unanimous vs))).
  Proof.
    intros rd a m Ha Hm HF e He vs HM. destruct (run_mos_stats rd m Hm) as (a' & Ha' & -> & -> & -> & ->). rewrite Ha in Ha'.
    assert (a' = a) as -> by (injection Ha' as <-; reflexivity). clear Ha'.
    destruct (stats_at a e He) as (N1 & N2 & N3 & N4). rewrite N1, N2, N3, N4. do 3 eexists.
    split; [reflexivity|]. split; [reflexivity|]. split; [reflexivity|]. split; [reflexivity|]. clear N1 N2 N3 N4.
    pose proof (row_finnan (exact a) e HF He) as RF. rewrite row_exact in RF.
    destruct (notnan_presents bexp bln _ RF) as (NF & NP). pose proof (presents_row (exact a) e) as PR. rewrite row_exact, <- NP in PR. fold vs in PR.
    set (l := row (stack1 a) e) in *. assert (EL : length vs = length (notnan l)) by (rewrite <- (Permutation_length PR); apply map_length).
    split; intro HL.
    - assert (E : np_nanstd 1 l = b64_nan).
      { unfold np_nanstd. destruct (Nat.leb_spec (length (notnan l)) 1) as [K|K]; [reflexivity|lia]. }
      rewrite E. destruct (nan_ops (nsqrt (nofnat (np_cnt l)))) as (O1 & O2). rewrite O1, O2. repeat split.
    - assert (HM' := modest_perm _ _ (Permutation_sym PR) HM).
      destruct (nanstd_val bexp bln l NF HM' (eq_ind _ (fun k => (2 <= k)%nat) HL _ EL)) as (t & w & T & W & (W0 & W1) & V). rewrite map_length in V.
      fold (std_of w (INR (length (notnan l) - 1))) in V. set (s := std_of w (INR (length (notnan l) - 1))) in *.
      assert (Hn : 1 <= INR (length (notnan l)) <= bpow radix2 52).
      { split; [change 1 with (INR 1); apply le_INR; lia|]. rewrite <- EL. apply few_INR, HM. }
      assert (S0 : 0 <= s) by apply std_pos.
      assert (S1 : s <= bpow radix2 1017).
      { unfold s, std_of. rewrite <- (Rabs_pos_eq (rnd (sqrt _))) by apply rnd_pos, sqrt_pos. apply rnd_le_bpow; [lia|]. rewrite Rabs_pos_eq by apply sqrt_pos.
        rewrite <- (sqrt_square (bpow radix2 1017)) by apply bpow_ge_0. apply sqrt_le_1_alt.
        apply Rle_trans with (bpow radix2 1017).
        - assert (D0 : 0 <= rnd (w / INR (length (notnan l) - 1))).
          { apply rnd_pos, Rmult_le_pos; [exact W0|]. apply Rlt_le, Rinv_0_lt_compat, lt_0_INR. lia. }
          rewrite <- (Rabs_pos_eq _ D0). apply rnd_le_bpow; [lia|]. apply div_small; [change 1 with (INR 1); apply le_INR; lia|]. rewrite Rabs_pos_eq; assumption.
        - rewrite <- bpow_plus. apply bpow_le. lia. }
      destruct (sem_facts s _ Hn S0) as (M0 & M1 & M2). set (sm := sem_of s (INR (length (notnan l)))) in *.
      destruct (ci_facts sm M0) as (C0 & C1 & C2).
      destruct (root_range _ Hn) as (R1 & R2).
      assert (VR : val (nsqrt (nofnat (np_cnt l))) (rnd (sqrt (INR (length (notnan l)))))).
      { apply (val_sqrt bexp bln); [|apply pos_INR]. apply (nofnat_val bexp bln). unfold np_cnt. rewrite <- EL. destruct HM as (HM & _). unfold few in HM. lia. }
      assert (SB : Rabs sm <= bpow radix2 1017).
      { unfold sm, sem_of. apply rnd_le_bpow; [lia|]. apply div_small; [lra|]. rewrite Rabs_pos_eq; assumption. }
      assert (VM : val (ndiv (np_nanstd 1 l) (nsqrt (nofnat (np_cnt l)))) sm).
      { apply (val_div bexp bln); [exact V|exact VR|lra|]. apply (below1024 _ 1017); [lia|exact SB]. }
      assert (VC : val (nmul z95 (ndiv (np_nanstd 1 l) (nsqrt (nofnat (np_cnt l))))) (ci_of sm)).
      { apply (val_mul bexp bln); [exact z95_val|exact VM|]. apply (below1024 _ 1018); [lia|]. apply rnd_le_bpow; [lia|]. rewrite Rabs_mult.
        change 1018%Z with (1 + 1017)%Z. rewrite bpow_plus. change (bpow radix2 1) with 2. pose proof z95_range.
        apply Rmult_le_compat; try apply Rabs_pos; [rewrite Rabs_pos_eq; lra|exact SB]. }
      exists s, sm, (ci_of sm). split; [apply val_ef, V|]. split; [apply val_ef, VM|]. split; [apply val_ef, VC|].
      split; [exact S0|]. split; [exact M0|]. split; [exact C0|]. intros HW HS.
      destruct (whole_votes_list a e HW He) as (WL & _). fold vs in WL.
      assert (WL' : wholes (map B2R (notnan l))) by (unfold wholes; rewrite PR; exact WL).
      assert (FM : forall x, In x (map B2R (notnan l)) -> generic_format radix2 fexp64 x).
      { intros x Hx. apply (vote_b64 a e x HF). apply (Permutation_in _ PR), Hx. }
      assert (LL : (2 <= length (map B2R (notnan l)))%nat) by (rewrite (Permutation_length PR); exact HL).
      destruct (whole_spread _ t w WL' (small_perm _ _ (Permutation_sym PR) HS) LL FM T W) as (Z1 & Z2).
      rewrite map_length in Z1, Z2. change (std_of w (INR (length (notnan l) - 1))) with s in Z1, Z2.
      assert (U1 : unanimous vs -> s = 0) by (intro U; apply Z1, (unanimous_perm _ _ (Permutation_sym PR) U)).
      assert (U2 : ~ unanimous vs -> bpow radix2 (-132) <= s) by (intro U; apply Z2; intro U'; apply U, (unanimous_perm _ _ PR U')).
      pose proof (bpow_gt_0 radix2 (-132)) as B1. pose proof (bpow_gt_0 radix2 (-158)) as B2.
      destruct (unanimous_or vs) as [U|U].
      + specialize (U1 U). specialize (M1 U1). specialize (C1 M1). repeat split; intros; assumption.
      + specialize (U2 U). specialize (M2 U2). specialize (C2 M2). repeat split; intro K; try contradiction; exfalso; lra.
  Qed.
End Spread.

(** ** The order of the subjects *)
Lemma b64_reordered : forall bexp bln (rd rd' : reader b64) a a' m m', rd_arr rd = Ok a -> rd_arr rd' = Ok a' ->
  @run_modeling b64 (Num_b64 bexp bln) MOS rd no_opts = Ok m -> @run_modeling b64 (Num_b64 bexp bln) MOS rd' no_opts = Ok m' ->
  whole_votes a -> whole_votes a' -> forall e e', (e < dE a)%nat -> (e' < dE a')%nat -> small_whole (video_votes (exact a) e) ->
    Permutation (video_votes (exact a) e) (video_votes (exact a') e') ->
    exists q q', nth_error (mr_quality m) e = Some q /\ nth_error (mr_quality m') e' = Some q' /\ b2ef q = b2ef q'.
Proof.
  intros bexp bln rd rd' a a' m m' Ha Ha' Hm Hm' HW HW' e e' He He' HS P.
  destruct (b64_whole bexp bln rd a m Ha Hm HW) as (_ & K). destruct (b64_whole bexp bln rd' a' m' Ha' Hm' HW') as (_ & K').
  destruct (K e He HS) as (q & Hq & Q1 & Q2). destruct (K' e' He' (small_perm _ _ P HS)) as (q' & Hq' & Q1' & Q2').
  exists q, q'. split; [exact Hq|]. split; [exact Hq'|].
  destruct (video_votes (exact a) e) as [|v l] eqn:E.
  - apply Permutation_nil in P. rewrite Q1, Q1' by auto. reflexivity.
  - rewrite Q2 by discriminate. rewrite Q2'.
    + rewrite (Rsum_perm _ _ P), (Permutation_length P). reflexivity.
    + intro E'. rewrite E' in P. apply Permutation_sym, Permutation_nil in P. discriminate.
Qed.
