(** What holds in every arithmetic, binary64 included. *)
From Coq Require Import String.
From Coq Require Import List ZArith Bool Arith Lia.
From Verif Require Import PyBase Num NumPy Dataset Preproc Mos AP SpecAny.
Import ListNotations.
Local Open Scope list_scope.

Lemma ok_eq : forall A (x y : A), Ok x = Ok y -> x = y.
Proof. intros A x y H. injection H as ->. reflexivity. Qed.

Section Any.
  Context {T : Type} {N : Num T}.

  Lemma len_along1 : forall (f : list T -> T) (a : arr2 T), length (along1 f a) = n0 a.
  Proof. intros. unfold along1. rewrite map_length, seq_length. reflexivity. Qed.
  Lemma len_along0 : forall (f : list T -> T) (a : arr2 T), length (along0 f a) = n1 a.
  Proof. intros. unfold along0. rewrite map_length, seq_length. reflexivity. Qed.
  Lemma len_post : forall k (q : list T), length (postprocess k q) = length q.
  Proof.
    intros k q. unfold postprocess. destruct (kw_transform_final k) as [[[p2 p1] p0]|];
      destruct (kw_normalize_final k); rewrite ?map_length; reflexivity.
  Qed.

  Lemma nth_map_seq0 : forall A (f : nat -> A) n e, e < n -> nth_error (map f (seq 0 n)) e = Some (f e).
  Proof.
    intros A f n e H. rewrite nth_error_map. rewrite (nth_error_nth' (seq 0 n) 0) by (rewrite seq_length; exact H).
    rewrite seq_nth by exact H. reflexivity.
  Qed.

  Lemma same_row : forall (a : arr3 T) e a' e', same_votes a e a' e' -> row (stack1 a) e = row (stack1 a') e'.
  Proof.
    intros a e a' e' (_ & _ & HS & HR & H). unfold row, stack1. cbn [n1 at2]. rewrite <- HS, <- HR.
    apply map_ext_in. intros k Hk. apply in_seq in Hk.
    assert (dS a <> 0) by nia.
    apply H; [apply Nat.mod_upper_bound; assumption|]. apply Nat.div_lt_upper_bound; [assumption|nia].
  Qed.

  Lemma plain_run : forall (rd : reader T) m, run_modeling MOS rd plain = Ok m -> exists a,
    rd_arr rd = Ok a /\
    mr_quality m = along1 np_nanmean (stack1 a) /\ mr_ambiguity m = along1 (np_nanstd 1) (stack1 a) /\
    mr_std m = map (fun p => ndiv (fst p) (nsqrt (nofnat (snd p)))) (combine (along1 (np_nanstd 1) (stack1 a)) (map (fun e => np_cnt (row (stack1 a) e)) (seq 0 (dE a)))) /\
    mr_ci_lo m = map (fun x => nmul z95 x) (mr_std m) /\ mr_ci_hi m = map (fun x => nmul z95 x) (mr_std m).
  Proof.
    intros rd m H. unfold run_modeling, run_kwargs, mos_run, preprocess in H. cbn [bind] in H.
    destruct (rd_arr rd) as [a|]; [|discriminate]. cbn -[mos_and_stats attach_observers] in H.
    destruct (attach_observers rd) as [o|]; [|discriminate]. cbn -[mos_and_stats] in H. apply ok_eq in H. subst m.
    exists a. repeat split; reflexivity.
  Qed.

  Lemma nth_combine_map : forall A B C (f : nat -> A) (g : nat -> B) (h : A * B -> C) n e, e < n ->
    nth_error (map h (combine (map f (seq 0 n)) (map g (seq 0 n)))) e = Some (h (f e, g e)).
  Proof.
    intros A B C f g h n e H.
    assert (E : map h (combine (map f (seq 0 n)) (map g (seq 0 n))) = map (fun i => h (f i, g i)) (seq 0 n)).
    { generalize (seq 0 n). induction l as [|x l IH]; [reflexivity|]. cbn. rewrite IH. reflexivity. }
    rewrite E. apply (nth_map_seq0 _ (fun i => h (f i, g i))). exact H.
  Qed.

  (** The results of a video are those of its own votes. *)
  Lemma any_local : forall (rd rd' : reader T) a a' m m' e e',
    rd_arr rd = Ok a -> rd_arr rd' = Ok a' -> same_votes a e a' e' ->
    run_modeling MOS rd plain = Ok m -> run_modeling MOS rd' plain = Ok m' ->
    nth_error (mr_quality m) e = nth_error (mr_quality m') e' /\ nth_error (mr_ambiguity m) e = nth_error (mr_ambiguity m') e' /\
    nth_error (mr_std m) e = nth_error (mr_std m') e' /\ nth_error (mr_ci_lo m) e = nth_error (mr_ci_lo m') e' /\
    nth_error (mr_ci_hi m) e = nth_error (mr_ci_hi m') e' /\ nth_error (mr_quality m) e <> None.
  Proof.
    intros rd rd' a a' m m' e e' Ha Ha' HV H H'. assert (HR := same_row _ _ _ _ HV). destruct HV as (L & L' & _).
    destruct (plain_run rd m H) as (b & Hb & Q & A & S & C1 & C2). rewrite Ha in Hb. apply ok_eq in Hb. subst b.
    destruct (plain_run rd' m' H') as (b & Hb & Q' & A' & S' & C1' & C2'). rewrite Ha' in Hb. apply ok_eq in Hb. subst b.
    assert (ES : nth_error (mr_std m) e = nth_error (mr_std m') e').
    { rewrite S, S'. unfold along1. cbn [n0 stack1]. rewrite !nth_combine_map by assumption. rewrite HR. reflexivity. }
    rewrite C1, C2, C1', C2', !nth_error_map, ES, Q, Q', A, A'. unfold along1. cbn [n0 stack1].
    rewrite !nth_map_seq0 by assumption. rewrite HR. repeat split; try reflexivity. discriminate.
  Qed.

  (** Shapes after the preprocessing. *)
  Lemma pp_shape : forall (rd : reader T) k pp a, rd_arr rd = Ok a -> preprocess rd k = Ok pp ->
    dE (pp_arr pp) = dE a /\ dR (pp_arr pp) = dR a /\ pp_orig pp = a /\ (kw_rej k = false -> dS (pp_arr pp) = dS a).
  Proof.
    intros rd k pp a Ha H. unfold preprocess in H. rewrite Ha in H. cbn [bind] in H.
    destruct (if kw_rej k then _ else _) as [u|]; [|discriminate]. cbn [bind] in H.
    destruct (assert_ _); [|discriminate]. cbn [bind] in H.
    destruct (if kw_dscore k then _ else _) as [a1|] eqn:E1; [|discriminate]. cbn [bind] in H.
    assert (D1 : dE a1 = dE a /\ dS a1 = dS a /\ dR a1 = dR a).
    { destruct (kw_dscore k); [|apply ok_eq in E1; subst; auto]. destruct (ds_ref_score (rd_ds rd)) as [[rs|]|]; try discriminate.
      unfold dscore in E1. destruct (get_ref_mos _ _ _ _) as [rm|]; [|discriminate]. cbn [bind] in E1.
      destruct (Nat.eqb _ _); [|discriminate]. apply ok_eq in E1. subst a1. cbn. auto. }
    cbv zeta in H.
    set (a2 := if kw_zscore k then zscore a1 else a1) in H.
    assert (D2 : dE a2 = dE a /\ dS a2 = dS a /\ dR a2 = dR a) by (unfold a2; destruct (kw_zscore k); exact D1).
    set (a3 := if kw_bias k then remove_bias a2 (bias_estimate a2) else a2) in H.
    assert (D3 : dE a3 = dE a /\ dS a3 = dS a /\ dR a3 = dR a) by (unfold a3; destruct (kw_bias k); exact D2).
    clearbody a3. destruct (kw_rej k).
    - destruct (match kw_rejtype k with None => _ | Some t => _ end) as [[[[a4 fl] st1] st2]|] eqn:E4; [|discriminate].
      cbn [bind] in H. apply ok_eq in H. subst pp. cbn [pp_arr pp_orig].
      assert (D4 : dE a4 = dE a3 /\ dR a4 = dR a3).
      { destruct (kw_rejtype k) as [[| | |]|]; try discriminate.
        - apply ok_eq in E4. unfold reject_kurtosis in E4. cbv zeta in E4. destruct (if Nat.eqb _ _ then _ else _) as [rj ac].
          assert (E5 : a4 = select_cols a3 ac) by (exact (eq_sym (f_equal (fun z => fst (fst (fst z))) E4))). subst a4. auto.
        - unfold reject_corr in E4. destruct (observer_corr _ _) as [r|]; [|discriminate]. cbn [bind] in E4. apply ok_eq in E4.
          cbv zeta in E4. assert (E5 := f_equal (fun z => fst (fst (fst z))) E4). cbn [fst] in E5. subst a4. auto.
        - unfold reject_corr in E4. destruct (observer_corr _ _) as [r|]; [|discriminate]. cbn [bind] in E4. apply ok_eq in E4.
          cbv zeta in E4. assert (E5 := f_equal (fun z => fst (fst (fst z))) E4). cbn [fst] in E5. subst a4. auto.
        - apply ok_eq in E4. unfold reject_kurtosis in E4. cbv zeta in E4. destruct (if Nat.eqb _ _ then _ else _) as [rj ac].
          assert (E5 : a4 = select_cols a3 ac) by (exact (eq_sym (f_equal (fun z => fst (fst (fst z))) E4))). subst a4. auto. }
      destruct D3 as (X1 & X2 & X3), D4 as (Y1 & Y2). repeat split; congruence.
    - apply ok_eq in H. subst pp. cbn [pp_arr pp_orig]. destruct D3 as (X1 & X2 & X3). auto.
  Qed.

  Lemma any_lengths : forall c (rd : reader T) k a m, rd_arr rd = Ok a -> run_modeling c rd k = Ok m ->
    length (mr_quality m) = dE a /\ length (mr_std m) = dE a /\ length (mr_ci_lo m) = dE a /\ length (mr_ci_hi m) = dE a /\
    length (mr_ambiguity m) = dE a /\
    dE (mr_raw m) = dE a /\ dR (mr_raw m) = dR a /\
    dE (mr_recon m) = dE a /\ dS (mr_recon m) = dS (mr_raw m) /\ dR (mr_recon m) = dR a.
  Proof.
    intros c rd k a m Ha H. unfold run_modeling in H.
    destruct (run_kwargs c k) as [k'|]; [|discriminate]. cbn [bind] in H. unfold mos_run in H.
    destruct (preprocess rd k') as [pp|] eqn:Ep; [|discriminate]. cbn [bind] in H.
    destruct (pp_shape rd k' pp a Ha Ep) as (D1 & D2 & _ & _).
    destruct (if is_biasremv c then _ else _) as [b|]; [|discriminate]. cbn [bind] in H.
    destruct (attach_observers rd) as [o|]; [|discriminate]. cbn [bind] in H. apply ok_eq in H. subst m.
    cbn [mr_quality mr_std mr_ci_lo mr_ci_hi mr_ambiguity mr_raw mr_recon mos_and_stats mos_reconstructions dE dS dR].
    rewrite len_post, !map_length, combine_length, !map_length, !len_along1, !seq_length. cbn [n0 stack1].
    rewrite Nat.min_id. repeat split; congruence.
  Qed.

  (** The projection solver. *)
  Lemma loop_any : forall fuel itr (x : arr3 T) s b e n, ap_loop fuel itr x s b = Ok (e, n) ->
    (exists s' b', ap_pass x s' b' = Ok e) /\ itr < n <= fuel + itr.
  Proof.
    induction fuel as [|f IH]; intros itr x s b e n H; [discriminate|]. cbn [ap_loop] in H.
    destruct (ap_pass x s b) as [e1|] eqn:E1; [|discriminate]. cbn [bind] in H.
    destruct (sp_norm _) as [d|]; [|discriminate]. cbn [bind] in H.
    destruct (nltb d epsilon).
    - apply ok_eq in H. injection H as <- <-. split; [|lia]. exists s, b. exact E1.
    - destruct (Nat.leb max_itr (S itr)).
      + apply ok_eq in H. injection H as <- <-. split; [|lia]. exists s, b. exact E1.
      + destruct (IH _ _ _ _ _ _ H) as (P & L). split; [exact P|lia].
  Qed.
  Lemma loop_errors : forall fuel itr (x : arr3 T) s b, max_itr <= fuel + itr -> fuel <> 0 ->
    (exists r, ap_loop fuel itr x s b = Ok r) \/ ap_loop fuel itr x s b = Err ValueError.
  Proof.
    induction fuel as [|f IH]; intros itr x s b L HN; [contradiction|]. cbn [ap_loop].
    unfold ap_pass. cbn [weighed_nanmean_2d bind].
    match goal with |- context [sp_norm ?l] => destruct (sp_norm l) as [d|ex] eqn:E2 end.
    - cbn [bind]. destruct (nltb d epsilon); [left; eexists; reflexivity|].
      destruct (Nat.leb max_itr (S itr)) eqn:E4; [left; eexists; reflexivity|].
      apply Nat.leb_gt in E4. apply IH; lia.
    - cbn [bind]. right. unfold sp_norm in E2. destruct (existsb _ _); [|discriminate]. injection E2 as <-. reflexivity.
  Qed.

  Lemma mapM_err : forall A B (f : A -> res B) l ex, mapM f l = Err ex -> exists x, In x l /\ f x = Err ex.
  Proof.
    induction l as [|x l IH]; intros ex H; [discriminate|]. cbn [mapM] in H.
    destruct (f x) as [y|e1] eqn:E; cbn [bind] in H.
    - destruct (mapM f l) as [ys|e2]; cbn [bind] in H; [discriminate|]. injection H as <-.
      destruct (IH e2 eq_refl) as (z & Hz & Ez). exists z. split; [right; exact Hz|exact Ez].
    - injection H as <-. exists x. split; [left; reflexivity|exact E].
  Qed.
  Lemma attach_errors : forall (rd : reader T), (exists o, attach_observers rd = Ok o) \/ attach_observers rd = Err KeyError.
  Proof.
    intro rd. unfold attach_observers, get_list_observers.
    destruct (mapM os_dict (rd_dvs rd)) as [l|ex] eqn:E; cbn [bind]; [left; eexists; reflexivity|].
    destruct (mapM_err _ _ _ _ _ E) as (dv & _ & H). unfold os_dict, get_os in H.
    destruct (dv_os dv) as [o|]; cbn [bind] in H; [destruct o|]; try discriminate; injection H as <-;
      first [right; reflexivity|left; eexists; reflexivity].
  Qed.

  Context (chi : T -> T -> T).
  Lemma any_errors : forall c (rd : reader T) k f pp, preprocess rd k = Ok pp ->
    (exists m, ap_run_modeling chi c rd k f = Ok m /\ 1 <= ap_iter m <= 1000) \/
    ap_run_modeling chi c rd k f = Err ValueError \/ ap_run_modeling chi c rd k f = Err KeyError.
  Proof.
    intros c rd k f pp Hp. unfold ap_run_modeling. rewrite Hp. cbn [bind]. unfold ap_solve.
    match goal with |- context [ap_loop max_itr 0 ?x ?s ?b] =>
      destruct (loop_errors max_itr 0 x s b) as [([e n] & E)|E]; [apply Nat.le_add_r|discriminate| |]; rewrite E end.
    - destruct (loop_any _ _ _ _ _ _ _ E) as (_ & L). cbn [bind]. destruct (zero_mean _ _ _) as [s b]. cbn [bind].
      destruct (attach_errors rd) as [(o & Ho)|Ho]; rewrite Ho; cbn [bind].
      + left. eexists. split; [reflexivity|]. cbn [ap_iter]. rewrite Nat.add_0_r in L. exact L.
      + right. right. reflexivity.
    - right. left. reflexivity.
  Qed.

  Lemma any_ap_lengths : forall c (rd : reader T) k f a m, rd_arr rd = Ok a -> ap_run_modeling chi c rd k f = Ok m ->
    let E := dE a in let I := dS (ap_raw m) in
    dE (ap_raw m) = E /\ dR (ap_raw m) = dR a /\ (kw_rej k = false -> I = dS a) /\
    length (ap_quality m) = E /\ length (ap_quality_std m) = E /\ length (ap_quality_lo m) = E /\ length (ap_quality_hi m) = E /\
    length (ap_bias m) = I /\ length (ap_bias_std m) = I /\ length (ap_bias_lo m) = I /\ length (ap_bias_hi m) = I /\
    length (ap_incons m) = I /\ length (ap_incons_std m) = I /\ length (ap_incons_lo m) = I /\ length (ap_incons_hi m) = I /\
    length (ap_scores_mean m) = I /\ length (ap_scores_std m) = I.
  Proof.
    intros c rd k f a m Ha H. cbv zeta. unfold ap_run_modeling in H.
    destruct (preprocess rd k) as [pp|] eqn:Ep; [|discriminate]. cbn [bind] in H.
    destruct (pp_shape rd k pp a Ha Ep) as (D1 & D2 & _ & D4).
    destruct (ap_solve chi _ _ _ _) as [m1|] eqn:E; [|discriminate]. cbn [bind] in H.
    destruct (attach_observers rd) as [o|]; [|discriminate]. cbn [bind] in H. apply ok_eq in H. subst m.
    cbn [ap_raw ap_quality ap_quality_std ap_quality_lo ap_quality_hi ap_bias ap_bias_std ap_bias_lo ap_bias_hi ap_incons ap_incons_std ap_incons_lo ap_incons_hi ap_scores_mean ap_scores_std].
    rewrite len_post. unfold ap_solve in E.
    destruct (ap_loop _ _ _ _ _) as [[e n]|] eqn:EL; [|discriminate]. cbn [bind] in E.
    destruct (loop_any _ _ _ _ _ _ _ EL) as ((s' & b' & P) & _).
    unfold ap_pass in P. cbn [weighed_nanmean_2d bind] in P. apply ok_eq in P.
    assert (L1 : length (es e) = dE (pp_arr pp)) by (subst e; cbn [es]; rewrite len_along1; reflexivity).
    assert (L2 : length (eb e) = dS (pp_arr pp)) by (subst e; cbn [eb]; unfold bias_of; rewrite len_along0; reflexivity).
    assert (L3 : length (ev e) = dS (pp_arr pp)) by (subst e; cbn [ev]; rewrite len_along0; reflexivity).
    clear P EL. destruct (zero_mean _ (es e) (eb e)) as [s b] eqn:EZ.
    assert (L4 : length s = length (es e) /\ length b = length (eb e)).
    { unfold zero_mean in EZ. destruct (match f with Some b => b | None => true end); injection EZ as <- <-; rewrite ?map_length; auto. }
    destruct L4 as [L4 L5]. apply ok_eq in E. subst m1.
    cbn [ap_raw ap_quality ap_quality_std ap_quality_lo ap_quality_hi ap_bias ap_bias_std ap_bias_lo ap_bias_hi ap_incons ap_incons_std ap_incons_lo ap_incons_hi ap_scores_mean ap_scores_std].
    unfold quality_std, bias_std, inconsistency_std.
    rewrite ?map_length, ?combine_length, ?map_length, ?len_along0, ?len_along1, ?seq_length. cbn [n0 n1 stack0 stack1 map3 one_or_nan residual dE dS dR].
    rewrite L3, Nat.min_id, L4, L5, L1, L2. repeat split; congruence || assumption.
  Qed.
End Any.
