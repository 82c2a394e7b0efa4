(** Results of the bundled models fit the formatter: lengths (C61). *)
From Coq Require Import String.
From Coq Require Import List ZArith Bool Arith Lia.
From Verif Require Import PyBase BaseProofs Num NumPy Dataset PairedComp Routine Report SpecRoutine RoutineProofs Routine2Proofs Routine3Proofs Routine4Proofs Routine5Proofs.
Import ListNotations.
Local Open Scope list_scope.

Section Pc.
  Context {T : Type} {N : Num T}.

  Lemma bt_loop_len : forall fuel (alpha : arr2 T) p q, bt_loop fuel alpha p = Ok q -> length q = n0 alpha.
  Proof.
    induction fuel as [|k IH]; intros alpha p q H; cbn [bt_loop] in H; [discriminate|]. destruct (sp_norm _) as [d|]; [|discriminate]. cbn [bind] in H.
    destruct (ngtb d pc_thr); [eapply IH; exact H|]. injection H as <-. unfold bt_step, bt_normalised, bt_raw. rewrite !map_length, seq_length. reflexivity.
  Qed.
  Lemma bt_run_len : forall pinv fuel (a : arr3 T) r, bt_run pinv fuel a = Ok r -> length (bt_v r) = dE a /\ length (bt_v_std r) = dE a.
  Proof.
    intros pinv fuel a r H. unfold bt_run, bt_resolve in H. destruct (assert_ _); [|discriminate]. cbn [bind] in H. cbv zeta in H.
    destruct (Nat.eqb _ 0); [discriminate|]. destruct (bt_loop _ _ _) as [p|] eqn:E; [|discriminate]. cbn [bind] in H. apply bt_loop_len in E. cbn [n0 win_matrix] in E.
    destruct (pinv _) as [c|]; [|discriminate]. cbn [bind] in H. injection H as <-. cbn [bt_v bt_v_std]. rewrite !map_length, seq_length. auto.
  Qed.
  (** The optimiser returns a vector of the length of its start. *)
  Definition keeps_length (slsqp : (list T -> T) -> list T -> bool * list T) : Prop := forall f v, length (snd (slsqp f v)) = length v.
  Lemma th_run_len : forall cdf slsqp pinv s z (a : arr3 T) r, keeps_length slsqp -> th_run cdf slsqp pinv s z a = Ok r -> length (fst r) = dE a /\ length (snd r) = dE a.
  Proof.
    intros cdf slsqp pinv s z a r K H. unfold th_run in H. destruct (th_resolve _ _ _ _ _) as [t|] eqn:E; [|discriminate]. cbn [bind] in H.
    assert (L : length (th_v t) = dE a /\ length (th_std t) = dE a).
    { unfold th_resolve in E. destruct (assert_ (Nat.eqb _ _)); [|discriminate]. cbn [bind] in E. cbv zeta in E. destruct (Nat.eqb _ 0); [discriminate|].
      destruct (assert_ _); [|discriminate]. cbn [bind] in E. destruct (pinv _); [|discriminate]. cbn [bind] in E. injection E as <-. cbn [th_v th_std].
      rewrite K. unfold sqrt_diagonal. rewrite !map_length, !seq_length. auto. }
    destruct z; injection H as <-; cbn [fst snd]; [|exact L]. unfold zscored. rewrite !map_length. exact L.
  Qed.

  Lemma one_fits : forall refs t (r : mresult T), fits refs r -> exists out, format_output refs [t] [r] = Ok out.
  Proof.
    intros refs t r F. apply format_shape. split; [reflexivity|]. split; [constructor; [exact F|constructor]|].
    destruct (check_result_total refs r F) as [r' E]. apply completed_ok in E. destruct E as [_ C].
    intros r1 r2 p i n n' [<-|[]] [<-|[]] H1 H2. apply (cm_names _ _ _ C) in H1. apply (cm_names _ _ _ C) in H2. congruence.
  Qed.

  Lemma bt_fits : forall {K K'} pinv fuel (a : arr3 T) r refs obs (dvs : list (dvideo K K')), bt_run pinv fuel a = Ok r -> length dvs = dE a -> fits refs (named dvs (bt_report obs r)).
  Proof.
    intros K K' pinv fuel a r refs obs dvs H L. apply bt_run_len in H. destruct H as [L1 L2]. split; [|split; exact I].
    exists (bt_v r), (map dv_path dvs). cbn. rewrite map_length. unfold bt_ci. rewrite map_length. repeat split; try lia.
  Qed.
  Lemma th_fits : forall {K K'} cdf slsqp pinv s z (a : arr3 T) r refs obs (dvs : list (dvideo K K')), keeps_length slsqp -> th_run cdf slsqp pinv s z a = Ok r ->
    length dvs = dE a -> fits refs (named dvs (th_report obs r)).
  Proof.
    intros K K' cdf slsqp pinv s z a r refs obs dvs KL H L. apply th_run_len in H; [|exact KL]. destruct H as [L1 L2]. split; [|split; exact I].
    exists (fst r), (map dv_path dvs). cbn. rewrite map_length. unfold th_ci. rewrite map_length. repeat split; try lia.
  Qed.
  (** Newton-Raphson: the standard deviations are None. *)
  Lemma nr_fails : forall {K K'} pinv fuel z (a : arr3 T) q refs obs t (dvs : list (dvideo K K')), nr_run pinv fuel z a = Ok q -> length dvs = dE a ->
    format_output refs [t] [named dvs (nr_report obs q)] = Err TypeError.
  Proof.
    intros K K' pinv fuel z a q refs obs t dvs H L.
    assert (LQ : length q = dE a).
    { unfold nr_run, nr_resolve in H. destruct (assert_ _); [|discriminate]. cbn [bind] in H. cbv zeta in H. destruct (Nat.eqb_spec (n0 (win_matrix a)) 0) as [|NZ]; [discriminate|].
      destruct (nr_loop _ _ _ _); [|discriminate]. cbn [bind] in H. injection H as <-. cbn [n0 win_matrix] in *.
      destruct z; unfold zscored; rewrite ?map_length, app_length, map_length, seq_length; cbn [length]; lia. }
    unfold format_output. cbn [length Nat.eqb assert_ bind mapM]. unfold check_result, check_quality. cbn [named nr_report set_names r_quality r_names lst items bind].
    rewrite map_length, L, LQ, Nat.eqb_refl. reflexivity.
  Qed.
End Pc.
