(** Runs of the projection solver that end have votes that are numbers or
    missing. *)
From Coq Require Import String.
From Coq Require Import List ZArith Bool Arith Lia Reals Lra.
From Verif Require Import PyBase Num ExtReal NumPy Dataset Preproc Mos AP SpecMos SpecAp BaseProofs ExtRealProofs
  StepsProofs MosProofs ApProofs Ap2Proofs Ap3Proofs Ap4Proofs Ap5Proofs Ap6Proofs Ap7Proofs Ap8Proofs Ap9Proofs.
Import ListNotations.

Lemma add_fin : forall x y, isfin (ef_add x y) -> isfin x /\ isfin y.
Proof. intros [] []; cbn; auto. Qed.
Lemma fold_fin : forall l a, isfin (fold_left ef_add l a) -> isfin a /\ Forall isfin l.
Proof.
  induction l as [|x l IH]; intros a H; [auto|]. cbn [fold_left] in H. apply IH in H as [H1 H2]. apply add_fin in H1 as [H1 H3]. auto.
Qed.
Lemma div_fin : forall x y, isfin (ef_div x (Fin y)) -> isfin x.
Proof. intros x y H. destruct x; try exact I; cbn in H; repeat match type of H with context [if ?b then _ else _] => destruct b end; exact H. Qed.
Lemma nanmean_fin : forall l, isfin (np_nanmean l) -> Forall finnan l.
Proof.
  intros l H. unfold np_nanmean in H. apply div_fin in H. unfold np_nansum, np_sum in H. apply fold_fin in H as [_ H].
  rewrite Forall_forall in *. intros x Hx. destruct x; try exact I; (assert (K : isfin _) by (apply H; apply filter_In; split; [exact Hx|reflexivity]); exact K).
Qed.

Lemma sub_fin : forall x y, isfin (ef_sub x y) -> isfin x /\ isfin y.
Proof. intros [] []; cbn; auto. Qed.
Lemma norm_fin : forall (l : list ef) d, sp_norm l = Ok d -> Forall isfin l.
Proof.
  intros l d H. unfold sp_norm in H. destruct (existsb _ l) eqn:E; [discriminate|]. apply Forall_forall. intros x Hx.
  destruct (existsb_exists (fun x : ef => nisnan x || nisinf x) l) as [_ K]. destruct x; try exact I; exfalso; rewrite K in E; try discriminate; eexists; (split; [exact Hx|reflexivity]).
Qed.
Lemma pass_length : forall (x : arr3 ef) s b e, ap_pass x s b = Ok e -> length (es e) = dE x.
Proof.
  intros x s b e H. unfold ap_pass in H. cbv zeta in H. cbn [weighed_nanmean_2d bind] in H. apply Ok_inj in H. subst e. cbn [es]. unfold along1. rewrite map_length, seq_length. reflexivity.
Qed.
Lemma loop_fin : forall fuel itr (x : arr3 ef) s b r, length s = dE x -> ap_loop fuel itr x s b = Ok r -> Forall isfin s.
Proof.
  intros fuel itr x s b r L H. destruct fuel as [|f]; [discriminate|]. cbn [ap_loop] in H. destruct (ap_pass x s b) as [e|] eqn:P; [|discriminate]. cbn [bind] in H.
  apply pass_length in P. destruct (sp_norm _) as [d|] eqn:N; [|discriminate]. apply norm_fin in N. clear H.
  assert (G : length s = length (es e)) by congruence. clear P L. revert N G. generalize (es e). clear. induction s as [|y s IH]; intros l N G; [constructor|].
  destruct l as [|z l]; [discriminate|]. cbn [combine map fst snd] in N. inversion N as [|? ? N1 N2]; subst. constructor; [exact (proj1 (sub_fin _ _ N1))|]. apply (IH l N2). injection G. auto.
Qed.
Lemma solve_finite : forall chi alt force (x x0 : arr3 ef) m, ap_solve chi alt force x x0 = Ok m -> finite_votes x.
Proof.
  intros chi alt force x x0 m H. unfold ap_solve in H. cbv zeta in H. destruct (ap_loop _ _ _ _ _) as [r|] eqn:E; [|discriminate].
  apply loop_fin in E; [|unfold along1; rewrite map_length, seq_length; reflexivity].
  intros e s r0 (He & Hs & Hr). unfold along1 in E. rewrite Forall_forall in E.
  assert (F : isfin (np_nanmean (row (stack1 x) e))) by (apply E; apply in_map_iff; exists e; split; [reflexivity|apply in_seq; cbn; lia]).
  apply nanmean_fin in F. rewrite Forall_forall in F. apply F. unfold row. apply in_map_iff. exists (r0 * dS x + s)%nat. cbn [stack1 at2 n1]. split.
  - rewrite Nat.add_comm, Nat.mod_add, Nat.mod_small, Nat.div_add, Nat.div_small by lia. reflexivity.
  - apply in_seq. nia.
Qed.
Lemma c40_stops_all : forall chi c (rd : reader ef) k f pp m, preprocess rd k = Ok pp -> ap_run_modeling chi c rd k f = Ok m -> stops (pp_arr pp) (ap_iter m).
Proof.
  intros chi c rd k f pp m Hp H. refine (c40_stops chi c rd k f pp m Hp _ H). destruct (run_solve _ _ _ _ _ _ H) as (pp' & m1 & Ep & E & _). rewrite Hp in Ep. apply Ok_inj in Ep. subst pp'.
  exact (solve_finite _ _ _ _ _ _ E).
Qed.
