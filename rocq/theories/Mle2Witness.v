(** More on the concrete dataset of the maximum likelihood models. *)
From Coq Require Import String.
From Coq Require Import List ZArith Bool Arith Reals Lra Lia.
From Verif Require Import PyBase Num ExtReal NumPy Dataset Preproc Mos AP Mle SpecMos SpecAp SpecMle BaseProofs ExtRealProofs
  ArrayProofs StepsProofs MosProofs MosWitness ApProofs Ap2Proofs ApWitness MleProofs Eval MleWitness.
Import ListNotations.
Local Open Scope R_scope.

Lemma wf_total : total_votes (w_arr wf_ds) = 4.
Proof.
  unfold total_votes, vcount, vsum, vote_term. change (dE (w_arr wf_ds)) with 2%nat. change (dS (w_arr wf_ds)) with 2%nat. change (dR (w_arr wf_ds)) with 1%nat.
  cbn [seq map Rsum].
  change (at3 (w_arr wf_ds) 0 0 0) with (Fin 4). change (at3 (w_arr wf_ds) 0 1 0) with (Fin 2).
  change (at3 (w_arr wf_ds) 1 0 0) with (Fin 1). change (at3 (w_arr wf_ds) 1 1 0) with (Fin 3). cbn. unfold Rsum. cbn. lra.
Qed.
Lemma wf_dof : ef_div (Fin (INR (parameters ContentOblivious (dE (w_arr wf_ds)) (dS (w_arr wf_ds)) 2 (dR (w_arr wf_ds))))) (Fin (total_votes (w_arr wf_ds))) = Fin (6 / 4).
Proof. rewrite wf_total. change (parameters _ _ _ _ _) with 6%nat. rewrite ef_div_Fin by lra. f_equal. cbn. lra. Qed.

(** One pass of the default mode with positive ambiguities. *)
Lemma wd_b : b_simplified (w_arr wf_ds) [0; 0]%nat wf_q wf_b wf_v wf_v = ([Fin 0; Fin 0], [Fin 1; Fin 1]).
Proof. efcbv. ev. efred. ev. reflexivity. Qed.
Lemma wd_v : fst (v_simplified (w_arr wf_ds) [0; 0]%nat wf_q wf_b wf_v wf_v) = [Fin 0; Fin 0].
Proof. efcbv. ev. efred. ev. reflexivity. Qed.
Definition wd_v1 : list ef := [Fin (9 / 10); Fin (9 / 10)].
Lemma wd_refresh_v : clip0 (refresh wf_v [Fin 0; Fin 0]) = wd_v1.
Proof. efcbv. ev. unfold nmaximum. efcbv. ev. cbn. ev. reflexivity. Qed.

Definition wd_p : params := Params (fun e => match e with O => 3 | _ => 2 end) (fun _ => 0) (fun _ => 1) (fun _ => 1).
Definition wd_p1 : params := Params (fun e => match e with O => 3 | _ => 2 end) (fun _ => 0) (fun _ => 9 / 10) (fun _ => 1).
Ltac hold_cells := split; try reflexivity;
  [ intros e He _; change (e < 2)%nat in He; destruct e as [|[|e]]; [reflexivity|reflexivity|lia]
  | intros e He _; change (e < 2)%nat in He; destruct e as [|[|e]]; [reflexivity|reflexivity|lia]
  | intros e He _; change (e < 2)%nat in He; destruct e as [|[|e]]; [reflexivity|reflexivity|lia]
  | intros c (e & He & Hc & _); change (e < 2)%nat in He; destruct e as [|[|e]]; [| |lia]; cbn in Hc; subst c; reflexivity ].
Lemma wf_default_pass : exists st, mle_pass ModeDefault Simplified GaussianPdf (w_arr wf_ds) [0; 0]%nat 2 wf_q wf_b wf_v wf_v = Ok st /\
  (exists p, holds (w_arr wf_ds) [0; 0]%nat 2 p wf_q wf_b wf_v wf_v /\ regular (w_arr wf_ds) (cid_of [0; 0]%nat) p) /\
  (exists p, holds (w_arr wf_ds) [0; 0]%nat 2 p wf_q (sb st) (sv st) wf_v /\ regular (w_arr wf_ds) (cid_of [0; 0]%nat) p) /\
  content_rated (w_arr wf_ds) (cid_of [0; 0]%nat) 0.
Proof.
  unfold mle_pass. cbn [pick bind]. rewrite wd_b. cbn [fst snd]. rewrite wf_refresh_b.
  destruct (v_simplified (w_arr wf_ds) [0; 0]%nat wf_q wf_b wf_v wf_v) as [nv dv] eqn:Ev.
  assert (E : nv = [Fin 0; Fin 0]) by (change nv with (fst (nv, dv)); rewrite <- Ev; exact wd_v). subst nv.
  cbn [fst snd]. rewrite wd_refresh_v. eexists. split; [reflexivity|]. cbn [sb sv]. split; [|split].
  - exists wd_p. split; [hold_cells|]. intros e i r v _ _. unfold variance. cbn. lra.
  - exists wd_p1. split; [hold_cells|]. intros e i r v _ _. unfold variance. cbn. lra.
  - exists 0%nat. split; [cbn; lia|]. split; [reflexivity|]. exists 0%nat, 0%nat, 4. split; [repeat split; cbn; lia|reflexivity].
Qed.
