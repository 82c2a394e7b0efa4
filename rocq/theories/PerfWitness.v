(** Concrete instances for the metrics. *)
From Coq Require Import List ZArith Bool Arith Reals Lia Lra.
From Verif Require Import PyBase Num ExtReal NumPy ExtRealProofs SpecMos Preproc StepsProofs Eval Mle Perf SpecPerf PerfProofs Perf2Proofs Perf3Proofs.
Import ListNotations.
Local Open Scope R_scope.

Definition w_lstsq (A : list (ef * ef)) (v : list ef) : res (ef * ef) := Ok (Fin 2, Fin 3).
Definition w_lstsq_neg (A : list (ef * ef)) (v : list ef) : res (ef * ef) := Ok (Fin 2, Fin (-3)).
Lemma w_slope : slope w_lstsq (fun b => 0 < b) /\ slope w_lstsq (fun b => b <> 0) /\ slope w_lstsq_neg (fun b => b < 0).
Proof. repeat split; intros A v ab H; injection H as <-; do 2 eexists; (split; [reflexivity|lra]). Qed.
Lemma w_spread : has_spread [1; 2; 4] /\ has_spread [3; 1; 1].
Proof. split; [exists 1, 2|exists 3, 1]; repeat split; cbn; auto; lra. Qed.
Lemma w_extremes : smallest 1 [1; 2; 4] /\ largest 4 [1; 2; 4].
Proof. split; (split; [cbn; auto|]); intros x H; cbn in H; destruct H as [<-|[<-|[<-|[]]]]; lra. Qed.
Lemma w_triangle : distance [1; 2] [4; 6] = sqrt (25 / 2).
Proof. unfold distance. f_equal. cbn [combine map fst snd length INR]. rewrite !Rsum_cons. change (Rsum []) with 0. field. Qed.
Lemma w_positions : covered_positions [Fin 1; Fin 5; NaN] [Fin 2; Fin 2; Fin 2] [Fin 1; Fin 1; Fin 1] [Fin 1; PInf; Fin 1] 3 [0%nat; 1%nat].
Proof.
  split; [repeat constructor; cbn; intuition lia|]. intro i. split.
  - intros [<-|[<-|[]]]; (split; [lia|]); do 4 eexists; repeat split; try reflexivity; cbn; try (apply Rleb_true; lra); reflexivity.
  - intros [L (x & y & a & b & E1 & E2 & E3 & E4 & H1 & H2)]. destruct i as [|[|[|i]]]; [left; reflexivity|right; left; reflexivity| |lia].
    cbn in E1. injection E1 as <-. destruct (ef_add y b); discriminate.
Qed.
Lemma w_percentage : get_ci_percentage [Fin 1; Fin 5; NaN] [Fin 2; Fin 2; Fin 2] [[Fin 1; Fin 1; Fin 1]; [Fin 1; PInf; Fin 1]] = Ok (Fin (100 * (2 / 3))).
Proof. rewrite (c62_value [Fin 1; Fin 5; NaN] [Fin 2; Fin 2; Fin 2] [Fin 1; Fin 1; Fin 1] [Fin 1; PInf; Fin 1] _ ltac:(discriminate) eq_refl eq_refl eq_refl w_positions). do 2 f_equal. cbn. lra. Qed.
Lemma w_widening : wider [1; 0] [2; 0] /\ wider [1; 1] [1; 3] /\
  get_ci_percentage [Fin 1; Fin 5] [Fin 3; Fin 2] [map Fin [1; 0]; map Fin [1; 1]] = Ok (Fin (100 * 0)) /\
  get_ci_percentage [Fin 1; Fin 5] [Fin 3; Fin 2] [map Fin [2; 0]; map Fin [1; 3]] = Ok (Fin (100 * (2 / 2))).
Proof.
  repeat split; try (repeat constructor; lra).
  - rewrite (c62_value [Fin 1; Fin 5] [Fin 3; Fin 2] (map Fin [1; 0]) (map Fin [1; 1]) [] ltac:(discriminate) eq_refl eq_refl eq_refl); [do 2 f_equal; cbn; lra|].
    split; [constructor|]. intro i. split; [intros []|]. intros [L (x & y & a & b & E1 & E2 & E3 & E4 & H1 & H2)]. exfalso.
    destruct i as [|[|i]]; [| |cbn in L; lia]; cbn in E1, E2, E3, E4; injection E1 as <-; injection E2 as <-; injection E3 as <-; injection E4 as <-; cbn in H1, H2; apply Rleb_true in H1, H2; lra.
  - rewrite (c62_value [Fin 1; Fin 5] [Fin 3; Fin 2] (map Fin [2; 0]) (map Fin [1; 3]) [0%nat; 1%nat] ltac:(discriminate) eq_refl eq_refl eq_refl); [do 2 f_equal; cbn; lra|].
    split; [repeat constructor; cbn; intuition lia|]. intro i. split.
    + intros [<-|[<-|[]]]; (split; [cbn; lia|]); do 4 eexists; repeat split; try reflexivity; cbn; apply Rleb_true; lra.
    + intros [L _]. cbn in L. destruct i as [|[|i]]; cbn; auto; lia.
Qed.
