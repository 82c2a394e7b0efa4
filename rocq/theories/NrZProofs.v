(** z-scored output of the Newton-Raphson Bradley-Terry model. *)
From Coq Require Import List ZArith Bool Arith Reals Lia Lra.
From Verif Require Import PyBase Num ExtReal ExtRealProofs NumPy ArrayProofs SpecMos PairedComp SpecBt BtProofs Bt2Proofs Bt3Proofs Bt5Proofs BtWitness SpecThZ ThZProofs.
Import ListNotations.
Local Open Scope list_scope.
Local Open Scope R_scope.

Lemma norm_entries : forall (l : list ef) d, sp_norm l = Ok d -> forall x, In x l -> exists r, x = Fin r.
Proof.
  intros l d H x Hx. unfold sp_norm in H. destruct (existsb _ l) eqn:E; [discriminate|].
  destruct (existsb_exists (fun x : ef => nisnan x || nisinf x) l) as [_ K].
  destruct x; [eexists; reflexivity| | |]; exfalso; rewrite K in E; try discriminate; eexists; (split; [exact Hx|reflexivity]).
Qed.
Lemma entries_vec : forall m (l : list ef), length l = m -> (forall i, (i < m)%nat -> exists r, vat l i = Fin r) -> exists x, l = vec m x.
Proof.
  intros m l L H. exists (fun i => match vat l i with Fin r => r | _ => 0 end). apply (nth_ext _ _ NaN NaN); [unfold vec; rewrite map_length, seq_length; exact L|].
  intros i Hi. rewrite L in Hi. change (vat l i = vat (vec m (fun i => match vat l i with Fin r => r | _ => 0 end)) i). rewrite vat_vec by exact Hi. destruct (H i Hi) as (r & ->). reflexivity.
Qed.
Lemma nr_loop_vec : forall pinv fuel (a : arr2 ef) g q, (0 < n0 a)%nat -> nr_loop pinv fuel a (vec (n0 a) g) = Ok q -> exists x, q = vec (n0 a) x.
Proof.
  intros pinv fuel a g q Hm. revert g. induction fuel as [|k IH]; intros g H; [discriminate|]. cbn [nr_loop] in H.
  destruct (nr_change pinv a (vec (n0 a) g)) as [c|e] eqn:C; cbn [bind] in H; [|discriminate].
  destruct (sp_norm c) as [d|e] eqn:D; cbn [bind] in H; [|discriminate].
  assert (Lc : length c = n0 a).
  { unfold nr_change in C. cbv zeta in C. destruct (pinv _) as [h|]; cbn [bind] in C; [|discriminate]. injection C as <-. rewrite app_length, map_length, seq_length. cbn [length]. lia. }
  assert (V : exists x, map (fun i => nsub (vat (vec (n0 a) g) i) (vat c i)) (seq 0 (n0 a)) = vec (n0 a) x).
  { apply entries_vec; [rewrite map_length, seq_length; reflexivity|]. intros i Hi. rewrite vat_map_seq by exact Hi. rewrite vat_vec by exact Hi.
    destruct (norm_entries c d D (vat c i)) as (r & ->); [apply nth_In; rewrite Lc; exact Hi|]. efc. rewrite ef_sub_Fin. eexists. reflexivity. }
  destruct V as (x & V). rewrite V in H. destruct (ngtb d pc_thr); [exact (IH _ H)|]. injection H as <-. exists x. reflexivity.
Qed.
Lemma nr_plain : forall pinv fuel (a : arr2 ef) q, nr_resolve pinv fuel false a = Ok q ->
  (0 < n0 a)%nat /\ exists x, q = vec (n0 a) x /\ x (n0 a - 1)%nat = 0.
Proof.
  intros pinv fuel a q H. assert (LT := c74_last pinv fuel a q H). destruct LT as (Hm & _ & L & Z). split; [exact Hm|].
  unfold nr_resolve in H. destruct (assert_ _); cbn [bind] in H; [|discriminate]. cbv zeta in H. destruct (Nat.eqb_spec (n0 a) 0) as [B|B]; [lia|].
  destruct (nr_loop _ _ _ _) as [y|e] eqn:G; cbn [bind] in H; [|discriminate]. injection H as Q.
  assert (S0 : map (fun _ : nat => nzero) (seq 0 (n0 a)) = vec (n0 a) (fun _ => 0)) by reflexivity. rewrite S0 in G.
  destruct (nr_loop_vec _ _ _ _ _ Hm G) as (x & ->).
  destruct (entries_vec (n0 a) q L) as (x' & E).
  - intros i Hi. subst q. unfold vat at 1. destruct (Nat.lt_ge_cases i (n0 a - 1)) as [A|A].
    + rewrite app_nth1 by (rewrite map_length, seq_length; exact A). change (nth i (map (vat (vec (n0 a) x)) (seq 0 (n0 a - 1))) nnan) with (vat (map (vat (vec (n0 a) x)) (seq 0 (n0 a - 1))) i).
      rewrite vat_map_seq by exact A. rewrite vat_vec by exact Hi. eexists. reflexivity.
    + rewrite app_nth2; rewrite map_length, seq_length; [|exact A]. replace (i - (n0 a - 1))%nat with 0%nat by lia. exists 0. reflexivity.
  - exists x'. split; [exact E|]. rewrite E, vat_vec in Z by lia. injection Z as Z. exact Z.
Qed.
Lemma nr_z_errors : forall pinv fuel (a : arr2 ef) e, nr_resolve pinv fuel true a = Err e <-> nr_resolve pinv fuel false a = Err e.
Proof.
  intros. unfold nr_resolve. destruct (assert_ _); cbn [bind]; [|split; intro; congruence]. cbv zeta. destruct (Nat.eqb _ _); [split; intro; congruence|].
  destruct (nr_loop _ _ _ _); cbn [bind]; split; intro; congruence.
Qed.
Lemma nr_z_run : forall pinv fuel (a : arr2 ef) q, nr_resolve pinv fuel false a = Ok q -> nr_resolve pinv fuel true a = Ok (zscored q).
Proof.
  intros pinv fuel a q. unfold nr_resolve. destruct (assert_ _); cbn [bind]; [|discriminate]. cbv zeta. destruct (Nat.eqb _ _); [discriminate|].
  destruct (nr_loop _ _ _ _); cbn [bind]; [|discriminate]. intro H. injection H as <-. reflexivity.
Qed.
Lemma nr_z_scores : forall pinv fuel (a : arr2 ef) q, nr_resolve pinv fuel false a = Ok q ->
  exists x, q = vec (n0 a) x /\ x (n0 a - 1)%nat = 0 /\
    (spread_out (n0 a) x -> exists mu d z, nr_resolve pinv fuel true a = Ok (vec (n0 a) z) /\ standardized (n0 a) mu d x z /\ z (n0 a - 1)%nat = - mu / d) /\
    (~ spread_out (n0 a) x -> nr_resolve pinv fuel true a = Ok (map (fun _ => NaN) (seq 0 (n0 a)))).
Proof.
  intros pinv fuel a q H. assert (R := nr_z_run _ _ _ _ H). destruct (nr_plain _ _ _ _ H) as (Hm & x & -> & Z). exists x. split; [reflexivity|]. split; [exact Z|]. split; intro S; rewrite R.
  - destruct (z_spread _ _ S) as (mu & d & _ & E2 & E3). rewrite E2. eexists mu, d, _. split; [reflexivity|]. split; [exact E3|]. cbv beta. rewrite Z. f_equal. ring.
  - destruct (z_equal _ _ Hm S) as (_ & E2). rewrite E2. reflexivity.
Qed.
Lemma nr_z_order : forall pinv fuel (a : arr2 ef) q, nr_resolve pinv fuel false a = Ok q ->
  exists x, q = vec (n0 a) x /\ (spread_out (n0 a) x -> exists z, nr_resolve pinv fuel true a = Ok (vec (n0 a) z) /\
    forall i j, (i < n0 a)%nat -> (j < n0 a)%nat -> z i < z j <-> x i < x j).
Proof.
  intros pinv fuel a q H. destruct (nr_z_scores _ _ _ _ H) as (x & E & _ & A & _). exists x. split; [exact E|]. intro S. destruct (A S) as (mu & d & z & R & (Hd & Hz & _) & _).
  exists z. split; [exact R|]. intros i j Hi Hj. rewrite !Hz by assumption. assert (P := Rinv_0_lt_compat d Hd). unfold Rdiv. split; intro Q.
  - apply Rmult_lt_reg_r in Q; [lra|exact P].
  - apply Rmult_lt_compat_r; [exact P|lra].
Qed.

(** One video: nothing to compare. *)
Definition wz_one : arr2 ef := Arr2 1 1 (fun _ _ => Fin 0).
Lemma wz_alone : nr_resolve jump 1 false wz_one = Ok (vec 1 (fun _ => 0)) /\ ~ spread_out 1 (fun _ => 0).
Proof.
  split; [|intros (i & j & _ & _ & N); apply N; reflexivity].
  unfold nr_resolve, wz_one. cbn [n0 n1 Nat.eqb assert_ bind nr_loop]. unfold nr_change, jump. cbn [n0 Nat.sub bind seq map app].
  assert (Z : sp_norm [Fin 0] = Ok (Fin 0)). { change [Fin 0] with (map (fun i : nat => Fin 0) (seq 0 1)). rewrite sp_norm_Fin. unfold total, Rsum. cbn. replace (0 * 0 + 0) with 0 by ring. rewrite sqrt_0. reflexivity. }
  change (@nzero ef _) with (Fin 0). rewrite Z. cbn [bind]. unfold ngtb. rewrite pc_thr_ef. efc. cbn [ef_ltb].
  destruct (Rltb (1 / 100000000) 0) eqn:B; [apply Rltb_true in B; lra|]. reflexivity.
Qed.
Lemma wz_two : spread_out 2 wb_g.
Proof. exists 0%nat, 1%nat. split; [lia|]. split; [lia|]. unfold wb_g. assert (P := ln_lt_2). lra. Qed.
