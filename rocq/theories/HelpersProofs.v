(** Lemmas for claims C135 and C136: colour maps, processes, clocks. *)
From Coq Require Import String.
From Coq Require Import List ZArith Bool Arith Lia Reals Lra.
From Verif Require Import PyBase Num ExtReal Dataset Tools Extras SpecHelpers BaseProofs.
Import ListNotations.
Local Open Scope list_scope.

Definition map1 : list (option Z * string) := [(None, "r"); (None, "w"); (None, "g")]%string.
Definition map2 : list (option Z * string) :=
  [(Some 0%Z, "darkred"); (Some 15%Z, "red"); (Some 40%Z, "lightcoral"); (Some 50%Z, "white"); (Some 60%Z, "palegreen"); (Some 90%Z, "green"); (Some 100%Z, "darkgreen")]%string.
Lemma cmap_cases : forall name m, cmap_factory name = Ok m -> (name = "red2green"%string /\ m = map1) \/ (name = "red2green2"%string /\ m = map2).
Proof.
  intros name m. unfold cmap_factory. destruct (String.eqb name "red2green") eqn:E1; [intros H; injection H as <-; left; split; [apply String.eqb_eq; exact E1|reflexivity]|].
  destruct (String.eqb name "red2green2") eqn:E2; [intros H; injection H as <-; right; split; [apply String.eqb_eq; exact E2|reflexivity]|discriminate].
Qed.
Lemma cmap_known : forall name, (exists m, cmap_factory name = Ok m) <-> (name = "red2green" \/ name = "red2green2")%string.
Proof.
  intros name. split.
  - intros (m & H). apply cmap_cases in H. tauto.
  - intros [->| ->]; eexists; reflexivity.
Qed.
Lemma cmap_other : forall name, name <> "red2green"%string -> name <> "red2green2"%string -> cmap_factory name = Err AssertionError.
Proof. intros name H1 H2. unfold cmap_factory. apply String.eqb_neq in H1, H2. rewrite H1, H2. reflexivity. Qed.
Lemma stop1 : forall k n q, stop_at map1 k n q -> (k = 0 /\ n = "r"%string /\ q = 0%R) \/ (k = 1 /\ n = "w"%string /\ q = (1/2)%R) \/ (k = 2 /\ n = "g"%string /\ q = 1%R).
Proof.
  intros k n q [(z & H & _)|(H & ->)].
  - destruct k as [|[|[|[|]]]]; discriminate.
  - destruct k as [|[|[|k]]]; [| | |destruct k; discriminate]; injection H as <-; cbn [length map1 Nat.sub INR].
    + left. repeat split. lra.
    + right. left. repeat split.
    + right. right. repeat split. field.
Qed.
Lemma stop2 : forall k n q, stop_at map2 k n q -> exists z, nth_error map2 k = Some (Some z, n) /\ q = (IZR z / 100)%R.
Proof.
  intros k n q [(z & H & E)|(H & ->)]; [exists z; split; assumption|].
  destruct k as [|[|[|[|[|[|[|[|]]]]]]]]; discriminate.
Qed.
Lemma cmap_proper : forall name m, cmap_factory name = Ok m -> proper_map m /\ white_middle m.
Proof.
  intros name m H. apply cmap_cases in H. destruct H as [(_ & ->)|(_ & ->)].
  - split.
    + split; [cbn; lia|]. split; [exists "r"%string; right; split; [reflexivity|cbn; lra]|]. split; [exists "g"%string; right; split; [reflexivity|cbn; lra]|]. split.
      * intros k Hk. destruct k as [|[|[|k]]]; [| | |cbn in Hk; lia]; do 2 eexists; right; split; reflexivity.
      * intros k n q n' q' H1 H2. apply stop1 in H1. apply stop1 in H2.
        destruct H1 as [(-> & _ & ->)|[(-> & _ & ->)|(-> & _ & ->)]]; destruct H2 as [(K & _ & ->)|[(K & _ & ->)|(K & _ & ->)]]; try discriminate; lra.
    + exists 1, "w"%string. split; [reflexivity|]. split; [right; split; [reflexivity|cbn; lra]|left; reflexivity].
  - split.
    + split; [cbn; lia|]. split; [exists "darkred"%string; left; exists 0%Z; split; [reflexivity|lra]|]. split; [exists "darkgreen"%string; left; exists 100%Z; split; [reflexivity|lra]|]. split.
      * intros k Hk. destruct k as [|[|[|[|[|[|[|k]]]]]]]; [| | | | | | |cbn in Hk; lia]; do 2 eexists; left; eexists; split; reflexivity.
      * intros k n q n' q' H1 H2. apply stop2 in H1. apply stop2 in H2. destruct H1 as (z & H1 & ->). destruct H2 as (z' & H2 & ->).
        destruct k as [|[|[|[|[|[|[|k]]]]]]]; [injection H1 as <- <-; injection H2 as <- <-; lra ..| discriminate |destruct k; discriminate].
    + exists 3, "white"%string. split; [reflexivity|]. split; [left; exists 50%Z; split; [reflexivity|lra]|right; reflexivity].
Qed.
Lemma cmap_mirrored : forall m, cmap_factory "red2green" = Ok m -> mirrored m.
Proof.
  intros m H. injection H as <-. fold map1. intros k n q n' q' Hk H1 H2. apply stop1 in H1. apply stop1 in H2. cbn [length map1] in H2, Hk.
  destruct H1 as [(-> & _ & ->)|[(-> & _ & ->)|(-> & _ & ->)]]; destruct H2 as [(K & _ & ->)|[(K & _ & ->)|(K & _ & ->)]]; try discriminate; lra.
Qed.
Lemma cmap_not_mirrored : exists m, cmap_factory "red2green2" = Ok m /\ ~ mirrored m.
Proof.
  exists map2. split; [reflexivity|]. intros H.
  assert (K := H 1 "red"%string (IZR 15 / 100)%R "green"%string (IZR 90 / 100)%R ltac:(cbn; lia)).
  assert (IZR 15 / 100 + IZR 90 / 100 = 1)%R; [|lra]. apply K; left; eexists; split; reflexivity.
Qed.

Lemma process_zero : forall p, run_process p = Ok 0%Z <-> p = Exits 0%Z.
Proof.
  intros [c|e]; cbn [run_process]; [|split; discriminate]. destruct (Z.eqb_spec c 0) as [->|H]; [split; reflexivity|].
  split; [discriminate|]. intros E. injection E as E. contradiction.
Qed.
Lemma process_other : forall c, c <> 0%Z -> run_process (Exits c) = Err AssertionError.
Proof. intros c H. cbn. apply Z.eqb_neq in H. rewrite H. reflexivity. Qed.
Lemma process_start : forall e, run_process (CannotStart e) = Err e.
Proof. reflexivity. Qed.
Lemma override_ok : forall i m, (In m i -> override i m = Ok m) /\ (~ In m i -> override i m = Err AssertionError).
Proof.
  intros i m. unfold override, memb, assert_. destruct (existsb (String.eqb m) i) eqn:E.
  - split; [reflexivity|]. intros H. apply existsb_exists in E. destruct E as (x & Hx & E). apply String.eqb_eq in E. subst. contradiction.
  - split; [|reflexivity]. intros H. assert (existsb (String.eqb m) i = true); [|congruence]. apply existsb_exists. exists m. split; [exact H|apply String.eqb_refl].
Qed.
Lemma timer_ok : forall s e x, timer_interval (Fin s) (Fin e) = Fin x <-> (s + x = e)%R.
Proof. intros s e x. cbn. split; [intros H; injection H as <-; lra|intros <-; f_equal; lra]. Qed.
