(** Maximum likelihood models: whole runs. *)
From Coq Require Import String.
From Coq Require Import List ZArith Bool Arith Reals Lra Lia.
From Verif Require Import PyBase Num ExtReal NumPy Dataset Preproc Mos AP Mle SpecMos SpecAp SpecMle
  BaseProofs ExtRealProofs ArrayProofs StepsProofs MosProofs ApProofs Ap2Proofs Ap6Proofs MleProofs Mle2Proofs Mle3Proofs.
Import ListNotations.
Local Open Scope list_scope.
Local Open Scope R_scope.

Lemma v_same : forall (x : arr3 ef) cids q b v a, v_original x cids q b v a = v_simplified x cids q b v a.
Proof. reflexivity. Qed.
Lemma a_same : forall (x : arr3 ef) cids C q b v a, a_original x cids C q b v a = a_simplified x cids C q b v a.
Proof. reflexivity. Qed.

Definition vecs (st : mlest ef) : vectors := (sx st, sb st, sv st, sa st).

Lemma pass_agree : forall mode pdf (x : arr3 ef) cids C q b v a st, finite_votes x -> fits x cids C ->
  regular_state x cids C (q, b, v, a) -> mle_pass mode Simplified pdf x cids C q b v a = Ok st -> regular_state x cids C (vecs st) ->
  mle_pass mode Original pdf x cids C q b v a = Ok st.
Proof.
  intros mode pdf x cids C q b v a st HF HC (p & HH & HR) H (p' & HH' & HR').
  unfold mle_pass in *. cbn [pick bind] in *. rewrite !v_same, !a_same. rewrite <- (b_agree x cids C p q b v a HF HC HH HR).
  apply Ok_inj in H. subst st. cbn [vecs sx sb sv sa] in HH'.
  match goal with |- context [x_original x cids q ?b1 ?v1 ?a1] =>
    rewrite <- (x_agree x cids C (Params (pq p) (pb p') (pv p') (pa p')) q b1 v1 a1 HF HC); [reflexivity| |exact HR'] end.
  destruct HH, HH'; constructor; cbn [pq pb pv pa]; assumption.
Qed.

Section Loop.
  Variables (mode : mlemode) (pdf : pdfkind) (x : arr3 ef) (cids : list nat) (C : nat).

  Definition one (g : gradmethod) (s : vectors) : res vectors :=
    let '(q, b, v, a) := s in do st <- mle_pass mode g pdf x cids C q b v a; Ok (vecs st).
  Lemma passes_S : forall g k s, passes mode g pdf x cids C (S k) s = do s' <- passes mode g pdf x cids C k s; one g s'.
  Proof. intros. cbn [passes]. destruct (passes mode g pdf x cids C k s) as [[[[q b] v] a]|]; reflexivity. Qed.
  Lemma passes_shift : forall g k s, passes mode g pdf x cids C (S k) s = do s' <- one g s; passes mode g pdf x cids C k s'.
  Proof.
    induction k as [|k IH]; intro s; rewrite passes_S.
    - cbn [passes bind]. destruct (one g s); reflexivity.
    - rewrite IH. destruct (one g s) as [s'|]; cbn [bind]; [|reflexivity]. rewrite passes_S. reflexivity.
  Qed.

  Lemma loop_unfold : forall g thr fuel itr q b v a, mle_loop (S fuel) itr mode g pdf thr x cids C q b v a =
    do st <- mle_pass mode g pdf x cids C q b v a;
    do d <- moved (q, b, v, a) (vecs st);
    do _ <- ll_s pdf x (sx st) (sb st) (sv st) (sa st) cids;
    if ef_ltb d thr then Ok (st, S itr)
    else if Nat.leb mle_max_itr (S itr) then Ok (st, S itr)
    else mle_loop fuel (S itr) mode g pdf thr x cids C (sx st) (sb st) (sv st) (sa st).
  Proof. reflexivity. Qed.

  Lemma loop_agree : forall thr fuel itr q b v a st n, finite_votes x -> fits x cids C ->
    mle_loop fuel itr mode Simplified pdf thr x cids C q b v a = Ok (st, n) ->
    (forall j s, (j <= n - itr)%nat -> passes mode Simplified pdf x cids C j (q, b, v, a) = Ok s -> regular_state x cids C s) ->
    (itr < n)%nat /\ mle_loop fuel itr mode Original pdf thr x cids C q b v a = Ok (st, n).
  Proof.
    intro thr. induction fuel as [|f IH]; intros itr q b v a st n HF HC H HR; [discriminate|]. rewrite loop_unfold in *.
    destruct (mle_pass mode Simplified pdf x cids C q b v a) as [st1|] eqn:E1; [|discriminate]. cbn [bind] in H.
    destruct (moved (q, b, v, a) (vecs st1)) as [d|] eqn:E2; [|discriminate]. cbn [bind] in H.
    destruct (ll_s pdf x (sx st1) (sb st1) (sv st1) (sa st1) cids) as [l|] eqn:E3; [|discriminate]. cbn [bind] in H.
    assert (One : one Simplified (q, b, v, a) = Ok (vecs st1)) by (unfold one; rewrite E1; reflexivity).
    assert (Step : (itr < n)%nat -> mle_pass mode Original pdf x cids C q b v a = Ok st1).
    { intro L. apply pass_agree; try assumption.
      - apply (HR 0%nat); [lia|reflexivity].
      - apply (HR 1%nat); [lia|]. rewrite passes_shift, One. reflexivity. }
    destruct (ef_ltb d thr) eqn:E4; [|destruct (Nat.leb mle_max_itr (S itr)) eqn:E5].
    - apply Ok_inj in H. injection H as <- <-. rewrite Step by lia. cbn [bind]. rewrite E2, E3. cbn [bind]. rewrite E4. split; [lia|reflexivity].
    - apply Ok_inj in H. injection H as <- <-. rewrite Step by lia. cbn [bind]. rewrite E2, E3. cbn [bind]. rewrite E4. split; [lia|reflexivity].
    - destruct (IH _ _ _ _ _ _ _ HF HC H) as [L E].
      + intros j s Hj P. apply (HR (S j)).
        * cut (S itr < n)%nat; [lia|]. clear - H. revert H. generalize (sx st1), (sb st1), (sv st1), (sa st1). generalize (S itr).
          induction f as [|f IHf]; intros k l0 l1 l2 l3 H; [discriminate|]. rewrite loop_unfold in H.
          destruct (mle_pass _ _ _ _ _ _ _ _ _ _) as [st2|]; [|discriminate]. cbn [bind] in H.
          destruct (moved _ _) as [d'|]; [|discriminate]. cbn [bind] in H. destruct (ll_s _ _ _ _ _ _ _); [|discriminate]. cbn [bind] in H.
          destruct (ef_ltb d' thr); [apply Ok_inj in H; injection H as <- <-; lia|].
          destruct (Nat.leb mle_max_itr (S k)); [apply Ok_inj in H; injection H as <- <-; lia|].
          apply IHf in H. lia.
        * rewrite passes_shift, One. exact P.
      + split; [lia|]. rewrite Step by lia. cbn [bind]. rewrite E2, E3. cbn [bind]. rewrite E4. exact E.
  Qed.

  Lemma loop_stops : forall g thr fuel itr q b v a st n,
    mle_loop fuel itr mode g pdf thr x cids C q b v a = Ok (st, n) ->
    (itr < n <= fuel + itr)%nat /\
    (exists q' b' v' a' d, passes mode g pdf x cids C (n - itr - 1) (q, b, v, a) = Ok (q', b', v', a') /\
       mle_pass mode g pdf x cids C q' b' v' a' = Ok st /\
       passes mode g pdf x cids C (n - itr) (q, b, v, a) = Ok (vecs st) /\
       moved (q', b', v', a') (vecs st) = Ok d /\ (ef_ltb d thr = true \/ (mle_max_itr <= n)%nat)) /\
    (forall j, (1 <= j < n - itr)%nat -> exists s1 s2 d, passes mode g pdf x cids C (j - 1) (q, b, v, a) = Ok s1 /\ passes mode g pdf x cids C j (q, b, v, a) = Ok s2 /\
       moved s1 s2 = Ok d /\ ef_ltb d thr = false).
  Proof.
    intros g thr. induction fuel as [|f IH]; intros itr q b v a st n H; [discriminate|]. rewrite loop_unfold in H.
    destruct (mle_pass mode g pdf x cids C q b v a) as [st1|] eqn:E1; [|discriminate]. cbn [bind] in H.
    destruct (moved (q, b, v, a) (vecs st1)) as [d|] eqn:E2; [|discriminate]. cbn [bind] in H.
    destruct (ll_s pdf x (sx st1) (sb st1) (sv st1) (sa st1) cids) as [l|] eqn:E3; [|discriminate]. cbn [bind] in H.
    assert (One : one g (q, b, v, a) = Ok (vecs st1)) by (unfold one; rewrite E1; reflexivity).
    assert (Last : (ef_ltb d thr = true \/ (mle_max_itr <= S itr)%nat) -> Ok (st1, S itr) = Ok (st, n) -> 
       (itr < n <= S f + itr)%nat /\
       (exists q' b' v' a' d, passes mode g pdf x cids C (n - itr - 1) (q, b, v, a) = Ok (q', b', v', a') /\
         mle_pass mode g pdf x cids C q' b' v' a' = Ok st /\
         passes mode g pdf x cids C (n - itr) (q, b, v, a) = Ok (vecs st) /\
         moved (q', b', v', a') (vecs st) = Ok d /\ (ef_ltb d thr = true \/ (mle_max_itr <= n)%nat)) /\
       (forall j, (1 <= j < n - itr)%nat -> exists s1 s2 d, passes mode g pdf x cids C (j - 1) (q, b, v, a) = Ok s1 /\ passes mode g pdf x cids C j (q, b, v, a) = Ok s2 /\
         moved s1 s2 = Ok d /\ ef_ltb d thr = false)).
    { intros Why K. apply Ok_inj in K. injection K as <- <-. split; [lia|]. split; [|intros; lia].
      exists q, b, v, a, d. replace (S itr - itr - 1)%nat with 0%nat by lia. replace (S itr - itr)%nat with 1%nat by lia.
      split; [reflexivity|]. split; [exact E1|]. split; [rewrite passes_shift, One; reflexivity|]. split; [exact E2|exact Why]. }
    destruct (ef_ltb d thr) eqn:E4; [apply Last; [left; reflexivity|exact H]|].
    destruct (Nat.leb mle_max_itr (S itr)) eqn:E5; [apply Last; [right; apply Nat.leb_le; exact E5|exact H]|].
    destruct (IH _ _ _ _ _ _ _ H) as (L & (q' & b' & v' & a' & d' & P1 & P2 & P3 & P4 & P5) & J). split; [lia|]. split.
    - exists q', b', v', a', d'. replace (n - itr - 1)%nat with (S (n - S itr - 1)) by lia. replace (n - itr)%nat with (S (n - S itr)) by lia.
      rewrite !passes_shift, One. cbn [bind]. change (sx st1, sb st1, sv st1, sa st1) with (vecs st1) in *. auto 10.
    - intros j Hj. destruct (Nat.eq_dec j 1) as [->|N].
      + exists (q, b, v, a), (vecs st1), d. split; [reflexivity|]. split; [rewrite passes_shift, One; reflexivity|]. split; assumption.
      + destruct (J (j - 1)%nat) as (s1 & s2 & d2 & Q1 & Q2 & Q3); [lia|]. exists s1, s2, d2.
        replace (j - 1)%nat with (S (j - 1 - 1)) at 1 by lia. replace j with (S (j - 1)) at 2 by lia. rewrite !passes_shift, One. cbn [bind].
        change (sx st1, sb st1, sv st1, sa st1) with (vecs st1) in *. auto.
  Qed.
End Loop.
