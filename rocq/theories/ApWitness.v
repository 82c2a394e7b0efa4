(** Concrete datasets for the projection solver. *)
From Coq Require Import String.
From Coq Require Import List ZArith Bool Arith Lia Reals Lra.
From Verif Require Import PyBase Num ExtReal NumPy Dataset Preproc Mos AP SpecMos SpecAp BaseProofs ExtRealProofs
  MosProofs MosWitness ApProofs Ap2Proofs Ap3Proofs Ap4Proofs Ap5Proofs Ap6Proofs Ap7Proofs Ap8Proofs.
Import ListNotations.
Local Open Scope list_scope.
Local Open Scope string_scope.

Definition w_missing : pyv ef := PNum NaN.
(** Three subjects, two videos; B did not rate the second one. *)
Definition wp_ds := w_ds [ w_dv 0 0 "v0" (OSeq false [w_vote 1; w_vote 2; w_vote 4]);
                           w_dv 0 1 "v1" (OSeq false [w_vote 3; w_missing; w_vote 5]) ].
(** One more point everywhere. *)
Definition wp1_ds := w_ds [ w_dv 0 0 "v0" (OSeq false [w_vote 2; w_vote 3; w_vote 5]);
                            w_dv 0 1 "v1" (OSeq false [w_vote 4; w_missing; w_vote 6]) ].
(** Videos swapped, first two subjects swapped. *)
Definition wp2_ds := w_ds [ w_dv 0 0 "v0" (OSeq false [w_missing; w_vote 3; w_vote 5]);
                            w_dv 0 1 "v1" (OSeq false [w_vote 2; w_vote 1; w_vote 4]) ].
(** A fourth subject without votes. *)
Definition wp3_ds := w_ds [ w_dv 0 0 "v0" (OSeq false [w_vote 1; w_vote 2; w_vote 4; w_missing]);
                            w_dv 0 1 "v1" (OSeq false [w_vote 3; w_missing; w_vote 5; w_missing]) ].
(** Complete votes; with offsets 1, 0, 3. *)
Definition wq_ds := w_ds [ w_dv 0 0 "v0" (OSeq false [w_vote 1; w_vote 2; w_vote 4]);
                           w_dv 0 1 "v1" (OSeq false [w_vote 3; w_vote 3; w_vote 5]) ].
Definition wq1_ds := w_ds [ w_dv 0 0 "v0" (OSeq false [w_vote 2; w_vote 2; w_vote 7]);
                            w_dv 0 1 "v1" (OSeq false [w_vote 4; w_vote 3; w_vote 8]) ].
Definition wq_offset (i : nat) : R := match i with 0 => 1 | 1 => 0 | _ => 3 end.
(** Noise-free votes: qualities 1, 3 and biases 0, 1, 2. *)
Definition wn_ds := w_ds [ w_dv 0 0 "v0" (OSeq false [w_vote 1; w_vote 2; w_vote 3]);
                           w_dv 0 1 "v1" (OSeq false [w_vote 3; w_vote 4; w_vote 5]) ].
Definition wn_q (e : nat) : R := match e with 0 => 1 | _ => 3 end.
Definition wn_b (i : nat) : R := match i with 0 => 0 | 1 => 1 | _ => 2 end.
(** A video nobody rated. *)
Definition wu_ds := w_ds [ w_dv 0 0 "v0" (OSeq false [w_vote 1; w_vote 2]); w_dv 0 1 "v1" (OSeq false [w_missing; w_missing]) ].

Ltac cells E S R :=
  let e := fresh "e" in let s := fresh "s" in let r := fresh "r" in let He := fresh in let Hs := fresh in let Hr := fresh in
  intros e s r (He & Hs & Hr);
  change (e < E) in He; change (s < S) in Hs; change (r < R) in Hr;
  destruct r as [|r]; [|lia];
  destruct e as [|[|e]]; [| |lia];
  (destruct s as [|[|[|[|s]]]]; try lia).

Lemma w_reads : forall ds, In ds [wp_ds; wp1_ds; wp2_ds; wp3_ds; wq_ds; wq1_ds; wn_ds; wu_ds] ->
  raw_reader ds = Ok (w_reader ds) /\ rd_arr (w_reader ds) = Ok (w_arr ds) /\ exists o, attach_observers (w_reader ds) = Ok o.
Proof. intros ds H. repeat (destruct H as [<-|H]; [repeat split; eexists; reflexivity|]). contradiction. Qed.

Lemma wp_finite : finite_votes (w_arr wp_ds). Proof. cells 2 3 1; exact I. Qed.
Lemma wp1_finite : finite_votes (w_arr wp1_ds). Proof. cells 2 3 1; exact I. Qed.
Lemma wp2_finite : finite_votes (w_arr wp2_ds). Proof. cells 2 3 1; exact I. Qed.
Lemma wp3_finite : finite_votes (w_arr wp3_ds). Proof. cells 2 4 1; exact I. Qed.
Lemma wu_finite : finite_votes (w_arr wu_ds). Proof. cells 2 2 1; exact I. Qed.
Lemma wq_complete : complete_votes (w_arr wq_ds). Proof. cells 2 3 1; exact I. Qed.
Lemma wq1_complete : complete_votes (w_arr wq1_ds). Proof. cells 2 3 1; exact I. Qed.
Lemma wn_at : forall e i r, inside (w_arr wn_ds) e i r -> at3 (w_arr wn_ds) e i r = Fin (wn_q e + wn_b i).
Proof. cells 2 3 1; cbn; unfold wn_q, wn_b; f_equal; lra. Qed.

Lemma rated_by : forall a, (exists i, forall e, e < dE a -> exists v, inside a e i 0 /\ at3 a e i 0 = Fin v) -> all_rated a.
Proof. intros a (i & H) e He. destruct (H e He) as (v & HI & E). exists i, 0, v. auto. Qed.
Lemma voted_by : forall a, (exists e, forall i, i < dS a -> exists v, inside a e i 0 /\ at3 a e i 0 = Fin v) -> all_voted a.
Proof. intros a (e & H) i Hi. destruct (H i Hi) as (v & HI & E). exists e, 0, v. auto. Qed.
Ltac rated := apply rated_by; exists 2; intros e He; change (e < 2) in He;
  destruct e as [|[|e]]; [| |lia]; eexists; (split; [repeat split; cbn; lia|reflexivity]).
Lemma wp_rated : all_rated (w_arr wp_ds). Proof. rated. Qed.
Lemma wp1_rated : all_rated (w_arr wp1_ds). Proof. rated. Qed.
Lemma wp2_rated : all_rated (w_arr wp2_ds). Proof. rated. Qed.
Lemma wp3_rated : all_rated (w_arr wp3_ds). Proof. rated. Qed.
Lemma wq_rated : all_rated (w_arr wq_ds). Proof. rated. Qed.
Lemma wq1_rated : all_rated (w_arr wq1_ds). Proof. rated. Qed.
Lemma wn_rated : all_rated (w_arr wn_ds). Proof. rated. Qed.
Lemma wp_voted : all_voted (w_arr wp_ds).
Proof.
  apply voted_by. exists 0. intros i Hi. change (i < 3) in Hi. destruct i as [|[|[|i]]]; [| | |lia]; eexists; (split; [repeat split; cbn; lia|reflexivity]).
Qed.
Lemma wu_unrated : ~ all_rated (w_arr wu_ds).
Proof.
  intro H. destruct (H 1 ltac:(cbn; lia)) as (i & r & v & (He & Hi & Hr) & E). change (i < 2) in Hi. change (r < 1) in Hr.
  destruct r; [|lia]. destruct i as [|[|i]]; [| |lia]; discriminate.
Qed.

Lemma wp_shift : transformed (affine 1 1) (w_arr wp_ds) (w_arr wp1_ds).
Proof. split; [reflexivity|]. split; [reflexivity|]. split; [reflexivity|]. cells 2 3 1; cbn; try reflexivity; f_equal; lra. Qed.
Definition swap01 (n : nat) : nat := match n with 0 => 1 | 1 => 0 | k => k end.
Lemma swap_permutes : forall n, 2 <= n -> permutes n swap01.
Proof.
  intros n Hn. split.
  - intros i Hi. destruct i as [|[|i]]; cbn; lia.
  - intros i j Hi Hj. destruct i as [|[|i]], j as [|[|j]]; cbn; lia.
Qed.
Lemma wp_swap : forall e i r, inside (w_arr wp_ds) e i r -> at3 (w_arr wp2_ds) e i r = at3 (w_arr wp_ds) (swap01 e) (swap01 i) r.
Proof. cells 2 3 1; reflexivity. Qed.
Lemma wq_offsets : offset_votes wq_offset (w_arr wq_ds) (w_arr wq1_ds).
Proof. split; [reflexivity|]. split; [reflexivity|]. split; [reflexivity|]. cells 2 3 1; cbn; f_equal; lra. Qed.
Lemma wp_idle : idle_subjects (w_arr wp_ds) (w_arr wp3_ds).
Proof.
  split; [reflexivity|]. split; [cbn; lia|]. split; [reflexivity|]. split.
  - cells 2 3 1; reflexivity.
  - cells 2 4 1; intro; try reflexivity; cbn in *; lia.
Qed.

Lemma wp3_idle_voted : ~ all_voted (w_arr wp3_ds).
Proof.
  intro H. destruct (H 3 ltac:(cbn; lia)) as (e & r & v & (He & Hi & Hr) & E). change (e < 2) in He. change (r < 1) in Hr.
  destruct r; [|lia]. destruct e as [|[|e]]; [| |lia]; discriminate.
Qed.
Lemma wp3_if_voted : forall y, if_voted (w_arr wp3_ds) 0 y = y.
Proof.
  intro y. unfold if_voted. destruct (Req_EM_T _ _) as [E|]; [|reflexivity].
  exfalso. assert (V : voted (w_arr wp3_ds) 0) by (exists 0, 0, 1%R; split; [repeat split; cbn; lia|reflexivity]).
  apply voted_count in V. lra.
Qed.

Section W.
  Context (chi : ef -> ef -> ef).
  Lemma w_run : forall c ds f, In ds [wp_ds; wp1_ds; wp2_ds; wp3_ds; wq_ds; wq1_ds; wn_ds] -> finite_votes (w_arr ds) -> all_rated (w_arr ds) ->
    exists m, ap_run_modeling chi c (w_reader ds) no_options f = Ok m.
  Proof.
    intros c ds f Hin HF HR. destruct (w_reads ds) as (_ & H2 & o & H3).
    - cbn [In] in *. intuition.
    - apply (run_ok chi c (w_reader ds) f (w_arr ds) o); assumption.
  Qed.
End W.
