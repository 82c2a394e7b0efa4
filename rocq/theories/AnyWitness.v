(** Concrete runs in binary64 for the claims about every arithmetic. *)
From Coq Require Import String.
From Coq Require Import List ZArith Bool Arith Lia.
From Flocq Require Import Core IEEE754.BinarySingleNaN.
From Verif Require Import PyBase Num NumPy Dataset Preproc Mos AP NumB64 SpecAny SpecB64 AnyProofs B64Witness.
Import ListNotations.

Definition wa_one := wb_ds [[b_ 1; b_ 2; b_ 2]; [b_ 5; b64_nan; b_ 4]; [b_ 3; b_ 3; b_ 1]].
Definition wa_two := wb_ds [[b_ 5; b64_nan; b_ 4]; [b_ 2; b_ 1; b_ 4]].

Section W.
  Variables bexp bln : b64 -> b64.
  Let NB := Num_b64 bexp bln.
  #[local] Existing Instance NB.

  Lemma wa_loop : match (let x := wb_arr bexp bln wa_one in let s0 := along1 np_nanmean (stack1 x) in
    ap_loop max_itr 0 x s0 (bias_of x s0)) with Ok (_, n) => n | Err _ => 0 end = 19.
  Proof. vm_compute. reflexivity. Qed.

  Lemma wa_same : same_votes (wb_arr bexp bln wa_one) 1 (wb_arr bexp bln wa_two) 0.
  Proof.
    split; [apply Nat.ltb_lt; reflexivity|]. split; [apply Nat.ltb_lt; reflexivity|]. split; [reflexivity|]. split; [reflexivity|].
    intros s r Hs Hr. change (s < 3) in Hs. change (r < 1) in Hr.
    destruct r; [|lia]. do 3 (destruct s; [reflexivity|]). lia.
  Qed.

  Lemma wa_ap : exists p, ap_run_modeling (fun _ x => x) MLE_CO_AP (wb_reader bexp bln wa_one) plain None = Ok p /\ ap_iter p = 19.
  Proof.
    unfold ap_run_modeling. change (preprocess (wb_reader bexp bln wa_one) plain) with (Ok (PP (wb_arr bexp bln wa_one) (wb_arr bexp bln wa_one) None None)).
    cbn [bind pp_arr pp_orig]. unfold ap_solve. assert (L := wa_loop). cbv zeta in L. revert L.
    destruct (ap_loop max_itr 0 _ _ _) as [[e n]|]; intro L; [|discriminate]. cbn [bind].
    destruct (zero_mean true (es e) (eb e)) as [s b]. cbn [bind].
    destruct (attach_observers (wb_reader bexp bln wa_one)) as [o|] eqn:Eo; [|discriminate Eo]. cbn [bind].
    eexists. split; [reflexivity|]. exact L.
  Qed.

  Lemma plain_total : forall (rd : reader b64) a o, rd_arr rd = Ok a -> attach_observers rd = Ok o -> exists m, run_modeling MOS rd plain = Ok m.
  Proof.
    intros rd a o Ha Ho. unfold run_modeling, run_kwargs, mos_run, preprocess. cbn [bind]. rewrite Ha.
    cbn -[mos_and_stats attach_observers]. rewrite Ho. eexists. reflexivity.
  Qed.
  Lemma wa_mos : forall ds, ds = wa_one \/ ds = wa_two -> rd_arr (wb_reader bexp bln ds) = Ok (wb_arr bexp bln ds) /\
    exists m, run_modeling MOS (wb_reader bexp bln ds) plain = Ok m.
  Proof.
    intros ds H. assert (K : rd_arr (wb_reader bexp bln ds) = Ok (wb_arr bexp bln ds)) by (destruct H as [-> | ->]; reflexivity).
    split; [exact K|]. apply (plain_total _ _ None K). destruct H as [-> | ->]; reflexivity.
  Qed.
End W.

Lemma wa_runs : forall bexp bln,
  let NB := Num_b64 bexp bln in
  exists m m' p,
    same_votes (wb_arr bexp bln wa_one) 1 (wb_arr bexp bln wa_two) 0 /\
    rd_arr (wb_reader bexp bln wa_one) = Ok (wb_arr bexp bln wa_one) /\ rd_arr (wb_reader bexp bln wa_two) = Ok (wb_arr bexp bln wa_two) /\
    run_modeling MOS (wb_reader bexp bln wa_one) plain = Ok m /\ run_modeling MOS (wb_reader bexp bln wa_two) plain = Ok m' /\
    ap_run_modeling (fun _ x => x) MLE_CO_AP (wb_reader bexp bln wa_one) plain None = Ok p /\ ap_iter p = 19 /\
    dE (wb_arr bexp bln wa_one) = 3 /\ dS (wb_arr bexp bln wa_one) = 3.
Proof.
  intros bexp bln NB. destruct (wa_ap bexp bln) as (p & Hp & Hn).
  destruct (wa_mos bexp bln wa_one (or_introl eq_refl)) as (R1 & m1 & H1). destruct (wa_mos bexp bln wa_two (or_intror eq_refl)) as (R2 & m2 & H2).
  exists m1, m2, p. split; [apply wa_same|]. split; [exact R1|]. split; [exact R2|]. split; [exact H1|]. split; [exact H2|].
  split; [exact Hp|]. split; [exact Hn|]. split; reflexivity.
Qed.
