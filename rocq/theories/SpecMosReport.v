(** Specification vocabulary for the other entries of MOS results, and for the
    values the likelihood models start from. *)
From Coq Require Import String.
From Coq Require Import List ZArith Bool Arith Reals.
From Verif Require Import PyBase Num ExtReal NumPy Dataset Preproc Mos AP Mle SpecMos SpecAp SpecMle.
Import ListNotations.
Local Open Scope R_scope.

(** Sample standard deviation. *)
Definition sstd (l : list R) : R := sqrt (sumsq (Rmean l) l / (INR (length l) - 1)).
(** Log-likelihood of the votes of a video under the normal distribution with
    their mean and standard deviation; a video without spread contributes 0. *)
Definition video_ll (l : list R) : R :=
  if Req_EM_T (sumsq (Rmean l) l) 0 then 0 else Rsum (map (fun v => log_density v (Rmean l) (sstd l)) l).
Definition mos_ll (x : arr3 ef) : R := Rsum (map (fun e => video_ll (video_votes x e)) (seq 0 (dE x))).

(** The classes that remove bias. *)
Definition removing_bias (c : mosclass) : Prop := c = BR_MOS \/ c = BR_SR_MOS \/ c = BR_SR_MOS_PCC \/ c = BR_SR_MOS_SRCC.

(** The result dictionary of a MOS class.  [a0]: the votes as read. *)
Record mos_report (c : mosclass) (rd : reader ef) (a0 : arr3 ef) (m : mosres ef) : Prop := MosReport {
  mp_dims : dE (mr_raw m) = dE a0 /\ dR (mr_raw m) = dR a0 /\ (dS (mr_raw m) <= dS a0)%nat;
  mp_lengths : length (mr_quality m) = dE a0 /\ length (mr_ambiguity m) = dE a0 /\ length (mr_std m) = dE a0 /\
    length (mr_ci_lo m) = dE a0 /\ length (mr_ci_hi m) = dE a0;
  mp_entries : forall e, (e < dE a0)%nat -> mos_entry_ok (nth e (mr_quality m) NaN) (nth e (mr_ambiguity m) NaN) (nth e (mr_std m) NaN)
    (nth e (mr_ci_lo m) NaN) (nth e (mr_ci_hi m) NaN) (video_votes (mr_raw m) e);
  mp_recon : dE (mr_recon m) = dE (mr_raw m) /\ dS (mr_recon m) = dS (mr_raw m) /\ dR (mr_recon m) = dR (mr_raw m) /\
    forall e i r, inside (mr_raw m) e i r -> at3 (mr_recon m) e i r = nth e (mr_quality m) NaN;
  mp_dof : forall n, (removing_bias c -> n = (2 * dE a0 + dS a0 * dR a0)%nat) -> (~ removing_bias c -> n = (2 * dE a0)%nat) ->
    mr_dof m = ef_div (Fin (INR n)) (Fin (total_votes a0));
  mp_ll : mr_ll m = ef_div (Fin (mos_ll (mr_raw m))) (Fin (total_votes (mr_raw m)));
  mp_aic : mr_aic m = ef_sub (ef_mul (Fin 2) (mr_dof m)) (ef_mul (Fin 2) (mr_ll m));
  mp_bic : mr_bic m = ef_sub (ef_mul (ef_ln (Fin (total_votes a0))) (mr_dof m)) (ef_mul (Fin 2) (mr_ll m));
  mp_bias : (removing_bias c <-> mr_bias m <> None) /\ forall b, mr_bias m = Some b -> length b = dS a0;
  mp_observers : forall o, get_list_observers (rd_dvs rd) = Ok o -> mr_observers m = Some o;
  mp_no_observers : forall e, get_list_observers (rd_dvs rd) = Err e -> mr_observers m = None }.

(** What the votes of a subject (of a content) leave over above q. *)
Definition subject_residuals (x : arr3 ef) (q : nat -> R) (i : nat) : list R :=
  flat_map (fun e => flat_map (fun r => match at3 x e i r with Fin y => [y - q e] | _ => [] end) (seq 0 (dR x))) (seq 0 (dE x)).
Definition content_residuals (x : arr3 ef) (cid : nat -> nat) (q : nat -> R) (c : nat) : list R :=
  flat_map (fun e => if Nat.eqb (cid e) c
                     then flat_map (fun i => flat_map (fun r => match at3 x e i r with Fin y => [y - q e] | _ => [] end) (seq 0 (dR x))) (seq 0 (dS x))
                     else []) (seq 0 (dE x)).
(** Population standard deviation, missing without values. *)
Definition is_pop_std (y : ef) (l : list R) : Prop := (l = [] /\ y = NaN) \/ (l <> [] /\ y = Fin (sqrt (pvar l))).
