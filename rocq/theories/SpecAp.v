(** Specification of the projection solver: alternating projection over the
    reals, stated on the votes that are present. *)
From Coq Require Import List ZArith Bool Arith Reals.
From Verif Require Import PyBase Num ExtReal NumPy AP SpecMos.
Import ListNotations.
Local Open Scope R_scope.

(** Value of a vote under f; a missing vote counts 0. *)
Definition vote_term (f : R -> R) (x : ef) : R := match x with Fin v => f v | _ => 0 end.

(** Sum over the votes for video e / of subject i. *)
Definition vsum (x : arr3 ef) (e : nat) (f : nat -> R -> R) : R :=
  Rsum (map (fun i => Rsum (map (fun r => vote_term (f i) (at3 x e i r)) (seq 0 (dR x)))) (seq 0 (dS x))).
Definition ssum (x : arr3 ef) (i : nat) (f : nat -> R -> R) : R :=
  Rsum (map (fun e => Rsum (map (fun r => vote_term (f e) (at3 x e i r)) (seq 0 (dR x)))) (seq 0 (dE x))).

(** Number of votes. *)
Definition vcount (x : arr3 ef) (e : nat) : R := vsum x e (fun _ _ => 1).
Definition scount (x : arr3 ef) (i : nat) : R := ssum x i (fun _ _ => 1).

(** Somebody rated the video; the subject rated something. *)
Definition rated (x : arr3 ef) (e : nat) : Prop := exists i r v, inside x e i r /\ at3 x e i r = Fin v.
Definition voted (x : arr3 ef) (i : nat) : Prop := exists e r v, inside x e i r /\ at3 x e i r = Fin v.
Definition all_rated (x : arr3 ef) : Prop := forall e, (e < dE x)%nat -> rated x e.
Definition all_voted (x : arr3 ef) : Prop := forall i, (i < dS x)%nat -> voted x i.

(** Estimates: quality of each video, bias of each subject. *)
Record est := Est { eq_ : nat -> R; eb_ : nat -> R }.

(** Mean difference of a subject's votes from the quality of the videos. *)
Definition mean_diff (x : arr3 ef) (q : nat -> R) (i : nat) : R := ssum x i (fun e v => v - q e) / scount x i.

(** Start: plain means. *)
Definition mean_vote (x : arr3 ef) (e : nat) : R := vsum x e (fun _ v => v) / vcount x e.
Definition start (x : arr3 ef) : est := Est (mean_vote x) (mean_diff x (mean_vote x)).

(** Root mean square residual of a subject. *)
Definition rms (x : arr3 ef) (p : est) (i : nat) : R :=
  sqrt (ssum x i (fun e v => (v - eq_ p e - eb_ p i) * (v - eq_ p e - eb_ p i)) / scount x i).

Definition weight (x : arr3 ef) (p : est) (i : nat) : R := 1 / (rms x p i * rms x p i + 1 / 100000000).

(** Next estimates: weighted mean of the debiased votes, then the biases. *)
Definition debiased_mean (x : arr3 ef) (p : est) (e : nat) : R :=
  vsum x e (fun i v => weight x p i * (v - eb_ p i)) / vsum x e (fun i _ => weight x p i).
Definition next (x : arr3 ef) (p : est) : est :=
  Est (debiased_mean x p) (mean_diff x (debiased_mean x p)).

Fixpoint iterate (x : arr3 ef) (n : nat) : est :=
  match n with O => start x | S k => next x (iterate x k) end.

(** Euclidean distance between the quality scores of iterates n and n+1. *)
Definition change (x : arr3 ef) (n : nat) : R :=
  sqrt (Rsum (map (fun e => (eq_ (iterate x n) e - eq_ (iterate x (S n)) e) *
                            (eq_ (iterate x n) e - eq_ (iterate x (S n)) e)) (seq 0 (dE x)))).

(** The solver stops after n passes: the first time the change drops below
    1e-8, at the latest after 1000. *)
Definition stops (x : arr3 ef) (n : nat) : Prop :=
  (1 <= n <= 1000)%nat /\ (change x (n - 1) < 1 / 100000000 \/ n = 1000%nat) /\
  forall m, (1 <= m < n)%nat -> 1 / 100000000 <= change x (m - 1).

(** Mean of the biases over all subjects. *)
Definition mean_bias (x : arr3 ef) (p : est) : R := Rmean (map (eb_ p) (seq 0 (dS x))).

(** ** Reported uncertainties *)
(** Standard error of a quality score: one over the root of the summed
    precisions of its votes; 0 as soon as one of the voters has no spread. *)
Definition quality_se (x : arr3 ef) (p : est) (e : nat) : R :=
  if Req_EM_T (vsum x e (fun i _ => if Req_EM_T (rms x p i) 0 then 1 else 0)) 0
  then 1 / sqrt (vsum x e (fun i _ => 1 / (rms x p i * rms x p i)))
  else 0.

(** Population standard deviation of the residuals of a video. *)
Definition mean_residual (x : arr3 ef) (p : est) (e : nat) : R := vsum x e (fun i v => v - eq_ p e - eb_ p i) / vcount x e.
Definition video_spread (x : arr3 ef) (p : est) (e : nat) : R :=
  sqrt (vsum x e (fun i v => (v - eq_ p e - eb_ p i - mean_residual x p e) * (v - eq_ p e - eb_ p i - mean_residual x p e)) / vcount x e).

(** Curvature of the likelihood in the inconsistency of subject i, at the
    spread found from p with residuals taken at p'. *)
Definition curvature (x : arr3 ef) (p p' : est) (i : nat) : R :=
  3 * ssum x i (fun e v => (v - eq_ p' e - eb_ p' i) * (v - eq_ p' e - eb_ p' i)) / (rms x p i * rms x p i * (rms x p i * rms x p i))
  - scount x i / (rms x p i * rms x p i).
Definition incons_se (x : arr3 ef) (p p' : est) (i : nat) : ef :=
  if Req_EM_T (rms x p i) 0 then PInf
  else if Rlt_dec 0 (curvature x p p' i) then Fin (1 / sqrt (curvature x p p' i)) else PInf.

(** Gaussian log-likelihood of all votes. *)
Definition log_density (v m s : R) : R := - ((v - m) * (v - m)) / (2 * (s * s)) - ln s - ln (sqrt (2 * PI)).
Definition total_ll (x : arr3 ef) (p p' : est) : R :=
  Rsum (map (fun e => vsum x e (fun i v => log_density v (eq_ p' e + eb_ p' i) (rms x p i))) (seq 0 (dE x))).
Definition total_votes (x : arr3 ef) : R := Rsum (map (vcount x) (seq 0 (dE x))).
(** Every subject who voted has some spread. *)
Definition all_spread (x : arr3 ef) (p : est) : Prop := forall i, (i < dS x)%nat -> voted x i -> rms x p i <> 0.

(** Common shift making the biases sum to zero. *)
Definition shifted (m : R) (p : est) : est := Est (fun e => eq_ p e + m) (fun i => eb_ p i - m).
Definition reported (force : bool) (x : arr3 ef) (p : est) : est := if force then shifted (mean_bias x p) p else p.

Definition if_voted (x : arr3 ef) (i : nat) (y : ef) : ef := if Req_EM_T (scount x i) 0 then NaN else y.

(** The result dictionary after n passes.  [alt]: the quality std of Solver2;
    [chi]: quantiles of the chi-squared distribution. *)
Record solved (chi : ef -> ef -> ef) (alt force : bool) (x : arr3 ef) (n : nat) (m : apres ef) : Prop := Solved {
  sv_raw : ap_raw m = x;
  sv_iter : ap_iter m = n;
  sv_quality : ap_quality m = map (fun e => Fin (eq_ (reported force x (iterate x n)) e)) (seq 0 (dE x));
  sv_quality_std : ap_quality_std m = map (fun e => Fin (if alt then video_spread x (iterate x (n - 1)) e / sqrt (vcount x e)
                                                        else quality_se x (iterate x (n - 1)) e)) (seq 0 (dE x));
  sv_quality_ci : ap_quality_lo m = map (ef_mul (Fin (195996 / 100000))) (ap_quality_std m) /\
                  ap_quality_hi m = map (ef_mul (Fin (195996 / 100000))) (ap_quality_std m);
  sv_bias : ap_bias m = map (fun i => if_voted x i (Fin (eb_ (reported force x (iterate x n)) i))) (seq 0 (dS x));
  sv_bias_std : ap_bias_std m = map (fun i => if Req_EM_T (scount x i) 0 then PInf
                                              else Fin (rms x (iterate x (n - 1)) i / sqrt (scount x i))) (seq 0 (dS x));
  sv_bias_ci : ap_bias_lo m = map (ef_mul (Fin (195996 / 100000))) (ap_bias_std m) /\
               ap_bias_hi m = map (ef_mul (Fin (195996 / 100000))) (ap_bias_std m);
  sv_incons : ap_incons m = map (fun i => if_voted x i (Fin (rms x (iterate x (n - 1)) i))) (seq 0 (dS x));
  sv_incons_std : ap_incons_std m = map (fun i => if Req_EM_T (scount x i) 0 then PInf
                                                  else incons_se x (iterate x (n - 1)) (iterate x n) i) (seq 0 (dS x));
  sv_incons_lo : ap_incons_lo m = map (fun i => ef_mul (ef_sub (Fin 1) (ef_sqrt (ef_div (Fin (scount x i)) (chi (Fin (975 / 1000)) (Fin (scount x i))))))
                                                       (nth i (ap_incons m) NaN)) (seq 0 (dS x));
  sv_incons_hi : ap_incons_hi m = map (fun i => ef_mul (ef_sub (ef_sqrt (ef_div (Fin (scount x i)) (chi (Fin (25 / 1000)) (Fin (scount x i))))) (Fin 1))
                                                       (nth i (ap_incons m) NaN)) (seq 0 (dS x));
  sv_scores_mean : ap_scores_mean m = map (fun i => if_voted x i (Fin (Rmean (subject_votes x i)))) (seq 0 (dS x));
  sv_scores_std : ap_scores_std m = map (fun i => if_voted x i (Fin (sqrt (ssum x i (fun _ v => (v - Rmean (subject_votes x i)) * (v - Rmean (subject_votes x i))) / scount x i)))) (seq 0 (dS x));
  sv_recon_dims : dE (ap_recon m) = dE x /\ dS (ap_recon m) = dS x /\ dR (ap_recon m) = dR x;
  sv_recon : forall e i r, inside x e i r ->
     at3 (ap_recon m) e i r = if_voted x i (Fin (eq_ (iterate x n) e + eb_ (iterate x n) i));
  sv_dof : ap_dof m = ef_div (Fin (INR (dE x + dS x * dR x * 2))) (Fin (total_votes x));
  sv_ll : all_spread x (iterate x (n - 1)) -> ap_ll m = ef_div (Fin (total_ll x (iterate x (n - 1)) (iterate x n))) (Fin (total_votes x));
  sv_ll_nan : ~ all_spread x (iterate x (n - 1)) -> ap_ll m = NaN;
  sv_aic : ap_aic m = ef_sub (ef_mul (Fin 2) (ap_dof m)) (ef_mul (Fin 2) (ap_ll m));
  sv_bic : ap_bic m = ef_sub (ef_mul (ef_ln (Fin (total_votes x))) (ap_dof m)) (ef_mul (Fin 2) (ap_ll m))
}.

(** With a subject who has no vote the zero-mean option turns every quality
    score and bias into NaN; the other entries are those of the run [m0]
    without the option. *)
Record poisoned (x : arr3 ef) (m0 m : apres ef) : Prop := Poisoned {
  po_quality : ap_quality m = repeat NaN (dE x);
  po_bias : ap_bias m = repeat NaN (dS x);
  po_recon_dims : dE (ap_recon m) = dE x /\ dS (ap_recon m) = dS x /\ dR (ap_recon m) = dR x;
  po_recon : forall e i r, inside x e i r -> at3 (ap_recon m) e i r = NaN;
  po_ll : (0 < dE x)%nat -> ap_ll m = NaN /\ ap_aic m = NaN /\ ap_bic m = NaN;
  po_ll_empty : dE x = 0%nat -> ap_ll m = ap_ll m0 /\ ap_aic m = ap_aic m0 /\ ap_bic m = ap_bic m0;
  po_rest : ap_raw m = ap_raw m0 /\ ap_iter m = ap_iter m0 /\ ap_dof m = ap_dof m0 /\
    ap_quality_std m = ap_quality_std m0 /\ ap_quality_lo m = ap_quality_lo m0 /\ ap_quality_hi m = ap_quality_hi m0 /\
    ap_bias_std m = ap_bias_std m0 /\ ap_bias_lo m = ap_bias_lo m0 /\ ap_bias_hi m = ap_bias_hi m0 /\
    ap_incons m = ap_incons m0 /\ ap_incons_std m = ap_incons_std m0 /\ ap_incons_lo m = ap_incons_lo m0 /\ ap_incons_hi m = ap_incons_hi m0 /\
    ap_scores_mean m = ap_scores_mean m0 /\ ap_scores_std m = ap_scores_std m0 /\ ap_observers m = ap_observers m0
}.

(** [y] is [x] with videos reordered by [pi], subjects by [sg], and the offset
    [d i] added to every vote of its subject [i]. *)
Definition rearranged (x y : arr3 ef) (pi sg : nat -> nat) (d : nat -> R) : Prop :=
  permutes (dE x) pi /\ permutes (dS x) sg /\ dE y = dE x /\ dS y = dS x /\ dR y = dR x /\
  forall e i r, inside x e i r -> at3 y e i r = affine 1 (d i) (at3 x (pi e) (sg i) r).
(** The offsets average to [mu] over the votes of every video. *)
Definition balanced (y : arr3 ef) (d : nat -> R) (mu : R) : Prop :=
  forall e, (e < dE y)%nat -> vsum y e (fun i _ => d i) = mu * vcount y e.

Definition reindex (n : nat) (pi : nat -> nat) (l : list ef) : list ef := map (fun k => nth (pi k) l NaN) (seq 0 n).

(** Results for [y] in terms of those for [x]; [mu]: shift of the quality scores. *)
Record corresponds (x y : arr3 ef) (pi sg : nat -> nat) (d : nat -> R) (mu : R) (m m' : apres ef) : Prop := Corresponds {
  co_quality : ap_quality m' = map (fun e => affine 1 mu (nth (pi e) (ap_quality m) NaN)) (seq 0 (dE x));
  co_quality_std : ap_quality_std m' = reindex (dE x) pi (ap_quality_std m);
  co_quality_ci : ap_quality_lo m' = reindex (dE x) pi (ap_quality_lo m) /\ ap_quality_hi m' = reindex (dE x) pi (ap_quality_hi m);
  co_bias : ap_bias m' = map (fun i => affine 1 (d i - mu) (nth (sg i) (ap_bias m) NaN)) (seq 0 (dS x));
  co_bias_std : ap_bias_std m' = reindex (dS x) sg (ap_bias_std m);
  co_bias_ci : ap_bias_lo m' = reindex (dS x) sg (ap_bias_lo m) /\ ap_bias_hi m' = reindex (dS x) sg (ap_bias_hi m);
  co_incons : ap_incons m' = reindex (dS x) sg (ap_incons m);
  co_incons_std : ap_incons_std m' = reindex (dS x) sg (ap_incons_std m);
  co_incons_ci : ap_incons_lo m' = reindex (dS x) sg (ap_incons_lo m) /\ ap_incons_hi m' = reindex (dS x) sg (ap_incons_hi m);
  co_scores_mean : ap_scores_mean m' = map (fun i => affine 1 (d i) (nth (sg i) (ap_scores_mean m) NaN)) (seq 0 (dS x));
  co_scores_std : ap_scores_std m' = reindex (dS x) sg (ap_scores_std m);
  co_recon : dE (ap_recon m') = dE x /\ dS (ap_recon m') = dS x /\ dR (ap_recon m') = dR x /\
    forall e i r, inside x e i r -> at3 (ap_recon m') e i r = affine 1 (d i) (at3 (ap_recon m) (pi e) (sg i) r);
  co_same : ap_iter m' = ap_iter m /\ ap_dof m' = ap_dof m /\ ap_ll m' = ap_ll m /\ ap_aic m' = ap_aic m /\ ap_bic m' = ap_bic m
}.

(** Not below zero (a missing value has no sign). *)
Definition nonneg (v : ef) : Prop := match v with Fin r => 0 <= r | NInf => False | _ => True end.

(** Everything in the result of a run except quality scores, biases, the
    means of the subjects' votes, the reconstructions and the raw votes. *)
Definition same_uncertainty (m m' : apres ef) : Prop :=
  ap_quality_std m' = ap_quality_std m /\ ap_quality_lo m' = ap_quality_lo m /\ ap_quality_hi m' = ap_quality_hi m /\
  ap_bias_std m' = ap_bias_std m /\ ap_bias_lo m' = ap_bias_lo m /\ ap_bias_hi m' = ap_bias_hi m /\
  ap_incons m' = ap_incons m /\ ap_incons_std m' = ap_incons_std m /\ ap_incons_lo m' = ap_incons_lo m /\ ap_incons_hi m' = ap_incons_hi m /\
  ap_scores_std m' = ap_scores_std m /\ ap_iter m' = ap_iter m /\ ap_dof m' = ap_dof m /\
  ap_ll m' = ap_ll m /\ ap_aic m' = ap_aic m /\ ap_bic m' = ap_bic m.

(** Each subject's votes shifted by an offset of the subject. *)
Definition offset_votes (d : nat -> R) (a a' : arr3 ef) : Prop :=
  dE a' = dE a /\ dS a' = dS a /\ dR a' = dR a /\
  forall e i r, inside a e i r -> at3 a' e i r = affine 1 (d i) (at3 a e i r).

(** [y] is [x] with further subjects who have no votes. *)
Definition idle_subjects (x y : arr3 ef) : Prop :=
  dE y = dE x /\ (dS x <= dS y)%nat /\ dR y = dR x /\
  (forall e i r, inside x e i r -> at3 y e i r = at3 x e i r) /\
  (forall e i r, inside y e i r -> (dS x <= i)%nat -> at3 y e i r = NaN).

(** States the loop passes through. *)
Inductive reachable (x : arr3 ef) : list ef -> list ef -> Prop :=
| reach_start : reachable x (along1 np_nanmean (stack1 x)) (bias_of x (along1 np_nanmean (stack1 x)))
| reach_pass : forall s b e, reachable x s b -> ap_pass x s b = Ok e -> reachable x (es e) (eb e).
