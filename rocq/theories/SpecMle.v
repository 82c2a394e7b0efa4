(** Specification of the maximum likelihood models: parameters and
    log-likelihood over the reals, Newton steps as derivatives of it, and the
    states a run goes through. *)
From Coq Require Import String.
From Coq Require Import List ZArith Bool Arith Reals.
From Verif Require Import PyBase Num ExtReal NumPy Dataset Preproc Mos AP Mle SpecMos SpecAp.
Import ListNotations.
Local Open Scope R_scope.

(** Parameters: quality of each video, bias and inconsistency of each subject,
    ambiguity of each content. *)
Record params := Params { pq : nat -> R; pb : nat -> R; pv : nat -> R; pa : nat -> R }.

Definition set_at (f : nat -> R) (i : nat) (t : R) : nat -> R := fun k => if Nat.eqb k i then t else f k.
Definition with_q (p : params) (i : nat) (t : R) : params := Params (set_at (pq p) i t) (pb p) (pv p) (pa p).
Definition with_b (p : params) (i : nat) (t : R) : params := Params (pq p) (set_at (pb p) i t) (pv p) (pa p).
Definition with_v (p : params) (i : nat) (t : R) : params := Params (pq p) (pb p) (set_at (pv p) i t) (pa p).
Definition with_a (p : params) (i : nat) (t : R) : params := Params (pq p) (pb p) (pv p) (set_at (pa p) i t).

(** A vote of subject i on video e has mean q_e + b_i and variance
    v_i^2 + a_c^2, where c is the content of e. *)
Definition variance (cid : nat -> nat) (p : params) (e i : nat) : R :=
  pv p i * pv p i + pa p (cid e) * pa p (cid e).

(** Sum over all votes. *)
Definition tsum (x : arr3 ef) (f : nat -> nat -> R -> R) : R := Rsum (map (fun e => vsum x e (f e)) (seq 0 (dE x))).

(** Log-likelihood of all votes. *)
Definition log_lik (x : arr3 ef) (cid : nat -> nat) (p : params) : R :=
  tsum x (fun e i v => log_density v (pq p e + pb p i) (sqrt (variance cid p e i))).

(** Every vote has a positive variance. *)
Definition regular (x : arr3 ef) (cid : nat -> nat) (p : params) : Prop :=
  forall e i r v, inside x e i r -> at3 x e i r = Fin v -> 0 < variance cid p e i.

(** Some video of content c was rated. *)
Definition content_rated (x : arr3 ef) (cid : nat -> nat) (c : nat) : Prop :=
  exists e, (e < dE x)%nat /\ cid e = c /\ rated x e.

(** Content of each video as a function. *)
Definition cid_of (cids : list nat) (e : nat) : nat := nth e cids 0%nat.

(** The vectors of a run hold the parameters p for every video, subject and
    content that has a vote. *)
Record holds (x : arr3 ef) (cids : list nat) (C : nat) (p : params) (q b v a : list ef) : Prop := Holds {
  h_q : forall e, (e < dE x)%nat -> rated x e -> nth e q NaN = Fin (pq p e);
  h_b : forall i, (i < dS x)%nat -> voted x i -> nth i b NaN = Fin (pb p i);
  h_v : forall i, (i < dS x)%nat -> voted x i -> nth i v NaN = Fin (pv p i);
  h_a : forall c, content_rated x (cid_of cids) c -> nth c a NaN = Fin (pa p c);
  h_lq : length q = dE x; h_lb : length b = dS x; h_lv : length v = dS x; h_la : length a = C }.

(** The content ids fit the videos. *)
Definition fits (x : arr3 ef) (cids : list nat) (C : nat) : Prop :=
  length cids = dE x /\ Forall (fun c => (c < C)%nat) cids.

(** [step] is one Newton step from t0 for the function f, and [curv] minus its
    second derivative at t0. *)
Definition newton_step (f : R -> R) (t0 : R) (step curv : ef) : Prop :=
  exists f' d2,
    (exists w, 0 < w /\ forall t, Rabs (t - t0) < w -> derivable_pt_lim f t (f' t)) /\
    derivable_pt_lim f' t0 d2 /\
    step = ef_sub (Fin t0) (ef_div (Fin (f' t0)) (Fin d2)) /\
    curv = Fin (- d2).

(** States of a run: the vectors after n passes. *)
Definition vectors : Type := (list ef * list ef * list ef * list ef)%type.
Fixpoint passes (mode : mlemode) (g : gradmethod) (pdf : pdfkind) (x : arr3 ef) (cids : list nat) (C : nat)
         (n : nat) (s : vectors) : res vectors :=
  match n with
  | O => Ok s
  | S k =>
      do s' <- passes mode g pdf x cids C k s;
      let '(q, b, v, a) := s' in
      do st <- mle_pass mode g pdf x cids C q b v a;
      Ok (sx st, sb st, sv st, sa st)
  end.

(** What a run of a class starts from: the preprocessed votes, the plain MOS of
    the reader, the content id of each video and the number of contents. *)
Definition begins (c : mleclass) (rd : reader ef) (k : kwargs ef) (x : arr3 ef) (cids : list nat) (C : nat) (s : vectors) : Prop :=
  exists k' pp m, mle_kwargs c k = Ok k' /\ preprocess rd k' = Ok pp /\ x = pp_arr pp /\
    run_modeling MOS rd no_options = Ok m /\
    cids = map Z.to_nat (content_id_of_dis_videos (rd_dvs rd)) /\
    (exists mx, zmax_list (map rv_cid (ds_refs (rd_ds rd))) = Ok mx /\ C = Z.to_nat (mx + 1)) /\
    s = mle_start (mode_of c) x cids C (mr_quality m).

(** Change of the quality scores between two states. *)
Definition moved (s s' : vectors) : res ef :=
  let '(q, _, _, _) := s in let '(q', _, _, _) := s' in
  sp_norm (map (fun p => ef_sub (fst p) (snd p)) (combine q q')).

(** A run from s stops after n passes: at the first change below thr, and at
    the latest after 10000 passes. *)
Definition stops_at (mode : mlemode) (g : gradmethod) (pdf : pdfkind) (x : arr3 ef) (cids : list nat) (C : nat)
           (thr : ef) (s : vectors) (n : nat) : Prop :=
  (1 <= n <= 100 * 100)%nat /\
  (exists s1 s2 d, passes mode g pdf x cids C (n - 1) s = Ok s1 /\ passes mode g pdf x cids C n s = Ok s2 /\ moved s1 s2 = Ok d /\
     (ef_ltb d thr = true \/ n = (100 * 100)%nat)) /\
  (forall j, (1 <= j < n)%nat -> exists s1 s2 d, passes mode g pdf x cids C (j - 1) s = Ok s1 /\ passes mode g pdf x cids C j s = Ok s2 /\
     moved s1 s2 = Ok d /\ ef_ltb d thr = false).

(** Options with their defaults. *)
Definition gradient_of (o : mleopts ef) : gradmethod := match mo_gradient o with Some g => g | None => Simplified end.
Definition pdf_of (o : mleopts ef) : pdfkind := match mo_pdf o with Some d => d | None => GaussianPdf end.
Definition threshold_of (o : mleopts ef) : ef := match mo_delta o with Some t => t | None => Fin (1 / 100000000) end.

(** No vote is in a degenerate position: finite values and positive variance
    wherever there is a vote. *)
Definition regular_state (x : arr3 ef) (cids : list nat) (C : nat) (s : vectors) : Prop :=
  let '(q, b, v, a) := s in
  exists p, holds x cids C p q b v a /\ regular x (cid_of cids) p.

(** Two results agree in everything but quality scores, biases and
    reconstructions. *)
Definition same_report (m m' : mleres ef) : Prop :=
  ml_raw m = ml_raw m' /\ ml_iter m = ml_iter m' /\
  ml_quality_std m = ml_quality_std m' /\ ml_quality_lo m = ml_quality_lo m' /\ ml_quality_hi m = ml_quality_hi m' /\
  ml_bias_std m = ml_bias_std m' /\ ml_bias_lo m = ml_bias_lo m' /\ ml_bias_hi m = ml_bias_hi m' /\
  ml_incons m = ml_incons m' /\ ml_incons_std m = ml_incons_std m' /\ ml_incons_lo m = ml_incons_lo m' /\ ml_incons_hi m = ml_incons_hi m' /\
  ml_ambiguity m = ml_ambiguity m' /\ ml_ambiguity_std m = ml_ambiguity_std m' /\
  ml_ambiguity_lo m = ml_ambiguity_lo m' /\ ml_ambiguity_hi m = ml_ambiguity_hi m' /\
  ml_dof m = ml_dof m' /\ ml_ll m = ml_ll m' /\ ml_aic m = ml_aic m' /\ ml_bic m = ml_bic m' /\ ml_observers m = ml_observers m'.

(** A step is taken to one tenth. *)
Definition damped (old : R) (step : ef) : ef := ef_add (ef_mul (Fin old) (Fin (9 / 10))) (ef_mul step (Fin (1 / 10))).
(** Negative values are replaced by 0. *)
Definition clipped (y : ef) : ef := match y with Fin r => Fin (Rmax r 0) | PInf => PInf | NInf => Fin 0 | NaN => NaN end.
(** Standard deviation belonging to minus a second derivative. *)
Definition std_of (curv : ef) : ef :=
  match curv with Fin c => if Rlt_dec 0 c then Fin (1 / sqrt c) else PInf | PInf => Fin 0 | NInf => PInf | NaN => NaN end.

(** [val] and [std] come from a damped Newton step for f from t0, passed
    through [post]. *)
Definition updated (post : ef -> ef) (f : R -> R) (t0 : R) (val std : ef) : Prop :=
  exists step curv, newton_step f t0 step curv /\ val = post (damped t0 step) /\ std = std_of curv.

(** Value or a default. *)
Definition or_zeros (n : nat) (o : option (list ef)) : list ef := match o with Some l => l | None => repeat (Fin 0) n end.
(** Interval half widths of the 95% confidence level. *)
Definition width95 (std half : option (list ef)) : Prop := half = option_map (map (ef_mul (Fin (195996 / 100000)))) std.
(** Number of parameters of a mode: qualities, twice the subjects (times
    repetitions), contents. *)
Definition parameters (mode : mlemode) (E S C R : nat) : nat :=
  match mode with ModeDefault => E + S * R * 2 + C | ContentOblivious => E + S * R * 2 | SubjectOblivious => E + C end.

(** The result dictionary of a run that ends in the vectors (q, b, v, a) after n
    passes.  [a0]: the votes as read; [x]: after preprocessing. *)
Record ml_report (chi : ef -> ef -> ef) (mode : mlemode) (o : mleopts ef) (a0 x : arr3 ef) (cids : list nat) (C : nat)
       (q b v a : list ef) (n : nat) (m : mleres ef) : Prop := MlReport {
  rp_raw : ml_raw m = x;
  rp_iter : ml_iter m = n;
  rp_quality : mo_force o = Some false -> ml_quality m = q;
  rp_bias : mo_force o = Some false -> ml_bias m = (if match mode with SubjectOblivious => true | _ => false end then None else Some b);
  rp_incons : ml_incons m = (if match mode with SubjectOblivious => true | _ => false end then None else Some v);
  rp_ambiguity : ml_ambiguity m = (if match mode with ContentOblivious => true | _ => false end then None else Some a);
  rp_quality_ci : ml_quality_lo m = map (ef_mul (Fin (195996 / 100000))) (ml_quality_std m) /\ ml_quality_hi m = map (ef_mul (Fin (195996 / 100000))) (ml_quality_std m);
  rp_bias_ci : width95 (ml_bias_std m) (ml_bias_lo m) /\ width95 (ml_bias_std m) (ml_bias_hi m);
  rp_ambiguity_ci : width95 (ml_ambiguity_std m) (ml_ambiguity_lo m) /\ width95 (ml_ambiguity_std m) (ml_ambiguity_hi m);
  rp_incons_lo : forall i l h, (i < dS x)%nat -> ml_incons m = Some l -> ml_incons_lo m = Some h ->  length l = dS x ->
    nth i h NaN = ef_mul (ef_sub (Fin 1) (ef_sqrt (ef_div (Fin (scount x i)) (chi (Fin (975 / 1000)) (Fin (scount x i)))))) (nth i l NaN);
  rp_incons_hi : forall i l h, (i < dS x)%nat -> ml_incons m = Some l -> ml_incons_hi m = Some h -> length l = dS x ->
    nth i h NaN = ef_mul (ef_sub (ef_sqrt (ef_div (Fin (scount x i)) (chi (Fin (25 / 1000)) (Fin (scount x i))))) (Fin 1)) (nth i l NaN);
  rp_recon_dims : dE (ml_recon m) = dE x /\ dS (ml_recon m) = dS x /\ dR (ml_recon m) = dR x;
  rp_recon : forall e i r, inside x e i r -> at3 (ml_recon m) e i r = ef_add (nth e (ml_quality m) NaN) (nth i (or_zeros (dS x) (ml_bias m)) NaN);
  rp_dof : ml_dof m = ef_div (Fin (INR (parameters mode (dE a0) (dS a0) C (dR a0)))) (Fin (total_votes a0));
  rp_ll : pdf_of o = GaussianPdf -> forall p,
    holds x cids C p (ml_quality m) (or_zeros (dS x) (ml_bias m)) (or_zeros (dS x) (ml_incons m)) (or_zeros C (ml_ambiguity m)) -> regular x (cid_of cids) p ->
    ml_ll m = ef_div (Fin (log_lik x (cid_of cids) p)) (Fin (total_votes x));
  rp_aic : ml_aic m = ef_sub (ef_mul (Fin 2) (ml_dof m)) (ef_mul (Fin 2) (ml_ll m));
  rp_bic : ml_bic m = ef_sub (ef_mul (ef_ln (Fin (total_votes a0))) (ml_dof m)) (ef_mul (Fin 2) (ml_ll m)) }.
