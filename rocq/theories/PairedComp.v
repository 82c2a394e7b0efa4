(** Paired comparison models: sureal/pc_subjective_model.py. *)
From Coq Require Import List ZArith Bool Arith.
From Verif Require Import Num PyBase NumPy.
Import ListNotations.
Local Open Scope num_scope.

Section Common.
  Context {T : Type} {N : Num T}.

  (** pc_subjective_model.py:108,192,297
        np.nansum(dataset_reader.opinion_score_3darray, axis=2)
      entry (i, j): how often video i was preferred to video j. *)
  Definition win_matrix (a : arr3 T) : arr2 T :=
    Arr2 (dE a) (dS a) (fun i j => np_nansum (map (at3 a i j) (seq 0 (dR a)))).

  (** A square matrix (np.vstack / np.hstack / np.tile results). *)
  Definition mat (m : nat) (f : nat -> nat -> T) : arr2 T := Arr2 m m f.

  (** alpha + alpha.T (pc_subjective_model.py:124, 220). *)
  Definition played (alpha : arr2 T) (i j : nat) : T := at2 alpha i j + at2 alpha j i.

  (** np.diag(v)[i, j] for a vector given by its entries. *)
  Definition diag (v : nat -> T) (i j : nat) : T := if Nat.eqb i j then v i else nzero.

  (** pc_subjective_model.py:265-266 and 361-362
        np.vstack([np.hstack([-lbda, np.ones([M, 1])]),
                   np.hstack([np.ones([1, M]), np.array([[0]])])]). *)
  Definition bordered (m : nat) (lbda : nat -> nat -> T) : arr2 T :=
    mat (S m) (fun i j =>
      if Nat.ltb i m then (if Nat.ltb j m then - lbda i j else none_)
      else if Nat.ltb j m then none_ else nzero).

  (** np.diagonal(c)[:-1] followed by np.sqrt (pc_subjective_model.py:267-268, 363-364). *)
  Definition sqrt_diagonal (m : nat) (c : arr2 T) : list T :=
    map (fun i => nsqrt (at2 c i i)) (seq 0 m).

  (** c[:-1, :-1] (pc_subjective_model.py:269, 365). *)
  Definition cropped (m : nat) (c : arr2 T) : arr2 T := mat m (at2 c).

  (** DELTA_THR = 1e-8 (pc_subjective_model.py:132, 226). *)
  Definition pc_thr : T := ndec 1 100000000.

  (** 1.95996 * x (pc_subjective_model.py:198, 313). *)
  Definition pc_ci (x : T) : T := ndec 195996 100000 * x.

  (** (scores - np.mean(scores)) / np.std(scores), pc_subjective_model.py:171-174, 304-307. *)
  Definition zscored (v : list T) : list T :=
    map (fun x => (x - np_mean v) / np_std v) v.
End Common.

Section BradleyTerryMle.
  Context {T : Type} {N : Num T}.
  (** np.linalg.pinv; raises LinAlgError when the SVD does not converge. *)
  Variable pinv : arr2 T -> res (arr2 T).

  (** pp[i, j] = p[i] + p[j] (pc_subjective_model.py:241, 261). *)
  Definition bt_pp (p : list T) (i j : nat) : T := vat p i + vat p j.

  (** pc_subjective_model.py:243
        p = np.sum(alpha, axis=1) / np.sum(n / pp, axis=1) *)
  Definition bt_raw (alpha : arr2 T) (p : list T) : list T :=
    map (fun i => np_sum (row alpha i)
                  / np_sum (map (fun j => played alpha i j / bt_pp p i j) (seq 0 (n1 alpha))))
        (seq 0 (n0 alpha)).

  (** pc_subjective_model.py:245  p = p / np.sum(p) *)
  Definition bt_normalised (q : list T) : list T := map (fun x => x / np_sum q) q.

  (** One pass of the loop body, pc_subjective_model.py:230-245. *)
  Definition bt_step (alpha : arr2 T) (p : list T) : list T := bt_normalised (bt_raw alpha p).

  (** pc_subjective_model.py:223  p = 1.0 / M * np.ones(M) *)
  Definition bt_start (m : nat) : list T := map (fun _ => none_ / nofnat m * none_) (seq 0 m).

  (** pc_subjective_model.py:228-253 while change > DELTA_THR: the loop runs at
      least once (change starts at sys.float_info.max) and has no iteration
      limit; [fuel] bounds the number of passes, [Diverges] when exhausted.
      linalg.norm raises ValueError on NaN and infinities. *)
  Fixpoint bt_loop (fuel : nat) (alpha : arr2 T) (p : list T) : res (list T) :=
    match fuel with
    | O => Err Diverges
    | S k =>
        let p' := bt_step alpha p in
        do change <- sp_norm (map (fun i => vat p' i - vat p i) (seq 0 (n0 alpha)));
        if ngtb change pc_thr then bt_loop k alpha p' else Ok p'
    end.

  (** pc_subjective_model.py:262
        lbda_ii = np.sum(-alpha / np.tile(p, (M, 1)).T**2 + n / pp**2, axis=1) *)
  Definition bt_lbda_ii (alpha : arr2 T) (p : list T) (i : nat) : T :=
    np_sum (map (fun j => - at2 alpha i j / nsq (vat p i) + played alpha i j / nsq (bt_pp p i j))
                (seq 0 (n1 alpha))).

  (** pc_subjective_model.py:263  lbda_ij = n / pp*2 *)
  Definition bt_lbda_ij (alpha : arr2 T) (p : list T) (i j : nat) : T :=
    played alpha i j / bt_pp p i j * nofZ 2.

  (** pc_subjective_model.py:264  lbda = lbda_ij + np.diag(lbda_ii) *)
  Definition bt_lbda (alpha : arr2 T) (p : list T) (i j : nat) : T :=
    bt_lbda_ij alpha p i j + diag (bt_lbda_ii alpha p) i j.

  Record bt_result := BT {
    bt_v : list T; bt_v_std : list T; bt_p : list T; bt_p_std : list T;
    bt_v_cov : arr2 T; bt_p_cov : arr2 T }.

  (** BradleyTerryMlePairedCompSubjectiveModel.resolve_model,
      pc_subjective_model.py:205-275.  The option display only controls
      printing.  1.0 / M raises ZeroDivisionError for M = 0 (M is an int). *)
  Definition bt_resolve (fuel : nat) (alpha : arr2 T) : res bt_result :=
    do _ <- assert_ (Nat.eqb (n0 alpha) (n1 alpha));
    let m := n0 alpha in
    if Nat.eqb m 0 then Err ZeroDivisionError else
    do p <- bt_loop fuel alpha (bt_start m);
    do c <- pinv (bordered m (bt_lbda alpha p));
    let stdv := sqrt_diagonal m c in
    let cova_p := cropped m c in
    let cova_v := mat m (fun i j => at2 cova_p i j / (vat p i * vat p j)) in
    Ok (BT (map nln p) (map (fun i => vat stdv i / vat p i) (seq 0 m)) p stdv cova_v cova_p).

  (** quality_scores_ci95, pc_subjective_model.py:198. *)
  Definition bt_ci (r : bt_result) : list T := map pc_ci (bt_v_std r).

  (** BradleyTerryMlePairedCompSubjectiveModel._run_modeling,
      pc_subjective_model.py:189-202. *)
  Definition bt_run (fuel : nat) (a : arr3 T) : res bt_result := bt_resolve fuel (win_matrix a).
End BradleyTerryMle.
Arguments bt_result : clear implicits.

Section BradleyTerryNewton.
  Context {T : Type} {N : Num T}.
  (** scipy.linalg.pinv (ValueError on NaN, LinAlgError when it does not converge). *)
  Variable pinv : arr2 T -> res (arr2 T).

  (** rus[i, j]: pius / (pius + piust) where gm > 0, else the initial 0
      (pc_subjective_model.py:129, 140).  Row i < n - 1, column j < n. *)
  Definition nr_rus (wm : arr2 T) (gamma : list T) (i j : nat) : T :=
    if ngtb (played wm i j) nzero
    then nexp (vat gamma i) / (nexp (vat gamma i) + nexp (vat gamma j)) else nzero.

  (** y[i, j] = gm * rus where gm > 0 (pc_subjective_model.py:141). *)
  Definition nr_y (wm : arr2 T) (gamma : list T) (i j : nat) : T :=
    if ngtb (played wm i j) nzero then played wm i j * nr_rus wm gamma i j else nzero.

  (** y[gind] = y[gind] * (1 - rus[gind]) (pc_subjective_model.py:144). *)
  Definition nr_y2 (wm : arr2 T) (gamma : list T) (i j : nat) : T :=
    if ngtb (played wm i j) nzero
    then nr_y wm gamma i j * (none_ - nr_rus wm gamma i j) else nzero.

  (** dL = wins + d2Q, d2Q = - np.sum(y, axis=1) (pc_subjective_model.py:125, 142-143). *)
  Definition nr_dL (wm : arr2 T) (gamma : list T) (i : nat) : T :=
    np_sum (row wm i) + - np_sum (map (nr_y wm gamma i) (seq 0 (n1 wm))).

  (** d2L = -np.diag(np.sum(y, axis=1)); d2L[squaregind] = y[:, :-1][squaregind]
      (pc_subjective_model.py:145-146). *)
  Definition nr_d2L (wm : arr2 T) (gamma : list T) (i j : nat) : T :=
    if ngtb (played wm i j) nzero then nr_y2 wm gamma i j
    else - diag (fun i => np_sum (map (nr_y2 wm gamma i) (seq 0 (n1 wm)))) i j.

  (** change = np.hstack([np.matmul(linalg.pinv(d2L), dL), [0]])
      (pc_subjective_model.py:150-151). *)
  Definition nr_change (wm : arr2 T) (gamma : list T) : res (list T) :=
    let nmo := (n0 wm - 1)%nat in
    do h <- pinv (mat nmo (nr_d2L wm gamma));
    Ok (map (fun i => np_sum (map (fun j => at2 h i j * nr_dL wm gamma j) (seq 0 nmo))) (seq 0 nmo)
        ++ [nzero]).

  (** pc_subjective_model.py:134-157 while linalg.norm(change) > DELTA_THR: at
      least one pass, no iteration limit. *)
  Fixpoint nr_loop (fuel : nat) (wm : arr2 T) (gamma : list T) : res (list T) :=
    match fuel with
    | O => Err Diverges
    | S k =>
        do c <- nr_change wm gamma;
        let gamma' := map (fun i => vat gamma i - vat c i) (seq 0 (n0 wm)) in
        do d <- sp_norm c;
        if ngtb d pc_thr then nr_loop k wm gamma' else Ok gamma'
    end.

  (** BradleyTerryNewtonRaphsonPairedCompSubjectiveModel._run_modeling,
      pc_subjective_model.py:105-179.  np.zeros([-1, 0]) raises ValueError when
      there are no videos.  The result has quality_scores and
      quality_scores_std = None. *)
  Definition nr_resolve (fuel : nat) (zscore_output : bool) (wm : arr2 T) : res (list T) :=
    do _ <- assert_ (Nat.eqb (n0 wm) (n1 wm));
    let n := n0 wm in
    if Nat.eqb n 0 then Err ValueError else
    do gamma <- nr_loop fuel wm (map (fun _ => nzero) (seq 0 n));
    let scores := map (vat gamma) (seq 0 (n - 1)%nat) ++ [nzero] in
    Ok (if zscore_output then zscored scores else scores).

  Definition nr_run (fuel : nat) (zscore_output : bool) (a : arr3 T) : res (list T) :=
    nr_resolve fuel zscore_output (win_matrix a).
End BradleyTerryNewton.

Section Thurstone.
  Context {T : Type} {N : Num T}.
  (** scipy.stats.norm.cdf. *)
  Variable cdf : T -> T.
  (** scipy.optimize.minimize(f, v0, method='SLSQP', ...): success flag and x. *)
  Variable slsqp : (list T -> T) -> list T -> bool * list T.
  Variable pinv : arr2 T -> res (arr2 T).

  (** scipy.stats.norm.pdf: exp(-x**2/2) / sqrt(2*pi). *)
  Definition pdf (x : T) : T := nexp (- nsq x / nofZ 2) / nsqrt (nofZ 2 * npi).

  (** np.tile(v, (M, 1)).T - np.tile(v, (M, 1)) *)
  Definition th_d (v : list T) (i j : nat) : T := vat v i - vat v j.

  (** neg_log_likelihood_function, pc_subjective_model.py:369-391. *)
  Definition th_nll (alpha : arr2 T) (v : list T) : T :=
    let m := n0 alpha in
    let eps := ndec 1 100000000 / nofnat m in
    - np_sum (flat_map (fun i => map (fun j =>
        at2 alpha i j * nln (cdf (th_d v i j) + eps)
        + at2 alpha j i * nln (cdf (th_d v j i) + eps)) (seq 0 m)) (seq 0 m)).

  (** The summand with use_simplified_lbda, pc_subjective_model.py:333-341. *)
  Definition th_simple (alpha : arr2 T) (v : list T) (i j : nat) : T :=
    let z := th_d v i j in
    played alpha i j * (- z * cdf z * pdf z - nsq (pdf z)) / nsq (cdf z).

  (** The summand without it, pc_subjective_model.py:343-358. *)
  Definition th_full (alpha : arr2 T) (v : list T) (i j : nat) : T :=
    let z := th_d v i j in
    let phi := cdf z in
    let f := pdf z in
    let d := - z * pdf z in
    let phi' := - phi in
    let f' := f in
    let d' := - d in
    at2 alpha i j * (phi * d - nsq f) / nsq phi
    + at2 alpha j i * (phi' * d' - nsq f') / nsq phi'.

  (** lbda = -summand + np.diag(np.sum(summand, axis=1)), pc_subjective_model.py:332-360. *)
  Definition th_lbda (simplified : bool) (alpha : arr2 T) (v : list T) (i j : nat) : T :=
    let term := if simplified then th_simple alpha v else th_full alpha v in
    - term i j + diag (fun i => np_sum (map (term i) (seq 0 (n1 alpha)))) i j.

  Record th_result := TH { th_v : list T; th_std : list T; th_cov : arr2 T }.

  (** ThurstoneMlePairedCompSubjectiveModel.resolve_model,
      pc_subjective_model.py:317-367.  With no videos 1e-8 / M raises
      ZeroDivisionError inside the objective. *)
  Definition th_resolve (simplified : bool) (alpha : arr2 T) : res th_result :=
    do _ <- assert_ (Nat.eqb (n0 alpha) (n1 alpha));
    let m := n0 alpha in
    if Nat.eqb m 0 then Err ZeroDivisionError else
    let ret := slsqp (th_nll alpha) (map (fun _ => nzero) (seq 0 m)) in
    do _ <- assert_ (fst ret);
    let v := snd ret in
    do c <- pinv (bordered m (th_lbda simplified alpha v));
    Ok (TH v (sqrt_diagonal m c) (cropped m c)).

  (** ThurstoneMlePairedCompSubjectiveModel._run_modeling,
      pc_subjective_model.py:287-315: scores and their std. *)
  Definition th_run (simplified zscore_output : bool) (a : arr3 T) : res (list T * list T) :=
    do r <- th_resolve simplified (win_matrix a);
    if zscore_output
    then Ok (zscored (th_v r), map (fun s => s / np_std (th_v r)) (th_std r))
    else Ok (th_v r, th_std r).

  (** quality_scores_ci95, pc_subjective_model.py:313. *)
  Definition th_ci (r : list T * list T) : list T := map pc_ci (snd r).
End Thurstone.
Arguments th_result : clear implicits.
