(** Model of the projection solver (ITU-T P.910 Annex E):
    sureal/subjective_model.py:1448-1654, and of weighed_nanmean_2d
    (sureal/tools/misc.py:249-264). *)
From Coq Require Import String.
From Coq Require Import List ZArith Bool Arith.
From Verif Require Import PyBase Num NumPy Dataset Preproc Mos.
Import ListNotations.
Local Open Scope list_scope.

Section AP.
  Context {T : Type} {N : Num T}.
  (** scipy.stats.chi2.ppf(q, df), used at sureal/subjective_model.py:1557-1558. *)
  Context (chi2_ppf : T -> T -> T).
  Local Open Scope num_scope.

  (** ~np.isnan(x) as a factor of a product: True is 1, False is 0
      (sureal/tools/misc.py:256, 261). *)
  Definition present (x : T) : T := if nisnan x then nzero else none_.

  (** np.nansum(a * w) / np.nansum(~isnan(a) * w) of one line. *)
  Definition weighed_nanmean (l w : list T) : T :=
    np_nansum (map (fun p => fst p * snd p) (combine l w))
    / np_nansum (map (fun p => present (fst p) * snd p) (combine l w)).

  (** sureal/tools/misc.py:249-264 weighed_nanmean_2d.  Simplified: the weights
      have the length of the lines (numpy would broadcast or fail otherwise). *)
  Definition weighed_nanmean_2d (a : arr2 T) (w : list T) (axis : nat) : res (list T) :=
    match axis with
    | O => Ok (along0 (fun l => weighed_nanmean l w) a)
    | S O => Ok (along1 (fun l => weighed_nanmean l w) a)
    | _ => Err AssertionError
    end.

  (** np.tile(w, R). *)
  Definition np_tile (w : list T) (R : nat) : list T := concat (repeat w R).

  (** x_jir - s_j, x_jir - b_i, x_jir - s_j - b_i
      (sureal/subjective_model.py:1477, 1491, 1496, 1505). *)
  Definition minus_quality (x : arr3 T) (s : list T) : arr3 T := map3 (fun e i r v => v - vat s e) x.
  Definition minus_bias (x : arr3 T) (b : list T) : arr3 T := map3 (fun e i r v => v - vat b i) x.
  Definition residual (x : arr3 T) (s b : list T) : arr3 T := map3 (fun e i r v => v - vat s e - vat b i) x.

  (** 1e-8 (sureal/subjective_model.py:1481-1482). *)
  Definition epsilon : T := ndec 1 100000000.

  (** Bias estimates given quality scores (sureal/subjective_model.py:1477-1478, 1505-1506). *)
  Definition bias_of (x : arr3 T) (s : list T) : list T := along0 np_nanmean (stack0 (minus_quality x s)).

  (** Estimates after a pass: s_j, b_i, v_i, v_j. *)
  Record apest := ApEst { es : list T; eb : list T; ev : list T; evj : list T }.

  (** sureal/subjective_model.py:1490-1506: one pass of the loop. *)
  Definition ap_pass (x : arr3 T) (s b : list T) : res apest :=
    let r := residual x s b in
    let v_i := along0 (np_nanstd 0) (stack0 r) in
    let v_j := along1 (np_nanstd 0) (stack1 r) in
    let w := map (fun v => none_ / (nsq v + epsilon)) v_i in
    do s' <- weighed_nanmean_2d (stack1 (minus_bias x b)) (np_tile w (dR x)) 1;
    Ok (ApEst s' (bias_of x s') v_i v_j).

  (** sureal/subjective_model.py:1480-1524: the loop; MAX_ITR = 1000. *)
  Definition max_itr : nat := 1000.
  Fixpoint ap_loop (fuel itr : nat) (x : arr3 T) (s b : list T) : res (apest * nat) :=
    match fuel with
    | O => Err Diverges
    | S f =>
        do e <- ap_pass x s b;
        let itr := S itr in
        do d <- sp_norm (map (fun p => fst p - snd p) (combine s (es e)));
        if d <? epsilon then Ok (e, itr)
        else if Nat.leb max_itr itr then Ok (e, itr)
        else ap_loop f itr x (es e) (eb e)
    end.

  (** sureal/subjective_model.py:1454-1457 _one_or_nan. *)
  Definition one_or_nan (x : arr3 T) : arr3 T := map3 (fun _ _ _ v => if nisnan v then v else none_) x.

  (** 1.0 / np.sqrt(np.maximum(0., den)). *)
  Definition inv_sqrt_pos (den : T) : T := none_ / nsqrt (nmaximum nzero den).

  (** sureal/subjective_model.py:1590-1597 _get_s_j_std (with v_i), and the
      alternative of Solver2 (with v_j), 1629-1636. *)
  Definition quality_std (alt : bool) (x : arr3 T) (v_i v_j : list T) : list T :=
    map inv_sqrt_pos (along1 np_nansum (stack1
      (map3 (fun e i r y => y / nsq (vat (if alt then v_j else v_i) (if alt then e else i))) (one_or_nan x)))).

  (** sureal/subjective_model.py:1527-1532. *)
  Definition bias_std (x : arr3 T) (v_i : list T) : list T :=
    map inv_sqrt_pos (along0 np_nansum (stack0
      (map3 (fun e i r y => y / nsq (vat v_i i)) (one_or_nan x)))).

  (** sureal/subjective_model.py:1534-1542. *)
  Definition inconsistency_std (x : arr3 T) (s b v_i : list T) : list T :=
    map (fun lpp => inv_sqrt_pos (- lpp)) (along0 np_nansum (stack0
      (map3 (fun e i r y =>
          let v2 := nsq (vat v_i i) in
          none_ / v2 + nsq y * (nofZ (-3) * npow4 (vat v_i i)) / npow4 v2) (residual x s b)))).

  (** sureal/subjective_model.py:1546-1549: the zero-mean shift. *)
  Definition zero_mean (force : bool) (s b : list T) : list T * list T :=
    if force then
      let m := np_mean b in (map (fun v => v + m) s, map (fun v => v - m) b)
    else (s, b).

  (** scipy.stats.norm.pdf: NaN unless the scale is positive. *)
  Definition norm_pdf (x loc scale : T) : T :=
    if nzero <? scale then
      nexp (- nsq ((x - loc) / scale) / nofZ 2) / nsqrt (nofZ 2 * npi) / scale
    else nnan.

  (** sureal/subjective_model.py:1607-1624 loglikelihood_function: the sum over
      the entries that are present. *)
  Definition ap_loglik (x : arr3 T) (s b v : list T) : T :=
    np_sum (map snd (filter (fun p => negb (nisnan (fst p)))
      (combine (flat3 x) (flat3 (map3 (fun e i r y => nln (norm_pdf y (vat s e + vat b i) (vat v i))) x))))).

  (** sureal/subjective_model.py:1599-1605 _get_reconstructions. *)
  Definition ap_reconstructions (x : arr3 T) (s b : list T) : arr3 T :=
    Arr3 (dE x) (dS x) (dR x) (fun e i _ => vat s e + vat b i).

  (** Result dictionary (sureal/subjective_model.py:1553-1588). *)
  Record apres := ApRes {
    ap_raw : arr3 T;
    ap_quality : list T; ap_quality_std : list T; ap_quality_lo : list T; ap_quality_hi : list T;
    ap_bias : list T; ap_bias_std : list T; ap_bias_lo : list T; ap_bias_hi : list T;
    ap_incons : list T; ap_incons_std : list T; ap_incons_lo : list T; ap_incons_hi : list T;
    ap_scores_mean : list T; ap_scores_std : list T;
    ap_recon : arr3 T; ap_iter : nat;
    ap_dof : T; ap_ll : T; ap_aic : T; ap_bic : T;
    ap_observers : option (list string) }.

  (** sureal/subjective_model.py:1459-1588 _run_modeling after the
      preprocessing; [alt] selects Solver2's quality std. *)
  Definition ap_solve (alt force : bool) (x x0 : arr3 T) : res apres :=
    let cnt_i := map (fun s => np_cnt (col (stack0 x) s)) (seq 0 (n1 (stack0 x))) in
    let s0 := along1 np_nanmean (stack1 x) in
    let b0 := bias_of x s0 in
    do en <- ap_loop max_itr 0 x s0 b0;
    let '(e, itr) := en in
    let v := ev e in
    let s_std := quality_std alt x v (evj e) in
    let b_std := bias_std x v in
    let v_std := inconsistency_std x (es e) (eb e) v in
    let '(s, b) := zero_mean force (es e) (eb e) in
    let num_os0 := np_cnt (flat3 x0) in
    let num_os := np_cnt (flat3 x) in
    let dof := nofnat (dE x0 + dS x0 * dR x0 * 2) / nofnat num_os0 in
    let ll := ap_loglik x s b v / nofnat num_os in
    Ok (ApRes x
         s s_std (map (fun y => z95 * y) s_std) (map (fun y => z95 * y) s_std)
         b b_std (map (fun y => z95 * y) b_std) (map (fun y => z95 * y) b_std)
         v v_std
         (map (fun p => (none_ - nsqrt (nofnat (fst p) / chi2_ppf (none_ - ndec 25 1000) (nofnat (fst p)))) * snd p) (combine cnt_i v))
         (map (fun p => (nsqrt (nofnat (fst p) / chi2_ppf (ndec 25 1000) (nofnat (fst p))) - none_) * snd p) (combine cnt_i v))
         (along0 np_nanmean (stack0 x)) (along0 (np_nanstd 0) (stack0 x))
         (ap_reconstructions x s b) itr
         dof ll (nofZ 2 * dof - nofZ 2 * ll) (nln (nofnat num_os0) * dof - nofZ 2 * ll) None).

  (** The projection classes of the package: TYPE strings
      Subject_MLE_Projection, Subject_MLE_Projection2, MLE_CO_AP, MLE_CO_AP2
      (sureal/subjective_model.py:1450, 1641, 1645, 1649); P910 in
      sureal/__init__.py derives from the second. *)
  Inductive apclass := Projection | Projection2 | MLE_CO_AP | MLE_CO_AP2.
  Definition is_alt (c : apclass) : bool := match c with Projection2 | MLE_CO_AP2 => true | _ => false end.

  (** sureal/subjective_model.py:63-76 run_modeling over 1459-1588; [force] is
      the option force_subjbias_zeromean (absent or None: True). *)
  Definition ap_run_modeling (c : apclass) (rd : reader T) (k : kwargs T) (force : option bool) : res apres :=
    do pp <- preprocess rd k;
    do m <- ap_solve (is_alt c) (match force with Some b => b | None => true end) (pp_arr pp) (pp_orig pp);
    do obs <- attach_observers rd;
    Ok (ApRes (ap_raw m) (postprocess k (ap_quality m)) (ap_quality_std m) (ap_quality_lo m) (ap_quality_hi m)
          (ap_bias m) (ap_bias_std m) (ap_bias_lo m) (ap_bias_hi m)
          (ap_incons m) (ap_incons_std m) (ap_incons_lo m) (ap_incons_hi m)
          (ap_scores_mean m) (ap_scores_std m) (ap_recon m) (ap_iter m)
          (ap_dof m) (ap_ll m) (ap_aic m) (ap_bic m) obs).
End AP.
Arguments apest : clear implicits.
Arguments apres : clear implicits.
