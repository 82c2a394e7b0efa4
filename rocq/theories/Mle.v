(** Model of the maximum likelihood models:
    sureal/subjective_model.py:664-1190 (MaximumLikelihoodEstimationModel and its
    content- and subject-oblivious subclasses), 1267-1292 (the DMOS variants),
    with sureal/tools/stats.py:78-119 for the uniform density. *)
From Coq Require Import String.
From Coq Require Import List ZArith Bool Arith.
From Verif Require Import PyBase Num NumPy Dataset Preproc Mos AP.
Import ListNotations.
Local Open Scope list_scope.

(** cls.mode (sureal/subjective_model.py:682, 1180-1190). *)
Inductive mlemode := ModeDefault | SubjectOblivious | ContentOblivious.
(** gradient_method (sureal/subjective_model.py:739-740). *)
Inductive gradmethod := Simplified | Original | Numerical | OtherGradient.
(** numerical_pdf (sureal/subjective_model.py:693-720). *)
Inductive pdfkind := GaussianPdf | LogisticPdf | UniformPdf | OtherPdf.

Section Mle.
  Context {T : Type} {N : Num T}.
  (** scipy.stats.chi2.ppf(q, df), used at sureal/subjective_model.py:1128-1129. *)
  Context (chi2_ppf : T -> T -> T).
  Local Open Scope num_scope.

  (** Elementwise operation on two vectors of the same length. *)
  Definition vmap2 (f : T -> T -> T) (u v : list T) : list T := map (fun p => f (fst p) (snd p)) (combine u v).

  (** REFRESH_RATE and EPSILON (sureal/subjective_model.py:801-802). *)
  Definition refresh_rate : T := ndec 1 10.
  Definition eps_num : T := ndec 1 1000.

  (** old * (1.0 - REFRESH_RATE) + new * REFRESH_RATE. *)
  Definition refresh (old new : list T) : list T :=
    vmap2 (fun o n => o * (none_ - refresh_rate) + n * refresh_rate) old new.

  (** a_c_e (sureal/subjective_model.py:815): ambiguity of the content of each
      video; the content ids were checked at 769-771. *)
  Definition amb_of (a : list T) (cids : list nat) : list T := map (fun c => vat a c) cids.

  (** vs2_add_ace2 at (e, s). *)
  Definition w_es (v ae : list T) (e s : nat) : T := nsq (vat v s) + nsq (vat ae e).

  (** np.nansum over e of a stacked array / over s. *)
  Definition sum_e (a : arr3 T) : list T := along0 np_nansum (stack0 a).
  Definition sum_s (a : arr3 T) : list T := along1 np_nansum (stack1 a).

  (** sureal/subjective_model.py:751-759 sum_over_content_id (after its checks). *)
  Definition sum_over_cid (xs : list T) (cids : list nat) (C : nat) : list T :=
    map (fun c => np_sum (map snd (filter (fun p => Nat.eqb (fst p) c) (combine cids xs)))) (seq 0 C).

  (** sureal/subjective_model.py:761-773 std_over_subject_and_content_id (after
      its checks). *)
  Definition std_over_cid (x : arr3 T) (cids : list nat) (C : nat) : list T :=
    map (fun c => np_nanstd 0 (flat_map (fun p =>
      if Nat.eqb (snd p) c
      then flat_map (fun s => map (fun r => at3 x (fst p) s r) (seq 0 (dR x))) (seq 0 (dS x))
      else []) (enumerate cids))) (seq 0 C).

  (** ** Likelihood *)
  (** sureal/tools/stats.py:78-119 convolution_of_two_uniforms. *)
  Definition convolution_of_two_uniforms (x loc1 s1 loc2 s2 : T) : T :=
    let z := x - loc1 - loc2 in
    let d := nabs (s1 - s2) in
    let s := s1 + s2 in
    let h := nofZ 2 / (d + s) in
    let line x0 x1 := (h - nzero) / (x1 - x0) * (x - x0) + nzero in
    if (- s / nofZ 2 <=? z) && (z <? - d / nofZ 2) then line (- s / nofZ 2) (- d / nofZ 2)
    else if (- d / nofZ 2 <=? z) && (z <? d / nofZ 2) then h
    else if (d / nofZ 2 <=? z) && (z <? s / nofZ 2) then line (s / nofZ 2) (d / nofZ 2)
    else nzero.

  (** sureal/subjective_model.py:689-724 loglikelihood_fcn before the reduction:
      the array of log densities.  The logistic branch checks that all shapes
      agree (sureal/tools/stats.py:70), which needs one repetition, and then
      asks parallel_map for the length of a zip (TypeError).  Simplified:
      np.vectorize refuses arrays of size 0 in the uniform branch. *)
  Definition logpdf (pdf : pdfkind) (x : arr3 T) (q b v a : list T) (cids : list nat) : res (arr3 T) :=
    let ae := amb_of a cids in
    match pdf with
    | GaussianPdf => Ok (map3 (fun e s r y => nln (gaussian y (vat q e + vat b s) (nsqrt (w_es v ae e s)))) x)
    | UniformPdf =>
        Ok (map3 (fun e s r y => nln (convolution_of_two_uniforms y
              (vat b s) (nsqrt (nsq (vat v s) * nofZ 12))
              (vat q e) (nsqrt (nsq (vat ae e) * nofZ 12)))) x)
    | LogisticPdf => if Nat.eqb (dR x) 1 then Err TypeError else Err AssertionError
    | OtherPdf => Err AssertionError
    end.
  Definition ll_e (pdf : pdfkind) (x : arr3 T) (q b v a : list T) (cids : list nat) : res (list T) :=
    do l <- logpdf pdf x q b v a cids; Ok (sum_e l).
  Definition ll_s (pdf : pdfkind) (x : arr3 T) (q b v a : list T) (cids : list nat) : res (list T) :=
    do l <- logpdf pdf x q b v a cids; Ok (sum_s l).

  (** vector + scalar. *)
  Definition vshift (d : T) (l : list T) : list T := map (fun y => y + d) l.
  Definition vshift_down (d : T) (l : list T) : list T := map (fun y => y - d) l.

  (** Numerical first and second derivative of [f]
      (e.g. sureal/subjective_model.py:841-852). *)
  Definition numerical (f : list T -> res (list T)) (p : list T) : res (list T * list T) :=
    do f1 <- f (vshift (eps_num / nofZ 2) p);
    do f2 <- f (vshift_down (eps_num / nofZ 2) p);
    do g1 <- f (vshift eps_num p);
    do g0 <- f p;
    do g2 <- f (vshift_down eps_num p);
    Ok (map (fun d => d / eps_num) (vmap2 nsub f1 f2),
        map (fun d => d / nsq eps_num) (vmap2 nadd (vmap2 (fun u w => u - nofZ 2 * w) g1 g0) g2)).

  (** ** Updates.  Each returns the proposed value before the refresh, and the
      number under the square root of the std. *)

  (** b_s, simplified (sureal/subjective_model.py:814-824). *)
  Definition b_simplified (x : arr3 T) (cids : list nat) (q b v a : list T) : list T * list T :=
    let ae := amb_of a cids in
    let num := sum_e (map3 (fun e s r y => (y - vat q e) / w_es v ae e s) x) in
    let den := sum_e (map3 (fun e s r y => y / w_es v ae e s) (one_or_nan x)) in
    (vmap2 ndiv num den, den).

  (** b_s, original (sureal/subjective_model.py:827-836). *)
  Definition b_original (x : arr3 T) (cids : list nat) (q b v a : list T) : list T * list T :=
    let ae := amb_of a cids in
    let order1 := sum_e (map3 (fun e s r y => (y - vat q e - vat b s) / w_es v ae e s) x) in
    let order2 := sum_e (map3 (fun e s r y => (- y) / w_es v ae e s) (one_or_nan x)) in
    (vmap2 nsub b (vmap2 ndiv order1 order2), map nneg order2).

  (** Terms of the derivatives in v_s (sureal/subjective_model.py:867-876). *)
  Definition v_term1 (v ae : list T) (e s : nat) (res : T) : T :=
    (- vat v s) / w_es v ae e s + vat v s * nsq res / nsq (w_es v ae e s).
  Definition v_term2 (v ae : list T) (e s : nat) (res : T) : T :=
    let poly := npow4 (vat ae e) - nofZ 3 * npow4 (vat v s) - nofZ 2 * nsq (vat v s) * nsq (vat ae e) in
    (nsq (vat v s) - nsq (vat ae e)) / nsq (w_es v ae e s) + nsq res * poly / npow4 (w_es v ae e s).

  (** v_s, simplified (sureal/subjective_model.py:863-883). *)
  Definition v_simplified (x : arr3 T) (cids : list nat) (q b v a : list T) : list T * list T :=
    let ae := amb_of a cids in
    let res := residual x q b in
    let num := sum_e (map3 (fun e s r y => v_term1 v ae e s y) res) in
    let den := sum_e (map3 (fun e s r y => v_term2 v ae e s y) res) in
    let lpp := sum_e (map3 (fun e s r y => v_term2 v ae e s y) res) in
    (vmap2 nsub v (vmap2 ndiv num den), map nneg lpp).

  (** v_s, original (sureal/subjective_model.py:886-901). *)
  Definition v_original (x : arr3 T) (cids : list nat) (q b v a : list T) : list T * list T :=
    let ae := amb_of a cids in
    let res := residual x q b in
    let order1 := sum_e (map3 (fun e s r y => v_term1 v ae e s y) res) in
    let order2 := sum_e (map3 (fun e s r y => v_term2 v ae e s y) res) in
    (vmap2 nsub v (vmap2 ndiv order1 order2), map nneg order2).

  (** Terms of the derivatives in a_c (sureal/subjective_model.py:934-944). *)
  Definition a_term1 (v ae : list T) (e s : nat) (res : T) : T :=
    (- vat ae e) / w_es v ae e s + vat ae e * nsq res / nsq (w_es v ae e s).
  Definition a_term2 (v ae : list T) (e s : nat) (res : T) : T :=
    let poly := npow4 (vat v s) - nofZ 3 * npow4 (vat ae e) - nofZ 2 * nsq (vat v s) * nsq (vat ae e) in
    (- (nsq (vat v s) - nsq (vat ae e))) / nsq (w_es v ae e s) + nsq res * poly / npow4 (w_es v ae e s).

  (** a_c, simplified (sureal/subjective_model.py:930-961). *)
  Definition a_simplified (x : arr3 T) (cids : list nat) (C : nat) (q b v a : list T) : list T * list T :=
    let ae := amb_of a cids in
    let res := residual x q b in
    let num := sum_over_cid (sum_s (map3 (fun e s r y => a_term1 v ae e s y) res)) cids C in
    let den := sum_over_cid (sum_s (map3 (fun e s r y => a_term2 v ae e s y) res)) cids C in
    let lpp := sum_over_cid (sum_s (map3 (fun e s r y => a_term2 v ae e s y) res)) cids C in
    (vmap2 nsub a (vmap2 ndiv num den), map nneg lpp).

  (** a_c, original (sureal/subjective_model.py:964-981). *)
  Definition a_original (x : arr3 T) (cids : list nat) (C : nat) (q b v a : list T) : list T * list T :=
    let ae := amb_of a cids in
    let res := residual x q b in
    let order1 := sum_over_cid (sum_s (map3 (fun e s r y => a_term1 v ae e s y) res)) cids C in
    let order2 := sum_over_cid (sum_s (map3 (fun e s r y => a_term2 v ae e s y) res)) cids C in
    (vmap2 nsub a (vmap2 ndiv order1 order2), map nneg order2).

  (** x_e, simplified (sureal/subjective_model.py:1017-1027). *)
  Definition x_simplified (x : arr3 T) (cids : list nat) (q b v a : list T) : list T * list T :=
    let ae := amb_of a cids in
    let num := sum_s (map3 (fun e s r y => (y - vat b s) / w_es v ae e s) x) in
    let den := sum_s (map3 (fun e s r y => y / w_es v ae e s) (one_or_nan x)) in
    (vmap2 ndiv num den, den).

  (** x_e, original (sureal/subjective_model.py:1030-1040). *)
  Definition x_original (x : arr3 T) (cids : list nat) (q b v a : list T) : list T * list T :=
    let ae := amb_of a cids in
    let order1 := sum_s (map3 (fun e s r y => y / w_es v ae e s) (residual x q b)) in
    let order2 := sum_s (map3 (fun e s r y => (- y) / w_es v ae e s) (one_or_nan x)) in
    (vmap2 nsub q (vmap2 ndiv order1 order2), map nneg order2).

  (** The numerical variants (sureal/subjective_model.py:838-855, 903-919,
      983-1002, 1042-1058). *)
  Definition newton (p : list T) (d : list T * list T) : list T * list T :=
    (vmap2 nsub p (vmap2 ndiv (fst d) (snd d)), map nneg (snd d)).
  Definition b_numerical (pdf : pdfkind) (x : arr3 T) (cids : list nat) (q b v a : list T) : res (list T * list T) :=
    do d <- numerical (fun p => ll_e pdf x q p v a cids) b; Ok (newton b d).
  Definition v_numerical (pdf : pdfkind) (x : arr3 T) (cids : list nat) (q b v a : list T) : res (list T * list T) :=
    do d <- numerical (fun p => ll_e pdf x q b p a cids) v; Ok (newton v d).
  Definition a_numerical (pdf : pdfkind) (x : arr3 T) (cids : list nat) (C : nat) (q b v a : list T) : res (list T * list T) :=
    do d <- numerical (fun p => ll_s pdf x q b v p cids) a;
    Ok (newton a (sum_over_cid (fst d) cids C, sum_over_cid (snd d) cids C)).
  Definition x_numerical (pdf : pdfkind) (x : arr3 T) (cids : list nat) (q b v a : list T) : res (list T * list T) :=
    do d <- numerical (fun p => ll_s pdf x p b v a cids) q; Ok (newton q d).

  (** ** The loop *)
  (** State of the loop: estimates and their stds. *)
  Record mlest := MlEst {
    sx : list T; sb : list T; sv : list T; sa : list T;
    sx_std : list T; sb_std : list T; sv_std : list T; sa_std : list T }.

  Definition pick {A} (g : gradmethod) (s o : A) (n : res A) : res A :=
    match g with Simplified => Ok s | Original => Ok o | Numerical => n | OtherGradient => Err AssertionError end.

  (** np.maximum(p, 0.0 * np.ones(p.shape)). *)
  Definition clip0 (p : list T) : list T := map (fun y => nmaximum y (nzero * none_)) p.
  Definition zeros (n : nat) : list T := repeat nzero n.

  (** sureal/subjective_model.py:807-1063: one pass. *)
  Definition mle_pass (mode : mlemode) (g : gradmethod) (pdf : pdfkind) (x : arr3 T) (cids : list nat) (C : nat)
             (q b v a : list T) : res mlest :=
    do pb <- pick g (b_simplified x cids q b v a) (b_original x cids q b v a) (b_numerical pdf x cids q b v a);
    let so := match mode with SubjectOblivious => true | _ => false end in
    let co := match mode with ContentOblivious => true | _ => false end in
    let b' := if so then zeros (dS x) else refresh b (fst pb) in
    let b_std := if so then zeros (dS x) else map inv_sqrt_pos (snd pb) in
    do pv <- pick g (v_simplified x cids q b' v a) (v_original x cids q b' v a) (v_numerical pdf x cids q b' v a);
    let v' := if so then zeros (dS x) else clip0 (refresh v (fst pv)) in
    let v_std := if so then zeros (dS x) else map inv_sqrt_pos (snd pv) in
    do pa <- pick g (a_simplified x cids C q b' v' a) (a_original x cids C q b' v' a) (a_numerical pdf x cids C q b' v' a);
    let a' := if co then zeros C else clip0 (refresh a (fst pa)) in
    let a_std := if co then zeros C else map inv_sqrt_pos (snd pa) in
    do px <- pick g (x_simplified x cids q b' v' a') (x_original x cids q b' v' a') (x_numerical pdf x cids q b' v' a');
    Ok (MlEst (refresh q (fst px)) b' v' a' (map inv_sqrt_pos (snd px)) b_std v_std a_std).

  (** MAX_ITR (sureal/subjective_model.py:800). *)
  Definition mle_max_itr : nat := 100 * 100.

  (** sureal/subjective_model.py:806-1094: the loop.  The log-likelihood of each
      pass is only printed, but an error in it stops the run. *)
  Fixpoint mle_loop (fuel itr : nat) (mode : mlemode) (g : gradmethod) (pdf : pdfkind) (thr : T)
           (x : arr3 T) (cids : list nat) (C : nat) (q b v a : list T) : res (mlest * nat) :=
    match fuel with
    | O => Err Diverges
    | S f =>
        do st <- mle_pass mode g pdf x cids C q b v a;
        let itr := S itr in
        do d <- sp_norm (vmap2 nsub q (sx st));
        do _ <- ll_s pdf x (sx st) (sb st) (sv st) (sa st) cids;
        if d <? thr then Ok (st, itr)
        else if Nat.leb mle_max_itr itr then Ok (st, itr)
        else mle_loop f itr mode g pdf thr x cids C (sx st) (sb st) (sv st) (sa st)
    end.

  (** Options of _run_modeling (sureal/subjective_model.py:739-749); absent
      gradient_method, numerical_pdf, delta_thr take the class defaults. *)
  Record mleopts := MleOpts {
    mo_gradient : option gradmethod; mo_pdf : option pdfkind; mo_delta : option T;
    mo_force : option bool }.

  (** Result dictionary (sureal/subjective_model.py:1106-1169); the entries of a
      disabled part are absent. *)
  Record mleres := MleRes {
    ml_raw : arr3 T;
    ml_quality : list T; ml_quality_std : list T; ml_quality_lo : list T; ml_quality_hi : list T;
    ml_iter : nat;
    ml_bias : option (list T); ml_bias_std : option (list T); ml_bias_lo : option (list T); ml_bias_hi : option (list T);
    ml_incons : option (list T); ml_incons_std : option (list T); ml_incons_lo : option (list T); ml_incons_hi : option (list T);
    ml_ambiguity : option (list T); ml_ambiguity_std : option (list T); ml_ambiguity_lo : option (list T); ml_ambiguity_hi : option (list T);
    ml_recon : arr3 T; ml_dof : T; ml_ll : T; ml_aic : T; ml_bic : T;
    ml_observers : option (list string) }.

  (** sureal/subjective_model.py:1166-1178 _get_dof. *)
  Definition mle_dof (mode : mlemode) (E S C R : nat) : nat :=
    match mode with
    | ModeDefault => E + S * R * 2 + C
    | ContentOblivious => E + S * R * 2
    | SubjectOblivious => E + C
    end.

  (** sureal/subjective_model.py:780-796: start values from the plain MOS. *)
  Definition mle_start (mode : mlemode) (x : arr3 T) (cids : list nat) (C : nat) (mos : list T)
    : list T * list T * list T * list T :=
    let r := minus_quality x mos in
    (mos, zeros (dS x),
     match mode with SubjectOblivious => zeros (dS x) | _ => along0 (np_nanstd 0) (stack0 r) end,
     match mode with ContentOblivious => zeros C | _ => std_over_cid r cids C end).

  (** sureal/subjective_model.py:727-1164 after the preprocessing; [mos] is
      the result of the plain MOS model, [cids] the content ids of the videos
      and [C] one more than the largest content id of the references. *)
  Definition mle_solve (mode : mlemode) (o : mleopts) (x x0 : arr3 T) (mos : list T) (cids : list nat) (C : nat) : res mleres :=
    let g := match mo_gradient o with Some g => g | None => Simplified end in
    let pdf := match mo_pdf o with Some p => p | None => GaussianPdf end in
    let thr := match mo_delta o with Some t => t | None => epsilon end in
    let force := match mo_force o with Some f => f | None => true end in
    let '(q0, b0, v0, a0) := mle_start mode x cids C mos in
    do en <- mle_loop mle_max_itr 0 mode g pdf thr x cids C q0 b0 v0 a0;
    let '(st, itr) := en in
    let '(q, b) := zero_mean force (sx st) (sb st) in
    let ci l := map (fun y => z95 * y) l in
    let so := match mode with SubjectOblivious => true | _ => false end in
    let co := match mode with ContentOblivious => true | _ => false end in
    let unless (f : bool) (l : list T) := if f then None else Some l in
    let cnt_s := map (fun s => np_cnt (col (stack0 x) s)) (seq 0 (n1 (stack0 x))) in
    let num_os0 := np_cnt (flat3 x0) in
    let num_os := np_cnt (flat3 x) in
    let dof := nofnat (mle_dof mode (dE x0) (dS x0) C (dR x0)) / nofnat num_os0 in
    do l <- ll_s pdf x q b (sv st) (sa st) cids;
    let ll := np_sum l / nofnat num_os in
    Ok (MleRes x
         q (sx_std st) (ci (sx_std st)) (ci (sx_std st)) itr
         (unless so b) (unless so (sb_std st)) (unless so (ci (sb_std st))) (unless so (ci (sb_std st)))
         (unless so (sv st)) (unless so (sv_std st))
         (unless so (map (fun p => (none_ - nsqrt (nofnat (fst p) / chi2_ppf (none_ - ndec 25 1000) (nofnat (fst p)))) * snd p) (combine cnt_s (sv st))))
         (unless so (map (fun p => (nsqrt (nofnat (fst p) / chi2_ppf (ndec 25 1000) (nofnat (fst p))) - none_) * snd p) (combine cnt_s (sv st))))
         (unless co (sa st)) (unless co (sa_std st)) (unless co (ci (sa_std st))) (unless co (ci (sa_std st)))
         (ap_reconstructions x q b)
         dof ll (nofZ 2 * dof - nofZ 2 * ll) (nln (nofnat num_os0) * dof - nofZ 2 * ll) None).

  (** The classes: TYPE strings MLE, MLE_CO, MLE_SO, DMOS_MLE, DMOS_MLE_CO
      (sureal/subjective_model.py:678, 1181, 1187, 1269, 1283). *)
  Inductive mleclass := MLE | MLE_CO | MLE_SO | DMOS_MLE | DMOS_MLE_CO.
  Definition mode_of (c : mleclass) : mlemode :=
    match c with
    | MLE | DMOS_MLE => ModeDefault
    | MLE_CO | DMOS_MLE_CO => ContentOblivious
    | MLE_SO => SubjectOblivious
    end.

  (** run_modeling overrides (sureal/subjective_model.py:1272-1278, 1286-1292). *)
  Definition mle_kwargs (c : mleclass) (k : kwargs T) : res (kwargs T) :=
    match c with
    | DMOS_MLE | DMOS_MLE_CO => do _ <- guard (kw_dscore k); Ok (set_dscore k)
    | _ => Ok k
    end.

  (** sureal/subjective_model.py:727-797: checks, preprocessing, the MOS of the
      unprocessed votes, content ids. *)
  Definition mle_run (c : mleclass) (rd : reader T) (k : kwargs T) (o : mleopts) : res mleres :=
    do _ <- assert_ (negb (kw_rej k));
    do _ <- match mo_gradient o with Some OtherGradient => Err AssertionError | _ => Ok tt end;
    do pp <- preprocess rd k;
    do mx <- zmax_list (map rv_cid (ds_refs (rd_ds rd)));
    let C := (mx + 1)%Z in
    do m <- run_modeling MOS rd (KW false false false false None false None);
    let cids := content_id_of_dis_videos (rd_dvs rd) in
    do _ <- assert_ (Nat.eqb (dE (pp_arr pp)) (length cids));
    do _ <- forM_ (fun c => assert_ ((0 <=? c)%Z && (c <? C)%Z)) cids;
    mle_solve (mode_of c) o (pp_arr pp) (pp_orig pp) (mr_quality m) (map Z.to_nat cids) (Z.to_nat C).

  (** sureal/subjective_model.py:63-76 run_modeling. *)
  Definition mle_run_modeling (c : mleclass) (rd : reader T) (k : kwargs T) (o : mleopts) : res mleres :=
    do k' <- mle_kwargs c k;
    do m <- mle_run c rd k' o;
    do obs <- attach_observers rd;
    Ok (MleRes (ml_raw m) (postprocess k' (ml_quality m)) (ml_quality_std m) (ml_quality_lo m) (ml_quality_hi m) (ml_iter m)
          (ml_bias m) (ml_bias_std m) (ml_bias_lo m) (ml_bias_hi m)
          (ml_incons m) (ml_incons_std m) (ml_incons_lo m) (ml_incons_hi m)
          (ml_ambiguity m) (ml_ambiguity_std m) (ml_ambiguity_lo m) (ml_ambiguity_hi m)
          (ml_recon m) (ml_dof m) (ml_ll m) (ml_aic m) (ml_bic m) obs).
End Mle.
Arguments mlest : clear implicits.
Arguments mleres : clear implicits.
Arguments mleopts : clear implicits.
