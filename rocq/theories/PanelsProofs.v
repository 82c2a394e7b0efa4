(** Proofs about the panels of the validation. *)
From Coq Require Import String.
From Coq Require Import List ZArith Bool Arith Reals Lra Lia.
From Verif Require Import PyBase Num ExtReal ExtRealProofs NumPy Dataset BaseProofs Perf Runs SpecMos SpecPerf SpecRuns PerfProofs Perf3Proofs Runs2Proofs Panels SpecPanels.
Import ListNotations.
Local Open Scope list_scope.
Local Open Scope R_scope.

Lemma fold_py_min : forall r x, exists a, fold_left (fun m y : ef => if nltb y m then y else m) (map Fin r) (Fin x) = Fin a /\ smallest a (x :: r).
Proof.
  induction r as [|y r IH]; intros x; cbn [map fold_left].
  - exists x. split; [reflexivity|]. split; [left; reflexivity|]. intros v [<-|[]]. lra.
  - change (nltb (Fin y) (Fin x)) with (Rltb y x). destruct (Rltb y x) eqn:C.
    + apply Rltb_true in C. destruct (IH y) as (a & E & I & M). exists a. split; [exact E|]. split; [right; exact I|].
      intros v [<-|V]; [|apply M; exact V]. specialize (M y (or_introl eq_refl)). lra.
    + apply Rltb_false in C. destruct (IH x) as (a & E & I & M). exists a. split; [exact E|]. split.
      * destruct I as [->|I]; [left; reflexivity|right; right; exact I].
      * intros v [<-|[<-|V]]; [apply M; left; reflexivity| |apply M; right; exact V]. specialize (M x (or_introl eq_refl)). lra.
Qed.
Lemma fold_py_max : forall r x, exists a, fold_left (fun m y : ef => if nltb m y then y else m) (map Fin r) (Fin x) = Fin a /\ largest a (x :: r).
Proof.
  induction r as [|y r IH]; intros x; cbn [map fold_left].
  - exists x. split; [reflexivity|]. split; [left; reflexivity|]. intros v [<-|[]]. lra.
  - change (nltb (Fin x) (Fin y)) with (Rltb x y). destruct (Rltb x y) eqn:C.
    + apply Rltb_true in C. destruct (IH y) as (a & E & I & M). exists a. split; [exact E|]. split; [right; exact I|].
      intros v [<-|V]; [|apply M; exact V]. specialize (M y (or_introl eq_refl)). lra.
    + apply Rltb_false in C. destruct (IH x) as (a & E & I & M). exists a. split; [exact E|]. split.
      * destruct I as [->|I]; [left; reflexivity|right; right; exact I].
      * intros v [<-|[<-|V]]; [apply M; left; reflexivity| |apply M; right; exact V]. specialize (M x (or_introl eq_refl)). lra.
Qed.
Lemma finite_fin : forall x, is_finite (Fin x) = true.
Proof. intro x. unfold is_finite. change (Reqbb (x - x) 0 = true). unfold Reqbb. destruct (Req_EM_T (x - x) 0); [reflexivity|]. exfalso. apply n. ring. Qed.
Lemma diagonal_fin : forall x, x <> [] -> exists lo hi, diagonal (map Fin x) = Ok (Fin lo, Fin hi) /\ smallest lo x /\ largest hi x.
Proof.
  intros [|x r] N; [congruence|]. destruct (fold_py_min r x) as (lo & L & Sm). destruct (fold_py_max r x) as (hi & H & La).
  exists lo, hi. split; [|split; assumption]. unfold diagonal, py_min, py_max. cbn [map bind]. rewrite L, H. cbn [bind]. rewrite !finite_fin. reflexivity.
Qed.
Lemma rmse_fin : forall x y, x <> [] -> length y = length x -> rmse_of (map Fin x) (map Fin y) = Ok (Fin (distance x y)).
Proof.
  intros x y N L. unfold rmse_of. replace (map Aggregate (map Fin x)) with (plain x) by (unfold plain; rewrite map_map; reflexivity).
  apply c63_rmse; assumption.
Qed.
Lemma or_default_chosen : forall d name default, chosen d name default (or_default d name default).
Proof.
  intros d name default. unfold or_default, chosen. induction d as [|[k v] d IH]; [left; split; [intros []|reflexivity]|].
  cbn [dget]. destruct (String.eqb_spec name k) as [->|D].
  - right. exists [], d. split; [reflexivity|intros []].
  - destruct IH as [[A B]|(d1 & d2 & E & A)].
    + left. split; [|exact B]. cbn [map fst]. intros [->|I]; [congruence|contradiction].
    + right. exists ((k, v) :: d1), d2. rewrite E at 1. split; [reflexivity|]. cbn [map fst]. intros [->|I]; [congruence|contradiction].
Qed.
Lemma combine_pairs : forall (x y : list R) i u v, nth_error x i = Some u -> nth_error y i = Some v ->
  nth_error (combine (map Fin x) (map Fin y)) i = Some (Fin u, Fin v).
Proof.
  induction x as [|a x IH]; intros [|b y] [|i] u v H K; try discriminate; cbn [map combine nth_error] in *.
  - injection H as <-. injection K as <-. reflexivity.
  - apply IH; assumption.
Qed.
Lemma covered_number : forall (x y : list R) l u n c c', covered_positions (map Fin x) (map Fin y) l u n c -> covered_positions (map Fin x) (map Fin y) l u n c' -> length c = length c'.
Proof.
  intros x y l u n c c' [N H] [N' H']. apply Nat.le_antisymm; apply NoDup_incl_length; try assumption; intros i I; [apply H', H|apply H, H']; exact I.
Qed.

Section Blocks.
  Variables (axes : list string) (colors markers : list (string * string)) (eb : bool) (model : string).

  Lemma panel_skip : forall key cut truth e, (if in_dec string_dec key axes then both (key, truth, e) else false) = false ->
    panel_of axes colors markers eb model key cut truth e = Ok [].
  Proof.
    intros key cut truth e H. unfold panel_of. destruct (memb String.eqb key axes) eqn:M; [|reflexivity]. cbn [negb].
    apply (memb_In string String.eqb String.eqb_eq) in M. destruct (in_dec string_dec key axes); [|contradiction].
    destruct e as [[y|] ci]; cbn [es_value]; [|reflexivity]. destruct truth; [discriminate|reflexivity].
  Qed.

  Lemma panel_value : forall key cut x y ci, In key axes -> x <> [] -> length y = length x ->
    (forall c, ci = Some c -> exists l u, c = [l; u] /\ length l = length x /\ length u = length x) ->
    exists p, panel_of axes colors markers eb model key cut (Some (map Fin x)) (Est (Some (map Fin y)) ci) = Ok [p] /\
      shows colors markers eb (model, (key, Some (map Fin x), Est (Some (map Fin y)) ci)) p.
  Proof.
    intros key cut x y ci I N L C. unfold panel_of. rewrite (proj2 (memb_In string String.eqb String.eqb_eq key axes) I). cbn [negb es_value es_ci].
    rewrite !map_length, L, Nat.min_id, !firstn_all2 by (rewrite map_length; lia).
    assert (P : exists q, (match ci with Some c => do p <- get_ci_percentage (map Fin x) (map Fin y) c; Ok (Some p) | None => Ok None end) = Ok q /\
      match ci with
      | Some [l; u] => forall c, covered_positions (map Fin x) (map Fin y) l u (length x) c -> q = Some (Fin (100 * (INR (length c) / INR (length x))))
      | Some _ => False
      | None => q = None end).
    { destruct ci as [c|]; [|exists None; split; reflexivity]. destruct (C c eq_refl) as (l & u & -> & Ll & Lu).
      assert (N' : map Fin x <> []) by (destruct x; [congruence|discriminate]).
      destruct (c62_positions_exist (map Fin x) (map Fin y) l u) as [c Hc]; rewrite ?map_length; auto.
      rewrite map_length in Hc. rewrite (c62_value (map Fin x) (map Fin y) l u c) by (rewrite ?map_length; auto). cbn [bind]. eexists. split; [reflexivity|].
      intros c' Hc'. rewrite map_length, (covered_number _ _ _ _ _ _ _ Hc Hc'). reflexivity. }
    destruct P as (q & E & Q). rewrite E. cbn [bind].
    replace (if cut then map Fin x else map Fin x) with (map Fin x) by (destruct cut; reflexivity).
    replace (if cut then map Fin y else map Fin y) with (map Fin y) by (destruct cut; reflexivity).
    rewrite rmse_fin by assumption. cbn [bind]. destruct (diagonal_fin x N) as (lo & hi & D & Sm & La). rewrite D. cbn [bind].
    eexists. split; [reflexivity|]. exists x, y. cbn [fst snd es_value es_ci pa_model pa_axes pa_color pa_marker].
    do 4 (split; [reflexivity|]). do 2 (split; [apply or_default_chosen|]). split.
    - unfold shows_pairs. cbn [pa_points pa_rmse pa_diagonal]. split; [rewrite combine_length, !map_length; lia|]. split; [intros; apply combine_pairs; assumption|].
      split; [reflexivity|]. exists lo, hi. auto.
    - unfold shows_margins. cbn [pa_error pa_percent]. destruct eb, ci as [[|l [|u [|? ?]]]|]; cbn [andb]; try contradiction; try (split; reflexivity).
      split; [reflexivity|exact Q].
  Qed.

  (** Different lengths *)
  Lemma panel_refused : forall key cut xs ys ci, In key axes -> length ys <> length xs ->
    (cut = false /\ ci = None) \/ (exists l u, ci = Some [l; u] /\ length l = length u) ->
    panel_of axes colors markers eb model key cut (Some xs) (Est (Some ys) ci) = Err AssertionError.
  Proof.
    intros key cut xs ys ci I L C. unfold panel_of. rewrite (proj2 (memb_In string String.eqb String.eqb_eq key axes) I). cbn [negb es_value es_ci].
    destruct C as [[-> ->]|(l & u & -> & E)]; [|rewrite c62_mismatch by auto; reflexivity].
    cbn [bind]. unfold rmse_of, perf_score. rewrite map_length. destruct (Nat.eqb_spec (length xs) (length ys)); [congruence|reflexivity].
  Qed.
  Lemma panel_cut : forall key x y, In key axes -> x <> [] -> y <> [] ->
    exists p, panel_of axes colors markers eb model key true (Some (map Fin x)) (Est (Some (map Fin y)) None) = Ok [p] /\
      pa_model p = model /\ pa_axes p = key /\ chosen colors model "black" (pa_color p) /\ chosen markers model "." (pa_marker p) /\
      pa_error p = None /\ pa_percent p = None /\
      shows_pairs (firstn (length y) x) (firstn (length x) y) p.
  Proof.
    intros key x y I Nx Ny.
    assert (F : firstn (length y) x = firstn (Nat.min (length x) (length y)) x /\ firstn (length x) y = firstn (Nat.min (length x) (length y)) y).
    { split; [rewrite <- (firstn_all x) at 1 | rewrite <- (firstn_all y) at 1]; rewrite firstn_firstn; [rewrite Nat.min_comm|]; reflexivity. }
    destruct F as [F1 F2]. rewrite F1, F2. set (n := Nat.min (length x) (length y)).
    assert (L : length (firstn n x) = n /\ length (firstn n y) = n) by (rewrite !firstn_length; unfold n; lia). destruct L as [L1 L2].
    assert (N1 : firstn n x <> []). { intro H. rewrite H in L1. cbn in L1. destruct x, y; try congruence. unfold n in L1. cbn [length Nat.min] in L1. lia. }
    destruct (panel_value key true (firstn n x) (firstn n y) None I N1) as (p & E & S); [lia|discriminate|].
    exists p. split.
    - revert E. unfold panel_of. rewrite (proj2 (memb_In string String.eqb String.eqb_eq key axes) I). cbn [negb es_value es_ci bind].
      rewrite !map_length, L1, L2, Nat.min_id. fold n.
      rewrite (firstn_all2 (map Fin (firstn n x))) by (rewrite map_length; lia). rewrite (firstn_all2 (map Fin (firstn n y))) by (rewrite map_length; lia).
      rewrite !firstn_map. auto.
    - destruct S as (x' & y' & X & Y & A & B & C & D & P & M). cbn [fst snd es_value es_ci] in *.
      assert (Inj : forall u v : list R, map Fin u = map Fin v -> u = v).
      { induction u as [|a u IH]; intros [|b v] H; try discriminate; [reflexivity|]. cbn [map] in H. injection H as H1 H2. rewrite H1, (IH _ H2). reflexivity. }
      injection X as X. injection Y as Y. apply Inj in X, Y. rewrite <- X, <- Y in P. repeat (split; [assumption|]).
      unfold shows_margins in M. destruct eb; destruct M as [M1 M2]; auto.
  Qed.
  Lemma panel_empty : forall key cut ys ci, In key axes -> exists e,
    panel_of axes colors markers eb model key cut (Some []) (Est (Some ys) ci) = Err e.
  Proof.
    intros key cut ys ci I. unfold panel_of. rewrite (proj2 (memb_In string String.eqb String.eqb_eq key axes) I). cbn [negb es_value es_ci].
    match goal with |- exists e, bind ?m _ = _ => destruct m; cbn [bind]; [|eauto] end.
    rewrite firstn_nil. replace (if cut then [] else []) with (@nil ef) by (destruct cut; reflexivity).
    match goal with |- exists e, bind ?m _ = _ => destruct m; cbn [bind]; [|eauto] end. eexists. reflexivity.
  Qed.
End Blocks.

Section Loop.
  Variables (axes : list string) (colors markers : list (string * string)) (eb : bool) (t : truths ef).

  (** A block: nothing, or the panel that is due. *)
  Lemma block : forall model key cut truth e, comparable (key, truth, e) ->
    exists ps, panel_of axes colors markers eb model key cut truth e = Ok ps /\
      Forall2 (shows colors markers eb) (map (fun e => (model, e)) (filter (fun e => if in_dec string_dec (fst (fst e)) axes then both e else false) [(key, truth, e)])) ps.
  Proof.
    intros model key cut truth e C. cbn [filter fst]. destruct (if in_dec string_dec key axes then both (key, truth, e) else false) eqn:B.
    - destruct (in_dec string_dec key axes) as [I|]; [|discriminate]. destruct truth as [xs|]; [|discriminate]. destruct e as [[ys|] ci]; [|discriminate].
      destruct (C xs ys eq_refl eq_refl) as (N & L & (x & ->) & (y & ->) & M). cbn [snd es_ci] in M. rewrite !map_length in L. rewrite !map_length in M.
      destruct (panel_value axes colors markers eb model key cut x y ci I) as (p & E & S); [destruct x; [exfalso; apply N; reflexivity|discriminate]|exact L|exact M|].
      exists [p]. split; [exact E|]. constructor; [exact S|constructor].
    - exists []. split; [apply panel_skip; exact B|constructor].
  Qed.
  Lemma five_blocks : forall model r, (forall e, In e (compared t r) -> comparable e) ->
    exists ps, panels_of axes colors markers eb t model r = Ok ps /\ Forall2 (shows colors markers eb) (due axes t (model, r)) ps.
  Proof.
    intros model r C. unfold panels_of, due. cbn [fst snd].
    unfold compared in *. cbn [In] in C.
    match goal with |- context [filter ?f (?a :: ?b :: ?c :: ?d :: ?e :: nil)] =>
      replace (filter f (a :: b :: c :: d :: e :: nil)) with (filter f [a] ++ filter f [b] ++ filter f [c] ++ filter f [d] ++ filter f [e])
        by (rewrite <- !filter_app; reflexivity) end.
    rewrite !map_app.
    destruct (block model "quality_scores"%string false (sy_quality (tr_syn t)) (v_quality (vf_res r))) as (p1 & E1 & S1); [apply C; auto|].
    destruct (block model "quality_scores_std"%string false (tr_std t) (Est (vf_std r) None)) as (p2 & E2 & S2); [apply C; auto|].
    destruct (block model "observer_bias"%string true (sy_bias (tr_syn t)) (v_bias (vf_res r))) as (p3 & E3 & S3); [apply C; auto|].
    destruct (block model "observer_inconsistency"%string true (sy_incons (tr_syn t)) (v_incons (vf_res r))) as (p4 & E4 & S4); [apply C; auto|].
    destruct (block model "quality_ambiguity"%string true (tr_ambiguity t) (Est (vf_ambiguity r) None)) as (p5 & E5 & S5); [apply C; auto 6|].
    rewrite E1, E2, E3, E4, E5. cbn [bind]. eexists. split; [reflexivity|]. repeat apply Forall2_app; assumption.
  Qed.

  Definition own (r : string * vfull ef) : string * vresult ef := (fst r, vf_res (snd r)).
  (** Panels do not touch the dictionary. *)
  Lemma loop_results : forall rs d ps d' ps', foldM (validate_round axes colors markers eb t) rs (d, ps) = Ok (d', ps') ->
    foldM (validate_one (tr_syn t)) (map own rs) d = Ok d'.
  Proof.
    induction rs as [|r rs IH]; intros d ps d' ps' H; cbn [foldM map] in *; [congruence|].
    unfold validate_round at 1 in H. cbn [fst snd] in H. fold (own r) in H. destruct (validate_one (tr_syn t) d (own r)) as [d1|]; [cbn [bind] in *|discriminate].
    destruct (panels_of _ _ _ _ _ _ _) as [p1|]; [cbn [bind] in H|discriminate]. eapply IH. exact H.
  Qed.
  Lemma loop_panels : forall rs d d' ps, foldM (validate_one (tr_syn t)) (map own rs) d = Ok d' ->
    (forall r e, In r rs -> In e (compared t (snd r)) -> comparable e) ->
    exists qs, foldM (validate_round axes colors markers eb t) rs (d, ps) = Ok (d', ps ++ qs) /\ Forall2 (shows colors markers eb) (flat_map (due axes t) rs) qs.
  Proof.
    induction rs as [|r rs IH]; intros d d' ps H C; cbn [foldM map flat_map] in *.
    - exists []. rewrite app_nil_r. split; [congruence|constructor].
    - unfold validate_round at 1. cbn [fst snd]. fold (own r). destruct (validate_one (tr_syn t) d (own r)) as [d1|]; [cbn [bind] in *|discriminate].
      destruct (five_blocks (fst r) (snd r)) as (p1 & E1 & S1); [intros e I; apply (C r); auto; left; reflexivity|]. rewrite E1. cbn [bind].
      destruct (IH d1 d' (ps ++ p1) H) as (qs & E & S); [intros r' e I; apply C; right; exact I|]. exists (p1 ++ qs). rewrite app_assoc. split; [exact E|].
      apply Forall2_app; [|exact S]. destruct r; exact S1.
  Qed.
  Lemma loop_bare : forall rs d ps, axes = [] -> foldM (validate_round axes colors markers eb t) rs (d, ps) = (do d' <- foldM (validate_one (tr_syn t)) (map own rs) d; Ok (d', ps)).
  Proof.
    intros rs d ps ->. revert d. induction rs as [|r rs IH]; intro d; cbn [foldM map]; [reflexivity|].
    unfold validate_round at 1. cbn [fst snd]. fold (own r). destruct (validate_one (tr_syn t) d (own r)) as [d1|]; [cbn [bind]|reflexivity].
    unfold panels_of, panel_of. cbn [memb existsb negb bind app]. rewrite app_nil_r. apply IH.
  Qed.

  Lemma outcomes : forall models, mapM (fun m : string * res (vresult ef) => do r <- snd m; Ok (fst m, r)) (map outcome models) =
    (do rs <- mapM (fun m : string * res (vfull ef) => do r <- snd m; Ok (fst m, r)) models; Ok (map own rs)).
  Proof.
    induction models as [|[n [r|e]] ms IH]; cbn [mapM map outcome fst snd bind]; [reflexivity| |reflexivity].
    rewrite IH. destruct (mapM _ ms); reflexivity.
  Qed.
  Lemma figures_results : forall p models d ps, validate_figures axes colors markers eb p models t = Ok (d, ps) ->
    validate_results p (map outcome models) (tr_syn t) = Ok d.
  Proof.
    intros p models d ps H. unfold validate_figures in H. unfold validate_results. rewrite outcomes.
    match type of H with bind ?m _ = _ => destruct m; cbn [bind] in *; [|discriminate] end.
    destruct (mapM _ models) as [rs|]; cbn [bind] in *; [|discriminate]. eapply loop_results. exact H.
  Qed.
  Lemma figures_all : forall p models rs, probability_ok p -> Forall2 (fun m r => fst m = fst r /\ snd m = Ok (snd r)) models rs ->
    (forall r e, In r rs -> In e (compared t (snd r)) -> comparable e) ->
    exists d ps, validate_figures axes colors markers eb (option_map Fin p) models t = Ok (d, ps) /\
      validate_results (option_map Fin p) (map outcome models) (tr_syn t) = Ok d /\
      Forall2 (shows colors markers eb) (flat_map (due axes t) rs) ps.
  Proof.
    intros p models rs P F C.
    assert (Ms : mapM (fun m : string * res (vfull ef) => do r <- snd m; Ok (fst m, r)) models = Ok rs).
    { apply mapM_Ok. clear C. induction F as [|m r ms rs [A B] F IH]; constructor; [|exact IH]. rewrite B. cbn [bind]. rewrite A. destruct r; reflexivity. }
    destruct (proj2 (c86_total (tr_syn t) p (map outcome models) (map own rs) P ltac:(clear - F; induction F as [|m r ms rs [A B] F IH]; constructor; [unfold outcome, own; cbn [fst snd]; rewrite B; auto|exact IH]))) as [d D].
    { intros ty v I. apply in_map_iff in I. destruct I as ([n r] & E & I). unfold own in E. cbn [fst snd] in E. injection E as _ <-.
      assert (G : forall key truth e, In (key, truth, e) (compared t r) -> fine truth e).
      { intros key truth e Ie (A & B & Cc). destruct truth as [xs|]; [|congruence]. destruct e as [[ys|] [ci|]]; cbn [es_value es_ci] in *; try congruence.
        destruct (C _ _ I Ie xs ys eq_refl eq_refl) as (N & L & _ & _ & M). destruct (M ci eq_refl) as (l & u & -> & Ll & Lu).
        destruct (proj2 (c62_accepts xs ys [l; u])) as [v V]; [exists l, u; auto|]. exists v, xs, ys, [l; u]. auto. }
      cbn [snd] in G. split; [|split]; eapply G; cbn [compared In]; eauto 6. }
    assert (D0 := D). rewrite validate_unfold in D by exact P. rewrite outcomes, Ms in D. cbn [bind] in D.
    destruct (loop_panels rs _ _ [] D C) as (qs & E & S). exists d, qs. split; [|split; [exact D0|exact S]].
    unfold validate_figures. rewrite Ms. unfold validate_results in D0. destruct (match option_map Fin p with Some _ => _ | None => _ end) as [[]|] in *; [cbn [bind] in *|discriminate].
    exact E.
  Qed.
  Lemma figures_bare : forall p models, axes = [] -> validate_figures axes colors markers eb p models t =
    (do d <- validate_results p (map outcome models) (tr_syn t); Ok (d, [])).
  Proof.
    intros p models A. unfold validate_figures, validate_results. rewrite outcomes.
    match goal with |- bind ?m _ = _ => destruct m; cbn [bind]; [|reflexivity] end.
    destruct (mapM _ models) as [rs|]; cbn [bind]; [|reflexivity]. rewrite loop_bare by exact A. reflexivity.
  Qed.
End Loop.
