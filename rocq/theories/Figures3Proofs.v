(** Lemmas for claims C96 (scores against votes), C99 (tables of comparisons) and C100. *)
From Coq Require Import String.
From Coq Require Import List ZArith Bool Arith Lia Reals Lra Sorted Permutation.
From Verif Require Import PyBase Num ExtReal NumPy Dataset PcDataset Stats Figures SpecDataset SpecMos SpecStats SpecPc SpecBt SpecFigures
  BaseProofs ExtRealProofs ArrayProofs MosProofs StatsProofs Stats2Proofs Pc6Proofs FiguresProofs Figures2Proofs.
Import ListNotations.
Local Open Scope list_scope.

(** ** C96: scores against votes *)
Lemma fold_max : forall r x, exists a, fold_left nmaximum (map Fin r) (Fin x) = Fin a /\ In a (x :: r) /\ forall v, In v (x :: r) -> (v <= a)%R.
Proof.
  induction r as [|y r IH]; intros x; cbn [map fold_left].
  - exists x. split; [reflexivity|]. split; [left; reflexivity|]. intros v [<-|[]]. lra.
  - assert (E : nmaximum (Fin x) (Fin y) = Fin (Rmax x y)).
    { unfold nmaximum. cbn [nisnan Num_ef ef_isnan nltb ef_ltb]. unfold Rltb, Rmax. destruct (Rlt_dec y x), (Rle_dec x y); try reflexivity; try lra; f_equal; lra. }
    rewrite E. destruct (IH (Rmax x y)) as (a & Ea & Ia & La). exists a. split; [exact Ea|]. split.
    + destruct Ia as [<-|Ia]; [unfold Rmax; destruct (Rle_dec x y); [right; left; reflexivity|left; reflexivity]|right; right; exact Ia].
    + intros v [<-|[<-|Hv]]; [assert (K := La _ (or_introl eq_refl)); assert (M := Rmax_l x y); lra|assert (K := La _ (or_introl eq_refl)); assert (M := Rmax_r x y); lra|apply La; right; exact Hv].
Qed.
Lemma all_means : forall a, finite_votes a -> let all := flat_map (row (mean_matrix a)) (seq 0 (dS a)) in
  allfinnan all /\ forall x, In (Fin x) all <-> exists i j, (i < dS a)%nat /\ (j < dE a)%nat /\ is_mean (Fin x) (rep_votes a j i).
Proof.
  intros a HF all. assert (HI : forall y, In y all <-> exists i j, (i < dS a)%nat /\ (j < dE a)%nat /\ y = nanmeanR (rep_votes a j i)).
  { intro y. unfold all. rewrite in_flat_map. split.
    - intros (i & Hi & I). unfold row in I. apply in_map_iff in I as (j & <- & Hj). apply in_seq in Hi, Hj. cbn [n1 mean_matrix] in Hj. exists i, j. split; [lia|]. split; [lia|]. apply mean_entry; [exact HF|lia|lia].
    - intros (i & j & Hi & Hj & ->). exists i. split; [apply in_seq; lia|]. unfold row. apply in_map_iff. exists j. split; [apply mean_entry; assumption|]. apply in_seq. cbn [n1 mean_matrix]. lia. }
  split.
  - apply Forall_forall. intros y Hy. apply HI in Hy as (i & j & _ & _ & ->). destruct (rep_votes a j i); exact I.
  - intro x. rewrite HI. split; intros (i & j & Hi & Hj & E); exists i, j; (split; [exact Hi|]); (split; [exact Hj|]).
    + rewrite E. apply nanmeanR_is_mean.
    + apply is_mean_fun. exact E.
Qed.
Lemma extremes : forall l : list ef, allfinnan l -> (exists x, In (Fin x) l) ->
  exists lo hi, np_nanmin l = Fin lo /\ np_nanmax l = Fin hi /\ In (Fin lo) l /\ In (Fin hi) l /\ forall x, In (Fin x) l -> (lo <= x <= hi)%R.
Proof.
  intros l HF (x0 & H0). unfold np_nanmin, np_nanmax. rewrite (notnan_finnan l HF). apply presents_In in H0. destruct (presents l) as [|x r] eqn:E; [destruct H0|]. cbn [map].
  destruct (fold_min r x) as (lo & E1 & I1 & L1). destruct (fold_max r x) as (hi & E2 & I2 & L2). exists lo, hi. split; [exact E1|]. split; [exact E2|]. rewrite <- !presents_In, E.
  split; [exact I1|]. split; [exact I2|]. intros y Hy. rewrite <- presents_In, E in Hy. split; [apply L1; exact Hy|apply L2; exact Hy].
Qed.
Lemma nth_error_combine : forall A B (l : list A) (l' : list B) k x y, nth_error l k = Some x -> nth_error l' k = Some y -> nth_error (combine l l') k = Some (x, y).
Proof. induction l as [|a l IH]; intros [|b l'] [|k] x y H H'; try discriminate; cbn in *; [congruence|apply IH; assumption]. Qed.
Lemma nth_error_seq : forall s n k, (k < n)%nat -> nth_error (seq s n) k = Some (s + k)%nat.
Proof. intros s n. revert s. induction n as [|n IH]; intros s [|k] H; try lia; cbn; [f_equal; lia|]. rewrite IH by lia. f_equal. lia. Qed.
Lemma c96_versus : forall a rs, finite_votes a -> scores_ok a rs -> (1 < dS a)%nat -> (exists i j, (i < dS a)%nat /\ (j < dE a)%nat /\ rep_votes a j i <> []) ->
  exists ds, fig_quality_vs_raw a rs = Ok ds /\ Forall2 (versus a) (filter (fun r => given (sh_quality r)) rs) ds.
Proof.
  intros a rs HF HS Hn (i0 & j0 & Hi0 & Hj0 & HV). unfold fig_quality_vs_raw. cbn [n0 mean_matrix].
  replace (Nat.ltb 1 (dS a)) with true by (symmetry; apply Nat.ltb_lt; exact Hn). cbn [assert_ bind].
  destruct (all_means a HF) as [AF AI]. cbv zeta in AF, AI. set (all := flat_map (row (mean_matrix a)) (seq 0 (dS a))) in *.
  destruct (extremes all AF) as (lo & hi & E1 & E2 & I1 & I2 & LH).
  { exists (Rmean (rep_votes a j0 i0)). apply AI. exists i0, j0. split; [exact Hi0|]. split; [exact Hj0|]. right. split; [exact HV|reflexivity]. }
  assert (A0 : match all with [] => Err ValueError | _ => Ok tt end = Ok tt) by (destruct all; [destruct I1|reflexivity]). rewrite A0. cbn [bind].
  rewrite E1, E2. cbn [nisnan Num_ef ef_isnan]. destruct (c98_grid (dS a) ltac:(lia)) as [G1 G2].
  replace (Nat.leb (dS a) (grid_rows (dS a) * grid_cols (dS a))) with true by (symmetry; apply Nat.leb_le; exact G1).
  induction rs as [|r rs IH].
  - exists []. split; [reflexivity|constructor].
  - destruct IH as (ds & E & F); [intros r' Hr'; apply HS; right; exact Hr'|]. assert (Hr := HS r (or_introl eq_refl)). cbn [mapM filter].
    match type of E with bind ?m _ = _ => destruct m as [dss|e] eqn:EM; [|discriminate] end. cbn [bind] in E. apply ok_inj in E.
    destruct (sh_quality r) as [v|] eqn:EQ; cbn [given] in *.
    + destruct (Hr eq_refl) as (q & Hq & L). rewrite EQ in Hq. injection Hq as ->. cbn [bind]. eexists. split; [reflexivity|]. cbn [concat app]. rewrite E. constructor; [|exact F].
      exists q. eexists _, _, _, _, _. split; [split; assumption|]. split; [reflexivity|]. split; [rewrite map_length, seq_length; reflexivity|]. split; [exact G1|]. split; [exact G2|]. split; [|split; [|split]].
      * intros i Hi. eexists. split; [apply map_nth_error; apply (nth_error_seq 0); exact Hi|]. cbn [Nat.add]. split.
        -- rewrite combine_length, map_length. unfold row. rewrite map_length, seq_length. cbn [n1 mean_matrix]. lia.
        -- intros j Hj. exists (nanmeanR (rep_votes a j i)). split; [apply nanmeanR_is_mean|]. apply nth_error_combine.
           ++ rewrite <- (mean_entry a i j HF Hi Hj). unfold row. rewrite (map_nth_error _ _ _ (nth_error_seq 0 (n1 (mean_matrix a)) j Hj)). reflexivity.
           ++ rewrite <- vat_nth by lia. unfold vat. apply nth_error_nth'. rewrite map_length. lia.
      * apply AI. exact I1.
      * apply AI. exact I2.
      * intros i j x Hi Hj M. apply LH, AI. exists i, j. auto.
    + eexists. split; [reflexivity|]. cbn [bind concat app]. rewrite E. exact F.
Qed.

(** ** C99: tables of comparisons *)
Lemma reader_two_sided : forall (ds : dataset ef (string * Z)) a, pc_reader_3darray ds = Ok a -> two_sided a.
Proof.
  intros ds a E. destruct (c14 ds a E) as (E1 & E2 & _ & V & S). split; [congruence|]. intros i j s _ _ D _.
  destruct (V i j s) as [N|(x & X & P)].
  - left. split; [exact N|]. destruct (V j i s) as [N'|(y & Y & _)]; [exact N'|]. rewrite (S j i s y) in N by (auto; congruence). discriminate.
  - right. exists x. split; [destruct P as [->|[->| ->]]; lra|]. split; [exact X|]. apply S; assumption.
Qed.

(** ** C100 *)
Lemma ins_place : forall pt s n, map (fun k => (nofnat k + nofnat s * ndec 4 10)%num) (seq 0 n) = map (fun k => Fin (bar_place s k)) (seq 0 n) /\
  map (fun k => (nofnat k + nofnat s * ndec 4 10 + ndec 2 10)%num) (seq 0 n) = map (fun k => Fin (dot_place s k)) (seq 0 n) /\ (pt = pt :> @plot_type).
Proof.
  intros pt s n. split; [|split; [|reflexivity]]; apply map_ext; intro k; unfold ndec, bar_place, dot_place; rewrite !nofnat_fin; cbn [nofZ ndiv Num_ef nadd nmul]; rewrite !div_fin by lra; reflexivity.
Qed.
Lemma average_ci_fin : forall l h, length l = length h -> l <> [] -> average_ci (map Fin l, map Fin h) = Fin ((Rsum l + Rsum h) / INR (length l)).
Proof.
  intros l h L D. unfold average_ci. cbn [fst snd].
  assert (E : forall l h, length l = length h -> exists r, map (fun p : ef * ef => (fst p + snd p)%num) (combine (map Fin l) (map Fin h)) = map Fin r /\ length r = length l /\ Rsum r = (Rsum l + Rsum h)%R).
  { clear. induction l as [|x l IH]; intros [|y h] L; cbn in L; try lia.
    - exists []. cbn. repeat split. unfold Rsum; cbn; lra.
    - destruct (IH h ltac:(lia)) as (r & E & Lr & S). exists ((x + y)%R :: r). cbn [map combine fst snd]. rewrite E. cbn [length]. rewrite Lr. repeat split. unfold Rsum in *. cbn [fold_right]. lra. }
  destruct (E l h L) as (r & -> & Lr & S). rewrite np_mean_Fin. rewrite <- Lr, <- S. destruct r as [|x r]; [destruct l; [contradiction D; reflexivity|discriminate Lr]|]. reflexivity.
Qed.
Lemma series_of_ok : forall pt s type bic ys ci order, pt <> POther -> (s < 8)%nat -> (forall v, In v order -> (v < length ys)%nat) ->
  exists x, series_of pt s type bic (map (fun v => Fin (nth v ys 0%R)) order) ci = Ok x /\ estimates_shown pt order s type ys ci x /\ legend pt bic ci x.
Proof.
  intros pt s type bic ys ci order Hp Hs Ho. unfold series_of. rewrite map_length. destruct (ins_place pt s (length order)) as (P1 & P2 & _).
  assert (C : exists c, color s = Ok c /\ nth_error colors s = Some c).
  { unfold color. destruct (nth_error colors s) as [c|] eqn:E; [exists c; auto|]. apply nth_error_None in E. cbn in E. lia. }
  destruct C as (c & C1 & C2). rewrite C1. cbn [bind].
  assert (G : forall lab st xs, xs = map (fun k => Fin (place_of pt s k)) (seq 0 (length order)) -> lb_type lab = type ->
     (match pt, ci with PBar, _ => st = SBar | _, None => st = SDots | _, Some e => st = SError e end) ->
     estimates_shown pt order s type ys ci (Series lab st c xs (map (fun v => Fin (nth v ys 0%R)) order))).
  { intros lab st xs -> E1 E2. unfold estimates_shown. cbn [se_label se_style se_color se_x se_y]. split; [exact E1|]. split; [exact C2|]. rewrite !map_length, seq_length.
    split; [reflexivity|]. split; [reflexivity|]. split; [|exact E2].
    intros k v Hk. split; [apply Ho; exact (nth_error_In _ _ Hk)|]. split; [exact (map_nth_error (fun v => Fin (nth v ys 0%R)) k order Hk)|].
    assert (K : (k < length order)%nat) by (apply nth_error_Some; rewrite Hk; discriminate). rewrite (map_nth_error _ _ _ (nth_error_seq 0 _ k K)). reflexivity. }
  destruct pt; [| |contradiction Hp; reflexivity].
  - eexists. split; [reflexivity|]. split; [apply G; [exact P1|reflexivity|reflexivity]|split; reflexivity].
  - destruct ci as [[[lo hi]|]|]; (eexists; split; [reflexivity|]; split; [apply G; [exact P2|reflexivity|reflexivity]|split; [reflexivity|]]); [|reflexivity|reflexivity].
    intros l h -> -> L D. cbn [se_label lb_ci]. f_equal. apply average_ci_fin; assumption.
Qed.
Lemma series_of_many : forall pt s type bic (ys : list ef) ci, pt <> POther -> (8 <= s)%nat -> series_of pt s type bic ys ci = Err IndexError.
Proof.
  intros pt s type bic ys ci Hp Hs. unfold series_of. assert (C : color s = Err IndexError).
  { unfold color. destruct (nth_error colors s) as [c|] eqn:E; [|reflexivity]. assert (K : nth_error colors s <> None) by congruence. apply nth_error_Some in K. cbn in K. lia. }
  rewrite C. destruct pt; [reflexivity|reflexivity|contradiction Hp; reflexivity].
Qed.
Lemma pick_ok : forall ys order, (forall v, In v order -> (v < length ys)%nat) -> pick (map Fin ys) order = Ok (map (fun v => Fin (nth v ys 0%R)) order).
Proof.
  intros ys order H. unfold pick. induction order as [|v order IH]; cbn [mapM map]; [reflexivity|].
  assert (E : nth_error (map Fin ys) v = Some (Fin (nth v ys 0%R))).
  { rewrite <- vat_nth by (apply H; left; reflexivity). unfold vat. apply nth_error_nth'. rewrite map_length. apply H. left. reflexivity. }
  rewrite E. cbn [bind]. rewrite IH by (intros v' Hv'; apply H; right; exact Hv'). reflexivity.
Qed.
Definition quality_given (rs : list (@shown ef)) := filter (fun r => given (sh_quality r)) rs.
Lemma quality_series_ok : forall pt n order rs s, pt <> POther -> (0 < n)%nat -> length order = n -> (forall v, In v order -> (v < n)%nat) -> n_scores n rs ->
  (s + length (quality_given rs) <= 8)%nat ->
  exists l, quality_series pt order s rs = Ok l /\ Forall2 (quality_shown pt order) (numbered_from s (quality_given rs)) l.
Proof.
  intros pt n order rs. induction rs as [|r rs IH]; intros s Hp Hn Ho Hv HS H8; cbn [quality_series].
  - exists []. split; [reflexivity|constructor].
  - assert (Hr := HS r (or_introl eq_refl)). assert (HS' : n_scores n rs) by (intros r' Hr'; apply HS; right; exact Hr'). unfold quality_given in H8 |- *. cbn [filter] in H8 |- *.
    destruct (sh_quality r) as [w|] eqn:EQ; cbn [given] in *.
    + destruct (Hr eq_refl) as (q & Hq & L). injection Hq as ->. cbn [length] in H8. rewrite pick_ok by (rewrite L; exact Hv). cbn [bind].
      destruct (series_of_ok pt s (sh_type r) (if sh_recon r then sh_bic r else None) q (sh_quality_ci r) order Hp ltac:(lia)) as (x & Ex & Sx & Gx); [rewrite L; exact Hv|]. rewrite Ex. cbn [bind].
      assert (LM : limits (map (fun v => Fin (nth v q 0%R)) order) = Ok tt) by (destruct order; [cbn in Ho; lia|reflexivity]). rewrite LM. cbn [bind].
      destruct (IH (S s) Hp Hn Ho Hv HS') as (l & El & Fl); [unfold quality_given; lia|]. rewrite El. cbn [bind]. eexists. split; [reflexivity|].
      unfold numbered_from. cbn [length seq combine]. constructor; [|exact Fl]. exists q. cbn [fst snd]. auto.
    + apply IH; assumption.
Qed.
Lemma quality_series_many : forall pt n order rs s, pt <> POther -> (0 < n)%nat -> length order = n -> (forall v, In v order -> (v < n)%nat) -> n_scores n rs ->
  (8 < s + length (quality_given rs))%nat -> (0 < length (quality_given rs))%nat -> quality_series pt order s rs = Err IndexError.
Proof.
  intros pt n order rs. induction rs as [|r rs IH]; intros s Hp Hn Ho Hv HS H8 H0; cbn [quality_series].
  - cbn in H0. lia.
  - assert (Hr := HS r (or_introl eq_refl)). assert (HS' : n_scores n rs) by (intros r' Hr'; apply HS; right; exact Hr'). unfold quality_given in H8, H0. cbn [filter] in H8, H0.
    destruct (sh_quality r) as [w|] eqn:EQ; cbn [given] in *.
    + destruct (Hr eq_refl) as (q & Hq & L). injection Hq as ->. cbn [length] in H8. rewrite pick_ok by (rewrite L; exact Hv). cbn [bind].
      destruct (le_lt_dec 8 s) as [G|G]; [rewrite series_of_many by assumption; reflexivity|].
      destruct (series_of_ok pt s (sh_type r) (if sh_recon r then sh_bic r else None) q (sh_quality_ci r) order Hp G) as (x & Ex & Sx & _); [rewrite L; exact Hv|]. rewrite Ex. cbn [bind].
      assert (LM : limits (map (fun v => Fin (nth v q 0%R)) order) = Ok tt) by (destruct order; [cbn in Ho; lia|reflexivity]). rewrite LM. cbn [bind].
      rewrite (IH (S s) Hp Hn Ho Hv HS'); [reflexivity|unfold quality_given; lia|unfold quality_given; lia].
    + apply IH; assumption.
Qed.
Lemma order_ok : forall argsort (sort : bool) q, sorts argsort -> let order := if sort then argsort (map Fin q) else seq 0 (length (map Fin q)) in
  Permutation order (seq 0 (length q)) /\ (sort = false -> order = seq 0 (length q)) /\ (sort = true -> ascending (map (fun k => nth k q 0%R) order)).
Proof.
  intros argsort sort q HA order. destruct (HA q) as [P A]. unfold order. rewrite map_length. destruct sort.
  - split; [exact P|]. split; [discriminate|intros _; exact A].
  - split; [apply Permutation_refl|]. split; [reflexivity|discriminate].
Qed.
Lemma c100_result : forall argsort axes pt sort rs r0 rest n q, sorts argsort -> pt <> POther -> rs = r0 :: rest -> sh_quality r0 = Some (map Fin q) -> length q = n -> (0 < n)%nat -> n_scores n rs ->
  (length (filter (fun r => given (sh_quality r)) rs) <= 8)%nat ->
  exists order p l, fig_quality argsort axes pt sort rs = Ok [DSeries "quality_scores" p l] /\
    Permutation order (seq 0 n) /\ (sort = false -> order = seq 0 n) /\ (sort = true -> ascending (map (fun k => nth k q 0%R) order)) /\
    Forall2 (quality_shown pt order) (numbered_from 0 (filter (fun r => given (sh_quality r)) rs)) l.
Proof.
  intros argsort axes pt sort rs r0 rest n q HA Hp -> Hq L Hn HS H8. unfold fig_quality. rewrite Hq. destruct (order_ok argsort sort q HA) as (P & O1 & O2). cbv zeta in P, O1, O2.
  set (order := if sort then argsort (map Fin q) else seq 0 (length (map Fin q))) in *. rewrite L in P, O1.
  destruct (quality_series_ok pt n order (r0 :: rest) 0 Hp Hn) as (l & El & Fl).
  - rewrite (Permutation_length P). apply seq_length.
  - intros v Hv. apply (Permutation_in v P) in Hv. apply in_seq in Hv. lia.
  - exact HS.
  - exact H8.
  - rewrite El. cbn [bind]. exists order. eexists _, l. split; [reflexivity|]. auto.
Qed.
Lemma c100_many : forall argsort axes pt sort rs r0 rest n q, sorts argsort -> pt <> POther -> rs = r0 :: rest -> sh_quality r0 = Some (map Fin q) -> length q = n -> (0 < n)%nat -> n_scores n rs ->
  (8 < length (filter (fun r => given (sh_quality r)) rs))%nat -> fig_quality argsort axes pt sort rs = Err IndexError.
Proof.
  intros argsort axes pt sort rs r0 rest n q HA Hp -> Hq L Hn HS H8. unfold fig_quality. rewrite Hq. destruct (order_ok argsort sort q HA) as (P & _ & _). cbv zeta in P.
  set (order := if sort then argsort (map Fin q) else seq 0 (length (map Fin q))) in *. rewrite L in P.
  rewrite (quality_series_many pt n order (r0 :: rest) 0 Hp Hn); [reflexivity| | | |exact H8|unfold quality_given; lia].
  - rewrite (Permutation_length P). apply seq_length.
  - intros v Hv. apply (Permutation_in v P) in Hv. apply in_seq in Hv. lia.
  - exact HS.
Qed.
Lemma c100_first : forall argsort axes pt sort r0 rest, sh_quality r0 = None -> fig_quality (T := ef) argsort axes pt sort (r0 :: rest) = Err KeyError.
Proof. intros. unfold fig_quality. rewrite H. reflexivity. Qed.
Lemma c100_nothing : forall argsort axes pt sort, fig_quality (T := ef) argsort axes pt sort [] = Err IndexError.
Proof. reflexivity. Qed.
Lemma nth_seq_id : forall n k v, nth_error (seq 0 n) k = Some v -> v = k.
Proof. intros n k v H. assert (K : (k < n)%nat) by (rewrite <- (seq_length n 0); apply nth_error_Some; congruence). rewrite (nth_error_seq 0 n k K) in H. injection H as <-. reflexivity. Qed.
Lemma c100_margins : forall s n r x, quality_shown PError (seq 0 n) (s, r) x -> own_margins r (seq 0 n) x.
Proof.
  intros s n r x (q & _ & (_ & _ & _ & _ & _ & ST) & _) lo hi lo' hi' E1 E2 k v Hk. cbn [snd] in ST. rewrite E1 in ST. rewrite ST in E2. injection E2 as <- <-. apply nth_seq_id in Hk as ->. auto.
Qed.
Lemma c100_overlap : forall s s' k k', (s < 2)%nat -> (s' < 2)%nat -> (s, k) <> (s', k') -> ~ overlap (bar_place s k) (bar_place s' k').
Proof.
  intros s s' k k' Hs Hs' D O. unfold overlap, bar_place in O. apply Rabs_def2 in O as [O1 O2].
  destruct (lt_eq_lt_dec k k') as [[L|E]|L].
  - assert (INR k + 1 <= INR k')%R by (rewrite <- S_INR; apply le_INR; lia). destruct s as [|[|s]]; [| |lia]; destruct s' as [|[|s']]; try lia; cbn in *; lra.
  - subst k'. destruct s as [|[|s]]; [| |lia]; destruct s' as [|[|s']]; try lia; cbn in *; try lra; apply D; reflexivity.
  - assert (INR k' + 1 <= INR k)%R by (rewrite <- S_INR; apply le_INR; lia). destruct s as [|[|s]]; [| |lia]; destruct s' as [|[|s']]; try lia; cbn in *; lra.
Qed.
Lemma c100_overlap_three : overlap (bar_place 2 0) (bar_place 0 1).
Proof. unfold overlap, bar_place. cbn. apply Rabs_def1; lra. Qed.
Lemma c99_reader : forall (ds : dataset ef (string * Z)) a i j, pc_reader_3darray ds = Ok a -> (i < length (ds_dis ds))%nat -> (j < length (ds_dis ds))%nat -> i <> j ->
  exists c, number (compared a i j) (seq 0 (dR a)) c /\
    ((c = 0%nat /\ at2 (winning_rate a) i j = NaN) \/
     ((0 < c)%nat /\ exists x, at2 (winning_rate a) i j = Fin x /\ (x = preferences a i j / INR c)%R /\ (0 <= x <= 1)%R /\ at2 (winning_rate a) j i = Fin (1 - x))).
Proof. intros ds a i j E Hi Hj D. destruct (c14 ds a E) as (E1 & _). apply c99_rate; [exact (reader_two_sided ds a E)|lia|lia|exact D]. Qed.
