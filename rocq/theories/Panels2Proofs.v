(** Proofs about the comparison of models. *)
From Coq Require Import String.
From Coq Require Import List ZArith Bool Arith Reals Lra Lia.
From Verif Require Import PyBase Num ExtReal ExtRealProofs NumPy Dataset BaseProofs ConvProofs Preproc Perf Runs SpecMos SpecPerf SpecRuns PerfProofs Perf2Proofs Runs2Proofs Panels SpecPanels PanelsProofs.
Import ListNotations.
Local Open Scope list_scope.
Local Open Scope R_scope.

Lemma tag_percent : forall f, fraction_ok f -> percent_of f (percent_tag (option_map Fin f)).
Proof.
  intros [x|] H; [|exact I]. specialize (H x eq_refl). unfold percent_tag, percent_of. cbn [option_map].
  change (nofZ 100) with (Fin 100). change (nmul (Fin x) (Fin 100)) with (Fin (x * 100)).
  destruct (count_whole 100 (x * 100)) as (A & B & C); [lra|]. set (c := length _) in *. split; [lra|]. destruct C as [->|C]; [|lra].
  replace (INR 100) with 100 by (cbn [INR]; lra). lra.
Qed.

Definition rest (x y : list R) : list R := map (fun p => snd p - fst p) (combine x y).
Lemma rest_fin : forall x y, map (fun p : ef * ef => nsub (snd p) (fst p)) (combine (map Fin x) (map Fin y)) = map Fin (rest x y).
Proof. induction x as [|a x IH]; intros [|b y]; try reflexivity. cbn [map combine]. unfold rest in *. cbn [map combine fst snd]. rewrite IH. reflexivity. Qed.
Lemma rest_length : forall x y, length y = length x -> length (rest x y) = length x.
Proof. intros. unfold rest. rewrite map_length, combine_length. lia. Qed.
Lemma rest_sum : forall x y, length y = length x -> Rsum (rest x y) = Rsum y - Rsum x.
Proof.
  induction x as [|a x IH]; intros [|b y] L; try discriminate; [change (0 = 0 - 0); lra|]. unfold rest in *. cbn [combine map fst snd].
  cbn [length] in L. injection L as L. specialize (IH y L). change (b - a + Rsum (map (fun p => snd p - fst p) (combine x y)) = (b + Rsum y) - (a + Rsum x)). rewrite IH. lra.
Qed.
Lemma rest_nth : forall x y i u v, nth_error x i = Some u -> nth_error y i = Some v -> nth_error (rest x y) i = Some (v - u).
Proof.
  induction x as [|a x IH]; intros [|b y] [|i] u v H K; try discriminate; unfold rest; cbn [map combine nth_error fst snd] in *.
  - injection H as <-. injection K as <-. reflexivity.
  - apply IH; assumption.
Qed.
Lemma corr_value : forall x y, is_corr (if spread_dec x then if spread_dec y then Fin (pearson x y) else NaN else NaN) x y.
Proof.
  intros x y. unfold is_corr. destruct (spread_dec x); [destruct (spread_dec y); [left; auto|]|]; right; (split; [tauto|reflexivity]).
Qed.
Lemma ranked_rank : forall l, ranked l = map (rankR l) l.
Proof.
  intro l. unfold ranked. apply map_ext. intro x. unfold avg_rank, rankR, count_if.
  do 3 f_equal; try (do 2 f_equal; apply filter_ext; intro y; unfold Rltb, Reqbb; destruct (Rlt_dec y x), (Req_EM_T y x); reflexivity).
Qed.

Lemma scatter_value : forall target compared ft fc x y, (2 <= length x)%nat -> length y = length x -> fraction_ok ft -> fraction_ok fc ->
  exists s, scatter_of target compared (option_map Fin ft) (option_map Fin fc) (map Fin x) (map Fin y) = Ok s /\ shows_scores x y s /\ names target compared ft fc s.
Proof.
  intros target compared ft fc x y L E Ft Fc. unfold scatter_of. rewrite !map_length, E, Nat.eqb_refl. cbn [bind].
  rewrite pearsonr_value by assumption. cbn [bind]. unfold sp_spearmanr. rewrite map_length. destruct (Nat.ltb_spec (length x) 2); [lia|].
  rewrite !rankdata_Fin, pearsonr_value by (rewrite !map_length; assumption). cbn [bind]. rewrite rest_fin.
  assert (N : rest x y <> []) by (intro H0; assert (K := rest_length x y E); rewrite H0 in K; cbn in K; lia).
  eexists. split; [reflexivity|]. split.
  - unfold shows_scores. cbn [sc_points sc_diffs sc_mean sc_std sc_plcc sc_srocc].
    split; [rewrite combine_length, !map_length; lia|]. split; [|split; [|split; [|split; [|split]]]].
    + intros i u v U V. split; [apply combine_pairs; assumption|]. apply map_nth_error. apply rest_nth; assumption.
    + rewrite map_length. apply rest_length. exact E.
    + rewrite np_mean_Fin, nanmeanR_ne by exact N. f_equal. unfold Rmean. rewrite rest_length, rest_sum, E by exact E. unfold Rdiv. ring.
    + exists (rest x y). split; [reflexivity|]. rewrite np_std_Fin. unfold nanstdR. destruct (Nat.leb_spec (length (rest x y)) 0); [rewrite rest_length in *; [lia|exact E]|].
      rewrite Nat.sub_0_r. reflexivity.
    + apply corr_value.
    + rewrite !ranked_rank. apply corr_value.
  - unfold names. cbn [sc_target sc_compared fst snd]. repeat (split; [reflexivity|]). split; apply tag_percent; assumption.
Qed.
Lemma scatter_refused : forall target compared ft fc (xs ys : list ef), length ys <> length xs \/ (length xs < 2)%nat ->
  scatter_of target compared ft fc xs ys = Err ValueError.
Proof.
  intros target compared ft fc xs ys H. unfold scatter_of. destruct (Nat.eqb_spec (length xs) (length ys)) as [E|E]; [cbn [bind]|reflexivity].
  destruct H as [H|H]; [congruence|]. unfold sp_pearsonr. destruct (Nat.ltb_spec (length xs) 2); [reflexivity|lia].
Qed.

Section Scatter.
  Context {D : Type}.
  Variable sample : nat -> D -> option ef -> string -> res (list (list (option (list ef)))).
  Variables (targets compareds : list string) (ft fc : option ef).

  Lemma calls : forall (f : nat -> string -> res (list (list (option (list ef))))) l rs, mapM (fun im => f (fst im) (snd im)) (enumerate l) = Ok rs ->
    length rs = length l /\ forall i m, nth_error l i = Some m -> exists r, nth_error rs i = Some r /\ f i m = Ok r.
  Proof.
    intros f l rs H. split.
    - rewrite (mapM_length _ _ _ _ _ H). unfold enumerate. rewrite combine_length, seq_length. lia.
    - intros i m E. destruct (BaseProofs.mapM_nth _ _ _ _ _ i (i, m) H) as (r & A & B); [rewrite enumerate_nth, E; reflexivity|]. eauto.
  Qed.

  Lemma pairing : forall k ds cols, scatter_dataset sample targets compareds ft fc k ds = Ok cols ->
    compareds <> [] /\ length cols = Nat.min (length targets) (length compareds) /\
    (forall i m, nth_error targets i = Some m -> exists r, sample (k + i)%nat ds ft m = Ok r) /\
    (forall i m, nth_error compareds i = Some m -> exists r, sample (k + length targets + i)%nat ds fc m = Ok r) /\
    forall i t c, nth_error targets i = Some t -> nth_error compareds i = Some c ->
      exists t0 tr c0 cr col, sample (k + i)%nat ds ft t = Ok (t0 :: tr) /\ sample (k + length targets + i)%nat ds fc c = Ok (c0 :: cr) /\
        nth_error cols i = Some col /\ Forall2 (fun p s => exists xs ys, p = (Some xs, Some ys) /\ scatter_of t c ft fc xs ys = Ok s) (combine t0 c0) col.
  Proof.
    intros k ds cols H. unfold scatter_dataset in H.
    destruct (mapM (fun im => sample (k + fst im) ds ft (snd im)) (enumerate targets)) as [trs|] eqn:E1; [cbn [bind] in H|discriminate].
    destruct (mapM (fun im => sample (k + length targets + fst im) ds fc (snd im)) (enumerate compareds)) as [crs|] eqn:E2; [cbn [bind] in H|discriminate].
    destruct (calls (fun i m => sample (k + i) ds ft m) _ _ E1) as [L1 N1]. destruct (calls (fun i m => sample (k + length targets + i) ds fc m) _ _ E2) as [L2 N2].
    assert (H' : mapM (column ft fc) (combine (combine targets trs) (combine compareds crs)) = Ok cols /\ compareds <> []).
    { destruct crs as [|c crs]; [discriminate|]. split; [exact H|]. intro Q. rewrite Q in L2. discriminate. }
    destruct H' as [H' N]. split; [exact N|]. split; [rewrite (mapM_length _ _ _ _ _ H'), !combine_length; lia|].
    split; [intros i m I; destruct (N1 i m I) as (r & _ & R); eauto|]. split; [intros i m I; destruct (N2 i m I) as (r & _ & R); eauto|].
    intros i t c T C. destruct (N1 i t T) as (tr & A1 & B1). destruct (N2 i c C) as (cr & A2 & B2).
    assert (CN : forall (A B : Type) (l : list A) (r : list B) j a b, nth_error l j = Some a -> nth_error r j = Some b -> nth_error (combine l r) j = Some (a, b)).
    { induction l as [|a0 l IHl]; intros [|b0 r] [|j] a b X Y; cbn [nth_error combine] in *; try discriminate; [congruence|apply IHl; assumption]. }
    destruct (BaseProofs.mapM_nth _ _ _ _ _ i ((t, tr), (c, cr)) H') as (col & X & Y); [apply CN; apply CN; assumption|].
    unfold column in Y. destruct tr as [|t0 tr]; [discriminate|]. destruct cr as [|c0 cr]; [discriminate|].
    exists t0, tr, c0, cr, col. repeat (split; [assumption|]). apply mapM_Ok in Y. clear - Y.
    induction Y as [|p s ps ss Q Y IH]; constructor; [|exact IH]. destruct p as [[xs|] [ys|]]; try discriminate. eauto.
  Qed.
  Lemma no_column : forall k ds, compareds = [] -> exists e, scatter_dataset sample targets compareds ft fc k ds = Err e.
  Proof.
    intros k ds E. destruct (scatter_dataset sample targets compareds ft fc k ds) as [cols|e] eqn:H; [|eauto]. destruct (pairing _ _ _ H) as [N _]. contradiction.
  Qed.
End Scatter.

Section Whole.
  Context {D : Type}.
  Variable sample : nat -> D -> option ef -> string -> res (list (list (option (list ef)))).
  Variables (targets compareds : list string) (ft fc : option R).
  Hypothesis Ft : fraction_ok ft.
  Hypothesis Fc : fraction_ok fc.

  Lemma figure_of : forall k ds (xs ys : nat -> list R) n, (2 <= n)%nat -> compareds <> [] ->
    (forall i m, nth_error targets i = Some m -> sample (k + i)%nat ds (option_map Fin ft) m = Ok [[Some (map Fin (xs i))]] /\ length (xs i) = n) ->
    (forall i m, nth_error compareds i = Some m -> sample (k + length targets + i)%nat ds (option_map Fin fc) m = Ok [[Some (map Fin (ys i))]] /\ length (ys i) = n) ->
    exists cols, scatter_dataset sample targets compareds (option_map Fin ft) (option_map Fin fc) k ds = Ok cols /\
      length cols = Nat.min (length targets) (length compareds) /\
      forall i t c, nth_error targets i = Some t -> nth_error compareds i = Some c ->
        exists s, nth_error cols i = Some [s] /\ shows_scores (xs i) (ys i) s /\ names t c ft fc s.
  Proof.
    intros k ds xs ys n N Nc A B.
    assert (M : forall (f : nat -> string -> res (list (list (option (list ef))))) g l, (forall i m, nth_error l i = Some m -> f i m = Ok (g i)) ->
      mapM (fun im => f (fst im) (snd im)) (enumerate l) = Ok (map g (seq 0 (length l)))).
    { intros f g l H. rewrite <- (enumerate_fst _ l), map_map. rewrite <- mapM_pure. apply mapM_ext_in. intros [i m] I. apply In_nth_error in I. destruct I as [j J].
      rewrite enumerate_nth in J. destruct (nth_error l j) eqn:E; [|discriminate]. cbn in J. injection J as <- <-. cbn [fst snd]. apply H. exact E. }
    assert (T : exists cols, scatter_dataset sample targets compareds (option_map Fin ft) (option_map Fin fc) k ds = Ok cols).
    { unfold scatter_dataset.
      rewrite (M (fun i m => sample (k + i) ds (option_map Fin ft) m) (fun i => [[Some (map Fin (xs i))]])) by (intros i m E; apply A with (1 := E)). cbn [bind].
      rewrite (M (fun i m => sample (k + length targets + i) ds (option_map Fin fc) m) (fun i => [[Some (map Fin (ys i))]])) by (intros i m E; apply B with (1 := E)). cbn [bind].
      destruct (map _ (seq 0 (length compareds))) as [|c0 cs] eqn:Q.
      - destruct compareds; [congruence|discriminate].
      - rewrite <- Q. apply mapM_total. intros [[t tr] [c cr]] I. apply In_nth_error in I. destruct I as [j J].
        assert (S : forall (P Q : Type) (l : list P) (r : list Q) i p q, nth_error (combine l r) i = Some (p, q) -> nth_error l i = Some p /\ nth_error r i = Some q).
        { induction l as [|a0 l IHl]; intros [|b0 r] [|i] p q X; cbn [nth_error combine] in *; try discriminate; [injection X as -> ->; auto|apply IHl; assumption]. }
        apply S in J. destruct J as [J1 J2]. apply S in J1, J2. destruct J1 as [T1 T2], J2 as [C1 C2].
        assert (G : forall (g : nat -> list (list (option (list ef)))) l i r, nth_error (map g (seq 0 l)) i = Some r -> r = g i).
        { intros g l i r X. assert (Li : (i < l)%nat) by (apply (f_equal (fun o => match o with Some _ => true | None => false end)) in X; destruct (Nat.lt_ge_cases i l) as [Y|Y]; [exact Y|]; rewrite (proj2 (nth_error_None _ i)) in X by (rewrite map_length, seq_length; exact Y); discriminate).
          rewrite nth_error_map in X. rewrite (nth_error_nth' _ 0%nat) in X by (rewrite seq_length; exact Li). rewrite seq_nth in X by exact Li. cbn [option_map Nat.add] in X. congruence. }
        apply G in T2, C2. subst tr cr. destruct (A j t T1) as [_ La]. destruct (B j c C1) as [_ Lb].
        destruct (scatter_value t c ft fc (xs j) (ys j)) as (s & Es & _); [lia|lia|exact Ft|exact Fc|].
        exists [s]. unfold column. cbn [combine mapM]. rewrite Es. reflexivity. }
    destruct T as [cols H]. exists cols. split; [exact H|]. destruct (pairing _ _ _ _ _ _ _ _ H) as (_ & L & _ & _ & P). split; [exact L|].
    intros i t c It Ic. destruct (P i t c It Ic) as (t0 & tr & c0 & cr & col & Q1 & Q2 & Q3 & Q4).
    destruct (A i t It) as [A1 A2]. destruct (B i c Ic) as [B1 B2]. rewrite A1 in Q1. rewrite B1 in Q2. injection Q1 as <- <-. injection Q2 as <- <-.
    cbn [combine] in Q4. inversion Q4 as [|p s ps ss (x & y & Ep & Es) Rst E0 E1]. subst. inversion Rst. subst. injection Ep as <- <-.
    destruct (scatter_value t c ft fc (xs i) (ys i)) as (s' & Es' & V & W); [lia|lia|exact Ft|exact Fc|]. rewrite Es' in Es. injection Es as <-. exists s'. auto.
  Qed.
End Whole.

(** The stored results *)
Lemma arrays_gone : forall V (results out : list (list (list (string * V)))), without_arrays results = Ok out ->
  Forall2 (fun rs os => exists r o tl, rs = r :: tl /\ os = o :: tl /\
    forall k v, In (k, v) o <-> In (k, v) r /\ k <> "raw_scores"%string /\ k <> "reconstructions"%string) results out.
Proof.
  intros V results out H. apply mapM_Ok in H. induction H as [|rs os l o E H IH]; constructor; [|exact IH].
  destruct rs as [|r tl]; [discriminate|]. injection E as <-. eexists _, _, _. split; [reflexivity|]. split; [reflexivity|].
  intros k v. rewrite filter_In. cbn [fst]. destruct (String.eqb_spec k "raw_scores"), (String.eqb_spec k "reconstructions"); cbn [orb negb]; intuition congruence.
Qed.
