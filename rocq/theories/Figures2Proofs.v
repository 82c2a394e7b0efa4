(** Lemmas for claims C96-C99. *)
From Coq Require Import String.
From Coq Require Import List ZArith Bool Arith Lia Reals Lra Sorted Permutation.
From Verif Require Import PyBase Num ExtReal NumPy Dataset Stats Figures SpecDataset SpecMos SpecStats SpecBt SpecFigures
  BaseProofs ExtRealProofs ArrayProofs MosProofs StatsProofs Stats2Proofs FiguresProofs.
Import ListNotations.
Local Open Scope list_scope.

Lemma ok_inj : forall A (x y : A), Ok x = Ok y -> x = y.
Proof. congruence. Qed.

(** ** C96 *)
Lemma c96_raw_scores : forall axes a, finite_votes a -> exists p m, fig_raw_scores axes a = Ok [DImage "raw_scores" None p m] /\ shows_means a m.
Proof. intros axes a H. eexists _, _. split; [reflexivity|exact (c96_means a H)]. Qed.
Lemma c96_raw_counts : forall axes a, finite_votes a ->
  (exists p pts, fig_raw_counts axes a = Ok [DCounts "raw_counts" p pts (dE a)] /\ counts_shown (dE a) (dS a) (fun j i => rep_votes a j i) pts) \/
  (fig_raw_counts axes a = Err ValueError /\ forall j i, (j < dE a)%nat -> (i < dS a)%nat -> rep_votes a j i = []).
Proof.
  intros axes a H. unfold fig_raw_counts. cbn [n1 n0 mean_matrix].
  destruct (counts_generic a (dE a) (dS a) (fun j i => at2 (mean_matrix a) i j) (fun j i => rep_votes a j i)) as [(pts & E & C & _)|[E C]].
  - intros k i Hk Hi. apply mean_entry; assumption.
  - left. eexists _, pts. unfold col. cbn [n0 mean_matrix]. rewrite E. split; [reflexivity|exact C].
  - right. unfold col. cbn [n0 mean_matrix]. rewrite E. split; [reflexivity|exact C].
Qed.
Lemma c96_raw_counts_subject : forall axes a, finite_votes a ->
  (exists p pts, fig_raw_counts_per_subject axes a = Ok [DCounts "raw_counts_per_subject" p pts (dS a)] /\ counts_shown (dS a) (dE a) (fun i j => rep_votes a j i) pts) \/
  (fig_raw_counts_per_subject axes a = Err ValueError /\ forall j i, (j < dE a)%nat -> (i < dS a)%nat -> rep_votes a j i = []).
Proof.
  intros axes a H. unfold fig_raw_counts_per_subject. cbn [n1 n0 mean_matrix].
  destruct (counts_generic a (dS a) (dE a) (at2 (mean_matrix a)) (fun i j => rep_votes a j i)) as [(pts & E & C & _)|[E C]].
  - intros k i Hk Hi. apply mean_entry; assumption.
  - left. eexists _, pts. unfold row. cbn [n1 mean_matrix]. rewrite E. split; [reflexivity|exact C].
  - right. unfold row. cbn [n1 mean_matrix]. rewrite E. split; [reflexivity|]. intros j i Hj Hi. exact (C i j Hi Hj).
Qed.
Lemma Rmean_shift : forall l d, l <> [] -> Rmean (map (fun x => x - d)%R l) = (Rmean l - d)%R.
Proof.
  intros l d Hl. unfold Rmean. rewrite map_length, Rsum_map_sub, Rsum_map_const, map_id.
  assert (INR (length l) <> 0)%R by (apply not_0_INR; destruct l; [contradiction|discriminate]). field. exact H.
Qed.
Lemma rest_matrix : forall (a : arr3 ef) (f : nat -> nat -> ef -> ef) (off : nat -> nat -> R), finite_votes a ->
  (forall i j x, (i < dS a)%nat -> (j < dE a)%nat -> f j i (Fin x) = Fin (x - off i j)) -> (forall i j, f j i NaN = NaN) ->
  shows_rest a off (mean_matrix (map3 (fun j i r v => f j i v) a)).
Proof.
  intros a f off HF H1 H0. split; [reflexivity|]. split; [reflexivity|]. intros i j Hi Hj.
  assert (E : at2 (mean_matrix (map3 (fun j i r v => f j i v) a)) i j = nanmeanR (map (fun x => x - off i j)%R (rep_votes a j i))).
  { unfold mean_matrix. cbn [at2 map3 dR at3]. rewrite <- (map_map (fun r => at3 a j i r) (f j i)).
    assert (HA : forall x, In x (map (fun r => at3 a j i r) (seq 0 (dR a))) -> finnan x).
    { intros x Hx. apply in_map_iff in Hx as (r & <- & Hr). apply in_seq in Hr. apply HF. unfold inside. lia. }
    rewrite np_nanmean_finnan.
    - f_equal. apply presents_map_fin; [intros x _; apply H1; assumption|exact HA|apply H0].
    - apply Forall_forall. intros x Hx. apply in_map_iff in Hx as (y & <- & Hy). specialize (HA y Hy). destruct y as [y| | |]; cbn in HA; try contradiction.
      + rewrite (H1 i j y Hi Hj). exact I.
      + rewrite H0. exact I. }
  rewrite E. destruct (rep_votes a j i) as [|x l] eqn:EV; [left; split; reflexivity|right]. split; [discriminate|].
  rewrite nanmeanR_ne by discriminate. rewrite Rmean_shift by discriminate. reflexivity.
Qed.
Lemma vat_nth : forall q j, (j < length q)%nat -> vat (map Fin q) j = Fin (nth j q 0%R).
Proof. intros q j H. unfold vat. rewrite (nth_indep _ nnan (Fin 0)); [apply map_nth|rewrite map_length; exact H]. Qed.
Lemma map_Fin_inj : forall l l', map Fin l = map Fin l' -> l = l'.
Proof. induction l as [|x l IH]; intros [|y l'] H; try discriminate; [reflexivity|]. injection H as -> H. f_equal. exact (IH l' H). Qed.
Lemma c96_minus_quality : forall axes a rs, finite_votes a -> scores_ok a rs ->
  exists ds, fig_minus_quality axes a rs = Ok ds /\ Forall2 (rest_image a) (filter (fun r => given (sh_quality r)) rs) ds.
Proof.
  intros axes a rs HF. unfold fig_minus_quality. induction rs as [|r rs IH]; intro HS.
  - eexists. split; [reflexivity|constructor].
  - destruct IH as (ds & E & F); [intros r' Hr'; apply HS; right; exact Hr'|]. apply ok_inj in E. cbn [flat_map filter].
    assert (Hr := HS r (or_introl eq_refl)). destruct (sh_quality r) as [v|] eqn:EQ; cbn [given] in *.
    + destruct (Hr eq_refl) as (q & Hq & L). rewrite EQ in Hq. injection Hq as ->. eexists. split; [reflexivity|]. cbn [app]. constructor; [|rewrite E; exact F].
      exists q. eexists _, _. split; [split; assumption|]. split; [reflexivity|].
      apply (rest_matrix a (fun j i v => nsub v (vat (map Fin q) j)) (fun i j => nth j q 0%R) HF).
      * intros i j x Hi Hj. rewrite vat_nth by lia. reflexivity.
      * intros i j. reflexivity.
    + eexists. split; [reflexivity|]. cbn [app]. rewrite E. exact F.
Qed.
Lemma map3_map3 : forall T f g (a : arr3 T), map3 f (map3 g a) = map3 (fun j i r v => f j i r (g j i r v)) a.
Proof. reflexivity. Qed.
Lemma c96_minus_both : forall axes a rs, finite_votes a -> scores_ok a rs -> biases_ok a rs ->
  exists ds, fig_minus_both axes a rs = Ok ds /\ Forall2 (rest2_image a) (filter (fun r => given (sh_quality r) && given (sh_bias r)) rs) ds.
Proof.
  intros axes a rs HF. unfold fig_minus_both. induction rs as [|r rs IH]; intros HS HB.
  - eexists. split; [reflexivity|constructor].
  - destruct IH as (ds & E & F); [intros r' Hr'; apply HS; right; exact Hr'|intros r' Hr'; apply HB; right; exact Hr'|]. apply ok_inj in E. cbn [flat_map filter].
    assert (Hr := HS r (or_introl eq_refl)). assert (Hb := HB r (or_introl eq_refl)). destruct (sh_quality r) as [v|] eqn:EQ; [destruct (sh_bias r) as [u|] eqn:EB|]; cbn [given andb] in *.
    + destruct (Hr eq_refl) as (q & Hq & L). rewrite EQ in Hq. injection Hq as ->. destruct (Hb eq_refl) as (b & Hbb & L'). rewrite EB in Hbb. injection Hbb as ->.
      eexists. split; [reflexivity|]. cbn [app]. constructor; [|rewrite E; exact F].
      exists q, b. eexists _, _. split; [split; assumption|]. split; [split; assumption|]. split; [reflexivity|]. unfold minus_biases, minus_scores. rewrite map3_map3.
      apply (rest_matrix a (fun j i v => nsub (nsub v (vat (map Fin q) j)) (vat (map Fin b) i)) (fun i j => nth j q 0 + nth i b 0)%R HF).
      * intros i j x Hi Hj. rewrite !vat_nth by lia. cbn. f_equal. lra.
      * intros i j. reflexivity.
    + eexists. split; [reflexivity|]. cbn [app]. rewrite E. exact F.
    + eexists. split; [reflexivity|]. cbn [app]. rewrite E. exact F.
Qed.

(** ** C97 *)
Lemma prefix_spec : forall p s, String.prefix p s = true <-> exists y, s = (p ++ y)%string.
Proof.
  induction p as [|c p IH]; intros s.
  - split; [intros _; exists s; reflexivity|intros _; destruct s; reflexivity].
  - destruct s as [|d s]; [split; [discriminate|intros (y & H); discriminate]|].
    change (String.prefix (String c p) (String d s)) with (if Ascii.ascii_dec c d then String.prefix p s else false).
    destruct (Ascii.ascii_dec c d) as [->|D].
    + rewrite IH. split; intros (y & H); exists y; [rewrite H; reflexivity|injection H as H; exact H].
    + split; [discriminate|]. intros (y & H). injection H as H _. congruence.
Qed.
Lemma contains_spec : forall n s, contains n s = true <-> exists x y, s = (x ++ n ++ y)%string.
Proof.
  intros n s. induction s as [|d s IH]; cbn [contains]; fold contains; rewrite orb_true_iff, prefix_spec.
  - split.
    + intros [(y & H)|H]; [exists EmptyString, y; exact H|discriminate].
    + intros (x & y & H). destruct x; [left; exists y; exact H|discriminate].
  - rewrite IH. split.
    + intros [(y & H)|(x & y & H)]; [exists EmptyString, y; exact H|exists (String d x), y; cbn; congruence].
    + intros (x & y & H). destruct x as [|c x]; [left; exists y; exact H|right]. cbn in H. injection H as -> H. exists x, y. exact H.
Qed.
Lemma wanted_spec : forall d n, wanted d n = true <-> asked d n.
Proof.
  intros [|l|s] n; cbn [wanted asked].
  - split; [discriminate|contradiction].
  - apply (memb_In string String.eqb String.eqb_eq).
  - rewrite orb_true_iff, String.eqb_eq, contains_spec. reflexivity.
Qed.
Lemma filter_sublist : forall A (f : A -> bool) l, sublist (filter f l) l.
Proof. induction l as [|x l IH]; cbn [filter]; [constructor|]. destruct (f x); constructor; exact IH. Qed.
Lemma draw_drawn : forall fig names, drawn fig names (draw fig names).
Proof.
  intros fig. induction names as [|n names IH]; cbn [draw].
  - left. exists []. split; [constructor|reflexivity].
  - destruct (fig n) as [ds|e] eqn:E.
    + destruct IH as [(dss & F & ->)|(done & m & rest & dss & e & -> & F & Em & ->)].
      * left. exists (ds :: dss). split; [constructor; assumption|reflexivity].
      * right. exists (n :: done), m, rest, (ds :: dss), e. repeat split; try assumption. constructor; assumption.
    + right. exists [], n, names, [], e. repeat split; try assumption. constructor.
Qed.
Lemma c97_drawn : forall argsort numbered d axes pt sort a refs rs, exists names,
  sublist names plot_names /\ (forall n, In n names <-> In n plot_names /\ asked d n) /\
  drawn (figure argsort numbered axes pt sort a refs rs) names (draw_all argsort numbered d axes pt sort a refs rs).
Proof.
  intros. exists (filter (wanted d) plot_names). split; [apply filter_sublist|]. split; [|apply draw_drawn].
  intro n. rewrite filter_In, wanted_spec. reflexivity.
Qed.
Lemma filter_all : forall A (f : A -> bool) l, (forall x, In x l -> f x = true) -> filter f l = l.
Proof. intros A f l H. induction l as [|x l IH]; cbn [filter]; [reflexivity|]. rewrite (H x (or_introl eq_refl)). f_equal. apply IH. intros y Hy. apply H. right. exact Hy. Qed.
Lemma c97_all : forall argsort numbered axes pt sort a refs rs,
  drawn (figure argsort numbered axes pt sort a refs rs) plot_names (draw_all argsort numbered (PText "all") axes pt sort a refs rs).
Proof. intros. unfold draw_all. rewrite filter_all by reflexivity. apply draw_drawn. Qed.
Lemma c97_none : forall argsort numbered axes pt sort a refs rs, draw_all (T := ef) argsort numbered PNone axes pt sort a refs rs = ([], Ok tt).
Proof. reflexivity. Qed.

(** ** C98 *)
Lemma whole : forall n m, (0 < m)%nat -> (INR (n / m) <= INR n / INR m < INR (n / m) + 1)%R.
Proof.
  intros n m H. assert (D := Nat.div_mod n m ltac:(lia)). assert (M := Nat.mod_upper_bound n m ltac:(lia)).
  set (x := (n / m)%nat) in *. set (y := (n mod m)%nat) in *. apply (f_equal INR) in D. rewrite plus_INR, mult_INR in D.
  assert (0 <= INR y)%R by apply pos_INR. apply lt_INR in M. apply lt_INR in H. change (INR 0) with 0%R in H. rewrite D. split.
  - apply Rmult_le_reg_r with (INR m); [exact H|]. unfold Rdiv. rewrite Rmult_assoc, Rinv_l by lra. lra.
  - apply Rmult_lt_reg_r with (INR m); [exact H|]. unfold Rdiv. rewrite Rmult_assoc, Rinv_l by lra. lra.
Qed.
Lemma whole_hundreds : forall n m, (0 < m)%nat -> (INR m < INR n)%R -> (1 <= n / m)%nat /\ (INR n < INR m * (2 * INR (n / m)))%R.
Proof.
  intros n m H L. assert (W := whole n m H). assert (M : (0 < INR m)%R) by (apply lt_0_INR; exact H). apply INR_lt in L.
  assert (O : (1 <= n / m)%nat) by (apply Nat.div_le_lower_bound; lia). split; [exact O|]. apply le_INR in O. change (INR 1) with 1%R in O.
  destruct W as [_ W]. apply Rmult_lt_compat_l with (r := INR m) in W; [|exact M]. replace (INR m * (INR n / INR m))%R with (INR n) in W by (field; lra). nra.
Qed.
Lemma div_fin : forall x y, (y <> 0)%R -> ef_div (Fin x) (Fin y) = Fin (x / y).
Proof. intros x y H. cbn. destruct (Req_EM_T y 0); [contradiction|reflexivity]. Qed.
Lemma nofnat_fin : forall n, nofnat n = Fin (INR n).
Proof. intro n. unfold nofnat. cbn. rewrite <- INR_IZR_INZ. reflexivity. Qed.
Lemma c98_image : forall rows cols, exists c, imshow_size rows cols = (Fin (c * INR cols + 2), Fin (c * INR rows + 2)) /\
  (0 < c <= 1 / 30)%R /\ (c * INR cols < 200)%R /\ (c * INR rows < 200)%R /\ ((cols <= 3000)%nat -> (rows <= 3000)%nat -> c = (1 / 30)%R).
Proof.
  intros rows cols. unfold imshow_size. rewrite !nofnat_fin. cbn [ndiv nadd nofZ nltb Num_ef]. rewrite !div_fin by lra. cbn [ef_ltb].
  assert (E3 : INR 3000 = 3000%R) by (rewrite INR_IZR_INZ; reflexivity).
  destruct (Rltb 100 (INR cols / 30)) eqn:E1.
  - apply Rltb_true in E1. destruct (whole_hundreds cols 3000 ltac:(lia)) as [O1 L1]; [rewrite E3; lra|]. set (x := (cols / 3000)%nat) in *. rewrite E3 in L1.
    assert (X : (1 <= INR x)%R) by (apply (le_INR 1); exact O1). rewrite !div_fin by lra. cbn [ef_ltb].
    assert (B1 : (INR cols / 30 / INR x < 200)%R).
    { apply Rmult_lt_reg_r with (INR x); [lra|]. unfold Rdiv. rewrite Rmult_assoc, Rinv_l by lra. lra. }
    destruct (Rltb 100 (INR rows / 30 / INR x)) eqn:E2.
    + apply Rltb_true in E2. apply Rmult_lt_compat_r with (r := INR x) in E2; [|lra]. unfold Rdiv in E2 at 1. rewrite Rmult_assoc, Rinv_l in E2 by lra.
      destruct (whole_hundreds rows (3000 * x) ltac:(lia)) as [O2 L2]; [rewrite mult_INR, E3; lra|]. set (y := (rows / (3000 * x))%nat) in *. rewrite mult_INR, E3 in L2.
      assert (Y : (1 <= INR y)%R) by (apply (le_INR 1); exact O2). rewrite ?nofnat_fin. cbn [ndiv Num_ef]. rewrite !div_fin by lra. exists (1 / 30 / INR x / INR y)%R. cbn [ef_add].
      assert (P : (0 < / INR x <= 1)%R) by (split; [apply Rinv_0_lt_compat; lra|rewrite <- Rinv_1; apply Rinv_le_contravar; lra]).
      assert (Q : (0 < / INR y <= 1)%R) by (split; [apply Rinv_0_lt_compat; lra|rewrite <- Rinv_1; apply Rinv_le_contravar; lra]).
      split; [cbv beta iota; apply f_equal2; f_equal; field; lra|]. split; [unfold Rdiv; rewrite Rmult_1_l; split; [|nra]; repeat apply Rmult_lt_0_compat; lra|].
      split; [|split].
      * replace (1 / 30 / INR x / INR y * INR cols)%R with (INR cols / 30 / INR x * / INR y)%R by (field; lra). assert (0 <= INR cols / 30 / INR x)%R.
        { unfold Rdiv. assert (0 <= INR cols)%R by apply pos_INR. apply Rmult_le_pos; [lra|lra]. } nra.
      * apply Rmult_lt_reg_r with (INR x * INR y)%R; [nra|]. replace (1 / 30 / INR x / INR y * INR rows * (INR x * INR y))%R with (INR rows / 30)%R by (field; lra). nra.
      * intros H _. exfalso. apply le_INR in H. rewrite E3 in H. lra.
    + apply Rltb_false in E2. exists (1 / 30 / INR x)%R. cbn [ef_add].
      assert (P : (0 < / INR x <= 1)%R) by (split; [apply Rinv_0_lt_compat; lra|rewrite <- Rinv_1; apply Rinv_le_contravar; lra]).
      split; [cbv beta iota; apply f_equal2; f_equal; field; lra|]. split; [unfold Rdiv; lra|]. split; [|split].
      * replace (1 / 30 / INR x * INR cols)%R with (INR cols / 30 / INR x)%R by (field; lra). exact B1.
      * replace (1 / 30 / INR x * INR rows)%R with (INR rows / 30 / INR x)%R by (field; lra). lra.
      * intros H _. exfalso. apply le_INR in H. rewrite E3 in H. lra.
  - apply Rltb_false in E1. cbv beta iota. rewrite ?div_fin by lra. cbn [ef_ltb]. change (3000 * 1)%nat with 3000%nat.
    destruct (Rltb 100 (INR rows / 30)) eqn:E2.
    + assert (E2b := E2). apply Rltb_true in E2. destruct (whole_hundreds rows 3000 ltac:(lia)) as [O1 L1]; [rewrite E3; lra|]. set (x := (rows / 3000)%nat) in *. rewrite E3 in L1.
      assert (X : (1 <= INR x)%R) by (apply (le_INR 1); exact O1). rewrite ?nofnat_fin. cbn [ndiv Num_ef]. rewrite !div_fin by lra. exists (1 / 30 / INR x)%R. rewrite ?E2b. cbn [ef_add].
      assert (P : (0 < / INR x <= 1)%R) by (split; [apply Rinv_0_lt_compat; lra|rewrite <- Rinv_1; apply Rinv_le_contravar; lra]).
      split; [cbv beta iota; apply f_equal2; f_equal; field; lra|]. split; [unfold Rdiv; lra|]. assert (0 <= INR cols)%R by apply pos_INR. split; [|split].
      * replace (1 / 30 / INR x * INR cols)%R with (INR cols / 30 * / INR x)%R by (field; lra). nra.
      * apply Rmult_lt_reg_r with (INR x)%R; [lra|]. replace (1 / 30 / INR x * INR rows * INR x)%R with (INR rows / 30)%R by (field; lra). lra.
      * intros _ H'. exfalso. apply le_INR in H'. rewrite E3 in H'. lra.
    + rewrite ?E2. apply Rltb_false in E2. exists (1 / 30)%R. cbn [ef_add]. split; [apply f_equal2; f_equal; field|]. repeat split; lra.
Qed.
Lemma c98_wide : imshow_size 30 4500 = (Fin 152, Fin 3).
Proof.
  destruct (c98_image 30 4500) as (c & E & _ & _ & _ & _). clear E. unfold imshow_size. rewrite !nofnat_fin. cbn [ndiv nadd nofZ nltb Num_ef]. rewrite !div_fin by lra. cbn [ef_ltb].
  replace (INR 4500) with 4500%R by (rewrite INR_IZR_INZ; reflexivity). replace (INR 30) with 30%R by (rewrite INR_IZR_INZ; reflexivity).
  replace (Rltb 100 (4500 / 30)) with true by (symmetry; apply Rltb_true; lra). replace (4500 / 3000)%nat with 1%nat by reflexivity. change (INR 1) with 1%R. rewrite !div_fin by lra. cbn [ef_ltb].
  replace (Rltb 100 (30 / 30 / 1)) with false by (symmetry; apply Rltb_false; lra). cbn [ef_add]. f_equal; f_equal; lra.
Qed.
Lemma c98_plot : forall n, exists w, plot_size (Some n) = (Fin w, Fin 3) /\ (10 <= w)%R /\ (sqrt (INR n) + 2 <= w)%R /\ (w = 10 \/ w = sqrt (INR n) + 2)%R.
Proof.
  intro n. unfold plot_size. rewrite nofnat_fin. cbn [nmaximum nadd nofZ nsqrt Num_ef ef_sqrt].
  assert (0 <= INR n)%R by apply pos_INR. replace (Rltb (INR n) 0) with false by (symmetry; apply Rltb_false; lra). cbn [ef_add].
  unfold nmaximum. cbn. exists (Rmax (sqrt (INR n) + 2) 10). split.
  - f_equal. unfold Rmax, Rleb, Rltb. repeat destruct Rle_dec; repeat destruct Rlt_dec; f_equal; lra.
  - unfold Rmax. destruct Rle_dec; lra.
Qed.
Lemma c98_grid : forall n, (0 < n)%nat -> (n <= grid_rows n * grid_cols n /\ grid_rows n * (grid_cols n - 1) < n)%nat.
Proof.
  intros n H. unfold grid_cols. assert (R0 : (0 < grid_rows n)%nat) by (unfold grid_rows; assert (S := Nat.sqrt_spec n ltac:(lia)); nia). set (r := grid_rows n) in *.
  assert (D := Nat.div_mod (n + r - 1) r ltac:(lia)). assert (M := Nat.mod_upper_bound (n + r - 1) r ltac:(lia)). set (k := ((n + r - 1) / r)%nat) in *. set (m := ((n + r - 1) mod r)%nat) in *.
  split; [nia|]. rewrite Nat.mul_sub_distr_l. nia.
Qed.

(** ** C99 *)
Lemma pref_sum : forall a i j, two_sided a -> (i < dE a)%nat -> (j < dE a)%nat -> i <> j ->
  exists c, number (compared a i j) (seq 0 (dR a)) c /\ (preferences a i j + preferences a j i = INR c)%R /\ (0 <= preferences a i j)%R /\ (0 <= preferences a j i)%R.
Proof.
  intros a i j [_ H] Hi Hj D. unfold preferences.
  assert (G : forall l, (forall s, In s l -> (s < dR a)%nat) -> exists c, number (compared a i j) l c /\ (Rsum (presents (map (at3 a i j) l)) + Rsum (presents (map (at3 a j i) l)) = INR c)%R /\
     (0 <= Rsum (presents (map (at3 a i j) l)))%R /\ (0 <= Rsum (presents (map (at3 a j i) l)))%R).
  { induction l as [|s l IH]; intros Hl.
    - exists 0%nat. split; [constructor|]. unfold Rsum. cbn. repeat split; lra.
    - destruct IH as (c & N & E & P1 & P2); [intros s' Hs'; apply Hl; right; exact Hs'|]. destruct (H i j s Hi Hj D (Hl s (or_introl eq_refl))) as [[E1 E2]|(x & Hx & E1 & E2)]; cbn [map]; rewrite E1, E2; cbn [presents].
      + exists c. split; [apply number_no; [unfold compared; rewrite E1; intro K; apply K; reflexivity|exact N]|auto].
      + exists (S c). split; [apply number_yes; [unfold compared; rewrite E1; discriminate|exact N]|]. rewrite !Rsum_cons, S_INR. repeat split; lra. }
  apply G. intros s Hs. apply in_seq in Hs. lia.
Qed.
Lemma two_finite : forall a, two_sided a -> forall i j s, (i < dE a)%nat -> (j < dE a)%nat -> i <> j -> (s < dR a)%nat -> finnan (at3 a i j s).
Proof. intros a [_ H] i j s Hi Hj D Hs. destruct (H i j s Hi Hj D Hs) as [[-> _]|(x & _ & -> & _)]; exact I. Qed.
Lemma wins_pref : forall a, two_sided a -> forall i j, (i < dE a)%nat -> (j < dE a)%nat -> i <> j -> Figures.wins a i j = Fin (preferences a i j).
Proof.
  intros a H i j Hi Hj D. unfold Figures.wins. rewrite np_nansum_finnan; [reflexivity|]. apply Forall_forall. intros x Hx. apply in_map_iff in Hx as (s & <- & Hs). apply in_seq in Hs.
  apply (two_finite a H); [lia|lia|exact D|lia].
Qed.
Lemma c99_rate : forall a i j, two_sided a -> (i < dE a)%nat -> (j < dE a)%nat -> i <> j ->
  exists c, number (compared a i j) (seq 0 (dR a)) c /\
    ((c = 0%nat /\ at2 (winning_rate a) i j = NaN) \/
     ((0 < c)%nat /\ exists x, at2 (winning_rate a) i j = Fin x /\ (x = preferences a i j / INR c)%R /\ (0 <= x <= 1)%R /\ at2 (winning_rate a) j i = Fin (1 - x))).
Proof.
  intros a i j H Hi Hj D. destruct (pref_sum a i j H Hi Hj D) as (c & N & E & P1 & P2). exists c. split; [exact N|].
  unfold winning_rate. cbn [at2]. rewrite !wins_pref by (assumption || (intro; apply D; congruence)). cbn [ndiv nadd Num_ef ef_add]. rewrite (Rplus_comm (preferences a j i)). rewrite E.
  destruct c as [|c]; [left|right].
  - split; [reflexivity|]. change (INR 0) with 0%R in *. replace (preferences a i j) with 0%R by lra. cbn. destruct (Req_EM_T 0 0) as [_|K]; [|contradiction K; reflexivity]. reflexivity.
  - split; [lia|]. assert (C : (0 < INR (S c))%R) by (apply lt_0_INR; lia). rewrite !div_fin by lra. exists (preferences a i j / INR (S c))%R. split; [reflexivity|]. split; [reflexivity|]. split.
    + split; [apply Rmult_le_pos; [exact P1|left; apply Rinv_0_lt_compat; exact C]|]. apply Rmult_le_reg_r with (INR (S c)); [exact C|]. unfold Rdiv. rewrite Rmult_assoc, Rinv_l by lra. lra.
    + f_equal. replace (preferences a j i) with (INR (S c) - preferences a i j)%R by lra. field. lra.
Qed.
