(** Coverage percentage and logistic mapping. *)
From Coq Require Import List ZArith Bool Arith Reals Lia Lra.
From Verif Require Import PyBase Num ExtReal NumPy ExtRealProofs SpecMos Preproc Reject2Proofs StepsProofs Perf SpecPerf PerfProofs.
Import ListNotations.
Local Open Scope R_scope.

(** ** Coverage percentage *)
Definition hits (xs ys l u : list ef) : list bool :=
  map (fun p => in_ci (fst (fst p)) (snd (fst p)) (fst (snd p)) (snd (snd p))) (combine (combine xs ys) (combine l u)).
Lemma hits_length : forall xs ys l u, length ys = length xs -> length l = length xs -> length u = length xs -> length (hits xs ys l u) = length xs.
Proof. intros. unfold hits. rewrite map_length, !combine_length. lia. Qed.
Lemma hits_nth : forall xs ys l u i, length ys = length xs -> length l = length xs -> length u = length xs ->
  (nth_error (hits xs ys l u) i = Some true <-> (i < length xs)%nat /\ covered xs ys l u i).
Proof.
  induction xs as [|x xs IH]; intros ys l u i L1 L2 L3.
  - destruct i; cbn; split; [discriminate|intros [H _]; cbn in H; lia|discriminate|intros [H _]; cbn in H; lia].
  - destruct ys as [|y ys], l as [|a l], u as [|b u]; cbn [length] in *; try lia. destruct i as [|i].
    + cbn [hits combine map nth_error fst snd]. unfold covered. cbn [nth_error]. split.
      * intro H. injection H as H. unfold in_ci in H. apply andb_true_iff in H. split; [cbn; lia|]. exists x, y, a, b. repeat split; apply H.
      * intros (_ & x' & y' & a' & b' & E1 & E2 & E3 & E4 & H1 & H2). injection E1 as <-. injection E2 as <-. injection E3 as <-. injection E4 as <-.
        f_equal. unfold in_ci. apply andb_true_iff. split; assumption.
    + change (nth_error (hits (x :: xs) (y :: ys) (a :: l) (b :: u)) (S i)) with (nth_error (hits xs ys l u) i). rewrite IH by lia.
      unfold covered. cbn [nth_error]. split; intros [H K]; (split; [lia|exact K]).
Qed.
Definition trues (l : list bool) : list nat := filter (fun i => nth i l false) (seq 0 (length l)).
Lemma trues_shift : forall l k, filter (fun i => nth (i - k) l false) (seq k (length l)) = map (fun i => (i + k)%nat) (trues l).
Proof.
  intros l k. unfold trues. assert (E : forall n m, filter (fun i => nth (i - k) l false) (seq (m + k) n) = map (fun i => (i + k)%nat) (filter (fun i => nth i l false) (seq m n))).
  { induction n as [|n IH]; intro m; [reflexivity|]. cbn [seq filter]. replace (m + k - k)%nat with m by lia. change (S (m + k)) with (S m + k)%nat. rewrite IH. destruct (nth m l false); reflexivity. }
  apply (E (length l) 0%nat).
Qed.
Lemma trues_count : forall l, length (trues l) = count_if (fun b : bool => b) l.
Proof.
  induction l as [|b l IH]; [reflexivity|]. unfold trues. cbn [length seq filter]. change (nth 0 (b :: l) false) with b.
  assert (E : filter (fun i => nth i (b :: l) false) (seq 1 (length l)) = filter (fun i => nth (i - 1) l false) (seq 1 (length l))).
  { apply filter_ext_in. intros i Hi. apply in_seq in Hi. destruct i; [lia|]. cbn [nth]. f_equal. lia. }
  rewrite E, trues_shift. unfold count_if in *. cbn [filter]. destruct b; cbn [length]; rewrite map_length, IH; reflexivity.
Qed.
Lemma trues_positions : forall xs ys l u, length ys = length xs -> length l = length xs -> length u = length xs ->
  covered_positions xs ys l u (length xs) (trues (hits xs ys l u)).
Proof.
  intros xs ys l u L1 L2 L3. split; [apply NoDup_filter, seq_NoDup|]. intro i. unfold trues. rewrite filter_In, in_seq, hits_length by assumption.
  rewrite <- (hits_nth xs ys l u i L1 L2 L3). split.
  - intros [H K]. rewrite (nth_error_nth' _ false) by (rewrite hits_length by assumption; lia). f_equal. exact K.
  - intro H. assert (B := proj1 (hits_nth xs ys l u i L1 L2 L3) H). split; [lia|]. apply nth_error_nth. exact H.
Qed.
Lemma positions_length : forall xs ys l u n c c', covered_positions xs ys l u n c -> covered_positions xs ys l u n c' -> length c = length c'.
Proof.
  intros xs ys l u n c c' [N H] [N' H']. apply Nat.le_antisymm; apply NoDup_incl_length; auto; intros i Hi; [apply H', H|apply H, H']; exact Hi.
Qed.
Lemma c62_value : forall xs ys l u c, xs <> [] -> length ys = length xs -> length l = length xs -> length u = length xs ->
  covered_positions xs ys l u (length xs) c ->
  get_ci_percentage xs ys [l; u] = Ok (Fin (100 * (INR (length c) / INR (length xs)))).
Proof.
  intros xs ys l u c N L1 L2 L3 C. unfold get_ci_percentage. rewrite L1, L2, L3, !Nat.eqb_refl. cbn [negb andb assert_ bind].
  fold (hits xs ys l u). assert (HL := hits_length xs ys l u L1 L2 L3).
  rewrite (positions_length _ _ _ _ _ _ _ C (trues_positions xs ys l u L1 L2 L3)), trues_count. destruct (hits xs ys l u) as [|b h] eqn:E.
  - destruct xs; [contradiction|discriminate].
  - rewrite HL, !nofnat_ef. assert (P := INR_len_pos _ xs N). efc. rewrite ef_div_Fin by lra. cbn [ef_mul]. do 2 f_equal. ring.
Qed.
Lemma c62_positions_exist : forall xs ys l u, length ys = length xs -> length l = length xs -> length u = length xs ->
  exists c, covered_positions xs ys l u (length xs) c.
Proof. intros. eexists. apply trues_positions; assumption. Qed.
Lemma positions_le : forall xs ys l u n c, covered_positions xs ys l u n c -> (length c <= n)%nat.
Proof.
  intros xs ys l u n c [N H]. rewrite <- (seq_length n 0). apply NoDup_incl_length; [exact N|]. intros i Hi. apply in_seq. apply H in Hi. lia.
Qed.
Lemma c62_range : forall xs ys ci r, get_ci_percentage xs ys ci = Ok r -> exists v, r = Fin v /\ 0 <= v <= 100.
Proof.
  intros xs ys ci r H. unfold get_ci_percentage in H. destruct ci as [|l [|u [|? ?]]]; try discriminate.
  destruct (Nat.eqb_spec (length l) (length u)) as [E1|E1]; [cbn [negb] in H|discriminate].
  destruct (Nat.eqb_spec (length xs) (length ys)) as [E2|E2]; [|discriminate]. destruct (Nat.eqb_spec (length ys) (length l)) as [E3|E3]; [|discriminate].
  destruct (list_eq_dec Nat.eq_dec (map (fun _ => 0%nat) xs) []) as [Z|Z].
  - destruct xs; [|discriminate]. discriminate.
  - assert (N : xs <> []) by (intros ->; apply Z; reflexivity).
    assert (C := trues_positions xs ys l u (eq_sym E2) ltac:(lia) ltac:(lia)).
    assert (V := c62_value xs ys l u _ N (eq_sym E2) ltac:(lia) ltac:(lia) C).
    assert (Q : get_ci_percentage xs ys [l; u] = Ok r).
    { unfold get_ci_percentage. rewrite (proj2 (Nat.eqb_eq _ _) E1), (proj2 (Nat.eqb_eq _ _) E2), (proj2 (Nat.eqb_eq _ _) E3). exact H. }
    rewrite Q in V. injection V as ->. eexists. split; [reflexivity|]. assert (P := INR_len_pos _ xs N).
    assert (B := positions_le _ _ _ _ _ _ C). apply le_INR in B. assert (B0 := pos_INR (length (trues (hits xs ys l u)))).
    assert (D : 0 <= INR (length (trues (hits xs ys l u))) / INR (length xs) <= 1); [|lra]. split.
    + apply Rmult_le_pos; [exact B0|apply Rlt_le, Rinv_0_lt_compat, P].
    + apply Rmult_le_reg_r with (INR (length xs)); [exact P|]. unfold Rdiv. rewrite Rmult_assoc, Rinv_l by lra. lra.
Qed.
Lemma c62_accepts : forall xs ys ci, (exists r, get_ci_percentage xs ys ci = Ok r) <->
  (exists l u, ci = [l; u] /\ xs <> [] /\ length ys = length xs /\ length l = length xs /\ length u = length xs).
Proof.
  intros xs ys ci. split.
  - intros [r H]. unfold get_ci_percentage in H. destruct ci as [|l [|u [|? ?]]]; try discriminate. exists l, u.
    destruct (Nat.eqb_spec (length l) (length u)) as [E1|E1]; [cbn [negb] in H|discriminate].
    destruct (Nat.eqb_spec (length xs) (length ys)) as [E2|E2]; [|discriminate]. destruct (Nat.eqb_spec (length ys) (length l)) as [E3|E3]; [|discriminate].
    repeat split; try congruence. intros ->. discriminate.
  - intros (l & u & -> & N & L1 & L2 & L3). eexists. apply c62_value; try assumption. apply trues_positions; assumption.
Qed.
Lemma c62_mismatch : forall xs ys l u, length l = length u -> length ys <> length xs \/ length l <> length ys ->
  get_ci_percentage xs ys [l; u] = Err AssertionError.
Proof.
  intros xs ys l u E H. unfold get_ci_percentage. rewrite E, Nat.eqb_refl. cbn [negb]. rewrite <- E.
  destruct (Nat.eqb_spec (length xs) (length ys)); [|reflexivity]. destruct (Nat.eqb_spec (length ys) (length l)); [|reflexivity]. exfalso. destruct H; congruence.
Qed.
Lemma cover_mono : forall x y a b a' b', (a <= a')%R -> (b <= b')%R ->
  in_ci x y (Fin a) (Fin b) = true -> in_ci x y (Fin a') (Fin b') = true.
Proof.
  intros x y a b a' b' La Lb H. unfold in_ci in *. apply andb_true_iff in H. destruct H as [H1 H2]. apply andb_true_iff.
  revert H1 H2. efc. unfold ef_sub. destruct x as [x| | |], y as [y| | |]; cbn [ef_neg ef_add ef_leb]; try (intros; split; assumption || reflexivity); try discriminate.
  rewrite !Rleb_true. intros; split; lra.
Qed.
Lemma c62_widening : forall xs ys l u l' u' r r', wider l l' -> wider u u' ->
  get_ci_percentage xs ys [map Fin l; map Fin u] = Ok (Fin r) -> get_ci_percentage xs ys [map Fin l'; map Fin u'] = Ok (Fin r') -> r <= r'.
Proof.
  intros xs ys l u l' u' r r' Wl Wu H H'.
  destruct (proj1 (c62_accepts _ _ _) (ex_intro _ _ H)) as (a & b & E & N & L1 & L2 & L3). injection E as <- <-.
  destruct (proj1 (c62_accepts _ _ _) (ex_intro _ _ H')) as (a & b & E & _ & _ & L2' & L3'). injection E as <- <-.
  assert (C := trues_positions _ _ _ _ L1 L2 L3). assert (C' := trues_positions _ _ _ _ L1 L2' L3').
  rewrite (c62_value _ _ _ _ _ N L1 L2 L3 C) in H. rewrite (c62_value _ _ _ _ _ N L1 L2' L3' C') in H'. injection H as <-. injection H' as <-.
  assert (P := INR_len_pos _ xs N). apply Rmult_le_compat_l; [lra|]. apply Rmult_le_compat_r; [apply Rlt_le, Rinv_0_lt_compat, P|]. apply le_INR.
  apply NoDup_incl_length; [apply C|]. intros i Hi. apply C'. apply C in Hi. destruct Hi as [B Hi]. split; [exact B|].
  destruct Hi as (x & y & a & b & E1 & E2 & E3 & E4 & Q).
  assert (F : forall m m' i z, wider m m' -> nth_error (map Fin m) i = Some z -> exists v w, z = Fin v /\ nth_error (map Fin m') i = Some (Fin w) /\ v <= w).
  { clear. intros m m' i z W. revert i. induction W as [|v w m m' Hv W IH]; intros [|i] E; try discriminate; cbn [map nth_error] in *.
    - injection E as <-. exists v, w. auto.
    - exact (IH i E). }
  destruct (F l l' i a Wl E3) as (v & w & -> & E3' & Lv). destruct (F u u' i b Wu E4) as (v2 & w2 & -> & E4' & Lv2).
  exists x, y, (Fin w), (Fin w2). repeat split; try assumption;
    assert (K := cover_mono x y v v2 w w2 Lv Lv2 (proj2 (andb_true_iff _ _) Q)); unfold in_ci in K; apply andb_true_iff in K; apply K.
Qed.

(** ** Logistic mapping *)
Lemma max_Fin : forall x y, nmaximum (Fin x) (Fin y) = Fin (Rmax x y).
Proof. intros. unfold nmaximum. efc. cbn [ef_isnan ef_ltb orb]. unfold Rltb, Rmax. destruct (Rlt_dec y x), (Rle_dec x y); try reflexivity; try lra; f_equal; lra. Qed.
Lemma min_Fin : forall x y, nminimum (Fin x) (Fin y) = Fin (Rmin x y).
Proof. intros. unfold nminimum. efc. cbn [ef_isnan ef_ltb orb]. unfold Rltb, Rmin. destruct (Rlt_dec x y), (Rle_dec x y); try reflexivity; try lra; f_equal; lra. Qed.
Lemma np_max_Fin : forall l m, largest m l -> np_max (map Fin l) = Ok (Fin m).
Proof.
  intros l m [I H]. destruct l as [|x l]; [contradiction|]. cbn [map np_max]. f_equal.
  assert (E : forall l x, fold_left nmaximum (map Fin l) (Fin x) = Fin (fold_left Rmax l x)).
  { clear. induction l as [|y l IH]; intro x; [reflexivity|]. cbn [map fold_left]. rewrite max_Fin. apply IH. }
  rewrite E. f_equal. clear E. assert (K : forall l x, (x <= fold_left Rmax l x) /\ (forall y, In y l -> y <= fold_left Rmax l x) /\ (fold_left Rmax l x = x \/ In (fold_left Rmax l x) l)).
  { clear. induction l as [|y l IH]; intro x; cbn; [repeat split; [lra|intros _ []|left; reflexivity]|]. destruct (IH (Rmax x y)) as (A & B & C).
    assert (X := Rmax_l x y). assert (Y := Rmax_r x y). repeat split; [lra|intros z [<-|Hz]; [lra|apply B, Hz]|].
    destruct C as [C|C]; [|right; right; exact C]. rewrite C. unfold Rmax. destruct (Rle_dec x y); [right; left; reflexivity|left; reflexivity]. }
  destruct (K l x) as (A & B & C). apply Rle_antisym.
  - apply H. destruct C as [->|C]; [left; reflexivity|right; exact C].
  - destruct I as [<-|I]; [exact A|apply B, I].
Qed.
Lemma np_min_Fin : forall l m, smallest m l -> np_min (map Fin l) = Ok (Fin m).
Proof.
  intros l m [I H]. destruct l as [|x l]; [contradiction|]. cbn [map np_min]. f_equal.
  assert (E : forall l x, fold_left nminimum (map Fin l) (Fin x) = Fin (fold_left Rmin l x)).
  { clear. induction l as [|y l IH]; intro x; [reflexivity|]. cbn [map fold_left]. rewrite min_Fin. apply IH. }
  rewrite E. f_equal. clear E. assert (K : forall l x, (fold_left Rmin l x <= x) /\ (forall y, In y l -> fold_left Rmin l x <= y) /\ (fold_left Rmin l x = x \/ In (fold_left Rmin l x) l)).
  { clear. induction l as [|y l IH]; intro x; cbn; [repeat split; [lra|intros _ []|left; reflexivity]|]. destruct (IH (Rmin x y)) as (A & B & C).
    assert (X := Rmin_l x y). assert (Y := Rmin_r x y). repeat split; [lra|intros z [<-|Hz]; [lra|apply B, Hz]|].
    destruct C as [C|C]; [|right; right; exact C]. rewrite C. unfold Rmin. destruct (Rle_dec x y); [left; reflexivity|right; left; reflexivity]. }
  destruct (K l x) as (A & B & C). apply Rle_antisym.
  - destruct I as [<-|I]; [exact A|apply B, I].
  - apply H. destruct C as [->|C]; [left; reflexivity|right; exact C].
Qed.
Lemma tenth : ndec 1 10 = Fin (1 / 10). Proof. apply ndec_ef. lia. Qed.
(** The logit of the normalised value. *)
Definition zR (mn mx y : R) : R := - ln (1 / ((y - (mn - 1/10)) / ((mx + 1/10) - (mn - 1/10))) - 1).
Lemma unit_range : forall mn mx y, mn <= y <= mx -> 0 < (y - (mn - 1/10)) / ((mx + 1/10) - (mn - 1/10)) < 1.
Proof.
  intros mn mx y H. set (w := (mx + 1/10) - (mn - 1/10)). assert (W : 0 < w) by (unfold w; lra). split.
  - apply Rmult_lt_0_compat; [lra|apply Rinv_0_lt_compat, W].
  - apply Rmult_lt_reg_r with w; [exact W|]. unfold Rdiv. rewrite Rmult_assoc, Rinv_l by lra. unfold w. lra.
Qed.
Lemma inv_minus : forall t, 0 < t < 1 -> 0 < 1 / t - 1.
Proof. intros t H. assert (1 < / t) by (rewrite <- Rinv_1; apply Rinv_lt_contravar; lra). unfold Rdiv. lra. Qed.
Lemma zR_Fin : forall mn mx y, mn <= y <= mx -> logit (normalised (nsub (Fin mn) (ndec 1 10)) (nadd (Fin mx) (ndec 1 10)) (Fin y)) = Fin (zR mn mx y).
Proof.
  intros mn mx y H. unfold logit, normalised, none_. rewrite tenth. efc. rewrite !ef_sub_Fin. cbn [ef_add]. rewrite !ef_sub_Fin. assert (U := unit_range mn mx y H). rewrite ef_div_Fin by lra.
  rewrite ef_div_Fin by lra. rewrite ef_sub_Fin. assert (V := inv_minus _ U). cbn [ef_ln]. rewrite (proj2 (Rltb_false _ _)) by lra.
  destruct (Req_EM_T _ 0); [lra|]. reflexivity.
Qed.
Lemma zR_back : forall mn mx y, mn <= y <= mx -> logistic (mn - 1/10) (mx + 1/10) 0 1 (zR mn mx y) = y.
Proof.
  intros mn mx y H. assert (U := unit_range mn mx y H). assert (V := inv_minus _ U). unfold logistic. replace (- (zR mn mx y - 0) / 1) with (- zR mn mx y) by field. unfold zR. rewrite Ropp_involutive, exp_ln by exact V.
  set (w := mx + 1 / 10 - (mn - 1 / 10)) in *. assert (W : 0 < w) by (unfold w; lra). 
  set (t := (y - (mn - 1 / 10)) / w) in *. assert (T : y = t * w + (mn - 1/10)) by (unfold t; field; lra). rewrite T. field. lra.
Qed.
Lemma logistic_eq : forall lo hi a b x, logistic lo hi a b x = 1 / (1 + exp (- (x - a) / b)) * (hi - lo) + lo.
Proof. intros. unfold logistic, Rdiv. ring. Qed.
Definition outR (mn mx a b x : R) : R := logistic (mn - 1/10) (mx + 1/10) a b x.
Lemma outR_Fin : forall mn mx a b x, b <> 0 ->
  logistic_map (nsub (Fin mn) (ndec 1 10)) (nadd (Fin mx) (ndec 1 10)) (Fin a) (Fin b) (Fin x) = Fin (outR mn mx a b x).
Proof.
  intros mn mx a b x B. unfold logistic_map, none_, outR, logistic. rewrite tenth. efc. rewrite !ef_sub_Fin. cbn [ef_add ef_neg]. rewrite !ef_sub_Fin, ef_div_Fin by exact B. cbn [ef_exp ef_add].
  assert (E := exp_pos (- (x - a) / b)). rewrite ef_div_Fin by lra. cbn [ef_mul ef_add]. f_equal. field. repeat split; lra.
Qed.
Lemma sigmoid_value : forall lstsq xs ys mn mx, smallest mn ys -> largest mx ys -> length xs = length ys ->
  sigmoid_adjust lstsq xs (map Fin ys) =
  (do ab <- lstsq (map (fun y => (Fin 1, Fin (zR mn mx y))) ys) xs;
   Ok (map (logistic_map (nsub (Fin mn) (ndec 1 10)) (nadd (Fin mx) (ndec 1 10)) (fst ab) (snd ab)) xs)).
Proof.
  intros lstsq xs ys mn mx Sm La L. unfold sigmoid_adjust. rewrite (np_max_Fin _ _ La), (np_min_Fin _ _ Sm). cbn [bind].
  rewrite map_length, L, Nat.eqb_refl. cbn [bind]. rewrite !map_map.
  rewrite (map_ext_in _ (fun y => (Fin 1, Fin (zR mn mx y)))); [reflexivity|]. intros y Iy. rewrite zR_Fin; [reflexivity|]. split; [apply Sm, Iy|apply La, Iy].
Qed.
Lemma outR_range : forall mn mx a b x, mn <= mx -> mn - 1/10 < outR mn mx a b x < mx + 1/10.
Proof.
  intros mn mx a b x H. unfold outR; rewrite ?logistic_eq. assert (E := exp_pos (- (x - a) / b)). set (e := exp _) in *. set (w := mx + 1/10 - (mn - 1/10)). assert (W : 0 < w) by (unfold w; lra).
  assert (I : 0 < 1 / (1 + e) < 1). { unfold Rdiv. rewrite Rmult_1_l. split; [apply Rinv_0_lt_compat; lra|]. rewrite <- Rinv_1. apply Rinv_lt_contravar; lra. }
  assert (0 < 1 / (1 + e) * w) by (apply Rmult_lt_0_compat; lra). assert (1 / (1 + e) * w < 1 * w) by (apply Rmult_lt_compat_r; lra). unfold w in *. lra.
Qed.
Lemma outR_mono : forall mn mx a b x x', mn <= mx -> 0 < b -> x < x' -> outR mn mx a b x < outR mn mx a b x'.
Proof.
  intros mn mx a b x x' H B L. unfold outR; rewrite ?logistic_eq. apply Rplus_lt_compat_r, Rmult_lt_compat_r; [lra|]. unfold Rdiv. rewrite !Rmult_1_l.
  assert (E := exp_pos (- (x - a) / b)). assert (E' := exp_pos (- (x' - a) / b)). apply Rinv_lt_contravar.
  - apply Rmult_lt_0_compat; unfold Rdiv in *; lra.
  - apply Rplus_lt_compat_l, exp_increasing. apply Rmult_lt_compat_r; [apply Rinv_0_lt_compat, B|lra].
Qed.
Lemma outR_anti : forall mn mx a b x x', mn <= mx -> b < 0 -> x < x' -> outR mn mx a b x' < outR mn mx a b x.
Proof.
  intros mn mx a b x x' H B L. unfold outR; rewrite ?logistic_eq. apply Rplus_lt_compat_r, Rmult_lt_compat_r; [lra|]. unfold Rdiv. rewrite !Rmult_1_l.
  assert (E := exp_pos (- (x - a) / b)). assert (E' := exp_pos (- (x' - a) / b)). apply Rinv_lt_contravar.
  - apply Rmult_lt_0_compat; unfold Rdiv in *; lra.
  - apply Rplus_lt_compat_l, exp_increasing. assert (K : / b < 0) by (apply Rinv_lt_0_compat, B). rewrite (Rmult_comm _ (/ b)), (Rmult_comm (- (x' - a))). apply Rmult_lt_gt_compat_neg_l; [exact K|lra].
Qed.
Lemma c64_formula : forall lstsq xs ys mn mx, smallest mn ys -> largest mx ys -> length xs = length ys ->
  exists zs, length zs = length ys /\
    (forall i y z, nth_error ys i = Some y -> nth_error zs i = Some z -> logistic (mn - 1/10) (mx + 1/10) 0 1 z = y) /\
    (forall e, lstsq (map (fun z => (Fin 1, Fin z)) zs) (map Fin xs) = Err e -> sigmoid_adjust lstsq (map Fin xs) (map Fin ys) = Err e) /\
    (forall a b, b <> 0 -> lstsq (map (fun z => (Fin 1, Fin z)) zs) (map Fin xs) = Ok (Fin a, Fin b) ->
       sigmoid_adjust lstsq (map Fin xs) (map Fin ys) = Ok (map (fun x => Fin (logistic (mn - 1/10) (mx + 1/10) a b x)) xs)).
Proof.
  intros lstsq xs ys mn mx Sm La L. exists (map (zR mn mx) ys). assert (V := sigmoid_value lstsq (map Fin xs) ys mn mx Sm La). rewrite map_length in V. specialize (V L).
  split; [apply map_length|]. rewrite map_map. split; [|split].
  - intros i y z Hy Hz. rewrite nth_error_map, Hy in Hz. cbn in Hz. injection Hz as <-. apply nth_error_In in Hy. apply zR_back. split; [apply Sm, Hy|apply La, Hy].
  - intros e H. rewrite V, H. reflexivity.
  - intros a b B H. rewrite V, H. cbn [bind fst snd]. rewrite map_map. f_equal. apply map_ext. intro x. rewrite outR_Fin by exact B. reflexivity.
Qed.

Lemma sigmoid_out : forall lstsq P xs ys mn mx out, smallest mn ys -> largest mx ys -> length xs = length ys -> slope lstsq P -> (forall b, P b -> b <> 0) ->
  sigmoid_adjust lstsq (map Fin xs) (map Fin ys) = Ok out -> exists a b, P b /\ out = map (fun x => Fin (outR mn mx a b x)) xs.
Proof.
  intros lstsq P xs ys mn mx out Sm La L SL NZ H. rewrite (sigmoid_value _ _ _ mn mx Sm La) in H by (rewrite map_length; exact L).
  destruct (lstsq _ _) as [ab|e] eqn:E; [|discriminate]. destruct (SL _ _ _ E) as (a & b & -> & Pb). cbn [bind fst snd] in H. injection H as <-.
  exists a, b. split; [exact Pb|]. rewrite map_map. apply map_ext. intro x. apply outR_Fin. apply NZ, Pb.
Qed.
Lemma c64_range : forall lstsq xs ys mn mx out, smallest mn ys -> largest mx ys -> length xs = length ys -> slope lstsq (fun b => b <> 0) ->
  sigmoid_adjust lstsq (map Fin xs) (map Fin ys) = Ok out ->
  length out = length xs /\ forall i v, nth_error out i = Some v -> exists r, v = Fin r /\ mn - 1/10 < r < mx + 1/10.
Proof.
  intros lstsq xs ys mn mx out Sm La L SL H. destruct (sigmoid_out _ _ _ _ _ _ _ Sm La L SL (fun b h => h) H) as (a & b & B & ->).
  split; [apply map_length|]. intros i v E. rewrite nth_error_map in E. destruct (nth_error xs i) as [x|]; [|discriminate]. injection E as <-. eexists. split; [reflexivity|].
  apply outR_range. apply Sm, La.
Qed.
Lemma c64_order : forall lstsq xs ys mn mx out, smallest mn ys -> largest mx ys -> length xs = length ys -> slope lstsq (fun b => 0 < b) ->
  sigmoid_adjust lstsq (map Fin xs) (map Fin ys) = Ok out ->
  forall i j x x' v v', nth_error xs i = Some x -> nth_error xs j = Some x' -> nth_error out i = Some (Fin v) -> nth_error out j = Some (Fin v') -> (x < x' <-> v < v').
Proof.
  intros lstsq xs ys mn mx out Sm La L SL H i j x x' v v' Hx Hx' Hv Hv'.
  destruct (sigmoid_out _ _ _ _ _ _ _ Sm La L SL (fun b h => Rgt_not_eq _ _ h) H) as (a & b & B & ->).
  rewrite nth_error_map, Hx in Hv. rewrite nth_error_map, Hx' in Hv'. injection Hv as <-. injection Hv' as <-. assert (M : mn <= mx) by (apply Sm, La). split.
  - apply outR_mono; assumption.
  - intro Q. destruct (Rtotal_order x x') as [K|[K|K]]; [exact K|subst; lra|]. generalize (outR_mono mn mx a b x' x M B K). lra.
Qed.
Lemma c64_reverse : forall lstsq xs ys mn mx out, smallest mn ys -> largest mx ys -> length xs = length ys -> slope lstsq (fun b => b < 0) ->
  sigmoid_adjust lstsq (map Fin xs) (map Fin ys) = Ok out ->
  forall i j x x' v v', nth_error xs i = Some x -> nth_error xs j = Some x' -> nth_error out i = Some (Fin v) -> nth_error out j = Some (Fin v') -> (x < x' <-> v' < v).
Proof.
  intros lstsq xs ys mn mx out Sm La L SL H i j x x' v v' Hx Hx' Hv Hv'.
  destruct (sigmoid_out _ _ _ _ _ _ _ Sm La L SL (fun b h => Rlt_not_eq _ _ h) H) as (a & b & B & ->).
  rewrite nth_error_map, Hx in Hv. rewrite nth_error_map, Hx' in Hv'. injection Hv as <-. injection Hv' as <-. assert (M : mn <= mx) by (apply Sm, La). split.
  - apply outR_anti; assumption.
  - intro Q. destruct (Rtotal_order x x') as [K|[K|K]]; [exact K|subst; lra|]. generalize (outR_anti mn mx a b x' x M B K). lra.
Qed.
Lemma c64_lengths : forall lstsq xs ys, length xs <> length ys -> ys <> [] -> sigmoid_adjust lstsq (map Fin xs) (map Fin ys) = Err LinAlgError.
Proof.
  intros lstsq xs ys H N. unfold sigmoid_adjust. destruct ys as [|y ys]; [contradiction|]. cbn [map np_max np_min bind].
  cbn [length]. rewrite !map_length. destruct (Nat.eqb_spec (length xs) (S (length ys))); [contradiction|reflexivity].
Qed.
Lemma c64_used : forall lstsq m ys xs ps, length xs = length ys -> sigmoid_adjust lstsq (map Fin xs) (map Fin ys) = Ok ps ->
  perf_score lstsq m true (plain ys) (map Fin xs) = perf_evaluate m (map Fin ys) ps.
Proof.
  intros lstsq m ys xs ps L H. unfold perf_score, perf_preprocess. unfold plain at 1. rewrite !map_length, L, Nat.eqb_refl. cbn [assert_ bind]. rewrite aggregate_plain, H. reflexivity.
Qed.
