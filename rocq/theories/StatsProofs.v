(** Lemmas for claim C87. *)
From Coq Require Import Reals List Bool Arith ZArith Lra Lia Permutation.
From Verif Require Import PyBase Num NumPy ExtReal Eval BaseProofs ExtRealProofs Stats SpecStats.
Import ListNotations.
Local Open Scope R_scope.

(** ** range *)
Lemma nmin_Fin : forall a b, nminimum (Fin a) (Fin b) = Fin (Rmin a b).
Proof.
  intros. unfold nminimum. cbn [nisnan Num_ef ef_isnan nltb ef_ltb]. unfold Rltb, Rmin.
  destruct (Rlt_dec a b), (Rle_dec a b); try reflexivity; try (f_equal; lra); lra.
Qed.
Lemma nmax_Fin : forall a b, nmaximum (Fin a) (Fin b) = Fin (Rmax a b).
Proof.
  intros. unfold nmaximum. cbn [nisnan Num_ef ef_isnan nltb ef_ltb]. unfold Rltb, Rmax.
  destruct (Rlt_dec b a), (Rle_dec a b); try reflexivity; try (f_equal; lra); lra.
Qed.
Lemma fold_min : forall r x, exists a, fold_left nminimum (map Fin r) (Fin x) = Fin a /\ In a (x :: r) /\ forall v, In v (x :: r) -> a <= v.
Proof.
  induction r as [|y r IH]; intro x; cbn [map fold_left].
  - exists x. split; [reflexivity|]. split; [left; reflexivity|]. intros v [<-|[]]. lra.
  - rewrite nmin_Fin. destruct (IH (Rmin x y)) as [a [E [I L]]]. exists a. split; [exact E|]. split.
    + destruct I as [<-|I]; [|right; right; exact I]. unfold Rmin. destruct (Rle_dec x y); [left|right; left]; reflexivity.
    + assert (Lm := L _ (or_introl eq_refl)). pose proof (Rmin_l x y). pose proof (Rmin_r x y).
      intros v [<-|[<-|I']]; [lra|lra|]. apply L. right. exact I'.
Qed.
Lemma fold_max : forall r x, exists a, fold_left nmaximum (map Fin r) (Fin x) = Fin a /\ In a (x :: r) /\ forall v, In v (x :: r) -> v <= a.
Proof.
  induction r as [|y r IH]; intro x; cbn [map fold_left].
  - exists x. split; [reflexivity|]. split; [left; reflexivity|]. intros v [<-|[]]. lra.
  - rewrite nmax_Fin. destruct (IH (Rmax x y)) as [a [E [I L]]]. exists a. split; [exact E|]. split.
    + destruct I as [<-|I]; [|right; right; exact I]. unfold Rmax. destruct (Rle_dec x y); [right; left|left]; reflexivity.
    + assert (Lm := L _ (or_introl eq_refl)). pose proof (Rmax_l x y). pose proof (Rmax_r x y).
      intros v [<-|[<-|I']]; [lra|lra|]. apply L. right. exact I'.
Qed.

Lemma range_ok : forall l, l <> [] -> exists lo hi, hist_range (map Fin l) = Ok (Fin lo, Fin hi) /\ spans l lo hi /\ lo < hi /\ forall v, In v l -> lo <= v <= hi.
Proof.
  intros [|x r] H; [congruence|]. cbn [map hist_range].
  destruct (fold_min r x) as [a [Ea [Ia La]]], (fold_max r x) as [b [Eb [Ib Lb]]]. rewrite Ea, Eb. cbv zeta.
  unfold nfinite. cbn [nisnan nisinf Num_ef ef_isnan ef_isinf negb andb neqb ef_eqb]. unfold Reqbb.
  assert (L : forall v, In v (x :: r) -> a <= v <= b) by (intros; split; auto). specialize (La _ Ib).
  destruct (Req_EM_T a b) as [E|D].
  - exists (a - / 2), (b + / 2). split; [rewrite ndec_ef by lia; cbn [nadd nsub Num_ef ef_add]; rewrite ef_sub_Fin; repeat f_equal; lra|].
    split; [exists a, b; repeat split; intros; try (apply L; assumption); try assumption; lra|]. split; [lra|].
    intros v Hv. specialize (L v Hv). lra.
  - exists a, b. split; [reflexivity|]. split; [exists a, b; repeat split; intros; try (apply L; assumption); try assumption; lra|].
    split; [lra|exact L].
Qed.

(** ** counting *)
Lemma limit_0 : forall lo hi n, limit lo hi n 0 = lo.
Proof. intros. unfold limit. cbn [INR]. lra. Qed.
Lemma limit_n : forall lo hi n, (0 < n)%nat -> limit lo hi n n = hi.
Proof. intros lo hi n H. unfold limit. apply lt_0_INR in H. field. lra. Qed.
Lemma limit_lt : forall lo hi n i j, (0 < n)%nat -> lo < hi -> (i < j)%nat -> limit lo hi n i < limit lo hi n j.
Proof.
  intros lo hi n i j Hn H L. unfold limit. apply lt_INR in L. apply lt_0_INR in Hn.
  assert (0 < (hi - lo) / INR n) by (apply Rdiv_lt_0_compat; lra). nra.
Qed.

Definition cellb (lo hi : R) (n k : nat) (v : R) : bool :=
  Rleb (limit lo hi n k) v && (Rltb v (limit lo hi n (S k)) || (Nat.eqb (S k) n && Rleb v (limit lo hi n (S k)))).
Definition belowb (x v : R) : bool := if Rlt_dec v x then true else false.

Lemma edges_vat : forall lo hi n k, (0 < n)%nat -> (k <= n)%nat -> vat (hist_edges (Fin lo) (Fin hi) n) k = Fin (limit lo hi n k).
Proof.
  intros lo hi n k Hn Hk. unfold vat, hist_edges.
  assert (N0 : INR n <> 0) by (apply not_0_INR; lia).
  destruct (Nat.eq_dec k n) as [->|D].
  - rewrite app_nth2 by (rewrite map_length, seq_length; lia). rewrite map_length, seq_length, Nat.sub_diag.
    cbn [nth]. rewrite limit_n by exact Hn. reflexivity.
  - rewrite app_nth1 by (rewrite map_length, seq_length; lia). rewrite BaseProofs.nth_map_seq by lia.
    rewrite !nofnat_ef. cbn [nadd nmul ndiv nsub Num_ef]. rewrite ef_sub_Fin, ef_div_Fin by exact N0. cbn [ef_mul ef_add].
    unfold limit. f_equal. lra.
Qed.

Lemma in_bin_cell : forall lo hi n k v, (k < n)%nat -> in_bin (hist_edges (Fin lo) (Fin hi) n) n k (Fin v) = cellb lo hi n k v.
Proof.
  intros lo hi n k v H. unfold in_bin, cellb. rewrite !edges_vat by lia. reflexivity.
Qed.

Lemma filter_map_Fin : forall (p : ef -> bool) (q : R -> bool) l, (forall v, p (Fin v) = q v) ->
  length (filter p (map Fin l)) = length (filter q l).
Proof.
  intros p q l H. induction l as [|v l IH]; [reflexivity|]. cbn [map filter]. rewrite H. destruct (q v); cbn [length]; rewrite IH; reflexivity.
Qed.

Definition ccount (l : list R) (lo hi : R) (n k : nat) : nat := length (filter (cellb lo hi n k) l).

Lemma histogram_ok : forall l n, l <> [] -> (0 < n)%nat -> exists lo hi, spans l lo hi /\ lo < hi /\ (forall v, In v l -> lo <= v <= hi) /\
  np_histogram (map Fin l) (Z.of_nat n) = Ok (map (ccount l lo hi n) (seq 0 n), hist_edges (Fin lo) (Fin hi) n).
Proof.
  intros l n Hl Hn. destruct (range_ok l Hl) as [lo [hi [E [S [L V]]]]]. exists lo, hi. split; [exact S|]. split; [exact L|]. split; [exact V|].
  unfold np_histogram. replace (Z.of_nat n <? 1)%Z with false by (symmetry; apply Z.ltb_ge; lia).
  cbv zeta. rewrite Nat2Z.id, E. cbn [bind fst snd]. f_equal. f_equal.
  apply map_ext_in. intros k Hk. apply in_seq in Hk. apply filter_map_Fin. intro v. apply in_bin_cell. lia.
Qed.

Definition b2n (b : bool) : nat := if b then 1%nat else 0%nat.
Lemma filter_split : forall A (p q r : A -> bool) l, (forall v, In v l -> (b2n (p v) + b2n (q v) = b2n (r v))%nat) ->
  (length (filter p l) + length (filter q l) = length (filter r l))%nat.
Proof.
  intros A p q r l H. induction l as [|v l IH]; [reflexivity|]. assert (Hv := H v (or_introl eq_refl)).
  assert (IH' := IH (fun w Hw => H w (or_intror Hw))). cbn [filter].
  destruct (p v), (q v), (r v); cbn [b2n] in Hv; cbn [length]; lia.
Qed.

(** Up to the k-th cell: everything below the next limit. *)
Lemma count_split : forall lo hi n k l, (0 < n)%nat -> lo < hi -> (S k < n)%nat ->
  (length (filter (belowb (limit lo hi n k)) l) + ccount l lo hi n k = length (filter (belowb (limit lo hi n (S k))) l))%nat.
Proof.
  intros lo hi n k l Hn H Hk. assert (L := limit_lt lo hi n k (S k) Hn H (Nat.lt_succ_diag_r k)).
  apply filter_split. intros v _. unfold cellb, belowb.
  replace (Nat.eqb (S k) n) with false by (symmetry; apply Nat.eqb_neq; lia). cbn [andb]. rewrite orb_false_r.
  unfold Rleb, Rltb. destruct (Rlt_dec v (limit lo hi n k)), (Rle_dec (limit lo hi n k) v), (Rlt_dec v (limit lo hi n (S k)));
    cbn [andb b2n]; try reflexivity; lra.
Qed.
Lemma filter_all : forall A (l : list A), filter (fun _ => true) l = l.
Proof. induction l as [|v l IH]; [reflexivity|]. cbn [filter]. rewrite IH. reflexivity. Qed.
Lemma count_last : forall lo hi n k l, lo < hi -> S k = n -> (forall v, In v l -> lo <= v <= hi) ->
  (length (filter (belowb (limit lo hi n k)) l) + ccount l lo hi n k = length l)%nat.
Proof.
  intros lo hi n k l H Hk V. assert (Hn : (0 < n)%nat) by lia.
  rewrite <- (filter_all _ l) at 3. apply filter_split. intros v Hv. specialize (V v Hv). unfold cellb, belowb.
  rewrite Hk, Nat.eqb_refl, limit_n by exact Hn. cbn [andb].
  unfold Rleb, Rltb. destruct (Rlt_dec v (limit lo hi n k)), (Rle_dec (limit lo hi n k) v), (Rlt_dec v hi), (Rle_dec v hi);
    cbn [andb orb b2n]; try reflexivity; lra.
Qed.
Lemma count_zero : forall lo hi n l, (forall v, In v l -> lo <= v <= hi) -> length (filter (belowb (limit lo hi n 0)) l) = 0%nat.
Proof.
  intros lo hi n l V. induction l as [|v l IH]; [reflexivity|]. cbn [filter]. unfold belowb at 1. rewrite limit_0.
  assert (Vv := V v (or_introl eq_refl)). destruct (Rlt_dec v lo); [lra|]. rewrite <- (limit_0 lo hi n). apply IH. intros w Hw. apply V. right. exact Hw.
Qed.

Lemma fold_add : forall q a, fold_left Nat.add q a = (a + fold_left Nat.add q 0)%nat.
Proof. induction q as [|y q IH]; intro a; cbn [fold_left]; [lia|]. rewrite IH, (IH (0 + y)%nat). lia. Qed.
Lemma cumsum_nth : forall l acc, cumsum acc l = map (fun k => (acc + fold_left Nat.add (firstn (S k) l) 0)%nat) (seq 0 (length l)).
Proof.
  induction l as [|x l IH]; intro acc; [reflexivity|]. cbn [cumsum length seq map].
  assert (E : (acc + x = acc + fold_left Nat.add (firstn 1 (x :: l)) 0)%nat) by (cbn [firstn fold_left]; lia). rewrite <- E. f_equal.
  rewrite IH, <- seq_shift, map_map. apply map_ext. intro k. rewrite (firstn_cons (S k)). cbn [fold_left]. rewrite (fold_add _ (0 + x)%nat). lia.
Qed.

Lemma cum_counts : forall l lo hi n, (0 < n)%nat -> lo < hi -> (forall v, In v l -> lo <= v <= hi) -> forall k, (k < n)%nat ->
  fold_left Nat.add (map (ccount l lo hi n) (seq 0 k)) 0%nat = length (filter (belowb (limit lo hi n k)) l).
Proof.
  intros l lo hi n Hn H V. induction k as [|k IH]; intro Hk.
  - rewrite (count_zero lo hi n l V). reflexivity.
  - rewrite seq_S, map_app, fold_left_app. cbn [map fold_left]. rewrite IH by lia. apply count_split; assumption.
Qed.
Lemma cum_total : forall l lo hi n, (0 < n)%nat -> lo < hi -> (forall v, In v l -> lo <= v <= hi) ->
  fold_left Nat.add (map (ccount l lo hi n) (seq 0 n)) 0%nat = length l.
Proof.
  intros l lo hi n Hn H V. destruct n as [|k]; [lia|].
  rewrite seq_S, map_app, fold_left_app. cbn [map fold_left]. rewrite cum_counts by (auto; lia). apply count_last; auto.
Qed.
Lemma firstn_map_seq : forall A (f : nat -> A) n k, (k <= n)%nat -> firstn k (map f (seq 0 n)) = map f (seq 0 k).
Proof.
  intros A f n k H. replace n with (k + (n - k))%nat by lia. rewrite seq_app, map_app, firstn_app, map_length, seq_length, Nat.sub_diag.
  cbn [firstn]. rewrite app_nil_r.
  rewrite firstn_all2 by (rewrite map_length, seq_length; lia). reflexivity.
Qed.
Lemma edges_tl : forall lo hi n, (0 < n)%nat -> tl (hist_edges (Fin lo) (Fin hi) n) = map (fun k => Fin (limit lo hi n (S k))) (seq 0 n).
Proof.
  intros lo hi n Hn.
  assert (L : length (hist_edges (Fin lo) (Fin hi) n) = S n) by (unfold hist_edges; rewrite app_length, map_length, seq_length; cbn [length]; lia).
  apply nth_ext with (d := NaN) (d' := NaN).
  - destruct (hist_edges (Fin lo) (Fin hi) n); [discriminate|]. cbn [tl length] in *. rewrite map_length, seq_length. lia.
  - intros i Hi. assert (Hi' : (i < n)%nat) by (destruct (hist_edges (Fin lo) (Fin hi) n); [discriminate|]; cbn [tl length] in *; lia).
    rewrite BaseProofs.nth_map_seq by exact Hi'. rewrite <- edges_vat by lia. unfold vat.
    destruct (hist_edges (Fin lo) (Fin hi) n); [discriminate|reflexivity].
Qed.

Lemma c87_cdf : forall l n, l <> [] -> (0 < n)%nat -> exists lo hi, spans l lo hi /\
  get_cdf (map Fin l) (Z.of_nat n) =
    Ok (map (fun k => Fin (if Nat.eqb (S k) n then 1 else share_below l (limit lo hi n (S k)))) (seq 0 n),
        map (fun k => Fin (limit lo hi n (S k))) (seq 0 n)).
Proof.
  intros l n Hl Hn. destruct (histogram_ok l n Hl Hn) as [lo [hi [S [L [V E]]]]]. exists lo, hi. split; [exact S|].
  unfold get_cdf. rewrite E. cbn [bind fst snd]. rewrite edges_tl by exact Hn. f_equal. f_equal.
  rewrite cumsum_nth, map_length, seq_length.
  assert (F : forall k, (k < n)%nat -> fold_left Nat.add (firstn (Datatypes.S k) (map (ccount l lo hi n) (seq 0 n))) 0%nat =
    if Nat.eqb (Datatypes.S k) n then length l else length (filter (belowb (limit lo hi n (Datatypes.S k))) l)).
  { intros k Hk. rewrite firstn_map_seq by lia. destruct (Nat.eqb_spec (Datatypes.S k) n) as [->|D]; [apply cum_total|apply cum_counts]; auto; lia. }
  rewrite (map_ext_in (fun k => (0 + fold_left Nat.add (firstn (Datatypes.S k) (map (ccount l lo hi n) (seq 0 n))) 0)%nat)
             (fun k => if Nat.eqb (Datatypes.S k) n then length l else length (filter (belowb (limit lo hi n (Datatypes.S k))) l)))
    by (intros k Hk; apply in_seq in Hk; cbn [Nat.add]; apply F; lia).
  assert (Last : last (map (fun k => if Nat.eqb (Datatypes.S k) n then length l else length (filter (belowb (limit lo hi n (Datatypes.S k))) l)) (seq 0 n)) 0%nat = length l).
  { destruct n as [|m]; [lia|]. rewrite (seq_S m 0), map_app. cbn [map]. rewrite last_last. cbn [Nat.add]. rewrite Nat.eqb_refl. reflexivity. }
  rewrite Last, map_map. apply map_ext_in. intros k Hk. apply in_seq in Hk.
  rewrite !nofnat_ef. cbn [ndiv Num_ef]. rewrite ef_div_Fin by (apply INR_len_neq; exact Hl).
  destruct (Nat.eqb (Datatypes.S k) n); [|reflexivity]. f_equal. apply Rinv_r. apply INR_len_neq. exact Hl.
Qed.

Lemma share_bounds : forall l x, l <> [] -> 0 <= share_below l x <= 1.
Proof.
  intros l x H. unfold share_below. assert (P := INR_len_pos _ l H).
  assert (Q' : (length (filter (fun v => if Rlt_dec v x then true else false) l) <= length l)%nat).
  { clear. induction l as [|v l IH]; [apply le_n|]. cbn [filter]. destruct (Rlt_dec v x); cbn [length]; lia. }
  apply le_INR in Q'. pose proof (pos_INR (length (filter (fun v => if Rlt_dec v x then true else false) l))).
  split; [unfold Rdiv; apply Rmult_le_pos; [lra|left; apply Rinv_0_lt_compat; exact P]|]. apply Rmult_le_reg_r with (INR (length l)); [exact P|].
  unfold Rdiv. rewrite Rmult_assoc, Rinv_l by lra. lra.
Qed.
Lemma share_mono : forall l x y, l <> [] -> x <= y -> share_below l x <= share_below l y.
Proof.
  intros l x y H L. unfold share_below. assert (P := INR_len_pos _ l H). unfold Rdiv. apply Rmult_le_compat_r; [left; apply Rinv_0_lt_compat; exact P|].
  apply le_INR. clear H P. induction l as [|v l IH]; [apply le_n|]. cbn [filter]. destruct (Rlt_dec v x), (Rlt_dec v y); cbn [length]; try lra; lia.
Qed.
Lemma cdf_mono : forall l lo hi n i j, l <> [] -> (0 < n)%nat -> lo < hi -> (i <= j < n)%nat ->
  (if Nat.eqb (S i) n then 1 else share_below l (limit lo hi n (S i))) <= (if Nat.eqb (S j) n then 1 else share_below l (limit lo hi n (S j))).
Proof.
  intros l lo hi n i j Hl Hn LH Hij. destruct (Nat.eqb_spec (S i) n), (Nat.eqb_spec (S j) n); try lia; try lra.
  - apply share_bounds; exact Hl.
  - apply share_mono; [exact Hl|]. destruct (Nat.eq_dec i j) as [->|D]; [lra|]. left. apply limit_lt; auto; lia.
Qed.
Lemma c87_monotone : forall l n cdf edges, l <> [] -> (0 < n)%nat -> get_cdf (map Fin l) (Z.of_nat n) = Ok (cdf, edges) ->
  length cdf = n /\ length edges = n /\
  (forall k, (k < n)%nat -> exists c, nth k cdf NaN = Fin c /\ 0 <= c <= 1) /\
  (forall i j a b, (i <= j < n)%nat -> nth i cdf NaN = Fin a -> nth j cdf NaN = Fin b -> a <= b) /\
  last cdf NaN = Fin 1.
Proof.
  intros l n cdf edges Hl Hn H. destruct (c87_cdf l n Hl Hn) as [lo [hi [S E]]]. rewrite E in H. injection H as <- <-.
  rewrite !map_length, !seq_length.
  assert (LH : lo < hi).
  { destruct S as [a [b [Ia [Ib [V [S1 S2]]]]]]. specialize (V a Ia). destruct (Req_EM_T a b) as [e|d]; [destruct (S2 e); lra|].
    assert (a < b) by lra. destruct (S1 H); lra. }
  split; [reflexivity|]. split; [reflexivity|]. split; [|split].
  - intros k Hk. rewrite BaseProofs.nth_map_seq by exact Hk. exists (if Nat.eqb (Datatypes.S k) n then 1 else share_below l (limit lo hi n (Datatypes.S k))). split; [reflexivity|].
    destruct (Nat.eqb (Datatypes.S k) n); [split; lra|apply share_bounds; exact Hl].
  - intros i j a b Hij. rewrite !BaseProofs.nth_map_seq by lia. intros E1 E2.
    assert (FI : forall u v, Fin u = Fin v -> u = v) by congruence. apply FI in E1, E2. subst a b. apply cdf_mono; assumption || lia.
  - destruct n as [|m]; [lia|]. rewrite seq_S, map_app. cbn [map]. rewrite last_last. cbn [Nat.add]. rewrite Nat.eqb_refl. reflexivity.
Qed.
