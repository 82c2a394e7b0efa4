(** Lemmas for claim C87: densities, refusals, counts, the logistic density. *)
From Coq Require Import Reals List Bool Arith ZArith Lra Lia Permutation.
From Verif Require Import PyBase Num NumPy ExtReal Eval BaseProofs ExtRealProofs Stats SpecStats StatsProofs.
Import ListNotations.
Local Open Scope R_scope.

Lemma number_filter : forall A (P : A -> Prop) (p : A -> bool) l, (forall v, p v = true <-> P v) -> number P l (length (filter p l)).
Proof.
  intros A P p l H. induction l as [|v l IH]; cbn [filter]; [constructor|]. destruct (p v) eqn:E; cbn [length].
  - constructor; [apply H; exact E|exact IH].
  - constructor; [intro C; apply H in C; congruence|exact IH].
Qed.
Lemma cellb_spec : forall lo hi n k v, cellb lo hi n k v = true <-> in_cell lo hi n k v.
Proof.
  intros. unfold cellb, in_cell. rewrite andb_true_iff, orb_true_iff, andb_true_iff, !Rleb_true, Rltb_true, Nat.eqb_eq.
  split.
  - intros [A [B|[B C]]]; split; auto. right. split; [exact B|]. rewrite B in C. destruct n as [|m]; [discriminate|]. rewrite limit_n in C by lia. exact C.
  - intros [A [B|[B C]]]; split; auto. right. split; [exact B|]. rewrite B. destruct n as [|m]; [discriminate|]. rewrite limit_n by lia. exact C.
Qed.

Lemma nth_ccount : forall l lo hi n k, (k < n)%nat -> nth k (map (ccount l lo hi n) (seq 0 n)) 0%nat = ccount l lo hi n k.
Proof. intros. apply BaseProofs.nth_map_seq. assumption. Qed.

Lemma c87_pdf : forall l n, l <> [] -> (0 < n)%nat -> exists lo hi counts, spans l lo hi /\ length counts = n /\
  (forall k, (k < n)%nat -> number (in_cell lo hi n k) l (nth k counts 0%nat)) /\
  fold_right Nat.add 0%nat counts = length l /\
  get_pdf (map Fin l) (Z.of_nat n) true =
    Ok (map (fun c => Fin (INR c / INR (length l) / ((hi - lo) / INR n))) counts,
        map (fun k => Fin ((limit lo hi n k + limit lo hi n (S k)) / 2)) (seq 0 n)) /\
  get_pdf (map Fin l) (Z.of_nat n) false =
    Ok (map (fun c => Fin (INR c)) counts, map (fun k => Fin ((limit lo hi n k + limit lo hi n (S k)) / 2)) (seq 0 n)).
Proof.
  intros l n Hl Hn. destruct (histogram_ok l n Hl Hn) as [lo [hi [S [L [V E]]]]].
  exists lo, hi, (map (ccount l lo hi n) (seq 0 n)). split; [exact S|]. split; [rewrite map_length; apply seq_length|].
  assert (T := cum_total l lo hi n Hn L V).
  assert (Cen : map (fun k => ndiv (nadd (vat (hist_edges (Fin lo) (Fin hi) n) k) (vat (hist_edges (Fin lo) (Fin hi) n) (Datatypes.S k))) (nofZ 2)) (seq 0 n) =
                map (fun k => Fin ((limit lo hi n k + limit lo hi n (Datatypes.S k)) / 2)) (seq 0 n)).
  { apply map_ext_in. intros k Hk. apply in_seq in Hk. rewrite !edges_vat by lia. cbn [nadd ndiv nofZ Num_ef ef_add]. rewrite ef_div_Fin by lra. reflexivity. }
  split; [|split; [|split]].
  - intros k Hk. rewrite nth_ccount by exact Hk. apply number_filter. intro v. apply cellb_spec.
  - rewrite <- T. symmetry. apply fold_symmetric; intros; lia.
  - unfold get_pdf. rewrite E. cbn [bind fst snd]. rewrite map_length, seq_length, Cen, T, map_map. f_equal. f_equal.
    apply map_ext_in. intros k Hk. apply in_seq in Hk. rewrite nth_ccount by lia. rewrite !edges_vat by lia. rewrite !nofnat_ef.
    assert (W : limit lo hi n (Datatypes.S k) - limit lo hi n k = (hi - lo) / INR n) by (unfold limit; rewrite S_INR; lra).
    assert (PN : 0 < INR n) by (apply lt_0_INR; exact Hn). assert (PL := INR_len_pos _ l Hl).
    assert (W0 : 0 < (hi - lo) / INR n) by (apply Rdiv_lt_0_compat; lra).
    cbn [nsub ndiv Num_ef]. rewrite ef_sub_Fin, W, !ef_div_Fin by lra. f_equal. field. repeat split; lra.
  - unfold get_pdf. rewrite E. cbn [bind fst snd]. rewrite map_length, seq_length, Cen, map_map. f_equal. f_equal.
    apply map_ext_in. intros k Hk. apply in_seq in Hk. rewrite nth_ccount by lia. apply nofnat_ef.
Qed.

(** Total mass one. *)
Lemma INR_sum : forall l, INR (fold_right Nat.add 0%nat l) = Rsum (map INR l).
Proof. induction l as [|x l IH]; [reflexivity|]. cbn [fold_right map Rsum]. rewrite plus_INR, IH. reflexivity. Qed.
Lemma spans_lt : forall l lo hi, spans l lo hi -> lo < hi.
Proof.
  intros l lo hi [a [b [Ia [Ib [V [S1 S2]]]]]]. specialize (V a Ia). destruct (Req_EM_T a b) as [e|d]; [destruct (S2 e); lra|].
  assert (D : a < b) by lra. destruct (S1 D); lra.
Qed.
Lemma c87_mass : forall l n, l <> [] -> (0 < n)%nat -> exists lo hi ps cs, spans l lo hi /\
  get_pdf (map Fin l) (Z.of_nat n) true = Ok (map Fin ps, cs) /\ length ps = n /\ (forall p, In p ps -> 0 <= p) /\
  Rsum (map (fun p => p * ((hi - lo) / INR n)) ps) = 1.
Proof.
  intros l n Hl Hn. destruct (c87_pdf l n Hl Hn) as [lo [hi [counts [S [Lc [_ [T [E _]]]]]]]].
  exists lo, hi, (map (fun c => INR c / INR (length l) / ((hi - lo) / INR n)) counts).
  eexists. split; [exact S|]. rewrite map_map. split; [exact E|]. split; [rewrite map_length; exact Lc|].
  assert (PN : 0 < INR n) by (apply lt_0_INR; exact Hn). assert (PL := INR_len_pos _ l Hl). assert (H := spans_lt _ _ _ S).
  assert (W0 : 0 < (hi - lo) / INR n) by (apply Rdiv_lt_0_compat; lra).
  split.
  - intros p Hp. apply in_map_iff in Hp as [c [<- _]]. pose proof (pos_INR c). unfold Rdiv at 1 2.
    repeat apply Rmult_le_pos; [assumption|left; apply Rinv_0_lt_compat; assumption|left; apply Rinv_0_lt_compat; assumption].
  - rewrite map_map. rewrite (map_ext _ (fun c => / INR (length l) * INR c)) by (intro; field; repeat split; lra).
    rewrite Rsum_map_mul, <- INR_sum, T. field. lra.
Qed.

(** ** refusals *)
Lemma c87_bins : forall (l : list ef) b d, (b < 1)%Z -> get_cdf l b = Err ValueError /\ get_pdf l b d = Err ValueError.
Proof.
  intros l b d H. unfold get_cdf, get_pdf, np_histogram. replace (b <? 1)%Z with true by (symmetry; apply Z.ltb_lt; exact H). split; reflexivity.
Qed.
Lemma min_low : forall r x a, fold_left nminimum r x = Fin a -> forall y, In y (x :: r) -> y = PInf \/ isfin y.
Proof.
  induction r as [|z r IH]; intros x a H y I; cbn [fold_left] in H.
  - subst x. destruct I as [<-|[]]. right. exact I.
  - assert (Q : forall u, u = nminimum x z -> (u = PInf \/ isfin u) -> (x = PInf \/ isfin x) /\ (z = PInf \/ isfin z)).
    { intros u ->. unfold nminimum. cbn [nisnan nltb Num_ef]. destruct x, z; cbn [ef_isnan ef_ltb]; try (destruct (Rltb _ _)); cbn; intuition congruence. }
    destruct (Q _ eq_refl (IH _ a H _ (or_introl eq_refl))) as [Qx Qz].
    destruct I as [<-|[<-|I]]; [exact Qx|exact Qz|]. apply (IH _ a H). right. exact I.
Qed.
Lemma max_high : forall r x a, fold_left nmaximum r x = Fin a -> forall y, In y (x :: r) -> y = NInf \/ isfin y.
Proof.
  induction r as [|z r IH]; intros x a H y I; cbn [fold_left] in H.
  - subst x. destruct I as [<-|[]]. right. exact I.
  - assert (Q : forall u, u = nmaximum x z -> (u = NInf \/ isfin u) -> (x = NInf \/ isfin x) /\ (z = NInf \/ isfin z)).
    { intros u ->. unfold nmaximum. cbn [nisnan nltb Num_ef]. destruct x, z; cbn [ef_isnan ef_ltb]; try (destruct (Rltb _ _)); cbn; intuition congruence. }
    destruct (Q _ eq_refl (IH _ a H _ (or_introl eq_refl))) as [Qx Qz].
    destruct I as [<-|[<-|I]]; [exact Qx|exact Qz|]. apply (IH _ a H). right. exact I.
Qed.
Lemma c87_nonfinite : forall l b d, Exists (fun x => ~ isfin x) l -> get_cdf l b = Err ValueError /\ get_pdf l b d = Err ValueError.
Proof.
  intros l b d H. cut (np_histogram l b = Err ValueError). { intro C. unfold get_cdf, get_pdf. rewrite C. split; reflexivity. }
  unfold np_histogram. destruct (b <? 1)%Z; [reflexivity|]. cbv zeta. destruct l as [|x r]; [inversion H|]. cbn [hist_range]. cbv zeta.
  destruct (fold_left nminimum r x) as [a| | |] eqn:E1; try reflexivity.
  destruct (fold_left nmaximum r x) as [c| | |] eqn:E2; try reflexivity.
  exfalso. apply Exists_exists in H as [y [I F]]. destruct (min_low _ _ _ E1 y I) as [->|G]; [|contradiction].
  destruct (max_high _ _ _ E2 _ I) as [G|G]; [discriminate|contradiction].
Qed.

Lemma repeat_map : forall A B (x : B) (l : list A), map (fun _ => x) l = repeat x (length l).
Proof. induction l as [|a l IH]; [reflexivity|]. cbn [map length repeat]. rewrite IH. reflexivity. Qed.
Lemma c87_empty : forall n, (0 < n)%nat ->
  (exists e, get_cdf (@nil ef) (Z.of_nat n) = Ok (repeat NaN n, e)) /\
  (exists c, get_pdf (@nil ef) (Z.of_nat n) true = Ok (repeat NaN n, c)) /\
  (exists c, get_pdf (@nil ef) (Z.of_nat n) false = Ok (repeat (Fin 0) n, c)).
Proof.
  intros n Hn. unfold get_cdf, get_pdf, np_histogram. replace (Z.of_nat n <? 1)%Z with false by (symmetry; apply Z.ltb_ge; lia).
  cbv zeta. rewrite Nat2Z.id. cbn [hist_range bind fst snd filter length].
  assert (Z0 : forall m (q : list nat), fold_left Nat.add (map (fun _ => 0%nat) q) m = m).
  { intros m q. revert m. induction q as [|x q IH]; intro m; [reflexivity|]. cbn [map fold_left]. rewrite Nat.add_0_r. apply IH. }
  assert (F0 : forall k, nth k (map (fun _ : nat => 0%nat) (seq 0 n)) 0%nat = 0%nat).
  { intro k. destruct (Nat.lt_ge_cases k n); [apply BaseProofs.nth_map_seq; assumption|apply nth_overflow; rewrite map_length, seq_length; assumption]. }
  assert (CS : forall (q : list nat), cumsum 0 (map (fun _ => 0%nat) q) = map (fun _ => 0%nat) q).
  { induction q as [|x q IH]; [reflexivity|]. cbn [map cumsum Nat.add]. rewrite IH. reflexivity. }
  assert (LS : last (map (fun _ : nat => 0%nat) (seq 0 n)) 0%nat = 0%nat).
  { rewrite repeat_map. generalize (length (seq 0 n)). induction n0 as [|m IH]; [reflexivity|]. cbn [repeat last]. destruct (repeat 0%nat m) eqn:E; [reflexivity|exact IH]. }
  assert (NN : ndiv (nofnat 0) (nofnat 0) = NaN). { rewrite nofnat_ef. cbn [INR ndiv Num_ef]. apply ef_0div0. }
  split; [|split].
  - eexists. f_equal. f_equal. rewrite CS, LS, map_map. rewrite NN, repeat_map, seq_length. reflexivity.
  - eexists. rewrite map_length, seq_length. f_equal. f_equal. rewrite Z0.
    rewrite (map_ext_in _ (fun _ => NaN)); [rewrite repeat_map, seq_length; reflexivity|].
    intros k Hk. apply in_seq in Hk. rewrite F0. change (@nzero ef _) with (Fin 0). change (@none_ ef _) with (Fin 1). rewrite !edges_vat by lia.
    rewrite !nofnat_ef. cbn [INR nsub ndiv Num_ef]. rewrite ef_sub_Fin.
    assert (W := limit_lt 0 1 n k (S k) Hn ltac:(lra) ltac:(lia)). rewrite ef_div_Fin by lra. cbn [ef_div].
    replace (0 / (limit 0 1 n (S k) - limit 0 1 n k)) with 0 by (field; lra). apply ef_0div0.
  - eexists. rewrite map_length, seq_length. f_equal. f_equal.
    rewrite (map_ext_in _ (fun _ => Fin 0)); [rewrite repeat_map, seq_length; reflexivity|].
    intros k _. rewrite F0. apply nofnat_ef.
Qed.

(** ** histc *)
Definition efeq (a b : ef) : bool := if ef_dec a b then true else false.
Lemma efeq_spec : forall a b, efeq a b = true <-> a = b.
Proof. intros. unfold efeq. destruct (ef_dec a b); split; intro; congruence. Qed.
Lemma neqb_efeq : forall a b : ef, a <> NaN -> b <> NaN -> neqb a b = efeq a b.
Proof.
  intros a b Ha Hb. unfold efeq. cbn [neqb Num_ef]. destruct (ef_dec a b) as [->|D].
  - destruct b; cbn [ef_eqb]; try reflexivity; [apply Reqbb_true; reflexivity|contradiction].
  - destruct a, b; cbn [ef_eqb]; try reflexivity; try congruence. unfold Reqbb. destruct (Req_EM_T r r0); [subst; contradiction|reflexivity].
Qed.
Lemma dget_efeq : forall V (d : list (ef * V)) x, x <> NaN -> ~ In NaN (map fst d) -> dget neqb d x = dget efeq d x.
Proof.
  intros V d x Hx. induction d as [|[k v] d IH]; intro H; [reflexivity|]. cbn [map fst] in H. cbn [dget].
  assert (K : k <> NaN) by (intro; apply H; left; assumption). rewrite ?(neqb_efeq k x), ?(neqb_efeq x k) by assumption.
  rewrite IH by (intro; apply H; right; assumption). reflexivity.
Qed.
Lemma dset_efeq : forall V (d : list (ef * V)) x v, x <> NaN -> ~ In NaN (map fst d) -> dset neqb d x v = dset efeq d x v.
Proof.
  intros V d x v Hx. induction d as [|[k w] d IH]; intro H; [reflexivity|]. cbn [map fst] in H. cbn [dset].
  assert (K : k <> NaN) by (intro; apply H; left; assumption). rewrite ?(neqb_efeq k x), ?(neqb_efeq x k) by assumption.
  rewrite IH by (intro; apply H; right; assumption). reflexivity.
Qed.

(** The dictionary after a prefix of the series. *)
Definition histc_inv (s : list ef) (d : list (ef * nat)) : Prop :=
  NoDup (map fst d) /\ ~ In NaN (map fst d) /\
  (forall v, v <> NaN -> dget efeq d v = if in_dec ef_dec v s then Some (count_occ ef_dec s v) else None).

Lemma histc_step_keys : forall d x, x <> NaN -> ~ In NaN (map fst d) -> histc_step d x = dset efeq d x (match dget efeq d x with Some c => S c | None => 1%nat end).
Proof.
  intros d x Hx H. unfold histc_step. cbn [nisnan Num_ef]. replace (ef_isnan x) with false by (destruct x; [reflexivity|reflexivity|reflexivity|contradiction]).
  rewrite (dget_efeq _ d x Hx H). destruct (dget efeq d x) eqn:E.
  - rewrite (dget_efeq _ d x Hx H), E. apply dset_efeq; assumption.
  - rewrite (dset_efeq _ d x _ Hx H).
    assert (H1 : ~ In NaN (map fst (dset efeq d x 0%nat))). { intro C. apply (dset_keys_In efeq efeq_spec) in C as [C|C]; [congruence|contradiction]. }
    rewrite (dget_efeq _ _ x Hx H1), (dget_dset_same efeq efeq_spec). rewrite (dset_efeq _ _ x _ Hx H1).
    assert (D2 : forall (q : list (ef * nat)) a b, dset efeq (dset efeq q x a) x b = dset efeq q x b).
    { induction q as [|[k w] q IH]; intros a b; cbn [dset].
      - replace (efeq x x) with true by (symmetry; apply efeq_spec; reflexivity). reflexivity.
      - destruct (efeq x k) eqn:K; cbn [dset]; rewrite ?K; [reflexivity|]. rewrite IH. reflexivity. }
    apply D2.
Qed.

Definition present (s : list ef) : list ef := filter (fun v => if ef_dec v NaN then false else true) s.

Lemma first_seen_In : forall l x, In x (first_seen l) <-> In x l.
Proof.
  induction l as [|y l IH]; intro x; [reflexivity|]. cbn [first_seen]. split.
  - intros [->|I]; [left; reflexivity|]. apply filter_In in I as [I _]. right. apply IH. exact I.
  - intros [->|I]; [left; reflexivity|]. destruct (ef_dec x y) as [->|D]; [left; reflexivity|]. right. apply filter_In. split; [apply IH; exact I|].
    destruct (ef_dec x y); [contradiction|reflexivity].
Qed.
Lemma first_seen_snoc : forall l x, first_seen (l ++ [x]) = if in_dec ef_dec x l then first_seen l else first_seen l ++ [x].
Proof.
  induction l as [|y l IH]; intro x; [reflexivity|]. cbn [app first_seen]. rewrite IH.
  destruct (in_dec ef_dec x (y :: l)) as [I|I], (in_dec ef_dec x l) as [J|J]; try reflexivity.
  - destruct I as [->|I]; [|contradiction]. rewrite filter_app. cbn [filter]. destruct (ef_dec x x); [|contradiction]. rewrite app_nil_r. reflexivity.
  - exfalso. apply I. right. exact J.
  - rewrite filter_app. cbn [filter]. destruct (ef_dec x y) as [->|D]; [exfalso; apply I; left; reflexivity|]. reflexivity.
Qed.

Lemma present_app : forall s t, present (s ++ t) = present s ++ present t.
Proof. intros. apply filter_app. Qed.
Lemma present_In : forall s v, In v (present s) <-> In v s /\ v <> NaN.
Proof.
  intros. unfold present. rewrite filter_In. destruct (ef_dec v NaN); split; intros [A B]; split; try assumption; try congruence; contradiction.
Qed.

Lemma histc_main : forall s, map fst (histc s) = first_seen (present s) /\
  (forall v, v <> NaN -> dget efeq (histc s) v = if in_dec ef_dec v s then Some (count_occ ef_dec s v) else None) /\
  fold_right Nat.add 0%nat (map snd (histc s)) = length (present s).
Proof.
  induction s as [|x s IH] using rev_ind; [repeat split; intros; reflexivity|]. destruct IH as [K [G S]].
  unfold histc. rewrite fold_left_app. fold (histc s). cbn [fold_left]. rewrite present_app. unfold present at 2 4. cbn [filter].
  destruct (ef_dec x NaN) as [->|D].
  - unfold histc_step. cbn [nisnan Num_ef ef_isnan]. rewrite !app_nil_r. split; [exact K|]. split; [|exact S].
    intros v Hv. rewrite (G v Hv), count_occ_app. cbn [count_occ]. destruct (ef_dec NaN v); [congruence|]. rewrite Nat.add_0_r.
    destruct (in_dec ef_dec v s) as [I|I], (in_dec ef_dec v (s ++ [NaN])) as [J|J]; try reflexivity.
    + exfalso. apply J, in_or_app. left. exact I.
    + exfalso. apply in_app_or in J as [J|[J|[]]]; [contradiction|congruence].
  - assert (NK : ~ In NaN (map fst (histc s))). { rewrite K, first_seen_In, present_In. tauto. }
    rewrite histc_step_keys by assumption. rewrite first_seen_snoc.
    assert (IK : In x (map fst (histc s)) <-> In x s). { rewrite K, first_seen_In, present_In. tauto. }
    split; [|split].
    + destruct (in_dec ef_dec x (present s)) as [I|I].
      * rewrite (dset_keys_mem efeq efeq_spec); [exact K|]. apply IK. apply present_In in I. tauto.
      * rewrite (dset_keys_notmem efeq efeq_spec); [rewrite map_app, K; reflexivity|]. rewrite IK. intro C. apply I, present_In. tauto.
    + intros v Hv. rewrite (dget_dset efeq efeq_spec), count_occ_app. cbn [count_occ]. unfold efeq at 1.
      destruct (ef_dec v x) as [->|DV].
      * rewrite (G x D). destruct (ef_dec x x); [|contradiction].
        destruct (in_dec ef_dec x (s ++ [x])) as [J|J]; [|exfalso; apply J, in_or_app; right; left; reflexivity].
        f_equal. destruct (in_dec ef_dec x s) as [I|I]; [lia|]. apply (count_occ_not_In ef_dec) in I. rewrite I. reflexivity.
      * rewrite (G v Hv). destruct (ef_dec x v); [congruence|]. rewrite Nat.add_0_r.
        destruct (in_dec ef_dec v s) as [I|I], (in_dec ef_dec v (s ++ [x])) as [J|J]; try reflexivity.
        -- exfalso. apply J, in_or_app. left. exact I.
        -- exfalso. apply in_app_or in J as [J|[J|[]]]; [contradiction|congruence].
    + rewrite app_length. cbn [length]. rewrite <- S. generalize (histc s). clear. intro d.
      induction d as [|[k c] d IH]; cbn [dset dget map fold_right snd]; [reflexivity|].
      destruct (efeq x k); cbn [map fold_right snd]; [lia|]. rewrite IH. lia.
Qed.
Lemma count_number : forall s v, number (eq v) s (count_occ ef_dec s v).
Proof.
  induction s as [|x s IH]; intro v; cbn [count_occ]; [constructor|]. destruct (ef_dec x v) as [->|D].
  - constructor; [reflexivity|apply IH].
  - constructor; [congruence|apply IH].
Qed.
Lemma number_fun : forall A (P : A -> Prop) l c c', number P l c -> number P l c' -> c = c'.
Proof.
  intros A P l c c' H. revert c'. induction H; intros c' H'; inversion H'; subst; try contradiction; auto.
Qed.
Lemma first_seen_NoDup : forall l, NoDup (first_seen l).
Proof.
  induction l as [|x l IH]; cbn [first_seen]; constructor.
  - rewrite filter_In. intros [_ C]. destruct (ef_dec x x); congruence.
  - apply NoDup_filter. exact IH.
Qed.
Lemma c87_histc : forall s,
  map fst (histc s) = first_seen (filter (fun v => if ef_dec v NaN then false else true) s) /\
  (forall v c, In (v, c) (histc s) <-> v <> NaN /\ In v s /\ number (eq v) s c) /\
  number (fun v => v <> NaN) s (fold_right Nat.add 0%nat (map snd (histc s))).
Proof.
  intro s. destruct (histc_main s) as [K [G S]]. split; [exact K|].
  assert (ND : NoDup (map fst (histc s))) by (rewrite K; apply first_seen_NoDup).
  split.
  - intros v c. split.
    + intro I. assert (Hv : v <> NaN /\ In v s). { apply and_comm, present_In, first_seen_In. rewrite <- K. apply (in_map fst) in I. exact I. }
      destruct Hv as [Hv Is]. split; [exact Hv|]. split; [exact Is|]. apply (In_dget efeq efeq_spec) in I; [|exact ND].
      rewrite (G v Hv) in I. destruct (in_dec ef_dec v s); [|discriminate]. injection I as <-. apply count_number.
    + intros [Hv [Is C]]. apply (dget_In efeq efeq_spec). rewrite (G v Hv). destruct (in_dec ef_dec v s); [|contradiction]. f_equal.
      apply (number_fun _ _ _ _ _ (count_number s v) C).
  - rewrite S. apply number_filter. intro v. destruct (ef_dec v NaN); split; intro; congruence.
Qed.

(** ** logistic density *)
Lemma cosh_logistic : forall u, / ((exp u + exp (- u)) / 2 * ((exp u + exp (- u)) / 2)) = 4 * (exp (- (2 * u)) / ((1 + exp (- (2 * u))) * (1 + exp (- (2 * u))))).
Proof.
  intro u. assert (P := exp_pos u). assert (Q := exp_pos (- u)).
  assert (E1 : exp u * exp (- u) = 1) by (rewrite <- exp_plus, Rplus_opp_r; apply exp_0).
  assert (E2 : exp (- (2 * u)) = exp (- u) * exp (- u)) by (rewrite <- exp_plus; f_equal; lra). rewrite E2.
  assert (P2 : 0 < exp (- u) * exp (- u)) by nra.
  assert (EU : exp u = / exp (- u)) by (field_simplify_eq; lra). rewrite EU. field. split; nra.
Qed.
Definition logistic_pdf (m s x : R) : R := exp (- ((x - m) / s)) / s / ((1 + exp (- ((x - m) / s))) * (1 + exp (- ((x - m) / s)))).
Lemma cosh_ne : forall u, exp u + exp (- u) <> 0.
Proof. intro u. assert (P := exp_pos u). assert (Q := exp_pos (- u)). lra. Qed.
Lemma logistic_value : forall x m s, 0 < s -> logistic (Fin x) (Fin m) (Fin s) = Fin (logistic_pdf m s x).
Proof.
  intros x m s H. unfold logistic, np_cosh, nsq, none_. cbn [nofZ nsub ndiv nexp nneg nadd nmul Num_ef]. rewrite ef_sub_Fin.
  rewrite (ef_div_Fin (x - m) 2) by lra. rewrite (ef_div_Fin _ s) by lra. cbn [ef_neg ef_exp ef_add]. rewrite (ef_div_Fin _ 2) by lra. cbn [ef_mul].
  set (u := (x - m) / 2 / s). assert (P := exp_pos u). assert (Q := exp_pos (- u)).
  rewrite (ef_div_Fin 1 4) by lra. rewrite (ef_div_Fin _ s) by lra. rewrite ef_div_Fin by nra. f_equal.
  unfold Rdiv at 1. rewrite cosh_logistic. unfold logistic_pdf. replace (2 * u) with ((x - m) / s) by (unfold u; field; lra).
  assert (W := exp_pos (- ((x - m) / s))). field. split; lra.
Qed.
Lemma density_value : forall x s, 0 < s -> logistic_density (Fin s) (Fin x) = Fin (logistic_pdf 0 s x).
Proof.
  intros x s H. unfold logistic_density, sech, nsq, none_. cbn [nofZ nsub ndiv nexp nneg nadd nmul Num_ef].
  rewrite (ef_div_Fin x 2) by lra. rewrite (ef_div_Fin _ s) by lra. cbn [ef_neg ef_exp ef_add].
  set (u := x / 2 / s). assert (P := exp_pos u). assert (Q := exp_pos (- u)).
  rewrite (ef_div_Fin 1 4) by lra. rewrite (ef_div_Fin _ s) by lra. rewrite ef_div_Fin by lra. cbn [ef_mul]. f_equal.
  replace (2 / (exp u + exp (- u)) * (2 / (exp u + exp (- u)))) with (/ ((exp u + exp (- u)) / 2 * ((exp u + exp (- u)) / 2))) by (field; lra).
  rewrite cosh_logistic. unfold logistic_pdf. replace (2 * u) with ((x - 0) / s) by (unfold u; field; lra).
  assert (W := exp_pos (- ((x - 0) / s))). field. split; lra.
Qed.
Lemma cdf_derivative : forall m s x, 0 < s -> derivable_pt_lim (logistic_cdf m s) x (logistic_pdf m s x).
Proof.
  intros m s x H. assert (W := exp_pos (- ((x - m) / s))).
  assert (L : derivable_pt_lim (fun t => - ((t - m) / s)) x (- / s)).
  { replace (- / s) with (- ((1 - 0) * / s + (x - m) * 0)) by (field; lra).
    apply (derivable_pt_lim_opp (fun t => (t - m) / s)).
    apply (derivable_pt_lim_mult (fun t => t - m) (fun _ => / s)).
    - apply derivable_pt_lim_minus; [apply derivable_pt_lim_id|apply derivable_pt_lim_const].
    - apply derivable_pt_lim_const. }
  assert (E : derivable_pt_lim (fun t => 1 + exp (- ((t - m) / s))) x (0 + exp (- ((x - m) / s)) * - / s)).
  { apply (derivable_pt_lim_plus (fun _ => 1)); [apply derivable_pt_lim_const|].
    apply (derivable_pt_lim_comp (fun t => - ((t - m) / s)) exp); [exact L|apply derivable_pt_lim_exp]. }
  assert (D : derivable_pt_lim (fun t => 1 / (1 + exp (- ((t - m) / s)))) x
    ((0 * (1 + exp (- ((x - m) / s))) - (0 + exp (- ((x - m) / s)) * - / s) * 1) / Rsqr (1 + exp (- ((x - m) / s))))).
  { apply (derivable_pt_lim_div (fun _ => 1) (fun t => 1 + exp (- ((t - m) / s)))); [apply derivable_pt_lim_const|exact E|lra]. }
  replace (logistic_pdf m s x) with ((0 * (1 + exp (- ((x - m) / s))) - (0 + exp (- ((x - m) / s)) * - / s) * 1) / Rsqr (1 + exp (- ((x - m) / s)))).
  - intros eps Heps. destruct (D eps Heps) as [d Hd]. exists d. intros h H1 H2. specialize (Hd h H1 H2).
    assert (C : forall t, 1 / (1 + exp (- ((t - m) / s))) = logistic_cdf m s t) by (intro; unfold logistic_cdf, Rdiv; apply Rmult_1_l).
    rewrite !C in Hd. exact Hd.
  - unfold logistic_pdf, Rsqr. field. split; lra.
Qed.
Lemma pdf_peak : forall m s x, 0 < s -> 0 < logistic_pdf m s x <= / (4 * s) /\ (logistic_pdf m s x = / (4 * s) -> x = m).
Proof.
  intros m s x H. unfold logistic_pdf. set (w := exp (- ((x - m) / s))). assert (W : 0 < w) by apply exp_pos.
  assert (Q : / (4 * s) - w / s / ((1 + w) * (1 + w)) = (1 - w) * (1 - w) * / (4 * s * ((1 + w) * (1 + w)))) by (field; split; lra).
  assert (I : 0 < / (4 * s * ((1 + w) * (1 + w)))) by (apply Rinv_0_lt_compat; repeat apply Rmult_lt_0_compat; lra).
  assert (S0 : 0 <= (1 - w) * (1 - w)) by apply Rle_0_sqr.
  split; [split|].
  - apply Rdiv_lt_0_compat; [apply Rdiv_lt_0_compat; assumption|nra].
  - assert (0 <= (1 - w) * (1 - w) * / (4 * s * ((1 + w) * (1 + w)))) by (apply Rmult_le_pos; lra). lra.
  - intro E. rewrite E in Q. assert (Z : (1 - w) * (1 - w) = 0).
    { assert (Q' : 0 = (1 - w) * (1 - w) * / (4 * s * ((1 + w) * (1 + w)))) by lra. symmetry in Q'. apply Rmult_integral in Q' as [Q'|Q']; [exact Q'|lra]. }
    assert (w = 1) by nra. unfold w in H0. rewrite <- exp_0 in H0. apply exp_inv in H0.
    assert ((x - m) / s = 0) by lra. assert (x - m = (x - m) / s * s) by (field; lra). rewrite H1 in H2. lra.
Qed.
Lemma pdf_even : forall m s d, 0 < s -> logistic_pdf m s (m + d) = logistic_pdf m s (m - d).
Proof.
  intros m s d H. unfold logistic_pdf. replace (m + d - m) with d by lra. replace (m - d - m) with (- d) by lra.
  replace (- d / s) with (- (d / s)) by (field; lra). rewrite Ropp_involutive. set (u := d / s).
  assert (P := exp_pos u). assert (Q := exp_pos (- u)).
  assert (E1 : exp u = / exp (- u)) by (rewrite <- exp_Ropp; f_equal; lra). rewrite E1. field. repeat split; lra.
Qed.
Lemma cdf_limits : forall m s eps, 0 < s -> 0 < eps -> exists a, 0 < a /\ forall x, (m + a <= x -> 1 - eps < logistic_cdf m s x < 1) /\ (x <= m - a -> 0 < logistic_cdf m s x < eps).
Proof.
  intros m s eps H He. assert (I := Rinv_0_lt_compat _ He).
  exists (s * (1 + / eps)). split; [nra|]. intro x. unfold logistic_cdf.
  assert (W := exp_pos (- ((x - m) / s))).
  split; intro L.
  - assert (B : 1 + / eps <= (x - m) / s). { apply Rmult_le_reg_r with s; [exact H|]. unfold Rdiv. rewrite Rmult_assoc, Rinv_l by lra. lra. }
    assert (E := exp_ineq1 ((x - m) / s) ltac:(lra)).
    assert (EI : exp ((x - m) / s) * exp (- ((x - m) / s)) = 1) by (rewrite <- exp_plus, Rplus_opp_r; apply exp_0).
    set (w := exp (- ((x - m) / s))) in *. set (e := exp ((x - m) / s)) in *.
    assert (w < eps). { assert (/ eps < e) by lra. assert (/ eps * w < e * w) by nra. rewrite EI in H1. assert (eps * (/ eps * w) < eps * 1) by nra. rewrite <- Rmult_assoc, Rinv_r in H2 by lra. lra. }
    split.
    + assert (/ (1 + w) * (1 + w) = 1) by (field; lra). assert (0 < / (1 + w)) by (apply Rinv_0_lt_compat; lra). nra.
    + rewrite <- Rinv_1. apply Rinv_lt_contravar; lra.
  - assert (B : 1 + / eps <= - ((x - m) / s)). { apply Rmult_le_reg_r with s; [exact H|]. unfold Rdiv. rewrite <- Ropp_mult_distr_l, Rmult_assoc, Rinv_l by lra. lra. }
    assert (E := exp_ineq1 (- ((x - m) / s)) ltac:(lra)).
    set (w := exp (- ((x - m) / s))) in *. split; [apply Rinv_0_lt_compat; lra|].
    rewrite <- (Rinv_inv eps) || rewrite <- (Rinv_involutive eps) by lra. apply Rinv_lt_contravar; nra.
Qed.
Lemma c87_logistic : forall m s, 0 < s -> exists p,
  (forall x, logistic (Fin x) (Fin m) (Fin s) = Fin (p x) /\ logistic_density (Fin s) (nsub (Fin x) (Fin m)) = Fin (p x)) /\
  (forall x, derivable_pt_lim (logistic_cdf m s) x (p x)) /\
  (forall x, 0 < p x <= / (4 * s) /\ (p x = / (4 * s) <-> x = m)) /\
  (forall d, p (m + d) = p (m - d)).
Proof.
  intros m s H. exists (logistic_pdf m s). split; [|split; [|split]].
  - intro x. split; [apply logistic_value; exact H|]. cbn [nsub Num_ef]. rewrite ef_sub_Fin, density_value by exact H. unfold logistic_pdf. rewrite Rminus_0_r. reflexivity.
  - intro x. apply cdf_derivative. exact H.
  - intro x. destruct (pdf_peak m s x H) as [A B]. split; [exact A|]. split; [exact B|]. intros ->. unfold logistic_pdf.
    replace ((m - m) / s) with 0 by (field; lra). rewrite Ropp_0, exp_0. field. lra.
  - intro d. apply pdf_even. exact H.
Qed.
