(** Bradley-Terry: second derivatives, and relabelling of the videos. *)
From Coq Require Import List ZArith Bool Arith Reals Lia Lra Permutation.
From Verif Require Import PyBase Num ExtReal ExtRealProofs NumPy ArrayProofs SpecMos PairedComp SpecBt BtProofs Bt2Proofs.
Import ListNotations.
Local Open Scope list_scope.
Local Open Scope R_scope.

Definition delta (i k : nat) : R := if Nat.eqb i k then 1 else 0.
(** Second derivative of the likelihood. *)
Definition hess (m : nat) (w : nat -> nat -> R) (p : nat -> R) (i k : nat) : R :=
  total m (fun j => games w i j * (delta i k + delta j k) / ((p i + p j) * (p i + p j))) - delta i k * wins m w i / (p i * p i).

Lemma gradient_partial : forall m w p i k, positive m p -> (i < m)%nat -> (k < m)%nat ->
  partial (fun q => gradient m w q i) k p (hess m w p i k).
Proof.
  intros m w p i k Hp Hi Hk. unfold partial, gradient, hess.
  assert (U : forall q : nat, upd p k (p k) q = p q) by (intro; apply upd_id).
  apply dlim_eq with (- delta i k * wins m w i / (p i * p i) + - total m (fun j => - (games w i j * (delta i k + delta j k) / ((p i + p j) * (p i + p j))))).
  - apply (dlim_ext (fun t => wins m w i / upd p k t i + - rate m w (upd p k t) i)); [intros; unfold Rminus; reflexivity|].
    apply dlim_plus.
    + assert (D := dlim_div (fun _ => wins m w i) (fun t => upd p k t i) (p k) 0 (delta i k)).
      cbv beta in D. rewrite !U in D. eapply dlim_eq; [apply D|].
      * apply Rgt_not_eq, Hp, Hi. * apply dlim_const. * apply dlim_upd. * assert (P := Hp i Hi). field. lra.
    + apply (dlim_ext (fun t => -1 * rate m w (upd p k t) i)); [intros; ring|].
      eapply dlim_eq; [apply dlim_scal|]; [|instantiate (1 := total m (fun j => - (games w i j * (delta i k + delta j k) / ((p i + p j) * (p i + p j))))); ring].
      unfold rate. apply dlim_total. intros j Hj.
      assert (D := dlim_div (fun _ => games w i j) (fun t => upd p k t i + upd p k t j) (p k) 0 (delta i k + delta j k)).
      cbv beta in D. rewrite !U in D. generalize (Hp i Hi) (Hp j Hj). intros. eapply dlim_eq; [apply D|].
      * lra. * apply dlim_const. * apply (dlim_plus (fun t => upd p k t i) (fun t => upd p k t j)); apply dlim_upd. * field. lra.
  - assert (E : - total m (fun j => - (games w i j * (delta i k + delta j k) / ((p i + p j) * (p i + p j)))) =
               total m (fun j => games w i j * (delta i k + delta j k) / ((p i + p j) * (p i + p j)))).
    { rewrite <- (Rmult_1_l (total m _)) at 1. rewrite <- Ropp_mult_distr_l_reverse, <- total_mul. apply total_ext. intros. ring. }
    rewrite E. unfold Rdiv. ring.
Qed.

Lemma positive_near : forall m p k, positive m p -> (k < m)%nat -> exists r, 0 < r /\ forall t, Rabs (t - p k) < r -> positive m (upd p k t).
Proof.
  intros m p k Hp Hk. exists (p k). split; [apply Hp, Hk|]. intros t Ht i Hi. unfold upd. destruct (Nat.eqb i k).
  - apply Rabs_def2 in Ht. lra.
  - apply Hp, Hi.
Qed.
Lemma hess_iff : forall m w p i k h, positive m p -> (i < m)%nat -> (k < m)%nat ->
  (second_partial (positive m) (bt_likelihood m w) i k p h <-> h = hess m w p i k).
Proof.
  intros m w p i k h Hp Hi Hk. split.
  - intros [G [H1 H2]]. destruct (positive_near m p k Hp Hk) as [r [Hr Hn]].
    eapply partial_unique; [|apply gradient_partial; assumption].
    unfold partial in *. eapply dlim_ext_near; [exact Hr| |exact H2]. intros t Ht. cbv beta.
    exact (partial_unique _ _ _ _ _ (H1 _ (Hn t Ht)) (likelihood_partial m w _ i (Hn t Ht) Hi)).
  - intros ->. exists (fun q => gradient m w q i). split.
    + intros q Hq. apply likelihood_partial; assumption.
    + apply gradient_partial; assumption.
Qed.

Lemma bt_lbda_Fin : forall a m w p i k, counts a m w -> positive m p -> (i < m)%nat -> (k < m)%nat ->
  bt_lbda a (vec m p) i k = Fin (games w i k / (p i + p k) * 2 +
    delta i k * total m (fun j => - w i j / (p i * p i) + games w i j / ((p i + p j) * (p i + p j)))).
Proof.
  intros a m w p i k Ha Hp Hi Hk. destruct Ha as (E0 & E1 & H). unfold bt_lbda, bt_lbda_ij.
  rewrite (played_Fin a m w) by (repeat split; assumption). unfold bt_pp. rewrite !vat_vec by assumption. efc. cbn [ef_add].
  generalize (Hp i Hi) (Hp k Hk). intros. rewrite ef_div_Fin by lra. cbn [ef_mul].
  assert (D : diag (bt_lbda_ii a (vec m p)) i k = Fin (delta i k * total m (fun j => - w i j / (p i * p i) + games w i j / ((p i + p j) * (p i + p j))))).
  { unfold diag, delta. destruct (Nat.eqb i k).
    - unfold bt_lbda_ii. rewrite E1. rewrite Rmult_1_l. apply np_sum_total_ext. intros j Hj.
      rewrite (played_Fin a m w) by (repeat split; assumption). rewrite H by assumption. unfold nsq, bt_pp. rewrite !vat_vec by assumption.
      efc. cbn [ef_add ef_mul ef_neg]. generalize (Hp j Hj). intros. rewrite !ef_div_Fin by nra. reflexivity.
    - unfold nzero. efc. f_equal. ring. }
  rewrite D. reflexivity.
Qed.

Lemma bt_hessian : forall a m w p i k, counts a m w -> no_self m w -> positive m p -> (i < m)%nat -> (k < m)%nat ->
  exists x, bt_lbda a (vec m p) i k = Fin x /\
    (second_partial (positive m) (bt_likelihood m w) i k p x <-> i = k \/ games w i k = 0 \/ p i + p k = 1 / 2).
Proof.
  intros a m w p i k Ha Hn Hp Hi Hk. eexists. split; [apply (bt_lbda_Fin a m w); assumption|].
  rewrite hess_iff by assumption. unfold hess. generalize (Hp i Hi) (Hp k Hk). intros Pi Pk.
  destruct (Nat.eq_dec i k) as [->|Hne].
  - split; [intros _; left; reflexivity|intros _]. unfold delta at 1 2 4. rewrite Nat.eqb_refl.
    assert (G0 : games w k k = 0) by (unfold games; rewrite (Hn k Hk); ring). rewrite G0.
    rewrite total_add.
    assert (A : total m (fun j => - w k j / (p k * p k)) = - wins m w k / (p k * p k)).
    { unfold wins, Rdiv. rewrite total_mulr. f_equal. rewrite <- (Rmult_1_l (total m (w k))), <- Ropp_mult_distr_l_reverse, <- total_mul.
      apply total_ext. intros. ring. }
    rewrite A.
    assert (B : total m (fun j => games w k j * (1 + delta j k) / ((p k + p j) * (p k + p j))) = total m (fun j => games w k j / ((p k + p j) * (p k + p j)))).
    { apply total_ext. intros j Hj. unfold delta. destruct (Nat.eqb_spec j k); [subst; rewrite G0; unfold Rdiv; ring|]. unfold Rdiv. ring. }
    rewrite B. unfold Rdiv. ring.
  - unfold delta at 1 2 4. destruct (Nat.eqb_spec i k) as [C|_]; [contradiction|].
    assert (B : total m (fun j => games w i j * (0 + delta j k) / ((p i + p j) * (p i + p j))) = games w i k / ((p i + p k) * (p i + p k))).
    { rewrite <- (total_delta m k (fun j => games w i j / ((p i + p j) * (p i + p j))) Hk). apply total_ext. intros j _. unfold delta, Rdiv. ring. }
    rewrite B. set (s := p i + p k). assert (Hs : 0 < s) by (unfold s; lra). set (g := games w i k). split.
    + intros E. right. destruct (Req_dec g 0) as [Z|Z]; [left; exact Z|right].
      assert (Q : g * (2 * s - 1) = 0). { replace (g * (2 * s - 1)) with ((g / s * 2 - g / (s * s)) * (s * s)) by (field; lra).
        replace (g / s * 2 - g / (s * s)) with 0 by lra. ring. }
      apply Rmult_integral in Q. destruct Q; [contradiction|lra].
    + intros [C|[Z|Z]]; [contradiction| |].
      * rewrite Z. unfold Rdiv. ring.
      * rewrite Z. field. lra.
Qed.

(** ** Relabelling *)
Lemma relabelled_vat : forall m s (v u : list ef) i, relabelled m s v u -> (i < m)%nat -> vat u i = vat v (s i).
Proof.
  intros m s v u i (L1 & L2 & H) Hi. unfold vat. assert (E := H i Hi). rewrite (nth_error_nth' u nnan) in E by lia.
  symmetry in E. rewrite (nth_error_nth v (s i) nnan E). reflexivity.
Qed.
Lemma relabelled_map : forall m s (f g : nat -> ef), permutes m s -> (forall i, (i < m)%nat -> g i = f (s i)) ->
  relabelled m s (map f (seq 0 m)) (map g (seq 0 m)).
Proof.
  intros m s f g [P _] H. unfold relabelled. rewrite !map_length, !seq_length. repeat split. intros i Hi.
  assert (N : forall (h : nat -> ef) k, (k < m)%nat -> nth_error (map h (seq 0 m)) k = Some (h k)).
  { intros h k Hk. rewrite nth_error_map, (nth_error_nth' (seq 0 m) 0%nat) by (rewrite seq_length; lia). cbn [option_map]. rewrite seq_nth by lia. reflexivity. }
  rewrite !N by (try assumption; apply P; assumption). rewrite H by exact Hi. reflexivity.
Qed.
Lemma relabelled_map1 : forall m s (f : ef -> ef) v u, relabelled m s v u -> relabelled m s (map f v) (map f u).
Proof. intros m s f v u (L1 & L2 & H). unfold relabelled. rewrite !map_length. repeat split; try assumption. intros i Hi. rewrite !nth_error_map, H by exact Hi. reflexivity. Qed.
Lemma sum_relabel : forall m s (f : nat -> ef), permutes m s -> np_sum (map (fun i => f (s i)) (seq 0 m)) = np_sum (map f (seq 0 m)).
Proof.
  intros m s f P. rewrite <- (map_map s f). apply np_sum_perm, Permutation_map, permutes_surj_perm, P.
Qed.
Lemma sum_relabel_ext : forall m s (g f : nat -> ef), permutes m s -> (forall i, (i < m)%nat -> g i = f (s i)) ->
  np_sum (map g (seq 0 m)) = np_sum (map f (seq 0 m)).
Proof. intros m s g f P H. rewrite <- (sum_relabel m s f P). f_equal. apply map_ext_in. intros i Hi. apply H, in_seq0, Hi. Qed.
Lemma map_vat : forall (v : list ef) m, length v = m -> v = map (vat v) (seq 0 m).
Proof.
  intros v m <-. induction v as [|x v IH]; [reflexivity|]. cbn [length seq map]. rewrite <- seq_shift, map_map. f_equal. exact IH.
Qed.
Lemma sum_relabelled : forall m s (v u : list ef), permutes m s -> relabelled m s v u -> np_sum u = np_sum v.
Proof.
  intros m s v u P H. rewrite (map_vat u m), (map_vat v m) by apply H. apply (sum_relabel_ext m s); [exact P|].
  intros i Hi. apply (relabelled_vat m s); assumption.
Qed.
Lemma existsb_relabel : forall m s (v u : list ef) f, permutes m s -> relabelled m s v u -> existsb f u = existsb f v.
Proof.
  intros m s v u f P H. rewrite (map_vat u m), (map_vat v m) by apply H.
  assert (Q : Permutation (map (vat u) (seq 0 m)) (map (vat v) (seq 0 m))).
  { rewrite (map_ext_in (vat u) (fun i => vat v (s i)) (seq 0 m)).
    - rewrite <- (map_map s (vat v)). apply Permutation_map, permutes_surj_perm, P.
    - intros i Hi. apply (relabelled_vat m s); [assumption|apply in_seq0, Hi]. }
  destruct (existsb f (map (vat v) (seq 0 m))) eqn:B.
  - apply existsb_exists in B. destruct B as [x [Hx Fx]]. apply existsb_exists. exists x. split; [|exact Fx].
    eapply Permutation_in; [apply Permutation_sym, Q|exact Hx].
  - destruct (existsb f (map (vat u) (seq 0 m))) eqn:C; [|reflexivity].
    apply existsb_exists in C. destruct C as [x [Hx Fx]]. rewrite <- B. symmetry. apply existsb_exists. exists x. split; [|exact Fx].
    eapply Permutation_in; [exact Q|exact Hx].
Qed.
Lemma norm_relabel : forall m s (v u : list ef), permutes m s -> relabelled m s v u -> sp_norm u = sp_norm v.
Proof.
  intros m s v u P H. unfold sp_norm. rewrite (existsb_relabel m s v u _ P H).
  rewrite (sum_relabelled m s (map nsq v) (map nsq u) P (relabelled_map1 m s nsq v u H)). reflexivity.
Qed.

Section Relabel.
  Variables (m : nat) (s : nat -> nat) (a b : arr2 ef).
  Hypothesis P : permutes m s.
  Hypothesis A0 : n0 a = m.
  Hypothesis A1 : n1 a = m.
  Hypothesis R : relabelled_counts s a b.

  Lemma b0 : n0 b = m. Proof. destruct R as (E & _). rewrite E. exact A0. Qed.
  Lemma b1 : n1 b = m. Proof. destruct R as (_ & E & _). rewrite E. exact A1. Qed.
  Lemma b_at : forall i j, (i < m)%nat -> (j < m)%nat -> at2 b i j = at2 a (s i) (s j).
  Proof. intros i j Hi Hj. destruct R as (_ & _ & E). apply E; rewrite A0; assumption. Qed.
  Lemma b_played : forall i j, (i < m)%nat -> (j < m)%nat -> played b i j = played a (s i) (s j).
  Proof. intros. unfold played. rewrite !b_at by assumption. reflexivity. Qed.

  Lemma raw_relabel : forall p q, relabelled m s p q -> relabelled m s (bt_raw a p) (bt_raw b q).
  Proof.
    intros p q H. unfold bt_raw. rewrite A0, A1, b0, b1. apply relabelled_map; [exact P|]. intros i Hi. cbv beta.
    unfold row. rewrite A1, b1. f_equal.
    - apply (sum_relabel_ext m s _ (at2 a (s i)) P). intros j Hj. apply b_at; assumption.
    - apply (sum_relabel_ext m s _ (fun j => ndiv (played a (s i) j) (bt_pp p (s i) j)) P). intros j Hj.
      rewrite b_played by assumption. unfold bt_pp. rewrite !(relabelled_vat m s p q) by assumption. reflexivity.
  Qed.
  Lemma step_relabel : forall p q, relabelled m s p q -> relabelled m s (bt_step a p) (bt_step b q).
  Proof.
    intros p q H. unfold bt_step, bt_normalised. assert (Q := raw_relabel p q H).
    rewrite (sum_relabelled m s _ _ P Q). apply relabelled_map1. exact Q.
  Qed.
  Lemma loop_relabel : forall fuel p q, relabelled m s p q ->
    same_outcome (relabelled m s) (bt_loop fuel a p) (bt_loop fuel b q).
  Proof.
    induction fuel as [|k IH]; intros p q H; [reflexivity|]. cbn [bt_loop]. rewrite A0, b0.
    assert (Q := step_relabel p q H).
    rewrite (norm_relabel m s (map (fun i => nsub (vat (bt_step a p) i) (vat p i)) (seq 0 m))
                              (map (fun i => nsub (vat (bt_step b q) i) (vat q i)) (seq 0 m)) P).
    - destruct (sp_norm _) as [c|e]; cbn [bind]; [|reflexivity]. destruct (ngtb c pc_thr); [apply IH, Q|exact Q].
    - apply relabelled_map; [exact P|]. intros i Hi. rewrite (relabelled_vat m s p q), (relabelled_vat m s _ _ i Q) by assumption. reflexivity.
  Qed.
  Lemma start_relabel : relabelled m s (bt_start (T := ef) m) (bt_start m).
  Proof. unfold bt_start. apply relabelled_map; [exact P|reflexivity]. Qed.
  Lemma keep_lt : forall i, (i < m)%nat -> keep_last m s i = s i.
  Proof. intros i Hi. unfold keep_last. destruct (Nat.ltb_spec i m); [reflexivity|lia]. Qed.
  Lemma s_lt : forall i, (i < m)%nat -> (s i < m)%nat.
  Proof. apply P. Qed.
  Lemma s_eqb : forall i j, (i < m)%nat -> (j < m)%nat -> Nat.eqb (s i) (s j) = Nat.eqb i j.
  Proof.
    intros i j Hi Hj. destruct (Nat.eqb_spec i j) as [->|N]; [apply Nat.eqb_refl|].
    destruct (Nat.eqb_spec (s i) (s j)) as [E|_]; [|reflexivity]. exfalso. apply N. apply P; assumption.
  Qed.
  Lemma diag_relabel : forall (f g : nat -> ef) i j, (forall k, (k < m)%nat -> g k = f (s k)) -> (i < m)%nat -> (j < m)%nat ->
    diag g i j = diag f (s i) (s j).
  Proof. intros f g i j H Hi Hj. unfold diag. rewrite s_eqb by assumption. rewrite H by exact Hi. reflexivity. Qed.
  Lemma bordered_relabel : forall f g : nat -> nat -> ef, (forall i j, (i < m)%nat -> (j < m)%nat -> g i j = f (s i) (s j)) ->
    relabelled_matrix m s (bordered m f) (bordered m g).
  Proof.
    intros f g H. unfold relabelled_matrix, bordered, mat. cbn [n0 n1 at2]. repeat split. intros i j Hi Hj.
    unfold keep_last. destruct (Nat.ltb_spec i m) as [Li|Li]; destruct (Nat.ltb_spec j m) as [Lj|Lj].
    - assert (Si := s_lt i Li). assert (Sj := s_lt j Lj).
      destruct (Nat.ltb_spec (s i) m); [|lia]. destruct (Nat.ltb_spec (s j) m); [|lia]. rewrite H by assumption. reflexivity.
    - assert (Si := s_lt i Li). destruct (Nat.ltb_spec (s i) m); [|lia]. destruct (Nat.ltb_spec j m); [lia|]. reflexivity.
    - assert (Sj := s_lt j Lj). destruct (Nat.ltb_spec i m); [lia|]. destruct (Nat.ltb_spec (s j) m); [|lia]. reflexivity.
    - destruct (Nat.ltb_spec i m); [lia|]. destruct (Nat.ltb_spec j m); [lia|]. reflexivity.
  Qed.
  Lemma lbda_relabel : forall p q i j, relabelled m s p q -> (i < m)%nat -> (j < m)%nat -> bt_lbda b q i j = bt_lbda a p (s i) (s j).
  Proof.
    intros p q i j H Hi Hj. unfold bt_lbda, bt_lbda_ij, bt_pp. rewrite b_played by assumption.
    rewrite !(relabelled_vat m s p q) by assumption. f_equal. apply diag_relabel; [|assumption|assumption].
    intros k Hk. unfold bt_lbda_ii. rewrite A1, b1.
    apply (sum_relabel_ext m s _ (fun j => nadd (ndiv (nneg (at2 a (s k) j)) (nsq (vat p (s k)))) (ndiv (played a (s k) j) (nsq (bt_pp p (s k) j)))) P).
    intros l Hl. rewrite b_played, b_at by assumption. unfold bt_pp. rewrite !(relabelled_vat m s p q) by assumption. reflexivity.
  Qed.
  Lemma sqrt_diag_relabel : forall x y, relabelled_matrix m s x y -> relabelled m s (sqrt_diagonal m x) (sqrt_diagonal m y).
  Proof.
    intros x y (_ & _ & H). unfold sqrt_diagonal. apply relabelled_map; [exact P|]. intros i Hi. rewrite H by lia. rewrite keep_lt by exact Hi. reflexivity.
  Qed.

  Lemma resolve_relabel : forall pinv fuel, equivariant m s pinv ->
    same_outcome (fun r r' => relabelled m s (bt_p r) (bt_p r') /\ relabelled m s (bt_v r) (bt_v r') /\
      relabelled m s (bt_p_std r) (bt_p_std r') /\ relabelled m s (bt_v_std r) (bt_v_std r') /\
      (forall i j, (i < m)%nat -> (j < m)%nat -> at2 (bt_p_cov r') i j = at2 (bt_p_cov r) (s i) (s j)) /\
      (forall i j, (i < m)%nat -> (j < m)%nat -> at2 (bt_v_cov r') i j = at2 (bt_v_cov r) (s i) (s j)))
      (bt_resolve pinv fuel a) (bt_resolve pinv fuel b).
  Proof.
    intros pinv fuel Hp. unfold bt_resolve. rewrite A0, A1, b0, b1, Nat.eqb_refl. cbn [assert_ bind].
    destruct (Nat.eqb_spec m 0); [reflexivity|].
    assert (L := loop_relabel fuel _ _ start_relabel).
    destruct (bt_loop fuel a (bt_start m)) as [p|e]; destruct (bt_loop fuel b (bt_start m)) as [q|e']; cbn [same_outcome] in L;
      try contradiction; [|cbn [bind]; exact L]. cbn [bind].
    assert (B := Hp (bordered m (bt_lbda a p)) (bordered m (bt_lbda b q)) eq_refl eq_refl (bordered_relabel _ _ (fun i j Hi Hj => lbda_relabel p q i j L Hi Hj))).
    destruct (pinv (bordered m (bt_lbda a p))) as [c|e]; destruct (pinv (bordered m (bt_lbda b q))) as [c'|e']; cbn [same_outcome] in B;
      try contradiction; [|cbn [bind]; exact B]. cbn [bind same_outcome bt_p bt_v bt_p_std bt_v_std bt_p_cov bt_v_cov].
    assert (S := sqrt_diag_relabel _ _ B). assert (C : forall i j, (i < m)%nat -> (j < m)%nat -> at2 c' i j = at2 c (s i) (s j)).
    { intros i j Hi Hj. destruct B as (_ & _ & B). rewrite B by lia. rewrite !keep_lt by assumption. reflexivity. }
    split; [exact L|]. split; [apply relabelled_map1, L|]. split; [exact S|]. split.
    - apply relabelled_map; [exact P|]. intros i Hi. rewrite (relabelled_vat m s _ _ i S Hi), (relabelled_vat m s p q) by assumption. reflexivity.
    - split; intros i j Hi Hj; cbn [at2 mat cropped].
      + apply C; assumption.
      + rewrite C by assumption. rewrite !(relabelled_vat m s p q) by assumption. reflexivity.
  Qed.

  Lemma flat_sum : forall (f : nat -> nat -> ef) l l', np_sum (flat_map (fun i => map (f i) l') l) = np_sum (map (fun i => np_sum (map (f i) l')) l).
  Proof.
    intros f l l'. induction l as [|x l IH]; [reflexivity|]. cbn [flat_map map]. rewrite np_sum_cons, <- IH.
    generalize (flat_map (fun i => map (f i) l') l). intros t. induction (map (f x) l') as [|y r IH2]; cbn [app].
    - rewrite np_sum_nil. symmetry. apply ef_add_0_l.
    - rewrite !np_sum_cons, IH2. apply ef_add_assoc.
  Qed.
  Lemma nll_relabel : forall cdf v u, relabelled m s v u -> th_nll cdf b u = th_nll cdf a v.
  Proof.
    intros cdf v u H. unfold th_nll. rewrite A0, b0. f_equal. rewrite !flat_sum.
    match goal with |- _ = np_sum (map ?F _) => apply (sum_relabel_ext m s _ F P) end. intros i Hi. cbv beta.
    match goal with |- _ = np_sum (map ?F _) => apply (sum_relabel_ext m s _ F P) end. intros j Hj. cbv beta.
    rewrite !b_at by assumption. unfold th_d. rewrite !(relabelled_vat m s v u) by assumption. reflexivity.
  Qed.
End Relabel.

Lemma nll_shift : forall cdf a m x c, n0 a = m -> th_nll cdf a (vec m (fun i => x i + c)) = th_nll cdf a (vec m x).
Proof.
  intros cdf a m x c E. unfold th_nll. rewrite E. do 2 f_equal. apply flat_map_ext_in. intros i Hi. apply map_ext_in. intros j Hj.
  apply in_seq0 in Hi. apply in_seq0 in Hj. unfold th_d. rewrite !vat_vec by assumption. efc. rewrite !ef_sub_Fin.
  replace (x i + c - (x j + c)) with (x i - x j) by ring. replace (x j + c - (x i + c)) with (x j - x i) by ring. reflexivity.
Qed.
