(** Lemmas for claim C88. *)
From Coq Require Import Reals List Bool Arith ZArith Lra Lia.
From Verif Require Import PyBase Num NumPy ExtReal Eval BaseProofs ExtRealProofs Stats SpecStats StatsProofs.
Import ListNotations.
Local Open Scope R_scope.

Lemma point_lt : forall reach delta i j, 0 < delta -> (i < j)%nat -> point reach delta i < point reach delta j.
Proof. intros reach delta i j H L. unfold point. apply lt_INR in L. nra. Qed.
Lemma point_le : forall reach delta i j, 0 < delta -> (i <= j)%nat -> point reach delta i <= point reach delta j.
Proof. intros reach delta i j H L. destruct (Nat.eq_dec i j) as [->|D]; [lra|]. left. apply point_lt; [exact H|lia]. Qed.
Lemma covers_pos : forall reach delta N, 0 < reach -> 0 < delta -> covers reach delta N -> (0 < N)%nat.
Proof. intros reach delta N H D [A B]. destruct N; [cbn [INR] in A; lra|lia]. Qed.

Lemma vat_map_seq : forall (f : nat -> ef) n k, (k < n)%nat -> vat (map f (seq 0 n)) k = f k.
Proof. intros. unfold vat. apply BaseProofs.nth_map_seq. assumption. Qed.
Lemma last_map_seq : forall A (f : nat -> A) n d, (0 < n)%nat -> last (map f (seq 0 n)) d = f (n - 1)%nat.
Proof. intros A f n d H. destruct n as [|m]; [lia|]. rewrite seq_S, map_app. cbn [map]. rewrite last_last. f_equal. lia. Qed.
Lemma tl_map_seq : forall A (f : nat -> A) n, tl (map f (seq 0 (S n))) = map (fun k => f (S k)) (seq 0 n).
Proof. intros. cbn [seq map tl]. rewrite <- seq_shift, map_map. reflexivity. Qed.

Section Case.
  Variables (f g : R -> R) (F G : ef -> ef) (ceil : ef -> nat) (inverse : (ef -> ef) -> ef -> res ef) (delta ft gt a b : R) (N : nat).
  Hypothesis C : conv_case f g F G ceil inverse Ok delta ft gt a b N.
  Let reach := Rmax a b.
  Let h := ((N - 1) / 2)%nat.

  Lemma reach_pos : 0 < reach.
  Proof. destruct C as (_ & _ & _ & _ & A & B & _). unfold reach. pose proof (Rmax_l a b). lra. Qed.
  Lemma delta_pos : 0 < delta.
  Proof. apply C. Qed.
  Lemma N_pos : (0 < N)%nat.
  Proof. apply (covers_pos reach delta); [apply reach_pos|apply delta_pos|apply C]. Qed.

  Lemma grid_eq : np_arange ceil (nneg (Fin reach)) (Fin reach) (Fin delta) = map (fun k => Fin (point reach delta k)) (seq 0 N).
  Proof.
    assert (D := delta_pos). destruct C as (_ & _ & _ & _ & _ & _ & _ & CE & _).
    unfold np_arange. cbn [nneg nsub ndiv Num_ef ef_neg]. rewrite ef_sub_Fin, ef_div_Fin by lra.
    replace ((reach - - reach) / delta) with (2 * Rmax a b / delta) by (unfold reach; field; lra). rewrite CE.
    apply map_ext. intro k. rewrite nofnat_ef. reflexivity.
  Qed.

  Lemma masses_eq : forall q (Q : ef -> ef), (forall x, Q (Fin x) = Fin (q x)) ->
    cell_masses Q (Fin delta) (map (fun k => Fin (point reach delta k)) (seq 0 N)) = Ok (map (fun k => Fin (cell_mass q reach delta N k)) (seq 0 N)).
  Proof.
    intros q Q HQ. assert (P := N_pos). assert (D := delta_pos). unfold cell_masses. rewrite map_map.
    rewrite (map_ext _ (fun k => Fin (q (point reach delta k) * delta))) by (intro k; rewrite HQ; reflexivity).
    destruct N as [|m] eqn:EN; [lia|].
    assert (E : match map (fun k => Fin (q (point reach delta k) * delta)) (seq 0 (S m)) with [] => Err IndexError
      | _ => Ok (map (fun ab => ndiv (nadd (fst ab) (snd ab)) (nofZ 2)) (combine (map (fun k => Fin (q (point reach delta k) * delta)) (seq 0 (S m)))
        (tl (map (fun k => Fin (q (point reach delta k) * delta)) (seq 0 (S m))) ++ [last (map (fun k => Fin (q (point reach delta k) * delta)) (seq 0 (S m))) nnan])))
      end = Ok (map (fun ab => ndiv (nadd (fst ab) (snd ab)) (nofZ 2)) (combine (map (fun k => Fin (q (point reach delta k) * delta)) (seq 0 (S m)))
        (tl (map (fun k => Fin (q (point reach delta k) * delta)) (seq 0 (S m))) ++ [last (map (fun k => Fin (q (point reach delta k) * delta)) (seq 0 (S m))) nnan])))) by reflexivity.
    etransitivity; [exact E|]. clear E. f_equal.
    rewrite tl_map_seq, last_map_seq by lia. replace (S m - 1)%nat with m by lia.
    set (u := fun k => if Nat.eqb (S k) (S m) then Fin (q (point reach delta k) * delta) else Fin (q (point reach delta (S k)) * delta)).
    replace (map (fun k => Fin (q (point reach delta (S k)) * delta)) (seq 0 m) ++ [Fin (q (point reach delta m) * delta)]) with (map u (seq 0 (S m))).
    2:{ rewrite seq_S, map_app. cbn [map Nat.add]. unfold u at 2. rewrite Nat.eqb_refl. f_equal. apply map_ext_in. intros k Hk. apply in_seq in Hk. unfold u.
        destruct (Nat.eqb_spec (S k) (S m)); [lia|reflexivity]. }
    generalize (seq 0 (S m)). induction l as [|k l IH]; [reflexivity|]. cbn [map combine]. rewrite IH. f_equal.
    cbn [fst snd]. unfold u, cell_mass. destruct (Nat.eqb (S k) (S m)); cbn [nadd ndiv nofZ Num_ef ef_add]; rewrite ef_div_Fin by lra; f_equal; field.
  Qed.

  Definition idx_mass (mf mg : nat -> R) (k : nat) : R :=
    Rsum (map (fun i => Rsum (map (fun j => if Nat.eqb (i + j) k then mf i * mg j else 0) (seq 0 N))) (seq 0 N)).

  Lemma Rsum_single : forall (q : nat -> R) n t s, Rsum (map (fun j => if Nat.eqb j t then q j else 0) (seq s n)) = if (Nat.leb s t && Nat.ltb t (s + n))%bool then q t else 0.
  Proof.
    intros q n t. induction n as [|n IH]; intro s.
    - cbn [seq map]. replace (Nat.leb s t && Nat.ltb t (s + 0))%bool with false; [reflexivity|].
      symmetry. apply andb_false_iff. destruct (Nat.leb_spec s t); [right; apply Nat.ltb_ge; lia|left; reflexivity].
    - cbn [seq map]. rewrite Rsum_cons, IH. destruct (Nat.eqb_spec s t) as [->|D].
      + replace (Nat.leb (S t) t) with false by (symmetry; apply Nat.leb_gt; lia). rewrite Nat.leb_refl.
        replace (Nat.ltb t (t + S n)) with true by (symmetry; apply Nat.ltb_lt; lia). cbn [andb]. lra.
      + rewrite Rplus_0_l. replace (Nat.leb (S s) t && Nat.ltb t (S s + n))%bool with (Nat.leb s t && Nat.ltb t (s + S n))%bool; [reflexivity|].
        apply eq_true_iff_eq. rewrite !andb_true_iff, !Nat.leb_le, !Nat.ltb_lt. lia.
  Qed.

  Lemma full_eq : forall mf mg k, conv_full (map (fun i => Fin (mf i)) (seq 0 N)) (map (fun i => Fin (mg i)) (seq 0 N)) k = Fin (idx_mass mf mg k).
  Proof.
    intros mf mg k. unfold conv_full, idx_mass. rewrite !map_length, !seq_length.
    transitivity (Fin (Rsum (map (fun i => mf i * mg (k - i)%nat) (filter (fun i => (Nat.leb i k && Nat.ltb (k - i) N)%bool) (seq 0 N))))).
    - rewrite <- np_sum_Fin, map_map. f_equal. apply map_ext_in. intros i Hi. apply filter_In in Hi as [Hi Hb]. apply in_seq in Hi.
      apply andb_true_iff in Hb as [H1 H2]. apply Nat.ltb_lt in H2. rewrite !vat_map_seq by lia. reflexivity.
    - f_equal. generalize (seq 0 N) at 1 3. induction l as [|i l IH]; [reflexivity|]. cbn [filter map]. rewrite Rsum_cons, <- IH.
      assert (I : Rsum (map (fun j => if Nat.eqb (i + j) k then mf i * mg j else 0) (seq 0 N)) = if (Nat.leb i k && Nat.ltb (k - i) N)%bool then mf i * mg (k - i)%nat else 0).
      { rewrite (Rsum_map_ext _ _ (fun j => if Nat.eqb j (k - i) then (if Nat.leb i k then mf i * mg j else 0) else 0)).
        - rewrite (Rsum_single (fun j => if Nat.leb i k then mf i * mg j else 0)). cbn [Nat.leb andb Nat.add].
          destruct (Nat.leb i k), (Nat.ltb (k - i) N); reflexivity.
        - intros j _. destruct (Nat.eqb_spec (i + j) k), (Nat.eqb_spec j (k - i)), (Nat.leb_spec i k); try reflexivity; lia. }
      rewrite I.
      destruct (Nat.leb i k), (Nat.ltb (k - i) N); cbn [andb map]; rewrite ?Rsum_cons; lra.
  Qed.

  (** The model's arrays. *)
  Definition pdf_at (k : nat) : R := idx_mass (cell_mass f reach delta N) (cell_mass g reach delta N) (k + h) / delta.
  Definition the_model : conv_model ef := ConvModel (map (fun k => Fin (point reach delta k)) (seq 0 N)) (map (fun k => Fin (pdf_at k)) (seq 0 N)).

  Lemma model_eq : get_model ceil inverse (conv_new F G (Fin delta) (Fin ft) (Fin gt)) = Ok the_model.
  Proof.
    assert (D := delta_pos). assert (GE := grid_eq). assert (ME := masses_eq).
    destruct C as (HF & HG & IF & IG & A & B & _).
    unfold get_model, conv_new. cbn [cv_f cv_g cv_delta cv_ft cv_gt]. rewrite IF, IG. cbn [bind].
    cbn [nltb Num_ef nofZ nzero ef_ltb]. unfold nzero. cbn [nofZ Num_ef ef_ltb].
    replace (Rltb 0 a) with true by (symmetry; apply Rltb_true; exact A). replace (Rltb 0 b) with true by (symmetry; apply Rltb_true; exact B).
    cbn [assert_ bind].
    replace (if Rltb a b then Fin b else Fin a) with (Fin reach).
    2:{ unfold reach, Rltb, Rmax. destruct (Rlt_dec a b), (Rle_dec a b); try reflexivity; f_equal; lra. }
    cbv zeta. rewrite GE, (ME f F HF), (ME g G HG). cbn [bind]. unfold the_model. f_equal. f_equal.
    unfold conv_same. rewrite map_length, seq_length, map_map. apply map_ext_in. intros k _. rewrite full_eq. cbn [ndiv Num_ef].
    rewrite ef_div_Fin by lra. reflexivity.
  Qed.

  Lemma pdf_val : forall x, snd (conv_pdf ceil inverse (conv_new F G (Fin delta) (Fin ft) (Fin gt)) x) =
    Ok (np_interp x (map (fun k => Fin (point reach delta k)) (seq 0 N)) (map (fun k => Fin (pdf_at k)) (seq 0 N)) (Fin (ft * gt)) (Fin (ft * gt))).
  Proof. intro x. unfold conv_pdf. cbn [conv_new cv_model]. change (Conv F G (Fin delta) (Fin ft) (Fin gt) None) with (conv_new F G (Fin delta) (Fin ft) (Fin gt)). rewrite model_eq. reflexivity. Qed.

  Lemma count_points : forall x k, (k < N)%nat -> point reach delta k <= x -> ((S k = N) \/ x < point reach delta (S k)) ->
    length (filter (fun p => (p <=? Fin x)%num) (map (fun k => Fin (point reach delta k)) (seq 0 N))) = S k.
  Proof.
    intros x k Hk L U. assert (D := delta_pos).
    rewrite (filter_ext_in _ (fun p => match p with Fin v => Rleb v x | _ => false end)) by (intros p Hp; apply in_map_iff in Hp as [i [<- _]]; reflexivity).
    assert (E : forall q, length (filter (fun p => match p with Fin v => Rleb v x | _ => false end) (map (fun k => Fin (point reach delta k)) q)) = length (filter (fun i => Rleb (point reach delta i) x) q)).
    { induction q as [|i q IH]; [reflexivity|]. cbn [map filter]. destruct (Rleb (point reach delta i) x); cbn [length]; rewrite IH; reflexivity. }
    rewrite E. replace N with (S k + (N - S k))%nat by lia. rewrite seq_app, filter_app, app_length. cbn [Nat.add].
    replace (filter (fun i => Rleb (point reach delta i) x) (seq 0 (S k))) with (seq 0 (S k)).
    2:{ rewrite <- (filter_all _ (seq 0 (S k))) at 1. apply filter_ext_in. intros i Hi. apply in_seq in Hi. symmetry. apply Rleb_true.
        assert (Q := point_le reach delta i k D ltac:(lia)). lra. }
    replace (filter (fun i => Rleb (point reach delta i) x) (seq (S k) (N - S k))) with (@nil nat); [rewrite seq_length; cbn [length]; lia|].
    assert (Z : forall i, In i (seq (S k) (N - S k)) -> Rleb (point reach delta i) x = false).
    { intros i Hi. apply in_seq in Hi. destruct U as [U|U]; [lia|]. apply Rleb_false. assert (Q := point_le reach delta (S k) i D ltac:(lia)). lra. }
    revert Z. generalize (seq (S k) (N - S k)). induction l as [|i l IH]; intro Z; [reflexivity|]. cbn [filter]. rewrite Z by (left; reflexivity). apply IH. intros j Hj. apply Z. right. exact Hj.
  Qed.

  Lemma interp_in : forall x k, (k < N)%nat -> point reach delta k <= x -> ((S k = N /\ x = point reach delta k) \/ x < point reach delta (S k)) -> x <= point reach delta (N - 1) ->
    np_interp (Fin x) (map (fun k => Fin (point reach delta k)) (seq 0 N)) (map (fun k => Fin (pdf_at k)) (seq 0 N)) (Fin (ft * gt)) (Fin (ft * gt)) =
    Fin (if Nat.eqb (S k) N then pdf_at k else (pdf_at (S k) - pdf_at k) / delta * (x - point reach delta k) + pdf_at k).
  Proof.
    intros x k Hk L U LE. assert (D := delta_pos). assert (P := N_pos). unfold np_interp. cbn [nisnan Num_ef ef_isnan].
    rewrite vat_map_seq by exact P. rewrite (last_map_seq _ _ N) by exact P. cbn [nltb Num_ef ef_ltb].
    replace (Rltb x (point reach delta 0)) with false. 2:{ symmetry. apply Rltb_false. assert (Q := point_le reach delta 0 k D ltac:(lia)). lra. }
    replace (Rltb (point reach delta (N - 1)) x) with false by (symmetry; apply Rltb_false; exact LE).
    rewrite (count_points x k Hk L) by (destruct U as [[U _]|U]; [left; exact U|right; exact U]). cbv zeta. replace (S k - 1)%nat with k by lia.
    rewrite map_length, seq_length. destruct (Nat.eqb_spec (S k) N) as [E|E]; [rewrite vat_map_seq by exact Hk; reflexivity|].
    rewrite !vat_map_seq by lia. cbn [nsub ndiv nmul nadd Num_ef]. rewrite !ef_sub_Fin.
    assert (W : point reach delta (S k) - point reach delta k = delta) by (unfold point; rewrite S_INR; lra). rewrite W, ef_div_Fin by lra. reflexivity.
  Qed.

  Lemma at_point : forall k, (k < N)%nat -> snd (conv_pdf ceil inverse (conv_new F G (Fin delta) (Fin ft) (Fin gt)) (Fin (point reach delta k))) = Ok (Fin (pdf_at k)).
  Proof.
    intros k Hk. assert (D := delta_pos). rewrite pdf_val. f_equal. rewrite (interp_in (point reach delta k) k Hk); [|lra| |apply point_le; [exact D|lia]].
    - destruct (Nat.eqb (S k) N); [reflexivity|]. f_equal. lra.
    - right. apply point_lt; [exact D|lia].
  Qed.

  (** ** where the masses sit *)
  Definition shift : R := - reach + (INR h + 1) * delta.
  Lemma shift_bounds : 0 <= shift < delta.
  Proof.
    assert (P := N_pos). assert (D := delta_pos). destruct C as (_ & _ & _ & _ & _ & _ & _ & _ & [K1 K2]). fold reach in K1, K2. unfold shift, h.
    destruct (Nat.Even_or_Odd N) as [[m E]|[m E]].
    - replace ((N - 1) / 2)%nat with (m - 1)%nat.
      2:{ rewrite E. replace (2 * m - 1)%nat with (1 + (m - 1) * 2)%nat by lia. rewrite Nat.div_add by lia. reflexivity. }
      rewrite minus_INR by lia. rewrite E in K1, K2. rewrite mult_INR in K1, K2. cbn [INR] in *. lra.
    - replace ((N - 1) / 2)%nat with m. 2:{ rewrite E. replace (2 * m + 1 - 1)%nat with (m * 2)%nat by lia. rewrite Nat.div_mul by lia. reflexivity. }
      rewrite E in K1, K2. rewrite plus_INR, mult_INR in K1, K2. cbn [INR] in *. lra.
  Qed.
  Lemma sum_mass_idx : forall k, sum_mass f g reach delta N (point reach delta k + shift) = idx_mass (cell_mass f reach delta N) (cell_mass g reach delta N) (k + h).
  Proof.
    intro k. assert (D := delta_pos). unfold sum_mass, idx_mass. f_equal. apply map_ext. intro i. f_equal. apply map_ext. intro j.
    assert (E : (middle reach delta i + middle reach delta j = point reach delta k + shift) <-> (i + j = k + h)%nat).
    { unfold middle, point, shift. split; intro Q.
      - apply INR_eq. rewrite !plus_INR. assert (Q' : (INR i + INR j) * delta = (INR k + INR h) * delta) by lra. apply Rmult_eq_reg_r in Q'; lra.
      - assert (Q' : INR i + INR j = INR k + INR h) by (rewrite <- !plus_INR, Q; reflexivity). nra. }
    destruct (Req_EM_T (middle reach delta i + middle reach delta j) (point reach delta k + shift)) as [A|A], (Nat.eqb_spec (i + j) (k + h)); try reflexivity; tauto.
  Qed.

  Lemma c88_grid_ : exists sh, 0 <= sh < delta /\ forall k, (k < N)%nat ->
    snd (conv_pdf ceil inverse (conv_new F G (Fin delta) (Fin ft) (Fin gt)) (Fin (point reach delta k))) =
    Ok (Fin (sum_mass f g reach delta N (point reach delta k + sh) / delta)).
  Proof. exists shift. split; [apply shift_bounds|]. intros k Hk. rewrite sum_mass_idx. apply at_point. exact Hk. Qed.

  Lemma c88_line_ : forall k x, (S k < N)%nat -> point reach delta k <= x <= point reach delta (S k) -> exists u v,
    snd (conv_pdf ceil inverse (conv_new F G (Fin delta) (Fin ft) (Fin gt)) (Fin (point reach delta k))) = Ok (Fin u) /\
    snd (conv_pdf ceil inverse (conv_new F G (Fin delta) (Fin ft) (Fin gt)) (Fin (point reach delta (S k)))) = Ok (Fin v) /\
    snd (conv_pdf ceil inverse (conv_new F G (Fin delta) (Fin ft) (Fin gt)) (Fin x)) = Ok (Fin (u + (v - u) * ((x - point reach delta k) / delta))).
  Proof.
    intros k x Hk [L U]. assert (D := delta_pos). exists (pdf_at k), (pdf_at (S k)). split; [apply at_point; lia|]. split; [apply at_point; lia|].
    destruct (Req_EM_T x (point reach delta (S k))) as [->|E].
    - rewrite at_point by exact Hk. f_equal. f_equal. replace (point reach delta (S k) - point reach delta k) with delta by (unfold point; rewrite S_INR; lra). field. lra.
    - rewrite pdf_val. f_equal. rewrite (interp_in x k); [|lia|exact L|right; lra|].
      + replace (Nat.eqb (S k) N) with false by (symmetry; apply Nat.eqb_neq; lia). f_equal. field. lra.
      + assert (Q := point_le reach delta (S k) (N - 1) D ltac:(lia)). lra.
  Qed.

  Lemma c88_outside_ : forall x, x < - reach \/ point reach delta (N - 1) < x ->
    snd (conv_pdf ceil inverse (conv_new F G (Fin delta) (Fin ft) (Fin gt)) (Fin x)) = Ok (Fin (ft * gt)).
  Proof.
    intros x H. assert (D := delta_pos). assert (P := N_pos). rewrite pdf_val. f_equal. unfold np_interp. cbn [nisnan Num_ef ef_isnan].
    rewrite vat_map_seq by exact P. rewrite (last_map_seq _ _ N) by exact P. cbn [nltb Num_ef ef_ltb].
    destruct (Rltb x (point reach delta 0)) eqn:E; [reflexivity|]. apply Rltb_false in E. unfold point in E at 1. cbn [INR] in E.
    replace (Rltb (point reach delta (N - 1)) x) with true; [reflexivity|]. symmetry. apply Rltb_true. lra.
  Qed.

  (** ** mass *)
  Hypothesis f_pos : forall x, 0 <= f x.
  Hypothesis g_pos : forall x, 0 <= g x.
  Lemma cell_pos : forall q k, (forall x, 0 <= q x) -> 0 <= cell_mass q reach delta N k.
  Proof.
    intros q k Hq. assert (D := delta_pos). unfold cell_mass. apply Rmult_le_pos; [lra|].
    pose proof (Hq (point reach delta k)). pose proof (Hq (point reach delta (S k))). destruct (Nat.eqb (S k) N); lra.
  Qed.
  Lemma idx_pos : forall k, 0 <= idx_mass (cell_mass f reach delta N) (cell_mass g reach delta N) k.
  Proof.
    intro k. apply Rsum_nonneg. intros y Hy. apply in_map_iff in Hy as [i [<- _]]. apply Rsum_nonneg. intros y Hy. apply in_map_iff in Hy as [j [<- _]].
    destruct (Nat.eqb (i + j) k); [|lra]. apply Rmult_le_pos; apply cell_pos; assumption.
  Qed.
  Lemma pdf_pos : forall k, 0 <= pdf_at k.
  Proof. intro k. assert (D := delta_pos). unfold pdf_at, Rdiv. apply Rmult_le_pos; [apply idx_pos|left; apply Rinv_0_lt_compat; exact D]. Qed.

  Lemma locate : forall x, - reach <= x <= point reach delta (N - 1) -> exists k, (k < N)%nat /\ point reach delta k <= x /\ ((S k = N /\ x = point reach delta k) \/ x < point reach delta (S k)).
  Proof.
    intros x [L U]. assert (P := N_pos). assert (Q : forall m, (m < N)%nat -> x < point reach delta m -> exists k, (k < m)%nat /\ point reach delta k <= x < point reach delta (S k)).
    { induction m as [|m IH]; intros Hm Hx; [unfold point in Hx; cbn [INR] in Hx; lra|].
      destruct (Rlt_dec x (point reach delta m)) as [X|X]; [destruct (IH ltac:(lia) X) as [k [K1 K2]]; exists k; split; [lia|exact K2]|].
      exists m. split; [lia|]. lra. }
    destruct (Rlt_dec x (point reach delta (N - 1))) as [X|X].
    - destruct (Q (N - 1)%nat ltac:(lia) X) as [k [K1 [K2 K3]]]. exists k. split; [lia|]. split; [exact K2|right; exact K3].
    - exists (N - 1)%nat. split; [lia|]. split; [lra|]. left. split; [lia|lra].
  Qed.

  Lemma c88_nonneg_ : 0 <= ft * gt -> forall x, exists y, snd (conv_pdf ceil inverse (conv_new F G (Fin delta) (Fin ft) (Fin gt)) (Fin x)) = Ok (Fin y) /\ 0 <= y.
  Proof.
    intros Hp x. assert (D := delta_pos). destruct (Rlt_dec x (- reach)) as [L|L]; [exists (ft * gt); split; [apply c88_outside_; left; exact L|exact Hp]|].
    destruct (Rlt_dec (point reach delta (N - 1)) x) as [U|U]; [exists (ft * gt); split; [apply c88_outside_; right; exact U|exact Hp]|].
    destruct (locate x ltac:(lra)) as [k [Hk [A B]]]. rewrite pdf_val.
    eexists. split; [f_equal; apply (interp_in x k Hk A B); lra|].
    pose proof (pdf_pos k). pose proof (pdf_pos (S k)). destruct (Nat.eqb_spec (S k) N) as [E|E]; [assumption|].
    destruct B as [[B _]|B]; [contradiction|].
    assert (W : point reach delta (S k) = point reach delta k + delta) by (unfold point; rewrite S_INR; lra).
    set (t := (x - point reach delta k) / delta).
    assert (T : 0 <= t <= 1). { unfold t. split; [unfold Rdiv; apply Rmult_le_pos; [lra|left; apply Rinv_0_lt_compat; exact D]|].
      apply Rmult_le_reg_r with delta; [exact D|]. unfold Rdiv. rewrite Rmult_assoc, Rinv_l by lra. lra. }
    replace ((pdf_at (S k) - pdf_at k) / delta * (x - point reach delta k) + pdf_at k) with ((1 - t) * pdf_at k + t * pdf_at (S k)) by (unfold t; field; lra).
    assert (0 <= (1 - t) * pdf_at k) by (apply Rmult_le_pos; lra). assert (0 <= t * pdf_at (S k)) by (apply Rmult_le_pos; lra). lra.
  Qed.

  Lemma c88_mass_ : exists v, (forall k, (k < N)%nat -> snd (conv_pdf ceil inverse (conv_new F G (Fin delta) (Fin ft) (Fin gt)) (Fin (point reach delta k))) = Ok (Fin (v k))) /\
    Rsum (map (fun k => v k * delta) (seq 0 N)) <= Rsum (map (cell_mass f reach delta N) (seq 0 N)) * Rsum (map (cell_mass g reach delta N) (seq 0 N)).
  Proof.
    exists pdf_at. split; [apply at_point|]. assert (D := delta_pos). unfold pdf_at.
    rewrite (Rsum_map_ext _ _ (fun k => idx_mass (cell_mass f reach delta N) (cell_mass g reach delta N) (k + h))) by (intros; field; lra).
    unfold idx_mass. rewrite Rsum_swap. rewrite <- Rsum_map_mulr. apply Rsum_le. intros i Hi. rewrite Rsum_swap. rewrite <- Rsum_map_mul. apply Rsum_le. intros j Hj.
    assert (Pij : 0 <= cell_mass f reach delta N i * cell_mass g reach delta N j) by (apply Rmult_le_pos; apply cell_pos; assumption).
    destruct (Nat.leb_spec h (i + j)) as [L|L].
    - rewrite (Rsum_map_ext _ _ (fun k => if Nat.eqb k (i + j - h) then cell_mass f reach delta N i * cell_mass g reach delta N j else 0)).
      + rewrite (Rsum_single (fun _ => cell_mass f reach delta N i * cell_mass g reach delta N j)). destruct (_ && _)%bool; lra.
      + intros k _. destruct (Nat.eqb_spec (i + j) (k + h)), (Nat.eqb_spec k (i + j - h)); try reflexivity; lia.
    - rewrite (Rsum_map_ext _ _ (fun _ => 0)). 
      + rewrite Rsum_map_const. lra.
      + intros k _. destruct (Nat.eqb_spec (i + j) (k + h)); [lia|reflexivity].
  Qed.
End Case.

Lemma conv_case_swap : forall f g F G ceil (inverse : (ef -> ef) -> ef -> res ef) delta ft gt a b N,
  conv_case f g F G ceil inverse Ok delta ft gt a b N -> conv_case g f G F ceil inverse Ok delta gt ft b a N.
Proof. intros f g F G ceil inverse delta ft gt a b N (A1 & A2 & A3 & A4 & A5 & A6 & A7 & A8 & A9). unfold conv_case. rewrite (Rmax_comm b a). repeat split; assumption || apply A9. Qed.

Lemma idx_swap : forall N mf mg k, idx_mass N mf mg k = idx_mass N mg mf k.
Proof.
  intros. unfold idx_mass. rewrite Rsum_swap. apply Rsum_map_ext. intros j _. apply Rsum_map_ext. intros i _. rewrite Nat.add_comm.
  destruct (Nat.eqb (j + i) k); [apply Rmult_comm|reflexivity].
Qed.
Lemma c88_swap : forall f g F G ceil inverse delta ft gt a b N x, conv_case f g F G ceil inverse Ok delta ft gt a b N ->
  snd (conv_pdf ceil inverse (conv_new F G (Fin delta) (Fin ft) (Fin gt)) x) = snd (conv_pdf ceil inverse (conv_new G F (Fin delta) (Fin gt) (Fin ft)) x).
Proof.
  intros f g F G ceil inverse delta ft gt a b N x C. rewrite (pdf_val _ _ _ _ _ _ _ _ _ _ _ _ C x), (pdf_val _ _ _ _ _ _ _ _ _ _ _ _ (conv_case_swap _ _ _ _ _ _ _ _ _ _ _ _ C) x).
  rewrite (Rmax_comm b a), (Rmult_comm gt ft). f_equal. f_equal. apply map_ext. intro k. f_equal. unfold pdf_at. rewrite (Rmax_comm b a), idx_swap. reflexivity.
Qed.

Lemma c88_calls : forall ceil inverse (f g : ef -> ef) delta ft gt xs,
  conv_calls ceil inverse (conv_new f g delta ft gt) xs = map (fun x => snd (conv_pdf ceil inverse (conv_new f g delta ft gt) x)) xs.
Proof.
  intros. destruct (get_model ceil inverse (conv_new f g delta ft gt)) as [m|e] eqn:E.
  - assert (K : forall xs, conv_calls ceil inverse (Conv f g delta ft gt (Some m)) xs = map (fun x => Ok (conv_eval (conv_new f g delta ft gt) m x)) xs).
    { induction xs0 as [|x xs0 IH]; [reflexivity|]. cbn [conv_calls conv_pdf cv_model map]. rewrite IH. reflexivity. }
    assert (V : forall x, conv_pdf ceil inverse (conv_new f g delta ft gt) x = (Conv f g delta ft gt (Some m), Ok (conv_eval (conv_new f g delta ft gt) m x))).
    { intro x. unfold conv_pdf. cbn [conv_new cv_model]. change (Conv f g delta ft gt None) with (conv_new f g delta ft gt). rewrite E. reflexivity. }
    destruct xs as [|x xs]; [reflexivity|]. cbn [conv_calls map]. rewrite V, K. cbn [snd]. f_equal. apply map_ext. intro y. rewrite V. reflexivity.
  - assert (V : forall x, conv_pdf ceil inverse (conv_new f g delta ft gt) x = (conv_new f g delta ft gt, Err e)).
    { intro x. unfold conv_pdf. cbn [conv_new cv_model]. change (Conv f g delta ft gt None) with (conv_new f g delta ft gt). rewrite E. reflexivity. }
    induction xs as [|x xs IH]; [reflexivity|]. cbn [conv_calls map]. rewrite V. cbn [snd]. rewrite IH. reflexivity.
Qed.

Lemma c88_refuse : forall ceil inverse (f g : ef -> ef) delta ft gt u v x, inverse f ft = Ok u -> inverse g gt = Ok v ->
  (forall r, u = Fin r -> r <= 0) /\ u <> PInf \/ (forall r, v = Fin r -> r <= 0) /\ v <> PInf ->
  snd (conv_pdf ceil inverse (conv_new f g delta ft gt) x) = Err AssertionError.
Proof.
  intros ceil inverse f g delta ft gt u v x Hu Hv H. unfold conv_pdf, get_model. cbn [conv_new cv_model cv_f cv_g cv_ft cv_gt]. rewrite Hu, Hv. cbn [bind].
  assert (Z : forall w : ef, (forall r, w = Fin r -> r <= 0) /\ w <> PInf -> (nzero <? w)%num = false).
  { intros w [A B]. destruct w as [r| | |]; try reflexivity; [|congruence]. specialize (A r eq_refl). unfold nzero. cbn [nltb nofZ Num_ef ef_ltb]. apply Rltb_false. lra. }
  destruct H as [H|H]; rewrite (Z _ H); [reflexivity|]. destruct (nzero <? u)%num; reflexivity.
Qed.
