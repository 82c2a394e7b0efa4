(** The steps of the maximum likelihood models as sums over votes, and as
    Newton steps on the log-likelihood. *)
From Coq Require Import List ZArith Bool Arith Reals Lra Lia.
From Verif Require Import PyBase Num ExtReal NumPy AP Mle SpecMos SpecAp SpecMle
  BaseProofs ExtRealProofs ArrayProofs ApProofs Ap2Proofs.
Import ListNotations.
Local Open Scope list_scope.
Local Open Scope R_scope.

(** ** Lists *)
Lemma vmap2_map_map : forall A (f : ef -> ef -> ef) (u v : A -> ef) l, vmap2 f (map u l) (map v l) = map (fun k => f (u k) (v k)) l.
Proof. intros. unfold vmap2. rewrite combine_map_map, map_map. reflexivity. Qed.
Lemma list_as_seq : forall (l : list ef) n, length l = n -> l = map (fun k => nth k l NaN) (seq 0 n).
Proof.
  induction l as [|a l IH]; intros n H; destruct n as [|n]; try discriminate; [reflexivity|].
  cbn [seq map nth]. f_equal. rewrite <- seq_shift, map_map. cbn [nth]. apply IH. now injection H.
Qed.

(** ** Sums *)
Lemma sum_e_derived : forall x y g, finite_votes x -> derived x y g ->
  sum_e y = map (fun i => Fin (ssum x i (fun e v => g e i v))) (seq 0 (dS x)).
Proof.
  intros x y g HF HD. assert (HD' := HD). destruct HD' as (D1 & D2 & D3 & H). unfold sum_e, along0. cbn [stack0 n1]. rewrite D2.
  apply map_ext_in. intros i Hi. apply in_seq in Hi. rewrite nansum_col; [|apply (derived_finite x y g); assumption|lia].
  f_equal. apply (derived_ssum x y g i (fun _ v => v)); [exact HD|lia].
Qed.
Lemma sum_s_derived : forall x y g, finite_votes x -> derived x y g ->
  sum_s y = map (fun e => Fin (vsum x e (fun i v => g e i v))) (seq 0 (dE x)).
Proof.
  intros x y g HF HD. assert (HD' := HD). destruct HD' as (D1 & D2 & D3 & H). unfold sum_s, along1. cbn [stack1 n0]. rewrite D1.
  apply map_ext_in. intros i Hi. apply in_seq in Hi. rewrite nansum_row; [|apply (derived_finite x y g); assumption|lia].
  f_equal. apply (derived_vsum x y g i (fun _ v => v)); [exact HD|lia].
Qed.
Lemma ssum_0 : forall x i f, (i < dS x)%nat -> ~ voted x i -> ssum x i f = 0.
Proof.
  intros x i f Hi H. rewrite (ssum_ext x i f (fun _ _ => 0)).
  - rewrite ssum_const. ring.
  - intros e r v He Hr E. exfalso. apply H. exists e, r, v. repeat split; assumption.
Qed.
Lemma vsum_unrated : forall x e f, (e < dE x)%nat -> ~ rated x e -> vsum x e f = 0.
Proof.
  intros x e f He H. apply vsum_0. intros i r v Hi Hr E. exfalso. apply H. exists i, r, v. repeat split; assumption.
Qed.
Lemma voted_dec : forall x i, (i < dS x)%nat -> voted x i \/ ~ voted x i.
Proof.
  intros x i Hi. destruct (Req_EM_T (scount x i) 0) as [E|E].
  - right. intro H. apply voted_count in H. lra.
  - left. apply scount_voted; assumption.
Qed.
Lemma rated_dec : forall x e, (e < dE x)%nat -> rated x e \/ ~ rated x e.
Proof.
  intros x e He. destruct (Req_EM_T (vcount x e) 0) as [E|E].
  - right. intro H. apply rated_count in H. lra.
  - left. apply vcount_rated; assumption.
Qed.

Lemma cid_nth : forall (a : list ef) cids e, (e < length cids)%nat -> vat (amb_of a cids) e = nth (cid_of cids e) a NaN.
Proof.
  intros a cids e He. unfold vat, amb_of, cid_of. rewrite (nth_indep _ _ (vat a 0)) by (rewrite map_length; exact He).
  rewrite (map_nth (fun c => vat a c)). reflexivity.
Qed.

Lemma Rsum_select : forall A (f : A -> R) (t : A -> bool) l,
  Rsum (map f (filter t l)) = Rsum (map (fun a => if t a then f a else 0) l).
Proof.
  induction l as [|a l IH]; [reflexivity|]. cbn [filter map]. destruct (t a); cbn [map]; rewrite ?Rsum_cons, IH; [reflexivity|]. ring.
Qed.
Lemma sum_over_cid_Fin : forall (G : nat -> R) cids C,
  sum_over_cid (map (fun e => Fin (G e)) (seq 0 (length cids))) cids C =
  map (fun c => Fin (Rsum (map (fun e => if Nat.eqb (cid_of cids e) c then G e else 0) (seq 0 (length cids))))) (seq 0 C).
Proof.
  intros G cids C. unfold sum_over_cid. apply map_ext. intro c.
  assert (E : combine cids (map (fun e => Fin (G e)) (seq 0 (length cids))) = map (fun e => (cid_of cids e, Fin (G e))) (seq 0 (length cids))).
  { rewrite <- combine_map_map. f_equal. clear. induction cids as [|k l IH]; [reflexivity|]. cbn [length seq map]. unfold cid_of at 1. cbn [nth].
    f_equal. rewrite <- seq_shift, map_map. exact IH. }
  rewrite E. clear E.
  assert (E2 : map snd (filter (fun p => Nat.eqb (fst p) c) (map (fun e => (cid_of cids e, Fin (G e))) (seq 0 (length cids)))) =
               map Fin (map G (filter (fun e => Nat.eqb (cid_of cids e) c) (seq 0 (length cids))))).
  { generalize (seq 0 (length cids)). intro l. induction l as [|k l IH]; [reflexivity|]. cbn [map filter fst]. destruct (Nat.eqb (cid_of cids k) c); cbn [map]; [|exact IH].
    cbn [snd]. f_equal. exact IH. }
  rewrite E2, np_sum_Fin, Rsum_select. reflexivity.
Qed.

(** A missing vote stays missing. *)
Lemma add_nan : forall y, ef_add y NaN = NaN.
Proof. intros []; reflexivity. Qed.
Lemma mul_nan : forall y, ef_mul y NaN = NaN.
Proof. intros []; reflexivity. Qed.
Lemma div_nan : forall y, ef_div NaN y = NaN.
Proof. intros []; reflexivity. Qed.
Lemma v_term1_nan : forall (v ae : list ef) e i, v_term1 v ae e i NaN = NaN.
Proof. intros. unfold v_term1, nsq. efc. rewrite !mul_nan, div_nan. apply add_nan. Qed.
Lemma v_term2_nan : forall (v ae : list ef) e i, v_term2 v ae e i NaN = NaN.
Proof. intros. unfold v_term2. cbv zeta. replace (nsq (NaN : ef)) with (NaN : ef) by reflexivity. efc. cbn [ef_mul]. rewrite div_nan. apply add_nan. Qed.
Lemma a_term1_nan : forall (v ae : list ef) e i, a_term1 v ae e i NaN = NaN.
Proof. intros. unfold a_term1, nsq. efc. rewrite !mul_nan, div_nan. apply add_nan. Qed.
Lemma a_term2_nan : forall (v ae : list ef) e i, a_term2 v ae e i NaN = NaN.
Proof. intros. unfold a_term2. cbv zeta. replace (nsq (NaN : ef)) with (NaN : ef) by reflexivity. efc. cbn [ef_mul]. rewrite div_nan. apply add_nan. Qed.

(** ** Values at the votes *)
Section State.
  Variables (x : arr3 ef) (cids : list nat) (C : nat) (p : params) (q b v a : list ef).
  Hypothesis (HF : finite_votes x) (HC : fits x cids C) (HH : holds x cids C p q b v a) (HR : regular x (cid_of cids) p).
  Let cid := cid_of cids.

  Lemma q_at : forall e i r w, inside x e i r -> at3 x e i r = Fin w -> vat q e = Fin (pq p e).
  Proof. intros e i r w HI E. unfold vat. apply (h_q _ _ _ _ _ _ _ _ HH); [apply HI|]. exists i, r, w. split; assumption. Qed.
  Lemma b_at : forall e i r w, inside x e i r -> at3 x e i r = Fin w -> vat b i = Fin (pb p i).
  Proof. intros e i r w HI E. unfold vat. apply (h_b _ _ _ _ _ _ _ _ HH); [apply HI|]. exists e, r, w. split; assumption. Qed.
  Lemma v_at : forall e i r w, inside x e i r -> at3 x e i r = Fin w -> vat v i = Fin (pv p i).
  Proof. intros e i r w HI E. unfold vat. apply (h_v _ _ _ _ _ _ _ _ HH); [apply HI|]. exists e, r, w. split; assumption. Qed.
  Lemma a_at : forall e i r w, inside x e i r -> at3 x e i r = Fin w -> vat (amb_of a cids) e = Fin (pa p (cid e)).
  Proof.
    intros e i r w HI E. rewrite cid_nth by (destruct HC as [-> _]; apply HI). apply (h_a _ _ _ _ _ _ _ _ HH).
    exists e. split; [apply HI|split; [reflexivity|]]. exists i, r, w. split; assumption.
  Qed.
  Lemma w_at : forall e i r w, inside x e i r -> at3 x e i r = Fin w -> w_es v (amb_of a cids) e i = Fin (variance cid p e i).
  Proof.
    intros e i r w HI E. unfold w_es, nsq. rewrite (v_at e i r w), (a_at e i r w) by assumption. reflexivity.
  Qed.
  Lemma w_pos : forall e i r w, inside x e i r -> at3 x e i r = Fin w -> 0 < variance cid p e i.
  Proof. exact HR. Qed.

  (** Arrays derived from the votes by a formula. *)
  Ltac der := split; [reflexivity|split; [reflexivity|split; [reflexivity|]]];
    let e := fresh "e" in let i := fresh "i" in let r := fresh "r" in let HI := fresh "HI" in
    intros e i r HI; cbn [map3 at3 one_or_nan residual]; assert (HN := HF e i r HI);
    destruct (at3 x e i r) as [w| | |] eqn:E; try contradiction; try reflexivity;
    try solve [apply v_term1_nan|apply v_term2_nan|apply a_term1_nan|apply a_term2_nan];
    assert (PW := w_pos e i r w HI E);
    rewrite ?(w_at e i r w HI E), ?(q_at e i r w HI E), ?(b_at e i r w HI E), ?(v_at e i r w HI E), ?(a_at e i r w HI E).

  Lemma d_b1 : derived x (map3 (fun e s r y => ndiv (nsub y (vat q e)) (w_es v (amb_of a cids) e s)) x) (fun e i w => (w - pq p e) / variance cid p e i).
  Proof. der. efc. rewrite ef_sub_Fin, ef_div_Fin by lra. reflexivity. Qed.
  Lemma d_b2 : derived x (map3 (fun e s r y => ndiv y (w_es v (amb_of a cids) e s)) (one_or_nan x)) (fun e i w => 1 / variance cid p e i).
  Proof. der. efc. cbn [ef_isnan]. unfold none_. efc. rewrite ef_div_Fin by lra. reflexivity. Qed.
  Lemma d_b3 : derived x (map3 (fun e s r y => ndiv (nsub (nsub y (vat q e)) (vat b s)) (w_es v (amb_of a cids) e s)) x)
    (fun e i w => (w - pq p e - pb p i) / variance cid p e i).
  Proof. der. efc. rewrite !ef_sub_Fin, ef_div_Fin by lra. reflexivity. Qed.
  Lemma d_b4 : derived x (map3 (fun e s r y => ndiv (nneg y) (w_es v (amb_of a cids) e s)) (one_or_nan x)) (fun e i w => -1 / variance cid p e i).
  Proof. der. efc. cbn [ef_isnan]. unfold none_. efc. cbn [ef_neg]. rewrite ef_div_Fin by lra. reflexivity. Qed.
  Lemma d_x1 : derived x (map3 (fun e s r y => ndiv (nsub y (vat b s)) (w_es v (amb_of a cids) e s)) x) (fun e i w => (w - pb p i) / variance cid p e i).
  Proof. der. efc. rewrite ef_sub_Fin, ef_div_Fin by lra. reflexivity. Qed.
  Lemma d_x3 : derived x (map3 (fun e s r y => ndiv y (w_es v (amb_of a cids) e s)) (residual x q b)) (fun e i w => (w - pq p e - pb p i) / variance cid p e i).
  Proof. der. efc. rewrite !ef_sub_Fin, ef_div_Fin by lra. reflexivity. Qed.

  Definition rv1 (e i : nat) (w : R) : R :=
    - pv p i / variance cid p e i + pv p i * ((w - pq p e - pb p i) * (w - pq p e - pb p i)) / (variance cid p e i * variance cid p e i).
  Definition rv2 (e i : nat) (w : R) : R :=
    let r := w - pq p e - pb p i in let s := variance cid p e i in
    (pv p i * pv p i - pa p (cid e) * pa p (cid e)) / (s * s) + r * r * (pa p (cid e) * pa p (cid e) - 3 * (pv p i * pv p i)) / (s * s * s).
  Definition ra1 (e i : nat) (w : R) : R :=
    - pa p (cid e) / variance cid p e i + pa p (cid e) * ((w - pq p e - pb p i) * (w - pq p e - pb p i)) / (variance cid p e i * variance cid p e i).
  Definition ra2 (e i : nat) (w : R) : R :=
    let r := w - pq p e - pb p i in let s := variance cid p e i in
    (pa p (cid e) * pa p (cid e) - pv p i * pv p i) / (s * s) + r * r * (pv p i * pv p i - 3 * (pa p (cid e) * pa p (cid e))) / (s * s * s).

  Lemma sq_pos : forall z, 0 < z -> z * z <> 0.
  Proof. intros z H E. assert (0 < z * z) by (apply Rmult_lt_0_compat; exact H). lra. Qed.
  Lemma d_v1 : derived x (map3 (fun e s r y => v_term1 v (amb_of a cids) e s y) (residual x q b)) rv1.
  Proof.
    der. unfold v_term1, nsq. rewrite (w_at e i r w HI E), (v_at e i r w HI E). efc. rewrite !ef_sub_Fin. cbn [ef_mul ef_neg].
    rewrite !ef_div_Fin by (try apply sq_pos; lra). reflexivity.
  Qed.
  Lemma d_v2 : derived x (map3 (fun e s r y => v_term2 v (amb_of a cids) e s y) (residual x q b)) rv2.
  Proof.
    der. unfold v_term2, nsq, npow4, nsq. rewrite (w_at e i r w HI E), (v_at e i r w HI E), (a_at e i r w HI E). efc. rewrite !ef_sub_Fin. cbn [ef_mul ef_neg].
    rewrite !ef_sub_Fin. cbn [ef_mul]. rewrite !ef_div_Fin by (repeat apply sq_pos; try apply Rmult_lt_0_compat; lra). cbn [ef_add]. f_equal. unfold rv2. cbv zeta.
    f_equal. unfold variance in *. field. lra.
  Qed.
  Lemma d_a1 : derived x (map3 (fun e s r y => a_term1 v (amb_of a cids) e s y) (residual x q b)) ra1.
  Proof.
    der. unfold a_term1, nsq. rewrite (w_at e i r w HI E), (a_at e i r w HI E). efc. rewrite !ef_sub_Fin. cbn [ef_mul ef_neg].
    rewrite !ef_div_Fin by (try apply sq_pos; lra). reflexivity.
  Qed.
  Lemma d_a2 : derived x (map3 (fun e s r y => a_term2 v (amb_of a cids) e s y) (residual x q b)) ra2.
  Proof.
    der. unfold a_term2, nsq, npow4, nsq. rewrite (w_at e i r w HI E), (v_at e i r w HI E), (a_at e i r w HI E). efc. rewrite !ef_sub_Fin. cbn [ef_mul ef_neg].
    rewrite !ef_sub_Fin. cbn [ef_mul ef_neg]. rewrite !ef_div_Fin by (repeat apply sq_pos; try apply Rmult_lt_0_compat; lra). cbn [ef_add]. f_equal. unfold ra2. cbv zeta.
    unfold variance in *. field. lra.
  Qed.
End State.
