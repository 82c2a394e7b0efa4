(** Proofs about the likelihood models on another rating scale (C141): one pass. *)
From Coq Require Import String.
From Coq Require Import List ZArith Bool Arith Reals Lra Lia.
From Verif Require Import PyBase Num ExtReal NumPy Dataset Preproc Mos AP Mle SpecMos SpecAp SpecMle SpecScale
  BaseProofs ExtRealProofs ArrayProofs StepsProofs MosProofs ApProofs Ap2Proofs Ap6Proofs MleProofs Mle2Proofs Mle3Proofs Mle4Proofs Mle5Proofs Mle7Proofs ScaleProofs.
Import ListNotations.
Local Open Scope list_scope.
Local Open Scope R_scope.

(** ** Places on the scale *)
Section Places.
  Variables (k t : R).
  Hypothesis Hk : k <> 0.
  Lemma rescale_cases : forall x, rescale k t x =
    match x with Fin r => Fin (k * r + t) | PInf => if Rlt_dec 0 k then PInf else NInf | NInf => if Rlt_dec 0 k then NInf else PInf | NaN => NaN end.
  Proof. intro x. unfold rescale. rewrite times_cases by exact Hk. destruct x; try reflexivity; destruct (Rlt_dec 0 k); reflexivity. Qed.
  Lemma rescale_sub : forall a b, sc k (nsub a b) (nsub (rescale k t a) (rescale k t b)).
  Proof.
    intros a b. unfold sc. cbn [nsub Num_ef]. rewrite !rescale_cases, times_cases by exact Hk. unfold ef_sub.
    destruct a, b; cbn [ef_neg ef_add]; destruct (Rlt_dec 0 k); cbn [ef_neg ef_add]; try reflexivity. all: f_equal; ring.
  Qed.
  Lemma rescale_step : forall a b, nsub (rescale k t a) (times k b) = rescale k t (nsub a b).
  Proof.
    intros a b. cbn [nsub Num_ef]. rewrite !rescale_cases, times_cases by exact Hk. unfold ef_sub.
    destruct a, b; cbn [ef_neg ef_add]; destruct (Rlt_dec 0 k); cbn [ef_neg ef_add]; try reflexivity. all: f_equal; ring.
  Qed.
  Lemma rescale_add : forall a b, nadd (rescale k t a) (times k b) = rescale k t (nadd a b).
  Proof.
    intros a b. cbn [nadd Num_ef]. rewrite !rescale_cases, times_cases by exact Hk.
    destruct a, b; cbn [ef_neg ef_add]; destruct (Rlt_dec 0 k); cbn [ef_neg ef_add]; try reflexivity. all: f_equal; ring.
  Qed.
  Lemma rescale_isnan : forall a, ef_isnan (rescale k t a) = ef_isnan a.
  Proof. intro a. rewrite rescale_cases. destruct a; try reflexivity; destruct (Rlt_dec 0 k); reflexivity. Qed.
  Lemma rescale_nan : rescale k t NaN = NaN.
  Proof. rewrite rescale_cases. reflexivity. Qed.
  Lemma vat_rescale : forall l i, vat (map (rescale k t) l) i = rescale k t (vat l i).
  Proof. intros l i. unfold vat. cbn [nnan Num_ef]. rewrite <- rescale_nan at 1. apply map_nth. Qed.
End Places.
Lemma rescale_0 : forall k a, rescale k 0 a = times k a.
Proof. intros k a. unfold rescale. destruct (times k a); try reflexivity. cbn [ef_add]. f_equal. ring. Qed.
Lemma rescale_affine : forall k t a, k <> 0 -> finnan a -> rescale k t a = affine k t a.
Proof. intros k t a Hk F. rewrite rescale_cases by exact Hk. destruct a; cbn in F; try contradiction; reflexivity. Qed.

Lemma rate_is : (refresh_rate : ef) = Fin (1 / 10).
Proof. unfold refresh_rate, ndec. cbn [ndiv nofZ Num_ef ef_div]. destruct (Req_EM_T 10 0); [lra|reflexivity]. Qed.
Lemma rest_is : nsub none_ (refresh_rate : ef) = Fin (9 / 10).
Proof. rewrite rate_is. unfold none_. cbn [nsub nofZ Num_ef]. unfold ef_sub. cbn [ef_neg ef_add]. f_equal. lra. Qed.
Lemma refresh_rescale : forall k t q p, k <> 0 -> refresh (map (rescale k t) q) (map (rescale k t) p) = map (rescale k t) (refresh q p).
Proof.
  intros k t q p Hk. unfold refresh, vmap2. rewrite combine_map2, !map_map. apply map_ext. intros [a b]. cbn [fst snd]. rewrite rest_is, rate_is.
  cbn [nadd nmul Num_ef]. rewrite !(ef_mul_comm2 _ (Fin (9 / 10))), !(ef_mul_comm2 _ (Fin (1 / 10))). fold (times (9 / 10) (rescale k t a)).
  fold (times (1 / 10) (rescale k t b)) (times (9 / 10) a) (times (1 / 10) b). rewrite !times_pos by lra. rewrite !rescale_cases by exact Hk.
  destruct a, b; cbn [ef_add]; destruct (Rlt_dec 0 k); cbn [ef_add]; try reflexivity. all: f_equal; field.
Qed.
Lemma refresh_sc : forall k u u' v v', k <> 0 -> vsc k u u' -> vsc k v v' -> vsc k (refresh u v) (refresh u' v').
Proof.
  intros k u u' v v' Hk U V. unfold refresh. apply (vsc_vmap2 k k); [exact U|exact V|]. intros a a' b b' A B.
  apply sc_add; [exact Hk| |]; apply sc_mul_l; assumption.
Qed.
Lemma clip_sc : forall l u u', 0 < l -> vsc l u u' -> vsc l (clip0 u) (clip0 u').
Proof.
  intros l u u' Hl U. unfold clip0. apply (vsc_map l); [exact U|]. intros a a' ->. unfold sc. rewrite <- times_max by exact Hl. f_equal.
  unfold nzero, none_. cbn [nmul nofZ Num_ef ef_mul]. unfold times. cbn [ef_mul]. f_equal. ring.
Qed.
Lemma inv_sc : forall l u u', 0 < l -> sc (1 / (l * l)) u u' -> sc l (inv_sqrt_pos u) (inv_sqrt_pos u').
Proof.
  intros l u u' Hl U. assert (P : 0 < 1 / l) by (apply Rdiv_lt_0_compat; lra). unfold inv_sqrt_pos. eapply sc_as.
  - eapply (sc_div 1 (1 / l)); [lra|exact P|apply sc_same|]. apply sqrt_sc; [exact P|]. eapply sc_as with (j := 1 / (l * l)); [|field; lra].
    unfold sc in U |- *. subst u'. rewrite <- times_max by (apply Rdiv_lt_0_compat; [lra|apply Rmult_lt_0_compat; exact Hl]). f_equal. symmetry. apply times_0.
  - field. lra.
Qed.

Section Pass.
  Variables (k t : R) (x x' : arr3 ef) (cids : list nat) (C : nat).
  Hypothesis Hk : k <> 0.
  Hypothesis HX : transformed (rescale k t) x x'.
  Notation L := (Rabs k).
  Let HL : 0 < L := abs_pos k Hk.
  Let HLn : L <> 0 := Rgt_not_eq _ _ HL.
  Let LL : 0 < L * L := Rmult_lt_0_compat _ _ HL HL.
  Let LLn : L * L <> 0 := Rgt_not_eq _ _ LL.
  Let KK : k * k = L * L := sq_abs k.
  Let LI : 1 / (L * L) <> 0.
  Proof. apply Rgt_not_eq. apply Rdiv_lt_0_compat; [lra|exact LL]. Qed.
  Let LJ : 0 < 1 / (L * L) := Rdiv_lt_0_compat _ _ Rlt_0_1 LL.
  Notation Q := (map (rescale k t)).

  Lemma minus_q_sc : forall q (f g : nat -> nat -> nat -> ef -> ef) l,
    (forall e s r a a', sc k a a' -> sc l (f e s r a) (g e s r a')) ->
    asc l (map3 (fun e s r y => f e s r (nsub y (vat q e))) x) (map3 (fun e s r y => g e s r (nsub y (vat (Q q) e))) x').
  Proof.
    intros q f g l H. destruct HX as (DE & DS & DR & A). repeat split; try assumption. intros e s r I. cbn [map3 at3]. apply H. rewrite A by exact I.
    rewrite (vat_rescale k t Hk). apply rescale_sub. exact Hk.
  Qed.
  Lemma residual_sc : forall q b b', vsc k b b' -> asc k (residual x q b) (residual x' (Q q) b').
  Proof.
    intros q b b' HB. unfold residual. apply (minus_q_sc q (fun e s r y => nsub y (vat b s)) (fun e s r y => nsub y (vat b' s))).
    intros e s r a a' H. apply sc_sub; [exact Hk|exact H|]. apply vsc_vat. exact HB.
  Qed.
  Lemma one_sc : asc 1 (one_or_nan x) (one_or_nan x').
  Proof.
    destruct HX as (DE & DS & DR & A). repeat split; try assumption. intros e s r I. cbn [one_or_nan map3 at3]. rewrite A by exact I.
    cbn [nisnan Num_ef]. rewrite (rescale_isnan k t Hk). destruct (at3 x e s r); cbn [ef_isnan]; try apply sc_same.
  Qed.
  Lemma amb_sc : forall a a', vsc L a a' -> vsc L (amb_of a cids) (amb_of a' cids).
  Proof. intros a a' H. unfold amb_of, vsc. rewrite map_map. apply map_ext. intro c. apply (vsc_vat _ _ _ c H). Qed.
  Lemma w_sc : forall v v' ae ae' e s, vsc L v v' -> vsc L ae ae' -> sc (L * L) (w_es v ae e s) (w_es v' ae' e s).
  Proof. intros v v' ae ae' e s HV HA. unfold w_es. apply sc_add; [exact LLn| |]; apply sc_sq; try exact HLn; apply vsc_vat; assumption. Qed.

  Lemma b_simp_sc : forall q b b' v v' a a', vsc L v v' -> vsc L a a' ->
    vsc k (fst (b_simplified x cids q b v a)) (fst (b_simplified x' cids (Q q) b' v' a')) /\
    vsc (1 / (L * L)) (snd (b_simplified x cids q b v a)) (snd (b_simplified x' cids (Q q) b' v' a')).
  Proof.
    intros q b b' v v' a a' HV HA. unfold b_simplified. cbv zeta. cbn [fst snd].
    match goal with |- vsc _ (vmap2 _ ?n ?d) (vmap2 _ ?n' ?d') /\ _ =>
      assert (N : vsc (k / (L * L)) n n'); [|assert (D : vsc (1 / (L * L)) d d'); [|split; [|exact D]]] end.
    - apply sum_e_sc; [apply Rmult_ne; [exact Hk|apply Rinv_neq_0_compat; exact LLn]|].
      apply (minus_q_sc q (fun e s r y => ndiv y (w_es v (amb_of a cids) e s)) (fun e s r y => ndiv y (w_es v' (amb_of a' cids) e s))).
      intros e s r y y' H. apply sc_div; [exact Hk|exact LL|exact H|]. apply w_sc; [exact HV|apply amb_sc; exact HA].
    - apply sum_e_sc; [exact LI|]. apply (asc_map3 1); [exact one_sc|]. intros e s r y y' H. apply sc_div; [lra|exact LL|exact H|]. apply w_sc; [exact HV|apply amb_sc; exact HA].
    - apply (vsc_vmap2 (k / (L * L)) (1 / (L * L))); [exact N|exact D|]. intros y y' z z' Y Z. eapply sc_as; [apply sc_div; [|exact LJ|exact Y|exact Z]|].
      + apply Rmult_ne; [exact Hk|apply Rinv_neq_0_compat; exact LLn].
      + field. exact HLn.
  Qed.
  Lemma b_orig_sc : forall q b b' v v' a a', vsc k b b' -> vsc L v v' -> vsc L a a' ->
    vsc k (fst (b_original x cids q b v a)) (fst (b_original x' cids (Q q) b' v' a')) /\
    vsc (1 / (L * L)) (snd (b_original x cids q b v a)) (snd (b_original x' cids (Q q) b' v' a')).
  Proof.
    intros q b b' v v' a a' HB HV HA. unfold b_original. cbv zeta. cbn [fst snd].
    match goal with |- vsc _ (vmap2 _ _ (vmap2 _ ?n ?d)) (vmap2 _ _ (vmap2 _ ?n' ?d')) /\ _ =>
      assert (N : vsc (k / (L * L)) n n'); [|assert (D : vsc (1 / (L * L)) d d'); [|split]] end.
    - apply sum_e_sc; [apply Rmult_ne; [exact Hk|apply Rinv_neq_0_compat; exact LLn]|].
      apply (minus_q_sc q (fun e s r y => ndiv (nsub y (vat b s)) (w_es v (amb_of a cids) e s)) (fun e s r y => ndiv (nsub y (vat b' s)) (w_es v' (amb_of a' cids) e s))).
      intros e s r y y' H. apply sc_div; [exact Hk|exact LL| |apply w_sc; [exact HV|apply amb_sc; exact HA]]. apply sc_sub; [exact Hk|exact H|apply vsc_vat; exact HB].
    - apply sum_e_sc; [exact LI|]. apply (asc_map3 1); [exact one_sc|]. intros e s r y y' H. apply sc_div; [lra|exact LL| |].
      + apply sc_neg; [lra|exact H].
      + apply w_sc; [exact HV|apply amb_sc; exact HA].
    - apply (vsc_vmap2 k k); [exact HB| |intros; apply sc_sub; assumption].
      apply (vsc_vmap2 (k / (L * L)) (1 / (L * L))); [exact N|exact D|]. intros y y' z z' Y Z. eapply sc_as; [apply sc_div; [|exact LJ|exact Y|exact Z]|].
      + apply Rmult_ne; [exact Hk|apply Rinv_neq_0_compat; exact LLn].
      + field. exact HLn.
    - apply (vsc_map (1 / (L * L))); [exact D|]. intros. apply sc_neg; assumption.
  Qed.

  Ltac ne := repeat first [exact Hk | exact HLn | exact LLn | apply Rmult_ne | lra].
  (** The derivatives in the inconsistencies and the ambiguities. *)
  Lemma v1_sc : forall v v' ae ae' e s y y', vsc L v v' -> vsc L ae ae' -> sc k y y' -> sc (1 / L) (v_term1 v ae e s y) (v_term1 v' ae' e s y').
  Proof.
    intros v v' ae ae' e s y y' HV HA HY. unfold v_term1. assert (W := w_sc v v' ae ae' e s HV HA). assert (V := vsc_vat _ _ _ s HV).
    apply sc_add; [apply Rgt_not_eq; apply Rdiv_lt_0_compat; lra| |].
    - eapply sc_as; [apply sc_div; [|exact LL|apply sc_neg; [|exact V]|exact W]|]; ne. field. exact HLn.
    - eapply sc_as; [apply sc_div; [| |apply sc_mul; [| |exact V|apply sc_sq; [|exact HY]]|apply sc_sq; [|exact W]]|]; ne.
      + apply Rmult_lt_0_compat; exact LL.
      + rewrite KK. field. exact HLn.
  Qed.
  Lemma v2_sc : forall v v' ae ae' e s y y', vsc L v v' -> vsc L ae ae' -> sc k y y' -> sc (1 / (L * L)) (v_term2 v ae e s y) (v_term2 v' ae' e s y').
  Proof.
    intros v v' ae ae' e s y y' HV HA HY. unfold v_term2. cbv zeta. assert (W := w_sc v v' ae ae' e s HV HA). assert (V := vsc_vat _ _ _ s HV). assert (A := vsc_vat _ _ _ e HA).
    apply sc_add; [exact LI| |].
    - eapply sc_as; [apply sc_div; [| |apply sc_sub; [|apply sc_sq; [|exact V]|apply sc_sq; [|exact A]]|apply sc_sq; [|exact W]]|]; ne.
      + apply Rmult_lt_0_compat; exact LL.
      + field. exact HLn.
    - eapply sc_as; [apply (sc_div (k * k * (L * L * (L * L))) (L * L * (L * L) * (L * L * (L * L))))|].
      + ne.
      + repeat apply Rmult_lt_0_compat; exact HL.
      + apply sc_mul; [ne|ne|apply sc_sq; [ne|exact HY]|]. apply sc_sub; [ne| |].
        * apply sc_sub; [ne| |]; [apply sc_pow4; [ne|exact A]|]. apply sc_mul_r; [ne|]. apply sc_pow4; [ne|exact V].
        * apply sc_mul; [ne|ne| |apply sc_sq; [ne|exact A]]. apply sc_mul_r; [ne|]. apply sc_sq; [ne|exact V].
      + apply sc_pow4; [ne|exact W].
      + rewrite KK. field. exact HLn.
  Qed.
  Lemma a1_sc : forall v v' ae ae' e s y y', vsc L v v' -> vsc L ae ae' -> sc k y y' -> sc (1 / L) (a_term1 v ae e s y) (a_term1 v' ae' e s y').
  Proof.
    intros v v' ae ae' e s y y' HV HA HY. unfold a_term1. assert (W := w_sc v v' ae ae' e s HV HA). assert (V := vsc_vat _ _ _ e HA).
    apply sc_add; [apply Rgt_not_eq; apply Rdiv_lt_0_compat; lra| |].
    - eapply sc_as; [apply sc_div; [|exact LL|apply sc_neg; [|exact V]|exact W]|]; ne. field. exact HLn.
    - eapply sc_as; [apply sc_div; [| |apply sc_mul; [| |exact V|apply sc_sq; [|exact HY]]|apply sc_sq; [|exact W]]|]; ne.
      + apply Rmult_lt_0_compat; exact LL.
      + rewrite KK. field. exact HLn.
  Qed.
  Lemma a2_sc : forall v v' ae ae' e s y y', vsc L v v' -> vsc L ae ae' -> sc k y y' -> sc (1 / (L * L)) (a_term2 v ae e s y) (a_term2 v' ae' e s y').
  Proof.
    intros v v' ae ae' e s y y' HV HA HY. unfold a_term2. cbv zeta. assert (W := w_sc v v' ae ae' e s HV HA). assert (V := vsc_vat _ _ _ s HV). assert (A := vsc_vat _ _ _ e HA).
    apply sc_add; [exact LI| |].
    - eapply sc_as; [apply sc_div; [| |apply sc_neg; [|apply sc_sub; [|apply sc_sq; [|exact V]|apply sc_sq; [|exact A]]]|apply sc_sq; [|exact W]]|]; ne.
      + apply Rmult_lt_0_compat; exact LL.
      + field. exact HLn.
    - eapply sc_as; [apply (sc_div (k * k * (L * L * (L * L))) (L * L * (L * L) * (L * L * (L * L))))|].
      + ne.
      + repeat apply Rmult_lt_0_compat; exact HL.
      + apply sc_mul; [ne|ne|apply sc_sq; [ne|exact HY]|]. apply sc_sub; [ne| |].
        * apply sc_sub; [ne| |]; [apply sc_pow4; [ne|exact V]|]. apply sc_mul_r; [ne|]. apply sc_pow4; [ne|exact A].
        * apply sc_mul; [ne|ne| |apply sc_sq; [ne|exact A]]. apply sc_mul_r; [ne|]. apply sc_sq; [ne|exact V].
      + apply sc_pow4; [ne|exact W].
      + rewrite KK. field. exact HLn.
  Qed.
  Let LK : 1 / L <> 0.
  Proof. apply Rgt_not_eq. apply Rdiv_lt_0_compat; lra. Qed.
  Lemma newton_L : forall p p' n n' d d', vsc L p p' -> vsc (1 / L) n n' -> vsc (1 / (L * L)) d d' -> vsc L (vmap2 nsub p (vmap2 ndiv n d)) (vmap2 nsub p' (vmap2 ndiv n' d')).
  Proof.
    intros p p' n n' d d' P N D. apply (vsc_vmap2 L L); [exact P| |intros; apply sc_sub; assumption].
    apply (vsc_vmap2 (1 / L) (1 / (L * L))); [exact N|exact D|]. intros y y' z z' Y Z. eapply sc_as; [apply sc_div; [exact LK|exact LJ|exact Y|exact Z]|]. field. exact HLn.
  Qed.
  Lemma neg_L : forall d d', vsc (1 / (L * L)) d d' -> vsc (1 / (L * L)) (map nneg d) (map nneg d').
  Proof. intros d d' D. apply (vsc_map (1 / (L * L))); [exact D|]. intros. apply sc_neg; assumption. Qed.

  Lemma v_sc : forall q b b' v v' a a', vsc k b b' -> vsc L v v' -> vsc L a a' ->
    vsc L (fst (v_simplified x cids q b v a)) (fst (v_simplified x' cids (Q q) b' v' a')) /\
    vsc (1 / (L * L)) (snd (v_simplified x cids q b v a)) (snd (v_simplified x' cids (Q q) b' v' a')).
  Proof.
    intros q b b' v v' a a' HB HV HA. unfold v_simplified. cbv zeta. cbn [fst snd]. assert (RS := residual_sc q b b' HB).
    assert (D : vsc (1 / (L * L)) (sum_e (map3 (fun e s _ y => v_term2 v (amb_of a cids) e s y) (residual x q b)))
      (sum_e (map3 (fun e s _ y => v_term2 v' (amb_of a' cids) e s y) (residual x' (Q q) b')))).
    { apply sum_e_sc; [exact LI|]. apply (asc_map3 k); [exact RS|]. intros. apply v2_sc; [exact HV|apply amb_sc; exact HA|assumption]. }
    split; [|apply neg_L; exact D]. apply newton_L; [exact HV| |exact D].
    apply sum_e_sc; [exact LK|]. apply (asc_map3 k); [exact RS|]. intros. apply v1_sc; [exact HV|apply amb_sc; exact HA|assumption].
  Qed.
  Lemma a_sc : forall q b b' v v' a a', vsc k b b' -> vsc L v v' -> vsc L a a' ->
    vsc L (fst (a_simplified x cids C q b v a)) (fst (a_simplified x' cids C (Q q) b' v' a')) /\
    vsc (1 / (L * L)) (snd (a_simplified x cids C q b v a)) (snd (a_simplified x' cids C (Q q) b' v' a')).
  Proof.
    intros q b b' v v' a a' HB HV HA. unfold a_simplified. cbv zeta. cbn [fst snd]. assert (RS := residual_sc q b b' HB).
    assert (D : vsc (1 / (L * L)) (sum_over_cid (sum_s (map3 (fun e s _ y => a_term2 v (amb_of a cids) e s y) (residual x q b))) cids C)
      (sum_over_cid (sum_s (map3 (fun e s _ y => a_term2 v' (amb_of a' cids) e s y) (residual x' (Q q) b'))) cids C)).
    { apply sum_cid_sc; [exact LI|]. apply sum_s_sc; [exact LI|]. apply (asc_map3 k); [exact RS|]. intros. apply a2_sc; [exact HV|apply amb_sc; exact HA|assumption]. }
    split; [|apply neg_L; exact D]. apply newton_L; [exact HA| |exact D].
    apply sum_cid_sc; [exact LK|]. apply sum_s_sc; [exact LK|]. apply (asc_map3 k); [exact RS|]. intros. apply a1_sc; [exact HV|apply amb_sc; exact HA|assumption].
  Qed.

  Lemma step_rescale : forall q n n', vsc k n n' -> vmap2 nsub (Q q) n' = Q (vmap2 nsub q n).
  Proof.
    intros q n n' ->. unfold vmap2. rewrite combine_map2, !map_map. apply map_ext. intros [a b]. cbn [fst snd]. apply rescale_step. exact Hk.
  Qed.
  Lemma x_orig_sc : forall q b b' v v' a a', vsc k b b' -> vsc L v v' -> vsc L a a' ->
    fst (x_original x' cids (Q q) b' v' a') = Q (fst (x_original x cids q b v a)) /\
    vsc (1 / (L * L)) (snd (x_original x cids q b v a)) (snd (x_original x' cids (Q q) b' v' a')).
  Proof.
    intros q b b' v v' a a' HB HV HA. unfold x_original. cbv zeta. cbn [fst snd].
    match goal with |- vmap2 _ _ (vmap2 _ ?n' ?d') = map _ (vmap2 _ _ (vmap2 _ ?n ?d)) /\ _ =>
      assert (N : vsc (k / (L * L)) n n'); [|assert (D : vsc (1 / (L * L)) d d'); [|split]] end.
    - apply sum_s_sc; [apply Rmult_ne; [exact Hk|apply Rinv_neq_0_compat; exact LLn]|].
      apply (asc_map3 k); [apply residual_sc; exact HB|]. intros e s r y y' H. apply sc_div; [exact Hk|exact LL|exact H|]. apply w_sc; [exact HV|apply amb_sc; exact HA].
    - apply sum_s_sc; [exact LI|]. apply (asc_map3 1); [exact one_sc|]. intros e s r y y' H. apply sc_div; [lra|exact LL| |].
      + apply sc_neg; [lra|exact H].
      + apply w_sc; [exact HV|apply amb_sc; exact HA].
    - apply step_rescale. apply (vsc_vmap2 (k / (L * L)) (1 / (L * L))); [exact N|exact D|]. intros y y' z z' Y Z. eapply sc_as; [apply sc_div; [|exact LJ|exact Y|exact Z]|].
      + apply Rmult_ne; [exact Hk|apply Rinv_neq_0_compat; exact LLn].
      + field. exact HLn.
    - apply neg_L. exact D.
  Qed.
  Lemma x_simp_sc0 : t = 0 -> forall q b b' v v' a a', vsc k b b' -> vsc L v v' -> vsc L a a' ->
    fst (x_simplified x' cids (Q q) b' v' a') = Q (fst (x_simplified x cids q b v a)).
  Proof.
    intros Ht q b b' v v' a a' HB HV HA. unfold x_simplified. cbv zeta. cbn [fst].
    match goal with |- vmap2 _ ?n' ?d' = map _ (vmap2 _ ?n ?d) => assert (N : vsc (k / (L * L)) n n'); [|assert (D : vsc (1 / (L * L)) d d')] end.
    - apply sum_s_sc; [apply Rmult_ne; [exact Hk|apply Rinv_neq_0_compat; exact LLn]|].
      destruct HX as (DE & DS & DR & A). repeat split; try assumption. intros e s r I. cbn [map3 at3]. apply sc_div; [exact Hk|exact LL| |].
      + apply sc_sub; [exact Hk| |apply vsc_vat; exact HB]. rewrite A by exact I. rewrite Ht, rescale_0. reflexivity.
      + apply w_sc; [exact HV|apply amb_sc; exact HA].
    - apply sum_s_sc; [exact LI|]. apply (asc_map3 1); [exact one_sc|]. intros e s r y y' H. apply sc_div; [lra|exact LL|exact H|]. apply w_sc; [exact HV|apply amb_sc; exact HA].
    - transitivity (map (times k) (vmap2 ndiv (sum_s (map3 (fun e s _ y => ndiv (nsub y (vat b s)) (w_es v (amb_of a cids) e s)) x))
        (sum_s (map3 (fun e s _ y => ndiv y (w_es v (amb_of a cids) e s)) (one_or_nan x))))).
      + apply (vsc_vmap2 (k / (L * L)) (1 / (L * L))); [exact N|exact D|]. intros y y' z z' Y Z. eapply sc_as; [apply sc_div; [|exact LJ|exact Y|exact Z]|].
        * apply Rmult_ne; [exact Hk|apply Rinv_neq_0_compat; exact LLn].
        * field. exact HLn.
      + apply map_ext. intro y. rewrite Ht, rescale_0. reflexivity.
  Qed.
  Lemma x_simp_std : forall q b b' v v' a a', vsc L v v' -> vsc L a a' ->
    vsc (1 / (L * L)) (snd (x_simplified x cids q b v a)) (snd (x_simplified x' cids (Q q) b' v' a')).
  Proof.
    intros q b b' v v' a a' HV HA. unfold x_simplified. cbv zeta. cbn [snd].
    apply sum_s_sc; [exact LI|]. apply (asc_map3 1); [exact one_sc|]. intros e s r y y' H. apply sc_div; [lra|exact LL|exact H|]. apply w_sc; [exact HV|apply amb_sc; exact HA].
  Qed.
  (** The same votes are present. *)
  Lemma present_iff : forall e s r, inside x e s r -> (exists w, at3 x' e s r = Fin w) <-> (exists w, at3 x e s r = Fin w).
  Proof.
    destruct HX as (_ & _ & _ & A). intros e s r J. rewrite A by exact J. rewrite rescale_cases by exact Hk.
    destruct (at3 x e s r); try (destruct (Rlt_dec 0 k)); split; intros [w H]; try discriminate; eexists; reflexivity.
  Qed.
  Lemma inside_iff : forall e s r, inside x' e s r <-> inside x e s r.
  Proof. destruct HX as (DE & DS & DR & _). intros. unfold inside. rewrite DE, DS, DR. tauto. Qed.
  Lemma same_finite : finite_votes x -> finite_votes x'.
  Proof.
    destruct HX as (_ & _ & _ & A). intros F e s r J. apply inside_iff in J. rewrite A by exact J.
    specialize (F e s r J). rewrite rescale_cases by exact Hk. destruct (at3 x e s r); cbn in *; try contradiction; exact I.
  Qed.
  Lemma rated_back : forall e, rated x' e -> rated x e.
  Proof. intros e (i & r & w & J & E). apply inside_iff in J. destruct (proj1 (present_iff e i r J)) as [w2 E2]; [eauto|]. exists i, r, w2. auto. Qed.
  Lemma voted_back : forall i, voted x' i -> voted x i.
  Proof. intros i (e & r & w & J & E). apply inside_iff in J. destruct (proj1 (present_iff e i r J)) as [w2 E2]; [eauto|]. exists e, r, w2. auto. Qed.
  Definition scaled_params (p : params) : params := Params (fun e => k * pq p e + t) (fun i => k * pb p i) (fun i => L * pv p i) (fun c => L * pa p c).
  Lemma holds_sc : forall p q b v a b' v' a', holds x cids C p q b v a -> vsc k b b' -> vsc L v v' -> vsc L a a' ->
    holds x' cids C (scaled_params p) (Q q) b' v' a'.
  Proof.
    intros p q b v a b' v' a' H HB HV HA. assert (HX2 := HX). destruct HX2 as (DE & DS & DR & _). destruct H as [h1 h2 h3 h4 l1 l2 l3 l4]. constructor; cbn [pq pb pv pa scaled_params].
    - intros e He V. rewrite DE in He. apply rated_back in V. change (nth e (Q q) NaN) with (vat (Q q) e). rewrite vat_rescale by exact Hk. unfold vat. cbn [nnan Num_ef].
      rewrite h1 by assumption. rewrite rescale_cases by exact Hk. reflexivity.
    - intros i Hi V. rewrite DS in Hi. apply voted_back in V. change (nth i b' NaN) with (vat b' i). rewrite (vsc_vat _ _ _ i HB). unfold vat. cbn [nnan Num_ef].
      rewrite h2 by assumption. reflexivity.
    - intros i Hi V. rewrite DS in Hi. apply voted_back in V. change (nth i v' NaN) with (vat v' i). rewrite (vsc_vat _ _ _ i HV). unfold vat. cbn [nnan Num_ef].
      rewrite h3 by assumption. reflexivity.
    - intros c (e & He & Ec & V). rewrite DE in He. apply rated_back in V. change (nth c a' NaN) with (vat a' c). rewrite (vsc_vat _ _ _ c HA). unfold vat. cbn [nnan Num_ef].
      rewrite h4 by (exists e; auto). reflexivity.
    - rewrite map_length, DE. exact l1.
    - rewrite (vsc_len _ _ _ HB), DS. exact l2.
    - rewrite (vsc_len _ _ _ HV), DS. exact l3.
    - rewrite (vsc_len _ _ _ HA). exact l4.
  Qed.
  Lemma regular_sc : forall p, regular x (cid_of cids) p -> regular x' (cid_of cids) (scaled_params p).
  Proof.
    intros p H e i r w J E. apply inside_iff in J. destruct (proj1 (present_iff e i r J)) as [w2 E2]; [eauto|]. specialize (H e i r w2 J E2).
    unfold variance in *. cbn [pv pa scaled_params]. replace (L * pv p i * (L * pv p i) + L * pa p (cid_of cids e) * (L * pa p (cid_of cids e))) with (L * L * (pv p i * pv p i + pa p (cid_of cids e) * pa p (cid_of cids e))) by ring.
    apply Rmult_lt_0_compat; assumption.
  Qed.
  Lemma fits_sc : fits x cids C -> fits x' cids C.
  Proof. destruct HX as (DE & _). intros [H1 H2]. split; [rewrite DE; exact H1|exact H2]. Qed.
  Lemma x_simp_sc : forall q b b' v v' a a', vsc k b b' -> vsc L v v' -> vsc L a a' ->
    (t = 0 \/ finite_votes x /\ fits x cids C /\ exists p, holds x cids C p q b v a /\ regular x (cid_of cids) p) ->
    fst (x_simplified x' cids (Q q) b' v' a') = Q (fst (x_simplified x cids q b v a)).
  Proof.
    intros q b b' v v' a a' HB HV HA [Ht|(F & I & p & H & R)]; [apply x_simp_sc0; assumption|].
    rewrite (x_agree x cids C p q b v a F I H R).
    rewrite (x_agree x' cids C (scaled_params p) (Q q) b' v' a' (same_finite F) (fits_sc I) (holds_sc p q b v a b' v' a' H HB HV HA) (regular_sc p R)).
    apply x_orig_sc; assumption.
  Qed.

  (** A state on the other scale. *)
  Record est_sc (st st' : mlest ef) : Prop := EstSc {
    es_x : sx st' = Q (sx st); es_b : vsc k (sb st) (sb st'); es_v : vsc L (sv st) (sv st'); es_a : vsc L (sa st) (sa st');
    es_xs : vsc L (sx_std st) (sx_std st'); es_bs : vsc L (sb_std st) (sb_std st'); es_vs : vsc L (sv_std st) (sv_std st'); es_as : vsc L (sa_std st) (sa_std st') }.
  Lemma stds_sc : forall d d', vsc (1 / (L * L)) d d' -> vsc L (map inv_sqrt_pos d) (map inv_sqrt_pos d').
  Proof. intros d d' D. apply (vsc_map (1 / (L * L))); [exact D|]. intros u u' U. apply inv_sc; [exact HL|exact U]. Qed.
  Lemma pass_sc : forall mode g pdf q b b' v v' a a' st, g = Simplified \/ g = Original -> vsc k b b' -> vsc L v v' -> vsc L a a' ->
    mle_pass mode g pdf x cids C q b v a = Ok st ->
    (g = Simplified -> t = 0 \/ finite_votes x /\ fits x cids C /\ regular_state x cids C (q, b, v, a) /\ regular_state x cids C (vecs st)) ->
    exists st', mle_pass mode g pdf x' cids C (Q q) b' v' a' = Ok st' /\ est_sc st st'.
  Proof.
    intros mode g pdf q b b' v v' a a' st HG HB HV HA H HR. assert (DS : dS x' = dS x) by apply HX.
    unfold mle_pass in *.
    set (ub := if match g with Original => true | _ => false end then b_original x cids q b v a else b_simplified x cids q b v a).
    set (ub' := if match g with Original => true | _ => false end then b_original x' cids (Q q) b' v' a' else b_simplified x' cids (Q q) b' v' a').
    assert (PB : vsc k (fst ub) (fst ub') /\ vsc (1 / (L * L)) (snd ub) (snd ub')).
    { unfold ub, ub'. destruct HG as [-> | ->]; [apply b_simp_sc|apply b_orig_sc]; assumption. }
    assert (E1 : forall n, pick g (b_simplified x cids q b v a) (b_original x cids q b v a) n = Ok ub) by (intro n; unfold ub; destruct HG as [-> | ->]; reflexivity).
    assert (E2 : forall n, pick g (b_simplified x' cids (Q q) b' v' a') (b_original x' cids (Q q) b' v' a') n = Ok ub') by (intro n; unfold ub'; destruct HG as [-> | ->]; reflexivity).
    rewrite E1 in H. rewrite E2. clear E1 E2. cbn [bind] in *. cbv zeta in *. rewrite DS.
    set (so := match mode with SubjectOblivious => true | _ => false end) in *. set (co := match mode with ContentOblivious => true | _ => false end) in *.
    set (b1 := if so then zeros (dS x) else refresh b (fst ub)) in *. set (b1' := if so then zeros (dS x) else refresh b' (fst ub')) in *.
    assert (B1 : vsc k b1 b1') by (unfold b1, b1'; destruct so; [apply vsc_zeros|apply refresh_sc; [exact Hk|exact HB|apply PB]]).
    assert (E1 : forall n, pick g (v_simplified x cids q b1 v a) (v_original x cids q b1 v a) n = Ok (v_simplified x cids q b1 v a)) by (intro n; destruct HG as [-> | ->]; reflexivity).
    assert (E2 : forall n, pick g (v_simplified x' cids (Q q) b1' v' a') (v_original x' cids (Q q) b1' v' a') n = Ok (v_simplified x' cids (Q q) b1' v' a')) by (intro n; destruct HG as [-> | ->]; reflexivity).
    rewrite E1 in H. rewrite E2. clear E1 E2. cbn [bind] in *.
    destruct (v_sc q b1 b1' v v' a a' B1 HV HA) as [PV1 PV2]. set (uv := v_simplified x cids q b1 v a) in *. set (uv' := v_simplified x' cids (Q q) b1' v' a') in *.
    set (v1 := if so then zeros (dS x) else clip0 (refresh v (fst uv))) in *. set (v1' := if so then zeros (dS x) else clip0 (refresh v' (fst uv'))) in *.
    assert (V1 : vsc L v1 v1') by (unfold v1, v1'; destruct so; [apply vsc_zeros|apply clip_sc; [exact HL|]; apply refresh_sc; assumption]).
    assert (E1 : forall n, pick g (a_simplified x cids C q b1 v1 a) (a_original x cids C q b1 v1 a) n = Ok (a_simplified x cids C q b1 v1 a)) by (intro n; destruct HG as [-> | ->]; reflexivity).
    assert (E2 : forall n, pick g (a_simplified x' cids C (Q q) b1' v1' a') (a_original x' cids C (Q q) b1' v1' a') n = Ok (a_simplified x' cids C (Q q) b1' v1' a')) by (intro n; destruct HG as [-> | ->]; reflexivity).
    rewrite E1 in H. rewrite E2. clear E1 E2. cbn [bind] in *.
    destruct (a_sc q b1 b1' v1 v1' a a' B1 V1 HA) as [PA1 PA2]. set (ua := a_simplified x cids C q b1 v1 a) in *. set (ua' := a_simplified x' cids C (Q q) b1' v1' a') in *.
    set (a1 := if co then zeros C else clip0 (refresh a (fst ua))) in *. set (a1' := if co then zeros C else clip0 (refresh a' (fst ua'))) in *.
    assert (A1 : vsc L a1 a1') by (unfold a1, a1'; destruct co; [apply vsc_zeros|apply clip_sc; [exact HL|]; apply refresh_sc; assumption]).
    set (ux := if match g with Original => true | _ => false end then x_original x cids q b1 v1 a1 else x_simplified x cids q b1 v1 a1).
    set (ux' := if match g with Original => true | _ => false end then x_original x' cids (Q q) b1' v1' a1' else x_simplified x' cids (Q q) b1' v1' a1').
    assert (E1 : forall n, pick g (x_simplified x cids q b1 v1 a1) (x_original x cids q b1 v1 a1) n = Ok ux) by (intro n; unfold ux; destruct HG as [-> | ->]; reflexivity).
    assert (E2 : forall n, pick g (x_simplified x' cids (Q q) b1' v1' a1') (x_original x' cids (Q q) b1' v1' a1') n = Ok ux') by (intro n; unfold ux'; destruct HG as [-> | ->]; reflexivity).
    rewrite E1 in H. rewrite E2. clear E1 E2. cbn [bind] in *. apply Ok_inj in H.
    assert (PX : fst ux' = Q (fst ux) /\ vsc (1 / (L * L)) (snd ux) (snd ux')).
    { unfold ux, ux'. destruct HG as [-> | ->]; [|apply x_orig_sc; assumption]. split; [|apply x_simp_std; assumption]. apply x_simp_sc; try assumption.
      destruct (HR eq_refl) as [Ht|(F & I & (p & HH & _) & (p' & HH' & R'))]; [left; exact Ht|right]. split; [exact F|]. split; [exact I|]. subst st. cbn [vecs sx sb sv sa] in HH'.
      exists (Params (pq p) (pb p') (pv p') (pa p')). split; [|exact R']. clear - HH HH'. destruct HH, HH'; constructor; cbn [pq pb pv pa]; assumption. }
    eexists. split; [reflexivity|]. subst st. constructor; cbn [sx sb sv sa sx_std sb_std sv_std sa_std].
    - destruct PX as [-> _]. apply refresh_rescale. exact Hk.
    - exact B1.
    - exact V1.
    - exact A1.
    - apply stds_sc, PX.
    - destruct so; [apply vsc_zeros|apply stds_sc, PB].
    - destruct so; [apply vsc_zeros|apply stds_sc; exact PV2].
    - destruct co; [apply vsc_zeros|apply stds_sc; exact PA2].
  Qed.

  (** The change of the quality scores. *)
  Lemma moved_sc : forall q b v a st b' v' a' st', est_sc st st' ->
    match moved (q, b, v, a) (vecs st), moved (Q q, b', v', a') (vecs st') with Ok d, Ok d' => sc L d d' | Err e, Err e' => e = e' | _, _ => False end.
  Proof.
    intros q b v a st b' v' a' st' H. unfold moved. cbn [vecs]. apply (norm_sc k); [exact Hk|]. rewrite (es_x _ _ H). unfold vsc. rewrite combine_map2, !map_map.
    apply map_ext. intros [c d]. cbn [fst snd]. apply rescale_sub. exact Hk.
  Qed.
End Pass.
