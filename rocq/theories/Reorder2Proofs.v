(** Proofs about listing videos and subjects in another order for the MLE classes (C139). *)
From Coq Require Import String.
From Coq Require Import List ZArith Bool Arith Lia Permutation.
From Verif Require Import PyBase Num ExtReal NumPy Dataset Preproc Mos AP Mle BaseProofs ExtRealProofs SpecDataset SpecMos
  DatasetProofs ArrayProofs RecordedProofs MosProofs PreprocProofs SpecReorder ReorderProofs SpecReorder2.
Import ListNotations.
Local Open Scope list_scope.

(** ** Related results *)
Definition same_res {A B} (R : A -> B -> Prop) (m : res A) (m' : res B) : Prop :=
  match m, m' with Ok a, Ok a' => R a a' | Err e, Err e' => e = e' | _, _ => False end.
Lemma same_bind : forall A A' B B' (R : A -> A' -> Prop) (S : B -> B' -> Prop) m m' k k', same_res R m m' ->
  (forall a a', R a a' -> same_res S (k a) (k' a')) -> same_res S (bind m k) (bind m' k').
Proof. intros A A' B B' R S [a|e] [a'|e'] k k' H K; cbn in *; try contradiction; [apply K; exact H|exact H]. Qed.

(** ** Vectors *)
Lemma relisted_vmap2 : forall (f : ef -> ef -> ef) n p u u' v v', permutes n p -> relisted n p u u' -> relisted n p v v' -> relisted n p (vmap2 f u v) (vmap2 f u' v').
Proof. intros f n p u u' v v' P H K. unfold vmap2. apply relisted_mapl. apply relisted_combine; assumption. Qed.
Lemma relisted_const : forall A n p (c : A), permutes n p -> relisted n p (repeat c n) (repeat c n).
Proof.
  intros A n p c P. split; [apply repeat_length|]. split; [apply repeat_length|]. intros i Hi.
  rewrite (nth_error_repeat c Hi), (nth_error_repeat c (proj1 P i Hi)). reflexivity.
Qed.
Lemma nansum_perm : forall l l' : list ef, Permutation l l' -> np_nansum l = np_nansum l'.
Proof. intros l l' H. unfold np_nansum. apply np_sum_perm, notnan_perm, H. Qed.
Lemma cnt_perm : forall l l' : list ef, Permutation l l' -> np_cnt l = np_cnt l'.
Proof. intros l l' H. unfold np_cnt. apply Permutation_length, notnan_perm, H. Qed.
Lemma existsb_perm : forall A (f : A -> bool) l l', Permutation l l' -> existsb f l = existsb f l'.
Proof. intros A f l l' H. induction H; cbn [existsb]; try congruence. destruct (f x), (f y); reflexivity. Qed.
Lemma norm_perm : forall l l' : list ef, Permutation l l' -> sp_norm l = sp_norm l'.
Proof.
  intros l l' H. unfold sp_norm. rewrite (existsb_perm _ _ _ _ H). destruct (existsb _ l'); [reflexivity|]. do 2 f_equal. apply np_sum_perm, Permutation_map, H.
Qed.

(** ** Arrays *)
Section Arrays.
  Variables (p q : nat -> nat) (x x' : arr3 ef) (cids cids' : list nat).
  Hypothesis HR : rearranged p q x x'.
  Hypothesis HC : relisted (dE x) p cids cids'.
  Notation vids := (relisted (dE x) p).
  Notation subs := (relisted (dS x) q).
  Let P := re_pp _ _ _ _ HR.
  Let Q := re_pq _ _ _ _ HR.
  Let vv : forall l l' e, vids l l' -> e < dE x -> vat l' e = vat l (p e).
  Proof. intros l l' e H He. apply (relisted_vat _ _ _ _ e H He). apply P, He. Qed.
  Let vs : forall l l' s, subs l l' -> s < dS x -> vat l' s = vat l (q s).
  Proof. intros l l' s H Hs. apply (relisted_vat _ _ _ _ s H Hs). apply Q, Hs. Qed.
  Lemma amb_re : forall a : list ef, vids (amb_of a cids) (amb_of a cids').
  Proof. intro a. unfold amb_of. apply relisted_mapl. exact HC. Qed.
  Lemma w_re : forall v v' a e s, subs v v' -> e < dE x -> s < dS x -> w_es v' (amb_of a cids') e s = w_es v (amb_of a cids) (p e) (q s).
  Proof. intros v v' a e s HV He Hs. unfold w_es. rewrite (vv _ _ e (amb_re a) He), (vs _ _ s HV Hs). reflexivity. Qed.
  Lemma sum_e_re : forall y y', rearranged p q y y' -> dS y = dS x -> subs (sum_e y) (sum_e y').
  Proof. intros y y' H <-. unfold sum_e. apply (re_along0 _ _ _ _ H). exact nansum_perm. Qed.
  Lemma sum_s_re : forall y y', rearranged p q y y' -> dE y = dE x -> vids (sum_s y) (sum_s y').
  Proof. intros y y' H <-. unfold sum_s. apply (re_along1 _ _ _ _ H). exact nansum_perm. Qed.
  Lemma map3_re : forall y y' f g, rearranged p q y y' -> dE y = dE x -> dS y = dS x -> (forall e s r z, e < dE x -> s < dS x -> g e s r z = f (p e) (q s) r z) ->
    rearranged p q (map3 f y) (map3 g y').
  Proof. intros y y' f g H DE DS E. apply re_map3; [exact H|]. intros e s r z (He & Hs & Hr). apply E; lia. Qed.
  Lemma one_re : rearranged p q (one_or_nan x) (one_or_nan x').
  Proof. unfold one_or_nan. apply map3_re; auto. Qed.
  Lemma residual_re : forall l l' b b', vids l l' -> subs b b' -> rearranged p q (residual x l b) (residual x' l' b').
  Proof. intros l l' b b' HL HB. unfold residual. apply map3_re; auto. intros e s r z He Hs. rewrite (vv _ _ e HL He), (vs _ _ s HB Hs). reflexivity. Qed.
  Lemma cid_re : forall l l' C, vids l l' -> sum_over_cid l' cids' C = sum_over_cid l cids C.
  Proof.
    intros l l' C H. unfold sum_over_cid. apply map_ext. intro c. apply np_sum_perm, Permutation_map, perm_filter.
    apply (relisted_perm _ (dE x) p); [exact P|]. apply relisted_combine; assumption.
  Qed.
  Lemma enum_flat : forall B (f : nat -> nat -> list B) l, flat_map (fun u => f (fst u) (snd u)) (enumerate l) = flat_map (fun e => f e (nth e l 0)) (seq 0 (length l)).
  Proof.
    intros B f l. unfold enumerate. assert (G : forall k (j : nat) (g : nat -> nat), (forall i, i < length k -> nth i k 0 = g (j + i)) ->
      flat_map (fun u => f (fst u) (snd u)) (combine (seq j (length k)) k) = flat_map (fun e => f e (g e)) (seq j (length k))).
    { induction k as [|c k IH]; intros j g H; [reflexivity|]. cbn [length seq combine flat_map fst snd]. f_equal.
      - specialize (H 0 ltac:(cbn; lia)). cbn in H. rewrite Nat.add_0_r in H. rewrite H. reflexivity.
      - apply IH. intros i Hi. specialize (H (S i) ltac:(cbn; lia)). cbn [nth] in H. rewrite H. f_equal. lia. }
    apply (G l 0 (fun e => nth e l 0)). reflexivity.
  Qed.
  Lemma std_cid_re : forall y y' C, rearranged p q y y' -> dE y = dE x -> std_over_cid y' cids' C = std_over_cid y cids C.
  Proof.
    intros y y' C H DE. unfold std_over_cid. apply map_ext. intro c. apply nanstd_perm.
    set (f := fun e k => if Nat.eqb k c then flat_map (fun s => map (fun r => at3 y e s r) (seq 0 (dR y))) (seq 0 (dS y)) else []).
    set (f' := fun e k => if Nat.eqb k c then flat_map (fun s => map (fun r => at3 y' e s r) (seq 0 (dR y'))) (seq 0 (dS y')) else []).
    change (Permutation (flat_map (fun u => f' (fst u) (snd u)) (enumerate cids')) (flat_map (fun u => f (fst u) (snd u)) (enumerate cids))).
    rewrite !enum_flat. destruct HC as (L & L' & E). rewrite L, L'.
    rewrite <- (flat_map_relist _ (fun e => f e (nth e cids 0)) _ p P). apply flat_map_perm_ext. intros e He. apply in_seq in He.
    assert (N : nth e cids' 0 = nth (p e) cids 0). { apply nth_error_nth. rewrite E by lia. apply nth_error_nth'. rewrite L. apply P. lia. }
    rewrite N. unfold f, f'. destruct (Nat.eqb _ c); [|constructor]. destruct H as (_ & DS & DR & _ & QQ & AT). rewrite DS, DR.
    rewrite <- (flat_map_relist _ (fun s => map (fun r => at3 y (p e) s r) (seq 0 (dR y))) _ q QQ). apply flat_map_perm_ext. intros s Hs. apply in_seq in Hs.
    rewrite (map_ext_in _ (fun r => at3 y (p e) (q s) r)); [reflexivity|]. intros r Hr. apply in_seq in Hr. apply AT. unfold inside. lia.
  Qed.

  (** ** Likelihood and updates *)
  Definition vrel (l l' : list ef * list ef) : Prop := vids (fst l) (fst l') /\ vids (snd l) (snd l').
  Definition srel (l l' : list ef * list ef) : Prop := subs (fst l) (fst l') /\ subs (snd l) (snd l').
  Lemma logpdf_re : forall pdf l l' b b' v v' a, vids l l' -> subs b b' -> subs v v' ->
    same_res (fun y y' => rearranged p q y y' /\ dE y = dE x /\ dS y = dS x) (logpdf pdf x l b v a cids) (logpdf pdf x' l' b' v' a cids').
  Proof.
    intros pdf l l' b b' v v' a HL HB HV. unfold logpdf. cbv zeta. destruct pdf; cbn [same_res].
    - split; [|split; reflexivity]. apply map3_re; auto. intros e s r z He Hs. rewrite (vv _ _ e HL He), (vs _ _ s HB Hs), (w_re v v' a e s HV He Hs). reflexivity.
    - rewrite (re_dR _ _ _ _ HR). destruct (Nat.eqb _ _); reflexivity.
    - split; [|split; reflexivity]. apply map3_re; auto. intros e s r z He Hs. rewrite (vv _ _ e HL He), (vs _ _ s HB Hs), (vs _ _ s HV Hs), (vv _ _ e (amb_re a) He). reflexivity.
    - reflexivity.
  Qed.
  Lemma ll_e_re : forall pdf l l' b b' v v' a, vids l l' -> subs b b' -> subs v v' -> same_res subs (ll_e pdf x l b v a cids) (ll_e pdf x' l' b' v' a cids').
  Proof.
    intros. unfold ll_e. eapply same_bind; [apply logpdf_re; eassumption|]. intros y y' (Y & DE & DS). cbn [same_res]. apply sum_e_re; assumption.
  Qed.
  Lemma ll_s_re : forall pdf l l' b b' v v' a, vids l l' -> subs b b' -> subs v v' -> same_res vids (ll_s pdf x l b v a cids) (ll_s pdf x' l' b' v' a cids').
  Proof.
    intros. unfold ll_s. eapply same_bind; [apply logpdf_re; eassumption|]. intros y y' (Y & DE & DS). cbn [same_res]. apply sum_s_re; assumption.
  Qed.
  (** The numerical derivatives, for any relation kept by the two maps used. *)
  Lemma numerical_re : forall (R S : list ef -> list ef -> Prop) (f f' : list ef -> res (list ef)) u u',
    (forall g l l', R l l' -> R (map g l) (map g l')) -> (forall g l l', S l l' -> S (map g l) (map g l')) -> (forall g l l' k k', S l l' -> S k k' -> S (vmap2 g l k) (vmap2 g l' k')) ->
    (forall l l', R l l' -> same_res S (f l) (f' l')) -> R u u' ->
    same_res (fun d d' => S (fst d) (fst d') /\ S (snd d) (snd d')) (numerical f u) (numerical f' u').
  Proof.
    intros R S f f' u u' M MS V F H. unfold numerical, vshift, vshift_down.
    eapply same_bind; [apply F, M, H|]. intros f1 f1' H1. eapply same_bind; [apply F, M, H|]. intros f2 f2' H2.
    eapply same_bind; [apply F, M, H|]. intros g1 g1' H3. eapply same_bind; [apply F, H|]. intros g0 g0' H4.
    eapply same_bind; [apply F, M, H|]. intros g2 g2' H5. cbn [same_res fst snd]. split; apply MS; repeat apply V; assumption.
  Qed.
  Let sm : forall (g : ef -> ef) (l l' : list ef), subs l l' -> subs (map g l) (map g l'). Proof. intros. apply relisted_mapl. assumption. Qed.
  Let vm : forall (g : ef -> ef) (l l' : list ef), vids l l' -> vids (map g l) (map g l'). Proof. intros. apply relisted_mapl. assumption. Qed.
  Let s2 : forall (g : ef -> ef -> ef) (l l' k k' : list ef), subs l l' -> subs k k' -> subs (vmap2 g l k) (vmap2 g l' k'). Proof. intros. apply relisted_vmap2; assumption. Qed.
  Let v2 : forall (g : ef -> ef -> ef) (l l' k k' : list ef), vids l l' -> vids k k' -> vids (vmap2 g l k) (vmap2 g l' k'). Proof. intros. apply relisted_vmap2; assumption. Qed.

  Section Update.
    Variables (l l' b b' v v' : list ef) (a : list ef).
    Hypothesis HL : vids l l'.
    Hypothesis HB : subs b b'.
    Hypothesis HV : subs v v'.
    Ltac cells := intros e s r z He Hs; unfold v_term1, v_term2, a_term1, a_term2; cbv zeta;
      repeat first [rewrite (w_re v v' a e s HV He Hs)|rewrite (vv _ _ e HL He)|rewrite (vs _ _ s HB Hs)|rewrite (vs _ _ s HV Hs)|rewrite (vv _ _ e (amb_re a) He)]; reflexivity.
    Lemma b_s_re : srel (b_simplified x cids l b v a) (b_simplified x' cids' l' b' v' a).
    Proof. unfold srel, b_simplified. cbn [fst snd]. split; [apply s2|]; apply sum_e_re; try reflexivity; apply map3_re; auto using one_re; cells. Qed.
    Lemma b_o_re : srel (b_original x cids l b v a) (b_original x' cids' l' b' v' a).
    Proof. unfold srel, b_original. cbn [fst snd]. split; [apply s2; [exact HB|apply s2]|apply sm]; apply sum_e_re; try reflexivity; apply map3_re; auto using one_re; cells. Qed.
    Lemma v_s_re : srel (v_simplified x cids l b v a) (v_simplified x' cids' l' b' v' a).
    Proof. unfold srel, v_simplified. cbn [fst snd]. split; [apply s2; [exact HV|apply s2]|apply sm]; apply sum_e_re; try reflexivity; apply map3_re; auto using residual_re; cells. Qed.
    Lemma v_o_re : srel (v_original x cids l b v a) (v_original x' cids' l' b' v' a).
    Proof. unfold srel, v_original. cbn [fst snd]. split; [apply s2; [exact HV|apply s2]|apply sm]; apply sum_e_re; try reflexivity; apply map3_re; auto using residual_re; cells. Qed.
    Lemma x_s_re : vrel (x_simplified x cids l b v a) (x_simplified x' cids' l' b' v' a).
    Proof. unfold vrel, x_simplified. cbn [fst snd]. split; [apply v2|]; apply sum_s_re; try reflexivity; apply map3_re; auto using one_re; cells. Qed.
    Lemma x_o_re : vrel (x_original x cids l b v a) (x_original x' cids' l' b' v' a).
    Proof. unfold vrel, x_original. cbn [fst snd]. split; [apply v2; [exact HL|apply v2]|apply vm]; apply sum_s_re; try reflexivity; apply map3_re; auto using one_re, residual_re; cells. Qed.
    Lemma a1_re : forall C, sum_over_cid (sum_s (map3 (fun e s r y => a_term1 v' (amb_of a cids') e s y) (residual x' l' b'))) cids' C =
                            sum_over_cid (sum_s (map3 (fun e s r y => a_term1 v (amb_of a cids) e s y) (residual x l b))) cids C.
    Proof. intro C. apply cid_re. apply sum_s_re; try reflexivity. apply map3_re; auto using residual_re; cells. Qed.
    Lemma a2_re : forall C, sum_over_cid (sum_s (map3 (fun e s r y => a_term2 v' (amb_of a cids') e s y) (residual x' l' b'))) cids' C =
                            sum_over_cid (sum_s (map3 (fun e s r y => a_term2 v (amb_of a cids) e s y) (residual x l b))) cids C.
    Proof. intro C. apply cid_re. apply sum_s_re; try reflexivity. apply map3_re; auto using residual_re; cells. Qed.
    Lemma a_s_re : forall C, a_simplified x' cids' C l' b' v' a = a_simplified x cids C l b v a.
    Proof. intro C. unfold a_simplified. cbv zeta. rewrite a1_re, a2_re. reflexivity. Qed.
    Lemma a_o_re : forall C, a_original x' cids' C l' b' v' a = a_original x cids C l b v a.
    Proof. intro C. unfold a_original. cbv zeta. rewrite a1_re, a2_re. reflexivity. Qed.
    Lemma b_n_re : forall pdf, same_res srel (b_numerical pdf x cids l b v a) (b_numerical pdf x' cids' l' b' v' a).
    Proof.
      intro pdf. unfold b_numerical. eapply same_bind.
      - apply (numerical_re subs subs); auto. intros k k' K. apply ll_e_re; assumption.
      - intros d d' (D1 & D2). cbn [same_res]. unfold srel, newton. cbn [fst snd]. auto.
    Qed.
    Lemma v_n_re : forall pdf, same_res srel (v_numerical pdf x cids l b v a) (v_numerical pdf x' cids' l' b' v' a).
    Proof.
      intro pdf. unfold v_numerical. eapply same_bind.
      - apply (numerical_re subs subs); auto. intros k k' K. apply ll_e_re; assumption.
      - intros d d' (D1 & D2). cbn [same_res]. unfold srel, newton. cbn [fst snd]. auto.
    Qed.
    Lemma x_n_re : forall pdf, same_res vrel (x_numerical pdf x cids l b v a) (x_numerical pdf x' cids' l' b' v' a).
    Proof.
      intro pdf. unfold x_numerical. eapply same_bind.
      - apply (numerical_re vids vids); auto. intros k k' K. apply ll_s_re; assumption.
      - intros d d' (D1 & D2). cbn [same_res]. unfold vrel, newton. cbn [fst snd]. auto.
    Qed.
    Lemma a_n_re : forall pdf C, same_res (fun u u' => u' = u) (a_numerical pdf x cids C l b v a) (a_numerical pdf x' cids' C l' b' v' a).
    Proof.
      intros pdf C. unfold a_numerical. eapply same_bind.
      - apply (numerical_re (fun u u' => u' = u) vids); auto. { intros g k k' ->. reflexivity. } intros k k' ->. apply ll_s_re; assumption.
      - intros d d' (D1 & D2). cbn [same_res]. rewrite (cid_re _ _ C D1), (cid_re _ _ C D2). reflexivity.
    Qed.
  End Update.

  (** ** Pass and loop *)
  Definition state_rel (st st' : mlest ef) : Prop :=
    vids (sx st) (sx st') /\ subs (sb st) (sb st') /\ subs (sv st) (sv st') /\ sa st' = sa st /\
    vids (sx_std st) (sx_std st') /\ subs (sb_std st) (sb_std st') /\ subs (sv_std st) (sv_std st') /\ sa_std st' = sa_std st.
  Lemma pick_re : forall A (R : A -> A -> Prop) g s s' o o' n n', R s s' -> R o o' -> same_res R n n' -> same_res R (pick g s o n) (pick g s' o' n').
  Proof. intros A R [] s s' o o' n n' HS HO HN; cbn [pick same_res]; auto. Qed.
  Lemma pass_re : forall mode g pdf C l l' b b' v v' a, vids l l' -> subs b b' -> subs v v' ->
    same_res state_rel (mle_pass mode g pdf x cids C l b v a) (mle_pass mode g pdf x' cids' C l' b' v' a).
  Proof.
    intros mode g pdf C l l' b b' v v' a HL HB HV. unfold mle_pass. rewrite (re_dS _ _ _ _ HR).
    eapply same_bind; [apply (pick_re _ srel); [apply b_s_re|apply b_o_re|apply b_n_re]; assumption|]. intros pb pb' (B1 & B2). cbv zeta.
    assert (Z : subs (zeros (dS x)) (zeros (dS x))) by (apply relisted_const; exact Q).
    set (so := match mode with SubjectOblivious => true | _ => false end).
    assert (NB : subs (if so then zeros (dS x) else refresh b (fst pb)) (if so then zeros (dS x) else refresh b' (fst pb'))) by (destruct so; [exact Z|apply s2; assumption]).
    assert (NBS : subs (if so then zeros (dS x) else map inv_sqrt_pos (snd pb)) (if so then zeros (dS x) else map inv_sqrt_pos (snd pb'))) by (destruct so; [exact Z|apply sm; assumption]).
    eapply same_bind; [apply (pick_re _ srel); [apply v_s_re|apply v_o_re|apply v_n_re]; assumption|]. intros pv pv' (V1 & V2).
    assert (NV : subs (if so then zeros (dS x) else clip0 (refresh v (fst pv))) (if so then zeros (dS x) else clip0 (refresh v' (fst pv')))) by (destruct so; [exact Z|apply sm, s2; assumption]).
    assert (NVS : subs (if so then zeros (dS x) else map inv_sqrt_pos (snd pv)) (if so then zeros (dS x) else map inv_sqrt_pos (snd pv'))) by (destruct so; [exact Z|apply sm; assumption]).
    eapply same_bind; [apply (pick_re _ (fun u u' => u' = u)); [apply a_s_re|apply a_o_re|apply a_n_re]; assumption|]. intros pa pa' ->.
    eapply same_bind; [apply (pick_re _ vrel); [apply x_s_re|apply x_o_re|apply x_n_re]; assumption|]. intros px px' (X1 & X2).
    cbn [same_res]. unfold state_rel. cbn [sx sb sv sa sx_std sb_std sv_std sa_std]. repeat (split; [first [assumption|reflexivity|apply v2; assumption|apply vm; assumption]|]). reflexivity.
  Qed.
  Lemma loop_re : forall fuel itr mode g pdf thr C l l' b b' v v' a, vids l l' -> subs b b' -> subs v v' ->
    same_res (fun u u' => state_rel (fst u) (fst u') /\ snd u' = snd u) (mle_loop fuel itr mode g pdf thr x cids C l b v a) (mle_loop fuel itr mode g pdf thr x' cids' C l' b' v' a).
  Proof.
    induction fuel as [|f IH]; intros itr mode g pdf thr C l l' b b' v v' a HL HB HV; [reflexivity|]. cbn [mle_loop].
    eapply same_bind; [apply pass_re; assumption|]. intros st st' HS. cbv zeta. assert (HS' := HS). destruct HS' as (X & B & V & A & _). 
    assert (NM : sp_norm (vmap2 nsub l' (sx st')) = sp_norm (vmap2 nsub l (sx st))) by (apply norm_perm, (relisted_perm _ (dE x) p); [exact P|apply v2; assumption]).
    rewrite NM. destruct (sp_norm (vmap2 nsub l (sx st))) as [d|e]; [|reflexivity]. cbn [bind]. rewrite A.
    eapply same_bind; [apply ll_s_re; eassumption|]. intros _ _ _. destruct (nltb d thr); [cbn; auto|]. destruct (Nat.leb _ _); [cbn; auto|]. apply IH; assumption.
  Qed.
End Arrays.

(** ** The whole solver *)
Lemma fold_left_unit : forall A (f : A -> res unit) l, foldM (fun _ a => f a) l tt = Ok tt <-> forall a, In a l -> f a = Ok tt.
Proof.
  intros A f l. split.
  - induction l as [|a l IH]; intros H b Hb; [contradiction|]. cbn [foldM] in H. destruct (f a) as [[]|] eqn:E; [|discriminate]. cbn [bind] in H. destruct Hb as [<-|Hb]; auto.
  - induction l as [|a l IH]; intro H; [reflexivity|]. cbn [foldM]. rewrite (H a) by (left; reflexivity). cbn [bind]. apply IH. intros. apply H. right. assumption.
Qed.
Lemma unit_ok : forall (m : res unit) u, m = Ok u -> m = Ok tt. Proof. intros m []. auto. Qed.

Section Solve.
  Variable chi2_ppf : ef -> ef -> ef.
  Variables (p q : nat -> nat) (x x' x0 x0' : arr3 ef) (cids cids' : list nat) (mos mos' : list ef).
  Hypothesis HR : rearranged p q x x'.
  Hypothesis H0 : rearranged p q x0 x0'.
  Hypothesis HC : relisted (dE x) p cids cids'.
  Hypothesis HM : relisted (dE x) p mos mos'.
  Let P := re_pp _ _ _ _ HR.
  Let Q := re_pq _ _ _ _ HR.
  Lemma solve_re : forall mode o C, same_res (mle_reordered p q (dE x) (dS x)) (mle_solve chi2_ppf mode o x x0 mos cids C) (mle_solve chi2_ppf mode o x' x0' mos' cids' C).
  Proof.
    intros mode o C. unfold mle_solve, mle_start. cbv zeta. rewrite (re_dS _ _ _ _ HR), (re_dE _ _ _ _ H0), (re_dS _ _ _ _ H0), (re_dR _ _ _ _ H0).
    assert (HQ : rearranged p q (minus_quality x mos) (minus_quality x' mos')).
    { unfold minus_quality. apply re_map3; [exact HR|]. intros e s r z (He & Hs & Hr). rewrite (relisted_vat _ _ _ _ e HM He (proj1 P e He)). reflexivity. }
    rewrite (std_cid_re p q x x' cids cids' HR HC _ _ C HQ eq_refl).
    assert (Z : relisted (dS x) q (zeros (dS x) : list ef) (zeros (dS x))) by (apply relisted_const; exact Q).
    eapply same_bind.
    { apply (loop_re p q x x' cids cids' HR HC); [exact HM|exact Z|]. destruct mode; [|exact Z|]; exact (re_along0 _ _ _ _ HQ (np_nanstd 0) (nanstd_perm 0)). }
    intros [st itr] [st' itr'] (SR & EI). cbn [fst snd] in SR, EI. subst itr'. destruct SR as (X & B & V & A & XS & BS & VS & AS).
    set (force := match mo_force o with Some f => f | None => true end).
    assert (ZM : relisted (dE x) p (fst (zero_mean force (sx st) (sb st))) (fst (zero_mean force (sx st') (sb st'))) /\
                 relisted (dS x) q (snd (zero_mean force (sx st) (sb st))) (snd (zero_mean force (sx st') (sb st')))).
    { unfold zero_mean. destruct force; [|cbn; auto]. cbv zeta. cbn [fst snd]. rewrite (mean_perm _ _ (relisted_perm _ _ _ _ _ Q B)). split; apply relisted_mapl; assumption. }
    destruct (zero_mean force (sx st) (sb st)) as [l b]. destruct (zero_mean force (sx st') (sb st')) as [l' b']. cbn [fst snd] in ZM. destruct ZM as (L & B'). rewrite A, AS.
    rewrite (cnt_perm _ _ (re_flat _ _ _ _ HR)), (cnt_perm _ _ (re_flat _ _ _ _ H0)).
    eapply same_bind; [apply (ll_s_re p q x x' cids cids' HR HC); eassumption|]. intros k k' K. cbn [same_res].
    assert (CN : relisted (dS x) q (map (fun s => np_cnt (col (stack0 x) s)) (seq 0 (n1 (stack0 x)))) (map (fun s => np_cnt (col (stack0 x') s)) (seq 0 (n1 (stack0 x'))))).
    { cbn [n1 stack0]. rewrite (re_dS _ _ _ _ HR). apply relisted_map; [apply Q|]. intros s Hs. apply cnt_perm. apply (re_col _ _ _ _ HR), Hs. }
    assert (CV := relisted_combine _ _ _ _ _ _ _ _ Q CN V).
    rewrite (np_sum_perm _ _ (relisted_perm _ _ _ _ _ P K)).
    assert (MM : forall f (u u' : list ef), relisted (dE x) p u u' -> relisted (dE x) p (map f u) (map f u' : list ef)) by (intros; apply relisted_mapl; assumption).
    assert (MS : forall f (u u' : list ef), relisted (dS x) q u u' -> relisted (dS x) q (map f u) (map f u' : list ef)) by (intros; apply relisted_mapl; assumption).
    set (so := match mode with SubjectOblivious => true | _ => false end).
    assert (UN : forall u u' : list ef, relisted (dS x) q u u' -> same_bias q (dS x) (if so then None else Some u) (if so then None else Some u')) by (intros; destruct so; [exact I|assumption]).
    split; [exact HR|]. split.
    { cbn [ml_recon]. unfold ap_reconstructions. assert (HR2 := HR); destruct HR2 as (DE & DS & DR & PP & QQ & _). unfold rearranged. cbn [dE dS dR at3]. rewrite DE, DS, DR. repeat (split; [first [reflexivity|assumption]|]).
      intros e s r (He & Hs & Hr). cbn [dE dS dR] in He, Hs. rewrite (relisted_vat _ _ _ _ e L He (proj1 P e He)), (relisted_vat _ _ _ _ s B' Hs (proj1 Q s Hs)). reflexivity. }
    split; [intros f [<-|[<-|[<-|[<-|[]]]]]; cbn [ml_quality ml_quality_std ml_quality_lo ml_quality_hi]; auto|].
    split; [intros f [<-|[<-|[<-|[<-|[<-|[<-|[<-|[<-|[]]]]]]]]]; cbn [ml_bias ml_bias_std ml_bias_lo ml_bias_hi ml_incons ml_incons_std ml_incons_lo ml_incons_hi]; apply UN; auto; apply relisted_mapl; exact CV|].
    split; [intros f [<-|[<-|[<-|[<-|[]]]]]; reflexivity|]. split; [intros f [<-|[<-|[<-|[<-|[]]]]]; reflexivity|reflexivity].
  Qed.
End Solve.

(** ** The preprocessing without rejection, and the run *)
Lemma re_pre_plain : forall p q (rd rd' : reader ef) a a' k pp, rd_arr rd = Ok a -> rd_arr rd' = Ok a' -> rearranged p q a a' -> same_videos p rd rd' -> kw_rej k = false ->
  preprocess rd k = Ok pp -> exists pp', preprocess rd' k = Ok pp' /\ dE (pp_arr pp) = dE a /\ dS (pp_arr pp) = dS a /\ rearranged p q (pp_arr pp) (pp_arr pp') /\ pp_orig pp = a /\ pp_orig pp' = a'.
Proof.
  intros p q rd rd' a a' k pp HA HA' HR (S1 & S2 & S3 & S4 & S5) NR H. unfold preprocess in *. rewrite HA in H. rewrite HA'. cbn [bind] in *.
  match type of H with bind ?m _ = _ => destruct m as [[]|]; [|discriminate] end. cbn [bind] in *.
  match type of H with bind ?m _ = _ => destruct m as [[]|]; [|discriminate] end. cbn [bind] in *.
  match type of H with bind ?m _ = _ => destruct m as [a1|] eqn:E1; [|discriminate] end. cbn [bind] in H.
  assert (D : exists a1', (if kw_dscore k then match ds_ref_score (rd_ds rd') with | None => Err AttributeError | Some None => Err AssertionError
       | Some (Some rs) => dscore (ds_refs (rd_ds rd')) (ds_dis (rd_ds rd')) (rd_dvs rd') rs a' end else Ok a') = Ok a1' /\ rearranged p q a1 a1' /\ dE a1 = dE a /\ dS a1 = dS a).
  { destruct (kw_dscore k); [|apply ok_same in E1; subst a1; exists a'; auto]. rewrite S1, S2.
    destruct (ds_ref_score (rd_ds rd)) as [[rs|]|]; try discriminate. rewrite <- S3 in E1. rewrite <- S4.
    destruct (re_dscore p q _ _ _ rs a a' a1 HR S5 E1) as (a1' & E1' & R1). exists a1'. split; [exact E1'|]. split; [exact R1|].
    unfold dscore in E1. destruct (get_ref_mos _ _ _ _) as [rm|]; [|discriminate]. cbn [bind] in E1. destruct (Nat.eqb _ _); [|discriminate]. apply ok_same in E1. subst a1. split; reflexivity. }
  destruct D as (a1' & -> & R1 & N1 & N2). cbn [bind]. cbv zeta in *. rewrite NR in *.
  set (a2 := if kw_zscore k then zscore a1 else a1) in *. set (a2' := if kw_zscore k then zscore a1' else a1').
  assert (R2 : rearranged p q a2 a2' /\ dE a2 = dE a /\ dS a2 = dS a).
  { unfold a2, a2'. destruct (kw_zscore k); [|auto]. split; [apply re_zscore; exact R1|]. auto. }
  destruct R2 as (R2 & N3 & N4). assert (B2 := re_bias _ _ _ _ R2). rewrite N4 in B2.
  apply ok_same in H. subst pp. eexists. split; [reflexivity|]. cbn [pp_arr pp_orig].
  assert (R3 : rearranged p q (if kw_bias k then remove_bias a2 (bias_estimate a2) else a2) (if kw_bias k then remove_bias a2' (bias_estimate a2') else a2') /\
     dE (if kw_bias k then remove_bias a2 (bias_estimate a2) else a2) = dE a /\ dS (if kw_bias k then remove_bias a2 (bias_estimate a2) else a2) = dS a).
  { destruct (kw_bias k); [|auto]. split; [apply re_remove; [exact R2|rewrite N4; exact B2]|]. auto. }
  destruct R3 as (R3 & N5 & N6). auto.
Qed.
Lemma mle_re : forall chi2 c p q (rd rd' : reader ef) a a' k o m o', rd_arr rd = Ok a -> rd_arr rd' = Ok a' -> rearranged p q a a' -> same_videos p rd rd' ->
  mle_run_modeling chi2 c rd k o = Ok m -> attach_observers rd' = Ok o' ->
  exists m', mle_run_modeling chi2 c rd' k o = Ok m' /\ mle_reordered p q (dE a) (dS a) m m'.
Proof.
  intros chi2 c p q rd rd' a a' k o m o' HA HA' HR HV H HO. unfold mle_run_modeling in *. destruct (mle_kwargs c k) as [k'|]; [|discriminate]. cbn [bind] in *.
  destruct (mle_run chi2 c rd k' o) as [r|] eqn:ER; [|discriminate]. cbn [bind] in H.
  assert (K : exists r', mle_run chi2 c rd' k' o = Ok r' /\ mle_reordered p q (dE a) (dS a) r r').
  { unfold mle_run in *. destruct (assert_ (negb (kw_rej k'))) as [[]|] eqn:NR; [|discriminate]. cbn [bind] in *.
    match type of ER with bind ?m _ = _ => destruct m as [[]|]; [|discriminate] end. cbn [bind] in *.
    assert (RJ : kw_rej k' = false) by (unfold assert_ in NR; destruct (kw_rej k'); [discriminate|reflexivity]).
    destruct (preprocess rd k') as [pp|] eqn:EP; [|discriminate]. cbn [bind] in ER.
    destruct (re_pre_plain p q rd rd' a a' k' pp HA HA' HR HV RJ EP) as (pp' & -> & N1 & N2 & RP & O1 & O2). cbn [bind].
    assert (HV' := HV). destruct HV' as (S1 & S2 & S3 & S4 & S5). rewrite S1.
    destruct (zmax_list (map rv_cid (ds_refs (rd_ds rd)))) as [mx|]; [|discriminate]. cbn [bind] in *. cbv zeta in *.
    destruct (run_modeling MOS rd _) as [mm|] eqn:EM; [|discriminate]. cbn [bind] in ER.
    destruct (re_run MOS p q rd rd' a a' _ mm o' HA HA' HR HV EM HO) as (mm' & -> & MQ & _). cbn [bind].
    assert (MQ' := MQ mr_quality (or_introl eq_refl)). clear MQ.
    match type of ER with bind ?m _ = _ => destruct m as [[]|] eqn:EL; [|discriminate] end. cbn [bind] in ER.
    match type of ER with bind ?m _ = _ => destruct m as [[]|] eqn:EF; [|discriminate] end. cbn [bind] in ER.
    assert (CR : relisted (length (rd_dvs rd)) p (content_id_of_dis_videos (rd_dvs rd)) (content_id_of_dis_videos (rd_dvs rd'))).
    { apply (relisted_mapl _ _ (@fst Z string)) in S5. rewrite !map_map in S5. exact S5. }
    assert (EL' : dE (pp_arr pp) = length (rd_dvs rd)).
    { unfold assert_ in EL. destruct (Nat.eqb _ _) eqn:Q; [|discriminate]. apply Nat.eqb_eq in Q. rewrite Q. apply map_length. }
    rewrite (re_dE _ _ _ _ RP). unfold content_id_of_dis_videos at 1. rewrite map_length.
    assert (LL : length (rd_dvs rd') = length (rd_dvs rd)) by (destruct CR as (_ & CL & _); unfold content_id_of_dis_videos in CL; rewrite map_length in CL; exact CL).
    rewrite LL, EL', Nat.eqb_refl. cbn [assert_ bind]. rewrite <- EL' in CR.
    match goal with |- context [bind (forM_ ?f ?l) _] => assert (FM : forM_ f l = Ok tt) end.
    { unfold forM_ in *. apply fold_left_unit. intros z Hz. apply (proj1 (fold_left_unit _ _ _)) with (a := z) in EF; [exact EF|].
      apply (relisted_In _ _ _ _ _ z (re_pp _ _ _ _ RP) CR), Hz. }
    rewrite FM. cbn [bind]. rewrite <- N1 in MQ'. rewrite <- N1, <- N2.
    assert (S := solve_re chi2 p q (pp_arr pp) (pp_arr pp') (pp_orig pp) (pp_orig pp') (map Z.to_nat (content_id_of_dis_videos (rd_dvs rd))) (map Z.to_nat (content_id_of_dis_videos (rd_dvs rd')))
      (mr_quality mm) (mr_quality mm') RP ltac:(rewrite O1, O2; exact HR) (relisted_mapl _ _ _ _ _ _ _ CR) MQ' (mode_of c) o (Z.to_nat (mx + 1))).
    rewrite ER in S. destruct (mle_solve chi2 (mode_of c) o (pp_arr pp') _ _ _ _) as [r'|]; [|contradiction]. exists r'. split; [reflexivity|exact S]. }
  destruct K as (r' & -> & (R1 & R2 & R3 & R4 & R5 & R6 & R7)). cbn [bind]. rewrite HO. destruct (attach_observers rd) as [ob|]; [|discriminate]. cbn [bind] in *. apply ok_same in H. subst m.
  eexists. split; [reflexivity|]. assert (PE := re_pp _ _ _ _ HR). split; [exact R1|]. split; [exact R2|].
  split; [intros f [<-|[<-|[<-|[<-|[]]]]]; cbn [ml_quality ml_quality_std ml_quality_lo ml_quality_hi]; [apply re_post; [exact PE|]| | |]; apply R3; cbn; tauto|].
  split; [intros f [<-|[<-|[<-|[<-|[<-|[<-|[<-|[<-|[]]]]]]]]]; cbn [ml_bias ml_bias_std ml_bias_lo ml_bias_hi ml_incons ml_incons_std ml_incons_lo ml_incons_hi]; apply R4; cbn; tauto|].
  split; [intros f [<-|[<-|[<-|[<-|[]]]]]; cbn [ml_ambiguity ml_ambiguity_std ml_ambiguity_lo ml_ambiguity_hi]; apply R5; cbn; tauto|].
  split; [intros f [<-|[<-|[<-|[<-|[]]]]]; cbn [ml_dof ml_ll ml_aic ml_bic]; apply R6; cbn; tauto|exact R7].
Qed.
Lemma array_videos : forall (ds : dataset ef string) rd a, raw_reader ds = Ok rd -> rd_arr rd = Ok a -> dE a = length (ds_dis ds).
Proof.
  intros ds rd a R HA. destruct (raw_reader_inv _ _ R) as (_ & _ & _ & AR). rewrite HA in AR. unfold opinion_score_3darray_with in AR.
  destruct (opinion_rows _ _) as [[[W RR] rows]|]; [|discriminate]. cbn [bind] in AR. apply ok_same in AR. subst a. reflexivity.
Qed.
Lemma mle_lists : forall chi2 c p q n ds ds' (rd rd' : reader ef) a a' k o m, raw_reader ds = Ok rd -> raw_reader ds' = Ok rd' ->
  rd_arr rd = Ok a -> rd_arr rd' = Ok a' -> permutes n q -> same_dataset p (same_list_votes n q) ds ds' ->
  mle_run_modeling chi2 c rd k o = Ok m -> exists m', mle_run_modeling chi2 c rd' k o = Ok m' /\ mle_reordered p q (length (ds_dis ds)) n m m'.
Proof.
  intros chi2 c p q n ds ds' rd rd' a a' k o m R R' HA HA' Q HS H.
  destruct (list_rearranged ds ds' rd rd' a a' n p q R R' HA HA' Q HS) as (N & HR). destruct (attach_total _ _ R') as (o' & O).
  rewrite <- (array_videos _ _ _ R HA), <- N. exact (mle_re chi2 c p q rd rd' a a' k o m o' HA HA' HR (ds_same_videos _ _ _ _ _ _ R R' HS) H O).
Qed.
Lemma mle_dicts : forall chi2 c p ds ds' (rd rd' : reader ef) a a' k o m, raw_reader ds = Ok rd -> raw_reader ds' = Ok rd' ->
  rd_arr rd = Ok a -> rd_arr rd' = Ok a' -> same_dataset p same_dict_votes ds ds' ->
  mle_run_modeling chi2 c rd k o = Ok m -> exists m', mle_run_modeling chi2 c rd' k o = Ok m' /\ mle_reordered p (fun s => s) (length (ds_dis ds)) (dS a) m m'.
Proof.
  intros chi2 c p ds ds' rd rd' a a' k o m R R' HA HA' HS H.
  assert (HR := dict_rearranged ds ds' rd rd' a a' p R R' HA HA' HS). destruct (attach_total _ _ R') as (o' & O).
  rewrite <- (array_videos _ _ _ R HA). exact (mle_re chi2 c p _ rd rd' a a' k o m o' HA HA' HR (ds_same_videos _ _ _ _ _ _ R R' HS) H O).
Qed.
