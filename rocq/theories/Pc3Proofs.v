(** Proofs for claims C09-C13. *)
From Coq Require Import String.
From Coq Require Import List ZArith Bool Arith Reals Lia Lra Permutation Sorted.
From Verif Require Import PyBase Num ExtReal NumPy Dataset PcDataset BaseProofs ExtRealProofs SpecDataset SpecMos SpecConv SpecPc DatasetProofs StepsProofs ConvProofs PcProofs Pc2Proofs.
Import ListNotations.
Local Open Scope list_scope.

(** ** Draws and termination of one pair *)
Lemma one_comparison_draws : forall g q n w n', one_comparison g q n w n' -> n <= n' <= n + 4.
Proof.
  intros g q n w n' H. inversion H; subst; [lia|].
  assert (n <= n0 <= S n) by (destruct H0 as [[_ ->]|(c & _ & _ & ->)]; lia).
  assert (n0 <= n1 <= S (S n0)) by (destruct H1 as [(_ & _ & _ & _ & ->)|(? & ? & _ & _ & -> & _)]; lia).
  inversion H2; subst; lia.
Qed.

Lemma ef_leb_Fin : forall x y, ef_leb (Fin x) (Fin y) = true <-> (x <= y)%R.
Proof. intros. cbn [ef_leb]. apply Rleb_true. Qed.
Lemma ef_ltb_Fin : forall x y, ef_ltb (Fin x) (Fin y) = true <-> (x < y)%R.
Proof. intros. cbn [ef_ltb]. apply Rltb_true. Qed.
Lemma ef_leb_FinF : forall x y, ef_leb (Fin x) (Fin y) = false <-> (y < x)%R.
Proof. intros. cbn [ef_leb]. apply Rleb_false. Qed.
Lemma ef_ltb_FinF : forall x y, ef_ltb (Fin x) (Fin y) = false <-> (y <= x)%R.
Proof. intros. cbn [ef_ltb]. apply Rltb_false. Qed.

Lemma comparisons_draws : forall g q r n ws n', comparisons g q r n ws n' -> forall x k, r = Fin x -> (x <= INR k)%R -> n' <= n + 5 * k.
Proof.
  intros g q r n ws n' H. induction H as [r n E|r n w n1 l n2 E O C IH|r n E1 E2 E3|r n w n1 E1 E2 E3 O]; intros x k -> Hk.
  - lia.
  - apply ef_leb_Fin in E. destruct k as [|k]; [simpl in Hk; lra|]. rewrite S_INR in Hk. rewrite ef_sub_Fin in IH. pose proof (one_comparison_draws _ _ _ _ _ O).
    pose proof (IH (x - 1)%R k eq_refl ltac:(lra)). lia.
  - apply ef_ltb_Fin in E1. destruct k as [|k]; [simpl in Hk; lra|]. lia.
  - apply ef_ltb_Fin in E1. destruct k as [|k]; [simpl in Hk; lra|]. pose proof (one_comparison_draws _ _ _ _ _ O). lia.
Qed.

Lemma pass_total : forall o g p q n, model_deciding o p q -> exists r, pc_pass o g p n = Ok r.
Proof.
  intros o g p q n (Q1 & Q2 & Q3 & Q4 & Q5 & Q6).
  assert (J : forall m, exists r, pc_judge o g p m = Ok r).
  { intros m. unfold pc_judge. rewrite Q3. cbn [bind]. 
    assert (Nz : exists x y m', pc_noisy o g p (q_score1 q, q_score2 q) m = Ok (x, y, m')).
    { unfold pc_noisy. unfold pair_own in Q4, Q5. destruct (po_noise o); [do 3 eexists; reflexivity|]. destruct (po_noises o); [|do 3 eexists; reflexivity].
      destruct Q4 as (s1 & E1 & _), Q5 as (s2 & E2 & _). unfold py_index. rewrite E1, E2. cbn [bind]. do 3 eexists. reflexivity. }
    destruct Nz as (x & y & m' & ->). cbn [bind]. destruct (y <? x)%num; [eexists; reflexivity|]. destruct (x <? y)%num; [eexists; reflexivity|].
    destruct (String.eqb (the_tie o) "even_split"); eexists; reflexivity. }
  unfold pc_pass. rewrite Q2. cbn [bind]. destruct (q_coin q); [|apply J]. destruct (_ <? _)%num; [eexists; reflexivity|apply J].
Qed.

Lemma while_total : forall o g p q, model_deciding o p q -> forall k fuel x n, (x <= INR k)%R -> S k <= fuel -> exists r, pc_while fuel o g p (Fin x) n = Ok r.
Proof.
  intros o g p q Q. 
  assert (Z : forall fuel n, 1 <= fuel -> pc_while fuel o g p (Fin 0) n = Ok ([], n)).
  { intros [|f] n L; [lia|]. cbn [pc_while]. change (nzero <? Fin 0)%num with (ef_ltb (Fin 0) (Fin 0)). rewrite ltb00. reflexivity. }
  induction k as [|k IH]; intros fuel x n Hx Hf; destruct fuel as [|f]; try lia; cbn [pc_while];
    change (nzero <? Fin x)%num with (ef_ltb (Fin 0) (Fin x)); change (none_ <=? Fin x)%num with (ef_leb (Fin 1) (Fin x)); change (Fin x <? ru g n)%num with (ef_ltb (Fin x) (ru g n)).
  - simpl in Hx. rewrite (proj2 (ef_ltb_FinF 0 x)) by lra. eexists; reflexivity.
  - destruct (ef_ltb (Fin 0) (Fin x)) eqn:E0; [|eexists; reflexivity]. destruct (ef_leb (Fin 1) (Fin x)) eqn:E1.
    + destruct (pass_total o g p q n Q) as [r ->]. cbn [bind]. change (Fin x - none_)%num with (ef_sub (Fin x) (Fin 1)). rewrite ef_sub_Fin.
      destruct (IH f (x - 1)%R (snd r)) as [r' ->]; [rewrite S_INR in Hx; lra|lia|]. eexists; reflexivity.
    + change (nzero : ef) with (Fin 0). destruct (ef_ltb (Fin x) (ru g n)); [rewrite Z by lia; eexists; reflexivity|].
      destruct (pass_total o g p q (S n) Q) as [r ->]. cbn [bind]. rewrite Z by lia. eexists; reflexivity.
Qed.

Lemma rate_within : forall o k s va vb i j q, rates_within o k -> deciding_at o s va vb i j q -> exists x, q_rate q = Fin x /\ (x <= INR k)%R.
Proof.
  intros o k s va vb i j q (R1 & R2 & R3) ((r & P & E) & _). unfold pair_mean in P. destruct (po_rate o) as [r0|].
  - subst r. rewrite E. apply R1. reflexivity.
  - destruct (po_rates o) as [l|].
    + destruct P as (r1 & r2 & P1 & P2 & ->). destruct (R2 l r1 eq_refl (nth_error_In _ _ P1)) as (x1 & -> & L1). destruct (R2 l r2 eq_refl (nth_error_In _ _ P2)) as (x2 & -> & L2).
      exists ((x1 + x2) / 2)%R. rewrite E. cbn [ef_add]. rewrite ef_div_Fin by lra. split; [reflexivity|lra].
    + subst r. exists 1%R. split; [exact E|]. specialize (R3 eq_refl eq_refl). apply le_INR in R3. simpl in R3. exact R3.
Qed.

(** All pairs, with what is known about each. *)
Lemma pairs_known : forall fuel ds kw o g pc after n, pc_source (ds_dis ds) -> scored o (ds_dis ds) ->
  to_pc_dataset fuel ds kw o g = Ok (pc, after, n) ->
  exists ps : list (string * Z * Z), NoDup ps /\
    (forall s a b, In (s, a, b) ps <-> exists va vb, compared (ds_dis ds) (any_content o) s va vb /\ dv_aid va = a /\ dv_aid vb = b) /\
    forall k, rates_within o k -> n <= 5 * k * length ps.
Proof.
  intros fuel ds kw o g pc after n Hs Hsc H.
  destruct (run_inv _ _ _ _ _ _ _ _ Hs H) as (dvs' & tbl & rs & Hchk & _ & Hd & Hf & Ht & Hm & _ & _ & _ & _ & Ho).
  pose proof Hs as (Hne & ND & _).
  destruct (all_pairs_spec (ds_dis ds) dvs' o tbl ND Hf Hd Ht) as (PN & PA & PB). set (ps := flat_map (subject_pairs o) tbl) in *.
  exists (map pkey ps). split; [exact PN|]. split.
  - intros s a b. rewrite in_map_iff. split.
    + intros (p & K & Hp). destruct (PA p Hp) as (va & vb & Hc & Ea & Eb & _). unfold pkey in K. injection K as <- <- <-. exists va, vb. auto.
    + intros (va & vb & Hc & <- & <-). destruct (PB s va vb Hc) as (p & Hp & K). exists p. auto.
  - intros k Hk. rewrite map_length.
    apply (mapS_bound _ _ (pc_pair fuel o g) (5 * k) ps 0 rs n); [|exact Hm]. intros p m r m' Hp Hr.
    destruct (PA p Hp) as (va & vb & (Ia & Ib & _) & Ea & Eb & Va & Vb & Ra & Rb).
    destruct (model_deciding_ex o _ p va vb Hs Hsc Hchk Ia Ib Ea Eb Va Vb Ra Rb) as (q & Q1 & Q2).
    unfold pc_pair in Hr. rewrite (proj1 Q1) in Hr. cbn [bind] in Hr. destruct (while_spec o g p _ _ _ _ _ _ Q1 Hr) as (ws & W1 & W2).
    destruct (rate_within o k _ _ _ _ _ q Hk Q2) as (x & Ex & Lx). apply (comparisons_draws _ _ _ _ _ _ W1 x k Ex Lx).
Qed.

Lemma pc_total : forall k fuel ds kw o g, pc_source (ds_dis ds) -> scored o (ds_dis ds) -> pc_check o (length (ds_dis ds)) = Ok tt ->
  rates_within o k -> k < fuel -> exists pc after n, to_pc_dataset fuel ds kw o g = Ok (pc, after, n).
Proof.
  intros k fuel ds kw o g Hs Hsc Hchk Hk Hfu. destruct (convert_spec _ Hs) as (dvs' & Hc & Hd & Hf). pose proof Hs as (Hne & ND & Hst).
  pose proof (same_content_aids _ _ Hf) as Haid. assert (ND' : NoDup (map dv_aid dvs')) by (rewrite Haid; exact ND).
  unfold to_pc_dataset. rewrite Hchk. cbn [bind]. rewrite Hc. cbn [bind]. destruct (subj_assets_total dvs' Hd ND') as [tbl Ht]. rewrite Ht. cbn [bind].
  destruct (all_pairs_spec (ds_dis ds) dvs' o tbl ND Hf Hd Ht) as (PN & PA & PB). set (ps := flat_map (subject_pairs o) tbl) in *.
  assert (Q : forall p, In p ps -> exists q x, model_deciding o p q /\ q_rate q = Fin x /\ (x <= INR k)%R /\ In (pr_a p) (map dv_aid dvs') /\ In (pr_b p) (map dv_aid dvs')).
  { intros p Hp. destruct (PA p Hp) as (va & vb & (Ia & Ib & _) & Ea & Eb & Va & Vb & Ra & Rb).
    destruct (model_deciding_ex o _ p va vb Hs Hsc Hchk Ia Ib Ea Eb Va Vb Ra Rb) as (q & Q1 & Q2).
    destruct (rate_within o k _ _ _ _ _ q Hk Q2) as (x & Ex & Lx). exists q, x. rewrite Haid, <- Ea, <- Eb. repeat split; try assumption; try apply Q1; apply in_map; assumption. }
  destruct (mapS_total _ _ (pc_pair fuel o g) ps 0) as [[rs n] Hm].
  { intros p m Hp. destruct (Q p Hp) as (q & x & Q1 & Ex & Lx & _). unfold pc_pair. rewrite (proj1 Q1). cbn [bind]. rewrite Ex. eapply while_total; eassumption. }
  rewrite Hm. cbn [bind fst snd].
  destruct (store_total dvs' (concat rs) (map (fun _ => []) dvs') ND' (map_length _ _)) as [dicts Hdi].
  { intros y Hy. apply in_concat in Hy. destruct Hy as (r & Hr & Hy). apply In_nth_error in Hr. destruct Hr as [i Hr].
    destruct (mapS_nth_inv _ _ _ _ _ _ _ Hm i r Hr) as (p & m & m' & Hp & Hrun). destruct (Q p (nth_error_In _ _ Hp)) as (q & x & Q1 & Ex & Lx & A1 & A2).
    unfold pc_pair in Hrun. rewrite (proj1 Q1) in Hrun. cbn [bind] in Hrun. destruct (while_spec o g p _ _ _ _ _ _ Q1 Hrun) as (ws & W1 & W2).
    rewrite W2 in Hy. apply asg_pair in Hy. destruct Hy as [_ [[-> _]|[-> _]]]; assumption. }
  rewrite Hdi. cbn [bind]. do 3 eexists. reflexivity.
Qed.

(** ** Consequences for the recorded outcomes *)
Lemma rank_exists : forall (dvs : list (dvideo ef string)) o s va vb, pc_source dvs -> compared dvs o s va vb -> exists i j, rank dvs s va i /\ rank dvs s vb j.
Proof.
  intros dvs o s va vb Hs Hc. destruct (convert_spec _ Hs) as (dvs' & _ & Hd & Hf). pose proof Hs as (Hne & ND & Hst).
  pose proof (same_content_aids _ _ Hf) as Haid. assert (ND' : NoDup (map dv_aid dvs')) by (rewrite Haid; exact ND).
  destruct (subj_assets_total dvs' Hd ND') as [tbl Ht].
  set (op := PcOpts (if o then Some "within_subject"%string else None) None None None None None None None None : pcopts ef).
  assert (Eo : any_content op = o) by (destruct o; reflexivity).
  destruct (all_pairs_spec dvs dvs' op tbl ND Hf Hd Ht) as (PN & PA & PB). rewrite Eo in *. destruct (PB s va vb Hc) as (p & Hp & K).
  destruct (PA p Hp) as (va' & vb' & Hc' & Ea & Eb & _ & _ & Ra & Rb). unfold pkey in K. injection K as K1 K2 K3.
  destruct Hc as (Ia & Ib & _), Hc' as (Ia' & Ib' & _).
  assert (va' = va) by (apply (aid_unique dvs); [assumption..|congruence]). assert (vb' = vb) by (apply (aid_unique dvs); [assumption..|congruence]). subst va' vb'.
  exists (pr_i p), (pr_j p). rewrite <- K1. auto.
Qed.

Lemma gain_empty : forall f, last_gain f [] = None.
Proof. reflexivity. Qed.

(** At most one comparison. *)
Lemma comparisons_le1 : forall g q x n ws n', (x <= 1)%R -> comparisons g q (Fin x) n ws n' -> length ws <= 1.
Proof.
  intros g q x n ws n' Hx H. inversion H; subst; simpl; try lia. rewrite ef_sub_Fin in H2. apply ef_leb_Fin in H0. inversion H2; subst; simpl; try lia.
  - apply ef_leb_Fin in H3. lra.
  - apply ef_ltb_Fin in H3. lra.
Qed.

(** Verdict of a deterministic comparison. *)
Definition fair (x y : ef) : verdict := if ef_ltb y x then First else if ef_ltb x y then Second else Split.
Lemma one_deterministic : forall g q n w n', q_coin q = None -> q_noise1 q = None -> q_noise2 q = None -> q_even q = true ->
  one_comparison g q n w n' -> w = fair (q_score1 q) (q_score2 q) /\ n' = n.
Proof.
  intros g q n w n' C N1 N2 Ev H. inversion H; subst; [congruence|].
  assert (n0 = n) by (destruct H0 as [[_ ->]|(c & Hc & _)]; congruence). subst n0.
  assert (X : x = q_score1 q /\ y = q_score2 q /\ n1 = n) by (destruct H1 as [(_ & _ & -> & -> & ->)|(s1 & s2 & Hc & _)]; [auto|congruence]).
  destruct X as (-> & -> & ->). unfold fair. inversion H2; subst.
  - rewrite H3. auto.
  - replace (ef_ltb (q_score2 q) (q_score1 q)) with false; [rewrite H3; auto|]. clear -H3. destruct (q_score1 q), (q_score2 q); try reflexivity; try discriminate.
    apply ef_ltb_Fin in H3. symmetry. apply ef_ltb_FinF. lra.
  - rewrite H3, H4. auto.
  - congruence.
Qed.
Lemma comparisons_deterministic : forall g q r n ws n', q_coin q = None -> q_noise1 q = None -> q_noise2 q = None -> q_even q = true ->
  comparisons g q r n ws n' -> forall w, In w ws -> w = fair (q_score1 q) (q_score2 q).
Proof.
  intros g q r n ws n' C N1 N2 Ev H. induction H; intros z Hz; try contradiction.
  - destruct Hz as [<-|Hz]; [|auto]. eapply one_deterministic; eassumption.
  - destruct Hz as [<-|[]]. eapply one_deterministic; eassumption.
Qed.
Lemma gain_const : forall f ws w, (forall z, In z ws -> z = w) -> ws <> [] -> last_gain f ws = f w.
Proof.
  intros f ws w H Hne. unfold last_gain.
  assert (G : forall l acc, (forall z, In z l -> z = w) -> (acc = f w \/ l <> [] /\ acc = None) -> fold_left (fun acc w => match f w with Some x => Some x | None => acc end) l acc = f w).
  { induction l as [|z l IH]; intros acc Hl Ha; cbn [fold_left]; [destruct Ha as [?|[X _]]; [assumption|contradiction]|].
    rewrite (Hl z (or_introl eq_refl)). apply IH; [intros; apply Hl; right; assumption|]. left. destruct (f w) eqn:E; [reflexivity|]. destruct Ha as [Ha|[_ Ha]]; exact Ha. }
  apply G; [exact H|]. right. auto.
Qed.
Lemma deciding_deterministic : forall o s va vb i j q, deterministic o -> deciding_at o s va vb i j q ->
  q_coin q = None /\ q_noise1 q = None /\ q_noise2 q = None /\ q_even q = true.
Proof.
  intros o s va vb i j q (D1 & D2 & D3 & D4 & D5 & D6) (_ & E1 & E2 & E3 & _ & _ & E4). unfold pair_mean, pair_own in *. rewrite D1, D2 in E1. rewrite D3, D4 in E2, E3.
  repeat split; try assumption. rewrite E4. destruct D6 as [->| ->]; reflexivity.
Qed.
