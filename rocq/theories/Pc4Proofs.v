(** Proofs for claims C09-C13, continued. *)
From Coq Require Import String.
From Coq Require Import List ZArith Bool Arith Reals Lia Lra Permutation Sorted.
From Verif Require Import PyBase Num ExtReal NumPy Dataset PcDataset BaseProofs ExtRealProofs SpecDataset SpecMos SpecConv SpecPc DatasetProofs StepsProofs ConvProofs PcProofs Pc2Proofs Pc3Proofs.
Import ListNotations.
Local Open Scope list_scope.

Lemma compared_names : forall (dvs : list (dvideo ef string)) c s va vb va' vb', pc_source dvs -> compared dvs c s va vb -> compared dvs c s va' vb' ->
  dv_aid va = dv_aid va' -> dv_aid vb = dv_aid vb' -> va = va' /\ vb = vb'.
Proof.
  intros dvs c s va vb va' vb' (Hne & ND & _) (I1 & I2 & _) (J1 & J2 & _) E1 E2. split; apply (aid_unique dvs); assumption.
Qed.

(** The entries of one pair, in both directions. *)
Lemma pair_outcomes : forall fuel ds kw o g pc after n, pc_source (ds_dis ds) -> scored o (ds_dis ds) -> to_pc_dataset fuel ds kw o g = Ok (pc, after, n) ->
  forall a s b v, outcome pc a s b v ->
    exists q m ws m' va vb i j, deciding_at o s va vb i j q /\ compared (ds_dis ds) (any_content o) s va vb /\ comparisons g q (q_rate q) m ws m' /\
      (a = dv_aid va /\ b = dv_aid vb /\ last_gain gain1 ws = Some v /\ (forall w, outcome pc b s a w <-> last_gain gain2 ws = Some w) \/
       a = dv_aid vb /\ b = dv_aid va /\ last_gain gain2 ws = Some v /\ (forall w, outcome pc b s a w <-> last_gain gain1 ws = Some w)).
Proof.
  intros fuel ds kw o g pc after n Hs Hsc H a s b v Hv. destruct (pc_general _ _ _ _ _ _ _ _ Hs Hsc H) as [GA GB].
  destruct (GB a s b v Hv) as (va & vb & Hc & Hab). destruct (rank_exists _ _ _ _ _ Hs Hc) as (i & j & Ri & Rj).
  destruct (GA s va vb i j Hc Ri Rj) as (q & Q & m & ws & m' & C & O1 & O2). exists q, m, ws, m', va, vb, i, j.
  split; [exact Q|]. split; [exact Hc|]. split; [exact C|]. destruct Hab as [[-> ->]|[-> ->]]; [left|right]; repeat split; try assumption; try apply O1; try apply O2; assumption.
Qed.

Lemma gain1_vals : forall ws v, last_gain gain1 ws = Some v -> v = Fin 1 \/ v = Fin (1/2).
Proof.
  intros ws v. unfold last_gain. assert (G : forall l acc, (forall z, acc = Some z -> z = Fin 1 \/ z = Fin (1/2)) -> forall z, fold_left (fun acc w => match gain1 w with Some x => Some x | None => acc end) l acc = Some z -> z = Fin 1 \/ z = Fin (1/2)).
  { induction l as [|w l IH]; intros acc Ha z Hz; cbn [fold_left] in Hz; [apply Ha, Hz|]. eapply IH; [|exact Hz]. destruct w; cbn [gain1]; intros y Hy; auto; (left + right; congruence). }
  apply G. discriminate.
Qed.
Lemma gain2_vals : forall ws v, last_gain gain2 ws = Some v -> v = Fin 1 \/ v = Fin (1/2).
Proof.
  intros ws v. unfold last_gain. assert (G : forall l acc, (forall z, acc = Some z -> z = Fin 1 \/ z = Fin (1/2)) -> forall z, fold_left (fun acc w => match gain2 w with Some x => Some x | None => acc end) l acc = Some z -> z = Fin 1 \/ z = Fin (1/2)).
  { induction l as [|w l IH]; intros acc Ha z Hz; cbn [fold_left] in Hz; [apply Ha, Hz|]. eapply IH; [|exact Hz]. destruct w; cbn [gain2]; intros y Hy; auto; (left + right; congruence). }
  apply G. discriminate.
Qed.

Lemma half_neq_1 : Fin 1 <> Fin (1/2).
Proof. intros E. assert (X : 1%R = (1/2)%R) by congruence. lra. Qed.

Lemma coherent_const : forall ws w, (forall z, In z ws -> z = w) -> ws <> [] ->
  (forall v, last_gain gain1 ws = Some v -> (v = Fin 1 /\ last_gain gain2 ws = None) \/ (v = Fin (1/2) /\ last_gain gain2 ws = Some (Fin (1/2)))) /\
  (forall v, last_gain gain2 ws = Some v -> (v = Fin 1 /\ last_gain gain1 ws = None) \/ (v = Fin (1/2) /\ last_gain gain1 ws = Some (Fin (1/2)))).
Proof.
  intros ws w H Hne. rewrite (gain_const gain1 ws w H Hne), (gain_const gain2 ws w H Hne). split; intros v E; destruct w; cbn in *; try discriminate; (left + right; split; [congruence|reflexivity]).
Qed.

Lemma pc_coherent : forall fuel ds kw o g pc after n, pc_source (ds_dis ds) -> scored o (ds_dis ds) -> rates_within o 1 \/ deterministic o ->
  to_pc_dataset fuel ds kw o g = Ok (pc, after, n) -> coherent pc.
Proof.
  intros fuel ds kw o g pc after n Hs Hsc Hr H a s b v Hv.
  destruct (pair_outcomes _ _ _ _ _ _ _ _ Hs Hsc H a s b v Hv) as (q & m & ws & m' & va & vb & i & j & Q & Hc & C & Hab).
  assert (Hws : ws <> []) by (intros ->; destruct Hab as [(_ & _ & X & _)|(_ & _ & X & _)]; discriminate).
  assert (Hw : exists w, forall z, In z ws -> z = w).
  { destruct Hr as [Hr|Hd].
    - destruct (rate_within o 1 _ _ _ _ _ q Hr Q) as (x & Ex & Lx). rewrite Ex in C. simpl in Lx. pose proof (comparisons_le1 _ _ _ _ _ _ Lx C) as L.
      destruct ws as [|w [|? ?]]; [contradiction| |simpl in L; lia]. exists w. intros z [<-|[]]. reflexivity.
    - destruct (deciding_deterministic o _ _ _ _ _ _ Hd Q) as (D1 & D2 & D3 & D4). eexists. eapply comparisons_deterministic; eassumption. }
  destruct Hw as [w Hw]. destruct (coherent_const ws w Hw Hws) as [K1 K2].
  assert (F : forall (c : option ef), (forall u, outcome pc b s a u <-> c = Some u) -> (v = Fin 1 /\ c = None) \/ (v = Fin (1/2) /\ c = Some (Fin (1/2))) ->
     (v = Fin 1 /\ forall w, ~ outcome pc b s a w) \/ (v = Fin (1/2) /\ forall w, outcome pc b s a w <-> w = Fin (1/2))).
  { intros c Hc' [[-> ->]|[-> ->]]; [left|right]; (split; [reflexivity|]); intros u; rewrite Hc'; [discriminate|]. split; congruence. }
  destruct Hab as [(-> & -> & X & Y)|(-> & -> & X & Y)].
  - apply (F _ Y). apply K1, X.
  - apply (F _ Y). apply K2, X.
Qed.

(** ** Default options *)
Lemma finite_scored : forall o dvs, po_means o = None -> finite_single dvs -> scored o dvs.
Proof. intros o dvs E H dv s v Hin Hv. destruct (H dv s v Hin Hv) as (x & [-> | ->]); exists (Fin x); unfold the_score; rewrite E; auto. Qed.

Lemma plain_check : forall (o : pcopts ef) nv, plain o -> known_type o -> (po_tie o = None \/ po_tie o = Some "even_split"%string) -> pc_check o nv = Ok tt.
Proof.
  intros o nv (P1 & P2 & P3 & P4 & P5 & P6 & P7) Ht Hb. unfold pc_check, the_type, the_tie. rewrite P1, P2, P3, P4, P5, P6, P7.
  destruct Ht as [->|[-> | ->]], Hb as [-> | ->]; reflexivity.
Qed.
Lemma plain_rates : forall o, plain o -> rates_within o 1.
Proof. intros o (P1 & P2 & _). repeat split; [congruence|congruence|lia]. Qed.
Lemma plain_deterministic : forall (o : pcopts ef), plain o -> (po_tie o = None \/ po_tie o = Some "even_split"%string) -> deterministic o.
Proof. intros o (P1 & P2 & P3 & P4 & P5 & P6 & P7) H. repeat split; assumption. Qed.

Lemma rated_fun : forall dvs dv s x y, pc_source dvs -> In dv dvs -> rated dv s x -> rated dv s y -> x = y.
Proof. intros dvs dv s x y Hs Hin [H|H] [H'|H']; pose proof (source_vote_fun dvs dv s _ _ Hs Hin H H'); congruence. Qed.

(** A deterministic pair: all comparisons agree; the entries are those of the scores. *)
Lemma deterministic_pair : forall fuel ds kw o g pc after n, pc_source (ds_dis ds) -> scored o (ds_dis ds) -> deterministic o ->
  to_pc_dataset fuel ds kw o g = Ok (pc, after, n) ->
  forall s va vb, compared (ds_dis ds) (any_content o) s va vb ->
    exists q i j m ws m' x y, rank (ds_dis ds) s va i /\ rank (ds_dis ds) s vb j /\ deciding_at o s va vb i j q /\ comparisons g q (q_rate q) m ws m' /\
      rated va s x /\ rated vb s y /\ (forall z, In z ws -> z = fair x y) /\
      (forall v, outcome pc (dv_aid va) s (dv_aid vb) v <-> last_gain gain1 ws = Some v) /\
      (forall v, outcome pc (dv_aid vb) s (dv_aid va) v <-> last_gain gain2 ws = Some v).
Proof.
  intros fuel ds kw o g pc after n Hs Hsc Hdet H s va vb Hc. pose proof Hdet as (_ & _ & _ & _ & Hm & _).
  destruct (pc_general _ _ _ _ _ _ _ _ Hs Hsc H) as [GA _].
  destruct (rank_exists _ _ _ _ _ Hs Hc) as (i & j & Ri & Rj). destruct (GA s va vb i j Hc Ri Rj) as (q & Q & m & ws & m' & C & O1 & O2).
  pose proof Q as (_ & _ & _ & _ & S1 & S2 & _). unfold the_score in S1, S2. rewrite Hm in S1, S2.
  destruct (deciding_deterministic o _ _ _ _ _ _ Hdet Q) as (D1 & D2 & D3 & D4).
  exists q, i, j, m, ws, m', (q_score1 q), (q_score2 q). repeat split; try assumption; try apply Q; try apply O1; try apply O2.
  intros z Hz. eapply comparisons_deterministic; eassumption.
Qed.

Lemma comparisons_unit : forall g q n ws n', comparisons g q (Fin 1) n ws n' -> exists w, ws = [w].
Proof.
  intros g q n ws n' C. pose proof (comparisons_le1 g q 1 n ws n' ltac:(lra) C) as L. destruct ws as [|w [|? ?]]; [|exists w; reflexivity|simpl in L; lia].
  inversion C; subst.
  - apply ef_ltb_FinF in H. lra.
  - apply ef_leb_FinF in H0. lra.
Qed.

Lemma ef_ltb_asym : forall x y, ef_ltb x y = true -> ef_ltb y x = false.
Proof.
  intros [x| | |] [y| | |]; cbn; try reflexivity; try discriminate. intros H. apply Rltb_true in H. apply Rltb_false. lra.
Qed.
(** Value recorded for the first of two compared scores. *)
Lemma gain_pair : forall ws x y, (forall z, In z ws -> z = fair x y) -> ws <> [] ->
  (forall v, last_gain gain1 ws = Some v <-> wins_or_ties x y v) /\ (forall v, last_gain gain2 ws = Some v <-> wins_or_ties y x v).
Proof.
  intros ws x y H Hne. rewrite (gain_const gain1 ws _ H Hne), (gain_const gain2 ws _ H Hne). unfold wins_or_ties, fair.
  destruct (ef_ltb y x) eqn:E1.
  - rewrite (ef_ltb_asym _ _ E1). cbn [gain1 gain2]. split; intros v; split; intros; try discriminate; try (left; split; congruence);
    repeat match goal with H : _ \/ _ |- _ => destruct H | H : _ /\ _ |- _ => destruct H end; congruence.
  - destruct (ef_ltb x y) eqn:E2; cbn [gain1 gain2]; (split; intros v; split; intros; try discriminate; try (left; split; congruence); try (right; repeat split; congruence);
    repeat match goal with H : _ \/ _ |- _ => destruct H | H : _ /\ _ |- _ => destruct H end; congruence).
Qed.

Lemma comparisons_integer : forall g q k n ws n', q_coin q = None -> q_noise1 q = None -> q_noise2 q = None -> q_even q = true ->
  comparisons g q (Fin (INR k)) n ws n' -> n' = n /\ length ws = k.
Proof.
  intros g q k; induction k as [|k IH]; intros n ws n' D1 D2 D3 D4 C.
  - inversion C; subst; [auto| | |].
    + apply ef_leb_Fin in H. simpl in H. lra.
    + apply ef_ltb_Fin in H. simpl in H. lra.
    + apply ef_ltb_Fin in H. simpl in H. lra.
  - assert (P : (1 <= INR (S k))%R) by (rewrite S_INR; pose proof (pos_INR k); lra). inversion C; subst.
    + apply ef_ltb_FinF in H. lra.
    + rewrite ef_sub_Fin in H1. replace (INR (S k) - 1)%R with (INR k) in H1 by (rewrite S_INR; lra).
      destruct (one_deterministic _ _ _ _ _ D1 D2 D3 D4 H0) as [_ ->]. destruct (IH _ _ _ D1 D2 D3 D4 H1) as [-> <-]. auto.
    + apply ef_leb_FinF in H0. lra.
    + apply ef_leb_FinF in H0. lra.
Qed.

Lemma no_draws : forall fuel ds kw o g pc after n, pc_source (ds_dis ds) -> scored o (ds_dis ds) -> deterministic o ->
  to_pc_dataset fuel ds kw o g = Ok (pc, after, n) ->
  (forall s va vb i j q, deciding_at o s va vb i j q -> exists k, q_rate q = Fin (INR k)) -> n = 0.
Proof.
  intros fuel ds kw o g pc after n Hs Hsc Hdet H Hk.
  destruct (run_inv _ _ _ _ _ _ _ _ Hs H) as (dvs' & tbl & rs & Hchk & _ & Hd & Hf & Htb & Hm & _ & _ & _ & _ & Ho).
  pose proof Hs as (Hne & ND & _). destruct (all_pairs_spec (ds_dis ds) dvs' o tbl ND Hf Hd Htb) as (PN & PA & PB).
  cut (n <= 0 + 0 * length (flat_map (subject_pairs o) tbl)); [lia|].
  apply (mapS_bound _ _ (pc_pair fuel o g) 0 (flat_map (subject_pairs o) tbl) 0 rs n); [|exact Hm].
  intros p m r m' Hpin Hr. destruct (PA p Hpin) as (va & vb & (Ia & Ib & _) & Ea & Eb & Va & Vb & Ra & Rb).
  destruct (model_deciding_ex o _ p va vb Hs Hsc Hchk Ia Ib Ea Eb Va Vb Ra Rb) as (q & Q1 & Q2).
  unfold pc_pair in Hr. rewrite (proj1 Q1) in Hr. cbn [bind] in Hr. destruct (while_spec o g p _ _ _ _ _ _ Q1 Hr) as (ws & W1 & W2).
  destruct (deciding_deterministic o _ _ _ _ _ _ Hdet Q2) as (D1 & D2 & D3 & D4). destruct (Hk _ _ _ _ _ _ Q2) as [k Ek]. rewrite Ek in W1.
  destruct (comparisons_integer _ _ _ _ _ _ D1 D2 D3 D4 W1) as [-> _]. lia.
Qed.

Lemma c09_any : forall fuel ds kw o g, pc_source (ds_dis ds) -> scored o (ds_dis ds) -> plain o -> known_type o ->
  (po_tie o = None \/ po_tie o = Some "even_split"%string) -> 2 <= fuel ->
  exists pc after, to_pc_dataset fuel ds kw o g = Ok (pc, after, 0) /\
    ds_refs pc = ds_refs ds /\ attributes_kept ds kw pc /\ Forall2 pc_video (ds_dis ds) (ds_dis pc) /\
    forall a s b v, outcome pc a s b v <->
      exists va vb x y, In va (ds_dis ds) /\ In vb (ds_dis ds) /\ dv_aid va = a /\ dv_aid vb = b /\ a <> b /\
        (any_content o = true \/ dv_cid va = dv_cid vb) /\ rated va s x /\ rated vb s y /\ wins_or_ties x y v.
Proof.
  intros fuel ds kw o g Hs Hsc Hp Ht Htie Hfu.
  destruct (pc_total 1 fuel ds kw o g Hs Hsc (plain_check o _ Hp Ht Htie) (plain_rates o Hp) ltac:(lia)) as (pc & after & n & H).
  pose proof (plain_deterministic o Hp Htie) as Hdet.
  assert (U : forall s va vb, compared (ds_dis ds) (any_content o) s va vb -> exists x y, rated va s x /\ rated vb s y /\
      (forall v, outcome pc (dv_aid va) s (dv_aid vb) v <-> wins_or_ties x y v) /\
      (forall v, outcome pc (dv_aid vb) s (dv_aid va) v <-> wins_or_ties y x v)).
  { intros s va vb Hc. destruct (deterministic_pair _ _ _ _ _ _ _ _ Hs Hsc Hdet H s va vb Hc) as (q & i & j & m & ws & m' & x & y & _ & _ & Q & C & R1 & R2 & W & O1 & O2).
    exists x, y. split; [exact R1|]. split; [exact R2|]. assert (Er : q_rate q = Fin 1).
    { destruct Q as ((r & P & ->) & _). destruct Hp as (P1 & P2 & _). unfold pair_mean in P. rewrite P1, P2 in P. subst r. reflexivity. }
    rewrite Er in C. destruct (comparisons_unit _ _ _ _ _ C) as [w ->]. destruct (gain_pair [w] x y W ltac:(discriminate)) as [K1 K2].
    split; intros v; [rewrite O1; apply K1|rewrite O2; apply K2]. }
  assert (N0 : n = 0).
  { apply (no_draws _ _ _ _ _ _ _ _ Hs Hsc Hdet H). intros s va vb i j q Q. exists 1. destruct Q as ((z & P & ->) & _). destruct Hp as (P1 & P2 & _).
    unfold pair_mean in P. rewrite P1, P2 in P. subst z. reflexivity. }
  subst n. exists pc, after. split; [exact H|].
  destruct (run_inv _ _ _ _ _ _ _ _ Hs H) as (_ & _ & _ & _ & _ & _ & _ & _ & _ & _ & F1 & F2 & F3 & _). repeat (split; [assumption|]).
  destruct (pc_general _ _ _ _ _ _ _ _ Hs Hsc H) as [_ GB]. intros a s b v. split.
  - intros Hv. destruct (GB a s b v Hv) as (va & vb & Hc & [[-> ->]|[-> ->]]); destruct (U s va vb Hc) as (x & y & R1 & R2 & O1 & O2); pose proof Hc as (Ia & Ib & _ & _ & L & T').
    + apply O1 in Hv. exists va, vb, x, y. repeat split; try assumption. lia.
    + apply O2 in Hv. exists vb, va, y, x. repeat split; try assumption; [lia|destruct T'; [left; assumption|right; congruence]].
  - intros (va & vb & x & y & Ia & Ib & <- & <- & Hne & T' & R1 & R2 & Hv).
    assert (V1 : exists w, vote_of va s w) by (destruct R1; eexists; eassumption). assert (V2 : exists w, vote_of vb s w) by (destruct R2; eexists; eassumption).
    destruct (Z.lt_trichotomy (dv_aid va) (dv_aid vb)) as [L|[E|L]]; [|contradiction|].
    + assert (Hc : compared (ds_dis ds) (any_content o) s vb va) by (repeat split; try assumption; destruct T'; [left; assumption|right; congruence]).
      destruct (U s vb va Hc) as (x' & y' & R1' & R2' & O1 & O2). pose proof (rated_fun _ _ _ _ _ Hs Ib R2 R1') as E1. pose proof (rated_fun _ _ _ _ _ Hs Ia R1 R2') as E2.
      subst x' y'. apply O2. exact Hv.
    + assert (Hc : compared (ds_dis ds) (any_content o) s va vb) by (repeat split; assumption).
      destruct (U s va vb Hc) as (x' & y' & R1' & R2' & O1 & O2). pose proof (rated_fun _ _ _ _ _ Hs Ia R1 R1') as E1. pose proof (rated_fun _ _ _ _ _ Hs Ib R2 R2') as E2.
      subst x' y'. apply O1. exact Hv.
Qed.

Lemma rated_finite : forall dvs dv s x, finite_single dvs -> In dv dvs -> rated dv s x -> exists r, x = Fin r.
Proof. intros dvs dv s x Hf Hin [H|H]; destruct (Hf dv s _ Hin H) as (r & [E|E]); try discriminate; exists r; congruence. Qed.
Lemma wins_finite : forall x y v, wins_or_ties (Fin x) (Fin y) v <-> (y < x)%R /\ v = Fin 1 \/ x = y /\ v = Fin (1/2).
Proof.
  intros. unfold wins_or_ties. rewrite ef_ltb_Fin, !ef_ltb_FinF. split; (intros [H|H]; [left; exact H|right]).
  - destruct H as (H1 & H2 & H3). split; [lra|exact H3].
  - destruct H as (H1 & H2). repeat split; [lra|lra|exact H2].
Qed.

Lemma c09 : forall fuel ds kw o g, pc_source (ds_dis ds) -> finite_single (ds_dis ds) -> plain o -> known_type o ->
  (po_tie o = None \/ po_tie o = Some "even_split"%string) -> 2 <= fuel ->
  exists pc after, to_pc_dataset fuel ds kw o g = Ok (pc, after, 0) /\
    ds_refs pc = ds_refs ds /\ attributes_kept ds kw pc /\ Forall2 pc_video (ds_dis ds) (ds_dis pc) /\
    forall a s b v, outcome pc a s b v <->
      exists va vb x y, In va (ds_dis ds) /\ In vb (ds_dis ds) /\ dv_aid va = a /\ dv_aid vb = b /\ a <> b /\
        (any_content o = true \/ dv_cid va = dv_cid vb) /\ rated va s (Fin x) /\ rated vb s (Fin y) /\
        ((y < x)%R /\ v = Fin 1 \/ x = y /\ v = Fin (1/2)).
Proof.
  intros fuel ds kw o g Hs Hfin Hp Ht Htie Hfu.
  pose proof (finite_scored o _ (proj2 (proj2 (proj2 (proj2 (proj2 (proj2 Hp)))))) Hfin) as Hsc.
  destruct (c09_any fuel ds kw o g Hs Hsc Hp Ht Htie Hfu) as (pc & after & H & F1 & F2 & F3 & K). exists pc, after. repeat (split; [assumption|]).
  intros a s b v. rewrite K. split.
  - intros (va & vb & x & y & Ia & Ib & Ea & Eb & Hne & T' & R1 & R2 & W). destruct (rated_finite _ _ _ _ Hfin Ia R1) as [x' ->]. destruct (rated_finite _ _ _ _ Hfin Ib R2) as [y' ->].
    exists va, vb, x', y'. repeat (split; [assumption|]). apply wins_finite, W.
  - intros (va & vb & x & y & Ia & Ib & Ea & Eb & Hne & T' & R1 & R2 & W). exists va, vb, (Fin x), (Fin y). repeat (split; [assumption|]). apply wins_finite, W.
Qed.

(** ** Sampling *)
Lemma c11_zero : forall fuel ds kw o g pc after n x, pc_source (ds_dis ds) -> scored o (ds_dis ds) -> po_rate o = Some (Fin x) -> (x <= 0)%R ->
  to_pc_dataset fuel ds kw o g = Ok (pc, after, n) -> n = 0 /\ forall a s b v, ~ outcome pc a s b v.
Proof.
  intros fuel ds kw o g pc after n x Hs Hsc Hr Hx H. split.
  - destruct (pairs_known _ _ _ _ _ _ _ _ Hs Hsc H) as (ps & _ & _ & Hn). cut (n <= 5 * 0 * length ps); [lia|]. apply Hn. repeat split.
    + intros r E. exists x. split; [congruence|simpl; lra].
    + intros l r E. exfalso. destruct (run_inv _ _ _ _ _ _ _ _ Hs H) as (_ & _ & _ & Hchk & _). unfold pc_check in Hchk. rewrite Hr, E in Hchk.
      cbn [is_some andb negb] in Hchk. rewrite ?andb_false_r, ?andb_false_l in Hchk. discriminate.
    + congruence.
  - intros a s b v Hv. destruct (pair_outcomes _ _ _ _ _ _ _ _ Hs Hsc H a s b v Hv) as (q & m & ws & m' & va & vb & i & j & Q & Hc & C & Hab).
    assert (Er : q_rate q = Fin x). { destruct Q as ((z & P & ->) & _). unfold pair_mean in P. rewrite Hr in P. subst z. reflexivity. }
    rewrite Er in C. inversion C; subst.
    + destruct Hab as [(_ & _ & X & _)|(_ & _ & X & _)]; discriminate.
    + apply ef_leb_Fin in H0. lra.
    + apply ef_ltb_Fin in H0. lra.
    + apply ef_ltb_Fin in H0. lra.
Qed.

Lemma c11_sub : forall fuel fuel0 ds kw kw0 o g g0 pc after n pc0 after0 n0, pc_source (ds_dis ds) -> scored o (ds_dis ds) -> deterministic o ->
  to_pc_dataset fuel ds kw o g = Ok (pc, after, n) -> to_pc_dataset fuel0 ds kw0 (unsampled o) g0 = Ok (pc0, after0, n0) ->
  forall a s b v, outcome pc a s b v -> outcome pc0 a s b v.
Proof.
  intros fuel fuel0 ds kw kw0 o g g0 pc after n pc0 after0 n0 Hs Hsc Hdet H H0 a s b v Hv.
  destruct (pc_general _ _ _ _ _ _ _ _ Hs Hsc H) as [_ GB]. destruct (GB a s b v Hv) as (va & vb & Hc & Hab).
  assert (Hdet0 : deterministic (unsampled o)) by exact Hdet. assert (Hsc0 : scored (unsampled o) (ds_dis ds)) by exact Hsc.
  destruct (deterministic_pair _ _ _ _ _ _ _ _ Hs Hsc Hdet H s va vb Hc) as (q & i & j & m & ws & m' & x & y & _ & _ & Q & C & R1 & R2 & W & O1 & O2).
  destruct (deterministic_pair _ _ _ _ _ _ _ _ Hs Hsc0 Hdet0 H0 s va vb Hc) as (q0 & i0 & j0 & m0 & ws0 & m0' & x0 & y0 & _ & _ & Q0 & C0 & R10 & R20 & W0 & O10 & O20).
  pose proof Hc as (Ia & Ib & _). pose proof (rated_fun _ _ _ _ _ Hs Ia R1 R10) as E1. pose proof (rated_fun _ _ _ _ _ Hs Ib R2 R20) as E2. subst x0 y0.
  assert (Er : q_rate q0 = Fin 1) by (destruct Q0 as ((z & P & ->) & _); cbn in P; subst z; reflexivity). rewrite Er in C0.
  destruct (comparisons_unit _ _ _ _ _ C0) as [w ->]. destruct (gain_pair [w] x y W0 ltac:(discriminate)) as [K10 K20].
  assert (Hne : ws <> []) by (intros ->; destruct Hab as [[-> ->]|[-> ->]]; [apply O1 in Hv|apply O2 in Hv]; discriminate).
  destruct (gain_pair ws x y W Hne) as [K1 K2].
  destruct Hab as [[-> ->]|[-> ->]]; [apply O10, K10, K1, O1, Hv|apply O20, K20, K2, O2, Hv].
Qed.

(** Storing twice. *)
Lemma dset_same_id : forall K V (keqb : K -> K -> bool), (forall x y, keqb x y = true <-> x = y) -> forall (d : list (K * V)) k v, dget keqb d k = Some v -> dset keqb d k v = d.
Proof.
  intros K V keqb Hk d k v; induction d as [|[k' v'] d IH]; cbn [dget dset]; intros H; [discriminate|].
  destruct (keqb k k') eqn:E.
  - f_equal. congruence.
  - f_equal. auto.
Qed.
Lemma list_set_same : forall A (l : list A) i a, nth_error l i = Some a -> list_set l i a = l.
Proof. intros A l; induction l as [|b l IH]; intros [|i] a H; cbn in *; try discriminate; [congruence|]. f_equal. auto. Qed.

Definition stored {T} (index : list (Z * nat)) (dicts : list (list ((string * Z) * pyv T))) (x : assign T) : Prop :=
  exists i d, dget Z.eqb index (as_a x) = Some i /\ nth_error dicts i = Some d /\ dget pckey_eqb d (as_s x, as_b x) = Some (PNum (as_v x)).
Lemma stored_noop : forall T index dicts (x : assign T), stored index dicts x -> pc_store index dicts x = Ok dicts.
Proof.
  intros T index dicts x (i & d & E1 & E2 & E3). unfold pc_store, dget_res. rewrite E1. cbn [bind]. unfold py_index. rewrite E2. cbn [bind]. f_equal.
  rewrite dset_same_id; [apply list_set_same, E2| |exact E3]. exact pckey_spec.
Qed.
Lemma store_stored : forall T index dicts dicts' (x : assign T), pc_store index dicts x = Ok dicts' -> stored index dicts' x.
Proof.
  intros T index dicts dicts' x H. unfold pc_store, dget_res in H. destruct (dget Z.eqb index (as_a x)) as [i|] eqn:E1; cbn [bind] in H; [|discriminate].
  unfold py_index in H. destruct (nth_error dicts i) as [d|] eqn:E2; cbn [bind] in H; [|discriminate]. apply Ok_inj in H. subst dicts'.
  assert (L : i < length dicts) by (apply nth_error_Some; congruence).
  exists i. eexists. split; [exact E1|]. rewrite nth_error_list_set by exact L. rewrite Nat.eqb_refl. split; [reflexivity|]. apply (dget_dset_same pckey_eqb pckey_spec).
Qed.
Lemma store_other : forall T index dicts dicts' (x y : assign T), pc_store index dicts x = Ok dicts' -> as_a x <> as_a y -> (as_s x, as_b x) <> (as_s y, as_b y) ->
  stored index dicts y -> stored index dicts' y.
Proof.
  intros T index dicts dicts' x y H _ Hne (j & dj & F1 & F2 & F3). unfold pc_store, dget_res in H. destruct (dget Z.eqb index (as_a x)) as [i|] eqn:E1; cbn [bind] in H; [|discriminate].
  unfold py_index in H. destruct (nth_error dicts i) as [d|] eqn:E2; cbn [bind] in H; [|discriminate]. apply Ok_inj in H. subst dicts'.
  assert (L : i < length dicts) by (apply nth_error_Some; congruence). exists j. rewrite nth_error_list_set by exact L. destruct (Nat.eqb i j) eqn:E.
  - apply Nat.eqb_eq in E. subst j. eexists. split; [exact F1|]. split; [reflexivity|]. assert (dj = d) by congruence. subst dj.
    rewrite (dget_dset_other pckey_eqb pckey_spec); [exact F3|congruence].
  - exists dj. auto.
Qed.
Lemma asg_twice : forall (p : pair ef) index w dicts dicts', pr_b p <> pr_a p -> foldM (pc_store index) (asg p w) dicts = Ok dicts' ->
  foldM (pc_store index) (asg p w) dicts' = Ok dicts'.
Proof.
  intros p index w dicts dicts' Hne H. destruct w; cbn [asg foldM] in *.
  - destruct (pc_store index dicts (a_wins p)) as [d|] eqn:E; cbn [bind] in H; [|discriminate]. apply Ok_inj in H. subst d. rewrite (stored_noop _ _ _ _ (store_stored _ _ _ _ _ E)). reflexivity.
  - destruct (pc_store index dicts (b_wins p)) as [d|] eqn:E; cbn [bind] in H; [|discriminate]. apply Ok_inj in H. subst d. rewrite (stored_noop _ _ _ _ (store_stored _ _ _ _ _ E)). reflexivity.
  - match type of H with bind (pc_store _ _ ?x) _ = _ => set (x1 := x) in *; destruct (pc_store index dicts x1) as [d|] eqn:E; cbn [bind] in H; [|discriminate] end.
    match type of H with bind (pc_store _ _ ?x) _ = _ => set (x2 := x) in *; destruct (pc_store index d x2) as [d2|] eqn:E2; cbn [bind] in H; [|discriminate] end.
    apply Ok_inj in H. subst d2. pose proof (store_stored _ _ _ _ _ E2) as S2. 
    assert (S1 : stored index dicts' x1). { eapply store_other; [exact E2| | |eapply store_stored, E]; cbn; congruence. }
    rewrite (stored_noop _ _ _ _ S1). cbn [bind]. rewrite (stored_noop _ _ _ _ S2). reflexivity.
Qed.
Lemma asg_repeat : forall (p : pair ef) index w ws dicts, pr_b p <> pr_a p -> ws <> [] -> (forall z, In z ws -> z = w) ->
  foldM (pc_store index) (flat_map (asg p) ws) dicts = foldM (pc_store index) (asg p w) dicts.
Proof.
  intros p index w ws dicts Hab Hne Hw. destruct ws as [|w0 ws]; [contradiction|]. rewrite (Hw w0) by (left; reflexivity). clear Hne. cbn [flat_map].
  rewrite foldM_app. destruct (foldM (pc_store index) (asg p w) dicts) as [d|] eqn:E; cbn [bind]; [|reflexivity].
  pose proof (asg_twice p index w _ _ Hab E) as Tw. clear E. assert (Hw' : forall z, In z ws -> z = w) by (intros; apply Hw; right; assumption). clear Hw.
  induction ws as [|z ws IH]; cbn [flat_map foldM]; [reflexivity|]. rewrite foldM_app, (Hw' z) by (left; reflexivity). rewrite Tw. cbn [bind]. apply IH. intros; apply Hw'; right; assumption.
Qed.

Lemma c11_integer : forall k fuel ds kw o g pc after n, pc_source (ds_dis ds) -> scored o (ds_dis ds) -> deterministic o ->
  po_rate o = Some (Fin (INR (S k))) -> to_pc_dataset fuel ds kw o g = Ok (pc, after, n) ->
  n = 0 /\ forall fuel0 g0, 2 <= fuel0 -> to_pc_dataset fuel0 ds kw (unsampled o) g0 = Ok (pc, after, 0).
Proof.
  intros k fuel ds kw o g pc after n Hs Hsc Hdet Hr H. pose proof Hdet as (_ & _ & _ & _ & Hm & _).
  assert (Rt : forall s va vb i j q, deciding_at o s va vb i j q -> q_rate q = Fin (INR (S k))).
  { intros s va vb i j q ((z & P & ->) & _). unfold pair_mean in P. rewrite Hr in P. subst z. reflexivity. }
  assert (Rt0 : forall s va vb i j q, deciding_at (unsampled o) s va vb i j q -> q_rate q = Fin (INR 1)).
  { intros s va vb i j q ((z & P & ->) & _). cbn in P. subst z. reflexivity. }
  assert (N : n = 0) by (apply (no_draws _ _ _ _ _ _ _ _ Hs Hsc Hdet H); intros; eexists; eapply Rt; eassumption).
  split; [exact N|]. subst n. intros fuel0 g0 Hfu.
  destruct (run_inv _ _ _ _ _ _ _ _ Hs H) as (dvs' & tbl & rs & Hchk & Hcv & Hd & Hf & Htb & Hmm & _).
  assert (Hchk0 : pc_check (unsampled o) (length (ds_dis ds)) = Ok tt).
  { destruct Hdet as (P3 & P4 & P5 & P6 & P7 & _). revert Hchk. unfold pc_check, the_type, the_tie, unsampled. cbn [po_type po_tie po_rate po_rates po_coin po_coins po_noise po_noises po_means].
    rewrite P3, P4, P5, P6, P7. cbn [is_some andb negb o_all]. rewrite ?andb_true_r.
    destruct (String.eqb _ "within_subject_within_content"%string || _), (String.eqb _ "even_split"%string || _); cbn [andb assert_]; try discriminate; intros; reflexivity. }
  assert (Hsc0 : scored (unsampled o) (ds_dis ds)) by exact Hsc.
  destruct (pc_total 1 fuel0 ds kw (unsampled o) g0 Hs Hsc0 Hchk0) as (pc0 & after0 & n0 & H0); [|lia|].
  { repeat split; cbn; try congruence. lia. }
  assert (N0 : n0 = 0) by (apply (no_draws _ _ _ _ _ _ _ _ Hs Hsc0 Hdet H0); intros; eexists; eapply Rt0; eassumption). subst n0.
  rewrite H0. destruct (run_inv _ _ _ _ _ _ _ _ Hs H0) as (dvs0 & tbl0 & rs0 & _ & Hcv0 & _ & _ & Htb0 & Hmm0 & _).
  assert (dvs0 = dvs') by congruence. subst dvs0. assert (tbl0 = tbl) by congruence. subst tbl0.
  assert (Esp : flat_map (subject_pairs (unsampled o)) tbl = flat_map (subject_pairs o) tbl) by reflexivity. rewrite Esp in Hmm0.
  unfold to_pc_dataset in H, H0. rewrite Hchk, Hcv in H. rewrite Hchk0, Hcv in H0. cbn [bind] in H, H0. rewrite Htb in H, H0. cbn [bind] in H, H0.
  rewrite Esp, Hmm0 in H0. rewrite Hmm in H. cbn [bind fst snd] in H, H0.
  cut (forall d, foldM (pc_store (assetid_index dvs')) (concat rs0) d = foldM (pc_store (assetid_index dvs')) (concat rs) d).
  { intros X. rewrite X in H0. congruence. }
  pose proof Hs as (_ & ND & _). destruct (all_pairs_spec (ds_dis ds) dvs' o tbl ND Hf Hd Htb) as (_ & PA & _).
  destruct (mapS_nth _ _ _ _ _ _ _ Hmm) as [L1 M1]. destruct (mapS_nth _ _ _ _ _ _ _ Hmm0) as [L0 M0].
  assert (F : forall i r0 r, nth_error rs0 i = Some r0 -> nth_error rs i = Some r -> forall d, foldM (pc_store (assetid_index dvs')) r0 d = foldM (pc_store (assetid_index dvs')) r d).
  { intros i r0 r E0 E1 d. destruct (nth_error (flat_map (subject_pairs o) tbl) i) as [p|] eqn:Ep.
    2:{ apply nth_error_None in Ep. assert (i < length rs) by (apply nth_error_Some; congruence). lia. }
    destruct (M1 i p Ep) as (a1 & r1 & b1 & G1 & G2). destruct (M0 i p Ep) as (a0 & r0' & b0 & G3 & G4). assert (r1 = r) by congruence. assert (r0' = r0) by congruence. subst r1 r0'.
    destruct (PA p (nth_error_In _ _ Ep)) as (va & vb & (Ia & Ib & _ & _ & Lt & _) & Ea & Eb & Va & Vb & Ra & Rb).
    destruct (model_deciding_ex o _ p va vb Hs Hsc Hchk Ia Ib Ea Eb Va Vb Ra Rb) as (q & Q1 & Q2).
    destruct (model_deciding_ex (unsampled o) _ p va vb Hs Hsc0 Hchk0 Ia Ib Ea Eb Va Vb Ra Rb) as (q0 & Q10 & Q20).
    unfold pc_pair in G2, G4. rewrite (proj1 Q1) in G2. rewrite (proj1 Q10) in G4. cbn [bind] in G2, G4.
    destruct (while_spec o g p _ _ _ _ _ _ Q1 G2) as (ws & W1 & ->). destruct (while_spec (unsampled o) g0 p _ _ _ _ _ _ Q10 G4) as (ws0 & W10 & ->).
    destruct (deciding_deterministic o _ _ _ _ _ _ Hdet Q2) as (D1 & D2 & D3 & D4). destruct (deciding_deterministic (unsampled o) _ _ _ _ _ _ Hdet Q20) as (D10 & D20 & D30 & D40).
    rewrite (Rt _ _ _ _ _ _ Q2) in W1. rewrite (Rt0 _ _ _ _ _ _ Q20) in W10.
    destruct (comparisons_integer _ _ _ _ _ _ D1 D2 D3 D4 W1) as [_ Len]. destruct (comparisons_integer _ _ _ _ _ _ D10 D20 D30 D40 W10) as [_ Len0].
    pose proof (comparisons_deterministic _ _ _ _ _ _ D1 D2 D3 D4 W1) as A1. pose proof (comparisons_deterministic _ _ _ _ _ _ D10 D20 D30 D40 W10) as A0.
    assert (Sc : q_score1 q0 = q_score1 q /\ q_score2 q0 = q_score2 q).
    { destruct Q2 as (_ & _ & _ & _ & S1 & S2 & _). destruct Q20 as (_ & _ & _ & _ & S10 & S20 & _). unfold the_score in *. cbn [unsampled po_means] in S10, S20. rewrite Hm in *.
      split; [eapply (rated_fun _ va); eassumption|eapply (rated_fun _ vb); eassumption]. }
    destruct Sc as [Sc1 Sc2]. rewrite Sc1, Sc2 in A0.
    assert (Nab : pr_b p <> pr_a p) by (rewrite <- Ea, <- Eb; lia).
    rewrite (asg_repeat p _ (fair (q_score1 q) (q_score2 q)) ws d Nab); [|intros ->; discriminate|exact A1].
    rewrite (asg_repeat p _ (fair (q_score1 q) (q_score2 q)) ws0 d Nab); [|intros ->; discriminate|exact A0]. reflexivity. }
  assert (L : length rs0 = length rs) by congruence. clear - L F. revert rs L F. induction rs0 as [|r0 rs0 IH]; intros [|r rs] L F d; try discriminate; [reflexivity|].
  cbn [concat]. rewrite !foldM_app. rewrite (F 0 r0 r eq_refl eq_refl). destruct (foldM _ r d) as [d'|]; cbn [bind]; [|reflexivity]. apply IH; [simpl in L; lia|]. intros i a b E0 E1. apply (F (S i) a b E0 E1).
Qed.
