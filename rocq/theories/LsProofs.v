(** Proofs about the least squares model. *)
From Coq Require Import String.
From Coq Require Import List ZArith Bool Arith Reals Lra Lia.
From Verif Require Import PyBase Num ExtReal NumPy Dataset Preproc Mos AP Mle OtherModels SpecMos SpecAp SpecMle SpecOther
  BaseProofs ExtRealProofs ArrayProofs MosProofs Reject2Proofs StepsProofs ApProofs Ap2Proofs MleProofs Mle2Proofs MosReportProofs.
Import ListNotations.
Local Open Scope R_scope.

(** ** Finite sums *)
Lemma sum_ext : forall n f g, (forall i, (i < n)%nat -> f i = g i) -> sum_to n f = sum_to n g.
Proof. intros n f g H. apply Rsum_map_ext. intros i Hi. apply in_seq in Hi. apply H. lia. Qed.
Lemma sum_add : forall n f g, sum_to n (fun i => f i + g i) = sum_to n f + sum_to n g.
Proof. intros. apply Rsum_map_add. Qed.
Lemma sum_sub : forall n f g, sum_to n (fun i => f i - g i) = sum_to n f - sum_to n g.
Proof. intros. apply Rsum_map_sub. Qed.
Lemma sum_mull : forall n c f, sum_to n (fun i => c * f i) = c * sum_to n f.
Proof. intros. apply Rsum_map_mul. Qed.
Lemma sum_mulr : forall n f c, sum_to n (fun i => f i * c) = sum_to n f * c.
Proof. intros. apply Rsum_map_mulr. Qed.
Lemma sum_const : forall n c, sum_to n (fun _ => c) = INR n * c.
Proof. intros. unfold sum_to. rewrite Rsum_map_const, seq_length. reflexivity. Qed.
Lemma sum_swap : forall m n f, sum_to m (fun i => sum_to n (f i)) = sum_to n (fun j => sum_to m (fun i => f i j)).
Proof. intros. apply Rsum_swap. Qed.
Lemma sum_S : forall n f, sum_to (S n) f = sum_to n f + f n.
Proof. intros. unfold sum_to. rewrite seq_S, map_app, Rsum_app. cbn [map plus]. rewrite Rsum_cons. change (Rsum []) with 0. ring. Qed.
Lemma sum_app : forall m n f, sum_to (m + n) f = sum_to m f + sum_to n (fun i => f (m + i)%nat).
Proof.
  intros m n f. induction n as [|n IH]; [rewrite Nat.add_0_r; unfold sum_to at 3; cbn; change (Rsum []) with 0; ring|].
  rewrite Nat.add_succ_r, !sum_S, IH. ring.
Qed.
Lemma sum_zero : forall n f, (forall i, (i < n)%nat -> f i = 0) -> sum_to n f = 0.
Proof. intros n f H. rewrite (sum_ext n f (fun _ => 0) H), sum_const. ring. Qed.
Lemma sum_pick : forall n i f, (i < n)%nat -> sum_to n (fun j => if Nat.eqb j i then f j else 0) = f i.
Proof. intros n i f H. apply Rsum_one. lia. Qed.
Lemma sum_squares : forall n f, sum_to n (fun i => f i * f i) = 0 -> forall i, (i < n)%nat -> f i = 0.
Proof.
  intros n f H i Hi. assert (E : f i * f i = 0).
  { apply (Rsum_eq0 (map (fun i => f i * f i) (seq 0 n))); [|exact H|apply in_map_iff; exists i; split; [reflexivity|apply in_seq; lia]].
    intros y Hy. apply in_map_iff in Hy as (j & <- & _). apply Rle_0_sqr. }
  apply Rmult_integral in E. tauto.
Qed.
(** Rows e * S + s. *)
Lemma sum_rows : forall E S f, sum_to (E * S) f = sum_to E (fun e => sum_to S (fun s => f (e * S + s)%nat)).
Proof.
  intros E S f. induction E as [|E IH]; [reflexivity|]. replace (Datatypes.S E * S)%nat with (E * S + S)%nat by lia.
  rewrite sum_app, IH, sum_S. reflexivity.
Qed.

(** ** Systems with independent columns *)
Section System.
  Variables (m n : nat) (a p : nat -> nat -> R) (y zs : nat -> R).
  Hypothesis PI : pseudo_inverse m n a p.
  (** The residuals of zs are orthogonal to the columns. *)
  Hypothesis N : forall c, (c < n)%nat -> sum_to m (fun r => a r c * (y r - sum_to n (fun k => a r k * zs k))) = 0.
  Hypothesis I : forall d, (forall r, (r < m)%nat -> sum_to n (fun k => a r k * d k) = 0) -> forall c, (c < n)%nat -> d c = 0.
  Let z (i : nat) : R := sum_to m (fun j => p i j * y j).

  Lemma normal : forall c, (c < n)%nat -> sum_to m (fun r => a r c * sum_to n (fun k => a r k * z k)) = sum_to m (fun r => a r c * y r).
  Proof.
    intros c Hc. destruct PI as (P1 & P2).
    transitivity (sum_to m (fun r => sum_to m (fun j => a r c * sum_to n (fun k => a r k * p k j) * y j))).
    - apply sum_ext. intros r Hr. unfold z. rewrite (sum_ext n _ (fun k => sum_to m (fun j => a r k * p k j * y j))).
      2: { intros k Hk. rewrite <- sum_mull. apply sum_ext. intros; ring. }
      rewrite sum_swap, <- sum_mull. apply sum_ext. intros j Hj. rewrite sum_mulr. ring.
    - rewrite sum_swap. apply sum_ext. intros j Hj. rewrite <- (P1 j c Hj Hc). rewrite sum_mulr. f_equal.
      apply sum_ext. intros r Hr. rewrite (P2 r j Hr Hj). ring.
  Qed.
  Lemma system_solved : forall c, (c < n)%nat -> z c = zs c.
  Proof.
    set (d := fun k => z k - zs k).
    assert (AD : forall r, sum_to n (fun k => a r k * d k) = sum_to n (fun k => a r k * z k) - sum_to n (fun k => a r k * zs k)).
    { intro r. rewrite <- sum_sub. apply sum_ext. intros. unfold d. ring. }
    assert (Q : forall c, (c < n)%nat -> sum_to m (fun r => a r c * sum_to n (fun k => a r k * d k)) = 0).
    { intros c Hc. assert (H1 := normal c Hc). assert (H2 := N c Hc).
      rewrite (sum_ext m _ (fun r => a r c * y r - a r c * sum_to n (fun k => a r k * zs k))) in H2 by (intros; ring). rewrite sum_sub in H2.
      rewrite (sum_ext m _ (fun r => a r c * sum_to n (fun k => a r k * z k) - a r c * sum_to n (fun k => a r k * zs k))) by (intros; rewrite AD; ring).
      rewrite sum_sub. lra. }
    assert (Z : forall r, (r < m)%nat -> sum_to n (fun k => a r k * d k) = 0).
    { apply sum_squares. transitivity (sum_to n (fun c => d c * sum_to m (fun r => a r c * sum_to n (fun k => a r k * d k)))).
      - rewrite (sum_ext m _ (fun r => sum_to n (fun c => d c * (a r c * sum_to n (fun k => a r k * d k))))).
        2: { intros r Hr. rewrite <- sum_mulr. apply sum_ext. intros; ring. }
        rewrite sum_swap. apply sum_ext. intros c Hc. rewrite sum_mull. reflexivity.
      - apply sum_zero. intros c Hc. rewrite Q by exact Hc. ring. }
    intros c Hc. assert (D := I d Z c Hc). unfold d in D. lra.
  Qed.
End System.

(** ** The design *)
Lemma row_of : forall S e s, (s < S)%nat -> ((e * S + s) mod S = s /\ (e * S + s) / S = e)%nat.
Proof.
  intros S e s H. split.
  - rewrite Nat.add_comm, Nat.mod_add by lia. apply Nat.mod_small; exact H.
  - rewrite Nat.div_add_l by lia. rewrite Nat.div_small by exact H. lia.
Qed.
Lemma row_below : forall E S e s, (e < E)%nat -> (s < S)%nat -> (e * S + s < E * S)%nat.
Proof. intros. nia. Qed.
Section Design.
  Variables (E S : nat).
  Hypothesis (HS : (0 < S)%nat) (HE : (0 < E)%nat).
  Lemma row_val : forall e s (d : nat -> R), (e < E)%nat -> (s < S)%nat ->
    sum_to (S + E) (fun k => design E S (e * S + s) k * d k) = d s + d (S + e)%nat.
  Proof.
    intros e s d He Hs. unfold design. destruct (row_of S e s Hs) as (-> & ->). assert (H := row_below E S e s He Hs). apply Nat.ltb_lt in H. rewrite H.
    rewrite sum_app. f_equal.
    - rewrite <- (sum_pick S s d Hs). apply sum_ext. intros i Hi. destruct (Nat.eqb_spec i s) as [->|Ne]; cbn [orb]; [ring|].
      destruct (Nat.eqb_spec i (S + e)); [lia|]. ring.
    - rewrite <- (sum_pick E e (fun k => d (S + k)%nat) He). apply sum_ext. intros i Hi.
      destruct (Nat.eqb_spec (S + i) s); [lia|]. cbn [orb].
      destruct (Nat.eqb_spec (S + i) (S + e)), (Nat.eqb_spec i e); try lia; ring.
  Qed.
  Lemma last_val : forall d : nat -> R, sum_to (S + E) (fun k => design E S (E * S) k * d k) = d S.
  Proof.
    intro d. unfold design. rewrite Nat.ltb_irrefl. rewrite <- (sum_pick (S + E) S d) by lia. apply sum_ext. intros i Hi.
    destruct (Nat.eqb_spec i S); ring.
  Qed.
  Lemma design_injective : forall d, (forall r, (r < E * S + 1)%nat -> sum_to (S + E) (fun k => design E S r k * d k) = 0) ->
    forall c, (c < S + E)%nat -> d c = 0.
  Proof.
    intros d H. assert (H0 : d S = 0) by (rewrite <- last_val; apply H; lia).
    assert (R : forall e s, (e < E)%nat -> (s < S)%nat -> d s + d (S + e)%nat = 0).
    { intros e s He Hs. rewrite <- row_val by assumption. apply H. assert (X := row_below E S e s He Hs). lia. }
    assert (B : forall s, (s < S)%nat -> d s = 0). { intros s Hs. assert (X := R 0%nat s HE Hs). rewrite Nat.add_0_r, H0 in X. lra. }
    intros c Hc. destruct (Nat.lt_ge_cases c S) as [L|L]; [apply B; exact L|].
    assert (X := R (c - S)%nat 0%nat ltac:(lia) HS). rewrite (B 0%nat HS) in X. replace (S + (c - S))%nat with c in X by lia. lra.
  Qed.
  (** Sums over the rows against a column. *)
  Lemma column_subject : forall w s, (s < S)%nat -> w (E * S)%nat = 0 ->
    sum_to (E * S + 1) (fun r => design E S r s * w r) = sum_to E (fun e => w (e * S + s)%nat).
  Proof.
    intros w s Hs W. rewrite Nat.add_1_r, sum_S, W, sum_rows, Rmult_0_r, Rplus_0_r. apply sum_ext. intros e He.
    rewrite <- (sum_pick S s (fun k => w (e * S + k)%nat) Hs). apply sum_ext. intros k Hk.
    unfold design. destruct (row_of S e k Hk) as (-> & ->). assert (H := row_below E S e k He Hk). apply Nat.ltb_lt in H. rewrite H.
    destruct (Nat.eqb_spec s (S + e)); [lia|]. rewrite Bool.orb_false_r, (Nat.eqb_sym s k). destruct (Nat.eqb k s); ring.
  Qed.
  Lemma column_video : forall w e, (e < E)%nat -> w (E * S)%nat = 0 ->
    sum_to (E * S + 1) (fun r => design E S r (S + e) * w r) = sum_to S (fun s => w (e * S + s)%nat).
  Proof.
    intros w e He W. rewrite Nat.add_1_r, sum_S, W, sum_rows, Rmult_0_r, Rplus_0_r.
    rewrite <- (sum_pick E e (fun k => sum_to S (fun s => w (k * S + s)%nat)) He). apply sum_ext. intros k Hk.
    transitivity (sum_to S (fun s => if Nat.eqb k e then w (k * S + s)%nat else 0)); [|destruct (Nat.eqb k e); [reflexivity|apply sum_zero; reflexivity]].
    apply sum_ext. intros s Hs. unfold design. destruct (row_of S k s Hs) as (-> & ->). assert (H := row_below E S k s Hk Hs). apply Nat.ltb_lt in H. rewrite H.
    destruct (Nat.eqb_spec (S + e) s); [lia|]. cbn [orb]. destruct (Nat.eqb_spec (S + e) (S + k)), (Nat.eqb_spec k e); try lia; ring.
  Qed.
End Design.

(** ** The model *)
Lemma flat_rows : forall A (g : nat -> nat -> A) E S, (0 < S)%nat ->
  flat_map (fun e => map (g e) (seq 0 S)) (seq 0 E) = map (fun r => g (r / S) (r mod S))%nat (seq 0 (E * S)).
Proof.
  intros A g E S HS. induction E as [|E IH]; [reflexivity|]. rewrite seq_S, flat_map_app, IH. cbn [flat_map plus]. rewrite app_nil_r.
  replace (Datatypes.S E * S)%nat with (E * S + S)%nat by lia. rewrite seq_app, map_app. f_equal. cbn [plus].
  rewrite <- (Nat.add_0_r (E * S)) at 1. assert (Q : forall k n, map (fun r => g (r / S) (r mod S))%nat (seq (E * S + k) n) = map (fun s => g ((E * S + s) / S) ((E * S + s) mod S))%nat (seq k n)).
  { intros k n. revert k. induction n as [|n IHn]; intro k; [reflexivity|]. cbn [seq map]. f_equal. rewrite <- Nat.add_succ_r. apply IHn. }
  rewrite Q. apply map_ext_in. intros s Hs. apply in_seq in Hs. destruct (row_of S E s) as (-> & ->); [lia|]. reflexivity.
Qed.
Lemma fin_eta : forall y, isfin y -> y = Fin (toR y).
Proof. intros [r| | |] H; cbn in H; try contradiction; reflexivity. Qed.
Section Votes.
  Variable x : arr3 ef.
  Hypothesis (C : complete_votes x) (R1 : dR x = 1%nat) (HE : (0 < dE x)%nat) (HS : (0 < dS x)%nat).
  Let Y (e s : nat) : R := toR (at3 x e s 0).
  Lemma vote_at : forall e s, (e < dE x)%nat -> (s < dS x)%nat -> at3 x e s 0 = Fin (Y e s).
  Proof. intros e s He Hs. apply fin_eta, C. unfold inside. lia. Qed.
  Lemma vsum_complete : forall e f, (e < dE x)%nat -> vsum x e f = sum_to (dS x) (fun s => f s (Y e s)).
  Proof.
    intros e f He. unfold vsum. rewrite R1. apply Rsum_map_ext. intros s Hs. apply in_seq in Hs. cbn [seq map]. rewrite vote_at by lia. cbn [vote_term].
    rewrite Rsum_cons. change (Rsum []) with 0. ring.
  Qed.
  Lemma ssum_complete : forall i f, (i < dS x)%nat -> ssum x i f = sum_to (dE x) (fun e => f e (Y e i)).
  Proof.
    intros i f Hi. unfold ssum. rewrite R1. apply Rsum_map_ext. intros e He. apply in_seq in He. cbn [seq map]. rewrite vote_at by lia. cbn [vote_term].
    rewrite Rsum_cons. change (Rsum []) with 0. ring.
  Qed.
  Lemma INR_E : INR (dE x) <> 0. Proof. apply not_0_INR. lia. Qed.
  Lemma INR_S : INR (dS x) <> 0. Proof. apply not_0_INR. lia. Qed.
  Lemma mean_vote_complete : forall e, (e < dE x)%nat -> mean_vote x e = sum_to (dS x) (Y e) / INR (dS x).
  Proof. intros e He. unfold mean_vote, vcount. rewrite !vsum_complete by exact He. rewrite sum_const. f_equal. ring. Qed.
  Lemma own_mean_complete : forall i, (i < dS x)%nat -> own_mean x i = sum_to (dE x) (fun e => Y e i) / INR (dE x).
  Proof. intros i Hi. unfold own_mean, scount. rewrite !ssum_complete by exact Hi. rewrite sum_const. f_equal. ring. Qed.
  Definition ls_y (r : nat) : R := if Nat.ltb r (dE x * dS x) then Y (r / dS x) (r mod dS x) else mean_vote x 0.
  Lemma ls_rhs_eq : ls_rhs x = map (fun r => Fin (ls_y r)) (seq 0 (dE x * dS x + 1)).
  Proof.
    unfold ls_rhs. rewrite seq_app, map_app, (flat_rows _ (fun e s => at3 x e s 0) _ _ HS). f_equal.
    - apply map_ext_in. intros r Hr. apply in_seq in Hr. unfold ls_y. assert (L : (r < dE x * dS x)%nat) by lia. apply Nat.ltb_lt in L. rewrite L.
      apply vote_at; [apply Nat.div_lt_upper_bound; lia|apply Nat.mod_upper_bound; lia].
    - cbn [seq map plus]. unfold ls_y. rewrite Nat.ltb_irrefl. f_equal.
      rewrite (map_ext_in _ (fun s => Fin (Y 0 s))) by (intros s Hs; apply in_seq in Hs; apply vote_at; lia).
      rewrite <- (map_map (Y 0) Fin), np_nanmean_finnan.
      2: { apply Forall_forall. intros z Hz. apply in_map_iff in Hz as (r & <- & _). exact I. }
      rewrite mean_vote_complete by exact HE.
      assert (PR : forall l, presents (map Fin l) = l) by (intro l; induction l as [|z l IH]; [reflexivity|cbn; f_equal; exact IH]).
      rewrite PR, nanmeanR_ne; [unfold Rmean; rewrite map_length, seq_length; reflexivity|]. destruct (dS x); [lia|discriminate].
  Qed.
  Definition ls_z (c : nat) : R := if Nat.ltb c (dS x) then own_mean x c - grand_mean x else mean_vote x (c - dS x).
  Lemma z_subject : forall s, (s < dS x)%nat -> ls_z s = own_mean x s - grand_mean x.
  Proof. intros s Hs. unfold ls_z. apply Nat.ltb_lt in Hs. rewrite Hs. reflexivity. Qed.
  Lemma z_video : forall e, ls_z (dS x + e) = mean_vote x e.
  Proof. intro e. unfold ls_z. assert (L : (dS x + e <? dS x)%nat = false) by (apply Nat.ltb_ge; lia). rewrite L. f_equal. lia. Qed.
  Lemma y_row : forall e s, (e < dE x)%nat -> (s < dS x)%nat -> ls_y (e * dS x + s) = Y e s.
  Proof.
    intros e s He Hs. unfold ls_y. destruct (row_of (dS x) e s Hs) as (-> & ->).
    assert (L := row_below (dE x) (dS x) e s He Hs). apply Nat.ltb_lt in L. rewrite L. reflexivity.
  Qed.
  Lemma bias_sum : sum_to (dS x) (fun s => own_mean x s - grand_mean x) = 0.
  Proof.
    rewrite sum_sub, sum_const. unfold grand_mean.
    rewrite (sum_ext _ _ (fun s => sum_to (dE x) (fun e => Y e s) * / INR (dE x))) by (intros s Hs; rewrite own_mean_complete by exact Hs; reflexivity).
    rewrite (sum_ext (dE x) (mean_vote x) (fun e => sum_to (dS x) (Y e) * / INR (dS x))) by (intros e He; rewrite mean_vote_complete by exact He; reflexivity).
    rewrite !sum_mulr, (sum_swap (dS x)). set (t := sum_to (dE x) (fun e => sum_to (dS x) (Y e))).
    change (sum_to (dE x) (fun j => sum_to (dS x) (fun i => Y j i))) with t. assert (A := INR_E). assert (B := INR_S). field. auto.
  Qed.
  Lemma orthogonal : forall c, (c < dS x + dE x)%nat ->
    sum_to (dE x * dS x + 1) (fun r => design (dE x) (dS x) r c * (ls_y r - sum_to (dS x + dE x) (fun k => design (dE x) (dS x) r k * ls_z k))) = 0.
  Proof.
    intros c Hc. set (w := fun r => ls_y r - sum_to (dS x + dE x) (fun k => design (dE x) (dS x) r k * ls_z k)).
    assert (W : w (dE x * dS x)%nat = 0).
    { unfold w. rewrite last_val by assumption. unfold ls_y. rewrite Nat.ltb_irrefl. assert (Z0 := z_video 0). rewrite Nat.add_0_r in Z0. rewrite Z0. ring. }
    assert (WR : forall e s, (e < dE x)%nat -> (s < dS x)%nat -> w (e * dS x + s)%nat = Y e s - ((own_mean x s - grand_mean x) + mean_vote x e)).
    { intros e s He Hs. unfold w. rewrite row_val, y_row, z_subject, z_video by assumption. reflexivity. }
    assert (A := INR_E). assert (B := INR_S).
    destruct (Nat.lt_ge_cases c (dS x)) as [L|L].
    - rewrite (column_subject (dE x) (dS x)) by assumption. rewrite (sum_ext _ _ (fun e => Y e c - ((own_mean x c - grand_mean x) + mean_vote x e))) by (intros; apply WR; assumption).
      rewrite sum_sub, sum_add, sum_const. unfold grand_mean. rewrite (own_mean_complete c L). field. exact A.
    - replace c with (dS x + (c - dS x))%nat by lia. set (e := (c - dS x)%nat). assert (He : (e < dE x)%nat) by (unfold e; lia).
      rewrite (column_video (dE x) (dS x)) by assumption. rewrite (sum_ext _ _ (fun s => Y e s - ((own_mean x s - grand_mean x) + mean_vote x e))) by (intros; apply WR; assumption).
      rewrite sum_sub, sum_add, bias_sum, sum_const, (mean_vote_complete e He). field. exact B.
  Qed.
  Lemma ls_matrix_is : is_matrix (ls_matrix (dE x) (dS x)) (dE x * dS x + 1) (dS x + dE x) (design (dE x) (dS x)).
  Proof.
    split; [reflexivity|]. split; [reflexivity|]. intros i j Hi Hj. cbn [ls_matrix at2]. unfold design.
    destruct (Nat.ltb i (dE x * dS x)); [destruct (Nat.eqb j (i mod dS x) || Nat.eqb j (dS x + i / dS x))|destruct (Nat.eqb j (dS x))]; reflexivity.
  Qed.
  Lemma ls_solved : forall pinv, inverts pinv (dE x) (dS x) ->
    exists p, pinv (ls_matrix (dE x) (dS x)) = Ok p /\ mat_vec p (ls_rhs x) = Ok (map (fun c => Fin (ls_z c)) (seq 0 (dS x + dE x))).
  Proof.
    intros pinv H. destruct (H _ ls_matrix_is) as (p & a & Hp & (P0 & P1 & Pa) & PI). exists p. split; [exact Hp|].
    unfold mat_vec. rewrite P0, P1, ls_rhs_eq, map_length, seq_length, Nat.eqb_refl. f_equal. apply map_ext_in. intros c Hc. apply in_seq in Hc.
    rewrite (map_ext_in _ (fun j => Fin (a c j * ls_y j))).
    - rewrite <- (map_map (fun j => a c j * ls_y j) Fin), np_sum_Fin. f_equal.
      apply (system_solved _ _ _ a ls_y ls_z PI orthogonal); [apply design_injective; assumption|lia].
    - intros j Hj. apply in_seq in Hj. rewrite Pa by lia. unfold vat. rewrite (BaseProofs.nth_map_seq _ (fun r => Fin (ls_y r))) by lia. efc. reflexivity.
  Qed.
End Votes.

Lemma mos_run_parts : forall (rd : reader ef) k m0, run_modeling MOS rd k = Ok m0 ->
  exists pp, preprocess rd k = Ok pp /\ mr_raw m0 = pp_arr pp /\ mr_quality m0 = postprocess k (along1 np_nanmean (stack1 (pp_arr pp))) /\
    attach_observers rd = Ok (mr_observers m0).
Proof.
  intros rd k m0 H. unfold run_modeling in H. cbn [run_kwargs bind] in H. unfold mos_run in H.
  destruct (preprocess rd k) as [pp|]; [|discriminate]. cbn [bind is_biasremv] in H.
  destruct (attach_observers rd) as [o|]; [|discriminate]. cbn [bind] in H. injection H as <-. exists pp. repeat split.
Qed.
Lemma c80_complete : forall pinv (rd : reader ef) k m0, kw_rej k = false -> run_modeling MOS rd k = Ok m0 ->
  complete_votes (mr_raw m0) -> dR (mr_raw m0) = 1%nat -> (0 < dE (mr_raw m0))%nat -> (0 < dS (mr_raw m0))%nat ->
  inverts pinv (dE (mr_raw m0)) (dS (mr_raw m0)) ->
  exists m, ls_run_modeling pinv rd k = Ok m /\ or_quality m = mr_quality m0 /\
    or_bias m = Some (map (fun i => Fin (own_mean (mr_raw m0) i - grand_mean (mr_raw m0))) (seq 0 (dS (mr_raw m0)))) /\
    or_incons m = None /\ or_observers m = mr_observers m0.
Proof.
  intros pinv rd k m0 K H C R1 HE HS Hi. destruct (mos_run_parts _ _ _ H) as (pp & Hp & Er & Eq & Eo).
  unfold ls_run_modeling. rewrite K, Hp. cbn [negb assert_ bind]. rewrite Er in *. set (x := pp_arr pp) in *.
  rewrite R1. cbn [Nat.eqb assert_ bind]. destruct (Nat.eqb_spec (dE x) 0); [lia|]. cbn [bind].
  destruct (ls_solved x C R1 HE HS pinv Hi) as (p & Hpi & Hm). rewrite Hpi. cbn [bind]. rewrite Hm. cbn [bind]. unfold finish. rewrite Eo. cbn [bind].
  eexists. split; [reflexivity|]. cbn [or_quality or_bias or_incons or_observers].
  assert (L : length (map (fun c => Fin (ls_z x c)) (seq 0 (dS x))) = dS x) by (rewrite map_length, seq_length; reflexivity).
  assert (SPL : map (fun c => Fin (ls_z x c)) (seq 0 (dS x + dE x)) = map (fun c => Fin (ls_z x c)) (seq 0 (dS x)) ++ map (fun c => Fin (ls_z x c)) (seq (dS x) (dE x)))
    by (rewrite seq_app, map_app; reflexivity).
  rewrite SPL. split; [|split; [|split; reflexivity]].
  - rewrite Eq. f_equal. rewrite skipn_app, skipn_all2, L, Nat.sub_diag by lia. cbn [app skipn].
    rewrite mean_rows by (intros e s r Ii; assert (F := C e s r Ii); destruct (at3 x e s r); cbn in *; tauto).
    assert (Q : forall n d, map (fun c => Fin (ls_z x c)) (seq (dS x + d) n) = map (fun e => Fin (mean_vote x e)) (seq d n)).
    { intro nn. induction nn as [|nn IH]; intro d; [reflexivity|]. cbn [seq map]. rewrite z_video by assumption. f_equal. rewrite <- Nat.add_succ_r. apply IH. }
    assert (Q0 := Q (dE x) 0%nat). rewrite Nat.add_0_r in Q0. rewrite Q0. apply map_ext_in. intros e He. apply in_seq in He.
    assert (V : video_votes x e <> []).
    { assert (I0 : inside x e 0 0) by (unfold inside; lia). assert (F := fin_eta _ (C e 0%nat 0%nat I0)). intro Z.
      assert (In (toR (at3 x e 0 0)) (video_votes x e)) by (apply video_votes_In; exists 0%nat, 0%nat; repeat split; try lia; exact F). rewrite Z in *. contradiction. }
    rewrite nanmeanR_ne by exact V. f_equal. symmetry. apply video_mean.
  - f_equal. rewrite firstn_app, L, Nat.sub_diag, firstn_O, app_nil_r, firstn_all2 by lia. apply map_ext_in. intros s Hs. apply in_seq in Hs. rewrite z_subject by lia. reflexivity.
Qed.

Lemma c80_missing : forall pinv (rd : reader ef) k m0 p, kw_rej k = false -> run_modeling MOS rd k = Ok m0 -> finite_votes (mr_raw m0) ->
  dR (mr_raw m0) = 1%nat -> (exists e s, (e < dE (mr_raw m0))%nat /\ (s < dS (mr_raw m0))%nat /\ at3 (mr_raw m0) e s 0 = NaN) ->
  pinv (ls_matrix (dE (mr_raw m0)) (dS (mr_raw m0))) = Ok p -> n0 p = (dS (mr_raw m0) + dE (mr_raw m0))%nat -> n1 p = (dE (mr_raw m0) * dS (mr_raw m0) + 1)%nat ->
  exists m, ls_run_modeling pinv rd k = Ok m /\ or_quality m = postprocess k (repeat NaN (dE (mr_raw m0))) /\ or_bias m = Some (repeat NaN (dS (mr_raw m0))).
Proof.
  intros pinv rd k m0 p K H F R1 Hn Hp P0 P1. destruct (mos_run_parts _ _ _ H) as (pp & Hpp & Er & _ & Eo).
  unfold ls_run_modeling. rewrite K, Hpp. cbn [negb assert_ bind]. rewrite Er in *. set (x := pp_arr pp) in *. destruct Hn as (e & i & He & Hi & Hx).
  rewrite R1. cbn [Nat.eqb assert_ bind]. destruct (Nat.eqb_spec (dE x) 0); [lia|]. cbn [bind]. rewrite Hp. cbn [bind].
  assert (HS : (0 < dS x)%nat) by lia.
  assert (LY : length (ls_rhs x) = (dE x * dS x + 1)%nat).
  { unfold ls_rhs. rewrite app_length, (flat_rows _ (fun e s => at3 x e s 0) _ _ HS), map_length, seq_length. reflexivity. }
  assert (MV : mat_vec p (ls_rhs x) = Ok (repeat NaN (dS x + dE x))).
  { unfold mat_vec. rewrite LY, P1, Nat.eqb_refl, P0. f_equal.
    assert (Q : forall n0, repeat (NaN : ef) n0 = map (fun _ => NaN) (seq 0 n0)).
    { intro q. rewrite <- (seq_length q 0) at 1. generalize (seq 0 q). intro l. induction l as [|z l IH]; [reflexivity|cbn; f_equal; exact IH]. }
    rewrite Q. apply map_ext_in. intros c Hc. apply np_sum_nan. apply in_map_iff. exists (e * dS x + i)%nat.
    assert (L := row_below (dE x) (dS x) e i He Hi). split; [|apply in_seq; lia].
    assert (V : vat (ls_rhs x) (e * dS x + i) = NaN).
    { unfold ls_rhs, vat. rewrite (flat_rows _ (fun e s => at3 x e s 0) _ _ HS). rewrite app_nth1 by (rewrite map_length, seq_length; exact L).
      rewrite (BaseProofs.nth_map_seq _ (fun r => at3 x (r / dS x) (r mod dS x) 0)) by exact L. destruct (row_of (dS x) e i Hi) as (-> & ->). exact Hx. }
    rewrite V. efc. apply mul_nan. }
  rewrite MV. cbn [bind]. unfold finish. rewrite Eo. cbn [bind]. eexists. split; [reflexivity|]. cbn [or_quality or_bias].
  rewrite repeat_app. split.
  - f_equal. rewrite skipn_app, skipn_all2, repeat_length, Nat.sub_diag by (rewrite repeat_length; lia). reflexivity.
  - f_equal. rewrite firstn_app, repeat_length, Nat.sub_diag, firstn_O, app_nil_r, firstn_all2 by (rewrite repeat_length; lia). reflexivity.
Qed.
Lemma c80_rejection : forall pinv (rd : reader ef) k, kw_rej k = true -> ls_run_modeling pinv rd k = Err AssertionError.
Proof. intros pinv rd k K. unfold ls_run_modeling. rewrite K. reflexivity. Qed.
Lemma c80_repetitions : forall pinv (rd : reader ef) k m0, kw_rej k = false -> run_modeling MOS rd k = Ok m0 -> dR (mr_raw m0) <> 1%nat ->
  ls_run_modeling pinv rd k = Err AssertionError.
Proof.
  intros pinv rd k m0 K H R1. destruct (mos_run_parts _ _ _ H) as (pp & Hpp & Er & _ & Eo).
  unfold ls_run_modeling. rewrite K, Hpp. cbn [negb assert_ bind]. rewrite Er in R1. apply Nat.eqb_neq in R1. rewrite R1. reflexivity.
Qed.

(** ** The design has a pseudo-inverse *)
Definition ls_inverse (E S : nat) (k l : nat) : R :=
  if Nat.ltb k S
  then if Nat.ltb l (E * S)
       then (if Nat.eqb (l mod S) k then / INR E else 0) - / (INR E * INR S) + (if Nat.eqb (l / S) 0 then / INR S else 0)
       else -1
  else if Nat.ltb l (E * S)
       then (if Nat.eqb (l / S) (k - S) then / INR S else 0) - (if Nat.eqb (l / S) 0 then / INR S else 0)
       else 1.
Section Inverse.
  Variables (E S : nat).
  Hypothesis (HS : (0 < S)%nat) (HE : (0 < E)%nat).
  Let AP (r l : nat) : R := sum_to (S + E) (fun k => design E S r k * ls_inverse E S k l).
  Lemma ap_rows : forall e s e' s', (e < E)%nat -> (s < S)%nat -> (e' < E)%nat -> (s' < S)%nat ->
    AP (e * S + s) (e' * S + s') = (if Nat.eqb s' s then / INR E else 0) - / (INR E * INR S) + (if Nat.eqb e' e then / INR S else 0).
  Proof.
    intros e s e' s' He Hs He' Hs'. unfold AP. rewrite (row_val E S) with (d := fun k => ls_inverse E S k (e' * S + s')) by assumption.
    unfold ls_inverse. destruct (row_of S e' s' Hs') as (-> & ->). assert (L := row_below E S e' s' He' Hs'). apply Nat.ltb_lt in L. rewrite L.
    apply Nat.ltb_lt in Hs. rewrite Hs. assert (M : (S + e <? S)%nat = false) by (apply Nat.ltb_ge; lia). rewrite M.
    replace (S + e - S)%nat with e by lia. ring.
  Qed.
  Lemma ap_row_last : forall e s, (e < E)%nat -> (s < S)%nat -> AP (e * S + s) (E * S) = 0.
  Proof.
    intros e s He Hs. unfold AP. rewrite (row_val E S) with (d := fun k => ls_inverse E S k (E * S)) by assumption.
    unfold ls_inverse. rewrite Nat.ltb_irrefl. apply Nat.ltb_lt in Hs. rewrite Hs. assert (M : (S + e <? S)%nat = false) by (apply Nat.ltb_ge; lia). rewrite M. ring.
  Qed.
  Lemma ap_last_row : forall e s, (e < E)%nat -> (s < S)%nat -> AP (E * S) (e * S + s) = 0.
  Proof.
    intros e s He Hs. unfold AP. rewrite (last_val E S) with (d := fun k => ls_inverse E S k (e * S + s)) by assumption.
    unfold ls_inverse. rewrite Nat.ltb_irrefl. destruct (row_of S e s Hs) as (_ & ->). assert (L := row_below E S e s He Hs). apply Nat.ltb_lt in L. rewrite L.
    rewrite Nat.sub_diag. ring.
  Qed.
  Lemma ap_last_last : AP (E * S) (E * S) = 1.
  Proof. unfold AP. rewrite (last_val E S) with (d := fun k => ls_inverse E S k (E * S)) by assumption. unfold ls_inverse. rewrite !Nat.ltb_irrefl. reflexivity. Qed.
  Lemma row_cases : forall r, (r < E * S + 1)%nat -> (exists e s, (e < E)%nat /\ (s < S)%nat /\ r = (e * S + s)%nat) \/ r = (E * S)%nat.
  Proof.
    intros r H. destruct (Nat.lt_ge_cases r (E * S)) as [L|L]; [left|right; lia]. exists (r / S)%nat, (r mod S)%nat.
    split; [apply Nat.div_lt_upper_bound; lia|]. split; [apply Nat.mod_upper_bound; lia|]. rewrite (Nat.div_mod r S) at 1 by lia. lia.
  Qed.
  Lemma ls_inverse_is : pseudo_inverse (E * S + 1) (S + E) (design E S) (ls_inverse E S).
  Proof.
    assert (A : INR E <> 0) by (apply not_0_INR; lia). assert (B : INR S <> 0) by (apply not_0_INR; lia).
    split.
    - intros r j Hr Hj. fold (AP r).
      rewrite (sum_ext _ _ (fun l => design E S l j * AP r l)) by (intros; unfold AP; ring).
      destruct (row_cases r Hr) as [(e & s & He & Hs & ->)| ->].
      + destruct (Nat.lt_ge_cases j S) as [L|L].
        * rewrite (column_subject E S) by (first [assumption|apply ap_row_last; assumption]).
          rewrite (sum_ext _ _ (fun e' => ((if Nat.eqb j s then / INR E else 0) - / (INR E * INR S)) + (if Nat.eqb e' e then / INR S else 0)))
            by (intros; rewrite ap_rows by assumption; reflexivity).
          rewrite sum_add, sum_const, (sum_pick E e (fun _ => / INR S)) by assumption.
          unfold design. destruct (row_of S e s Hs) as (-> & ->). assert (L' := row_below E S e s He Hs). apply Nat.ltb_lt in L'. rewrite L'.
          destruct (Nat.eqb_spec j (S + e)); [lia|]. rewrite Bool.orb_false_r. destruct (Nat.eqb j s); field; auto.
        * replace j with (S + (j - S))%nat by lia. set (f := (j - S)%nat). assert (Hf : (f < E)%nat) by (unfold f; lia).
          rewrite (column_video E S) by (first [assumption|apply ap_row_last; assumption]).
          rewrite (sum_ext _ _ (fun s' => (if Nat.eqb s' s then / INR E else 0) + (- / (INR E * INR S) + (if Nat.eqb f e then / INR S else 0))))
            by (intros; rewrite ap_rows by assumption; ring).
          rewrite sum_add, sum_const, (sum_pick S s (fun _ => / INR E)) by assumption.
          unfold design. destruct (row_of S e s Hs) as (-> & ->). assert (L' := row_below E S e s He Hs). apply Nat.ltb_lt in L'. rewrite L'.
          destruct (Nat.eqb_spec (S + f) s); [lia|]. cbn [orb]. destruct (Nat.eqb_spec (S + f) (S + e)), (Nat.eqb_spec f e); try lia; field; auto.
      + rewrite Nat.add_1_r, sum_S, ap_last_last. rewrite sum_zero; [ring|].
        intros l Hl. destruct (row_cases l) as [(e & s & He & Hs & ->)| ->]; [lia| |lia]. rewrite ap_last_row by assumption. ring.
    - intros r l Hr Hl. fold (AP r l) (AP l r).
      destruct (row_cases r Hr) as [(e & s & He & Hs & ->)| ->], (row_cases l Hl) as [(e' & s' & He' & Hs' & ->)| ->];
        rewrite ?ap_rows, ?ap_row_last, ?ap_last_row, ?ap_last_last by assumption; try reflexivity.
      rewrite (Nat.eqb_sym s' s), (Nat.eqb_sym e' e). reflexivity.
  Qed.
End Inverse.
Lemma c80_missing_answers : forall pinv (rd : reader ef) k m0, kw_rej k = false -> run_modeling MOS rd k = Ok m0 -> finite_votes (mr_raw m0) ->
  dR (mr_raw m0) = 1%nat -> (exists e s, (e < dE (mr_raw m0))%nat /\ (s < dS (mr_raw m0))%nat /\ at3 (mr_raw m0) e s 0 = NaN) ->
  answers pinv (dE (mr_raw m0)) (dS (mr_raw m0)) ->
  exists m, ls_run_modeling pinv rd k = Ok m /\ or_quality m = postprocess k (repeat NaN (dE (mr_raw m0))) /\ or_bias m = Some (repeat NaN (dS (mr_raw m0))).
Proof.
  intros pinv rd k m0 K H F R1 M A. destruct (A _ (ls_matrix_is (mr_raw m0))) as (p & P & P0 & P1). exact (c80_missing pinv rd k m0 p K H F R1 M P P0 P1).
Qed.
