(** Results of the projection solver on rearranged votes. *)
From Coq Require Import String.
From Coq Require Import List ZArith Bool Arith Reals Lra Lia Permutation.
From Verif Require Import PyBase Num ExtReal NumPy Dataset Preproc Mos AP SpecMos SpecAp
  BaseProofs ExtRealProofs ArrayProofs MosProofs StepsProofs ApProofs Ap2Proofs Ap3Proofs Ap4Proofs.
Import ListNotations.
Local Open Scope list_scope.
Local Open Scope R_scope.

Lemma rated_dec : forall x, all_rated x \/ exists e, (e < dE x)%nat /\ ~ rated x e.
Proof.
  intro x. destruct (existsb (fun e => Reqbb (vcount x e) 0) (seq 0 (dE x))) eqn:B.
  - right. apply existsb_exists in B as (e & He & B). apply in_seq in He. apply Reqbb_true in B. exists e. split; [lia|].
    intro H. apply rated_count in H. lra.
  - left. intros e He. apply vcount_rated; [exact He|]. intro G.
    assert (B' : existsb (fun e => Reqbb (vcount x e) 0) (seq 0 (dE x)) = true); [|congruence].
    apply existsb_exists. exists e. split; [apply in_seq; lia|]. apply Reqbb_true. exact G.
Qed.
Lemma voted_dec : forall x, all_voted x \/ exists i, (i < dS x)%nat /\ ~ voted x i.
Proof.
  intro x. destruct (existsb (fun e => Reqbb (scount x e) 0) (seq 0 (dS x))) eqn:B.
  - right. apply existsb_exists in B as (e & He & B). apply in_seq in He. apply Reqbb_true in B. exists e. split; [lia|].
    intro H. apply voted_count in H. lra.
  - left. intros e He. apply scount_voted; [exact He|]. intro G.
    assert (B' : existsb (fun e => Reqbb (scount x e) 0) (seq 0 (dS x)) = true); [|congruence].
    apply existsb_exists. exists e. split; [apply in_seq; lia|]. apply Reqbb_true. exact G.
Qed.
Lemma nth_map_seq : forall (f : nat -> ef) n k, (k < n)%nat -> nth k (map f (seq 0 n)) NaN = f k.
Proof. intros. assert (G := vat_map_seq f n k H). exact G. Qed.
Lemma nth_map_NaN : forall (g : ef -> ef) l k, g NaN = NaN -> nth k (map g l) NaN = g (nth k l NaN).
Proof. intros g l k H. rewrite <- H at 1. apply map_nth. Qed.
Lemma reindex_map : forall n pi g l, g NaN = NaN -> reindex n pi (map g l) = map g (reindex n pi l).
Proof. intros n pi g l H. unfold reindex. rewrite map_map. apply map_ext. intro k. apply nth_map_NaN. exact H. Qed.
Lemma nth_repeat_NaN : forall n k, nth k (repeat (NaN : ef) n) NaN = NaN.
Proof. induction n; destruct k; cbn; auto. Qed.
Lemma map_NaN : forall A (f : A -> ef) l, (forall a, In a l -> f a = NaN) -> map f l = repeat NaN (length l).
Proof. intros A f. induction l as [|a l IH]; intro H; [reflexivity|]. cbn. rewrite (H a (or_introl eq_refl)), IH by (intros; apply H; right; assumption). reflexivity. Qed.

Section Corr.
  Context (chi : ef -> ef -> ef).

  Lemma solved_corresponds : forall alt force x y pi sg d mu n m m',
    finite_votes x -> rearranged x y pi sg d -> all_rated x -> balanced y d mu ->
    (force = true -> all_voted x /\ ((0 < dS x)%nat -> mu = Rmean (map d (seq 0 (dS x))))) ->
    solved chi alt force x n m -> solved chi alt force y n m' -> corresponds x y pi sg d mu m m'.
  Proof.
    intros alt force x y pi sg d mu n m m' HF HA HR HB Hf Hm Hm'.
    assert (EE : dE y = dE x) by apply HA. assert (ES : dS y = dS x) by apply HA. assert (ER : dR y = dR x) by apply HA.
    assert (Mp := re_iterate x y pi sg d mu HA HR HB (n - 1)). assert (Mn := re_iterate x y pi sg d mu HA HR HB n).
    assert (Hpi := re_pi x y pi sg d HA). assert (Hsg := re_sg x y pi sg d HA).
    assert (MO : (0 < dS x)%nat -> match_est x y pi sg d mu (reported force x (iterate x n)) (reported force y (iterate y n))).
    { intro Hd. destruct force; [|exact Mn]. destruct (Hf eq_refl) as (HV & Hmu). specialize (Hmu Hd).
      assert (HVy : all_voted y) by (apply (re_all_voted x y pi sg d HA); exact HV).
      assert (MB := re_mean_bias x y pi sg d mu HA (iterate x n) (iterate y n) Mn HVy Hd). rewrite <- Hmu in MB.
      unfold reported, shifted. destruct Mn as (Q & B). split; cbn [eq_ eb_].
      - intros e He. rewrite Q by exact He. lra.
      - intros i Hi V. rewrite B by assumption. lra. }
    assert (SD : forall e, (e < dE x)%nat -> (0 < dS x)%nat) by (intros e He; apply (all_rated_dS x HR); lia).
    assert (IV : forall i (g g' : ef), (i < dS x)%nat -> (voted y i -> g' = g) -> if_voted y i g' = if_voted x (sg i) g).
    { intros i g g' Hi H. unfold if_voted. rewrite (re_scount x y pi sg d HA i Hi). destruct (Req_EM_T (scount y i) 0) as [Z|Z]; [reflexivity|].
      apply H. apply scount_voted; [rewrite ES; exact Hi|exact Z]. }
    assert (QS : ap_quality_std m' = reindex (dE x) pi (ap_quality_std m)).
    { rewrite (sv_quality_std _ _ _ _ _ _ Hm), (sv_quality_std _ _ _ _ _ _ Hm'). rewrite EE. unfold reindex. apply map_ext_in. intros e He. apply in_seq in He.
      rewrite nth_map_seq by (apply Hpi; lia). f_equal. destruct alt.
      - rewrite (re_spread x y pi sg d mu HA _ _ e Mp) by lia. rewrite (re_vcount x y pi sg d HA) by lia. reflexivity.
      - apply (re_quality_se x y pi sg d mu HA); [exact Mp|lia]. }
    assert (BS : ap_bias_std m' = reindex (dS x) sg (ap_bias_std m)).
    { rewrite (sv_bias_std _ _ _ _ _ _ Hm), (sv_bias_std _ _ _ _ _ _ Hm'). rewrite ES. unfold reindex. apply map_ext_in. intros i Hi. apply in_seq in Hi.
      rewrite nth_map_seq by (apply Hsg; lia). rewrite (re_scount x y pi sg d HA) by lia. destruct (Req_EM_T (scount y i) 0) as [Z|Z]; [reflexivity|].
      rewrite (re_rms x y pi sg d mu HA _ _ i Mp); [reflexivity|lia|]. apply scount_voted; [lia|exact Z]. }
    assert (IC : ap_incons m' = reindex (dS x) sg (ap_incons m)).
    { rewrite (sv_incons _ _ _ _ _ _ Hm), (sv_incons _ _ _ _ _ _ Hm'). rewrite ES. unfold reindex. apply map_ext_in. intros i Hi. apply in_seq in Hi.
      rewrite nth_map_seq by (apply Hsg; lia). apply IV; [lia|]. intro V. f_equal. apply (re_rms x y pi sg d mu HA); [exact Mp|lia|exact V]. }
    assert (NI : forall i, (i < dS x)%nat -> nth i (ap_incons m') NaN = nth (sg i) (ap_incons m) NaN).
    { intros i Hi. rewrite IC. unfold reindex. apply (nth_map_seq (fun k => nth (sg k) (ap_incons m) NaN)). exact Hi. }
    assert (TV := re_total_votes x y pi sg d HA).
    assert (DF : ap_dof m' = ap_dof m).
    { rewrite (sv_dof _ _ _ _ _ _ Hm), (sv_dof _ _ _ _ _ _ Hm'). rewrite EE, ES, ER, TV. reflexivity. }
    assert (LL : ap_ll m' = ap_ll m).
    { assert (Dec : all_spread x (iterate x (n - 1)) \/ ~ all_spread x (iterate x (n - 1))).
      { destruct (existsb (fun i => negb (Reqbb (scount x i) 0) && Reqbb (rms x (iterate x (n - 1)) i) 0) (seq 0 (dS x))) eqn:B.
        - right. apply existsb_exists in B as (i & Hi & B). apply in_seq in Hi. apply andb_prop in B as [B1 B2]. apply Reqbb_true in B2.
          intro H. apply (H i); [lia| |exact B2]. apply scount_voted; [lia|]. intro G. rewrite (proj2 (Reqbb_true _ _) G) in B1. discriminate.
        - left. intros i Hi V Z.
          assert (B' : existsb (fun i => negb (Reqbb (scount x i) 0) && Reqbb (rms x (iterate x (n - 1)) i) 0) (seq 0 (dS x)) = true); [|congruence].
          apply existsb_exists. exists i. split; [apply in_seq; lia|]. rewrite (proj2 (Reqbb_true _ _) Z). rewrite andb_true_r.
          destruct (Reqbb (scount x i) 0) eqn:G; [|reflexivity]. apply Reqbb_true in G. apply voted_count in V. lra. }
      assert (SP := re_all_spread x y pi sg d mu HA _ _ Mp).
      destruct Dec as [D|D].
      - rewrite (sv_ll _ _ _ _ _ _ Hm D), (sv_ll _ _ _ _ _ _ Hm' (proj1 SP D)). rewrite TV. f_equal. f_equal.
        apply (re_total_ll x y pi sg d mu HA); assumption.
      - rewrite (sv_ll_nan _ _ _ _ _ _ Hm D), (sv_ll_nan _ _ _ _ _ _ Hm'); [reflexivity|]. intro G. apply D. apply SP. exact G. }
    constructor.
    - rewrite (sv_quality _ _ _ _ _ _ Hm), (sv_quality _ _ _ _ _ _ Hm'). rewrite EE. apply map_ext_in. intros e He. apply in_seq in He.
      rewrite nth_map_seq by (apply Hpi; lia). cbn [affine]. f_equal. destruct (MO (SD e ltac:(lia))) as (Q & _). rewrite Q by lia. ring.
    - exact QS.
    - destruct (sv_quality_ci _ _ _ _ _ _ Hm) as (-> & ->). destruct (sv_quality_ci _ _ _ _ _ _ Hm') as (-> & ->). rewrite QS.
      split; symmetry; apply reindex_map; reflexivity.
    - rewrite (sv_bias _ _ _ _ _ _ Hm), (sv_bias _ _ _ _ _ _ Hm'). rewrite ES. apply map_ext_in. intros i Hi. apply in_seq in Hi.
      rewrite nth_map_seq by (apply Hsg; lia).
      rewrite (IV i (Fin (eb_ (reported force x (iterate x n)) (sg i) + d i - mu))).
      + unfold if_voted. destruct (Req_EM_T _ _); cbn [affine]; [reflexivity|]. f_equal. ring.
      + lia.
      + intro V. f_equal. destruct (MO ltac:(lia)) as (_ & B). apply B; [lia|exact V].
    - exact BS.
    - destruct (sv_bias_ci _ _ _ _ _ _ Hm) as (-> & ->). destruct (sv_bias_ci _ _ _ _ _ _ Hm') as (-> & ->). rewrite BS.
      split; symmetry; apply reindex_map; reflexivity.
    - exact IC.
    - rewrite (sv_incons_std _ _ _ _ _ _ Hm), (sv_incons_std _ _ _ _ _ _ Hm'). rewrite ES. unfold reindex. apply map_ext_in. intros i Hi. apply in_seq in Hi.
      rewrite nth_map_seq by (apply Hsg; lia). rewrite (re_scount x y pi sg d HA) by lia. destruct (Req_EM_T (scount y i) 0) as [Z|Z]; [reflexivity|].
      apply (re_incons_se x y pi sg d mu HA); [exact Mp|exact Mn|lia|]. apply scount_voted; [lia|exact Z].
    - split.
      + rewrite (sv_incons_lo _ _ _ _ _ _ Hm), (sv_incons_lo _ _ _ _ _ _ Hm'). rewrite ES. unfold reindex. apply map_ext_in. intros i Hi. apply in_seq in Hi.
        rewrite nth_map_seq by (apply Hsg; lia). rewrite (re_scount x y pi sg d HA) by lia. rewrite NI by lia. reflexivity.
      + rewrite (sv_incons_hi _ _ _ _ _ _ Hm), (sv_incons_hi _ _ _ _ _ _ Hm'). rewrite ES. unfold reindex. apply map_ext_in. intros i Hi. apply in_seq in Hi.
        rewrite nth_map_seq by (apply Hsg; lia). rewrite (re_scount x y pi sg d HA) by lia. rewrite NI by lia. reflexivity.
    - rewrite (sv_scores_mean _ _ _ _ _ _ Hm), (sv_scores_mean _ _ _ _ _ _ Hm'). rewrite ES. apply map_ext_in. intros i Hi. apply in_seq in Hi.
      rewrite nth_map_seq by (apply Hsg; lia). rewrite (IV i (Fin (Rmean (subject_votes x (sg i)) + d i))).
      + unfold if_voted. destruct (Req_EM_T _ _); cbn [affine]; [reflexivity|]. f_equal. ring.
      + lia.
      + intro V. f_equal. apply (re_subject_mean x y pi sg d HA); [lia|exact V].
    - rewrite (sv_scores_std _ _ _ _ _ _ Hm), (sv_scores_std _ _ _ _ _ _ Hm'). rewrite ES. unfold reindex. apply map_ext_in. intros i Hi. apply in_seq in Hi.
      rewrite nth_map_seq by (apply Hsg; lia). apply IV; [lia|]. intro V. f_equal. f_equal.
      rewrite (re_scount x y pi sg d HA) by lia. f_equal. rewrite (re_ssum x y pi sg d HA) by lia. rewrite (re_subject_mean x y pi sg d HA i ltac:(lia) V).
      apply ssum_ext. intros. ring.
    - destruct (sv_recon_dims _ _ _ _ _ _ Hm') as (D1 & D2 & D3). rewrite D1, D2, D3, EE, ES, ER. repeat split.
      intros e i r (He & Hi & Hr). rewrite (sv_recon _ _ _ _ _ _ Hm') by (repeat split; lia).
      rewrite (sv_recon _ _ _ _ _ _ Hm) by (repeat split; [apply Hpi|apply Hsg|]; assumption).
      rewrite (IV i (Fin (eq_ (iterate x n) (pi e) + eb_ (iterate x n) (sg i) + d i))).
      + unfold if_voted. destruct (Req_EM_T _ _); cbn [affine]; [reflexivity|]. f_equal. ring.
      + exact Hi.
      + intro V. f_equal. destruct Mn as (Q & B). rewrite Q, B by assumption. ring.
    - rewrite (sv_iter _ _ _ _ _ _ Hm), (sv_iter _ _ _ _ _ _ Hm'). rewrite (sv_aic _ _ _ _ _ _ Hm), (sv_aic _ _ _ _ _ _ Hm').
      rewrite (sv_bic _ _ _ _ _ _ Hm), (sv_bic _ _ _ _ _ _ Hm'). rewrite DF, LL, TV. auto.
  Qed.

  Lemma solve_corresponds : forall alt force x y pi sg d mu m m',
    finite_votes x -> rearranged x y pi sg d -> balanced y d mu ->
    ((0 < dS x)%nat -> force = true -> mu = Rmean (map d (seq 0 (dS x)))) ->
    ap_solve chi alt force x x = Ok m -> ap_solve chi alt force y y = Ok m' -> corresponds x y pi sg d mu m m'.
  Proof.
    intros alt force x y pi sg d mu m m' HF HA HB Hmu Hm Hm'.
    destruct (rated_dec x) as [HR|HN]; [|rewrite (solve_unrated chi alt force x x HF HN) in Hm; discriminate].
    assert (HFy := re_finite x y pi sg d HF HA). assert (HRy := re_all_rated x y pi sg d HA HR).
    assert (Gen : forall force m m', (force = true -> all_voted x) -> ((0 < dS x)%nat -> force = true -> mu = Rmean (map d (seq 0 (dS x)))) ->
       ap_solve chi alt force x x = Ok m -> ap_solve chi alt force y y = Ok m' -> corresponds x y pi sg d mu m m').
    { clear Hmu Hm Hm' m m' force. intros force m m' HV Hmu Hm Hm'.
      assert (HVy : force = true -> all_voted y) by (intro E; apply (re_all_voted x y pi sg d HA); apply HV; exact E).
      destruct (solve_spec chi alt force x HF HR HV) as (n & m1 & Hn & E1 & S1 & _). rewrite E1 in Hm. apply StepsProofs.Ok_inj in Hm. subst m1.
      destruct (solve_spec chi alt force y HFy HRy HVy) as (n' & m2 & Hn' & E2 & S2 & _). rewrite E2 in Hm'. apply StepsProofs.Ok_inj in Hm'. subst m2.
      apply (re_stops x y pi sg d mu HA HR HB) in Hn. rewrite (stops_unique y n' n Hn' Hn) in S2.
      apply (solved_corresponds alt force x y pi sg d mu n m m'); auto. }
    destruct force; [|apply (Gen false); [discriminate| |exact Hm|exact Hm']; intros _ X; discriminate].
    destruct (voted_dec x) as [HV|HN]; [apply (Gen true); auto|].
    (* a subject without votes: everything the shift touches is NaN on both sides *)
    assert (EE : dE y = dE x) by apply HA. assert (ES : dS y = dS x) by apply HA.
    assert (HNy : exists i, (i < dS y)%nat /\ ~ voted y i).
    { destruct (voted_dec y) as [V|N]; [|exact N]. exfalso. destruct HN as (i & Hi & N). apply N. apply (proj2 (re_all_voted x y pi sg d HA) V i Hi). }
    destruct (solve_poisoned chi alt x HF HR HN) as (m0 & m1 & E0 & E1 & P). rewrite E1 in Hm. apply StepsProofs.Ok_inj in Hm. subst m1.
    destruct (solve_poisoned chi alt y HFy HRy HNy) as (m0' & m1' & E0' & E1' & P'). rewrite E1' in Hm'. apply StepsProofs.Ok_inj in Hm'. subst m1'.
    assert (C := Gen false m0 m0' ltac:(discriminate) ltac:(intros _ X; discriminate) E0 E0').
    destruct (po_rest _ _ _ P) as (R1 & R2 & R3 & R4 & R5 & R6 & R7 & R8 & R9 & R10 & R11 & R12 & R13 & R14 & R15 & R16).
    destruct (po_rest _ _ _ P') as (Q1 & Q2 & Q3 & Q4 & Q5 & Q6 & Q7 & Q8 & Q9 & Q10 & Q11 & Q12 & Q13 & Q14 & Q15 & Q16).
    constructor; rewrite ?R2, ?R3, ?R4, ?R5, ?R6, ?R7, ?R8, ?R9, ?R10, ?R11, ?R12, ?R13, ?R14, ?R15, ?Q2, ?Q3, ?Q4, ?Q5, ?Q6, ?Q7, ?Q8, ?Q9, ?Q10, ?Q11, ?Q12, ?Q13, ?Q14, ?Q15; try apply C.
    - rewrite (po_quality _ _ _ P), (po_quality _ _ _ P'), EE. rewrite map_NaN; [rewrite seq_length; reflexivity|].
      intros e _. rewrite nth_repeat_NaN. reflexivity.
    - rewrite (po_bias _ _ _ P), (po_bias _ _ _ P'), ES. rewrite map_NaN; [rewrite seq_length; reflexivity|].
      intros e _. rewrite nth_repeat_NaN. reflexivity.
    - destruct (po_recon_dims _ _ _ P') as (-> & -> & ->). assert (HA' := HA). destruct HA' as (_ & _ & HE & HS & HRr & _). repeat split; try assumption.
      intros e i r (He & Hi & Hr). rewrite (po_recon _ _ _ P') by (repeat split; lia).
      rewrite (po_recon _ _ _ P); [reflexivity|]. repeat split; [apply (re_pi x y pi sg d HA)|apply (re_sg x y pi sg d HA)|]; assumption.
    - destruct (co_same _ _ _ _ _ _ _ _ C) as (S1 & S2 & S3 & S4 & S5). split; [exact S1|]. split; [exact S2|].
      destruct (Nat.eq_dec (dE x) 0) as [Z|Z].
      + destruct (po_ll_empty _ _ _ P Z) as (-> & -> & ->). destruct (po_ll_empty _ _ _ P' ltac:(lia)) as (-> & -> & ->). auto.
      + destruct (po_ll _ _ _ P ltac:(lia)) as (-> & -> & ->). destruct (po_ll _ _ _ P' ltac:(lia)) as (-> & -> & ->). auto.
  Qed.

  Lemma solve_lengths : forall alt force x m, finite_votes x -> ap_solve chi alt force x x = Ok m ->
    length (ap_quality m) = dE x /\ length (ap_quality_std m) = dE x /\ length (ap_quality_lo m) = dE x /\ length (ap_quality_hi m) = dE x /\
    length (ap_bias m) = dS x /\ length (ap_bias_std m) = dS x /\ length (ap_bias_lo m) = dS x /\ length (ap_bias_hi m) = dS x /\
    length (ap_incons m) = dS x /\ length (ap_incons_std m) = dS x /\ length (ap_incons_lo m) = dS x /\ length (ap_incons_hi m) = dS x /\
    length (ap_scores_mean m) = dS x /\ length (ap_scores_std m) = dS x.
  Proof.
    intros alt force x m HF Hm.
    destruct (rated_dec x) as [HR|HN]; [|rewrite (solve_unrated chi alt force x x HF HN) in Hm; discriminate].
    assert (Gen : forall force m, (force = true -> all_voted x) -> ap_solve chi alt force x x = Ok m ->
    length (ap_quality m) = dE x /\ length (ap_quality_std m) = dE x /\ length (ap_quality_lo m) = dE x /\ length (ap_quality_hi m) = dE x /\
    length (ap_bias m) = dS x /\ length (ap_bias_std m) = dS x /\ length (ap_bias_lo m) = dS x /\ length (ap_bias_hi m) = dS x /\
    length (ap_incons m) = dS x /\ length (ap_incons_std m) = dS x /\ length (ap_incons_lo m) = dS x /\ length (ap_incons_hi m) = dS x /\
    length (ap_scores_mean m) = dS x /\ length (ap_scores_std m) = dS x).
    { clear m force Hm. intros force m HV Hm.
      destruct (solve_spec chi alt force x HF HR HV) as (n & m1 & Hn & E1 & S & _). rewrite E1 in Hm. apply StepsProofs.Ok_inj in Hm. subst m1.
      destruct (sv_quality_ci _ _ _ _ _ _ S) as (-> & ->). destruct (sv_bias_ci _ _ _ _ _ _ S) as (-> & ->).
      rewrite (sv_incons_lo _ _ _ _ _ _ S), (sv_incons_hi _ _ _ _ _ _ S).
      rewrite (sv_quality _ _ _ _ _ _ S), (sv_quality_std _ _ _ _ _ _ S), (sv_bias _ _ _ _ _ _ S), (sv_bias_std _ _ _ _ _ _ S),
        (sv_incons _ _ _ _ _ _ S), (sv_incons_std _ _ _ _ _ _ S), (sv_scores_mean _ _ _ _ _ _ S), (sv_scores_std _ _ _ _ _ _ S).
      rewrite !map_length, !seq_length. repeat split. }
    destruct force; [|apply (Gen false); [discriminate|exact Hm]].
    destruct (voted_dec x) as [HV|HN]; [apply (Gen true); auto|].
    destruct (solve_poisoned chi alt x HF HR HN) as (m0 & m1 & E0 & E1 & P). rewrite E1 in Hm. apply StepsProofs.Ok_inj in Hm. subst m1.
    specialize (Gen false m0 ltac:(discriminate) E0).
    destruct (po_rest _ _ _ P) as (R1 & R2 & R3 & R4 & R5 & R6 & R7 & R8 & R9 & R10 & R11 & R12 & R13 & R14 & R15 & R16).
    rewrite R4, R5, R6, R7, R8, R9, R10, R11, R12, R13, R14, R15, (po_quality _ _ _ P), (po_bias _ _ _ P), !repeat_length.
    intuition.
  Qed.
  Lemma reindex_id : forall n l, length l = n -> reindex n (fun k => k) l = l.
  Proof.
    intros n l <-. unfold reindex. induction l as [|a l IH]; [reflexivity|]. cbn [length]. rewrite <- cons_seq. cbn [map nth]. f_equal.
    rewrite <- seq_shift, map_map. cbn [nth]. exact IH.
  Qed.
  Lemma map_nth_id : forall n (g : ef -> ef) l, length l = n -> map (fun k => g (nth k l NaN)) (seq 0 n) = map g l.
  Proof.
    intros n g l H. transitivity (map g (reindex n (fun k => k) l)); [unfold reindex; rewrite map_map; reflexivity|].
    rewrite reindex_id by exact H. reflexivity.
  Qed.
End Corr.
