(** The likelihood reported with mean opinion scores and the unit of the scale. *)
From Coq Require Import String.
From Coq Require Import List ZArith Bool Arith Reals Lra Lia.
From Verif Require Import PyBase Num ExtReal NumPy Dataset Preproc Mos AP Mle SpecMos SpecAp SpecMle SpecMosReport SpecUnit
  BaseProofs ExtRealProofs ArrayProofs MosProofs PreprocProofs Reject2Proofs StepsProofs ApProofs Ap2Proofs MosReportProofs MosWitness.
Import ListNotations.
Local Open Scope R_scope.

Lemma ln_sqrt_2pi : ln (sqrt (2 * PI)) = half_ln_2pi.
Proof.
  unfold half_ln_2pi. assert (P : 0 < 2 * PI) by (assert (Q := PI_RGT_0); lra).
  rewrite <- (sqrt_sqrt (2 * PI)) at 2 by lra. assert (0 < sqrt (2 * PI)) by (apply sqrt_lt_R0; exact P).
  rewrite ln_mult by assumption. lra.
Qed.

(** A video with spread. *)
Lemma video_ll_closed : forall l, sumsq (Rmean l) l <> 0 -> video_ll l = closed_ll (INR (length l)) (sstd l).
Proof.
  intros l H. unfold video_ll. destruct (Req_EM_T _ _) as [Z|_]; [contradiction|].
  destruct (sstd_pos l H) as (L & P & _).
  assert (N : 0 < INR (length l) - 1) by (apply le_INR in L; cbn in L; lra).
  unfold log_density. rewrite ln_sqrt_2pi.
  assert (G : forall (m s : R) l', Rsum (map (fun v => - ((v - m) * (v - m)) / (2 * (s * s)) - ln s - half_ln_2pi) l') =
    - sumsq m l' / (2 * (s * s)) - INR (length l') * ln s - INR (length l') * half_ln_2pi).
  { intros m s l'. induction l' as [|v l' IH]; [unfold sumsq, Rsum; cbn; lra|].
    unfold sumsq in *. cbn [map]. cbn [length]. rewrite S_INR. unfold Rsum in *. cbn [fold_right]. rewrite IH. unfold Rdiv. ring. }
  rewrite G. unfold closed_ll. assert (E : sstd l * sstd l = sumsq (Rmean l) l / (INR (length l) - 1)).
  { unfold sstd. apply sqrt_sqrt. apply Rmult_le_pos; [change (0 <= Rss l); apply Rss_nonneg|]. apply Rlt_le, Rinv_0_lt_compat. exact N. }
  rewrite E. field. split; [lra|]. exact H.
Qed.
Lemma sstd_affine : forall k d l, 0 < k -> sstd (map (fun x => k * x + d) l) = k * sstd l.
Proof.
  intros k d l K. unfold sstd. rewrite map_length.
  change (sumsq (Rmean (map (fun x => k * x + d) l)) (map (fun x => k * x + d) l)) with (Rss (map (fun x => k * x + d) l)).
  rewrite Rss_affine. change (sumsq (Rmean l) l) with (Rss l). unfold Rdiv. rewrite Rmult_assoc. rewrite sqrt_mult_alt by nra.
  rewrite sqrt_square by lra. reflexivity.
Qed.
Lemma spread_sumsq : forall l u v, In u l -> In v l -> u <> v -> sumsq (Rmean l) l <> 0.
Proof. intros l u v Hu Hv Huv E. change (Rss l = 0) in E. apply Huv. exact (proj1 (Rss_zero l) E u v Hu Hv). Qed.

Lemma video_ll_unit : forall k d l, 0 < k -> (l = [] \/ sumsq (Rmean l) l <> 0) ->
  video_ll (map (fun x => k * x + d) l) = video_ll l - INR (length l) * ln k.
Proof.
  intros k d l K [-> |H].
  - cbn [map length INR]. unfold video_ll, sumsq, Rsum. cbn. destruct (Req_EM_T 0 0); lra.
  - rewrite video_ll_closed.
    + rewrite (video_ll_closed l H), sstd_affine, map_length by exact K. destruct (sstd_pos l H) as (_ & P & _).
      unfold closed_ll. rewrite ln_mult by assumption. ring.
    + change (Rss (map (fun x => k * x + d) l) <> 0). rewrite Rss_affine. apply Rmult_integral_contrapositive. split; [|exact H].
      apply Rmult_integral_contrapositive. lra.
Qed.

Lemma mos_ll_unit : forall k d x y, 0 < k -> finite_votes x -> all_spread x -> transformed (affine k d) x y ->
  mos_ll y = mos_ll x - total_votes x * ln k /\ total_votes y = total_votes x.
Proof.
  intros k d x y K HF HS HT. assert (HF' := transformed_finite _ _ _ _ HT HF).
  assert (HE : dE y = dE x) by apply HT.
  assert (V : forall e, (e < dE x)%nat -> video_votes y e = map (fun v => k * v + d) (video_votes x e)) by (intros; apply (transformed_votes k d x y); assumption).
  split.
  - unfold mos_ll, total_votes. rewrite HE.
    assert (G : forall es, (forall e, In e es -> (e < dE x)%nat) ->
      Rsum (map (fun e => video_ll (video_votes y e)) es) = Rsum (map (fun e => video_ll (video_votes x e)) es) - Rsum (map (vcount x) es) * ln k).
    { induction es as [|e es IH]; intro A; [unfold Rsum; cbn; lra|]. cbn [map]. unfold Rsum in *. cbn [fold_right].
      rewrite IH by (intros; apply A; right; assumption). assert (He := A e (or_introl eq_refl)).
      rewrite (V e He), video_ll_unit; [|exact K|].
      - rewrite <- video_count. ring.
      - destruct (video_votes x e) as [|v0 l0] eqn:E; [left; reflexivity|right]. destruct (HS e He) as (u & v & Hu & Hv & N); [rewrite E; discriminate|].
        rewrite E in Hu, Hv. apply (spread_sumsq _ u v); assumption. }
    apply G. intros e He. apply in_seq in He. lia.
  - unfold total_votes. rewrite HE. apply Rsum_map_ext. intros e He. apply in_seq in He. rewrite <- !video_count, (V e) by lia. rewrite map_length. reflexivity.
Qed.

Lemma total_pos : forall x, some_vote x -> 0 < total_votes x.
Proof.
  intros x (e & s & r & v & I & E). assert (He : (e < dE x)%nat) by apply I.
  assert (V : video_votes x e <> []) by (apply rated_votes; exists s, r, v; auto).
  assert (G : forall es, In e es -> 0 < Rsum (map (vcount x) es)).
  { induction es as [|f es IH]; [contradiction|]. cbn [map]. unfold Rsum in *. cbn [fold_right].
    assert (P : 0 <= vcount x f) by (rewrite <- video_count; apply pos_INR).
    assert (Q : 0 <= fold_right Rplus 0 (map (vcount x) es)).
    { apply (Rsum_nonneg (map (vcount x) es)). intros y Hy. apply in_map_iff in Hy as (g & <- & _). rewrite <- video_count. apply pos_INR. }
    intros [-> |H]; [|specialize (IH H); lra]. assert (0 < vcount x e); [|lra]. rewrite <- video_count. apply lt_0_INR.
    destruct (video_votes x e); [contradiction|cbn; lia]. }
  apply G. apply in_seq. lia.
Qed.

Lemma compared_raw : forall c (rd : reader ef) a m, compared c -> rd_arr rd = Ok a -> finite_votes a -> run_modeling c rd no_options = Ok m ->
  mr_raw m = match c with BR_MOS => remove_bias a (bias_estimate a) | _ => a end.
Proof.
  intros c rd a m [-> | ->] Ha HF H.
  - destruct (run_mos_inv rd m H) as (b & Hb & o & ->). rewrite Ha in Hb. injection Hb as <-. reflexivity.
  - destruct (run_br_inv rd m H) as (b & Hb & E & _). rewrite Ha in Hb. injection Hb as <-. exact E.
Qed.
Lemma raw_some : forall c (rd : reader ef) a m, compared c -> rd_arr rd = Ok a -> finite_votes a -> some_vote a -> run_modeling c rd no_options = Ok m -> some_vote (mr_raw m).
Proof.
  intros c rd a m Hc Ha HF (e & s & r & v & I & E) H. rewrite (compared_raw c rd a m Hc Ha HF H). destruct Hc as [-> | ->].
  - exists e, s, r, v. auto.
  - exists e, s, r. eexists. split; [exact I|]. rewrite remove_bias_at by assumption. rewrite E. reflexivity.
Qed.
Lemma raw_transformed : forall c (rd rd' : reader ef) a a' m m' k d, compared c -> rd_arr rd = Ok a -> rd_arr rd' = Ok a' -> finite_votes a ->
  transformed (affine k d) a a' -> run_modeling c rd no_options = Ok m -> run_modeling c rd' no_options = Ok m' ->
  transformed (affine k d) (mr_raw m) (mr_raw m').
Proof.
  intros c rd rd' a a' m m' k d Hc Ha Ha' HF HT H H'. assert (HF' := transformed_finite _ _ _ _ HT HF).
  rewrite (compared_raw c rd a m Hc Ha HF H), (compared_raw c rd' a' m' Hc Ha' HF' H'). destruct Hc as [-> | ->]; [exact HT|].
  apply remove_bias_affine; assumption.
Qed.
Lemma raw_finite : forall c (rd : reader ef) a m, compared c -> rd_arr rd = Ok a -> finite_votes a -> run_modeling c rd no_options = Ok m -> finite_votes (mr_raw m).
Proof.
  intros c rd a m Hc Ha HF H. rewrite (compared_raw c rd a m Hc Ha HF H). destruct Hc as [-> | ->]; [exact HF|]. apply remove_bias_finite. exact HF.
Qed.
Lemma compared_report : forall c (rd : reader ef) a m, compared c -> rd_arr rd = Ok a -> finite_votes a -> run_modeling c rd no_options = Ok m ->
  mr_ll m = ef_div (Fin (mos_ll (mr_raw m))) (Fin (total_votes (mr_raw m))) /\
  mr_aic m = ef_sub (ef_mul (Fin 2) (mr_dof m)) (ef_mul (Fin 2) (mr_ll m)) /\
  mr_bic m = ef_sub (ef_mul (ef_ln (Fin (total_votes a))) (mr_dof m)) (ef_mul (Fin 2) (mr_ll m)) /\
  mr_dof m = ef_div (Fin (INR (match c with BR_MOS => 2 * dE a + dS a * dR a | _ => 2 * dE a end)%nat)) (Fin (total_votes a)).
Proof.
  intros c rd a m Hc Ha HF H.
  assert (K : exists rd2, rd_arr rd2 = Ok a /\ (forall rs, ds_ref_score (rd_ds rd2) = Some (Some rs) -> finnan rs) /\ run_modeling c rd2 no_options = Ok m).
  { exists (Reader (Dataset (ds_refs (rd_ds rd)) (ds_dis (rd_ds rd)) (ds_name (rd_ds rd)) None (ds_attrs (rd_ds rd))) (rd_dvs rd) (rd_arr rd)).
    split; [exact Ha|]. split; [discriminate|]. rewrite <- H. destruct Hc as [-> | ->]; reflexivity. }
  destruct K as (rd2 & Ha2 & Hr2 & H2).
  destruct (c73 c rd2 no_options a m Ha2 HF Hr2 eq_refl eq_refl H2) as (_ & [_ _ _ _ Dof Ll Aic Bic _ _ _]).
  split; [exact Ll|]. split; [exact Aic|]. split; [exact Bic|]. apply Dof.
  - intros [-> |[-> |[-> | ->]]]; destruct Hc as [Hc|Hc]; try discriminate Hc. reflexivity.
  - intro N. destruct Hc as [-> | ->]; [reflexivity|]. exfalso. apply N. left. reflexivity.
Qed.
Lemma dof_unit : forall c (rd rd' : reader ef) a a' m m' k d, compared c -> rd_arr rd = Ok a -> rd_arr rd' = Ok a' -> finite_votes a -> some_vote a ->
  transformed (affine k d) a a' -> run_modeling c rd no_options = Ok m -> run_modeling c rd' no_options = Ok m' ->
  exists D n, mr_dof m = Fin D /\ mr_dof m' = Fin D /\ 0 < n /\ total_votes a = n /\ total_votes a' = n.
Proof.
  intros c rd rd' a a' m m' k d Hc Ha Ha' HF HV HT H H'. assert (HF' := transformed_finite _ _ _ _ HT HF).
  destruct (compared_report c rd a m Hc Ha HF H) as (_ & _ & _ & E). destruct (compared_report c rd' a' m' Hc Ha' HF' H') as (_ & _ & _ & E').
  assert (P := total_pos a HV).
  assert (TE : total_votes a' = total_votes a).
  { unfold total_votes. destruct HT as (HE & HT). rewrite HE. apply Rsum_map_ext. intros e He. apply in_seq in He. rewrite <- !video_count.
    rewrite (transformed_votes k d a a') by (first [split; assumption | assumption | lia]). rewrite map_length. reflexivity. }
  destruct HT as (HE & HS & HR & _). rewrite TE, HE, HS, HR in E'. rewrite <- E in E'.
  rewrite ef_div_Fin in E by lra. do 2 eexists. split; [exact E|]. split; [rewrite E'; exact E|]. split; [exact P|]. split; [reflexivity|exact TE].
Qed.

(** C128. *)
Lemma unit_shift : forall c (rd rd' : reader ef) a a' m m' k d, compared c -> rd_arr rd = Ok a -> rd_arr rd' = Ok a' -> finite_votes a -> some_vote a ->
  0 < k -> transformed (affine k d) a a' -> run_modeling c rd no_options = Ok m -> run_modeling c rd' no_options = Ok m' -> all_spread (mr_raw m) ->
  exists L A B, mr_ll m = Fin L /\ mr_ll m' = Fin (L - ln k) /\ mr_aic m = Fin A /\ mr_aic m' = Fin (A + 2 * ln k) /\
    mr_bic m = Fin B /\ mr_bic m' = Fin (B + 2 * ln k).
Proof.
  intros c rd rd' a a' m m' k d Hc Ha Ha' HF HV K HT H H' HS. assert (HF' := transformed_finite _ _ _ _ HT HF).
  destruct (compared_report c rd a m Hc Ha HF H) as (L1 & A1 & B1 & _). destruct (compared_report c rd' a' m' Hc Ha' HF' H') as (L2 & A2 & B2 & _).
  destruct (dof_unit c rd rd' a a' m m' k d Hc Ha Ha' HF HV HT H H') as (D & n & D1 & D2 & Pn & T1 & T2).
  destruct (mos_ll_unit k d (mr_raw m) (mr_raw m') K) as (M1 & M2); try assumption.
  { apply (raw_finite c rd a m Hc Ha HF H). }
  { apply (raw_transformed c rd rd' a a' m m' k d Hc Ha Ha' HF HT H H'). }
  assert (P := total_pos _ (raw_some c rd a m Hc Ha HF HV H)).
  rewrite M1, M2 in L2. rewrite ef_div_Fin in L1, L2 by lra.
  assert (E2 : (mos_ll (mr_raw m) - total_votes (mr_raw m) * ln k) / total_votes (mr_raw m) = mos_ll (mr_raw m) / total_votes (mr_raw m) - ln k) by (field; lra).
  rewrite E2 in L2. rewrite L1, D1 in A1, B1. rewrite L2, D2 in A2, B2. rewrite T1 in B1. rewrite T2 in B2.
  assert (LN : ef_ln (Fin n) = Fin (ln n)).
  { unfold ef_ln. destruct (Rltb n 0) eqn:Q; [apply Rltb_true in Q; lra|]. destruct (Req_EM_T n 0); [lra|reflexivity]. }
  rewrite LN in B1, B2. cbn [ef_mul ef_sub ef_add ef_neg] in A1, A2, B1, B2. rewrite ?ef_sub_Fin in *.
  exists (mos_ll (mr_raw m) / total_votes (mr_raw m)). do 2 eexists. split; [exact L1|]. split; [exact L2|]. split; [exact A1|].
  split; [rewrite A2; f_equal; ring|]. split; [exact B1|]. rewrite B2. f_equal. ring.
Qed.
Lemma unit_order : forall (rd rd' : reader ef) a a' k d m b m' b', rd_arr rd = Ok a -> rd_arr rd' = Ok a' -> finite_votes a -> some_vote a ->
  0 < k -> transformed (affine k d) a a' ->
  run_modeling MOS rd no_options = Ok m -> run_modeling BR_MOS rd no_options = Ok b ->
  run_modeling MOS rd' no_options = Ok m' -> run_modeling BR_MOS rd' no_options = Ok b' ->
  all_spread (mr_raw m) -> all_spread (mr_raw b) ->
  ef_ltb (mr_aic m') (mr_aic b') = ef_ltb (mr_aic m) (mr_aic b) /\ ef_ltb (mr_bic m') (mr_bic b') = ef_ltb (mr_bic m) (mr_bic b).
Proof.
  intros rd rd' a a' k d m b m' b' Ha Ha' HF HV K HT Hm Hb Hm' Hb' S1 S2.
  destruct (unit_shift MOS rd rd' a a' m m' k d (or_introl eq_refl) Ha Ha' HF HV K HT Hm Hm' S1) as (L & A & B & _ & _ & -> & -> & -> & ->).
  destruct (unit_shift BR_MOS rd rd' a a' b b' k d (or_intror eq_refl) Ha Ha' HF HV K HT Hb Hb' S2) as (L2 & A2 & B2 & _ & _ & -> & -> & -> & ->).
  assert (G : forall x y t, Rltb (x + t) (y + t) = Rltb x y).
  { intros x y t. destruct (Rltb x y) eqn:E; [apply Rltb_true in E; apply Rltb_true; lra|].
    destruct (Rltb (x + t) (y + t)) eqn:E2; [|reflexivity]. apply Rltb_true in E2. assert (Rltb x y = true) by (apply Rltb_true; lra). congruence. }
  split; cbn [ef_ltb]; apply G.
Qed.
Lemma closed_form : forall c (rd : reader ef) k a0 m, rd_arr rd = Ok a0 -> finite_votes a0 -> (forall rs, ds_ref_score (rd_ds rd) = Some (Some rs) -> finnan rs) ->
  kw_normalize_final k = false -> kw_transform_final k = None -> run_modeling c rd k = Ok m -> some_vote (mr_raw m) -> all_spread (mr_raw m) ->
  mr_ll m = Fin (Rsum (map (fun e => closed_ll (INR (length (video_votes (mr_raw m) e))) (sstd (video_votes (mr_raw m) e)))
    (filter (fun e => negb (Nat.eqb (length (video_votes (mr_raw m) e)) 0)) (seq 0 (dE (mr_raw m))))) / total_votes (mr_raw m)).
Proof.
  intros c rd k a0 m Ha HF Hr H1 H2 H HV HS.
  destruct (c73 c rd k a0 m Ha HF Hr H1 H2 H) as (HF' & [_ _ _ _ _ -> _ _ _ _ _]).
  assert (P := total_pos _ HV). rewrite ef_div_Fin by lra. f_equal. unfold Rdiv. f_equal. unfold mos_ll.
  assert (A : forall e, In e (seq 0 (dE (mr_raw m))) -> (e < dE (mr_raw m))%nat) by (intros e He; apply in_seq in He; lia).
  revert A. generalize (seq 0 (dE (mr_raw m))). induction l as [|e l IH]; intro A; [reflexivity|].
  cbn [map filter]. assert (He := A e (or_introl eq_refl)). specialize (IH (fun x Hx => A x (or_intror Hx))).
  destruct (video_votes (mr_raw m) e) as [|v0 l0] eqn:E.
  - cbn [length Nat.eqb negb]. unfold Rsum in *. cbn [fold_right]. rewrite IH. unfold video_ll, sumsq, Rsum. cbn. destruct (Req_EM_T 0 0); lra.
  - cbn [length Nat.eqb negb map]. unfold Rsum in *. cbn [fold_right]. rewrite IH, E. f_equal. rewrite video_ll_closed; [reflexivity|].
    destruct (HS e He) as (u & v & Hu & Hv & N); [rewrite E; discriminate|]. rewrite E in Hu, Hv. exact (spread_sumsq _ u v Hu Hv N).
Qed.

(** ** Votes 1, 3 and 3, 3 on a scale from 1 to 5, and the same on a scale from 0 to 1 *)
Lemma pair_ll : forall x y, x <> y -> video_ll [x; y] = - (1 / 2) - ln ((x - y) * (x - y) * PI).
Proof.
  intros x y H. assert (D : 0 < (x - y) * (x - y)) by (assert (Q := Rsqr_pos_lt (x - y)); unfold Rsqr in Q; apply Q; lra).
  assert (Z : sumsq (Rmean [x; y]) [x; y] = (x - y) * (x - y) / 2) by (unfold sumsq, Rmean, Rsum; cbn; field).
  rewrite video_ll_closed by lra. cbn [length]. replace (INR 2) with 2 by reflexivity. unfold closed_ll, sstd. rewrite Z.
  cbn [length]. replace (INR 2 - 1) with 1 by (cbn; lra). replace ((x - y) * (x - y) / 2 / 1) with ((x - y) * (x - y) / 2) by field.
  assert (Q : 0 < (x - y) * (x - y) / 2) by lra. assert (PP := PI_RGT_0).
  assert (E : 2 * ln (sqrt ((x - y) * (x - y) / 2)) = ln ((x - y) * (x - y) / 2)).
  { rewrite <- (sqrt_sqrt ((x - y) * (x - y) / 2)) at 2 by lra. rewrite ln_mult by (apply sqrt_lt_R0; exact Q). ring. }
  unfold half_ln_2pi. rewrite E. replace ((x - y) * (x - y) * PI) with ((x - y) * (x - y) / 2 * (2 * PI)) by field. rewrite (ln_mult ((x - y) * (x - y) / 2)) by lra. lra.
Qed.
Lemma same_ll : forall x, video_ll [x; x] = 0.
Proof.
  intro x. unfold video_ll. destruct (Req_EM_T _ _) as [_|N]; [reflexivity|]. exfalso. apply N. unfold sumsq, Rmean, Rsum. cbn. field.
Qed.

Section Two.
  Variables u v : R.
  Hypothesis Huv : u <> v.
  (** Two subjects: u, v on one video, v, v on the other. *)
  Definition two_ds := w_ds [ w_dv 0 0 "v0" (OSeq false [PNum (Fin u); PNum (Fin v)]); w_dv 0 1 "v1" (OSeq false [PNum (Fin v); PNum (Fin v)]) ].
  Lemma two_reader : raw_reader two_ds = Ok (w_reader two_ds). Proof. reflexivity. Qed.
  Lemma two_arr : rd_arr (w_reader two_ds) = Ok (w_arr two_ds). Proof. reflexivity. Qed.
  Lemma two_at : forall e s r, inside (w_arr two_ds) e s r -> at3 (w_arr two_ds) e s r = Fin (if Nat.eqb (e + s) 0 then u else v).
  Proof.
    intros e s r (He & Hs & Hr). change (e < 2)%nat in He. change (s < 2)%nat in Hs. change (r < 1)%nat in Hr.
    destruct r; [|lia]. destruct e as [|[|]]; [| |lia]; (destruct s as [|[|]]; [| |lia]); reflexivity.
  Qed.
  Lemma two_finite : finite_votes (w_arr two_ds).
  Proof. intros e s r I. rewrite two_at by exact I. exact Logic.I. Qed.
  Lemma two_some : some_vote (w_arr two_ds).
  Proof. exists 0%nat, 0%nat, 0%nat, u. split; [|reflexivity]. unfold inside. change (0 < 2 /\ 0 < 2 /\ 0 < 1)%nat. lia. Qed.
  Lemma two_total : total_votes (w_arr two_ds) = 4.
  Proof.
    unfold total_votes. change (dE (w_arr two_ds)) with 2%nat. cbn [seq map]. rewrite <- !video_count.
    change (video_votes (w_arr two_ds) 0) with [u; v]. change (video_votes (w_arr two_ds) 1) with [v; v]. unfold Rsum. cbn. lra.
  Qed.
  Lemma two_raw : let b := remove_bias (w_arr two_ds) (bias_estimate (w_arr two_ds)) in
    video_votes b 0 = [u + (v - u) / 4; v - (v - u) / 4] /\ video_votes b 1 = [v + (v - u) / 4; v - (v - u) / 4].
  Proof.
    cbv zeta. assert (F := two_finite).
    assert (B0 : Rmean (bias_diffs (w_arr two_ds) 0) = - ((v - u) / 4)) by (unfold bias_diffs, Rmean, Rsum; cbn; unfold Rsum; cbn; field).
    assert (B1 : Rmean (bias_diffs (w_arr two_ds) 1) = (v - u) / 4) by (unfold bias_diffs, Rmean, Rsum; cbn; unfold Rsum; cbn; field).
    assert (C : forall e s, (e < 2)%nat -> (s < 2)%nat -> at3 (remove_bias (w_arr two_ds) (bias_estimate (w_arr two_ds))) e s 0 =
      Fin ((if Nat.eqb (e + s) 0 then u else v) - Rmean (bias_diffs (w_arr two_ds) s))).
    { intros e s He Hs. assert (I : inside (w_arr two_ds) e s 0) by (split; [exact He|split; [exact Hs|exact Nat.lt_0_1]]). rewrite remove_bias_at by assumption. rewrite two_at by exact I. reflexivity. }
    split.
    - change (presents [at3 (remove_bias (w_arr two_ds) (bias_estimate (w_arr two_ds))) 0 0 0; at3 (remove_bias (w_arr two_ds) (bias_estimate (w_arr two_ds))) 0 1 0] = [u + (v - u) / 4; v - (v - u) / 4]).
      rewrite !C by lia. cbn [Nat.eqb Nat.add]. rewrite B0, B1. cbn. f_equal. lra.
    - change (presents [at3 (remove_bias (w_arr two_ds) (bias_estimate (w_arr two_ds))) 1 0 0; at3 (remove_bias (w_arr two_ds) (bias_estimate (w_arr two_ds))) 1 1 0] = [v + (v - u) / 4; v - (v - u) / 4]).
      rewrite !C by lia. cbn [Nat.eqb Nat.add]. rewrite B0, B1. cbn. f_equal. lra.
  Qed.
  Lemma two_runs : exists m b, run_modeling MOS (w_reader two_ds) no_options = Ok m /\ run_modeling BR_MOS (w_reader two_ds) no_options = Ok b /\
    mr_aic m = Fin (2 + 1 / 4 + ln ((u - v) * (u - v) * PI) / 2) /\
    mr_aic b = Fin (3 + 1 / 2 + ln ((u - v) * (u - v) / 4 * PI)).
  Proof.
    destruct (plain_total MOS _ _ None no_options two_arr eq_refl (no_conflict MOS) eq_refl eq_refl eq_refl eq_refl) as (m & Hm).
    destruct (plain_total BR_MOS _ _ None no_options two_arr eq_refl (no_conflict BR_MOS) eq_refl eq_refl eq_refl eq_refl) as (b & Hb).
    exists m, b. split; [exact Hm|]. split; [exact Hb|].
    destruct (compared_report MOS _ _ m (or_introl eq_refl) two_arr two_finite Hm) as (L1 & A1 & _ & D1).
    destruct (compared_report BR_MOS _ _ b (or_intror eq_refl) two_arr two_finite Hb) as (L2 & A2 & _ & D2).
    rewrite (compared_raw MOS _ _ m (or_introl eq_refl) two_arr two_finite Hm) in L1. rewrite (compared_raw BR_MOS _ _ b (or_intror eq_refl) two_arr two_finite Hb) in L2.
    cbv iota in L1, L2. set (bb := remove_bias _ _) in L2.
    assert (TB : total_votes bb = 4).
    { unfold total_votes. change (dE bb) with 2%nat. cbn [seq map]. rewrite <- !video_count. destruct two_raw as (V0 & V1). fold bb in V0, V1. rewrite V0, V1. unfold Rsum. cbn. lra. }
    assert (ML : mos_ll (w_arr two_ds) = - (1 / 2) - ln ((u - v) * (u - v) * PI)).
    { unfold mos_ll. change (dE (w_arr two_ds)) with 2%nat. cbn [seq map]. change (video_votes (w_arr two_ds) 0) with [u; v]. change (video_votes (w_arr two_ds) 1) with [v; v].
      rewrite same_ll, pair_ll by exact Huv. unfold Rsum. cbn. lra. }
    assert (MB : mos_ll bb = - 1 - 2 * ln ((u - v) * (u - v) / 4 * PI)).
    { unfold mos_ll. change (dE bb) with 2%nat. cbn [seq map]. destruct two_raw as (V0 & V1). fold bb in V0, V1. rewrite V0, V1. rewrite !pair_ll by lra.
      replace ((u + (v - u) / 4 - (v - (v - u) / 4)) * (u + (v - u) / 4 - (v - (v - u) / 4)) * PI) with ((u - v) * (u - v) / 4 * PI) by field.
      replace ((v + (v - u) / 4 - (v - (v - u) / 4)) * (v + (v - u) / 4 - (v - (v - u) / 4)) * PI) with ((u - v) * (u - v) / 4 * PI) by field.
      unfold Rsum. cbn [fold_right]. lra. }
    rewrite two_total in L1, D1, D2. rewrite ML in L1. rewrite MB, TB in L2. rewrite ef_div_Fin in L1, L2, D1, D2 by lra.
    rewrite L1, D1 in A1. rewrite L2, D2 in A2. cbn [ef_mul] in A1, A2. rewrite ef_sub_Fin in A1, A2. split.
    - rewrite A1. f_equal. cbn. field.
    - rewrite A2. f_equal. cbn. field.
  Qed.
End Two.

Lemma exp_54 : exp (5 / 4) < 4.
Proof.
  assert (E : exp (5 / 4) * exp (5 / 4) * (exp (5 / 4) * exp (5 / 4)) = exp 1 * exp 1 * exp 1 * exp 1 * exp 1).
  { rewrite <- !exp_plus. f_equal. lra. }
  assert (A := exp_le_3). assert (P := exp_pos 1). assert (Q := exp_pos (5 / 4)).
  destruct (Rlt_le_dec (exp (5 / 4)) 4) as [|C]; [assumption|exfalso].
  assert (B2 : exp 1 * exp 1 <= 9) by nra. assert (B4 : exp 1 * exp 1 * (exp 1 * exp 1) <= 81) by nra.
  assert (C2 : 16 <= exp (5 / 4) * exp (5 / 4)) by nra. nra.
Qed.
Lemma ln4_low : 5 / 4 < ln 4.
Proof. rewrite <- (ln_exp (5 / 4)). apply ln_increasing; [apply exp_pos|exact exp_54]. Qed.
Lemma ln4_high : ln 4 < 2.
Proof.
  rewrite <- (ln_exp 2) at 1. apply ln_increasing; [lra|]. assert (E := exp_ineq1 1 ltac:(lra)).
  replace 2 with (1 + 1) by lra. rewrite exp_plus. nra.
Qed.

Lemma unit_refuted : exists (ds ds' : dataset ef string) rd rd' a a' m b m' b',
  raw_reader ds = Ok rd /\ raw_reader ds' = Ok rd' /\ rd_arr rd = Ok a /\ rd_arr rd' = Ok a' /\ complete_votes a /\ transformed (affine (1/4) (- (1/4))) a a' /\
  run_modeling MOS rd no_options = Ok m /\ run_modeling BR_MOS rd no_options = Ok b /\
  run_modeling MOS rd' no_options = Ok m' /\ run_modeling BR_MOS rd' no_options = Ok b' /\
  ef_ltb (mr_aic m) (mr_aic b) = true /\ ef_ltb (mr_aic b') (mr_aic m') = true.
Proof.
  destruct (two_runs 1 3) as (m & b & Hm & Hb & A & B); [lra|]. destruct (two_runs 0 (1/2)) as (m' & b' & Hm' & Hb' & A' & B'); [lra|].
  exists (two_ds 1 3), (two_ds 0 (1/2)), (w_reader (two_ds 1 3)), (w_reader (two_ds 0 (1/2))), (w_arr (two_ds 1 3)), (w_arr (two_ds 0 (1/2))), m, b, m', b'.
  split; [reflexivity|]. split; [reflexivity|]. split; [reflexivity|]. split; [reflexivity|]. split.
  { intros e s r I. rewrite two_at by exact I. exact Logic.I. }
  split.
  { split; [reflexivity|]. split; [reflexivity|]. split; [reflexivity|]. intros e s r I. rewrite !two_at by exact I. cbn [affine]. f_equal.
    destruct (Nat.eqb (e + s) 0); lra. }
  split; [exact Hm|]. split; [exact Hb|]. split; [exact Hm'|]. split; [exact Hb'|]. rewrite A, B, A', B'. cbn [ef_ltb].
  assert (PL : 0 < ln PI /\ ln PI <= ln 4).
  { assert (Q1 := PI2_1). assert (Q2 := PI_4). split; [rewrite <- ln_1; apply ln_increasing; lra|].
    destruct Q2 as [Q2| ->]; [left; apply ln_increasing; lra|lra]. }
  assert (L := ln4_low). assert (H := ln4_high). assert (PP := PI_RGT_0).
  split; apply Rltb_true.
  - replace ((1 - 3) * (1 - 3) * PI) with (4 * PI) by ring. replace ((1 - 3) * (1 - 3) / 4 * PI) with PI by field. rewrite ln_mult by lra. lra.
  - replace ((0 - 1 / 2) * (0 - 1 / 2) / 4 * PI) with (/ 4 * / 4 * PI) by field. replace ((0 - 1 / 2) * (0 - 1 / 2) * PI) with (/ 4 * PI) by field.
    rewrite !ln_mult by lra. rewrite ln_Rinv by lra. lra.
Qed.

Lemma unit_example : rd_arr (w_reader wc_ds) = Ok (w_arr wc_ds) /\ finite_votes (w_arr wc_ds) /\ some_vote (w_arr wc_ds) /\
  exists m b m' b', run_modeling MOS (w_reader wc_ds) no_options = Ok m /\ run_modeling BR_MOS (w_reader wc_ds) no_options = Ok b /\
    all_spread (mr_raw m) /\ all_spread (mr_raw b) /\
    let rd' := StepsProofs.with_array (w_reader wc_ds) (map3 (fun _ _ _ => affine (1/4) (-(1/4))) (w_arr wc_ds)) in
    run_modeling MOS rd' no_options = Ok m' /\ run_modeling BR_MOS rd' no_options = Ok b'.
Proof.
  assert (F := complete_fin _ wc_complete). split; [exact wc_arr|]. split; [exact F|]. split.
  { exists 0%nat, 0%nat, 0%nat, 1. split; [|reflexivity]. unfold inside. change (0 < 2 /\ 0 < 2 /\ 0 < 1)%nat. lia. }
  destruct (plain_total MOS _ _ None no_options wc_arr eq_refl (no_conflict MOS) eq_refl eq_refl eq_refl eq_refl) as (m & Hm).
  destruct (plain_total BR_MOS _ _ None no_options wc_arr eq_refl (no_conflict BR_MOS) eq_refl eq_refl eq_refl eq_refl) as (b & Hb).
  set (rd' := StepsProofs.with_array _ _).
  destruct (plain_total MOS rd' _ None no_options eq_refl eq_refl (no_conflict MOS) eq_refl eq_refl eq_refl eq_refl) as (m' & Hm').
  destruct (plain_total BR_MOS rd' _ None no_options eq_refl eq_refl (no_conflict BR_MOS) eq_refl eq_refl eq_refl eq_refl) as (b' & Hb').
  exists m, b, m', b'. split; [exact Hm|]. split; [exact Hb|].
  rewrite (compared_raw MOS _ _ m (or_introl eq_refl) wc_arr F Hm), (compared_raw BR_MOS _ _ b (or_intror eq_refl) wc_arr F Hb). cbv iota.
  split; [|split; [|split; assumption]].
  - intros e He _. change (e < 2)%nat in He. destruct e as [|[|]]; [| |lia].
    + exists 1, 3. change (video_votes (w_arr wc_ds) 0) with [1; 3]. split; [left; reflexivity|]. split; [right; left; reflexivity|lra].
    + exists 2, 3. change (video_votes (w_arr wc_ds) 1) with [2; 3]. split; [left; reflexivity|]. split; [right; left; reflexivity|lra].
  - set (bb := remove_bias _ _).
    assert (B0 : Rmean (bias_diffs (w_arr wc_ds) 0) = - (3 / 4)) by (unfold bias_diffs, Rmean, Rsum; cbn; unfold Rsum; cbn; field).
    assert (B1 : Rmean (bias_diffs (w_arr wc_ds) 1) = 3 / 4) by (unfold bias_diffs, Rmean, Rsum; cbn; unfold Rsum; cbn; field).
    assert (C : forall e s x, (e < 2)%nat -> (s < 2)%nat -> at3 (w_arr wc_ds) e s 0 = Fin x -> at3 bb e s 0 = Fin (x - Rmean (bias_diffs (w_arr wc_ds) s))).
    { intros e s x He Hs E. assert (I : inside (w_arr wc_ds) e s 0) by (split; [exact He|split; [exact Hs|exact Nat.lt_0_1]]). unfold bb. rewrite remove_bias_at by assumption. rewrite E. reflexivity. }
    intros e He _. change (e < 2)%nat in He. destruct e as [|[|]]; [| |lia].
    + exists (1 - - (3 / 4)), (3 - 3 / 4). change (video_votes bb 0) with (presents [at3 bb 0 0 0; at3 bb 0 1 0]).
      rewrite (C 0%nat 0%nat 1), (C 0%nat 1%nat 3) by (lia || reflexivity). rewrite B0, B1. cbn. split; [left; reflexivity|]. split; [right; left; reflexivity|lra].
    + exists (2 - - (3 / 4)), (3 - 3 / 4). change (video_votes bb 1) with (presents [at3 bb 1 0 0; at3 bb 1 1 0]).
      rewrite (C 1%nat 0%nat 2), (C 1%nat 1%nat 3) by (lia || reflexivity). rewrite B0, B1. cbn. split; [left; reflexivity|]. split; [right; left; reflexivity|lra].
Qed.
