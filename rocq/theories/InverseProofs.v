(** Proofs about Inverse.v for claim C83. *)
From Coq Require Import Reals Ranalysis5 List Bool Arith ZArith Lia Lra.
From Verif Require Import PyBase Num ExtReal ExtRealProofs Inverse SpecInverse.
Import ListNotations.
Local Open Scope R_scope.

Definition tr (inc : bool) : ef := if inc then Fin 1 else Fin (-1).

Lemma in_dom_weaken : forall lo hi olo ohi x, in_dom lo hi olo ohi x -> in_dom lo hi false false x.
Proof.
  intros lo hi olo ohi x [A B]. split; intros e He; [specialize (A e He)|specialize (B e He)].
  - destruct olo; lra.
  - destruct ohi; lra.
Qed.

Lemma refpoints_ef : forall lo hi, refpoints (efo lo) (efo hi) = (Fin (fst (start_points lo hi)), Fin (snd (start_points lo hi))).
Proof.
  intros [a|] [b|]; unfold refpoints, efo, option_map, start_points; cbn [fst snd nadd nsub ndiv nofZ nzero none_ Num_ef]; unfold none_, nzero; cbn [nofZ Num_ef];
    rewrite ?ef_sub_Fin; cbn [ef_add]; try reflexivity.
  rewrite ef_div_Fin by lra. cbn [ef_add]. rewrite ef_sub_Fin. reflexivity.
Qed.

Lemma start_in : forall lo hi olo ohi, ordered lo hi ->
  in_dom lo hi olo ohi (fst (start_points lo hi)) /\ in_dom lo hi olo ohi (snd (start_points lo hi)) /\
  fst (start_points lo hi) < snd (start_points lo hi).
Proof.
  intros lo hi olo ohi O. destruct lo as [a|], hi as [b|]; cbn [start_points fst snd].
  - specialize (O a b eq_refl eq_refl).
    repeat split; try (intros e He; injection He as <-); try lra; destruct olo, ohi; lra.
  - repeat split; try discriminate; try (intros e He; injection He as <-); try lra; destruct olo; lra.
  - repeat split; try discriminate; try (intros e He; injection He as <-); try lra; destruct ohi; lra.
  - repeat split; try discriminate; lra.
Qed.

Lemma sign_ef : forall inc a b, (if inc : bool then a < b else b < a) -> np_sign (ef_sub (Fin b) (Fin a)) = tr inc.
Proof.
  intros inc a b H. rewrite ef_sub_Fin. unfold np_sign, nzero, none_, tr. cbn [nisnan nltb nofZ Num_ef ef_isnan ef_ltb].
  destruct inc.
  - replace (Rltb 0 (b - a)) with true by (symmetry; apply Rltb_true; lra). reflexivity.
  - replace (Rltb 0 (b - a)) with false by (symmetry; apply Rltb_false; lra).
    replace (Rltb (b - a) 0) with true by (symmetry; apply Rltb_true; lra). reflexivity.
Qed.

Lemma eqb_Fin : forall a b, ef_eqb (Fin a) (Fin b) = Reqbb a b.
Proof. reflexivity. Qed.
Lemma Reqbb_refl : forall a, Reqbb a a = true.
Proof. intro a. apply Reqbb_true. reflexivity. Qed.
Lemma Reqbb_ne : forall a b, a <> b -> Reqbb a b = false.
Proof. intros a b H. destruct (Reqbb a b) eqn:E; [|reflexivity]. apply Reqbb_true in E. contradiction. Qed.

Lemma tr_up : forall inc, neqb (tr inc) none_ = inc.
Proof. intros [|]; cbn; [apply Reqbb_refl|apply Reqbb_ne; lra]. Qed.
Lemma tr_down : forall inc, neqb (tr inc) (nofZ (-1)) = negb inc.
Proof. intros [|]; cbn; [apply Reqbb_ne; lra|apply Reqbb_refl]. Qed.
Lemma tr_zero : forall inc, neqb (tr inc) nzero = false.
Proof. intros [|]; cbn; apply Reqbb_ne; lra. Qed.

Lemma ninf_ef : ninf = PInf.
Proof.
  unfold ninf, none_, nzero. cbn [ndiv nofZ Num_ef ef_div]. destruct (Req_EM_T 0 0); [|lra]. destruct (Req_EM_T 1 0); [lra|].
  replace (Rltb 0 1) with true by (symmetry; apply Rltb_true; lra). reflexivity.
Qed.

Definition infof (up : bool) : ef := if up then PInf else NInf.
Lemma inf_tr : forall inc, ef_mul PInf (tr inc) = infof inc.
Proof.
  intros [|]; cbn; unfold ef_infmul; destruct (Req_EM_T _ 0); try lra.
  - replace (Rltb 0 1) with true by (symmetry; apply Rltb_true; lra). reflexivity.
  - replace (Rltb 0 (-1)) with false by (symmetry; apply Rltb_false; lra). reflexivity.
Qed.
Lemma neginf_tr : forall inc, ef_mul (ef_mul (Fin (-1)) PInf) (tr inc) = infof (negb inc).
Proof.
  intro inc. replace (ef_mul (Fin (-1)) PInf) with NInf.
  - destruct inc; cbn; unfold ef_infmul; destruct (Req_EM_T _ 0); try lra.
    + replace (Rltb 0 1) with true by (symmetry; apply Rltb_true; lra). reflexivity.
    + replace (Rltb 0 (-1)) with false by (symmetry; apply Rltb_false; lra). reflexivity.
  - cbn. unfold ef_infmul. destruct (Req_EM_T _ 0); [lra|]. replace (Rltb 0 (-1)) with false by (symmetry; apply Rltb_false; lra). reflexivity.
Qed.

(** The bounded function. *)
Section Bounded.
  Variables (f : ef -> res ef) (g : R -> R) (lo hi : option R) (olo ohi inc : bool).
  Hypothesis C : computes f g lo hi olo ohi.
  Let bf := bounded_f f (efo lo) (efo hi) olo ohi (tr inc).

  Lemma bounded_in : forall x, in_dom lo hi olo ohi x -> bf (Fin x) = Ok (Fin (g x)).
  Proof.
    intros x D. unfold bf, bounded_f.
    replace (match efo lo with Some lo0 => (nltb (Fin x) lo0 || (neqb (Fin x) lo0 && olo))%bool | None => false end) with false.
    - replace (match efo hi with Some hi0 => (ngtb (Fin x) hi0 || (neqb (Fin x) hi0 && ohi))%bool | None => false end) with false; [apply C, D|].
      destruct hi as [b|]; [|reflexivity]. destruct D as [_ D]. specialize (D b eq_refl). cbn. symmetry. apply orb_false_iff.
      destruct ohi; split; try (apply Rltb_false; lra); [rewrite Reqbb_ne by lra; reflexivity|apply andb_false_r].
    - destruct lo as [a|]; [|reflexivity]. destruct D as [D _]. specialize (D a eq_refl). cbn. symmetry. apply orb_false_iff.
      destruct olo; split; try (apply Rltb_false; lra); [rewrite Reqbb_ne by lra; reflexivity|apply andb_false_r].
  Qed.

  Lemma bounded_out : forall x, ~ in_dom lo hi olo ohi x -> exists u, bf (Fin x) = Ok (infof u).
  Proof.
    intros x D. unfold bf, bounded_f.
    destruct (match efo lo with Some lo0 => (nltb (Fin x) lo0 || (neqb (Fin x) lo0 && olo))%bool | None => false end) eqn:E1.
    { exists (negb inc). change (nofZ (-1)) with (Fin (-1)). rewrite ninf_ef. cbn [nmul Num_ef]. rewrite neginf_tr. reflexivity. }
    destruct (match efo hi with Some hi0 => (ngtb (Fin x) hi0 || (neqb (Fin x) hi0 && ohi))%bool | None => false end) eqn:E2.
    { exists inc. rewrite ninf_ef. cbn [nmul Num_ef]. rewrite inf_tr. reflexivity. }
    exfalso. apply D. split; intros e ->.
    - cbn in E1. apply orb_false_iff in E1. destruct E1 as [A B]. apply Rltb_false in A. destruct olo; [|exact A].
      rewrite andb_true_r in B. destruct A as [A|A]; [exact A|]. subst. rewrite Reqbb_refl in B. discriminate.
    - cbn in E2. apply orb_false_iff in E2. destruct E2 as [A B]. apply Rltb_false in A. destruct ohi; [|exact A].
      rewrite andb_true_r in B. destruct A as [A|A]; [exact A|]. subst. rewrite Reqbb_refl in B. discriminate.
  Qed.

  Lemma objective : forall y, distance_program g lo hi olo ohi y (fun x => do v <- bf x; Ok (nsq (nsub v (Fin y)))).
  Proof.
    intro y. split; intros x D.
    - rewrite (bounded_in x D). cbn [bind]. unfold nsq. cbn [nsub nmul Num_ef]. rewrite ef_sub_Fin. reflexivity.
    - destruct (bounded_out x D) as [u ->]. cbn [bind]. unfold nsq. cbn [nsub nmul Num_ef]. destruct u; reflexivity.
  Qed.
End Bounded.

Lemma in_dom_dec : forall lo hi olo ohi x, in_dom lo hi olo ohi x \/ ~ in_dom lo hi olo ohi x.
Proof.
  intros lo hi olo ohi x. unfold in_dom.
  assert (A : (forall a, lo = Some a -> if olo then a < x else a <= x) \/ ~ (forall a, lo = Some a -> if olo then a < x else a <= x)).
  { destruct lo as [a|]; [|left; discriminate]. destruct olo.
    - destruct (Rlt_dec a x); [left|right]. + intros ? [= <-]; assumption. + intro H. apply n, H. reflexivity.
    - destruct (Rle_dec a x); [left|right]. + intros ? [= <-]; assumption. + intro H. apply n, H. reflexivity. }
  assert (B : (forall b, hi = Some b -> if ohi then x < b else x <= b) \/ ~ (forall b, hi = Some b -> if ohi then x < b else x <= b)).
  { destruct hi as [b|]; [|left; discriminate]. destruct ohi.
    - destruct (Rlt_dec x b); [left|right]. + intros ? [= <-]; assumption. + intro H. apply n, H. reflexivity.
    - destruct (Rle_dec x b); [left|right]. + intros ? [= <-]; assumption. + intro H. apply n, H. reflexivity. }
  tauto.
Qed.

Lemma one_ef : forall minimize f g lo hi olo ohi inc y, ordered lo hi -> computes f g lo hi olo ohi ->
  exists x ok, inv_one minimize (bounded_f f (efo lo) (efo hi) olo ohi (tr inc)) (efo lo) (efo hi) (refpoints (efo lo) (efo hi)) (Fin y) = Ok (x, ok) /\
    entry minimize g lo hi olo ohi y x ok.
Proof.
  intros minimize f g lo hi olo ohi inc y O C.
  pose (bf := bounded_f f (efo lo) (efo hi) olo ohi (tr inc)).
  assert (Hb : exists t : bool, (match efo hi with Some h => do v <- bf h; Ok (neqb v (Fin y)) | None => Ok false end) = Ok t /\
             (if t then exists b, hi = Some b /\ ohi = false /\ y = g b else forall b, hi = Some b -> ohi = false -> y <> g b)).
  { destruct hi as [b|]; [|exists false; split; [reflexivity|discriminate]].
    cbn [efo option_map]. destruct (in_dom_dec lo (Some b) olo ohi b) as [D|D].
    - unfold bf. rewrite (bounded_in f g lo (Some b) olo ohi inc C b D). cbn [bind]. cbn [neqb Num_ef ef_eqb].
      exists (Reqbb (g b) y). split; [reflexivity|]. destruct (Reqbb (g b) y) eqn:E.
      + apply Reqbb_true in E. exists b. repeat split; [|symmetry; exact E]. destruct D as [_ D]. specialize (D b eq_refl). destruct ohi; [lra|reflexivity].
      + intros b' [= <-] _ Hy. rewrite <- Hy, Reqbb_refl in E. discriminate.
    - unfold bf. destruct (bounded_out f g lo (Some b) olo ohi inc C b D) as [u E]. rewrite E. cbn [bind].
      exists false. split; [destruct u; reflexivity|]. intros b' [= <-] -> _. apply D. split.
      + intros a Ha. specialize (O a b Ha eq_refl). destruct olo; lra.
      + intros b' [= <-]. lra. }
  assert (Ha : exists t : bool, (match efo lo with Some h => do v <- bf h; Ok (neqb v (Fin y)) | None => Ok false end) = Ok t /\
             (if t then exists a, lo = Some a /\ olo = false /\ y = g a else forall a, lo = Some a -> olo = false -> y <> g a)).
  { destruct lo as [a|]; [|exists false; split; [reflexivity|discriminate]].
    cbn [efo option_map]. destruct (in_dom_dec (Some a) hi olo ohi a) as [D|D].
    - unfold bf. rewrite (bounded_in f g (Some a) hi olo ohi inc C a D). cbn [bind]. cbn [neqb Num_ef ef_eqb].
      exists (Reqbb (g a) y). split; [reflexivity|]. destruct (Reqbb (g a) y) eqn:E.
      + apply Reqbb_true in E. exists a. repeat split; [|symmetry; exact E]. destruct D as [D _]. specialize (D a eq_refl). destruct olo; [lra|reflexivity].
      + intros b' [= <-] _ Hy. rewrite <- Hy, Reqbb_refl in E. discriminate.
    - unfold bf. destruct (bounded_out f g (Some a) hi olo ohi inc C a D) as [u E]. rewrite E. cbn [bind].
      exists false. split; [destruct u; reflexivity|]. intros b' [= <-] -> _. apply D. split.
      + intros b' [= <-]. lra.
      + intros b Hb'. specialize (O a b eq_refl Hb'). destruct ohi; lra. }
  destruct Hb as [tb [Eb Sb]], Ha as [ta [Ea Sa]].
  unfold inv_one. fold bf. rewrite Eb. cbn [bind]. destruct tb.
  { destruct Sb as [b [-> [-> ->]]]. exists (Fin b), true. split; [reflexivity|]. left. exists b. auto. }
  rewrite Ea. cbn [bind]. destruct ta.
  { destruct Sa as [a [-> [-> ->]]]. exists (Fin a), true. split; [reflexivity|]. right. left. exists a. auto. }
  rewrite refpoints_ef.
  destruct (minimize (fun x => do v <- bf x; Ok (nsq (nsub v (Fin y)))) (Fin (fst (start_points lo hi)), Fin (snd (start_points lo hi)))) as [[x ok]|] eqn:E.
  - exists x, ok. split; [reflexivity|]. right. right. repeat split; try assumption. eexists. split; [apply (objective f g lo hi olo ohi inc C)|].
    fold bf. rewrite E. reflexivity.
  - exists NaN, false. split; [reflexivity|]. right. right. repeat split; try assumption. eexists. split; [apply (objective f g lo hi olo ohi inc C)|].
    fold bf. rewrite E. auto.
Qed.

Lemma all_ef : forall minimize f g lo hi olo ohi inc ys, ordered lo hi -> computes f g lo hi olo ohi ->
  exists rs, mapM (inv_one minimize (bounded_f f (efo lo) (efo hi) olo ohi (tr inc)) (efo lo) (efo hi) (refpoints (efo lo) (efo hi))) (map Fin ys) = Ok rs /\
    Forall2 (fun y r => entry minimize g lo hi olo ohi y (fst r) (snd r)) ys rs.
Proof.
  intros minimize f g lo hi olo ohi inc ys O C. induction ys as [|y ys [rs [E F]]].
  - exists []. split; [reflexivity|constructor].
  - destruct (one_ef minimize f g lo hi olo ohi inc y O C) as [x [ok [E1 H1]]].
    exists ((x, ok) :: rs). split.
    + cbn [map mapM]. rewrite E1. cbn [bind]. rewrite E. reflexivity.
    + constructor; [exact H1|exact F].
Qed.

(** What the two refusals test. *)
Lemma low_ef : forall m strict ys, refuse_low (efo m) strict (map Fin ys) = true <->
  exists v, m = Some v /\ Exists (fun y => ~ (if strict : bool then v < y else v <= y)) ys.
Proof.
  intros [v|] strict ys; cbn [efo option_map refuse_low].
  - rewrite existsb_exists. split.
    + intros [x [I H]]. exists v. split; [reflexivity|]. apply in_map_iff in I. destruct I as [y [<- I]]. apply Exists_exists. exists y. split; [exact I|].
      cbn in H. destruct strict; [apply Rleb_true in H|apply Rltb_true in H]; lra.
    + intros [v' [[= <-] H]]. apply Exists_exists in H. destruct H as [y [I H]]. exists (Fin y). split; [apply in_map, I|].
      cbn. destruct strict; [apply Rleb_true|apply Rltb_true]; lra.
  - split; [discriminate|]. intros [v [H _]]. discriminate.
Qed.

Lemma high_ef : forall m strict ys, refuse_high (efo m) strict (map Fin ys) = true <->
  exists v, m = Some v /\ Exists (fun y => ~ (if strict : bool then y < v else y <= v)) ys.
Proof.
  intros [v|] strict ys; cbn [efo option_map refuse_high].
  - rewrite existsb_exists. split.
    + intros [x [I H]]. exists v. split; [reflexivity|]. apply in_map_iff in I. destruct I as [y [<- I]]. apply Exists_exists. exists y. split; [exact I|].
      cbn in H. destruct strict; [apply Rleb_true in H|apply Rltb_true in H]; lra.
    + intros [v' [[= <-] H]]. apply Exists_exists in H. destruct H as [y [I H]]. exists (Fin y). split; [apply in_map, I|].
      cbn. destruct strict; [apply Rleb_true|apply Rltb_true]; lra.
  - split; [discriminate|]. intros [v [H _]]. discriminate.
Qed.

Lemma check_order_ef : forall lo hi, ordered lo hi -> check_order (efo lo, efo hi) = Ok tt.
Proof.
  intros [a|] [b|] O; try reflexivity. cbn. specialize (O a b eq_refl eq_refl).
  replace (Rleb b a) with false; [reflexivity|]. symmetry. apply Rleb_false. exact O.
Qed.

Lemma call_ef : forall minimize f g lo hi olo ohi inc im_lo im_hi ys, suited f g lo hi olo ohi inc im_lo im_hi ->
  inversefunc minimize f (map Fin ys) (DPair (efo lo) (efo hi)) (IPair (efo im_lo) (efo im_hi)) (OPair olo ohi) =
  inv_values minimize (bounded_f f (efo lo) (efo hi) olo ohi (tr inc)) (efo lo) (efo hi) (olo, ohi)
    (efo (low_limit inc g lo hi im_lo)) (efo (high_limit inc g lo hi im_hi)) (tr inc) (refpoints (efo lo) (efo hi)) (map Fin ys).
Proof.
  intros minimize f g lo hi olo ohi inc im_lo im_hi ys [O [OI [M [C [Lo Hi]]]]].
  unfold inversefunc, normparams. cbn [norm_domain norm_open norm_image bind].
  rewrite (check_order_ef lo hi O), (check_order_ef im_lo im_hi OI). cbn [bind].
  destruct (start_in lo hi olo ohi O) as [D1 [D2 L]].
  rewrite refpoints_ef. cbn [fst snd]. rewrite (C _ D2), (C _ D1). cbn [bind]. cbn [nsub Num_ef].
  rewrite (sign_ef inc) by (apply M; [apply in_dom_weaken with olo ohi, D1|apply in_dom_weaken with olo ohi, D2|exact L]).
  rewrite tr_zero.
  assert (E1 : (match efo im_lo with Some m => Ok (Some m) | None => auto_ymin f (efo lo) (efo hi) (tr inc) end) = Ok (efo (low_limit inc g lo hi im_lo))).
  { destruct im_lo as [m|]; [reflexivity|]. cbn [efo option_map low_limit]. fold (efo lo) (efo hi). unfold auto_ymin. rewrite tr_up, tr_down.
    specialize (Lo eq_refl). destruct inc.
    - destruct lo as [a|]; cbn; [rewrite (Lo a eq_refl); reflexivity|]. destruct (given (efo hi)); reflexivity.
    - destruct hi as [b|]; cbn; [|destruct lo; reflexivity]. rewrite (Lo b eq_refl). destruct lo; reflexivity. }
  assert (E2 : (match efo im_hi with Some m => Ok (Some m) | None => auto_ymax f (efo lo) (efo hi) (tr inc) end) = Ok (efo (high_limit inc g lo hi im_hi))).
  { destruct im_hi as [m|]; [reflexivity|]. cbn [efo option_map high_limit]. fold (efo lo) (efo hi). unfold auto_ymax. rewrite tr_up, tr_down.
    specialize (Hi eq_refl). destruct inc.
    - destruct hi as [a|]; cbn; [rewrite (Hi a eq_refl); reflexivity|]. destruct (given (efo lo)); reflexivity.
    - destruct lo as [b|]; cbn; [|destruct hi; reflexivity]. rewrite (Hi b eq_refl). destruct hi; reflexivity. }
  rewrite E1. cbn [bind]. rewrite E2. cbn [bind]. reflexivity.
Qed.

Lemma trouble_nil : forall (ys : list ef) (rs : list (ef * bool)), Forall (fun r => snd r = true) rs ->
  map fst (filter (fun yr => negb (snd (snd yr))) (combine ys rs)) = [].
Proof.
  intros ys rs H. revert ys. induction H as [|r rs Hr H IH]; intros [|y ys]; try reflexivity.
  cbn [combine filter snd]. rewrite Hr. cbn [negb]. apply IH.
Qed.

Lemma refused_iff : forall inc g lo hi (olo ohi : bool) im_lo im_hi ys,
  ((refuse_low (efo (low_limit inc g lo hi im_lo)) (olo && inc || ohi && negb inc) (map Fin ys)) ||
   (refuse_high (efo (high_limit inc g lo hi im_hi)) (ohi && inc || olo && negb inc) (map Fin ys)))%bool = true <->
  Exists (fun y => ~ between inc g lo hi olo ohi im_lo im_hi y) ys.
Proof.
  intros inc g lo hi olo ohi im_lo im_hi ys. rewrite orb_true_iff, low_ef, high_ef.
  replace (olo && inc || ohi && negb inc)%bool with (if inc then olo else ohi) by (destruct inc, olo, ohi; reflexivity).
  replace (ohi && inc || olo && negb inc)%bool with (if inc then ohi else olo) by (destruct inc, olo, ohi; reflexivity).
  unfold between. split.
  - intros [[v [E H]]|[v [E H]]]; apply Exists_exists in H; destruct H as [y [I H]]; apply Exists_exists; exists y; (split; [exact I|]); intros [A B].
    + apply H, A, E.
    + apply H, B, E.
  - intro H. apply Exists_exists in H. destruct H as [y [I H]].
    destruct (low_limit inc g lo hi im_lo) as [v|]; [destruct (if inc then olo else ohi) eqn:S|].
    + destruct (Rlt_dec v y) as [L|L]; [right|left; exists v; split; [reflexivity|]; apply Exists_exists; exists y; auto].
      destruct (high_limit inc g lo hi im_hi) as [w|]; [|exfalso; apply H; split; [intros ? [= <-]; exact L|discriminate]].
      exists w. split; [reflexivity|]. apply Exists_exists. exists y. split; [exact I|]. intro Z. apply H. split; intros ? [= <-]; assumption.
    + destruct (Rle_dec v y) as [L|L]; [right|left; exists v; split; [reflexivity|]; apply Exists_exists; exists y; auto].
      destruct (high_limit inc g lo hi im_hi) as [w|]; [|exfalso; apply H; split; [intros ? [= <-]; exact L|discriminate]].
      exists w. split; [reflexivity|]. apply Exists_exists. exists y. split; [exact I|]. intro Z. apply H. split; intros ? [= <-]; assumption.
    + right. destruct (high_limit inc g lo hi im_hi) as [w|]; [|exfalso; apply H; split; discriminate].
      exists w. split; [reflexivity|]. apply Exists_exists. exists y. split; [exact I|]. intro Z. apply H. split; [discriminate|intros ? [= <-]; assumption].
Qed.

(** C83: values outside the limits are refused, all others are answered. *)
Theorem c83_call : forall minimize f g lo hi olo ohi inc im_lo im_hi ys, suited f g lo hi olo ohi inc im_lo im_hi ->
  (Exists (fun y => ~ between inc g lo hi olo ohi im_lo im_hi y) ys ->
   inversefunc minimize f (map Fin ys) (DPair (efo lo) (efo hi)) (IPair (efo im_lo) (efo im_hi)) (OPair olo ohi) = Err ValueError) /\
  (Forall (between inc g lo hi olo ohi im_lo im_hi) ys ->
   exists rs, inversefunc minimize f (map Fin ys) (DPair (efo lo) (efo hi)) (IPair (efo im_lo) (efo im_hi)) (OPair olo ohi) =
     Ok (InvOut (map fst rs) (map fst (filter (fun yr => negb (snd (snd yr))) (combine (map Fin ys) rs)))) /\
     Forall2 (fun y r => entry minimize g lo hi olo ohi y (fst r) (snd r)) ys rs).
Proof.
  intros minimize f g lo hi olo ohi inc im_lo im_hi ys S. rewrite (call_ef minimize f g lo hi olo ohi inc im_lo im_hi ys S).
  unfold inv_values. rewrite tr_up, tr_down.
  generalize (refused_iff inc g lo hi olo ohi im_lo im_hi ys).
  destruct (refuse_low _ _ _).
  - cbn [orb]. intros [A _]. split; [reflexivity|]. intro F. specialize (A eq_refl). exfalso. apply Exists_exists in A. destruct A as [y [I H]].
    rewrite Forall_forall in F. apply H, F, I.
  - cbn [orb]. destruct (refuse_high _ _ _).
    + intros [A _]. split; [reflexivity|]. intro F. specialize (A eq_refl). exfalso. apply Exists_exists in A. destruct A as [y [I H]].
      rewrite Forall_forall in F. apply H, F, I.
    + intros [_ B]. split; [intro H; specialize (B H); discriminate|]. intros _.
      destruct S as [O [_ [_ [C _]]]].
      destruct (all_ef minimize f g lo hi olo ohi inc ys O C) as [rs [E F]].
      exists rs. rewrite E. split; [reflexivity|exact F].
Qed.

Lemma mono_inj : forall inc g lo hi x y, monotone inc g lo hi -> in_dom lo hi false false x -> in_dom lo hi false false y -> g x = g y -> x = y.
Proof.
  intros inc g lo hi x y M Dx Dy E. destruct (Rtotal_order x y) as [L|[L|L]]; [|exact L|].
  - specialize (M x y Dx Dy L). destruct inc; lra.
  - specialize (M y x Dy Dx L). destruct inc; lra.
Qed.

(** C83: asked for a value of the function, the call returns the point where it
    is taken. *)
Theorem c83_inverse : forall minimize f g lo hi olo ohi inc im_lo im_hi ts, suited f g lo hi olo ohi inc im_lo im_hi ->
  (forall t, In t ts -> in_dom lo hi olo ohi t) ->
  (forall t, In t ts -> between inc g lo hi olo ohi im_lo im_hi (g t)) ->
  (forall t obj, In t ts -> distance_program g lo hi olo ohi (g t) obj ->
     exists x, minimize obj (Fin (fst (start_points lo hi)), Fin (snd (start_points lo hi))) = Some (Fin x, true) /\ minimum_of obj x) ->
  inversefunc minimize f (map (fun t => Fin (g t)) ts) (DPair (efo lo) (efo hi)) (IPair (efo im_lo) (efo im_hi)) (OPair olo ohi) = Ok (InvOut (map Fin ts) []).
Proof.
  intros minimize f g lo hi olo ohi inc im_lo im_hi ts S D B Mi.
  assert (Hys : map (fun t => Fin (g t)) ts = map Fin (map g ts)) by (rewrite map_map; reflexivity). rewrite Hys. clear Hys.
  destruct (c83_call minimize f g lo hi olo ohi inc im_lo im_hi (map g ts) S) as [_ H].
  destruct H as [rs [E F]].
  { apply Forall_forall. intros y I. apply in_map_iff in I. destruct I as [t [<- I]]. apply B, I. }
  rewrite E. clear E.
  destruct S as [O [_ [M _]]].
  assert (G : rs = map (fun t => (Fin t, true)) ts).
  { clear B. revert rs F. induction ts as [|t ts IH]; intros rs F; inversion F as [|y r ys rs' Hr F' Ey Er]; subst; [reflexivity|].
    cbn [map]. f_equal.
    - destruct r as [x ok]. cbn [fst snd] in Hr.
      assert (Dt : in_dom lo hi olo ohi t) by (apply D; left; reflexivity).
      assert (Dt' := in_dom_weaken _ _ _ _ _ Dt).
      destruct Hr as [[b [Eb [_ [Ey [-> ->]]]]]|[[a [Ea [_ [Ey [-> ->]]]]]|[_ [_ [obj [Ho Hm]]]]]].
      + f_equal. f_equal. symmetry. apply (mono_inj inc g lo hi); auto. split; intros e He; [specialize (O e b He Eb); lra|]. rewrite Eb in He. injection He as <-. lra.
      + f_equal. f_equal. symmetry. apply (mono_inj inc g lo hi); auto. split; intros e He; [|specialize (O a e Ea He); lra]. rewrite Ea in He. injection He as <-. lra.
      + destruct (Mi t obj (or_introl eq_refl) Ho) as [x' [Em Hmin]]. rewrite Em in Hm. injection Hm as -> ->. f_equal. f_equal.
        destruct (Hmin t) as [v [v' [Hv [Hv' L]]]]. destruct Ho as [Hin Hout].
        rewrite (Hin t Dt) in Hv'. injection Hv' as <-. replace ((g t - g t) * (g t - g t)) with 0 in L by ring.
        destruct (in_dom_dec lo hi olo ohi x') as [Dx|Dx].
        * rewrite (Hin x' Dx) in Hv. injection Hv as <-. cbn in L. apply Rleb_true in L.
          apply (mono_inj inc g lo hi); auto; [apply in_dom_weaken with olo ohi, Dx|].
          assert (g x' - g t = 0); [|lra]. apply Rsqr_eq_0. unfold Rsqr. generalize (Rle_0_sqr (g x' - g t)). unfold Rsqr. lra.
        * rewrite (Hout x' Dx) in Hv. injection Hv as <-. discriminate.
    - apply IH; [intros s I; apply D; right; exact I|intros s obj I; apply Mi; right; exact I|exact F']. }
  subst rs. f_equal. f_equal.
  - rewrite map_map. reflexivity.
  - apply trouble_nil. apply Forall_forall. intros r I. apply in_map_iff in I. destruct I as [t [<- _]]. reflexivity.
Qed.

(** Values of the function lie between the limits it computes itself. *)
Lemma values_between : forall inc g lo hi olo ohi t, ordered lo hi -> monotone inc g lo hi -> in_dom lo hi olo ohi t ->
  between inc g lo hi olo ohi None None (g t).
Proof.
  intros inc g lo hi olo ohi t O M D. assert (Dt := in_dom_weaken _ _ _ _ _ D).
  assert (Dlo : forall a, lo = Some a -> in_dom lo hi false false a).
  { intros a E. split; intros e He; [rewrite E in He; injection He as <-; lra|specialize (O a e E He); lra]. }
  assert (Dhi : forall b, hi = Some b -> in_dom lo hi false false b).
  { intros b E. split; intros e He; [specialize (O e b He E); lra|rewrite E in He; injection He as <-; lra]. }
  destruct D as [D1 D2].
  split; unfold low_limit, high_limit; intros m Hm; destruct inc.
  - destruct lo as [a|]; [|discriminate]. injection Hm as <-. specialize (D1 a eq_refl). specialize (M a t (Dlo a eq_refl) Dt).
    destruct olo; [apply M, D1|]. destruct D1 as [D1|<-]; [specialize (M D1)|]; lra.
  - destruct hi as [b|]; [|discriminate]. injection Hm as <-. specialize (D2 b eq_refl). specialize (M t b Dt (Dhi b eq_refl)).
    destruct ohi; [apply M, D2|]. destruct D2 as [D2| ->]; [specialize (M D2)|]; lra.
  - destruct hi as [b|]; [|discriminate]. injection Hm as <-. specialize (D2 b eq_refl). specialize (M t b Dt (Dhi b eq_refl)).
    destruct ohi; [apply M, D2|]. destruct D2 as [D2| ->]; [specialize (M D2)|]; lra.
  - destruct lo as [a|]; [|discriminate]. injection Hm as <-. specialize (D1 a eq_refl). specialize (M a t (Dlo a eq_refl) Dt).
    destruct olo; [apply M, D1|]. destruct D1 as [D1|<-]; [specialize (M D1)|]; lra.
Qed.

(** For a continuous function on a closed bounded interval exactly its values
    are accepted. *)
Lemma between_values : forall inc g a b y, a < b -> monotone inc g (Some a) (Some b) ->
  (forall x, a <= x <= b -> continuity_pt g x) ->
  (between inc g (Some a) (Some b) false false None None y <-> exists t, a <= t <= b /\ g t = y).
Proof.
  intros inc g a b y L M Cg. split.
  - intros [B1 B2]. destruct inc.
    + specialize (B1 (g a) eq_refl). specialize (B2 (g b) eq_refl). cbn in B1, B2.
      destruct (Req_dec y (g a)) as [->|Na]; [exists a; split; [lra|reflexivity]|].
      destruct (Req_dec y (g b)) as [->|Nb]; [exists b; split; [lra|reflexivity]|].
      destruct (IVT_interv (fun x => g x - y) a b) as [t [Ht Et]]; [|exact L|lra|lra|exists t; split; [exact Ht|lra]].
      intros x Hx. apply continuity_pt_minus; [apply Cg, Hx|apply continuity_pt_const; intros ? ?; reflexivity].
    + specialize (B1 (g b) eq_refl). specialize (B2 (g a) eq_refl). cbn in B1, B2.
      destruct (Req_dec y (g a)) as [->|Na]; [exists a; split; [lra|reflexivity]|].
      destruct (Req_dec y (g b)) as [->|Nb]; [exists b; split; [lra|reflexivity]|].
      destruct (IVT_interv (fun x => y - g x) a b) as [t [Ht Et]]; [|exact L|lra|lra|exists t; split; [exact Ht|lra]].
      intros x Hx. apply continuity_pt_minus; [apply continuity_pt_const; intros ? ?; reflexivity|apply Cg, Hx].
  - intros [t [Ht <-]]. apply values_between; [|exact M|].
    + intros ? ? [= <-] [= <-]. exact L.
    + split; intros ? [= <-]; lra.
Qed.

(** Equal values at the two start points end the call. *)
Lemma flat_ef : forall minimize f lo hi v ys o, ordered lo hi ->
  f (Fin (fst (start_points lo hi))) = Ok (Fin v) -> f (Fin (snd (start_points lo hi))) = Ok (Fin v) ->
  inversefunc minimize f ys (DPair (efo lo) (efo hi)) INone o = Err ValueError.
Proof.
  intros minimize f lo hi v ys o O E1 E2. unfold inversefunc, normparams. cbn [norm_domain bind].
  destruct (norm_open o) as [op|e] eqn:Ho; [|destruct o; try discriminate; injection Ho as <-; reflexivity]. cbn [norm_image bind].
  rewrite (check_order_ef lo hi O). cbn [bind check_order]. rewrite refpoints_ef. cbn [fst snd]. rewrite E1, E2. cbn [bind].
  cbn [nsub Num_ef]. rewrite ef_sub_Fin. replace (v - v) with 0 by ring.
  replace (np_sign (Fin 0)) with (Fin 0).
  - unfold nzero. cbn [neqb nofZ Num_ef]. rewrite eqb_Fin, Reqbb_refl. reflexivity.
  - unfold np_sign, nzero, none_. cbn [nisnan nltb nofZ Num_ef ef_isnan ef_ltb]. replace (Rltb 0 0) with false; [reflexivity|]. symmetry. apply Rltb_false. lra.
Qed.

(** Forms of the arguments. *)
Lemma args_ef : forall (minimize : (ef -> res ef) -> ef * ef -> option (ef * bool)) f ys d i o,
  inversefunc minimize f ys DNone i o = inversefunc minimize f ys (DPair None None) i o /\
  (forall a, inversefunc minimize f ys (DScalar a) i o = inversefunc minimize f ys (DPair (Some a) None) i o) /\
  inversefunc minimize f ys d INone o = inversefunc minimize f ys d (IPair None None) o /\
  inversefunc minimize f ys d i ONone = inversefunc minimize f ys d i (OPair false false) /\
  (forall b, inversefunc minimize f ys d i (OScalar b) = inversefunc minimize f ys d i (OPair b b)) /\
  inversefunc minimize f ys DShape i o = Err ValueError /\
  inversefunc minimize f ys d IShape o = Err ValueError /\
  inversefunc minimize f ys d i OShape = Err ValueError.
Proof.
  intros minimize f ys d i o. repeat split; unfold inversefunc, normparams; try reflexivity.
  - destruct d, o; reflexivity.
  - destruct d; reflexivity.
Qed.

Lemma misordered_ef : forall (minimize : (ef -> res ef) -> ef * ef -> option (ef * bool)) f ys a b i o, b <= a ->
  inversefunc minimize f ys (DPair (Some (Fin a)) (Some (Fin b))) i o = Err ValueError.
Proof.
  intros minimize f ys a b i o L. unfold inversefunc, normparams. cbn [norm_domain bind].
  destruct o, i; cbn [norm_open norm_image bind]; try reflexivity; cbn [check_order]; unfold ngeb; cbn [nleb Num_ef ef_leb];
    (replace (Rleb b a) with true by (symmetry; apply Rleb_true; exact L)); reflexivity.
Qed.

Lemma misordered_image_ef : forall (minimize : (ef -> res ef) -> ef * ef -> option (ef * bool)) f ys d a b o, b <= a ->
  inversefunc minimize f ys d (IPair (Some (Fin a)) (Some (Fin b))) o = Err ValueError.
Proof.
  intros minimize f ys d a b o L. unfold inversefunc, normparams.
  assert (Z : check_order (Some (Fin a), Some (Fin b)) = Err ValueError).
  { cbn. replace (Rleb b a) with true by (symmetry; apply Rleb_true; exact L). reflexivity. }
  destruct d as [|x|[x|] [y|]|], o; cbn [norm_domain norm_open norm_image bind]; try reflexivity; rewrite Z;
    cbn [check_order bind]; try reflexivity; destruct (ngeb x y); reflexivity.
Qed.

(** A function that raises at an end whose value is needed. *)
Lemma end_raises : forall (minimize : (ef -> res ef) -> ef * ef -> option (ef * bool)) f g lo hi olo ohi inc ys im_lo e x,
  ordered lo hi -> monotone inc g lo hi -> computes f g lo hi olo ohi -> ordered im_lo None ->
  ((im_lo = None /\ (if inc : bool then lo else hi) = Some x) \/ (if inc : bool then hi else lo) = Some x) -> f (Fin x) = Err e ->
  inversefunc minimize f ys (DPair (efo lo) (efo hi)) (IPair (efo im_lo) None) (OPair olo ohi) = Err ValueError.
Proof.
  intros minimize f g lo hi olo ohi inc ys im_lo e x O M C OI Hx He.
  unfold inversefunc, normparams. cbn [norm_domain norm_open norm_image bind].
  rewrite (check_order_ef lo hi O). change (@None ef) with (efo None) at 1. rewrite (check_order_ef im_lo None OI). cbn [bind].
  destruct (start_in lo hi olo ohi O) as [D1 [D2 L]].
  rewrite refpoints_ef. cbn [fst snd]. rewrite (C _ D2), (C _ D1). cbn [bind]. cbn [nsub Num_ef].
  rewrite (sign_ef inc) by (apply M; [apply in_dom_weaken with olo ohi, D1|apply in_dom_weaken with olo ohi, D2|exact L]).
  rewrite tr_zero.
  assert (A : forall z : option R, exists r, try_value f (efo z) = r /\ (r = Err ValueError \/ exists v, r = Ok v)).
  { intro z. eexists. split; [reflexivity|]. destruct z; cbn; [|auto]. destruct (f (Fin r)); [right; eexists; reflexivity|left; reflexivity]. }
  assert (U : (match efo im_lo with Some m => Ok (Some m) | None => auto_ymin f (efo lo) (efo hi) (tr inc) end) = Err ValueError \/
              exists v, (match efo im_lo with Some m => Ok (Some m) | None => auto_ymin f (efo lo) (efo hi) (tr inc) end) = Ok v).
  { destruct im_lo; [right; eexists; reflexivity|]. cbn [efo option_map]. fold (efo lo) (efo hi). unfold auto_ymin. rewrite tr_up, tr_down.
    destruct (_ || _)%bool; [|right; eexists; reflexivity]. destruct inc; destruct (A lo) as [r1 [<- H1]], (A hi) as [r2 [<- H2]]; assumption. }
  destruct Hx as [[-> Hx]|Hx].
  - assert (Z : auto_ymin f (efo lo) (efo hi) (tr inc) = Err ValueError).
    { unfold auto_ymin. rewrite tr_up, tr_down. destruct inc; rewrite Hx; cbn; [rewrite He; reflexivity|]. destruct (given (efo lo)); cbn; rewrite He; reflexivity. }
    cbn [efo option_map]. fold (efo lo) (efo hi). rewrite Z. reflexivity.
  - assert (Z : auto_ymax f (efo lo) (efo hi) (tr inc) = Err ValueError).
    { unfold auto_ymax. rewrite tr_up, tr_down. destruct inc; rewrite Hx; cbn; [rewrite He; reflexivity|]. destruct (given (efo hi)); cbn; rewrite He; reflexivity. }
    destruct U as [U|[v U]]; rewrite U; cbn [bind]; [reflexivity|]. rewrite Z. reflexivity.
Qed.

(** The square on [-1, 2]. *)
Lemma not_monotone : exists f lo hi, f (Fin (1/2)) = Ok (Fin (1/4)) /\ f (Fin (-1/2)) = Ok (Fin (1/4)) /\ lo < 1/2 < hi /\ lo < -1/2 < hi /\
  forall minimize,
    inversefunc minimize f [Fin (2 * 2)] (DPair (Some (Fin lo)) (Some (Fin hi))) INone ONone = Ok (InvOut [Fin hi] []) /\
    inversefunc minimize f [Fin (1/4)] (DPair (Some (Fin lo)) (Some (Fin hi))) INone ONone = Err ValueError.
Proof.
  exists (fun x => Ok (nmul x x)), (-1), 2.
  split; [cbn; do 2 f_equal; lra|]. split; [cbn; do 2 f_equal; lra|]. split; [lra|]. split; [lra|]. intro minimize.
  assert (H : forall ys, inversefunc minimize (fun x => Ok (nmul x x)) ys (DPair (Some (Fin (-1))) (Some (Fin 2))) INone ONone =
    inv_values minimize (bounded_f (fun x => Ok (nmul x x)) (Some (Fin (-1))) (Some (Fin 2)) false false (Fin 1)) (Some (Fin (-1))) (Some (Fin 2)) (false, false) (Some (Fin (-1 * -1))) (Some (Fin (2 * 2))) (Fin 1) (refpoints (Some (Fin (-1))) (Some (Fin 2))) ys).
  { intro ys. unfold inversefunc, normparams. cbn [norm_domain norm_open norm_image bind].
    change (Some (Fin (-1)), Some (Fin 2)) with (efo (Some (-1)), efo (Some 2)).
    rewrite (check_order_ef (Some (-1)) (Some 2) ltac:(intros ? ? [= <-] [= <-]; lra)). cbn [bind check_order].
    change (refpoints (Some (Fin (-1))) (Some (Fin 2))) with (refpoints (efo (Some (-1))) (efo (Some 2))).
    rewrite refpoints_ef. cbn [fst snd start_points]. cbn [nmul nsub Num_ef ef_mul].
    rewrite (sign_ef true) by lra. rewrite tr_zero. unfold auto_ymin, auto_ymax. rewrite tr_up. cbn [given andb orb try_value bind fst snd].
    reflexivity. }
  assert (Hb : bounded_f (fun x => Ok (nmul x x)) (Some (Fin (-1))) (Some (Fin 2)) false false (Fin 1) (Fin 2) = Ok (Fin (2 * 2))).
  { apply (bounded_in (fun x => Ok (nmul x x)) (fun x => x * x) (Some (-1)) (Some 2) false false true); [intros x _; reflexivity|].
    split; intros ? [= <-]; lra. }
  split; rewrite H; unfold inv_values; cbn [andb]; cbn [andb orb refuse_low refuse_high existsb].
  - unfold ngtb. cbn [nltb Num_ef ef_ltb]. replace (Rltb (2 * 2) (-1 * -1)) with false by (symmetry; apply Rltb_false; lra).
    replace (Rltb (2 * 2) (2 * 2)) with false by (symmetry; apply Rltb_false; lra). cbn [orb mapM]. unfold inv_one. rewrite Hb. cbn [bind neqb Num_ef].
    rewrite eqb_Fin, Reqbb_refl. reflexivity.
  - cbn [nltb Num_ef ef_ltb]. replace (Rltb (1/4) (-1 * -1)) with true by (symmetry; apply Rltb_true; lra). reflexivity.
Qed.

Theorem c83_values_accepted : forall minimize f g lo hi olo ohi inc ts, suited f g lo hi olo ohi inc None None ->
  Forall (in_dom lo hi olo ohi) ts ->
  exists out, inversefunc minimize f (map (fun t => Fin (g t)) ts) (DPair (efo lo) (efo hi)) INone (OPair olo ohi) = Ok out /\ length (io_values out) = length ts.
Proof.
  intros minimize f g lo hi olo ohi inc ts S D.
  replace (map (fun t => Fin (g t)) ts) with (map Fin (map g ts)) by (rewrite map_map; reflexivity).
  destruct (proj2 (c83_call minimize f g lo hi olo ohi inc None None (map g ts) S)) as [rs [E F]].
  - apply Forall_forall. intros y I. apply in_map_iff in I. destruct I as [t [<- I]]. rewrite Forall_forall in D.
    destruct S as [O [_ [M _]]]. apply values_between; auto.
  - eexists. split; [exact E|]. cbn [io_values]. rewrite map_length. rewrite <- (map_length g ts). clear - F. induction F as [|? ? ? ? _ _ IH]; cbn; [reflexivity|rewrite IH; reflexivity].
Qed.

Theorem c83_only_values : forall minimize f g a b inc y, a < b -> monotone inc g (Some a) (Some b) -> computes f g (Some a) (Some b) false false ->
  (forall x, a <= x <= b -> continuity_pt g x) -> ~ (exists t, a <= t <= b /\ g t = y) ->
  inversefunc minimize f [Fin y] (DPair (Some (Fin a)) (Some (Fin b))) INone ONone = Err ValueError.
Proof.
  intros minimize f g a b inc y L M C Cg N.
  assert (D : forall e, e = a \/ e = b -> in_dom (Some a) (Some b) false false e) by (intros e [->| ->]; split; intros ? [= <-]; lra).
  assert (S : suited f g (Some a) (Some b) false false inc None None).
  { split; [intros ? ? [= <-] [= <-]; exact L|]. split; [intros ? ? ?; discriminate|]. split; [exact M|]. split; [exact C|].
    split; intros _ e He; apply C, D; destruct inc; injection He as <-; auto. }
  destruct (c83_call minimize f g (Some a) (Some b) false false inc None None [y] S) as [H _].
  cbn [efo option_map map] in H. destruct (args_ef minimize f [Fin y] (DPair (Some (Fin a)) (Some (Fin b))) INone (OPair false false)) as [_ [_ [A1 _]]].
  destruct (args_ef minimize f [Fin y] (DPair (Some (Fin a)) (Some (Fin b))) INone (OPair false false)) as [_ [_ [_ [A2 _]]]].
  rewrite A2, A1. apply H.
  apply Exists_cons_hd. intro B. apply N. apply (between_values inc g a b y L M Cg). exact B.
Qed.
