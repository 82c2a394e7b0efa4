(** Proofs about simulated missing and corrupted data, synthetic data and
    written datasets. *)
From Coq Require Import String.
From Coq Require Import List ZArith Bool Arith Lia Reals Lra.
From Verif Require Import PyBase Num ExtReal NumPy Dataset Mocked BaseProofs ExtRealProofs SpecDataset SpecMos SpecPc SpecMocked
  DatasetProofs ArrayProofs ConvProofs MockedProofs.
Import ListNotations.
Local Open Scope list_scope.

(** ** C19 *)
Lemma ef_mul_1 : forall x, ef_mul x (Fin 1) = x.
Proof.
  intros [x| | |]; cbn; try reflexivity; unfold ef_infmul.
  - f_equal. lra.
  - destruct (Req_EM_T 1 0); [lra|]. rewrite (proj2 (Rltb_true 0 1)) by lra. reflexivity.
  - destruct (Req_EM_T 1 0); [lra|]. rewrite (proj2 (Rltb_true 0 1)) by lra. reflexivity.
Qed.
Lemma ef_mul_NaN : forall x, ef_mul x NaN = NaN.
Proof. intros []; reflexivity. Qed.

Lemma mask_ef : forall p u, (u < 1)%R ->
  ((u <= p)%R -> missing_mask (Fin p) (Fin u) = NaN) /\ ((p < u)%R -> missing_mask (Fin p) (Fin u) = Fin 1).
Proof.
  intros p u Hu. unfold missing_mask, ngtb, none_. cbn [nltb nleb Num_ef ef_ltb nofZ nnan].
  split; intro H.
  - rewrite (proj2 (Rltb_false p u)) by exact H. cbn [ef_leb]. rewrite (proj2 (Rleb_true u p)) by exact H. reflexivity.
  - rewrite (proj2 (Rltb_true p u)) by exact H. cbn [ef_leb]. rewrite (proj2 (Rleb_false 1 p)) by lra. reflexivity.
Qed.

Lemma c19 : forall ds a p (u : nat -> nat -> nat -> ef), raw_reader_3darray ds = Ok a -> (forall e s r, unit_draw (u e s r)) ->
  exists a', missing_3darray ds (Some (Fin p)) u = Ok a' /\ dE a' = dE a /\ dS a' = dS a /\ dR a' = dR a /\
    forall e s r, inside a e s r ->
      (forall x, u e s r = Fin x -> (x <= p)%R -> at3 a' e s r = NaN) /\
      (forall x, u e s r = Fin x -> (p < x)%R -> at3 a' e s r = at3 a e s r).
Proof.
  intros ds a p u H Hu. destruct (read_inv ds a H) as (H1 & _ & _ & HP & _).
  unfold missing_3darray. rewrite H1. cbn [bind]. rewrite HP. cbn [bind]. eexists. split; [reflexivity|].
  cbn [dE dS dR map3 at3]. repeat split; intros x Hx Hp; destruct (Hu e s r) as (x' & Hx' & Hb);
    rewrite Hx in Hx'; injection Hx' as <-; rewrite Hx.
  - rewrite (proj1 (mask_ef p x (proj2 Hb)) Hp). apply ef_mul_NaN.
  - rewrite (proj2 (mask_ef p x (proj2 Hb)) Hp). apply ef_mul_1.
Qed.

Lemma c19_only_removes : forall ds a p (u : nat -> nat -> nat -> ef), raw_reader_3darray ds = Ok a -> (forall e s r, unit_draw (u e s r)) ->
  exists a', missing_3darray ds (Some (Fin p)) u = Ok a' /\ dE a' = dE a /\ dS a' = dS a /\ dR a' = dR a /\
    (forall e s r, inside a e s r -> at3 a' e s r = at3 a e s r \/ at3 a' e s r = NaN) /\
    ((p = 0)%R -> (forall e s r, u e s r <> Fin 0) -> forall e s r, inside a e s r -> at3 a' e s r = at3 a e s r) /\
    ((1 <= p)%R -> forall e s r, inside a e s r -> at3 a' e s r = NaN).
Proof.
  intros ds a p u H Hu. destruct (c19 ds a p u H Hu) as (a' & H' & D1 & D2 & D3 & Hc).
  exists a'. repeat (split; [assumption|]). repeat split.
  - intros e s r I. destruct (Hc e s r I) as [C1 C2]. destruct (Hu e s r) as (x & Hx & Hb).
    destruct (Rle_lt_dec x p); [right; eapply C1; eauto|left; eapply C2; eauto].
  - intros -> Hn e s r I. destruct (Hc e s r I) as [C1 C2]. destruct (Hu e s r) as (x & Hx & Hb).
    apply (C2 x Hx). destruct (Rle_lt_or_eq_dec _ _ (proj1 Hb)) as [Hlt|E]; [exact Hlt|]. subst x. exfalso. exact (Hn e s r Hx).
  - intros Hp e s r I. destruct (Hc e s r I) as [C1 C2]. destruct (Hu e s r) as (x & Hx & Hb). apply (C1 x Hx). lra.
Qed.

(** ** C69: corrupted data *)
Lemma c69 : forall ds a p rs (u w : nat -> nat -> nat -> ef), raw_reader_3darray ds = Ok a -> ds_ref_score ds = Some (Some (Fin rs)) ->
  (1 <= rs)%R -> (forall e s r, unit_draw (u e s r)) -> (forall e s r, unit_draw (w e s r)) ->
  exists a', corrupt_data_3darray ds (Some (Fin p)) u w = Ok a' /\ dE a' = dE a /\ dS a' = dS a /\ dR a' = dR a /\
    forall e s r, inside a e s r ->
      (forall x, u e s r = Fin x -> (p < x)%R -> at3 a' e s r = at3 a e s r) /\
      (forall x, u e s r = Fin x -> (x <= p)%R -> exists y, at3 a' e s r = Fin y /\ (1 <= y <= rs)%R).
Proof.
  intros ds a p rs u w H Hrs Hr1 Hu Hw. destruct (read_inv ds a H) as (H1 & _ & _ & HP & _).
  unfold corrupt_data_3darray. rewrite H1. cbn [bind]. rewrite HP. cbn [bind]. rewrite Hrs. eexists. split; [reflexivity|].
  cbn [dE dS dR map3 at3]. repeat split; intros x Hx Hp; destruct (Hu e s r) as (x' & Hx' & Hb);
    rewrite Hx in Hx'; injection Hx' as <-; rewrite Hx.
  - rewrite (proj2 (mask_ef p x (proj2 Hb)) Hp). reflexivity.
  - rewrite (proj1 (mask_ef p x (proj2 Hb)) Hp). cbn [nisnan Num_ef ef_isnan]. destruct (Hw e s r) as (y & Hy & Hyb). rewrite Hy.
    unfold none_. cbn [nofZ nadd nsub nmul Num_ef]. rewrite ef_sub_Fin. cbn [ef_mul ef_add]. eexists. split; [reflexivity|]. split.
    + assert (0 <= (rs - 1) * y)%R by (apply Rmult_le_pos; lra). lra.
    + assert ((rs - 1) * y <= (rs - 1) * 1)%R by (apply Rmult_le_compat_l; lra). lra.
Qed.

(** ** C20 *)
Section Loop.
  Context {T : Type} {N : Num T}.
  Definition loop_fun := nat -> (nat -> nat -> T) -> nat -> nat -> T.
  Definition local (f : loop_fun) : Prop :=
    forall k c c' e r, (forall e r, c e r = c' e r) -> f k c e r = f k c' e r.

  Lemma loop_pairs : forall (f : loop_fun) l (a : arr3 T), local f -> NoDup (map snd l) ->
    let a' := fold_left (fun a p => set_column a (snd p) (f (fst p) (fun e r => at3 a e (snd p) r))) l a in
    dE a' = dE a /\ dS a' = dS a /\ dR a' = dR a /\
    (forall e s r, ~ In s (map snd l) -> at3 a' e s r = at3 a e s r) /\
    (forall k s e r, In (k, s) l -> at3 a' e s r = f k (fun e r => at3 a e s r) e r).
  Proof.
    intros f l. induction l as [|[k0 s0] l IH]; intros a Hf Hnd; cbn [fold_left map snd fst].
    - repeat split. intros ? ? ? ? [].
    - cbn [map snd] in Hnd. apply NoDup_cons_iff in Hnd as [Hni Hnd].
      specialize (IH (set_column a s0 (f k0 (fun e r => at3 a e s0 r))) Hf Hnd). cbn zeta in IH.
      destruct IH as (D1 & D2 & D3 & C1 & C2). rewrite D1, D2, D3. cbn [dE dS dR set_column].
      repeat split.
      + intros e s r Hn. rewrite C1 by (intro Hin; apply Hn; right; exact Hin). cbn [at3 set_column].
        destruct (Nat.eqb_spec s s0) as [->|]; [exfalso; apply Hn; left; reflexivity|reflexivity].
      + intros k s e r [E|Hin].
        * injection E as -> ->. rewrite C1 by exact Hni. cbn [at3 set_column]. rewrite Nat.eqb_refl. reflexivity.
        * rewrite (C2 k s e r Hin). apply Hf. intros e' r'. cbn [at3 set_column].
          destruct (Nat.eqb_spec s s0) as [->|]; [|reflexivity].
          exfalso. apply Hni. apply in_map_iff. exists (k, s0). auto.
  Qed.

  Lemma loop_spec : forall (f : loop_fun) sel (a : arr3 T), local f -> NoDup sel ->
    dE (corrupt_loop f sel a) = dE a /\ dS (corrupt_loop f sel a) = dS a /\ dR (corrupt_loop f sel a) = dR a /\
    (forall e s r, ~ In s sel -> at3 (corrupt_loop f sel a) e s r = at3 a e s r) /\
    (forall k s e r, nth_error sel k = Some s -> at3 (corrupt_loop f sel a) e s r = f k (fun e r => at3 a e s r) e r).
  Proof.
    intros f sel a Hf Hnd. unfold corrupt_loop.
    destruct (loop_pairs f (enumerate sel) a Hf) as (D1 & D2 & D3 & C1 & C2); [rewrite enumerate_snd; exact Hnd|].
    repeat split; auto.
    - intros e s r Hn. apply C1. rewrite enumerate_snd. exact Hn.
    - intros k s e r Hk. apply C2. apply nth_error_In with k. rewrite enumerate_nth, Hk. reflexivity.
  Qed.

  Lemma local_rows_set : forall vs (new : nat -> (nat -> nat -> T) -> nat -> nat -> T), local new ->
    local (fun k c => rows_set (vs k) c (new k c)).
  Proof.
    intros vs new H k c c' e r Hc. unfold rows_set. destruct (existsb _ _); [apply H; exact Hc|apply Hc].
  Qed.
End Loop.

Lemma existsb_In : forall e l, existsb (Nat.eqb e) l = true <-> In e l.
Proof.
  intros e l. rewrite existsb_exists. split.
  - intros (x & Hx & E). apply Nat.eqb_eq in E. subst. exact Hx.
  - intro H. exists e. split; [exact H|apply Nat.eqb_refl].
Qed.

Lemma corrupt_videos_hit : forall E prob g k e, proper_rng g -> real_prob prob ->
  (In e (corrupt_videos E prob g k) <-> e < E /\ hit prob g k e).
Proof.
  intros E prob g k e (Hu & _) Hp. unfold corrupt_videos, hit. destruct prob as [p|].
  - destruct p as [p| | |]; try contradiction. rewrite filter_In, in_seq. cbn [nltb Num_ef].
    destruct (Hu k e) as (u & Eu & _). rewrite Eu. cbn [ef_ltb]. rewrite Rltb_true. split.
    + intros [H1 H2]. split; [lia|exists u; auto].
    + intros [H1 (u' & E' & H2)]. injection E' as <-. split; [lia|exact H2].
  - rewrite in_seq. split; [intros; split; [lia|exact I]|intros [H _]; lia].
Qed.

Lemma rows_hit : forall E prob g k (c new : nat -> nat -> ef) e r, proper_rng g -> real_prob prob -> e < E ->
  (~ hit prob g k e -> rows_set (corrupt_videos E prob g k) c new e r = c e r) /\
  (hit prob g k e -> rows_set (corrupt_videos E prob g k) c new e r = new e r).
Proof.
  intros E prob g k c new e r Hg Hp He. unfold rows_set. assert (H := corrupt_videos_hit E prob g k e Hg Hp).
  rewrite <- existsb_In in H. destruct (existsb _ _).
  - split; [intro Hn; exfalso; apply Hn; apply H; reflexivity|reflexivity].
  - split; [reflexivity|]. intro Hh. assert (false = true) by (apply H; auto). discriminate.
Qed.

Lemma flat3_In : forall T (a : arr3 T) x, In x (flat3 a) <-> exists e s r, inside a e s r /\ at3 a e s r = x.
Proof.
  intros T a x. unfold flat3. rewrite in_flat_map. split.
  - intros (e & He & H). apply in_flat_map in H as (s & Hs & H). apply in_map_iff in H as (r & <- & Hr).
    apply in_seq in He, Hs, Hr. exists e, s, r. unfold inside. repeat split; lia.
  - intros (e & s & r & (He & Hs & Hr) & <-). exists e. split; [apply in_seq; lia|]. apply in_flat_map. exists s. split; [apply in_seq; lia|].
    apply in_map_iff. exists r. split; [reflexivity|apply in_seq; lia].
Qed.

Lemma fold_min : forall l x m, fold_left (fun x y : ef => if nltb y x then y else x) (map Fin l) (Fin x) = Fin m ->
  (m <= x)%R /\ (forall y, In y l -> (m <= y)%R) /\ (m = x \/ In m l).
Proof.
  induction l as [|y l IH]; intros x m H; cbn [map fold_left] in H.
  - injection H as ->. repeat split; [lra|intros ? []|left; reflexivity].
  - change (nltb (Fin y) (Fin x)) with (Rltb y x) in H. destruct (Rltb y x) eqn:E.
    + apply Rltb_true in E. apply IH in H as (H1 & H2 & H3). repeat split; [lra| |].
      * intros z [<-|Hz]; auto.
      * right. destruct H3 as [->|H3]; [left; reflexivity|right; exact H3].
    + apply Rltb_false in E. apply IH in H as (H1 & H2 & H3). repeat split; [lra| |].
      * intros z [<-|Hz]; [lra|auto].
      * destruct H3 as [->|H3]; [left; reflexivity|right; right; exact H3].
Qed.
Lemma fold_max : forall l x m, fold_left (fun x y : ef => if nltb x y then y else x) (map Fin l) (Fin x) = Fin m ->
  (x <= m)%R /\ (forall y, In y l -> (y <= m)%R) /\ (m = x \/ In m l).
Proof.
  induction l as [|y l IH]; intros x m H; cbn [map fold_left] in H.
  - injection H as ->. repeat split; [lra|intros ? []|left; reflexivity].
  - change (nltb (Fin x) (Fin y)) with (Rltb x y) in H. destruct (Rltb x y) eqn:E.
    + apply Rltb_true in E. apply IH in H as (H1 & H2 & H3). repeat split; [lra| |].
      * intros z [<-|Hz]; auto.
      * right. destruct H3 as [->|H3]; [left; reflexivity|right; exact H3].
    + apply Rltb_false in E. apply IH in H as (H1 & H2 & H3). repeat split; [lra| |].
      * intros z [<-|Hz]; [lra|auto].
      * destruct H3 as [->|H3]; [left; reflexivity|right; right; exact H3].
Qed.
Lemma fold_fin : forall (c : ef -> ef -> bool) l x, exists m,
  fold_left (fun x y : ef => if c x y then y else x) (map Fin l) (Fin x) = Fin m.
Proof.
  intros c l. induction l as [|y l IH]; intro x; cbn [map fold_left]; [eauto|]. destruct (c (Fin x) (Fin y)); apply IH.
Qed.

Lemma nanmin_spec : forall a lo, finite_votes a -> smallest_vote a lo -> np_nanmin (flat3 a) = Ok (Fin lo).
Proof.
  intros a lo Hf ((e & s & r & I & E) & Hlo).
  assert (Hfin : allfinnan (flat3 a)).
  { unfold allfinnan. rewrite Forall_forall. intros x Hx. apply flat3_In in Hx as (e' & s' & r' & I' & <-). apply Hf; exact I'. }
  assert (Hin : In (Fin lo) (flat3 a)) by (apply flat3_In; exists e, s, r; auto).
  unfold np_nanmin, np_nanext. destruct (flat3 a) as [|x0 l0] eqn:El; [contradiction|]. rewrite <- El in *.
  rewrite (notnan_finnan _ Hfin). assert (Hp : In lo (presents (flat3 a))) by (apply presents_In; exact Hin).
  assert (Hle : forall y, In y (presents (flat3 a)) -> (lo <= y)%R).
  { intros y Hy. apply presents_In in Hy. apply flat3_In in Hy as (e' & s' & r' & I' & E'). eapply Hlo; eauto. }
  destruct (presents (flat3 a)) as [|x l]; [contradiction|]. cbn [map].
  destruct (fold_fin (fun x y => nltb y x) l x) as (m & Hm). rewrite Hm. apply fold_min in Hm as (H1 & H2 & H3).
  f_equal. f_equal. apply Rle_antisym.
  - destruct Hp as [<-|Hp]; auto.
  - apply Hle. destruct H3 as [->|H3]; [left; reflexivity|right; exact H3].
Qed.
Lemma nanmax_spec : forall a hi, finite_votes a -> largest_vote a hi -> np_nanmax (flat3 a) = Ok (Fin hi).
Proof.
  intros a hi Hf ((e & s & r & I & E) & Hhi).
  assert (Hfin : allfinnan (flat3 a)).
  { unfold allfinnan. rewrite Forall_forall. intros x Hx. apply flat3_In in Hx as (e' & s' & r' & I' & <-). apply Hf; exact I'. }
  assert (Hin : In (Fin hi) (flat3 a)) by (apply flat3_In; exists e, s, r; auto).
  unfold np_nanmax, np_nanext. destruct (flat3 a) as [|x0 l0] eqn:El; [contradiction|]. rewrite <- El in *.
  rewrite (notnan_finnan _ Hfin). assert (Hp : In hi (presents (flat3 a))) by (apply presents_In; exact Hin).
  assert (Hle : forall y, In y (presents (flat3 a)) -> (y <= hi)%R).
  { intros y Hy. apply presents_In in Hy. apply flat3_In in Hy as (e' & s' & r' & I' & E'). eapply Hhi; eauto. }
  destruct (presents (flat3 a)) as [|x l]; [contradiction|]. cbn [map].
  destruct (fold_fin nltb l x) as (m & Hm). rewrite Hm. apply fold_max in Hm as (H1 & H2 & H3).
  f_equal. f_equal. apply Rle_antisym.
  - apply Hle. destruct H3 as [->|H3]; [left; reflexivity|right; exact H3].
  - destruct Hp as [<-|Hp]; auto.
Qed.

Lemma undup_len_NoDup : forall l : list Z, length (undup Z.eqb l) = length l -> NoDup l.
Proof.
  assert (Hle : forall l : list Z, length (undup Z.eqb l) <= length l).
  { induction l as [|x l IH]; cbn [undup]; [reflexivity|]. destruct (existsb _ _); cbn [length]; lia. }
  induction l as [|x l IH]; intro H; [constructor|]. cbn [undup] in H.
  destruct (existsb (Z.eqb x) l) eqn:E; cbn [length] in H.
  - specialize (Hle l). lia.
  - constructor; [|apply IH; lia]. intro Hin. assert (existsb (Z.eqb x) l = true); [|congruence].
    apply existsb_exists. exists x. split; [exact Hin|apply Z.eqb_refl].
Qed.
Lemma NoDup_undup_len : forall l : list Z, NoDup l -> length (undup Z.eqb l) = length l.
Proof.
  intros l H. induction H as [|x l Hn Hd IH]; [reflexivity|]. cbn [undup]. destruct (existsb (Z.eqb x) l) eqn:E.
  - apply existsb_exists in E as (y & Hy & E). apply Z.eqb_eq in E. subst. contradiction.
  - cbn [length]. rewrite IH. reflexivity.
Qed.

Lemma NoDup_to_nat : forall n sel, NoDup sel -> valid_subjects n sel -> NoDup (map Z.to_nat sel).
Proof.
  intros n sel H HV. induction H as [|x l Hn Hd IH]; [constructor|]. cbn [map]. constructor.
  - intro Hin. apply in_map_iff in Hin as (y & E & Hy). apply Hn.
    assert (0 <= x < Z.of_nat n)%Z by (apply HV; left; reflexivity).
    assert (0 <= y < Z.of_nat n)%Z by (apply HV; right; exact Hy).
    assert (x = y) by lia. subst. exact Hy.
  - apply IH. intros y Hy. apply HV. right. exact Hy.
Qed.

(** The constructor's checks and the underlying array. *)
Lemma corrupt_unfold : forall ds a sel b prob (g : corrupt_rng ef), raw_reader_3darray ds = Ok a -> NoDup sel -> valid_subjects (dS a) sel ->
  b <> Some OtherBehavior ->
  corrupt_subject_3darray ds (Some sel) b prob g =
    corrupt_array (match b with Some b => b | None => Shuffle end) prob (map Z.to_nat sel) g a.
Proof.
  intros ds a sel b prob g H Hnd HV Hb. destruct (read_inv ds a H) as (H1 & _ & _ & HP & HW).
  unfold corrupt_subject_3darray. rewrite H1. cbn [bind]. rewrite (NoDup_undup_len sel Hnd), Nat.eqb_refl. cbn [assert_ bind].
  rewrite HW. cbn [bind]. rewrite (proj1 (in_range_valid _ _) HV). cbn [bind].
  assert (Hg : assert_ (match match b with Some b0 => b0 | None => Shuffle end with OtherBehavior => false | _ => true end) = Ok tt).
  { destruct b as [[]|]; try reflexivity. contradiction. }
  rewrite Hg. cbn [bind]. rewrite HP. reflexivity.
Qed.

Lemma corrupt_outcome : forall prob (g : corrupt_rng ef) sel (a : arr3 ef) (new : nat -> (nat -> nat -> ef) -> nat -> nat -> ef) (P : nat -> ef -> ef -> Prop),
  proper_rng g -> real_prob prob -> NoDup sel -> valid_subjects (dS a) sel -> local new ->
  (forall k (c : nat -> nat -> ef) e r, (exists s, inside a e s r /\ forall e r, c e r = at3 a e s r) -> P k (c e r) (new k c e r)) ->
  corrupted prob g sel a
    (corrupt_loop (fun k c => rows_set (corrupt_videos (dE a) prob g k) c (new k c)) (map Z.to_nat sel) a) P.
Proof.
  intros prob g sel a new P Hg Hp Hnd HV Hl HP.
  destruct (loop_spec (fun k c => rows_set (corrupt_videos (dE a) prob g k) c (new k c)) (map Z.to_nat sel) a
    (local_rows_set _ _ Hl) (NoDup_to_nat _ _ Hnd HV)) as (D1 & D2 & D3 & C1 & C2).
  unfold corrupted. rewrite D1, D2, D3. repeat (split; [reflexivity|]). split.
  - intros e s r I Hn. apply C1. intro Hin. apply in_map_iff in Hin as (z & E & Hz). apply Hn.
    assert (0 <= z)%Z by (apply HV in Hz; lia). replace (Z.of_nat s) with z by lia. exact Hz.
  - intros k z e r Hk I. rewrite (C2 k (Z.to_nat z) e r) by (rewrite nth_error_map, Hk; reflexivity).
    assert (He : e < dE a) by apply I.
    destruct (rows_hit (dE a) prob g k (fun e r => at3 a e (Z.to_nat z) r) (new k (fun e r => at3 a e (Z.to_nat z) r)) e r Hg Hp He) as [R1 R2].
    split; intro Hh; [rewrite (R1 Hh); reflexivity|]. rewrite (R2 Hh).
    apply (HP k (fun e r => at3 a e (Z.to_nat z) r) e r). exists (Z.to_nat z). auto.
Qed.

Section Corrupt.
  Variables (ds : dataset ef string) (a : arr3 ef) (sel : list Z) (prob : option ef) (g : corrupt_rng ef) (lo hi : R).
  Hypotheses (HR : raw_reader_3darray ds = Ok a) (Hnd : NoDup sel) (HV : valid_subjects (dS a) sel)
    (Hg : proper_rng g) (Hp : real_prob prob) (Hf : finite_votes a) (Hlo : smallest_vote a lo) (Hhi : largest_vote a hi).

  Lemma lohi : (lo <= hi)%R.
  Proof. destruct Hlo as [(e & s & r & I & E) _]. destruct Hhi as [_ H]. eapply H; eauto. Qed.

  Ltac start := match goal with |- context [Some ?b] => rewrite (corrupt_unfold ds a sel (Some b) prob g HR Hnd HV) by discriminate end;
    unfold corrupt_array; rewrite ?(nanmin_spec a lo Hf Hlo); cbn [bind]; rewrite ?(nanmax_spec a hi Hf Hhi); cbn [bind];
    eexists; (split; [reflexivity|]).

  Lemma c20_flip : exists a', corrupt_subject_3darray ds (Some sel) (Some Flip) prob g = Ok a' /\
    corrupted prob g sel a a' (fun _ x y => match x with
      | Fin v => y = Fin (lo + hi - v)%R /\ (lo <= lo + hi - v <= hi)%R | _ => y = NaN end).
  Proof.
    start. apply (corrupt_outcome prob g sel a (fun k c e r => nsub (nadd (Fin hi) (Fin lo)) (c e r)) _ Hg Hp Hnd HV).
    - intros k c c' e r Hc. rewrite Hc. reflexivity.
    - intros k c e r (s & I & Hc). rewrite Hc. assert (Hfx := Hf e s r I). destruct (at3 a e s r) as [v| | |] eqn:E; try contradiction; [|reflexivity].
      cbn [nsub nadd Num_ef ef_add]. rewrite ef_sub_Fin. split; [f_equal; lra|].
      assert (lo <= v)%R by (eapply (proj2 Hlo); eauto). assert (v <= hi)%R by (eapply (proj2 Hhi); eauto). lra.
  Qed.

  Lemma c20_min : exists a', corrupt_subject_3darray ds (Some sel) (Some BMin) prob g = Ok a' /\
    corrupted prob g sel a a' (fun _ _ y => y = Fin lo).
  Proof.
    start. apply (corrupt_outcome prob g sel a (fun k c e r => Fin lo) _ Hg Hp Hnd HV); intros; try intro; intros; reflexivity.
  Qed.
  Lemma c20_max : exists a', corrupt_subject_3darray ds (Some sel) (Some BMax) prob g = Ok a' /\
    corrupted prob g sel a a' (fun _ _ y => y = Fin hi).
  Proof.
    start. apply (corrupt_outcome prob g sel a (fun k c e r => Fin hi) _ Hg Hp Hnd HV); intros; try intro; intros; reflexivity.
  Qed.
  Lemma c20_mid : exists a', corrupt_subject_3darray ds (Some sel) (Some BMid) prob g = Ok a' /\
    corrupted prob g sel a a' (fun _ _ y => y = Fin ((lo + hi) / 2)%R /\ (lo <= (lo + hi) / 2 <= hi)%R).
  Proof.
    start. apply (corrupt_outcome prob g sel a (fun k c e r => ndiv (nadd (Fin lo) (Fin hi)) (nofZ 2)) _ Hg Hp Hnd HV).
    - intros k c c' e r _. reflexivity.
    - intros k c e r _. assert (H := lohi). split; [|lra]. cbn [nadd ndiv nofZ Num_ef ef_add].
      rewrite ef_div_Fin by lra. reflexivity.
  Qed.
  Lemma c20_constant : exists a' c, corrupt_subject_3darray ds (Some sel) (Some Constant) prob g = Ok a' /\
    (forall k, (lo <= c k <= hi)%R) /\
    corrupted prob g sel a a' (fun k _ y => y = Fin (c k)).
  Proof.
    rewrite (corrupt_unfold ds a sel (Some Constant) prob g HR Hnd HV) by discriminate.
    unfold corrupt_array. rewrite (nanmin_spec a lo Hf Hlo). cbn [bind]. rewrite (nanmax_spec a hi Hf Hhi). cbn [bind].
    eexists. exists (fun k => lo + (hi - lo) * toR (cconst g k))%R. split; [reflexivity|]. split.
    - intro k. destruct (proj1 (proj2 Hg) k) as (u & E & Hb). rewrite E. cbn [toR]. assert (H := lohi).
      assert (0 <= (hi - lo) * u)%R by (apply Rmult_le_pos; lra).
      assert ((hi - lo) * u <= (hi - lo) * 1)%R by (apply Rmult_le_compat_l; lra). lra.
    - apply (corrupt_outcome prob g sel a (fun k c e r => nadd (Fin lo) (nmul (nsub (Fin hi) (Fin lo)) (cconst g k))) _ Hg Hp Hnd HV).
      + intros k c c' e r _. reflexivity.
      + intros k c e r _. destruct (proj1 (proj2 Hg) k) as (u & E & Hb). rewrite E. cbn [toR].
        cbn [nadd nmul nsub Num_ef]. rewrite ef_sub_Fin. reflexivity.
  Qed.
End Corrupt.

Lemma index_of_In : forall e l, In e l -> index_of e l < length l /\ nth (index_of e l) l 0 = e.
Proof.
  induction l as [|y l IH]; intros H; [contradiction|]. cbn [index_of]. destruct (Nat.eqb_spec e y) as [->|Hne].
  - cbn. split; [lia|reflexivity].
  - destruct H as [->|H]; [contradiction|]. destruct (IH H) as [H1 H2]. cbn. split; [lia|exact H2].
Qed.

Lemma c20_shuffle : forall ds a sel b prob (g : corrupt_rng ef), raw_reader_3darray ds = Ok a -> NoDup sel -> valid_subjects (dS a) sel ->
  proper_rng g -> real_prob prob -> b = None \/ b = Some Shuffle ->
  exists a' p, corrupt_subject_3darray ds (Some sel) b prob g = Ok a' /\
    dE a' = dE a /\ dS a' = dS a /\ dR a' = dR a /\
    (forall k, permutes (dE a) (p k)) /\
    (forall k e, e < dE a -> ~ hit prob g k e -> p k e = e) /\
    (forall e s r, inside a e s r -> ~ In (Z.of_nat s) sel -> at3 a' e s r = at3 a e s r) /\
    (forall k z e r, nth_error sel k = Some z -> inside a e (Z.to_nat z) r ->
       at3 a' e (Z.to_nat z) r = at3 a (p k e) (Z.to_nat z) r).
Proof.
  intros ds a sel b prob g HR Hnd HV Hg Hp Hb.
  rewrite (corrupt_unfold ds a sel b prob g HR Hnd HV) by (destruct Hb; subst; discriminate).
  replace (match b with Some b0 => b0 | None => Shuffle end) with Shuffle by (destruct Hb; subst; reflexivity).
  unfold corrupt_array. set (vs := corrupt_videos (dE a) prob g). set (pm := fun k => cperm g k (length (vs k))).
  exists (corrupt_loop (fun k c => rows_permuted (vs k) (pm k) c) (map Z.to_nat sel) a).
  exists (fun k e => if existsb (Nat.eqb e) (vs k) then nth (pm k (index_of e (vs k))) (vs k) 0 else e).
  split; [reflexivity|].
  assert (Hloc : local (fun k c => rows_permuted (vs k) (pm k) c : nat -> nat -> ef)).
  { intros k c c' e r Hc. unfold rows_permuted, rows_set. destruct (existsb _ _); apply Hc. }
  destruct (loop_spec _ (map Z.to_nat sel) a Hloc (NoDup_to_nat _ _ Hnd HV)) as (D1 & D2 & D3 & C1 & C2).
  repeat (split; [assumption|]).
  assert (Hvs : forall k e, In e (vs k) <-> e < dE a /\ hit prob g k e) by (intros; apply corrupt_videos_hit; assumption).
  assert (Hvd : forall k, NoDup (vs k)).
  { intro k. unfold vs, corrupt_videos. destruct prob; [apply NoDup_filter|]; apply seq_NoDup. }
  split; [|split; [|split]].
  - intro k. destruct (proj2 (proj2 Hg) k (length (vs k))) as [P1 P2]. fold (pm k) in P1, P2.
    assert (Hin : forall e, In e (vs k) -> In (nth (pm k (index_of e (vs k))) (vs k) 0) (vs k)).
    { intros e He. apply nth_In. apply P1. apply index_of_In. exact He. }
    split.
    + intros e He. destruct (existsb (Nat.eqb e) (vs k)) eqn:E; [|exact He]. apply existsb_In in E. apply (Hvs k). apply Hin. exact E.
    + intros e e' He He' H. destruct (existsb (Nat.eqb e) (vs k)) eqn:E; destruct (existsb (Nat.eqb e') (vs k)) eqn:E'; try exact H.
      * apply existsb_In in E, E'. destruct (index_of_In e _ E) as [I1 I2]. destruct (index_of_In e' _ E') as [I1' I2'].
        assert (Hq : pm k (index_of e (vs k)) = pm k (index_of e' (vs k))).
        { apply (proj1 (NoDup_nth (vs k) 0) (Hvd k)); [apply P1; exact I1|apply P1; exact I1'|exact H]. }
        apply P2 in Hq; [|assumption|assumption]. congruence.
      * apply existsb_In in E. apply Hin in E. rewrite H in E. apply existsb_In in E. congruence.
      * apply existsb_In in E'. apply Hin in E'. rewrite <- H in E'. apply existsb_In in E'. congruence.
  - intros k e He Hn. destruct (existsb (Nat.eqb e) (vs k)) eqn:E; [|reflexivity]. apply existsb_In in E. apply Hvs in E. exfalso. apply Hn. apply E.
  - intros e s r I Hn. apply C1. intro Hin. apply in_map_iff in Hin as (z & E & Hz). apply Hn.
    assert (0 <= z)%Z by (apply HV in Hz; lia). replace (Z.of_nat s) with z by lia. exact Hz.
  - intros k z e r Hk I. rewrite (C2 k (Z.to_nat z) e r) by (rewrite nth_error_map, Hk; reflexivity).
    unfold rows_permuted, rows_set. destruct (existsb _ _); reflexivity.
Qed.
