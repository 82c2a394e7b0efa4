(** Proofs for claim C72: the options of the paired comparison conversion. *)
From Coq Require Import String.
From Coq Require Import List ZArith Bool Arith Reals Lia Lra.
From Verif Require Import PyBase Num ExtReal NumPy Dataset PcDataset BaseProofs ExtRealProofs SpecDataset SpecMos SpecConv SpecPc Pc2Proofs Pc3Proofs Pc4Proofs Pc5Proofs Pc6Proofs.
Import ListNotations.
Local Open Scope list_scope.

Lemma nonneg_b : forall x : ef, (nzero <=? x)%num = true <-> at_least_0 x.
Proof.
  intros [r| | |]; unfold at_least_0, nzero; cbn.
  - unfold Rleb. destruct (Rle_dec 0 r) as [H|H]; split; intro K; try discriminate.
    + right. exists r. auto.
    + reflexivity.
    + destruct K as [K|(r' & E & K)]; [discriminate|]. injection E as <-. lra.
  - split; auto.
  - split; [discriminate|]. intros [K|(r' & E & K)]; discriminate.
  - split; [discriminate|]. intros [K|(r' & E & K)]; discriminate.
Qed.
Lemma unit_b : forall x : ef, ((nzero <=? x) && (x <=? none_))%num = true <-> in_0_1 x.
Proof.
  intros [r| | |]; unfold in_0_1, nzero, none_; cbn.
  - unfold Rleb. destruct (Rle_dec 0 r) as [H|H]; destruct (Rle_dec r 1) as [H'|H']; cbn; split; intro K; try discriminate; try reflexivity.
    + exists r. auto.
    + destruct K as (r' & E & K). injection E as <-. lra.
    + destruct K as (r' & E & K). injection E as <-. lra.
    + destruct K as (r' & E & K). injection E as <-. lra.
  - split; [discriminate|]. intros (r' & E & K); discriminate.
  - split; [discriminate|]. intros (r' & E & K); discriminate.
  - split; [discriminate|]. intros (r' & E & K); discriminate.
Qed.
Lemma o_all_each : forall A (f : A -> bool) (P : A -> Prop) o, (forall x, f x = true <-> P x) -> (o_all f o = true <-> each P o).
Proof.
  intros A f P [x|] H; unfold each; cbn.
  - rewrite H. split; [intros K y E; injection E as <-; exact K|auto].
  - split; [intros _ y E; discriminate|reflexivity].
Qed.
Lemma full_b : forall (f : ef -> bool) P nv l, (forall x, f x = true <-> P x) -> (Nat.eqb (length l) nv && forallb f l = true <-> full_list P nv l).
Proof.
  intros f P nv l H. unfold full_list. rewrite andb_true_iff, Nat.eqb_eq, forallb_forall, Forall_forall. split; intros [A B]; (split; [exact A|]); intros x Hx; apply H; apply B; exact Hx.
Qed.
Lemma both_b : forall A B (o : option A) (o' : option B), negb (is_some o && is_some o') = true <-> not_both o o'.
Proof. intros A B [x|] [y|]; unfold not_both; cbn; split; auto; try discriminate. intros [K|K]; discriminate. Qed.

Lemma check_valid : forall (o : pcopts ef) nv, pc_check o nv = Ok tt <-> valid_options o nv.
Proof.
  intros o nv. unfold pc_check. cbv zeta.
  assert (A : forall c, assert_ c = Ok tt <-> c = true) by (intros []; split; auto; discriminate).
  rewrite A, !andb_true_iff, !orb_true_iff, !String.eqb_eq, !both_b.
  rewrite (o_all_each _ _ at_least_0 (po_rate o)), (o_all_each _ _ at_least_0 (po_noise o)) by exact nonneg_b. rewrite !(o_all_each _ _ in_0_1) by exact unit_b.
  rewrite (o_all_each _ _ (full_list at_least_0 nv) (po_rates o)), (o_all_each _ _ (full_list at_least_0 nv) (po_noises o)) by (intro; apply full_b; exact nonneg_b).
  rewrite !(o_all_each _ _ (full_list in_0_1 nv)) by (intro; apply full_b; exact unit_b).
  rewrite (o_all_each _ (fun l : list ef => Nat.eqb (length l) nv) (fun l : list ef => length l = nv) (po_means o)) by (intro; apply Nat.eqb_eq).
  assert (TT : (the_type o = "within_subject_within_content"%string \/ the_type o = "within_subject"%string) <->
    (po_type o = None \/ po_type o = Some "within_subject_within_content"%string \/ po_type o = Some "within_subject"%string)).
  { unfold the_type. destruct (po_type o) as [t|]; [|tauto]. split; [intros [->| ->]; auto|]. intros [K|[K|K]]; [discriminate|injection K as ->; auto|injection K as ->; auto]. }
  assert (TI : (the_tie o = "even_split"%string \/ the_tie o = "coin_toss"%string) <->
    (po_tie o = None \/ po_tie o = Some "even_split"%string \/ po_tie o = Some "coin_toss"%string)).
  { unfold the_tie. destruct (po_tie o) as [t|]; [|tauto]. split; [intros [->| ->]; auto|]. intros [K|[K|K]]; [discriminate|injection K as ->; auto|injection K as ->; auto]. }
  rewrite TT, TI. split.
  - intros H. decompose [and] H. split; auto.
  - intros [V1 V2 V3 V4 V5 V6]. decompose [and] V3. decompose [and] V4. decompose [and] V5. change (each (fun l : list ef => length l = nv) (po_means o)) in V6. repeat apply conj; assumption.
Qed.
Lemma check_cases : forall (o : pcopts ef) nv, pc_check o nv = Ok tt \/ pc_check o nv = Err AssertionError.
Proof. intros o nv. unfold pc_check. cbv zeta. unfold assert_. match goal with |- context [if ?c then _ else _] => destruct c end; auto. Qed.

Lemma c72_rejected : forall fuel ds kw o (g : rng ef), ~ valid_options o (length (ds_dis ds)) -> to_pc_dataset fuel ds kw o g = Err AssertionError.
Proof.
  intros fuel ds kw o g H. unfold to_pc_dataset. destruct (check_cases o (length (ds_dis ds))) as [E|E]; rewrite E; [|reflexivity].
  exfalso. apply H, check_valid, E.
Qed.
Lemma c72_accepted : forall k fuel ds kw o g, pc_source (ds_dis ds) -> scored o (ds_dis ds) -> valid_options o (length (ds_dis ds)) ->
  rates_within o k -> k < fuel -> exists pc after n, to_pc_dataset fuel ds kw o g = Ok (pc, after, n).
Proof. intros k fuel ds kw o g H1 H2 H3. apply pc_total; [exact H1|exact H2|]. apply check_valid, H3. Qed.
