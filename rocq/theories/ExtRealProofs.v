(** Algebra of the extended reals and of the nan-aware reductions on them. *)
From Coq Require Import Reals List ZArith Bool Arith Lia Lra Permutation.
From Verif Require Import Num ExtReal PyBase NumPy BaseProofs.
Import ListNotations.
Local Open Scope list_scope.
Local Open Scope R_scope.

Ltac efc :=
  change (@nadd ef Num_ef) with ef_add in *; change (@nsub ef Num_ef) with ef_sub in *;
  change (@nmul ef Num_ef) with ef_mul in *; change (@ndiv ef Num_ef) with ef_div in *;
  change (@nneg ef Num_ef) with ef_neg in *; change (@nabs ef Num_ef) with ef_abs in *;
  change (@nsqrt ef Num_ef) with ef_sqrt in *; change (@nexp ef Num_ef) with ef_exp in *;
  change (@nln ef Num_ef) with ef_ln in *; change (@nltb ef Num_ef) with ef_ltb in *;
  change (@nleb ef Num_ef) with ef_leb in *; change (@neqb ef Num_ef) with ef_eqb in *;
  change (@nisnan ef Num_ef) with ef_isnan in *; change (@nisinf ef Num_ef) with ef_isinf in *;
  change (@nnan ef Num_ef) with NaN in *; change (@npi ef Num_ef) with (Fin PI) in *;
  change (@nofZ ef Num_ef) with (fun z => Fin (IZR z)) in *; cbv beta in *.

(** * Booleans *)
Lemma Rltb_true : forall a b, Rltb a b = true <-> a < b.
Proof. intros; unfold Rltb; destruct (Rlt_dec a b); split; intro H; try discriminate; auto; contradiction. Qed.
Lemma Rltb_false : forall a b, Rltb a b = false <-> b <= a.
Proof. intros; unfold Rltb; destruct (Rlt_dec a b); split; intro H; try discriminate; auto; lra. Qed.
Lemma Rleb_true : forall a b, Rleb a b = true <-> a <= b.
Proof. intros; unfold Rleb; destruct (Rle_dec a b); split; intro H; try discriminate; auto; contradiction. Qed.
Lemma Rleb_false : forall a b, Rleb a b = false <-> b < a.
Proof. intros; unfold Rleb; destruct (Rle_dec a b); split; intro H; try discriminate; auto; lra. Qed.
Lemma Reqbb_true : forall a b, Reqbb a b = true <-> a = b.
Proof. intros; unfold Reqbb; destruct (Req_EM_T a b); split; intro H; try discriminate; auto; contradiction. Qed.

(** * ef algebra *)
Lemma ef_add_comm : forall x y, ef_add x y = ef_add y x.
Proof. intros [] []; simpl; try reflexivity. f_equal; ring. Qed.
Lemma ef_add_assoc : forall x y z, ef_add x (ef_add y z) = ef_add (ef_add x y) z.
Proof. intros [] [] []; simpl; try reflexivity. f_equal; ring. Qed.
Lemma ef_add_0_l : forall x, ef_add (Fin 0) x = x.
Proof. intros []; simpl; try reflexivity. f_equal; ring. Qed.
Lemma ef_add_0_r : forall x, ef_add x (Fin 0) = x.
Proof. intros x. rewrite ef_add_comm. apply ef_add_0_l. Qed.
Lemma ef_div_Fin : forall a b, b <> 0 -> ef_div (Fin a) (Fin b) = Fin (a / b).
Proof. intros a b H. simpl. destruct (Req_EM_T b 0); [contradiction|reflexivity]. Qed.
Lemma ef_sub_Fin : forall a b, ef_sub (Fin a) (Fin b) = Fin (a - b).
Proof. intros; unfold ef_sub; simpl. f_equal. Qed.
Lemma ef_sqrt_Fin : forall a, 0 <= a -> ef_sqrt (Fin a) = Fin (sqrt a).
Proof. intros a H. simpl. destruct (Rltb a 0) eqn:E; [apply Rltb_true in E; lra|reflexivity]. Qed.
Lemma ef_0div0 : ef_div (Fin 0) (Fin 0) = NaN.
Proof. simpl. destruct (Req_EM_T 0 0); [reflexivity|contradiction]. Qed.
Lemma nofnat_ef : forall n, nofnat n = Fin (INR n).
Proof. intro n. unfold nofnat. simpl. f_equal. symmetry. apply INR_IZR_INZ. Qed.
Lemma ndec_ef : forall p q, (q <> 0)%Z -> ndec p q = Fin (IZR p / IZR q).
Proof. intros p q H. unfold ndec. efc. rewrite ef_div_Fin; [reflexivity|]. apply not_0_IZR; exact H. Qed.

(** * Real sums *)
Global Arguments Rsum : simpl never.
Global Arguments Rmean : simpl never.
Lemma Rsum_app : forall l l', Rsum (l ++ l') = Rsum l + Rsum l'.
Proof. unfold Rsum. induction l; intros; simpl; [ring|]. rewrite IHl. ring. Qed.
Lemma Rsum_cons : forall a l, Rsum (a :: l) = a + Rsum l.
Proof. reflexivity. Qed.
Lemma Rsum_perm : forall l l', Permutation l l' -> Rsum l = Rsum l'.
Proof. intros l l' H; induction H; unfold Rsum in *; simpl; lra. Qed.
Lemma Rsum_map_add : forall A (f g : A -> R) l, Rsum (map (fun x => f x + g x) l) = Rsum (map f l) + Rsum (map g l).
Proof. induction l; unfold Rsum in *; simpl; [ring|]. rewrite IHl. ring. Qed.
Lemma Rsum_map_sub : forall A (f g : A -> R) l, Rsum (map (fun x => f x - g x) l) = Rsum (map f l) - Rsum (map g l).
Proof. induction l; unfold Rsum in *; simpl; [ring|]. rewrite IHl. ring. Qed.
Lemma Rsum_map_mul : forall A (f : A -> R) c l, Rsum (map (fun x => c * f x) l) = c * Rsum (map f l).
Proof. induction l; unfold Rsum in *; simpl; [ring|]. rewrite IHl. ring. Qed.
Lemma Rsum_map_mulr : forall A (f : A -> R) c l, Rsum (map (fun x => f x * c) l) = Rsum (map f l) * c.
Proof. induction l; unfold Rsum in *; simpl; [ring|]. rewrite IHl. ring. Qed.
Lemma Rsum_map_const : forall A (c : R) (l : list A), Rsum (map (fun _ => c) l) = INR (length l) * c.
Proof.
  induction l; [simpl; unfold Rsum; simpl; ring|].
  simpl map. rewrite Rsum_cons, IHl. simpl length. rewrite S_INR. ring.
Qed.
Lemma Rsum_map_ext : forall A (f g : A -> R) l, (forall x, In x l -> f x = g x) -> Rsum (map f l) = Rsum (map g l).
Proof. intros. f_equal. apply map_ext_in. assumption. Qed.
Lemma Rsum_nonneg : forall l, (forall x, In x l -> 0 <= x) -> 0 <= Rsum l.
Proof.
  induction l as [|a l IH]; intros H; unfold Rsum; simpl; [lra|].
  assert (0 <= a) by (apply H; left; reflexivity).
  assert (0 <= Rsum l) by (apply IH; intros; apply H; right; assumption). unfold Rsum in *. lra.
Qed.
Lemma Rsum_pos : forall l, l <> [] -> (forall x, In x l -> 0 < x) -> 0 < Rsum l.
Proof.
  intros [|a l] Hne H; [contradiction|]. rewrite Rsum_cons.
  assert (0 < a) by (apply H; left; reflexivity).
  assert (0 <= Rsum l) by (apply Rsum_nonneg; intros; apply Rlt_le, H; right; assumption). lra.
Qed.
Lemma Rsum_le : forall A (f g : A -> R) l, (forall x, In x l -> f x <= g x) -> Rsum (map f l) <= Rsum (map g l).
Proof.
  induction l as [|a l IH]; intros H; unfold Rsum in *; simpl; [lra|].
  assert (f a <= g a) by (apply H; left; reflexivity).
  assert (fold_right Rplus 0 (map f l) <= fold_right Rplus 0 (map g l)) by (apply IH; intros; apply H; right; assumption). lra.
Qed.
Lemma Rsum_eq0 : forall l, (forall x, In x l -> 0 <= x) -> Rsum l = 0 -> forall x, In x l -> x = 0.
Proof.
  induction l as [|a l IH]; intros H E x Hx; [contradiction|].
  rewrite Rsum_cons in E.
  assert (0 <= a) by (apply H; left; reflexivity).
  assert (0 <= Rsum l) by (apply Rsum_nonneg; intros; apply H; right; assumption).
  destruct Hx as [<-|Hx]; [lra|]. apply IH; try assumption; [|lra].
  intros; apply H; right; assumption.
Qed.
Lemma Rsum_flat_map : forall A (f : A -> list R) l, Rsum (flat_map f l) = Rsum (map (fun x => Rsum (f x)) l).
Proof. induction l; simpl; [reflexivity|]. rewrite Rsum_app, IHl. reflexivity. Qed.
Lemma Rsum_swap : forall A B (f : A -> B -> R) la lb,
  Rsum (map (fun a => Rsum (map (f a) lb)) la) = Rsum (map (fun b => Rsum (map (fun a => f a b) la)) lb).
Proof.
  intros A B f la; induction la as [|a la IH]; intros lb; simpl.
  - rewrite Rsum_map_const. unfold Rsum; simpl. ring.
  - rewrite Rsum_cons, IH. rewrite <- Rsum_map_add. apply Rsum_map_ext. intros; reflexivity.
Qed.

Lemma INR_len_pos : forall A (l : list A), l <> [] -> 0 < INR (length l).
Proof. intros A [|a l] H; [contradiction|]. apply lt_0_INR. simpl. lia. Qed.
Lemma INR_len_neq : forall A (l : list A), l <> [] -> INR (length l) <> 0.
Proof. intros A l H. apply INR_len_pos in H. lra. Qed.

(** * np_sum *)
Lemma np_sum_fold : forall l : list ef, np_sum l = fold_right ef_add (Fin 0) l.
Proof.
  intro l. unfold np_sum, nzero. simpl.
  assert (G : forall l a, fold_left ef_add l a = ef_add a (fold_right ef_add (Fin 0) l)).
  { induction l0 as [|x l0 IH]; intro a; simpl; [rewrite ef_add_0_r; reflexivity|].
    rewrite IH. rewrite <- ef_add_assoc. reflexivity. }
  rewrite G. apply ef_add_0_l.
Qed.
Lemma np_sum_cons : forall x (l : list ef), np_sum (x :: l) = ef_add x (np_sum l).
Proof. intros. rewrite !np_sum_fold. reflexivity. Qed.
Lemma np_sum_nil : np_sum (@nil ef) = Fin 0.
Proof. reflexivity. Qed.
Lemma np_sum_perm : forall l l' : list ef, Permutation l l' -> np_sum l = np_sum l'.
Proof.
  intros l l' H; induction H; rewrite ?np_sum_cons; try congruence.
  rewrite !ef_add_assoc. f_equal. apply ef_add_comm.
Qed.
Lemma np_sum_Fin : forall l, np_sum (map Fin l) = Fin (Rsum l).
Proof.
  induction l as [|a l IH]; [reflexivity|]. simpl map. rewrite np_sum_cons, IH. reflexivity.
Qed.

(** * presents *)
Lemma presents_app : forall l l', presents (l ++ l') = presents l ++ presents l'.
Proof. induction l as [|[] l IH]; intros; simpl; rewrite ?IH; reflexivity. Qed.
Lemma presents_map_Fin : forall l, presents (map Fin l) = l.
Proof. induction l; simpl; [reflexivity|]. rewrite IHl. reflexivity. Qed.
Lemma presents_In : forall l x, In x (presents l) <-> In (Fin x) l.
Proof.
  induction l as [|[] l IH]; simpl; intros x; rewrite ?IH; split; intro H; try tauto.
  - destruct H as [->|H]; auto.
  - destruct H as [[= ->]|H]; auto.
  - destruct H as [[=]|H]; auto.
  - destruct H as [[=]|H]; auto.
  - destruct H as [[=]|H]; auto.
Qed.
Lemma presents_perm : forall l l', Permutation l l' -> Permutation (presents l) (presents l').
Proof.
  intros l l' H; induction H.
  - constructor.
  - destruct x; simpl; try assumption. constructor; assumption.
  - destruct x, y; simpl; try reflexivity. apply perm_swap.
  - etransitivity; eassumption.
Qed.
Lemma presents_flat_map : forall A (f : A -> list ef) l, presents (flat_map f l) = flat_map (fun x => presents (f x)) l.
Proof. induction l; simpl; [reflexivity|]. rewrite presents_app, IHl. reflexivity. Qed.

Definition allfinnan (l : list ef) : Prop := Forall finnan l.

Lemma notnan_finnan : forall l, allfinnan l -> notnan l = map Fin (presents l).
Proof.
  intros l H; induction H as [|x l Hx H IH]; [reflexivity|].
  destruct x; simpl in Hx; try contradiction; unfold notnan in *; cbn; rewrite <- IH; reflexivity.
Qed.
Lemma np_nansum_finnan : forall l, allfinnan l -> np_nansum l = Fin (Rsum (presents l)).
Proof. intros l H. unfold np_nansum. rewrite notnan_finnan by assumption. apply np_sum_Fin. Qed.
Lemma np_cnt_finnan : forall l, allfinnan l -> np_cnt l = length (presents l).
Proof. intros l H. unfold np_cnt. rewrite notnan_finnan by assumption. apply map_length. Qed.

Definition nanmeanR (l : list R) : ef := match l with [] => NaN | _ => Fin (Rmean l) end.

Lemma nanmeanR_ne : forall l, l <> [] -> nanmeanR l = Fin (Rmean l).
Proof. intros [] H; [contradiction|reflexivity]. Qed.

Lemma div_len : forall l : list R, ef_div (Fin (Rsum l)) (Fin (INR (length l))) = nanmeanR l.
Proof.
  intros [|a l].
  - unfold Rsum; simpl. destruct (Req_EM_T 0 0); [reflexivity|contradiction].
  - rewrite ef_div_Fin; [reflexivity|]. apply INR_len_neq. discriminate.
Qed.

Lemma np_nanmean_finnan : forall l, allfinnan l -> np_nanmean l = nanmeanR (presents l).
Proof.
  intros l H. unfold np_nanmean. rewrite np_nansum_finnan, np_cnt_finnan, nofnat_ef by assumption.
  efc. apply div_len.
Qed.
Lemma np_mean_Fin : forall l, np_mean (map Fin l) = nanmeanR l.
Proof.
  intro l. unfold np_mean. rewrite np_sum_Fin, map_length, nofnat_ef. efc. apply div_len.
Qed.

(** Sum of squared deviations. *)
Definition Rss (l : list R) : R := Rsum (map (fun x => (x - Rmean l) * (x - Rmean l)) l).
Lemma Rss_nonneg : forall l, 0 <= Rss l.
Proof. intro l. apply Rsum_nonneg. intros x H. apply in_map_iff in H as (y & <- & _). apply Rle_0_sqr. Qed.
Definition nanstdR (ddof : nat) (l : list R) : ef :=
  if Nat.leb (length l) ddof then NaN
  else Fin (sqrt (Rss l / INR (length l - ddof))).

Lemma np_nanstd_finnan : forall ddof l, allfinnan l -> np_nanstd ddof l = nanstdR ddof (presents l).
Proof.
  intros ddof l H. unfold np_nanstd, nanstdR. rewrite notnan_finnan by assumption.
  rewrite map_length. destruct (Nat.leb_spec (length (presents l)) ddof); [reflexivity|].
  set (p := presents l) in *. assert (Hp : p <> []) by (destruct p; simpl in *; [lia|discriminate]).
  rewrite np_sum_Fin, !nofnat_ef. efc. rewrite (ef_div_Fin (Rsum p)) by (apply INR_len_neq; exact Hp).
  rewrite map_map.
  rewrite (map_ext _ (fun x => Fin ((x - Rmean p) * (x - Rmean p)))) by (intro; reflexivity).
  rewrite <- (map_map (fun x => (x - Rmean p) * (x - Rmean p)) Fin). rewrite np_sum_Fin.
  assert (Hn : 0 < INR (length p - ddof)) by (apply lt_0_INR; lia).
  efc. rewrite ef_div_Fin by lra. efc. rewrite ef_sqrt_Fin; [reflexivity|].
  apply Rmult_le_pos; [apply Rss_nonneg|]. apply Rlt_le, Rinv_0_lt_compat; exact Hn.
Qed.

Lemma np_std_Fin : forall l, np_std (map Fin l) = nanstdR 0 l.
Proof.
  intro l. destruct l as [|a l].
  - unfold np_std, np_mean. rewrite !map_map. simpl map. simpl length.
    rewrite np_sum_nil, nofnat_ef. efc. change (INR 0) with 0. rewrite ef_0div0. reflexivity.
  - unfold np_std. rewrite np_mean_Fin. set (p := a :: l).
    assert (Hp : p <> []) by discriminate. change (nanmeanR p) with (Fin (Rmean p)).
    rewrite map_map.
    rewrite (map_ext _ (fun x => Fin ((x - Rmean p) * (x - Rmean p)))) by (intro; reflexivity).
    rewrite <- (map_map (fun x => (x - Rmean p) * (x - Rmean p)) Fin). rewrite np_mean_Fin.
    rewrite nanmeanR_ne by discriminate.
    replace (Rmean (map (fun x => (x - Rmean p) * (x - Rmean p)) p)) with (Rss p / INR (length p))
      by (unfold Rss, Rmean at 3; rewrite map_length; reflexivity).
    unfold nanstdR. efc. rewrite Nat.sub_0_r.
    destruct (Nat.leb_spec (length p) 0); [simpl in *; lia|].
    rewrite ef_sqrt_Fin; [reflexivity|].
    apply Rmult_le_pos; [apply Rss_nonneg|]. apply Rlt_le, Rinv_0_lt_compat, INR_len_pos; exact Hp.
Qed.

(** * Means *)
Lemma Rmean_perm : forall l l', Permutation l l' -> Rmean l = Rmean l'.
Proof. intros l l' H. unfold Rmean. rewrite (Rsum_perm _ _ H), (Permutation_length H). reflexivity. Qed.
Lemma Rss_perm : forall l l', Permutation l l' -> Rss l = Rss l'.
Proof.
  intros l l' H. unfold Rss. rewrite (Rmean_perm _ _ H). apply Rsum_perm.
  apply Permutation_map. exact H.
Qed.
Lemma nanmeanR_perm : forall l l', Permutation l l' -> nanmeanR l = nanmeanR l'.
Proof.
  intros l l' H. unfold nanmeanR. destruct l, l'; try reflexivity.
  - apply Permutation_nil in H. discriminate.
  - apply Permutation_sym, Permutation_nil in H. discriminate.
  - rewrite (Rmean_perm _ _ H). reflexivity.
Qed.
Lemma nanstdR_perm : forall d l l', Permutation l l' -> nanstdR d l = nanstdR d l'.
Proof. intros d l l' H. unfold nanstdR. rewrite (Rss_perm _ _ H), (Permutation_length H). reflexivity. Qed.

Lemma Rsum_map_affine : forall a c l, Rsum (map (fun x => a * x + c) l) = a * Rsum l + INR (length l) * c.
Proof.
  intros a c l. rewrite Rsum_map_add, Rsum_map_const, (Rsum_map_mul _ (fun x => x)), map_id. reflexivity.
Qed.
Lemma Rmean_affine : forall a c l, l <> [] -> Rmean (map (fun x => a * x + c) l) = a * Rmean l + c.
Proof.
  intros a c l H. unfold Rmean. rewrite Rsum_map_affine, map_length. field. apply INR_len_neq; exact H.
Qed.
Lemma Rss_affine : forall a c l, Rss (map (fun x => a * x + c) l) = a * a * Rss l.
Proof.
  intros a c l. destruct l as [|x0 l0]; [unfold Rss, Rsum; simpl; ring|].
  unfold Rss. rewrite map_map. rewrite Rmean_affine by discriminate.
  set (m := Rmean (x0 :: l0)). rewrite <- Rsum_map_mul. apply Rsum_map_ext. intros; ring.
Qed.
Lemma Rsum_const : forall l m, (forall x, In x l -> x = m) -> Rsum l = INR (length l) * m.
Proof.
  intros l m H. rewrite <- (Rsum_map_const R m l). rewrite <- (map_id l) at 1.
  apply Rsum_map_ext. exact H.
Qed.
Lemma Rmean_bounds : forall l m M, l <> [] -> (forall x, In x l -> m <= x <= M) -> m <= Rmean l <= M.
Proof.
  intros l m M Hne H. unfold Rmean. assert (Hp := INR_len_pos _ l Hne).
  assert (INR (length l) * m <= Rsum l).
  { rewrite <- (Rsum_map_const R m l). rewrite <- (map_id l) at 2. apply Rsum_le. intros; apply H; assumption. }
  assert (Rsum l <= INR (length l) * M).
  { rewrite <- (Rsum_map_const R M l). rewrite <- (map_id l) at 1. apply Rsum_le. intros; apply H; assumption. }
  split.
  - apply Rmult_le_reg_r with (INR (length l)); [exact Hp|]. unfold Rdiv. rewrite Rmult_assoc, Rinv_l by lra. lra.
  - apply Rmult_le_reg_r with (INR (length l)); [exact Hp|]. unfold Rdiv. rewrite Rmult_assoc, Rinv_l by lra. lra.
Qed.
Lemma Rsum_dev : forall l, l <> [] -> Rsum (map (fun x => x - Rmean l) l) = 0.
Proof.
  intros l H. rewrite Rsum_map_sub, Rsum_map_const, map_id. unfold Rmean. field. apply INR_len_neq; exact H.
Qed.
Lemma Rss_zero : forall l, Rss l = 0 <-> (forall x y, In x l -> In y l -> x = y).
Proof.
  intro l. split.
  - intros H x y Hx Hy. unfold Rss in H.
    assert (K : forall z, In z l -> (z - Rmean l) * (z - Rmean l) = 0).
    { intros z Hz. apply (Rsum_eq0 (map (fun x => (x - Rmean l) * (x - Rmean l)) l)); [|exact H|].
      - intros w Hw. apply in_map_iff in Hw as (u & <- & _). apply Rle_0_sqr.
      - apply in_map_iff. exists z; auto. }
    assert (Kx := Rsqr_0_uniq _ (K x Hx)). assert (Ky := Rsqr_0_uniq _ (K y Hy)). lra.
  - intro H. unfold Rss. destruct l as [|a l]; [reflexivity|].
    assert (E : Rmean (a :: l) = a).
    { unfold Rmean. rewrite (Rsum_const (a :: l) a) by (intros; apply H; [assumption|left; reflexivity]).
      field. apply INR_len_neq. discriminate. }
    rewrite E. rewrite (Rsum_map_ext _ _ (fun _ => 0)).
    + rewrite Rsum_map_const. ring.
    + intros x Hx. rewrite (H x a Hx) by (left; reflexivity). ring.
Qed.

(** Closure of finnan under the operations used on votes. *)
Lemma finnan_add : forall x y, finnan x -> finnan y -> finnan (ef_add x y).
Proof. intros [] []; simpl; auto. Qed.
Lemma finnan_neg : forall x, finnan x -> finnan (ef_neg x).
Proof. intros []; simpl; auto. Qed.
Lemma finnan_sub : forall x y, finnan x -> finnan y -> finnan (ef_sub x y).
Proof. intros. apply finnan_add; [|apply finnan_neg]; assumption. Qed.
Lemma nanmeanR_finnan : forall l, finnan (nanmeanR l).
Proof. intros []; simpl; auto. Qed.
Lemma nanstdR_finnan : forall d l, finnan (nanstdR d l).
Proof. intros d l. unfold nanstdR. destruct (Nat.leb _ _); simpl; auto. Qed.
