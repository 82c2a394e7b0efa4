(** Proofs about the likelihood models on another rating scale (C141). *)
From Coq Require Import String.
From Coq Require Import List ZArith Bool Arith Reals Lra Lia.
From Verif Require Import PyBase Num ExtReal NumPy Dataset Preproc Mos AP Mle SpecMos SpecAp SpecMle SpecScale
  BaseProofs ExtRealProofs ArrayProofs StepsProofs MosProofs ApProofs Ap2Proofs Ap6Proofs MleProofs Mle2Proofs Mle3Proofs Mle4Proofs Mle5Proofs Mle7Proofs.
Import ListNotations.
Local Open Scope list_scope.
Local Open Scope R_scope.

(** ** Multiples *)
Lemma times_cases : forall k x, k <> 0 -> times k x =
  match x with Fin r => Fin (k * r) | PInf => if Rlt_dec 0 k then PInf else NInf | NInf => if Rlt_dec 0 k then NInf else PInf | NaN => NaN end.
Proof.
  intros k x Hk. unfold times, ef_mul, ef_infmul, Rltb. destruct x; try reflexivity; destruct (Req_EM_T k 0); try contradiction; destruct (Rlt_dec 0 k); reflexivity.
Qed.
Lemma Rmult_ne : forall a b, a <> 0 -> b <> 0 -> a * b <> 0.
Proof. intros. apply Rmult_integral_contrapositive_currified; assumption. Qed.
Ltac tcase := rewrite ?times_cases by (try assumption; try lra; try (apply Rmult_ne; (assumption || lra))).
Lemma times_add : forall k a b, k <> 0 -> times k (ef_add a b) = ef_add (times k a) (times k b).
Proof. intros k a b Hk. tcase. destruct a, b; cbn [ef_add]; destruct (Rlt_dec 0 k); cbn [ef_add]; try reflexivity. all: f_equal; ring. Qed.
Lemma times_neg : forall k a, k <> 0 -> times k (ef_neg a) = ef_neg (times k a).
Proof. intros k a Hk. tcase. destruct a; cbn [ef_neg]; destruct (Rlt_dec 0 k); cbn [ef_neg]; try reflexivity. all: f_equal; ring. Qed.
Lemma times_sub : forall k a b, k <> 0 -> times k (ef_sub a b) = ef_sub (times k a) (times k b).
Proof. intros k a b Hk. unfold ef_sub. rewrite times_add, times_neg by assumption. reflexivity. Qed.
Lemma times_1 : forall a, times 1 a = a.
Proof. intro a. tcase. destruct a; try (destruct (Rlt_dec 0 1); [reflexivity|lra]); try reflexivity. f_equal. ring. Qed.
Lemma infmul_times : forall p k b, k <> 0 -> ef_infmul p (k * b) = ef_infmul (if Rlt_dec 0 k then p else negb p) b.
Proof.
  intros p k b Hk. unfold ef_infmul, Rltb. destruct (Req_EM_T b 0) as [->|Hb].
  - rewrite Rmult_0_r. destruct (Req_EM_T 0 0); [reflexivity|contradiction].
  - destruct (Req_EM_T (k * b) 0) as [E|_]; [exfalso; apply (Rmult_ne k b Hk Hb E)|].
    destruct (Rlt_dec 0 k) as [Pk|Nk].
    + destruct (Rlt_dec 0 b) as [Pb|Nb]; destruct (Rlt_dec 0 (k * b)) as [Q|Q]; try reflexivity; exfalso.
      * apply Q. apply Rmult_lt_0_compat; assumption.
      * assert (b < 0) by lra. assert (0 < k * - b) by (apply Rmult_lt_0_compat; lra). lra.
    + assert (0 < - k) by lra. destruct (Rlt_dec 0 b) as [Pb|Nb]; destruct (Rlt_dec 0 (k * b)) as [Q|Q]; try (destruct p; reflexivity); exfalso.
      * assert (0 < - k * b) by (apply Rmult_lt_0_compat; lra). lra.
      * assert (0 < - k * - b) by (apply Rmult_lt_0_compat; lra). lra.
Qed.
Lemma sign_mul : forall k l, k <> 0 -> l <> 0 -> (if Rlt_dec 0 (k * l) then true else false) = Bool.eqb (if Rlt_dec 0 k then true else false) (if Rlt_dec 0 l then true else false).
Proof.
  intros k l Hk Hl. destruct (Rlt_dec 0 k), (Rlt_dec 0 l), (Rlt_dec 0 (k * l)) as [Q|Q]; try reflexivity; exfalso.
  - apply Q. apply Rmult_lt_0_compat; assumption.
  - assert (0 < k * - l) by (apply Rmult_lt_0_compat; lra). lra.
  - assert (0 < - k * l) by (apply Rmult_lt_0_compat; lra). lra.
  - assert (0 < - k * - l) by (apply Rmult_lt_0_compat; lra). lra.
Qed.
Lemma times_infmul : forall k p b, k <> 0 -> times k (ef_infmul p b) = ef_infmul (if Rlt_dec 0 k then p else negb p) b.
Proof.
  intros k p b Hk. unfold ef_infmul. destruct (Req_EM_T b 0); [tcase; reflexivity|].
  destruct p, (Rltb 0 b); cbn [Bool.eqb]; tcase; destruct (Rlt_dec 0 k); reflexivity.
Qed.
Lemma times_comp : forall k l a, k <> 0 -> l <> 0 -> times k (times l a) = times (k * l) a.
Proof.
  intros k l a Hk Hl. assert (S := sign_mul k l Hk Hl). tcase.
  destruct a; [f_equal; ring| | |reflexivity]; destruct (Rlt_dec 0 k), (Rlt_dec 0 l), (Rlt_dec 0 (k * l)); cbn in S; try discriminate; reflexivity.
Qed.
Lemma times_mul_l : forall k a b, k <> 0 -> times k (ef_mul a b) = ef_mul (times k a) b.
Proof.
  intros k a b Hk. rewrite (times_cases k a) by assumption. destruct a as [r| | |]; destruct b as [s| | |]; cbn [ef_mul];
    rewrite ?times_infmul by assumption; rewrite ?infmul_times by assumption; try (rewrite times_cases by assumption; destruct (Rlt_dec 0 k); reflexivity);
    try (tcase; f_equal; ring); try reflexivity.
  all: destruct (Rlt_dec 0 k); reflexivity.
Qed.
Lemma ef_mul_comm2 : forall a b, ef_mul a b = ef_mul b a.
Proof. intros [r| | |] [s| | |]; cbn [ef_mul]; try reflexivity. f_equal. ring. Qed.
Lemma times_mul : forall k l a b, k <> 0 -> l <> 0 -> times (k * l) (ef_mul a b) = ef_mul (times k a) (times l b).
Proof.
  intros k l a b Hk Hl. rewrite <- times_comp by assumption. rewrite (ef_mul_comm2 a b), (times_mul_l l) by assumption. rewrite ef_mul_comm2.
  rewrite times_mul_l by assumption. reflexivity.
Qed.
Lemma times_isnan : forall k a, k <> 0 -> ef_isnan (times k a) = ef_isnan a.
Proof. intros k a Hk. tcase. destruct a; try reflexivity; destruct (Rlt_dec 0 k); reflexivity. Qed.
Lemma times_isinf : forall k a, k <> 0 -> ef_isinf (times k a) = ef_isinf a.
Proof. intros k a Hk. tcase. destruct a; try reflexivity; destruct (Rlt_dec 0 k); reflexivity. Qed.
(** Positive multiples. *)
Lemma times_pos : forall k a, 0 < k -> times k a = match a with Fin r => Fin (k * r) | y => y end.
Proof. intros k a Hk. rewrite times_cases by lra. destruct (Rlt_dec 0 k); [|contradiction]. destruct a; reflexivity. Qed.
Lemma div_times : forall l a b, 0 < l -> ef_div a (times l b) = times (1 / l) (ef_div a b).
Proof.
  intros l a b Hl. assert (0 < 1 / l) by (apply Rdiv_lt_0_compat; lra). rewrite !times_pos by assumption.
  destruct a as [r| | |], b as [s| | |]; cbn [ef_div]; try reflexivity; try (f_equal; ring); unfold Rltb, Rleb.
  - destruct (Req_EM_T s 0) as [->|Hs].
    + rewrite Rmult_0_r. destruct (Req_EM_T 0 0); [|contradiction]. destruct (Req_EM_T r 0); [reflexivity|]. destruct (Rlt_dec 0 r); reflexivity.
    + destruct (Req_EM_T (l * s) 0) as [E|_]; [exfalso; apply (Rmult_ne l s); (lra || assumption)|]. f_equal. field. split; [assumption|lra].
  - assert (K : 0 <= s <-> 0 <= l * s). { split; intro K; [apply Rmult_le_pos; lra|]. destruct (Rle_dec 0 s); [assumption|]. assert (0 < l * - s) by (apply Rmult_lt_0_compat; lra). lra. }
    destruct (Rle_dec 0 s), (Rle_dec 0 (l * s)); try reflexivity; tauto.
  - assert (K : 0 <= s <-> 0 <= l * s). { split; intro K; [apply Rmult_le_pos; lra|]. destruct (Rle_dec 0 s); [assumption|]. assert (0 < l * - s) by (apply Rmult_lt_0_compat; lra). lra. }
    destruct (Rle_dec 0 s), (Rle_dec 0 (l * s)); try reflexivity; tauto.
Qed.
Lemma times_div_l : forall k a b, k <> 0 -> times k (ef_div a b) = ef_div (times k a) b.
Proof.
  intros k a b Hk. destruct (Rlt_dec 0 k) as [P|P].
  - rewrite !times_pos by assumption. destruct a as [r| | |], b as [s| | |]; cbn [ef_div]; try reflexivity; try (f_equal; ring); unfold Rltb.
    + destruct (Req_EM_T s 0) as [->|Hs]; [|f_equal; field; assumption].
      destruct (Req_EM_T r 0) as [->|Hr]; [rewrite Rmult_0_r; destruct (Req_EM_T 0 0); [reflexivity|contradiction]|].
      destruct (Req_EM_T (k * r) 0) as [E|_]; [exfalso; apply (Rmult_ne k r); assumption|].
      destruct (Rlt_dec 0 r), (Rlt_dec 0 (k * r)) as [Q|Q]; try reflexivity; exfalso.
      * apply Q. apply Rmult_lt_0_compat; assumption.
      * assert (0 < k * - r) by (apply Rmult_lt_0_compat; lra). lra.
    + destruct (Rleb 0 s); reflexivity.
    + destruct (Rleb 0 s); reflexivity.
  - assert (N : 0 < - k) by lra. rewrite !times_cases by assumption. destruct (Rlt_dec 0 k); [contradiction|].
    destruct a as [r| | |], b as [s| | |]; cbn [ef_div]; try reflexivity; try (f_equal; ring); unfold Rltb.
    + destruct (Req_EM_T s 0) as [->|Hs]; [|f_equal; field; assumption].
      destruct (Req_EM_T r 0) as [->|Hr]; [rewrite Rmult_0_r; destruct (Req_EM_T 0 0); [reflexivity|contradiction]|].
      destruct (Req_EM_T (k * r) 0) as [E|_]; [exfalso; apply (Rmult_ne k r); assumption|].
      destruct (Rlt_dec 0 r), (Rlt_dec 0 (k * r)) as [Q|Q]; try reflexivity; exfalso.
      * assert (0 < - k * r) by (apply Rmult_lt_0_compat; lra). lra.
      * assert (0 < - k * - r) by (apply Rmult_lt_0_compat; lra). lra.
    + destruct (Rleb 0 s); reflexivity.
    + destruct (Rleb 0 s); reflexivity.
Qed.
Lemma times_sqrt : forall l a, 0 < l -> ef_sqrt (times (l * l) a) = times l (ef_sqrt a).
Proof.
  intros l a Hl. assert (0 < l * l) by (apply Rmult_lt_0_compat; assumption). rewrite !times_pos by assumption. destruct a as [r| | |]; cbn [ef_sqrt]; try reflexivity.
  unfold Rltb. destruct (Rlt_dec r 0) as [N|N].
  - destruct (Rlt_dec (l * l * r) 0) as [Q|Q]; [reflexivity|]. exfalso. assert (0 < l * l * - r) by (apply Rmult_lt_0_compat; lra). lra.
  - destruct (Rlt_dec (l * l * r) 0) as [Q|Q]; [exfalso; assert (0 <= l * l * r) by (apply Rmult_le_pos; lra); lra|].
    f_equal. rewrite sqrt_mult by lra. rewrite sqrt_square by lra. reflexivity.
Qed.
Lemma times_ltb : forall l a b, 0 < l -> ef_ltb (times l a) (times l b) = ef_ltb a b.
Proof.
  intros l a b Hl. rewrite !times_pos by assumption. destruct a as [r| | |], b as [s| | |]; cbn [ef_ltb]; try reflexivity. unfold Rltb.
  destruct (Rlt_dec r s) as [Q|Q], (Rlt_dec (l * r) (l * s)) as [Q2|Q2]; try reflexivity; exfalso.
  - apply Q2. apply Rmult_lt_compat_l; assumption.
  - apply Q. apply (Rmult_lt_reg_l l); assumption.
Qed.
Lemma times_max : forall l a b, 0 < l -> nmaximum (times l a) (times l b) = times l (nmaximum a b).
Proof.
  intros l a b Hl. unfold nmaximum. cbn [nisnan nltb Num_ef]. rewrite !times_isnan by lra. rewrite times_ltb by assumption.
  destruct (ef_isnan a); [reflexivity|]. destruct (ef_isnan b); [reflexivity|]. destruct (ef_ltb b a); reflexivity.
Qed.
Lemma times_0 : forall k, times k (Fin 0) = Fin 0.
Proof. intro k. unfold times. cbn [ef_mul]. f_equal. ring. Qed.

(** ** Related values and vectors *)
Definition sc (k : R) (a a' : ef) : Prop := a' = times k a.
Definition vsc (k : R) (l l' : list ef) : Prop := l' = map (times k) l.
Lemma sc_as : forall i j a a', sc j a a' -> j = i -> sc i a a'.
Proof. intros i j a a' H <-. exact H. Qed.
Lemma sc_same : forall a, sc 1 a a.
Proof. intro a. unfold sc. rewrite times_1. reflexivity. Qed.
Lemma sc_zero : forall k, sc k (Fin 0) (Fin 0).
Proof. intro k. unfold sc. rewrite times_0. reflexivity. Qed.
Lemma sc_add : forall k a a' b b', k <> 0 -> sc k a a' -> sc k b b' -> sc k (nadd a b) (nadd a' b').
Proof. intros k a a' b b' Hk -> ->. unfold sc. cbn [nadd Num_ef]. rewrite times_add by assumption. reflexivity. Qed.
Lemma sc_sub : forall k a a' b b', k <> 0 -> sc k a a' -> sc k b b' -> sc k (nsub a b) (nsub a' b').
Proof. intros k a a' b b' Hk -> ->. unfold sc. cbn [nsub Num_ef]. rewrite times_sub by assumption. reflexivity. Qed.
Lemma sc_neg : forall k a a', k <> 0 -> sc k a a' -> sc k (nneg a) (nneg a').
Proof. intros k a a' Hk ->. unfold sc. cbn [nneg Num_ef]. rewrite times_neg by assumption. reflexivity. Qed.
Lemma sc_mul : forall k l a a' b b', k <> 0 -> l <> 0 -> sc k a a' -> sc l b b' -> sc (k * l) (nmul a b) (nmul a' b').
Proof. intros k l a a' b b' Hk Hl -> ->. unfold sc. cbn [nmul Num_ef]. rewrite times_mul by assumption. reflexivity. Qed.
Lemma sc_mul_l : forall k a a' b, k <> 0 -> sc k a a' -> sc k (nmul a b) (nmul a' b).
Proof. intros k a a' b Hk ->. unfold sc. cbn [nmul Num_ef]. rewrite times_mul_l by assumption. reflexivity. Qed.
Lemma sc_mul_r : forall k a a' b, k <> 0 -> sc k a a' -> sc k (nmul b a) (nmul b a').
Proof. intros k a a' b Hk H. cbn [nmul Num_ef]. rewrite (ef_mul_comm2 b a), (ef_mul_comm2 b a'). exact (sc_mul_l k a a' b Hk H). Qed.
Lemma sc_div : forall k l a a' b b', k <> 0 -> 0 < l -> sc k a a' -> sc l b b' -> sc (k / l) (ndiv a b) (ndiv a' b').
Proof.
  intros k l a a' b b' Hk Hl -> ->. unfold sc. cbn [ndiv Num_ef]. assert (0 < 1 / l) by (apply Rdiv_lt_0_compat; lra).
  rewrite div_times, <- times_div_l, times_comp by (assumption || lra). f_equal. field. lra.
Qed.
Lemma sc_div_l : forall k a a' b, k <> 0 -> sc k a a' -> sc k (ndiv a b) (ndiv a' b).
Proof. intros k a a' b Hk ->. unfold sc. cbn [ndiv Num_ef]. rewrite times_div_l by assumption. reflexivity. Qed.
Lemma sc_sq : forall k a a', k <> 0 -> sc k a a' -> sc (k * k) (nsq a) (nsq a').
Proof. intros k a a' Hk H. unfold nsq. apply sc_mul; assumption. Qed.
Lemma sc_pow4 : forall k a a', k <> 0 -> sc k a a' -> sc (k * k * (k * k)) (npow4 a) (npow4 a').
Proof. intros k a a' Hk H. unfold npow4. apply sc_mul; try (apply Rmult_ne; assumption); apply sc_sq; assumption. Qed.

Lemma vsc_vat : forall k l l' i, vsc k l l' -> sc k (vat l i) (vat l' i).
Proof.
  intros k l l' i ->. unfold sc, vat. cbn [nnan Num_ef]. replace NaN with (times k NaN) at 1 by (unfold times; reflexivity). apply map_nth.
Qed.
Lemma vsc_as : forall i j a a', vsc j a a' -> j = i -> vsc i a a'.
Proof. intros i j a a' H <-. exact H. Qed.
Lemma vsc_map : forall k l f g (u u' : list ef), vsc k u u' -> (forall a a', sc k a a' -> sc l (f a) (g a')) -> vsc l (map f u) (map g u').
Proof. intros k l f g u u' -> H. unfold vsc. rewrite !map_map. apply map_ext. intro a. exact (H a _ eq_refl). Qed.
Lemma combine_map2 : forall A B C D (f : A -> C) (g : B -> D) u v, combine (map f u) (map g v) = map (fun p => (f (fst p), g (snd p))) (combine u v).
Proof. intros A B C D f g. induction u as [|a u IH]; intros [|b v]; cbn; try reflexivity. f_equal. apply IH. Qed.
Lemma vsc_vmap2 : forall k l j f (u u' v v' : list ef), vsc k u u' -> vsc l v v' ->
  (forall a a' b b', sc k a a' -> sc l b b' -> sc j (f a b) (f a' b')) -> vsc j (vmap2 f u v) (vmap2 f u' v').
Proof.
  intros k l j f u u' v v' -> -> H. unfold vsc, vmap2. rewrite combine_map2, !map_map. apply map_ext. intros [a b]. exact (H a _ b _ eq_refl eq_refl).
Qed.
Lemma vsc_zeros : forall k n, vsc k (zeros n) (zeros n).
Proof. intros k n. unfold vsc, zeros. induction n as [|n IH]; [reflexivity|]. cbn [repeat map]. rewrite <- IH. f_equal. symmetry. apply times_0. Qed.
Lemma fold_sc : forall k (l : list ef) a a', k <> 0 -> sc k a a' -> sc k (fold_left nadd l a) (fold_left nadd (map (times k) l) a').
Proof. intros k. induction l as [|x l IH]; intros a a' Hk H; [exact H|]. cbn [map fold_left]. apply IH; [assumption|]. apply sc_add; [assumption|exact H|reflexivity]. Qed.
Lemma sum_sc : forall k l l', k <> 0 -> vsc k l l' -> sc k (np_sum l) (np_sum l').
Proof. intros k l l' Hk ->. unfold np_sum. apply fold_sc; [assumption|apply sc_zero]. Qed.
Lemma notnan_sc : forall k l l', k <> 0 -> vsc k l l' -> vsc k (notnan l) (notnan l').
Proof.
  intros k l l' Hk ->. unfold vsc, notnan. induction l as [|a l IH]; [reflexivity|]. cbn [map filter]. cbn [nisnan Num_ef] in *. rewrite times_isnan by assumption.
  destruct (ef_isnan a); cbn [negb map]; [exact IH|]. f_equal. exact IH.
Qed.
Lemma vsc_len : forall k l l', vsc k l l' -> length l' = length l.
Proof. intros k l l' ->. apply map_length. Qed.
Lemma nansum_sc : forall k l l', k <> 0 -> vsc k l l' -> sc k (np_nansum l) (np_nansum l').
Proof. intros k l l' Hk H. unfold np_nansum. apply sum_sc; [assumption|]. apply notnan_sc; assumption. Qed.
Lemma cnt_sc : forall k l l', k <> 0 -> vsc k l l' -> np_cnt l' = np_cnt l.
Proof. intros k l l' Hk H. unfold np_cnt. apply (vsc_len k). apply notnan_sc; assumption. Qed.
Lemma mean_sc : forall k l l', k <> 0 -> vsc k l l' -> sc k (np_mean l) (np_mean l').
Proof. intros k l l' Hk H. unfold np_mean. rewrite (vsc_len _ _ _ H). apply sc_div_l; [assumption|]. apply sum_sc; assumption. Qed.
Lemma nanmean_sc : forall k l l', k <> 0 -> vsc k l l' -> sc k (np_nanmean l) (np_nanmean l').
Proof. intros k l l' Hk H. unfold np_nanmean. rewrite (cnt_sc _ _ _ Hk H). apply sc_div_l; [assumption|]. apply nansum_sc; assumption. Qed.
Lemma sq_abs : forall k, k * k = Rabs k * Rabs k.
Proof. intro k. change (k * k) with (Rsqr k). rewrite Rsqr_abs. reflexivity. Qed.
Lemma abs_pos : forall k, k <> 0 -> 0 < Rabs k.
Proof. intros k Hk. apply Rabs_pos_lt. exact Hk. Qed.
Lemma sqrt_sc : forall l a a', 0 < l -> sc (l * l) a a' -> sc l (nsqrt a) (nsqrt a').
Proof. intros l a a' Hl ->. unfold sc. cbn [nsqrt Num_ef]. apply times_sqrt. exact Hl. Qed.
Lemma nanstd_sc : forall d k l l', k <> 0 -> vsc k l l' -> sc (Rabs k) (np_nanstd d l) (np_nanstd d l').
Proof.
  intros d k l l' Hk H. assert (L := abs_pos k Hk). assert (N := notnan_sc k l l' Hk H). unfold np_nanstd. cbv zeta. rewrite (vsc_len _ _ _ N).
  destruct (Nat.leb (length (notnan l)) d); [unfold sc; rewrite times_pos by exact L; reflexivity|].
  apply sqrt_sc; [exact L|]. rewrite <- sq_abs. apply sc_div_l; [apply Rmult_ne; assumption|]. apply sum_sc; [apply Rmult_ne; assumption|].
  apply (vsc_map k); [exact N|]. intros a a' A. apply sc_sq; [assumption|]. apply sc_sub; [assumption|exact A|]. apply sc_div_l; [assumption|].
  apply sum_sc; assumption.
Qed.
Lemma existsb_vsc : forall k (l l' : list ef), k <> 0 -> vsc k l l' -> existsb (fun x => nisnan x || nisinf x)%bool l' = existsb (fun x => nisnan x || nisinf x)%bool l.
Proof.
  intros k l l' Hk ->. induction l as [|a l IH]; [reflexivity|]. cbn [map existsb]. rewrite IH. cbn [nisnan nisinf Num_ef].
  rewrite times_isnan, times_isinf by assumption. reflexivity.
Qed.
Lemma norm_sc : forall k l l', k <> 0 -> vsc k l l' ->
  match sp_norm l, sp_norm l' with Ok d, Ok d' => sc (Rabs k) d d' | Err e, Err e' => e = e' | _, _ => False end.
Proof.
  intros k l l' Hk H. unfold sp_norm. rewrite (existsb_vsc k l l' Hk H). destruct (existsb _ l); [reflexivity|].
  apply sqrt_sc; [apply abs_pos; exact Hk|]. rewrite <- sq_abs. apply sum_sc; [apply Rmult_ne; assumption|].
  apply (vsc_map k); [exact H|]. intros a a' A. apply sc_sq; assumption.
Qed.

(** ** Arrays *)
Definition asc (k : R) (y y' : arr3 ef) : Prop :=
  dE y' = dE y /\ dS y' = dS y /\ dR y' = dR y /\ forall e s r, inside y e s r -> sc k (at3 y e s r) (at3 y' e s r).
Lemma asc_map3 : forall k l f g y y', asc k y y' -> (forall e s r a a', sc k a a' -> sc l (f e s r a) (g e s r a')) -> asc l (map3 f y) (map3 g y').
Proof. intros k l f g y y' (DE & DS & DR & H) K. repeat split; try assumption. intros e s r I. cbn [map3 at3]. apply K, H, I. Qed.
Lemma stack_in : forall n m i, (i < m * n)%nat -> (i mod n < n)%nat /\ (i / n < m)%nat.
Proof.
  intros n m i H. destruct n as [|n]; [lia|]. split; [apply Nat.mod_upper_bound; lia|]. apply Nat.div_lt_upper_bound; [lia|]. lia.
Qed.
Lemma along0_sc : forall k l f y y', asc k y y' -> (forall u u', vsc k u u' -> sc l (f u) (f u')) -> vsc l (along0 f (stack0 y)) (along0 f (stack0 y')).
Proof.
  intros k l f y y' (DE & DS & DR & H) K. unfold vsc, along0. cbn [stack0 n1]. rewrite DS, map_map. apply map_ext_in. intros s Hs. apply in_seq in Hs.
  apply K. unfold vsc, col. cbn [stack0 n0 at2]. rewrite DE, DR, map_map. apply map_ext_in. intros i Hi. apply in_seq in Hi.
  destruct (stack_in (dE y) (dR y) i) as [A B]; [lia|]. apply H. unfold inside. lia.
Qed.
Lemma along1_sc : forall k l f y y', asc k y y' -> (forall u u', vsc k u u' -> sc l (f u) (f u')) -> vsc l (along1 f (stack1 y)) (along1 f (stack1 y')).
Proof.
  intros k l f y y' (DE & DS & DR & H) K. unfold vsc, along1. cbn [stack1 n0]. rewrite DE, map_map. apply map_ext_in. intros e He. apply in_seq in He.
  apply K. unfold vsc, row. cbn [stack1 n1 at2]. rewrite DS, DR, map_map. apply map_ext_in. intros i Hi. apply in_seq in Hi.
  destruct (stack_in (dS y) (dR y) i) as [A B]; [lia|]. apply H. unfold inside. lia.
Qed.
Lemma sum_e_sc : forall k y y', k <> 0 -> asc k y y' -> vsc k (sum_e y) (sum_e y').
Proof. intros k y y' Hk H. unfold sum_e. apply (along0_sc k); [exact H|]. intros. apply nansum_sc; assumption. Qed.
Lemma sum_s_sc : forall k y y', k <> 0 -> asc k y y' -> vsc k (sum_s y) (sum_s y').
Proof. intros k y y' Hk H. unfold sum_s. apply (along1_sc k); [exact H|]. intros. apply nansum_sc; assumption. Qed.
Lemma sum_cid_sc : forall k l l' cids C, k <> 0 -> vsc k l l' -> vsc k (sum_over_cid l cids C) (sum_over_cid l' cids C).
Proof.
  intros k l l' cids C Hk ->. unfold vsc, sum_over_cid. rewrite map_map. apply map_ext. intro c. apply sum_sc; [assumption|]. unfold vsc.
  rewrite map_map. rewrite <- (map_id cids) at 1. rewrite combine_map2. generalize (combine cids l). intro z.
  induction z as [|[a b] z IH]; [reflexivity|]. cbn [map filter fst snd]. destruct (Nat.eqb a c); cbn [map snd]; [f_equal; exact IH|exact IH].
Qed.
