(** Proofs for claims C14-C16: the paired comparison tensor. *)
From Coq Require Import String.
From Coq Require Import List ZArith Bool Arith Reals Lia Lra Permutation Sorted.
From Verif Require Import PyBase Num ExtReal NumPy Dataset PcDataset BaseProofs ExtRealProofs SpecDataset SpecMos SpecConv SpecPc DatasetProofs StepsProofs ConvProofs PcProofs Pc2Proofs Pc3Proofs Pc4Proofs Pc5Proofs.
Import ListNotations.
Local Open Scope list_scope.

Lemma enumerate_In : forall A (l : list A) i x, In (i, x) (enumerate l) <-> nth_error l i = Some x.
Proof.
  intros A l i x. split.
  - intros H. apply In_nth_error in H. destruct H as [k Hk]. rewrite enumerate_nth in Hk. destruct (nth_error l k) as [y|] eqn:E; [|discriminate]. cbn in Hk. injection Hk as <- <-. exact E.
  - intros H. apply (nth_error_In _ i). rewrite enumerate_nth, H. reflexivity.
Qed.

Section Tensor.
  Context {T : Type} {N : Num T}.
  Notation dv_t := (dvideo T (string * Z)).

  Lemma str_index_nth : forall n l k, str_index n l = Some k -> nth_error l k = Some n.
  Proof.
    intros n l; induction l as [|x l IH]; intros k H; cbn [str_index] in H; [discriminate|].
    destruct (String.eqb n x) eqn:E; [apply String.eqb_eq in E; injection H as <-; subst; reflexivity|].
    destruct (str_index n l) as [j|]; [|discriminate]. injection H as <-. cbn. apply IH. reflexivity.
  Qed.
  Lemma str_index_In : forall n l, In n l -> exists k, str_index n l = Some k.
  Proof.
    intros n l; induction l as [|x l IH]; intros H; [contradiction|]. cbn [str_index]. destruct (String.eqb n x) eqn:E; [eexists; reflexivity|].
    destruct H as [->|H]; [rewrite String.eqb_refl in E; discriminate|]. destruct (IH H) as [k ->]. eexists; reflexivity.
  Qed.

  Lemma pc_list_observers_spec : forall (dvs : list dv_t) names, pc_list_observers dvs = Ok names ->
    pc_observers dvs names /\ forall dv, In dv dvs -> exists d, dv_os dv = Some (ODict d).
  Proof.
    intros dvs names H. unfold pc_list_observers in H. match type of H with bind (mapM ?f _) _ = _ => set (g := f) in * end.
    destruct (mapM g dvs) as [ds|] eqn:E; cbn [bind] in H; [|discriminate]. apply Ok_inj in H. subst names. apply mapM_Ok in E.
    assert (Gd : forall dv ks, g dv = Ok ks -> exists d, dv_os dv = Some (ODict d) /\ ks = dkeys d).
    { intros dv ks Hg. unfold g, get_os in Hg. destruct (dv_os dv) as [[| |]|]; cbn in Hg; try discriminate. eexists; split; [reflexivity|congruence]. }
    split; [split|].
    - assert (Hs := usl_Sorted String.eqb str_leb str_leb_total str_leb_trans (flat_map (map fst) ds)).
      assert (Hn := usl_NoDup String.eqb str_leb string_eqb_spec (flat_map (map fst) ds)).
      revert Hs Hn. generalize (get_unique_sorted_list String.eqb str_leb (flat_map (map fst) ds)) as l.
      induction l as [|a l IH]; intros Hs Hn; constructor.
      + inversion Hs; inversion Hn; subst. apply IH; assumption.
      + inversion Hs; inversion Hn; subst. rewrite Forall_forall in *. intros x Hx. split; [auto|]. intros ->. contradiction.
    - intro n. rewrite (usl_In String.eqb str_leb string_eqb_spec). rewrite in_flat_map. split.
      + intros (ks & Hk & Hn). apply in_map_iff in Hn. destruct Hn as ([n' b] & En & Hn). cbn in En. subst n'.
        destruct (Forall2_In_r _ _ _ _ _ _ E Hk) as (dv & Hin & Hg). destruct (Gd _ _ Hg) as (d & Eo & ->). unfold dkeys in Hn. apply in_map_iff in Hn. destruct Hn as ([k v] & Ek & Hv).
        cbn in Ek. subst k. exists dv, d, b, v. auto.
      + intros (dv & d & b & v & Hin & Eo & Hv). destruct (Forall2_In_l _ _ _ _ _ _ E Hin) as (ks & Hk & Hg). destruct (Gd _ _ Hg) as (d' & Eo' & ->). assert (d' = d) by congruence. subst d'.
        exists (dkeys d). split; [exact Hk|]. unfold dkeys. rewrite map_map. apply in_map_iff. exists ((n, b), v). auto.
    - intros dv Hin. destruct (Forall2_In_l _ _ _ _ _ _ E Hin) as (ks & Hk & Hg). destruct (Gd _ _ Hg) as (d & Eo & _). eauto.
  Qed.

  (** A write: row, column, subject, value. *)
  Definition wr := (nat * nat * nat * T)%type.
  Definition apply1 (f : nat -> nat -> nat -> T) (w : wr) := let '(i, j, s, x) := w in set3 (set3 f i j s x) j i s (none_ - x)%num.
  Definition sets (w : wr) (i j s : nat) : option T :=
    let '(a, b, t, x) := w in
    if Nat.eqb b i && Nat.eqb a j && Nat.eqb t s then Some (none_ - x)%num
    else if Nat.eqb a i && Nat.eqb b j && Nat.eqb t s then Some x else None.
  Definition later (i j s : nat) (acc : T) (w : wr) := match sets w i j s with Some v => v | None => acc end.

  Lemma apply_all : forall W f i j s, fold_left apply1 W f i j s = fold_left (later i j s) W (f i j s).
  Proof.
    intros W; induction W as [|[[[a b] t] x] W IH]; intros f i j s; [reflexivity|]. cbn [fold_left]. rewrite IH. f_equal.
    unfold later, apply1, sets, set3. destruct (Nat.eqb b i && Nat.eqb a j && Nat.eqb t s); [reflexivity|]. destruct (Nat.eqb a i && Nat.eqb b j && Nat.eqb t s); reflexivity.
  Qed.
  Lemma later_cases : forall i j s W acc, (fold_left (later i j s) W acc = acc /\ forall w, In w W -> sets w i j s = None) \/
    exists w, In w W /\ sets w i j s = Some (fold_left (later i j s) W acc).
  Proof.
    intros i j s W; induction W as [|w W IH]; intros acc; [left; split; [reflexivity|intros ? []]|]. cbn [fold_left].
    destruct (IH (later i j s acc w)) as [[E H]|(w' & Hin & E)].
    - rewrite E. unfold later. destruct (sets w i j s) as [v|] eqn:Ew.
      + right. exists w. split; [left; reflexivity|exact Ew].
      + left. split; [reflexivity|]. intros w' [<-|Hin]; auto.
    - right. exists w'. split; [right; exact Hin|exact E].
  Qed.

  Definition okval (x : T) : bool := ((x =? nzero) || (x =? ndec 1 2) || (x =? none_))%num.
  (** The write of an entry. *)
  Definition entry_write (obs : list string) (nv i : nat) (kv : (string * Z) * pyv T) (w : wr) : Prop :=
    exists n b x j s, kv = ((n, b), PNum x) /\ okval x = true /\ py_norm_index nv b = Some j /\ str_index n obs = Some s /\ w = (i, j, s, x).

  Lemma pc_write_spec : forall obs nv i f kv f', pc_write obs nv i f kv = Ok f' -> exists w, entry_write obs nv i kv w /\ f' = apply1 f w.
  Proof.
    intros obs nv i f [[n b] v] f' H. unfold pc_write in H. cbn [fst snd] in H. destruct v as [x| |]; cbn [pc_value bind] in H; try discriminate.
    destruct ((x =? nzero) || (x =? ndec 1 2) || (x =? none_))%num eqn:E; cbn [bind] in H; [|discriminate].
    destruct (py_norm_index nv b) as [j|] eqn:E1; [|discriminate]. destruct (str_index n obs) as [s|] eqn:E2; [|discriminate]. apply Ok_inj in H.
    exists (i, j, s, x). split; [exists n, b, x, j, s; auto|symmetry; exact H].
  Qed.
  Lemma pc_write_total : forall obs nv i f kv w, entry_write obs nv i kv w -> pc_write obs nv i f kv = Ok (apply1 f w).
  Proof.
    intros obs nv i f kv w (n & b & x & j & s & -> & E & E1 & E2 & ->). unfold pc_write. cbn [fst snd pc_value]. unfold okval in E. rewrite E. cbn [bind]. rewrite E1, E2. reflexivity.
  Qed.

  Lemma inner_writes : forall obs nv i d f f', foldM (pc_write obs nv i) d f = Ok f' -> exists W, Forall2 (entry_write obs nv i) d W /\ f' = fold_left apply1 W f.
  Proof.
    intros obs nv i d; induction d as [|kv d IH]; intros f f' H; cbn [foldM] in H.
    - apply Ok_inj in H. exists []. split; [constructor|symmetry; exact H].
    - destruct (pc_write obs nv i f kv) as [f1|] eqn:E; cbn [bind] in H; [|discriminate]. destruct (pc_write_spec _ _ _ _ _ _ E) as (w & Hw & ->).
      destruct (IH _ _ H) as (W & HW & ->). exists (w :: W). split; [constructor; assumption|reflexivity].
  Qed.
  Lemma inner_total : forall obs nv i d f, (forall kv, In kv d -> exists w, entry_write obs nv i kv w) -> exists f', foldM (pc_write obs nv i) d f = Ok f'.
  Proof.
    intros obs nv i d; induction d as [|kv d IH]; intros f H; cbn [foldM]; [eexists; reflexivity|].
    destruct (H kv (or_introl eq_refl)) as [w Hw]. rewrite (pc_write_total _ _ _ _ _ _ Hw). cbn [bind]. apply IH. intros; apply H; right; assumption.
  Qed.

  Definition video_writes (obs : list string) (nv : nat) (iv : nat * dv_t) (W : list wr) : Prop :=
    exists d, dv_os (snd iv) = Some (ODict d) /\ Forall2 (entry_write obs nv (fst iv)) d W.
  Definition step obs nv (f : nat -> nat -> nat -> T) (iv : nat * dv_t) : res (nat -> nat -> nat -> T) :=
    do o <- get_os (snd iv); match o with ODict d => foldM (pc_write obs nv (fst iv)) d f | _ => Err AttributeError end.
  Lemma outer_writes : forall obs nv l f f', foldM (step obs nv) l f = Ok f' ->
    exists Ws, Forall2 (video_writes obs nv) l Ws /\ f' = fold_left apply1 (concat Ws) f.
  Proof.
    intros obs nv l; induction l as [|iv l IH]; intros f f' H; cbn [foldM] in H.
    - apply Ok_inj in H. exists []. split; [constructor|symmetry; exact H].
    - destruct (step obs nv f iv) as [f1|] eqn:E; cbn [bind] in H; [|discriminate]. destruct (IH _ _ H) as (Ws & HW & ->).
      unfold step, get_os in E. destruct (dv_os (snd iv)) as [[| d |]|] eqn:Eo; cbn [bind] in E; try discriminate.
      destruct (inner_writes _ _ _ _ _ _ E) as (W & HW' & ->). exists (W :: Ws). split; [constructor; [exists d; auto|exact HW]|]. cbn [concat]. rewrite fold_left_app. reflexivity.
  Qed.
  Lemma outer_total : forall obs nv l f, (forall iv, In iv l -> exists d, dv_os (snd iv) = Some (ODict d) /\ forall kv, In kv d -> exists w, entry_write obs nv (fst iv) kv w) ->
    exists f', foldM (step obs nv) l f = Ok f'.
  Proof.
    intros obs nv l; induction l as [|iv l IH]; intros f H; cbn [foldM]; [eexists; reflexivity|].
    destruct (H iv (or_introl eq_refl)) as (d & Eo & Hd). unfold step at 1, get_os. rewrite Eo. cbn [bind]. destruct (inner_total obs nv (fst iv) d f Hd) as [f1 ->]. cbn [bind]. apply IH. intros; apply H; right; assumption.
  Qed.

  (** All writes made for the dataset. *)
  Lemma tensor_writes : forall (dvs : list dv_t) a, pc_opinion_3darray dvs = Ok a ->
    exists names W, pc_observers dvs names /\ a = Arr3 (length dvs) (length dvs) (length names) (fold_left apply1 W (fun _ _ _ => nnan)) /\
      (forall dv, In dv dvs -> exists d, dv_os dv = Some (ODict d)) /\
      (forall i j s x, In (i, j, s, x) W <-> exists dv d n b, nth_error dvs i = Some dv /\ dv_os dv = Some (ODict d) /\ In ((n, b), PNum x) d /\
          okval x = true /\ py_norm_index (length dvs) b = Some j /\ nth_error names s = Some n) /\
      (forall dv d n b v, In dv dvs -> dv_os dv = Some (ODict d) -> In ((n, b), v) d ->
          exists x j s, v = PNum x /\ okval x = true /\ py_norm_index (length dvs) b = Some j /\ nth_error names s = Some n).
  Proof.
    intros dvs a H. unfold pc_opinion_3darray in H. destruct (pc_list_observers dvs) as [obs|] eqn:Eo; cbn [bind] in H; [|discriminate].
    change (fun f iv => do o <- get_os (snd iv); match o with ODict d => foldM (pc_write obs (length dvs) (fst iv)) d f | _ => Err AttributeError end) with (step obs (length dvs)) in H.
    destruct (foldM (step obs (length dvs)) (enumerate dvs) (fun _ _ _ => nnan)) as [f|] eqn:Ef; cbn [bind] in H; [|discriminate]. apply Ok_inj in H.
    destruct (pc_list_observers_spec _ _ Eo) as [Hob Hd]. destruct (outer_writes _ _ _ _ _ Ef) as (Ws & HW & ->). exists obs, (concat Ws).
    assert (NDo : NoDup obs) by (destruct Hob as [Hsrt _]; apply sorted_lt_le in Hsrt; apply Hsrt).
    split; [exact Hob|]. split; [symmetry; exact H|]. split; [exact Hd|]. split.
    - intros i j s x. rewrite in_concat. split.
      + intros (W & HWin & Hin). destruct (Forall2_In_r _ _ _ _ _ _ HW HWin) as ([k dv] & Hk & d & Eod & F). cbn [fst snd] in *.
        destruct (Forall2_In_r _ _ _ _ _ _ F Hin) as (kv & Hkv & n & b & x' & j' & s' & -> & Ev & E1 & E2 & E3).
        apply enumerate_In in Hk. injection E3 as <- <- <- <-. exists dv, d, n, b. repeat split; try assumption.
        apply str_index_nth, E2.
      + intros (dv & d & n & b & Hi & Eod & Hin & Ev & E1 & E2).
        assert (Hk : In (i, dv) (enumerate dvs)). { apply enumerate_In. exact Hi. }
        destruct (Forall2_In_l _ _ _ _ _ _ HW Hk) as (W & HWin & d' & Eod' & F). cbn [fst snd] in *. assert (d' = d) by congruence. subst d'.
        destruct (Forall2_In_l _ _ _ _ _ _ F Hin) as (w & Hw & n' & b' & x' & j' & s' & E3 & Ev' & E1' & E2' & ->). assert (n' = n /\ b' = b /\ x' = x) by (repeat split; congruence).
        destruct H0 as (-> & -> & ->). exists W. split; [exact HWin|]. apply str_index_nth in E2'. assert (s' = s).
        { apply (proj1 (NoDup_nth_error _) NDo); [apply nth_error_Some; congruence|congruence]. }
        assert (j' = j) by congruence. subst. exact Hw.
    - intros dv d n b v Hin Eod Hv. apply In_nth_error in Hin. destruct Hin as [i Hi].
      assert (Hk : In (i, dv) (enumerate dvs)). { apply enumerate_In. exact Hi. }
      destruct (Forall2_In_l _ _ _ _ _ _ HW Hk) as (W & HWin & d' & Eod' & F). cbn [fst snd] in *. assert (d' = d) by congruence. subst d'.
      destruct (Forall2_In_l _ _ _ _ _ _ F Hv) as (w & Hw & n' & b' & x' & j' & s' & E3 & Ev' & E1' & E2' & ->). exists x', j', s'.
      assert (n' = n /\ b' = b /\ v = PNum x') by (repeat split; congruence). destruct H0 as (-> & -> & ->). repeat split; try assumption. apply str_index_nth, E2'.
  Qed.
End Tensor.

Lemma okval_ef : forall x : ef, okval x = true <-> exists r, x = Fin r /\ pc_val r.
Proof.
  intros x. unfold okval. change (none_ : ef) with (Fin 1). change (nzero : ef) with (Fin 0). rewrite ndec_ef by lia. unfold pc_val.
  change (neqb x (Fin 0)) with (ef_eqb x (Fin 0)). change (neqb x (Fin 1)) with (ef_eqb x (Fin 1)). change (neqb x (Fin (1/2))) with (ef_eqb x (Fin (1/2))).
  destruct x as [r| | |]; cbn [ef_eqb]; try (split; [discriminate|intros (y & E & _); discriminate]).
  rewrite !orb_true_iff. split.
  - intros H. exists r. split; [reflexivity|]. destruct H as [[H|H]|H]; apply Reqbb_true in H; auto.
  - intros (y & E & H). injection E as <-. destruct H as [H|[H|H]]; rewrite <- Reqbb_true in H; auto.
Qed.
Lemma pc_val_1m : forall x, pc_val x -> pc_val (1 - x).
Proof. intros x [->|[->| ->]]; unfold pc_val; [right; right|right; left|left]; lra. Qed.

(** ** C14 *)
Definition tri (f : nat -> nat -> nat -> ef) : Prop :=
  (forall i j s, f i j s = NaN \/ exists x, f i j s = Fin x /\ pc_val x) /\
  (forall i j s x, i <> j -> f i j s = Fin x -> f j i s = Fin (1 - x)).
Lemma tri_apply : forall f (w : wr), (let '(_, _, _, x) := w in okval x = true) -> tri f -> tri (apply1 f w).
Proof.
  intros f [[[a b] t] x] Hx [V A]. apply okval_ef in Hx. destruct Hx as (r & -> & Hr). unfold apply1. change (none_ - Fin r)%num with (Fin (1 - r)).
  split.
  - intros i j s. unfold set3. destruct (_ && _ && _); [right; eexists; split; [reflexivity|apply pc_val_1m, Hr]|]. destruct (_ && _ && _); [right; eexists; split; [reflexivity|exact Hr]|]. apply V.
  - intros i j s y Hij. unfold set3.
    destruct (Nat.eqb b i && Nat.eqb a j && Nat.eqb t s) eqn:E1.
    + apply andb_prop in E1. destruct E1 as [E1 E3]. apply andb_prop in E1. destruct E1 as [E1 E2]. apply Nat.eqb_eq in E1, E2, E3. subst.
      intros E. assert (y = (1 - r)%R) by congruence. subst y. rewrite !Nat.eqb_refl. cbn [andb].
      destruct (Nat.eqb i j) eqn:Eij; [apply Nat.eqb_eq in Eij; contradiction|]. cbn [andb]. rewrite Nat.eqb_sym, Eij || idtac. cbn [andb]. f_equal. lra.
    + destruct (Nat.eqb a i && Nat.eqb b j && Nat.eqb t s) eqn:E2.
      * apply andb_prop in E2. destruct E2 as [E2 E3]. apply andb_prop in E2. destruct E2 as [E2 E4]. apply Nat.eqb_eq in E2, E3, E4. subst.
        intros E. assert (y = r) by congruence. subst y. rewrite !Nat.eqb_refl. reflexivity.
      * intros E. assert (E1' : Nat.eqb b j && Nat.eqb a i && Nat.eqb t s = false) by (rewrite <- E2; f_equal; apply andb_comm).
        assert (E2' : Nat.eqb a j && Nat.eqb b i && Nat.eqb t s = false) by (rewrite <- E1; f_equal; apply andb_comm).
        rewrite E1', E2'. apply A; assumption.
Qed.
Lemma tri_all : forall W f, (forall i j s x, In (i, j, s, x) W -> okval x = true) -> tri f -> tri (fold_left apply1 W f).
Proof.
  intros W; induction W as [|w W IH]; intros f H Hf; [exact Hf|]. cbn [fold_left]. apply IH; [intros; eapply H; right; eassumption|].
  apply tri_apply; [|exact Hf]. destruct w as [[[i j] s] x]. eapply H. left. reflexivity.
Qed.
Lemma tri_init : tri (fun _ _ _ => NaN).
Proof. split; [left; reflexivity|discriminate]. Qed.

Lemma reader_tensor : forall T (N : Num T) (ds : dataset T (string * Z)) a, pc_reader_3darray ds = Ok a -> pc_assert_dataset ds = Ok tt /\ pc_opinion_3darray (ds_dis ds) = Ok a.
Proof. intros T N ds a H. unfold pc_reader_3darray in H. destruct (pc_assert_dataset ds) as [[]|] eqn:E; cbn [bind] in H; [auto|discriminate]. Qed.

Lemma c14 : forall (ds : dataset ef (string * Z)) a, pc_reader_3darray ds = Ok a ->
  dE a = length (ds_dis ds) /\ dS a = length (ds_dis ds) /\ (exists names, pc_observers (ds_dis ds) names /\ dR a = length names) /\
  (forall i j s, at3 a i j s = NaN \/ exists x, at3 a i j s = Fin x /\ pc_val x) /\
  (forall i j s x, i <> j -> at3 a i j s = Fin x -> at3 a j i s = Fin (1 - x)).
Proof.
  intros ds a H. apply reader_tensor in H. destruct H as [_ H]. destruct (tensor_writes _ _ H) as (names & W & Hob & -> & _ & HW & _). cbn [dE dS dR at3].
  split; [reflexivity|]. split; [reflexivity|]. split; [exists names; auto|].
  destruct (tri_all W (fun _ _ _ => NaN)) as [A B]; [intros i j s x Hin; apply HW in Hin; destruct Hin as (? & ? & ? & ? & _ & _ & _ & E & _); exact E|apply tri_init|].
  split; [exact A|exact B].
Qed.

Lemma tri_sum : forall (f g : nat -> ef) L, (forall s, In s L -> f s = NaN /\ g s = NaN \/ exists x, f s = Fin x /\ g s = Fin (1 - x)) ->
  (Rsum (presents (map f L)) + Rsum (presents (map g L)) = INR (length (filter (fun s => negb (ef_isnan (f s))) L)))%R.
Proof.
  intros f g L; induction L as [|s L IH]; intros H; [unfold Rsum; cbn [map presents fold_right filter length INR]; lra|]. assert (IH' := IH (fun s h => H s (or_intror h))). clear IH.
  destruct (H s (or_introl eq_refl)) as [[E1 E2]|(x & E1 & E2)]; cbn [map filter]; rewrite E1, E2; cbn [presents ef_isnan negb].
  - exact IH'.
  - cbn [Rsum fold_right length]. rewrite S_INR. unfold Rsum in *. cbn [fold_right]. lra.
Qed.
Lemma c14_count : forall (ds : dataset ef (string * Z)) a i j, pc_reader_3darray ds = Ok a -> i <> j ->
  exists p q L, np_nansum (map (at3 a i j) (seq 0 (dR a))) = Fin p /\ np_nansum (map (at3 a j i) (seq 0 (dR a))) = Fin q /\
    NoDup L /\ (forall s, In s L <-> s < dR a /\ at3 a i j s <> NaN) /\ (p + q = INR (length L))%R.
Proof.
  intros ds a i j H Hij. destruct (c14 ds a H) as (_ & _ & _ & V & A).
  assert (G : forall k l, allfinnan (map (at3 a k l) (seq 0 (dR a)))).
  { intros k l. apply Forall_forall. intros x Hx. apply in_map_iff in Hx. destruct Hx as (s & <- & _). destruct (V k l s) as [->|(r & -> & _)]; exact I. }
  exists (Rsum (presents (map (at3 a i j) (seq 0 (dR a))))), (Rsum (presents (map (at3 a j i) (seq 0 (dR a))))), (filter (fun s => negb (ef_isnan (at3 a i j s))) (seq 0 (dR a))).
  split; [apply np_nansum_finnan, G|]. split; [apply np_nansum_finnan, G|]. split; [apply NoDup_filter, seq_NoDup|]. split.
  - intros s. rewrite filter_In, in_seq. destruct (V i j s) as [E|(r & E & _)]; rewrite E; cbn; split; intros [? ?]; try discriminate; try contradiction; split; try discriminate; try reflexivity; lia.
  - apply tri_sum. intros s _. destruct (V i j s) as [E|(r & E & _)].
    + left. split; [exact E|]. destruct (V j i s) as [E'|(r' & E' & _)]; [exact E'|]. apply A in E'; [|congruence]. congruence.
    + right. exists r. split; [exact E|]. apply A; assumption.
Qed.

(** ** C15 *)
Lemma norm_index_nonneg : forall n b j, (0 <= b)%Z -> py_norm_index n b = Some j -> b = Z.of_nat j /\ j < n.
Proof.
  intros n b j Hb H. unfold py_norm_index in H. destruct ((0 <=? b)%Z && (b <? Z.of_nat n)%Z) eqn:E.
  - apply andb_prop in E. destruct E as [_ E]. apply Z.ltb_lt in E. injection H as <-. lia.
  - destruct ((- Z.of_nat n <=? b)%Z && (b <? 0)%Z) eqn:E2; [|discriminate]. apply andb_prop in E2. destruct E2 as [_ E2]. apply Z.ltb_lt in E2. lia.
Qed.
Lemma norm_index_of_nat : forall n j, j < n -> py_norm_index n (Z.of_nat j) = Some j.
Proof.
  intros n j H. unfold py_norm_index. replace ((0 <=? Z.of_nat j)%Z && (Z.of_nat j <? Z.of_nat n)%Z) with true; [rewrite Nat2Z.id; reflexivity|].
  symmetry. apply andb_true_intro. split; [apply Z.leb_le; lia|apply Z.ltb_lt; lia].
Qed.

Lemma c15 : forall (ds : dataset ef (string * Z)) a, pc_reader_3darray ds = Ok a -> ids_are_positions (ds_dis ds) -> consistent ds ->
  exists names, pc_observers (ds_dis ds) names /\ dE a = length (ds_dis ds) /\ dS a = length (ds_dis ds) /\ dR a = length names /\
    forall i j k name, i < length (ds_dis ds) -> j < length (ds_dis ds) -> nth_error names k = Some name ->
      (at3 a i j k = NaN \/ exists x, at3 a i j k = Fin x) /\
      forall x, at3 a i j k = Fin x <-> outcome ds (Z.of_nat i) name (Z.of_nat j) (Fin x) \/ outcome ds (Z.of_nat j) name (Z.of_nat i) (Fin (1 - x)).
Proof.
  intros ds a H Hid (Hc1 & Hc2 & Hc3). pose proof (c14 ds a H) as (_ & _ & _ & V & _). apply reader_tensor in H. destruct H as [_ H].
  destruct (tensor_writes _ _ H) as (names & W & Hob & Ea & Hdict & HW & HE). exists names. split; [exact Hob|]. rewrite Ea. cbn [dE dS dR]. repeat (split; [reflexivity|]).
  rewrite <- Ea. intros i j k name Hi Hj Hk. split; [destruct (V i j k) as [?|(x & E & _)]; eauto|].
  assert (NDo : NoDup names) by (destruct Hob as [Hsrt _]; apply sorted_lt_le in Hsrt; apply Hsrt).
  (* the writes are the outcomes *)
  assert (WO : forall p q t v, In (p, q, t, v) W -> exists n x, v = Fin x /\ nth_error names t = Some n /\ outcome ds (Z.of_nat p) n (Z.of_nat q) (Fin x)).
  { intros p q t v Hin. apply HW in Hin. destruct Hin as (dv & d & n & b & Hp & Eo & Hin & Ev & E1 & E2). apply okval_ef in Ev. destruct Ev as (x & -> & _).
    exists n, x. split; [reflexivity|]. split; [exact E2|]. pose proof (Hid _ _ Hp) as Eid. assert (O : outcome ds (Z.of_nat p) n b (Fin x)) by (exists dv, d; repeat split; try assumption; eapply nth_error_In, Hp).
    destruct (Hc1 _ _ _ _ O) as [_ Hb]. destruct (norm_index_nonneg _ _ _ Hb E1) as [-> _]. exact O. }
  assert (OW : forall p q n t x, outcome ds (Z.of_nat p) n (Z.of_nat q) (Fin x) -> nth_error names t = Some n -> q < length (ds_dis ds) -> In (p, q, t, Fin x) W).
  { intros p q n t x (dv & d & Hin & Eid & Eo & Hv) Ht Hq. apply HW. apply In_nth_error in Hin. destruct Hin as [p' Hp]. pose proof (Hid _ _ Hp) as E. assert (p' = p) by lia. subst p'.
    exists dv, d, n, (Z.of_nat q). destruct (HE dv d n (Z.of_nat q) _ (nth_error_In _ _ Hp) Eo Hv) as (x' & j' & s' & E' & Ev & _). assert (x' = Fin x) by congruence. subst x'.
    repeat split; try assumption. apply norm_index_of_nat, Hq. }
  assert (At : at3 a i j k = fold_left (later i j k) W NaN) by (rewrite Ea; cbn [at3]; rewrite apply_all; reflexivity). rewrite At. clear At.
  assert (Sets : forall w v, In w W -> sets w i j k = Some v -> exists x, v = Fin x /\ (outcome ds (Z.of_nat i) name (Z.of_nat j) (Fin x) \/ outcome ds (Z.of_nat j) name (Z.of_nat i) (Fin (1 - x)))).
  { intros [[[p q] t] u] v Hin E. destruct (WO _ _ _ _ Hin) as (n & x & -> & Hn & O). unfold sets in E.
    destruct (Nat.eqb q i && Nat.eqb p j && Nat.eqb t k) eqn:E1.
    - apply andb_prop in E1. destruct E1 as [E1 E3]. apply andb_prop in E1. destruct E1 as [E1 E2]. apply Nat.eqb_eq in E1, E2, E3. subst q p t.
      exists (1 - x)%R. split; [change (none_ - Fin x)%num with (Fin (1 - x)) in E; congruence|]. right. replace (1 - (1 - x))%R with x by lra. assert (n = name) by congruence. subst. exact O.
    - destruct (Nat.eqb p i && Nat.eqb q j && Nat.eqb t k) eqn:E2; [|discriminate]. apply andb_prop in E2. destruct E2 as [E2 E3]. apply andb_prop in E2. destruct E2 as [E2 E4]. apply Nat.eqb_eq in E2, E3, E4. subst q p t.
      exists x. split; [congruence|]. left. assert (n = name) by congruence. subst. exact O. }
  assert (Uniq : forall x y, (outcome ds (Z.of_nat i) name (Z.of_nat j) (Fin x) \/ outcome ds (Z.of_nat j) name (Z.of_nat i) (Fin (1 - x))) ->
      (outcome ds (Z.of_nat i) name (Z.of_nat j) (Fin y) \/ outcome ds (Z.of_nat j) name (Z.of_nat i) (Fin (1 - y))) -> x = y).
  { assert (F : forall p q x y, outcome ds p name q (Fin x) -> outcome ds p name q (Fin y) -> x = y) by (intros p q x y O1 O2; pose proof (Hc3 _ _ _ _ _ O1 O2); congruence).
    intros x y [O1|O1] [O2|O2].
    - eapply F; eassumption.
    - pose proof (Hc2 _ _ _ _ _ O1 O2). lra.
    - pose proof (Hc2 _ _ _ _ _ O2 O1). lra.
    - pose proof (F _ _ _ _ O1 O2). lra. }
  intros x. split.
  - intros E. destruct (later_cases i j k W NaN) as [[E0 _]|(w & Hin & Ew)]; [rewrite E0 in E; discriminate|]. rewrite E in Ew. destruct (Sets w _ Hin Ew) as (y & Ey & O). injection Ey as <-. exact O.
  - intros O. assert (Hw : exists w, In w W /\ sets w i j k <> None).
    { destruct O as [O|O].
      - exists (i, j, k, Fin x). split; [eapply OW; eassumption|]. unfold sets. destruct (_ && _ && _); [discriminate|]. rewrite !Nat.eqb_refl. discriminate.
      - exists (j, i, k, Fin (1 - x)). split; [eapply OW; eassumption|]. unfold sets. rewrite !Nat.eqb_refl. discriminate. }
    destruct Hw as (w & Hin & Hne). destruct (later_cases i j k W NaN) as [[_ E0]|(w' & Hin' & Ew')]; [rewrite (E0 w Hin) in Hne; contradiction|].
    destruct (Sets w' _ Hin' Ew') as (y & Ey & O'). rewrite Ey. f_equal. apply Uniq; assumption.
Qed.

(** ** C16 *)
Lemma reader_total : forall (pc : dataset ef (string * Z)), raw_dataset_ok pc -> ids_are_positions (ds_dis pc) ->
  (forall dv, In dv (ds_dis pc) -> exists d, dv_os dv = Some (ODict d) /\
     forall n b v, In ((n, b), v) d -> (0 <= b < Z.of_nat (length (ds_dis pc)))%Z /\ exists x, v = PNum (Fin x) /\ pc_val x) ->
  exists a, pc_reader_3darray pc = Ok a.
Proof.
  intros pc Hok Hid HE. unfold pc_reader_3darray.
  assert (EA : pc_assert_dataset pc = Ok tt).
  { unfold pc_assert_dataset. apply assert_dataset_raw_iff in Hok. destruct Hok as [[] ->]. cbn [bind]. apply forM_Ok. intros dv Hin.
    destruct (HE dv Hin) as (d & -> & _). apply In_nth_error in Hin. destruct Hin as [i Hi]. rewrite (Hid _ _ Hi). apply assert_Ok.
    assert (i < length (ds_dis pc)) by (apply nth_error_Some; congruence). apply andb_true_intro. split; [apply Z.leb_le; lia|apply Z.ltb_lt; lia]. }
  rewrite EA. cbn [bind]. unfold pc_opinion_3darray.
  assert (EO : exists names, pc_list_observers (ds_dis pc) = Ok names).
  { unfold pc_list_observers. destruct (mapM_total _ _ (fun dv : dvideo ef (string * Z) => do o <- get_os dv; match o with ODict d => Ok (dkeys d) | _ => Err AssertionError end) (ds_dis pc)) as [ks E].
    - intros dv Hin. destruct (HE dv Hin) as (d & Eo & _). exists (dkeys d). unfold get_os. rewrite Eo. reflexivity.
    - rewrite E. cbn [bind]. eexists. reflexivity. }
  destruct EO as [names EO]. rewrite EO. cbn [bind]. destruct (pc_list_observers_spec _ _ EO) as [[_ Hob] _].
  destruct (outer_total names (length (ds_dis pc)) (enumerate (ds_dis pc)) (fun _ _ _ => nnan)) as [f Ef].
  - intros [i dv] Hin. apply enumerate_In in Hin. cbn [fst snd]. destruct (HE dv (nth_error_In _ _ Hin)) as (d & Eo & Hd). exists d. split; [exact Eo|]. intros [[n b] v] Hv.
    destruct (Hd n b v Hv) as (Hb & x & -> & Hx). destruct (str_index_In n names) as [s Es]; [apply Hob; exists dv, d, b, (PNum (Fin x)); repeat split; try assumption; apply (nth_error_In _ _ Hin)|].
    exists (i, Z.to_nat b, s, Fin x). exists n, b, (Fin x), (Z.to_nat b), s. repeat split; try assumption.
    + apply okval_ef. eauto.
    + replace b with (Z.of_nat (Z.to_nat b)) at 1 by lia. apply norm_index_of_nat. lia.
  - change (fun f iv => do o <- get_os (snd iv); match o with ODict d => foldM (pc_write names (length (ds_dis pc)) (fst iv)) d f | _ => Err AttributeError end) with (@step ef _ names (length (ds_dis pc))).
    rewrite Ef. eexists. reflexivity.
Qed.

Lemma positions_NoDup : forall T K (dvs : list (dvideo T K)), ids_are_positions dvs -> NoDup (map dv_aid dvs).
Proof.
  intros T K dvs H. apply NoDup_nth_error. intros i j Hi E. rewrite map_length in Hi. rewrite !nth_error_map in E. destruct (nth_error dvs i) as [x|] eqn:Ei; [|apply nth_error_None in Ei; lia].
  destruct (nth_error dvs j) as [y|] eqn:Ej; [|discriminate]. cbn in E. pose proof (H _ _ Ei). pose proof (H _ _ Ej). assert (dv_aid x = dv_aid y) by congruence. lia.
Qed.
Lemma Forall2_nth2 : forall A B (P : A -> B -> Prop) l l', Forall2 P l l' -> forall i b, nth_error l' i = Some b -> exists a, nth_error l i = Some a /\ P a b.
Proof. intros A B P l l' F; induction F as [|a b l l' H F IH]; intros [|i] x E; try discriminate; [injection E as <-; exists a; auto|]. apply IH, E. Qed.
Lemma Forall2_length' : forall A B (P : A -> B -> Prop) l l', Forall2 P l l' -> length l' = length l.
Proof. intros A B P l l' F; induction F; simpl; congruence. Qed.

Lemma outcome_fun : forall (pc : dataset ef (string * Z)) dvs, Forall2 pc_video dvs (ds_dis pc) -> NoDup (map dv_aid (ds_dis pc)) ->
  forall a s b v w, outcome pc a s b v -> outcome pc a s b w -> v = w.
Proof.
  intros pc dvs F ND a s b v w (dv & d & Hin & Ea & Eo & Hv) (dv' & d' & Hin' & Ea' & Eo' & Hw).
  assert (dv' = dv).
  { apply In_nth_error in Hin. apply In_nth_error in Hin'. destruct Hin as [i Hi], Hin' as [j Hj]. assert (i = j); [|subst; congruence].
    apply (proj1 (NoDup_nth_error _) ND); [rewrite map_length; apply nth_error_Some; congruence|]. rewrite !nth_error_map, Hi, Hj. cbn. congruence. }
  subst dv'. assert (d' = d) by congruence. subst d'. apply In_nth_error in Hin. destruct Hin as [i Hi]. destruct (Forall2_nth2 _ _ _ _ _ F i dv Hi) as (src & _ & (_ & _ & _ & d2 & E2 & ND2 & _)).
  assert (d2 = d) by congruence. subst d2. pose proof (In_dget pckey_eqb pckey_spec d (s, b) (PNum v) ND2 Hv) as G1. pose proof (In_dget pckey_eqb pckey_spec d (s, b) (PNum w) ND2 Hw) as G2. congruence.
Qed.

Lemma c16 : forall fuel ds kw o g, raw_dataset_ok ds -> pc_source (ds_dis ds) -> finite_single (ds_dis ds) -> ids_are_positions (ds_dis ds) -> plain o -> known_type o ->
  (po_tie o = None \/ po_tie o = Some "even_split"%string) -> 2 <= fuel ->
  exists pc after a names, to_pc_dataset fuel ds kw o g = Ok (pc, after, 0) /\ pc_reader_3darray pc = Ok a /\
    dE a = length (ds_dis ds) /\ dS a = length (ds_dis ds) /\ dR a = length names /\
    StronglySorted str_lt names /\ (forall name, In name names <-> exists va vb, compared (ds_dis ds) (any_content o) name va vb) /\
    forall i j k va vb name, nth_error (ds_dis ds) i = Some va -> nth_error (ds_dis ds) j = Some vb -> nth_error names k = Some name ->
      (forall x y, i <> j -> any_content o = true \/ dv_cid va = dv_cid vb -> rated va name (Fin x) -> rated vb name (Fin y) ->
         ((y < x)%R -> at3 a i j k = Fin 1) /\ (x = y -> at3 a i j k = Fin (1/2)) /\ ((x < y)%R -> at3 a i j k = Fin 0)) /\
      (i = j \/ (any_content o = false /\ dv_cid va <> dv_cid vb) \/ ~ (exists v, vote_of va name v) \/ ~ (exists v, vote_of vb name v) -> at3 a i j k = NaN).
Proof.
  intros fuel ds kw o g Hok Hs Hfin Hid Hp Ht Htie Hfu. destruct (c09 fuel ds kw o g Hs Hfin Hp Ht Htie Hfu) as (pc & after & Hpc & F1 & _ & F & O).
  assert (Len : length (ds_dis pc) = length (ds_dis ds)) by (eapply Forall2_length', F).
  assert (Hid' : ids_are_positions (ds_dis pc)).
  { intros i dv Hi. destruct (Forall2_nth2 _ _ _ _ _ F i dv Hi) as (src & Hsrc & ((_ & E & _) & _)). rewrite E. apply Hid, Hsrc. }
  assert (Hok' : raw_dataset_ok pc).
  { destruct Hok as (K1 & K2 & K3 & K4 & K5 & K6). unfold raw_dataset_ok. rewrite F1. split; [exact K1|]. split; [intros E; rewrite E in Len; destruct (ds_dis ds); [contradiction|discriminate]|].
    split; [exact K3|]. split; [|split].
    - intros dv Hin. destruct (Forall2_In_r _ _ _ _ _ _ F Hin) as (src & Hsrc & ((E & _) & _)). rewrite E. apply K4, Hsrc.
    - intros dv Hin. destruct (Forall2_In_r _ _ _ _ _ _ F Hin) as (src & Hsrc & (_ & _ & _ & d & E & _)). exists (ODict d). split; [exact E|discriminate].
    - intros dv0 rest b l0 E Eo. exfalso. assert (Hin : In dv0 (ds_dis pc)) by (rewrite E; left; reflexivity). destruct (Forall2_In_r _ _ _ _ _ _ F Hin) as (src & Hsrc & (_ & _ & _ & d & E2 & _)). congruence. }
  pose proof (positions_NoDup _ _ _ Hid') as ND'. pose proof (outcome_fun pc _ F ND') as Ofun.
  assert (Oval : forall a s b v, outcome pc a s b v -> (0 <= b < Z.of_nat (length (ds_dis pc)))%Z /\ a <> b /\ exists x, v = Fin x /\ pc_val x).
  { intros a s b v Hv. apply O in Hv. destruct Hv as (va & vb & x & y & Ia & Ib & <- & <- & Hne & _ & _ & _ & Hv). apply In_nth_error in Ib. destruct Ib as [j Hj]. rewrite (Hid _ _ Hj), Len.
    assert (j < length (ds_dis ds)) by (apply nth_error_Some; congruence). split; [lia|]. split; [rewrite <- (Hid _ _ Hj); exact Hne|].
    destruct Hv as [[_ ->]|[_ ->]]; eexists; (split; [reflexivity|]); unfold pc_val; auto. }
  destruct (reader_total pc Hok' Hid') as [a Ha].
  { intros dv Hin. destruct (Forall2_In_r _ _ _ _ _ _ F Hin) as (src & _ & (_ & _ & _ & d & E & _ & Hd)). exists d. split; [exact E|]. intros n b v Hv. destruct (Hd _ _ Hv) as [u ->].
    destruct (Oval (dv_aid dv) n b u) as (G1 & _ & x & -> & G3); [exists dv, d; auto|]. split; [exact G1|]. eauto. }
  assert (Hcon : consistent pc).
  { split; [|split; [|exact Ofun]].
    - intros p s q v Hv. destruct (Oval _ _ _ _ Hv) as ([? _] & ? & _). auto.
    - intros p s q x y Hx Hy. apply O in Hx. apply O in Hy. destruct Hx as (va & vb & x1 & y1 & Ia & Ib & Ea & Eb & _ & _ & R1 & R2 & Hv). destruct Hy as (va' & vb' & x2 & y2 & Ia' & Ib' & Ea' & Eb' & _ & _ & R1' & R2' & Hv').
      pose proof Hs as (_ & ND & _). assert (vb' = va) by (apply (aid_unique (ds_dis ds)); try assumption; congruence). assert (va' = vb) by (apply (aid_unique (ds_dis ds)); try assumption; congruence). subst va' vb'.
      pose proof (rated_fun _ _ _ _ _ Hs Ia R1 R2') as X1. pose proof (rated_fun _ _ _ _ _ Hs Ib R2 R1') as X2. injection X1 as <-. injection X2 as <-.
      destruct Hv as [[L Ev]|[L Ev]], Hv' as [[L' Ev']|[L' Ev']]; injection Ev as ->; injection Ev' as ->; try lra. }
  destruct (c15 pc a Ha Hid' Hcon) as (names & [Hsrt Hob] & D1 & D2 & D3 & K). rewrite Len in *. exists pc, after, a, names. repeat (split; [assumption|]). split.
  - intros name. rewrite Hob. split.
    + intros (dv & d & b & v & Hin & Eo & Hv). destruct (Forall2_In_r _ _ _ _ _ _ F Hin) as (src & _ & (_ & _ & _ & d2 & E & _ & Hd)). assert (d2 = d) by congruence. subst d2. destruct (Hd _ _ Hv) as [u ->].
      assert (Ou : outcome pc (dv_aid dv) name b u) by (exists dv, d; auto). apply O in Ou. destruct Ou as (va & vb & x & y & Ia & Ib & Ea & Eb & Hne & T' & R1 & R2 & _).
      assert (V1 : exists w, vote_of va name w) by (destruct R1; eexists; eassumption). assert (V2 : exists w, vote_of vb name w) by (destruct R2; eexists; eassumption).
      destruct (Z.lt_trichotomy (dv_aid va) (dv_aid vb)) as [L|[E'|L]]; [|congruence|].
      * exists vb, va. repeat split; try assumption. destruct T'; [left; assumption|right; congruence].
      * exists va, vb. repeat split; assumption.
    + intros (va & vb & Ia & Ib & [v1 V1] & [v2 V2] & L & T').
      assert (R1 : exists x, rated va name (Fin x)) by (destruct (Hfin _ _ _ Ia V1) as (x & [-> | ->]); exists x; [left|right]; assumption).
      assert (R2 : exists x, rated vb name (Fin x)) by (destruct (Hfin _ _ _ Ib V2) as (x & [-> | ->]); exists x; [left|right]; assumption).
      destruct R1 as [x R1], R2 as [y R2].
      assert (Ou : exists p q u, outcome pc p name q u).
      { destruct (Rtotal_order x y) as [C|[C|C]].
        - exists (dv_aid vb), (dv_aid va), (Fin 1). apply O. exists vb, va, y, x. repeat (split; [assumption || reflexivity|]). split; [lia|]. split; [destruct T'; [left; assumption|right; congruence]|]. repeat (split; [assumption|]). left. auto.
        - exists (dv_aid va), (dv_aid vb), (Fin (1/2)). apply O. exists va, vb, x, y. repeat (split; [assumption || reflexivity|]). split; [lia|]. repeat (split; [assumption|]). right. auto.
        - exists (dv_aid va), (dv_aid vb), (Fin 1). apply O. exists va, vb, x, y. repeat (split; [assumption || reflexivity|]). split; [lia|]. repeat (split; [assumption|]). left. auto. }
      destruct Ou as (p & q & u & dv & d & Hin & _ & Eo & Hv). exists dv, d, q, (PNum u). auto.
  - intros i j k va vb name Hi Hj Hk. assert (Li : i < length (ds_dis ds)) by (apply nth_error_Some; congruence). assert (Lj : j < length (ds_dis ds)) by (apply nth_error_Some; congruence).
    destruct (K i j k name Li Lj Hk) as [Kv KK]. pose proof (Hid _ _ Hi) as Ei. pose proof (Hid _ _ Hj) as Ej. pose proof (nth_error_In _ _ Hi) as Ia. pose proof (nth_error_In _ _ Hj) as Ib. split.
    + intros x y Hne T' R1 R2. split; [|split]; intros C; apply KK.
      * left. apply O. exists va, vb, x, y. repeat (split; [assumption|]). split; [lia|]. repeat (split; [assumption|]). left. auto.
      * left. apply O. exists va, vb, x, y. repeat (split; [assumption|]). split; [lia|]. repeat (split; [assumption|]). right. auto.
      * right. replace (1 - 0)%R with 1%R by lra. apply O. exists vb, va, y, x. repeat (split; [assumption|]). split; [lia|]. split; [destruct T'; [left; assumption|right; congruence]|]. repeat (split; [assumption|]). left. auto.
    + intros Hnot. destruct Kv as [Kv|[x Kv]]; [exact Kv|]. exfalso. apply KK in Kv.
      assert (U : forall p q, dv_aid p = Z.of_nat i -> dv_aid q = Z.of_nat j -> In p (ds_dis ds) -> In q (ds_dis ds) -> p = va /\ q = vb).
      { intros p q E1 E2 I1 I2. pose proof Hs as (_ & ND & _). split; apply (aid_unique (ds_dis ds)); try assumption; congruence. }
      destruct Kv as [Kv|Kv]; apply O in Kv; destruct Kv as (p & q & x1 & y1 & I1 & I2 & E1 & E2 & Hne & T' & R1 & R2 & _).
      * destruct (U p q E1 E2 I1 I2) as [-> ->]. destruct Hnot as [->|[[A B]|[A|A]]]; [congruence|destruct T'; congruence| |]; apply A; [destruct R1|destruct R2]; eexists; eassumption.
      * destruct (U q p E2 E1 I2 I1) as [-> ->]. destruct Hnot as [->|[[A B]|[A|A]]]; [congruence|destruct T'; congruence| |]; apply A; [destruct R2|destruct R1]; eexists; eassumption.
Qed.
