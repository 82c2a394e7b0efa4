(** Caches and command line options. *)
From Coq Require Import String.
From Coq Require Import List ZArith Bool Arith Lia.
From Verif Require Import PyBase BaseProofs Tools Classes SpecTools.
Import ListNotations.
Local Open Scope list_scope.

(** ** memoized *)
Section Memo.
  Context {A V : Type}.
  Variables (same : A -> A -> bool) (hashable : A -> bool) (f : A -> res V).
  Hypothesis Eq : equivalence same.

  Lemma dget_set : forall (d : list (A * V)) i j v, dget same (dset same d i v) j = if same j i then Some v else dget same d j.
  Proof.
    destruct Eq as (Rf & Sy & Tr). intros d i j v. induction d as [|[k x] d IH]; cbn [dset dget].
    - reflexivity.
    - destruct (same i k) eqn:E; cbn [dget].
      + destruct (same j k) eqn:B; destruct (same j i) eqn:C; try reflexivity.
        * rewrite Sy in E. rewrite (Tr j k i B E) in C. discriminate.
        * rewrite (Tr j i k C E) in B. discriminate.
      + rewrite IH. destruct (same j k) eqn:B; [|reflexivity]. destruct (same j i) eqn:C; [|reflexivity].
        rewrite Sy in C. rewrite (Tr i j k C B) in E. discriminate.
  Qed.

  (** The cache holds values of f at equal keys. *)
  Definition good (m : @memo A V) : Prop :=
    (forall a v, dget same (m_cache m) a = Some v -> exists b, same a b = true /\ hashable b = true /\ f b = Ok v) /\
    (forall a, In a (m_evals m) -> forall v, f a = Ok v -> exists v', dget same (m_cache m) a = Some v') /\
    evaluated_once same (m_evals m) (fun a => exists v, f a = Ok v) /\
    (forall a, In a (m_evals m) -> hashable a = true).
  Hypothesis Resp : forall a b, hashable a = true -> hashable b = true -> same a b = true -> f a = f b.

  Lemma good_new : good (@memo_new A V).
  Proof. repeat split; cbn; try discriminate; try contradiction. intros i j a b H. destruct i; discriminate. Qed.
  Lemma evals_app : forall l a, evaluated_once same l (fun a => exists v, f a = Ok v) ->
    (forall b, In b l -> same a b = true \/ same b a = true -> ~ exists v, f b = Ok v) -> (forall b, In b l -> same b a = true -> f b = f a) ->
    evaluated_once same (l ++ [a]) (fun a => exists v, f a = Ok v).
  Proof.
    destruct Eq as (Rf & Sy & Tr). intros l a H N Q i j x y Hi Hj S P.
    assert (B : forall k z, nth_error (l ++ [a]) k = Some z -> (k < length l /\ In z l /\ nth_error l k = Some z) \/ (k = length l /\ z = a)).
    { intros k z Hk. destruct (Nat.lt_ge_cases k (length l)) as [L|L].
      - left. rewrite nth_error_app1 in Hk by exact L. split; [exact L|]. split; [apply nth_error_In in Hk; exact Hk|exact Hk].
      - right. rewrite nth_error_app2 in Hk by exact L. destruct (k - length l) as [|q] eqn:E; cbn in Hk; [|destruct q; discriminate].
        split; [lia|congruence]. }
    destruct (B _ _ Hi) as [(Li & Ii & Ei)|[-> ->]]; destruct (B _ _ Hj) as [(Lj & Ij & Ej)|[-> ->]].
    - exact (H i j x y Ei Ej S P).
    - exfalso. exact (N x Ii (or_intror S) P).
    - exfalso. apply (N y Ij (or_introl S)). rewrite (Q y Ij); [exact P|]. rewrite Sy. exact S.
    - reflexivity.
  Qed.
  Lemma call_good : forall m a m' r, good m -> hashable a = true -> memo_call same hashable f m a = (m', r) -> good m' /\ r = f a.
  Proof.
    assert (Eq' := Eq). destruct Eq' as (Rf & Sy & Tr). intros m a m' r (G1 & G2 & G3 & G4) Ha H. unfold memo_call in H. rewrite Ha in H. cbn [negb] in H.
    destruct (dget same (m_cache m) a) as [v|] eqn:D.
    - injection H as <- <-. split; [exact (conj G1 (conj G2 (conj G3 G4)))|]. destruct (G1 _ _ D) as (b & S & Hb & E). rewrite <- E. symmetry. apply Resp; assumption.
    - assert (N : forall b, In b (m_evals m) -> same a b = true \/ same b a = true -> ~ exists v, f b = Ok v).
      { intros b Ib S [v E]. destruct (G2 b Ib v E) as [v' D']. destruct (G1 _ _ D') as (c & S' & _).
        assert (Sab : same a b = true) by (destruct S as [S|S]; [exact S|rewrite Sy; exact S]).
        assert (X : dget same (m_cache m) a = dget same (m_cache m) b).
        { clear - Sab Eq. destruct Eq as (Rf & Sy & Tr). induction (m_cache m) as [|[k x] d IH]; cbn [dget]; [reflexivity|].
          destruct (same a k) eqn:A1; destruct (same b k) eqn:B1; try reflexivity; [| |exact IH].
          - rewrite Sy in Sab. rewrite (Tr b a k Sab A1) in B1. discriminate.
          - rewrite (Tr a b k Sab B1) in A1. discriminate. }
        congruence. }
      assert (Q : forall b, In b (m_evals m) -> same b a = true -> f b = f a) by (intros b Ib S; apply Resp; auto).
      destruct (f a) as [v|e] eqn:F; injection H as <- <-; (split; [|reflexivity]).
      + split; [|split; [|split]]; cbn [m_cache m_evals].
        * intros b w. rewrite dget_set. destruct (same b a) eqn:S; [|apply G1]. intro E. injection E as <-. exists a. auto.
        * intros b Ib w E. rewrite dget_set. destruct (same b a) eqn:S; [eexists; reflexivity|]. apply in_app_or in Ib.
          destruct Ib as [Ib|[<-|[]]]; [exact (G2 b Ib w E)|]. rewrite Rf in S. discriminate.
        * apply evals_app; try assumption. rewrite F. exact Q.
        * intros b Ib. apply in_app_or in Ib. destruct Ib as [Ib|[<-|[]]]; [exact (G4 b Ib)|exact Ha].
      + split; [|split; [|split]]; cbn [m_cache m_evals].
        * exact G1.
        * intros b Ib w E. apply in_app_or in Ib. destruct Ib as [Ib|[<-|[]]]; [exact (G2 b Ib w E)|congruence].
        * apply evals_app; try assumption. rewrite F. exact Q.
        * intros b Ib. apply in_app_or in Ib. destruct Ib as [Ib|[<-|[]]]; [exact (G4 b Ib)|exact Ha].
  Qed.
  Lemma calls_good : forall l m m' rs, good m -> Forall (fun a => hashable a = true) l -> memo_calls same hashable f m l = (m', rs) -> good m' /\ rs = map f l.
  Proof.
    induction l as [|a l IH]; intros m m' rs G H E; cbn [memo_calls] in E; [injection E as <- <-; split; [exact G|reflexivity]|].
    inversion H; subst. destruct (memo_call same hashable f m a) as [m1 r] eqn:C. destruct (memo_calls same hashable f m1 l) as [m2 rs2] eqn:D.
    injection E as <- <-. destruct (call_good _ _ _ _ G H2 C) as [G1 ->]. destruct (IH _ _ _ G1 H3 D) as [G2 ->]. split; [exact G2|reflexivity].
  Qed.
  Lemma c54 : forall l m rs, Forall (fun a => hashable a = true) l -> memo_calls same hashable f memo_new l = (m, rs) ->
    rs = map f l /\ evaluated_once same (m_evals m) (fun a => exists v, f a = Ok v).
  Proof. intros l m rs H E. destruct (calls_good _ _ _ _ good_new H E) as [(_ & _ & G & _) R]. split; [exact R|exact G]. Qed.
End Memo.

Lemma c54_evaluations : forall A V same hashable (f : A -> res V) l m rs, memo_calls same hashable f memo_new l = (m, rs) -> incl (m_evals m) l.
Proof.
  intros A V same hashable f l m rs. assert (G : forall l m m' rs, memo_calls same hashable f m l = (m', rs) -> incl (m_evals m') (m_evals m ++ l)).
  { clear. induction l as [|a l IH]; intros m m' rs E; cbn [memo_calls] in E; [injection E as <- <-; rewrite app_nil_r; apply incl_refl|].
    destruct (memo_call same hashable f m a) as [m1 r] eqn:C. destruct (memo_calls same hashable f m1 l) as [m2 rs2] eqn:D. injection E as <- <-.
    assert (S : incl (m_evals m1) (m_evals m ++ [a])).
    { unfold memo_call in C. destruct (negb _); [injection C as <- <-; apply incl_appl, incl_refl|].
      destruct (dget _ _ _); [injection C as <- <-; apply incl_appl, incl_refl|]. destruct (f a); injection C as <- <-; apply incl_refl. }
    intros x Hx. apply (IH _ _ _ D) in Hx. apply in_app_or in Hx. destruct Hx as [Hx|Hx].
    - apply S in Hx. apply in_app_or in Hx. apply in_or_app. destruct Hx as [Hx|[->|[]]]; [left; exact Hx|right; left; reflexivity].
    - apply in_or_app. right. right. exact Hx. }
  intro E. exact (G l memo_new m rs E).
Qed.

(** ** persist_to_dir *)
Section Persist.
  Context {A V : Type}.
  Variables (name : A -> string) (f : A -> res V) (dump : V -> string * bool) (load : string -> res V).
  (** The arguments used, their results, and that JSON gives the results back. *)
  Variable used : A -> Prop.
  Hypothesis Inj : forall a b, used a -> used b -> name a = name b -> f a = f b.
  Hypothesis Round : forall a v, used a -> f a = Ok v -> snd (dump v) = true /\ load (fst (dump v)) = Ok v.

  Lemma sget_set : forall d i j (v : string), dget String.eqb (dset String.eqb d i v) j = if String.eqb j i then Some v else dget String.eqb d j.
  Proof.
    apply dget_set. split; [apply String.eqb_refl|]. split; [apply String.eqb_sym|]. intros a b c H1 H2. apply String.eqb_eq in H1, H2. subst. apply String.eqb_refl.
  Qed.
  Definition intact (d : files) : Prop := forall a text, used a -> dget String.eqb d (name a) = Some text -> exists v, f a = Ok v /\ text = fst (dump v).

  Lemma substring_all : forall s n, String.length s <= n -> substring 0 n s = s.
  Proof. induction s as [|c s IH]; intros [|n] H; cbn in *; try reflexivity; try lia. f_equal. apply IH. lia. Qed.
  Lemma intact_set : forall d a v, intact d -> used a -> f a = Ok v -> intact (dset String.eqb d (name a) (fst (dump v))).
  Proof.
    intros d a v H Ua E b text Ub. rewrite sget_set. destruct (String.eqb_spec (name b) (name a)) as [N|N]; [|apply H, Ub].
    intro T. injection T as <-. exists v. split; [rewrite (Inj b a Ub Ua N); exact E|reflexivity].
  Qed.
  Lemma c55_history : forall l d d' rs, intact d -> Forall (fun e => used (arg_of e)) l -> Forall (harmless f dump) l ->
    persist_history name f dump load d l = (d', rs) -> rs = answers f l.
  Proof.
    induction l as [|e l IH]; intros d d' rs I U S E; cbn [persist_history] in E; [injection E as <- <-; reflexivity|].
    inversion U; subst. inversion S; subst. destruct e as [a|a w]; cbn [arg_of] in *.
    - destruct (persist_call name f dump load d a) as [d1 r] eqn:C. destruct (persist_history name f dump load d1 l) as [d2 rs2] eqn:D. injection E as <- <-.
      assert (Q : intact d1 /\ r = f a).
      { unfold persist_call in C. destruct (dget String.eqb d (name a)) as [text|] eqn:G.
        - injection C as <- <-. split; [exact I|]. destruct (I a text H1 G) as (v & Fv & ->). rewrite Fv. apply (Round a v H1 Fv).
        - destruct (f a) as [v|e] eqn:Fa; injection C as <- <-; [|split; [exact I|reflexivity]].
          split; [apply intact_set; assumption|]. destruct (Round a v H1 Fa) as [-> _]. reflexivity. }
      destruct Q as [I1 ->]. rewrite (IH _ _ _ I1 H2 H4 D). reflexivity.
    - apply (IH _ _ _) with (2 := H2) (3 := H4) (4 := E). unfold persist_crash. destruct (dget String.eqb d (name a)) eqn:G; [exact I|].
      destruct w as [n|]; [|exact I]. destruct (f a) as [v|e] eqn:Fa; [|exact I]. cbn [harmless] in H3.
      rewrite substring_all by (apply H3, Fa). apply intact_set; assumption.
  Qed.
  Lemma c55 : forall l, Forall (fun e => used (arg_of e)) l -> Forall (harmless f dump) l ->
    snd (persist_history name f dump load [] l) = answers f l.
  Proof.
    intros l U S. destruct (persist_history name f dump load [] l) as [d rs] eqn:E. cbn [snd]. apply (c55_history l [] d rs); try assumption.
    intros a text _ H. discriminate.
  Qed.
End Persist.

(** A crash right after the file was opened: every later call fails. *)
Lemma c55_crash : forall A V (name : A -> string) (f : A -> res V) dump load a v k, f a = Ok v -> load ""%string = Err ValueError ->
  snd (persist_history name f dump load [] (Killed a (Some 0) :: repeat (Called a) k)) = repeat (a, Err ValueError) k.
Proof.
  intros A V name f dump load a v k E L. cbn [persist_history]. unfold persist_crash. cbn [dget]. rewrite E.
  assert (S : substring 0 0 (fst (dump v)) = ""%string) by (destruct (fst (dump v)); reflexivity). rewrite S. cbn [dset].
  induction k as [|k IH]; [reflexivity|]. cbn [repeat persist_history]. unfold persist_call at 1. cbn [dget]. rewrite String.eqb_refl.
  destruct (persist_history name f dump load [(name a, ""%string)] (repeat (Called a) k)) as [d rs] eqn:H. cbn [snd] in *. rewrite L, IH. reflexivity.
Qed.
(** A result that JSON cannot represent: the failed dump leaves a file behind. *)
Lemma c55_unserializable : forall A V (name : A -> string) (f : A -> res V) dump load a v, f a = Ok v -> dump v = (""%string, false) -> load ""%string = Err ValueError ->
  snd (persist_history name f dump load [] [Called a; Called a]) = [(a, Err TypeError); (a, Err ValueError)].
Proof.
  intros A V name f dump load a v E D L.
  assert (P1 : persist_call name f dump load [] a = ([(name a, ""%string)], Err TypeError)) by (unfold persist_call; cbn [dget]; rewrite E, D; reflexivity).
  assert (P2 : persist_call name f dump load [(name a, ""%string)] a = ([(name a, ""%string)], Err ValueError)) by (unfold persist_call; cbn [dget]; rewrite String.eqb_refl, L; reflexivity).
  cbn [persist_history]. rewrite P1, P2. reflexivity.
Qed.

(** ** Command line options *)
Lemma norm_index_spec : forall n i, match py_norm_index n i with
  | Some k => k < n /\ ((0 <= i /\ k = Z.to_nat i) \/ (i < 0 /\ 0 <= i + Z.of_nat n /\ k = Z.to_nat (i + Z.of_nat n)))%Z
  | None => (i < - Z.of_nat n \/ Z.of_nat n <= i)%Z end.
Proof.
  intros n i. unfold py_norm_index. destruct ((0 <=? i) && (i <? Z.of_nat n))%Z%bool eqn:A.
  - apply andb_true_iff in A. destruct A as [A B]. apply Z.leb_le in A. apply Z.ltb_lt in B. split; [lia|]. left. lia.
  - destruct ((- Z.of_nat n <=? i) && (i <? 0))%Z%bool eqn:B.
    + apply andb_true_iff in B. destruct B as [B C]. apply Z.leb_le in B. apply Z.ltb_lt in C. split; [lia|]. right. lia.
    + apply andb_false_iff in A, B. destruct A as [A|A], B as [B|B]; rewrite ?Z.leb_gt, ?Z.ltb_ge in *; lia.
Qed.
Lemma py_at_holds : forall argv i x, py_at argv i = Ok x <-> holds_at argv i x.
Proof.
  intros argv i x. unfold py_at. assert (S := norm_index_spec (length argv) i). destruct (py_norm_index (length argv) i) as [k|].
  - destruct S as [L S]. unfold py_index, holds_at. destruct (nth_error argv k) as [y|] eqn:E.
    + split.
      * intro Q. injection Q as <-. destruct S as [[P ->]|(P & P' & ->)]; [left|right]; auto.
      * intros [[P Q]|(P & P' & Q)]; destruct S as [[S ->]|(S & S' & ->)]; try lia; congruence.
    + apply nth_error_None in E. lia.
  - split; [discriminate|]. intros [[P Q]|(P & P' & Q)].
    + assert (Z.to_nat i < length argv) by (apply nth_error_Some; congruence). lia.
    + lia.
Qed.
Lemma py_at_total : forall (argv : list string) i, (- Z.of_nat (length argv) <= i < Z.of_nat (length argv))%Z -> exists x, py_at argv i = Ok x.
Proof.
  intros argv i H. unfold py_at. assert (S := norm_index_spec (length argv) i). destruct (py_norm_index (length argv) i) as [k|]; [|lia].
  destruct S as [L _]. unfold py_index. destruct (nth_error argv k) as [y|] eqn:E; [exists y; reflexivity|]. apply nth_error_None in E. lia.
Qed.
Lemma py_at_beyond : forall (argv : list string) i, (Z.of_nat (length argv) <= i)%Z -> py_at argv i = Err IndexError.
Proof.
  intros argv i H. unfold py_at. assert (S := norm_index_spec (length argv) i). destruct (py_norm_index (length argv) i) as [k|]; [|reflexivity]. lia.
Qed.
Lemma range_cons : forall b e, (b < e)%Z -> py_range b e = b :: py_range (b + 1) e.
Proof.
  intros b e H. unfold py_range. replace (Z.to_nat (e - b)) with (S (Z.to_nat (e - (b + 1)))) by lia. cbn [seq map]. f_equal; [lia|].
  rewrite <- seq_shift, map_map. apply map_ext. intro k. lia.
Qed.
Lemma range_nil : forall b e, (e <= b)%Z -> py_range b e = [].
Proof. intros b e H. unfold py_range. replace (Z.to_nat (e - b)) with 0 by lia. reflexivity. Qed.

(** The loop over a range, up to its first match. *)
Lemma opt_loop_first : forall argv o k b e i itr, (Z.to_nat (i - b) = k) -> first_at argv b e i o ->
  (- Z.of_nat (length argv) <= b)%Z -> opt_loop argv o (py_range b e) itr = Ok (Some i) /\ exists_loop argv o (py_range b e) = Ok true.
Proof.
  intros argv o k. induction k as [|k IH]; intros b e i itr K ((B1 & B2) & H & N) L.
  - assert (i = b) by lia. subst i. rewrite range_cons by lia. cbn [opt_loop exists_loop]. apply py_at_holds in H. rewrite H. cbn [bind]. rewrite String.eqb_refl. auto.
  - rewrite range_cons by lia. cbn [opt_loop exists_loop].
    assert (T : exists x, py_at argv b = Ok x).
    { apply py_at_total. split; [exact L|]. destruct H as [[P Q]|(P & P' & Q)].
      - assert (Z.to_nat i < length argv) by (apply nth_error_Some; congruence). lia.
      - lia. }
    destruct T as [x T]. rewrite T. cbn [bind]. destruct (String.eqb_spec x o) as [->|D].
    + exfalso. apply (N b); [lia|]. apply py_at_holds, T.
    + apply IH; [lia| |lia]. split; [lia|]. split; [exact H|]. intros j Hj. apply N. lia.
Qed.
Lemma opt_loop_absent : forall argv o k b e itr, Z.to_nat (e - b) = k -> absent argv b e o -> in_bounds argv b e ->
  opt_loop argv o (py_range b e) itr = Ok (if (b <? e)%Z then Some (e - 1)%Z else itr) /\ exists_loop argv o (py_range b e) = Ok false.
Proof.
  intros argv o k. induction k as [|k IH]; intros b e itr K N I.
  - rewrite range_nil by lia. cbn [opt_loop exists_loop]. destruct (Z.ltb_spec b e); [lia|]. auto.
  - assert (L : (b < e)%Z) by lia. destruct (I L) as [I1 I2]. rewrite range_cons by lia. cbn [opt_loop exists_loop]. destruct (py_at_total argv b) as [x T]; [lia|]. rewrite T. cbn [bind].
    destruct (String.eqb_spec x o) as [->|D]; [exfalso; apply (N b); [lia|apply py_at_holds, T]|].
    destruct (IH (b + 1)%Z e (Some b)) as [Q1 Q2]; [lia| | |].
    + intros j Hj. apply N. lia. + intro. lia.
    + rewrite Q1, Q2. split; [|reflexivity]. f_equal. destruct (Z.ltb_spec b e); [|lia]. destruct (Z.ltb_spec (b + 1) e); [reflexivity|]. f_equal. lia.
Qed.
Lemma opt_loop_out : forall argv o k b e itr, Z.to_nat (Z.of_nat (length argv) - b) = k -> (- Z.of_nat (length argv) <= b)%Z ->
  absent argv b (Z.of_nat (length argv)) o -> (b < e)%Z -> (Z.of_nat (length argv) < e)%Z ->
  opt_loop argv o (py_range b e) itr = Err IndexError /\ exists_loop argv o (py_range b e) = Err IndexError.
Proof.
  intros argv o k. induction k as [|k IH]; intros b e itr K L N B E; rewrite range_cons by lia; cbn [opt_loop exists_loop].
  - rewrite py_at_beyond by lia. auto.
  - destruct (py_at_total argv b) as [x T]; [lia|]. rewrite T. cbn [bind].
    destruct (String.eqb_spec x o) as [->|D]; [exfalso; apply (N b); [lia|apply py_at_holds, T]|].
    apply IH; try lia. intros j Hj. apply N. lia.
Qed.

Lemma c58_found : forall argv b e i o x, (- Z.of_nat (length argv) <= b)%Z -> first_at argv b e i o -> (i + 1 < e)%Z -> holds_at argv (i + 1) x ->
  get_cmd_option argv b e o = Ok (Some x).
Proof.
  intros argv b e i o x L F E H. unfold get_cmd_option. destruct (opt_loop_first argv o _ b e i None eq_refl F L) as [-> _]. cbn [bind].
  destruct (Z.eqb_spec i e); [lia|]. destruct (Z.eqb_spec (i + 1) e); [lia|]. cbn [negb andb]. apply py_at_holds in H. rewrite H. reflexivity.
Qed.
Lemma c58_last : forall argv b e o, (- Z.of_nat (length argv) <= b)%Z -> first_at argv b e (e - 1) o -> get_cmd_option argv b e o = Ok None.
Proof.
  intros argv b e o L F. unfold get_cmd_option. destruct (opt_loop_first argv o _ b e _ None eq_refl F L) as [-> _]. cbn [bind].
  destruct (Z.eqb_spec (e - 1) e); [lia|]. destruct (Z.eqb_spec (e - 1 + 1) e); [|lia]. reflexivity.
Qed.
Lemma c58_absent : forall argv b e o, in_bounds argv b e -> absent argv b e o -> get_cmd_option argv b e o = Ok None.
Proof.
  intros argv b e o I N. unfold get_cmd_option. destruct (opt_loop_absent argv o _ b e None eq_refl N I) as [-> _]. cbn [bind].
  destruct (Z.ltb b e); [|reflexivity]. destruct (Z.eqb_spec (e - 1) e); [lia|]. destruct (Z.eqb_spec (e - 1 + 1) e); [|lia]. reflexivity.
Qed.
Lemma c58_exists : forall argv b e o, in_bounds argv b e ->
  (cmd_option_exists argv b e o = Ok true <-> exists i, (b <= i < e)%Z /\ holds_at argv i o) /\
  (cmd_option_exists argv b e o = Ok false <-> absent argv b e o).
Proof.
  intros argv b e o I. unfold cmd_option_exists.
  assert (D : forall k c, Z.to_nat (e - c) = k -> (exists i, first_at argv c e i o) \/ absent argv c e o).
  { induction k as [|k IH]; intros c K.
    - right. intros i Hi. lia.
    - destruct (py_at argv c) as [x|] eqn:P.
      + destruct (string_dec x o) as [->|Dx].
        * left. exists c. split; [lia|]. split; [apply py_at_holds, P|]. intros j Hj. lia.
        * destruct (IH (c + 1)%Z) as [(i & (B1 & B2) & H & N)|N]; [lia| |].
          -- left. exists i. split; [lia|]. split; [exact H|]. intros j Hj C. destruct (Z.eq_dec j c) as [->|]; [apply py_at_holds in C; congruence|apply (N j); [lia|exact C]].
          -- right. intros j Hj C. destruct (Z.eq_dec j c) as [->|]; [apply py_at_holds in C; congruence|apply (N j); [lia|exact C]].
      + destruct (IH (c + 1)%Z) as [(i & (B1 & B2) & H & N)|N]; [lia| |].
        -- left. exists i. split; [lia|]. split; [exact H|]. intros j Hj C. destruct (Z.eq_dec j c) as [->|]; [apply py_at_holds in C; congruence|apply (N j); [lia|exact C]].
        -- right. intros j Hj C. destruct (Z.eq_dec j c) as [->|]; [apply py_at_holds in C; congruence|apply (N j); [lia|exact C]]. }
  destruct (D _ b eq_refl) as [(i & F)|N].
  - assert (B := F). destruct B as ((B1 & B2) & H & _). destruct (I ltac:(lia)) as [I1 I2].
    destruct (opt_loop_first argv o _ b e i None eq_refl F I1) as [_ ->]. split.
    + split; [intros _; exists i; split; [lia|exact H]|reflexivity].
    + split; [discriminate|]. intro N. exfalso. apply (N i); [lia|exact H].
  - destruct (opt_loop_absent argv o _ b e None eq_refl N I) as [_ ->]. split.
    + split; [discriminate|]. intros (i & Hi & H). exfalso. exact (N i Hi H).
    + split; [intros _; exact N|reflexivity].
Qed.
Lemma c58_out : forall argv b e o, (- Z.of_nat (length argv) <= b < e)%Z -> (Z.of_nat (length argv) < e)%Z -> absent argv b (Z.of_nat (length argv)) o ->
  get_cmd_option argv b e o = Err IndexError /\ cmd_option_exists argv b e o = Err IndexError.
Proof.
  intros argv b e o L E N. unfold get_cmd_option, cmd_option_exists.
  destruct (opt_loop_out argv o _ b e None eq_refl (proj1 L) N (proj2 L) E) as [-> ->]. auto.
Qed.
Lemma c58_before : forall argv b e o, (b < e)%Z -> (b < - Z.of_nat (length argv))%Z ->
  get_cmd_option argv b e o = Err IndexError /\ cmd_option_exists argv b e o = Err IndexError.
Proof.
  intros argv b e o L B. unfold get_cmd_option, cmd_option_exists. rewrite range_cons by exact L. cbn [opt_loop exists_loop].
  assert (P : py_at argv b = Err IndexError).
  { unfold py_at. assert (S := norm_index_spec (length argv) b). destruct (py_norm_index (length argv) b) as [k|]; [|reflexivity]. lia. }
  rewrite P. auto.
Qed.
Lemma c58_end : forall argv b e o, (- Z.of_nat (length argv) <= b)%Z -> (Z.of_nat (length argv) < e)%Z ->
  first_at argv b e (Z.of_nat (length argv) - 1) o -> get_cmd_option argv b e o = Err IndexError.
Proof.
  intros argv b e o L E F. unfold get_cmd_option. destruct (opt_loop_first argv o _ b e _ None eq_refl F L) as [-> _]. cbn [bind].
  destruct (Z.eqb_spec (Z.of_nat (length argv) - 1) e); [lia|]. destruct (Z.eqb_spec (Z.of_nat (length argv) - 1 + 1) e); [lia|]. cbn [negb andb].
  rewrite py_at_beyond by lia. reflexivity.
Qed.
