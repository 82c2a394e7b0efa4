(** Lemmas for claim C92. *)
From Coq Require Import String.
From Coq Require Import List ZArith Bool Arith Lia.
From Verif Require Import PyBase Num NumPy Dataset Preproc Mos AP Demo SpecDemo BaseProofs.
Import ListNotations.

Section DemoProofs.
  Context {T : Type} {N : Num T}.
  Variable chi : T -> T -> T.

  (** ** The three-dimensional program and the package *)
  Lemma bias3_same : forall (x : arr3 T) s, bias3 x s = bias_of x s.
  Proof. reflexivity. Qed.
  Lemma pass3_same : forall (x : arr3 T) s b, ap_pass x s b = Ok (ApEst (d_mos (pass3 x s b)) (d_bias (pass3 x s b)) (d_sig_i (pass3 x s b)) (d_sig_j (pass3 x s b))).
  Proof. reflexivity. Qed.
  Definition of_state (st : demo_state T) : apest T := ApEst (d_mos st) (d_bias st) (d_sig_i st) (d_sig_j st).
  Lemma loop_same : forall (x : arr3 T) fuel itr s b,
    match ap_loop fuel itr x s b with
    | Ok (e, _) => exists st, demo_loop (pass3 x) fuel itr s b = Ok st /\ e = of_state st
    | Err e => demo_loop (pass3 x) fuel itr s b = Err e
    end.
  Proof.
    intros x fuel. induction fuel as [|f IH]; intros itr s b; [reflexivity|]. cbn [ap_loop demo_loop]. rewrite (pass3_same x s b). cbn [bind es eb].
    destruct (sp_norm _) as [d|e]; cbn [bind]; [|reflexivity]. unfold demo_delta, epsilon, demo_max_itr, max_itr.
    destruct (nltb d _); [eexists; split; reflexivity|]. destruct (Nat.leb 1000 (S itr)); [eexists; split; reflexivity|].
    apply IH.
  Qed.
  Lemma c92_same3 : forall (x x0 : arr3 T),
    run_alternating_projection_3d x = match ap_solve chi true true x x0 with Ok m => Ok (projected m) | Err e => Err e end.
  Proof.
    intros x x0. unfold run_alternating_projection_3d, ap_solve. assert (L := loop_same x max_itr 0 (along1 np_nanmean (stack1 x)) (bias_of x (along1 np_nanmean (stack1 x)))).
    change demo_max_itr with max_itr. change (along1 np_nanmean (slices_beside x)) with (along1 np_nanmean (stack1 x)). rewrite bias3_same.
    destruct (ap_loop max_itr 0 x _ _) as [[e itr]|e]; cbn [bind].
    - destruct L as [st [-> ->]]. reflexivity.
    - rewrite L. reflexivity.
  Qed.

  (** ** One repetition *)
  Lemma below_once : forall f (o : arr2 T) g, along0 f (slices_below (map3 (fun j i _ v => g j i v) (once o))) = along0 f (map2d g o).
  Proof.
    intros f o g. unfold along0, slices_below, map2d, once, map3. cbn [n1 dS dE dR at3]. apply map_ext. intro i. f_equal. unfold col. cbn [n0 at2 dE dR at3].
    rewrite Nat.mul_1_l. apply map_ext_in. intros k Hk. apply in_seq in Hk. rewrite Nat.mod_small by lia. reflexivity.
  Qed.
  Lemma beside_once : forall f (o : arr2 T) g, along1 f (slices_beside (map3 (fun j i _ v => g j i v) (once o))) = along1 f (map2d g o).
  Proof.
    intros f o g. unfold along1, slices_beside, map2d, once, map3. cbn [n0 dS dE dR at3]. apply map_ext. intro j. f_equal. unfold row. cbn [n1 at2 dS dR at3].
    rewrite Nat.mul_1_l. apply map_ext_in. intros k Hk. apply in_seq in Hk. rewrite Nat.mod_small by lia. reflexivity.
  Qed.
  Lemma tile1 : forall w : list T, concat (repeat w 1) = w.
  Proof. intro w. cbn [repeat concat]. apply app_nil_r. Qed.
  Lemma bias_once : forall (o : arr2 T) mos, bias3 (once o) mos = bias2 o mos.
  Proof. intros. unfold bias3, bias2. apply (below_once np_nanmean o (fun j i v => nsub v (vat mos j))). Qed.
  Lemma pass_once : forall (o : arr2 T) mos bias, pass3 (once o) mos bias = pass2 o mos bias.
  Proof.
    intros o mos bias. unfold pass3, pass2.
    rewrite (below_once (np_nanstd 0) o (fun j i v => nsub (nsub v (vat mos j)) (vat bias i))).
    rewrite (beside_once (np_nanstd 0) o (fun j i v => nsub (nsub v (vat mos j)) (vat bias i))).
    change (dR (once o)) with 1. rewrite tile1. rewrite (beside_once _ o (fun j i v => nsub v (vat bias i))). rewrite bias_once. reflexivity.
  Qed.
  Lemma loop_ext : forall (p q : list T -> list T -> demo_state T), (forall s b, p s b = q s b) ->
    forall fuel itr s b, demo_loop p fuel itr s b = demo_loop q fuel itr s b.
  Proof.
    intros p q H. induction fuel as [|f IH]; intros itr s b; [reflexivity|]. cbn [demo_loop]. rewrite H.
    destruct (sp_norm _); cbn [bind]; [|reflexivity]. destruct (nltb _ _); [reflexivity|]. destruct (Nat.leb _ _); [reflexivity|]. apply IH.
  Qed.
  Lemma sos_once : forall (o : arr2 T) sig, sos3 sig (once o) = sos2 sig o.
  Proof. intros. unfold sos3, sos2. f_equal. apply (beside_once np_nansum o (fun j i v => ndiv (demo_one_or_nan v) (nsq (vat sig j)))). Qed.
  Lemma beside_plain : forall f (o : arr2 T), along1 f (slices_beside (once o)) = along1 f o.
  Proof.
    intros f o. unfold along1, slices_beside, once. cbn [n0 dS dE dR at3]. apply map_ext. intro j. f_equal. unfold row. cbn [n1 at2 dS dR at3].
    rewrite Nat.mul_1_l. apply map_ext_in. intros k Hk. apply in_seq in Hk. rewrite Nat.mod_small by lia. reflexivity.
  Qed.
  Lemma c92_once : forall o : arr2 T, run_alternating_projection_2d o = run_alternating_projection_3d (once o).
  Proof.
    intro o. unfold run_alternating_projection_2d, run_alternating_projection_3d. rewrite beside_plain, bias_once.
    rewrite (loop_ext (pass3 (once o)) (pass2 o) (pass_once o)). destruct (demo_loop _ _ _ _ _); cbn [bind]; [|reflexivity]. rewrite sos_once. reflexivity.
  Qed.

  (** ** Only the votes count *)
  Lemma below_ext : forall f (u u' : arr3 T) g, same3 u u' -> along0 f (slices_below (map3 g u)) = along0 f (slices_below (map3 g u')).
  Proof.
    intros f u u' g (E & S & R & H). unfold along0, slices_below, map3. cbn [n1 dS dE dR at3]. rewrite <- S. apply map_ext_in. intros i Hi. apply in_seq in Hi. f_equal.
    unfold col. cbn [n0 at2 dE dR at3]. rewrite <- E, <- R. apply map_ext_in. intros k Hk. apply in_seq in Hk.
    assert (0 < dE u)%nat by (destruct (dE u); [rewrite Nat.mul_0_r in Hk|]; lia).
    rewrite H; [reflexivity|apply Nat.mod_upper_bound; lia|lia|apply Nat.div_lt_upper_bound; lia].
  Qed.
  Lemma beside_ext : forall f (u u' : arr3 T) g, same3 u u' -> along1 f (slices_beside (map3 g u)) = along1 f (slices_beside (map3 g u')).
  Proof.
    intros f u u' g (E & S & R & H). unfold along1, slices_beside, map3. cbn [n0 dS dE dR at3]. rewrite <- E. apply map_ext_in. intros j Hj. apply in_seq in Hj. f_equal.
    unfold row. cbn [n1 at2 dS dR at3]. rewrite <- S, <- R. apply map_ext_in. intros k Hk. apply in_seq in Hk.
    assert (0 < dS u)%nat by (destruct (dS u); [rewrite Nat.mul_0_r in Hk|]; lia).
    rewrite H; [reflexivity|lia|apply Nat.mod_upper_bound; lia|apply Nat.div_lt_upper_bound; lia].
  Qed.
  Lemma id3 : forall u : arr3 T, u = map3 (fun _ _ _ v => v) u.
  Proof. intros [E S R a]. reflexivity. Qed.
  Lemma pass_ext : forall (u u' : arr3 T), same3 u u' -> forall s b, pass3 u s b = pass3 u' s b.
  Proof.
    intros u u' H s b. unfold pass3, bias3. rewrite (below_ext _ u u' _ H), (beside_ext (np_nanstd 0) u u' _ H).
    assert (R : dR u = dR u') by apply H. rewrite R, (beside_ext _ u u' (fun j i r v => nsub v (vat b i)) H), (below_ext np_nanmean u u' _ H). reflexivity.
  Qed.
  Lemma c92_ext3 : forall (u u' : arr3 T), same3 u u' -> run_alternating_projection_3d u = run_alternating_projection_3d u'.
  Proof.
    intros u u' H. unfold run_alternating_projection_3d.
    assert (M : along1 np_nanmean (slices_beside u) = along1 np_nanmean (slices_beside u')) by (rewrite (id3 u), (id3 u'); apply (beside_ext _ u u' (fun _ _ _ v => v) H)).
    rewrite M. unfold bias3 at 1. rewrite (below_ext _ u u' _ H). rewrite (loop_ext _ _ (pass_ext u u' H)). unfold bias3.
    destruct (demo_loop _ _ _ _ _); cbn [bind]; [|reflexivity]. unfold sos3. rewrite (beside_ext _ u u' _ H). reflexivity.
  Qed.
  Lemma once_same : forall o o' : arr2 T, same2 o o' -> same3 (once o) (once o').
  Proof. intros o o' (A & B & H). split; [exact A|]. split; [exact B|]. split; [reflexivity|]. intros j i r Hj Hi _. apply H; assumption. Qed.

  (** ** Reading *)
  Variable parse : string -> res T.
  Lemma mapM_nth : forall A B (f : A -> res B) l k, mapM f l = Ok k -> List.length k = List.length l /\ forall n a, nth_error l n = Some a -> exists b, f a = Ok b /\ nth_error k n = Some b.
  Proof.
    induction l as [|a l IH]; intros k H; cbn [mapM] in H.
    - injection H as <-. split; [reflexivity|]. intros [|n] x E; discriminate.
    - destruct (f a) as [b|] eqn:F; [|discriminate]. cbn [bind] in H. destruct (mapM f l) as [k'|]; [|discriminate]. cbn [bind] in H. injection H as <-.
      destruct (IH k' eq_refl) as [L I]. split; [cbn [List.length]; lia|]. intros [|n] x E; cbn [nth_error] in *; [injection E as <-; exists b; auto|apply I; exact E].
  Qed.
  Lemma mapM_all : forall A B (f : A -> res B) l, (forall a, In a l -> exists b, f a = Ok b) -> exists k, mapM f l = Ok k.
  Proof.
    induction l as [|a l IH]; intro H; cbn [mapM]; [eexists; reflexivity|]. destruct (H a (or_introl eq_refl)) as [b ->]. cbn [bind].
    destruct IH as [k ->]; [intros x I; apply H; right; exact I|]. eexists. reflexivity.
  Qed.
  Lemma table_rows : forall file J I a, table parse file J I a -> exists rows, mapM (mapM parse) file = Ok rows /\ List.length rows = J /\ (forall r, In r rows -> List.length r = I) /\
    forall j i, (j < J)%nat -> (i < I)%nat -> entry rows j i = a j i.
  Proof.
    intros file J I a (L & W & C).
    assert (P : forall row, In row file -> exists k, mapM parse row = Ok k).
    { intros row Hr. apply mapM_all. intros cell Hc. apply In_nth_error in Hr as [j Hj]. apply In_nth_error in Hc as [i Hi].
      assert (j < J)%nat by (rewrite <- L; apply nth_error_Some; congruence).
      assert (i < I)%nat by (rewrite <- (W row (nth_error_In _ _ Hj)); apply nth_error_Some; congruence).
      destruct (C j i H H0) as (row' & cell' & E1 & E2 & E3). assert (row' = row) by congruence. subst. assert (cell' = cell) by congruence. subst. eauto. }
    destruct (mapM_all _ _ (mapM parse) file P) as [rows E]. exists rows. destruct (mapM_nth _ _ _ _ _ E) as [LR NR]. split; [exact E|]. split; [lia|]. split.
    - intros r Hr. apply In_nth_error in Hr as [j Hj]. assert (j < List.length file)%nat by (rewrite <- LR; apply nth_error_Some; congruence).
      destruct (nth_error file j) as [row|] eqn:F; [|apply nth_error_None in F; lia]. destruct (NR j row F) as [b [Fb Nb]]. assert (b = r) by congruence. subst.
      rewrite (proj1 (mapM_nth _ _ _ _ _ Fb)). apply W. eapply nth_error_In. exact F.
    - intros j i Hj Hi. destruct (C j i Hj Hi) as (row & cell & E1 & E2 & E3). destruct (NR j row E1) as [b [Fb Nb]].
      destruct (proj2 (mapM_nth _ _ _ _ _ Fb) i cell E2) as [v [Fv Nv]]. assert (v = a j i) by congruence. subst v. unfold entry.
      rewrite (nth_error_nth rows j [] Nb). apply nth_error_nth. exact Nv.
  Qed.
  Lemma rect_all : forall rows I, (forall r : list T, In r rows -> List.length r = I) -> rectangular rows = true.
  Proof.
    intros [|r rows] I H; [reflexivity|]. cbn [rectangular]. apply forallb_forall. intros q Hq. apply Nat.eqb_eq. rewrite (H q (or_intror Hq)), (H r (or_introl eq_refl)). reflexivity.
  Qed.
  Lemma rect_inv : forall r rows, rectangular (r :: rows) = true -> forall q : list T, In q (r :: rows) -> List.length q = List.length r.
  Proof. intros r rows H q [<-|I]; [reflexivity|]. cbn [rectangular] in H. rewrite forallb_forall in H. apply Nat.eqb_eq. apply H. exact I. Qed.
  Lemma c92_read2 : forall file o, read_csv_into_2darray parse file = Ok o -> (0 < n0 o)%nat /\ table parse file (n0 o) (n1 o) (at2 o).
  Proof.
    intros file o H. unfold read_csv_into_2darray in H. destruct (mapM (mapM parse) file) as [rows|] eqn:E; [|discriminate]. cbn [bind] in H.
    destruct rows as [|r rows]; [discriminate|]. destruct (rectangular (r :: rows)) eqn:R; [|discriminate]. injection H as <-. cbn [n0 n1 at2 List.length].
    destruct (mapM_nth _ _ _ _ _ E) as [L NR]. cbn [List.length] in L. split; [lia|]. split; [lia|]. split.
    - intros row Hr. apply In_nth_error in Hr as [j Hj]. destruct (NR j row Hj) as [b [Fb Nb]]. rewrite <- (proj1 (mapM_nth _ _ _ _ _ Fb)).
      apply (rect_inv r rows R). eapply nth_error_In. exact Nb.
    - intros j i Hj Hi. destruct (nth_error file j) as [row|] eqn:F; [|apply nth_error_None in F; lia]. destruct (NR j row F) as [b [Fb Nb]].
      destruct (mapM_nth _ _ _ _ _ Fb) as [Lb Nc]. assert (List.length b = List.length r) by (apply (rect_inv r rows R); eapply nth_error_In; exact Nb).
      destruct (nth_error row i) as [cell|] eqn:G; [|apply nth_error_None in G; lia]. destruct (Nc i cell G) as [v [Fv Nv]]. exists row, cell. split; [reflexivity|]. split; [exact G|].
      rewrite Fv. f_equal. unfold entry. rewrite (nth_error_nth _ _ [] Nb). symmetry. apply nth_error_nth. exact Nv.
  Qed.
  Lemma c92_read2_ok : forall file J I a, (0 < J)%nat -> table parse file J I a -> exists o, read_csv_into_2darray parse file = Ok o /\ n0 o = J /\ n1 o = I /\
    forall j i, (j < J)%nat -> (i < I)%nat -> at2 o j i = a j i.
  Proof.
    intros file J I a HJ Ht. destruct (table_rows file J I a Ht) as (rows & E & L & W & V). unfold read_csv_into_2darray. rewrite E. cbn [bind].
    destruct rows as [|r rows]; [cbn [List.length] in L; lia|]. rewrite (rect_all _ I W). eexists. split; [reflexivity|]. cbn [n0 n1 at2]. split; [exact L|].
    split; [apply W; left; reflexivity|exact V].
  Qed.
  Lemma c92_read2_err : forall file e, (forall c e', parse c = Err e' -> e' = ValueError) -> read_csv_into_2darray parse file = Err e -> e = ValueError.
  Proof.
    intros file e HP H. unfold read_csv_into_2darray in H.
    assert (M : forall A B (f : A -> res B), (forall a e', f a = Err e' -> e' = ValueError) -> forall l e', mapM f l = Err e' -> e' = ValueError).
    { intros A B f Hf. induction l as [|a l IH]; intros e' E; cbn [mapM] in E; [discriminate|]. destruct (f a) eqn:F; cbn [bind] in E; [|injection E as ->; eapply Hf; exact F].
      destruct (mapM f l); cbn [bind] in E; [discriminate|]. injection E as ->. apply IH. reflexivity. }
    destruct (mapM (mapM parse) file) as [rows|x] eqn:E; cbn [bind] in H.
    - destruct rows; [congruence|]. destruct (rectangular _); congruence.
    - injection H as <-. apply (M _ _ (mapM parse) (M _ _ parse HP) file). exact E.
  Qed.

  (** *** Several tables *)
  Lemma separator_spec : forall row, separator row = true <-> row = comma.
  Proof.
    intros [|a [|b [|c row]]]; cbn [separator]; try (split; [discriminate|intro E; discriminate E]).
    rewrite andb_true_iff, !String.eqb_eq. unfold comma. split; [intros [-> ->]; reflexivity|intro E; injection E as -> ->; auto].
  Qed.
  Lemma blocks_read : forall b rows rest data, ~ In comma b -> mapM (mapM parse) b = Ok rows -> blocks parse (b ++ rest) data = blocks parse rest (data ++ rows).
  Proof.
    induction b as [|row b IH]; intros rows rest data N0 E; cbn [mapM] in E.
    - injection E as <-. rewrite app_nil_r. reflexivity.
    - destruct (mapM parse row) as [v|] eqn:F; [|discriminate]. cbn [bind] in E. destruct (mapM (mapM parse) b) as [rs|] eqn:G; [|discriminate]. cbn [bind] in E. injection E as <-.
      cbn [app blocks]. destruct (separator row) eqn:S; [apply separator_spec in S; exfalso; apply N0; left; exact S|]. rewrite F. cbn [bind].
      rewrite (IH rs rest (data ++ [v])%list); [|intro X; apply N0; right; exact X|reflexivity]. rewrite <- app_assoc. reflexivity.
  Qed.
  Lemma fit_table : forall J I m a, (0 < J)%nat -> List.length m = J -> (forall r : list T, In r m -> List.length r = I) -> (forall j i, (j < J)%nat -> (i < I)%nat -> entry m j i = a j i) ->
    exists f, fit J I m = Ok f /\ forall j i, (j < J)%nat -> (i < I)%nat -> f j i = a j i.
  Proof.
    intros J I m a HJ L W V. unfold fit. rewrite (rect_all m I W). destruct m as [|r m]; [cbn [List.length] in L; lia|].
    rewrite L, (W r (or_introl eq_refl)), !Nat.eqb_refl. cbn [orb andb]. eexists. split; [reflexivity|]. intros j i Hj Hi.
    assert (Ej : (if Nat.eqb J 1 then 0 else j) = j) by (destruct (Nat.eqb_spec J 1); lia).
    assert (Ei : (if Nat.eqb I 1 then 0 else i) = i) by (destruct (Nat.eqb_spec I 1); lia). cbn beta zeta iota. rewrite Ej, Ei. apply V; assumption.
  Qed.
  Lemma tables_blocks : forall J I file l, (0 < J)%nat -> tables parse J I file l -> exists bs fs, blocks parse file [] = Ok bs /\ mapM (fit J I) bs = Ok fs /\
    List.length bs = List.length l /\ List.length fs = List.length l /\
    (exists m bs', bs = m :: bs' /\ List.length m = J /\ (forall r, In r m -> List.length r = I)) /\
    forall r j i, (r < List.length l)%nat -> (j < J)%nat -> (i < I)%nat -> nth r fs (fun _ _ => nnan) j i = nth r l (fun _ _ => nnan) j i.
  Proof.
    intros J I file l HJ H. induction H as [file a Ht Hn|file a rest l Ht Hn H IH].
    - destruct (table_rows file J I a Ht) as (rows & E & L & W & V). destruct (fit_table J I rows a HJ L W V) as [f [F Vf]].
      exists [rows], [f]. assert (B := blocks_read file rows [] [] Hn E). rewrite app_nil_r in B. cbn [blocks app] in B. split; [exact B|].
      cbn [mapM]. rewrite F. split; [reflexivity|]. split; [reflexivity|]. split; [reflexivity|]. split; [exists rows, []; auto|].
      intros r j i Hr Hj Hi. cbn [List.length] in Hr. replace r with 0%nat by lia. apply Vf; assumption.
    - destruct (table_rows file J I a Ht) as (rows & E & L & W & V). destruct (fit_table J I rows a HJ L W V) as [f [F Vf]]. destruct IH as (bs & fs & B & M & L1 & L2 & _ & Vl).
      exists (rows :: bs), (f :: fs). assert (B' := blocks_read file rows (comma :: rest) [] Hn E). cbn [app] in B'. rewrite B'. cbn [blocks].
      replace (separator comma) with true by reflexivity. rewrite B. cbn [bind]. split; [reflexivity|]. cbn [mapM]. rewrite F, M. split; [reflexivity|].
      split; [cbn [List.length]; lia|]. split; [cbn [List.length]; lia|]. split; [exists rows, bs; auto|].
      intros [|r] j i Hr Hj Hi; cbn [nth]; [apply Vf; assumption|apply Vl; [cbn [List.length] in Hr; lia|assumption|assumption]].
  Qed.
  Lemma c92_read3 : forall J I file l, (0 < J)%nat -> tables parse J I file l -> exists u, read_csv_into_3darray parse file = Ok u /\ dE u = J /\ dS u = I /\ dR u = List.length l /\
    forall j i r, (j < J)%nat -> (i < I)%nat -> (r < List.length l)%nat -> at3 u j i r = nth r l (fun _ _ => nnan) j i.
  Proof.
    intros J I file l HJ H. destruct (tables_blocks J I file l HJ H) as (bs & fs & B & M & L1 & L2 & (m & bs' & -> & Lm & Wm) & V).
    unfold read_csv_into_3darray. rewrite B. cbn [bind]. destruct m as [|row m]; [cbn [List.length] in Lm; lia|].
    replace (S (List.length m)) with J by (cbn [List.length] in Lm; lia). rewrite (Wm row (or_introl eq_refl)), M. cbn [bind]. eexists. split; [reflexivity|].
    cbn [dE dS dR at3]. split; [reflexivity|]. split; [reflexivity|]. split; [exact L1|]. intros j i r Hj Hi Hr. apply V; assumption.
  Qed.

  (** ** From file to result *)
  Lemma c92_program2 : forall file J I a, (0 < J)%nat -> table parse file J I a ->
    demo_p910 parse file = match ap_solve chi true true (Arr3 J I 1 (fun j i _ => a j i)) (Arr3 J I 1 (fun j i _ => a j i)) with Ok m => Ok (projected m) | Err e => Err e end.
  Proof.
    intros file J I a HJ Ht. destruct (c92_read2_ok file J I a HJ Ht) as (o & E & A & B & V). unfold demo_p910. rewrite E. cbn [bind]. rewrite c92_once, <- c92_same3.
    apply c92_ext3. split; [exact A|]. split; [exact B|]. split; [reflexivity|]. cbn [once dE dS dR at3]. intros j i r Hj Hi _. apply V; lia.
  Qed.
  Lemma c92_program3 : forall file (u : arr3 T), (0 < dE u)%nat -> (0 < dR u)%nat -> tables parse (dE u) (dS u) file (map (fun r j i => at3 u j i r) (seq 0 (dR u))) ->
    demo_bt500 parse file = match ap_solve chi true true u u with Ok m => Ok (projected m) | Err e => Err e end.
  Proof.
    intros file u HJ HR Ht. destruct (c92_read3 _ _ file _ HJ Ht) as (v & E & A & B & C & V). unfold demo_bt500. rewrite E. cbn [bind]. rewrite <- c92_same3.
    rewrite map_length, seq_length in C, V. apply c92_ext3. split; [exact A|]. split; [exact B|]. split; [exact C|]. intros j i r Hj Hi Hr. rewrite V by lia.
    rewrite (BaseProofs.nth_map_seq _ (fun r j i => at3 u j i r)) by lia. reflexivity.
  Qed.
  (** The package's model on the same votes. *)
  Lemma c92_package : forall file (rd : reader T) c kw pp m, is_alt c = true -> preprocess rd kw = Ok pp -> kw_normalize_final kw = false -> kw_transform_final kw = None ->
    (0 < dE (pp_arr pp))%nat -> (0 < dR (pp_arr pp))%nat ->
    tables parse (dE (pp_arr pp)) (dS (pp_arr pp)) file (map (fun r j i => at3 (pp_arr pp) j i r) (seq 0 (dR (pp_arr pp)))) ->
    ap_run_modeling chi c rd kw None = Ok m -> demo_bt500 parse file = Ok (projected m).
  Proof.
    intros file rd c kw pp m Hc Hp Hn Ht HJ HR Hf H. unfold ap_run_modeling in H. rewrite Hp, Hc in H. cbn [bind] in H.
    rewrite (c92_program3 file (pp_arr pp) HJ HR Hf). rewrite <- c92_same3. rewrite (c92_same3 (pp_arr pp) (pp_orig pp)).
    destruct (ap_solve chi true true (pp_arr pp) (pp_orig pp)) as [a|]; [|discriminate]. cbn [bind] in H. destruct (attach_observers rd); [|discriminate]. cbn [bind] in H.
    injection H as <-. unfold projected. cbn [ap_quality ap_quality_std ap_bias ap_incons]. unfold postprocess. rewrite Hn, Ht. reflexivity.
  Qed.
End DemoProofs.
