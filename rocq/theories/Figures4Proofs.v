(** Lemmas for claim C101: the figures of the subjects and the contents. *)
From Coq Require Import String.
From Coq Require Import List ZArith Bool Arith Lia Reals Lra Sorted Permutation.
From Verif Require Import PyBase Num ExtReal NumPy Dataset Stats Figures SpecDataset SpecMos SpecStats SpecFigures
  BaseProofs ExtRealProofs ArrayProofs FiguresProofs Figures2Proofs Figures3Proofs.
Import ListNotations.
Local Open Scope list_scope.

Lemma map_nth_seq : forall (ys : list R), map (fun v => Fin (nth v ys 0%R)) (seq 0 (length ys)) = map Fin ys.
Proof.
  intro ys. rewrite <- (map_map (fun v => nth v ys 0%R) Fin). f_equal. apply (nth_ext _ _ 0%R 0%R); [rewrite map_length, seq_length; reflexivity|].
  intros k Hk. rewrite map_length, seq_length in Hk. rewrite (nth_indep _ _ (nth 0 ys 0%R)) by (rewrite map_length, seq_length; exact Hk).
  rewrite (map_nth (fun v => nth v ys 0%R)). rewrite seq_nth by exact Hk. reflexivity.
Qed.
Lemma series_plain : forall pt s type bic ys ci n, pt <> POther -> (s < 8)%nat -> length ys = n ->
  exists x, series_of pt s type bic (map Fin ys) ci = Ok x /\ (estimates_shown pt (seq 0 n) s type ys ci x /\ legend pt bic ci x) /\ length (se_y x) = n.
Proof.
  intros pt s type bic ys ci n Hp Hs <-. destruct (series_of_ok pt s type bic ys ci (seq 0 (length ys)) Hp Hs) as (x & E & S & Gx).
  - intros v Hv. apply in_seq in Hv. lia.
  - rewrite map_nth_seq in E. exists x. split; [exact E|]. split; [split; assumption|]. destruct S as (_ & _ & _ & L & _). rewrite L, seq_length. reflexivity.
Qed.
Lemma limits_ok : forall (ys : list R) n, length ys = n -> (0 < n)%nat -> limits (map Fin ys) = Ok tt.
Proof. intros [|y ys] n <- H; [cbn in H; lia|reflexivity]. Qed.

(** One chart of one result. *)
Definition opt_list {A} (o : option A) : list A := match o with Some x => [x] | None => [] end.
Lemma add_app : forall A (l : list A) o, add l o = l ++ opt_list o.
Proof. intros A l [x|]; cbn; [reflexivity|symmetry; apply app_nil_r]. Qed.
Definition one (r : @shown ef) (s : nat) : list (nat * @shown ef) := if counted r then [(s, r)] else [].
Lemma axis_step : forall pt get ci n s r, pt <> POther -> (0 < n)%nat -> (counted r = true -> (s < 8)%nat) -> of_length n (get r) -> (given (get r) = true -> counted r = true) ->
  exists b, match get r with
            | Some v => do x <- series_of pt s (sh_type r) None v (ci r); do _ <- limits v; Ok (Some x)
            | None => Ok None
            end = Ok b /\ given b = given (get r) /\ (forall x, b = Some x -> length (se_y x) = n) /\
            Forall2 (entry_shown pt get ci n) (filter (fun sr => given (get (snd sr))) (one r s)) (opt_list b).
Proof.
  intros pt get ci n s r Hp Hn Hs HL HC. destruct (get r) as [v|] eqn:E.
  - destruct (HL v eq_refl) as (ys & -> & L). destruct (series_plain pt s (sh_type r) None ys (ci r) n Hp (Hs (HC eq_refl)) L) as (x & Ex & Sx & Lx). rewrite Ex. cbn [bind]. rewrite (limits_ok ys n L Hn). cbn [bind].
    exists (Some x). split; [reflexivity|]. split; [reflexivity|]. split; [intros x' Hx; injection Hx as <-; exact Lx|]. unfold one. rewrite (HC eq_refl). cbn [filter snd]. rewrite E. cbn [given opt_list].
    constructor; [|constructor]. exists ys. cbn [fst snd]. auto.
  - exists None. split; [reflexivity|]. split; [reflexivity|]. split; [discriminate|]. unfold one. destruct (counted r); cbn [filter snd]; rewrite ?E; constructor.
Qed.
Lemma reject_step : forall (on : bool) get n s r, (0 < n)%nat -> (counted r = true -> (s < 8)%nat) -> of_length n (get r) -> (given (get r) = true -> counted r = true) ->
  exists b, reject_series on s (sh_type r) (get r) = Ok b /\ given b = (given (get r) && on) /\ (forall x, b = Some x -> length (se_y x) = n) /\
            (on = true -> Forall2 (entry_shown PBar get no_margins n) (filter (fun sr => given (get (snd sr))) (one r s)) (opt_list b)).
Proof.
  intros on get n s r Hn Hs HL HC. unfold reject_series. destruct on.
  - destruct (axis_step PBar get no_margins n s r ltac:(discriminate) Hn Hs HL HC) as (b & E & G & L & F). exists b.
    destruct (get r); (split; [exact E|]; split; [rewrite G; reflexivity|]; split; [exact L|intros _; exact F]).
  - exists None. destruct (get r); (split; [reflexivity|]; split; [reflexivity|]; split; [discriminate|discriminate]).
Qed.
Lemma len_or_n : forall n old (b : option series), (forall x : @series ef, b = Some x -> length (se_y x) = n) -> len_or old b = if given b then Some n else old.
Proof. intros n old [x|] H; cbn; [rewrite (H x eq_refl); reflexivity|reflexivity]. Qed.
Definition tick_of (old : option (list string)) (r : @shown ef) : option (list string) :=
  match sh_bias r, sh_observers r with Some _, Some o => Some o | _, _ => old end.
Definition memb_axes (key : string) (axes : list string) : bool := memb String.eqb key axes.
Definition drawnb (axes : list string) (r : @shown ef) : bool :=
  given (sh_bias r) || given (sh_incons r) || (given (sh_rejected r) && memb_axes "ax_rejected" axes) ||
  (given (sh_rejected1 r) && memb_axes "ax_rejected_1st_stats" axes) || (given (sh_rejected2 r) && memb_axes "ax_rejected_2nd_stats" axes).
Lemma step_ok : forall axes pt n st r, pt <> POther -> (0 < n)%nat -> (counted r = true -> (sf_shift st < 8)%nat) -> subjects_ok n [r] ->
  exists st' l1 l2 l3 l4 l5, subject_step axes pt st r = Ok st' /\
    sf_bias st' = sf_bias st ++ l1 /\ Forall2 (entry_shown pt sh_bias sh_bias_ci n) (filter (fun sr => given (sh_bias (snd sr))) (one r (sf_shift st))) l1 /\
    sf_incons st' = sf_incons st ++ l2 /\ Forall2 (entry_shown pt sh_incons sh_incons_ci n) (filter (fun sr => given (sh_incons (snd sr))) (one r (sf_shift st))) l2 /\
    sf_rejected st' = sf_rejected st ++ l3 /\ (memb_axes "ax_rejected" axes = true -> Forall2 (entry_shown PBar rejected_of no_margins n) (filter (fun sr => given (rejected_of (snd sr))) (one r (sf_shift st))) l3) /\
    sf_rejected1 st' = sf_rejected1 st ++ l4 /\ (memb_axes "ax_rejected_1st_stats" axes = true -> Forall2 (entry_shown PBar sh_rejected1 no_margins n) (filter (fun sr => given (sh_rejected1 (snd sr))) (one r (sf_shift st))) l4) /\
    sf_rejected2 st' = sf_rejected2 st ++ l5 /\ (memb_axes "ax_rejected_2nd_stats" axes = true -> Forall2 (entry_shown PBar sh_rejected2 no_margins n) (filter (fun sr => given (sh_rejected2 (snd sr))) (one r (sf_shift st))) l5) /\
    sf_len st' = (if drawnb axes r then Some n else sf_len st) /\ sf_ticks st' = tick_of (sf_ticks st) r /\ sf_shift st' = (length (one r (sf_shift st)) + sf_shift st)%nat.
Proof.
  intros axes pt n st r Hp Hn Hs HS. destruct (HS r (or_introl eq_refl)) as (B & I & J & J1 & J2 & O & C1 & C2). unfold subject_step.
  destruct (axis_step pt sh_bias sh_bias_ci n (sf_shift st) r Hp Hn Hs B) as (b & Eb & Gb & Lb & Fb); [intro G; unfold counted; rewrite G; reflexivity|].
  destruct (axis_step pt sh_incons sh_incons_ci n (sf_shift st) r Hp Hn Hs I) as (i & Ei & Gi & Li & Fi); [intro G; unfold counted; rewrite G, orb_true_r; reflexivity|].
  destruct (reject_step (memb_axes "ax_rejected" axes) rejected_of n (sf_shift st) r Hn Hs J) as (j & Ej & Gj & Lj & Fj).
  { intro G. unfold counted. unfold rejected_of in G. destruct (sh_rejected r); [cbn; rewrite orb_true_r; reflexivity|discriminate]. }
  destruct (reject_step (memb_axes "ax_rejected_1st_stats" axes) sh_rejected1 n (sf_shift st) r Hn Hs J1 C1) as (j1 & Ej1 & Gj1 & Lj1 & Fj1).
  destruct (reject_step (memb_axes "ax_rejected_2nd_stats" axes) sh_rejected2 n (sf_shift st) r Hn Hs J2 C2) as (j2 & Ej2 & Gj2 & Lj2 & Fj2).
  unfold rejected_of, ones, memb_axes in Ej, Ej1, Ej2.
  rewrite Eb. cbn [bind].
  assert (ET : match sh_bias r, sh_observers r with
               | Some v, Some o => if Nat.eqb (length v) (length o) then Ok (Some o) else Err AssertionError
               | _, _ => Ok (sf_ticks st)
               end = Ok (tick_of (sf_ticks st) r)).
  { unfold tick_of. destruct (sh_bias r) as [v|] eqn:EB; [|reflexivity]. destruct (sh_observers r) as [o|] eqn:EO; [|reflexivity].
    destruct (B v eq_refl) as (ys & -> & L). rewrite map_length, L, (O o eq_refl), Nat.eqb_refl. reflexivity. }
  rewrite ET. cbn [bind]. rewrite Ei. cbn [bind].
  change (@none_ ef Num_ef) with (Fin 1). change (@nzero ef Num_ef) with (Fin 0). rewrite Ej. cbn [bind]. rewrite Ej1. cbn [bind]. rewrite Ej2. cbn [bind].
  exists (SubjectFig (add (sf_bias st) b) (add (sf_incons st) i) (add (sf_rejected st) j) (add (sf_rejected1 st) j1) (add (sf_rejected2 st) j2)
          (len_or (len_or (len_or (len_or (len_or (sf_len st) b) i) j) j1) j2) (tick_of (sf_ticks st) r) (length (one r (sf_shift st)) + sf_shift st)),
    (opt_list b), (opt_list i), (opt_list j), (opt_list j1), (opt_list j2).
  split.
  - f_equal. f_equal. unfold one, counted, given. destruct (sh_bias r), (sh_incons r), (sh_rejected r); reflexivity.
  - cbn [sf_bias sf_incons sf_rejected sf_rejected1 sf_rejected2 sf_len sf_ticks sf_shift]. rewrite !add_app. repeat (split; [reflexivity || assumption|]). split.
    + rewrite !(len_or_n n) by assumption. rewrite Gb, Gi, Gj, Gj1, Gj2. unfold drawnb. unfold rejected_of.
      replace (given (ones (sh_rejected r))) with (given (sh_rejected r)) by (destruct (sh_rejected r); reflexivity).
      destruct (given (sh_bias r)), (given (sh_incons r)), (given (sh_rejected r) && _), (given (sh_rejected1 r) && _), (given (sh_rejected2 r) && _); reflexivity.
    + auto.
Qed.
Lemma numbered_cons : forall s r rs, numbered_from s (filter counted (r :: rs)) = one r s ++ numbered_from (length (one r s) + s) (filter counted rs).
Proof. intros s r rs. unfold numbered_from, one. cbn [filter]. destruct (counted r); reflexivity. Qed.
Definition drawn_any axes rs := existsb (drawnb axes) rs.
Lemma fold_ok : forall axes pt n rs st, pt <> POther -> (0 < n)%nat -> (sf_shift st + length (filter counted rs) <= 8)%nat -> subjects_ok n rs ->
  exists st' l1 l2 l3 l4 l5, foldM (subject_step axes pt) rs st = Ok st' /\
    sf_bias st' = sf_bias st ++ l1 /\ entries pt sh_bias sh_bias_ci n (sf_shift st) rs l1 /\
    sf_incons st' = sf_incons st ++ l2 /\ entries pt sh_incons sh_incons_ci n (sf_shift st) rs l2 /\
    sf_rejected st' = sf_rejected st ++ l3 /\ (memb_axes "ax_rejected" axes = true -> entries PBar rejected_of no_margins n (sf_shift st) rs l3) /\
    sf_rejected1 st' = sf_rejected1 st ++ l4 /\ (memb_axes "ax_rejected_1st_stats" axes = true -> entries PBar sh_rejected1 no_margins n (sf_shift st) rs l4) /\
    sf_rejected2 st' = sf_rejected2 st ++ l5 /\ (memb_axes "ax_rejected_2nd_stats" axes = true -> entries PBar sh_rejected2 no_margins n (sf_shift st) rs l5) /\
    sf_len st' = (if drawn_any axes rs then Some n else sf_len st) /\ sf_ticks st' = fold_left tick_of rs (sf_ticks st).
Proof.
  intros axes pt n rs. induction rs as [|r rs IH]; intros st Hp Hn H8 HS; cbn [foldM].
  - exists st, [], [], [], [], []. unfold entries, numbered_from. cbn [filter length seq combine fold_left drawn_any existsb]. rewrite !app_nil_r. repeat split; intros; constructor.
  - destruct (step_ok axes pt n st r Hp Hn) as (st1 & a1 & a2 & a3 & a4 & a5 & E & S1 & F1 & S2 & F2 & S3 & F3 & S4 & F4 & S5 & F5 & SL & ST & SS).
    { intro C. cbn [filter] in H8. rewrite C in H8. cbn [length] in H8. lia. }
    { intros r' [<-|[]]. apply HS. left. reflexivity. }
    rewrite E. cbn [bind]. destruct (IH st1 Hp Hn) as (st2 & b1 & b2 & b3 & b4 & b5 & E' & S1' & F1' & S2' & F2' & S3' & F3' & S4' & F4' & S5' & F5' & SL' & ST').
    { rewrite SS. unfold one. cbn [filter] in H8. destruct (counted r); cbn [length] in *; lia. }
    { intros r' Hr'. apply HS. right. exact Hr'. }
    exists st2, (a1 ++ b1), (a2 ++ b2), (a3 ++ b3), (a4 ++ b4), (a5 ++ b5). split; [exact E'|].
    unfold entries in *. rewrite !numbered_cons, !filter_app. rewrite SS in F1', F2', F3', F4', F5'.
    rewrite S1', S1, S2', S2, S3', S3, S4', S4, S5', S5, !app_assoc.
    repeat (split; [solve [reflexivity | apply Forall2_app; assumption | intro K; apply Forall2_app; auto]|]). split.
    + rewrite SL', SL. unfold drawn_any. cbn [existsb]. destruct (drawnb axes r), (existsb (drawnb axes) rs); reflexivity.
    + rewrite ST', ST. reflexivity.
Qed.
Lemma ticks_last : forall rs old, (exists o, last_names rs o /\ fold_left tick_of rs old = Some o) \/ ((forall r o, In r rs -> ~ has_names r o) /\ fold_left tick_of rs old = old).
Proof.
  induction rs as [|r rs IH] using rev_ind; intro old.
  - right. split; [intros r o []|reflexivity].
  - rewrite fold_left_app. cbn [fold_left]. unfold tick_of at 1 3. destruct (sh_bias r) as [v|] eqn:EB; [destruct (sh_observers r) as [o|] eqn:EO|].
    + left. exists o. split; [|reflexivity]. exists rs, r, []. split; [reflexivity|]. split; [split; [rewrite EB; reflexivity|exact EO]|]. intros r' o' [].
    + destruct (IH old) as [(o & (l & r1 & l' & -> & H1 & H2) & ->)|[H ->]]; [left|right].
      * exists o. split; [|reflexivity]. exists l, r1, (l' ++ [r]). split; [rewrite <- app_assoc; reflexivity|]. split; [exact H1|]. intros r' o' I. apply in_app_iff in I as [I|[<-|[]]]; [apply H2; exact I|].
        intros [_ K]. congruence.
      * split; [|reflexivity]. intros r' o' I. apply in_app_iff in I as [I|[<-|[]]]; [apply H; exact I|]. intros [_ K]. congruence.
    + destruct (IH old) as [(o & (l & r1 & l' & -> & H1 & H2) & ->)|[H ->]]; [left|right].
      * exists o. split; [|reflexivity]. exists l, r1, (l' ++ [r]). split; [rewrite <- app_assoc; reflexivity|]. split; [exact H1|]. intros r' o' I. apply in_app_iff in I as [I|[<-|[]]]; [apply H2; exact I|].
        intros [K _]. rewrite EB in K. discriminate.
      * split; [|reflexivity]. intros r' o' I. apply in_app_iff in I as [I|[<-|[]]]; [apply H; exact I|]. intros [K _]. rewrite EB in K. discriminate.
Qed.
Lemma memb_axes_spec : forall key axes, memb_axes key axes = true <-> In key axes.
Proof. intros. apply (memb_In string String.eqb String.eqb_eq). Qed.
Lemma drawnb_spec : forall axes r, drawnb axes r = true <-> any_drawn axes r.
Proof. intros axes r. unfold drawnb, any_drawn. rewrite !orb_true_iff, !andb_true_iff, !memb_axes_spec. tauto. Qed.
Lemma chart_of : forall axes key get n rs l, (memb_axes key axes = true -> entries PBar get no_margins n 0 rs l) -> chart axes key get n rs (if memb_axes key axes then [DSeries key (OnAxes key) l] else []).
Proof.
  intros axes key get n rs l H. destruct (memb_axes key axes) eqn:E.
  - right. split; [apply memb_axes_spec; exact E|]. exists l. split; [reflexivity|apply H; reflexivity].
  - left. split; [intro I; apply memb_axes_spec in I; congruence|reflexivity].
Qed.
Lemma c101_subjects : forall numbered axes pt n rs, pt <> POther -> (0 < n)%nat -> (length (filter counted rs) <= 8)%nat -> subjects_ok n rs ->
  exists p1 p2 l1 l2 d3 d4 d5 names,
    fig_subjects numbered axes pt rs = Ok ([DSeries "observer_bias" p1 l1; DSeries "observer_inconsistency" p2 l2] ++ d3 ++ d4 ++ d5 ++ names) /\
    entries pt sh_bias sh_bias_ci n 0 rs l1 /\ entries pt sh_incons sh_incons_ci n 0 rs l2 /\
    chart axes "ax_rejected" rejected_of n rs d3 /\ chart axes "ax_rejected_1st_stats" sh_rejected1 n rs d4 /\ chart axes "ax_rejected_2nd_stats" sh_rejected2 n rs d5 /\
    names_below numbered axes n rs names.
Proof.
  intros numbered axes pt n rs Hp Hn H8 HS. unfold fig_subjects.
  destruct (fold_ok axes pt n rs (SubjectFig [] [] [] [] [] None None 0) Hp Hn H8 HS) as (st & l1 & l2 & l3 & l4 & l5 & E & S1 & F1 & S2 & F2 & S3 & F3 & S4 & F4 & S5 & F5 & SL & ST).
  rewrite E. cbn [bind]. cbn [sf_bias sf_incons sf_rejected sf_rejected1 sf_rejected2 sf_len sf_ticks sf_shift app] in *. rewrite S1, S2, S3, S4, S5.
  eexists _, _, l1, l2, _, _, _, _. split; [reflexivity|]. split; [exact F1|]. split; [exact F2|]. split; [apply chart_of; exact F3|]. split; [apply chart_of; exact F4|]. split; [apply chart_of; exact F5|].
  rewrite SL, ST. destruct (ticks_last rs None) as [(o & HO & ->)|[HO ->]].
  - left. exists o. split; [exact HO|]. split; [|reflexivity]. destruct HO as (l & r & l' & -> & [_ EO] & _). destruct (HS r) as (_ & _ & _ & _ & _ & O & _); [apply in_app_iff; right; left; reflexivity|]. exact (O o EO).
  - unfold drawn_any. destruct (existsb (drawnb axes) rs) eqn:ED; [right; left|right; right].
    + split; [exact HO|]. apply existsb_exists in ED as (r & Ir & Dr). split; [exists r; split; [exact Ir|apply drawnb_spec; exact Dr]|].
      destruct n as [|n]; [lia|]. exists (map numbered (seq 1 (S n))), (filter (fun key => memb_axes key axes) ["ax_rejected"; "ax_rejected_1st_stats"; "ax_rejected_2nd_stats"]%string).
      split; [reflexivity|]. split; [|split; [apply filter_sublist|]].
      * assert (ET : map (fun k => numbered (S k)) (seq 0 (S n)) = map numbered (seq 1 (S n))) by (rewrite <- seq_shift, map_map; reflexivity). rewrite ET.
        cbn [map app]. f_equal. unfold memb_axes. cbn [flat_map filter]. repeat (match goal with |- context [memb String.eqb ?k axes] => destruct (memb String.eqb k axes) end); reflexivity.
      * intro key. rewrite filter_In, memb_axes_spec. reflexivity.
    + split; [|reflexivity]. intros r Ir D. apply drawnb_spec in D. assert (K : existsb (drawnb axes) rs = true) by (apply existsb_exists; exists r; auto). congruence.
Qed.
Lemma c101_mismatch : forall numbered axes pt r rs ys o, pt <> POther -> sh_bias r = Some (map Fin ys) -> ys <> [] -> sh_observers r = Some o -> length o <> length ys ->
  fig_subjects numbered axes pt (r :: rs) = Err AssertionError.
Proof.
  intros numbered axes pt r rs ys o Hp EB Hy EO D. unfold fig_subjects. cbn [foldM]. unfold subject_step. cbn [sf_shift]. rewrite EB.
  destruct (series_plain pt 0 (sh_type r) None ys (sh_bias_ci r) (length ys) Hp ltac:(lia) eq_refl) as (x & E & _ & _). rewrite E. cbn [bind].
  rewrite (limits_ok ys (length ys) eq_refl) by (destruct ys; [contradiction Hy; reflexivity|cbn; lia]). cbn [bind]. rewrite EO, map_length.
  replace (Nat.eqb (length ys) (length o)) with false by (symmetry; apply Nat.eqb_neq; congruence). reflexivity.
Qed.

(** ** Contents *)
Lemma set_tick_ok : forall ticks r name k, points_to (length ticks) r k -> content_name r name ->
  set_tick ticks r = Ok (firstn k ticks ++ name :: skipn (S k) ticks).
Proof.
  intros ticks r name k [Hk HC] HN. unfold set_tick. rewrite HN. cbv zeta.
  assert (E : (if (rv_cid r <? 0)%Z then (rv_cid r + Z.of_nat (length ticks))%Z else rv_cid r) = Z.of_nat k) by (destruct (Z.ltb_spec (rv_cid r) 0); lia). rewrite E.
  replace ((0 <=? Z.of_nat k)%Z && (Z.of_nat k <? Z.of_nat (length ticks))%Z) with true by (symmetry; apply andb_true_iff; split; [apply Z.leb_le; lia|apply Z.ltb_lt; lia]).
  rewrite Nat2Z.id. reflexivity.
Qed.
Lemma set_nth : forall A (l : list A) k x d j, (k < length l)%nat -> length (firstn k l ++ x :: skipn (S k) l) = length l /\ nth j (firstn k l ++ x :: skipn (S k) l) d = if Nat.eqb j k then x else nth j l d.
Proof.
  intros A l. induction l as [|y l IH]; intros k x d j Hk; [cbn in Hk; lia|]. destruct k as [|k].
  - cbn. split; [reflexivity|]. destruct j; reflexivity.
  - cbn [firstn skipn app length] in *. destruct (IH k x d (pred j)) as [L N]; [lia|]. split; [f_equal; exact L|]. destruct j as [|j]; [reflexivity|]. cbn [nth Nat.eqb]. cbn [pred] in N. exact N.
Qed.
Lemma points_fun : forall n r k k', points_to n r k -> points_to n r k' -> k = k'.
Proof. intros n r k k' [H1 H2] [H3 H4]. lia. Qed.
Lemma points_dec : forall n r k, points_to n r k \/ ~ points_to n r k.
Proof. intros n r k. unfold points_to. lia. Qed.
Lemma ticks_ok : forall refs n ticks, length ticks = n -> (forall r, In r refs -> (exists k, points_to n r k) /\ exists name, content_name r name) ->
  exists t, foldM set_tick refs ticks = Ok t /\ length t = n /\
    forall k, (exists l r l' , refs = l ++ r :: l' /\ points_to n r k /\ content_name r (nth k t ""%string) /\ forall r', In r' l' -> ~ points_to n r' k) \/
              ((forall r, In r refs -> ~ points_to n r k) /\ nth k t ""%string = nth k ticks ""%string).
Proof.
  induction refs as [|r refs IH]; intros n ticks L H; cbn [foldM].
  - exists ticks. split; [reflexivity|]. split; [exact L|]. intro k. right. split; [intros r []|reflexivity].
  - destruct (H r (or_introl eq_refl)) as [(k0 & P0) (name & N0)]. assert (P0' := P0). rewrite <- L in P0'. rewrite (set_tick_ok ticks r name k0 P0' N0). cbn [bind].
    assert (K0 : (k0 < length ticks)%nat) by (destruct P0'; assumption).
    destruct (IH n (firstn k0 ticks ++ name :: skipn (S k0) ticks)) as (t & E & Lt & Ht).
    + rewrite <- L. apply (set_nth _ ticks k0 name ""%string 0 K0).
    + intros r' Hr'. apply H. right. exact Hr'.
    + exists t. split; [exact E|]. split; [exact Lt|]. intro k. destruct (Ht k) as [(l & r1 & l' & -> & P & N & Q)|[Q N]].
      * left. exists (r :: l), r1, l'. auto.
      * rewrite (proj2 (set_nth _ ticks k0 name ""%string k K0)) in N. destruct (Nat.eqb_spec k k0) as [->|D].
        -- left. exists [], r, refs. split; [reflexivity|]. split; [exact P0|]. split; [rewrite N; exact N0|exact Q].
        -- right. split; [|exact N]. intros r' [<-|Hr'] P; [apply D; exact (points_fun n r k k0 P P0)|exact (Q r' Hr' P)].
Qed.
Lemma content_series_ok : forall pt n rs s, pt <> POther -> (forall r, In r rs -> of_length n (sh_ambiguity r)) -> (s + length (filter (fun r => given (sh_ambiguity r)) rs) <= 8)%nat ->
  exists l, content_series pt s rs = Ok l /\ Forall2 (entry_shown pt sh_ambiguity sh_ambiguity_ci n) (numbered_from s (filter (fun r => given (sh_ambiguity r)) rs)) l /\ Forall (fun x => length (se_y x) = n) l.
Proof.
  intros pt n rs. induction rs as [|r rs IH]; intros s Hp HS H8; cbn [content_series filter].
  - exists []. repeat split; constructor.
  - assert (HS' : forall r', In r' rs -> of_length n (sh_ambiguity r')) by (intros r' Hr'; apply HS; right; exact Hr'). assert (Hr := HS r (or_introl eq_refl)). cbn [filter] in H8.
    destruct (sh_ambiguity r) as [v|] eqn:EQ; cbn [given] in *.
    + destruct (Hr v eq_refl) as (ys & -> & L). cbn [length] in H8. destruct (series_plain pt s (sh_type r) None ys (sh_ambiguity_ci r) n Hp ltac:(lia) L) as (x & Ex & Sx & Lx). rewrite Ex. cbn [bind].
      destruct (IH (S s) Hp HS') as (l & El & Fl & Gl); [lia|]. rewrite El. cbn [bind]. exists (x :: l). split; [reflexivity|]. split; [|constructor; assumption].
      unfold numbered_from. cbn [length seq combine]. constructor; [|exact Fl]. exists ys. cbn [fst snd]. auto.
    + apply IH; assumption.
Qed.
Lemma last_len : forall n (l : list (@series ef)), Forall (fun x => length (se_y x) = n) l -> l <> [] -> last (map (fun s => length (se_y s)) l) 0%nat = n.
Proof.
  intros n l H. induction H as [|x l Hx H IH]; intro D; [contradiction D; reflexivity|]. cbn [map]. destruct l as [|y l]; [exact Hx|]. change (last (map (fun s => length (se_y s)) (y :: l)) 0%nat = n). apply IH. discriminate.
Qed.
Lemma c101_contents : forall axes pt n refs rs, pt <> POther -> (0 < n)%nat -> (forall r, In r rs -> of_length n (sh_ambiguity r)) ->
  (0 < length (filter (fun r => given (sh_ambiguity r)) rs) <= 8)%nat -> (forall r, In r refs -> (exists k, points_to n r k) /\ exists name, content_name r name) ->
  exists p l t, fig_contents axes pt refs rs = Ok [DSeries "content_ambiguity" p l; DTicks "content_ambiguity" t] /\
    Forall2 (entry_shown pt sh_ambiguity sh_ambiguity_ci n) (numbered_from 0 (filter (fun r => given (sh_ambiguity r)) rs)) l /\
    length t = n /\ forall k, (k < n)%nat -> named n refs k (nth k t ""%string).
Proof.
  intros axes pt n refs rs Hp Hn HS H8 HR. unfold fig_contents. destruct (content_series_ok pt n rs 0 Hp HS) as (l & El & Fl & Gl); [lia|]. rewrite El. cbn [bind].
  assert (D : l <> []).
  { intros ->. inversion Fl as [K|]. unfold numbered_from in K. destruct (filter _ rs); [cbn in H8; lia|discriminate]. }
  rewrite (last_len n l Gl D). destruct n as [|n]; [lia|]. destruct (ticks_ok refs (S n) (repeat ""%string (S n)) (repeat_length _ _) HR) as (t & Et & Lt & Ht). rewrite Et. cbn [bind].
  eexists _, l, t. split; [reflexivity|]. split; [exact Fl|]. split; [exact Lt|]. intros k Hk. destruct (Ht k) as [H|[H N]]; [left; exact H|right]. split; [exact H|]. rewrite N. apply nth_repeat.
Qed.
Lemma foldM_app_err : forall A B (f : A -> B -> res A) l1 l2 a b, foldM f l1 a = Ok b -> foldM f (l1 ++ l2) a = foldM f l2 b.
Proof.
  intros A B f. induction l1 as [|x l1 IH]; intros l2 a b H; cbn [foldM app] in *; [injection H as ->; reflexivity|]. destruct (f a x) as [a'|e]; cbn [bind] in *; [apply IH; exact H|discriminate].
Qed.
Lemma c101_contents_error : forall axes pt n refs1 r refs2 rs, pt <> POther -> (0 < n)%nat -> (forall r, In r rs -> of_length n (sh_ambiguity r)) ->
  (0 < length (filter (fun r => given (sh_ambiguity r)) rs) <= 8)%nat -> (forall r, In r refs1 -> (exists k, points_to n r k) /\ exists name, content_name r name) ->
  ((forall name, ~ content_name r name) -> fig_contents axes pt (refs1 ++ r :: refs2) rs = Err KeyError) /\
  ((exists name, content_name r name) -> (forall k, ~ points_to n r k) -> fig_contents axes pt (refs1 ++ r :: refs2) rs = Err IndexError).
Proof.
  intros axes pt n refs1 r refs2 rs Hp Hn HS H8 HR. unfold fig_contents. destruct (content_series_ok pt n rs 0 Hp HS) as (l & El & Fl & Gl); [lia|]. rewrite El. cbn [bind].
  assert (D : l <> []).
  { intros ->. inversion Fl as [K|]. unfold numbered_from in K. destruct (filter _ rs); [cbn in H8; lia|discriminate]. }
  rewrite (last_len n l Gl D). destruct n as [|n]; [lia|]. destruct (ticks_ok refs1 (S n) (repeat ""%string (S n)) (repeat_length _ _) HR) as (t & Et & Lt & _).
  rewrite (foldM_app_err _ _ _ _ _ _ _ Et). cbn [foldM]. split.
  - intro H. unfold set_tick at 1. unfold content_name in H. destruct (dget String.eqb (rv_extra r) "content_name"%string) as [name|]; [contradiction (H name eq_refl)|reflexivity].
  - intros (name & H) P. unfold set_tick at 1. rewrite H. cbv zeta. rewrite Lt. set (k := if (rv_cid r <? 0)%Z then (rv_cid r + Z.of_nat (S n))%Z else rv_cid r).
    destruct ((0 <=? k)%Z && (k <? Z.of_nat (S n))%Z) eqn:E; [|reflexivity]. exfalso. apply andb_true_iff in E as [E1 E2]. apply Z.leb_le in E1. apply Z.ltb_lt in E2. apply (P (Z.to_nat k)).
    unfold points_to. unfold k in *. destruct (Z.ltb_spec (rv_cid r) 0); lia.
Qed.
