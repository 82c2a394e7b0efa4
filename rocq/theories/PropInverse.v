(** Theorems for claim C83: numerical inverse of a function. *)
From Coq Require Import Reals Ranalysis5 List Bool Lra.
From Verif Require Import PyBase Num ExtReal ExtRealProofs Inverse SpecInverse InverseProofs.
Import ListNotations.
Local Open Scope R_scope.

(** C83: one value outside the limits and the call is refused; otherwise each
    value gets its entry and the warning names those whose search failed. *)
Theorem C83_call : forall minimize f g lo hi olo ohi inc im_lo im_hi ys, suited f g lo hi olo ohi inc im_lo im_hi ->
  (Exists (fun y => ~ between inc g lo hi olo ohi im_lo im_hi y) ys ->
   inversefunc minimize f (map Fin ys) (DPair (efo lo) (efo hi)) (IPair (efo im_lo) (efo im_hi)) (OPair olo ohi) = Err ValueError) /\
  (Forall (between inc g lo hi olo ohi im_lo im_hi) ys ->
   exists rs, inversefunc minimize f (map Fin ys) (DPair (efo lo) (efo hi)) (IPair (efo im_lo) (efo im_hi)) (OPair olo ohi) =
     Ok (InvOut (map fst rs) (map fst (filter (fun yr => negb (snd (snd yr))) (combine (map Fin ys) rs)))) /\
     Forall2 (fun y r => entry minimize g lo hi olo ohi y (fst r) (snd r)) ys rs).
Proof. exact c83_call. Qed.
Print Assumptions C83_call.

Lemma line_suited : suited (fun x => Ok (nadd (nmul (Fin 2) x) (Fin 1))) (fun x => 2 * x + 1) (Some 0) (Some 1) false false true None None.
Proof.
  unfold suited. split; [intros ? ? [= <-] [= <-]; lra|]. split; [intros ? ? ?; discriminate|].
  split; [intros x y _ _ L; lra|]. repeat split; intros; try reflexivity.
Qed.
Example C83_call_ex : inversefunc (fun _ _ => None) (fun x => Ok (nadd (nmul (Fin 2) x) (Fin 1))) [Fin 1; Fin 4] (DPair (Some (Fin 0)) (Some (Fin 1))) (IPair None None) (OPair false false) = Err ValueError.
Proof.
  refine (proj1 (C83_call (fun _ _ => None) _ _ _ _ _ _ _ _ _ [1; 4] line_suited) _). apply Exists_cons_tl, Exists_cons_hd.
  intros [_ B]. specialize (B (2 * 1 + 1) eq_refl). cbn in B. lra.
Qed.
Example C83_call_accepts_ex : exists x y, inversefunc (fun _ _ => None) (fun x => Ok (nadd (nmul (Fin 2) x) (Fin 1))) [Fin 1; Fin 2] (DPair (Some (Fin 0)) (Some (Fin 1))) (IPair None None) (OPair false false) =
  Ok (InvOut [Fin 0; x] [y]).
Proof.
  destruct (proj2 (C83_call (fun _ _ => None) _ _ _ _ _ _ _ _ _ [1; 2] line_suited)) as [rs [E F]].
  - apply Forall_forall. intros y [<-|[<-|[]]]; split; intros m [= <-]; cbn; lra.
  - change (map Fin [1; 2]) with [Fin 1; Fin 2] in E. cbn [efo option_map] in E. rewrite E. inversion F as [|y1 r1 l1 l1' H1 F1]; subst.
    inversion F1 as [|y2 r2 l2 l2' H2 F2]; subst. inversion F2; subst. destruct r1 as [x1 b1], r2 as [x2 b2]. cbn [fst snd] in *.
    destruct H1 as [[b [Eb [_ [Ey _]]]]|[[a [Ea [_ [Ey [-> ->]]]]]|[_ [H1 _]]]].
    + injection Eb as <-. lra.
    + injection Ea as <-. destruct H2 as [[b [Eb [_ [Ey2 _]]]]|[[a [Ea [_ [Ey2 _]]]]|[_ [_ [obj [_ [-> ->]]]]]]].
      * injection Eb as <-. lra.
      * injection Ea as <-. lra.
      * exists NaN, (Fin 2). reflexivity.
    + exfalso. apply (H1 0); [reflexivity|reflexivity|lra].
Qed.

(** C83: asked for values the function takes inside its interval, with a
    minimiser that reaches the minimum, the call returns exactly the points where
    they are taken, without a warning. *)
Theorem C83_inverse : forall minimize f g lo hi olo ohi inc im_lo im_hi ts, suited f g lo hi olo ohi inc im_lo im_hi ->
  (forall t, In t ts -> in_dom lo hi olo ohi t) ->
  (forall t, In t ts -> between inc g lo hi olo ohi im_lo im_hi (g t)) ->
  (forall t obj, In t ts -> distance_program g lo hi olo ohi (g t) obj ->
     exists x, minimize obj (Fin (fst (start_points lo hi)), Fin (snd (start_points lo hi))) = Some (Fin x, true) /\ minimum_of obj x) ->
  inversefunc minimize f (map (fun t => Fin (g t)) ts) (DPair (efo lo) (efo hi)) (IPair (efo im_lo) (efo im_hi)) (OPair olo ohi) = Ok (InvOut (map Fin ts) []).
Proof. exact c83_inverse. Qed.
Print Assumptions C83_inverse.
Example C83_inverse_ex : inversefunc (fun _ _ => Some (Fin (1/2), true)) (fun x => Ok (nadd (nmul (Fin 2) x) (Fin 1))) [Fin (2 * (1/2) + 1)] (DPair (Some (Fin 0)) (Some (Fin 1))) (IPair None None) (OPair false false) =
  Ok (InvOut [Fin (1/2)] []).
Proof.
  refine (C83_inverse (fun _ _ => Some (Fin (1/2), true)) _ _ _ _ _ _ _ _ _ [1/2] line_suited _ _ _).
  - intros t [<-|[]]. split; intros ? [= <-]; lra.
  - intros t [<-|[]]. split; intros ? [= <-]; cbn; lra.
  - intros t obj [<-|[]] [A B]. exists (1/2). split; [reflexivity|]. intro x'.
    assert (D : in_dom (Some 0) (Some 1) false false (1/2)) by (split; intros ? [= <-]; lra).
    destruct (in_dom_dec (Some 0) (Some 1) false false x') as [D'|D'].
    + do 2 eexists. rewrite (A _ D), (A _ D'). repeat split. cbn. apply Rleb_true.
      generalize (Rle_0_sqr (2 * x' + 1 - (2 * (1/2) + 1))). unfold Rsqr. lra.
    + do 2 eexists. rewrite (A _ D), (B _ D'). repeat split.
Qed.

(** C83: with the limits computed from the ends, values the function takes in the
    interval are never refused. *)
Theorem C83_values_accepted : forall minimize f g lo hi olo ohi inc ts, suited f g lo hi olo ohi inc None None ->
  Forall (in_dom lo hi olo ohi) ts ->
  exists out, inversefunc minimize f (map (fun t => Fin (g t)) ts) (DPair (efo lo) (efo hi)) INone (OPair olo ohi) = Ok out /\ length (io_values out) = length ts.
Proof. exact c83_values_accepted. Qed.
Print Assumptions C83_values_accepted.
Example C83_values_accepted_ex : exists out, inversefunc (fun _ _ => None) (fun x => Ok (nadd (nmul (Fin 2) x) (Fin 1))) [Fin (2 * (1/3) + 1); Fin (2 * 1 + 1)] (DPair (Some (Fin 0)) (Some (Fin 1))) INone (OPair false false) = Ok out /\ length (io_values out) = 2%nat.
Proof.
  apply (C83_values_accepted (fun _ _ => None) _ _ _ _ _ _ _ [1/3; 1] line_suited). apply Forall_forall. intros t [<-|[<-|[]]]; split; intros ? [= <-]; lra.
Qed.

(** C83: for a continuous function on a closed bounded interval nothing else is
    accepted. *)
Theorem C83_only_values_accepted : forall minimize f g a b inc y, a < b -> monotone inc g (Some a) (Some b) -> computes f g (Some a) (Some b) false false ->
  (forall x, a <= x <= b -> continuity_pt g x) -> ~ (exists t, a <= t <= b /\ g t = y) ->
  inversefunc minimize f [Fin y] (DPair (Some (Fin a)) (Some (Fin b))) INone ONone = Err ValueError.
Proof. exact c83_only_values. Qed.
Print Assumptions C83_only_values_accepted.
Example C83_only_values_accepted_ex : inversefunc (fun _ _ => None) (fun x => Ok (nadd (nmul (Fin 2) x) (Fin 1))) [Fin 4] (DPair (Some (Fin 0)) (Some (Fin 1))) INone ONone = Err ValueError.
Proof.
  apply (C83_only_values_accepted _ _ (fun x => 2 * x + 1) 0 1 true); [lra|intros x y _ _ L; lra|intros x _; reflexivity| |intros [t [H E]]; lra].
  intros x _. apply derivable_continuous_pt. reg.
Qed.

(** C83: forms of the arguments; wrong shapes and limits out of order are
    refused before the function is evaluated. *)
Theorem C83_arguments : forall (minimize : (ef -> res ef) -> ef * ef -> option (ef * bool)) f ys d i o,
  inversefunc minimize f ys DNone i o = inversefunc minimize f ys (DPair None None) i o /\
  (forall a, inversefunc minimize f ys (DScalar a) i o = inversefunc minimize f ys (DPair (Some a) None) i o) /\
  inversefunc minimize f ys d INone o = inversefunc minimize f ys d (IPair None None) o /\
  inversefunc minimize f ys d i ONone = inversefunc minimize f ys d i (OPair false false) /\
  (forall b, inversefunc minimize f ys d i (OScalar b) = inversefunc minimize f ys d i (OPair b b)) /\
  inversefunc minimize f ys DShape i o = Err ValueError /\
  inversefunc minimize f ys d IShape o = Err ValueError /\
  inversefunc minimize f ys d i OShape = Err ValueError.
Proof. exact args_ef. Qed.
Print Assumptions C83_arguments.
Theorem C83_domain_order : forall (minimize : (ef -> res ef) -> ef * ef -> option (ef * bool)) f ys a b i o, b <= a ->
  inversefunc minimize f ys (DPair (Some (Fin a)) (Some (Fin b))) i o = Err ValueError.
Proof. exact misordered_ef. Qed.
Print Assumptions C83_domain_order.
Theorem C83_image_order : forall (minimize : (ef -> res ef) -> ef * ef -> option (ef * bool)) f ys d a b o, b <= a ->
  inversefunc minimize f ys d (IPair (Some (Fin a)) (Some (Fin b))) o = Err ValueError.
Proof. exact misordered_image_ef. Qed.
Print Assumptions C83_image_order.
Example C83_order_ex : inversefunc (fun _ _ => None) (fun x => Err TypeError) [Fin 1] (DPair (Some (Fin 3)) (Some (Fin 2))) INone ONone = Err ValueError.
Proof. apply C83_domain_order. lra. Qed.

(** C83: equal values at the two start points are refused. *)
Theorem C83_flat : forall minimize f lo hi v ys o, ordered lo hi ->
  f (Fin (fst (start_points lo hi))) = Ok (Fin v) -> f (Fin (snd (start_points lo hi))) = Ok (Fin v) ->
  inversefunc minimize f ys (DPair (efo lo) (efo hi)) INone o = Err ValueError.
Proof. exact flat_ef. Qed.
Print Assumptions C83_flat.
Example C83_flat_ex : inversefunc (fun _ _ => None) (fun x => Ok (Fin 7)) [Fin 1] (DPair (Some (Fin 3)) None) INone (OScalar true) = Err ValueError.
Proof. refine (C83_flat _ _ (Some 3) None 7 _ _ _ eq_refl eq_refl). intros ? ? _ H. discriminate. Qed.

(** C83: a function raising anything at an end whose value is needed ends in
    ValueError. *)
Theorem C83_end_raises : forall (minimize : (ef -> res ef) -> ef * ef -> option (ef * bool)) f g lo hi olo ohi inc ys im_lo e x,
  ordered lo hi -> monotone inc g lo hi -> computes f g lo hi olo ohi -> ordered im_lo None ->
  ((im_lo = None /\ (if inc : bool then lo else hi) = Some x) \/ (if inc : bool then hi else lo) = Some x) -> f (Fin x) = Err e ->
  inversefunc minimize f ys (DPair (efo lo) (efo hi)) (IPair (efo im_lo) None) (OPair olo ohi) = Err ValueError.
Proof. exact end_raises. Qed.
Print Assumptions C83_end_raises.
Example C83_end_raises_ex : inversefunc (fun _ _ => None) (fun x => match x with Fin r => if Rltb 0 r then Ok (Fin r) else Err ZeroDivisionError | _ => Err TypeError end)
  [Fin 1] (DPair (Some (Fin 0)) None) (IPair None None) (OPair true true) = Err ValueError.
Proof.
  refine (C83_end_raises _ _ (fun x => x) (Some 0) None true true true _ None ZeroDivisionError 0 _ _ _ _ _ _).
  - intros ? ? _ H. discriminate.
  - intros x y _ _ L. exact L.
  - intros x [D _]. specialize (D 0 eq_refl). cbn in D. replace (Rltb 0 x) with true by (symmetry; apply Rltb_true; exact D). reflexivity.
  - intros ? ? H. discriminate.
  - left. split; reflexivity.
  - replace (Rltb 0 0) with false by (symmetry; apply Rltb_false; lra). reflexivity.
Qed.

(** C83 "functions that are not strictly monotone are refused" is false: only the
    two start points are compared.  The square on [-1, 2] goes down and up; the
    call answers 4 and refuses 1/4, which the function takes at 1/2. *)
Theorem C83_monotone_check_refuted : exists f lo hi, f (Fin (1/2)) = Ok (Fin (1/4)) /\ f (Fin (-1/2)) = Ok (Fin (1/4)) /\ lo < 1/2 < hi /\ lo < -1/2 < hi /\
  forall minimize,
    inversefunc minimize f [Fin (2 * 2)] (DPair (Some (Fin lo)) (Some (Fin hi))) INone ONone = Ok (InvOut [Fin hi] []) /\
    inversefunc minimize f [Fin (1/4)] (DPair (Some (Fin lo)) (Some (Fin hi))) INone ONone = Err ValueError.
Proof. exact not_monotone. Qed.
Print Assumptions C83_monotone_check_refuted.
