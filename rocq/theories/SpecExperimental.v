(** Specification vocabulary for bootstrapping. *)
From Coq Require Import String.
From Coq Require Import List ZArith Bool Arith Reals Sorted Permutation.
From Verif Require Import PyBase Num ExtReal NumPy Dataset Preproc Mos AP Mle Mocked SpecMocked Experimental.
Import ListNotations.
Local Open Scope R_scope.

(** Draws are indices: n of them, each below n. *)
Definition index_draws (choice : nat -> nat -> list Z) : Prop :=
  forall i n, length (choice i n) = n /\ Forall (fun z => (0 <= z < Z.of_nat n)%Z) (choice i n).

(** Mean over the positions j of got_j minus the reference value that position
    was drawn from. *)
Definition mean_difference (got ref : list R) (sel : list Z) : R :=
  Rmean (map (fun j => nth j got 0 - nth (Z.to_nat (nth j sel 0%Z)) ref 0) (seq 0 (length got))).

(** Two results that differ in nothing but quality scores and biases. *)
Definition same_but_scores {T} (m r : mleres T) : Prop :=
  ml_raw r = ml_raw m /\ ml_quality_std r = ml_quality_std m /\ ml_quality_lo r = ml_quality_lo m /\ ml_quality_hi r = ml_quality_hi m /\
  ml_iter r = ml_iter m /\ ml_bias_std r = ml_bias_std m /\ ml_bias_lo r = ml_bias_lo m /\ ml_bias_hi r = ml_bias_hi m /\
  ml_incons r = ml_incons m /\ ml_incons_std r = ml_incons_std m /\ ml_incons_lo r = ml_incons_lo m /\ ml_incons_hi r = ml_incons_hi m /\
  ml_ambiguity r = ml_ambiguity m /\ ml_ambiguity_std r = ml_ambiguity_std m /\ ml_ambiguity_lo r = ml_ambiguity_lo m /\
  ml_ambiguity_hi r = ml_ambiguity_hi m /\ ml_recon r = ml_recon m /\ ml_dof r = ml_dof m /\ ml_ll r = ml_ll m /\ ml_aic r = ml_aic m /\
  ml_bic r = ml_bic m /\ ml_observers r = ml_observers m.

(** Every prediction (quality score plus bias) is the same number in both. *)
Definition same_predictions (m r : mleres ef) : Prop :=
  length (ml_quality r) = length (ml_quality m) /\
  forall b, ml_bias m = Some b -> exists b', ml_bias r = Some b' /\ length b' = length b /\
    forall e s, (e < length (ml_quality m))%nat -> (s < length b)%nat ->
      ef_add (nth e (ml_quality r) NaN) (nth s b' NaN) = ef_add (nth e (ml_quality m) NaN) (nth s b NaN).

(** y is the p-quantile of l with linear interpolation: the values in order are
    put at 0, 1, ..., and y is read off at p times the last position. *)
Definition quantile (p : R) (l : list R) (y : R) : Prop :=
  exists s i, Permutation s l /\ Sorted Rle s /\
    INR i <= p * INR (length l - 1) < INR i + 1 /\
    y = nth i s 0 + (p * INR (length l - 1) - INR i) * (nth (S i) s 0 - nth i s 0).

(** The margins [lo] and [hi] around the reference values span from the 2.5% to
    the 97.5% quantile of the replicates. *)
Definition spans (ref : list ef) (rows : list (list ef)) (ci : list ef * list ef) : Prop :=
  length (fst ci) = length ref /\ length (snd ci) = length ref /\
  forall e q qs, (e < length ref)%nat -> nth e ref NaN = Fin q -> map (fun r => nth e r NaN) rows = map Fin qs ->
    exists l h, quantile (25 / 1000) qs l /\ quantile (975 / 1000) qs h /\ l <= h /\
      nth e (fst ci) NaN = Fin (q - l) /\ nth e (snd ci) NaN = Fin (h - q).

(** The options of a run without the final shift. *)
Definition unforced (o : mleopts ef) : mleopts ef := MleOpts (mo_gradient o) (mo_pdf o) (mo_delta o) (Some false).
Definition on (f : option bool) : bool := match f with Some f => f | None => true end.
Definition replicates (bo : bootopts) : nat := Z.to_nat (match bo_n bo with Some n => n | None => 30%Z end).

(** A replicate [r] from subjects drawn with replacement: the maximum likelihood
    run [m] on their votes, with nothing but scores and biases changed, and those
    so that the biases differ from the reference ones by 0 on average and every
    prediction stays. *)
Definition subject_resample (chi : ef -> ef -> ef) (c : bootclass) (ds : dataset ef string) (k : kwargs ef) (o : mleopts ef)
           (ref : mleres ef) (sel : list Z) (r : mleres ef) : Prop :=
  exists a a' m b rb,
    raw_reader_3darray ds = Ok a /\ columns_of a sel a' /\ mle_run chi (boot_base c) (Reader ds (ds_dis ds) (Ok a')) k o = Ok m /\
    ml_bias m = Some b /\ ml_bias ref = Some rb /\ length b = length sel /\ (forall z, In z sel -> (Z.to_nat z < length rb)%nat) /\
    same_but_scores m r /\
    (Forall isfin b -> (forall z, In z sel -> isfin (nth (Z.to_nat z) rb NaN)) ->
       same_predictions m r /\ exists b', ml_bias r = Some (map Fin b') /\ mean_difference b' (map toR rb) sel = 0).

(** The same for videos drawn with replacement; it is the scores that differ from
    the reference ones by 0 on average. *)
Definition video_resample (chi : ef -> ef -> ef) (c : bootclass) (ds : dataset ef string) (k : kwargs ef) (o : mleopts ef)
           (ref : mleres ef) (sel : list Z) (r : mleres ef) : Prop :=
  exists dvs m b,
    Forall2 (video_with_id (ds_dis ds)) sel dvs /\
    mle_run chi (boot_base c) (Reader ds dvs (opinion_score_3darray_with dvs (get_num_observers dvs))) k o = Ok m /\ ml_bias m = Some b /\
    length (ml_quality m) = length sel /\ (forall z, In z sel -> (Z.to_nat z < length (ml_quality ref))%nat) /\
    same_but_scores m r /\
    (Forall isfin (ml_quality m) -> (forall z, In z sel -> isfin (nth (Z.to_nat z) (ml_quality ref) NaN)) ->
       same_predictions m r /\ exists q', ml_quality r = map Fin q' /\ mean_difference q' (map toR (ml_quality ref)) sel = 0).
