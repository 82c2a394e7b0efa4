(** Densities, histograms and counts: sureal/tools/stats.py. *)
From Coq Require Import List ZArith Bool Arith.
From Verif Require Import PyBase Num NumPy.
Import ListNotations.

Section Stats.
  Context {T : Type} {N : Num T}.
  Local Open Scope num_scope.

  (** np.cosh *)
  Definition np_cosh (x : T) : T := (nexp x + nexp (- x)) / nofZ 2.

  (** sureal/tools/stats.py:24-29 vectorized_logistic, one element. *)
  Definition logistic (x loc scale : T) : T := none_ / nofZ 4 / scale / nsq (np_cosh ((x - loc) / nofZ 2 / scale)).

  (** sureal/tools/stats.py:32-33 sech *)
  Definition sech (x : T) : T := nofZ 2 / (nexp x + nexp (- x)).

  (** sureal/tools/stats.py:40-41: the two densities of
      vectorized_convolution_of_two_logistics. *)
  Definition logistic_density (scale x : T) : T := none_ / nofZ 4 / scale * nsq (sech (x / nofZ 2 / scale)).

  (** np.histogram with a number of bins, as documented: the range is that of the
      data (ValueError unless finite), widened by a half on both sides when all
      data are equal, 0 to 1 without data. *)
  Definition nfinite (x : T) : bool := negb (nisnan x) && negb (nisinf x).
  Definition hist_range (l : list T) : res (T * T) :=
    match l with
    | [] => Ok (nzero, none_)
    | x :: r =>
        let lo := fold_left nminimum r x in
        let hi := fold_left nmaximum r x in
        if nfinite lo && nfinite hi
        then Ok (if lo =? hi then (lo - ndec 1 2, hi + ndec 1 2) else (lo, hi))
        else Err ValueError
    end.

  (** np.linspace(lo, hi, bins + 1) *)
  Definition hist_edges (lo hi : T) (bins : nat) : list T :=
    map (fun k => nofnat k * ((hi - lo) / nofnat bins) + lo) (seq 0 bins) ++ [hi].

  (** Bins are closed below and open above, the last one is closed. *)
  Definition in_bin (edges : list T) (bins k : nat) (x : T) : bool :=
    (vat edges k <=? x) && ((x <? vat edges (S k)) || (Nat.eqb (S k) bins && (x <=? vat edges (S k)))).

  Definition np_histogram (l : list T) (bins : Z) : res (list nat * list T) :=
    if (bins <? 1)%Z then Err ValueError else
    let n := Z.to_nat bins in
    do lh <- hist_range l;
    let edges := hist_edges (fst lh) (snd lh) n in
    Ok (map (fun k => length (filter (in_bin edges n k) l)) (seq 0 n), edges).

  (** np.cumsum of counts. *)
  Fixpoint cumsum (acc : nat) (l : list nat) : list nat :=
    match l with [] => [] | x :: l' => (acc + x)%nat :: cumsum (acc + x) l' end.

  (** sureal/tools/stats.py:180-186 get_cdf *)
  Definition get_cdf (x : list T) (bins : Z) : res (list T * list T) :=
    do h <- np_histogram x bins;
    let cdf := cumsum 0 (fst h) in
    Ok (map (fun c => nofnat c / nofnat (last cdf 0%nat)) cdf, tl (snd h)).

  (** sureal/tools/stats.py:189-192 get_pdf; a density is the count divided by the
      width of the bin and by the number of data. *)
  Definition get_pdf (data : list T) (bins : Z) (density : bool) : res (list T * list T) :=
    do h <- np_histogram data bins;
    let counts := fst h in
    let edges := snd h in
    let total := fold_left Nat.add counts 0%nat in
    let pdf := map (fun k => if density
                             then nofnat (nth k counts 0%nat) / (vat edges (S k) - vat edges k) / nofnat total
                             else nofnat (nth k counts 0%nat)) (seq 0 (length counts)) in
    let centres := map (fun k => (vat edges k + vat edges (S k)) / nofZ 2) (seq 0 (length counts)) in
    Ok (pdf, centres).

  (** sureal/tools/stats.py:195-202 histc: one round of the loop. *)
  Definition histc_step (dd : list (T * nat)) (x : T) : list (T * nat) :=
    if nisnan x then dd else
    let dd1 := match dget neqb dd x with Some _ => dd | None => dset neqb dd x 0%nat end in
    dset neqb dd1 x (match dget neqb dd1 x with Some c => S c | None => 1%nat end).
  Definition histc (series : list T) : list (T * nat) := fold_left histc_step series [].

  (** ** ConvolveTwoPdf, sureal/tools/stats.py:126-177 *)
  Section Convolve.
    (** [ceil]: the number of elements of np.arange, from (stop - start) / step;
        [inverse]: inversefunc on one value (sureal/tools/inverse.py). *)
    Variables (ceil : T -> nat) (inverse : (T -> T) -> T -> res T).

    (** np.arange(start, stop, step) *)
    Definition np_arange (start stop step : T) : list T :=
      map (fun i => start + nofnat i * step) (seq 0 (ceil ((stop - start) / step))).

    (** stats.py:155-156 (157-158): values times delta, averaged with the next one;
        [pmf[-1]] of an empty array is an IndexError. *)
    Definition cell_masses (f : T -> T) (delta : T) (grid : list T) : res (list T) :=
      let p := map (fun x => f x * delta) grid in
      match p with
      | [] => Err IndexError
      | _ => Ok (map (fun ab => (fst ab + snd ab) / nofZ 2) (combine p (tl p ++ [last p nnan])))
      end.

    (** scipy.signal.fftconvolve(a, b, 'same') of two arrays of the same length
        (stats.py:159): the middle part of the convolution. *)
    Definition conv_full (a b : list T) (k : nat) : T :=
      np_sum (map (fun i => vat a i * vat b (k - i)) (filter (fun i => Nat.leb i k && Nat.ltb (k - i) (length b)) (seq 0 (length a)))).
    Definition conv_same (a b : list T) : list T :=
      map (fun k => conv_full a b (k + (length a - 1) / 2)) (seq 0 (length a)).

    (** self.model: grid and pdf. *)
    Record conv_model := ConvModel { cm_grid : list T; cm_pdf : list T }.
    Record conv := Conv { cv_f : T -> T; cv_g : T -> T; cv_delta : T; cv_ft : T; cv_gt : T; cv_model : option conv_model }.

    (** stats.py:148-171 _get_model *)
    Definition get_model (c : conv) : res conv_model :=
      do inv_f <- inverse (cv_f c) (cv_ft c);
      do inv_g <- inverse (cv_g c) (cv_gt c);
      do _ <- assert_ (nzero <? inv_f);
      do _ <- assert_ (nzero <? inv_g);
      let reach := if inv_f <? inv_g then inv_g else inv_f in
      let grid := np_arange (- reach) reach (cv_delta c) in
      do pf <- cell_masses (cv_f c) (cv_delta c) grid;
      do pg <- cell_masses (cv_g c) (cv_delta c) grid;
      Ok (ConvModel grid (map (fun x => x / cv_delta c) (conv_same pf pg))).

    (** np.interp (stats.py:175-177) on an increasing grid: the last grid point
        that is not above x, then the line to the next one. *)
    Definition np_interp (x : T) (xp fp : list T) (left right : T) : T :=
      if nisnan x then x else
      if x <? vat xp 0 then left else
      if last xp nnan <? x then right else
      let j := (length (filter (fun p => (p <=? x)%num) xp) - 1)%nat in
      if Nat.eqb (S j) (length xp) then vat fp j
      else (vat fp (S j) - vat fp j) / (vat xp (S j) - vat xp j) * (x - vat xp j) + vat fp j.

    (** stats.py:173-177 _pdf *)
    Definition conv_eval (c : conv) (m : conv_model) (x : T) : T :=
      np_interp x (cm_grid m) (cm_pdf m) (cv_ft c * cv_gt c) (cv_ft c * cv_gt c).

    (** stats.py:142-146 pdf: the object afterwards and the value. *)
    Definition conv_pdf (c : conv) (x : T) : conv * res T :=
      match cv_model c with
      | Some m => (c, Ok (conv_eval c m x))
      | None =>
          match get_model c with
          | Err e => (c, Err e)
          | Ok m => (Conv (cv_f c) (cv_g c) (cv_delta c) (cv_ft c) (cv_gt c) (Some m), Ok (conv_eval c m x))
          end
      end.

    (** stats.py:133-140 __init__ *)
    Definition conv_new (f g : T -> T) (delta ft gt : T) : conv := Conv f g delta ft gt None.

    (** Evaluations one after the other. *)
    Fixpoint conv_calls (c : conv) (xs : list T) : list (res T) :=
      match xs with
      | [] => []
      | x :: xs' => let (c', r) := conv_pdf c x in r :: conv_calls c' xs'
      end.
  End Convolve.
End Stats.
Arguments conv T : clear implicits.
Arguments conv_model T : clear implicits.
