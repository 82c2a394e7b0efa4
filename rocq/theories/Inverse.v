(** Numerical inverse of a function: sureal/tools/inverse.py.
    The minimiser of scipy is an oracle; array shapes are not modelled: the
    requested values are the flattened list (inverse.py:142-144,200). *)
From Coq Require Import List ZArith Bool.
From Verif Require Import PyBase Num.
Import ListNotations.

(** The argument [domain]: None, a scalar, two entries each maybe None, or an
    array of another shape (sureal/tools/inverse.py:216-228). *)
Inductive domain_arg (T : Type) :=
| DNone | DScalar (x : T) | DPair (lo hi : option T) | DShape.
Arguments DNone {T}. Arguments DScalar {T} x. Arguments DPair {T} lo hi. Arguments DShape {T}.

(** The argument [open_domain] (sureal/tools/inverse.py:232-243). *)
Inductive open_arg := ONone | OScalar (b : bool) | OPair (lo hi : bool) | OShape.

(** The argument [image] (sureal/tools/inverse.py:247-255): a scalar is refused
    like any other shape. *)
Inductive image_arg (T : Type) := INone | IPair (lo hi : option T) | IShape.
Arguments INone {T}. Arguments IPair {T} lo hi. Arguments IShape {T}.

(** What a call hands back: the values of line 200 and the requested values
    named in the warning of lines 188-190. *)
Record inv_out (T : Type) := InvOut { io_values : list T; io_trouble : list T }.
Arguments InvOut {T} _ _. Arguments io_values {T} _. Arguments io_trouble {T} _.

Section Inverse.
  Context {T : Type} {N : Num T}.
  Local Open Scope num_scope.

  (** [np.inf] *)
  Definition ninf : T := none_ / nzero.

  (** [np.sign] (sureal/tools/inverse.py:115): NaN for NaN. *)
  Definition np_sign (x : T) : T :=
    if nisnan x then nnan else if nzero <? x then none_ else if x <? nzero then nofZ (-1) else nzero.

  (** sureal/tools/inverse.py:216-228 *)
  Definition norm_domain (d : domain_arg T) : res (option T * option T) :=
    match d with
    | DNone => Ok (None, None)
    | DScalar x => Ok (Some x, None)
    | DPair lo hi => Ok (lo, hi)
    | DShape => Err ValueError
    end.

  (** sureal/tools/inverse.py:232-243 *)
  Definition norm_open (o : open_arg) : res (bool * bool) :=
    match o with
    | ONone => Ok (false, false)
    | OScalar b => Ok (b, b)
    | OPair lo hi => Ok (lo, hi)
    | OShape => Err ValueError
    end.

  (** sureal/tools/inverse.py:247-255 *)
  Definition norm_image (i : image_arg T) : res (option T * option T) :=
    match i with
    | INone => Ok (None, None)
    | IPair lo hi => Ok (lo, hi)
    | IShape => Err ValueError
    end.

  (** sureal/tools/inverse.py:257-263: [p[0] >= p[1]] with both given. *)
  Definition check_order (p : option T * option T) : res unit :=
    match p with
    | (Some lo, Some hi) => if ngeb lo hi then Err ValueError else Ok tt
    | _ => Ok tt
    end.

  (** sureal/tools/inverse.py:208-265, [args] being part of [func]. *)
  Definition normparams (d : domain_arg T) (i : image_arg T) (o : open_arg) : res ((option T * option T) * (option T * option T) * (bool * bool)) :=
    do dom <- norm_domain d;
    do op <- norm_open o;
    do im <- norm_image i;
    do _ <- check_order dom;
    do _ <- check_order im;
    Ok (dom, im, op).

  (** sureal/tools/inverse.py:268-282 *)
  Definition refpoints (xmin xmax : option T) : T * T :=
    match xmin, xmax with
    | Some lo, Some hi => let d := hi - lo in (lo + d / nofZ 4, hi - d / nofZ 4)
    | Some lo, None => (lo + none_, lo + nofZ 2)
    | None, Some hi => (hi - nofZ 2, hi - none_)
    | None, None => (nzero, none_)
    end.

  (** Whether an end of the domain is given ([x is not None]). *)
  Definition given (x : option T) : bool := match x with Some _ => true | None => false end.

  (** [func(x)] within [try ... except: raise ValueError]
      (sureal/tools/inverse.py:289-294,302-307); [func(None)], reached when the
      end used is missing, also ends in the except branch. *)
  Definition try_value (func : T -> res T) (x : option T) : res (option T) :=
    match x with
    | Some v => match func v with Ok y => Ok (Some y) | Err _ => Err ValueError end
    | None => Err ValueError
    end.

  (** sureal/tools/inverse.py:285-295 *)
  Definition auto_ymin (func : T -> res T) (xmin xmax : option T) (trend : T) : res (option T) :=
    if (given xmin && (trend =? none_)) || (given xmax && (trend =? nofZ (-1)))
    then try_value func (if trend =? none_ then xmin else xmax) else Ok None.

  (** sureal/tools/inverse.py:298-308 *)
  Definition auto_ymax (func : T -> res T) (xmin xmax : option T) (trend : T) : res (option T) :=
    if (given xmax && (trend =? none_)) || (given xmin && (trend =? nofZ (-1)))
    then try_value func (if trend =? none_ then xmax else xmin) else Ok None.

  (** sureal/tools/inverse.py:127-134 *)
  Definition bounded_f (func : T -> res T) (xmin xmax : option T) (xmin_open xmax_open : bool) (trend x : T) : res T :=
    if match xmin with Some lo => (x <? lo) || ((x =? lo) && xmin_open) | None => false end
    then Ok (nofZ (-1) * ninf * trend)
    else if match xmax with Some hi => ngtb x hi || ((x =? hi) && xmax_open) | None => false end
    then Ok (ninf * trend)
    else func x.

  (** sureal/tools/inverse.py:145-153 *)
  Definition refuse_low (ymin : option T) (strict : bool) (yin : list T) : bool :=
    match ymin with
    | Some m => existsb (fun y => if strict then y <=? m else y <? m) yin
    | None => false
    end.

  (** sureal/tools/inverse.py:154-162 *)
  Definition refuse_high (ymax : option T) (strict : bool) (yin : list T) : bool :=
    match ymax with
    | Some m => existsb (fun y => if strict then ngeb y m else ngtb y m) yin
    | None => false
    end.

  (** [scipy.optimize.minimize_scalar(optimizer, bracket=.., tol=1.48e-08,
      method='Brent')] (sureal/tools/inverse.py:136-139,183): an oracle which
      gets the function and the bracket and gives [result.x] and
      [result.success]; None when it raises. *)
  Variable minimize : (T -> res T) -> T * T -> option (T * bool).

  (** One round of the loop, sureal/tools/inverse.py:167-187: the entry of
      [results] and of [resultsmask]. *)
  Definition inv_one (bf : T -> res T) (xmin xmax : option T) (refs : T * T) (y : T) : res (T * bool) :=
    do at_max <- match xmax with Some hi => do v <- bf hi; Ok (v =? y) | None => Ok false end;
    if at_max then Ok (match xmax with Some hi => hi | None => nnan end, true)
    else
      do at_min <- match xmin with Some lo => do v <- bf lo; Ok (v =? y) | None => Ok false end;
      if at_min then Ok (match xmin with Some lo => lo | None => nnan end, true)
      else
        match minimize (fun x => do v <- bf x; Ok (nsq (v - y))) refs with
        | Some (x, success) => Ok (x, success)
        | None => Ok (y * nnan, false)
        end.

  (** sureal/tools/inverse.py:141-200 *)
  Definition inv_values (bf : T -> res T) (xmin xmax : option T) (op : bool * bool) (ymin ymax : option T) (trend : T) (refs : T * T) (yin : list T) : res (inv_out T) :=
    let '(xmin_open, xmax_open) := op in
    let up := trend =? none_ in
    let down := trend =? nofZ (-1) in
    if refuse_low ymin ((xmin_open && up) || (xmax_open && down)) yin then Err ValueError
    else if refuse_high ymax ((xmax_open && up) || (xmin_open && down)) yin then Err ValueError
    else
      do rs <- mapM (inv_one bf xmin xmax refs) yin;
      Ok (InvOut (map fst rs) (map fst (filter (fun yr => negb (snd (snd yr))) (combine yin rs)))).

  (** sureal/tools/inverse.py:12-205 with [y_values] given; without it the call
      returns [inv], whose later calls do lines 141-200. *)
  Definition inversefunc (func : T -> res T) (yin : list T) (d : domain_arg T) (i : image_arg T) (o : open_arg) : res (inv_out T) :=
    do p <- normparams d i o;
    let '(xmin, xmax, (im_lo, im_hi), op) := p in
    let refs := refpoints xmin xmax in
    do f2 <- func (snd refs);
    do f1 <- func (fst refs);
    let trend := np_sign (f2 - f1) in
    if trend =? nzero then Err ValueError
    else
      do ymin <- match im_lo with Some m => Ok (Some m) | None => auto_ymin func xmin xmax trend end;
      do ymax <- match im_hi with Some m => Ok (Some m) | None => auto_ymax func xmin xmax trend end;
      inv_values (bounded_f func xmin xmax (fst op) (snd op) trend) xmin xmax op ymin ymax trend refs yin.
End Inverse.
