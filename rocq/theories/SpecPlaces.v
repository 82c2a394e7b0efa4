(** Vocabulary for claim C134: where the figures are drawn.  Only the data types
    and real arithmetic. *)
From Coq Require Import String.
From Coq Require Import List Bool Arith Reals.
From Verif Require Import PyBase Num ExtReal NumPy Dataset Figures.
Import ListNotations.
Local Open Scope list_scope.
Local Open Scope R_scope.

Notation drawing := (@Figures.drawing ef).
Notation shown := (@Figures.shown ef).
Notation place := (@Figures.place ef).

(** Sizes in inches: of an image of rows by cols cells, of a plot with n columns. *)
Definition image_inches (rows cols : nat) (w h : ef) : Prop :=
  exists c, w = Fin (c * INR cols + 2) /\ h = Fin (c * INR rows + 2) /\ 0 < c <= 1 / 30 /\
    ((cols <= 3000)%nat -> (rows <= 3000)%nat -> c = 1 / 30).
Definition plot_inches (n : nat) (height : R) (w h : ef) : Prop :=
  exists x, w = Fin x /\ h = Fin height /\ 10 <= x /\ sqrt (INR n) + 2 <= x /\ (x = 10 \/ x = sqrt (INR n) + 2).

(** l is the entry of the first result that has one. *)
Definition first_entry (get : shown -> option (list ef)) (rs : list shown) (l : list ef) : Prop :=
  exists before r after, rs = before ++ r :: after /\ get r = Some l /\ forall r', In r' before -> get r' = None.
(** The size of a plot of such an entry, 10 inches wide if no result has one. *)
Definition entry_inches (get : shown -> option (list ef)) (rs : list shown) (height : R) (w h : ef) : Prop :=
  (exists l, first_entry get rs l /\ plot_inches (length l) height w h) \/
  ((forall r, In r rs -> get r = None) /\ w = Fin 10 /\ h = Fin height).

(** On the axes with the key if there are any, else in a new figure of the size. *)
Definition on_own_axes (axes : list string) (key : string) (p : place) (size : ef -> ef -> Prop) : Prop :=
  (In key axes -> p = OnAxes key) /\ (~ In key axes -> exists w h, p = NewFigure w h /\ size w h).
(** The keys of the axes a drawing is meant for. *)
Definition rejection_keys : list string := ["ax_rejected"; "ax_rejected_1st_stats"; "ax_rejected_2nd_stats"]%string.
Definition well_placed (axes : list string) (rs : list shown) (d : drawing) : Prop :=
  match d with
  | DImage name _ p m => on_own_axes axes ("ax_" ++ name) p (image_inches (n0 m) (n1 m))
  | DCounts name p _ n => on_own_axes axes ("ax_" ++ name) p (plot_inches n 3)
  | DSeries name p _ =>
      (name = "quality_scores"%string /\ on_own_axes axes "ax_quality_scores" p (entry_inches sh_quality rs 3)) \/
      (name = "content_ambiguity"%string /\ on_own_axes axes "ax_content_ambiguity" p (entry_inches sh_ambiguity rs 3)) \/
      ((name = "observer_bias" \/ name = "observer_inconsistency")%string /\ on_own_axes axes ("ax_" ++ name) p (entry_inches sh_bias rs 8)) \/
      (In name rejection_keys /\ In name axes /\ p = OnAxes name)
  | DGrid _ _ _ _ _ _ => True
  | DTicks _ _ => True
  end.

(** The given axes that are drawn on, in turn. *)
Definition place_of (d : drawing) : option place :=
  match d with
  | DImage _ _ p _ => Some p | DCounts _ p _ _ => Some p | DSeries _ p _ => Some p
  | DGrid _ _ _ _ _ _ => None | DTicks _ _ => None
  end.
Definition axes_used (ds : list drawing) : list string :=
  flat_map (fun d => match place_of d with Some (OnAxes k) => [k] | _ => [] end) ds.
