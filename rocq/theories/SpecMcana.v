(** Specification for mcnp_analysis. *)
From Coq Require Import Reals Sorted.
From Flocq Require Import Core.
From Verif Require Import PyBase PyFloat FloatR.

(** The unit roundoff 2^-53. *)
Definition u53 : R := bpow radix2 (-53).

Definition no_nan (xs : list float) : Prop := Forall (fun x => is_nan_f x = false) xs.
(** [i] is the first position of the least (greatest) number. *)
Definition first_least (xs : list float) (i : nat) : Prop := exists x, nth_error xs i = Some x /\
  forall j y, nth_error xs j = Some y -> fle x y = true /\ (j < i -> flt x y = true).
Definition first_greatest (xs : list float) (i : nat) : Prop := exists x, nth_error xs i = Some x /\
  forall j y, nth_error xs j = Some y -> fle y x = true /\ (j < i -> flt y x = true).
(** A finite number of absolute value at most 2^1022, so that sums of two do not overflow. *)
Definition moderate (x : float) : Prop := valid x = true /\ is_finite_f x = true /\ (Rabs (FR x) <= bpow radix2 1022)%R.
Definition finite (x : float) : Prop := valid x = true /\ is_finite_f x = true.
(** A finite number that is not negative. *)
Definition nonneg (x : float) : Prop := finite x /\ (0 <= FR x)%R.
(** Edges of bins: finite, not negative and increasing. *)
Definition edges (bins : list float) : Prop :=
  Forall nonneg bins /\ StronglySorted (fun a b => (FR a < FR b)%R) bins.
(** The lower edge of bin [i]: the upper edge of the bin before, 0 for the first. *)
Definition lower_edge (bins : list float) (i : nat) : float := match i with O => fzero | S k => nth k bins fzero end.
(** The distance of two numbers, computed in floating point. *)
Definition dist (a b : float) : float := fabs (fsub a b).

From Verif Require Import M_mcout M_mcana.
(** The curves of a figure, in the order drawn. *)
Definition is_curve (d : draw) : bool := match d with DCurve _ _ _ => true | _ => false end.
Definition curves_of (ds : list draw) : list draw := filter is_curve ds.
(** [y] are the results of one object (rows of energy, result and error) divided by the widths
    of the bins with upper edges [eng]. *)
Definition per_width (eng : list float) (rows : list (float * float * float)) (y : list float) : Prop :=
  List.length y = List.length eng /\
  forall i b e r u, nth_error eng i = Some b -> nth_error rows i = Some (e, r, u) ->
    nth_error y i = Some (fdiv r (fsub b (lower_edge eng i))).
(** A surface or cell tally with energy bins, as the reader returns it. *)
Definition binned (t : tally) (eng : list float) (d : etable) : Prop :=
  (t_type t = "2"%char \/ t_type t = "4"%char) /\ b_eng (t_body t) = Some eng /\ b_result (t_body t) = TTable d /\
  2 <= List.length eng /\ Forall (fun kv => List.length (snd kv) = List.length eng) d.
(** A tally of another type (point detector, pulse height) with energy bins only. *)
Definition point_like (t : tally) (eng rs us : list float) : Prop :=
  t_type t <> "1"%char /\ t_type t <> "2"%char /\ t_type t <> "4"%char /\ b_eng (t_body t) = Some eng /\
  b_result (t_body t) = TList (map EFloat rs) /\ b_err (t_body t) = TList (map EFloat us) /\
  List.length rs = List.length eng /\ List.length us = List.length eng /\ 2 <= List.length eng.
(** What is assumed of numpy's sum: on numbers that are not negative it is at least each of
    them, unless it overflows. *)
Definition sums (np_sum : list float -> float) : Prop := forall l, Forall nonneg l ->
  valid (np_sum l) = true /\ (is_finite_f (np_sum l) = true -> forall x, In x l -> (FR x <= FR (np_sum l))%R).
(** Adding up from left to right. *)
Definition add_up (l : list float) : float := fold_left fadd l fzero.
