(** Specification for the window of energy_slice. *)
From Coq Require Import Sorted Permutation Arith.
From Verif Require Import PyBase PyFloat FloatR M_mcout M_mcana SpecMcana.

(** [m] is the median of the numbers of [l], cut to an integer: the middle one of the sorted
    numbers, or half the sum of the two middle ones. *)
Definition median_of (l : list nat) (m : nat) : Prop := exists s a b,
  Permutation s l /\ StronglySorted le s /\
  nth_error s ((List.length s - 1) / 2) = Some a /\ nth_error s (List.length s / 2) = Some b /\ m = (a + b) / 2.
(** [p] is the position of the highest value in the row of the energy nearest to [te]. *)
Definition peak_at (es ts : list float) (m : list (list float)) (f te : float) (p : nat) : Prop :=
  exists i row, first_least (map (fun e => dist e te) es) i /\ nth_error m i = Some row /\
    first_greatest (firstn (List.length ts) (map (fun v => fmul v f) row)) p.

(** A surface current tally with energy bins, angle bins and one table per surface. *)
Definition current (t : tally) (eng : list float) (surfs : list str) (ang : list float) : Prop :=
  t_type t = "1"%char /\ b_eng (t_body t) = Some eng /\ 2 <= List.length eng /\ b_surfaces (t_body t) = Some surfs /\ b_ang (t_body t) = Some ang.
(** [y] are the values [row] divided by the widths of the bins with upper edges [eng]. *)
Definition row_per_width (eng row y : list float) : Prop := List.length y = List.length eng /\
  forall i b r, nth_error eng i = Some b -> nth_error row i = Some r -> nth_error y i = Some (fdiv r (fsub b (lower_edge eng i))).
