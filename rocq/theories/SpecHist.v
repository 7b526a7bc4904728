(** Specification of a histogram. *)
From Coq Require Import Sorted.
From Verif Require Import PyBase PyFloat.

(** What is assumed of numpy's edges of 15 bins: there are 16, in ascending order, and they
    include the numbers. *)
Definition covers (bin_edges : bool -> float -> float -> list float) : Prop := forall single lo hi,
  is_finite_f lo = true -> is_finite_f hi = true -> fle lo hi = true ->
  exists first mid last, bin_edges single lo hi = first :: mid ++ [last] /\ List.length mid = 14 /\
    StronglySorted (fun a b => fle a b = true) (bin_edges single lo hi) /\ fle first lo = true /\ fle hi last = true.
(** [how_many P l n]: [n] entries of [l] satisfy [P]. *)
Inductive how_many {A} (P : A -> Prop) : list A -> nat -> Prop :=
| how_none : how_many P [] 0
| how_yes x l n : P x -> how_many P l n -> how_many P (x :: l) (S n)
| how_no x l n : ~ P x -> how_many P l n -> how_many P (x :: l) n.
(** [v] is in the bin from [lo] to [hi]; the upper edge belongs to the last bin only. *)
Definition in_bin (lo hi : float) (is_last : bool) (v : float) : Prop :=
  fle lo v = true /\ if is_last then fle v hi = true else flt v hi = true.
Definition a_number (v : float) : Prop := is_nan_f v = false.
