(** Complete slices of a mesh. *)
From Verif Require Import PyBase PyFloat PyFrame M_mesh SpecMesh.

(** The rows that a slice at [mid] of the axis with column [cn] is made of. *)
Definition in_slice (d : frame) (erg time : option float) (cn : col) (mid : float) (r : nat) : Prop :=
  r < n_rows d /\ et_filter d erg time r /\ entry_is cn r mid.
(** For every coordinate of [xs] there is one row for each coordinate of [ys], and these rows
    come in the order of [ys]. *)
Definition complete (d : frame) (P : nat -> Prop) (ci cj : col) (xs ys : list float) : Prop :=
  forall x, In x xs -> exists rows, selected (fun r => P r /\ entry_is ci r x) (n_rows d) rows /\
    Forall2 (fun r y => entry_is cj r y) rows ys.
