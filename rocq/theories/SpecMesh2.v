(** Specifications used by the properties of mesh arithmetic. *)
From Coq Require Import Reals Floats.SpecFloat.
From Verif Require Import PyBase PyFloat FloatR Float32 SpecStr SpecMcout PyFrame M_mesh SpecMesh.

(** * Numbers of a column *)
(** A finite number as a column can hold it: binary32 or binary64. *)
Definition number_in (c : col) (x : float) : Prop :=
  if c_single c then single x else valid x = true /\ is_finite_f x = true.
Definition non_negative (x : float) : Prop := (0 <= FR x)%R.
(** [z] is the real [r], rounded in binary32 if [s], else in binary64. *)
Definition rounded_in (s : bool) (r : R) (z : float) : Prop := if s then rounded32 r z else rounded64 r z.
(** Rounding in binary32 if [s], else in binary64. *)
Definition rnd_in (s : bool) : R -> R := if s then rnd32 else rnd.
Definition entry (c : col) (i : nat) (x : float) : Prop := nth_error (c_vals c) i = Some x.
(** The meshes are equal but for their data. *)
Definition same_mesh (m m' : mesh) : Prop :=
  idnum m' = idnum m /\ ptype m' = ptype m /\ x_bounds m' = x_bounds m /\ y_bounds m' = y_bounds m /\
  z_bounds m' = z_bounds m /\ e_bounds m' = e_bounds m /\ t_bounds m' = t_bounds m /\
  x_mids m' = x_mids m /\ y_mids m' = y_mids m /\ z_mids m' = z_mids m /\ ctype m' = ctype m.
(** The tables are equal but for the column called [name]. *)
Definition same_table_but (name : string) (d d' : frame) : Prop :=
  f_index d' = f_index d /\ forall n c, n <> lit name -> column (f_cols d') n c <-> column (f_cols d) n c.

(** * Adding *)
Definition ctype_name (k : kind) : str :=
  lit match k with ByEnergy => "6col_e" | ByTime => "6col_t" | Plain => "5col" end.
Definition bin_name (k : kind) : string := match k with ByEnergy => "Energy" | _ => "Time" end.
Definition same_space (m1 m2 : mesh) : Prop :=
  x_bounds m1 = x_bounds m2 /\ y_bounds m1 = y_bounds m2 /\ z_bounds m1 = z_bounds m2.
(** The bins of the kind of the mesh. *)
Definition bins (k : kind) (m : mesh) : list str :=
  match k with ByEnergy => e_bounds m | ByTime => t_bounds m | Plain => [] end.

(** * Mesh numbers *)
(** The line gives the number [n]: the text after the last space. *)
Definition header_of (n : Z) (l : str) : Prop :=
  occurs number_text l /\ exists a w, l = a ++ chr 32 :: w /\ ~ In (chr 32) w /\ py_int w = Ok n.

(** * Arrays *)
(** Row [r] of the table lies at the mid points [x], [y], [z]. *)
Definition lies_at (cx cy cz : col) (r : nat) (x y z : float) : Prop :=
  exists a b c, entry cx r a /\ entry cy r b /\ entry cz r c /\ feq x a = true /\ feq y b = true /\ feq z c = true.
(** No two numbers of the list are equal. *)
Definition distinct_numbers (l : list float) : Prop :=
  forall i j x y a, nth_error l i = Some x -> nth_error l j = Some y -> feq x a = true -> feq y a = true -> i = j.

(** * Widths *)
(** Bounds evenly spaced, up to the tolerance of numpy.isclose. *)
Definition evenly_spaced (xs : list float) : Prop :=
  exists a b l, xs = a :: b :: l /\
    forall i u v, nth_error xs i = Some u -> nth_error xs (S i) = Some v -> close (fsub v u) (fsub b a).
(** Number of zeros in a column. *)
Inductive zeros_in : list float -> nat -> Prop :=
| zeros_nil : zeros_in [] 0
| zeros_zero x l n : is_zero_f x = true -> zeros_in l n -> zeros_in (x :: l) (S n)
| zeros_other x l n : is_zero_f x = false -> zeros_in l n -> zeros_in (x :: l) n.
