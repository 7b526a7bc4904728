(** Specification for neut_constants: the periodic table, and closeness of floats. *)
From Coq Require Import Reals.
From Flocq Require Import Core.
From Verif Require Import PyBase PyFloat FloatR.

(** Symbols in the order of atomic number, by period. *)
Definition period_rows : list string :=
 ["H He";
  "Li Be B C N O F Ne";
  "Na Mg Al Si P S Cl Ar";
  "K Ca Sc Ti V Cr Mn Fe Co Ni Cu Zn Ga Ge As Se Br Kr";
  "Rb Sr Y Zr Nb Mo Tc Ru Rh Pd Ag Cd In Sn Sb Te I Xe";
  "Cs Ba La Ce Pr Nd Pm Sm Eu Gd Tb Dy Ho Er Tm Yb Lu Hf Ta W Re Os Ir Pt Au Hg Tl Pb Bi Po At Rn";
  "Fr Ra Ac Th Pa U Np Pu Am Cm Bk Cf Es Fm Md No Lr Rf Db Sg Bh Hs Mt Ds Rg Cn Nh Fl Mc Lv Ts Og"]%string.
Definition elements : list str := concat (map (fun r => split_on (chr 32) (lit r)) period_rows).

(** A finite number clear of underflow. *)
Definition normal_f (x : float) : Prop := is_finite_f x = true /\ (bpow radix2 (-1021) <= Rabs (FR x))%R.
(** [z] equals [v] up to a relative error of 2^-51 (four half-ulps). *)
Definition close (z v : float) : Prop := (Rabs (FR z - FR v) <= bpow radix2 (-51) * Rabs (FR v))%R.
(** [g] undoes [f] up to rounding, when no step over- or underflows. *)
Definition undoes (f g : float -> res float) : Prop := forall v,
  valid v = true -> is_finite_f v = true ->
  exists w z, f v = Ok w /\ g w = Ok z /\ (normal_f w -> normal_f z -> close z v).
(** [f] then [g]. *)
Definition after {A} (f g : A -> res A) (v : A) : res A := bind (f v) g.
