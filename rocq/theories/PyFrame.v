(** Python runtime, part 5: the parts of numpy and pandas used on tables of numbers.
    Definitions only.  A column holds binary64 or binary32 numbers; a binary32 number is
    kept as the equal binary64 number, and arithmetic on it rounds to binary32.
    Arithmetic between two columns is done in binary32 only if both hold binary32, and
    comparing a binary32 column with a Python float rounds that float to binary32 first
    (numpy's promotion rules, which are the same for arrays and Python scalars in numpy 1
    and 2). *)
From Coq Require Import Floats.SpecFloat.
From Verif Require Import PyBase PyFloat.

(** * binary32 *)
Definition round_to (p e : Z) (x : float) : float :=
  match x with S754_finite s m k => binary_round p e s m k | _ => x end.
Definition narrow (x : float) : float := round_to 24 128 x.
Definition widen (x : float) : float := round_to prec emax x.
(** [numpy.float32(x)] *)
Definition f32 (x : float) : float := widen (narrow x).
Definition f32_op (op : Z -> Z -> float -> float -> float) (x y : float) : float :=
  widen (op 24%Z 128%Z (narrow x) (narrow y)).
Definition add32 : float -> float -> float := f32_op SFadd.
Definition sub32 : float -> float -> float := f32_op SFsub.
Definition mul32 : float -> float -> float := f32_op SFmul.
Definition sqrt32 (x : float) : float := widen (SFsqrt 24 128 (narrow x)).

(** * numpy scalar functions *)
(** [numpy.rint]: nearest integer, halves to even. *)
Definition rint (x : float) : float :=
  match x with
  | S754_finite s m e =>
      if (0 <=? e)%Z then x
      else let d := (2 ^ (- e))%Z in
           let q := (Zpos m / d)%Z in
           let r := (Zpos m mod d)%Z in
           let q' := (if 2 * r <? d then q else if d <? 2 * r then q + 1
                      else if Z.even q then q else q + 1)%Z in
           match q' with
           | Zpos p => binary_round prec emax s p 0
           | _ => S754_zero s
           end
  | _ => x
  end.
(** [numpy.round(x, n)] for n >= 0. *)
Definition np_round (n : Z) (x : float) : float := fdiv (rint (fmul x (fdec 1 n))) (fdec 1 n).
(** [numpy.isclose(a, b)] with the default tolerances: equal infinities are close. *)
Definition isclose (a b : float) : bool :=
  if is_finite_f b then fle (fabs (fsub a b)) (fadd (fdec 1 (-8)) (fmul (fdec 1 (-5)) (fabs b)))
  else feq a b.
(** [numpy.diff(l)] *)
Fixpoint diff (l : list float) : list float :=
  match l with a :: ((b :: _) as l') => fsub b a :: diff l' | _ => [] end.

(** * Columns *)
Record col : Type := Col { c_single : bool; c_vals : list float }.
(** [pandas.to_numeric(column, downcast="float")] on numbers: binary32 if no number is
    changed by more than 5e-4 (NaN stays NaN). *)
Definition near32 (x : float) : bool :=
  is_nan_f x || feq (f32 x) x || (is_finite_f x && fle (fabs (fsub (f32 x) x)) (fdec 5 (-4))).
Definition downcast (l : list float) : col :=
  if forallb near32 l then Col true (map f32 l) else Col false l.
(** [column == x] for a Python float. *)
Definition col_eq (c : col) (x : float) : list bool :=
  map (fun y => feq y (if c_single c then f32 x else x)) (c_vals c).
(** [numpy.isclose(column, x)]; computed in binary64. *)
Definition col_close (c : col) (x : float) : list bool := map (fun y => isclose y x) (c_vals c).
Fixpoint zip_with {A B C} (f : A -> B -> C) (a : list A) (b : list B) : list C :=
  match a, b with x :: a', y :: b' => f x y :: zip_with f a' b' | _, _ => [] end.
(** Arithmetic on columns of equal length. *)
Definition col_op (op64 op32 : float -> float -> float) (a b : col) : col :=
  let s := c_single a && c_single b in
  Col s (zip_with (if s then op32 else op64) (c_vals a) (c_vals b)).
Definition col_add := col_op fadd add32.
Definition col_sub := col_op fsub sub32.
Definition col_mul := col_op fmul mul32.
Definition col_sqrt (a : col) : col := Col (c_single a) (map (if c_single a then sqrt32 else fsqrt) (c_vals a)).

(** * Series and data frames: columns with row labels *)
Record series : Type := Series { s_index : list nat; s_col : col }.
Record frame : Type := Frame { f_index : list nat; f_cols : list (str * col) }.

Fixpoint compress {A} (m : list bool) (l : list A) : list A :=
  match m, l with
  | b :: m', x :: l' => if b then x :: compress m' l' else compress m' l'
  | _, _ => []
  end.
Definition col_compress (m : list bool) (c : col) : col := Col (c_single c) (compress m (c_vals c)).
(** [frame[mask]] *)
Definition frame_filter (m : list bool) (d : frame) : frame :=
  Frame (compress m (f_index d)) (map (fun nc => (fst nc, col_compress m (snd nc))) (f_cols d)).
(** [frame[name]] *)
Definition frame_col (d : frame) (name : str) : res col := dict_index str_eqb name (f_cols d).
Definition frame_get (d : frame) (name : str) : res series :=
  do c <- frame_col d name; Ok (Series (f_index d) c).

(** Value of a series at a label; NaN if it has none. *)
Fixpoint lookup_label (i : nat) (ix : list nat) (vs : list float) : float :=
  match ix, vs with
  | j :: ix', v :: vs' => if Nat.eqb i j then v else lookup_label i ix' vs'
  | _, _ => S754_nan
  end.
Definition reindex (ix : list nat) (s : series) : col :=
  Col (c_single (s_col s)) (map (fun i => lookup_label i (s_index s) (c_vals (s_col s))) ix).
(** Outer join of two increasing lists of labels. *)
Fixpoint merge_index (a : list nat) : list nat -> list nat :=
  fix merge_b (b : list nat) : list nat :=
    match a, b with
    | [], _ => b
    | _, [] => a
    | x :: a', y :: b' =>
        if Nat.ltb x y then x :: merge_index a' b
        else if Nat.ltb y x then y :: merge_b b'
        else x :: merge_index a' b'
    end.
Definition index_eqb (a b : list nat) : bool := if list_eq_dec Nat.eq_dec a b then true else false.
(** Arithmetic between series aligns the rows by label. *)
Definition series_op (op : col -> col -> col) (a b : series) : series :=
  if index_eqb (s_index a) (s_index b) then Series (s_index a) (op (s_col a) (s_col b))
  else let ix := merge_index (s_index a) (s_index b) in Series ix (op (reindex ix a) (reindex ix b)).
(** [frame[name] = series], for a frame that has rows: aligned to its labels. *)
Definition aligned (ix : list nat) (s : series) : col :=
  if index_eqb ix (s_index s) then s_col s else reindex ix s.
Definition frame_set (d : frame) (name : str) (s : series) : frame :=
  Frame (f_index d) (dict_set str_eqb name (aligned (f_index d) s) (f_cols d)).
