(** The figures of meshtal_analysis.py: a panel is the two axes, the colours (given by
    columns, as in slice_object) and the limits of the colour scale.  Labels, titles, the
    drawing of the colours themselves and the image (shown or saved) are not modelled.
    The histogram of rel_err_hist is in M_hist.v. *)
From Verif Require Import PyBase PyFloat PyFrame M_mesh.

Record panel : Type := Panel {
  p_x : list float; p_y : list float; p_columns : list (list float); p_lmin : float; p_lmax : float }.

(** meshtal_analysis.py:196-207.  pcolormesh with automatic shading (matplotlib 3.5 or later)
    takes as many colours as there are coordinates, or one less each way; an array without a
    column is not two-dimensional.  The limits of empty axes raise.  The norm's own checks of
    lmin and lmax are not modelled. *)
Definition create_plot (s : slice_object) (values : list (list float)) (lmin lmax : float) : res panel :=
  match values with
  | [] => Err ValueError
  | c :: _ =>
      let nx := List.length (sl_i s) in let ny := List.length (sl_j s) in
      let ncols := List.length values in let nrows := List.length c in
      if Nat.eqb nx ncols && Nat.eqb ny nrows || Nat.eqb nx (S ncols) && Nat.eqb ny (S nrows) then
        match sl_j s with
        | [] => Err ValueError
        | _ => Ok (Panel (sl_i s) (sl_j s) values lmin lmax)
        end
      else Err TypeError
  end.

(** meshtal_analysis.py:210-231 *)
Definition plot_slice (m : mesh) (value : float) (plane : str) (lmin lmax : float) (err : bool) (erg time : option float)
  : res (slice_object * list panel) :=
  do s <- extract_slice m value plane erg time;
  do a <- create_plot s (sl_values s) lmin lmax;
  if err then do b <- create_plot s (sl_errors s) lmin lmax; Ok (s, [a; b])
  else Ok (s, [a]).
