(** Model of meshtal_analysis.rel_err_hist.  No proofs here. *)
From Verif Require Import PyBase PyFloat PyFrame M_mesh.

Section Hist.
  (** np.histogram_bin_edges for 15 bins, from the least and the greatest number of a column of
      single (true) or double precision. *)
  Variable bin_edges : bool -> float -> float -> list float.
  (** The least and greatest of numbers without NaN; numpy's range of no numbers is 0 to 1. *)
  Definition lowest (l : list float) : float :=
    match l with [] => fzero | x :: r => fold_left (fun a y => if flt y a then y else a) r x end.
  Definition highest (l : list float) : float :=
    match l with [] => fdec 1 0 | x :: r => fold_left (fun a y => if flt a y then y else a) r x end.
  (** np.histogram: all but the last bin are half open. *)
  Fixpoint bin_counts (edges vals : list float) : list nat :=
    match edges with
    | lo :: ((hi :: more) as rest) =>
        List.length (filter (fun v => fle lo v && match more with [] => fle v hi | _ :: _ => flt v hi end) vals) :: bin_counts rest vals
    | _ => []
    end.
  (** meshtal_analysis.py:116-128: the edges and heights of the bars.  pandas leaves out NaN;
      numpy raises ValueError for an infinite range. *)
  Definition rel_err_hist (d : frame) : res (list float * list nat) :=
    do c <- frame_col d (lit "rel_err");
    let vals := filter (fun v => negb (is_nan_f v)) (c_vals c) in
    if negb (is_finite_f (lowest vals) && is_finite_f (highest vals)) then Err ValueError
    else let edges := bin_edges (c_single c) (lowest vals) (highest vals) in
         Ok (edges, bin_counts edges vals).
End Hist.
