(** mcnp_run_plot.py: the graphs of a run made from the text MCNP prints on the screen.  A
    graph is the list of the points of its curve.  The labels of the axes, the set up of the
    log file, and the image (shown or saved) are not modelled. *)
From Verif Require Import PyBase PyFloat PyFs M_util.

Section WithDates.
(** datetime.strptime(s, '%m/%d/%y %H:%M:%S') followed by date2num: any function *)
Context {T : Type} (strptime : str -> res T).

Record run_data : Type := mkRun {
  r_ctm : list float; r_nrn : list Z; r_nps : list Z; r_coll : list Z; r_time : list T }.
Definition no_data : run_data := mkRun [] [] [] [] [].

(** mcnp_run_plot.py:32-41: the body of the loop over the lines. *)
Definition line_step (d : run_data) (line : str) : res run_data :=
  do d <- (if contains (lit "ctm") line then
             do c <- py_float (slice_btw 6 18 line);
             do n <- py_int (slice_btw 26 44 line);
             Ok (mkRun (r_ctm d ++ [c]) (r_nrn d ++ [n]) (r_nps d) (r_coll d) (r_time d))
           else Ok d);
  do d <- (if contains (lit "dump") line then
             do c <- py_int (slice_btw 61 78 line);
             Ok (mkRun (r_ctm d) (r_nrn d) (r_nps d) (r_coll d ++ [c]) (r_time d))
           else Ok d);
  if contains (lit "master set rendezvous") line then
    do n <- py_int (slice_btw 28 40 line);
    do t <- strptime (slice_btw 66 83 line);
    Ok (mkRun (r_ctm d) (r_nrn d) (r_nps d ++ [n]) (r_coll d) (r_time d ++ [t]))
  else Ok d.

(** mcnp_run_plot.py:49,54,59,64: Axes.plot(x, y) refuses data of different lengths. *)
Definition plot {X Y} (x : list X) (y : list Y) : res (list (X * Y)) :=
  if Nat.eqb (List.length x) (List.length y) then Ok (combine x y) else Err ValueError.

Record run_graphs : Type := mkGraphs {
  g_nps : list (T * Z); g_ctm : list (Z * float); g_nrn : list (Z * Z); g_coll : list (Z * Z) }.

(** mcnp_run_plot.py:17-73. *)
Definition plot_nps_stats (f : fs) (p : path) : res run_graphs :=
  do lines <- get_lines f p;
  do d <- foldM line_step lines no_data;
  do a <- plot (r_time d) (r_nps d);
  do b <- plot (r_nps d) (slice_from 1 (r_ctm d));
  do c <- plot (r_nps d) (slice_from 1 (r_nrn d));
  do e <- plot (r_nps d) (slice_from 1 (r_coll d));
  Ok (mkGraphs a b c e).
End WithDates.
Arguments run_data : clear implicits.
Arguments run_graphs : clear implicits.
