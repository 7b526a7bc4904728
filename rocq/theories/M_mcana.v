(** mcnp_analysis.py.  Arrays are lists of floats and matrices lists of rows; a figure is the
    list of what is drawn in it.  Titles, labels of axes, legends, colours, printing, the log
    message and the image file itself are not modelled. *)
From Verif Require Import PyBase PyFloat PyFs M_util M_fisana M_mcout.

Inductive draw : Type :=
| DCurve (label : option Z) (x y : list float)     (* plot or step *)
| DBars (x y e : list float)                       (* errorbar: centres and half lengths *)
| DXmin (x : float)
| DXlim (a b : option float)
| DYlim (a b : float)
| DGrid (x y : list float) (c : list (list float)). (* pcolormesh *)

(** mcnp_analysis.py:14-19, for one-dimensional float data and a float factor. *)
Definition normalise (data : list float) (norm_val : float) : list float :=
  map (fun x => fmul x norm_val) data.

(** mcnp_analysis.py:22-31.  The errors are floats, or texts that float() reads. *)
Inductive num_text : Type := NNum (x : float) | NText (s : str).
Definition to_float (v : num_text) : res float :=
  match v with NNum x => Ok x | NText s => py_float s end.
Definition calc_err_abs (results : list float) (errors : list num_text) : res (list float) :=
  if negb (Nat.eqb (List.length results) (List.length errors)) then Err ValueError
  else mapM (fun re => do e <- to_float (snd re); Ok (fmul (fst re) e)) (combine results errors).

(** mcnp_analysis.py:34-41: np.diff(bins, prepend=0) *)
Fixpoint diffs (prev : float) (bins : list float) : list float :=
  match bins with
  | [] => []
  | b :: bins' => fsub b prev :: diffs b bins'
  end.
Definition calc_bin_width (bins : list float) : res (list float) :=
  if (zlen bins <? 2)%Z then Err ValueError else Ok (diffs fzero bins).

(** mcnp_analysis.py:44-53 *)
Fixpoint calc_mid_points (bounds : list float) : list float :=
  match bounds with
  | a :: (b :: _) as rest => fdiv (fadd a b) (f_of_Z 2) :: calc_mid_points rest
  | _ => []
  end.

(** np.argmin and np.argmax: the first best entry; the search stops at the first NaN. *)
Fixpoint arg_best (better : float -> float -> bool) (bi : nat) (b : float) (i : nat) (l : list float) : nat :=
  match l with
  | [] => bi
  | x :: l' =>
      if is_nan_f b then bi
      else if better x b then arg_best better i x (S i) l'
      else arg_best better bi b (S i) l'
  end.
Definition np_argmin (l : list float) : res nat :=
  match l with [] => Err ValueError | x :: l' => Ok (arg_best (fun y b => negb (fle b y)) 0 x 1 l') end.
Definition np_argmax (l : list float) : res nat :=
  match l with [] => Err ValueError | x :: l' => Ok (arg_best (fun y b => negb (fle y b)) 0 x 1 l') end.
(** np.argmin(np.abs(arr - target)) *)
Definition nearest (arr : list float) (target : float) : res nat :=
  np_argmin (map (fun e => fabs (fsub e target)) arr).

(** mcnp_analysis.py:56-86 *)
Definition find_peak_time (target_energy : float) (energy_arr time_arr : list float) (ET_results : list (list float)) : res float :=
  do erg_index <- nearest energy_arr target_energy;
  do flux_slice <- py_nth ET_results (Z.of_nat erg_index);
  let valid_flux := slice_to (zlen time_arr) flux_slice in
  do peak_index <- np_argmax valid_flux;
  py_nth time_arr (Z.of_nat peak_index).

(** matplotlib: x and y must have the same length. *)
Definition mpl_curve (label : option Z) (x y : list float) : res draw :=
  if Nat.eqb (List.length x) (List.length y) then Ok (DCurve label x y) else Err ValueError.
(** matplotlib: error bars must not be negative. *)
Definition mpl_bars (x y e : list float) : res draw :=
  if negb (Nat.eqb (List.length x) (List.length y) && Nat.eqb (List.length y) (List.length e)) then Err ValueError
  else if existsb (fun d => flt d (fopp d)) e then Err ValueError
  else Ok (DBars x y e).
(** matplotlib: limits of an axis must be finite. *)
Definition mpl_lim (x : float) : res float := if is_finite_f x then Ok x else Err ValueError.
Definition mpl_lim_opt (x : option float) : res (option float) :=
  match x with None => Ok None | Some v => do v <- mpl_lim v; Ok (Some v) end.

(** A column of a table divided by an array: the lengths must match. *)
Definition series_div (y bw : list float) : res (list float) :=
  if Nat.eqb (List.length y) (List.length bw) then Ok (map (fun p => fdiv (fst p) (snd p)) (combine y bw))
  else Err ValueError.
(** Division of one-dimensional arrays: one of length 1 is repeated. *)
Definition array_div (y z : list float) : res (list float) :=
  match y, z with
  | [a], _ => Ok (map (fun b => fdiv a b) z)
  | _, [b] => Ok (map (fun a => fdiv a b) y)
  | _, _ => series_div y z
  end.
Definition result_column (rows : list (float * float * float)) : list float := map (fun r => snd (fst r)) rows.

(** The list of numbers an array-like result holds, if it is one-dimensional. *)
Definition flat (r : tresult) : option (list float) :=
  match r with
  | TList l => list_rect (fun _ => option (list float)) (Some [])
      (fun e _ acc => match e, acc with EFloat x, Some xs => Some (x :: xs) | _, _ => None end) l
  | _ => None
  end.
(** The rows of a result given as a list of rows. *)
Definition row_list (r : tresult) : option (list (list float)) :=
  match r with
  | TList l => list_rect (fun _ => option (list (list float))) (Some [])
      (fun e _ acc => match e, acc with ERow x, Some xs => Some (x :: xs) | _, _ => None end) l
  | _ => None
  end.

(** mcnp_analysis.py:89-107, for one tally with energies and a result per object *)
Definition plot_raw_spectra (eng : list float) (result : etable) : res (list draw) :=
  mapM (fun kv => mpl_curve (Some (fst kv)) eng (result_column (snd kv))) result.

Section Spectra.
  (** What happens to results of other shapes (with time bins) is left open: the curves drawn
      for them and the error bars on them. *)
  Variable other_curves : tally -> res (list draw * list float).
  Variable other_bars : tally -> res (list draw).

  (** mcnp_analysis.py:131-133, 142-144, 148-150, 154-156: one curve per object; the values of
      the last one stay in y_vals. *)
  Definition object_curves (eng bw : list float) (r : tresult) (y0 : option (list float)) : res (list draw * option (list float)) :=
    match r with
    | TTable d =>
        foldM (fun st kv =>
          do y <- series_div (result_column (snd kv)) bw;
          do c <- mpl_curve (Some (fst kv)) eng y;
          Ok (fst st ++ [c], Some y)) d ([], y0)
    | _ => Err AttributeError
    end.
  (** mcnp_analysis.py:137-140 *)
  Definition angle_curves (t : tally) (eng bw : list float) (y0 : option (list float)) : res (list draw * option (list float)) :=
    match row_list (b_result (t_body t)) with
    | Some rows =>
        foldM (fun st row =>
          do y <- array_div row bw;
          do c <- mpl_curve None eng y;
          Ok (fst st ++ [c], Some y)) rows ([], y0)
    | None => do r <- other_curves t; Ok (fst r, Some (snd r))
    end.

  (** mcnp_analysis.py:124-161: the curves of one tally. *)
  Definition tally_curves (t : tally) (y0 : option (list float)) : res (list float * (list draw * option (list float))) :=
    let b := t_body t in
    match b_eng b with
    | None => Err TypeError                                    (* len(None) *)
    | Some eng =>
        do bw <- calc_bin_width eng;
        do cs <-
          (if Ascii.eqb (t_type t) (chr 49) then
             match b_surfaces b with
             | None => Err TypeError
             | Some surfaces =>
                 match b_ang b with
                 | None => Err TypeError                       (* len(None) *)
                 | Some ang =>
                     if (1 <? zlen surfaces)%Z then
                       if (1 <? zlen ang)%Z then Err NotImplementedError
                       else object_curves eng bw (b_result b) y0
                     else if (1 <? zlen ang)%Z then angle_curves t eng bw y0
                     else object_curves eng bw (b_result b) y0
                 end
             end
           else if Ascii.eqb (t_type t) (chr 50) || Ascii.eqb (t_type t) (chr 52) then
             object_curves eng bw (b_result b) y0
           else
             match flat (b_result b) with
             | Some r =>
                 do y <- array_div r bw;
                 do c <- mpl_curve None eng y;
                 Ok ([c], Some y)
             | None => do r <- other_curves t; Ok (fst r, Some (snd r))
             end);
        Ok (eng, cs)
    end.
  (** mcnp_analysis.py:163-168 *)
  Definition tally_bars (t : tally) (eng : list float) (y : option (list float)) : res (list draw) :=
    match y with
    | None => Err UnboundLocalError
    | Some y_vals =>
        match flat (b_err (t_body t)) with
        | Some errs =>
            do abs_err <- calc_err_abs y_vals (map NNum errs);
            do d <- mpl_bars (calc_mid_points eng) (slice_from 1 y_vals) (slice_to (-1) abs_err);
            Ok [d]
        | None => other_bars t
        end
    end.
  Definition spectra_step (err : bool) (st : list draw * option (list float) * list float) (t : tally)
    : res (list draw * option (list float) * list float) :=
    let '(draws, y0, _) := st in
    do r <- tally_curves t y0;
    let '(eng, (cs, y)) := r in
    do bars <- (if err then tally_bars t eng y else Ok []);
    Ok (draws ++ cs ++ bars, y, eng).
  (** mcnp_analysis.py:110-181 *)
  Definition plot_spectra (data : list tally) (err : bool) (xlow : option float) : res (list draw) :=
    do st <- foldM (spectra_step err) data ([], None, []);
    let '(draws, y, eng) := st in
    match xlow with
    | Some x => do x <- mpl_lim x; Ok (draws ++ [DXmin x])
    | None =>
        match y with
        | None => Err UnboundLocalError
        | Some y_vals =>
            match find_first_non_zero y_vals with
            | Some (S i) => do x <- py_nth eng (Z.of_nat (S i)); do x <- mpl_lim x; Ok (draws ++ [DXmin x])
            | _ => Ok draws
            end
        end
    end.
End Spectra.

(** mcnp_analysis.py:184-196, for results that are lists of rows of numbers *)
Definition plot_spectra_ratio (eng1 : list float) (result1 result2 : list (list float)) : res (list draw) :=
  do a <- py_nth result1 0;
  do b <- py_nth result2 0;
  do ratio <- array_div a b;
  do c <- mpl_curve None eng1 ratio;
  Ok [c].

(** mcnp_analysis.py:199-211 *)
Definition plot_run_comp (data err : list float) : res (list draw) :=
  let x := map (fun i => f_of_Z (Z.of_nat i)) (seq 1 (List.length data)) in
  do b <- mpl_bars x data err;
  Ok [DXlim (Some (f_of_Z 0)) (Some (f_of_Z (zlen x + 1))); b].

(** neut_constants.py:114-116 on an array (numpy division) *)
Definition shakes_to_ms (time_arr : list float) : list float := map (fun t => fdiv t (f_of_Z 100)) time_arr.

(** mcnp_analysis.py:214-244.  [log10] is numpy's.  pcolormesh with automatic shading takes as
    many colours as there are coordinates, or one less each way. *)
Definition plot_ET_heatmap (log10 : float -> float) (energy_arr time_arr : list float) (ET_results : list (list float)) (normalise_factor : float)
  : res (list draw) :=
  let safe := map (map (fun v => if flt fzero v then v else SpecFloat.S754_nan)) ET_results in
  let safe := map (fun row => normalise row normalise_factor) safe in
  let log_values := map (map log10) safe in
  let time_arr := shakes_to_ms time_arr in
  let c := map (slice_to (-2)) (slice_to (-1) log_values) in
  let fits n := forallb (fun row => (zlen row =? n)%Z) c in
  if ((zlen c =? zlen energy_arr) && fits (zlen time_arr))%Z
     || ((zlen c =? zlen energy_arr - 1) && fits (zlen time_arr - 1))%Z
  then Ok [DGrid time_arr energy_arr c] else Err TypeError.

(** mcnp_analysis.py:247-265 *)
Definition time_slice (target_time : float) (energy_arr time_arr : list float) (ET_results : list (list float)) (normalise_factor : float)
  : res (list draw) :=
  do time_index <- nearest time_arr target_time;
  do flux_slice <- mapM (fun row => py_nth row (Z.of_nat time_index)) ET_results;
  let flux_slice := normalise flux_slice normalise_factor in
  do c <- mpl_curve None energy_arr flux_slice;
  Ok [c].

(** np.median of a list of indices, truncated: the middle of the sorted list, or half the sum
    of the two middle ones. *)
Fixpoint insert_nat (x : nat) (l : list nat) : list nat :=
  match l with
  | [] => [x]
  | y :: l' => if Nat.leb x y then x :: l else y :: insert_nat x l'
  end.
Definition sort_nat (l : list nat) : list nat := fold_right insert_nat [] l.
Definition median_idx (l : list nat) : res nat :=
  match l with
  | [] => Err ValueError                         (* int(nan) *)
  | _ :: _ =>
      let s := sort_nat l in
      let n := List.length s in
      Ok (Nat.div (nth (Nat.div (n - 1) 2) s 0 + nth (Nat.div n 2) s 0) 2)
  end.
(** np.clip(i, 0, n - 1); an upper bound below the lower one wins. *)
Definition clip (i : nat) (n : Z) : Z := Z.min (Z.max (Z.of_nat i) 0) (n - 1).

Section EnergySlice.
  (** The sum of a column of the matrix; the order of the additions is numpy's. *)
  Variable np_sum : list float -> float.
  (** np.sum(m, axis=0) *)
  Definition column_sums (m : list (list float)) : list float :=
    match m with
    | [] => []
    | row :: _ => map (fun j => np_sum (map (fun r => nth j r fzero) m)) (seq 0 (List.length row))
    end.
  (** mcnp_analysis.py:325-349: the peak index, its value and the curve of one energy. *)
  Definition one_energy (times : list float) (ET_results : list (list float)) (factor : float) (erg_index : nat)
    : res (nat * float * draw) :=
    do flux_slice <- py_nth ET_results (Z.of_nat erg_index);
    let flux_slice := normalise flux_slice factor in
    let valid_flux := slice_to (zlen times) flux_slice in
    do peak_index <- np_argmax valid_flux;
    do peak_value <- py_nth valid_flux (Z.of_nat peak_index);
    do _ <- py_nth times (Z.of_nat peak_index);
    do c <- mpl_curve None times (slice_to (-1) flux_slice);
    Ok (peak_index, peak_value, c).
  (** mcnp_analysis.py:268-405; [target_energies] is np.atleast_1d of the argument. *)
  Definition energy_slice (target_energies energy_arr time_arr : list float) (ET_results : list (list float))
    (min_time max_time : option float) (window : Z) (normalise_factor : float) (plot_total : bool) : res (list draw) :=
    do erg_indices <- mapM (nearest energy_arr) target_energies;
    let times := shakes_to_ms time_arr in
    let total_flux := normalise (column_sums ET_results) normalise_factor in
    do peaks <- mapM (one_energy times ET_results normalise_factor) erg_indices;
    let all_peaks := map (fun p => fst (fst p)) peaks in
    let all_peak_values := map (fun p => snd (fst p)) peaks in
    do total <- (if plot_total then do c <- mpl_curve None times (slice_to (-1) total_flux); Ok [c] else Ok []);
    do lims <-
      (match min_time, max_time, all_peaks with
       | Some a, Some b, _ => Ok (Some a, Some b)
       | _, _, [] => Ok (min_time, max_time)
       | _, _, _ :: _ =>
           do m <- median_idx all_peaks;
           let m := clip m (zlen times) in
           let min_idx := Z.max 0 (m - window) in
           let max_idx := Z.min (zlen times - 1) (m + window) in
           do a <- match min_time with Some a => Ok a | None => py_nth times min_idx end;
           do b <- match max_time with Some b => Ok b | None => py_nth times max_idx end;
           Ok (Some a, Some b)
       end);
    do a <- mpl_lim_opt (fst lims);
    do b <- mpl_lim_opt (snd lims);
    do y_max <-
      (if plot_total then
         do m <- median_idx all_peaks;
         do v <- py_nth total_flux (clip m (zlen total_flux));
         Ok (fmul v (fdec 105 (-2)))
       else
         do v <- py_max all_peak_values;
         Ok (fmul v (fdec 105 (-2))));
    do y_max <- mpl_lim y_max;
    Ok (map snd peaks ++ total ++ [DXlim a b; DYlim fzero y_max]).
End EnergySlice.
