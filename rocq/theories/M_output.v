(** Models of output_utilities.py, ofile_reduce.py, lost_points.py, xsdir_reader.py and
    magic.py.  Printing and logging are not modelled. *)
From Verif Require Import PyBase PyFloat PyFs M_util PyIo.

(** * output_utilities.py *)

(** output_utilities.py:20-38, one pass of the loop; the state is (lines, current). *)
Definition wrap_step (max_len : Z) (cont_prefix : str) (st : list str * str) (tok : str) : res (list str * str) :=
  let '(lines, current) := st in
  let tok := strip tok in
  match tok with
  | [] => Ok (lines, current)
  | _ :: _ =>
      if (max_len <? zlen tok)%Z then Err ValueError
      else if (max_len <? zlen current + zlen tok + 1)%Z
      then Ok (lines ++ [rstrip current], cont_prefix ++ tok)
      else if ends_with [c_space] current then Ok (lines, current ++ tok)
      else Ok (lines, current ++ [c_space] ++ tok)
  end.
(** output_utilities.py:7-44.  The prefix and the tokens are given as the strings that
    str() makes of them. *)
Definition norm_cont_prefix (cont_prefix : str) : str :=
  match cont_prefix with
  | [] => []
  | _ :: _ => if ends_with [c_space] cont_prefix then cont_prefix else cont_prefix ++ [c_space]
  end.
Definition wrap_tokens (prefix : str) (tokens : list str) (max_len : Z) (cont_prefix : str) : res (list str) :=
  let cont_prefix := norm_cont_prefix cont_prefix in
  let current := prefix ++ [c_space] in
  match tokens with
  | [] => Ok [rstrip current]
  | _ :: _ =>
      do st <- foldM (wrap_step max_len cont_prefix) tokens ([], current);
      let '(lines, current) := st in
      match strip current with
      | _ :: _ => Ok (lines ++ [rstrip current])
      | [] => Ok lines
      end
  end.
(** The default arguments, output_utilities.py:7. *)
Definition wrap_default (prefix : str) (tokens : list str) : res (list str) :=
  wrap_tokens prefix tokens 80 (lit "     ").

(** [path + ext]: the extension is added to the last component. *)
Definition add_ext (p : path) (ext : str) : path :=
  match rev p with
  | [] => [ext]
  | x :: r => rev r ++ [x ++ ext]
  end.

Section Show.
  Context {V : Type}.
  (** str() of a number or string. *)
  Variable show : V -> str.

  (** output_utilities.py:61-79: the while loops over the positions.  The lengths have
      been compared before, so no index is out of range. *)
  Fixpoint point_rows (x y z d : list V) : list str :=
    match x, y, z, d with
    | a :: x', b :: y', c :: z', v :: d' =>
        (show a ++ lit " " ++ show b ++ lit " " ++ show c ++ lit " " ++ show v) :: point_rows x' y' z' d'
    | _, _, _, _ => []
    end.
  Fixpoint point_rows1 (x y z : list V) : list str :=
    match x, y, z with
    | a :: x', b :: y', c :: z' =>
        (show a ++ lit " " ++ show b ++ lit " " ++ show c ++ lit " 1") :: point_rows1 x' y' z'
    | _, _, _ => []
    end.
  (** output_utilities.py:47-82. *)
  Definition output_points (x_vals y_vals z_vals : list V) (data_val : option (list V)) (outpath : path) : io unit :=
    if negb (List.length x_vals =? List.length y_vals)%nat || negb (List.length x_vals =? List.length z_vals)%nat
    then io_raise ValueError
    else
      match data_val with
      | Some d =>
          if negb (List.length d =? List.length x_vals)%nat then io_raise ValueError
          else io_write (fun f => write_lines f (add_ext outpath (lit ".3d"))
                                    (lit "x y z temp" :: point_rows x_vals y_vals z_vals d))
      | None => io_write (fun f => write_lines f (add_ext outpath (lit ".3d"))
                                     (lit "x y z temp" :: point_rows1 x_vals y_vals z_vals))
      end.

  (** What csv_out and html_f4_tab_out use of a tally. *)
  Record out_tally : Type := OutTally { ot_number : V; ot_cells : list V; ot_result : list V; ot_err : list V }.

  (** output_utilities.py:189-192, the rows of one tally from position [i]. *)
  Fixpoint csv_rows (t : out_tally) (i : nat) (cells : list V) : res (list str) :=
    match cells with
    | [] => Ok []
    | c :: cells' =>
        do r <- py_nth (ot_result t) (Z.of_nat i);
        do e <- py_nth (ot_err t) (Z.of_nat i);
        do rest <- csv_rows t (S i) cells';
        Ok ((show (ot_number t) ++ lit ", " ++ show c ++ lit ", " ++ show r ++ lit ", " ++ show e) :: rest)
    end.
  (** output_utilities.py:184-195; a tally that is not in a list is first put in one. *)
  Definition csv_out (data : list out_tally) (fname : path) : io unit :=
    run rows <- io_lift (mapM (fun t => csv_rows t 0 (ot_cells t)) data);
    io_write (fun f => write_lines f fname (concat rows)).

  (** output_utilities.py:167-175. *)
  Fixpoint html_rows (t : out_tally) (i : nat) (cells : list V) : res (list str) :=
    match cells with
    | [] => Ok []
    | c :: cells' =>
        do r <- py_nth (ot_result t) (Z.of_nat i);
        do e <- py_nth (ot_err t) (Z.of_nat i);
        do rest <- html_rows t (S i) cells';
        Ok ((lit "<tr><td>" ++ show (ot_number t) ++ lit "</td>" ++ lit "<td>" ++ show c ++ lit "</td>"
             ++ lit "<td>" ++ show r ++ lit "</td>" ++ lit "<td>" ++ show e ++ lit "</td></tr>") :: rest)
    end.
  Definition html_header : str :=
    lit "<html><table><tr><th>Tally Number</th><th>CellNumber</th><th>Result</th><th>Relative error</th></tr>".
  (** output_utilities.py:161-181. *)
  Definition html_f4_tab_out (data : list out_tally) (fname : path) : io unit :=
    run rows <- io_lift (mapM (fun t => html_rows t 0 (ot_cells t)) data);
    let strTable := html_header ++ [c_nl] ++ join [c_nl] (concat rows) ++ [c_nl] ++ lit "</table></html>" in
    io_write (fun f => do _ <- can_open_w f fname; Ok (run_ops f [OTrunc fname; OAppend fname strTable])).
End Show.
Arguments out_tally : clear implicits.

(** output_utilities.py:85-158.  Building the lines may raise ([lines] is the outcome);
    then ut.write_html, which neut_utilities does not define, is looked up. *)
Definition html_output (lines : res (list str)) (fname : path) : io unit :=
  run hlines <- io_lift lines; io_raise AttributeError.

(** * ofile_reduce.py:14-27: find_line raises ValueError, not the EOFError that is caught. *)
Definition reduce_ofile (infile ofile : path) : io unit :=
  run lines <- io_read (fun f => get_lines f infile);
  run term_line <- io_lift (find_line (lit "      run terminated when") lines 25);
  io_write (fun f => write_lines f ofile (slice_from (Z.of_nat term_line) lines)).

(** * lost_points.py:8-25 *)
Definition lost_marker : str := lit "x,y,z coordinates:".
Definition lost_step (st : list float * list float * list float) (line : str) : res (list float * list float * list float) :=
  let '(x, y, z) := st in
  if contains lost_marker line then
    do a <- py_float (strip (slice_btw 28 40 line));
    do b <- py_float (strip (slice_btw 43 55 line));
    do c <- py_float (strip (slice_btw 58 70 line));
    Ok (x ++ [a], y ++ [b], z ++ [c])
  else Ok st.
Definition output_lost_points (show : float -> str) (p : path) (outpath : path) : io nat :=
  run text <- io_read (fun f => read_text f p);
  run st <- io_lift (foldM lost_step (file_lines text) ([], [], []));
  let '(x, y, z) := st in
  let n_points := List.length x in
  if (0 <? n_points)%nat then
    run u <- output_points show x y z None outpath; io_ret n_points
  else io_ret n_points.

(** * xsdir_reader.py *)

(** xsdir_reader.py:38-46. *)
Fixpoint process_datapath (lines : list str) : res (option str) :=
  match lines with
  | [] => Ok None
  | line :: lines' =>
      let line := lower line in
      if starts_with (lit "datapath") (strip line) then
        do v <- py_nth (split_on (chr 61) line) 1; Ok (Some (strip v))
      else process_datapath lines'
  end.
(** xsdir_reader.py:48-64. *)
Fixpoint awr_loop (in_awr : bool) (lines : list str) (awr : list (str * float)) : res (list (str * float)) :=
  match lines with
  | [] => Ok awr
  | line :: lines' =>
      let line := strip line in
      if starts_with (lit "atomic") line then awr_loop true lines' awr
      else if in_awr then
        if starts_with (lit "directory") line then Ok awr
        else match split_ws line with
             | _ :: k :: v :: _ => do x <- py_float v; awr_loop in_awr lines' (dict_set str_eqb k x awr)
             | _ => awr_loop in_awr lines' awr
             end
      else awr_loop in_awr lines' awr
  end.
Definition process_awr (lines : list str) : res (list (str * float)) := awr_loop false lines [].
(** xsdir_reader.py:66-81. *)
Fixpoint dir_loop (in_dir : bool) (lines : list str) (d : list (str * list str)) : list (str * list str) :=
  match lines with
  | [] => d
  | line :: lines' =>
      if starts_with (lit "directory") (strip line) then dir_loop true lines' d
      else if in_dir then
        match split_ws line with
        | k :: v :: vs => dir_loop in_dir lines' (dict_set str_eqb k (v :: vs) d)
        | _ => dir_loop in_dir lines' d
        end
      else dir_loop in_dir lines' d
  end.
Definition process_directory (lines : list str) : list (str * list str) := dir_loop false lines [].
(** xsdir_reader.py:83-101. *)
Fixpoint thermal_loop (in_thermal : bool) (lines : list str) (d : list (str * list str)) : list (str * list str) :=
  match lines with
  | [] => d
  | line :: lines' =>
      let line := strip line in
      match line with
      | [] => thermal_loop in_thermal lines' d
      | _ :: _ =>
          if starts_with (lit "#") line then thermal_loop in_thermal lines' d
          else if starts_with (lit "thermal_scattering_data") line || starts_with (lit "sab") line
          then thermal_loop true lines' d
          else if in_thermal then
            match split_ws line with
            | k :: v :: vs => thermal_loop in_thermal lines' (dict_set str_eqb k (v :: vs) d)
            | _ => thermal_loop in_thermal lines' d
            end
          else thermal_loop in_thermal lines' d
      end
  end.
Definition process_thermal (lines : list str) : list (str * list str) := thermal_loop false lines [].
(** xsdir_reader.py:4-10, 21-36, 104-106. *)
Record xsdir : Type := XsDir {
  xs_datapath : option str; xs_awr : list (str * float);
  xs_directory : list (str * list str); xs_thermal : list (str * list str) }.
Definition read_xsdir (f : fs) (fpath : path) : res xsdir :=
  do lines <- get_lines f fpath;
  do datapath <- process_datapath lines;
  do awr <- process_awr lines;
  Ok (XsDir datapath awr (process_directory lines) (process_thermal lines)).

(** * magic.py:33-35: the first statement looks up ut.setup_logging, a method of a class and
    not a function of neut_utilities; nothing after it is reached. *)
Definition do_magic (infile ofile : path) : io unit := io_raise AttributeError.
