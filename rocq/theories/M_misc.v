(** Small pieces: magic.normalise_mesh, the text form of an MCNP input, and the debug copy
    of a tally section. *)
From Verif Require Import PyBase PyFloat PyFs PyIo PyFrame M_util M_input M_mesh M_fisana.

(** magic.py:21-31.  [np_float]: whether the installed numpy still has the name np.float
    (numpy 1.24 and later do not; requirements.txt asks for 1.21.1 or later).  max() and the
    division are on Python floats; the result is given by its values. *)
Definition normalise_mesh (np_float : bool) (m : mesh) : res (list float) :=
  do d <- data_frame m;
  do c <- frame_col d (lit "value");
  if np_float then
    do top <- py_max (c_vals c);
    if is_zero_f top then Err ZeroDivisionError
    else let norm_const := fdiv (fdec 5 (-1)) top in Ok (map (fun x => fmul x norm_const) (c_vals c))
  else Err AttributeError.

(** mcnp_input_reader.py:29-41: the third line of str(). *)
Definition calculation_line (d : data_in) : str :=
  if d_is_sdef d then lit "Fixed source calculation"
  else if d_is_kcode d then lit "Kcode calculation"
  else lit "Unknown calculation type".

(** mcnp_output_reader.py:375-387.  [debug]: whether the effective level of the root logger is
    DEBUG.  The file is in the working directory [cwd]. *)
Definition print_tally_lines_to_file (debug : bool) (cwd : path) (lines : list str) (fname : str) (tnum : Z) : io unit :=
  if debug then io_write (fun f => write_lines f (cwd ++ [fname ++ str_of_Z tnum ++ lit ".txt"]) lines) else io_ret tt.
