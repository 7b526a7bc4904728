(** The text forms (__str__) of tallies, cross section directories and meshes.  Those of
    surfaces, cells and materials are in M_str2.v. *)
From Verif Require Import PyBase PyFloat PyFs PyFrame M_util M_input M_output M_mesh.

Definition nl : str := [chr 10].

(** mcnp_input_reader.py:128-140 *)
Definition tally_str (t : tally_in) : str :=
  join nl ([lit "Tally number: " ++ str_of_Z (ti_number t); lit "Tally card: " ++ ti_data t]
           ++ (if ti_has_ebins t then [lit "Has energy bins"] else [])
           ++ (if ti_has_tbins t then [lit "Has time bins"] else [])
           ++ (if ti_has_fm t then [lit "Is modified by a flux modifed card"] else [])).

(** xsdir_reader.py:12-19; [fpath] is the path as given to read_xsdir.  The last two strings
    are joined without a line break. *)
Definition str_of_nat (n : nat) : str := str_of_Z (Z.of_nat n).
Definition xsdir_str (fpath : str) (x : xsdir) : str :=
  lit "Filename: " ++ fpath ++ nl ++
  lit "Datapath: " ++ (match xs_datapath x with Some p => p | None => lit "None" end) ++ nl ++
  lit "Number of AWR entries: " ++ str_of_nat (List.length (xs_awr x)) ++ nl ++
  lit "Number of directory entries: " ++ str_of_nat (List.length (xs_directory x)) ++
  lit "Number of TSL entries: " ++ str_of_nat (List.length (xs_thermal x)).

(** meshtal_analysis.py:32-40; [show] is str() of a float. *)
Definition mesh_str (show : float -> str) (m : mesh) : res str :=
  do v <- voxel_uniform_volume m;
  Ok (join nl [lit "Number of voxels: " ++ str_of_nat (number_voxels m);
               lit "Number of bins in:";
               lit "  x-dimension: " ++ str_of_nat (List.length (x_mids m));
               lit "  y-dimension: " ++ str_of_nat (List.length (y_mids m));
               lit "  z-dimension: " ++ str_of_nat (List.length (z_mids m));
               lit "voxel volume: " ++ show v ++ lit " cm^3"]).
