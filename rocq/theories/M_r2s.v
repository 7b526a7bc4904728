(** Model of r2s_cell.py: the cell based activation script.  The functions that do nothing
    (cleanup_fispact_run, run_fispact, lines 176-194) are left out, as are the prints. *)
From Verif Require Import PyBase PyFloat PyFs PyIo M_util M_ptrac M_input M_mcout.

(** What json.load returns.  Real numbers are not distinguished from integers beyond their
    text, since nothing here computes with them.  An object keeps its members in order of
    first appearance; json.load makes their keys distinct. *)
Inductive json : Type :=
| JNull | JBool (b : bool) | JInt (z : Z) | JReal (text : str) | JStr (s : str)
| JList (l : list json) | JObj (members : list (str * json)).

(** r2s_cell.py:15-27.  The constructor sets mc_ouput (sic): the attribute mc_output exists
    only once the configuration has assigned it. *)
Record usr_inputs : Type := UsrInputs {
  u_mc_input : json; u_mc_ouput : json; u_mc_output : option json; u_mc_gamma_input : json;
  u_mc_code : json; u_files_file : json; u_fispact_template : json; u_tallies : json;
  u_cells : json; u_fispact_path : json; u_cooling_step : json }.
Definition new_inputs : usr_inputs :=
  UsrInputs JNull JNull None JNull (JStr (lit "MCNP")) JNull JNull JNull JNull JNull (JInt 1).

(** Python's text to path: empty components and "." are dropped.  ".." is not resolved, and
    the current folder is the root, so a leading "/" makes no difference. *)
Definition path_of_str (s : str) : path :=
  filter (fun c => negb (str_eqb c []) && negb (str_eqb c (lit "."))) (split_on (chr 47) s).
(** [Path(v)]: only text is accepted. *)
Definition path_of_json (v : json) : res path :=
  match v with JStr s => Ok (path_of_str s) | _ => Err TypeError end.

(** r2s_cell.py:39-61, one key. *)
Definition config_get (config : list (str * json)) (key : str) : res json :=
  match dict_get str_eqb key config with Some v => Ok v | None => Err KeyError end.
Definition assign_key (config : list (str * json)) (u : usr_inputs) (key : str) : res usr_inputs :=
  let 'UsrInputs mi mo mc_out mg code ff ft ta ce fp co := u in
  if str_eqb key (lit "mc_input") then
    do v <- config_get config (lit "mc_input"); Ok (UsrInputs v mo mc_out mg code ff ft ta ce fp co)
  else if str_eqb key (lit "mc_output") then
    do v <- config_get config (lit "mc_output"); Ok (UsrInputs mi mo (Some v) mg code ff ft ta ce fp co)
  else if str_eqb key (lit "mc_gamma_input") then
    do v <- config_get config (lit "mc_gamma_input"); Ok (UsrInputs mi mo mc_out v code ff ft ta ce fp co)
  else if str_eqb key (lit "mc_code") then
    do v <- config_get config (lit "mc_code"); Ok (UsrInputs mi mo mc_out mg v ff ft ta ce fp co)
  else if str_eqb key (lit "files_file") then
    do v <- config_get config (lit "files_file"); Ok (UsrInputs mi mo mc_out mg code v ft ta ce fp co)
  else if str_eqb key (lit "fispact_template") then
    do v <- config_get config (lit "fispact_template"); Ok (UsrInputs mi mo mc_out mg code ff v ta ce fp co)
  else if str_eqb key (lit "tallies") then
    do v <- config_get config (lit "tallies"); Ok (UsrInputs mi mo mc_out mg code ff ft v ce fp co)
  else if str_eqb key (lit "cells") then
    do v <- config_get config (lit "cells"); Ok (UsrInputs mi mo mc_out mg code ff ft ta v fp co)
  else if str_eqb key (lit "fispact_path") then
    do v <- config_get config (lit "fispact_path"); Ok (UsrInputs mi mo mc_out mg code ff ft ta ce v co)
  else if str_eqb key (lit "cooling_step") then
    do v <- config_get config (lit "cooling_step"); Ok (UsrInputs mi mo mc_out mg code ff ft ta ce fp v)
  else Err ValueError.
(** r2s_cell.py:30-63.  [json_load] is the parser of the json module; its JSONDecodeError is a
    ValueError.  A value without .keys() raises AttributeError. *)
Definition read_config (json_load : str -> res json) (f : fs) (config_fp : path) : res usr_inputs :=
  if negb (path_exists f config_fp) then Err FileNotFoundError
  else
    do text <- read_text f config_fp;
    do config <- json_load text;
    match config with
    | JObj members => foldM (assign_key members) (map fst members) new_inputs
    | _ => Err AttributeError
    end.

(** r2s_cell.py:66-82.  [tallies] is None or a list of tally numbers; a list plus None raises
    TypeError. *)
Definition wanted_tally (particle : str) (tallies : option (list Z)) (tal : tally) : bool :=
  Ascii.eqb (t_type tal) (chr 52) && str_eqb (t_particle tal) particle
  && match tallies with None => true | Some ns => existsb (Z.eqb (t_number tal)) ns end.
Definition cells_step (particle : str) (tallies : option (list Z)) (st : list str * list tally) (tal : tally)
  : res (list str * list tally) :=
  let '(cell_list, tally_data) := st in
  if wanted_tally particle tallies tal
  then match b_cells (t_body tal) with
       | Some cells => Ok (cell_list ++ cells, tally_data ++ [tal])
       | None => Err TypeError
       end
  else Ok (cell_list, tally_data).
Definition get_cells_mcnp (tally_list : list tally) (particle : str) (tallies : option (list Z))
  : res (list Z * list tally) :=
  do st <- foldM (cells_step particle tallies) tally_list ([], []);
  let '(cell_list, tally_data) := st in
  do cells <- mapM py_int cell_list;
  Ok (cells, tally_data).

(** r2s_cell.py:85-105.  A row of the data frame is its label, number, material and density;
    None stands for the data frame of no cells. *)
Record cell_row : Type := CellRow { cr_label : nat; cr_number : Z; cr_material : Z; cr_density : option float }.
Fixpoint cell_rows (i : nat) (cells : list cell) : list cell_row :=
  match cells with
  | [] => []
  | c :: cs => CellRow i (c_number c) (c_mat c) (c_density c) :: cell_rows (S i) cs
  end.
Definition get_cell_data (mc_cells : list (Z * cell)) (tally_cell_list : list Z) : res (option (list cell_row)) :=
  do cell_data <- mapM (fun n => if check_cell_exists n mc_cells
                                 then match get_cell n mc_cells with
                                      | Some c => Ok c
                                      | None => Err AttributeError   (* not reached *)
                                      end
                                 else Err ValueError) tally_cell_list;
  match cell_data with
  | [] => Ok None
  | _ :: _ => Ok (Some (cell_rows 0 cell_data))
  end.

(** r2s_cell.py:108-134. *)
Definition write_collapse (p : path) (groups_count : Z) : io unit :=
  io_write (fun f => write_lines f p
    [ lit "<< -----collapse cross section data----- >>"; lit "CLOBBER";
      lit "GETXS 1 " ++ str_of_Z groups_count; lit "FISPACT"; lit "* COLLAPSE"; lit "END";
      lit "* END OF RUN" ]).
Definition write_array (p : path) : io unit :=
  io_write (fun f => write_lines f p
    [ lit "<< -----condense decay data----- >>"; lit "CLOBBER"; lit "SPEK"; lit "GETDECAY 1";
      lit "FISPACT"; lit "* CONDENSE"; lit "END"; lit "* END OF RUN" ]).
(** r2s_cell.py:137-141 and 152-156: the arguments other than the path are not used. *)
Definition write_fispact (p : path) : io unit := io_write (fun f => write_lines f p []).
Definition write_fluxes (p : path) : io unit := io_write (fun f => write_lines f p []).

(** shutil.copyfile: SameFileError, an OSError, when both names are the same file (links are
    not modelled); the source is opened first. *)
Definition copyfile (src dst : path) : io unit := fun f =>
  if path_eqb src dst && path_exists f src then (f, Err OSError)
  else match walk f [] src with
       | Err e => (f, Err e)
       | Ok _ =>
           if is_dir f src then (f, Err IsADirectoryError)
           else match f src with
                | Some (File c) =>
                    match can_open_w f dst with
                    | Ok _ => (fs_set f dst (File c), Ok tt)
                    | Err e => (f, Err e)
                    end
                | _ => (f, Err FileNotFoundError)
                end
       end.
(** r2s_cell.py:144-149. *)
Definition copy_files_file (files_file : json) (p : path) : io unit :=
  run src <- io_lift (path_of_json files_file);
  run ex <- io_read (fun f => Ok (path_exists f src));
  if negb ex then io_raise FileNotFoundError else copyfile src (p ++ [lit "FILES"]).
(** r2s_cell.py:159-164. *)
Definition check_files_file (files_file : path) : io unit :=
  run ex <- io_read (fun f => Ok (path_exists f files_file));
  if negb ex then io_raise FileNotFoundError else io_ret tt.
(** r2s_cell.py:167-173: the log is read and then ignored. *)
Definition check_fispact_errors (log_file : path) : io Z :=
  run ex <- io_read (fun f => Ok (path_exists f log_file));
  if negb ex then io_raise FileNotFoundError
  else run log <- io_read (fun f => get_lines f log_file); io_ret 0%Z.

(** os.makedirs, on the reversed path: missing parents first, a FileExistsError there is
    ignored. *)
Fixpoint makedirs_rev (rp : list str) : io unit :=
  match rp with
  | [] => io_raise FileNotFoundError
  | x :: rh => fun f =>
      let mkdir := io_write (fun f => os_mkdir f (rev rp)) in
      match rh with
      | [] => mkdir f
      | _ :: _ =>
          if path_exists f (rev rh) then mkdir f
          else match makedirs_rev rh f with
               | (f', Ok _) => mkdir f'
               | (f', Err FileExistsError) => mkdir f'
               | (f', Err e) => (f', Err e)
               end
      end
  end.
Definition makedirs (p : path) : io unit := makedirs_rev (rev p).

(** f"{path}.i" *)
Definition add_i (p : path) : path :=
  match rev p with [] => [lit ".i"] | x :: h => rev h ++ [x ++ lit ".i"] end.
(** r2s_cell.py:197-214.  The folder and the text it was made from are one list of
    components, so f"{path}/{path}.i" is the folder followed by the folder and ".i"; the cell
    data are not used. *)
Definition fispact_setup (p : path) (files_file : json) : io unit :=
  run ex <- io_read (fun f => Ok (path_exists f p));
  run u0 <- (if negb ex then makedirs p else io_ret tt);
  run u1 <- write_collapse (p ++ [lit "collapse.i"]) 175;
  run u2 <- write_array (p ++ [lit "array.i"]);
  run u3 <- write_fispact (p ++ add_i p);
  run u4 <- copy_files_file files_file p;
  run u5 <- check_files_file (p ++ [lit "FILES"]);
  write_fluxes (p ++ [lit "fluxes"]).

Section Sets.
  (** Iteration orders of sets: of tally numbers, of surfaces, of material numbers. *)
  Variable torder sorder : list str -> list str.
  Variable set_order : list Z -> list Z.
  Variable json_load : str -> res json.

  (** r2s_cell.py:217-228. *)
  Definition read_data_from_mcnp_output (u : usr_inputs) (f : fs) : res (list Z * list tally) :=
    do v <- (match u_mc_output u with Some v => Ok v | None => Err AttributeError end);
    do p <- path_of_json v;
    if negb (path_exists f p) then Err FileNotFoundError
    else
      do mc_output <- read_output_file torder sorder f p;
      if o_fatal mc_output then Err ValueError
      else get_cells_mcnp (o_tally_data mc_output) (lit "neutrons") None.

  (** r2s_cell.py:231-246; indexing the None of get_cell_data raises TypeError. *)
  Definition read_data_from_mcnp_input (u : usr_inputs) (tally_cell_list : list Z) (f : fs)
    : res (list cell_row * list material) :=
    do p <- path_of_json (u_mc_input u);
    if negb (path_exists f p) then Err FileNotFoundError
    else
      do mc_input <- read_mcnp_input f p;
      do cell_data <- get_cell_data (i_cells mc_input) tally_cell_list;
      match cell_data with
      | None => Err TypeError
      | Some rows =>
          do material_data <- mapM (fun n => read_material_lines n (i_data_block mc_input))
                                   (set_order (map cr_material rows));
          Ok (rows, material_data)
      end.

  (** r2s_cell.py:270-276: [cellN] has no separator, so it is one component. *)
  Fixpoint setup_cells (files_file : json) (cells : list Z) : io unit :=
    match cells with
    | [] => io_ret tt
    | c :: cs =>
        run u <- fispact_setup [lit "cell" ++ str_of_Z c] files_file;
        setup_cells files_file cs
    end.
  (** r2s_cell.py:249-276; .upper() on anything but text raises AttributeError. *)
  Definition main (config_fp : path) : io unit :=
    run inputs <- io_read (fun f => read_config json_load f config_fp);
    match u_mc_code inputs with
    | JStr code =>
        if str_eqb (upper code) (lit "MCNP") then
          run r <- io_read (read_data_from_mcnp_output inputs);
          run d <- io_read (read_data_from_mcnp_input inputs (fst r));
          setup_cells (u_files_file inputs) (fst r)
        else io_raise NotImplementedError
    | _ => io_raise AttributeError
    end.
End Sets.
