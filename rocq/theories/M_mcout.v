(** mcnp_output_reader.py.  Logging is not modelled; print_tally_lines_to_file (375-387)
    writes only when the root logger is at DEBUG level and is added in M_mcdump.v.  Sets are lists
    without duplicates; where the code iterates over a set or turns it into a list, the
    order is a parameter [order].  Data frames are lists of rows. *)
From Verif Require Import PyBase PyFloat PyFs M_util.

Definition c_eq : ascii := chr 61.
Definition c_col : ascii := chr 58.

(** l[::2] and l[1::2] *)
Fixpoint evens {A} (l : list A) : list A :=
  match l with
  | a :: r => a :: match r with _ :: r' => evens r' | [] => [] end
  | [] => []
  end.
Definition odds {A} (l : list A) : list A := match l with [] => [] | _ :: r => evens r end.

(** Elements of a list without repetitions, as in set(l). *)
Definition set_of (l : list str) : list str :=
  fold_left (fun acc x => if existsb (str_eqb x) acc then acc else acc ++ [x]) l [].

(** * Results *)
Inductive tentry : Type :=
| EFloat (x : float)                     (* a value *)
| ERow (l : list float)                  (* values per time bin *)
| EMat (m : list (list float)).          (* energy x time matrix *)
Definition etable : Type := list (Z * list (float * float * float)).
Inductive tresult : Type :=
| TList (l : list tentry)
| TMat (m : list (list float))
| TTable (d : etable).
Inductive ttimes : Type := TimesText (l : list str) | TimesNum (l : list float).
Inductive nps_val : Type := NpsInt (z : Z) | NpsText (s : str).
Record f5_data : Type := F5 {
  f5_x : float; f5_y : float; f5_z : float; f5_average : float; f5_largest : float;
  f5_largest_nps : float; f5_misses : list (str * float) }.
(** The fields filled in by the readers of the tally types, mcnp_output_reader.py:36-183. *)
Record tbody : Type := TBody {
  b_result : tresult; b_err : tresult; b_eng : option (list float); b_times : option ttimes;
  b_user_bins : option (list str); b_totals : option (list (Z * (float * float)));
  b_surfaces : option (list str); b_areas : option (list str); b_ang : option (list float);
  b_cells : option (list str); b_vols : option (list str); b_f5 : option f5_data }.
Definition empty_body : tbody :=
  TBody (TList []) (TList []) None None None None None None None None None None.
Record tally : Type := Tally {
  t_number : Z; t_type : ascii; t_particle : str; t_nps : nps_val; t_body : tbody }.

(** * General information *)
(** mcnp_output_reader.py:186-203 *)
Definition read_version (lines : list str) : option str :=
  match lines with
  | [] => None
  | line :: _ =>
      if str_eqb (slice_to 29 line) (lit "          Code Name & Version") then
        match py_nth (split_on c_eq line) 1%Z with
        | Ok v => Some (strip v)
        | Err _ => None
        end
      else None
  end.

(** mcnp_output_reader.py:206-225 *)
Definition read_run_date (lines : list str) : res (str * str) :=
  let lines := if (101 <? zlen lines)%Z then slice_to 100 lines else lines in
  do i <- find_line (lit "1mcnp") lines 5;
  do l <- py_nth lines (Z.of_nat i);
  let data_line := string_clean_and_split l in
  do date <- py_nth data_line (-2)%Z;
  do time <- py_nth data_line (-1)%Z;
  Ok (date, time).

(** mcnp_output_reader.py:228-238 *)
Definition read_comments_warnings (lines : list str) : list str * list str :=
  (filter (starts_with (lit "  comment.")) lines, filter (starts_with (lit "  warning.")) lines).

(** mcnp_output_reader.py:241-260; the set as a list of its elements. *)
Definition get_tally_nums (lines : list str) : res (list str) :=
  do l <- mapM (fun line => py_nth (string_clean_and_split line) 1%Z)
            (filter (fun line => str_eqb (slice_btw 0 11 line) (lit "1tally     ")) lines);
  Ok (set_of l).

(** mcnp_output_reader.py:263-277 *)
Definition get_rendevous_index (data : list str) : list nat :=
  map fst (filter (fun il => contains (lit "master set rendezvous nps") (snd il)) (enumerate data)).
(** mcnp_output_reader.py:280-284 *)
Definition count_rendevous (data : list str) : nat := List.length (get_rendevous_index data).

(** mcnp_output_reader.py:287-300 *)
Definition process_ang_string (line : str) : res float :=
  do ang <- py_nth (split_on c_col (strip line)) 1%Z;
  do w <- py_nth (split_ws ang) (-2)%Z;
  py_float w.

(** pd.DataFrame(rows, columns=...): the widest row must have as many entries as there are
    columns; shorter rows are padded. *)
Definition data_frame (rows : list (list str)) (ncols : nat) : res (list (list (option str))) :=
  match rows with
  | [] => Ok []
  | _ :: _ =>
      if (list_max (map (@List.length str) rows) =? ncols)%nat then
        Ok (map (fun r => map Some r ++ repeat None (ncols - List.length r)) rows)
      else Err ValueError
  end.

(** Lines up to the first empty one, split at single spaces. *)
Fixpoint rows_until_empty (lines : list str) : list (list str) :=
  match lines with
  | [] => []
  | l :: ls => match l with [] => [] | _ :: _ => split_on c_space l :: rows_until_empty ls end
  end.
(** mcnp_output_reader.py:308-338 (nine columns). *)
Definition read_table101 (lines : list str) (start_line : Z) : res (list (list (option str))) :=
  do term_line <- find_line (lit " *******") (slice_from start_line lines) 8;
  let table_lines := slice_from 6 (map string_cleaner
        (slice_btw start_line (start_line + Z.of_nat term_line) lines)) in
  data_frame (rows_until_empty table_lines) 9.

(** mcnp_output_reader.py:341-372: the column names and the rows. *)
Definition set_nth {A} (l : list A) (i : nat) (x : A) : list A := firstn i l ++ x :: skipn (S i) l.
Definition read_table60 (lines : list str) (start_line : Z) : res (list str * list (list (option str))) :=
  do term_line <- find_line (lit "    minimum source weight") lines 25;
  let table_lines := map string_cleaner (slice_btw start_line (Z.of_nat term_line) lines) in
  do h1 <- py_nth table_lines 2%Z;
  let header1 := split_on c_space h1 in
  do h2 <- py_nth table_lines 3%Z;
  let header2 := split_on c_space h2 in
  do a0 <- py_nth header1 0%Z;
  do b2 <- py_nth header2 2%Z;
  let header2 := set_nth header2 2 (a0 ++ c_space :: b2) in
  do a1 <- py_nth header1 1%Z;
  do b3 <- py_nth header2 3%Z;
  let header2 := set_nth header2 3 (a1 ++ c_space :: b3) in
  do al <- py_nth header1 (-1)%Z;
  do bl <- py_nth header2 (-1)%Z;
  let header2 := set_nth header2 (List.length header2 - 1) (al ++ c_space :: bl) in
  let datalines := slice_btw 5 (-3) table_lines in
  let data := map (fun line => slice_from 1 (split_on c_space line)) datalines in
  do df <- data_frame data (List.length header2);
  Ok (header2, df).

(** * Binned results *)
(** mcnp_output_reader.py:390-410 *)
Definition time_step (st : list str * list float * list float) (line : str) : res (list str * list float * list float) :=
  let '(time_bins, results, errs) := st in
  let line := string_cleaner line in
  if contains (lit "time") line then
    Ok (time_bins ++ slice_from 1 (split_on c_space line), results, errs)
  else if (4 <? zlen line)%Z then
    do vals <- mapM py_float (split_on c_space line);
    Ok (time_bins, results ++ evens vals, errs ++ odds vals)
  else Ok st.
Definition process_time_bin_only (lines : list str) : res (list str * list float * list float) :=
  foldM time_step lines ([], [], []).

(** mcnp_output_reader.py:413-425 *)
Definition eng_time_get_time_bins (data : list str) : list str :=
  fold_left (fun acc line =>
    if contains (lit "time") line then
      fold_left (fun acc t => if existsb (str_eqb t) acc then acc else acc ++ [t])
        (slice_from 1 (split_on c_space (join [c_space] (split_ws line)))) acc
    else acc) data [].

(** mcnp_output_reader.py:428-449 *)
Fixpoint eng_bins_loop (in_data : bool) (data : list str) : list str :=
  match data with
  | [] => []
  | line :: data' =>
      if in_data then
        if contains (lit "total") line then []
        else hd [] (split_on c_space (join [c_space] (split_ws line))) :: eng_bins_loop true data'
      else eng_bins_loop (contains (lit "energy") line) data'
  end.
Definition eng_time_get_eng_bins (data : list str) : list str :=
  eng_bins_loop false data ++ [lit "total"].

(** mcnp_output_reader.py:452-465 *)
Definition energy_line (line : str) : res (float * float * float) :=
  let l := split_on c_space (strip line) in
  do e <- bind (py_nth l 0%Z) py_float;
  do r <- bind (py_nth l 3%Z) py_float;
  do u <- bind (py_nth l 4%Z) py_float;
  Ok (e, r, u).
Definition process_energy_lines (erg_lines : list str) : res (list float * list float * list float) :=
  do rows <- mapM energy_line erg_lines;
  Ok (map (fun r => fst (fst r)) rows, map (fun r => snd (fst r)) rows, map snd rows).

(** mcnp_output_reader.py:468-476, for an array with at least one row and rows of one length:
    the frame with its row and column labels, or the data as they were. *)
Inductive et_frame (L : Type) : Type :=
| EtFrame (index columns : list L) (cells : list (list float))
| EtData (data : list (list float)).
Arguments EtFrame {L}. Arguments EtData {L}.
Definition convert_energy_time_data_to_df {L} (data : list (list float)) (time_bins energy_bins : list L) : et_frame L :=
  if Nat.eqb (List.length data) (List.length time_bins) && forallb (fun r => Nat.eqb (List.length r) (List.length energy_bins)) data
  then EtFrame time_bins energy_bins data
  else EtData data.

(** re.findall of the character class [\d.E+-]+ : the maximal runs. *)
Fixpoint runs_by (p : ascii -> bool) (s : str) : list str :=
  match s with
  | [] => []
  | c :: s' =>
      if p c then
        match s' with
        | d :: _ => if p d then match runs_by p s' with w :: ws => (c :: w) :: ws | [] => [[c]] end
                    else [c] :: runs_by p s'
        | [] => [[c]]
        end
      else runs_by p s'
  end.
Definition num_char (c : ascii) : bool :=
  is_decimal c || existsb (Ascii.eqb c) [chr 46; chr 69; chr 43; chr 45].
Definition find_numbers (line : str) : list str := runs_by num_char line.

(** np.array of rows: all of the same length. *)
Definition np_matrix (rows : list (list float)) : res (list (list float)) :=
  match rows with
  | [] => Ok []
  | r :: rs => if forallb (fun x => List.length x =? List.length r) rs then Ok rows else Err ValueError
  end.
(** np.hstack of two-dimensional arrays. *)
Fixpoint zip_app (a b : list (list float)) : list (list float) :=
  match a, b with
  | x :: a', y :: b' => (x ++ y) :: zip_app a' b'
  | _, _ => []
  end.
Definition np_hstack (ms : list (list (list float))) : res (list (list float)) :=
  match ms with
  | [] => Err ValueError
  | m :: rest =>
      if forallb (fun x => List.length x =? List.length m) rest then Ok (fold_left zip_app rest m)
      else Err ValueError
  end.
(** sorted(set(l)) *)
Fixpoint insert_f (x : float) (l : list float) : list float :=
  match l with
  | [] => [x]
  | y :: r => if feq x y then l else if flt x y then x :: l else y :: insert_f x r
  end.
Definition sorted_set (l : list float) : list float := fold_left (fun acc x => insert_f x acc) l [].

(** mcnp_output_reader.py:479-530 *)
Record et_state : Type := ET {
  et_times : list float; et_energies : list float;
  et_values : list (list (list float)); et_uncerts : list (list (list float));
  et_block : list (list float); et_ublock : list (list float); et_reading : bool }.
Definition et_step (st : et_state) (line : str) : res et_state :=
  let line := strip line in
  if starts_with (lit "time:") line then
    do current_times <- mapM py_float (find_numbers line);
    Ok (ET (et_times st ++ current_times) (et_energies st) (et_values st) (et_uncerts st) (et_block st) (et_ublock st) true)
  else if et_reading st then
    if starts_with (lit "total") line || str_eqb line [] then
      match et_block st with
      | [] => Ok (ET (et_times st) (et_energies st) (et_values st) (et_uncerts st) (et_block st) (et_ublock st) false)
      | _ :: _ =>
          do v <- np_matrix (et_block st);
          do u <- np_matrix (et_ublock st);
          Ok (ET (et_times st) (et_energies st) (et_values st ++ [v]) (et_uncerts st ++ [u]) [] [] false)
      end
    else if starts_with (lit "energy") line then Ok st
    else
      match find_numbers line with
      | [] => Ok st
      | p0 :: ps =>
          do energy <- py_float p0;
          do data_pairs <- mapM py_float ps;
          Ok (ET (et_times st) (et_energies st ++ [energy]) (et_values st) (et_uncerts st)
                 (et_block st ++ [evens data_pairs]) (et_ublock st ++ [odds data_pairs]) true)
      end
  else Ok st.
Definition et_start : et_state := ET [] [] [] [] [] [] false.
Definition et_result : Type := list float * list float * list (list float) * list (list float).
Definition process_e_t_userbin (lines : list str) : res et_result :=
  do st <- foldM et_step lines et_start;
  do values <- np_hstack (et_values st);
  do uncerts <- np_hstack (et_uncerts st);
  Ok (sorted_set (et_times st), sorted_set (et_energies st), values, uncerts).

(** mcnp_output_reader.py:533-546 *)
Definition find_term_line (lines : list str) : option nat :=
  match find_line (lit "      run terminated ") lines 21 with
  | Ok i => Some i
  | Err _ => None
  end.
(** mcnp_output_reader.py:549-566 *)
Definition find_last_rendevous (lines : list str) : option nat :=
  let indexes := get_rendevous_index lines in
  if (zlen indexes <? 2)%Z then None
  else match py_nth indexes (-2)%Z with Ok i => Some i | Err _ => None end.

(** re.match of the keyword, white space and a number. *)
Fixpoint span_by (p : ascii -> bool) (s : str) : str * str :=
  match s with
  | c :: s' => if p c then let '(a, b) := span_by p s' in (c :: a, b) else ([], s)
  | [] => ([], [])
  end.
Definition match_header (kw line : str) : option Z :=
  if starts_with kw line then
    let '(sp, r) := span_by is_ws (skipn (List.length kw) line) in
    let '(ds, _) := span_by is_decimal r in
    match sp, ds with
    | _ :: _, _ :: _ => Some (Z.of_N (digits_val ds))
    | _, _ => None
    end
  else None.
(** defaultdict(list)[k].append(x) *)
Definition dict_push {A} (k : Z) (x : A) (d : list (Z * list A)) : list (Z * list A) :=
  dict_set Z.eqb k (match dict_get Z.eqb k d with Some l => l ++ [x] | None => [x] end) d.
Definition eb_state : Type := option Z * etable * list (Z * (float * float)).
(** The part common to mcnp_output_reader.py:786-807 and 990-1010. *)
Definition eb_data (st : eb_state) (line : str) : res eb_state :=
  let '(current, data_dict, total_dict) := st in
  match current with
  | None | Some 0%Z => Ok st
  | Some cur =>
      if starts_with (lit "total") (lower line) then
        let parts := split_ws (replace (lit "total") [] (lower line)) in
        match parts with
        | [a; b] =>
            do total_result <- py_float a;
            do total_rel_err <- py_float b;
            Ok (current, data_dict, dict_set Z.eqb cur (total_result, total_rel_err) total_dict)
        | _ => Ok st
        end
      else
        match split_ws line with
        | [a; b; c] =>
            if match a with d :: _ => is_decimal d | [] => false end then
              do energy <- py_float a;
              do result <- py_float b;
              do rel_err <- py_float c;
              Ok (current, dict_push cur (energy, result, rel_err) data_dict, total_dict)
            else Ok st
        | _ => Ok st
        end
  end.
(** mcnp_output_reader.py:771-813 *)
Definition surface_step (st : eb_state) (line : str) : res eb_state :=
  let line := strip line in
  let '(current, data_dict, total_dict) := st in
  match match_header (lit "surface") line with
  | Some n => Ok (Some n, data_dict, total_dict)
  | None => eb_data st line
  end.
Definition process_energy_binned_surface_tally (lines : list str) : res (etable * list (Z * (float * float))) :=
  do st <- foldM surface_step lines (None, [], []);
  let '(_, data_dict, total_dict) := st in
  Ok (data_dict, total_dict).
(** mcnp_output_reader.py:979-1015 *)
Definition cell_step (st : eb_state) (line : str) : res eb_state :=
  let line := strip line in
  let '(current, data_dict, total_dict) := st in
  let current := match match_header (lit "cell") line with Some n => Some n | None => current end in
  eb_data (current, data_dict, total_dict) line.
Definition read_energy_bin_only_cell_tally (lines : list str) : res (etable * list (Z * (float * float))) :=
  do st <- foldM cell_step lines (None, [], []);
  let '(_, data_dict, total_dict) := st in
  Ok (data_dict, total_dict).
(** next(iter(result)) and its "energy" column. *)
Definition first_energies (d : etable) : res (list float) :=
  match d with
  | [] => Err StopIteration
  | (_, rows) :: _ => Ok (map (fun r => fst (fst r)) rows)
  end.

(** * Tally types *)
Definition energy_head : str := lit "      energy   ".
(** mcnp_output_reader.py:658-691 *)
Definition read_type_8 (lines : list str) : res tbody :=
  let cell := lit "2" in
  let cline := lit " cell  " in
  do start <- find_line (cline ++ cell) lines (zlen cell + zlen cline);
  let start := Z.of_nat start in
  do line <- py_nth lines (start + 1);
  if str_eqb line energy_head then
    do id2 <- find_line (lit "      total    ") (slice_from (start + 1) lines) 15;
    do r <- process_energy_lines (slice_btw (start + 2) (start + 1 + Z.of_nat id2) lines);
    let '(eng, result, err) := r in
    Ok (TBody (TList (map EFloat result)) (TList (map EFloat err)) (Some eng) None None None None None None
              (Some [cell]) None None)
  else
    let l := split_on c_space (strip line) in
    do x <- bind (py_nth l 0%Z) py_float;
    do u <- bind (py_nth l 1%Z) py_float;
    Ok (TBody (TList [EFloat x]) (TList [EFloat u]) None None None None None None None (Some [cell]) None None).

(** mcnp_output_reader.py:694-703 *)
Definition get_type2_surface_areas (lines : list str) : res (list str) :=
  do i <- find_line (lit "           areas") lines 16;
  do l <- py_nth lines (Z.of_nat i + 2);
  Ok (split_on c_space (join [c_space] (split_ws l))).
(** mcnp_output_reader.py:706-716 *)
Definition get_type2_surface_numbers (lines : list str) : res (list str) :=
  do i <- find_line (lit "           areas") lines 16;
  do l <- py_nth lines (Z.of_nat i + 1);
  do r <- py_nth (split_on c_col (join [c_space] (split_ws l))) 1%Z;
  Ok (slice_from 1 (split_on c_space r)).
(** mcnp_output_reader.py:719-727 *)
Definition get_type1_surface_numbers (lines : list str) : res (list str) :=
  mapM (fun line => py_nth (split_ws (strip line)) (-1)%Z)
    (filter (contains (lit "surface")) (slice_from 2 lines)).

(** mcnp_output_reader.py:730-768; the state holds the angle bins, the current bin lists,
    the finished lists, [in_res] and the energies of the last total line. *)
Record ea_state : Type := EA {
  ea_angles : list float; ea_ebin : list float; ea_res : list float; ea_err : list float;
  ea_res_df : list (list float); ea_err_df : list (list float); ea_in : bool; ea_eng : option (list float) }.
Definition ea_step (st : ea_state) (line : str) : res ea_state :=
  do angles <- (if str_eqb (slice_to 11 line) (lit " angle  bin")
                then do a <- process_ang_string line; Ok (ea_angles st ++ [a]) else Ok (ea_angles st));
  let st := EA angles (ea_ebin st) (ea_res st) (ea_err st) (ea_res_df st) (ea_err_df st) (ea_in st) (ea_eng st) in
  let st := if str_eqb (slice_to 13 line) (lit "      total  ")
            then EA angles [] [] [] (ea_res_df st ++ [ea_res st]) (ea_err_df st ++ [ea_err st]) false (Some (ea_ebin st))
            else st in
  if ea_in st then
    do r <- energy_line line;
    let '(e, x, u) := r in
    Ok (EA (ea_angles st) (ea_ebin st ++ [e]) (ea_res st ++ [x]) (ea_err st ++ [u]) (ea_res_df st) (ea_err_df st) true (ea_eng st))
  else if str_eqb line energy_head then
    Ok (EA (ea_angles st) (ea_ebin st) (ea_res st) (ea_err st) (ea_res_df st) (ea_err_df st) true (ea_eng st))
  else Ok st.
Definition process_energy_angle_tally (lines : list str) (first : Z) : res ea_state :=
  foldM ea_step (slice_from first lines) (EA [fdec (-1) 0] [] [] [] [] [] false None).

(** mcnp_output_reader.py:874-891, one pass per surface over the energy-time blocks. *)
Fixpoint et_surfaces (surfaces : list str) (lines : list str) (first : Z) : res (list et_result) :=
  match surfaces with
  | [] => Ok []
  | _ :: rest =>
      let stop := match find_line (lit " surface ") (slice_from (first + 1) lines) 9 with
                  | Ok i => (Z.of_nat i + first + 1)%Z
                  | Err _ => (-1)%Z
                  end in
      do r <- process_e_t_userbin (slice_btw (first + 1) stop lines);
      do rs <- et_surfaces rest lines stop;
      Ok (r :: rs)
  end.
(** mcnp_output_reader.py:909-916, one pass per surface over the time blocks. *)
Fixpoint time_surfaces (surfaces : list str) (lines : list str) (first : Z) : res (list (list str * list float * list float)) :=
  match surfaces with
  | [] => Ok []
  | _ :: rest =>
      do end_pos <- find_ind (slice_from first lines) (lit "total");
      let stop := (Z.of_nat end_pos + 2 + first)%Z in
      do r <- process_time_bin_only (slice_btw (first + 1) stop lines);
      do rs <- time_surfaces rest lines (stop + 1);
      Ok (r :: rs)
  end.
(** Value and error of the line, split at single spaces. *)
Definition value_line (lines : list str) (i : Z) : res (float * float) :=
  do line <- py_nth lines i;
  let l := split_on c_space (strip line) in
  do x <- bind (py_nth l 0%Z) py_float;
  do u <- bind (py_nth l 1%Z) py_float;
  Ok (x, u).
(** mcnp_output_reader.py:930-940, one pass per surface. *)
Fixpoint value_surfaces (surfaces : list str) (lines : list str) (loc : Z) : res (list (float * float)) :=
  match surfaces with
  | [] => Ok []
  | _ :: rest =>
      do i <- find_line (lit " surface ") (slice_from loc lines) 9;
      let id := (Z.of_nat i + loc)%Z in
      do r <- value_line lines (id + 1);
      do rs <- value_surfaces rest lines (id + 1);
      Ok (r :: rs)
  end.
Definition last_res {A} (l : list A) : option A := match rev l with x :: _ => Some x | [] => None end.

(** mcnp_output_reader.py:816-950; [order] is the order in which list(set(...)) lists the
    surfaces. *)
Definition read_type_surface (order : list str -> list str) (tally_type : ascii) (lines : list str) : res tbody :=
  do areas <- (if Ascii.eqb tally_type (chr 50) then get_type2_surface_areas lines else Ok []);
  do surfaces <- (if Ascii.eqb tally_type (chr 50) then get_type2_surface_numbers lines
                  else if Ascii.eqb tally_type (chr 49) then
                    do l <- get_type1_surface_numbers lines; Ok (order (set_of l))
                  else Ok []);
  let body result err eng times totals ang :=
    TBody result err eng times None totals (Some surfaces) (Some areas) ang None None None in
  do first <- find_line (lit " surface ") lines 9;
  let first := Z.of_nat first in
  do next <- py_nth lines (first + 1);
  if contains (lit "energy") next then
    do r <- process_energy_binned_surface_tally lines;
    let '(result, totals) := r in
    do eng <- first_energies result;
    Ok (body (TTable result) (TList []) (Some eng) None (Some totals) None)
  else if contains (lit "angle") next then
    do next2 <- py_nth lines (first + 2);
    if str_eqb next2 energy_head then
      do st <- process_energy_angle_tally lines first;
      Ok (body (TList (map ERow (ea_res_df st))) (TList (map ERow (ea_err_df st))) (ea_eng st) None None (Some (ea_angles st)))
    else Ok (body (TList []) (TList []) None None None None)
  else if contains (lit "time") next then
    do end_line <- find_line (lit " ===") lines 4;
    let lines := slice_to (Z.of_nat end_line) lines in
    do next2 <- py_nth lines (first + 2);
    if contains (lit "energy") next2 then
      if (1 <? zlen surfaces)%Z then
        do rs <- et_surfaces surfaces lines first;
        match last_res rs with
        | None => Err UnboundLocalError
        | Some (tb, eb, _, _) =>
            Ok (body (TList (map (fun r => EMat (snd (fst r))) rs)) (TList (map (fun r => EMat (snd r)) rs))
                     (Some eb) (Some (TimesNum tb)) None None)
        end
      else
        do r <- process_e_t_userbin (slice_btw (first + 1) (Z.of_nat end_line) lines);
        let '(tb, eb, v, u) := r in
        Ok (body (TMat v) (TMat u) (Some eb) (Some (TimesNum tb)) None None)
    else if (1 <? zlen surfaces)%Z then
      do rs <- time_surfaces surfaces lines first;
      match last_res rs with
      | None => Err UnboundLocalError
      | Some (tb, _, _) =>
          Ok (body (TList (map (fun r => ERow (snd (fst r))) rs)) (TList (map (fun r => ERow (snd r)) rs))
                   None (Some (TimesText tb)) None None)
      end
    else
      do i <- find_ind lines (lit "total");
      do r <- process_time_bin_only (slice_btw (first + 1) (Z.of_nat i + 2) lines);
      let '(tb, v, u) := r in
      Ok (body (TList (map EFloat v)) (TList (map EFloat u)) None (Some (TimesText tb)) None None)
  else if (1 <? zlen surfaces)%Z then
    do rs <- value_surfaces surfaces lines 0;
    Ok (body (TList (map (fun r => EFloat (fst r)) rs)) (TList (map (fun r => EFloat (snd r)) rs)) None None None None)
  else
    do r <- value_line lines (first + 1);
    Ok (body (TList [EFloat (fst r)]) (TList [EFloat (snd r)]) None None None None).

(** mcnp_output_reader.py:953-976: from the line after [line_id] on; also the number of
    lines looked at. *)
Fixpoint cell_data_loop (lines : list str) (cells vols : list str) (n : nat) : res (list str * list str * nat) :=
  match lines with
  | [] => Err IndexError
  | line :: rest =>
      if str_eqb line [c_space] then Ok (cells, vols, S n)
      else if contains (lit "cell:") line then
        do c <- py_nth (split_on c_col (join [c_space] (split_ws line))) 1%Z;
        cell_data_loop rest (cells ++ slice_from 1 (split_on c_space c)) vols (S n)
      else cell_data_loop rest cells (vols ++ split_on c_space (join [c_space] (split_ws line))) (S n)
  end.
Definition get_cell_data (lines : list str) (line_id : nat) : res (list str * list str * nat) :=
  do r <- cell_data_loop (slice_from (Z.of_nat line_id + 1) lines) [] [] 0;
  let '(cells, vols, n) := r in
  Ok (cells, vols, line_id + n).

(** mcnp_output_reader.py:1044-1083, the loop over the cells. *)
Record cell_state : Type := CS {
  cs_lines : list str; cs_result : list tentry; cs_err : list tentry;
  cs_eng : option (list float); cs_times : option ttimes }.
Definition cell_loop_step (tally_read : bool) (st : cell_state) (cell : str) : res cell_state :=
  let lines := cs_lines st in
  do start <- find_ind lines (c_space :: cell ++ [c_space]);
  let start := Z.of_nat start in
  do next <- py_nth lines (start + 1);
  if contains (lit "time") next then
    do end_line <- find_line (lit " ===") lines 4;
    do next2 <- py_nth lines (start + 2);
    if contains (lit "energy") next2 then
      do r <- process_e_t_userbin (slice_btw (start + 1) (Z.of_nat end_line) lines);
      let '(tb, eb, v, u) := r in
      if tally_read then Err AttributeError (* result is a dict: it has no append *)
      else Ok (CS lines (cs_result st ++ [EMat v]) (cs_err st ++ [EMat u]) (Some eb) (Some (TimesNum tb)))
    else
      do i <- find_ind lines (lit "total");
      let stop := (Z.of_nat i + 2)%Z in
      do r <- process_time_bin_only (slice_btw (start + 1) stop lines);
      let '(tb, v, u) := r in
      if tally_read then Err AttributeError
      else Ok (CS (slice_from stop lines) (cs_result st ++ [ERow v]) (cs_err st ++ [ERow u]) (cs_eng st) (Some (TimesText tb)))
  else if tally_read then Ok st
  else
    let l := split_on c_space (join [c_space] (split_ws next)) in
    do w0 <- py_nth l 0%Z;
    if existsb (str_eqb (lit "total")) l || str_eqb w0 [] then Ok st
    else
      do x <- py_float w0;
      do u <- bind (py_nth l 1%Z) py_float;
      Ok (CS lines (cs_result st ++ [EFloat x]) (cs_err st ++ [EFloat u]) (cs_eng st) (cs_times st)).
(** mcnp_output_reader.py:1018-1085 *)
Definition read_type_cell (tally_type : ascii) (lines : list str) : res tbody :=
  do line_id <- (if Ascii.eqb tally_type (chr 52) then find_line (lit "           volumes ") lines 19
                 else if Ascii.eqb tally_type (chr 54) then find_line (lit "           masses ") lines 18
                 else Err UnboundLocalError);
  do r <- get_cell_data lines line_id;
  let '(cells, vols, line_id) := r in
  let lines := slice_from (Z.of_nat line_id) lines in
  do c0 <- py_nth cells 0%Z;
  do start <- find_ind lines (c_space :: c0 ++ [c_space]);
  do next <- py_nth lines (Z.of_nat start + 1);
  if contains (lit "energy") next then
    do r <- read_energy_bin_only_cell_tally lines;
    let '(result, totals) := r in
    do eng <- first_energies result;
    do st <- foldM (cell_loop_step true) cells (CS lines [] [] (Some eng) None);
    Ok (TBody (TTable result) (TList (cs_err st)) (cs_eng st) (cs_times st) None (Some totals) None None None (Some cells) (Some vols) None)
  else
    do st <- foldM (cell_loop_step false) cells (CS lines [] [] None None);
    Ok (TBody (TList (cs_result st)) (TList (cs_err st)) (cs_eng st) (cs_times st) None None None None None (Some cells) (Some vols) None).

(** mcnp_output_reader.py:1126-1152: user bins, each followed by its energy-time block. *)
Fixpoint user_bin_scan (i : nat) (lines : list str) : list (str * nat) :=
  match lines with
  | [] => []
  | line :: rest =>
      if contains (lit "user bin") line then
        let b := last (split_on c_space line) [] in
        if str_eqb b (lit "total") then [(b, i)] else (b, i) :: user_bin_scan (S i) rest
      else user_bin_scan (S i) rest
  end.
Fixpoint user_bin_blocks (locs : list nat) (bin_data : list str) : res (list et_result) :=
  match locs with
  | a :: ((b :: _) as rest) =>
      do r <- process_e_t_userbin (slice_btw (Z.of_nat a) (Z.of_nat b) bin_data);
      do rs <- user_bin_blocks rest bin_data;
      Ok (r :: rs)
  | _ => Ok []
  end.

(** mcnp_output_reader.py:1160-1197, data present in every type 5 tally. *)
Definition last_float (line : str) : res float :=
  bind (py_nth (string_clean_and_split line) (-1)%Z) py_float.
Definition miss_names : list str :=
  [lit "russian roulette on pd"; lit "psc=0"; lit "russian roulette in transmission";
   lit "underflow in transmission"; lit "hit a zero-importance cell"; lit "energy cutoff"].
Definition read_misses (lines : list str) : res (list (str * float)) :=
  do id <- find_ind lines (lit "score misses");
  mapM (fun kn => do line <- py_nth lines (Z.of_nat id + 1 + Z.of_nat (fst kn));
                  do x <- last_float line; Ok (snd kn, x)) (enumerate miss_names).
Definition read_f5_general (x y z : float) (lines : list str) : res f5_data :=
  do ave_id <- find_ind lines (lit " average tally per history");
  do ave_line <- py_nth lines (Z.of_nat ave_id);
  let ave := string_clean_and_split_by c_eq ave_line in
  do a1 <- py_nth ave 1%Z;
  do average <- py_float (slice_btw 1 13 a1);
  do al <- py_nth ave (-1)%Z;
  do largest <- py_float al;
  do n_line <- py_nth lines (Z.of_nat ave_id + 1);
  do nl <- py_nth (string_clean_and_split_by c_eq n_line) (-1)%Z;
  do nps <- py_float nl;
  do misses <- read_misses lines;
  Ok (F5 x y z average largest nps misses).

(** mcnp_output_reader.py:1088-1199 *)
Definition read_type_5 (lines : list str) : res tbody :=
  do loc <- find_line (lit " detector located") lines 17;
  let loc := Z.of_nat loc in
  do line <- py_nth lines loc;
  do loc_line <- py_nth (split_on c_eq line) 1%Z;
  do x <- py_float (strip (slice_btw 0 12 loc_line));
  do y <- py_float (strip (slice_btw 12 24 loc_line));
  do z <- py_float (strip (slice_btw 24 36 loc_line));
  do res_line <- py_nth lines (loc + 1);
  do r <-
    (if str_eqb res_line energy_head then
       do id2 <- find_line (lit "      total") (slice_from (loc + 1) lines) 11;
       do r <- process_energy_lines (slice_btw (loc + 2) (loc + Z.of_nat id2 + 1) lines);
       let '(eng, result, err) := r in
       Ok (TList (map EFloat result), TList (map EFloat err), Some eng, None, None)
     else if contains (lit "time") res_line then
       do stop <- find_line (lit " det") (slice_from (loc + 1) lines) 4;
       do r <- process_e_t_userbin (slice_btw (loc + 1) (loc + 1 + Z.of_nat stop) lines);
       let '(tb, eb, v, u) := r in
       Ok (TMat v, TMat u, Some eb, Some (TimesNum tb), None)
     else if contains (lit "user bin") res_line then
       let bin_data := slice_from (loc + 1) lines in
       let first := last (split_on c_space res_line) [] in
       let scan := (first, 0) :: user_bin_scan 0 bin_data in
       do rs <- user_bin_blocks (map snd scan) bin_data;
       Ok (TList (map (fun r => EMat (snd (fst r))) rs), TList (map (fun r => EMat (snd r)) rs),
           match last_res rs with Some (_, eb, _, _) => Some eb | None => None end,
           match last_res rs with Some (tb, _, _, _) => Some (TimesNum tb) | None => None end,
           Some (map fst scan))
     else
       let l := slice_from (-2) (split_on c_space res_line) in
       do v <- bind (py_nth l 0%Z) py_float;
       do u <- bind (py_nth l 1%Z) py_float;
       Ok (TList [EFloat v], TList [EFloat u], None, None, None));
  let '(result, err, eng, times, ubins) := r in
  do f5 <- read_f5_general x y z lines;
  Ok (TBody result err eng times ubins None None None None None None (Some f5)).

(** mcnp_output_reader.py:569-655 *)
Definition read_tally (order : list str -> list str) (lines : list str) (tnum : str) : res tally :=
  let term_line := match find_term_line lines with Some i => Some i | None => find_last_rendevous lines end in
  let lines := match term_line with Some i => slice_from (Z.of_nat i) lines | None => lines end in
  let fline := lit "1tally" ++ rep_chr c_space (9 - zlen tnum) in
  do start <- find_line (fline ++ tnum) lines 15;
  let start := Z.of_nat start in
  do l1 <- py_nth lines (start + 1);
  do c1 <- py_nth l1 0%Z;
  let comment := Ascii.eqb c1 (chr 43) in
  do lt <- py_nth lines (start + (if comment then 2 else 1));
  do tally_type <- py_nth lt 22%Z;
  do number <- py_int tnum;
  do lp <- py_nth lines (start + (if comment then 3 else 2));
  let particle := string_cleaner (slice_btw 24 33 lp) in
  do l0 <- py_nth lines start;
  let nps := string_cleaner (slice_btw 28 40 l0) in
  let nps := match py_int nps with Ok z => NpsInt z | Err _ => NpsText nps end in
  let lines := slice_from (start + 1) lines in
  do tal_end <- find_line (lit "1tally") lines 6;
  let lines := slice_to (Z.of_nat tal_end - 1) lines in
  do body <-
    (if Ascii.eqb tally_type (chr 52) || Ascii.eqb tally_type (chr 54) then read_type_cell tally_type lines
     else if Ascii.eqb tally_type (chr 53) then read_type_5 lines
     else if Ascii.eqb tally_type (chr 49) || Ascii.eqb tally_type (chr 50) then read_type_surface order tally_type lines
     else if Ascii.eqb tally_type (chr 56) then read_type_8 lines
     else Ok empty_body);
  Ok (Tally number tally_type particle nps body).

(** mcnp_output_reader.py:1202-1212 *)
Definition read_stat_tests (lines : list str) : res (list str) :=
  match find_line (lit " passed") lines 7 with
  | Err _ => Ok [lit "no"]
  | Ok i => do line <- py_nth lines (Z.of_nat i); Ok (slice_from 1 (string_clean_and_split line))
  end.

(** mcnp_output_reader.py:1215-1228 *)
Definition get_table_dict (lines : list str) : list (str * nat) :=
  fold_left (fun d il =>
    if contains (lit "print table") (snd il) then
      let key := last (split_on c_space (snd il)) [] in
      if str_eqb key (lit "160") || str_eqb key (lit "161") || (3 <? zlen key)%Z then d
      else dict_set str_eqb key (fst il) d
    else d) (enumerate lines) [].

(** mcnp_output_reader.py:1231-1236 *)
Definition check_fatal (data : list str) : bool :=
  existsb (fun line => contains (lit "fatal") (lower line)) data.

(** mcnp_output_reader.py:13-33, 1239-1270 *)
Record mcnp_output : Type := McnpOutput {
  o_file_name : path; o_version : option str; o_date : str; o_start_time : str;
  o_comments : list str; o_warnings : list str; o_num_rendevous : nat; o_fatal : bool;
  o_tables : list (str * nat);
  o_t60 : option (list str * list (list (option str)));
  o_t101 : option (list (list (option str)));
  o_tally_data : list tally; o_num_tallies : nat }.
(** [torder] and [sorder] are the iteration orders of the set of tally numbers and of the
    sets of surfaces. *)
Definition read_output_file (torder sorder : list str -> list str) (f : fs) (p : path) : res mcnp_output :=
  do data <- get_lines f p;
  do dt <- read_run_date data;
  let '(comments, warnings) := read_comments_warnings data in
  let tables := get_table_dict data in
  do t60 <- match dict_get str_eqb (lit "60") tables with
            | Some i => rmap Some (read_table60 data (Z.of_nat i))
            | None => Ok None
            end;
  do t101 <- match dict_get str_eqb (lit "101") tables with
             | Some i => rmap Some (read_table101 data (Z.of_nat i))
             | None => Ok None
             end;
  do tls <- get_tally_nums data;
  do tallies <- mapM (read_tally sorder data) (torder tls);
  Ok (McnpOutput p (read_version data) (fst dt) (snd dt) comments warnings (count_rendevous data)
        (check_fatal data) tables t60 t101 tallies (List.length tls)).
