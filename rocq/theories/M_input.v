(** Model of mcnp_input_reader.py.  Printing is not modelled; the __str__
    methods are in M_str.v and M_str2.v. *)
From Verif Require Import PyBase PyFloat PyFs M_util.

Definition c_dollar : ascii := chr 36.
Definition c_colon : ascii := chr 58.
Definition c_equal : ascii := chr 61.

(** [str.isdigit] of a whole string. *)
Definition is_digit_str (s : str) : bool :=
  match s with [] => false | _ :: _ => forallb is_digit s end.

(** mcnp_input_reader.py:44-52, class mcnp_surface; [comment] is never assigned. *)
Record surface : Type := Surface {
  s_number : Z; s_type : str; s_params : list str; s_has_transform : bool; s_transform : option str }.

(** mcnp_input_reader.py:67-78, class mcnp_cell; [param_list] is never assigned. *)
Record cell : Type := Cell {
  c_number : Z; c_mat : Z; c_density : option float; c_imp : list (ascii * float);
  c_geom : list str; c_surfaces : list float; c_comment : list str }.

(** mcnp_input_reader.py:94-103, class mcnp_material; [is_by_weight] is never assigned.
    A keyword value is a string, or a list of strings when the entry has several '='. *)
Inductive kwval : Type := KStr (s : str) | KList (l : list str).
Record material : Type := Material {
  m_number : Z; m_num_nuclides : nat; m_composition : list (str * float);
  m_keywords : list (str * kwval);   (* [] stands for None: both are falsy *)
  m_mt : list str; m_mx : list str }.

(** mcnp_input_reader.py:116-126, class mcnp_tally.  The attributes has_sd_card and
    has_fc_comment keep their initial False: read_tally_lines assigns has_sd and has_fc. *)
Record tally_in : Type := TallyIn {
  ti_number : Z; ti_type : str; ti_data : str;
  ti_has_ebins : bool; ti_has_tbins : bool; ti_has_fm : bool; ti_has_sd : bool; ti_has_fc : bool;
  ti_has_sd_card : bool; ti_has_fc_comment : bool }.

(** mcnp_input_reader.py:589-591. *)
Definition is_continue_line (line : str) : bool := starts_with (rep_chr c_space 5) line.

(** mcnp_input_reader.py:424-427. *)
Definition remove_inline_comment (line : str) : str := hd [] (split_on c_dollar line).
(** mcnp_input_reader.py:437-439. *)
Definition has_inline_comment (line : str) : bool := contains [c_dollar] line.
(** mcnp_input_reader.py:430-434. *)
Definition get_inline_comment (line : str) : res str :=
  if has_inline_comment line then py_nth (split_on c_dollar line) 1 else Ok line.

(** mcnp_input_reader.py:143-159. *)
Definition is_long_line (line : str) : bool :=
  if (79 <? zlen line)%Z then
    if starts_with (lit "c ") (lower line) then false
    else if contains (lit " $") line then false
    else true
  else false.
Definition long_line_index (lines : list str) : option (list nat) :=
  let long_lines := map fst (filter (fun il => is_long_line (snd il)) (enumerate lines)) in
  if (List.length long_lines =? 0)%nat then None else Some long_lines.

(** mcnp_input_reader.py:554-577: the loop, with [in_block] and the collected lines. *)
Fixpoint card_loop (card : str) (in_block : bool) (lines : list str) : list str :=
  match lines with
  | [] => []
  | line :: lines' =>
      let line := lower line in
      let start (in_block : bool) (line : str) (pre : list str) :=
        if starts_with (lower card) line
           && (let c := slice_btw (zlen card) (zlen card + 1) line in
               str_eqb c (lit " ") || str_eqb c (lit ":"))
        then pre ++ [remove_inline_comment line] ++ card_loop card true lines'
        else pre ++ card_loop card in_block lines' in
      if in_block then
        if is_continue_line line then
          let line := remove_inline_comment line in start true line [line]
        else if starts_with (lit "c ") line then card_loop card true lines'
        else match line with
             | [] => start true line []           (* falsy line: neither skipped nor the end *)
             | _ :: _ => []                       (* break *)
             end
      else start false line []
  end.
Definition get_card_lines (lines : list str) (card : str) : list str := card_loop card false lines.

(** mcnp_input_reader.py:580-586. *)
Definition get_prefixed_lines (lines : list str) (prefix : str) (mnum : Z) : list str :=
  get_card_lines lines (prefix ++ str_of_Z mnum).
(** mcnp_input_reader.py:535-542. *)
Definition get_mt_lines (lines : list str) (mnum : Z) := get_prefixed_lines lines (lit "mt") mnum.
Definition get_mx_lines (lines : list str) (mnum : Z) := get_prefixed_lines lines (lit "mx") mnum.

(** mcnp_input_reader.py:545-551. *)
Definition is_card_present (lines : list str) (card : str) : bool :=
  existsb (fun line => starts_with (lower card) (lower line)) lines.

(** mcnp_input_reader.py:162-171. *)
Definition read_mode_card (lines : list str) : option (list str) :=
  let line := get_card_lines lines (lit "mode") in
  if (List.length line =? 0)%nat then None
  else
    let line := join (lit " ") line in
    let line := string_cleaner line in
    Some (slice_from 1 (split_on c_space line)).

(** mcnp_input_reader.py:174-182. *)
Definition particle_list : list str := map lit ["n"; "p"; "h"; "e"; "|"; "q"; "u"; "v"; "!"]%string.
Definition is_mode_valid (mode : list str) : bool :=
  forallb (fun particle => existsb (str_eqb (lower particle)) particle_list) mode.

(** mcnp_input_reader.py:185-191. *)
Definition get_full_line_comments (lines : list str) : list (nat * str) :=
  filter (fun il => starts_with (lit "c ") (lower (snd il))) (enumerate lines).

(** [len(line) > 1 and line[0].lower() == letter and line[1].isdigit()]. *)
Definition is_numbered_card (letter : ascii) (line : str) : bool :=
  match line with
  | a :: b :: _ => Ascii.eqb (lower_c a) letter && is_digit b
  | _ => false
  end.

(** mcnp_input_reader.py:194-203. *)
Definition get_material_numbers (lines : list str) : res (list Z) :=
  mapM (fun line => py_int (slice_from 1 (hd [] (split_on c_space (string_cleaner line)))))
       (filter (is_numbered_card (chr 109)) lines).
(** mcnp_input_reader.py:206-216. *)
Definition get_tally_numbers (lines : list str) : res (list Z) :=
  mapM (fun line =>
          py_int (slice_from 1 (hd [] (split_on c_colon (hd [] (split_on c_space (string_cleaner line)))))))
       (filter (is_numbered_card (chr 102)) lines).

(** mcnp_input_reader.py:219-232. *)
Definition surface_types : list str := map lit
  ["p"; "px"; "py"; "pz"; "cx"; "cy"; "cz"; "s"; "so"; "c/x"; "c/y"; "c/z"; "gq"; "sq";
   "sx"; "sy"; "sz"; "kx"; "ky"; "kz"; "k/x"; "k/y"; "k/z"; "tx"; "ty"; "tz"]%string.
Definition macro_types : list str := map lit
  ["rpp"; "rcc"; "box"; "sph"; "wed"; "rec"; "ell"; "hex"; "arb"; "trc"; "rhp"]%string.
Definition is_surface_type_valid (surface : str) : bool :=
  existsb (str_eqb surface) surface_types || existsb (str_eqb surface) macro_types.

(** mcnp_input_reader.py:260-270.  The keys of the dict are 1, 2, ... in order, so it is
    the list of positions. *)
Definition find_blank_lines (lines : list str) : list nat :=
  map fst (filter (fun il => str_eqb (strip (snd il)) []) (enumerate lines)).

(** mcnp_input_reader.py:273-281.  [blank_loc[k]] raises KeyError when there are fewer
    than k blank lines. *)
Definition split_blocs (lines : list str) : res (list str * list str * list str) :=
  let blank_loc := find_blank_lines lines in
  match nth_error blank_loc 0, nth_error blank_loc 1 with
  | Some b1, Some b2 =>
      Ok (slice_to (Z.of_nat b1) lines,
          slice_btw (Z.of_nat b1) (Z.of_nat b2) lines,
          slice_from (Z.of_nat b2) lines)
  | _, _ => Err KeyError
  end.

(** mcnp_input_reader.py:284-291. *)
Definition process_imp (part : str) (imp : list (ascii * float)) : res (list (ascii * float)) :=
  do imp_val <- py_nth (split_on c_equal part) (-1);
  do after <- py_nth (split_on c_colon part) 1;
  do imp_particle <- py_nth after 0;
  do v <- py_float imp_val;
  Ok (dict_set Ascii.eqb imp_particle v imp).

(** Characters stripped by [part.strip("()-")]. *)
Definition is_bracket (c : ascii) : bool :=
  Ascii.eqb c (chr 40) || Ascii.eqb c (chr 41) || Ascii.eqb c (chr 45).
Definition strip_brackets (s : str) : str := rstrip_by is_bracket (lstrip_by is_bracket s).

(** mcnp_input_reader.py:299-312, the body of the loop over the geometry entries; the
    state is (comments, importances, surfaces). *)
Definition geom_state : Type := (list str * list (ascii * float) * list float)%type.
Definition geom_step (st : geom_state) (part : str) : res geom_state :=
  let '(com, imp, surfs) := st in
  do cp <- (if contains [c_dollar] part then
              do last <- py_nth (split_on c_dollar part) (-1);
              do first <- py_nth (split_on c_dollar part) 0;
              Ok (com ++ [last], first)
            else Ok (com, part));
  let '(com, part) := cp in
  match part with
  | [] => Ok (com, imp, surfs)
  | _ :: _ =>
      let part := strip_brackets part in
      if contains (lit "imp") (lower part) then
        do imp <- process_imp part imp; Ok (com, imp, surfs)
      else
        do c0 <- py_nth part 0;
        if is_digit c0 then
          do vals <- mapM py_float (split_on c_colon part);
          Ok (com, imp, surfs ++ vals)
        else Ok (com, imp, surfs)
  end.

(** mcnp_input_reader.py:294-318. *)
Definition process_geom (geom : list str) (c : cell) : res cell :=
  do st <- foldM geom_step geom (c_comment c, c_imp c, []);
  let '(com, imp, surfs) := st in
  Ok (Cell (c_number c) (c_mat c) (c_density c) imp geom surfs com).

(** mcnp_input_reader.py:332-343, a line starting a new cell: the cell and its geometry
    entries. *)
Definition start_cell (line : str) : res (cell * list str) :=
  let line := split_on c_space (string_cleaner line) in
  do n0 <- py_nth line 0;
  do number <- py_int n0;
  do m0 <- py_nth line 1;
  do mat <- py_int m0;
  if (mat =? 0)%Z then
    Ok (Cell number mat None [] [] [] [], slice_from 2 line)
  else
    do d0 <- py_nth line 2;
    do density <- py_float d0;
    Ok (Cell number mat (Some density) [] [] [] [], slice_from 3 line).

Definition cell_state : Type := (option cell * list str * list (Z * cell))%type.
(** mcnp_input_reader.py:346-350 and 326-328: finish the current cell. *)
Definition finish_cell (st : cell_state) : res (list (Z * cell)) :=
  let '(c, geom, cell_dict) := st in
  match c with
  | None => Err AttributeError        (* None has no attributes *)
  | Some c => do c' <- process_geom geom c; Ok (dict_set Z.eqb (c_number c') c' cell_dict)
  end.
(** mcnp_input_reader.py:326-345. *)
Definition cell_step (st : cell_state) (line : str) : res cell_state :=
  let '(c, geom, cell_dict) := st in
  do c0 <- py_nth line 0;
  if is_digit c0 then
    do cell_dict <- (match c with None => Ok cell_dict | Some _ => finish_cell st end);
    do cg <- start_cell line;
    Ok (Some (fst cg), snd cg, cell_dict)
  else if is_continue_line line then Ok (c, geom ++ [line], cell_dict)
  else Ok (c, geom, cell_dict).
(** mcnp_input_reader.py:321-350. *)
Definition process_cell_block (bloc : list str) : res (list (Z * cell)) :=
  do st <- foldM cell_step bloc (None, [], []);
  finish_cell st.

(** mcnp_input_reader.py:353-370. *)
Definition get_cell (cell_num : Z) (cells : list (Z * cell)) : option cell := dict_get Z.eqb cell_num cells.
Definition cells_with_mat (mat_num : Z) (cells : list (Z * cell)) : list cell :=
  filter (fun c => (c_mat c =? mat_num)%Z) (map snd cells).
(** [surf_num in cell.surfaces] compares an int with floats; the int is converted, which is
    exact below 2^53. *)
Definition cells_with_surface (surf_num : Z) (cells : list (Z * cell)) : list cell :=
  filter (fun c => existsb (fun s => feq s (f_of_Z surf_num)) (c_surfaces c)) (map snd cells).
Definition get_mat (mat_num : Z) (mats : list (Z * material)) : option material := dict_get Z.eqb mat_num mats.

(** mcnp_input_reader.py:373-405. *)
Definition is_valid_number (num max_num : Z) : bool := (num <=? max_num)%Z.
Definition default_max : Z := 99999999.
Definition is_valid_mat_num (n : Z) := is_valid_number n default_max.
Definition is_valid_surf_num (n : Z) := is_valid_number n default_max.
Definition is_valid_cell_num (n : Z) := is_valid_number n default_max.
Definition is_valid_tally_num (n : Z) := is_valid_number n default_max.
Definition is_valid_universe_num (n : Z) := is_valid_number n default_max.
Definition is_number_of_tallies_valid (n : Z) := is_valid_number n 9999.

(** mcnp_input_reader.py:408-421. *)
Definition check_cell_mat_exists (c : cell) (mats : list (Z * material)) : bool :=
  match get_mat (c_mat c) mats with None => false | Some _ => true end.
Definition check_cell_exists (cell_num : Z) (cells : list (Z * cell)) : bool :=
  match get_cell cell_num cells with None => false | Some _ => true end.

(** mcnp_input_reader.py:481-497. *)
Definition process_material_keyword (entry : str) (kw : list (str * kwval)) : res (list (str * kwval)) :=
  let entry := split_on c_equal entry in
  do key <- py_nth entry 0;
  do value <- (if (List.length entry =? 2)%nat
               then do v <- py_nth entry (-1); Ok (KStr v)
               else Ok (KList (slice_from 1 entry)));
  match kw with
  | _ :: _ => Ok (dict_set str_eqb key value kw)
  | [] => Ok [(key, value)]
  end.

(** mcnp_input_reader.py:525-532. *)
Definition valid_keywords : list str := map lit
  ["plib"; "hlib"; "gas"; "estep"; "hstep"; "nlib"; "pnlib"; "elib"; "alib"; "slib";
   "tlib"; "dlib"; "cond"; "refi"; "refc"; "refs"]%string.
Definition check_valid_mat_keyword (kw : list (str * kwval)) : res unit :=
  if forallb (fun k => existsb (str_eqb k) valid_keywords) (map fst kw) then Ok tt else Err ValueError.

(** mcnp_input_reader.py:519: the dict comprehension over pairs of entries. *)
Fixpoint composition_of (l : list str) (acc : list (str * float)) : res (list (str * float)) :=
  match l with
  | [] => Ok acc
  | [_] => Err IndexError
  | zaid :: frac :: l' => do x <- py_float frac; composition_of l' (dict_set str_eqb zaid x acc)
  end.

(** mcnp_input_reader.py:500-522. *)
Definition process_material_line (mat_line : str) (mat_num : Z) : res material :=
  let mat_line := slice_from 1 (split_on c_space mat_line) in
  let keyword_entries := filter (contains [c_equal]) mat_line in
  do kw <- foldM (fun kw e => process_material_keyword e kw) keyword_entries [];
  do _ <- (match keyword_entries with [] => Ok tt | _ :: _ => check_valid_mat_keyword kw end);
  let filtered_data := filter (fun e => negb (contains [c_equal] e)) mat_line in
  do composition <- composition_of filtered_data [];
  Ok (Material mat_num (List.length composition) composition kw [] []).

(** mcnp_input_reader.py:447-468 and 613-635: the two loops differ in the test for the
    starting line. *)
Fixpoint block_loop (is_start : str -> bool) (in_block : bool) (lines : list str) : list str :=
  match lines with
  | [] => []
  | line :: lines' =>
      let line := lower line in
      let start (in_block : bool) (line : str) (pre : list str) :=
        if is_start line
        then pre ++ [remove_inline_comment line] ++ block_loop is_start true lines'
        else pre ++ block_loop is_start in_block lines' in
      if in_block then
        if is_continue_line line then
          let line := remove_inline_comment line in start true line [line]
        else if starts_with (lit "c ") line then block_loop is_start true lines'
        else match line with
             | [] => start true line []
             | _ :: _ => []
             end
      else start false line []
  end.

(** mcnp_input_reader.py:463-465. *)
Definition is_mat_start (mat_num : Z) (line : str) : bool :=
  match line with
  | a :: b :: _ =>
      Ascii.eqb a (chr 109) && is_digit b
      && str_eqb (slice_from 1 (hd [] (split_on c_space line))) (str_of_Z mat_num)
  | _ => false
  end.
(** mcnp_input_reader.py:442-478. *)
Definition material_text (mat_num : Z) (lines : list str) : str :=
  string_cleaner (join (lit " ") (block_loop (is_mat_start mat_num) false lines)).
Definition read_material_lines (mat_num : Z) (lines : list str) : res material :=
  do m <- process_material_line (material_text mat_num lines) mat_num;
  Ok (Material (m_number m) (m_num_nuclides m) (m_composition m) (m_keywords m)
        (get_mt_lines lines mat_num) (get_mx_lines lines mat_num)).

(** mcnp_input_reader.py:594-605. *)
Definition tally_type_of (tal_line : str) : str :=
  slice_from 1 (hd [] (split_on c_colon (hd [] (split_on c_space tal_line)))).

(** mcnp_input_reader.py:629-632. *)
Definition is_tally_start (tal_num : Z) (line : str) : bool :=
  match line with
  | a :: b :: _ =>
      Ascii.eqb a (chr 102) && is_digit b
      && str_eqb (hd [] (split_on c_colon (slice_from 1 (hd [] (split_on c_space line))))) (str_of_Z tal_num)
  | _ => false
  end.
(** mcnp_input_reader.py:608-648. *)
Definition tally_text (tal_num : Z) (lines : list str) : str :=
  string_cleaner (join (lit " ") (block_loop (is_tally_start tal_num) false lines)).
Definition tally_card (letters : string) (tal_num : Z) : str := lit letters ++ str_of_Z tal_num ++ lit " ".
Definition read_tally_lines (tal_num : Z) (lines : list str) : tally_in :=
  let tally := tally_text tal_num lines in
  TallyIn tal_num (tally_type_of tally) tally
    (is_card_present lines (tally_card "e" tal_num))
    (is_card_present lines (tally_card "t" tal_num))
    (is_card_present lines (tally_card "fm" tal_num))
    (is_card_present lines (tally_card "sd" tal_num))
    (is_card_present lines (tally_card "fc" tal_num))
    false false.

(** mcnp_input_reader.py:8-27, the fields of mcnp_input set by process_data_block. *)
Record data_in : Type := DataIn {
  d_mode : option (list str); d_tal_nums : list Z; d_mat_nums : list Z;
  d_materials : list (Z * material); d_tallies : list (Z * tally_in); (* [] for None *)
  d_is_void : bool; d_is_kcode : bool; d_is_sdef : bool; d_is_ptrac : bool }.

(** mcnp_input_reader.py:651-674. *)
Definition process_data_block (data_block : list str) : res data_in :=
  let mode := read_mode_card data_block in
  do tal_num_list <- get_tally_numbers data_block;
  do mat_num_list <- get_material_numbers data_block;
  do materials <- foldM (fun d mat_num =>
                           do mat <- read_material_lines mat_num data_block;
                           Ok (dict_set Z.eqb (m_number mat) mat d)) mat_num_list [];
  let tallies := fold_left (fun d tal_num =>
                              let t := read_tally_lines tal_num data_block in
                              dict_set Z.eqb (ti_number t) t d) tal_num_list [] in
  Ok (DataIn mode tal_num_list mat_num_list materials tallies
        (is_card_present data_block (lit "void")) (is_card_present data_block (lit "kcode"))
        (is_card_present data_block (lit "sdef")) (is_card_present data_block (lit "ptrac"))).

(** mcnp_input_reader.py:725-730. *)
Definition check_surf_transform (surf_line : list str) : res bool :=
  do t <- py_nth surf_line 1; Ok (is_digit_str t).
(** mcnp_input_reader.py:703-722. *)
Definition process_surface_line (surf_line : str) : res surface :=
  let surf_line := split_on c_space (lower surf_line) in
  do n0 <- py_nth surf_line 0;
  do number <- py_int n0;
  do has_transform <- check_surf_transform surf_line;
  do s <- (if has_transform : bool then
             do ty <- py_nth surf_line 2;
             do tr <- py_nth surf_line 1;
             Ok (Surface number ty (slice_from 3 surf_line) true (Some tr))
           else
             do ty <- py_nth surf_line 1;
             Ok (Surface number ty (slice_from 2 surf_line) false None));
  if is_surface_type_valid (s_type s) then Ok s else Err ValueError.

(** mcnp_input_reader.py:681-698: state is (pending line, dict). *)
Definition surf_state : Type := (str * list (Z * surface))%type.
Definition flush_surface (surf_line : str) (d : list (Z * surface)) : res (list (Z * surface)) :=
  do surf <- process_surface_line surf_line; Ok (dict_set Z.eqb (s_number surf) surf d).
Definition surface_step (st : surf_state) (line : str) : res surf_state :=
  let '(surf_line, d) := st in
  if is_continue_line line then Ok (surf_line ++ lit " " ++ string_cleaner line, d)
  else if str_eqb (strip line) [] then Ok (surf_line, d)
  else if starts_with (lit "c") (lower line) then Ok (surf_line, d)
  else match surf_line with
       | _ :: _ => do d <- flush_surface surf_line d; Ok (string_cleaner line, d)
       | [] => Ok (string_cleaner line, d)
       end.
(** mcnp_input_reader.py:677-700. *)
Definition process_surface_block (surf_bloc : list str) : res (list (Z * surface)) :=
  do st <- foldM surface_step surf_bloc ([], []);
  let '(surf_line, d) := st in
  match surf_line with
  | _ :: _ => flush_surface surf_line d
  | [] => Ok d
  end.

(** mcnp_input_reader.py:733-749. *)
Record mcnp_input : Type := McnpInput {
  i_cell_block : list str; i_surface_block : list str; i_data_block : list str;
  i_cells : list (Z * cell); i_surfaces : list (Z * surface); i_comments : list (nat * str);
  i_data : data_in }.
Definition read_mcnp_input (f : fs) (fpath : path) : res mcnp_input :=
  do ifile <- get_lines f fpath;
  do blocks <- split_blocs ifile;
  let '(cell_block, surface_block, data_block) := blocks in
  do cells <- process_cell_block cell_block;
  do surfaces <- process_surface_block surface_block;
  let comments := get_full_line_comments ifile in
  do data <- process_data_block data_block;
  Ok (McnpInput cell_block surface_block data_block cells surfaces comments data).

(** mcnp_input_reader.py:752-754. *)
Definition vised_compatible (f : fs) (fname : path) : res fs :=
  text_replace f fname (lit "mphys") (lit "c mphys").
