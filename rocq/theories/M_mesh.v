(** Model of meshtal_analysis.py.  The plots are in M_meshplot.v and M_hist.v.  Not
    modelled: the stub output_as_vtk, the command line and logging. *)
From Coq Require Import Floats.SpecFloat.
From Verif Require Import PyBase PyFloat PyFs PyFrame.

(** meshtal_analysis.py:16-30.  The data are the words of the table's lines until
    convert_to_df replaces them by a data frame. *)
Inductive mesh_data : Type :=
| Raw (rows : list (list str))
| Df (d : frame).
Record mesh : Type := Mesh {
  idnum : option Z;
  ptype : option str;
  x_bounds : list str;
  y_bounds : list str;
  z_bounds : list str;
  e_bounds : list str;
  t_bounds : list str;
  data : mesh_data;
  x_mids : list float;
  y_mids : list float;
  z_mids : list float;
  ctype : option str
}.
Definition new_mesh : mesh := Mesh None None [] [] [] [] [] (Raw []) [] [] [] None.
Definition set_idnum m v := Mesh (Some v) (ptype m) (x_bounds m) (y_bounds m) (z_bounds m) (e_bounds m) (t_bounds m) (data m) (x_mids m) (y_mids m) (z_mids m) (ctype m).
Definition set_ptype m v := Mesh (idnum m) (Some v) (x_bounds m) (y_bounds m) (z_bounds m) (e_bounds m) (t_bounds m) (data m) (x_mids m) (y_mids m) (z_mids m) (ctype m).
Definition set_x m b v := Mesh (idnum m) (ptype m) b (y_bounds m) (z_bounds m) (e_bounds m) (t_bounds m) (data m) v (y_mids m) (z_mids m) (ctype m).
Definition set_y m b v := Mesh (idnum m) (ptype m) (x_bounds m) b (z_bounds m) (e_bounds m) (t_bounds m) (data m) (x_mids m) v (z_mids m) (ctype m).
Definition set_z m b v := Mesh (idnum m) (ptype m) (x_bounds m) (y_bounds m) b (e_bounds m) (t_bounds m) (data m) (x_mids m) (y_mids m) v (ctype m).
Definition set_e m v := Mesh (idnum m) (ptype m) (x_bounds m) (y_bounds m) (z_bounds m) v (t_bounds m) (data m) (x_mids m) (y_mids m) (z_mids m) (ctype m).
Definition set_t m v := Mesh (idnum m) (ptype m) (x_bounds m) (y_bounds m) (z_bounds m) (e_bounds m) v (data m) (x_mids m) (y_mids m) (z_mids m) (ctype m).
Definition set_data m v := Mesh (idnum m) (ptype m) (x_bounds m) (y_bounds m) (z_bounds m) (e_bounds m) (t_bounds m) v (x_mids m) (y_mids m) (z_mids m) (ctype m).
Definition set_ctype m v := Mesh (idnum m) (ptype m) (x_bounds m) (y_bounds m) (z_bounds m) (e_bounds m) (t_bounds m) (data m) (x_mids m) (y_mids m) (z_mids m) (Some v).

(** Indexing a raw list with a column name raises TypeError. *)
Definition as_frame (d : mesh_data) : res frame :=
  match d with Df d => Ok d | Raw _ => Err TypeError end.
Definition data_frame (m : mesh) : res frame := as_frame (data m).

(** meshtal_analysis.py:99-113 *)
Definition check_uniform (bounds : list str) : res bool :=
  match bounds with
  | [] => Ok false
  | _ => do bs <- mapM py_float bounds;
         match diff bs with
         | [] => Err IndexError
         | d0 :: _ => Ok (forallb (fun d => isclose d d0) (diff bs))
         end
  end.

(** meshtal_analysis.py:42-51 *)
Definition number_voxels (m : mesh) : nat :=
  (List.length (x_mids m) * List.length (y_mids m) * List.length (z_mids m))%nat.
(** meshtal_analysis.py:72-83: numpy.max of a list of strings raises (the bounds are
    strings); ValueError for an empty list. *)
Definition voxel_average_volume (m : mesh) : res float :=
  match x_bounds m with [] => Err ValueError | _ => Err TypeError end.
(** meshtal_analysis.py:53-70 *)
Definition first_width (bounds : list str) : res float :=
  do b1 <- py_nth bounds 1; do u <- py_float b1; do b0 <- py_nth bounds 0; do v <- py_float b0; Ok (fabs (fsub u v)).
Definition voxel_uniform_volume (m : mesh) : res float :=
  do ux <- check_uniform (x_bounds m);
  do u <- (if ux then do uy <- check_uniform (y_bounds m);
                      if uy then check_uniform (z_bounds m) else Ok false
           else Ok false);
  if u then
    do x <- first_width (x_bounds m); do y <- first_width (y_bounds m); do z <- first_width (z_bounds m);
    Ok (fmul (fmul x y) z)
  else voxel_average_volume m.

(** meshtal_analysis.py:131-137: a value of None or 0 is not used to filter. *)
Definition truthy (x : option float) : option float :=
  match x with Some v => if is_zero_f v then None else Some v | None => None end.
Definition filter_energy_time (d : frame) (erg time : option float) : res frame :=
  do d <- match truthy erg with
          | Some e => do c <- frame_col d (lit "Energy"); Ok (frame_filter (col_close c e) d)
          | None => Ok d
          end;
  match truthy time with
  | Some t => do c <- frame_col d (lit "Time"); Ok (frame_filter (col_close c t) d)
  | None => Ok d
  end.

(** meshtal_analysis.py:239-241: the first index of least distance.  Distances that are
    NaN compare as not less. *)
Fixpoint nearest_from (value : float) (best : float) (mids : list float) : float :=
  match mids with
  | [] => best
  | m :: mids' =>
      if flt (fabs (fsub m value)) (fabs (fsub best value)) then nearest_from value m mids'
      else nearest_from value best mids'
  end.
Definition find_nearest_mid (value : float) (mids : list float) : res float :=
  match mids with [] => Err ValueError | m :: mids' => Ok (nearest_from value m mids') end.

(** [frame[frame[name] == x]] *)
Definition where_eq (d : frame) (name : str) (x : float) : res frame :=
  do c <- frame_col d name; Ok (frame_filter (col_eq c x) d).

(** numpy.array of a list of sequences: they must have equal lengths. *)
Definition same_lengths {A} (l : list (list A)) : bool :=
  match l with [] => true | a :: l' => forallb (fun b => Nat.eqb (List.length b) (List.length a)) l' end.
Definition np_array {A} (l : list (list A)) : res (list (list A)) :=
  if same_lengths l then Ok l else Err ValueError.

(** meshtal_analysis.py:86-96.  The two arrays are given by their columns (column [i]
    belongs to entry [i] of slice_i); the axis labels are left out. *)
Record slice_object : Type := Slice {
  sl_values : list (list float);
  sl_errors : list (list float);
  sl_axis_mids : list float;
  sl_i : list float;
  sl_j : list float;
  sl_value : float
}.
(** meshtal_analysis.py:149-177: i axis, j axis, normal axis. *)
Definition plane_axes (m : mesh) (plane : str) : res ((list float * str) * (list float * str) * (list float * str)) :=
  let x := (x_mids m, lit "x") in let y := (y_mids m, lit "y") in let z := (z_mids m, lit "z") in
  if str_eqb plane (lit "XZ") then Ok (x, z, y)
  else if str_eqb plane (lit "XY") then Ok (x, y, z)
  else if str_eqb plane (lit "YZ") then Ok (y, z, x)
  else Err ValueError.
Definition col_where (d : frame) (key : str) (x : float) (name : str) : res (list float) :=
  do d' <- where_eq d key x; do c <- frame_col d' name; Ok (c_vals c).
(** meshtal_analysis.py:142-193 *)
Definition extract_slice (m : mesh) (value : float) (plane : str) (erg time : option float) : res slice_object :=
  do d <- match truthy erg, truthy time with
          | None, None => Ok None
          | _, _ => do d <- data_frame m; do d' <- filter_energy_time d erg time; Ok (Some d')
          end;
  do '((mi, i_ind), (mj, j_ind), (mv, v_ind)) <- plane_axes m plane;
  do v <- find_nearest_mid value mv;
  do d <- match d with Some d => Ok d | None => data_frame m end;
  do d <- where_eq d v_ind v;
  do cols <- mapM (fun i => do a <- col_where d i_ind i (lit "value");
                            do b <- col_where d j_ind i (lit "rel_err"); Ok (a, b)) mi;
  do values <- np_array (map fst cols);
  do errors <- np_array (map snd cols);
  Ok (Slice values errors mv mi mj v).

(** meshtal_analysis.py:246-251 *)
Definition columns_of (c : option str) : option (list str) :=
  match c with
  | None => None
  | Some c => if str_eqb c (lit "6col_e") then Some (map lit ["Energy"; "x"; "y"; "z"; "value"; "rel_err"]%string)
              else if str_eqb c (lit "6col_t") then Some (map lit ["Time"; "x"; "y"; "z"; "value"; "rel_err"]%string)
              else if str_eqb c (lit "5col") then Some (map lit ["x"; "y"; "z"; "value"; "rel_err"]%string)
              else None
  end.
Definition has_ctype (m : mesh) (c : string) : bool :=
  match ctype m with Some k => str_eqb k (lit c) | None => false end.

Section Parse.
(** The number pandas.to_numeric reads in a text (or the exception). *)
Variable to_num : str -> res float.

Definition cell_num (c : option str) : res float := match c with Some w => to_num w | None => Ok S754_nan end.
(** Column [i] of a table of words; short rows are filled with None. *)
Definition text_col (i : nat) (rows : list (list str)) : list (option str) := map (fun r => nth_error r i) rows.
Definition num_col (i : nat) (rows : list (list str)) : res col :=
  do vs <- mapM cell_num (text_col i rows); Ok (downcast vs).
Definition width (rows : list (list str)) : nat := fold_right Nat.max 0 (map (@List.length str) rows).
(** The labels of the rows kept for a time mesh: not the totals and not time zero. *)
Definition dropped (c : option str) : bool :=
  match c with Some w => str_eqb w (lit "Total") || str_eqb w (lit "0.000E+00") | None => false end.

(** meshtal_analysis.py:244-275.  A mesh that already has a data frame is not converted
    again (it does not happen). *)
Definition convert_to_df (m : mesh) : res frame :=
  match columns_of (ctype m) with
  | None => Err ValueError
  | Some names =>
      match data m with
      | Df _ => Err TypeError
      | Raw rows =>
          match rows with
          | [] => Ok (Frame [] (map (fun n => (n, Col true [])) names))
          | _ =>
              if negb (Nat.eqb (width rows) (List.length names)) then Err ValueError
              else
                let k := if has_ctype m "5col" then 0 else 1 in
                do x <- num_col k rows;
                do y <- num_col (k + 1) rows;
                do z <- num_col (k + 2) rows;
                do v <- num_col (k + 3) rows;
                do r <- num_col (k + 4) rows;
                let spatial := [(lit "x", x); (lit "y", y); (lit "z", z); (lit "value", v); (lit "rel_err", r)] in
                let index := seq 0 (List.length rows) in
                if has_ctype m "6col_e" then
                  do e <- num_col 0 rows; Ok (Frame index ((lit "Energy", e) :: spatial))
                else if has_ctype m "6col_t" then
                  let keep := map (fun c => negb (dropped c)) (text_col 0 rows) in
                  let d := frame_filter keep (Frame index spatial) in
                  do ts <- mapM cell_num (compress keep (text_col 0 rows));
                  Ok (Frame (f_index d) ((lit "Time", downcast ts) :: f_cols d))
                else Ok (Frame index spatial)
          end
      end
  end.

(** meshtal_analysis.py:278-304 *)
Definition point := (float * float * float)%type.
Definition line_step (same : bool) (p : float) (mids : list float) (name : str) (d : mesh_data) : res mesh_data :=
  if same then do x <- find_nearest_mid p mids; do d <- as_frame d; do d <- where_eq d name x; Ok (Df d) else Ok d.
Definition extract_line (m : mesh) (p1 p2 : point) (erg time : option float) : res series :=
  let '(a1, b1, c1) := p1 in
  let '(a2, b2, c2) := p2 in
  do d <- line_step (feq a1 a2) a1 (x_mids m) (lit "x") (data m);
  do d <- line_step (feq b1 b2) b1 (y_mids m) (lit "y") d;
  do d <- line_step (feq c1 c2) c1 (z_mids m) (lit "z") d;
  do d <- as_frame d;
  do d <- filter_energy_time d erg time;
  frame_get d (lit "value").

(** meshtal_analysis.py:307-323 *)
Definition pick_point (x y z : float) (m : mesh) (erg time : option float) : res series :=
  do x <- find_nearest_mid x (x_mids m);
  do y <- find_nearest_mid y (y_mids m);
  do z <- find_nearest_mid z (z_mids m);
  do d <- data_frame m;
  do d <- where_eq d (lit "x") x;
  do d <- where_eq d (lit "y") y;
  do d <- where_eq d (lit "z") z;
  do d <- filter_energy_time d erg time;
  frame_get d (lit "value").

(** meshtal_analysis.py:326-341 *)
Definition error_vals (op : col -> col -> col) (name : str) (m : mesh) : res mesh :=
  do d <- data_frame m;
  do v <- frame_get d (lit "value");
  do r <- frame_get d (lit "rel_err");
  Ok (set_data m (Df (frame_set d name (series_op op v (series_op col_mul v r))))).
Definition calculate_upper_mesh_vals := error_vals col_add (lit "max_vals").
Definition calculate_lower_mesh_vals := error_vals col_sub (lit "min_vals").

(** meshtal_analysis.py:423-428 *)
Fixpoint mid_points (bs : list float) : list float :=
  match bs with
  | a :: ((b :: _) as bs') => np_round 5 (fmul (fadd b a) (fdec 5 (-1))) :: mid_points bs'
  | _ => []
  end.
Definition calc_mid_points (bounds : list str) : res (list float) :=
  do bs <- mapM py_float bounds; Ok (mid_points bs).

Definition strs_eqb (a b : list str) : bool := if list_eq_dec (list_eq_dec ascii_dec) a b then true else false.
Definition ctype_eqb (a b : option str) : bool :=
  match a, b with None, None => true | Some x, Some y => str_eqb x y | _, _ => false end.
(** meshtal_analysis.py:344-394.  Squaring is [x * x]. *)
Definition square (a : series) : series := Series (s_index a) (col_mul (s_col a) (s_col a)).
Definition add_mesh (m1 m2 : mesh) : res mesh :=
  if negb (strs_eqb (x_bounds m1) (x_bounds m2) && strs_eqb (y_bounds m1) (y_bounds m2)
           && strs_eqb (z_bounds m1) (z_bounds m2)) then Err ValueError
  else if has_ctype m1 "6col_e" && negb (strs_eqb (e_bounds m1) (e_bounds m2)) then Err ValueError
  else if has_ctype m1 "6col_t" && negb (strs_eqb (t_bounds m1) (t_bounds m2)) then Err ValueError
  else if negb (ctype_eqb (ctype m1) (ctype m2)) then Err ValueError
  else
    do d1 <- data_frame m1;
    do v1 <- frame_get d1 (lit "value");
    do d2 <- data_frame m2;
    do v2 <- frame_get d2 (lit "value");
    let new_val := series_op col_add v1 v2 in
    do r1 <- frame_get d1 (lit "rel_err");
    do r2 <- frame_get d2 (lit "rel_err");
    let sq := series_op col_add (square r1) (square r2) in
    let new_err := Series (s_index sq) (col_sqrt (s_col sq)) in
    if negb (has_ctype m1 "6col_e" || has_ctype m1 "6col_t") then Err UnboundLocalError
    else
      let name := if has_ctype m1 "6col_e" then lit "Energy" else lit "Time" in
      do xm <- calc_mid_points (x_bounds m1);
      do ym <- calc_mid_points (y_bounds m1);
      do zm <- calc_mid_points (z_bounds m1);
      do g <- frame_get d1 name;
      do x <- frame_get d1 (lit "x");
      do y <- frame_get d1 (lit "y");
      do z <- frame_get d1 (lit "z");
      let ix := s_index new_val in
      let d := Frame ix [(name, aligned ix g); (lit "x", aligned ix x); (lit "y", aligned ix y);
                         (lit "z", aligned ix z); (lit "value", s_col new_val);
                         (lit "rel_err", aligned ix new_err)] in
      Ok (Mesh None None (x_bounds m1) (y_bounds m1) (z_bounds m1)
            (if has_ctype m1 "6col_e" then e_bounds m1 else [])
            (if has_ctype m1 "6col_e" then [] else t_bounds m1)
            (Df d) xm ym zm (ctype m1)).

(** meshtal_analysis.py:398-420.  The arrays are functions of the three indices (below
    the numbers of mid points). *)
Definition grid : Type := nat -> nat -> nat -> float.
Definition grid_set (g : grid) (p : nat * nat * nat) (v : float) : grid :=
  fun i j k => let '(a, b, c) := p in
    if Nat.eqb i a && Nat.eqb j b && Nat.eqb k c then v else g i j k.
(** [numpy.where(mids == x)] *)
Definition where_mid (mids : list float) (x : float) : list nat :=
  map fst (filter (fun im => feq (snd im) x) (enumerate mids)).
(** Index arrays are broadcast: those of length one are repeated. *)
Definition broadcast1 (n : nat) (l : list nat) : list nat := match l with [i] => repeat i n | _ => l end.
Definition broadcast (a b c : list nat) : res (list (nat * nat * nat)) :=
  let n := match filter (fun l => negb (Nat.eqb (List.length l) 1)) [a; b; c] with
           | [] => 1 | l :: _ => List.length l end in
  if forallb (fun l => Nat.eqb (List.length l) 1 || Nat.eqb (List.length l) n) [a; b; c]
  then Ok (combine (combine (broadcast1 n a) (broadcast1 n b)) (broadcast1 n c))
  else Err IndexError.
(** [numpy.array(data).astype(float)] *)
Definition frame_rows (d : frame) : list (list float) :=
  map (fun i => map (fun nc => nth i (c_vals (snd nc)) S754_nan) (f_cols d)) (seq 0 (List.length (f_index d))).
Definition data_rows (m : mesh) : res (list (list float)) :=
  match data m with
  | Df d => Ok (frame_rows d)
  | Raw rows => do rows <- np_array rows; mapM (mapM py_float) rows
  end.
Definition place_row (m : mesh) (g : grid * grid) (r : list float) : res (grid * grid) :=
  do r1 <- py_nth r 1; do r2 <- py_nth r 2; do r3 <- py_nth r 3;
  do r4 <- py_nth r 4;
  do ps <- broadcast (where_mid (x_mids m) r1) (where_mid (y_mids m) r2) (where_mid (z_mids m) r3);
  let vals := fold_left (fun a p => grid_set a p r4) ps (fst g) in
  do r5 <- py_nth r 5;
  Ok (vals, fold_left (fun a p => grid_set a p r5) ps (snd g)).
Definition zeros : grid := fun _ _ _ => fzero.
Definition convert_to_3d_array (m : mesh) : res (grid * grid) :=
  do rows <- data_rows m; foldM (place_row m) rows (zeros, zeros).

(** meshtal_analysis.py:431-434: the count of the value 0.0, absent if there is none. *)
Definition count_zeros (m : mesh) : res nat :=
  do d <- data_frame m;
  do c <- frame_col d (lit "value");
  match List.length (filter is_zero_f (c_vals c)) with O => Err KeyError | n => Ok n end.

(** meshtal_analysis.py:437-445 *)
Definition tally_number (line : str) : res Z := do w <- py_nth (split_on c_space line) (-1); py_int w.
Definition number_step (d : list (Z * nat)) (il : nat * str) : res (list (Z * nat)) :=
  let '(i, l) := il in
  if contains (lit "Mesh Tally Number") l then do n <- tally_number l; Ok (dict_set Z.eqb n i d) else Ok d.
Definition find_mesh_tally_numbers (lines : list str) : res (list (Z * nat)) :=
  foldM number_step (enumerate lines) [].

(** meshtal_analysis.py:448-456 *)
Fixpoint insert_z (z : Z) (l : list Z) : list Z :=
  match l with [] => [z] | y :: l' => if (z <=? y)%Z then z :: l else y :: insert_z z l' end.
Definition sort_z (l : list Z) : list Z := fold_right insert_z [] l.
Fixpoint next_of (tnum : Z) (keys : list Z) (d : list (Z * nat)) : res (option Z) :=
  match keys with
  | [] => Ok None
  | k :: keys' =>
      if (k =? tnum)%Z then
        do k' <- py_nth keys' 0; do v <- dict_index Z.eqb k' d; Ok (Some (Z.of_nat v))
      else next_of tnum keys' d
  end.
Definition find_next_mesh (tnum : Z) (d : list (Z * nat)) : res (option Z) :=
  let keylist := sort_z (map fst d) in
  do top <- py_nth keylist (-1);
  if (tnum =? top)%Z then Ok (Some (-1)%Z) else next_of tnum keylist d.

(** meshtal_analysis.py:459-523.  The result is one mesh if it was selected and another
    one follows, else the list of all. *)
Inductive read_result : Type := One (m : mesh) | All (ms : list mesh).
Definition add_row (m : mesh) (r : list str) : mesh :=
  match data m with Raw rows => set_data m (Raw (rows ++ [r])) | Df _ => m end.
(** [" ".join(line.split()).split(" ")[k:]] *)
Definition clean (line : str) : str := join [c_space] (split_ws line).
Definition words_from (k : Z) (line : str) : list str := slice_from k (split_on c_space (clean line)).
(** The part of the loop body for lines outside the table: new in_data and mesh. *)
Definition header_line (m : mesh) (line : str) : res (bool * mesh) :=
  if contains (lit "X direction:") line then
    let b := words_from 2 line in do v <- calc_mid_points b; Ok (false, set_x m b v)
  else if contains (lit "Y direction:") line then
    let b := words_from 2 line in do v <- calc_mid_points b; Ok (false, set_y m b v)
  else if contains (lit "Z direction:") line then
    let b := words_from 2 line in do v <- calc_mid_points b; Ok (false, set_z m b v)
  else if contains (lit "Energy bin boundaries:") line then Ok (false, set_e m (words_from 3 line))
  else if contains (lit "Time bin boundaries:") line then Ok (false, set_t m (words_from 3 line))
  else if contains (lit "Energy         X         Y         Z     Result") line then Ok (true, m)
  else if contains (lit "Time         X         Y         Z     Result") line then Ok (true, set_ctype m (lit "6col_t"))
  else if contains (lit "X         Y         Z     Result") line then Ok (true, set_ctype m (lit "5col"))
  else if contains (lit "mesh tally.") line then
    do w <- py_nth (split_on c_space (clean line)) 0; Ok (false, set_ptype m w)
  else Ok (false, m).
Fixpoint read_lines (num : option Z) (lines : list str) (in_data select : bool) (m : mesh) (ms : list mesh)
  : res read_result :=
  match lines with
  | [] => Ok (All (ms ++ [m]))
  | line :: lines' =>
      let starts := in_data && contains (lit " Mesh Tally Number") line in
      if starts && select then Ok (One m)
      else
        let ms := if starts then ms ++ [m] else ms in
        let m := if starts then new_mesh else m in
        let in_data := in_data && negb starts in
        do '(m, select) <-
          (if contains (lit "Mesh Tally Number") line then
             do tnum <- tally_number line;
             Ok (set_idnum m tnum, select || match num with Some n => (tnum =? n)%Z | None => false end)
           else Ok (m, select));
        if in_data then read_lines num lines' true select (add_row m (split_ws (clean line))) ms
        else
          do '(in_data, m) <- header_line m line;
          read_lines num lines' in_data select m ms
  end.
Definition to_frame (m : mesh) : res mesh := do d <- convert_to_df m; Ok (set_data m (Df d)).
Definition read_meshtally_lines (lines : list str) (num : option Z) : res read_result :=
  do r <- read_lines num lines false false (set_ctype new_mesh (lit "6col_e")) [];
  match r with
  | One m => Ok (One m)
  | All ms => do ms <- mapM to_frame ms; Ok (All ms)
  end.
Definition read_meshtally_file (f : fs) (p : path) (num : option Z) : res read_result :=
  do text <- read_text f p; read_meshtally_lines (file_lines text) num.
End Parse.
