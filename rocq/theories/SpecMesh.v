(** Specifications used by the properties of the mesh tally tools. *)
From Coq Require Import Floats.SpecFloat.
From Verif Require Import PyBase PyFloat SpecStr PyFrame M_mesh.

(** * Nearest mid point *)
Definition distance (m v : float) : float := fabs (fsub m v).
(** [nearest v mids m]: [m] is the first of [mids] such that no other is nearer to [v]. *)
Definition nearest (v : float) (mids : list float) (m : float) : Prop :=
  exists i, nth_error mids i = Some m /\
    (forall x, In x mids -> flt (distance x v) (distance m v) = false) /\
    (forall j x, j < i -> nth_error mids j = Some x -> fle (distance x v) (distance m v) = false).

(** * Tables *)
(** A table all of whose columns have one entry for each row, rows labelled in order. *)
Definition table (d : frame) : Prop :=
  increasing (f_index d) /\
  forall name c, In (name, c) (f_cols d) -> List.length (c_vals c) = List.length (f_index d).
Definition n_rows (d : frame) : nat := List.length (f_index d).
(** The first column with the given name. *)
Inductive column : list (str * col) -> str -> col -> Prop :=
| column_here name c cs : column ((name, c) :: cs) name c
| column_later name c other c' cs : other <> name -> column cs name c -> column ((other, c') :: cs) name c.
Definition has (d : frame) (name : string) (c : col) : Prop := column (f_cols d) (lit name) c.
(** The number [x] as it is kept in a column. *)
Definition kept (c : col) (x : float) : float := if c_single c then f32 x else x.
(** The entry of column [c] in row [i] is the number [x]; is close to it. *)
Definition entry_is (c : col) (i : nat) (x : float) : Prop :=
  exists y, nth_error (c_vals c) i = Some y /\ feq y (kept c x) = true.
Definition close (y x : float) : Prop :=
  (is_finite_f x = true /\ fle (fabs (fsub y x)) (fadd (fdec 1 (-8)) (fmul (fdec 1 (-5)) (fabs x))) = true) \/
  (is_finite_f x = false /\ feq y x = true).
Definition entry_close (c : col) (i : nat) (x : float) : Prop :=
  exists y, nth_error (c_vals c) i = Some y /\ close y x.
(** [selected P n is]: [is] are the rows (of [n]) with property [P], in order. *)
Definition selected (P : nat -> Prop) (n : nat) (is : list nat) : Prop :=
  increasing is /\ forall i, In i is <-> i < n /\ P i.
(** [entries c is vs]: [vs] are the entries of [c] in the rows [is]. *)
Definition entries {A} (l : list A) (is : list nat) (vs : list A) : Prop :=
  Forall2 (fun i v => nth_error l i = Some v) is vs.
Definition rows_of_series (d : frame) (c : col) (is : list nat) (s : series) : Prop :=
  entries (f_index d) is (s_index s) /\ entries (c_vals c) is (c_vals (s_col s)) /\
  c_single (s_col s) = c_single c.
(** A condition on a column that is used only if a non-zero number is given. *)
Definition if_given (x : option float) (P : float -> Prop) : Prop :=
  forall v, x = Some v -> is_zero_f v = false -> P v.

(** * Slices *)
Inductive axis : Set := AX | AY | AZ.
Definition axis_name (a : axis) : string := match a with AX => "x" | AY => "y" | AZ => "z" end.
Definition axis_mids (m : mesh) (a : axis) : list float :=
  match a with AX => x_mids m | AY => y_mids m | AZ => z_mids m end.
(** [plane_of p i j v]: the plane called [p] spans the axes [i], [j] and is normal to [v]. *)
Inductive plane_of : str -> axis -> axis -> axis -> Prop :=
| plane_XZ : plane_of (lit "XZ") AX AZ AY
| plane_XY : plane_of (lit "XY") AX AY AZ
| plane_YZ : plane_of (lit "YZ") AY AZ AX.
(** The filters on energy and time. *)
Definition et_filter (d : frame) (erg time : option float) (i : nat) : Prop :=
  if_given erg (fun v => forall k, has d "Energy" k -> entry_close k i v) /\
  if_given time (fun v => forall k, has d "Time" k -> entry_close k i v).
(** A column used by a filter is there. *)
Definition has_if_given (d : frame) (x : option float) (name : string) : Prop :=
  if_given x (fun _ => exists c, has d name c).
(** [line_entries d c rows vs]: [vs] are the entries of [c] in the rows of [d] with the
    property, in order. *)
Definition line_entries (d : frame) (c : col) (P : nat -> Prop) (vs : list float) : Prop :=
  exists is, selected P (n_rows d) is /\ entries (c_vals c) is vs.

(** * Mesh tally files *)
Definition number_text : str := lit "Mesh Tally Number".
(** What the lines before a table can announce, in the order in which they are tried. *)
Definition markers : list str := map lit
  ["X direction:"; "Y direction:"; "Z direction:"; "Energy bin boundaries:"; "Time bin boundaries:";
   "Energy         X         Y         Z     Result"; "Time         X         Y         Z     Result";
   "X         Y         Z     Result"; "mesh tally."]%string.
Definition announces (k : nat) (l : str) : Prop :=
  ~ occurs number_text l /\
  (exists w, nth_error markers k = Some w /\ occurs w l) /\
  forall j w, j < k -> nth_error markers j = Some w -> ~ occurs w l.
(** A line that announces nothing. *)
Definition quiet (l : str) : Prop := forall w, In w markers -> ~ occurs w l.
(** A line giving the number of a mesh: after the last space. *)
Definition number_line (l : str) (n : Z) : Prop :=
  occurs (chr 32 :: number_text) l /\ quiet l /\
  exists a w, l = a ++ chr 32 :: w /\ ~ In (chr 32) w /\ py_int w = Ok n.
(** Bin boundaries: [k] words and the numbers, of which all but the first [k] words are
    the boundaries. *)
Definition bounds_line (k mark : nat) (l : str) (bs : list str) : Prop :=
  announces mark l /\ exists ws, words l (ws ++ bs) /\ List.length ws = k.
Definition numbers (bs : list str) (xs : list float) : Prop := Forall2 (fun w x => py_float w = Ok x) bs xs.

Inductive kind : Set := ByEnergy | ByTime | Plain.
Definition kind_marker (k : kind) : nat := match k with ByEnergy => 5 | ByTime => 6 | Plain => 7 end.
Record mesh_desc : Type := Desc {
  d_num : Z; d_particle : str;
  d_x : list str; d_y : list str; d_z : list str; d_e : list str; d_t : list str;
  d_kind : kind; d_rows : list (list str)
}.
(** The lines of one mesh: number, particle, boundaries in the three directions, times if
    there are any, energies, the heading of the table, and its rows; other lines may come
    between. *)
Definition gap (ls : list str) : Prop := Forall (fun l => quiet l /\ ~ occurs number_text l) ls.
Inductive mesh_lines : list str -> mesh_desc -> Prop :=
| mesh_lines_intro ln g1 lp g2 lx ly lz lt le g3 lh rows n p pws bx by_ bz be bt k rws :
    number_line ln n -> gap g1 ->
    announces 8 lp -> words lp (p :: pws) -> gap g2 ->
    bounds_line 2 0 lx bx -> bounds_line 2 1 ly by_ -> bounds_line 2 2 lz bz ->
    ((lt = [] /\ bt = []) \/ exists l, lt = [l] /\ bounds_line 3 4 l bt) ->
    bounds_line 3 3 le be -> gap g3 ->
    announces (kind_marker k) lh ->
    Forall2 (fun l r => ~ occurs number_text l /\ words l r) rows rws ->
    mesh_lines ((ln :: g1) ++ (lp :: g2) ++ [lx; ly; lz] ++ lt ++ (le :: g3) ++ lh :: rows)
      (Desc n p bx by_ bz be bt k rws).
Inductive mesh_blocks : list str -> list mesh_desc -> Prop :=
| blocks_nil : mesh_blocks [] []
| blocks_cons b d ls ds : mesh_lines b d -> mesh_blocks ls ds -> mesh_blocks (b ++ ls) (d :: ds).
Definition mesh_file (lines : list str) (ds : list mesh_desc) : Prop :=
  exists g ls, lines = g ++ ls /\ gap g /\ mesh_blocks ls ds /\ ds <> [].
(** Every boundary is a number. *)
Definition bounds_ok (d : mesh_desc) : Prop :=
  exists xs ys zs, numbers (d_x d) xs /\ numbers (d_y d) ys /\ numbers (d_z d) zs.

(** * Tables of numbers *)
Definition col_names (k : kind) : list str := map lit
  match k with
  | ByEnergy => ["Energy"; "x"; "y"; "z"; "value"; "rel_err"]%string
  | ByTime => ["Time"; "x"; "y"; "z"; "value"; "rel_err"]%string
  | Plain => ["x"; "y"; "z"; "value"; "rel_err"]%string
  end.
Definition n_cols (k : kind) : nat := match k with Plain => 5 | _ => 6 end.
(** Rows of a time mesh that are left out. *)
Definition left_out (k : kind) (r : list str) : Prop :=
  k = ByTime /\ exists w ws, r = w :: ws /\ (w = lit "Total" \/ w = lit "0.000E+00").
(** Number [j] of a row; a missing word counts as NaN. *)
Definition cell (to_num : str -> res float) (r : list str) (j : nat) (v : float) : Prop :=
  match nth_error r j with Some w => to_num w = Ok v | None => v = S754_nan end.
(** At most 5e-4 from the binary32 number, or not finite. *)
Definition fits32 (v : float) : Prop :=
  is_finite_f v = false \/ feq (f32 v) v = true \/ fle (fabs (fsub (f32 v) v)) (fdec 5 (-4)) = true.
(** [frame_of k rows d]: the columns of [d] are the numbers of the rows that are not left
    out, all of a column either as read or rounded to binary32; rounded if all the numbers
    of the rows are near binary32 numbers. *)
Definition frame_of (to_num : str -> res float) (k : kind) (rows : list (list str)) (d : frame) : Prop :=
  selected (fun i => exists r, nth_error rows i = Some r /\ ~ left_out k r) (List.length rows) (f_index d) /\
  map fst (f_cols d) = col_names k /\
  forall j c, nth_error (map snd (f_cols d)) j = Some c ->
    Forall2 (fun i y => exists r v, nth_error rows i = Some r /\ cell to_num r j v /\
               y = (if c_single c then f32 v else v) /\ (c_single c = true -> fits32 v)) (f_index d) (c_vals c) /\
    ((forall r v, In r rows -> cell to_num r j v -> fits32 v) -> c_single c = true).
(** Rows that can be converted: none too long, one of full length, and every word a
    number (except the time in the rows left out). *)
Definition readable (to_num : str -> res float) (k : kind) (rows : list (list str)) : Prop :=
  Forall (fun r => List.length r <= n_cols k) rows /\ (rows = [] \/ Exists (fun r => List.length r = n_cols k) rows) /\
  forall r j w, In r rows -> nth_error r j = Some w -> (left_out k r -> j <> 0) -> exists v, to_num w = Ok v.

(** [mesh_of d m]: the mesh object [m] holds what the file says of the mesh. *)
Definition mesh_head (d : mesh_desc) (m : mesh) : Prop :=
  idnum m = Some (d_num d) /\ ptype m = Some (d_particle d) /\
  x_bounds m = d_x d /\ y_bounds m = d_y d /\ z_bounds m = d_z d /\
  e_bounds m = d_e d /\ t_bounds m = d_t d /\
  calc_mid_points (d_x d) = Ok (x_mids m) /\ calc_mid_points (d_y d) = Ok (y_mids m) /\
  calc_mid_points (d_z d) = Ok (z_mids m).
Definition mesh_of (to_num : str -> res float) (d : mesh_desc) (m : mesh) : Prop :=
  mesh_head d m /\ exists fr, data m = Df fr /\ frame_of to_num (d_kind d) (d_rows d) fr.
(** Texts that are not numbers raise ValueError. *)
Definition rejects_text (to_num : str -> res float) : Prop := forall w e, to_num w = Err e -> e = ValueError.
