(** Python runtime, part 7: pandas data frames of mixed cells, by rows.  Definitions only.
    A frame has named columns (no name twice) and rows; a row has a label and one cell per
    column.  Integers compare and compute as the nearest binary64 number. *)
From Verif Require Import PyBase PyFloat.

Inductive cell : Type := CF (x : float) | CI (z : Z) | CS (s : str) | CB (b : bool).
Definition row : Type := nat * list cell.
Record table : Type := Table { t_names : list str; t_rows : list row }.
(** An argument that should be a data frame. *)
Inductive arg : Type := DataFrame (t : table) | NotFrame.

(** A cell as a number; texts have none. *)
Definition cell_num (c : cell) : res float :=
  match c with
  | CF x => Ok x
  | CI z => Ok (f_of_Z z)
  | CB b => Ok (if b then f_of_Z 1 else fzero)
  | CS _ => Err TypeError
  end.
(** [name in frame.columns] *)
Definition has_col (t : table) (name : str) : bool := existsb (str_eqb name) (t_names t).
(** [row[name]] *)
Fixpoint get_cell (names : list str) (cells : list cell) (name : str) : res cell :=
  match names, cells with
  | n :: names', c :: cells' => if str_eqb name n then Ok c else get_cell names' cells' name
  | _, _ => Err KeyError
  end.
Definition row_cell (t : table) (name : str) (r : row) : res cell := get_cell (t_names t) (snd r) name.
(** [frame[name]], without the labels. *)
Definition column (t : table) (name : str) : res (list cell) :=
  if has_col t name then mapM (row_cell t name) (t_rows t) else Err KeyError.
Definition num_column (t : table) (name : str) : res (list float) := do cs <- column t name; mapM cell_num cs.

(** [frame[frame[name] > x]] and [frame[frame[name] == s]]. *)
Definition cell_gt (x : float) (c : cell) : res bool := do y <- cell_num c; Ok (flt x y).
Definition cell_is (s : str) (c : cell) : bool := match c with CS s' => str_eqb s s' | _ => false end.
Fixpoint keep {A} (m : list bool) (l : list A) : list A :=
  match m, l with
  | b :: m', x :: l' => if b then x :: keep m' l' else keep m' l'
  | _, _ => []
  end.
Definition select (t : table) (name : str) (test : cell -> res bool) : res table :=
  do cs <- column t name;
  do m <- mapM test cs;
  Ok (Table (t_names t) (keep m (t_rows t))).
(** [frame[name] = cells]: the column is replaced if there is one. *)
Fixpoint set_cell (names : list str) (cells : list cell) (name : str) (c : cell) : list cell :=
  match names, cells with
  | n :: names', d :: cells' => if str_eqb name n then c :: cells' else d :: set_cell names' cells' name c
  | _, _ => [c]
  end.
Definition set_col (name : str) (cs : list cell) (t : table) : table :=
  Table (if has_col t name then t_names t else t_names t ++ [name])
        (map (fun rc => (fst (fst rc), set_cell (t_names t) (snd (fst rc)) name (snd rc))) (combine (t_rows t) cs)).
