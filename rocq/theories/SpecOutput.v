(** Specifications used by the properties of the output helpers and small readers. *)
From Verif Require Import PyBase PyFloat PyFs SpecStr SpecUtil M_output.

(** [trimmed s t]: [t] is [s] without the blanks at both ends. *)
Definition trimmed (s t : str) : Prop :=
  exists a b, s = a ++ t ++ b /\ blank a /\ blank b /\
  (forall c r, t = c :: r -> is_ws c = false) /\ (forall r c, t = r ++ [c] -> is_ws c = false).
(** [rtrimmed s t]: [t] is [s] without the blanks at its end. *)
Definition rtrimmed (s t : str) : Prop :=
  exists b, s = t ++ b /\ blank b /\ (forall r c, t = r ++ [c] -> is_ws c = false).

(** Width of the continuation prefix with its separating space. *)
Definition cont_width (cont : str) (n : Z) : Prop :=
  (cont = [] /\ n = 0%Z) \/
  (exists r, cont = r ++ [chr 32] /\ n = Z.of_nat (List.length cont)) \/
  (cont <> [] /\ (forall r, cont <> r ++ [chr 32]) /\ n = (Z.of_nat (List.length cont) + 1)%Z).

(** Rows of the .3d file: row i is made of entry i of each list. *)
Definition rows_of {V} (show : V -> str) (x y z : list V) (last : nat -> str -> Prop) (rows : list str) : Prop :=
  List.length rows = List.length x /\
  forall i a b c, nth_error x i = Some a -> nth_error y i = Some b -> nth_error z i = Some c ->
    exists d row, last i d /\ nth_error rows i = Some row /\ spaced [show a; show b; show c; d] row.

(** One row per cell of a tally. *)
Definition tally_rows {V} (cells result err : list V) (row : V -> V -> V -> str) (rows : list str) : Prop :=
  List.length rows = List.length cells /\
  forall i c r e, nth_error cells i = Some c -> nth_error result i = Some r -> nth_error err i = Some e ->
    nth_error rows i = Some (row c r e).

(** The text a MCNP output file has where the last results start. *)
Definition final_results (l : str) : Prop := prefix_of (lit "      run terminated when") l.

(** Lines of a text, separated by newline characters. *)
Inductive text_lines : str -> list str -> Prop :=
| tl_none : text_lines [] []
| tl_last l : l <> [] -> ~ In (chr 10) l -> text_lines l [l]
| tl_more l s ls : ~ In (chr 10) l -> text_lines s ls -> text_lines (l ++ chr 10 :: s) (l :: ls).
(** Characters i (included) to j (excluded) of a line. *)
Definition columns (i j : nat) (l : str) : str := firstn (j - i) (skipn i l).
(** The number written in some columns. *)
Definition number_in (i j : nat) (l : str) (x : float) : Prop :=
  exists t, trimmed (columns i j l) t /\ py_float t = Ok x.
(** A line of the output file that reports the position of a lost particle. *)
Definition reports_lost (l : str) : Prop := occurs (lit "x,y,z coordinates:") l.
Definition lost_at (l : str) (p : float * float * float) : Prop :=
  number_in 28 40 l (fst (fst p)) /\ number_in 43 55 l (snd (fst p)) /\ number_in 58 70 l (snd p).
(** [picked P l l']: [l'] are the elements of [l] satisfying [P], in order. *)
Inductive picked {A} (P : A -> Prop) : list A -> list A -> Prop :=
| pk_nil : picked P [] []
| pk_take x l l' : P x -> picked P l l' -> picked P (x :: l) (x :: l')
| pk_skip x l l' : ~ P x -> picked P l l' -> picked P (x :: l) l'.

(** Lines that start, after blanks, with some text. *)
Definition heads (h l : str) : Prop := exists t, trimmed l t /\ prefix_of h t.
(** A dictionary given by its bindings in order; later ones replace earlier ones. *)
Definition last_binding {K V} (es : list (K * V)) (k : K) (v : V) : Prop :=
  exists a b, es = a ++ (k, v) :: b /\ ~ In k (map fst b).
Definition bindings {K V} (eqb : K -> K -> bool) (d : list (K * V)) (es : list (K * V)) : Prop :=
  NoDup (map fst d) /\ forall k v, dict_get eqb k d = Some v <-> last_binding es k v.
(** Entries of the atomic weight ratio section. *)
Inductive awr_entries : list str -> list (str * float) -> Prop :=
| ae_nil : awr_entries [] []
| ae_take l ls w k v x rest es : words l (w :: k :: v :: rest) -> ~ heads (lit "atomic") l ->
    py_float v = Ok x -> awr_entries ls es -> awr_entries (l :: ls) ((k, x) :: es)
| ae_header l ls es : heads (lit "atomic") l -> awr_entries ls es -> awr_entries (l :: ls) es
| ae_short l ls ws es : words l ws -> List.length ws < 3 -> awr_entries ls es -> awr_entries (l :: ls) es.
(** Entries with a key and at least one more word; [skip] are lines passed over. *)
Inductive word_entries (skip : str -> Prop) : list str -> list (str * list str) -> Prop :=
| we_nil : word_entries skip [] []
| we_take l ls k v vs es : words l (k :: v :: vs) -> ~ skip l ->
    word_entries skip ls es -> word_entries skip (l :: ls) ((k, v :: vs) :: es)
| we_skip l ls es : skip l -> word_entries skip ls es -> word_entries skip (l :: ls) es
| we_short l ls ws es : words l ws -> List.length ws < 2 -> word_entries skip ls es -> word_entries skip (l :: ls) es.
(** The lines after the first header line. *)
Definition after_first (h : str -> Prop) (lines sec : list str) : Prop :=
  (sec = [] /\ forall l, In l lines -> ~ h l) \/
  exists pre l, lines = pre ++ l :: sec /\ h l /\ forall x, In x pre -> ~ h x.
(** The lines before the first footer line. *)
Definition before_first (h : str -> Prop) (lines sec : list str) : Prop :=
  (forall x, In x sec -> ~ h x) /\ (sec = lines \/ exists l post, lines = sec ++ l :: post /\ h l).
(** Headers of the thermal section, and lines passed over in it. *)
Definition thermal_head (l : str) : Prop := heads (lit "thermal_scattering_data") l \/ heads (lit "sab") l.
Definition thermal_skip (l : str) : Prop := heads (lit "#") l \/ thermal_head l.
(** A line that gives the data path: "datapath" in any case, after blanks. *)
Definition datapath_line (l : str) : Prop := exists t q r, trimmed l t /\ t = q ++ r /\ lower q = lit "datapath".

(** Lists of coordinates (and data) of the same length. *)
Definition same_lengths {V} (x y z : list V) (d : option (list V)) : Prop :=
  List.length x = List.length y /\ List.length x = List.length z /\
  match d with Some d => List.length d = List.length x | None => True end.
(** Last field of row i. *)
Definition last_field {V} (show : V -> str) (d : option (list V)) (i : nat) (s : str) : Prop :=
  match d with Some d => exists v, nth_error d i = Some v /\ s = show v | None => s = lit "1" end.
Definition csv_row {V} (show : V -> str) (n c r e : V) : str :=
  show n ++ lit ", " ++ show c ++ lit ", " ++ show r ++ lit ", " ++ show e.
Definition html_row {V} (show : V -> str) (n c r e : V) : str :=
  lit "<tr><td>" ++ show n ++ lit "</td><td>" ++ show c ++ lit "</td><td>" ++ show r ++ lit "</td><td>" ++ show e ++ lit "</td></tr>".
(** The tally has a result and an error for each cell. *)
Definition enough {V} (t : out_tally V) : Prop :=
  List.length (ot_cells t) <= List.length (ot_result t) /\ List.length (ot_cells t) <= List.length (ot_err t).
(** Lines of the HTML table (one empty line stands for no rows). *)
Definition html_table_lines (rows : list str) : list str :=
  lit "<html><table><tr><th>Tally Number</th><th>CellNumber</th><th>Result</th><th>Relative error</th></tr>"
  :: (match rows with [] => [[]] | _ => rows end) ++ [lit "</table></html>"].
