(** Specifications for the properties of the FISPACT analysis functions and of the reader
    of printlib files. *)
From Coq Require Import Floats.SpecFloat.
From Verif Require Import PyBase PyFloat PyFs SpecStr SpecUtil SpecOutput SpecFis SpecConst PyTable M_fisana.
Local Open Scope nat_scope.

(** * printlib files *)
Definition run_time_line (l : str) : Prop := occurs (lit "fispact run time") l.
Definition discrete_title (l : str) : Prop := occurs (lit " FD ") l.
Definition data_line (l : str) : Prop := ~ occurs (lit "Type") l /\ ~ occurs (lit "no spectral data") l.
(** The lines between the title of the discrete section and the line of the run time. *)
Definition discrete_section (lines section : list str) : Prop :=
  exists e, first_index run_time_line lines e /\
    ((Forall (fun l => ~ discrete_title l) (firstn e lines) /\ section = []) \/
     exists d, first_index discrete_title lines d /\ d < e /\ section = span (d + 1) e lines).
(** A line names a nuclide if its third character is not blank. *)
Definition names (l nuc : str) : Prop :=
  exists c, nth_error l 2 = Some c /\ c <> chr 32 /\ nuc = without_spaces (columns 2 8 l).
Definition names_none (l : str) : Prop := nth_error l 2 = Some (chr 32).
(** A text with single blanks between its words. *)
Definition cleaned (s t : str) : Prop := exists ws, words s ws /\ spaced ws t.
(** The nuclide named last by lines 0 to i. *)
Definition last_named (ls : list str) (i : nat) (nuc : str) : Prop :=
  exists k l, k <= i /\ nth_error ls k = Some l /\ names l nuc /\
    forall j m, k < j <= i -> nth_error ls j = Some m -> names_none m.
Definition emission_of (ls : list str) (i : nat) (l : str) (r : emission) : Prop :=
  last_named ls i (e_nuclide r) /\ cleaned (columns 25 34 l) (e_particle r) /\
  field 43 54 l (e_energy r) /\ field 71 82 l (e_intensity r).
Definition emissions (ls : list str) (rows : list emission) : Prop :=
  List.length rows = List.length ls /\
  forall i l r, nth_error ls i = Some l -> nth_error rows i = Some r -> emission_of ls i l r.

(** * Tables *)
Definition well_formed (t : table) : Prop :=
  NoDup (t_names t) /\ Forall (fun r => List.length (snd r) = List.length (t_names t)) (t_rows t).
(** The cell of a row under a column name. *)
Definition at_col (t : table) (name : str) (r : row) (c : cell) : Prop :=
  exists i, nth_error (t_names t) i = Some name /\ nth_error (snd r) i = Some c.
(** The number in a cell. *)
Inductive holds : cell -> float -> Prop :=
| holds_float x : holds (CF x) x
| holds_int z : holds (CI z) (f_of_Z z)
| holds_true : holds (CB true) (f_of_Z 1)
| holds_false : holds (CB false) fzero.
Definition number_at (t : table) (name : str) (r : row) (x : float) : Prop := exists c, at_col t name r c /\ holds c x.
Definition text_at (t : table) (name : str) (r : row) (s : str) : Prop := at_col t name r (CS s).
(** A column of numbers. *)
Definition numeric (t : table) (name : str) : Prop := In name (t_names t) /\ forall r, In r (t_rows t) -> exists x, number_at t name r x.
(** A positive number (infinity included, NaN excluded). *)
Definition pos_value (x : float) : Prop := x = S754_infinity false \/ exists m e, x = S754_finite false m e.
(** The rows of [t'] are those of [t] that satisfy [P], in order, under the same columns. *)
Definition rows_where (t : table) (P : row -> Prop) (t' : table) : Prop :=
  t_names t' = t_names t /\ picked P (t_rows t) (t_rows t').
Definition exceeds (name : str) (x : float) (t : table) (r : row) : Prop := exists y, number_at t name r y /\ flt x y = true.
Definition active (t : table) (r : row) : Prop := exists x, number_at t (lit "act") r x /\ pos_value x.
Definition emits (name : str) (t : table) (r : row) : Prop := exists x, number_at t name r x /\ pos_value x.

(** * Limits *)
(** The first limit given for a name. *)
Definition limit_named (oos : oos_table) (n : str) (v : float) : Prop :=
  exists i, first_index (fun nl => fst nl = n) oos i /\ exists m, nth_error oos i = Some (m, v).
(** The limit of a nuclide: its own, or the one of 'Other'. *)
Definition limit_of (oos : oos_table) (n : str) (v : float) : Prop :=
  limit_named oos n v \/ (~ In n (map fst oos) /\ limit_named oos (lit "Other") v).
(** The specific activity of a row (activity divided by 1000) is above its limit. *)
Definition above_limit (oos : oos_table) (t : table) (r : row) : Prop :=
  exists n x v, text_at t (lit "nuclide") r n /\ number_at t (lit "act") r x /\ limit_of oos n v /\
    flt v (fdiv x (f_of_Z 1000)) = true.
(** An inventory with texts as nuclides and numbers as activities. *)
Definition inventory_like (t : table) : Prop :=
  well_formed t /\ numeric t (lit "act") /\ In (lit "nuclide") (t_names t) /\
  forall r, In r (t_rows t) -> exists n, text_at t (lit "nuclide") r n.
(** Every nuclide has a limit. *)
Definition complete_limits (oos : oos_table) : Prop := In (lit "Other") (map fst oos).

(** * Time units *)
(** Letters compared without case. *)
Definition same_letter (a b : ascii) : Prop :=
  a = b \/ (exists n, (65 <= n <= 90)%N /\ a = chr n /\ b = chr (n + 32)) \/
  (exists n, (65 <= n <= 90)%N /\ b = chr n /\ a = chr (n + 32)).
Definition spells (s : str) (w : string) : Prop := Forall2 same_letter s (lit w).

(** * Columns, material, plots *)
(** The numbers of a column, row by row. *)
Definition numbers_of (t : table) (name : str) (xs : list float) : Prop :=
  In name (t_names t) /\ Forall2 (number_at t name) (t_rows t) xs.
(** The ZAID of the ground state of a nuclide: 1000 times the atomic number plus the mass number. *)
Definition atomic_number (e : str) (z : nat) : Prop := 1 <= z /\ nth_error elements (z - 1) = Some e.
Definition zaid_of (t : table) (r : row) (n : Z) : Prop :=
  exists e z a, text_at t (lit "element") r e /\ atomic_number e z /\ at_col t (lit "A") r (CI a) /\ (n = 1000 * Z.of_nat z + a)%Z.
(** The leading part of a series that has no zero; [k] is its length. *)
Definition leading (values : list float) (k : nat) : Prop :=
  k <= List.length values /\ Forall (fun x => ~ fp_zero x) (firstn k values) /\
  (k = List.length values \/ exists z, nth_error values k = Some z /\ fp_zero z).
(** A largest number of a list without NaN. *)
Definition largest (l : list float) (m : float) : Prop := In m l /\ forall x, In x l -> flt m x = false.
(** The value of [param] in the first row of a nuclide; zero if there is none. *)
Definition contribution (t : table) (nuc param : str) (x : float) : Prop :=
  (exists i r, first_index (fun r => text_at t (lit "nuclide") r nuc) (t_rows t) i /\ nth_error (t_rows t) i = Some r /\ number_at t param r x) \/
  ((forall r, In r (t_rows t) -> ~ text_at t (lit "nuclide") r nuc) /\ x = fzero).
(** The square of the chart for a row: its mass number (0 if the text is no number) and its
    atomic number, inside the given ranges. *)
Definition mass_number (to_numeric : str -> option Z) (c : cell) (a : Z) : Prop :=
  c = CI a \/ (exists s, c = CS s /\ to_numeric s = Some a) \/ (exists s, c = CS s /\ to_numeric s = None /\ a = 0%Z).
Definition placed (to_numeric : str -> option Z) (t : table) (amin amax zmin zmax : Z) (r : row) (a z : Z) : Prop :=
  exists e n c, text_at t (lit "element") r e /\ atomic_number e n /\ z = Z.of_nat n /\ at_col t (lit "A") r c /\
    mass_number to_numeric c a /\ (amin <= a < amax)%Z /\ (zmin <= z < zmax)%Z.

(** Every active nuclide has a limit, and the table has one for the rest if nothing is active. *)
Definition limits_known (oos : oos_table) (t : table) : Prop :=
  (forall r n, In r (t_rows t) -> active t r -> text_at t (lit "nuclide") r n -> exists v, limit_of oos n v) /\
  (complete_limits oos \/ exists r, In r (t_rows t) /\ active t r).
(** A line of a material: five blanks, the ZAID, two blanks, the fraction. *)
Definition mat_line (show show_e : float -> str) (za : Z * float) : cell * float * str :=
  (CI (fst za), snd za, lit "     " ++ show (f_of_Z (fst za)) ++ lit "  " ++ show_e (snd za)).
(** The rows plotted: all, or those marked as cooling. *)
Definition plotted_rows (t : table) (cooling : bool) (t1 : table) : Prop :=
  if cooling then In (lit "is_cooling") (t_names t) /\ (forall r, In r (t_rows t) -> exists b, at_col t (lit "is_cooling") r (CB b)) /\
                  rows_where t (fun r => at_col t (lit "is_cooling") r (CB true)) t1
  else t1 = t.
(** The curve of a nuclide: its contribution in each inventory. *)
Definition curve_of (invs : list table) (param nuc : str) (c : str * list float) : Prop :=
  fst c = nuc /\ Forall2 (fun inv x => contribution inv nuc param x) invs (snd c).
(** A frame with texts as elements, numbers or texts as mass numbers and numbers as values. *)
Definition chart_like (t : table) (prop : str) : Prop :=
  In (lit "element") (t_names t) /\ In (lit "A") (t_names t) /\ numeric t prop /\
  forall r, In r (t_rows t) -> (exists e, text_at t (lit "element") r e) /\
    (exists c, at_col t (lit "A") r c /\ ((exists a, c = CI a) \/ exists s, c = CS s)).
