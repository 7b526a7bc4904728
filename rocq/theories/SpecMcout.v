(** Specifications used by the properties of the MCNP output reader: what the lines of an
    output file are, independently of how the reader looks for them. *)
From Verif Require Import PyBase PyFloat SpecStr SpecOutput M_mcout.

(** Positions of the lines with some property. *)
Definition line_at (P : str -> Prop) (data : list str) (i : nat) : Prop :=
  exists l, nth_error data i = Some l /\ P l.
(** The line before the last one with the property. *)
Definition second_last (P : str -> Prop) (data : list str) (i : nat) : Prop :=
  line_at P data i /\ exists j, i < j /\ line_at P data j /\ forall k, line_at P data k -> i < k -> k = j.
Definition at_most_one (P : str -> Prop) (data : list str) : Prop :=
  forall i j, line_at P data i -> line_at P data j -> i = j.
Definition none_of (P : str -> Prop) (lines : list str) : Prop := forall l, In l lines -> ~ P l.

Definition rendezvous (l : str) : Prop := occurs (lit "master set rendezvous nps") l.
Definition ends_run (l : str) : Prop := prefix_of (lit "      run terminated ") l.

(** Lines announcing tally results: in the list of tallies, and for one tally (the number
    is right justified in nine columns). *)
Definition listed_tally (l : str) (t : str) : Prop :=
  prefix_of (lit "1tally     ") l /\ exists a ws, words l (a :: t :: ws).
Definition any_tally (l : str) : Prop := prefix_of (lit "1tally") l.
Definition tally_title (t l : str) : Prop :=
  List.length t <= 9 /\ prefix_of (lit "1tally" ++ repeat (chr 32) (9 - List.length t) ++ t) l.

(** Where the last complete set of results starts: at the line saying that the run has
    terminated, else at the second last rendezvous, else at the top. *)
Inductive results_start (data : list str) : nat -> Prop :=
| rs_end i : first_index ends_run data i -> results_start data i
| rs_dump i : none_of ends_run data -> second_last rendezvous data i -> results_start data i
| rs_top : none_of ends_run data -> at_most_one rendezvous data -> results_start data 0.
(** [tally_section data t hdr body]: the first title of tally [t] in the last results, and
    the lines up to the next tally. *)
Definition tally_section (data : list str) (t hdr : str) (body : list str) : Prop :=
  exists pre a nxt post,
    data = pre ++ a ++ hdr :: body ++ nxt :: post /\
    results_start data (List.length pre) /\
    none_of (tally_title t) a /\ tally_title t hdr /\
    none_of any_tally body /\ any_tally nxt /\ 3 <= List.length body.
(** Lines of the section as used: a tally comment shifts the type and particle lines. *)
Definition is_comment (l : str) : Prop := exists r, l = chr 43 :: r.
Definition type_line (body : list str) (l : str) : Prop :=
  (exists r, body = l :: r /\ ~ is_comment l) \/ (exists c r, body = c :: l :: r /\ is_comment c).
Definition particle_line (body : list str) (l : str) : Prop :=
  (exists a r, body = a :: l :: r /\ ~ is_comment a) \/ (exists c a r, body = c :: a :: l :: r /\ is_comment c).
(** Text in some columns, with its words separated by single spaces. *)
Definition clean_columns (i j : nat) (l t : str) : Prop := exists ws, words (columns i j l) ws /\ spaced ws t.
Definition nps_of (l : str) (v : nps_val) : Prop :=
  exists t, clean_columns 28 40 l t /\
    ((exists z, py_int t = Ok z /\ v = NpsInt z) \/ ((exists e, py_int t = Err e) /\ v = NpsText t)).

(** Print tables: the key is the text after the last space. *)
Definition last_piece (l k : str) : Prop := ~ In (chr 32) k /\ (l = k \/ exists a, l = a ++ chr 32 :: k).
Definition table_line (k l : str) : Prop :=
  occurs (lit "print table") l /\ last_piece l k /\ k <> lit "160" /\ k <> lit "161" /\ List.length k <= 3.
Definition last_at (P : str -> Prop) (data : list str) (i : nat) : Prop :=
  line_at P data i /\ forall j, line_at P data j -> j <= i.

(** * Numbers in tables *)
Definition reads (w : str) (x : float) : Prop := py_float w = Ok x.
Definition numeral (w : str) : Prop := w <> [] /\ Forall (fun c => In c (lit "0123456789.E+-")) w.
Definition flat (ps : list (float * float)) : list float := concat (map (fun p => [fst p; snd p]) ps).

(** Time bins only: lines of times, lines of value/error pairs, and blank lines. *)
Inductive time_block : list str -> list str -> list (float * float) -> Prop :=
| tb_nil : time_block [] [] []
| tb_blank l ls ts ps : blank l -> time_block ls ts ps -> time_block (l :: ls) ts ps
| tb_times l k tw ls ts ps :
    words l (k :: tw) -> occurs (lit "time") k -> time_block ls ts ps -> time_block (l :: ls) (tw ++ ts) ps
| tb_values l ws vs ls ts ps :
    words l ws -> vs <> [] -> Forall2 reads ws (flat vs) ->
    Forall (fun w => 2 <= List.length w /\ ~ occurs (lit "time") w) ws ->
    time_block ls ts ps -> time_block (l :: ls) ts (vs ++ ps).

(** Energy and time bins.  A line of times, possibly with a column of totals. *)
Definition time_line (l : str) (ts : list float) (tot : bool) : Prop :=
  exists ws, words l (lit "time:" :: ws ++ (if tot then [lit "total"] else [])) /\
    Forall numeral ws /\ Forall2 reads ws ts.
(** A line of values and errors for one energy. *)
Definition energy_row (l : str) (e : float) (ps : list (float * float)) : Prop :=
  exists w ws, words l (w :: ws) /\ Forall numeral (w :: ws) /\ reads w e /\ Forall2 reads ws (flat ps).
Inductive energy_rows : list str -> list float -> list (list (float * float)) -> Prop :=
| er_nil : energy_rows [] [] []
| er_cons l ls e es ps m : energy_row l e ps -> energy_rows ls es m -> energy_rows (l :: ls) (e :: es) (ps :: m).
(** Part of the table for some of the times. *)
Inductive et_block : list str -> list float -> list float -> list (list (float * float)) -> Prop :=
| et_block_intro tl el rows fin ts tot es m :
    time_line tl ts tot -> heads (lit "energy") el -> energy_rows rows es m -> es <> [] ->
    Forall (fun ps => List.length ps = List.length ts + if tot then 1 else 0) m ->
    (blank fin \/ heads (lit "total") fin) ->
    et_block (tl :: el :: rows ++ [fin]) ts es m.
(** The table: parts, with other lines around them. *)
Inductive et_listing (es : list float) : list str -> list (list float * list (list (float * float))) -> Prop :=
| etl_end gap : none_of (heads (lit "time:")) gap -> et_listing es gap []
| etl_part gap blk ts m ls parts :
    none_of (heads (lit "time:")) gap -> et_block blk ts es m -> et_listing es ls parts ->
    et_listing es (gap ++ blk ++ ls) ((ts, m) :: parts).
(** Row [i] of the whole table. *)
Definition table_row (parts : list (list float * list (list (float * float)))) (i : nat) : list (float * float) :=
  concat (map (fun p => nth i (snd p) []) parts).
(** Numbers, not NaN, each smaller than the later ones. *)
Definition ascending (l : list float) : Prop :=
  (forall x, In x l -> feq x x = true) /\
  forall i j x y, i < j -> nth_error l i = Some x -> nth_error l j = Some y -> flt x y = true.
(** [matrix_of f parts n m]: [m] has [n] rows made of the entries of the table. *)
Definition matrix_of (f : float * float -> float) parts (n : nat) (m : list (list float)) : Prop :=
  List.length m = n /\ forall i, i < n -> nth_error m i = Some (map f (table_row parts i)).

(** * Energy bins per cell or surface *)
Definition begins_block (kw l : str) (n : Z) : Prop :=
  exists pad gap ds rest, l = pad ++ kw ++ gap ++ ds ++ rest /\ blank pad /\ blank gap /\ gap <> [] /\
    ds <> [] /\ Forall (fun c => is_decimal c = true) ds /\
    (forall c r, rest = c :: r -> is_decimal c = false) /\ n = Z.of_N (digits_val ds).
Definition bin_row (l : str) (r : float * float * float) : Prop :=
  exists d a b c, words l [d :: a; b; c] /\ is_decimal d = true /\
    reads (d :: a) (fst (fst r)) /\ reads b (snd (fst r)) /\ reads c (snd r).
Definition total_word (w : str) : Prop := lower w = lit "total".
Definition total_row (l : str) (t : float * float) : Prop :=
  exists w a b, words l [w; a; b] /\ total_word w /\
    ~ occurs (lit "total") (lower a) /\ ~ occurs (lit "total") (lower b) /\
    reads (lower a) (fst t) /\ reads (lower b) (snd t).
(** Any other line: not a title, not beginning with "total", not three words the first of
    which starts with a digit. *)
Definition other_line (kw l : str) : Prop :=
  (forall n, ~ begins_block kw l n) /\ ~ heads (lit "total") (lower l) /\
  forall d a b c, words l [d :: a; b; c] -> is_decimal d = false.
Inductive block_body (kw : str) : list str -> list (float * float * float) -> list (float * float) -> Prop :=
| bb_nil : block_body kw [] [] []
| bb_row l r ls rs ts : bin_row l r -> block_body kw ls rs ts -> block_body kw (l :: ls) (r :: rs) ts
| bb_total l t ls rs ts : total_row l t -> block_body kw ls rs ts -> block_body kw (l :: ls) rs (t :: ts)
| bb_other l ls rs ts : other_line kw l -> block_body kw ls rs ts -> block_body kw (l :: ls) rs ts.
Definition bin_block : Type := Z * list (float * float * float) * list (float * float).
Inductive bin_blocks (kw : str) : list str -> list bin_block -> Prop :=
| bl_nil : bin_blocks kw [] []
| bl_cons h n body rs ts ls bs :
    begins_block kw h n -> (0 < n)%Z -> block_body kw body rs ts -> bin_blocks kw ls bs ->
    bin_blocks kw (h :: body ++ ls) ((n, rs, ts) :: bs).
(** A listing: anything before the first title, then the blocks. *)
Definition bin_listing (kw : str) (lines : list str) (bs : list bin_block) : Prop :=
  exists pre ls, lines = pre ++ ls /\ (forall l n, In l pre -> ~ begins_block kw l n) /\ bin_blocks kw ls bs.
Definition rows_of_block (k : Z) (bs : list bin_block) : list (float * float * float) :=
  concat (map (fun b => if (fst (fst b) =? k)%Z then snd (fst b) else []) bs).
Definition totals_of_block (k : Z) (bs : list bin_block) : list (float * float) :=
  concat (map (fun b => if (fst (fst b) =? k)%Z then snd b else []) bs).
(** [is_last l o]: [o] is the last entry of [l], if there is one. *)
Definition is_last {A} (l : list A) (o : option A) : Prop :=
  match o with None => l = [] | Some x => exists r, l = r ++ [x] end.

(** * Set orders *)
(** [order] only rearranges lists. *)
From Coq Require Import Permutation.
Definition rearranges (order : list str -> list str) : Prop := forall l, Permutation l (order l).

(** Surfaces named in the lines of a tally of type 1. *)
Definition names_surface (l s : str) : Prop :=
  occurs (lit "surface") l /\ exists ws, words l (ws ++ [s]).

(** Lines of a cell tally giving the cells and their volumes or masses, up to the line
    holding a single space. *)
Inductive cell_rows : list str -> list str -> list str -> Prop :=
| cr_end rest : cell_rows ([chr 32] :: rest) [] []
| cr_cells l k cs ls cells vols :
    l <> [chr 32] -> words l (k :: cs) -> (exists a, k = a ++ lit "cell:" /\ ~ In (chr 58) a) ->
    (forall c, In c cs -> ~ In (chr 58) c) ->
    cell_rows ls cells vols -> cell_rows (l :: ls) (cs ++ cells) vols
| cr_vols l vs ls cells vols :
    l <> [chr 32] -> ~ occurs (lit "cell:") l -> words l vs -> vs <> [] ->
    cell_rows ls cells vols -> cell_rows (l :: ls) cells (vs ++ vols).

(** * Printed lines *)
(** Energy, three spaces, value, one space, error. *)
Definition energy_printed (l : str) (r : float * float * float) : Prop :=
  exists e v u, trimmed l (e ++ lit "   " ++ v ++ lit " " ++ u) /\
    ~ In (chr 32) e /\ ~ In (chr 32) v /\ ~ In (chr 32) u /\
    reads e (fst (fst r)) /\ reads v (snd (fst r)) /\ reads u (snd r).
(** Value, one space, error. *)
Definition value_printed (l : str) (r : float * float) : Prop :=
  exists v u, trimmed l (v ++ lit " " ++ u) /\ ~ In (chr 32) v /\ ~ In (chr 32) u /\
    reads v (fst r) /\ reads u (snd r).

(** Results of surfaces: a title, then the value; lines without the word surface around. *)
Definition surface_title (l s : str) : Prop := prefix_of (lit " surface ") l /\ exists ws, words l (ws ++ [s]).
Inductive surface_values : list str -> list (str * (float * float)) -> Prop :=
| sv_end gap : none_of (occurs (lit "surface")) gap -> surface_values gap []
| sv_one gap h s l r ls rs :
    none_of (occurs (lit "surface")) gap -> surface_title h s -> value_printed l r ->
    ~ occurs (lit "surface") l -> surface_values ls rs ->
    surface_values (gap ++ h :: l :: ls) ((s, r) :: rs).

(** Values of cells: the line after the first one naming the cell. *)
Definition names_cell (c l : str) : Prop := occurs (chr 32 :: c ++ [chr 32]) l.
Definition cell_value (lines : list str) (c : str) (r : float * float) : Prop :=
  exists i l x u ws, first_index (names_cell c) lines i /\ nth_error lines (S i) = Some l /\
    words l (x :: u :: ws) /\ ~ occurs (lit "time") l /\ ~ In (lit "total") (x :: u :: ws) /\
    reads x (fst r) /\ reads u (snd r).

(** Angle and energy bins: the cosine ending the bin is the last but one word after the colon. *)
Definition angle_line (l : str) (x : float) : Prop :=
  prefix_of (lit " angle  bin") l /\
  exists a b ws w v, l = a ++ chr 58 :: b /\ ~ In (chr 58) a /\ ~ In (chr 58) b /\ words b (ws ++ [w; v]) /\ reads w x.
Definition total_line (l : str) : Prop := prefix_of (lit "      total  ") l.
Definition plain_line (l : str) : Prop :=
  ~ prefix_of (lit " angle  bin") l /\ ~ total_line l /\ l <> lit "      energy   ".
Inductive angle_blocks : list str -> list (float * list (float * float * float)) -> Prop :=
| ab_end gap : Forall plain_line gap -> angle_blocks gap []
| ab_one gap al rows tl x rs ls bs :
    Forall plain_line gap -> angle_line al x -> Forall2 energy_printed rows rs -> Forall plain_line rows ->
    total_line tl -> angle_blocks ls bs ->
    angle_blocks (gap ++ al :: lit "      energy   " :: rows ++ tl :: ls) ((x, rs) :: bs).

(** Distinct entries in the order of their first occurrences. *)
Inductive distinct : list str -> list str -> Prop :=
| di_nil : distinct [] []
| di_old l l' x : distinct l l' -> In x l -> distinct (l ++ [x]) l'
| di_new l l' x : distinct l l' -> ~ In x l -> distinct (l ++ [x]) (l' ++ [x]).
(** The words after the first one of the lines with a time. *)
Inductive time_words : list str -> list str -> Prop :=
| tw_nil : time_words [] []
| tw_skip l ls ts : ~ occurs (lit "time") l -> time_words ls ts -> time_words (l :: ls) ts
| tw_take l w ws ls ts : occurs (lit "time") l -> words l (w :: ws) -> time_words ls ts -> time_words (l :: ls) (ws ++ ts).
(** Title of the volumes of the cells of a tally of type 4, or of the masses (type 6). *)
Definition amounts_text (ty : ascii) : str := if Ascii.eqb ty (chr 52) then lit "           volumes " else lit "           masses ".
