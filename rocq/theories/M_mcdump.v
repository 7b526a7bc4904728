(** mcnp_output_reader.py: the file effects of reading an output file.  The results are the
    ones of M_mcout.v; here the debug copies that read_tally makes on its way are added.
    [debug]: whether the effective level of the root logger is DEBUG; [cwd]: the working
    directory.  The number of a tally is the text of its title, and int() has accepted it
    before the copy is made, so that it has no path separator. *)
From Verif Require Import PyBase PyFloat PyFs PyIo M_util M_mcout.

(** mcnp_output_reader.py:375-387, as called in line 628. *)
Definition debug_copy (debug : bool) (cwd : path) (lines : list str) (tnum : str) : io unit :=
  if debug then io_write (fun f => write_lines f (cwd ++ [lit "tally_test" ++ tnum ++ lit ".txt"]) lines) else io_ret tt.

(** mcnp_output_reader.py:569-625: number, type, particle, nps and the lines of the section. *)
Definition tally_head (lines : list str) (tnum : str) : res (Z * ascii * str * nps_val * list str) :=
  let term_line := match find_term_line lines with Some i => Some i | None => find_last_rendevous lines end in
  let lines := match term_line with Some i => slice_from (Z.of_nat i) lines | None => lines end in
  let fline := lit "1tally" ++ rep_chr c_space (9 - zlen tnum) in
  do start <- find_line (fline ++ tnum) lines 15;
  let start := Z.of_nat start in
  do l1 <- py_nth lines (start + 1);
  do c1 <- py_nth l1 0%Z;
  let comment := Ascii.eqb c1 (chr 43) in
  do lt <- py_nth lines (start + (if comment then 2 else 1));
  do tally_type <- py_nth lt 22%Z;
  do number <- py_int tnum;
  do lp <- py_nth lines (start + (if comment then 3 else 2));
  let particle := string_cleaner (slice_btw 24 33 lp) in
  do l0 <- py_nth lines start;
  let nps := string_cleaner (slice_btw 28 40 l0) in
  let nps := match py_int nps with Ok z => NpsInt z | Err _ => NpsText nps end in
  let lines := slice_from (start + 1) lines in
  do tal_end <- find_line (lit "1tally") lines 6;
  let lines := slice_to (Z.of_nat tal_end - 1) lines in
  Ok (number, tally_type, particle, nps, lines).
(** mcnp_output_reader.py:639-648. *)
Definition tally_body (order : list str -> list str) (tally_type : ascii) (lines : list str) : res tbody :=
  if Ascii.eqb tally_type (chr 52) || Ascii.eqb tally_type (chr 54) then read_type_cell tally_type lines
  else if Ascii.eqb tally_type (chr 53) then read_type_5 lines
  else if Ascii.eqb tally_type (chr 49) || Ascii.eqb tally_type (chr 50) then read_type_surface order tally_type lines
  else if Ascii.eqb tally_type (chr 56) then read_type_8 lines
  else Ok empty_body.
(** mcnp_output_reader.py:569-655. *)
Definition read_tally_io (debug : bool) (cwd : path) (order : list str -> list str) (lines : list str) (tnum : str) : io tally :=
  run h <- io_lift (tally_head lines tnum);
  let '(number, tally_type, particle, nps, lines) := h in
  run u <- debug_copy debug cwd lines tnum;
  run body <- io_lift (tally_body order tally_type lines);
  io_ret (Tally number tally_type particle nps body).

(** mcnp_output_reader.py:1265-1266, the loop over the tallies. *)
Fixpoint read_tallies_io (debug : bool) (cwd : path) (order : list str -> list str) (lines : list str) (tnums : list str) : io (list tally) :=
  match tnums with
  | [] => io_ret []
  | tnum :: rest =>
      run t <- read_tally_io debug cwd order lines tnum;
      run ts <- read_tallies_io debug cwd order lines rest;
      io_ret (t :: ts)
  end.
(** mcnp_output_reader.py:1239-1270. *)
Definition read_output_file_io (debug : bool) (cwd : path) (torder sorder : list str -> list str) (p : path) : io mcnp_output :=
  run data <- io_read (fun f => get_lines f p);
  run dt <- io_lift (read_run_date data);
  let '(comments, warnings) := read_comments_warnings data in
  let tables := get_table_dict data in
  run t60 <- io_lift (match dict_get str_eqb (lit "60") tables with
            | Some i => rmap Some (read_table60 data (Z.of_nat i))
            | None => Ok None
            end);
  run t101 <- io_lift (match dict_get str_eqb (lit "101") tables with
             | Some i => rmap Some (read_table101 data (Z.of_nat i))
             | None => Ok None
             end);
  run tls <- io_lift (get_tally_nums data);
  run tallies <- read_tallies_io debug cwd sorder data (torder tls);
  io_ret (McnpOutput p (read_version data) (fst dt) (snd dt) comments warnings (count_rendevous data)
        (check_fatal data) tables t60 t101 tallies (List.length tls)).
