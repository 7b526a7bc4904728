(** The summary of a FISPACT output as a data frame. *)
From Coq Require Import Floats.SpecFloat.
From Verif Require Import PyBase PyFloat PyTable M_fisout.

(** fispact_output_reader.py:341-365: the columns of the frame.  The columns of uncertainties
    are never filled: their cells are None, here NaN. *)
Definition summary_names : list str :=
  map lit ["time_years"; "act"; "dose_rate"; "heating"; "ingestion"; "inhalation"; "tritium"; "act_un"; "dr_un"; "heat_un";
           "ing_un"; "inhal_un"; "is_cooling"; "time_days"; "time_hours"; "time_secs"]%string.
Definition summary_cells (r : sum_row * (float * float * float)) : list cell :=
  let '(s, (d, h, c)) := r in
  [CF (time_years s); CF (s_act s); CF (dose_rate s); CF (heating s); CF (ingestion s); CF (inhalation s); CF (tritium s);
   CF S754_nan; CF S754_nan; CF S754_nan; CF S754_nan; CF S754_nan; CB (is_cooling s); CF d; CF h; CF c].
Definition summary_table (sd : summary) : table := Table summary_names (enumerate (map summary_cells sd)).
