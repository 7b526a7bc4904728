(** Specification of the columns of the FISPACT summary. *)
From Verif Require Import PyBase PyFloat M_fisout SpecFisana.

(** The value of a row of the summary under the name of a column. *)
Inductive shows : str -> sum_row * (float * float * float) -> float -> Prop :=
| sh_years s t : shows (lit "time_years") (s, t) (time_years s)
| sh_act s t : shows (lit "act") (s, t) (s_act s)
| sh_dose s t : shows (lit "dose_rate") (s, t) (dose_rate s)
| sh_heat s t : shows (lit "heating") (s, t) (heating s)
| sh_ing s t : shows (lit "ingestion") (s, t) (ingestion s)
| sh_inh s t : shows (lit "inhalation") (s, t) (inhalation s)
| sh_trit s t : shows (lit "tritium") (s, t) (tritium s)
| sh_days s d h c : shows (lit "time_days") (s, (d, h, c)) d
| sh_hours s d h c : shows (lit "time_hours") (s, (d, h, c)) h
| sh_secs s d h c : shows (lit "time_secs") (s, (d, h, c)) c.
(** The column of times for a unit: a letter or a word, without case. *)
Inductive unit_column : str -> str -> Prop :=
| uc_secs u : spells u "s" \/ spells u "seconds" -> unit_column u (lit "time_secs")
| uc_days u : spells u "d" \/ spells u "days" -> unit_column u (lit "time_days")
| uc_hours u : spells u "h" \/ spells u "hours" \/ spells u "hrs" -> unit_column u (lit "time_hours")
| uc_years u : spells u "y" \/ spells u "yrs" \/ spells u "years" -> unit_column u (lit "time_years").
