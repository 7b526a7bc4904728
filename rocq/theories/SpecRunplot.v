(** What the screen output of an MCNP run says. *)
From Verif Require Import PyBase PyFloat SpecStr SpecOutput.

(** The three kinds of lines that report on the run. *)
Definition reports_time (l : str) : Prop := occurs (lit "ctm") l.
Definition reports_dump (l : str) : Prop := occurs (lit "dump") l.
Definition reports_rendezvous (l : str) : Prop := occurs (lit "master set rendezvous") l.
Definition quiet (l : str) : Prop := ~ reports_time l /\ ~ reports_dump l /\ ~ reports_rendezvous l.

Definition time_line (l : str) (ctm : float) (nrn : Z) : Prop :=
  reports_time l /\ ~ reports_dump l /\ ~ reports_rendezvous l /\
  py_float (columns 6 18 l) = Ok ctm /\ py_int (columns 26 44 l) = Ok nrn.
Definition dump_line (l : str) (coll : Z) : Prop :=
  reports_dump l /\ ~ reports_time l /\ ~ reports_rendezvous l /\ py_int (columns 61 78 l) = Ok coll.
Definition rendezvous_line {T} (date : str -> res T) (l : str) (nps : Z) (t : T) : Prop :=
  reports_rendezvous l /\ ~ reports_time l /\ ~ reports_dump l /\
  py_int (columns 28 40 l) = Ok nps /\ date (columns 66 83 l) = Ok t.

(** One stage of the run: the rendezvous that was set, and what was reported when it was reached. *)
Record stage (T : Type) : Type := mkStage { st_time : T; st_nps : Z; st_ctm : float; st_nrn : Z; st_coll : Z }.
Arguments mkStage {T}. Arguments st_time {T}. Arguments st_nps {T}. Arguments st_ctm {T}. Arguments st_nrn {T}. Arguments st_coll {T}.

(** [stages date l ss]: the lines [l] report the stages [ss], one after the other, with any
    quiet lines between. *)
Inductive stages {T} (date : str -> res T) : list str -> list (stage T) -> Prop :=
| stages_end q : Forall quiet q -> stages date q []
| stages_more q r q' c q'' d rest s ss :
    Forall quiet q -> rendezvous_line date r (st_nps s) (st_time s) ->
    Forall quiet q' -> time_line c (st_ctm s) (st_nrn s) ->
    Forall quiet q'' -> dump_line d (st_coll s) ->
    stages date rest ss ->
    stages date (q ++ r :: q' ++ c :: q'' ++ d :: rest) (s :: ss).

(** The start of the run reports a time and a dump before any rendezvous is set. *)
Definition start (l : list str) : Prop :=
  exists q c q' d x n y, l = q ++ c :: q' ++ [d] /\ Forall quiet q /\ time_line c x n /\ Forall quiet q' /\ dump_line d y.

(** The line that reports a dump: the number of the dump, the name of the run file, the number
    of histories and the number of collisions, right justified in 5, 12 and 17 columns.  The
    name of the file takes as many columns as it has characters. *)
Definition right_justified (w : nat) (s t : str) : Prop :=
  exists k, k + List.length s = w /\ t = repeat (chr 32) k ++ s.
Definition dump_text (number : N) (name : str) (nps coll : N) (l : str) : Prop :=
  exists a b c, right_justified 5 (str_of_N number) a /\ right_justified 12 (str_of_N nps) b /\
    right_justified 17 (str_of_N coll) c /\
    l = lit " dump" ++ a ++ lit " on file " ++ name ++ lit "   nps =" ++ b ++ lit "   coll =" ++ c.
