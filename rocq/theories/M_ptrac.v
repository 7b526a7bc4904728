(** mcnp_ptrac_reader.py and fispact_input_reader.py. *)
From Verif Require Import PyBase PyFloat PyFs M_util.

(** Values an event field can hold; Python ints are written as floats. *)
Inductive pv : Type := VNum (x : float) | VStr (s : str) | VNone.
(** Python's [==] on them. *)
Definition pv_eqb (a b : pv) : bool :=
  match a, b with
  | VNum x, VNum y => feq x y
  | VStr s, VStr t => str_eqb s t
  | VNone, VNone => true
  | _, _ => false
  end.

(** mcnp_ptrac_reader.py:21-36. *)
Record event : Type := Event {
  ev_x : pv; ev_y : pv; ev_z : pv; ev_type : pv; ev_u : pv; ev_v : pv; ev_w : pv;
  ev_wgt : pv; ev_energy : pv; ev_par : pv; ev_cell : pv; ev_time : pv }.
Definition new_event : event :=
  let n k := VNum (f_of_Z k) in
  Event (n 0%Z) (n 0%Z) (n 0%Z) (VStr []) (n 0%Z) (n 0%Z) (n 0%Z) (n 1%Z) (n 1%Z) (n 1%Z) VNone (n 0%Z).

(** mcnp_ptrac_reader.py:11-18. *)
Record history : Type := History { h_nps : Z; h_events : list event }.

(** The other operand of a comparison: an event or anything else. *)
Inductive operand : Type := OpEvent (e : event) | OpOther.
(** What [__eq__] returns: a bool, or the exception class NotImplementedError. *)
Inductive eq_result : Type := EqBool (b : bool) | EqClass.
(** mcnp_ptrac_reader.py:38-68. *)
Definition event_eq (self : event) (other : operand) : eq_result :=
  match other with
  | OpOther => EqClass
  | OpEvent o =>
      if negb (pv_eqb (ev_x self) (ev_x o)) then EqBool false
      else if negb (pv_eqb (ev_y self) (ev_y o)) then EqBool false
      else if negb (pv_eqb (ev_z self) (ev_z o)) then EqBool false
      else if negb (pv_eqb (ev_type self) (ev_type o)) then EqBool false
      else if negb (pv_eqb (ev_u self) (ev_u o)) then EqBool false
      else if negb (pv_eqb (ev_v self) (ev_v o)) then EqBool false
      else if negb (pv_eqb (ev_w self) (ev_w o)) then EqBool false
      else if negb (pv_eqb (ev_wgt self) (ev_wgt o)) then EqBool false
      else if negb (pv_eqb (ev_par self) (ev_par o)) then EqBool false
      else if negb (pv_eqb (ev_cell self) (ev_cell o)) then EqBool false
      else if negb (pv_eqb (ev_time self) (ev_time o)) then EqBool false
      else if negb (pv_eqb (ev_energy self) (ev_energy o)) then EqBool false
      else EqBool true
  end.
(** [if a == b:] takes the branch; a class is truthy. *)
Definition eq_holds (self : event) (other : operand) : bool :=
  match event_eq self other with EqBool b => b | EqClass => true end.
(** [a != b]: the inherited [__ne__] negates the result of [__eq__]. *)
Definition ne_holds (self : event) (other : operand) : bool := negb (eq_holds self other).

(** mcnp_ptrac_reader.py:71-75. *)
Definition remove_header (lines : list str) : list str * list str :=
  (slice_to 9 lines, slice_from 9 lines).

(** mcnp_ptrac_reader.py:78-90; an entry of the list may be None (process_tracks), whose
    [.events] raises. *)
Definition mean_num_events (hists : list (option history)) : res float :=
  let n_hist := f_of_Z (zlen hists) in
  do n_events <- foldM (fun n h => match h with
                                   | Some hist => Ok (n + zlen (h_events hist))%Z
                                   | None => Err AttributeError
                                   end) hists 0%Z;
  py_fdiv (f_of_Z n_events) n_hist.

(** mcnp_ptrac_reader.py:93-139. *)
Definition process_event (event_data : list str) : res event :=
  do d <- mapM py_float event_data;
  do type <- py_nth d 0%Z;
  let at_ (k : Z) : res pv := rmap VNum (py_nth d k) in
  if (zlen d =? 16)%Z then
    do cell <- at_ 2%Z; do x <- at_ 7%Z; do y <- at_ 8%Z; do z <- at_ 9%Z;
    do u <- at_ 10%Z; do v <- at_ 11%Z; do w <- at_ 12%Z;
    do wgt <- at_ 14%Z; do energy <- at_ 13%Z; do par <- at_ 3%Z; do time <- at_ 15%Z;
    Ok (Event x y z (VNum type) u v w wgt energy par cell time)
  else if (zlen d =? 15)%Z then
    do cell <- at_ 2%Z; do x <- at_ 6%Z; do y <- at_ 7%Z; do z <- at_ 8%Z;
    do u <- at_ 9%Z; do v <- at_ 10%Z; do w <- at_ 11%Z;
    do wgt <- at_ 13%Z; do energy <- at_ 12%Z; do par <- at_ 3%Z; do time <- at_ 14%Z;
    Ok (Event x y z (VNum type) u v w wgt energy par cell time)
  else
    do cell <- at_ 3%Z; do x <- at_ 8%Z; do y <- at_ 9%Z; do z <- at_ 10%Z;
    do u <- at_ 11%Z; do v <- at_ 12%Z; do w <- at_ 13%Z;
    do wgt <- at_ 15%Z; do energy <- at_ 14%Z; do par <- at_ 4%Z; do time <- at_ 16%Z;
    Ok (Event x y z (VNum type) u v w wgt energy par cell time).

(** State of the loop mcnp_ptrac_reader.py:148-151: the finished histories, the current
    one, and [temp_line] ([None] is the initial text "", to which a list cannot be added). *)
Definition tracks_state : Type := list (option history) * option history * option (list str).
(** mcnp_ptrac_reader.py:154-177. *)
Definition tracks_step (st : tracks_state) (l : str) : res tracks_state :=
  let '(histories, cur, temp) := st in
  let line := split_on c_space (string_cleaner l) in
  let n := zlen line in
  if (n =? 2)%Z || (n =? 3)%Z then
    let histories := match cur with Some h => histories ++ [Some h] | None => histories end in
    do w <- py_nth line 0%Z;
    do nps <- py_int w;
    Ok (histories, Some (History nps []), temp)
  else if (n =? 9)%Z then
    match temp with
    | None => Err TypeError
    | Some t =>
        let t := t ++ line in
        do ev <- process_event t;
        match cur with
        | None => Err AttributeError
        | Some h => Ok (histories, Some (History (h_nps h) (h_events h ++ [ev])), Some t)
        end
    end
  else Ok (histories, cur, Some line).
(** mcnp_ptrac_reader.py:142-182. *)
Definition process_tracks (tracks : list str) : res (list (option history)) :=
  do st <- foldM tracks_step tracks ([], None, None);
  let '(histories, cur, _) := st in
  Ok (histories ++ [cur]).

(** mcnp_ptrac_reader.py:185-198. *)
Definition read_ptrac (f : fs) (p : path) : res (list (option history)) :=
  do data <- get_lines f p;
  let '(_, tracks) := remove_header data in
  process_tracks tracks.

(** os.path.exists / os.path.isfile. *)
Definition path_exists (f : fs) (p : path) : bool :=
  match walk f [] p with
  | Err _ => false
  | Ok _ => match p with [] => true | _ :: _ => match f p with Some _ => true | None => false end end
  end.
Definition path_isfile (f : fs) (p : path) : bool := path_exists f p && negb (is_dir f p).
(** fispact_input_reader.py:27-40. *)
Definition read_fispact_input (f : fs) (fpath : path) : res (list str) :=
  if negb (path_exists f fpath) then Err FileNotFoundError
  else if negb (path_isfile f fpath) then Err ValueError
  else match get_lines f fpath with
       | Ok ifile => Ok ifile
       | Err _ => Err OSError
       end.
(** fispact_input_reader.py:12-24: the three extractors return None whatever the lines. *)
Definition get_irrad_profile (lines : list str) : option unit := None.
Definition get_cool_times (lines : list str) : option unit := None.
Definition get_comments (lines : list str) : option unit := None.
