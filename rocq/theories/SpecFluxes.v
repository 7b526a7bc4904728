(** Specifications used by the properties of the FISPACT fluxes writer, the ptrac reader and
    the FISPACT input reader. *)
From Coq Require Import Reals.
From Verif Require Import PyBase PyFloat PyFs SpecStr SpecUtil FloatR M_fluxes M_ptrac.

(** Strictly descending boundaries. *)
Definition descending (gs : list float) : Prop :=
  forall i j a b, i < j -> nth_error gs i = Some a -> nth_error gs j = Some b -> flt b a = true.
(** The group an energy belongs to: bin i goes from boundary i down to, but not including,
    boundary i+1; energies outside go to the first and to the last bin. *)
Inductive group_of (gs : list float) (e : float) : nat -> Prop :=
| go_above g : nth_error gs 0 = Some g -> flt g e = true -> group_of gs e 0
| go_below g : nth_error gs (List.length gs - 1) = Some g -> fle e g = true -> group_of gs e (List.length gs - 2)
| go_bin i hi lo : nth_error gs i = Some hi -> nth_error gs (S i) = Some lo ->
    fle e hi = true -> flt lo e = true -> group_of gs e i.
(** The number an energy argument stands for. *)
Definition energy_is (a : energy_arg) (e : float) : Prop :=
  a = ENum e \/ exists s, a = EText s /\ py_float s = Ok e.

(** 1 at position i and at the end (position n), 0 elsewhere; n+1 entries. *)
Definition one_hot (n i : nat) (l : list float) : Prop :=
  List.length l = S n /\
  forall j x, nth_error l j = Some x -> x = (if (j =? i) || (j =? n) then f_of_Z 1 else f_of_Z 0).
(** n strictly descending positive boundaries from [top] to [bottom]. *)
Definition ladder (n : nat) (top bottom : float) (gs : list float) : Prop :=
  List.length gs = n /\ descending gs /\
  nth_error gs 0 = Some top /\ nth_error gs (n - 1) = Some bottom /\
  Forall (fun g => flt (f_of_Z 0) g = true /\ is_finite_f g = true) gs.
(** [n] numbers going down from [a] in equal steps. *)
Fixpoint going_down (a step : Z) (n : nat) : list Z :=
  match n with O => [] | S n => a :: going_down (a - step)%Z step n end.
(** The fiftieth root of 10, to the power [k], to three digits: [m] hundredths (times the
    decades of [k]).  Half a hundredth to either side lie on different sides of it. *)
Definition three_digits (k m : Z) : Prop :=
  (100 <= m < 1000 /\ (2 * m - 1) ^ 50 < 200 ^ 50 * 10 ^ (k mod 50) < (2 * m + 1) ^ 50)%Z.
Definition nondecreasing (l : list float) : Prop :=
  forall i a b, nth_error l i = Some a -> nth_error l (S i) = Some b -> fle a b = true.

(** Position of the cell, of the particle and of the first coordinate among the [n] values
    of a ptrac event. *)
Inductive layout : nat -> nat -> nat -> nat -> Prop :=
| lay15 : layout 15 2 3 6
| lay16 : layout 16 2 3 7
| lay17 n : 17 <= n -> layout n 3 4 8.
(** The event made of the values: the type first; x y z u v w energy weight time in this
    order from the first coordinate on. *)
Definition event_of (vals : list float) (ev : event) : Prop :=
  exists c p k, layout (List.length vals) c p k /\
  let at_ n v := exists x, nth_error vals n = Some x /\ v = VNum x in
  at_ 0 (ev_type ev) /\ at_ c (ev_cell ev) /\ at_ p (ev_par ev) /\
  at_ k (ev_x ev) /\ at_ (k + 1) (ev_y ev) /\ at_ (k + 2) (ev_z ev) /\
  at_ (k + 3) (ev_u ev) /\ at_ (k + 4) (ev_v ev) /\ at_ (k + 5) (ev_w ev) /\
  at_ (k + 6) (ev_energy ev) /\ at_ (k + 7) (ev_wgt ev) /\ at_ (k + 8) (ev_time ev).
Definition numbers (ws : list str) (vals : list float) : Prop :=
  Forall2 (fun w v => py_float w = Ok v) ws vals.

(** How a history is written: a line with two or three words, the first one the history
    number, then two lines for each event, the second one with nine words and the first
    one with another number of words that is not two or three. *)
Definition head_line (nps : Z) (l : str) : Prop :=
  exists w v u, (words l [w; v] \/ words l [w; v; u]) /\ py_int w = Ok nps.
Definition event_lines (ev : event) (l1 l2 : str) : Prop :=
  exists w1 w2 vals, words l1 w1 /\ words l2 w2 /\
  ~ In (List.length w1) [2; 3; 9] /\ List.length w2 = 9 /\
  numbers (w1 ++ w2) vals /\ event_of vals ev.
Inductive events_text : list event -> list str -> Prop :=
| et_nil : events_text [] []
| et_cons ev evs l1 l2 ls : event_lines ev l1 l2 -> events_text evs ls -> events_text (ev :: evs) (l1 :: l2 :: ls).
Inductive body_text : list history -> list str -> Prop :=
| bt_nil : body_text [] []
| bt_cons h hs l ls ls' : head_line (h_nps h) l -> events_text (h_events h) ls -> body_text hs ls' ->
    body_text (h :: hs) (l :: ls ++ ls').

(** Equal values; a NaN equals nothing. *)
Inductive same_value : pv -> pv -> Prop :=
| sv_num x y : feq x y = true -> same_value (VNum x) (VNum y)
| sv_str s : same_value (VStr s) (VStr s)
| sv_none : same_value VNone VNone.
Definition fields (e : event) : list pv :=
  [ev_x e; ev_y e; ev_z e; ev_type e; ev_u e; ev_v e; ev_w e; ev_wgt e; ev_energy e; ev_par e; ev_cell e; ev_time e].
Definition no_nan (e : event) : Prop := forall x, In (VNum x) (fields e) -> is_nan_f x = false.

Definition total_events (hs : list history) : nat := list_sum (map (fun h => List.length (h_events h)) hs).
