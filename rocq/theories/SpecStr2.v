(** Specification for the text forms of surfaces, cells and materials. *)
From Verif Require Import PyBase PyFloat M_input.

(** What is assumed of repr() of a float: different floats have different texts, no text is empty, and a text
    has no comma, colon, bracket, brace or line break. *)
Definition repr_float (show : float -> str) : Prop :=
  (forall x y, show x = show y -> x = y) /\ (forall x, show x <> []) /\
  (forall x c, In c (show x) -> ~ In c [chr 44; chr 58; chr 93; chr 125; chr 10]).
(** A text of one line. *)
Definition one_line (s : str) : Prop := ~ In (chr 10) s.
(** A surface as the reader makes it. *)
Definition surface_read (s : surface) : Prop := one_line (s_type s) /\
  match s_transform s with Some t => s_has_transform s = true /\ one_line t | None => s_has_transform s = false end.
(** The number of lines of a text. *)
Definition lines_of (s : str) (n : nat) : Prop := S (count_occ Ascii.ascii_dec s (chr 10)) = n.
