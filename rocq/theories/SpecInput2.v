(** More specifications for the properties of mcnp_input_reader: words of a cell card that
    are not geometry entries of the simple kind. *)
From Verif Require Import PyBase PyFloat SpecStr M_input SpecInput.

(** A line starting in column one. *)
Definition column_one (l : str) : Prop := exists a r, l = a :: r /\ is_ws a = false.
(** A word whose first character, brackets and signs aside, is not a digit, and that neither
    mentions an importance nor starts a comment. *)
Definition texty (w : str) : Prop :=
  word w /\ ~ In (chr 36) w /\ ~ occurs (lit "imp") (lower w) /\
  exists L a r, w = L ++ a :: r /\ brackets L /\ ~ In a (lit "()-") /\ is_digit a = false.
(** The whole numbers among the words of a comment. *)
Inductive comment_numbers : list str -> list Z -> Prop :=
| cmn_nil : comment_numbers [] []
| cmn_text w ws ns : texty w -> comment_numbers ws ns -> comment_numbers (w :: ws) ns
| cmn_number n ws ns : (0 <= n)%Z -> comment_numbers ws ns -> comment_numbers (str_of_Z n :: ws) (n :: ns).
(** The surfaces a simple cell card mentions. *)
Definition card_surfaces (c : cell_card) : list Z := concat (map gtok_surfaces (cc_geom c)).
(** A line of a table given as pairs, several on a line. *)
Definition pair_line (l : str) (ps : list (str * str)) : Prop := words l (concat (map (fun p => [fst p; snd p]) ps)).

(** Empty lines and lines starting with a blank. *)
Definition indented (l : str) : Prop := l = [] \/ exists r, l = chr 32 :: r.
