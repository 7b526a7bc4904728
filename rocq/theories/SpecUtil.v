(** Specifications used by the properties of neut_utilities. *)
From Verif Require Import PyBase PyFloat PyFs M_util.
From Coq Require Import Floats.SpecFloat.

(** The path can be opened for writing: its proper ancestors are directories and it is
    not a directory itself. *)
Definition openable (f : fs) (p : path) : Prop :=
  p <> [] /\ f p <> Some Dir /\
  forall a b, p = a ++ b -> a <> [] -> b <> [] -> f a = Some Dir.

(** Every entry lies in a directory. *)
Definition wf_fs (f : fs) : Prop :=
  forall p x, f (p ++ [x]) <> None -> p = [] \/ f p = Some Dir.

(** Floating-point zero of either sign. *)
Definition fp_zero (x : float) : Prop := exists s, x = S754_zero s.

(** Lengths met when following first elements down to a non-list. *)
Inductive first_branch : pyval -> list nat -> Prop :=
| fb_leaf : first_branch PyLeaf []
| fb_list x xs ds : first_branch x ds -> first_branch (PyList (x :: xs)) (S (List.length xs) :: ds).
(** Following first elements ends in an empty list. *)
Inductive dead_end : pyval -> Prop :=
| de_nil : dead_end (PyList [])
| de_list x xs : dead_end x -> dead_end (PyList (x :: xs)).

(** A logger handler that writes to the console / to a file. *)
Definition is_console {L} (h : handler L) : bool := match h with Console _ => true | _ => false end.
Definition is_filelog {L} (h : handler L) : bool := match h with Rotating _ _ => true | _ => false end.
Definition count {A} (p : A -> bool) (l : list A) : nat := List.length (filter p l).

(** Each line followed by a newline. *)
Definition full_text (lines : list str) : str := concat (map (fun l => l ++ [c_nl]) lines).
(** The three newline conventions. *)
Definition terminator (t : str) : Prop := t = [c_nl] \/ t = [c_cr; c_nl] \/ t = [c_cr].
(** Every non-empty prefix of the path is a directory. *)
Definition all_dirs (f : fs) (p : path) : Prop := forall a b, p = a ++ b -> a <> [] -> f a = Some Dir.
(** Text as read in text mode: "\r\n" and lone "\r" become "\n". *)
Inductive nl_translated : str -> str -> Prop :=
| nlt_nil : nl_translated [] []
| nlt_crlf s t : nl_translated s t -> nl_translated (chr 13 :: chr 10 :: s) (chr 10 :: t)
| nlt_cr s t : (forall s', s <> chr 10 :: s') -> nl_translated s t -> nl_translated (chr 13 :: s) (chr 10 :: t)
| nlt_other c s t : c <> chr 13 -> nl_translated s t -> nl_translated (c :: s) (c :: t).
(** Number of tabs in a line. *)
Definition tabs (s : str) : nat := count (fun c => Ascii.eqb c (chr 9)) s.
