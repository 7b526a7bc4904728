(** Small independent specifications about texts, used in theorem statements. *)
From Verif Require Import PyBase.

(** [words s ws]: [ws] are the maximal runs of non-space characters of [s], in order. *)
Definition blank (s : str) : Prop := Forall (fun c => is_ws c = true) s.
Definition word (w : str) : Prop := w <> [] /\ Forall (fun c => is_ws c = false) w.
Inductive words : str -> list str -> Prop :=
| words_none s : blank s -> words s []
| words_more pre w rest ws :
    blank pre -> word w ->
    (rest = [] \/ exists c r, rest = c :: r /\ is_ws c = true) ->
    words rest ws -> words (pre ++ w ++ rest) (w :: ws).

(** [occurs sub s]: [sub] is a substring of [s]. *)
Definition occurs (sub s : str) : Prop := exists a b, s = a ++ sub ++ b.
Definition prefix_of (p s : str) : Prop := exists t, s = p ++ t.

(** [first_index P l i]: entry [i] of [l] is the first one satisfying [P]. *)
Definition first_index {A} (P : A -> Prop) (l : list A) (i : nat) : Prop :=
  (exists x, nth_error l i = Some x /\ P x) /\
  forall j x, j < i -> nth_error l j = Some x -> ~ P x.

(** [replaced old new s t]: [t] is [s] with every leftmost non-overlapping occurrence of
    the non-empty [old] replaced by [new]. *)
Inductive replaced (old new : str) : str -> str -> Prop :=
| repl_done s : ~ occurs old s -> replaced old new s s
| repl_step a b t :
    (* [old] first occurs right after [a] *)
    (forall a' b', a ++ old ++ b = a' ++ old ++ b' -> List.length a <= List.length a') ->
    replaced old new b t ->
    replaced old new (a ++ old ++ b) (a ++ new ++ t).

(** Line breaking characters. *)
Definition no_break (s : str) : Prop := Forall (fun c => is_line_sep c = false) s.

(** A sublist in order, selected by a decidable predicate on positions. *)
Inductive increasing : list nat -> Prop :=
| inc_nil : increasing []
| inc_one n : increasing [n]
| inc_cons n m l : n < m -> increasing (m :: l) -> increasing (n :: m :: l).

(** [spaced ws s]: [s] is the words [ws] separated by single spaces. *)
Inductive spaced : list str -> str -> Prop :=
| spaced_nil : spaced [] []
| spaced_one w : spaced [w] w
| spaced_cons w v ws s : spaced (v :: ws) s -> spaced (w :: v :: ws) (w ++ chr 32 :: s).

(** The first [num] characters of a line, Python style: a negative [num] leaves out the
    last [-num] characters. *)
Definition head_chars (num : Z) (l : str) : str :=
  if (num <? 0)%Z then firstn (List.length l - Z.to_nat (- num)) l
  else firstn (Z.to_nat num) l.

(** [detabbed n s t]: [t] is [s] with every tab replaced by [n] spaces. *)
Inductive detabbed (n : nat) : str -> str -> Prop :=
| detab_nil : detabbed n [] []
| detab_tab s t : detabbed n s t -> detabbed n (chr 9 :: s) (repeat (chr 32) n ++ t)
| detab_other c s t : c <> chr 9 -> detabbed n s t -> detabbed n (c :: s) (c :: t).
