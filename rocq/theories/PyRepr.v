(** Model of repr() and of the text of lists, dicts and strings in an f-string (CPython
    unicode_repr, list_repr, dict_repr), for characters of Latin-1.  No proofs here. *)
From Verif Require Import PyBase.

Definition hex_digit (n : N) : ascii := if (n <? 10)%N then chr (48 + n) else chr (87 + n).
(** Printable characters of Latin-1. *)
Definition printable (c : ascii) : bool :=
  let n := code c in ((32 <=? n) && (n <? 127) || (161 <=? n) && negb (n =? 173))%N%bool.
(** One character inside quotes [q]. *)
Definition esc (q c : ascii) : str :=
  if Ascii.eqb c q || Ascii.eqb c (chr 92) then [chr 92; c]
  else if Ascii.eqb c (chr 9) then [chr 92; chr 116]
  else if Ascii.eqb c (chr 10) then [chr 92; chr 110]
  else if Ascii.eqb c (chr 13) then [chr 92; chr 114]
  else if printable c then [c]
  else [chr 92; chr 120; hex_digit (code c / 16); hex_digit (code c mod 16)].
(** Single quotes, unless the text has single quotes and no double quotes. *)
Definition quote_of (s : str) : ascii :=
  if existsb (Ascii.eqb (chr 39)) s && negb (existsb (Ascii.eqb (chr 34)) s) then chr 34 else chr 39.
Definition repr_str (s : str) : str := let q := quote_of s in q :: concat (map (esc q) s) ++ [q].
Definition repr_list {A} (f : A -> str) (l : list A) : str := lit "[" ++ join (lit ", ") (map f l) ++ lit "]".
Definition repr_dict {K V} (f : K -> str) (g : V -> str) (d : list (K * V)) : str :=
  lit "{" ++ join (lit ", ") (map (fun kv => f (fst kv) ++ lit ": " ++ g (snd kv)) d) ++ lit "}".
