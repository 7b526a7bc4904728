(** Python runtime, part 1: exceptions as values, the error monad, characters and
    strings.  Definitions only; facts are in [PyFacts*.v]. *)
From Coq Require Export String Ascii ZArith NArith Bool List.
Export ListNotations.
Close Scope string_scope.
Open Scope list_scope.
Open Scope bool_scope.

(** Exceptions raised by the modelled code.  Messages are not modelled. *)
Inductive exn : Set :=
| ValueError | IndexError | KeyError | TypeError | AttributeError
| ZeroDivisionError | FileNotFoundError | FileExistsError | IsADirectoryError
| NotADirectoryError | OSError | UnboundLocalError | StopIteration
| NotImplementedError.

Inductive res (A : Type) : Type :=
| Ok (a : A)
| Err (e : exn).
Arguments Ok {A} a.
Arguments Err {A} e.

Definition bind {A B} (r : res A) (f : A -> res B) : res B :=
  match r with Ok a => f a | Err e => Err e end.
Definition rmap {A B} (f : A -> B) (r : res A) : res B :=
  match r with Ok a => Ok (f a) | Err e => Err e end.
Notation "'do' x <- r ; k" := (bind r (fun x => k))
  (at level 200, x name, r at level 100, k at level 200, right associativity).
Notation "'do' ' p <- r ; k" := (bind r (fun p => k))
  (at level 200, p pattern, r at level 100, k at level 200, right associativity).

(** A comprehension [[f(x) for x in l]] whose body may raise: the first exception wins. *)
Fixpoint mapM {A B} (f : A -> res B) (l : list A) : res (list B) :=
  match l with
  | [] => Ok []
  | x :: l' => match f x with
               | Err e => Err e
               | Ok y => match mapM f l' with Err e => Err e | Ok ys => Ok (y :: ys) end
               end
  end.

(** A [for] loop with state whose body may raise. *)
Fixpoint foldM {A S} (f : S -> A -> res S) (l : list A) (s : S) : res S :=
  match l with
  | [] => Ok s
  | x :: l' => match f s x with Err e => Err e | Ok s' => foldM f l' s' end
  end.

(** [enumerate(l)], with a start value. *)
Fixpoint enum_from {A} (n : nat) (l : list A) : list (nat * A) :=
  match l with [] => [] | x :: l' => (n, x) :: enum_from (S n) l' end.
Definition enumerate {A} (l : list A) : list (nat * A) := enum_from 0 l.

(** Strings: lists of code points 0..255 (the Latin-1 part of Python [str]). *)
Definition str := list ascii.
Definition lit (s : string) : str := list_ascii_of_string s.
Definition chr (n : N) : ascii := ascii_of_N n.
Definition code (c : ascii) : N := N_of_ascii c.

Fixpoint str_eqb (a b : str) : bool :=
  match a, b with
  | [], [] => true
  | c :: a', d :: b' => Ascii.eqb c d && str_eqb a' b'
  | _, _ => false
  end.

Definition c_space : ascii := chr 32.
Definition c_tab : ascii := chr 9.
Definition c_nl : ascii := chr 10.
Definition c_cr : ascii := chr 13.

(** [str.isspace] / the separators of [str.split()] and [str.strip()] below 256. *)
Definition is_ws (c : ascii) : bool :=
  let n := code c in
  ((9 <=? n) && (n <=? 13) || (28 <=? n) && (n <=? 32) || (n =? 133) || (n =? 160))%N.

(** Line boundaries of [str.splitlines] below 256 (besides the pair \r\n). *)
Definition is_line_sep (c : ascii) : bool :=
  let n := code c in
  ((10 <=? n) && (n <=? 13) || (28 <=? n) && (n <=? 30) || (n =? 133))%N.

(** [str.isdigit] of one character below 256 (includes superscripts 1, 2, 3). *)
Definition is_digit (c : ascii) : bool :=
  let n := code c in
  ((48 <=? n) && (n <=? 57) || (n =? 178) || (n =? 179) || (n =? 185))%N.
(** Decimal digits, the only ones [int]/[float]/[re]'s \d accept below 256. *)
Definition is_decimal (c : ascii) : bool :=
  let n := code c in ((48 <=? n) && (n <=? 57))%N.

(** [str.lower] of one character below 256. *)
Definition lower_c (c : ascii) : ascii :=
  let n := code c in
  if ((65 <=? n) && (n <=? 90) || (192 <=? n) && (n <=? 222) && negb (n =? 215))%N
  then chr (n + 32) else c.
Definition lower (s : str) : str := map lower_c s.

(** [str.upper] restricted to ASCII letters; used only where the argument is compared
    with ASCII names. *)
Definition upper_c (c : ascii) : ascii :=
  let n := code c in
  if ((97 <=? n) && (n <=? 122))%N then chr (n - 32) else c.
Definition upper (s : str) : str := map upper_c s.

(** [str.strip] family. *)
Fixpoint lstrip_by (p : ascii -> bool) (s : str) : str :=
  match s with
  | [] => []
  | c :: s' => if p c then lstrip_by p s' else s
  end.
Fixpoint rstrip_by (p : ascii -> bool) (s : str) : str :=
  match s with
  | [] => []
  | c :: s' => match rstrip_by p s' with
               | [] => if p c then [] else [c]
               | t => c :: t
               end
  end.
Definition lstrip (s : str) : str := lstrip_by is_ws s.
Definition rstrip (s : str) : str := rstrip_by is_ws s.
Definition strip (s : str) : str := rstrip (lstrip s).

(** [s.split()] : runs of non-space characters. *)
Fixpoint split_ws (s : str) : list str :=
  match s with
  | [] => []
  | c :: s' =>
      if is_ws c then split_ws s'
      else match s' with
           | [] => [[c]]
           | d :: _ =>
               if is_ws d then [c] :: split_ws s'
               else match split_ws s' with
                    | w :: ws => (c :: w) :: ws
                    | [] => [[c]]
                    end
           end
  end.

(** [s.split(sep)] for a one-character separator: never empty. *)
Fixpoint split_on (sep : ascii) (s : str) : list str :=
  match s with
  | [] => [[]]
  | c :: s' =>
      if Ascii.eqb c sep then [] :: split_on sep s'
      else match split_on sep s' with
           | w :: ws => (c :: w) :: ws
           | [] => [[c]]
           end
  end.

(** [sep.join(l)]. *)
Fixpoint join (sep : str) (l : list str) : str :=
  match l with
  | [] => []
  | w :: l' => match l' with [] => w | _ :: _ => w ++ sep ++ join sep l' end
  end.

(** [s.startswith(p)], [s.endswith(p)], [sub in s]. *)
Fixpoint starts_with (p s : str) : bool :=
  match p, s with
  | [], _ => true
  | c :: p', d :: s' => Ascii.eqb c d && starts_with p' s'
  | _ :: _, [] => false
  end.
Definition ends_with (p s : str) : bool := starts_with (rev p) (rev s).
Fixpoint contains (sub s : str) : bool :=
  starts_with sub s || match s with [] => false | _ :: s' => contains sub s' end.

(** [s.replace(old, new)]: leftmost non-overlapping occurrences.  [skip] counts the
    characters of a matched occurrence still to be dropped. *)
Fixpoint replace_aux (old new : str) (skip : nat) (s : str) : str :=
  match s with
  | [] => []
  | c :: s' =>
      match skip with
      | S k => replace_aux old new k s'
      | O => if starts_with old s
             then new ++ replace_aux old new (List.length old - 1) s'
             else c :: replace_aux old new 0 s'
      end
  end.
Definition replace (old new s : str) : str :=
  match old with
  | [] => new ++ concat (map (fun c => c :: new) s)
  | _ :: _ => replace_aux old new 0 s
  end.

(** Universal newline translation done by [open(path)] in text mode. *)
Fixpoint univ_nl (s : str) : str :=
  match s with
  | [] => []
  | c :: s' =>
      if Ascii.eqb c c_cr then
        c_nl :: match s' with
                | d :: s'' => if Ascii.eqb d c_nl then univ_nl s'' else univ_nl s'
                | [] => []
                end
      else c :: univ_nl s'
  end.

(** [s.splitlines()]. *)
Fixpoint splitlines_aux (cur : str) (s : str) : list str :=
  match s with
  | [] => match cur with [] => [] | _ :: _ => [rev cur] end
  | c :: s' =>
      if Ascii.eqb c c_cr then
        rev cur :: match s' with
                   | d :: s'' => if Ascii.eqb d c_nl then splitlines_aux [] s''
                                 else splitlines_aux [] s'
                   | [] => []
                   end
      else if is_line_sep c then rev cur :: splitlines_aux [] s'
      else splitlines_aux (c :: cur) s'
  end.
Definition splitlines (s : str) : list str := splitlines_aux [] s.

(** [for line in f]: lines of a text file after newline translation, each keeping its
    terminating newline. *)
Fixpoint file_lines_aux (cur : str) (s : str) : list str :=
  match s with
  | [] => match cur with [] => [] | _ :: _ => [rev cur] end
  | c :: s' => if Ascii.eqb c c_nl then rev (c :: cur) :: file_lines_aux [] s'
               else file_lines_aux (c :: cur) s'
  end.
Definition file_lines (s : str) : list str := file_lines_aux [] s.

(** Sequence indexing and slicing with Python's negative indices. *)
Definition zlen {A} (l : list A) : Z := Z.of_nat (List.length l).
Definition py_nth {A} (l : list A) (i : Z) : res A :=
  let j := (if i <? 0 then i + zlen l else i)%Z in
  if (j <? 0)%Z then Err IndexError
  else match nth_error l (Z.to_nat j) with Some x => Ok x | None => Err IndexError end.
Definition clamp_ix {A} (l : list A) (i : Z) : nat :=
  Z.to_nat (if i <? 0 then Z.max 0 (i + zlen l) else i)%Z.
(** [l[a:b]]; [None] is an omitted bound. *)
Definition slice {A} (a b : option Z) (l : list A) : list A :=
  let lo := match a with None => 0%nat | Some i => clamp_ix l i end in
  let hi := match b with None => List.length l | Some i => clamp_ix l i end in
  skipn lo (firstn hi l).
Definition slice_to {A} (b : Z) (l : list A) := slice None (Some b) l.
Definition slice_from {A} (a : Z) (l : list A) := slice (Some a) None l.
Definition slice_btw {A} (a b : Z) (l : list A) := slice (Some a) (Some b) l.

(** [c * n] for a one-character string. *)
Definition rep_chr (c : ascii) (n : Z) : str := repeat c (Z.to_nat n).

(** Decimal rendering of integers, [str(n)]. *)
Definition digit_chr (d : N) : ascii := chr (48 + d).
Fixpoint dec_rev (fuel : nat) (n : N) : str :=
  match fuel with
  | O => []
  | S f => if (n <? 10)%N then [digit_chr n]
           else digit_chr (n mod 10) :: dec_rev f (n / 10)
  end.
(** Binary size bounds the number of decimal digits, so the fuel never runs out
    (proved: [str_of_N_value]). *)
Definition str_of_N (n : N) : str := rev (dec_rev (S (N.to_nat (N.size n))) n).
Definition str_of_Z (z : Z) : str :=
  match z with
  | Z0 => lit "0"
  | Zpos p => str_of_N (Npos p)
  | Zneg p => chr 45 :: str_of_N (Npos p)
  end.

(** Characters stripped by [int()] and [float()] (CPython: C [isspace] below 127 and
    Unicode spaces above). *)
Definition is_num_ws (c : ascii) : bool :=
  let n := code c in
  ((9 <=? n) && (n <=? 13) || (n =? 32) || (n =? 133) || (n =? 160))%N.

(** Underscores between two digits are dropped, any other underscore is an error. *)
Fixpoint drop_underscores (prev_digit : bool) (s : str) : option str :=
  match s with
  | [] => Some []
  | c :: s' =>
      if (code c =? 95)%N then
        match s' with
        | d :: _ => if prev_digit && is_decimal d then drop_underscores false s' else None
        | [] => None
        end
      else option_map (cons c) (drop_underscores (is_decimal c) s')
  end.

Definition digit_val (c : ascii) : N := (code c - 48)%N.
Definition digits_val (s : str) : N := fold_left (fun a c => 10 * a + digit_val c)%N s 0%N.

Definition take_sign (s : str) : bool * str :=
  match s with
  | c :: s' => if (code c =? 45)%N then (true, s')
               else if (code c =? 43)%N then (false, s') else (false, s)
  | [] => (false, [])
  end.

(** [int(s)] for a string, base 10. The 4300 digit limit of CPython is not modelled. *)
Definition py_int (s : str) : res Z :=
  match drop_underscores false (lstrip_by is_num_ws (rstrip_by is_num_ws s)) with
  | None => Err ValueError
  | Some t =>
      let '(neg, ds) := take_sign t in
      match ds with
      | [] => Err ValueError
      | _ :: _ =>
          if forallb is_decimal ds
          then Ok (if neg then - Z.of_N (digits_val ds) else Z.of_N (digits_val ds))%Z
          else Err ValueError
      end
  end.

(** Insertion-ordered dictionaries. *)
Fixpoint dict_get {K V} (eqb : K -> K -> bool) (k : K) (d : list (K * V)) : option V :=
  match d with
  | [] => None
  | (k', v) :: d' => if eqb k k' then Some v else dict_get eqb k d'
  end.
Fixpoint dict_set {K V} (eqb : K -> K -> bool) (k : K) (v : V) (d : list (K * V))
  : list (K * V) :=
  match d with
  | [] => [(k, v)]
  | (k', v') :: d' => if eqb k k' then (k', v) :: d' else (k', v') :: dict_set eqb k v d'
  end.
Definition dict_has {K V} (eqb : K -> K -> bool) (k : K) (d : list (K * V)) : bool :=
  match dict_get eqb k d with Some _ => true | None => false end.
Definition dict_index {K V} (eqb : K -> K -> bool) (k : K) (d : list (K * V)) : res V :=
  match dict_get eqb k d with Some v => Ok v | None => Err KeyError end.

(** Keep these folded under [cbn]/[simpl]. *)
Arguments slice : simpl never.
Arguments slice_to : simpl never.
Arguments slice_from : simpl never.
Arguments slice_btw : simpl never.
Arguments clamp_ix : simpl never.
Arguments py_nth : simpl never.
Arguments zlen : simpl never.
Arguments lit : simpl never.
Arguments is_ws : simpl never.
Arguments is_line_sep : simpl never.
Arguments is_digit : simpl never.
Arguments is_decimal : simpl never.
Arguments lower_c : simpl never.
Arguments strip : simpl never.
Arguments lstrip : simpl never.
Arguments rstrip : simpl never.
Arguments Ascii.eqb : simpl never.
Arguments code : simpl never.
Arguments chr : simpl never.
