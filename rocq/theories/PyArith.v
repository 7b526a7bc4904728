(** Arithmetic used by the numeric code, as a parameter: the same model text is read in
    binary64 and in the reals.  [ndiv] is Python's [/], which raises on a zero divisor;
    [ndec m e] is the literal m*10^e. *)
From Verif Require Import PyBase PyFloat.

Record arith : Type := Arith {
  num : Type;
  nadd : num -> num -> num;
  nsub : num -> num -> num;
  nmul : num -> num -> num;
  ndiv : num -> num -> res num;
  ndec : Z -> Z -> num
}.

(** Python floats. *)
Definition FA : arith := Arith float fadd fsub fmul py_fdiv fdec.
