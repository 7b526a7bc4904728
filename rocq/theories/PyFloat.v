(** Python runtime, part 2: IEEE 754 binary64 as the standard library's [spec_float]
    (radix 2, precision 53, emax 1024, round to nearest even) and [float(str)]. *)
From Coq Require Import Floats.SpecFloat.
From Verif Require Import PyBase.

Definition float := spec_float.
Definition prec : Z := 53.
Definition emax : Z := 1024.
Definition valid (x : float) : bool := valid_binary prec emax x.

Definition fadd (x y : float) : float := SFadd prec emax x y.
Definition fsub (x y : float) : float := SFsub prec emax x y.
Definition fmul (x y : float) : float := SFmul prec emax x y.
(** IEEE division (numpy); Python's [/] on floats is [py_fdiv]. *)
Definition fdiv (x y : float) : float := SFdiv prec emax x y.
Definition fabs (x : float) : float := SFabs x.
Definition fopp (x : float) : float := SFopp x.
Definition fsqrt (x : float) : float := SFsqrt prec emax x.
Definition feq (x y : float) : bool := SFeqb x y.
Definition flt (x y : float) : bool := SFltb x y.
Definition fle (x y : float) : bool := SFleb x y.
Definition fzero : float := S754_zero false.
Definition is_nan_f (x : float) : bool := match x with S754_nan => true | _ => false end.
Definition is_finite_f (x : float) : bool :=
  match x with S754_zero _ | S754_finite _ _ _ => true | _ => false end.
Definition is_zero_f (x : float) : bool := match x with S754_zero _ => true | _ => false end.
Definition py_fdiv (x y : float) : res float :=
  if is_zero_f y then Err ZeroDivisionError else Ok (fdiv x y).

(** Correctly rounded [m * 10^e] with a sign. *)
Definition f_of_dec (neg : bool) (m : N) (e : Z) : float :=
  match m with
  | N0 => S754_zero neg
  | Npos p =>
      match e with
      | Zneg k => match (10 ^ Zpos k)%Z with
                  | Zpos q => let '(mz, ez, lz) := SFdiv_core_binary prec emax (Zpos p) 0 (Zpos q) 0 in
                              binary_round_aux prec emax neg mz ez lz
                  | _ => S754_nan (* unreachable: 10^k is positive *)
                  end
      | _ => match (Zpos p * 10 ^ e)%Z with
             | Zpos q => binary_round prec emax neg q 0
             | _ => S754_nan (* unreachable *)
             end
      end
  end.
Definition f_of_Z (z : Z) : float := f_of_dec (z <? 0)%Z (Z.abs_N z) 0.
(** A decimal literal of the source, e.g. [fdec 15 (-1)] for 1.5. *)
Definition fdec (m e : Z) : float := f_of_dec (m <? 0)%Z (Z.abs_N m) e.

(** Longest prefix of decimal digits. *)
Fixpoint span_digits (s : str) : str * str :=
  match s with
  | c :: s' => if is_decimal c then let '(a, b) := span_digits s' in (c :: a, b) else ([], s)
  | [] => ([], [])
  end.

(** Exponent part: empty, or e/E, an optional sign and at least one digit. *)
Definition parse_exp (s : str) : option Z :=
  match s with
  | [] => Some 0%Z
  | c :: s' =>
      if (code c =? 101)%N || (code c =? 69)%N then
        let '(neg, t) := take_sign s' in
        let '(ds, rest) := span_digits t in
        match ds, rest with
        | _ :: _, [] => Some (if neg then - Z.of_N (digits_val ds) else Z.of_N (digits_val ds))%Z
        | _, _ => None
        end
      else None
  end.

Definition parse_unsigned (neg : bool) (s : str) : option float :=
  let l := lower s in
  if str_eqb l (lit "inf") || str_eqb l (lit "infinity") then Some (S754_infinity neg)
  else if str_eqb l (lit "nan") then Some S754_nan
  else
    let '(ip, r) := span_digits s in
    let '(fp, r') := match r with
                     | c :: r1 => if (code c =? 46)%N then span_digits r1 else ([], r)
                     | [] => ([], r)
                     end in
    match ip ++ fp with
    | [] => None
    | ds => match parse_exp r' with
            | None => None
            | Some e => Some (f_of_dec neg (digits_val ds) (e - zlen fp))
            end
    end.

(** [float(s)] for a string. *)
Definition py_float (s : str) : res float :=
  match drop_underscores false (lstrip_by is_num_ws (rstrip_by is_num_ws s)) with
  | None => Err ValueError
  | Some t => let '(neg, u) := take_sign t in
              match parse_unsigned neg u with Some x => Ok x | None => Err ValueError end
  end.
