(** The real-number reading of [arith]. *)
From Coq Require Import Reals.
From Verif Require Import PyBase PyArith.

Definition Rdiv_res (x y : R) : res R := if Req_EM_T y 0 then Err ZeroDivisionError else Ok (x / y)%R.
Definition Rdec (m e : Z) : R := (IZR m * powerRZ 10 e)%R.
Definition RA : arith := Arith R Rplus Rminus Rmult Rdiv_res Rdec.
