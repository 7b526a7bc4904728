(** Model of neut_constants.py.  The conversions are written once over an arithmetic
    [arith], and read both in binary64 ([FA]) and in the reals ([RA], PyArithR.v). *)
From Verif Require Import PyBase PyFloat PyArith.

Section Conv.
  Context (A : arith).
  Notation "x * y" := (nmul A x y).
  Notation "x / y" := (ndiv A x y).
  Local Notation dec := (ndec A).

  (** neut_constants.py:4-21. *)
  Definition get_e : num A := dec 160217662 (-27).
  Definition get_p_mass : num A := dec 1672623 (-30).
  Definition get_n_mass : num A := dec 1674929 (-30).
  Definition get_e_mass : num A := dec 910938 (-33).
  (** neut_constants.py:24-26. *)
  Definition rem_to_Sv (val : num A) : res (num A) := val / dec 100 0.
  (** neut_constants.py:29-31. *)
  Definition sv_to_rem (val : num A) : res (num A) := Ok (val * dec 100 0).
  (** neut_constants.py:34-36. *)
  Definition years_to_seconds (val : num A) : res (num A) :=
    Ok (val * dec 36525 (-2) * dec 24 0 * dec 60 0 * dec 60 0).
  (** neut_constants.py:39-41. *)
  Definition years_to_hrs (val : num A) : res (num A) := Ok (val * dec 36525 (-2) * dec 24 0).
  (** neut_constants.py:44-46. *)
  Definition years_to_days (val : num A) : res (num A) := Ok (val * dec 36525 (-2)).
  (** neut_constants.py:49-51. *)
  Definition bq_to_curie (val : num A) : res (num A) := Ok (val * dec 2703 8).
  (** neut_constants.py:54-56. *)
  Definition curie_to_bq (val : num A) : res (num A) := Ok (val * dec 37 (-13)).
  (** neut_constants.py:59-61. *)
  Definition eV_to_joule (val : num A) : res (num A) := Ok (val * dec 1602 (-22)).
  (** neut_constants.py:64-66. *)
  Definition eV_to_wavelength_photon (val : num A) : res (num A) := dec 124 (-8) / val.
  (** neut_constants.py:69-71. *)
  Definition wavelength_to_meV_neutron (val : num A) : res (num A) := dec 8181 (-2) / (val * val).
  (** neut_constants.py:74-76. *)
  Definition joule_to_ev (val : num A) : res (num A) := val / dec 1602 (-22).
  (** neut_constants.py:79-81. *)
  Definition second_to_hour (val : num A) : res (num A) := val / dec 3600 0.
  (** neut_constants.py:84-86. *)
  Definition second_to_day (val : num A) : res (num A) := val / dec 86400 0.
  (** neut_constants.py:89-91. *)
  Definition second_to_year (val : num A) : res (num A) := val / dec 31536 3.
  (** neut_constants.py:94-96. *)
  Definition hour_to_second (val : num A) : res (num A) := Ok (val * dec 3600 0).
  (** neut_constants.py:99-101. *)
  Definition day_to_second (val : num A) : res (num A) := Ok (val * dec 86400 0).
  (** neut_constants.py:104-106. *)
  Definition shake_to_second (val : num A) : res (num A) := Ok (val * dec 1 (-8)).
  (** neut_constants.py:109-111. *)
  Definition second_to_shake (val : num A) : res (num A) := Ok (val * dec 1 8).
  (** neut_constants.py:114-116. *)
  Definition shake_to_ms (val : num A) : res (num A) := val / dec 100 0.
  (** neut_constants.py:119-121. *)
  Definition barn_to_cm2 (val : num A) : res (num A) := val / dec 1 24.
  (** neut_constants.py:124-126. *)
  Definition cm2_to_barn (val : num A) : res (num A) := Ok (val * dec 1 24).
End Conv.

(** neut_constants.py:129-250. *)
Definition Z_dict : list (str * nat) := map (fun p => (lit (fst p), snd p))
  [("H", 1); ("He", 2); ("Li", 3); ("Be", 4); ("B", 5); ("C", 6); ("N", 7); ("O", 8);
   ("F", 9); ("Ne", 10); ("Na", 11); ("Mg", 12); ("Al", 13); ("Si", 14); ("P", 15); ("S", 16);
   ("Cl", 17); ("Ar", 18); ("K", 19); ("Ca", 20); ("Sc", 21); ("Ti", 22); ("V", 23); ("Cr", 24);
   ("Mn", 25); ("Fe", 26); ("Co", 27); ("Ni", 28); ("Cu", 29); ("Zn", 30); ("Ga", 31); ("Ge", 32);
   ("As", 33); ("Se", 34); ("Br", 35); ("Kr", 36); ("Rb", 37); ("Sr", 38); ("Y", 39); ("Zr", 40);
   ("Nb", 41); ("Mo", 42); ("Tc", 43); ("Ru", 44); ("Rh", 45); ("Pd", 46); ("Ag", 47); ("Cd", 48);
   ("In", 49); ("Sn", 50); ("Sb", 51); ("Te", 52); ("I", 53); ("Xe", 54); ("Cs", 55); ("Ba", 56);
   ("La", 57); ("Ce", 58); ("Pr", 59); ("Nd", 60); ("Pm", 61); ("Sm", 62); ("Eu", 63); ("Gd", 64);
   ("Tb", 65); ("Dy", 66); ("Ho", 67); ("Er", 68); ("Tm", 69); ("Yb", 70); ("Lu", 71); ("Hf", 72);
   ("Ta", 73); ("W", 74); ("Re", 75); ("Os", 76); ("Ir", 77); ("Pt", 78); ("Au", 79); ("Hg", 80);
   ("Tl", 81); ("Pb", 82); ("Bi", 83); ("Po", 84); ("At", 85); ("Rn", 86); ("Fr", 87); ("Ra", 88);
   ("Ac", 89); ("Th", 90); ("Pa", 91); ("U", 92); ("Np", 93); ("Pu", 94); ("Am", 95); ("Cm", 96);
   ("Bk", 97); ("Cf", 98); ("Es", 99); ("Fm", 100); ("Md", 101); ("No", 102); ("Lr", 103); ("Rf", 104);
   ("Db", 105); ("Sg", 106); ("Bh", 107); ("Hs", 108); ("Mt", 109); ("Ds", 110); ("Rg", 111); ("Cn", 112);
   ("Nh", 113); ("Fl", 114); ("Mc", 115); ("Lv", 116); ("Ts", 117); ("Og", 118)]%string.
