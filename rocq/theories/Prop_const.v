(** Properties C16-C18, C105, C106: neut_constants.py.  [FA] reads the code in binary64,
    [RA] in the reals. *)
From Coq Require Import Reals Lra.
From Verif Require Import PyBase PyFloat PyArith PyArithR M_const FloatR SpecConst P_const.
Open Scope R_scope.

(** C16 *)
Theorem C16_Z_dict :
  NoDup (map fst Z_dict) /\ NoDup (map snd Z_dict) /\
  (forall n, In n (map snd Z_dict) <-> (1 <= n <= 118)%nat) /\
  (forall s z, dict_get str_eqb s Z_dict = Some z <-> (1 <= z)%nat /\ nth_error elements (z - 1) = Some s).
Proof. exact Z_dict_all. Qed.
Print Assumptions C16_Z_dict.
Example C16_ex : dict_get str_eqb (lit "Fe") Z_dict = Some 26%nat /\ dict_get str_eqb (lit "D") Z_dict = None.
Proof. split; vm_compute; reflexivity. Qed.

(** C17 *)
Theorem C17_inverse_real : forall v,
  after (rem_to_Sv RA) (sv_to_rem RA) v = Ok v /\ after (sv_to_rem RA) (rem_to_Sv RA) v = Ok v /\
  after (hour_to_second RA) (second_to_hour RA) v = Ok v /\ after (second_to_hour RA) (hour_to_second RA) v = Ok v /\
  after (day_to_second RA) (second_to_day RA) v = Ok v /\ after (second_to_day RA) (day_to_second RA) v = Ok v /\
  after (shake_to_second RA) (second_to_shake RA) v = Ok v /\ after (second_to_shake RA) (shake_to_second RA) v = Ok v /\
  after (barn_to_cm2 RA) (cm2_to_barn RA) v = Ok v /\ after (cm2_to_barn RA) (barn_to_cm2 RA) v = Ok v /\
  after (eV_to_joule RA) (joule_to_ev RA) v = Ok v /\ after (joule_to_ev RA) (eV_to_joule RA) v = Ok v.
Proof. exact real_roundtrips. Qed.
Print Assumptions C17_inverse_real.
Theorem C17_inverse_float :
  undoes (rem_to_Sv FA) (sv_to_rem FA) /\ undoes (sv_to_rem FA) (rem_to_Sv FA) /\
  undoes (hour_to_second FA) (second_to_hour FA) /\ undoes (second_to_hour FA) (hour_to_second FA) /\
  undoes (day_to_second FA) (second_to_day FA) /\ undoes (second_to_day FA) (day_to_second FA) /\
  undoes (shake_to_second FA) (second_to_shake FA) /\ undoes (second_to_shake FA) (shake_to_second FA) /\
  undoes (barn_to_cm2 FA) (cm2_to_barn FA) /\ undoes (cm2_to_barn FA) (barn_to_cm2 FA) /\
  undoes (eV_to_joule FA) (joule_to_ev FA) /\ undoes (joule_to_ev FA) (eV_to_joule FA).
Proof. exact float_roundtrips. Qed.
Print Assumptions C17_inverse_float.
(** The conversions do not raise and 17 Sv comes back as 17. *)
Example C17_ex : after (sv_to_rem FA) (rem_to_Sv FA) (fdec 17 0) = Ok (fdec 17 0) /\
  after (eV_to_joule FA) (joule_to_ev FA) (fdec 17 0) = Ok (fdec 17 0).
Proof. split; vm_compute; reflexivity. Qed.

(** C18: both parts fail, for every non-zero value and in binary64 as well. *)
Theorem C18_years_refuted : forall v, v <> 0 -> after (years_to_seconds RA) (second_to_year RA) v <> Ok v.
Proof. exact year_not_inverse. Qed.
Print Assumptions C18_years_refuted.
Theorem C18_years_factor : forall v,
  after (years_to_seconds RA) (second_to_year RA) v = Ok (v * (31557600 / 31536000)).
Proof. exact year_factor. Qed.
Print Assumptions C18_years_factor.
Theorem C18_curie_refuted : bq_to_curie RA (Rdec 37 9) = Ok 10001100000000000000000 .
Proof. exact curie_factor. Qed.
Print Assumptions C18_curie_refuted.
Theorem C18_curie_there_and_back : forall v,
  after (bq_to_curie RA) (curie_to_bq RA) v = Ok (v * (100011 / 100000)).
Proof. exact bq_curie_factor. Qed.
Print Assumptions C18_curie_there_and_back.
Example C18_ex_float : exists w, after (years_to_seconds FA) (second_to_year FA) (fdec 1 0) = Ok w /\
  flt (fdec 10006 (-4)) w = true.
Proof. eexists. split; vm_compute; reflexivity. Qed.

(** C105 *)
Theorem C105_photon_wavelength : forall v,
  (v <> 0 -> exists w, eV_to_wavelength_photon RA v = Ok w /\ w <> 0 /\ eV_to_wavelength_photon RA w = Ok v) /\
  (v = 0 -> eV_to_wavelength_photon RA v = Err ZeroDivisionError).
Proof. exact wavelength_total. Qed.
Print Assumptions C105_photon_wavelength.
Theorem C105_neutron_wavelength : forall v,
  (v <> 0 -> exists w, wavelength_to_meV_neutron RA v = Ok w /\ 0 < w /\ w * (v * v) = 8181 / 100 /\
     wavelength_to_meV_neutron RA (- v) = Ok w) /\
  (v = 0 -> wavelength_to_meV_neutron RA v = Err ZeroDivisionError).
Proof. exact neutron_wavelength. Qed.
Print Assumptions C105_neutron_wavelength.
Example C105_ex : eV_to_wavelength_photon FA fzero = Err ZeroDivisionError.
Proof. reflexivity. Qed.

(** C106 *)
Theorem C106_years_agree : forall v,
  after (years_to_hrs RA) (hour_to_second RA) v = years_to_seconds RA v /\
  after (years_to_days RA) (day_to_second RA) v = years_to_seconds RA v.
Proof. exact years_consistent. Qed.
Print Assumptions C106_years_agree.
Example C106_ex : years_to_seconds FA (fdec 2 0) = Ok (f_of_Z 63115200).
Proof. vm_compute. reflexivity. Qed.
