(** Properties C206-C214: units and constants of neut_constants.py, cooling steps of
    fispact_analysis.py, raw spectra of mcnp_analysis.py, data cards of mcnp_input_reader.py
    and paths of r2s_cell.py.  Vocabulary: SpecStr.v, SpecUtil.v, SpecInput.v, SpecInput2.v. *)
From Coq Require Import Reals Lra.
From Verif Require Import PyBase PyFloat PyArith PyArithR SpecStr SpecUtil M_const M_input SpecInput SpecInput2 M_mcout M_fisout M_fisana M_mcana M_r2s P_rest TextTac.

(** C206: shake_to_ms gives microseconds. *)
Theorem C206_microseconds : forall v s w, shake_to_second RA v = Ok s -> shake_to_ms RA v = Ok w -> w = (s * 1000000)%R.
Proof. exact shakes_micro. Qed.
Print Assumptions C206_microseconds.
Theorem C206_milliseconds_refuted : forall v s w, v <> 0%R -> shake_to_second RA v = Ok s -> shake_to_ms RA v = Ok w -> w <> (s * 1000)%R.
Proof. exact shakes_not_milli. Qed.
Print Assumptions C206_milliseconds_refuted.
Example C206_ex : shake_to_ms FA (fdec 100 0) = Ok (fdec 1 0) /\ shake_to_second FA (fdec 100 0) = Ok (fdec 1 (-6)).
Proof. split; vm_compute; reflexivity. Qed.

(** C207: one electron charge. *)
Theorem C207_charge_refuted : eV_to_joule RA 1%R <> Ok (get_e RA).
Proof. exact charge_differs. Qed.
Print Assumptions C207_charge_refuted.
Theorem C207_close : exists j, eV_to_joule RA 1%R = Ok j /\ (get_e RA * (1 - / 5000) < j < get_e RA)%R.
Proof. exact charge_close. Qed.
Print Assumptions C207_close.
Example C207_ex : match eV_to_joule FA (fdec 1 0) with Ok j => flt j (get_e FA) = true | Err _ => False end.
Proof. vm_compute. reflexivity. Qed.

(** C208: the cooling steps. *)
Theorem C208_cooling : forall T sd (steps : list T) i, first_index (fun r => is_cooling (fst r) = true) sd i ->
  exists irr, steps = irr ++ cooling_ts_data steps (find_first_cooling_index sd) /\ List.length irr = Nat.min i (List.length steps).
Proof. exact @cooling_steps. Qed.
Print Assumptions C208_cooling.
Theorem C208_none_refuted : forall T sd (steps : list T), Forall (fun r => is_cooling (fst r) = false) sd -> cooling_ts_data steps (find_first_cooling_index sd) = steps.
Proof. exact @cooling_none. Qed.
Print Assumptions C208_none_refuted.
Definition C208_row (cool : bool) : sum_row * (float * float * float) := (SumRow (fdec 1 0) (fdec 1 0) (fdec 1 0) (fdec 1 0) (fdec 1 0) (fdec 1 0) (fdec 1 0) cool, (fdec 1 0, fdec 1 0, fdec 1 0)).
Example C208_ex : first_index (fun r => is_cooling (fst r) = true) (map C208_row [false; false; true; true]) 2 /\ cooling_ts_data [1; 2; 3; 4] (find_first_cooling_index (map C208_row [false; false; true; true])) = [3; 4].
Proof.
  split; [|reflexivity]. split; [eexists; split; reflexivity|]. intros j x Hj Hx. destruct j as [|[|j]]; [injection Hx as <-; discriminate|injection Hx as <-; discriminate|]. exfalso. revert Hj. clear. intros Hj. do 2 apply le_S_n in Hj. inversion Hj.
Qed.

(** C209: raw spectra. *)
Theorem C209_curves : forall eng (result : etable), Forall (fun kv => List.length (snd kv) = List.length eng) result ->
  exists ds, plot_raw_spectra eng result = Ok ds /\ Forall2 (fun kv d => d = DCurve (Some (fst kv)) eng (map (fun r => snd (fst r)) (snd kv))) result ds.
Proof. exact raw_spectra. Qed.
Print Assumptions C209_curves.
Theorem C209_other_energies : forall eng (result : etable) a kv b, result = a ++ kv :: b -> Forall (fun kv => List.length (snd kv) = List.length eng) a -> List.length (snd kv) <> List.length eng ->
  plot_raw_spectra eng result = Err ValueError.
Proof. exact raw_spectra_err. Qed.
Print Assumptions C209_other_energies.
Example C209_ex : plot_raw_spectra [fdec 1 0] [(10%Z, [(fdec 1 0, fdec 2 0, fdec 3 0)]); (20%Z, [(fdec 1 0, fdec 5 0, fdec 6 0)])] =
  Ok [DCurve (Some 10%Z) [fdec 1 0] [fdec 2 0]; DCurve (Some 20%Z) [fdec 1 0] [fdec 5 0]].
Proof. vm_compute. reflexivity. Qed.

(** C210: the kind of problem. *)
Theorem C210_flags : forall lines d, process_data_block lines = Ok d -> let present k := exists l q r, In l lines /\ l = q ++ r /\ lower q = lit k in
  (d_is_void d = true <-> present "void"%string) /\ (d_is_kcode d = true <-> present "kcode"%string) /\
  (d_is_sdef d = true <-> present "sdef"%string) /\ (d_is_ptrac d = true <-> present "ptrac"%string).
Proof. exact data_flags. Qed.
Print Assumptions C210_flags.
Example C210_ex : exists d, process_data_block (map lit ["mode n"; "SDEF pos=0 0 0"]%string) = Ok d /\ d_is_sdef d = true /\ d_is_kcode d = false.
Proof. eexists. split; [vm_compute; reflexivity|]. split; reflexivity. Qed.

(** C211: cards indented by blanks, which MCNP accepts up to column five, are passed over. *)
Theorem C211_indented_refuted : forall pre rest, Forall indented pre -> process_data_block (pre ++ rest) = process_data_block rest.
Proof. exact data_indented. Qed.
Print Assumptions C211_indented_refuted.
Example C211_ex : Forall indented (map lit [""; " mode n"; " m1 1001 1.0"; "  f4:n 1"]%string) /\
  process_data_block (map lit [""; " mode n"; " m1 1001 1.0"; "  f4:n 1"]%string) = process_data_block [].
Proof. split; [|vm_compute; reflexivity]. cbn [map]. repeat (apply Forall_cons; [first [now left|right; eexists; reflexivity]|]). apply Forall_nil. Qed.

(** C212: energy weighted tallies are not listed. *)
Theorem C212_starred_refuted : forall c l a b, c = chr 42 \/ c = chr 43 -> get_tally_numbers (a ++ (c :: l) :: b) = get_tally_numbers (a ++ b).
Proof. exact starred. Qed.
Print Assumptions C212_starred_refuted.
Example C212_ex : get_tally_numbers (map lit ["f4:n 1"; "*f14:n 2"; "+f6 3"]%string) = Ok [4%Z].
Proof. vm_compute. reflexivity. Qed.

(** C213: default energy bins are not reported. *)
Theorem C213_default_bins_refuted : forall n lines, (0 < n)%Z -> (forall l q r, In l lines -> l = q ++ chr 32 :: r -> same_case q (lit "e" ++ str_of_Z n) -> False) -> ti_has_ebins (read_tally_lines n lines) = false.
Proof. exact default_bins. Qed.
Print Assumptions C213_default_bins_refuted.
Example C213_ex : ti_has_ebins (read_tally_lines 4 (map lit ["f4:n 1"; "e0 1 2 3"]%string)) = false.
Proof. vm_compute. reflexivity. Qed.

(** C214: paths in the configuration. *)
Theorem C214_parts : forall a b, path_of_str (a ++ chr 47 :: b) = path_of_str a ++ path_of_str b.
Proof. exact path_parts. Qed.
Print Assumptions C214_parts.
Theorem C214_name : forall w, ~ In (chr 47) w -> w <> [] -> w <> lit "." -> path_of_str w = [w].
Proof. exact path_name. Qed.
Print Assumptions C214_name.
Theorem C214_here : path_of_str [] = [] /\ path_of_str (lit ".") = [].
Proof. exact path_empty. Qed.
Print Assumptions C214_here.
Theorem C214_dot : forall s, path_of_str (lit "./" ++ s) = path_of_str s.
Proof. exact path_dot. Qed.
Print Assumptions C214_dot.
Example C214_ex : path_of_str (lit "./run//out/./f.txt") = [lit "run"; lit "out"; lit "f.txt"].
Proof. vm_compute. reflexivity. Qed.
