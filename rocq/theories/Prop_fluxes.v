(** Properties C46-C54, C116-C121: fispact_fluxes_writer.py, mcnp_ptrac_reader.py,
    fispact_input_reader.py.  Vocabulary: SpecStr.v, SpecUtil.v, SpecFluxes.v; [rounded_to]
    (FloatR.v): the binary64 value nearest to a real. *)
From Coq Require Import Reals.
From Verif Require Import PyBase PyFloat PyFs SpecStr SpecUtil FloatR M_util PyIo M_fluxes M_ptrac SpecFluxes P_fluxes P_fluxes2 P_ptrac.

(** C46 *)
Theorem C46_position : forall gs arg e, descending gs -> 2 <= List.length gs -> energy_is arg e -> is_nan_f e = false ->
  exists i, get_group_pos (Some gs) arg = Ok (Z.of_nat i) /\ S i < List.length gs /\ group_of gs e i /\
    forall j, group_of gs e j -> j = i.
Proof. exact group_pos_spec. Qed.
Print Assumptions C46_position.
Theorem C46_nan : forall gs arg e, gs <> [] -> energy_is arg e -> is_nan_f e = true -> get_group_pos (Some gs) arg = Ok (-1)%Z.
Proof. exact group_pos_nan. Qed.
Print Assumptions C46_nan.
Theorem C46_errors : forall gs arg x, get_group_pos gs arg = Err x <->
  x = ValueError /\ (gs = None \/ gs = Some [] \/ forall e, ~ energy_is arg e).
Proof. exact group_pos_err. Qed.
Print Assumptions C46_errors.
Example C46_ex : let gs := map f_of_Z [10; 9; 8; 7]%Z in
  get_group_pos (Some gs) (EText (lit "8.5")) = Ok 1%Z /\ get_group_pos (Some gs) (EText (lit "9")) = Ok 1%Z /\
  get_group_pos (Some gs) (ENum (f_of_Z 10)) = Ok 0%Z /\ get_group_pos (Some gs) (ENum (f_of_Z 2)) = Ok 2%Z /\
  get_group_pos (Some gs) (EText (lit "x")) = Err ValueError.
Proof. vm_compute. repeat split. Qed.
Example C46_ex_desc : descending (map f_of_Z [10; 9; 8; 7]%Z).
Proof. apply desc_b_spec. vm_compute. reflexivity. Qed.

(** C47 *)
Theorem C47_one_hot : forall A (gs : list A) z l, create_fluxes_data (Some gs) z = Ok l <->
  exists i, z = Z.of_nat i /\ i < List.length gs /\ one_hot (List.length gs) i l.
Proof. exact (@create_spec). Qed.
Print Assumptions C47_one_hot.
Theorem C47_errors : forall A (gs : option (list A)) z x, create_fluxes_data gs z = Err x <->
  x = ValueError /\ (gs = None \/ exists l, gs = Some l /\ ~ (0 <= z < Z.of_nat (List.length l))%Z).
Proof. exact (@create_err). Qed.
Print Assumptions C47_errors.
Example C47_ex : create_fluxes_data (Some [tt; tt; tt; tt]) 1 = Ok (map f_of_Z [0; 1; 0; 0; 1]%Z) /\
  create_fluxes_data (Some [tt]) 1 = Err ValueError.
Proof. vm_compute. repeat split. Qed.

(** C48: 709 boundaries from 1.0E+3 to 1.05E-11 and 162 from 1.0E+9 to 1.0E+4. *)
Theorem C48_structures :
  (exists gs, get_group_struct (Some (lit "709")) = Some gs /\ ladder 709 (fdec 1 3) (fdec 105 (-13)) gs) /\
  (exists gs, get_group_struct (Some (lit "162")) = Some gs /\ ladder 162 (fdec 1 9) (fdec 1 4) gs) /\
  (forall g, g <> Some (lit "709") -> g <> Some (lit "162") -> get_group_struct g = None).
Proof. exact struct_spec. Qed.
Print Assumptions C48_structures.
Theorem C48_check : forall g, check_group_struct g = true <-> exists gs, get_group_struct g = Some gs.
Proof. exact check_struct_spec. Qed.
Print Assumptions C48_check.
(** The boundaries of 162 groups in keV, and those of 709 groups in tenths of MeV down to 10 MeV and from
    there on fifty to the decade. *)
Theorem C48_162 : exists gs, get_group_struct (Some (lit "162")) = Some gs /\ gs = map (fun n => fdec n 3)
  (going_down 1000000 40000 20 ++ going_down 200000 20000 5 ++ going_down 100000 10000 4 ++ [60000; 55000; 54000]%Z ++
   going_down 50000 5000 4 ++ going_down 30000 2000 5 ++ going_down 20000 1000 10 ++ going_down 10000 200 30 ++
   going_down 4000 125 24 ++ going_down 1000 25 28 ++ going_down 300 20 10 ++ going_down 100 5 19).
Proof. exact shape_162. Qed.
Print Assumptions C48_162.
Theorem C48_709 : exists gs, get_group_struct (Some (lit "709")) = Some gs /\
  firstn 109 gs = map (fun n => fdec n (-1))
    (going_down 10000 400 20 ++ going_down 2000 200 2 ++ going_down 1600 100 8 ++ going_down 800 50 4 ++
     going_down 600 20 15 ++ going_down 300 10 10 ++ going_down 200 2 50) /\
  forall k, 1 <= k <= 600 -> exists m, nth_error gs (709 - k) = Some (fdec m (Z.of_nat k / 50 - 13)) /\ three_digits (Z.of_nat k) m.
Proof. exact shape_709. Qed.
Print Assumptions C48_709.
Example C48_ex : check_group_struct (Some (lit "175")) = false /\ check_group_struct (Some (lit "162")) = true.
Proof. vm_compute. split; reflexivity. Qed.

(** C49 *)
Theorem C49_reversed : forall l out, convert_mcnp_spect (Some l) = Ok out <->
  l <> [] /\ nondecreasing l /\ out = rev l ++ [f_of_Z 1].
Proof. exact convert_ok. Qed.
Print Assumptions C49_reversed.
Theorem C49_errors : forall l x, convert_mcnp_spect l = Err x <->
  x = ValueError /\ (l = None \/ l = Some [] \/ exists s, l = Some s /\ ~ nondecreasing s).
Proof. exact convert_err. Qed.
Print Assumptions C49_errors.
Theorem C49_bad_step : forall l i x y, nth_error l i = Some x -> nth_error l (S i) = Some y ->
  (is_nan_f x = true \/ is_nan_f y = true \/ flt y x = true) -> ~ nondecreasing l.
Proof. exact nan_step_not_nondecreasing. Qed.
Print Assumptions C49_bad_step.
Example C49_ex : convert_mcnp_spect (Some (map f_of_Z [1; 2; 2; 5]%Z)) = Ok (map f_of_Z [5; 2; 2; 1; 1]%Z) /\
  convert_mcnp_spect (Some (map f_of_Z [1; 3; 2]%Z)) = Err ValueError.
Proof. vm_compute. split; reflexivity. Qed.

(** C50 *)
Theorem C50_command : forall show f out g gs s e,
  get_group_struct g = Some gs -> py_float s = Ok e -> is_nan_f e = false -> openable f out ->
  exists f' i data, fluxes_command show out g (Some s) f = (f', Ok tt) /\
    group_of gs e i /\ i < List.length gs /\ one_hot (List.length gs) i data /\
    f' out = Some (File (full_text (map show data))) /\ forall q, q <> out -> f' q = f q.
Proof. exact command_ok. Qed.
Print Assumptions C50_command.
Theorem C50_bad_arguments : forall show f out g s,
  (get_group_struct g = None \/ s = None \/ exists t, s = Some t /\ forall e, py_float t = Ok e -> is_nan_f e = true) ->
  fluxes_command show out g s f = (f, Err ValueError).
Proof. exact command_bad. Qed.
Print Assumptions C50_bad_arguments.
Theorem C50_closed : forall show f out g gs s e,
  get_group_struct g = Some gs -> py_float s = Ok e -> is_nan_f e = false -> ~ openable f out ->
  fluxes_command show out g (Some s) f = (f, Err OSError).
Proof. exact command_closed. Qed.
Print Assumptions C50_closed.
Example C50_ex : let show x := if is_zero_f x then lit "0.0" else lit "1.0" in
  match fluxes_command show [lit "fluxes"] (Some (lit "709")) (Some (lit "14.1")) (fun _ => None) with
  | (f, Ok tt) => match f [lit "fluxes"] with
                  | Some (File c) => map (Z.of_nat) (map fst (filter (fun l => str_eqb (snd l) (lit "1.0")) (enumerate (splitlines c)))) = [88; 709]%Z
                                     /\ List.length (splitlines c) = 710
                  | _ => False end
  | _ => False end.
Proof. vm_compute. split; reflexivity. Qed.

(** C116 (violated): the 162 boundaries are in eV while the command takes MeV: every energy
    from 1 to 1000 MeV is put into the lowest bin, which is not the one of that energy. *)
Theorem C116_units_refuted : forall show f out s e, openable f out -> py_float s = Ok e ->
  fle (f_of_Z 1) e = true -> fle e (f_of_Z 1000) = true ->
  exists f' data gs j, fluxes_command show out (Some (lit "162")) (Some s) f = (f', Ok tt) /\
    f' out = Some (File (full_text (map show data))) /\ one_hot 162 160 data /\
    get_group_struct (Some (lit "162")) = Some gs /\ group_of gs (fmul e (f_of_Z 1000000)) j /\ j <> 160.
Proof. exact units_refuted. Qed.
Print Assumptions C116_units_refuted.
Example C116_ex : get_group_pos (get_group_struct (Some (lit "162"))) (EText (lit "14.1")) = Ok 160%Z /\
  get_group_pos (get_group_struct (Some (lit "162"))) (EText (lit "14.1e6")) = Ok 46%Z.
Proof. vm_compute. split; reflexivity. Qed.

(** C117 (violated): the last of the n group fluxes is 0 for every energy. *)
Theorem C117_last_group_refuted : forall show f out g gs s f',
  get_group_struct g = Some gs -> fluxes_command show out g s f = (f', Ok tt) ->
  exists data i, f' out = Some (File (full_text (map show data))) /\ one_hot (List.length gs) i data /\ S i < List.length gs.
Proof. exact last_group_refuted. Qed.
Print Assumptions C117_last_group_refuted.
Example C117_ex : get_group_pos (get_group_struct (Some (lit "709"))) (EText (lit "1.02E-11")) = Ok 707%Z.
Proof. vm_compute. reflexivity. Qed.

(** C118 *)
Theorem C118_upper_bound : forall gs arg e g0 b, nth_error gs 0 = Some g0 -> energy_is arg e ->
  check_upper_bound (Some gs) arg = Ok b <-> b = negb (flt g0 e).
Proof. exact upper_bound_spec. Qed.
Print Assumptions C118_upper_bound.
Theorem C118_errors : forall gs arg x, check_upper_bound gs arg = Err x <->
  x = ValueError /\ (gs = None \/ gs = Some [] \/ forall e, ~ energy_is arg e).
Proof. exact upper_bound_err. Qed.
Print Assumptions C118_errors.
Example C118_ex : check_upper_bound (Some (map f_of_Z [10; 9]%Z)) (EText (lit "10")) = Ok true /\
  check_upper_bound (Some (map f_of_Z [10; 9]%Z)) (EText (lit "20.2")) = Ok false.
Proof. vm_compute. split; reflexivity. Qed.

(** C51 *)
Theorem C51_histories : forall hs lines, hs <> [] -> body_text hs lines -> process_tracks lines = Ok (map Some hs).
Proof. exact tracks_read. Qed.
Print Assumptions C51_histories.
Definition ex_l1 : str := lit "  1000 1 10 2 0 0".
Definition ex_l2 : str := lit " 1.5 2 3 0 0 1 14.1 1 0.5".
Definition ex_event : event :=
  Event (VNum (fdec 15 (-1))) (VNum (f_of_Z 2)) (VNum (f_of_Z 3)) (VNum (f_of_Z 1000)) (VNum (f_of_Z 0)) (VNum (f_of_Z 0)) (VNum (f_of_Z 1))
    (VNum (f_of_Z 1)) (VNum (fdec 141 (-1))) (VNum (f_of_Z 2)) (VNum (f_of_Z 10)) (VNum (fdec 5 (-1))).
Example C51_ex : process_tracks [lit "  7  1000"; ex_l1; ex_l2; ex_l1; ex_l2; lit " 9 1000 "; ex_l1; ex_l2]
  = Ok [Some (History 7 [ex_event; ex_event]); Some (History 9 [ex_event])].
Proof. vm_compute. reflexivity. Qed.

(** C52 *)
Theorem C52_fields : forall toks ev, process_event toks = Ok ev <-> exists vals, numbers toks vals /\ event_of vals ev.
Proof. exact process_event_ok. Qed.
Print Assumptions C52_fields.
Theorem C52_errors : forall toks e, process_event toks = Err e <->
  (e = ValueError /\ exists t, In t toks /\ forall x, py_float t <> Ok x) \/
  (e = IndexError /\ List.length toks < 15 /\ exists vals, numbers toks vals).
Proof. exact process_event_err. Qed.
Print Assumptions C52_errors.
Example C52_ex : process_event (map str_of_Z [1; 2; 3; 4; 5; 6; 7; 8; 9; 10; 11; 12; 13; 14; 15; 16; 17]%Z)
  = Ok (Event (VNum (f_of_Z 9)) (VNum (f_of_Z 10)) (VNum (f_of_Z 11)) (VNum (f_of_Z 1)) (VNum (f_of_Z 12)) (VNum (f_of_Z 13)) (VNum (f_of_Z 14))
    (VNum (f_of_Z 16)) (VNum (f_of_Z 15)) (VNum (f_of_Z 5)) (VNum (f_of_Z 4)) (VNum (f_of_Z 17))).
Proof. vm_compute. reflexivity. Qed.

(** C53 *)
Theorem C53_fieldwise : forall a b, eq_holds a (OpEvent b) = true <-> Forall2 same_value (fields a) (fields b).
Proof. exact eq_holds_fields. Qed.
Print Assumptions C53_fieldwise.
Theorem C53_ne : forall a b, ne_holds a (OpEvent b) = true <-> ~ Forall2 same_value (fields a) (fields b).
Proof. exact ne_holds_not. Qed.
Print Assumptions C53_ne.
Theorem C53_sym : forall a b, eq_holds a (OpEvent b) = true -> eq_holds b (OpEvent a) = true.
Proof. exact eq_holds_sym. Qed.
Print Assumptions C53_sym.
Theorem C53_refl : forall a, no_nan a -> eq_holds a (OpEvent a) = true.
Proof. exact eq_holds_refl. Qed.
Print Assumptions C53_refl.
(** (violated) An event compares equal to anything that is not an event. *)
Theorem C53_other_refuted : forall a, eq_holds a OpOther = true /\ ne_holds a OpOther = false.
Proof. exact (fun a => conj eq_refl eq_refl). Qed.
Print Assumptions C53_other_refuted.
Example C53_ex : eq_holds ex_event (OpEvent ex_event) = true /\ eq_holds ex_event (OpEvent new_event) = false.
Proof. vm_compute. split; reflexivity. Qed.

(** C54 *)
Theorem C54_mean : forall hs, hs <> [] -> (Z.of_nat (List.length hs) < 2 ^ 53)%Z -> (Z.of_nat (total_events hs) < 2 ^ 53)%Z ->
  exists m, mean_num_events (map Some hs) = Ok m /\ rounded_to (INR (total_events hs) / INR (List.length hs)) m.
Proof. exact mean_ok. Qed.
Print Assumptions C54_mean.
Theorem C54_empty : mean_num_events [] = Err ZeroDivisionError.
Proof. exact mean_empty. Qed.
Print Assumptions C54_empty.
Example C54_ex : mean_num_events [Some (History 1 [ex_event; ex_event]); Some (History 2 [ex_event])] = Ok (fdec 15 (-1)).
Proof. vm_compute. reflexivity. Qed.

(** C119 *)
Theorem C119_file : forall f p header body hs, get_lines f p = Ok (header ++ body) -> List.length header = 9 ->
  hs <> [] -> body_text hs body -> read_ptrac f p = Ok (map Some hs).
Proof. exact read_ptrac_ok. Qed.
Print Assumptions C119_file.
(** The header and the tracks make up the file; the header is its first nine lines. *)
Theorem C119_split : forall lines head tracks, remove_header lines = (head, tracks) -> lines = head ++ tracks /\ List.length head <= 9 /\ (tracks <> [] -> List.length head = 9).
Proof. exact header_split. Qed.
Print Assumptions C119_split.
Example C119_ex : read_ptrac (fun q => if path_eqb q [lit "ptrac"] then Some (File (full_text (repeat (lit "h 1") 9 ++ [lit "7 1000"; ex_l1; ex_l2]))) else None)
    [lit "ptrac"] = Ok [Some (History 7 [ex_event])].
Proof. vm_compute. reflexivity. Qed.

(** C120 (violated): without histories the list is not empty but holds one None. *)
Theorem C120_empty_refuted : forall lines, Forall (fun l => exists ws, words l ws /\ ~ In (List.length ws) [2; 3; 9]) lines ->
  exists hs, process_tracks lines = Ok hs /\ List.length hs = 1 /\ mean_num_events hs = Err AttributeError.
Proof. exact mean_none. Qed.
Print Assumptions C120_empty_refuted.
Example C120_ex : process_tracks [] = Ok [None].
Proof. reflexivity. Qed.

(** C121 *)
Theorem C121_lines : forall f p ls, read_fispact_input f p = Ok ls <-> get_lines f p = Ok ls.
Proof. exact read_fispact_ok. Qed.
Print Assumptions C121_lines.
Theorem C121_missing : forall f p, wf_fs f -> read_fispact_input f p = Err FileNotFoundError <-> p <> [] /\ f p = None.
Proof. exact read_fispact_missing. Qed.
Print Assumptions C121_missing.
Theorem C121_directory : forall f p, wf_fs f -> read_fispact_input f p = Err ValueError <-> p = [] \/ f p = Some Dir.
Proof. exact read_fispact_dir. Qed.
Print Assumptions C121_directory.
Theorem C121_no_other : forall f p e, wf_fs f -> read_fispact_input f p = Err e -> e = FileNotFoundError \/ e = ValueError.
Proof. exact read_fispact_total. Qed.
Print Assumptions C121_no_other.
Example C121_ex : read_fispact_input (fun q => if path_eqb q [lit "a.i"] then Some (File (lit "NOHEAD")) else None) [lit "a.i"] = Ok [lit "NOHEAD"].
Proof. reflexivity. Qed.
