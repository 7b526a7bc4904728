(** fispact_fluxes_writer.py.  Array arguments are lists of binary64 values; [None] stands
    for an argument that is not a list, tuple or array. *)
From Verif Require Import PyBase PyFloat PyFs M_util PyIo.

(** An energy argument: a number, a text, or a value [float()] refuses. *)
Inductive energy_arg : Type := ENum (x : float) | EText (s : str) | ENone.

(** The conversion of fispact_fluxes_writer.py:21-25 (and 260-264): every failure becomes
    a ValueError. *)
Definition energy_value (e : energy_arg) : res float :=
  match e with
  | ENum x => Ok x
  | EText s => match py_float s with Ok x => Ok x | Err _ => Err ValueError end
  | ENone => Err ValueError
  end.

(** fispact_fluxes_writer.py:37, np.where((groups[:-1] >= energy) & (energy > groups[1:])). *)
Fixpoint bins_from (i : nat) (groups : list float) (energy : float) : list nat :=
  match groups with
  | a :: ((b :: _) as rest) =>
      if fle energy a && flt b energy then i :: bins_from (S i) rest energy
      else bins_from (S i) rest energy
  | _ => []
  end.

(** fispact_fluxes_writer.py:13-43. *)
Definition get_group_pos (groups : option (list float)) (energy : energy_arg) : res Z :=
  match groups with
  | None | Some [] => Err ValueError
  | Some ((g0 :: _) as gs) =>
      do energy <- energy_value energy;
      let n := zlen gs in
      if flt g0 energy then Ok 0%Z
      else if fle energy (last gs g0) then Ok (n - 2)%Z
      else match bins_from 0 gs energy with
           | i :: _ => Ok (Z.of_nat i)
           | [] => Ok (-1)%Z
           end
  end.

(** fispact_fluxes_writer.py:49-75, as (mantissa, power of ten). *)
Definition gs_162_table : list (Z * Z) :=
  [ (10000, 5); (96000, 4); (92000, 4); (88000, 4); (84000, 4); (80000, 4); (76000, 4); (72000, 4);
    (68000, 4); (64000, 4); (60000, 4); (56000, 4); (52000, 4); (48000, 4); (44000, 4); (40000, 4);
    (36000, 4); (32000, 4); (28000, 4); (24000, 4); (20000, 4); (18000, 4); (16000, 4); (14000, 4);
    (12000, 4); (10000, 4); (90000, 3); (80000, 3); (70000, 3); (60000, 3); (55000, 3); (54000, 3);
    (50000, 3); (45000, 3); (40000, 3); (35000, 3); (30000, 3); (28000, 3); (26000, 3); (24000, 3);
    (22000, 3); (20000, 3); (19000, 3); (18000, 3); (17000, 3); (16000, 3); (15000, 3); (14000, 3);
    (13000, 3); (12000, 3); (11000, 3); (10000, 3); (98000, 2); (96000, 2); (94000, 2); (92000, 2);
    (90000, 2); (88000, 2); (86000, 2); (84000, 2); (82000, 2); (80000, 2); (78000, 2); (76000, 2);
    (74000, 2); (72000, 2); (70000, 2); (68000, 2); (66000, 2); (64000, 2); (62000, 2); (60000, 2);
    (58000, 2); (56000, 2); (54000, 2); (52000, 2); (50000, 2); (48000, 2); (46000, 2); (44000, 2);
    (42000, 2); (40000, 2); (38750, 2); (37500, 2); (36250, 2); (35000, 2); (33750, 2); (32500, 2);
    (31250, 2); (30000, 2); (28750, 2); (27500, 2); (26250, 2); (25000, 2); (23750, 2); (22500, 2);
    (21250, 2); (20000, 2); (18750, 2); (17500, 2); (16250, 2); (15000, 2); (13750, 2); (12500, 2);
    (11250, 2); (10000, 2); (97500, 1); (95000, 1); (92500, 1); (90000, 1); (87500, 1); (85000, 1);
    (82500, 1); (80000, 1); (77500, 1); (75000, 1); (72500, 1); (70000, 1); (67500, 1); (65000, 1);
    (62500, 1); (60000, 1); (57500, 1); (55000, 1); (52500, 1); (50000, 1); (47500, 1); (45000, 1);
    (42500, 1); (40000, 1); (37500, 1); (35000, 1); (32500, 1); (30000, 1); (28000, 1); (26000, 1);
    (24000, 1); (22000, 1); (20000, 1); (18000, 1); (16000, 1); (14000, 1); (12000, 1); (10000, 1);
    (95000, 0); (90000, 0); (85000, 0); (80000, 0); (75000, 0); (70000, 0); (65000, 0); (60000, 0);
    (55000, 0); (50000, 0); (45000, 0); (40000, 0); (35000, 0); (30000, 0); (25000, 0); (20000, 0);
    (15000, 0); (10000, 0) ]%Z.
(** fispact_fluxes_writer.py:77-195. *)
Definition gs_709_table : list (Z * Z) :=
  [ (100, 1); (960, 0); (920, 0); (880, 0); (840, 0); (800, 0); (760, 0); (720, 0);
    (680, 0); (640, 0); (600, 0); (560, 0); (520, 0); (480, 0); (440, 0); (400, 0);
    (360, 0); (320, 0); (280, 0); (240, 0); (200, 0); (180, 0); (160, 0); (150, 0);
    (140, 0); (130, 0); (120, 0); (110, 0); (100, 0); (900, -1); (800, -1); (750, -1);
    (700, -1); (650, -1); (600, -1); (580, -1); (560, -1); (540, -1); (520, -1); (500, -1);
    (480, -1); (460, -1); (440, -1); (420, -1); (400, -1); (380, -1); (360, -1); (340, -1);
    (320, -1); (300, -1); (290, -1); (280, -1); (270, -1); (260, -1); (250, -1); (240, -1);
    (230, -1); (220, -1); (210, -1); (200, -1); (198, -1); (196, -1); (194, -1); (192, -1);
    (190, -1); (188, -1); (186, -1); (184, -1); (182, -1); (180, -1); (178, -1); (176, -1);
    (174, -1); (172, -1); (170, -1); (168, -1); (166, -1); (164, -1); (162, -1); (160, -1);
    (158, -1); (156, -1); (154, -1); (152, -1); (150, -1); (148, -1); (146, -1); (144, -1);
    (142, -1); (140, -1); (138, -1); (136, -1); (134, -1); (132, -1); (130, -1); (128, -1);
    (126, -1); (124, -1); (122, -1); (120, -1); (118, -1); (116, -1); (114, -1); (112, -1);
    (110, -1); (108, -1); (106, -1); (104, -1); (102, -1); (100, -1); (955, -2); (912, -2);
    (871, -2); (832, -2); (794, -2); (759, -2); (724, -2); (692, -2); (661, -2); (631, -2);
    (603, -2); (575, -2); (550, -2); (525, -2); (501, -2); (479, -2); (457, -2); (437, -2);
    (417, -2); (398, -2); (380, -2); (363, -2); (347, -2); (331, -2); (316, -2); (302, -2);
    (288, -2); (275, -2); (263, -2); (251, -2); (240, -2); (229, -2); (219, -2); (209, -2);
    (200, -2); (191, -2); (182, -2); (174, -2); (166, -2); (158, -2); (151, -2); (145, -2);
    (138, -2); (132, -2); (126, -2); (120, -2); (115, -2); (110, -2); (105, -2); (100, -2);
    (955, -3); (912, -3); (871, -3); (832, -3); (794, -3); (759, -3); (724, -3); (692, -3);
    (661, -3); (631, -3); (603, -3); (575, -3); (550, -3); (525, -3); (501, -3); (479, -3);
    (457, -3); (437, -3); (417, -3); (398, -3); (380, -3); (363, -3); (347, -3); (331, -3);
    (316, -3); (302, -3); (288, -3); (275, -3); (263, -3); (251, -3); (240, -3); (229, -3);
    (219, -3); (209, -3); (200, -3); (191, -3); (182, -3); (174, -3); (166, -3); (158, -3);
    (151, -3); (145, -3); (138, -3); (132, -3); (126, -3); (120, -3); (115, -3); (110, -3);
    (105, -3); (100, -3); (955, -4); (912, -4); (871, -4); (832, -4); (794, -4); (759, -4);
    (724, -4); (692, -4); (661, -4); (631, -4); (603, -4); (575, -4); (550, -4); (525, -4);
    (501, -4); (479, -4); (457, -4); (437, -4); (417, -4); (398, -4); (380, -4); (363, -4);
    (347, -4); (331, -4); (316, -4); (302, -4); (288, -4); (275, -4); (263, -4); (251, -4);
    (240, -4); (229, -4); (219, -4); (209, -4); (200, -4); (191, -4); (182, -4); (174, -4);
    (166, -4); (158, -4); (151, -4); (145, -4); (138, -4); (132, -4); (126, -4); (120, -4);
    (115, -4); (110, -4); (105, -4); (100, -4); (955, -5); (912, -5); (871, -5); (832, -5);
    (794, -5); (759, -5); (724, -5); (692, -5); (661, -5); (631, -5); (603, -5); (575, -5);
    (550, -5); (525, -5); (501, -5); (479, -5); (457, -5); (437, -5); (417, -5); (398, -5);
    (380, -5); (363, -5); (347, -5); (331, -5); (316, -5); (302, -5); (288, -5); (275, -5);
    (263, -5); (251, -5); (240, -5); (229, -5); (219, -5); (209, -5); (200, -5); (191, -5);
    (182, -5); (174, -5); (166, -5); (158, -5); (151, -5); (145, -5); (138, -5); (132, -5);
    (126, -5); (120, -5); (115, -5); (110, -5); (105, -5); (100, -5); (955, -6); (912, -6);
    (871, -6); (832, -6); (794, -6); (759, -6); (724, -6); (692, -6); (661, -6); (631, -6);
    (603, -6); (575, -6); (550, -6); (525, -6); (501, -6); (479, -6); (457, -6); (437, -6);
    (417, -6); (398, -6); (380, -6); (363, -6); (347, -6); (331, -6); (316, -6); (302, -6);
    (288, -6); (275, -6); (263, -6); (251, -6); (240, -6); (229, -6); (219, -6); (209, -6);
    (200, -6); (191, -6); (182, -6); (174, -6); (166, -6); (158, -6); (151, -6); (145, -6);
    (138, -6); (132, -6); (126, -6); (120, -6); (115, -6); (110, -6); (105, -6); (100, -6);
    (955, -7); (912, -7); (871, -7); (832, -7); (794, -7); (759, -7); (724, -7); (692, -7);
    (661, -7); (631, -7); (603, -7); (575, -7); (550, -7); (525, -7); (501, -7); (479, -7);
    (457, -7); (437, -7); (417, -7); (398, -7); (380, -7); (363, -7); (347, -7); (331, -7);
    (316, -7); (302, -7); (288, -7); (275, -7); (263, -7); (251, -7); (240, -7); (229, -7);
    (219, -7); (209, -7); (200, -7); (191, -7); (182, -7); (174, -7); (166, -7); (158, -7);
    (151, -7); (145, -7); (138, -7); (132, -7); (126, -7); (120, -7); (115, -7); (110, -7);
    (105, -7); (100, -7); (955, -8); (912, -8); (871, -8); (832, -8); (794, -8); (759, -8);
    (724, -8); (692, -8); (661, -8); (631, -8); (603, -8); (575, -8); (550, -8); (525, -8);
    (501, -8); (479, -8); (457, -8); (437, -8); (417, -8); (398, -8); (380, -8); (363, -8);
    (347, -8); (331, -8); (316, -8); (302, -8); (288, -8); (275, -8); (263, -8); (251, -8);
    (240, -8); (229, -8); (219, -8); (209, -8); (200, -8); (191, -8); (182, -8); (174, -8);
    (166, -8); (158, -8); (151, -8); (145, -8); (138, -8); (132, -8); (126, -8); (120, -8);
    (115, -8); (110, -8); (105, -8); (100, -8); (955, -9); (912, -9); (871, -9); (832, -9);
    (794, -9); (759, -9); (724, -9); (692, -9); (661, -9); (631, -9); (603, -9); (575, -9);
    (550, -9); (525, -9); (501, -9); (479, -9); (457, -9); (437, -9); (417, -9); (398, -9);
    (380, -9); (363, -9); (347, -9); (331, -9); (316, -9); (302, -9); (288, -9); (275, -9);
    (263, -9); (251, -9); (240, -9); (229, -9); (219, -9); (209, -9); (200, -9); (191, -9);
    (182, -9); (174, -9); (166, -9); (158, -9); (151, -9); (145, -9); (138, -9); (132, -9);
    (126, -9); (120, -9); (115, -9); (110, -9); (105, -9); (100, -9); (955, -10); (912, -10);
    (871, -10); (832, -10); (794, -10); (759, -10); (724, -10); (692, -10); (661, -10); (631, -10);
    (603, -10); (575, -10); (550, -10); (525, -10); (501, -10); (479, -10); (457, -10); (437, -10);
    (417, -10); (398, -10); (380, -10); (363, -10); (347, -10); (331, -10); (316, -10); (302, -10);
    (288, -10); (275, -10); (263, -10); (251, -10); (240, -10); (229, -10); (219, -10); (209, -10);
    (200, -10); (191, -10); (182, -10); (174, -10); (166, -10); (158, -10); (151, -10); (145, -10);
    (138, -10); (132, -10); (126, -10); (120, -10); (115, -10); (110, -10); (105, -10); (100, -10);
    (955, -11); (912, -11); (871, -11); (832, -11); (794, -11); (759, -11); (724, -11); (692, -11);
    (661, -11); (631, -11); (603, -11); (575, -11); (550, -11); (525, -11); (501, -11); (479, -11);
    (457, -11); (437, -11); (417, -11); (398, -11); (380, -11); (363, -11); (347, -11); (331, -11);
    (316, -11); (302, -11); (288, -11); (275, -11); (263, -11); (251, -11); (240, -11); (229, -11);
    (219, -11); (209, -11); (200, -11); (191, -11); (182, -11); (174, -11); (166, -11); (158, -11);
    (151, -11); (145, -11); (138, -11); (132, -11); (126, -11); (120, -11); (115, -11); (110, -11);
    (105, -11); (100, -11); (955, -12); (912, -12); (871, -12); (832, -12); (794, -12); (759, -12);
    (724, -12); (692, -12); (661, -12); (631, -12); (603, -12); (575, -12); (550, -12); (525, -12);
    (501, -12); (479, -12); (457, -12); (437, -12); (417, -12); (398, -12); (380, -12); (363, -12);
    (347, -12); (331, -12); (316, -12); (302, -12); (288, -12); (275, -12); (263, -12); (251, -12);
    (240, -12); (229, -12); (219, -12); (209, -12); (200, -12); (191, -12); (182, -12); (174, -12);
    (166, -12); (158, -12); (151, -12); (145, -12); (138, -12); (132, -12); (126, -12); (120, -12);
    (115, -12); (110, -12); (105, -12); (100, -12); (955, -13); (912, -13); (871, -13); (832, -13);
    (794, -13); (759, -13); (724, -13); (692, -13); (661, -13); (631, -13); (603, -13); (575, -13);
    (550, -13); (525, -13); (501, -13); (479, -13); (457, -13); (437, -13); (417, -13); (398, -13);
    (380, -13); (363, -13); (347, -13); (331, -13); (316, -13); (302, -13); (288, -13); (275, -13);
    (263, -13); (251, -13); (240, -13); (229, -13); (219, -13); (209, -13); (200, -13); (191, -13);
    (182, -13); (174, -13); (166, -13); (158, -13); (151, -13); (145, -13); (138, -13); (132, -13);
    (126, -13); (120, -13); (115, -13); (110, -13); (105, -13) ]%Z.
Definition gs_162 : list float := map (fun t => fdec (fst t) (snd t)) gs_162_table.
Definition gs_709 : list float := map (fun t => fdec (fst t) (snd t)) gs_709_table.

(** fispact_fluxes_writer.py:46, 197-203; [None] as an argument is a missing option, as a
    result it is False. *)
Definition get_group_struct (gs : option str) : option (list float) :=
  match gs with
  | None => None
  | Some g => if str_eqb g (lit "709") then Some gs_709
              else if str_eqb g (lit "162") then Some gs_162
              else None
  end.

(** fispact_fluxes_writer.py:285-293. *)
Definition check_group_struct (gs : option str) : bool :=
  match gs with
  | None => false
  | Some g => existsb (str_eqb g) [lit "709"; lit "162"]
  end.

Definition fone : float := fdec 1 0.

(** fispact_fluxes_writer.py:206-230; an integer position. *)
Definition create_fluxes_data {A} (groups : option (list A)) (epos : Z) : res (list float) :=
  match groups with
  | None => Err ValueError
  | Some gs =>
      if (0 <=? epos)%Z && (epos <? zlen gs)%Z then
        let flux_data := repeat fzero (List.length gs + 1) in
        let flux_data := firstn (Z.to_nat epos) flux_data ++ fone :: skipn (S (Z.to_nat epos)) flux_data in
        Ok (removelast flux_data ++ [fone])
      else Err ValueError
  end.

(** fispact_fluxes_writer.py:244, np.all(l[:-1] <= l[1:]). *)
Fixpoint ascending_np (l : list float) : bool :=
  match l with
  | a :: ((b :: _) as rest) => fle a b && ascending_np rest
  | _ => true
  end.
(** fispact_fluxes_writer.py:233-252. *)
Definition convert_mcnp_spect (mcnp_spect : option (list float)) : res (list float) :=
  match mcnp_spect with
  | None | Some [] => Err ValueError
  | Some l => if ascending_np l then Ok (rev l ++ [fone]) else Err ValueError
  end.

(** fispact_fluxes_writer.py:255-270. *)
Definition check_upper_bound (groups : option (list float)) (energy : energy_arg) : res bool :=
  match groups with
  | None | Some [] => Err ValueError
  | Some (g0 :: _) =>
      do energy <- energy_value energy;
      Ok (negb (flt g0 energy))
  end.

(** fispact_fluxes_writer.py:273-282; [show] is numpy's text of a float64.  Whatever
    write_lines raises becomes an IOError, that is OSError. *)
Definition write_fluxes_file (show : float -> str) (opath : path) (data : option (list float)) : io unit :=
  match data with
  | None | Some [] => io_raise ValueError
  | Some l => fun f =>
      match write_lines f opath (map show l) with
      | Ok f' => (f', Ok tt)
      | Err _ => (f, Err OSError)
      end
  end.

(** fispact_fluxes_writer.py:306-311, the command after argument parsing: an option not
    given is None; argparse has refused any other group name. *)
Definition fluxes_command (show : float -> str) (output : path) (group energy : option str) : io unit :=
  let gs := get_group_struct group in
  run epos <- io_lift (get_group_pos gs (match energy with Some s => EText s | None => ENone end));
  run fdata <- io_lift (create_fluxes_data gs epos);
  write_fluxes_file show output (Some fdata).
