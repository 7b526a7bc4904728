(** Properties C215-C219: the text forms of surfaces, cells and materials, the window of
    energy_slice and plotted surface currents. *)
From Coq Require Import Reals Sorted Permutation.
From Flocq Require Import Core.
From Verif Require Import PyBase PyFacts PyFloat FloatR PyFs PyIo M_util M_input M_str M_str2 M_mcout M_mcana SpecUtil SpecMcana SpecMcana2 SpecStr2 P_str2 P_mcana6.
Import ListNotations.

(** C215: str() of the surfaces of decks. *)
Theorem C215_surface : forall b1 b2 d1 d2 k1 k2 s1 s2, process_surface_block b1 = Ok d1 -> process_surface_block b2 = Ok d2 -> In (k1, s1) d1 -> In (k2, s2) d2 ->
  surface_str s1 = surface_str s2 -> s1 = s2.
Proof. exact deck_surface_inj. Qed.
Print Assumptions C215_surface.
Theorem C215_lines : forall b d k s, process_surface_block b = Ok d -> In (k, s) d -> lines_of (surface_str s) (if s_has_transform s then 4 else 3).
Proof. exact deck_surface_lines. Qed.
Print Assumptions C215_lines.
Example C215_ex : rmap (map (fun ks => surface_str (snd ks))) (process_surface_block (map lit ["1 px 3"; "2 4 SO 1.5"]%string)) =
  Ok [lit "Surface number: 1" ++ chr 10 :: lit "Surface type: px" ++ chr 10 :: lit "Surface parameters: ['3']";
      lit "Surface number: 2" ++ chr 10 :: lit "Surface type: so" ++ chr 10 :: lit "Surface parameters: ['1.5']" ++ chr 10 :: lit "Surface transform: 4"].
Proof. vm_compute. reflexivity. Qed.

(** C216: str() of cells. *)
Theorem C216_cell : forall show, repr_float show -> forall c1 c2, cell_str show c1 = cell_str show c2 -> c1 = c2.
Proof. exact cell_str_inj. Qed.
Print Assumptions C216_cell.
Theorem C216_lines : forall show, repr_float show -> forall c, lines_of (cell_str show c) (match c_density c with Some _ => 8 | None => 7 end).
Proof. exact cell_str_lines. Qed.
Print Assumptions C216_lines.
Example C216_ex : repr_float show_me.
Proof. exact show_me_ok. Qed.
Example C216_ex_cell : rmap (map (fun kc => cell_str (fun _ => lit "1.0") (snd kc))) (process_cell_block [lit "7 1 -1.0 1 imp:n=1 $it's"]) =
  Ok [lit "Cell number: 7" ++ chr 10 :: lit "Cell material: 1" ++ chr 10 :: lit "Cell density: 1.0" ++ chr 10 :: lit "Cell geom: ['1', 'imp:n=1', ""$it's""]" ++ chr 10 ::
      lit "Cell surfaces: [1.0]" ++ chr 10 :: lit "Cell importances: {'n': 1.0}" ++ chr 10 :: lit "Cell comments: [""it's""]" ++ chr 10 :: lit "Cell parameters: []"].
Proof. vm_compute. reflexivity. Qed.

(** C217: str() of materials. *)
Theorem C217_material : forall show, repr_float show -> forall a b, material_str show a = material_str show b ->
  m_number a = m_number b /\ m_num_nuclides a = m_num_nuclides b /\ m_composition a = m_composition b /\ m_keywords a = m_keywords b.
Proof. exact material_str_inj. Qed.
Print Assumptions C217_material.
(** Nothing else is shown, so that thermal scattering laws are not told apart. *)
Theorem C217_thermal_refuted : forall show a mt mx, material_str show (Material (m_number a) (m_num_nuclides a) (m_composition a) (m_keywords a) mt mx) = material_str show a.
Proof. intros show a mt mx. exact (material_str_only show _ _ eq_refl eq_refl eq_refl eq_refl). Qed.
Print Assumptions C217_thermal_refuted.
Example C217_ex : rmap (material_str (fun _ => lit "1.0")) (read_material_lines 3 (map lit ["m3 1001.31c 1.0"; "     8016 1.0 nlib=31c"; "mt3 lwtr.20t"]%string)) =
  Ok (lit "Material number: 3" ++ chr 10 :: lit "Number of Nuclides: 2" ++ chr 10 :: lit "Composition: {'1001.31c': 1.0, '8016': 1.0}" ++ chr 10 :: lit "Keywords: {'nlib': '31c'}").
Proof. vm_compute. reflexivity. Qed.

(** C218: the times shown by energy_slice. *)
Theorem C218_window : forall np tes es ts m w f tot ds, nonneg f -> Forall (Forall nonneg) m -> (0 <= w)%Z ->
  Forall (fun te => no_nan (map (fun e => dist e te) es)) tes ->
  energy_slice np tes es ts m None None w f tot = Ok ds ->
  exists peaks j ta tb, Forall2 (peak_at es ts m f) tes peaks /\ median_of peaks j /\ j < List.length ts /\
    nth_error ts (j - Z.to_nat w) = Some ta /\ nth_error ts (Nat.min (List.length ts - 1) (j + Z.to_nat w)) = Some tb /\
    In (DXlim (Some (fdiv ta (f_of_Z 100))) (Some (fdiv tb (f_of_Z 100)))) ds.
Proof. exact window_spec. Qed.
Print Assumptions C218_window.
Example C218_ex : energy_slice add_up [f_of_Z 3; f_of_Z 1; f_of_Z 3] [f_of_Z 1; f_of_Z 3] [f_of_Z 100; f_of_Z 200; f_of_Z 300; f_of_Z 400]
    [[f_of_Z 0; f_of_Z 0; f_of_Z 9; f_of_Z 0; f_of_Z 9]; [f_of_Z 7; f_of_Z 0; f_of_Z 0; f_of_Z 0; f_of_Z 7]] None None 1 (f_of_Z 1) false =
  Ok [DCurve None [f_of_Z 1; f_of_Z 2; f_of_Z 3; f_of_Z 4] [f_of_Z 7; f_of_Z 0; f_of_Z 0; f_of_Z 0];
      DCurve None [f_of_Z 1; f_of_Z 2; f_of_Z 3; f_of_Z 4] [f_of_Z 0; f_of_Z 0; f_of_Z 9; f_of_Z 0];
      DCurve None [f_of_Z 1; f_of_Z 2; f_of_Z 3; f_of_Z 4] [f_of_Z 7; f_of_Z 0; f_of_Z 0; f_of_Z 0];
      DXlim (Some (f_of_Z 1)) (Some (f_of_Z 2)); DYlim fzero (fmul (f_of_Z 9) (fdec 105 (-2)))].
Proof. vm_compute. reflexivity. Qed.
Example C218_ex_median : median_of [0; 2; 0] 0.
Proof.
  exists [0; 0; 2], 0, 0. split; [apply perm_skip, perm_swap|]. split; [|split; [reflexivity|split; reflexivity]].
  repeat constructor.
Qed.

(** C219: surface currents. *)
Theorem C219_tables : forall oc ob t eng surfs ang d x, current t eng surfs ang -> List.length ang <= 1 -> b_result (t_body t) = TTable d ->
  Forall (fun kv => List.length (snd kv) = List.length eng) d -> is_finite_f x = true ->
  exists cs, plot_spectra oc ob [t] false (Some x) = Ok (cs ++ [DXmin x]) /\
    Forall2 (fun kv c => exists y, c = DCurve (Some (fst kv)) eng y /\ per_width eng (snd kv) y) d cs.
Proof. exact current_tables. Qed.
Print Assumptions C219_tables.
Theorem C219_angles : forall oc ob t eng s ang rows x, current t eng [s] ang -> 2 <= List.length ang -> b_result (t_body t) = TList (map ERow rows) ->
  Forall (fun row => List.length row = List.length eng) rows -> is_finite_f x = true ->
  exists cs, plot_spectra oc ob [t] false (Some x) = Ok (cs ++ [DXmin x]) /\
    Forall2 (fun row c => exists y, c = DCurve None eng y /\ row_per_width eng row y) rows cs.
Proof. exact current_angles. Qed.
Print Assumptions C219_angles.
Theorem C219_several : forall oc ob t eng surfs ang data err xlow, current t eng surfs ang -> 2 <= List.length surfs -> 2 <= List.length ang ->
  plot_spectra oc ob (t :: data) err xlow = Err NotImplementedError.
Proof. exact current_several. Qed.
Print Assumptions C219_several.
Definition C219_tally (surfs : list str) (ang : list float) (r : tresult) : tally :=
  Tally 1 "1" (lit "neutrons") (NpsInt 100) (TBody r (TList []) (Some [f_of_Z 1; f_of_Z 3]) None None None (Some surfs) None (Some ang) None None None).
Example C219_ex : current (C219_tally [lit "5"] [fdec 0 0; fdec 1 0] (TList (map ERow [[f_of_Z 1; f_of_Z 4]; [f_of_Z 2; f_of_Z 6]]))) [f_of_Z 1; f_of_Z 3] [lit "5"] [fdec 0 0; fdec 1 0] /\
  plot_spectra (fun _ => Err TypeError) (fun _ => Err TypeError) [C219_tally [lit "5"] [fdec 0 0; fdec 1 0] (TList (map ERow [[f_of_Z 1; f_of_Z 4]; [f_of_Z 2; f_of_Z 6]]))] false (Some (f_of_Z 0)) =
  Ok [DCurve None [f_of_Z 1; f_of_Z 3] [f_of_Z 1; f_of_Z 2]; DCurve None [f_of_Z 1; f_of_Z 3] [f_of_Z 2; f_of_Z 3]; DXmin (f_of_Z 0)].
Proof. split; [|vm_compute; reflexivity]. split; [reflexivity|]. split; [reflexivity|]. split; [cbn; apply le_n|]. split; reflexivity. Qed.
