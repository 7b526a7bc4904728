(** Properties of r2s_cell. *)
From Verif Require Import PyBase PyFloat PyFs PyIo M_util M_ptrac M_input M_mcout M_r2s SpecUtil SpecInput SpecMcout SpecR2s P_r2s P_r2s2 P_r2s3 P_r2s4 P_r2s5.
From Coq Require Import Permutation.

(** C101: the configuration. *)
Theorem C101_assigns : forall json_load f p cfg u, config_file json_load f p cfg ->
  read_config json_load f p = Ok u <->
  (forall k, In k (map fst cfg) -> In k recognised) /\
  setting cfg (lit "mc_input") JNull (u_mc_input u) /\ (forall v, u_mc_output u = Some v <-> In (lit "mc_output", v) cfg) /\
  setting cfg (lit "mc_gamma_input") JNull (u_mc_gamma_input u) /\ setting cfg (lit "mc_code") (JStr (lit "MCNP")) (u_mc_code u) /\
  setting cfg (lit "files_file") JNull (u_files_file u) /\ setting cfg (lit "fispact_template") JNull (u_fispact_template u) /\
  setting cfg (lit "tallies") JNull (u_tallies u) /\ setting cfg (lit "cells") JNull (u_cells u) /\
  setting cfg (lit "fispact_path") JNull (u_fispact_path u) /\ setting cfg (lit "cooling_step") (JInt 1) (u_cooling_step u) /\
  u_mc_ouput u = JNull.
Proof. exact config_assigns. Qed.
Print Assumptions C101_assigns.
Theorem C101_unrecognised : forall json_load f p cfg, config_file json_load f p cfg ->
  (read_config json_load f p = Err ValueError <-> exists k, In k (map fst cfg) /\ ~ In k recognised) /\
  (forall e, read_config json_load f p = Err e -> e = ValueError).
Proof. exact config_bad. Qed.
Print Assumptions C101_unrecognised.
Theorem C101_order : forall json_load f f' p p' cfg cfg', config_file json_load f p cfg -> config_file json_load f' p' cfg' -> Permutation cfg cfg' ->
  read_config json_load f p = read_config json_load f' p'.
Proof. exact config_order. Qed.
Print Assumptions C101_order.
Theorem C101_missing : forall json_load f p, nothing_at f p -> read_config json_load f p = Err FileNotFoundError.
Proof. exact config_missing. Qed.
Print Assumptions C101_missing.
(** The output file has no default: without it the run stops with AttributeError. *)
Theorem C101_output_default_refuted : forall torder sorder set_order json_load cfg f c code u, config_file json_load f cfg c ->
  read_config json_load f cfg = Ok u -> u_mc_code u = JStr code -> upper code = lit "MCNP" -> ~ In (lit "mc_output") (map fst c) ->
  main torder sorder set_order json_load cfg f = (f, Err AttributeError).
Proof. exact main_no_output. Qed.
Print Assumptions C101_output_default_refuted.
(** A parser that knows three texts. *)
Definition ex_cfg : list (str * json) :=
  [(lit "files_file", JStr (lit "lib/FILES")); (lit "mc_output", JStr (lit "o.io")); (lit "mc_input", JStr (lit "deck")); (lit "tallies", JList [JInt 14])].
Definition ex_load (text : str) : res json :=
  if str_eqb text (lit "A") then Ok (JObj ex_cfg)
  else if str_eqb text (lit "B") then Ok (JObj [(lit "cooling_step", JInt 3); (lit "mc_inptu", JNull)])
  else if str_eqb text (lit "C") then Ok (JObj [(lit "mc_input", JStr (lit "deck"))])
  else Err ValueError.
Definition ex_output : str := concat (map (fun l => l ++ [chr 10])
  [lit "1mcnp     version 6     10/01/20 12:00:00"; lit "      run terminated when 1000"; lit "1tally        4        nps =        1000";
   lit "           tally type 4    track length estimate of particle flux."; lit "           particle(s): neutrons ";
   []; lit "           volumes "; lit "                   cell:       7"; lit "                         5.23599E+02 "; lit " ";
   lit " cell  7 "; lit "                 5.12300E-04 0.0123"; []; lit "1tally fluctuation charts"]).
Definition ex_deck : str := concat (map (fun l => l ++ [chr 10])
  [lit "title"; lit "7 1 -7.8 -1 imp:n=1"; lit "8 0 1 imp:n=0"; []; lit "1 so 5"; []; lit "mode n"; lit "m1 26056 1.0"; lit "nps 1000"]).
Definition ex_fs : fs := fun q =>
  if path_eqb q [lit "a.json"] then Some (File (lit "A")) else if path_eqb q [lit "b.json"] then Some (File (lit "B"))
  else if path_eqb q [lit "c.json"] then Some (File (lit "C"))
  else if path_eqb q [lit "o.io"] then Some (File ex_output) else if path_eqb q [lit "deck"] then Some (File ex_deck)
  else if path_eqb q [lit "lib"] then Some Dir else if path_eqb q [lit "lib"; lit "FILES"] then Some (File (lit "ind_nuc data"))
  else None.
Example C101_ex_file : config_file ex_load ex_fs [lit "a.json"] ex_cfg.
Proof.
  exists (lit "A"). split; [vm_compute; reflexivity|]. split; [vm_compute; reflexivity|].
  repeat (constructor; [cbn; intros H; repeat (destruct H as [H|H]; [discriminate|]); destruct H|]). constructor.
Qed.
Example C101_ex : exists u, read_config ex_load ex_fs [lit "a.json"] = Ok u /\ u_mc_input u = JStr (lit "deck") /\ u_cooling_step u = JInt 1 /\
  read_config ex_load ex_fs [lit "b.json"] = Err ValueError /\ read_config ex_load ex_fs [lit "d.json"] = Err FileNotFoundError /\
  snd (main (fun l => l) (fun l => l) (fun l => l) ex_load [lit "c.json"] ex_fs) = Err AttributeError.
Proof. eexists. split; [vm_compute; reflexivity|]. vm_compute. repeat split. Qed.

(** C102: the cells of the tallies. *)
Theorem C102_cells : forall l particle ns cells tals, get_cells_mcnp l particle ns = Ok (cells, tals) <->
  exists names, selects (selected particle ns) l tals /\ Forall2 (fun t cs => b_cells (t_body t) = Some cs) tals names /\
    Forall2 (fun name n => py_int name = Ok n) (concat names) cells.
Proof. exact get_cells_spec. Qed.
Print Assumptions C102_cells.
Theorem C102_errors : forall l particle ns e, get_cells_mcnp l particle ns = Err e <->
  (e = TypeError /\ exists t, In t l /\ selected particle ns t /\ b_cells (t_body t) = None) \/
  (e = ValueError /\ (forall t, In t l -> selected particle ns t -> b_cells (t_body t) <> None) /\
   exists t cs name, In t l /\ selected particle ns t /\ b_cells (t_body t) = Some cs /\ In name cs /\ forall n, py_int name <> Ok n).
Proof. exact get_cells_err. Qed.
Print Assumptions C102_errors.
Definition ex_tally (n : Z) (ty : ascii) (particle : str) (cells : list str) : tally :=
  Tally n ty particle (NpsInt 10) (TBody (TList []) (TList []) None None None None None None None (Some cells) None None).
Definition ex_tallies : list tally :=
  [ex_tally 4 (chr 52) (lit "neutrons") [lit "1"; lit "20"]; ex_tally 14 (chr 52) (lit "photons") [lit "2"];
   ex_tally 6 (chr 54) (lit "neutrons") [lit "3"]; ex_tally 24 (chr 52) (lit "neutrons") [lit "5"]].
Example C102_ex : rmap fst (get_cells_mcnp ex_tallies (lit "neutrons") None) = Ok [1; 20; 5]%Z /\
  rmap fst (get_cells_mcnp ex_tallies (lit "neutrons") (Some [24; 14]%Z)) = Ok [5]%Z /\
  rmap fst (get_cells_mcnp ex_tallies (lit "photons") None) = Ok [2]%Z /\
  rmap fst (get_cells_mcnp [ex_tally 4 (chr 52) (lit "neutrons") [lit "(1"; lit "2)"]] (lit "neutrons") None) = Err ValueError.
Proof. vm_compute. repeat split. Qed.

(** C103: the data of the cells. *)
Theorem C103_rows : forall d ns rows, get_cell_data d ns = Ok (Some rows) <->
  ns <> [] /\ exists cs, Forall2 (fun n c => binds d n c) ns cs /\
    Forall2 (fun c r => cr_number r = c_number c /\ cr_material r = c_mat c /\ cr_density r = c_density c) cs rows /\
    map cr_label rows = seq 0 (List.length ns).
Proof. exact cell_data_rows. Qed.
Print Assumptions C103_rows.
Theorem C103_none : forall d ns, get_cell_data d ns = Ok None <-> ns = [].
Proof. exact cell_data_none. Qed.
Print Assumptions C103_none.
Theorem C103_missing : forall d ns e, get_cell_data d ns = Err e <-> e = ValueError /\ exists n, In n ns /\ ~ In n (map fst d).
Proof. exact cell_data_err. Qed.
Print Assumptions C103_missing.
Definition ex_cells : list (Z * cell) := [(1, Cell 1 5 (Some (fdec 78 (-1))) [] [] [] []); (2, Cell 2 0 None [] [] [] [])]%Z.
Example C103_ex : get_cell_data ex_cells [2; 1; 2]%Z =
    Ok (Some [CellRow 0 2 0 None; CellRow 1 1 5 (Some (fdec 78 (-1))); CellRow 2 2 0 None]%Z) /\
  get_cell_data ex_cells [1; 3]%Z = Err ValueError /\ get_cell_data ex_cells [] = Ok None.
Proof. vm_compute. repeat split. Qed.

(** C104: the folder of a cell. *)
Theorem C104_setup : forall name v f src c, plain_name name -> folder_free f name -> path_of_json v = Ok src -> ~ inside name src -> file_at f src c ->
  exists f', fispact_setup [name] v f = (f', Ok tt) /\ folder_made f name c f'.
Proof. exact setup_ok. Qed.
Print Assumptions C104_setup.
Theorem C104_only_if : forall name v f src f', plain_name name -> path_of_json v = Ok src -> ~ inside name src -> fispact_setup [name] v f = (f', Ok tt) ->
  folder_free f name /\ exists c, file_at f src c /\ folder_made f name c f'.
Proof. exact setup_made. Qed.
Print Assumptions C104_only_if.
(** Whatever happens, nothing outside changes. *)
Theorem C104_frame : forall name v f q, q <> [] -> ~ inside name q -> fst (fispact_setup [name] v f) q = f q.
Proof. exact setup_frame. Qed.
Print Assumptions C104_frame.
Theorem C104_again : forall name v f src c f', plain_name name -> path_of_json v = Ok src -> ~ inside name src -> file_at f src c ->
  fispact_setup [name] v f = (f', Ok tt) -> exists f'', fispact_setup [name] v f' = (f'', Ok tt) /\ forall q, f'' q = f' q.
Proof. exact setup_again. Qed.
Print Assumptions C104_again.
Theorem C104_missing_source : forall name v f src, plain_name name -> folder_free f name -> path_of_json v = Ok src -> ~ inside name src -> nothing_at f src ->
  exists f', fispact_setup [name] v f = (f', Err FileNotFoundError) /\ f' [name; lit "FILES"] = f [name; lit "FILES"] /\ f' [name; lit "fluxes"] = f [name; lit "fluxes"].
Proof. exact setup_missing. Qed.
Print Assumptions C104_missing_source.
(** A folder inside another folder is never set up, unless it already holds the path again. *)
Theorem C104_nested_refuted : forall a b r v f, f ((a :: b :: r) ++ [a]) <> Some Dir -> exists e, snd (fispact_setup (a :: b :: r) v f) = Err e.
Proof. exact setup_nested. Qed.
Print Assumptions C104_nested_refuted.
Example C104_ex_file : file_at ex_fs (path_of_str (lit "lib/FILES")) (lit "ind_nuc data").
Proof.
  split; [discriminate|]. split; [vm_compute; reflexivity|]. intros [|x [|y [|z a]]] b E Ha Hb; [contradiction| | |].
  - injection E as <- E. vm_compute. reflexivity.
  - injection E as <- <- <-. contradiction.
  - discriminate E.
Qed.
Example C104_ex_free : plain_name (lit "cell7") /\ folder_free ex_fs (lit "cell7") /\ ~ inside (lit "cell7") (path_of_str (lit "lib/FILES")).
Proof.
  split; [split; discriminate|]. split; [|intros (r & E); discriminate]. split; [left; vm_compute; reflexivity|].
  intros file (fs' & content & [(-> & _)|[(-> & _)|[(-> & _)|[(-> & _)|(-> & _)]]]]); vm_compute; discriminate.
Qed.
Example C104_ex : let '(f', r) := fispact_setup [lit "cell7"] (JStr (lit "./lib/FILES")) ex_fs in
  r = Ok tt /\ f' [lit "cell7"] = Some Dir /\ f' [lit "cell7"; lit "FILES"] = Some (File (lit "ind_nuc data")) /\
  f' [lit "cell7"; lit "collapse.i"] = Some (File collapse_text) /\ f' [lit "cell7"; lit "cell7.i"] = Some (File []) /\
  snd (fispact_setup [lit "runs"; lit "cell7"] (JStr (lit "lib/FILES")) ex_fs) = Err FileNotFoundError /\
  snd (fispact_setup [lit "lib"] (JStr (lit "lib/FILES")) ex_fs) = Err OSError.
Proof. vm_compute. repeat split. Qed.

(** C171: only four settings are used: tallies, cells, template and paths make no difference. *)
Theorem C171_selection_refuted : forall torder sorder set_order json_load cfg cfg' f u u', read_config json_load f cfg = Ok u -> read_config json_load f cfg' = Ok u' ->
  u_mc_code u = u_mc_code u' -> u_mc_output u = u_mc_output u' -> u_mc_input u = u_mc_input u' -> u_files_file u = u_files_file u' ->
  main torder sorder set_order json_load cfg f = main torder sorder set_order json_load cfg' f.
Proof. exact main_unused. Qed.
Print Assumptions C171_selection_refuted.
(** Tally 14 is asked for, but the cell of tally 4 gets a folder. *)
Example C171_ex : let '(f', r) := main (fun l => l) (fun l => l) (fun l => l) ex_load [lit "a.json"] ex_fs in
  r = Ok tt /\ f' [lit "cell7"] = Some Dir.
Proof. vm_compute. split; reflexivity. Qed.

(** C172: the whole run. *)
Theorem C172_folders : forall torder sorder set_order json_load cfg f u code cells tals d src c,
  read_config json_load f cfg = Ok u -> u_mc_code u = JStr code -> upper code = lit "MCNP" ->
  read_data_from_mcnp_output torder sorder u f = Ok (cells, tals) -> read_data_from_mcnp_input set_order u cells f = Ok d ->
  path_of_json (u_files_file u) = Ok src -> file_at f src c ->
  (forall n, In n cells -> folder_free f (cell_folder n) /\ ~ inside (cell_folder n) src) ->
  exists f', main torder sorder set_order json_load cfg f = (f', Ok tt) /\ (forall n, In n cells -> folder_holds f' (cell_folder n) c) /\
    (forall q, (forall n, In n cells -> ~ folder_path (cell_folder n) q) -> f' q = f q).
Proof. exact main_folders. Qed.
Print Assumptions C172_folders.
Theorem C172_frame : forall torder sorder set_order json_load cfg f q, q <> [] -> (forall n, ~ inside (cell_folder n) q) ->
  fst (main torder sorder set_order json_load cfg f) q = f q.
Proof. exact main_frame. Qed.
Print Assumptions C172_frame.
(** Nothing is written before everything has been read. *)
Theorem C172_reads_first : forall torder sorder set_order json_load cfg f f' e, main torder sorder set_order json_load cfg f = (f', Err e) -> f' = f \/
  exists u cells tals d, read_config json_load f cfg = Ok u /\ read_data_from_mcnp_output torder sorder u f = Ok (cells, tals) /\
    read_data_from_mcnp_input set_order u cells f = Ok d.
Proof. exact main_err. Qed.
Print Assumptions C172_reads_first.
Theorem C172_other_code : forall torder sorder set_order json_load cfg f u code, read_config json_load f cfg = Ok u -> u_mc_code u = JStr code ->
  upper code <> lit "MCNP" -> main torder sorder set_order json_load cfg f = (f, Err NotImplementedError).
Proof. exact main_code. Qed.
Print Assumptions C172_other_code.
Theorem C172_fatal : forall torder sorder u f v p o, u_mc_output u = Some v -> path_of_json v = Ok p -> path_exists f p = true ->
  read_output_file torder sorder f p = Ok o ->
  read_data_from_mcnp_output torder sorder u f = if o_fatal o then Err ValueError else get_cells_mcnp (o_tally_data o) (lit "neutrons") None.
Proof. exact out_fatal. Qed.
Print Assumptions C172_fatal.
Example C172_ex_reads : exists u tals rows mats, read_config ex_load ex_fs [lit "a.json"] = Ok u /\
  read_data_from_mcnp_output (fun l => l) (fun l => l) u ex_fs = Ok ([7]%Z, tals) /\
  read_data_from_mcnp_input (nodup Z.eq_dec) u [7]%Z ex_fs = Ok (rows, mats) /\ map m_number mats = [1]%Z /\ path_of_json (u_files_file u) = Ok [lit "lib"; lit "FILES"].
Proof. do 4 eexists. split; [vm_compute; reflexivity|]. split; [vm_compute; reflexivity|]. split; [vm_compute; reflexivity|]. vm_compute. split; reflexivity. Qed.

(** C173: an output without neutron flux tallies in cells stops the run with TypeError. *)
Theorem C173_nothing_to_do_refuted : forall torder sorder set_order json_load cfg f u code tals p mc, read_config json_load f cfg = Ok u ->
  u_mc_code u = JStr code -> upper code = lit "MCNP" -> read_data_from_mcnp_output torder sorder u f = Ok ([], tals) ->
  path_of_json (u_mc_input u) = Ok p -> read_mcnp_input f p = Ok mc -> main torder sorder set_order json_load cfg f = (f, Err TypeError).
Proof. exact main_no_cells. Qed.
Print Assumptions C173_nothing_to_do_refuted.
Definition ex_empty : fs := fs_set ex_fs [lit "o.io"] (File (concat (map (fun l => l ++ [chr 10])
  [lit "1mcnp     version 6     10/01/20 12:00:00"; lit "      run terminated when 1000"; lit "1tally fluctuation charts"]))).
Example C173_ex : snd (main (fun l => l) (fun l => l) (fun l => l) ex_load [lit "a.json"] ex_empty) = Err TypeError.
Proof. vm_compute. reflexivity. Qed.

(** C174: the FISPACT input and the fluxes of every cell are empty files. *)
Theorem C174_contents_refuted : forall name v f src f', plain_name name -> path_of_json v = Ok src -> ~ inside name src ->
  fispact_setup [name] v f = (f', Ok tt) -> f' [name; name ++ lit ".i"] = Some (File []) /\ f' [name; lit "fluxes"] = Some (File []).
Proof. exact setup_empty. Qed.
Print Assumptions C174_contents_refuted.

(** C175: the check of a FISPACT log accepts every log. *)
Theorem C175_fatal_log_refuted : forall f p lines, get_lines f p = Ok lines -> check_fispact_errors p f = (f, Ok 0%Z).
Proof. exact check_errors_zero. Qed.
Print Assumptions C175_fatal_log_refuted.
Example C175_ex : let f := fs_set ex_fs [lit "run.log"] (File (lit "fatal error in collapse")) in
  get_lines f [lit "run.log"] = Ok [lit "fatal error in collapse"] /\ snd (check_fispact_errors [lit "run.log"] f) = Ok 0%Z /\
  snd (check_fispact_errors [lit "none.log"] f) = Err FileNotFoundError.
Proof. vm_compute. repeat split. Qed.

(** C176: every material is read once; one without a card is taken to be empty. *)
Theorem C176_materials : forall set_order u cells f rows mats, set_listing set_order -> read_data_from_mcnp_input set_order u cells f = Ok (rows, mats) ->
  NoDup (map m_number mats) /\ (forall n, In n (map m_number mats) <-> exists r, In r rows /\ cr_material r = n).
Proof. exact in_materials. Qed.
Print Assumptions C176_materials.
Theorem C176_no_card_refuted : forall so u cells f p mc rows n, set_listing so -> path_of_json (u_mc_input u) = Ok p -> read_mcnp_input f p = Ok mc ->
  get_cell_data (i_cells mc) cells = Ok (Some rows) -> (exists r, In r rows /\ cr_material r = n) -> (0 <= n)%Z ->
  (forall l, In l (i_data_block mc) -> ~ mat_head n l) -> forall d, read_data_from_mcnp_input so u cells f = Ok d ->
  exists m, In m (snd d) /\ m_number m = n /\ m_composition m = [].
Proof. exact in_no_card. Qed.
Print Assumptions C176_no_card_refuted.
Example C176_ex_listing : set_listing (nodup Z.eq_dec).
Proof. intros l. split; [apply NoDup_nodup|]. intros x. apply nodup_In. Qed.
Definition ex_nocard : fs := fs_set ex_fs [lit "deck"] (File (concat (map (fun l => l ++ [chr 10])
  [lit "title"; lit "7 2 -7.8 -1 imp:n=1"; lit "8 0 1 imp:n=0"; []; lit "1 so 5"; []; lit "mode n"; lit "m1 26056 1.0"; lit "nps 1000"]))).
Example C176_ex : exists u, read_config ex_load ex_nocard [lit "a.json"] = Ok u /\
  rmap snd (read_data_from_mcnp_input (nodup Z.eq_dec) u [7; 8; 7]%Z ex_nocard) = Ok [Material 0 0 [] [] [] []; Material 2 0 [] [] [] []].
Proof. eexists. split; [vm_compute; reflexivity|]. vm_compute. reflexivity. Qed.

(** C177: the order of iteration of sets does not change the result of a run. *)
Theorem C177_order : forall t1 t2 so s1 s2 jl cfg f f1, rearranges t1 -> rearranges t2 -> set_listing s1 -> set_listing s2 ->
  (forall u src n, read_config jl f cfg = Ok u -> path_of_json (u_files_file u) = Ok src -> ~ inside (cell_folder n) src) ->
  main t1 so s1 jl cfg f = (f1, Ok tt) -> exists f2, main t2 so s2 jl cfg f = (f2, Ok tt) /\ forall q, f2 q = f1 q.
Proof. exact main_order. Qed.
Print Assumptions C177_order.
Example C177_ex : snd (main (fun l => l) (fun l => l) (nodup Z.eq_dec) ex_load [lit "a.json"] ex_fs) = Ok tt /\
  snd (main (@rev str) (fun l => l) (fun l => rev (nodup Z.eq_dec l)) ex_load [lit "a.json"] ex_fs) = Ok tt.
Proof. vm_compute. split; reflexivity. Qed.
