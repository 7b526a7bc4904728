(** Properties C55-C64, C122-C138: mcnp_output_reader.py.  Vocabulary: SpecStr.v,
    SpecOutput.v, SpecMcout.v. *)
From Coq Require Import Permutation.
From Verif Require Import PyBase PyFloat PyFs SpecStr SpecInput SpecOutput M_util M_mcout SpecMcout P_mcout P_mcout2 P_mcout3 P_mcout4 P_mcout5 P_mcout6 TextTac.

(** C55 *)
Theorem C55_indices : forall data, increasing (get_rendevous_index data) /\
  (forall i, In i (get_rendevous_index data) <-> line_at rendezvous data i) /\ count_rendevous data = List.length (get_rendevous_index data).
Proof. exact (fun data => conj (rendezvous_increasing data) (conj (rendezvous_In data) eq_refl)). Qed.
Print Assumptions C55_indices.
Theorem C55_second_last : forall data i, find_last_rendevous data = Some i <-> second_last rendezvous data i.
Proof. exact find_last_Some. Qed.
Print Assumptions C55_second_last.
Theorem C55_too_few : forall data, find_last_rendevous data = None <-> at_most_one rendezvous data.
Proof. exact find_last_None. Qed.
Print Assumptions C55_too_few.
Example C55_ex : let r := lit " master set rendezvous nps =   1000" in
  get_rendevous_index [r; []; r; lit "x"; r] = [0; 2; 4] /\ find_last_rendevous [r; []; r; lit "x"; r] = Some 2 /\ find_last_rendevous [r; []] = None.
Proof. vm_compute. repeat split. Qed.

(** C56 *)
Theorem C56_numbers : forall lines ns, get_tally_nums lines = Ok ns ->
  NoDup ns /\ forall t, In t ns <-> exists l, In l lines /\ listed_tally l t.
Proof. exact tally_nums_Ok. Qed.
Print Assumptions C56_numbers.
Theorem C56_errors : forall lines e, get_tally_nums lines = Err e <->
  e = IndexError /\ exists l a, In l lines /\ prefix_of (lit "1tally     ") l /\ words l [a].
Proof. exact tally_nums_Err. Qed.
Print Assumptions C56_errors.
Example C56_ex : get_tally_nums [lit "1tally        4        nps = 100"; lit "x"; lit "1tally       14        nps = 100"; lit "1tally        4  nps"] =
  Ok [lit "4"; lit "14"] /\ get_tally_nums [lit "1tally      "] = Err IndexError.
Proof. vm_compute. split; reflexivity. Qed.

(** C57 *)
Theorem C57_tables : forall data k i, dict_get str_eqb k (get_table_dict data) = Some i <-> last_at (table_line k) data i.
Proof. exact table_dict_spec. Qed.
Print Assumptions C57_tables.
Theorem C57_keys : forall data, NoDup (map fst (get_table_dict data)).
Proof. exact table_dict_NoDup. Qed.
Print Assumptions C57_keys.
Example C57_ex : get_table_dict [lit "1cells            print table 60"; lit "a"; lit " print table 101"; lit " print table 60"; lit "print table 160"] =
  [(lit "60", 3); (lit "101", 2)].
Proof. vm_compute. reflexivity. Qed.

(** C58 *)
Theorem C58_comments_warnings : forall lines,
  picked (prefix_of (lit "  comment.")) lines (fst (read_comments_warnings lines)) /\
  picked (prefix_of (lit "  warning.")) lines (snd (read_comments_warnings lines)).
Proof. exact comments_warnings_spec. Qed.
Print Assumptions C58_comments_warnings.
Theorem C58_fatal : forall data, check_fatal data = true <->
  exists l a w b, In l data /\ l = a ++ w ++ b /\ lower w = lit "fatal".
Proof. exact fatal_spec. Qed.
Print Assumptions C58_fatal.
Example C58_ex : check_fatal [lit "ok"; lit " FaTal error."] = true /\ check_fatal [lit "fat al"] = false /\
  read_comments_warnings [lit "  comment. a"; lit "  warning. b"; lit " comment. c"; lit "  comment. d"] = ([lit "  comment. a"; lit "  comment. d"], [lit "  warning. b"]).
Proof. vm_compute. repeat split. Qed.

(** C59: a tally depends only on its section of the last results. *)
Theorem C59_section : forall order d1 d2 t hdr body, tally_section d1 t hdr body -> tally_section d2 t hdr body ->
  read_tally order d1 t = read_tally order d2 t.
Proof. exact read_tally_local. Qed.
Print Assumptions C59_section.
Definition C59_title : str := lit "1tally        4        nps =        1000".
Definition C59_body : list str :=
  [lit "           tally type 4    track length estimate of particle flux."; lit "           particle(s): neutrons ";
   []; lit "           volumes "; lit "                   cell:       1"; lit "                         5.23599E+02 "; lit " ";
   lit " cell  1 "; lit "                 5.12300E-04 0.0123"; []].
Definition C59_data : list str :=
  [lit "1mcnp     version 6"; C59_title; lit "rubbish"; lit "      run terminated when 1000 particle histories were done."; lit "1tally        2        nps"; C59_title] ++ C59_body ++ [lit "1tally        6"; lit "x"].
Example C59_ex_section : tally_section C59_data (lit "4") C59_title C59_body.
Proof.
  exists [lit "1mcnp     version 6"; C59_title; lit "rubbish"], [lit "      run terminated when 1000 particle histories were done."; lit "1tally        2        nps"], (lit "1tally        6"), [lit "x"].
  split; [reflexivity|]. split; [|split; [|split; [|split; [|split]]]].
  - apply rs_end. apply (find_line_pre_Ok (lit "      run terminated ") C59_data 21); vm_compute; reflexivity.
  - intros l [<-|[<-|[]]] (_ & H); apply PyFacts.starts_with_spec in H; vm_compute in H; discriminate H.
  - split; [vm_compute; auto with arith|text].
  - unfold C59_body. text.
  - unfold any_tally. text.
  - vm_compute. auto with arith.
Qed.
Example C59_ex : exists b, read_tally (fun l => l) C59_data (lit "4") =
  Ok (Tally 4 (chr 52) (lit "neutrons") (NpsInt 1000) b) /\ b_result b = TList [EFloat (fdec 5123 (-7))] /\ b_cells b = Some [lit "1"].
Proof. eexists. split; [vm_compute; reflexivity|]. vm_compute. split; reflexivity. Qed.

(** C60 *)
Theorem C60_time_bins : forall lines ts ps, time_block lines ts ps -> process_time_bin_only lines = Ok (ts, map fst ps, map snd ps).
Proof. exact time_bin_only_spec. Qed.
Print Assumptions C60_time_bins.
Example C60_ex : time_block [lit "      time:   1.0E+00   2.0E+00   total"; []; lit "    1.5E-01 0.01  2.5E-01 0.02  4.0E-01 0.015"; lit " "]
  [lit "1.0E+00"; lit "2.0E+00"; lit "total"] [(fdec 15 (-2), fdec 1 (-2)); (fdec 25 (-2), fdec 2 (-2)); (fdec 4 (-1), fdec 15 (-3))].
Proof.
  apply (tb_times _ (lit "time:") [lit "1.0E+00"; lit "2.0E+00"; lit "total"] _ []); [text|text|]. apply tb_blank; [text|].
  apply (tb_values _ (map lit ["1.5E-01"; "0.01"; "2.5E-01"; "0.02"; "4.0E-01"; "0.015"]%string) [(fdec 15 (-2), fdec 1 (-2)); (fdec 25 (-2), fdec 2 (-2)); (fdec 4 (-1), fdec 15 (-3))] _ _ []); [text|text| | |].
  - unfold flat. cbn [map concat app fst snd]. text.
  - cbn [map]. repeat (apply Forall_cons; [split; [vm_compute; auto with arith|text]|]). apply Forall_nil.
  - apply tb_blank; [text|]. apply tb_nil.
Qed.

(** C61: rows are the energies and columns the times, those of the parts side by side. *)
Theorem C61_matrix : forall es lines parts, et_listing es lines parts -> parts <> [] -> ascending es -> ascending (concat (map fst parts)) ->
  exists V U, process_e_t_userbin lines = Ok (concat (map fst parts), es, V, U) /\
    matrix_of fst parts (List.length es) V /\ matrix_of snd parts (List.length es) U.
Proof. exact userbin_ascending. Qed.
Print Assumptions C61_matrix.
Theorem C61_none : forall lines, none_of (heads (lit "time:")) lines -> process_e_t_userbin lines = Err ValueError.
Proof. exact userbin_none. Qed.
Print Assumptions C61_none.
Definition C61_lines : list str :=
  [lit " detector"; lit "      time:         1.0000E+00           2.0000E+00"; lit "      energy";
   lit "    1.0000E-01   1.5E-03 0.0100   2.5E-03 0.0200"; lit "    2.0000E+00   3.5E-03 0.0300   4.5E-03 0.0400"; lit "      total      5.0E-03 0.02 7.0E-03 0.03"; [];
   lit "      time:         3.0000E+00           total"; lit "      energy";
   lit "    1.0000E-01   5.5E-03 0.0500   9.5E-03 0.0600"; lit "    2.0000E+00   6.5E-03 0.0700   1.5E-02 0.0800"; []; lit "end"].
Definition C61_parts : list (list float * list (list (float * float))) :=
  [([fdec 1 0; fdec 2 0], [[(fdec 15 (-4), fdec 1 (-2)); (fdec 25 (-4), fdec 2 (-2))]; [(fdec 35 (-4), fdec 3 (-2)); (fdec 45 (-4), fdec 4 (-2))]]);
   ([fdec 3 0], [[(fdec 55 (-4), fdec 5 (-2)); (fdec 95 (-4), fdec 6 (-2))]; [(fdec 65 (-4), fdec 7 (-2)); (fdec 15 (-3), fdec 8 (-2))]])].
Example C61_ex_listing : et_listing [fdec 1 (-1); fdec 2 0] C61_lines C61_parts.
Proof.
  unfold C61_lines, C61_parts.
  apply (etl_part _ [_] [_; _; _; _; _] _ _ [_; _; _; _; _; _; _]); [text| |].
  - apply (et_block_intro _ _ [_; _] _ _ false); [exists [lit "1.0000E+00"; lit "2.0000E+00"]; split; [text|split; text]|text| |discriminate|repeat constructor|right; text].
    apply er_cons; [exists (lit "1.0000E-01"), (map lit ["1.5E-03"; "0.0100"; "2.5E-03"; "0.0200"]%string); split; [text|split; [cbn [map]; text|split; [text|unfold flat; cbn [map concat app fst snd]; text]]]|].
    apply er_cons; [exists (lit "2.0000E+00"), (map lit ["3.5E-03"; "0.0300"; "4.5E-03"; "0.0400"]%string); split; [text|split; [cbn [map]; text|split; [text|unfold flat; cbn [map concat app fst snd]; text]]]|].
    apply er_nil.
  - apply (etl_part _ [_] [_; _; _; _; _] _ _ [_]); [text| |apply etl_end; text].
    apply (et_block_intro _ _ [_; _] _ _ true); [exists [lit "3.0000E+00"]; split; [text|split; text]|text| |discriminate|repeat constructor|left; text].
    apply er_cons; [exists (lit "1.0000E-01"), (map lit ["5.5E-03"; "0.0500"; "9.5E-03"; "0.0600"]%string); split; [text|split; [cbn [map]; text|split; [text|unfold flat; cbn [map concat app fst snd]; text]]]|].
    apply er_cons; [exists (lit "2.0000E+00"), (map lit ["6.5E-03"; "0.0700"; "1.5E-02"; "0.0800"]%string); split; [text|split; [cbn [map]; text|split; [text|unfold flat; cbn [map concat app fst snd]; text]]]|].
    apply er_nil.
Qed.
Example C61_ex : process_e_t_userbin C61_lines = Ok ([fdec 1 0; fdec 2 0; fdec 3 0], [fdec 1 (-1); fdec 2 0],
  [[fdec 15 (-4); fdec 25 (-4); fdec 55 (-4); fdec 95 (-4)]; [fdec 35 (-4); fdec 45 (-4); fdec 65 (-4); fdec 15 (-3)]],
  [[fdec 1 (-2); fdec 2 (-2); fdec 5 (-2); fdec 6 (-2)]; [fdec 3 (-2); fdec 4 (-2); fdec 7 (-2); fdec 8 (-2)]]).
Proof. vm_compute. reflexivity. Qed.

(** C62 *)
Theorem C62_surfaces : forall lines bs, bin_listing (lit "surface") lines bs -> exists d t, process_energy_binned_surface_tally lines = Ok (d, t) /\
    (forall k, dict_get Z.eqb k d = match rows_of_block k bs with [] => None | (_ :: _) as l => Some l end) /\
    (forall k, is_last (totals_of_block k bs) (dict_get Z.eqb k t)).
Proof. exact surface_bins. Qed.
Print Assumptions C62_surfaces.
Theorem C62_cells : forall lines bs, bin_listing (lit "cell") lines bs -> exists d t, read_energy_bin_only_cell_tally lines = Ok (d, t) /\
    (forall k, dict_get Z.eqb k d = match rows_of_block k bs with [] => None | (_ :: _) as l => Some l end) /\
    (forall k, is_last (totals_of_block k bs) (dict_get Z.eqb k t)).
Proof. exact cell_bins. Qed.
Print Assumptions C62_cells.
Example C62_ex : bin_listing (lit "cell") [lit " cell  12"; lit "    1.0E-01   2.0E-04 0.05"; lit "    1.0E+00   3.0E-04 0.06"; lit "      total   5.0E-04 0.04"; lit " cell  3"; lit "    1.0E-01   7.0E-04 0.01"]
  [(12%Z, [(fdec 1 (-1), fdec 2 (-4), fdec 5 (-2)); (fdec 1 0, fdec 3 (-4), fdec 6 (-2))], [(fdec 5 (-4), fdec 4 (-2))]); (3%Z, [(fdec 1 (-1), fdec 7 (-4), fdec 1 (-2))], [])].
Proof.
  exists [], [lit " cell  12"; lit "    1.0E-01   2.0E-04 0.05"; lit "    1.0E+00   3.0E-04 0.06"; lit "      total   5.0E-04 0.04"; lit " cell  3"; lit "    1.0E-01   7.0E-04 0.01"].
  split; [reflexivity|split; [intros l n []|]].
  apply (bl_cons _ _ _ [_; _; _] _ _ [_; _]); [|reflexivity| |].
  - exists (lit " "), (lit "  "), (lit "12"), []. repeat split; try (repeat constructor); try discriminate.
  - apply bb_row; [exists (chr 49), (lit ".0E-01"), (lit "2.0E-04"), (lit "0.05"); repeat split; text|].
    apply bb_row; [exists (chr 49), (lit ".0E+00"), (lit "3.0E-04"), (lit "0.06"); repeat split; text|].
    apply bb_total; [exists (lit "total"), (lit "5.0E-04"), (lit "0.04"); repeat split; text|]. apply bb_nil.
  - apply (bl_cons _ _ _ [_] _ _ []); [|reflexivity| |apply bl_nil].
    + exists (lit " "), (lit "  "), (lit "3"), []. repeat split; try (repeat constructor); try discriminate.
    + apply bb_row; [exists (chr 49), (lit ".0E-01"), (lit "7.0E-04"), (lit "0.01"); repeat split; text|]. apply bb_nil.
Qed.

(** C63: any result with two or more surfaces can also come with the surfaces in another order. *)
Theorem C63_refuted : forall order lines b ss, rearranges order -> read_type_surface order (chr 49) lines = Ok b -> b_surfaces b = Some ss -> 2 <= List.length ss ->
  exists order' b' ss', rearranges order' /\ read_type_surface order' (chr 49) lines = Ok b' /\ b_surfaces b' = Some ss' /\
    Permutation ss ss' /\ ss' <> ss /\ b_result b' = b_result b /\ b_err b' = b_err b.
Proof. exact type1_refuted. Qed.
Print Assumptions C63_refuted.
(** C133: the results are in the printed order, the surfaces in the order of the set. *)
Theorem C133_printed_order : forall order l0 l1 ls s r s2 r2 rs ss, ~ prefix_of (lit " surface ") l0 -> ~ prefix_of (lit " surface ") l1 ->
  surface_values ls ((s, r) :: (s2, r2) :: rs) ->
  NoDup (map fst ((s, r) :: (s2, r2) :: rs)) -> rearranges order -> order (map fst ((s, r) :: (s2, r2) :: rs)) = ss ->
  (forall gap h l ls', ls = gap ++ h :: l :: ls' -> prefix_of (lit " surface ") h -> none_of (prefix_of (lit " surface ")) gap ->
     ~ occurs (lit "energy") l /\ ~ occurs (lit "angle") l /\ ~ occurs (lit "time") l) ->
  exists b, read_type_surface order (chr 49) (l0 :: l1 :: ls) = Ok b /\ b_surfaces b = Some ss /\
    b_result b = TList (map (fun x => EFloat (fst (snd x))) ((s, r) :: (s2, r2) :: rs)) /\
    b_err b = TList (map (fun x => EFloat (snd (snd x))) ((s, r) :: (s2, r2) :: rs)).
Proof. exact type1_values. Qed.
Print Assumptions C133_printed_order.
Definition C63_lines : list str :=
  [lit " surface  10"; lit "                 1.5E-03 0.0100"; lit " surface  20"; lit "                 2.5E-03 0.0200"; []].
Example C63_ex_lines : surface_values C63_lines [(lit "10", (fdec 15 (-4), fdec 1 (-2))); (lit "20", (fdec 25 (-4), fdec 2 (-2)))].
Proof.
  apply (sv_one []); [text|split; [text|exists [lit "surface"]; text]|exists (lit "1.5E-03"), (lit "0.0100"); repeat split; text|text|].
  apply (sv_one []); [text|split; [text|exists [lit "surface"]; text]|exists (lit "2.5E-03"), (lit "0.0200"); repeat split; text|text|].
  apply sv_end. text.
Qed.
Example C63_ex : exists b, read_type_surface (@rev str) (chr 49) (lit "           tally type 1" :: lit "" :: C63_lines) = Ok b /\
  b_surfaces b = Some [lit "20"; lit "10"] /\ b_result b = TList [EFloat (fdec 15 (-4)); EFloat (fdec 25 (-4))].
Proof. eexists. split; [vm_compute; reflexivity|]. vm_compute. split; reflexivity. Qed.

(** C64 *)
Theorem C64_order : forall t1 t2 so f p a, rearranges t1 -> rearranges t2 -> read_output_file t1 so f p = Ok a ->
  exists b, read_output_file t2 so f p = Ok b /\ Permutation (o_tally_data a) (o_tally_data b) /\
    b = McnpOutput (o_file_name a) (o_version a) (o_date a) (o_start_time a) (o_comments a) (o_warnings a)
          (o_num_rendevous a) (o_fatal a) (o_tables a) (o_t60 a) (o_t101 a) (o_tally_data b) (o_num_tallies a).
Proof. exact output_order. Qed.
Print Assumptions C64_order.
Theorem C64_tallies : forall t so f p a data, rearranges t -> get_lines f p = Ok data -> read_output_file t so f p = Ok a ->
  (forall n, (exists l, In l data /\ listed_tally l n) -> exists tl, In tl (o_tally_data a) /\ read_tally so data n = Ok tl) /\
  (forall tl, In tl (o_tally_data a) -> exists n, (exists l, In l data /\ listed_tally l n) /\ read_tally so data n = Ok tl) /\
  List.length (o_tally_data a) = o_num_tallies a.
Proof. exact output_tallies. Qed.
Print Assumptions C64_tallies.
Definition C64_nl : str := [chr 10].
Definition C64_file : str := join C64_nl
  ([lit "1mcnp     version 6     10/01/20 12:00:00"; lit "      run terminated when 1000"; C59_title] ++ C59_body ++
   [lit "1tally       14        nps =        1000"] ++ C59_body ++ [lit "1tally fluctuation charts"]) ++ C64_nl.
Definition C64_fs : fs := fun q => if path_eqb q [lit "o.io"] then Some (File C64_file) else None.
Example C64_ex : exists a b, read_output_file (fun l => l) (fun l => l) C64_fs [lit "o.io"] = Ok a /\ read_output_file (@rev str) (fun l => l) C64_fs [lit "o.io"] = Ok b /\
  map t_number (o_tally_data a) = [4; 14]%Z /\ map t_number (o_tally_data b) = [14; 4]%Z.
Proof. do 2 eexists. split; [vm_compute; reflexivity|]. split; [vm_compute; reflexivity|]. vm_compute. split; reflexivity. Qed.

(** C122: the code version is the text after the first equals sign of the first line. *)
Theorem C122_version : forall lines v, read_version lines = Some v <->
  exists l rest a t, lines = l :: rest /\ prefix_of (lit "          Code Name & Version") l /\
    ~ In (chr 61) a /\ (exists r, l = a ++ chr 61 :: r /\ upto (chr 61) r t) /\ trimmed t v.
Proof. exact version_spec. Qed.
Print Assumptions C122_version.
Example C122_ex : read_version [lit "          Code Name & Version = MCNP6, 1.0 "; lit "x"] = Some (lit "MCNP6, 1.0") /\ read_version [lit "1mcnp"] = None.
Proof. vm_compute. split; reflexivity. Qed.

(** C123: date and time of the run are the last words of the first title line among the first hundred. *)
Theorem C123_run_date : forall lines l i pre date time, nth_error lines i = Some l -> first_index (prefix_of (lit "1mcnp")) lines i ->
  (List.length lines <= 101 \/ i < 100) -> words l (pre ++ [date; time]) -> read_run_date lines = Ok (date, time).
Proof. exact run_date_spec. Qed.
Print Assumptions C123_run_date.
Theorem C123_no_date : forall lines, (forall i l, nth_error lines i = Some l -> (List.length lines <= 101 \/ i < 100) -> ~ prefix_of (lit "1mcnp") l) ->
  read_run_date lines = Err ValueError.
Proof. exact run_date_none. Qed.
Print Assumptions C123_no_date.
Example C123_ex : read_run_date [lit "x"; lit "1mcnp     version 6     ld=02/20/18                     10/01/20 12:30:00 "] = Ok (lit "10/01/20", lit "12:30:00").
Proof. vm_compute. reflexivity. Qed.

(** C124: tallies with a number of five or more digits are never listed, although their title is there. *)
Theorem C124_long_numbers_refuted : forall l t, tally_title t l -> 5 <= List.length t -> word t -> get_tally_nums [l] = Ok [] /\ ~ listed_tally l t.
Proof. exact long_number_refuted. Qed.
Print Assumptions C124_long_numbers_refuted.
Example C124_ex : tally_title (lit "10004") (lit "1tally    10004        nps =    1000") /\ get_tally_nums [lit "1tally    10004        nps =    1000"; lit "1tally     1004 "] = Ok [lit "1004"].
Proof. split; [split; [vm_compute; auto with arith|text]|vm_compute; reflexivity]. Qed.

(** C125: detector tallies with user bins always fail. *)
Theorem C125_user_bins_refuted : forall lines i l, first_index (prefix_of (lit " detector located")) lines i -> nth_error lines (S i) = Some l ->
  occurs (lit "user bin") l -> ~ occurs (lit "time") l -> exists e, read_type_5 lines = Err e.
Proof. exact type5_user_bin. Qed.
Print Assumptions C125_user_bins_refuted.
Definition C125_lines : list str :=
  [lit " detector located at x,y,z = 1.00000E+00 2.00000E+00-3.00000E+00"; lit " user bin   1"; C59_title].
Example C125_ex : first_index (prefix_of (lit " detector located")) C125_lines 0 /\ occurs (lit "user bin") (nth 1 C125_lines []) /\ ~ occurs (lit "time") (nth 1 C125_lines []).
Proof. split; [split; [eexists; split; [reflexivity|text]|intros j x H; inversion H]|]. cbn [nth C125_lines]. split; text. Qed.

(** C126: tallies of type 8 are read for cell 2 only. *)
Theorem C126_cell_2 : forall lines b, read_type_8 lines = Ok b -> b_cells b = Some [lit "2"].
Proof. exact type8_cell. Qed.
Print Assumptions C126_cell_2.
Theorem C126_other_cells_refuted : forall lines, none_of (prefix_of (lit " cell  2")) lines -> read_type_8 lines = Err ValueError.
Proof. exact type8_other. Qed.
Print Assumptions C126_other_cells_refuted.
Theorem C126_value : forall lines i l r, first_index (prefix_of (lit " cell  2")) lines i -> nth_error lines (S i) = Some l -> value_printed l r ->
  exists b, read_type_8 lines = Ok b /\ b_result b = TList [EFloat (fst r)] /\ b_err b = TList [EFloat (snd r)].
Proof. exact type8_value. Qed.
Print Assumptions C126_value.
Example C126_ex : none_of (prefix_of (lit " cell  2")) [lit " cell  3"; lit "          1.0E-02 0.1"] /\
  value_printed (lit "          1.0E-02 0.1") (fdec 1 (-2), fdec 1 (-1)) /\
  exists b, read_type_8 [[]; lit " cell  2"; lit "          1.0E-02 0.1"] = Ok b /\ b_result b = TList [EFloat (fdec 1 (-2))].
Proof.
  split; [text|]. split; [exists (lit "1.0E-02"), (lit "0.1"); repeat split; text|]. eexists. split; vm_compute; reflexivity.
Qed.

(** C127: a cell tally with energy and time bins.  One cell: its matrix.  Two cells: the
    first matrix has the columns of both cells. *)
Theorem C127_one_cell : forall ty pre h m a h1 x1 x2 B e post c vols es p,
  ty = chr 52 \/ ty = chr 54 -> none_of (prefix_of (amounts_text ty)) pre -> prefix_of (amounts_text ty) h ->
  cell_rows (m ++ [chr 32] :: a ++ h1 :: (x1 :: x2 :: B) ++ e :: post) [c] vols -> none_of (eq [chr 32]) m ->
  none_of (names_cell c) ([chr 32] :: a) -> names_cell c h1 ->
  occurs (lit "time") x1 -> occurs (lit "energy") x2 -> ~ occurs (lit "energy") x1 ->
  none_of (prefix_of (lit " ===")) ([chr 32] :: a ++ h1 :: x1 :: x2 :: B) -> prefix_of (lit " ===") e ->
  et_listing es (x1 :: x2 :: B) p -> p <> [] ->
  exists b V U, read_type_cell ty (pre ++ h :: m ++ [chr 32] :: a ++ h1 :: (x1 :: x2 :: B) ++ e :: post) = Ok b /\
    b_cells b = Some [c] /\ b_result b = TList [EMat V] /\ b_err b = TList [EMat U] /\
    matrix_of fst p (List.length es) V /\ matrix_of snd p (List.length es) U.
Proof. exact type_cell_one. Qed.
Print Assumptions C127_one_cell.
Theorem C127_two_cells_refuted : forall ty pre h m a h1 x1 x2 B1 h2 y1 y2 B2 e post c1 c2 vols es p1 p2,
  ty = chr 52 \/ ty = chr 54 -> none_of (prefix_of (amounts_text ty)) pre -> prefix_of (amounts_text ty) h ->
  cell_rows (m ++ [chr 32] :: a ++ h1 :: (x1 :: x2 :: B1) ++ h2 :: (y1 :: y2 :: B2) ++ e :: post) [c1; c2] vols -> none_of (eq [chr 32]) m ->
  none_of (names_cell c1) ([chr 32] :: a) -> names_cell c1 h1 ->
  none_of (names_cell c2) ([chr 32] :: a ++ h1 :: x1 :: x2 :: B1) -> names_cell c2 h2 ->
  occurs (lit "time") x1 -> occurs (lit "energy") x2 -> ~ occurs (lit "energy") x1 -> occurs (lit "time") y1 -> occurs (lit "energy") y2 ->
  none_of (prefix_of (lit " ===")) ([chr 32] :: a ++ h1 :: (x1 :: x2 :: B1) ++ h2 :: (y1 :: y2 :: B2)) -> prefix_of (lit " ===") e ->
  ~ heads (lit "time:") h2 -> et_listing es (x1 :: x2 :: B1) p1 -> et_listing es (y1 :: y2 :: B2) p2 -> p1 <> [] -> p2 <> [] ->
  exists b V1 V2 U1 U2, read_type_cell ty (pre ++ h :: m ++ [chr 32] :: a ++ h1 :: (x1 :: x2 :: B1) ++ h2 :: (y1 :: y2 :: B2) ++ e :: post) = Ok b /\
    b_cells b = Some [c1; c2] /\ b_result b = TList [EMat V1; EMat V2] /\ b_err b = TList [EMat U1; EMat U2] /\
    matrix_of fst (p1 ++ p2) (List.length es) V1 /\ matrix_of snd (p1 ++ p2) (List.length es) U1 /\
    matrix_of fst p2 (List.length es) V2 /\ matrix_of snd p2 (List.length es) U2.
Proof. exact type_cell_two. Qed.
Print Assumptions C127_two_cells_refuted.
Definition C127_cell (h v1 v2 : string) : list str :=
  [lit h; lit "      time:         1.0000E+00"; lit "      energy"; lit "    1.0000E-01   " ++ lit v1 ++ lit " 0.0100"; lit "    2.0000E+00   " ++ lit v2 ++ lit " 0.0300"; []].
Definition C127_head : list str := [lit "           volumes "; lit "                   cell:       1   2"; lit "                         5.23599E+02 1.0E+01"].
Definition C127_lines : list str := C127_head ++ [chr 32] :: C127_cell " cell  1 " "1.5E-03" "2.5E-03" ++ C127_cell " cell  2 " "7.5E-03" "8.5E-03" ++ [lit " ===="].
Example C127_ex_rows : cell_rows (tl C127_head ++ [[chr 32]]) [lit "1"; lit "2"] [lit "5.23599E+02"; lit "1.0E+01"].
Proof.
  cbn [tl C127_head app]. apply (cr_cells _ (lit "cell:") [lit "1"; lit "2"] _ [] _); [discriminate|text|exists []; split; [reflexivity|intros []]|intros c [<-|[<-|[]]]; text|].
  apply (cr_vols _ [lit "5.23599E+02"; lit "1.0E+01"] _ [] []); [discriminate|text|text|discriminate|]. apply cr_end.
Qed.
Example C127_ex_listing : et_listing [fdec 1 (-1); fdec 2 0] (tl (C127_cell " cell  1 " "1.5E-03" "2.5E-03")) [([fdec 1 0], [[(fdec 15 (-4), fdec 1 (-2))]; [(fdec 25 (-4), fdec 3 (-2))]])].
Proof.
  cbn [tl C127_cell]. apply (etl_part _ [] [_; _; _; _; _] _ _ []); [text| |apply etl_end; text].
  apply (et_block_intro _ _ [_; _] _ _ false); [exists [lit "1.0000E+00"]; split; [text|split; text]|text| |discriminate|repeat constructor|left; text].
  apply er_cons; [exists (lit "1.0000E-01"), (map lit ["1.5E-03"; "0.0100"]%string); split; [text|split; [cbn [map]; text|split; [text|unfold flat; cbn [map concat app fst snd]; text]]]|].
  apply er_cons; [exists (lit "2.0000E+00"), (map lit ["2.5E-03"; "0.0300"]%string); split; [text|split; [cbn [map]; text|split; [text|unfold flat; cbn [map concat app fst snd]; text]]]|].
  apply er_nil.
Qed.
Example C127_ex : exists b, read_type_cell (chr 52) C127_lines = Ok b /\
  b_result b = TList [EMat [[fdec 15 (-4); fdec 75 (-4)]; [fdec 25 (-4); fdec 85 (-4)]]; EMat [[fdec 75 (-4)]; [fdec 85 (-4)]]].
Proof. eexists. split; vm_compute; reflexivity. Qed.

(** C128 *)
Theorem C128_cell_data : forall pre h m rest cells vols, cell_rows (m ++ [chr 32] :: rest) cells vols -> none_of (eq [chr 32]) m ->
  get_cell_data (pre ++ h :: m ++ [chr 32] :: rest) (List.length pre) = Ok (cells, vols, List.length (pre ++ h :: m)).
Proof. exact get_cell_data_spec. Qed.
Print Assumptions C128_cell_data.
Example C128_ex : get_cell_data C127_lines 0 = Ok ([lit "1"; lit "2"], [lit "5.23599E+02"; lit "1.0E+01"], 3).
Proof. vm_compute. reflexivity. Qed.

(** C129 *)
Theorem C129_tests : forall lines i l w ws, first_index (prefix_of (lit " passed")) lines i -> nth_error lines i = Some l -> words l (w :: ws) ->
  read_stat_tests lines = Ok ws.
Proof. exact stat_tests_found. Qed.
Print Assumptions C129_tests.
Theorem C129_no_tests : forall lines, none_of (prefix_of (lit " passed")) lines -> read_stat_tests lines = Ok [lit "no"].
Proof. exact stat_tests_none. Qed.
Print Assumptions C129_no_tests.
Example C129_ex : read_stat_tests [lit "x"; lit " passed?      yes   no  yes"] = Ok [lit "yes"; lit "no"; lit "yes"].
Proof. vm_compute. reflexivity. Qed.

(** C130 *)
Theorem C130_header : forall order data t hdr body tl, tally_section data t hdr body -> read_tally order data t = Ok tl ->
  py_int t = Ok (t_number tl) /\
  (exists l, type_line body l /\ nth_error l 22 = Some (t_type tl)) /\
  (exists l, particle_line body l /\ clean_columns 24 33 l (t_particle tl)) /\
  nps_of hdr (t_nps tl).
Proof. exact read_tally_header. Qed.
Print Assumptions C130_header.
(** Instance: C59_ex_section and C59_ex. *)

(** C131 *)
Theorem C131_missing : forall order data t i, results_start data i -> none_of (tally_title t) (skipn i data) ->
  read_tally order data t = Err ValueError.
Proof. exact read_tally_missing. Qed.
Print Assumptions C131_missing.
Example C131_ex : read_tally (fun l => l) C59_data (lit "14") = Err ValueError.
Proof. vm_compute. reflexivity. Qed.

(** C132: detectors. *)
Theorem C132_position : forall pre d a p r rest b, none_of (prefix_of (lit " detector located")) pre -> prefix_of (lit " detector located") d ->
  d = a ++ chr 61 :: p -> ~ In (chr 61) a -> ~ In (chr 61) p -> read_type_5 (pre ++ d :: r :: rest) = Ok b ->
  exists f5, b_f5 b = Some f5 /\ number_in 0 12 p (f5_x f5) /\ number_in 12 24 p (f5_y f5) /\ number_in 24 36 p (f5_z f5).
Proof. exact type5_position. Qed.
Print Assumptions C132_position.
Theorem C132_value : forall pre d r rest b a v u x y, none_of (prefix_of (lit " detector located")) pre -> prefix_of (lit " detector located") d ->
  r = a ++ chr 32 :: v ++ chr 32 :: u -> ~ In (chr 32) v -> ~ In (chr 32) u -> reads v x -> reads u y ->
  r <> lit "      energy   " -> ~ occurs (lit "time") r -> ~ occurs (lit "user bin") r ->
  read_type_5 (pre ++ d :: r :: rest) = Ok b -> b_result b = TList [EFloat x] /\ b_err b = TList [EFloat y] /\ b_eng b = None /\ b_times b = None.
Proof. exact type5_value. Qed.
Print Assumptions C132_value.
Theorem C132_energies : forall pre d rows t rest b rs, none_of (prefix_of (lit " detector located")) pre -> prefix_of (lit " detector located") d ->
  Forall2 energy_printed rows rs -> none_of (prefix_of (lit "      total")) rows -> prefix_of (lit "      total") t ->
  read_type_5 (pre ++ d :: lit "      energy   " :: rows ++ t :: rest) = Ok b ->
  b_eng b = Some (map (fun r => fst (fst r)) rs) /\ b_result b = TList (map (fun r => EFloat (snd (fst r))) rs) /\
  b_err b = TList (map (fun r => EFloat (snd r)) rs) /\ b_times b = None.
Proof. exact type5_energy. Qed.
Print Assumptions C132_energies.
Definition C132_tail : list str :=
  [lit " average tally per history = 1.00000E-03 largest score = 2.00000E-01"; lit " (largest score)/(average tally) = 2.0E+02   nps of largest score = 77";
   lit " score misses"; lit "   russian roulette on pd      0"; lit "   psc=0.    1"; lit "   russian roulette in transmission  2"; lit "   underflow in transmission  3"; lit "   hit a zero-importance cell  4"; lit "   energy cutoff  5"].
Example C132_ex : (exists b f5, read_type_5 ([lit "x"; lit " detector located at x,y,z = 1.00000E+00 2.00000E+00-3.00000E+00"; lit "      1.25E-03 0.01"] ++ C132_tail) = Ok b /\
    b_f5 b = Some f5 /\ f5_x f5 = fdec 1 0 /\ f5_y f5 = fdec 2 0 /\ f5_z f5 = fdec (-3) 0 /\ b_result b = TList [EFloat (fdec 125 (-5))]) /\
  (exists b, read_type_5 ([lit "x"; lit " detector located at x,y,z = 1.00000E+00 2.00000E+00-3.00000E+00"; lit "      energy   "; lit "    1.0E+00   1.25E-03 0.01"; lit "    2.0E+00   2.25E-03 0.02"; lit "      total   3.5E-03 0.01"] ++ C132_tail) = Ok b /\
    b_eng b = Some [fdec 1 0; fdec 2 0] /\ b_result b = TList [EFloat (fdec 125 (-5)); EFloat (fdec 225 (-5))]).
Proof. split; [do 2 eexists|eexists]; (split; [vm_compute; reflexivity|]); vm_compute; repeat split. Qed.

(** C134 *)
Theorem C134_table101 : forall pre h0 h1 h2 h3 h4 h5 rows ws l m e post, Forall2 (fun l w => words l w /\ List.length w = 9) rows ws -> rows <> [] -> blank l ->
  none_of (prefix_of (lit " *******")) ([h0; h1; h2; h3; h4; h5] ++ rows ++ l :: m) -> prefix_of (lit " *******") e ->
  read_table101 (pre ++ ([h0; h1; h2; h3; h4; h5] ++ rows ++ l :: m) ++ e :: post) (Z.of_nat (List.length pre)) = Ok (map (map Some) ws).
Proof. exact table101_spec. Qed.
Print Assumptions C134_table101.
Example C134_ex : read_table101 ([lit "x"; lit "1particles and energy limits   print table 101"; []; lit "a"; lit "b"; lit "c"; []; lit "  1  n  neutron  1 2 3 4 5 6"; lit "  2  p  photon  1 2 3 4 5 7"; [chr 32]; lit " *******"]) 1 =
  Ok (map (fun l => map (fun s => Some (lit s)) l) [["1"; "n"; "neutron"; "1"; "2"; "3"; "4"; "5"; "6"]; ["2"; "p"; "photon"; "1"; "2"; "3"; "4"; "5"; "7"]]%string).
Proof. vm_compute. reflexivity. Qed.

(** C135: energy lines as printed by MCNP are read; with single spaces they are not. *)
Theorem C135_energy_lines : forall ls rs, Forall2 energy_printed ls rs ->
  process_energy_lines ls = Ok (map (fun r => fst (fst r)) rs, map (fun r => snd (fst r)) rs, map snd rs).
Proof. exact energy_lines_spec. Qed.
Print Assumptions C135_energy_lines.
Theorem C135_spacing_refuted : forall a l b e v u x, trimmed l (e ++ lit " " ++ v ++ lit " " ++ u) -> ~ In (chr 32) e -> ~ In (chr 32) v -> ~ In (chr 32) u -> reads e x ->
  (forall y, In y a -> exists r, energy_printed y r) -> process_energy_lines (a ++ l :: b) = Err IndexError.
Proof. exact energy_line_tight. Qed.
Print Assumptions C135_spacing_refuted.
Example C135_ex : energy_printed (lit "    1.0000E+00   5.0E-04 0.0100") (fdec 1 0, fdec 5 (-4), fdec 1 (-2)) /\
  process_energy_lines [lit "    1.0000E+00   5.0E-04 0.0100"] = Ok ([fdec 1 0], [fdec 5 (-4)], [fdec 1 (-2)]) /\
  process_energy_lines [lit "    1.0000E+00 5.0E-04 0.0100"] = Err IndexError.
Proof. split; [exists (lit "1.0000E+00"), (lit "5.0E-04"), (lit "0.0100"); repeat split; text|]. vm_compute. split; reflexivity. Qed.

(** C136 *)
Theorem C136_time_bins : forall ls ts, time_words ls ts -> distinct ts (eng_time_get_time_bins ls).
Proof. exact et_time_bins_spec. Qed.
Print Assumptions C136_time_bins.
Theorem C136_energy_bins : forall pre h rows ws t post, none_of (occurs (lit "energy")) pre -> occurs (lit "energy") h ->
  Forall2 (fun l w => ~ occurs (lit "total") l /\ exists r, words l (w :: r)) rows ws -> occurs (lit "total") t ->
  eng_time_get_eng_bins (pre ++ h :: rows ++ t :: post) = ws ++ [lit "total"].
Proof. exact eng_bins_spec. Qed.
Print Assumptions C136_energy_bins.
Example C136_ex : time_words [lit "  time: 1.0 2.0"; lit "energy"; lit "  time: 2.0 total"] [lit "1.0"; lit "2.0"; lit "2.0"; lit "total"] /\
  eng_time_get_time_bins [lit "  time: 1.0 2.0"; lit "energy"; lit "  time: 2.0 total"] = [lit "1.0"; lit "2.0"; lit "total"] /\
  eng_time_get_eng_bins [lit " time: 1.0"; lit " energy"; lit " 1.0 2 3"; lit " 2.0 5 6"; lit " total 7 9"; lit " 5"] = [lit "1.0"; lit "2.0"; lit "total"].
Proof.
  split; [|vm_compute; split; reflexivity]. apply (tw_take _ (lit "time:") [lit "1.0"; lit "2.0"]); [text|text|]. apply tw_skip; [text|].
  apply (tw_take _ (lit "time:") [lit "2.0"; lit "total"] _ []); [text|text|]. apply tw_nil.
Qed.

(** C137 *)
Theorem C137_angles : forall done ls b bs, angle_blocks ls (b :: bs) ->
  exists st, process_energy_angle_tally (done ++ ls) (Z.of_nat (List.length done)) = Ok st /\ 
    ea_angles st = fdec (-1) 0 :: map fst (b :: bs) /\
    ea_res_df st = map (fun b => map (fun r => snd (fst r)) (snd b)) (b :: bs) /\
    ea_err_df st = map (fun b => map snd (snd b)) (b :: bs) /\
    exists l, is_last (b :: bs) (Some l) /\ ea_eng st = Some (map (fun r => fst (fst r)) (snd l)).
Proof. exact angle_tally_spec. Qed.
Print Assumptions C137_angles.
Definition C137_lines : list str :=
  [lit " surface  1"; lit " angle  bin:  -1.          to  0.00000E+00 mu"; lit "      energy   "; lit "    1.0000E+00   5.0E-04 0.0100"; lit "      total      5.0E-04 0.0100";
   []; lit " angle  bin:   0.00000E+00 to  1.00000E+00 mu"; lit "      energy   "; lit "    1.0000E+00   6.0E-04 0.0200"; lit "      total      6.0E-04 0.0200"; []].
Example C137_ex : angle_blocks C137_lines [(fdec 0 0, [(fdec 1 0, fdec 5 (-4), fdec 1 (-2))]); (fdec 1 0, [(fdec 1 0, fdec 6 (-4), fdec 2 (-2))])].
Proof.
  unfold C137_lines. apply (ab_one [_] _ [_] _ _ _ [_; _; _; _; _; _]); [text| | | |text|].
  - split; [text|]. exists (lit " angle  bin"), (lit "  -1.          to  0.00000E+00 mu"), [lit "-1."; lit "to"], (lit "0.00000E+00"), (lit "mu"). repeat split; text.
  - apply Forall2_cons; [exists (lit "1.0000E+00"), (lit "5.0E-04"), (lit "0.0100"); repeat split; text|apply Forall2_nil].
  - text.
  - apply (ab_one [_] _ [_] _ _ _ [_]); [text| | | |text|apply ab_end; text].
    + split; [text|]. exists (lit " angle  bin"), (lit "   0.00000E+00 to  1.00000E+00 mu"), [lit "0.00000E+00"; lit "to"], (lit "1.00000E+00"), (lit "mu"). repeat split; text.
    + apply Forall2_cons; [exists (lit "1.0000E+00"), (lit "6.0E-04"), (lit "0.0200"); repeat split; text|apply Forall2_nil].
    + text.
Qed.

(** C138: single values of cells. *)
Theorem C138_values : forall ty pre h m rest c cells vols r rs, ty = chr 52 \/ ty = chr 54 -> none_of (prefix_of (amounts_text ty)) pre -> prefix_of (amounts_text ty) h ->
  cell_rows (m ++ [chr 32] :: rest) (c :: cells) vols -> none_of (eq [chr 32]) m ->
  Forall2 (cell_value ([chr 32] :: rest)) (c :: cells) (r :: rs) ->
  (forall i l, first_index (names_cell c) ([chr 32] :: rest) i -> nth_error ([chr 32] :: rest) (S i) = Some l -> ~ occurs (lit "energy") l) ->
  exists b, read_type_cell ty (pre ++ h :: m ++ [chr 32] :: rest) = Ok b /\ b_cells b = Some (c :: cells) /\ b_vols b = Some vols /\
    b_result b = TList (map (fun r => EFloat (fst r)) (r :: rs)) /\ b_err b = TList (map (fun r => EFloat (snd r)) (r :: rs)).
Proof. exact type_cell_values. Qed.
Print Assumptions C138_values.
Example C138_ex : cell_value [[chr 32]; lit " cell  1 "; lit "     5.1E-04 0.0123"; lit " cell  2 "; lit "     6.1E-04 0.0223"] (lit "2") (fdec 61 (-5), fdec 223 (-4)) /\
  exists b, read_type_cell (chr 54) ([lit "           masses "] ++ tl C127_head ++ [[chr 32]; lit " cell  1 "; lit "     5.1E-04 0.0123"; lit " cell  2 "; lit "     6.1E-04 0.0223"]) = Ok b /\
    b_result b = TList [EFloat (fdec 51 (-5)); EFloat (fdec 61 (-5))].
Proof.
  split; [|eexists; split; vm_compute; reflexivity]. exists 3, (lit "     6.1E-04 0.0223"), (lit "6.1E-04"), (lit "0.0223"), []. split; [|repeat split; text].
  apply (P_util.find_ind_Ok [[chr 32]; lit " cell  1 "; lit "     5.1E-04 0.0123"; lit " cell  2 "; lit "     6.1E-04 0.0223"] (lit " 2 ") 3). vm_compute. reflexivity.
Qed.
