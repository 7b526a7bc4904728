(** Properties C199-C205: surface flux tallies, print table 60 and frames of energy and time
    bins read by mcnp_output_reader.py.  Vocabulary: SpecStr.v, SpecOutput.v, SpecMcout.v,
    SpecMcout2.v. *)
From Verif Require Import PyBase PyFloat SpecStr SpecOutput M_mcout SpecMcout SpecMcout2 P_mcout7 P_rest TextTac.

(** C199: surfaces and areas are those printed, whatever the order of sets. *)
Theorem C199_surfaces : forall order lines ss ar b, areas_printed lines ss ar -> read_type_surface order (chr 50) lines = Ok b -> b_surfaces b = Some ss /\ b_areas b = Some ar.
Proof. exact type2_surfaces. Qed.
Print Assumptions C199_surfaces.
Theorem C199_order : forall o1 o2 lines, read_type_surface o1 (chr 50) lines = read_type_surface o2 (chr 50) lines.
Proof. exact type2_order. Qed.
Print Assumptions C199_order.
(** Surfaces printed on a second line are lost. *)
Theorem C199_second_line_refuted : forall order pre h s1 a1 s2 a2 rest ss1 ss2 ar1 x b, none_of areas_title pre -> areas_title h ->
  surfaces_line s1 ss1 -> words a1 ar1 -> ar1 <> [] -> surfaces_line s2 ss2 -> In x ss2 -> ~ In x ss1 ->
  read_type_surface order (chr 50) (pre ++ h :: s1 :: a1 :: s2 :: a2 :: rest) = Ok b -> exists ss, b_surfaces b = Some ss /\ ~ In x ss.
Proof. exact type2_lost. Qed.
Print Assumptions C199_second_line_refuted.
Definition C199_head : list str := [lit "           tally type 2    particle flux averaged over a surface."; lit "           areas"; lit "                surface:       10          20"; lit "                         5.0E+00     6.0E+00"; []].
Example C199_printed : forall rest, areas_printed (C199_head ++ rest) [lit "10"; lit "20"] [lit "5.0E+00"; lit "6.0E+00"].
Proof.
  intros rest. exists [lit "           tally type 2    particle flux averaged over a surface."], (lit "           areas"), (lit "                surface:       10          20"), (lit "                         5.0E+00     6.0E+00"), ([] :: rest).
  split; [reflexivity|]. split; [intros l [<-|[]]; unfold areas_title; text|]. split; [unfold areas_title; text|].
  split; [|split; [text|discriminate]]. exists (lit "surface"). split; [text|]. split; [text|]. intros s [<-|[<-|[]]]; text.
Qed.

(** C200: one value per surface, in the printed order. *)
Theorem C200_values : forall order pre ls ss ar s r rs, areas_printed (pre ++ ls) ss ar -> none_of titles_surface pre ->
  surface_values ls ((s, r) :: rs) -> ss = map fst ((s, r) :: rs) ->
  (forall gap h l ls', ls = gap ++ h :: l :: ls' -> titles_surface h -> none_of titles_surface gap -> plain_value l) ->
  exists b, read_type_surface order (chr 50) (pre ++ ls) = Ok b /\ b_surfaces b = Some ss /\ b_areas b = Some ar /\
    b_result b = TList (map (fun x => EFloat (fst (snd x))) ((s, r) :: rs)) /\
    b_err b = TList (map (fun x => EFloat (snd (snd x))) ((s, r) :: rs)).
Proof. exact type2_values. Qed.
Print Assumptions C200_values.
Definition C200_lines : list str := [lit " surface  10"; lit "                 1.5E-03 0.0100"; []; lit " surface  20"; lit "                 2.5E-03 0.0200"; []].
Example C200_ex_lines : surface_values C200_lines [(lit "10", (fdec 15 (-4), fdec 1 (-2))); (lit "20", (fdec 25 (-4), fdec 2 (-2)))].
Proof.
  apply (sv_one []); [text|split; [text|exists [lit "surface"]; text]|exists (lit "1.5E-03"), (lit "0.0100"); repeat split; text|text|].
  apply (sv_one [[]]); [text|split; [text|exists [lit "surface"]; text]|exists (lit "2.5E-03"), (lit "0.0200"); repeat split; text|text|].
  apply sv_end. text.
Qed.
Example C200_ex : exists b, read_type_surface (@rev str) (chr 50) (C199_head ++ C200_lines) = Ok b /\
  b_surfaces b = Some [lit "10"; lit "20"] /\ b_result b = TList [EFloat (fdec 15 (-4)); EFloat (fdec 25 (-4))].
Proof. eexists. split; [vm_compute; reflexivity|]. vm_compute. split; reflexivity. Qed.

(** C201: time bins. *)
Theorem C201_times : forall order pre ls e post ss ar ts r1 r2 rs, areas_printed (pre ++ ls ++ e :: post) ss ar -> none_of titles_surface pre ->
  time_tables ts ls (r1 :: r2 :: rs) -> ss = map fst (r1 :: r2 :: rs) -> time_then false ls -> none_of end_rule (pre ++ ls) -> end_rule e ->
  exists b, read_type_surface order (chr 50) (pre ++ ls ++ e :: post) = Ok b /\ b_surfaces b = Some ss /\ b_areas b = Some ar /\ b_times b = Some (TimesText ts) /\
    b_result b = TList (map (fun x => ERow (map fst (snd x))) (r1 :: r2 :: rs)) /\
    b_err b = TList (map (fun x => ERow (map snd (snd x))) (r1 :: r2 :: rs)).
Proof. exact type2_time_bins. Qed.
Print Assumptions C201_times.
Theorem C201_one_surface : forall order pre ls e post s ar ts ps, areas_printed (pre ++ ls ++ e :: post) [s] ar -> none_of titles_surface pre -> none_of (occurs (lit "total")) pre ->
  time_tables ts ls [(s, ps)] -> time_then false ls -> none_of end_rule (pre ++ ls) -> end_rule e ->
  exists b, read_type_surface order (chr 50) (pre ++ ls ++ e :: post) = Ok b /\ b_surfaces b = Some [s] /\ b_areas b = Some ar /\ b_times b = Some (TimesText ts) /\
    b_result b = TList (map EFloat (map fst ps)) /\ b_err b = TList (map EFloat (map snd ps)).
Proof. exact type2_time_one. Qed.
Print Assumptions C201_one_surface.
Definition C201_lines : list str :=
  [lit " surface  10"; lit "      time:   1.0E+00        total"; lit "    1.5E-01 0.01  4.0E-01 0.015"; [];
   lit " surface  20"; lit "      time:   1.0E+00        total"; lit "    2.5E-01 0.02  5.0E-01 0.025"; []].
Definition C201_tables : list (str * list (float * float)) :=
  [(lit "10", [(fdec 15 (-2), fdec 1 (-2)); (fdec 4 (-1), fdec 15 (-3))]); (lit "20", [(fdec 25 (-2), fdec 2 (-2)); (fdec 5 (-1), fdec 25 (-3))])].
Example C201_ex_tables : time_tables [lit "1.0E+00"; lit "total"] C201_lines C201_tables /\ time_then false C201_lines.
Proof.
  split; [|do 4 eexists; split; [reflexivity|]; repeat split; text]. unfold C201_lines, C201_tables.
  apply (tt_one _ _ _ []); [split; [text|exists [lit "surface"]; text]|text|text| |].
  - apply (tb_times _ (lit "time:") [lit "1.0E+00"; lit "total"] _ []); [text|text|].
    apply (tb_values _ (map lit ["1.5E-01"; "0.01"; "4.0E-01"; "0.015"]%string) [(fdec 15 (-2), fdec 1 (-2)); (fdec 4 (-1), fdec 15 (-3))] _ _ []); [text|text| | |apply tb_nil].
    + unfold flat. cbn [map concat app fst snd]. text.
    + cbn [map]. repeat (apply Forall_cons; [split; [vm_compute; auto with arith|text]|]). apply Forall_nil.
  - apply (tt_last _ _ _ []); [split; [text|exists [lit "surface"]; text]|text|text|].
    apply (tb_times _ (lit "time:") [lit "1.0E+00"; lit "total"] _ []); [text|text|].
    apply (tb_values _ (map lit ["2.5E-01"; "0.02"; "5.0E-01"; "0.025"]%string) [(fdec 25 (-2), fdec 2 (-2)); (fdec 5 (-1), fdec 25 (-3))] _ _ []); [text|text| | |apply tb_nil].
    + unfold flat. cbn [map concat app fst snd]. text.
    + cbn [map]. repeat (apply Forall_cons; [split; [vm_compute; auto with arith|text]|]). apply Forall_nil.
Qed.
Example C201_ex : exists b, read_type_surface (@rev str) (chr 50) (C199_head ++ C201_lines ++ [lit " ====="]) = Ok b /\
  b_surfaces b = Some [lit "10"; lit "20"] /\ b_result b = TList [ERow [fdec 15 (-2); fdec 4 (-1)]; ERow [fdec 25 (-2); fdec 5 (-1)]].
Proof. eexists. split; [vm_compute; reflexivity|]. vm_compute. split; reflexivity. Qed.

(** C202: energy and time bins. *)
Theorem C202_matrices : forall order pre ls e post ss ar ts es r1 r2 rs, areas_printed (pre ++ ls ++ e :: post) ss ar -> none_of titles_surface pre ->
  et_tables ts es ls (r1 :: r2 :: rs) -> ascending es -> ascending ts -> ss = map fst (r1 :: r2 :: rs) -> time_then true ls -> none_of end_rule (pre ++ ls) -> end_rule e ->
  exists b VU, read_type_surface order (chr 50) (pre ++ ls ++ e :: post) = Ok b /\ b_surfaces b = Some ss /\ b_areas b = Some ar /\
    b_times b = Some (TimesNum ts) /\ b_eng b = Some es /\
    b_result b = TList (map (fun x => EMat (fst x)) VU) /\ b_err b = TList (map (fun x => EMat (snd x)) VU) /\
    Forall2 (fun r x => matrix_of fst (snd r) (List.length es) (fst x) /\ matrix_of snd (snd r) (List.length es) (snd x)) (r1 :: r2 :: rs) VU.
Proof. exact type2_et_bins. Qed.
Print Assumptions C202_matrices.
Theorem C202_one_surface : forall order pre h body e post s ar ts es parts, areas_printed (pre ++ (h :: body) ++ e :: post) [s] ar -> none_of titles_surface pre ->
  surface_title h s -> et_listing es body parts -> parts <> [] -> concat (map fst parts) = ts -> ascending es -> ascending ts ->
  time_then true (h :: body) -> none_of end_rule (pre ++ h :: body) -> end_rule e ->
  exists b V U, read_type_surface order (chr 50) (pre ++ (h :: body) ++ e :: post) = Ok b /\ b_surfaces b = Some [s] /\ b_areas b = Some ar /\
    b_times b = Some (TimesNum ts) /\ b_eng b = Some es /\ b_result b = TMat V /\ b_err b = TMat U /\
    matrix_of fst parts (List.length es) V /\ matrix_of snd parts (List.length es) U.
Proof. exact type2_et_one. Qed.
Print Assumptions C202_one_surface.
Definition C202_block (v : string) : list str := [lit "      time:   1.0E+00        total"; lit "      energy"; lit "    1.0E-01   " ++ lit v ++ lit " 0.01   2.0E-03 0.02"; lit "      total   1.0E-03 0.01   2.0E-03 0.02"].
Definition C202_parts (m : Z) : et_table := [([fdec 1 0], [[(fdec m (-4), fdec 1 (-2)); (fdec 2 (-3), fdec 2 (-2))]])].
Definition C202_lines : list str := [lit " surface  10"] ++ C202_block "1.0E-03" ++ [lit " surface  20"] ++ C202_block "1.5E-03" ++ [[]].
Example C202_ex_tables : et_tables [fdec 1 0] [fdec 1 (-1)] C202_lines [(lit "10", C202_parts 10); (lit "20", C202_parts 15)] /\ time_then true C202_lines.
Proof.
  split; [|do 4 eexists; split; [reflexivity|]; repeat split; text].
  change C202_lines with (lit " surface  10" :: C202_block "1.0E-03" ++ lit " surface  20" :: C202_block "1.5E-03" ++ [[]]).
  apply ett_one; [split; [text|exists [lit "surface"]; text]|unfold C202_block; intros l H; repeat (destruct H as [<-|H]; [unfold titles_surface; text|]); destruct H| |discriminate|reflexivity|].
  - apply (etl_part _ [] [_; _; _; _] _ _ []); [text| |apply etl_end; text].
    apply (et_block_intro _ _ [_] _ _ true); [exists [lit "1.0E+00"]; split; [text|split; text]|text| |discriminate|repeat constructor|right; text].
    apply er_cons; [exists (lit "1.0E-01"), (map lit ["1.0E-03"; "0.01"; "2.0E-03"; "0.02"]%string); split; [text|split; [cbn [map]; text|split; [text|unfold flat; cbn [map concat app fst snd]; text]]]|].
    apply er_nil.
  - apply ett_last; [split; [text|exists [lit "surface"]; text]|unfold C202_block; intros l H; repeat (destruct H as [<-|H]; [unfold titles_surface; text|]); destruct H| |discriminate|reflexivity].
    apply (etl_part _ [] [_; _; _; _] _ _ []); [text| |apply etl_end; text].
    apply (et_block_intro _ _ [_] _ _ true); [exists [lit "1.0E+00"]; split; [text|split; text]|text| |discriminate|repeat constructor|right; text].
    apply er_cons; [exists (lit "1.0E-01"), (map lit ["1.5E-03"; "0.01"; "2.0E-03"; "0.02"]%string); split; [text|split; [cbn [map]; text|split; [text|unfold flat; cbn [map concat app fst snd]; text]]]|].
    apply er_nil.
Qed.
Example C202_ex : exists b, read_type_surface (@rev str) (chr 50) (C199_head ++ C202_lines ++ [lit " ====="]) = Ok b /\
  b_surfaces b = Some [lit "10"; lit "20"] /\ b_result b = TList [EMat [[fdec 1 (-3); fdec 2 (-3)]]; EMat [[fdec 15 (-4); fdec 2 (-3)]]].
Proof. eexists. split; [vm_compute; reflexivity|]. vm_compute. split; reflexivity. Qed.

(** C203: energy bins of surface flux tallies. *)
Theorem C203_energies : forall order pre h l rest ss ar bs k r rs ts bs', areas_printed (pre ++ h :: l :: rest) ss ar -> none_of titles_surface pre -> titles_surface h -> occurs (lit "energy") l ->
  bin_listing (lit "surface") (pre ++ h :: l :: rest) bs -> bs = (k, r :: rs, ts) :: bs' ->
  exists b d t, read_type_surface order (chr 50) (pre ++ h :: l :: rest) = Ok b /\ b_surfaces b = Some ss /\ b_areas b = Some ar /\ b_result b = TTable d /\ b_totals b = Some t /\
    (forall k, dict_get Z.eqb k d = match rows_of_block k bs with [] => None | (_ :: _) as l => Some l end) /\
    (forall k, is_last (totals_of_block k bs) (dict_get Z.eqb k t)) /\
    (exists k rows, dict_get Z.eqb k d = Some rows /\ b_eng b = Some (map (fun r => fst (fst r)) rows)).
Proof. exact surface_energies. Qed.
Print Assumptions C203_energies.
Definition C203_lines : list str := C199_head ++ [lit " surface  10"; lit "      energy   "; lit "    1.0E-01   2.0E-04 0.05"; lit "      total   2.0E-04 0.05"; lit " surface  20"; lit "      energy   "; lit "    1.0E-01   7.0E-04 0.01"].
Example C203_ex : exists b, read_type_surface (@rev str) (chr 50) C203_lines = Ok b /\ b_surfaces b = Some [lit "10"; lit "20"] /\
  b_result b = TTable [(10%Z, [(fdec 1 (-1), fdec 2 (-4), fdec 5 (-2))]); (20%Z, [(fdec 1 (-1), fdec 7 (-4), fdec 1 (-2))])] /\ b_eng b = Some [fdec 1 (-1)].
Proof. eexists. split; [vm_compute; reflexivity|]. vm_compute. repeat split; reflexivity. Qed.

(** C204: print table 60. *)
Theorem C204_table60 : forall pre t0 t1 h1 h2 t4 rows f1 f2 f3 e post a0 a1 m al b0 b1 b2 b3 mid bl ws,
  none_of (prefix_of (lit "    minimum source weight")) (pre ++ t0 :: t1 :: h1 :: h2 :: t4 :: rows ++ [f1; f2; f3]) -> prefix_of (lit "    minimum source weight") e ->
  words h1 (a0 :: a1 :: m ++ [al]) -> words h2 (b0 :: b1 :: b2 :: b3 :: mid ++ [bl]) -> rows <> [] ->
  Forall2 (fun l w => exists x, words l (x :: w) /\ List.length w = 5 + List.length mid) rows ws ->
  read_table60 (pre ++ (t0 :: t1 :: h1 :: h2 :: t4 :: rows ++ [f1; f2; f3]) ++ e :: post) (Z.of_nat (List.length pre)) =
  Ok (b0 :: b1 :: (a0 ++ lit " " ++ b2) :: (a1 ++ lit " " ++ b3) :: mid ++ [al ++ lit " " ++ bl], map (map Some) ws).
Proof. exact table60_spec. Qed.
Print Assumptions C204_table60.
(** With two importances the first keeps no particle. *)
Theorem C204_two_importances_refuted : forall pre t0 t1 h1 h2 t4 rows f1 f2 f3 e post a0 a1 m p1 p2 b0 b1 b2 b3 mid i1 i2 ws names df,
  none_of (prefix_of (lit "    minimum source weight")) (pre ++ t0 :: t1 :: h1 :: h2 :: t4 :: rows ++ [f1; f2; f3]) -> prefix_of (lit "    minimum source weight") e ->
  words h1 (a0 :: a1 :: m ++ [p1; p2]) -> words h2 (b0 :: b1 :: b2 :: b3 :: mid ++ [i1; i2]) -> rows <> [] ->
  Forall2 (fun l w => exists x, words l (x :: w) /\ List.length w = 6 + List.length mid) rows ws ->
  read_table60 (pre ++ (t0 :: t1 :: h1 :: h2 :: t4 :: rows ++ [f1; f2; f3]) ++ e :: post) (Z.of_nat (List.length pre)) = Ok (names, df) ->
  exists l, names = l ++ [i1; p2 ++ lit " " ++ i2].
Proof. exact table60_two. Qed.
Print Assumptions C204_two_importances_refuted.
Definition C204_lines : list str :=
  [lit "x"; lit "1cells                                print table 60"; []; lit "                 atom        gram                         neutron";
   lit "        cell  mat  density    density   volume   mass   pieces importance"; []; lit "    1     1    1  4.0E-02  1.0E+00  5.0E+00  5.0E+00   1  1.0E+00"; lit "    2     9    0  0.0E-02  0.0E+00  7.0E+00  0.0E+00   1  2.0E+00"; []; lit " total  1.2E+01"; []; lit "    minimum source weight = 1.0"; lit "end"].
Example C204_ex : exists df, read_table60 C204_lines 1 = Ok (map lit ["cell"; "mat"; "atom density"; "gram density"; "volume"; "mass"; "pieces"; "neutron importance"]%string, df) /\
  nth_error df 1 = Some (map (fun s => Some (lit s)) ["9"; "0"; "0.0E-02"; "0.0E+00"; "7.0E+00"; "0.0E+00"; "1"; "2.0E+00"]%string).
Proof. eexists. split; vm_compute; reflexivity. Qed.

(** C205: labels of a frame of energy and time bins. *)
Theorem C205_labels : forall (L : Type) (data : list (list float)) (tb eb : list L), List.length data = List.length tb -> Forall (fun r => List.length r = List.length eb) data ->
  convert_energy_time_data_to_df data tb eb = EtFrame tb eb data.
Proof. exact @frame_labels. Qed.
Print Assumptions C205_labels.
Theorem C205_other_shapes : forall (L : Type) (data : list (list float)) (tb eb : list L), List.length data <> List.length tb \/ Exists (fun r => List.length r <> List.length eb) data ->
  convert_energy_time_data_to_df data tb eb = EtData data.
Proof. exact @frame_unlabelled. Qed.
Print Assumptions C205_other_shapes.
(** The results of the reader do not fit: they have a row for each energy. *)
Theorem C205_reader_refuted : forall es lines parts V U ts, et_listing es lines parts -> parts <> [] -> ascending es -> ascending (concat (map fst parts)) ->
  process_e_t_userbin lines = Ok (ts, es, V, U) -> List.length es <> List.length ts -> convert_energy_time_data_to_df V ts es = EtData V.
Proof. exact frame_of_reader. Qed.
Print Assumptions C205_reader_refuted.
(** When they do, the row labelled with a time holds the results of an energy. *)
Theorem C205_transposed_refuted : forall es lines parts V U ts, et_listing es lines parts -> parts <> [] -> ascending es -> ascending (concat (map fst parts)) ->
  process_e_t_userbin lines = Ok (ts, es, V, U) -> forall cells, convert_energy_time_data_to_df V ts es = EtFrame ts es cells ->
  forall i, i < List.length es -> nth_error cells i = Some (map fst (table_row parts i)).
Proof. exact frame_transposed. Qed.
Print Assumptions C205_transposed_refuted.
Example C205_ex : convert_energy_time_data_to_df [[fdec 1 0; fdec 2 0; fdec 3 0]; [fdec 4 0; fdec 5 0; fdec 6 0]] (map lit ["1"; "2"]%string) (map lit ["a"; "b"; "c"]%string) =
  EtFrame (map lit ["1"; "2"]%string) (map lit ["a"; "b"; "c"]%string) [[fdec 1 0; fdec 2 0; fdec 3 0]; [fdec 4 0; fdec 5 0; fdec 6 0]].
Proof. vm_compute. reflexivity. Qed.
