(** Properties C237 and C238: bins of surface current tallies read by mcnp_output_reader.py,
    sections of an xsdir file.  Vocabulary: SpecStr.v, SpecOutput.v, SpecMcout.v, SpecMcout2.v. *)
From Coq Require Import Permutation.
From Verif Require Import PyBase PyFloat PyFs SpecStr SpecUtil M_util SpecOutput M_mcout SpecMcout SpecMcout2 M_output P_mcout10 P_xsdir TextTac.
Local Open Scope nat_scope.

(** C237: the values, time bins, energy bins and energy-time bins of surface currents are those
    printed, in the printed order, whatever the order of sets; the surfaces are those named. *)
Theorem C237_values : forall order pre ls ss s r rs, named_surfaces (skipn 2 (pre ++ ls)) ss -> NoDup ss -> rearranges order -> none_of titles_surface pre ->
  surface_values ls ((s, r) :: rs) -> ss = map fst ((s, r) :: rs) ->
  (forall gap h l ls', ls = gap ++ h :: l :: ls' -> titles_surface h -> none_of titles_surface gap -> plain_value l) ->
  exists b, read_type_surface order (chr 49) (pre ++ ls) = Ok b /\ b_surfaces b = Some (order ss) /\ b_areas b = Some [] /\
    b_result b = TList (map (fun x => EFloat (fst (snd x))) ((s, r) :: rs)) /\
    b_err b = TList (map (fun x => EFloat (snd (snd x))) ((s, r) :: rs)).
Proof. exact current_values. Qed.
Print Assumptions C237_values.
Theorem C237_times : forall order pre ls e post ss ts r1 r2 rs, named_surfaces (skipn 2 (pre ++ ls ++ e :: post)) ss -> NoDup ss -> rearranges order -> none_of titles_surface pre ->
  time_tables ts ls (r1 :: r2 :: rs) -> ss = map fst (r1 :: r2 :: rs) -> time_then false ls -> none_of end_rule (pre ++ ls) -> end_rule e ->
  exists b, read_type_surface order (chr 49) (pre ++ ls ++ e :: post) = Ok b /\ b_surfaces b = Some (order ss) /\ b_areas b = Some [] /\ b_times b = Some (TimesText ts) /\
    b_result b = TList (map (fun x => ERow (map fst (snd x))) (r1 :: r2 :: rs)) /\
    b_err b = TList (map (fun x => ERow (map snd (snd x))) (r1 :: r2 :: rs)).
Proof. exact current_time_bins. Qed.
Print Assumptions C237_times.
Theorem C237_times_one : forall order pre ls e post s ts ps, named_surfaces (skipn 2 (pre ++ ls ++ e :: post)) [s] -> rearranges order -> none_of titles_surface pre -> none_of (occurs (lit "total")) pre ->
  time_tables ts ls [(s, ps)] -> time_then false ls -> none_of end_rule (pre ++ ls) -> end_rule e ->
  exists b, read_type_surface order (chr 49) (pre ++ ls ++ e :: post) = Ok b /\ b_surfaces b = Some [s] /\ b_areas b = Some [] /\ b_times b = Some (TimesText ts) /\
    b_result b = TList (map EFloat (map fst ps)) /\ b_err b = TList (map EFloat (map snd ps)).
Proof. exact current_time_one. Qed.
Print Assumptions C237_times_one.
Theorem C237_matrices : forall order pre ls e post ss ts es r1 r2 rs, named_surfaces (skipn 2 (pre ++ ls ++ e :: post)) ss -> NoDup ss -> rearranges order -> none_of titles_surface pre ->
  et_tables ts es ls (r1 :: r2 :: rs) -> ascending es -> ascending ts -> ss = map fst (r1 :: r2 :: rs) -> time_then true ls -> none_of end_rule (pre ++ ls) -> end_rule e ->
  exists b VU, read_type_surface order (chr 49) (pre ++ ls ++ e :: post) = Ok b /\ b_surfaces b = Some (order ss) /\ b_areas b = Some [] /\
    b_times b = Some (TimesNum ts) /\ b_eng b = Some es /\
    b_result b = TList (map (fun x => EMat (fst x)) VU) /\ b_err b = TList (map (fun x => EMat (snd x)) VU) /\
    Forall2 (fun r x => matrix_of fst (snd r) (List.length es) (fst x) /\ matrix_of snd (snd r) (List.length es) (snd x)) (r1 :: r2 :: rs) VU.
Proof. exact current_et_bins. Qed.
Print Assumptions C237_matrices.
Theorem C237_matrices_one : forall order pre h body e post s ts es parts, named_surfaces (skipn 2 (pre ++ (h :: body) ++ e :: post)) [s] -> rearranges order -> none_of titles_surface pre ->
  surface_title h s -> et_listing es body parts -> parts <> [] -> concat (map fst parts) = ts -> ascending es -> ascending ts ->
  time_then true (h :: body) -> none_of end_rule (pre ++ h :: body) -> end_rule e ->
  exists b V U, read_type_surface order (chr 49) (pre ++ (h :: body) ++ e :: post) = Ok b /\ b_surfaces b = Some [s] /\ b_areas b = Some [] /\
    b_times b = Some (TimesNum ts) /\ b_eng b = Some es /\ b_result b = TMat V /\ b_err b = TMat U /\
    matrix_of fst parts (List.length es) V /\ matrix_of snd parts (List.length es) U.
Proof. exact current_et_one. Qed.
Print Assumptions C237_matrices_one.
Theorem C237_energies : forall order pre h l rest ss bs k r rs ts bs', named_surfaces (skipn 2 (pre ++ h :: l :: rest)) ss -> NoDup ss -> rearranges order -> none_of titles_surface pre -> titles_surface h -> occurs (lit "energy") l ->
  bin_listing (lit "surface") (pre ++ h :: l :: rest) bs -> bs = (k, r :: rs, ts) :: bs' ->
  exists b d t, read_type_surface order (chr 49) (pre ++ h :: l :: rest) = Ok b /\ b_surfaces b = Some (order ss) /\ b_areas b = Some [] /\ b_result b = TTable d /\ b_totals b = Some t /\
    (forall k, dict_get Z.eqb k d = match rows_of_block k bs with [] => None | (_ :: _) as l => Some l end) /\
    (forall k, is_last (totals_of_block k bs) (dict_get Z.eqb k t)) /\
    (exists k rows, dict_get Z.eqb k d = Some rows /\ b_eng b = Some (map (fun r => fst (fst r)) rows)).
Proof. exact current_energies. Qed.
Print Assumptions C237_energies.
(** Surfaces named several times, as with segments or multiplier bins: the later values are dropped. *)
Theorem C237_repeated_refuted : forall order pre ls nm ss s r rs, named_surfaces (skipn 2 (pre ++ ls)) nm -> NoDup ss -> (forall x, In x ss <-> In x nm) -> rearranges order -> none_of titles_surface pre ->
  surface_values ls ((s, r) :: rs) -> 2 <= List.length ss -> List.length ss <= List.length ((s, r) :: rs) ->
  (forall gap h l ls', ls = gap ++ h :: l :: ls' -> titles_surface h -> none_of titles_surface gap -> plain_value l) ->
  exists b, read_type_surface order (chr 49) (pre ++ ls) = Ok b /\
    b_result b = TList (map (fun x => EFloat (fst (snd x))) (firstn (List.length ss) ((s, r) :: rs))) /\
    b_err b = TList (map (fun x => EFloat (snd (snd x))) (firstn (List.length ss) ((s, r) :: rs))).
Proof. exact current_repeated. Qed.
Print Assumptions C237_repeated_refuted.
Definition C237_head : list str := [lit "           tally type 1    number of particles crossing a surface."; lit "           particle(s): neutrons "; []].
Definition C237_values_lines : list str := [lit " surface  10"; lit "                 1.5E-03 0.0100"; []; lit " surface  20"; lit "                 2.5E-03 0.0200"; []].
Definition C237_repeat_lines : list str := [lit " surface  10"; lit "                 1.5E-03 0.0100"; lit " surface  20"; lit "                 2.5E-03 0.0200"; lit " surface  10"; lit "                 3.5E-03 0.0300"].
Definition C237_time_lines : list str :=
  [lit " surface  10"; lit "      time:   1.0E+00        total"; lit "    1.5E-01 0.01  4.0E-01 0.015"; [];
   lit " surface  20"; lit "      time:   1.0E+00        total"; lit "    2.5E-01 0.02  5.0E-01 0.025"; []].
Example C237_named : named_surfaces (skipn 2 (C237_head ++ C237_values_lines)) [lit "10"; lit "20"] /\
  named_surfaces (skipn 2 (C237_head ++ C237_repeat_lines)) [lit "10"; lit "20"; lit "10"].
Proof.
  split; cbn [skipn app C237_head C237_values_lines C237_repeat_lines]; repeat (first [apply ns_end | (apply ns_other; [text|]) | (apply ns_named; [split; [text|exists [lit "surface"]; text]|])]).
Qed.
Example C237_ex : (exists b, read_type_surface (@rev str) (chr 49) (C237_head ++ C237_values_lines) = Ok b /\
    b_surfaces b = Some [lit "20"; lit "10"] /\ b_result b = TList [EFloat (fdec 15 (-4)); EFloat (fdec 25 (-4))]) /\
  (exists b, read_type_surface (@rev str) (chr 49) (C237_head ++ C237_repeat_lines) = Ok b /\
    b_surfaces b = Some [lit "20"; lit "10"] /\ b_result b = TList [EFloat (fdec 15 (-4)); EFloat (fdec 25 (-4))]) /\
  (exists b, read_type_surface (@rev str) (chr 49) (C237_head ++ C237_time_lines ++ [lit " ====="]) = Ok b /\
    b_surfaces b = Some [lit "20"; lit "10"] /\ b_result b = TList [ERow [fdec 15 (-2); fdec 4 (-1)]; ERow [fdec 25 (-2); fdec 5 (-1)]]).
Proof. split; [|split]; (eexists; split; [vm_compute; reflexivity|]; vm_compute; split; reflexivity). Qed.

(** C238: an atomic weight that is not a number makes the whole file unreadable. *)
Theorem C238_bad_weight : forall f p lines pre h sec l w k v rest post es, get_lines f p = Ok lines -> (forall x, In x lines -> datapath_line x -> In (chr 61) x) ->
  lines = pre ++ h :: sec ++ l :: post -> none_of (heads (lit "atomic")) pre -> heads (lit "atomic") h -> none_of (heads (lit "directory")) sec -> awr_entries sec es ->
  words l (w :: k :: v :: rest) -> ~ heads (lit "atomic") l -> ~ heads (lit "directory") l -> (forall x, ~ reads v x) -> read_xsdir f p = Err ValueError.
Proof. exact bad_weight. Qed.
Print Assumptions C238_bad_weight.
(** Entries after the directory heading and after the thermal one are in both dictionaries. *)
Theorem C238_separate_refuted : forall f p x lines, get_lines f p = Ok lines -> read_xsdir f p = Ok x -> forall pre d mid h sec l k v vs post, lines = pre ++ d :: mid ++ h :: sec ++ l :: post ->
  heads (lit "directory") d -> thermal_head h -> words l (k :: v :: vs) -> ~ heads (lit "directory") l -> ~ thermal_skip l ->
  In k (map fst (xs_directory x)) /\ In k (map fst (xs_thermal x)).
Proof. exact both_sections. Qed.
Print Assumptions C238_separate_refuted.
(** The weights of a file without a directory go on to the end of the file. *)
Theorem C238_weights_to_end : forall lines pre h sec es, lines = pre ++ h :: sec -> none_of (heads (lit "atomic")) pre -> heads (lit "atomic") h -> none_of (heads (lit "directory")) sec ->
  awr_entries sec es -> exists d, process_awr lines = Ok d /\ bindings str_eqb d es.
Proof. exact weights_to_end. Qed.
Print Assumptions C238_weights_to_end.
Definition C238_lines : list str := [lit "atomic weight ratios"; lit "h 1001 0.999"; lit "directory"; lit "1001.80c 0.999 endf"; lit "sab"; lit "lwtr.10t 0.99 tsl"].
Example C238_ex : let f x := (fun q => if path_eqb q [lit "xsdir"] then Some (File (full_text x)) else None) : fs in
  (exists x, read_xsdir (f C238_lines) [lit "xsdir"] = Ok x /\ In (lit "lwtr.10t") (map fst (xs_directory x)) /\ In (lit "lwtr.10t") (map fst (xs_thermal x))) /\
  read_xsdir (f [lit "atomic weight ratios"; lit "h 1001 0.999"; lit "thorium 90232 2.3e+02x"; lit "directory"]) [lit "xsdir"] = Err ValueError /\
  process_awr [lit "atomic weight ratios"; lit "h 1001 0.999"; lit "sab"; lit "lwtr.10t 1002 7.5"] = Ok [(lit "1001", fdec 999 (-3)); (lit "1002", fdec 75 (-1))].
Proof.
  cbv zeta. split; [eexists; split; [vm_compute; reflexivity|]|split; vm_compute; reflexivity].
  split; cbn [xs_directory xs_thermal map fst]; [apply nth_error_In with (n := 1)|apply nth_error_In with (n := 0)]; reflexivity.
Qed.
