(** Proofs about further functions: frames of energy and time bins, units, cooling steps, raw
    spectra, data cards and paths. *)
From Coq Require Import Reals Lra Lia ZArith.
From Verif Require Import PyBase PyFloat PyArith PyArithR PyFs SpecStr PyFacts M_util SpecUtil P_util M_const P_const SpecInput TextFacts M_input P_input P_input2 P_input3 P_input4 SpecOutput M_mcout SpecMcout P_mcout3 P_mcout6
  SpecInput2 M_fisout SpecFis P_fisout3 M_fisana M_mcana M_r2s.

(** * Frames *)
Lemma frame_labels {L} (data : list (list float)) (tb eb : list L) : List.length data = List.length tb -> Forall (fun r => List.length r = List.length eb) data ->
  convert_energy_time_data_to_df data tb eb = EtFrame tb eb data.
Proof.
  intros H1 H2. unfold convert_energy_time_data_to_df. rewrite H1, Nat.eqb_refl. cbn [andb].
  assert (E : forallb (fun r => Nat.eqb (List.length r) (List.length eb)) data = true); [|now rewrite E].
  apply forallb_forall. intros r Hr. apply Nat.eqb_eq. rewrite Forall_forall in H2. now apply H2.
Qed.
Lemma frame_unlabelled {L} (data : list (list float)) (tb eb : list L) : List.length data <> List.length tb \/ Exists (fun r => List.length r <> List.length eb) data ->
  convert_energy_time_data_to_df data tb eb = EtData data.
Proof.
  intros H. unfold convert_energy_time_data_to_df. destruct (Nat.eqb_spec (List.length data) (List.length tb)) as [E|E]; [|reflexivity]. cbn [andb].
  destruct (forallb _ data) eqn:F; [|reflexivity]. exfalso. destruct H as [H|H]; [contradiction|]. apply Exists_exists in H. destruct H as (r & Hr & Hn).
  rewrite forallb_forall in F. specialize (F r Hr). apply Nat.eqb_eq in F. contradiction.
Qed.
(** What the reader returns has a row for each energy. *)
Lemma frame_of_reader es lines parts V U ts : et_listing es lines parts -> parts <> [] -> ascending es -> ascending (concat (map fst parts)) ->
  process_e_t_userbin lines = Ok (ts, es, V, U) -> List.length es <> List.length ts -> convert_energy_time_data_to_df V ts es = EtData V.
Proof.
  intros Hl Hne He Ht H Hn. destruct (userbin_ascending es lines parts Hl Hne He Ht) as (V' & U' & E & (HV & _) & _). rewrite H in E. injection E as -> -> ->.
  apply frame_unlabelled. left. congruence.
Qed.
Lemma frame_transposed es lines parts V U ts : et_listing es lines parts -> parts <> [] -> ascending es -> ascending (concat (map fst parts)) ->
  process_e_t_userbin lines = Ok (ts, es, V, U) -> forall cells, convert_energy_time_data_to_df V ts es = EtFrame ts es cells ->
  forall i, (i < List.length es)%nat -> nth_error cells i = Some (map fst (table_row parts i)).
Proof.
  intros Hl Hne He Ht H cells Hc i Hi. destruct (userbin_ascending es lines parts Hl Hne He Ht) as (V' & U' & E & (_ & HV) & _). rewrite H in E. injection E as -> -> ->.
  unfold convert_energy_time_data_to_df in Hc. destruct (andb _ _); [|discriminate]. injection Hc as <-. now apply HV.
Qed.

(** * Units *)
Open Scope R_scope.
Lemma shake_val v : exists s w, shake_to_second RA v = Ok s /\ shake_to_ms RA v = Ok w /\ w = s * 1000000.
Proof.
  unfold shake_to_second, shake_to_ms. change (ndec RA) with Rdec. change (ndiv RA) with Rdiv_res. change (nmul RA) with Rmult. change (num RA) with R in *.
  assert (E : Rdec 100 0 = 100) by (rdec; lra). unfold Rdiv_res. rewrite E. destruct (Req_EM_T 100 0); [lra|].
  do 2 eexists. split; [reflexivity|]. split; [reflexivity|]. rdec. field.
Qed.
Lemma shakes_micro v s w : shake_to_second RA v = Ok s -> shake_to_ms RA v = Ok w -> w = s * 1000000.
Proof. intros E1 E2. destruct (shake_val v) as (s' & w' & F1 & F2 & F). congruence. Qed.
Lemma shakes_not_milli v s w : v <> 0 -> shake_to_second RA v = Ok s -> shake_to_ms RA v = Ok w -> w <> s * 1000.
Proof.
  intros Hv E1 E2. pose proof (shakes_micro v s w E1 E2) as E. intros F. apply Hv.
  assert (s = 0) by lra. subst s. revert E1. unfold shake_to_second. change (ndec RA) with Rdec. change (nmul RA) with Rmult. change (num RA) with R in *.
  intros E1. injection E1 as E1. revert E1. rdec. lra.
Qed.
Lemma charge_differs : eV_to_joule RA 1 <> Ok (get_e RA).
Proof. unfold eV_to_joule, get_e. change (ndec RA) with Rdec. change (nmul RA) with Rmult. change (num RA) with R in *. intros E. injection E as E. revert E. rdec. lra. Qed.
Lemma charge_close : exists j, eV_to_joule RA 1 = Ok j /\ get_e RA * (1 - / 5000) < j < get_e RA.
Proof. unfold eV_to_joule, get_e. change (ndec RA) with Rdec. change (nmul RA) with Rmult. change (num RA) with R in *. eexists. split; [reflexivity|]. rdec. lra. Qed.
Close Scope R_scope.

(** * Cooling steps *)
Lemma cooling_some {T} sd (steps : list T) i : find_first_cooling_index sd = Some i ->
  exists irr, steps = irr ++ cooling_ts_data steps (find_first_cooling_index sd) /\ List.length irr = Nat.min i (List.length steps).
Proof. intros ->. exists (firstn i steps). cbn [cooling_ts_data]. rewrite slice_from_nat, firstn_skipn. split; [reflexivity|apply firstn_length]. Qed.
Lemma cooling_steps {T} sd (steps : list T) i : first_index (fun r => is_cooling (fst r) = true) sd i ->
  exists irr, steps = irr ++ cooling_ts_data steps (find_first_cooling_index sd) /\ List.length irr = Nat.min i (List.length steps).
Proof. intros H. apply first_cooling in H. now apply cooling_some. Qed.
Lemma cooling_none {T} sd (steps : list T) : Forall (fun r => is_cooling (fst r) = false) sd -> cooling_ts_data steps (find_first_cooling_index sd) = steps.
Proof. intros H. apply no_cooling in H. now rewrite H. Qed.

(** * Raw spectra *)
Lemma raw_spectra eng (result : etable) : Forall (fun kv => List.length (snd kv) = List.length eng) result ->
  exists ds, plot_raw_spectra eng result = Ok ds /\ Forall2 (fun kv d => d = DCurve (Some (fst kv)) eng (map (fun r => snd (fst r)) (snd kv))) result ds.
Proof.
  intros H. exists (map (fun kv => DCurve (Some (fst kv)) eng (map (fun r => snd (fst r)) (snd kv))) result). split.
  - unfold plot_raw_spectra. apply mapM_Ok_iff. induction H as [|kv result H1 H IH]; constructor; [|exact IH].
    unfold mpl_curve, result_column. rewrite map_length, H1, Nat.eqb_refl. reflexivity.
  - clear H. induction result; constructor; auto.
Qed.
Lemma raw_spectra_err eng (result : etable) a kv b : result = a ++ kv :: b -> Forall (fun kv => List.length (snd kv) = List.length eng) a -> List.length (snd kv) <> List.length eng ->
  plot_raw_spectra eng result = Err ValueError.
Proof.
  intros -> Ha Hn. unfold plot_raw_spectra. induction Ha as [|x a Hx Ha IH]; cbn [app mapM].
  - unfold mpl_curve at 1, result_column. rewrite map_length. destruct (Nat.eqb_spec (List.length eng) (List.length (snd kv))); [congruence|reflexivity].
  - assert (E : exists d, mpl_curve (Some (fst x)) eng (result_column (snd x)) = Ok d) by (unfold mpl_curve, result_column; rewrite map_length, Hx, Nat.eqb_refl; eauto).
    destruct E as (d & E). rewrite E. cbn [bind]. now rewrite IH.
Qed.

(** * Data cards *)
Lemma lower_indented l : indented l -> indented (lower l).
Proof. intros [->|(r & ->)]; [now left|right]. now exists (lower r). Qed.
Lemma starts_indented c p l : c <> chr 32 -> indented l -> starts_with (c :: p) l = false.
Proof. intros Hc [->|(r & ->)]; [reflexivity|]. cbn [starts_with]. destruct (Ascii.eqb_spec c (chr 32)); [contradiction|reflexivity]. Qed.
Lemma card_indented c p pre rest : lower_c c <> chr 32 -> Forall indented pre -> get_card_lines (pre ++ rest) (c :: p) = get_card_lines rest (c :: p).
Proof.
  intros Hc H. unfold get_card_lines. induction H as [|l pre Hl H IH]; [reflexivity|]. cbn [app card_loop].
  change (lower (c :: p)) with (lower_c c :: lower p). rewrite (starts_indented _ _ _ Hc (lower_indented _ Hl)). cbn [andb app]. exact IH.
Qed.
Lemma block_indented is_start pre rest : (forall l, indented l -> is_start l = false) -> Forall indented pre -> block_loop is_start false (pre ++ rest) = block_loop is_start false rest.
Proof.
  intros Hs H. induction H as [|l pre Hl H IH]; [reflexivity|]. cbn [app block_loop]. rewrite (Hs _ (lower_indented _ Hl)). cbn [app]. exact IH.
Qed.
Lemma mat_indented n l : indented l -> is_mat_start n l = false.
Proof. intros [->|([|b r] & ->)]; reflexivity. Qed.
Lemma tally_indented n l : indented l -> is_tally_start n l = false.
Proof. intros [->|([|b r] & ->)]; reflexivity. Qed.
Lemma present_indented c p pre rest : lower_c c <> chr 32 -> Forall indented pre -> is_card_present (pre ++ rest) (c :: p) = is_card_present rest (c :: p).
Proof.
  intros Hc H. unfold is_card_present. induction H as [|l pre Hl H IH]; [reflexivity|]. cbn [app existsb].
  change (lower (c :: p)) with (lower_c c :: lower p) in *. now rewrite (starts_indented _ _ _ Hc (lower_indented _ Hl)).
Qed.
Lemma numbered_indented c l : lower_c (chr 32) <> c -> indented l -> is_numbered_card c l = false.
Proof.
  intros Hc [->|([|b r] & ->)]; [reflexivity|reflexivity|]. cbn [is_numbered_card]. destruct (Ascii.eqb_spec (lower_c (chr 32)) c); [contradiction|reflexivity].
Qed.
Lemma filter_indented c pre rest : lower_c (chr 32) <> c -> Forall indented pre -> filter (is_numbered_card c) (pre ++ rest) = filter (is_numbered_card c) rest.
Proof. intros Hc H. induction H as [|l pre Hl H IH]; [reflexivity|]. cbn [app filter]. now rewrite (numbered_indented _ _ Hc Hl). Qed.
Lemma read_tally_indented n pre rest : Forall indented pre -> read_tally_lines n (pre ++ rest) = read_tally_lines n rest.
Proof.
  intros H. unfold read_tally_lines, tally_text, tally_card. rewrite (block_indented _ _ _ (tally_indented n) H).
  change (lit "e") with [chr 101]. change (lit "t") with [chr 116]. change (lit "fm") with (chr 102 :: lit "m"). change (lit "sd") with (chr 115 :: lit "d"). change (lit "fc") with (chr 102 :: lit "c").
  cbn [app]. now rewrite !present_indented by (assumption || discriminate).
Qed.
Lemma read_material_indented n pre rest : Forall indented pre -> read_material_lines n (pre ++ rest) = read_material_lines n rest.
Proof.
  intros H. unfold read_material_lines, material_text, get_mt_lines, get_mx_lines, get_prefixed_lines. rewrite (block_indented _ _ _ (mat_indented n) H).
  change (lit "mt") with (chr 109 :: lit "t"). change (lit "mx") with (chr 109 :: lit "x"). cbn [app].
  now rewrite !card_indented by (assumption || discriminate).
Qed.
Lemma data_indented pre rest : Forall indented pre -> process_data_block (pre ++ rest) = process_data_block rest.
Proof.
  intros H. unfold process_data_block, get_tally_numbers, get_material_numbers, read_mode_card.
  rewrite !filter_indented by (assumption || discriminate).
  change (lit "mode") with (chr 109 :: lit "ode"). rewrite card_indented by (assumption || discriminate).
  change (lit "void") with (chr 118 :: lit "oid"). change (lit "kcode") with (chr 107 :: lit "code"). change (lit "sdef") with (chr 115 :: lit "def"). change (lit "ptrac") with (chr 112 :: lit "trac").
  rewrite !present_indented by (assumption || discriminate).
  match goal with |- bind ?x _ = _ => destruct x as [tn|]; cbn [bind]; [|reflexivity] end.
  match goal with |- bind ?x _ = _ => destruct x as [mn|]; cbn [bind]; [|reflexivity] end.
  assert (E1 : forall l acc, foldM (fun d mat_num => do mat <- read_material_lines mat_num (pre ++ rest); Ok (dict_set Z.eqb (m_number mat) mat d)) l acc =
                             foldM (fun d mat_num => do mat <- read_material_lines mat_num rest; Ok (dict_set Z.eqb (m_number mat) mat d)) l acc).
  { induction l as [|n l IH]; intros acc; [reflexivity|]. cbn [foldM]. rewrite (read_material_indented n pre rest H).
    destruct (read_material_lines n rest); cbn [bind]; [apply IH|reflexivity]. }
  rewrite E1. match goal with |- bind ?x _ = _ => destruct x as [ms|]; cbn [bind]; [|reflexivity] end.
  assert (E2 : forall l acc, fold_left (fun d tal_num => let t := read_tally_lines tal_num (pre ++ rest) in dict_set Z.eqb (ti_number t) t d) l acc =
                             fold_left (fun d tal_num => let t := read_tally_lines tal_num rest in dict_set Z.eqb (ti_number t) t d) l acc).
  { induction l as [|n l IH]; intros acc; [reflexivity|]. cbn [fold_left]. rewrite (read_tally_indented n pre rest H). apply IH. }
  now rewrite E2.
Qed.
(** Starred tallies. *)
Lemma starred c l a b : c = chr 42 \/ c = chr 43 -> get_tally_numbers (a ++ (c :: l) :: b) = get_tally_numbers (a ++ b).
Proof.
  intros Hc. unfold get_tally_numbers. f_equal. rewrite !filter_app. f_equal. destruct l as [|d l]; [reflexivity|]. cbn [filter is_numbered_card].
  destruct Hc as [-> | ->]; reflexivity.
Qed.
Lemma default_bins n lines : (0 < n)%Z -> (forall l q r, In l lines -> l = q ++ chr 32 :: r -> same_case q (lit "e" ++ str_of_Z n) -> False) -> ti_has_ebins (read_tally_lines n lines) = false.
Proof.
  intros Hn H. destruct (tally_flags n lines ltac:(lia)) as ((F & _) & _). destruct (ti_has_ebins (read_tally_lines n lines)) eqn:E; [|reflexivity].
  destruct (F eq_refl) as (l & q & r & Hi & El & Hs). elim (H l q r Hi El Hs).
Qed.
(** The flags of a data block. *)
Lemma present_iff lines card : is_card_present lines card = true <-> exists l q r, In l lines /\ l = q ++ r /\ lower q = lower card.
Proof.
  unfold is_card_present. rewrite existsb_exists. split.
  - intros (l & Hi & Hs). apply starts_with_spec in Hs. destruct Hs as (r & Hr). exists l, (firstn (List.length card) l), (skipn (List.length card) l).
    split; [exact Hi|]. split; [now rewrite firstn_skipn|]. unfold lower in *. rewrite <- firstn_map, Hr.
    rewrite firstn_app, map_length, Nat.sub_diag, firstn_O, app_nil_r. rewrite <- (map_length lower_c card). apply firstn_all.
  - intros (l & q & r & Hi & -> & E). exists (q ++ r). split; [exact Hi|]. unfold lower in *. rewrite map_app, E. apply starts_with_app.
Qed.
Lemma data_flags lines d : process_data_block lines = Ok d -> let present k := exists l q r, In l lines /\ l = q ++ r /\ lower q = lit k in
  (d_is_void d = true <-> present "void"%string) /\ (d_is_kcode d = true <-> present "kcode"%string) /\
  (d_is_sdef d = true <-> present "sdef"%string) /\ (d_is_ptrac d = true <-> present "ptrac"%string).
Proof.
  unfold process_data_block. cbv zeta. intros H.
  destruct (get_tally_numbers lines); [cbn [bind] in H|discriminate]. destruct (get_material_numbers lines); [cbn [bind] in H|discriminate].
  match type of H with bind ?x _ = _ => destruct x; [cbn [bind] in H|discriminate] end. injection H as <-. cbn [d_is_void d_is_kcode d_is_sdef d_is_ptrac].
  rewrite !present_iff. repeat split; intros X; exact X.
Qed.

(** * Paths *)
Lemma path_dot s : path_of_str (lit "./" ++ s) = path_of_str s.
Proof.
  unfold path_of_str. change (lit "./" ++ s) with (lit "." ++ chr 47 :: s). rewrite split_on_app by (apply lacks_In; intros [E|[]]; discriminate). reflexivity.
Qed.
Lemma path_parts a b : path_of_str (a ++ chr 47 :: b) = path_of_str a ++ path_of_str b.
Proof. unfold path_of_str. rewrite split_on_app_gen, filter_app. reflexivity. Qed.
Lemma path_name w : ~ In (chr 47) w -> w <> [] -> w <> lit "." -> path_of_str w = [w].
Proof.
  intros H1 H2 H3. unfold path_of_str. rewrite split_on_lacks by (now apply lacks_In). cbn [filter].
  destruct (str_eqb_spec w []); [contradiction|]. destruct (str_eqb_spec w (lit ".")); [contradiction|reflexivity].
Qed.
Lemma path_empty : path_of_str [] = [] /\ path_of_str (lit ".") = [].
Proof. split; reflexivity. Qed.
