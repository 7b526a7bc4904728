(** Lemmas for r2s_cell: the main flow. *)
From Verif Require Import PyBase PyFloat PyFs PyIo PyFacts M_util M_ptrac M_input M_mcout M_r2s SpecUtil SpecInput SpecMcout SpecR2s P_util P_fisout P_mcout2 P_r2s P_r2s2 P_r2s3.
From Coq Require Import Permutation Lia.

(** * Folders below others *)
Lemma add_i_deep a b r : exists t, add_i (a :: b :: r) = a :: t /\ t <> [].
Proof.
  unfold add_i. destruct (rev (a :: b :: r)) as [|x h] eqn:E.
  - apply (f_equal (@List.length str)) in E. rewrite rev_length in E. discriminate.
  - apply (f_equal (@rev str)) in E. rewrite rev_involutive in E. cbn [rev] in E. destruct (rev h) as [|y h']; cbn [app] in *; [discriminate|].
    injection E as <- E. exists (h' ++ [x ++ lit ".i"]). split; [reflexivity|]. destruct h'; discriminate.
Qed.
Lemma setup_nested a b r v f : f ((a :: b :: r) ++ [a]) <> Some Dir -> exists e, snd (fispact_setup (a :: b :: r) v f) = Err e.
Proof.
  intros N. destruct (fispact_setup (a :: b :: r) v f) as [f' [[]|e]] eqn:H; [|exists e; reflexivity]. exfalso. apply N. clear N.
  set (p := a :: b :: r) in *. unfold fispact_setup in H.
  apply bind_inv in H. destruct H as (g0 & ex & E0 & H). injection E0 as <- _.
  apply bind_inv in H. destruct H as (g1 & [] & E1 & H).
  apply bind_inv in H. destruct H as (g2 & [] & E2 & H). apply lines_inv in E2. destruct E2 as (_ & H2).
  apply bind_inv in H. destruct H as (g3 & [] & E3 & H). apply lines_inv in E3. destruct E3 as (_ & H3).
  apply bind_inv in H. destruct H as (g4 & [] & E4 & _). apply lines_inv in E4. destruct E4 as ((_ & _ & O) & _).
  destruct (add_i_deep a b r) as (t & Et & Nt). fold p in Et.
  assert (D : g3 (p ++ [a]) = Some Dir). { apply (O (p ++ [a]) t); [rewrite Et, <- app_assoc; reflexivity|destruct p; discriminate|exact Nt]. }
  rewrite H3 in D. destruct (path_eqb _ _) in D; [discriminate|]. rewrite H2 in D. destruct (path_eqb _ _) in D; [discriminate|].
  rewrite <- D. destruct ex; cbn [negb] in E1; [injection E1 as <-; reflexivity|].
  symmetry. change g1 with (fst (g1, @Ok unit tt)). rewrite <- E1. apply touch_makedirs.
  intros (r' & E). apply (f_equal (@List.length str)) in E. rewrite !app_length in E. cbn in E. lia.
Qed.

(** * Several cells *)
Lemma cell_plain n : plain_name (cell_folder n).
Proof. split; discriminate. Qed.
Lemma made_holds f name c f' : folder_made f name c f' -> folder_holds f' name c.
Proof. intros (A & B & _). split; assumption. Qed.
Lemma made_path f name c f' q : folder_made f name c f' -> ~ folder_path name q -> f' q = f q.
Proof. intros (_ & _ & C) N. apply C; [intros ->; apply N; now left|]. intros file X ->. apply N. right. eauto. Qed.
Lemma path_inside name q : folder_path name q -> inside name q.
Proof. intros [->|(file & _ & ->)]; eexists; reflexivity. Qed.
Lemma inside_eq a b q : inside a q -> inside b q -> a = b.
Proof. intros (r & ->) (r' & E). now injection E. Qed.
Lemma free_other f f' name : (forall q, inside name q -> f' q = f q) -> folder_free f name <-> folder_free f' name.
Proof.
  intros H. unfold folder_free. rewrite (H [name]) by (now exists []). split; intros (A & B); (split; [exact A|]); intros file X.
  - rewrite H by (eexists; reflexivity). auto.
  - rewrite <- H by (eexists; reflexivity). auto.
Qed.
Lemma holds_other f f' name c : (forall q, inside name q -> f' q = f q) -> folder_holds f name c -> folder_holds f' name c.
Proof.
  intros H (A & B). split; [rewrite H; [exact A|now exists []]|]. intros file content X. rewrite H; [auto|eexists; reflexivity].
Qed.
Lemma cells_ok v src c cs : forall f, path_of_json v = Ok src -> file_at f src c ->
  (forall n, In n cs -> folder_free f (cell_folder n) /\ ~ inside (cell_folder n) src) ->
  exists f', setup_cells v cs f = (f', Ok tt) /\ (forall n, In n cs -> folder_holds f' (cell_folder n) c) /\
    (forall q, (forall n, In n cs -> ~ folder_path (cell_folder n) q) -> f' q = f q).
Proof.
  induction cs as [|n cs IH]; intros f Ev F H.
  - exists f. split; [reflexivity|]. split; [intros n []|auto].
  - destruct (H n (or_introl eq_refl)) as (Fr & I). destruct (setup_ok (cell_folder n) v f src c (cell_plain n) Fr Ev I F) as (f1 & E1 & M1).
    destruct (IH f1 Ev) as (f' & E & Ho & Fr').
    + apply (file_frame f f1 (cell_folder n)); [|exact I|exact F]. intros. now apply (made_frame f (cell_folder n) c).
    + intros m Im. destruct (H m (or_intror Im)) as (Fm & Is). split; [|exact Is].
      destruct (str_eqb_spec (cell_folder m) (cell_folder n)) as [->|Ne]; [eapply made_free; exact M1|].
      apply (free_other f f1); [|exact Fm]. intros q Q. apply (made_frame f (cell_folder n) c f1 q M1). intros X. apply Ne. eapply inside_eq; eassumption.
    + exists f'. split; [cbn [setup_cells]; fold (cell_folder n); rewrite (bind_run _ _ f f1 tt E1); exact E|]. split.
      * intros m [<-|Im]; [|now apply Ho].
        destruct (in_dec (list_eq_dec ascii_dec) (cell_folder n) (map cell_folder cs)) as [J|J].
        -- apply in_map_iff in J. destruct J as (m & Em & J). rewrite <- Em. now apply Ho.
        -- apply (holds_other f1 f'); [|eapply made_holds; exact M1]. intros q Q. apply Fr'. intros m Im P. apply J.
           rewrite (inside_eq _ _ _ Q (path_inside _ _ P)). now apply in_map.
      * intros q Q. rewrite Fr' by (intros m Im; apply Q; now right). apply (made_path f (cell_folder n) c f1 q M1). apply Q. now left.
Qed.
Lemma setup_made name v f src f' : plain_name name -> path_of_json v = Ok src -> ~ inside name src -> fispact_setup [name] v f = (f', Ok tt) ->
  folder_free f name /\ exists c, file_at f src c /\ folder_made f name c f'.
Proof.
  intros PN Ev I H. destruct (setup_inv name v f src f' Ev I H) as (Fr & c & F). split; [exact Fr|]. exists c. split; [exact F|].
  destruct (setup_ok name v f src c PN Fr Ev I F) as (g & E & M). congruence.
Qed.
Lemma cells_inv v src cs : forall f f', path_of_json v = Ok src -> (forall n, In n cs -> ~ inside (cell_folder n) src) ->
  setup_cells v cs f = (f', Ok tt) -> (forall n, In n cs -> folder_free f (cell_folder n)) /\ (cs <> [] -> exists c, file_at f src c).
Proof.
  induction cs as [|n cs IH]; intros f f' Ev I H; [split; [intros n []|contradiction]|].
  cbn [setup_cells] in H. fold (cell_folder n) in H. apply bind_inv in H. destruct H as (f1 & [] & E1 & H).
  destruct (setup_made (cell_folder n) v f src f1 (cell_plain n) Ev (I n (or_introl eq_refl)) E1) as (Fr & c & F & M).
  destruct (IH f1 f' Ev (fun m Im => I m (or_intror Im)) H) as (G & _). split; [|eauto].
  intros m [<-|Im]; [exact Fr|]. destruct (str_eqb_spec (cell_folder m) (cell_folder n)) as [->|Ne]; [exact Fr|].
  apply (free_other f f1); [|now apply G]. intros q Q. apply (made_frame f (cell_folder n) c f1 q M). intros X. apply Ne. eapply inside_eq; eassumption.
Qed.
Lemma touch_cells v cs : touches (fun q => q = [] \/ exists n, In n cs /\ inside (cell_folder n) q) (setup_cells v cs).
Proof.
  induction cs as [|n cs IH]; [apply touch_ret|]. cbn [setup_cells]. apply touch_bind.
  - eapply touch_mono; [|apply touch_setup]. intros q Q. apply along1 in Q. destruct Q as [->|Q]; [now left|right]. exists n. split; [now left|exact Q].
  - intros _. eapply touch_mono; [|exact IH]. intros q [->|(m & I & Q)]; [now left|right]. exists m. split; [now right|exact Q].
Qed.

(** * The main flow *)
Section Main.
  Variables (torder sorder : list str -> list str) (set_order : list Z -> list Z) (json_load : str -> res json).
  Notation rin := (read_data_from_mcnp_input set_order).
  Notation rout := (read_data_from_mcnp_output torder sorder).
  Notation go := (main torder sorder set_order json_load).

  Lemma main_reads cfg f u code cells tals d : read_config json_load f cfg = Ok u -> u_mc_code u = JStr code -> upper code = lit "MCNP" ->
    rout u f = Ok (cells, tals) -> rin u cells f = Ok d -> go cfg f = setup_cells (u_files_file u) cells f.
  Proof.
    intros R C U O I. unfold main. rewrite (bind_run _ _ f f u) by (unfold io_read; now rewrite R). rewrite C, U. rewrite str_eqb_refl.
    rewrite (bind_run _ _ f f (cells, tals)) by (unfold io_read; now rewrite O). rewrite (bind_run _ _ f f d) by (unfold io_read; cbn [fst]; now rewrite I). reflexivity.
  Qed.
  Lemma main_inv cfg f f' : go cfg f = (f', Ok tt) -> exists u code cells tals d, read_config json_load f cfg = Ok u /\ u_mc_code u = JStr code /\ upper code = lit "MCNP" /\
    rout u f = Ok (cells, tals) /\ rin u cells f = Ok d /\ setup_cells (u_files_file u) cells f = (f', Ok tt).
  Proof.
    intros H. unfold main in H. apply bind_inv in H. destruct H as (g & u & E & H). injection E as <- E.
    destruct (u_mc_code u) as [| | | |code| |] eqn:C; try discriminate. destruct (str_eqb_spec (upper code) (lit "MCNP")) as [U|]; [|discriminate].
    apply bind_inv in H. destruct H as (g & (cells & tals) & E2 & H). injection E2 as <- E2.
    apply bind_inv in H. destruct H as (g & d & E3 & H). injection E3 as <- E3. exists u, code, cells, tals, d. auto 10.
  Qed.
  Lemma main_err cfg f f' e : go cfg f = (f', Err e) -> f' = f \/
    exists u cells tals d, read_config json_load f cfg = Ok u /\ rout u f = Ok (cells, tals) /\ rin u cells f = Ok d.
  Proof.
    unfold main, io_bind, io_read. destruct (read_config json_load f cfg) as [u|] eqn:R; [|intros H; injection H as <- _; now left].
    destruct (u_mc_code u) as [| | | |code| |] eqn:C; try (intros H; injection H as <- _; now left). destruct (str_eqb (upper code) (lit "MCNP")); [|intros H; injection H as <- _; now left].
    destruct (rout u f) as [[cells tals]|] eqn:O; [|intros H; injection H as <- _; now left]. cbn [fst].
    destruct (rin u cells f) as [d|] eqn:I; [|intros H; injection H as <- _; now left]. intros _. right. exists u, cells, tals, d. auto.
  Qed.
  Lemma main_frame cfg f q : q <> [] -> (forall n, ~ inside (cell_folder n) q) -> fst (go cfg f) q = f q.
  Proof.
    intros Q N. assert (T : touches (fun q => q = [] \/ exists n, inside (cell_folder n) q) (go cfg)).
    { unfold main. apply touch_bind; [apply touch_read|]. intros u. destruct (u_mc_code u); try apply touch_raise. destruct (str_eqb _ _); [|apply touch_raise].
      apply touch_bind; [apply touch_read|]. intros [cells tals]. apply touch_bind; [apply touch_read|]. intros d. eapply touch_mono; [|apply touch_cells].
      intros q' [->|(n & _ & I)]; [now left|right; eauto]. }
    apply T. intros [|(n & I)]; [contradiction|]. exact (N n I).
  Qed.
  Lemma main_folders cfg f u code cells tals d src c : read_config json_load f cfg = Ok u -> u_mc_code u = JStr code -> upper code = lit "MCNP" ->
    rout u f = Ok (cells, tals) -> rin u cells f = Ok d -> path_of_json (u_files_file u) = Ok src -> file_at f src c ->
    (forall n, In n cells -> folder_free f (cell_folder n) /\ ~ inside (cell_folder n) src) ->
    exists f', go cfg f = (f', Ok tt) /\ (forall n, In n cells -> folder_holds f' (cell_folder n) c) /\
      (forall q, (forall n, In n cells -> ~ folder_path (cell_folder n) q) -> f' q = f q).
  Proof.
    intros R C U O I Ev F H. rewrite (main_reads cfg f u code cells tals d R C U O I). now apply (cells_ok _ src).
  Qed.
  Lemma main_code cfg f u code : read_config json_load f cfg = Ok u -> u_mc_code u = JStr code -> upper code <> lit "MCNP" -> go cfg f = (f, Err NotImplementedError).
  Proof.
    intros R C U. unfold main. rewrite (bind_run _ _ f f u) by (unfold io_read; now rewrite R). rewrite C.
    destruct (str_eqb_spec (upper code) (lit "MCNP")); [contradiction|reflexivity].
  Qed.
  Lemma main_no_output cfg f c code u : config_file json_load f cfg c -> read_config json_load f cfg = Ok u -> u_mc_code u = JStr code -> upper code = lit "MCNP" ->
    ~ In (lit "mc_output") (map fst c) -> go cfg f = (f, Err AttributeError).
  Proof.
    intros CF R C U N. pose proof R as R0. apply (config_assigns json_load f cfg c u CF) in R0. destruct R0 as (_ & _ & O & _).
    unfold main. rewrite (bind_run _ _ f f u) by (unfold io_read; now rewrite R). rewrite C, U, str_eqb_refl.
    rewrite (bind_fail _ _ f f AttributeError); [reflexivity|]. unfold io_read, read_data_from_mcnp_output.
    destruct (u_mc_output u) as [v|]; [|reflexivity]. elim N. apply (in_map fst c (lit "mc_output", v)). now apply O.
  Qed.
  Lemma main_no_cells cfg f u code tals p mc : read_config json_load f cfg = Ok u -> u_mc_code u = JStr code -> upper code = lit "MCNP" ->
    rout u f = Ok ([], tals) -> path_of_json (u_mc_input u) = Ok p -> read_mcnp_input f p = Ok mc -> go cfg f = (f, Err TypeError).
  Proof.
    intros R C U O Ep Em. unfold main. rewrite (bind_run _ _ f f u) by (unfold io_read; now rewrite R). rewrite C, U, str_eqb_refl.
    rewrite (bind_run _ _ f f ([], tals)) by (unfold io_read; now rewrite O). cbn [fst]. rewrite (bind_fail _ _ f f TypeError); [reflexivity|].
    unfold io_read, read_data_from_mcnp_input. rewrite Ep. cbn [bind].
    assert (X : exists t, read_text f p = Ok t). { revert Em. unfold read_mcnp_input, get_lines. destruct (read_text f p); cbn; [eauto|discriminate]. }
    destruct X as (t & X). rewrite (read_exists f p t X). cbn [negb]. rewrite Em. reflexivity.
  Qed.
  Lemma out_fatal u f v p o : u_mc_output u = Some v -> path_of_json v = Ok p -> path_exists f p = true -> read_output_file torder sorder f p = Ok o ->
    rout u f = if o_fatal o then Err ValueError else get_cells_mcnp (o_tally_data o) (lit "neutrons") None.
  Proof. intros V P X O. unfold read_data_from_mcnp_output. rewrite V. cbn [bind]. rewrite P. cbn [bind]. rewrite X. cbn [negb]. rewrite O. reflexivity. Qed.

  (** ** Materials *)
  Lemma in_materials u cells f rows mats : set_listing set_order -> rin u cells f = Ok (rows, mats) ->
    NoDup (map m_number mats) /\ (forall n, In n (map m_number mats) <-> exists r, In r rows /\ cr_material r = n).
  Proof.
    intros SL H. unfold read_data_from_mcnp_input in H. unbind H. destruct (path_exists f v); cbn [negb] in H; [|discriminate]. unbind H. destruct v1 as [rs|]; [|discriminate]. unbind H.
    injection H as <- <-. destruct (SL (map cr_material rs)) as (ND & SI).
    assert (X : map m_number v1 = set_order (map cr_material rs)).
    { revert E2. generalize (set_order (map cr_material rs)). clear. intros l. revert v1. induction l as [|x l IH]; intros v1 E; cbn [mapM] in E; [injection E as <-; reflexivity|].
      unbind E. injection E as <-. cbn. f_equal; [|now apply IH]. unfold read_material_lines in E0. unbind E0. injection E0 as <-. cbn.
      unfold process_material_line in E. unbind E. injection E as <-. reflexivity. }
    rewrite X. split; [exact ND|]. intros n. rewrite SI, in_map_iff. split; intros (r & A & B); eauto.
  Qed.
  Lemma check_errors_zero f p lines : get_lines f p = Ok lines -> check_fispact_errors p f = (f, Ok 0%Z).
  Proof.
    intros G. assert (X : exists t, read_text f p = Ok t) by (revert G; unfold get_lines; destruct (read_text f p); cbn; [eauto|discriminate]).
    destruct X as (t & X). unfold check_fispact_errors. rewrite (bind_run _ _ f f true) by (unfold io_read; now rewrite (read_exists f p t X)). cbn [negb].
    rewrite (bind_run _ _ f f lines) by (unfold io_read; now rewrite G). reflexivity.
  Qed.
End Main.
Lemma main_unused torder sorder set_order json_load cfg cfg' f u u' : read_config json_load f cfg = Ok u -> read_config json_load f cfg' = Ok u' ->
  u_mc_code u = u_mc_code u' -> u_mc_output u = u_mc_output u' -> u_mc_input u = u_mc_input u' -> u_files_file u = u_files_file u' ->
  main torder sorder set_order json_load cfg f = main torder sorder set_order json_load cfg' f.
Proof.
  intros R R' C O I F. unfold main. rewrite (bind_run _ _ f f u) by (unfold io_read; now rewrite R). rewrite (bind_run _ _ f f u') by (unfold io_read; now rewrite R').
  unfold io_bind, io_read, read_data_from_mcnp_output, read_data_from_mcnp_input. rewrite C, O, I, F. reflexivity.
Qed.
