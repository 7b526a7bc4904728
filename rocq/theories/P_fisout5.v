(** Proofs about M_fisout.v: whole files. *)
From Coq Require Import Lia.
From Verif Require Import PyBase PyFloat PyFacts TextFacts PyFs SpecStr SpecUtil SpecOutput M_util P_util P_output P_output3 M_ptrac P_ptrac M_fisout SpecFis P_fisout P_fisout2 P_fisout3.
Local Open Scope nat_scope.

Lemma version_of data : check_fisp_version data = (if isFisII data then lit "FISPACT-II" else lit "FISP07").
Proof. unfold isFisII, check_fisp_version. destruct (find _ _) as [[|c s]|]; reflexivity. Qed.
Lemma step_run np_sum lines pre segs ts : cut lines pre segs ->
  read_steps np_sum lines 1 (slice_from 1 (step_inds lines)) = Ok ts <->
  List.length ts = List.length (tl segs) /\ forall i s t, nth_error (tl segs) i = Some s -> nth_error ts i = Some t -> step_holds np_sum s (i + 1) t.
Proof.
  intros C. assert (E : read_steps np_sum lines 1 (slice_from 1 (step_inds lines)) = steps_from np_sum 1 (tl segs)).
  { destruct segs as [|s0 segs]; [|exact (steps_of_cut _ _ _ _ _ C)]. destruct C as (-> & Hp & _). cbn [concat tl steps_from]. rewrite app_nil_r. apply steps_none. exact Hp. }
  rewrite E, steps_from_Ok. split; intros (L & H); (split; [exact L|]); intros i s t Hs Ht; specialize (H i s t Hs Ht); [apply read_time_step_iff in H; rewrite Nat.add_comm; exact H|].
  apply read_time_step_iff. rewrite Nat.add_comm. exact H.
Qed.
Lemma read_fis_lines_iff np_sum p lines fo : read_fis_lines np_sum p lines = Ok fo <-> file_holds np_sum p lines fo.
Proof.
  unfold read_fis_lines. split.
  - cbv zeta. intros H. unbind H. injection H as <-. unfold file_holds. cbn [file_name version fo_isFisII sumdat cooling_step_index ave_flux tot_irrad_time tot_fluence num_irrad_step cpu_time mass_kg mass_g num_cool_step timestep_data].
    split; [reflexivity|]. split; [apply version_of|]. split; [apply isFisII_spec|]. split; [assumption|]. split; [reflexivity|].
    do 5 (split; [apply read_parameter_spec; assumption|]). split; [assumption|]. split; [reflexivity|]. split; [reflexivity|].
    destruct (cut_exists lines) as (pre & segs & C). exists pre, segs. split; [exact C|]. apply (step_run np_sum lines pre segs _ C). assumption.
  - intros (A1 & A2 & A3 & A4 & A5 & A6 & A7 & A8 & A9 & A10 & A11 & A12 & A13 & pre & segs & C & S). cbv zeta. apply (step_run np_sum lines pre segs _ C) in S.
    assert (V : isFisII lines = fo_isFisII fo). { pose proof (isFisII_spec lines) as V. destruct (isFisII lines), (fo_isFisII fo); try reflexivity; [symmetry; apply A3; apply V; reflexivity|apply V; apply A3; reflexivity]. }
    rewrite A4. cbn [bind]. do 4 (match goal with H : param_is lines ?n _ |- context [read_parameter lines ?n] => apply (proj2 (read_parameter_spec lines n _)) in H; rewrite H; cbn [bind]; clear H end).
    rewrite A11. cbn [bind]. rewrite V. match goal with H : param_is lines ?n _ |- context [read_parameter lines ?n] => apply (proj2 (read_parameter_spec lines n _)) in H; rewrite H; cbn [bind]; clear H end. rewrite S. cbn [bind].
    f_equal. rewrite version_of, V, <- A2, <- A5, <- A12. destruct fo. cbn in *. congruence.
Qed.
Lemma read_fis_out_lines np_sum f p ls : get_lines f p = Ok ls -> read_fis_out np_sum f p = read_fis_lines np_sum p ls.
Proof.
  intros H. pose proof (proj2 (read_fispact_ok f p ls) H) as K. unfold read_fispact_input in K. unfold read_fis_out. destruct (path_exists f p); cbn [negb] in *; [|discriminate]. destruct (path_isfile f p); cbn [negb] in *; [|discriminate]. rewrite H. reflexivity.
Qed.
Lemma read_fis_out_missing np_sum f p : wf_fs f -> p <> [] -> f p = None -> read_fis_out np_sum f p = Err FileNotFoundError.
Proof.
  intros W Hp Hn. unfold read_fis_out, path_exists. destruct (walk f [] p); [|reflexivity]. destruct p; [contradiction|]. rewrite Hn. reflexivity.
Qed.
Lemma read_fis_out_dir np_sum f p : wf_fs f -> p = [] \/ f p = Some Dir -> read_fis_out np_sum f p = Err ValueError.
Proof.
  intros W Hd. pose proof (proj2 (read_fispact_dir f p W) Hd) as K. unfold read_fispact_input in K. unfold read_fis_out. destruct (path_exists f p); cbn [negb] in *; [|discriminate]. destruct (path_isfile f p); cbn [negb] in *; [|reflexivity].
  destruct (get_lines f p) as [ls|e]; discriminate.
Qed.

(** * Failing summaries *)
Lemma summary_no_title data : ~ old_version data -> ~ In irradiation_title data -> read_summary_data data = Err ValueError.
Proof.
  intros V N. unfold read_summary_data. apply isFisII_spec in V. rewrite V. unfold find_summary_block. rewrite (proj2 (index_of_Err _ data 0 ValueError)); [reflexivity|]. auto.
Qed.
Lemma summary_no_mass data : ~ old_version data -> In irradiation_title data -> (forall l, In l data -> ~ ends_summary l) -> read_summary_data data = Err StopIteration.
Proof.
  intros V N M. unfold read_summary_data. apply isFisII_spec in V. rewrite V. unfold find_summary_block. change (lit " -----Irradiation Phase-----") with irradiation_title.
  destruct (index_of irradiation_title data 0) as [s|e] eqn:E; [|apply index_of_Err in E; tauto]. cbn [bind].
  destruct (find_ind data (lit "0 Mass")) as [i|e] eqn:F; [|reflexivity]. apply find_ind_Ok in F. destruct F as ((x & Hx & O) & _). apply nth_error_In in Hx. elim (M x Hx O).
Qed.
Lemma summary_old data s e : old_version data -> first_index (fun y => y = lit "  COOLING STEPS") data s -> first_index ends_summary data e -> s + 1 < e -> read_summary_data data = Err TypeError.
Proof.
  intros V Hs He L. unfold read_summary_data. destruct (isFisII data) eqn:F; [apply isFisII_spec in F; contradiction|]. unfold find_summary_block.
  rewrite (proj2 (index_of_spec _ data 0 s)) by (split; [lia|rewrite Nat.sub_0_r; exact Hs]). cbn [bind]. pose proof He as He'. apply find_ind_Ok in He'. rewrite He'. cbn [bind fst snd].
  rewrite (slice_span' _ _ (s + 1) e) by lia. destruct (span (s + 1) e data) as [|l ls] eqn:E; [|reflexivity]. exfalso. destruct He as ((x & Hx & _) & _).
  assert (Len : List.length (span (s + 1) e data) = e - (s + 1)). { unfold span. rewrite firstn_length, skipn_length. assert (e < List.length data) by (apply nth_error_Some; congruence). lia. }
  rewrite E in Len. cbn in Len. lia.
Qed.
(** A time at which a separator stands first. *)
Lemma summary_separator_first data sep ls : ~ old_version data -> summary_lines data (sep :: ls) -> separator sep -> read_summary_data data = Err IndexError.
Proof. intros V L S. rewrite (read_summary_lines _ _ V L). cbn [sum_loop]. change 1%Z with (Z.of_nat 1). rewrite py_nth_nat, S. reflexivity. Qed.

(** * Names *)
Lemma trimmed_last s t c : trimmed s (t ++ [c]) -> is_ws c = false.
Proof. intros (a & b & _ & _ & _ & _ & H). exact (H t c eq_refl). Qed.
Lemma element_blank l r c ln n : element_line l r -> columns 12 14 l = [c; chr 32] -> nuclide_line ln n -> row_element r <> n_element n.
Proof.
  intros (E & _) Hc (_ & N & _) K. rewrite E, Hc in K. rewrite <- K in N. change [c; chr 32] with ([c] ++ [chr 32]) in N. apply trimmed_last in N. discriminate.
Qed.
Lemma fissions_text np_sum lines i ts l : read_time_step np_sum lines i = Ok ts -> line_after lines (lit "TOTAL ALPHA HEAT") 6 l -> ~ In (chr 69) (columns 39 51 l) ->
  num_fissions ts = Text (columns 39 51 l).
Proof.
  intros H (j & Hj & El) N. apply read_time_step_iff in H. destruct H as (_ & _ & S & _). destruct (sr_fissions _ _ S) as (l' & (j' & Hj' & El') & F).
  apply find_ind_Ok in Hj. apply find_ind_Ok in Hj'. assert (j' = j) as -> by congruence. assert (l' = l) as -> by congruence. destruct (num_fissions ts) as [x|s]; [destruct F; contradiction|]. destruct F as (-> & _). reflexivity.
Qed.
Lemma step_never_cooling np_sum lines i ts : read_time_step np_sum lines i = Ok ts -> ts_is_cooling ts = false.
Proof. intros H. apply read_time_step_iff in H. apply H. Qed.
Lemma steps_never_cooling np_sum p lines fo : read_fis_lines np_sum p lines = Ok fo -> num_cool_step fo = 0%Z /\ Forall (fun t => ts_is_cooling t = false) (timestep_data fo).
Proof.
  intros H. apply read_fis_lines_iff in H. destruct H as (_ & _ & _ & _ & _ & _ & _ & _ & _ & _ & _ & _ & C & pre & segs & _ & L & S). split; [exact C|]. apply Forall_forall. intros t Ht.
  apply In_nth_error in Ht. destruct Ht as (i & Hi). destruct (nth_error (tl segs) i) as [s|] eqn:E; [destruct (S i s t E Hi) as (_ & K & _); exact K|]. apply nth_error_None in E. assert (i < List.length (timestep_data fo)) by (apply nth_error_Some; congruence). lia.
Qed.

(** * Tables with their times *)
Lemma timed_iff rows out : timed rows out <-> out = map add_time_columns rows.
Proof.
  split.
  - induction 1 as [|r [r' [[d h] s]] rows out (E & T1 & T2 & T3) _ IH]; [reflexivity|]. cbn [fst] in E. subst r'. cbn [map]. f_equal; [|exact IH]. unfold add_time_columns. rewrite T1, T2, T3. reflexivity.
  - intros ->. induction rows as [|r rows IH]; [constructor|]. constructor; [|exact IH]. cbn. split; [reflexivity|]. repeat split.
Qed.
Lemma summary_iff data ls out : ~ old_version data -> summary_lines data ls ->
  read_summary_data data = Ok out <-> exists rows, timed rows out /\ table fzero false None ls rows.
Proof.
  intros V L. rewrite (read_summary_iff data ls out V L). split; intros (rows & A & B); exists rows; (split; [apply timed_iff|]); assumption.
Qed.
Lemma summary_two data irr sep cool rs last cs : ~ old_version data -> summary_lines data (irr ++ sep :: cool) -> separator sep ->
  Forall2 (row_of fzero false) irr (rs ++ [last]) -> Forall2 (row_of (time_years last) true) cool cs ->
  exists out, read_summary_data data = Ok out /\ timed ((rs ++ [last]) ++ cs) out.
Proof. intros. eexists. split; [eapply read_summary_two; eassumption|]. apply timed_iff. reflexivity. Qed.
Lemma summary_one data irr rs : ~ old_version data -> summary_lines data irr -> Forall2 (row_of fzero false) irr rs ->
  exists out, read_summary_data data = Ok out /\ timed rs out.
Proof. intros. eexists. split; [eapply read_summary_one; eassumption|]. apply timed_iff. reflexivity. Qed.
Lemma forall2_flag to c ls rs : Forall2 (row_of to c) ls rs -> Forall (fun r => is_cooling r = c) rs.
Proof. induction 1 as [|l r ls rs (t & _ & _ & K) _ IH]; constructor; assumption. Qed.
Lemma filter_none {A} (p : A -> bool) l : Forall (fun x => p x = false) l -> filter p l = [].
Proof. induction 1 as [|x l H _ IH]; [reflexivity|]. cbn. rewrite H. exact IH. Qed.
Lemma filter_every {A} (p : A -> bool) l : Forall (fun x => p x = true) l -> filter p l = l.
Proof. induction 1 as [|x l H _ IH]; [reflexivity|]. cbn. rewrite H, IH. reflexivity. Qed.
Lemma cooling_of_two data irr sep cool rs last cs out : ~ old_version data -> summary_lines data (irr ++ sep :: cool) -> separator sep ->
  Forall2 (row_of fzero false) irr (rs ++ [last]) -> Forall2 (row_of (time_years last) true) cool cs -> read_summary_data data = Ok out ->
  map snd (retrieve_cooling_data out) = skipn (List.length irr) out /\ timed cs (skipn (List.length irr) out) /\
  find_first_cooling_index out = (match cool with [] => None | _ => Some (List.length irr) end).
Proof.
  intros V L S F1 F2 H. rewrite (read_summary_two data irr sep cool rs last cs V L S F1 F2) in H. injection H as <-. rewrite map_app.
  assert (Len : List.length irr = List.length (map add_time_columns (rs ++ [last]))) by (rewrite map_length; apply (Forall2_len _ _ _ F1)). rewrite Len.
  assert (K1 : Forall (fun o : sum_row * (float * float * float) => is_cooling (fst o) = false) (map add_time_columns (rs ++ [last]))).
  { apply Forall_forall. intros o Ho. apply in_map_iff in Ho. destruct Ho as (r & <- & Hr). pose proof (forall2_flag _ _ _ _ F1) as G. rewrite Forall_forall in G. exact (G r Hr). }
  assert (K2 : Forall (fun o : sum_row * (float * float * float) => is_cooling (fst o) = true) (map add_time_columns cs)).
  { apply Forall_forall. intros o Ho. apply in_map_iff in Ho. destruct Ho as (r & <- & Hr). pose proof (forall2_flag _ _ _ _ F2) as G. rewrite Forall_forall in G. exact (G r Hr). }
  assert (Sk : skipn (List.length (map add_time_columns (rs ++ [last]))) (map add_time_columns (rs ++ [last]) ++ map add_time_columns cs) = map add_time_columns cs) by apply skipn_all_app.
  rewrite Sk. split; [|split; [apply timed_iff; reflexivity|]].
  - rewrite retrieve_rows, filter_app, (filter_none _ _ K1), (filter_every _ _ K2). reflexivity.
  - destruct F2 as [|l c cool cs Hc F2].
    + apply no_cooling. cbn [map]. rewrite app_nil_r. exact K1.
    + apply first_cooling. split.
      * exists (add_time_columns c). cbn [map] in *. split; [|exact (Forall_inv K2)]. rewrite nth_error_app2 by lia. rewrite Nat.sub_diag. reflexivity.
      * intros j x Lj Hx. rewrite nth_error_app1 in Hx by exact Lj. apply nth_error_In in Hx. rewrite Forall_forall in K1. apply K1 in Hx. rewrite Hx. discriminate.
Qed.
