(** Remaining lemmas for Prop_fisout.v: whole steps, normalisation, examples. *)
From Coq Require Import Reals Lra Lia.
From Flocq Require Import Core.
From Verif Require Import PyBase PyFloat PyFacts PyFs FloatR SpecStr SpecUtil SpecOutput M_util M_ptrac M_fisout SpecFis ExFis TextTac P_util P_fisout P_fisout2 P_fisout3 P_fisout4 P_fisout5.
Local Open Scope nat_scope.

Lemma steps_of_file np_sum p lines fo pre s0 segs : cut lines pre (s0 :: segs) -> read_fis_lines np_sum p lines = Ok fo ->
  List.length (timestep_data fo) = List.length segs /\
  forall i s t, nth_error segs i = Some s -> nth_error (timestep_data fo) i = Some t -> step_num t = i + 2 /\ step_holds np_sum s (i + 1) t.
Proof.
  intros C H. apply read_fis_lines_iff in H. destruct H as (_ & _ & _ & _ & _ & _ & _ & _ & _ & _ & _ & _ & _ & pre' & segs' & C' & L & S).
  destruct (cut_unique _ _ _ _ _ C C') as (<- & <-). cbn [tl] in *. split; [exact L|]. intros i s t Hs Ht. pose proof (S i s t Hs Ht) as K. split; [|exact K]. destruct K as (K & _). rewrite K. lia.
Qed.
Lemma no_steps_of_file np_sum p lines fo pre : cut lines pre [] -> read_fis_lines np_sum p lines = Ok fo -> timestep_data fo = [].
Proof.
  intros C H. apply read_fis_lines_iff in H. destruct H as (_ & _ & _ & _ & _ & _ & _ & _ & _ & _ & _ & _ & _ & pre' & segs' & C' & L & S).
  destruct (cut_unique _ _ _ _ _ C C') as (<- & <-). destruct (timestep_data fo); [reflexivity|discriminate].
Qed.
Lemma composition_normalised np_sum data rows eps : parse_composition np_sum data = Ok rows ->
  Forall (fun r => is_finite_f (row_atoms r) = true /\ (0 <= FR (row_atoms r))%R) rows ->
  let total := np_sum (map row_atoms rows) in
  valid total = true -> is_finite_f total = true -> (0 < FR total)%R -> (0 <= eps <= 1 / 2)%R ->
  (Rabs (FR total - Rsum (map FR (map row_atoms rows))) <= eps * Rsum (map FR (map row_atoms rows)))%R ->
  Forall (fun r => is_finite_f (row_fraction r) = true /\ (0 <= FR (row_fraction r))%R) rows /\
  (Rabs (Rsum (map FR (map row_fraction rows)) - 1) <= (eps + bpow radix2 (-53)) / (1 - eps) + INR (List.length rows) * bpow radix2 (-1075))%R.
Proof.
  intros H HF total Vt Ft Pt He Ht.
  assert (K : Forall (fun r => valid (row_atoms r) = true) rows /\ map row_fraction rows = map (fun a => fdiv a total) (map row_atoms rows)).
  { unfold parse_composition in H. destruct data as [|l0 data]; [discriminate|]. unbind H. injection H as <-. unfold total. split.
    - apply Forall_forall. intros r Hr. apply in_map_iff in Hr. destruct Hr as (q & <- & Hq). unfold row_atoms. cbn [fst snd].
      match goal with E : mapM read_comp _ = Ok _ |- _ => apply (mapM_Forall2 _ _ _ _ read_comp_spec) in E; clear - E Hq; induction E as [|l q' ls qs (_ & F) _ IH]; [contradiction|]; destruct Hq as [<-|Hq]; [exact (py_float_valid _ _ F)|exact (IH Hq)] end.
    - rewrite !map_map. reflexivity. }
  destruct K as (KV & KF).
  assert (HA : Forall (fun a => valid a = true /\ is_finite_f a = true /\ (0 <= FR a)%R) (map row_atoms rows)).
  { apply Forall_forall. intros a Ha. apply in_map_iff in Ha. destruct Ha as (r & <- & Hr). rewrite Forall_forall in KV, HF. split; [exact (KV r Hr)|exact (HF r Hr)]. }
  destruct (fractions_sum _ total eps HA Vt Ft Pt He Ht) as (A & B). rewrite map_length in B. rewrite <- KF in A, B. split; [|exact B].
  apply Forall_forall. intros r Hr. rewrite Forall_forall in A. apply A. apply in_map. exact Hr.
Qed.
Lemma read_mass_no lines : (forall l num, In l lines -> ~ mass_line l num) -> read_mass lines = Ok fzero.
Proof. intros H. apply read_mass_none. apply Forall_forall. intros l Hl n. exact (H l n Hl). Qed.
Lemma mass_either lines : (forall l num, In l lines -> ~ mass_line l num) \/ exists num, first_mass lines num.
Proof. destruct (mass_cases lines) as [H|H]; [left|right; exact H]. intros l num Hl. rewrite Forall_forall in H. exact (H l Hl num). Qed.
Lemma old_unreadable np_sum p data s e : old_version data -> first_index (fun y => y = lit "  COOLING STEPS") data s -> first_index ends_summary data e -> s + 1 < e ->
  read_summary_data data = Err TypeError /\ read_fis_lines np_sum p data = Err TypeError.
Proof. intros V Hs He L. pose proof (summary_old data s e V Hs He L) as E. split; [exact E|]. unfold read_fis_lines. rewrite E. reflexivity. Qed.

(** * Examples *)
Definition seq_sum (l : list float) : float := fold_left fadd l fzero.
Definition summary_span (a b : nat) : list str := span a b ex_summary.
Lemma find_first data t i : find_ind data t = Ok i -> first_index (occurs t) data i.
Proof. apply find_ind_Ok. Qed.
Lemma ex_summary_ok : ~ old_version ex_summary /\ summary_lines ex_summary (summary_span 5 9 ++ nth 9 ex_summary [] :: summary_span 10 15) /\ separator (nth 9 ex_summary []).
Proof.
  split; [apply isFisII_spec; vm_compute; reflexivity|]. split; [|vm_compute; reflexivity]. exists 4, 15. split; [|split; [apply find_first; vm_compute; reflexivity|vm_compute; reflexivity]].
  assert (E : index_of irradiation_title ex_summary 0 = Ok 4) by (vm_compute; reflexivity). apply index_of_spec in E. apply E.
Qed.
Lemma ex_step_ok : exists ts, step_holds seq_sum ex_step 1 ts /\ step_num ts = 2 /\ step_length ts = f_of_Z 600 /\ beta_act ts = f_of_Z 9666840 /\ density ts = fdec 58 (-1) /\ List.length (dom_data ts) = 3.
Proof.
  destruct (read_time_step seq_sum ex_step 1) as [ts|e] eqn:E; [|vm_compute in E; discriminate]. exists ts. split; [apply read_time_step_iff; exact E|].
  vm_compute in E. injection E as <-. vm_compute. repeat split.
Qed.
Lemma ex_dominant_ok : exists tops lows, dominant_tables ex_step tops lows /\ List.length tops = 3 /\ List.length lows = 3.
Proof.
  exists (span 6 9 (skipn 79 ex_step)), (span 13 16 (skipn 79 ex_step)). split; [|split; vm_compute; reflexivity]. exists 79, 4, 10, []. split; [apply find_first; vm_compute; reflexivity|]. split; [apply find_first; vm_compute; reflexivity|].
  split; [apply find_first; vm_compute; reflexivity|]. split; [lia|]. split; [reflexivity|]. split; [vm_compute; reflexivity|]. split; [|left; reflexivity].
  repeat (constructor; [intros (r & K); vm_compute in K; discriminate|]). constructor.
Qed.
Lemma ex_names : exists r n, element_line (nth 38 ex_step []) r /\ columns 12 14 (nth 38 ex_step []) = [chr 86; chr 32] /\ nuclide_line (nth 5 ex_step []) n /\ n_element n = lit "V".
Proof.
  destruct (read_nuclide (nth 5 ex_step [])) as [n|e] eqn:E; [|vm_compute in E; discriminate]. exists (lit "V ", fdec 11822 21, fzero), n. split; [split; [vm_compute; reflexivity|vm_compute; reflexivity]|]. split; [vm_compute; reflexivity|].
  split; [apply read_nuclide_spec; exact E|]. vm_compute in E. injection E as <-. reflexivity.
Qed.
Definition ex_comp : list str := [composition_title; []; []; []; []] ++ map lit ["    1       H       1.0000E+00"; "   23       V       3.0000E+00"]%string ++ [[]; []; []; spectrum_title].
Lemma ex_comp_ok : exists rows, parse_composition seq_sum ex_comp = Ok rows /\ Forall (fun r => is_finite_f (row_atoms r) = true /\ (0 <= FR (row_atoms r))%R) rows /\
  valid (seq_sum (map row_atoms rows)) = true /\ is_finite_f (seq_sum (map row_atoms rows)) = true /\ (0 < FR (seq_sum (map row_atoms rows)))%R /\
  (Rabs (FR (seq_sum (map row_atoms rows)) - Rsum (map FR (map row_atoms rows))) <= 0 * Rsum (map FR (map row_atoms rows)))%R /\
  map row_fraction rows = [fdec 25 (-2); fdec 75 (-2)].
Proof.
  exists [(lit "H ", f_of_Z 1, fdec 25 (-2)); (lit "V ", f_of_Z 3, fdec 75 (-2))]. split; [vm_compute; reflexivity|].
  assert (E1 : FR (f_of_Z 1) = 1%R) by (vm_compute; lra). assert (E3 : FR (f_of_Z 3) = 3%R) by (vm_compute; lra).
  assert (S4 : seq_sum (map row_atoms [(lit "H ", f_of_Z 1, fdec 25 (-2)); (lit "V ", f_of_Z 3, fdec 75 (-2))]) = f_of_Z 4) by (vm_compute; reflexivity).
  assert (E4 : FR (f_of_Z 4) = 4%R) by (vm_compute; lra). rewrite S4.
  split; [constructor; [|constructor; [|constructor]]; unfold row_atoms; cbn [fst snd]; rewrite ?E1, ?E3; (split; [reflexivity|lra])|].
  split; [reflexivity|]. split; [reflexivity|]. split; [rewrite E4; lra|]. split; [|reflexivity].
  change (map FR _) with [FR (f_of_Z 1); FR (f_of_Z 3)]. rewrite E1, E3, E4. unfold Rsum. cbn [fold_right]. replace (4 - (1 + (3 + 0)))%R with 0%R by ring. rewrite Rabs_R0. lra.
Qed.
