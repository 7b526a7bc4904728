(** Lemmas for r2s_cell: runs with other set orders, materials without a card. *)
From Verif Require Import PyBase PyFloat PyFs PyIo PyFacts M_util M_ptrac M_input M_mcout M_r2s SpecUtil SpecInput SpecMcout SpecR2s P_util P_fisout P_input3 P_mcout2 P_r2s P_r2s2 P_r2s3 P_r2s4.
From Coq Require Import Permutation Lia.

Lemma selects_perm {A} (P : A -> Prop) l l' r : Permutation l l' -> selects P l r -> exists r', selects P l' r' /\ Permutation r r'.
Proof.
  intros Q. revert r. induction Q as [|x l l' Q IH|x y l|l l' l'' Q IH Q' IH']; intros r S.
  - inversion S; subst. exists []. split; constructor.
  - inversion S as [|? ? r0 Px S0|? ? r0 Px S0]; subst; destruct (IH _ S0) as (r' & S' & R).
    + exists (x :: r'). split; [now constructor|now constructor].
    + exists r'. split; [now constructor|exact R].
  - inversion S as [|? ? r0 Py S0 Ex Er|? ? r0 Py S0 Ex Er]; clear S; subst; inversion S0 as [|? ? r1 Px S1 Ex Er|? ? r1 Px S1 Ex Er]; clear S0; subst; eexists;
      (split; [first [apply sel_take; [exact Px|apply sel_take; eassumption]|apply sel_drop; [exact Px|apply sel_take; eassumption]|apply sel_take; [exact Px|apply sel_drop; eassumption]|apply sel_drop; [exact Px|apply sel_drop; eassumption]]|]);
      first [reflexivity|apply perm_swap].
  - destruct (IH r S) as (r' & S' & R). destruct (IH' r' S') as (r'' & S'' & R'). exists r''. split; [exact S''|]. now transitivity r'.
Qed.
Lemma concat_perm {A} (l l' : list (list A)) : Permutation l l' -> Permutation (concat l) (concat l').
Proof.
  induction 1 as [|x l l' Q IH|x y l|l l' l'' Q IH Q' IH']; cbn [concat].
  - constructor.
  - now apply Permutation_app_head.
  - rewrite !app_assoc. apply Permutation_app_tail, Permutation_app_comm.
  - etransitivity; eassumption.
Qed.
Lemma get_cells_perm l l' particle ns cells tals : Permutation l l' -> get_cells_mcnp l particle ns = Ok (cells, tals) ->
  exists cells' tals', get_cells_mcnp l' particle ns = Ok (cells', tals') /\ Permutation cells cells'.
Proof.
  intros Q H. apply get_cells_spec in H. destruct H as (names & S & F & G). destruct (selects_perm _ _ _ _ Q S) as (tals' & S' & R).
  destruct (Permutation_Forall2 R F) as (names' & Rn & F'). destruct (Permutation_Forall2 (concat_perm _ _ Rn) G) as (cells' & Rc & G').
  exists cells', tals'. split; [|exact Rc]. apply get_cells_spec. eauto.
Qed.
Lemma rout_perm t1 t2 so u f cells tals : rearranges t1 -> rearranges t2 -> read_data_from_mcnp_output t1 so u f = Ok (cells, tals) ->
  exists cells' tals', read_data_from_mcnp_output t2 so u f = Ok (cells', tals') /\ Permutation cells cells'.
Proof.
  intros R1 R2 H. unfold read_data_from_mcnp_output in *. destruct (u_mc_output u) as [v|]; [|discriminate]. cbn [bind] in *.
  destruct (path_of_json v) as [p|]; [|discriminate]. cbn [bind] in *. destruct (path_exists f p); cbn [negb] in *; [|discriminate].
  destruct (read_output_file t1 so f p) as [a|] eqn:E; [|discriminate]. cbn [bind] in H.
  destruct (output_order t1 t2 so f p a R1 R2 E) as (b & Eb & Pt & Hb). rewrite Eb. cbn [bind]. rewrite Hb. cbn [o_fatal o_tally_data].
  destruct (o_fatal a); [discriminate|]. now apply (get_cells_perm (o_tally_data a)) with (tals := tals).
Qed.
Lemma cell_data_perm d ns ns' rows : Permutation ns ns' -> get_cell_data d ns = Ok (Some rows) ->
  exists rows', get_cell_data d ns' = Ok (Some rows') /\ Permutation (map cr_material rows) (map cr_material rows').
Proof.
  intros Q H. apply cell_data_rows in H. destruct H as (N & cs & F & G & L). destruct (Permutation_Forall2 Q F) as (cs' & Qc & F').
  assert (M : forall cs rows, Forall2 (fun c r => cr_number r = c_number c /\ cr_material r = c_mat c /\ cr_density r = c_density c) cs rows -> map cr_material rows = map c_mat cs).
  { induction 1 as [|c r l l' (_ & E & _) _ IH]; [reflexivity|]. cbn. now rewrite E, IH. }
  exists (M_r2s.cell_rows 0 cs'). destruct (proj1 (P_r2s.cell_rows_spec cs' 0 _) eq_refl) as (G' & L'). split.
  - apply cell_data_rows. split; [intros ->; apply N, Permutation_nil, Permutation_sym, Q|]. exists cs'. split; [exact F'|]. split; [exact G'|]. now rewrite (F2_length _ _ _ F').
  - rewrite (M _ _ G), (M _ _ G'). now apply Permutation_map.
Qed.
Lemma listing_perm s1 s2 l l' : set_listing s1 -> set_listing s2 -> Permutation l l' -> Permutation (s1 l) (s2 l').
Proof.
  intros S1 S2 Q. destruct (S1 l) as (N1 & I1), (S2 l') as (N2 & I2). apply NoDup_Permutation; [exact N1|exact N2|].
  intros x. rewrite I1, I2. split; apply Permutation_in; [|apply Permutation_sym]; exact Q.
Qed.
Lemma rin_perm s1 s2 u f ns ns' d : set_listing s1 -> set_listing s2 -> Permutation ns ns' -> read_data_from_mcnp_input s1 u ns f = Ok d ->
  exists d', read_data_from_mcnp_input s2 u ns' f = Ok d'.
Proof.
  intros S1 S2 Q H. unfold read_data_from_mcnp_input in *. destruct (path_of_json (u_mc_input u)) as [p|]; [|discriminate]. cbn [bind] in *.
  destruct (path_exists f p); cbn [negb] in *; [|discriminate]. destruct (read_mcnp_input f p) as [mc|]; [|discriminate]. cbn [bind] in *.
  destruct (get_cell_data (i_cells mc) ns) as [[rows|]|] eqn:E; [|discriminate|discriminate]. cbn [bind] in H.
  destruct (cell_data_perm _ _ _ _ Q E) as (rows' & -> & R). cbn [bind]. unbind H.
  destruct (mapM_perm _ _ _ _ (listing_perm s1 s2 _ _ S1 S2 R) E0) as (ys & -> & _). cbn [bind]. eauto.
Qed.
(** ** The same folders *)
Definition folder_list (name : str) : list path :=
  [[name]; [name; lit "collapse.i"]; [name; lit "array.i"]; [name; name ++ lit ".i"]; [name; lit "FILES"]; [name; lit "fluxes"]].
Lemma folder_list_spec name q : folder_path name q <-> In q (folder_list name).
Proof.
  unfold folder_list. cbn [In]. split.
  - intros [->|(file & (fs' & content & [(-> & _)|[(-> & _)|[(-> & _)|[(-> & _)|(-> & _)]]]]) & ->)]; auto 10.
  - intros [<-|[<-|[<-|[<-|[<-|[<-|[]]]]]]]; [now left|..]; right; eexists; (split; [|reflexivity]);
      [apply name_collapse|apply name_array|apply name_i|apply name_FILES|apply name_fluxes].
Qed.
Lemma holds_same f g name c q : folder_holds f name c -> folder_holds g name c -> folder_path name q -> f q = g q.
Proof.
  intros (A & B) (A' & B') [->|(file & (fs' & content & H) & ->)]; [congruence|].
  assert (X : exists content', folder_file name c file content').
  { destruct H as [(-> & ->)|[(-> & ->)|[(-> & ->)|[(-> & ->)|(-> & ->)]]]]; eexists; unfold folder_file; eauto 10. }
  destruct X as (content' & X). now rewrite (B file content' X), (B' file content' X).
Qed.
Lemma main_order t1 t2 so s1 s2 jl cfg f f1 : rearranges t1 -> rearranges t2 -> set_listing s1 -> set_listing s2 ->
  (forall u src n, read_config jl f cfg = Ok u -> path_of_json (u_files_file u) = Ok src -> ~ inside (cell_folder n) src) ->
  main t1 so s1 jl cfg f = (f1, Ok tt) -> exists f2, main t2 so s2 jl cfg f = (f2, Ok tt) /\ forall q, f2 q = f1 q.
Proof.
  intros R1 R2 S1 S2 Out H. apply main_inv in H. destruct H as (u & code & cells & tals & d & C & U & V & O & I & H).
  destruct (rout_perm t1 t2 so u f cells tals R1 R2 O) as (cells' & tals' & O' & Q).
  destruct (rin_perm s1 s2 u f cells cells' d S1 S2 Q I) as (d' & I').
  rewrite (main_reads t2 so s2 jl cfg f u code cells' tals' d' C U V O' I').
  assert (Ne : cells <> []).
  { intros ->. unfold read_data_from_mcnp_input in I. destruct (path_of_json (u_mc_input u)) as [p|]; [|discriminate]. cbn [bind] in I.
    destruct (path_exists f p); cbn [negb] in I; [|discriminate]. destruct (read_mcnp_input f p); discriminate. }
  destruct (path_of_json (u_files_file u)) as [src|e] eqn:Ev.
  2:{ exfalso. destruct cells as [|n cells]; [contradiction|]. cbn [setup_cells] in H. apply bind_inv in H. destruct H as (g & [] & E & _). unfold fispact_setup in E.
      repeat (apply bind_inv in E; let g := fresh "g" in let a := fresh "a" in let E' := fresh "E" in destruct E as (g & a & E' & E)).
      unfold copy_files_file in *. rewrite Ev in *. 
      match goal with X : io_bind (io_lift (Err _)) _ _ = _ |- _ => discriminate X end. }
  destruct (cells_inv (u_files_file u) src cells f f1 Ev (fun n _ => Out u src n C Ev) H) as (Fr & Fi). destruct (Fi Ne) as (c & F).
  destruct (cells_ok (u_files_file u) src c cells f Ev F) as (g1 & E1 & H1 & K1); [intros n In_; split; [now apply Fr|now apply (Out u)]|].
  assert (g1 = f1) as -> by congruence.
  destruct (cells_ok (u_files_file u) src c cells' f Ev F) as (g2 & E2 & H2 & K2); [intros n In_; split; [apply Fr; eapply Permutation_in; [apply Permutation_sym; exact Q|exact In_]|now apply (Out u)]|].
  exists g2. split; [exact E2|]. intros q.
  destruct (in_dec (list_eq_dec (list_eq_dec ascii_dec)) q (flat_map (fun n => folder_list (cell_folder n)) cells)) as [J|J].
  - apply in_flat_map in J. destruct J as (n & J & X). apply folder_list_spec in X. apply (holds_same g2 f1 (cell_folder n) c); [|now apply H1|exact X].
    apply H2. eapply Permutation_in; eassumption.
  - assert (X : forall n, In n cells -> ~ folder_path (cell_folder n) q). { intros n Jn X. apply J. apply in_flat_map. exists n. split; [exact Jn|]. now apply folder_list_spec. }
    rewrite K1 by exact X. apply K2. intros n Jn. apply X. eapply Permutation_in; [apply Permutation_sym; exact Q|exact Jn].
Qed.
(** ** Materials without a card *)
Lemma in_no_card so u cells f p mc rows n : set_listing so -> path_of_json (u_mc_input u) = Ok p -> read_mcnp_input f p = Ok mc ->
  get_cell_data (i_cells mc) cells = Ok (Some rows) -> (exists r, In r rows /\ cr_material r = n) -> (0 <= n)%Z ->
  (forall l, In l (i_data_block mc) -> ~ mat_head n l) -> forall d, read_data_from_mcnp_input so u cells f = Ok d ->
  exists m, In m (snd d) /\ m_number m = n /\ m_composition m = [].
Proof.
  intros SL Ep Em D (r & I & <-) Hn N d H. unfold read_data_from_mcnp_input in H. rewrite Ep in H. cbn [bind] in H.
  destruct (path_exists f p); cbn [negb] in H; [|discriminate]. rewrite Em in H. cbn [bind] in H. rewrite D in H. cbn [bind] in H. unbind H. injection H as <-. cbn [snd].
  assert (J : In (cr_material r) (so (map cr_material rows))) by (apply SL, in_map, I).
  destruct (material_absent (cr_material r) (i_data_block mc) Hn N) as (mts & mxs & A).
  exists (Material (cr_material r) 0 [] [] mts mxs). split; [|split; reflexivity].
  apply (mapM_Forall2 _ _ _ _ (fun x y => iff_refl _)) in E. revert J A. generalize (cr_material r). intros n J A. clear -E J A.
  revert J. induction E as [|x y l l' Hx F IH]; intros J; [destruct J|]. destruct J as [->|J]; [left; congruence|right; auto].
Qed.
Lemma setup_empty name v f src f' : plain_name name -> path_of_json v = Ok src -> ~ inside name src ->
  fispact_setup [name] v f = (f', Ok tt) -> f' [name; name ++ lit ".i"] = Some (File []) /\ f' [name; lit "fluxes"] = Some (File []).
Proof.
  intros PN Ev I H. destruct (setup_made name v f src f' PN Ev I H) as (_ & c & _ & _ & B & _).
  split; apply B; unfold folder_file; auto 10.
Qed.
