(** Lemmas for r2s_cell: fispact_setup. *)
From Verif Require Import PyBase PyFloat PyFs PyIo PyFacts M_util M_ptrac M_input M_mcout M_r2s SpecUtil SpecInput SpecR2s P_util P_r2s P_r2s2.
From Coq Require Import Permutation Lia.

Lemma bind_run {A B} (m : io A) (k : A -> io B) f f' a : m f = (f', Ok a) -> io_bind m k f = k a f'.
Proof. intros E. unfold io_bind. now rewrite E. Qed.
Lemma bind_fail {A B} (m : io A) (k : A -> io B) f f' e : m f = (f', Err e) -> io_bind m k f = (f', Err e).
Proof. intros E. unfold io_bind. now rewrite E. Qed.
Lemma bind_inv {A B} (m : io A) (k : A -> io B) f f' b : io_bind m k f = (f', Ok b) -> exists g a, m f = (g, Ok a) /\ k a g = (f', Ok b).
Proof. unfold io_bind. destruct (m f) as [g [a|e]]; [eauto|discriminate]. Qed.

Definition rest (name : str) (v : json) : io unit :=
  run u1 <- write_collapse [name; lit "collapse.i"] 175;
  run u2 <- write_array [name; lit "array.i"];
  run u3 <- write_fispact [name; name ++ lit ".i"];
  run u4 <- copy_files_file v [name];
  run u5 <- check_files_file [name; lit "FILES"];
  write_fluxes [name; lit "fluxes"].
Lemma setup_new name v f : f [name] = None -> fispact_setup [name] v f = rest name v (fs_set f [name] Dir).
Proof.
  intros N. unfold fispact_setup. rewrite (bind_run _ _ f f false) by (unfold io_read; rewrite have1, N; reflexivity).
  rewrite (bind_run _ _ f (fs_set f [name] Dir) tt); [reflexivity|]. cbn [negb]. unfold makedirs. cbn. unfold io_write, os_mkdir. cbn. now rewrite N.
Qed.
Lemma setup_old name v f n : f [name] = Some n -> fispact_setup [name] v f = rest name v f.
Proof.
  intros N. unfold fispact_setup. rewrite (bind_run _ _ f f true) by (unfold io_read; rewrite have1, N; reflexivity). reflexivity.
Qed.

Lemma names_ne name : plain_name name -> name ++ lit ".i" <> lit "collapse.i" /\ name ++ lit ".i" <> lit "array.i".
Proof.
  intros (A & B). split; intros E; [apply A|apply B]; apply (app_inv_tail (lit ".i")); exact E.
Qed.
Lemma last_ne (name s : str) x : last s (chr 0) = x -> x <> chr 105 -> name ++ lit ".i" <> s.
Proof.
  intros L N E. apply N. rewrite <- L, <- E. change (lit ".i") with ([chr 46] ++ [chr 105]). rewrite app_assoc. now rewrite last_last.
Qed.
Lemma ne_files name : name ++ lit ".i" <> lit "FILES".
Proof. eapply last_ne; [vm_compute; reflexivity|discriminate]. Qed.
Lemma ne_fluxes name : name ++ lit ".i" <> lit "fluxes".
Proof. eapply last_ne; [vm_compute; reflexivity|discriminate]. Qed.

Lemma pair_ne (n a b : str) : a <> b -> [n; a] <> [n; b].
Proof. congruence. Qed.
Lemma eqb_no (p q : path) : p <> q -> path_eqb p q = false.
Proof. intros N. destruct (path_eqb_spec p q); congruence. Qed.
Lemma eqb_yes (p : path) : path_eqb p p = true.
Proof. destruct (path_eqb_spec p p); congruence. Qed.
Lemma text_full ls : text_of ls = full_text (map lit ls).
Proof. unfold text_of, full_text. rewrite map_map. reflexivity. Qed.
Lemma collapse_full : collapse_text = full_text
    [ lit "<< -----collapse cross section data----- >>"; lit "CLOBBER"; lit "GETXS 1 " ++ str_of_Z 175; lit "FISPACT"; lit "* COLLAPSE"; lit "END"; lit "* END OF RUN" ].
Proof. vm_compute. reflexivity. Qed.
Lemma array_full : array_text = full_text
    [ lit "<< -----condense decay data----- >>"; lit "CLOBBER"; lit "SPEK"; lit "GETDECAY 1"; lit "FISPACT"; lit "* CONDENSE"; lit "END"; lit "* END OF RUN" ].
Proof. vm_compute. reflexivity. Qed.

(** The names of the files. *)
Lemma name_collapse name : folder_name name (lit "collapse.i").
Proof. exists [], collapse_text. left. auto. Qed.
Lemma name_array name : folder_name name (lit "array.i").
Proof. exists [], array_text. right. left. auto. Qed.
Lemma name_i name : folder_name name (name ++ lit ".i").
Proof. exists [], []. right. right. left. auto. Qed.
Lemma name_FILES name : folder_name name (lit "FILES").
Proof. exists [], []. right. right. right. left. auto. Qed.
Lemma name_fluxes name : folder_name name (lit "fluxes").
Proof. exists [], []. right. right. right. right. auto. Qed.

(** The first three files. *)
Definition three (g : fs) (name : str) (h : fs) : Prop :=
  forall q, h q = if path_eqb q [name; name ++ lit ".i"] then Some (File []) else if path_eqb q [name; lit "array.i"] then Some (File array_text)
                  else if path_eqb q [name; lit "collapse.i"] then Some (File collapse_text) else g q.
Lemma rest_three name v g : g [name] = Some Dir -> (forall file, folder_name name file -> g [name; file] <> Some Dir) ->
  exists h, three g name h /\ rest name v g =
    (run u4 <- copy_files_file v [name]; run u5 <- check_files_file [name; lit "FILES"]; write_fluxes [name; lit "fluxes"]) h.
Proof.
  intros D N. unfold rest.
  destruct (lines_ok g [name; lit "collapse.i"] [ lit "<< -----collapse cross section data----- >>"; lit "CLOBBER"; lit "GETXS 1 " ++ str_of_Z 175; lit "FISPACT"; lit "* COLLAPSE"; lit "END"; lit "* END OF RUN" ]) as (g1 & E1 & H1).
  { apply open2. split; [exact D|]. apply N, name_collapse. }
  rewrite (bind_run _ _ g g1 tt E1). rewrite <- collapse_full in H1.
  assert (D1 : g1 [name] = Some Dir) by (rewrite H1, eqb_no by discriminate; exact D).
  destruct (lines_ok g1 [name; lit "array.i"] [ lit "<< -----condense decay data----- >>"; lit "CLOBBER"; lit "SPEK"; lit "GETDECAY 1"; lit "FISPACT"; lit "* CONDENSE"; lit "END"; lit "* END OF RUN" ]) as (g2 & E2 & H2).
  { apply open2. split; [exact D1|]. rewrite H1. destruct (path_eqb _ _); [discriminate|]. apply N, name_array. }
  rewrite (bind_run _ _ g1 g2 tt E2). rewrite <- array_full in H2.
  assert (D2 : g2 [name] = Some Dir) by (rewrite H2, eqb_no by discriminate; exact D1).
  destruct (lines_ok g2 [name; name ++ lit ".i"] []) as (h & E3 & H3).
  { apply open2. split; [exact D2|]. rewrite H2. destruct (path_eqb _ _); [discriminate|]. rewrite H1. destruct (path_eqb _ _); [discriminate|]. apply N, name_i. }
  rewrite (bind_run _ _ g2 h tt E3). exists h. split; [|reflexivity]. intros q. now rewrite H3, H2, H1.
Qed.
Lemma three_frame g name h q : three g name h -> ~ inside name q -> h q = g q.
Proof. intros T N. rewrite T. rewrite !eqb_no; [reflexivity| | |]; intros ->; apply N; eexists; reflexivity. Qed.
Lemma three_dir g name h : three g name h -> h [name] = g [name].
Proof. intros T. rewrite T. now rewrite !eqb_no by discriminate. Qed.
Lemma three_other g name h x : three g name h -> x <> lit "collapse.i" -> x <> lit "array.i" -> x <> name ++ lit ".i" -> h [name; x] = g [name; x].
Proof. intros T A B C. rewrite T. now rewrite !eqb_no by (apply pair_ne; assumption). Qed.

Lemma rest_ok name v g src c : plain_name name -> g [name] = Some Dir -> (forall file, folder_name name file -> g [name; file] <> Some Dir) ->
  path_of_json v = Ok src -> ~ inside name src -> file_at g src c -> exists f', rest name v g = (f', Ok tt) /\ folder_made g name c f'.
Proof.
  intros PN D N Ev I F. destruct (rest_three name v g D N) as (h & T & ->).
  assert (Dh : h [name] = Some Dir) by (rewrite (three_dir g name h T); exact D).
  assert (Fh : file_at h src c) by (apply (file_frame g h name); [intros; now apply (three_frame g name)|exact I|exact F]).
  destruct (file_walk h src c Fh) as (W & Di & Ex).
  assert (Hf : h [name; lit "FILES"] = g [name; lit "FILES"]) by (apply three_other; [exact T|discriminate|discriminate|apply not_eq_sym, ne_files]).
  assert (Hx : h [name; lit "fluxes"] = g [name; lit "fluxes"]) by (apply three_other; [exact T|discriminate|discriminate|apply not_eq_sym, ne_fluxes]).
  assert (E4 : copy_files_file v [name] h = (fs_set h [name; lit "FILES"] (File c), Ok tt)).
  { unfold copy_files_file. rewrite (bind_run _ _ h h src) by (unfold io_lift; now rewrite Ev).
    rewrite (bind_run _ _ h h true) by (unfold io_read; now rewrite Ex). cbn [negb]. unfold copyfile. cbn [app].
    rewrite eqb_no by (intros ->; apply I; eexists; reflexivity). cbn [andb]. rewrite W, Di. destruct Fh as (_ & -> & _).
    replace (can_open_w h [name; lit "FILES"]) with (Ok tt); [reflexivity|]. symmetry. apply can_open_w_spec, open2. split; [exact Dh|]. rewrite Hf. apply N, name_FILES. }
  rewrite (bind_run _ _ h _ tt E4). set (k := fs_set h [name; lit "FILES"] (File c)).
  assert (Dk : k [name] = Some Dir) by (unfold k; rewrite fs_set_other by discriminate; exact Dh).
  rewrite (bind_run _ _ k k tt).
  2:{ unfold check_files_file. rewrite (bind_run _ _ k k true); [reflexivity|]. unfold io_read. rewrite have2 by exact Dk. unfold k. rewrite fs_set_same. reflexivity. }
  destruct (lines_ok k [name; lit "fluxes"] []) as (f' & E6 & H6).
  { apply open2. split; [exact Dk|]. unfold k. rewrite fs_set_other by discriminate. rewrite Hx. apply N, name_fluxes. }
  exists f'. split; [exact E6|].
  assert (K : forall q, q <> [name; lit "fluxes"] -> q <> [name; lit "FILES"] -> f' q = h q).
  { intros q A B. rewrite H6, eqb_no by exact A. unfold k. now apply fs_set_other. }
  destruct (names_ne name PN) as (N1 & N2).
  split; [|split].
  - rewrite K by discriminate. exact Dh.
  - intros file content [(-> & ->)|[(-> & ->)|[(-> & ->)|[(-> & ->)|(-> & ->)]]]].
    + rewrite K by discriminate. rewrite T, (eqb_no _ [name; name ++ lit ".i"]), (eqb_no _ [name; lit "array.i"]), eqb_yes; [reflexivity|discriminate|]. apply pair_ne. now apply not_eq_sym.
    + rewrite K by discriminate. rewrite T, (eqb_no _ [name; name ++ lit ".i"]), eqb_yes; [reflexivity|]. apply pair_ne. now apply not_eq_sym.
    + rewrite K; [|apply pair_ne, ne_fluxes|apply pair_ne, ne_files]. now rewrite T, eqb_yes.
    + rewrite H6, eqb_no by discriminate. unfold k. apply fs_set_same.
    + now rewrite H6, eqb_yes.
  - intros q A B. rewrite K; [|apply B, name_fluxes|apply B, name_FILES]. rewrite T, !eqb_no; [reflexivity| | |]; apply B; [apply name_collapse|apply name_array|apply name_i].
Qed.

Lemma full_nil : full_text [] = [].
Proof. reflexivity. Qed.
Lemma copy_inv v name src h k : path_of_json v = Ok src -> ~ inside name src -> copy_files_file v [name] h = (k, Ok tt) ->
  exists c, file_at h src c /\ openable h [name; lit "FILES"] /\ k = fs_set h [name; lit "FILES"] (File c).
Proof.
  intros Ev I H. unfold copy_files_file in H. rewrite (bind_run _ _ h h src) in H by (unfold io_lift; now rewrite Ev).
  destruct (path_exists h src) eqn:Ex; [|rewrite (bind_run _ _ h h false) in H by (unfold io_read; now rewrite Ex); discriminate].
  rewrite (bind_run _ _ h h true) in H by (unfold io_read; now rewrite Ex). cbn [negb] in H. unfold copyfile in H. cbn [app] in H.
  rewrite eqb_no in H by (intros ->; apply I; eexists; reflexivity). cbn [andb] in H.
  destruct (walk h [] src) as [[]|] eqn:W; [|discriminate]. destruct (is_dir h src) eqn:Di; [discriminate|].
  destruct (h src) as [[c|]|] eqn:S; [|discriminate|discriminate]. destruct (can_open_w h [name; lit "FILES"]) as [[]|] eqn:O; [|discriminate].
  injection H as <-. exists c. split; [|split; [now apply can_open_w_spec|reflexivity]].
  split; [intros ->; discriminate|]. split; [exact S|]. pose proof (proj1 (walk_spec h [] src) W) as K. exact K.
Qed.
Lemma rest_inv name v g src f' : path_of_json v = Ok src -> ~ inside name src -> rest name v g = (f', Ok tt) ->
  g [name] = Some Dir /\ (forall file, folder_name name file -> g [name; file] <> Some Dir) /\ exists c, file_at g src c.
Proof.
  intros Ev I H. unfold rest in H.
  apply bind_inv in H. destruct H as (g1 & [] & E1 & H). apply lines_inv in E1. destruct E1 as (O1 & H1).
  apply bind_inv in H. destruct H as (g2 & [] & E2 & H). apply lines_inv in E2. destruct E2 as (O2 & H2).
  apply bind_inv in H. destruct H as (g3 & [] & E3 & H). apply lines_inv in E3. destruct E3 as (O3 & H3).
  apply bind_inv in H. destruct H as (g4 & [] & E4 & H). apply (copy_inv v name src g3 g4 Ev I) in E4. destruct E4 as (c & F & O4 & ->).
  apply bind_inv in H. destruct H as (g5 & [] & E5 & H). 
  assert (g5 = fs_set g3 [name; lit "FILES"] (File c)) as ->.
  { unfold check_files_file in E5. apply bind_inv in E5. destruct E5 as (x & ex & Ex & E5). injection Ex as <- <-. destruct (path_exists _ _) in E5; cbn in E5; [now injection E5 as <-|discriminate]. }
  apply lines_inv in H. destruct H as (O6 & H6).
  apply open2 in O1, O2, O3, O4, O6. destruct O1 as (D & O1). split; [exact D|].
  assert (B1 : forall q, g1 q = Some Dir <-> g q = Some Dir /\ q <> [name; lit "collapse.i"]).
  { intros q. rewrite H1. destruct (path_eqb_spec q [name; lit "collapse.i"]) as [->|]; [split; [discriminate|intros (_ & X); contradiction]|tauto]. }
  assert (B2 : forall q, g2 q = Some Dir <-> g1 q = Some Dir /\ q <> [name; lit "array.i"]).
  { intros q. rewrite H2. destruct (path_eqb_spec q [name; lit "array.i"]) as [->|]; [split; [discriminate|intros (_ & X); contradiction]|tauto]. }
  assert (B3 : forall q, g3 q = Some Dir <-> g2 q = Some Dir /\ q <> [name; name ++ lit ".i"]).
  { intros q. rewrite H3. destruct (path_eqb_spec q [name; name ++ lit ".i"]) as [->|]; [split; [discriminate|intros (_ & X); contradiction]|tauto]. }
  split.
  - intros file (fs' & content & [(-> & _)|[(-> & _)|[(-> & _)|[(-> & _)|(-> & _)]]]]) X.
    + contradiction.
    + apply (proj2 O2). apply B1. split; [exact X|discriminate].
    + destruct (path_eqb_spec [name; name ++ lit ".i"] [name; lit "collapse.i"]) as [E|NE]; [apply O1; rewrite <- X; f_equal; symmetry; exact E|].
      destruct (path_eqb_spec [name; name ++ lit ".i"] [name; lit "array.i"]) as [E|NE2].
      * apply (proj2 O2). apply B1. split; [rewrite <- X; f_equal; symmetry; exact E|discriminate].
      * apply (proj2 O3). apply B2. split; [|exact NE2]. apply B1. auto.
    + apply (proj2 O4). apply B3. split; [|apply pair_ne, not_eq_sym, ne_files]. apply B2. split; [|discriminate]. apply B1. split; [exact X|discriminate].
    + apply (proj2 O6). rewrite fs_set_other by discriminate. apply B3. split; [|apply pair_ne, not_eq_sym, ne_fluxes]. apply B2. split; [|discriminate]. apply B1. split; [exact X|discriminate].
  - exists c. apply (file_frame g3 g name); [|exact I|exact F]. intros q _ NI. symmetry. rewrite H3, H2, H1. rewrite !eqb_no; [reflexivity| | |]; intros ->; apply NI; eexists; reflexivity.
Qed.

(** * The whole folder *)
Lemma set_frame f name q : q <> [] -> ~ inside name q -> fs_set f [name] Dir q = f q.
Proof. intros _ N. apply fs_set_other. intros ->. apply N. now exists []. Qed.
Lemma setup_ok name v f src c : plain_name name -> folder_free f name -> path_of_json v = Ok src -> ~ inside name src -> file_at f src c ->
  exists f', fispact_setup [name] v f = (f', Ok tt) /\ folder_made f name c f'.
Proof.
  intros PN ([D|D] & N) Ev I F.
  - rewrite (setup_new name v f D). set (g := fs_set f [name] Dir).
    destruct (rest_ok name v g src c PN) as (f' & E & M1 & M2 & M3).
    + apply fs_set_same.
    + intros file X. unfold g. rewrite fs_set_other by discriminate. now apply N.
    + exact Ev.
    + exact I.
    + apply (file_frame f g name); [|exact I|exact F]. intros. now apply set_frame.
    + exists f'. split; [exact E|]. split; [exact M1|]. split; [exact M2|]. intros q A B. rewrite M3 by assumption. unfold g. now apply fs_set_other.
  - rewrite (setup_old name v f Dir D). apply (rest_ok name v f src c); assumption.
Qed.
Lemma setup_inv name v f src f' : path_of_json v = Ok src -> ~ inside name src -> fispact_setup [name] v f = (f', Ok tt) ->
  folder_free f name /\ exists c, file_at f src c.
Proof.
  intros Ev I H. destruct (f [name]) as [n|] eqn:D.
  - rewrite (setup_old name v f n D) in H. apply (rest_inv name v f src f' Ev I) in H. destruct H as (A & B & C). split; [split; [now right|exact B]|exact C].
  - rewrite (setup_new name v f D) in H. apply (rest_inv name v _ src f' Ev I) in H. destruct H as (A & B & c & C). split; [split; [now left|]|].
    + intros file X. specialize (B file X). rewrite fs_set_other in B by discriminate. exact B.
    + exists c. apply (file_frame (fs_set f [name] Dir) f name); [|exact I|exact C]. intros q Q X. symmetry. now apply set_frame.
Qed.
Lemma made_free f name c f' : folder_made f name c f' -> folder_free f' name.
Proof.
  intros (A & B & _). split; [now right|]. intros file (fs' & content & H).
  assert (X : exists content', folder_file name c file content').
  { destruct H as [(-> & ->)|[(-> & ->)|[(-> & ->)|[(-> & ->)|(-> & ->)]]]]; eexists; unfold folder_file; eauto 10. }
  destruct X as (content' & X). rewrite (B file content' X). discriminate.
Qed.
Lemma made_same f name c f' f'' : folder_made f name c f' -> folder_made f' name c f'' -> forall q, f'' q = f' q.
Proof.
  intros (A & B & _) (A' & B' & C') q.
  destruct (path_eqb_spec q [name]) as [->|N]; [congruence|].
  assert (D : (forall file, folder_name name file -> q <> [name; file]) \/ exists file content, folder_file name c file content /\ q = [name; file]).
  { assert (X : forall file content, folder_file name c file content -> q = [name; file] \/ q <> [name; file]) by (intros; destruct (path_eqb_spec q [name; file]); auto).
    destruct (X (lit "collapse.i") collapse_text) as [->|X1]; [left; auto|right; do 2 eexists; split; [left; eauto|reflexivity]|].
    destruct (X (lit "array.i") array_text) as [->|X2]; [right; left; auto|right; do 2 eexists; split; [right; left; eauto|reflexivity]|].
    destruct (X (name ++ lit ".i") []) as [->|X3]; [right; right; left; auto|right; do 2 eexists; split; [right; right; left; eauto|reflexivity]|].
    destruct (X (lit "FILES") c) as [->|X4]; [right; right; right; left; auto|right; do 2 eexists; split; [right; right; right; left; eauto|reflexivity]|].
    destruct (X (lit "fluxes") []) as [->|X5]; [right; right; right; right; auto|right; do 2 eexists; split; [right; right; right; right; eauto|reflexivity]|].
    left. intros file (fs' & content & [(-> & _)|[(-> & _)|[(-> & _)|[(-> & _)|(-> & _)]]]]); assumption. }
  destruct D as [D|(file & content & H & ->)]; [now apply C'|]. rewrite (B file content H). now apply B'.
Qed.
Lemma made_frame f name c f' q : folder_made f name c f' -> ~ inside name q -> f' q = f q.
Proof. intros (_ & _ & C) N. apply C; [intros ->; apply N; now exists []|]. intros file _ ->. apply N. eexists; reflexivity. Qed.
Lemma setup_again name v f src c f' : plain_name name -> path_of_json v = Ok src -> ~ inside name src -> file_at f src c ->
  fispact_setup [name] v f = (f', Ok tt) -> exists f'', fispact_setup [name] v f' = (f'', Ok tt) /\ forall q, f'' q = f' q.
Proof.
  intros PN Ev I F H. destruct (setup_inv name v f src f' Ev I H) as (Fr & _).
  destruct (setup_ok name v f src c PN Fr Ev I F) as (g & Eg & M). assert (g = f') as -> by congruence.
  destruct (setup_ok name v f' src c PN (made_free _ _ _ _ M) Ev I) as (f'' & E & M').
  { apply (file_frame f f' name); [|exact I|exact F]. intros. now apply (made_frame f name c). }
  exists f''. split; [exact E|]. eapply made_same; eassumption.
Qed.
Lemma setup_missing name v f src : plain_name name -> folder_free f name -> path_of_json v = Ok src -> ~ inside name src -> nothing_at f src ->
  exists f', fispact_setup [name] v f = (f', Err FileNotFoundError) /\ f' [name; lit "FILES"] = f [name; lit "FILES"] /\ f' [name; lit "fluxes"] = f [name; lit "fluxes"].
Proof.
  intros PN (D & N) Ev I F. apply nothing_exists in F.
  assert (R : forall g, g [name] = Some Dir -> (forall q, q <> [name] -> g q = f q) -> exists f', rest name v g = (f', Err FileNotFoundError) /\ f' [name; lit "FILES"] = f [name; lit "FILES"] /\ f' [name; lit "fluxes"] = f [name; lit "fluxes"]).
  { intros g Dg Fg. destruct (rest_three name v g Dg) as (h & T & E); [intros file X; rewrite Fg by discriminate; now apply N|].
    exists h. split; [|split].
    - rewrite E. rewrite (bind_fail _ _ h h FileNotFoundError); [reflexivity|]. unfold copy_files_file. rewrite (bind_run _ _ h h src) by (unfold io_lift; now rewrite Ev).
      rewrite (bind_run _ _ h h false); [reflexivity|]. unfold io_read. rewrite (exists_frame f h name src); [now rewrite F| |exact I].
      intros q _ NI. rewrite (three_frame g name h q T NI). apply Fg. intros ->. apply NI. now exists [].
    - rewrite (three_other g name h _ T); [apply Fg; discriminate|discriminate|discriminate|apply not_eq_sym, ne_files].
    - rewrite (three_other g name h _ T); [apply Fg; discriminate|discriminate|discriminate|apply not_eq_sym, ne_fluxes]. }
  destruct D as [D|D].
  - rewrite (setup_new name v f D). apply R; [apply fs_set_same|]. intros. now apply fs_set_other.
  - rewrite (setup_old name v f Dir D). now apply R.
Qed.
