(** Proofs about M_fisout.v: fixed columns, inventory, spectrum, composition, dominant
    nuclides, parameters and mass. *)
From Coq Require Import Lia.
From Verif Require Import PyBase PyFloat PyFacts PyFs SpecStr SpecUtil SpecOutput M_util P_util P_output P_output3 M_ptrac M_fisout SpecFis.
Local Open Scope nat_scope.

Lemma bind_Ok {A B} (r : res A) (k : A -> res B) y : (do x <- r; k x) = Ok y <-> exists x, r = Ok x /\ k x = Ok y.
Proof.
  destruct r as [x|e]; cbn [bind]; split.
  - intros H. exists x. auto.
  - intros (x' & [= <-] & H). exact H.
  - discriminate.
  - intros (x' & H & _). discriminate.
Qed.
Ltac unbind H := repeat (apply bind_Ok in H; let x := fresh "v" in let E := fresh "E" in destruct H as (x & E & H)).

Lemma slice_span {A} (a b : nat) (l : list A) : slice_btw (Z.of_nat a) (Z.of_nat b) l = span a b l.
Proof. rewrite slice_btw_nat. unfold span. rewrite skipn_firstn_comm. reflexivity. Qed.
Lemma slice_span' {A} za zb (a b : nat) (l : list A) : za = Z.of_nat a -> zb = Z.of_nat b -> slice_btw za zb l = span a b l.
Proof. intros -> ->. apply slice_span. Qed.
Lemma span_columns a b l : span a b l = columns a b l.
Proof. reflexivity. Qed.
Lemma cols_columns za zb a b l : za = Z.of_nat a -> zb = Z.of_nat b -> cols za zb l = columns a b l.
Proof. intros. unfold cols. rewrite (slice_span' za zb a b) by assumption. reflexivity. Qed.
Lemma fcols_field za zb a b l x : za = Z.of_nat a -> zb = Z.of_nat b -> fcols za zb l = Ok x <-> field a b l x.
Proof. intros. unfold fcols, field. rewrite (cols_columns za zb a b) by assumption. reflexivity. Qed.
Lemma py_float_Err s e : py_float s = Err e -> e = ValueError.
Proof.
  unfold py_float. destruct (drop_underscores _ _) as [t|]; [|congruence]. destruct (take_sign t) as [neg u].
  repeat match goal with |- context [match ?x with _ => _ end] => destruct x end; congruence.
Qed.
Lemma fcols_Err a b l e : fcols a b l = Err e -> e = ValueError.
Proof. apply py_float_Err. Qed.
Lemma as_value_error_Ok {A} (r : res A) x : as_value_error r = Ok x <-> r = Ok x.
Proof. destruct r as [a|[]]; cbn; split; congruence. Qed.
Lemma as_value_error_id {A} (r : res A) : (forall e, r = Err e -> e = ValueError) -> as_value_error r = r.
Proof. intros H. destruct r as [a|e]; [reflexivity|]. rewrite (H e eq_refl). reflexivity. Qed.
Lemma as_value_error_Err {A} (r : res A) e : (forall e', r = Err e' -> e' = ValueError \/ e' = IndexError) -> as_value_error r = Err e -> e = ValueError.
Proof. intros H. destruct r as [a|e']; [discriminate|]. destruct (H e' eq_refl) as [-> | ->]; cbn; congruence. Qed.
Lemma replace_space_aux s : replace_aux [c_space] [] 0 s = without_spaces s.
Proof.
  induction s as [|c s IH]; [reflexivity|]. cbn [replace_aux starts_with]. unfold without_spaces. cbn [filter]. fold (without_spaces s).
  change (chr 32) with c_space. rewrite (Ascii.eqb_sym c c_space). destruct (Ascii.eqb c_space c); cbn [andb negb].
  - destruct s; cbn in *; exact IH.
  - f_equal. exact IH.
Qed.
Lemma no_blanks_spec s : no_blanks s = without_spaces s.
Proof. unfold no_blanks, replace. apply replace_space_aux. Qed.

Lemma mapM_Forall2 {A B} (f : A -> res B) (P : A -> B -> Prop) l ys : (forall x y, f x = Ok y <-> P x y) -> mapM f l = Ok ys <-> Forall2 P l ys.
Proof.
  intros H. revert ys. induction l as [|x l IH]; intros ys; cbn [mapM].
  - split; [intros [= <-]; constructor|]. intros K. inversion K. reflexivity.
  - split.
    + intros K. unbind K. injection K as <-. constructor; [apply H; assumption|apply IH; assumption].
    + intros K. inversion K as [|? y ? ys' Hy Hs]; subst. apply H in Hy. apply IH in Hs. rewrite Hy. cbn [bind]. rewrite Hs. reflexivity.
Qed.
Lemma mapM_only {A B} (f : A -> res B) (Q : exn -> Prop) l e : (forall x e, f x = Err e -> Q e) -> mapM f l = Err e -> Q e.
Proof.
  intros H. induction l as [|x l IH]; cbn [mapM]; [discriminate|]. destruct (f x) as [y|e'] eqn:E; cbn [bind].
  - destruct (mapM f l); cbn [bind]; [discriminate|]. intros K. apply IH. congruence.
  - intros [= <-]. exact (H _ _ E).
Qed.

(** * Inventory *)
Lemma skipn_add {A} i j (l : list A) : skipn i (skipn j l) = skipn (j + i) l.
Proof. revert l. induction j as [|j IH]; intros l; [reflexivity|]. destruct l; [rewrite !skipn_nil; reflexivity|]. cbn [skipn Nat.add]. apply IH. Qed.
Lemma columns_of_columns a b i j l : a + j <= b -> columns i j (columns a b l) = columns (a + i) (a + j) l.
Proof.
  intros H. unfold columns. rewrite skipn_firstn_comm, skipn_add, firstn_firstn. replace (Nat.min (j - i) (b - a - i)) with (j - i) by lia.
  replace (a + j - (a + i)) with (j - i) by lia. reflexivity.
Qed.
Lemma columns_rest a b i l : columns i (b - a) (columns a b l) = columns (a + i) b l.
Proof.
  destruct (Nat.le_gt_cases a b) as [L|L].
  - replace b with (a + (b - a)) at 3 by lia. apply columns_of_columns. lia.
  - unfold columns. replace (b - a - i) with 0 by lia. replace (b - (a + i)) with 0 by lia. reflexivity.
Qed.
Lemma skipn_columns a b i l : skipn i (columns a b l) = columns (a + i) b l.
Proof.
  unfold columns. rewrite skipn_firstn_comm, skipn_add. replace (b - a - i) with (b - (a + i)) by lia. reflexivity.
Qed.
Ltac fld H := first [ apply (fcols_field _ _ _ _ _ _ eq_refl eq_refl) in H | idtac ].
Lemma fcols_back za zb a b l x : field a b l x -> za = Z.of_nat a -> zb = Z.of_nat b -> fcols za zb l = Ok x.
Proof. intros H Ha Hb. apply (fcols_field za zb a b); assumption. Qed.

Lemma read_nuclide_spec l n : read_nuclide l = Ok n <-> nuclide_line l n.
Proof.
  unfold read_nuclide. rewrite as_value_error_Ok. rewrite (cols_columns 2 8 2 8) by reflexivity. rewrite no_blanks_spec.
  change (slice_btw 0 2 (columns 2 8 l)) with (cols 0 2 (columns 2 8 l)). rewrite (cols_columns 0 2 0 2) by reflexivity. rewrite columns_of_columns by lia.
  change 2%Z with (Z.of_nat 2) at 1. rewrite slice_from_nat, skipn_columns. cbn [Nat.add]. split.
  - intros H. unbind H. injection H as <-. unfold nuclide_line. cbn [n_name n_element n_A n_atoms n_mass n_act n_beta n_alpha n_gamma n_dose].
    split; [reflexivity|]. split; [apply strip_trimmed|]. split; [apply strip_trimmed|].
    repeat split; match goal with |- field _ _ _ ?x => match goal with E : fcols ?a ?b _ = Ok x |- _ => apply (fcols_field a b (Z.to_nat a) (Z.to_nat b) _ _ eq_refl eq_refl) in E; exact E end end.
  - intros (N1 & N2 & N3 & F1 & F2 & F3 & F4 & F5 & F6 & F7).
    rewrite (fcols_back 14 25 _ _ _ _ F1 eq_refl eq_refl), (fcols_back 28 37 _ _ _ _ F2 eq_refl eq_refl), (fcols_back 40 49 _ _ _ _ F3 eq_refl eq_refl),
      (fcols_back 52 61 _ _ _ _ F4 eq_refl eq_refl), (fcols_back 64 72 _ _ _ _ F5 eq_refl eq_refl), (fcols_back 75 84 _ _ _ _ F6 eq_refl eq_refl),
      (fcols_back 87 96 _ _ _ _ F7 eq_refl eq_refl). cbn [bind]. apply trimmed_strip in N2. apply trimmed_strip in N3. rewrite N2, N3, <- N1. destruct n. reflexivity.
Qed.
Ltac only_value := repeat match goal with
  | |- (do _ <- ?r; _) = Err _ -> _ => let E := fresh "E" in destruct r eqn:E; cbn [bind]; [|intros [= <-]]
  | E : fcols _ _ _ = Err ?e |- ?e = ValueError => exact (fcols_Err _ _ _ _ E)
  | E : fcols _ _ _ = Err ?e |- ?e = ValueError \/ _ => left; exact (fcols_Err _ _ _ _ E)
  | |- Ok _ = Err _ -> _ => discriminate
  end.
Lemma read_nuclide_Err l e : read_nuclide l = Err e -> e = ValueError.
Proof. apply as_value_error_Err. intros e'. cbv zeta. only_value. Qed.
Lemma first_index_nonempty {A} (P : A -> Prop) l i : first_index P l i -> l <> [].
Proof. intros ((x & H & _) & _) ->. destruct i; discriminate. Qed.
Lemma parse_inventory_spec data inv : parse_inventory data = Ok inv <->
  exists p, first_index (occurs inventory_total) data p /\ Forall2 nuclide_line (span 4 p data) inv.
Proof.
  unfold parse_inventory. split.
  - destruct data as [|l0 data]; [discriminate|]. intros H. apply bind_Ok in H. destruct H as (p & Hp & H). exists p. apply find_ind_Ok in Hp. split; [exact Hp|].
    rewrite (slice_span' 4 (Z.of_nat p) 4 p) in H by reflexivity. revert H. apply (mapM_Forall2 _ _ _ _ read_nuclide_spec).
  - intros (p & Hp & H). destruct data as [|l0 data]; [elim (first_index_nonempty _ _ _ Hp eq_refl)|]. apply find_ind_Ok in Hp. change inventory_total with (lit "0  TOTAL NUMBER OF NUCLIDES PRINTED IN INVENTORY") in Hp. rewrite Hp. cbn [bind].
    rewrite (slice_span' 4 (Z.of_nat p) 4 p) by reflexivity. apply (mapM_Forall2 _ _ _ _ read_nuclide_spec). exact H.
Qed.
Lemma find_ind_only data sub e : find_ind data sub = Err e -> e = ValueError.
Proof. intros H. apply find_ind_Err in H. tauto. Qed.
Lemma parse_inventory_Err data e : parse_inventory data = Err e -> e = ValueError.
Proof.
  unfold parse_inventory. destruct data as [|l0 data]; [congruence|]. destruct (find_ind _ _) as [p|x] eqn:E; cbn [bind].
  - apply (mapM_only _ (fun e => e = ValueError)). exact read_nuclide_Err.
  - intros [= <-]. exact (find_ind_only _ _ _ E).
Qed.

(** * Spectrum *)
Lemma read_spec_line l x : as_value_error (fcols 130 141 l) = Ok x <-> field 130 141 l x.
Proof. rewrite as_value_error_Ok. apply fcols_field; reflexivity. Qed.
Lemma parse_spectra_spec data g : parse_spectra data = Ok g <->
  exists p, first_index (occurs spectrum_title) data p /\ p + 31 <= List.length data /\ Forall2 (field 130 141) (span (p + 7) (p + 31) data) g.
Proof.
  unfold parse_spectra. split.
  - destruct data as [|l0 data]; [discriminate|]. intros H. apply bind_Ok in H. destruct H as (p & Hp & H). exists p. apply find_ind_Ok in Hp. split; [exact Hp|].
    destruct (Nat.ltb_spec (List.length (l0 :: data)) (p + 31)); [discriminate|]. split; [assumption|].
    rewrite (slice_span' _ _ (p + 7) (p + 31)) in H by lia. revert H. apply mapM_Forall2. exact read_spec_line.
  - intros (p & Hp & HL & H). destruct data as [|l0 data]; [elim (first_index_nonempty _ _ _ Hp eq_refl)|]. apply find_ind_Ok in Hp. change spectrum_title with (lit "GAMMA SPECTRUM AND ENERGIES/SECOND") in Hp. rewrite Hp. cbn [bind].
    destruct (Nat.ltb_spec (List.length (l0 :: data)) (p + 31)); [lia|]. rewrite (slice_span' _ _ (p + 7) (p + 31)) by lia. apply (mapM_Forall2 _ _ _ _ read_spec_line). exact H.
Qed.
Lemma Forall2_len {A B} (P : A -> B -> Prop) l m : Forall2 P l m -> List.length l = List.length m.
Proof. induction 1; cbn; congruence. Qed.
Lemma parse_spectra_24 data g : parse_spectra data = Ok g -> List.length g = 24.
Proof.
  intros H. apply parse_spectra_spec in H. destruct H as (p & _ & HL & H). apply Forall2_len in H. rewrite <- H. unfold span. rewrite firstn_length, skipn_length. lia.
Qed.
Lemma parse_spectra_Err data e : parse_spectra data = Err e -> e = ValueError.
Proof.
  unfold parse_spectra. destruct data as [|l0 data]; [congruence|]. destruct (find_ind _ _) as [p|x] eqn:E; cbn [bind].
  - destruct (_ <? _)%nat; [congruence|]. apply (mapM_only _ (fun e => e = ValueError)). intros l e'. apply as_value_error_Err. intros e''. only_value. intros K. left. exact (fcols_Err _ _ _ _ K).
  - intros [= <-]. exact (find_ind_only _ _ _ E).
Qed.
Lemma parse_spectra_short data p : first_index (occurs spectrum_title) data p -> List.length data < p + 31 -> parse_spectra data = Err ValueError.
Proof.
  intros Hp HL. unfold parse_spectra. destruct data as [|l0 data]; [reflexivity|]. apply find_ind_Ok in Hp. change spectrum_title with (lit "GAMMA SPECTRUM AND ENERGIES/SECOND") in Hp. rewrite Hp. cbn [bind].
  destruct (Nat.ltb_spec (List.length (l0 :: data)) (p + 31)); [reflexivity|lia].
Qed.

(** * Composition *)
Lemma read_comp_spec l r : read_comp l = Ok r <-> fst r = columns 12 14 l /\ field 20 30 l (snd r).
Proof.
  unfold read_comp. rewrite as_value_error_Ok, (cols_columns 12 14 12 14) by reflexivity. split.
  - intros H. unbind H. injection H as <-. split; [reflexivity|]. apply (fcols_field 20 30 20 30); try reflexivity. assumption.
  - intros (E & F). rewrite (fcols_back 20 30 _ _ _ _ F eq_refl eq_refl). cbn [bind]. rewrite <- E. destruct r. reflexivity.
Qed.
Lemma parse_composition_spec np_sum data rows s e : first_index (occurs composition_title) data s -> first_index (occurs spectrum_title) data e -> 3 <= e ->
  parse_composition np_sum data = Ok rows <->
  Forall2 element_line (span (s + 5) (e - 3) data) rows /\
  Forall (fun r => row_fraction r = fdiv (row_atoms r) (np_sum (map row_atoms rows))) rows.
Proof.
  intros Hs He H3. unfold parse_composition. destruct data as [|l0 data]; [elim (first_index_nonempty _ _ _ Hs eq_refl)|].
  apply find_ind_Ok in Hs. apply find_ind_Ok in He. change composition_title with (lit "COMPOSITION  OF  MATERIAL  BY  ELEMENT") in Hs. change spectrum_title with (lit "GAMMA SPECTRUM AND ENERGIES/SECOND") in He.
  rewrite Hs. cbn [bind]. rewrite He. cbn [bind]. rewrite (slice_span' _ _ (s + 5) (e - 3)) by lia. set (body := span (s + 5) (e - 3) (l0 :: data)). split.
  - intros H. apply bind_Ok in H. destruct H as (raw & Hr & [= <-]). apply (mapM_Forall2 _ _ _ _ read_comp_spec) in Hr. split.
    + generalize (np_sum (map snd raw)). intros u. clear - Hr. induction Hr as [|l r ls rs (E & F) _ IH]; [constructor|]. cbn [map]. constructor; [split; assumption|exact IH].
    + apply Forall_forall. intros r Hin. apply in_map_iff in Hin. destruct Hin as (q & <- & _). unfold row_fraction, row_atoms. cbn [fst snd]. f_equal. f_equal.
      rewrite map_map. reflexivity.
  - intros (H & HF). assert (Hr : Forall2 (fun l (r : str * float) => fst r = columns 12 14 l /\ field 20 30 l (snd r)) body (map (fun r => fst r) rows)).
    { clear HF. induction H as [|l r ls rs (E & F) _ IH]; [constructor|]. cbn [map]. constructor; [split; assumption|exact IH]. }
    apply (mapM_Forall2 _ _ _ _ read_comp_spec) in Hr. rewrite Hr. cbn [bind]. cbv zeta. apply (f_equal (@Ok (list comp_row))). rewrite map_map. rewrite map_map. change (fun r : comp_row => snd (fst r)) with row_atoms.
    transitivity (map (fun r => r) rows); [|apply map_id]. apply map_ext_in. intros r Hin. rewrite Forall_forall in HF. specialize (HF r Hin). destruct r as [[a b] c]. change (c = fdiv b (np_sum (map row_atoms rows))) in HF. cbn [fst snd].
rewrite HF. reflexivity.
Qed.
Lemma parse_composition_Err np_sum data e : parse_composition np_sum data = Err e -> e = ValueError.
Proof.
  unfold parse_composition. destruct data as [|l0 data]; [congruence|]. destruct (find_ind _ _) as [p|x] eqn:E; cbn [bind]; [|intros [= <-]; exact (find_ind_only _ _ _ E)].
  destruct (find_ind (l0 :: data) (lit "GAMMA SPECTRUM AND ENERGIES/SECOND")) as [q|x] eqn:E2; cbn [bind]; [|intros [= <-]; exact (find_ind_only _ _ _ E2)].
  destruct (mapM _ _) as [rows|x] eqn:E3; cbn [bind]; [discriminate|]. intros [= <-]. revert E3. apply (mapM_only _ (fun e => e = ValueError)).
  intros l e'. apply as_value_error_Err. intros e''. only_value.
Qed.
