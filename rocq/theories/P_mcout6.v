(** Lemmas on the MCNP output reader: angle bins, detector tallies, print table 101. *)
From Verif Require Import PyBase PyFacts PyFloat TextFacts SpecStr SpecOutput M_util M_mcout SpecMcout P_util P_output P_ptrac P_mcout P_mcout2 P_mcout3 P_mcout4 P_mcout5.
From Coq Require Import Lia.

(** * One cell with energy and time bins *)
Lemma type_cell_one ty pre h m a h1 x1 x2 B e post c vols es p :
  ty = chr 52 \/ ty = chr 54 -> none_of (prefix_of (amounts_text ty)) pre -> prefix_of (amounts_text ty) h ->
  cell_rows (m ++ [chr 32] :: a ++ h1 :: (x1 :: x2 :: B) ++ e :: post) [c] vols -> none_of (eq [chr 32]) m ->
  none_of (names_cell c) ([chr 32] :: a) -> names_cell c h1 ->
  occurs (lit "time") x1 -> occurs (lit "energy") x2 -> ~ occurs (lit "energy") x1 ->
  none_of (prefix_of (lit " ===")) ([chr 32] :: a ++ h1 :: x1 :: x2 :: B) -> prefix_of (lit " ===") e ->
  et_listing es (x1 :: x2 :: B) p -> p <> [] ->
  exists b V U, read_type_cell ty (pre ++ h :: m ++ [chr 32] :: a ++ h1 :: (x1 :: x2 :: B) ++ e :: post) = Ok b /\
    b_cells b = Some [c] /\ b_result b = TList [EMat V] /\ b_err b = TList [EMat U] /\
    matrix_of fst p (List.length es) V /\ matrix_of snd p (List.length es) U.
Proof.
  intros Hty Hp Hh Hc Hm Hn1 Hh1 Hx1 Hx2 Hxe Heq He L1 Hp1.
  rewrite (type_cell_head ty pre h m _ _ _ Hty Hp Hh Hc Hm).
  set (L := [chr 32] :: a ++ h1 :: (x1 :: x2 :: B) ++ e :: post). cbv zeta. change (py_nth [c] 0%Z) with (Ok c). cbn [bind].
  assert (F1 : first_index (names_cell c) L (List.length ([chr 32] :: a))).
  { apply (first_app_skip (names_cell c) ([chr 32] :: a) h1); assumption. }
  assert (FE : first_index (prefix_of (lit " ===")) L (List.length ([chr 32] :: a ++ h1 :: x1 :: x2 :: B))).
  { unfold L. replace ([chr 32] :: a ++ h1 :: (x1 :: x2 :: B) ++ e :: post) with (([chr 32] :: a ++ h1 :: (x1 :: x2 :: B)) ++ e :: post) by (cbn [app]; now rewrite <- app_assoc).
    now apply first_app_skip. }
  change (c_space :: c ++ [c_space]) with (chr 32 :: c ++ [chr 32]). rewrite (find_ind_first _ _ _ F1). cbn [bind].
  assert (Sk1 : skipn (S (List.length ([chr 32] :: a))) L = x1 :: x2 :: B ++ e :: post).
  { unfold L. replace ([chr 32] :: a ++ h1 :: (x1 :: x2 :: B) ++ e :: post) with (([chr 32] :: a ++ [h1]) ++ (x1 :: x2 :: B) ++ e :: post) by (cbn [app]; now rewrite <- app_assoc).
    replace (S (List.length ([chr 32] :: a))) with (List.length ([chr 32] :: a ++ [h1])) by (cbn [List.length]; rewrite app_length; cbn [List.length]; lia).
    now rewrite skipn_exact. }
  assert (Enext : py_nth L (Z.of_nat (List.length ([chr 32] :: a)) + 1) = Ok x1).
  { rewrite nth_S, py_nth_nat. rewrite <- (firstn_skipn (S (List.length ([chr 32] :: a))) L), Sk1.
    assert (Hl : List.length (firstn (S (List.length ([chr 32] :: a))) L) = S (List.length ([chr 32] :: a))).
    { apply firstn_length_le. unfold L. cbn [List.length]. rewrite !app_length. cbn [List.length]. lia. }
    rewrite nth_error_app2 by lia. rewrite Hl, Nat.sub_diag. reflexivity. }
  rewrite Enext. cbn [bind]. rewrite (proj2 (contains_false _ _) Hxe). cbn [foldM].
  destruct (cell_et_step (CS L [] [] None None) c _ x1 x2 e B es p post F1 Sk1 Hx1 Hx2) as (V1 & U1 & eb1 & tb1 & E1 & HV1 & HU1).
  { refine (eq_ind _ (first_index (prefix_of (lit " ===")) L) FE _ _).
    repeat (rewrite ?app_length; cbn [List.length app]). change (list ascii) with str in *. lia. }
  { exact L1. } { exact Hp1. }
  cbn [cs_lines cs_result cs_err] in E1. rewrite E1. cbn [bind cs_lines cs_result cs_err cs_eng cs_times app].
  exists (TBody (TList [EMat V1]) (TList [EMat U1]) eb1 tb1 None None None None None (Some [c]) (Some vols) None), V1, U1.
  repeat split; try reflexivity; try apply HV1; try apply HU1.
Qed.

(** * Bins of an energy and time listing *)
Lemma time_bins_inner ws acc all : distinct all acc -> distinct (all ++ ws) (fold_left (fun acc t => if existsb (str_eqb t) acc then acc else acc ++ [t]) ws acc).
Proof.
  revert acc all. induction ws as [|w ws IH]; intros acc all H; cbn [fold_left]; [now rewrite app_nil_r|].
  replace (all ++ w :: ws) with ((all ++ [w]) ++ ws) by (now rewrite <- app_assoc). apply IH.
  assert (Hin : forall l l', distinct l l' -> forall x, In x l <-> In x l').
  { clear. induction 1 as [|l l' x H IH Hx|l l' x H IH Hx]; intros y; [tauto| |].
    - rewrite in_app_iff. cbn [In]. rewrite <- IH. split; [intros [?|[<-|[]]]; assumption|now left].
    - rewrite !in_app_iff, IH. tauto. }
  destruct (existsb (str_eqb w) acc) eqn:E.
  - apply di_old; [exact H|]. apply existsb_str_In in E. now apply (Hin _ _ H).
  - apply di_new; [exact H|]. intros Hi. apply (Hin _ _ H) in Hi. apply existsb_str_In in Hi. congruence.
Qed.
Lemma et_time_bins_spec ls ts : time_words ls ts -> distinct ts (eng_time_get_time_bins ls).
Proof.
  intros H. unfold eng_time_get_time_bins.
  enough (G : forall all acc, distinct all acc -> distinct (all ++ ts) (fold_left (fun acc line =>
    if contains (lit "time") line then
      fold_left (fun acc t => if existsb (str_eqb t) acc then acc else acc ++ [t])
        (slice_from 1 (split_on c_space (join [c_space] (split_ws line)))) acc
    else acc) ls acc)) by (apply (G [] []); constructor).
  induction H as [|l ls ts Ht H IH|l w ws ls ts Ht Hw H IH]; intros all acc Ha; cbn [fold_left].
  - now rewrite app_nil_r.
  - rewrite (proj2 (contains_false _ _) Ht). now apply IH.
  - rewrite (proj2 (contains_spec _ _) Ht). pose proof (words_Forall _ _ Hw) as HF. apply words_split in Hw.
    rewrite Hw, split_on_words by (discriminate || assumption). rewrite slice_from_1, app_assoc. apply IH. now apply time_bins_inner.
Qed.
Lemma distinct_NoDup l l' : distinct l l' -> NoDup l' /\ forall x, In x l <-> In x l'.
Proof.
  induction 1 as [|l l' x H (IH1 & IH2) Hx|l l' x H (IH1 & IH2) Hx].
  - split; [constructor|tauto].
  - split; [exact IH1|]. intros y. rewrite in_app_iff. cbn [In]. rewrite <- IH2. split; [intros [?|[<-|[]]]; assumption|now left].
  - split; [|intros y; rewrite !in_app_iff, IH2; tauto]. rewrite IH2 in Hx. clear - IH1 Hx. induction l' as [|z l' IH]; [constructor; [tauto|constructor]|].
    inversion IH1 as [|z' l'' Hz Hl]; subst. cbn [app]. constructor; [|apply IH; [exact Hl|cbn in Hx; tauto]].
    rewrite in_app_iff. cbn. intros [Hi|[->|[]]]; [contradiction|]. apply Hx. now left.
Qed.
Lemma eng_bins_rows rows ws t post : Forall2 (fun l w => ~ occurs (lit "total") l /\ exists r, words l (w :: r)) rows ws -> occurs (lit "total") t ->
  eng_bins_loop true (rows ++ t :: post) = ws.
Proof.
  intros H Ht. induction H as [|l w rows ws (Hl & r & Hw) H IH]; cbn [app eng_bins_loop]; [now rewrite (proj2 (contains_spec _ _) Ht)|].
  rewrite (proj2 (contains_false _ _) Hl), IH. pose proof (words_Forall _ _ Hw) as HF. apply words_split in Hw.
  rewrite Hw, split_on_words by (discriminate || assumption). reflexivity.
Qed.
Lemma eng_bins_spec pre h rows ws t post : none_of (occurs (lit "energy")) pre -> occurs (lit "energy") h ->
  Forall2 (fun l w => ~ occurs (lit "total") l /\ exists r, words l (w :: r)) rows ws -> occurs (lit "total") t ->
  eng_time_get_eng_bins (pre ++ h :: rows ++ t :: post) = ws ++ [lit "total"].
Proof.
  intros Hp Hh Hr Ht. unfold eng_time_get_eng_bins. f_equal. induction pre as [|x pre IH]; cbn [app eng_bins_loop].
  - rewrite (proj2 (contains_spec _ _) Hh). now apply eng_bins_rows.
  - rewrite (proj2 (contains_false _ _) (Hp x (or_introl eq_refl))). apply IH. intros l Hl. apply Hp. now right.
Qed.

(** * Angle and energy bins *)
Lemma strip_colon a b : strip (a ++ chr 58 :: b) = lstrip a ++ chr 58 :: rstrip b.
Proof.
  apply trimmed_strip. destruct (lstrip_by_decomp is_ws a) as (p & Ep & Hp). destruct (rstrip_by_decomp is_ws b) as (q & Eq & Hq).
  exists p, q. split; [|split; [exact Hp|split; [exact Hq|split]]].
  - unfold lstrip, rstrip. rewrite <- app_assoc. cbn [app]. rewrite <- Eq. now rewrite Ep at 1; rewrite <- app_assoc.
  - intros c r E. destruct (lstrip a) as [|d t] eqn:El; cbn [app] in E; injection E as <- _; [reflexivity|]. now apply lstrip_no_lead in El.
  - intros r c E. destruct (snoc_cases (rstrip b)) as [En|(t & d & En)].
    + rewrite En in E. apply app_inj_tail in E. destruct E as (_ & <-). reflexivity.
    + rewrite En in E. replace (lstrip a ++ chr 58 :: t ++ [d]) with ((lstrip a ++ chr 58 :: t) ++ [d]) in E by (now rewrite <- app_assoc).
      apply app_inj_tail in E. destruct E as (_ & <-). now apply rstrip_no_trail in En.
Qed.
Lemma words_rstrip b ws : words b ws -> words (rstrip b) ws.
Proof.
  intros H. destruct (rstrip_by_decomp is_ws b) as (q & Eq & Hq). apply words_split. apply words_split in H. unfold rstrip.
  rewrite Eq in H. rewrite <- H. symmetry. now apply split_ws_post.
Qed.
Lemma ang_string_spec l x : angle_line l x -> process_ang_string l = Ok x.
Proof.
  intros (_ & a & b & ws & w & v & -> & Ha & Hb & Hw & R). unfold process_ang_string. rewrite strip_colon. change (chr 58) with c_col in *.
  rewrite (split_on_app c_col (lstrip a)); [|apply lacks_In; intros Hi; apply Ha; destruct (lstrip_by_decomp is_ws a) as (p & Ep & _); rewrite Ep; apply in_or_app; now right].
  rewrite (split_on_lacks c_col); [|apply lacks_In; intros Hi; apply Hb; destruct (rstrip_by_decomp is_ws b) as (p & Ep & _); rewrite Ep; apply in_or_app; now left].
  change (py_nth [lstrip a; rstrip b] 1%Z) with (Ok (rstrip b)). cbn [bind]. apply words_rstrip in Hw. apply words_split in Hw. rewrite Hw, py_nth_last2. exact R.
Qed.
Lemma plain_step l st : plain_line l -> ea_in st = false -> ea_step st l = Ok st.
Proof.
  intros (H1 & H2 & H3) Hi. unfold ea_step. change 11%Z with (Z.of_nat (List.length (lit " angle  bin"))). change 13%Z with (Z.of_nat (List.length (lit "      total  "))).
  rewrite !slice_to_head. rewrite (proj2 (str_eqb_neq _ _)) by (intros E; apply H1; now apply head_prefix). cbn [bind].
  rewrite (proj2 (str_eqb_neq _ _)) by (intros E; apply H2; now apply head_prefix). destruct st as [A EB R U RD UD i E]. cbn in Hi |- *. subst i. cbn.
  rewrite (proj2 (str_eqb_neq _ _)) by exact H3. reflexivity.
Qed.
Lemma plain_steps gap : Forall plain_line gap -> forall st, ea_in st = false -> foldM ea_step gap st = Ok st.
Proof. induction 1 as [|l gap Hl H IH]; intros st Hi; cbn [foldM]; [reflexivity|]. rewrite plain_step by assumption. cbn [bind]. now apply IH. Qed.
Lemma row_steps rows rs : Forall2 energy_printed rows rs -> Forall plain_line rows -> forall A EB R U RD UD E,
  foldM ea_step rows (EA A EB R U RD UD true E) =
  Ok (EA A (EB ++ map (fun r => fst (fst r)) rs) (R ++ map (fun r => snd (fst r)) rs) (U ++ map snd rs) RD UD true E).
Proof.
  induction 1 as [|l r rows rs Hl H IH]; intros Hp A EB R U RD UD E; cbn [foldM map]; [now rewrite !app_nil_r|].
  pose proof (Forall_inv Hp) as (H1 & H2 & H3). apply Forall_inv_tail in Hp.
  assert (S1 : ea_step (EA A EB R U RD UD true E) l = Ok (EA A (EB ++ [fst (fst r)]) (R ++ [snd (fst r)]) (U ++ [snd r]) RD UD true E)).
  { unfold ea_step.
  change 11%Z with (Z.of_nat (List.length (lit " angle  bin"))). change 13%Z with (Z.of_nat (List.length (lit "      total  "))).
  rewrite !slice_to_head. rewrite (proj2 (str_eqb_neq _ _)) by (intros X; apply H1; now apply head_prefix). cbn [bind].
  rewrite (proj2 (str_eqb_neq _ _)) by (intros X; apply H2; now apply head_prefix). cbn [ea_in ea_angles ea_ebin ea_res ea_err ea_res_df ea_err_df ea_eng].
  rewrite (energy_line_spec _ _ Hl). destruct r as ((e & x) & u). reflexivity. }
  rewrite S1. cbn [bind]. rewrite IH by exact Hp. now rewrite <- !app_assoc.
Qed.
Lemma angle_steps ls bs : angle_blocks ls bs -> forall A RD UD E0, exists E,
  foldM ea_step ls (EA A [] [] [] RD UD false E0) =
  Ok (EA (A ++ map fst bs) [] [] [] (RD ++ map (fun b => map (fun r => snd (fst r)) (snd b)) bs) (UD ++ map (fun b => map snd (snd b)) bs) false E) /\
  (bs = [] /\ E = E0 \/ exists bs' x rs, bs = bs' ++ [(x, rs)] /\ E = Some (map (fun r => fst (fst r)) rs)).
Proof.
  induction 1 as [gap Hg|gap al rows tl x rs ls bs Hg Ha Hr Hp Ht H IH]; intros A RD UD E0.
  - exists E0. cbn [map]. rewrite !app_nil_r. split; [now apply plain_steps|]. left. auto.
  - rewrite foldM_app, plain_steps by (assumption || reflexivity). cbn [bind foldM].
    assert (S1 : ea_step (EA A [] [] [] RD UD false E0) al = Ok (EA (A ++ [x]) [] [] [] RD UD false E0)).
    { unfold ea_step. change 11%Z with (Z.of_nat (List.length (lit " angle  bin"))). change 13%Z with (Z.of_nat (List.length (lit "      total  "))). rewrite !slice_to_head.
      pose proof Ha as (Hpre & _). rewrite (proj2 (str_eqb_eq _ _)) by (now apply head_prefix). rewrite (ang_string_spec _ _ Ha). cbn [bind ea_angles].
      rewrite (proj2 (str_eqb_neq _ _)) by (intros X; apply head_prefix in X; destruct Hpre as (r1 & ->); destruct X as (r2 & X); discriminate X).
      cbn [ea_in ea_angles ea_ebin ea_res ea_err ea_res_df ea_err_df ea_eng].
      rewrite (proj2 (str_eqb_neq _ _)) by (intros X; destruct Hpre as (r1 & ->); discriminate X). reflexivity. }
    rewrite S1. cbn [bind]. change (ea_step (EA (A ++ [x]) [] [] [] RD UD false E0) (lit "      energy   ")) with (Ok (EA (A ++ [x]) [] [] [] RD UD true E0)). cbn [bind].
    rewrite foldM_app, (row_steps _ _ Hr Hp). cbn [bind app foldM].
    assert (S2 : forall EB R U, ea_step (EA (A ++ [x]) EB R U RD UD true E0) tl = Ok (EA (A ++ [x]) [] [] [] (RD ++ [R]) (UD ++ [U]) false (Some EB))).
    { intros EB R U. unfold ea_step. change 11%Z with (Z.of_nat (List.length (lit " angle  bin"))). change 13%Z with (Z.of_nat (List.length (lit "      total  "))). rewrite !slice_to_head.
      rewrite (proj2 (str_eqb_neq _ _)) by (intros X; apply head_prefix in X; destruct Ht as (r1 & ->); destruct X as (r2 & X); discriminate X). cbn [bind].
      rewrite (proj2 (str_eqb_eq _ _)) by (now apply head_prefix). cbn [ea_in ea_angles ea_ebin ea_res ea_err ea_res_df ea_err_df ea_eng].
      rewrite (proj2 (str_eqb_neq _ _)) by (intros X; destruct Ht as (r1 & ->); discriminate X). reflexivity. }
    rewrite S2. cbn [bind]. destruct (IH (A ++ [x]) (RD ++ [map (fun r => snd (fst r)) rs]) (UD ++ [map snd rs]) (Some (map (fun r => fst (fst r)) rs))) as (E & EE & HE).
    exists E. rewrite EE. cbn [map fst snd]. rewrite <- !app_assoc. split; [reflexivity|]. right.
    destruct HE as [(-> & ->)|(bs' & y & rs' & -> & ->)].
    + exists [], x, rs. auto.
    + exists ((x, rs) :: bs'), y, rs'. auto.
Qed.
(** Type 1 or 2 surface tally with angle and energy bins, for one surface. *)
Lemma angle_tally_spec done ls b bs : angle_blocks ls (b :: bs) ->
  exists st, process_energy_angle_tally (done ++ ls) (Z.of_nat (List.length done)) = Ok st /\ 
    ea_angles st = fdec (-1) 0 :: map fst (b :: bs) /\
    ea_res_df st = map (fun b => map (fun r => snd (fst r)) (snd b)) (b :: bs) /\
    ea_err_df st = map (fun b => map snd (snd b)) (b :: bs) /\
    exists l, is_last (b :: bs) (Some l) /\ ea_eng st = Some (map (fun r => fst (fst r)) (snd l)).
Proof.
  intros H. unfold process_energy_angle_tally. rewrite slice_from_app0. destruct (angle_steps _ _ H [fdec (-1) 0] [] [] None) as (E & EE & HE).
  rewrite EE. eexists. split; [reflexivity|]. cbn [ea_angles ea_res_df ea_err_df ea_eng app]. repeat split.
  destruct HE as [(X & _)|(bs' & x & rs & Eb & ->)]; [discriminate|]. exists (x, rs). split; [exists bs'; exact Eb|reflexivity].
Qed.

(** * Detectors *)
Lemma py_nth_next {A} (pre : list A) d r rest : py_nth (pre ++ d :: r :: rest) (Z.of_nat (List.length pre) + 1) = Ok r.
Proof. rewrite (py_nth_app pre (d :: r :: rest) 1) by lia. reflexivity. Qed.
Lemma split_on_app_gen sep a b : split_on sep (a ++ sep :: b) = split_on sep a ++ split_on sep b.
Proof.
  induction a as [|c a IH]; cbn [app split_on].
  - now rewrite Ascii.eqb_refl.
  - rewrite IH. destruct (Ascii.eqb c sep); [reflexivity|]. destruct (split_on sep a) as [|w ws] eqn:E; [now apply split_on_ne in E|reflexivity].
Qed.
Lemma last_two_pieces a v u : ~ In (chr 32) v -> ~ In (chr 32) u -> slice_from (-2) (split_on c_space (a ++ chr 32 :: v ++ chr 32 :: u)) = [v; u].
Proof.
  intros Hv Hu. change (chr 32) with c_space in *. rewrite split_on_app_gen, (split_on_app c_space v) by (apply lacks_In; exact Hv).
  rewrite (split_on_lacks c_space u) by (apply lacks_In; exact Hu). set (p := split_on c_space a).
  unfold slice_from, slice.
  assert (E : clamp_ix (p ++ [v; u]) (-2) = List.length p).
  { unfold clamp_ix, zlen. rewrite app_length. cbn [List.length]. destruct (Z.ltb_spec (-2) 0); lia. }
  change (list ascii) with str in *. rewrite E, firstn_all. apply skipn_exact.
Qed.
Lemma cols_number i j k l x : j = i + k -> py_float (strip (slice_btw (Z.of_nat i) (Z.of_nat j) l)) = Ok x -> number_in i j l x.
Proof.
  intros -> H. rewrite slice_btw_nat in H. exists (strip (columns i (i + k) l)). split; [apply strip_trimmed|]. unfold columns.
  rewrite firstn_skipn_comm. replace (i + (i + k - i)) with (i + k) by lia. exact H.
Qed.
Lemma type5_position pre d a p r rest b : none_of (prefix_of (lit " detector located")) pre -> prefix_of (lit " detector located") d ->
  d = a ++ chr 61 :: p -> ~ In (chr 61) a -> ~ In (chr 61) p -> read_type_5 (pre ++ d :: r :: rest) = Ok b ->
  exists f5, b_f5 b = Some f5 /\ number_in 0 12 p (f5_x f5) /\ number_in 12 24 p (f5_y f5) /\ number_in 24 36 p (f5_z f5).
Proof.
  intros Hp Hd Ed Ha Hpp H. unfold read_type_5 in H. rewrite (find_line_app (lit " detector located") 17 pre d (r :: rest) eq_refl Hp Hd) in H. cbn [bind] in H. cbv zeta in H.
  rewrite (py_nth_app0 pre) in H. change (py_nth (d :: r :: rest) 0%Z) with (Ok d) in H. cbn [bind] in H. rewrite Ed in H at 1.
  change (chr 61) with c_eq in *. rewrite (split_on_app c_eq a), (split_on_lacks c_eq p) in H by (apply lacks_In; assumption).
  change (py_nth [a; p] 1%Z) with (Ok p) in H. cbn [bind] in H.
  destruct (py_float (strip (slice_btw 0 12 p))) as [x|] eqn:Ex; [cbn [bind] in H|discriminate].
  destruct (py_float (strip (slice_btw 12 24 p))) as [y|] eqn:Ey; [cbn [bind] in H|discriminate].
  destruct (py_float (strip (slice_btw 24 36 p))) as [z|] eqn:Ez; [cbn [bind] in H|discriminate].
  destruct (py_nth _ (Z.of_nat (List.length pre) + 1)) as [rl|]; [cbn [bind] in H|discriminate].
  match type of H with bind ?m _ = _ => destruct m as [((((? & ?) & ?) & ?) & ?)|]; [cbn [bind] in H|discriminate] end.
  destruct (read_f5_general x y z _) as [f5|] eqn:Ef; [cbn [bind] in H|discriminate]. injection H as <-.
  exists f5. split; [reflexivity|].
  assert (Exyz : f5_x f5 = x /\ f5_y f5 = y /\ f5_z f5 = z).
  { unfold read_f5_general in Ef. repeat (match type of Ef with bind ?m _ = _ => destruct m; [cbn [bind] in Ef|discriminate] end). injection Ef as <-. auto. }
  destruct Exyz as (-> & -> & ->). repeat split.
  - now apply (cols_number 0 12 12).
  - now apply (cols_number 12 24 12).
  - now apply (cols_number 24 36 12).
Qed.
(** The head of a detector section up to the choice of the kind of results. *)
Lemma type5_value pre d r rest b a v u x y : none_of (prefix_of (lit " detector located")) pre -> prefix_of (lit " detector located") d ->
  r = a ++ chr 32 :: v ++ chr 32 :: u -> ~ In (chr 32) v -> ~ In (chr 32) u -> reads v x -> reads u y ->
  r <> lit "      energy   " -> ~ occurs (lit "time") r -> ~ occurs (lit "user bin") r ->
  read_type_5 (pre ++ d :: r :: rest) = Ok b -> b_result b = TList [EFloat x] /\ b_err b = TList [EFloat y] /\ b_eng b = None /\ b_times b = None.
Proof.
  intros Hp Hd Er Hv Hu Rv Ru Hne Ht Hub H. unfold read_type_5 in H. rewrite (find_line_app (lit " detector located") 17 pre d (r :: rest) eq_refl Hp Hd) in H. cbn [bind] in H. cbv zeta in H.
  rewrite (py_nth_app0 pre) in H. change (py_nth (d :: r :: rest) 0%Z) with (Ok d) in H. cbn [bind] in H.
  do 4 (match type of H with bind ?m _ = _ => destruct m; [cbn [bind] in H|discriminate] end).
  rewrite py_nth_next in H. cbn [bind] in H.
  assert (E0 : str_eqb r energy_head = false) by (apply str_eqb_neq; exact Hne). rewrite E0, (proj2 (contains_false _ _) Ht), (proj2 (contains_false _ _) Hub) in H.
  rewrite Er, last_two_pieces in H by assumption. change (py_nth [v; u] 0%Z) with (Ok v) in H. change (py_nth [v; u] 1%Z) with (Ok u) in H. cbn [bind] in H.
  unfold reads in Rv, Ru. rewrite Rv in H. cbn [bind] in H. rewrite Ru in H. cbn [bind] in H.
  match type of H with bind ?m _ = _ => destruct m; [cbn [bind] in H|discriminate] end. injection H as <-. auto.
Qed.
Lemma slice_mid {A} (a b c : list A) i j : i = Z.of_nat (List.length a) -> j = Z.of_nat (List.length (a ++ b)) -> slice_btw i j (a ++ b ++ c) = b.
Proof.
  intros -> ->. rewrite slice_btw_nat. replace (a ++ b ++ c) with ((a ++ b) ++ c) by (now rewrite <- app_assoc).
  rewrite firstn_app, firstn_all, Nat.sub_diag, firstn_O, app_nil_r. apply skipn_exact.
Qed.
Lemma type5_energy pre d rows t rest b rs : none_of (prefix_of (lit " detector located")) pre -> prefix_of (lit " detector located") d ->
  Forall2 energy_printed rows rs -> none_of (prefix_of (lit "      total")) rows -> prefix_of (lit "      total") t ->
  read_type_5 (pre ++ d :: lit "      energy   " :: rows ++ t :: rest) = Ok b ->
  b_eng b = Some (map (fun r => fst (fst r)) rs) /\ b_result b = TList (map (fun r => EFloat (snd (fst r))) rs) /\
  b_err b = TList (map (fun r => EFloat (snd r)) rs) /\ b_times b = None.
Proof.
  intros Hp Hd Hr Hn Ht H. unfold read_type_5 in H. rewrite (find_line_app (lit " detector located") 17 pre d _ eq_refl Hp Hd) in H. cbn [bind] in H. cbv zeta in H.
  rewrite (py_nth_app0 pre) in H. change (py_nth (d :: lit "      energy   " :: rows ++ t :: rest) 0%Z) with (Ok d) in H. cbn [bind] in H.
  do 4 (match type of H with bind ?m _ = _ => destruct m; [cbn [bind] in H|discriminate] end).
  rewrite py_nth_next in H. cbn [bind] in H. change (str_eqb (lit "      energy   ") energy_head) with true in H. cbv iota in H.
  rewrite (slice_from_app pre (d :: lit "      energy   " :: rows ++ t :: rest) 1) in H by lia. rewrite slice_from_1 in H.
  assert (Ef : find_line (lit "      total") (lit "      energy   " :: rows ++ t :: rest) 11 = Ok (S (List.length rows))).
  { apply (find_line_app (lit "      total") 11 (lit "      energy   " :: rows) t rest eq_refl); [|exact Ht]. intros l [<-|Hl]; [|now apply Hn]. intros (q & X). discriminate X. }
  rewrite Ef in H. cbn [bind] in H.
  assert (Es : slice_btw (Z.of_nat (List.length pre) + 2) (Z.of_nat (List.length pre) + Z.of_nat (S (List.length rows)) + 1) (pre ++ d :: lit "      energy   " :: rows ++ t :: rest) = rows).
  { replace (pre ++ d :: lit "      energy   " :: rows ++ t :: rest) with ((pre ++ [d; lit "      energy   "]) ++ rows ++ t :: rest) by (now rewrite <- app_assoc).
    apply slice_mid; rewrite !app_length; cbn [List.length]; lia. }
  rewrite Es, (energy_lines_spec _ _ Hr) in H. cbn [bind] in H.
  match type of H with bind ?m _ = _ => destruct m; [cbn [bind] in H|discriminate] end. injection H as <-. cbn. rewrite !map_map. auto.
Qed.

(** * Print table 101 *)
Lemma rows_words rows ws : Forall2 (fun l w => words l w /\ w <> []) rows ws -> forall l rest, blank l ->
  rows_until_empty (map string_cleaner (rows ++ l :: rest)) = ws.
Proof.
  intros H l rest Hl. induction H as [|r w rows ws (Hw & Hne) H IH]; cbn [map app rows_until_empty].
  - rewrite string_cleaner_words, split_ws_blank by exact Hl. reflexivity.
  - rewrite IH. pose proof (clean_words _ _ Hw) as Hc. pose proof (words_Forall _ _ Hw) as HF. rewrite string_cleaner_words in *. apply words_split in Hw. rewrite Hw in *.
    destruct w as [|x w]; [contradiction|]. destruct (join [c_space] (x :: w)) as [|c s] eqn:E; [|now rewrite Hc].
    exfalso. apply Forall_inv in HF. destruct HF as (Hx & _). destruct w; [now apply Hx|]. rewrite join_cons in E. apply app_eq_nil in E. tauto.
Qed.
Lemma frame_full rows n : rows <> [] -> Forall (fun r => List.length r = n) rows -> data_frame rows n = Ok (map (map Some) rows).
Proof.
  intros Hne HF. unfold data_frame. destruct rows as [|r rows]; [contradiction|].
  assert (E : list_max (map (@List.length str) (r :: rows)) = n).
  { clear Hne. revert HF. generalize r. induction rows as [|y rows IH]; intros x HF; cbn [map list_max fold_right].
    - apply Forall_inv in HF. cbn in HF. rewrite HF. apply Nat.max_0_r.
    - specialize (IH y (Forall_inv_tail HF)). cbn [map list_max fold_right] in IH. unfold list_max in IH. cbn [map fold_right] in IH. rewrite IH.
      apply Forall_inv in HF. cbn in HF. rewrite HF. apply Nat.max_id. }
  rewrite E, Nat.eqb_refl. f_equal. apply map_ext_in. intros x Hx. rewrite Forall_forall in HF. rewrite (HF x Hx), Nat.sub_diag. cbn [repeat]. apply app_nil_r.
Qed.
Lemma table101_frame pre h0 h1 h2 h3 h4 h5 rows ws l m e post : Forall2 (fun l w => words l w /\ w <> []) rows ws -> blank l ->
  none_of (prefix_of (lit " *******")) ([h0; h1; h2; h3; h4; h5] ++ rows ++ l :: m) -> prefix_of (lit " *******") e ->
  read_table101 (pre ++ ([h0; h1; h2; h3; h4; h5] ++ rows ++ l :: m) ++ e :: post) (Z.of_nat (List.length pre)) = data_frame ws 9.
Proof.
  intros Hr Hl Hn He. unfold read_table101. rewrite slice_from_app0.
  rewrite (find_line_app (lit " *******") 8 _ e post eq_refl Hn He). cbn [bind].
  rewrite slice_mid; [|reflexivity|rewrite (app_length pre); lia]. change 6%Z with (Z.of_nat 6). rewrite slice_from_nat. cbn [app map skipn].
  now rewrite (rows_words rows ws Hr l m Hl).
Qed.
Lemma table101_spec pre h0 h1 h2 h3 h4 h5 rows ws l m e post : Forall2 (fun l w => words l w /\ List.length w = 9) rows ws -> rows <> [] -> blank l ->
  none_of (prefix_of (lit " *******")) ([h0; h1; h2; h3; h4; h5] ++ rows ++ l :: m) -> prefix_of (lit " *******") e ->
  read_table101 (pre ++ ([h0; h1; h2; h3; h4; h5] ++ rows ++ l :: m) ++ e :: post) (Z.of_nat (List.length pre)) = Ok (map (map Some) ws).
Proof.
  intros Hr Hne Hl Hn He. rewrite (table101_frame pre h0 h1 h2 h3 h4 h5 rows ws l m e post); [|revert Hr; clear; induction 1 as [|x y a b (H1 & H2) H IH]; constructor; auto; split; [exact H1|intros ->; discriminate]|exact Hl|exact Hn|exact He].
  apply frame_full.
  - destruct Hr; [contradiction|discriminate].
  - clear - Hr. induction Hr as [|x y a b (H1 & H2) H IH]; constructor; auto.
Qed.

Lemma long_number_refuted l t : tally_title t l -> 5 <= List.length t -> word t -> get_tally_nums [l] = Ok [] /\ ~ listed_tally l t.
Proof.
  intros H1 H2 H3. pose proof (long_number_missed l t H1 H2 H3) as N. split; [|intros (H & _); contradiction].
  unfold get_tally_nums. cbn [filter]. destruct (str_eqb _ _) eqn:E; [|reflexivity]. apply listed_head in E. contradiction.
Qed.
