(** Proofs about the MCNP output reader: tables that do not fit. *)
From Coq Require Import Lia ZArith Permutation.
From Verif Require Import PyBase PyFloat PyFs SpecStr PyFacts M_util SpecUtil P_util FloatFacts SpecInput TextFacts SpecOutput P_output P_output3 M_mcout SpecMcout P_mcout P_mcout2 P_mcout3 P_mcout4 P_mcout5 P_mcout6 P_mcout7 SpecMcout2 P_ptrac.

(** * Frames *)
Lemma max_is (l : list nat) n : list_max l = n -> n <> 0 -> In n l.
Proof. induction l as [|x l IH]; cbn; intros E Hn; [congruence|]. destruct (Nat.max_dec x (list_max l)) as [M|M]; fold (list_max l) in *; [left; congruence|right; apply IH; congruence]. Qed.
Definition misfit (n : nat) (ws : list (list str)) : Prop := (exists w, In w ws /\ n < List.length w) \/ (forall w, In w ws -> List.length w < n).
Lemma frame_misfit ws n : ws <> [] -> misfit n ws -> data_frame ws n = Err ValueError.
Proof.
  intros Hne HM. unfold data_frame. destruct ws as [|w0 ws]; [contradiction|]. set (rows := w0 :: ws) in *.
  destruct (Nat.eqb_spec (list_max (map (@List.length str) rows)) n) as [E|E]; [exfalso|reflexivity]. destruct HM as [(w & Hw & L)|H].
  - pose proof (list_max_le (map (@List.length str) rows) n) as (Q & _). rewrite E in Q. specialize (Q (le_n _)). rewrite Forall_map, Forall_forall in Q. specialize (Q w Hw). lia.
  - destruct (Nat.eq_dec n 0) as [->|N]; [specialize (H w0 (or_introl eq_refl)); lia|]. pose proof (max_is _ _ E N) as I. apply in_map_iff in I as (w & Ew & Hw). specialize (H w Hw). lia.
Qed.
Lemma frame_padded ws n w0 : In w0 ws -> List.length w0 = n -> (forall w, In w ws -> List.length w <= n) ->
  data_frame ws n = Ok (map (fun w => map Some w ++ repeat None (n - List.length w)) ws).
Proof.
  intros Hw E H. unfold data_frame. destruct ws as [|x ws]; [destruct Hw|]. set (rows := x :: ws) in *.
  destruct (Nat.eqb_spec (list_max (map (@List.length str) rows)) n) as [Q|Q]; [reflexivity|]. exfalso. apply Q. apply Nat.le_antisymm.
  - apply list_max_le. rewrite Forall_map, Forall_forall. exact H.
  - pose proof (list_max_le (map (@List.length str) rows) (list_max (map (@List.length str) rows))) as (F & _). specialize (F (le_n _)). rewrite Forall_map, Forall_forall in F. specialize (F w0 Hw). lia.
Qed.
Lemma Forall2_ne {A B} (P : A -> B -> Prop) rows ws : Forall2 P rows ws -> rows <> [] -> ws <> [].
Proof. intros H N. destruct H; [contradiction|discriminate]. Qed.
Lemma table101_misfit pre h0 h1 h2 h3 h4 h5 rows ws l m e post : Forall2 (fun l w => words l w /\ w <> []) rows ws -> rows <> [] -> misfit 9 ws -> blank l ->
  none_of (prefix_of (lit " *******")) ([h0; h1; h2; h3; h4; h5] ++ rows ++ l :: m) -> prefix_of (lit " *******") e ->
  read_table101 (pre ++ ([h0; h1; h2; h3; h4; h5] ++ rows ++ l :: m) ++ e :: post) (Z.of_nat (List.length pre)) = Err ValueError.
Proof. intros Hr Hne HM Hl Hn He. rewrite (table101_frame pre h0 h1 h2 h3 h4 h5 rows ws l m e post Hr Hl Hn He). apply frame_misfit; [exact (Forall2_ne _ _ _ Hr Hne)|exact HM]. Qed.
Lemma table101_padded pre h0 h1 h2 h3 h4 h5 rows ws w0 l m e post : Forall2 (fun l w => words l w /\ w <> []) rows ws -> In w0 ws -> List.length w0 = 9 ->
  (forall w, In w ws -> List.length w <= 9) -> blank l ->
  none_of (prefix_of (lit " *******")) ([h0; h1; h2; h3; h4; h5] ++ rows ++ l :: m) -> prefix_of (lit " *******") e ->
  read_table101 (pre ++ ([h0; h1; h2; h3; h4; h5] ++ rows ++ l :: m) ++ e :: post) (Z.of_nat (List.length pre)) =
  Ok (map (fun w => map Some w ++ repeat None (9 - List.length w)) ws).
Proof. intros Hr H0 E0 HL Hl Hn He. rewrite (table101_frame pre h0 h1 h2 h3 h4 h5 rows ws l m e post Hr Hl Hn He). now apply (frame_padded ws 9 w0). Qed.
Lemma table60_misfit pre t0 t1 h1 h2 t4 rows f1 f2 f3 e post a0 a1 m al b0 b1 b2 b3 mid bl ws :
  none_of (prefix_of (lit "    minimum source weight")) (pre ++ t0 :: t1 :: h1 :: h2 :: t4 :: rows ++ [f1; f2; f3]) -> prefix_of (lit "    minimum source weight") e ->
  words h1 (a0 :: a1 :: m ++ [al]) -> words h2 (b0 :: b1 :: b2 :: b3 :: mid ++ [bl]) -> rows <> [] ->
  Forall2 (fun l w => exists x, words l (x :: w)) rows ws -> misfit (5 + List.length mid) ws ->
  read_table60 (pre ++ (t0 :: t1 :: h1 :: h2 :: t4 :: rows ++ [f1; f2; f3]) ++ e :: post) (Z.of_nat (List.length pre)) = Err ValueError.
Proof.
  intros Hn He H1 H2 Hne Hr HM. rewrite (table60_frame pre t0 t1 h1 h2 t4 rows f1 f2 f3 e post a0 a1 m al b0 b1 b2 b3 mid bl ws Hn He H1 H2 Hr), frame_misfit; [reflexivity|exact (Forall2_ne _ _ _ Hr Hne)|exact HM].
Qed.

(** * Energy and time bins *)
Lemma mapM_float_err ws e : mapM py_float ws = Err e -> e = ValueError.
Proof. intros H. apply mapM_Err_iff in H as (a & t & b & _ & Ht & _). exact (py_float_err _ _ Ht). Qed.
Lemma matrix_err rows e : np_matrix rows = Err e -> e = ValueError.
Proof. destruct rows as [|r rs]; cbn; [discriminate|]. destruct (forallb _ rs); congruence. Qed.
Lemma hstack_err ms e : np_hstack ms = Err e -> e = ValueError.
Proof. destruct ms as [|m rest]; cbn; [congruence|]. destruct (forallb _ rest); congruence. Qed.
Lemma step_err st l e : et_step st l = Err e -> e = ValueError.
Proof.
  unfold et_step. destruct (starts_with (lit "time:") (strip l)).
  - destruct (mapM py_float _) eqn:E; cbn [bind]; [discriminate|]. intros H. injection H as <-. exact (mapM_float_err _ _ E).
  - destruct (et_reading st); [|discriminate]. destruct (_ || _).
    + destruct (M_mcout.et_block st) as [|r rs]; [discriminate|]. destruct (np_matrix (r :: rs)) eqn:E; cbn [bind].
      * destruct (np_matrix (et_ublock st)) eqn:E'; cbn [bind]; [discriminate|]. intros H. injection H as <-. exact (matrix_err _ _ E').
      * intros H. injection H as <-. exact (matrix_err _ _ E).
    + destruct (starts_with _ _); [discriminate|]. destruct (find_numbers _) as [|p0 ps]; [discriminate|].
      destruct (py_float p0) eqn:E; cbn [bind].
      * destruct (mapM py_float ps) eqn:E'; cbn [bind]; [discriminate|]. intros H. injection H as <-. exact (mapM_float_err _ _ E').
      * intros H. injection H as <-. exact (py_float_err _ _ E).
Qed.
Lemma steps_err ls st e : foldM et_step ls st = Err e -> e = ValueError.
Proof.
  revert st. induction ls as [|l ls IH]; intros st; cbn [foldM]; [discriminate|]. destruct (et_step st l) eqn:E; cbn [bind]; [apply IH|].
  intros H. injection H as <-. exact (step_err _ _ _ E).
Qed.
Lemma userbin_err lines e : process_e_t_userbin lines = Err e -> e = ValueError.
Proof.
  unfold process_e_t_userbin. destruct (foldM _ _ _) as [st|x] eqn:E; cbn [bind]; [|intros H; injection H as <-; exact (steps_err _ _ _ E)].
  destruct (np_hstack (et_values st)) eqn:E1; cbn [bind]; [|intros H; injection H as <-; exact (hstack_err _ _ E1)].
  destruct (np_hstack (et_uncerts st)) eqn:E2; cbn [bind]; [discriminate|intros H; injection H as <-; exact (hstack_err _ _ E2)].
Qed.
(** Rows of different lengths within a part. *)
Lemma matrix_uneven rows r r' : In r rows -> In r' rows -> List.length r <> List.length r' -> np_matrix rows = Err ValueError.
Proof.
  destruct rows as [|x xs]; [intros []|]. intros H H' N. cbn [np_matrix]. destruct (forallb _ xs) eqn:E; [exfalso|reflexivity].
  rewrite forallb_forall in E. assert (Q : forall y, In y (x :: xs) -> List.length y = List.length x).
  { intros y [<-|Hy]; [reflexivity|]. now apply Nat.eqb_eq, E. }
  apply N. now rewrite (Q r H), (Q r' H').
Qed.
Lemma uneven_rows gap tl el rows fin rest ts tot es m ps ps' : none_of (heads (lit "time:")) gap -> time_line tl ts tot -> heads (lit "energy") el -> energy_rows rows es m ->
  In ps m -> In ps' m -> List.length ps <> List.length ps' -> blank fin \/ heads (lit "total") fin ->
  process_e_t_userbin (gap ++ tl :: el :: rows ++ fin :: rest) = Err ValueError.
Proof.
  intros Hg Ht He Hr H1 H2 HN Hf. unfold process_e_t_userbin, et_start. rewrite foldM_app, gap_steps by exact Hg. cbn [bind foldM].
  rewrite (time_line_step _ _ _ _ Ht). cbn [bind et_times et_energies et_values et_uncerts M_mcout.et_block et_ublock].
  rewrite energy_head_step by (assumption || reflexivity). cbn [bind]. rewrite foldM_app, (energy_rows_steps _ _ _ Hr) by reflexivity.
  cbn [bind foldM et_times et_energies et_values et_uncerts M_mcout.et_block et_ublock app]. unfold et_step at 1.
  assert (E1 : starts_with (lit "time:") (strip fin) = false /\ (starts_with (lit "total") (strip fin) || str_eqb (strip fin) []) = true).
  { destruct Hf as [H|H].
    - now rewrite (strip_blank _ H).
    - apply heads_spec in H. split; [|now rewrite H]. apply starts_with_spec in H. destruct H as (t & ->). reflexivity. }
  destruct E1 as (-> & ->). cbn [et_reading M_mcout.et_block et_ublock].
  rewrite (matrix_uneven (map (map fst) m) (map fst ps) (map fst ps')); [|now apply in_map|now apply in_map|now rewrite !map_length].
  destruct (map (map fst) m) eqn:E; [|reflexivity]. destruct m; [destruct H1|discriminate].
Qed.
(** Parts with different numbers of rows. *)
Lemma step_values st l st' : et_step st l = Ok st' -> exists more, et_values st' = et_values st ++ more.
Proof.
  unfold et_step. destruct (starts_with (lit "time:") (strip l)).
  - destruct (mapM py_float _); cbn [bind]; [|discriminate]. intros H. injection H as <-. exists []. now rewrite app_nil_r.
  - destruct (et_reading st); [|intros H; injection H as <-; exists []; now rewrite app_nil_r]. destruct (_ || _).
    + destruct (M_mcout.et_block st) as [|r rs]; [intros H; injection H as <-; exists []; now rewrite app_nil_r|].
      destruct (np_matrix (r :: rs)) as [v|]; cbn [bind]; [|discriminate]. destruct (np_matrix (et_ublock st)); cbn [bind]; [|discriminate]. intros H. injection H as <-. now exists [v].
    + destruct (starts_with _ _); [intros H; injection H as <-; exists []; now rewrite app_nil_r|]. destruct (find_numbers _) as [|p0 ps]; [intros H; injection H as <-; exists []; now rewrite app_nil_r|].
      destruct (py_float p0); cbn [bind]; [|discriminate]. destruct (mapM py_float ps); cbn [bind]; [|discriminate]. intros H. injection H as <-. exists []. now rewrite app_nil_r.
Qed.
Lemma steps_values ls st st' : foldM et_step ls st = Ok st' -> exists more, et_values st' = et_values st ++ more.
Proof.
  revert st. induction ls as [|l ls IH]; intros st; cbn [foldM]; [intros H; injection H as <-; exists []; now rewrite app_nil_r|].
  destruct (et_step st l) as [st1|] eqn:E; cbn [bind]; [|discriminate]. intros H. apply IH in H as (m & ->). apply step_values in E as (m' & ->). exists (m' ++ m). now rewrite app_assoc.
Qed.
Lemma uneven_parts gap1 blk1 gap2 blk2 rest ts1 es1 m1 ts2 es2 m2 : none_of (heads (lit "time:")) gap1 -> et_block blk1 ts1 es1 m1 -> none_of (heads (lit "time:")) gap2 -> et_block blk2 ts2 es2 m2 ->
  List.length es1 <> List.length es2 -> process_e_t_userbin (gap1 ++ blk1 ++ gap2 ++ blk2 ++ rest) = Err ValueError.
Proof.
  intros G1 B1 G2 B2 HN. unfold process_e_t_userbin, et_start. rewrite !foldM_app, gap_steps by exact G1. cbn [bind]. rewrite foldM_app, (et_block_steps _ _ _ _ _ _ _ _ B1). cbn [bind app].
  rewrite foldM_app, gap_steps by exact G2. cbn [bind]. rewrite foldM_app, (et_block_steps _ _ _ _ _ _ _ _ B2). cbn [bind app].
  assert (L : List.length m1 <> List.length m2).
  { destruct B1 as [? ? ? ? ? ? ? ? _ _ R1 _ _ _]. destruct B2 as [? ? ? ? ? ? ? ? _ _ R2 _ _ _]. apply energy_rows_length in R1, R2. congruence. }
  match goal with |- context [foldM et_step rest ?S] => destruct (foldM et_step rest S) as [st|x] eqn:E end; cbn [bind]; [|now apply steps_err in E as ->].
  apply steps_values in E as (more & E). cbn [et_values app] in E. rewrite E. cbn [np_hstack forallb]. rewrite !map_length.
  destruct (Nat.eqb_spec (List.length m2) (List.length m1)) as [Q|Q]; [congruence|]. reflexivity.
Qed.
