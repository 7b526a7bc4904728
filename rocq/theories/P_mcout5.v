(** Proofs about the MCNP output reader: cell tallies, angle bins, bin lists. *)
From Coq Require Import Lia ZArith Permutation.
From Verif Require Import PyBase PyFloat PyFs SpecStr PyFacts M_util SpecUtil P_util FloatFacts SpecInput TextFacts SpecOutput P_output P_output3 M_mcout SpecMcout P_mcout P_mcout2 P_mcout3 P_mcout4.

(** * Cells and volumes *)
Lemma join_cell_words k cs : Forall word (k :: cs) -> (exists a, k = a ++ lit "cell:" /\ ~ In (chr 58) a) -> (forall c, In c cs -> ~ In (chr 58) c) ->
  exists r, py_nth (split_on c_col (join [c_space] (k :: cs))) 1%Z = Ok r /\ slice_from 1 (split_on c_space r) = cs.
Proof.
  intros HF (a & Ek & Ha) Hcs.
  assert (Hl1 : lacks c_col (a ++ lit "cell")).
  { apply lacks_In. intros Hi. apply in_app_or in Hi. destruct Hi as [Hi|Hi]; [now apply Ha|]. cbn in Hi. repeat (destruct Hi as [Hi|Hi]; [discriminate|]). destruct Hi. }
  destruct cs as [|c cs].
  - exists []. cbn [join]. rewrite Ek. change (lit "cell:") with (lit "cell" ++ [c_col]). rewrite app_assoc.
    rewrite (split_on_app c_col _ []) by exact Hl1. split; reflexivity.
  - exists (c_space :: join [c_space] (c :: cs)). rewrite join_cons, Ek. change (lit "cell:") with (lit "cell" ++ [c_col]).
    replace ((a ++ lit "cell" ++ [c_col]) ++ [c_space] ++ join [c_space] (c :: cs)) with ((a ++ lit "cell") ++ c_col :: (c_space :: join [c_space] (c :: cs))) by (now rewrite <- !app_assoc).
    rewrite (split_on_app c_col _ _) by exact Hl1. split.
    + rewrite (split_on_lacks c_col); [reflexivity|]. apply lacks_In. intros [E|Hi]; [discriminate|]. revert Hi Hcs. clear. revert c.
      induction cs as [|d cs IH]; intros c Hi Hcs; [apply (Hcs c); [now left|exact Hi]|].
      rewrite join_cons in Hi. apply in_app_or in Hi. destruct Hi as [Hi|Hi]; [apply (Hcs c); [now left|exact Hi]|].
      apply in_app_or in Hi. destruct Hi as [[Hi|[]]|Hi]; [discriminate|]. apply (IH d Hi). intros x Hx. apply Hcs. now right.
    + change (c_space :: join [c_space] (c :: cs)) with ([] ++ c_space :: join [c_space] (c :: cs)). rewrite (split_on_app c_space []) by (apply lacks_In; intros []).
      rewrite slice_from_1. apply split_on_words; [discriminate|]. now apply Forall_inv_tail in HF.
Qed.
(** Number of lines of the cell data, the line with the single space included. *)
Lemma cell_data_spec ls cells vols : cell_rows ls cells vols -> exists m rest, ls = m ++ [chr 32] :: rest /\ none_of (eq [chr 32]) m /\ forall C V n,
  cell_data_loop ls C V n = Ok (C ++ cells, V ++ vols, n + S (List.length m)).
Proof.
  induction 1 as [rest|l k cs ls cells vols Hne Hw Hk Hcs H IH|l vs ls cells vols Hne Hno Hw Hv H IH].
  - exists [], rest. split; [reflexivity|]. split; [intros y []|]. intros C V n. cbn [cell_data_loop]. change (str_eqb [chr 32] [c_space]) with true. cbv iota. rewrite !app_nil_r. apply (f_equal (fun k => Ok (_, _, k))). cbn [List.length]. lia.
  - destruct IH as (m & rest & -> & Hm & IH). exists (l :: m), rest. split; [reflexivity|]. split; [intros y [<-|Hy]; [congruence|now apply Hm]|]. intros C V n. cbn [cell_data_loop].
    assert (E1 : str_eqb l [c_space] = false) by (apply str_eqb_neq; exact Hne). rewrite E1.
    assert (E2 : contains (lit "cell:") l = true).
    { apply contains_spec. apply (occurs_in_words _ _ _ k Hw); [now left|]. destruct Hk as (a & -> & _). exists a, []. now rewrite app_nil_r. }
    rewrite E2. pose proof (words_Forall _ _ Hw) as HF. apply words_split in Hw. rewrite Hw.
    destruct (join_cell_words k cs HF Hk Hcs) as (r & Er & Es). rewrite Er. cbn [bind]. rewrite Es, IH. rewrite app_assoc. apply (f_equal (fun k => Ok (_, _, k))). cbn [List.length]. lia.
  - destruct IH as (m & rest & -> & Hm & IH). exists (l :: m), rest. split; [reflexivity|]. split; [intros y [<-|Hy]; [congruence|now apply Hm]|]. intros C V n. cbn [cell_data_loop].
    assert (E1 : str_eqb l [c_space] = false) by (apply str_eqb_neq; exact Hne). rewrite E1, (proj2 (contains_false _ _) Hno).
    pose proof (words_Forall _ _ Hw) as HF. apply words_split in Hw. rewrite Hw, split_on_words by assumption. rewrite IH, app_assoc. apply (f_equal (fun k => Ok (_, _, k))). cbn [List.length]. lia.
Qed.
Lemma split_unique {A} (x : A) m r m' r' : ~ In x m -> ~ In x m' -> m ++ x :: r = m' ++ x :: r' -> m = m' /\ r = r'.
Proof.
  revert m'. induction m as [|y m IH]; intros [|y' m'] H1 H2 E; cbn in *.
  - now injection E as ->.
  - injection E as -> _. tauto.
  - injection E as -> _. tauto.
  - injection E as -> E. destruct (IH m') as (-> & ->); [tauto|tauto|exact E|auto].
Qed.
Lemma skipn_exact {A} (a b : list A) : skipn (List.length a) (a ++ b) = b.
Proof. now rewrite skipn_app, skipn_all, Nat.sub_diag. Qed.
Lemma none_eq_In {A} (x : A) (m : list A) : (forall y, In y m -> ~ x = y) -> ~ In x m.
Proof. intros H Hi. now apply (H x Hi). Qed.
Lemma get_cell_data_spec pre h m rest cells vols : cell_rows (m ++ [chr 32] :: rest) cells vols -> none_of (eq [chr 32]) m ->
  get_cell_data (pre ++ h :: m ++ [chr 32] :: rest) (List.length pre) = Ok (cells, vols, List.length (pre ++ h :: m)).
Proof.
  intros H Hm. destruct (cell_data_spec _ _ _ H) as (m' & rest' & E & Hm' & Hl). unfold get_cell_data.
  replace (Z.of_nat (List.length pre) + 1)%Z with (Z.of_nat (List.length (pre ++ [h]))) by (rewrite app_length; cbn [List.length]; lia).
  rewrite slice_from_nat. replace (pre ++ h :: m ++ [chr 32] :: rest) with ((pre ++ [h]) ++ m ++ [chr 32] :: rest) by (now rewrite <- app_assoc).
  rewrite skipn_app, skipn_all, Nat.sub_diag. cbn [skipn app]. rewrite Hl. cbn [bind app].
  destruct (split_unique _ _ _ _ _ (none_eq_In _ _ Hm) (none_eq_In _ _ Hm') E) as (-> & _).
  rewrite app_length. reflexivity.
Qed.

(** * Values per cell *)
Lemma find_ind_first lines sub i : first_index (occurs sub) lines i -> find_ind lines sub = Ok i.
Proof. apply find_ind_Ok. Qed.
Lemma nth_S lines i : py_nth lines (Z.of_nat i + 1) = @py_nth str lines (Z.of_nat (S i)).
Proof. f_equal. lia. Qed.
Lemma not_in_existsb (l : list str) x : ~ In x l -> existsb (str_eqb x) l = false.
Proof. intros H. destruct (existsb (str_eqb x) l) eqn:E; [|reflexivity]. apply existsb_str_In in E. contradiction. Qed.
Lemma cell_value_step st c r : cell_value (cs_lines st) c r ->
  cell_loop_step false st c = Ok (CS (cs_lines st) (cs_result st ++ [EFloat (fst r)]) (cs_err st ++ [EFloat (snd r)]) (cs_eng st) (cs_times st)).
Proof.
  intros (i & l & x & u & ws & Hi & Hl & Hw & Ht & Hn & R1 & R2). unfold cell_loop_step.
  change (c_space :: c ++ [c_space]) with (chr 32 :: c ++ [chr 32]). rewrite (find_ind_first _ _ _ Hi). cbn [bind]. rewrite nth_S, py_nth_nat, Hl. cbn [bind].
  rewrite (proj2 (contains_false _ _) Ht). pose proof (words_Forall _ _ Hw) as HF. apply words_split in Hw. rewrite Hw, split_on_words by (discriminate || assumption).
  change (py_nth (x :: u :: ws) 0%Z) with (Ok x). cbn [bind]. rewrite not_in_existsb by exact Hn.
  assert (Ex : str_eqb x [] = false) by (apply str_eqb_neq; apply Forall_inv in HF; apply HF). rewrite Ex. cbn [orb].
  unfold reads in R1, R2. rewrite R1. cbn [bind]. change (py_nth (x :: u :: ws) 1%Z) with (Ok u). cbn [bind]. rewrite R2. reflexivity.
Qed.
Lemma cell_values_steps cells rs L R E eng tm : Forall2 (cell_value L) cells rs ->
  foldM (cell_loop_step false) cells (CS L R E eng tm) =
  Ok (CS L (R ++ map (fun r => EFloat (fst r)) rs) (E ++ map (fun r => EFloat (snd r)) rs) eng tm).
Proof.
  intros H. revert R E. induction H as [|c r cells rs Hc H IH]; intros R E; [cbn [foldM map]; now rewrite !app_nil_r|].
  cbn [foldM]. rewrite (cell_value_step (CS L R E eng tm) c r Hc). cbn [bind cs_lines cs_result cs_err cs_eng cs_times]. rewrite IH. cbn [map]. now rewrite <- !app_assoc.
Qed.
Lemma type_cell_head ty pre h m rest cells vols : ty = chr 52 \/ ty = chr 54 -> none_of (prefix_of (amounts_text ty)) pre -> prefix_of (amounts_text ty) h ->
  cell_rows (m ++ [chr 32] :: rest) cells vols -> none_of (eq [chr 32]) m ->
  read_type_cell ty (pre ++ h :: m ++ [chr 32] :: rest) =
    let lines := [chr 32] :: rest in
    do c0 <- py_nth cells 0%Z;
    do start <- find_ind lines (c_space :: c0 ++ [c_space]);
    do next <- py_nth lines (Z.of_nat start + 1);
    if contains (lit "energy") next then
      do r <- read_energy_bin_only_cell_tally lines;
      let '(result, totals) := r in
      do eng <- first_energies result;
      do st <- foldM (cell_loop_step true) cells (CS lines [] [] (Some eng) None);
      Ok (TBody (TTable result) (TList (cs_err st)) (cs_eng st) (cs_times st) None (Some totals) None None None (Some cells) (Some vols) None)
    else
      do st <- foldM (cell_loop_step false) cells (CS lines [] [] None None);
      Ok (TBody (TList (cs_result st)) (TList (cs_err st)) (cs_eng st) (cs_times st) None None None None None (Some cells) (Some vols) None).
Proof.
  intros Hty Hp Hh Hc Hm. unfold read_type_cell.
  assert (El : (if Ascii.eqb ty (chr 52) then find_line (lit "           volumes ") (pre ++ h :: m ++ [chr 32] :: rest) 19
                 else if Ascii.eqb ty (chr 54) then find_line (lit "           masses ") (pre ++ h :: m ++ [chr 32] :: rest) 18
                 else Err UnboundLocalError) = Ok (List.length pre)).
  { destruct Hty as [-> | ->].
    - change (Ascii.eqb (chr 52) (chr 52)) with true. cbv iota. now apply find_line_app.
    - change (Ascii.eqb (chr 54) (chr 52)) with false. change (Ascii.eqb (chr 54) (chr 54)) with true. cbv iota. now apply find_line_app. }
  rewrite El. cbn [bind]. pose proof (get_cell_data_spec pre h m rest cells vols Hc Hm) as Eg. change (list ascii) with str in *. rewrite Eg. cbn [bind].
  assert (Esl : slice_from (Z.of_nat (List.length (pre ++ h :: m))) (pre ++ h :: m ++ [chr 32] :: rest) = [chr 32] :: rest).
  { rewrite slice_from_nat. replace (pre ++ h :: m ++ [chr 32] :: rest) with ((pre ++ h :: m) ++ [chr 32] :: rest) by (now rewrite <- app_assoc). apply skipn_exact. }
  change (list ascii) with str in *. rewrite Esl. reflexivity.
Qed.
Lemma type_cell_values ty pre h m rest c cells vols r rs : ty = chr 52 \/ ty = chr 54 -> none_of (prefix_of (amounts_text ty)) pre -> prefix_of (amounts_text ty) h ->
  cell_rows (m ++ [chr 32] :: rest) (c :: cells) vols -> none_of (eq [chr 32]) m ->
  Forall2 (cell_value ([chr 32] :: rest)) (c :: cells) (r :: rs) ->
  (forall i l, first_index (names_cell c) ([chr 32] :: rest) i -> nth_error ([chr 32] :: rest) (S i) = Some l -> ~ occurs (lit "energy") l) ->
  exists b, read_type_cell ty (pre ++ h :: m ++ [chr 32] :: rest) = Ok b /\ b_cells b = Some (c :: cells) /\ b_vols b = Some vols /\
    b_result b = TList (map (fun r => EFloat (fst r)) (r :: rs)) /\ b_err b = TList (map (fun r => EFloat (snd r)) (r :: rs)).
Proof.
  intros Hty Hp Hh Hc Hm Hv He. rewrite (type_cell_head ty pre h m rest _ _ Hty Hp Hh Hc Hm). cbv zeta.
  change (py_nth (c :: cells) 0%Z) with (Ok c). cbn [bind].
  assert (Hv0 : cell_value ([chr 32] :: rest) c r) by now inversion Hv.
  destruct Hv0 as (i & l & x & u & ws & Hi & Hl & _).
  change (c_space :: c ++ [c_space]) with (chr 32 :: c ++ [chr 32]). rewrite (find_ind_first _ _ _ Hi). cbn [bind]. rewrite nth_S, py_nth_nat, Hl. cbn [bind].
  rewrite (proj2 (contains_false _ _) (He i l Hi Hl)). rewrite (cell_values_steps _ _ _ _ _ _ _ Hv). cbn [bind app]. eexists. split; [reflexivity|]. repeat split.
Qed.

(** * Energy and time bins per cell *)
Lemma cell_et_step st c i x1 x2 e B es parts post : first_index (names_cell c) (cs_lines st) i ->
  skipn (S i) (cs_lines st) = x1 :: x2 :: B ++ e :: post -> occurs (lit "time") x1 -> occurs (lit "energy") x2 ->
  first_index (prefix_of (lit " ===")) (cs_lines st) (S i + S (S (List.length B))) ->
  et_listing es (x1 :: x2 :: B) parts -> parts <> [] ->
  exists V U eb tb, cell_loop_step false st c = Ok (CS (cs_lines st) (cs_result st ++ [EMat V]) (cs_err st ++ [EMat U]) eb tb) /\
    matrix_of fst parts (List.length es) V /\ matrix_of snd parts (List.length es) U.
Proof.
  intros Hi Hs Ht He Hf Hl Hne. destruct (userbin_spec _ _ _ Hl Hne) as (V & U & E & HV & HU).
  exists V, U. unfold cell_loop_step. change (c_space :: c ++ [c_space]) with (chr 32 :: c ++ [chr 32]). rewrite (find_ind_first _ _ _ Hi). cbn [bind].
  assert (Hn : forall k, nth_error (cs_lines st) (S i + k) = nth_error (x1 :: x2 :: B ++ e :: post) k).
  { intros k. rewrite <- Hs. rewrite <- (firstn_skipn (S i) (cs_lines st)) at 1. 
    assert (Hlen : S i <= List.length (cs_lines st)).
    { destruct (Nat.le_gt_cases (S i) (List.length (cs_lines st))) as [L|L]; [exact L|]. rewrite skipn_all2 in Hs by lia. discriminate. }
    rewrite nth_error_app2 by (rewrite firstn_length; lia). f_equal. rewrite firstn_length. lia. }
  pose proof (Hn 0) as Hn0. rewrite Nat.add_0_r in Hn0. rewrite nth_S, py_nth_nat, Hn0. cbn [nth_error bind]. rewrite (proj2 (contains_spec _ _) Ht).
  rewrite (proj2 (find_line_pre_Ok (lit " ===") (cs_lines st) 4 _ eq_refl) Hf). cbn [bind].
  replace (Z.of_nat i + 2)%Z with (Z.of_nat (S i + 1)) by lia. rewrite py_nth_nat, (Hn 1). cbn [nth_error bind]. rewrite (proj2 (contains_spec _ _) He).
  replace (Z.of_nat i + 1)%Z with (Z.of_nat (S i)) by lia. rewrite slice_btw_nat.
  assert (Ecut : skipn (S i) (firstn (S i + S (S (List.length B))) (cs_lines st)) = x1 :: x2 :: B).
  { rewrite <- firstn_skipn_comm, Hs. cbn [firstn]. do 2 f_equal. rewrite firstn_app, Nat.sub_diag, firstn_O, app_nil_r. apply firstn_all. }
  rewrite Ecut, E. cbn [bind]. do 2 eexists. split; [reflexivity|]. split; assumption.
Qed.
Lemma listing_app es a pa : et_listing es a pa -> forall b pb, et_listing es b pb -> et_listing es (a ++ b) (pa ++ pb).
Proof.
  induction 1 as [gap Hg|gap blk ts m ls parts Hg Hb H IH]; intros b pb Hpb.
  - inversion Hpb as [gap' Hg' E1 E2|gap' blk ts m ls parts Hg' Hb H' E1 E2]; subst.
    + apply etl_end. intros l Hl. apply in_app_or in Hl. destruct Hl; [now apply Hg|now apply Hg'].
    + cbn [app]. rewrite app_assoc. apply etl_part; try assumption. intros l Hl. apply in_app_or in Hl. destruct Hl; [now apply Hg|now apply Hg'].
  - rewrite <- !app_assoc. cbn [app]. apply etl_part; [exact Hg|exact Hb|]. now apply IH.
Qed.
Lemma first_app_skip {A} (P : A -> Prop) a x b : (forall y, In y a -> ~ P y) -> P x -> first_index P (a ++ x :: b) (List.length a).
Proof.
  intros Ha Hx. split; [exists x; split; [rewrite nth_error_app2, Nat.sub_diag by lia; reflexivity|exact Hx]|].
  intros j y Hj Hy. apply Ha. rewrite nth_error_app1 in Hy by exact Hj. now apply nth_error_In in Hy.
Qed.
(** Two cells: the matrix of the first one also has the columns of the second one. *)
Lemma type_cell_two ty pre h m a h1 x1 x2 B1 h2 y1 y2 B2 e post c1 c2 vols es p1 p2 :
  ty = chr 52 \/ ty = chr 54 -> none_of (prefix_of (amounts_text ty)) pre -> prefix_of (amounts_text ty) h ->
  cell_rows (m ++ [chr 32] :: a ++ h1 :: (x1 :: x2 :: B1) ++ h2 :: (y1 :: y2 :: B2) ++ e :: post) [c1; c2] vols -> none_of (eq [chr 32]) m ->
  none_of (names_cell c1) ([chr 32] :: a) -> names_cell c1 h1 ->
  none_of (names_cell c2) ([chr 32] :: a ++ h1 :: x1 :: x2 :: B1) -> names_cell c2 h2 ->
  occurs (lit "time") x1 -> occurs (lit "energy") x2 -> ~ occurs (lit "energy") x1 -> occurs (lit "time") y1 -> occurs (lit "energy") y2 ->
  none_of (prefix_of (lit " ===")) ([chr 32] :: a ++ h1 :: (x1 :: x2 :: B1) ++ h2 :: (y1 :: y2 :: B2)) -> prefix_of (lit " ===") e ->
  ~ heads (lit "time:") h2 -> et_listing es (x1 :: x2 :: B1) p1 -> et_listing es (y1 :: y2 :: B2) p2 -> p1 <> [] -> p2 <> [] ->
  exists b V1 V2 U1 U2, read_type_cell ty (pre ++ h :: m ++ [chr 32] :: a ++ h1 :: (x1 :: x2 :: B1) ++ h2 :: (y1 :: y2 :: B2) ++ e :: post) = Ok b /\
    b_cells b = Some [c1; c2] /\ b_result b = TList [EMat V1; EMat V2] /\ b_err b = TList [EMat U1; EMat U2] /\
    matrix_of fst (p1 ++ p2) (List.length es) V1 /\ matrix_of snd (p1 ++ p2) (List.length es) U1 /\
    matrix_of fst p2 (List.length es) V2 /\ matrix_of snd p2 (List.length es) U2.
Proof.
  intros Hty Hp Hh Hc Hm Hn1 Hh1 Hn2 Hh2 Hx1 Hx2 Hxe Hy1 Hy2 Heq He Hht L1 L2 Hp1 Hp2.
  rewrite (type_cell_head ty pre h m _ _ _ Hty Hp Hh Hc Hm).
  set (L := [chr 32] :: a ++ h1 :: (x1 :: x2 :: B1) ++ h2 :: (y1 :: y2 :: B2) ++ e :: post). cbv zeta. change (py_nth [c1; c2] 0%Z) with (Ok c1). cbn [bind].
  assert (F1 : first_index (names_cell c1) L (List.length ([chr 32] :: a))).
  { apply (first_app_skip (names_cell c1) ([chr 32] :: a) h1); assumption. }
  assert (F2 : first_index (names_cell c2) L (List.length ([chr 32] :: a ++ h1 :: x1 :: x2 :: B1))).
  { unfold L. replace ([chr 32] :: a ++ h1 :: (x1 :: x2 :: B1) ++ h2 :: (y1 :: y2 :: B2) ++ e :: post) with (([chr 32] :: a ++ h1 :: x1 :: x2 :: B1) ++ h2 :: (y1 :: y2 :: B2) ++ e :: post) by (cbn [app]; now rewrite <- app_assoc).
    now apply first_app_skip. }
  assert (FE : first_index (prefix_of (lit " ===")) L (List.length ([chr 32] :: a ++ h1 :: (x1 :: x2 :: B1) ++ h2 :: (y1 :: y2 :: B2)))).
  { unfold L. replace ([chr 32] :: a ++ h1 :: (x1 :: x2 :: B1) ++ h2 :: (y1 :: y2 :: B2) ++ e :: post) with (([chr 32] :: a ++ h1 :: (x1 :: x2 :: B1) ++ h2 :: (y1 :: y2 :: B2)) ++ e :: post) by (cbn [app]; now rewrite <- app_assoc; cbn [app]; rewrite <- app_assoc).
    now apply first_app_skip. }
  change (c_space :: c1 ++ [c_space]) with (chr 32 :: c1 ++ [chr 32]). rewrite (find_ind_first _ _ _ F1). cbn [bind].
  assert (Sk1 : skipn (S (List.length ([chr 32] :: a))) L = x1 :: x2 :: (B1 ++ h2 :: (y1 :: y2 :: B2)) ++ e :: post).
  { unfold L. replace ([chr 32] :: a ++ h1 :: (x1 :: x2 :: B1) ++ h2 :: (y1 :: y2 :: B2) ++ e :: post) with (([chr 32] :: a ++ [h1]) ++ (x1 :: x2 :: B1) ++ h2 :: (y1 :: y2 :: B2) ++ e :: post) by (cbn [app]; now rewrite <- app_assoc).
    replace (S (List.length ([chr 32] :: a))) with (List.length ([chr 32] :: a ++ [h1])) by (cbn [List.length]; rewrite app_length; cbn [List.length]; lia).
    rewrite skipn_app, skipn_all, Nat.sub_diag. cbn [skipn app]. now rewrite <- app_assoc. }
  assert (Sk2 : skipn (S (List.length ([chr 32] :: a ++ h1 :: x1 :: x2 :: B1))) L = y1 :: y2 :: B2 ++ e :: post).
  { unfold L. replace ([chr 32] :: a ++ h1 :: (x1 :: x2 :: B1) ++ h2 :: (y1 :: y2 :: B2) ++ e :: post) with (([chr 32] :: a ++ h1 :: x1 :: x2 :: B1 ++ [h2]) ++ (y1 :: y2 :: B2) ++ e :: post) by (cbn [app]; rewrite <- app_assoc; cbn [app]; now rewrite <- app_assoc).
    replace (S (List.length ([chr 32] :: a ++ h1 :: x1 :: x2 :: B1))) with (List.length ([chr 32] :: a ++ h1 :: x1 :: x2 :: B1 ++ [h2])) by (cbn [List.length]; rewrite !app_length; cbn [List.length]; rewrite app_length; cbn [List.length]; lia).
    rewrite skipn_app, skipn_all, Nat.sub_diag. reflexivity. }
  assert (Enext : py_nth L (Z.of_nat (List.length ([chr 32] :: a)) + 1) = Ok x1).
  { rewrite nth_S, py_nth_nat. rewrite <- (firstn_skipn (S (List.length ([chr 32] :: a))) L), Sk1.
    assert (Hl : List.length (firstn (S (List.length ([chr 32] :: a))) L) = S (List.length ([chr 32] :: a))).
    { apply firstn_length_le. unfold L. cbn [List.length]. rewrite !app_length. cbn [List.length]. lia. }
    rewrite nth_error_app2 by lia. rewrite Hl, Nat.sub_diag. reflexivity. }
  rewrite Enext. cbn [bind]. rewrite (proj2 (contains_false _ _) Hxe).
  assert (L12 : et_listing es (x1 :: x2 :: B1 ++ h2 :: (y1 :: y2 :: B2)) (p1 ++ p2)).
  { apply (listing_app es (x1 :: x2 :: B1) p1 L1). inversion L2 as [gap Hg E1 E2|gap blk ts mm ls parts Hg Hb H' E1 E2]; subst; [contradiction|].
    change (h2 :: gap ++ blk ++ ls) with ((h2 :: gap) ++ blk ++ ls). apply etl_part; try assumption. intros l [<-|Hl]; [exact Hht|now apply Hg]. }
  cbn [foldM].
  destruct (cell_et_step (CS L [] [] None None) c1 _ x1 x2 e (B1 ++ h2 :: (y1 :: y2 :: B2)) es (p1 ++ p2) post F1 Sk1 Hx1 Hx2) as (V1 & U1 & eb1 & tb1 & E1 & HV1 & HU1).
  { refine (eq_ind _ (first_index (prefix_of (lit " ===")) L) FE _ _).
    repeat (rewrite ?app_length; cbn [List.length app]). change (list ascii) with str in *. lia. }
  { exact L12. } { destruct p1; [contradiction|discriminate]. }
  cbn [cs_lines cs_result cs_err] in E1. rewrite E1. cbn [bind].
  destruct (cell_et_step (CS L ([] ++ [EMat V1]) ([] ++ [EMat U1]) eb1 tb1) c2 _ y1 y2 e B2 es p2 post F2 Sk2 Hy1 Hy2) as (V2 & U2 & eb2 & tb2 & E2 & HV2 & HU2).
  { refine (eq_ind _ (first_index (prefix_of (lit " ===")) L) FE _ _).
    repeat (rewrite ?app_length; cbn [List.length app]). change (list ascii) with str in *. lia. }
  { exact L2. } { exact Hp2. }
  rewrite E2. cbn [bind cs_lines cs_result cs_err cs_eng cs_times app]. exists (TBody (TList [EMat V1; EMat V2]) (TList [EMat U1; EMat U2]) eb2 tb2 None None None None None (Some [c1; c2]) (Some vols) None), V1, V2, U1, U2.
  repeat split; try reflexivity; try apply HV1; try apply HU1; try apply HV2; try apply HU2.
Qed.
