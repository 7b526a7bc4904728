(** Proofs about the MCNP output reader: binned results. *)
From Coq Require Import Lia ZArith.
From Verif Require Import PyBase PyFloat PyFs SpecStr PyFacts M_util SpecUtil P_util FloatFacts SpecInput TextFacts SpecOutput P_output P_output3 M_mcout SpecMcout P_mcout.

(** * Texts and words *)
Lemma occurs_sep sub c a b : sub <> [] -> ~ In c sub -> occurs sub (a ++ c :: b) -> occurs sub a \/ occurs sub b.
Proof.
  intros Hne Hc (x & y & E). apply app_eq_app in E. destruct E as (l & [[E1 E2]|[E1 E2]]).
  - apply app_eq_app in E2. destruct E2 as (m & [[E3 E4]|[E3 E4]]).
    + destruct m as [|d m].
      * cbn in E4. left. exists x, []. rewrite app_nil_r in *. now subst.
      * cbn in E4. injection E4 as -> E4. elim Hc. rewrite E3. apply in_or_app. right. now left.
    + left. exists x, m. now subst.
  - destruct l as [|d l].
    + cbn in E2. destruct sub as [|s sub]; [contradiction|]. cbn in E2. injection E2 as -> E2. elim Hc. now left.
    + cbn in E2. injection E2 as -> E2. right. now exists l, y.
Qed.
Lemma occurs_blank_pre sub a b : sub <> [] -> Forall (fun c => is_ws c = false) sub -> blank a -> occurs sub (a ++ b) -> occurs sub b.
Proof.
  intros Hne Hs Ha. induction Ha as [|c a Hc Ha IH]; [auto|]. intros H. apply IH.
  destruct (occurs_sep sub c [] (a ++ b) Hne) as [H'|H']; [|exact H| |exact H'].
  - intros Hi. rewrite Forall_forall in Hs. rewrite (Hs c Hi) in Hc. discriminate.
  - destruct H' as (x & y & E). destruct x; [|discriminate]. destruct sub; [contradiction|discriminate].
Qed.
Lemma occurs_words sub s ws : sub <> [] -> Forall (fun c => is_ws c = false) sub -> words s ws -> occurs sub s -> exists w, In w ws /\ occurs sub w.
Proof.
  intros Hne Hs Hw. induction Hw as [s Hb|pre w rest ws Hb Hword Hr Hw IH]; intros Ho.
  - exfalso. rewrite <- (app_nil_r s) in Ho. apply occurs_blank_pre in Ho; auto.
    destruct Ho as (x & y & E). destruct x; [|discriminate]. destruct sub; [contradiction|discriminate].
  - apply occurs_blank_pre in Ho; auto. destruct Hr as [->|(c & r & -> & Hc)].
    + rewrite app_nil_r in Ho. exists w. split; [now left|exact Ho].
    + destruct (occurs_sep sub c w r Hne) as [H'|H']; [|exact Ho| |].
      * intros Hi. rewrite Forall_forall in Hs. rewrite (Hs c Hi) in Hc. discriminate.
      * exists w. split; [now left|exact H'].
      * destruct IH as (v & Hv & Hov); [|exists v; split; [now right|exact Hov]].
        destruct H' as (x & y & ->). exists (c :: x), y. reflexivity.
Qed.
Lemma occurs_in_words sub s ws w : words s ws -> In w ws -> occurs sub w -> occurs sub s.
Proof.
  intros Hw. induction Hw as [s Hb|pre v rest ws Hb Hword Hr Hw IH]; intros Hi Ho; [destruct Hi|].
  destruct Hi as [->|Hi].
  - destruct Ho as (x & y & ->). exists (pre ++ x), (y ++ rest). now rewrite !app_assoc.
  - destruct (IH Hi Ho) as (x & y & ->). exists (pre ++ v ++ x), y. now rewrite !app_assoc.
Qed.
Lemma words_Forall s ws : words s ws -> Forall word ws.
Proof. intros H. apply words_split in H. subst. apply split_ws_words. Qed.
Lemma words_join ws : Forall word ws -> words (join [c_space] ws) ws.
Proof. intros H. apply words_split. now apply split_ws_join. Qed.
Lemma words_strip s ws : words s ws <-> words (strip s) ws.
Proof. rewrite !words_split. now rewrite split_ws_strip. Qed.
(** A stripped line starts with its first word. *)
Lemma strip_word_head s w ws : words s (w :: ws) -> exists r, strip s = w ++ r /\ words r ws.
Proof.
  intros Hw. inversion Hw as [|pre w' rest ws' Hb Hword Hr Hws E1 E2]; subst.
  unfold strip, lstrip. rewrite lstrip_by_app by exact Hb. destruct (word_head w Hword) as (c & t & -> & Hc).
  cbn [app]. rewrite lstrip_by_id by exact Hc. unfold rstrip.
  destruct (rstrip_by_decomp is_ws (c :: t ++ rest)) as (b & E & Hbl).
  destruct Hword as (_ & Hnw).
  change (c :: t ++ rest) with ((c :: t) ++ rest) in E |- *. set (r0 := rstrip_by is_ws ((c :: t) ++ rest)) in *.
  apply app_eq_app in E. destruct E as (l & [[E1 E2]|[E1 E2]]).
  - (* the word would end in blanks *)
    destruct l as [|d l].
    + cbn in E2. subst b. rewrite app_nil_r in E1. exists []. rewrite app_nil_r. split; [now symmetry|].
      apply words_split. apply words_split in Hws. rewrite <- Hws. cbn. symmetry. apply split_ws_nil_iff. exact Hbl.
    + exfalso. rewrite E2 in Hbl. cbn [app] in Hbl. apply Forall_inv in Hbl. rewrite E1 in Hnw. apply Forall_app in Hnw. destruct Hnw as (_ & Hn).
      apply Forall_inv in Hn. congruence.
  - exists l. split; [exact E1|]. apply words_split. apply words_split in Hws. rewrite <- Hws, E2. symmetry. apply split_ws_post. exact Hbl.
Qed.
Lemma strip_blank s : blank s -> strip s = [].
Proof. intros H. apply blank_strip in H. now apply str_eqb_eq. Qed.
Lemma lower_strip s : strip (lower s) = lower (strip s).
Proof.
  unfold strip. assert (El : forall s, lstrip (lower s) = lower (lstrip s)).
  { induction s0 as [|c s0 IH]; [reflexivity|]. unfold lstrip, lower in *. cbn [map lstrip_by]. rewrite lower_ws. destruct (is_ws c); [exact IH|reflexivity]. }
  assert (Er : forall s, rstrip (lower s) = lower (rstrip s)).
  { induction s0 as [|c s0 IH]; [reflexivity|]. unfold rstrip, lower in *. cbn [map rstrip_by]. rewrite IH. destruct (rstrip_by is_ws s0) as [|d t]; cbn [map]; [|reflexivity].
    rewrite lower_ws. now destruct (is_ws c). }
  now rewrite El, Er.
Qed.

(** * Time bins only *)
Lemma evens_flat ps : evens (flat ps) = map fst ps.
Proof. induction ps as [|[a b] ps IH]; [reflexivity|]. unfold flat in *. cbn. now rewrite IH. Qed.
Lemma odds_flat ps : odds (flat ps) = map snd ps.
Proof.
  destruct ps as [|[a b] ps]; [reflexivity|]. unfold flat. cbn [map concat app odds fst snd]. revert a b.
  induction ps as [|[c d] ps IH]; intros a b; [reflexivity|]. cbn [map concat app evens fst snd]. f_equal. apply (IH c d).
Qed.
Lemma mapM_reads ws xs : Forall2 reads ws xs -> mapM py_float ws = Ok xs.
Proof. intros H. now apply mapM_Ok_iff. Qed.
Lemma join_length2 w v ws : 2 <= List.length w -> 2 <= List.length v -> 5 <= List.length (join [c_space] (w :: v :: ws)).
Proof.
  intros H1 H2. rewrite join_cons, !app_length. cbn [List.length]. destruct ws as [|u ws]; [cbn [join]; lia|]. rewrite join_cons, !app_length. lia.
Qed.
Lemma time_word_ne : lit "time" <> [] /\ Forall (fun c => is_ws c = false) (lit "time").
Proof. split; [discriminate|]. repeat constructor. Qed.
Lemma time_bins_spec lines ts ps : time_block lines ts ps -> forall T R E,
  foldM time_step lines (T, R, E) = Ok (T ++ ts, R ++ map fst ps, E ++ map snd ps).
Proof.
  induction 1 as [|l ls ts ps Hb H IH|l k tw ls ts ps Hw Ho H IH|l ws vs ls ts ps Hw Hne Hr Hall H IH]; intros T R E.
  - cbn [foldM map]. now rewrite !app_nil_r.
  - cbn [foldM]. unfold time_step at 1. rewrite string_cleaner_words, split_ws_blank by assumption.
    change (contains (lit "time") (join [c_space] [])) with false. change (4 <? zlen (join [c_space] []))%Z with false. cbv iota. cbn [bind]. apply IH.
  - cbn [foldM]. unfold time_step at 1. rewrite string_cleaner_words. pose proof (words_Forall _ _ Hw) as HF. apply words_split in Hw. rewrite Hw. clear Hw.
    assert (Ec : contains (lit "time") (join [c_space] (k :: tw)) = true).
    { apply contains_spec. apply (occurs_in_words _ _ (k :: tw) k); [now apply words_join|now left|exact Ho]. }
    rewrite Ec, split_on_words by (try discriminate; assumption). rewrite slice_from_1. cbn [bind]. rewrite IH. now rewrite app_assoc.
  - cbn [foldM]. unfold time_step at 1. rewrite string_cleaner_words. pose proof (words_Forall _ _ Hw) as HF. apply words_split in Hw. rewrite Hw. clear Hw.
    assert (Ec : contains (lit "time") (join [c_space] ws) = false).
    { apply contains_false. intros Ho. destruct time_word_ne as (N1 & N2).
      destruct (occurs_words _ _ ws N1 N2 (words_join _ HF) Ho) as (w & Hi & Hw'). rewrite Forall_forall in Hall. now apply (Hall w Hi). }
    rewrite Ec.
    assert (El : (4 <? zlen (join [c_space] ws))%Z = true).
    { destruct vs as [|[a b] vs]; [contradiction|]. unfold flat in Hr. cbn in Hr.
      inversion Hr as [|w1 x1 ws1 xs1 R1 Hr1 Ea Eb]; subst. inversion Hr1 as [|w2 x2 ws2 xs2 R2 Hr2 Ec' Ed]; subst.
      pose proof (Forall_inv Hall) as (L1 & _). pose proof (Forall_inv (Forall_inv_tail Hall)) as (L2 & _).
      pose proof (join_length2 w1 w2 ws2 L1 L2) as L. apply Z.ltb_lt. unfold zlen. change (list ascii) with str in *. lia. }
    rewrite El. assert (Hn : ws <> []) by (destruct vs as [|[a b] vs]; [contradiction|]; inversion Hr; discriminate).
    rewrite split_on_words by assumption. rewrite (mapM_reads _ _ Hr). cbn [bind]. rewrite IH, evens_flat, odds_flat, !map_app. now rewrite !app_assoc.
Qed.
Lemma time_bin_only_spec lines ts ps : time_block lines ts ps -> process_time_bin_only lines = Ok (ts, map fst ps, map snd ps).
Proof. intros H. unfold process_time_bin_only. now rewrite (time_bins_spec _ _ _ H). Qed.

(** * Numbers of a line *)
Lemma runs_by_cons_no p c s : p c = false -> runs_by p (c :: s) = runs_by p s.
Proof. intros H. cbn [runs_by]. now rewrite H. Qed.
Lemma runs_by_sep p a c b : p c = false -> runs_by p (a ++ c :: b) = runs_by p a ++ runs_by p b.
Proof.
  intros Hc. induction a as [|d a IH]; [cbn [app]; now apply runs_by_cons_no|].
  cbn [app runs_by]. destruct (p d) eqn:Ed; [|exact IH]. destruct a as [|e a].
  - cbn [app]. rewrite Hc. now rewrite runs_by_cons_no.
  - cbn [app] in *. destruct (p e) eqn:Ee; [|now rewrite IH]. rewrite IH.
    destruct (runs_by p (e :: a)) as [|w ws] eqn:Er; [|reflexivity].
    exfalso. cbn [runs_by] in Er. rewrite Ee in Er. destruct a as [|g a]; [discriminate|]. destruct (p g); [|discriminate]. destruct (runs_by p (g :: a)); discriminate.
Qed.
Lemma runs_by_none p s : Forall (fun c => p c = false) s -> runs_by p s = [].
Proof. induction 1 as [|c s Hc Hs IH]; [reflexivity|]. now rewrite runs_by_cons_no. Qed.
Lemma runs_by_all p s : s <> [] -> Forall (fun c => p c = true) s -> runs_by p s = [s].
Proof.
  intros Hne H. induction H as [|c s Hc Hs IH]; [contradiction|]. cbn [runs_by]. rewrite Hc. destruct s as [|d s]; [reflexivity|].
  rewrite (Forall_inv Hs). now rewrite IH by discriminate.
Qed.
Lemma runs_by_pre p a s : Forall (fun c => p c = false) a -> runs_by p (a ++ s) = runs_by p s.
Proof. induction 1 as [|c a Hc Ha IH]; [reflexivity|]. cbn [app]. now rewrite runs_by_cons_no. Qed.
Lemma ws_not_num c : is_ws c = true -> num_char c = false.
Proof.
  intros H. pose proof (ascii_seq (fun c => negb (is_ws c && num_char c)) eq_refl c) as E. cbv beta in E. rewrite H in E. cbn in E. now destruct (num_char c).
Qed.
Lemma find_numbers_words s ws : words s ws -> find_numbers s = concat (map find_numbers ws).
Proof.
  unfold find_numbers. induction 1 as [s Hb|pre w rest ws Hb Hword Hr Hw IH].
  - apply runs_by_none. apply (Forall_impl _ ws_not_num Hb).
  - rewrite runs_by_pre by apply (Forall_impl _ ws_not_num Hb). cbn [map concat]. rewrite <- IH.
    destruct Hr as [->|(c & r & -> & Hc)]; [cbn; now rewrite !app_nil_r|].
    apply ws_not_num in Hc. rewrite runs_by_sep by exact Hc. now rewrite runs_by_cons_no.
Qed.
Lemma numeral_char c : In c (lit "0123456789.E+-") -> num_char c = true.
Proof. intros H. cbn in H. repeat (destruct H as [<-|H]; [reflexivity|]). destruct H. Qed.
Lemma numeral_num w : numeral w -> find_numbers w = [w].
Proof. intros (Hne & H). apply runs_by_all; [exact Hne|]. apply (Forall_impl _ numeral_char H). Qed.
Lemma numerals_num ws : Forall numeral ws -> concat (map find_numbers ws) = ws.
Proof. induction 1 as [|w ws Hw H IH]; [reflexivity|]. cbn [map concat]. now rewrite numeral_num, IH. Qed.

(** * Energy and time bins *)
Lemma starts_first p c r s : starts_with (c :: p) s = true -> s = r -> exists t, r = c :: t.
Proof. intros H <-. apply starts_with_spec in H. destruct H as (t & ->). now exists (p ++ t). Qed.
Lemma starts_other c p d s : c <> d -> starts_with (c :: p) (d :: s) = false.
Proof. intros H. cbn. destruct (Ascii.eqb_spec c d); [contradiction|reflexivity]. Qed.
Lemma time_line_step l ts tot st : time_line l ts tot ->
  et_step st l = Ok (ET (et_times st ++ ts) (et_energies st) (et_values st) (et_uncerts st) (M_mcout.et_block st) (et_ublock st) true).
Proof.
  intros (ws & Hw & Hn & Hr). unfold et_step. destruct (strip_word_head _ _ _ Hw) as (r & Er & _).
  assert (Es : starts_with (lit "time:") (strip l) = true) by (rewrite Er; apply starts_with_app). rewrite Es.
  assert (Ef : find_numbers (strip l) = ws).
  { rewrite (find_numbers_words _ _ (proj1 (words_strip _ _) Hw)). cbn [map concat]. rewrite map_app, concat_app, numerals_num by assumption.
    change (find_numbers (lit "time:")) with (@nil str). destruct tot; cbn [map concat app].
    - change (find_numbers (lit "total")) with (@nil str). cbn [app]. apply app_nil_r.
    - apply app_nil_r. }
  rewrite Ef, (mapM_reads _ _ Hr). reflexivity.
Qed.
Lemma energy_head_step l st : heads (lit "energy") l -> et_reading st = true -> et_step st l = Ok st.
Proof.
  intros H Hr. apply heads_spec in H. unfold et_step. rewrite H, Hr.
  destruct (starts_first _ _ _ _ H eq_refl) as (t & E). rewrite E.
  change (lit "time:") with (chr 116 :: lit "ime:"). change (lit "total") with (chr 116 :: lit "otal").
  rewrite !starts_other by discriminate. reflexivity.
Qed.
Lemma energy_row_step l e ps st : energy_row l e ps -> et_reading st = true ->
  et_step st l = Ok (ET (et_times st) (et_energies st ++ [e]) (et_values st) (et_uncerts st)
                        (M_mcout.et_block st ++ [map fst ps]) (et_ublock st ++ [map snd ps]) true).
Proof.
  intros (w & ws & Hw & Hn & He & Hr) Hrd. unfold et_step. destruct (strip_word_head _ _ _ Hw) as (r & Er & _).
  pose proof (Forall_inv Hn) as (Hne & Hc). destruct w as [|c w]; [contradiction|]. apply Forall_inv in Hc.
  assert (Ht : chr 116 <> c /\ chr 101 <> c).
  { split; intros <-; cbn in Hc; repeat (destruct Hc as [Hc|Hc]; [discriminate|]); destruct Hc. }
  destruct Ht as (Ht & He').
  rewrite Er. cbn [app]. change (lit "time:") with (chr 116 :: lit "ime:"). change (lit "total") with (chr 116 :: lit "otal").
  change (lit "energy") with (chr 101 :: lit "nergy"). rewrite !starts_other by assumption. rewrite Hrd. cbn [orb str_eqb].
  assert (Ef : find_numbers (c :: w ++ r) = (c :: w) :: ws).
  { change (c :: w ++ r) with ((c :: w) ++ r). rewrite <- Er. rewrite (find_numbers_words _ _ (proj1 (words_strip _ _) Hw)). now apply numerals_num. }
  rewrite Ef. rewrite He. cbn [bind]. rewrite (mapM_reads _ _ Hr). cbn [bind]. now rewrite evens_flat, odds_flat.
Qed.
Lemma energy_rows_steps rows es m : energy_rows rows es m -> forall st, et_reading st = true ->
  foldM et_step rows st = Ok (ET (et_times st) (et_energies st ++ es) (et_values st) (et_uncerts st)
                        (M_mcout.et_block st ++ map (map fst) m) (et_ublock st ++ map (map snd) m) true).
Proof.
  induction 1 as [|l ls e es ps m Hl H IH]; intros st Hr.
  - cbn [foldM map]. rewrite !app_nil_r. destruct st; cbn in *. now rewrite Hr.
  - cbn [foldM]. rewrite (energy_row_step _ _ _ _ Hl Hr). cbn [bind]. rewrite IH by reflexivity. cbn. now rewrite <- !app_assoc.
Qed.
Lemma np_matrix_same rows n : Forall (fun r => List.length r = n) rows -> np_matrix rows = Ok rows.
Proof.
  intros H. destruct rows as [|r rs]; [reflexivity|]. cbn [np_matrix]. pose proof (Forall_inv H) as H0. apply Forall_inv_tail in H.
  assert (E : forallb (fun x => List.length x =? List.length r) rs = true).
  { apply forallb_forall. intros x Hx. rewrite Forall_forall in H. apply Nat.eqb_eq. rewrite (H x Hx). now symmetry. }
  now rewrite E.
Qed.
Lemma fin_step l st b u n : (blank l \/ heads (lit "total") l) -> et_reading st = true -> M_mcout.et_block st = b -> et_ublock st = u -> b <> [] ->
  Forall (fun r => List.length r = n) b -> Forall (fun r => List.length r = n) u ->
  et_step st l = Ok (ET (et_times st) (et_energies st) (et_values st ++ [b]) (et_uncerts st ++ [u]) [] [] false).
Proof.
  intros Hf Hr Hb Hu Hne Fb Fu. unfold et_step.
  assert (E1 : starts_with (lit "time:") (strip l) = false /\ (starts_with (lit "total") (strip l) || str_eqb (strip l) []) = true).
  { destruct Hf as [H|H].
    - now rewrite (strip_blank _ H).
    - apply heads_spec in H. split; [|now rewrite H]. apply starts_with_spec in H. destruct H as (t & ->). reflexivity. }
  destruct E1 as (-> & ->). rewrite Hr, Hb, Hu. destruct b as [|b0 bs]; [contradiction|].
  rewrite (np_matrix_same _ _ Fb). cbn [bind]. rewrite (np_matrix_same _ _ Fu). reflexivity.
Qed.
Lemma Forall_map_len {A B} (f : A -> B) n (m : list (list A)) : Forall (fun r => List.length r = n) m -> Forall (fun r => List.length r = n) (map (map f) m).
Proof. intros H. apply Forall_map. apply (Forall_impl _ (fun r (E : List.length r = n) => eq_trans (map_length f r) E) H). Qed.
Lemma energy_rows_length rows es m : energy_rows rows es m -> List.length m = List.length es.
Proof. induction 1; cbn; congruence. Qed.
Lemma et_block_steps blk ts es m T En Vs Us : et_block blk ts es m ->
  foldM et_step blk (ET T En Vs Us [] [] false) =
  Ok (ET (T ++ ts) (En ++ es) (Vs ++ [map (map fst) m]) (Us ++ [map (map snd) m]) [] [] false).
Proof.
  intros [tl el rows fin ts' tot es' m' Htl Hel Hrows Hne Hlen Hfin]. cbn [foldM]. rewrite (time_line_step _ _ _ _ Htl). cbn [bind et_times et_energies et_values et_uncerts M_mcout.et_block et_ublock].
  rewrite energy_head_step by (assumption || reflexivity). cbn [bind]. rewrite foldM_app, (energy_rows_steps _ _ _ Hrows) by reflexivity.
  cbn [bind foldM et_times et_energies et_values et_uncerts M_mcout.et_block et_ublock app].
  rewrite (fin_step fin _ (map (map fst) m') (map (map snd) m') (List.length ts' + if tot then 1 else 0)); [reflexivity|exact Hfin|reflexivity|reflexivity|reflexivity| | |].
  - apply energy_rows_length in Hrows. destruct m'; [|discriminate]. destruct es'; [contradiction|discriminate].
  - now apply Forall_map_len.
  - now apply Forall_map_len.
Qed.
Lemma gap_steps gap T En Vs Us : none_of (heads (lit "time:")) gap -> foldM et_step gap (ET T En Vs Us [] [] false) = Ok (ET T En Vs Us [] [] false).
Proof.
  induction gap as [|l gap IH]; intros H; [reflexivity|]. cbn [foldM]. unfold et_step at 1.
  assert (E : starts_with (lit "time:") (strip l) = false) by (apply headsF, H; now left). rewrite E. cbn [et_reading bind].
  apply IH. intros x Hx. apply H. now right.
Qed.
Definition fst_mats (parts : list (list float * list (list (float * float)))) := map (fun p => map (map fst) (snd p)) parts.
Definition snd_mats (parts : list (list float * list (list (float * float)))) := map (fun p => map (map snd) (snd p)) parts.
Lemma listing_steps es lines parts : et_listing es lines parts -> forall T En Vs Us,
  foldM et_step lines (ET T En Vs Us [] [] false) =
  Ok (ET (T ++ concat (map fst parts)) (En ++ concat (map (fun _ => es) parts)) (Vs ++ fst_mats parts) (Us ++ snd_mats parts) [] [] false).
Proof.
  induction 1 as [gap Hg|gap blk ts m ls parts Hg Hb H IH]; intros T En Vs Us.
  - cbn [map concat fst_mats snd_mats]. unfold fst_mats, snd_mats. cbn [map]. rewrite !app_nil_r. now apply gap_steps.
  - rewrite !foldM_app, gap_steps by assumption. cbn [bind]. rewrite foldM_app, (et_block_steps _ _ _ _ _ _ _ _ Hb). cbn [bind]. rewrite IH.
    unfold fst_mats, snd_mats. cbn [map concat fst snd]. now rewrite <- !app_assoc.
Qed.
Lemma listing_rows es lines parts : et_listing es lines parts -> Forall (fun p => List.length (snd p) = List.length es) parts.
Proof.
  induction 1 as [|gap blk ts m ls parts Hg Hb H IH]; constructor; [|exact IH]. destruct Hb as [tl el rows fin ts' tot es' m' H1 H2 H3 H4 H5 H6]. cbn. now apply energy_rows_length in H3.
Qed.
Lemma zip_app_length a b : List.length a = List.length b -> List.length (zip_app a b) = List.length a.
Proof. revert b. induction a as [|x a IH]; intros [|y b]; cbn; intros H; try lia. now rewrite IH by lia. Qed.
Lemma zip_app_nth a b i : List.length a = List.length b -> i < List.length a -> nth_error (zip_app a b) i = Some (nth i a [] ++ nth i b []).
Proof.
  revert b i. induction a as [|x a IH]; intros [|y b] i H Hi; cbn in *; try lia. destruct i; cbn; [reflexivity|]. apply IH; lia.
Qed.
Lemma fold_zip n rest m : List.length m = n -> Forall (fun x => List.length x = n) rest ->
  List.length (fold_left zip_app rest m) = n /\
  forall i, i < n -> nth_error (fold_left zip_app rest m) i = Some (concat (map (fun x => nth i x []) (m :: rest))).
Proof.
  intros Hm Hr. revert m Hm. induction Hr as [|x rest Hx Hr IH]; intros m Hm; cbn [fold_left].
  - split; [exact Hm|]. intros i Hi. cbn [map concat]. rewrite app_nil_r. apply nth_error_nth'. lia.
  - destruct (IH (zip_app m x)) as (L & Hn); [rewrite zip_app_length; lia|]. split; [exact L|]. intros i Hi. rewrite Hn by exact Hi. cbn [map concat].
    rewrite app_assoc. do 2 f_equal. apply nth_error_nth. apply zip_app_nth; lia.
Qed.
Lemma np_hstack_spec n ms : ms <> [] -> Forall (fun x => List.length x = n) ms -> exists M, np_hstack ms = Ok M /\ List.length M = n /\
  forall i, i < n -> nth_error M i = Some (concat (map (fun x => nth i x []) ms)).
Proof.
  intros Hne H. destruct ms as [|m rest]; [contradiction|]. pose proof (Forall_inv H) as Hm. pose proof (Forall_inv_tail H) as Hr. cbn [np_hstack].
  assert (E : forallb (fun x => List.length x =? List.length m) rest = true).
  { apply forallb_forall. intros x Hx. rewrite Forall_forall in Hr. apply Nat.eqb_eq. now rewrite (Hr x Hx). }
  rewrite E. exists (fold_left zip_app rest m). split; [reflexivity|]. now apply fold_zip.
Qed.
Lemma concat_rows (f : float * float -> float) (parts : list (list float * list (list (float * float)))) i n : Forall (fun p => List.length (snd p) = n) parts -> i < n ->
  concat (map (fun x => nth i x []) (map (fun p => map (map f) (snd p)) parts)) = map f (table_row parts i).
Proof.
  intros H Hi. unfold table_row. rewrite concat_map, !map_map. f_equal. apply map_ext_in. intros p Hp.
  change (@nil float) with (map f (@nil (float * float))). apply map_nth.
Qed.
(** The result for a table, whatever the order of the numbers. *)
Lemma userbin_spec es lines parts : et_listing es lines parts -> parts <> [] -> exists V U,
  process_e_t_userbin lines = Ok (sorted_set (concat (map fst parts)), sorted_set (concat (map (fun _ => es) parts)), V, U) /\
  matrix_of fst parts (List.length es) V /\ matrix_of snd parts (List.length es) U.
Proof.
  intros H Hne. unfold process_e_t_userbin, et_start. rewrite (listing_steps _ _ _ H). cbn [bind et_values et_uncerts et_times et_energies app].
  pose proof (listing_rows _ _ _ H) as Hl. unfold fst_mats, snd_mats.
  destruct (np_hstack_spec (List.length es) (map (fun p => map (map fst) (snd p)) parts)) as (V & EV & LV & NV).
  { destruct parts; [contradiction|discriminate]. }
  { apply Forall_map. apply (Forall_impl _ (fun p (E : List.length (snd p) = List.length es) => eq_trans (map_length _ _) E) Hl). }
  destruct (np_hstack_spec (List.length es) (map (fun p => map (map snd) (snd p)) parts)) as (U & EU & LU & NU).
  { destruct parts; [contradiction|discriminate]. }
  { apply Forall_map. apply (Forall_impl _ (fun p (E : List.length (snd p) = List.length es) => eq_trans (map_length _ _) E) Hl). }
  exists V, U. rewrite EV. cbn [bind]. rewrite EU. split; [reflexivity|]. split.
  - split; [exact LV|]. intros i Hi. rewrite NV by exact Hi. f_equal. now apply (concat_rows fst _ _ (List.length es)).
  - split; [exact LU|]. intros i Hi. rewrite NU by exact Hi. f_equal. now apply (concat_rows snd _ _ (List.length es)).
Qed.
(** No table at all. *)
Lemma userbin_none lines : none_of (heads (lit "time:")) lines -> process_e_t_userbin lines = Err ValueError.
Proof. intros H. unfold process_e_t_userbin, et_start. now rewrite gap_steps. Qed.

(** ** Sorting *)
Lemma flt_asym x y : flt y x = true -> flt x y = false.
Proof. intros H. destruct (flt x y) eqn:E; [|reflexivity]. pose proof (flt_trans _ _ _ H E) as H'. now rewrite flt_irrefl in H'. Qed.
Lemma flt_not_feq x y : flt y x = true -> feq x y = false.
Proof.
  intros H. destruct (feq x y) eqn:E; [|reflexivity]. apply feq_key in E as (_ & _ & E). apply flt_key in H as (_ & _ & H). rewrite E in H. now apply klt_irrefl in H.
Qed.
Lemma ascending_app_inv a b : ascending (a ++ b) -> ascending a /\ forall x y, In x a -> In y b -> flt x y = true.
Proof.
  intros (H1 & H2). split.
  - split; [intros x Hx; apply H1, in_or_app; now left|]. intros i j x y Hij Hx Hy. apply (H2 i j x y Hij).
    + rewrite nth_error_app1; [exact Hx|]. apply nth_error_Some. congruence.
    + rewrite nth_error_app1; [exact Hy|]. apply nth_error_Some. congruence.
  - intros x y Hx Hy. apply In_nth_error in Hx. apply In_nth_error in Hy. destruct Hx as (i & Hi). destruct Hy as (j & Hj).
    assert (i < List.length a) by (apply nth_error_Some; congruence).
    apply (H2 i (List.length a + j) x y); [lia|now rewrite nth_error_app1|]. rewrite nth_error_app2 by lia. now replace (List.length a + j - List.length a) with j by lia.
Qed.
Lemma insert_end x l : (forall y, In y l -> flt y x = true) -> insert_f x l = l ++ [x].
Proof.
  induction l as [|y l IH]; intros H; [reflexivity|]. cbn [insert_f app]. pose proof (H y (or_introl eq_refl)) as Hy.
  rewrite flt_not_feq by exact Hy. rewrite flt_asym by exact Hy. f_equal. apply IH. intros z Hz. apply H. now right.
Qed.
Lemma insert_present x l : ascending l -> In x l -> insert_f x l = l.
Proof.
  intros H Hx. apply in_split in Hx. destruct Hx as (a & b & ->). pose proof H as (Hn & _). apply ascending_app_inv in H. destruct H as (_ & H).
  assert (Ha : forall y, In y a -> flt y x = true) by (intros y Hy; apply H; [exact Hy|now left]).
  assert (Exx : feq x x = true) by (apply Hn, in_or_app; right; now left). clear H Hn.
  induction a as [|y a IH]; cbn [app insert_f]; [now rewrite Exx|].
  pose proof (Ha y (or_introl eq_refl)) as Hy. rewrite flt_not_feq by exact Hy. rewrite flt_asym by exact Hy. f_equal. apply IH. intros z Hz. apply Ha. now right.
Qed.
Lemma fold_insert_app l acc : ascending (acc ++ l) -> fold_left (fun acc x => insert_f x acc) l acc = acc ++ l.
Proof.
  revert acc. induction l as [|x l IH]; intros acc H; cbn [fold_left]; [now rewrite app_nil_r|].
  rewrite insert_end. - rewrite IH by (now rewrite <- app_assoc). now rewrite <- app_assoc.
  - apply ascending_app_inv in H. destruct H as (_ & H). intros y Hy. apply H; [exact Hy|now left].
Qed.
Lemma sorted_set_ascending l : ascending l -> sorted_set l = l.
Proof. intros H. unfold sorted_set. now rewrite fold_insert_app. Qed.
Lemma fold_insert_present es l : ascending es -> (forall x, In x l -> In x es) -> fold_left (fun acc x => insert_f x acc) l es = es.
Proof.
  intros H. induction l as [|x l IH]; intros Hl; cbn [fold_left]; [reflexivity|]. rewrite insert_present; [|exact H|apply Hl; now left]. apply IH. intros y Hy. apply Hl. now right.
Qed.
Lemma sorted_set_repeat {A} es (parts : list A) : ascending es -> parts <> [] -> sorted_set (concat (map (fun _ => es) parts)) = es.
Proof.
  intros H Hne. destruct parts as [|p parts]; [contradiction|]. cbn [map concat]. unfold sorted_set. rewrite fold_left_app.
  fold (sorted_set es). rewrite sorted_set_ascending by exact H. apply fold_insert_present; [exact H|].
  intros x Hx. apply in_concat in Hx. destruct Hx as (l & Hl & Hx). apply in_map_iff in Hl. destruct Hl as (_ & <- & _). exact Hx.
Qed.
Lemma userbin_ascending es lines parts : et_listing es lines parts -> parts <> [] -> ascending es -> ascending (concat (map fst parts)) ->
  exists V U, process_e_t_userbin lines = Ok (concat (map fst parts), es, V, U) /\
    matrix_of fst parts (List.length es) V /\ matrix_of snd parts (List.length es) U.
Proof.
  intros H Hne He Ht. destruct (userbin_spec _ _ _ H Hne) as (V & U & E & HV & HU). exists V, U.
  rewrite E, sorted_set_ascending by exact Ht. rewrite sorted_set_repeat by assumption. auto.
Qed.

(** * Energy bins of cells and surfaces *)
Lemma span_by_app p a r : Forall (fun c => p c = true) a -> (forall c t, r = c :: t -> p c = false) -> span_by p (a ++ r) = (a, r).
Proof.
  intros Ha Hr. induction Ha as [|c a Hc Ha IH]; cbn [app span_by].
  - destruct r as [|c r]; [reflexivity|]. cbn. now rewrite (Hr c r eq_refl).
  - now rewrite Hc, IH.
Qed.
Lemma span_by_spec p s a b : span_by p s = (a, b) -> s = a ++ b /\ Forall (fun c => p c = true) a /\ (forall c t, b = c :: t -> p c = false).
Proof.
  revert a b. induction s as [|c s IH]; cbn; intros a b H.
  - injection H as <- <-. repeat split; [constructor|discriminate].
  - destruct (p c) eqn:E.
    + destruct (span_by p s) as [a' b'] eqn:Es. injection H as <- <-. destruct (IH _ _ eq_refl) as (-> & Ha & Hb). repeat split; [constructor; assumption|exact Hb].
    + injection H as <- <-. repeat split; [constructor|]. intros d t Ed. now injection Ed as -> ->.
Qed.
Lemma decimal_not_ws c : is_decimal c = true -> is_ws c = false.
Proof. intros H. pose proof (ascii_seq (fun c => negb (is_decimal c && is_ws c)) eq_refl c) as E. cbv beta in E. rewrite H in E. cbn in E. now destruct (is_ws c). Qed.
(** Trailing blanks do not matter. *)
Lemma rstrip_keep a b : (forall x t, a <> [] -> a = t ++ [x] -> is_ws x = false) -> exists b', rstrip (a ++ b) = a ++ b' /\ exists e, b = b' ++ e /\ blank e.
Proof.
  intros Ha. unfold rstrip. destruct (rstrip_by_decomp is_ws (a ++ b)) as (e & E & Hb). set (r0 := rstrip_by is_ws (a ++ b)) in *.
  apply app_eq_app in E. destruct E as (l & [[E1 E2]|[E1 E2]]).
  - destruct l as [|d l] using rev_ind.
    + rewrite app_nil_r in E1. cbn in E2. subst e. exists []. rewrite app_nil_r. split; [now symmetry|]. now exists b.
    + exfalso. rewrite E2 in Hb. apply Forall_app in Hb. destruct Hb as (Hb & _). apply Forall_app in Hb. destruct Hb as (_ & Hb). apply Forall_inv in Hb.
      rewrite (Ha d (r0 ++ l)) in Hb; [discriminate| |now rewrite <- app_assoc]. rewrite E1. destruct r0; [destruct l|]; discriminate.
  - exists l. split; [exact E1|]. now exists e.
Qed.
Lemma match_header_spec kw l n : word kw -> match_header kw (strip l) = Some n <-> begins_block kw l n.
Proof.
  intros Hkw. unfold match_header. split.
  - destruct (starts_with kw (strip l)) eqn:Es; [|discriminate]. apply starts_with_spec in Es. destruct Es as (t & Et). rewrite Et.
    rewrite skipn_app, skipn_all, Nat.sub_diag. cbn [app skipn].
    destruct (span_by is_ws t) as [sp r] eqn:E1. destruct (span_by is_decimal r) as [ds rest] eqn:E2.
    apply span_by_spec in E1. apply span_by_spec in E2. destruct E1 as (-> & Hsp & _). destruct E2 as (-> & Hds & Hr).
    destruct sp as [|c0 sp]; [discriminate|]. destruct ds as [|d0 ds]; [discriminate|]. intros H; injection H as <-.
    destruct (proj2 (trimmed_strip l _) eq_refl) as (a & b & El & Ha & Hb & _). rewrite Et in El.
    exists a, (c0 :: sp), (d0 :: ds), (rest ++ b). repeat split; try assumption; try discriminate.
    + rewrite El. now rewrite <- !app_assoc.
    + intros c r E. destruct rest as [|c' rest]; [|cbn in E; injection E as -> _; now apply (Hr c rest)]. cbn in E. subst b. apply Forall_inv in Hb.
      destruct (is_decimal c) eqn:Ed; [|reflexivity]. apply decimal_not_ws in Ed. congruence.
  - intros (pad & gap & ds & rest & -> & Hp & Hg & Hgne & Hdne & Hd & Hr & ->).
    assert (Es : exists rest', strip (pad ++ kw ++ gap ++ ds ++ rest) = kw ++ gap ++ ds ++ rest' /\ exists e, rest = rest' ++ e).
    { unfold strip, lstrip. rewrite lstrip_by_app by exact Hp. destruct (word_head kw Hkw) as (c & t & -> & Hc). cbn [app]. rewrite lstrip_by_id by exact Hc.
      change (c :: t ++ gap ++ ds ++ rest) with ((c :: t) ++ gap ++ ds ++ rest). rewrite (app_assoc gap), (app_assoc (c :: t)).
      destruct (rstrip_keep ((c :: t) ++ gap ++ ds) rest) as (b' & E & e & Ee & _).
      - intros x u _ Ex. destruct (snoc_cases ds) as [->|(ds' & y & ->)]; [contradiction|]. rewrite !app_assoc in Ex. apply app_inj_tail in Ex. destruct Ex as (_ & <-).
        apply Forall_app in Hd. destruct Hd as (_ & Hd). apply Forall_inv in Hd. now apply decimal_not_ws.
      - exists b'. split; [|now exists e]. etransitivity; [exact E|]. now rewrite <- !app_assoc. }
    destruct Es as (rest' & -> & e & Ee). rewrite starts_with_app. rewrite skipn_app, skipn_all, Nat.sub_diag. cbn [app skipn].
    rewrite (span_by_app is_ws gap).
    + rewrite (span_by_app is_decimal ds); [|exact Hd|].
      * destruct gap; [contradiction|]. destruct ds; [contradiction|reflexivity].
      * intros c t E. apply (Hr c (t ++ e)). now rewrite Ee, E.
    + exact Hg.
    + intros c t E. destruct ds as [|d ds]; [contradiction|]. cbn in E. injection E as <- _. apply decimal_not_ws. now apply Forall_inv in Hd.
Qed.
Lemma match_header_none kw l : word kw -> (forall n, ~ begins_block kw l n) -> match_header kw (strip l) = None.
Proof. intros Hk H. destruct (match_header kw (strip l)) as [n|] eqn:E; [|reflexivity]. apply match_header_spec in E; [|exact Hk]. elim (H n E). Qed.

Lemma dict_get_setZ {V} k k' (v : V) d : dict_get Z.eqb k (dict_set Z.eqb k' v d) = if (k =? k')%Z then Some v else dict_get Z.eqb k d.
Proof. apply dict_get_set. intros a b. apply Z.eqb_spec. Qed.
Lemma dict_get_push {A} k k' (x : A) d : dict_get Z.eqb k (dict_push k' x d) =
  if (k =? k')%Z then Some (match dict_get Z.eqb k d with Some l => l ++ [x] | None => [x] end) else dict_get Z.eqb k d.
Proof. unfold dict_push. rewrite dict_get_setZ. destruct (Z.eqb_spec k k') as [->|]; reflexivity. Qed.

(** Rows and totals recorded so far. *)
Definition more_rows {A} (o : option (list A)) (l : list A) : option (list A) :=
  match l with [] => o | _ :: _ => Some (match o with Some r => r ++ l | None => l end) end.
Definition more_total {A} (o : option A) (l : list A) : option A := fold_left (fun _ x => Some x) l o.
Lemma more_rows_app {A} (o : option (list A)) a b : more_rows (more_rows o a) b = more_rows o (a ++ b).
Proof. destruct a as [|x a]; [reflexivity|]. destruct b as [|y b]; cbn; [now rewrite app_nil_r|]. destruct o; cbn; now rewrite <- ?app_assoc. Qed.
Lemma more_total_app {A} (o : option A) a b : more_total (more_total o a) b = more_total o (a ++ b).
Proof. unfold more_total. now rewrite fold_left_app. Qed.
Lemma more_total_last {A} (l : list A) : is_last l (more_total None l).
Proof. unfold is_last, more_total. destruct (snoc_cases l) as [->|(a & x & ->)]; [reflexivity|]. rewrite fold_left_app. cbn. now exists a. Qed.

(** Effect of the lines of one block on the data. *)
Lemma eb_row cur d t l r : (0 < cur)%Z -> bin_row l r -> eb_data (Some cur, d, t) (strip l) = Ok (Some cur, dict_push cur r d, t).
Proof.
  intros Hc (x & a & b & c & Hw & Hd & R1 & R2 & R3). unfold eb_data. destruct cur as [|p|p]; [lia| |lia].
  destruct (strip_word_head _ _ _ Hw) as (s & Es & _). rewrite split_ws_strip. pose proof (proj1 (words_split _ _) Hw) as E. rewrite E.
  assert (Et : starts_with (lit "total") (lower (strip l)) = false).
  { rewrite Es. cbn [app lower map]. change (lit "total") with (chr 116 :: lit "otal"). apply starts_other. intros Ex.
    pose proof (ascii_seq (fun c => negb (is_decimal c && Ascii.eqb (chr 116) (lower_c c))) eq_refl x) as F. cbv beta in F. rewrite Hd, <- Ex in F. discriminate F. }
  rewrite Et, Hd, R1. cbn [bind]. rewrite R2. cbn [bind]. rewrite R3. cbn [bind]. now destruct r as [[? ?] ?].
Qed.
Lemma replace_none old new s : ~ occurs old s -> old <> [] -> replace old new s = s.
Proof. intros H Hne. eapply replaced_fun; [now apply replace_replaced|now constructor]. Qed.
Lemma replace_head old s : ~ occurs old s -> old <> [] -> replace old [] (old ++ s) = s.
Proof.
  intros H Hne. eapply replaced_fun; [now apply replace_replaced|]. apply (repl_step old [] [] s s); [|now constructor]. intros a' b' _. cbn. lia.
Qed.
Lemma eb_total cur d t l x : (0 < cur)%Z -> total_row l x -> eb_data (Some cur, d, t) (strip l) = Ok (Some cur, d, dict_set Z.eqb cur x t).
Proof.
  intros Hc (w & a & b & Hw & Ht & Na & Nb & R1 & R2). unfold eb_data. destruct cur as [|p|p]; [lia| |lia].
  destruct (strip_word_head _ _ _ Hw) as (r & Es & Hr).
  assert (El : lower (strip l) = lit "total" ++ lower r) by (rewrite Es, lower_app; now rewrite Ht).
  rewrite El, starts_with_app.
  assert (No : ~ occurs (lit "total") (lower r)).
  { intros Ho. apply (occurs_words (lit "total") (lower r) [lower a; lower b]) in Ho.
    - destruct Ho as (v & [<-|[<-|[]]] & Hv); contradiction.
    - discriminate.
    - repeat constructor.
    - apply words_split. rewrite split_ws_lower. apply words_split in Hr. now rewrite Hr. }
  rewrite replace_head by (exact No || discriminate).
  assert (Esp : split_ws (lower r) = [lower a; lower b]) by (rewrite split_ws_lower; apply words_split in Hr; now rewrite Hr).
  rewrite Esp, R1. cbn [bind]. rewrite R2. cbn [bind]. now destruct x.
Qed.
Lemma eb_other kw cur d t l : other_line kw l -> eb_data (cur, d, t) (strip l) = Ok (cur, d, t).
Proof.
  intros (_ & Ht & H3). unfold eb_data. destruct cur as [[|p|p]|]; try reflexivity.
  all: assert (Et : starts_with (lit "total") (lower (strip l)) = false) by (rewrite <- lower_strip; now apply headsF).
  all: rewrite Et, split_ws_strip; destruct (split_ws l) as [|[|c a] [|b [|e [|]]]] eqn:E; try reflexivity.
  all: rewrite (H3 c a b e); [reflexivity|]; now apply words_split.
Qed.
Lemma eb_none d t l : eb_data (None, d, t) l = Ok (None, d, t).
Proof. reflexivity. Qed.

(** Keywords of the two readers: the steps agree on them. *)
Definition kw_step (kw : str) (st : eb_state) (line : str) : res eb_state :=
  let '(cur, d, t) := st in
  match match_header kw (strip line) with
  | Some n => Ok (Some n, d, t)
  | None => eb_data st (strip line)
  end.
Lemma surface_kw st l : surface_step st l = kw_step (lit "surface") st l.
Proof. destruct st as [[c d] t]. reflexivity. Qed.
Lemma cell_word : word (lit "cell"). Proof. split; [discriminate|repeat constructor]. Qed.
Lemma surface_word : word (lit "surface"). Proof. split; [discriminate|repeat constructor]. Qed.
Lemma cell_kw st l : cell_step st l = kw_step (lit "cell") st l.
Proof.
  destruct st as [[c d] t]. unfold cell_step, kw_step. destruct (match_header (lit "cell") (strip l)) as [n|] eqn:E; [|reflexivity].
  unfold match_header in E. destruct (starts_with (lit "cell") (strip l)) eqn:Es; [|discriminate].
  destruct (starts_first _ _ _ _ Es eq_refl) as (r & Er).
  unfold eb_data. destruct n as [|p|p]; [reflexivity| |].
  all: assert (Et : starts_with (lit "total") (lower (strip l)) = false) by (rewrite Er; reflexivity).
  all: rewrite Et; destruct (split_ws (strip l)) as [|w [|b [|e [|]]]] eqn:Ew; try reflexivity.
  all: assert (Hw : words (strip l) [w; b; e]) by (now apply words_split).
  all: apply words_strip in Hw; destruct (strip_word_head _ _ _ Hw) as (s & Hs & _).
  all: pose proof (Forall_inv (words_Forall _ _ Hw)) as (Hne & _); destruct w as [|x w]; [contradiction|].
  all: rewrite Er in Hs; cbn in Hs; injection Hs as <- _; reflexivity.
Qed.
Lemma foldM_ext {A S} (f g : S -> A -> res S) l s : (forall s x, f s x = g s x) -> foldM f l s = foldM g l s.
Proof. intros H. revert s. induction l as [|x l IH]; intros s; [reflexivity|]. cbn [foldM]. rewrite H. destruct (g s x); [apply IH|reflexivity]. Qed.

Definition kw_ok (kw : str) : Prop := word kw /\ exists c r, kw = c :: r /\ is_decimal c = false /\ lower_c c <> chr 116.
Lemma not_header_row kw l r n : kw_ok kw -> bin_row l r -> ~ begins_block kw l n.
Proof.
  intros (Hk & c & k & Ek & Hd & _) (d & a & b & e & Hw & Hdec & _) Hb. apply match_header_spec in Hb; [|exact Hk].
  unfold match_header in Hb. destruct (starts_with kw (strip l)) eqn:Es; [|discriminate]. rewrite Ek in Es. destruct (starts_first _ _ _ _ Es eq_refl) as (s & E).
  destruct (strip_word_head _ _ _ Hw) as (s' & E' & _). rewrite E in E'. cbn in E'. injection E' as -> _. congruence.
Qed.
Lemma not_header_total kw l x n : kw_ok kw -> total_row l x -> ~ begins_block kw l n.
Proof.
  intros (Hk & c & k & Ek & _ & Hl) (w & a & b & Hw & Ht & _) Hb. apply match_header_spec in Hb; [|exact Hk].
  unfold match_header in Hb. destruct (starts_with kw (strip l)) eqn:Es; [|discriminate]. rewrite Ek in Es. destruct (starts_first _ _ _ _ Es eq_refl) as (s & E).
  destruct (strip_word_head _ _ _ Hw) as (s' & E' & _). rewrite E in E'. destruct w as [|y w]; [discriminate|]. cbn in E'. injection E' as -> _.
  apply Hl. unfold total_word in Ht. cbn in Ht. now injection Ht.
Qed.
Lemma body_steps kw body rs ts : kw_ok kw -> block_body kw body rs ts -> forall cur d t, (0 < cur)%Z ->
  exists d' t', foldM (kw_step kw) body (Some cur, d, t) = Ok (Some cur, d', t') /\
    (forall k, dict_get Z.eqb k d' = more_rows (dict_get Z.eqb k d) (if (cur =? k)%Z then rs else [])) /\
    (forall k, dict_get Z.eqb k t' = more_total (dict_get Z.eqb k t) (if (cur =? k)%Z then ts else [])).
Proof.
  intros Hk H. induction H as [|l r ls rs ts Hr H IH|l x ls rs ts Hx H IH|l ls rs ts Ho H IH]; intros cur d t Hc.
  - exists d, t. split; [reflexivity|]. split; intros k; destruct (cur =? k)%Z; reflexivity.
  - destruct (IH cur (dict_push cur r d) t Hc) as (d' & t' & E & Hd & Ht). exists d', t'. cbn [foldM]. unfold kw_step at 1.
    rewrite match_header_none by (apply Hk || (intros n; now apply (not_header_row kw l r))). rewrite eb_row with (r := r) by assumption. cbn [bind]. split; [exact E|].
    split; [|exact Ht]. intros k. rewrite Hd, dict_get_push. rewrite (Z.eqb_sym k cur). destruct (cur =? k)%Z; [|reflexivity].
    destruct (dict_get Z.eqb k d) as [l0|]; destruct rs as [|r' rs]; cbn; try reflexivity. now rewrite <- app_assoc.
  - destruct (IH cur d (dict_set Z.eqb cur x t) Hc) as (d' & t' & E & Hd & Ht). exists d', t'. cbn [foldM]. unfold kw_step at 1.
    rewrite match_header_none by (apply Hk || (intros n; now apply (not_header_total kw l x))). rewrite eb_total with (x := x) by assumption. cbn [bind]. split; [exact E|].
    split; [exact Hd|]. intros k. rewrite Ht, dict_get_setZ. rewrite (Z.eqb_sym k cur). destruct (cur =? k)%Z; reflexivity.
  - destruct (IH cur d t Hc) as (d' & t' & E & Hd & Ht). exists d', t'. cbn [foldM]. unfold kw_step at 1.
    rewrite match_header_none by (apply Hk || (intros n; apply Ho)). rewrite (eb_other kw) by assumption. cbn [bind]. auto.
Qed.
Lemma blocks_steps kw ls bs : kw_ok kw -> bin_blocks kw ls bs -> forall cur d t,
  exists cur' d' t', foldM (kw_step kw) ls (cur, d, t) = Ok (cur', d', t') /\
    (forall k, dict_get Z.eqb k d' = more_rows (dict_get Z.eqb k d) (rows_of_block k bs)) /\
    (forall k, dict_get Z.eqb k t' = more_total (dict_get Z.eqb k t) (totals_of_block k bs)).
Proof.
  intros Hk H. induction H as [|h n body rs ts ls bs Hh Hn Hb H IH]; intros cur d t.
  - exists cur, d, t. repeat split.
  - destruct (body_steps kw body rs ts Hk Hb n d t Hn) as (d1 & t1 & E1 & Hd1 & Ht1).
    destruct (IH (Some n) d1 t1) as (cur' & d' & t' & E & Hd & Ht). exists cur', d', t'.
    cbn [foldM]. unfold kw_step at 1. rewrite (proj2 (match_header_spec kw h n (proj1 Hk)) Hh). cbn [bind]. rewrite foldM_app, E1. cbn [bind]. split; [exact E|].
    split; intros k.
    + rewrite Hd, Hd1, more_rows_app. reflexivity.
    + rewrite Ht, Ht1, more_total_app. reflexivity.
Qed.
Lemma pre_steps kw pre d t : kw_ok kw -> (forall l n, In l pre -> ~ begins_block kw l n) -> foldM (kw_step kw) pre (None, d, t) = Ok (None, d, t).
Proof.
  intros Hk. induction pre as [|l pre IH]; intros H; [reflexivity|]. cbn [foldM]. unfold kw_step at 1.
  rewrite match_header_none by (apply Hk || (intros n; apply H; now left)). rewrite eb_none. cbn [bind]. apply IH. intros x n Hx. apply H. now right.
Qed.
Lemma listing_bins kw lines bs : kw_ok kw -> bin_listing kw lines bs -> exists cur d t, foldM (kw_step kw) lines (None, [], []) = Ok (cur, d, t) /\
    (forall k, dict_get Z.eqb k d = match rows_of_block k bs with [] => None | (_ :: _) as l => Some l end) /\
    (forall k, is_last (totals_of_block k bs) (dict_get Z.eqb k t)).
Proof.
  intros Hk (pre & ls & -> & Hp & Hb). destruct (blocks_steps kw ls bs Hk Hb None [] []) as (cur & d & t & E & Hd & Ht).
  exists cur, d, t. rewrite foldM_app, pre_steps by assumption. cbn [bind]. split; [exact E|]. split; intros k.
  - rewrite Hd. cbn. destruct (rows_of_block k bs); reflexivity.
  - rewrite Ht. apply more_total_last.
Qed.
Lemma kw_ok_surface : kw_ok (lit "surface").
Proof. split; [apply surface_word|]. exists (chr 115), (lit "urface"). repeat split. discriminate. Qed.
Lemma kw_ok_cell : kw_ok (lit "cell").
Proof. split; [apply cell_word|]. exists (chr 99), (lit "ell"). repeat split. discriminate. Qed.
Lemma surface_bins lines bs : bin_listing (lit "surface") lines bs -> exists d t, process_energy_binned_surface_tally lines = Ok (d, t) /\
    (forall k, dict_get Z.eqb k d = match rows_of_block k bs with [] => None | (_ :: _) as l => Some l end) /\
    (forall k, is_last (totals_of_block k bs) (dict_get Z.eqb k t)).
Proof.
  intros H. destruct (listing_bins _ _ _ kw_ok_surface H) as (cur & d & t & E & Hd & Ht). exists d, t.
  unfold process_energy_binned_surface_tally. rewrite (foldM_ext _ _ _ _ surface_kw), E. cbn [bind]. auto.
Qed.
Lemma cell_bins lines bs : bin_listing (lit "cell") lines bs -> exists d t, read_energy_bin_only_cell_tally lines = Ok (d, t) /\
    (forall k, dict_get Z.eqb k d = match rows_of_block k bs with [] => None | (_ :: _) as l => Some l end) /\
    (forall k, is_last (totals_of_block k bs) (dict_get Z.eqb k t)).
Proof.
  intros H. destruct (listing_bins _ _ _ kw_ok_cell H) as (cur & d & t & E & Hd & Ht). exists d, t.
  unfold read_energy_bin_only_cell_tally. rewrite (foldM_ext _ _ _ _ cell_kw), E. cbn [bind]. auto.
Qed.

(** * Lines of energies *)
Lemma split_on_printed e v u : ~ In (chr 32) e -> ~ In (chr 32) v -> ~ In (chr 32) u ->
  split_on c_space (e ++ lit "   " ++ v ++ lit " " ++ u) = [e; []; []; v; u].
Proof.
  intros He Hv Hu. apply lacks_In in He, Hv, Hu. change (lit "   " ++ v ++ lit " " ++ u) with (c_space :: [] ++ c_space :: [] ++ c_space :: v ++ c_space :: u).
  assert (Hn : lacks c_space []) by (apply lacks_In; intros []). rewrite (split_on_app c_space e) by exact He. rewrite (split_on_app c_space []) by exact Hn.
  rewrite (split_on_app c_space []) by exact Hn. rewrite (split_on_app c_space v) by exact Hv. now rewrite (split_on_lacks c_space u).
Qed.
