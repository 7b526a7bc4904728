(** Proofs about the MCNP output reader: surface tallies with angle bins, columns of times. *)
From Coq Require Import Lia ZArith Permutation.
From Verif Require Import PyBase PyFloat PyFs SpecStr PyFacts M_util SpecUtil P_util FloatFacts SpecInput TextFacts SpecOutput P_output P_output3 M_mcout SpecMcout P_mcout P_mcout2 P_mcout3 P_mcout4 P_mcout5 P_mcout6 P_mcout7 SpecMcout2 P_ptrac P_mcout8.
Local Open Scope nat_scope.

(** * Columns of values are not compared with the times *)
Lemma columns_free gap tl el rows fin rest ts tot es m k : none_of (heads (lit "time:")) gap -> time_line tl ts tot -> heads (lit "energy") el -> energy_rows rows es m -> es <> [] ->
  Forall (fun ps => List.length ps = k) m -> blank fin \/ heads (lit "total") fin -> none_of (heads (lit "time:")) rest ->
  exists T E, process_e_t_userbin (gap ++ tl :: el :: rows ++ fin :: rest) = Ok (T, E, map (map fst) m, map (map snd) m).
Proof.
  intros Hg Ht He Hr Hne Hk Hf Hrest. unfold process_e_t_userbin, et_start. rewrite foldM_app, gap_steps by exact Hg. cbn [bind foldM].
  rewrite (time_line_step _ _ _ _ Ht). cbn [bind et_times et_energies et_values et_uncerts M_mcout.et_block et_ublock].
  rewrite energy_head_step by (assumption || reflexivity). cbn [bind]. rewrite foldM_app, (energy_rows_steps _ _ _ Hr) by reflexivity.
  cbn [bind foldM et_times et_energies et_values et_uncerts M_mcout.et_block et_ublock app].
  assert (Lm : List.length es = List.length m) by (symmetry; apply (energy_rows_length _ _ _ Hr)).
  match goal with |- context [et_step ?S fin] => rewrite (fin_step fin S (map (map fst) m) (map (map snd) m) k Hf eq_refl eq_refl eq_refl) end;
    [|intros Q; apply map_eq_nil in Q; subst m; destruct es; [contradiction|discriminate]
     |rewrite Forall_map; eapply Forall_impl; [|exact Hk]; intros a <-; apply map_length
     |rewrite Forall_map; eapply Forall_impl; [|exact Hk]; intros a <-; apply map_length].
  cbn [bind et_times et_energies et_values et_uncerts app]. rewrite gap_steps by exact Hrest. cbn [bind et_times et_energies et_values et_uncerts app np_hstack forallb zip_app fold_left]. eauto.
Qed.

(** * Angle bins *)
Lemma type1_names lines : exists l, get_type1_surface_numbers lines = Ok l.
Proof.
  unfold get_type1_surface_numbers. generalize (slice_from 2 lines). clear. intros ls. induction ls as [|x ls (l & IH)]; [now exists []|]. cbn [filter].
  destruct (contains (lit "surface") x) eqn:E; [|now exists l]. cbn [mapM]. rewrite IH.
  assert (N : split_ws (strip x) <> []).
  { rewrite split_ws_strip. intros Q. apply contains_spec in E. apply words_split in Q.
    destruct (occurs_words (lit "surface") x [] ltac:(discriminate) ltac:(repeat constructor) Q E) as (w & [] & _). }
  destruct (split_ws (strip x)) as [|w ws] eqn:Q; [contradiction|]. destruct (exists_last (l := w :: ws)) as (i & y & Ey); [discriminate|]. rewrite Ey.
  exists (y :: l). rewrite py_nth_last. reflexivity.
Qed.
Lemma angle_only order pre h al l2 rest : none_of (prefix_of (lit " surface ")) pre -> prefix_of (lit " surface ") h -> occurs (lit "angle") al -> ~ occurs (lit "energy") al -> l2 <> lit "      energy   " ->
  exists b, read_type_surface order (chr 49) (pre ++ h :: al :: l2 :: rest) = Ok b /\ b_result b = TList [] /\ b_err b = TList [] /\ b_ang b = None.
Proof.
  intros Hp Hh Ha He Hl. destruct (type2_first pre h al (l2 :: rest) Hp Hh) as (F1 & F2). unfold read_type_surface.
  change (Ascii.eqb (chr 49) (chr 50)) with false. change (Ascii.eqb (chr 49) (chr 49)) with true. cbv iota. cbn [bind].
  destruct (type1_names (pre ++ h :: al :: l2 :: rest)) as (l & ->). cbn [bind]. rewrite F1. cbn [bind]. rewrite F2. cbn [bind].
  rewrite (proj2 (contains_false _ _) He), (proj2 (contains_spec _ _) Ha).
  replace (Z.of_nat (List.length pre) + 2)%Z with (Z.of_nat (List.length pre + 2)) by lia. rewrite py_nth_nat, nth_error_app2 by lia. replace (List.length pre + 2 - List.length pre) with 2 by lia. cbn [nth_error bind].
  destruct (str_eqb l2 energy_head) eqn:E; [apply str_eqb_eq in E; contradiction|]. eexists. split; [reflexivity|]. auto.
Qed.
Lemma angle_tally order pre h al rest b bs : none_of (prefix_of (lit " surface ")) pre -> prefix_of (lit " surface ") h -> occurs (lit "angle") al -> ~ occurs (lit "energy") al ->
  angle_blocks (h :: al :: lit "      energy   " :: rest) (b :: bs) ->
  exists t, read_type_surface order (chr 49) (pre ++ h :: al :: lit "      energy   " :: rest) = Ok t /\
    b_ang t = Some (fdec (-1) 0 :: map fst (b :: bs)) /\
    b_result t = TList (map (fun b => ERow (map (fun r => snd (fst r)) (snd b))) (b :: bs)) /\
    b_err t = TList (map (fun b => ERow (map snd (snd b))) (b :: bs)).
Proof.
  intros Hp Hh Ha He HB. destruct (type2_first pre h al (lit "      energy   " :: rest) Hp Hh) as (F1 & F2). unfold read_type_surface.
  change (Ascii.eqb (chr 49) (chr 50)) with false. change (Ascii.eqb (chr 49) (chr 49)) with true. cbv iota. cbn [bind].
  destruct (type1_names (pre ++ h :: al :: lit "      energy   " :: rest)) as (l & ->). cbn [bind]. rewrite F1. cbn [bind]. rewrite F2. cbn [bind].
  rewrite (proj2 (contains_false _ _) He), (proj2 (contains_spec _ _) Ha).
  replace (Z.of_nat (List.length pre) + 2)%Z with (Z.of_nat (List.length pre + 2)) by lia. rewrite py_nth_nat, nth_error_app2 by lia. replace (List.length pre + 2 - List.length pre) with 2 by lia. cbn [nth_error bind].
  change (str_eqb (lit "      energy   ") energy_head) with true. cbv iota.
  destruct (angle_tally_spec pre _ b bs HB) as (st & -> & E1 & E2 & E3 & _). cbn [bind]. eexists. split; [reflexivity|]. cbn [b_ang b_result b_err].
  rewrite E1, E2, E3, !map_map. auto.
Qed.
Lemma blocks_gap gap ls bs : Forall plain_line gap -> angle_blocks ls bs -> angle_blocks (gap ++ ls) bs.
Proof.
  intros G H. destruct H as [g Hg|g al rows tl x rs ls bs Hg Ha Hr Hp Ht H]; [constructor; now apply Forall_app|].
  rewrite app_assoc. constructor; try assumption. now apply Forall_app.
Qed.
Lemma blocks_app ls bs ls' bs' : angle_blocks ls bs -> angle_blocks ls' bs' -> angle_blocks (ls ++ ls') (bs ++ bs').
Proof.
  intros H H'. induction H as [g Hg|g al rows tl x rs ls bs Hg Ha Hr Hp Ht H IH]; [now apply blocks_gap|].
  cbn [app]. replace ((g ++ al :: lit "      energy   " :: rows ++ tl :: ls) ++ ls') with (g ++ al :: lit "      energy   " :: rows ++ tl :: (ls ++ ls')).
  - now constructor.
  - rewrite <- !app_assoc. cbn [app]. now rewrite <- app_assoc.
Qed.
Lemma angle_merged order pre h al rest ls b bs bs' : none_of (prefix_of (lit " surface ")) pre -> prefix_of (lit " surface ") h -> occurs (lit "angle") al -> ~ occurs (lit "energy") al ->
  angle_blocks (h :: al :: lit "      energy   " :: rest) (b :: bs) -> angle_blocks ls bs' ->
  exists t, read_type_surface order (chr 49) (pre ++ (h :: al :: lit "      energy   " :: rest) ++ ls) = Ok t /\
    b_ang t = Some (fdec (-1) 0 :: map fst (b :: bs) ++ map fst bs') /\
    b_result t = TList (map (fun b => ERow (map (fun r => snd (fst r)) (snd b))) ((b :: bs) ++ bs')).
Proof.
  intros Hp Hh Ha He HB H'. pose proof (blocks_app _ _ _ _ HB H') as Q. cbn [app] in Q.
  destruct (angle_tally order pre h al (rest ++ ls) b (bs ++ bs') Hp Hh Ha He Q) as (t & E & A & R & _). exists t. cbn [app]. split; [exact E|]. split; [|exact R].
  rewrite A. cbn [map app]. now rewrite map_app.
Qed.
