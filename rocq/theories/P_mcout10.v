(** Proofs about the MCNP output reader: bins of surface current tallies. *)
From Coq Require Import Lia ZArith Permutation.
From Verif Require Import PyBase PyFloat PyFs SpecStr PyFacts M_util SpecUtil P_util FloatFacts SpecInput TextFacts SpecOutput P_output P_output3 M_mcout SpecMcout P_mcout P_mcout2 P_mcout3 P_mcout4 P_mcout5 P_mcout6 P_mcout7 SpecMcout2.
Local Open Scope nat_scope.

Lemma named_spec ls ss : named_surfaces ls ss -> mapM (fun line => py_nth (split_ws (strip line)) (-1)%Z) (filter (contains (lit "surface")) ls) = Ok ss.
Proof.
  induction 1 as [|l ls ss Hn _ IH|l s ls ss (Ho & ws & Hw) _ IH]; cbn [filter]; [reflexivity|now rewrite (proj2 (contains_false _ _) Hn)|].
  rewrite (proj2 (contains_spec _ _) Ho). cbn [mapM]. rewrite split_ws_strip. apply words_split in Hw. rewrite Hw, py_nth_last. cbn [bind]. now rewrite IH.
Qed.
Lemma set_of_distinct l : NoDup l -> set_of l = l.
Proof.
  intros Hn. unfold set_of.
  assert (G : forall l acc, NoDup (acc ++ l) -> fold_left (fun acc x => if existsb (str_eqb x) acc then acc else acc ++ [x]) l acc = acc ++ l).
  { clear. induction l as [|x l IH]; intros acc H; cbn [fold_left]; [now rewrite app_nil_r|].
    assert (E : existsb (str_eqb x) acc = false).
    { destruct (existsb (str_eqb x) acc) eqn:E; [|reflexivity]. apply existsb_str_In in E. apply NoDup_remove_2 in H. elim H. apply in_or_app. now left. }
    rewrite E, IH; now rewrite <- app_assoc. }
  now rewrite G.
Qed.
Lemma type1_found lines nm : named_surfaces (skipn 2 lines) nm -> get_type1_surface_numbers lines = Ok nm.
Proof. intros H. unfold get_type1_surface_numbers. change 2%Z with (Z.of_nat 2). rewrite slice_from_nat. now apply named_spec. Qed.
Ltac type1 H Nd := unfold read_type_surface; change (Ascii.eqb (chr 49) (chr 50)) with false; change (Ascii.eqb (chr 49) (chr 49)) with true; cbv iota;
  cbn [bind]; rewrite (type1_found _ _ H); cbn [bind]; rewrite (set_of_distinct _ Nd); cbv zeta.
Lemma order_length order (nm : list str) : rearranges order -> List.length (order nm) = List.length nm.
Proof. intros R. symmetry. apply Permutation_length, R. Qed.
Lemma order_one order (s : str) : rearranges order -> order [s] = [s].
Proof. intros R. apply Permutation_length_1_inv. apply (R [s]). Qed.
Lemma current_values order pre ls ss s r rs : named_surfaces (skipn 2 (pre ++ ls)) ss -> NoDup ss -> rearranges order -> none_of titles_surface pre ->
  surface_values ls ((s, r) :: rs) -> ss = map fst ((s, r) :: rs) ->
  (forall gap h l ls', ls = gap ++ h :: l :: ls' -> titles_surface h -> none_of titles_surface gap -> plain_value l) ->
  exists b, read_type_surface order (chr 49) (pre ++ ls) = Ok b /\ b_surfaces b = Some (order ss) /\ b_areas b = Some [] /\
    b_result b = TList (map (fun x => EFloat (fst (snd x))) ((s, r) :: rs)) /\
    b_err b = TList (map (fun x => EFloat (snd (snd x))) ((s, r) :: rs)).
Proof.
  intros Ha Nd R Hp Hv Hss Hpl. type1 Ha Nd. pose proof (order_length order ss R) as Lo. set (so := order ss) in *. clearbody so.
  destruct (surface_values_first _ _ _ _ Hv) as (gap & h & l & ls' & El & Hg & Hh & Hl).
  assert (Hpg : none_of titles_surface (pre ++ gap)) by (intros y Hy; apply in_app_or in Hy; destruct Hy; [now apply Hp|now apply Hg]).
  destruct (type2_first (pre ++ gap) h l ls' Hpg Hh) as (Ef & En).
  assert (Eq : pre ++ ls = (pre ++ gap) ++ h :: l :: ls') by (rewrite El; now rewrite app_assoc).
  rewrite <- Eq in Ef, En. rewrite Ef. cbn [bind]. rewrite En. cbn [bind].
  destruct (Hpl gap h l ls' El Hh Hg) as (N1 & N2 & N3).
  rewrite (proj2 (contains_false _ _) N1), (proj2 (contains_false _ _) N2), (proj2 (contains_false _ _) N3).
  destruct rs as [|(s2, r2) rs].
  - assert (Ez : (1 <? zlen so)%Z = false) by (unfold zlen; rewrite Lo, Hss; reflexivity). rewrite Ez.
    replace (Z.of_nat (List.length (pre ++ gap)) + 1)%Z with (Z.of_nat (S (List.length (pre ++ gap)))) by lia.
    rewrite (value_line_spec (pre ++ ls) _ l r); [|rewrite Eq, nth_error_app2 by lia; now replace (S (List.length (pre ++ gap)) - List.length (pre ++ gap)) with 1 by lia|exact Hl].
    cbn [bind]. eexists. split; [reflexivity|]. repeat split.
  - assert (Ez : (1 <? zlen so)%Z = true) by (apply Z.ltb_lt; unfold zlen; rewrite Lo, Hss; cbn [map List.length]; lia). rewrite Ez.
    assert (Evs : value_surfaces so (pre ++ ls) 0 = Ok (map snd ((s, r) :: (s2, r2) :: rs))).
    { pose proof (value_surfaces_spec _ _ Hv pre so ltac:(rewrite Lo, Hss, map_length; reflexivity)) as G. rewrite <- G. destruct so as [|x so]; [rewrite Hss in Lo; discriminate|]. cbn [map value_surfaces].
      assert (E0 : slice_from 0 (pre ++ ls) = pre ++ ls) by (apply (slice_from_nat 0)). rewrite E0. rewrite slice_from_nat, skipn_app, skipn_all, Nat.sub_diag. cbn [app skipn].
      rewrite Ef. assert (Ef2 : find_line (lit " surface ") ls 9 = Ok (List.length gap)) by (rewrite El; now apply find_line_app). rewrite Ef2. cbn [bind].
      now replace (Z.of_nat (List.length (pre ++ gap)) + 0)%Z with (Z.of_nat (List.length gap) + Z.of_nat (List.length pre))%Z by (rewrite app_length; lia). }
    rewrite Evs. cbn [bind]. eexists. split; [reflexivity|]. cbn [b_surfaces b_areas b_result b_err]. rewrite !map_map. repeat split.
Qed.
Lemma current_time_bins order pre ls e post ss ts r1 r2 rs : named_surfaces (skipn 2 (pre ++ ls ++ e :: post)) ss -> NoDup ss -> rearranges order -> none_of titles_surface pre ->
  time_tables ts ls (r1 :: r2 :: rs) -> ss = map fst (r1 :: r2 :: rs) -> time_then false ls -> none_of end_rule (pre ++ ls) -> end_rule e ->
  exists b, read_type_surface order (chr 49) (pre ++ ls ++ e :: post) = Ok b /\ b_surfaces b = Some (order ss) /\ b_areas b = Some [] /\ b_times b = Some (TimesText ts) /\
    b_result b = TList (map (fun x => ERow (map fst (snd x))) (r1 :: r2 :: rs)) /\
    b_err b = TList (map (fun x => ERow (map snd (snd x))) (r1 :: r2 :: rs)).
Proof.
  intros Ha Nd R Hp Ht Hss Hth Hr He. type1 Ha Nd. pose proof (order_length order ss R) as Lo. set (so := order ss) in *. clearbody so.
  destruct (type2_times pre ls e post false Hp (time_tables_title _ _ _ Ht) Hth Hr He) as (E1 & E2 & E3 & l1 & l2 & E4 & E5 & E6 & E7 & E8 & E9).
  rewrite E1. cbn [bind]. rewrite E4. cbn [bind]. rewrite E6, E7, E8, E2. cbn [bind]. rewrite E3, E5. cbn [bind]. rewrite E9.
  assert (Ez : (1 <? zlen so)%Z = true) by (apply Z.ltb_lt; unfold zlen; rewrite Lo, Hss; cbn [map List.length]; lia). rewrite Ez.
  rewrite (time_tables_spec _ _ _ Ht pre so) by (rewrite Lo, Hss, map_length; reflexivity). cbn [bind].
  destruct (last_map (fun x : str * list (float * float) => (ts, map fst (snd x), map snd (snd x))) (r1 :: r2 :: rs) ltac:(discriminate)) as (x & _ & El). rewrite El.
  eexists. split; [reflexivity|]. cbn [b_surfaces b_areas b_times b_result b_err]. rewrite !map_map. repeat split.
Qed.
Lemma current_time_one order pre ls e post s ts ps : named_surfaces (skipn 2 (pre ++ ls ++ e :: post)) [s] -> rearranges order -> none_of titles_surface pre -> none_of (occurs (lit "total")) pre ->
  time_tables ts ls [(s, ps)] -> time_then false ls -> none_of end_rule (pre ++ ls) -> end_rule e ->
  exists b, read_type_surface order (chr 49) (pre ++ ls ++ e :: post) = Ok b /\ b_surfaces b = Some [s] /\ b_areas b = Some [] /\ b_times b = Some (TimesText ts) /\
    b_result b = TList (map EFloat (map fst ps)) /\ b_err b = TList (map EFloat (map snd ps)).
Proof.
  intros Ha R Hp Hpt Ht Hth Hr He. type1 Ha (NoDup_cons s (@in_nil str s) (NoDup_nil str)). rewrite (order_one order s R).
  destruct (type2_times pre ls e post false Hp (time_tables_title _ _ _ Ht) Hth Hr He) as (E1 & E2 & E3 & l1 & l2 & E4 & E5 & E6 & E7 & E8 & E9).
  rewrite E1. cbn [bind]. rewrite E4. cbn [bind]. rewrite E6, E7, E8, E2. cbn [bind]. rewrite E3, E5. cbn [bind]. rewrite E9. change (1 <? zlen [s])%Z with false. cbv iota.
  inversion Ht as [h s' a t v ps' rest Hh Hn Hto Hb F1 F2|h s' a t v ps' gap ls' rs' Hh Hn Hto Hb H' F1 F2]; subst.
  - assert (Ei : find_ind (pre ++ h :: a ++ t :: v :: rest) (lit "total") = Ok (List.length (pre ++ h :: a))).
    { replace (pre ++ h :: a ++ t :: v :: rest) with ((pre ++ h :: a) ++ t :: v :: rest) by (now rewrite <- app_assoc).
      apply find_ind_app; [|exact Hto]. intros y Hy. apply in_app_or in Hy. destruct Hy; [now apply Hpt|now apply Hn]. }
    rewrite Ei. cbn [bind]. destruct (block_end pre h a t v rest Hn Hto) as (_ & Es).
    replace (Z.of_nat (List.length (pre ++ h :: a)) + 2)%Z with (Z.of_nat (S (List.length a)) + 2 + Z.of_nat (List.length pre))%Z by (rewrite app_length; cbn [List.length]; lia).
    rewrite Es, (time_bin_only_spec _ _ _ Hb). cbn [bind]. eexists. split; [reflexivity|]. repeat split.
  - exfalso. now apply time_tables_len in H'.
Qed.
Lemma current_et_bins order pre ls e post ss ts es r1 r2 rs : named_surfaces (skipn 2 (pre ++ ls ++ e :: post)) ss -> NoDup ss -> rearranges order -> none_of titles_surface pre ->
  et_tables ts es ls (r1 :: r2 :: rs) -> ascending es -> ascending ts -> ss = map fst (r1 :: r2 :: rs) -> time_then true ls -> none_of end_rule (pre ++ ls) -> end_rule e ->
  exists b VU, read_type_surface order (chr 49) (pre ++ ls ++ e :: post) = Ok b /\ b_surfaces b = Some (order ss) /\ b_areas b = Some [] /\
    b_times b = Some (TimesNum ts) /\ b_eng b = Some es /\
    b_result b = TList (map (fun x => EMat (fst x)) VU) /\ b_err b = TList (map (fun x => EMat (snd x)) VU) /\
    Forall2 (fun r x => matrix_of fst (snd r) (List.length es) (fst x) /\ matrix_of snd (snd r) (List.length es) (snd x)) (r1 :: r2 :: rs) VU.
Proof.
  intros Ha Nd R Hp Ht Hes Hts Hss Hth Hr He. type1 Ha Nd. pose proof (order_length order ss R) as Lo. set (so := order ss) in *. clearbody so.
  destruct (type2_times pre ls e post true Hp (et_tables_title _ _ _ _ Ht) Hth Hr He) as (E1 & E2 & E3 & l1 & l2 & E4 & E5 & E6 & E7 & E8 & E9).
  rewrite E1. cbn [bind]. rewrite E4. cbn [bind]. rewrite E6, E7, E8, E2. cbn [bind]. rewrite E3, E5. cbn [bind]. rewrite E9.
  assert (Ez : (1 <? zlen so)%Z = true) by (apply Z.ltb_lt; unfold zlen; rewrite Lo, Hss; cbn [map List.length]; lia). rewrite Ez.
  destruct (et_tables_spec _ _ _ _ Ht Hes Hts pre so ltac:(rewrite Lo, Hss, map_length; reflexivity)) as (VU & Ev & F). rewrite Ev. cbn [bind].
  match goal with |- context [last_res (map ?f VU)] => destruct (last_map f VU) as (x & _ & El) end; [intros ->; inversion F|].
  match goal with |- context [@last_res ?A ?l] => assert (E0 : @last_res A l = Some (ts, es, fst x, snd x)) by exact El; rewrite E0 end.
  eexists. exists VU. split; [reflexivity|]. cbn [b_surfaces b_areas b_times b_eng b_result b_err]. rewrite !map_map. repeat split; exact F || reflexivity.
Qed.
Lemma current_et_one order pre h body e post s ts es parts : named_surfaces (skipn 2 (pre ++ (h :: body) ++ e :: post)) [s] -> rearranges order -> none_of titles_surface pre ->
  surface_title h s -> et_listing es body parts -> parts <> [] -> concat (map fst parts) = ts -> ascending es -> ascending ts ->
  time_then true (h :: body) -> none_of end_rule (pre ++ h :: body) -> end_rule e ->
  exists b V U, read_type_surface order (chr 49) (pre ++ (h :: body) ++ e :: post) = Ok b /\ b_surfaces b = Some [s] /\ b_areas b = Some [] /\
    b_times b = Some (TimesNum ts) /\ b_eng b = Some es /\ b_result b = TMat V /\ b_err b = TMat U /\
    matrix_of fst parts (List.length es) V /\ matrix_of snd parts (List.length es) U.
Proof.
  intros Ha R Hp (Hh & _) Hb Hne Ec Hes Hts Hth Hr He. type1 Ha (NoDup_cons s (@in_nil str s) (NoDup_nil str)). rewrite (order_one order s R).
  destruct (type2_times pre (h :: body) e post true Hp (ex_intro _ h (ex_intro _ body (conj eq_refl Hh))) Hth Hr He) as (E1 & E2 & E3 & l1 & l2 & E4 & E5 & E6 & E7 & E8 & E9).
  rewrite E1. cbn [bind]. rewrite E4. cbn [bind]. rewrite E6, E7, E8, E2. cbn [bind]. rewrite E3, E5. cbn [bind]. rewrite E9. change (1 <? zlen [s])%Z with false. cbv iota.
  assert (Es : slice_btw (Z.of_nat (List.length pre) + 1) (Z.of_nat (List.length (pre ++ h :: body))) (pre ++ h :: body) = body).
  { replace (Z.of_nat (List.length pre) + 1)%Z with (Z.of_nat (List.length (pre ++ [h]))) by (rewrite app_length; cbn [List.length]; lia).
    rewrite slice_btw_nat, firstn_all. replace (pre ++ h :: body) with ((pre ++ [h]) ++ body) by (now rewrite <- app_assoc). now rewrite skipn_app, skipn_all, Nat.sub_diag. }
  rewrite Es. subst ts. destruct (userbin_ascending es body parts Hb Hne Hes Hts) as (V & U & E & HV & HU). rewrite E. cbn [bind].
  eexists. exists V, U. split; [reflexivity|]. cbn [b_surfaces b_areas b_times b_eng b_result b_err]. repeat split; try reflexivity; assumption || apply HV || apply HU.
Qed.
Lemma current_energies order pre h l rest ss bs k r rs ts bs' : named_surfaces (skipn 2 (pre ++ h :: l :: rest)) ss -> NoDup ss -> rearranges order -> none_of titles_surface pre -> titles_surface h -> occurs (lit "energy") l ->
  bin_listing (lit "surface") (pre ++ h :: l :: rest) bs -> bs = (k, r :: rs, ts) :: bs' ->
  exists b d t, read_type_surface order (chr 49) (pre ++ h :: l :: rest) = Ok b /\ b_surfaces b = Some (order ss) /\ b_areas b = Some [] /\ b_result b = TTable d /\ b_totals b = Some t /\
    (forall k, dict_get Z.eqb k d = match rows_of_block k bs with [] => None | (_ :: _) as l => Some l end) /\
    (forall k, is_last (totals_of_block k bs) (dict_get Z.eqb k t)) /\
    (exists k rows, dict_get Z.eqb k d = Some rows /\ b_eng b = Some (map (fun r => fst (fst r)) rows)).
Proof.
  intros Ha Nd R Hp Hh Hl Hb Ebs. type1 Ha Nd. pose proof (order_length order ss R) as Lo. set (so := order ss) in *. clearbody so. destruct (type2_first pre h l rest Hp Hh) as (Ef & En). rewrite Ef. cbn [bind]. rewrite En. cbn [bind].
  rewrite (proj2 (contains_spec _ _) Hl). destruct (surface_bins _ _ Hb) as (d & t & E & Hd & Ht). rewrite E. cbn [bind].
  destruct d as [|(k0, rows) d].
  - exfalso. specialize (Hd k). rewrite Ebs in Hd. unfold rows_of_block in Hd. cbn [map concat fst snd] in Hd. rewrite Z.eqb_refl in Hd. discriminate.
  - cbn [first_energies bind]. eexists. exists ((k0, rows) :: d), t. split; [reflexivity|]. split; [reflexivity|]. split; [reflexivity|]. split; [reflexivity|]. split; [reflexivity|]. split; [exact Hd|]. split; [exact Ht|].
    exists k0, rows. split; [cbn [dict_get]; now rewrite Z.eqb_refl|reflexivity].
Qed.

(** * Surfaces named several times *)
Lemma value_surfaces_some ls rs : surface_values ls rs -> forall done ss, List.length ss <= List.length rs ->
  value_surfaces ss (done ++ ls) (Z.of_nat (List.length done)) = Ok (map snd (firstn (List.length ss) rs)).
Proof.
  remember (List.length rs) as n eqn:Hr. revert ls rs Hr. induction n as [|n IHn]; intros ls rs Hr Hv done ss Hs.
  - destruct rs; [|discriminate]. destruct ss; [reflexivity|cbn in Hs; lia].
  - destruct ss as [|x ss]; [reflexivity|]. inversion Hv as [gap Hg E1 E2|gap h s l r ls0 rs0 Hg Hh Hl Hn H0 E1 E2]; subst; [discriminate|].
    cbn [value_surfaces]. rewrite slice_from_nat, skipn_app, skipn_all, Nat.sub_diag. cbn [app skipn].
    rewrite (find_line_app (lit " surface ") 9 gap h (l :: ls0) eq_refl (none_surface _ Hg) (proj2 (title_surface _ _ Hh))). cbn [bind].
    replace (Z.of_nat (List.length gap) + Z.of_nat (List.length done) + 1)%Z with (Z.of_nat (List.length (done ++ gap ++ [h]))) by (rewrite !app_length; cbn [List.length]; lia).
    assert (El : done ++ gap ++ h :: l :: ls0 = (done ++ gap ++ [h]) ++ l :: ls0) by (now rewrite <- !app_assoc).
    rewrite El. rewrite (value_line_spec _ _ l r); [|rewrite nth_error_app2, Nat.sub_diag by lia; reflexivity|exact Hl]. cbn [bind].
    cbn in Hr, Hs. rewrite (IHn (l :: ls0) rs0); [reflexivity|lia|now apply surface_values_cons|lia].
Qed.
Lemma set_of_length l ss : NoDup ss -> (forall x, In x ss <-> In x l) -> List.length (set_of l) = List.length ss.
Proof.
  intros N H. destruct (set_of_spec l) as (N' & H'). apply Nat.le_antisymm; apply NoDup_incl_length; try assumption; intros x Hx.
  - apply H. now apply H'.
  - apply H'. now apply H.
Qed.
Lemma current_repeated order pre ls nm ss s r rs : named_surfaces (skipn 2 (pre ++ ls)) nm -> NoDup ss -> (forall x, In x ss <-> In x nm) -> rearranges order -> none_of titles_surface pre ->
  surface_values ls ((s, r) :: rs) -> 2 <= List.length ss -> List.length ss <= List.length ((s, r) :: rs) ->
  (forall gap h l ls', ls = gap ++ h :: l :: ls' -> titles_surface h -> none_of titles_surface gap -> plain_value l) ->
  exists b, read_type_surface order (chr 49) (pre ++ ls) = Ok b /\
    b_result b = TList (map (fun x => EFloat (fst (snd x))) (firstn (List.length ss) ((s, r) :: rs))) /\
    b_err b = TList (map (fun x => EFloat (snd (snd x))) (firstn (List.length ss) ((s, r) :: rs))).
Proof.
  intros Ha Nd Hin R Hp Hv H2 Hle Hpl. unfold read_type_surface. change (Ascii.eqb (chr 49) (chr 50)) with false. change (Ascii.eqb (chr 49) (chr 49)) with true. cbv iota.
  cbn [bind]. rewrite (type1_found _ _ Ha). cbn [bind]. cbv zeta. pose proof (order_length order (set_of nm) R) as Lo. rewrite (set_of_length nm ss Nd Hin) in Lo. set (so := order (set_of nm)) in *. clearbody so.
  destruct (surface_values_first _ _ _ _ Hv) as (gap & h & l & ls' & El & Hg & Hh & Hl).
  assert (Hpg : none_of titles_surface (pre ++ gap)) by (intros y Hy; apply in_app_or in Hy; destruct Hy; [now apply Hp|now apply Hg]).
  destruct (type2_first (pre ++ gap) h l ls' Hpg Hh) as (Ef & En).
  assert (Eq : pre ++ ls = (pre ++ gap) ++ h :: l :: ls') by (rewrite El; now rewrite app_assoc).
  rewrite <- Eq in Ef, En. rewrite Ef. cbn [bind]. rewrite En. cbn [bind].
  destruct (Hpl gap h l ls' El Hh Hg) as (N1 & N2 & N3).
  rewrite (proj2 (contains_false _ _) N1), (proj2 (contains_false _ _) N2), (proj2 (contains_false _ _) N3).
  assert (Ez : (1 <? zlen so)%Z = true) by (apply Z.ltb_lt; unfold zlen; lia). rewrite Ez.
  assert (Evs : value_surfaces so (pre ++ ls) 0 = Ok (map snd (firstn (List.length ss) ((s, r) :: rs)))).
  { pose proof (value_surfaces_some _ _ Hv pre so ltac:(lia)) as G. rewrite Lo in G. rewrite <- G. destruct so as [|x so]; [cbn in Lo; lia|]. cbn [map value_surfaces].
    assert (E0 : slice_from 0 (pre ++ ls) = pre ++ ls) by (apply (slice_from_nat 0)). rewrite E0. rewrite slice_from_nat, skipn_app, skipn_all, Nat.sub_diag. cbn [app skipn].
    rewrite Ef. assert (Ef2 : find_line (lit " surface ") ls 9 = Ok (List.length gap)) by (rewrite El; now apply find_line_app). rewrite Ef2. cbn [bind].
    now replace (Z.of_nat (List.length (pre ++ gap)) + 0)%Z with (Z.of_nat (List.length gap) + Z.of_nat (List.length pre))%Z by (rewrite app_length; lia). }
  rewrite Evs. cbn [bind]. eexists. split; [reflexivity|]. cbn [b_surfaces b_areas b_result b_err]. rewrite !map_map. repeat split.
Qed.
