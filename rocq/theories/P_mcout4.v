(** Proofs about the MCNP output reader: tally types. *)
From Coq Require Import Lia ZArith Permutation.
From Verif Require Import PyBase PyFloat PyFs SpecStr PyFacts M_util SpecUtil P_util FloatFacts SpecInput TextFacts SpecOutput P_output P_output3 M_mcout SpecMcout P_mcout P_mcout2 P_mcout3.

(** * Printed lines *)
Lemma energy_line_spec l r : energy_printed l r -> energy_line l = Ok r.
Proof.
  intros (e & v & u & Ht & He & Hv & Hu & R1 & R2 & R3). apply trimmed_strip in Ht. unfold energy_line. rewrite Ht, split_on_printed by assumption.
  change (py_nth [e; []; []; v; u] 0%Z) with (Ok e). change (py_nth [e; []; []; v; u] 3%Z) with (Ok v). change (py_nth [e; []; []; v; u] 4%Z) with (Ok u).
  cbn [bind]. unfold reads in *. rewrite R1. cbn [bind]. rewrite R2. cbn [bind]. rewrite R3. cbn [bind]. now destruct r as [[? ?] ?].
Qed.
Lemma energy_lines_mapM ls rs : Forall2 energy_printed ls rs -> mapM energy_line ls = Ok rs.
Proof. intros H. apply mapM_Ok_iff. induction H; constructor; [now apply energy_line_spec|assumption]. Qed.
Lemma energy_lines_spec ls rs : Forall2 energy_printed ls rs ->
  process_energy_lines ls = Ok (map (fun r => fst (fst r)) rs, map (fun r => snd (fst r)) rs, map snd rs).
Proof. intros H. unfold process_energy_lines. now rewrite (energy_lines_mapM _ _ H). Qed.
Lemma energy_line_tight a l b e v u x : trimmed l (e ++ lit " " ++ v ++ lit " " ++ u) -> ~ In (chr 32) e -> ~ In (chr 32) v -> ~ In (chr 32) u -> reads e x ->
  (forall y, In y a -> exists r, energy_printed y r) -> process_energy_lines (a ++ l :: b) = Err IndexError.
Proof.
  intros Ht He Hv Hu R Ha. apply trimmed_strip in Ht. apply lacks_In in He, Hv, Hu.
  assert (El : energy_line l = Err IndexError).
  { unfold energy_line. rewrite Ht. change (lit " " ++ v ++ lit " " ++ u) with (c_space :: v ++ c_space :: u).
    rewrite (split_on_app c_space e) by exact He. rewrite (split_on_app c_space v) by exact Hv. rewrite (split_on_lacks c_space u) by exact Hu.
    change (py_nth [e; v; u] 0%Z) with (Ok e). cbn [bind]. unfold reads in R. rewrite R. reflexivity. }
  unfold process_energy_lines. assert (Em : mapM energy_line (a ++ l :: b) = Err IndexError); [|now rewrite Em].
  induction a as [|y a IH]; cbn [app mapM]; [now rewrite El|]. destruct (Ha y (or_introl eq_refl)) as (r & Hr). rewrite (energy_line_spec _ _ Hr).
  rewrite IH; [reflexivity|]. intros z Hz. apply Ha. now right.
Qed.
Lemma value_line_spec lines i l r : nth_error lines i = Some l -> value_printed l r -> value_line lines (Z.of_nat i) = Ok r.
Proof.
  intros Hi (v & u & Ht & Hv & Hu & R1 & R2). apply trimmed_strip in Ht. apply lacks_In in Hv, Hu. unfold value_line. rewrite py_nth_nat, Hi. cbn [bind]. rewrite Ht.
  change (lit " " ++ u) with (c_space :: u). rewrite (split_on_app c_space v) by exact Hv. rewrite (split_on_lacks c_space u) by exact Hu.
  change (py_nth [v; u] 0%Z) with (Ok v). change (py_nth [v; u] 1%Z) with (Ok u). cbn [bind]. unfold reads in *. rewrite R1. cbn [bind]. rewrite R2. now destruct r.
Qed.

(** * Surface tallies *)
Lemma value_surfaces_len s1 s2 lines loc : List.length s1 = List.length s2 -> value_surfaces s1 lines loc = value_surfaces s2 lines loc.
Proof.
  revert s2 loc. induction s1 as [|x s1 IH]; intros [|y s2] loc H; cbn in H; try discriminate; [reflexivity|]. cbn [value_surfaces].
  destruct (find_line (lit " surface ") (slice_from loc lines) 9); [|reflexivity]. cbn [bind]. rewrite (IH s2) by lia. reflexivity.
Qed.
Lemma time_surfaces_len s1 s2 lines first : List.length s1 = List.length s2 -> time_surfaces s1 lines first = time_surfaces s2 lines first.
Proof.
  revert s2 first. induction s1 as [|x s1 IH]; intros [|y s2] first H; cbn in H; try discriminate; [reflexivity|]. cbn [time_surfaces].
  destruct (find_ind (slice_from first lines) (lit "total")); [|reflexivity]. cbn [bind]. rewrite (IH s2) by lia. reflexivity.
Qed.
Lemma et_surfaces_len s1 s2 lines first : List.length s1 = List.length s2 -> et_surfaces s1 lines first = et_surfaces s2 lines first.
Proof.
  revert s2 first. induction s1 as [|x s1 IH]; intros [|y s2] first H; cbn in H; try discriminate; [reflexivity|]. cbn [et_surfaces]. cbv zeta.
  rewrite (IH s2) by lia. reflexivity.
Qed.
Definition with_surfaces (b : tbody) (s : option (list str)) : tbody :=
  TBody (b_result b) (b_err b) (b_eng b) (b_times b) (b_user_bins b) (b_totals b) s (b_areas b) (b_ang b) (b_cells b) (b_vols b) (b_f5 b).
Lemma type1_order o1 o2 lines b : rearranges o1 -> rearranges o2 -> read_type_surface o1 (chr 49) lines = Ok b ->
  exists l, get_type1_surface_numbers lines = Ok l /\ b_surfaces b = Some (o1 (set_of l)) /\
    read_type_surface o2 (chr 49) lines = Ok (with_surfaces b (Some (o2 (set_of l)))).
Proof.
  intros R1 R2. unfold read_type_surface. change (Ascii.eqb (chr 49) (chr 50)) with false. change (Ascii.eqb (chr 49) (chr 49)) with true. cbv iota. cbn [bind].
  destruct (get_type1_surface_numbers lines) as [l|e]; [|discriminate]. cbn [bind]. cbv zeta.
  assert (El : List.length (o1 (set_of l)) = List.length (o2 (set_of l))).
  { rewrite <- (Permutation_length (R1 (set_of l))), <- (Permutation_length (R2 (set_of l))). reflexivity. }
  assert (Ez : zlen (o2 (set_of l)) = zlen (o1 (set_of l))) by (unfold zlen; now rewrite El).
  rewrite Ez. rewrite <- !(value_surfaces_len _ _ _ _ El).
  destruct (find_line (lit " surface ") lines 9) as [first|e]; [|discriminate]. cbn [bind].
  destruct (py_nth lines (Z.of_nat first + 1)) as [next|e]; [|discriminate]. cbn [bind].
  destruct (contains (lit "energy") next).
  { destruct (process_energy_binned_surface_tally lines) as [[result totals]|e]; [|discriminate]. cbn [bind].
    destruct (first_energies result) as [eng|e]; [|discriminate]. cbn [bind]. intros H; injection H as <-. exists l. repeat split. }
  destruct (contains (lit "angle") next).
  { destruct (py_nth lines (Z.of_nat first + 2)) as [next2|e]; [|discriminate]. cbn [bind]. destruct (str_eqb next2 energy_head).
    - destruct (process_energy_angle_tally lines (Z.of_nat first)) as [st|e]; [|discriminate]. cbn [bind]. intros H; injection H as <-. exists l. repeat split.
    - intros H; injection H as <-. exists l. repeat split. }
  destruct (contains (lit "time") next).
  { destruct (find_line (lit " ===") lines 4) as [el|e]; [|discriminate]. cbn [bind].
    destruct (py_nth (slice_to (Z.of_nat el) lines) (Z.of_nat first + 2)) as [next2|e]; [|discriminate]. cbn [bind].
    rewrite <- !(et_surfaces_len _ _ _ _ El), <- !(time_surfaces_len _ _ _ _ El).
    destruct (contains (lit "energy") next2); destruct (1 <? zlen (o1 (set_of l)))%Z.
    - destruct (et_surfaces _ _ _) as [rs|e]; [|discriminate]. cbn [bind]. destruct (last_res rs) as [[[[tb eb] ?] ?]|]; [|discriminate].
      intros H; injection H as <-. exists l. repeat split.
    - destruct (process_e_t_userbin _) as [[[[tb eb] v] u]|e]; [|discriminate]. cbn [bind]. intros H; injection H as <-. exists l. repeat split.
    - destruct (time_surfaces _ _ _) as [rs|e]; [|discriminate]. cbn [bind]. destruct (last_res rs) as [[[tb ?] ?]|]; [|discriminate].
      intros H; injection H as <-. exists l. repeat split.
    - destruct (find_ind _ _) as [i|e]; [|discriminate]. cbn [bind]. destruct (process_time_bin_only _) as [[[tb v] u]|e]; [|discriminate]. cbn [bind].
      intros H; injection H as <-. exists l. repeat split. }
  destruct (1 <? zlen (o1 (set_of l)))%Z.
  - destruct (value_surfaces _ _ _) as [rs|e]; [|discriminate]. cbn [bind]. intros H; injection H as <-. exists l. repeat split.
  - destruct (value_line _ _) as [r|e]; [|discriminate]. cbn [bind]. intros H; injection H as <-. exists l. repeat split.
Qed.
Lemma rev_neq {A} (l : list A) : NoDup l -> 2 <= List.length l -> rev l <> l.
Proof.
  intros Hn Hl E. destruct l as [|x [|y r]]; cbn in Hl; try lia.
  destruct (snoc_cases (y :: r)) as [C|(a & z & Ez)]; [discriminate|]. rewrite Ez in E, Hn. cbn [rev] in E. rewrite rev_app_distr in E. cbn in E. injection E as -> _.
  inversion Hn as [|? ? Hx _]. apply Hx. apply in_or_app. right. now left.
Qed.
Lemma type1_refuted order lines b ss : rearranges order -> read_type_surface order (chr 49) lines = Ok b -> b_surfaces b = Some ss -> 2 <= List.length ss ->
  exists order' b' ss', rearranges order' /\ read_type_surface order' (chr 49) lines = Ok b' /\ b_surfaces b' = Some ss' /\
    Permutation ss ss' /\ ss' <> ss /\ b_result b' = b_result b /\ b_err b' = b_err b.
Proof.
  intros R H Hs Hl. set (o' := fun l => rev (order l)).
  assert (R' : rearranges o') by (intros l; unfold o'; transitivity (order l); [apply R|apply Permutation_rev]).
  destruct (type1_order order o' lines b R R' H) as (l & _ & E & E'). rewrite Hs in E. injection E as ->.
  exists o', (with_surfaces b (Some (o' (set_of l)))), (o' (set_of l)). split; [exact R'|]. split; [exact E'|]. split; [reflexivity|].
  split; [unfold o'; apply Permutation_rev|]. split; [|split; reflexivity].
  unfold o'. apply rev_neq; [|exact Hl]. apply (Permutation_NoDup (R (set_of l))). destruct (set_of_spec l) as (N & _). exact N.
Qed.

(** Values in the printed order. *)
Lemma title_surface h s : surface_title h s -> occurs (lit "surface") h /\ prefix_of (lit " surface ") h.
Proof. intros ((t & ->) & _). split; [exists (lit " "), (lit " " ++ t); reflexivity|now exists t]. Qed.
Lemma no_surface_title l : ~ occurs (lit "surface") l -> ~ prefix_of (lit " surface ") l.
Proof. intros H (t & ->). apply H. exists (lit " "), (lit " " ++ t). reflexivity. Qed.
Lemma none_surface gap : none_of (occurs (lit "surface")) gap -> none_of (prefix_of (lit " surface ")) gap.
Proof. intros H l Hl. now apply no_surface_title, H. Qed.
Lemma surface_values_cons l ls rs : ~ occurs (lit "surface") l -> surface_values ls rs -> surface_values (l :: ls) rs.
Proof.
  intros Hn H. inversion H as [gap' Hg' E1 E2|gap' h' s' l' r' ls' rs' Hg' Hh' Hl' Hn' H' E1 E2]; subst.
  - apply sv_end. intros y [<-|Hy]; [exact Hn|now apply Hg'].
  - change (l :: gap' ++ h' :: l' :: ls') with ((l :: gap') ++ h' :: l' :: ls'). apply sv_one; try assumption. intros y [<-|Hy]; [exact Hn|now apply Hg'].
Qed.
Lemma value_surfaces_spec ls rs : surface_values ls rs -> forall done ss, List.length ss = List.length rs ->
  value_surfaces ss (done ++ ls) (Z.of_nat (List.length done)) = Ok (map snd rs).
Proof.
  remember (List.length rs) as n eqn:Hr. revert ls rs Hr. induction n as [|n IHn]; intros ls rs Hr Hv done ss Hs.
  - destruct rs; [|discriminate]. destruct ss; [reflexivity|discriminate].
  - destruct ss as [|x ss]; [discriminate|]. inversion Hv as [gap Hg E1 E2|gap h s l r ls0 rs0 Hg Hh Hl Hn H0 E1 E2]; subst; [discriminate|].
    cbn [value_surfaces]. rewrite slice_from_nat, skipn_app, skipn_all, Nat.sub_diag. cbn [app skipn].
    rewrite (find_line_app (lit " surface ") 9 gap h (l :: ls0) eq_refl (none_surface _ Hg) (proj2 (title_surface _ _ Hh))). cbn [bind].
    replace (Z.of_nat (List.length gap) + Z.of_nat (List.length done) + 1)%Z with (Z.of_nat (List.length (done ++ gap ++ [h]))) by (rewrite !app_length; cbn [List.length]; lia).
    assert (El : done ++ gap ++ h :: l :: ls0 = (done ++ gap ++ [h]) ++ l :: ls0) by (now rewrite <- !app_assoc).
    rewrite El. rewrite (value_line_spec _ _ l r); [|rewrite nth_error_app2, Nat.sub_diag by lia; reflexivity|exact Hl]. cbn [bind].
    cbn in Hr, Hs. rewrite (IHn (l :: ls0) rs0); [reflexivity|lia|now apply surface_values_cons|lia].
Qed.
Lemma type1_numbers_spec ls rs : surface_values ls rs -> mapM (fun line => py_nth (split_ws (strip line)) (-1)%Z) (filter (contains (lit "surface")) ls) = Ok (map fst rs).
Proof.
  induction 1 as [gap Hg|gap h s l r ls rs Hg Hh Hl Hn H IH].
  - assert (E : filter (contains (lit "surface")) gap = []).
    { induction gap as [|y gap IH]; [reflexivity|]. cbn [filter]. rewrite (proj2 (contains_false _ _)) by (apply Hg; now left). apply IH. intros z Hz. apply Hg. now right. }
    now rewrite E.
  - rewrite filter_app. assert (E : filter (contains (lit "surface")) gap = []).
    { clear -Hg. induction gap as [|y gap IH]; [reflexivity|]. cbn [filter]. rewrite (proj2 (contains_false _ _)) by (apply Hg; now left). apply IH. intros z Hz. apply Hg. now right. }
    rewrite E. cbn [app filter]. rewrite (proj2 (contains_spec _ _)) by apply (title_surface _ _ Hh). rewrite (proj2 (contains_false _ _) Hn).
    cbn [mapM]. destruct Hh as (_ & ws & Hw). rewrite split_ws_strip. apply words_split in Hw. rewrite Hw, py_nth_last. cbn [bind]. rewrite IH. reflexivity.
Qed.
Lemma surface_values_first ls s r rs : surface_values ls ((s, r) :: rs) -> exists gap h l ls', ls = gap ++ h :: l :: ls' /\
  none_of (prefix_of (lit " surface ")) gap /\ prefix_of (lit " surface ") h /\ value_printed l r.
Proof.
  inversion 1 as [|gap h s' l r' ls' rs' Hg Hh Hl Hn H' E1 E2]; subst. exists gap, h, l, ls'. split; [reflexivity|]. split; [now apply none_surface|].
  split; [apply (title_surface _ _ Hh)|exact Hl].
Qed.
(** A type 1 tally with several surfaces and one value each. *)
Lemma type1_values order l0 l1 ls s r s2 r2 rs ss : ~ prefix_of (lit " surface ") l0 -> ~ prefix_of (lit " surface ") l1 ->
  surface_values ls ((s, r) :: (s2, r2) :: rs) ->
  NoDup (map fst ((s, r) :: (s2, r2) :: rs)) -> rearranges order -> order (map fst ((s, r) :: (s2, r2) :: rs)) = ss ->
  (forall gap h l ls', ls = gap ++ h :: l :: ls' -> prefix_of (lit " surface ") h -> none_of (prefix_of (lit " surface ")) gap ->
     ~ occurs (lit "energy") l /\ ~ occurs (lit "angle") l /\ ~ occurs (lit "time") l) ->
  exists b, read_type_surface order (chr 49) (l0 :: l1 :: ls) = Ok b /\ b_surfaces b = Some ss /\
    b_result b = TList (map (fun x => EFloat (fst (snd x))) ((s, r) :: (s2, r2) :: rs)) /\
    b_err b = TList (map (fun x => EFloat (snd (snd x))) ((s, r) :: (s2, r2) :: rs)).
Proof.
  intros H0 H1 Hv Hnd R Ho Hpl. unfold read_type_surface. change (Ascii.eqb (chr 49) (chr 50)) with false. change (Ascii.eqb (chr 49) (chr 49)) with true. cbv iota. cbn [bind].
  assert (En : get_type1_surface_numbers (l0 :: l1 :: ls) = Ok (map fst ((s, r) :: (s2, r2) :: rs))).
  { unfold get_type1_surface_numbers. change 2%Z with (Z.of_nat 2). rewrite slice_from_nat. cbn [skipn]. now apply type1_numbers_spec. }
  rewrite En. cbn [bind]. cbv zeta.
  assert (Eset : set_of (map fst ((s, r) :: (s2, r2) :: rs)) = map fst ((s, r) :: (s2, r2) :: rs)).
  { generalize (map fst ((s, r) :: (s2, r2) :: rs)) Hnd. clear. intros l Hn. unfold set_of.
    assert (G : forall l acc, NoDup (acc ++ l) -> fold_left (fun acc x => if existsb (str_eqb x) acc then acc else acc ++ [x]) l acc = acc ++ l).
    { clear. induction l as [|x l IH]; intros acc H; cbn [fold_left]; [now rewrite app_nil_r|].
      assert (E : existsb (str_eqb x) acc = false).
      { destruct (existsb (str_eqb x) acc) eqn:E; [|reflexivity]. apply existsb_str_In in E. apply NoDup_remove_2 in H. elim H. apply in_or_app. now left. }
      rewrite E, IH; now rewrite <- app_assoc. }
    now rewrite G. }
  rewrite Eset, Ho. assert (Hlen : List.length ss = S (S (List.length rs))) by (rewrite <- Ho, <- (Permutation_length (R _)), map_length; reflexivity).
  destruct (surface_values_first _ _ _ _ Hv) as (gap & h & l & ls' & El & Hg & Hh & Hl).
  assert (Ef : find_line (lit " surface ") (l0 :: l1 :: ls) 9 = Ok (List.length (l0 :: l1 :: gap))).
  { rewrite El. change (l0 :: l1 :: gap ++ h :: l :: ls') with ((l0 :: l1 :: gap) ++ h :: l :: ls'). apply find_line_app; [reflexivity| |exact Hh].
    intros y [<-|[<-|Hy]]; [exact H0|exact H1|now apply Hg]. }
  rewrite Ef. cbn [bind].
  assert (Enext : py_nth (l0 :: l1 :: ls) (Z.of_nat (List.length (l0 :: l1 :: gap)) + 1) = Ok l).
  { replace (Z.of_nat (List.length (l0 :: l1 :: gap)) + 1)%Z with (Z.of_nat (S (List.length (l0 :: l1 :: gap)))) by lia. rewrite py_nth_nat, El.
    change (l0 :: l1 :: gap ++ h :: l :: ls') with ((l0 :: l1 :: gap) ++ h :: l :: ls'). rewrite nth_error_app2 by lia.
    replace (S (List.length (l0 :: l1 :: gap)) - List.length (l0 :: l1 :: gap)) with 1 by lia. reflexivity. }
  rewrite Enext. cbn [bind]. destruct (Hpl gap h l ls' El Hh Hg) as (N1 & N2 & N3).
  rewrite (proj2 (contains_false _ _) N1), (proj2 (contains_false _ _) N2), (proj2 (contains_false _ _) N3).
  assert (Ez : (1 <? zlen ss)%Z = true) by (apply Z.ltb_lt; unfold zlen; lia). rewrite Ez.
  assert (Evs : value_surfaces ss (l0 :: l1 :: ls) 0 = Ok (map snd ((s, r) :: (s2, r2) :: rs))).
  { (* the two first lines hold no title *)
    destruct ss as [|x ss]; [discriminate|]. cbn [value_surfaces]. change (slice_from 0 (l0 :: l1 :: ls)) with (slice_from (Z.of_nat 0) (l0 :: l1 :: ls)).
    rewrite slice_from_nat. cbn [skipn]. rewrite Ef. cbn [bind].
    pose proof (value_surfaces_spec _ _ Hv [l0; l1] (x :: ss) ltac:(cbn in *; lia)) as G. cbn [value_surfaces app List.length] in G.
    rewrite slice_from_nat in G. cbn [skipn] in G. rewrite El in G at 1. rewrite (find_line_app (lit " surface ") 9 gap h (l :: ls') eq_refl Hg Hh) in G. cbn [bind] in G.
    replace (Z.of_nat (List.length (l0 :: l1 :: gap)) + 0)%Z with (Z.of_nat (List.length gap) + Z.of_nat 2)%Z by (cbn [List.length]; lia). exact G. }
  rewrite Evs. cbn [bind]. eexists. split; [reflexivity|]. cbn [b_surfaces b_result b_err]. split; [reflexivity|]. split; now rewrite map_map.
Qed.

(** * User bins of type 5 tallies *)
Lemma type5_user_bin lines i l : first_index (prefix_of (lit " detector located")) lines i -> nth_error lines (S i) = Some l ->
  occurs (lit "user bin") l -> ~ occurs (lit "time") l -> exists e, read_type_5 lines = Err e.
Proof.
  intros Hf Hl Ho Ht. destruct (read_type_5 lines) as [b|e] eqn:E; [|eauto]. exfalso. revert E. unfold read_type_5.
  rewrite (proj2 (find_line_pre_Ok (lit " detector located") lines 17 i eq_refl) Hf). cbn [bind].
  destruct (py_nth lines (Z.of_nat i)) as [ln|e]; [|discriminate]. cbn [bind].
  destruct (py_nth (split_on c_eq ln) 1%Z) as [lc|e]; [|discriminate]. cbn [bind].
  destruct (py_float _) as [x|e]; [|discriminate]. cbn [bind]. destruct (py_float _) as [y|e]; [|discriminate]. cbn [bind]. destruct (py_float _) as [z|e]; [|discriminate]. cbn [bind].
  replace (Z.of_nat i + 1)%Z with (Z.of_nat (S i)) by lia. rewrite py_nth_nat, Hl. cbn [bind].
  assert (Eh : str_eqb l energy_head = false).
  { apply str_eqb_neq. intros ->. apply contains_spec in Ho. vm_compute in Ho. discriminate. }
  rewrite Eh, (proj2 (contains_false _ _) Ht), (proj2 (contains_spec _ _) Ho).
  rewrite slice_from_nat. assert (Es : skipn (S i) lines = l :: skipn (S (S i)) lines).
  { destruct (nth_error_split _ _ Hl) as (a & c & -> & Ha). rewrite !skipn_app, <- Ha. rewrite skipn_all, (skipn_all2 a) by lia. rewrite Nat.sub_diag. replace (S (List.length a) - List.length a) with 1 by lia. reflexivity. }
  rewrite Es. cbn [user_bin_scan]. rewrite (proj2 (contains_spec _ _) Ho).
  destruct (str_eqb (last (split_on c_space l) []) (lit "total")); cbn [map snd user_bin_blocks];
    change (Z.of_nat 0) with 0%Z; change (slice_btw 0 0 (l :: skipn (S (S i)) lines)) with (slice_btw (Z.of_nat 0) (Z.of_nat 0) (l :: skipn (S (S i)) lines));
    rewrite slice_btw_nat; cbn [firstn skipn]; discriminate.
Qed.

(** * Type 8 *)
Lemma type8_cell lines b : read_type_8 lines = Ok b -> b_cells b = Some [lit "2"].
Proof.
  unfold read_type_8. destruct (find_line _ lines _) as [s|e]; [|discriminate]. cbn [bind]. destruct (py_nth lines _) as [l|e]; [|discriminate]. cbn [bind].
  destruct (str_eqb l energy_head).
  - destruct (find_line _ (slice_from _ lines) 15) as [i|e]; [|discriminate]. cbn [bind]. destruct (process_energy_lines _) as [[[a c] d]|e]; [|discriminate]. cbn [bind]. intros H; injection H as <-. reflexivity.
  - match goal with |- bind ?x _ = _ -> _ => destruct x as [x0|e]; [|discriminate] end. cbn [bind].
    match goal with |- bind ?x _ = _ -> _ => destruct x as [x1|e]; [|discriminate] end. cbn [bind]. intros H; injection H as <-. reflexivity.
Qed.
Lemma type8_other lines : none_of (prefix_of (lit " cell  2")) lines -> read_type_8 lines = Err ValueError.
Proof.
  intros H. unfold read_type_8. change (lit " cell  " ++ lit "2") with (lit " cell  2"). change (zlen (lit "2") + zlen (lit " cell  "))%Z with 8%Z.
  now rewrite find_line_none.
Qed.
Lemma type8_value lines i l r : first_index (prefix_of (lit " cell  2")) lines i -> nth_error lines (S i) = Some l -> value_printed l r ->
  exists b, read_type_8 lines = Ok b /\ b_result b = TList [EFloat (fst r)] /\ b_err b = TList [EFloat (snd r)].
Proof.
  intros Hf Hl Hv. unfold read_type_8. change (lit " cell  " ++ lit "2") with (lit " cell  2"). change (zlen (lit "2") + zlen (lit " cell  "))%Z with 8%Z.
  rewrite (proj2 (find_line_pre_Ok (lit " cell  2") lines 8 i eq_refl) Hf). cbn [bind]. replace (Z.of_nat i + 1)%Z with (Z.of_nat (S i)) by lia.
  pose proof (value_line_spec lines (S i) l r Hl Hv) as E. unfold value_line in E. rewrite py_nth_nat, Hl in E |- *. cbn [bind] in E |- *.
  assert (Eh : str_eqb l energy_head = false).
  { apply str_eqb_neq. intros ->. vm_compute in E. discriminate. }
  rewrite Eh. destruct (bind (py_nth (split_on c_space (strip l)) 0%Z) py_float) as [x|e]; [|discriminate]. cbn [bind] in E |- *.
  destruct (bind (py_nth (split_on c_space (strip l)) 1%Z) py_float) as [u|e]; [|discriminate]. cbn [bind] in E |- *. injection E as <-. eexists. split; [reflexivity|]. split; reflexivity.
Qed.
