(** Proofs about the MCNP output reader: surface flux tallies. *)
From Coq Require Import Lia ZArith Permutation.
From Verif Require Import PyBase PyFloat PyFs SpecStr PyFacts M_util SpecUtil P_util FloatFacts SpecInput TextFacts SpecOutput P_output P_output3 M_mcout SpecMcout P_mcout P_mcout2 P_mcout3 P_mcout4 P_mcout5 P_mcout6 SpecMcout2.

(** * Surfaces and areas *)
Lemma areas_find lines ss ar : areas_printed lines ss ar -> exists i s a, find_line (lit "           areas") lines 16 = Ok i /\
  py_nth lines (Z.of_nat i + 1) = Ok s /\ py_nth lines (Z.of_nat i + 2) = Ok a /\ surfaces_line s ss /\ words a ar /\ ar <> [].
Proof.
  intros (pre & h & s & a & rest & -> & Hp & Hh & Hs & Ha & Hn). exists (List.length pre), s, a.
  split; [now apply find_line_app|]. split; [now rewrite py_nth_app by lia|]. split; [now rewrite py_nth_app by lia|]. auto.
Qed.
Lemma areas_spec lines ss ar : areas_printed lines ss ar -> get_type2_surface_areas lines = Ok ar.
Proof.
  intros H. destruct (areas_find _ _ _ H) as (i & s & a & Ef & _ & Ea & _ & Hw & Hn). unfold get_type2_surface_areas. rewrite Ef. cbn [bind]. rewrite Ea. cbn [bind].
  pose proof (words_Forall _ _ Hw) as Hf. apply words_split in Hw. rewrite Hw. now rewrite split_on_words.
Qed.
Lemma join_lacks sep ws : (forall s, In s ws -> ~ In (chr 58) s) -> ~ In (chr 58) sep -> ~ In (chr 58) (join sep ws).
Proof.
  intros H Hs. induction ws as [|w ws IH]; [intros []|]. destruct ws as [|v ws]; [cbn [join]; apply H; now left|].
  change (join sep (w :: v :: ws)) with (w ++ sep ++ join sep (v :: ws)). intros Hi. apply in_app_or in Hi. destruct Hi as [Hi|Hi]; [apply (H w); [now left|exact Hi]|].
  apply in_app_or in Hi. destruct Hi as [Hi|Hi]; [auto|]. apply IH; [|exact Hi]. intros s Hin. apply H. now right.
Qed.
Lemma numbers_spec lines ss ar : areas_printed lines ss ar -> get_type2_surface_numbers lines = Ok ss.
Proof.
  intros H. destruct (areas_find _ _ _ H) as (i & s & a & Ef & Es & _ & (k & Hw & Hk & Hc) & _). unfold get_type2_surface_numbers. rewrite Ef. cbn [bind]. rewrite Es. cbn [bind].
  pose proof (words_Forall _ _ Hw) as Hf. apply words_split in Hw. rewrite Hw.
  destruct ss as [|x ss].
  - cbn [join]. change [chr 58] with (c_col :: []). rewrite split_on_app by (now apply lacks_In). reflexivity.
  - change (join [c_space] ((k ++ [chr 58]) :: x :: ss)) with ((k ++ [c_col]) ++ c_space :: join [c_space] (x :: ss)).
    rewrite <- app_assoc. cbn [app]. rewrite split_on_app by (now apply lacks_In).
    assert (L : lacks c_col (c_space :: join [c_space] (x :: ss))).
    { apply lacks_In. intros [E|Hi]; [discriminate|]. revert Hi. apply join_lacks; [exact Hc|]. intros [E|[]]. discriminate. }
    rewrite (split_on_lacks c_col _ L). change (py_nth [k; c_space :: join [c_space] (x :: ss)] 1%Z) with (Ok (c_space :: join [c_space] (x :: ss))). cbn [bind].
    change (c_space :: join [c_space] (x :: ss)) with ([] ++ c_space :: join [c_space] (x :: ss)). rewrite split_on_app by (now apply lacks_In).
    rewrite split_on_words; [|discriminate|now inversion Hf]. change 1%Z with (Z.of_nat 1). now rewrite slice_from_nat.
Qed.
Ltac body_case := repeat first
  [ match goal with |- bind ?x _ = Ok _ -> _ => destruct x; cbn [bind]; [|discriminate] end
  | match goal with |- (let '(_, _) := ?x in _) = Ok _ -> _ => destruct x end
  | match goal with |- (if ?x then _ else _) = Ok _ -> _ => destruct x end
  | match goal with |- match ?x with None => _ | Some _ => _ end = Ok _ -> _ => destruct x; [|discriminate] end
  | match goal with |- match ?x with pair _ _ => _ end = Ok _ -> _ => destruct x end ].
Lemma type2_surfaces order lines ss ar b : areas_printed lines ss ar -> read_type_surface order (chr 50) lines = Ok b -> b_surfaces b = Some ss /\ b_areas b = Some ar.
Proof.
  intros H. unfold read_type_surface. change (Ascii.eqb (chr 50) (chr 50)) with true. cbv iota. rewrite (areas_spec _ _ _ H), (numbers_spec _ _ _ H). cbn [bind]. cbv zeta.
  body_case; intros E; injection E as <-; split; reflexivity.
Qed.
Lemma type2_order o1 o2 lines : read_type_surface o1 (chr 50) lines = read_type_surface o2 (chr 50) lines.
Proof. reflexivity. Qed.
Lemma type2_lost order pre h s1 a1 s2 a2 rest ss1 ss2 ar1 x b : none_of areas_title pre -> areas_title h ->
  surfaces_line s1 ss1 -> words a1 ar1 -> ar1 <> [] -> surfaces_line s2 ss2 -> In x ss2 -> ~ In x ss1 ->
  read_type_surface order (chr 50) (pre ++ h :: s1 :: a1 :: s2 :: a2 :: rest) = Ok b -> exists ss, b_surfaces b = Some ss /\ ~ In x ss.
Proof.
  intros Hp Hh Hs Ha Hn _ _ Hx H. exists ss1. split; [|exact Hx]. apply (type2_surfaces order _ ss1 ar1 b) in H; [tauto|]. exists pre, h, s1, a1, (s2 :: a2 :: rest). auto 10.
Qed.

(** * Single values *)
Ltac type2 H := unfold read_type_surface; change (Ascii.eqb (chr 50) (chr 50)) with true; cbv iota;
  rewrite (areas_spec _ _ _ H), (numbers_spec _ _ _ H); cbn [bind]; cbv zeta.
Lemma type2_first pre h l rest : none_of titles_surface pre -> titles_surface h ->
  find_line (lit " surface ") (pre ++ h :: l :: rest) 9 = Ok (List.length pre) /\ py_nth (pre ++ h :: l :: rest) (Z.of_nat (List.length pre) + 1) = Ok l.
Proof. intros Hp Hh. split; [now apply find_line_app|]. now rewrite py_nth_app by lia. Qed.
Lemma type2_values order pre ls ss ar s r rs : areas_printed (pre ++ ls) ss ar -> none_of titles_surface pre ->
  surface_values ls ((s, r) :: rs) -> ss = map fst ((s, r) :: rs) ->
  (forall gap h l ls', ls = gap ++ h :: l :: ls' -> titles_surface h -> none_of titles_surface gap -> plain_value l) ->
  exists b, read_type_surface order (chr 50) (pre ++ ls) = Ok b /\ b_surfaces b = Some ss /\ b_areas b = Some ar /\
    b_result b = TList (map (fun x => EFloat (fst (snd x))) ((s, r) :: rs)) /\
    b_err b = TList (map (fun x => EFloat (snd (snd x))) ((s, r) :: rs)).
Proof.
  intros Ha Hp Hv Hss Hpl. type2 Ha.
  destruct (surface_values_first _ _ _ _ Hv) as (gap & h & l & ls' & El & Hg & Hh & Hl).
  assert (Hpg : none_of titles_surface (pre ++ gap)) by (intros y Hy; apply in_app_or in Hy; destruct Hy; [now apply Hp|now apply Hg]).
  destruct (type2_first (pre ++ gap) h l ls' Hpg Hh) as (Ef & En).
  assert (Eq : pre ++ ls = (pre ++ gap) ++ h :: l :: ls') by (rewrite El; now rewrite app_assoc).
  rewrite <- Eq in Ef, En. rewrite Ef. cbn [bind]. rewrite En. cbn [bind].
  destruct (Hpl gap h l ls' El Hh Hg) as (N1 & N2 & N3).
  rewrite (proj2 (contains_false _ _) N1), (proj2 (contains_false _ _) N2), (proj2 (contains_false _ _) N3).
  destruct rs as [|(s2, r2) rs].
  - assert (Ez : (1 <? zlen ss)%Z = false) by (rewrite Hss; reflexivity). rewrite Ez.
    replace (Z.of_nat (List.length (pre ++ gap)) + 1)%Z with (Z.of_nat (S (List.length (pre ++ gap)))) by lia.
    rewrite (value_line_spec (pre ++ ls) _ l r); [|rewrite Eq, nth_error_app2 by lia; now replace (S (List.length (pre ++ gap)) - List.length (pre ++ gap)) with 1 by lia|exact Hl].
    cbn [bind]. eexists. split; [reflexivity|]. repeat split.
  - assert (Ez : (1 <? zlen ss)%Z = true) by (rewrite Hss; apply Z.ltb_lt; unfold zlen; cbn [map List.length]; lia). rewrite Ez.
    assert (Evs : value_surfaces ss (pre ++ ls) 0 = Ok (map snd ((s, r) :: (s2, r2) :: rs))).
    { pose proof (value_surfaces_spec _ _ Hv pre ss ltac:(rewrite Hss, map_length; reflexivity)) as G. rewrite <- G. rewrite Hss. cbn [map value_surfaces].
      assert (E0 : slice_from 0 (pre ++ ls) = pre ++ ls) by (apply (slice_from_nat 0)). rewrite E0. rewrite slice_from_nat, skipn_app, skipn_all, Nat.sub_diag. cbn [app skipn].
      rewrite Ef. assert (Ef2 : find_line (lit " surface ") ls 9 = Ok (List.length gap)) by (rewrite El; now apply find_line_app). rewrite Ef2. cbn [bind].
      now replace (Z.of_nat (List.length (pre ++ gap)) + 0)%Z with (Z.of_nat (List.length gap) + Z.of_nat (List.length pre))%Z by (rewrite app_length; lia). }
    rewrite Evs. cbn [bind]. eexists. split; [reflexivity|]. cbn [b_surfaces b_areas b_result b_err]. rewrite !map_map. repeat split.
Qed.

(** * Time bins *)
Lemma time_tables_len ts ls rs : time_tables ts ls rs -> rs <> [].
Proof. destruct 1; discriminate. Qed.
Lemma block_end done h a t v rest : none_of (occurs (lit "total")) (h :: a) -> occurs (lit "total") t ->
  find_ind (slice_from (Z.of_nat (List.length done)) (done ++ h :: a ++ t :: v :: rest)) (lit "total") = Ok (S (List.length a)) /\
  slice_btw (Z.of_nat (List.length done) + 1) (Z.of_nat (S (List.length a)) + 2 + Z.of_nat (List.length done)) (done ++ h :: a ++ t :: v :: rest) = a ++ [t; v].
Proof.
  intros Hn Ht. split.
  - rewrite slice_from_nat, skipn_app, skipn_all, Nat.sub_diag. cbn [app skipn].
    apply (find_ind_app (lit "total") (h :: a) t (v :: rest) Hn Ht).
  - replace (Z.of_nat (List.length done) + 1)%Z with (Z.of_nat (List.length (done ++ [h]))) by (rewrite app_length; cbn [List.length]; lia).
    replace (Z.of_nat (S (List.length a)) + 2 + Z.of_nat (List.length done))%Z with (Z.of_nat (List.length (done ++ [h]) + List.length (a ++ [t; v]))) by (rewrite !app_length; cbn [List.length]; lia).
    replace (done ++ h :: a ++ t :: v :: rest) with ((done ++ [h]) ++ (a ++ [t; v]) ++ rest) by (rewrite <- !app_assoc; reflexivity).
    rewrite slice_btw_nat, firstn_app_2, firstn_app, firstn_all, Nat.sub_diag. cbn [firstn]. rewrite app_nil_r, skipn_app, skipn_all, Nat.sub_diag. reflexivity.
Qed.
Lemma time_tables_spec ts ls rs : time_tables ts ls rs -> forall done ss, List.length ss = List.length rs ->
  time_surfaces ss (done ++ ls) (Z.of_nat (List.length done)) = Ok (map (fun x => (ts, map fst (snd x), map snd (snd x))) rs).
Proof.
  induction 1 as [h s a t v ps rest Hh Hn Ht Hb|h s a t v ps gap ls rs Hh Hn Ht Hb H IH]; intros done ss Hs.
  - destruct ss as [|x [|y ss]]; try discriminate. cbn [time_surfaces map snd].
    destruct (block_end done h a t v rest Hn Ht) as (E1 & E2). rewrite E1. cbn [bind]. rewrite E2, (time_bin_only_spec _ _ _ Hb). reflexivity.
  - destruct ss as [|x ss]; [discriminate|]. cbn [time_surfaces map snd].
    destruct (block_end done h a t v (gap :: ls) Hn Ht) as (E1 & E2). rewrite E1. cbn [bind]. rewrite E2, (time_bin_only_spec _ _ _ Hb). cbn [bind].
    replace (Z.of_nat (S (List.length a)) + 2 + Z.of_nat (List.length done) + 1)%Z with (Z.of_nat (List.length (done ++ h :: a ++ [t; v; gap]))) by (rewrite !app_length; cbn [List.length]; rewrite app_length; cbn [List.length]; lia).
    replace (done ++ h :: a ++ t :: v :: gap :: ls) with ((done ++ h :: a ++ [t; v; gap]) ++ ls) by (rewrite <- !app_assoc; cbn [app]; now rewrite <- app_assoc).
    rewrite IH by (cbn in Hs; lia). reflexivity.
Qed.
Lemma slice_to_app {A} (a b : list A) : slice_to (Z.of_nat (List.length a)) (a ++ b) = a.
Proof. rewrite slice_to_nat, firstn_app, firstn_all, Nat.sub_diag. cbn [firstn]. apply app_nil_r. Qed.
Lemma last_res_snoc {A} (l : list A) x : last_res (l ++ [x]) = Some x.
Proof. unfold last_res. now rewrite rev_app_distr. Qed.
Lemma last_map {A B} (f : A -> B) l : l <> [] -> exists x, In x l /\ last_res (map f l) = Some (f x).
Proof.
  intros H. destruct (snoc_cases l) as [->|(a & x & ->)]; [contradiction|]. exists x. split; [apply in_or_app; right; now left|]. rewrite map_app. apply last_res_snoc.
Qed.
(** The common part: the surface title, the lines after it and the end of the table. *)
Lemma type2_times pre ls e post en : none_of titles_surface pre -> (exists h r, ls = h :: r /\ titles_surface h) -> time_then en ls -> none_of end_rule (pre ++ ls) -> end_rule e ->
  find_line (lit " surface ") (pre ++ ls ++ e :: post) 9 = Ok (List.length pre) /\
  find_line (lit " ===") (pre ++ ls ++ e :: post) 4 = Ok (List.length (pre ++ ls)) /\
  slice_to (Z.of_nat (List.length (pre ++ ls))) (pre ++ ls ++ e :: post) = pre ++ ls /\
  exists l1 l2, py_nth (pre ++ ls ++ e :: post) (Z.of_nat (List.length pre) + 1) = Ok l1 /\ py_nth (pre ++ ls) (Z.of_nat (List.length pre) + 2) = Ok l2 /\
    contains (lit "energy") l1 = false /\ contains (lit "angle") l1 = false /\ contains (lit "time") l1 = true /\ contains (lit "energy") l2 = en.
Proof.
  intros Hp (h & r & -> & Hh) (h' & l1 & l2 & rest & E & T1 & T2 & T3 & T4) Hr He. injection E as <- ->.
  split; [cbn [app]; now apply find_line_app|]. split; [rewrite app_assoc; now apply find_line_app|]. split; [rewrite app_assoc; apply slice_to_app|].
  exists l1, l2. split; [now rewrite py_nth_app by lia|]. split; [now rewrite py_nth_app by lia|].
  rewrite (proj2 (contains_false _ _) T2), (proj2 (contains_false _ _) T3), (proj2 (contains_spec _ _) T1). repeat split.
  destruct en; [now apply contains_spec|now apply contains_false].
Qed.
Lemma time_tables_title ts ls rs : time_tables ts ls rs -> exists h r, ls = h :: r /\ titles_surface h.
Proof. destruct 1 as [h s a t v ps rest (Hh & _)|h s a t v ps gap ls rs (Hh & _)]; do 2 eexists; (split; [reflexivity|exact Hh]). Qed.
Lemma type2_time_bins order pre ls e post ss ar ts r1 r2 rs : areas_printed (pre ++ ls ++ e :: post) ss ar -> none_of titles_surface pre ->
  time_tables ts ls (r1 :: r2 :: rs) -> ss = map fst (r1 :: r2 :: rs) -> time_then false ls -> none_of end_rule (pre ++ ls) -> end_rule e ->
  exists b, read_type_surface order (chr 50) (pre ++ ls ++ e :: post) = Ok b /\ b_surfaces b = Some ss /\ b_areas b = Some ar /\ b_times b = Some (TimesText ts) /\
    b_result b = TList (map (fun x => ERow (map fst (snd x))) (r1 :: r2 :: rs)) /\
    b_err b = TList (map (fun x => ERow (map snd (snd x))) (r1 :: r2 :: rs)).
Proof.
  intros Ha Hp Ht Hss Hth Hr He. type2 Ha.
  destruct (type2_times pre ls e post false Hp (time_tables_title _ _ _ Ht) Hth Hr He) as (E1 & E2 & E3 & l1 & l2 & E4 & E5 & E6 & E7 & E8 & E9).
  rewrite E1. cbn [bind]. rewrite E4. cbn [bind]. rewrite E6, E7, E8, E2. cbn [bind]. rewrite E3, E5. cbn [bind]. rewrite E9.
  assert (Ez : (1 <? zlen ss)%Z = true) by (rewrite Hss; apply Z.ltb_lt; unfold zlen; cbn [map List.length]; lia). rewrite Ez.
  rewrite (time_tables_spec _ _ _ Ht pre ss) by (rewrite Hss, map_length; reflexivity). cbn [bind].
  destruct (last_map (fun x : str * list (float * float) => (ts, map fst (snd x), map snd (snd x))) (r1 :: r2 :: rs) ltac:(discriminate)) as (x & _ & El). rewrite El.
  eexists. split; [reflexivity|]. cbn [b_surfaces b_areas b_times b_result b_err]. rewrite !map_map. repeat split.
Qed.
Lemma type2_time_one order pre ls e post s ar ts ps : areas_printed (pre ++ ls ++ e :: post) [s] ar -> none_of titles_surface pre -> none_of (occurs (lit "total")) pre ->
  time_tables ts ls [(s, ps)] -> time_then false ls -> none_of end_rule (pre ++ ls) -> end_rule e ->
  exists b, read_type_surface order (chr 50) (pre ++ ls ++ e :: post) = Ok b /\ b_surfaces b = Some [s] /\ b_areas b = Some ar /\ b_times b = Some (TimesText ts) /\
    b_result b = TList (map EFloat (map fst ps)) /\ b_err b = TList (map EFloat (map snd ps)).
Proof.
  intros Ha Hp Hpt Ht Hth Hr He. type2 Ha.
  destruct (type2_times pre ls e post false Hp (time_tables_title _ _ _ Ht) Hth Hr He) as (E1 & E2 & E3 & l1 & l2 & E4 & E5 & E6 & E7 & E8 & E9).
  rewrite E1. cbn [bind]. rewrite E4. cbn [bind]. rewrite E6, E7, E8, E2. cbn [bind]. rewrite E3, E5. cbn [bind]. rewrite E9. change (1 <? zlen [s])%Z with false. cbv iota.
  inversion Ht as [h s' a t v ps' rest Hh Hn Hto Hb F1 F2|h s' a t v ps' gap ls' rs' Hh Hn Hto Hb H' F1 F2]; subst.
  - assert (Ei : find_ind (pre ++ h :: a ++ t :: v :: rest) (lit "total") = Ok (List.length (pre ++ h :: a))).
    { replace (pre ++ h :: a ++ t :: v :: rest) with ((pre ++ h :: a) ++ t :: v :: rest) by (now rewrite <- app_assoc).
      apply find_ind_app; [|exact Hto]. intros y Hy. apply in_app_or in Hy. destruct Hy; [now apply Hpt|now apply Hn]. }
    rewrite Ei. cbn [bind]. destruct (block_end pre h a t v rest Hn Hto) as (_ & Es).
    replace (Z.of_nat (List.length (pre ++ h :: a)) + 2)%Z with (Z.of_nat (S (List.length a)) + 2 + Z.of_nat (List.length pre))%Z by (rewrite app_length; cbn [List.length]; lia).
    rewrite Es, (time_bin_only_spec _ _ _ Hb). cbn [bind]. eexists. split; [reflexivity|]. repeat split.
  - exfalso. now apply time_tables_len in H'.
Qed.

(** * Energy and time bins *)
Lemma et_tables_title ts es ls rs : et_tables ts es ls rs -> exists h r, ls = h :: r /\ titles_surface h.
Proof. destruct 1 as [h s body parts fin (Hh & _)|h s body parts ls rs (Hh & _)]; do 2 eexists; (split; [reflexivity|exact Hh]). Qed.
Lemma et_tables_spec ts es ls rs : et_tables ts es ls rs -> ascending es -> ascending ts -> forall done ss, List.length ss = List.length rs -> exists VU,
  et_surfaces ss (done ++ ls) (Z.of_nat (List.length done)) = Ok (map (fun x => (ts, es, fst x, snd x)) VU) /\
  Forall2 (fun r x => matrix_of fst (snd r) (List.length es) (fst x) /\ matrix_of snd (snd r) (List.length es) (snd x)) rs VU.
Proof.
  intros H Hes Hts. induction H as [h s body parts fin Hh Hn Hb Hne Ec|h s body parts ls rs Hh Hn Hb Hne Ec H IH]; intros done ss Hs.
  - destruct ss as [|x [|y ss]]; try discriminate. cbn [et_surfaces].
    replace (Z.of_nat (List.length done) + 1)%Z with (Z.of_nat (List.length (done ++ [h]))) by (rewrite app_length; cbn [List.length]; lia).
    replace (done ++ h :: body ++ [fin]) with ((done ++ [h]) ++ body ++ [fin]) by (now rewrite <- app_assoc).
    rewrite slice_from_nat, skipn_app, skipn_all, Nat.sub_diag. cbn [app skipn].
    rewrite (find_line_none (lit " surface ") 9 (body ++ [fin]) eq_refl Hn).
    assert (Es : slice_btw (Z.of_nat (List.length (done ++ [h]))) (-1) ((done ++ [h]) ++ body ++ [fin]) = body).
    { replace (slice_btw (Z.of_nat (List.length (done ++ [h]))) (-1) ((done ++ [h]) ++ body ++ [fin])) with
        (slice_btw (Z.of_nat (List.length (done ++ [h]))) (Z.of_nat (List.length ((done ++ [h]) ++ body))) ((done ++ [h]) ++ body ++ [fin])).
      - rewrite slice_btw_nat, app_assoc, firstn_app, firstn_all, Nat.sub_diag. cbn [firstn]. rewrite app_nil_r, skipn_app, skipn_all, Nat.sub_diag. reflexivity.
      - unfold slice_btw, slice, clamp_ix. destruct (Z.ltb_spec (Z.of_nat (List.length ((done ++ [h]) ++ body))) 0); [lia|]. change (-1 <? 0)%Z with true. cbv iota.
        f_equal. f_equal. unfold zlen. rewrite !app_length. cbn [List.length]. lia. }
    rewrite Es. subst ts. destruct (userbin_ascending es body parts Hb Hne Hes Hts) as (V & U & E & HV & HU). rewrite E. cbn [bind].
    exists [(V, U)]. split; [reflexivity|]. constructor; [split; assumption|constructor].
  - destruct ss as [|x ss]; [discriminate|]. cbn [et_surfaces].
    destruct (et_tables_title _ _ _ _ H) as (h2 & r & Els & Hh2).
    replace (Z.of_nat (List.length done) + 1)%Z with (Z.of_nat (List.length (done ++ [h]))) by (rewrite app_length; cbn [List.length]; lia).
    replace (done ++ h :: body ++ ls) with ((done ++ [h]) ++ body ++ ls) by (now rewrite <- app_assoc).
    rewrite slice_from_nat, skipn_app, skipn_all, Nat.sub_diag. cbn [app skipn].
    assert (Ef : find_line (lit " surface ") (body ++ ls) 9 = Ok (List.length body)) by (rewrite Els; now apply find_line_app).
    rewrite Ef. replace (Z.of_nat (List.length body) + Z.of_nat (List.length done) + 1)%Z with (Z.of_nat (List.length ((done ++ [h]) ++ body))) by (rewrite !app_length; cbn [List.length]; lia).
    assert (Es : slice_btw (Z.of_nat (List.length (done ++ [h]))) (Z.of_nat (List.length ((done ++ [h]) ++ body))) ((done ++ [h]) ++ body ++ ls) = body).
    { rewrite slice_btw_nat, app_assoc, firstn_app, firstn_all, Nat.sub_diag. cbn [firstn]. rewrite app_nil_r, skipn_app, skipn_all, Nat.sub_diag. reflexivity. }
    rewrite Es. destruct (userbin_ascending es body parts Hb Hne Hes ltac:(now rewrite Ec)) as (V & U & E & HV & HU). rewrite E. cbn [bind]. rewrite Ec.
    destruct (IH ((done ++ [h]) ++ body) ss ltac:(cbn in Hs; lia)) as (VU & E' & F). rewrite app_assoc, E'. cbn [bind].
    exists ((V, U) :: VU). split; [reflexivity|]. constructor; [split; assumption|exact F].
Qed.
Lemma type2_et_bins order pre ls e post ss ar ts es r1 r2 rs : areas_printed (pre ++ ls ++ e :: post) ss ar -> none_of titles_surface pre ->
  et_tables ts es ls (r1 :: r2 :: rs) -> ascending es -> ascending ts -> ss = map fst (r1 :: r2 :: rs) -> time_then true ls -> none_of end_rule (pre ++ ls) -> end_rule e ->
  exists b VU, read_type_surface order (chr 50) (pre ++ ls ++ e :: post) = Ok b /\ b_surfaces b = Some ss /\ b_areas b = Some ar /\
    b_times b = Some (TimesNum ts) /\ b_eng b = Some es /\
    b_result b = TList (map (fun x => EMat (fst x)) VU) /\ b_err b = TList (map (fun x => EMat (snd x)) VU) /\
    Forall2 (fun r x => matrix_of fst (snd r) (List.length es) (fst x) /\ matrix_of snd (snd r) (List.length es) (snd x)) (r1 :: r2 :: rs) VU.
Proof.
  intros Ha Hp Ht Hes Hts Hss Hth Hr He. type2 Ha.
  destruct (type2_times pre ls e post true Hp (et_tables_title _ _ _ _ Ht) Hth Hr He) as (E1 & E2 & E3 & l1 & l2 & E4 & E5 & E6 & E7 & E8 & E9).
  rewrite E1. cbn [bind]. rewrite E4. cbn [bind]. rewrite E6, E7, E8, E2. cbn [bind]. rewrite E3, E5. cbn [bind]. rewrite E9.
  assert (Ez : (1 <? zlen ss)%Z = true) by (rewrite Hss; apply Z.ltb_lt; unfold zlen; cbn [map List.length]; lia). rewrite Ez.
  destruct (et_tables_spec _ _ _ _ Ht Hes Hts pre ss ltac:(rewrite Hss, map_length; reflexivity)) as (VU & Ev & F). rewrite Ev. cbn [bind].
  match goal with |- context [last_res (map ?f VU)] => destruct (last_map f VU) as (x & _ & El) end; [intros ->; inversion F|].
  match goal with |- context [@last_res ?A ?l] => assert (E0 : @last_res A l = Some (ts, es, fst x, snd x)) by exact El; rewrite E0 end.
  eexists. exists VU. split; [reflexivity|]. cbn [b_surfaces b_areas b_times b_eng b_result b_err]. rewrite !map_map. repeat split; exact F || reflexivity.
Qed.
Lemma type2_et_one order pre h body e post s ar ts es parts : areas_printed (pre ++ (h :: body) ++ e :: post) [s] ar -> none_of titles_surface pre ->
  surface_title h s -> et_listing es body parts -> parts <> [] -> concat (map fst parts) = ts -> ascending es -> ascending ts ->
  time_then true (h :: body) -> none_of end_rule (pre ++ h :: body) -> end_rule e ->
  exists b V U, read_type_surface order (chr 50) (pre ++ (h :: body) ++ e :: post) = Ok b /\ b_surfaces b = Some [s] /\ b_areas b = Some ar /\
    b_times b = Some (TimesNum ts) /\ b_eng b = Some es /\ b_result b = TMat V /\ b_err b = TMat U /\
    matrix_of fst parts (List.length es) V /\ matrix_of snd parts (List.length es) U.
Proof.
  intros Ha Hp (Hh & _) Hb Hne Ec Hes Hts Hth Hr He. type2 Ha.
  destruct (type2_times pre (h :: body) e post true Hp (ex_intro _ h (ex_intro _ body (conj eq_refl Hh))) Hth Hr He) as (E1 & E2 & E3 & l1 & l2 & E4 & E5 & E6 & E7 & E8 & E9).
  rewrite E1. cbn [bind]. rewrite E4. cbn [bind]. rewrite E6, E7, E8, E2. cbn [bind]. rewrite E3, E5. cbn [bind]. rewrite E9. change (1 <? zlen [s])%Z with false. cbv iota.
  assert (Es : slice_btw (Z.of_nat (List.length pre) + 1) (Z.of_nat (List.length (pre ++ h :: body))) (pre ++ h :: body) = body).
  { replace (Z.of_nat (List.length pre) + 1)%Z with (Z.of_nat (List.length (pre ++ [h]))) by (rewrite app_length; cbn [List.length]; lia).
    rewrite slice_btw_nat, firstn_all. replace (pre ++ h :: body) with ((pre ++ [h]) ++ body) by (now rewrite <- app_assoc). now rewrite skipn_app, skipn_all, Nat.sub_diag. }
  rewrite Es. subst ts. destruct (userbin_ascending es body parts Hb Hne Hes Hts) as (V & U & E & HV & HU). rewrite E. cbn [bind].
  eexists. exists V, U. split; [reflexivity|]. cbn [b_surfaces b_areas b_times b_eng b_result b_err]. repeat split; try reflexivity; assumption || apply HV || apply HU.
Qed.

(** * Energy bins *)
Lemma surface_energies order pre h l rest ss ar bs k r rs ts bs' : areas_printed (pre ++ h :: l :: rest) ss ar -> none_of titles_surface pre -> titles_surface h -> occurs (lit "energy") l ->
  bin_listing (lit "surface") (pre ++ h :: l :: rest) bs -> bs = (k, r :: rs, ts) :: bs' ->
  exists b d t, read_type_surface order (chr 50) (pre ++ h :: l :: rest) = Ok b /\ b_surfaces b = Some ss /\ b_areas b = Some ar /\ b_result b = TTable d /\ b_totals b = Some t /\
    (forall k, dict_get Z.eqb k d = match rows_of_block k bs with [] => None | (_ :: _) as l => Some l end) /\
    (forall k, is_last (totals_of_block k bs) (dict_get Z.eqb k t)) /\
    (exists k rows, dict_get Z.eqb k d = Some rows /\ b_eng b = Some (map (fun r => fst (fst r)) rows)).
Proof.
  intros Ha Hp Hh Hl Hb Ebs. type2 Ha. destruct (type2_first pre h l rest Hp Hh) as (Ef & En). rewrite Ef. cbn [bind]. rewrite En. cbn [bind].
  rewrite (proj2 (contains_spec _ _) Hl). destruct (surface_bins _ _ Hb) as (d & t & E & Hd & Ht). rewrite E. cbn [bind].
  destruct d as [|(k0, rows) d].
  - exfalso. specialize (Hd k). rewrite Ebs in Hd. unfold rows_of_block in Hd. cbn [map concat fst snd] in Hd. rewrite Z.eqb_refl in Hd. discriminate.
  - cbn [first_energies bind]. eexists. exists ((k0, rows) :: d), t. split; [reflexivity|]. split; [reflexivity|]. split; [reflexivity|]. split; [reflexivity|]. split; [reflexivity|]. split; [exact Hd|]. split; [exact Ht|].
    exists k0, rows. split; [cbn [dict_get]; now rewrite Z.eqb_refl|reflexivity].
Qed.

(** * Print table 60 *)
Lemma cleaned_words l ws : words l ws -> ws <> [] -> split_on c_space (string_cleaner l) = ws.
Proof. intros Hw Hn. pose proof (words_Forall _ _ Hw) as HF. rewrite string_cleaner_words. apply words_split in Hw. rewrite Hw. now apply split_on_words. Qed.
Lemma table60_frame pre t0 t1 h1 h2 t4 rows f1 f2 f3 e post a0 a1 m al b0 b1 b2 b3 mid bl ws :
  none_of (prefix_of (lit "    minimum source weight")) (pre ++ t0 :: t1 :: h1 :: h2 :: t4 :: rows ++ [f1; f2; f3]) -> prefix_of (lit "    minimum source weight") e ->
  words h1 (a0 :: a1 :: m ++ [al]) -> words h2 (b0 :: b1 :: b2 :: b3 :: mid ++ [bl]) ->
  Forall2 (fun l w => exists x, words l (x :: w)) rows ws ->
  read_table60 (pre ++ (t0 :: t1 :: h1 :: h2 :: t4 :: rows ++ [f1; f2; f3]) ++ e :: post) (Z.of_nat (List.length pre)) =
  do df <- data_frame ws (5 + List.length mid); Ok (b0 :: b1 :: (a0 ++ lit " " ++ b2) :: (a1 ++ lit " " ++ b3) :: mid ++ [al ++ lit " " ++ bl], df).
Proof.
  intros Hn He H1 H2 Hr. unfold read_table60. rewrite app_assoc, (find_line_app (lit "    minimum source weight") 25 _ e post eq_refl Hn He). cbn [bind].
  rewrite <- app_assoc, slice_mid; [|reflexivity|reflexivity]. cbn [map].
  match goal with |- context [py_nth ?L 2%Z] => change (py_nth L 2%Z) with (Ok (string_cleaner h1)); change (py_nth L 3%Z) with (Ok (string_cleaner h2)) end.
  cbn [bind]. rewrite (cleaned_words _ _ H1), (cleaned_words _ _ H2) by discriminate.
  change (py_nth (a0 :: a1 :: m ++ [al]) 0%Z) with (Ok a0). change (py_nth (a0 :: a1 :: m ++ [al]) 1%Z) with (Ok a1). cbn [bind].
  change (py_nth (b0 :: b1 :: b2 :: b3 :: mid ++ [bl]) 2%Z) with (Ok b2). cbn [bind].
  assert (E2 : forall x y z w l (q : str), set_nth (x :: y :: z :: w :: l) 2 q = x :: y :: q :: w :: l) by reflexivity. rewrite E2.
  match goal with |- context [py_nth ?L 3%Z] => change (py_nth L 3%Z) with (Ok b3) end. cbn [bind].
  assert (E3 : forall x y z w l (q : str), set_nth (x :: y :: z :: w :: l) 3 q = x :: y :: z :: q :: l) by reflexivity. rewrite E3.
  change (a0 :: a1 :: m ++ [al]) with ((a0 :: a1 :: m) ++ [al]). rewrite py_nth_last. cbn [bind].
  set (hd4 := b0 :: b1 :: (a0 ++ c_space :: b2) :: (a1 ++ c_space :: b3) :: mid).
  change (b0 :: b1 :: (a0 ++ c_space :: b2) :: (a1 ++ c_space :: b3) :: mid ++ [bl]) with (hd4 ++ [bl]).
  rewrite py_nth_last. cbn [bind].
  assert (El : set_nth (hd4 ++ [bl]) (List.length (hd4 ++ [bl]) - 1) (al ++ c_space :: bl) = hd4 ++ [al ++ c_space :: bl]).
  { unfold set_nth. rewrite app_length. cbn [List.length]. replace (List.length hd4 + 1 - 1) with (List.length hd4) by lia.
    rewrite firstn_app, firstn_all, Nat.sub_diag. cbn [firstn]. rewrite app_nil_r. f_equal. f_equal. apply skipn_all2. rewrite app_length. cbn [List.length]. lia. }
  rewrite El.
  assert (Es : forall A (x0 x1 x2 x3 x4 : A) (mm : list A) y1 y2 y3, slice_btw 5 (-3) (x0 :: x1 :: x2 :: x3 :: x4 :: mm ++ [y1; y2; y3]) = mm).
  { intros. replace (slice_btw 5 (-3) (x0 :: x1 :: x2 :: x3 :: x4 :: mm ++ [y1; y2; y3])) with (slice_btw (Z.of_nat 5) (Z.of_nat (5 + List.length mm)) ([x0; x1; x2; x3; x4] ++ mm ++ [y1; y2; y3])).
    - apply slice_mid; [reflexivity|]. rewrite app_length. reflexivity.
    - unfold slice_btw, slice, clamp_ix. destruct (Z.ltb_spec (Z.of_nat (5 + List.length mm)) 0); [lia|]. change (-3 <? 0)%Z with true. cbv iota.
      f_equal. f_equal. unfold zlen. cbn [List.length]. rewrite app_length. cbn [List.length]. lia. }
  rewrite map_app. cbn [map]. rewrite Es, map_map.
  assert (Ed : map (fun x => slice_from 1 (split_on c_space (string_cleaner x))) rows = ws).
  { clear - Hr. induction Hr as [|l w rows ws (x & Hw) H IH]; [reflexivity|]. cbn [map]. rewrite IH, (cleaned_words _ _ Hw) by discriminate.
    change 1%Z with (Z.of_nat 1). now rewrite slice_from_nat. }
  rewrite Ed. assert (Eh : List.length (hd4 ++ [al ++ c_space :: bl]) = 5 + List.length mid) by (rewrite app_length; unfold hd4; cbn [List.length]; lia). now rewrite Eh.
Qed.
Lemma table60_spec pre t0 t1 h1 h2 t4 rows f1 f2 f3 e post a0 a1 m al b0 b1 b2 b3 mid bl ws :
  none_of (prefix_of (lit "    minimum source weight")) (pre ++ t0 :: t1 :: h1 :: h2 :: t4 :: rows ++ [f1; f2; f3]) -> prefix_of (lit "    minimum source weight") e ->
  words h1 (a0 :: a1 :: m ++ [al]) -> words h2 (b0 :: b1 :: b2 :: b3 :: mid ++ [bl]) -> rows <> [] ->
  Forall2 (fun l w => exists x, words l (x :: w) /\ List.length w = 5 + List.length mid) rows ws ->
  read_table60 (pre ++ (t0 :: t1 :: h1 :: h2 :: t4 :: rows ++ [f1; f2; f3]) ++ e :: post) (Z.of_nat (List.length pre)) =
  Ok (b0 :: b1 :: (a0 ++ lit " " ++ b2) :: (a1 ++ lit " " ++ b3) :: mid ++ [al ++ lit " " ++ bl], map (map Some) ws).
Proof.
  intros Hn He H1 H2 Hne Hr. rewrite (table60_frame pre t0 t1 h1 h2 t4 rows f1 f2 f3 e post a0 a1 m al b0 b1 b2 b3 mid bl ws Hn He H1 H2), frame_full; [reflexivity| | |].
  - destruct Hr; [contradiction|discriminate].
  - clear - Hr. induction Hr as [|l w rows ws (x & _ & Hl) H IH]; constructor; auto.
  - clear - Hr. induction Hr as [|l w rows ws (x & Hw & _) H IH]; constructor; eauto.
Qed.
(** With two importances the first keeps no particle. *)
Lemma table60_two pre t0 t1 h1 h2 t4 rows f1 f2 f3 e post a0 a1 m p1 p2 b0 b1 b2 b3 mid i1 i2 ws names df :
  none_of (prefix_of (lit "    minimum source weight")) (pre ++ t0 :: t1 :: h1 :: h2 :: t4 :: rows ++ [f1; f2; f3]) -> prefix_of (lit "    minimum source weight") e ->
  words h1 (a0 :: a1 :: m ++ [p1; p2]) -> words h2 (b0 :: b1 :: b2 :: b3 :: mid ++ [i1; i2]) -> rows <> [] ->
  Forall2 (fun l w => exists x, words l (x :: w) /\ List.length w = 6 + List.length mid) rows ws ->
  read_table60 (pre ++ (t0 :: t1 :: h1 :: h2 :: t4 :: rows ++ [f1; f2; f3]) ++ e :: post) (Z.of_nat (List.length pre)) = Ok (names, df) ->
  exists l, names = l ++ [i1; p2 ++ lit " " ++ i2].
Proof.
  intros Hn He H1 H2 Hne Hr.
  rewrite (table60_spec pre t0 t1 h1 h2 t4 rows f1 f2 f3 e post a0 a1 (m ++ [p1]) p2 b0 b1 b2 b3 (mid ++ [i1]) i2 ws Hn He).
  - intros E. injection E as <- _. exists (b0 :: b1 :: (a0 ++ lit " " ++ b2) :: (a1 ++ lit " " ++ b3) :: mid). cbn [app]. now rewrite <- app_assoc.
  - now rewrite <- app_assoc.
  - now rewrite <- app_assoc.
  - exact Hne.
  - clear - Hr. induction Hr as [|l w rows ws (x & Hw & Hl) H IH]; constructor; [|exact IH]. exists x. split; [exact Hw|]. rewrite app_length. cbn [List.length]. lia.
Qed.
