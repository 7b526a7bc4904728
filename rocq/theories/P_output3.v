(** Proofs about lost_points and xsdir_reader. *)
From Coq Require Import Lia.
From Verif Require Import PyBase PyFloat PyFs SpecStr PyFacts SpecUtil M_util P_util M_input SpecInput TextFacts P_input3 PyIo M_output SpecOutput P_output P_output2.

(** * Lines of a file *)
Lemma file_lines_aux_cons cur s : forall l, ~ In (chr 10) l -> file_lines_aux cur (l ++ chr 10 :: s) = (rev cur ++ l ++ [chr 10]) :: file_lines_aux [] s.
Proof.
  intros l. revert cur. induction l as [|c l IH]; intros cur Hl; cbn [app file_lines_aux].
  - change (Ascii.eqb (chr 10) c_nl) with true. cbn iota. reflexivity.
  - destruct (Ascii.eqb_spec c c_nl) as [->|Hc]; [exfalso; apply Hl; now left|]. rewrite IH.
    + cbn [rev]. now rewrite <- app_assoc.
    + intros Hi. apply Hl. now right.
Qed.
Lemma file_lines_aux_last cur l : ~ In (chr 10) l -> file_lines_aux cur l = match rev cur ++ l with [] => [] | x => [x] end.
Proof.
  revert cur. induction l as [|c l IH]; intros cur Hl; cbn [file_lines_aux].
  - rewrite app_nil_r. destruct cur as [|d cur]; [reflexivity|]. destruct (rev (d :: cur)) eqn:E; [|reflexivity].
    apply (f_equal (@length ascii)) in E. rewrite rev_length in E. discriminate.
  - destruct (Ascii.eqb_spec c c_nl) as [->|Hc]; [exfalso; apply Hl; now left|]. rewrite IH.
    + cbn [rev]. rewrite <- app_assoc. reflexivity.
    + intros Hi. apply Hl. now right.
Qed.
(** Every line but a last unterminated one carries its newline. *)
Lemma file_lines_spec s ls : text_lines s ls -> Forall2 (fun l x => x = l ++ [chr 10] \/ x = l) ls (file_lines s).
Proof.
  unfold file_lines. induction 1 as [|l Hl Hn|l s ls Hn H IH].
  - constructor.
  - rewrite file_lines_aux_last by assumption. cbn [rev app]. destruct l as [|c l]; [contradiction|]. constructor; [now right|constructor].
  - rewrite file_lines_aux_cons by assumption. constructor; [now left|assumption].
Qed.
Lemma marker_nl l : contains lost_marker (l ++ [chr 10]) = contains lost_marker l.
Proof.
  destruct (contains lost_marker l) eqn:E.
  - apply contains_spec in E. destruct E as (a & b & ->). apply contains_spec. exists a, (b ++ [chr 10]). now rewrite <- !app_assoc.
  - apply contains_false. intros (a & b & Hab). apply contains_false in E. apply E. destruct (snoc_cases b) as [->|(b' & x & ->)].
    + exfalso. rewrite app_nil_r in Hab. change lost_marker with (lit "x,y,z coordinates" ++ [chr 58]) in Hab. rewrite app_assoc in Hab.
      apply app_inj_tail in Hab. destruct Hab as [_ Hab]. discriminate.
    + rewrite !app_assoc in Hab. apply app_inj_tail in Hab. destruct Hab as [Hab _]. exists a, b'. rewrite Hab. now rewrite <- app_assoc.
Qed.
Lemma skipn_firstn_cols (i j : nat) (l : str) : i <= j -> skipn i (firstn j l) = columns i j l.
Proof. intros H. unfold columns. rewrite firstn_skipn_comm. do 2 f_equal. lia. Qed.
Lemma firstn_snoc (n : nat) (l : str) x : firstn n (l ++ [x]) = firstn n l ++ firstn (n - length l) [x].
Proof. apply firstn_app. Qed.
Lemma strip_snoc_ws s x : is_ws x = true -> strip (s ++ [x]) = strip s.
Proof.
  intros H. apply trimmed_strip. destruct (strip_trimmed s) as (a & b & E & Ha & Hb & H1 & H2). exists a, (b ++ [x]). split.
  - rewrite E at 1. now rewrite <- !app_assoc.
  - split; [assumption|]. split; [|now split]. apply Forall_app. split; [assumption|now constructor].
Qed.
Lemma cols_nl i j l : i <= j -> strip (skipn i (firstn j (l ++ [chr 10]))) = strip (columns i j l).
Proof.
  intros H. rewrite firstn_snoc, skipn_app. rewrite skipn_firstn_cols by assumption.
  destruct (j - length l) as [|k]; cbn [firstn].
  - rewrite skipn_nil, app_nil_r. reflexivity.
  - rewrite firstn_nil. destruct (i - length (firstn j l)) as [|m]; cbn [skipn]; [now rewrite strip_snoc_ws|]. rewrite skipn_nil, app_nil_r. reflexivity.
Qed.
Definition lost_xyz (l : str) : res (float * float * float) :=
  do a <- py_float (strip (columns 28 40 l)); do b <- py_float (strip (columns 43 55 l)); do c <- py_float (strip (columns 58 70 l)); Ok (a, b, c).
Definition lost_app (st : list float * list float * list float) (p : float * float * float) :=
  let '(x, y, z) := st in let '(a, b, c) := p in (x ++ [a], y ++ [b], z ++ [c]).
Lemma lost_step_spec st l x : x = l ++ [chr 10] \/ x = l -> lost_step st x =
  if contains lost_marker l then do p <- lost_xyz l; Ok (lost_app st p) else Ok st.
Proof.
  intros Hx. destruct st as [[xs ys] zs]. unfold lost_step.
  change (slice_btw 28 40 x) with (slice_btw (Z.of_nat 28) (Z.of_nat 40) x). change (slice_btw 43 55 x) with (slice_btw (Z.of_nat 43) (Z.of_nat 55) x).
  change (slice_btw 58 70 x) with (slice_btw (Z.of_nat 58) (Z.of_nat 70) x). rewrite !slice_btw_nat.
  assert (Hm : contains lost_marker x = contains lost_marker l) by (destruct Hx as [->| ->]; [apply marker_nl|reflexivity]). rewrite Hm.
  destruct (contains lost_marker l); [|reflexivity].
  assert (Hc : forall i j, i <= j -> strip (skipn i (firstn j x)) = strip (columns i j l)).
  { intros i j Hij. destruct Hx as [->| ->]; [now apply cols_nl|now rewrite skipn_firstn_cols]. }
  rewrite !Hc by lia. unfold lost_xyz. destruct (py_float (strip (columns 28 40 l))); cbn [bind]; [|reflexivity].
  destruct (py_float (strip (columns 43 55 l))); cbn [bind]; [|reflexivity]. destruct (py_float (strip (columns 58 70 l))); reflexivity.
Qed.
Lemma lost_fold ls xs : Forall2 (fun l x => x = l ++ [chr 10] \/ x = l) ls xs -> forall st,
  foldM lost_step xs st = do ps <- mapM lost_xyz (filter (contains lost_marker) ls); Ok (fold_left lost_app ps st).
Proof.
  induction 1 as [|l x ls xs Hx HF IH]; intros st; cbn [foldM filter]; [reflexivity|]. rewrite (lost_step_spec st l x Hx).
  destruct (contains lost_marker l); [|apply IH]. cbn [mapM]. destruct (lost_xyz l) as [p|e]; cbn [bind]; [|reflexivity]. rewrite IH.
  destruct (mapM lost_xyz _); reflexivity.
Qed.
Lemma lost_fold_app ps : forall x y z, fold_left lost_app ps (x, y, z) =
  (x ++ map (fun p => fst (fst p)) ps, y ++ map (fun p => snd (fst p)) ps, z ++ map snd ps).
Proof.
  induction ps as [|[[a b] c] ps IH]; intros x y z; cbn [fold_left map]; [now rewrite !app_nil_r|]. unfold lost_app at 2. rewrite IH. cbn [fst snd]. now rewrite <- !app_assoc.
Qed.
Lemma picked_filter {A} (P : A -> Prop) (p : A -> bool) l l' : (forall x, p x = true <-> P x) -> picked P l l' <-> filter p l = l'.
Proof.
  intros Hp. split.
  - induction 1 as [|x l l' H Hk IH|x l l' H Hk IH]; cbn [filter]; [reflexivity| |].
    + apply Hp in H. rewrite H. now rewrite IH.
    + destruct (p x) eqn:E; [apply Hp in E; contradiction|assumption].
  - revert l'. induction l as [|x l IH]; intros l' H; cbn [filter] in H; [subst; constructor|]. destruct (p x) eqn:E.
    + subst l'. constructor; [now apply Hp|now apply IH].
    + constructor; [|now apply IH]. intros H'. apply Hp in H'. congruence.
Qed.
Lemma lost_xyz_spec l p : lost_xyz l = Ok p <-> lost_at l p.
Proof.
  destruct p as [[a b] c]. unfold lost_xyz, lost_at, number_in. cbn [fst snd]. split.
  - intros H. destruct (py_float (strip (columns 28 40 l))) eqn:E1; [|discriminate]. destruct (py_float (strip (columns 43 55 l))) eqn:E2; [|discriminate].
    destruct (py_float (strip (columns 58 70 l))) eqn:E3; [|discriminate]. cbn [bind] in H. injection H as <- <- <-.
    repeat split; eexists; (split; [apply strip_trimmed|assumption]).
  - intros ((t1 & H1 & E1) & (t2 & H2 & E2) & (t3 & H3 & E3)). apply trimmed_strip in H1, H2, H3. subst. now rewrite E1, E2, E3.
Qed.
Lemma read_text_ok f p c : openable f p -> f p = Some (File c) -> read_text f p = Ok (univ_nl c).
Proof. intros Ho Hf. destruct (text_replace_total f p [] [] c Ho Hf) as (f' & _ & H). exact H. Qed.
Lemma nl_translated_det c d : nl_translated c d -> univ_nl c = d.
Proof.
  induction 1 as [|s t H IH|s t Hs H IH|x s t Hx H IH]; cbn [univ_nl]; [reflexivity| | |].
  - change (Ascii.eqb (chr 13) c_cr) with true. cbn iota. change (Ascii.eqb (chr 10) c_nl) with true. cbn iota. now rewrite IH.
  - change (Ascii.eqb (chr 13) c_cr) with true. cbn iota. destruct s as [|d s]; [inversion H; reflexivity|].
    destruct (Ascii.eqb_spec d c_nl) as [->|Hd]; [exfalso; now apply (Hs s)|]. now rewrite IH.
  - destruct (Ascii.eqb_spec x c_cr) as [->|Hd]; [contradiction|]. now rewrite IH.
Qed.
Section Lost.
  Variable show : float -> str.
  Variables (f : fs) (p : path) (c data : str) (ls marked : list str).
  Hypotheses (Hop : openable f p) (Hfp : f p = Some (File c)) (Hnl : nl_translated c data) (Hls : text_lines data ls) (Hpk : picked reports_lost ls marked).
  Lemma lost_common out : output_lost_points show p out f =
    match mapM lost_xyz marked with
    | Err e => (f, Err e)
    | Ok ps =>
        if (0 <? length ps)%nat then
          io_bind (output_points show (map (fun p => fst (fst p)) ps) (map (fun p => snd (fst p)) ps) (map snd ps) None out) (fun _ => io_ret (length ps)) f
        else (f, Ok (length ps))
    end.
  Proof.
    assert (Hf : filter (contains lost_marker) ls = marked) by (apply (picked_filter reports_lost); [intros; apply contains_spec|assumption]).
    unfold output_lost_points. unfold io_bind at 1, io_read. rewrite (read_text_ok f p c Hop Hfp), (nl_translated_det c data Hnl).
    unfold io_bind at 1, io_lift. rewrite (lost_fold ls _ (file_lines_spec _ _ Hls)), Hf. destruct (mapM lost_xyz marked) as [ps|e]; cbn [bind]; [|reflexivity].
    rewrite lost_fold_app. cbn [app]. rewrite map_length. destruct (0 <? length ps)%nat; reflexivity.
  Qed.
  Lemma lost_ok ps dir name : Forall2 lost_at marked ps -> openable f (dir ++ [name ++ lit ".3d"]) -> marked <> [] ->
    exists f' rows, output_lost_points show p (dir ++ [name]) f = (f', Ok (length marked)) /\
      f' (dir ++ [name ++ lit ".3d"]) = Some (File (full_text (lit "x y z temp" :: rows))) /\
      Forall2 (fun q row => spaced [show (fst (fst q)); show (snd (fst q)); show (snd q); lit "1"] row) ps rows /\
      forall q, q <> dir ++ [name ++ lit ".3d"] -> f' q = f q.
  Proof.
    intros HF Ho Hne. rewrite lost_common. assert (E : mapM lost_xyz marked = Ok ps).
    { apply mapM_Ok_iff. clear - HF. induction HF; constructor; [now apply lost_xyz_spec|assumption]. }
    rewrite E. pose proof (mapM_length _ _ _ E) as HL. destruct ps as [|p0 ps0]; [destruct marked; [contradiction|discriminate]|].
    cbn [length Nat.ltb Nat.leb]. remember (p0 :: ps0) as ps. unfold io_bind at 1.
    destruct (output_points_ok show f (map (fun p => fst (fst p)) ps) (map (fun p => snd (fst p)) ps) (map snd ps) None dir name) as (f' & rows & Ep & Hr & [Hl Hrow] & Hq).
    - repeat split; now rewrite !map_length.
    - assumption.
    - rewrite Ep. exists f', rows. unfold io_ret. split; [subst ps; cbn [length] in *; now rewrite HL|]. split; [assumption|]. split; [|assumption].
      rewrite map_length in Hl. clear - Hl Hrow. revert rows Hl Hrow. induction ps as [|q ps IH]; intros [|r rows] Hl Hrow; try discriminate; [constructor|].
      constructor.
      + destruct (Hrow 0 (fst (fst q)) (snd (fst q)) (snd q)) as (d & row & Hd & Hr & Hs); [reflexivity..|]. cbn in Hd, Hr. injection Hr as <-. subst d. exact Hs.
      + apply IH; [now injection Hl|]. intros i a b c0 Ha Hb Hc. apply (Hrow (S i)); assumption.
  Qed.
  Lemma lost_none out : marked = [] -> output_lost_points show p out f = (f, Ok 0).
  Proof. intros H. rewrite lost_common, H. reflexivity. Qed.
  Lemma lost_bad out l : In l marked -> (forall q, ~ lost_at l q) -> exists e, output_lost_points show p out f = (f, Err e).
  Proof.
    intros Hi Hb. rewrite lost_common. destruct (mapM lost_xyz marked) as [ps|e] eqn:E; [|now exists e]. exfalso.
    apply mapM_Ok_iff in E. clear - Hi Hb E. induction E as [|x y xs ys Hxy HF IH]; [contradiction|]. destruct Hi as [->|Hi]; [|now apply IH].
    apply lost_xyz_spec in Hxy. now apply (Hb y).
  Qed.
End Lost.

(** * xsdir *)
Lemma heads_spec h l : heads h l <-> starts_with h (strip l) = true.
Proof.
  unfold heads. rewrite starts_with_spec. split.
  - intros (t & H & Hp). apply trimmed_strip in H. now subst t.
  - intros H. exists (strip l). split; [apply strip_trimmed|assumption].
Qed.
Lemma headsF h l : starts_with h (strip l) = false <-> ~ heads h l.
Proof. rewrite heads_spec. destruct (starts_with h (strip l)); split; congruence. Qed.
Fixpoint set_all {V} (es : list (str * V)) (d : list (str * V)) : list (str * V) :=
  match es with [] => d | (k, v) :: es' => set_all es' (dict_set str_eqb k v d) end.
Lemma set_all_get {V} (es : list (str * V)) : forall d k v,
  dict_get str_eqb k (set_all es d) = Some v <-> last_binding es k v \/ (~ In k (map fst es) /\ dict_get str_eqb k d = Some v).
Proof.
  induction es as [|[k0 v0] es IH]; intros d k v; cbn [set_all map fst In].
  - split; [intros H; right; split; [tauto|assumption]|]. intros [(a & b & E & _)|[_ H]]; [destruct a; discriminate|assumption].
  - rewrite IH. rewrite (dict_get_set str_eqb str_eqb_spec). destruct (str_eqb_spec k k0) as [->|Hne].
    + split.
      * intros [(a & b & -> & Hb)|[Hn H]]; left.
        -- exists ((k0, v0) :: a), b. now split.
        -- injection H as <-. exists [], es. now split.
      * intros [(a & b & E & Hb)|[Hn _]]; [|exfalso; apply Hn; now left]. destruct a as [|e a]; cbn [app] in E.
        -- injection E as -> ->. right. now split.
        -- injection E as _ ->. left. now exists a, b.
    + split.
      * intros [(a & b & -> & Hb)|[Hn H]]; [left; now exists ((k0, v0) :: a), b|right]. split; [|assumption]. intros [E|E]; [congruence|contradiction].
      * intros [(a & b & E & Hb)|[Hn H]]; [|right; split; [tauto|assumption]]. left. destruct a as [|e a]; cbn [app] in E; [congruence|]. injection E as _ ->. now exists a, b.
Qed.
Lemma set_all_NoDup {V} (es : list (str * V)) : forall d, NoDup (map fst d) -> NoDup (map fst (set_all es d)).
Proof. induction es as [|[k v] es IH]; intros d H; [assumption|]. cbn [set_all]. apply IH. now apply (dict_set_NoDup str_eqb str_eqb_spec). Qed.
Lemma set_all_bindings {V} (es : list (str * V)) : bindings str_eqb (set_all es []) es.
Proof. split; [apply set_all_NoDup; constructor|]. intros k v. rewrite set_all_get. split; [|now left]. intros [H|[_ H]]; [assumption|discriminate]. Qed.

Lemma awr_section pre h rest : (forall x, In x pre -> ~ heads (lit "atomic") x) -> heads (lit "atomic") h ->
  process_awr (pre ++ h :: rest) = awr_loop true rest [].
Proof.
  intros Hp Hh. unfold process_awr. induction pre as [|l pre IH]; cbn [app awr_loop].
  - apply heads_spec in Hh. now rewrite Hh.
  - assert (E : starts_with (lit "atomic") (strip l) = false) by (apply headsF, Hp; now left). rewrite E. apply IH. intros x Hx. apply Hp. now right.
Qed.
Lemma heads_excl l : heads (lit "atomic") l -> heads (lit "directory") l -> False.
Proof.
  intros (t & H1 & (a & ->)) (t' & H2 & (b & ->)). apply trimmed_strip in H1, H2. rewrite H1 in H2. discriminate.
Qed.
Lemma awr_run sec es tail : awr_entries sec es -> (forall x, In x sec -> ~ heads (lit "directory") x) ->
  (tail = [] \/ exists d r, tail = d :: r /\ heads (lit "directory") d) -> forall d, awr_loop true (sec ++ tail) d = Ok (set_all es d).
Proof.
  intros H Hd Ht. induction H as [|l ls w k v x rest es Hw Ha Hx H IH|l ls es Ha H IH|l ls ws es Hw Hlen H IH]; intros d; cbn [app awr_loop set_all].
  - destruct Ht as [->|(e & r & -> & He)]; [reflexivity|]. cbn [awr_loop].
    assert (E : starts_with (lit "atomic") (strip e) = false) by (apply headsF; intros Ha; now apply (heads_excl e)). rewrite E.
    apply heads_spec in He. now rewrite He.
  - assert (E : starts_with (lit "atomic") (strip l) = false) by now apply headsF. rewrite E.
    assert (E2 : starts_with (lit "directory") (strip l) = false) by (apply headsF, Hd; now left). rewrite E2.
    rewrite split_ws_strip. apply words_split in Hw. rewrite Hw. rewrite Hx. cbn [bind]. apply IH. intros y Hy. apply Hd. now right.
  - apply heads_spec in Ha. rewrite Ha. apply IH. intros y Hy. apply Hd. now right.
  - destruct (starts_with (lit "atomic") (strip l)) eqn:E; [apply IH; intros y Hy; apply Hd; now right|].
    assert (E2 : starts_with (lit "directory") (strip l) = false) by (apply headsF, Hd; now left). rewrite E2.
    rewrite split_ws_strip. apply words_split in Hw. rewrite Hw. destruct ws as [|w1 [|w2 [|w3 ws]]]; cbn in Hlen; try lia; apply IH; intros y Hy; apply Hd; now right.
Qed.
Lemma awr_none lines : (forall x, In x lines -> ~ heads (lit "atomic") x) -> process_awr lines = Ok [].
Proof.
  unfold process_awr. induction lines as [|l ls IH]; intros H; cbn [awr_loop]; [reflexivity|].
  assert (E : starts_with (lit "atomic") (strip l) = false) by (apply headsF, H; now left). rewrite E. apply IH. intros x Hx. apply H. now right.
Qed.
Lemma awr_spec lines rest sec es : after_first (heads (lit "atomic")) lines rest -> before_first (heads (lit "directory")) rest sec -> awr_entries sec es ->
  exists d, process_awr lines = Ok d /\ bindings str_eqb d es.
Proof.
  intros [[-> Hn]|(pre & h & -> & Hh & Hp)] [Hs Hb] He.
  - rewrite awr_none by assumption. exists []. split; [reflexivity|].
    assert (sec = []) by (destruct Hb as [->|(l & post & E & _)]; [reflexivity|destruct sec; discriminate]). subst sec. inversion He; subst. apply (@set_all_bindings float []).
  - exists (set_all es []). split; [|apply set_all_bindings]. rewrite awr_section by assumption.
    destruct Hb as [->|(l & post & -> & Hl)]; [rewrite <- (app_nil_r rest) at 1|]; apply awr_run; try assumption; [now left|right; now exists l, post].
Qed.
(** Word sections. *)
Lemma dir_run sec es : word_entries (heads (lit "directory")) sec es -> forall d, dir_loop true sec d = set_all es d.
Proof.
  induction 1 as [|l ls k v vs es Hw Hs H IH|l ls es Hs H IH|l ls ws es Hw Hlen H IH]; intros d; cbn [dir_loop set_all]; [reflexivity| | |].
  - assert (E : starts_with (lit "directory") (strip l) = false) by now apply headsF. rewrite E. apply words_split in Hw. rewrite Hw. apply IH.
  - apply heads_spec in Hs. rewrite Hs. apply IH.
  - apply words_split in Hw. rewrite Hw. destruct (starts_with _ _); [apply IH|]. destruct ws as [|w1 [|w2 ws]]; cbn in Hlen; try lia; apply IH.
Qed.
Lemma dir_spec lines sec es : after_first (heads (lit "directory")) lines sec -> word_entries (heads (lit "directory")) sec es ->
  bindings str_eqb (process_directory lines) es.
Proof.
  intros [[-> Hn]|(pre & h & -> & Hh & Hp)] He; unfold process_directory.
  - inversion He; subst. assert (E : dir_loop false lines [] = []).
    { clear He. induction lines as [|l ls IH]; cbn [dir_loop]; [reflexivity|]. assert (E : starts_with (lit "directory") (strip l) = false) by (apply headsF, Hn; now left).
      rewrite E. apply IH. intros x Hx. apply Hn. now right. }
    rewrite E. apply (@set_all_bindings (list str) []).
  - assert (E : dir_loop false (pre ++ h :: sec) [] = dir_loop true sec []).
    { induction pre as [|l ls IH]; cbn [app dir_loop]; [apply heads_spec in Hh; now rewrite Hh|].
      assert (E : starts_with (lit "directory") (strip l) = false) by (apply headsF, Hp; now left).
      rewrite E. apply IH. intros x Hx. apply Hp. now right. }
    rewrite E, (dir_run sec es He). apply set_all_bindings.
Qed.
(** The thermal section. *)
Lemma hash_not l : heads (lit "#") l -> ~ thermal_head l.
Proof. intros (t & H1 & (a & ->)) [(t' & H2 & (b & ->))|(t' & H2 & (b & ->))]; apply trimmed_strip in H1, H2; rewrite H1 in H2; discriminate. Qed.
Lemma thermal_step b l ls d : thermal_loop b (l :: ls) d =
  if starts_with (lit "thermal_scattering_data") (strip l) || starts_with (lit "sab") (strip l) then thermal_loop true ls d
  else if starts_with (lit "#") (strip l) then thermal_loop b ls d
  else if b then match split_ws l with k :: v :: vs => thermal_loop b ls (dict_set str_eqb k (v :: vs) d) | _ => thermal_loop b ls d end
  else thermal_loop b ls d.
Proof.
  cbn [thermal_loop]. rewrite <- (split_ws_strip l). destruct (strip l) as [|c s] eqn:E; [destruct b; reflexivity|]. rewrite <- E.
  destruct (starts_with (lit "#") (strip l)) eqn:Eh; [|reflexivity]. apply heads_spec in Eh. apply hash_not in Eh.
  destruct (starts_with (lit "thermal_scattering_data") (strip l)) eqn:E1; [exfalso; apply Eh; left; now apply heads_spec|].
  destruct (starts_with (lit "sab") (strip l)) eqn:E2; [exfalso; apply Eh; right; now apply heads_spec|]. reflexivity.
Qed.
Lemma thermal_bool l : thermal_head l <-> starts_with (lit "thermal_scattering_data") (strip l) || starts_with (lit "sab") (strip l) = true.
Proof. unfold thermal_head. rewrite orb_true_iff, !heads_spec. reflexivity. Qed.
Lemma thermal_run sec es : word_entries thermal_skip sec es -> forall d, thermal_loop true sec d = set_all es d.
Proof.
  induction 1 as [|l ls k v vs es Hw Hs H IH|l ls es Hs H IH|l ls ws es Hw Hlen H IH]; intros d; [reflexivity| | |]; rewrite thermal_step; cbn [set_all].
  - destruct (_ || _) eqn:E1; [apply thermal_bool in E1; exfalso; apply Hs; now right|].
    destruct (starts_with (lit "#") (strip l)) eqn:E2; [exfalso; apply Hs; left; now apply heads_spec|]. apply words_split in Hw. rewrite Hw. apply IH.
  - destruct (_ || _) eqn:E1; [apply IH|]. destruct Hs as [Hs|Hs]; [apply heads_spec in Hs; rewrite Hs; apply IH|apply thermal_bool in Hs; congruence].
  - apply words_split in Hw. rewrite Hw. destruct (_ || _); [apply IH|]. destruct (starts_with (lit "#") (strip l)); [apply IH|].
    destruct ws as [|w1 [|w2 ws]]; cbn in Hlen; try lia; apply IH.
Qed.
Lemma thermal_spec lines sec es : after_first thermal_head lines sec -> word_entries thermal_skip sec es ->
  bindings str_eqb (process_thermal lines) es.
Proof.
  assert (Hstep : forall l ls, ~ thermal_head l -> thermal_loop false (l :: ls) [] = thermal_loop false ls []).
  { intros l ls Hl. rewrite thermal_step. destruct (_ || _) eqn:E1; [apply thermal_bool in E1; contradiction|]. destruct (starts_with (lit "#") (strip l)); reflexivity. }
  intros [[-> Hn]|(pre & h & -> & Hh & Hp)] He; unfold process_thermal.
  - inversion He; subst. assert (E : thermal_loop false lines [] = []).
    { clear He. induction lines as [|l ls IH]; [reflexivity|]. rewrite Hstep by (apply Hn; now left). apply IH. intros x Hx. apply Hn. now right. }
    rewrite E. apply (@set_all_bindings (list str) []).
  - assert (E : thermal_loop false (pre ++ h :: sec) [] = thermal_loop true sec []).
    { induction pre as [|l ls IH]; cbn [app].
      - rewrite thermal_step. apply thermal_bool in Hh. now rewrite Hh.
      - rewrite Hstep by (apply Hp; now left). apply IH. intros x Hx. apply Hp. now right. }
    rewrite E, (thermal_run sec es He). apply set_all_bindings.
Qed.
(** The data path. *)
Lemma strip_lower s : strip (lower s) = lower (strip s).
Proof.
  apply trimmed_strip. destruct (strip_trimmed s) as (a & b & E & Ha & Hb & H1 & H2). exists (lower a), (lower b). split.
  - rewrite E at 1. now rewrite !lower_app.
  - split; [now apply lower_blank|]. split; [now apply lower_blank|]. split.
    + intros c r Hc. destruct (strip s) as [|c' r'] eqn:Es; [discriminate|]. cbn in Hc. injection Hc as <- _. rewrite lower_ws. now apply (H1 c' r').
    + intros r c Hc. destruct (snoc_cases (strip s)) as [Es|(r' & c' & Es)]; rewrite Es in Hc; [destruct r; discriminate|]. rewrite lower_app in Hc.
      apply app_inj_tail in Hc. destruct Hc as [_ <-]. rewrite lower_ws. now apply (H2 r' c').
Qed.
Lemma datapath_bool l : starts_with (lit "datapath") (strip (lower l)) = true <-> datapath_line l.
Proof.
  rewrite strip_lower. change (lit "datapath") with (lower (lit "datapath")). rewrite lower_prefix. unfold datapath_line. split.
  - intros (q & r & E & H). exists (strip l), q, r. split; [apply strip_trimmed|]. now split.
  - intros (t & q & r & H1 & H2 & H3). apply trimmed_strip in H1. subst t. now exists q, r.
Qed.
Lemma lower_eq_sign c : lower_c c = chr 61 <-> c = chr 61.
Proof. apply caseless_eq. reflexivity. Qed.
Lemma lacks_lower c s : caseless c = true -> ~ In c s -> ~ In c (lower s).
Proof. intros Hc H Hi. apply in_map_iff in Hi. destruct Hi as (x & E & Hi). apply (proj1 (caseless_eq c x Hc)) in E. now subst x. Qed.
Lemma datapath_spec pre l post a v rest t : (forall x, In x pre -> ~ datapath_line x) -> datapath_line l ->
  l = a ++ chr 61 :: rest -> ~ In (chr 61) a -> upto (chr 61) rest v -> trimmed v t ->
  process_datapath (pre ++ l :: post) = Ok (Some (lower t)).
Proof.
  intros Hp Hl E Ha Hv Ht. induction pre as [|x pre IH]; cbn [app process_datapath].
  - apply datapath_bool in Hl. rewrite Hl. subst l. rewrite lower_app. cbn [lower map]. change (lower_c (chr 61)) with (chr 61).
    rewrite split_on_app by (apply lacks_In, lacks_lower; [reflexivity|assumption]).
    destruct Hv as [Hv1 Hv2].
    assert (Es : exists tl, split_on (chr 61) (map lower_c rest) = lower v :: tl).
    { destruct Hv2 as [->|(q & ->)].
      - rewrite split_on_lacks by (apply lacks_In, lacks_lower; [reflexivity|assumption]). now exists [].
      - rewrite map_app. cbn [map]. change (lower_c (chr 61)) with (chr 61). rewrite split_on_app by (apply lacks_In, lacks_lower; [reflexivity|assumption]). eexists. reflexivity. }
    destruct Es as (tl & Es). rewrite Es. rewrite P_input2.py_nth_1. cbn [bind]. rewrite strip_lower. apply trimmed_strip in Ht. now rewrite Ht.
  - destruct (starts_with _ _) eqn:E1; [apply datapath_bool in E1; exfalso; apply (Hp x); [now left|assumption]|]. apply IH. intros y Hy. apply Hp. now right.
Qed.
Lemma datapath_none lines : (forall x, In x lines -> ~ datapath_line x) -> process_datapath lines = Ok None.
Proof.
  intros H. induction lines as [|x ls IH]; cbn [process_datapath]; [reflexivity|].
  destruct (starts_with _ _) eqn:E1; [apply datapath_bool in E1; exfalso; apply (H x); [now left|assumption]|]. apply IH. intros y Hy. apply H. now right.
Qed.
Lemma datapath_noeq pre l post : (forall x, In x pre -> ~ datapath_line x) -> datapath_line l -> ~ In (chr 61) l -> process_datapath (pre ++ l :: post) = Err IndexError.
Proof.
  intros Hp Hl Hn. induction pre as [|x pre IH]; cbn [app process_datapath].
  - apply datapath_bool in Hl. rewrite Hl. rewrite split_on_lacks by (apply lacks_In, lacks_lower; [reflexivity|assumption]). reflexivity.
  - destruct (starts_with _ _) eqn:E1; [apply datapath_bool in E1; exfalso; apply (Hp x); [now left|assumption]|]. apply IH. intros y Hy. apply Hp. now right.
Qed.
(** The whole file. *)
Lemma xsdir_read f p lines arest asec aes dsec des tsec tes :
  get_lines f p = Ok lines ->
  (forall x, In x lines -> datapath_line x -> In (chr 61) x) ->
  after_first (heads (lit "atomic")) lines arest -> before_first (heads (lit "directory")) arest asec -> awr_entries asec aes ->
  after_first (heads (lit "directory")) lines dsec -> word_entries (heads (lit "directory")) dsec des ->
  after_first thermal_head lines tsec -> word_entries thermal_skip tsec tes ->
  exists x, read_xsdir f p = Ok x /\ bindings str_eqb (xs_awr x) aes /\ bindings str_eqb (xs_directory x) des /\ bindings str_eqb (xs_thermal x) tes.
Proof.
  intros Hg He Ha1 Ha2 Ha3 Hd1 Hd2 Ht1 Ht2. unfold read_xsdir. rewrite Hg. cbn [bind].
  assert (Hdp : exists o, process_datapath lines = Ok o).
  { clear - He. induction lines as [|l ls IH]; cbn [process_datapath]; [now exists None|]. destruct (starts_with _ _) eqn:E.
    - apply datapath_bool in E. specialize (He l (or_introl eq_refl) E). apply in_split in He. destruct He as (a & b & ->). rewrite lower_app. cbn [lower map].
      change (lower_c (chr 61)) with (chr 61). set (s := lower a ++ _). assert (Hn : exists x y zs, split_on (chr 61) s = x :: y :: zs).
      { subst s. clear. induction (lower a) as [|c s IH]; cbn [app split_on].
        - change (Ascii.eqb (chr 61) (chr 61)) with true. cbn iota. destruct (split_on (chr 61) (map lower_c b)) as [|y zs] eqn:E; [now apply split_on_ne in E|]. now exists [], y, zs.
        - destruct (Ascii.eqb c (chr 61)).
          + destruct IH as (x & y & zs & ->). now exists [], x, (y :: zs).
          + destruct IH as (x & y & zs & ->). now exists (c :: x), y, zs. }
      destruct Hn as (x & y & zs & Hn). change (map lower_c b) with (lower b) in *. rewrite Hn. rewrite P_input2.py_nth_1. cbn [bind]. eexists. reflexivity.
    - apply IH. intros x Hx. apply He. now right. }
  destruct Hdp as (o & Hdp). rewrite Hdp. cbn [bind]. destruct (awr_spec lines arest asec aes Ha1 Ha2 Ha3) as (d & Ed & Hd). rewrite Ed. cbn [bind].
  eexists. split; [reflexivity|]. cbn [xs_awr xs_directory xs_thermal]. split; [assumption|]. split; [now apply (dir_spec lines dsec)|now apply (thermal_spec lines tsec)].
Qed.
(** A continued directory entry. *)
Lemma word_entries_app sk a : forall b es1 es2, word_entries sk a es1 -> word_entries sk b es2 -> word_entries sk (a ++ b) (es1 ++ es2).
Proof.
  induction a as [|l a IH]; intros b es1 es2 H1 H2; inversion H1; subst; cbn [app]; [assumption| | |].
  - eapply we_take; eauto.
  - eapply we_skip; eauto.
  - eapply we_short; eauto.
Qed.
Lemma xsdir_continued pre h a l b l2 k v vs es : (forall x, In x pre -> ~ heads (lit "directory") x) -> heads (lit "directory") h ->
  ~ heads (lit "directory") l2 -> words l (b ++ [lit "+"]) -> words l2 (k :: v :: vs) -> word_entries (heads (lit "directory")) (a ++ [l]) es ->
  dict_get str_eqb k (process_directory (pre ++ h :: a ++ [l; l2])) = Some (v :: vs).
Proof.
  intros Hp Hh Hl2 Hl Hw He. assert (HE : word_entries (heads (lit "directory")) (a ++ [l; l2]) (es ++ [(k, v :: vs)])).
  { change (a ++ [l; l2]) with (a ++ [l] ++ [l2]). rewrite app_assoc. apply word_entries_app; [assumption|]. eapply we_take; [exact Hw|assumption|constructor]. }
  destruct (dir_spec (pre ++ h :: a ++ [l; l2]) (a ++ [l; l2]) (es ++ [(k, v :: vs)])) as [_ Hb]; [|assumption|].
  - right. now exists pre, h.
  - apply Hb. exists es, []. split; [reflexivity|]. intros [].
Qed.
Lemma datapath_refuted pre l post a rest v t :
  (forall x, In x pre -> ~ datapath_line x) -> datapath_line l ->
  l = a ++ chr 61 :: rest -> ~ In (chr 61) a -> upto (chr 61) rest v -> trimmed v t -> lower t <> t \/ In (chr 61) rest ->
  forall w, trimmed rest w -> process_datapath (pre ++ l :: post) <> Ok (Some w).
Proof.
  intros Hp Hl E Ha Hv Ht Hor w Hw. rewrite (datapath_spec pre l post a v rest t) by assumption. intros H. injection H as H.
  assert (Hnt : ~ In (chr 61) t).
  { destruct Ht as (x & y & Ev & _). destruct Hv as [Hv _]. intros Hi. apply Hv. rewrite Ev. apply in_app_iff. right. apply in_app_iff. now left. }
  assert (Hin : In (chr 61) rest -> In (chr 61) w).
  { intros Hi. destruct Hw as (x & y & Ew & Hx & Hy & _). rewrite Ew in Hi. apply in_app_iff in Hi. destruct Hi as [Hi|Hi]; [exfalso|apply in_app_iff in Hi; destruct Hi as [Hi|Hi]; [assumption|exfalso]].
    - apply (proj1 (Forall_forall _ _) Hx) in Hi. discriminate.
    - apply (proj1 (Forall_forall _ _) Hy) in Hi. discriminate. }
  destruct (in_dec Ascii.ascii_dec (chr 61) rest) as [Hi|Hi].
  - apply (lacks_lower (chr 61) t eq_refl Hnt). rewrite H. now apply Hin.
  - destruct Hor as [Hor|Hor]; [|contradiction]. destruct Hv as [_ [Hv|(q & Hv)]].
    + subst v. apply trimmed_strip in Ht, Hw. apply Hor. congruence.
    + apply Hi. rewrite Hv. apply in_app_iff. right. now left.
Qed.
