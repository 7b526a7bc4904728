(** Proofs about mcnp_input_reader: materials, tallies, queries, whole decks. *)
From Coq Require Import Lia.
From Verif Require Import PyBase PyFloat FloatZ PyFs SpecStr PyFacts SpecUtil M_util P_util M_input SpecInput PyNumFacts TextFacts P_input P_input2.

(** * Surfaces on continuation lines of a cell *)
Lemma cont_part_lost st l : continuation l -> ~ occurs (lit "imp") (lower l) -> ~ In (chr 36) l -> geom_step st l = Ok st.
Proof.
  intros [r ->] Hi Hd. destruct st as [[com imp] surfs]. unfold geom_step.
  replace (contains [c_dollar] (lit "     " ++ r)) with false.
  2:{ symmetry. apply contains_false. intros (a & b & E). apply Hd. rewrite E. apply in_app_iff. right. left. reflexivity. }
  cbn [bind]. change (lit "     " ++ r) with (chr 32 :: lit "    " ++ r) at 1. cbv iota zeta.
  assert (E : exists t, strip_brackets (lit "     " ++ r) = chr 32 :: t /\ exists u, lit "     " ++ r = (chr 32 :: t) ++ u).
  { unfold strip_brackets. change (lit "     " ++ r) with (chr 32 :: lit "    " ++ r). rewrite lstrip_by_id by reflexivity.
    destruct (rstrip_by_decomp is_bracket (chr 32 :: lit "    " ++ r)) as (u & E & Hu).
    destruct (rstrip_by is_bracket (chr 32 :: lit "    " ++ r)) as [|c t] eqn:Er.
    - apply rstrip_by_nil_iff in Er. inversion Er; subst. discriminate.
    - cbn [app] in E. injection E as E1 E2. subst c. exists t. split; [reflexivity|]. exists u. cbn [app]. f_equal. exact E2. }
  destruct E as (t & -> & u & Eu). replace (contains (lit "imp") (lower (chr 32 :: t))) with false.
  2:{ symmetry. apply contains_false. intros (a & b & Eo). apply Hi. rewrite Eu, lower_app, Eo. exists a, (b ++ lower u). now rewrite !app_assoc. }
  rewrite py_nth_0. cbn [bind]. reflexivity.
Qed.
Lemma cont_surfaces_lost c l k : wf_cell_card c -> words l (cell_card_words c) -> (exists a r, l = a :: r /\ is_ws a = false) ->
  continuation k -> ~ occurs (lit "imp") (lower k) -> ~ In (chr 36) k ->
  exists c', process_cell_block [l; k] = Ok [(cc_number c, c')] /\ c_surfaces c' = c_surfaces (cell_of_card c).
Proof.
  intros Hc Hw Hl Hk Hi Hd. unfold process_cell_block. cbn [foldM]. rewrite (cell_card_step c l) by assumption. cbn [fst snd bind].
  unfold cell_step. destruct Hk as [r Er]. assert (Hk : is_continue_line k = true) by (apply continue_spec; now exists r).
  replace (py_nth k 0) with (@Ok ascii (chr 32)) by (rewrite Er; reflexivity). cbn [bind]. change (is_digit (chr 32)) with false. cbv iota. rewrite Hk.
  cbn [bind]. unfold finish_cell, process_geom. rewrite foldM_app. cbn [c_comment c_imp c_number c_mat c_density].
  destruct Hc as (Hn & Hden & Hg). rewrite geom_toks by assumption. cbn [bind foldM].
  rewrite cont_part_lost by (assumption || now exists r). cbn [bind c_number]. eexists. split; reflexivity.
Qed.

(** * Queries *)
Lemma get_cell_iff n cells c : NoDup (map fst cells) -> get_cell n cells = Some c <-> In (n, c) cells.
Proof.
  intros HN. split; [apply (dict_get_In Z.eqb Z.eqb_spec)|apply (dict_get_NoDup Z.eqb Z.eqb_spec); assumption].
Qed.
Lemma get_mat_iff n mats (c : material) : NoDup (map fst mats) -> get_mat n mats = Some c <-> In (n, c) mats.
Proof.
  intros HN. split; [apply (dict_get_In Z.eqb Z.eqb_spec)|apply (dict_get_NoDup Z.eqb Z.eqb_spec); assumption].
Qed.
Lemma check_cell_iff n cells : check_cell_exists n cells = true <-> In n (map fst cells).
Proof. unfold check_cell_exists, get_cell. rewrite <- (dict_has_In Z.eqb Z.eqb_spec). unfold dict_has. destruct (dict_get _ _ _); split; congruence. Qed.
Lemma check_mat_iff c mats : check_cell_mat_exists c mats = true <-> In (c_mat c) (map fst mats).
Proof. unfold check_cell_mat_exists, get_mat. rewrite <- (dict_has_In Z.eqb Z.eqb_spec). unfold dict_has. destruct (dict_get _ _ _); split; congruence. Qed.
(** [selects P l r]: [r] are the members of [l] satisfying [P], in order. *)
Lemma filter_selects {A} (p : A -> bool) (P : A -> Prop) l : (forall x, In x l -> p x = true <-> P x) -> selects P l (filter p l).
Proof.
  induction l as [|x l IH]; intros H; cbn; [constructor|]. specialize (IH (fun y Hy => H y (or_intror Hy))).
  destruct (p x) eqn:E.
  - constructor; [apply H; [now left|assumption]|assumption].
  - constructor; [|assumption]. intros Hp. apply H in Hp; [congruence|now left].
Qed.
Lemma cells_with_mat_spec m cells : selects (fun c => c_mat c = m) (map snd cells) (cells_with_mat m cells).
Proof. apply filter_selects. intros c _. apply Z.eqb_eq. Qed.
Lemma cells_with_surface_spec n cells :
  (Z.abs n < 2 ^ 53)%Z ->
  (forall c, In c (map snd cells) -> exists ns, c_surfaces c = map f_of_Z ns /\ Forall (fun z => Z.abs z < 2 ^ 53)%Z ns) ->
  selects (fun c => In (f_of_Z n) (c_surfaces c)) (map snd cells) (cells_with_surface n cells).
Proof.
  intros Hn H. apply filter_selects. intros c Hc. destruct (H c Hc) as (ns & -> & Hns). rewrite existsb_exists. split.
  - intros (s & Hs & E). apply in_map_iff in Hs. destruct Hs as (z & <- & Hz). rewrite Forall_forall in Hns.
    apply feq_f_of_Z in E; [|auto|assumption]. subst z. now apply in_map.
  - intros Hi. exists (f_of_Z n). split; [assumption|]. now apply feq_f_of_Z.
Qed.
Lemma f_of_Z_In n ns : (Z.abs n < 2 ^ 53)%Z -> Forall (fun z => Z.abs z < 2 ^ 53)%Z ns -> In (f_of_Z n) (map f_of_Z ns) <-> In n ns.
Proof.
  intros Hn Hns. split; [|apply in_map]. intros Hi. apply in_map_iff in Hi. destruct Hi as (z & E & Hz). rewrite Forall_forall in Hns.
  replace n with z; [assumption|]. apply feq_f_of_Z; auto. rewrite E. now apply feq_f_of_Z.
Qed.
Lemma cells_with_surface_cards n cards : (Z.abs n < 2 ^ 53)%Z ->
  Forall (fun c => Forall (fun z => Z.abs z < 2 ^ 53)%Z (concat (map gtok_surfaces (cc_geom c)))) cards ->
  cells_with_surface n (map (fun c => (cc_number c, cell_of_card c)) cards) =
  map cell_of_card (filter (fun c => existsb (Z.eqb n) (concat (map gtok_surfaces (cc_geom c)))) cards).
Proof.
  intros Hn H. unfold cells_with_surface. rewrite map_map. cbn [snd]. induction H as [|c cs Hc Hcs IH]; [reflexivity|].
  cbn [map filter]. rewrite IH.
  assert (E : existsb (fun s => feq s (f_of_Z n)) (c_surfaces (cell_of_card c)) = existsb (Z.eqb n) (concat (map gtok_surfaces (cc_geom c)))).
  { apply eq_true_iff_eq. unfold cell_of_card. cbn [c_surfaces]. rewrite !existsb_exists. rewrite Forall_forall in Hc. split.
    - intros (s & Hs & E). apply in_map_iff in Hs. destruct Hs as (z & <- & Hz). apply feq_f_of_Z in E; [|auto|assumption]. subst z. exists n. split; [assumption|apply Z.eqb_refl].
    - intros (z & Hz & E). apply Z.eqb_eq in E. subst z. exists (f_of_Z n). split; [now apply in_map|]. now apply feq_f_of_Z. }
  rewrite E. destruct (existsb (Z.eqb n) _); reflexivity.
Qed.

(** * Materials *)
Lemma hd_split_cons c a s : a <> c -> hd [] (split_on c (a :: s)) = a :: hd [] (split_on c s).
Proof.
  intros H. cbn [split_on]. destruct (Ascii.eqb_spec a c); [contradiction|]. destruct (split_on c s) eqn:E; [now apply split_on_ne in E|reflexivity].
Qed.
Lemma mat_start_spec n l : (0 <= n)%Z -> is_mat_start n (lower l) = true <-> mat_head n l.
Proof.
  intros Hn. unfold is_mat_start, mat_head. destruct (str_of_Z_nonneg n Hn) as [Hd H0]. split.
  - intros H. split; [assumption|]. destruct l as [|a [|b l]]; try discriminate. cbn [lower map] in H.
    rewrite !andb_true_iff, Ascii.eqb_eq, str_eqb_eq in H. destruct H as ((Ha & Hb) & He). exists a.
    change (map lower_c l) with (lower l) in He. change (lower_c b :: lower l) with (lower (b :: l)) in He. rewrite hd_split_cons in He by (rewrite Ha; discriminate).
    rewrite slice_from_1 in He. pose proof (upto_split c_space (lower (b :: l))) as Hu. rewrite He in Hu. destruct Hu as [_ Hu].
    destruct Hu as [Hu|(t & Hu)].
    + exists []. rewrite app_nil_r. split; [|split; [assumption|now left]]. f_equal.
      assert (Hdl : Forall (fun c => is_decimal c = true) (lower (b :: l))) by (rewrite Hu; assumption).
      clear - Hu Hdl. rewrite <- Hu. symmetry. clear Hu. induction (b :: l) as [|c s IH]; [reflexivity|]. cbn in *. inversion Hdl; subst. f_equal; [|auto].
      pose proof (ascii_all (fun c => implb (is_decimal (lower_c c)) (Ascii.eqb (lower_c c) c)) ltac:(vm_compute; reflexivity) c) as G. cbv beta in G. rewrite H1 in G. now apply Ascii.eqb_eq in G.
    + set (k := length (str_of_Z n)). exists (skipn k (b :: l)).
      assert (E1 : lower (firstn k (b :: l)) = str_of_Z n).
      { unfold lower. rewrite <- firstn_map. unfold lower in Hu. rewrite Hu. unfold k. rewrite firstn_app, firstn_all, Nat.sub_diag. apply app_nil_r. }
      assert (E2 : lower (skipn k (b :: l)) = c_space :: t).
      { unfold lower. rewrite <- skipn_map. unfold lower in Hu. rewrite Hu. unfold k. rewrite skipn_app, skipn_all, Nat.sub_diag. reflexivity. }
      split; [|split; [assumption|right]].
      * f_equal. rewrite <- (firstn_skipn k (b :: l)) at 1. f_equal. rewrite <- E1. rewrite <- E1 in Hd. clear - Hd. induction (firstn k (b :: l)) as [|c s IH]; [reflexivity|]. cbn in *. inversion Hd; subst. f_equal; [|auto].
        pose proof (ascii_all (fun c => implb (is_decimal (lower_c c)) (Ascii.eqb (lower_c c) c)) ltac:(vm_compute; reflexivity) c) as G. cbv beta in G. rewrite H1 in G. apply Ascii.eqb_eq in G. now symmetry.
      * destruct (skipn k (b :: l)) as [|c r]; [discriminate|]. cbn in E2. injection E2 as E2 _. apply (proj1 (lower_space _)) in E2. subst c. now exists r.
  - intros (_ & a & r & -> & Ha & Hr). cbn [lower map]. rewrite map_app. change (map lower_c (str_of_Z n)) with (lower (str_of_Z n)). rewrite lower_decimals by assumption.
    destruct (str_of_Z n) as [|d ds] eqn:En; [congruence|]. cbn [app]. rewrite Ha. change (Ascii.eqb (chr 109) (chr 109)) with true.
    inversion Hd; subst. destruct (decimal_facts d) as (_ & _ & _ & _ & Hdig & _); [assumption|]. rewrite Hdig. cbn [andb].
    change (chr 109 :: d :: ds ++ map lower_c r) with ((chr 109 :: d :: ds) ++ map lower_c r).
    assert (Hl : lacks c_space (chr 109 :: d :: ds)).
    { intros [E|E]; [discriminate|]. rewrite Forall_forall in Hd. apply Hd in E. discriminate. }
    assert (E : hd [] (split_on c_space ((chr 109 :: d :: ds) ++ map lower_c r)) = chr 109 :: d :: ds).
    { destruct Hr as [->|(r' & ->)].
      - cbn [map]. rewrite app_nil_r, split_on_lacks by assumption. reflexivity.
      - cbn [map]. change (lower_c (chr 32)) with c_space. rewrite split_on_app by assumption. reflexivity. }
    rewrite E, slice_from_1. apply str_eqb_refl.
Qed.
Lemma mat_block n lines out : (0 <= n)%Z -> block_loop (is_mat_start n) false lines = out <-> card_found (mat_head n) lines out.
Proof.
  intros Hn. apply block_iff; [reflexivity| |].
  - intros l [r ->]. reflexivity.
  - intros l. now apply mat_start_spec.
Qed.
Lemma contains_eq e : contains [c_equal] e = true <-> In (chr 61) e.
Proof.
  rewrite contains_char, existsb_exists. split.
  - intros (c & Hc & E). apply Ascii.eqb_eq in E. now subst c.
  - intros H. exists (chr 61). split; [assumption|apply Ascii.eqb_refl].
Qed.
Lemma contains_eqF e : contains [c_equal] e = false <-> ~ In (chr 61) e.
Proof. rewrite <- contains_eq. destruct (contains _ _); split; congruence. Qed.
Lemma interleave_filter (p : str -> bool) a b c : interleave a b c -> Forall (fun x => p x = false) a -> Forall (fun x => p x = true) b ->
  filter p c = b /\ filter (fun x => negb (p x)) c = a.
Proof.
  induction 1 as [|x a b c H IH|x a b c H IH]; intros Ha Hb; [auto| |]; cbn.
  - inversion Ha as [|? ? Hx Ha']; subst. rewrite Hx. cbn. destruct (IH Ha' Hb) as [-> ->]. auto.
  - inversion Hb as [|? ? Hx Hb']; subst. rewrite Hx. cbn. destruct (IH Ha Hb') as [-> ->]. auto.
Qed.
Lemma keyword_step e kw : In (chr 61) e -> exists v, process_material_keyword e kw = Ok (dict_set str_eqb (hd [] (split_on c_equal e)) v kw).
Proof.
  intros Hi. unfold process_material_keyword. cbv zeta.
  destruct (split_on c_equal e) as [|k vs] eqn:E; [now apply split_on_ne in E|]. rewrite py_nth_0. cbn [bind hd].
  destruct (Nat.eqb_spec (length (k :: vs)) 2) as [L|L].
  - destruct vs as [|v [|? ?]]; try discriminate. change (py_nth [k; v] (-1)) with (@Ok str v). cbn [bind]. exists (KStr v). destruct kw; reflexivity.
  - cbn [bind]. eexists. destruct kw; reflexivity.
Qed.
Lemma library_no_eq k : In k library_keywords -> ~ In (chr 61) k.
Proof.
  intros H Hi. assert (G : forallb (fun k => negb (contains [c_equal] k)) library_keywords = true) by (vm_compute; reflexivity).
  rewrite forallb_forall in G. apply G in H. apply negb_true_iff, contains_eqF in H. contradiction.
Qed.
Lemma keyword_pair k v kw : ~ In (chr 61) k -> ~ In (chr 61) v ->
  process_material_keyword (k ++ chr 61 :: v) kw = Ok (dict_set str_eqb k (KStr v) kw).
Proof.
  intros Hk Hv. unfold process_material_keyword. cbv zeta. fold c_equal. rewrite split_on_app, (split_on_lacks _ v) by assumption.
  rewrite py_nth_0. cbn [bind length Nat.eqb]. change (py_nth [k; v] (-1)) with (@Ok str v). cbn [bind]. destruct kw; reflexivity.
Qed.
Lemma keyword_fold kws acc : wf_kws kws -> NoDup (map fst acc ++ map fst kws) ->
  foldM (fun kw e => process_material_keyword e kw) (kw_words kws) acc = Ok (acc ++ map (fun kv => (fst kv, KStr (snd kv))) kws).
Proof.
  intros [_ H]. revert acc. induction H as [|[k v] kws (Hk & Hv) Hkws IH]; intros acc HN.
  - cbn. now rewrite app_nil_r.
  - cbn [kw_words map foldM fst snd] in *. rewrite keyword_pair by (auto using library_no_eq).
    rewrite (dict_set_fresh str_eqb str_eqb_spec).
    + change (map (fun kv : list ascii * list ascii => fst kv ++ chr 61 :: snd kv) kws) with (kw_words kws). rewrite IH.
      * now rewrite <- app_assoc.
      * rewrite map_app. cbn [map fst]. rewrite <- app_assoc. exact HN.
    + apply NoDup_remove_2 in HN. intros Hi. apply HN, in_app_iff. now left.
Qed.
Lemma composition_fold pairs acc : wf_pairs pairs -> NoDup (map fst acc ++ map fst pairs) ->
  composition_of (pair_words pairs) acc = Ok (acc ++ map (fun p => (fst p, snd (snd p))) pairs).
Proof.
  intros [_ H]. revert acc. induction H as [|[z [f x]] pairs (Hz & Hf & Hx) Hps IH]; intros acc HN.
  - cbn. now rewrite app_nil_r.
  - cbn [pair_words map concat app composition_of fst snd] in *. rewrite Hx. cbn [bind].
    rewrite (dict_set_fresh str_eqb str_eqb_spec).
    + change (concat (map (fun p : str * (str * float) => [fst p; fst (snd p)]) pairs)) with (pair_words pairs). rewrite IH.
      * now rewrite <- app_assoc.
      * rewrite map_app. cbn [map fst]. rewrite <- app_assoc. exact HN.
    + apply NoDup_remove_2 in HN. intros Hi. apply HN, in_app_iff. now left.
Qed.
Lemma valid_keyword_spec k : existsb (str_eqb k) valid_keywords = true <-> In k library_keywords.
Proof. rewrite existsb_str. split; apply incl_dec; vm_compute; reflexivity. Qed.
Lemma check_keywords kw : check_valid_mat_keyword kw = if forallb (fun k => existsb (str_eqb k) library_keywords) (map fst kw) then Ok tt else Err ValueError.
Proof.
  unfold check_valid_mat_keyword.
  replace (forallb (fun k => existsb (str_eqb k) valid_keywords) (map fst kw)) with (forallb (fun k => existsb (str_eqb k) library_keywords) (map fst kw)); [reflexivity|].
  induction (map fst kw) as [|k ks IH]; [reflexivity|]. cbn [forallb]. rewrite IH. f_equal. symmetry.
  apply eq_true_iff_eq. rewrite valid_keyword_spec, existsb_str. reflexivity.
Qed.
Lemma material_line_ok h ws pairs kws n : Forall word (h :: ws) -> interleave (pair_words pairs) (kw_words kws) ws -> wf_pairs pairs -> wf_kws kws ->
  process_material_line (join [c_space] (h :: ws)) n =
  Ok (Material n (length pairs) (map (fun p => (fst p, snd (snd p))) pairs) (map (fun kv => (fst kv, KStr (snd kv))) kws) [] []).
Proof.
  intros Hw Hi Hp Hk. unfold process_material_line. cbv zeta. rewrite split_on_words by (discriminate || assumption). rewrite slice_from_1.
  destruct (interleave_filter (contains [c_equal]) _ _ _ Hi) as [E1 E2].
  - destruct Hp as [_ Hp]. clear - Hp. induction Hp as [|[z [f x]] ps (H1 & H2 & _) Hps IH]; [constructor|]. cbn. constructor; [now apply contains_eqF|]. constructor; [now apply contains_eqF|exact IH].
  - destruct Hk as [_ Hk]. clear - Hk. induction Hk as [|[k v] ks (H1 & H2) Hks IH]; [constructor|]. cbn. constructor; [apply contains_eq, in_elt|exact IH].
  - rewrite E1, E2. rewrite (keyword_fold kws []) by (try assumption; apply Hk). cbn [bind app].
    assert (Ec : (match kw_words kws with [] => Ok tt | _ :: _ => check_valid_mat_keyword (map (fun kv => (fst kv, KStr (snd kv))) kws) end) = Ok tt).
    { assert (G : check_valid_mat_keyword (map (fun kv => (fst kv, KStr (snd kv))) kws) = Ok tt).
      { rewrite check_keywords, map_map. cbn [fst].
        replace (forallb (fun k => existsb (str_eqb k) library_keywords) (map (fun x : str * str => fst x) kws)) with true; [reflexivity|]. symmetry.
        apply forallb_forall. intros k Hin. apply in_map_iff in Hin. destruct Hin as (kv & <- & Hin). destruct Hk as [_ Hk]. rewrite Forall_forall in Hk. apply existsb_str. now apply Hk. }
      rewrite G. now destruct (kw_words kws). }
    rewrite Ec. cbn [bind]. rewrite (composition_fold pairs []) by (try assumption; apply Hp). cbn [bind app]. now rewrite map_length.
Qed.
Lemma mt_name s n : (exists a t, s = a :: t /\ a <> chr 32) -> exists a t, s ++ str_of_Z n = a :: t /\ a <> chr 32.
Proof. intros (a & t & -> & Ha). exists a, (t ++ str_of_Z n). auto. Qed.
Lemma mt_a : exists a t, lit "mt" = a :: t /\ a <> chr 32. Proof. exists (chr 109), (lit "t"). split; [reflexivity|discriminate]. Qed.
Lemma mx_a : exists a t, lit "mx" = a :: t /\ a <> chr 32. Proof. exists (chr 109), (lit "x"). split; [reflexivity|discriminate]. Qed.
Lemma material_recovers n lines out h ws pairs kws mts mxs : (0 <= n)%Z ->
  card_found (mat_head n) lines out -> all_words out (h :: ws) ->
  interleave (pair_words pairs) (kw_words kws) ws -> wf_pairs pairs -> wf_kws kws ->
  card_found (card_head (lit "mt" ++ str_of_Z n)) lines mts ->
  card_found (card_head (lit "mx" ++ str_of_Z n)) lines mxs ->
  read_material_lines n lines =
  Ok (Material n (length pairs) (map (fun p => (fst p, snd (snd p))) pairs) (map (fun kv => (fst kv, KStr (snd kv))) kws) mts mxs).
Proof.
  intros Hn Hc Hw Hi Hp Hk Hmt Hmx. unfold read_material_lines, material_text. apply (mat_block n) in Hc; [|assumption]. rewrite Hc, cleaner_lines.
  apply all_words_fun in Hw. rewrite <- Hw. rewrite (material_line_ok h ws pairs kws); try assumption.
  - cbn [bind m_number m_num_nuclides m_composition m_keywords]. unfold get_mt_lines, get_mx_lines, get_prefixed_lines.
    apply (get_card_iff lines) in Hmt; [|apply mt_name, mt_a]. apply (get_card_iff lines) in Hmx; [|apply mt_name, mx_a]. now rewrite Hmt, Hmx.
  - rewrite Hw. apply concat_words.
Qed.
Lemma material_absent n lines : (0 <= n)%Z -> (forall l, In l lines -> ~ mat_head n l) ->
  exists mts mxs, read_material_lines n lines = Ok (Material n 0 [] [] mts mxs).
Proof.
  intros Hn H. unfold read_material_lines, material_text. assert (Hc : card_found (mat_head n) lines []) by now apply cf_none.
  apply (mat_block n) in Hc; [|assumption]. rewrite Hc. change (string_cleaner (join (lit " ") [])) with (@nil ascii).
  change (process_material_line [] n) with (@Ok material (Material n 0 [] [] [] [])). cbn. eauto.
Qed.
(** Unknown keywords. *)
Lemma kw_fold_keys es kw : Forall (fun e => In (chr 61) e) es ->
  exists kw', foldM (fun kw e => process_material_keyword e kw) es kw = Ok kw' /\
    forall k, In k (map fst kw') <-> In k (map fst kw) \/ In k (map (fun e => hd [] (split_on c_equal e)) es).
Proof.
  intros H. revert kw. induction H as [|e es He Hes IH]; intros kw.
  - exists kw. split; [reflexivity|]. cbn. tauto.
  - cbn [foldM map]. destruct (keyword_step e kw He) as (v & ->). destruct (IH (dict_set str_eqb (hd [] (split_on c_equal e)) v kw)) as (kw' & -> & Hk).
    exists kw'. split; [reflexivity|]. intros k. rewrite Hk. rewrite (dict_set_keys str_eqb str_eqb_spec).
    destruct (dict_has str_eqb (hd [] (split_on c_equal e)) kw) eqn:Eh.
    + apply (dict_has_In str_eqb str_eqb_spec) in Eh. cbn. split; [tauto|]. intros [?|[<-|?]]; tauto.
    + rewrite in_app_iff. cbn. tauto.
Qed.
Lemma filter_eq_all ws : Forall (fun e => In (chr 61) e) (filter (contains [c_equal]) ws).
Proof. apply Forall_forall. intros e He. apply filter_In in He. now apply contains_eq. Qed.
Lemma upto_eq_hd e k : upto (chr 61) e k <-> hd [] (split_on c_equal e) = k.
Proof. apply upto_iff. Qed.
Lemma bad_keyword l n h ws e k : spaced (h :: ws) l -> Forall word (h :: ws) ->
  In e ws -> In (chr 61) e -> upto (chr 61) e k -> ~ In k library_keywords -> process_material_line l n = Err ValueError.
Proof.
  intros Hs Hw He Hq Hk Hn. apply spaced_fun in Hs. subst l. unfold process_material_line. cbv zeta. rewrite split_on_words by (discriminate || assumption). rewrite slice_from_1.
  destruct (kw_fold_keys (filter (contains [c_equal]) ws) [] (filter_eq_all ws)) as (kw' & -> & Hkeys). cbn [bind].
  assert (Hin : In e (filter (contains [c_equal]) ws)) by (apply filter_In; split; [assumption|now apply contains_eq]).
  assert (Hkin : In k (map fst kw')). { apply Hkeys. right. apply in_map_iff. exists e. split; [now apply upto_eq_hd|assumption]. }
  assert (G : check_valid_mat_keyword kw' = Err ValueError).
  { rewrite check_keywords. replace (forallb (fun k => existsb (str_eqb k) library_keywords) (map fst kw')) with false; [reflexivity|]. symmetry.
    destruct (forallb _ _) eqn:E; [|reflexivity]. rewrite forallb_forall in E. apply E in Hkin. apply existsb_str in Hkin. contradiction. }
  destruct (filter (contains [c_equal]) ws); [destruct Hin|]. now rewrite G.
Qed.
Lemma good_keywords l l' n h ws : spaced (h :: ws) l -> Forall word (h :: ws) ->
  (forall e k, In e ws -> In (chr 61) e -> upto (chr 61) e k -> In k library_keywords) ->
  spaced (h :: filter (fun e => negb (contains [c_equal] e)) ws) l' ->
  rmap m_composition (process_material_line l n) = rmap m_composition (process_material_line l' n).
Proof.
  intros Hs Hw Hk Hs'. apply spaced_fun in Hs, Hs'. subst l l'. unfold process_material_line. cbv zeta.
  rewrite split_on_words by (discriminate || assumption). rewrite split_on_words.
  2: discriminate.
  2:{ inversion Hw as [|? ? Hh Hws]; subst. constructor; [assumption|]. apply Forall_forall. intros e He. apply filter_In in He. rewrite Forall_forall in Hws. now apply Hws. }
  rewrite !slice_from_1.
  assert (E1 : filter (contains [c_equal]) (filter (fun e => negb (contains [c_equal] e)) ws) = []).
  { induction ws as [|e es IH]; [reflexivity|]. cbn. destruct (contains [c_equal] e) eqn:E; cbn.
    - apply IH. inversion Hw as [|? ? ? Hws]; subst. inversion Hws; subst. constructor; assumption. intros; eapply Hk; eauto. now right.
    - rewrite E. apply IH. inversion Hw as [|? ? ? Hws]; subst. inversion Hws; subst. constructor; assumption. intros; eapply Hk; eauto. now right. }
  assert (E2 : filter (fun e => negb (contains [c_equal] e)) (filter (fun e => negb (contains [c_equal] e)) ws) = filter (fun e => negb (contains [c_equal] e)) ws).
  { clear. induction ws as [|e es IH]; [reflexivity|]. cbn. destruct (contains [c_equal] e) eqn:E; cbn; [assumption|]. rewrite E. cbn. now rewrite IH. }
  rewrite E1, E2. destruct (kw_fold_keys (filter (contains [c_equal]) ws) [] (filter_eq_all ws)) as (kw' & -> & Hkeys). cbn [bind foldM].
  assert (G : check_valid_mat_keyword kw' = Ok tt).
  { rewrite check_keywords. replace (forallb (fun k => existsb (str_eqb k) library_keywords) (map fst kw')) with true; [reflexivity|]. symmetry.
    apply forallb_forall. intros k Hkin. apply Hkeys in Hkin. destruct Hkin as [[]|Hkin]. apply in_map_iff in Hkin. destruct Hkin as (e & <- & He).
    apply filter_In in He. apply existsb_str. eapply Hk; [apply He|apply contains_eq; apply He|apply upto_split]. }
  assert (G' : (match filter (contains [c_equal]) ws with [] => Ok tt | _ :: _ => check_valid_mat_keyword kw' end) = Ok tt) by (rewrite G; destruct (filter (contains [c_equal]) ws); reflexivity).
  rewrite G'. cbn [bind]. destruct (composition_of _ []); reflexivity.
Qed.

(** * Unrelated cards *)
Lemma card_tail_app b out post : card_tail b out ->
  post = [] \/ (exists l p, post = l :: p /\ ~ continuation l /\ ~ full_comment l /\ l <> []) -> card_tail (b ++ post) out.
Proof.
  intros H Hp. induction H as [|l r ls out Hc Hk H IH|l ls out Hf H IH|ls out H IH|l ls Hc Hf Hn]; cbn [app].
  - destruct Hp as [->|(l & p & -> & H1 & H2 & H3)]; [constructor|now apply ct_stop].
  - now apply ct_cont.
  - now apply ct_comment.
  - now apply ct_empty.
  - now apply ct_stop.
Qed.
Lemma card_found_frame P pre block post out : card_found P block out ->
  (forall l, In l (pre ++ post) -> ~ P l) ->
  post = [] \/ (exists l p, post = l :: p /\ ~ continuation l /\ ~ full_comment l /\ l <> []) ->
  card_found P (pre ++ block ++ post) out.
Proof.
  intros H Hn Hp. destruct H as [ls Hl|a h r b out Ha Hh Hk Ht].
  - apply cf_none. intros l Hi. rewrite !in_app_iff in Hi. destruct Hi as [Hi|[Hi|Hi]]; [apply Hn, in_app_iff; auto|auto|apply Hn, in_app_iff; auto].
  - replace (pre ++ (a ++ h :: b) ++ post) with ((pre ++ a) ++ h :: (b ++ post)) by (rewrite <- !app_assoc; reflexivity).
    apply cf_some; [|assumption|assumption|now apply card_tail_app].
    intros l Hi. apply in_app_iff in Hi. destruct Hi as [Hi|Hi]; [apply Hn, in_app_iff; auto|auto].
Qed.
Definition material_heads (n : Z) (l : str) : Prop :=
  mat_head n l \/ card_head (lit "mt" ++ str_of_Z n) l \/ card_head (lit "mx" ++ str_of_Z n) l.
Lemma material_frame n pre block post : (0 <= n)%Z ->
  (forall l, In l (pre ++ post) -> ~ mat_head n l /\ ~ card_head (lit "mt" ++ str_of_Z n) l /\ ~ card_head (lit "mx" ++ str_of_Z n) l) ->
  post = [] \/ (exists l p, post = l :: p /\ ~ continuation l /\ ~ full_comment l /\ l <> []) ->
  read_material_lines n (pre ++ block ++ post) = read_material_lines n block.
Proof.
  intros Hn Hh Hp. unfold read_material_lines, material_text.
  assert (E1 : block_loop (is_mat_start n) false (pre ++ block ++ post) = block_loop (is_mat_start n) false block).
  { apply mat_block; [assumption|]. apply card_found_frame; [now apply mat_block|intros l Hl; now apply Hh|assumption]. }
  assert (E2 : get_mt_lines (pre ++ block ++ post) n = get_mt_lines block n).
  { unfold get_mt_lines, get_prefixed_lines. apply get_card_iff; [apply mt_name, mt_a|]. apply card_found_frame; [apply get_card_iff; [apply mt_name, mt_a|reflexivity]|intros l Hl; now apply Hh|assumption]. }
  assert (E3 : get_mx_lines (pre ++ block ++ post) n = get_mx_lines block n).
  { unfold get_mx_lines, get_prefixed_lines. apply get_card_iff; [apply mt_name, mx_a|]. apply card_found_frame; [apply get_card_iff; [apply mt_name, mx_a|reflexivity]|intros l Hl; now apply Hh|assumption]. }
  now rewrite E1, E2, E3.
Qed.

(** * Data block *)
Lemma foldM_dict {V} (f : Z -> res V) (num : V -> Z) ns d : (forall n v, f n = Ok v -> num v = n) ->
  forall d', foldM (fun d n => do m <- f n; Ok (dict_set Z.eqb (num m) m d)) ns d = Ok d' ->
  (forall k, In k (map fst d') <-> In k (map fst d) \/ In k ns) /\
  (forall k, dict_get Z.eqb k d' = if existsb (Z.eqb k) ns then match f k with Ok v => Some v | Err _ => None end else dict_get Z.eqb k d) /\
  (forall k, In k ns -> exists v, f k = Ok v).
Proof.
  intros Hnum. revert d. induction ns as [|n ns IH]; intros d d' H; cbn [foldM] in H.
  - injection H as <-. cbn. repeat split; tauto.
  - destruct (f n) as [v|e] eqn:Ef; cbn [bind] in H; [|discriminate]. pose proof (Hnum n v Ef) as En. rewrite En in H.
    destruct (IH _ _ H) as (H1 & H2 & H3). split; [|split].
    + intros k. rewrite H1, (dict_set_keys Z.eqb Z.eqb_spec). cbn [In]. destruct (dict_has Z.eqb n d) eqn:Eh.
      * apply (dict_has_In Z.eqb Z.eqb_spec) in Eh. split; [tauto|]. intros [?|[->|?]]; auto.
      * rewrite in_app_iff. cbn. tauto.
    + intros k. rewrite H2, (dict_get_set Z.eqb Z.eqb_spec). cbn [existsb]. destruct (Z.eqb_spec k n) as [->|]; cbn [orb].
      * rewrite Ef. destruct (existsb (Z.eqb n) ns); reflexivity.
      * reflexivity.
    + intros k [<-|Hk]; eauto.
Qed.
Lemma material_number n lines m : read_material_lines n lines = Ok m -> m_number m = n.
Proof.
  unfold read_material_lines. destruct (process_material_line _ n) as [m'|] eqn:E; [|discriminate]. cbn. intros H; injection H as <-. cbn.
  unfold process_material_line in E. cbv zeta in E. destruct (foldM _ _ _); [|discriminate]. cbn [bind] in E.
  destruct (match filter _ _ with [] => _ | _ => _ end); [|discriminate]. cbn [bind] in E. destruct (composition_of _ _); [|discriminate]. cbn in E. now injection E as <-.
Qed.
Lemma data_block_materials lines d : process_data_block lines = Ok d ->
  card_numbers (chr 109) None lines (d_mat_nums d) /\
  (forall n, In n (map fst (d_materials d)) <-> In n (d_mat_nums d)) /\
  (forall n m, dict_get Z.eqb n (d_materials d) = Some m -> read_material_lines n lines = Ok m).
Proof.
  unfold process_data_block. cbv zeta. destruct (get_tally_numbers lines) as [ts|]; cbn [bind]; [|discriminate].
  destruct (get_material_numbers lines) as [ms|] eqn:Em; cbn [bind]; [|discriminate].
  destruct (foldM _ ms []) as [mats|] eqn:Ef; cbn [bind]; [|discriminate]. intros H; injection H as <-. cbn [d_mat_nums d_materials].
  destruct (foldM_dict (fun n => read_material_lines n lines) m_number ms [] (fun n v => material_number n lines v) mats Ef) as (H1 & H2 & H3).
  split; [now apply mat_numbers_spec|]. split.
  - intros n. rewrite H1. cbn. tauto.
  - intros n m. rewrite H2. destruct (existsb (Z.eqb n) ms) eqn:E; [|discriminate]. destruct (read_material_lines n lines); congruence.
Qed.
Lemma tally_fold lines ts d :
  (forall k, In k (map fst (fold_left (fun d tn => let t := read_tally_lines tn lines in dict_set Z.eqb (ti_number t) t d) ts d)) <-> In k (map fst d) \/ In k ts) /\
  (forall k, dict_get Z.eqb k (fold_left (fun d tn => let t := read_tally_lines tn lines in dict_set Z.eqb (ti_number t) t d) ts d)
     = if existsb (Z.eqb k) ts then Some (read_tally_lines k lines) else dict_get Z.eqb k d).
Proof.
  revert d. induction ts as [|n ts IH]; intros d; cbn [fold_left].
  - cbn. split; [tauto|reflexivity].
  - cbv zeta. change (ti_number (read_tally_lines n lines)) with n.
    destruct (IH (dict_set Z.eqb n (read_tally_lines n lines) d)) as [H1 H2]. split.
    + intros k. rewrite H1, (dict_set_keys Z.eqb Z.eqb_spec). cbn [In]. destruct (dict_has Z.eqb n d) eqn:Eh.
      * apply (dict_has_In Z.eqb Z.eqb_spec) in Eh. split; [tauto|]. intros [?|[->|?]]; auto.
      * rewrite in_app_iff. cbn. tauto.
    + intros k. rewrite H2, (dict_get_set Z.eqb Z.eqb_spec). cbn [existsb]. destruct (Z.eqb_spec k n) as [->|]; cbn [orb]; [destruct (existsb _ ts)|]; reflexivity.
Qed.
Lemma data_block_tallies lines d : process_data_block lines = Ok d ->
  card_numbers (chr 102) (Some (chr 58)) lines (d_tal_nums d) /\
  (forall n, In n (map fst (d_tallies d)) <-> In n (d_tal_nums d)) /\
  (forall n t, dict_get Z.eqb n (d_tallies d) = Some t -> t = read_tally_lines n lines).
Proof.
  unfold process_data_block. cbv zeta. destruct (get_tally_numbers lines) as [ts|] eqn:Et; cbn [bind]; [|discriminate].
  destruct (get_material_numbers lines) as [ms|]; cbn [bind]; [|discriminate].
  destruct (foldM _ ms []) as [mats|]; cbn [bind]; [|discriminate]. intros H; injection H as <-. cbn [d_tal_nums d_tallies].
  destruct (tally_fold lines ts []) as [H1 H2]. split; [now apply tally_numbers_spec|]. split.
  - intros n. rewrite H1. cbn. tauto.
  - intros n t. rewrite H2. destruct (existsb (Z.eqb n) ts) eqn:E; [|discriminate]. intros H; now injection H.
Qed.

(** * Tallies *)
Lemma card_present_spec lines card : is_card_present lines card = true <-> exists l q r, In l lines /\ l = q ++ r /\ lower q = lower card.
Proof.
  unfold is_card_present. rewrite existsb_exists. split.
  - intros (l & Hl & H). apply lower_prefix in H. destruct H as (q & r & -> & Hq). eauto 6.
  - intros (l & q & r & Hl & -> & Hq). exists (q ++ r). split; [assumption|]. apply lower_prefix. eauto.
Qed.
Lemma lower_str_of_Z n : (0 <= n)%Z -> lower (str_of_Z n) = str_of_Z n.
Proof. intros H. apply lower_decimals. now apply str_of_Z_nonneg. Qed.
