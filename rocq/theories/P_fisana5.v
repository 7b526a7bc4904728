(** Proofs about plot_nuc_cont and plot_nuc_chart. *)
From Coq Require Import Reals Lra Lia Floats.SpecFloat.
From Flocq Require Import Core.
From Verif Require Import PyBase PyFloat FloatR FloatFacts P_fisout4 PyFs SpecStr SpecUtil SpecOutput SpecFis SpecConst PyTable PyFacts TextFacts P_util P_const P_fisout M_util M_ptrac M_const M_fisout M_fisana SpecFisana P_fisana P_table P_fisana2 P_fisana3 P_fisana4.
Local Open Scope nat_scope.

Lemma nuc_curves invs n nucs param : Forall (fun t => well_formed t /\ In (lit "nuclide") (t_names t) /\ numeric t param) invs ->
  exists curves, Forall2 (curve_of invs param) nucs curves /\
    mapM (fun nuc => do vals <- mapM (fun inv => nuc_value inv nuc param) invs; if List.length vals =? n then Ok (nuc, vals) else Err ValueError) nucs =
    (if (n =? List.length invs) || (List.length nucs =? 0) then Ok curves else Err ValueError).
Proof.
  intros F.
  assert (V : forall nuc, exists vals, mapM (fun inv => nuc_value inv nuc param) invs = Ok vals /\ Forall2 (fun inv x => contribution inv nuc param x) invs vals).
  { intros nuc. induction F as [|t invs (W & I1 & NU) F IH]; [exists []; split; [reflexivity|constructor]|]. destruct IH as (vals & M & G).
    assert (exists x, contribution t nuc param x) as (x & Hx).
    { destruct (is_nuc_present_spec t nuc W I1) as (b & _ & Sb). destruct b.
      - assert (D : forall r, In r (t_rows t) -> text_at t (lit "nuclide") r nuc \/ ~ text_at t (lit "nuclide") r nuc).
        { intros r Hr. destruct (row_cell_total t (lit "nuclide") r W Hr I1) as (c & _ & Hc). destruct (cell_is nuc c) eqn:C; [left; apply cell_is_spec in C; now subst|right]. intros Ht. assert (c = CS nuc) by (eapply at_col_fun; [apply W|exact Hc|exact Ht]). apply cell_is_spec in H. congruence. }
        destruct (picked_exists _ _ D) as (l & P). destruct (proj1 Sb eq_refl) as (r0 & Hr0 & Ht0). destruct l as [|r l]; [exfalso; exact (proj2 (picked_In _ _ _ r0 P) (conj Hr0 Ht0))|].
        apply picked_head in P. destruct P as (a & bb & El & Fa & Pr & _). destruct (proj2 NU r) as (x & Hx); [rewrite El; apply in_or_app; right; now left|].
        exists x. left. exists (List.length a), r. split; [apply first_index_split; exists a, r, bb; auto|]. split; [rewrite El, nth_error_app2, Nat.sub_diag by lia; reflexivity|exact Hx].
      - exists fzero. right. split; [|reflexivity]. intros r Hr Ht. assert (false = true); [|discriminate]. apply Sb. now exists r. }
    exists (x :: vals). split; [|now constructor]. cbn [mapM]. rewrite (proj2 (nuc_value_spec t nuc param x W I1 (proj1 NU)) Hx), M. reflexivity. }
  induction nucs as [|nuc nucs (curves & G & M)]; [exists []; split; [constructor|]; rewrite orb_true_r; reflexivity|].
  destruct (V nuc) as (vals & Mv & Fv). pose proof (mapM_length _ _ _ Mv) as Lv.
  exists ((nuc, vals) :: curves). split; [constructor; [split; [reflexivity|exact Fv]|exact G]|]. cbn [mapM]. rewrite Mv. cbn [bind]. rewrite Lv, (Nat.eqb_sym (List.length invs) n), M.
  destruct (n =? List.length invs); reflexivity.
Qed.
Lemma plot_nuc_cont_spec invs sd times nucs param (total : bool) tot : Forall (fun t => well_formed t /\ In (lit "nuclide") (t_names t) /\ numeric t param) invs ->
  well_formed sd -> numbers_of sd (lit "time_hours") times -> (total = true -> numbers_of sd param tot) ->
  List.length times = List.length invs -> times <> [] -> (forall x, In x times -> is_nan_f x = false) -> nucs <> [] ->
  exists curves m, largest times m /\ Forall2 (curve_of invs param) nucs curves /\
    plot_nuc_cont invs sd nucs param total = Ok (times, curves ++ (if total then [(lit "Total", tot)] else []), flt (f_of_Z 10) m).
Proof.
  intros F W NT NP L NE NN NL. destruct (py_max_spec times NE NN) as (m & Hm & Lm).
  destruct (nuc_curves invs (List.length times) nucs param F) as (curves & G & M). exists curves, m. split; [exact Lm|]. split; [exact G|].
  unfold plot_nuc_cont. rewrite (proj2 (num_column_spec sd _ times W) NT). destruct nucs as [|n ns]; [contradiction|]. cbn [bind].
  rewrite M, L, Nat.eqb_refl. cbn [orb bind]. destruct total; [rewrite (proj2 (num_column_spec sd _ tot W) (NP eq_refl))|]; cbn [bind]; rewrite Hm; reflexivity.
Qed.
(** Another number of times than of inventories. *)
Lemma plot_nuc_cont_length invs sd times nucs param (total : bool) : Forall (fun t => well_formed t /\ In (lit "nuclide") (t_names t) /\ numeric t param) invs ->
  well_formed sd -> numbers_of sd (lit "time_hours") times -> List.length times <> List.length invs ->
  plot_nuc_cont invs sd nucs param total = Err ValueError.
Proof.
  intros F W NT L. unfold plot_nuc_cont. destruct nucs as [|n ns]; [reflexivity|]. rewrite (proj2 (num_column_spec sd _ times W) NT). cbn [bind].
  destruct (nuc_curves invs (List.length times) (n :: ns) param F) as (curves & _ & M). rewrite M. apply Nat.eqb_neq in L. rewrite L. reflexivity.
Qed.
(** The total of a property that the summary does not have. *)
Lemma plot_nuc_cont_total invs sd times nucs param : Forall (fun t => well_formed t /\ In (lit "nuclide") (t_names t) /\ numeric t param) invs ->
  well_formed sd -> numbers_of sd (lit "time_hours") times -> List.length times = List.length invs -> nucs <> [] -> ~ In param (t_names sd) ->
  plot_nuc_cont invs sd nucs param true = Err KeyError.
Proof.
  intros F W NT L NL NI. unfold plot_nuc_cont. destruct nucs as [|n ns]; [contradiction|]. rewrite (proj2 (num_column_spec sd _ times W) NT). cbn [bind].
  destruct (nuc_curves invs (List.length times) (n :: ns) param F) as (curves & _ & M). rewrite M, L, Nat.eqb_refl. cbn [orb bind].
  unfold num_column, column. apply has_col_not in NI. rewrite NI. reflexivity.
Qed.

Section Chart.
  Context (to_numeric : str -> option Z) (t : table) (W : well_formed t) (prop : str).
  Context (amin amax zmin zmax : Z) (RA : (0 <= amin /\ amax <= 294)%Z) (RZ : (0 <= zmin /\ zmax <= 118)%Z).
  Let P := placed to_numeric t amin amax zmin zmax.
  Lemma chart_row_spec d r : chart_like t prop -> In r (t_rows t) -> exists d', chart_row to_numeric t prop amin amax zmin zmax d r = Ok d' /\
    forall a z, (P r a z /\ number_at t prop r (d' a z)) \/ (~ P r a z /\ d' a z = d a z).
  Proof.
    intros (Ie & Ia & Nu & CL) Hr. destruct (CL r Hr) as ((e & He) & (c & Hc & Kc)). destruct (proj2 Nu r Hr) as (x & vc & Hvc & Hx).
    unfold chart_row. rewrite (proj2 (row_cell_spec t (lit "element") r (CS e) (proj1 W)) He). cbn [bind].
    rewrite (proj2 (row_cell_spec t (lit "A") r c (proj1 W)) Hc).
    assert (exists a, a_int to_numeric c = Ok a /\ mass_number to_numeric c a) as (a0 & Ha & Ma).
    { destruct Kc as [(a & ->)|(s & ->)]; [exists a; split; [reflexivity|now left]|]. cbn [a_int]. destruct (to_numeric s) as [a|] eqn:E; [exists a|exists 0%Z]; (split; [reflexivity|right]); [left; eauto|right; eauto]. }
    assert (Mf : forall a, mass_number to_numeric c a -> a = a0).
    { intros a [K|[(s & K & K')|(s & K & K' & K2)]]; destruct Ma as [M|[(u & M & M')|(u & M & M' & M2)]]; congruence. }
    assert (PP : forall n a z, atomic_number e n -> P r a z -> a = a0 /\ z = Z.of_nat n /\ (amin <= a0 < amax)%Z /\ (zmin <= Z.of_nat n < zmax)%Z).
    { intros n a z Hn (e' & n' & c' & He' & Hn' & -> & Hc' & Hm & R1 & R2). assert (CS e' = CS e) as E1 by (eapply at_col_fun; [apply W|exact He'|exact He]). injection E1 as ->.
      assert (c' = c) by (eapply at_col_fun; [apply W|exact Hc'|exact Hc]). subst c'. apply Mf in Hm. subst a.
      apply Z_dict_get in Hn, Hn'. assert (n' = n) by congruence. subst n'. auto. }
    destruct (dict_get str_eqb e Z_dict) as [n|] eqn:En.
    - assert (Hn : atomic_number e n) by (apply Z_dict_get; exact En). rewrite (element_z_spec e n Hn). cbn [bind]. rewrite Ha. cbn [bind].
      destruct (_ && _) eqn:E.
      + rewrite !andb_true_iff, !Z.leb_le, !Z.ltb_lt in E. replace (_ || _) with false; [|symmetry; rewrite !orb_false_iff, !Z.leb_gt, !Z.ltb_ge; lia].
        rewrite (proj2 (row_cell_spec t prop r vc (proj1 W)) Hvc). cbn [bind]. rewrite (proj1 (holds_num vc x) Hx). cbn [bind].
        eexists. split; [reflexivity|]. intros a z. unfold chart_set. replace (a0 <? 0)%Z with false by (symmetry; apply Z.ltb_ge; lia). replace (Z.of_nat n <? 0)%Z with false by (symmetry; apply Z.ltb_ge; lia).
        destruct (Z.eqb_spec a0 a) as [<-|Na]; cbn [andb]; [|right; split; [|reflexivity]; intros Hp; apply (PP n) in Hp; [|exact Hn]; destruct Hp as (-> & _); contradiction].
        destruct (Z.eqb_spec (Z.of_nat n) z) as [<-|Nz]; [|right; split; [|reflexivity]; intros Hp; apply (PP n) in Hp; [|exact Hn]; destruct Hp as (_ & -> & _); contradiction].
        left. split; [|now exists vc]. exists e, n, c. repeat (split; [assumption || reflexivity|]). lia.
      + exists d. split; [reflexivity|]. intros a z. right. split; [|reflexivity]. intros Hp. apply (PP n) in Hp; [|exact Hn]. destruct Hp as (-> & -> & R1 & R2).
        apply andb_false_iff in E. rewrite !andb_false_iff in E. rewrite !Z.leb_gt, !Z.ltb_ge in E. lia.
    - assert (Hz : element_z (CS e) = Ok (CF S754_nan)) by (cbn [element_z]; now rewrite En). rewrite Hz. cbn [bind]. rewrite Ha. cbn [bind]. exists d. split; [reflexivity|].
      intros a z. right. split; [|reflexivity]. intros (e' & n' & c' & He' & Hn' & _). assert (CS e' = CS e) as E1 by (eapply at_col_fun; [apply W|exact He'|exact He]). injection E1 as ->. apply Z_dict_get in Hn'. congruence.
  Qed.
  Lemma chart_rows_spec l : chart_like t prop -> (forall r, In r l -> In r (t_rows t)) -> forall d, exists d', foldM (chart_row to_numeric t prop amin amax zmin zmax) l d = Ok d' /\
    forall a z, (exists pre r post, l = pre ++ r :: post /\ P r a z /\ Forall (fun r => ~ P r a z) post /\ number_at t prop r (d' a z)) \/
                (Forall (fun r => ~ P r a z) l /\ d' a z = d a z).
  Proof.
    intros CL. induction l as [|r l IH]; intros S d; [exists d; split; [reflexivity|]; intros a z; right; auto|].
    destruct (chart_row_spec d r CL (S r (or_introl eq_refl))) as (d1 & H1 & S1). destruct (IH (fun x H => S x (or_intror H)) d1) as (d2 & H2 & S2).
    exists d2. cbn [foldM]. rewrite H1. split; [exact H2|]. intros a z. destruct (S2 a z) as [(pre & r' & post & -> & Hp & Fp & Hv)|(Fn & E)].
    - left. exists (r :: pre), r', post. auto.
    - destruct (S1 a z) as [(Hp & Hv)|(Hn & E1)].
      + left. exists [], r, l. rewrite E. auto.
      + right. split; [now constructor|congruence].
  Qed.
End Chart.
Lemma chart_spec to_numeric t prop arange zrange : well_formed t -> chart_like t prop ->
  let '(amin, amax) := match arange with Some ab => ab | None => (0, 294)%Z end in
  let '(zmin, zmax) := match zrange with Some ab => ab | None => (0, 118)%Z end in
  (0 <= amin /\ amax <= 294)%Z -> (0 <= zmin /\ zmax <= 118)%Z ->
  exists d, plot_nuc_chart to_numeric (DataFrame t) prop arange zrange = Ok d /\
    forall a z, (exists pre r post, t_rows t = pre ++ r :: post /\ placed to_numeric t amin amax zmin zmax r a z /\ Forall (fun r => ~ placed to_numeric t amin amax zmin zmax r a z) post /\ number_at t prop r (d a z)) \/
                (Forall (fun r => ~ placed to_numeric t amin amax zmin zmax r a z) (t_rows t) /\ d a z = fzero).
Proof.
  intros W CL. unfold plot_nuc_chart. pose proof CL as (Ie & Ia & (Ip & _) & _).
  replace (has_col t prop) with true by (symmetry; now apply has_col_In). replace (has_col t (lit "element")) with true by (symmetry; now apply has_col_In). replace (has_col t (lit "A")) with true by (symmetry; now apply has_col_In). cbn [negb orb].
  destruct (match arange with Some ab => ab | None => (0, 294)%Z end) as (amin & amax). destruct (match zrange with Some ab => ab | None => (0, 118)%Z end) as (zmin & zmax). intros RA RZ.
  destruct (chart_rows_spec to_numeric t W prop amin amax zmin zmax RA RZ (t_rows t) CL (fun r H => H) (fun _ _ => fzero)) as (d & H & S). exists d. split; [exact H|exact S].
Qed.
Lemma inventory_chart inv prop : In prop (map lit ["atoms"; "mass"; "act"; "b_energy"; "a_energy"; "g_energy"; "dose_rate"]%string) -> chart_like (inventory_table inv) prop.
Proof.
  intros H. split; [cbn; tauto|]. split; [cbn; tauto|]. split; [now apply inventory_numeric|]. intros r Hr. apply enum_rows in Hr. destruct Hr as (n & _ & E). split.
  - exists (n_element n), 8. rewrite E. split; reflexivity.
  - exists (CS (n_A n)). split; [|right; eauto]. exists 9. rewrite E. split; reflexivity.
Qed.
(** A metastable is not at its mass number. *)
Lemma metastable_at_0 to_numeric t amin amax zmin zmax r a z s : well_formed t -> at_col t (lit "A") r (CS s) -> to_numeric s = None -> placed to_numeric t amin amax zmin zmax r a z -> a = 0%Z.
Proof.
  intros W Hs E (e & n & c & _ & _ & _ & Hc & M & _). assert (c = CS s) by (eapply at_col_fun; [apply W|exact Hc|exact Hs]). subst c. destruct M as [M|[(u & M & M')|(u & M & M' & M2)]]; [discriminate| |exact M2]. injection M as ->. congruence.
Qed.

(** * Sums of fractions *)
Lemma material_sum np_sum show show_e t lib zaids atoms eps : well_formed t -> In (lit "element") (t_names t) -> In (lit "A") (t_names t) ->
  Forall2 (zaid_of t) (t_rows t) zaids -> numbers_of t (lit "atoms") atoms ->
  Forall (fun a => valid a = true /\ is_finite_f a = true /\ (0 <= FR a)%R) atoms ->
  valid (np_sum atoms) = true -> is_finite_f (np_sum atoms) = true -> (0 < FR (np_sum atoms))%R -> (0 <= eps <= 1 / 2)%R ->
  (Rabs (FR (np_sum atoms) - Rsum (map FR atoms)) <= eps * Rsum (map FR atoms))%R ->
  exists t' mat, output_mcnp_mat np_sum show show_e t lib = Ok (t', mat) /\
    Forall (fun m => is_finite_f (snd (fst m)) = true /\ (0 <= FR (snd (fst m)))%R) mat /\
    (Rabs (Rsum (map (fun m => FR (snd (fst m))) mat) - 1) <= (eps + bpow radix2 (-53)) / (1 - eps) + INR (List.length atoms) * bpow radix2 (-1075))%R.
Proof.
  intros W Ie Ia F NA FA V Fi Po He Hs. destruct (material_run np_sum show show_e t lib zaids atoms W Ie Ia F NA) as (t' & H).
  destruct (fractions_sum atoms (np_sum atoms) eps FA V Fi Po He Hs) as (G1 & G2). set (norm := map (fun a => fdiv a (np_sum atoms)) atoms) in *.
  exists t', (map (mat_line show show_e) (combine zaids norm)). split; [exact H|].
  assert (L : List.length zaids = List.length norm). { unfold norm. rewrite map_length, (numbers_of_len _ _ _ NA). symmetry. eapply Forall2_len. exact F. }
  assert (E : map (fun m : cell * float * str => snd (fst m)) (map (mat_line show show_e) (combine zaids norm)) = norm).
  { rewrite map_map. cbn [mat_line fst snd]. clear -L. revert zaids L. induction norm as [|x l IH]; intros [|z zs] L; try discriminate; [reflexivity|]. cbn [combine map snd]. f_equal. apply IH. now injection L. }
  split.
  - rewrite Forall_forall in G1. apply Forall_forall. intros m Hm. apply G1. rewrite <- E. apply in_map_iff. now exists m.
  - replace (map (fun m : cell * float * str => FR (snd (fst m))) (map (mat_line show show_e) (combine zaids norm))) with (map FR norm); [exact G2|]. rewrite <- E at 1. now rewrite map_map.
Qed.
Lemma zaid_injective t r r' n : well_formed t -> zaid_of t r n -> zaid_of t r' n ->
  (forall a, at_col t (lit "A") r (CI a) \/ at_col t (lit "A") r' (CI a) -> (0 <= a < 1000)%Z) ->
  exists e a, text_at t (lit "element") r e /\ text_at t (lit "element") r' e /\ at_col t (lit "A") r (CI a) /\ at_col t (lit "A") r' (CI a).
Proof.
  intros W (e & z & a & He & Hz & Ha & E) (e' & z' & a' & He' & Hz' & Ha' & E') B.
  pose proof (B a (or_introl Ha)). pose proof (B a' (or_intror Ha')). assert (Z.of_nat z = Z.of_nat z') by lia. assert (z = z') by lia. subst z'. assert (a = a') by lia. subst a'.
  destruct Hz as (_ & Hz), Hz' as (_ & Hz'). assert (e = e') by congruence. subst e'. exists e, a. auto.
Qed.
Lemma complete_known oos t : complete_limits oos -> limits_known oos t.
Proof.
  intros C. split; [|now left]. intros r n _ _ _. destruct (in_dec (list_eq_dec ascii_dec) n (map fst oos)) as [H|H].
  - apply limit_named_exists in H. destruct H as (v & Hv). exists v. now left.
  - apply limit_named_exists in C. destruct C as (v & Hv). exists v. right. auto.
Qed.
