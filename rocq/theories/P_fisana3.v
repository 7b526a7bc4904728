(** Proofs about columns, filters, the material and time units of fispact_analysis.py. *)
From Coq Require Import Reals Lra Lia Floats.SpecFloat.
From Flocq Require Import Core.
From Verif Require Import PyBase PyFloat FloatR FloatFacts PyFs SpecStr SpecUtil SpecOutput SpecFis SpecConst PyTable PyFacts TextFacts P_util P_const P_fisout P_fisout4 M_util M_ptrac M_const M_fisout M_fisana SpecFisana P_fisana P_table P_fisana2.
Local Open Scope nat_scope.

Lemma Forall2_impl {A B} (P Q : A -> B -> Prop) l m : (forall a b, P a b -> Q a b) -> Forall2 P l m -> Forall2 Q l m.
Proof. intros H F. induction F; constructor; auto. Qed.
Definition distinct (l : list str) : bool :=
  (fix go l := match l with [] => true | x :: l' => negb (existsb (str_eqb x) l') && go l' end) l.
Lemma distinct_NoDup l : distinct l = true -> NoDup l.
Proof.
  induction l as [|x l IH]; intros H; [constructor|]. cbn in H. apply andb_true_iff in H. destruct H as (H1 & H2). constructor; [|now apply IH].
  intros I1. apply negb_true_iff in H1. assert (existsb (str_eqb x) l = true); [|congruence]. apply existsb_exists. exists x. split; [exact I1|apply str_eqb_refl].
Qed.

(** * Columns *)
Lemma column_spec t name cs : well_formed t -> column t name = Ok cs <-> In name (t_names t) /\ Forall2 (at_col t name) (t_rows t) cs.
Proof.
  intros W. unfold column. destruct (has_col t name) eqn:E.
  - apply has_col_In in E. rewrite (mapM_Forall2 (row_cell t name) (at_col t name)) by (intros; apply row_cell_spec, W). tauto.
  - apply has_col_not in E. split; [discriminate|tauto].
Qed.
Lemma num_column_spec t name xs : well_formed t -> num_column t name = Ok xs <-> numbers_of t name xs.
Proof.
  intros W. unfold num_column, numbers_of. rewrite bind_Ok. split.
  - intros (cs & H1 & H2). apply column_spec in H1; [|exact W]. destruct H1 as (I & F). split; [exact I|].
    apply mapM_Ok_iff in H2. revert xs H2. induction F as [|r c rs cs Hc F IH]; intros xs H2; inversion H2; subst; constructor; auto.
    exists c. split; [exact Hc|]. now apply holds_num.
  - intros (I & F). assert (exists cs, Forall2 (at_col t name) (t_rows t) cs /\ Forall2 (fun c x => cell_num c = Ok x) cs xs) as (cs & F1 & F2).
    { clear I. induction F as [|r x rs xs (c & Hc & Hx) F (cs & F1 & F2)]; [exists []; split; constructor|]. exists (c :: cs). split; constructor; auto. now apply holds_num. }
    exists cs. split; [apply column_spec; auto|now apply mapM_Ok_iff].
Qed.
Lemma numbers_of_fun t name xs ys : well_formed t -> numbers_of t name xs -> numbers_of t name ys -> xs = ys.
Proof. intros W H1 H2. apply num_column_spec in H1; [|exact W]. apply num_column_spec in H2; [|exact W]. congruence. Qed.
Lemma numbers_of_len t name xs : numbers_of t name xs -> List.length xs = List.length (t_rows t).
Proof. intros (_ & F). symmetry. eapply Forall2_len. exact F. Qed.
Lemma numeric_numbers t name : numeric t name <-> exists xs, numbers_of t name xs.
Proof.
  split.
  - intros (I & H). assert (exists xs, Forall2 (number_at t name) (t_rows t) xs) as (xs & F); [|now exists xs].
    clear I. induction (t_rows t) as [|r rs IH]; [exists []; constructor|]. destruct (H r (or_introl eq_refl)) as (x & Hx). destruct IH as (xs & F); [intros; apply H; now right|]. exists (x :: xs). now constructor.
  - intros (xs & I & F). split; [exact I|]. intros r Hr. clear I. induction F as [|r' x rs xs Hx F IH]; [contradiction|]. destruct Hr as [->|Hr]; [now exists x|auto].
Qed.

(** * Replaced columns *)
Lemma get_set_same names cells name c : List.length cells = List.length names ->
  get_cell (if existsb (str_eqb name) names then names else names ++ [name]) (set_cell names cells name c) name = Ok c.
Proof.
  revert cells. induction names as [|n names IH]; intros [|d cells] L; try discriminate.
  - cbn. now rewrite str_eqb_refl.
  - injection L as L. specialize (IH cells L). cbn [existsb set_cell]. destruct (str_eqb name n) eqn:E; cbn [orb].
    + cbn [get_cell]. now rewrite E.
    + destruct (existsb (str_eqb name) names); cbn [app get_cell]; now rewrite E.
Qed.
Lemma get_set_other names cells name name' c : name' <> name -> List.length cells = List.length names ->
  get_cell (if existsb (str_eqb name) names then names else names ++ [name]) (set_cell names cells name c) name' = get_cell names cells name'.
Proof.
  intros N. revert cells. induction names as [|n names IH]; intros [|d cells] L; try discriminate.
  - cbn. destruct (str_eqb_spec name' name); [contradiction|reflexivity].
  - injection L as L. specialize (IH cells L). cbn [existsb set_cell]. destruct (str_eqb_spec name n) as [->|Nn]; cbn [orb].
    + cbn [get_cell]. destruct (str_eqb_spec name' n); [contradiction|reflexivity].
    + destruct (existsb (str_eqb name) names); cbn [app get_cell]; destruct (str_eqb_spec name' n); auto.
Qed.
Lemma set_cell_len names cells name c : List.length cells = List.length names ->
  List.length (set_cell names cells name c) = List.length (if existsb (str_eqb name) names then names else names ++ [name]).
Proof.
  revert cells. induction names as [|n names IH]; intros [|d cells] L; try discriminate; [reflexivity|]. injection L as L. specialize (IH cells L).
  cbn [existsb set_cell]. destruct (str_eqb name n); cbn [orb]; [cbn; lia|]. destruct (existsb (str_eqb name) names); cbn [app List.length] in *; lia.
Qed.
Section SetCol.
  Context (t : table) (W : well_formed t) (name : str) (cs : list cell) (L : List.length cs = List.length (t_rows t)).
  Lemma set_col_rows : Forall2 (fun rc r' => fst r' = fst (fst rc) /\ snd r' = set_cell (t_names t) (snd (fst rc)) name (snd rc)) (combine (t_rows t) cs) (t_rows (set_col name cs t)).
  Proof. unfold set_col. cbn [t_rows]. induction (combine (t_rows t) cs); cbn [map]; constructor; auto. Qed.
  Lemma set_col_wf : well_formed (set_col name cs t).
  Proof.
    destruct W as (ND & F). split.
    - unfold set_col. cbn [t_names]. destruct (has_col t name) eqn:E; [exact ND|]. apply has_col_not in E. apply NoDup_snoc; assumption.
    - unfold set_col at 1. cbn [t_rows]. apply Forall_forall. intros r Hr. apply in_map_iff in Hr. destruct Hr as ((r0 & c) & <- & Hr). cbn [fst snd].
      apply in_combine_l in Hr. unfold set_col. cbn [t_names]. unfold has_col. apply set_cell_len. rewrite Forall_forall in F. now apply F.
  Qed.
  Lemma set_col_same : column (set_col name cs t) name = Ok cs.
  Proof.
    unfold column. replace (has_col (set_col name cs t) name) with true.
    2:{ symmetry. apply has_col_In. unfold set_col. cbn [t_names]. destruct (has_col t name) eqn:E; [now apply has_col_In|]. apply in_or_app. right. now left. }
    apply mapM_Ok_iff. unfold row_cell, set_col. cbn [t_names t_rows]. unfold has_col. destruct W as (_ & F). revert cs L. induction (t_rows t) as [|r rs IH]; intros [|c cs'] L'; try discriminate; cbn [combine map]; constructor.
    - cbn [snd fst]. apply get_set_same. now apply (Forall_inv F).
    - apply IH; [exact (Forall_inv_tail F)|]. now injection L'.
  Qed.
  Lemma set_col_other name' : name' <> name -> column (set_col name cs t) name' = column t name'.
  Proof.
    intros N. unfold column. replace (has_col (set_col name cs t) name') with (has_col t name').
    2:{ unfold set_col, has_col. cbn [t_names]. destruct (existsb (str_eqb name) (t_names t)); [reflexivity|]. rewrite existsb_app. cbn [existsb]. destruct (str_eqb_spec name' name); [contradiction|]. now rewrite !orb_false_r. }
    destruct (has_col t name'); [|reflexivity]. unfold row_cell, set_col. cbn [t_names t_rows]. unfold has_col. destruct W as (_ & F). revert cs L. induction (t_rows t) as [|r rs IH]; intros [|c cs'] L'; try discriminate; [reflexivity|]. cbn [combine map mapM].
    cbn [snd fst]. rewrite get_set_other; [|exact N|now apply (Forall_inv F)]. rewrite IH; [reflexivity|exact (Forall_inv_tail F)|now injection L'].
  Qed.
  Lemma set_col_kept name' : name' <> name -> Forall2 (fun r r' => fst r = fst r' /\ forall c, at_col t name' r c <-> at_col (set_col name cs t) name' r' c) (t_rows t) (t_rows (set_col name cs t)).
  Proof.
    intros N. assert (G : Forall2 (fun r r' => fst r = fst r' /\ row_cell t name' r = row_cell (set_col name cs t) name' r') (t_rows t) (t_rows (set_col name cs t))).
    { unfold row_cell, set_col. cbn [t_names t_rows]. unfold has_col. destruct W as (_ & F). revert cs L. induction (t_rows t) as [|r rs IH]; intros [|c cs'] L'; try discriminate; cbn [combine map]; constructor.
      - cbn [snd fst]. split; [reflexivity|]. symmetry. apply get_set_other; [exact N|]. now apply (Forall_inv F).
      - apply IH; [exact (Forall_inv_tail F)|]. now injection L'. }
    eapply Forall2_impl; [|exact G]. intros r r' (H1 & H2). split; [exact H1|]. intros c. rewrite <- !row_cell_spec; [now rewrite H2|apply set_col_wf|apply W].
  Qed.
End SetCol.

(** * Material *)
Lemma element_z_Ok c : exists z, element_z c = Ok z.
Proof. destruct c; try (eexists; reflexivity). cbn [element_z]. destruct (dict_get str_eqb s Z_dict); eexists; reflexivity. Qed.
Lemma element_z_spec e z : atomic_number e z -> element_z (CS e) = Ok (CI (Z.of_nat z)).
Proof. intros H. cbn [element_z]. apply Z_dict_get in H. now rewrite H. Qed.
Section Mat.
  Context (np_sum : list float -> float) (show show_e : float -> str).
  Lemma material_run t lib zaids atoms : well_formed t -> In (lit "element") (t_names t) -> In (lit "A") (t_names t) ->
    Forall2 (zaid_of t) (t_rows t) zaids -> numbers_of t (lit "atoms") atoms ->
    exists t', output_mcnp_mat np_sum show show_e t lib = Ok (t', map (mat_line show show_e) (combine zaids (map (fun a => fdiv a (np_sum atoms)) atoms))).
  Proof.
    intros W Ie Ia F NA.
    assert (exists els zs aa, Forall2 (at_col t (lit "element")) (t_rows t) els /\ mapM element_z els = Ok zs /\ Forall2 (at_col t (lit "A")) (t_rows t) aa /\
             mapM (fun za => zaid (fst za) (snd za)) (combine zs aa) = Ok (map CI zaids)) as (els & zs & aa & F1 & M1 & F2 & M2).
    { clear -F. induction F as [|r n rs ns (e & z & a & He & Hz & Ha & ->) F (els & zs & aa & F1 & M1 & F2 & M2)].
      - exists [], [], []. repeat split; constructor.
      - exists (CS e :: els), (CI (Z.of_nat z) :: zs), (CI a :: aa). split; [now constructor|]. split; [cbn [mapM]; rewrite (element_z_spec e z Hz), M1; reflexivity|]. split; [now constructor|].
        cbn [combine mapM]. rewrite M2. cbn [fst snd zaid bind map]. do 3 f_equal. lia. }
    pose proof (Forall2_len _ _ _ F1) as L1. pose proof (Forall2_len _ _ _ F2) as L2. pose proof (Forall2_len _ _ _ F) as L3. pose proof (mapM_length _ _ _ M1) as L4. pose proof (numbers_of_len _ _ _ NA) as L5.
    unfold output_mcnp_mat. rewrite (proj2 (column_spec t (lit "element") els W) (conj Ie F1)). cbn [bind]. rewrite M1. cbn [bind].
    assert (Lz : List.length zs = List.length (t_rows t)) by lia. pose proof (set_col_wf t W (lit "Z") zs) as W1.
    rewrite (set_col_other t W (lit "Z") zs Lz) by discriminate. rewrite (proj2 (column_spec t (lit "A") aa W) (conj Ia F2)). cbn [bind]. rewrite M2. cbn [bind].
    assert (LZ : List.length (map CI zaids) = List.length (t_rows (set_col (lit "Z") zs t))). { unfold set_col. cbn [t_rows]. rewrite !map_length, combine_length. lia. }
    unfold num_column. rewrite (set_col_other _ W1 (lit "ZAID") _ LZ) by discriminate. rewrite (set_col_other t W (lit "Z") zs Lz) by discriminate. fold (num_column t (lit "atoms")).
    rewrite (proj2 (num_column_spec t (lit "atoms") atoms W) NA). cbn [bind].
    set (norm := map (fun a => fdiv a (np_sum atoms)) atoms). 
    assert (M : forall ns fs, mapM (mat_row show show_e) (combine (map CI ns) fs) = Ok (map (mat_line show show_e) (combine ns fs))).
    { clear. induction ns as [|n ns IH]; intros [|f fs]; try reflexivity. cbn [map combine mapM]. rewrite IH. reflexivity. }
    rewrite M. cbn [bind]. eexists. reflexivity.
  Qed.
  (** What is left in the caller's frame. *)
  Lemma material_frame t lib t' mat : well_formed t -> output_mcnp_mat np_sum show show_e t lib = Ok (t', mat) ->
    In (lit "Z") (t_names t') /\ In (lit "ZAID") (t_names t') /\ In (lit "atoms_norm") (t_names t') /\
    (forall name, name <> lit "Z" -> name <> lit "ZAID" -> name <> lit "atoms_norm" ->
       Forall2 (fun r r' => fst r = fst r' /\ forall c, at_col t name r c <-> at_col t' name r' c) (t_rows t) (t_rows t')).
  Proof.
    intros W H. unfold output_mcnp_mat in H. unbind H. injection H as <- <-.
    apply column_spec in E; [|exact W]. pose proof (Forall2_len _ _ _ (proj2 E)) as L1. pose proof (mapM_length _ _ _ E0) as L2. assert (Lz : List.length v0 = List.length (t_rows t)) by lia.
    pose proof (set_col_wf t W (lit "Z") v0) as W1. rewrite (set_col_other t W (lit "Z") v0 Lz) in E1 by discriminate. apply column_spec in E1; [|exact W]. pose proof (Forall2_len _ _ _ (proj2 E1)) as L3.
    pose proof (mapM_length _ _ _ E2) as L4. rewrite combine_length in L4.
    assert (R1 : List.length (t_rows (set_col (lit "Z") v0 t)) = List.length (t_rows t)). { unfold set_col. cbn [t_rows]. rewrite map_length, combine_length. lia. }
    assert (LZ : List.length v2 = List.length (t_rows (set_col (lit "Z") v0 t))) by lia. pose proof (set_col_wf _ W1 (lit "ZAID") v2) as W2.
    apply num_column_spec in E3; [|exact W2]. pose proof (numbers_of_len _ _ _ E3) as L5.
    assert (LA : List.length (map CF (map (fun a => fdiv a (np_sum v3)) v3)) = List.length (t_rows (set_col (lit "ZAID") v2 (set_col (lit "Z") v0 t)))) by (rewrite !map_length; lia).
    assert (N : forall n cs t, In n (t_names (set_col n cs t))). { intros n cs t0. unfold set_col. cbn [t_names]. destruct (has_col t0 n) eqn:Eh; [now apply has_col_In|]. apply in_or_app. right. now left. }
    assert (K : forall n m cs t, In m (t_names t) -> In m (t_names (set_col n cs t))). { intros n m cs t0 Hm. unfold set_col. cbn [t_names]. destruct (has_col t0 n); [exact Hm|]. apply in_or_app. now left. }
    split; [apply K, K, N|]. split; [apply K, N|]. split; [apply N|].
    intros name N1 N2 N3. pose proof (set_col_kept t W (lit "Z") v0 Lz name N1) as A1. pose proof (set_col_kept _ W1 (lit "ZAID") v2 LZ name N2) as A2. pose proof (set_col_kept _ W2 (lit "atoms_norm") _ LA name N3) as A3.
    assert (T : forall (P Q : row -> row -> Prop) a b c, Forall2 P a b -> Forall2 Q b c -> Forall2 (fun x z => exists y, P x y /\ Q y z) a c).
    { clear. intros P Q a b c H. revert c. induction H; intros c G; inversion G; subst; constructor; eauto. }
    eapply Forall2_impl; [|exact (T _ _ _ _ _ A1 (T _ _ _ _ _ A2 A3))]. intros r r' (r1 & (P1 & Q1) & r2 & (P2 & Q2) & P3 & Q3). split; [congruence|]. intros c. now rewrite Q1, Q2, Q3.
  Qed.
  Lemma material_columns t lib t' mat : well_formed t -> output_mcnp_mat np_sum show show_e t lib = Ok (t', mat) ->
    Forall2 (fun r' m => at_col t' (lit "ZAID") r' (fst (fst m)) /\ at_col t' (lit "atoms_norm") r' (CF (snd (fst m)))) (t_rows t') mat /\
    Forall2 (fun r' m => forall z a, at_col t' (lit "Z") r' (CI z) -> at_col t' (lit "A") r' (CI a) -> fst (fst m) = CI (1000 * z + a)) (t_rows t') mat.
  Proof.
    intros W H. unfold output_mcnp_mat in H. unbind H. injection H as <- <-.
    apply column_spec in E; [|exact W]. pose proof (Forall2_len _ _ _ (proj2 E)) as L1. pose proof (mapM_length _ _ _ E0) as L2. assert (Lz : List.length v0 = List.length (t_rows t)) by lia.
    pose proof (set_col_wf t W (lit "Z") v0) as W1. pose proof E1 as E1'. rewrite (set_col_other t W (lit "Z") v0 Lz) in E1 by discriminate. pose proof E1 as EA. apply column_spec in E1; [|exact W]. pose proof (Forall2_len _ _ _ (proj2 E1)) as L3.
    pose proof (mapM_length _ _ _ E2) as L4. rewrite combine_length in L4.
    assert (R1 : List.length (t_rows (set_col (lit "Z") v0 t)) = List.length (t_rows t)). { unfold set_col. cbn [t_rows]. rewrite map_length, combine_length. lia. }
    assert (LZ : List.length v2 = List.length (t_rows (set_col (lit "Z") v0 t))) by lia. pose proof (set_col_wf _ W1 (lit "ZAID") v2) as W2.
    pose proof E3 as E3'. apply num_column_spec in E3; [|exact W2]. pose proof (numbers_of_len _ _ _ E3) as L5.
    set (norm := map (fun a => fdiv a (np_sum v3)) v3) in *.
    assert (LA : List.length (map CF norm) = List.length (t_rows (set_col (lit "ZAID") v2 (set_col (lit "Z") v0 t)))) by (unfold norm; rewrite !map_length; lia).
    pose proof (set_col_wf _ W2 (lit "atoms_norm") (map CF norm)) as W3. set (t3 := set_col (lit "atoms_norm") (map CF norm) _) in *.
    assert (CN : column t3 (lit "atoms_norm") = Ok (map CF norm)) by (apply set_col_same; assumption).
    assert (CZD : column t3 (lit "ZAID") = Ok v2) by (unfold t3; rewrite set_col_other by (assumption || discriminate); apply set_col_same; assumption).
    assert (CZ : column t3 (lit "Z") = Ok v0) by (unfold t3; rewrite !set_col_other by (assumption || discriminate); apply set_col_same; assumption).
    assert (CA : column t3 (lit "A") = Ok v1) by (unfold t3; rewrite !set_col_other by (assumption || discriminate); exact EA).
    apply column_spec in CN, CZD, CZ, CA; try exact W3. destruct CN as (_ & CN), CZD as (_ & CZD), CZ as (_ & CZ), CA as (_ & CA).
    apply mapM_Ok_iff in E4. apply mapM_Ok_iff in E2. clearbody norm t3. clear - CN CZD CZ CA E4 E2 W3. revert v0 v1 v2 norm v4 CN CZD CZ CA E4 E2. induction (t_rows t3) as [|r rs IH]; intros zs aa zd ns mat CN CZD CZ CA E4 E2.
    - inversion CN as [E|]. inversion CZD. subst. destruct ns; [|discriminate]. inversion E4; subst. split; constructor.
    - destruct ns as [|x ns]; [inversion CN|]. inversion CN; subst. inversion CZD; subst. inversion CZ; subst. inversion CA; subst. cbn [combine] in E4, E2. inversion E4; subst. inversion E2; subst.
      match goal with H : mat_row _ _ _ = Ok _ |- _ => unfold mat_row in H; cbn [fst snd] in H end.
      match goal with H : bind (cell_num ?c) _ = Ok _ |- _ => destruct (cell_num c) eqn:Ec; cbn [bind] in H; [|discriminate]; injection H as <- end.
      edestruct IH as [I1 I2]; try eassumption. split; constructor; cbn [fst snd] in *; eauto. intros z9 a9 Hz Ha.
      repeat match goal with H : at_col _ _ _ _ |- _ => apply (fun W => proj2 (row_cell_spec _ _ _ _ W)) in H; [|exact (proj1 W3)] end.
      match goal with H : row_cell t3 (lit "Z") r = Ok ?x, G : row_cell t3 (lit "Z") r = Ok (CI z9) |- _ => rewrite H in G; injection G as -> end.
      match goal with H : row_cell t3 (lit "A") r = Ok ?x, G : row_cell t3 (lit "A") r = Ok (CI a9) |- _ => rewrite H in G; injection G as -> end.
      match goal with H : zaid (CI z9) (CI a9) = Ok _ |- _ => cbn [zaid] in H; injection H as <- end. f_equal. lia.
  Qed.
  Lemma material_lib t lib lib' : output_mcnp_mat np_sum show show_e t lib = output_mcnp_mat np_sum show show_e t lib'.
  Proof. reflexivity. Qed.
  (** Inventories of the output reader hold the mass number as a text. *)
  Lemma inventory_wf inv : well_formed (inventory_table inv).
  Proof.
    split.
    - unfold inventory_table. cbn [t_names]. apply distinct_NoDup. reflexivity.
    - unfold inventory_table. cbn [t_names t_rows]. apply Forall_forall. intros r Hr. unfold enumerate in Hr. revert Hr. generalize 0. induction inv as [|n inv IH]; intros k Hr; [contradiction|]. destruct Hr as [<-|Hr]; [reflexivity|]. eapply IH. exact Hr.
  Qed.
  Lemma material_parsed inv lib : inv <> [] -> output_mcnp_mat np_sum show show_e (inventory_table inv) lib = Err TypeError.
  Proof.
    intros NE. destruct inv as [|n inv]; [contradiction|]. unfold output_mcnp_mat.
    assert (CE : column (inventory_table (n :: inv)) (lit "element") = Ok (map (fun n => CS (n_element n)) (n :: inv))).
    { unfold column. replace (has_col _ _) with true by reflexivity. unfold row_cell, inventory_table. cbn [t_rows t_names]. unfold enumerate. generalize 0. clear. generalize (n :: inv). clear. induction l as [|n l IH]; intros k; [reflexivity|]. cbn [map enum_from mapM]. rewrite IH. reflexivity. }
    assert (CA : column (inventory_table (n :: inv)) (lit "A") = Ok (map (fun n => CS (n_A n)) (n :: inv))).
    { unfold column. replace (has_col _ _) with true by reflexivity. unfold row_cell, inventory_table. cbn [t_rows t_names]. unfold enumerate. generalize 0. clear. generalize (n :: inv). clear. induction l as [|n l IH]; intros k; [reflexivity|]. cbn [map enum_from mapM]. rewrite IH. reflexivity. }
    rewrite CE. cbn [bind]. destruct (mapM_all element_z (map (fun n => CS (n_element n)) (n :: inv))) as (zs & Hz); [intros; apply element_z_Ok|]. rewrite Hz. cbn [bind].
    pose proof (mapM_length _ _ _ Hz) as L. rewrite map_length in L.
    assert (Lr : forall inv, List.length (t_rows (inventory_table inv)) = List.length inv).
    { clear. intros inv. unfold inventory_table. cbn [t_rows]. unfold enumerate. generalize 0. induction inv as [|n inv IH]; intros k; [reflexivity|]. cbn [map enum_from List.length]. now rewrite IH. }
    rewrite (set_col_other _ (inventory_wf _) (lit "Z") zs) by (rewrite ?Lr; try lia; discriminate). rewrite CA. cbn [bind].
    destruct zs as [|z zs]; [discriminate|]. cbn [map combine mapM fst snd]. replace (zaid z (CS (n_A n))) with (@Err cell TypeError); [reflexivity|].
    cbn [map mapM] in Hz. destruct (element_z (CS (n_element n))) as [z'|] eqn:Ez; cbn [bind] in Hz; [|discriminate]. destruct (mapM element_z _) in Hz; cbn [bind] in Hz; [|discriminate]. injection Hz as -> _.
    cbn [element_z] in Ez. destruct (dict_get _ _ _); injection Ez as <-; reflexivity.
  Qed.
End Mat.
