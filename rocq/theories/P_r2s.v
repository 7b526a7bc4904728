(** Lemmas for r2s_cell: configuration, cells of tallies, cell data. *)
From Verif Require Import PyBase PyFloat PyFs PyIo PyFacts M_util M_ptrac M_input M_mcout M_r2s SpecInput SpecR2s P_fisout.
From Coq Require Import Permutation.

(** * Configuration *)
Lemma get_In {V} (d : list (str * V)) k v : NoDup (map fst d) -> (dict_get str_eqb k d = Some v <-> In (k, v) d).
Proof.
  induction d as [|[k' v'] d IH]; cbn [dict_get map fst]; intros N; [split; [discriminate|intros []]|].
  inversion N as [|? ? Ni Nd]; subst. destruct (str_eqb_spec k k') as [->|Hn].
  - split; [intros E; injection E as ->; now left|]. intros [E|E]; [now injection E as ->|]. elim Ni. apply (in_map fst) in E. exact E.
  - rewrite IH by assumption. split; [now right|]. intros [E|E]; [injection E as -> ->; congruence|exact E].
Qed.
Definition pick {V} (w : json -> V) (cfg : list (str * json)) (ks : list str) (k : str) (d : V) : V :=
  if existsb (str_eqb k) ks then match dict_get str_eqb k cfg with Some v => w v | None => d end else d.
Definition settled (cfg : list (str * json)) (ks : list str) (u : usr_inputs) : usr_inputs :=
  let p := fun k d => pick (fun v => v) cfg ks (lit k) d in
  UsrInputs (p "mc_input"%string (u_mc_input u)) (u_mc_ouput u) (pick Some cfg ks (lit "mc_output") (u_mc_output u))
    (p "mc_gamma_input"%string (u_mc_gamma_input u)) (p "mc_code"%string (u_mc_code u)) (p "files_file"%string (u_files_file u))
    (p "fispact_template"%string (u_fispact_template u)) (p "tallies"%string (u_tallies u)) (p "cells"%string (u_cells u))
    (p "fispact_path"%string (u_fispact_path u)) (p "cooling_step"%string (u_cooling_step u)).
Lemma pick_cons_same {V} (w : json -> V) cfg ks k d v : dict_get str_eqb k cfg = Some v -> pick w cfg ks k (w v) = pick w cfg (k :: ks) k d.
Proof. intros E. unfold pick. cbn [existsb]. rewrite str_eqb_refl, E. cbn [orb]. now destruct (existsb (str_eqb k) ks). Qed.
Lemma pick_cons_other {V} (w : json -> V) cfg ks k k' d : str_eqb k k' = false -> pick w cfg ks k d = pick w cfg (k' :: ks) k d.
Proof. intros E. unfold pick. cbn [existsb]. now rewrite E. Qed.
Lemma assign_settled cfg ks u k v : dict_get str_eqb k cfg = Some v -> In k recognised ->
  exists u', assign_key cfg u k = Ok u' /\ settled cfg ks u' = settled cfg (k :: ks) u.
Proof.
  intros G I. destruct u as [mi mo mc_out mg code ff ft ta ce fp co]. unfold recognised in I. cbn [map] in I.
  do 10 (destruct I as [<-|I]; [eexists; split; [unfold assign_key, config_get; rewrite G; cbn; reflexivity|]; unfold settled; cbv zeta beta;
    cbn [u_mc_input u_mc_ouput u_mc_output u_mc_gamma_input u_mc_code u_files_file u_fispact_template u_tallies u_cells u_fispact_path u_cooling_step];
    f_equal; first [apply (pick_cons_same (fun v => v)); exact G|apply (pick_cons_same Some); exact G|apply pick_cons_other; vm_compute; reflexivity|reflexivity]|]).
  destruct I.
Qed.
Lemma assign_all cfg ks : forall u, (forall k, In k ks -> In k recognised /\ exists v, dict_get str_eqb k cfg = Some v) ->
  foldM (assign_key cfg) ks u = Ok (settled cfg ks u).
Proof.
  induction ks as [|k ks IH]; intros u H; [destruct u; reflexivity|].
  destruct (H k (or_introl eq_refl)) as (R & v & G). destruct (assign_settled cfg ks u k v G R) as (u' & E & S).
  cbn [foldM]. rewrite E, IH by (intros; apply H; now right). now rewrite S.
Qed.
Lemma assign_bad cfg u k : (exists v, dict_get str_eqb k cfg = Some v) -> ~ In k recognised -> assign_key cfg u k = Err ValueError.
Proof.
  intros _ N. destruct u. unfold assign_key.
  repeat match goal with |- context [str_eqb k ?l] => destruct (str_eqb_spec k l) as [->|]; [elim N; unfold recognised; cbn [map In]; tauto|] end.
  reflexivity.
Qed.
Lemma assign_some_bad cfg ks : forall u, (forall k, In k ks -> exists v, dict_get str_eqb k cfg = Some v) ->
  (exists k, In k ks /\ ~ In k recognised) -> foldM (assign_key cfg) ks u = Err ValueError.
Proof.
  induction ks as [|k ks IH]; intros u H (b & I & N); [destruct I|]. cbn [foldM].
  destruct (in_dec (list_eq_dec ascii_dec) k recognised) as [R|R].
  - destruct (H k (or_introl eq_refl)) as (v & G). destruct (assign_settled cfg ks u k v G R) as (u' & -> & _).
    destruct I as [->|I]; [contradiction|]. apply IH; [intros; apply H; now right|]. eauto.
  - rewrite assign_bad; [reflexivity| |exact R]. apply H. now left.
Qed.
Lemma keys_have (cfg : list (str * json)) : NoDup (map fst cfg) -> forall k, In k (map fst cfg) -> exists v, dict_get str_eqb k cfg = Some v.
Proof.
  intros N k I. apply in_map_iff in I. destruct I as ([k' v] & E & I). cbn in E. subst k'. exists v. now apply get_In.
Qed.
Lemma pick_setting cfg k d v : NoDup (map fst cfg) -> setting cfg k d v <-> pick (fun v => v) cfg (map fst cfg) k d = v.
Proof.
  intros N. unfold setting, pick. destruct (existsb (str_eqb k) (map fst cfg)) eqn:E.
  - apply existsb_exists in E. destruct E as (k' & I & E). apply str_eqb_eq in E. subst k'.
    destruct (keys_have cfg N k I) as (w & G). rewrite G. split.
    + intros [J|(J & _)]; [|contradiction]. apply get_In in J; congruence.
    + intros ->. left. now apply get_In.
  - assert (Ni : ~ In k (map fst cfg)). { intros I. assert (existsb (str_eqb k) (map fst cfg) = true) by (apply existsb_exists; exists k; split; [exact I|apply str_eqb_refl]). congruence. }
    split; [|intros <-; right; auto]. intros [J|(_ & ->)]; [|reflexivity]. elim Ni. now apply (in_map fst) in J.
Qed.
Lemma pick_some cfg k : NoDup (map fst cfg) -> forall v,
  (pick Some cfg (map fst cfg) k None = Some v <-> In (k, v) cfg) .
Proof.
  intros N v. unfold pick. destruct (existsb (str_eqb k) (map fst cfg)) eqn:E.
  - rewrite <- (get_In cfg k v N). destruct (dict_get str_eqb k cfg); reflexivity.
  - split; [discriminate|]. intros J. apply (in_map fst) in J. cbn in J.
    assert (existsb (str_eqb k) (map fst cfg) = true) by (apply existsb_exists; exists k; split; [exact J|apply str_eqb_refl]). congruence.
Qed.
Lemma read_exists f p t : read_text f p = Ok t -> path_exists f p = true.
Proof.
  unfold read_text, path_exists. destruct (walk f [] p); cbn [bind]; [|discriminate]. destruct p; [reflexivity|].
  unfold is_dir. destruct (f (s :: p)) as [[|]|]; [reflexivity| |]; discriminate.
Qed.
Section Config.
  Variable json_load : str -> res json.
  Lemma config_assigns f p cfg u : config_file json_load f p cfg ->
    read_config json_load f p = Ok u <->
    (forall k, In k (map fst cfg) -> In k recognised) /\
    setting cfg (lit "mc_input") JNull (u_mc_input u) /\ (forall v, u_mc_output u = Some v <-> In (lit "mc_output", v) cfg) /\
    setting cfg (lit "mc_gamma_input") JNull (u_mc_gamma_input u) /\ setting cfg (lit "mc_code") (JStr (lit "MCNP")) (u_mc_code u) /\
    setting cfg (lit "files_file") JNull (u_files_file u) /\ setting cfg (lit "fispact_template") JNull (u_fispact_template u) /\
    setting cfg (lit "tallies") JNull (u_tallies u) /\ setting cfg (lit "cells") JNull (u_cells u) /\
    setting cfg (lit "fispact_path") JNull (u_fispact_path u) /\ setting cfg (lit "cooling_step") (JInt 1) (u_cooling_step u) /\
    u_mc_ouput u = JNull.
  Proof.
    intros (t & R & L & N). unfold read_config. rewrite (read_exists f p t R), R. cbn [negb bind]. rewrite L. cbn [bind].
    rewrite !pick_setting by assumption.
    destruct (in_dec (list_eq_dec ascii_dec) (lit "") recognised) as [I|_]; [cbn in I; repeat (destruct I as [I|I]; [discriminate|]); destruct I|].
    assert (D : (forall k, In k (map fst cfg) -> In k recognised) \/ exists k, In k (map fst cfg) /\ ~ In k recognised).
    { clear. induction (map fst cfg) as [|k ks [IH|(k' & I & J)]]; [left; intros ? []| |right; exists k'; split; [now right|assumption]].
      destruct (in_dec (list_eq_dec ascii_dec) k recognised) as [R|R]; [left; intros ? [<-|]; auto|right; exists k; split; [now left|assumption]]. }
    destruct D as [A|B].
    - rewrite assign_all by (intros k I; split; [now apply A|now apply keys_have]). split.
      + intros E. injection E as <-. split; [exact A|]. split; [reflexivity|]. split; [intros v; apply pick_some; assumption|]. repeat split.
      + intros (_ & H1 & H2 & H3 & H4 & H5 & H6 & H7 & H8 & H9 & H10 & H11). f_equal. destruct u as [x1 x2 mcout x4 x5 x6 x7 x8 x9 x10 x11]. unfold settled, new_inputs. cbn in *. rewrite H1, H3, H4, H5, H6, H7, H8, H9, H10. rewrite H11. f_equal.
        destruct mcout as [v|].
        * apply (pick_some cfg _ N). now apply H2.
        * destruct (pick Some cfg (map fst cfg) (lit "mc_output") None) as [v|] eqn:E; [|reflexivity].
          apply (pick_some cfg _ N) in E. apply H2 in E. discriminate.
    - rewrite assign_some_bad; [|now apply keys_have|exact B]. split; [discriminate|]. intros (A & _). destruct B as (k & I & J). elim J. now apply A.
  Qed.
  Lemma config_bad f p cfg : config_file json_load f p cfg ->
    (read_config json_load f p = Err ValueError <-> exists k, In k (map fst cfg) /\ ~ In k recognised) /\
    (forall e, read_config json_load f p = Err e -> e = ValueError).
  Proof.
    intros (t & R & L & N). unfold read_config. rewrite (read_exists f p t R), R. cbn [negb bind]. rewrite L. cbn [bind].
    assert (D : (forall k, In k (map fst cfg) -> In k recognised) \/ exists k, In k (map fst cfg) /\ ~ In k recognised).
    { clear. induction (map fst cfg) as [|k ks [IH|(k' & I & J)]]; [left; intros ? []| |right; exists k'; split; [now right|assumption]].
      destruct (in_dec (list_eq_dec ascii_dec) k recognised) as [R|R]; [left; intros ? [<-|]; auto|right; exists k; split; [now left|assumption]]. }
    destruct D as [A|B].
    - rewrite assign_all by (intros k I; split; [now apply A|now apply keys_have]). split; [|discriminate]. split; [discriminate|].
      intros (k & I & J). elim J. now apply A.
    - rewrite assign_some_bad; [|now apply keys_have|exact B]. split; [split; auto|]. intros e E. now injection E as <-.
  Qed.
  Lemma config_order f f' p p' cfg cfg' : config_file json_load f p cfg -> config_file json_load f' p' cfg' -> Permutation cfg cfg' ->
    read_config json_load f p = read_config json_load f' p'.
  Proof.
    intros C C' P. destruct (read_config json_load f p) as [u|e] eqn:E.
    - symmetry. apply (config_assigns _ _ _ _ C'). apply (config_assigns _ _ _ _ C) in E.
      assert (Pk : Permutation (map fst cfg) (map fst cfg')) by now apply Permutation_map.
      assert (S : forall k d v, setting cfg k d v -> setting cfg' k d v).
      { intros k d v [I|(I & ->)]; [left; eapply Permutation_in; eassumption|right; split; [|reflexivity]].
        intros J. apply I. eapply Permutation_in; [apply Permutation_sym|]; eassumption. }
      destruct E as (A & E1 & E2 & E3 & E4 & E5 & E6 & E7 & E8 & E9 & E10 & E11). split; [|split; [|split; [|repeat split; auto]]].
      + intros k I. apply A. eapply Permutation_in; [apply Permutation_sym|]; eassumption.
      + auto.
      + intros v. rewrite E2. split; apply Permutation_in; [|apply Permutation_sym]; assumption.
    - pose proof (proj2 (config_bad _ _ _ C) e E) as ->. symmetry. apply (proj1 (config_bad _ _ _ C')).
      apply (proj1 (config_bad _ _ _ C)) in E. destruct E as (k & I & J). exists k. split; [|exact J].
      eapply Permutation_in; [apply Permutation_map; exact P|exact I].
  Qed.
  Lemma config_missing f p : nothing_at f p -> read_config json_load f p = Err FileNotFoundError.
  Proof.
    intros (Hp & H). unfold read_config, path_exists. destruct (walk f [] p) as [[]|] eqn:W; [|reflexivity].
    destruct p; [contradiction|]. destruct H as [->|(a & b & E & Ha & Hb & D)]; [reflexivity|].
    pose proof (proj1 (P_util.walk_spec f [] (s :: p)) W) as W'. elim D. eapply W'; eassumption.
  Qed.
End Config.

(** * Cells of tallies *)
Lemma wanted_spec particle ns t : wanted_tally particle ns t = true <-> selected particle ns t.
Proof.
  unfold wanted_tally, selected. rewrite !andb_true_iff, Ascii.eqb_eq, str_eqb_eq. destruct ns as [l|]; [|tauto].
  rewrite existsb_exists. split.
  - intros ((A & B) & (x & I & E)). apply Z.eqb_eq in E. subst x. auto.
  - intros (A & B & I). split; [auto|]. exists (t_number t). split; [exact I|apply Z.eqb_refl].
Qed.
Lemma cells_fold particle ns l : forall cl td r, foldM (cells_step particle ns) l (cl, td) = Ok r <->
  exists tals names, selects (selected particle ns) l tals /\ Forall2 (fun t cs => b_cells (t_body t) = Some cs) tals names /\
    r = (cl ++ concat names, td ++ tals).
Proof.
  induction l as [|t l IH]; intros cl td r; cbn [foldM].
  - split.
    + intros E. injection E as <-. exists [], []. cbn. rewrite !app_nil_r. repeat split; constructor.
    + intros (tals & names & S & F & ->). inversion S; subst. inversion F; subst. cbn. now rewrite !app_nil_r.
  - unfold cells_step at 1. destruct (wanted_tally particle ns t) eqn:E.
    + apply wanted_spec in E. destruct (b_cells (t_body t)) as [cs|] eqn:B.
      * rewrite IH. split.
        -- intros (tals & names & S & F & ->). exists (t :: tals), (cs :: names). split; [now constructor|]. split; [now constructor|].
           cbn. now rewrite <- !app_assoc.
        -- intros (tals & names & S & F & ->). inversion S; subst; [|contradiction]. inversion F; subst. assert (y = cs) as -> by congruence. do 2 eexists. split; [eassumption|]. split; [eassumption|].
           cbn. now rewrite <- !app_assoc.
      * split; [discriminate|]. intros (tals & names & S & F & ->). inversion S; subst; [|contradiction]. inversion F; subst. congruence.
    + assert (N : ~ selected particle ns t) by (rewrite <- wanted_spec; congruence). rewrite IH. split.
      * intros (tals & names & S & F & ->). exists tals, names. split; [now constructor|]. auto.
      * intros (tals & names & S & F & ->). inversion S; subst; [contradiction|]. eauto.
Qed.
Lemma get_cells_spec l particle ns cells tals : get_cells_mcnp l particle ns = Ok (cells, tals) <->
  exists names, selects (selected particle ns) l tals /\ Forall2 (fun t cs => b_cells (t_body t) = Some cs) tals names /\
    Forall2 (fun name n => py_int name = Ok n) (concat names) cells.
Proof.
  unfold get_cells_mcnp. split.
  - intros H. unbind H. apply cells_fold in E. destruct E as (tals' & names & S & F & ->). cbn in H. unbind H. injection H as <- <-.
    apply (mapM_Forall2 _ _ _ _ (fun x y => iff_refl _)) in E. eauto.
  - intros (names & S & F & G). replace (foldM (cells_step particle ns) l ([], [])) with (Ok (@nil str ++ concat names, @nil tally ++ tals)).
    + cbn. apply (mapM_Forall2 _ _ _ _ (fun x y => iff_refl _)) in G. rewrite G. reflexivity.
    + symmetry. apply cells_fold. eauto.
Qed.
Lemma cells_fold_err particle ns l : forall cl td e, foldM (cells_step particle ns) l (cl, td) = Err e <->
  e = TypeError /\ exists t, In t l /\ selected particle ns t /\ b_cells (t_body t) = None.
Proof.
  induction l as [|t l IH]; intros cl td e; cbn [foldM]; [split; [discriminate|intros (_ & t & [] & _)]|].
  unfold cells_step at 1. destruct (wanted_tally particle ns t) eqn:E.
  - apply wanted_spec in E. destruct (b_cells (t_body t)) as [cs|] eqn:B.
    + rewrite IH. split; intros (-> & t' & I & S & N); (split; [reflexivity|]).
      * exists t'. split; [now right|auto].
      * destruct I as [<-|I]; [congruence|]. eauto.
    + split; [|intros (-> & _); reflexivity]. intros F. injection F as <-. split; [reflexivity|]. exists t. split; [now left|auto].
  - assert (N : ~ selected particle ns t) by (rewrite <- wanted_spec; congruence). rewrite IH. split; intros (-> & t' & I & S & M); (split; [reflexivity|]).
    + exists t'. split; [now right|auto].
    + destruct I as [<-|I]; [contradiction|]. eauto.
Qed.
Lemma py_int_err s e : py_int s = Err e -> e = ValueError.
Proof.
  unfold py_int. intros H.
  repeat match type of H with context [match ?x with _ => _ end] => destruct x end; cbn in H; congruence.
Qed.
Lemma get_cells_err l particle ns e : get_cells_mcnp l particle ns = Err e <->
  (e = TypeError /\ exists t, In t l /\ selected particle ns t /\ b_cells (t_body t) = None) \/
  (e = ValueError /\ (forall t, In t l -> selected particle ns t -> b_cells (t_body t) <> None) /\
   exists t cs name, In t l /\ selected particle ns t /\ b_cells (t_body t) = Some cs /\ In name cs /\ forall n, py_int name <> Ok n).
Proof.
  unfold get_cells_mcnp. destruct (foldM (cells_step particle ns) l ([], [])) as [[cl td]|e'] eqn:E; cbn [bind].
  - assert (NT : forall t, In t l -> selected particle ns t -> b_cells (t_body t) <> None).
    { intros t I S B. assert (X : foldM (cells_step particle ns) l ([], []) = Err TypeError) by (apply cells_fold_err; split; [reflexivity|eauto]). congruence. }
    apply cells_fold in E. destruct E as (tals & names & S & F & E). injection E as -> ->. cbn [app].
    assert (SI : forall t, In t tals <-> In t l /\ selected particle ns t).
    { clear F NT. intros t. induction S as [|x l r P S IH|x l r P S IH]; cbn [In]; [tauto| |].
      - rewrite IH. split; [intros [<-|(A & B)]; auto|]. intros ([<-|A] & B); auto.
      - rewrite IH. split; [intros (A & B); auto|]. intros ([<-|A] & B); [contradiction|auto]. }
    destruct (mapM py_int (concat names)) as [cells|e'] eqn:M; cbn [bind].
    + split; [discriminate|]. intros [(-> & t & I & T & B)|(-> & _ & t & cs & name & I & T & B & J & K)]; [elim (NT t I T B)|].
      apply (mapM_Forall2 _ _ _ _ (fun x y => iff_refl _)) in M.
      assert (Jn : In name (concat names)).
      { apply in_concat. exists cs. split; [|exact J]. assert (It : In t tals) by (apply SI; auto).
        apply (In_nth_error tals) in It. destruct It as (i & Hi). clear -F Hi B. revert i Hi. induction F as [|x y xs ys H F IH]; intros [|i] Hi; try discriminate.
        - injection Hi as ->. left. congruence.
        - right. eapply IH. exact Hi. }
      exfalso. revert M Jn K. generalize (concat names) cells. clear. intros l cells F. induction F as [|x y l cs H F IH]; [intros []|].
      intros [->|I] K; [now elim (K y)|auto].
    + pose proof M as M0. apply (mapM_only py_int (fun e => e = ValueError)) in M0; [|intros; eapply py_int_err; eassumption]. subst e'. split.
      * intros X. injection X as <-. right. split; [reflexivity|]. split; [exact NT|].
        assert (X : exists name, In name (concat names) /\ forall n, py_int name <> Ok n).
        { revert M. generalize (concat names). clear. intros l. induction l as [|x l IH]; cbn [mapM]; [discriminate|].
          destruct (py_int x) eqn:P; cbn [bind].
          - destruct (mapM py_int l) eqn:Q; cbn [bind]; [discriminate|]. intros X. destruct (IH X) as (nm & I & K). exists nm. split; [now right|exact K].
          - intros _. exists x. split; [now left|]. congruence. }
        destruct X as (name & I & K). apply in_concat in I. destruct I as (cs & I & J).
        apply (In_nth_error names) in I. destruct I as (i & Hi).
        assert (Y : exists t, In t tals /\ b_cells (t_body t) = Some cs).
        { clear -F Hi. revert i Hi. induction F as [|x y xs ys H F IH]; intros [|i] Hi; try discriminate.
          - injection Hi as ->. exists x. split; [now left|exact H].
          - destruct (IH i Hi) as (t & I & B). exists t. split; [now right|exact B]. }
        destruct Y as (t & It & B). apply SI in It. destruct It as (It & St). exists t, cs, name. auto.
      * intros [(-> & t & I & T & B)|(-> & _)]; [elim (NT t I T B)|reflexivity].
  - pose proof E as E0. apply cells_fold_err in E0. destruct E0 as (-> & t & I & S & B). split.
    + intros X. injection X as <-. left. split; [reflexivity|]. eauto.
    + intros [(-> & _)|(-> & NT & _)]; [reflexivity|]. elim (NT t I S B).
Qed.

(** * Cell data *)
Lemma F2_length {A B} (R : A -> B -> Prop) l l' : Forall2 R l l' -> List.length l = List.length l'.
Proof. induction 1; cbn; congruence. Qed.
Lemma get_binds {V} (d : list (Z * V)) k v : dict_get Z.eqb k d = Some v <-> binds d k v.
Proof.
  unfold binds. induction d as [|[k' v'] d IH]; cbn [dict_get].
  - split; [discriminate|]. intros ([|] & d2 & E & _); discriminate.
  - destruct (Z.eqb_spec k k') as [->|N].
    + split.
      * intros E. injection E as ->. exists [], d. split; [reflexivity|intros []].
      * intros ([|x d1] & d2 & E & Ni); [injection E as -> ->; reflexivity|]. injection E as <- ->. elim Ni. now left.
    + rewrite IH. split.
      * intros (d1 & d2 & -> & Ni). exists ((k', v') :: d1), d2. split; [reflexivity|]. cbn. intros [E|E]; [congruence|auto].
      * intros ([|x d1] & d2 & E & Ni); [injection E; congruence|]. injection E as <- ->. exists d1, d2. split; [reflexivity|]. cbn in Ni. tauto.
Qed.
Lemma cell_rows_spec cs : forall i rows, cell_rows i cs = rows <->
  Forall2 (fun c r => cr_number r = c_number c /\ cr_material r = c_mat c /\ cr_density r = c_density c) cs rows /\ map cr_label rows = seq i (List.length cs).
Proof.
  induction cs as [|c cs IH]; intros i rows; cbn [cell_rows].
  - split; [intros <-; split; [constructor|reflexivity]|]. intros (F & _). now inversion F.
  - split.
    + intros <-. destruct (proj1 (IH (S i) _) eq_refl) as (F & L). split; [constructor; auto|]. cbn. now rewrite L.
    + intros (F & L). inversion F as [|? r ? rs (A & B & C) F']; subst. cbn in L. injection L as L1 L2. rewrite (proj2 (IH (S i) rs) (conj F' L2)).
      destruct r; cbn in *; congruence.
Qed.
Lemma cell_lookup d n c : (if check_cell_exists n d then match get_cell n d with Some c => Ok c | None => Err AttributeError end else Err ValueError) = Ok c <-> binds d n c.
Proof.
  rewrite <- get_binds. unfold check_cell_exists, get_cell. destruct (dict_get Z.eqb n d); split; intros E; try discriminate; injection E as ->; reflexivity.
Qed.
Lemma cell_data_rows d ns rows : get_cell_data d ns = Ok (Some rows) <->
  ns <> [] /\ exists cs, Forall2 (fun n c => binds d n c) ns cs /\
    Forall2 (fun c r => cr_number r = c_number c /\ cr_material r = c_mat c /\ cr_density r = c_density c) cs rows /\
    map cr_label rows = seq 0 (List.length ns).
Proof.
  unfold get_cell_data. split.
  - intros H. unbind H. apply (mapM_Forall2 _ _ _ _ (cell_lookup d)) in E. destruct v as [|c cs]; [discriminate|]. injection H as H.
    change (cell_rows 0 (c :: cs) = rows) in H. apply cell_rows_spec in H. destruct H as (F & L). split; [inversion E; discriminate|]. exists (c :: cs). split; [exact E|]. split; [exact F|].
    now rewrite (F2_length _ _ _ E).
  - intros (N & cs & F & G & L). rewrite (proj2 (mapM_Forall2 _ _ ns cs (cell_lookup d)) F). cbn [bind].
    destruct cs as [|c cs]; [inversion F; congruence|]. f_equal. f_equal. apply cell_rows_spec. split; [exact G|]. now rewrite <- (F2_length _ _ _ F).
Qed.
Lemma cell_data_none d ns : get_cell_data d ns = Ok None <-> ns = [].
Proof.
  unfold get_cell_data. split; [|intros ->; reflexivity]. intros H. unbind H. destruct v; [|discriminate].
  apply (mapM_Forall2 _ _ _ _ (cell_lookup d)) in E. now inversion E.
Qed.
Lemma cell_data_err d ns e : get_cell_data d ns = Err e <-> e = ValueError /\ exists n, In n ns /\ ~ In n (map fst d).
Proof.
  unfold get_cell_data.
  assert (B : forall n, (exists c, binds d n c) <-> In n (map fst d)).
  { intros n. split.
    - intros (c & d1 & d2 & -> & _). rewrite map_app, in_app_iff. cbn. auto.
    - intros I. destruct (dict_get Z.eqb n d) as [c|] eqn:G; [exists c; now apply get_binds|].
      exfalso. revert I G. clear. induction d as [|[k v] d IH]; cbn; [intros []|]. intros [<-|I]; [rewrite Z.eqb_refl; discriminate|].
      destruct (Z.eqb n k); [discriminate|auto]. }
  induction ns as [|n ns IH]; cbn [mapM bind].
  - split; [discriminate|]. intros (_ & n & [] & _).
  - destruct (if check_cell_exists n d then match get_cell n d with Some c => Ok c | None => Err AttributeError end else Err ValueError) as [c|e'] eqn:E; cbn [bind].
    + apply cell_lookup in E. match type of IH with context [mapM ?g ns] => destruct (mapM g ns) as [cs|e'] eqn:M end; cbn [bind] in *.
      * split; [discriminate|]. intros (-> & m & [<-|I] & N); [elim N; apply B; eauto|].
        destruct IH as (_ & X). specialize (X (conj eq_refl (ex_intro _ m (conj I N)))). destruct cs; discriminate.
      * rewrite IH. split; intros (-> & m & I & N); (split; [reflexivity|]).
        -- exists m. split; [now right|exact N].
        -- destruct I as [<-|I]; [elim N; apply B; eauto|]. eauto.
    + assert (N : ~ In n (map fst d)). { intros I. apply B in I. destruct I as (c & K). apply cell_lookup in K. congruence. }
      assert (e' = ValueError) as ->. { revert E. unfold check_cell_exists. destruct (get_cell n d); congruence. }
      split; [intros X; injection X as <-; split; [reflexivity|]; exists n; split; [now left|exact N]|]. intros (-> & _). reflexivity.
Qed.
