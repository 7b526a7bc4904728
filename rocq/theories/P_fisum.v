(** Proofs about plots of the FISPACT summary. *)
From Coq Require Import Lia.
From Verif Require Import PyBase PyFloat FloatFacts PyFs SpecStr SpecUtil SpecOutput SpecFis SpecConst PyTable PyFacts TextFacts P_util P_const P_fisout P_fisout4 M_util M_ptrac M_const M_fisout M_fisana SpecFisana P_fisana P_table P_fisana2 P_fisana3 P_fisana4 P_fisana5 M_fisum SpecFisum.
Local Open Scope nat_scope.

Lemma summary_wf sd : well_formed (summary_table sd).
Proof.
  split; [apply distinct_NoDup; reflexivity|]. apply Forall_forall. intros r Hr. apply enum_rows in Hr. destruct Hr as ((s & (d & h) & c) & _ & ->). reflexivity.
Qed.
(** A row of the frame comes from a row of the summary. *)
Definition from (r : row) (x : sum_row * (float * float * float)) : Prop := snd r = summary_cells x.
Lemma shows_at name x v sd r : shows name x v -> from r x -> number_at (summary_table sd) name r v.
Proof.
  intros H E. unfold number_at, at_col. unfold from in E. rewrite E. cbn [summary_table t_names].
  destruct H; try destruct t as [[d h] c]; cbn [summary_cells].
  - exists (CF (time_years s)). split; [exists 0; split; reflexivity|constructor].
  - exists (CF (s_act s)). split; [exists 1; split; reflexivity|constructor].
  - exists (CF (dose_rate s)). split; [exists 2; split; reflexivity|constructor].
  - exists (CF (heating s)). split; [exists 3; split; reflexivity|constructor].
  - exists (CF (ingestion s)). split; [exists 4; split; reflexivity|constructor].
  - exists (CF (inhalation s)). split; [exists 5; split; reflexivity|constructor].
  - exists (CF (tritium s)). split; [exists 6; split; reflexivity|constructor].
  - exists (CF d). split; [exists 13; split; reflexivity|constructor].
  - exists (CF h). split; [exists 14; split; reflexivity|constructor].
  - exists (CF c). split; [exists 15; split; reflexivity|constructor].
Qed.
Lemma shows_name name x v : shows name x v -> In name summary_names.
Proof.
  intros [].
  - apply (nth_error_In _ 0). reflexivity.
  - apply (nth_error_In _ 1). reflexivity.
  - apply (nth_error_In _ 2). reflexivity.
  - apply (nth_error_In _ 3). reflexivity.
  - apply (nth_error_In _ 4). reflexivity.
  - apply (nth_error_In _ 5). reflexivity.
  - apply (nth_error_In _ 6). reflexivity.
  - apply (nth_error_In _ 13). reflexivity.
  - apply (nth_error_In _ 14). reflexivity.
  - apply (nth_error_In _ 15). reflexivity.
Qed.
Lemma rows_from k sd : Forall2 from (enum_from k (map summary_cells sd)) sd.
Proof. revert k. induction sd as [|x sd IH]; intros k; cbn; constructor; [reflexivity|apply IH]. Qed.
Lemma cooling_at sd r x b : from r x -> at_col (summary_table sd) (lit "is_cooling") r (CB b) <-> is_cooling (fst x) = b.
Proof.
  intros E. destruct x as [s [[d h] c]]. unfold at_col. unfold from in E. rewrite E. cbn [fst summary_table t_names summary_cells]. split.
  - intros (i & A & B). assert (i = 12).
    { do 16 (destruct i as [|i]; [first [reflexivity|discriminate A]|]). destruct i; discriminate A. }
    subst i. injection B as <-. reflexivity.
  - intros <-. exists 12. split; reflexivity.
Qed.
Lemma picked_from sd rows xs : Forall2 from rows xs -> forall ys, picked (fun x => is_cooling (fst x) = true) xs ys ->
  exists rows', picked (fun r => at_col (summary_table sd) (lit "is_cooling") r (CB true)) rows rows' /\ Forall2 from rows' ys.
Proof.
  intros H. induction H as [|r x rows xs E H IH]; intros ys P; inversion P as [|? ? ys' C P'|? ? ys' C P']; subst.
  - exists []. split; constructor.
  - destruct (IH _ P') as (rows' & Q & F). exists (r :: rows'). split; constructor; try assumption. now apply (cooling_at sd r x).
  - destruct (IH _ P') as (rows' & Q & F). exists rows'. split; [|exact F]. apply pk_skip; [|exact Q]. intros K. apply C. now apply (cooling_at sd r x).
Qed.
Lemma from_numbers rows xs name vs : Forall2 from rows xs -> Forall2 (shows name) xs vs -> vs <> [] -> numbers_of (Table summary_names rows) name vs.
Proof.
  intros H V N. split.
  - destruct V as [|x v xs vs Hx _]; [contradiction|]. exact (shows_name _ _ _ Hx).
  - cbn [t_rows]. revert vs V N. induction H as [|r x rows xs E H IH]; intros vs V N; inversion V as [|? v ? vs' Hv V']; subst; constructor.
    + exact (shows_at name x v [] r Hv E).
    + destruct vs' as [|v' vs']; [inversion V'; subst; inversion H; constructor|]. apply IH; [exact V'|discriminate].
Qed.
Lemma is_cooling_cell sd rs xs : Forall2 from rs xs -> forall r, In r rs -> exists b, at_col (summary_table sd) (lit "is_cooling") r (CB b).
Proof.
  intros F. induction F as [|r' x rs xs E F IH]; intros r; [intros []|]. intros [<-|Hr]; [|now apply IH]. exists (is_cooling (fst x)). now apply (cooling_at sd r' x).
Qed.
Lemma firstn_pos {A} k (l : list A) : 0 < k -> k <= List.length l -> l <> [].
Proof. intros H L ->. cbn in L. lia. Qed.
Lemma F2_len {A B} (P : A -> B -> Prop) a b : Forall2 P a b -> List.length a = List.length b.
Proof. intros H. induction H; cbn; congruence. Qed.
Lemma summary_curve sd rows column x_units y_units (cooling : bool) data times k :
  (if cooling then picked (fun x => is_cooling (fst x) = true) sd rows else rows = sd) ->
  Forall2 (shows column) rows data -> Forall2 (shows (check_time_units x_units)) rows times -> leading data k -> 0 < k -> (forall x, In x times -> is_nan_f x = false) ->
  exists c, plot_summary (DataFrame (summary_table sd)) column [] [] x_units y_units cooling = Ok c /\ cv_x c = firstn k times /\
    cv_y c = (if str_eqb column (lit "dose_rate") then map (fun v => fmul v (fdec 1 6)) (firstn k data) else firstn k data) /\ cv_xlabel c = check_time_units x_units.
Proof.
  intros HR HD HT L Hk HN. assert (Nd : data <> []) by (destruct L as (L & _); exact (firstn_pos k data Hk L)).
  assert (Nt : times <> []) by (apply F2_len in HD, HT; destruct times, data; cbn in *; congruence).
  assert (PR : exists rows', plotted_rows (summary_table sd) cooling (Table summary_names rows') /\ Forall2 from rows' rows).
  { pose proof (rows_from 0 sd) as F. destruct cooling.
    - destruct (picked_from sd _ _ F _ HR) as (rows' & P & F'). exists rows'. split; [|exact F']. split; [apply (nth_error_In _ 12); reflexivity|]. split; [|split; [reflexivity|exact P]].
      intros r Hr. exact (is_cooling_cell sd _ _ F r Hr).
    - subst rows. exists (enum_from 0 (map summary_cells sd)). split; [reflexivity|exact F]. }
  destruct PR as (rows' & PR & F).
  destruct (plot_summary_curve (summary_table sd) column x_units y_units cooling (Table summary_names rows') data times k (summary_wf sd) PR
    (from_numbers _ _ _ _ F HD Nd) (from_numbers _ _ _ _ F HT Nt) L Hk HN) as (m & c & _ & E & A & B & C & _). eauto 6.
Qed.
Lemma curve_label t column vl hl xu yu cooling c : plot_summary t column vl hl xu yu cooling = Ok c -> cv_ylabel c = summary_label column yu.
Proof.
  unfold plot_summary. destruct t as [t|]; [|discriminate]. destruct (has_col t column); cbn [negb]; [|discriminate].
  destruct (if cooling then _ else _) as [t1|]; cbn [bind]; [|discriminate]. destruct (num_column t1 column); cbn [bind]; [|discriminate].
  destruct (has_col t1 _); cbn [negb]; [|discriminate]. destruct (num_column t1 _); cbn [bind]; [|discriminate]. destruct (reduce_to_non_zero _ _); cbn [bind]; [|discriminate].
  cbv zeta. destruct (py_max _); cbn [bind]; [|discriminate]. destruct vl, hl; try discriminate. now intros [= <-].
Qed.
Lemma label_units t vl hl xu yu cooling c : plot_summary t (lit "dose_rate") vl hl xu yu cooling = Ok c -> cv_ylabel c = lit "Dose rate $\mu$Sv/h".
Proof. intros H. now rewrite (curve_label _ _ _ _ _ _ _ _ H). Qed.
Lemma label_act t vl hl xu yu cooling c : plot_summary t (lit "act") vl hl xu yu cooling = Ok c ->
  (yu = Some (lit "Bq/kg") -> cv_ylabel c = lit "Specific Activity Bq/kg") /\ (yu = Some (lit "Bq/g") -> cv_ylabel c = lit "Specific Activity Bq/g") /\
  (yu <> Some (lit "Bq/kg") -> yu <> Some (lit "Bq/g") -> cv_ylabel c = lit "Activity Bq").
Proof.
  intros H. rewrite (curve_label _ _ _ _ _ _ _ _ H). repeat split; [intros ->; reflexivity|intros ->; reflexivity|]. intros A B.
  destruct yu as [u|]; [|reflexivity]. unfold summary_label. change (str_eqb (lit "act") (lit "dose_rate")) with false. change (str_eqb (lit "act") (lit "act")) with true. cbv iota zeta.
  destruct (str_eqb u (lit "Bq/kg")) eqn:E; [apply str_eqb_eq in E; subst; contradiction|]. destruct (str_eqb u (lit "Bq/g")) eqn:E'; [apply str_eqb_eq in E'; subst; contradiction|]. reflexivity.
Qed.
Lemma label_bare t column vl hl xu yu cooling c : In column (map lit ["heating"; "ingestion"; "inhalation"; "tritium"]%string) ->
  plot_summary t column vl hl xu yu cooling = Ok c -> cv_ylabel c = column.
Proof. intros I H. rewrite (curve_label _ _ _ _ _ _ _ _ H). cbn [map In] in I. repeat (destruct I as [<-|I]; [reflexivity|]). contradiction. Qed.
Lemma unit_name u name : unit_column u name -> check_time_units u = name.
Proof. intros H. destruct H as [u H|u H|u H|u H]; destruct (time_units_spec u) as (A & B & C & D & _); auto. Qed.
Lemma summary_drawn sd rows column x_units name y_units (cooling : bool) data times k : unit_column x_units name ->
  (if cooling then picked (fun x => is_cooling (fst x) = true) sd rows else rows = sd) ->
  Forall2 (shows column) rows data -> Forall2 (shows name) rows times -> leading data k -> 0 < k -> (forall x, In x times -> is_nan_f x = false) ->
  exists c, plot_summary (DataFrame (summary_table sd)) column [] [] x_units y_units cooling = Ok c /\ cv_x c = firstn k times /\ cv_xlabel c = name /\
    (column <> lit "dose_rate" -> cv_y c = firstn k data) /\ (column = lit "dose_rate" -> cv_y c = map (fun v => fmul v (fdec 1 6)) (firstn k data)).
Proof.
  intros U. rewrite <- (unit_name _ _ U). intros HR HD HT L Hk HN. destruct (summary_curve sd rows column x_units y_units cooling data times k HR HD HT L Hk HN) as (c & E & A & B & C).
  exists c. split; [exact E|]. split; [exact A|]. split; [exact C|]. rewrite B. split; intros K.
  - destruct (str_eqb column (lit "dose_rate")) eqn:Q; [apply str_eqb_eq in Q; contradiction|reflexivity].
  - subst column. reflexivity.
Qed.
(** The contributions of nuclides to a file that was read. *)
Lemma summary_hours sd : sd <> [] -> numbers_of (summary_table sd) (lit "time_hours") (map (fun x => snd (fst (snd x))) sd).
Proof.
  intros N. apply (from_numbers (t_rows (summary_table sd)) sd); [apply rows_from| |destruct sd; [contradiction|discriminate]].
  clear N. induction sd as [|[s [[d h] c]] sd IH]; constructor; [constructor|exact IH].
Qed.
Lemma inventories_ok (ts : list time_step) param : In param (map lit ["atoms"; "mass"; "act"; "b_energy"; "a_energy"; "g_energy"; "dose_rate"]%string) ->
  Forall (fun t => well_formed t /\ In (lit "nuclide") (t_names t) /\ numeric t param) (map (fun t => inventory_table (inventory t)) ts).
Proof.
  intros H. apply Forall_forall. intros t Ht. apply in_map_iff in Ht. destruct Ht as (s & <- & _). split; [apply inventory_wf|]. split; [left; reflexivity|]. now apply inventory_numeric.
Qed.
Lemma contributions sd (ts : list time_step) nucs param : In param (map lit ["atoms"; "mass"; "act"; "b_energy"; "a_energy"; "g_energy"; "dose_rate"]%string) ->
  List.length sd = List.length ts -> sd <> [] -> nucs <> [] -> (forall x, In x sd -> is_nan_f (snd (fst (snd x))) = false) ->
  let invs := map (fun t => inventory_table (inventory t)) ts in let times := map (fun x => snd (fst (snd x))) sd in
  exists curves m, largest times m /\ Forall2 (curve_of invs param) nucs curves /\
    plot_nuc_cont invs (summary_table sd) nucs param false = Ok (times, curves, flt (f_of_Z 10) m) /\
    (forall tot, Forall2 (shows param) sd tot -> plot_nuc_cont invs (summary_table sd) nucs param true = Ok (times, curves ++ [(lit "Total", tot)], flt (f_of_Z 10) m)) /\
    (~ In param (map lit ["act"; "dose_rate"]%string) -> plot_nuc_cont invs (summary_table sd) nucs param true = Err KeyError).
Proof.
  intros P L NE NL NN invs times. pose proof (inventories_ok ts param P) as F. fold invs in F.
  assert (NT : numbers_of (summary_table sd) (lit "time_hours") times) by now apply summary_hours.
  assert (LT : List.length times = List.length invs) by (unfold times, invs; rewrite !map_length; exact L).
  assert (TE : times <> []) by (destruct sd; [contradiction|discriminate]).
  assert (TN : forall x, In x times -> is_nan_f x = false) by (intros x Hx; apply in_map_iff in Hx; destruct Hx as (y & <- & Hy); auto).
  destruct (plot_nuc_cont_spec invs (summary_table sd) times nucs param false [] F (summary_wf sd) NT ltac:(discriminate) LT TE TN NL) as (curves & m & Lm & G & E).
  exists curves, m. split; [exact Lm|]. split; [exact G|]. split; [rewrite E, app_nil_r; reflexivity|]. split.
  - intros tot Ht. assert (NP : numbers_of (summary_table sd) param tot).
    { apply (from_numbers (t_rows (summary_table sd)) sd); [apply rows_from|exact Ht|]. destruct Ht; [contradiction|discriminate]. }
    destruct (plot_nuc_cont_spec invs (summary_table sd) times nucs param true tot F (summary_wf sd) NT (fun _ => NP) LT TE TN NL) as (curves' & m' & Lm' & G' & E').
    revert E E'. unfold plot_nuc_cont. destruct nucs as [|n ns]; [contradiction|]. destruct (num_column _ (lit "time_hours")) as [tv|]; [|discriminate]. cbn [bind].
    destruct (mapM _ (n :: ns)) as [cs|]; [|discriminate]. cbn [bind]. destruct (py_max tv) as [mm|]; cbn [bind]; [|discriminate].
    destruct (num_column _ param) as [tt'|]; cbn [bind]; [|intros _ K; discriminate K]. rewrite !app_nil_r. intros E E'. injection E as -> -> E. injection E' as E1 _. apply app_inj_tail in E1.
    destruct E1 as (_ & E1). injection E1 as ->. rewrite E. reflexivity.
  - intros NI. apply (plot_nuc_cont_total invs (summary_table sd) times nucs param F (summary_wf sd) NT LT NL). cbn [summary_table t_names].
    cbn [map] in P, NI. repeat (destruct P as [<-|P]; [first [exfalso; apply NI; cbn [In]; tauto|apply (proj1 (has_col_not (Table summary_names []) _)); vm_compute; reflexivity]|]). destruct P.
Qed.

(** the total of a property that the summary does not have *)
Lemma contributions_total sd (ts : list time_step) nucs param : In param (map lit ["atoms"; "mass"; "b_energy"; "a_energy"; "g_energy"]%string) ->
  List.length sd = List.length ts -> sd <> [] -> nucs <> [] -> (forall x, In x sd -> is_nan_f (snd (fst (snd x))) = false) ->
  plot_nuc_cont (map (fun t => inventory_table (inventory t)) ts) (summary_table sd) nucs param true = Err KeyError.
Proof.
  intros P L NE NL NN.
  assert (P2 : In param (map lit ["atoms"; "mass"; "act"; "b_energy"; "a_energy"; "g_energy"; "dose_rate"]%string)) by (cbn [map In] in *; tauto).
  destruct (contributions sd ts nucs param P2 L NE NL NN) as (c & m & _ & _ & _ & _ & K). apply K.
  cbn [map In] in P. intros Q. cbn [map In] in Q.
  repeat (destruct P as [<-|P]; [destruct Q as [Q|[Q|[]]]; discriminate Q|]). exact P.
Qed.
