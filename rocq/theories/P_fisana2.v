(** Proofs about limits, series and time units of fispact_analysis.py. *)
From Coq Require Import Lia Floats.SpecFloat.
From Verif Require Import PyBase PyFloat PyFs SpecStr SpecUtil SpecOutput SpecFis PyTable PyFacts TextFacts P_util P_fisout M_util M_ptrac M_const M_fisout M_fisana SpecFisana P_table.
Local Open Scope nat_scope.

(** * reduce_to_non_zero *)
Lemma reduce_spec {T} (values : list float) (times : list T) v t : reduce_to_non_zero values times = Ok (v, t) <->
  List.length values = List.length times /\
  exists k, k <= List.length values /\ v = firstn k values /\ t = firstn k times /\ Forall (fun x => ~ fp_zero x) v /\
    (k = List.length values \/ exists z, nth_error values k = Some z /\ fp_zero z).
Proof.
  unfold reduce_to_non_zero. destruct (Nat.eqb_spec (List.length values) (List.length times)) as [L|L]; cbn [negb].
  2:{ split; [discriminate|]. intros (H & _). contradiction. }
  destruct (find_first_zero values) as [i|] eqn:E.
  - apply find_first_zero_Some in E. destruct E as ((z & Ez & Hz) & B). assert (Hi : i < List.length values) by (apply nth_error_Some; congruence).
    rewrite !slice_to_nat.
    assert (NZ : Forall (fun x => ~ fp_zero x) (firstn i values)).
    { apply Forall_forall. intros x Hx. apply In_nth_error in Hx. destruct Hx as (j & Ej). assert (j < i). { assert (j < List.length (firstn i values)) by (apply nth_error_Some; congruence). rewrite firstn_length in H. lia. }
      apply (B j x H). rewrite <- (firstn_skipn i values). rewrite nth_error_app1; [exact Ej|]. rewrite firstn_length. lia. }
    split.
    + intros H. injection H as <- <-. split; [exact L|]. exists i. split; [lia|]. repeat split; [exact NZ|]. right. now exists z.
    + intros (_ & k & Hk & -> & -> & F & R). assert (k = i); [|now subst].
      destruct (Nat.lt_trichotomy k i) as [H|[H|H]]; [|exact H|]; exfalso.
      * destruct R as [->|(z' & Ez' & Hz')]; [lia|]. exact (B k z' H Ez' Hz').
      * rewrite Forall_forall in F. apply (F z); [|exact Hz]. apply nth_error_In with i. rewrite <- (firstn_skipn k values) in Ez. rewrite nth_error_app1 in Ez; [exact Ez|]. rewrite firstn_length. lia.
  - pose proof (proj1 (find_first_zero_None values) E) as N. split.
    + intros H. injection H as <- <-. split; [exact L|]. exists (List.length values). split; [lia|]. rewrite L at 2. rewrite !firstn_all. repeat split; [|now left]. apply Forall_forall. exact N.
    + intros (_ & k & Hk & -> & -> & F & [->|(z & Ez & Hz)]); [rewrite L at 2; now rewrite !firstn_all|]. exfalso. apply (N z); [eapply nth_error_In; exact Ez|exact Hz].
Qed.
Lemma reduce_lengths {T} (values : list float) (times : list T) : List.length values <> List.length times -> reduce_to_non_zero values times = Err ValueError.
Proof. intros H. unfold reduce_to_non_zero. apply Nat.eqb_neq in H. now rewrite H. Qed.
Lemma reduce_total {T} (values : list float) (times : list T) : List.length values = List.length times -> exists v t, reduce_to_non_zero values times = Ok (v, t).
Proof. intros H. unfold reduce_to_non_zero. rewrite H, Nat.eqb_refl. cbn [negb]. destruct (find_first_zero values); do 2 eexists; reflexivity. Qed.

(** * Limits *)
Lemma limits_head oos n : match limits_of oos n with [] => ~ In n (map fst oos) | v :: _ => limit_named oos n v end.
Proof.
  unfold limits_of. induction oos as [|[m v] oos IH]; cbn [map filter]; [intros []|]. cbn [fst].
  destruct (str_eqb_spec m n) as [->|N]; cbn [map snd].
  - exists 0. split; [|now exists n]. split; [eexists; split; [reflexivity|reflexivity]|intros; lia].
  - destruct (map snd (filter (fun nl => str_eqb (fst nl) n) oos)) as [|w r].
    + intros [H|H]; [now elim N|now elim IH].
    + destruct IH as (i & ((x & Ex & Px) & B) & m' & Em). exists (S i). split; [|now exists m']. split; [now exists x|].
      intros [|j] y Hj Ey; [injection Ey as <-; exact N|]. apply (B j y); [lia|exact Ey].
Qed.
Lemma limit_named_fun oos n v w : limit_named oos n v -> limit_named oos n w -> v = w.
Proof.
  intros (i & ((x & Ex & Px) & B) & m & Em) (j & ((y & Ey & Py) & B') & m' & Em'). destruct (Nat.lt_trichotomy i j) as [H|[->|H]].
  - elim (B' i x H Ex Px).
  - congruence.
  - elim (B j y H Ey Py).
Qed.
Lemma limit_named_In oos n v : limit_named oos n v -> In n (map fst oos).
Proof. intros (i & ((x & Ex & <-) & _) & _). apply in_map. eapply nth_error_In. exact Ex. Qed.
Lemma limit_named_exists oos n : In n (map fst oos) -> exists v, limit_named oos n v.
Proof. intros H. pose proof (limits_head oos n) as L. destruct (limits_of oos n) as [|v r]; [contradiction|]. now exists v. Qed.
Lemma limit_of_fun oos n v w : limit_of oos n v -> limit_of oos n w -> v = w.
Proof.
  intros [H|(H1 & H2)] [G|(G1 & G2)].
  - eapply limit_named_fun; eassumption.
  - elim G1. eapply limit_named_In. exact H.
  - elim H1. eapply limit_named_In. exact G.
  - eapply limit_named_fun; eassumption.
Qed.
Lemma div_1000 x : py_fdiv x (f_of_Z 1000) = Ok (fdiv x (f_of_Z 1000)).
Proof. reflexivity. Qed.
Lemma own_limit oos n v : limit_of oos n v <-> (match limits_of oos n with v :: _ => Ok v | [] => py_nth (limits_of oos (lit "Other")) 0 end) = Ok v.
Proof.
  pose proof (limits_head oos n) as L. destruct (limits_of oos n) as [|w r].
  - pose proof (limits_head oos (lit "Other")) as LO. change 0%Z with (Z.of_nat 0). rewrite py_nth_nat. destruct (limits_of oos (lit "Other")) as [|w r]; cbn [nth_error].
    + split; [|discriminate]. intros [H|(_ & H)]; apply limit_named_In in H; contradiction.
    + split.
      * intros [H|(_ & H)]; [apply limit_named_In in H; contradiction|]. f_equal. eapply limit_named_fun; eassumption.
      * intros H. injection H as <-. right. auto.
  - split; [|intros H; injection H as <-; now left]. intros [H|(H & _)]; [f_equal; eapply limit_named_fun; eassumption|]. elim H. eapply limit_named_In. exact L.
Qed.
Lemma check_nuclide_spec n x oos mass b : check_nuclide_oos (Some n) x oos mass = Ok b <->
  exists v q, limit_of oos n v /\ py_fdiv x mass = Ok q /\ b = negb (flt v q).
Proof.
  unfold check_nuclide_oos. rewrite bind_Ok. split.
  - intros (v & Hv & H). apply bind_Ok in H. destruct H as (q & Hq & H). exists v, q. split; [now apply own_limit|]. split; [exact Hq|]. destruct (flt v q); injection H as <-; reflexivity.
  - intros (v & q & Hv & Hq & ->). exists v. split; [now apply own_limit|]. rewrite Hq. cbn [bind]. now destruct (flt v q).
Qed.
Lemma no_limit n x oos mass : ~ In n (map fst oos) -> ~ complete_limits oos -> check_nuclide_oos (Some n) x oos mass = Err IndexError.
Proof.
  intros H1 H2. unfold check_nuclide_oos. pose proof (limits_head oos n) as L. destruct (limits_of oos n) as [|w r]; [|elim H1; eapply limit_named_In; exact L].
  pose proof (limits_head oos (lit "Other")) as LO. destruct (limits_of oos (lit "Other")) as [|w r]; [reflexivity|]. elim H2. eapply limit_named_In. exact LO.
Qed.

Section Inventory.
  Context (t : table) (IL : inventory_like t) (oos : oos_table).
  Let W : well_formed t. Proof. exact (proj1 IL). Qed.
  Lemma row_oos_spec r b : In r (t_rows t) -> row_oos t oos r = Ok b <->
    exists n x v, text_at t (lit "nuclide") r n /\ number_at t (lit "act") r x /\ limit_of oos n v /\ b = negb (flt v (fdiv x (f_of_Z 1000))).
  Proof.
    intros Hr. destruct IL as (_ & (Ia & Na) & In_ & Nn). destruct (Nn r Hr) as (n & Hn). destruct (Na r Hr) as (x & c & Hc & Hx).
    unfold row_oos. rewrite (proj2 (row_cell_spec t (lit "nuclide") r (CS n) (proj1 W)) Hn). cbn [bind].
    rewrite (proj2 (row_cell_spec t (lit "act") r c (proj1 W)) Hc). cbn [bind]. rewrite (proj1 (holds_num c x) Hx). cbn [bind cell_text].
    rewrite check_nuclide_spec. split.
    - intros (v & q & Hv & Hq & ->). rewrite div_1000 in Hq. injection Hq as <-. exists n, x, v. repeat split; try assumption. now exists c.
    - intros (n' & x' & v & Hn' & (c' & Hc' & Hx') & Hv & ->). assert (CS n' = CS n) as E by (eapply at_col_fun; [apply W|exact Hn'|exact Hn]). injection E as ->.
      assert (c' = c) by (eapply at_col_fun; [apply W|exact Hc'|exact Hc]). subst c'. assert (x' = x) by (eapply holds_fun; eassumption). subst x'. exists v, (fdiv x (f_of_Z 1000)). repeat split; assumption.
  Qed.
  Lemma row_oos_true r : In r (t_rows t) -> row_oos t oos r = Ok true -> ~ above_limit oos t r.
  Proof.
    intros Hr H. apply row_oos_spec in H; [|exact Hr]. destruct H as (n & x & v & Hn & (c & Hc & Hx) & Hv & E). intros (n' & x' & v' & Hn' & (c' & Hc' & Hx') & Hv' & E').
    assert (CS n' = CS n) as En by (eapply at_col_fun; [apply W|exact Hn'|exact Hn]). injection En as ->.
    assert (c' = c) by (eapply at_col_fun; [apply W|exact Hc'|exact Hc]). subst c'. assert (x' = x) by (eapply holds_fun; eassumption). subst x'.
    assert (v' = v) by (eapply limit_of_fun; eassumption). subst v'. rewrite E' in E. discriminate.
  Qed.
  Lemma row_oos_false r : In r (t_rows t) -> row_oos t oos r = Ok false <-> above_limit oos t r.
  Proof.
    intros Hr. rewrite row_oos_spec by exact Hr. unfold above_limit. split; intros (n & x & v & Hn & Hx & Hv & E); exists n, x, v; repeat split; try assumption.
    - destruct (flt v _); [reflexivity|discriminate].
    - now rewrite E.
  Qed.
  Lemma row_oos_ok r n : In r (t_rows t) -> text_at t (lit "nuclide") r n -> (exists v, limit_of oos n v) -> exists b, row_oos t oos r = Ok b.
  Proof.
    intros Hr Hn (v & Hv). destruct IL as (_ & (Ia & Na) & _). destruct (Na r Hr) as (x & Hx). exists (negb (flt v (fdiv x (f_of_Z 1000)))). apply row_oos_spec; [exact Hr|]. exists n, x, v. repeat split; assumption.
  Qed.
End Inventory.
Lemma row_oos_same t t' oos r : t_names t' = t_names t -> row_oos t' oos r = row_oos t oos r.
Proof. intros N. unfold row_oos, row_cell. now rewrite N. Qed.

Lemma mapM_all {A B} (f : A -> res B) l : (forall x, In x l -> exists y, f x = Ok y) -> exists ys, mapM f l = Ok ys.
Proof.
  induction l as [|x l IH]; intros H; [now exists []|]. destruct (H x (or_introl eq_refl)) as (y & Hy). destruct IH as (ys & Hys); [intros; apply H; now right|].
  exists (y :: ys). cbn [mapM]. rewrite Hy, Hys. reflexivity.
Qed.
Lemma mapM_forallb {A} (f : A -> res bool) l ys : mapM f l = Ok ys -> forallb (fun b => b) ys = true <-> forall x, In x l -> f x = Ok true.
Proof.
  revert ys. induction l as [|x l IH]; intros ys H; cbn [mapM] in H; [injection H as <-; split; [intros _ y []|reflexivity]|].
  unbind H. injection H as <-. cbn [forallb]. rewrite andb_true_iff, (IH _ E0). split.
  - intros (-> & G) y [<-|Hy]; [exact E|now apply G].
  - intros G. split; [|intros y Hy; apply G; now right]. specialize (G x (or_introl eq_refl)). congruence.
Qed.

Section Checks.
  Context (read_csv : str -> res oos_table) (base p : str) (oos : oos_table) (R : read_csv (path_join base p) = Ok oos).
  Context (t : table) (IL : inventory_like t).
  Let W : well_formed t. Proof. exact (proj1 IL). Qed.
  Lemma stable_of : exists t1, remove_stable (DataFrame t) = Ok t1 /\ rows_where t (active t) t1 /\ inventory_like t1.
  Proof.
    destruct IL as (_ & Na & In_ & Nn).
    assert (exists t1, remove_stable (DataFrame t) = Ok t1) as (t1 & H1).
    { destruct (remove_stable (DataFrame t)) as [t1|e] eqn:E; [now exists t1|exfalso].
      unfold remove_stable, positive_rows in E. replace (has_col t (lit "act")) with true in E by (symmetry; apply has_col_In; apply Na).
      assert (exists l, picked (exceeds (lit "act") fzero t) (t_rows t) l) as (l & Pl).
      { apply picked_exists. intros r Hr. destruct (proj2 Na r Hr) as (x & c & Hc & Hx). destruct (flt fzero x) eqn:F; [left; exists x; split; [now exists c|exact F]|right].
        intros (y & (d & Hd & Hy) & G). assert (d = c) by (eapply at_col_fun; [apply W|exact Hd|exact Hc]). subst d. assert (y = x) by (eapply holds_fun; eassumption). congruence. }
      assert (select t (lit "act") (cell_gt fzero) = Ok (Table (t_names t) l)) by (apply select_gt; [exact W|]; split; [exact Na|]; split; [reflexivity|exact Pl]). congruence. }
    exists t1. split; [exact H1|]. apply positive_rows_spec in H1; [|exact W]. destruct H1 as (_ & RW). split; [exact RW|].
    split; [eapply rows_where_wf; eassumption|]. split; [eapply rows_where_numeric; eassumption|]. destruct RW as (N & P). rewrite N. split; [exact In_|].
    intros r Hr. apply (picked_In _ _ _ r P) in Hr. destruct (Nn r (proj1 Hr)) as (n & Hn). exists n. now apply (same_names_at t t1).
  Qed.
  Lemma probe_complete t1 : rows_where t (active t) t1 -> complete_limits oos -> probe_ok t1 oos = true.
  Proof.
    intros (N & _) C. unfold probe_ok. destruct IL as (_ & (Ia & _) & In_ & _).
    replace (has_col t1 (lit "nuclide")) with true by (symmetry; apply has_col_In; now rewrite N).
    replace (has_col t1 (lit "act")) with true by (symmetry; apply has_col_In; now rewrite N). cbn [andb].
    unfold check_nuclide_oos. pose proof (limits_head oos (lit "Other")) as LO. change 0%Z with (Z.of_nat 0). rewrite py_nth_nat. destruct (limits_of oos (lit "Other")) as [|w r]; [contradiction|].
    cbn [nth_error bind]. rewrite div_1000. cbn [bind]. now destruct (flt w _).
  Qed.
  Lemma above_same t1 r : t_names t1 = t_names t -> above_limit oos t1 r <-> above_limit oos t r.
  Proof.
    intros N. unfold above_limit. split; intros (n & x & v & Hn & Hx & Hv & E); exists n, x, v; (split; [now apply (same_names_at t t1 _ _ _ N)|]); (split; [now apply (same_names_number t t1 _ _ _ N)|]); auto.
  Qed.
  Lemma check_inventory_spec : limits_known oos t -> exists b, check_inventory_oos read_csv base (DataFrame t) p = Ok b /\
    (b = true <-> forall r, In r (t_rows t) -> active t r -> ~ above_limit oos t r).
  Proof.
    intros (K1 & K2). destruct stable_of as (t1 & H1 & RW & IL1). unfold check_inventory_oos, read_OOS. rewrite R, H1. cbn [bind].
    pose proof RW as (N & P). assert (M : exists bs, mapM (row_oos t1 oos) (t_rows t1) = Ok bs).
    { apply mapM_all. intros r Hr. destruct IL1 as (W1 & A1 & I1 & N1). destruct (N1 r Hr) as (n & Hn). apply (row_oos_ok t1 (conj W1 (conj A1 (conj I1 N1))) oos r n Hr Hn).
      apply (picked_In _ _ _ r P) in Hr. apply (K1 r n); [apply Hr|apply Hr|]. now apply (same_names_at t t1 _ _ _ N). }
    destruct M as (bs & Hbs). destruct (t_rows t1) as [|r0 rs] eqn:E.
    - exists true. split.
      + destruct K2 as [C|(r & Hr & Ha)]; [|exfalso; exact (proj2 (picked_In _ _ _ r P) (conj Hr Ha))].
        now rewrite (probe_complete t1 RW C).
      + split; [|reflexivity]. intros _ r Hr Ha. exfalso. exact (proj2 (picked_In _ _ _ r P) (conj Hr Ha)).
    - rewrite <- E in P, Hbs. rewrite <- E, Hbs. cbn [bind]. exists (forallb (fun b => b) bs). split; [reflexivity|]. rewrite (mapM_forallb _ _ _ Hbs). split.
      + intros G r Hr Ha. assert (In r (t_rows t1)) as I1 by (apply (picked_In _ _ _ r P); auto). intros Hab. apply (above_same t1 r N) in Hab. revert Hab. apply row_oos_true; [exact IL1|exact I1|now apply G].
      + intros G r Hr. pose proof (proj1 (picked_In _ _ _ r P) Hr) as (Ht & Ha).
        assert (exists b, row_oos t1 oos r = Ok b) as (b & Hb). { destruct IL1 as (W1 & A1 & I1 & N1). destruct (N1 r Hr) as (n & Hn). apply (row_oos_ok t1 (conj W1 (conj A1 (conj I1 N1))) oos r n Hr Hn). apply (K1 r n); [exact Ht|exact Ha|]. now apply (same_names_at t t1 _ _ _ N). }
        destruct b; [exact Hb|exfalso]. apply row_oos_false in Hb; [|exact IL1|exact Hr]. apply (above_same t1 r N) in Hb. exact (G r Ht Ha Hb).
  Qed.
  (** What is reported. *)
  Lemma set_new names cells name c : ~ In name names -> List.length cells = List.length names -> set_cell names cells name c = cells ++ [c].
  Proof.
    revert cells. induction names as [|n names IH]; intros [|d cells] NI L; try discriminate; [reflexivity|]. cbn [set_cell].
    destruct (str_eqb_spec name n) as [->|N]; [elim NI; now left|]. cbn [app]. f_equal. apply IH; [intros H; apply NI; now right|]. now injection L.
  Qed.
  Lemma keep_reported (rs : list row) names name bs : ~ In name names -> Forall (fun r => List.length (snd r) = List.length names) rs -> List.length bs = List.length rs ->
    keep (map negb bs) (map (fun rc : row * cell => (fst (fst rc), set_cell names (snd (fst rc)) name (snd rc))) (combine rs (map CB bs)))
    = map (fun r => (fst r, snd r ++ [CB false])) (keep (map negb bs) rs).
  Proof.
    intros NI. revert bs. induction rs as [|r rs IH]; intros [|b bs] F L; try discriminate; [reflexivity|]. injection L as L. pose proof (Forall_inv F) as F1.
    cbn [map combine keep fst snd]. destruct b; cbn [negb]; [now apply IH; [apply (Forall_inv_tail F)|]|]. cbn [map]. rewrite (set_new names (snd r) name (CB false) NI F1). f_equal. apply IH; [apply (Forall_inv_tail F)|exact L].
  Qed.
  Lemma not_oos_spec : limits_known oos t -> ~ In (lit "oos_result") (t_names t) -> (exists r, In r (t_rows t) /\ active t r) ->
    exists t' rs, get_not_oos_nuclides read_csv base (DataFrame t) p = Ok t' /\ t_names t' = t_names t ++ [lit "oos_result"] /\
      picked (fun r => active t r /\ above_limit oos t r) (t_rows t) rs /\ t_rows t' = map (fun r => (fst r, snd r ++ [CB false])) rs.
  Proof.
    intros (K1 & K2) NI (r1 & Hr1 & Ha1). destruct stable_of as (t1 & H1 & RW & IL1). unfold get_not_oos_nuclides, read_OOS. rewrite R, H1. cbn [bind].
    pose proof RW as (N & P). assert (M : exists bs, mapM (row_oos t1 oos) (t_rows t1) = Ok bs).
    { apply mapM_all. intros r Hr. destruct IL1 as (W1 & A1 & I1 & N1). destruct (N1 r Hr) as (n & Hn). apply (row_oos_ok t1 (conj W1 (conj A1 (conj I1 N1))) oos r n Hr Hn).
      apply (picked_In _ _ _ r P) in Hr. apply (K1 r n); [apply Hr|apply Hr|]. now apply (same_names_at t t1 _ _ _ N). }
    destruct M as (bs & Hbs). assert (I1 : In r1 (t_rows t1)) by (apply (picked_In _ _ _ r1 P); auto). destruct (t_rows t1) as [|r0 rs] eqn:E; [contradiction|].
    rewrite Hbs. cbn [bind]. rewrite <- E in *. exists (Table (t_names (set_col (lit "oos_result") (map CB bs) t1)) (keep (map negb bs) (t_rows (set_col (lit "oos_result") (map CB bs) t1)))), (keep (map negb bs) (t_rows t1)).
    split; [reflexivity|]. unfold set_col. cbn [t_names t_rows]. assert (NI1 : ~ In (lit "oos_result") (t_names t1)) by (now rewrite N). rewrite (proj2 (has_col_not t1 (lit "oos_result")) NI1).
    split; [now rewrite N|]. split; [|apply keep_reported; [exact NI1|apply IL1|now apply mapM_length in Hbs]].
    assert (Q : picked (above_limit oos t) (t_rows t1) (keep (map negb bs) (t_rows t1))).
    { assert (Hneg : mapM (fun r => do b <- row_oos t1 oos r; Ok (negb b)) (t_rows t1) = Ok (map negb bs)).
      { clear -Hbs. revert bs Hbs. induction (t_rows t1) as [|r l IH]; intros bs H; cbn [mapM] in *; [injection H as <-; reflexivity|]. unbind H. injection H as <-. rewrite E. cbn [bind]. rewrite (IH _ E0). reflexivity. }
      apply keep_picked in Hneg. eapply picked_iff; [|exact Hneg]. intros r Hr. rewrite <- (above_same t1 r N), <- row_oos_false by assumption.
      split; intros G; [rewrite G; reflexivity|]. unbind G. destruct v; [discriminate|exact E0]. }
    exact (proj2 (proj1 (picked_picked (active t) (above_limit oos t) _ _ _ P) Q)).
  Qed.
  Lemma not_oos_inactive : complete_limits oos -> (forall r, In r (t_rows t) -> ~ active t r) -> get_not_oos_nuclides read_csv base (DataFrame t) p = Ok (Table [] []).
  Proof.
    intros C NA. destruct stable_of as (t1 & H1 & RW & IL1). unfold get_not_oos_nuclides, read_OOS. rewrite R, H1. cbn [bind]. pose proof RW as (N & P).
    destruct (t_rows t1) as [|r0 rs] eqn:E; [now rewrite (probe_complete t1 RW C)|]. exfalso. pose proof (or_introl eq_refl : In r0 (r0 :: rs)) as I1. apply (picked_In _ _ _ r0 P) in I1. now apply (NA r0).
  Qed.
  (** No entry for the rest: an exception even if nothing is active. *)
  Lemma inactive_no_default : ~ complete_limits oos -> (forall r, In r (t_rows t) -> ~ active t r) ->
    check_inventory_oos read_csv base (DataFrame t) p = Err ValueError /\ get_not_oos_nuclides read_csv base (DataFrame t) p = Err ValueError.
  Proof.
    intros C NA. destruct stable_of as (t1 & H1 & RW & IL1). unfold check_inventory_oos, get_not_oos_nuclides, read_OOS. rewrite R, H1. cbn [bind]. pose proof RW as (N & P).
    destruct (t_rows t1) as [|r0 rs] eqn:E. 2:{ exfalso. pose proof (or_introl eq_refl : In r0 (r0 :: rs)) as I1. apply (picked_In _ _ _ r0 P) in I1. now apply (NA r0). }
    replace (probe_ok t1 oos) with false.
    2:{ symmetry. unfold probe_ok. destruct (has_col t1 _); [|reflexivity]. destruct (has_col t1 _); [|reflexivity]. cbn [andb]. unfold check_nuclide_oos. pose proof (limits_head oos (lit "Other")) as LO.
        destruct (limits_of oos (lit "Other")) as [|w r]; [reflexivity|]. elim C. eapply limit_named_In. exact LO. }
    replace (Datatypes.length (t_names t1) =? 1) with false; [split; reflexivity|]. symmetry. apply Nat.eqb_neq. rewrite N.
    destruct IL as (_ & (Ia & _) & In_ & _). intros L. destruct (t_names t) as [|a [|b r]]; try discriminate. destruct Ia as [Ia|[]], In_ as [Ib|[]]. rewrite Ia in Ib. discriminate.
  Qed.
End Checks.

(** Both functions agree, whatever the argument. *)
Lemma keep_none {A B} (f : A -> B) (bs : list bool) (l : list A) : List.length bs = List.length l -> keep (map negb bs) (map f l) = [] <-> forallb (fun b => b) bs = true.
Proof.
  revert l. induction bs as [|b bs IH]; intros [|x l] L; try discriminate; [cbn; tauto|]. injection L as L. cbn [map keep forallb]. destruct b; cbn [negb andb]; [now apply IH|]. split; discriminate.
Qed.
Lemma check_iff_none read_csv base inv p : check_inventory_oos read_csv base inv p = Ok true <-> exists t', get_not_oos_nuclides read_csv base inv p = Ok t' /\ t_rows t' = [].
Proof.
  unfold check_inventory_oos, get_not_oos_nuclides. destruct (read_OOS read_csv base p) as [oos|e]; cbn [bind]; [|split; [discriminate|intros (t' & H & _); discriminate]].
  destruct (remove_stable inv) as [t1|e]; cbn [bind]; [|split; [discriminate|intros (t' & H & _); discriminate]].
  destruct (t_rows t1) as [|r0 rs] eqn:E.
  - destruct (_ || _); [|split; [discriminate|intros (t' & H & _); discriminate]]. split; [intros _; now exists (Table [] [])|reflexivity].
  - rewrite <- E. destruct (mapM (row_oos t1 oos) (t_rows t1)) as [bs|e] eqn:M; cbn [bind]; [|split; [discriminate|intros (t' & H & _); discriminate]].
    pose proof (mapM_length _ _ _ M) as L. 
    assert (K : keep (map negb bs) (t_rows (set_col (lit "oos_result") (map CB bs) t1)) = [] <-> forallb (fun b => b) bs = true).
    { unfold set_col. cbn [t_rows]. apply keep_none. rewrite combine_length, map_length. lia. }
    split.
    + intros H. injection H as H. eexists. split; [reflexivity|]. cbn [t_rows]. now apply K.
    + intros (t' & H & H'). injection H as <-. cbn [t_rows] in H'. f_equal. now apply K.
Qed.
Lemma check_false_some read_csv base inv p : check_inventory_oos read_csv base inv p = Ok false <-> exists t', get_not_oos_nuclides read_csv base inv p = Ok t' /\ t_rows t' <> [].
Proof.
  pose proof (check_iff_none read_csv base inv p) as H.
  assert (E : (exists e, check_inventory_oos read_csv base inv p = Err e) <-> (exists e, get_not_oos_nuclides read_csv base inv p = Err e)).
  { unfold check_inventory_oos, get_not_oos_nuclides. destruct (read_OOS read_csv base p); cbn [bind]; [|split; eauto]. destruct (remove_stable inv) as [t1|]; cbn [bind]; [|split; eauto].
    destruct (t_rows t1); [destruct (_ || _); [split; intros (e & X); discriminate|split; eauto]|]. destruct (mapM _ _); cbn [bind]; [split; intros (e & X); discriminate|split; eauto]. }
  destruct (check_inventory_oos read_csv base inv p) as [b|e] eqn:C.
  - destruct (get_not_oos_nuclides read_csv base inv p) as [t'|e] eqn:G; [|destruct E as (_ & E); destruct E; [eauto|discriminate]].
    destruct b.
    + split; [discriminate|]. intros (t2 & H2 & N). injection H2 as <-. elim N. destruct H as (H & _). destruct (H eq_refl) as (t2 & H2 & H3). injection H2 as <-. exact H3.
    + split; [|reflexivity]. intros _. exists t'. split; [reflexivity|]. intros N. destruct H as (_ & H). assert (Ok false = Ok true) by (apply H; eauto). discriminate.
  - split; [discriminate|]. intros (t' & H2 & _). destruct E as (E & _). destruct E; [eauto|]. congruence.
Qed.

(** * find_when_oos *)
Lemma find_when_spec read_csv base ts p n : find_when_oos read_csv base ts p = Ok (Some n) <->
  exists pre inv post, ts = pre ++ (n, inv) :: post /\ check_inventory_oos read_csv base inv default_oos = Ok true /\
    Forall (fun s => check_inventory_oos read_csv base (snd s) default_oos = Ok false) pre.
Proof.
  induction ts as [|[k inv] ts IH]; cbn [find_when_oos].
  - split; [discriminate|]. intros ([|? ?] & inv & post & H & _); discriminate.
  - cbn [fst snd]. destruct (check_inventory_oos read_csv base inv default_oos) as [[|]|e] eqn:E; cbn [bind].
    + split.
      * intros H. injection H as <-. exists [], inv, ts. repeat split; auto.
      * intros ([|s pre] & inv' & post & H & C & F); cbn [app] in H; [injection H as -> -> ->; reflexivity|]. injection H as <- _. apply Forall_inv in F. cbn [snd] in F. congruence.
    + rewrite IH. split.
      * intros (pre & inv' & post & -> & C & F). exists ((k, inv) :: pre), inv', post. repeat split; [exact C|]. now constructor.
      * intros ([|s pre] & inv' & post & H & C & F); cbn [app] in H; [injection H as -> -> ->; congruence|]. injection H as <- ->. exists pre, inv', post. repeat split; [exact C|]. exact (Forall_inv_tail F).
    + split; [discriminate|]. intros ([|s pre] & inv' & post & H & C & F); cbn [app] in H; [injection H as -> -> ->; congruence|]. injection H as <- _. apply Forall_inv in F. cbn [snd] in F. congruence.
Qed.
Lemma find_when_none read_csv base ts p : find_when_oos read_csv base ts p = Ok None <-> Forall (fun s => check_inventory_oos read_csv base (snd s) default_oos = Ok false) ts.
Proof.
  induction ts as [|[k inv] ts IH]; cbn [find_when_oos]; [split; auto|]. cbn [fst snd].
  destruct (check_inventory_oos read_csv base inv default_oos) as [[|]|e] eqn:E; cbn [bind].
  - split; [discriminate|]. intros F. apply Forall_inv in F. cbn [snd] in F. congruence.
  - rewrite IH. split; [intros F; now constructor|apply Forall_inv_tail].
  - split; [discriminate|]. intros F. apply Forall_inv in F. cbn [snd] in F. congruence.
Qed.
Lemma find_when_path read_csv base ts p q : find_when_oos read_csv base ts p = find_when_oos read_csv base ts q.
Proof. induction ts as [|s ts IH]; [reflexivity|]. cbn [find_when_oos]. destruct (check_inventory_oos _ _ _ _) as [[|]|]; cbn [bind]; auto. Qed.

(** * Time units *)
Definition lowercase (c : ascii) : bool := ((97 <=? code c) && (code c <=? 122))%N.
Definition upper_ascii (c : ascii) : bool := ((65 <=? code c) && (code c <=? 90))%N.
Lemma lower_upper c : upper_ascii c = true -> lower_c c = chr (code c + 32).
Proof.
  intros H. assert (G : implb (upper_ascii c) (Ascii.eqb (lower_c c) (chr (code c + 32))) = true) by (clear H; by_ascii c).
  rewrite H in G. now apply Ascii.eqb_eq in G.
Qed.
Lemma lower_other c : lowercase (lower_c c) = true -> upper_ascii c = false -> lower_c c = c.
Proof.
  intros H1 H2. assert (G : implb (lowercase (lower_c c)) (upper_ascii c || Ascii.eqb (lower_c c) c) = true) by (clear H1 H2; by_ascii c).
  rewrite H1, H2 in G. now apply Ascii.eqb_eq in G.
Qed.
Lemma lower_lower c : lowercase c = true -> lower_c c = c.
Proof.
  intros H. assert (G : implb (lowercase c) (Ascii.eqb (lower_c c) c) = true) by (clear H; by_ascii c).
  rewrite H in G. now apply Ascii.eqb_eq in G.
Qed.
Lemma lower_letter a b : lowercase b = true -> lower_c a = b <-> same_letter a b.
Proof.
  intros Hb. unfold same_letter. split.
  - intros <-. destruct (upper_ascii a) eqn:U.
    + right. left. exists (code a). rewrite (lower_upper a U). unfold upper_ascii in U. apply andb_true_iff in U. destruct U as (U1 & U2). apply N.leb_le in U1, U2.
      split; [lia|]. split; [|reflexivity]. unfold chr, code. now rewrite ascii_N_embedding.
    + left. symmetry. now apply lower_other.
  - intros [->|[(n & Hn & -> & ->)|(n & Hn & -> & ->)]].
    + now apply lower_lower.
    + assert (C : code (chr n) = n) by (unfold chr, code; apply N_ascii_embedding; lia). rewrite lower_upper; rewrite ?C; [reflexivity|]. unfold upper_ascii. rewrite C. apply andb_true_iff. split; apply N.leb_le; lia.
    + exfalso. assert (C : code (chr n) = n) by (unfold chr, code; apply N_ascii_embedding; lia). unfold lowercase in Hb. rewrite C in Hb. apply andb_true_iff in Hb. destruct Hb as (H & _). apply N.leb_le in H. lia.
Qed.
Lemma lower_spells s w : forallb lowercase (lit w) = true -> str_eqb (lower s) (lit w) = true <-> spells s w.
Proof.
  unfold spells. rewrite str_eqb_eq. generalize (lit w). clear w. intros w. revert w. induction s as [|c s IH]; intros [|d w] F; cbn [lower map].
  - split; [constructor|reflexivity].
  - split; [discriminate|]. intros H; inversion H.
  - split; [discriminate|]. intros H; inversion H.
  - cbn [forallb] in F. apply andb_true_iff in F. destruct F as (Fd & Fw). split.
    + intros H. injection H as H1 H2. constructor; [now apply lower_letter|]. now apply IH.
    + intros H. inversion H; subst. f_equal; [now apply lower_letter|]. now apply IH.
Qed.
