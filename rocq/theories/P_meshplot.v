(** Lemmas about the figures of meshtal_analysis. *)
From Coq Require Import Lia.
From Verif Require Import PyBase PyFacts PyFloat SpecStr PyFrame M_mesh M_meshplot SpecMesh SpecMeshplot P_mesh.

Lemma inc_tail x l : increasing (x :: l) -> increasing l /\ Forall (fun y => x < y) l.
Proof.
  revert x. induction l as [|y l IH]; intros x H; [split; constructor|]. inversion H as [| |? ? ? L I]; subst. split; [exact I|].
  destruct (IH y I) as (_ & F). constructor; [exact L|]. eapply Forall_impl; [|exact F]. cbv beta. intros z Hz. lia.
Qed.
Lemma inc_unique l m : increasing l -> increasing m -> (forall i, In i l <-> In i m) -> l = m.
Proof.
  revert m. induction l as [|x l IH]; intros [|y m] Hl Hm E; [reflexivity|destruct (proj2 (E y) (or_introl eq_refl))|destruct (proj1 (E x) (or_introl eq_refl))|].
  apply inc_tail in Hl. apply inc_tail in Hm. destruct Hl as (Il & Fl), Hm as (Im & Fm). rewrite Forall_forall in Fl, Fm.
  assert (X : x = y).
  { destruct (proj1 (E x) (or_introl eq_refl)) as [->|A]; [reflexivity|]. destruct (proj2 (E y) (or_introl eq_refl)) as [->|B]; [reflexivity|].
    apply Fm in A. apply Fl in B. lia. }
  subst y. f_equal. apply IH; [exact Il|exact Im|]. intros i. split; intros I.
  - destruct (proj1 (E i) (or_intror I)) as [<-|A]; [apply Fl in I; lia|exact A].
  - destruct (proj2 (E i) (or_intror I)) as [<-|A]; [apply Fm in I; lia|exact A].
Qed.
Lemma selected_unique P Q n l m : selected P n l -> selected Q n m -> (forall i, i < n -> P i <-> Q i) -> l = m.
Proof.
  intros (A & B) (C & D) E. apply inc_unique; [exact A|exact C|]. intros i. rewrite B, D. split; intros (L & X); (split; [exact L|]); apply (E i L); exact X.
Qed.

(** the columns of a complete slice *)
Lemma complete_columns d P Q ci cj cval xs ys vals : (forall r, r < n_rows d -> P r <-> Q r) -> complete d Q ci cj xs ys ->
  Forall2 (fun x vs => line_entries d cval (fun r => P r /\ entry_is ci r x) vs) xs vals ->
  Forall2 (fun x vs => Forall2 (fun y v => exists r, r < n_rows d /\ P r /\ entry_is ci r x /\ entry_is cj r y /\ nth_error (c_vals cval) r = Some v) ys vs) xs vals.
Proof.
  intros PQ C F. induction F as [|x vs xs vals (rows & S & E) F IH]; constructor.
  - destruct (C x (or_introl eq_refl)) as (rows' & S' & E').
    assert (X : rows' = rows) by (eapply selected_unique; [exact S'|exact S|]; cbv beta; intros r L; rewrite (PQ r L); tauto). subst rows'.
    destruct S as (_ & S). assert (G : forall r, In r rows -> r < n_rows d /\ P r /\ entry_is ci r x) by (intros r I; apply S in I; tauto).
    clear -E E' G. revert ys E'. unfold entries in E. induction E as [|r v rows vs H E IH]; intros ys E'; inversion E' as [|? y ? ys' H' E'']; subst; constructor.
    + exists r. destruct (G r (or_introl eq_refl)) as (A & B & D). auto.
    + apply IH; [intros q I; apply G; now right|exact E''].
  - apply IH. intros z I. apply C. now right.
Qed.
Lemma F2_len {A B} (R : A -> B -> Prop) l m : Forall2 R l m -> List.length l = List.length m.
Proof. induction 1; cbn; congruence. Qed.

Lemma F2_impl {A B} (R S : A -> B -> Prop) l m : (forall x y, R x y -> S x y) -> Forall2 R l m -> Forall2 S l m.
Proof. intros H. induction 1; constructor; auto. Qed.
Lemma nearest_from_in value best l : In (nearest_from value best l) (best :: l).
Proof.
  revert best. induction l as [|x l IH]; intros best; [now left|]. cbn [nearest_from].
  destruct (flt _ _); [destruct (IH x) as [<-|H]; cbn [In]; auto|destruct (IH best) as [<-|H]; cbn [In]; auto].
Qed.
Lemma nearest_in value l x : find_nearest_mid value l = Ok x -> In x l.
Proof. destruct l as [|a l]; [discriminate|]. cbn [find_nearest_mid]. intros H. injection H as <-. apply nearest_from_in. Qed.
Lemma lengths_differ {A} (l : list (list A)) a b : In a l -> In b l -> List.length a <> List.length b -> same_lengths l = false.
Proof.
  intros Ia Ib N. destruct (same_lengths l) eqn:E; [|reflexivity]. elim N. clear N. destruct l as [|c l]; [destruct Ia|]. cbn [same_lengths] in E.
  rewrite forallb_forall in E. assert (G : forall x, In x (c :: l) -> List.length x = List.length c).
  { intros x [<-|I]; [reflexivity|]. apply E in I. now apply Nat.eqb_eq in I. }
  rewrite (G a Ia), (G b Ib). reflexivity.
Qed.

Section Slice.
Variables (m : mesh) (value : float) (p : str) (i j v : axis) (erg time : option float) (d : frame) (ci cj cn cval cerr : col).
Hypothesis (Hp : plane_of p i j v) (Hd : data m = Df d) (Ht : table d)
  (He : has_if_given d erg "Energy") (Hti : has_if_given d time "Time")
  (Hi : has d (axis_name i) ci) (Hj : has d (axis_name j) cj) (Hn : has d (axis_name v) cn)
  (Hv : has d "value" cval) (Hr : has d "rel_err" cerr).

Lemma slice_drawn lmin lmax sl mid : extract_slice m value p erg time = Ok sl -> sl_value sl = mid ->
  axis_mids m i <> [] -> axis_mids m j <> [] ->
  complete d (in_slice d erg time cn mid) ci cj (axis_mids m i) (axis_mids m j) ->
  exists cs, plot_slice m value p lmin lmax false erg time = Ok (sl, [Panel (axis_mids m i) (axis_mids m j) cs lmin lmax]) /\
    Forall2 (fun x vs => Forall2 (fun y v => exists r, in_slice d erg time cn mid r /\ entry_is ci r x /\ entry_is cj r y /\
      nth_error (c_vals cval) r = Some v) (axis_mids m j) vs) (axis_mids m i) cs.
Proof.
  intros E M Ni Nj C.
  destruct (extract_slice_rows m value p i j v erg time d ci cj cn cval cerr sl Hp Hd Ht He Hti Hi Hj Hn Hv Hr E) as (_ & Ei & Ej & Fv & _).
  rewrite M, Ei in Fv.
  assert (PQ : forall r, r < n_rows d -> (et_filter d erg time r /\ entry_is cn r mid) <-> in_slice d erg time cn mid r) by (intros r L; unfold in_slice; tauto).
  pose proof (complete_columns d _ _ ci cj cval _ _ _ PQ C Fv) as G.
  exists (sl_values sl). split.
  - unfold plot_slice. rewrite E. cbn [bind]. unfold create_plot. rewrite Ei, Ej. pose proof (F2_len _ _ _ G) as L.
    destruct G as [|x vs xs vals G1 G]; [now elim Ni|]. pose proof (F2_len _ _ _ G1) as L1. rewrite L, L1, !Nat.eqb_refl. cbn [andb orb].
    destruct (axis_mids m j); [now elim Nj|]. reflexivity.
  - eapply F2_impl; [|exact G]. cbv beta. intros x vs H. eapply F2_impl; [|exact H]. cbv beta. intros y w (r & L & A & B & D & N).
    exists r. unfold in_slice. tauto.
Qed.
Lemma errors_not_drawn lmin lmax sl : (forall x r, In x (axis_mids m i) -> ~ entry_is cj r x) -> axis_mids m j <> [] -> axis_mids m i <> [] ->
  extract_slice m value p erg time = Ok sl -> plot_slice m value p lmin lmax true erg time = Err TypeError.
Proof.
  intros Dis Nj Ni E. pose proof (extract_slice_errors_lost m value p i j v erg time d ci cj cn cval cerr sl Hp Hd Ht He Hti Hi Hj Hn Hv Hr Dis E) as F.
  destruct (extract_slice_rows m value p i j v erg time d ci cj cn cval cerr sl Hp Hd Ht He Hti Hi Hj Hn Hv Hr E) as (_ & Ei & Ej & Fv & Fe).
  unfold plot_slice. rewrite E. cbn [bind]. pose proof (F2_len _ _ _ Fv) as Lv. pose proof (F2_len _ _ _ Fe) as Le.
  unfold create_plot. rewrite Ei, Ej in *. destruct (sl_values sl) as [|c vs]; [destruct (axis_mids m i); [now elim Ni|discriminate]|].
  destruct ((_ && _) || (_ && _))%bool; [|reflexivity].
  destruct (axis_mids m j) as [|y ys]; [now elim Nj|]. cbn [bind].
  destruct F as [|e es -> F]; [destruct (axis_mids m i); [now elim Ni|discriminate]|]. cbn [List.length] in *.
  rewrite Le. cbn [Nat.eqb]. rewrite Bool.andb_false_r. cbn [orb]. destruct (Nat.eqb_spec (List.length es) (S (List.length es))); [lia|]. reflexivity.
Qed.
Lemma ragged x1 x2 : In x1 (axis_mids m i) -> In x2 (axis_mids m i) ->
  (forall mid, In mid (axis_mids m v) -> exists r, in_slice d erg time cn mid r /\ entry_is cj r x1) ->
  (forall r, ~ entry_is cj r x2) -> extract_slice m value p erg time = Err ValueError.
Proof.
  intros I1 I2 R1 R2.
  destruct (find_nearest_mid value (axis_mids m v)) as [mid|e] eqn:F.
  - destruct (has_if_given_opt _ _ _ He) as (ce & He'). destruct (has_if_given_opt _ _ _ Hti) as (ct & Hti').
    rewrite (extract_slice_eq m value p i j v erg time d ce ct ci cj cn cval cerr mid Hp Hd Ht He' Hti' Hi Hj Hn Hv Hr F).
    cbv zeta. set (sel := fun r => _ && eq_at cn mid r).
    assert (HP : forall r, r < n_rows d -> sel r = true <-> et_filter d erg time r /\ entry_is cn r mid).
    { intros r Hr'. unfold sel. rewrite andb_true_iff, (et_filter_spec d erg time ce ct r Ht He' Hti' Hr').
      rewrite eq_at_spec; [reflexivity|]. rewrite (col_length d _ cn Ht Hn). exact Hr'. }
    assert (IM : In mid (axis_mids m v)) by (apply (nearest_in value); exact F).
    assert (S : same_lengths (map (slice_col sel d cj cerr) (axis_mids m i)) = false); [|rewrite S, Bool.andb_false_r; reflexivity].
    apply (lengths_differ _ (slice_col sel d cj cerr x1) (slice_col sel d cj cerr x2)); [apply in_map; exact I1|apply in_map; exact I2|].
    destruct (slice_col_spec sel _ d cj cerr x1 (axis_name j) "rel_err" Ht Hj Hr HP) as (r1 & (_ & S1) & E1).
    destruct (slice_col_spec sel _ d cj cerr x2 (axis_name j) "rel_err" Ht Hj Hr HP) as (r2 & (_ & S2) & E2).
    apply F2_len in E1, E2. rewrite <- E1, <- E2.
    assert (N2 : r2 = []) by (destruct r2 as [|q r2]; [reflexivity|]; destruct (proj1 (S2 q) (or_introl eq_refl)) as (_ & _ & X); elim (R2 q X)).
    destruct (R1 mid IM) as (q & (L & Q1 & Q2) & Q3). assert (X : In q r1) by (apply S1; auto). subst r2. destruct r1; [destruct X|discriminate].
  - unfold extract_slice.
    destruct (match truthy erg, truthy time with None, None => Ok None | _, _ => _ end) as [o|e'] eqn:O.
    + cbn [bind]. rewrite (plane_axes_spec m p i j v Hp). cbn [bind]. rewrite F. cbn [bind].
      destruct (axis_mids m v); [cbn in F; congruence|discriminate].
    + destruct (has_if_given_opt _ _ _ He) as (ce & He'). destruct (has_if_given_opt _ _ _ Hti) as (ct & Hti').
      destruct (slice_data_take m erg time d ce ct Hd Ht He' Hti') as [(X & _)|X]; rewrite X in O; discriminate.
Qed.
End Slice.
