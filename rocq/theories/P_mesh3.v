(** Mesh tally tools: conversion of the rows, and whole files. *)
From Coq Require Import Floats.SpecFloat Lia.
From Verif Require Import PyBase PyFacts PyFloat SpecStr TextFacts PyFrame M_mesh SpecMesh P_mesh P_mesh2.

Section Convert.
Variable to_num : str -> res float.

Lemma width_spec n rows : Forall (fun r => length r <= n) rows -> Exists (fun r : list str => length r = n) rows ->
  width rows = n.
Proof.
  unfold width. intros Hle Hex.
  assert (A : fold_right Nat.max 0 (map (@length str) rows) <= n).
  { clear Hex. induction Hle; cbn [map fold_right]; lia. }
  assert (B : n <= fold_right Nat.max 0 (map (@length str) rows)).
  { clear Hle A. induction Hex; cbn [map fold_right]; lia. }
  lia.
Qed.
Lemma near32_fits v : near32 v = true <-> fits32 v.
Proof.
  unfold near32, fits32. destruct v as [s|s| |s m e]; cbn [is_nan_f is_finite_f orb andb].
  - rewrite orb_true_iff. intuition congruence.
  - split; [left; reflexivity|]. intros _. destruct s; reflexivity.
  - intuition congruence.
  - rewrite orb_true_iff. intuition congruence.
Qed.
Definition stored (s : bool) (v : float) : float := if s then f32 v else v.
Lemma downcast_spec vs : exists s, downcast vs = Col s (map (stored s) vs) /\ (s = true <-> Forall fits32 vs).
Proof.
  unfold downcast. destruct (forallb near32 vs) eqn:E.
  - exists true. split; [reflexivity|]. split; [|reflexivity]. intros _. apply Forall_forall. intros v Hv. apply near32_fits.
    rewrite forallb_forall in E. auto.
  - exists false. unfold stored. rewrite map_id. split; [reflexivity|]. split; [discriminate|]. intros F.
    rewrite Forall_forall in F. rewrite <- E. apply forallb_forall. intros v Hv. apply near32_fits. auto.
Qed.
Lemma cell_num_spec r j v : cell_num to_num (nth_error r j) = Ok v <-> cell to_num r j v.
Proof. unfold cell_num, cell. destruct (nth_error r j); [reflexivity|]. split; [intros [= <-]; reflexivity|intros ->; reflexivity]. Qed.
(** Cells of some rows, given by their positions. *)
Lemma cells_ok j rows (is : list nat) :
  (forall i, In i is -> exists r v, nth_error rows i = Some r /\ cell to_num r j v) ->
  exists vs, mapM (cell_num to_num) (map (fun i => nth_error (nth i rows []) j) is) = Ok vs /\
    Forall2 (fun i v => exists r, nth_error rows i = Some r /\ cell to_num r j v) is vs.
Proof.
  induction is as [|i is IH]; intros H; [exists []; split; [reflexivity|constructor]|].
  destruct (H i (or_introl eq_refl)) as (r & v & Hr & Hv).
  destruct IH as (vs & Hvs & F); [intros k Hk; apply H; right; exact Hk|].
  exists (v :: vs). cbn [map mapM]. rewrite (nth_error_nth _ _ _ Hr).
  rewrite (proj2 (cell_num_spec r j v) Hv), Hvs. split; [reflexivity|]. constructor; eauto.
Qed.
Lemma map_nth_seq {A B} (f : A -> B) (def : A) rows : map (fun i => f (nth i rows def)) (seq 0 (length rows)) = map f rows.
Proof.
  induction rows as [|r rows IH]; [reflexivity|]. cbn [length seq map nth]. f_equal.
  rewrite <- seq_shift, map_map. exact IH.
Qed.
Lemma text_col_seq j rows : text_col j rows = map (fun i => nth_error (nth i rows []) j) (seq 0 (length rows)).
Proof. unfold text_col. symmetry. apply (map_nth_seq (fun r => nth_error r j) []). Qed.
Definition col_holds (j : nat) (rows : list (list str)) (is : list nat) (c : col) : Prop :=
  Forall2 (fun i y => exists r v, nth_error rows i = Some r /\ cell to_num r j v /\
             y = (if c_single c then f32 v else v) /\ (c_single c = true -> fits32 v)) is (c_vals c) /\
  ((forall r v, In r rows -> cell to_num r j v -> fits32 v) -> c_single c = true).
Lemma downcast_holds j rows is vs :
  Forall2 (fun i v => exists r, nth_error rows i = Some r /\ cell to_num r j v) is vs -> col_holds j rows is (downcast vs).
Proof.
  intros F. destruct (downcast_spec vs) as (s & -> & Hs). unfold col_holds. cbn [c_single c_vals]. split.
  2:{ intros H. apply Hs. clear Hs. induction F as [|i v is vs (r & Hr & Hv) F IH]; constructor; [|exact IH].
      exact (H r v (nth_error_In _ _ Hr) Hv). }
  assert (Hs' : forall v, In v vs -> s = true -> fits32 v).
  { intros v Hv E. apply Hs in E. rewrite Forall_forall in E. auto. }
  clear Hs. induction F as [|i v is vs (r & Hr & Hv) F IH]; cbn [map]; constructor.
  - exists r, v. repeat split; auto. intros E. apply Hs'; [left; reflexivity|exact E].
  - apply IH. intros w Hw. apply Hs'. right. exact Hw.
Qed.
Lemma num_col_ok j rows : (forall r, In r rows -> exists v, cell to_num r j v) ->
  exists c, num_col to_num j rows = Ok c /\ col_holds j rows (seq 0 (length rows)) c.
Proof.
  intros H. unfold num_col. rewrite text_col_seq.
  destruct (cells_ok j rows (seq 0 (length rows))) as (vs & E & F).
  { intros i Hi. apply in_seq in Hi. destruct (nth_error rows i) as [r|] eqn:Er.
    - destruct (H r (nth_error_In _ _ Er)) as (v & Hv). eauto.
    - apply nth_error_None in Er. lia. }
  rewrite E. cbn [bind]. eexists. split; [reflexivity|]. apply downcast_holds. exact F.
Qed.
Definition keep_row (k : kind) (r : list str) : bool :=
  match k with ByTime => negb (dropped (nth_error r 0)) | _ => true end.
Lemma keep_row_spec k r : keep_row k r = true <-> ~ left_out k r.
Proof.
  unfold left_out. destruct k; cbn [keep_row]; try (split; [intros _ [[=] _]|reflexivity]).
  destruct r as [|w ws]; cbn [nth_error dropped]; [split; [intros _ (_ & w & ws & [=] & _)|reflexivity]|].
  rewrite negb_true_iff, orb_false_iff, !str_eqb_neq. split.
  - intros [A B] (_ & w' & ws' & [= <- <-] & [C|C]); contradiction.
  - intros H. split; intros E; apply H; split; eauto 6.
Qed.
Definition kept_rows (k : kind) (rows : list (list str)) : list nat :=
  filter (fun i => keep_row k (nth i rows [])) (seq 0 (length rows)).
Lemma kept_rows_selected k rows :
  selected (fun i => exists r, nth_error rows i = Some r /\ ~ left_out k r) (length rows) (kept_rows k rows).
Proof.
  apply selected_filter. intros i Hi. rewrite keep_row_spec.
  pose proof (nth_error_nth' rows [] Hi) as E. split; [eauto|]. intros (r & Hr & H). congruence.
Qed.
(** A column restricted to some rows. *)
Lemma compress_filter {A} (p : nat -> bool) (l : list A) (def : A) : forall n (k : nat), length l = n ->
  compress (map p (seq k n)) l = map (fun i => nth (i - k) l def) (filter p (seq k n)).
Proof.
  induction l as [|x l IH]; intros n k Hn; subst n; [reflexivity|]. cbn [length seq map compress filter].
  rewrite (IH _ (S k) eq_refl).
  assert (E : map (fun i => nth (i - S k) l def) (filter p (seq (S k) (length l)))
            = map (fun i => nth (i - k) (x :: l) def) (filter p (seq (S k) (length l)))).
  { apply map_ext_in. intros i Hi. apply filter_In in Hi. destruct Hi as [Hi _]. apply in_seq in Hi.
    replace (i - k) with (S (i - S k)) by lia. reflexivity. }
  rewrite E. destruct (p k); [|reflexivity]. cbn [map]. rewrite Nat.sub_diag. reflexivity.
Qed.
Lemma holds_compress j rows c p : col_holds j rows (seq 0 (length rows)) c ->
  col_holds j rows (filter p (seq 0 (length rows))) (col_compress (map p (seq 0 (length rows))) c).
Proof.
  unfold col_holds, col_compress. cbn [c_single c_vals]. intros [F H]. split; [|exact H]. clear H.
  revert F. generalize (c_vals c). generalize (seq 0 (length rows)).
  induction 1 as [|i y is ys H F IH]; cbn [map compress filter]; [constructor|].
  destruct (p i); [constructor; assumption|assumption].
Qed.
Lemma holds_length j rows is c : col_holds j rows is c -> length (c_vals c) = length is.
Proof. unfold col_holds. intros [H _]. induction H; cbn; congruence. Qed.
Definition kind_ctype (k : kind) : str :=
  match k with ByEnergy => lit "6col_e" | ByTime => lit "6col_t" | Plain => lit "5col" end.
Lemma spatial_cell k rows r j : readable to_num k rows -> In r rows -> (j <> 0 \/ k <> ByTime) -> exists v, cell to_num r j v.
Proof.
  intros (_ & _ & H) Hr Hj. unfold cell. destruct (nth_error r j) as [w|] eqn:E; [|eauto].
  apply (H r j w Hr E). intros [-> _]. tauto.
Qed.
Lemma convert_ok k m rows : ctype m = Some (kind_ctype k) -> data m = Raw rows -> readable to_num k rows ->
  exists d, convert_to_df to_num m = Ok d /\ frame_of to_num k rows d.
Proof.
  intros Hc Hd HR. pose proof HR as (Hle & Hex & _).
  unfold convert_to_df. rewrite Hc, Hd. unfold has_ctype. rewrite Hc.
  assert (C1 : columns_of (Some (kind_ctype k)) = Some (col_names k)) by (destruct k; reflexivity).
  assert (C2 : str_eqb (kind_ctype k) (lit "5col") = match k with Plain => true | _ => false end) by (destruct k; reflexivity).
  assert (C3 : str_eqb (kind_ctype k) (lit "6col_e") = match k with ByEnergy => true | _ => false end) by (destruct k; reflexivity).
  assert (C4 : str_eqb (kind_ctype k) (lit "6col_t") = match k with ByTime => true | _ => false end) by (destruct k; reflexivity).
  rewrite C1, C2, C3, C4.
  destruct rows as [|r0 rows0].
  { destruct k; cbn; (eexists; split; [reflexivity|]);
      (split; [split; [constructor|intros i; cbn; split; [tauto|lia]]|split; [reflexivity|]]);
      intros j c Hj; repeat (destruct j as [|j]; [injection Hj as <-; split; [constructor|reflexivity]|]); destruct j; discriminate. }
  destruct Hex as [Hex|Hex]; [discriminate|].
  assert (W : width (r0 :: rows0) = n_cols k) by (apply width_spec; assumption).
  set (rows := r0 :: rows0) in *. clearbody rows.
  assert (SP : forall j, (j <> 0 \/ k <> ByTime) -> exists c, num_col to_num j rows = Ok c /\ col_holds j rows (seq 0 (length rows)) c).
  { intros j Hj. apply num_col_ok. intros r Hr. exact (spatial_cell k rows r j HR Hr Hj). }
  destruct k.
  - (* energy *)
    destruct (SP 0) as (c0 & E0 & H0); [right; discriminate|].
    destruct (SP 1) as (c1 & E1 & H1); [right; discriminate|].
    destruct (SP 2) as (c2 & E2 & H2); [right; discriminate|].
    destruct (SP 3) as (c3 & E3 & H3); [right; discriminate|].
    destruct (SP 4) as (c4 & E4 & H4); [right; discriminate|].
    destruct (SP 5) as (c5 & E5 & H5); [right; discriminate|].
    rewrite W. cbn [n_cols col_names map length Nat.eqb negb Nat.add]. rewrite E0, E1, E2, E3, E4, E5. cbn [bind].
    eexists. split; [reflexivity|]. split; [|split].
    + cbn [f_index]. split; [apply increasing_seq|]. intros i. rewrite in_seq. split.
      * intros Hi. split; [lia|]. destruct (nth_error rows i) as [r|] eqn:E; [|apply nth_error_None in E; lia].
        exists r. split; [reflexivity|]. intros [[=] _].
      * intros [Hi _]. lia.
    + reflexivity.
    + intros j c Hj. cbn [f_index f_cols map snd] in *.
      do 6 (destruct j as [|j]; [injection Hj as <-; assumption|]). destruct j; discriminate.
  - (* time *)
    destruct (SP 1) as (c1 & E1 & H1); [left; discriminate|].
    destruct (SP 2) as (c2 & E2 & H2); [left; discriminate|].
    destruct (SP 3) as (c3 & E3 & H3); [left; discriminate|].
    destruct (SP 4) as (c4 & E4 & H4); [left; discriminate|].
    destruct (SP 5) as (c5 & E5 & H5); [left; discriminate|].
    rewrite W. cbn [n_cols col_names map length Nat.eqb negb Nat.add]. rewrite E1, E2, E3, E4, E5. cbn [bind].
    set (p := fun i => keep_row ByTime (nth i rows [])).
    assert (K : map (fun c => negb (dropped c)) (text_col 0 rows) = map p (seq 0 (length rows))).
    { rewrite text_col_seq, map_map. reflexivity. }
    rewrite K.
    assert (KT : compress (map p (seq 0 (length rows))) (text_col 0 rows)
               = map (fun i => nth_error (nth i rows []) 0) (kept_rows ByTime rows)).
    { rewrite (compress_filter p (text_col 0 rows) None (length rows) 0) by (unfold text_col; apply map_length).
      unfold kept_rows. apply map_ext_in. intros i Hi. apply filter_In in Hi. destruct Hi as [Hi _]. apply in_seq in Hi.
      rewrite Nat.sub_0_r. unfold text_col.
      rewrite (nth_indep _ None ((fun r : list str => nth_error r 0) [])) by (rewrite map_length; lia).
      apply (map_nth (fun r : list str => nth_error r 0) rows [] i). }
    rewrite KT.
    destruct (cells_ok 0 rows (kept_rows ByTime rows)) as (vs & Evs & Fvs).
    { intros i Hi. pose proof (proj1 (proj2 (kept_rows_selected ByTime rows) i) Hi) as (Hlt & r & Hr & Hk).
      exists r. destruct HR as (_ & _ & HR). unfold cell. destruct (nth_error r 0) as [w|] eqn:Ew; [|eauto].
      destruct (HR r 0 w (nth_error_In _ _ Hr) Ew) as (v & Hv); [intros F; contradiction|]. exists v. auto. }
    rewrite Evs. cbn [bind]. eexists. split; [reflexivity|]. split; [|split].
    + cbn [f_index frame_filter]. rewrite (compress_filter p (seq 0 (length rows)) 0 (length rows) 0) by apply seq_length.
      assert (Eix : map (fun i => nth (i - 0) (seq 0 (length rows)) 0) (filter p (seq 0 (length rows))) = kept_rows ByTime rows).
      { unfold kept_rows. fold p. rewrite <- (map_id (filter p _)) at 2. apply map_ext_in. intros i Hi. apply filter_In in Hi. destruct Hi as [Hi _].
        apply in_seq in Hi. rewrite seq_nth by lia. lia. }
      rewrite Eix. apply kept_rows_selected.
    + reflexivity.
    + assert (Eix : compress (map p (seq 0 (length rows))) (seq 0 (length rows)) = filter p (seq 0 (length rows))).
      { generalize (seq 0 (length rows)). intros l. induction l as [|a l IH]; [reflexivity|]. cbn [map compress filter].
        destruct (p a); congruence. }
      intros j c Hj. cbn [f_index f_cols map snd fst frame_filter] in *. rewrite Eix.
      destruct j as [|j]; [injection Hj as <-; apply downcast_holds; exact Fvs|].
      do 5 (destruct j as [|j]; [injection Hj as <-; apply holds_compress; assumption|]). destruct j; discriminate.
  - (* plain *)
    destruct (SP 0) as (c0 & E0 & H0); [right; discriminate|].
    destruct (SP 1) as (c1 & E1 & H1); [right; discriminate|].
    destruct (SP 2) as (c2 & E2 & H2); [right; discriminate|].
    destruct (SP 3) as (c3 & E3 & H3); [right; discriminate|].
    destruct (SP 4) as (c4 & E4 & H4); [right; discriminate|].
    rewrite W. cbn [n_cols col_names map length Nat.eqb negb Nat.add]. rewrite E0, E1, E2, E3, E4. cbn [bind].
    eexists. split; [reflexivity|]. split; [|split].
    + cbn [f_index]. split; [apply increasing_seq|]. intros i. rewrite in_seq. split.
      * intros Hi. split; [lia|]. destruct (nth_error rows i) as [r|] eqn:E; [|apply nth_error_None in E; lia].
        exists r. split; [reflexivity|]. intros [[=] _].
      * intros [Hi _]. lia.
    + reflexivity.
    + intros j c Hj. cbn [f_index f_cols map snd] in *.
      do 5 (destruct j as [|j]; [injection Hj as <-; assumption|]). destruct j; discriminate.
Qed.
End Convert.

(** * Files *)
Definition raw_of (m0 : mesh) (d : mesh_desc) (m : mesh) : Prop :=
  exists xs ys zs, numbers (d_x d) xs /\ numbers (d_y d) ys /\ numbers (d_z d) zs /\ m = filled m0 d xs ys zs.
Lemma raw_of_ex m0 d : bounds_ok d -> exists m, raw_of m0 d m.
Proof. intros (xs & ys & zs & Hx & Hy & Hz). exists (filled m0 d xs ys zs), xs, ys, zs. auto. Qed.
Lemma raw_of_head m0 d m : raw_of m0 d m -> mesh_head d m.
Proof.
  intros (xs & ys & zs & Hx & Hy & Hz & ->). unfold mesh_head, filled.
  cbn [idnum ptype x_bounds y_bounds z_bounds e_bounds t_bounds x_mids y_mids z_mids].
  rewrite !(numbers_mids _ _ Hx), !(numbers_mids _ _ Hy), !(numbers_mids _ _ Hz). repeat split; reflexivity.
Qed.
Lemma raw_of_data m0 d m : raw_of m0 d m -> data m = Raw (d_rows d) /\ ctype m = ctype_for (d_kind d) (ctype m0).
Proof. intros (xs & ys & zs & Hx & Hy & Hz & ->). split; reflexivity. Qed.

Lemma read_more num ls ds : mesh_blocks ls ds -> Forall bounds_ok ds ->
  (forall d, In d ds -> forall d', In d' ds -> d = d' -> selects num (d_num d) = false) ->
  exists rs, Forall2 (raw_of new_mesh) ds rs /\
    forall m ms, read_lines num ls true false m ms = Ok (All (ms ++ m :: rs)).
Proof.
  intros Hb Hok Hsel. induction Hb as [|b d ls ds Hm Hb IH].
  - exists []. split; [constructor|]. intros m ms. reflexivity.
  - inversion Hok; subst. destruct IH as (rs & F & E); [assumption|intros x Hx y Hy; apply Hsel; right; assumption|].
    destruct H1 as (xs & ys & zs & Hx & Hy & Hz).
    exists (filled new_mesh d xs ys zs :: rs). split.
    + constructor; [exists xs, ys, zs; auto|exact F].
    + intros m ms. rewrite (read_next num b d ls m ms xs ys zs Hm Hx Hy Hz).
      rewrite (Hsel d (or_introl eq_refl) d (or_introl eq_refl) eq_refl), E, <- app_assoc. reflexivity.
Qed.
Definition not_selected (num : option Z) (ds : list mesh_desc) : Prop :=
  forall d, In d ds -> num <> Some (d_num d).
Lemma not_selected_false num ds d : not_selected num ds -> In d ds -> selects num (d_num d) = false.
Proof.
  intros H Hd. specialize (H d Hd). unfold selects. destruct num as [k|]; [|reflexivity].
  apply Z.eqb_neq. congruence.
Qed.
Lemma read_all num lines ds : mesh_file lines ds -> Forall bounds_ok ds ->
  not_selected num (removelast ds) ->
  exists d ds' m rs, ds = d :: ds' /\ raw_of first_mesh d m /\ Forall2 (raw_of new_mesh) ds' rs /\
    read_lines num lines false false first_mesh [] = Ok (All (m :: rs)).
Proof.
  intros (g & ls & -> & Hg & Hb & Hne) Hok Hsel. destruct Hb as [|b d ls ds Hm Hb]; [congruence|].
  inversion Hok as [|? ? Hd Hds]; subst. destruct Hd as (xs & ys & zs & Hx & Hy & Hz).
  exists d, ds, (filled first_mesh d xs ys zs).
  rewrite (read_gap num g _ false first_mesh [] Hg), (read_first num b d ls xs ys zs Hm Hx Hy Hz).
  enough (G : forall ls ds, mesh_blocks ls ds -> Forall bounds_ok ds -> forall d0, not_selected num (removelast (d0 :: ds)) ->
    exists rs, Forall2 (raw_of new_mesh) ds rs /\
      forall m ms, read_lines num ls true (selects num (d_num d0)) m ms = Ok (All (ms ++ m :: rs))).
  { destruct (G ls ds Hb Hds d Hsel) as (rs & F & E). exists rs. split; [reflexivity|].
    split; [exists xs, ys, zs; auto|]. split; [exact F|]. apply (E _ []). }
  clear. intros ls ds Hb. induction Hb as [|b d ls ds Hm Hb IH]; intros Hok d0 Hsel.
  - exists []. split; [constructor|]. intros m ms. reflexivity.
  - inversion Hok as [|? ? Hd Hds]; subst. destruct Hd as (xs & ys & zs & Hx & Hy & Hz).
    destruct (IH Hds d) as (rs & F & E).
    { intros y Hy'. apply Hsel. cbn [removelast]. right. exact Hy'. }
    exists (filled new_mesh d xs ys zs :: rs). split; [constructor; [exists xs, ys, zs; auto|exact F]|].
    intros m ms. rewrite (not_selected_false num _ d0 Hsel) by (left; reflexivity).
    rewrite (read_next num b d ls m ms xs ys zs Hm Hx Hy Hz), E, <- app_assoc. reflexivity.
Qed.
Lemma mesh_blocks_app ds1 : forall ls d ds2, mesh_blocks ls (ds1 ++ d :: ds2) ->
  exists l1 b l2, ls = l1 ++ b ++ l2 /\ mesh_blocks l1 ds1 /\ mesh_lines b d /\ mesh_blocks l2 ds2.
Proof.
  induction ds1 as [|e ds1 IH]; intros ls d ds2 H; cbn [app] in H; inversion H; subst.
  - exists [], b, ls0. repeat split; [constructor|assumption|assumption].
  - destruct (IH _ _ _ H4) as (l1 & b' & l2 & -> & A & B & C). exists (b ++ l1), b', l2.
    rewrite <- app_assoc. repeat split; [constructor; assumption|assumption|assumption].
Qed.
(** Selecting a mesh that is followed by another one. *)
Lemma read_selected lines ds1 d d2 ds2 : mesh_file lines (ds1 ++ d :: d2 :: ds2) -> Forall bounds_ok (ds1 ++ [d]) ->
  not_selected (Some (d_num d)) ds1 ->
  exists m m0, raw_of m0 d m /\ read_lines (Some (d_num d)) lines false false first_mesh [] = Ok (One m).
Proof.
  intros (g & ls & -> & Hg & Hb & _) Hok Hsel. rewrite (read_gap _ g) by exact Hg.
  assert (S1 : selects (Some (d_num d)) (d_num d) = true) by apply Z.eqb_refl.
  destruct ds1 as [|e ds1].
  - cbn [app] in *. inversion Hb as [|b ? ls0 ? Hm Hb2]; subst. inversion Hb2 as [|b2 ? ls2 ? Hm2 Hb3]; subst.
    inversion Hok as [|? ? Hd _]; subst. destruct Hd as (xs & ys & zs & Hx & Hy & Hz).
    exists (filled first_mesh d xs ys zs), first_mesh. split; [exists xs, ys, zs; auto|].
    rewrite (read_first _ b d _ xs ys zs Hm Hx Hy Hz), S1. eapply read_stop. exact Hm2.
  - cbn [app] in *. inversion Hb as [|b ? ls0 ? Hm Hb2]; subst. inversion Hok as [|? ? He Hok']; subst.
    destruct He as (xs & ys & zs & Hx & Hy & Hz).
    rewrite (read_first _ b e _ xs ys zs Hm Hx Hy Hz).
    rewrite (not_selected_false _ _ e Hsel (or_introl eq_refl)).
    assert (Hsel' : not_selected (Some (d_num d)) ds1) by (intros y Hy'; apply Hsel; right; exact Hy').
    clear -Hb2 Hok' Hsel' S1. revert ls0 Hb2 Hok' Hsel'. generalize (filled first_mesh e xs ys zs). generalize (@nil mesh).
    induction ds1 as [|e1 ds1 IH]; intros ms m0 ls Hb Hok Hsel; cbn [app] in *.
    + inversion Hb as [|b ? ls1 ? Hm Hb2]; subst. inversion Hb2 as [|b2 ? ls2 ? Hm2 Hb3]; subst.
      inversion Hok as [|? ? Hd _]; subst. destruct Hd as (xs1 & ys1 & zs1 & Hx1 & Hy1 & Hz1).
      exists (filled new_mesh d xs1 ys1 zs1), new_mesh. split; [exists xs1, ys1, zs1; auto|].
      rewrite (read_next _ b d _ m0 ms xs1 ys1 zs1 Hm Hx1 Hy1 Hz1), S1. eapply read_stop. exact Hm2.
    + inversion Hb as [|b ? ls1 ? Hm Hb2]; subst. inversion Hok as [|? ? Hd Hok']; subst.
      destruct Hd as (xs1 & ys1 & zs1 & Hx1 & Hy1 & Hz1).
      rewrite (read_next _ b e1 _ m0 ms xs1 ys1 zs1 Hm Hx1 Hy1 Hz1).
      rewrite (not_selected_false _ _ e1 Hsel (or_introl eq_refl)).
      apply (IH _ _ _ Hb2 Hok'). intros y Hy'. apply Hsel. right. exact Hy'.
Qed.

Section Files.
Variable to_num : str -> res float.
Lemma to_frame_ok m0 d m : raw_of m0 d m -> ctype_for (d_kind d) (ctype m0) = Some (kind_ctype (d_kind d)) ->
  readable to_num (d_kind d) (d_rows d) -> exists m', to_frame to_num m = Ok m' /\ mesh_of to_num d m'.
Proof.
  intros Hr Hc HR. destruct (raw_of_data _ _ _ Hr) as (Hd & Hct).
  destruct (convert_ok to_num (d_kind d) m (d_rows d)) as (fr & E & F); [congruence|exact Hd|exact HR|].
  unfold to_frame. rewrite E. cbn [bind]. eexists. split; [reflexivity|]. split; [|exists fr; split; [reflexivity|exact F]].
  pose proof (raw_of_head _ _ _ Hr) as H. destruct m; exact H.
Qed.
Lemma kind_ctype_first k : ctype_for k (ctype first_mesh) = Some (kind_ctype k).
Proof. destruct k; reflexivity. Qed.
Lemma kind_ctype_next k : k <> ByEnergy -> ctype_for k (ctype new_mesh) = Some (kind_ctype k).
Proof. destruct k; [congruence|reflexivity..]. Qed.
Lemma read_file_ok lines ds num : mesh_file lines ds -> Forall bounds_ok ds ->
  Forall (fun d => readable to_num (d_kind d) (d_rows d)) ds -> Forall (fun d => d_kind d <> ByEnergy) (tl ds) ->
  not_selected num (removelast ds) ->
  exists ms, read_meshtally_lines to_num lines num = Ok (All ms) /\ Forall2 (mesh_of to_num) ds ms.
Proof.
  intros Hf Hok HR HK Hs. destruct (read_all num lines ds Hf Hok Hs) as (d & ds' & m & rs & -> & Hr & F & E).
  unfold read_meshtally_lines. change (set_ctype new_mesh (lit "6col_e")) with first_mesh. rewrite E. cbn [bind].
  inversion HR as [|? ? Rd Rds]; subst. cbn [tl] in HK.
  destruct (to_frame_ok first_mesh d m Hr (kind_ctype_first _) Rd) as (m' & Em & Hm).
  cbn [mapM]. rewrite Em.
  assert (G : exists ms, mapM (to_frame to_num) rs = Ok ms /\ Forall2 (mesh_of to_num) ds' ms).
  { clear -F Rds HK. induction F as [|d r ds rs Hr F IH]; [exists []; split; [reflexivity|constructor]|].
    inversion Rds; subst. inversion HK; subst. destruct IH as (ms & E & G); [assumption..|].
    destruct (to_frame_ok new_mesh d r Hr (kind_ctype_next _ H3) H1) as (m' & Em & Hm).
    exists (m' :: ms). cbn [mapM]. rewrite Em, E. split; [reflexivity|constructor; assumption]. }
  destruct G as (ms & Ems & G). rewrite Ems. exists (m' :: ms). split; [reflexivity|constructor; assumption].
Qed.
Lemma mapM_Err_only {A B} (f : A -> res B) l e : (forall x e', In x l -> f x = Err e' -> e' = e) ->
  (exists x, In x l /\ exists e', f x = Err e') -> mapM f l = Err e.
Proof.
  intros H (x & Hx & e' & Hf). induction l as [|y l IH]; [destruct Hx|]. cbn [mapM].
  destruct (f y) as [b|e2] eqn:E; [|rewrite (H y e2 (or_introl eq_refl) E); reflexivity].
  destruct Hx as [->|Hx]; [congruence|]. rewrite IH; [reflexivity| |exact Hx].
  intros z e3 Hz. apply H. right. exact Hz.
Qed.
Lemma mapM_Err_kind {A B} (f : A -> res B) l e e0 : (forall x e', In x l -> f x = Err e' -> e' = e0) -> mapM f l = Err e -> e = e0.
Proof.
  induction l as [|x l IH]; intros H; cbn [mapM]; [discriminate|].
  destruct (f x) as [y|e1] eqn:E.
  - destruct (mapM f l); [discriminate|]. intros [= <-]. apply IH; [intros z e' Hz; apply H; right; exact Hz|reflexivity].
  - intros [= <-]. exact (H x e1 (or_introl eq_refl) E).
Qed.
Lemma num_col_err j rows e : rejects_text to_num -> num_col to_num j rows = Err e -> e = ValueError.
Proof.
  intros HT. unfold num_col. destruct (mapM _ _) as [vs|e'] eqn:E; [discriminate|]. intros [= <-].
  revert E. apply mapM_Err_kind. intros [w|] e2 _ H; [exact (HT w e2 H)|discriminate].
Qed.
Lemma convert_err m rows e : rejects_text to_num -> data m = Raw rows -> convert_to_df to_num m = Err e -> e = ValueError.
Proof.
  intros HT Hd. unfold convert_to_df. rewrite Hd. destruct (columns_of (ctype m)) as [names|]; [|congruence].
  destruct rows as [|r rows]; [discriminate|]. destruct (negb _); [congruence|]. cbv zeta.
  set (k := if has_ctype m "5col" then 0 else 1).
  destruct (num_col to_num k (r :: rows)) as [?|?] eqn:E1; [|intros [= <-]; exact (num_col_err _ _ _ HT E1)]. cbn [bind].
  destruct (num_col to_num (k+1) (r :: rows)) as [?|?] eqn:E2; [|intros [= <-]; exact (num_col_err _ _ _ HT E2)]. cbn [bind].
  destruct (num_col to_num (k+2) (r :: rows)) as [?|?] eqn:E3; [|intros [= <-]; exact (num_col_err _ _ _ HT E3)]. cbn [bind].
  destruct (num_col to_num (k+3) (r :: rows)) as [?|?] eqn:E4; [|intros [= <-]; exact (num_col_err _ _ _ HT E4)]. cbn [bind].
  destruct (num_col to_num (k+4) (r :: rows)) as [?|?] eqn:E5; [|intros [= <-]; exact (num_col_err _ _ _ HT E5)]. cbn [bind].
  destruct (has_ctype m "6col_e").
  - destruct (num_col to_num 0 (r :: rows)) as [?|?] eqn:E6; [discriminate|intros [= <-]; exact (num_col_err _ _ _ HT E6)].
  - destruct (has_ctype m "6col_t"); [|discriminate].
    destruct (mapM _ _) as [vs|e'] eqn:E; [discriminate|]. intros [= <-].
    revert E. apply mapM_Err_kind. intros [w|] e2 _ H; [exact (HT w e2 H)|discriminate].
Qed.
Lemma raw_list_err rs : rejects_text to_num -> (forall r, In r rs -> exists rows, data r = Raw rows) ->
  forall x e, In x rs -> to_frame to_num x = Err e -> e = ValueError.
Proof.
  intros HT H x e Hx. destruct (H x Hx) as (rows & Hd). unfold to_frame.
  destruct (convert_to_df to_num x) as [d|e'] eqn:E; [discriminate|]. intros [= <-]. exact (convert_err x rows e' HT Hd E).
Qed.
Lemma Forall2_In_l {A B} (R : A -> B -> Prop) l l' x : Forall2 R l l' -> In x l -> exists y, In y l' /\ R x y.
Proof.
  induction 1 as [|a b l l' H F IH]; [intros []|]. intros [->|Hx]; [exists b; split; [left; reflexivity|exact H]|].
  destruct (IH Hx) as (y & Hy & HR). exists y. split; [right; exact Hy|exact HR].
Qed.
Lemma Forall2_In_r {A B} (R : A -> B -> Prop) l l' y : Forall2 R l l' -> In y l' -> exists x, In x l /\ R x y.
Proof.
  induction 1 as [|a b l l' H F IH]; [intros []|]. intros [->|Hx]; [exists a; split; [left; reflexivity|exact H]|].
  destruct (IH Hx) as (x & Hy & HR). exists x. split; [right; exact Hy|exact HR].
Qed.
(** A file with an energy mesh that is not the first one. *)
Lemma second_energy_fails lines d ds : rejects_text to_num -> mesh_file lines (d :: ds) -> Forall bounds_ok (d :: ds) ->
  Exists (fun e => d_kind e = ByEnergy) ds -> read_meshtally_lines to_num lines None = Err ValueError.
Proof.
  intros HT Hf Hok He. destruct (read_all None lines (d :: ds) Hf Hok) as (d' & ds' & m & rs & [= <- <-] & Hr & F & E); [intros ? _; discriminate|].
  unfold read_meshtally_lines. change (set_ctype new_mesh (lit "6col_e")) with first_mesh. rewrite E. cbn [bind].
  rewrite (mapM_Err_only (to_frame to_num) (m :: rs) ValueError); [reflexivity| |].
  - apply raw_list_err; [exact HT|]. intros r [<-|Hin].
    + destruct (raw_of_data _ _ _ Hr); eauto.
    + destruct (Forall2_In_r _ _ _ _ F Hin) as (x & _ & Hx). destruct (raw_of_data _ _ _ Hx); eauto.
  - apply Exists_exists in He. destruct He as (e & Hin & Hk). destruct (Forall2_In_l _ _ _ _ F Hin) as (r & Hinr & Hre).
    exists r. split; [right; exact Hinr|]. destruct (raw_of_data _ _ _ Hre) as (Hd & Hc). rewrite Hk in Hc. cbn in Hc.
    exists ValueError. unfold to_frame, convert_to_df. rewrite Hc. reflexivity.
Qed.
(** A word that is not a number in the rows of the first mesh, if it is by energy. *)
Lemma mapM_Err_ex {A B} (f : A -> res B) l x e : In x l -> f x = Err e -> exists e', mapM f l = Err e'.
Proof.
  intros Hx Hf. induction l as [|y l IH]; [destruct Hx|]. cbn [mapM]. destruct (f y) as [b|e2] eqn:E; [|eauto].
  destruct Hx as [->|Hx]; [congruence|]. destruct (IH Hx) as (e' & ->). eauto.
Qed.
Lemma energy_total_fails lines d ds r w ws e0 : rejects_text to_num -> mesh_file lines (d :: ds) -> Forall bounds_ok (d :: ds) ->
  d_kind d = ByEnergy -> In r (d_rows d) -> r = w :: ws -> to_num w = Err e0 ->
  read_meshtally_lines to_num lines None = Err ValueError.
Proof.
  intros HT Hf Hok Hk Hin -> Hw. destruct (read_all None lines (d :: ds) Hf Hok) as (d' & ds' & m & rs & [= <- <-] & Hr & F & E); [intros ? _; discriminate|].
  unfold read_meshtally_lines. change (set_ctype new_mesh (lit "6col_e")) with first_mesh. rewrite E. cbn [bind mapM].
  destruct (raw_of_data _ _ _ Hr) as (Hd & Hc). rewrite Hk in Hc. cbn in Hc.
  destruct (to_frame to_num m) as [m'|e] eqn:Em.
  - exfalso. revert Em. unfold to_frame, convert_to_df, has_ctype. rewrite Hd, Hc.
    change (columns_of (Some (lit "6col_e"))) with (Some (col_names ByEnergy)).
    change (str_eqb (lit "6col_e") (lit "6col_e")) with true. cbv iota.
    destruct (d_rows d) as [|r0 rows0] eqn:Erows; [destruct Hin|]. rewrite <- Erows in *.
    destruct (negb _); [discriminate|]. cbv zeta.
    do 5 (destruct (num_col to_num _ (d_rows d)); [|discriminate]; cbn [bind]).
    assert (En : exists e, num_col to_num 0 (d_rows d) = Err e).
    { unfold num_col. destruct (mapM_Err_ex (cell_num to_num) (text_col 0 (d_rows d)) (Some w) e0) as (e' & ->).
      - unfold text_col. apply in_map_iff. exists (w :: ws). split; [reflexivity|exact Hin].
      - exact Hw.
      - exists e'. reflexivity. }
    destruct En as (e & ->). discriminate.
  - unfold to_frame in Em. destruct (convert_to_df to_num m) as [|e'] eqn:Ec; [discriminate|]. cbn [bind] in Em. injection Em as <-.
    rewrite (convert_err m (d_rows d) e' HT Hd Ec). reflexivity.
Qed.
Lemma blank_row k rows d i : frame_of to_num k rows d -> nth_error rows i = Some [] ->
  exists p, nth_error (f_index d) p = Some i /\ forall name c, In (name, c) (f_cols d) -> nth_error (c_vals c) p = Some S754_nan.
Proof.
  intros ([Hinc Hsel] & Hn & Hc) Hi.
  assert (Hin : In i (f_index d)).
  { apply Hsel. split; [apply nth_error_Some; congruence|]. exists []. split; [exact Hi|].
    intros (_ & w & ws & [=] & _). }
  destruct (In_nth_error _ _ Hin) as (p & Hp). exists p. split; [exact Hp|].
  intros name c Hin2. destruct (In_nth_error _ _ Hin2) as (j & Hj).
  assert (Hj' : nth_error (map snd (f_cols d)) j = Some c) by (rewrite nth_error_map, Hj; reflexivity).
  destruct (Hc j c Hj') as [Hc' _]. clear Hc. rename Hc' into Hc. clear -Hi Hp Hc. revert p Hp. induction Hc as [|i' y is ys H F IH]; intros p Hp; [destruct p; discriminate|].
  destruct p as [|p].
  - injection Hp as ->. destruct H as (r & v & Hr & Hv & -> & _). rewrite Hi in Hr. injection Hr as <-.
    unfold cell in Hv. destruct j; cbn in Hv; subst v; destruct (c_single c); reflexivity.
  - exact (IH p Hp).
Qed.
End Files.
