(** Mesh tally tools: sizes, volumes, counts, and a file used as an example. *)
From Coq Require Import Reals Lra Lia Floats.SpecFloat.
From Flocq Require Import Core.
From Verif Require Import PyBase PyFacts PyFloat FloatR FloatZ Float32 TextFacts SpecStr SpecMcout PyFs PyFrame M_mesh SpecMesh SpecMesh2 P_mesh P_mesh2 P_mesh3 P_mesh4 P_mesh5 P_ptrac TextTac.

(** * Sizes *)
Lemma diff_nth xs : forall i w, nth_error (diff xs) i = Some w <->
  exists u v, nth_error xs i = Some u /\ nth_error xs (S i) = Some v /\ w = fsub v u.
Proof.
  induction xs as [|a [|b xs] IH]; intros i w.
  - split; [destruct i; discriminate|]. intros (u & v & H & _). destruct i; discriminate.
  - split; [destruct i; discriminate|]. intros (u & v & _ & H & _). destruct i as [|[|i]]; discriminate.
  - destruct i as [|i].
    + cbn. split; [intros [= <-]; eauto|]. intros (u & v & [= <-] & [= <-] & ->). reflexivity.
    + apply (IH i w).
Qed.
Lemma check_uniform_spec bs xs : numbers bs xs -> 2 <= List.length bs ->
  (check_uniform bs = Ok true <-> evenly_spaced xs) /\ exists u, check_uniform bs = Ok u.
Proof.
  intros Hn Hl. assert (L : List.length bs = List.length xs) by (clear Hl; induction Hn; cbn; congruence).
  unfold check_uniform. destruct bs as [|b0 bs]; [cbn in Hl; lia|].
  assert (E : mapM py_float (b0 :: bs) = Ok xs) by (apply mapM_Ok_iff; exact Hn). rewrite E. cbn [bind].
  destruct xs as [|a [|b l]]; [cbn in *; lia|cbn in *; lia|].
  change (diff (a :: b :: l)) with (fsub b a :: diff (b :: l)). cbv iota. change (fsub b a :: diff (b :: l)) with (diff (a :: b :: l)).
  split; [|eexists; reflexivity]. split.
  - intros K. assert (H : forallb (fun d => isclose d (fsub b a)) (diff (a :: b :: l)) = true) by congruence.
    rewrite forallb_forall in H. exists a, b, l. split; [reflexivity|]. intros i u v Hu Hv. apply isclose_close, H.
    apply (nth_error_In _ i). apply diff_nth. eauto.
  - intros (a' & b' & l' & [= <- <- <-] & H). f_equal. apply forallb_forall. intros w Hw. apply In_nth_error in Hw. destruct Hw as (i & Hi).
    apply diff_nth in Hi. destruct Hi as (u & v & Hu & Hv & ->). apply isclose_close. exact (H i u v Hu Hv).
Qed.
Lemma first_width_spec bs xs a b l : numbers bs xs -> xs = a :: b :: l -> first_width bs = Ok (fabs (fsub b a)).
Proof.
  intros Hn ->. inversion Hn as [|w ? ws ? Ha Hn2]; subst. inversion Hn2 as [|w2 ? ws2 ? Hb Hn3]; subst.
  unfold first_width. change (py_nth (w :: w2 :: ws2) 1) with (Ok w2). change (py_nth (w :: w2 :: ws2) 0) with (Ok w). cbn [bind].
  rewrite Ha, Hb. reflexivity.
Qed.
Lemma uniform_volume m xs ys zs a1 b1 l1 a2 b2 l2 a3 b3 l3 :
  numbers (x_bounds m) xs -> numbers (y_bounds m) ys -> numbers (z_bounds m) zs ->
  evenly_spaced xs -> evenly_spaced ys -> evenly_spaced zs ->
  xs = a1 :: b1 :: l1 -> ys = a2 :: b2 :: l2 -> zs = a3 :: b3 :: l3 ->
  voxel_uniform_volume m = Ok (fmul (fmul (fabs (fsub b1 a1)) (fabs (fsub b2 a2))) (fabs (fsub b3 a3))).
Proof.
  intros Nx Ny Nz Ex Ey Ez Hx Hy Hz.
  assert (L : forall bs us, numbers bs us -> List.length bs = List.length us) by (intros bs us Hn; induction Hn; cbn; congruence).
  unfold voxel_uniform_volume.
  rewrite (proj2 (proj1 (check_uniform_spec _ _ Nx ltac:(rewrite (L _ _ Nx), Hx; cbn; lia))) Ex).
  rewrite (proj2 (proj1 (check_uniform_spec _ _ Ny ltac:(rewrite (L _ _ Ny), Hy; cbn; lia))) Ey).
  rewrite (proj2 (proj1 (check_uniform_spec _ _ Nz ltac:(rewrite (L _ _ Nz), Hz; cbn; lia))) Ez). cbn [bind].
  rewrite (first_width_spec _ _ _ _ _ Nx Hx), (first_width_spec _ _ _ _ _ Ny Hy), (first_width_spec _ _ _ _ _ Nz Hz). reflexivity.
Qed.
Lemma nonuniform_volume m xs ys zs :
  numbers (x_bounds m) xs -> numbers (y_bounds m) ys -> numbers (z_bounds m) zs ->
  2 <= List.length xs -> 2 <= List.length ys -> 2 <= List.length zs ->
  ~ (evenly_spaced xs /\ evenly_spaced ys /\ evenly_spaced zs) -> voxel_uniform_volume m = Err TypeError.
Proof.
  intros Nx Ny Nz Lx Ly Lz H.
  assert (L : forall bs us, numbers bs us -> List.length bs = List.length us) by (intros bs us Hn; induction Hn; cbn; congruence).
  assert (V : voxel_average_volume m = Err TypeError).
  { unfold voxel_average_volume. destruct (x_bounds m); [|reflexivity]. inversion Nx; subst. cbn in Lx. lia. }
  unfold voxel_uniform_volume.
  destruct (check_uniform_spec _ _ Nx ltac:(rewrite (L _ _ Nx); exact Lx)) as (Cx & ux & Ux).
  destruct (check_uniform_spec _ _ Ny ltac:(rewrite (L _ _ Ny); exact Ly)) as (Cy & uy & Uy).
  destruct (check_uniform_spec _ _ Nz ltac:(rewrite (L _ _ Nz); exact Lz)) as (Cz & uz & Uz).
  rewrite Ux. cbn [bind]. destruct ux; [|exact V]. rewrite Uy. cbn [bind]. destruct uy; [|exact V]. rewrite Uz. cbn [bind]. destruct uz; [|exact V].
  elim H. rewrite <- Cx, <- Cy, <- Cz. auto.
Qed.
Lemma number_voxels_of to_num d m : mesh_of to_num d m ->
  number_voxels m = ((List.length (d_x d) - 1) * (List.length (d_y d) - 1) * (List.length (d_z d) - 1))%nat.
Proof.
  intros ((_ & _ & _ & _ & _ & _ & _ & X & Y & Z) & _).
  assert (L : forall bs ms, calc_mid_points bs = Ok ms -> List.length ms = List.length bs - 1).
  { intros bs ms. unfold calc_mid_points. destruct (mapM py_float bs) as [us|] eqn:E; [|discriminate]. intros [= <-].
    rewrite mid_points_length. apply mapM_length in E. lia. }
  unfold number_voxels. rewrite (L _ _ X), (L _ _ Y), (L _ _ Z). reflexivity.
Qed.

(** * Counting zeros *)
Lemma zeros_in_filter l : zeros_in l (List.length (filter is_zero_f l)).
Proof. induction l as [|x l IH]; cbn [filter]; [constructor|]. destruct (is_zero_f x) eqn:E; cbn [List.length]; constructor; assumption. Qed.
Lemma zeros_in_fun l n n' : zeros_in l n -> zeros_in l n' -> n = n'.
Proof. intros H. revert n'. induction H; intros n' H'; inversion H'; subst; try congruence; f_equal; auto. Qed.
Lemma count_zeros_spec m d c n : data m = Df d -> has d "value" c -> zeros_in (c_vals c) n ->
  count_zeros m = match n with O => Err KeyError | _ => Ok n end.
Proof.
  intros Hd Hc Hz. unfold count_zeros, data_frame. rewrite Hd. cbn [as_frame bind]. apply has_col in Hc. rewrite Hc. cbn [bind].
  rewrite (zeros_in_fun _ _ _ (zeros_in_filter (c_vals c)) Hz). destruct n; reflexivity.
Qed.

(** * Energies and times of zero *)
Lemma pick_zero_energy x y z m time e : is_zero_f e = true -> pick_point x y z m (Some e) time = pick_point x y z m None time.
Proof. intros H. unfold pick_point, filter_energy_time, truthy. rewrite H. reflexivity. Qed.
Lemma pick_zero_time x y z m erg t : is_zero_f t = true -> pick_point x y z m erg (Some t) = pick_point x y z m erg None.
Proof. intros H. unfold pick_point, filter_energy_time, truthy. rewrite H. reflexivity. Qed.

(** * The numbers of one selected mesh *)
Lemma raw_pick x y z m rows : data m = Raw rows -> x_mids m <> [] -> y_mids m <> [] -> z_mids m <> [] ->
  forall erg time, pick_point x y z m erg time = Err TypeError.
Proof.
  intros Hd Nx Ny Nz erg time. unfold pick_point.
  destruct (find_nearest_mid_spec x _ Nx) as (mx & -> & _). destruct (find_nearest_mid_spec y _ Ny) as (my & -> & _).
  destruct (find_nearest_mid_spec z _ Nz) as (mz & -> & _). cbn [bind]. unfold data_frame. rewrite Hd. reflexivity.
Qed.
Lemma read_one to_num lines ds1 d d2 ds2 : mesh_file lines (ds1 ++ d :: d2 :: ds2) -> Forall bounds_ok (ds1 ++ [d]) ->
  (forall x, In x ds1 -> d_num x <> d_num d) ->
  exists m, read_meshtally_lines to_num lines (Some (d_num d)) = Ok (One m) /\ mesh_head d m /\ data m = Raw (d_rows d).
Proof.
  intros Hf Hok Hn. destruct (read_selected lines ds1 d d2 ds2 Hf Hok) as (m & m0 & Hr & E).
  { intros x Hx [= K]. exact (Hn x Hx (eq_sym K)). }
  exists m. unfold read_meshtally_lines. change (set_ctype new_mesh (lit "6col_e")) with first_mesh. rewrite E.
  split; [reflexivity|]. split; [exact (raw_of_head _ _ _ Hr)|apply (raw_of_data _ _ _ Hr)].
Qed.

(** * An example *)
Definition announcesb (k : nat) (l : str) : bool :=
  negb (contains number_text l) && contains (nth k markers []) l && forallb (fun w => negb (contains w l)) (firstn k markers).
Lemma announcesb_ok k l : k < 9 -> announcesb k l = true -> announces k l.
Proof.
  intros Hk H. apply andb_true_iff in H. destruct H as [H H3]. apply andb_true_iff in H. destruct H as [H1 H2].
  split; [apply contains_false, negb_true_iff; exact H1|]. split.
  - exists (nth k markers []). split; [apply nth_error_nth'; exact Hk|apply contains_spec; exact H2].
  - rewrite forallb_forall in H3. intros j w Hj Hw. apply contains_false, negb_true_iff. apply H3.
    apply (nth_error_In _ j). rewrite <- (firstn_skipn k markers) in Hw. rewrite nth_error_app1 in Hw; [exact Hw|]. rewrite firstn_length. change (List.length markers) with 9. lia.
Qed.
Lemma quietb_ok l : forallb (fun w => negb (contains w l)) markers = true -> quiet l.
Proof. rewrite forallb_forall. intros H w Hw. apply contains_false, negb_true_iff, H, Hw. Qed.
Ltac bl ws := split; [apply announcesb_ok; [lia|vm_compute; reflexivity]|exists (map lit ws); split; [text|reflexivity]].
Ltac gp := repeat (apply Forall_cons; [split; [apply quietb_ok; vm_compute; reflexivity|text]|]); apply Forall_nil.
Ltac nl a w := split; [text|split; [apply quietb_ok; vm_compute; reflexivity|exists (lit a), (lit w); split; [reflexivity|split; [text|vm_compute; reflexivity]]]].
Ltac rw := repeat (apply Forall2_cons; [split; text|]); apply Forall2_nil.
Local Open Scope string_scope.
Definition ex_block (n part : string) (heading : string) (rows : list string) : list str :=
  map lit ([append " Mesh Tally Number         " n; append " " (append part "  mesh tally."); ""; " Tally bin boundaries:";
    "    X direction:      0.00      1.00      2.00"; "    Y direction:      0.00      0.20"; "    Z direction:     -1.00      1.00";
    "    Energy bin boundaries: 0.00E+00 1.00E+01"; ""; heading] ++ rows)%list.
Definition ex_desc (n : Z) (part : string) (k : kind) (rows : list (list string)) : mesh_desc :=
  Desc n (lit part) (map lit ["0.00"; "1.00"; "2.00"]) (map lit ["0.00"; "0.20"]) (map lit ["-1.00"; "1.00"])
    (map lit ["0.00E+00"; "1.00E+01"]) [] k (map (map lit) rows).
Definition ex_head_e := "   Energy         X         Y         Z     Result     Rel Error".
Definition ex_head := "        X         Y         Z     Result     Rel Error".
Definition ex_head_t := "     Time         X         Y         Z     Result     Rel Error".
Definition ex_rows_e := [" 1.000E+01     0.500     0.100     0.000 2.50000E-01 5.00000E-01"; " 1.000E+01     1.500     0.100     0.000 7.50000E-01 2.50000E-01"].
Definition ex_rows := ["     0.500     0.100     0.000 2.50000E-01 5.00000E-01"; "     1.500     0.100     0.000 7.50000E-01 2.50000E-01"].
Definition ex_words_e := [["1.000E+01"; "0.500"; "0.100"; "0.000"; "2.50000E-01"; "5.00000E-01"]; ["1.000E+01"; "1.500"; "0.100"; "0.000"; "7.50000E-01"; "2.50000E-01"]].
Definition ex_words := [["0.500"; "0.100"; "0.000"; "2.50000E-01"; "5.00000E-01"]; ["1.500"; "0.100"; "0.000"; "7.50000E-01"; "2.50000E-01"]].
Definition ex_title := map lit ["mcnp   version 6"; " a title"].
Local Open Scope list_scope.
Ltac ml n := match goal with |- mesh_lines _ _ =>
  eapply (mesh_lines_intro _ [] _ (map lit [""; " Tally bin boundaries:"]%string) _ _ _ [] _ (map lit [""]%string) _ _ _ _ [lit "mesh"; lit "tally."]);
  [nl " Mesh Tally Number        "%string n|gp|apply announcesb_ok; [lia|vm_compute; reflexivity]|text|gp
  |bl ["X"; "direction:"]%string|bl ["Y"; "direction:"]%string|bl ["Z"; "direction:"]%string|left; split; reflexivity|bl ["Energy"; "bin"; "boundaries:"]%string|gp
  |apply announcesb_ok; [cbn; lia|vm_compute; reflexivity]|rw] end.
Lemma ex_block_e : mesh_lines (ex_block "4" "neutron" ex_head_e ex_rows_e) (ex_desc 4 "neutron" ByEnergy ex_words_e).
Proof. ml "4"%string. Qed.
Lemma ex_block_e2 : mesh_lines (ex_block "34" "photon" ex_head_e ex_rows_e) (ex_desc 34 "photon" ByEnergy ex_words_e).
Proof. ml "34"%string. Qed.
Lemma ex_block_p : mesh_lines (ex_block "14" "photon" ex_head ex_rows) (ex_desc 14 "photon" Plain ex_words).
Proof. ml "14"%string. Qed.
Lemma ex_block_b : mesh_lines (ex_block "24" "neutron" ex_head (ex_rows ++ [""%string])) (ex_desc 24 "neutron" Plain (ex_words ++ [[]])).
Proof. ml "24"%string. Qed.
Lemma ex_block_t : mesh_lines (ex_block "4" "neutron" ex_head_e (ex_rows_e ++ ["   Total       0.500     0.100     0.000 2.50000E-01 5.00000E-01"%string]))
  (ex_desc 4 "neutron" ByEnergy (ex_words_e ++ [["Total"; "0.500"; "0.100"; "0.000"; "2.50000E-01"; "5.00000E-01"]%string])).
Proof. ml "4"%string. Qed.
Lemma ex_title_gap : gap ex_title.
Proof. gp. Qed.
Lemma ex_bounds n p k rows : bounds_ok (ex_desc n p k rows).
Proof. eexists. eexists. eexists. split; [|split]; repeat (apply Forall2_cons; [vm_compute; reflexivity|]); apply Forall2_nil. Qed.
Lemma py_float_rejects : rejects_text py_float.
Proof. intros w e. apply py_float_err. Qed.
Lemma ex_readable k rows : forallb (fun r => Nat.leb (List.length r) (n_cols k)) rows = true ->
  existsb (fun r => Nat.eqb (List.length r) (n_cols k)) rows = true ->
  forallb (forallb (fun w => match py_float w with Ok _ => true | Err _ => false end)) rows = true -> readable py_float k rows.
Proof.
  intros H1 H2 H3. rewrite forallb_forall in H1, H3. split; [|split].
  - apply Forall_forall. intros r Hr. apply Nat.leb_le, H1, Hr.
  - right. apply existsb_exists in H2. destruct H2 as (r & Hr & E). apply Exists_exists. exists r. split; [exact Hr|apply Nat.eqb_eq, E].
  - intros r j w Hr Hw _. specialize (H3 r Hr). rewrite forallb_forall in H3. specialize (H3 w (nth_error_In _ _ Hw)).
    destruct (py_float w) as [v|]; [eauto|discriminate].
Qed.

(** * The remaining statements *)
Lemma pick_point_selects x y z m erg time d cx cy cz cv :
  data m = Df d -> table d -> has d "x" cx -> has d "y" cy -> has d "z" cz -> has d "value" cv ->
  has_if_given d erg "Energy" -> has_if_given d time "Time" ->
  x_mids m <> [] -> y_mids m <> [] -> z_mids m <> [] ->
  exists mx my mz is s,
    nearest x (x_mids m) mx /\ nearest y (y_mids m) my /\ nearest z (z_mids m) mz /\
    selected (fun i => entry_is cx i mx /\ entry_is cy i my /\ entry_is cz i mz /\ et_filter d erg time i) (n_rows d) is /\
    pick_point x y z m erg time = Ok s /\ rows_of_series d cv is s.
Proof.
  intros Hd Ht Hx Hy Hz Hv He Hti Nx Ny Nz.
  destruct (has_if_given_opt _ _ _ He) as (ce & He'). destruct (has_if_given_opt _ _ _ Hti) as (ct & Hti').
  exact (pick_point_rows x y z m erg time d cx cy cz cv ce ct Hd Ht Hx Hy Hz Hv He' Hti' Nx Ny Nz).
Qed.
Lemma extract_line_selects m a1 b1 c1 a2 b2 c2 erg time d cx cy cz cv :
  data m = Df d -> table d -> has d "x" cx -> has d "y" cy -> has d "z" cz -> has d "value" cv ->
  has_if_given d erg "Energy" -> has_if_given d time "Time" ->
  x_mids m <> [] -> y_mids m <> [] -> z_mids m <> [] ->
  exists mx my mz is s,
    nearest a1 (x_mids m) mx /\ nearest b1 (y_mids m) my /\ nearest c1 (z_mids m) mz /\
    selected (fun i => (feq a1 a2 = true -> entry_is cx i mx) /\ (feq b1 b2 = true -> entry_is cy i my) /\
                       (feq c1 c2 = true -> entry_is cz i mz) /\ et_filter d erg time i) (n_rows d) is /\
    extract_line m (a1, b1, c1) (a2, b2, c2) erg time = Ok s /\ rows_of_series d cv is s.
Proof.
  intros Hd Ht Hx Hy Hz Hv He Hti Nx Ny Nz.
  destruct (has_if_given_opt _ _ _ He) as (ce & He'). destruct (has_if_given_opt _ _ _ Hti) as (ct & Hti').
  exact (extract_line_rows m (a1, b1, c1) (a2, b2, c2) erg time d cx cy cz cv ce ct Hd Ht Hx Hy Hz Hv He' Hti' Nx Ny Nz).
Qed.
Lemma add_mesh_sums m1 m2 d1 d2 k v1 v2 r1 r2 g x y z xs ys zs : same_space m1 m2 -> k <> Plain ->
  ctype m1 = Some (ctype_name k) -> ctype m2 = Some (ctype_name k) -> bins k m1 = bins k m2 ->
  numbers (x_bounds m1) xs -> numbers (y_bounds m1) ys -> numbers (z_bounds m1) zs ->
  data m1 = Df d1 -> data m2 = Df d2 -> f_index d1 = f_index d2 ->
  has d1 "value" v1 -> has d2 "value" v2 -> has d1 "rel_err" r1 -> has d2 "rel_err" r2 ->
  has d1 (bin_name k) g -> has d1 "x" x -> has d1 "y" y -> has d1 "z" z ->
  exists m d v r, add_mesh m1 m2 = Ok m /\ same_space m1 m /\ ctype m = ctype m1 /\ bins k m = bins k m1 /\
    calc_mid_points (x_bounds m1) = Ok (x_mids m) /\ calc_mid_points (y_bounds m1) = Ok (y_mids m) /\ calc_mid_points (z_bounds m1) = Ok (z_mids m) /\
    data m = Df d /\ f_index d = f_index d1 /\
    has d (bin_name k) g /\ has d "x" x /\ has d "y" y /\ has d "z" z /\ has d "value" v /\ has d "rel_err" r /\
    (forall i a b, entry v1 i a -> entry v2 i b -> number_in v1 a -> number_in v2 b ->
       exists c, entry v i c /\ rounded_in (c_single v1 && c_single v2) (FR a + FR b) c) /\
    (forall i a b, entry r1 i a -> entry r2 i b -> number_in r1 a -> number_in r2 b ->
       exists c q1 q2 t, entry r i c /\
         rounded_in (c_single r1) (FR a * FR a) q1 /\ rounded_in (c_single r2) (FR b * FR b) q2 /\
         (is_finite_f q1 = true -> is_finite_f q2 = true -> rounded_in (c_single r1 && c_single r2) (FR q1 + FR q2) t /\
          (is_finite_f t = true -> FR c = rnd_in (c_single r1 && c_single r2) (sqrt (FR t)) /\ is_finite_f c = true))).
Proof.
  intros Hs Hk Hc Hc2 Hb Nx Ny Nz D1 D2 Hi V1 V2 R1 R2 G X Y Z.
  destruct (add_mesh_ok m1 m2 d1 d2 k v1 v2 r1 r2 g x y z xs ys zs Hs Hk Hc Hc2 Hb Nx Ny Nz D1 D2 Hi V1 V2 R1 R2 G X Y Z)
    as (m & E & A & B & C & D & F & H & K).
  eexists. eexists. exists (col_add v1 v2), (err_col r1 r2). do 7 (split; [eassumption|]). split; [exact K|]. split; [reflexivity|].
  do 6 (split; [apply column_get; destruct k; [reflexivity..|congruence]|]). split.
  - intros i a b Ha Hb' Na Nb. exact (add_entry v1 v2 i a b Ha Hb' Na Nb).
  - intros i a b Ha Hb' Na Nb. exact (err_entry r1 r2 i a b Ha Hb' Na Nb).
Qed.
Lemma add_mesh_rejects m1 m2 :
  ~ same_space m1 m2 \/ ctype m1 <> ctype m2 \/ (exists k, ctype m1 = Some (ctype_name k) /\ bins k m1 <> bins k m2) ->
  add_mesh m1 m2 = Err ValueError.
Proof.
  assert (D : same_space m1 m2 \/ ~ same_space m1 m2).
  { unfold same_space. destruct (strs_eqb (x_bounds m1) (x_bounds m2)) eqn:Ex; [|right; intros (K & _); apply strs_eqb_spec in K; congruence].
    destruct (strs_eqb (y_bounds m1) (y_bounds m2)) eqn:Ey; [|right; intros (_ & K & _); apply strs_eqb_spec in K; congruence].
    destruct (strs_eqb (z_bounds m1) (z_bounds m2)) eqn:Ez; [|right; intros (_ & _ & K); apply strs_eqb_spec in K; congruence].
    apply strs_eqb_spec in Ex, Ey, Ez. left. auto. }
  destruct D as [D|D]; [|intros _; apply add_mesh_space; exact D].
  intros [H|[H|(k & Hk & H)]]; [contradiction|apply add_mesh_kinds; assumption|apply (add_mesh_bins m1 m2 k); assumption].
Qed.
Lemma array_lost m d n0 n1 n2 n3 n4 n5 g x y z v e : data m = Df d -> table d ->
  f_cols d = [(n0, g); (n1, x); (n2, y); (n3, z); (n4, v); (n5, e)] ->
  distinct_numbers (x_mids m) -> distinct_numbers (y_mids m) -> distinct_numbers (z_mids m) ->
  (forall p a, entry x p a -> single a) ->
  exists A E, convert_to_3d_array m = Ok (A, E) /\
    forall i xi, nth_error (x_mids m) i = Some xi -> valid xi = true -> is_finite_f xi = true -> ~ single xi ->
    forall j k, j < List.length (y_mids m) -> k < List.length (z_mids m) -> A i j k = fzero /\ E i j k = fzero.
Proof.
  intros Hd Ht Hc Dx Dy Dz Hx. destruct (array_spec m d n0 n1 n2 n3 n4 n5 g x y z v e Hd Ht Hc Dx Dy Dz) as (A & E & EA & H).
  exists A, E. split; [exact EA|]. intros i xi Hi Vi Fi Ni j k Hj Hk.
  destruct (nth_error (y_mids m) j) as [yj|] eqn:Ej; [|apply nth_error_None in Ej; lia].
  destruct (nth_error (z_mids m) k) as [zk|] eqn:Ek; [|apply nth_error_None in Ek; lia].
  destruct (H i j k xi yj zk Hi Ej Ek) as [(p & a & b & _ & _ & (a' & b' & c' & Ha & _ & _ & Fa & _) & _)|(_ & K)]; [|exact K].
  rewrite (single_never_equal xi a' Vi Fi Ni (Hx p a' Ha)) in Fa. discriminate.
Qed.
Lemma tenth_not_single : ~ single (fdec 1 (-1)).
Proof.
  intros H. destruct (narrow_single _ H) as (_ & E & _).
  assert (K : rounded32 (FR (fdec 1 (-1))) (f32 (fdec 1 (-1)))) by (apply f32_R; reflexivity).
  assert (F : is_finite_f (f32 (fdec 1 (-1))) = true) by reflexivity.
  destruct (rounded32_fin _ _ K F) as (S & R). rewrite (rnd32_single _ H) in R.
  assert (Q : feq (f32 (fdec 1 (-1))) (fdec 1 (-1)) = false) by reflexivity.
  rewrite (proj2 (feq_R (f32 (fdec 1 (-1))) (fdec 1 (-1)) eq_refl eq_refl F eq_refl) R) in Q. discriminate.
Qed.
Lemma half_single : single (fdec 5 (-1)).
Proof.
  assert (K : rounded32 (FR (fdec 5 (-1))) (f32 (fdec 5 (-1)))) by (apply f32_R; reflexivity).
  destruct (rounded32_fin _ _ K eq_refl) as (S & R). replace (fdec 5 (-1)) with (f32 (fdec 5 (-1))) by reflexivity. exact S.
Qed.
Lemma upper_vals m d v r : data m = Df d -> has d "value" v -> has d "rel_err" r ->
  exists m' d' u, calculate_upper_mesh_vals m = Ok m' /\ same_mesh m m' /\ data m' = Df d' /\ same_table_but "max_vals" d d' /\ has d' "max_vals" u /\
    forall i x e, entry v i x -> entry r i e -> number_in v x -> number_in r e -> non_negative x -> non_negative e ->
      exists y p, entry u i y /\ fle x y = true /\ rounded_in (c_single v && c_single r) (FR x * FR e) p /\
        (is_finite_f p = true -> rounded_in (c_single v && c_single r) (FR x + FR p) y).
Proof.
  intros Hd Hv Hr. destruct (error_vals_spec fadd add32 "max_vals" m d v r Hd Hv Hr) as (m' & d' & E & A & B & C & D).
  exists m', d', (col_add v (col_mul v r)). do 5 (split; [assumption|]). intros i x e Hx He Nx Ne Px Pe.
  destruct (upper_entry v r i x e Hx He Nx Ne Px Pe) as (u & l & p & Hu & Hl & L & U & Rp & K).
  exists u, p. do 3 (split; [assumption|]). intros F. apply K, F.
Qed.
Lemma lower_vals m d v r : data m = Df d -> has d "value" v -> has d "rel_err" r ->
  exists m' d' u, calculate_lower_mesh_vals m = Ok m' /\ same_mesh m m' /\ data m' = Df d' /\ same_table_but "min_vals" d d' /\ has d' "min_vals" u /\
    forall i x e, entry v i x -> entry r i e -> number_in v x -> number_in r e -> non_negative x -> non_negative e ->
      exists y p, entry u i y /\ fle y x = true /\ rounded_in (c_single v && c_single r) (FR x * FR e) p /\
        (is_finite_f p = true -> rounded_in (c_single v && c_single r) (FR x - FR p) y).
Proof.
  intros Hd Hv Hr. destruct (error_vals_spec fsub sub32 "min_vals" m d v r Hd Hv Hr) as (m' & d' & E & A & B & C & D).
  exists m', d', (col_sub v (col_mul v r)). do 5 (split; [assumption|]). intros i x e Hx He Nx Ne Px Pe.
  destruct (upper_entry v r i x e Hx He Nx Ne Px Pe) as (u & l & p & Hu & Hl & L & U & Rp & K).
  exists l, p. do 3 (split; [assumption|]). intros F. apply K, F.
Qed.
Lemma mids_not_nil bs ms : calc_mid_points bs = Ok ms -> 2 <= List.length bs -> ms <> [].
Proof.
  unfold calc_mid_points. destruct (mapM py_float bs) as [us|] eqn:E; [|discriminate]. intros [= <-] L K.
  apply mapM_length in E. apply (f_equal (@List.length _)) in K. rewrite mid_points_length in K. cbn in K. lia.
Qed.
Lemma read_one_useless to_num lines ds1 d d2 ds2 : mesh_file lines (ds1 ++ d :: d2 :: ds2) -> Forall bounds_ok (ds1 ++ [d]) ->
  (forall x, In x ds1 -> d_num x <> d_num d) -> 2 <= List.length (d_x d) -> 2 <= List.length (d_y d) -> 2 <= List.length (d_z d) ->
  exists m, read_meshtally_lines to_num lines (Some (d_num d)) = Ok (One m) /\
    forall x y z erg time, pick_point x y z m erg time = Err TypeError.
Proof.
  intros Hf Hok Hn Lx Ly Lz. destruct (read_one to_num lines ds1 d d2 ds2 Hf Hok Hn) as (m & E & H & D). exists m. split; [exact E|].
  destruct H as (_ & _ & _ & _ & _ & _ & _ & X & Y & Z). intros x y z erg time. apply (raw_pick x y z m (d_rows d) D); eapply mids_not_nil; eassumption.
Qed.
Lemma read_last to_num lines ds num : mesh_file lines ds -> Forall bounds_ok ds ->
  Forall (fun d => readable to_num (d_kind d) (d_rows d)) ds -> Forall (fun d => d_kind d <> ByEnergy) (tl ds) ->
  (forall d, In d (removelast ds) -> d_num d <> num) ->
  exists ms, read_meshtally_lines to_num lines (Some num) = Ok (All ms) /\ Forall2 (mesh_of to_num) ds ms.
Proof.
  intros Hf Hok HR HK Hn. apply read_file_ok; try assumption. intros d Hd [= K]. exact (Hn d Hd (eq_sym K)).
Qed.
Lemma blank_row_of to_num d m i : mesh_of to_num d m -> nth_error (d_rows d) i = Some [] ->
  exists fr p, data m = Df fr /\ nth_error (f_index fr) p = Some i /\
    forall name c, In (name, c) (f_cols fr) -> nth_error (c_vals c) p = Some S754_nan.
Proof.
  intros (_ & fr & Hd & HF) Hi. destruct (blank_row to_num _ _ _ i HF Hi) as (p & A & B). exists fr, p. auto.
Qed.
Lemma sum_error_wrong : exists m1 m2 d1 d2 v e m d r c,
  data m1 = Df d1 /\ data m2 = Df d2 /\ has d1 "value" v /\ has d2 "value" v /\ has d1 "rel_err" e /\ has d2 "rel_err" e /\
  c_vals v = [f_of_Z 1] /\ c_vals e = [fdec 5 (-1)] /\
  add_mesh m1 m2 = Ok m /\ data m = Df d /\ has d "rel_err" r /\ entry r 0 c /\
  flt (fdec 7 (-1)) c = true.
Proof.
  set (one := Col true [f_of_Z 1]). set (e := Col true [fdec 5 (-1)]).
  set (d := Frame [0] [(lit "Energy", one); (lit "x", one); (lit "y", one); (lit "z", one); (lit "value", one); (lit "rel_err", e)]).
  set (b := [lit "0"; lit "2"]). set (m := Mesh None None b b b b [] (Df d) [] [] [] (Some (lit "6col_e"))).
  exists m, m, d, d, one, e. eexists. eexists. eexists. eexists.
  split; [reflexivity|]. split; [reflexivity|]. do 4 (split; [apply column_get; reflexivity|]). split; [reflexivity|]. split; [reflexivity|].
  split; [vm_compute; reflexivity|]. split; [reflexivity|]. split; [apply column_get; vm_compute; reflexivity|]. split; vm_compute; reflexivity.
Qed.
Lemma small_value_lost : exists m fr c, read_meshtally_lines py_float
    (ex_title ++ ex_block "14" "photon" ex_head ["     0.500     0.100     0.000 2.50000E-50 5.00000E-01"%string]) None = Ok (All [m]) /\
  data m = Df fr /\ has fr "value" c /\ c_vals c = [fzero].
Proof.
  eexists. eexists. eexists. split; [vm_compute; reflexivity|]. split; [reflexivity|]. split; [apply column_get; vm_compute; reflexivity|]. vm_compute. reflexivity.
Qed.
Lemma narrow_bin : exists bs a b m, numbers bs [a; b] /\ flt a b = true /\ calc_mid_points bs = Ok [m] /\ flt m a = true.
Proof.
  exists [lit "1e-6"; lit "3e-6"], (fdec 1 (-6)), (fdec 3 (-6)). eexists. split; [repeat constructor; vm_compute; reflexivity|].
  split; [vm_compute; reflexivity|]. split; [vm_compute; reflexivity|]. vm_compute. reflexivity.
Qed.
Lemma read_path_ok to_num f p text ds : read_text f p = Ok text -> mesh_file (file_lines text) ds -> Forall bounds_ok ds ->
  Forall (fun d => readable to_num (d_kind d) (d_rows d)) ds -> Forall (fun d => d_kind d <> ByEnergy) (tl ds) ->
  exists ms, read_meshtally_file to_num f p None = Ok (All ms) /\ Forall2 (mesh_of to_num) ds ms.
Proof.
  intros E Hf Hok HR HK. unfold read_meshtally_file. rewrite E. cbn [bind]. apply read_file_ok; try assumption. intros d Hd K. discriminate.
Qed.
Lemma read_path_missing to_num f p num e : read_text f p = Err e -> read_meshtally_file to_num f p num = Err e.
Proof. intros E. unfold read_meshtally_file. rewrite E. reflexivity. Qed.
Lemma read_first_energy to_num lines d ds : mesh_file lines (d :: ds) -> Forall bounds_ok (d :: ds) ->
  Forall (fun d => readable to_num (d_kind d) (d_rows d)) (d :: ds) -> d_kind d = ByEnergy -> Forall (fun d => d_kind d <> ByEnergy) ds ->
  exists m ms, read_meshtally_lines to_num lines None = Ok (All (m :: ms)) /\ mesh_of to_num d m.
Proof.
  intros Hf Hok HR _ HK. destruct (read_file_ok to_num lines (d :: ds) None Hf Hok HR HK) as (ms & E & F); [intros x Hx K; discriminate|].
  inversion F as [|? m ? ms' Hm Hms]; subst. exists m, ms'. auto.
Qed.
