(** Properties C65-C73, C139-C146: meshtal_analysis.py.  Vocabulary: SpecStr.v,
    SpecMcout.v (line_at, last_at), SpecMesh.v, SpecMesh2.v, FloatR.v and Float32.v
    (rounding).  [to_num] is pandas.to_numeric on one word. *)
From Coq Require Import Reals Lra Floats.SpecFloat.
From Verif Require Import PyBase PyFloat FloatR Float32 SpecStr SpecMcout PyFs PyFrame M_mesh SpecMesh SpecMesh2 P_mesh P_mesh2 P_mesh3 P_mesh4 P_mesh5 P_mesh6 P_mesh7 TextTac.

(** C65 *)
Theorem C65_nearest : forall value mids, mids <> [] ->
  exists m, find_nearest_mid value mids = Ok m /\ nearest value mids m.
Proof. exact find_nearest_mid_spec. Qed.
Print Assumptions C65_nearest.
Theorem C65_unique : forall value mids m m', nearest value mids m -> nearest value mids m' ->
  is_nan_f (distance m value) = false -> is_nan_f (distance m' value) = false -> m = m'.
Proof. exact nearest_unique. Qed.
Print Assumptions C65_unique.
Theorem C65_mid_points : forall bs xs, numbers bs xs ->
  Forall (fun x => valid x = true /\ is_finite_f x = true /\ (Rabs (FR x) <= 10 ^ 6)%R) xs ->
  exists ms, calc_mid_points bs = Ok ms /\ List.length ms = List.length bs - 1 /\
    forall i a b m, nth_error xs i = Some a -> nth_error xs (S i) = Some b -> nth_error ms i = Some m ->
      (Rabs (FR m - (FR a + FR b) / 2) <= 5001 / 10 ^ 9)%R /\ (FR a + 11 / 10 ^ 6 <= FR b -> FR a < FR m < FR b)%R.
Proof. exact mids_spec. Qed.
Print Assumptions C65_mid_points.
(** Mid points are rounded to five decimals, so that of a narrow bin can lie outside. *)
Theorem C65_narrow_bin_refuted : forall bs xs, numbers bs xs -> exists ms, calc_mid_points bs = Ok ms /\ List.length ms = List.length bs - 1 /\
  forall i a b m, nth_error xs i = Some a -> nth_error xs (S i) = Some b -> nth_error ms i = Some m ->
    is_finite_f a = true -> is_finite_f b = true -> (0 < FR a)%R -> (FR a < FR b)%R -> (FR b <= 4999 / 10 ^ 9)%R -> is_finite_f m = true /\ (FR m < FR a)%R.
Proof. exact narrow_bins. Qed.
Print Assumptions C65_narrow_bin_refuted.
Example C65_narrow_ex : exists bs a b m, numbers bs [a; b] /\ flt a b = true /\ calc_mid_points bs = Ok [m] /\ flt m a = true.
Proof. exact narrow_bin. Qed.
Example C65_ex : find_nearest_mid (f_of_Z 2) [f_of_Z 1; f_of_Z 3; fdec 25 (-1)] = Ok (fdec 25 (-1)) /\
  find_nearest_mid (f_of_Z 2) [f_of_Z 1; f_of_Z 3] = Ok (f_of_Z 1) /\
  calc_mid_points (map lit ["0.00"; "0.20"; "1e1"]%string) = Ok [fdec 1 (-1); fdec 51 (-1)].
Proof. vm_compute. repeat split. Qed.

(** C66 *)
Theorem C66_file : forall to_num f p text ds, read_text f p = Ok text -> mesh_file (file_lines text) ds -> Forall bounds_ok ds ->
  Forall (fun d => readable to_num (d_kind d) (d_rows d)) ds -> Forall (fun d => d_kind d <> ByEnergy) (tl ds) ->
  exists ms, read_meshtally_file to_num f p None = Ok (All ms) /\ Forall2 (mesh_of to_num) ds ms.
Proof. exact read_path_ok. Qed.
Print Assumptions C66_file.
Theorem C66_missing : forall to_num f p num e, read_text f p = Err e -> read_meshtally_file to_num f p num = Err e.
Proof. exact read_path_missing. Qed.
Print Assumptions C66_missing.
Example C66_ex :
  let lines := ex_title ++ ex_block "4" "neutron" ex_head_e ex_rows_e ++ ex_block "14" "photon" ex_head ex_rows in
  let ds := [ex_desc 4 "neutron" ByEnergy ex_words_e; ex_desc 14 "photon" Plain ex_words] in
  mesh_file lines ds /\ Forall bounds_ok ds /\ Forall (fun d => readable py_float (d_kind d) (d_rows d)) ds /\
  Forall (fun d => d_kind d <> ByEnergy) (tl ds) /\
  exists m1 m2, read_meshtally_lines py_float lines None = Ok (All [m1; m2]) /\ idnum m2 = Some 14%Z /\ y_mids m1 = [fdec 1 (-1)] /\
    exists s, pick_point (fdec 16 (-1)) fzero fzero m1 None None = Ok s /\ c_vals (s_col s) = [fdec 75 (-2)].
Proof.
  split; [eexists; eexists; split; [reflexivity|]; split; [exact ex_title_gap|]; split; [|discriminate]|].
  - apply (blocks_cons _ _ _ _ ex_block_e). rewrite <- (app_nil_r (ex_block "14" _ _ _)). apply (blocks_cons _ _ _ _ ex_block_p). apply blocks_nil.
  - split; [repeat constructor; apply ex_bounds|]. split; [repeat (apply Forall_cons; [apply ex_readable; vm_compute; reflexivity|]); apply Forall_nil|].
    split; [repeat constructor; discriminate|]. eexists. eexists. split; [vm_compute; reflexivity|]. split; [vm_compute; reflexivity|].
    split; [vm_compute; reflexivity|]. eexists. split; vm_compute; reflexivity.
Qed.

(** C67 *)
Theorem C67_refuted : forall to_num lines d ds, rejects_text to_num -> mesh_file lines (d :: ds) -> Forall bounds_ok (d :: ds) ->
  Exists (fun e => d_kind e = ByEnergy) ds -> read_meshtally_lines to_num lines None = Err ValueError.
Proof. exact second_energy_fails. Qed.
Print Assumptions C67_refuted.
Theorem C67_first_partial : forall to_num lines d ds, mesh_file lines (d :: ds) -> Forall bounds_ok (d :: ds) ->
  Forall (fun d => readable to_num (d_kind d) (d_rows d)) (d :: ds) -> d_kind d = ByEnergy -> Forall (fun d => d_kind d <> ByEnergy) ds ->
  exists m ms, read_meshtally_lines to_num lines None = Ok (All (m :: ms)) /\ mesh_of to_num d m.
Proof. exact read_first_energy. Qed.
Print Assumptions C67_first_partial.
Example C67_ex :
  let lines := ex_title ++ ex_block "4" "neutron" ex_head_e ex_rows_e ++ ex_block "34" "photon" ex_head_e ex_rows_e in
  let ds := [ex_desc 4 "neutron" ByEnergy ex_words_e; ex_desc 34 "photon" ByEnergy ex_words_e] in
  rejects_text py_float /\ mesh_file lines ds /\ Forall bounds_ok ds /\ read_meshtally_lines py_float lines None = Err ValueError.
Proof.
  split; [exact py_float_rejects|]. split; [eexists; eexists; split; [reflexivity|]; split; [exact ex_title_gap|]; split; [|discriminate]|].
  - apply (blocks_cons _ _ _ _ ex_block_e). rewrite <- (app_nil_r (ex_block "34" _ _ _)). apply (blocks_cons _ _ _ _ ex_block_e2). apply blocks_nil.
  - split; [repeat constructor; apply ex_bounds|]. vm_compute. reflexivity.
Qed.

(** C68 *)
Theorem C68_pick_point : forall x y z m erg time d cx cy cz cv,
  data m = Df d -> table d -> has d "x" cx -> has d "y" cy -> has d "z" cz -> has d "value" cv ->
  has_if_given d erg "Energy" -> has_if_given d time "Time" ->
  x_mids m <> [] -> y_mids m <> [] -> z_mids m <> [] ->
  exists mx my mz is s,
    nearest x (x_mids m) mx /\ nearest y (y_mids m) my /\ nearest z (z_mids m) mz /\
    selected (fun i => entry_is cx i mx /\ entry_is cy i my /\ entry_is cz i mz /\ et_filter d erg time i) (n_rows d) is /\
    pick_point x y z m erg time = Ok s /\ rows_of_series d cv is s.
Proof. exact pick_point_selects. Qed.
Print Assumptions C68_pick_point.
Theorem C68_extract_line : forall m a1 b1 c1 a2 b2 c2 erg time d cx cy cz cv,
  data m = Df d -> table d -> has d "x" cx -> has d "y" cy -> has d "z" cz -> has d "value" cv ->
  has_if_given d erg "Energy" -> has_if_given d time "Time" ->
  x_mids m <> [] -> y_mids m <> [] -> z_mids m <> [] ->
  exists mx my mz is s,
    nearest a1 (x_mids m) mx /\ nearest b1 (y_mids m) my /\ nearest c1 (z_mids m) mz /\
    selected (fun i => (feq a1 a2 = true -> entry_is cx i mx) /\ (feq b1 b2 = true -> entry_is cy i my) /\
                       (feq c1 c2 = true -> entry_is cz i mz) /\ et_filter d erg time i) (n_rows d) is /\
    extract_line m (a1, b1, c1) (a2, b2, c2) erg time = Ok s /\ rows_of_series d cv is s.
Proof. exact extract_line_selects. Qed.
Print Assumptions C68_extract_line.
Example C68_ex : let c := fun l => Col false (map f_of_Z l) in
  let d := Frame [0; 1; 2; 3] [(lit "Energy", c [1; 1; 2; 2]%Z); (lit "x", c [1; 3; 1; 3]%Z); (lit "y", c [0; 0; 0; 0]%Z); (lit "z", c [5; 5; 5; 5]%Z);
                               (lit "value", c [10; 11; 12; 13]%Z); (lit "rel_err", c [0; 0; 0; 0]%Z)] in
  let m := Mesh None None [] [] [] [] [] (Df d) [f_of_Z 1; f_of_Z 3] [f_of_Z 0] [f_of_Z 5] (Some (lit "6col_e")) in
  table d /\ pick_point (fdec 25 (-1)) fzero fzero m (Some (f_of_Z 2)) None = Ok (Series [3] (c [13]%Z)) /\
  pick_point fzero fzero fzero m None None = Ok (Series [0; 2] (c [10; 12]%Z)) /\
  extract_line m (fzero, fzero, fzero) (f_of_Z 9, fzero, fzero) (Some (f_of_Z 1)) None = Ok (Series [0; 1] (c [10; 11]%Z)).
Proof.
  cbv zeta. split; [split; [repeat constructor|]|vm_compute; repeat split]. intros name c H. cbn in H.
  repeat (destruct H as [H|H]; [injection H as <- <-; reflexivity|]). destruct H.
Qed.

(** C69: the values of a slice are those of the plane, column by column; the errors are
    taken from the rows whose coordinate on the other axis has the value. *)
Theorem C69_values_partial : forall m value p i j v erg time d ci cj cn cval cerr sl,
  plane_of p i j v -> data m = Df d -> table d ->
  has_if_given d erg "Energy" -> has_if_given d time "Time" ->
  has d (axis_name i) ci -> has d (axis_name j) cj -> has d (axis_name v) cn ->
  has d "value" cval -> has d "rel_err" cerr ->
  extract_slice m value p erg time = Ok sl ->
  nearest value (axis_mids m v) (sl_value sl) /\
  sl_i sl = axis_mids m i /\ sl_j sl = axis_mids m j /\
  Forall2 (fun x vs => line_entries d cval (fun r => (et_filter d erg time r /\ entry_is cn r (sl_value sl)) /\ entry_is ci r x) vs)
    (sl_i sl) (sl_values sl) /\
  Forall2 (fun x vs => line_entries d cerr (fun r => (et_filter d erg time r /\ entry_is cn r (sl_value sl)) /\ entry_is cj r x) vs)
    (sl_i sl) (sl_errors sl).
Proof. exact extract_slice_rows. Qed.
Print Assumptions C69_values_partial.
Theorem C69_errors_refuted : forall m value p i j v erg time d ci cj cn cval cerr sl,
  plane_of p i j v -> data m = Df d -> table d ->
  has_if_given d erg "Energy" -> has_if_given d time "Time" ->
  has d (axis_name i) ci -> has d (axis_name j) cj -> has d (axis_name v) cn ->
  has d "value" cval -> has d "rel_err" cerr ->
  (forall x r, In x (axis_mids m i) -> ~ entry_is cj r x) ->
  extract_slice m value p erg time = Ok sl -> Forall (fun vs => vs = []) (sl_errors sl).
Proof. exact extract_slice_errors_lost. Qed.
Print Assumptions C69_errors_refuted.
Theorem C69_plane : forall m value p, (forall i j v, ~ plane_of p i j v) -> extract_slice m value p None None = Err ValueError.
Proof. exact (fun m value p H => extract_slice_plane m value p None None H eq_refl eq_refl). Qed.
Print Assumptions C69_plane.
Example C69_ex : let c := fun l => Col false (map f_of_Z l) in
  let d := Frame [0; 1; 2; 3] [(lit "x", c [1; 1; 3; 3]%Z); (lit "y", c [6; 8; 6; 8]%Z); (lit "z", c [5; 5; 5; 5]%Z);
                               (lit "value", c [10; 11; 12; 13]%Z); (lit "rel_err", c [20; 21; 22; 23]%Z)] in
  let m := Mesh None None [] [] [] [] [] (Df d) [f_of_Z 1; f_of_Z 3] [f_of_Z 6; f_of_Z 8] [f_of_Z 5] (Some (lit "5col")) in
  table d /\ exists sl, extract_slice m fzero (lit "XY") None None = Ok sl /\
    sl_values sl = [map f_of_Z [10; 11]%Z; map f_of_Z [12; 13]%Z] /\ sl_errors sl = [[]; []].
Proof.
  cbv zeta. split; [split; [repeat constructor|]|eexists; vm_compute; repeat split]. intros name c H. cbn in H.
  repeat (destruct H as [H|H]; [injection H as <- <-; reflexivity|]). destruct H.
Qed.

(** C70 *)
Theorem C70_add : forall m1 m2 d1 d2 k v1 v2 r1 r2 g x y z xs ys zs, same_space m1 m2 -> k <> Plain ->
  ctype m1 = Some (ctype_name k) -> ctype m2 = Some (ctype_name k) -> bins k m1 = bins k m2 ->
  numbers (x_bounds m1) xs -> numbers (y_bounds m1) ys -> numbers (z_bounds m1) zs ->
  data m1 = Df d1 -> data m2 = Df d2 -> f_index d1 = f_index d2 ->
  has d1 "value" v1 -> has d2 "value" v2 -> has d1 "rel_err" r1 -> has d2 "rel_err" r2 ->
  has d1 (bin_name k) g -> has d1 "x" x -> has d1 "y" y -> has d1 "z" z ->
  exists m d v r, add_mesh m1 m2 = Ok m /\ same_space m1 m /\ ctype m = ctype m1 /\ bins k m = bins k m1 /\
    calc_mid_points (x_bounds m1) = Ok (x_mids m) /\ calc_mid_points (y_bounds m1) = Ok (y_mids m) /\ calc_mid_points (z_bounds m1) = Ok (z_mids m) /\
    data m = Df d /\ f_index d = f_index d1 /\
    has d (bin_name k) g /\ has d "x" x /\ has d "y" y /\ has d "z" z /\ has d "value" v /\ has d "rel_err" r /\
    (forall i a b, entry v1 i a -> entry v2 i b -> number_in v1 a -> number_in v2 b ->
       exists c, entry v i c /\ rounded_in (c_single v1 && c_single v2) (FR a + FR b) c) /\
    (forall i a b, entry r1 i a -> entry r2 i b -> number_in r1 a -> number_in r2 b ->
       exists c q1 q2 t, entry r i c /\
         rounded_in (c_single r1) (FR a * FR a) q1 /\ rounded_in (c_single r2) (FR b * FR b) q2 /\
         (is_finite_f q1 = true -> is_finite_f q2 = true -> rounded_in (c_single r1 && c_single r2) (FR q1 + FR q2) t /\
          (is_finite_f t = true -> FR c = rnd_in (c_single r1 && c_single r2) (sqrt (FR t)) /\ is_finite_f c = true))).
Proof. exact add_mesh_sums. Qed.
Print Assumptions C70_add.
Theorem C70_rejects : forall m1 m2,
  ~ same_space m1 m2 \/ ctype m1 <> ctype m2 \/ (exists k, ctype m1 = Some (ctype_name k) /\ bins k m1 <> bins k m2) ->
  add_mesh m1 m2 = Err ValueError.
Proof. exact add_mesh_rejects. Qed.
Print Assumptions C70_rejects.
Theorem C70_five_columns : forall m1 m2 d1 d2 v1 v2 r1 r2, same_space m1 m2 -> ctype m1 = Some (ctype_name Plain) -> ctype m2 = Some (ctype_name Plain) ->
  data m1 = Df d1 -> data m2 = Df d2 -> has d1 "value" v1 -> has d2 "value" v2 -> has d1 "rel_err" r1 -> has d2 "rel_err" r2 ->
  add_mesh m1 m2 = Err UnboundLocalError.
Proof. exact add_mesh_plain. Qed.
Print Assumptions C70_five_columns.
Example C70_ex : let c := fun l => Col true (map (fun n => fdec n (-2)) l) in
  let d := fun v r => Frame [0; 1] [(lit "Energy", c [100; 100]%Z); (lit "x", c [50; 150]%Z); (lit "y", c [50; 50]%Z); (lit "z", c [50; 50]%Z); (lit "value", c v); (lit "rel_err", c r)] in
  let b := map lit ["0"; "1"; "2"]%string in let b1 := map lit ["0"; "1"]%string in
  let m := fun v r bx => Mesh None None bx b1 b1 b1 [] (Df (d v r)) [] [] [] (Some (lit "6col_e")) in
  (exists s fr, add_mesh (m [25; 75] [300; 0] b)%Z (m [50; 125] [400; 25] b)%Z = Ok s /\ data s = Df fr /\ has fr "value" (c [75; 200]%Z) /\ has fr "rel_err" (c [500; 25]%Z)) /\
  add_mesh (m [25; 75] [300; 0] b)%Z (m [50; 125] [400; 25] b1)%Z = Err ValueError.
Proof.
  cbv zeta. split; [|vm_compute; reflexivity]. eexists. eexists. split; [vm_compute; reflexivity|]. split; [vm_compute; reflexivity|].
  split; apply column_get; vm_compute; reflexivity.
Qed.

(** C71 *)
Theorem C71_numbers : forall lines, (forall l, In l lines -> occurs number_text l -> exists n, header_of n l) ->
  exists d, find_mesh_tally_numbers lines = Ok d /\ NoDup (map fst d) /\
    forall n i, dict_get Z.eqb n d = Some i <-> last_at (header_of n) lines i.
Proof. exact numbers_dict. Qed.
Print Assumptions C71_numbers.
Theorem C71_next : forall n d, NoDup (map fst d) ->
  (d = [] -> find_next_mesh n d = Err IndexError) /\
  (d <> [] -> ~ In n (map fst d) -> find_next_mesh n d = Ok None) /\
  (In n (map fst d) -> (forall k, In k (map fst d) -> (k <= n)%Z) -> find_next_mesh n d = Ok (Some (-1)%Z)) /\
  (In n (map fst d) -> (exists k, In k (map fst d) /\ (n < k)%Z) ->
   exists k i, In (k, i) d /\ (n < k)%Z /\ (forall k', In k' (map fst d) -> (n < k')%Z -> (k <= k')%Z) /\
     find_next_mesh n d = Ok (Some (Z.of_nat i))).
Proof. exact find_next_spec. Qed.
Print Assumptions C71_next.
Example C71_ex : let l := [lit "x"; lit " Mesh Tally Number         14"; lit " Mesh Tally Number         4"; lit " Mesh Tally Number         104"] in
  find_mesh_tally_numbers l = Ok [(14%Z, 1); (4%Z, 2); (104%Z, 3)] /\
  find_next_mesh 14 [(14%Z, 1); (4%Z, 2); (104%Z, 3)] = Ok (Some 3%Z) /\ find_next_mesh 104 [(14%Z, 1); (4%Z, 2); (104%Z, 3)] = Ok (Some (-1)%Z).
Proof. vm_compute. repeat split. Qed.

(** C72: each cell of the arrays is the value (error) of the last row whose coordinates
    are exactly equal to the mid points, 0 if there is none. *)
Theorem C72_array_partial : forall m d n0 n1 n2 n3 n4 n5 g x y z v e, data m = Df d -> table d ->
  f_cols d = [(n0, g); (n1, x); (n2, y); (n3, z); (n4, v); (n5, e)] ->
  distinct_numbers (x_mids m) -> distinct_numbers (y_mids m) -> distinct_numbers (z_mids m) ->
  exists A E, convert_to_3d_array m = Ok (A, E) /\
    forall i j k xi yj zk, nth_error (x_mids m) i = Some xi -> nth_error (y_mids m) j = Some yj -> nth_error (z_mids m) k = Some zk ->
      ((exists p a b, entry v p a /\ entry e p b /\ lies_at x y z p xi yj zk /\ (forall p', lies_at x y z p' xi yj zk -> p' <= p) /\
          A i j k = a /\ E i j k = b) \/
       ((forall p, ~ lies_at x y z p xi yj zk) /\ A i j k = fzero /\ E i j k = fzero)).
Proof. exact array_spec. Qed.
Print Assumptions C72_array_partial.
(** A voxel whose mid point is not a binary32 number is lost when the coordinates are
    kept in binary32, as they are for every mesh read from a file with such numbers. *)
Theorem C72_lost_refuted : forall m d n0 n1 n2 n3 n4 n5 g x y z v e, data m = Df d -> table d ->
  f_cols d = [(n0, g); (n1, x); (n2, y); (n3, z); (n4, v); (n5, e)] ->
  distinct_numbers (x_mids m) -> distinct_numbers (y_mids m) -> distinct_numbers (z_mids m) ->
  (forall p a, entry x p a -> single a) ->
  exists A E, convert_to_3d_array m = Ok (A, E) /\
    forall i xi, nth_error (x_mids m) i = Some xi -> valid xi = true -> is_finite_f xi = true -> ~ single xi ->
    forall j k, j < List.length (y_mids m) -> k < List.length (z_mids m) -> A i j k = fzero /\ E i j k = fzero.
Proof. exact array_lost. Qed.
Print Assumptions C72_lost_refuted.
Theorem C72_five_columns : forall m d n1 n2 n3 n4 n5 x y z v e, data m = Df d -> f_index d <> [] ->
  f_cols d = [(n1, x); (n2, y); (n3, z); (n4, v); (n5, e)] -> convert_to_3d_array m = Err IndexError.
Proof. exact array_plain. Qed.
Print Assumptions C72_five_columns.
Example C72_ex :
  let lines := ex_title ++ ex_block "4" "neutron" ex_head_e ex_rows_e in
  let c := fun l => Col true (map f32 l) in
  let h := fdec 5 (-1) in let t := fdec 1 (-1) in
  let m := fun x => Mesh None None [] [] [] [] [] (Df (Frame [0] [(lit "Energy", c [f_of_Z 10]); (lit "x", c [x]); (lit "y", c [h]); (lit "z", c [h]); (lit "value", c [f_of_Z 7]); (lit "rel_err", c [h])]))
            [x] [h] [h] (Some (lit "6col_e")) in
  ~ single t /\ single h /\
  (exists A E, convert_to_3d_array (m h) = Ok (A, E) /\ A 0 0 0 = f_of_Z 7 /\ E 0 0 0 = h) /\
  (exists A E, convert_to_3d_array (m t) = Ok (A, E) /\ A 0 0 0 = fzero) /\
  exists m1 A E, read_meshtally_lines py_float lines None = Ok (All [m1]) /\ convert_to_3d_array m1 = Ok (A, E) /\ A 1 0 0 = fzero.
Proof.
  cbv zeta. split; [exact tenth_not_single|]. split; [exact half_single|]. split; [eexists; eexists; vm_compute; repeat split|].
  split; [eexists; eexists; vm_compute; repeat split|]. eexists. eexists. eexists. split; [vm_compute; reflexivity|]. split; vm_compute; reflexivity.
Qed.

(** C73 *)
Theorem C73_upper : forall m d v r, data m = Df d -> has d "value" v -> has d "rel_err" r ->
  exists m' d' u, calculate_upper_mesh_vals m = Ok m' /\ same_mesh m m' /\ data m' = Df d' /\ same_table_but "max_vals" d d' /\ has d' "max_vals" u /\
    forall i x e, entry v i x -> entry r i e -> number_in v x -> number_in r e -> non_negative x -> non_negative e ->
      exists y p, entry u i y /\ fle x y = true /\ rounded_in (c_single v && c_single r) (FR x * FR e) p /\
        (is_finite_f p = true -> rounded_in (c_single v && c_single r) (FR x + FR p) y).
Proof. exact upper_vals. Qed.
Print Assumptions C73_upper.
Theorem C73_lower : forall m d v r, data m = Df d -> has d "value" v -> has d "rel_err" r ->
  exists m' d' u, calculate_lower_mesh_vals m = Ok m' /\ same_mesh m m' /\ data m' = Df d' /\ same_table_but "min_vals" d d' /\ has d' "min_vals" u /\
    forall i x e, entry v i x -> entry r i e -> number_in v x -> number_in r e -> non_negative x -> non_negative e ->
      exists y p, entry u i y /\ fle y x = true /\ rounded_in (c_single v && c_single r) (FR x * FR e) p /\
        (is_finite_f p = true -> rounded_in (c_single v && c_single r) (FR x - FR p) y).
Proof. exact lower_vals. Qed.
Print Assumptions C73_lower.
Example C73_ex : let c := fun l => Col true (map (fun n => fdec n (-2)) l) in
  let d := Frame [0; 1] [(lit "value", c [200; 100]%Z); (lit "rel_err", c [50; 25]%Z)] in
  let m := Mesh None None [] [] [] [] [] (Df d) [] [] [] (Some (lit "5col")) in
  exists mu du ml dl, calculate_upper_mesh_vals m = Ok mu /\ data mu = Df du /\ has du "max_vals" (c [300; 125]%Z) /\
    calculate_lower_mesh_vals m = Ok ml /\ data ml = Df dl /\ has dl "min_vals" (c [100; 75]%Z).
Proof.
  cbv zeta. eexists. eexists. eexists. eexists. split; [vm_compute; reflexivity|]. split; [vm_compute; reflexivity|].
  split; [apply column_get; vm_compute; reflexivity|]. split; [vm_compute; reflexivity|]. split; [vm_compute; reflexivity|]. apply column_get; vm_compute; reflexivity.
Qed.

(** C139: reading one mesh of a file. *)
Theorem C139_selected : forall to_num lines ds1 d d2 ds2, mesh_file lines (ds1 ++ d :: d2 :: ds2) -> Forall bounds_ok (ds1 ++ [d]) ->
  (forall x, In x ds1 -> d_num x <> d_num d) ->
  exists m, read_meshtally_lines to_num lines (Some (d_num d)) = Ok (One m) /\ mesh_head d m /\ data m = Raw (d_rows d).
Proof. exact read_one. Qed.
Print Assumptions C139_selected.
(** Its data are not a table, so that no value can be picked. *)
Theorem C139_usable_refuted : forall to_num lines ds1 d d2 ds2, mesh_file lines (ds1 ++ d :: d2 :: ds2) -> Forall bounds_ok (ds1 ++ [d]) ->
  (forall x, In x ds1 -> d_num x <> d_num d) -> 2 <= List.length (d_x d) -> 2 <= List.length (d_y d) -> 2 <= List.length (d_z d) ->
  exists m, read_meshtally_lines to_num lines (Some (d_num d)) = Ok (One m) /\
    forall x y z erg time, pick_point x y z m erg time = Err TypeError.
Proof. exact read_one_useless. Qed.
Print Assumptions C139_usable_refuted.
(** The last mesh, or one that is not there: all meshes are returned. *)
Theorem C139_last : forall to_num lines ds num, mesh_file lines ds -> Forall bounds_ok ds ->
  Forall (fun d => readable to_num (d_kind d) (d_rows d)) ds -> Forall (fun d => d_kind d <> ByEnergy) (tl ds) ->
  (forall d, In d (removelast ds) -> d_num d <> num) ->
  exists ms, read_meshtally_lines to_num lines (Some num) = Ok (All ms) /\ Forall2 (mesh_of to_num) ds ms.
Proof. exact read_last. Qed.
Print Assumptions C139_last.
Example C139_ex : let lines := ex_title ++ ex_block "4" "neutron" ex_head_e ex_rows_e ++ ex_block "14" "photon" ex_head ex_rows in
  (exists m, read_meshtally_lines py_float lines (Some 4%Z) = Ok (One m) /\ idnum m = Some 4%Z /\ pick_point fzero fzero fzero m None None = Err TypeError) /\
  exists m1 m2, read_meshtally_lines py_float lines (Some 14%Z) = Ok (All [m1; m2]).
Proof. cbv zeta. split; [eexists; split; [vm_compute; reflexivity|]; split; vm_compute; reflexivity|]. eexists. eexists. vm_compute. reflexivity. Qed.

(** C140: a blank line in the table becomes a row of NaN. *)
Theorem C140_refuted : forall to_num d m i, mesh_of to_num d m -> nth_error (d_rows d) i = Some [] ->
  exists fr p, data m = Df fr /\ nth_error (f_index fr) p = Some i /\
    forall name c, In (name, c) (f_cols fr) -> nth_error (c_vals c) p = Some S754_nan.
Proof. exact blank_row_of. Qed.
Print Assumptions C140_refuted.
Example C140_ex : let lines := ex_title ++ ex_block "24" "neutron" ex_head (ex_rows ++ [""%string]) in
  mesh_file lines [ex_desc 24 "neutron" Plain (ex_words ++ [[]])] /\
  exists m fr, read_meshtally_lines py_float lines None = Ok (All [m]) /\ data m = Df fr /\ f_index fr = [0; 1; 2] /\ number_voxels m = 2.
Proof.
  cbv zeta. split.
  - eexists. eexists. split; [reflexivity|]. split; [exact ex_title_gap|]. split; [|discriminate].
    rewrite <- (app_nil_r (ex_block "24" _ _ _)). apply (blocks_cons _ _ _ _ ex_block_b). apply blocks_nil.
  - eexists. eexists. split; [vm_compute; reflexivity|]. split; [vm_compute; reflexivity|]. split; vm_compute; reflexivity.
Qed.

(** C141: an energy mesh with rows of totals cannot be read. *)
Theorem C141_refuted : forall to_num lines d ds r w ws e, rejects_text to_num -> mesh_file lines (d :: ds) -> Forall bounds_ok (d :: ds) ->
  d_kind d = ByEnergy -> In r (d_rows d) -> r = w :: ws -> to_num w = Err e -> read_meshtally_lines to_num lines None = Err ValueError.
Proof. exact energy_total_fails. Qed.
Print Assumptions C141_refuted.
Example C141_ex : let lines := ex_title ++ ex_block "4" "neutron" ex_head_e (ex_rows_e ++ ["   Total       0.500     0.100     0.000 2.50000E-01 5.00000E-01"%string]) in
  mesh_file lines [ex_desc 4 "neutron" ByEnergy (ex_words_e ++ [["Total"; "0.500"; "0.100"; "0.000"; "2.50000E-01"; "5.00000E-01"]%string])] /\
  read_meshtally_lines py_float lines None = Err ValueError.
Proof.
  cbv zeta. split; [|vm_compute; reflexivity]. eexists. eexists. split; [reflexivity|]. split; [exact ex_title_gap|]. split; [|discriminate].
  rewrite <- (app_nil_r (ex_block "4" _ _ _)). apply (blocks_cons _ _ _ _ ex_block_t). apply blocks_nil.
Qed.

(** C142: where both values are positive (and each at least a millionth of the sum), the error
    given is larger than the propagated one, sqrt((p a)^2 + (q b)^2) / (p + q). *)
Theorem C142_too_large_refuted : forall m1 m2 d1 d2 k v1 v2 r1 r2 g x y z xs ys zs, same_space m1 m2 -> k <> Plain ->
  ctype m1 = Some (ctype_name k) -> ctype m2 = Some (ctype_name k) -> bins k m1 = bins k m2 ->
  numbers (x_bounds m1) xs -> numbers (y_bounds m1) ys -> numbers (z_bounds m1) zs ->
  data m1 = Df d1 -> data m2 = Df d2 -> f_index d1 = f_index d2 ->
  has d1 "value" v1 -> has d2 "value" v2 -> has d1 "rel_err" r1 -> has d2 "rel_err" r2 ->
  has d1 (bin_name k) g -> has d1 "x" x -> has d1 "y" y -> has d1 "z" z ->
  exists m d r, add_mesh m1 m2 = Ok m /\ data m = Df d /\ has d "rel_err" r /\
    forall i p q a b, entry v1 i p -> entry v2 i q -> entry r1 i a -> entry r2 i b -> number_in r1 a -> number_in r2 b ->
      (0 < FR p)%R -> (0 < FR q)%R -> ((FR p + FR q) / 10 ^ 6 <= FR p)%R -> ((FR p + FR q) / 10 ^ 6 <= FR q)%R ->
      (FR a = 0 \/ / 2 ^ 50 <= FR a <= 2 ^ 50)%R -> (FR b = 0 \/ / 2 ^ 50 <= FR b <= 2 ^ 50)%R -> (0 < FR a + FR b)%R ->
      exists c, entry r i c /\ is_finite_f c = true /\
        (sqrt (FR p * FR a * (FR p * FR a) + FR q * FR b * (FR q * FR b)) / (FR p + FR q) < FR c)%R.
Proof. exact add_error_large. Qed.
Print Assumptions C142_too_large_refuted.
Example C142_ex : exists m1 m2 d1 d2 v e m d r c,
  data m1 = Df d1 /\ data m2 = Df d2 /\ has d1 "value" v /\ has d2 "value" v /\ has d1 "rel_err" e /\ has d2 "rel_err" e /\
  c_vals v = [f_of_Z 1] /\ c_vals e = [fdec 5 (-1)] /\
  add_mesh m1 m2 = Ok m /\ data m = Df d /\ has d "rel_err" r /\ entry r 0 c /\
  (* propagated: sqrt((1 * 0.5)^2 + (1 * 0.5)^2) / (1 + 1) < 0.36 *)
  flt (fdec 7 (-1)) c = true.
Proof. exact sum_error_wrong. Qed.

(** C143 *)
Theorem C143_uniform : forall bs xs, numbers bs xs -> 2 <= List.length bs ->
  (check_uniform bs = Ok true <-> evenly_spaced xs) /\ exists u, check_uniform bs = Ok u.
Proof. exact check_uniform_spec. Qed.
Print Assumptions C143_uniform.
Theorem C143_volume : forall m xs ys zs a1 b1 l1 a2 b2 l2 a3 b3 l3,
  numbers (x_bounds m) xs -> numbers (y_bounds m) ys -> numbers (z_bounds m) zs ->
  evenly_spaced xs -> evenly_spaced ys -> evenly_spaced zs ->
  xs = a1 :: b1 :: l1 -> ys = a2 :: b2 :: l2 -> zs = a3 :: b3 :: l3 ->
  voxel_uniform_volume m = Ok (fmul (fmul (fabs (fsub b1 a1)) (fabs (fsub b2 a2))) (fabs (fsub b3 a3))).
Proof. exact uniform_volume. Qed.
Print Assumptions C143_volume.
Theorem C143_average_refuted : forall m xs ys zs,
  numbers (x_bounds m) xs -> numbers (y_bounds m) ys -> numbers (z_bounds m) zs ->
  2 <= List.length xs -> 2 <= List.length ys -> 2 <= List.length zs ->
  ~ (evenly_spaced xs /\ evenly_spaced ys /\ evenly_spaced zs) -> voxel_uniform_volume m = Err TypeError.
Proof. exact nonuniform_volume. Qed.
Print Assumptions C143_average_refuted.
Theorem C143_voxels : forall to_num d m, mesh_of to_num d m ->
  number_voxels m = (List.length (d_x d) - 1) * (List.length (d_y d) - 1) * (List.length (d_z d) - 1).
Proof. exact number_voxels_of. Qed.
Print Assumptions C143_voxels.
Example C143_ex : let m := fun x => Mesh None None (map lit x) (map lit ["0"; "0.5"]%string) (map lit ["0"; "2"]%string) [] [] (Raw []) [] [] [] None in
  voxel_uniform_volume (m ["0"; "3"; "6"; "9"]%string) = Ok (f_of_Z 3) /\ voxel_uniform_volume (m ["0"; "3"; "7"]%string) = Err TypeError.
Proof. vm_compute. split; reflexivity. Qed.

(** C144 *)
Theorem C144_zeros : forall m d c n, data m = Df d -> has d "value" c -> zeros_in (c_vals c) n ->
  count_zeros m = match n with O => Err KeyError | _ => Ok n end.
Proof. exact count_zeros_spec. Qed.
Print Assumptions C144_zeros.
Example C144_ex : let m := fun l => Mesh None None [] [] [] [] [] (Df (Frame [0; 1; 2] [(lit "value", Col true l)])) [] [] [] None in
  count_zeros (m [fzero; fdec 1 (-3); fzero]) = Ok 2 /\ count_zeros (m [f_of_Z 1; f_of_Z 1; f_of_Z 2]) = Err KeyError.
Proof. vm_compute. split; reflexivity. Qed.

(** C145: a filter for energy 0 or time 0 selects every energy or time. *)
Theorem C145_energy_refuted : forall x y z m time e, is_zero_f e = true -> pick_point x y z m (Some e) time = pick_point x y z m None time.
Proof. exact pick_zero_energy. Qed.
Print Assumptions C145_energy_refuted.
Theorem C145_time_refuted : forall x y z m erg t, is_zero_f t = true -> pick_point x y z m erg (Some t) = pick_point x y z m erg None.
Proof. exact pick_zero_time. Qed.
Print Assumptions C145_time_refuted.

(** C146: in a column whose numbers are at most 1000, numbers below 2^-150 become 0. *)
Theorem C146_small_refuted : forall to_num d m fr name c j, mesh_of to_num d m -> data m = Df fr -> has fr name c ->
  nth_error (col_names (d_kind d)) j = Some (lit name) ->
  (forall r v, In r (d_rows d) -> cell to_num r j v -> valid v = true /\ (Rabs (FR v) <= 1000)%R) ->
  forall p i r v, nth_error (f_index fr) p = Some i -> nth_error (d_rows d) i = Some r -> cell to_num r j v -> is_finite_f v = true ->
    (Rabs (FR v) < / 2 ^ 150)%R -> exists y, entry c p y /\ is_finite_f y = true /\ (FR y = 0)%R.
Proof. exact small_is_zero. Qed.
Print Assumptions C146_small_refuted.
(** What does hold: 0 and numbers from 2^-126 to 2^127 keep single precision. *)
Theorem C146_precision_partial : forall to_num d m fr name c j, mesh_of to_num d m -> data m = Df fr -> has fr name c ->
  nth_error (col_names (d_kind d)) j = Some (lit name) ->
  forall p i r v, nth_error (f_index fr) p = Some i -> nth_error (d_rows d) i = Some r -> cell to_num r j v -> is_finite_f v = true ->
    (FR v = 0 \/ / 2 ^ 126 <= Rabs (FR v) <= 2 ^ 127)%R -> exists y, entry c p y /\ is_finite_f y = true /\ (Rabs (FR y - FR v) <= / 2 ^ 24 * Rabs (FR v))%R.
Proof. exact precision_is_kept. Qed.
Print Assumptions C146_precision_partial.
Example C146_ex : exists m fr c, read_meshtally_lines py_float
    (ex_title ++ ex_block "14" "photon" ex_head ["     0.500     0.100     0.000 2.50000E-50 5.00000E-01"%string]) None = Ok (All [m]) /\
  data m = Df fr /\ has fr "value" c /\ c_vals c = [fzero].
Proof. exact small_value_lost. Qed.
